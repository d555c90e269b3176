(** The representation invariant of the DwHash.c table and its preservation. *)
From Coq Require Import Permutation.
From Verif Require Import CBase Bits ModelDwHash SpecCache ProofRing ProofDwHashFila ProofDwHashChain.

Definition dat (h : hash) (a : Z) := odata (h_elems h a).

Section Inv.
Context (H : list Z -> Z) (Hpos : forall k, 0 <= H k).

Definition bkt (mask : Z) (k : list Z) : Z := Z.land (H k) mask.

Definition ent_at (m : Z -> option fila) (h : hash) (f : Z) (en : centry) : Prop :=
  exists a, recof m f = Some a /\ dat h a = Some (c_key en, c_val en, f, 0, c_exp en).
Definition perm_at (h : hash) (a : Z) (en : centry) : Prop :=
  dat h a = Some (c_key en, c_val en, 0, 1, 0) /\ c_exp en = 0.

(** [x] is the address of an element that is allocated but not yet in the table
    (0 when there is none).  [C i] is the chain of bucket [i], [F] the ring from its
    head, [P] the permanent elements. *)
Record Inv (x : Z) (h : hash) (C : Z -> list Z) (F P : list Z) (rc pm : list centry) : Prop := {
  iv_mask : 0 <= h_mask h;
  iv_tab : zlen (h_tab h) = h_mask h + 2;
  iv_chain : forall i, 0 <= i <= h_mask h ->
    exists p, zget (h_tab h) i = Some p /\ chain (h_elems h) (PBucket i) p (C i);
  iv_nodup : forall i, NoDup (C i);
  iv_inC : forall i a, In a (C i) -> a <> x /\ 0 <= i <= h_mask h /\
    exists k v f im ex, dat h a = Some (k, v, f, im, ex) /\ bkt (h_mask h) k = i;
  iv_dom : forall a k v f im ex, a <> x -> dat h a = Some (k, v, f, im, ex) ->
    In a (C (bkt (h_mask h) k)) /\ (In a P \/ (In f F /\ recof (h_filas h) f = Some a));
  iv_keys : forall a b k v f im ex v' f' im' ex', a <> x -> b <> x ->
    dat h a = Some (k, v, f, im, ex) -> dat h b = Some (k, v', f', im', ex') -> a = b;
  iv_addr : forall a, h_elems h a <> None -> 0 < a < h_brk h;
  iv_fila : FilaOK h F;
  iv_absF : Forall2 (ent_at (h_filas h) h) F rc;
  iv_absP : Forall2 (perm_at h) P pm;
  iv_pnodup : NoDup P;
  iv_px : ~ In x P;
  iv_xrec : forall f, recof (h_filas h) f <> Some x;
  iv_size : h_size h = zlen F + zlen P;
  iv_brk : 0 < h_brk h;
  iv_exp : Forall (fun e => 0 < c_exp e) rc }.

Lemma bkt_range m k : 0 <= m -> 0 <= bkt m k <= m.
Proof.
  intros Hm. unfold bkt. specialize (Hpos k). split; [apply Z.land_nonneg; lia|].
  destruct (Z.eq_dec m 0) as [->|N]; [rewrite Z.land_0_r; lia|].
  rewrite Z.land_comm. apply Z.lt_succ_r. 
  assert (Z.land m (H k) <= m); [|lia].
  apply Z.ldiff_le; [lia|]. rewrite Z.ldiff_land.
  apply Z.bits_inj'. intros n Hn. rewrite !Z.land_spec, Z.bits_0.
  rewrite Z.lnot_spec by lia. destruct (Z.testbit m n), (Z.testbit (H k) n); reflexivity.
Qed.

Lemma dat_some h a d : dat h a = Some d -> exists e, h_elems h a = Some e /\ edata e = d.
Proof. unfold dat, odata. destruct (h_elems h a) as [e|]; cbn; [|discriminate]. intros E. injection E as <-. eauto. Qed.
Lemma dat_elem h a e : h_elems h a = Some e -> dat h a = Some (e_key e, e_val e, e_fila e, e_imm e, e_exp e).
Proof. unfold dat, odata. intros ->. reflexivity. Qed.

Lemma Forall2_In_l {A B} (R : A -> B -> Prop) l l' x : Forall2 R l l' -> In x l -> exists y, In y l' /\ R x y.
Proof. induction 1; intros []; subst; [eexists; split; [left; reflexivity|assumption]|]. destruct (IHForall2 H2) as (z & ? & ?). exists z. split; [right|]; assumption. Qed.
Lemma Forall2_In_r {A B} (R : A -> B -> Prop) l l' y : Forall2 R l l' -> In y l' -> exists x, In x l /\ R x y.
Proof. induction 1; intros []; subst; [eexists; split; [left; reflexivity|assumption]|]. destruct (IHForall2 H2) as (z & ? & ?). exists z. split; [right|]; assumption. Qed.

Lemma Forall2_impl_In {A B} (R S : A -> B -> Prop) l l' :
  (forall x y, In x l -> In y l' -> R x y -> S x y) -> Forall2 R l l' -> Forall2 S l l'.
Proof.
  intros HI HF. induction HF as [|a b l l' Hab HF IH]; constructor.
  - apply HI; [left; reflexivity|left; reflexivity|exact Hab].
  - apply IH. intros x y Hx Hy. apply HI; right; assumption.
Qed.
Lemma Forall2_impl {A B} (R S : A -> B -> Prop) l l' :
  (forall x y, R x y -> S x y) -> Forall2 R l l' -> Forall2 S l l'.
Proof. intros HI. apply Forall2_impl_In. auto. Qed.

Lemma FilaOK_ext h h' F : h_filas h' = h_filas h -> h_fila h' = h_fila h -> h_brk h <= h_brk h' ->
  FilaOK h F -> FilaOK h' F.
Proof.
  intros E1 E2 E3 [A1 A2 A3 A4 A5]. constructor; rewrite ?E1, ?E2; try assumption.
  intros f Hf. specialize (A4 f Hf). lia.
Qed.

Lemma find_unique k RA en RB : c_key en = k -> (forall e, In e RA -> c_key e <> k) ->
  c_find k (RA ++ en :: RB) = Some en.
Proof.
  intros Hk HA. unfold c_find. induction RA as [|e RA IH]; cbn [app find].
  - rewrite Hk, zlist_eqb_refl. reflexivity.
  - destruct (zlist_eqb k (c_key e)) eqn:E; [apply zlist_eqb_spec in E; exfalso; apply (HA e); [left; reflexivity|congruence]|].
    apply IH. intros e' He'. apply HA. right. exact He'.
Qed.
Lemma find_none k l : (forall e, In e l -> c_key e <> k) -> c_find k l = None.
Proof.
  intros HA. unfold c_find. induction l as [|e l IH]; cbn [find]; [reflexivity|].
  destruct (zlist_eqb k (c_key e)) eqn:E; [apply zlist_eqb_spec in E; exfalso; apply (HA e); [left; reflexivity|congruence]|].
  apply IH. intros e' He'. apply HA. right. exact He'.
Qed.
Lemma remove_none k l : (forall e, In e l -> c_key e <> k) -> c_remove k l = l.
Proof.
  intros HA. unfold c_remove. induction l as [|e l IH]; cbn [filter]; [reflexivity|].
  destruct (zlist_eqb k (c_key e)) eqn:E; [apply zlist_eqb_spec in E; exfalso; apply (HA e); [left; reflexivity|congruence]|].
  cbn [negb]. f_equal. apply IH. intros e' He'. apply HA. right. exact He'.
Qed.
Lemma remove_unique k RA en RB : c_key en = k -> (forall e, In e (RA ++ RB) -> c_key e <> k) ->
  c_remove k (RA ++ en :: RB) = RA ++ RB.
Proof.
  intros Hk HA. unfold c_remove. rewrite filter_app. cbn [filter]. rewrite Hk, zlist_eqb_refl. cbn [negb].
  f_equal; apply remove_none; intros e He; apply HA; apply in_app_iff; tauto.
Qed.

Section Facts.
Context {x h C F P rc pm} (I : Inv x h C F P rc pm).

Lemma recent_live f en : ent_at (h_filas h) h f en ->
  exists a, a <> x /\ recof (h_filas h) f = Some a /\ dat h a = Some (c_key en, c_val en, f, 0, c_exp en).
Proof.
  intros (a & Hr & Hd). exists a. split; [|auto]. intros ->. exact (iv_xrec _ _ _ _ _ _ _ I _ Hr).
Qed.

Lemma perm_live en : In en pm -> exists a, In a P /\ a <> x /\ dat h a = Some (c_key en, c_val en, 0, 1, 0).
Proof.
  intros Hin. destruct (Forall2_In_r _ _ _ _ (iv_absP _ _ _ _ _ _ _ I) Hin) as (a & Ha & Hd & _).
  exists a. split; [exact Ha|]. split; [|exact Hd]. intros ->. exact (iv_px _ _ _ _ _ _ _ I Ha).
Qed.

Definition absent (k : list Z) : Prop := forall a v f im ex, a <> x -> dat h a <> Some (k, v, f, im, ex).

Lemma absent_find k : absent k -> c_find k rc = None /\ c_find k pm = None /\ c_remove k rc = rc.
Proof.
  intros HA.
  assert (forall e, In e rc -> c_key e <> k) as H1.
  { intros e He E. destruct (Forall2_In_r _ _ _ _ (iv_absF _ _ _ _ _ _ _ I) He) as (f & Hf & HE).
    destruct (recent_live f e HE) as (a & Ha & _ & Hd). rewrite E in Hd. exact (HA _ _ _ _ _ Ha Hd). }
  split; [apply find_none; exact H1|]. split; [|apply remove_none; exact H1].
  apply find_none. intros e He E. destruct (perm_live e He) as (a & _ & Ha & Hd). rewrite E in Hd. exact (HA _ _ _ _ _ Ha Hd).
Qed.

Lemma locate a k v f im ex : a <> x -> dat h a = Some (k, v, f, im, ex) ->
  (exists en, c_find k pm = Some en /\ c_val en = v /\ im = 1 /\ ex = 0 /\ f = 0 /\ In a P) \/
  (exists A B RA RB, F = A ++ f :: B /\ rc = RA ++ mkentry k v ex :: RB /\
     Forall2 (ent_at (h_filas h) h) A RA /\ Forall2 (ent_at (h_filas h) h) B RB /\
     c_find k rc = Some (mkentry k v ex) /\ c_remove k rc = RA ++ RB /\ c_find k pm = None /\
     im = 0 /\ recof (h_filas h) f = Some a /\ ~ In a P).
Proof.
  intros Hax Hd. destruct (iv_dom _ _ _ _ _ _ _ I _ _ _ _ _ _ Hax Hd) as [_ [HP|[HF HR]]].
  - left. destruct (in_split _ _ HP) as (PA & PB & EP).
    pose proof (iv_absP _ _ _ _ _ _ _ I) as HAP. rewrite EP in HAP.
    apply Forall2_app_inv_l in HAP as (QA & Q & HQA & HQ & EQ).
    inversion HQ as [|? en ? QB [Hen Hex] HQB]; subst.
    rewrite Hd in Hen. injection Hen as -> -> -> -> ->.
    exists en. split.
    + apply find_unique; [reflexivity|]. intros e He E.
      destruct (Forall2_In_r _ _ _ _ HQA He) as (a' & Ha' & Hd' & _). rewrite E in Hd'.
      assert (a' = a).
      { eapply (iv_keys _ _ _ _ _ _ _ I); [| |exact Hd'|exact Hd]; [|exact Hax].
        intros ->. apply (iv_px _ _ _ _ _ _ _ I). apply in_app_iff. left. exact Ha'. }
      subst a'. pose proof (iv_pnodup _ _ _ _ _ _ _ I) as HN. apply NoDup_remove_2 in HN. apply HN.
      apply in_app_iff. left. exact Ha'.
    + repeat split; auto.
  - right. destruct (in_split _ _ HF) as (A & B & EF).
    pose proof (iv_absF _ _ _ _ _ _ _ I) as HAF. rewrite EF in HAF.
    apply Forall2_app_inv_l in HAF as (RA & R & HRA & HRR & ER).
    inversion HRR as [|? en ? RB Hen HRB]; subst l x0 R.
    destruct Hen as (a' & Hr' & Hd'). rewrite HR in Hr'. injection Hr' as <-.
    rewrite Hd in Hd'. destruct en as [k' v' ex']. cbn in Hd'. injection Hd' as <- <- -> <-.
    assert (forall f' e, ent_at (h_filas h) h f' e -> c_key e = k -> f' = f) as UN.
    { intros f' e HE E. destruct (recent_live f' e HE) as (b & Hbx & _ & Hdb). rewrite E in Hdb.
      assert (b = a) by (eapply (iv_keys _ _ _ _ _ _ _ I); [| |exact Hdb|exact Hd]; assumption).
      subst b. congruence. }
    pose proof (fo_nodup _ _ (iv_fila _ _ _ _ _ _ _ I)) as HN. rewrite EF in HN. apply NoDup_remove_2 in HN.
    assert (forall e, In e (RA ++ RB) -> c_key e <> k) as HK.
    { intros e He E. apply HN. apply in_app_iff. apply in_app_iff in He as [He|He].
      - destruct (Forall2_In_r _ _ _ _ HRA He) as (f' & Hf' & HE). rewrite (UN _ _ HE E) in Hf'. left. exact Hf'.
      - destruct (Forall2_In_r _ _ _ _ HRB He) as (f' & Hf' & HE). rewrite (UN _ _ HE E) in Hf'. right. exact Hf'. }
    assert (~ In a P) as HNP.
    { intros C0. destruct (Forall2_In_l _ _ _ _ (iv_absP _ _ _ _ _ _ _ I) C0) as (en & _ & HE & _). rewrite Hd in HE. discriminate. }
    exists A, B, RA, RB. split; [exact EF|]. split; [exact ER|]. split; [exact HRA|]. split; [exact HRB|].
    split; [rewrite ER; apply find_unique; [reflexivity|intros e He; apply HK; apply in_app_iff; left; exact He]|].
    split; [rewrite ER; apply remove_unique; [reflexivity|exact HK]|].
    split; [|auto].
    apply find_none. intros e He E. destruct (perm_live e He) as (b & HbP & Hbx & Hdb). rewrite E in Hdb.
    assert (b = a) by (eapply (iv_keys _ _ _ _ _ _ _ I); [| |exact Hdb|exact Hd]; assumption).
    subst b. contradiction.
Qed.

Lemma grep_ok k : (length (C (bkt (h_mask h) k)) <= GREP_MAX)%nat ->
  exists a, dwh_grep H h k = Ok a /\
    ((a = 0 /\ absent k) \/
     (a <> 0 /\ a <> x /\ exists v f im ex, dat h a = Some (k, v, f, im, ex))).
Proof.
  intros HL. unfold dwh_grep, bucket. fold (bkt (h_mask h) k).
  destruct (iv_chain _ _ _ _ _ _ _ I (bkt (h_mask h) k)) as (p & Hp & HC).
  { apply bkt_range. exact (iv_mask _ _ _ _ _ _ _ I). }
  rewrite (rd_of_zget _ _ _ Hp). cbn [bind].
  destruct (grep_loop_ok h k _ _ _ _ HC HL) as (a & -> & Ha). exists a. split; [reflexivity|].
  destruct Ha as [[-> Ha]|(Ha & Ha0 & e & He & Hk)].
  - left. split; [reflexivity|]. intros b v f im ex Hbx Hd.
    destruct (iv_dom _ _ _ _ _ _ _ I _ _ _ _ _ _ Hbx Hd) as [HIn _].
    apply dat_some in Hd as (e & He & Hed). apply (Ha b e HIn He). unfold edata in Hed. congruence.
  - right. split; [exact Ha0|]. destruct (iv_inC _ _ _ _ _ _ _ I _ _ Ha) as (Hx & _). split; [exact Hx|].
    rewrite (dat_elem _ _ _ He), Hk. eauto.
Qed.

Lemma remove_inv a k v f ex A B RA RB CA CB eh' tab' p' m hf i :
  a <> x -> dat h a = Some (k, v, f, 0, ex) -> i = bkt (h_mask h) k ->
  F = A ++ f :: B -> rc = RA ++ mkentry k v ex :: RB ->
  Forall2 (ent_at (h_filas h) h) A RA -> Forall2 (ent_at (h_filas h) h) B RB ->
  recof (h_filas h) f = Some a -> ~ In a P ->
  C i = CA ++ a :: CB ->
  zlen tab' = zlen (h_tab h) -> zget tab' i = Some p' ->
  (forall j, j <> i -> zget tab' j = zget (h_tab h) j) ->
  chain eh' (PBucket i) p' (CA ++ CB) ->
  (forall b, ~ In b (CA ++ CB) -> eh' b = h_elems h b) ->
  (forall b, odata (eh' b) = odata (h_elems h b)) ->
  FilaOK (set_fila (set_filas h m) hf) (A ++ B) ->
  (forall g, g <> f -> recof m g = recof (h_filas h) g) -> m f = None ->
  Inv x (mkhash (upd eh' a None) m (h_brk h) hf tab' (h_mask h) (h_size h - 1) (h_max h))
      (upd C i (CA ++ CB)) (A ++ B) P (RA ++ RB) pm.
Proof.
  intros Hax Hd Ei EF ER HRA HRB Hrf HaP EC HTL HTi HTj HCh Hfr Hod HFO Hrm Hmf.
  pose proof (iv_nodup _ _ _ _ _ _ _ I i) as HNi. rewrite EC in HNi.
  assert (~ In a (CA ++ CB)) as HaC by (apply NoDup_remove_2; exact HNi).
  set (h' := mkhash _ _ _ _ _ _ _ _).
  assert (forall b, dat h' b = if b =? a then None else dat h b) as HD.
  { intros b. unfold dat, h'. cbn [h_elems]. unfold upd. destruct (b =? a); [reflexivity|]. rewrite Hod. reflexivity. }
  assert (forall b d, dat h' b = Some d -> b <> a /\ dat h b = Some d) as HD'.
  { intros b d E. rewrite HD in E. destruct (Z.eqb_spec b a); [discriminate|auto]. }
  assert (forall b, b <> a -> dat h' b = dat h b) as HD2.
  { intros b Nb. rewrite HD. replace (b =? a) with false by lia. reflexivity. }
  assert (forall j b, In b (upd C i (CA ++ CB) j) -> In b (C j) /\ b <> a) as HC1.
  { intros j b Hb. unfold upd in Hb. destruct (Z.eqb_spec j i) as [->|Nj].
    - split; [rewrite EC; apply in_app_iff; apply in_app_iff in Hb; cbn; tauto|]. intros ->. contradiction.
    - split; [exact Hb|]. intros ->. destruct (iv_inC _ _ _ _ _ _ _ I _ _ Hb) as (_ & _ & k1 & v1 & f1 & im1 & ex1 & Hd1 & Hb1).
      rewrite Hd in Hd1. injection Hd1 as <- _ _ _ _. congruence. }
  assert (forall j b, In b (C j) -> b <> a -> In b (upd C i (CA ++ CB) j)) as HC2.
  { intros j b Hb Nb. unfold upd. destruct (Z.eqb_spec j i) as [->|Nj]; [|exact Hb].
    rewrite EC in Hb. apply in_app_iff in Hb. apply in_app_iff. cbn in Hb. destruct Hb as [?|[?|?]]; [tauto|congruence|tauto]. }
  assert (forall g, In g (A ++ B) -> g <> f) as HgF.
  { intros g Hg ->. pose proof (fo_nodup _ _ (iv_fila _ _ _ _ _ _ _ I)) as HN. rewrite EF in HN. apply NoDup_remove_2 in HN. contradiction. }
  assert (forall g en, In g (A ++ B) -> ent_at (h_filas h) h g en -> ent_at m h' g en) as HEN.
  { intros g en Hg (b & Hb1 & Hb2). exists b. rewrite Hrm by (apply HgF; exact Hg). split; [exact Hb1|].
    rewrite HD2; [exact Hb2|]. intros ->. rewrite Hd in Hb2. injection Hb2 as _ _ E _. exact (HgF g Hg (eq_sym E)). }
  constructor; unfold h'; cbn [h_mask h_tab h_elems h_filas h_brk h_size]; fold h'.
  - exact (iv_mask _ _ _ _ _ _ _ I).
  - rewrite HTL. exact (iv_tab _ _ _ _ _ _ _ I).
  - intros j Hj. destruct (Z.eq_dec j i) as [->|Nj].
    + exists p'. split; [exact HTi|]. rewrite upd_same.
      apply (chain_frame eh'); [|exact HCh]. intros b Hb. apply upd_other. intros ->. contradiction.
    + destruct (iv_chain _ _ _ _ _ _ _ I j Hj) as (p & Hp & HCj). exists p. rewrite HTj by exact Nj. split; [exact Hp|].
      rewrite upd_other by exact Nj. apply (chain_frame (h_elems h)); [|exact HCj].
      intros b Hb. destruct (iv_inC _ _ _ _ _ _ _ I _ _ Hb) as (_ & _ & k1 & v1 & f1 & im1 & ex1 & Hd1 & Hb1).
      assert (forall c, In c (C i) -> b <> c) as Nb.
      { intros c Hc ->. destruct (iv_inC _ _ _ _ _ _ _ I _ _ Hc) as (_ & _ & k2 & v2 & f2 & im2 & ex2 & Hd2 & Hb2).
        rewrite Hd1 in Hd2. injection Hd2 as <- _ _ _ _. congruence. }
      rewrite upd_other by (apply Nb; rewrite EC; apply in_app_iff; right; left; reflexivity).
      apply Hfr. intros Hb3. apply (Nb b); [|reflexivity]. rewrite EC. apply in_app_iff. apply in_app_iff in Hb3. cbn. tauto.
  - intros j. unfold upd. destruct (j =? i); [eapply NoDup_remove_1; exact HNi|exact (iv_nodup _ _ _ _ _ _ _ I j)].
  - intros j b Hb. apply HC1 in Hb as [Hb Nb]. rewrite HD2 by exact Nb. exact (iv_inC _ _ _ _ _ _ _ I _ _ Hb).
  - intros b k1 v1 f1 im1 ex1 Hbx Hdb. apply HD' in Hdb as [Nb Hdb].
    destruct (iv_dom _ _ _ _ _ _ _ I _ _ _ _ _ _ Hbx Hdb) as [HbC HbF]. split; [apply HC2; assumption|].
    destruct HbF as [?|[HbF HbR]]; [left; assumption|right].
    assert (f1 <> f) as Nf by (intros ->; rewrite Hrf in HbR; congruence).
    split; [|rewrite Hrm by exact Nf; exact HbR].
    rewrite EF in HbF. apply in_app_iff in HbF. apply in_app_iff. cbn in HbF. destruct HbF as [?|[?|?]]; [tauto|congruence|tauto].
  - intros b c k1 v1 f1 im1 ex1 v2 f2 im2 ex2 Hbx Hcx Hdb Hdc. apply HD' in Hdb as [_ Hdb]. apply HD' in Hdc as [_ Hdc].
    exact (iv_keys _ _ _ _ _ _ _ I _ _ _ _ _ _ _ _ _ _ _ Hbx Hcx Hdb Hdc).
  - intros b Hb. apply (iv_addr _ _ _ _ _ _ _ I). unfold upd in Hb. destruct (b =? a); [congruence|].
    specialize (Hod b). destruct (eh' b), (h_elems h b); cbn in Hod; congruence.
  - revert HFO. apply FilaOK_ext; cbn; try reflexivity; lia.
  - apply Forall2_app.
    + eapply Forall2_impl_In; [|exact HRA]. intros g en Hg _ HE. apply HEN; [apply in_app_iff; left; exact Hg|exact HE].
    + eapply Forall2_impl_In; [|exact HRB]. intros g en Hg _ HE. apply HEN; [apply in_app_iff; right; exact Hg|exact HE].
  - eapply Forall2_impl_In; [|exact (iv_absP _ _ _ _ _ _ _ I)]. intros b en Hb _ [HE1 HE2]. split; [|exact HE2].
    rewrite HD2; [exact HE1|]. intros ->. contradiction.
  - exact (iv_pnodup _ _ _ _ _ _ _ I).
  - exact (iv_px _ _ _ _ _ _ _ I).
  - intros g Hg. destruct (Z.eq_dec g f) as [->|Ng]; [unfold recof in Hg; rewrite Hmf in Hg; discriminate|].
    rewrite Hrm in Hg by exact Ng. exact (iv_xrec _ _ _ _ _ _ _ I g Hg).
  - rewrite (iv_size _ _ _ _ _ _ _ I), EF, !zlen_app, zlen_cons. lia.
  - exact (iv_brk _ _ _ _ _ _ _ I).
  - pose proof (iv_exp _ _ _ _ _ _ _ I) as HE. rewrite ER in HE. apply Forall_app in HE as [HE1 HE2].
    inversion HE2; subst. apply Forall_app. auto.
Qed.


Lemma in_chain a k v f im ex : a <> x -> dat h a = Some (k, v, f, im, ex) ->
  exists p CA CB, zget (h_tab h) (bkt (h_mask h) k) = Some p /\
    C (bkt (h_mask h) k) = CA ++ a :: CB /\ chain (h_elems h) (PBucket (bkt (h_mask h) k)) p (CA ++ a :: CB) /\
    NoDup (CA ++ a :: CB).
Proof.
  intros Hax Hd. destruct (iv_dom _ _ _ _ _ _ _ I _ _ _ _ _ _ Hax Hd) as [Hin _].
  destruct (in_split _ _ Hin) as (CA & CB & EC).
  destruct (iv_chain _ _ _ _ _ _ _ I (bkt (h_mask h) k)) as (p & Hp & HC); [apply bkt_range; exact (iv_mask _ _ _ _ _ _ _ I)|].
  exists p, CA, CB. rewrite <- EC. repeat split; auto. exact (iv_nodup _ _ _ _ _ _ _ I _).
Qed.

(** Removing an ordinary element by key (dwh_zap). *)
Lemma zap_elem_ok a k v f ex A B RA RB : a <> x -> dat h a = Some (k, v, f, 0, ex) ->
  F = A ++ f :: B -> rc = RA ++ mkentry k v ex :: RB ->
  Forall2 (ent_at (h_filas h) h) A RA -> Forall2 (ent_at (h_filas h) h) B RB ->
  recof (h_filas h) f = Some a -> ~ In a P ->
  exists h' C', zap_elem h a true 1 = Ok (1, h') /\ Inv x h' C' (A ++ B) P (RA ++ RB) pm /\
    h_max h' = h_max h /\ h_mask h' = h_mask h /\ h_brk h' = h_brk h /\
    (forall b, dat h' b = if b =? a then None else dat h b).
Proof.
  intros Hax Hd EF ER HRA HRB HR HP.
  destruct (in_chain a k v f 0 ex Hax Hd) as (p & CA & CB & Hp & EC & HC & HN).
  pose proof Hd as Hd'. apply dat_some in Hd' as (e & He & Hed).
  assert (0 < a) as Ha0 by (apply (iv_addr _ _ _ _ _ _ _ I); congruence).
  unfold zap_elem. rewrite (ge_ok h a e) by (auto; lia). cbn [bind].
  unfold edata in Hed. replace (e_imm e =? 1) with false by (injection Hed; lia).
  destruct (zap_unlink_ok h _ _ _ _ _ Hp HC HN) as (eh' & tab' & p' & E1 & T1 & T2 & T3 & HCh & Hfr & Hod).
  rewrite E1. cbn [bind]. change (true && (1 =? 1)) with true. cbv iota.
  assert (exists e', eh' a = Some e' /\ edata e' = (k, v, f, 0, ex)) as (e' & He' & Hed').
  { specialize (Hod a). rewrite He in Hod. destruct (eh' a) as [e'|]; [|discriminate]. exists e'. split; [reflexivity|].
    cbn [odata option_map] in Hod. unfold edata in *. congruence. }
  rewrite (ge_ok _ a e') by (cbn; auto; lia). cbn [bind].
  replace (e_fila e') with f by (unfold edata in Hed'; congruence).
  assert (0 < f) as Hf0.
  { destruct (fo_addr _ _ (iv_fila _ _ _ _ _ _ _ I) f); [rewrite EF; apply in_app_iff; right; left; reflexivity|lia]. }
  unfold dwh_fila_zap0. replace (f =? 0) with false by lia.
  destruct (fila_unlink_ok (set_tab (set_elems h eh') tab') F A f B) as (m & hf & E2 & HFO & Hrm & Hmf); [|exact EF|].
  { apply (FilaOK_ext h); [reflexivity|reflexivity|cbn; lia|exact (iv_fila _ _ _ _ _ _ _ I)]. }
  rewrite E2. cbn [bind]. unfold free_elem. rewrite (ge_ok _ a e') by (cbn; auto; lia). cbn [bind].
  cbn [h_size set_elems set_fila set_filas set_tab].
  assert (0 < h_size h) as HS.
  { rewrite (iv_size _ _ _ _ _ _ _ I), EF, zlen_app, zlen_cons. pose proof (zlen_nonneg A). pose proof (zlen_nonneg B). pose proof (zlen_nonneg P). lia. }
  replace (0 <? h_size h) with true by lia.
  eexists. exists (upd C (bkt (h_mask h) k) (CA ++ CB)). split; [reflexivity|]. split.
  - refine (remove_inv a k v f ex A B RA RB CA CB eh' tab' p' m hf _ Hax Hd eq_refl EF ER HRA HRB HR HP EC T1 T2 T3 HCh Hfr Hod _ Hrm Hmf).
    revert HFO. apply FilaOK_ext; cbn; try reflexivity; lia.
  - split; [reflexivity|]. split; [reflexivity|]. split; [reflexivity|].
    intros b. unfold dat. cbn. unfold upd. destruct (b =? a); [reflexivity|]. apply Hod.
Qed.

(** Removing an ordinary element through its place in the ring (eviction). *)
Lemma fila_zap1_ok a k v f ex A B RA RB : a <> x -> dat h a = Some (k, v, f, 0, ex) ->
  F = A ++ f :: B -> rc = RA ++ mkentry k v ex :: RB ->
  Forall2 (ent_at (h_filas h) h) A RA -> Forall2 (ent_at (h_filas h) h) B RB ->
  recof (h_filas h) f = Some a -> ~ In a P ->
  exists h' C', dwh_fila_zap1 h f = Ok h' /\ Inv x h' C' (A ++ B) P (RA ++ RB) pm /\
    h_max h' = h_max h /\ h_mask h' = h_mask h /\ h_brk h' = h_brk h.
Proof.
  intros Hax Hd EF ER HRA HRB HR HP.
  destruct (in_chain a k v f 0 ex Hax Hd) as (p & CA & CB & Hp & EC & HC & HN).
  pose proof Hd as Hd'. apply dat_some in Hd' as (e & He & Hed).
  assert (0 < a) as Ha0 by (apply (iv_addr _ _ _ _ _ _ _ I); congruence).
  assert (0 < f) as Hf0.
  { destruct (fo_addr _ _ (iv_fila _ _ _ _ _ _ _ I) f); [rewrite EF; apply in_app_iff; right; left; reflexivity|lia]. }
  unfold dwh_fila_zap1. replace (f =? 0) with false by lia.
  assert (exists fl, gf h f = Ok fl /\ f_rec fl = a) as (fl & -> & Efl).
  { unfold recof in HR. unfold gf. replace (f =? 0) with false by lia. destruct (h_filas h f) as [fl|]; [|discriminate].
    exists fl. split; [reflexivity|]. cbn in HR. congruence. }
  cbn [bind].
  destruct (fila_unlink_ok h F A f B (iv_fila _ _ _ _ _ _ _ I) EF) as (m & hf & E2 & HFO & Hrm & Hmf).
  rewrite E2. cbn [bind]. rewrite Efl. replace (a =? 0) with false by lia.
  unfold zap_elem. rewrite (ge_ok _ a e) by (cbn; auto; lia). cbn [bind].
  unfold edata in Hed. replace (e_imm e =? 1) with false by (injection Hed; lia).
  destruct (zap_unlink_ok (set_fila (set_filas h m) hf) _ _ _ _ _ Hp HC HN) as (eh' & tab' & p' & E1 & T1 & T2 & T3 & HCh & Hfr & Hod).
  rewrite E1. cbn [bind andb].
  assert (exists e', eh' a = Some e' /\ edata e' = (k, v, f, 0, ex)) as (e' & He' & Hed').
  { specialize (Hod a). cbn [h_elems set_fila set_filas] in Hod. rewrite He in Hod. destruct (eh' a) as [e'|]; [|discriminate]. exists e'. split; [reflexivity|].
    cbn [odata option_map] in Hod. unfold edata in *. congruence. }
  unfold free_elem. rewrite (ge_ok _ a e') by (cbn; auto; lia). cbn [bind].
  cbn [h_size set_elems set_fila set_filas set_tab].
  assert (0 < h_size h) as HS.
  { rewrite (iv_size _ _ _ _ _ _ _ I), EF, zlen_app, zlen_cons. pose proof (zlen_nonneg A). pose proof (zlen_nonneg B). pose proof (zlen_nonneg P). lia. }
  replace (0 <? h_size h) with true by lia.
  eexists. exists (upd C (bkt (h_mask h) k) (CA ++ CB)). split; [reflexivity|]. split; [|split; [reflexivity|split; reflexivity]].
  exact (remove_inv a k v f ex A B RA RB CA CB eh' tab' p' m hf _ Hax Hd eq_refl EF ER HRA HRB HR HP EC T1 T2 T3 HCh Hfr Hod HFO Hrm Hmf).
Qed.

(** A successful lookup moves the entry to the front. *)
Lemma fetch_ok k v f ex A B RA RB a : dat h a = Some (k, v, f, 0, ex) ->
  F = A ++ f :: B -> rc = RA ++ mkentry k v ex :: RB ->
  Forall2 (ent_at (h_filas h) h) A RA -> Forall2 (ent_at (h_filas h) h) B RB ->
  recof (h_filas h) f = Some a ->
  exists h', dwh_fila_fetch h f = Ok h' /\ Inv x h' C (f :: A ++ B) P (mkentry k v ex :: RA ++ RB) pm /\
    h_max h' = h_max h /\ h_mask h' = h_mask h.
Proof.
  intros Hd EF ER HRA HRB HR.
  destruct (fila_fetch_ok h F A f B (iv_fila _ _ _ _ _ _ _ I) EF) as (m & -> & HFO & Hrm).
  eexists. split; [reflexivity|]. split; [|split; reflexivity].
  assert (forall g en, ent_at (h_filas h) h g en -> ent_at m (set_fila (set_filas h m) f) g en) as HEN.
  { intros g en (b & Hb & Hdb). exists b. rewrite Hrm. split; [exact Hb|exact Hdb]. }
  constructor; cbn [h_mask h_tab h_elems h_filas h_brk h_size set_fila set_filas].
  - exact (iv_mask _ _ _ _ _ _ _ I).
  - exact (iv_tab _ _ _ _ _ _ _ I).
  - exact (iv_chain _ _ _ _ _ _ _ I).
  - exact (iv_nodup _ _ _ _ _ _ _ I).
  - exact (iv_inC _ _ _ _ _ _ _ I).
  - intros b k1 v1 f1 im1 ex1 Hbx Hdb. destruct (iv_dom _ _ _ _ _ _ _ I _ _ _ _ _ _ Hbx Hdb) as [HbC HbF]. split; [exact HbC|].
    destruct HbF as [?|[HbF HbR]]; [left; assumption|right]. rewrite Hrm. split; [|exact HbR].
    rewrite EF in HbF. apply in_app_iff in HbF. cbn in *. rewrite in_app_iff. tauto.
  - exact (iv_keys _ _ _ _ _ _ _ I).
  - exact (iv_addr _ _ _ _ _ _ _ I).
  - exact HFO.
  - constructor; [apply HEN; exists a; auto|]. apply Forall2_app; (eapply Forall2_impl; [|eassumption]); exact HEN.
  - exact (iv_absP _ _ _ _ _ _ _ I).
  - exact (iv_pnodup _ _ _ _ _ _ _ I).
  - exact (iv_px _ _ _ _ _ _ _ I).
  - intros g. rewrite Hrm. exact (iv_xrec _ _ _ _ _ _ _ I g).
  - rewrite (iv_size _ _ _ _ _ _ _ I), EF, zlen_cons, !zlen_app, zlen_cons. lia.
  - exact (iv_brk _ _ _ _ _ _ _ I).
  - pose proof (iv_exp _ _ _ _ _ _ _ I) as HE. rewrite ER in HE. apply Forall_app in HE as [HE1 HE2].
    inversion HE2; subst. constructor; [assumption|]. apply Forall_app. auto.
Qed.

Lemma rec_live g a : recof (h_filas h) g = Some a -> h_elems h a <> None.
Proof.
  intros Hr. assert (In g F) as Hg.
  { apply (fo_dom _ _ (iv_fila _ _ _ _ _ _ _ I)). unfold recof in Hr. destruct (h_filas h g); [discriminate|discriminate Hr]. }
  destruct (Forall2_In_l _ _ _ _ (iv_absF _ _ _ _ _ _ _ I) Hg) as (en & _ & b & Hb & Hd).
  rewrite Hr in Hb. injection Hb as <-. apply dat_some in Hd as (e & He & _). congruence.
Qed.
Lemma perm_alive a : In a P -> h_elems h a <> None.
Proof.
  intros Ha. destruct (Forall2_In_l _ _ _ _ (iv_absP _ _ _ _ _ _ _ I) Ha) as (en & _ & Hd & _).
  apply dat_some in Hd as (e & He & _). congruence.
Qed.

(** Linking the floating element in.  The new node carries data [(k, v, f', im', ex')]. *)
Lemma link_inv k v fj ex i eh' tab' en' e' m brk' hf f' im' ex' F' P' rc' pm' :
  x <> 0 -> dat h x = Some (k, v, fj, 0, ex) -> absent k -> i = bkt (h_mask h) k ->
  zlen tab' = zlen (h_tab h) -> zget tab' i = Some x ->
  (forall j, j <> i -> zget tab' j = zget (h_tab h) j) ->
  chain eh' (PBucket i) x (x :: C i) ->
  (forall b, ~ In b (x :: C i) -> eh' b = h_elems h b) ->
  (forall b, odata (eh' b) = odata (h_elems h b)) ->
  eh' x = Some en' -> e_next e' = e_next en' -> e_prev e' = e_prev en' -> edata e' = (k, v, f', im', ex') ->
  h_brk h <= brk' ->
  (In x P' \/ (In f' F' /\ recof m f' = Some x)) -> incl F F' -> incl P P' ->
  (forall f, In f F -> recof m f = recof (h_filas h) f) ->
  let h' := mkhash (upd eh' x (Some e')) m brk' hf tab' (h_mask h) (h_size h + 1) (h_max h) in
  FilaOK h' F' ->
  ((forall b, b <> x -> dat h' b = dat h b) -> dat h' x = Some (k, v, f', im', ex') ->
     Forall2 (ent_at m h') F' rc' /\ Forall2 (perm_at h') P' pm') ->
  NoDup P' -> ~ In 0 P' -> (forall f, recof m f <> Some 0) ->
  h_size h + 1 = zlen F' + zlen P' -> Forall (fun e => 0 < c_exp e) rc' ->
  Inv 0 h' (upd C i (x :: C i)) F' P' rc' pm'.
Proof.
  intros Hx0 Hdx Hab Ei HTL HTi HTj HCh Hfr Hod Hen' En Ep Hed Hbrk Hloc HIF HIP Hrm h' HFO HAbs HPN HP0 HR0 HSz HEx.
  assert (HxC : forall j, ~ In x (C j)).
  { intros j C0. destruct (iv_inC _ _ _ _ _ _ _ I _ _ C0) as (N & _). congruence. }
  assert (forall b, b <> x -> dat h' b = dat h b) as HD1.
  { intros b Nb. unfold dat, h'. cbn [h_elems]. rewrite upd_other by exact Nb. apply Hod. }
  assert (dat h' x = Some (k, v, f', im', ex')) as HD2.
  { unfold dat, h'. cbn [h_elems]. rewrite upd_same. cbn. rewrite Hed. reflexivity. }
  destruct (HAbs HD1 HD2) as [HA1 HA2].
  assert (0 <= i <= h_mask h) as Hir by (subst i; apply bkt_range; exact (iv_mask _ _ _ _ _ _ _ I)).
  assert (forall j b, In b (C j) -> b <> x) as HCx by (intros j b Hb; destruct (iv_inC _ _ _ _ _ _ _ I _ _ Hb) as (N & _); exact N).
  constructor; unfold h'; cbn [h_mask h_tab h_elems h_filas h_brk h_size]; fold h'.
  - exact (iv_mask _ _ _ _ _ _ _ I).
  - rewrite HTL. exact (iv_tab _ _ _ _ _ _ _ I).
  - intros j Hj. destruct (Z.eq_dec j i) as [->|Nj].
    + exists x. split; [exact HTi|]. rewrite upd_same.
      apply (chain_frame_links eh'); [|exact HCh].
      intros b e Hb He. unfold upd. destruct (Z.eqb_spec b x) as [->|Nb]; [|eauto].
      exists e'. rewrite Hen' in He. injection He as <-. auto.
    + destruct (iv_chain _ _ _ _ _ _ _ I j Hj) as (p & Hp & HCj). exists p. rewrite HTj by exact Nj. split; [exact Hp|].
      rewrite upd_other by exact Nj. apply (chain_frame (h_elems h)); [|exact HCj].
      intros b Hb. rewrite upd_other by (eapply HCx; exact Hb). apply Hfr. intros [Eb|Hb2]; [rewrite <- Eb in Hb; exact (HxC j Hb)|].
      destruct (iv_inC _ _ _ _ _ _ _ I _ _ Hb) as (_ & _ & k1 & v1 & f1 & im1 & ex1 & Hd1 & Hb1).
      destruct (iv_inC _ _ _ _ _ _ _ I _ _ Hb2) as (_ & _ & k2 & v2 & f2 & im2 & ex2 & Hd2 & Hb3).
      rewrite Hd1 in Hd2. injection Hd2 as <- _ _ _ _. congruence.
  - intros j. unfold upd. destruct (j =? i); [constructor; [apply HxC|]|]; exact (iv_nodup _ _ _ _ _ _ _ I _).
  - intros j b Hb. assert (b = x /\ j = i \/ In b (C j)) as [[-> ->]|Hb'].
    { unfold upd in Hb. destruct (Z.eqb_spec j i) as [->|]; [destruct Hb as [Hb|Hb]; [left; split; congruence|right; exact Hb]|right; exact Hb]. }
    + split; [exact Hx0|]. split; [exact Hir|]. exists k, v, f', im', ex'. auto.
    + destruct (iv_inC _ _ _ _ _ _ _ I _ _ Hb') as (Nb & Hj & k1 & v1 & f1 & im1 & ex1 & Hd1 & Hb1).
      split; [|split; [exact Hj|exists k1, v1, f1, im1, ex1; rewrite HD1 by exact Nb; auto]].
      intros ->. apply dat_some in Hd1 as (e & He & _). destruct (iv_addr _ _ _ _ _ _ _ I 0); [congruence|lia].
  - intros b k1 v1 f1 im1 ex1 Hb0 Hdb. destruct (Z.eq_dec b x) as [->|Nb].
    + rewrite HD2 in Hdb. injection Hdb as <- <- <- <- <-. rewrite <- Ei, upd_same. split; [left; reflexivity|exact Hloc].
    + rewrite HD1 in Hdb by exact Nb. destruct (iv_dom _ _ _ _ _ _ _ I _ _ _ _ _ _ Nb Hdb) as [HbC HbF]. split.
      * unfold upd. destruct (_ =? i) eqn:Eq; [apply Z.eqb_eq in Eq; rewrite Eq in HbC; right; exact HbC|exact HbC].
      * destruct HbF as [?|[HbF HbR]]; [left; apply HIP; assumption|right]. split; [apply HIF; exact HbF|]. rewrite Hrm; assumption.
  - intros b c k1 v1 f1 im1 ex1 v2 f2 im2 ex2 Hb0 Hc0 Hdb Hdc.
    destruct (Z.eq_dec b x) as [->|Nb], (Z.eq_dec c x) as [->|Nc]; [reflexivity| | |].
    + rewrite HD2 in Hdb. injection Hdb as <- _ _ _ _. rewrite HD1 in Hdc by exact Nc. exfalso. exact (Hab _ _ _ _ _ Nc Hdc).
    + rewrite HD2 in Hdc. injection Hdc as <- _ _ _ _. rewrite HD1 in Hdb by exact Nb. exfalso. exact (Hab _ _ _ _ _ Nb Hdb).
    + rewrite HD1 in Hdb by exact Nb. rewrite HD1 in Hdc by exact Nc.
      exact (iv_keys _ _ _ _ _ _ _ I _ _ _ _ _ _ _ _ _ _ _ Nb Nc Hdb Hdc).
  - intros b Hb. assert (0 < b < h_brk h); [|lia]. apply (iv_addr _ _ _ _ _ _ _ I). unfold upd in Hb. destruct (Z.eq_dec b x) as [Nb|Nb].
    + apply dat_some in Hdx as (e & He & _). rewrite Nb. congruence.
    + replace (b =? x) with false in Hb by lia. specialize (Hod b). destruct (eh' b), (h_elems h b); cbn in Hod; congruence.
  - exact HFO.
  - exact HA1.
  - exact HA2.
  - exact HPN.
  - exact HP0.
  - exact HR0.
  - exact HSz.
  - pose proof (iv_brk _ _ _ _ _ _ _ I). lia.
  - exact HEx.
Qed.

(** dwh_place_new's linking for an ordinary element. *)
Lemma link_recent_ok k v fj ex : x <> 0 -> dat h x = Some (k, v, fj, 0, ex) -> absent k -> 0 < ex ->
  exists h1 h2 C', link_new H h x k = Ok h1 /\ dwh_fila_new h1 x = Ok h2 /\
    Inv 0 (set_size h2 (h_size h2 + 1)) C' (h_brk h :: F) P (mkentry k v ex :: rc) pm /\
    h_max h2 = h_max h /\ h_mask h2 = h_mask h.
Proof.
  intros Hx0 Hdx Hab Hex0.
  destruct (iv_chain _ _ _ _ _ _ _ I (bkt (h_mask h) k)) as (p & Hp & HC); [apply bkt_range; exact (iv_mask _ _ _ _ _ _ _ I)|].
  pose proof Hdx as Hdx'. apply dat_some in Hdx' as (en & Hen & Hed).
  assert (NoDup (x :: C (bkt (h_mask h) k))) as HN.
  { constructor; [|exact (iv_nodup _ _ _ _ _ _ _ I _)]. intros C0. destruct (iv_inC _ _ _ _ _ _ _ I _ _ C0) as (N & _). congruence. }
  destruct (link_new_ok H h x k p _ en Hp HC HN Hx0 Hen) as (eh' & tab' & en' & E1 & T1 & T2 & T3 & HCh & Hfr & Hod & Hen' & Hedn).
  fold (bkt (h_mask h) k) in *. change (bucket H h k) with (bkt (h_mask h) k) in *.
  set (h1 := set_tab (set_elems h eh') tab') in *.
  pose proof (iv_brk _ _ _ _ _ _ _ I) as HB.
  destruct (fila_new_ok h1 F x en') as (m & E2 & HFO & Hrn & Hrm).
  { apply (FilaOK_ext h); [reflexivity|reflexivity|cbn; lia|exact (iv_fila _ _ _ _ _ _ _ I)]. }
  { exact HB. } { exact Hx0. } { exact Hen'. }
  exists h1. eexists. exists (upd C (bkt (h_mask h) k) (x :: C (bkt (h_mask h) k))). split; [exact E1|]. split; [exact E2|].
  split; [|split; reflexivity].
  unfold set_size. cbn [h_elems h_filas h_brk h_fila h_tab h_mask h_size h_max]. change (h_brk h1) with (h_brk h) in *. change (h_filas h1) with (h_filas h) in *.
  cbn [h1 h_elems set_tab set_elems h_tab h_mask h_size h_max].
  assert (edata en' = (k, v, fj, 0, ex)) as Hede by congruence.
  assert (forall f, In f F -> f <> h_brk h) as HFb.
  { intros f Hf ->. pose proof (fo_addr _ _ (iv_fila _ _ _ _ _ _ _ I) _ Hf). lia. }
  unfold edata in Hede.
  eapply (link_inv k v fj ex _ eh' tab' en' _ m (h_brk h + 1) (h_brk h) (h_brk h) 0 ex); try eassumption; try reflexivity.
  - unfold edata. cbn. injection Hede as -> -> _ -> ->. reflexivity.
  - lia.
  - right. split; [left; reflexivity|exact Hrn].
  - intros f Hf. right. exact Hf.
  - intros f Hf. exact Hf.
  - intros f Hf. apply Hrm. apply HFb. exact Hf.
  - revert HFO. apply FilaOK_ext; cbn; try reflexivity; lia.
  - intros HD1 HD2. split.
    + constructor; [exists x; split; [exact Hrn|exact HD2]|].
      eapply Forall2_impl_In; [|exact (iv_absF _ _ _ _ _ _ _ I)]. intros f e Hf _ HE.
      destruct (recent_live f e HE) as (b & Hbx & Hb & Hdb). exists b. rewrite Hrm by (apply HFb; exact Hf). rewrite HD1 by exact Hbx. auto.
    + eapply Forall2_impl_In; [|exact (iv_absP _ _ _ _ _ _ _ I)]. intros b e Hb _ [HE1 HE2]. split; [|exact HE2].
      rewrite HD1; [exact HE1|]. intros ->. exact (iv_px _ _ _ _ _ _ _ I Hb).
  - exact (iv_pnodup _ _ _ _ _ _ _ I).
  - intros C0. apply perm_alive in C0. apply (iv_addr _ _ _ _ _ _ _ I) in C0. lia.
  - intros f Hf. destruct (Z.eq_dec f (h_brk h)) as [->|Nf]; [rewrite Hrn in Hf; congruence|].
    rewrite Hrm in Hf by exact Nf. apply rec_live in Hf. apply (iv_addr _ _ _ _ _ _ _ I) in Hf. lia.
  - rewrite (iv_size _ _ _ _ _ _ _ I), zlen_cons. lia.
  - constructor; [exact Hex0|exact (iv_exp _ _ _ _ _ _ _ I)].
Qed.

(** The same for a permanent element. *)
Lemma link_perm_ok k v ex : x <> 0 -> dat h x = Some (k, v, 0, 0, ex) -> absent k ->
  exists h1 h2 C', link_new H h x k = Ok h1 /\ set_e_perm (set_size h1 (h_size h1 + 1)) x = Ok h2 /\
    Inv 0 h2 C' F (x :: P) rc (mkentry k v 0 :: pm) /\
    h_max h2 = h_max h /\ h_mask h2 = h_mask h.
Proof.
  intros Hx0 Hdx Hab.
  destruct (iv_chain _ _ _ _ _ _ _ I (bkt (h_mask h) k)) as (p & Hp & HC); [apply bkt_range; exact (iv_mask _ _ _ _ _ _ _ I)|].
  pose proof Hdx as Hdx'. apply dat_some in Hdx' as (en & Hen & Hed).
  assert (NoDup (x :: C (bkt (h_mask h) k))) as HN.
  { constructor; [|exact (iv_nodup _ _ _ _ _ _ _ I _)]. intros C0. destruct (iv_inC _ _ _ _ _ _ _ I _ _ C0) as (N & _). congruence. }
  destruct (link_new_ok H h x k p _ en Hp HC HN Hx0 Hen) as (eh' & tab' & en' & E1 & T1 & T2 & T3 & HCh & Hfr & Hod & Hen' & Hedn).
  change (bucket H h k) with (bkt (h_mask h) k) in *.
  set (h1 := set_tab (set_elems h eh') tab') in *.
  exists h1. unfold set_e_perm. rewrite (ge_ok (set_size h1 (h_size h1 + 1)) x en' Hx0 Hen'). cbn [bind].
  eexists. exists (upd C (bkt (h_mask h) k) (x :: C (bkt (h_mask h) k))). split; [exact E1|]. split; [reflexivity|].
  split; [|split; reflexivity].
  unfold put_elem, set_elems, set_size. cbn [h_elems h_filas h_brk h_fila h_tab h_mask h_size h_max].
  cbn [h1 h_elems set_tab set_elems h_tab h_mask h_size h_max h_filas h_brk h_fila].
  assert (edata en' = (k, v, 0, 0, ex)) as Hede by congruence.
  unfold edata in Hede.
  eapply (link_inv k v 0 ex _ eh' tab' en' _ (h_filas h) (h_brk h) (h_fila h) 0 1 0); try eassumption; try reflexivity.
  - unfold edata. cbn. injection Hede as -> -> -> _ _. reflexivity.
  - left. left. reflexivity.
  - intros f Hf. exact Hf.
  - intros f Hf. right. exact Hf.
  - apply (FilaOK_ext h); [reflexivity|reflexivity|cbn; lia|exact (iv_fila _ _ _ _ _ _ _ I)].
  - intros HD1 HD2. split.
    + eapply Forall2_impl_In; [|exact (iv_absF _ _ _ _ _ _ _ I)]. intros f e Hf _ HE.
      destruct (recent_live f e HE) as (b & Hbx & Hb & Hdb). exists b. rewrite HD1 by exact Hbx. auto.
    + constructor; [split; [exact HD2|reflexivity]|].
      eapply Forall2_impl_In; [|exact (iv_absP _ _ _ _ _ _ _ I)]. intros b e Hb _ [HE1 HE2]. split; [|exact HE2].
      rewrite HD1; [exact HE1|]. intros ->. exact (iv_px _ _ _ _ _ _ _ I Hb).
  - constructor; [exact (iv_px _ _ _ _ _ _ _ I)|exact (iv_pnodup _ _ _ _ _ _ _ I)].
  - intros [C0|C0]; [congruence|]. apply perm_alive in C0. apply (iv_addr _ _ _ _ _ _ _ I) in C0. lia.
  - intros f Hf. apply rec_live in Hf. apply (iv_addr _ _ _ _ _ _ _ I) in Hf. lia.
  - rewrite (iv_size _ _ _ _ _ _ _ I), zlen_cons. lia.
  - exact (iv_exp _ _ _ _ _ _ _ I).
Qed.

(** Freeing the floating element. *)
Lemma free_inv e0 : x <> 0 -> h_elems h x = Some e0 ->
  exists h', free_elem h x = Ok h' /\ Inv 0 h' C F P rc pm /\ h_max h' = h_max h /\ h_mask h' = h_mask h.
Proof.
  intros Hx0 Hx. unfold free_elem. rewrite (ge_ok _ _ _ Hx0 Hx). cbn [bind]. eexists. split; [reflexivity|].
  split; [|split; reflexivity].
  set (h' := set_elems _ _).
  assert (forall b, b <> x -> dat h' b = dat h b) as HD.
  { intros b Nb. unfold dat, h'. cbn. rewrite upd_other by exact Nb. reflexivity. }
  assert (dat h' x = None) as HDx by (unfold dat, h'; cbn; rewrite upd_same; reflexivity).
  assert (forall b d, dat h' b = Some d -> b <> x /\ dat h b = Some d) as HD'.
  { intros b d E. destruct (Z.eq_dec b x) as [->|Nb]; [congruence|]. rewrite HD in E by exact Nb. auto. }
  constructor; unfold h'; cbn [h_mask h_tab h_elems h_filas h_brk h_size set_elems]; fold h'.
  - exact (iv_mask _ _ _ _ _ _ _ I).
  - exact (iv_tab _ _ _ _ _ _ _ I).
  - intros i Hi. destruct (iv_chain _ _ _ _ _ _ _ I i Hi) as (p & Hp & HC). exists p. split; [exact Hp|].
    apply (chain_frame (h_elems h)); [|exact HC]. intros b Hb. apply upd_other. destruct (iv_inC _ _ _ _ _ _ _ I _ _ Hb) as (N & _). exact N.
  - exact (iv_nodup _ _ _ _ _ _ _ I).
  - intros i b Hb. destruct (iv_inC _ _ _ _ _ _ _ I _ _ Hb) as (N & Hi & k1 & v1 & f1 & im1 & ex1 & Hd1 & Hb1).
    split; [|split; [exact Hi|rewrite HD by exact N; eauto 10]].
    intros ->. apply dat_some in Hd1 as (e & He & _). destruct (iv_addr _ _ _ _ _ _ _ I 0); [congruence|lia].
  - intros b k1 v1 f1 im1 ex1 _ Hdb. apply HD' in Hdb as [Nb Hdb]. exact (iv_dom _ _ _ _ _ _ _ I _ _ _ _ _ _ Nb Hdb).
  - intros b c k1 v1 f1 im1 ex1 v2 f2 im2 ex2 _ _ Hdb Hdc. apply HD' in Hdb as [Nb Hdb]. apply HD' in Hdc as [Nc Hdc].
    exact (iv_keys _ _ _ _ _ _ _ I _ _ _ _ _ _ _ _ _ _ _ Nb Nc Hdb Hdc).
  - intros b Hb. apply (iv_addr _ _ _ _ _ _ _ I). unfold upd in Hb. destruct (b =? x); congruence.
  - exact (FilaOK_ext h h' F eq_refl eq_refl (Z.le_refl _) (iv_fila _ _ _ _ _ _ _ I)).
  - eapply Forall2_impl; [|exact (iv_absF _ _ _ _ _ _ _ I)]. intros f e HE.
    destruct (recent_live f e HE) as (b & Hbx & Hb & Hdb). exists b. rewrite HD by exact Hbx. auto.
  - eapply Forall2_impl_In; [|exact (iv_absP _ _ _ _ _ _ _ I)]. intros b e Hb _ [HE1 HE2]. split; [|exact HE2].
    rewrite HD; [exact HE1|]. intros ->. exact (iv_px _ _ _ _ _ _ _ I Hb).
  - exact (iv_pnodup _ _ _ _ _ _ _ I).
  - intros C0. apply perm_alive in C0. apply (iv_addr _ _ _ _ _ _ _ I) in C0. lia.
  - intros f Hf. apply rec_live in Hf. apply (iv_addr _ _ _ _ _ _ _ I) in Hf. lia.
  - exact (iv_size _ _ _ _ _ _ _ I).
  - exact (iv_brk _ _ _ _ _ _ _ I).
  - exact (iv_exp _ _ _ _ _ _ _ I).
Qed.
End Facts.

(** Allocating a floating element. *)
Lemma alloc_inv h C F P rc pm e : Inv 0 h C F P rc pm ->
  Inv (h_brk h) (snd (alloc_elem h e)) C F P rc pm.
Proof.
  intros I. unfold alloc_elem. cbn [snd]. set (x := h_brk h). set (h' := put_elem _ _ _).
  pose proof (iv_brk _ _ _ _ _ _ _ I) as HB. fold x in HB.
  assert (h_elems h x = None) as Hx.
  { destruct (h_elems h x) eqn:E; [|reflexivity]. destruct (iv_addr _ _ _ _ _ _ _ I x); [congruence|]. unfold x in *. lia. }
  assert (forall b, b <> x -> dat h' b = dat h b) as HD.
  { intros b Nb. unfold dat, h'. cbn. rewrite upd_other by exact Nb. reflexivity. }
  assert (forall b d, dat h b = Some d -> b <> x /\ b <> 0) as HL.
  { intros b d E. apply dat_some in E as (e1 & He & _). split; [congruence|]. intros ->. destruct (iv_addr _ _ _ _ _ _ _ I 0); [congruence|lia]. }
  constructor; unfold h'; cbn [h_mask h_tab h_elems h_filas h_brk h_size set_elems set_brk put_elem]; fold h'.
  - exact (iv_mask _ _ _ _ _ _ _ I).
  - exact (iv_tab _ _ _ _ _ _ _ I).
  - intros i Hi. destruct (iv_chain _ _ _ _ _ _ _ I i Hi) as (p & Hp & HC). exists p. split; [exact Hp|].
    apply (chain_frame (h_elems h)); [|exact HC]. intros b Hb. apply upd_other.
    destruct (iv_inC _ _ _ _ _ _ _ I _ _ Hb) as (_ & _ & k1 & v1 & f1 & im1 & ex1 & Hd1 & _). apply HL in Hd1. tauto.
  - exact (iv_nodup _ _ _ _ _ _ _ I).
  - intros i b Hb. destruct (iv_inC _ _ _ _ _ _ _ I _ _ Hb) as (N & Hi & k1 & v1 & f1 & im1 & ex1 & Hd1 & Hb1).
    pose proof (HL _ _ Hd1) as [Nx _]. split; [exact Nx|]. split; [exact Hi|]. rewrite HD by exact Nx. eauto 10.
  - intros b k1 v1 f1 im1 ex1 Nb Hdb. rewrite HD in Hdb by exact Nb. apply (iv_dom _ _ _ _ _ _ _ I _ _ _ _ _ _ (proj2 (HL _ _ Hdb)) Hdb).
  - intros b c k1 v1 f1 im1 ex1 v2 f2 im2 ex2 Nb Nc Hdb Hdc. rewrite HD in Hdb by exact Nb. rewrite HD in Hdc by exact Nc.
    exact (iv_keys _ _ _ _ _ _ _ I _ _ _ _ _ _ _ _ _ _ _ (proj2 (HL _ _ Hdb)) (proj2 (HL _ _ Hdc)) Hdb Hdc).
  - intros b Hb. unfold upd in Hb. fold x in Hb |- *. destruct (Z.eq_dec b x) as [Nb|Nb]; [lia|]. replace (b =? x) with false in Hb by lia.
    pose proof (iv_addr _ _ _ _ _ _ _ I b Hb). unfold x. lia.
  - apply (FilaOK_ext h); [reflexivity|reflexivity|cbn; lia|exact (iv_fila _ _ _ _ _ _ _ I)].
  - eapply Forall2_impl; [|exact (iv_absF _ _ _ _ _ _ _ I)]. intros f e1 (b & Hb & Hdb). exists b. split; [exact Hb|].
    rewrite HD by apply (HL _ _ Hdb). exact Hdb.
  - eapply Forall2_impl; [|exact (iv_absP _ _ _ _ _ _ _ I)]. intros b e1 [HE1 HE2]. split; [|exact HE2].
    rewrite HD by apply (HL _ _ HE1). exact HE1.
  - exact (iv_pnodup _ _ _ _ _ _ _ I).
  - intros C0. apply (perm_alive I) in C0. contradiction.
  - intros f Hf. apply (rec_live I) in Hf. contradiction.
  - exact (iv_size _ _ _ _ _ _ _ I).
  - lia.
  - exact (iv_exp _ _ _ _ _ _ _ I).
Qed.

End Inv.
