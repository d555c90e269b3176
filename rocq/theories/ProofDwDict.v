(** Dictionaries: invariant and refinement. *)
From Coq Require Import Permutation.
From Verif Require Import CBase Bits ModelDwHash SpecDict ModelDwDict ProofDwHashChain ProofDwHashInv ProofDwHashRefine.

Section Dict.
Context (H : list Z -> Z) (Hpos : forall k, 0 <= H k).
Local Notation bkt := (bkt H).

Definition holds (h : hash) (a : Z) (kv : list Z * list Z) : Prop :=
  exists ex, dat h a = Some (fst kv, snd kv, 0, 0, ex).

(** [A]: the elements in the table; [X]: other elements that are allocated. *)
Record DInv (X : list Z) (h : hash) (C : Z -> list Z) (A : list Z) (m : dict) : Prop := {
  dv_mask : 0 <= h_mask h;
  dv_tab : zlen (h_tab h) = h_mask h + 2;
  dv_chain : forall i, 0 <= i <= h_mask h ->
    exists p, zget (h_tab h) i = Some p /\ chain (h_elems h) (PBucket i) p (C i);
  dv_nodup : forall i, NoDup (C i);
  dv_inC : forall i a, In a (C i) -> In a A /\ 0 <= i <= h_mask h /\
    exists k v ex, dat h a = Some (k, v, 0, 0, ex) /\ bkt (h_mask h) k = i;
  dv_dom : forall a k v f im ex, In a A -> dat h a = Some (k, v, f, im, ex) -> In a (C (bkt (h_mask h) k));
  dv_abs : Forall2 (holds h) A m;
  dv_Anodup : NoDup A;
  dv_keys : NoDup (map fst m);
  dv_X : forall a, In a X -> ~ In a A;
  dv_addr : forall a, h_elems h a <> None -> 0 < a < h_brk h;
  dv_fila : h_fila h = 0;
  dv_size : h_size h = zlen A;
  dv_brk : 0 < h_brk h }.

Lemma holds_fun h a kv kv' : holds h a kv -> holds h a kv' -> kv = kv'.
Proof. intros (ex & E) (ex' & E'). rewrite E in E'. injection E' as E1 E2 _. destruct kv, kv'; cbn in *; congruence. Qed.

Lemma dv_elem X h C A m (I : DInv X h C A m) a : In a A -> exists kv, In kv m /\ holds h a kv.
Proof. intros Ha. exact (Forall2_In_l _ _ _ _ (dv_abs _ _ _ _ _ I) Ha). Qed.

Lemma same_key X h C A m (I : DInv X h C A m) a b k v v' : In a A -> In b A -> holds h a (k, v) -> holds h b (k, v') -> a = b.
Proof.
  pose proof (dv_abs _ _ _ _ _ I) as HA. pose proof (dv_keys _ _ _ _ _ I) as HK. pose proof (dv_Anodup _ _ _ _ _ I) as HN.
  clear I. revert HK HN. induction HA as [|x [kx vx] A' m' Hx HA IH]; intros HK HN; [intros []|].
  cbn [map fst] in HK. apply NoDup_cons_iff in HK as [K1 K2]. apply NoDup_cons_iff in HN as [N1 N2].
  assert (forall c v2, In c A' -> holds h c (k, v2) -> In k (map fst m')) as HIn.
  { intros c v2 Hc Hh. destruct (Forall2_In_l _ _ _ _ HA Hc) as (kv & Hkv & Hh'). rewrite <- (holds_fun _ _ _ _ Hh Hh') in Hkv. apply (in_map fst) in Hkv. exact Hkv. }
  intros [->|Ha] [->|Hb] Ea Eb; auto.
  - exfalso. apply K1. pose proof (holds_fun _ _ _ _ Hx Ea) as E. injection E as -> ->. eauto.
  - exfalso. apply K1. pose proof (holds_fun _ _ _ _ Hx Eb) as E. injection E as -> ->. eauto.
Qed.

(** The number of entries of [m] in a bucket bounds the chain. *)
Definition in_bucket (mask : Z) (m : dict) (b : Z) : list (list Z * list Z) :=
  filter (fun kv => bkt mask (fst kv) =? b) m.
Lemma filter_Forall2 {A B} (R : A -> B -> Prop) (P : A -> bool) (Q : B -> bool) l l' :
  Forall2 R l l' -> (forall a b, R a b -> P a = Q b) -> Forall2 R (filter P l) (filter Q l').
Proof.
  intros HF HP. induction HF as [|a b l l' Hab HF IH]; cbn [filter]; [constructor|].
  rewrite (HP a b Hab). destruct (Q b); [constructor|]; assumption.
Qed.
Definition key_at (h : hash) (a : Z) : list Z :=
  match dat h a with Some (k, _, _, _, _) => k | None => [] end.
Lemma chain_count X h C A m (I : DInv X h C A m) i : 0 <= i <= h_mask h ->
  length (C i) = length (in_bucket (h_mask h) m i).
Proof.
  intros Hi.
  assert (Forall2 (holds h) (filter (fun a => bkt (h_mask h) (key_at h a) =? i) A) (in_bucket (h_mask h) m i)) as HF.
  { apply filter_Forall2; [exact (dv_abs _ _ _ _ _ I)|]. intros a [k v] (ex & E). unfold key_at. rewrite E. reflexivity. }
  rewrite <- (Forall2_length _ _ _ HF). apply Permutation_length. apply NoDup_Permutation.
  - apply (dv_nodup _ _ _ _ _ I).
  - apply NoDup_filter, (dv_Anodup _ _ _ _ _ I).
  - intros a. rewrite filter_In. split.
    + intros Ha. destruct (dv_inC _ _ _ _ _ I _ _ Ha) as (HA & _ & k & v & ex & E & Eb). split; [exact HA|]. unfold key_at. rewrite E. lia.
    + intros [HA Eb]. destruct (dv_elem _ _ _ _ _ I _ HA) as ([k v] & _ & ex & E). unfold key_at in Eb. rewrite E in Eb. cbn in *.
      apply Z.eqb_eq in Eb. rewrite <- Eb. eapply (dv_dom _ _ _ _ _ I); eassumption.
Qed.

Lemma dgrep_ok X h C A m (I : DInv X h C A m) k : (length (in_bucket (h_mask h) m (bkt (h_mask h) k)) <= GREP_MAX)%nat ->
  exists a, dwh_grep H h k = Ok a /\
    ((a = 0 /\ ~ In k (map fst m)) \/ (a <> 0 /\ In a A /\ exists v, In (k, v) m /\ holds h a (k, v))).
Proof.
  intros HL. assert (0 <= bkt (h_mask h) k <= h_mask h) as Hb by (apply (bkt_range H Hpos); exact (dv_mask _ _ _ _ _ I)).
  rewrite <- (chain_count _ _ _ _ _ I) in HL by exact Hb.
  unfold dwh_grep, bucket. fold (bkt (h_mask h) k). destruct (dv_chain _ _ _ _ _ I _ Hb) as (p & Hp & HC).
  rewrite (rd_of_zget _ _ _ Hp). cbn [bind].
  destruct (grep_loop_ok h k _ _ _ _ HC HL) as (a & -> & Ha). exists a. split; [reflexivity|].
  destruct Ha as [[-> Ha]|(Ha & Ha0 & e & He & Hk)].
  - left. split; [reflexivity|]. intros C0. apply in_map_iff in C0 as ([k' v] & Ek & Hin). cbn in Ek. subst k'.
    destruct (Forall2_In_r _ _ _ _ (dv_abs _ _ _ _ _ I) Hin) as (b & Hb' & ex & E). cbn in E.
    pose proof (dv_dom _ _ _ _ _ I _ _ _ _ _ _ Hb' E) as HbC. apply dat_some in E as (e & He & Hed). apply (Ha b e HbC He). unfold edata in Hed. congruence.
  - right. split; [exact Ha0|]. destruct (dv_inC _ _ _ _ _ I _ _ Ha) as (HA & _). split; [exact HA|].
    destruct (dv_elem _ _ _ _ _ I _ HA) as ([k' v] & Hin & Hh). exists v. pose proof Hh as (ex & E). cbn in E. rewrite (dat_elem _ _ _ He) in E.
    assert (k' = k) by congruence. subst k'. split; [exact Hin|exact Hh].
Qed.

Lemma d_remove_none k m : ~ In k (map fst m) -> d_remove k m = m.
Proof.
  induction m as [|[k' v] m IH]; cbn [map fst d_remove filter In]; [reflexivity|]. intros HN.
  replace (zlist_eqb k k') with false by (symmetry; apply zlist_eqb_neq; intros ->; tauto). cbn [negb].
  unfold d_remove in IH. rewrite IH by tauto. reflexivity.
Qed.
Lemma d_remove_notin k m : ~ In k (map fst (d_remove k m)).
Proof. intros C0. apply in_map_iff in C0 as ([k' v] & <- & Hin). apply filter_In in Hin as [_ E]. cbn in E. rewrite zlist_eqb_refl in E. discriminate. Qed.

(** Removing the element with key [k]. *)
Lemma dzap_ok X h C A m (I : DInv X h C A m) k a v : In a A -> holds h a (k, v) ->
  exists h' C' A', zap_elem h a true 0 = Ok (1, h') /\ DInv X h' C' A' (d_remove k m) /\
    h_mask h' = h_mask h /\ h_brk h' = h_brk h /\ (forall y, ~ In y A -> h_elems h' y = h_elems h y) /\ incl A' A.
Proof.
  intros Ha (ex & Hd). cbn [fst snd] in Hd.
  assert (0 <= bkt (h_mask h) k <= h_mask h) as Hb by (apply (bkt_range H Hpos); exact (dv_mask _ _ _ _ _ I)).
  set (i := bkt (h_mask h) k) in *.
  pose proof (dv_dom _ _ _ _ _ I _ _ _ _ _ _ Ha Hd) as HaC. fold i in HaC. destruct (in_split _ _ HaC) as (CA & CB & EC).
  destruct (dv_chain _ _ _ _ _ I i Hb) as (p & Hp & HC). pose proof (dv_nodup _ _ _ _ _ I i) as HNi. rewrite EC in HC, HNi.
  destruct (zap_unlink_ok h i p CA a CB Hp HC HNi) as (eh' & tab' & p' & EZ & HTL & HTi & HTj & HCh & Hfr & Hod).
  assert (~ In a (CA ++ CB)) as HaN by (apply NoDup_remove_2; exact HNi).
  pose proof Hd as Hd0. apply dat_some in Hd0 as (e & He & Hed). assert (a <> 0) as Ha0 by (pose proof (dv_addr _ _ _ _ _ I a ltac:(congruence)); lia).
  unfold zap_elem. rewrite (ge_ok h a e Ha0 He). cbn [bind]. unfold edata in Hed. injection Hed as _ _ _ E4 _. rewrite E4. cbn [Z.eqb].
  rewrite EZ. cbn [bind andb]. change (true && (0 =? 1)) with false. cbv iota. cbn [bind].
  set (h1 := set_tab (set_elems h eh') tab').
  assert (exists e', h_elems h1 a = Some e') as (e' & He').
  { specialize (Hod a). unfold h1. cbn. rewrite He in Hod. destruct (eh' a); [eauto|discriminate]. }
  unfold free_elem. rewrite (ge_ok h1 a e' Ha0 He'). cbn [bind].
  pose proof (dv_abs _ _ _ _ _ I) as HAm. destruct (in_split _ _ Ha) as (A1 & A2 & EA).
  pose proof (dv_Anodup _ _ _ _ _ I) as HNA. pose proof HNA as HNA0. rewrite EA in HNA0.
  assert (h_size (set_elems h1 (upd (h_elems h1) a None)) = zlen A) as HS by (cbn; exact (dv_size _ _ _ _ _ I)).
  rewrite HS. assert (0 < zlen A) by (rewrite EA, zlen_app, zlen_cons; pose proof (zlen_nonneg A1); pose proof (zlen_nonneg A2); lia).
  replace (0 <? zlen A) with true by lia.
  set (h' := set_size _ _).
  assert (forall b, dat h' b = if b =? a then None else dat h b) as HD.
  { intros b. unfold dat, h'. cbn. unfold upd. destruct (b =? a); [reflexivity|]. apply Hod. }
  assert (forall b, b <> a -> dat h' b = dat h b) as HD2 by (intros b Nb; rewrite HD; replace (b =? a) with false by lia; reflexivity).
  assert (forall j b, In b (upd C i (CA ++ CB) j) -> In b (C j) /\ b <> a) as HC1.
  { intros j b Hb'. unfold upd in Hb'. destruct (Z.eqb_spec j i) as [->|Nj].
    - split; [rewrite EC; apply in_app_iff; apply in_app_iff in Hb'; cbn; tauto|]. intros ->. contradiction.
    - split; [exact Hb'|]. intros ->. destruct (dv_inC _ _ _ _ _ I _ _ Hb') as (_ & _ & k1 & v1 & ex1 & Hd1 & Hb1).
      rewrite Hd in Hd1. injection Hd1 as <- _ _. unfold i in Nj. congruence. }
  assert (forall j b, In b (C j) -> b <> a -> In b (upd C i (CA ++ CB) j)) as HC2.
  { intros j b Hb' Nb. unfold upd. destruct (Z.eqb_spec j i) as [->|Nj]; [|exact Hb'].
    rewrite EC in Hb'. apply in_app_iff in Hb'. apply in_app_iff. cbn in Hb'. destruct Hb' as [?|[?|?]]; [tauto|congruence|tauto]. }
  assert (forall b, In b (A1 ++ A2) <-> In b A /\ b <> a) as HA12.
  { intros b. rewrite EA, !in_app_iff. cbn [In]. apply NoDup_remove_2 in HNA0. rewrite in_app_iff in HNA0. split.
    - intros Hb'. split; [tauto|]. intros ->. tauto.
    - intros [[?|[?|?]] ?]; [tauto|congruence|tauto]. }
  exists h', (upd C i (CA ++ CB)), (A1 ++ A2). split; [reflexivity|]. split; [|split; [reflexivity|split; [reflexivity|split; [|intros b Hb'; apply HA12; exact Hb']]]].
  2: { intros y Hy. unfold h'. cbn. rewrite upd_other by (intros ->; contradiction). apply Hfr. intros C0. apply Hy.
       assert (In y (C i)) as Hy' by (rewrite EC; apply in_app_iff; apply in_app_iff in C0; cbn; tauto). apply (dv_inC _ _ _ _ _ I _ _ Hy'). }
  constructor; unfold h'; cbn [h_mask h_tab h_elems h_filas h_brk h_size h_fila set_size set_tab set_elems]; fold h'.
  - exact (dv_mask _ _ _ _ _ I).
  - cbn. rewrite HTL. exact (dv_tab _ _ _ _ _ I).
  - cbn. intros j Hj. destruct (Z.eq_dec j i) as [->|Nj].
    + exists p'. split; [exact HTi|]. rewrite upd_same.
      apply (chain_frame eh'); [|exact HCh]. intros b Hb'. apply upd_other. intros ->. contradiction.
    + destruct (dv_chain _ _ _ _ _ I j Hj) as (q & Hq & HCj). exists q. rewrite HTj by exact Nj. split; [exact Hq|].
      rewrite (upd_other C) by exact Nj. apply (chain_frame (h_elems h)); [|exact HCj].
      intros b Hb'. destruct (dv_inC _ _ _ _ _ I _ _ Hb') as (_ & _ & k1 & v1 & ex1 & Hd1 & Hb1).
      assert (forall c, In c (C i) -> b <> c) as Nb.
      { intros c Hc ->. destruct (dv_inC _ _ _ _ _ I _ _ Hc) as (_ & _ & k2 & v2 & ex2 & Hd2 & Hb2). rewrite Hd1 in Hd2. injection Hd2 as <- _ _. congruence. }
      rewrite upd_other by (apply Nb; rewrite EC; apply in_app_iff; right; left; reflexivity).
      apply Hfr. intros Hb3. apply (Nb b); [|reflexivity]. rewrite EC. apply in_app_iff. apply in_app_iff in Hb3. cbn. tauto.
  - intros j. unfold upd. destruct (j =? i); [eapply NoDup_remove_1; exact HNi|exact (dv_nodup _ _ _ _ _ I j)].
  - intros j b Hb'. apply HC1 in Hb' as [Hb' Nb]. rewrite HD2 by exact Nb. destruct (dv_inC _ _ _ _ _ I _ _ Hb') as (K1 & K2 & K3).
    split; [apply HA12; auto|]. split; [exact K2|exact K3].
  - intros b k1 v1 f1 im1 ex1 Hb' Hdb. apply HA12 in Hb' as [Hb' Nb]. rewrite HD2 in Hdb by exact Nb. apply HC2; [|exact Nb].
    exact (dv_dom _ _ _ _ _ I _ _ _ _ _ _ Hb' Hdb).
  - (* the remaining elements hold the remaining entries *)
    assert (forall b kv, In b A -> b <> a -> holds h b kv -> fst kv <> k) as Nk.
    { intros b [k2 v2] Hb' Nb Hh Ek. cbn in Ek. subst k2. apply Nb. apply (same_key _ _ _ _ _ I b a k v2 v); auto. exists ex. exact Hd. }
    assert (forall A0 m0, (forall b, In b A0 -> In b A /\ b <> a) -> Forall2 (holds h) A0 m0 -> Forall2 (holds h') A0 (d_remove k m0)) as HR.
    { intros A0 m0 HA0 HF. revert HA0. induction HF as [|b kv A0 m0 Hh HF IH]; intros HA0; cbn [d_remove filter]; [constructor|].
      destruct (HA0 b (or_introl eq_refl)) as [Hb1 Nb1]. replace (zlist_eqb k (fst kv)) with false by (symmetry; apply zlist_eqb_neq; intros E; apply (Nk b kv Hb1 Nb1 Hh); congruence).
      cbn [negb]. constructor; [destruct Hh as (ex1 & Hh); exists ex1; rewrite HD2 by exact Nb1; exact Hh|]. apply IH. intros c Hc. apply HA0. right. exact Hc. }
    rewrite EA in HAm. apply Forall2_app_inv_l in HAm as (m1 & m2' & HF1 & HF2 & ->). inversion HF2 as [|? kv ? m2 Hha HF2']; subst.
    assert (kv = (k, v)) by (apply (holds_fun h a); [exact Hha|exists ex; exact Hd]). subst kv.
    unfold d_remove. rewrite filter_app. cbn [filter fst]. rewrite zlist_eqb_refl. cbn [negb].
    apply Forall2_app; apply HR; auto; intros b Hb'; apply HA12; apply in_app_iff; tauto.
  - eapply NoDup_remove_1; exact HNA0.
  - pose proof (dv_keys _ _ _ _ _ I) as HK. clear - HK. induction m as [|[k1 v1] m IH]; cbn [d_remove filter map fst] in *; [constructor|].
    apply NoDup_cons_iff in HK as [K1 K2]. destruct (negb (zlist_eqb k k1)); [|exact (IH K2)]. cbn [map fst]. constructor; [|exact (IH K2)].
    intros C0. apply K1. apply in_map_iff in C0 as (kv & E & Hin). apply filter_In in Hin as [Hin _]. apply in_map_iff. eauto.
  - intros b Hb' C0. apply HA12 in C0 as [C0 _]. exact (dv_X _ _ _ _ _ I b Hb' C0).
  - cbn. intros b Hb'. apply (dv_addr _ _ _ _ _ I). unfold upd in Hb'. destruct (b =? a); [congruence|].
    specialize (Hod b). destruct (eh' b), (h_elems h b); cbn in Hod; congruence.
  - exact (dv_fila _ _ _ _ _ I).
  - cbn. rewrite EA, !zlen_app, zlen_cons. lia.
  - exact (dv_brk _ _ _ _ _ I).
Qed.

(** Putting an element that is not in the table into it. *)
Lemma dlink_ok x X h C A m (I : DInv (x :: X) h C A m) k v : NoDup (x :: X) -> holds h x (k, v) -> ~ In k (map fst m) ->
  exists h' C', link_new H h x k = Ok h' /\ DInv X (set_size h' (h_size h' + 1)) C' (x :: A) ((k, v) :: m) /\
    h_mask h' = h_mask h /\ h_brk h' = h_brk h /\ (forall y, ~ In y (x :: A) -> h_elems h' y = h_elems h y) /\
    (forall y, dat h' y = dat h y).
Proof.
  intros HNX (ex & Hd) Hk. cbn [fst snd] in Hd.
  assert (~ In x A) as HxA by (apply (dv_X _ _ _ _ _ I); left; reflexivity).
  assert (0 <= bkt (h_mask h) k <= h_mask h) as Hb by (apply (bkt_range H Hpos); exact (dv_mask _ _ _ _ _ I)).
  destruct (dv_chain _ _ _ _ _ I _ Hb) as (p & Hp & HC).
  pose proof Hd as Hd0. apply dat_some in Hd0 as (e & He & Hed). assert (x <> 0) as Hx0 by (pose proof (dv_addr _ _ _ _ _ I x ltac:(congruence)); lia).
  assert (forall i, ~ In x (C i)) as HxC by (intros i Hi; apply HxA; apply (dv_inC _ _ _ _ _ I _ _ Hi)).
  assert (NoDup (x :: C (bkt (h_mask h) k))) as HN by (constructor; [apply HxC|apply (dv_nodup _ _ _ _ _ I)]).
  destruct (link_new_ok H h x k p _ e Hp HC HN Hx0 He) as (eh' & tab' & en' & EL & HTL & HTi & HTj & HCh & Hfr & Hod & Hen & Hed').
  fold (bkt (h_mask h) k) in *. change (bucket H h k) with (bkt (h_mask h) k) in *. set (i := bkt (h_mask h) k) in *.
  exists (set_tab (set_elems h eh') tab'), (upd C i (x :: C i)). split; [exact EL|].
  assert (forall b, dat (set_tab (set_elems h eh') tab') b = dat h b) as HD by (intros b; unfold dat; cbn; apply Hod).
  split; [|split; [reflexivity|split; [reflexivity|split; [|exact HD]]]].
  2: { intros y Hy. cbn. apply Hfr. intros [->|C0]; [apply Hy; left; reflexivity|]. apply Hy. right. apply (dv_inC _ _ _ _ _ I _ _ C0). }
  set (h' := set_size _ _).
  assert (forall b, dat h' b = dat h b) as HD' by (intros b; unfold dat; cbn; apply Hod).
  constructor; unfold h'; cbn [h_mask h_tab h_elems h_filas h_brk h_size h_fila set_size set_tab set_elems]; fold h'.
  - exact (dv_mask _ _ _ _ _ I).
  - rewrite HTL. exact (dv_tab _ _ _ _ _ I).
  - intros j Hj. destruct (Z.eq_dec j i) as [->|Nj].
    + exists x. split; [exact HTi|]. rewrite upd_same. exact HCh.
    + destruct (dv_chain _ _ _ _ _ I j Hj) as (q & Hq & HCj). exists q. rewrite HTj by exact Nj. split; [exact Hq|].
      rewrite (upd_other C) by exact Nj. apply (chain_frame (h_elems h)); [|exact HCj].
      intros b Hb'. apply Hfr. intros [->|C0]; [exact (HxC _ Hb')|].
      destruct (dv_inC _ _ _ _ _ I _ _ Hb') as (_ & _ & k1 & v1 & ex1 & Hd1 & Hb1). destruct (dv_inC _ _ _ _ _ I _ _ C0) as (_ & _ & k2 & v2 & ex2 & Hd2 & Hb2).
      rewrite Hd1 in Hd2. injection Hd2 as <- _ _. congruence.
  - intros j. unfold upd. destruct (j =? i); [exact HN|exact (dv_nodup _ _ _ _ _ I j)].
  - intros j b Hb'. unfold upd in Hb'. destruct (Z.eqb_spec j i) as [->|Nj].
    + destruct Hb' as [<-|Hb']; [split; [left; reflexivity|]; split; [exact Hb|]; exists k, v, ex; rewrite HD'; auto|].
      destruct (dv_inC _ _ _ _ _ I _ _ Hb') as (K1 & K2 & K3). split; [right; exact K1|]. rewrite HD'. auto.
    + destruct (dv_inC _ _ _ _ _ I _ _ Hb') as (K1 & K2 & K3). split; [right; exact K1|]. rewrite HD'. auto.
  - intros b k1 v1 f1 im1 ex1 Hb' Hdb. rewrite HD' in Hdb. destruct Hb' as [<-|Hb'].
    + rewrite Hd in Hdb. injection Hdb as <- _ _ _ _. fold i. rewrite upd_same. left. reflexivity.
    + pose proof (dv_dom _ _ _ _ _ I _ _ _ _ _ _ Hb' Hdb) as K. unfold upd. destruct (Z.eqb_spec (bkt (h_mask h) k1) i) as [E|_]; [right; rewrite <- E; exact K|exact K].
  - constructor; [exists ex; rewrite HD'; exact Hd|]. eapply Forall2_impl; [|exact (dv_abs _ _ _ _ _ I)]. intros b kv (ex1 & E). exists ex1. rewrite HD'. exact E.
  - constructor; [exact HxA|exact (dv_Anodup _ _ _ _ _ I)].
  - cbn [map fst]. constructor; [exact Hk|exact (dv_keys _ _ _ _ _ I)].
  - intros b Hb' [->|C0]; [apply NoDup_cons_iff in HNX as [HNX _]; contradiction|]. exact (dv_X _ _ _ _ _ I b (or_intror Hb') C0).
  - intros b Hb'. apply (dv_addr _ _ _ _ _ I). specialize (Hod b). destruct (eh' b), (h_elems h b); cbn in Hod; congruence.
  - exact (dv_fila _ _ _ _ _ I).
  - rewrite zlen_cons, (dv_size _ _ _ _ _ I). lia.
  - exact (dv_brk _ _ _ _ _ I).
Qed.

Lemma dplace_ok x X h C A m (I : DInv (x :: X) h C A m) k v : NoDup (x :: X) -> holds h x (k, v) ->
  (length (in_bucket (h_mask h) m (bkt (h_mask h) k)) <= GREP_MAX)%nat ->
  exists h' C' A', dwh_place_new H h x 0 = Ok (1, h') /\ DInv X h' C' A' (d_add k v m) /\
    h_mask h' = h_mask h /\ h_brk h' = h_brk h /\ (forall y, y <> x -> ~ In y A -> h_elems h' y = h_elems h y) /\ incl A' (x :: A).
Proof.
  intros HNX Hx HL. pose proof Hx as (ex & Hd). cbn [fst snd] in Hd. pose proof Hd as Hd0. apply dat_some in Hd0 as (e & He & Hed).
  assert (x <> 0) as Hx0 by (pose proof (dv_addr _ _ _ _ _ I x ltac:(congruence)); lia).
  unfold dwh_place_new. rewrite (ge_ok h x e Hx0 He). cbn [bind]. assert (e_key e = k) as -> by (unfold edata in Hed; congruence).
  unfold dwh_zap. destruct (dgrep_ok _ _ _ _ _ I k HL) as (a & -> & Ha). cbn [bind].
  assert (~ In x A) as HxA by (apply (dv_X _ _ _ _ _ I); left; reflexivity).
  destruct Ha as [[-> Ha]|(Ha0 & HaA & v' & Hin & Hh)].
  - cbn [Z.eqb bind]. change (0 =? -1) with false. cbv iota.
    destruct (dlink_ok x X h C A m I k v HNX Hx Ha) as (h' & C' & -> & I' & K1 & K2 & K3 & _). cbn [bind]. change (0 =? 1) with false. cbv iota.
    eexists _, C', (x :: A). split; [reflexivity|]. unfold d_add. rewrite (d_remove_none k m Ha). split; [exact I'|]. split; [exact K1|]. split; [exact K2|].
    split; [|apply incl_refl]. intros y Hy HyA. cbn. apply K3. intros [->|?]; congruence.
  - replace (a =? 0) with false by lia. destruct (dzap_ok _ _ _ _ _ I k a v' HaA Hh) as (h1 & C1 & A1 & -> & I1 & M1 & B1 & F1 & IA1). cbn [bind].
    change (1 =? -1) with false. cbv iota.
    assert (holds h1 x (k, v)) as Hx1 by (exists ex; unfold dat; rewrite F1 by exact HxA; exact Hd).
    destruct (dlink_ok x X h1 C1 A1 _ I1 k v HNX Hx1 (d_remove_notin k m)) as (h' & C' & -> & I' & K1 & K2 & K3 & _). cbn [bind]. change (0 =? 1) with false. cbv iota.
    eexists _, C', (x :: A1). split; [reflexivity|]. split; [exact I'|]. split; [cbn; congruence|]. split; [cbn; congruence|].
    split; [|intros y [->|Hy]; [left; reflexivity|right; apply IA1; exact Hy]].
    intros y Hy HyA. cbn. rewrite K3; [apply F1; exact HyA|]. intros [->|?]; [congruence|]. apply HyA, IA1. assumption.
Qed.

Lemma dalloc_ok X h C A m k v ex : DInv X h C A m ->
  let h' := snd (alloc_elem h (mkelem k v 0 0 ex 0 PNull)) in
  DInv (h_brk h :: X) h' C A m /\ holds h' (h_brk h) (k, v) /\ h_mask h' = h_mask h /\ h_brk h' = h_brk h + 1.
Proof.
  intros I h'. assert (h_elems h (h_brk h) = None) as HN.
  { destruct (h_elems h (h_brk h)) eqn:E; [|reflexivity]. pose proof (dv_addr _ _ _ _ _ I (h_brk h) ltac:(congruence)). lia. }
  assert (forall a, In a A -> a <> h_brk h) as HAb.
  { intros a Ha ->. destruct (dv_elem _ _ _ _ _ I _ Ha) as (kv & _ & ex1 & E). unfold dat in E. rewrite HN in E. discriminate. }
  assert (forall a, a <> h_brk h -> h_elems h' a = h_elems h a) as HE by (intros a Na; unfold h'; cbn; apply upd_other; exact Na).
  assert (forall a, a <> h_brk h -> dat h' a = dat h a) as HD by (intros a Na; unfold dat; rewrite HE by exact Na; reflexivity).
  split; [|split; [exists ex; unfold h', dat; cbn; rewrite upd_same; reflexivity|split; reflexivity]].
  constructor; unfold h'; cbn [snd alloc_elem put_elem set_elems set_brk h_mask h_tab h_elems h_filas h_brk h_size h_fila]; fold h'.
  - exact (dv_mask _ _ _ _ _ I).
  - exact (dv_tab _ _ _ _ _ I).
  - intros i Hi. destruct (dv_chain _ _ _ _ _ I i Hi) as (p & Hp & HC). exists p. split; [exact Hp|].
    apply (chain_frame (h_elems h)); [|exact HC]. intros a Ha. apply upd_other. apply HAb. apply (dv_inC _ _ _ _ _ I _ _ Ha).
  - exact (dv_nodup _ _ _ _ _ I).
  - intros i a Ha. destruct (dv_inC _ _ _ _ _ I _ _ Ha) as (K1 & K2 & K3). rewrite HD by (apply HAb; exact K1). auto.
  - intros a k1 v1 f1 im1 ex1 Ha Hd. rewrite HD in Hd by (apply HAb; exact Ha). exact (dv_dom _ _ _ _ _ I _ _ _ _ _ _ Ha Hd).
  - eapply Forall2_impl_In; [|exact (dv_abs _ _ _ _ _ I)]. intros a kv Ha _ (ex1 & E). exists ex1. rewrite HD by (apply HAb; exact Ha). exact E.
  - exact (dv_Anodup _ _ _ _ _ I).
  - exact (dv_keys _ _ _ _ _ I).
  - intros a [<-|Ha]; [intros C0; exact (HAb _ C0 eq_refl)|exact (dv_X _ _ _ _ _ I a Ha)].
  - intros a Ha. unfold upd in Ha. destruct (Z.eqb_spec a (h_brk h)) as [Na|Na]; [pose proof (dv_brk _ _ _ _ _ I); lia|]. pose proof (dv_addr _ _ _ _ _ I a Ha). lia.
  - exact (dv_fila _ _ _ _ _ I).
  - exact (dv_size _ _ _ _ _ I).
  - pose proof (dv_brk _ _ _ _ _ I). lia.
Qed.

Definition crowd_ok (mask : Z) (m : dict) : Prop := forall b, (length (in_bucket mask m b) <= MOVE_MAX)%nat.
Lemma crowd_grep mask m b : crowd_ok mask m -> (length (in_bucket mask m b) <= GREP_MAX)%nat.
Proof. intros HC. specialize (HC b). unfold MOVE_MAX, GREP_MAX in *. lia. Qed.

Lemma dadd_ok now h C A m k v : DInv [] h C A m -> crowd_ok (h_mask h) m ->
  exists h' C' A', dwh_add H now h k v 1 0 = Ok (1, h') /\ DInv [] h' C' A' (d_add k v m) /\ h_mask h' = h_mask h.
Proof.
  intros I HC. unfold dwh_add. change ((0 <? 1) || (1 =? -2)) with true. cbv iota.
  unfold init_expire. change (negb (1 =? -2)) with true. cbv iota. cbn [bind].
  change (1 <? 30) with true. cbv iota. set (ex := now + _).
  pose proof (dalloc_ok [] h C A m k v ex I) as (I1 & Hh & M1 & B1). unfold alloc_elem in *. cbn [snd] in *.
  destruct (dplace_ok _ _ _ _ _ _ I1 k v) as (h' & C' & A' & -> & I' & M' & _).
  - constructor; [intros []|constructor].
  - exact Hh.
  - rewrite M1. apply crowd_grep. exact HC.
  - cbn [bind]. change (1 =? -1) with false. change (0 =? 2) with false. cbv iota. exists h', C', A'. split; [reflexivity|]. split; [exact I'|congruence].
Qed.

(** *** Growing *)
Lemma in_bucket_incl mask m m' b : NoDup (map fst m) -> (forall k, In k (map fst m) -> In k (map fst m')) ->
  (length (in_bucket mask m b) <= length (in_bucket mask m' b))%nat.
Proof.
  intros HN HI. rewrite <- (map_length fst (in_bucket mask m b)), <- (map_length fst (in_bucket mask m' b)).
  apply NoDup_incl_length.
  - unfold in_bucket. clear HI. induction m as [|[k v] m IH]; cbn [map fst filter] in *; [constructor|].
    apply NoDup_cons_iff in HN as [N1 N2]. destruct (bkt mask k =? b); [|exact (IH N2)]. cbn [map fst]. constructor; [|exact (IH N2)].
    intros C0. apply N1. apply in_map_iff in C0 as (kv & E & Hin). apply filter_In in Hin as [Hin _]. apply in_map_iff. eauto.
  - intros k Hk. apply in_map_iff in Hk as ([k0 v] & <- & Hin). apply filter_In in Hin as [Hin Eb]. cbn [fst] in *.
    apply (in_map fst) in Hin. apply HI in Hin. cbn [fst] in Hin. apply in_map_iff in Hin as ([k1 v1] & Ek & Hin'). cbn in Ek. subst k1.
    apply in_map_iff. exists (k0, v1). split; [reflexivity|]. apply filter_In. split; [exact Hin'|]. exact Eb.
Qed.

(** [L]: the rest of the chain being moved, with its entries [ML]; [X]: what comes after. *)
Lemma grow_chain_ok L : forall n loc X h C A m p ML,
  DInv (L ++ X) h C A m -> NoDup (L ++ X) -> chain (h_elems h) loc p L -> Forall2 (holds h) L ML ->
  NoDup (map fst (rev ML ++ m)) -> crowd_ok (h_mask h) (rev ML ++ m) -> (length L <= n)%nat ->
  exists h' C' A', grow_chain n H h p = Ok h' /\ DInv X h' C' A' (rev ML ++ m) /\ h_mask h' = h_mask h /\
    (forall y, ~ In y L -> ~ In y A -> h_elems h' y = h_elems h y) /\ incl A' (L ++ A).
Proof.
  induction L as [|a L IH]; intros n loc X h C A m p ML I HN HC HF HK HCr Hn.
  - inversion HF; subst. cbn [chain] in HC. subst p. exists h, C, A. cbn [app rev] in *. split; [destruct n; reflexivity|]. split; [exact I|]. split; [reflexivity|]. split; [reflexivity|apply incl_refl].
  - inversion HF as [|? [k v] ? ML' Ha HF']; subst. cbn [chain] in HC. destruct HC as (-> & Ha0 & e & He & _ & HC).
    destruct n as [|n]; [cbn in Hn; lia|]. cbn [grow_chain]. replace (a =? 0) with false by lia. rewrite (ge_ok h a e Ha0 He). cbn [bind].
    cbn [rev] in HK, HCr. rewrite <- app_assoc in HK, HCr. cbn [app] in HK, HCr.
    assert (NoDup (map fst m) /\ ~ In k (map fst m) /\ NoDup (map fst ((k, v) :: m))) as (Km & Kk & Kkm).
    { rewrite map_app in HK. cbn [map fst] in *. clear - HK. induction (map fst (rev ML')) as [|q Q IHQ]; cbn [app] in HK.
      - apply NoDup_cons_iff in HK as [K1 K2]. split; [exact K2|]. split; [exact K1|]. constructor; assumption.
      - apply NoDup_cons_iff in HK as [_ HK]. exact (IHQ HK). }
    cbn [app] in I, HN.
    destruct (dplace_ok a (L ++ X) h C A m I k v HN Ha) as (h1 & C1 & A1 & -> & I1 & M1 & B1 & F1 & IA1).
    { eapply Nat.le_trans; [|apply (crowd_grep _ _ (bkt (h_mask h) k) HCr)]. apply in_bucket_incl; [exact Km|]. intros q Hq. rewrite map_app. apply in_app_iff. right. right. exact Hq. }
    cbn [bind].
    assert (d_add k v m = (k, v) :: m) as EA by (unfold d_add; rewrite d_remove_none by exact Kk; reflexivity). rewrite EA in I1.
    pose proof (NoDup_cons_iff a (L ++ X)) as [HN' _]. destruct (HN' HN) as [HaL HNL].
    assert (forall y, In y L -> h_elems h1 y = h_elems h y) as HFr.
    { intros y Hy. apply F1; [intros ->; apply HaL; apply in_app_iff; left; exact Hy|]. apply (dv_X _ _ _ _ _ I). right. apply in_app_iff. left. exact Hy. }
    destruct (IH n (PNext a) X h1 C1 A1 ((k, v) :: m) (e_next e) ML' I1 HNL) as (h' & C' & A' & E' & I' & M' & F' & IA').
    + apply (chain_frame (h_elems h)); [exact HFr|exact HC].
    + eapply Forall2_impl_In; [|exact HF']. intros y kv Hy _ (ex & E). exists ex. unfold dat in *. rewrite HFr by exact Hy. exact E.
    + exact HK.
    + rewrite M1. exact HCr.
    + cbn in Hn. lia.
    + exists h', C', A'. split; [exact E'|]. cbn [rev]. rewrite <- app_assoc. split; [exact I'|]. split; [congruence|]. split.
      * intros y HyL HyA. cbn [In] in HyL. rewrite F'.
        -- apply F1; [intros ->; tauto|exact HyA].
        -- tauto.
        -- intros C0. apply IA1 in C0 as [->|C0]; [tauto|contradiction].
      * intros y Hy. apply IA' in Hy. apply in_app_iff in Hy. cbn [app In]. rewrite in_app_iff. destruct Hy as [Hy|Hy]; [tauto|]. apply IA1 in Hy as [->|Hy]; tauto.
Qed.

Lemma chain_ext eh eh' L loc p : (forall a, In a L -> eh' a = eh a) -> chain eh loc p L -> chain eh' loc p L.
Proof. intros HF HC. apply (chain_frame eh); assumption. Qed.

Lemma grow_buckets_ok tab : forall Ls h C A m ML,
  DInv (concat Ls) h C A m -> NoDup (concat Ls) ->
  Forall2 (fun p L => exists loc, chain (h_elems h) loc p L) tab Ls -> Forall2 (holds h) (concat Ls) ML ->
  NoDup (map fst (rev ML ++ m)) -> crowd_ok (h_mask h) (rev ML ++ m) -> Forall (fun L => (length L <= MOVE_MAX)%nat) Ls ->
  exists h' C' A', grow_buckets H tab h = Ok h' /\ DInv [] h' C' A' (rev ML ++ m) /\ h_mask h' = h_mask h.
Proof.
  induction tab as [|p tab IH]; intros Ls h C A m ML I HN HC HF HK HCr HL.
  - inversion HC; subst. cbn [concat] in *. inversion HF; subst. exists h, C, A. cbn [rev app] in *. auto.
  - inversion HC as [|? L ? Ls' (loc & HCL) HC']; subst. cbn [concat] in *. apply Forall2_app_inv_l in HF as (M1 & M2 & HF1 & HF2 & ->).
    apply Forall_cons_iff in HL as [HL1 HL2]. rewrite rev_app_distr, <- app_assoc in HK, HCr.
    assert (NoDup (map fst (rev M1 ++ m))) as K1.
    { clear - HK. rewrite map_app in HK. induction (map fst (rev M2)) as [|q Q IHQ]; cbn [app] in HK; [exact HK|]. apply NoDup_cons_iff in HK as [_ HK]. exact (IHQ HK). }
    cbn [grow_buckets].
    destruct (grow_chain_ok L MOVE_MAX loc (concat Ls') h C A m p M1 I HN HCL HF1 K1) as (h1 & C1 & A1 & -> & I1 & E1 & F1 & IA1).
    { intros b. eapply Nat.le_trans; [|apply (HCr b)]. apply in_bucket_incl; [exact K1|]. intros q Hq. rewrite map_app. apply in_app_iff. right. exact Hq. }
    { exact HL1. }
    cbn [bind].
    assert (forall a, In a (concat Ls') -> h_elems h1 a = h_elems h a) as HFr.
    { intros a Ha. apply F1.
      - intros C0. clear - HN C0 Ha. induction L as [|x L IHL]; [exact C0|]. cbn [app] in HN. apply NoDup_cons_iff in HN as [N1 N2]. destruct C0 as [->|C0]; [apply N1; apply in_app_iff; right; exact Ha|exact (IHL N2 C0)].
      - apply (dv_X _ _ _ _ _ I). apply in_app_iff. right. exact Ha. }
    assert (NoDup (concat Ls')) as HN'.
    { clear - HN. induction L as [|x L IHL]; cbn [app] in HN; [exact HN|]. apply NoDup_cons_iff in HN as [_ HN]. exact (IHL HN). }
    destruct (IH Ls' h1 C1 A1 (rev M1 ++ m) M2 I1 HN') as (h' & C' & A' & E' & I' & M').
    + clear - HC' HFr. revert HFr. induction HC' as [|q L0 tab Ls0 (loc & Hc) HC IHC]; intros HFr; constructor.
      * exists loc. apply (chain_frame (h_elems h)); [|exact Hc]. intros a Ha. apply HFr. cbn [concat]. apply in_app_iff. left. exact Ha.
      * apply IHC. intros a Ha. apply HFr. cbn [concat]. apply in_app_iff. right. exact Ha.
    + eapply Forall2_impl_In; [|exact HF2]. intros a kv Ha _ (ex & E). exists ex. unfold dat in *. rewrite HFr by exact Ha. exact E.
    + exact HK.
    + rewrite E1. exact HCr.
    + exact HL2.
    + exists h', C', A'. split; [exact E'|]. rewrite rev_app_distr, <- app_assoc. split; [exact I'|congruence].
Qed.

Lemma Forall2_perm {A B} (R : A -> B -> Prop) l l' : Permutation l l' -> forall m, Forall2 R l m -> exists m', Permutation m m' /\ Forall2 R l' m'.
Proof.
  induction 1 as [|x l l' HP IH|x y l|l l' l'' HP IH HP2 IH2]; intros m HF.
  - inversion HF; subst. exists []. auto.
  - inversion HF as [|? b ? m0 Hb HF0]; subst. destruct (IH _ HF0) as (m' & P' & F'). exists (b :: m'). split; [constructor; exact P'|constructor; assumption].
  - inversion HF as [|? b ? m0 Hb HF0]; subst. inversion HF0 as [|? b' ? m1 Hb' HF1]; subst. exists (b' :: b :: m1). split; [constructor|repeat constructor; assumption].
  - destruct (IH _ HF) as (m' & P' & F'). destruct (IH2 _ F') as (m'' & P'' & F''). exists m''. split; [etransitivity; eassumption|exact F''].
Qed.
Lemma Forall2_flip' {A B} (R : A -> B -> Prop) l l' : Forall2 R l l' -> Forall2 (fun b a => R a b) l' l.
Proof. induction 1; constructor; assumption. Qed.

(** The order of [m] does not matter. *)
Lemma DInv_perm X h C A m m' : DInv X h C A m -> Permutation m m' -> exists A', DInv X h C A' m'.
Proof.
  intros I HP. destruct (Forall2_perm _ _ _ HP _ (Forall2_flip' _ _ _ (dv_abs _ _ _ _ _ I))) as (A' & PA & FA).
  exists A'. constructor.
  - exact (dv_mask _ _ _ _ _ I).
  - exact (dv_tab _ _ _ _ _ I).
  - exact (dv_chain _ _ _ _ _ I).
  - exact (dv_nodup _ _ _ _ _ I).
  - intros i a Ha. destruct (dv_inC _ _ _ _ _ I _ _ Ha) as (K1 & K2). split; [eapply Permutation_in; eassumption|exact K2].
  - intros a k v f im ex Ha. apply (dv_dom _ _ _ _ _ I). eapply Permutation_in; [symmetry; exact PA|exact Ha].
  - apply Forall2_flip' in FA. exact FA.
  - eapply Permutation_NoDup; [exact PA|exact (dv_Anodup _ _ _ _ _ I)].
  - eapply Permutation_NoDup; [apply Permutation_map; exact HP|exact (dv_keys _ _ _ _ _ I)].
  - intros a Ha C0. apply (dv_X _ _ _ _ _ I a Ha). eapply Permutation_in; [symmetry; exact PA|exact C0].
  - exact (dv_addr _ _ _ _ _ I).
  - exact (dv_fila _ _ _ _ _ I).
  - rewrite (dv_size _ _ _ _ _ I). unfold zlen. rewrite (Permutation_length PA). reflexivity.
  - exact (dv_brk _ _ _ _ _ I).
Qed.
Lemma in_bucket_perm mask m m' b : Permutation m m' -> length (in_bucket mask m b) = length (in_bucket mask m' b).
Proof.
  intros HP. unfold in_bucket. induction HP as [|x l l' HP IH|x y l|l l' l'' HP IH HP2 IH2]; cbn [filter]; try congruence.
  - destruct (bkt mask (fst x) =? b); cbn [length]; congruence.
  - destruct (bkt mask (fst x) =? b), (bkt mask (fst y) =? b); reflexivity.
Qed.

(** All chains, in the order of the table. *)
Definition idx (n : nat) : list Z := map Z.of_nat (seq 0 n).
Definition all_chains (C : Z -> list Z) (mask : Z) : list (list Z) := map C (idx (Z.to_nat (mask + 1))).
Lemma in_idx n i : In i (idx n) <-> 0 <= i < Z.of_nat n.
Proof. unfold idx. rewrite in_map_iff. split; [intros (x & <- & Hx); apply in_seq in Hx; lia|]. intros Hi. exists (Z.to_nat i). split; [lia|]. apply in_seq. lia. Qed.
Lemma nodup_idx n : NoDup (idx n).
Proof. unfold idx. apply FinFun.Injective_map_NoDup; [intros a b E; lia|apply seq_NoDup]. Qed.

Lemma concat_nodup (l : list Z) (C : Z -> list Z) : NoDup l -> (forall i, NoDup (C i)) ->
  (forall i j a, In i l -> In j l -> In a (C i) -> In a (C j) -> i = j) -> NoDup (concat (map C l)).
Proof.
  intros HN HC HD. induction l as [|i l IH]; cbn [map concat]; [constructor|]. apply NoDup_cons_iff in HN as [N1 N2].
  assert (NoDup (concat (map C l))) as HN' by (apply IH; [exact N2|]; intros; eapply HD; try right; eassumption).
  assert (forall a, In a (C i) -> ~ In a (concat (map C l))) as HX.
  { intros a Ha C0. apply in_concat in C0 as (L & HL & HaL). apply in_map_iff in HL as (j & <- & Hj).
    apply N1. rewrite (HD i j a); auto; [left; reflexivity|right; exact Hj]. }
  specialize (HC i). induction (C i) as [|x L IHL]; cbn [app]; [exact HN'|]. apply NoDup_cons_iff in HC as [C1 C2]. constructor.
  - rewrite in_app_iff. intros [?|?]; [contradiction|]. apply (HX x); [left; reflexivity|assumption].
  - apply IHL; [exact C2|]. intros a Ha. apply HX. right. exact Ha.
Qed.

Lemma chains_perm X h C A m (I : DInv X h C A m) : Permutation A (concat (all_chains C (h_mask h))).
Proof.
  pose proof (dv_mask _ _ _ _ _ I). apply NoDup_Permutation.
  - exact (dv_Anodup _ _ _ _ _ I).
  - apply concat_nodup; [apply nodup_idx|exact (dv_nodup _ _ _ _ _ I)|]. intros i j a _ _ Hi Hj.
    destruct (dv_inC _ _ _ _ _ I _ _ Hi) as (_ & _ & k1 & v1 & ex1 & D1 & B1). destruct (dv_inC _ _ _ _ _ I _ _ Hj) as (_ & _ & k2 & v2 & ex2 & D2 & B2).
    rewrite D1 in D2. injection D2 as <- _ _. congruence.
  - intros a. split.
    + intros Ha. destruct (dv_elem _ _ _ _ _ I _ Ha) as ([k v] & _ & ex & E). pose proof (dv_dom _ _ _ _ _ I _ _ _ _ _ _ Ha E) as HC.
      apply in_concat. eexists. split; [|exact HC]. apply in_map_iff. eexists. split; [reflexivity|]. apply in_idx.
      destruct (dv_inC _ _ _ _ _ I _ _ HC) as (_ & ? & _). lia.
    + intros Ha. apply in_concat in Ha as (L & HL & HaL). apply in_map_iff in HL as (i & <- & _). apply (dv_inC _ _ _ _ _ I _ _ HaL).
Qed.

Lemma zslice_as_map (l : list Z) n : 0 <= n <= zlen l -> forall d,
  zslice l 0 n = map (fun i => match zget l i with Some v => v | None => d end) (idx (Z.to_nat n)).
Proof.
  intros Hn d. unfold idx. rewrite map_map. apply zlist_ext.
  - rewrite zlen_zslice by lia. unfold zlen. rewrite map_length, seq_length. lia.
  - rewrite zlen_zslice by lia. intros i Hi. rewrite zget_zslice by lia. rewrite Z.add_0_l. unfold zget at 2. replace (i <? 0) with false by lia.
    rewrite (map_nth_error _ (Z.to_nat i) (seq 0 (Z.to_nat n)) (d := Z.to_nat i)).
    + rewrite Z2Nat.id by lia. destruct (zget_some l i) as (b & ->); [lia|]. reflexivity.
    + rewrite (nth_error_nth' _ 0%nat) by (rewrite seq_length; lia). rewrite seq_nth by lia. reflexivity.
Qed.

Definition mask_ok (mask : Z) : Prop := exists n, 2 <= n <= 28 /\ mask = 2 ^ n - 1.
Lemma mask_cases mask : mask_ok mask -> Z.land (mask + 1) mask = 0 /\ h_mask (dwh_hash_init 0 (mask + 1)) = Z.min (2 * mask + 1) 268435455 /\
  mask_ok (Z.min (2 * mask + 1) 268435455).
Proof.
  intros (n & Hn & ->).
  assert (n = 2 \/ n = 3 \/ n = 4 \/ n = 5 \/ n = 6 \/ n = 7 \/ n = 8 \/ n = 9 \/ n = 10 \/ n = 11 \/ n = 12 \/ n = 13 \/ n = 14 \/ n = 15 \/ n = 16 \/
    n = 17 \/ n = 18 \/ n = 19 \/ n = 20 \/ n = 21 \/ n = 22 \/ n = 23 \/ n = 24 \/ n = 25 \/ n = 26 \/ n = 27 \/ n = 28) as HC by lia.
  split; [|split].
  - repeat (destruct HC as [->|HC]; [reflexivity|]). subst n. reflexivity.
  - unfold dwh_hash_init. cbn [h_mask]. repeat (destruct HC as [->|HC]; [vm_compute; reflexivity|]). subst n. vm_compute. reflexivity.
  - destruct (Z.eq_dec n 28) as [->|N]; [exists 28; split; [lia|reflexivity]|]. exists (n + 1). split; [lia|]. rewrite Z.pow_add_r by lia. change (2 ^ 1) with 2.
    assert (2 ^ n <= 2 ^ 27) by (apply Z.pow_le_mono_r; lia). lia.
Qed.

Lemma empty_dinv X (eh : Z -> option elem) fi brk mask mx : 0 <= mask -> (forall a, eh a <> None -> 0 < a < brk) -> 0 < brk ->
  DInv X (mkhash eh fi brk 0 (repeat 0 (Z.to_nat (mask + 2))) mask 0 mx) (fun _ => []) [] [].
Proof.
  intros Hm Ha Hb. constructor; cbn [h_mask h_tab h_elems h_filas h_brk h_size h_fila]; try (intros; contradiction); try assumption; try constructor.
  - unfold zlen. rewrite repeat_length. lia.
  - exists 0. split; [|reflexivity]. unfold zget. replace (i <? 0) with false by lia. apply nth_error_repeat. lia.
  - intros ? _ [].
Qed.

Lemma dwh_init_shape el : exists mx, dwh_hash_init 0 el = mkhash (fun _ => None) (fun _ => None) 1 0 (repeat 0 (Z.to_nat (h_mask (dwh_hash_init 0 el) + 2))) (h_mask (dwh_hash_init 0 el)) 0 mx.
Proof. unfold dwh_hash_init. cbn [h_mask]. eexists. f_equal. f_equal. f_equal. lia. Qed.

Lemma autogrow_ok h C A m : DInv [] h C A m -> mask_ok (h_mask h) ->
  crowd_ok (h_mask h) m -> crowd_ok (next_mask (h_mask h) (zlen m)) m ->
  exists h' C' A', dwh_hash_autogrow H h = Ok h' /\ DInv [] h' C' A' m /\ h_mask h' = next_mask (h_mask h) (zlen m) /\ mask_ok (h_mask h').
Proof.
  intros I HM HC HC'. unfold dwh_hash_autogrow. rewrite (dv_fila _ _ _ _ _ I). cbn [Z.eqb negb].
  assert (h_size h = zlen m) as HS by (rewrite (dv_size _ _ _ _ _ I); unfold zlen; rewrite (Forall2_length _ _ _ (dv_abs _ _ _ _ _ I)); reflexivity).
  unfold next_mask in *. rewrite HS. destruct (zlen m <? h_mask h); [exists h, C, A; auto|].
  destruct (mask_cases _ HM) as (E1 & E2 & E3). rewrite E1. cbn [Z.eqb negb].
  destruct (dwh_init_shape (h_mask h + 1)) as (mx & ET). rewrite E2 in ET. cbv zeta. rewrite ET. cbn [h_fila h_tab h_mask h_size h_max].
  pose proof (dv_mask _ _ _ _ _ I) as Hm0.
  set (Ls := all_chains C (h_mask h)).
  pose proof (chains_perm _ _ _ _ _ I) as HP. fold Ls in HP.
  destruct (Forall2_perm _ _ _ HP _ (dv_abs _ _ _ _ _ I)) as (ML & PM & FM).
  set (h0 := mkhash _ _ _ _ _ _ _ _).
  assert (Permutation m (rev ML)) as PR by (rewrite PM; apply Permutation_rev).
  destruct (grow_buckets_ok (zslice (h_tab h) 0 (h_mask h + 1)) Ls h0 (fun _ => []) [] [] ML) as (h' & C' & A' & E' & I' & M').
  - unfold h0. apply empty_dinv; [lia|exact (dv_addr _ _ _ _ _ I)|exact (dv_brk _ _ _ _ _ I)].
  - eapply Permutation_NoDup; [exact HP|exact (dv_Anodup _ _ _ _ _ I)].
  - rewrite (zslice_as_map _ _) with (d := 0) by (rewrite (dv_tab _ _ _ _ _ I); lia). unfold Ls, all_chains.
    assert (forall i, In i (idx (Z.to_nat (h_mask h + 1))) -> 0 <= i <= h_mask h) as HI by (intros i Hi; apply in_idx in Hi; lia).
    revert HI. generalize (idx (Z.to_nat (h_mask h + 1))). intros l HI. induction l as [|i l IHl]; cbn [map]; constructor.
    + destruct (dv_chain _ _ _ _ _ I i (HI i (or_introl eq_refl))) as (p & -> & Hc). exists (PBucket i). exact Hc.
    + apply IHl. intros j Hj. apply HI. right. exact Hj.
  - exact FM.
  - rewrite app_nil_r. eapply Permutation_NoDup; [apply Permutation_map; exact PR|exact (dv_keys _ _ _ _ _ I)].
  - rewrite app_nil_r. intros b. rewrite <- (in_bucket_perm _ _ _ b PR). apply HC'.
  - apply Forall_forall. intros L HL. apply in_map_iff in HL as (i & <- & Hi). apply in_idx in Hi. rewrite (chain_count _ _ _ _ _ I) by lia. apply HC.
  - rewrite app_nil_r in I'. destruct (DInv_perm _ _ _ _ _ _ I' (Permutation_sym PR)) as (A'' & I''). exists h', C', A''.
    split; [exact E'|]. split; [exact I''|]. split; [exact M'|]. rewrite M'. exact E3.
Qed.

(** *** Lookups *)
Lemma d_fetch_in m k v : NoDup (map fst m) -> In (k, v) m -> d_fetch k m = Some v.
Proof.
  unfold d_fetch. induction m as [|[k1 v1] m IH]; cbn [map fst find In]; [tauto|]. intros HN. apply NoDup_cons_iff in HN as [N1 N2].
  intros [E|Hin]; [injection E as -> ->; rewrite zlist_eqb_refl; reflexivity|].
  replace (zlist_eqb k k1) with false; [exact (IH N2 Hin)|]. symmetry. apply zlist_eqb_neq. intros ->. apply N1. apply (in_map fst) in Hin. exact Hin.
Qed.
Lemma d_fetch_none m k : ~ In k (map fst m) -> d_fetch k m = None.
Proof.
  unfold d_fetch. induction m as [|[k1 v1] m IH]; cbn [map fst find In]; [reflexivity|]. intros HN.
  replace (zlist_eqb k k1) with false by (symmetry; apply zlist_eqb_neq; intros ->; tauto). apply IH. tauto.
Qed.
Lemma fetch_ok' now h C A m k : DInv [] h C A m -> crowd_ok (h_mask h) m -> dwd_fetch H now h k = Ok (d_fetch k m).
Proof.
  intros I HC. unfold dwd_fetch, dwh_get. destruct (dgrep_ok _ _ _ _ _ I k (crowd_grep _ _ _ HC)) as (a & -> & Ha). cbn [bind].
  destruct Ha as [[-> Ha]|(Ha0 & HaA & v & Hin & ex & E)].
  - cbn [Z.eqb bind]. rewrite (d_fetch_none _ _ Ha). reflexivity.
  - replace (a =? 0) with false by lia. cbn in E. apply dat_some in E as (e & He & Hed). rewrite (ge_ok h a e Ha0 He). cbn [bind].
    change (0 =? 1) with false. cbn [andb bind]. rewrite (d_fetch_in _ _ _ (dv_keys _ _ _ _ _ I) Hin). unfold edata in Hed. congruence.
Qed.

(** *** Walking through the keys *)
Lemma nextkey_found L : forall n loc h p k key, chain (h_elems h) loc p L -> (0 < n)%nat ->
  match L with
  | [] => nextkey_chain n h key true p = Ok (inr true)
  | a :: _ => key_at h a = k -> nextkey_chain n h key true p = Ok (inl k)
  end.
Proof.
  destruct L as [|a L]; intros n loc h p k key HC Hn; destruct n as [|n]; try lia; cbn [chain nextkey_chain] in *.
  - subst p. reflexivity.
  - destruct HC as (-> & Ha0 & e & He & _). replace (a =? 0) with false by lia. rewrite (ge_ok h a e Ha0 He). cbn [bind].
    unfold key_at. rewrite (dat_elem _ _ _ He). intros ->. reflexivity.
Qed.
Lemma nextkey_search L : forall n loc h p k, chain (h_elems h) loc p L -> (length L <= n)%nat -> ~ In k (map (key_at h) L) ->
  nextkey_chain n h (Some k) false p = Ok (inr false).
Proof.
  induction L as [|a L IH]; intros n loc h p k HC Hn HN; destruct n as [|n]; cbn [length] in Hn; try lia; cbn [chain nextkey_chain] in *; try reflexivity.
  - subst p. reflexivity.
  - destruct HC as (-> & Ha0 & e & He & _ & HC). replace (a =? 0) with false by lia. rewrite (ge_ok h a e Ha0 He). cbn [bind].
    cbn [map In] in HN. unfold key_at at 1 in HN. rewrite (dat_elem _ _ _ He) in HN.
    replace (zlist_eqb (e_key e) k) with false by (symmetry; apply zlist_eqb_neq; tauto). eapply IH; [exact HC|lia|tauto].
Qed.
Lemma nextkey_hit L1 : forall n loc h p a L2 k, chain (h_elems h) loc p (L1 ++ a :: L2) -> (length (L1 ++ a :: L2) <= n)%nat ->
  key_at h a = k -> ~ In k (map (key_at h) L1) ->
  nextkey_chain n h (Some k) false p = Ok (match L2 with [] => inr true | b :: _ => inl (key_at h b) end).
Proof.
  induction L1 as [|b L1 IH]; intros n loc h p a L2 k HC Hn Hk HN; cbn [app length] in *; destruct n as [|n]; try lia; cbn [chain nextkey_chain] in *.
  - destruct HC as (-> & Ha0 & e & He & _ & HC). replace (a =? 0) with false by lia. rewrite (ge_ok h a e Ha0 He). cbn [bind].
    unfold key_at in Hk. rewrite (dat_elem _ _ _ He) in Hk. subst k. rewrite zlist_eqb_refl.
    destruct L2 as [|b L2]; cbn [chain] in HC.
    + rewrite HC. destruct n; reflexivity.
    + destruct HC as (Eb & Hb0 & eb & Heb & _). rewrite Eb. destruct n as [|n]; [cbn in Hn; lia|]. cbn [nextkey_chain]. replace (b =? 0) with false by lia.
      rewrite (ge_ok h b eb Hb0 Heb). cbn [bind]. unfold key_at. rewrite (dat_elem _ _ _ Heb). reflexivity.
  - destruct HC as (-> & Ha0 & e & He & _ & HC). replace (b =? 0) with false by lia. rewrite (ge_ok h b e Ha0 He). cbn [bind].
    cbn [map In] in HN. unfold key_at at 1 in HN. rewrite (dat_elem _ _ _ He) in HN.
    replace (zlist_eqb (e_key e) k) with false by (symmetry; apply zlist_eqb_neq; tauto). eapply IH; [exact HC|lia|exact Hk|tauto].
Qed.

Definition ok_tab (h : hash) (tab : list Z) (Ls : list (list Z)) : Prop :=
  Forall2 (fun p L => exists loc, chain (h_elems h) loc p L /\ (length L <= MOVE_MAX)%nat) tab Ls.
Lemma buckets_found tab : forall Ls h key, ok_tab h tab Ls ->
  nextkey_buckets h key true tab = Ok (hd_error (map (key_at h) (concat Ls))).
Proof.
  induction tab as [|p tab IH]; intros Ls h key HO; inversion HO as [|? L ? Ls' (loc & HC & HL) HO']; subst; cbn [nextkey_buckets concat map]; [reflexivity|].
  assert (0 < MOVE_MAX)%nat as HM by (unfold MOVE_MAX; lia).
  destruct L as [|a L].
  - rewrite (nextkey_found [] MOVE_MAX loc h p [] key HC HM). cbn [bind app]. exact (IH _ _ _ HO').
  - rewrite (nextkey_found (a :: L) MOVE_MAX loc h p _ key HC HM eq_refl). reflexivity.
Qed.
Lemma buckets_search tab : forall Ls h k A B, ok_tab h tab Ls -> map (key_at h) (concat Ls) = A ++ k :: B -> ~ In k A ->
  nextkey_buckets h (Some k) false tab = Ok (hd_error B).
Proof.
  induction tab as [|p tab IH]; intros Ls h k A B HO HE HA; inversion HO as [|? L ? Ls' (loc & HC & HL) HO']; subst; cbn [nextkey_buckets concat map] in *; [destruct A; discriminate|].
  rewrite map_app in HE. destruct (in_dec (list_eq_dec Z.eq_dec) k (map (key_at h) L)) as [Hin|Hin].
  - (* in this chain *)
    assert (exists L1 a L2, L = L1 ++ a :: L2 /\ key_at h a = k /\ ~ In k (map (key_at h) L1)) as (L1 & a & L2 & -> & Ka & KL).
    { clear - Hin. induction L as [|x L IHL]; [destruct Hin|]. destruct (list_eq_dec Z.eq_dec (key_at h x) k) as [E|N].
      - exists [], x, L. auto.
      - destruct Hin as [E|Hin]; [contradiction|]. destruct (IHL Hin) as (L1 & a & L2 & -> & K1 & K2). exists (x :: L1), a, L2. split; [reflexivity|]. split; [exact K1|]. cbn [map]. intros [E|C0]; contradiction. }
    rewrite (nextkey_hit L1 MOVE_MAX loc h p a L2 k HC HL Ka KL). cbn [bind].
    assert (B = map (key_at h) L2 ++ map (key_at h) (concat Ls')) as ->.
    { rewrite map_app in HE. cbn [map] in HE. rewrite Ka in HE. rewrite <- app_assoc in HE. cbn [app] in HE.
      clear - HE HA KL. revert A HE HA. induction (map (key_at h) L1) as [|q Q IHQ]; intros [|a0 A] HE HA; cbn [app] in HE.
      - injection HE as <-. reflexivity.
      - injection HE as E _. exfalso. apply HA. left. auto.
      - injection HE as E _. exfalso. apply KL. left. auto.
      - injection HE as -> HE. apply (IHQ ltac:(intros C0; apply KL; right; exact C0) A HE). intros C0. apply HA. right. exact C0. }
    destruct L2 as [|b L2]; cbn [map app hd_error]; [|reflexivity]. exact (buckets_found _ _ _ _ HO').
  - rewrite (nextkey_search L MOVE_MAX loc h p k HC HL Hin). cbn [bind].
    assert (exists A', A = map (key_at h) L ++ A' /\ map (key_at h) (concat Ls') = A' ++ k :: B) as (A' & -> & HE').
    { clear - HE Hin. revert A HE. induction (map (key_at h) L) as [|q Q IHQ]; intros A HE; cbn [app] in HE; [exists A; auto|].
      destruct A as [|a0 A]; cbn [app] in HE; [injection HE as E _; exfalso; apply Hin; left; auto|]. injection HE as -> HE.
      destruct (IHQ ltac:(intros C0; apply Hin; right; exact C0) A HE) as (A' & -> & E'). exists A'. auto. }
    eapply IH; [exact HO'|exact HE'|]. intros C0. apply HA. apply in_app_iff. right. exact C0.
Qed.

Lemma keys_at_perm h A m : Forall2 (holds h) A m -> map (key_at h) A = map fst m.
Proof. induction 1 as [|a kv A m (ex & E) HF IH]; cbn [map]; [reflexivity|]. rewrite IH. f_equal. unfold key_at. rewrite E. reflexivity. Qed.

Lemma tab_ok h C A m j : DInv [] h C A m -> crowd_ok (h_mask h) m -> 0 <= j <= h_mask h + 1 ->
  ok_tab h (zslice (h_tab h) j (h_mask h + 1 - j)) (map C (map (fun i => j + i) (idx (Z.to_nat (h_mask h + 1 - j))))).
Proof.
  intros I HC Hj. pose proof (dv_tab _ _ _ _ _ I) as HT.
  assert (zslice (h_tab h) j (h_mask h + 1 - j) = zslice (zslice (h_tab h) j (h_mask h + 1 - j)) 0 (h_mask h + 1 - j)) as ->.
  { symmetry. rewrite <- (zslice_all (zslice (h_tab h) j (h_mask h + 1 - j))) at 2. rewrite zlen_zslice by lia. reflexivity. }
  rewrite (zslice_as_map _ _) with (d := 0) by (rewrite zlen_zslice by lia; lia).
  assert (forall i, In i (idx (Z.to_nat (h_mask h + 1 - j))) -> 0 <= i < h_mask h + 1 - j) as HI by (intros i Hi; apply in_idx in Hi; lia).
  revert HI. generalize (idx (Z.to_nat (h_mask h + 1 - j))). intros l HI. unfold ok_tab. induction l as [|i l IHl]; cbn [map]; constructor.
  - specialize (HI i (or_introl eq_refl)). rewrite zget_zslice by lia. destruct (dv_chain _ _ _ _ _ I (j + i)) as (p & -> & Hc); [lia|].
    exists (PBucket (j + i)). split; [exact Hc|]. rewrite (chain_count _ _ _ _ _ I) by lia. apply HC.
  - apply IHl. intros q Hq. apply HI. right. exact Hq.
Qed.

Lemma idx_split n m : (m <= n)%nat -> idx n = idx m ++ map (fun i => Z.of_nat m + i) (idx (n - m)).
Proof.
  intros Hm. unfold idx. rewrite map_map. replace n with (m + (n - m))%nat at 1 by lia. rewrite seq_app, map_app. f_equal. rewrite Nat.add_0_l.
  generalize (n - m)%nat. clear. intros k. assert (forall b, map Z.of_nat (seq (m + b) k) = map (fun x => Z.of_nat m + Z.of_nat x) (seq b k)) as HS.
  { induction k as [|k IH]; intros b; cbn [seq map]; [reflexivity|]. f_equal; [lia|]. rewrite <- IH. rewrite Nat.add_succ_r. reflexivity. }
  specialize (HS 0%nat). rewrite Nat.add_0_r in HS. exact HS.
Qed.

Lemma chain_keys h C A m (I : DInv [] h C A m) i k : In k (map (key_at h) (C i)) -> bkt (h_mask h) k = i.
Proof.
  intros Hk. apply in_map_iff in Hk as (a & E & Ha). destruct (dv_inC _ _ _ _ _ I _ _ Ha) as (_ & _ & k1 & v & ex & D & B).
  unfold key_at in E. rewrite D in E. congruence.
Qed.

Definition order (h : hash) (C : Z -> list Z) : list (list Z) := map (key_at h) (concat (all_chains C (h_mask h))).
Lemma order_perm h C A m (I : DInv [] h C A m) : Permutation (order h C) (map fst m).
Proof.
  unfold order. rewrite <- (keys_at_perm _ _ _ (dv_abs _ _ _ _ _ I)). apply Permutation_map. symmetry. exact (chains_perm _ _ _ _ _ I).
Qed.
Lemma nextkey_none h C A m (I : DInv [] h C A m) : crowd_ok (h_mask h) m -> dwd_nextkey H h None = Ok (hd_error (order h C)).
Proof.
  intros HC. unfold dwd_nextkey. pose proof (dv_mask _ _ _ _ _ I).
  pose proof (tab_ok h C A m 0 I HC ltac:(lia)) as HT. rewrite (buckets_found _ _ _ _ HT). unfold order, all_chains. repeat f_equal.
  rewrite Z.sub_0_r. rewrite <- (map_id (idx _)) at 2. apply map_ext. intros; lia.
Qed.
Lemma idx_at mask j : 0 <= j <= mask -> idx (Z.to_nat (mask + 1)) = idx (Z.to_nat j) ++ map (fun i => j + i) (idx (Z.to_nat (mask + 1 - j))).
Proof. intros Hj. rewrite (idx_split _ (Z.to_nat j)) by lia. f_equal. replace (Z.to_nat (mask + 1) - Z.to_nat j)%nat with (Z.to_nat (mask + 1 - j)) by lia. apply map_ext. intros; lia. Qed.
Lemma nextkey_some h C A m (I : DInv [] h C A m) k P Q : crowd_ok (h_mask h) m -> order h C = P ++ k :: Q -> ~ In k P ->
  dwd_nextkey H h (Some k) = Ok (hd_error Q).
Proof.
  intros HC HO HP. unfold dwd_nextkey. fold (bkt (h_mask h) k). pose proof (dv_mask _ _ _ _ _ I) as HM. pose proof (bkt_range H Hpos _ k HM) as HB.
  set (j := bkt (h_mask h) k) in *. pose proof (tab_ok h C A m j I HC ltac:(lia)) as HT.
  unfold order, all_chains in HO. rewrite (idx_at _ j HB), map_app, concat_app, map_app in HO.
  assert (~ In k (map (key_at h) (concat (map C (idx (Z.to_nat j)))))) as HN.
  { intros C0. apply in_map_iff in C0 as (a & Ea & Ha). apply in_concat in Ha as (L & HL & HaL). apply in_map_iff in HL as (i & <- & Hi).
    apply in_idx in Hi. pose proof (chain_keys h C A m I i k) as HK. unfold j in *. rewrite HK in Hi; [lia|]. apply in_map_iff. eauto. }
  revert HO HN. generalize (map (key_at h) (concat (map C (idx (Z.to_nat j))))). intros W HO HN.
  assert (exists P', P = W ++ P' /\ map (key_at h) (concat (map C (map (fun i => j + i) (idx (Z.to_nat (h_mask h + 1 - j)))))) = P' ++ k :: Q) as (P' & EP & HE).
  { clear - HO HN. revert P HO. induction W as [|q W IH]; intros P HO; cbn [app] in HO; [exists P; auto|].
    destruct P as [|p P]; cbn [app] in HO; [injection HO as E _; exfalso; apply HN; left; exact E|]. injection HO as -> HO.
    destruct (IH ltac:(intros C0; apply HN; right; exact C0) P HO) as (P' & -> & E). exists P'. auto. }
  apply (buckets_search _ _ _ _ P' Q HT HE). intros C0. apply HP. rewrite EP. apply in_app_iff. right. exact C0.
Qed.
Lemma buckets_absent tab : forall Ls h k, ok_tab h tab Ls -> ~ In k (map (key_at h) (concat Ls)) -> nextkey_buckets h (Some k) false tab = Ok None.
Proof.
  induction tab as [|p tab IH]; intros Ls h k HO HN; inversion HO as [|? L ? Ls' (loc & HC & HL) HO']; subst; cbn [nextkey_buckets concat] in *; [reflexivity|].
  rewrite map_app, in_app_iff in HN. rewrite (nextkey_search L MOVE_MAX loc h p k HC HL) by tauto. cbn [bind]. eapply IH; [exact HO'|tauto].
Qed.
Lemma nextkey_absent h C A m (I : DInv [] h C A m) k : crowd_ok (h_mask h) m -> ~ In k (map fst m) -> dwd_nextkey H h (Some k) = Ok None.
Proof.
  intros HC HN. unfold dwd_nextkey. fold (bkt (h_mask h) k). pose proof (dv_mask _ _ _ _ _ I) as HM. pose proof (bkt_range H Hpos _ k HM) as HB.
  set (j := bkt (h_mask h) k) in *. pose proof (tab_ok h C A m j I HC ltac:(lia)) as HT. apply (buckets_absent _ _ _ _ HT).
  intros C0. apply HN. eapply Permutation_in; [exact (order_perm _ _ _ _ I)|]. unfold order, all_chains. rewrite (idx_at _ j HB), map_app, concat_app, map_app.
  apply in_app_iff. right. exact C0.
Qed.
Lemma walks_from h C A m (I : DInv [] h C A m) : crowd_ok (h_mask h) m -> forall Q P k, order h C = P ++ k :: Q -> walks (dwd_nextkey H h) (Some k) Q.
Proof.
  intros HC. assert (NoDup (order h C)) as HN by (eapply Permutation_NoDup; [symmetry; exact (order_perm _ _ _ _ I)|exact (dv_keys _ _ _ _ _ I)]).
  assert (forall P k Q, order h C = P ++ k :: Q -> ~ In k P) as HP.
  { intros P k Q E C0. rewrite E in HN. apply NoDup_remove_2 in HN. apply HN. apply in_app_iff. left. exact C0. }
  induction Q as [|q Q IH]; intros P k E; cbn [walks].
  - exact (nextkey_some _ _ _ _ I k P [] HC E (HP _ _ _ E)).
  - split; [exact (nextkey_some _ _ _ _ I k P _ HC E (HP _ _ _ E))|]. apply (IH (P ++ [k]) q). rewrite <- app_assoc. exact E.
Qed.
Lemma walk_ok h C A m (I : DInv [] h C A m) : crowd_ok (h_mask h) m ->
  exists keys, Permutation keys (map fst m) /\ walks (dwd_nextkey H h) None keys.
Proof.
  intros HC. exists (order h C). split; [exact (order_perm _ _ _ _ I)|].
  pose proof (walks_from _ _ _ _ I HC) as HW. pose proof (nextkey_none _ _ _ _ I HC) as H0.
  destruct (order h C) as [|k Q] eqn:E; cbn [walks]; [exact H0|]. split; [exact H0|]. exact (HW Q [] k eq_refl).
Qed.

(** *** Whole histories *)
Definition dgood (h : hash) (m : dict) : Prop := exists C A, DInv [] h C A m /\ crowd_ok (h_mask h) m /\ mask_ok (h_mask h).
Lemma drun_ok ops : forall h m, dgood h m -> spread H (h_mask h) m (map snd ops) ->
  exists h', drun H h ops = Ok (fst (d_run m (map snd ops)), h') /\ dgood h' (snd (d_run m (map snd ops))).
Proof.
  induction ops as [|[now o] ops IH]; intros h m (C & A & I & HC & HM) HS; cbn [drun map snd d_run].
  - exists h. cbn [fst snd]. split; [reflexivity|]. exists C, A. auto.
  - destruct o as [k v|k|]; cbn [dstep d_step map snd spread] in *.
    + destruct HS as (S1 & S2 & S3). unfold dwd_add. destruct (dadd_ok now _ _ _ _ k v I HC) as (h1 & C1 & A1 & -> & I1 & M1). cbn [bind]. change (1 =? -1) with false. cbv iota.
      rewrite <- M1 in S1, S2, S3, HM. destruct (autogrow_ok _ _ _ _ I1 HM S1 S2) as (h2 & C2 & A2 & -> & I2 & M2 & MO2). cbn [bind].
      rewrite <- M2 in S2, S3. destruct (IH h2 (d_add k v m)) as (h3 & -> & G3); [exists C2, A2; auto|exact S3|]. cbn [bind].
      destruct (d_run (d_add k v m) (map snd ops)) as [outs m']. exists h3. split; [reflexivity|exact G3].
    + rewrite (fetch_ok' now _ _ _ _ k I HC). cbn [bind]. destruct (IH h m) as (h3 & -> & G3); [exists C, A; auto|exact HS|]. cbn [bind].
      destruct (d_run m (map snd ops)) as [outs m']. exists h3. split; [reflexivity|exact G3].
    + cbn [bind]. destruct (IH h m) as (h3 & -> & G3); [exists C, A; auto|exact HS|]. cbn [bind].
      assert (h_size h = zlen m) as -> by (rewrite (dv_size _ _ _ _ _ I); unfold zlen; rewrite (Forall2_length _ _ _ (dv_abs _ _ _ _ _ I)); reflexivity).
      destruct (d_run m (map snd ops)) as [outs m']. exists h3. split; [reflexivity|exact G3].
Qed.
Lemma init_dgood : dgood dwd_init [].
Proof.
  exists (fun _ => []), []. unfold dwd_init. destruct (dwh_init_shape 2) as (mx & ->). split; [|split].
  - apply empty_dinv; [vm_compute; discriminate|intros a C0; exfalso; apply C0; reflexivity|lia].
  - intros b. cbn [in_bucket filter length]. lia.
  - cbn [h_mask]. exists 2. split; [lia|]. vm_compute. reflexivity.
Qed.

(** Histories with few keys. *)
Lemma d_remove_length k (m : dict) : (length (d_remove k m) <= length m)%nat.
Proof. unfold d_remove. induction m as [|kv m IH]; cbn [filter length]; [lia|]. destruct (negb _); cbn [length]; lia. Qed.
Lemma few_length mask m : (length m <= MOVE_MAX)%nat -> few H mask m.
Proof.
  intros HL b. fold MOVE_MAX. eapply Nat.le_trans; [|exact HL]. clear. induction m as [|kv m IH]; cbn [filter length]; [lia|]. destruct (_ =? b); cbn [length]; lia.
Qed.
Definition inserts (ops : list dop) : Z := zlen (filter (fun o => match o with DAdd _ _ => true | _ => false end) ops).
Lemma spread_short ops : forall mask m, zlen m + inserts ops <= 10000 -> spread H mask m ops.
Proof.
  unfold inserts, zlen. induction ops as [|o ops IH]; intros mask m HL; cbn [spread]; [exact Logic.I|].
  destruct o as [k v|k|]; cbn [filter length] in HL; [|apply IH; exact HL..].
  assert (length (d_add k v m) <= S (length m))%nat as HA by (unfold d_add; cbn [length]; pose proof (d_remove_length k m); lia).
  cbv zeta. split; [apply few_length; unfold MOVE_MAX; lia|]. split; [apply few_length; unfold MOVE_MAX; lia|]. apply IH. lia.
Qed.

Theorem dict_refines ops : spread H (h_mask dwd_init) [] (map snd ops) ->
  exists h, drun H dwd_init ops = Ok (fst (d_run [] (map snd ops)), h) /\
    (exists keys, Permutation keys (map fst (snd (d_run [] (map snd ops)))) /\ walks (dwd_nextkey H h) None keys) /\
    (forall k, ~ In k (map fst (snd (d_run [] (map snd ops)))) -> dwd_nextkey H h (Some k) = Ok None).
Proof.
  intros HS. destruct (drun_ok ops dwd_init [] init_dgood HS) as (h & E & C & A & I & HC & _). exists h. split; [exact E|].
  split; [exact (walk_ok _ _ _ _ I HC)|]. intros k. exact (nextkey_absent _ _ _ _ I k HC).
Qed.
End Dict.

(** *** About the specification itself *)
Lemma d_run_keys ops : forall m, NoDup (map fst m) -> NoDup (map fst (snd (d_run m ops))).
Proof.
  induction ops as [|o ops IH]; intros m HN; cbn [d_run]; [exact HN|].
  assert (NoDup (map fst (snd (d_step m o)))) as HN'.
  { destruct o as [k v|k|]; cbn [d_step snd]; [|exact HN..]. unfold d_add, d_remove. cbn [map fst]. constructor.
    - intros C0. apply in_map_iff in C0 as (kv & E & Hin). apply filter_In in Hin as [_ Hin]. rewrite <- E, zlist_eqb_refl in Hin. discriminate.
    - clear - HN. induction m as [|kv m IH]; cbn [filter map]; [constructor|]. cbn [map] in HN. apply NoDup_cons_iff in HN as [N1 N2].
      destruct (negb _); cbn [map]; [|exact (IH N2)]. constructor; [|exact (IH N2)]. intros C0. apply N1. apply in_map_iff in C0 as (x & E & Hin). apply filter_In in Hin as [Hin _]. rewrite <- E. apply in_map. exact Hin. }
  destruct (d_step m o) as [out m']. cbn [snd] in HN'. specialize (IH m' HN'). destruct (d_run m' ops) as [outs m'']. exact IH.
Qed.
Lemma d_fetch_add k k' v m : d_fetch k' (d_add k v m) = if zlist_eqb k' k then Some v else d_fetch k' m.
Proof.
  unfold d_fetch, d_add. cbn [find fst]. destruct (zlist_eqb k' k) eqn:E; [reflexivity|]. f_equal. unfold d_remove.
  induction m as [|kv m IH]; cbn [filter find]; [reflexivity|]. destruct (zlist_eqb k (fst kv)) eqn:E1; cbn [negb].
  - rewrite IH. apply zlist_eqb_spec in E1. subst k. rewrite E. reflexivity.
  - cbn [find]. rewrite IH. reflexivity.
Qed.
