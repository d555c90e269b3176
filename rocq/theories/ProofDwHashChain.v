(** Hash chains of DwHash.c: searching, linking, unlinking. *)
From Verif Require Import CBase ModelDwHash.

Definition edata (e : elem) := (e_key e, e_val e, e_fila e, e_imm e, e_exp e).
Definition odata (o : option elem) := option_map edata o.

(** [chain eh loc p l]: [p], stored at [loc], starts the NULL-ended chain [l]. *)
Fixpoint chain (eh : Z -> option elem) (loc : ploc) (p : Z) (l : list Z) : Prop :=
  match l with
  | [] => p = 0
  | a :: r => p = a /\ a <> 0 /\
      exists e, eh a = Some e /\ e_prev e = loc /\ chain eh (PNext a) (e_next e) r
  end.
Fixpoint seg (eh : Z -> option elem) (loc : ploc) (p : Z) (l : list Z) (loc' : ploc) (q : Z) : Prop :=
  match l with
  | [] => loc' = loc /\ q = p
  | a :: r => p = a /\ a <> 0 /\
      exists e, eh a = Some e /\ e_prev e = loc /\ seg eh (PNext a) (e_next e) r loc' q
  end.

Lemma chain_split eh A : forall loc p B,
  chain eh loc p (A ++ B) <-> exists loc' q, seg eh loc p A loc' q /\ chain eh loc' q B.
Proof.
  induction A as [|a A IH]; intros loc p B; cbn [app chain seg].
  - split.
    + intros H. exists loc, p. auto.
    + intros (loc' & q & [-> ->] & H). exact H.
  - split.
    + intros (-> & H0 & e & He & Hp & H). apply IH in H as (loc' & q & HS & HC).
      exists loc', q. split; [|exact HC]. split; [reflexivity|]. split; [exact H0|]. exists e. auto.
    + intros (loc' & q & (-> & H0 & e & He & Hp & HS) & HC). split; [reflexivity|]. split; [exact H0|].
      exists e. split; [exact He|]. split; [exact Hp|]. apply IH. exists loc', q. auto.
Qed.

Lemma chain_frame eh eh' l : forall loc p,
  (forall a, In a l -> eh' a = eh a) -> chain eh loc p l -> chain eh' loc p l.
Proof.
  induction l as [|a l IH]; intros loc p HF; cbn [chain]; [auto|].
  intros (-> & H0 & e & He & Hp & H). split; [reflexivity|]. split; [exact H0|]. exists e.
  rewrite HF by (left; reflexivity). split; [exact He|]. split; [exact Hp|].
  apply IH; [|exact H]. intros x Hx. apply HF. right. exact Hx.
Qed.

(** Only the link fields matter. *)
Lemma chain_frame_links eh eh' l : forall loc p,
  (forall a e, In a l -> eh a = Some e -> exists e', eh' a = Some e' /\ e_next e' = e_next e /\ e_prev e' = e_prev e) ->
  chain eh loc p l -> chain eh' loc p l.
Proof.
  induction l as [|a l IH]; intros loc p HF; cbn [chain]; [auto|].
  intros (-> & H0 & e & He & Hp & H). split; [reflexivity|]. split; [exact H0|].
  destruct (HF a e (or_introl eq_refl) He) as (e' & E1 & E2 & E3). exists e'.
  split; [exact E1|]. split; [congruence|]. rewrite E2.
  apply IH; [|exact H]. intros x ex Hx. apply HF. right. exact Hx.
Qed.

Lemma seg_frame eh eh' l : forall loc p loc' q,
  (forall a, In a l -> eh' a = eh a) -> seg eh loc p l loc' q -> seg eh' loc p l loc' q.
Proof.
  induction l as [|a l IH]; intros loc p loc' q HF; cbn [seg]; [auto|].
  intros (-> & H0 & e & He & Hp & H). split; [reflexivity|]. split; [exact H0|]. exists e.
  rewrite HF by (left; reflexivity). split; [exact He|]. split; [exact Hp|].
  apply IH; [|exact H]. intros x Hx. apply HF. right. exact Hx.
Qed.

Definition with_next (e : elem) v := mkelem (e_key e) (e_val e) (e_fila e) (e_imm e) (e_exp e) v (e_prev e).
Definition with_prev (e : elem) v := mkelem (e_key e) (e_val e) (e_fila e) (e_imm e) (e_exp e) (e_next e) v.

Lemma upd_same {A} (m : Z -> A) p v : upd m p v p = v.
Proof. unfold upd. rewrite Z.eqb_refl. reflexivity. Qed.
Lemma upd_other {A} (m : Z -> A) p v q : q <> p -> upd m p v q = m q.
Proof. intros. unfold upd. replace (q =? p) with false by lia. reflexivity. Qed.

Lemma chain_reroot eh loc loc' q b B e : NoDup (b :: B) -> eh b = Some e ->
  chain eh loc q (b :: B) -> chain (upd eh b (Some (with_prev e loc'))) loc' q (b :: B).
Proof.
  intros HN He (-> & H0 & e' & He' & Hp & H). cbn [chain]. split; [reflexivity|]. split; [exact H0|].
  exists (with_prev e loc'). rewrite upd_same. split; [reflexivity|]. split; [reflexivity|].
  assert (e' = e) by congruence. subst e'. cbn [e_next with_prev].
  apply (chain_frame eh); [|exact H]. intros a Ha. apply upd_other. intros ->. inversion HN. contradiction.
Qed.

Lemma seg_last eh A x : forall loc p loc' q, seg eh loc p (A ++ [x]) loc' q ->
  loc' = PNext x /\ x <> 0 /\ exists e, eh x = Some e /\ e_next e = q /\
    (NoDup (A ++ [x]) -> forall q', seg (upd eh x (Some (with_next e q'))) loc p (A ++ [x]) (PNext x) q').
Proof.
  induction A as [|a A IH]; intros loc p loc' q; cbn [app seg].
  - intros (-> & H0 & e & He & Hp & [-> ->]). split; [reflexivity|]. split; [exact H0|].
    exists e. split; [exact He|]. split; [reflexivity|]. intros _ q'. split; [reflexivity|]. split; [exact H0|].
    exists (with_next e q'). rewrite upd_same. split; [reflexivity|]. split; [exact Hp|]. cbn. auto.
  - intros (-> & H0 & e & He & Hp & H). apply IH in H as (-> & Hx & ex & Ex & Nx & HS).
    split; [reflexivity|]. split; [exact Hx|]. exists ex. split; [exact Ex|]. split; [exact Nx|].
    intros HN q'. cbn [app] in HN. apply NoDup_cons_iff in HN as [Ha HN']. split; [reflexivity|]. split; [exact H0|].
    exists e. rewrite upd_other by (intros ->; apply Ha; apply in_app_iff; right; left; reflexivity).
    split; [exact He|]. split; [exact Hp|]. apply HS. exact HN'.
Qed.

Lemma seg_in eh l : forall loc p loc' q a, seg eh loc p l loc' q -> In a l -> a <> 0 /\ eh a <> None.
Proof.
  induction l as [|x l IH]; intros loc p loc' q a; cbn [seg In]; [tauto|].
  intros (-> & H0 & e & He & Hp & H) [->|Ha]; [split; [exact H0|congruence]|]. eapply IH; eauto.
Qed.
Lemma chain_in eh l : forall loc p a, chain eh loc p l -> In a l -> a <> 0 /\ eh a <> None.
Proof.
  induction l as [|x l IH]; intros loc p a; cbn [chain In]; [tauto|].
  intros (-> & H0 & e & He & Hp & H) [->|Ha]; [split; [exact H0|congruence]|]. eapply IH; eauto.
Qed.

Lemma set_e_prev_ok h p e v : p <> 0 -> h_elems h p = Some e ->
  set_e_prev h p v = Ok (put_elem h p (with_prev e v)).
Proof. intros H0 He. unfold set_e_prev, ge. replace (p =? 0) with false by lia. rewrite He. reflexivity. Qed.
Lemma set_e_next_ok h p e v : p <> 0 -> h_elems h p = Some e ->
  set_e_next h p v = Ok (put_elem h p (with_next e v)).
Proof. intros H0 He. unfold set_e_next, ge. replace (p =? 0) with false by lia. rewrite He. reflexivity. Qed.
Lemma ge_ok h p e : p <> 0 -> h_elems h p = Some e -> ge h p = Ok e.
Proof. intros H0 He. unfold ge. replace (p =? 0) with false by lia. rewrite He. reflexivity. Qed.

Lemma zget_Some_range l i v : zget l i = Some v -> 0 <= i < zlen l.
Proof.
  unfold zget, zlen. destruct (Z.ltb_spec i 0); [discriminate|]. intros E.
  assert (Z.to_nat i < length l)%nat by (apply nth_error_Some; congruence). lia.
Qed.

Lemma wr_spec l i v p : zget l i = Some p ->
  exists l', wr l i v = Ok l' /\ zlen l' = zlen l /\ zget l' i = Some v /\
    (forall j, j <> i -> zget l' j = zget l j).
Proof.
  intros H. pose proof (zget_Some_range _ _ _ H). unfold wr.
  replace ((0 <=? i) && (i <? zlen l)) with true by lia.
  exists (zupd l i v). split; [reflexivity|]. split; [apply zlen_zupd|].
  split; [apply zget_zupd_eq; lia|].
  intros j Hj. apply zget_zupd_neq. congruence.
Qed.

Lemma odata_upd eh x e e' q : eh x = Some e -> edata e' = edata e ->
  odata (upd eh x (Some e') q) = odata (eh q).
Proof.
  intros He Hd. unfold upd. destruct (Z.eqb_spec q x); [subst; rewrite He; cbn; congruence|reflexivity].
Qed.

Lemma zap_unlink_ok h i p A a B :
  zget (h_tab h) i = Some p -> chain (h_elems h) (PBucket i) p (A ++ a :: B) -> NoDup (A ++ a :: B) ->
  exists eh' tab' p', zap_unlink h a = Ok (set_tab (set_elems h eh') tab') /\
    zlen tab' = zlen (h_tab h) /\ zget tab' i = Some p' /\
    (forall j, j <> i -> zget tab' j = zget (h_tab h) j) /\
    chain eh' (PBucket i) p' (A ++ B) /\
    (forall x, ~ In x (A ++ B) -> eh' x = h_elems h x) /\
    (forall x, odata (eh' x) = odata (h_elems h x)).
Proof.
  intros HT HC HN. apply chain_split in HC as (loc & q & HS & (-> & Ha0 & e & He & Hp & HB)).
  unfold zap_unlink. rewrite (ge_ok _ _ _ Ha0 He). cbn [bind]. rewrite Hp.
  assert (~ In a (A ++ B)) as HaN by (apply NoDup_remove_2; exact HN).
  assert (NoDup (A ++ B)) as HN' by (eapply NoDup_remove_1; exact HN).
  (* the second assignment *)
  assert (forall h1 loc1, h_elems h1 a = Some e -> e_prev e = loc1 ->
     chain (h_elems h1) (PNext a) (e_next e) B -> NoDup B ->
     exists eh', (if e_next e =? 0 then Ok h1 else set_e_prev h1 (e_next e) loc1) = Ok (set_elems h1 eh') /\
       chain eh' loc1 (e_next e) B /\ (forall x, ~ In x B -> eh' x = h_elems h1 x) /\
       (forall x, odata (eh' x) = odata (h_elems h1 x))) as STEP2.
  { intros h1 loc1 H1 H2 H3 H4. destruct B as [|b B].
    - cbn [chain] in H3. rewrite H3. cbn [Z.eqb]. exists (h_elems h1). split; [destruct h1; reflexivity|].
      split; [reflexivity|auto].
    - pose proof H3 as H3'. destruct H3' as (Eb & Hb0 & eb & Heb & Hpb & Hcb).
      rewrite Eb. replace (b =? 0) with false by lia. rewrite (set_e_prev_ok _ _ eb) by assumption.
      exists (upd (h_elems h1) b (Some (with_prev eb loc1))). split; [reflexivity|].
      split; [rewrite Eb in H3; apply (chain_reroot _ (PNext a)); assumption|].
      split.
      + intros x Hx. apply upd_other. intros ->. apply Hx. left. reflexivity.
      + intros x. apply (odata_upd _ _ eb); [exact Heb|reflexivity]. }
  assert (NoDup B) as HNB.
  { clear - HN'. induction A as [|y A IH]; [exact HN'|]. inversion HN'. auto. }
  destruct A as [|a1 A1] eqn:EA1.
  - cbn [app seg] in *. destruct HS as [-> <-].
    destruct (wr_spec _ _ (e_next e) _ HT) as (tab' & W & WL & Wi & Wj).
    cbn [store]. rewrite W. cbn [bind]. rewrite (ge_ok (set_tab h tab') a e Ha0 He). cbn [bind]. rewrite Hp.
    destruct (STEP2 (set_tab h tab') (PBucket i) He Hp HB HNB) as (eh' & -> & HC' & HF & HD).
    exists eh', tab', (e_next e). split; [reflexivity|]. split; [exact WL|]. split; [exact Wi|]. split; [exact Wj|].
    split; [exact HC'|]. split; [exact HF|exact HD].
  - destruct (@exists_last _ A) as (A0 & x & EA); [subst A; discriminate|].
    rewrite <- EA1 in *. clear EA1 a1 A1. subst A.
    destruct (seg_last _ _ _ _ _ _ _ HS) as (-> & Hx0 & ex & Hex & Hnx & HS').
    assert (NoDup (A0 ++ [x])) as HNA.
    { clear - HN'. rewrite <- app_assoc in HN'. cbn in HN'. induction A0 as [|y A0 IH]; cbn in *.
      - constructor; [exact (fun z => z)|constructor].
      - inversion HN' as [|? ? Hy HN'']; subst. constructor; [|auto]. intros C. apply Hy. apply in_app_iff in C as [?|[->|[]]].
        + apply in_app_iff. left. assumption.
        + apply in_app_iff. right. left. reflexivity. }
    assert (a <> x) as Nax by (intros ->; apply HaN; rewrite !in_app_iff; left; right; left; reflexivity).
    cbn [store]. rewrite (set_e_next_ok _ _ ex) by assumption. cbn [bind].
    set (h1 := put_elem h x (with_next ex (e_next e))).
    assert (h_elems h1 a = Some e) as He1 by (cbn; rewrite upd_other by exact Nax; exact He).
    rewrite (ge_ok h1 a e Ha0 He1). cbn [bind]. rewrite Hp.
    assert (~ In x B) as HxB.
    { intros C. clear - HN' C. rewrite <- app_assoc in HN'. cbn in HN'. apply NoDup_remove_2 in HN'.
      apply HN'. apply in_app_iff. right. exact C. }
    destruct (STEP2 h1 (PNext x) He1 Hp) as (eh' & -> & HC' & HF & HD).
    { cbn. apply (chain_frame (h_elems h)); [|exact HB]. intros y Hy. apply upd_other. intros ->. contradiction. }
    { exact HNB. }
    exists eh', (h_tab h), p. split; [destruct h; reflexivity|].
    split; [reflexivity|]. split; [exact HT|]. split; [reflexivity|].
    split; [|split].
    + apply chain_split. exists (PNext x), (e_next e). split; [|exact HC'].
      apply (seg_frame (upd (h_elems h) x (Some (with_next ex (e_next e))))).
      * intros y Hy. apply HF. intros C. clear - HN' C Hy.
        revert Hy HN' C. generalize (A0 ++ [x]) as A. intros A Hy HN' C.
        induction A as [|z A IH]; [destruct Hy|]. inversion HN'; subst. destruct Hy as [->|Hy]; [apply H1; apply in_app_iff; right; exact C|auto].
      * apply HS'. exact HNA.
    + intros y Hy. rewrite HF.
      * cbn. apply upd_other. intros ->. apply Hy. rewrite !in_app_iff. left. right. left. reflexivity.
      * intros C. apply Hy. apply in_app_iff. right. exact C.
    + intros y. rewrite HD. cbn. apply (odata_upd _ _ ex); [exact Hex|reflexivity].
Qed.

Lemma link_new_ok H h new key p L en :
  zget (h_tab h) (bucket H h key) = Some p ->
  chain (h_elems h) (PBucket (bucket H h key)) p L -> NoDup (new :: L) -> new <> 0 ->
  h_elems h new = Some en ->
  exists eh' tab' en', link_new H h new key = Ok (set_tab (set_elems h eh') tab') /\
    zlen tab' = zlen (h_tab h) /\ zget tab' (bucket H h key) = Some new /\
    (forall j, j <> bucket H h key -> zget tab' j = zget (h_tab h) j) /\
    chain eh' (PBucket (bucket H h key)) new (new :: L) /\
    (forall x, ~ In x (new :: L) -> eh' x = h_elems h x) /\
    (forall x, odata (eh' x) = odata (h_elems h x)) /\
    eh' new = Some en' /\ edata en' = edata en.
Proof.
  intros HT HC HN Hn0 Hen. unfold link_new. set (i := bucket H h key) in *.
  rewrite (rd_of_zget _ _ _ HT). cbn [bind].
  rewrite (set_e_next_ok _ _ en) by assumption. cbn [bind].
  rewrite (set_e_prev_ok _ _ (with_next en p)) by (try assumption; cbn; apply upd_same). cbn [bind].
  set (en' := with_prev (with_next en p) (PBucket i)).
  set (h1 := put_elem (put_elem h new (with_next en p)) new en').
  assert (forall x, h_elems h1 x = upd (h_elems h) new (Some en') x) as H1.
  { intros x. cbn. unfold upd. destruct (x =? new); reflexivity. }
  assert (forall eh2 (tab' : list Z), eh2 new = Some en' -> chain eh2 (PNext new) p L -> zlen tab' = zlen (h_tab h) ->
     chain eh2 (PBucket i) new (new :: L)) as MK.
  { intros eh2 tab' E1 E2 E3. cbn [chain]. split; [reflexivity|]. split; [exact Hn0|]. exists en'. auto. }
  apply NoDup_cons_iff in HN as [HnL HNL].
  destruct (wr_spec _ _ new _ HT) as (tab' & W & WL & Wi & Wj).
  destruct L as [|b B].
  - cbn [chain] in HC. subst p. cbn [Z.eqb bind]. change (h_tab h1) with (h_tab h). rewrite W. cbn [bind].
    exists (h_elems h1), tab', en'. split; [reflexivity|]. split; [exact WL|]. split; [exact Wi|]. split; [exact Wj|].
    split; [apply (MK _ tab'); [rewrite H1; apply upd_same|reflexivity|exact WL]|].
    split; [intros x Hx; rewrite H1; apply upd_other; intros ->; apply Hx; left; reflexivity|].
    split; [intros x; rewrite H1; apply (odata_upd _ _ en); [exact Hen|reflexivity]|].
    split; [rewrite H1; apply upd_same|reflexivity].
  - pose proof HC as HC'. destruct HC' as (Eb & Hb0 & eb & Heb & Hpb & Hcb).
    rewrite Eb. replace (b =? 0) with false by lia.
    assert (b <> new) as Nb by (intros ->; apply HnL; left; reflexivity).
    assert (h_elems h1 b = Some eb) as Hb1 by (rewrite H1, upd_other by exact Nb; exact Heb).
    rewrite (set_e_prev_ok _ _ eb) by assumption. cbn [bind].
    change (h_tab (put_elem h1 b (with_prev eb (PNext new)))) with (h_tab h). rewrite W. cbn [bind].
    exists (upd (h_elems h1) b (Some (with_prev eb (PNext new)))), tab', en'.
    split; [reflexivity|]. split; [exact WL|]. split; [exact Wi|]. split; [exact Wj|].
    split; [apply (MK _ tab'); [rewrite upd_other by congruence; rewrite H1; apply upd_same| |exact WL]|].
    + apply (chain_reroot _ (PBucket i)); [exact HNL|exact Hb1|].
      apply (chain_frame (h_elems h)); [|exact HC].
      intros x Hx. rewrite H1. apply upd_other. intros ->. contradiction.
    + split; [intros x Hx; rewrite upd_other, H1, upd_other; [reflexivity|intros ->; apply Hx; left; reflexivity|intros ->; apply Hx; right; left; reflexivity]|].
      split.
      * intros x. rewrite (odata_upd _ _ eb) by (try exact Hb1; reflexivity). rewrite H1.
        apply (odata_upd _ _ en); [exact Hen|reflexivity].
      * split; [rewrite upd_other by congruence; rewrite H1; apply upd_same|reflexivity].
Qed.

Lemma grep_loop_ok h key L : forall n loc p,
  chain (h_elems h) loc p L -> (length L <= n)%nat ->
  exists a, grep_loop n h key p = Ok a /\
    ((a = 0 /\ forall x e, In x L -> h_elems h x = Some e -> e_key e <> key) \/
     (In a L /\ a <> 0 /\ exists e, h_elems h a = Some e /\ e_key e = key)).
Proof.
  induction L as [|b L IH]; intros n loc p HC HL; cbn [chain] in HC.
  - subst p. exists 0. split; [destruct n; reflexivity|]. left. split; [reflexivity|]. intros x e [].
  - destruct HC as (-> & Hb0 & e & He & _ & HC). destruct n as [|n]; [cbn in HL; lia|]. cbn [grep_loop].
    replace (b =? 0) with false by lia. rewrite (ge_ok _ _ _ Hb0 He). cbn [bind].
    destruct (zlist_eqb key (e_key e)) eqn:E.
    + apply zlist_eqb_spec in E. exists b. split; [reflexivity|]. right. split; [left; reflexivity|]. split; [exact Hb0|]. exists e. auto.
    + apply zlist_eqb_neq in E. destruct (IH n _ _ HC) as (a & -> & Ha); [cbn in HL; lia|].
      exists a. split; [reflexivity|]. destruct Ha as [[-> Ha]|(Ha & Ha0 & Hk)].
      * left. split; [reflexivity|]. intros x ex [<-|Hx] Hex; [congruence|eauto].
      * right. split; [right; exact Ha|]. auto.
Qed.
