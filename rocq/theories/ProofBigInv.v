(** Loading zones: what is in memory after any number of records. *)
From Verif Require Import CBase Bits ModelDwStr SpecDwStr ProofDwStr SpecNames SpecAcl ModelJsStr SpecJsStr ProofJsStr ProofJsSearch ModelQueries SpecQueries ProofHname ProofJsList ModelMaraHash SpecMaraHash ProofMaraHash
  ModelServe ProofServe ModelBigHash SpecBigHash ProofBigHash ProofBigAuth ProofBigRun.

Record aset := mkaset { as_auth : bool; as_items : list item; as_link : option (list Z) }.
Notation astate := (list Z -> Z -> option aset).
Definition upd2 {X : Type} (f : list Z -> Z -> X) (q : list Z) (t : Z) (v : X) : list Z -> Z -> X := fun q' t' => if zlist_eqb q q' && (t =? t') then v else f q' t'.
Definition upd1 {X : Type} (f : list Z -> X) (q : list Z) (v : X) : list Z -> X := fun q' => if zlist_eqb q q' then v else f q'.
Lemma upd2_same {X} (f : list Z -> Z -> X) q t v : upd2 f q t v q t = v.
Proof. unfold upd2. rewrite zlist_eqb_refl, Z.eqb_refl. reflexivity. Qed.
Lemma upd2_other {X} (f : list Z -> Z -> X) q t v q' t' : ~ (q = q' /\ t = t') -> upd2 f q t v q' t' = f q' t'.
Proof. intros N. unfold upd2. destruct (zlist_eqb q q') eqn:E; [|reflexivity]. apply zlist_eqb_spec in E. destruct (Z.eqb_spec t t'); [tauto|reflexivity]. Qed.
Lemma upd1_same {X} (f : list Z -> X) q v : upd1 f q v q = v.
Proof. unfold upd1. rewrite zlist_eqb_refl. reflexivity. Qed.
Lemma upd1_other {X} (f : list Z -> X) q v q' : q <> q' -> upd1 f q v q' = f q'.
Proof. intros N. unfold upd1. destruct (zlist_eqb q q') eqn:E; [|reflexivity]. apply zlist_eqb_spec in E. contradiction. Qed.
Lemma a_set_same (m : amap nat) k v : a_set m k v k = v.
Proof. unfold a_set. rewrite kid_eqb_refl. reflexivity. Qed.
Lemma a_set_other (m : amap nat) k v k' : k <> k' -> a_set m k v k' = m k'.
Proof. intros N. unfold a_set. apply kid_eqb_neq in N. rewrite N. reflexivity. Qed.
Lemma pair_dec (q q' : list Z) (t t' : Z) : {q = q' /\ t = t'} + {~ (q = q' /\ t = t')}.
Proof. destruct (zlist_eq_dec q q'), (Z.eq_dec t t'); tauto. Qed.
Lemma key_neq q q' t t' : 0 <= t <= 65535 -> 0 <= t' <= 65535 -> ~ (q = q' /\ t = t') -> (1, q ++ num2 t) <> (1, q' ++ num2 t').
Proof. intros T T' N E. apply N. injection E as E. apply key_inj; assumption. Qed.

Definition tail_of (own : list Z -> Z -> list nat) (s : aset) : option nat := match as_link s with None => None | Some z => Some (hd 0%nat (own z RR_NS)) end.
Record inv (b : bighash) (m : amap nat) (A : astate) (own : list Z -> Z -> list nat) (ln : list Z -> list nat) (al : list Z -> list (Z * nat)) : Prop := {
  v_key : forall q t, 0 <= t <= 65535 -> t <> RR_ANY -> m (1, q ++ num2 t) = match A q t with None => None | Some _ => Some (hd 0%nat (own q t), 3) end;
  v_type : forall q t, A q t <> None -> 0 <= t < 65000 /\ t <> RR_ANY;
  v_none : forall q t, A q t = None -> own q t = [];
  v_chain : forall q t s, A q t = Some s -> own q t <> [] /\ chain (b_rr b) (own q t) (as_items s) t (as_auth s) (tail_of own s);
  v_link : forall q t s z, A q t = Some s -> as_link s = Some z -> t <> RR_NS /\ A z RR_NS <> None;
  v_dup : forall q t, NoDup (own q t);
  v_disj : forall q t q' t' p, In p (own q t) -> In p (own q' t') -> q = q' /\ t = t';
  v_any : forall q, m (1, q ++ num2 RR_ANY) = match ln q with [] => None | p :: _ => Some (p, 6) end;
  v_lchain : forall q, lchain (b_list b) (ln q) (al q);
  v_ldup : forall q, NoDup (ln q);
  v_ldisj : forall q q' p, In p (ln q) -> In p (ln q') -> q = q';
  v_types : forall q, NoDup (map fst (al q));
  v_al : forall q t p, In (t, p) (al q) <-> A q t <> None /\ p = hd 0%nat (own q t) }.

Section Inv.
Context (b : bighash) (m : amap nat) (A : astate) (own : list Z -> Z -> list nat) (ln : list Z -> list nat) (al : list Z -> list (Z * nat)).
Hypothesis I : inv b m A own ln al.

Lemma own_lt q t p : In p (own q t) -> (p < length (b_rr b))%nat.
Proof. intros H. destruct (A q t) as [s|] eqn:E; [|rewrite (v_none _ _ _ _ _ _ I q t E) in H; destruct H]. destruct (v_chain _ _ _ _ _ _ I q t s E) as (_ & C). apply (chain_in _ _ _ _ _ _ _ C H). Qed.
Lemma ln_lt q p : In p (ln q) -> (p < length (b_list b))%nat.
Proof. intros H. apply (lchain_in _ _ _ _ (v_lchain _ _ _ _ _ _ I q) H). Qed.
Lemma ln_len q : zlen (ln q) <= 65000.
Proof.
  unfold zlen. rewrite (lchain_len _ _ _ (v_lchain _ _ _ _ _ _ I q)). assert (length (map (fun e => Z.to_nat (fst e)) (al q)) <= Z.to_nat 65000)%nat as L; [|rewrite map_length in L; lia]. apply pigeon.
  - rewrite <- map_map. assert (forall l : list Z, NoDup l -> (forall t, In t l -> 0 <= t) -> NoDup (map Z.to_nat l)) as X.
    { induction l as [|t l IH]; intros D B; [constructor|]. apply NoDup_cons_iff in D as (D1 & D2). cbn [map]. constructor; [|apply IH; [exact D2|intros x Hx; apply B; right; exact Hx]]. intros H. apply in_map_iff in H as (x & E & Hx). assert (0 <= x) by (apply B; right; exact Hx). assert (0 <= t) by (apply B; left; reflexivity). assert (x = t) by lia. congruence. }
    apply X; [apply (v_types _ _ _ _ _ _ I)|]. intros t H. apply in_map_iff in H as ((t' & p) & <- & H). apply (v_al _ _ _ _ _ _ I) in H as (H & _). apply (v_type _ _ _ _ _ _ I) in H. cbn [fst]. lia.
  - intros x H. apply in_map_iff in H as ((t' & p) & <- & H). apply (v_al _ _ _ _ _ _ I) in H as (H & _). apply (v_type _ _ _ _ _ _ I) in H. cbn [fst]. lia.
Qed.
Lemma own_hd q t : A q t <> None -> In (hd 0%nat (own q t)) (own q t).
Proof. intros N. destruct (A q t) as [s|] eqn:E; [|contradiction]. destruct (v_chain _ _ _ _ _ _ I q t s E) as (NE & _). destruct (own q t); [contradiction|left; reflexivity]. Qed.

(** ** A set that was not there *)
Section Put.
Context (J : Z -> Z -> Z) (add P : Z) (query data : js) (cq cd : Z) (q d : list Z) (t ttl perms : Z) (au : bool).
Hypothesis HJ : forall i, junk_ok (J i).
Hypothesis G : hg add (b_hash b) m P.
Hypothesis LP : P + 2 <= 349525.
Hypothesis HQ : held cq query (q ++ num2 t).
Hypothesis CQ : cq < 2000000000.
Hypothesis HD : held cd data d.
Hypothesis CD : cd < 2000000000.
Hypothesis LQ : 1 <= zlen q <= 253.
Hypothesis T : 0 <= t < 65000.
Hypothesis TA : t <> RR_ANY.
Hypothesis NO : A q t = None.
Notation p := (length (b_rr b)).
Notation lp := (length (b_list b)).
Notation A' := (upd2 A q t (Some (mkaset au [(ttl, perms, d)] None))).
Notation own' := (upd2 own q t [p]).
Notation ln' := (upd1 ln q (ln q ++ [lp])).
Notation al' := (upd1 al q (al q ++ [(t, p)])).

Lemma put_inv rs ls m' r : rr_item r = (ttl, perms, d) -> rr_type r = t -> rr_auth r = b2z au -> rr_next r = None ->
  (forall j, j <> p -> nth_error rs j = nth_error (b_rr b) j) -> nth_error rs p = Some (Some r) ->
  lchain ls (ln q ++ [lp]) (al q ++ [(t, p)]) -> (forall j, ~ In j (ln q ++ [lp]) -> nth_error ls j = nth_error (b_list b) j) ->
  m' (1, q ++ num2 t) = Some (p, 3) -> m' (1, q ++ num2 RR_ANY) = Some (hd 0%nat (ln q ++ [lp]), 6) -> (forall k, k <> (1, q ++ num2 t) -> k <> (1, q ++ num2 RR_ANY) -> m' k = m k) ->
  forall h, inv (mkbig h rs ls) m' A' own' ln' al'.
Proof.
  intros RI RT RA RN FR NR LC FL M1 M2 MO h. pose proof I as [K1 K2 K3 K4 K5 K6 K7 K8 K9 K10 K11 K12 K13].
  assert (forall x y, A' x y <> None <-> A x y <> None \/ (x = q /\ y = t)) as AN. { intros x y. destruct (pair_dec q x t y) as [(<- & <-)|N]; [rewrite upd2_same; split; [intros _; right; split; reflexivity|discriminate]|]. rewrite upd2_other by exact N. split; [left; assumption|]. intros [H|(-> & ->)]; [exact H|tauto]. }
  assert (forall s, A' q t = Some s -> s = mkaset au [(ttl, perms, d)] None) as AS by (intros s E; rewrite upd2_same in E; congruence).
  assert (forall z, A z RR_NS <> None -> own' z RR_NS = own z RR_NS) as OZ. { intros z HZ. apply upd2_other. intros (-> & E). rewrite <- E in HZ. congruence. }
  constructor; cbn [b_rr b_list].
  - intros x y Y YA. destruct (pair_dec q x t y) as [(<- & <-)|N]; [rewrite !upd2_same; rewrite M1; reflexivity|]. rewrite !upd2_other by exact N. rewrite MO; [apply K1; assumption|apply not_eq_sym, key_neq; [lia|lia|exact N]|]. apply key_neq; [lia|unfold RR_ANY; lia|]. intros (_ & E). contradiction.
  - intros x y H. apply AN in H as [H|(-> & ->)]; [exact (K2 x y H)|]. split; [exact T|exact TA].
  - intros x y H. destruct (pair_dec q x t y) as [(<- & <-)|N]; [rewrite upd2_same in H; discriminate|]. rewrite upd2_other in H by exact N. rewrite upd2_other by exact N. exact (K3 x y H).
  - intros x y s H. destruct (pair_dec q x t y) as [(<- & <-)|N].
    + apply AS in H as ->. rewrite upd2_same. split; [discriminate|]. cbn [as_items as_auth chain]. split; [|exact Logic.I]. exists r. split; [exact NR|]. split; [exact RI|]. split; [exact RT|]. split; [exact RA|]. rewrite RN. reflexivity.
    + rewrite upd2_other in H by exact N. rewrite upd2_other by exact N. destruct (K4 x y s H) as (NE & C). split; [exact NE|]. assert (tail_of own' s = tail_of own s) as ->. { unfold tail_of. destruct (as_link s) as [z|] eqn:EL; [|reflexivity]. destruct (K5 x y s z H EL) as (_ & HZ). rewrite OZ by exact HZ. reflexivity. }
      apply (chain_frame (b_rr b)); [exact C|]. intros j J'. apply FR. apply own_lt in J'. lia.
  - intros x y s z H EL. destruct (pair_dec q x t y) as [(<- & <-)|N]; [apply AS in H as ->; discriminate EL|]. rewrite upd2_other in H by exact N. destruct (K5 x y s z H EL) as (X1 & X2). split; [exact X1|]. apply AN. left. exact X2.
  - intros x y. destruct (pair_dec q x t y) as [(<- & <-)|N]; [rewrite upd2_same; constructor; [intros []|constructor]|]. rewrite upd2_other by exact N. apply K6.
  - intros x y x' y' j H H'. destruct (pair_dec q x t y) as [(<- & <-)|N], (pair_dec q x' t y') as [(<- & <-)|N']; rewrite ?upd2_same in H; rewrite ?upd2_same in H'; rewrite ?upd2_other in H by exact N; rewrite ?upd2_other in H' by exact N'.
    + split; reflexivity.
    + destruct H as [<-|[]]. apply own_lt in H'. lia.
    + destruct H' as [<-|[]]. apply own_lt in H. lia.
    + apply (K7 x y x' y' j H H').
  - intros x. destruct (zlist_eq_dec q x) as [<-|N]; [rewrite upd1_same, M2; destruct (ln q); reflexivity|]. rewrite upd1_other by exact N. rewrite MO; [apply K8| |]; apply not_eq_sym, key_neq; unfold RR_ANY; try lia; tauto.
  - intros x. destruct (zlist_eq_dec q x) as [<-|N]; [rewrite !upd1_same; exact LC|]. rewrite !upd1_other by exact N. apply (lchain_frame (b_list b)); [apply K9|]. intros j H. apply FL. intros H'. apply in_app_or in H' as [H'|[<-|[]]]; [apply N, (K11 q x j H' H)|]. apply ln_lt in H. lia.
  - intros x. destruct (zlist_eq_dec q x) as [<-|N]; [rewrite upd1_same|rewrite upd1_other by exact N; apply K10]. apply NoDup_Add with (a := lp) (l := ln q); [pose proof (Add_app lp (ln q) []) as X; rewrite app_nil_r in X; exact X|]. split; [apply K10|]. intros H. apply ln_lt in H. lia.
  - intros x x' j H H'. destruct (zlist_eq_dec q x) as [<-|N], (zlist_eq_dec q x') as [<-|N']; rewrite ?upd1_same in H; rewrite ?upd1_same in H'; rewrite ?upd1_other in H by exact N; rewrite ?upd1_other in H' by exact N'; try reflexivity.
    + apply in_app_or in H as [H|[<-|[]]]; [apply (K11 _ _ j H H')|]. apply ln_lt in H'. lia.
    + apply in_app_or in H' as [H'|[<-|[]]]; [apply (K11 _ _ j H H')|]. apply ln_lt in H. lia.
    + apply (K11 x x' j H H').
  - intros x. destruct (zlist_eq_dec q x) as [<-|N]; [rewrite upd1_same|rewrite upd1_other by exact N; apply K12]. rewrite map_app. cbn [map fst]. apply NoDup_Add with (a := t) (l := map fst (al q)); [pose proof (Add_app t (map fst (al q)) []) as X; rewrite app_nil_r in X; exact X|]. split; [apply K12|].
    intros H. apply in_map_iff in H as ((t' & j) & E & H). cbn [fst] in E. subst t'. apply K13 in H as (H & _). contradiction.
  - intros x y j. destruct (zlist_eq_dec q x) as [<-|N].
    + rewrite upd1_same, in_app_iff. cbn [In]. destruct (Z.eq_dec t y) as [<-|NT].
      * rewrite !upd2_same. cbn [hd]. split; [intros [H|[H|[]]]; [apply K13 in H as (H & _); contradiction|split; [discriminate|congruence]]|]. intros (_ & ->). right. left. reflexivity.
      * rewrite !upd2_other by tauto. rewrite K13. split; [intros [H|[H|[]]]; [exact H|congruence]|]. intros H. left. exact H.
    + rewrite upd1_other by exact N. rewrite !upd2_other by tauto. apply K13.
Qed.

Lemma put_rr_ok : exists b' m', mhash_put_rr J add b query data ttl (b2z au) perms = Ok (1, b') /\ hg add (b_hash b') m' (P + 2) /\ inv b' m' A' own' ln' al' /\ length (b_rr b') = S p.
Proof.
  unfold mhash_put_rr. rewrite (type_ok _ _ _ _ HQ) by lia. cbn [bind]. change JS_ERROR with (-1). replace ((t =? -1) || (t <? 0) || (65535 <? t)) with false by lia.
  destruct (copy_value_ok (J 4) _ _ _ (HJ 4) HD CD) as (new & -> & ON). cbn [bind]. cbv zeta.
  pose proof (v_key _ _ _ _ _ _ I q t ltac:(lia) TA) as MK. rewrite NO in MK. destruct (put_ok (J 5) add (b_hash b) m P cq query _ p MARA_DNSRR G ltac:(lia) (HJ 5) HQ CQ MK) as (h1 & -> & G1). cbn [bind].
  set (r0 := mkrr ttl (b2z au) perms t None new None). set (m1 := a_set m (1, q ++ num2 t) (Some (p, MARA_DNSRR))) in *.
  assert ((1, q ++ num2 t) <> (1, q ++ num2 RR_ANY)) as NK by (apply key_neq; [lia|unfold RR_ANY; lia|]; intros (_ & E); contradiction).
  assert (exists h2 ls m2, any_add_rr J add (mkbig h1 (b_rr b ++ [Some r0]) (b_list b)) query p = Ok (1, mkbig h2 (b_rr b ++ [Some r0]) ls) /\ hg add h2 m2 (P + 2) /\
    lchain ls (ln q ++ [lp]) (al q ++ [(t, p)]) /\ (forall j, ~ In j (ln q ++ [lp]) -> nth_error ls j = nth_error (b_list b) j) /\
    m2 (1, q ++ num2 t) = Some (p, 3) /\ m2 (1, q ++ num2 RR_ANY) = Some (hd 0%nat (ln q ++ [lp]), 6) /\ (forall k, k <> (1, q ++ num2 t) -> k <> (1, q ++ num2 RR_ANY) -> m2 k = m k)) as X.
  { unfold any_add_rr. rewrite (type_ok _ _ _ _ HQ) by lia. cbn [bind]. change JS_ERROR with (-1). replace ((t =? -1) || (t <? 0) || (65535 <? t)) with false by lia. destruct (any_query_ok (J 0) _ _ _ _ (HJ 0) HQ LQ) as (c & -> & HC). cbn [bind b_list b_hash b_rr]. cbv zeta.
    rewrite (get_ok _ _ _ _ _ _ _ G1 ltac:(lia) HC). assert (m1 (1, q ++ num2 RR_ANY) = m (1, q ++ num2 RR_ANY)) as M1 by (apply a_set_other; exact NK). rewrite M1, (v_any _ _ _ _ _ _ I q). pose proof (v_lchain _ _ _ _ _ _ I q) as LC. pose proof (ln_len q) as LL. pose proof (v_ldup _ _ _ _ _ _ I q) as LD. pose proof (v_any _ _ _ _ _ _ I q) as MA.
    pose proof (fun j => ln_lt q j) as LT. destruct (ln q) as [|x l] eqn:EL.
    - cbn [bind]. change (0 =? 0) with true. cbv iota. rewrite MA in M1. destruct (put_ok (J 1) add h1 m1 (P + 1) 256 c _ lp MARA_DNS_LIST G1 ltac:(lia) (HJ 1) HC ltac:(lia) M1) as (h2 & -> & G2). cbn [bind].
      eexists h2, _, (a_set m1 (1, q ++ num2 RR_ANY) (Some (lp, MARA_DNS_LIST))). split; [reflexivity|]. split; [replace (P + 2) with (P + 1 + 1) by lia; exact G2|]. destruct (al q); [|contradiction LC]. cbn [app]. split; [cbn [lchain]; split; [apply nth_new|exact Logic.I]|].
      split. { intros j NJ. destruct (Nat.lt_ge_cases j lp) as [Lj|Lj]; [apply nth_old; exact Lj|]. rewrite (proj2 (nth_error_None (b_list b) j)) by lia. apply nth_error_None. rewrite app_length. cbn [length]. assert (j <> lp) by (intros ->; apply NJ; left; reflexivity). lia. }
      split; [rewrite a_set_other by (apply not_eq_sym; exact NK); apply a_set_same|]. split; [apply a_set_same|]. intros k N1 N2. rewrite a_set_other by (apply not_eq_sym; exact N2). apply a_set_other. apply not_eq_sym. exact N1.
    - cbn [bind]. change (6 =? MARA_DNS_LIST) with true. cbn [negb]. rewrite zlen_cons in LL. unfold zlen in LL.
      assert (lchain (b_list b ++ [Some (mklist t p None)]) (x :: l) (al q)) as LC1. { apply (lchain_frame (b_list b)); [exact LC|]. intros j H. apply nth_old. apply LT. exact H. }
      rewrite (list_end_ok _ _ _ _ (Z.to_nat FAR) LC1) by (unfold FAR; lia). cbn [bind]. destruct (lchain_last _ _ _ LC ltac:(discriminate)) as (r & ER & NR).
      assert (In (last (x :: l) 0%nat) (x :: l)) as IL by (apply last_in; discriminate). assert (nth_error (b_list b ++ [Some (mklist t p None)]) (last (x :: l) 0%nat) = Some (Some r)) as ER' by (rewrite nth_old by (apply LT; exact IL); exact ER).
      rewrite (cell_some _ _ _ ER'). cbn [bind]. rewrite NR. rewrite (set_ok _ _ _ _ ER'). cbn [bind].
      eexists h1, _, m1. split; [reflexivity|]. split; [apply (hg_weak _ _ _ _ _ G1); lia|]. split; [apply lchain_snoc; [exact LC|exact LD|discriminate|reflexivity|exact ER]|].
      split. { intros j NJ. rewrite nth_upd by (apply (nth_lt _ _ _ ER')). assert (j <> last (x :: l) 0%nat) as NL by (intros ->; apply NJ, in_or_app; left; exact IL). replace (j =? last (x :: l) 0)%nat with false by (symmetry; apply Nat.eqb_neq; exact NL).
        destruct (Nat.lt_ge_cases j lp) as [Lj|Lj]; [apply nth_old; exact Lj|]. rewrite (proj2 (nth_error_None (b_list b) j)) by lia. apply nth_error_None. rewrite app_length. cbn [length]. assert (j <> lp) by (intros ->; apply NJ, in_or_app; right; left; reflexivity). lia. }
      split; [apply a_set_same|]. split; [rewrite M1, MA; reflexivity|]. intros k N1 N2. apply a_set_other. apply not_eq_sym. exact N1. }
  destruct X as (h2 & ls & m2 & -> & G2 & LC & FL & M1 & M2 & MO). cbn [bind]. change (1 =? -1) with false. cbv iota. cbn [b_hash b_rr b_list].
  destruct (autogrow_ok (J 6) add h2 m2 _ G2 ltac:(lia) (HJ 6)) as (r & h3 & -> & G3). cbn [bind]. destruct (imm_key_ok _ _ _ _ _ _ _ G3 ltac:(lia) HQ CQ) as (k & ->). cbn [bind].
  assert (nth_error (b_rr b ++ [Some r0]) p = Some (Some r0)) as E0 by apply nth_new. rewrite (cell_some _ _ _ E0). cbn [bind]. rewrite (set_ok _ _ _ _ E0). cbn [bind]. change (1 =? -1) with false. cbv iota. eexists _, m2. split; [reflexivity|]. cbn [b_hash]. split; [exact G3|].
  assert (p < length (b_rr b ++ [Some r0]))%nat as LN by (rewrite app_length; cbn [length]; lia). split.
  - apply (put_inv _ _ _ (set_query r0 k)); try assumption; try reflexivity.
    + unfold rr_item. cbn [set_query rr_ttl rr_perms rr_data r0]. rewrite ON. reflexivity.
    + intros j NJ. rewrite nth_upd by exact LN. replace (j =? p)%nat with false by (symmetry; apply Nat.eqb_neq; exact NJ). destruct (Nat.lt_ge_cases j p) as [Lj|Lj]; [apply nth_old; exact Lj|]. rewrite (proj2 (nth_error_None (b_rr b) j)) by lia. apply nth_error_None. rewrite app_length. cbn [length]. lia.
    + rewrite nth_upd by exact LN. rewrite Nat.eqb_refl. reflexivity.
  - cbn [b_rr]. rewrite len_upd by exact LN. rewrite app_length. cbn [length]. lia.
Qed.
End Put.
End Inv.
