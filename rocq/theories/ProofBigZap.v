(** Loading zones: removing a set. *)
From Verif Require Import CBase Bits ModelDwStr SpecDwStr ProofDwStr SpecNames SpecAcl ModelJsStr SpecJsStr ProofJsStr ProofJsSearch ModelQueries SpecQueries ProofHname ProofJsList ModelMaraHash SpecMaraHash ProofMaraHash
  ModelServe ProofServe ModelBigHash SpecBigHash ProofBigHash ProofBigAuth ProofBigRun ProofBigInv ProofBigStep.

Lemma split_len {X Y} (l : list X) (a : list Y) y b : length l = length (a ++ y :: b) -> exists l1 x l2, l = l1 ++ x :: l2 /\ length l1 = length a.
Proof.
  intros E. rewrite app_length in E. cbn [length] in E. destruct (skipn (length a) l) as [|x l2] eqn:K. { apply (f_equal (@length X)) in K. rewrite skipn_length in K. cbn [length] in K. lia. }
  exists (firstn (length a) l), x, l2. split; [rewrite <- K; symmetry; apply firstn_skipn|]. apply firstn_length_le. lia.
Qed.

Section Zap.
Context (b : bighash) (m : amap nat) (A : astate) (own : list Z -> Z -> list nat) (ln : list Z -> list nat) (al : list Z -> list (Z * nat)).
Hypothesis I : inv b m A own ln al.
Context (J : Z -> Z -> Z) (add P : Z) (query : js) (cq : Z) (q : list Z) (t : Z) (s : aset).
Hypothesis HJ : forall i, junk_ok (J i).
Hypothesis G : hg add (b_hash b) m P.
Hypothesis LP : P + 1 <= 349525.
Hypothesis HQ : held cq query (q ++ num2 t).
Hypothesis CQ : cq < 2000000000.
Hypothesis LQ : 1 <= zlen q <= 253.
Hypothesis T : 0 <= t < 65000.
Hypothesis TA : t <> RR_ANY.
Hypothesis IN : A q t = Some s.
Hypothesis NL : t = RR_NS -> forall q' t' s', A q' t' = Some s' -> as_link s' <> Some q.
Notation p := (hd 0%nat (own q t)).

Lemma zap_inv rs ls m' n1 x n2 a1 a2 : ln q = n1 ++ x :: n2 -> al q = a1 ++ (t, p) :: a2 -> (forall j, j <> p -> nth_error rs j = nth_error (b_rr b) j) ->
  lchain ls (n1 ++ n2) (a1 ++ a2) -> (forall j, ~ In j (n1 ++ x :: n2) -> nth_error ls j = nth_error (b_list b) j) ->
  m' (1, q ++ num2 t) = None -> m' (1, q ++ num2 RR_ANY) = match n1 ++ n2 with [] => None | y :: _ => Some (y, 6) end -> (forall k, k <> (1, q ++ num2 t) -> k <> (1, q ++ num2 RR_ANY) -> m' k = m k) ->
  forall h, inv (mkbig h rs ls) m' (upd2 A q t None) (upd2 own q t []) (upd1 ln q (n1 ++ n2)) (upd1 al q (a1 ++ a2)).
Proof.
  intros EL EA FR LC FL M1 M2 MO h. pose proof I as [K1 K2 K3 K4 K5 K6 K7 K8 K9 K10 K11 K12 K13].
  assert (In p (own q t)) as IP by (apply (own_hd _ _ _ _ _ _ I); rewrite IN; discriminate).
  assert (forall y, In y (n1 ++ n2) -> In y (ln q)) as LI. { intros y H. rewrite EL. apply in_app_iff. apply in_app_iff in H as [H|H]; [left; exact H|right; right; exact H]. }
  assert (forall x' y' u z, A x' y' = Some u -> as_link u = Some z -> ~ (q = z /\ t = RR_NS)) as LK. { intros x' y' u z H E (-> & ET). apply (NL ET x' y' u H E). }
  constructor; cbn [b_rr b_list].
  - intros x' y' Y YA. destruct (pair_dec q x' t y') as [(<- & <-)|N]; [rewrite !upd2_same; exact M1|]. rewrite !upd2_other by exact N. rewrite MO; [apply K1; assumption|apply not_eq_sym, key_neq; [lia|lia|exact N]|]. apply key_neq; [lia|unfold RR_ANY; lia|]. intros (_ & E). contradiction.
  - intros x' y' H. destruct (pair_dec q x' t y') as [(<- & <-)|N]; [rewrite upd2_same in H; contradiction|]. rewrite upd2_other in H by exact N. exact (K2 x' y' H).
  - intros x' y' H. destruct (pair_dec q x' t y') as [(<- & <-)|N]; [apply upd2_same|]. rewrite upd2_other in H by exact N. rewrite upd2_other by exact N. exact (K3 x' y' H).
  - intros x' y' u H. destruct (pair_dec q x' t y') as [(<- & <-)|N]; [rewrite upd2_same in H; discriminate|]. rewrite upd2_other in H by exact N. rewrite upd2_other by exact N. destruct (K4 x' y' u H) as (NE & C). split; [exact NE|].
    assert (tail_of (upd2 own q t []) u = tail_of own u) as ->. { unfold tail_of. destruct (as_link u) as [z|] eqn:E; [|reflexivity]. rewrite upd2_other by (apply (LK x' y' u z H E)). reflexivity. }
    apply (chain_frame (b_rr b)); [exact C|]. intros j Hj. apply FR. intros ->. apply N, (K7 q t x' y' _ IP Hj).
  - intros x' y' u z H E. destruct (pair_dec q x' t y') as [(<- & <-)|N]; [rewrite upd2_same in H; discriminate|]. rewrite upd2_other in H by exact N. destruct (K5 x' y' u z H E) as (X1 & X2). split; [exact X1|]. rewrite upd2_other by (apply (LK x' y' u z H E)). exact X2.
  - intros x' y'. destruct (pair_dec q x' t y') as [(<- & <-)|N]; [rewrite upd2_same; constructor|]. rewrite upd2_other by exact N. apply K6.
  - assert (forall x' y' j, In j (upd2 own q t [] x' y') -> In j (own x' y')) as SP. { intros x' y' j. destruct (pair_dec q x' t y') as [(<- & <-)|N]; [rewrite upd2_same; intros []|]. rewrite upd2_other by exact N. tauto. } intros x1 y1 x2 y2 j H1 H2. exact (K7 _ _ _ _ j (SP _ _ _ H1) (SP _ _ _ H2)).
  - intros x'. destruct (zlist_eq_dec q x') as [<-|N]; [rewrite upd1_same; exact M2|]. rewrite upd1_other by exact N. rewrite MO; [apply K8| |]; apply not_eq_sym, key_neq; unfold RR_ANY; try lia; tauto.
  - intros x'. destruct (zlist_eq_dec q x') as [<-|N]; [rewrite !upd1_same; exact LC|]. rewrite !upd1_other by exact N. apply (lchain_frame (b_list b)); [apply K9|]. intros j H. apply FL. rewrite <- EL. intros H'. apply N, (K11 q x' j H' H).
  - intros x'. destruct (zlist_eq_dec q x') as [<-|N]; [rewrite upd1_same|rewrite upd1_other by exact N; apply K10]. pose proof (K10 q) as D. rewrite EL in D. apply NoDup_remove_1 in D. exact D.
  - assert (forall x' j, In j (upd1 ln q (n1 ++ n2) x') -> In j (ln x')) as SP. { intros x' j. destruct (zlist_eq_dec q x') as [<-|N]; [rewrite upd1_same; apply LI|]. rewrite upd1_other by exact N. tauto. } intros x1 x2 j H1 H2. exact (K11 _ _ j (SP _ _ H1) (SP _ _ H2)).
  - intros x'. destruct (zlist_eq_dec q x') as [<-|N]; [rewrite upd1_same|rewrite upd1_other by exact N; apply K12]. pose proof (K12 q) as D. rewrite EA, map_app in D. cbn [map fst] in D. apply NoDup_remove_1 in D. rewrite map_app. exact D.
  - intros x' y' j. destruct (zlist_eq_dec q x') as [<-|N].
    + rewrite upd1_same. pose proof (K12 q) as D. rewrite EA, map_app in D. cbn [map fst] in D. apply NoDup_remove_2 in D. rewrite <- map_app in D. destruct (Z.eq_dec t y') as [<-|NT].
      * rewrite upd2_same. split; [|intros (H & _); contradiction]. intros H. exfalso. apply D. apply in_map_iff. exists (t, j). split; [reflexivity|exact H].
      * rewrite !upd2_other by tauto. rewrite <- K13, EA, !in_app_iff. cbn [In]. split; [tauto|]. intros [H|[H|H]]; [tauto| |tauto]. congruence.
    + rewrite upd1_other by exact N. rewrite !upd2_other by tauto. apply K13.
Qed.

Lemma zap_ok : exists h b1 rs m' own' ln' al', mhash_undef add (b_hash b) query = Ok (Some p, h) /\ any_zap_rr J add (mkbig h (b_rr b) (b_list b)) query p = Ok (1, b1) /\ free_cell (b_rr b1) p = Ok rs /\
  hg add (b_hash b1) m' (P + 1) /\ inv (mkbig (b_hash b1) rs (b_list b1)) m' (upd2 A q t None) own' ln' al'.
Proof.
  pose proof (v_key _ _ _ _ _ _ I q t ltac:(lia) TA) as MK. rewrite IN in MK. destruct (undef_ok _ _ _ _ _ _ _ G ltac:(lia) HQ CQ) as (h1 & E1 & G1). rewrite MK in E1. cbn [option_map fst] in E1.
  assert (In p (own q t)) as IP by (apply (own_hd _ _ _ _ _ _ I); rewrite IN; discriminate).
  assert (In (t, p) (al q)) as IA by (apply (v_al _ _ _ _ _ _ I); split; [rewrite IN; discriminate|reflexivity]). apply in_split in IA as (a1 & a2 & EA). pose proof (v_lchain _ _ _ _ _ _ I q) as LC. pose proof (lchain_len _ _ _ LC) as LL. rewrite EA in LL. apply split_len in LL as (n1 & x & n2 & EL & LN).
  pose proof (v_ldup _ _ _ _ _ _ I q) as LD. pose proof (ln_len _ _ _ _ _ _ I q) as LM. pose proof (v_any _ _ _ _ _ _ I q) as MA. rewrite EL in LC, LD, LM, MA. rewrite EA in LC.
  assert ((1, q ++ num2 t) <> (1, q ++ num2 RR_ANY)) as NK by (apply key_neq; [lia|unfold RR_ANY; lia|]; intros (_ & E); contradiction).
  assert (exists rr0, nth_error (b_rr b) p = Some (Some rr0)) as (rr0 & ER). { destruct (v_chain _ _ _ _ _ _ I q t s IN) as (_ & C). apply (chain_at _ _ _ _ _ _ _ C IP). }
  set (m1 := a_set m (1, q ++ num2 t) None) in *. assert (m1 (1, q ++ num2 RR_ANY) = m (1, q ++ num2 RR_ANY)) as M1 by (apply a_set_other; exact NK).
  destruct (any_query_ok (J 2) _ _ _ _ (HJ 2) HQ LQ) as (c & EC & HC).
  assert (exists h2 ls m2, any_zap_rr J add (mkbig h1 (b_rr b) (b_list b)) query p = Ok (1, mkbig h2 (b_rr b) ls) /\ hg add h2 m2 (P + 1) /\ lchain ls (n1 ++ n2) (a1 ++ a2) /\ (forall j, ~ In j (n1 ++ x :: n2) -> nth_error ls j = nth_error (b_list b) j) /\
    m2 (1, q ++ num2 t) = None /\ m2 (1, q ++ num2 RR_ANY) = match n1 ++ n2 with [] => None | y :: _ => Some (y, 6) end /\ (forall k, k <> (1, q ++ num2 t) -> k <> (1, q ++ num2 RR_ANY) -> m2 k = m k)) as X.
  { unfold any_zap_rr. rewrite EC. cbn [bind b_hash b_list b_rr]. rewrite (get_ok _ _ _ _ _ _ _ G1 ltac:(lia) HC), M1, MA. destruct n1 as [|y n1]; destruct a1 as [|e a1]; cbn [length] in LN; try lia; cbn [app] in *.
    - change (6 =? 0) with false. cbn [bind]. change (6 =? MARA_DNS_LIST) with true. cbn [negb]. destruct LC as (E0 & LC). cbn [fst snd] in E0. rewrite (cell_some _ _ _ E0). cbn [bind l_data]. rewrite Nat.eqb_refl.
      destruct (undef_ok _ _ _ _ _ _ _ G1 ltac:(lia) HC ltac:(lia)) as (h2 & E2 & G2). rewrite M1, MA in E2. cbn [option_map fst] in E2. rewrite E2. cbn [bind]. rewrite Nat.eqb_refl. cbn [negb]. rewrite (free_ok _ _ _ E0). cbn [bind l_next].
      assert (x < length (b_list b))%nat as XL by apply (nth_lt _ _ _ E0). apply NoDup_cons_iff in LD as (LD1 & LD2).
      assert (lchain (upd (b_list b) x None) n2 a2) as LC2. { apply (lchain_frame (b_list b)); [exact LC|]. intros j Hj. rewrite nth_upd by exact XL. destruct (Nat.eqb_spec j x) as [-> |_]; [contradiction|reflexivity]. }
      assert (forall j, ~ In j (x :: n2) -> nth_error (upd (b_list b) x None) j = nth_error (b_list b) j) as FL. { intros j Hj. rewrite nth_upd by exact XL. destruct (Nat.eqb_spec j x) as [-> |_]; [exfalso; apply Hj; left; reflexivity|reflexivity]. }
      set (m2 := a_set m1 (1, q ++ num2 RR_ANY) None) in *. assert (m2 (1, q ++ num2 RR_ANY) = None) as M2 by apply a_set_same. assert (m2 (1, q ++ num2 t) = None) as M3 by (unfold m2; rewrite a_set_other by (apply not_eq_sym; exact NK); apply a_set_same).
      assert (forall k, k <> (1, q ++ num2 t) -> k <> (1, q ++ num2 RR_ANY) -> m2 k = m k) as MO. { intros k N1 N2. unfold m2. rewrite a_set_other by (apply not_eq_sym; exact N2). apply a_set_other. apply not_eq_sym. exact N1. }
      destruct n2 as [|y n2]; cbn [next_of hd_error].
      + exists h2, (upd (b_list b) x None), m2. split; [reflexivity|]. split; [apply (hg_weak _ _ _ _ _ G2); lia|]. repeat (split; [assumption|]). exact MO.
      + destruct (put_ok (J 3) add h2 m2 P 256 c _ y MARA_DNS_LIST G2 ltac:(lia) (HJ 3) HC ltac:(lia) M2) as (h3 & E3 & G3). rewrite E3. cbn [bind]. eexists h3, (upd (b_list b) x None), _. split; [reflexivity|]. split; [exact G3|]. split; [exact LC2|]. split; [exact FL|].
        split; [rewrite a_set_other by (apply not_eq_sym; exact NK); exact M3|]. split; [apply a_set_same|]. intros k N1 N2. rewrite a_set_other by (apply not_eq_sym; exact N2). apply MO; assumption.
    - change (6 =? 0) with false. cbn [bind]. change (6 =? MARA_DNS_LIST) with true. cbn [negb]. pose proof LC as (E0 & _). rewrite (cell_some _ _ _ E0). cbn [bind l_data].
      assert (~ In p (map snd (e :: a1))) as ND. { intros H. apply in_map_iff in H as ((t' & j) & E & H). cbn [snd] in E. subst j. pose proof (v_types _ _ _ _ _ _ I q) as D. rewrite EA in D. change (e :: a1 ++ (t, p) :: a2) with ((e :: a1) ++ (t, p) :: a2) in D. rewrite map_app in D. cbn [map fst] in D. apply NoDup_remove_2 in D.
        assert (In (t', p) (al q)) as IT by (rewrite EA; change (e :: a1 ++ (t, p) :: a2) with ((e :: a1) ++ (t, p) :: a2); apply in_or_app; left; exact H). apply (v_al _ _ _ _ _ _ I) in IT as (IT1 & IT2). pose proof (own_hd _ _ _ _ _ _ I q t' IT1) as IT3. rewrite <- IT2 in IT3. destruct (v_disj _ _ _ _ _ _ I _ _ _ _ _ IP IT3) as (_ & <-).
        apply D. apply in_or_app. left. apply (in_map fst) in H. exact H. }
      cbn [map] in ND. replace (snd e =? p)%nat with false by (symmetry; apply Nat.eqb_neq; intros E; apply ND; left; exact E).
      destruct (list_zap_ok p t n1 (b_list b) y x n2 e a1 a2 (Z.to_nat FAR) LC ltac:(lia) LD) as (ls & EZ & LC' & FL & _); [intros H; apply ND; right; exact H| |]. { unfold zlen in LM. cbn [length] in LM. rewrite app_length in LM. cbn [length] in LM. unfold FAR. lia. }
      rewrite EZ. cbn [bind]. exists h1, ls, m1. split; [reflexivity|]. split; [apply (hg_weak _ _ _ _ _ G1); lia|]. split; [exact LC'|]. split; [exact FL|]. split; [apply a_set_same|]. split; [rewrite M1; exact MA|]. intros k N1 N2. apply a_set_other. apply not_eq_sym. exact N1. }
  destruct X as (h2 & ls & m2 & EZ & G2 & LC' & FL & M3 & M4 & MO). eexists h1, _, _, m2, _, _, _. split; [exact E1|]. split; [exact EZ|]. cbn [b_rr b_hash b_list]. split; [apply (free_ok _ _ _ ER)|]. split; [exact G2|].
  apply (zap_inv _ _ _ n1 x n2 a1 a2); try assumption. intros j NJ. rewrite nth_upd by apply (nth_lt _ _ _ ER). replace (j =? p)%nat with false by (symmetry; apply Nat.eqb_neq; exact NJ). reflexivity.
Qed.
End Zap.
