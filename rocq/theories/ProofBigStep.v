(** Loading zones: adding to a set, replacing a set, and the NS records behind it. *)
From Verif Require Import CBase Bits ModelDwStr SpecDwStr ProofDwStr SpecNames SpecAcl ModelJsStr SpecJsStr ProofJsStr ProofJsSearch ModelQueries SpecQueries ProofHname ProofJsList ModelMaraHash SpecMaraHash ProofMaraHash
  ModelServe ProofServe ModelBigHash SpecBigHash ProofBigHash ProofBigAuth ProofBigRun ProofBigInv.

Lemma inv_ext b m A A' own own' ln ln' al al' : inv b m A own ln al -> (forall q t, A' q t = A q t) -> (forall q t, own' q t = own q t) -> (forall q, ln' q = ln q) -> (forall q, al' q = al q) -> inv b m A' own' ln' al'.
Proof.
  intros [K1 K2 K3 K4 K5 K6 K7 K8 K9 K10 K11 K12 K13] EA EO EL EM. assert (forall s, tail_of own' s = tail_of own s) as ET. { intros s. unfold tail_of. destruct (as_link s); [rewrite EO|]; reflexivity. }
  constructor; intros; repeat (rewrite ?EA, ?EO, ?EL, ?EM, ?ET in *); eauto.
Qed.
Lemma inv_hash b m A own ln al h : inv b m A own ln al -> inv (mkbig h (b_rr b) (b_list b)) m A own ln al.
Proof. intros [K1 K2 K3 K4 K5 K6 K7 K8 K9 K10 K11 K12 K13]. constructor; cbn [b_rr b_list]; assumption. Qed.

Lemma chain_at rs t au tail p : forall ps is, chain rs ps is t au tail -> In p ps -> exists r, nth_error rs p = Some (Some r).
Proof. induction ps as [|x l IH]; intros [|i is] C H; try contradiction. destruct C as ((r & E & _) & C). destruct H as [-> |H]; [exists r; exact E|]. apply (IH is C H). Qed.
Definition mem_t (A : astate) (z : list Z) : bool := match A z RR_NS with Some _ => true | None => false end.

Section Step.
Context (b : bighash) (m : amap nat) (A : astate) (own : list Z -> Z -> list nat) (ln : list Z -> list nat) (al : list Z -> list (Z * nat)).
Hypothesis I : inv b m A own ln al.
Context (J : Z -> Z -> Z) (add P : Z) (query data zone : js) (cq cd cz : Z) (q d z : list Z) (t ttl perms : Z) (au : bool).
Hypothesis HJ : forall i, junk_ok (J i).
Hypothesis G : hg add (b_hash b) m P.
Hypothesis HQ : held cq query (q ++ num2 t).
Hypothesis CQ : cq < 2000000000.
Hypothesis HD : held cd data d.
Hypothesis CD : cd < 2000000000.
Hypothesis HZ : held cz zone (z ++ num2 RR_NS).
Hypothesis LQ : 1 <= zlen q <= 253.
Hypothesis LZ : 1 <= zlen z.
Hypothesis T : 0 <= t < 65000.
Hypothesis TA : t <> RR_ANY.

Lemma head_cell q' t' s : A q' t' = Some s -> exists r, nth_error (b_rr b) (hd 0%nat (own q' t')) = Some (Some r) /\ rr_type r = t' /\ rr_auth r = b2z (as_auth s).
Proof.
  intros E. destruct (v_chain _ _ _ _ _ _ I q' t' s E) as (NE & C). destruct (own q' t') as [|p ps]; [contradiction|]. destruct (as_items s) as [|i is]; [contradiction C|]. destruct C as ((r & ER & _ & ET & EA & _) & _). exists r. split; [exact ER|]. split; assumption.
Qed.

(** The NS records of the zone go behind a new set. *)
Lemma add_ns_ok p i : P <= 349525 -> A q t = Some (mkaset au [i] None) -> own q t = [p] ->
  exists b', mhash_add_ns add b query zone = Ok (1, b') /\ b_hash b' = b_hash b /\
    inv b' m (upd2 A q t (Some (mkaset au [i] (if (t =? RR_NS) || negb (mem_t A z) then None else Some z)))) own ln al.
Proof.
  intros LP EA EO. unfold mhash_add_ns. rewrite (type_ok _ _ _ _ HQ) by lia. cbn [bind]. change JS_ERROR with (-1). replace ((t =? -1) || (t <? 0) || (65535 <? t)) with false by lia.
  assert (forall v, v = None -> inv b m (upd2 A q t (Some (mkaset au [i] v))) own ln al) as SAME. { intros v ->. apply (inv_ext _ _ _ _ _ _ _ _ _ _ I); try reflexivity. intros x y. destruct (pair_dec q x t y) as [(<- & <-)|N]; [rewrite upd2_same, EA; reflexivity|]. apply upd2_other. exact N. }
  destruct (Z.eqb_spec t RR_NS) as [TN|TN]. { exists b. split; [reflexivity|]. split; [reflexivity|]. apply SAME. reflexivity. }
  cbn [orb]. rewrite (type_ok _ _ _ _ HZ) by (unfold RR_NS; lia). cbn [bind]. replace ((RR_NS =? -1) || (RR_NS <? 0) || (65535 <? RR_NS)) with false by reflexivity. rewrite Z.eqb_refl. cbn [negb].
  rewrite (get_ok _ _ _ _ _ _ _ G LP HQ), (v_key _ _ _ _ _ _ I q t ltac:(lia) TA), EA, EO. cbn [bind hd]. change (3 =? MARA_DNSRR) with true. cbn [negb].
  rewrite (get_ok _ _ _ _ _ _ _ G LP HZ), (v_key _ _ _ _ _ _ I z RR_NS ltac:(unfold RR_NS; lia) ltac:(discriminate)). unfold mem_t. destruct (A z RR_NS) as [sz|] eqn:EZ; cbn [bind].
  2: { exists b. split; [reflexivity|]. split; [reflexivity|]. apply SAME. reflexivity. }
  change (3 =? MARA_DNSRR) with true. cbn [negb]. destruct (v_chain _ _ _ _ _ _ I q t _ EA) as (_ & C). rewrite EO in C. cbn [as_items as_auth chain] in C. destruct C as ((r & ER & EI & ET & EU & EN) & _). cbn [next_of tail_of as_link] in EN.
  cbn [last_rr]. rewrite (cell_some _ _ _ ER). cbn [bind]. rewrite EN. cbn [bind]. rewrite (cell_some _ _ _ ER). cbn [bind]. rewrite (set_ok _ _ _ _ ER). cbn [bind]. eexists. split; [reflexivity|]. split; [reflexivity|].
  set (n := hd 0%nat (own z RR_NS)). pose proof I as [K1 K2 K3 K4 K5 K6 K7 K8 K9 K10 K11 K12 K13]. pose proof (nth_lt _ _ _ ER) as PL.
  constructor; cbn [b_rr b_list].
  - intros x y Y YA. rewrite K1 by assumption. destruct (pair_dec q x t y) as [(<- & <-)|N]; [rewrite upd2_same, EA; reflexivity|]. rewrite upd2_other by exact N. reflexivity.
  - intros x y H. destruct (pair_dec q x t y) as [(<- & <-)|N]; [split; [exact T|exact TA]|]. rewrite upd2_other in H by exact N. exact (K2 x y H).
  - intros x y H. destruct (pair_dec q x t y) as [(<- & <-)|N]; [rewrite upd2_same in H; discriminate|]. rewrite upd2_other in H by exact N. exact (K3 x y H).
  - intros x y s H. destruct (pair_dec q x t y) as [(<- & <-)|N].
    + rewrite upd2_same in H. injection H as <-. rewrite EO. split; [discriminate|]. cbn [as_items as_auth chain tail_of as_link next_of]. split; [|exact Logic.I]. exists (set_next r (Some n)). rewrite nth_upd by exact PL. rewrite Nat.eqb_refl. split; [reflexivity|]. split; [exact EI|]. split; [exact ET|]. split; [exact EU|]. reflexivity.
    + rewrite upd2_other in H by exact N. destruct (K4 x y s H) as (NE & C). split; [exact NE|]. apply (chain_frame (b_rr b)); [exact C|]. intros j Hj. rewrite nth_upd by exact PL. destruct (Nat.eqb_spec j p) as [->|NJ]; [|reflexivity]. exfalso. apply N. apply (K7 q t x y p); [rewrite EO; left; reflexivity|exact Hj].
  - intros x y s w H EL. assert (forall w, A w RR_NS <> None -> upd2 A q t (Some (mkaset au [i] (Some z))) w RR_NS <> None) as MON. { intros w' HW. rewrite upd2_other by (intros (_ & E); contradiction). exact HW. }
    destruct (pair_dec q x t y) as [(<- & <-)|N]; [rewrite upd2_same in H; injection H as <-; cbn [as_link] in EL; injection EL as <-; split; [exact TN|apply MON; rewrite EZ; discriminate]|]. rewrite upd2_other in H by exact N. destruct (K5 x y s w H EL) as (X1 & X2). split; [exact X1|]. apply MON, X2.
  - exact K6.
  - exact K7.
  - exact K8.
  - exact K9.
  - exact K10.
  - exact K11.
  - exact K12.
  - intros x y j. rewrite K13. destruct (pair_dec q x t y) as [(<- & <-)|N]; [rewrite upd2_same, EA; split; intros (_ & X); (split; [discriminate|exact X])|]. rewrite upd2_other by exact N. reflexivity.
Qed.

(** One more record in a set. *)
Definition put_in (x : item) (l : list item) : list item := if t =? RR_NS then put_after 1 l x else l ++ [x].
Lemma nth_last (l : list nat) : l <> [] -> nth (length l - 1) l 0%nat = last l 0%nat.
Proof.
  intros H. destruct (exists_last H) as (l' & x & ->). rewrite last_last, app_length. cbn [length]. replace (length l' + 1 - 1)%nat with (length l') by lia. rewrite app_nth2, Nat.sub_diag by lia. reflexivity.
Qed.
Lemma put_after_end {X} (l : list X) x : put_after (length l) l x = l ++ [x].
Proof. unfold put_after. rewrite firstn_all, skipn_all. reflexivity. Qed.
Lemma add_rr_ok s : P <= 349525 -> A q t = Some s ->
  exists b' own', mhash_add_rr J add b query data ttl (b2z (as_auth s)) perms = Ok (1, b') /\ b_hash b' = b_hash b /\
    inv b' m (upd2 A q t (Some (mkaset (as_auth s) (put_in (ttl, perms, d) (as_items s)) (as_link s)))) own' ln al.
Proof.
  intros LP EA. unfold mhash_add_rr. rewrite (type_ok _ _ _ _ HQ) by lia. cbn [bind]. change JS_ERROR with (-1). replace ((t =? -1) || (t <? 0) || (65535 <? t)) with false by lia.
  destruct (copy_value_ok (J 4) _ _ _ (HJ 4) HD CD) as (new & -> & ON). cbn [bind]. rewrite (get_ok _ _ _ _ _ _ _ G LP HQ), (v_key _ _ _ _ _ _ I q t ltac:(lia) TA), EA. cbn [bind]. change (3 =? MARA_DNSRR) with true. cbn [negb]. cbv zeta.
  destruct (head_cell q t s EA) as (r1 & ER1 & _). rewrite (cell_some _ _ _ ER1). cbn [bind]. destruct (v_chain _ _ _ _ _ _ I q t s EA) as (NE & C). pose proof (v_dup _ _ _ _ _ _ I q t) as D. pose proof (chain_len _ _ _ _ _ _ C) as LL.
  assert (length (own q t) <= length (b_rr b))%nat as LB by (apply pigeon; [exact D|intros x Hx; apply (chain_in _ _ _ _ _ _ _ C Hx)]).
  set (k := if t =? RR_NS then 0%nat else (length (own q t) - 1)%nat).
  assert (before_ns (S (length (b_rr b))) (b_rr b) (hd 0%nat (own q t)) = Ok (nth k (own q t) 0%nat) /\ (k < length (own q t))%nat) as (EB & KL).
  { unfold k. destruct (Z.eqb_spec t RR_NS) as [TN|TN].
    - split; [|destruct (own q t); [contradiction|cbn [length]; lia]]. assert (tail_of own s = None) as TL. { unfold tail_of. destruct (as_link s) as [w|] eqn:EL; [|reflexivity]. destruct (v_link _ _ _ _ _ _ I q t s w EA EL) as (X & _). contradiction. } rewrite TL in C.
      clear - C NE LB TN. destruct (own q t) as [|p ps]; [contradiction|]. cbn [hd nth]. rewrite TN in C. rewrite (before_ns_first _ _ _ _ _ _ C) by lia. reflexivity.
    - split; [|destruct (own q t); [contradiction|cbn [length]; lia]]. rewrite (nth_last (own q t)) by exact NE. destruct (own q t) as [|p ps]; [contradiction|]. cbn [hd]. apply (before_ns_ok _ (as_auth s) (tail_of own s) t TN) with (is := as_items s); [|exact C|lia].
      unfold tail_of. destruct (as_link s) as [w|] eqn:EL; [|exact Logic.I]. destruct (v_link _ _ _ _ _ _ I q t s w EA EL) as (_ & X). destruct (A w RR_NS) as [sw|] eqn:EW; [|contradiction]. destruct (head_cell w RR_NS sw EW) as (r & E1 & E2 & _). exists r. split; assumption. }
  rewrite EB. cbn [bind]. set (pt := nth k (own q t) 0%nat) in *. assert (In pt (own q t)) as IP by (apply nth_In; exact KL). assert (exists r, nth_error (b_rr b) pt = Some (Some r)) as (r & ER). { apply (chain_at _ _ _ _ _ _ _ C IP). }
  rewrite (cell_some _ _ _ ER). cbn [bind]. set (i0 := mkrr ttl (b2z (as_auth s)) perms t (rr_query r1) new (rr_next r)). pose proof (nth_lt _ _ _ ER) as PL.
  assert (nth_error (b_rr b ++ [Some i0]) pt = Some (Some r)) as ER' by (rewrite nth_old by exact PL; exact ER). rewrite (set_ok _ _ _ _ ER'). cbn [bind].
  eexists _, (upd2 own q t (put_after (S k) (own q t) (length (b_rr b)))). split; [reflexivity|]. split; [reflexivity|].
  pose proof I as [K1 K2 K3 K4 K5 K6 K7 K8 K9 K10 K11 K12 K13].
  assert (hd 0%nat (put_after (S k) (own q t) (length (b_rr b))) = hd 0%nat (own q t)) as HH by (unfold put_after; destruct (own q t); [contradiction|reflexivity]).
  set (s' := mkaset (as_auth s) (put_in (ttl, perms, d) (as_items s)) (as_link s)). set (own' := upd2 own q t (put_after (S k) (own q t) (length (b_rr b)))).
  assert (forall x y, hd 0%nat (own' x y) = hd 0%nat (own x y)) as HE. { intros x y. unfold own'. destruct (pair_dec q x t y) as [(<- & <-)|N]; [rewrite upd2_same; exact HH|rewrite upd2_other by exact N; reflexivity]. }
  assert (forall u, tail_of own' u = tail_of own u) as TE. { intros u. unfold tail_of. destruct (as_link u); [rewrite HE|]; reflexivity. }
  assert (forall x y, upd2 A q t (Some s') x y <> None <-> A x y <> None) as AN. { intros x y. destruct (pair_dec q x t y) as [(<- & <-)|N]; [rewrite upd2_same, EA; split; discriminate|]. rewrite upd2_other by exact N. reflexivity. }
  constructor; cbn [b_rr b_list].
  - intros x y Y YA. rewrite K1, HE by assumption. destruct (pair_dec q x t y) as [(<- & <-)|N]; [rewrite upd2_same, EA; reflexivity|]. rewrite upd2_other by exact N. reflexivity.
  - intros x y H. apply AN in H. exact (K2 x y H).
  - intros x y H. destruct (pair_dec q x t y) as [(<- & <-)|N]; [rewrite upd2_same in H; discriminate|]. unfold own'. rewrite upd2_other in H by exact N. rewrite upd2_other by exact N. exact (K3 x y H).
  - intros x y u H. rewrite TE. destruct (pair_dec q x t y) as [(<- & <-)|N].
    + rewrite upd2_same in H. injection H as <-. unfold own'. rewrite upd2_same. split; [unfold put_after; destruct (firstn (S k) (own q t)); discriminate|]. unfold s'. cbn [as_items as_auth].
      assert (put_in (ttl, perms, d) (as_items s) = put_after (S k) (as_items s) (rr_item i0)) as ->. { unfold rr_item. cbn [i0 rr_ttl rr_perms rr_data]. rewrite ON. unfold put_in, k. destruct (t =? RR_NS); [reflexivity|]. replace (S (length (own q t) - 1)) with (length (as_items s)) by (rewrite <- LL; clear - NE; destruct (own q t); [contradiction|cbn [length]; lia]). rewrite put_after_end. reflexivity. }
      apply chain_insert; try reflexivity; try assumption.
    + unfold own'. rewrite upd2_other in H by exact N. rewrite upd2_other by exact N. destruct (K4 x y u H) as (NE' & C'). split; [exact NE'|]. apply (chain_frame (b_rr b)); [exact C'|]. intros j Hj. assert (j < length (b_rr b))%nat as JL by apply (chain_in _ _ _ _ _ _ _ C' Hj).
      rewrite nth_upd by (rewrite app_length; lia). destruct (Nat.eqb_spec j pt) as [-> |NJ]; [|apply nth_old; exact JL]. exfalso. apply N. apply (K7 q t x y pt IP Hj).
  - intros x y u w H EL. destruct (pair_dec q x t y) as [(<- & <-)|N].
    + rewrite upd2_same in H. injection H as <-. cbn [as_link s'] in EL. destruct (K5 q t s w EA EL) as (X1 & X2). split; [exact X1|]. apply AN, X2.
    + rewrite upd2_other in H by exact N. destruct (K5 x y u w H EL) as (X1 & X2). split; [exact X1|]. apply AN, X2.
  - intros x y. unfold own'. destruct (pair_dec q x t y) as [(<- & <-)|N]; [rewrite upd2_same; apply put_after_nodup; [exact D|]; intros H; apply (own_lt _ _ _ _ _ _ I) in H; lia|]. rewrite upd2_other by exact N. apply K6.
  - assert (forall x y j, In j (own' x y) -> (j = length (b_rr b) /\ q = x /\ t = y) \/ In j (own x y)) as SP. { intros x y j. unfold own'. destruct (pair_dec q x t y) as [(<- & <-)|N]; [rewrite upd2_same, put_after_in; tauto|]. rewrite upd2_other by exact N. tauto. }
    intros x y x' y' j H H'. apply SP in H as [(-> & <- & <-)|H]; apply SP in H' as [(E & <- & <-)|H'].
    + split; reflexivity.
    + apply (own_lt _ _ _ _ _ _ I) in H'. lia.
    + subst j. apply (own_lt _ _ _ _ _ _ I) in H. lia.
    + exact (K7 x y x' y' j H H').
  - exact K8.
  - exact K9.
  - exact K10.
  - exact K11.
  - exact K12.
  - intros x y j. rewrite K13, HE, AN. reflexivity.
Qed.
End Step.
