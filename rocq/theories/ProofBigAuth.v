(** Loading zones: which records are authoritative. *)
From Verif Require Import CBase Bits ModelDwStr SpecDwStr ProofDwStr SpecNames SpecAcl ModelJsStr SpecJsStr ProofJsStr ProofJsSearch ModelQueries SpecQueries ProofHname ProofJsList ModelMaraHash SpecMaraHash ProofMaraHash
  ModelServe ProofServe ModelBigHash SpecBigHash ProofBigHash.

Lemma first_from_true f l : forall n k, first_from n k f = l -> 0 <= k -> l <> -2 -> f l = true.
Proof. induction n as [|n IH]; intros k E K N; cbn [first_from] in E; [congruence|]. destruct (f k) eqn:F; [congruence|]. apply (IH (k + 1)); [exact E|lia|exact N]. Qed.
Lemma first_from_is f l : forall n k, 0 <= k <= l -> l < k + Z.of_nat n -> f l = true -> (forall i, k <= i < l -> f i = false) -> first_from n k f = l.
Proof.
  induction n as [|n IH]; intros k K L F N; [lia|]. cbn [first_from]. destruct (Z.eq_dec k l) as [->|D]; [rewrite F; reflexivity|]. rewrite N by lia. apply IH; [lia|lia|exact F|]. intros i Hi. apply N. lia.
Qed.

Lemma nonzero_at x i b : Forall (fun b => b <> 0) x -> zget x i = Some b -> b <> 0.
Proof. intros F G. unfold zget in G. destruct (i <? 0); [discriminate G|]. apply nth_error_In in G. rewrite Forall_forall in F. apply F, G. Qed.
Lemma zget_lt (l : list Z) i : 0 <= i < zlen l -> exists b, zget l i = Some b. Proof. intros H. destruct (zget l i) eqn:E; [eexists; reflexivity|]. apply zget_none in E. lia. Qed.

Lemma no_earlier l z t k : clean (l ++ z) -> clean z -> (t < 256 \/ last z 0 = 0) -> 0 <= t -> 0 <= k < zlen l -> zlist_eqb (zslice ((l ++ z) ++ num2 t) k (zlen z + 2)) (z ++ num2 t) = false.
Proof.
  intros (y & e' & EQ & NY & _ & OE') (x & e & -> & NX & _ & OE) T T0 K. apply zlist_eqb_neq. intros C. pose proof (zlen_nonneg x) as PX. pose proof (zlen_nonneg l) as PL.
  rewrite app_assoc in EQ. apply app_inj_tail in EQ as (<- & <-). rewrite last_last in T. rewrite zlen_app in C. change (zlen [e]) with 1 in C.
  set (s := (l ++ x ++ [e]) ++ num2 t) in *. assert (zlen s = zlen l + zlen x + 3) as LS by (unfold s; rewrite !zlen_app; change (zlen [e]) with 1; rewrite num2_len; lia).
  assert (forall i, 0 <= i < zlen x + 3 -> zget s (k + i) = zget ((x ++ [e]) ++ num2 t) i) as G. { intros i Hi. rewrite <- C, zget_zslice by lia. reflexivity. }
  assert (forall i b, 0 <= i < zlen l + zlen x -> zget s i = Some b -> b <> 0) as NZ.
  { intros i b Hi Gi. unfold s in Gi. rewrite app_assoc, <- app_assoc, zget_app_l in Gi by (rewrite zlen_app; lia). exact (nonzero_at _ _ _ NY Gi). }
  destruct (Z.eq_dec e 0) as [E0|E0].
  - subst e. specialize (G (zlen x) ltac:(lia)). rewrite <- app_assoc, zget_app_r, Z.sub_diag in G by lia. cbn [app] in G. rewrite zget_cons_0 in G. apply (NZ (k + zlen x) 0) in G; [|lia]. congruence.
  - destruct T as [T|T]; [|contradiction]. specialize (G (zlen x + 1) ltac:(lia)). rewrite <- app_assoc, zget_app_r in G by lia. replace (zlen x + 1 - zlen x) with 1 in G by lia. unfold num2 at 1 in G. cbn [app] in G. change (zget [e; t / 256; t mod 256] 1) with (Some (t / 256)) in G.
    replace (t / 256) with 0 in G by lia. destruct (Z.eq_dec (k + (zlen x + 1)) (zlen l + zlen x)) as [D|D].
    + rewrite D in G. unfold s in G. rewrite app_assoc, <- (app_assoc (l ++ x)) in G. rewrite zget_app_r in G by (rewrite zlen_app; lia). rewrite zlen_app, Z.sub_diag in G. cbn [app] in G. rewrite zget_cons_0 in G. congruence.
    + apply (NZ (k + (zlen x + 1)) 0) in G; [congruence|lia].
Qed.

Lemma clean_len q : clean q -> 1 <= zlen q.
Proof. intros (x & e & -> & _). rewrite zlen_app. change (zlen [e]) with 1. pose proof (zlen_nonneg x). lia. Qed.
Lemma clean_bytes q : clean q -> bytes q.
Proof. intros (x & e & -> & _ & B & [-> | ->]); apply bytes_app; (split; [exact B|apply bytesb_spec; reflexivity]). Qed.

Lemma first_label_ok cq sq cz sz q z t : held cq sq (q ++ num2 t) -> held cz sz (z ++ num2 t) -> clean q -> clean z -> (hd 0 q < 64 \/ hd 0 q = 95) -> (t < 256 \/ last z 0 = 0) -> 0 <= t <= 65535 ->
  first_label sq sz = Ok (Some (if zlist_eqb q (label1 q ++ z) then 1 else 0)).
Proof.
  intros HQ HZ CQ CZ F T TT. pose proof (clean_len q CQ) as LQ. pose proof (clean_len z CZ) as LZ. pose proof (clean_bytes q CQ) as BQ.
  pose proof (hold_facts sq _ (proj1 HQ)) as [Wq S1 Lq Cq LMq SMq Bq SAq Uq Oq Gq _]. pose proof (hold_facts sz _ (proj1 HZ)) as [Wz Sz Lz Cz LMz SMz Bz SAz Uz Oz _ _].
  unfold first_label. destruct q as [|c q']; [change (zlen (@nil Z)) with 0 in LQ; lia|]. cbn [hd] in F. assert (byte c) as BC by (apply Forall_cons_iff in BQ; tauto). unfold byte in BC.
  rewrite (rd_of_zget _ _ c). 2: { rewrite Gq by (rewrite zlen_app, num2_len; lia). reflexivity. }
  cbn [bind]. replace (negb (c =? 95) && (64 <=? c)) with false by lia. cbv zeta. unfold label1. set (ll := if c =? 95 then 1 else c + 1). assert (1 <= ll <= 64) as LL by (unfold ll; destruct (Z.eqb_spec c 95); lia). clearbody ll. set (q := c :: q') in *. clearbody q.
  rewrite <- Lq, <- Lz, !zlen_app, !num2_len. destruct (Z.eqb_spec (zlen z + 2) (zlen q + 2 - ll)) as [E|E]; cbn [negb].
  2: { replace (zlist_eqb q (zslice q 0 ll ++ z)) with false; [reflexivity|]. symmetry. apply zlist_eqb_neq. intros X. apply (f_equal zlen) in X. rewrite zlen_app in X. destruct (Z_le_dec ll (zlen q)) as [G|G]; [rewrite zlen_zslice in X by lia; lia|].
       pose proof (zlen_nonneg (zslice q 0 ll)). assert (zlen (zslice q 0 ll) = zlen q) by (replace (zslice q 0 ll) with q; [reflexivity|]; unfold zslice; rewrite Z2Nat.inj_0; cbn [skipn]; symmetry; apply firstn_all2; unfold zlen in G; lia). lia. }
  rewrite js_fgrep_ok by (assumption || lia). cbn [bind]. unfold s_fgrep. rewrite Uz, Uq, !s_len_value, !unit_value, !oct_value by assumption. rewrite S1, Sz, <- Lq, <- Lz, Oz, !zlen_app, !num2_len. cbn [andb Z.eqb Pos.eqb negb orb].
  replace ((0 <=? 0) && (0 <=? zlen q + 2)) with true by lia. cbn [negb]. replace (zlen q + 2 <? zlen z + 2) with false by lia. replace (zlen z + 2 =? 0) with false by lia. cbv iota.
  set (f := fun k => zlist_eqb (units (value_of sq) k (zlen z + 2)) (z ++ num2 t)).
  assert (forall k, f k = zlist_eqb (zslice (q ++ num2 t) k (zlen z + 2)) (z ++ num2 t)) as FE. { intros k. unfold f, units. rewrite oct_value, unit_value, S1, Oq, !Z.mul_1_r. reflexivity. }
  assert (q = zslice q 0 ll ++ zslice q ll (zlen z)) as SP. { rewrite <- (zslice_all q) at 1. replace (zlen q) with (ll + zlen z) by lia. rewrite (zslice_split q 0 ll (zlen z)) by lia. reflexivity. }
  assert (zslice (q ++ num2 t) ll (zlen z + 2) = zslice q ll (zlen z) ++ num2 t) as ST. { rewrite (zslice_split (q ++ num2 t) ll (zlen z) 2) by (rewrite ?zlen_app, ?num2_len; lia). rewrite zslice_app_l by lia. f_equal. replace (ll + zlen z) with (zlen q) by lia. rewrite zslice_app_r by (rewrite ?num2_len; lia). rewrite Z.sub_diag. reflexivity. }
  do 2 f_equal. destruct (zlist_eqb q (zslice q 0 ll ++ z)) eqn:Q.
  - apply zlist_eqb_spec in Q. assert (zslice q ll (zlen z) = z) as EZ. { rewrite Q in SP at 1. apply app_inv_head in SP. symmetry. exact SP. }
    rewrite (first_from_is f ll); [rewrite Z.eqb_refl; reflexivity|lia|lia| |].
    + rewrite FE, ST, EZ. apply zlist_eqb_refl.
    + intros i Hi. rewrite FE. rewrite Q. apply no_earlier; [rewrite <- Q; exact CQ|exact CZ|exact T|lia|]. rewrite zlen_zslice by lia. lia.
  - destruct (Z.eqb_spec (first_from (Z.to_nat (zlen q + 2 - (zlen z + 2) + 1 - 0)) 0 f) ll) as [X|X]; [|reflexivity]. exfalso. apply first_from_true in X; [|lia|lia]. rewrite FE, ST in X. apply zlist_eqb_spec, app_inv_tail in X. rewrite X in SP. apply zlist_eqb_neq in Q. contradiction.
Qed.
Lemma same_ok cq sq cz sz q z t : held cq sq (q ++ num2 t) -> held cz sz (z ++ num2 t) -> js_issame sz sq = Ok (if zlist_eqb q z then 1 else 0).
Proof.
  intros HQ HZ. pose proof (hold_facts sq _ (proj1 HQ)) as [Wq S1 Lq Cq LMq SMq Bq SAq Uq Oq Gq _]. pose proof (hold_facts sz _ (proj1 HZ)) as [Wz Sz Lz Cz LMz SMz Bz SAz Uz Oz _ _].
  rewrite same_kid by assumption. unfold kid_of. rewrite S1, Sz, Oq, Oz. unfold kid_eqb. cbn [fst snd Z.eqb Pos.eqb andb]. f_equal. destruct (zlist_eqb q z) eqn:E.
  - apply zlist_eqb_spec in E as ->. rewrite zlist_eqb_refl. reflexivity.
  - replace (zlist_eqb (z ++ num2 t) (q ++ num2 t)) with false; [reflexivity|]. symmetry. apply zlist_eqb_neq. intros X. apply app_inv_tail in X. subst z. apply zlist_eqb_neq in E. contradiction.
Qed.
