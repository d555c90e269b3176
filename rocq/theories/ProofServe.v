(** MaraDNS' functions on names in the zone data as functions on lists. *)
From Verif Require Import CBase Bits ModelDwStr SpecDwStr ProofDwStr SpecNames SpecMessage SpecAcl SpecDeadwoodMsg SpecQuery ModelJsStr SpecJsStr ProofJsStr ProofJsSearch
  ModelQueries SpecQueries ProofQueries ProofDwDnsStr ProofQuestion ProofHname ModelDecomp SpecDecomp ProofJsList ProofDecompList ModelMaraHash SpecMaraHash ProofMaraHash ModelServe.

(** A string changed in place, and cut. *)
Lemma held_new cap s q m n : held cap s q -> bytes m -> zlen m = zlen (j_mem s) -> 0 <= n <= cap -> held cap (set_count (set_mem s m) n) (zslice m 0 n).
Proof.
  intros (H & <-) B L N. pose proof (hold_facts s q H) as [W S1 _ _ M _ _ _ _ _ _ _]. pose proof (jw_small s W) as SM. split; [|reflexivity]. split; [|split].
  - constructor; cbn [set_count set_mem j_mem j_size j_count j_max j_enc]; try lia. exact B.
  - exact S1.
  - unfold octets_of. cbn [set_count set_mem j_mem j_size j_count]. rewrite S1, Z.mul_1_l. reflexivity.
Qed.
Lemma held_same cap s q m : held cap s q -> bytes m -> zlen m = zlen (j_mem s) -> held cap (set_mem s m) (zslice m 0 (zlen q)).
Proof.
  intros H B L. pose proof (proj1 H) as HH. pose proof (hold_facts s q HH) as [W S1 LQ C _ _ _ _ _ _ _ _]. destruct H as (_ & E). pose proof (held_new cap s q m (zlen q) (conj HH E) B L ltac:(lia)) as X. rewrite LQ in X at 1. exact X.
Qed.
Lemma held_mem cap s q : held cap s q -> exists r, j_mem s = q ++ r /\ zlen q + zlen r = cap + 3 /\ j_count s = zlen q /\ bytes q /\ bytes r /\ zlen q <= cap /\ j_size s = 1 /\ j_max s = cap /\ js_sane s = true /\ cap + 3 < 2147483648.
Proof.
  intros (H & <-). destruct (holding_mem s q H) as (C & r & E & L). pose proof (hold_facts s q H) as [W S1 LQ C2 LM SM B SA _ _ _ _]. pose proof (jw_bytes s W) as BM. rewrite E in BM. apply bytes_app in BM as (_ & BR).
  exists r. split; [exact E|]. split; [exact L|]. split; [exact C|]. split; [exact B|]. split; [exact BR|]. split; [lia|]. split; [exact S1|]. split; [reflexivity|]. split; [exact SA|lia].
Qed.
Lemma oct_held cap s q : held cap s q -> oct s = q.
Proof. intros H. destruct (held_mem cap s q H) as (r & E & L & C & _). unfold oct. rewrite E, C, zslice_app_l by (pose proof (zlen_nonneg q); pose proof (zlen_nonneg r); lia). apply zslice_all. Qed.

(** ** Moving octets to the left *)
Lemma shift_loop_ok n : forall i len mem, 0 <= i -> 0 < len -> i + len + Z.of_nat n <= zlen mem ->
  shift_loop n i len mem = Ok (splice mem i (zslice mem (i + len) (Z.of_nat n))).
Proof.
  induction n as [|n IH]; intros i len mem I L B; cbn [shift_loop].
  - rewrite zslice_nil, splice_nil. reflexivity.
  - destruct (zget_some mem (i + len) ltac:(lia)) as (x & E). rewrite (rd_of_zget _ _ _ E). cbn [bind]. rewrite wr_splice by lia. cbn [bind].
    assert (zlen (splice mem i [x]) = zlen mem) as LS by (apply zlen_splice; [lia|change (zlen [x]) with 1; lia]).
    rewrite IH by (rewrite ?LS; lia). f_equal. replace (i + 1) with (i + zlen [x]) at 1 by reflexivity.
    rewrite zslice_splice_disj by (change (zlen [x]) with 1; lia).
    replace (Z.of_nat (S n)) with (1 + Z.of_nat n) by lia. rewrite (zslice_split mem (i + len)) by lia. rewrite (zslice_one _ _ _ E).
    rewrite splice_splice; [|lia|change (zlen [x]) with 1; rewrite zlen_zslice by lia; lia]. cbn [app]. f_equal. f_equal. f_equal. lia.
Qed.
Lemma shifted q r i len n : 0 <= i -> 0 < len -> 0 <= n -> i + len + n <= zlen q -> zslice (splice (q ++ r) i (zslice (q ++ r) (i + len) n)) 0 (i + n) = zslice q 0 i ++ zslice q (i + len) n.
Proof.
  intros I L N B. pose proof (zlen_nonneg r). assert (zlen (zslice (q ++ r) (i + len) n) = n) as LZ by (apply zlen_zslice; rewrite ?zlen_app; lia).
  replace (i + n) with (i + zlen (zslice (q ++ r) (i + len) n)) by lia. rewrite zslice_splice_end by (rewrite ?zlen_app; lia). rewrite !zslice_app_l by lia. reflexivity.
Qed.
Lemma bytes_shift mem i len n : bytes mem -> bytes (splice mem i (zslice mem (i + len) n)).
Proof. intros B. apply bytes_splice; [exact B|apply bytes_zslice, B]. Qed.

(** ** Folding case *)
Definition l_fold (q : list Z) : list Z := map lower (zslice q 0 (zlen q - 2)) ++ zslice q (zlen q - 2) 2.
Lemma fold_loop_ok m : forall pre r ret, fold_loop (length m) (zlen pre) (pre ++ m ++ r) ret = Ok (if forallb (fun b => negb ((65 <=? b) && (b <=? 90))) m then ret else 1, pre ++ map lower m ++ r).
Proof.
  induction m as [|x m IH]; intros pre r ret; cbn [length fold_loop forallb map app]; [reflexivity|]. rewrite rd_here. cbn [bind]. unfold lower at 1. destruct ((65 <=? x) && (x <=? 90)) eqn:G; cbn [negb andb].
  - rewrite wr_here. cbn [bind]. specialize (IH (pre ++ [x + 32]) r 1). rewrite zlen_app, <- !app_assoc in IH. cbn [app] in IH. change (zlen [x + 32]) with 1 in IH. rewrite IH. f_equal. f_equal. destruct (forallb _ m); reflexivity.
  - specialize (IH (pre ++ [x]) r ret). rewrite zlen_app, <- !app_assoc in IH. cbn [app] in IH. change (zlen [x]) with 1 in IH. exact IH.
Qed.
Lemma zlen_map {A B} (f : A -> B) l : zlen (map f l) = zlen l. Proof. unfold zlen. rewrite map_length. reflexivity. Qed.
Lemma bytes_lower l : bytes l -> bytes (map lower l).
Proof. intros B. induction B as [|x l Hx B IH]; cbn [map]; constructor; [|exact IH]. unfold byte, lower in *. destruct ((65 <=? x) && (x <=? 90)) eqn:G; lia. Qed.
Lemma split2 q : 2 <= zlen q -> q = zslice q 0 (zlen q - 2) ++ zslice q (zlen q - 2) 2.
Proof. intros L. rewrite <- (zslice_all q) at 1. replace (zlen q) with ((zlen q - 2) + 2) at 1 by lia. rewrite zslice_split by lia. rewrite Z.add_0_l. reflexivity. Qed.
Lemma zlen_fold q : 2 <= zlen q -> zlen (l_fold q) = zlen q.
Proof. intros L. unfold l_fold. rewrite zlen_app, zlen_map, !zlen_zslice by lia. lia. Qed.
Lemma fold_case_held cap s q : held cap s q -> 2 <= zlen q < cap -> exists r s', fold_case s = Ok (r, s') /\ (r = 0 \/ r = 1) /\ held cap s' (l_fold q).
Proof.
  intros H L. destruct (held_mem cap s q H) as (r & E & LR & C & BQ & BR & CQ & S1 & M & SA & SM). unfold fold_case. rewrite C, M, S1, E. replace (cap <=? zlen q) with false by lia. change (negb (1 =? 1)) with false. cbv iota. replace (zlen q <? 2) with false by lia.
  pose proof (fold_loop_ok (zslice q 0 (zlen q - 2)) [] (zslice q (zlen q - 2) 2 ++ r) 0) as F. cbn [app] in F. rewrite app_assoc, <- split2 in F by lia.
  replace (length (zslice q 0 (zlen q - 2))) with (Z.to_nat (zlen q - 2)) in F by (assert (zlen (zslice q 0 (zlen q - 2)) = zlen q - 2) as X by (apply zlen_zslice; lia); unfold zlen in X at 1; lia).
  change (zlen (@nil Z)) with 0 in F. rewrite F. cbn [bind]. eexists _, _. split; [reflexivity|]. split; [destruct (forallb _ _); lia|]. rewrite app_assoc. fold (l_fold q).
  pose proof (held_same cap s q (l_fold q ++ r) H) as X. rewrite zslice_app_l in X by (rewrite ?zlen_fold; lia). rewrite <- (zlen_fold q) in X by lia. rewrite zslice_all in X. apply X.
  - apply bytes_app. split; [|exact BR]. unfold l_fold. apply bytes_app. split; [apply bytes_lower|]; apply bytes_zslice, BQ.
  - rewrite E, !zlen_app, zlen_fold by lia. reflexivity.
Qed.

(** ** Labels taken away *)
Definition at_ (q : list Z) (i : Z) : Z := match zget q i with Some b => b | None => 0 end.
Lemma rd_at_ q r i : 0 <= i < zlen q -> rd (q ++ r) i = Ok (at_ q i) /\ zget q i = Some (at_ q i).
Proof. intros I. destruct (zget_some q i I) as (b & E). unfold at_. rewrite E. split; [|reflexivity]. apply rd_of_zget. rewrite zget_app_l by lia. exact E. Qed.
Lemma at_byte q i : bytes q -> 0 <= i < zlen q -> 0 <= at_ q i < 256.
Proof. intros B I. destruct (rd_at_ q [] i I) as (_ & E). exact (zget_bytes _ _ _ B E). Qed.

Definition l_bobbit_star (q : list Z) : Z * list Z :=
  if negb (at_ q 0 =? 95) then (-1, q)
  else if (zlen q <? at_ q 1 + 2) || (63 <? at_ q 1) then (-1, q)
  else if at_ q 1 =? 0 then (0, q)
  else (1, 95 :: zslice q (at_ q 1 + 2) (zlen q - (at_ q 1 + 2))).
Lemma bobbit_starlabel_held cap s q : held cap s q -> 2 <= zlen q < cap -> exists s', bobbit_starlabel s = Ok (fst (l_bobbit_star q), s') /\ held cap s' (snd (l_bobbit_star q)).
Proof.
  intros H L. destruct (held_mem cap s q H) as (r & E & LR & C & BQ & BR & CQ & S1 & M & SA & SM). unfold bobbit_starlabel, l_bobbit_star. rewrite C, M, S1, E. change (negb (1 =? 1)) with false. cbv iota. replace (cap <=? zlen q) with false by lia. replace (zlen q <? 2) with false by lia.
  destruct (rd_at_ q r 0 ltac:(lia)) as (-> & E0). destruct (rd_at_ q r 1 ltac:(lia)) as (-> & E1). cbn [bind]. pose proof (at_byte q 1 BQ ltac:(lia)) as B1. set (len := at_ q 1) in *. clearbody len.
  destruct (Z.eqb_spec (at_ q 0) 95) as [A|A]; cbn [negb]; [|eexists; split; [reflexivity|exact H]].
  destruct ((zlen q <? len + 2) || (63 <? len)) eqn:G; [eexists; split; [reflexivity|exact H]|]. destruct (Z.eqb_spec len 0) as [->|N]; [eexists; split; [reflexivity|exact H]|]. cbv zeta. cbn [fst snd].
  rewrite shift_loop_ok by (rewrite ?zlen_app; lia). cbn [bind]. eexists. split; [reflexivity|]. rewrite Z2Nat.id by lia. rewrite <- E.
  pose proof (held_new cap s q (splice (j_mem s) 1 (zslice (j_mem s) (1 + (len + 1)) (zlen q - (len + 1)))) (zlen q - (len + 1)) H) as X.
  assert (zslice (splice (j_mem s) 1 (zslice (j_mem s) (1 + (len + 1)) (zlen q - (len + 1)))) 0 (zlen q - (len + 1)) = 95 :: zslice q (len + 2) (zlen q - (len + 2))) as Y.
  { assert (0 <= zlen q - (len + 1)) as N1 by lia. assert (zlen (zslice (j_mem s) (1 + (len + 1)) (zlen q - (len + 1))) = zlen q - (len + 1)) as L1 by (apply zlen_zslice; rewrite ?E, ?zlen_app; lia).
    apply zlist_ext.
    - rewrite zlen_cons, !zlen_zslice; rewrite ?zlen_splice; rewrite ?E, ?zlen_app; rewrite ?E in L1; lia.
    - intros j Hj. rewrite zlen_zslice in Hj; [|lia|lia|rewrite zlen_splice; rewrite ?L1, ?E, ?zlen_app; lia]. rewrite zget_zslice by lia. replace (j <? zlen q - (len + 1)) with true by lia. rewrite Z.add_0_l. rewrite zget_splice by (rewrite ?L1, ?E, ?zlen_app; lia). rewrite L1.
      destruct (Z.eq_dec j 0) as [->|NJ].
      + change (1 <=? 0) with false. cbn [andb]. rewrite E, zget_app_l by lia. rewrite E0, A. reflexivity.
      + replace ((1 <=? j) && (j <? 1 + (zlen q - (len + 1)))) with true by lia. rewrite zget_zslice by lia. replace (j - 1 <? zlen q - (len + 1)) with true by lia. rewrite zget_cons_S by lia. rewrite zget_zslice by lia. replace (j - 1 <? zlen q - (len + 2)) with true by lia.
        rewrite E, zget_app_l by lia. f_equal. lia. }
  rewrite Y in X. apply X; [apply bytes_shift; rewrite E; apply bytes_app; tauto|apply zlen_splice; rewrite ?zlen_zslice; rewrite ?E, ?zlen_app; lia|lia].
Qed.

Definition l_make_star (q : list Z) : Z * list Z :=
  let len := at_ q 0 in
  if len =? 95 then (0, q)
  else if (zlen q <? len) || (63 <? len) then (-1, 95 :: tl q)
  else if len =? 0 then (0, 95 :: tl q)
  else (1, if len =? zlen q then [] else 95 :: zslice q (len + 1) (zlen q - (len + 1))).
Lemma hd_tl q : 1 <= zlen q -> q = at_ q 0 :: tl q.
Proof. destruct q as [|x q]; [change (zlen (@nil Z)) with 0; lia|reflexivity]. Qed.
Lemma make_starlabel_held cap s q : held cap s q -> 2 <= zlen q < cap -> exists s', make_starlabel s = Ok (fst (l_make_star q), s') /\ held cap s' (snd (l_make_star q)).
Proof.
  intros H L. destruct (held_mem cap s q H) as (r & E & LR & C & BQ & BR & CQ & S1 & M & SA & SM). unfold make_starlabel, l_make_star. cbv zeta. rewrite C, M, S1, E. change (negb (1 =? 1)) with false. cbv iota. replace (cap <=? zlen q) with false by lia. replace (zlen q <? 2) with false by lia.
  destruct (rd_at_ q r 0 ltac:(lia)) as (-> & E0). cbn [bind]. pose proof (at_byte q 0 BQ ltac:(lia)) as B1. pose proof (hd_tl q ltac:(lia)) as HT. set (len := at_ q 0) in *. clearbody len.
  destruct (Z.eqb_spec len 95) as [A|A]; [eexists; split; [reflexivity|exact H]|].
  assert (wr (q ++ r) 0 95 = Ok ((95 :: tl q) ++ r)) as ->. { rewrite HT at 1. exact (wr_here [] len (tl q ++ r) 95). } cbn [bind]. rewrite HT in BQ. apply Forall_cons_iff in BQ as (_ & BT).
  assert (zlen (95 :: tl q) = zlen q) as LT by (rewrite HT at 2; rewrite !zlen_cons; reflexivity).
  assert (bytes ((95 :: tl q) ++ r)) as BM by (apply bytes_app; split; [constructor; [unfold byte; lia|exact BT]|exact BR]).
  assert (held cap (set_mem s ((95 :: tl q) ++ r)) (95 :: tl q)) as H2.
  { pose proof (held_same cap s q ((95 :: tl q) ++ r) H BM ltac:(rewrite E, !zlen_app; lia)) as X. rewrite <- LT in X. rewrite zslice_app_l, zslice_all in X by lia. exact X. }
  cbn [set_mem j_count j_mem]. rewrite C.
  destruct ((zlen q <? len) || (63 <? len)) eqn:G; [eexists; split; [reflexivity|exact H2]|]. destruct (Z.eqb_spec len 0) as [->|N]; [eexists; split; [reflexivity|exact H2]|]. cbn [fst snd].
  set (q2 := 95 :: tl q) in *. assert (zlen (q2 ++ r) = cap + 3) as LM by (rewrite zlen_app; lia).
  destruct (Z.eqb_spec len (zlen q)) as [EQ|NE].
  - replace (Z.to_nat (zlen q - len - 1)) with O by lia. cbn [shift_loop bind]. eexists. split; [reflexivity|]. pose proof (held_new cap s q (q2 ++ r) (zlen q - len) H BM ltac:(rewrite E, !zlen_app; lia) ltac:(lia)) as X. rewrite (zslice_neg (q2 ++ r) 0 (zlen q - len)) in X by lia. exact X.
  - rewrite shift_loop_ok by (rewrite ?LM; lia). cbn [bind]. eexists. split; [reflexivity|]. rewrite Z2Nat.id by lia.
    pose proof (held_new cap s q (splice (q2 ++ r) 1 (zslice (q2 ++ r) (1 + len) (zlen q - len - 1))) (zlen q - len) H) as X.
    pose proof (shifted q2 r 1 len (zlen q - len - 1) ltac:(lia) ltac:(lia) ltac:(lia) ltac:(lia)) as SH. replace (1 + (zlen q - len - 1)) with (zlen q - len) in SH by lia. rewrite SH in X.
    assert (zslice q2 0 1 ++ zslice q2 (1 + len) (zlen q - len - 1) = 95 :: zslice q (len + 1) (zlen q - (len + 1))) as Y.
    { unfold q2. rewrite (zslice_one _ 0 95) by reflexivity. cbn [app]. f_equal. rewrite HT at 3. change (95 :: tl q) with ([95] ++ tl q). change (len :: tl q) with ([len] ++ tl q).
      assert (zlen (tl q) = zlen q - 1) as LTL by (rewrite HT at 2; rewrite zlen_cons; lia).
      rewrite !zslice_app_r by (change (zlen [95]) with 1; change (zlen [len]) with 1; lia). f_equal; [change (zlen [95]) with 1; change (zlen [len]) with 1|]; lia. }
    rewrite Y in X. apply X; [apply bytes_shift; exact BM|rewrite zlen_splice; rewrite ?zlen_zslice; rewrite ?E, ?LM, ?zlen_app; lia|lia].
Qed.

Definition l_bobbit (q : list Z) : Z * list Z :=
  let b := at_ q 0 in
  if negb (b =? 95) && ((zlen q <? b + 1) || (63 <? b)) then (-1, q)
  else if b =? 0 then (0, q)
  else let len := (if b =? 95 then 0 else b) + 1 in (1, zslice q len (zlen q - len)).
Lemma bobbit_label_held cap s q : held cap s q -> 1 <= zlen q < cap -> exists s', bobbit_label s = Ok (fst (l_bobbit q), s') /\ held cap s' (snd (l_bobbit q)).
Proof.
  intros H L. destruct (held_mem cap s q H) as (r & E & LR & C & BQ & BR & CQ & S1 & M & SA & SM). unfold bobbit_label, l_bobbit. cbv zeta. rewrite C, M, S1, E. change (negb (1 =? 1)) with false. cbv iota. replace (cap <=? zlen q) with false by lia. replace (zlen q <? 1) with false by lia.
  destruct (rd_at_ q r 0 ltac:(lia)) as (-> & E0). cbn [bind]. pose proof (at_byte q 0 BQ ltac:(lia)) as B1. set (b := at_ q 0) in *. clearbody b.
  destruct (negb (b =? 95) && ((zlen q <? b + 1) || (63 <? b))) eqn:G; [eexists; split; [reflexivity|exact H]|]. destruct (Z.eqb_spec b 0) as [->|N]; [eexists; split; [reflexivity|exact H]|]. cbn [fst snd].
  assert (1 <= (if b =? 95 then 0 else b) + 1 <= zlen q) as LB by (destruct (Z.eqb_spec b 95); lia). set (len := (if b =? 95 then 0 else b) + 1) in *. clearbody len.
  rewrite shift_loop_ok by (rewrite ?zlen_app; lia). cbn [bind]. eexists. split; [reflexivity|]. rewrite Z2Nat.id by lia.
  pose proof (held_new cap s q (splice (q ++ r) 0 (zslice (q ++ r) (0 + len) (zlen q - len))) (zlen q - len) H) as X.
  pose proof (shifted q r 0 len (zlen q - len) ltac:(lia) ltac:(lia) ltac:(lia) ltac:(lia)) as SH. rewrite zslice_nil in SH. cbn [app] in SH. rewrite !Z.add_0_l in SH. rewrite Z.add_0_l in X. rewrite SH in X. rewrite Z.add_0_l. apply X.
  - apply bytes_splice; [|apply bytes_zslice]; apply bytes_app; tauto.
  - rewrite zlen_splice; rewrite ?zlen_zslice; rewrite ?E, ?zlen_app; lia.
  - lia.
Qed.

(** ** The type *)
Definition l_type (q : list Z) : Z := if zlen q <? 3 then -1 else at_ q (zlen q - 1) + at_ q (zlen q - 2) * 256.
Definition l_retype (q : list Z) (t : Z) : list Z := zslice q 0 (zlen q - 2) ++ [t / 256; t mod 256].
Lemma get_rtype_held cap s q : held cap s q -> get_rtype s = Ok (l_type q).
Proof.
  intros H. destruct (held_mem cap s q H) as (r & E & LR & C & BQ & BR & CQ & S1 & M & SA & SM). unfold get_rtype, l_type. rewrite SA, C, E. cbn [negb]. destruct (zlen q <? 3) eqn:G; [reflexivity|].
  destruct (rd_at_ q r (zlen q - 1) ltac:(lia)) as (-> & _). destruct (rd_at_ q r (zlen q - 2) ltac:(lia)) as (-> & _). reflexivity.
Qed.
Lemma hi_div t : 0 <= t <= 65535 -> hi t = t / 256 /\ lo t = t mod 256.
Proof.
  intros T. unfold hi, lo, u8. rewrite land_255. split; [|lia]. change 65280 with (Z.shiftl 255 8). rewrite Z.shiftr_land. change (Z.shiftr (Z.shiftl 255 8) 8) with 255. rewrite Z.shiftr_div_pow2 by lia. change (2 ^ 8) with 256. rewrite land_255. lia.
Qed.
Lemma retype_held cap s q t : held cap s q -> 3 <= zlen q -> 0 <= t <= 65535 -> exists s', change_rtype s t = Ok (1, s') /\ held cap s' (l_retype q t).
Proof.
  intros H L T. destruct (held_mem cap s q H) as (r & E & LR & C & BQ & BR & CQ & S1 & M & SA & SM). unfold change_rtype. rewrite SA, C, E. cbn [negb]. replace (zlen q <? 3) with false by lia. replace ((t <? 0) || (65535 <? t)) with false by lia.
  destruct (hi_div t T) as (-> & ->). pose proof (split2 q ltac:(lia)) as SP. assert (zlen (zslice q 0 (zlen q - 2)) = zlen q - 2) as LA by (apply zlen_zslice; lia). assert (zlen (zslice q (zlen q - 2) 2) = 2) as LB by (apply zlen_zslice; lia).
  unfold l_retype. set (a := zslice q 0 (zlen q - 2)) in *. set (b := zslice q (zlen q - 2) 2) in *.
  assert (exists x y, b = [x; y]) as (x & y & EB). { clearbody b. clear - LB. unfold zlen in LB. destruct b as [|x [|y [|z b]]]; cbn [length] in LB; try lia. exists x, y. reflexivity. }
  clearbody a b. subst b q.
  assert (zlen (a ++ [x; y]) = zlen a + 2) as L2 by (rewrite zlen_app; reflexivity). rewrite L2 in *. replace (zlen a + 2 - 1) with (zlen (a ++ [x])) by (rewrite zlen_app; change (zlen [x]) with 1; lia). replace (zlen a + 2 - 2) with (zlen a) by lia.
  replace ((a ++ [x; y]) ++ r) with ((a ++ [x]) ++ y :: r) by (rewrite <- !app_assoc; reflexivity). rewrite wr_here. cbn [bind]. rewrite <- app_assoc. cbn [app]. rewrite wr_here. cbn [bind]. eexists. split; [reflexivity|].
  pose proof (held_same cap s (a ++ [x; y]) (a ++ (t / 256) :: (t mod 256) :: r) H) as X. replace (a ++ (t / 256) :: (t mod 256) :: r) with ((a ++ [t / 256; t mod 256]) ++ r) in * by (rewrite <- app_assoc; reflexivity).
  replace (zlen (a ++ [x; y])) with (zlen (a ++ [t / 256; t mod 256])) in X by (rewrite !zlen_app; reflexivity). rewrite zslice_app_l, zslice_all in X by (pose proof (zlen_nonneg (a ++ [t / 256; t mod 256])); lia). apply X.
  - apply bytes_app in BQ as (BA & _). apply bytes_app. split; [apply bytes_app; split; [exact BA|]|exact BR]. repeat constructor; unfold byte; lia.
  - rewrite E, !zlen_app. reflexivity.
Qed.
Lemma zlen_retype q t : 2 <= zlen q -> zlen (l_retype q t) = zlen q.
Proof. intros L. unfold l_retype. rewrite zlen_app, zlen_zslice by lia. change (zlen [t / 256; t mod 256]) with 2. lia. Qed.
