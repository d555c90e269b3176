(** Questions, record headers and the length of names (dns/Queries.c). *)
From Verif Require Import CBase Bits ModelDwStr SpecDwStr ProofDwStr SpecNames SpecMessage SpecAcl SpecQuery ModelJsStr SpecJsStr ProofJsStr ProofJsSearch
  ModelQueries SpecQueries ProofQueries ProofHname.

(** ** Copying names *)
Lemma copy_label_gen n : forall src so slim dst d dlim counter, bytes src -> bytes dst -> slim <= zlen src -> dlim <= zlen dst -> 0 <= so + counter -> 0 <= d + counter ->
  so + counter <= slim -> d + counter <= dlim ->
  exists ok c dst', copy_label n src so slim dst d dlim counter = Ok (ok, c, dst') /\ bytes dst' /\ zlen dst' = zlen dst /\ counter <= c /\ so + c <= slim /\ d + c <= dlim /\
    ok = (so + counter + Z.of_nat n <=? slim) && (d + counter + Z.of_nat n <=? dlim) /\
    (ok = true -> c = counter + Z.of_nat n /\ dst' = splice dst (d + counter) (zslice src (so + counter) (Z.of_nat n))).
Proof.
  induction n as [|n IH]; intros src so slim dst d dlim counter B1 B2 L1 L2 P1 P2 P3 P4; cbn [copy_label].
  - do 3 eexists. split; [reflexivity|]. split; [exact B2|]. split; [reflexivity|]. split; [lia|]. split; [lia|]. split; [lia|]. split; [lia|].
    intros _. split; [lia|]. change (Z.of_nat 0) with 0. rewrite zslice_nil. symmetry. apply splice_nil.
  - destruct ((so + counter <? slim) && (d + counter <? dlim)) eqn:G.
    + destruct (zget_some src (so + counter) ltac:(lia)) as (b & E). rewrite (rd_of_zget _ _ _ E). cbn [bind]. rewrite wr_ok by lia. cbn [bind].
      assert (bytes (zupd dst (d + counter) b)) as B3 by (apply bytes_zupd; [exact B2|exact (zget_bytes _ _ _ B1 E)]).
      destruct (IH src so slim (zupd dst (d + counter) b) d dlim (counter + 1)) as (ok & c & dst' & -> & R1 & R2 & R3 & R4 & R5 & R6 & R7); try assumption; try lia.
      { rewrite zlen_zupd. exact L2. }
      rewrite zlen_zupd in R2. do 3 eexists. split; [reflexivity|]. split; [exact R1|]. split; [exact R2|]. split; [lia|]. split; [lia|]. split; [lia|]. split; [rewrite R6; lia|].
      intros OK. rewrite OK in R6. destruct (R7 OK) as (-> & ->). split; [lia|]. rewrite zupd_splice by lia.
      assert (zslice src (so + counter) (Z.of_nat (S n)) = [b] ++ zslice src (so + (counter + 1)) (Z.of_nat n)) as ES.
      { replace (Z.of_nat (S n)) with (1 + Z.of_nat n) by lia. rewrite zslice_split by lia. f_equal; [apply zslice_one; exact E|f_equal; lia]. }
      rewrite ES. rewrite <- splice_splice.
      * change (zlen [b]) with 1. f_equal. lia.
      * lia.
      * change (zlen [b]) with 1. rewrite zlen_zslice by lia. lia.
    + do 3 eexists. split; [reflexivity|]. split; [exact B2|]. split; [reflexivity|]. split; [lia|]. split; [lia|]. split; [lia|]. split; [lia|]. discriminate.
Qed.
Lemma zslice_at l (i : Z) b : zget l i = Some b -> zslice l i 1 = [b]. Proof. apply zslice_one. Qed.

Lemma copy_name_safe F : forall src so slim dst d dlim counter, bytes src -> bytes dst -> slim < zlen src -> dlim < zlen dst -> 0 <= so -> 0 <= d -> 0 <= counter ->
  so + counter <= slim -> d + counter <= dlim -> 257 - counter < 2 * Z.of_nat F -> (0 < F)%nat ->
  exists ok c dst', copy_name F src so slim dst d dlim counter = Ok (ok, c, dst') /\ bytes dst' /\ zlen dst' = zlen dst /\ counter <= c /\ so + c <= slim /\ d + c <= dlim /\
    (ok = true -> c < 256 -> exists n, good_name n /\ zslice src (so + counter) (c - counter + 1) = wire n /\ dst' = splice dst (d + counter) (labels n)).
Proof.
  induction F as [|F IH]; intros src so slim dst d dlim counter B1 B2 L1 L2 P1 P2 P3 P4 P5 FF F0; [lia|]. cbn [copy_name].
  destruct (counter <? 256) eqn:G.
  2:{ do 3 eexists. split; [reflexivity|]. split; [exact B2|]. split; [reflexivity|]. split; [lia|]. split; [lia|]. split; [lia|]. lia. }
  destruct (zget_some src (so + counter) ltac:(lia)) as (b & E). rewrite (rd_of_zget _ _ _ E). cbn [bind]. pose proof (zget_bytes _ _ _ B1 E) as BB. unfold byte in BB.
  destruct (63 <? b) eqn:G2.
  { do 3 eexists. split; [reflexivity|]. split; [exact B2|]. split; [reflexivity|]. split; [lia|]. split; [lia|]. split; [lia|]. discriminate. }
  destruct (b =? 0) eqn:G3.
  { do 3 eexists. split; [reflexivity|]. split; [exact B2|]. split; [reflexivity|]. split; [lia|]. split; [lia|]. split; [lia|]. intros _ _. exists []. split; [constructor|].
    split; [|symmetry; apply splice_nil]. replace (counter - counter + 1) with 1 by lia. rewrite (zslice_one _ _ _ E). cbn [wire]. f_equal. lia. }
  destruct (copy_label_gen (Z.to_nat (b + 1)) src so slim dst d dlim counter) as (ok & c & dst' & -> & R1 & R2 & R3 & R4 & R5 & R6 & R7); try assumption; try lia.
  cbn [bind]. destruct ok.
  2:{ do 3 eexists. split; [reflexivity|]. split; [exact R1|]. split; [exact R2|]. split; [exact R3|]. split; [exact R4|]. split; [exact R5|]. discriminate. }
  destruct (R7 eq_refl) as (EC & ED). replace (Z.of_nat (Z.to_nat (b + 1))) with (b + 1) in * by lia.
  destruct (IH src so slim dst' d dlim c) as (ok2 & c2 & dst2 & -> & Q1 & Q2 & Q3 & Q4 & Q5 & Q6); try assumption; try lia.
  do 3 eexists. split; [reflexivity|]. split; [exact Q1|]. split; [lia|]. split; [lia|]. split; [lia|]. split; [lia|].
  intros OK C2. destruct (Q6 OK C2) as (n & GN & W & D). exists (zslice src (so + counter + 1) b :: n).
  assert (zlen (zslice src (so + counter + 1) b) = b) as LL by (apply zlen_zslice; lia).
  split.
  { constructor; [|exact GN]. split; [lia|apply bytes_zslice, B1]. }
  assert (zslice src (so + counter) (b + 1) = b :: zslice src (so + counter + 1) b) as EL.
  { replace (b + 1) with (1 + b) by lia. rewrite zslice_split by lia. rewrite (zslice_one _ _ _ E). reflexivity. }
  split.
  - cbn [wire]. rewrite LL. change (b :: zslice src (so + counter + 1) b ++ wire n) with ((b :: zslice src (so + counter + 1) b) ++ wire n). rewrite <- EL, <- W.
    replace (c2 - counter + 1) with ((b + 1) + (c2 - c + 1)) by lia. rewrite zslice_split by lia. do 2 f_equal. lia.
  - rewrite labels_cons, LL. rewrite D, ED, EL.
    change (b :: zslice src (so + counter + 1) b ++ labels n) with ((b :: zslice src (so + counter + 1) b) ++ labels n).
    assert (zlen (b :: zslice src (so + counter + 1) b) = b + 1) as L3 by (rewrite zlen_cons, LL; lia).
    rewrite <- splice_splice; rewrite ?L3.
    + f_equal. lia.
    + lia.
    + assert (zlen (labels n) = c2 - c) by (assert (zlen (wire n) = c2 - c + 1) as LW by (rewrite <- W; apply zlen_zslice; lia); rewrite wire_labels, zlen_app in LW; change (zlen [0]) with 1 in LW; lia).
      lia.
Qed.
Lemma copy_name_ok n : forall F src so slim dst d dlim counter, bytes src -> bytes dst -> slim < zlen src -> dlim < zlen dst -> 0 <= so -> 0 <= d -> 0 <= counter ->
  good_name n -> zslice src (so + counter) (zlen (wire n)) = wire n -> so + counter + zlen (wire n) <= slim + 1 -> d + counter + zlen (wire n) <= dlim + 1 ->
  counter + zlen (wire n) <= 257 -> (length n < F)%nat ->
  copy_name F src so slim dst d dlim counter = Ok (true, counter + zlen (labels n), splice dst (d + counter) (labels n)).
Proof.
  induction n as [|l n IH]; intros F src so slim dst d dlim counter B1 B2 L1 L2 P1 P2 P3 GN W P4 P5 P6 FF; (destruct F as [|F]; [cbn in FF; lia|]); cbn [copy_name].
  - change (labels []) with (@nil Z). change (zlen (@nil Z)) with 0. rewrite splice_nil, Z.add_0_r. cbn [wire] in *. change (zlen [0]) with 1 in *.
    destruct (counter <? 256); [|reflexivity].
    assert (zget src (so + counter) = Some 0) as E.
    { assert (zget (zslice src (so + counter) 1) 0 = Some 0) as X by (rewrite W; reflexivity). rewrite zget_zslice in X by lia. rewrite Z.add_0_r in X. exact X. }
    rewrite (rd_of_zget _ _ _ E). cbn [bind]. reflexivity.
  - apply Forall_cons_iff in GN as ((G1 & G2) & GN). cbn [wire] in W, P4, P5, P6. rewrite zlen_cons, zlen_app in *. pose proof (wire_pos n).
    replace (counter <? 256) with true by lia.
    replace (zlen l + zlen (wire n) + 1) with (1 + (zlen l + zlen (wire n))) in W by lia. rewrite zslice_split in W by lia.
    assert (zslice src (so + counter) 1 = [zlen l] /\ zslice src (so + counter + 1) (zlen l + zlen (wire n)) = l ++ wire n) as (W1 & W2).
    { assert (zlen (zslice src (so + counter) 1) = 1) as X by (apply zlen_zslice; lia). destruct (zslice src (so + counter) 1) as [|x [|y q]]; [discriminate| |rewrite !zlen_cons in X; pose proof (zlen_nonneg q); lia].
      cbn [app] in W. injection W as -> W. split; [reflexivity|exact W]. }
    assert (zget src (so + counter) = Some (zlen l)) as E.
    { assert (zget (zslice src (so + counter) 1) 0 = Some (zlen l)) as X by (rewrite W1; reflexivity). rewrite zget_zslice in X by lia. rewrite Z.add_0_r in X. exact X. }
    rewrite (rd_of_zget _ _ _ E). cbn [bind]. replace (63 <? zlen l) with false by lia. replace (zlen l =? 0) with false by lia.
    destruct (copy_label_gen (Z.to_nat (zlen l + 1)) src so slim dst d dlim counter) as (ok & c & dst' & -> & R1 & R2 & R3 & R4 & R5 & R6 & R7); try assumption; try lia.
    cbn [bind]. replace (Z.of_nat (Z.to_nat (zlen l + 1))) with (zlen l + 1) in * by lia.
    replace ((so + counter + (zlen l + 1) <=? slim) && (d + counter + (zlen l + 1) <=? dlim)) with true in R6 by lia. subst ok. destruct (R7 eq_refl) as (-> & ->).
    rewrite zslice_split in W2 by lia. apply app_split in W2 as (W3 & W4).
    2:{ apply Nat2Z.inj. apply (zlen_zslice src (so + counter + 1) (zlen l)); lia. }
    rewrite IH; try assumption; try lia.
    + rewrite labels_cons, zlen_cons, zlen_app. f_equal. f_equal; [f_equal; lia|].
      replace (zlen l + 1) with (1 + zlen l) by lia. rewrite zslice_split by lia. rewrite W1, W3. cbn [app].
      change (zlen l :: l ++ labels n) with ((zlen l :: l) ++ labels n). rewrite <- splice_splice.
      * rewrite zlen_cons. f_equal. lia.
      * lia.
      * rewrite zlen_cons. rewrite wire_labels, zlen_app in *. change (zlen [0]) with 1 in *. lia.
    + replace (so + (counter + (zlen l + 1))) with (so + counter + 1 + zlen l) by lia. exact W4.
    + cbn in FF. lia.
Qed.

(** ** Questions *)
Lemma hi_lo v : [hi v; lo v] = be 2 v.
Proof.
  rewrite be_2. unfold hi, lo, u8. rewrite Z.shiftr_land. change (Z.shiftr 65280 8) with 255. rewrite !land_255, Z.shiftr_div_pow2 by lia. change (2 ^ 8) with 256.
  rewrite !Z.mod_mod by lia. reflexivity.
Qed.
Lemma pair_be v a b : word v -> be 2 v = [a; b] -> pair16 a b = v.
Proof.
  intros W E. rewrite be_2 in E. injection E as <- <-. unfold word in W. rewrite pair16_val by (unfold byte; lia). lia.
Qed.
Lemma zlen_question q : zlen (question_bytes q) = zlen (wire (qu_name q)) + 4.
Proof. unfold question_bytes. rewrite !zlen_app, !zlen_be. lia. Qed.

Lemma holding_set s m l n : j_wf s -> j_size s = 1 -> bytes m -> zlen m = zlen (j_mem s) -> 0 <= n <= j_max s -> zslice m 0 n = l ->
  holding (set_count (set_mem s m) n) l.
Proof.
  intros W S1 B L N E. split; [|split].
  - apply wf_set_count; [apply wf_set_mem; assumption|exact N].
  - exact S1.
  - unfold octets_of, set_count, set_mem. cbn [j_mem j_size j_count]. rewrite S1, Z.mul_1_l. exact E.
Qed.
Lemma zslice_splice_end m a b : 0 <= a -> a + zlen b <= zlen m -> zslice (splice m a b) 0 (a + zlen b) = zslice m 0 a ++ b.
Proof.
  intros A B. pose proof (zlen_nonneg b). rewrite zslice_split by (rewrite ?zlen_splice; lia). rewrite Z.add_0_l. f_equal.
  - apply zslice_splice_disj; lia.
  - apply zslice_splice_same; lia.
Qed.
Lemma holding_slice s l : holding s l -> zslice (j_mem s) 0 (zlen l) = l /\ j_count s = zlen l /\ zlen (j_mem s) = j_max s + 3 /\ 0 <= j_count s <= j_max s /\ bytes (j_mem s) /\ j_max s + 3 < 2147483648.
Proof.
  intros H. destruct (holding_mem s l H) as (C & r & E & L). destruct H as (W & S1 & _). pose proof (jw_mem s W) as LM. pose proof (jw_small s W) as SM. rewrite S1 in *.
  split; [rewrite E; rewrite zslice_app_l by (pose proof (zlen_nonneg l); lia); apply zslice_all|]. split; [exact C|]. split; [lia|]. split; [apply (jw_count s W)|]. split; [apply (jw_bytes s W)|lia].
Qed.

Lemma make_question_ok s qn l q : holding s l -> holding qn (wire (qu_name q)) -> question_ok q -> zlen l + zlen (question_bytes q) < j_max s ->
  exists s', make_question qn (qu_type q) (qu_class q) s = Ok (1, s') /\ holding s' (l ++ question_bytes q) /\ j_max s' = j_max s.
Proof.
  intros H HQ ((GN & SN) & WT & WC) R. rewrite zlen_question in R. pose proof (wire_pos (qu_name q)).
  destruct (holding_slice s l H) as (E1 & C1 & M1 & N1 & B1 & Z1). destruct (holding_slice qn _ HQ) as (E2 & C2 & M2 & N2 & B2 & Z2).
  destruct H as (W & S1 & _), HQ as (WQ & SQ & _). unfold make_question. rewrite !octet_ok by assumption. cbn [negb].
  replace (j_max s <=? j_count s) with false by lia.
  assert (zlen (labels (qu_name q)) + 1 = zlen (wire (qu_name q))) as LW by (rewrite wire_labels, zlen_app; reflexivity).
  rewrite (copy_name_ok (qu_name q)); try assumption; try lia.
  2:{ apply few_labels; [exact GN|lia]. }
  cbn [bind negb]. rewrite Z.add_0_r, Z.add_0_l.
  assert (zlen (splice (j_mem s) (j_count s) (labels (qu_name q))) = zlen (j_mem s)) as L2 by (apply zlen_splice; lia).
  rewrite wr_ok by lia. cbn [bind]. rewrite zupd_splice by lia. rewrite splice_splice by (change (zlen [0]) with 1; lia). rewrite <- wire_labels.
  replace (zlen (labels (qu_name q)) + 1 + j_count s + 4 <? j_max s) with true by lia.
  rewrite put_ok.
  2:{ lia. } 2:{ rewrite zlen_splice by lia. change (zlen [hi (qu_type q); lo (qu_type q); hi (qu_class q); lo (qu_class q)]) with 4. lia. }
  cbn [bind]. change [hi (qu_type q); lo (qu_type q); hi (qu_class q); lo (qu_class q)] with ([hi (qu_type q); lo (qu_type q)] ++ [hi (qu_class q); lo (qu_class q)]). rewrite !hi_lo.
  replace (zlen (labels (qu_name q)) + 1 + j_count s) with (j_count s + zlen (wire (qu_name q))) by lia.
  rewrite splice_splice by (rewrite ?zlen_app, ?zlen_be; lia). change (wire (qu_name q) ++ be 2 (qu_type q) ++ be 2 (qu_class q)) with (question_bytes q).
  pose proof (zlen_question q) as LQ. eexists. split; [reflexivity|]. split; [|reflexivity]. apply holding_set; try assumption.
  - apply bytes_splice; [exact B1|]. unfold question_bytes. apply bytes_app. split; [|apply bytes_app; split; apply be_bytes]. rewrite wire_labels. apply bytes_app. split; [apply bytes_labels, GN|].
    constructor; [unfold byte; lia|constructor].
  - apply zlen_splice; lia.
  - lia.
  - replace (j_count s + zlen (wire (qu_name q)) + 4) with (j_count s + zlen (question_bytes q)) by lia. rewrite zslice_splice_end by lia. rewrite C1, E1. reflexivity.
Qed.
Lemma make_question_safe s qn ty cl : j_wf s -> j_wf qn -> exists r s', make_question qn ty cl s = Ok (r, s') /\ j_wf s' /\ j_max s' = j_max s /\ (r = 1 \/ r = -1).
Proof.
  intros W WQ. unfold make_question. destruct (octet_string s) eqn:O; cbn [negb]; [|do 2 eexists; split; [reflexivity|]; unfold JS_ERROR; tauto].
  destruct (octet_string qn) eqn:OQ; cbn [negb]; [|do 2 eexists; split; [reflexivity|]; unfold JS_ERROR; tauto].
  assert (j_size s = 1) as S1 by (unfold octet_string in O; lia). assert (j_size qn = 1) as SQ by (unfold octet_string in OQ; lia).
  pose proof (jw_mem s W) as LM. rewrite S1 in LM. pose proof (jw_count s W). pose proof (jw_bytes s W) as BM.
  pose proof (jw_mem qn WQ) as LQ. rewrite SQ in LQ. pose proof (jw_count qn WQ). pose proof (jw_bytes qn WQ) as BQ.
  destruct (j_max s <=? j_count s) eqn:G; [do 2 eexists; split; [reflexivity|]; unfold JS_ERROR; tauto|].
  destruct (copy_name_safe 258 (j_mem qn) 0 (j_max qn) (j_mem s) (j_count s) (j_max s) 0) as (ok & c & m & -> & R1 & R2 & R3 & R4 & R5 & _); try assumption; try lia.
  cbn [bind]. destruct ok; cbn [negb].
  2:{ do 2 eexists. split; [reflexivity|]. split; [apply wf_set_mem; assumption|]. split; [reflexivity|unfold JS_ERROR; tauto]. }
  rewrite wr_ok by lia. cbn [bind]. destruct (c + 1 + j_count s + 4 <? j_max s) eqn:G2.
  - rewrite put_ok.
    2:{ lia. } 2:{ rewrite zlen_zupd. change (zlen [hi ty; lo ty; hi cl; lo cl]) with 4. lia. }
    cbn [bind]. do 2 eexists. split; [reflexivity|]. split; [|split; [reflexivity|unfold JS_SUCCESS; tauto]].
    apply wf_set_count; [|cbn [set_mem j_max]; lia]. apply wf_set_mem; [exact W| |].
    + apply bytes_splice; [apply bytes_zupd; [exact R1|unfold byte; lia]|]. unfold hi, lo. repeat (apply Forall_cons; [apply u8_byte|]). constructor.
    + rewrite zlen_splice; rewrite ?zlen_zupd; try lia. change (zlen [hi ty; lo ty; hi cl; lo cl]) with 4. lia.
  - do 2 eexists. split; [reflexivity|]. split; [|split; [reflexivity|unfold JS_ERROR; tauto]].
    apply wf_set_mem; [exact W|apply bytes_zupd; [exact R1|unfold byte; lia]|rewrite zlen_zupd; exact R2].
Qed.
(** Numbers in a packet *)
Lemma rd_zslice m o k i : 0 <= i < k -> 0 <= o -> o + k <= zlen m -> rd m (o + i) = rd (zslice m o k) i.
Proof. intros I O L. unfold rd. rewrite zget_zslice by lia. replace (i <? k) with true by lia. reflexivity. Qed.

Definition i32_ok (x : Z) : Prop := -2147483648 <= x < 2147483648.
(** What read_question does with any packet *)
Lemma read_question_gen s qn l ty cl o : holding s l -> j_wf qn -> j_size qn = 1 -> i32_ok o ->
  exists r qn' ty' cl', read_question s qn ty cl o = Ok (r, (qn', ty', cl')) /\ j_wf qn' /\ j_size qn' = 1 /\ j_max qn' = j_max qn /\
    (r = -1 \/ (0 <= o /\ 5 <= r /\ o + r <= zlen l /\ (r <= 260 ->
       exists q, good_name (qu_name q) /\ word (qu_type q) /\ word (qu_class q) /\ zslice l o r = question_bytes q /\ holding qn' (wire (qu_name q)) /\ ty' = qu_type q /\ cl' = qu_class q))).
Proof.
  intros H WQ SQ IO. destruct (holding_slice s l H) as (E1 & C1 & M1 & N1 & B1 & Z1). destruct H as (W & S1 & _). unfold i32_ok in IO.
  pose proof (jw_mem qn WQ) as LQ. rewrite SQ in LQ. pose proof (jw_count qn WQ). pose proof (jw_bytes qn WQ) as BQ.
  unfold read_question. rewrite !octet_ok by assumption. cbn [negb].
  destruct (j_count s <=? u32 o) eqn:G.
  { do 4 eexists. split; [reflexivity|]. split; [exact WQ|]. split; [exact SQ|]. split; [reflexivity|]. left. reflexivity. }
  assert (0 <= o < j_count s) as OO by (unfold u32 in G; lia).
  destruct (copy_name_safe 258 (j_mem s) o (j_count s) (j_mem qn) 0 (j_max qn) 0) as (ok & c & m & -> & R1 & R2 & R3 & R4 & R5 & R6); try assumption; try lia.
  cbn [bind]. rewrite !Z.add_0_l, ?Z.add_0_r, ?Z.sub_0_r in R6. destruct ok; cbn [negb].
  2:{ do 4 eexists. split; [reflexivity|]. split; [apply wf_set_mem; assumption|]. split; [exact SQ|]. split; [reflexivity|]. left. reflexivity. }
  rewrite wr_ok by lia. cbn [bind].
  assert (j_wf (set_mem qn (zupd m c 0))) as W2 by (apply wf_set_mem; [exact WQ|apply bytes_zupd; [exact R1|unfold byte; lia]|rewrite zlen_zupd; exact R2]).
  destruct (c + 1 + o + 4 <=? j_count s) eqn:G2.
  2:{ do 4 eexists. split; [reflexivity|]. split; [exact W2|]. split; [exact SQ|]. split; [reflexivity|]. left. reflexivity. }
  assert (forall i, 0 <= i < 4 -> rd (j_mem s) (c + 1 + o + i) = rd (zslice (j_mem s) (o + (c + 1)) 4) i) as RR.
  { intros i Hi. rewrite <- rd_zslice by lia. f_equal. lia. }
  cbv zeta. rewrite !RR by lia. clear RR.
  assert (bytes (zslice (j_mem s) (o + (c + 1)) 4)) as B4 by (apply bytes_zslice, B1).
  assert (zlen (zslice (j_mem s) (o + (c + 1)) 4) = 4) as L4 by (apply zlen_zslice; lia).
  assert (zslice l o (c + 5) = zslice (j_mem s) o (c + 1) ++ zslice (j_mem s) (o + (c + 1)) 4) as ES.
  { rewrite <- E1. rewrite zslice_zslice by lia. rewrite Z.add_0_l. replace (c + 5) with ((c + 1) + 4) by lia. apply zslice_split; lia. }
  destruct (zslice (j_mem s) (o + (c + 1)) 4) as [|r0 [|r1 [|r2 [|r3 [|x q]]]]]; try discriminate; [|rewrite !zlen_cons in L4; pose proof (zlen_nonneg q); lia].
  change (rd [r0; r1; r2; r3] 0) with (Ok r0). change (rd [r0; r1; r2; r3] 1) with (Ok r1). change (rd [r0; r1; r2; r3] 2) with (Ok r2). change (rd [r0; r1; r2; r3] 3) with (Ok r3). cbn [bind].
  unfold bytes in B4. apply Forall_cons_iff in B4 as (X0 & B4). apply Forall_cons_iff in B4 as (X1 & B4). apply Forall_cons_iff in B4 as (X2 & B4). apply Forall_cons_iff in B4 as (X3 & _).
  destruct (c + 1 <? j_max qn) eqn:G3.
  2:{ do 4 eexists. split; [reflexivity|]. split; [exact W2|]. split; [exact SQ|]. split; [reflexivity|]. left. reflexivity. }
  do 4 eexists. split; [reflexivity|]. split; [apply wf_set_count; [exact W2|cbn [set_mem j_max]; lia]|]. split; [exact SQ|]. split; [reflexivity|]. right.
  split; [lia|]. split; [lia|]. split; [lia|]. intros R260. destruct (R6 eq_refl ltac:(lia)) as (n & GN & EW & ED).
  exists (mkquestion n (pair16 r0 r1) (pair16 r2 r3)). cbn [qu_name qu_type qu_class].
  split; [exact GN|]. split; [|split; [|split]].
  - rewrite pair16_val by assumption. unfold word, byte in *. lia.
  - rewrite pair16_val by assumption. unfold word, byte in *. lia.
  - replace (c + 1 + 4) with (c + 5) by lia. rewrite ES, EW. unfold question_bytes. cbn [qu_name qu_type qu_class]. f_equal. rewrite !be_2, !pair16_val by assumption. unfold byte in *. cbn [app].
    repeat f_equal; lia.
  - split; [|split; reflexivity]. apply holding_set; try assumption.
    + apply bytes_zupd; [exact R1|unfold byte; lia].
    + rewrite zlen_zupd. exact R2.
    + lia.
    + assert (zlen (wire n) = c + 1) as LW by (rewrite <- EW; apply zlen_zslice; lia).
      assert (zlen (labels n) = c) as LL by (rewrite wire_labels, zlen_app in LW; change (zlen [0]) with 1 in LW; lia).
      rewrite zupd_splice by lia. rewrite ED. replace c with (0 + zlen (labels n)) at 1 by lia. rewrite splice_splice by (change (zlen [0]) with 1; lia). rewrite <- wire_labels.
      rewrite <- LW. apply zslice_splice_same; lia.
Qed.

Lemma read_question_ok s qn a q b ty cl : holding s (a ++ question_bytes q ++ b) -> j_wf qn -> j_size qn = 1 -> question_ok q -> zlen (wire (qu_name q)) < j_max qn ->
  exists qn', read_question s qn ty cl (zlen a) = Ok (zlen (question_bytes q), (qn', qu_type q, qu_class q)) /\ holding qn' (wire (qu_name q)) /\ j_max qn' = j_max qn.
Proof.
  intros H WQ SQ ((GN & SN) & WT & WC) R. destruct (holding_slice s _ H) as (E1 & C1 & M1 & N1 & B1 & Z1). destruct H as (W & S1 & _).
  pose proof (jw_mem qn WQ) as LQ. rewrite SQ in LQ. pose proof (jw_count qn WQ). pose proof (jw_bytes qn WQ) as BQ.
  rewrite !zlen_app, zlen_question in *. pose proof (wire_pos (qu_name q)). pose proof (zlen_nonneg a). pose proof (zlen_nonneg b).
  unfold read_question. rewrite !octet_ok by assumption. cbn [negb]. rewrite u32_small by lia. replace (j_count s <=? zlen a) with false by lia.
  assert (zlen (labels (qu_name q)) + 1 = zlen (wire (qu_name q))) as LW by (rewrite wire_labels, zlen_app; reflexivity).
  set (n := qu_name q) in *.
  assert (forall o k, 0 <= o -> 0 <= k -> o + k <= zlen (question_bytes q) -> zslice (j_mem s) (zlen a + o) k = zslice (question_bytes q) o k) as EQ.
  { intros o k O K L. pose proof (zlen_question q) as LQQ. fold n in LQQ. assert (zslice (j_mem s) (zlen a + o) k = zslice (a ++ question_bytes q ++ b) (zlen a + o) k) as X.
    { rewrite <- E1. rewrite zslice_zslice by lia. rewrite Z.add_0_l. reflexivity. }
    rewrite X, zslice_app_r by (rewrite ?zlen_app; lia). replace (zlen a + o - zlen a) with o by lia. apply zslice_app_l; lia. }
  pose proof (zlen_question q) as LQQ. fold n in LQQ.
  rewrite (copy_name_ok n); try assumption; try lia.
  3:{ apply few_labels; [exact GN|lia]. }
  2:{ rewrite EQ by lia. unfold question_bytes. fold n. rewrite zslice_app_l by lia. apply zslice_all. }
  cbn [bind negb]. rewrite !Z.add_0_l.
  assert (zlen (splice (j_mem qn) 0 (labels n)) = zlen (j_mem qn)) as L2 by (apply zlen_splice; lia).
  rewrite wr_ok by lia. cbn [bind]. replace (zlen (labels n) + 1 + zlen a + 4 <=? j_count s) with true by lia.
  assert (forall i, 0 <= i < 4 -> rd (j_mem s) (zlen (labels n) + 1 + zlen a + i) = rd (be 2 (qu_type q) ++ be 2 (qu_class q)) i) as RR.
  { intros i Hi. replace (zlen (labels n) + 1 + zlen a + i) with ((zlen a + zlen (wire n)) + i) by lia. rewrite (rd_zslice _ _ 4) by lia. f_equal.
    rewrite EQ by lia. unfold question_bytes. fold n. rewrite zslice_app_r by (rewrite ?zlen_app, ?zlen_be; lia). rewrite Z.sub_diag.
    assert (zlen (be 2 (qu_type q) ++ be 2 (qu_class q)) = 4) as L4 by (rewrite zlen_app, !zlen_be; reflexivity). rewrite <- L4 at 1. apply zslice_all. }
  cbv zeta. rewrite !RR by lia. clear RR. rewrite !be_2. cbn [app].
  match goal with |- context [rd [?x; ?y; ?z; ?t] _] => change (rd [x; y; z; t] 0) with (Ok x); change (rd [x; y; z; t] 1) with (Ok y); change (rd [x; y; z; t] 2) with (Ok z); change (rd [x; y; z; t] 3) with (Ok t) end.
  cbn [bind]. replace (zlen (labels n) + 1 <? j_max qn) with true by lia.
  rewrite (pair_be (qu_type q)) by (assumption || apply be_2). rewrite (pair_be (qu_class q)) by (assumption || apply be_2).
  replace (zlen (labels n) + 1 + 4) with (zlen (question_bytes q)) by lia. rewrite LQQ.
  eexists. split; [reflexivity|]. split; [|reflexivity]. apply holding_set; try assumption.
  - apply bytes_zupd; [apply bytes_splice; [exact BQ|apply bytes_labels, GN]|unfold byte; lia].
  - rewrite zlen_zupd. exact L2.
  - lia.
  - rewrite zupd_splice by lia. replace (zlen (labels n)) with (0 + zlen (labels n)) at 1 by lia. rewrite splice_splice by (change (zlen [0]) with 1; lia). rewrite <- wire_labels.
    replace (zlen (labels n) + 1) with (zlen (wire n)) by lia. apply zslice_splice_same; lia.
Qed.

(** ** Record headers *)
Lemma zlen_head h : zlen (head_bytes h) = zlen (wire (hd_name h)) + 10.
Proof. unfold head_bytes. rewrite !zlen_app, !zlen_be. lia. Qed.
Definition quad (a b c d : Z) : Z := Z.lor (Z.lor (Z.lor (Z.shiftl a 24) (Z.shiftl b 16)) (Z.shiftl c 8)) d.
Lemma quad_val a b c d : byte a -> byte b -> byte c -> byte d -> quad a b c d = a * 16777216 + b * 65536 + c * 256 + d.
Proof.
  unfold byte, quad. intros A B C D.
  assert (Z.shiftl a 24 = Z.shiftl (Z.shiftl (Z.shiftl a 8) 8) 8) as -> by (rewrite !Z.shiftl_shiftl by lia; reflexivity).
  assert (Z.shiftl b 16 = Z.shiftl (Z.shiftl b 8) 8) as -> by (rewrite !Z.shiftl_shiftl by lia; reflexivity).
  rewrite <- !Z.shiftl_lor. rewrite !lor_shiftl8 by lia. lia.
Qed.
Lemma be_4_quad v : 0 <= v < 4294967296 -> forall a b c d, be 4 v = [a; b; c; d] -> quad a b c d = v.
Proof.
  intros V a b c d E. rewrite be_4 in E. injection E as <- <- <- <-. rewrite quad_val by (unfold byte; lia). lia.
Qed.
Lemma quad_be a b c d : byte a -> byte b -> byte c -> byte d -> be 4 (quad a b c d) = [a; b; c; d].
Proof. intros A B C D. rewrite be_4, quad_val by assumption. unfold byte in *. repeat f_equal; lia. Qed.
Lemma pair_is_be a b : byte a -> byte b -> be 2 (pair16 a b) = [a; b].
Proof. intros A B. rewrite be_2, pair16_val by assumption. unfold byte in *. repeat f_equal; lia. Qed.
Lemma ten_list (r : list Z) : zlen r = 10 -> exists a b c d e f g h i j, r = [a; b; c; d; e; f; g; h; i; j].
Proof.
  intros L. unfold zlen in L. do 10 (destruct r as [|? r]; [cbn in L; lia|]). destruct r; [|cbn in L; lia]. do 10 eexists. reflexivity.
Qed.
Definition rr_ttl (r : js * Z * Z * Z * Z) : Z := snd (fst r).

Lemma read_rr_h_gen s nm l o : holding s l -> j_wf nm -> j_size nm = 1 -> i32_ok o ->
  read_rr_h s nm o = Ok None \/
  (read_rr_h s nm o = Bad SignedOverflow /\ 0 <= o /\ exists c b, 0 <= c /\ o + c + 11 <= zlen l /\ zget l (o + c + 5) = Some b /\ 128 <= b /\
     (c < 256 -> exists n, good_name n /\ zslice l o (c + 1) = wire n)) \/
  exists r nm' ty cl ttl len, read_rr_h s nm o = Ok (Some (r, (nm', ty, cl, ttl, len))) /\ j_wf nm' /\ j_size nm' = 1 /\ j_max nm' = j_max nm /\ 0 <= o /\ 11 <= r /\ o + r <= zlen l /\
    (r <= 266 -> exists h, good_name (hd_name h) /\ zslice l o r = head_bytes h /\ holding nm' (wire (hd_name h)) /\ ty = hd_type h /\ cl = hd_class h /\ ttl = hd_ttl h /\ len = hd_len h /\
       word ty /\ word cl /\ 0 <= ttl < 2147483648 /\ word len).
Proof.
  intros H WQ SQ IO. destruct (holding_slice s l H) as (E1 & C1 & M1 & N1 & B1 & Z1). destruct H as (W & S1 & _). unfold i32_ok in IO.
  pose proof (jw_mem nm WQ) as LQ. rewrite SQ in LQ. pose proof (jw_count nm WQ). pose proof (jw_bytes nm WQ) as BQ.
  unfold read_rr_h. rewrite !octet_ok by assumption. cbn [negb].
  destruct (j_max s <=? u32 o) eqn:G; [left; reflexivity|]. destruct (j_count s <? o) eqn:G1; [left; reflexivity|].
  assert (0 <= o <= j_count s) as OO by (unfold u32 in G; lia).
  destruct (copy_name_safe 258 (j_mem s) o (j_count s) (j_mem nm) 0 (j_max nm) 0) as (ok & c & m & -> & R1 & R2 & R3 & R4 & R5 & R6); try assumption; try lia.
  cbn [bind]. rewrite !Z.add_0_l, ?Z.add_0_r, ?Z.sub_0_r in R6. destruct ok; cbn [negb]; [|left; reflexivity].
  destruct (zget_some (j_mem s) (o + c) ltac:(lia)) as (x & EX). rewrite (rd_of_zget _ _ _ EX). cbn [bind]. pose proof (zget_bytes _ _ _ B1 EX) as BX.
  rewrite wr_ok by lia. cbn [bind].
  assert (j_wf (set_mem nm (zupd m c x))) as W2 by (apply wf_set_mem; [exact WQ|apply bytes_zupd; [exact R1|exact BX]|rewrite zlen_zupd; exact R2]).
  destruct (c + 1 + o + 10 <=? j_count s) eqn:G2; [|left; reflexivity].
  assert (forall i, 0 <= i < 10 -> rd (j_mem s) (c + 1 + o + i) = rd (zslice (j_mem s) (o + (c + 1)) 10) i) as RR.
  { intros i Hi. rewrite <- rd_zslice by lia. f_equal. lia. }
  cbv zeta. rewrite !RR by lia. clear RR.
  assert (bytes (zslice (j_mem s) (o + (c + 1)) 10)) as B4 by (apply bytes_zslice, B1).
  assert (zlen (zslice (j_mem s) (o + (c + 1)) 10) = 10) as L4 by (apply zlen_zslice; lia).
  assert (forall k, 0 <= k -> o + k <= zlen l -> zslice l o k = zslice (j_mem s) o k) as EL.
  { intros k K1 K2. rewrite <- E1. rewrite zslice_zslice by lia. rewrite Z.add_0_l. reflexivity. }
  assert (zslice l o (c + 11) = zslice (j_mem s) o (c + 1) ++ zslice (j_mem s) (o + (c + 1)) 10) as ES.
  { rewrite EL by lia. replace (c + 11) with ((c + 1) + 10) by lia. apply zslice_split; lia. }
  assert (zget l (o + c + 5) = zget (zslice (j_mem s) (o + (c + 1)) 10) 4) as E5.
  { rewrite zget_zslice by lia. rewrite <- E1. rewrite zget_zslice by lia. replace (o + c + 5 <? zlen l) with true by lia. replace (4 <? 10) with true by lia. f_equal. lia. }
  destruct (ten_list _ L4) as (r0 & r1 & r2 & r3 & r4 & r5 & r6 & r7 & r8 & r9 & ET). rewrite ET in *. change (zget [r0; r1; r2; r3; r4; r5; r6; r7; r8; r9] 4) with (Some r4) in E5.
  set (t := [r0; r1; r2; r3; r4; r5; r6; r7; r8; r9]) in *.
  change (rd t 0) with (Ok r0). change (rd t 1) with (Ok r1). change (rd t 2) with (Ok r2). change (rd t 3) with (Ok r3). change (rd t 4) with (Ok r4).
  change (rd t 5) with (Ok r5). change (rd t 6) with (Ok r6). change (rd t 7) with (Ok r7). change (rd t 8) with (Ok r8). change (rd t 9) with (Ok r9). cbn [bind].
  unfold bytes, t in B4.
  apply Forall_cons_iff in B4 as (X0 & B4). apply Forall_cons_iff in B4 as (X1 & B4). apply Forall_cons_iff in B4 as (X2 & B4). apply Forall_cons_iff in B4 as (X3 & B4).
  apply Forall_cons_iff in B4 as (X4 & B4). apply Forall_cons_iff in B4 as (X5 & B4). apply Forall_cons_iff in B4 as (X6 & B4). apply Forall_cons_iff in B4 as (X7 & B4).
  apply Forall_cons_iff in B4 as (X8 & B4). apply Forall_cons_iff in B4 as (X9 & _).
  destruct (128 <=? r4) eqn:G4.
  { right. left. split; [reflexivity|]. split; [lia|]. exists c, r4. split; [lia|]. split; [lia|]. split; [exact E5|]. split; [lia|].
    intros CC. destruct (R6 eq_refl CC) as (n & GN & EW & _). exists n. split; [exact GN|]. rewrite EL by lia. exact EW. }
  destruct (c + 1 <? j_max nm) eqn:G3; [|left; reflexivity].
  right. right. do 6 eexists. split; [reflexivity|]. split; [apply wf_set_count; [exact W2|cbn [set_mem j_max]; lia]|]. split; [exact SQ|]. split; [reflexivity|].
  split; [lia|]. split; [lia|]. split; [lia|]. intros R260. destruct (R6 eq_refl ltac:(lia)) as (n & GN & EW & ED).
  change (Z.lor (Z.lor (Z.lor (Z.shiftl r4 24) (Z.shiftl r5 16)) (Z.shiftl r6 8)) r7) with (quad r4 r5 r6 r7).
  exists (mkhead n (pair16 r0 r1) (pair16 r2 r3) (quad r4 r5 r6 r7) (pair16 r8 r9)). cbn [hd_name hd_type hd_class hd_ttl hd_len].
  split; [exact GN|]. split; [|split].
  - replace (c + 1 + 10) with (c + 11) by lia. rewrite ES, EW. unfold head_bytes. cbn [hd_name hd_type hd_class hd_ttl hd_len]. rewrite !pair_is_be, quad_be by assumption. reflexivity.
  - apply holding_set; try assumption.
    + apply bytes_zupd; [exact R1|exact BX].
    + rewrite zlen_zupd. exact R2.
    + lia.
    + assert (zlen (wire n) = c + 1) as LW by (rewrite <- EW; apply zlen_zslice; lia).
      assert (zlen (labels n) = c) as LL by (rewrite wire_labels, zlen_app in LW; change (zlen [0]) with 1 in LW; lia).
      assert (x = 0) as ->.
      { assert (zget (zslice (j_mem s) o (c + 1)) c = Some x) as X by (rewrite zget_zslice by lia; replace (c <? c + 1) with true by lia; exact EX).
        rewrite EW, wire_labels, zget_app_r in X by lia. rewrite LL, Z.sub_diag in X. cbn in X. congruence. }
      rewrite zupd_splice by lia. rewrite ED. replace c with (0 + zlen (labels n)) at 1 by lia. rewrite splice_splice by (change (zlen [0]) with 1; lia). rewrite <- wire_labels.
      rewrite <- LW. apply zslice_splice_same; lia.
  - repeat (split; [reflexivity|]). rewrite !pair16_val, quad_val by assumption. unfold word, byte in *. split; [|split; [|split]]; lia.
Qed.
Lemma read_rr_h_ok s nm a h b : holding s (a ++ head_bytes h ++ b) -> j_wf nm -> j_size nm = 1 -> head_ok h -> hd_ttl h < 2147483648 -> zlen (wire (hd_name h)) < j_max nm -> 
  exists nm', read_rr_h s nm (zlen a) = Ok (Some (zlen (head_bytes h), (nm', hd_type h, hd_class h, hd_ttl h, hd_len h))) /\ holding nm' (wire (hd_name h)) /\ j_max nm' = j_max nm.
Proof.
  intros H WQ SQ ((GN & SN) & WT & WC & TT & WL) T31 R. destruct (holding_slice s _ H) as (E1 & C1 & M1 & N1 & B1 & Z1). destruct H as (W & S1 & _).
  pose proof (jw_mem nm WQ) as LQ. rewrite SQ in LQ. pose proof (jw_count nm WQ). pose proof (jw_bytes nm WQ) as BQ.
  rewrite !zlen_app, zlen_head in *. pose proof (wire_pos (hd_name h)). pose proof (zlen_nonneg a). pose proof (zlen_nonneg b).
  unfold read_rr_h. rewrite !octet_ok by assumption. cbn [negb]. rewrite u32_small by lia. replace (j_max s <=? zlen a) with false by lia. replace (j_count s <? zlen a) with false by lia.
  assert (zlen (labels (hd_name h)) + 1 = zlen (wire (hd_name h))) as LW by (rewrite wire_labels, zlen_app; reflexivity).
  set (n := hd_name h) in *. pose proof (zlen_head h) as LQQ. fold n in LQQ.
  assert (forall o k, 0 <= o -> 0 <= k -> o + k <= zlen (head_bytes h) -> zslice (j_mem s) (zlen a + o) k = zslice (head_bytes h) o k) as EQ.
  { intros o k O K L. assert (zslice (j_mem s) (zlen a + o) k = zslice (a ++ head_bytes h ++ b) (zlen a + o) k) as X.
    { rewrite <- E1. rewrite zslice_zslice by lia. rewrite Z.add_0_l. reflexivity. }
    rewrite X, zslice_app_r by (rewrite ?zlen_app; lia). replace (zlen a + o - zlen a) with o by lia. apply zslice_app_l; lia. }
  assert (zslice (j_mem s) (zlen a + 0) (zlen (wire n)) = wire n) as EW.
  { rewrite EQ by lia. unfold head_bytes. fold n. rewrite zslice_app_l by lia. apply zslice_all. }
  rewrite (copy_name_ok n); try assumption; try lia.
  2:{ apply few_labels; [exact GN|lia]. }
  cbn [bind negb]. rewrite !Z.add_0_l.
  assert (zget (j_mem s) (zlen a + zlen (labels n)) = Some 0) as EX.
  { assert (zget (zslice (j_mem s) (zlen a + 0) (zlen (wire n))) (zlen (labels n)) = Some 0) as X.
    { rewrite EW, wire_labels, zget_app_r by lia. rewrite Z.sub_diag. reflexivity. }
    rewrite zget_zslice in X by lia. replace (zlen (labels n) <? zlen (wire n)) with true in X by lia. rewrite Z.add_0_r in X. exact X. }
  rewrite (rd_of_zget _ _ _ EX). cbn [bind].
  assert (zlen (splice (j_mem nm) 0 (labels n)) = zlen (j_mem nm)) as L2 by (apply zlen_splice; lia).
  rewrite wr_ok by lia. cbn [bind]. replace (zlen (labels n) + 1 + zlen a + 10 <=? j_count s) with true by lia.
  set (t := be 2 (hd_type h) ++ be 2 (hd_class h) ++ be 4 (hd_ttl h) ++ be 2 (hd_len h)).
  assert (zlen t = 10) as L4 by (unfold t; rewrite !zlen_app, !zlen_be; reflexivity).
  assert (forall i, 0 <= i < 10 -> rd (j_mem s) (zlen (labels n) + 1 + zlen a + i) = rd t i) as RR.
  { intros i Hi. replace (zlen (labels n) + 1 + zlen a + i) with ((zlen a + zlen (wire n)) + i) by lia. rewrite (rd_zslice _ _ 10) by lia. f_equal.
    rewrite EQ by lia. unfold head_bytes. fold n t. rewrite zslice_app_r by lia. rewrite Z.sub_diag. rewrite <- L4. apply zslice_all. }
  cbv zeta. rewrite !RR by lia. clear RR. unfold t. rewrite !be_2, be_4. cbn [app].
  match goal with |- context [rd ?t _] => match t with [?r0; ?r1; ?r2; ?r3; ?r4; ?r5; ?r6; ?r7; ?r8; ?r9] =>
    change (rd t 0) with (Ok r0); change (rd t 1) with (Ok r1); change (rd t 2) with (Ok r2); change (rd t 3) with (Ok r3); change (rd t 4) with (Ok r4);
    change (rd t 5) with (Ok r5); change (rd t 6) with (Ok r6); change (rd t 7) with (Ok r7); change (rd t 8) with (Ok r8); change (rd t 9) with (Ok r9) end end.
  cbn [bind]. replace (128 <=? hd_ttl h / 16777216 mod 256) with false by lia. replace (zlen (labels n) + 1 <? j_max nm) with true by lia.
  rewrite (pair_be (hd_type h)) by (assumption || apply be_2). rewrite (pair_be (hd_class h)) by (assumption || apply be_2). rewrite (pair_be (hd_len h)) by (assumption || apply be_2).
  match goal with |- context [Z.lor (Z.lor (Z.lor (Z.shiftl ?a 24) (Z.shiftl ?b 16)) (Z.shiftl ?c 8)) ?d] =>
    change (Z.lor (Z.lor (Z.lor (Z.shiftl a 24) (Z.shiftl b 16)) (Z.shiftl c 8)) d) with (quad a b c d) end.
  rewrite (be_4_quad (hd_ttl h)) by (assumption || apply be_4).
  replace (zlen (labels n) + 1 + 10) with (zlen (head_bytes h)) by lia. rewrite LQQ.
  eexists. split; [reflexivity|]. split; [|reflexivity]. apply holding_set; try assumption.
  - apply bytes_zupd; [apply bytes_splice; [exact BQ|apply bytes_labels, GN]|unfold byte; lia].
  - rewrite zlen_zupd. exact L2.
  - lia.
  - rewrite zupd_splice by lia. replace (zlen (labels n)) with (0 + zlen (labels n)) at 1 by lia. rewrite splice_splice by (change (zlen [0]) with 1; lia). rewrite <- wire_labels.
    replace (zlen (labels n) + 1) with (zlen (wire n)) by lia. apply zslice_splice_same; lia.
Qed.
