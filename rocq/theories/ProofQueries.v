(** Headers (dns/Queries.c make_hdr, read_hdr). *)
From Verif Require Import CBase Bits ModelDwStr SpecDwStr ProofDwStr SpecNames SpecMessage SpecAcl SpecQuery ModelJsStr SpecJsStr ProofJsStr ProofJsSearch
  ModelQueries SpecQueries.

Lemma put_ok l : forall mem i, 0 <= i -> i + zlen l <= zlen mem -> put mem i l = Ok (splice mem i l).
Proof.
  induction l as [|b l IH]; intros mem i Hi Hl; cbn [put].
  - rewrite splice_nil. reflexivity.
  - rewrite zlen_cons in Hl. pose proof (zlen_nonneg l). rewrite wr_splice by lia. cbn [bind].
    rewrite IH by (rewrite ?zlen_splice by (change (zlen [b]) with 1; lia); lia).
    replace (i + 1) with (i + zlen [b]) by reflexivity. rewrite splice_splice; [reflexivity|lia|rewrite zlen_cons; change (zlen (@nil Z)) with 0; lia].
Qed.

Lemma octet_ok s : j_wf s -> j_size s = 1 -> octet_string s = true.
Proof.
  intros W S1. unfold octet_string. rewrite sane_usable by exact W. unfold usable. rewrite unit_value, S1. rewrite Z.eqb_refl. cbn [negb]. rewrite andb_false_r. reflexivity.
Qed.

(** ** Bits *)
Lemma u8_byte v : byte (u8 v). Proof. unfold byte, u8. lia. Qed.
Lemma hi_lo_bits v : bits8 (hi v) ++ bits8 (lo v) = nbits 16 v.
Proof.
  assert (forall v i, 0 <= i < 8 -> Z.testbit (u8 v) i = Z.testbit v i) as U.
  { intros w i Hi. unfold u8. change 256 with (2 ^ 8). rewrite Z.mod_pow2_bits_low by lia. reflexivity. }
  unfold bits8, nbits, hi, lo. cbn [map app seq rev].
  repeat (rewrite U by lia). rewrite !Z.shiftr_spec by lia. rewrite !Z.land_spec. cbn [Z.of_nat Pos.of_succ_nat Pos.succ Z.add Pos.add].
  repeat match goal with |- context [Z.testbit 65280 ?k] => let b := eval vm_compute in (Z.testbit 65280 k) in change (Z.testbit 65280 k) with b end.
  repeat match goal with |- context [Z.testbit 255 ?k] => let b := eval vm_compute in (Z.testbit 255 k) in change (Z.testbit 255 k) with b end.
  rewrite !andb_true_r. reflexivity.
Qed.

Lemma below_1 v : below 1 v -> v = 0 \/ v = 1. Proof. unfold below. change (2 ^ Z.of_nat 1) with 2. lia. Qed.
Definition upto (n : nat) : list Z := map Z.of_nat (seq 0 n).
Lemma in_upto n v : 0 <= v < Z.of_nat n -> In v (upto n).
Proof. intros H. unfold upto. apply in_map_iff. exists (Z.to_nat v). split; [lia|]. apply in_seq. lia. Qed.
Lemma for_upto n (P : Z -> bool) : forallb P (upto n) = true -> forall v, 0 <= v < Z.of_nat n -> P v = true.
Proof. intros H v Hv. rewrite forallb_forall in H. apply H, in_upto, Hv. Qed.
Fixpoint bool_list_eqb (a b : list bool) : bool :=
  match a, b with [], [] => true | x :: a, y :: b => Bool.eqb x y && bool_list_eqb a b | _, _ => false end.
Lemma bool_list_eqb_ok a : forall b, bool_list_eqb a b = true -> a = b.
Proof. induction a as [|x a IH]; intros [|y b] H; cbn in H; try discriminate; [reflexivity|]. apply andb_true_iff in H as (H1 & H2). apply eqb_prop in H1. apply IH in H2. congruence. Qed.

Lemma octet2_bits qr op aa tc rd : below 1 qr -> below 4 op -> below 1 aa -> below 1 tc -> below 1 rd ->
  bits8 (u8 (Z.lor (Z.lor (Z.lor (Z.lor (flag qr 128) (Z.shiftl (Z.land op 15) 3)) (flag aa 4)) (flag tc 2)) (flag rd 1))) =
  nbits 1 qr ++ nbits 4 op ++ nbits 1 aa ++ nbits 1 tc ++ nbits 1 rd.
Proof.
  intros H1 H2 H3 H4 H5. apply below_1 in H1, H3, H4, H5. apply bool_list_eqb_ok. unfold below in H2. revert op H2. change (2 ^ Z.of_nat 4) with (Z.of_nat 16).
  apply for_upto. destruct H1 as [-> | ->], H3 as [-> | ->], H4 as [-> | ->], H5 as [-> | ->]; vm_compute; reflexivity.
Qed.
Lemma octet3_bits ra z rc : below 1 ra -> below 3 z -> below 4 rc ->
  bits8 (u8 (Z.lor (Z.lor (flag ra 128) (Z.shiftl (Z.land z 7) 4)) (Z.land rc 15))) = nbits 1 ra ++ nbits 3 z ++ nbits 4 rc.
Proof.
  intros H1 H2 H3. apply below_1 in H1. apply bool_list_eqb_ok. unfold below in H2, H3. revert rc H3. change (2 ^ Z.of_nat 4) with (Z.of_nat 16). apply for_upto.
  revert z H2. change (2 ^ Z.of_nat 3) with (Z.of_nat 8). apply for_upto. destruct H1 as [-> | ->]; vm_compute; reflexivity.
Qed.

Lemma fits_spec h : header_fits h -> below 16 (q_id h) /\ below 1 (q_qr h) /\ below 4 (q_opcode h) /\ below 1 (q_aa h) /\ below 1 (q_tc h) /\ below 1 (q_rd h) /\
  below 1 (q_ra h) /\ below 3 (q_z h) /\ below 4 (q_rcode h) /\ below 16 (q_qd h) /\ below 16 (q_an h) /\ below 16 (q_ns h) /\ below 16 (q_ar h).
Proof. intros F. unfold header_fits, header_fields in F. repeat (apply Forall_cons_iff in F as (? & F)). cbn [fst snd] in *. tauto. Qed.

Lemma hdr_octets_bits h : header_fits h -> bits (hdr_octets h) = header_bits h.
Proof.
  intros F. apply fits_spec in F as (_ & H2 & H3 & H4 & H5 & H6 & H7 & H8 & H9 & _).
  unfold bits, hdr_octets, header_bits, header_fields. cbn [flat_map fst snd].
  rewrite octet2_bits, octet3_bits by assumption. rewrite <- !hi_lo_bits, !app_nil_r, <- !app_assoc. reflexivity.
Qed.
Lemma bytes_hdr h : bytes (hdr_octets h).
Proof. unfold hdr_octets, hi, lo. repeat (apply Forall_cons; [apply u8_byte|]). constructor. Qed.

(** ** The two functions *)
Lemma make_hdr_ok h s : j_wf s -> j_size s = 1 -> 14 <= j_max s ->
  exists s', make_hdr h s = Ok (1, s') /\ holding s' (hdr_octets h) /\ j_max s' = j_max s /\ j_enc s' = j_enc s /\ j_mem s' = splice (j_mem s) 0 (hdr_octets h).
Proof.
  intros W S1 M. unfold make_hdr. rewrite octet_ok by assumption. cbn [negb]. replace (j_max s <? 14) with false by lia.
  destruct (j_bound s W) as (B1 & B2 & B3). pose proof (jw_mem s W) as LM. rewrite S1 in *.
  rewrite put_ok by (change (zlen (hdr_octets h)) with 12; lia). cbn [bind].
  eexists. split; [reflexivity|]. unfold set_count, set_mem. cbn [j_max j_enc j_mem j_size j_count].
  assert (zlen (splice (j_mem s) 0 (hdr_octets h)) = zlen (j_mem s)) as L by (apply zlen_splice; change (zlen (hdr_octets h)) with 12; lia).
  split; [|split; [reflexivity|split; reflexivity]]. split; [|split].
  - pose proof (jw_small s W) as SM. rewrite S1 in SM. constructor; cbn [j_mem j_size j_count j_max j_enc]; rewrite ?S1; try lia.
    apply bytes_splice; [apply (jw_bytes s W)|apply bytes_hdr].
  - exact S1.
  - unfold octets_of. cbn [j_mem j_size j_count]. rewrite S1. change (1 * 12) with (zlen (hdr_octets h)). apply zslice_splice_same; [lia|]. change (zlen (hdr_octets h)) with 12. lia.
Qed.

(** The header that stands in twelve octets. *)
Definition decode (r : list Z) : q_header :=
  let g i := nth i r 0 in
  mkqh (pair16 (g 0%nat) (g 1%nat)) (tst (g 2%nat) 128) (Z.shiftr (Z.land (g 2%nat) 120) 3) (tst (g 2%nat) 4) (tst (g 2%nat) 2) (tst (g 2%nat) 1)
    (tst (g 3%nat) 128) (Z.shiftr (Z.land (g 3%nat) 112) 4) (Z.land (g 3%nat) 15) (pair16 (g 4%nat) (g 5%nat)) (pair16 (g 6%nat) (g 7%nat))
    (pair16 (g 8%nat) (g 9%nat)) (pair16 (g 10%nat) (g 11%nat)).

Lemma pair16_val a b : byte a -> byte b -> pair16 a b = a * 256 + b.
Proof. unfold byte. intros Ha Hb. unfold pair16. apply lor_shiftl8. exact Hb. Qed.
Lemma pair16_bits a b : byte a -> byte b -> nbits 16 (pair16 a b) = bits8 a ++ bits8 b /\ below 16 (pair16 a b).
Proof.
  intros Ha Hb. split.
  - rewrite <- hi_lo_bits. rewrite pair16_val by assumption. unfold byte in *. f_equal; f_equal.
    + unfold hi, u8. change 65280 with (Z.shiftl 255 8).  rewrite Z.shiftr_land. change (Z.shiftr (Z.shiftl 255 8) 8) with 255. rewrite Z.shiftr_div_pow2 by lia. change (2 ^ 8) with 256. rewrite land_255. rewrite Z.div_add_l by lia. rewrite (Z.div_small b) by lia. lia.
    + unfold lo, u8. rewrite land_255. lia.
  - rewrite pair16_val by assumption. unfold below, byte in *. change (2 ^ Z.of_nat 16) with 65536. lia.
Qed.
Lemma octet2_read r : byte r -> nbits 1 (tst r 128) ++ nbits 4 (Z.shiftr (Z.land r 120) 3) ++ nbits 1 (tst r 4) ++ nbits 1 (tst r 2) ++ nbits 1 (tst r 1) = bits8 r.
Proof. intros H. apply bool_list_eqb_ok. revert r H. unfold byte. change 256 with (Z.of_nat 256). apply for_upto. vm_compute. reflexivity. Qed.
Lemma octet3_read r : byte r -> nbits 1 (tst r 128) ++ nbits 3 (Z.shiftr (Z.land r 112) 4) ++ nbits 4 (Z.land r 15) = bits8 r.
Proof. intros H. apply bool_list_eqb_ok. revert r H. unfold byte. change 256 with (Z.of_nat 256). apply for_upto. vm_compute. reflexivity. Qed.
Lemma tst_below r m : below 1 (tst r m).
Proof. unfold tst, below. change (2 ^ Z.of_nat 1) with 2. destruct (_ =? _); lia. Qed.
Lemma fields_below r : byte r -> below 4 (Z.shiftr (Z.land r 120) 3) /\ below 3 (Z.shiftr (Z.land r 112) 4) /\ below 4 (Z.land r 15).
Proof.
  intros H.
  enough ((fun r => ((0 <=? Z.shiftr (Z.land r 120) 3) && (Z.shiftr (Z.land r 120) 3 <? 16)) && ((0 <=? Z.shiftr (Z.land r 112) 4) && (Z.shiftr (Z.land r 112) 4 <? 8)) &&
             ((0 <=? Z.land r 15) && (Z.land r 15 <? 16))) r = true) as E.
  { cbn beta in E. unfold below. change (2 ^ Z.of_nat 4) with 16. change (2 ^ Z.of_nat 3) with 8. lia. }
  revert r H. unfold byte. change 256 with (Z.of_nat 256). apply for_upto. vm_compute. reflexivity.
Qed.

Lemma twelve_list (r : list Z) : zlen r = 12 -> exists a b c d e f g h i j k l, r = [a; b; c; d; e; f; g; h; i; j; k; l].
Proof.
  intros L. unfold zlen in L. do 12 (destruct r as [|? r]; [cbn in L; lia|]). destruct r; [|cbn in L; lia]. do 12 eexists. reflexivity.
Qed.
Lemma decode_ok r : bytes r -> zlen r = 12 -> header_fits (decode r) /\ header_bits (decode r) = bits r.
Proof.
  intros B L. destruct (twelve_list r L) as (a & b & c & d & e & f & g & h & i & j & k & l & ->).
  unfold bytes in B. repeat (apply Forall_cons_iff in B as (? & B)).
  unfold header_fits, header_bits, header_fields, decode, bits. cbn [q_id q_qr q_opcode q_aa q_tc q_rd q_ra q_z q_rcode q_qd q_an q_ns q_ar nth flat_map fst snd].
  destruct (pair16_bits a b) as (E1 & F1); [assumption..|]. destruct (pair16_bits e f) as (E2 & F2); [assumption..|].
  destruct (pair16_bits g h) as (E3 & F3); [assumption..|]. destruct (pair16_bits i j) as (E4 & F4); [assumption..|].
  destruct (pair16_bits k l) as (E5 & F5); [assumption..|].
  split.
  - destruct (fields_below c) as (? & _ & _); [assumption|]. destruct (fields_below d) as (_ & ? & ?); [assumption|].
    repeat (apply Forall_cons; [cbn [fst snd]; first [assumption|apply tst_below]|]). constructor.
  - rewrite E1, E2, E3, E4, E5, <- (octet2_read c), <- (octet3_read d) by assumption. rewrite <- !app_assoc, ?app_nil_r. reflexivity.
Qed.

Lemma read_hdr_ok s : j_wf s -> j_size s = 1 -> 14 <= j_max s -> read_hdr s = Ok (Some (decode (zslice (j_mem s) 0 12))).
Proof.
  intros W S1 M. unfold read_hdr. rewrite octet_ok by assumption. cbn [negb]. replace (j_max s <? 14) with false by lia. cbv zeta.
  pose proof (jw_mem s W) as LM. rewrite S1 in LM.
  destruct (twelve_list (zslice (j_mem s) 0 12)) as (a & b & c & d & e & f & g & h & i & j & k & l & E); [apply zlen_zslice; lia|].
  assert (forall n, 0 <= n < 12 -> rd (j_mem s) n = match zget (zslice (j_mem s) 0 12) n with Some x => Ok x | None => Bad OutOfBounds end) as R.
  { intros n Hn. unfold rd. rewrite zget_zslice by lia. rewrite Z.add_0_l. replace (n <? 12) with true by lia. reflexivity. }
  rewrite E in *. rewrite !R by lia. cbn [zget nth_error Z.ltb Z.compare Z.to_nat Pos.to_nat Pos.iter_op Nat.add bind]. reflexivity.
Qed.
Lemma nbits_len n v : length (nbits n v) = n.
Proof. unfold nbits. rewrite map_length, rev_length, seq_length. reflexivity. Qed.
Lemma nbits_inj n v w : below n v -> below n w -> nbits n v = nbits n w -> v = w.
Proof.
  intros Hv Hw E. unfold below in *. apply Z.bits_inj'. intros i Hi.
  destruct (Z.ltb_spec i (Z.of_nat n)).
  - unfold nbits in E. assert (In (Z.to_nat i) (rev (seq 0 n))) as I by (apply in_rev; rewrite rev_involutive; apply in_seq; lia).
    revert I E. generalize (rev (seq 0 n)) as l. induction l as [|x l IH]; intros I E; [contradiction|]. cbn [map] in E. injection E as E1 E2. destruct I as [-> |I].
    + rewrite Z2Nat.id in E1 by lia. exact E1.
    + apply IH; assumption.
  - rewrite (bits_high_zero v (Z.of_nat n)), (bits_high_zero w (Z.of_nat n)) by lia. reflexivity.
Qed.
Lemma app_split {A} (a b c d : list A) : length a = length c -> a ++ b = c ++ d -> a = c /\ b = d.
Proof. revert c. induction a as [|x a IH]; intros [|y c] L E; cbn in *; try discriminate; [tauto|]. injection E as -> E. destruct (IH c) as (-> & ->); [lia|exact E|tauto]. Qed.
Lemma header_bits_inj h k : header_fits h -> header_fits k -> header_bits h = header_bits k -> h = k.
Proof.
  intros Fh Fk E. destruct h as [a1 a2 a3 a4 a5 a6 a7 a8 a9 a10 a11 a12 a13], k as [b1 b2 b3 b4 b5 b6 b7 b8 b9 b10 b11 b12 b13]. unfold header_bits, header_fits, header_fields in *. cbn [q_id q_qr q_opcode q_aa q_tc q_rd q_ra q_z q_rcode q_qd q_an q_ns q_ar flat_map fst snd] in *.
  repeat (apply Forall_cons_iff in Fh as (? & Fh)). repeat (apply Forall_cons_iff in Fk as (? & Fk)). cbn [fst snd] in *.
  repeat (apply app_split in E; [|rewrite !nbits_len; reflexivity]; let X := fresh "X" in destruct E as (X & E); apply nbits_inj in X; [|assumption..]).
  subst. reflexivity.
Qed.
