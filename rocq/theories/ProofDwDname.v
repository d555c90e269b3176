(** dw_get_dname, dw_get_dname_type, dw_dnsname_convert and dw_dnslabel_chop. *)
From Verif Require Import CBase ByteEnum SpecNames SpecDwStr SpecQuery ModelDwStr ProofDwStr ProofDwCompressSafe SpecMessage ProofDwDecomp ProofMessage ProofDwReplyAll.

Lemma wr_grow out i b : 0 <= i < zlen out -> exists out', wr out i b = Ok out' /\ zlen out' = zlen out /\ (forall n, 0 <= n <= i -> zslice out' 0 n = zslice out 0 n) /\
  zslice out' 0 (i + 1) = zslice out 0 i ++ [b] /\ (forall j n, i < j -> 0 <= n -> zslice out' j n = zslice out j n) /\ (bytes out -> byte b -> bytes out').
Proof.
  intros Hi. exists (zupd out i b). split; [apply wr_ok; exact Hi|]. split; [apply zlen_zupd|].
  assert (forall n, 0 <= n <= i -> zslice (zupd out i b) 0 n = zslice out 0 n) as HL.
  { intros n Hn. apply zlist_ext; [rewrite !zlen_zslice by (rewrite ?zlen_zupd; lia); reflexivity|]. rewrite zlen_zslice by (rewrite ?zlen_zupd; lia). intros j Hj. rewrite !zget_zslice by lia. apply zget_zupd_neq. lia. }
  split; [exact HL|]. split; [|split].
  - rewrite zslice_split by lia. rewrite HL by lia. f_equal. apply zslice_one. apply zget_zupd_eq. lia.
  - intros j n Hj Hn. unfold zslice. f_equal. unfold zupd. destruct (i <? 0); [reflexivity|]. assert (forall (l : list Z) a c, (a < c)%nat -> skipn c (upd_nat l a b) = skipn c l) as HS.
    { induction l as [|x l IH]; intros a [|c] Hac; try reflexivity; [lia|]. destruct a as [|a]; cbn [upd_nat skipn]; [reflexivity|]. apply IH. lia. }
    apply HS. lia.
  - intros HB Hb. apply bytes_zupd; assumption.
Qed.

Lemma zslice_step raw o n b : 0 <= o -> 0 <= n -> zget raw o = Some b -> zslice raw o (n + 1) = b :: zslice raw (o + 1) n.
Proof. intros Ho Hn G. rewrite (Z.add_comm n 1), zslice_split by lia. rewrite (zslice_one _ _ _ G). reflexivity. Qed.

(** *** dw_get_dname *)
Lemma dname_label_sound len : forall raw offset max out so, bytes raw -> bytes out -> 0 <= offset -> 0 <= so -> 256 < zlen out -> (len = 0%nat -> so <= 255) ->
  match dname_label len raw offset max out so with
  | Ok (o', out', so') => o' = offset + Z.of_nat len /\ so' = so + Z.of_nat len /\ so' <= 255 /\ (len <> 0%nat -> o' < max - 2) /\ zlen out' = zlen out /\ bytes out' /\
      exists l, zlen l = Z.of_nat len /\ bytes l /\ Forall (fun b => 32 <= b) l /\ zslice raw (offset + 1) (zlen l) = l /\ zslice out' 0 (so' + 1) = zslice out 0 (so + 1) ++ l
  | Fail => True
  | Bad _ => zlen raw < max - 2
  end.
Proof.
  induction len as [|len IH]; intros raw offset max out so HB HO Ho Hs Hz Hs5; cbn [dname_label].
  - split; [lia|]. split; [lia|]. split; [lia|]. split; [congruence|]. split; [reflexivity|]. split; [exact HO|]. exists []. change (zlen (@nil Z)) with 0. rewrite app_nil_r, zslice_nil. repeat split; constructor.
  - destruct (_ || _) eqn:E1; [exact Logic.I|]. destruct (rd raw (offset + 1)) as [b| |f] eqn:R; cbn [bind]; [|exact Logic.I|].
    2: { unfold rd in R. destruct (zget raw (offset + 1)) eqn:G; [discriminate|]. apply zget_none in G. lia. }
    apply rd_Ok_inv in R. pose proof (zget_bytes _ _ _ HB R) as Hb. destruct (wr_grow out (so + 1) b ltac:(lia)) as (out1 & -> & Z1 & L1 & G1 & _ & B1). cbn [bind]. destruct (Z.ltb_spec b 32); [exact Logic.I|].
    specialize (IH raw (offset + 1) max out1 (so + 1) HB (B1 HO Hb) ltac:(lia) ltac:(lia) ltac:(lia) ltac:(lia)).
    destruct (dname_label len raw (offset + 1) max out1 (so + 1)) as [((o' & out') & so')| |f]; [|exact Logic.I|exact IH].
    destruct IH as (-> & -> & H5 & Hm & Z2 & B2 & l & Ll & Bl & Pl & Rl & Ol). split; [lia|]. split; [lia|]. split; [lia|]. split; [intros _; destruct (Nat.eq_dec len 0); [subst; lia|specialize (Hm n); lia]|]. split; [lia|]. split; [exact B2|].
    exists (b :: l). rewrite zlen_cons. split; [lia|]. split; [constructor; assumption|]. split; [constructor; [lia|exact Pl]|]. split; [rewrite (zslice_step _ _ _ b) by (try apply zlen_nonneg; try assumption; lia); rewrite Rl; reflexivity|].
    rewrite Ol, G1. rewrite <- app_assoc. reflexivity.
Qed.
Lemma dname_loop_sound n : forall k raw offset max out so, bytes raw -> bytes out -> 0 <= offset -> 0 <= so -> 256 < zlen out -> 257 - so <= Z.of_nat n * 2 -> so <= 256 ->
  match dname_loop n k raw offset max out so with
  | Ok (out', so', k') => zlen out' = zlen out /\ bytes out' /\
      exists nm, good_name nm /\ printable nm /\ so' + 1 = so + zlen (wire nm) /\ so' <= 255 /\ offset + zlen (wire nm) <= max - 2 /\ k' = k + zlen nm /\
        zslice raw offset (zlen (wire nm)) = wire nm /\ zslice out' 0 (so' + 1) = zslice out 0 so ++ wire nm
  | Fail => True
  | Bad _ => zlen raw < max - 2
  end.
Proof.
  induction n as [|n IH]; intros k raw offset max out so HB HO Ho Hs Hz Hn Hs5; [lia|]. cbn [dname_loop].
  destruct (_ || _) eqn:E1; [exact Logic.I|]. destruct (rd raw offset) as [len| |f] eqn:R; cbn [bind]; [|exact Logic.I|].
  2: { unfold rd in R. destruct (zget raw offset) eqn:G; [discriminate|]. apply zget_none in G. lia. }
  apply rd_Ok_inv in R. pose proof (zget_bytes _ _ _ HB R) as Hb. destruct (Z.ltb_spec 63 len); [exact Logic.I|].
  destruct (wr_grow out so len ltac:(lia)) as (out1 & -> & Z1 & L1 & G1 & _ & B1). cbn [bind]. specialize (B1 HO Hb). unfold byte in Hb. destruct (Z.eqb_spec len 0) as [->|N0].
  - split; [exact Z1|]. split; [exact B1|]. exists []. cbn [wire]. change (zlen [0]) with 1. split; [constructor|]. split; [constructor|]. split; [lia|]. split; [lia|]. split; [lia|]. split; [change (zlen (@nil (list Z))) with 0; lia|]. split; [apply zslice_one; exact R|exact G1].
  - pose proof (dname_label_sound (Z.to_nat len) raw offset max out1 so HB B1 Ho Hs ltac:(lia) ltac:(lia)) as HL. destruct (dname_label (Z.to_nat len) raw offset max out1 so) as [((o' & out') & so')| |f]; cbn [bind]; [|exact Logic.I|exact HL].
    destruct HL as (-> & -> & H5 & Hm & Z2 & B2 & l & Ll & Bl & Pl & Rl & Ol). rewrite Z2Nat.id in * by lia. specialize (Hm ltac:(lia)).
    specialize (IH (k + 1) raw (offset + len + 1) max out' (so + len + 1) HB B2 ltac:(lia) ltac:(lia) ltac:(lia) ltac:(lia) ltac:(lia)).
    destruct (dname_loop n (k + 1) raw (offset + len + 1) max out' (so + len + 1)) as [((out2 & so2) & k2)| |f]; [|exact Logic.I|exact IH].
    destruct IH as (Z3 & B3 & nm & Gn & Pn & Sn & S5 & On & Kn & Rn & Wn). split; [lia|]. split; [exact B3|]. exists (l :: nm). cbn [wire]. rewrite !zlen_cons, zlen_app.
    split; [constructor; [split; [lia|exact Bl]|exact Gn]|]. split; [constructor; assumption|]. split; [lia|]. split; [lia|]. split; [lia|]. split; [lia|].
    pose proof (zlen_nonneg (wire nm)). split.
    + rewrite (zslice_step _ _ _ len) by (try assumption; lia). rewrite Ll. f_equal. rewrite zslice_split by lia. rewrite <- Ll at 1. rewrite Rl. replace (offset + 1 + len) with (offset + len + 1) by lia. rewrite Rn. reflexivity.
    + rewrite Wn, Ol, G1. rewrite Ll, <- !app_assoc. reflexivity.
Qed.

Lemma dname_label_complete l : forall raw offset max out so, bytes raw -> 0 <= offset -> 0 <= so -> 256 < zlen out -> Forall (fun b => 32 <= b) l ->
  zslice raw (offset + 1) (zlen l) = l -> offset + zlen l < max - 2 -> so + zlen l <= 255 ->
  exists out', dname_label (length l) raw offset max out so = Ok (offset + zlen l, out', so + zlen l).
Proof.
  induction l as [|b l IH]; intros raw offset max out so HB Ho Hs Hz Pl Rl Hm H5; cbn [length dname_label].
  - change (zlen (@nil Z)) with 0. rewrite !Z.add_0_r. eauto.
  - rewrite zlen_cons in *. pose proof (zlen_nonneg l). inversion Pl as [|x y Hb Pl']; subst. replace ((max - 2 <=? offset + 1) || (255 <? so + 1)) with false by lia.
    assert (zget raw (offset + 1) = Some b) as G. { rewrite <- (Z.add_0_r (offset + 1)). rewrite <- (zget_zslice raw (offset + 1) (zlen l + 1) 0) by lia. rewrite Rl. reflexivity. }
    rewrite (rd_of_zget _ _ _ G). cbn [bind]. destruct (wr_grow out (so + 1) b ltac:(lia)) as (out1 & -> & Z1 & _). cbn [bind]. replace (b <? 32) with false by lia.
    rewrite (zslice_step _ _ _ b) in Rl by (try assumption; lia). injection Rl as Rl.
    destruct (IH raw (offset + 1) max out1 (so + 1) HB ltac:(lia) ltac:(lia) ltac:(lia) Pl' Rl ltac:(lia) ltac:(lia)) as (out' & E). exists out'. rewrite E. f_equal. f_equal; [f_equal|]; lia.
Qed.
Lemma dname_label_zlen n : forall raw o mx o1 s x o' y, dname_label n raw o mx o1 s = Ok (x, o', y) -> zlen o' = zlen o1.
Proof.
  induction n as [|n IH]; intros raw o mx o1 s x o' y EL; cbn [dname_label] in EL; [congruence|].
  destruct (_ || _); [discriminate|]. bok EL b Eb. bok EL o2 Ew. destruct (b <? 32); [discriminate|]. apply IH in EL. rewrite EL. unfold wr in Ew. destruct (_ && _); [|discriminate]. injection Ew as <-. apply zlen_zupd.
Qed.
Lemma dname_loop_complete nm : forall n k raw offset max out so, bytes raw -> 0 <= offset -> 0 <= so -> 256 < zlen out -> good_name nm -> printable nm ->
  (length nm < n)%nat -> so + zlen (wire nm) <= 256 -> offset + zlen (wire nm) <= max - 2 -> zslice raw offset (zlen (wire nm)) = wire nm ->
  exists out' so', dname_loop n k raw offset max out so = Ok (out', so', k + zlen nm).
Proof.
  induction nm as [|l nm IH]; intros n k raw offset max out so HB Ho Hs Hz G P Hn Hsz Hm R; (destruct n as [|n]; [cbn [length] in Hn; lia|]); cbn [dname_loop wire] in *.
  - change (zlen [0]) with 1 in *. replace ((max - 2 <=? offset) || (255 <? so)) with false by lia.
    assert (zget raw offset = Some 0) as G0. { rewrite <- (Z.add_0_r offset). rewrite <- (zget_zslice raw offset 1 0) by lia. rewrite R. reflexivity. }
    rewrite (rd_of_zget _ _ _ G0). cbn [bind]. change (63 <? 0) with false. cbv iota. destruct (wr_grow out so 0 ltac:(lia)) as (out1 & -> & Z1 & _). cbn [bind]. change (0 =? 0) with true. cbv iota. change (zlen (@nil (list Z))) with 0. rewrite Z.add_0_r. eauto.
  - rewrite !zlen_cons, zlen_app in *. pose proof (zlen_wire_pos nm). inversion G as [|? ? (Hl & Bl) G']; subst. inversion P as [|? ? Pl P']; subst. replace ((max - 2 <=? offset) || (255 <? so)) with false by lia.
    assert (zget raw offset = Some (zlen l)) as G0. { rewrite <- (Z.add_0_r offset). rewrite <- (zget_zslice raw offset (zlen l + zlen (wire nm) + 1) 0) by lia. rewrite R. reflexivity. }
    rewrite (rd_of_zget _ _ _ G0). cbn [bind]. replace (63 <? zlen l) with false by lia. destruct (wr_grow out so (zlen l) ltac:(lia)) as (out1 & -> & Z1 & L1 & G1 & _ & B1). cbn [bind]. replace (zlen l =? 0) with false by lia.
    rewrite (zslice_step _ _ _ (zlen l)) in R by (try assumption; lia). injection R as R. rewrite zslice_split in R by lia.
    assert (zlen (zslice raw (offset + 1) (zlen l)) = zlen l) as Hzl.
    { unfold zlen, zslice in *. apply (f_equal (@length _)) in R. rewrite !app_length, !firstn_length, !skipn_length in R. rewrite firstn_length, skipn_length. lia. }
    apply app_inj_len in R as [R1 R2]; [|apply Nat2Z.inj; exact Hzl].
    replace (Z.to_nat (zlen l)) with (length l) by (unfold zlen; lia).
    destruct (dname_label_complete l raw offset max out1 so HB Ho Hs ltac:(lia) Pl R1 ltac:(lia) ltac:(lia)) as (out' & EL).
    assert (zlen out' = zlen out1) as Hz' by exact (dname_label_zlen _ _ _ _ _ _ _ _ _ EL).
    rewrite EL. cbn [bind]. cbn [length] in Hn. replace (offset + zlen l + 1) with (offset + 1 + zlen l) by lia.
    destruct (IH n (k + 1) raw (offset + 1 + zlen l) max out' (so + zlen l + 1) HB ltac:(lia) ltac:(lia) ltac:(lia) G' P' ltac:(lia) ltac:(lia) ltac:(lia) R2) as (out2 & so2 & E2).
    exists out2, so2. rewrite E2. f_equal. f_equal. lia.
Qed.

Lemma zlen_name_le n : good_name n -> 2 * zlen n + 1 <= zlen (wire n).
Proof. induction 1 as [|l n (Hl & _) _ IH]; cbn [wire]; rewrite ?zlen_cons, ?zlen_app, ?zlen_cons; [change (zlen (@nil (list Z))) with 0; change (zlen (@nil Z)) with 0|]; lia. Qed.
Definition dname_size (max : Z) : Z := if 260 <? max then max else 260.
Lemma get_dname_sound J raw offset max : junk_ok J -> bytes raw -> 0 <= offset -> max < 134217728 ->
  match dw_get_dname J raw offset max with
  | Ok (s, k) => dok s /\ d_max s = dname_size max /\ d_len s + 3 < zlen (d_mem s) /\ exists n, query_name_at raw offset max n /\ con s = wire n /\ k = zlen n
  | Fail => True
  | Bad _ => zlen raw < max - 2
  end.
Proof.
  intros HJ HB Ho Hm. unfold dw_get_dname. fold (dname_size max). assert (260 <= dname_size max < 134217728) as Hsz by (unfold dname_size; destruct (Z.ltb_spec 260 max); lia).
  destruct (dw_create_ok J (dname_size max) HJ ltac:(lia)) as (s0 & -> & [B0 L0 M0 Z0] & E0 & X0).
  pose proof (dname_loop_sound 400 0 raw offset max (d_mem s0) 0 HB B0 Ho ltac:(lia) ltac:(lia) ltac:(lia) ltac:(lia)) as HL.
  destruct (dname_loop 400 0 raw offset max (d_mem s0) 0) as [((out & so) & k)| |f]; cbn [bind]; [|exact Logic.I|exact HL].
  destruct HL as (Z1 & B1 & n & G & P & S & S5 & O & K & R & W). pose proof (zlen_wire_pos n).
  split; [split; [constructor; cbn [d_mem d_len d_max]; [exact B1|lia|lia|lia]|cbn [d_mem d_len d_max]; lia]|]. cbn [d_mem d_len d_max]. split; [exact X0|]. split; [lia|]. exists n. split; [|split; [exact W|lia]].
  split; [exact G|]. split; [exact P|]. split; [lia|]. split; [exact O|exact R].
Qed.
Lemma get_dname_complete J raw offset max n : junk_ok J -> bytes raw -> 0 <= offset -> max < 134217728 -> query_name_at raw offset max n -> exists s, dw_get_dname J raw offset max = Ok (s, zlen n).
Proof.
  intros HJ HB Ho Hm (G & P & S & O & R). unfold dw_get_dname. fold (dname_size max). assert (260 <= dname_size max < 134217728) as Hsz by (unfold dname_size; destruct (Z.ltb_spec 260 max); lia).
  destruct (dw_create_ok J (dname_size max) HJ ltac:(lia)) as (s0 & -> & [B0 L0 M0 Z0] & E0 & X0). pose proof (zlen_name_le n G) as Hn.
  destruct (dname_loop_complete n 400 0 raw offset max (d_mem s0) 0 HB Ho ltac:(lia) ltac:(lia) G P ltac:(unfold zlen in *; lia) ltac:(lia) O R) as (out & so & ->). cbn [bind]. eauto.
Qed.

(** *** dw_get_dname_type *)
Lemma wire_inj_prefix a : forall b x y, good_name a -> good_name b -> wire a ++ x = wire b ++ y -> a = b /\ x = y.
Proof.
  induction a as [|l a IH]; intros [|m b] x y Ha Hb E; cbn [wire app] in E.
  - injection E as ->. auto.
  - injection E as E0 _. inversion Hb as [|? ? (Hm & _) _]; subst. lia.
  - injection E as E0 _. inversion Ha as [|? ? (Hm & _) _]; subst. lia.
  - injection E as E0 E. rewrite <- !app_assoc in E. apply app_inj_len in E as [-> E]; [|unfold zlen in E0; lia]. inversion Ha; subst. inversion Hb; subst. apply IH in E as [-> ->]; auto.
Qed.
Lemma query_name_unique raw offset max n n' : query_name_at raw offset max n -> query_name_at raw offset max n' -> n = n'.
Proof.
  intros (G & _ & _ & _ & R) (G' & _ & _ & _ & R').
  apply (wire_inj_prefix n n' (skipn (Z.to_nat (zlen (wire n))) (skipn (Z.to_nat offset) raw)) (skipn (Z.to_nat (zlen (wire n'))) (skipn (Z.to_nat offset) raw)) G G').
  rewrite <- R at 1. rewrite <- R' at 1. unfold zslice. rewrite !firstn_skipn. reflexivity.
Qed.
Lemma private_type b0 b1 : byte b0 -> byte b1 -> (b0 =? 255) && (Z.land b1 240 =? 112) = (65392 <=? b0 * 256 + b1) && (b0 * 256 + b1 <=? 65407).
Proof.
  intros H0 H1. assert ((Z.land b1 240 =? 112) = (112 <=? b1) && (b1 <=? 127)) as ->.
  { revert b1 H1. apply (byte_bool (fun b1 => Z.land b1 240 =? 112) (fun b1 => (112 <=? b1) && (b1 <=? 127))). vm_compute. reflexivity. }
  unfold byte in *. lia.
Qed.
Lemma get_dname_type_spec J raw offset max : junk_ok J -> bytes raw -> 0 <= offset -> max < 134217728 ->
  match dw_get_dname_type J raw offset max with
  | Ok s => dok s /\ d_max s = dname_size max /\ exists n b0 b1, query_name_at raw offset max n /\ zslice raw (offset + zlen (wire n)) 2 = [b0; b1] /\ con s = wire n ++ [b0; b1] /\
      ~ 65392 <= b0 * 256 + b1 <= 65407
  | Fail => forall n b0 b1, query_name_at raw offset max n -> zslice raw (offset + zlen (wire n)) 2 = [b0; b1] -> 65392 <= b0 * 256 + b1 <= 65407
  | Bad _ => zlen raw < max
  end.
Proof.
  intros HJ HB Ho Hm. unfold dw_get_dname_type. pose proof (get_dname_sound J raw offset max HJ HB Ho Hm) as HS. pose proof (fun n => get_dname_complete J raw offset max n HJ HB Ho Hm) as HC.
  destruct (dw_get_dname J raw offset max) as [(s & k)| |f] eqn:E; cbn [bind].
  2: { intros n b0 b1 Hn _. destruct (HC n Hn) as (s & Hs). discriminate. }
  2: lia.
  destruct HS as (D & M & Zm & n & Hn & C & K). pose proof (zlen_con s (proj1 D)) as Lc. rewrite C in Lc. pose proof Hn as (G & P & S & O & R). pose proof (zlen_wire_pos n) as Hp.
  destruct (rd raw (offset + d_len s)) as [b0| |f] eqn:R0; cbn [bind]; [|exfalso; apply (rd_not_Fail _ _ R0)|].
  2: { unfold rd in R0. destruct (zget raw (offset + d_len s)) eqn:G0; [discriminate|]. apply zget_none in G0. lia. }
  destruct (rd raw (offset + d_len s + 1)) as [b1| |f] eqn:R1; cbn [bind]; [|exfalso; apply (rd_not_Fail _ _ R1)|].
  2: { unfold rd in R1. destruct (zget raw (offset + d_len s + 1)) eqn:G1; [discriminate|]. apply zget_none in G1. lia. }
  apply rd_Ok_inv in R0, R1. pose proof (zget_bytes _ _ _ HB R0) as B0. pose proof (zget_bytes _ _ _ HB R1) as B1. rewrite private_type by assumption.
  assert (zslice raw (offset + zlen (wire n)) 2 = [b0; b1]) as Hsl.
  { change 2 with (1 + 1). rewrite Lc, (zslice_step _ _ _ b0), (zslice_one _ _ b1) by (try assumption; lia). reflexivity. }
  destruct (_ && _) eqn:EP.
  - intros n' c0 c1 Hn' Hs'. destruct (HC n' Hn') as (s' & Es'). injection Es' as <- ->.
    assert (n' = n) as ->; [|rewrite Hsl in Hs'; injection Hs' as <- <-; lia].
    exact (query_name_unique _ _ _ _ _ Hn' Hn).
  - destruct D as (D & Dm). destruct D as [DB DL DM DZ]. destruct (wr_grow (d_mem s) (d_len s) b0 ltac:(lia)) as (m1 & -> & Z1 & _ & G1 & _ & BB1). cbn [bind].
    destruct (wr_grow m1 (d_len s + 1) b1 ltac:(lia)) as (m2 & -> & Z2 & _ & G2 & _ & BB2). cbn [bind]. assert (260 <= dname_size max) by (unfold dname_size; destruct (Z.ltb_spec 260 max); lia).
    split; [split; [constructor; cbn [d_mem d_len d_max]; [auto|lia|lia|lia]|cbn [d_mem d_len d_max]; lia]|]. split; [exact M|]. exists n, b0, b1. split; [exact Hn|]. split; [exact Hsl|]. split; [|lia].
    unfold con at 1. cbn [d_mem d_len]. replace (d_len s + 2) with (d_len s + 1 + 1) by lia. rewrite G2, G1. fold (con s). rewrite C, <- app_assoc. reflexivity.
Qed.

(** *** dw_dnsname_convert *)
Lemma wr_at_mid (pre : list Z) x post v : wr (pre ++ x :: post) (zlen pre) v = Ok (pre ++ v :: post).
Proof.
  rewrite wr_ok.
  - f_equal. unfold zupd. pose proof (zlen_nonneg pre). replace (zlen pre <? 0) with false by lia. unfold zlen. rewrite Nat2Z.id. clear. induction pre as [|y pre IH]; cbn [app length upd_nat]; [reflexivity|]. rewrite IH. reflexivity.
  - rewrite zlen_app, zlen_cons. pose proof (zlen_nonneg pre). pose proof (zlen_nonneg post). lia.
Qed.
(** The labels of a text in which each ends in a dot, and what follows the last dot. *)
Fixpoint cut (cur rest : list Z) : option (list (list Z) * list Z) :=
  match rest with
  | [] => Some ([], cur)
  | b :: rest =>
      if b =? 46 then if zlen cur <=? 0 then None else match cut [] rest with Some (n, l) => Some (cur :: n, l) | None => None end
      else if 63 <? zlen cur + 1 then None else cut (cur ++ [b]) rest
  end.
Lemma wirel_app a b : wirel (a ++ b) = wirel a ++ wirel b.
Proof. induction a as [|l a IH]; cbn [app wirel]; [reflexivity|]. rewrite IH, app_assoc. reflexivity. Qed.
Lemma convert_loop_ok rest : forall inp pre D x cur r max, con inp = pre ++ rest -> dwf inp -> zlen pre + zlen rest + 2 < max -> zlen rest <= zlen r ->
  zlen (wirel D) + zlen cur = zlen pre -> zlen cur <= 63 ->
  match convert_loop (length rest) inp (wirel D ++ x :: cur ++ r) max (zlen pre) (zlen (wirel D)) (zlen cur) with
  | Ok out => exists n l x' r', cut cur rest = Some (n, l) /\ out = wirel (D ++ n) ++ x' :: l ++ r' /\ zlen out = zlen (wirel D ++ x :: cur ++ r) /\ (bytes (wirel D ++ x :: cur ++ r) -> bytes out)
  | Fail => cut cur rest = None
  | Bad _ => False
  end.
Proof.
  induction rest as [|b rest IH]; intros inp pre D x cur r max C W Hm Hr Hp Hc; cbn [length convert_loop cut].
  - exists [], cur, x, r. rewrite app_nil_r. split; [reflexivity|]. auto.
  - unfold delim_convert. rewrite zlen_cons in *. pose proof (zlen_nonneg rest). pose proof (zlen_nonneg pre). pose proof (zlen_nonneg cur). pose proof (zlen_nonneg (wirel D)).
    pose proof (zlen_con inp W) as Lc. rewrite C, zlen_app, zlen_cons in Lc. assert (rd (d_mem inp) (zlen pre) = Ok b) as -> by (rewrite rd_con by (auto; lia); rewrite C; apply rd_of_zget; rewrite zget_app_r, Z.sub_diag by lia; reflexivity). cbn [bind].
    destruct r as [|y r]; [change (zlen (@nil Z)) with 0 in Hr; lia|]. rewrite zlen_cons in Hr.
    assert (forall x0 b0, wr (wirel D ++ x0 :: cur ++ y :: r) (zlen pre + 1) b0 = Ok (wirel D ++ x0 :: cur ++ b0 :: r)) as Hwr.
    { intros x0 b0. replace (wirel D ++ x0 :: cur ++ y :: r) with ((wirel D ++ x0 :: cur) ++ y :: r) by (rewrite <- app_assoc; reflexivity). replace (zlen pre + 1) with (zlen (wirel D ++ x0 :: cur)) by (rewrite zlen_app, zlen_cons; lia). rewrite wr_at_mid. rewrite <- app_assoc. reflexivity. }
    destruct (Z.eqb_spec b 46) as [->|Nb].
    + destruct (Z.leb_spec (zlen cur) 0) as [Hc0|Hc0]; cbn [bind]; [reflexivity|]. replace (zlen (wirel D) <? max) with true by lia. rewrite wr_at_mid. cbn [bind]. replace (zlen pre + 1 <? max) with true by lia.
      unfold u8. rewrite (Z.mod_small (zlen cur)) by lia. rewrite Hwr. cbn [bind]. change (-1 + 1) with 0. change (63 <? 0) with false. cbn [bind].
      specialize (IH inp (pre ++ [46]) (D ++ [cur]) 46 [] r max). rewrite wirel_app in IH. cbn [wirel] in IH. rewrite app_nil_r in IH.
      assert (zlen (wirel D ++ zlen cur :: cur) = zlen pre + 1) as L1 by (rewrite zlen_app, zlen_cons; lia). assert (zlen (pre ++ [46]) = zlen pre + 1) as L2 by (rewrite zlen_app; reflexivity). rewrite L1, L2 in IH. change (zlen (@nil Z)) with 0 in IH.
      specialize (IH ltac:(rewrite <- app_assoc; exact C) W ltac:(lia) ltac:(lia) ltac:(lia) ltac:(lia)).
      cbn [app] in IH. replace ((wirel D ++ zlen cur :: cur) ++ 46 :: r) with (wirel D ++ zlen cur :: cur ++ 46 :: r) in IH by (rewrite <- app_assoc; reflexivity).
      destruct (convert_loop _ _ _ _ _ _ _) as [out| |f]; [|rewrite IH; reflexivity|exact IH]. destruct IH as (n & l & x' & r' & -> & -> & Z1 & BB). exists (cur :: n), l, x', r'. split; [reflexivity|]. rewrite <- app_assoc in *. cbn [app] in *. split; [reflexivity|]. split; [rewrite Z1; repeat (rewrite ?zlen_app, ?zlen_cons); reflexivity|]. intros HB. apply BB. apply bytes_app in HB as [HB1 HB2]. inversion HB2 as [|? ? HBx HB3]; subst. apply bytes_app in HB3 as [HB3 HB4]. inversion HB4; subst. apply bytes_app. split; [exact HB1|]. constructor; [unfold byte; lia|]. apply bytes_app. split; [exact HB3|]. constructor; [unfold byte; lia|assumption].
    + cbn [bind]. replace (zlen pre + 1 <? max) with true by lia. rewrite Hwr. cbn [bind]. destruct (Z.ltb_spec 63 (zlen cur + 1)) as [H64|H64]; cbn [bind]; [reflexivity|].
      specialize (IH inp (pre ++ [b]) D x (cur ++ [b]) r max). rewrite !zlen_app in IH. change (zlen [b]) with 1 in IH. specialize (IH ltac:(rewrite <- app_assoc; exact C) W ltac:(lia) ltac:(lia) ltac:(lia) ltac:(lia)).
      rewrite <- app_assoc in IH. cbn [app] in IH. destruct (convert_loop _ _ _ _ _ _ _) as [out| |f]; [|exact IH|exact IH]. destruct IH as (n & l & x' & r' & E & -> & Z1 & BB). exists n, l, x', r'. split; [exact E|]. split; [reflexivity|]. split; [rewrite Z1; repeat (rewrite ?zlen_app, ?zlen_cons); reflexivity|]. intros HB. apply BB. apply bytes_app in HB as [HB1 HB2]. inversion HB2 as [|? ? HBx HB3]; subst. apply bytes_app in HB3 as [HB3 HB4]. inversion HB4; subst. apply bytes_app. split; [exact HB1|]. constructor; [assumption|]. apply bytes_app. split; [exact HB3|]. constructor; [|assumption]. assert (bytes (con inp)) as HBc by (unfold con; apply bytes_zslice, W). rewrite C in HBc. apply bytes_app in HBc as [_ HBc]. inversion HBc; assumption.
Qed.
Lemma cut_sound rest : forall cur n l, cut cur rest = Some (n, l) -> bytes (cur ++ rest) -> zlen cur <= 63 -> Forall (fun b => b <> 46) cur ->
  cur ++ rest = concat (map (fun l => l ++ [46]) n) ++ l /\ good_name n /\ dotless n /\ Forall (fun b => b <> 46) l.
Proof.
  induction rest as [|b rest IH]; intros cur n l E B Hc Hd; cbn [cut] in E.
  - injection E as <- <-. rewrite app_nil_r. cbn [map concat app]. split; [reflexivity|]. split; [constructor|]. split; [constructor|exact Hd].
  - apply bytes_app in B as [B1 B2]. inversion B2 as [|? ? Hb B3]; subst. destruct (Z.eqb_spec b 46) as [->|Nb].
    + destruct (Z.leb_spec (zlen cur) 0); [discriminate|]. destruct (cut [] rest) as [(n' & l')|] eqn:E'; [|discriminate]. injection E as <- <-.
      destruct (IH [] n' l' E' B3 ltac:(change (zlen (@nil Z)) with 0; lia) ltac:(constructor)) as (Er & G & Dn & Dl). cbn [app] in Er. cbn [map concat]. rewrite Er. split; [rewrite <- !app_assoc; reflexivity|].
      split; [constructor; [split; [lia|exact B1]|exact G]|]. split; [constructor; assumption|exact Dl].
    + destruct (Z.ltb_spec 63 (zlen cur + 1)); [discriminate|]. apply IH in E.
      * rewrite <- app_assoc in E. exact E.
      * rewrite <- app_assoc. apply bytes_app. split; [exact B1|exact B2].
      * rewrite zlen_app. change (zlen [b]) with 1. lia.
      * apply Forall_app. split; [exact Hd|]. constructor; [exact Nb|constructor].
Qed.
Lemma cut_label l : forall cur rest, Forall (fun b => b <> 46) l -> zlen (cur ++ l) <= 63 -> cut cur (l ++ rest) = cut (cur ++ l) rest.
Proof.
  induction l as [|b l IH]; intros cur rest Hd Hl; cbn [app]; [rewrite app_nil_r; reflexivity|]. cbn [cut]. inversion Hd; subst. replace (b =? 46) with false by lia.
  rewrite zlen_app, zlen_cons in Hl. pose proof (zlen_nonneg l). replace (63 <? zlen cur + 1) with false by lia. rewrite IH by (try assumption; repeat rewrite ?zlen_app, ?zlen_cons, ?zlen_nil; change (zlen [b]) with 1; lia). rewrite <- app_assoc. reflexivity.
Qed.
Lemma cut_complete n : good_name n -> dotless n -> cut [] (concat (map (fun l => l ++ [46]) n)) = Some (n, []).
Proof.
  induction 1 as [|l n (Hl & _) G IH]; intros D; cbn [map concat]; [reflexivity|]. inversion D; subst. rewrite <- app_assoc. rewrite cut_label by (cbn [app]; auto; lia). cbn [app cut]. change (46 =? 46) with true. cbv iota. replace (zlen l <=? 0) with false by lia. rewrite IH by assumption. reflexivity.
Qed.
Lemma last_dot (s : list Z) n l : s <> [] -> zget s (zlen s - 1) = Some 46 -> s = concat (map (fun l => l ++ [46]) n) ++ l -> Forall (fun b => b <> 46) l -> l = [].
Proof.
  intros Hs G -> Hl. destruct l as [|b l _] using rev_ind; [reflexivity|]. exfalso. rewrite app_assoc, zlen_app in G. change (zlen [b]) with 1 in G. rewrite zget_app_r in G by lia.
  replace (_ + 1 - 1 - _) with 0 in G by lia. injection G as ->. apply Forall_app in Hl as [_ Hl]. inversion Hl. congruence.
Qed.
Lemma convert_ok J inp : junk_ok J -> dok inp -> d_len inp < 134217000 ->
  match dw_dnsname_convert J inp with
  | Ok s => dok s /\ exists n, good_name n /\ dotless n /\ con inp = text n /\ con s = wire n
  | Fail => forall n, good_name n -> dotless n -> con inp <> text n
  | Bad _ => False
  end.
Proof.
  intros HJ D Hd. unfold dw_dnsname_convert. pose proof D as (W & Hlt). rewrite dok_sane by exact D. cbn [negb]. unfold dw_ends_in_dot. pose proof (zlen_con inp W) as Lc. pose proof (zlen_nonneg (con inp)) as Hnn.
  assert (bytes (con inp)) as HBc by (unfold con; apply bytes_zslice, W).
  assert (forall n, con inp = text n -> 1 <= d_len inp /\ rd (d_mem inp) (d_len inp - 1) = Ok 46) as Htext.
  { intros n E. assert (exists t, text n = t ++ [46]) as (t & Et).
    { destruct n as [|l n]; [exists []; reflexivity|]. cbn [text]. destruct (@exists_last _ (l :: n) ltac:(discriminate)) as (n0 & l0 & ->). rewrite map_app, concat_app. cbn [map concat]. rewrite app_nil_r, app_assoc. eauto. }
    rewrite E, Et, zlen_app in Lc. change (zlen [46]) with 1 in Lc. pose proof (zlen_nonneg t). split; [lia|]. rewrite rd_con by (auto; lia). rewrite E, Et. apply rd_of_zget. rewrite zget_app_r by lia. replace (d_len inp - 1 - zlen t) with 0 by lia. reflexivity. }
  destruct (Z.ltb_spec (d_len inp) 1) as [H0|H0]; cbn [bind negb]; [intros n _ _ E; destruct (Htext n E); lia|].
  destruct (rd_ok (con inp) (d_len inp - 1) ltac:(lia)) as (b & Rb & Gb). rewrite rd_con by (auto; lia). rewrite Rb. cbn [bind]. destruct (Z.eqb_spec b 46) as [->|Nb]; cbn [negb].
  2: { intros n _ _ E. destruct (Htext n E) as (_ & R). rewrite rd_con in R by (auto; lia). congruence. }
  destruct (dw_create_ok J (d_len inp + 4) HJ ltac:(lia)) as (out & -> & [Bo Lo Mo Zo] & E0 & X0).
  destruct (con inp) as [|first rest] eqn:EC; [change (zlen (@nil Z)) with 0 in Lc; lia|].
  assert (rd (d_mem inp) 0 = Ok first) as -> by (rewrite rd_con by (auto; lia); rewrite EC; reflexivity). cbn [bind]. destruct (Z.eqb_spec first 46) as [->|Nf].
  - destruct (Z.eqb_spec (d_len inp) 1) as [E1|E1]; cbn [negb].
    + replace (1 <? d_max out) with true by lia. destruct (wr_grow (d_mem out) 0 0 ltac:(lia)) as (m1 & -> & Z1 & _ & G1 & _ & B1). cbn [bind]. split; [split; [constructor; cbn [d_mem d_len d_max]; [apply B1; [exact Bo|unfold byte; lia]|lia|lia|lia]|cbn [d_len d_max]; lia]|].
      exists []. split; [constructor|]. split; [constructor|]. split; [|unfold con; cbn [d_mem d_len]; change (0 + 1) with 1 in G1; rewrite G1; reflexivity].
      destruct rest; [reflexivity|]. rewrite !zlen_cons in Lc. pose proof (zlen_nonneg rest). lia.
    + intros n G Dn E. destruct n as [|l n]; [cbn [text] in E; injection E as ->; change (zlen [46]) with 1 in Lc; lia|]. cbn [text map concat] in E. inversion G as [|? ? (Hl & _) _]; subst. inversion Dn as [|? ? Dl _]; subst. destruct l as [|y l]; [change (zlen (@nil Z)) with 0 in Hl; lia|].
      injection E as <- _. inversion Dl. congruence.
  - rewrite <- EC in *. assert (exists x r, d_mem out = x :: r /\ zlen (con inp) <= zlen r /\ zlen (con inp) + 1 <= zlen r) as (x & r & Em & Hr & Hr').
    { destruct (d_mem out) as [|x r]; [change (zlen (@nil Z)) with 0 in Zo; lia|]. rewrite zlen_cons in Zo. exists x, r. split; [reflexivity|]. lia. }
    pose proof (convert_loop_ok (con inp) inp [] [] x [] r (d_max out) eq_refl W ltac:(change (zlen (@nil Z)) with 0; lia) Hr eq_refl ltac:(change (zlen (@nil Z)) with 0; lia)) as HL.
    cbn [wirel app] in HL. change (zlen (@nil Z)) with 0 in HL. rewrite <- Em in HL.  replace (length (con inp)) with (Z.to_nat (d_len inp)) in HL by (unfold zlen in Lc; lia).
    destruct (convert_loop _ _ _ _ _ _ _) as [m| |f]; cbn [bind]; [| |exact HL].
    + destruct HL as (n & l & x' & r' & Ec & Eo & Zm & Bm). destruct (cut_sound (con inp) [] n l Ec HBc ltac:(change (zlen (@nil Z)) with 0; lia) ltac:(constructor)) as (Et & G & Dn & Dl). cbn [app] in Et.
      assert (l = []) as ->. { apply (last_dot (con inp) n l); [rewrite EC; discriminate|rewrite Lc; exact Gb|exact Et|exact Dl]. }
      rewrite app_nil_r in Et. cbn [app] in Eo. assert (zlen (wirel n) = d_len inp) as Lw.
      { rewrite <- Lc, Et. clear. induction n as [|l n IH]; cbn [wirel map concat]; [reflexivity|]. rewrite zlen_cons, !zlen_app, IH. change (zlen [46]) with 1. lia. }
      replace (d_len inp + 1 - 1 <? d_max out) with true by lia. rewrite Eo. replace (d_len inp + 1 - 1) with (zlen (wirel n)) by lia. rewrite wr_at_mid. cbn [bind].
      assert (zlen (wirel n ++ 0 :: r') = zlen (d_mem out)) as Zf by (rewrite <- Zm, Eo; repeat rewrite ?zlen_app, ?zlen_cons; lia).
      split.
      * split; [constructor; cbn [d_mem d_len d_max]|cbn [d_len d_max]; lia]; [|lia|lia|lia].
        specialize (Bm Bo). rewrite Eo in Bm. apply bytes_app in Bm as [Bm1 Bm2]. apply bytes_app. split; [exact Bm1|]. inversion Bm2; subst. constructor; [unfold byte; lia|assumption].
      * exists n. split; [exact G|]. split; [exact Dn|]. split; [destruct n as [|l0 n]; [cbn [map concat] in Et; congruence|exact Et]|].
        unfold con. cbn [d_mem d_len]. replace (d_len inp + 1) with (zlen (wire n)) by (pose proof (zlen_wirel n); lia). rewrite wire_wirel. replace (wirel n ++ 0 :: r') with ((wirel n ++ [0]) ++ r') by (rewrite <- app_assoc; reflexivity). rewrite zslice_app_l by (try apply zlen_nonneg; lia). apply zslice_all.
    + intros n G Dn E. destruct n as [|l n]; [cbn [text] in E; rewrite EC in E; injection E as -> _; congruence|]. unfold text in E. rewrite E, (cut_complete _ G Dn) in HL. discriminate.
Qed.

(** *** dw_dnslabel_chop *)
Lemma chop_loop_ok n : forall inp a out max b, dwf inp -> bytes out -> 0 <= a <= d_len inp -> 0 <= b -> max + 1 <= zlen out -> b + (d_len inp - a) <= max -> d_len inp - a < Z.of_nat n ->
  exists out', chop_loop n inp a out max b = Ok (out', b + (d_len inp - a)) /\ zlen out' = zlen out /\ bytes out' /\ zslice out' 0 (b + (d_len inp - a)) = zslice out 0 b ++ zslice (d_mem inp) a (d_len inp - a).
Proof.
  induction n as [|n IH]; intros inp a out max b W B Ha Hb Hz Hm Hn; cbn [chop_loop]; [lia|]. pose proof W as [WB WL WM WZ].
  destruct (Z.ltb_spec a (d_len inp)) as [Hlt|Hge]; cbn [andb].
  - replace (b <? max) with true by lia. destruct (rd_byte (d_mem inp) a WB ltac:(lia)) as (x & -> & G & Hx). cbn [bind]. destruct (wr_grow out b x ltac:(lia)) as (o1 & -> & Z1 & _ & G1 & _ & B1). cbn [bind].
    destruct (IH inp (a + 1) o1 max (b + 1) W (B1 B Hx) ltac:(lia) ltac:(lia) ltac:(lia) ltac:(lia) ltac:(lia)) as (o2 & E & Z2 & B2 & S2). exists o2. replace (b + 1 + (d_len inp - (a + 1))) with (b + (d_len inp - a)) in * by lia.
    split; [exact E|]. split; [lia|]. split; [exact B2|]. rewrite S2, G1, <- app_assoc. f_equal. cbn [app]. replace (d_len inp - a) with (d_len inp - (a + 1) + 1) by lia. symmetry. apply zslice_step; [lia|lia|exact G].
  - replace (d_len inp - a) with 0 by lia. rewrite Z.add_0_r, zslice_nil, app_nil_r. exists out. auto.
Qed.
Lemma chop_ok J inp l n rest : junk_ok J -> dok inp -> good_label l -> con inp = wire (l :: n) ++ rest ->
  exists s, dw_dnslabel_chop J inp = Ok s /\ dok s /\ con s = wire n ++ rest.
Proof.
  intros HJ D (Hl & _) C. unfold dw_dnslabel_chop. pose proof D as (W & Hlt). pose proof W as [WB WL WM WZ]. rewrite dok_sane by exact D. cbn [negb]. pose proof (zlen_con inp W) as Lc. cbn [wire app] in C. rewrite <- app_assoc in C. pose proof (zlen_wire_pos n). pose proof (zlen_nonneg rest).
  assert (d_len inp = zlen l + zlen (wire n) + zlen rest + 1) as Ld by (rewrite <- Lc, C, zlen_cons, !zlen_app; lia). replace (d_len inp <? 2) with false by lia.
  assert (rd (d_mem inp) 0 = Ok (zlen l)) as -> by (rewrite rd_con by (auto; lia); rewrite C; reflexivity). cbn [bind]. replace ((zlen l <? 1) || (63 <? zlen l)) with false by lia. replace (d_len inp <? zlen l) with false by lia.
  destruct (dw_create_ok J (d_len inp - zlen l + 1) HJ ltac:(lia)) as (out & -> & [Bo Lo Mo Zo] & E0 & X0).
  destruct (chop_loop_ok (Z.to_nat (d_len inp + 1)) inp (zlen l + 1) (d_mem out) (d_max out) 0 W Bo ltac:(lia) ltac:(lia) ltac:(lia) ltac:(lia) ltac:(lia)) as (o & -> & Z1 & B1 & S1). cbn [bind].
  eexists. split; [reflexivity|]. split; [split; [constructor; cbn [d_mem d_len d_max]; [exact B1|lia|lia|lia]|cbn [d_len d_max]; lia]|]. unfold con. cbn [d_mem d_len]. rewrite S1, zslice_nil. cbn [app].
  rewrite zslice_con by (auto; lia). rewrite C. replace (zlen l :: l ++ wire n ++ rest) with ((zlen l :: l) ++ wire n ++ rest) by reflexivity. replace (zlen l + 1) with (zlen (zlen l :: l)) at 1 by (rewrite zlen_cons; lia).
  rewrite zslice_app_r by (rewrite ?zlen_cons, ?zlen_app; lia). rewrite Z.sub_diag. replace (d_len inp - (zlen l + 1)) with (zlen (wire n ++ rest)) by (rewrite zlen_app; lia). apply zslice_all.
Qed.
Lemma chop_safe J inp : junk_ok J -> dwf inp -> post dwf (dw_dnslabel_chop J inp).
Proof.
  intros HJ W. unfold dw_dnslabel_chop. destruct (negb _); [exact Logic.I|]. destruct (Z.ltb_spec (d_len inp) 2); [exact Logic.I|]. pose proof W as [WB WL WM WZ]. destruct (rd_byte (d_mem inp) 0 WB ltac:(lia)) as (x & -> & G & Hx). cbn [bind].
  destruct (_ || _) eqn:E1; [exact Logic.I|]. destruct (Z.ltb_spec (d_len inp) x); [exact Logic.I|]. destruct (Z.eq_dec (d_len inp - x + 1) 134217728); [lia|].
  destruct (dw_create_ok J (d_len inp - x + 1) HJ ltac:(lia)) as (out & -> & [Bo Lo Mo Zo] & E0 & X0). destruct (Z.eq_dec (d_len inp) x) as [Ex|Nx].
  - destruct (Z.to_nat (d_len inp + 1)) eqn:En; [lia|]. cbn [chop_loop]. replace (x + 1 <? d_len inp) with false by lia. cbn [andb bind]. constructor; cbn [d_mem d_len d_max]; [exact Bo|lia|lia|lia].
  - destruct (chop_loop_ok (Z.to_nat (d_len inp + 1)) inp (x + 1) (d_mem out) (d_max out) 0 W Bo ltac:(lia) ltac:(lia) ltac:(lia) ltac:(lia) ltac:(lia)) as (o & -> & Z1 & B1 & S1). cbn [bind]. constructor; cbn [d_mem d_len d_max]; [exact B1|lia|lia|lia].
Qed.
