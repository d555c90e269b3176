(** Proofs about the bounds of coLunacyDNS's buffers. *)
From Verif Require Import CBase SpecNames SpecAcl SpecDwStr ModelDwStr ModelColunacy SpecColunacy.
From Verif Require Import Bits ProofDwStr ProofDwDnsStr ProofColunacy ProofColunacyServe.

Lemma wr_len l i v : 0 <= i < zlen l -> exists l', wr l i v = Ok l' /\ zlen l' = zlen l.
Proof. intros H. exists (zupd l i v). rewrite wr_ok by assumption. split; [reflexivity|apply zlen_zupd]. Qed.
Ltac wr_step l i v L := let l' := fresh "m" in let E := fresh "E" in destruct (wr_len l i v) as (l' & E & L); [lia|rewrite E; cbn [bind]; clear E].
Ltac rd_step l i c := let E := fresh "E" in destruct (rd_ok l i) as (c & E & _); [lia|rewrite E; cbn [bind]; clear E].

Lemma hn_pointer_safe out max inp outp : max <= zlen out -> 0 <= outp -> exists r out', hn_pointer out max inp outp = Ok (r, out') /\ zlen out' = zlen out /\ (r = -1 \/ r = inp + 1).
Proof.
  intros L H. unfold hn_pointer. destruct (max <=? outp + 1) eqn:E; [exists (-1), out; auto|].
  wr_step out outp 42 L1. wr_step m (outp + 1) 0 L2. exists (inp + 1), m0. split; [reflexivity|]. split; [lia|auto].
Qed.
Lemma hn_octet_safe c out max outp : max <= zlen out -> 0 <= outp -> exists r, hn_octet c out max outp = Ok r /\ match r with None => True | Some (out', p) => zlen out' = zlen out /\ outp < p end.
Proof.
  intros L H. unfold hn_octet. destruct (is_safe c).
  - destruct (max <=? outp) eqn:E; [exists None; auto|]. wr_step out outp c L1. eexists. split; [reflexivity|]. cbv beta iota. split; [lia|lia].
  - destruct (max <=? outp + 5) eqn:E; [exists None; auto|]. wr_step out outp 123 L1. wr_step m (outp + 1) (hex_char (Z.land (Z.shiftr c 4) 15)) L2. wr_step m0 (outp + 2) (hex_char (Z.land c 15)) L3. wr_step m1 (outp + 3) 125 L4.
    eexists. split; [reflexivity|]. cbv beta iota. split; [lia|lia].
Qed.

(** Reads stay within [max + 2] octets from [base] on. *)
Lemma hn_loop_safe : forall fuel m base out max label inp outp,
  0 <= base -> base + max + 2 <= zlen m -> max <= zlen out -> 0 <= inp <= max + 1 -> 0 <= outp -> max - inp < Z.of_nat fuel -> (0 < fuel)%nat ->
  exists r out', hn_loop fuel m base out max label inp outp = Ok (r, out') /\ zlen out' = zlen out /\ (r = -1 \/ inp <= r <= max + 2).
Proof.
  induction fuel as [|fuel IH]; intros m base out max label inp outp B0 B1 B2 Hi Ho F0 F1; [lia|]. cbn [hn_loop].
  destruct (label <=? 0) eqn:E0.
  { destruct (max <=? outp) eqn:E1; [exists (-1), out; auto|]. wr_step out outp 0 L1. exists inp, m0. split; [reflexivity|]. split; [lia|right; lia]. }
  destruct ((max <=? inp) || (max <=? outp)) eqn:E1; [exists (-1), out; auto|]. apply orb_false_elim in E1 as (E1 & E2). cbv zeta.
  rd_step m (base + (inp + 1)) see. destruct (hn_octet_safe see out max outp B2 Ho) as ([(out1, p1)|] & E & X); rewrite E; cbn [bind]; [|exists (-1), out; auto]. destruct X as (X1 & X2).
  destruct (label - 1 =? 0) eqn:E3.
  - rd_step m (base + (inp + 1 + 1)) lab. destruct (64 <=? lab) eqn:E4.
    + destruct (hn_pointer_safe out1 max (inp + 1 + 1) p1 ltac:(lia) ltac:(lia)) as (r & o & E5 & L5 & R5). exists r, o. split; [exact E5|]. split; [lia|]. lia.
    + destruct (max <=? p1) eqn:E5; [exists (-1), out1; auto|]. wr_step out1 p1 46 L1.
      destruct (IH m base m0 max lab (inp + 1 + 1) (p1 + 1)) as (r & o & E6 & L6 & R6); [lia|lia|lia|lia|lia|lia|lia|]. exists r, o. split; [exact E6|]. split; [lia|]. lia.
  - destruct (IH m base out1 max (label - 1) (inp + 1) p1) as (r & o & E6 & L6 & R6); [lia|lia|lia|lia|lia|lia|lia|]. exists r, o. split; [exact E6|]. split; [lia|]. lia.
Qed.
Lemma humanDNSname_safe m base out max : 0 <= base -> 0 <= max -> base + max + 2 <= zlen m -> max <= zlen out ->
  exists r out', humanDNSname m base out max = Ok (r, out') /\ zlen out' = zlen out /\ -1 <= r <= max + 2.
Proof.
  intros. unfold humanDNSname. rd_step m base lab. destruct (64 <=? lab).
  - destruct (hn_pointer_safe out max 0 0) as (r & o & E & L & R); [lia|lia|]. exists r, o. split; [exact E|]. split; [exact L|lia].
  - destruct (hn_loop_safe (Z.to_nat (max + 1)) m base out max lab 0 0) as (r & o & E & L & R); try lia. exists r, o. split; [exact E|]. split; [exact L|lia].
Qed.

(** With zeros from [e] on. *)
Definition zero_from (m : list Z) (e : Z) : Prop := forall i, e <= i -> zget m i = Some 0 \/ zget m i = None.
Lemma hn_loop_zero : forall fuel m base out max label inp outp e,
  0 <= base -> max <= zlen out -> 0 <= inp -> 0 <= outp -> max - inp < Z.of_nat fuel -> (0 < fuel)%nat ->
  zero_from m e -> base <= e -> base + inp <= e + 63 /\ (0 < label -> base + inp + label <= e + 62) -> e + 65 <= zlen m ->
  exists r out', hn_loop fuel m base out max label inp outp = Ok (r, out') /\ zlen out' = zlen out /\ (r = -1 \/ 0 <= r /\ base + r <= e + 63).
Proof.
  induction fuel as [|fuel IH]; intros m base out max label inp outp e B0 B2 Hi Ho F0 F1 Z0 Be I0 Lm; [lia|]. cbn [hn_loop].
  destruct (label <=? 0) eqn:E0.
  { destruct (max <=? outp) eqn:E1; [exists (-1), out; auto|]. wr_step out outp 0 L1. exists inp, m0. split; [reflexivity|]. split; [lia|right; lia]. }
  destruct ((max <=? inp) || (max <=? outp)) eqn:E1; [exists (-1), out; auto|]. apply orb_false_elim in E1 as (E1 & E2). cbv zeta.
  rd_step m (base + (inp + 1)) see. destruct (hn_octet_safe see out max outp B2 Ho) as ([(out1, p1)|] & E & X); rewrite E; cbn [bind]; [|exists (-1), out; auto]. destruct X as (X1 & X2).
  destruct (label - 1 =? 0) eqn:E3.
  - destruct (rd_ok m (base + (inp + 1 + 1))) as (lab & R1 & R2); [lia|]. rewrite R1. cbn [bind].
    assert (base + (inp + 1 + 1) < e \/ lab = 0) as D by (destruct (Z_lt_le_dec (base + (inp + 1 + 1)) e) as [|G]; [auto|]; destruct (Z0 _ G) as [X|X]; [right; congruence|congruence]).
    destruct (64 <=? lab) eqn:E4.
    + destruct (hn_pointer_safe out1 max (inp + 1 + 1) p1 ltac:(lia) ltac:(lia)) as (r & o & E5 & L5 & R5). exists r, o. split; [exact E5|]. split; [lia|]. lia.
    + destruct (max <=? p1) eqn:E5; [exists (-1), out1; auto|]. wr_step out1 p1 46 L1.
      destruct (IH m base m0 max lab (inp + 1 + 1) (p1 + 1) e) as (r & o & E6 & L6 & R6); [lia|lia|lia|lia|lia|lia|exact Z0|lia|lia|lia|]. exists r, o. split; [exact E6|]. split; [lia|]. lia.
  - destruct (IH m base out1 max (label - 1) (inp + 1) p1 e) as (r & o & E6 & L6 & R6); [lia|lia|lia|lia|lia|lia|exact Z0|lia|lia|lia|]. exists r, o. split; [exact E6|]. split; [lia|]. lia.
Qed.
Lemma humanDNSname_zero m base out max e : 0 <= base <= e -> 0 <= max -> e + 65 <= zlen m -> max <= zlen out -> zero_from m e ->
  exists r out', humanDNSname m base out max = Ok (r, out') /\ -1 <= r /\ base + r <= e + 63.
Proof.
  intros Hb Hm L L2 Z0. unfold humanDNSname. destruct (rd_ok m base) as (lab & R1 & R2); [lia|]. rewrite R1. cbn [bind].
  assert (base < e \/ lab = 0) as D by (destruct (Z_lt_le_dec base e) as [|G]; [auto|]; destruct (Z0 _ G) as [X|X]; [right; congruence|congruence]).
  destruct (64 <=? lab) eqn:E4.
  - destruct (hn_pointer_safe out max 0 0) as (r & o & E & L3 & R); [lia|lia|]. exists r, o. split; [exact E|]. lia.
  - destruct (hn_loop_zero (Z.to_nat (max + 1)) m base out max lab 0 0 e) as (r & o & E & L3 & R); [lia|lia|lia|lia|lia|lia|exact Z0|lia|lia|lia|]. exists r, o. split; [exact E|]. lia.
Qed.

Lemma put_at_safe src : forall m i, 0 <= i -> i + zlen src <= zlen m -> exists m', put_at m i src = Ok m' /\ zlen m' = zlen m.
Proof.
  induction src as [|c src IH]; intros m i Hi L; [exists m; auto|]. rewrite zlen_cons in L. pose proof (zlen_nonneg src). cbn [put_at]. wr_step m i c L1. destruct (IH m0 (i + 1)) as (m' & E & L2); [lia|lia|]. exists m'. split; [exact E|lia].
Qed.
Lemma send_record_safe m q ttl rr : 0 <= q -> 17 + q + zlen rr <= zlen m -> 10 <= zlen rr -> exists r, send_record m q ttl rr = Ok r.
Proof.
  intros Hq L L1. unfold send_record. destruct (put_at_safe rr m (17 + q)) as (m1 & E1 & L2); [lia|lia|]. rewrite E1. cbn [bind].
  wr_step m1 (q + 26) (Z.land ttl 255) L3. wr_step m0 (q + 25) (Z.land (Z.shiftr ttl 8) 255) L4. wr_step m2 (q + 24) (Z.land (Z.shiftr ttl 16) 255) L5.
  replace (zlen m3 <? 17 + q + zlen rr) with false by lia. eauto.
Qed.
Lemma endThread_safe m q s : 0 <= q -> 60 + q <= zlen m -> script_ok s -> exists r, endThread m q s = Ok r.
Proof.
  intros Hq L SO. unfold endThread. rd_step m 2 c2. wr_step m 2 (Z.land c2 251) L1.
  assert (exists m1, (if s_aa s then c <- rd m0 2 ;; wr m0 2 (Z.lor c 4) else Ok m0) = Ok m1 /\ zlen m1 = zlen m) as (m1 & E1 & L2).
  { destruct (s_aa s); [|eauto]. rd_step m0 2 c3. destruct (wr_len m0 2 (Z.lor c3 4)) as (? & -> & ?); [lia|]. eexists. split; [reflexivity|lia]. }
  rewrite E1. cbn [bind]. rd_step m1 3 c4. wr_step m1 3 (Z.land c4 127) L3.
  assert (exists m3, (if s_ra s then c <- rd m2 3 ;; wr m2 3 (Z.lor c 128) else Ok m2) = Ok m3 /\ zlen m3 = zlen m) as (m3 & E3 & L4).
  { destruct (s_ra s); [|exists m2; split; [reflexivity|lia]]. rd_step m2 3 c5. destruct (wr_len m2 3 (Z.lor c5 128)) as (? & -> & ?); [lia|]. eexists. split; [reflexivity|lia]. }
  rewrite E3. cbn [bind]. unfold script_ok in SO. destruct (s_type s) as [| | |ip|ip].
  - eauto.
  - rd_step m3 2 c6. wr_step m3 2 (Z.lor c6 128) L5. rd_step m4 3 c7. wr_step m4 3 (Z.land c7 240) L6. rd_step m5 3 c8. wr_step m5 3 (Z.lor c8 2) L7. wr_step m6 7 0 L8. replace (zlen m7 <? 17 + q) with false by lia. eauto.
  - apply send_record_safe; [lia| |]; change (zlen not_there) with 41; lia.
  - destruct SO as (_ & SO). apply send_record_safe; [lia| |]; unfold IPv4answer; rewrite zlen_app; change (zlen [192; 12; 0; 1; 0; 1; 0; 0; 0; 0; 0; 4]) with 12; lia.
  - destruct SO as (_ & SO). apply send_record_safe; [lia| |]; unfold IPv6answer; rewrite zlen_app; change (zlen [192; 12; 0; 28; 0; 1; 0; 0; 0; 0; 0; 16]) with 12; lia.
Qed.

Lemma zget_mkjunk J n i : 0 <= i < n -> zget (mkjunk J n) i = Some (J i).
Proof.
  intros H. unfold mkjunk, zget. replace (i <? 0) with false by lia. rewrite nth_error_map. rewrite (nth_error_nth' _ 0%nat) by (rewrite seq_length; lia). rewrite seq_nth by lia. cbn [option_map]. f_equal. f_equal. lia.
Qed.
Lemma received_zero J d : (forall i, Z.min 255 (zlen d) <= i < 500 -> J i = 0) -> zero_from (received 255 500 J d) (Z.min 255 (zlen d)).
Proof.
  intros HJ i Hi. unfold received. change (Z.of_nat 500) with 500.
  assert (zlen (firstn 255 d) = Z.min 255 (zlen d)) as L by (unfold zlen; rewrite firstn_length; lia). pose proof (zlen_nonneg (firstn 255 d)).
  rewrite zget_app_r by lia. destruct (Z_lt_le_dec i 500) as [H1|H1].
  - left. replace (length (firstn 255 d)) with (Z.to_nat (Z.min 255 (zlen d))) by (unfold zlen in *; lia). 
    unfold zget. replace (i - zlen (firstn 255 d) <? 0) with false by lia. rewrite nth_error_skipn'.
    replace (Z.to_nat (Z.min 255 (zlen d)) + Z.to_nat (i - zlen (firstn 255 d)))%nat with (Z.to_nat i) by lia.
    pose proof (zget_mkjunk J 500 i ltac:(lia)) as X. unfold zget in X. replace (i <? 0) with false in X by lia. rewrite X. f_equal. apply HJ. lia.
  - right. apply zget_none. right. unfold zlen at 1. rewrite skipn_length. pose proof (zlen_mkjunk J 500 ltac:(lia)) as X. unfold zlen in *. lia.
Qed.
Lemma zero_from_wr m i v m' e : wr m i v = Ok m' -> i < e -> zero_from m e -> zero_from m' e.
Proof.
  intros W Hi Z0 k Hk. unfold wr in W. destruct ((0 <=? i) && (i <? zlen m)) eqn:E; [|discriminate W]. injection W as <-. rewrite zget_zupd_neq by lia. apply Z0. exact Hk.
Qed.

Lemma exchange_zero J Jq d s : script_ok s -> (forall i, Z.min 255 (zlen d) <= i < 500 -> J i = 0) -> exists r, exchange J Jq d s = Ok r.
Proof.
  intros SO HJ. unfold exchange, serve. pose proof (received_zero J d HJ) as Z0. pose proof (zlen_received 255 500 J d ltac:(lia)) as L. change (Z.of_nat 500) with 500 in L. remember (received 255 500 J d) as m eqn:Em. clear Em HJ. cbv zeta.
  assert (Z.of_nat (length (firstn 255 d)) = Z.min 255 (zlen d)) as Ld by (unfold zlen; rewrite firstn_length; lia). rewrite Ld. clear Ld.
  remember (Z.min 255 (zlen d)) as len eqn:El. assert (0 <= len <= 255) as Hl by (pose proof (zlen_nonneg d); lia). clear El.
  destruct (len <? 3) eqn:E3; [cbn [bind]; eauto|]. rd_step m 2 c2. destruct (negb (Z.land c2 128 =? 0)); [cbn [bind]; eauto|]. unfold processQueryC.
  assert (exists m2, (one <- (if 12 <? len then c <- rd m 5 ;; Ok (c =? 1) else Ok false) ;;
      (if (one : bool) then c <- rd m 2 ;; m <- wr m 2 (Z.lor c 128) ;; c <- rd m 7 ;; m <- wr m 7 (u8 (c + 1)) ;; wr m 11 0 else Ok m)) = Ok m2 /\ zlen m2 = 500 /\ zero_from m2 (Z.max 12 len)) as (m2 & E2 & L2 & Z2).
  { assert (zero_from m (Z.max 12 len)) as Z1 by (intros k Hk; apply Z0; lia). destruct (12 <? len) eqn:E12; [|exists m; cbn [bind]; auto].
    rd_step m 5 c5. destruct (c5 =? 1); [|exists m; auto]. rd_step m 2 c. destruct (wr_len m 2 (Z.lor c 128)) as (ma & Ea & La); [lia|]. rewrite Ea. cbn [bind]. rd_step ma 7 c7.
    destruct (wr_len ma 7 (u8 (c7 + 1))) as (mb & Eb & Lb); [lia|]. rewrite Eb. cbn [bind]. destruct (wr_len mb 11 0) as (mc & Ec & Lc); [lia|]. exists mc. split; [exact Ec|]. split; [lia|].
    eapply zero_from_wr; [exact Ec|lia|]. eapply zero_from_wr; [exact Eb|lia|]. eapply zero_from_wr; [exact Ea|lia|exact Z1]. }
  destruct (if 12 <? len then c <- rd m 5 ;; Ok (c =? 1) else Ok false) as [one| |] eqn:E1; cbn [bind] in *; try discriminate E2.
  rewrite E2. cbn [bind]. clear E2 E1.
  destruct (humanDNSname_zero m2 12 (mkjunk Jq 500) 490 (Z.max 12 len)) as (r & o & E & R1 & R2); [lia|lia|lia|rewrite zlen_mkjunk; lia|exact Z2|]. rewrite E. cbn [bind].
  destruct (0 <? r) eqn:Er; [|cbn [bind]; eauto]. rd_step m2 (13 + r) hi. rd_step m2 (14 + r) lo.
  destruct ((hi * 256 + lo =? 255) || (hi * 256 + lo =? 13)).
  - destruct (put_at_safe AnyAnswer m2 (17 + r)) as (m3 & E3' & L3); [lia|change (zlen AnyAnswer) with 22; lia|]. rewrite E3'. cbn [bind]. replace (zlen m3 <? 17 + r + 22) with false by lia. cbn [bind]. eauto.
  - cbn [bind]. apply endThread_safe; [lia|lia|exact SO].
Qed.
