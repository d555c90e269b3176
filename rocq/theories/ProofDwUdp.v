(** Proofs about ModelDwUdp. *)
From Verif Require Import CBase Bits SpecNames SpecMessage SpecQuery SpecDwStr SpecAcl ModelBlockHash ModelDwStr ModelDwDnsStr ModelDwSys ModelDwUdp ModelDwPend SpecUdp ProofDwStr ProofDwCompressSafe ProofDwDecomp ProofDwDnsSafe ProofDwDnsStr ProofDwDissect ProofDwRecurseSafe ProofDwDname ProofDwSys.

Lemma lower_idem b : lower (lower b) = lower b.
Proof. unfold lower. destruct ((65 <=? b) && (b <=? 90)) eqn:E; [|rewrite E; reflexivity]. replace ((65 <=? b + 32) && (b + 32 <=? 90)) with false by lia. reflexivity. Qed.
Lemma lower_name_idem n : lower_name (lower_name n) = lower_name n.
Proof. unfold lower_name, lower_label. rewrite map_map. apply map_ext. intros l. rewrite map_map. apply map_ext. apply lower_idem. Qed.
Lemma zlen_lower_label l : zlen (lower_label l) = zlen l.
Proof. unfold zlen, lower_label. rewrite map_length. reflexivity. Qed.
Lemma zlen_wire_lower n : zlen (wire (lower_name n)) = zlen (wire n).
Proof. induction n as [|l n IH]; [reflexivity|]. cbn [lower_name map wire]. fold (lower_name n). rewrite !zlen_cons, !zlen_app, IH, zlen_lower_label. reflexivity. Qed.
Lemma lower_good n : good_name n -> good_name (lower_name n).
Proof.
  intros H. induction H as [|l n (Hl & Hb) _ IH]; [constructor|]. constructor; [|exact IH]. split; [rewrite zlen_lower_label; exact Hl|].
  unfold lower_label. apply Forall_map. eapply Forall_impl; [|exact Hb]. intros b Hb'. unfold byte, lower in *. destruct ((65 <=? b) && (b <=? 90)) eqn:E; lia.
Qed.
Lemma lower_printable n : printable n -> printable (lower_name n).
Proof.
  intros H. apply Forall_map. eapply Forall_impl; [|exact H]. intros l Hl. apply Forall_map. eapply Forall_impl; [|exact Hl]. cbn beta. intros b Hb. unfold lower. destruct ((65 <=? b) && (b <=? 90)) eqn:E; lia.
Qed.

(** A stored question. *)
Definition qok (q : dwstr) : Prop :=
  dok q /\ exists n t0 t1, good_name n /\ printable n /\ zlen (wire n) <= 256 /\ byte t0 /\ byte t1 /\ ~ 65392 <= t0 * 256 + t1 <= 65407 /\ con q = wire (lower_name n) ++ [t0; t1].
Lemma qok_len q : qok q -> 3 <= d_len q <= 258.
Proof.
  intros (D & n & t0 & t1 & _ & _ & H & _ & _ & _ & C). rewrite <- (zlen_con q (dok_dwf q D)), C, zlen_app, zlen_wire_lower. change (zlen [t0; t1]) with 2. pose proof (zlen_wire_pos n). lia.
Qed.

Lemma lowered_spec J p len : junk_ok J -> bytes p -> len <= zlen p -> len < 134217728 ->
  match lowered J p len with
  | Ok None => forall q, ~ question p len q
  | Ok (Some q) => qok q /\ question p len (con q)
  | _ => False
  end.
Proof.
  intros HJ HB Hl Hm. unfold lowered. pose proof (get_dname_type_spec J p 12 len HJ HB ltac:(lia) Hm) as HS. destruct (dw_get_dname_type J p 12 len) as [s| |f]; [| |lia].
  - destruct HS as (D & _ & n & b0 & b1 & Hn & Hs & C & Hp). destruct Hn as (G & P & L & E & Z). destruct (lower_case_ok s n [b0; b1] (dok_dwf s D) G C) as (s' & E' & W' & C' & Hl' & Hx'). rewrite E'. cbn [bind].
    assert (bytes [b0; b1]) as HB2 by (rewrite <- Hs; apply bytes_zslice; exact HB). inversion HB2 as [|? ? H0 HB3]; subst. inversion HB3 as [|? ? H1 _]; subst.
    split; [split; [split; [exact W'|rewrite Hl', Hx'; exact (proj2 D)]|]; exists n, b0, b1; repeat (split; [assumption|]); exact C'|].
    exists n, b0, b1. repeat (split; [assumption||(repeat split; assumption)|]). exact C'.
  - intros q (n & t0 & t1 & Hn & Hs & Hp & _). apply Hp. exact (HS n t0 t1 Hn Hs).
Qed.

Lemma query_name_mono raw off m m' n : m <= m' -> query_name_at raw off m n -> query_name_at raw off m' n.
Proof. intros H (G & P & L & E & Z). repeat (split; [assumption|]). split; [lia|exact Z]. Qed.
Lemma question_unique p l l' q q' : question p l q -> question p l' q' -> q = q'.
Proof.
  intros (n & t0 & t1 & Hn & Ht & _ & ->) (n' & t0' & t1' & Hn' & Ht' & _ & ->).
  assert (n = n') as <- by (eapply query_name_unique; [apply (query_name_mono _ _ l (Z.max l l')); [lia|exact Hn]|apply (query_name_mono _ _ l' (Z.max l l')); [lia|exact Hn']]).
  rewrite Ht in Ht'. injection Ht' as <- <-. reflexivity.
Qed.

(** Same bytes from 12 on: same question. *)
Lemma nth_error_ext {A} (l m : list A) : (forall k, nth_error l k = nth_error m k) -> l = m.
Proof.
  revert m. induction l as [|x l IH]; intros [|y m] H; [reflexivity|specialize (H 0%nat); discriminate|specialize (H 0%nat); discriminate|].
  pose proof (H 0%nat) as H0. injection H0 as <-. f_equal. apply IH. intros k. exact (H (S k)).
Qed.
Lemma zslice_ext p p' i n : (forall j, i <= j -> zget p' j = zget p j) -> 0 <= i -> zslice p' i n = zslice p i n.
Proof.
  intros H Hi. unfold zslice. f_equal. apply nth_error_ext. intros k. rewrite !nth_error_skipn'. specialize (H (i + Z.of_nat k)). unfold zget in H. destruct (Z.ltb_spec (i + Z.of_nat k) 0); [lia|].
  replace (Z.to_nat (i + Z.of_nat k)) with (Z.to_nat i + k)%nat in H by lia. apply H. lia.
Qed.
Lemma question_ext p p' len q : (forall j, 12 <= j -> zget p' j = zget p j) -> question p len q -> question p' len q.
Proof.
  intros H (n & t0 & t1 & (G & P & L & E & Z) & Ht & Hp & Hq). pose proof (zlen_wire_pos n). exists n, t0, t1. split; [split; [exact G|]; split; [exact P|]; split; [exact L|]; split; [exact E|]|split; [|split; [exact Hp|exact Hq]]].
  - rewrite (zslice_ext p p') by (assumption||lia). exact Z.
  - rewrite (zslice_ext p p'); [exact Ht| |lia]. intros j Hj. apply H. lia.
Qed.

(** ** dw_issame *)
Lemma issame_loop_ok n : forall c a b, 0 <= c -> c + Z.of_nat n <= zlen a -> c + Z.of_nat n <= zlen b ->
  issame_loop n c a b = Ok (if zlist_eqb (zslice a c (Z.of_nat n)) (zslice b c (Z.of_nat n)) then 1 else 0).
Proof.
  induction n as [|n IH]; intros c a b Hc Ha Hb; cbn [issame_loop].
  - rewrite !zslice_neg by lia. reflexivity.
  - destruct (rd_ok a c ltac:(lia)) as (x & Ex & Zx). destruct (rd_ok b c ltac:(lia)) as (y & Ey & Zy). rewrite Ex, Ey. cbn [bind].
    replace (Z.of_nat (S n)) with (1 + Z.of_nat n) by lia. rewrite !zslice_split, (zslice_one a c x Zx), (zslice_one b c y Zy) by lia. cbn [app zlist_eqb]. destruct (x =? y); cbn [negb andb]; [|reflexivity]. rewrite IH by lia. reflexivity.
Qed.
Lemma issame_ok a b : dok a -> dok b -> dw_issame a b = Ok (if zlist_eqb (con a) (con b) then 1 else 0).
Proof.
  intros Da Db. unfold dw_issame. rewrite (dok_sane a Da), (dok_sane b Db). cbn [negb]. pose proof Da as [[Ba La Ma Mea] Ka]. pose proof Db as [[Bb Lb Mb Meb] Kb].
  destruct (Z.eqb_spec (d_len a) (d_len b)) as [El|Nl]; cbn [negb].
  - rewrite issame_loop_ok by lia. unfold con. rewrite Z2Nat.id, El by lia. reflexivity.
  - replace (zlist_eqb (con a) (con b)) with false; [reflexivity|]. symmetry. apply zlist_eqb_neq. intros E. apply Nl. rewrite <- (zlen_con a), <- (zlen_con b), E by (apply dok_dwf; assumption). reflexivity.
Qed.

(** ** Headers *)
Lemma twelve (p : list Z) : 12 <= zlen p -> exists a0 a1 a2 a3 a4 a5 a6 a7 a8 a9 a10 a11 rest, p = a0 :: a1 :: a2 :: a3 :: a4 :: a5 :: a6 :: a7 :: a8 :: a9 :: a10 :: a11 :: rest.
Proof. intros Hl. do 12 (destruct p as [|? p]; [rewrite ?zlen_cons in Hl; change (zlen (@nil Z)) with 0 in Hl; lia|]). repeat eexists. Qed.
Lemma byte_peel a b a' b' : byte b -> byte b' -> a * 256 + b = a' * 256 + b' -> a = a' /\ b = b'.
Proof. unfold byte. lia. Qed.
Lemma qid0 p len : bytes p -> 12 <= len -> len <= zlen p -> exists id, get_dns_qid p len 0 = Ok id /\ forall r, 0 <= r -> (id = r <-> id_is p r /\ has_sections p).
Proof.
  intros HB Hl Hz. destruct (twelve p ltac:(lia)) as (a0 & a1 & a2 & a3 & a4 & a5 & a6 & a7 & a8 & a9 & a10 & a11 & rest & ->). rewrite get_qid_list by exact Hl. change (0 =? 1) with false. change (0 =? 2) with false. cbn [andb].
  inversion HB as [|? ? H0 HB1]; subst. inversion HB1 as [|? ? H1 _]; subst. rewrite lor_shiftl8 by (unfold byte in *; lia).
  destruct ((a5 =? 0) && (a4 =? 0) && (a6 =? 0) && (a7 =? 0) && (a8 =? 0) && (a9 =? 0) && (a10 =? 0) && (a11 =? 0)) eqn:E; eexists; (split; [reflexivity|]); intros r Hr; split.
  - intros HE. lia.
  - intros (_ & HS). exfalso. apply HS. change (zslice _ 4 8) with [a4; a5; a6; a7; a8; a9; a10; a11]. repeat (apply andb_true_iff in E; destruct E as [E ?]). repeat (f_equal; [lia|]). f_equal. lia.
  - intros <-. split; [exists a0, a1; split; reflexivity|]. change (has_sections _) with ([a4; a5; a6; a7; a8; a9; a10; a11] <> [0; 0; 0; 0; 0; 0; 0; 0]). intros HE. injection HE as -> -> -> -> -> -> -> ->. discriminate E.
  - intros ((b0 & b1 & Hb & ->) & _). change ([a0; a1] = [b0; b1]) in Hb. injection Hb as -> ->. reflexivity.
Qed.

Lemma verify_spec J id q p len : junk_ok J -> bytes p -> 12 <= len <= zlen p -> len < 134217728 -> 0 <= id -> match q with None => True | Some q => dok q end ->
  exists v, verify_dns_packet J id q p len = Ok v /\ (v = true <-> id_is p id /\ has_sections p /\ match q with None => False | Some q => question p len (con q) end).
Proof.
  intros HJ HB Hl Hm Hi Hq. unfold verify_dns_packet. destruct (qid0 p len HB ltac:(lia) ltac:(lia)) as (i & Ei & Hid). rewrite Ei. cbn [bind]. specialize (Hid id Hi).
  destruct (Z.eqb_spec i id) as [->|N]; cbn [negb].
  - destruct (proj1 Hid eq_refl) as (HI & HS). pose proof (lowered_spec J p len HJ HB ltac:(lia) Hm) as HL. unfold lowered in HL. destruct (dw_get_dname_type J p 12 len) as [s| |f]; [| |contradiction].
    + destruct (dwc_lower_case s) as [(c & s')| |f]; [|contradiction|contradiction]. cbn [bind] in *. destruct HL as (HQ & HQ'). destruct q as [q|].
      * rewrite (issame_ok s' q (proj1 HQ) Hq). cbn [bind]. eexists. split; [reflexivity|]. destruct (zlist_eqb (con s') (con q)) eqn:E.
        -- apply zlist_eqb_spec in E. rewrite <- E. split; [intros _; auto|reflexivity].
        -- apply zlist_eqb_neq in E. split; [discriminate|]. intros (_ & _ & HX). exfalso. apply E. eapply question_unique; eassumption.
      * cbn [bind]. eexists. split; [reflexivity|]. split; [discriminate|intros (_ & _ & [])].
    + eexists. split; [reflexivity|]. split; [discriminate|]. destruct q; [|intros (_ & _ & [])]. intros (_ & _ & HX). exfalso. exact (HL _ HX).
  - exists false. split; [reflexivity|]. split; [discriminate|]. intros (HI & HS & _). exfalso. apply N. apply Hid. auto.
Qed.

(** ** Making packets *)
Lemma put_or_fail_ok s v : dok s -> d_len s + 2 < d_max s -> exists s', put_or_fail s v = Ok s' /\ dok s' /\ con s' = con s ++ u16be v /\ d_max s' = d_max s /\ d_len s' = d_len s + 2.
Proof.
  intros D H. destruct (dw_push_u16_ok s v D H) as (s' & E & D' & C & M). exists s'. unfold put_or_fail. unfold dw_push_u16 in E. rewrite E. cbn [bind]. split; [reflexivity|]. split; [exact D'|]. split; [exact C|]. split; [exact M|].
  rewrite <- (zlen_con s'), <- (zlen_con s), C, zlen_app by (apply dok_dwf; assumption). reflexivity.
Qed.
Lemma make_header_ok J id flags an ns ar : junk_ok J -> 0 <= id -> 0 <= an -> 0 <= ns -> 0 <= ar ->
  exists s, make_dns_header J id flags an ns ar = Ok s /\ dok s /\ d_max s = 515 /\ d_len s = 12 /\ con s = u16be id ++ u16be flags ++ [0; 1] ++ u16be an ++ u16be ns ++ u16be ar.
Proof.
  intros HJ Hi Ha Hn Hr. unfold make_dns_header. replace ((id <? 0) || (an <? 0) || (ns <? 0) || (ar <? 0)) with false by lia.
  destruct (dw_create_ok J 515 HJ ltac:(lia)) as (s0 & -> & W0 & L0 & M0). assert (dok s0) as D0 by (split; [exact W0|lia]). pose proof (con_nil s0 L0) as C0.
  destruct (put_or_fail_ok s0 id D0 ltac:(lia)) as (s1 & -> & D1 & C1 & M1 & L1). cbn [bind].
  destruct (put_or_fail_ok s1 flags D1 ltac:(lia)) as (s2 & -> & D2 & C2 & M2 & L2). cbn [bind].
  destruct (put_or_fail_ok s2 1 D2 ltac:(lia)) as (s3 & -> & D3 & C3 & M3 & L3). cbn [bind].
  destruct (put_or_fail_ok s3 an D3 ltac:(lia)) as (s4 & -> & D4 & C4 & M4 & L4). cbn [bind].
  destruct (put_or_fail_ok s4 ns D4 ltac:(lia)) as (s5 & -> & D5 & C5 & M5 & L5). cbn [bind].
  destruct (put_or_fail_ok s5 ar D5 ltac:(lia)) as (s6 & -> & D6 & C6 & M6 & L6).
  exists s6. split; [reflexivity|]. split; [exact D6|]. split; [lia|]. split; [lia|]. rewrite C6, C5, C4, C3, C2, C1, C0, <- !app_assoc. reflexivity.
Qed.
Definition ask_bytes (id flags : Z) (q : list Z) : list Z := u16be id ++ u16be flags ++ [0; 1; 0; 0; 0; 0; 0; 0] ++ q ++ [0; 1].
Lemma ask_ok J id flags q : junk_ok J -> 0 <= id -> qok q ->
  exists p0 p1 p2, make_dns_header J id flags 0 0 0 = Ok p0 /\ dw_append (Some q) p0 = Ok (0, p1) /\ dw_put_u16 p1 1 (-1) = Ok (0, p2) /\ dok p2 /\ con p2 = ask_bytes id flags (con q) /\ d_len p2 = d_len q + 14.
Proof.
  intros HJ Hi HQ. pose proof (qok_len q HQ) as Hl. destruct (make_header_ok J id flags 0 0 0 HJ Hi ltac:(lia) ltac:(lia) ltac:(lia)) as (p0 & E0 & D0 & M0 & L0 & C0).
  destruct (dw_append_ok q p0 (proj1 HQ) D0 ltac:(lia)) as (p1 & E1 & D1 & C1 & M1). assert (d_len p1 = d_len q + 12) as L1 by (rewrite <- (zlen_con p1), C1, zlen_app, !zlen_con by (apply dok_dwf; try assumption; exact (proj1 HQ)); lia).
  destruct (dw_push_u16_ok p1 1 D1 ltac:(lia)) as (p2 & E2 & D2 & C2 & M2). exists p0, p1, p2. split; [exact E0|]. split; [exact E1|]. split; [exact E2|]. split; [exact D2|].
  split; [rewrite C2, C1, C0; unfold ask_bytes; rewrite <- !app_assoc; reflexivity|]. rewrite <- (zlen_con p2), C2, zlen_app, (zlen_con p1) by (apply dok_dwf; assumption). change (zlen (u16be 1)) with 2. lia.
Qed.
Lemma ask_question id flags q : qok q -> question (ask_bytes id flags (con q)) (zlen (ask_bytes id flags (con q))) (con q).
Proof.
  intros (D & n & t0 & t1 & G & P & L & B0 & B1 & HP & C). pose proof (zlen_wire_pos n) as HW. pose proof (zlen_wire_pos (lower_name n)) as HWl. exists (lower_name n), t0, t1.
  assert (ask_bytes id flags (con q) = (u16be id ++ u16be flags ++ [0; 1; 0; 0; 0; 0; 0; 0]) ++ wire (lower_name n) ++ [t0; t1; 0; 1]) as ->. { unfold ask_bytes. rewrite C, <- !app_assoc. reflexivity. }
  set (h := u16be id ++ u16be flags ++ [0; 1; 0; 0; 0; 0; 0; 0]). assert (zlen h = 12) as Hh by reflexivity. clearbody h. split; [|split; [|split; [exact HP|rewrite C, lower_name_idem; reflexivity]]].
  - split; [apply lower_good; exact G|]. split; [apply lower_printable; exact P|]. split; [rewrite zlen_wire_lower; exact L|]. split; [rewrite !zlen_app; change (zlen [t0; t1; 0; 1]) with 4; lia|].
    rewrite zslice_app_r by (rewrite ?zlen_app; change (zlen [t0; t1; 0; 1]) with 4; rewrite ?zlen_wire_lower; lia). rewrite Hh, Z.sub_diag. rewrite zslice_app_l by lia. apply zslice_all.
  - rewrite zlen_wire_lower. rewrite zslice_app_r by (rewrite ?zlen_app; change (zlen [t0; t1; 0; 1]) with 4; rewrite ?zlen_wire_lower; lia). rewrite Hh. rewrite zslice_app_r by (change (zlen [t0; t1; 0; 1]) with 4; rewrite ?zlen_wire_lower; lia). rewrite zlen_wire_lower. replace (12 + zlen (wire n) - 12 - zlen (wire n)) with 0 by lia. reflexivity.
Qed.
Lemma ask_id id flags q : 0 <= id < 65536 -> id_is (ask_bytes id flags q) id.
Proof. intros H. exists (id / 256), (id mod 256). split; [|lia]. unfold ask_bytes. rewrite (u16be_small id H). reflexivity. Qed.

(** Popping. *)
Lemma con_pop m len mx k : 0 <= k <= len -> con (mkdw m (len - k) mx) = firstn (Z.to_nat (len - k)) (con (mkdw m len mx)).
Proof. intros H. unfold con, zslice. cbn [d_mem d_len]. rewrite firstn_firstn. f_equal. lia. Qed.
Lemma pop_dok s k : dok s -> 0 <= k <= d_len s -> dok (mkdw (d_mem s) (d_len s - k) (d_max s)).
Proof. intros [[B L M Me] K] H. split; [constructor|]; cbn [d_mem d_len d_max]; auto; lia. Qed.
Lemma pop_u8_ok s l b : dok s -> con s = l ++ [b] -> exists s', dw_pop_u8 s = Ok (b, s') /\ dok s' /\ con s' = l /\ d_max s' = d_max s.
Proof.
  intros D C. pose proof D as [W K]. pose proof W as [B L M Me]. pose proof (zlen_con s W) as Lc. rewrite C, zlen_app in Lc. change (zlen [b]) with 1 in Lc. pose proof (zlen_nonneg l). unfold dw_pop_u8. rewrite (dok_sane s D). cbn [negb]. replace (d_len s <? 1) with false by lia.
  rewrite rd_con by (auto; lia). rewrite C. rewrite (rd_of_zget _ _ b). 2: { rewrite zget_app_r by lia. replace (d_len s - 1 - zlen l) with 0 by lia. reflexivity. }
  cbn [bind]. eexists. split; [reflexivity|]. split; [apply pop_dok; [exact D|lia]|]. split; [|reflexivity]. rewrite con_pop by lia. destruct s as [m len mx]; cbn [d_mem d_len d_max] in *. rewrite C. unfold zlen in *. rewrite firstn_app. replace (Z.to_nat (len - 1) - length l)%nat with 0%nat by lia. rewrite firstn_all2 by lia. cbn [firstn]. apply app_nil_r.
Qed.
Lemma pop_u16_ok s l v : dok s -> 0 <= v < 65536 -> con s = l ++ num16 v -> exists s', dw_pop_u16 s = Ok (v, s') /\ dok s' /\ con s' = l /\ d_max s' = d_max s.
Proof.
  intros D Hv C. pose proof D as [W K]. pose proof W as [B L M Me]. pose proof (zlen_con s W) as Lc. rewrite C, zlen_app in Lc. change (zlen (num16 v)) with 2 in Lc. pose proof (zlen_nonneg l). unfold dw_pop_u16. rewrite (dok_sane s D). cbn [negb]. replace (d_len s <? 2) with false by lia.
  rewrite !rd_con by (auto; lia). rewrite C. rewrite (rd_of_zget _ _ (v / 256)). 2: { rewrite zget_app_r by lia. replace (d_len s - 2 - zlen l) with 0 by lia. reflexivity. }
  cbn [bind]. rewrite (rd_of_zget _ _ (v mod 256)). 2: { rewrite zget_app_r by lia. replace (d_len s - 1 - zlen l) with 1 by lia. reflexivity. }
  cbn [bind]. rewrite lor_shiftl8 by lia. replace (v / 256 * 256 + v mod 256) with v by lia.
  eexists. split; [reflexivity|]. split; [apply pop_dok; [exact D|lia]|]. split; [|reflexivity]. rewrite con_pop by lia. destruct s as [m len mx]; cbn [d_mem d_len d_max] in *. rewrite C. unfold zlen in *. rewrite firstn_app. replace (Z.to_nat (len - 2) - length l)%nat with 0%nat by lia. rewrite firstn_all2 by lia. cbn [firstn]. apply app_nil_r.
Qed.
Lemma u16be_num16 v : 0 <= v < 65536 -> u16be v = num16 v.
Proof. exact (u16be_small v). Qed.

(** The packet for a client. *)
Lemma make_packet_ok J q a id body an ns ar t : junk_ok J -> dok q -> dok a -> 0 <= id < 65536 -> 0 <= an < 65536 -> 0 <= ns < 65536 -> 0 <= ar < 65536 -> t = 0 \/ t = 1 \/ t = 2 ->
  con a = body ++ num16 an ++ num16 ns ++ num16 ar ++ [t] -> 14 + d_len q + zlen body < 515 ->
  exists p a', make_dns_packet J (Some q) a id = Ok (Some p, a') /\ dok p /\ dok a' /\ con a' = body /\
    con p = num16 id ++ [129; if t =? 1 then 131 else 128; 0; 1] ++ num16 an ++ num16 ns ++ num16 ar ++ con q ++ [0; 1] ++ body.
Proof.
  intros HJ Dq Da Hi Han Hns Har Ht C HL. unfold make_dns_packet. replace (body ++ num16 an ++ num16 ns ++ num16 ar ++ [t]) with ((((body ++ num16 an) ++ num16 ns) ++ num16 ar) ++ [t]) in C by (rewrite <- !app_assoc; reflexivity).
  destruct (pop_u8_ok a _ t Da C) as (a1 & -> & D1 & C1 & _). cbn [bind]. unfold TYPE_TRUNCATED, TYPE_TRUNCATED_NXDOMAIN. replace ((t =? 3) || (t =? 4)) with false by lia.
  destruct (pop_u16_ok a1 _ ar D1 Har C1) as (a2 & -> & D2 & C2 & _). cbn [bind]. destruct (pop_u16_ok a2 _ ns D2 Hns C2) as (a3 & -> & D3 & C3 & _). cbn [bind]. destruct (pop_u16_ok a3 _ an D3 Han C3) as (a4 & -> & D4 & C4 & _). cbn [bind].
  assert (exists p0, (if (t =? 0) || (t =? 2) then make_dns_header J id 33152 an ns ar else if t =? 1 then make_dns_header J id 33155 an ns ar else if t =? 3 then make_dns_header J id 33664 0 0 0 else if t =? 4 then make_dns_header J id 33667 0 0 0 else Fail) = Ok p0 /\
     dok p0 /\ d_max p0 = 515 /\ d_len p0 = 12 /\ con p0 = num16 id ++ [129; if t =? 1 then 131 else 128; 0; 1] ++ num16 an ++ num16 ns ++ num16 ar) as (p0 & -> & D0 & M0 & L0 & C0).
  { destruct (make_header_ok J id (if t =? 1 then 33155 else 33152) an ns ar HJ ltac:(lia) ltac:(lia) ltac:(lia) ltac:(lia)) as (s & E & D & M & L & Cs). exists s. rewrite !u16be_num16 in Cs by (try lia; destruct (t =? 1); lia).
    destruct Ht as [-> |[-> | ->]]; (split; [exact E|]; split; [exact D|]; split; [exact M|]; split; [exact L|]; rewrite Cs; reflexivity). }
  assert (d_len a4 = zlen body) as L4 by (rewrite <- C4; symmetry; apply zlen_con; apply dok_dwf; exact D4).
  destruct (dw_append_ok q p0 Dq D0 ltac:(pose proof (zlen_nonneg body); lia)) as (p1 & E1 & D1' & C1' & M1). rewrite E1. cbn [bind]. change (0 =? -1) with false. cbv iota. assert (d_len p1 = d_len q + 12) as L1 by (rewrite <- (zlen_con p1), C1', zlen_app, !zlen_con by (apply dok_dwf; assumption); lia).
  destruct (dw_push_u16_ok p1 1 D1' ltac:(pose proof (zlen_nonneg body); lia)) as (p2 & E2 & D2' & C2' & M2). unfold dw_push_u16 in E2. rewrite E2. cbn [bind]. change (0 =? -1) with false. cbv iota. assert (d_len p2 = d_len q + 14) as L2 by (rewrite <- (zlen_con p2), C2', zlen_app, !zlen_con by (apply dok_dwf; assumption); change (zlen (u16be 1)) with 2; lia).
  destruct (dw_append_ok a4 p2 D4 D2' ltac:(lia)) as (p3 & E3 & D3' & C3' & M3). rewrite E3. cbn [bind]. change (0 =? -1) with false. cbv iota.
  exists p3, a4. split; [reflexivity|]. split; [exact D3'|]. split; [exact D4|]. split; [exact C4|]. rewrite C3', C2', C1', C0, C4, <- !app_assoc. reflexivity.
Qed.

(** Packet with nothing but the fact that it is truncated. *)
Lemma make_truncated_ok J q a id body t : junk_ok J -> dok q -> dok a -> 0 <= id < 65536 -> t = 3 \/ t = 4 -> con a = body ++ [t] -> 14 + d_len q < 515 ->
  exists p a', make_dns_packet J (Some q) a id = Ok (Some p, a') /\ dok p /\ con p = num16 id ++ [131; if t =? 4 then 131 else 128; 0; 1; 0; 0; 0; 0; 0; 0] ++ con q ++ [0; 1].
Proof.
  intros HJ Dq Da Hi Ht C HL. unfold make_dns_packet. destruct (pop_u8_ok a _ t Da C) as (a1 & -> & D1 & C1 & _). cbn [bind]. unfold TYPE_TRUNCATED, TYPE_TRUNCATED_NXDOMAIN. replace ((t =? 3) || (t =? 4)) with true by lia. cbn [bind].
  assert (exists p0, (if (t =? 0) || (t =? 2) then make_dns_header J id 33152 0 0 0 else if t =? 1 then make_dns_header J id 33155 0 0 0 else if t =? 3 then make_dns_header J id 33664 0 0 0 else if t =? 4 then make_dns_header J id 33667 0 0 0 else Fail) = Ok p0 /\
     dok p0 /\ d_max p0 = 515 /\ d_len p0 = 12 /\ con p0 = num16 id ++ [131; if t =? 4 then 131 else 128; 0; 1; 0; 0; 0; 0; 0; 0]) as (p0 & -> & D0 & M0 & L0 & C0).
  { destruct (make_header_ok J id (if t =? 4 then 33667 else 33664) 0 0 0 HJ ltac:(lia) ltac:(lia) ltac:(lia) ltac:(lia)) as (s & E & D & M & L & Cs). exists s. rewrite !u16be_num16 in Cs by (try lia; destruct (t =? 4); lia).
    destruct Ht as [-> | ->]; (split; [exact E|]; split; [exact D|]; split; [exact M|]; split; [exact L|]; rewrite Cs; reflexivity). }
  destruct (dw_append_ok q p0 Dq D0 ltac:(lia)) as (p1 & E1 & D1' & C1' & M1). rewrite E1. cbn [bind]. change (0 =? -1) with false. cbv iota. assert (d_len p1 = d_len q + 12) as L1 by (rewrite <- (zlen_con p1), C1', zlen_app, !zlen_con by (apply dok_dwf; assumption); lia).
  destruct (dw_push_u16_ok p1 1 D1' ltac:(lia)) as (p2 & E2 & D2' & C2' & M2). unfold dw_push_u16 in E2. rewrite E2. cbn [bind]. change (0 =? -1) with false. cbv iota. do 2 eexists. split; [reflexivity|]. split; [exact D2'|]. rewrite C2', C1', C0, <- !app_assoc. reflexivity.
Qed.
(** Too long. *)
Lemma make_packet_long J q a id body an ns ar t : junk_ok J -> dok q -> dok a -> 0 <= id < 65536 -> 0 <= an < 65536 -> 0 <= ns < 65536 -> 0 <= ar < 65536 -> t = 0 \/ t = 1 \/ t = 2 ->
  con a = body ++ num16 an ++ num16 ns ++ num16 ar ++ [t] -> 515 <= 14 + d_len q + zlen body ->
  exists a', make_dns_packet J (Some q) a id = Ok (None, a').
Proof.
  intros HJ Dq Da Hi Han Hns Har Ht C HL. unfold make_dns_packet. replace (body ++ num16 an ++ num16 ns ++ num16 ar ++ [t]) with ((((body ++ num16 an) ++ num16 ns) ++ num16 ar) ++ [t]) in C by (rewrite <- !app_assoc; reflexivity).
  destruct (pop_u8_ok a _ t Da C) as (a1 & -> & D1 & C1 & _). cbn [bind]. unfold TYPE_TRUNCATED, TYPE_TRUNCATED_NXDOMAIN. replace ((t =? 3) || (t =? 4)) with false by lia.
  destruct (pop_u16_ok a1 _ ar D1 Har C1) as (a2 & -> & D2 & C2 & _). cbn [bind]. destruct (pop_u16_ok a2 _ ns D2 Hns C2) as (a3 & -> & D3 & C3 & _). cbn [bind]. destruct (pop_u16_ok a3 _ an D3 Han C3) as (a4 & -> & D4 & C4 & _). cbn [bind].
  assert (exists p0, (if (t =? 0) || (t =? 2) then make_dns_header J id 33152 an ns ar else if t =? 1 then make_dns_header J id 33155 an ns ar else if t =? 3 then make_dns_header J id 33664 0 0 0 else if t =? 4 then make_dns_header J id 33667 0 0 0 else Fail) = Ok p0 /\
     dok p0 /\ d_max p0 = 515 /\ d_len p0 = 12) as (p0 & -> & D0 & M0 & L0).
  { destruct (make_header_ok J id (if t =? 1 then 33155 else 33152) an ns ar HJ ltac:(lia) ltac:(lia) ltac:(lia) ltac:(lia)) as (s & E & D & M & L & Cs). exists s.
    destruct Ht as [-> |[-> | ->]]; (split; [exact E|]; split; [exact D|]; split; [exact M|exact L]). }
  assert (d_len a4 = zlen body) as L4 by (rewrite <- C4; symmetry; apply zlen_con; apply dok_dwf; exact D4). pose proof (zlen_nonneg body).
  destruct (Z_lt_dec (d_len p0 + d_len q) 515) as [H1|H1]; [|rewrite (dw_append_full q p0 Dq D0) by lia; cbn [bind]; eexists; reflexivity].
  destruct (dw_append_ok q p0 Dq D0 ltac:(lia)) as (p1 & E1 & D1' & C1' & M1). rewrite E1. cbn [bind]. change (0 =? -1) with false. cbv iota. assert (d_len p1 = d_len q + 12) as L1 by (rewrite <- (zlen_con p1), C1', zlen_app, !zlen_con by (apply dok_dwf; assumption); lia).
  destruct (Z_lt_dec (d_len p1 + 2) 515) as [H2|H2]; [|pose proof (dw_push_u16_full p1 1 D1' ltac:(lia)) as E2; unfold dw_push_u16 in E2; rewrite E2; cbn [bind]; eexists; reflexivity].
  destruct (dw_push_u16_ok p1 1 D1' ltac:(lia)) as (p2 & E2 & D2' & C2' & M2). unfold dw_push_u16 in E2. rewrite E2. cbn [bind]. change (0 =? -1) with false. cbv iota. assert (d_len p2 = d_len q + 14) as L2 by (rewrite <- (zlen_con p2), C2', zlen_app, !zlen_con by (apply dok_dwf; assumption); change (zlen (u16be 1)) with 2; lia).
  rewrite (dw_append_full a4 p2 D4 D2') by lia. cbn [bind]. eexists. reflexivity.
Qed.

(** ** Made-up replies *)
Lemma zslice_zupd l i v c : 0 <= i -> 0 <= c <= i -> zslice (zupd l i v) 0 c = zslice l 0 c.
Proof.
  intros Hi Hc. unfold zslice. cbn [skipn Z.to_nat]. change (skipn (Z.to_nat 0) (zupd l i v)) with (zupd l i v). change (skipn (Z.to_nat 0) l) with l. unfold zupd. replace (i <? 0) with false by lia.
  assert (Z.to_nat c <= Z.to_nat i)%nat as H by lia. revert H. generalize (Z.to_nat c) as k, (Z.to_nat i) as j. clear. intros k j. revert l j. induction k as [|k IH]; intros [|x l] [|j] H; cbn; try reflexivity; try lia. f_equal. apply IH. lia.
Qed.
Lemma prefix_step a ans c b : 0 <= c < zlen ans -> c < zlen a -> zget a c = Some b -> zslice ans 0 c = zslice a 0 c -> zslice (zupd ans c b) 0 (c + 1) = zslice a 0 (c + 1).
Proof.
  intros Hc Ha Hg HE. rewrite !zslice_split by lia. rewrite zslice_zupd, HE by lia. f_equal. rewrite Z.add_0_l, (zslice_one a c b Hg). apply zslice_one. apply zget_zupd_eq. lia.
Qed.
Lemma synth_name_ok n : forall a count c ans, bytes a -> bytes ans -> count <= zlen a -> 0 <= c <= 520 -> count <= zlen ans -> zslice ans 0 c = zslice a 0 c -> 521 <= c + Z.of_nat n ->
  exists c' ans', synth_name n a count c ans = Ok (c', ans') /\ zlen ans' = zlen ans /\ bytes ans' /\ zslice ans' 0 c' = zslice a 0 c' /\ c <= c' /\ (c' = c \/ c' <= Z.min 520 count) /\
    (forall j, c <= j < c' -> zget a j <> Some 0) /\ (c' < 520 -> c' < count -> zget a c' = Some 0).
Proof.
  induction n as [|n IH]; intros a count c ans HB HBa Hz Hc Hl HE Hn; [lia|]; cbn [synth_name].
  destruct ((c <? 520) && (c <? count)) eqn:E.
  - destruct (rd_ok a c ltac:(lia)) as (b & Eb & Zb). rewrite Eb. cbn [bind]. destruct (Z.eqb_spec b 0) as [->|N].
    + exists c, ans. split; [reflexivity|]. split; [reflexivity|]. split; [exact HBa|]. split; [exact HE|]. split; [lia|]. split; [lia|]. split; [intros; lia|auto].
    + rewrite wr_ok by lia. cbn [bind]. destruct (IH a count (c + 1) (zupd ans c b)) as (c' & ans' & E1 & E2 & E3 & E4 & E5 & E6 & E7 & E8); auto; try lia.
      * apply bytes_zupd; [exact HBa|exact (zget_bytes _ _ _ HB Zb)].
      * rewrite zlen_zupd. lia.
      * apply prefix_step; auto; lia.
      * rewrite zlen_zupd in E2. exists c', ans'. split; [exact E1|]. split; [exact E2|]. split; [exact E3|]. split; [exact E4|]. split; [lia|]. split; [lia|]. split; [|exact E8]. intros j Hj. destruct (Z.eq_dec j c) as [->|]; [congruence|apply E7; lia].
  - exists c, ans. split; [reflexivity|]. split; [reflexivity|]. split; [exact HBa|]. split; [exact HE|]. split; [lia|]. split; [lia|]. split; [intros; lia|intros; lia].
Qed.
Lemma copy_ok n src i dst j : bytes src -> bytes dst -> 0 <= i -> i + Z.of_nat n <= zlen src -> 0 <= j -> j + Z.of_nat n <= zlen dst ->
  exists d, copy_bytes n src i dst j = Ok d /\ bytes d /\ zlen d = zlen dst /\ zslice d 0 (j + Z.of_nat n) = zslice dst 0 j ++ zslice src i (Z.of_nat n).
Proof.
  intros HS HD Hi Hs Hj Hd. rewrite copy_bytes_ok by assumption. eexists. split; [reflexivity|]. assert (zlen (zslice src i (Z.of_nat n)) = Z.of_nat n) as L by (apply zlen_zslice; lia). split; [apply bytes_splice; [exact HD|apply bytes_zslice; exact HS]|]. split; [apply zlen_splice; lia|].
  rewrite zslice_split by lia. f_equal; [rewrite zslice_splice_disj by lia; reflexivity|]. rewrite Z.add_0_l. rewrite <- L at 2. apply zslice_splice_same; lia.
Qed.
Lemma synth_ok J a count synth slen : junk_ok J -> bytes a -> bytes synth -> 12 <= count <= zlen a -> 0 <= slen <= zlen synth -> count < 134217728 ->
  match make_synth_answer J a count synth slen with
  | Ok (Some (ans, c)) => zlen ans = count + slen + 3 /\ bytes ans /\ 17 <= c <= count /\ zslice ans 0 (c + slen) = zslice a 0 c ++ zslice synth 0 slen /\
      c <= 517 /\ (forall j, 12 <= j < c - 5 -> zget a j <> Some 0) /\ zget a (c - 5) = Some 0
  | Ok None => forall z, 12 <= z <= 512 -> z + 5 <= count -> (forall j, 12 <= j < z -> zget a j <> Some 0) -> zget a z <> Some 0
  | _ => False
  end.
Proof.
  intros HJ HB HBs Hc Hs Hm. unfold make_synth_answer. rewrite Z.min_l by lia. cbv zeta. assert (zlen (mkjunk J (count + slen + 3)) = count + slen + 3) as Lj by (apply zlen_mkjunk; lia). pose proof (bytes_mkjunk J (count + slen + 3) HJ) as Bj.
  set (j0 := mkjunk J (count + slen + 3)) in *. clearbody j0.
  destruct (copy_ok (Z.to_nat 12) a 0 j0 0 HB Bj) as (a1 & E1 & B1 & L1 & P1); try lia. rewrite E1. cbn [bind]. rewrite Z2Nat.id, Z.add_0_l in P1 by lia. rewrite zslice_nil in P1. cbn [app] in P1.
  destruct (synth_name_ok 521 a count 12 a1 HB B1) as (c & a2 & E2 & L2 & B2 & P2 & Hc1 & Hc2 & Hnz & Hz); try lia; [exact P1|]. rewrite E2. cbn [bind].
  destruct ((count <? c + 5) || (512 <? c)) eqn:E.
  - intros z Hz1 Hz2 Hz3 Hz4. destruct (Z_lt_dec z c) as [Hlt|Hge]; [exact (Hnz z ltac:(lia) Hz4)|]. destruct (Z.eq_dec z c) as [->|Hne]; [lia|]. apply (Hz3 c ltac:(lia)). apply Hz; lia.
  - destruct (copy_ok 5 a c a2 c HB B2) as (a3 & E3 & B3 & L3 & P3); try lia. rewrite E3. cbn [bind]. change (Z.of_nat 5) with 5 in *. rewrite P2 in P3. rewrite <- (Z.add_0_l c) in P3 at 3. rewrite <- zslice_split in P3 by lia.
    destruct (copy_ok (Z.to_nat slen) synth 0 a3 (c + 5) HBs B3) as (a4 & E4 & B4 & L4 & P4); try lia. rewrite E4. cbn [bind]. rewrite Z2Nat.id in P4 by lia. rewrite P3 in P4.
    split; [lia|]. split; [exact B4|]. split; [lia|]. split; [exact P4|]. split; [lia|]. replace (c + 5 - 5) with c by lia. split; [exact Hnz|]. apply Hz; lia.
Qed.

(** The first zero byte after the header ends the name. *)
Lemma wire_zero n : good_name n -> printable n -> (forall j, 0 <= j < zlen (wire n) - 1 -> zget (wire n) j <> Some 0) /\ zget (wire n) (zlen (wire n) - 1) = Some 0.
Proof.
  intros G. induction G as [|l n (Hl & Hb) G IH]; intros P.
  - split; [|reflexivity]. intros j Hj. change (zlen (wire [])) with 1 in Hj. lia.
  - inversion P as [|? ? Pl Pn]; subst. destruct (IH Pn) as (IH1 & IH2). cbn [wire]. rewrite zlen_cons, zlen_app. pose proof (zlen_wire_pos n). split.
    + intros j Hj. destruct (Z.eq_dec j 0) as [->|]; [rewrite zget_cons_0; intros E; injection E as E; lia|]. rewrite zget_cons_S by lia. destruct (Z_lt_dec (j - 1) (zlen l)).
      * rewrite zget_app_l by lia. intros E. unfold zget in E. destruct (j - 1 <? 0); [discriminate|]. apply nth_error_In in E. rewrite Forall_forall in Pl. specialize (Pl 0 E). cbn beta in Pl. lia.
      * rewrite zget_app_r by lia. apply IH1. lia.
    + rewrite zget_cons_S by lia. rewrite zget_app_r by lia. replace (zlen l + zlen (wire n) + 1 - 1 - 1 - zlen l) with (zlen (wire n) - 1) by lia. exact IH2.
Qed.
Lemma name_zero a len n : query_name_at a 12 len n -> (forall j, 12 <= j < 11 + zlen (wire n) -> zget a j <> Some 0) /\ zget a (11 + zlen (wire n)) = Some 0.
Proof.
  intros (G & P & L & E & Z). destruct (wire_zero n G P) as (W1 & W2). pose proof (zlen_wire_pos n). rewrite <- Z in W2 at 1. rewrite zget_zslice in W2 by lia. split; [|rewrite <- W2; f_equal; lia].
  intros j Hj. specialize (W1 (j - 12) ltac:(lia)). rewrite <- Z in W1 at 1. rewrite zget_zslice in W1 by lia. replace (12 + (j - 12)) with j in W1 by lia. exact W1.
Qed.
Lemma first_zero_unique a z z' : 12 <= z -> 12 <= z' -> (forall j, 12 <= j < z -> zget a j <> Some 0) -> zget a z = Some 0 -> (forall j, 12 <= j < z' -> zget a j <> Some 0) -> zget a z' = Some 0 -> z = z'.
Proof. intros H H' A B A' B'. destruct (Z_lt_dec z z'); [exfalso; exact (A' z ltac:(lia) B)|]. destruct (Z_lt_dec z' z); [exfalso; exact (A z' ltac:(lia) B')|]. lia. Qed.
(** With a well-formed question. *)
Lemma synth_question J a count synth slen n : junk_ok J -> bytes a -> bytes synth -> 12 <= count <= zlen a -> 0 <= slen <= zlen synth -> count < 134217728 -> query_name_at a 12 count n ->
  if 16 + zlen (wire n) <=? count then
    exists ans, make_synth_answer J a count synth slen = Ok (Some (ans, 16 + zlen (wire n))) /\ zlen ans = count + slen + 3 /\ bytes ans /\ zslice ans 0 (16 + zlen (wire n) + slen) = zslice a 0 (16 + zlen (wire n)) ++ zslice synth 0 slen
  else make_synth_answer J a count synth slen = Ok None.
Proof.
  intros HJ HB HBs Hc Hs Hm Hn. destruct (name_zero a count n Hn) as (Z1 & Z2). pose proof Hn as (G & P & L & E & Z). pose proof (zlen_wire_pos n). pose proof (synth_ok J a count synth slen HJ HB HBs Hc Hs Hm) as HS.
  destruct (make_synth_answer J a count synth slen) as [[(ans & c)|]| |f]; try contradiction.
  - destruct HS as (H1 & H2 & H3 & H4 & H5 & H6 & H7). assert (c - 5 = 11 + zlen (wire n)) as Ec by (eapply first_zero_unique; eauto; lia). replace (16 + zlen (wire n) <=? count) with true by lia. replace (16 + zlen (wire n)) with c by lia. exists ans. auto.
  - destruct (Z.leb_spec (16 + zlen (wire n)) count); [|reflexivity]. exfalso. apply (HS (11 + zlen (wire n))); auto; lia.
Qed.

(** Flagging and sending. *)
Lemma flag_send_ok a0 a1 a2 a3 a4 a5 a6 a7 a8 a9 a10 a11 rest len :
  flag_and_send (a0 :: a1 :: a2 :: a3 :: a4 :: a5 :: a6 :: a7 :: a8 :: a9 :: a10 :: a11 :: rest) len =
  if zlen rest + 12 <? len + 40 then Bad OutOfBounds else Ok (zslice (a0 :: a1 :: u8 (Z.lor a2 128) :: u8 (Z.lor a3 128) :: a4 :: a5 :: 0 :: 0 :: 0 :: 1 :: 0 :: 0 :: rest) 0 (len + 40)).
Proof.
  pose proof (zlen_nonneg rest). unfold flag_and_send, or_at.
  match goal with |- context [rd ?l 2] => change (rd l 2) with (Ok a2) end. cbn [bind].
  Ltac wr1 := rewrite wr_ok by (repeat rewrite ?zlen_cons; lia); cbn [bind]; match goal with |- context [zupd ?l ?i ?v] => let w := eval cbv [zupd Z.ltb Z.compare Z.to_nat Pos.to_nat Pos.iter_op Nat.add upd_nat] in (zupd l i v) in change (zupd l i v) with w end.
  wr1.
  match goal with |- context [rd ?l 3] => change (rd l 3) with (Ok a3) end. cbn [bind].
  do 7 wr1.
  unfold sendto. repeat rewrite zlen_cons. replace (zlen rest + 1 + 1 + 1 + 1 + 1 + 1 + 1 + 1 + 1 + 1 + 1 + 1) with (zlen rest + 12) by lia. reflexivity.
Qed.

(** ** Packets of clients *)
Lemma slice12 x0 x1 x2 x3 x4 x5 x6 x7 x8 x9 x10 x11 r k : 0 <= k ->
  zslice (x0 :: x1 :: x2 :: x3 :: x4 :: x5 :: x6 :: x7 :: x8 :: x9 :: x10 :: x11 :: r) 0 (12 + k) = x0 :: x1 :: x2 :: x3 :: x4 :: x5 :: x6 :: x7 :: x8 :: x9 :: x10 :: x11 :: zslice r 0 k.
Proof. intros Hk. rewrite zslice_split by lia. reflexivity. Qed.
Lemma header12 h : exists x0 x1 x4 x5 x6 x7 x8 x9 x10 x11, forall rest, header_bytes h ++ rest = x0 :: x1 :: (h_qr h * 128 + h_opcode h * 8 + h_aa h * 4 + h_tc h * 2 + h_rd h) :: (h_ra h * 128 + h_z h * 64 + h_ad h * 32 + h_cd h * 16 + h_rcode h) :: x4 :: x5 :: x6 :: x7 :: x8 :: x9 :: x10 :: x11 :: rest.
Proof. repeat eexists. Qed.
Lemma flag2 aa tc rd : bit aa -> bit tc -> bit rd -> u8 (Z.lor (0 * 128 + 0 * 8 + aa * 4 + tc * 2 + rd) 128) = 1 * 128 + 0 * 8 + aa * 4 + tc * 2 + rd.
Proof. intros [->| ->] [->| ->] [->| ->]; reflexivity. Qed.
Lemma flag3 ra ad cd : bit ra -> bit ad -> bit cd -> u8 (Z.lor (ra * 128 + 0 * 64 + ad * 32 + cd * 16 + 0) 128) = 1 * 128 + 0 * 64 + ad * 32 + cd * 16 + 0.
Proof. intros [->| ->] [->| ->] [->| ->]; reflexivity. Qed.
(** The header of a query, flagged. *)
Lemma flag_send_header h ar c k : header_ok h -> plain_query h -> 12 <= c -> k = c + 40 - 12 ->
  flag_and_send (header_bytes h ++ ar) c = if zlen ar <? k then Bad OutOfBounds else Ok (header_bytes (denied h) ++ zslice ar 0 k).
Proof.
  intros (_ & _ & _ & Ha & Ht & Hr & Hra & _ & Had & Hcd & _) (P1 & P2 & P3 & P4 & P5 & P6 & P7 & P8) Hc ->. unfold header_bytes at 1. unfold num2. cbn [app]. rewrite flag_send_ok. replace (zlen ar + 12 <? c + 40) with (zlen ar <? c + 40 - 12) by lia. destruct (zlen ar <? c + 40 - 12); [reflexivity|]. f_equal.
  replace (c + 40) with (12 + (c + 40 - 12)) at 1 by lia. rewrite slice12 by lia. unfold denied, header_bytes, num2. cbn [h_id h_qr h_opcode h_aa h_tc h_rd h_ra h_z h_ad h_cd h_rcode h_qdcount h_ancount h_nscount h_arcount app]. rewrite P1, P2, P4, P5. rewrite flag2, flag3 by assumption. reflexivity.
Qed.
(** A made-up reply to a query. *)
Lemma synth_reply J h rest len synth slen n : junk_ok J -> header_ok h -> plain_query h -> bytes (header_bytes h ++ rest) -> bytes synth -> 12 <= len <= zlen (header_bytes h ++ rest) -> 0 <= slen <= zlen synth -> len < 134217728 ->
  query_name_at (header_bytes h ++ rest) 12 len n ->
  exists r, make_synth_answer J (header_bytes h ++ rest) len synth slen = Ok r /\
  match r with
  | None => len < 16 + zlen (wire n)
  | Some (ans, c) => c = 16 + zlen (wire n) /\ c <= len /\
      (slen = 40 -> flag_and_send ans c = Ok (header_bytes (denied h) ++ wire n ++ zslice (header_bytes h ++ rest) (12 + zlen (wire n)) 4 ++ zslice synth 0 40)) /\
      (len + slen + 3 < c + 40 -> flag_and_send ans c = Bad OutOfBounds)
  end.
Proof.
  intros HJ HH HP HB HBs Hl Hs Hm Hn. pose proof (synth_question J _ len synth slen n HJ HB HBs Hl Hs Hm Hn) as HS. pose proof (zlen_wire_pos n) as HW. destruct (Z.leb_spec (16 + zlen (wire n)) len) as [H|H]; [|eexists; split; [exact HS|exact H]].
  destruct HS as (ans & E & La & Ba & Ha). eexists. split; [exact E|]. split; [reflexivity|]. split; [exact H|]. set (c := 16 + zlen (wire n)) in *.
  assert (exists ar, ans = header_bytes h ++ ar) as (ar & ->).
  { exists (zslice ans 12 (zlen ans - 12)). rewrite <- (zslice_all ans) at 1. replace (zlen ans) with (12 + (zlen ans - 12)) at 1 by lia. rewrite zslice_split by lia. f_equal.
    apply (f_equal (fun l => zslice l 0 12)) in Ha. rewrite zslice_zslice in Ha by lia. rewrite zslice_app_l in Ha by (rewrite ?zlen_zslice; lia). rewrite zslice_zslice in Ha by lia. rewrite Z.add_0_l in Ha. rewrite Ha. rewrite zslice_app_l by (change (zlen (header_bytes h)) with 12; lia). reflexivity. }
  assert (zlen (header_bytes h ++ ar) = 12 + zlen ar) as Lar by (rewrite zlen_app; reflexivity). split.
  - intros ->. rewrite (flag_send_header h ar c (c + 28)) by (auto; lia). replace (zlen ar <? c + 28) with false by lia. f_equal. f_equal.
    apply (f_equal (fun l => zslice l 12 (c + 28))) in Ha. rewrite zslice_zslice in Ha by lia. rewrite Z.add_0_l in Ha. rewrite zslice_app_r in Ha by (change (zlen (header_bytes h)) with 12; lia). change (12 - zlen (header_bytes h)) with 0 in Ha. rewrite Ha.
    pose proof Hn as (_ & _ & _ & He & Hz). replace (c + 28) with (c - 12 + 40) by lia. rewrite zslice_split by (rewrite ?zlen_app, ?zlen_zslice; lia). rewrite app_assoc. f_equal.
    + rewrite zslice_app_l by (rewrite ?zlen_zslice; lia). rewrite zslice_zslice by lia. rewrite Z.add_0_l. replace (c - 12) with (zlen (wire n) + 4) by lia. rewrite zslice_split by lia. rewrite Hz. reflexivity.
    + rewrite zslice_app_r by (rewrite ?zlen_zslice; lia). rewrite zlen_zslice by lia. replace (12 + (c - 12) - c) with 0 by lia. rewrite zslice_zslice by lia. rewrite Z.add_0_l. reflexivity.
  - intros Hlt. rewrite (flag_send_header h ar c (c + 28)) by (auto; lia). replace (zlen ar <? c + 28) with true by lia. reflexivity.
Qed.
Lemma rejected_spec cf t b : (t =? 28) && cf_reject_aaaa cf || (t =? 12) && cf_reject_ptr cf || ((t =? 255) || (t =? 13)) && cf_rfc8482 cf || b = true <-> rejected cf t b.
Proof. unfold rejected. destruct (cf_reject_aaaa cf), (cf_reject_ptr cf), (cf_rfc8482 cf), b; lia. Qed.
Lemma local_question_ok J cf h rest len n t0 t1 b : junk_ok J -> header_ok h -> plain_query h -> h_arcount h = 0 -> bytes (header_bytes h ++ rest) -> len <= zlen (header_bytes h ++ rest) -> len < 134217728 ->
  query_name_at (header_bytes h ++ rest) 12 len n -> zslice (header_bytes h ++ rest) (12 + zlen (wire n)) 2 = [t0; t1] -> ~ 65392 <= t0 * 256 + t1 <= 65407 ->
  blocklist_says cf (wire (lower_name n) ++ [t0; t1]) b ->
  (~ rejected cf (t0 * 256 + t1) b -> exists q o, local_question J cf (h_id h) (header_bytes h ++ rest) len = Ok (Lookup q o (h_id h) (header_bytes h ++ rest) len) /\ qok q /\ dok o /\ con q = wire (lower_name n) ++ [t0; t1] /\ con o = wire n ++ [t0; t1]) /\
  (rejected cf (t0 * 256 + t1) b -> len < 16 + zlen (wire n) -> local_question J cf (h_id h) (header_bytes h ++ rest) len = Ok Drop) /\
  (rejected cf (t0 * 256 + t1) b -> 16 + zlen (wire n) <= len -> t0 * 256 + t1 <> 255 -> t0 * 256 + t1 <> 13 ->
     local_question J cf (h_id h) (header_bytes h ++ rest) len = Ok (Reply (header_bytes (denied h) ++ wire n ++ zslice (header_bytes h ++ rest) (12 + zlen (wire n)) 4 ++ no_data))) /\
  (rejected cf (t0 * 256 + t1) b -> 16 + zlen (wire n) <= len < 32 + zlen (wire n) -> t0 * 256 + t1 = 255 \/ t0 * 256 + t1 = 13 ->
     local_question J cf (h_id h) (header_bytes h ++ rest) len = Bad OutOfBounds).
Proof.
  intros HJ HH HP HA HB Hl Hm Hn Ht Hpr Hb. set (p := header_bytes h ++ rest) in *. pose proof Hn as (G & P & L & E & Z). pose proof (zlen_wire_pos n) as HW.
  assert (0 <= h_id h) as Hi by (destruct HH as ((H0 & _) & _); exact H0).
  assert (bytes [t0; t1]) as HB2 by (rewrite <- Ht; apply bytes_zslice; exact HB). inversion HB2 as [|? ? B0 HB3]; subst. inversion HB3 as [|? ? B1 _]; subst.
  assert (local_question J cf (h_id h) p len = (
    if (((t0 * 256 + t1) =? 28) && cf_reject_aaaa cf) || (((t0 * 256 + t1) =? 12) && cf_reject_ptr cf) || ((((t0 * 256 + t1) =? 255) || ((t0 * 256 + t1) =? 13)) && cf_rfc8482 cf) || b then
      r <- (if ((t0 * 256 + t1) =? 255) || ((t0 * 256 + t1) =? 13) then make_synth_rfc8482_answer J p len else make_synth_not_there_answer J p len) ;;
      match r with None => Ok Drop | Some (answer, len) => pk <- flag_and_send answer len ;; Ok (Reply pk) end
    else local_question J cf (h_id h) p len) /\
    (~ rejected cf (t0 * 256 + t1) b -> exists q o, local_question J cf (h_id h) p len = Ok (Lookup q o (h_id h) p len) /\ qok q /\ dok o /\ con q = wire (lower_name n) ++ [t0; t1] /\ con o = wire n ++ [t0; t1])) as (ELQ & HLook).
  { unfold local_question. replace ((h_id h <? 0) || (len <? 13)) with false by lia. pose proof (get_dname_type_spec J p 12 len HJ HB ltac:(lia) Hm) as HS. destruct (dw_get_dname_type J p 12 len) as [s| |f]; [| |lia].
    2: { exfalso. apply Hpr. exact (HS n t0 t1 Hn Ht). }
    destruct HS as (D & _ & n' & t0' & t1' & Hn' & Ht' & C & _). pose proof (query_name_unique _ _ _ _ _ Hn Hn') as <-. rewrite Ht in Ht'. injection Ht' as <- <-.
    assert (dw_fetch_u16 s (-1) = Ok (t0 * 256 + t1)) as EF.
    { apply (ProofDwDissect.fetch_last s (wire n)); [exact D| |unfold byte in *; lia]. rewrite C. f_equal. unfold num16. clear - B0 B1. unfold byte in *. f_equal; [|f_equal]; lia. }
    rewrite EF. cbn [bind]. destruct (ProofDwDnsStr.dw_copy_ok J s HJ D) as (o & Eo & Do & Co & _). rewrite Eo. cbn [bind]. destruct (lower_case_ok s n [t0; t1] (dok_dwf s D) G C) as (q & Eq & Wq & Cq & Lq & Mq). rewrite Eq. cbn [bind].
    assert (match cf_hash cf with None => Ok false | Some hash => if 2 <? d_len q then in_blocked_hosts hash (con q) else Ok false end = Ok b) as Ebl.
    { unfold blocklist_says in Hb. destruct (cf_hash cf); [|rewrite Hb; reflexivity]. replace (2 <? d_len q) with true; [rewrite Cq; exact Hb|]. rewrite <- (zlen_con q Wq), Cq, zlen_app, zlen_wire_lower. change (zlen [t0; t1]) with 2. lia. }
    rewrite Ebl. cbn [bind]. destruct (_ || b) eqn:ER; (split; [reflexivity|]); intros HR.
    - exfalso. apply HR. apply rejected_spec. exact ER.
    - exists q, o. split; [reflexivity|]. split; [split; [split; [exact Wq|rewrite Lq, Mq; exact (proj2 D)]|]; exists n, t0, t1; repeat (split; [assumption|]); exact Cq|]. split; [exact Do|]. split; [exact Cq|]. rewrite Co. exact C. }
  split; [exact HLook|]. clear HLook.
  assert (bytes any_answer) as BA by (apply bytesb_spec; reflexivity). assert (bytes not_there) as BN by (apply bytesb_spec; reflexivity).
  assert (rejected cf (t0 * 256 + t1) b -> local_question J cf (h_id h) p len =
      (r <- (if ((t0 * 256 + t1) =? 255) || ((t0 * 256 + t1) =? 13) then make_synth_rfc8482_answer J p len else make_synth_not_there_answer J p len) ;;
      match r with None => Ok Drop | Some (answer, len) => pk <- flag_and_send answer len ;; Ok (Reply pk) end)) as ER.
  { intros HR. rewrite ELQ at 1. match goal with |- (if ?c then _ else _) = _ => replace c with true by (symmetry; apply rejected_spec; exact HR) end. reflexivity. }
  destruct (synth_reply J h rest len any_answer 21 n HJ HH HP HB BA ltac:(fold p; lia) ltac:(vm_compute; intuition congruence) Hm Hn) as (ra & Era & Hra). fold p in Era, Hra.
  destruct (synth_reply J h rest len not_there 40 n HJ HH HP HB BN ltac:(fold p; lia) ltac:(vm_compute; intuition congruence) Hm Hn) as (rn & Ern & Hrn). fold p in Ern, Hrn.
  unfold make_synth_rfc8482_answer, make_synth_not_there_answer in ER. rewrite Era, Ern in ER. split; [|split].
  - intros HR Hlen. rewrite (ER HR). clear ELQ ER. destruct ((t0 * 256 + t1 =? 255) || (t0 * 256 + t1 =? 13)); cbn [bind]; [destruct ra as [(ans & c)|]; [exfalso; destruct Hra as (H1 & H2 & _); clear - H1 H2 Hlen; lia|reflexivity]|destruct rn as [(ans & c)|]; [exfalso; destruct Hrn as (H1 & H2 & _); clear - H1 H2 Hlen; lia|reflexivity]].
  - intros HR Hlen N1 N2. rewrite (ER HR). replace ((t0 * 256 + t1 =? 255) || (t0 * 256 + t1 =? 13)) with false by lia. cbn [bind]. destruct rn as [(ans & c)|]; [|lia]. destruct Hrn as (_ & _ & HF & _). rewrite (HF eq_refl). cbn [bind]. reflexivity.
  - intros HR Hlen HT. rewrite (ER HR). replace ((t0 * 256 + t1 =? 255) || (t0 * 256 + t1 =? 13)) with true by lia. cbn [bind]. destruct ra as [(ans & c)|]; [|lia]. destruct Hra as (-> & _ & _ & HF). rewrite HF by lia. reflexivity.
Qed.
Lemma qid2 h rest len : header_ok h -> 12 <= len ->
  (plain_query h /\ h_arcount h = 0 -> get_dns_qid (header_bytes h ++ rest) len 2 = Ok (h_id h)) /\
  (plain_query h /\ h_arcount h = 1 -> get_dns_qid (header_bytes h ++ rest) len 2 = Ok (-2)) /\
  (~ (plain_query h /\ (h_arcount h = 0 \/ h_arcount h = 1)) -> get_dns_qid (header_bytes h ++ rest) len 2 = Ok (-1)).
Proof.
  intros H Hl. rewrite get_qid_bytes by assumption. change (2 =? 1) with false. change (2 =? 2) with true. cbn [andb]. pose proof H as (_ & _ & _ & _ & _ & _ & _ & _ & _ & _ & _ & Hq & Ha & Hn & Hr). unfold word, plain_query in *.
  destruct (negb ((h_qr h =? 0) && (h_opcode h =? 0) && (h_rd h =? 1) && (h_z h =? 0) && (h_rcode h =? 0) && (h_qdcount h =? 1) && (h_ancount h =? 0) && (h_nscount h =? 0) && (h_arcount h <? 256))) eqn:E.
  - split; [intros; lia|]. split; [intros; lia|]. reflexivity.
  - destruct (Z.eqb_spec (h_arcount h) 1) as [E1|E1]; [split; [intros; lia|]; split; [reflexivity|intros; lia]|]. destruct (Z.eqb_spec (h_arcount h) 0) as [E0|E0]; cbn [negb].
    + split; [|split; intros; lia]. intros _. replace (_ && _) with false by lia. reflexivity.
    + split; [intros; lia|]. split; [intros; lia|]. reflexivity.
Qed.
Lemma without_ok h : header_ok h -> header_ok (without_additional h).
Proof. unfold header_ok, without_additional, word. cbn [h_id h_qr h_opcode h_aa h_tc h_rd h_ra h_z h_ad h_cd h_rcode h_qdcount h_ancount h_nscount h_arcount]. intros (? & ? & ? & ? & ? & ? & ? & ? & ? & ? & ? & ? & ? & ? & ?). repeat (split; [assumption|]). lia. Qed.
Lemma without_bytes h rest : h_arcount h = 1 -> wr (header_bytes h ++ rest) 11 0 = Ok (header_bytes (without_additional h) ++ rest).
Proof.
  intros H. rewrite wr_ok by (rewrite zlen_app; change (zlen (header_bytes h)) with 12; pose proof (zlen_nonneg rest); lia). f_equal. unfold header_bytes, without_additional, num2. cbn [h_id h_qr h_opcode h_aa h_tc h_rd h_ra h_z h_ad h_cd h_rcode h_qdcount h_ancount h_nscount h_arcount]. rewrite H. reflexivity.
Qed.
Lemma header_bytes_zget h h' rest j : 12 <= j -> zget (header_bytes h' ++ rest) j = zget (header_bytes h ++ rest) j.
Proof. intros Hj. rewrite !zget_app_r by (change (zlen (header_bytes h')) with 12; change (zlen (header_bytes h)) with 12; lia). reflexivity. Qed.
Lemma header_bytes_slice h h' rest i k : 12 <= i -> zslice (header_bytes h' ++ rest) i k = zslice (header_bytes h ++ rest) i k.
Proof. intros Hi. apply zslice_ext; [|lia]. intros j Hj. apply header_bytes_zget. lia. Qed.
Lemma bytes_header h : header_ok h -> bytes (header_bytes h).
Proof.
  intros (H1 & H2 & H3 & H4 & H5 & H6 & H7 & H8 & H9 & H10 & H11 & H12 & H13 & H14 & H15).
  assert (forall w, word w -> bytes (num2 w)) as HW by (clear; unfold word, num2; intros; constructor; [unfold byte; lia|]; constructor; [unfold byte; lia|constructor]).
  unfold header_bytes. repeat (apply bytes_app; split; [try (apply HW; assumption)|]); try (apply HW; assumption).
  assert (forall x, bit x -> 0 <= x < 2) as HBit by (clear; unfold bit; intros; lia). apply HBit in H2, H4, H5, H6, H7, H8, H9, H10. clear - H2 H3 H4 H5 H6 H7 H8 H9 H10 H11. constructor; [unfold byte; lia|]. constructor; [unfold byte; lia|]. constructor.
Qed.
(** What is left of the query that is looked at. *)
Lemma plain_without h : plain_query h -> plain_query (without_additional h).
Proof. unfold plain_query, without_additional. cbn [h_id h_qr h_opcode h_aa h_tc h_rd h_ra h_z h_ad h_cd h_rcode h_qdcount h_ancount h_nscount h_arcount]. auto. Qed.
Lemma get_local_is J cf ip h rest len n t0 t1 : junk_ok J -> header_ok h -> plain_query h -> h_arcount h = 0 \/ h_arcount h = 1 -> bytes rest -> 510 <= zlen rest -> len <= 520 ->
  check_ip_acl (cf_acl cf) (zlen ip) ip = Ok 1 -> query_name_at (header_bytes h ++ rest) 12 len n -> zslice (header_bytes h ++ rest) (12 + zlen (wire n)) 2 = [t0; t1] -> ~ 65392 <= t0 * 256 + t1 <= 65407 ->
  get_local_udp_packet J cf ip (header_bytes h ++ rest) len = local_question J cf (h_id h) (header_bytes (seen_header h) ++ rest) (seen_len h len n) /\
  seen_len h len n <= 520 /\ query_name_at (header_bytes (seen_header h) ++ rest) 12 (seen_len h len n) n.
Proof.
  intros HJ HH HP HA HB Hr Hl Hacl Hn Ht Hpr. pose proof Hn as (G & P & L & E & Z). pose proof (zlen_wire_pos n) as HW. assert (bytes (header_bytes h ++ rest)) as HBp by (apply bytes_app; split; [apply bytes_header; exact HH|exact HB]).
  unfold get_local_udp_packet. replace (len <? 12) with false by lia. rewrite Hacl. cbn [bind]. change (negb (1 =? 1)) with false. cbv iota. destruct (qid2 h rest len HH ltac:(lia)) as (Q0 & Q1 & _). unfold seen_header, seen_len. destruct HA as [HA|HA].
  - rewrite Q0 by auto. cbn [bind]. rewrite HA. change (0 =? 1) with false. cbv iota. replace (h_id h =? -2) with false; [split; [reflexivity|]; split; [lia|exact Hn]|]. destruct HH as ((H0 & _) & _). lia.
  - rewrite Q1 by auto. cbn [bind]. rewrite HA. change (1 =? 1) with true. change (-2 =? -2) with true. cbv iota.
    assert (query_name_at (header_bytes (without_additional h) ++ rest) 12 (16 + zlen (wire n)) n) as Hn'.
    { split; [exact G|]. split; [exact P|]. split; [exact L|]. split; [lia|]. rewrite (header_bytes_slice h) by lia. exact Z. }
    split; [|split; [lia|exact Hn']].
    pose proof (get_dname_type_spec J (header_bytes h ++ rest) 12 len HJ HBp ltac:(lia) ltac:(lia)) as HS. destruct (dw_get_dname_type J (header_bytes h ++ rest) 12 len) as [s| |f].
    + destruct HS as (D & _ & n' & t0' & t1' & Hn2 & Ht' & C & _). pose proof (query_name_unique _ _ _ _ _ Hn Hn2) as <-. rewrite without_bytes by exact HA. cbn [bind].
      assert (d_len s + 14 = 16 + zlen (wire n)) as -> by (rewrite <- (zlen_con s (dok_dwf s D)), C, zlen_app; change (zlen [t0'; t1']) with 2; lia).
      destruct (qid2 (without_additional h) rest (16 + zlen (wire n)) (without_ok h HH) ltac:(lia)) as (Q0' & _). rewrite Q0' by (split; [apply plain_without; exact HP|reflexivity]). cbn [bind]. reflexivity.
    + exfalso. apply Hpr. exact (HS n t0 t1 Hn Ht).
    + exfalso. rewrite zlen_app in HS. change (zlen (header_bytes h)) with 12 in HS. lia.
Qed.
Lemma get_local_drop J cf ip h rest len a : junk_ok J -> header_ok h -> bytes rest -> 510 <= zlen rest -> len <= 520 -> check_ip_acl (cf_acl cf) (zlen ip) ip = Ok a ->
  (a <> 1 -> get_local_udp_packet J cf ip (header_bytes h ++ rest) len = Ok Drop) /\
  (len < 12 -> get_local_udp_packet J cf ip (header_bytes h ++ rest) len = Ok Drop) /\
  (~ (plain_query h /\ (h_arcount h = 0 \/ h_arcount h = 1)) -> get_local_udp_packet J cf ip (header_bytes h ++ rest) len = Ok Drop) /\
  ((forall q, ~ question (header_bytes h ++ rest) len q) -> get_local_udp_packet J cf ip (header_bytes h ++ rest) len = Ok Drop).
Proof.
  intros HJ HH HB Hr Hl Hacl. assert (bytes (header_bytes h ++ rest)) as HBp by (apply bytes_app; split; [apply bytes_header; exact HH|exact HB]). assert (12 + 510 <= zlen (header_bytes h ++ rest)) as HLp by (rewrite zlen_app; change (zlen (header_bytes h)) with 12; lia). unfold get_local_udp_packet.
  destruct (Z.ltb_spec len 12) as [H12|H12]; [auto|]. rewrite Hacl. cbn [bind]. destruct (Z.eqb_spec a 1) as [->|Na]; cbn [negb]; [|auto]. split; [intros []; reflexivity|]. split; [intros; lia|].
  destruct (qid2 h rest len HH H12) as (Q0 & Q1 & Q2). split.
  - intros HN. rewrite Q2 by exact HN. cbn [bind]. change (-1 =? -2) with false. cbv iota. unfold local_question. change (-1 <? 0) with true. reflexivity.
  - intros HQ. assert (dw_get_dname_type J (header_bytes h ++ rest) 12 len = Fail) as EF.
    { pose proof (get_dname_type_spec J (header_bytes h ++ rest) 12 len HJ HBp ltac:(lia) ltac:(lia)) as HS. destruct (dw_get_dname_type J (header_bytes h ++ rest) 12 len) as [s| |f]; [|reflexivity|lia].
      destruct HS as (D & _ & n & t0 & t1 & Hn & Ht & C & Hp). exfalso. apply (HQ (wire (lower_name n) ++ [t0; t1])). exists n, t0, t1. auto. }
    assert (exists id, get_dns_qid (header_bytes h ++ rest) len 2 = Ok id) as (id & Eid).
    { rewrite get_qid_bytes by assumption. repeat match goal with |- context [if ?c then _ else _] => destruct c end; eexists; reflexivity. }
    rewrite Eid. cbn [bind]. destruct (id =? -2); [rewrite EF; reflexivity|]. unfold local_question. destruct (_ || _); [reflexivity|]. rewrite EF. reflexivity.
Qed.

(** ** Cutting truncated packets *)
Lemma cut_gen n : forall a count z y x, bytes a -> count <= zlen a -> 0 <= z -> count < z + Z.of_nat n -> (0 < n)%nat ->
  exists r, cut_loop n a count z y x = Ok r /\ match r with None => True | Some c => c <= count /\ (c = count \/ z < c) end.
Proof.
  induction n as [|n IH]; intros a count z y x HB Hc Hz Hn H0; [lia|]. cbn [cut_loop]. destruct (Z.ltb_spec z count) as [Hlt|Hge]; [|eexists; split; [reflexivity|]; split; [lia|left; reflexivity]].
  assert (forall c' y' x', c' <= count -> c' = count \/ z < c' -> exists r, cut_loop n a c' (z + 1) y' x' = Ok r /\ match r with None => True | Some c => c <= count /\ (c = count \/ z < c) end) as HI.
  { intros c' y' x' Hc' Hc2. destruct (IH a c' (z + 1) y' x') as (r & E & Hr); auto; try lia. exists r. split; [exact E|]. destruct r; [lia|exact Logic.I]. }
  destruct (rd_ok a z ltac:(lia)) as (b & Eb & Zb). pose proof (zget_bytes _ _ _ HB Zb) as Hb. unfold byte in Hb. rewrite Eb. cbn [bind].
  destruct (y =? 0); [destruct (63 <? b); [eexists; split; [reflexivity|exact Logic.I]|destruct (b =? 0); apply HI; lia]|].
  destruct (y =? 1); [apply HI; lia|]. destruct (y =? 7); [apply HI; lia|].
  destruct (y =? 2); [destruct (b =? 192); cbn [negb]; [apply HI; lia|eexists; split; [reflexivity|exact Logic.I]]|].
  destruct (y =? 3); [destruct (b =? 12); cbn [negb]; [apply HI; lia|eexists; split; [reflexivity|exact Logic.I]]|].
  destruct (y =? 4); [apply HI; lia|].
  destruct (y =? 5); [destruct (b =? 0); cbn [negb]; [apply HI; lia|eexists; split; [reflexivity|exact Logic.I]]|].
  destruct (y =? 6); [destruct (Z.ltb_spec count (z + b + 1)); [eexists; split; [reflexivity|exact Logic.I]|apply HI; lia]|].
  apply HI; lia.
Qed.
Lemma cut_label k : forall n a count z, (0 < k)%nat -> z + Z.of_nat k <= count -> cut_loop (k + n) a count z 1 (Z.of_nat k) = cut_loop n a count (z + Z.of_nat k) 0 0.
Proof.
  induction k as [|k IH]; intros n a count z Hk Hz; [lia|]. cbn [Nat.add cut_loop]. replace (z <? count) with true by lia. change (1 =? 0) with false. change (1 =? 1) with true. cbv iota. destruct k as [|k].
  - change (Z.of_nat 1 - 1) with 0. change (0 =? 0) with true. cbv iota. cbn [Nat.add]. reflexivity.
  - replace (Z.of_nat (S (S k)) - 1) with (Z.of_nat (S k)) by lia. replace (Z.of_nat (S k) =? 0) with false by lia. rewrite IH by lia. f_equal. lia.
Qed.
Lemma cut_name nm : forall n a count z x, good_name nm -> zslice a z (zlen (wire nm)) = wire nm -> 0 <= z -> z + zlen (wire nm) <= count -> count <= zlen a ->
  cut_loop (Z.to_nat (zlen (wire nm)) + n) a count z 0 x = cut_loop n a count (z + zlen (wire nm)) 7 4.
Proof.
  induction nm as [|l nm IH]; intros n a count z x G Hs Hz Hc Ha.
  - change (zlen (wire [])) with 1 in *. change (Z.to_nat 1) with 1%nat. cbn [Nat.add cut_loop]. replace (z <? count) with true by lia. change (0 =? 0) with true. cbv iota.
    assert (zget a z = Some 0) as G0 by (apply (f_equal (fun l => zget l 0)) in Hs; rewrite zget_zslice, Z.add_0_r in Hs by lia; exact Hs). rewrite (rd_of_zget _ _ _ G0). cbn [bind]. change (63 <? 0) with false. change (0 =? 0) with true. reflexivity.
  - inversion G as [|? ? (Hl & Hb) G']; subst. cbn [wire] in Hs, Hc |- *. rewrite zlen_cons, zlen_app in Hs, Hc |- *. pose proof (zlen_wire_pos nm).
    assert (zget a z = Some (zlen l)) as G0 by (apply (f_equal (fun l => zget l 0)) in Hs; rewrite zget_zslice, Z.add_0_r in Hs by lia; exact Hs).
    replace (Z.to_nat (zlen l + zlen (wire nm) + 1) + n)%nat with (S (Z.to_nat (zlen l) + (Z.to_nat (zlen (wire nm)) + n))) by lia. cbn [cut_loop]. replace (z <? count) with true by lia. change (0 =? 0) with true. cbv iota.
    rewrite (rd_of_zget _ _ _ G0). cbn [bind]. replace (63 <? zlen l) with false by lia. replace (zlen l =? 0) with false by lia.
    rewrite <- (Z2Nat.id (zlen l)) at 2 by lia. rewrite cut_label by lia. rewrite Z2Nat.id by lia.
    assert (zslice a (z + 1 + zlen l) (zlen (wire nm)) = wire nm) as Hs'.
    { apply (f_equal (fun x => zslice x (1 + zlen l) (zlen (wire nm)))) in Hs. rewrite zslice_zslice in Hs by lia.
      replace (z + 1 + zlen l) with (z + (1 + zlen l)) by lia. rewrite Hs. change (zlen l :: l ++ wire nm) with ((zlen l :: l) ++ wire nm).
      rewrite zslice_app_r by (rewrite ?zlen_cons; lia). rewrite zlen_cons. replace (1 + zlen l - (zlen l + 1)) with 0 by lia. apply zslice_all. }
    rewrite IH; auto; try lia. f_equal. lia.
Qed.
Lemma cut_question a count nm : bytes a -> count <= zlen a -> query_name_at a 12 count nm ->
  exists r, cut_loop (Z.to_nat (count + 1)) a count 12 0 0 = Ok r /\ match r with None => True | Some c => c <= count /\ 14 + zlen (wire nm) <= c end.
Proof.
  intros HB Hc (G & P & L & E & Z). pose proof (zlen_wire_pos nm). replace (Z.to_nat (count + 1)) with (Z.to_nat (zlen (wire nm)) + (S (S (Z.to_nat (count + 1 - zlen (wire nm) - 2)))))%nat by lia. rewrite cut_name; auto; try lia.
  cbn [cut_loop]. replace (12 + zlen (wire nm) <? count) with true by lia. change (7 =? 0) with false. change (7 =? 1) with false. change (7 =? 7) with true. cbv iota. change (4 - 1 =? 0) with false. cbv iota. change (7 =? 0) with false. change (7 =? 1) with false. change (7 =? 7) with true. cbv iota.
  replace (12 + zlen (wire nm) + 1 <? count) with true by lia. change (4 - 1 - 1 =? 0) with false. cbv iota.
  destruct (cut_gen (Z.to_nat (count + 1 - zlen (wire nm) - 2)) a count (12 + zlen (wire nm) + 1 + 1) 7 (4 - 1 - 1)) as (r & Er & Hr); auto; try lia. exists r. split; [exact Er|]. destruct r; [lia|exact Logic.I].
Qed.
(** Same but for the header (and the ID unchanged). *)
Definition same_tail (a a' : list Z) : Prop := zlen a' = zlen a /\ (forall j, 0 <= j < 2 \/ 12 <= j -> zget a' j = zget a j).
Lemma same_refl a : same_tail a a. Proof. split; auto. Qed.
Lemma same_trans a b c : same_tail a b -> same_tail b c -> same_tail a c.
Proof. intros (H1 & H2) (H3 & H4). split; [lia|]. intros j Hj. rewrite H4, H2 by auto. reflexivity. Qed.
Lemma same_upd a i v : 2 <= i < 12 -> same_tail a (zupd a i v).
Proof. intros Hi. split; [apply zlen_zupd|]. intros j Hj. apply zget_zupd_neq; lia. Qed.
Lemma same_wr a i v : bytes a -> byte v -> 2 <= i < 12 -> i < zlen a -> exists a', wr a i v = Ok a' /\ same_tail a a' /\ bytes a'.
Proof. intros HB Hv Hi Hl. rewrite wr_ok by lia. eexists. split; [reflexivity|]. split; [apply same_upd; lia|apply bytes_zupd; assumption]. Qed.
Lemma same_question a a' len q : same_tail a a' -> question a len q -> question a' len q.
Proof. intros (_ & H). apply question_ext. intros j Hj. apply H. auto. Qed.
Lemma same_sym a a' : same_tail a a' -> same_tail a' a.
Proof. intros (H1 & H2). split; [lia|]. intros j Hj. symmetry. auto. Qed.
Lemma same_id a a' id : 2 <= zlen a -> same_tail a a' -> id_is a id -> id_is a' id.
Proof.
  intros Hz (HL & H) (b0 & b1 & Hs & ->). exists b0, b1. split; [|reflexivity]. rewrite <- Hs. apply zlist_ext; [rewrite !zlen_zslice by lia; reflexivity|]. intros j Hj. rewrite zlen_zslice in Hj by lia.
  rewrite !zget_zslice by lia. apply H. lia.
Qed.
Lemma byte_const v : 0 <= v < 256 -> byte v. Proof. auto. Qed.
Lemma cut_truncated_ok hack a count q : bytes a -> 12 <= zlen a -> count <= zlen a -> question a count q ->
  exists r, cut_truncated hack a count = Ok r /\ match r with None => True | Some (a', c) => bytes a' /\ same_tail a a' /\ c <= count /\ question a' c q end.
Proof.
  intros HB Hz Hc HQ. unfold cut_truncated. destruct (rd_ok a 2 ltac:(lia)) as (a2 & E2 & Z2). destruct (rd_ok a 7 ltac:(lia)) as (a7 & E7 & Z7). rewrite E2, E7. cbn [bind].
  destruct (_ && hack); [|eexists; split; [reflexivity|]; split; [exact HB|]; split; [apply same_refl|]; split; [lia|exact HQ]].
  destruct (same_wr a 11 0 HB ltac:(apply byte_const; lia) ltac:(lia) ltac:(lia)) as (b1 & -> & S1 & B1). cbn [bind]. assert (zlen b1 = zlen a) as L1 by apply S1.
  destruct (same_wr b1 10 0 B1 ltac:(apply byte_const; lia) ltac:(lia) ltac:(lia)) as (b2 & -> & S2 & B2). cbn [bind]. assert (zlen b2 = zlen a) as L2 by (rewrite <- L1; apply S2).
  destruct (same_wr b2 9 0 B2 ltac:(apply byte_const; lia) ltac:(lia) ltac:(lia)) as (b3 & -> & S3 & B3). cbn [bind]. assert (zlen b3 = zlen a) as L3 by (rewrite <- L2; apply S3).
  destruct (same_wr b3 8 0 B3 ltac:(apply byte_const; lia) ltac:(lia) ltac:(lia)) as (b4 & -> & S4 & B4). cbn [bind]. assert (zlen b4 = zlen a) as L4 by (rewrite <- L3; apply S4).
  destruct (same_wr b4 6 0 B4 ltac:(apply byte_const; lia) ltac:(lia) ltac:(lia)) as (b5 & -> & S5 & B5). cbn [bind]. assert (zlen b5 = zlen a) as L5 by (rewrite <- L4; apply S5).
  destruct (same_wr b5 7 1 B5 ltac:(apply byte_const; lia) ltac:(lia) ltac:(lia)) as (b6 & -> & S6 & B6). cbn [bind]. assert (zlen b6 = zlen a) as L6 by (rewrite <- L5; apply S6).
  assert (same_tail a b6) as S by (repeat (eapply same_trans; [eassumption|]); apply same_refl). clear S1 S2 S3 S4 S5 S6 B1 B2 B3 B4 B5 L1 L2 L3 L4 L5.
  pose proof (same_question _ _ _ _ S HQ) as (n & t0 & t1 & Hn & Ht & Hp & ->). destruct (cut_question b6 count n B6 ltac:(lia) Hn) as (r & -> & Hr). cbn [bind]. destruct r as [c|]; [|eexists; split; [reflexivity|exact Logic.I]]. destruct Hr as (Hr1 & Hr2).
  destruct (rd_ok b6 2 ltac:(lia)) as (x & Ex & Zx). rewrite Ex. cbn [bind]. pose proof (zget_bytes _ _ _ B6 Zx) as Hx.
  destruct (same_wr b6 2 (Z.land x 253) B6) as (b7 & -> & S7 & B7); try lia. { apply (land_bound_r x 253 8); lia. }
  cbn [bind]. eexists. split; [reflexivity|]. split; [exact B7|]. split; [eapply same_trans; eassumption|]. split; [exact Hr1|]. apply (same_question b6); [exact S7|]. exists n, t0, t1. split; [|auto]. destruct Hn as (G & P & L & E & Z). repeat (split; [assumption|]). split; [lia|exact Z].
Qed.
