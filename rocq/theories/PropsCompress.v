(** C10: MaraDNS' compressor. *)
From Verif Require Import CBase Bits ModelDwStr SpecDwStr ProofDwStr SpecNames SpecMessage SpecAcl SpecDeadwoodMsg SpecQuery ModelJsStr SpecJsStr ProofJsStr ProofJsSearch
  ModelQueries SpecQueries ProofQueries ProofHname ProofDwPackAll ProofDwNames ProofQuestion ModelDecomp SpecDecomp ProofJsList ProofDecompList ProofDecompPacket ProofDecompSpec ProofDecompRec ModelCompress ProofCompList ProofCompPacket
  SpecCompress SpecReply SpecPack ProofCompName ProofCompRec ProofCompMsg PropsQueries PropsDecomp.

(** ** Any octets *)
(** Whatever the octets that are to be compressed, compression ends, and without a fault. *)
Theorem C10_safe J c m d : junk_ok J -> holding c m -> zlen m <= 2 ^ 30 -> j_wf d -> j_size d = 1 -> exists F, decomp_init J = Ok F /\ safe (compress_data J F c d).
Proof. intros HJ HC L W S. exists formats0. split; [apply init_ok|]. apply (agree_safe _ _ _ (compress_agree J c m d HJ HC L W S)). Qed.
Print Assumptions C10_safe.
(** Only these octets and the capacities count: not what follows them in memory, not the contents of
    fresh memory, not what the output string contained. *)
Theorem C10_only_the_message J J' F c c' m d d' : junk_ok J -> junk_ok J' -> decomp_init J = Ok F -> holding c m -> holding c' m -> j_max c = j_max c' -> zlen m <= 2 ^ 30 -> j_wf d -> j_size d = 1 -> j_wf d' -> j_size d' = 1 -> j_max d = j_max d' ->
  (compress_data J F c d = Fail /\ compress_data J' F c' d' = Fail) \/ exists s s', compress_data J F c d = Ok s /\ compress_data J' F c' d' = Ok s' /\ octets_of s = octets_of s'.
Proof.
  intros HJ HJ' EF HC HC' MC L W S W' S' M. rewrite init_ok in EF. injection EF as <-. pose proof (compress_agree J c m d HJ HC L W S) as A. pose proof (compress_agree J' c' m d' HJ' HC' L W' S') as A'. rewrite <- M, <- MC in A'.
  destruct (l_compress (j_max c) (j_max d) m) as [o|]; cbn [agree] in *; [|left; split; assumption]. right. destruct A as (s & -> & (_ & _ & O) & _). destruct A' as (s' & -> & (_ & _ & O') & _). exists s, s'. split; [reflexivity|]. split; [reflexivity|]. congruence.
Qed.
Print Assumptions C10_only_the_message.

(** ** Messages *)
Lemma small_same a b : same_rr a (capped b) -> small_data b -> small_data a.
Proof.
  intros (_ & _ & _ & H4 & H5 & H6). unfold small_data, rdata_plain. cbn [capped rr_lead rr_names rr_tail] in *. rewrite !zlen_app, H4, H6. replace (zlen (concat (map wire (rr_names a)))) with (zlen (concat (map wire (rr_names b)))); [auto|].
  clear -H5. induction H5 as [|x y l l' S H IH]; cbn [map concat]; [reflexivity|]. rewrite !zlen_app, IH, (same_wire _ _ S). reflexivity.
Qed.
Lemma capped_len r : plain_rr r -> zlen (rr_plain (capped r)) = zlen (rr_plain r).
Proof. intros (_ & _ & LM & _). unfold rr_plain. rewrite !zlen_app. cbn [capped rr_owner rr_type rr_meta]. change (rdata_plain (capped r)) with (rdata_plain r). rewrite zlen_app, zlen_be, zlen_zslice by lia. rewrite LM. reflexivity. Qed.
Lemma capped_lens rs : Forall plain_rr rs -> zlen (plain_records (map capped rs)) = zlen (plain_records rs).
Proof. induction 1 as [|r rs P _ IH]; [reflexivity|]. unfold plain_records in *. cbn [map concat]. rewrite !zlen_app, IH, (capped_len r P). reflexivity. Qed.
Section Message.
Variables (J : Z -> Z) (F : list (list rrdesc)) (c d : js) (m header : list Z) (n : name) (q : list Z) (rs : list rr).
Hypotheses (HJ : junk_ok J) (EF : decomp_init J = Ok F) (HC : holding c m) (L : zlen m <= 2 ^ 30) (W : j_wf d) (S1 : j_size d = 1) (PM : plain_message m header n q rs).

(** When a message is compressed, what comes out is not longer; it says, by the rules for pointers, the
    same header and question and the same records, letter case and the largest TTL aside... *)
Theorem C10_says s : compress_data J F c d = Ok s ->
  exists y rs', holding s y /\ zlen y <= zlen m /\ expands 256 y rs' (header ++ (wire n ++ q) ++ plain_records rs') /\ Forall2 same_rr rs' (map capped rs).
Proof.
  intros E. rewrite init_ok in EF. injection EF as <-. destruct (agree_get _ _ _ _ (compress_agree J c m d HJ HC L W S1) E) as (y & EY & HS & _). pose proof (compress_says (j_max c) (j_max d) m header n q rs (holding_bytes _ _ HC) PM) as Y. rewrite EY in Y.
  destruct Y as (rs' & X & SR & _ & LY & _). exists y, rs'. split; [exact HS|]. split; [exact LY|]. split; assumption.
Qed.
(** ... and MaraDNS' decompressor gets these records back. *)
Theorem C10_round_trip s J' u : compress_data J F c d = Ok s -> junk_ok J' -> j_wf u -> j_size u = 1 -> zlen m < j_max u ->
  exists v rs', decompress_data J' F s u = Ok v /\ holding v (header ++ (wire n ++ q) ++ plain_records rs') /\ Forall2 same_rr rs' (map capped rs).
Proof.
  intros E HJ' WU SU LU. rewrite init_ok in EF. injection EF as <-. destruct (agree_get _ _ _ _ (compress_agree J c m d HJ HC L W S1) E) as (y & EY & HS & _). pose proof (compress_says (j_max c) (j_max d) m header n q rs (holding_bytes _ _ HC) PM) as Y. rewrite EY in Y.
  destruct Y as (rs' & X & SR & SD & LY & _). assert (zlen (header ++ (wire n ++ q) ++ plain_records rs') < j_max u) as LO.
  { destruct (same_rrs_plain _ _ SR) as (LR & _). rewrite capped_lens in LR by apply (pm_records _ _ _ _ _ PM). rewrite (pm_octets _ _ _ _ _ PM) in LU. rewrite !zlen_app in *. lia. }
  assert (Forall small_data rs') as SD'. { clear -SR SD. revert rs' SR. induction SD as [|r rs D _ IH]; intros rs' SR; inversion SR as [|a b l l' H1 H2]; subst; constructor; [apply (small_same a r H1 D)|apply IH, H2]. }
  destruct (C09_reads J' formats0 s y u rs' _ HJ' (init_ok J') HS WU SU X SD' LO) as (v & EV & HV). exists v, rs'. split; [exact EV|]. split; assumption.
Qed.
(** When no TTL is 4294967295 the records are the same. *)
Theorem C10_same_ttl s J' u : Forall ttl_ok rs -> compress_data J F c d = Ok s -> junk_ok J' -> j_wf u -> j_size u = 1 -> zlen m < j_max u ->
  exists v rs', decompress_data J' F s u = Ok v /\ holding v (header ++ (wire n ++ q) ++ plain_records rs') /\ Forall2 same_rr rs' rs.
Proof.
  intros T E HJ' WU SU LU. destruct (C10_round_trip s J' u E HJ' WU SU LU) as (v & rs' & EV & HV & SR). exists v, rs'. split; [exact EV|]. split; [exact HV|].
  assert (map capped rs = rs) as EC; [|rewrite EC in SR; exact SR].
  assert (Forall (fun r => bytes (rr_meta r)) rs) as BR.
  { pose proof (holding_bytes _ _ HC) as BM. rewrite (pm_octets _ _ _ _ _ PM) in BM. apply bytes_app in BM as (_ & BM). apply bytes_app in BM as (_ & BM). clear -BM. unfold plain_records in BM. induction rs as [|r l IH]; [constructor|]. cbn [map concat] in BM. apply bytes_app in BM as (B1 & B2). constructor; [|apply IH, B2].
    unfold rr_plain in B1. apply bytes_app in B1 as (_ & B1). apply bytes_app in B1 as (_ & B1). apply bytes_app in B1 as (B1 & _). exact B1. }
  pose proof (pm_records _ _ _ _ _ PM) as PR. clear -T BR PR. induction T as [|r l T _ IH]; [reflexivity|]. inversion BR as [|? ? B BR']; inversion PR as [|? ? P PR']; subst. cbn [map]. rewrite (IH BR' PR'). f_equal. clear IH BR BR' PR PR'.
  destruct P as (_ & _ & LM & _). destruct r as [o t meta lead ns tl]. unfold ttl_ok, capped in *. cbn [rr_meta rr_owner rr_type rr_lead rr_names rr_tail] in *. f_equal. destruct (number_2 meta 2 B ltac:(lia) ltac:(lia)) as (x1 & x2 & _ & _ & X1 & X2 & E2 & _). destruct (number_2 meta 4 B ltac:(lia) ltac:(lia)) as (x3 & x4 & _ & _ & X3 & X4 & E4 & _).
  assert (zslice meta 2 4 = [x1; x2; x3; x4]) as E24 by (change 4 with (2 + 2) at 1; rewrite (zslice_split meta 2 2 2) by lia; change (2 + 2) with 4; rewrite E2, E4; reflexivity). rewrite E24 in *.
  assert (Z.min (number [x1; x2; x3; x4]) 4294967294 = number [x1; x2; x3; x4]) as EN.
  { unfold number. cbn [fold_left]. unfold byte in *. apply Z.min_l. destruct (Z.eq_dec x1 255); [|lia]. destruct (Z.eq_dec x2 255); [|lia]. destruct (Z.eq_dec x3 255); [|lia]. destruct (Z.eq_dec x4 255); [|lia]. subst. destruct (T eq_refl). }
  rewrite EN. assert (be 4 (number [x1; x2; x3; x4]) = [x1; x2; x3; x4]) as EB. { rewrite be_4. unfold number. cbn [fold_left]. unfold byte in *. apply f_equal2; [lia|]. apply f_equal2; [lia|]. apply f_equal2; [lia|]. apply f_equal2; [lia|reflexivity]. }
  rewrite EB, <- E24. rewrite <- (zslice_all meta) at 3. rewrite LM. symmetry. apply (zslice_split meta 0 2 4); lia.
Qed.
(** Messages of fewer than 4100 octets, with room to spare and with at most 150 labels, are compressed. *)
Theorem C10_success : zlen m < 4100 -> zlen m < j_max c -> all_labels n rs <= 150 -> zlen m < j_max d -> exists s, compress_data J F c d = Ok s.
Proof.
  intros L1 L2 L3 L4. rewrite init_ok in EF. injection EF as <-. pose proof (compress_agree J c m d HJ HC L W S1) as A. pose proof (compress_says (j_max c) (j_max d) m header n q rs (holding_bytes _ _ HC) PM) as Y.
  destruct (l_compress (j_max c) (j_max d) m); cbn [agree yields] in *; [destruct A as (s & E & _); exists s; exact E|]. destruct Y. split; [exact L1|]. split; [exact L2|]. split; assumption.
Qed.
End Message.
Print Assumptions C10_says.
Print Assumptions C10_round_trip.
Print Assumptions C10_same_ttl.
Print Assumptions C10_success.
(** A header without questions and records is copied, what follows it is dropped. *)
Theorem C10_header J F c m d : junk_ok J -> decomp_init J = Ok F -> holding c m -> zlen m <= 2 ^ 30 -> j_wf d -> j_size d = 1 -> 12 <= zlen m -> 12 < j_max d ->
  field16 m 4 = 0 -> field16 m 6 + field16 m 8 + field16 m 10 = 0 -> exists s, compress_data J F c d = Ok s /\ holding s (zslice m 0 12).
Proof.
  intros HJ EF HC L W S LM LD Q CT. rewrite init_ok in EF. injection EF as <-. pose proof (compress_agree J c m d HJ HC L W S) as A. unfold l_compress in A. rewrite (chead_ok m _ (holding_bytes _ _ HC) LM eq_refl ltac:(lia) ltac:(lia)) in A. rewrite Q in A. cbn [obind] in A. change (0 =? 0) with true in A. cbv iota in A.
  unfold l_cquestion in A. change (-2 =? -2) with true in A. cbv iota in A. cbn [obind] in A. change (Z.to_nat (-2)) with 0%nat in A. cbn [l_canswers obind l_out] in A. rewrite zlen_zslice in A by lia. replace (12 <? j_max d) with true in A by lia. destruct A as (s & E & HS & _). exists s. split; [exact E|exact HS].
Qed.
Print Assumptions C10_header.

(** ** Cases *)
(** A question for x., with the answers X. MX 10 m.x. and m.x. A 10.0.0.1. *)
Definition c10_header : list Z := [0; 1; 132; 0; 0; 1; 0; 1; 0; 0; 0; 1].
Definition c10_q : list Z := [0; 15; 0; 1].
Definition c10_mx : rr := mkrr [[88]] 15 [0; 1; 0; 0; 14; 16] [0; 10] [[[109]; [120]]] [].
Definition c10_a : rr := mkrr [[109]; [120]] 1 [0; 1; 0; 0; 14; 16] [10; 0; 0; 1] [] [].
Definition c10_message : list Z := Eval vm_compute in c10_header ++ (wire [[120]] ++ c10_q) ++ plain_records [c10_mx; c10_a].
Lemma octets_good l : bytesb l = true -> (1 <=? zlen l) && (zlen l <=? 63) = true -> good_label l.
Proof. intros B L. split; [lia|apply bytesb_spec; exact B]. Qed.
Ltac name_tac := split; [repeat (constructor; [apply octets_good; reflexivity|]); constructor|vm_compute; discriminate].
Lemma c10_plain : plain_message c10_message c10_header [[120]] c10_q [c10_mx; c10_a].
Proof.
  constructor; [reflexivity|reflexivity|reflexivity|reflexivity|reflexivity|name_tac|]. constructor; [|constructor; [|constructor]].
  - split; [name_tac|]. split; [split; [discriminate|reflexivity]|]. split; [reflexivity|]. split; [reflexivity|]. cbn [c10_mx rr_type]. change (layout 15) with (Some (2, 1%nat, 0)). split; [reflexivity|]. split; [reflexivity|]. split; [constructor; [name_tac|constructor]|reflexivity].
  - split; [name_tac|]. split; [split; [discriminate|reflexivity]|]. split; [reflexivity|]. split; [reflexivity|]. cbn [c10_a rr_type]. change (layout 1) with (@None (Z * nat * Z)). split; [reflexivity|]. split; [reflexivity|]. split; intros X; [reflexivity|discriminate].
Qed.
(** It gets shorter by five octets, and comes back with the X in lower case. *)
Example C10_round_trip_met : plain_message c10_message c10_header [[120]] c10_q [c10_mx; c10_a] /\ Forall ttl_ok [c10_mx; c10_a] /\ all_labels [[120]] [c10_mx; c10_a] <= 150 /\
  match compress_data J0 formats0 (str c10_message 600) (str [] 600) with
  | Ok s => zlen (octets_of s) = zlen c10_message - 5 /\
      match decompress_data J0 formats0 s (str [] 600) with Ok v => octets_of v = map (fun b => if b =? 88 then 120 else b) c10_message /\ octets_of v <> c10_message | _ => False end
  | _ => False
  end.
Proof.
  split; [apply c10_plain|]. split; [constructor; [discriminate|constructor; [discriminate|constructor]]|]. split; [vm_compute; discriminate|]. vm_compute. split; [reflexivity|]. split; [reflexivity|discriminate].
Qed.
Example C10_success_met : exists s, compress_data J0 formats0 (str c10_message 600) (str [] 600) = Ok s.
Proof.
  assert (holding (str [] 600) []) as (W & S & _) by str_tac. assert (holding (str c10_message 600) c10_message) as HC by str_tac.
  apply (C10_success J0 formats0 _ _ _ _ _ _ _ J0_ok (init_ok J0) HC ltac:(vm_compute; discriminate) W S c10_plain); vm_compute; try reflexivity; discriminate.
Qed.
(** The TTL 4294967295 is lowered. *)
Definition ttl_rr : rr := mkrr [[120]] 1 [0; 1; 255; 255; 255; 255] [10; 0; 0; 1] [] [].
Definition ttl_header : list Z := [0; 1; 132; 0; 0; 1; 0; 1; 0; 0; 0; 0].
Definition ttl_message : list Z := Eval vm_compute in ttl_header ++ (wire [[120]] ++ c10_q) ++ plain_records [ttl_rr].
Theorem C10_ttl_refuted : exists c m header n q rs s v, holding c m /\ plain_message m header n q rs /\ compress_data J0 formats0 c (str [] 600) = Ok s /\ decompress_data J0 formats0 s (str [] 600) = Ok v /\
  ~ exists rs', octets_of v = header ++ (wire n ++ q) ++ plain_records rs' /\ Forall2 same_rr rs' rs.
Proof.
  assert (plain_message ttl_message ttl_header [[120]] c10_q [ttl_rr]) as PM.
  { constructor; [reflexivity|reflexivity|reflexivity|reflexivity|reflexivity|name_tac|]. constructor; [|constructor]. split; [name_tac|]. split; [split; [discriminate|reflexivity]|]. split; [reflexivity|]. split; [reflexivity|]. cbn [ttl_rr rr_type]. change (layout 1) with (@None (Z * nat * Z)). split; [reflexivity|]. split; [reflexivity|]. split; intros X; [reflexivity|discriminate]. }
  destruct (compress_data J0 formats0 (str ttl_message 600) (str [] 600)) as [s| |f] eqn:E; [|vm_compute in E; discriminate|vm_compute in E; discriminate].
  destruct (decompress_data J0 formats0 s (str [] 600)) as [v| |f] eqn:E2.
  - exists (str ttl_message 600), ttl_message, ttl_header, [[120]], c10_q, [ttl_rr], s, v. split; [str_tac|]. split; [exact PM|]. split; [exact E|]. split; [exact E2|].
    intros (rs' & EV & SR). inversion SR as [|a b l l' (H1 & H2 & H3 & H4 & H5 & H6) N]; subst. inversion N; subst. 
    assert (zslice (octets_of v) 24 6 = [0; 1; 255; 255; 255; 254]) as V.
    { assert (match compress_data J0 formats0 (str ttl_message 600) (str [] 600) with Ok s => match decompress_data J0 formats0 s (str [] 600) with Ok v => zlist_eqb (zslice (octets_of v) 24 6) [0; 1; 255; 255; 255; 254] | _ => false end | _ => false end = true) as V by (vm_compute; reflexivity). rewrite E, E2 in V. apply zlist_eqb_spec. exact V. }
    pose proof (same_wire _ _ H1) as LW. change (zlen (wire (rr_owner ttl_rr))) with 3 in LW. rewrite EV in V. unfold plain_records, rr_plain in V. cbn [map concat] in V. rewrite app_nil_r, H2, H3 in V.
    change (ttl_header ++ (wire [[120]] ++ c10_q) ++ ?x) with ((ttl_header ++ wire [[120]] ++ c10_q) ++ x) in V. set (rd := num16 (zlen (rdata_plain a)) ++ rdata_plain a) in V. set (h := ttl_header ++ wire [[120]] ++ c10_q) in V.
    assert (zlen h = 19) as LH by reflexivity. pose proof (zlen_nonneg rd).
    assert (zslice (h ++ wire (rr_owner a) ++ num16 (rr_type ttl_rr) ++ rr_meta ttl_rr ++ rd) 24 6 = rr_meta ttl_rr) as V2.
    { rewrite zslice_app_r by (rewrite ?zlen_app; change (zlen (num16 (rr_type ttl_rr))) with 2; change (zlen (rr_meta ttl_rr)) with 6; lia). rewrite LH. rewrite zslice_app_r by (rewrite ?zlen_app; change (zlen (num16 (rr_type ttl_rr))) with 2; change (zlen (rr_meta ttl_rr)) with 6; lia). rewrite LW. reflexivity. }
    rewrite V2 in V. discriminate.
  - exfalso. assert (match compress_data J0 formats0 (str ttl_message 600) (str [] 600) with Ok s => match decompress_data J0 formats0 s (str [] 600) with Ok v => true | _ => false end | _ => false end = true) as V by (vm_compute; reflexivity). rewrite E, E2 in V. discriminate.
  - exfalso. assert (match compress_data J0 formats0 (str ttl_message 600) (str [] 600) with Ok s => match decompress_data J0 formats0 s (str [] 600) with Ok v => true | _ => false end | _ => false end = true) as V by (vm_compute; reflexivity). rewrite E, E2 in V. discriminate.
Qed.
Print Assumptions C10_ttl_refuted.
(** Messages of a few hundred octets are not compressed when their names have too many labels. *)
Definition many (b : Z) (k : nat) : name := repeat [b] k.
Definition many_rr : rr := mkrr (many 98 24) 1 [0; 1; 0; 0; 14; 16] [10; 0; 0; 1] [] [].
Definition many_message : list Z := Eval vm_compute in ttl_header ++ (wire (many 97 126) ++ c10_q) ++ plain_records [many_rr].
Theorem C10_many_labels_refuted : exists c m header n q rs, holding c m /\ plain_message m header n q rs /\ zlen m < 512 /\ compress_data J0 formats0 c (str [] 4096) = Fail.
Proof.
  assert (forall b k, 0 <= b < 256 -> good_name (many b k)) as G. { intros b k B. unfold many. induction k; cbn [repeat]; constructor; [split; [cbv; split; discriminate|constructor; [exact B|constructor]]|exact IHk]. }
  exists (str many_message 4096), many_message, ttl_header, (many 97 126), c10_q, [many_rr]. split; [str_tac|]. split; [|split; [vm_compute; reflexivity|vm_cast_no_check (@eq_refl (res js) Fail)]].
  constructor; [reflexivity|reflexivity|reflexivity|reflexivity|reflexivity|split; [apply G; lia|vm_compute; discriminate]|]. constructor; [|constructor]. split; [split; [apply G; lia|vm_compute; discriminate]|]. split; [split; [discriminate|reflexivity]|]. split; [reflexivity|]. split; [reflexivity|]. cbn [many_rr rr_type]. change (layout 1) with (@None (Z * nat * Z)). split; [reflexivity|]. split; [reflexivity|]. split; intros X; [reflexivity|discriminate].
Qed.
Print Assumptions C10_many_labels_refuted.
(** A TXT record whose string would end one octet after the record is compressed, but what comes out
    cannot be decompressed. *)
Definition txt_message : list Z := ttl_header ++ [1; 120; 0; 0; 16; 0; 1] ++ [1; 120; 0; 0; 16; 0; 1; 0; 0; 14; 16; 0; 1; 1].
Theorem C10_txt_refuted : exists c m s, holding c m /\ compress_data J0 formats0 c (str [] 600) = Ok s /\ decompress_data J0 formats0 s (str [] 600) = Fail.
Proof.
  destruct (compress_data J0 formats0 (str txt_message 600) (str [] 600)) as [s| |f] eqn:E; [|vm_compute in E; discriminate|vm_compute in E; discriminate]. exists (str txt_message 600), txt_message, s. split; [str_tac|]. split; [exact E|].
  assert (match compress_data J0 formats0 (str txt_message 600) (str [] 600) with Ok s => match decompress_data J0 formats0 s (str [] 600) with Fail => true | _ => false end | _ => false end = true) as V by (vm_compute; reflexivity). rewrite E in V. destruct (decompress_data J0 formats0 s (str [] 600)); [discriminate V|reflexivity|discriminate V].
Qed.
Print Assumptions C10_txt_refuted.
Example C10_header_met : match compress_data J0 formats0 (str (repeat 7 4 ++ repeat 0 8 ++ [1]) 600) (str [] 600) with Ok s => octets_of s = repeat 7 4 ++ repeat 0 8 | _ => False end.
Proof. vm_compute. reflexivity. Qed.
