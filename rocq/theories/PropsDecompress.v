(** C06: Deadwood's decompression of upstream packets. *)
From Verif Require Import CBase SpecNames SpecMessage SpecDeadwoodMsg SpecDwStr ModelDwStr ModelDwCompress ProofDwStr ProofDwCompressSafe ProofDwDecomp ProofMessage.

(** What cache_dns_reply does with a packet: the records with the three counts and a type
    byte after them (dw_packet_to_cache), then decompression (dwc_decompress). *)
Definition packet_decompressed (Jp Jo Js J : Z -> Z) (raw : list Z) (len type : Z) (q : dwstr) : res dwstr :=
  c <- dw_packet_to_cache Jp raw len type ;; match c with None => Fail | Some c => dwc_decompress Jo Js J q c end.

(** Whatever the packet and whatever is in fresh memory: nothing outside the buffers is
    read or written, the run ends, and what is returned is a valid string of less than
    2048 bytes.  The receive buffer is two bytes longer than what is received. *)
Theorem C06_decompression_safe :
  forall Jp Jo Js J raw len type q, junk_ok Jp -> junk_ok Jo -> junk_ok Js -> junk_ok J ->
  bytes raw -> 0 <= len < 1000000 -> len + 2 <= zlen raw -> dwf q ->
  safe (packet_decompressed Jp Jo Js J raw len type q) /\
  forall out, packet_decompressed Jp Jo Js J raw len type q = Ok out -> dok out /\ d_len out < 2048.
Proof.
  intros Jp Jo Js J raw len type q HJp HJo HJs HJ HB Hl Hr Wq.
  assert (post (fun out => dok out /\ d_max out = 2048) (packet_decompressed Jp Jo Js J raw len type q)) as HP.
  { unfold packet_decompressed. eapply post_bind; [apply packet_to_cache_safe; auto; lia|]. intros [c|] Hc; [|exact Logic.I]. apply decompress_safe_dwf; auto. }
  split; [exact (post_safe _ _ HP)|]. intros out E. rewrite E in HP. destruct HP as (D & M). split; [exact D|]. destruct D as (_ & D). lia.
Qed.
Print Assumptions C06_decompression_safe.

(** The same for any two valid strings, not only those made from a packet. *)
Theorem C06_decompress_any_strings_safe :
  forall Jo Js J q inp, junk_ok Jo -> junk_ok Js -> junk_ok J -> dwf q -> dwf inp ->
  safe (dwc_decompress Jo Js J q inp) /\ forall out, dwc_decompress Jo Js J q inp = Ok out -> dok out /\ d_len out < 2048.
Proof.
  intros Jo Js J q inp HJo HJs HJ Wq Wi. pose proof (decompress_safe_dwf Jo Js J q inp HJo HJs HJ Wq Wi) as HP.
  split; [exact (post_safe _ _ HP)|]. intros out E. rewrite E in HP. destruct HP as (D & M). split; [exact D|]. destruct D as (_ & D). lia.
Qed.
Print Assumptions C06_decompress_any_strings_safe.

(** A packet whose records are [rs] is turned into exactly these records, in their order,
    each written without compression, then the table of their offsets, the three counts of
    the header and the type byte.  Limits of the implementation: 199 labels and pointers
    per name, 511 records, 2047 bytes of output; pointers lead to a label of the query
    name or into the records. *)
Theorem C06_decompression_exact :
  forall Jp Jo Js J raw len type q header qn qt class body rs,
  junk_ok Jp -> junk_ok Jo -> junk_ok Js -> junk_ok J ->
  bytes raw -> 0 <= len < 1000000 -> len + 2 <= zlen raw -> byte type -> dok q ->
  zlen header = 12 -> good_name qn -> (length qn < 200)%nat -> zlen qt = 2 -> zlen class = 2 ->
  con q = wire qn ++ qt ->
  zslice raw 0 len = message header (con q) class body ->
  rrs_at (pointer_ok qn (14 + zlen (con q))) (zslice raw 0 len) 200 (14 + zlen (con q)) rs len ->
  (length rs <= 511)%nat -> zlen (plain_records rs) + 4 * Z.of_nat (length rs) + 7 < 2048 ->
  exists out, packet_decompressed Jp Jo Js J raw len type q = Ok out /\ dok out /\
    con out = plain_records rs ++ offset_table 0 rs ++ zslice header 6 6 ++ [type].
Proof.
  intros Jp Jo Js J raw len type q header qn qt class body rs HJp HJo HJs HJ HB Hl Hr Hty Dq Hh Hg Hn Hqt Hc Hq Hm Hrs Hlen Hfit.
  unfold packet_decompressed. pose proof Hm as Hm'. unfold message in Hm'. rewrite Hq in Hm'.
  destruct (packet_to_cache_ok Jp raw len type header qn qt class body HJp HB Hm' Hr Hl Hty Hh Hqt Hc Hg Hn) as (s & -> & Ds & Cs). cbn [bind].
  rewrite (zlen_con q) in Hrs by auto. assert (len = 14 + d_len q + zlen body) as El.
  { apply (f_equal zlen) in Hm. unfold message in Hm. repeat rewrite zlen_app in Hm. rewrite zlen_zslice, zlen_con in Hm by (auto; lia). lia. }
  rewrite Hm, El in Hrs.
  destruct (decompress_ok J HJ s q Ds Dq header class body (zslice header 6 6 ++ [type]) qt qn Hq Hqt Hg Hh Hc Cs) with (Jo := Jo) (Js := Js) (rs := rs) as (out & E & D & C); auto.
  - rewrite zlen_app, zlen_zslice by lia. reflexivity.
  - exists out. auto.
Qed.
Print Assumptions C06_decompression_exact.

(** The message says at most one list of records. *)
Theorem C06_message_determines_records :
  forall T m limit p rs rs' e, rrs_at T m limit p rs e -> rrs_at T m limit p rs' e -> rs' = rs.
Proof. intros T m limit p rs rs' e H H'. exact (rrs_at_det _ _ _ _ _ _ _ H H'). Qed.
Print Assumptions C06_message_determines_records.

(** A concrete packet: a.b?, an MX record with both names compressed (one pointer into the
    question, one into the records) and an A record. *)
Definition C06_q : list Z := [1; 97; 1; 98; 0; 0; 15].
Definition C06_header : list Z := [18; 52; 129; 128; 0; 1; 0; 1; 0; 0; 0; 1].
Definition C06_body : list Z :=
  [192; 12; 0; 15; 0; 1; 0; 0; 0; 60; 0; 6; 0; 10; 1; 109; 192; 14;
   192; 35; 0; 1; 0; 1; 0; 0; 0; 60; 0; 4; 10; 0; 0; 1].
Definition C06_raw : list Z := message C06_header C06_q [0; 1] C06_body ++ [7; 7].
Definition C06_rs : list rr :=
  [mkrr [[97]; [98]] 15 [0; 1; 0; 0; 0; 60] [0; 10] [[[109]; [98]]] [];
   mkrr [[109]; [98]] 1 [0; 1; 0; 0; 0; 60] [10; 0; 0; 1] [] []].
Definition str_of (l : list Z) : dwstr := mkdw (l ++ [0; 0; 0]) (zlen l) (zlen l + 1).
Example C06_hypotheses_met :
  rrs_at (pointer_ok [[97]; [98]] 21) (zslice C06_raw 0 55) 200 21 C06_rs 55.
Proof.
  set (m := zslice C06_raw 0 55). set (T := pointer_ok _ _).
  assert (T 12) as T12 by (right; exists [], [[97]; [98]]; split; reflexivity).
  assert (T 14) as T14 by (right; exists [[97]], [[98]]; split; reflexivity).
  assert (T 35) as T35 by (left; lia).
  assert (name_at T m 2 14 [[98]] 17) as N14 by (apply (at_label T m 1 14 [98]); [change (zlen [98]) with 1; lia|reflexivity|reflexivity|apply (at_root T m 16); reflexivity]).
  assert (name_at T m 3 12 [[97]; [98]] 17) as N12 by (apply (at_label T m 2 12 [97]); [change (zlen [97]) with 1; lia|reflexivity|reflexivity|exact N14]).
  assert (name_at T m 4 35 [[109]; [98]] 39) as N35.
  { apply (at_label T m 3 35 [109]); [change (zlen [109]) with 1; lia|reflexivity|reflexivity|]. apply (at_pointer T m 2 37 192 14 [[98]] 17); try reflexivity; try lia; assumption. }
  eapply rrs_cons; [|eapply rrs_cons; [|apply rrs_nil]].
  - apply (rr_at_intro T m 200 21 _ 39 4 23 6 39); try reflexivity; try (cbn [rr_type]; lia).
    + apply (at_pointer T m 3 21 192 12 [[97]; [98]] 17); try reflexivity; try lia; assumption.
    + vm_compute. discriminate.
    + change (layout _) with (Some (2, 1%nat, 0)). cbv iota beta. repeat split; try reflexivity; [vm_compute; discriminate|]. apply (names_cons T m 200 4 35 _ 39); [lia|exact N35|apply names_nil].
  - apply (rr_at_intro T m 200 39 _ 55 5 41 4 55); try reflexivity; try (cbn [rr_type]; lia).
    + apply (at_pointer T m 4 39 192 35 [[109]; [98]] 39); try reflexivity; try lia; assumption.
    + change (layout _) with (@None (Z * nat * Z)). cbv iota. repeat split; reflexivity.
Qed.
Definition J0 (i : Z) : Z := 170.
Example C06_concrete :
  match packet_decompressed J0 J0 J0 J0 C06_raw 55 0 (str_of C06_q) with
  | Ok out => con out = [1; 97; 1; 98; 0; 0; 15; 0; 1; 0; 0; 0; 60; 0; 7; 0; 10; 1; 109; 1; 98; 0;
                         1; 109; 1; 98; 0; 0; 1; 0; 1; 0; 0; 0; 60; 0; 4; 10; 0; 0; 1;
                         0; 0; 0; 5; 0; 22; 0; 27; 0; 1; 0; 0; 0; 1; 0]
  | _ => False
  end.
Proof. vm_compute. reflexivity. Qed.

(** A looping name is not rejected: when the limit of 200 runs out, the caller is told
    that the name ended properly.  Here the owner is a pointer to itself, which is no name
    at all; the "decompressed" record has no name, not even the final zero. *)
Definition C06_loop_body : list Z := [192; 21; 0; 1; 0; 1; 0; 0; 0; 60; 0; 4; 10; 0; 0; 1].
Definition C06_loop_header : list Z := [18; 52; 129; 128; 0; 1; 0; 1; 0; 0; 0; 0].
Definition C06_loop_raw : list Z := message C06_loop_header C06_q [0; 1] C06_loop_body ++ [7; 7].
Theorem C06_looping_name_rejected_refuted :
  exists raw len q, bytes raw /\ dok q /\ len + 2 <= zlen raw /\
  (forall T k n e, ~ name_at T (zslice raw 0 len) k (14 + zlen (con q)) n e) /\
  exists out, packet_decompressed J0 J0 J0 J0 raw len 0 q = Ok out /\
    con out = [0; 1; 0; 1; 0; 0; 0; 60; 0; 4; 10; 0; 0; 1] ++ [0; 0; 0; 0] ++ zslice C06_loop_header 6 6 ++ [0].
Proof.
  exists C06_loop_raw, 37, (str_of C06_q). split; [apply bytesb_spec; reflexivity|]. split.
  { split; [constructor|]; try (vm_compute; intuition congruence). apply bytesb_spec. reflexivity. }
  split; [vm_compute; discriminate|]. split.
  - intros T k n e. apply (self_pointer T _ 21 21 192); reflexivity || lia.
  - destruct (packet_decompressed J0 J0 J0 J0 C06_loop_raw 37 0 (str_of C06_q)) as [out| |f] eqn:E.
    + exists out. split; [reflexivity|]. assert (match packet_decompressed J0 J0 J0 J0 C06_loop_raw 37 0 (str_of C06_q) with Ok o => con o = [0; 1; 0; 1; 0; 0; 0; 60; 0; 4; 10; 0; 0; 1] ++ [0; 0; 0; 0] ++ zslice C06_loop_header 6 6 ++ [0] | _ => False end) as H by (vm_compute; reflexivity).
      rewrite E in H. exact H.
    + vm_compute in E. discriminate.
    + vm_compute in E. discriminate.
Qed.
Print Assumptions C06_looping_name_rejected_refuted.
