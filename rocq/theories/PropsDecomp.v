(** C09: MaraDNS' decompressor. *)
From Verif Require Import CBase Bits ModelDwStr SpecDwStr ProofDwStr SpecNames SpecMessage SpecAcl SpecDeadwoodMsg SpecQuery ModelJsStr SpecJsStr ProofJsStr ProofJsSearch
  ModelQueries SpecQueries ProofQueries ProofHname ProofQuestion ModelDecomp SpecDecomp ProofJsList ProofDecompList ProofDecompPacket ProofDecompSpec ProofDecompRec PropsQueries.

Definition J0 : Z -> Z := fun _ => 0.
Lemma J0_ok : junk_ok J0. Proof. intros i. unfold J0, byte. lia. Qed.

(** ** Names *)
(** Whatever the packet and the offset, reading a name succeeds just when a name stands there, with
    pointers that lead strictly backwards, in at most 255 steps and with at most 259 octets; the
    string that is returned then holds this name. *)
Theorem C09_name J c m p : junk_ok J -> holding c m -> - 2 ^ 31 <= p < 2 ^ 31 ->
  (exists n e s, decomp_get_label J c p = Ok s /\ holding s (wire n) /\ name_in 259 m p n e) \/
  (decomp_get_label J c p = Fail /\ forall n e, ~ name_in 259 m p n e).
Proof.
  intros HJ HC P. pose proof (hold_facts c m HC) as F. destruct F as [Wc Sc Lc Cc Mc Nc Bc Xc Uc Oc Gc Slc]. destruct (Z_lt_ge_dec p 0) as [N|N].
  - right. split; [|intros n e X; apply name_in_range in X; lia]. unfold decomp_get_label. rewrite Sc. cbn [Z.eqb Pos.eqb negb]. replace (j_max c <? j_count c) with false by lia. replace (u32 p) with (p + 4294967296) by (unfold u32; lia). replace (j_count c <? p + 4294967296) with true by lia. reflexivity.
  - pose proof (get_label_agree J c m p HJ HC ltac:(lia)) as A. destruct (name_text m p) as [x|] eqn:E; cbn [agree] in A.
    + destruct A as (s & -> & HS & _). destruct (name_text_sound m p x Bc ltac:(lia) E) as (n & e & X & ->). left. exists n, e, s. split; [reflexivity|]. split; [exact HS|exact X].
    + right. split; [exact A|]. intros n e X. rewrite (name_text_complete m p n e Bc X) in E. discriminate.
Qed.
Print Assumptions C09_name.
(** The name standing at a place is unique, so that [C09_name] determines the result. *)
Theorem C09_name_unique m p n1 e1 n2 e2 : bytes m -> name_in 259 m p n1 e1 -> name_in 259 m p n2 e2 -> wire n1 = wire n2.
Proof. intros B A1 A2. pose proof (name_text_complete m p _ _ B A1) as E1. rewrite (name_text_complete m p _ _ B A2) in E1. apply some_inj in E1. symmetry. exact E1. Qed.
Print Assumptions C09_name_unique.
(** Pointers that lead to themselves or forwards are refused, whatever else the packet contains. *)
Theorem C09_backwards J c m p hi lo : junk_ok J -> holding c m -> 0 <= p < 2 ^ 31 -> zget m p = Some hi -> 192 <= hi -> zget m (p + 1) = Some lo -> p <= (hi - 192) * 256 + lo ->
  decomp_get_label J c p = Fail.
Proof.
  intros HJ HC P E1 R E2 L. destruct (C09_name J c m p HJ HC ltac:(lia)) as [(n & e & s & _ & _ & (k & _ & X & _))|(H & _)]; [|exact H]. exfalso.
  destruct X as [p Z|k p l n e LL Z _ _|k p h2 l2 n e Z _ Z2 B _]; rewrite E1 in Z; apply some_inj in Z; [lia|lia|]. rewrite E2 in Z2. apply some_inj in Z2. subst. lia.
Qed.
Print Assumptions C09_backwards.

(** www.x. in full at 12, and as a label and a pointer at 19. *)
Definition two_names : list Z := repeat 0 12 ++ [3; 119; 119; 119; 1; 120; 0] ++ [1; 97; 192; 12].
Example C09_name_met : holding (str two_names 600) two_names /\ name_in 259 two_names 19 [[97]; [119; 119; 119]; [120]] 23 /\
  exists s, decomp_get_label J0 (str two_names 600) 19 = Ok s /\ holding s [1; 97; 3; 119; 119; 119; 1; 120; 0].
Proof.
  assert (holding (str two_names 600) two_names) as H by str_tac. assert (name_in 259 two_names 19 [[97]; [119; 119; 119]; [120]] 23) as N.
  { exists 5%nat. split; [repeat constructor|]. split; [|vm_compute; discriminate].
    apply (back_label _ _ 19 [97]); [vm_compute; split; discriminate|reflexivity|reflexivity|]. apply (back_pointer _ _ 21 192 12 [[119; 119; 119]; [120]] 19); [reflexivity|lia|reflexivity|lia|].
    apply (back_label _ _ 12 [119; 119; 119]); [vm_compute; split; discriminate|reflexivity|reflexivity|]. apply (back_label _ _ 16 [120]); [vm_compute; split; discriminate|reflexivity|reflexivity|]. apply (back_root _ 18). reflexivity. }
  split; [exact H|]. split; [exact N|]. destruct (C09_name J0 _ _ 19 J0_ok H ltac:(lia)) as [(n & e & s & E & HS & X)|(_ & X)]; [|destruct (X _ _ N)]. exists s. split; [exact E|].
  rewrite (C09_name_unique _ _ _ _ _ _ (holding_bytes _ _ H) X N) in HS. exact HS.
Qed.
(** RFC 1035 2.3.4 limits names to 255 octets; longer names are accepted. *)
Definition label63 : list Z := 63 :: repeat 97 63.
Definition long_name : list Z := repeat 0 12 ++ label63 ++ label63 ++ label63 ++ label63 ++ [1; 98; 0].
Theorem C09_name_limit_refuted : exists c m s l, holding c m /\ decomp_get_label J0 c 12 = Ok s /\ holding s l /\ zlen l = 259.
Proof.
  assert (holding (str long_name 600) long_name) as H by str_tac. destruct (C09_name J0 (str long_name 600) long_name 12 J0_ok H ltac:(lia)) as [(n & e & s & E & HS & X)|(E & _)]; [|vm_compute in E; discriminate].
  exists (str long_name 600), long_name, s, (wire n). split; [exact H|]. split; [exact E|]. split; [exact HS|]. assert (match decomp_get_label J0 (str long_name 600) 12 with Ok s => zlen (octets_of s) =? 259 | _ => false end = true) as V by (vm_compute; reflexivity).
  rewrite E in V. destruct HS as (_ & _ & O). rewrite O in V. lia.
Qed.
Print Assumptions C09_name_limit_refuted.

(** ** Packets *)
(** [decomp_init] makes the descriptions of the record types; with them, decompressing any packet
    into any string ends, and without a fault. *)
Theorem C09_safe J c m u : junk_ok J -> holding c m -> j_wf u -> j_size u = 1 -> exists F, decomp_init J = Ok F /\ safe (decompress_data J F c u).
Proof. intros HJ HC WU SU. exists formats0. split; [apply init_ok|]. apply (agree_safe _ _ _ (decompress_agree J (j_max u) c m u HJ HC WU SU eq_refl)). Qed.
Print Assumptions C09_safe.
(** Only the octets of the packet count: not what follows them in memory, not the contents of fresh
    memory, not what the output string contained. *)
Theorem C09_only_the_packet J J' F c c' m u u' : junk_ok J -> junk_ok J' -> decomp_init J = Ok F -> holding c m -> holding c' m -> j_wf u -> j_size u = 1 -> j_wf u' -> j_size u' = 1 -> j_max u = j_max u' ->
  (decompress_data J F c u = Fail /\ decompress_data J' F c' u' = Fail) \/
  exists s s', decompress_data J F c u = Ok s /\ decompress_data J' F c' u' = Ok s' /\ octets_of s = octets_of s'.
Proof.
  intros HJ HJ' EF HC HC' W S W' S' M. rewrite init_ok in EF. injection EF as <-. pose proof (decompress_agree J _ c m u HJ HC W S eq_refl) as A. pose proof (decompress_agree J' _ c' m u' HJ' HC' W' S' eq_refl) as A'. rewrite <- M in A'.
  destruct (l_packet (j_max u) m) as [o|]; cbn [agree] in *; [|left; split; assumption]. right. destruct A as (s & -> & (_ & _ & O) & _). destruct A' as (s' & -> & (_ & _ & O') & _). exists s, s'. split; [reflexivity|]. split; [reflexivity|]. congruence.
Qed.
Print Assumptions C09_only_the_packet.
(** A message whose names take at most 256 octets is decompressed to what it says, provided this fits. *)
Theorem C09_reads J F c m u rs out : junk_ok J -> decomp_init J = Ok F -> holding c m -> j_wf u -> j_size u = 1 ->
  expands 256 m rs out -> Forall small_data rs -> zlen out < j_max u -> exists s, decompress_data J F c u = Ok s /\ holding s out.
Proof.
  intros HJ EF HC W S X SD L. rewrite init_ok in EF. injection EF as <-. pose proof (decompress_agree J _ c m u HJ HC W S eq_refl) as A. rewrite (packet_complete _ m rs out (holding_bytes _ _ HC) X SD L) in A.
  destruct A as (s & E & HS & _). exists s. split; [exact E|exact HS].
Qed.
Print Assumptions C09_reads.
(** And only such messages are: what is returned is what the message says. *)
Theorem C09_only J F c m u s : junk_ok J -> decomp_init J = Ok F -> holding c m -> j_wf u -> j_size u = 1 -> no_long_names m ->
  decompress_data J F c u = Ok s -> exists rs out, holding s out /\ expands 256 m rs out /\ zlen out < j_max u.
Proof.
  intros HJ EF HC W S NL E. rewrite init_ok in EF. injection EF as <-. pose proof (decompress_agree J _ c m u HJ HC W S eq_refl) as A. destruct (agree_get _ _ _ _ A E) as (o & EO & HS & _).
  destruct (packet_sound _ m o (holding_bytes _ _ HC) EO) as [(p & n & e & N & L)|(rs & X & _ & C)]; [pose proof (NL p n e N); lia|]. exists rs, o. split; [exact HS|]. split; [exact X|exact C].
Qed.
Print Assumptions C09_only.

(** A question for x., and one answer: x. MX 10 m.x., with pointers. *)
Definition mx_packet : list Z :=
  [0; 1; 132; 0; 0; 1; 0; 1; 0; 0; 0; 0] ++ [1; 120; 0; 0; 15; 0; 1] ++ [192; 12; 0; 15; 0; 1; 0; 0; 14; 16; 0; 6; 0; 10; 1; 109; 192; 12].
Definition mx_record : rr := mkrr [[120]] 15 [0; 1; 0; 0; 14; 16] [0; 10] [[[109]; [120]]] [].
Definition mx_plain : list Z :=
  [0; 1; 132; 0; 0; 1; 0; 1; 0; 0; 0; 0] ++ [1; 120; 0; 0; 15; 0; 1] ++ [1; 120; 0; 0; 15; 0; 1; 0; 0; 14; 16; 0; 7; 0; 10; 1; 109; 1; 120; 0].
Lemma mx_expands : expands 256 mx_packet [mx_record] mx_plain.
Proof.
  assert (name_back mx_packet 2 12 [[120]] 15) as N.
  { apply (back_label _ _ 12 [120]); [vm_compute; split; discriminate|reflexivity|reflexivity|]. apply (back_root _ 14). reflexivity. }
  apply (exp_question 256 mx_packet [mx_record] mx_plain [[120]] 15 37); [vm_compute; discriminate|reflexivity| |vm_compute; discriminate| |reflexivity|reflexivity].
  - exists 2%nat. split; [repeat constructor|]. split; [exact N|vm_compute; discriminate].
  - apply (recs_more 256 _ 19 mx_record 37); [|constructor]. apply (rec_in_intro 256 mx_packet 19 mx_record 37 21 6); [|vm_compute; split; [discriminate|reflexivity]|reflexivity|lia|reflexivity|reflexivity|vm_compute; discriminate|].
    + exists 3%nat. split; [repeat constructor|]. split; [|vm_compute; discriminate]. apply (back_pointer _ _ 19 192 12 [[120]] 15); [reflexivity|lia|reflexivity|lia|exact N].
    + split; [vm_compute; discriminate|]. split; [reflexivity|]. split; [reflexivity|]. exists 37. split; [|split; reflexivity]. apply (names_more _ _ (21 + 10 + 2) [[109]; [120]] 37); [|constructor].
      exists 4%nat. split; [repeat constructor|]. split; [|vm_compute; discriminate]. apply (back_label _ _ 33 [109]); [vm_compute; split; discriminate|reflexivity|reflexivity|].
      apply (back_pointer _ _ 35 192 12 [[120]] 15); [reflexivity|lia|reflexivity|lia|exact N].
Qed.
Example C09_reads_met : exists s, decompress_data J0 formats0 (str mx_packet 600) (str [] 600) = Ok s /\ holding s mx_plain.
Proof.
  assert (holding (str [] 600) []) as (W & S & _) by str_tac. assert (holding (str mx_packet 600) mx_packet) as HC by str_tac. apply (C09_reads J0 formats0 _ mx_packet _ [mx_record] mx_plain J0_ok (init_ok J0) HC W S mx_expands); [|vm_compute; reflexivity].
  constructor; [vm_compute; reflexivity|constructor].
Qed.

Lemma no_long_check m : bytes m -> forallb (fun p => match name_text m p with Some x => zlen x <=? 256 | None => true end) (map Z.of_nat (seq 0 (length m))) = true -> no_long_names m.
Proof.
  intros B H p n e N. pose proof (name_in_range _ _ _ _ _ N) as R. rewrite forallb_forall in H. assert (In p (map Z.of_nat (seq 0 (length m)))) as I.
  { apply in_map_iff. exists (Z.to_nat p). split; [lia|]. apply in_seq. unfold zlen in R. lia. }
  specialize (H p I). rewrite (name_text_complete m p n e B N) in H. lia.
Qed.
Example C09_only_met : no_long_names mx_packet /\ exists s, decompress_data J0 formats0 (str mx_packet 600) (str [] 600) = Ok s.
Proof.
  split; [apply no_long_check; [apply bytesb_spec; vm_compute; reflexivity|vm_compute; reflexivity]|]. destruct C09_reads_met as (s & E & _). exists s. exact E.
Qed.

(** A name of 259 octets makes decompression lose its place: this message has an address (type 1)
    for a long name, with the time to live 6; it is turned into a record of type 25088 with six
    octets of data. *)
Definition misread_packet : list Z :=
  [0; 1; 132; 0; 0; 0; 0; 1; 0; 0; 0; 0] ++ label63 ++ label63 ++ label63 ++ label63 ++ [1; 98; 0] ++ [0; 1; 0; 1; 0; 0; 0; 6; 0; 4; 10; 0; 0; 1].
Definition misread_record : rr := mkrr [repeat 97 63; repeat 97 63; repeat 97 63; repeat 97 63; [98]] 1 [0; 1; 0; 0; 0; 6] [10; 0; 0; 1] [] [].
Theorem C09_long_names_refuted : exists c m rs out s, holding c m /\ expands 259 m rs out /\ zlen out < 600 /\ Forall small_data rs /\
  decompress_data J0 formats0 c (str [] 600) = Ok s /\ octets_of s <> out /\ zslice (octets_of s) 271 2 = [98; 0].
Proof.
  exists (str misread_packet 600), misread_packet, [misread_record], (zslice misread_packet 0 12 ++ plain_records [misread_record]).
  destruct (decompress_data J0 formats0 (str misread_packet 600) (str [] 600)) as [s| |f] eqn:E; [|vm_compute in E; discriminate|vm_compute in E; discriminate]. exists s.
  split; [str_tac|]. split; [|split; [vm_compute; reflexivity|]].
  - apply (exp_none 259 _ _ _ 285); [vm_compute; discriminate|reflexivity| |reflexivity|reflexivity]. apply (recs_more 259 _ 12 misread_record 285); [|constructor].
    apply (rec_in_intro 259 misread_packet 12 misread_record 285 271 4); [|vm_compute; split; [discriminate|reflexivity]|reflexivity|lia|reflexivity|reflexivity|vm_compute; discriminate|].
    + exists 6%nat. split; [repeat constructor|]. split; [|vm_compute; discriminate]. unfold misread_record. cbn [rr_owner].
      apply (back_label _ _ 12 (repeat 97 63)); [vm_compute; split; discriminate|reflexivity|reflexivity|]. apply (back_label _ _ 76 (repeat 97 63)); [vm_compute; split; discriminate|reflexivity|reflexivity|].
      apply (back_label _ _ 140 (repeat 97 63)); [vm_compute; split; discriminate|reflexivity|reflexivity|]. apply (back_label _ _ 204 (repeat 97 63)); [vm_compute; split; discriminate|reflexivity|reflexivity|].
      apply (back_label _ _ 268 [98]); [vm_compute; split; discriminate|reflexivity|reflexivity|]. apply (back_root _ 270). reflexivity.
    + split; [reflexivity|]. split; [reflexivity|]. split; [reflexivity|]. split; intros X; [reflexivity|discriminate].
  - split; [constructor; [vm_compute; reflexivity|constructor]|]. split; [reflexivity|].
    assert (match decompress_data J0 formats0 (str misread_packet 600) (str [] 600) with Ok s => negb (zlist_eqb (octets_of s) (zslice misread_packet 0 12 ++ plain_records [misread_record])) && zlist_eqb (zslice (octets_of s) 271 2) [98; 0] | _ => false end = true) as V by (vm_compute; reflexivity).
    rewrite E in V. apply andb_prop in V as (V1 & V2). split; [|apply zlist_eqb_spec; exact V2]. intros X. rewrite X, zlist_eqb_refl in V1. discriminate.
Qed.
Print Assumptions C09_long_names_refuted.
