(** C07: answers from the cache are written with compressed names. *)
From Verif Require Import CBase SpecNames SpecMessage SpecDeadwoodMsg SpecDwStr SpecAnswer SpecReply SpecAcl SpecPack ModelDwStr ModelDwCompress ModelDwDnsStr ModelDwPack ModelDwUdp
  ProofDwStr ProofMessage ProofDwDecomp ProofDwCompressSafe ProofDwDnsStr ProofDwNames ProofDwPack ProofDwPackSafe ProofDwPackAll ProofDwUdp PropsDecompress PropsUdp.

(** String objects for examples. *)
Lemma str_of_ok l : bytes l -> zlen l < 100000 -> dok (str_of l).
Proof.
  intros B L. pose proof (zlen_nonneg l). split; [|unfold str_of; cbn [d_len d_max]; lia]. constructor; unfold str_of; cbn [d_mem d_len d_max]; try lia; [|rewrite (zlen_app l); change (zlen [0; 0; 0]) with 3; lia].
  apply bytes_app. split; [exact B|apply bytesb_spec; reflexivity].
Qed.
Lemma str_of_con l : con (str_of l) = l.
Proof. unfold con, str_of. cbn [d_mem d_len]. rewrite zslice_app_l, zslice_all by (pose proof (zlen_nonneg l); lia). reflexivity. Qed.

(** Whatever the two strings, also when the cache file was tampered with: nothing outside the
    buffers is read or written, the run ends, and what is returned is a valid string of less
    than 515 bytes. *)
Theorem C07_compression_safe :
  forall Js Jo J q inp, junk_ok Js -> junk_ok Jo -> junk_ok J -> dwf q -> dwf inp ->
  safe (dwc_compress Js Jo J q inp) /\ forall out, dwc_compress Js Jo J q inp = Ok out -> dok out /\ d_len out < 515.
Proof.
  intros Js Jo J q inp HJs HJo HJ Wq Wi. pose proof (compress_safe Js Jo J q inp HJs HJo HJ Wq Wi) as HP. split; [exact (post_safe _ _ HP)|]. intros out E. rewrite E in HP. destruct HP as (D & M). split; [exact D|]. destruct D as (_ & D). lia.
Qed.
Print Assumptions C07_compression_safe.

(** The bytes: each name is written label by label up to the first rest that stands in the
    question or in what is written already (as in [packed]); then the counts and the type. *)
Theorem C07_compression_exact :
  forall Js Jo J q inp qn qt an ns ar t, junk_ok Js -> junk_ok Jo -> junk_ok J ->
  dok q -> con q = wire qn ++ qt -> zlen qt = 2 -> good_name qn -> zlen (wire qn) <= 512 ->
  holds inp an ns ar t -> an ++ ns ++ ar <> [] -> Forall proper_rr (an ++ ns ++ ar) -> Forall (fun r => Forall (no_repeat qn) (rr_all_names r)) (an ++ ns ++ ar) ->
  zlen (packed qn (an ++ ns ++ ar)) + 7 < 515 ->
  exists out, dwc_compress Js Jo J q inp = Ok out /\ dok out /\ con out = packed qn (an ++ ns ++ ar) ++ num16 (zlen an) ++ num16 (zlen ns) ++ num16 (zlen ar) ++ [t].
Proof.
  intros Js Jo J q inp qn qt an ns ar t HJs HJo HJ Dq Hq Hqt Gq Lq H Hne Hp Hn Hfit.
  exact (compress_ok (repeat 0 12) [0; 1] qt qn q Dq Hq Hqt Gq Lq eq_refl eq_refl Js Jo J inp an ns ar t HJs HJo HJ H Hne Hp Hn Hfit).
Qed.
Print Assumptions C07_compression_exact.

(** These bytes are never longer than the records without compression, and whoever reads them
    after the question (RFC 1035) gets the records back, case of letters in names aside. *)
Theorem C07_packed_records_are_the_records :
  forall header qn qt class rs, zlen header = 12 -> zlen class = 2 -> bytes qt -> zlen qt = 2 -> good_name qn -> zlen (wire qn) <= 512 ->
  Forall proper_rr rs -> Forall rr_fits rs -> 16 + zlen (wire qn) + zlen (packed qn rs) <= 16384 ->
  zlen (packed qn rs) <= zlen (plain_records rs) /\
  exists rs', Forall2 same_rr rs rs' /\
    rrs_at (pointer_ok qn (16 + zlen (wire qn))) (message header (wire qn ++ qt) class (packed qn rs)) 400 (16 + zlen (wire qn)) rs' (16 + zlen (wire qn) + zlen (packed qn rs)).
Proof.
  intros header qn qt class rs Hh Hc Bt Hqt Gq Lq Hp Hf Hlen. pose proof (zlen_wire_pos qn). pose proof (zlen_nonneg (wire qn ++ qt)). pose proof (zlen_app (wire qn) qt).
  set (q := str_of (wire qn ++ qt)). assert (con q = wire qn ++ qt) as Cq by apply str_of_con.
  assert (dok q) as Dq by (apply str_of_ok; [apply bytes_app; split; [apply bytes_wire; exact Gq|exact Bt]|lia]).
  rewrite <- Cq. eapply (packed_reads header class qt qn q Dq Cq Hqt Gq Lq Hh Hc 400 rs); auto.
  eapply Forall_impl; [|exact Hp]. intros r ((_ & Q1) & Q2 & _). unfold rr_all_names. constructor; [unfold short, zlen in *; lia|]. eapply Forall_impl; [|exact Q2]. intros z (_ & Q). unfold short, zlen in *. lia.
Qed.
Print Assumptions C07_packed_records_are_the_records.

(** A client who asked for [on] (in whatever case; the cache is asked in lower case) and whose
    answer is in the cache gets a packet with the question as asked and, in the three
    sections, the records of the cache. *)
Theorem C07_client_reads_the_cached_answer :
  forall Js Jo J q o inp on qt an ns ar t id, junk_ok Js -> junk_ok Jo -> junk_ok J ->
  dok q -> dok o -> con q = wire (lower_name on) ++ qt -> con o = wire on ++ qt -> zlen qt = 2 -> good_name on -> 0 <= id < 65536 ->
  holds inp an ns ar t -> an ++ ns ++ ar <> [] -> Forall proper_rr (an ++ ns ++ ar) -> Forall (fun r => Forall (no_repeat on) (rr_all_names r)) (an ++ ns ++ ar) ->
  16 + zlen (wire on) + zlen (packed on (an ++ ns ++ ar)) < 515 ->
  exists a p a' rs', dwc_compress Js Jo J q inp = Ok a /\ make_dns_packet J (Some o) a id = Ok (Some p, a') /\
    con p = message (header_bytes (mkheader id 1 0 0 0 1 1 0 0 0 (if t =? 1 then 3 else 0) 1 (zlen an) (zlen ns) (zlen ar))) (con o) [0; 1] (packed on (an ++ ns ++ ar)) /\
    Forall2 same_rr (an ++ ns ++ ar) rs' /\ rrs_at (pointer_ok on (16 + zlen (wire on))) (con p) 400 (16 + zlen (wire on)) rs' (zlen (con p)).
Proof.
  intros Js Jo J q o inp on qt an ns ar t id HJs HJo HJ Dq Do Cq Co Hqt Go Hid H Hne Hp Hn Hfit. pose proof (zlen_nonneg (packed on (an ++ ns ++ ar))).
  destruct (C07_compression_exact Js Jo J q inp (lower_name on) qt an ns ar t HJs HJo HJ Dq Cq Hqt (good_lower on Go)) as (a & Ea & Da & Ca); auto.
  - rewrite zlen_wire_lower. lia.
  - eapply Forall_impl; [|exact Hn]. intros r Q. eapply Forall_impl; [|exact Q]. apply no_repeat_lower.
  - rewrite packed_lower. pose proof (zlen_wire_pos on). lia.
  - rewrite packed_lower in Ca. pose proof H as [Di Ci Hf Ht Hl]. pose proof (holds_len _ _ _ _ _ H) as HL.
    assert (zlen an + zlen ns + zlen ar < 65536) as Hcnt.
    { rewrite !plain_records_app, !zlen_app in HL. pose proof (zlen_nonneg (plain_records an)). pose proof (zlen_nonneg (plain_records ns)). pose proof (zlen_nonneg (plain_records ar)). lia. }
    pose proof (zlen_nonneg an). pose proof (zlen_nonneg ns). pose proof (zlen_nonneg ar).
    destruct (C37_reply_packet_exact J o a id (packed on (an ++ ns ++ ar)) (zlen an) (zlen ns) (zlen ar) t HJ Do Da Hid ltac:(lia) ltac:(lia) ltac:(lia) ltac:(lia) Ca) as (p & a' & Ep & Cp); [rewrite Co, zlen_app; lia|].
    set (hd := header_bytes (mkheader id 1 0 0 0 1 1 0 0 0 (if t =? 1 then 3 else 0) 1 (zlen an) (zlen ns) (zlen ar))) in *.
    assert (zlen hd = 12) as Hhd by reflexivity.
    destruct (C07_packed_records_are_the_records hd on qt [0; 1] (an ++ ns ++ ar)) as (_ & rs' & S & R); auto; try lia.
    { pose proof (bytes_con o ltac:(auto)) as B. rewrite Co in B. apply bytes_app in B. exact (proj2 B). }
    exists a, p, a', rs'. split; [exact Ea|]. split; [exact Ep|]. rewrite Cp. split; [reflexivity|]. split; [exact S|]. rewrite <- Co in R. unfold message in R.
    replace (zlen (hd ++ con o ++ num16 1 ++ packed on (an ++ ns ++ ar))) with (16 + zlen (wire on) + zlen (packed on (an ++ ns ++ ar))); [exact R|]. rewrite !zlen_app, Hhd, Co, zlen_app. change (zlen (num16 1)) with 2. lia.
Qed.
Print Assumptions C07_client_reads_the_cached_answer.

(** Deadwood itself, as a client of another Deadwood, gets the same answer into its cache:
    decompressing what was compressed gives records that are the same.  Names of up to 99
    labels. *)
Theorem C07_decompression_inverts_compression :
  forall Js Jo J q inp qn qt an ns ar t id, junk_ok Js -> junk_ok Jo -> junk_ok J ->
  dok q -> con q = wire qn ++ qt -> zlen qt = 2 -> good_name qn -> lower_name qn = qn -> (length qn < 100)%nat -> 0 <= id < 65536 ->
  holds inp an ns ar t -> an ++ ns ++ ar <> [] -> d_len inp < 2048 -> Forall proper_rr (an ++ ns ++ ar) -> Forall (fun r => Forall (fun n => no_repeat qn n /\ (length n < 100)%nat) (rr_all_names r)) (an ++ ns ++ ar) ->
  16 + zlen (wire qn) + zlen (packed qn (an ++ ns ++ ar)) < 515 ->
  exists a p a' out an' ns' ar', dwc_compress Js Jo J q inp = Ok a /\ make_dns_packet J (Some q) a id = Ok (Some p, a') /\
    packet_decompressed J Jo Js J (con p ++ [0; 0]) (zlen (con p)) t q = Ok out /\ dok out /\ con out = answer an' ns' ar' t /\
    Forall2 same_rr an an' /\ Forall2 same_rr ns ns' /\ Forall2 same_rr ar ar'.
Proof.
  intros Js Jo J q inp qn qt an ns ar t id HJs HJo HJ Dq Cq Hqt Gq Low Lq Hid H Hne H2 Hp Hn Hfit.
  assert (Forall (fun r => Forall (no_repeat qn) (rr_all_names r)) (an ++ ns ++ ar)) as Hn1 by (eapply Forall_impl; [|exact Hn]; intros r Q; eapply Forall_impl; [|exact Q]; intros n (Q1 & _); exact Q1).
  pose proof Cq as Cq'. rewrite <- Low in Cq'.
  destruct (C07_client_reads_the_cached_answer Js Jo J q q inp qn qt an ns ar t id HJs HJo HJ Dq Dq Cq' Cq Hqt Gq Hid H Hne Hp Hn1 Hfit) as (a & p & a' & _ & Ea & Ep & Cp & _).
  pose proof H as [Di Ci Hf Ht Hl]. pose proof (zlen_wire_pos qn). pose proof (zlen_nonneg (packed qn (an ++ ns ++ ar))).
  set (hd := header_bytes (mkheader id 1 0 0 0 1 1 0 0 0 (if t =? 1 then 3 else 0) 1 (zlen an) (zlen ns) (zlen ar))) in *. assert (zlen hd = 12) as Hhd by reflexivity.
  destruct (packed_reads hd [0; 1] qt qn q Dq Cq Hqt Gq ltac:(lia) Hhd eq_refl 200 (an ++ ns ++ ar)) as (_ & rs' & S & R); auto; try lia.
  { eapply Forall_impl; [|exact Hn]. intros r Q. eapply Forall_impl; [|exact Q]. intros n (_ & Q1). unfold short. lia. }
  destruct (same_rrs_plain _ _ S) as (Sz & Sl). pose proof (holds_len _ _ _ _ _ H) as HL.
  assert (zlen (con p) = 16 + zlen (wire qn) + zlen (packed qn (an ++ ns ++ ar))) as Lp by (rewrite Cp; unfold message; rewrite !zlen_app, Hhd, Cq, zlen_app; change (zlen [0; 1]) with 2; lia).
  assert (bytes (con p)) as Bp. { destruct (make_dns_packet J (Some q) a id) eqn:X; try discriminate. injection Ep as ->.
    destruct (C07_compression_exact Js Jo J q inp qn qt an ns ar t HJs HJo HJ Dq Cq Hqt Gq ltac:(lia) H Hne Hp Hn1 ltac:(lia)) as (a0 & Ea0 & Da0 & Ca0). rewrite Ea in Ea0. injection Ea0 as <-.
    pose proof (zlen_nonneg an). pose proof (zlen_nonneg ns). pose proof (zlen_nonneg ar). pose proof (zlen_nonneg (plain_records (an ++ ns ++ ar))).
    destruct (make_packet_ok J q a id (packed qn (an ++ ns ++ ar)) (zlen an) (zlen ns) (zlen ar) t HJ Dq Da0 Hid ltac:(lia) ltac:(lia) ltac:(lia) ltac:(lia) Ca0) as (p0 & a1 & Ep0 & Dp0 & _); [rewrite <- (zlen_con q) by auto; rewrite Cq, zlen_app; lia|]. rewrite X in Ep0. injection Ep0 as <- <-. apply bytes_con; auto. }
  destruct (C06_decompression_exact J Jo Js J (con p ++ [0; 0]) (zlen (con p)) t q hd qn qt [0; 1] (packed qn (an ++ ns ++ ar)) rs') as (out & Eo & Do & Co); auto; try lia.
  { apply bytes_app. split; [exact Bp|apply bytesb_spec; reflexivity]. }
  { rewrite zlen_app. change (zlen [0; 0]) with 2. lia. }
  { unfold byte. lia. }
  { rewrite zslice_app_l, zslice_all by lia. exact Cp. }
  { rewrite zslice_app_l, zslice_all by lia. rewrite Lp, Cp. replace (14 + zlen (con q)) with (16 + zlen (wire qn)) by (rewrite Cq, zlen_app; lia). exact R. }
  { pose proof (zlen_nonneg (plain_records (an ++ ns ++ ar))). rewrite <- Sl, !app_length. unfold zlen in HL. lia. }
  { rewrite <- Sz, <- Sl, !app_length. unfold zlen in HL |- *. lia. }
  apply Forall2_app_inv_l in S as (an' & x & S1 & S & ->). apply Forall2_app_inv_l in S as (ns' & ar' & S2 & S3 & ->).
  exists a, p, a', out, an', ns', ar'. split; [exact Ea|]. split; [exact Ep|]. split; [exact Eo|]. split; [exact Do|]. split; [|auto].
  rewrite Co. unfold answer. f_equal. f_equal. destruct (same_rrs_plain _ _ S1) as (_ & E1). destruct (same_rrs_plain _ _ S2) as (_ & E2). destruct (same_rrs_plain _ _ S3) as (_ & E3). unfold zlen. rewrite <- E1, <- E2, <- E3. reflexivity.
Qed.
Print Assumptions C07_decompression_inverts_compression.

(** A concrete answer: A.b? MX, answered in lower case, with an address in the additional
    section.  The owner is a pointer into the question, and so is the end of the name of the
    server; the owner of the address is a pointer to that name. *)
Definition C07_an : list rr := [mkrr [[97]; [98]] 15 [0; 1; 0; 0; 0; 60] [0; 10] [[[109]; [66]]] []].
Definition C07_ar : list rr := [mkrr [[109]; [98]] 1 [0; 1; 0; 0; 0; 60] [10; 0; 0; 1] [] []].
Definition C07_inp : dwstr := str_of (answer C07_an [] C07_ar 0).
Lemma two_labels qn l1 l2 : same_name [l1] [l2] = false -> no_repeat qn [l1; l2].
Proof.
  intros H. exists [l1; l2], [], qn, []. split; [reflexivity|]. split; [rewrite app_nil_r; reflexivity|]. split; [reflexivity|]. intros a w w' b E Hw S. exfalso. assert (length w = length w') as El.
  { unfold same_name in S. destruct (list_eq_dec zlist_eq_dec (lower_name w) (lower_name w')) as [X|]; [|discriminate]. apply (f_equal (@length _)) in X. unfold lower_name in X. rewrite !map_length in X. exact X. }
  destruct w as [|x [|y w]]; [congruence| |]; (destruct w' as [|x' [|y' w']]; try discriminate El).
  - destruct a as [|z [|z' a]]; cbn [app] in E; try (destruct a; discriminate).
    + injection E as -> -> _. congruence.
    + injection E as _ _ E. discriminate.
  - destruct a as [|z [|z' a]]; cbn [app] in E; [destruct w as [|? w]; cbn [app] in E|destruct w; discriminate|]; [|destruct w; discriminate|].
    + injection E as _ _ E. discriminate.
    + injection E as _ _ E. destruct a; discriminate.
Qed.
Example C07_hypotheses_met :
  holds C07_inp C07_an [] C07_ar 0 /\ Forall proper_rr (C07_an ++ [] ++ C07_ar) /\ Forall (fun r => Forall (no_repeat [[65]; [98]]) (rr_all_names r)) (C07_an ++ [] ++ C07_ar) /\
  packed [[65]; [98]] (C07_an ++ [] ++ C07_ar) = [192; 12; 0; 15; 0; 1; 0; 0; 0; 60; 0; 6; 0; 10; 1; 109; 192; 14; 192; 35; 0; 1; 0; 1; 0; 0; 0; 60; 0; 4; 10; 0; 0; 1].
Proof.
  split; [|split; [|split]].
  - constructor; [apply str_of_ok; [apply bytesb_spec; reflexivity|reflexivity]|apply str_of_con| |lia|reflexivity]. repeat constructor; cbn; lia.
  - repeat (constructor; try (cbn; lia)).
  - constructor; [|constructor; [|constructor]]; cbn [rr_all_names rr_owner rr_names C07_an C07_ar]; repeat (constructor; [apply two_labels; reflexivity|]); constructor.
  - vm_compute. reflexivity.
Qed.
Example C07_concrete :
  match dwc_compress J0 J0 J0 (str_of [1; 97; 1; 98; 0; 0; 15]) C07_inp with
  | Ok a => match make_dns_packet J0 (Some (str_of [1; 65; 1; 98; 0; 0; 15])) a 4660 with
            | Ok (Some p, _) => con p = [18; 52; 129; 128; 0; 1; 0; 1; 0; 0; 0; 1; 1; 65; 1; 98; 0; 0; 15; 0; 1;
                192; 12; 0; 15; 0; 1; 0; 0; 0; 60; 0; 6; 0; 10; 1; 109; 192; 14; 192; 35; 0; 1; 0; 1; 0; 0; 0; 60; 0; 4; 10; 0; 0; 1]
            | _ => False
            end
  | _ => False
  end.
Proof. vm_compute. reflexivity. Qed.

(** *** Where it goes wrong *)

(** The place of a label is put on the list before the label is there.  When a run of labels
    is followed by the same run, as in b.b, the search compares the second with what follows
    the first in the output, which is not written yet: whatever malloc left there.  If that
    is zero, the second "b" is replaced by a pointer to the first, and the name does not
    end.  So a is an alias of b.b in the cache, and the client gets a packet in which the
    name cannot be read. *)
Definition b_b : rr := mkrr [[97]] 5 [0; 1; 0; 0; 0; 60] [] [[[98]; [98]]] [].
Definition J00 (i : Z) : Z := 0.
Theorem C07_repeated_labels_refuted :
  exists q inp an a p a', dok q /\ con q = wire [[97]] ++ [0; 5] /\ holds inp an [] [] 0 /\ Forall proper_rr an /\ junk_ok J00 /\
  dwc_compress J00 J00 J00 q inp = Ok a /\ make_dns_packet J00 (Some q) a 4660 = Ok (Some p, a') /\
  zslice (con p) 19 12 = [192; 12; 0; 5; 0; 1; 0; 0; 0; 60; 0; 4] /\ forall T k n e, ~ name_at T (con p) k 31 n e.
Proof.
  destruct (dwc_compress J00 J00 J00 (str_of [1; 97; 0; 0; 5]) (str_of (answer [b_b] [] [] 0))) as [a| |] eqn:Ea; [|vm_compute in Ea; discriminate|vm_compute in Ea; discriminate].
  destruct (make_dns_packet J00 (Some (str_of [1; 97; 0; 0; 5])) a 4660) as [(op & a')| |] eqn:Ep.
  2, 3: exfalso; vm_compute in Ea; injection Ea as <-; vm_compute in Ep; discriminate.
  assert (exists p, op = Some p /\ con p = [18; 52; 129; 128; 0; 1; 0; 1; 0; 0; 0; 0; 1; 97; 0; 0; 5; 0; 1; 192; 12; 0; 5; 0; 1; 0; 0; 0; 60; 0; 4; 1; 98; 192; 31]) as (p & -> & Cp).
  { pose proof Ea as Ea'. vm_compute in Ea'. injection Ea' as <-. pose proof Ep as Ep'. vm_compute in Ep'. injection Ep' as <- <-. eexists. split; reflexivity. }
  exists (str_of [1; 97; 0; 0; 5]), (str_of (answer [b_b] [] [] 0)), [b_b], a, p, a'.
  split; [apply str_of_ok; [apply bytesb_spec; reflexivity|reflexivity]|]. split; [apply str_of_con|].
  split; [constructor; [apply str_of_ok; [apply bytesb_spec; reflexivity|reflexivity]|apply str_of_con| |lia|reflexivity]; repeat constructor; cbn; lia|].
  split; [repeat (constructor; try (cbn; lia))|]. split; [intros i; unfold J00, byte; lia|]. split; [exact Ea|]. split; [exact Ep|]. rewrite Cp. split; [reflexivity|].
  intros T. match goal with |- forall k n e, ~ name_at T ?m k 31 n e => set (m0 := m) end.
  assert (zget m0 31 = Some 1) as G1 by reflexivity. assert (zget m0 33 = Some 192) as G2 by reflexivity. assert (zget m0 (33 + 1) = Some 31) as G3 by reflexivity.
  assert (forall k p n e, name_at T m0 k p n e -> p = 31 \/ p = 33 -> False) as HX.
  { intros k p0 n e H. induction H as [p0 Hp|k p0 l n e Hl Hp Hs Hn IH|k p0 hi lo n e Hp Hhi Hlo HTp Hn IH]; intros [-> | ->]; (rewrite G1 in Hp || rewrite G2 in Hp); injection Hp as E; try lia.
    rewrite G3 in Hlo. injection Hlo as E2. apply IH. lia. }
  intros k n e H. eapply HX; [exact H|auto].
Qed.
Print Assumptions C07_repeated_labels_refuted.

(** Whether a label fits the output is not looked at.  Here the first label of the target of
    the alias does not fit and is left out, what comes after it fits: in the cache a is an
    alias of xxx...x.b, the client is told it is an alias of b. *)
Definition big_txt : rr := mkrr [[97]] 16 [0; 1; 0; 0; 0; 60] (repeat 7 440) [] [].
Definition to_xb : rr := mkrr [[97]] 5 [0; 1; 0; 0; 0; 60] [] [[repeat 120 63; [98]]] [].
Definition to_b : rr := mkrr [[97]] 5 [0; 1; 0; 0; 0; 60] [] [[[98]]] [].
Theorem C07_long_answers_are_exact_or_refused_refuted :
  exists q inp an a p a' rs', dok q /\ con q = wire [[97]] ++ [0; 5] /\ holds inp an [] [] 0 /\ Forall proper_rr an /\ Forall (fun r => Forall (no_repeat [[97]]) (rr_all_names r)) an /\ an = [big_txt; to_xb] /\
  dwc_compress J0 J0 J0 q inp = Ok a /\ make_dns_packet J0 (Some q) a 4660 = Ok (Some p, a') /\
  rrs_at (pointer_ok [[97]] 19) (con p) 400 19 rs' (zlen (con p)) /\ Forall2 same_rr [big_txt; to_b] rs' /\ ~ Forall2 same_rr an rs'.
Proof.
  set (q := str_of [1; 97; 0; 0; 5]). set (inp := str_of (answer [big_txt; to_xb] [] [] 0)).
  destruct (dwc_compress J0 J0 J0 q inp) as [a| |] eqn:Ea; [|vm_compute in Ea; discriminate|vm_compute in Ea; discriminate].
  assert (dok q) as Dq by (apply str_of_ok; [apply bytesb_spec; reflexivity|reflexivity]). assert (dok inp) as Di by (apply str_of_ok; [apply bytesb_spec; vm_compute; reflexivity|vm_compute; reflexivity]).
  assert (junk_ok J0) as HJ by (intros i; unfold J0, byte; lia).
  assert (Forall proper_rr [big_txt; to_b]) as Pb. { constructor; [|constructor; [|constructor]]; (split; [split; [|reflexivity]|split]); cbn [rr_owner rr_names big_txt to_b]; try (repeat (constructor; try (cbn; lia))). }
  assert (Forall proper_rr [big_txt; to_xb]) as Px. { constructor; [inversion Pb; assumption|constructor; [|constructor]]. split; [split; [|reflexivity]; cbn; repeat (constructor; try (cbn; lia))|]. split; [|cbn; lia]. cbn [rr_names to_xb]. constructor; [|constructor]. split; [|reflexivity]. constructor; [|repeat (constructor; try (cbn; lia))]. split; [vm_compute; split; discriminate|apply bytesb_spec; reflexivity]. }
  assert (Forall rr_fits [big_txt; to_xb]) as Fx by (repeat constructor; vm_compute; try discriminate; reflexivity).
  assert (Forall rr_fits [big_txt; to_b]) as Fb by (repeat constructor; vm_compute; try discriminate; reflexivity).
  assert (con a = packed [[97]] [big_txt; to_b] ++ num16 2 ++ num16 0 ++ num16 0 ++ [0]) as Ca.
  { assert (match dwc_compress J0 J0 J0 q inp with Ok x => con x = packed [[97]] [big_txt; to_b] ++ num16 2 ++ num16 0 ++ num16 0 ++ [0] | _ => False end) as X by (vm_compute; reflexivity). rewrite Ea in X. exact X. }
  destruct (C07_compression_safe J0 J0 J0 q inp HJ HJ HJ ltac:(auto) ltac:(auto)) as (_ & Hs). destruct (Hs a Ea) as (Da & _).
  assert (con q = wire [[97]] ++ [0; 5]) as Cq by apply str_of_con.
  assert (zlen (packed [[97]] [big_txt; to_b]) = 467) as Lb by (vm_compute; reflexivity).
  destruct (C37_reply_packet_exact J0 q a 4660 (packed [[97]] [big_txt; to_b]) 2 0 0 0 HJ Dq Da ltac:(lia) ltac:(lia) ltac:(lia) ltac:(lia) ltac:(auto) Ca) as (p & a' & Ep & Cp); [rewrite Lb, Cq; reflexivity|].
  destruct (C07_packed_records_are_the_records (header_bytes (mkheader 4660 1 0 0 0 1 1 0 0 0 0 1 2 0 0)) [[97]] [0; 5] [0; 1] [big_txt; to_b]) as (_ & rs' & S & R); auto; try reflexivity.
  { apply bytesb_spec; reflexivity. } { repeat (constructor; try (cbn; lia)). } { vm_compute. discriminate. } { rewrite Lb. vm_compute. discriminate. }
  exists q, inp, [big_txt; to_xb], a, p, a', rs'. split; [exact Dq|]. split; [exact Cq|].
  split; [constructor; [exact Di|apply str_of_con|exact Fx|lia|vm_compute; reflexivity]|]. split; [exact Px|]. split.
  { constructor; [|constructor; [|constructor]]; cbn [rr_all_names rr_owner rr_names big_txt to_xb].
    - constructor; [|constructor]. exists [], [[97]], [], [[97]]. split; [reflexivity|]. split; [reflexivity|]. split; [reflexivity|]. intros; cbn; lia.
    - constructor; [|constructor; [|constructor]]; [|apply two_labels; reflexivity]. exists [], [[97]], [], [[97]]. split; [reflexivity|]. split; [reflexivity|]. split; [reflexivity|]. intros; cbn; lia. }
  split; [reflexivity|]. split; [exact Ea|]. split; [exact Ep|]. split; [|split; [exact S|]].
  - rewrite Lb in R. rewrite Cp, Cq. replace (zlen _) with (19 + 467) by (rewrite !zlen_app, Lb; reflexivity). exact R.
  - intros X. assert (forall r r', nth_error [big_txt; to_b] 1 = Some r -> nth_error rs' 1 = Some r' -> same_rr r r') as HS by (clear - S; intros r r' E E'; inversion S as [|? ? ? ? _ S2]; subst; inversion S2; subst; cbn in E, E'; injection E as <-; injection E' as <-; assumption).
    assert (forall r r', nth_error [big_txt; to_xb] 1 = Some r -> nth_error rs' 1 = Some r' -> same_rr r r') as HX by (clear - X; intros r r' E E'; inversion X as [|? ? ? ? _ S2]; subst; inversion S2; subst; cbn in E, E'; injection E as <-; injection E' as <-; assumption).
    assert (exists r', nth_error rs' 1 = Some r') as (r' & Er) by (clear - S; inversion S as [|? ? ? ? _ S2]; subst; inversion S2; subst; eexists; reflexivity).
    destruct (HS to_b r' eq_refl Er) as (_ & _ & _ & _ & S4 & _). destruct (HX to_xb r' eq_refl Er) as (_ & _ & _ & _ & X4 & _). destruct (rr_names r') as [|n [|]]; [inversion S4| |inversion S4 as [|? ? ? ? _ S5]; inversion S5].
    inversion S4 as [|? ? ? ? S5 _]. inversion X4 as [|? ? ? ? X5 _]. pose proof (same_name_trans _ _ _ X5 (eq_trans (same_name_sym _ _) S5)) as E. vm_compute in E. discriminate.
Qed.
Print Assumptions C07_long_answers_are_exact_or_refused_refuted.
