(** C46: whatever is sent to MaraDNS, it gets through with it (server/MaraDNS.c). *)
From Verif Require Import CBase Bits ModelDwStr SpecDwStr ProofDwStr SpecNames SpecMessage SpecAcl SpecDeadwoodMsg SpecQuery ModelJsStr SpecJsStr ProofJsStr ModelQueries SpecQueries ProofQueries ProofJsList ModelDecomp SpecDecomp ProofDecompList ProofDecompPacket ModelMaraHash SpecMaraHash ProofMaraHash
  PropsMaraHash PropsQueries PropsDecomp ModelServe ModelServeMain SpecServe ProofServe ProofServeRun ProofServeFind ProofServeAll PropsServe SpecServeSafe ProofServeSafe ProofServeEvery.

(** For all octets of a packet, all settings, all zone data and all contents of fresh memory:
    no access outside of memory, no loop without end, and an outcome that concerns this packet. *)
Theorem C46_every_packet : forall (V : Type) (auth : V -> bool) add zd m c J1 J2 J raw p,
  zone_data add zd m -> junk_ok J1 -> junk_ok J2 -> junk_ok J -> holding raw p ->
  exists r o, proc_query auth add zd c J1 J2 J raw = Ok (r, o) /\ about p o.
Proof.
  intros V auth add zd m c J1 J2 J raw p Z K1 K2 K3 HR. destruct (map_of add zd m Z) as (W & R). destruct (query_fine auth add zd m c J raw p W R K3 HR J1 J2 K1 K2) as ((r & o) & E & A). exists r, o. split; [exact E|exact A].
Qed.

(** ** Datagrams *)
Lemma answers_prefix cap m : bytes m -> forall n out p y, 0 <= p -> l_answers n cap m out p = Some y -> exists z, y = out ++ z.
Proof.
  intros B. induction n as [|n IH]; intros out p y P; cbn [l_answers]; [intros [= <-]; exists []; rewrite app_nil_r; reflexivity|].
  destruct (l_dlabel cap m out p) as [(len & o1)|] eqn:E1; [|discriminate]. cbn [obind]. apply l_dlabel_some in E1 as (x & _ & _ & _ & L1 & _ & -> & _); [|exact P].
  unfold ProofDecompList.l_type. destruct (l_take cap m (out ++ x) (p + len) 8) as [o2|] eqn:E2; [|discriminate]. cbn [obind]. apply l_take_some in E2 as (_ & _ & -> & _).
  unfold l_word. destruct (p + len + 8 + 2 <=? zlen m) eqn:G; [|discriminate]. cbn [obind]. pose proof (field16_range m (p + len + 8) B ltac:(lia) ltac:(lia)) as N. unfold field16 in N.
  destruct (l_data _ _ _ _) as [d|]; [|discriminate]. cbn [obind]. unfold l_add. destruct (_ <? cap); [|discriminate]. cbn [obind]. destruct (_ <? cap); [|discriminate]. cbn [obind]. intros E. apply IH in E as (z & ->); [|lia]. eexists. rewrite <- !app_assoc. reflexivity.
Qed.
Lemma packet_prefix cap m y : bytes m -> l_packet cap m = Some y -> 12 <= zlen m /\ exists z, y = zslice m 0 12 ++ z.
Proof.
  intros B. unfold l_packet, l_header. destruct (zlen m <? 12) eqn:G; [discriminate|]. destruct (field16 m 4 <=? 1); [|discriminate]. destruct (l_take cap m [] 0 12) as [o|] eqn:E; [|discriminate]. cbn [obind]. apply l_take_some in E as (_ & _ & -> & _). cbn [app]. intros X. split; [lia|]. revert X.
  set (a := if _ && _ then _ else _). clearbody a. destruct (a =? -2); [intros [= <-]; exists []; rewrite app_nil_r; reflexivity|]. destruct (a <=? -3); [intros E; apply answers_prefix in E; [exact E|exact B|lia]|].
  unfold l_question. destruct (l_dlabel cap m (zslice m 0 12) 12) as [(len & o1)|] eqn:E1; [|discriminate]. cbn [obind]. apply l_dlabel_some in E1 as (x & _ & _ & _ & L1 & _ & -> & _); [|lia]. destruct (l_take cap m _ (12 + len) 4) as [o2|] eqn:E2; [|discriminate]. cbn [obind]. apply l_take_some in E2 as (_ & _ & -> & _).
  intros E. apply answers_prefix in E as (z & ->); [|exact B|lia]. eexists. rewrite <- !app_assoc. reflexivity.
Qed.
Lemma decompressed J F c d u : junk_ok J -> decomp_init J = Ok F -> holding c d -> j_wf u -> j_size u = 1 ->
  decompress_data J F c u = Fail \/ exists s p, decompress_data J F c u = Ok s /\ holding s p /\ j_max s = j_max u /\ 12 <= zlen d /\ zslice p 0 12 = zslice d 0 12 /\ 12 <= zlen p.
Proof.
  intros HJ EF HC WU SU. rewrite init_ok in EF. injection EF as <-. pose proof (hold_facts c d HC) as FC. pose proof (decompress_agree J _ c d u HJ HC WU SU eq_refl) as A. destruct (l_packet (j_max u) d) as [p|] eqn:E; [|left; exact A]. destruct A as (s & ES & HS & M). right. exists s, p. split; [exact ES|]. split; [exact HS|]. split; [exact M|].
  pose proof (packet_prefix _ _ _ (fa_bytes _ _ FC) E) as (L & z & EP). split; [exact L|]. assert (zlen (zslice d 0 12) = 12) as L12 by (apply zlen_zslice; lia). pose proof (zlen_nonneg z).
  split; [rewrite EP, zslice_app_l by lia; rewrite <- L12 at 2; rewrite zslice_all; reflexivity|]. rewrite EP, zlen_app. lia.
Qed.
Lemma agree_12 p d i : 12 <= zlen p -> 12 <= zlen d -> zslice p 0 12 = zslice d 0 12 -> 0 <= i < 12 -> zget p i = zget d i.
Proof.
  intros LP LD E I. assert (forall l : list Z, 12 <= zlen l -> zget l i = zget (zslice l 0 12) i) as X; [|rewrite (X p LP), (X d LD), E; reflexivity].
  intros l L. rewrite <- (zslice_all l) at 1. replace (zlen l) with (12 + (zlen l - 12)) at 1 by lia. rewrite zslice_split by lia. rewrite zget_app_l by (rewrite zlen_zslice by lia; lia). reflexivity.
Qed.
(** The same for datagrams, compressed or not: what is looked at is the packet without compression,
    which has the same header. *)
Theorem C46_every_datagram : forall (V : Type) (auth : V -> bool) add zd m c J0 J1 J2 J F incoming d uncomp,
  zone_data add zd m -> junk_ok J0 -> junk_ok J1 -> junk_ok J2 -> junk_ok J -> decomp_init J0 = Ok F -> holding incoming d -> j_wf uncomp -> j_size uncomp = 1 ->
  exists o, datagram auth add zd c F J0 J1 J2 J incoming uncomp = Ok o /\
    (o = Quiet \/ exists p, about p o /\ zslice p 0 12 = zslice d 0 12 /\ (no_long_names d -> exists rs, expands 256 d rs p)).
Proof.
  intros V auth add zd m c J0 J1 J2 J F incoming d uncomp Z K0 K1 K2 K3 EF HD WU SU. unfold datagram. destruct (decompressed J0 F incoming d uncomp K0 EF HD WU SU) as [E|(s & p & E & HS & _ & LD & PX & LP)]; rewrite E; [exists Quiet; split; [reflexivity|left; reflexivity]|].
  destruct (C46_every_packet V auth add zd m c J1 J2 J s p Z K1 K2 K3 HS) as (r & o & -> & A). cbn [bind]. exists o. split; [reflexivity|]. right. exists p. split; [exact A|]. split; [exact PX|]. intros NL.
  destruct (C09_only J0 F incoming d uncomp s K0 EF HD WU SU NL E) as (rs & out & HO & X & _). assert (p = out) as -> by (destruct HS as (_ & _ & <-); destruct HO as (_ & _ & <-); reflexivity). exists rs. exact X.
Qed.
(** Nothing is sent for what is too short, and nothing for responses. *)
Theorem C46_dropped : forall (V : Type) (auth : V -> bool) add zd c J0 J1 J2 J F incoming d uncomp,
  junk_ok J0 -> decomp_init J0 = Ok F -> holding incoming d -> j_wf uncomp -> j_size uncomp = 1 -> 14 <= j_max uncomp ->
  zlen d < 12 \/ (exists b, zget d 2 = Some b /\ 128 <= b) -> datagram auth add zd c F J0 J1 J2 J incoming uncomp = Ok Quiet.
Proof.
  intros V auth add zd c J0 J1 J2 J F incoming d uncomp K0 EF HD WU SU MU X. unfold datagram. destruct (decompressed J0 F incoming d uncomp K0 EF HD WU SU) as [E|(s & p & E & HS & M & LD & PX & LP)]; rewrite E; [reflexivity|].
  destruct X as [X|(b & G & B)]; [lia|]. pose proof (hold_facts s p HS) as [Ws S1 LQ CC LM SM BP SA U O _ SL]. unfold proc_query. rewrite SA, S1. change (negb (1 =? 1)) with false. cbn [negb]. rewrite read_hdr_ok by (try assumption; lia). cbn [bind]. cbv zeta. rewrite SL by lia.
  assert (q_qr (decode (zslice p 0 12)) = 1) as ->; [|reflexivity]. rewrite <- (agree_12 p d 2 LP LD PX ltac:(lia)) in G. pose proof (zget_bytes _ _ _ BP G) as BB. unfold byte in BB. unfold decode. cbn [q_qr]. destruct p as [|x0 [|x1 [|x2 p]]]; try discriminate G. injection G as ->. change (nth 2 (zslice (x0 :: x1 :: b :: p) 0 12) 0) with b. destruct (flag_octet b BB) as (-> & _). lia.
Qed.
(** So the replies of [about] are not answered in turn by another server. *)
Theorem C46_no_echo : forall (V : Type) (auth : V -> bool) add zd c J0 J1 J2 J F incoming l p uncomp,
  junk_ok J0 -> decomp_init J0 = Ok F -> own_reply p l -> holding incoming l -> j_wf uncomp -> j_size uncomp = 1 -> 14 <= j_max uncomp -> datagram auth add zd c F J0 J1 J2 J incoming uncomp = Ok Quiet.
Proof. intros V auth add zd c J0 J1 J2 J F incoming l p uncomp K0 EF (_ & _ & R) HD WU SU MU. apply (C46_dropped V auth add zd c J0 J1 J2 J F incoming l uncomp K0 EF HD WU SU MU). right. exact R. Qed.
(** Queries, with whatever other records and pointers they come, get the answer of C44. *)
Theorem C46_queries_answered : forall (V : Type) (auth : V -> bool) add zd m c J0 J1 J2 J F incoming d uncomp rs p h n t class,
  zone_data add zd m -> no_any m -> junk_ok J0 -> junk_ok J1 -> junk_ok J2 -> junk_ok J -> decomp_init J0 = Ok F -> holding incoming d -> j_wf uncomp -> j_size uncomp = 1 ->
  expands 256 d rs p -> Forall small_data rs -> zlen p < j_max uncomp ->
  is_query p h n t class -> fitting n -> n <> [] -> word t -> word class -> class / 256 = 0 \/ class mod 256 = 1 -> no_reports c n t ->
  datagram auth add zd c F J0 J1 J2 J incoming uncomp = Ok (snd (decision auth m c (h_id h) (h_rd h) n t)).
Proof.
  intros V auth add zd m c J0 J1 J2 J F incoming d uncomp rs p h n t class Z NA K0 K1 K2 K3 EF HD WU SU X SD LP IQ FN NN WT WC CL NR. unfold datagram. destruct (C09_reads J0 F incoming d uncomp rs p K0 EF HD WU SU X SD LP) as (s & -> & HS).
  rewrite (C44_answers V auth add zd m c J1 J2 J s p h n t class) by assumption. cbn [bind]. destruct (decision _ _ _ _ _ _ _). reflexivity.
Qed.

(** ** Cases *)
(** A query for www.e. with an OPT record in the additional section (RFC 6891). *)
Definition opt_record : rr := mkrr [] 41 [4; 208; 0; 0; 0; 0] [] [] [].
Definition edns_query : list Z := header_bytes (mkheader 7 0 0 0 0 1 0 0 0 0 0 1 0 0 1) ++ plain (www :: e_) 1 ++ num2 1 ++ [0; 0; 41; 4; 208; 0; 0; 0; 0; 0; 0].
Example C46_met : zone_data 7 (loaded zone) (of_puts zone) /\ holding (str edns_query 768) edns_query /\ j_wf (str [] 768) /\
  datagram (fun v => v <? 100) 7 (loaded zone) (settings 1 0) formats0 J1 J1 J1 J1 (str edns_query 768) (str [] 768) = Ok (Answer 3 (plain (www :: e_) 1) true).
Proof.
  split; [destruct C44_asked_met as ((Z & _) & _); exact Z|]. split; [str_tac|]. split; [assert (holding (str [] 768) []) as (W & _) by str_tac; exact W|]. vm_compute. reflexivity.
Qed.
Lemma edns_expands : expands 256 edns_query [opt_record] edns_query.
Proof.
  assert (name_back edns_query 3 12 (www :: e_) 19) as N.
  { apply (back_label _ _ 12 www); [vm_compute; split; discriminate|reflexivity|reflexivity|]. apply (back_label _ _ 16 [101]); [vm_compute; split; discriminate|reflexivity|reflexivity|]. apply (back_root _ 18). reflexivity. }
  apply (exp_question 256 edns_query [opt_record] edns_query (www :: e_) 19 34); [vm_compute; discriminate|reflexivity| |vm_compute; discriminate| |reflexivity|reflexivity].
  - exists 3%nat. split; [repeat constructor|]. split; [exact N|vm_compute; discriminate].
  - apply (recs_more 256 _ 23 opt_record 34); [|constructor]. apply (rec_in_intro 256 edns_query 23 opt_record 34 24 0); [|vm_compute; split; [discriminate|reflexivity]|reflexivity|lia|reflexivity|reflexivity|vm_compute; discriminate|].
    + exists 1%nat. split; [repeat constructor|]. split; [apply (back_root _ 23); reflexivity|vm_compute; discriminate].
    + split; [reflexivity|]. split; [reflexivity|]. split; [reflexivity|]. split; intros X; discriminate X.
Qed.
Example C46_queries_met : no_any (of_puts zone) /\ expands 256 edns_query [opt_record] edns_query /\ Forall small_data [opt_record] /\
  is_query edns_query (mkheader 7 0 0 0 0 1 0 0 0 0 0 1 0 0 1) (www :: e_) 1 1 /\ fitting (www :: e_) /\ no_reports (settings 1 0) (www :: e_) 1.
Proof.
  destruct C44_asked_met as (_ & (_ & NA & _ & _ & _ & p & class & _ & (rest & _ & _ & _) & FN & _ & _ & _ & _ & NR) & _). split; [exact NA|]. split; [exact edns_expands|]. split; [constructor; [vm_compute; reflexivity|constructor]|]. split; [|split; [exact FN|exact NR]].
  exists [0; 0; 41; 4; 208; 0; 0; 0; 0; 0; 0]. split; [reflexivity|]. split; [apply bytesb_spec; reflexivity|]. split; [|split; [reflexivity|split; reflexivity]]. unfold header_ok, word, bit. cbn. repeat (split; [lia|]). lia.
Qed.
Definition shown (d : list Z) : res (outcome Z) := datagram (fun v => v <? 100) 7 (loaded zone) (settings 1 0) formats0 J1 J1 J1 J1 (str d 768) (str [] 768).
(** Packets that make little sense: no questions but the counts say so, a name that does not end, an
    operation that is not a query, a response. *)
Example C46_odd_packets :
  shown [1; 2; 0; 0; 0; 1; 0; 0; 0; 0; 0; 0] = Ok Quiet /\
  shown ([1; 2; 0; 0; 0; 1; 0; 0; 0; 0; 0; 0] ++ [3; 119; 119]) = Ok Quiet /\
  shown [1; 2; 0; 0; 0; 0; 0; 0; 0; 0; 0; 0] = Ok (Octets [1; 2; 128; 4; 0; 0; 0; 0; 0; 0; 0; 0]) /\
  shown ([1; 2; 40; 0; 0; 1; 0; 0; 0; 0; 0; 0] ++ [1; 120; 0; 0; 6; 0; 1]) = Ok (Octets ([1; 2; 128; 4; 0; 1; 0; 0; 0; 0; 0; 0] ++ [1; 120; 0; 0; 6; 0; 1])) /\
  shown ([1; 2; 128; 4; 0; 1; 0; 0; 0; 0; 0; 0] ++ [1; 120; 0; 0; 6; 0; 1]) = Ok Quiet.
Proof. repeat split; vm_compute; reflexivity. Qed.
Print Assumptions C46_every_packet.
Print Assumptions C46_every_datagram.
Print Assumptions C46_dropped.
Print Assumptions C46_no_echo.
Print Assumptions C46_queries_answered.
