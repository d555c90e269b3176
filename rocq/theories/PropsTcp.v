(** C25: DNS over TCP. *)
From Verif Require Import CBase Bits SpecNames SpecMessage SpecQuery SpecDwStr SpecAcl ModelDwStr ModelDwSys ModelDwUdp ModelDwTcp SpecTcp ProofDwStr ProofMessage ProofDwTcp ProofDwTcpRun ProofDwTcpSafe ProofDwTcpSend ProofDwTcpUp ProofDwTcpSlot.

(** Whatever the network does, and whatever else happens to the connection, at most one query
    is handed on, and it is the message the client's stream begins with; not an octet after it
    is read. *)
Theorem C25_only_the_message :
  forall J cf now s evs w, junk_ok J -> bytes s -> tcp_run J cf evs (tcp_accept J cf now s) = Ok w ->
  tw_query w = [] \/
  exists id p, tw_query w = [(id, p)] /\ s = frame p ++ tw_cin w /\ sendable p /\ exists i ar, asks p i ar /\ (ar = 0 -> id = i).
Proof.
  intros J cf now s evs w HJ HB H. assert (hist cf s w) as [HR|(_ & [HQ|(i & ar & p & HQ & HS & HF & _ & HA)])].
  - apply (hist_run J cf s evs (tcp_accept J cf now s) w HJ HB); [left; apply accept_reading; exact HJ|exact H].
  - left. exact (proj1 (reading_not_over cf s w HR)).
  - left. exact HQ.
  - right. exists (udp_id i ar), p. split; [exact HQ|]. split; [exact HS|]. split; [exact HF|]. exists i, ar. split; [exact HA|]. intros ->. reflexivity.
Qed.
Print Assumptions C25_only_the_message.

(** And it is handed on: once the handlings of the connection in which the network has
    something from the client are as many as the message has octets, however many octets each
    of them brings, the query has been handed on if it is one, and the connection closed if it
    is none. *)
Theorem C25_delivered :
  forall J cf now p rest evs, junk_ok J -> bytes (frame p ++ rest) -> sendable p -> readable cf p -> Forall is_tick evs -> zlen (frame p) <= count_ev brings evs ->
  exists w, tcp_run J cf evs (tcp_accept J cf now (frame p ++ rest)) = Ok w /\
    (forall i, asks p i 0 -> tw_query w = [(i, p)] /\ tw_cin w = rest /\ tw_copen w = true) /\
    (forall i, asks p i 1 -> exists id, tw_query w = [(id, p)] /\ tw_cin w = rest /\ tw_copen w = true) /\
    ((forall i ar, ~ asks p i ar) -> tw_query w = [] /\ tw_copen w = false).
Proof.
  intros J cf now p rest evs HJ HB HS HR HT HC.
  destruct (deliver_run J cf (frame p ++ rest) p rest evs HJ HB eq_refl HS HR (tcp_accept J cf now (frame p ++ rest)) (accept_reading J cf now _ HJ) HT) as (w & E & F1 & F2).
  { cbn [tcp_accept tw_cin]. rewrite zlen_app. lia. }
  exists w. split; [exact E|]. split; [|split].
  - intros i HA. destruct (F1 i 0 HA) as (Q & _ & C & _ & _ & O & _). auto.
  - intros i HA. destruct (F1 i 1 HA) as (Q & _ & C & _ & _ & O & _). exists (-2). auto.
  - intros HN. destruct (F2 HN) as (Q & O & _). auto.
Qed.
Print Assumptions C25_delivered.

(** From the client's first octet to the last one it gets: however the query is split on its
    way, and however many octets of the reply the network takes each time, what the client has
    got is a part of the reply with its length before it, from the beginning, and the whole of
    it in the end. *)
Theorem C25_reply :
  forall J cf now p rest i evs now' r evs', junk_ok J -> bytes (frame p ++ rest) -> sendable p -> readable cf p -> asks p i 0 -> Forall is_tick evs -> zlen (frame p) <= count_ev brings evs ->
  zlen r < 65536 -> Forall is_tick evs' ->
  exists w, tcp_run J cf (evs ++ GotReply now' r :: evs') (tcp_accept J cf now (frame p ++ rest)) = Ok w /\ tw_query w = [(i, p)] /\
    prefix (tw_cout w) (frame r) /\
    (tw_copen w = false -> tw_cout w = frame r) /\
    (zlen (frame r) < count_ev takes evs' -> tw_copen w = false).
Proof.
  intros J cf now p rest i evs now' r evs' HJ HB HS HR HA HT HC Hr HT'.
  destruct (deliver_run J cf (frame p ++ rest) p rest evs HJ HB eq_refl HS HR (tcp_accept J cf now (frame p ++ rest)) (accept_reading J cf now _ HJ) HT) as (w & E & F1 & _).
  { cbn [tcp_accept tw_cin]. rewrite zlen_app. lia. }
  destruct (F1 i 0 HA) as (Q & ST & C & O & L & OP & S0). destruct (reply_sending J cf now' r w Hr L S0 OP) as (w1 & E1 & SD & Q1). rewrite O in SD.
  destruct (sending_run J cf r [] evs' HT' 0 w1 SD) as (w2 & E2 & H2).
  assert (forall evs0 w0, tcp_run J cf (evs0 ++ GotReply now' r :: evs') w0 = (w' <- tcp_run J cf evs0 w0 ;; tcp_run J cf (GotReply now' r :: evs') w')) as RA.
  { clear. induction evs0 as [|ev evs0 IH]; intros w0; cbn [app tcp_run bind]; [reflexivity|]. destruct (tcp_step J cf ev w0); cbn [bind]; [apply IH|reflexivity|reflexivity]. }
  exists w2. split; [rewrite RA, E; cbn [bind tcp_run tcp_step]; rewrite E1; cbn [bind]; exact E2|].
  assert (tw_query w2 = tw_query w1) as Q2.
  { assert (over w1) as O1 by (destruct SD as (? & ? & ? & SDc & _); left; rewrite SDc; cbn; lia). clear - O1 E2. revert w1 O1 E2. induction evs' as [|ev evs' IH]; intros w1 O1 E2; cbn [tcp_run] in E2; [apply Ok_inj in E2; subst; reflexivity|].
    destruct (tcp_step J cf ev w1) as [w3| |] eqn:E3; cbn [bind] in E2; try discriminate. destruct (over_step J cf ev w1 w3 O1 E3) as (O3 & _ & Q3). rewrite (IH w3 O3 E2). exact Q3. }
  split; [rewrite Q2, Q1; exact Q|]. pose proof (zlen_frame r) as LF. destruct H2 as [(g & SG & LG)|(A1 & A2 & A3)].
  - pose proof SG as (u & j & die & EC & HG & HO & HOp). cbn [app] in HO. split; [rewrite HO; apply zslice_prefix; lia|]. split; [congruence|]. intros HCt. lia.
  - cbn [app] in A2. split; [rewrite A2; exists []; rewrite app_nil_r; reflexivity|]. auto.
Qed.
Print Assumptions C25_reply.

(** When the reply over UDP was truncated, the query goes upstream over TCP.  What the upstream
    server is sent is the query with its length; what the client has got is at any time a part
    of the reply with its length, from the beginning. *)
Theorem C25_upstream :
  forall J cf w q us evs, bytes us -> zlen q < 65536 -> tc_local (tw_c w) = true -> tc_sent (tw_c w) = 0 -> tw_copen w = true -> tw_cout w = [] -> Forall is_tick evs ->
  exists w', tcp_run J cf (Retry q (Some us) :: evs) w = Ok w' /\ prefix (tw_uout w') (frame q) /\ prefix (tw_cout w') us /\
    forall body rest, zlen body < 65536 -> us = frame body ++ rest -> prefix (tw_cout w') (frame body).
Proof.
  intros J cf w q us evs HB Hq HL HS HO HC HT. destruct (retry_stage J w q us False Hq HL HS HO) as (w1 & E1 & H1). rewrite HC in H1.
  destruct (stage_run q us [] HB J cf False 0 evs ltac:(lia) HT (fun F : False => match F with end) _ w1 (H1 0)) as (w2 & m2 & E2 & H2 & _). exists w2. split; [cbn [tcp_run tcp_step]; rewrite E1; exact E2|].
  destruct (stage_says q us [] False 0 m2 w2 HB H2) as (A & x & B & C & D). cbn [app] in B. rewrite B. auto.
Qed.
Print Assumptions C25_upstream.
(** If the network takes all it is given for the client, the client gets all of the reply,
    however it was split on its way from upstream. *)
Theorem C25_upstream_complete :
  forall J cf w q body rest evs, bytes (frame body ++ rest) -> zlen q < 65536 -> 1 <= zlen body < 65536 -> tc_local (tw_c w) = true -> tc_sent (tw_c w) = 0 -> tw_copen w = true -> tw_cout w = [] ->
  Forall takes_all evs -> zlen (frame q) + zlen body + 4 <= count_ev eager_ev evs ->
  exists w', tcp_run J cf (Retry q (Some (frame body ++ rest)) :: evs) w = Ok w' /\ tw_uout w' = frame q /\ tw_cout w' = frame body /\ tw_uin w' = rest /\ tw_copen w' = false /\ tw_uopen w' = false.
Proof.
  intros J cf w q body rest evs HB Hq Hb HL HS HO HC HT HN. set (us := frame body ++ rest) in *. destruct (retry_stage J w q us True Hq HL HS HO) as (w1 & E1 & H1). rewrite HC in H1.
  assert (Forall is_tick evs) as HT2. { eapply Forall_impl; [|exact HT]. intros ev (e & k & -> & _). exists e. reflexivity. }
  destruct (stage_run q us [] HB J cf True (zlen body) evs ltac:(lia) HT2 (fun _ => HT) _ w1 (H1 (zlen body))) as (w2 & m2 & E2 & H2 & M2). exists w2. split; [cbn [tcp_run tcp_step]; rewrite E1; exact E2|].
  assert (reply_in us (zlen body)) as HR by (exists body, rest; split; [reflexivity|]; lia). specialize (M2 HR). rewrite zlen_frame in HN.
  destruct H2 as [(g & (j & die & _ & HG & _) & Em)|[(a & (j & die & _ & LA & _) & Em)|[(b & (h0 & h1 & j & sent & die & _ & LB & _ & HI & _) & Em)|((EC & h0 & h1 & b & sent & LB & HI & HU & HCo & HSt & O1 & O2 & HF) & _)]]]; try (exfalso; lia).
  - exfalso. destruct (reply_head us HB (zlen body) h0 h1 _ HR HI) as (EN & _). lia.
  - destruct (reply_head us HB (zlen body) h0 h1 _ HR HI) as (EN & _). specialize (HF Logic.I). replace (zlen b =? 0) with false in HF by lia. subst sent. cbn [app] in HCo.
    assert (zslice (h0 :: h1 :: b) 0 (zlen b + 2) = h0 :: h1 :: b) as EZ. { replace (zlen b + 2) with (zlen (h0 :: h1 :: b)) by (rewrite !zlen_cons; lia). apply zslice_all. }
    rewrite EZ in HCo. assert (h0 :: h1 :: b = frame body /\ tw_uin w2 = rest) as (E3 & E4).
    { unfold us in HI. change (h0 :: h1 :: b ++ tw_uin w2) with ((h0 :: h1 :: b) ++ tw_uin w2) in HI. symmetry in HI. apply (app_inj_len (h0 :: h1 :: b)) in HI; [exact HI|]. apply Nat2Z.inj. change (zlen (h0 :: h1 :: b) = zlen (frame body)). rewrite !zlen_cons, zlen_frame. lia. }
    rewrite HCo, E3, E4. auto.
Qed.
Print Assumptions C25_upstream_complete.

(** Nothing outside a buffer is read or written, in any history in which no reply comes for a
    connection that is forwarding one already; for signed [char], if the length begins with an
    octet below 128. *)
Theorem C25_safe :
  forall J cf now s evs, junk_ok J -> bytes s -> calm J cf evs (tcp_accept J cf now s) -> (cf_signed cf = true -> forall h r, s = h :: r -> h < 128) ->
  safe (tcp_run J cf evs (tcp_accept J cf now s)).
Proof.
  intros J cf now s evs HJ HB HC HS. pose proof (run_safe J cf s evs HJ HB (tcp_accept J cf now s) (or_introl (accept_reading J cf now s HJ)) HC) as H. intros f E. rewrite E in H. destruct H as (_ & SG & h & r & Es & H128). specialize (HS SG h r Es). lia.
Qed.
Print Assumptions C25_safe.

(** *** Where it fails *)
(** [char] is signed on most machines: then a query is not answered, however it is sent, if the
    lower octet of its length is 128 or more. *)
Theorem C25_length_refuted :
  (forall J cf now p rest evs w, junk_ok J -> bytes (frame p ++ rest) -> zlen p < 65536 -> cf_signed cf = true -> 128 <= zlen p mod 256 ->
     tcp_run J cf evs (tcp_accept J cf now (frame p ++ rest)) = Ok w -> tw_query w = []) /\
  exists p i, sendable p /\ bytes p /\ asks p i 0 /\ 128 <= zlen p mod 256.
Proof.
  split.
  - intros J cf now p rest evs w HJ HB HL HSg HM H. assert (hist cf (frame p ++ rest) w) as [HR|(_ & [HQ|(i & ar & p' & HQ & HS & HF & HRd & HA)])].
    + apply (hist_run J cf (frame p ++ rest) evs (tcp_accept J cf now (frame p ++ rest)) w HJ HB); [left; apply accept_reading; exact HJ|exact H].
    + exact (proj1 (reading_not_over cf (frame p ++ rest) w HR)).
    + exact HQ.
    + exfalso. apply frame_inj in HS as (<- & _); [|exact HL|unfold sendable in HF; lia]. destruct (HRd HSg). lia.
  - set (l := repeat 97 63%nat). set (h := mkheader 4660 0 0 0 0 1 0 0 0 0 0 1 0 0 0). exists (header_bytes h ++ wire [l; l] ++ [0; 1; 0; 1]), 4660.
    split; [vm_compute; split; congruence|]. split; [apply bytesb_spec; vm_compute; reflexivity|]. split; [|vm_compute; congruence].
    exists h, (wire [l; l] ++ [0; 1; 0; 1]), [l; l], 0, 1. split; [unfold header_ok, word, bit, h; cbn; lia|]. split; [reflexivity|]. split; [unfold plain_query, h; cbn; auto 10|]. split; [reflexivity|]. split; [reflexivity|]. split; [auto|]. split; [|split; [vm_compute; reflexivity|lia]].
    assert (good_label l) as GL by (split; [vm_compute; split; congruence|apply bytesb_spec; vm_compute; reflexivity]).
    split; [constructor; [exact GL|constructor; [exact GL|constructor]]|]. assert (Forall (fun b => 32 <= b) l) as PL by (apply Forall_forall; intros b Hb; apply repeat_spec in Hb; lia). split; [constructor; [exact PL|constructor; [exact PL|constructor]]|].
    vm_compute. repeat split; congruence.
Qed.
Print Assumptions C25_length_refuted.
(** ... and what happens to one of 32768 octets or more is undefined. *)
Theorem C25_length_undefined_refuted :
  forall J cf now e h0 h1 rest k, junk_ok J -> cf_signed cf = true -> 128 <= h0 < 256 -> te_rl e = Some k -> 2 <= k ->
  tcp_run J cf [Tick e] (tcp_accept J cf now (h0 :: h1 :: rest)) = Bad SignedOverflow.
Proof.
  intros J cf now e h0 h1 rest k HJ HS H0 HE HK. cbn [tcp_run tcp_step]. rewrite handle_all_rest. unfold tcp_get_wanted. cbn [tcp_accept tw_c tc_wanted tc_got tc_state tc_local tw_cin]. rewrite HE. change ((0 <? 2 - 0) && (0 =? 0)) with true. cbv iota. unfold net_recv.
  replace (Z.to_nat (Z.min k (2 - 0))) with 2%nat by lia. cbn [firstn skipn]. unfold buf_of. cbn [tc_buf bind]. change (mkjunk J 3) with [J 0; J 1; J 2].
  assert (forall a b c, put_at [a; b; c] 0 [h0; h1] = Ok [h0; h1; c]) as EP by reflexivity. rewrite EP. cbn [bind].
  unfold tcp_process_data. cbn [tw_c tc_wanted tc_got tc_state tc_buf]. change (zlen [h0; h1]) with 2. change (negb (2 =? 0 + 2) || negb (0 =? 0)) with false. cbv iota. change (2 =? 2) with true. cbv iota. rewrite rd_app_head. cbn [bind]. rewrite rd_app_second. cbn [bind].
  unfold frame_len, char_val. rewrite HS. unfold i8. rewrite Z.mod_small by lia. replace (h0 <? 128) with false by lia. cbv zeta iota. replace (h0 - 256 <? 0) with true by lia. reflexivity.
Qed.
Print Assumptions C25_length_undefined_refuted.
(** A query with an additional record (EDNS) is handed on with an ID that is not its own. *)
Theorem C25_edns_id_refuted :
  forall J cf now p rest i evs, junk_ok J -> bytes (frame p ++ rest) -> sendable p -> readable cf p -> Forall is_tick evs -> zlen (frame p) <= count_ev brings evs -> asks p i 1 ->
  exists w, tcp_run J cf evs (tcp_accept J cf now (frame p ++ rest)) = Ok w /\ tw_query w = [(-2, p)].
Proof.
  intros J cf now p rest i evs HJ HB HS HR HT HC HA.
  destruct (deliver_run J cf (frame p ++ rest) p rest evs HJ HB eq_refl HS HR (tcp_accept J cf now (frame p ++ rest)) (accept_reading J cf now _ HJ) HT) as (w & E & F1 & _).
  { cbn [tcp_accept tw_cin]. rewrite zlen_app. lia. }
  exists w. split; [exact E|]. destruct (F1 i 1 HA) as (Q & _). exact Q.
Qed.
Print Assumptions C25_edns_id_refuted.
(** The reply from upstream is cut off, and the connection closed, if the network does not take
    all of its last part at once. *)
Definition a_query : list Z := header_bytes (mkheader 4660 0 0 0 0 1 0 0 0 0 0 1 0 0 0) ++ wire [[97]] ++ [0; 1; 0; 1].
Definition signed_conf := mktcf 4 2 true.
Lemma a_query_asks : asks a_query 4660 0.
Proof.
  exists (mkheader 4660 0 0 0 0 1 0 0 0 0 0 1 0 0 0), (wire [[97]] ++ [0; 1; 0; 1]), [[97]], 0, 1. split; [unfold header_ok, word, bit; cbn; lia|]. split; [reflexivity|]. split; [unfold plain_query; cbn; auto 10|]. split; [reflexivity|]. split; [reflexivity|]. split; [auto|]. split; [|split; [vm_compute; reflexivity|lia]].
  split; [constructor; [|constructor]; split; [vm_compute; split; congruence|apply bytesb_spec; reflexivity]|]. split; [constructor; [|constructor]; constructor; [lia|constructor]|]. vm_compute. repeat split; congruence.
Qed.
Theorem C25_cut_off_refuted :
  exists evs w, tcp_run (fun _ => 0) signed_conf evs (tcp_accept (fun _ => 0) signed_conf 0 (frame a_query)) = Ok w /\
    evs = [Tick (mkte 1 (Some 2) None None None); Tick (mkte 1 (Some 19) None None None); Retry a_query (Some (frame a_query)); Tick (mkte 2 None (Some 100) (Some 100) (Some 100)); Tick (mkte 3 None (Some 20) (Some 100) (Some 100)); Tick (mkte 4 None (Some 100) (Some 100) (Some 100))] /\
    tw_uin w = [] /\ tw_copen w = false /\ tw_cout w <> frame a_query.
Proof.
  eexists. eexists. split; [|split; [reflexivity|]].
  - vm_compute. reflexivity.
  - cbn [tw_uin tw_copen tw_cout]. split; [reflexivity|]. split; [reflexivity|]. vm_compute. congruence.
Qed.
Print Assumptions C25_cut_off_refuted.

(** *** Examples *)
Definition one_by_one (n : nat) : list tevent := map (fun k => Tick (mkte (Z.of_nat k) (Some 1) (Some 1) (Some 1) (Some 1))) (seq 1 n).
Example C25_case :
  junk_ok (fun _ => 7) /\ bytes (frame a_query ++ [1; 2; 3]) /\ sendable a_query /\ readable signed_conf a_query /\ asks a_query 4660 0 /\ Forall is_tick (one_by_one 30) /\ zlen (frame a_query) <= count_ev brings (one_by_one 30) /\
  match tcp_run (fun _ => 7) signed_conf (one_by_one 30 ++ GotReply 40 [9; 9] :: one_by_one 5) (tcp_accept (fun _ => 7) signed_conf 0 (frame a_query ++ [1; 2; 3])) with
  | Ok w => tw_query w = [(4660, a_query)] /\ tw_cin w = [1; 2; 3] /\ tw_cout w = [0; 2; 9; 9] /\ tw_copen w = false
  | _ => False
  end.
Proof.
  split; [intros k; unfold byte; lia|]. split; [apply bytesb_spec; vm_compute; reflexivity|]. split; [vm_compute; split; congruence|]. split; [intros _; vm_compute; auto|]. split; [exact a_query_asks|].
  split; [apply Forall_forall; intros ev H; apply in_map_iff in H as (k & <- & _); eexists; reflexivity|]. split; [vm_compute; congruence|]. vm_compute. auto.
Qed.
Example C25_upstream_case :
  match tcp_run (fun _ => 7) signed_conf (Retry a_query (Some (frame [5; 6; 7] ++ [8])) :: map (fun _ => Tick (mkte 1 None (Some 65537) (Some 1) (Some 1))) (seq 0 28)) (tcp_accept (fun _ => 7) signed_conf 0 []) with
  | Ok w => tw_uout w = frame a_query /\ tw_cout w = [0; 3; 5; 6; 7] /\ tw_uin w = [8] /\ tw_uopen w = false
  | _ => False
  end.
Proof. vm_compute. auto. Qed.
Example C25_safe_case : calm (fun _ => 7) signed_conf (one_by_one 30 ++ GotReply 40 [9; 9] :: one_by_one 5) (tcp_accept (fun _ => 7) signed_conf 0 (frame a_query)).
Proof.
  assert (forall evs w, Forall is_tick evs -> calm (fun _ => 7) signed_conf evs w) as K.
  { induction evs as [|ev evs IH]; intros w HT; [exact Logic.I|]. inversion HT as [|? ? (e & ->) HT']; subst. split; [exact Logic.I|]. intros w' _. apply IH. exact HT'. }
  assert (forall n, Forall is_tick (one_by_one n)) as KT by (intros n; apply Forall_forall; intros ev H; apply in_map_iff in H as (k & <- & _); eexists; reflexivity).
  assert (forall evs evs' w, Forall is_tick evs -> (forall w', tcp_run (fun _ => 7) signed_conf evs w = Ok w' -> calm (fun _ => 7) signed_conf evs' w') -> calm (fun _ => 7) signed_conf (evs ++ evs') w) as KA.
  { induction evs as [|ev evs IH]; intros evs' w HT H; [apply H; reflexivity|]. inversion HT as [|? ? (e & ->) HT']; subst. split; [exact Logic.I|]. intros w' E. apply IH; [exact HT'|]. intros w2 E2. apply H. cbn [tcp_run]. rewrite E. exact E2. }
  apply KA; [apply KT|]. intros w' E. split; [|intros w2 _; apply K, KT]. vm_compute in E. injection E as <-. cbn. congruence.
Qed.

(** C39: idle connections are closed. *)
(** A client that sends nothing, or stops in the middle, loses its connection once the timeout
    has passed. *)
Theorem C39_idle_closed :
  forall J cf now s evs1 evs2 w, junk_ok J -> bytes s -> Forall is_tick evs1 -> tcp_run J cf evs1 (tcp_accept J cf now s) = Ok w -> tc_state (tw_c w) = 0 -> tw_copen w = true ->
  Forall mute evs2 -> forall t, 0 < tc_die (tw_c w) < t ->
  exists w', tcp_run J cf (evs2 ++ [Expire t]) w = Ok w' /\ tw_copen w' = false /\ tw_c w' = tc_reset /\ tw_cout w' = [] /\ tw_query w' = [].
Proof.
  intros J cf now s evs1 evs2 w HJ HB HT1 HR HS HO HM t Ht. assert (hist cf s w) as HH by (apply (hist_run J cf s evs1 (tcp_accept J cf now s) w HJ HB); [left; apply accept_reading; exact HJ|exact HR]).
  destruct HH as [HRd|([HN|HRs] & _)]; [|congruence|rewrite HRs in Ht; cbn in Ht; lia].
  assert (forall evs, Forall mute evs -> tcp_run J cf (evs ++ [Expire t]) w = tcp_run J cf [Expire t] w) as K.
  { induction evs as [|ev evs IH]; intros HF; [reflexivity|]. inversion HF as [|? ? (e & -> & HE) HF']; subst. cbn [app tcp_run tcp_step]. rewrite handle_all_rest. unfold tcp_get_wanted. rewrite HE.
    assert (forall A B C D, net_recv A None B C = D -> D = (None, C)) as KN by (intros A B C D <-; reflexivity). unfold net_recv.
    assert ((if (0 <? tc_wanted (tw_c w) - tc_got (tw_c w)) && (tc_state (tw_c w) =? 0) then Ok w else Ok w) = Ok w) as -> by (destruct (_ && _); reflexivity). cbn [bind].
    destruct HRd as (_ & _ & HG). unfold tcp_process_data. replace (tc_wanted (tw_c w) =? tc_got (tw_c w)) with false by lia. cbn [negb orb bind]. rewrite rest_idle by auto. cbn [bind]. apply IH. exact HF'. }
  rewrite (K evs2 HM). cbn [tcp_run tcp_step bind]. unfold kill_tcp_expired. replace ((0 <? tc_die (tw_c w)) && (tc_die (tw_c w) <? t)) with true by lia. exists (close_local w). split; [reflexivity|].
  destruct HRd as ((F1 & F2 & F3) & R & _). cbn [close_local tw_copen tw_c tw_cout tw_query]. split; [|auto]. destruct R as [(a & j & die & -> & _)|(h0 & h1 & n & a & j & die & _ & _ & -> & _)]; reflexivity.
Qed.
Print Assumptions C39_idle_closed.
Example C39_case :
  exists w, tcp_run (fun _ => 0) signed_conf (one_by_one 7) (tcp_accept (fun _ => 0) signed_conf 100 (frame a_query)) = Ok w /\ tc_state (tw_c w) = 0 /\ tw_copen w = true /\ 0 < tc_die (tw_c w) < 2000 /\ zlen (tw_cin w) = 14.
Proof. eexists. split; [vm_compute; reflexivity|]. cbn [tw_c tc_state tw_copen tc_die tw_cin]. vm_compute. repeat split; congruence. Qed.
(** But a client that closes its side keeps the connection, and the slot, for ever: recv
    returns 0 each time, and that puts off the end. *)
Theorem C39_closed_by_client_refuted :
  forall J cf times, junk_ok J -> 0 <= cf_tcp cf -> (forall now, exists w, tcp_run J cf (flat_map (fun t => [Tick (mkte t (Some 65535) (Some 65535) (Some 65535) (Some 65535)); Expire t]) times) (tcp_accept J cf now []) = Ok w /\
    tw_copen w = true /\ tc_local (tw_c w) = true).
Proof.
  intros J cf times HJ HC now.
  assert (forall w, tw_cin w = [] -> tw_copen w = true -> (exists m die, tw_c w = mktc true false (Some m) 2 0 0 0 die) ->
    exists w', tcp_run J cf (flat_map (fun t => [Tick (mkte t (Some 65535) (Some 65535) (Some 65535) (Some 65535)); Expire t]) times) w = Ok w' /\ tw_copen w' = true /\ tc_local (tw_c w') = true) as K.
  2: { apply K; [reflexivity|reflexivity|]. eexists. eexists. reflexivity. }
  clear now. induction times as [|t times IH]; intros w HI HO (m & die & E); cbn [flat_map app tcp_run].
  - exists w. split; [reflexivity|]. rewrite E. auto.
  - cbn [tcp_step]. rewrite handle_all_rest. unfold tcp_get_wanted. rewrite E. cbn [tc_wanted tc_got tc_state tc_local te_rl]. change ((0 <? 2 - 0) && (0 =? 0)) with true. cbv iota. unfold net_recv. rewrite HI. rewrite firstn_nil, skipn_nil. unfold buf_of. cbn [tc_buf bind].
    change (put_at m 0 []) with (Ok m). cbn [bind]. change (0 + zlen (@nil Z)) with 0. unfold tcp_process_data. cbn [tw_c tc_wanted tc_got]. change (2 =? 0) with false. cbn [negb orb bind]. rewrite rest_idle by (left; reflexivity). cbn [bind te_now tc_up tc_sent].
    unfold kill_tcp_expired. cbn [tw_c tc_die]. unfold soon. replace ((0 <? t + cf_tcp cf * 256) && (t + cf_tcp cf * 256 <? t)) with false by lia. apply IH; [reflexivity|exact HO|]. eexists. eexists. reflexivity.
Qed.
Print Assumptions C39_closed_by_client_refuted.
(** And when a connection ends while a query is upstream, the socket to the upstream server is
    never closed. *)
Theorem C39_upstream_leak_refuted :
  forall J w q us t, 0 < tc_die (tw_c w) < t -> tc_local (tw_c w) = true ->
  exists w1, tcp_truncated_retry J q (Some us) w = Ok w1 /\ tw_c (kill_tcp_expired t w1) = tc_reset /\ tw_copen (kill_tcp_expired t w1) = false /\ tw_uopen (kill_tcp_expired t w1) = true.
Proof.
  intros J w q us t Ht HL. destruct (retry_ok J q (Some us) w) as (m & _ & _ & E). rewrite E. eexists. split; [reflexivity|]. unfold kill_tcp_expired. cbn [tw_c tc_die]. replace ((0 <? tc_die (tw_c w)) && (tc_die (tw_c w) <? t)) with true by lia.
  cbn [close_local tw_c tw_copen tw_uopen tc_local]. rewrite HL. auto.
Qed.
Print Assumptions C39_upstream_leak_refuted.

(** C40: a reply goes to the client that asked. *)
(** A client which has asked nothing is sent nothing, as long as no client loses its connection
    before the reply to its query has come. *)
Theorem C40_asked_first_partial :
  forall J cf evs w due, junk_ok J -> Forall opens_well evs -> patient J cf evs empty_slot -> slot_run J cf evs empty_slot = Ok (w, due) ->
  tw_query w = [] -> tw_cout w = [].
Proof.
  intros J cf evs w due HJ HF HP HR HQ.
  assert (forall sl sl', Forall opens_well evs -> patient J cf evs sl -> slot_inv cf sl -> slot_run J cf evs sl = Ok sl' -> slot_inv cf sl') as K.
  { clear - HJ. induction evs as [|ev evs IH]; intros sl sl' HF HP HI HR; cbn [slot_run] in HR; [apply Ok_inj in HR; subst; exact HI|]. destruct (slot_step J cf ev sl) as [sl1| |] eqn:E; cbn [bind] in HR; try discriminate.
    inversion HF as [|? ? HF1 HF2]; subst. destruct HP as (HP1 & HP2). apply (IH sl1 sl' HF2 (HP2 sl1 E)); [|exact HR]. exact (slot_inv_step J cf ev sl sl1 HJ HF1 HI HP1 E). }
  specialize (K empty_slot (w, due) HF HP). destruct K as [(_ & [(s & _ & HRd)|(_ & _ & HC)])|(HN & _)]; [left; split; [reflexivity|right; repeat split]|exact HR|destruct HRd as ((F1 & _) & _); exact F1|exact HC|congruence].
Qed.
Print Assumptions C40_asked_first_partial.
(** In general it is not so: the reply to a query whose client is gone is sent to the client
    which has got its slot. *)
Definition take_all (t : Z) : sevent := STick (mkte t (Some 65535) (Some 65535) None None).
Theorem C40_refuted :
  exists evs w due, slot_run (fun _ => 0) signed_conf evs empty_slot = Ok (w, due) /\ Forall opens_well evs /\ tw_query w = [] /\ tw_cin w = [] /\ tw_cout w = frame [1; 2; 3].
Proof.
  exists [SAccept 10 (frame a_query); take_all 11; take_all 12; SExpire 5000; SAccept 5001 []; SReply 5002 [1; 2; 3]; take_all 5003]. eexists. eexists. split; [vm_compute; reflexivity|].
  split; [|cbn [tw_query tw_cin tw_cout]; repeat split]. repeat (apply Forall_cons; [exact Logic.I || (apply bytesb_spec; vm_compute; reflexivity) || (cbn; constructor)|]). apply Forall_nil.
Qed.
Print Assumptions C40_refuted.
Example C40_case :
  let evs := [SAccept 10 (frame a_query); take_all 11; take_all 12; SReply 13 [1; 2; 3]; take_all 14; take_all 15; SAccept 16 [0]; take_all 17] in
  Forall opens_well evs /\ patient (fun _ => 0) signed_conf evs empty_slot /\ exists w, slot_run (fun _ => 0) signed_conf evs empty_slot = Ok (w, 0%nat) /\ tc_got (tw_c w) = 1.
Proof.
  cbv zeta. split; [|split; [|eexists; split; [vm_compute; reflexivity|reflexivity]]].
  - repeat (apply Forall_cons; [exact Logic.I || (apply bytesb_spec; vm_compute; reflexivity)|]). apply Forall_nil.
  - repeat (split; [exact Logic.I|intros ? _]). exact Logic.I.
Qed.
