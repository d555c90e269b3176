(** C18, C36, C37: replies of upstream servers, pending queries, packets for clients
    (Deadwood). *)
From Verif Require Import CBase Bits SpecNames SpecMessage SpecQuery SpecDwStr SpecAcl ModelBlockHash ModelDwStr ModelDwDnsStr ModelDwSys ModelDwUdp ModelDwPend SpecUdp ProofDwStr ProofDwCompressSafe ProofDwDecomp ProofDwRecurseSafe ProofDwDname ProofDwSys ProofDwUdp ProofDwPend PropsDecompress.

(** *** C18: which packets are taken for the reply *)
(** A packet is the reply to a query exactly if it has the query's ID, something is counted in
    its header and its question is the query's, letter case aside. *)
Theorem C18_acceptance_exact :
  forall J id q p len, junk_ok J -> bytes p -> 12 <= len <= zlen p -> len < 134217728 -> 0 <= id -> dok q ->
  exists v, verify_dns_packet J id (Some q) p len = Ok v /\ (v = true <-> id_is p id /\ has_sections p /\ question p len (con q)).
Proof. intros J id q p len HJ HB Hl Hm Hi Dq. exact (verify_spec J id (Some q) p len HJ HB Hl Hm Hi Dq). Qed.
Print Assumptions C18_acceptance_exact.

(** In every history: what a packet of an upstream server makes Deadwood tell a client is the
    answer to a question that client asked, with the ID it asked with; and the packet has the
    ID and the question of the last packet that was sent by this socket. *)
Theorem C18_only_matching_replies_are_used :
  forall J cf maxprocs evs tr st, junk_ok J -> run J cf (init cf maxprocs) evs tr st -> Forall (event_ok maxprocs) evs ->
  forall t1 x t2 c, tr = t1 ++ Out x :: t2 -> to_client x c ->
  exists before ev others id q, t1 = before ++ In ev :: map Out others /\ answers x c id q /\ has_asked before c id q /\
    match ev with
    | Datagram b a count _ _ => question a count q /\ exists up, last_sent before b up /\ question up (zlen up) q /\ (glue_sent before -> exists id', id_is up id' /\ id_is a id')
    | Timeout _ _ _ => True
    | _ => False
    end.
Proof.
  intros J cf n evs tr st HJ HR HF t1 x t2 c Et Hc. destruct (run_outs J cf n _ _ _ _ HJ HR [] (repeat_length _ _) (init_inv cf n) HF t1 x t2 Et) as (u & ev & os & -> & HG).
  cbn [app] in HG. unfold good_out in HG. destruct x as [b p|c' i query orig|c' p]; [contradiction| |]; destruct HG as (c0 & id & q & HA & HQ & HC); assert (c0 = c) as -> by (cbn in HA, Hc; destruct HA as (HA & _); congruence); exists u, ev, os, id, q; auto.
Qed.
Print Assumptions C18_only_matching_replies_are_used.

(** A packet with another ID, with another question, with nothing in it or of another size
    changes nothing and has nothing sent. *)
Theorem C18_other_packets_change_nothing :
  forall J cf maxprocs evs tr st b a count code es, junk_ok J -> run J cf (init cf maxprocs) evs tr st -> Forall (event_ok maxprocs) evs -> glue_sent tr ->
  event_ok maxprocs (Datagram b a count code es) ->
  (forall up id q, last_sent tr b up -> id_is up id -> question up (zlen up) q -> ~ (12 <= count <= 512 /\ id_is a id /\ has_sections a /\ question a count q)) ->
  step J cf st (Datagram b a count code es) = Ok (st, []).
Proof.
  intros J cf n evs tr st b a count code es HJ HR HF HG (HB & Hc & Hz & Hb) HN. destruct (run_inv J cf n _ _ _ _ HJ HR [] (repeat_length _ _) (init_inv cf n) HF) as (HI & HL & _). cbn [app] in HI.
  apply (other_ok J cf tr st b a count code es HJ HI); auto; [unfold zlen; rewrite HL; exact Hb|split; assumption].
Qed.
Print Assumptions C18_other_packets_change_nothing.

(** *** C36: pending queries *)
(** Whatever happens, in whatever order, no step goes wrong. *)
Theorem C36_every_history_is_possible :
  forall J cf maxprocs evs, junk_ok J -> Forall (event_ok maxprocs) evs -> exists tr st, run J cf (init cf maxprocs) evs tr st.
Proof. intros J cf n evs HJ HF. destruct (run_ok J cf n HJ evs [] _ (repeat_length _ _) (init_inv cf n) HF) as (t & st & HR & _). eauto. Qed.
Print Assumptions C36_every_history_is_possible.
Theorem C36_no_step_goes_wrong :
  forall J cf maxprocs evs tr st ev, junk_ok J -> run J cf (init cf maxprocs) evs tr st -> Forall (event_ok maxprocs) (evs ++ [ev]) -> exists st' o, step J cf st ev = Ok (st', o).
Proof.
  intros J cf n evs tr st ev HJ HR HF. apply Forall_app in HF as (HF & HE). inversion HE as [|? ? HE1 _]; subst. destruct (run_inv J cf n _ _ _ _ HJ HR [] (repeat_length _ _) (init_inv cf n) HF) as (HI & HL & _). rewrite <- HL in HE1. destruct (step_ok J cf _ st ev HJ HI HE1) as (st' & o & E & _). eauto.
Qed.
Print Assumptions C36_no_step_goes_wrong.
(** No client gets more replies with an ID than it sent queries with that ID. *)
Theorem C36_at_most_one_answer_per_query :
  forall J cf maxprocs evs tr st c id, junk_ok J -> run J cf (init cf maxprocs) evs tr st -> Forall (event_ok maxprocs) evs ->
  (total (answered1 c id) tr <= total (asked1 c id) tr)%nat.
Proof.
  intros J cf n evs tr st c id HJ HR HF. destruct (run_inv J cf n _ _ _ _ HJ HR [] (repeat_length _ _) (init_inv cf n) HF) as (_ & _ & HC). specialize (HC c id). rewrite init_pends in HC. lia.
Qed.
Print Assumptions C36_at_most_one_answer_per_query.
(** The number of clients that wait for one query is limited; everyone who waits has asked
    that question. *)
Theorem C36_waiting_clients_have_asked :
  forall J cf maxprocs evs tr st b r xs q, junk_ok J -> run J cf (init cf maxprocs) evs tr st -> Forall (event_ok maxprocs) evs ->
  aget st b = Ok r -> waiting r xs -> re_query r = Some q ->
  Forall (fun x => has_asked tr (lo_client x) (lo_id x) (con q)) xs /\ zlen xs <= Z.max 1 (Z.min 32000 (pc_inflights cf) - 1) /\
  (re_open r = true -> exists up, last_sent tr b up /\ question up (zlen up) (con q) /\ (glue_sent tr -> id_is up (re_id r))).
Proof.
  intros J cf n evs tr st b r xs q HJ HR HF Er HW Eq. destruct (run_inv J cf n _ _ _ _ HJ HR [] (repeat_length _ _) (init_inv cf n) HF) as (HI & _ & _). cbn [app] in HI. destruct (HI _ _ Er) as ((_ & H2 & _ & xs' & HW' & HF') & HC).
  assert (xs' = xs) as ->.
  { destruct HW as (W1 & W2), HW' as (V1 & V2). destruct (re_local r) as [l|]; [|congruence]. destruct W1 as (r1 & ->), V1 as (r2 & E12). apply app_inv_len in E12 as (E12 & _); [|rewrite !map_length; unfold zlen in *; lia]. symmetry. clear - E12. revert xs' E12. induction xs; intros [|y ys] E; try discriminate; [reflexivity|]. injection E as -> E. f_equal. auto. }
  rewrite Eq in HF'. split; [eapply Forall_impl; [|exact HF']; intros x (_ & _ & _ & A); exact A|]. split.
  - destruct HW as (_ & <-). unfold num_alloc in H2. destruct (Z.ltb_spec (pc_inflights cf) 1); [lia|]. destruct (Z.ltb_spec 32000 (pc_inflights cf)); lia.
  - intros Ho. destruct HC as (_ & HC). specialize (HC Ho). rewrite Eq in HC. destruct HC as (up & A & B & C). eauto.
Qed.
Print Assumptions C36_waiting_clients_have_asked.

(** A query, nothing like it being on its way, is sent to an upstream server as soon as there
    is a free slot and a server; the client waits for the reply. *)
Theorem C36_new_query_is_sent_on :
  forall J cf maxprocs evs tr st client id orig packet len e q, junk_ok J -> run J cf (init cf maxprocs) evs tr st -> Forall (event_ok maxprocs) evs ->
  event_ok maxprocs (Query client id orig packet len None e) -> question packet len q ->
  (exists b r, aget st b = Ok r /\ re_open r = false /\ re_local r = None) -> e_addr e = 1 -> e_io e = true ->
  exists st' b r r' up, step J cf st (Query client id orig packet len None e) = Ok (st', [Upstream b up]) /\
    aget st b = Ok r /\ re_open r = false /\ re_local r = None /\
    aget st' b = Ok r' /\ waiting r' [mklocal client true id orig] /\ re_id r' = u16 (e_rnd e) /\ re_open r' = true /\ re_timer r' = true /\
    (exists s, re_query r' = Some s /\ con s = q) /\ id_is up (u16 (e_rnd e)) /\ question up (zlen up) q /\ zlen up = len /\ (forall b', b' <> b -> aget st' b' = aget st b').
Proof.
  intros J cf n evs tr st client id orig packet len e q HJ HR HF (HB & Hl & Hm & Hi & Dor & _) HQ HX Ha Hio. destruct (run_inv J cf n _ _ _ _ HJ HR [] (repeat_length _ _) (init_inv cf n) HF) as (HI & HL & _). eapply sent_ok; eauto. split; [exact HB|]. split; [exact Hl|]. split; [exact Hm|]. split; [exact Hi|exact Dor].
Qed.
Print Assumptions C36_new_query_is_sent_on.
(** A query like one on its way (the hash of those, [hint], says where) joins it if no more
    than max_inflights - 2 clients wait; nothing is sent. *)
Theorem C36_same_query_joins :
  forall J cf maxprocs evs tr st b r q xs client id orig packet len e, junk_ok J -> run J cf (init cf maxprocs) evs tr st -> Forall (event_ok maxprocs) evs ->
  event_ok maxprocs (Query client id orig packet len (Some b) e) -> aget st b = Ok r -> re_open r = true -> re_query r = Some q -> question packet len (con q) -> waiting r xs ->
  zlen xs <= Z.min 32000 (pc_inflights cf) - 2 ->
  exists st' r', step J cf st (Query client id orig packet len (Some b) e) = Ok (st', []) /\ aget st' b = Ok r' /\ waiting r' (xs ++ [mklocal client true id orig]) /\ re_id r' = re_id r /\ re_query r' = re_query r /\ re_open r' = true /\ re_timer r' = true /\ (forall b', b' <> b -> aget st' b' = aget st b').
Proof.
  intros J cf n evs tr st b r q xs client id orig packet len e HJ HR HF (HB & Hl & Hm & Hi & Dor & Hb) Er Eo Eq HQ HW Hroom. destruct (run_inv J cf n _ _ _ _ HJ HR [] (repeat_length _ _) (init_inv cf n) HF) as (HI & HL & _). pose proof (zlenA xs). eapply join_ok; eauto; [split; [exact HB|]; split; [exact Hl|]; split; [exact Hm|]; split; [exact Hi|exact Dor]|lia| |unfold zlen; rewrite HL; exact Hb].
  unfold num_alloc. destruct (Z.ltb_spec (pc_inflights cf) 1); [lia|]. destruct (Z.ltb_spec 32000 (pc_inflights cf)); lia.
Qed.
Print Assumptions C36_same_query_joins.
(** With max_inflights = N, however, N - 1 clients can wait, not N: the next one is ignored. *)
Theorem C36_max_inflights_refuted :
  forall J cf maxprocs evs tr st b r q xs client id orig packet len e, junk_ok J -> run J cf (init cf maxprocs) evs tr st -> Forall (event_ok maxprocs) evs ->
  event_ok maxprocs (Query client id orig packet len (Some b) e) -> aget st b = Ok r -> re_open r = true -> re_query r = Some q -> question packet len (con q) -> waiting r xs ->
  2 <= pc_inflights cf <= 32000 -> zlen xs = pc_inflights cf - 1 ->
  step J cf st (Query client id orig packet len (Some b) e) = Ok (st, []).
Proof.
  intros J cf n evs tr st b r q xs client id orig packet len e HJ HR HF (HB & Hl & Hm & Hi & Dor & Hb) Er Eo Eq HQ HW Hinf Hroom. destruct (run_inv J cf n _ _ _ _ HJ HR [] (repeat_length _ _) (init_inv cf n) HF) as (HI & HL & _). eapply refused_ok; eauto; [split; [exact HB|]; split; [exact Hl|]; split; [exact Hm|]; split; [exact Hi|exact Dor]|lia|].
  unfold num_alloc. destruct (Z.ltb_spec (pc_inflights cf) 1); [lia|]. destruct (Z.ltb_spec 32000 (pc_inflights cf)); lia.
Qed.
Print Assumptions C36_max_inflights_refuted.
(** The reply, when it has been put into the cache ([code] is what cache_dns_reply returned)
    and is not truncated, is given to every client that waits, each with its own ID and
    question; then the slot is free. *)
Theorem C36_reply_reaches_every_client :
  forall J cf maxprocs evs tr st b r q xs a count code es, junk_ok J -> run J cf (init cf maxprocs) evs tr st -> Forall (event_ok maxprocs) evs ->
  event_ok maxprocs (Datagram b a count code es) -> aget st b = Ok r -> re_open r = true -> waiting r xs -> re_query r = Some q ->
  count <= 512 -> id_is a (re_id r) -> has_sections a -> question a count (con q) -> 0 <= code < 16 -> (exists a2, zget a 2 = Some a2 /\ Z.land a2 2 = 0) ->
  exists st' o, step J cf st (Datagram b a count code es) = Ok (st', o) /\
    Forall2 (fun x y => exists query, y = Cached (lo_client x) (lo_id x) query (lo_orig x) /\ con query = con q) xs o /\
    aget st' b = Ok (fresh cf) /\ (forall b', b' <> b -> aget st' b' = aget st b').
Proof.
  intros J cf n evs tr st b r q xs a count code es HJ HR HF (HB & Hc & Hz & Hb) Er Eo HW Eq Hcnt Hid Hsec HQ Hcode Htc. destruct (run_inv J cf n _ _ _ _ HJ HR [] (repeat_length _ _) (init_inv cf n) HF) as (HI & HL & _).
  destruct (delivered_ok J cf _ st b r q xs a count code es HJ HI Er Eo HW ltac:(split; assumption) Hcnt Eq Hid Hsec HQ Hcode Htc) as (st' & o & E & HO & HG & HN). exists st', o. split; [exact E|]. split; [|auto]. clear - HO. induction HO as [|x y xs o (query & A & B & _) _ IH]; constructor; eauto.
Qed.
Print Assumptions C36_reply_reaches_every_client.
(** When the time is over and nothing is tried again, the first client gets SERVER FAIL with
    its ID and the question (if Deadwood is configured to say something)... *)
Theorem C36_timeout_tells_first_client :
  forall J cf maxprocs evs tr st b r q x xs rnd e, junk_ok J -> run J cf (init cf maxprocs) evs tr st -> Forall (event_ok maxprocs) evs ->
  event_ok maxprocs (Timeout b rnd e) -> aget st b = Ok r -> re_timer r = true -> re_retries r <= 0 -> pc_noreply cf = true -> waiting r (x :: xs) -> re_query r = Some q ->
  exists st', step J cf st (Timeout b rnd e) = Ok (st', [Packet (lo_client x) (num16 (lo_id x) ++ [129; 130; 0; 1; 0; 0; 0; 0; 0; 0] ++ con q ++ [0; 1])]) /\ aget st' b = Ok (fresh cf).
Proof.
  intros J cf n evs tr st b r q x xs rnd e HJ HR HF Hb Er Et Hret Hno HW Eq. destruct (run_inv J cf n _ _ _ _ HJ HR [] (repeat_length _ _) (init_inv cf n) HF) as (HI & HL & _). cbn [app] in HI. pose proof (HI _ _ Er) as HS. pose proof HS as ((_ & _ & _ & xs' & HW' & HF') & _). assert (xs' = x :: xs) as ->.
  { destruct HW as (W1 & W2), HW' as (V1 & V2). destruct (re_local r) as [l|]; [|congruence]. destruct W1 as (r1 & ->), V1 as (r2 & E12). apply app_inv_len in E12 as (E12 & _); [|rewrite !map_length; unfold zlen in *; lia]. symmetry. clear - E12. revert xs' E12. generalize (x :: xs) as ys. induction ys; intros [|y zs] E; try discriminate; [reflexivity|]. injection E as -> E. f_equal. auto. }
  cbn [step]. rewrite Er. cbn [bind]. rewrite Et. cbn [negb]. unfold handle_expired. replace (0 <? re_retries r) with false by lia. rewrite Hno. destruct (fail_loop_ok J cf tr b r (x :: xs) HJ HS HW HF') as (r' & o & ys & -> & HL' & HO). rewrite Eq in HO. cbn [failed_to] in HO. subst o. cbn [bind]. change (0 =? 1) with false. cbv iota. rewrite (reset_ok cf r' ys HL'). cbn [bind].
  destruct (aget_split _ _ _ Er) as (u & v & -> & ->). rewrite aset_app by reflexivity. cbn [bind]. eexists. split; [|apply aget_app; reflexivity]. apply Forall_cons_iff in HF' as ((Hid & _) & _). unfold ask_bytes. rewrite (u16be_small _ Hid). reflexivity.
Qed.
Print Assumptions C36_timeout_tells_first_client.

(** Concrete histories. *)
Definition cf1 : pconf := mkpconf 8 0 true true.
Definition q_a : list Z := [1; 97; 0; 0; 1].
Definition buf522 (p : list Z) : list Z := p ++ repeat 0 (522 - length p).
Definition buf520 (p : list Z) : list Z := p ++ repeat 0 (520 - length p).
Definition query_a (id : Z) : list Z := num16 id ++ [1; 0; 0; 1; 0; 0; 0; 0; 0; 0] ++ [1; 65; 0; 0; 1; 0; 1].
Definition reply_a (id : Z) : list Z := num16 id ++ [129; 128; 0; 1; 0; 1; 0; 0; 0; 0] ++ [1; 97; 0; 0; 1; 0; 1] ++ [192; 12; 0; 1; 0; 1; 0; 0; 0; 60; 0; 4; 1; 2; 3; 4].
Definition orig_a : dwstr := str_of [1; 65; 0; 0; 1].
Definition ev_ask (c id : Z) (hint : option Z) : event := Query c id orig_a (buf522 (query_a id)) 19 hint (mkenv 77 1 false true).
Definition ev_reply (b id : Z) (code : Z) (es : list (option env)) : event := Datagram b (buf520 (reply_a id)) 35 code es.
Fixpoint play (J : Z -> Z) (cf : pconf) (st : list remote) (evs : list event) : res (list remote * list out) :=
  match evs with
  | [] => Ok (st, [])
  | ev :: evs => '(st, o) <- step J cf st ev ;; '(st, o') <- play J cf st evs ;; Ok (st, o ++ o')
  end.
Definition outs (tr : list item) : list out := flat_map (fun i => match i with Out o => [o] | _ => [] end) tr.
Lemma outs_map o t : outs (map Out o ++ t) = o ++ outs t.
Proof. induction o as [|x o IH]; [reflexivity|]. unfold outs in *. cbn [map app flat_map]. rewrite IH. reflexivity. Qed.
Lemma play_run J cf evs : forall st st' o, play J cf st evs = Ok (st', o) -> exists tr, run J cf st evs tr st' /\ outs tr = o.
Proof.
  induction evs as [|ev evs IH]; intros st st' o H; cbn [play] in H; [injection H as <- <-; exists []; split; constructor|]. destruct (step J cf st ev) as [(st1 & o1)| |] eqn:E; try discriminate. cbn [bind] in H. destruct (play J cf st1 evs) as [(st2 & o2)| |] eqn:E2; try discriminate. cbn [bind] in H. injection H as <- <-.
  destruct (IH _ _ _ E2) as (tr & HR & HO). exists (In ev :: map Out o1 ++ tr). split; [econstructor; eassumption|]. change (outs (In ev :: map Out o1 ++ tr)) with (outs (map Out o1 ++ tr)). rewrite outs_map, HO. reflexivity.
Qed.
Lemma ask_event_ok c id hint n : 0 <= id < 65536 -> match hint with None => True | Some b => 0 <= b < Z.of_nat n end -> event_ok n (ev_ask c id hint).
Proof.
  intros Hi Hh. unfold event_ok, ev_ask. assert (bytes (query_a id)) as HB by (unfold query_a; apply bytes_app; split; [unfold num16; repeat constructor; unfold byte; lia|apply bytesb_spec; reflexivity]).
  assert (zlen (buf522 (query_a id)) = 522) as HZ by reflexivity. split; [apply bytes_app; split; [exact HB|apply bytesb_spec; reflexivity]|]. rewrite HZ. split; [lia|]. split; [lia|]. split; [exact Hi|]. split; [|exact Hh]. split; [constructor; [apply bytesb_spec; reflexivity|cbv; split; discriminate|cbv; split; discriminate|cbv; discriminate]|reflexivity].
Qed.
Lemma reply_event_ok b id code es n : 0 <= id < 65536 -> 0 <= b < Z.of_nat n -> event_ok n (ev_reply b id code es).
Proof.
  intros Hi Hb. unfold event_ok, ev_reply. assert (bytes (reply_a id)) as HB by (unfold reply_a; apply bytes_app; split; [unfold num16; repeat constructor; unfold byte; lia|apply bytesb_spec; reflexivity]).
  split; [apply bytes_app; split; [exact HB|apply bytesb_spec; reflexivity]|]. split; [change (zlen (buf520 (reply_a id))) with 520; lia|]. split; [reflexivity|exact Hb].
Qed.
(** Two clients ask for the same, in different letter case and with different IDs; a packet
    with the wrong ID comes, then the reply; both get it. *)
Definition evs1 : list event := [ev_ask 5 1000 None; ev_ask 6 2000 (Some 0); ev_reply 0 78 0 []; ev_reply 0 77 0 []].
Example history_concrete :
  Forall (event_ok 2) evs1 /\ exists tr st query up, run J0 cf1 (init cf1 2) evs1 tr st /\ outs tr = [Upstream 0 up; Cached 5 1000 query orig_a; Cached 6 2000 query orig_a] /\ con query = q_a /\ up = [0; 77; 0; 0; 0; 1; 0; 0; 0; 0; 0; 0; 1; 65; 0; 0; 1; 0; 1].
Proof.
  split; [repeat (constructor; [first [apply ask_event_ok; [lia|first [exact Logic.I|lia]]|apply reply_event_ok; lia]|]); constructor|].
  destruct (play J0 cf1 (init cf1 2) evs1) as [(st & o)| |] eqn:E; [|vm_compute in E; discriminate|vm_compute in E; discriminate]. destruct (play_run _ _ _ _ _ _ E) as (tr & HR & HO). vm_compute in E. injection E as _ E. exists tr, st. subst o. do 2 eexists. split; [exact HR|]. rewrite HO. split; [reflexivity|]. split; reflexivity.
Qed.
(** The waiting clients in between. *)
Example waiting_concrete :
  exists tr st r, run J0 cf1 (init cf1 2) [ev_ask 5 1000 None; ev_ask 6 2000 (Some 0)] tr st /\ aget st 0 = Ok r /\ re_open r = true /\ re_timer r = true /\ re_id r = 77 /\ re_retries r = 0 /\ (exists q, re_query r = Some q /\ con q = q_a) /\ waiting r [mklocal 5 true 1000 orig_a; mklocal 6 true 2000 orig_a].
Proof.
  destruct (play J0 cf1 (init cf1 2) [ev_ask 5 1000 None; ev_ask 6 2000 (Some 0)]) as [(st & o)| |] eqn:E; [|vm_compute in E; discriminate|vm_compute in E; discriminate]. destruct (play_run _ _ _ _ _ _ E) as (tr & HR & HO). vm_compute in E. injection E as E _. subst st. do 3 eexists. split; [exact HR|]. split; [reflexivity|]. split; [reflexivity|]. split; [reflexivity|]. split; [reflexivity|]. split; [reflexivity|]. split; [eexists; split; reflexivity|]. split; [eexists; reflexivity|reflexivity].
Qed.
Lemma letter_name b : 32 <= b < 256 -> good_name [[b]] /\ printable [[b]].
Proof. intros H. split; repeat constructor; try (unfold byte; lia); cbn; try lia. Qed.
Example question_concrete : question (buf522 (query_a 1000)) 19 q_a /\ id_is (buf520 (reply_a 77)) 77 /\ has_sections (buf520 (reply_a 77)) /\ question (buf520 (reply_a 77)) 35 q_a.
Proof.
  split; [|split; [exists 0, 77; split; reflexivity|split; [intros H; vm_compute in H; discriminate|]]].
  - exists [[65]], 0, 1. destruct (letter_name 65 ltac:(lia)) as (G & P). split; [split; [exact G|]; split; [exact P|]; split; [vm_compute; discriminate|]; split; [vm_compute; discriminate|reflexivity]|]. split; [reflexivity|]. split; [lia|reflexivity].
  - exists [[97]], 0, 1. destruct (letter_name 97 ltac:(lia)) as (G & P). split; [split; [exact G|]; split; [exact P|]; split; [vm_compute; discriminate|]; split; [vm_compute; discriminate|reflexivity]|]. split; [reflexivity|]. split; [lia|reflexivity].
Qed.

(** What is sent when the time is over reaches the first client only: the others that wait
    for the same are never told, and will not be (the slot is free afterwards). *)
Theorem C36_every_client_gets_servfail_refuted :
  exists cf evs tr st r rnd e st' p, Forall (event_ok 2) evs /\ run J0 cf (init cf 2) evs tr st /\ pc_noreply cf = true /\
    aget st 0 = Ok r /\ waiting r [mklocal 5 true 1000 orig_a; mklocal 6 true 2000 orig_a] /\
    step J0 cf st (Timeout 0 rnd e) = Ok (st', [Packet 5 p]) /\ aget st' 0 = Ok (fresh cf).
Proof.
  destruct waiting_concrete as (tr & st & r & HR & Er & Eo & Et & Eid & Ert & (q & Eq & Cq) & HW).
  assert (Forall (event_ok 2) [ev_ask 5 1000 None; ev_ask 6 2000 (Some 0)]) as HF by (repeat (constructor; [apply ask_event_ok; [lia|first [exact Logic.I|lia]]|]); constructor).
  assert (junk_ok J0) as HJ by (intros i; unfold J0, byte; lia). destruct (C36_timeout_tells_first_client J0 cf1 2 _ tr st 0 r q (mklocal 5 true 1000 orig_a) [mklocal 6 true 2000 orig_a] 9 (mkenv 1 1 false true) HJ HR HF ltac:(cbn; lia) Er Et ltac:(lia) eq_refl HW Eq) as (st' & E & G).
  exists cf1, [ev_ask 5 1000 None; ev_ask 6 2000 (Some 0)], tr, st, r, 9, (mkenv 1 1 false true), st'. eexists. split; [exact HF|]. split; [exact HR|]. split; [reflexivity|]. split; [exact Er|]. split; [exact HW|]. split; [exact E|exact G].
Qed.
Print Assumptions C36_every_client_gets_servfail_refuted.
(** With max_inflights = 2, the second client that asks is ignored while one waits. *)
Definition cf2 : pconf := mkpconf 2 0 true true.
Example max_inflights_concrete :
  exists tr st r q, run J0 cf2 (init cf2 2) [ev_ask 5 1000 None] tr st /\ aget st 0 = Ok r /\ re_open r = true /\ re_query r = Some q /\ con q = q_a /\ waiting r [mklocal 5 true 1000 orig_a] /\ zlen [mklocal 5 true 1000 orig_a] = pc_inflights cf2 - 1.
Proof.
  destruct (play J0 cf2 (init cf2 2) [ev_ask 5 1000 None]) as [(st & o)| |] eqn:E; [|vm_compute in E; discriminate|vm_compute in E; discriminate]. destruct (play_run _ _ _ _ _ _ E) as (tr & HR & HO). vm_compute in E. injection E as E _. subst st. do 4 eexists. split; [exact HR|]. split; [reflexivity|]. split; [reflexivity|]. split; [reflexivity|]. split; [reflexivity|]. split; [split; [eexists; reflexivity|reflexivity]|reflexivity].
Qed.
(** A query that finds only the name of a server, not its address: the client is not noted, so
    that nothing is sent to it when the address and then the reply come. *)
Definition ev_ask_noaddr (c id : Z) : event := Query c id orig_a (buf522 (query_a id)) 19 None (mkenv 77 2 false true).
Lemma noaddr_event_ok c id n : 0 <= id < 65536 -> event_ok n (ev_ask_noaddr c id).
Proof. intros H. exact (ask_event_ok c id None n H Logic.I). Qed.
Theorem C36_client_of_glueless_query_is_answered_refuted :
  exists tr st up, Forall (event_ok 2) [ev_ask_noaddr 5 1000; Glue 0 (mkenv 99 1 false true); ev_reply 0 99 0 []] /\
    run J0 cf1 (init cf1 2) [ev_ask_noaddr 5 1000; Glue 0 (mkenv 99 1 false true); ev_reply 0 99 0 []] tr st /\ outs tr = [Upstream 0 up] /\
    id_is up 99 /\ aget st 0 = Ok (fresh cf1).
Proof.
  destruct (play J0 cf1 (init cf1 2) [ev_ask_noaddr 5 1000; Glue 0 (mkenv 99 1 false true); ev_reply 0 99 0 []]) as [(st & o)| |] eqn:E; [|vm_compute in E; discriminate|vm_compute in E; discriminate]. destruct (play_run _ _ _ _ _ _ E) as (tr & HR & HO). vm_compute in E. injection E as E1 E2. exists tr, st. subst o. eexists.
  split; [constructor; [apply noaddr_event_ok; lia|]; constructor; [cbn; lia|]; constructor; [apply reply_event_ok; lia|constructor]|]. split; [exact HR|]. rewrite HO. split; [reflexivity|]. split; [exists 0, 99; split; reflexivity|]. subst st. reflexivity.
Qed.
Print Assumptions C36_client_of_glueless_query_is_answered_refuted.
(** If the address does not come either, the slot is lost for good: it is in use, and it has no
    time limit.  Here it was the only one. *)
Definition no_glue (ev : event) : Prop := match ev with Glue _ _ => False | _ => True end.
Theorem C36_slots_become_free_refuted :
  exists tr st r, event_ok 1 (ev_ask_noaddr 5 1000) /\ run J0 cf1 (init cf1 1) [ev_ask_noaddr 5 1000] tr st /\ outs tr = [] /\ aget st 0 = Ok r /\ waiting r [] /\ re_timer r = false /\
    forall evs tr' st', Forall (event_ok 1) evs -> Forall no_glue evs -> run J0 cf1 st evs tr' st' -> st' = st /\ outs tr' = [].
Proof.
  destruct (play J0 cf1 (init cf1 1) [ev_ask_noaddr 5 1000]) as [(st & o)| |] eqn:E; [|vm_compute in E; discriminate|vm_compute in E; discriminate]. destruct (play_run _ _ _ _ _ _ E) as (tr & HR & HO). vm_compute in E. injection E as E1 E2. exists tr, st. subst o. assert (exists r, st = [r] /\ re_open r = false /\ re_timer r = false /\ re_local r <> None /\ waiting r []) as (r & Est & Ho & Ht & HN & HW).
  { subst st. eexists. split; [reflexivity|]. split; [reflexivity|]. split; [reflexivity|]. split; [discriminate|]. split; [eexists; reflexivity|reflexivity]. } clear E1.
  exists r. split; [apply noaddr_event_ok; lia|]. split; [exact HR|]. split; [exact HO|]. rewrite Est in *. clear Est. split; [reflexivity|]. split; [exact HW|]. split; [exact Ht|].
  intros evs tr' st' HF HG HR'. remember [r] as st0 eqn:E0. revert HF HG E0. induction HR' as [st0|st0 ev st1 o evs tr' st2 E HR' IH]; intros HF HG ->; [auto|]. apply Forall_cons_iff in HF as (HE & HF). apply Forall_cons_iff in HG as (HGe & HG).
  assert (junk_ok J0) as HJ by (intros i; unfold J0, byte; lia). assert (step J0 cf1 [r] ev = Ok ([r], [])) as ES.
  { destruct ev as [client id orig packet len hint e|b a count code es|b rnd e|b e]; cbn [step event_ok no_glue] in *; try contradiction.
    - unfold forward. cbv zeta. assert (find_inflight J0 cf1 [r] packet len hint = Ok None) as ->; [|cbn [bind find_free]; rewrite Ho; cbn [negb andb]; destruct (re_local r); [reflexivity|congruence]].
      destruct HE as (HB & Hl & Hm & Hi & Dor & Hh). unfold find_inflight. destruct (_ || _); [reflexivity|]. pose proof (lowered_spec J0 packet len HJ HB ltac:(lia) ltac:(lia)) as HLo. destruct (lowered J0 packet len) as [[q|]| |f]; try contradiction; cbn [bind]; [|reflexivity]. destruct hint as [b|]; [|reflexivity]. assert (b = 0) as -> by lia. change (aget [r] 0) with (Ok r). cbn [bind]. rewrite Ho. reflexivity.
    - destruct HE as (_ & _ & _ & Hb). assert (b = 0) as -> by lia. change (aget [r] 0) with (Ok r). cbn [bind]. rewrite Ho. reflexivity.
    - assert (b = 0) as -> by lia. change (aget [r] 0) with (Ok r). cbn [bind]. rewrite Ht. reflexivity. }
  rewrite ES in E. injection E as <- <-. destruct (IH HR HF HG eq_refl) as (-> & HO'). split; [reflexivity|exact HO'].
Qed.
Print Assumptions C36_slots_become_free_refuted.
(** If sending fails when the address of a server has come, the ID that is waited for is one
    that was never sent: a reply with it is taken, the reply to the packet sent last is not. *)
Definition cf3 : pconf := mkpconf 8 3 true true.
Definition evs3 : list event := [ev_ask 5 1000 None; ev_reply 0 77 16 [Some (mkenv 5 2 false true)]; Timeout 0 9 (mkenv 1 1 false true); Glue 0 (mkenv 99 1 false false)].
Theorem C18_id_was_sent_refuted :
  exists tr st up query, Forall (event_ok 2) evs3 /\ run J0 cf3 (init cf3 2) evs3 tr st /\ last_sent tr 0 up /\ id_is up 1 /\
    step J0 cf3 st (ev_reply 0 1 0 []) = Ok (st, []) /\ exists st', step J0 cf3 st (ev_reply 0 99 0 []) = Ok (st', [Cached 5 1000 query orig_a]).
Proof.
  destruct (play J0 cf3 (init cf3 2) evs3) as [(st & o)| |] eqn:E; [|vm_compute in E; discriminate|vm_compute in E; discriminate]. clear E o.
  destruct (step J0 cf3 (init cf3 2) (ev_ask 5 1000 None)) as [(s1 & o1)| |] eqn:E1; [|vm_compute in E1; discriminate|vm_compute in E1; discriminate].
  destruct (step J0 cf3 s1 (ev_reply 0 77 16 [Some (mkenv 5 2 false true)])) as [(s2 & o2)| |] eqn:E2; [|vm_compute in E1; injection E1 as <- _; vm_compute in E2; discriminate|vm_compute in E1; injection E1 as <- _; vm_compute in E2; discriminate].
  pose proof E1 as E1'. vm_compute in E1'. injection E1' as X1 Y1. pose proof E2 as E2'. rewrite <- X1 in E2'. vm_compute in E2'. injection E2' as X2 Y2.
  destruct (step J0 cf3 s2 (Timeout 0 9 (mkenv 1 1 false true))) as [(s3 & o3)| |] eqn:E3; [|rewrite <- X2 in E3; vm_compute in E3; discriminate|rewrite <- X2 in E3; vm_compute in E3; discriminate]. pose proof E3 as E3'. rewrite <- X2 in E3'. vm_compute in E3'. injection E3' as X3 Y3.
  destruct (step J0 cf3 s3 (Glue 0 (mkenv 99 1 false false))) as [(s4 & o4)| |] eqn:E4; [|rewrite <- X3 in E4; vm_compute in E4; discriminate|rewrite <- X3 in E4; vm_compute in E4; discriminate]. pose proof E4 as E4'. rewrite <- X3 in E4'. vm_compute in E4'. injection E4' as X4 Y4.
  subst o3 o4. do 4 eexists. split; [constructor; [apply ask_event_ok; [lia|exact Logic.I]|]; constructor; [apply reply_event_ok; lia|]; constructor; [cbn; lia|]; constructor; [cbn; lia|constructor]|].
  split; [unfold evs3; econstructor; [exact E1|]; econstructor; [exact E2|]; econstructor; [exact E3|]; econstructor; [exact E4|]; constructor|].
  split; [cbn [map app]; exists (In (ev_ask 5 1000 None) :: map Out o1 ++ In (ev_reply 0 77 16 [Some (mkenv 5 2 false true)]) :: map Out o2 ++ [In (Timeout 0 9 (mkenv 1 1 false true))]), [In (Glue 0 (mkenv 99 1 false false))]; split; [do 5 (cbn [app]; rewrite <- ?app_assoc); reflexivity|intros p [HX|[]]; discriminate]|].
  split; [exists 0, 1; split; reflexivity|]. subst s4. split; [vm_compute; reflexivity|]. eexists. vm_compute. reflexivity.
Qed.
Print Assumptions C18_id_was_sent_refuted.
(** The class of the question is not looked at, nor whether the packet says it is a reply: a
    packet that asks for class 3 is taken for the reply to a query for class 1. *)
Theorem C18_class_is_checked_refuted :
  exists p q, bytes p /\ zslice p (12 + 3 + 2) 2 = [0; 3] /\ zslice p 2 1 = [0] /\ con q = q_a /\ dok q /\ verify_dns_packet J0 77 (Some q) p (zlen p) = Ok true.
Proof.
  exists ([0; 77; 0; 0; 0; 1; 0; 0; 0; 0; 0; 0] ++ [1; 97; 0; 0; 1; 0; 3]), (str_of q_a). split; [apply bytesb_spec; reflexivity|]. split; [reflexivity|]. split; [reflexivity|]. split; [reflexivity|]. split; [|vm_compute; reflexivity].
  split; [constructor; [apply bytesb_spec; reflexivity|cbv; split; discriminate|cbv; split; discriminate|cbv; discriminate]|reflexivity].
Qed.
Print Assumptions C18_class_is_checked_refuted.

(** *** C37: packets for clients *)
(** The packet that is made of a cached answer: the client's ID and question, QR, RD, RA, the
    counts and the code of the answer, its records. *)
Theorem C37_reply_packet_exact :
  forall J q a id body an ns ar t, junk_ok J -> dok q -> dok a -> 0 <= id < 65536 -> 0 <= an < 65536 -> 0 <= ns < 65536 -> 0 <= ar < 65536 -> t = 0 \/ t = 1 \/ t = 2 ->
  con a = body ++ num16 an ++ num16 ns ++ num16 ar ++ [t] -> 14 + zlen (con q) + zlen body < 515 ->
  exists p a', make_dns_packet J (Some q) a id = Ok (Some p, a') /\
    con p = header_bytes (mkheader id 1 0 0 0 1 1 0 0 0 (if t =? 1 then 3 else 0) 1 an ns ar) ++ con q ++ num16 1 ++ body.
Proof.
  intros J q a id body an ns ar t HJ Dq Da Hi Han Hns Har Ht C HL. rewrite (zlen_con q (dok_dwf q Dq)) in HL. destruct (make_packet_ok J q a id body an ns ar t HJ Dq Da Hi Han Hns Har Ht C HL) as (p & a' & E & _ & _ & _ & Cp). exists p, a'. split; [exact E|]. rewrite Cp. destruct Ht as [-> |[-> | ->]]; reflexivity.
Qed.
Print Assumptions C37_reply_packet_exact.
(** A truncated answer: no records, the TC bit. *)
Theorem C37_truncated_packet_exact :
  forall J q a id body t, junk_ok J -> dok q -> dok a -> 0 <= id < 65536 -> t = 3 \/ t = 4 -> con a = body ++ [t] -> 14 + zlen (con q) < 515 ->
  exists p a', make_dns_packet J (Some q) a id = Ok (Some p, a') /\
    con p = header_bytes (mkheader id 1 0 0 1 1 1 0 0 0 (if t =? 4 then 3 else 0) 1 0 0 0) ++ con q ++ num16 1.
Proof.
  intros J q a id body t HJ Dq Da Hi Ht C HL. rewrite (zlen_con q (dok_dwf q Dq)) in HL. destruct (make_truncated_ok J q a id body t HJ Dq Da Hi Ht C HL) as (p & a' & E & _ & Cp). exists p, a'. split; [exact E|]. rewrite Cp. destruct Ht as [-> | ->]; reflexivity.
Qed.
Print Assumptions C37_truncated_packet_exact.
(** What does not fit 514 bytes is not sent at all (not as a truncated packet, either). *)
Theorem C37_long_answer_is_truncated_refuted :
  forall J q a id body an ns ar t, junk_ok J -> dok q -> dok a -> 0 <= id < 65536 -> 0 <= an < 65536 -> 0 <= ns < 65536 -> 0 <= ar < 65536 -> t = 0 \/ t = 1 \/ t = 2 ->
  con a = body ++ num16 an ++ num16 ns ++ num16 ar ++ [t] -> 515 <= 14 + zlen (con q) + zlen body ->
  exists a', make_dns_packet J (Some q) a id = Ok (None, a').
Proof. intros J q a id body an ns ar t HJ Dq Da Hi Han Hns Har Ht C HL. rewrite (zlen_con q (dok_dwf q Dq)) in HL. exact (make_packet_long J q a id body an ns ar t HJ Dq Da Hi Han Hns Har Ht C HL). Qed.
Print Assumptions C37_long_answer_is_truncated_refuted.
Example packet_concrete :
  match make_dns_packet J0 (Some orig_a) (str_of ([192; 12; 0; 1; 0; 1; 0; 0; 0; 60; 0; 4; 1; 2; 3; 4] ++ [0; 1; 0; 0; 0; 0; 0])) 4660 with
  | Ok (Some p, _) => con p = [18; 52; 129; 128; 0; 1; 0; 1; 0; 0; 0; 0; 1; 65; 0; 0; 1; 0; 1; 192; 12; 0; 1; 0; 1; 0; 0; 0; 60; 0; 4; 1; 2; 3; 4]
  | _ => False
  end.
Proof. vm_compute. reflexivity. Qed.

(** What becomes of the packet of a client who may ask.  [h]: its header; [rest]: the rest of
    the buffer; [len]: how much was received. *)
Definition asked_ok (cf : conf) (ip : list Z) (h : header) (rest : list Z) (len : Z) (n : list (list Z)) (t0 t1 : Z) : Prop :=
  header_ok h /\ plain_query h /\ (h_arcount h = 0 \/ h_arcount h = 1) /\ bytes rest /\ 510 <= zlen rest /\ len <= 520 /\ check_ip_acl (cf_acl cf) (zlen ip) ip = Ok 1 /\
  query_name_at (header_bytes h ++ rest) 12 len n /\ zslice (header_bytes h ++ rest) (12 + zlen (wire n)) 2 = [t0; t1] /\ ~ 65392 <= t0 * 256 + t1 <= 65407.
Lemma seen_slice h rest i n : 12 <= i -> 0 <= n -> i + n <= 12 + zlen rest -> zslice (header_bytes (seen_header h) ++ rest) i n = zslice (header_bytes h ++ rest) i n.
Proof. intros Hi Hn Hm. rewrite !zslice_app_r by (try exact Hn; try exact Hi; exact Hm). reflexivity. Qed.
Lemma denied_seen h : denied (seen_header h) = denied h.
Proof. unfold seen_header. destruct (h_arcount h =? 1); reflexivity. Qed.
Lemma asked_question J cf ip h rest len n t0 t1 b : junk_ok J -> asked_ok cf ip h rest len n t0 t1 -> blocklist_says cf (wire (lower_name n) ++ [t0; t1]) b ->
  (~ rejected cf (t0 * 256 + t1) b -> exists q o, get_local_udp_packet J cf ip (header_bytes h ++ rest) len = Ok (Lookup q o (h_id h) (header_bytes (seen_header h) ++ rest) (seen_len h len n)) /\ qok q /\ dok o /\ con q = wire (lower_name n) ++ [t0; t1] /\ con o = wire n ++ [t0; t1]) /\
  (rejected cf (t0 * 256 + t1) b -> seen_len h len n < 16 + zlen (wire n) -> get_local_udp_packet J cf ip (header_bytes h ++ rest) len = Ok Drop) /\
  (rejected cf (t0 * 256 + t1) b -> 16 + zlen (wire n) <= seen_len h len n -> t0 * 256 + t1 <> 255 -> t0 * 256 + t1 <> 13 ->
     get_local_udp_packet J cf ip (header_bytes h ++ rest) len = Ok (Reply (header_bytes (denied h) ++ wire n ++ zslice (header_bytes h ++ rest) (12 + zlen (wire n)) 4 ++ no_data))) /\
  (rejected cf (t0 * 256 + t1) b -> 16 + zlen (wire n) <= seen_len h len n < 32 + zlen (wire n) -> t0 * 256 + t1 = 255 \/ t0 * 256 + t1 = 13 ->
     get_local_udp_packet J cf ip (header_bytes h ++ rest) len = Bad OutOfBounds).
Proof.
  intros HJ (HH & HP & HA & HB & HZ & Hl & Hacl & Hn & Ht & Hp) HBl. destruct (get_local_is J cf ip h rest len n t0 t1 HJ HH HP HA HB HZ Hl Hacl Hn Ht Hp) as (-> & Hs & Hn'). pose proof (zlen_wire_pos n). assert (zlen (wire n) <= 256) by apply Hn.
  assert (header_ok (seen_header h) /\ plain_query (seen_header h) /\ h_arcount (seen_header h) = 0 /\ h_id (seen_header h) = h_id h) as (HH' & HP' & HA' & HI').
  { unfold seen_header. destruct (Z.eqb_spec (h_arcount h) 1); [split; [apply without_ok; exact HH|]; split; [apply plain_without; exact HP|split; reflexivity]|]. split; [exact HH|]. split; [exact HP|]. split; [lia|reflexivity]. }
  assert (zlen (header_bytes (seen_header h) ++ rest) = 12 + zlen rest) as HZ' by (rewrite zlen_app; reflexivity).
  rewrite <- HI'. rewrite <- (denied_seen h). rewrite <- (seen_slice h rest (12 + zlen (wire n)) 4) by lia.
  apply (local_question_ok J cf (seen_header h) rest (seen_len h len n) n t0 t1 b HJ HH' HP' HA'); auto; try lia.
  - apply bytes_app. split; [apply bytes_header; exact HH'|exact HB].
  - rewrite seen_slice by lia. exact Ht.
Qed.
(** It is looked up, in lower case; the name as the client wrote it is kept for the reply. *)
Theorem C37_query_is_looked_up :
  forall J cf ip h rest len n t0 t1 b, junk_ok J -> asked_ok cf ip h rest len n t0 t1 -> blocklist_says cf (wire (lower_name n) ++ [t0; t1]) b -> ~ rejected cf (t0 * 256 + t1) b ->
  exists q o, get_local_udp_packet J cf ip (header_bytes h ++ rest) len = Ok (Lookup q o (h_id h) (header_bytes (seen_header h) ++ rest) (seen_len h len n)) /\
    con q = wire (lower_name n) ++ [t0; t1] /\ con o = wire n ++ [t0; t1].
Proof. intros J cf ip h rest len n t0 t1 b HJ HA HB HR. destruct (proj1 (asked_question J cf ip h rest len n t0 t1 b HJ HA HB) HR) as (q & o & E & _ & _ & A & B). eauto. Qed.
Print Assumptions C37_query_is_looked_up.
(** What the configuration or the block list rejects is answered with "no such data". *)
Theorem C37_rejected_is_denied :
  forall J cf ip h rest len n t0 t1 b, junk_ok J -> asked_ok cf ip h rest len n t0 t1 -> blocklist_says cf (wire (lower_name n) ++ [t0; t1]) b -> rejected cf (t0 * 256 + t1) b ->
  t0 * 256 + t1 <> 255 -> t0 * 256 + t1 <> 13 -> 16 + zlen (wire n) <= seen_len h len n ->
  get_local_udp_packet J cf ip (header_bytes h ++ rest) len = Ok (Reply (header_bytes (denied h) ++ wire n ++ zslice (header_bytes h ++ rest) (12 + zlen (wire n)) 4 ++ no_data)).
Proof. intros J cf ip h rest len n t0 t1 b HJ HA HB HR H1 H2 Hl. apply (asked_question J cf ip h rest len n t0 t1 b HJ HA HB); auto. Qed.
Print Assumptions C37_rejected_is_denied.
(** Everything else is ignored. *)
Theorem C37_other_packets_are_dropped :
  forall J cf ip h rest len a, junk_ok J -> header_ok h -> bytes rest -> 510 <= zlen rest -> len <= 520 -> check_ip_acl (cf_acl cf) (zlen ip) ip = Ok a ->
  a <> 1 \/ len < 12 \/ ~ (plain_query h /\ (h_arcount h = 0 \/ h_arcount h = 1)) \/ (forall q, ~ question (header_bytes h ++ rest) len q) ->
  get_local_udp_packet J cf ip (header_bytes h ++ rest) len = Ok Drop.
Proof. intros J cf ip h rest len a HJ HH HB HZ Hl Ha HC. destruct (get_local_drop J cf ip h rest len a HJ HH HB HZ Hl Ha) as (A & B & C & D). destruct HC as [HC|[HC|[HC|HC]]]; auto. Qed.
Print Assumptions C37_other_packets_are_dropped.
(** No packet makes this go wrong, if ANY queries are not answered as in RFC 8482 and there is
    no block list. *)
Theorem C37_client_packets_are_safe :
  forall J cf ip packet len a, junk_ok J -> bytes packet -> 522 <= zlen packet -> len <= 520 -> check_ip_acl (cf_acl cf) (zlen ip) ip = Ok a -> cf_rfc8482 cf = false -> cf_hash cf = None ->
  exists act, get_local_udp_packet J cf ip packet len = Ok act.
Proof.
  intros J cf ip packet len a HJ HB HZ Hl Ha Hr Hh. destruct (header_of_bytes packet HB ltac:(lia)) as (h & rest & HH & ->). rewrite zlen_app in HZ. change (zlen (header_bytes h)) with 12 in HZ. pose proof HB as HB'. apply bytes_app in HB' as (_ & HBr).
  destruct (get_local_drop J cf ip h rest len a HJ HH HBr ltac:(lia) Hl Ha) as (A & B & C & D). destruct (Z.eq_dec a 1) as [->|Na]; [|eauto]. destruct (Z_lt_dec len 12); [eauto|].
  assert ({plain_query h /\ (h_arcount h = 0 \/ h_arcount h = 1)} + {~ (plain_query h /\ (h_arcount h = 0 \/ h_arcount h = 1))}) as [HP|HP].
  { unfold plain_query. destruct (Z.eq_dec (h_qr h) 0), (Z.eq_dec (h_opcode h) 0), (Z.eq_dec (h_rd h) 1), (Z.eq_dec (h_z h) 0), (Z.eq_dec (h_rcode h) 0), (Z.eq_dec (h_qdcount h) 1), (Z.eq_dec (h_ancount h) 0), (Z.eq_dec (h_nscount h) 0), (Z.eq_dec (h_arcount h) 0), (Z.eq_dec (h_arcount h) 1); try (left; tauto); right; tauto. }
  2: eauto.
  pose proof (lowered_spec J (header_bytes h ++ rest) len HJ HB ltac:(rewrite zlen_app; change (zlen (header_bytes h)) with 12; lia) ltac:(lia)) as HL. destruct (lowered J (header_bytes h ++ rest) len) as [[q|]| |f]; try contradiction; [|eauto].
  destruct HL as (_ & nm & t0 & t1 & Hn & Ht & Hp & _). assert (asked_ok cf ip h rest len nm t0 t1) as HA by (split; [exact HH|]; split; [exact (proj1 HP)|]; split; [exact (proj2 HP)|]; split; [exact HBr|]; split; [lia|]; split; [exact Hl|]; split; [exact Ha|]; split; [exact Hn|]; split; [exact Ht|exact Hp]).
  assert (blocklist_says cf (wire (lower_name nm) ++ [t0; t1]) false) as HBl by (unfold blocklist_says; rewrite Hh; reflexivity). destruct (asked_question J cf ip h rest len nm t0 t1 false HJ HA HBl) as (Q1 & Q2 & Q3 & _).
  assert ({rejected cf (t0 * 256 + t1) false} + {~ rejected cf (t0 * 256 + t1) false}) as [HR|HR].
  { unfold rejected. rewrite Hr. destruct (cf_reject_aaaa cf), (cf_reject_ptr cf), (Z.eq_dec (t0 * 256 + t1) 28), (Z.eq_dec (t0 * 256 + t1) 12); try (left; tauto); right; intros HX; destruct HX as [(X & Y)|[(X & Y)|[(X & Y)|X]]]; congruence. }
  - destruct (Z_lt_dec (seen_len h len nm) (16 + zlen (wire nm))); [eauto|]. exists (Reply (header_bytes (denied h) ++ wire nm ++ zslice (header_bytes h ++ rest) (12 + zlen (wire nm)) 4 ++ no_data)). apply Q3; auto; try lia; unfold rejected in HR; rewrite Hr in HR; destruct HR as [(X & _)|[(X & _)|[(_ & X)|X]]]; try discriminate; lia.
  - destruct (Q1 HR) as (q' & o & E & _). eauto.
Qed.
Print Assumptions C37_client_packets_are_safe.
(** If they are, the answer to an ANY or HINFO query is longer than the memory it is in: up to
    16 bytes of other memory are sent. *)
Theorem C37_rfc8482_answer_is_safe_refuted :
  forall J cf ip h rest len n t0 t1 b, junk_ok J -> asked_ok cf ip h rest len n t0 t1 -> blocklist_says cf (wire (lower_name n) ++ [t0; t1]) b -> cf_rfc8482 cf = true ->
  t0 * 256 + t1 = 255 \/ t0 * 256 + t1 = 13 -> 16 + zlen (wire n) <= seen_len h len n < 32 + zlen (wire n) ->
  get_local_udp_packet J cf ip (header_bytes h ++ rest) len = Bad OutOfBounds.
Proof.
  intros J cf ip h rest len n t0 t1 b HJ HA HB Hc Ht Hl. apply (asked_question J cf ip h rest len n t0 t1 b HJ HA HB); auto. unfold rejected. auto.
Qed.
Print Assumptions C37_rfc8482_answer_is_safe_refuted.
(** The same happens to any ANY query with an EDNS record. *)
Theorem C37_any_with_edns_is_safe_refuted :
  forall J cf ip h rest len n, junk_ok J -> asked_ok cf ip h rest len n 0 255 -> cf_hash cf = None -> cf_rfc8482 cf = true -> h_arcount h = 1 ->
  get_local_udp_packet J cf ip (header_bytes h ++ rest) len = Bad OutOfBounds.
Proof.
  intros J cf ip h rest len n HJ HA Hh Hc Har. apply (C37_rfc8482_answer_is_safe_refuted J cf ip h rest len n 0 255 false HJ HA); auto; [unfold blocklist_says; rewrite Hh; reflexivity|]. unfold seen_len. rewrite Har. change (1 =? 1) with true. cbv iota. lia.
Qed.
Print Assumptions C37_any_with_edns_is_safe_refuted.
(** Concrete packets. *)

(** Concrete packets: everybody may ask; "A" is asked for with type A, AAAA, ANY. *)
Definition cf_all (aaaa rfc8482 : bool) : conf := mkconf aaaa false rfc8482 (mkipm 4 (repeat 0 17) (repeat 0 17) :: repeat ipm0 128) None.
Definition h_ask : header := mkheader 4660 0 0 0 0 1 0 0 0 0 0 1 0 0 0.
Definition rest_of (t : Z) : list Z := [1; 65; 0; 0; t; 0; 1] ++ repeat 0 503.
Lemma asked_a aaaa rfc t : 1 <= t < 256 -> asked_ok (cf_all aaaa rfc) [1; 2; 3; 4] h_ask (rest_of t) 19 [[65]] 0 t.
Proof.
  intros Ht. split; [unfold header_ok, bit, word; cbn; intuition lia|]. split; [repeat split|]. split; [left; reflexivity|]. assert (bytes (rest_of t)) as HB by (apply bytes_app; split; [repeat constructor; unfold byte; lia|apply bytesb_spec; reflexivity]).
  split; [exact HB|]. split; [vm_compute; discriminate|]. split; [lia|]. split; [vm_compute; reflexivity|]. split; [|split; [reflexivity|lia]].
  split; [|split; [|split; [|split]]]; [| |vm_compute; discriminate|vm_compute; discriminate|reflexivity].
  - constructor; [|constructor]. split; [split; vm_compute; congruence|apply bytesb_spec; reflexivity].
  - repeat constructor; lia.
Qed.
Example looked_up_concrete : exists q o, get_local_udp_packet J0 (cf_all true true) [1; 2; 3; 4] (header_bytes h_ask ++ rest_of 1) 19 = Ok (Lookup q o 4660 (header_bytes h_ask ++ rest_of 1) 19) /\ con q = [1; 97; 0; 0; 1] /\ con o = [1; 65; 0; 0; 1].
Proof. apply (C37_query_is_looked_up J0 (cf_all true true) [1; 2; 3; 4] h_ask (rest_of 1) 19 [[65]] 0 1 false); [intros i; unfold J0, byte; lia|apply asked_a; lia|reflexivity|]. intros [(H & _)|[(H & _)|[([H|H] & _)|H]]]; discriminate H. Qed.
Example denied_concrete : get_local_udp_packet J0 (cf_all true true) [1; 2; 3; 4] (header_bytes h_ask ++ rest_of 28) 19 = Ok (Reply ([18; 52; 129; 128; 0; 1; 0; 0; 0; 1; 0; 0; 1; 65; 0; 0; 28; 0; 1] ++ no_data)).
Proof. apply (C37_rejected_is_denied J0 (cf_all true true) [1; 2; 3; 4] h_ask (rest_of 28) 19 [[65]] 0 28 false); [intros i; unfold J0, byte; lia|apply asked_a; lia|reflexivity| |lia|lia|vm_compute; discriminate]. left. split; reflexivity. Qed.
Example any_concrete : get_local_udp_packet J0 (cf_all true true) [1; 2; 3; 4] (header_bytes h_ask ++ rest_of 255) 19 = Bad OutOfBounds.
Proof. apply (C37_rfc8482_answer_is_safe_refuted J0 (cf_all true true) [1; 2; 3; 4] h_ask (rest_of 255) 19 [[65]] 0 255 false); [intros i; unfold J0, byte; lia|apply asked_a; lia|reflexivity|reflexivity|left; reflexivity|vm_compute; split; [discriminate|reflexivity]]. Qed.
Example dropped_concrete : get_local_udp_packet J0 (cf_all true true) [1; 2; 3; 4] (header_bytes h_ask ++ rest_of 1) 16 = Ok Drop.
Proof. vm_compute. reflexivity. Qed.
(** A query for a blocked name that ends after its type. *)
Theorem C37_blocked_name_is_safe_refuted :
  exists packet len q, bytes packet /\ 522 <= zlen packet /\ get_local_udp_packet J0 (cf_all true true) [1; 2; 3; 4] packet len = Ok q /\ (exists qu o id, q = Lookup qu o id packet len) /\ blocklisted_reply J0 packet len = Bad NullDeref.
Proof.
  exists (header_bytes h_ask ++ rest_of 1), 17. eexists. split; [apply bytesb_spec; reflexivity|]. split; [vm_compute; discriminate|]. split; [vm_compute; reflexivity|]. split; [do 3 eexists; vm_compute; reflexivity|]. vm_compute. reflexivity.
Qed.
Print Assumptions C37_blocked_name_is_safe_refuted.
