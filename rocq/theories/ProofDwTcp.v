(** Proofs about ModelDwTcp: what is read from the client. *)
From Verif Require Import CBase Bits SpecNames SpecMessage SpecQuery SpecDwStr SpecAcl ModelDwStr ModelDwSys ModelDwUdp ModelDwTcp SpecTcp ProofDwStr ProofDwDname ProofDwSys ProofDwUdp ProofDwCompressSafe ProofDwDecomp PropsAcl.

Lemma zlen_firstn_le {A} (l : list A) n : Z.of_nat n <= zlen l -> zlen (firstn n l) = Z.of_nat n.
Proof. unfold zlen. rewrite firstn_length. lia. Qed.
Lemma zlen_firstn {A} (l : list A) n : zlen (firstn n l) = Z.min (Z.of_nat n) (zlen l).
Proof. unfold zlen. rewrite firstn_length. lia. Qed.

Lemma put_at_app a j l : zlen l <= zlen j -> exists j', put_at (a ++ j) (zlen a) l = Ok ((a ++ l) ++ j') /\ zlen j' = zlen j - zlen l /\ (bytes j -> bytes j').
Proof.
  intros H. unfold put_at. pose proof (zlen_nonneg a). rewrite copy_bytes_ok by (rewrite ?zlen_app; unfold zlen in *; lia).
  exists (skipn (length l) j). split; [|split].
  - f_equal. replace (zslice l 0 (Z.of_nat (length l))) with l by (symmetry; apply zslice_all). unfold splice, zlen. rewrite Nat2Z.id.
    rewrite firstn_app, Nat.sub_diag, firstn_all. cbn [firstn]. rewrite app_nil_r, skipn_app. rewrite skipn_all2 by lia. rewrite app_nil_l, app_assoc.
    f_equal. f_equal. lia.
  - unfold zlen in *. rewrite skipn_length. lia.
  - apply bytes_skipn.
Qed.

Lemma rd_app_head x l : rd (x :: l) 0 = Ok x.
Proof. apply rd_of_zget, zget_cons_0. Qed.
Lemma rd_app_second x y l : rd (x :: y :: l) 1 = Ok y.
Proof. apply rd_of_zget. rewrite zget_cons_S by lia. apply zget_cons_0. Qed.

(** The two octets as a length. *)
Lemma i8_cases b : byte b -> (b < 128 /\ i8 b = b) \/ (128 <= b /\ i8 b = b - 256).
Proof. unfold byte, i8. intros H. rewrite Z.mod_small by lia. destruct (Z.ltb_spec b 128); lia. Qed.
Lemma lor_neg a b : b < 0 -> Z.lor a b < 0.
Proof. intros H. apply Z.lor_neg. right. exact H. Qed.
Lemma frame_len_spec cf h0 h1 : byte h0 -> byte h1 ->
  match frame_len cf h0 h1 with
  | Ok n => (cf_signed cf = true -> h0 < 128) /\ (0 <= n -> n = h0 * 256 + h1 /\ (cf_signed cf = true -> h1 < 128)) /\ ((cf_signed cf = true -> h1 < 128) -> n = h0 * 256 + h1)
  | Fail => False
  | Bad f => f = SignedOverflow /\ cf_signed cf = true /\ 128 <= h0
  end.
Proof.
  intros H0 H1. unfold frame_len, char_val. unfold byte in *. destruct (cf_signed cf).
  - destruct (i8_cases h0 H0) as [(A & ->)|(A & ->)].
    + replace (h0 <? 0) with false by lia. split; [intros _; exact A|]. destruct (i8_cases h1 H1) as [(B & ->)|(B & ->)].
      * rewrite lor_shiftl8 by lia. split; [intros _; split; [reflexivity|intros _; exact B]|]. intros _. reflexivity.
      * pose proof (lor_neg (Z.shiftl h0 8) (h1 - 256) ltac:(lia)). split; [intros; exfalso; lia|]. intros X. specialize (X eq_refl). lia.
    + replace (h0 - 256 <? 0) with true by lia. auto.
  - replace (h0 <? 0) with false by lia. rewrite lor_shiftl8 by lia. split; [discriminate|]. split; [|reflexivity]. intros _. split; [reflexivity|discriminate].
Qed.
Lemma frame_split h0 h1 a n : byte h0 -> byte h1 -> n = h0 * 256 + h1 -> zlen a = n -> h0 :: h1 :: a = frame a.
Proof. unfold byte, frame, num2. intros H0 H1 -> ->. cbn [app]. f_equal; [lia|]. f_equal. lia. Qed.

(** *** What tcp_to_udp finds *)
Definition udp_id (id ar : Z) : Z := if ar =? 1 then -2 else id.
Lemma query_name_more p x n : query_name_at (p ++ x) 12 (zlen p) n <-> query_name_at p 12 (zlen p) n.
Proof.
  unfold query_name_at. pose proof (zlen_wire_pos n) as W.
  split; intros (A & B & C & D & E); (split; [exact A|]; split; [exact B|]; split; [exact C|]; split; [exact D|]); [rewrite zslice_app_l in E by lia|rewrite zslice_app_l by lia]; exact E.
Qed.
Lemma tcp_to_udp_spec J p x : junk_ok J -> bytes p -> byte x -> 12 <= zlen p < 134217728 ->
  exists id, get_dns_qid (p ++ [x]) (zlen p) 2 = Ok id /\
  ((id = -1 /\ forall i ar, ~ asks p i ar) \/
   (id <> -1 /\
     match dw_get_dname_type J (p ++ [x]) 12 (zlen p) with
     | Ok _ => exists i ar, asks p i ar /\ id = udp_id i ar
     | Fail => forall i ar, ~ asks p i ar
     | Bad _ => False
     end)).
Proof.
  intros HJ HB HX HL. destruct (header_of_bytes p HB ltac:(lia)) as (h & rest & Hh & ->). set (p := header_bytes h ++ rest) in *.
  destruct (qid2 h (rest ++ [x]) (zlen p) Hh ltac:(lia)) as (Q0 & Q1 & Q2). rewrite app_assoc in Q0, Q1, Q2. fold p in Q0, Q1, Q2.
  assert (forall i ar, asks p i ar -> plain_query h /\ (ar = 0 \/ ar = 1) /\ h_arcount h = ar /\ h_id h = i) as U.
  { intros i ar (h' & rest' & n & t0 & t1 & Hh' & E & P & I & A & A01 & _). destruct (C19_header_unique h h' rest rest' Hh Hh' E) as (-> & _). auto. }
  assert (bytes (p ++ [x])) as HB' by (apply bytes_app; split; [exact HB|constructor; [exact HX|constructor]]).
  assert (zlen (p ++ [x]) = zlen p + 1) as HL' by (rewrite zlen_app; reflexivity).
  pose proof (get_dname_type_spec J (p ++ [x]) 12 (zlen p) HJ HB' ltac:(lia) ltac:(lia)) as HT.
  assert (forall id, id <> -1 -> plain_query h -> (h_arcount h = 0 \/ h_arcount h = 1) -> id = udp_id (h_id h) (h_arcount h) ->
     match dw_get_dname_type J (p ++ [x]) 12 (zlen p) with
     | Ok _ => exists i ar, asks p i ar /\ id = udp_id i ar
     | Fail => forall i ar, ~ asks p i ar
     | Bad _ => False
     end) as K.
  { intros id _ HP HA HI. destruct (dw_get_dname_type J (p ++ [x]) 12 (zlen p)) as [s| |f]; [| |lia].
    - destruct HT as (_ & _ & n & t0 & t1 & Hn & Hs & _ & Hp). exists (h_id h), (h_arcount h). split; [|exact HI].
      pose proof (proj1 (query_name_more p [x] n) Hn) as Hn'. pose proof Hn' as (_ & _ & _ & D & _). pose proof (zlen_wire_pos n).
      exists h, rest, n, t0, t1. rewrite zslice_app_l in Hs by lia. repeat (split; [first [assumption|reflexivity]|]). exact Hp.
    - intros i ar (h' & rest' & n & t0 & t1 & _ & _ & _ & _ & _ & _ & Hn & Hs & Hp). apply Hp.
      pose proof Hn as (_ & _ & _ & D & _). pose proof (zlen_wire_pos n).
      apply (HT n t0 t1); [apply query_name_more; exact Hn|]. rewrite zslice_app_l by lia. exact Hs. }
  pose proof Hh as (HI & _).
  assert ({plain_query h} + {~ plain_query h}) as [P|P].
  { unfold plain_query. destruct ((h_qr h =? 0) && (h_opcode h =? 0) && (h_rd h =? 1) && (h_z h =? 0) && (h_rcode h =? 0) && (h_qdcount h =? 1) && (h_ancount h =? 0) && (h_nscount h =? 0)) eqn:E; [left|right]; lia. }
  - destruct (Z.eq_dec (h_arcount h) 0) as [A|A]; [|destruct (Z.eq_dec (h_arcount h) 1) as [A1|A1]].
    + exists (h_id h). split; [apply Q0; auto|]. unfold word in HI. right. split; [lia|]. apply K; [lia|exact P|auto|]. unfold udp_id. rewrite A. reflexivity.
    + exists (-2). split; [apply Q1; auto|]. right. split; [lia|]. apply K; [lia|exact P|auto|]. unfold udp_id. rewrite A1. reflexivity.
    + exists (-1). split; [apply Q2; intros (_ & [?|?]); lia|]. left. split; [reflexivity|]. intros i ar H. apply U in H as (_ & H & E & _). lia.
  - exists (-1). split; [apply Q2; intros (H & _); exact (P H)|]. left. split; [reflexivity|]. intros i ar H. apply U in H as (H & _). exact (P H).
Qed.

(** *** The connection while the query is read *)
(** All but the first two of the functions tcp_handle_all calls. *)
Definition tcp_rest (J : Z -> Z) (cf : tconf) (e : tenv) (w : tworld) : res tworld :=
  w <- tcp_send_wanted cf e w ;;
  w <- tcp_upstream_send cf e w ;;
  w <- tcp_get_upstream_len J cf e (tcp_prepare_upstream_len J w) ;;
  tcp_downstream_forward cf e w.
Lemma handle_all_rest J cf e w : tcp_handle_all J cf e w = (w <- tcp_get_wanted cf e w ;; w <- tcp_process_data J cf e w ;; tcp_rest J cf e w).
Proof. reflexivity. Qed.
Lemma rest_idle J cf e w : tc_state (tw_c w) = 0 \/ tc_state (tw_c w) = 1 -> tcp_rest J cf e w = Ok w.
Proof.
  intros H. unfold tcp_rest, tcp_send_wanted, tcp_upstream_send, tcp_prepare_upstream_len, tcp_get_upstream_len, tcp_downstream_forward.
  assert (tc_state (tw_c w) =? 2 = false) as -> by lia. cbn [negb bind].
  assert (tc_state (tw_c w) =? 3 = false) as -> by lia. cbn [negb bind].
  assert (tc_state (tw_c w) =? 4 = false) as -> by lia. cbn [negb bind].
  assert (tc_state (tw_c w) =? 5 = false) as -> by lia. cbn [negb bind].
  assert (tc_state (tw_c w) =? 6 = false) as -> by lia. reflexivity.
Qed.

(** What is true of the rest while nothing has been answered. *)
Definition fresh (w : tworld) : Prop := tw_cout w = [] /\ tw_copen w = true /\ tw_query w = [].
Definition reading0 (s : list Z) (w : tworld) : Prop :=
  exists a j die, tw_c w = mktc true false (Some (a ++ j)) 2 (zlen a) 0 0 die /\ zlen a + zlen j = 3 /\ bytes j /\ s = a ++ tw_cin w.
Definition reading1 (cf : tconf) (s : list Z) (w : tworld) : Prop :=
  exists h0 h1 n a j die, frame_len cf h0 h1 = Ok n /\ 12 <= n /\
    tw_c w = mktc true false (Some (a ++ j)) n (zlen a) 0 0 die /\ zlen a + zlen j = n + 1 /\ bytes j /\ s = h0 :: h1 :: a ++ tw_cin w.
(** After tcp_get_wanted: perhaps all octets are there. *)
Definition mid (cf : tconf) (s : list Z) (w : tworld) : Prop := fresh w /\ (reading0 s w \/ reading1 cf s w) /\ tc_got (tw_c w) <= tc_wanted (tw_c w).
(** Between two handlings: some are missing. *)
Definition reading (cf : tconf) (s : list Z) (w : tworld) : Prop := fresh w /\ (reading0 s w \/ reading1 cf s w) /\ tc_got (tw_c w) < tc_wanted (tw_c w).
Definition over (w : tworld) : Prop := tc_state (tw_c w) <> 0 \/ tw_c w = tc_reset.

Lemma get_wanted_ok cf s e w : reading cf s w ->
  exists w', tcp_get_wanted cf e w = Ok w' /\ mid cf s w' /\ zlen (tw_cin w') <= zlen (tw_cin w) /\
    (forall k, te_rl e = Some k -> 1 <= k -> 0 < zlen (tw_cin w) -> zlen (tw_cin w') < zlen (tw_cin w)).
Proof.
  intros ((F1 & F2 & F3) & R & G).
  assert (exists a j n die, tw_c w = mktc true false (Some (a ++ j)) n (zlen a) 0 0 die /\ zlen a + zlen j = n + 1 /\ bytes j) as (a & j & n & die & E & L & BJ).
  { destruct R as [(a & j & die & E & L & BJ & _)|(h0 & h1 & n & a & j & die & _ & _ & E & L & BJ & _)]; exists a, j; [exists 2|exists n]; exists die; auto. }
  unfold tcp_get_wanted. rewrite E in *. cbn [tc_wanted tc_got tc_state tc_local tc_up tc_sent] in *. replace (0 <? n - zlen a) with true by lia. change (0 =? 0) with true. cbn [andb].
  destruct (te_rl e) as [k|] eqn:ER; cbn [net_recv].
  2: { exists w. split; [reflexivity|]. split; [|split; [lia|discriminate]]. split; [split; auto|]. split; [exact R|]. rewrite E. cbn [tc_got tc_wanted]. lia. }
  set (m := Z.to_nat (Z.min k (n - zlen a))). set (l := firstn m (tw_cin w)).
  assert (zlen l <= n - zlen a) as LL by (unfold l; rewrite zlen_firstn; lia).
  unfold buf_of. cbn [tc_buf bind]. destruct (put_at_app a j l ltac:(lia)) as (j' & -> & Lj & Bj). cbn [bind].
  eexists. split; [reflexivity|]. assert (zlen (a ++ l) = zlen a + zlen l) as LA by apply zlen_app.
  assert (tw_cin w = l ++ skipn m (tw_cin w)) as EC by (symmetry; apply firstn_skipn).
  split; [|cbn [tw_cin]].
  - split; [split; cbn [tw_cout tw_copen tw_query]; auto|]. split; [|cbn [tw_c tc_got tc_wanted]; lia].
    destruct R as [(a' & j0 & die' & E' & L' & BJ' & S')|(h0 & h1 & n' & a' & j0 & die' & X1 & X2 & E' & L' & BJ' & S')].
    + left. rewrite E in E'. injection E' as E1 -> E2 _. assert (a' = a) as ->. { apply (f_equal (firstn (length a))) in E1. rewrite firstn_app, firstn_all, Nat.sub_diag in E1. cbn [firstn] in E1. rewrite app_nil_r in E1. rewrite E1, firstn_app.
        unfold zlen in E2. replace (length a) with (length a') by lia. rewrite firstn_all, Nat.sub_diag. cbn [firstn]. symmetry. apply app_nil_r. }
      exists (a ++ l), j', (soon (te_now e) (cf_tcp cf)). cbn [tw_c tw_cin]. split; [rewrite LA; reflexivity|]. split; [lia|]. split; [auto|]. rewrite <- app_assoc, <- EC. exact S'.
    + right. rewrite E in E'. injection E' as E1 -> E2 _. assert (a' = a) as ->. { apply (f_equal (firstn (length a))) in E1. rewrite firstn_app, firstn_all, Nat.sub_diag in E1. cbn [firstn] in E1. rewrite app_nil_r in E1. rewrite E1, firstn_app.
        unfold zlen in E2. replace (length a) with (length a') by lia. rewrite firstn_all, Nat.sub_diag. cbn [firstn]. symmetry. apply app_nil_r. }
      exists h0, h1, n', (a ++ l), j', (soon (te_now e) (cf_tcp cf)). cbn [tw_c tw_cin]. split; [exact X1|]. split; [exact X2|]. split; [rewrite LA; reflexivity|]. split; [lia|]. split; [auto|]. rewrite <- app_assoc, <- EC. exact S'.
  - pose proof (f_equal (@zlen Z) EC) as LC. rewrite zlen_app in LC. pose proof (zlen_nonneg l). split; [lia|]. intros k' [= <-] Hk HC.
    assert (0 < zlen l); [|lia]. unfold l. rewrite zlen_firstn. unfold m. lia.
Qed.

(** What happens when the octets wanted are there. *)
Inductive outcome (cf : tconf) (s : list Z) (w : tworld) : tworld -> Prop :=
| O_reading w' : reading cf s w' -> tw_cin w' = tw_cin w -> outcome cf s w w'
| O_short h0 h1 n r w' : s = h0 :: h1 :: r -> frame_len cf h0 h1 = Ok n -> n < 12 -> w' = close_local w -> outcome cf s w w'
| O_refused p w' : s = frame p ++ tw_cin w -> sendable p -> readable cf p -> (forall i ar, ~ asks p i ar) -> w' = close_local w -> outcome cf s w w'
| O_query p i ar w' : s = frame p ++ tw_cin w -> sendable p -> readable cf p -> asks p i ar -> tw_query w' = [(udp_id i ar, p)] -> tc_state (tw_c w') = 1 ->
    tw_cin w' = tw_cin w -> tw_cout w' = [] -> tc_local (tw_c w') = true -> tw_copen w' = true -> tc_sent (tw_c w') = 0 -> outcome cf s w w'.

Lemma process_ok J cf s e w : junk_ok J -> bytes s -> mid cf s w ->
  match tcp_process_data J cf e w with
  | Ok w' => outcome cf s w w'
  | Fail => False
  | Bad f => f = SignedOverflow /\ cf_signed cf = true /\ exists h0 r, s = h0 :: r /\ 128 <= h0
  end.
Proof.
  intros HJ HB ((F1 & F2 & F3) & R & G). unfold tcp_process_data.
  destruct (Z.eqb_spec (tc_wanted (tw_c w)) (tc_got (tw_c w))) as [EW|EW]; cbn [negb orb].
  2: { apply O_reading; [|reflexivity]. split; [split; auto|]. split; [exact R|]. lia. }
  destruct R as [(a & j & die & E & L & BJ & S')|(h0 & h1 & n & a & j & die & X1 & X2 & E & L & BJ & S')]; rewrite E in EW |- *; cbn [tc_wanted tc_got tc_state tc_buf tc_local tc_up tc_sent] in *; change (0 =? 0) with true; cbn [negb].
  - change (2 =? 2) with true. cbv iota. destruct a as [|h0 [|h1 [|? ?]]]; try (rewrite ?zlen_cons, ?zlen_nil in EW; pose proof (zlen_nonneg (@nil Z)); cbn in EW; lia).
    2: { exfalso. rewrite !zlen_cons in EW. pose proof (zlen_nonneg l). lia. }
    cbn [app] in *. rewrite rd_app_head. cbn [bind]. rewrite rd_app_second. cbn [bind]. rewrite S' in HB. inversion HB as [|? ? B0 HB1]; subst. inversion HB1 as [|? ? B1 HB2]; subst.
    pose proof (frame_len_spec cf h0 h1 B0 B1) as HF. destruct (frame_len cf h0 h1) as [n| |f] eqn:EF; cbn [bind]; [|contradiction|].
    2: { destruct HF as (-> & HS & H0). split; [reflexivity|]. split; [exact HS|]. exists h0, (h1 :: tw_cin w). auto. }
    destruct (Z.ltb_spec n 12) as [L12|L12].
    + eapply O_short; [reflexivity|exact EF|exact L12|reflexivity].
    + apply O_reading; [|reflexivity]. split; [split; cbn [set_c tw_cout tw_copen tw_query]; auto|]. split; [|cbn [set_c tw_c tc_got tc_wanted]; lia].
      right. exists h0, h1, n, [], (mkjunk J (n + 1)). eexists. split; [exact EF|]. split; [lia|]. cbn [set_c tw_c app tw_cin]. split; [reflexivity|]. split; [rewrite zlen_mkjunk by lia; rewrite zlen_nil; lia|]. split; [apply bytes_mkjunk; exact HJ|reflexivity].
  - replace (n =? 2) with false by lia. replace (12 <=? n) with true by lia. unfold tcp_to_udp. rewrite E. unfold buf_of. cbn [tc_buf bind tc_wanted tc_local tc_up tc_got tc_sent].
    subst n. rewrite S' in HB. inversion HB as [|? ? B0 HB1]; subst. inversion HB1 as [|? ? B1 HB2]; subst. apply bytes_app in HB2 as (Ba & _).
    pose proof (frame_len_spec cf h0 h1 B0 B1) as HF. rewrite X1 in HF. destruct HF as (HF1 & HF2 & _). destruct (HF2 ltac:(lia)) as (HF3 & HF4).
    assert (exists x, j = [x] /\ byte x) as (x & -> & Bx). { destruct j as [|x [|y j]]; rewrite ?zlen_cons, ?zlen_nil in L; [lia| |pose proof (zlen_nonneg j); lia]. exists x. split; [reflexivity|]. inversion BJ; assumption. }
    assert (h0 :: h1 :: a ++ tw_cin w = frame a ++ tw_cin w) as EFr. { rewrite <- (frame_split h0 h1 a (zlen a)) by (auto; lia). reflexivity. }
    assert (sendable a) as Hfit by (unfold sendable, byte in *; lia).
    assert (readable cf a) as Hread. { unfold readable. intros HS. specialize (HF1 HS). specialize (HF4 HS). unfold byte in *. split; lia. }
    destruct (tcp_to_udp_spec J a x HJ Ba Bx ltac:(unfold sendable in Hfit; lia)) as (id & Eid & HD). rewrite Eid. cbn [bind].
    destruct HD as [(-> & HN)|(Nid & HD)].
    + change (-1 =? -1) with true. cbv iota. eapply O_refused; [exact EFr|exact Hfit|exact Hread|exact HN|reflexivity].
    + replace (id =? -1) with false by lia. destruct (dw_get_dname_type J (a ++ [x]) 12 (zlen a)) as [q| |f]; [|eapply O_refused; [exact EFr|exact Hfit|exact Hread|exact HD|reflexivity]|contradiction].
      destruct HD as (i & ar & HA & ->). eapply O_query; [exact EFr|exact Hfit|exact Hread|exact HA| | | | | | |]; cbn [tw_query tw_c tc_state tw_cin tw_cout tc_local tw_copen tc_sent]; auto.
      rewrite F3. cbn [app]. rewrite zslice_app_l by (pose proof (zlen_nonneg a); lia). rewrite zslice_all. reflexivity.
Qed.

(** One handling. *)
Lemma tick_ok J cf s e w : junk_ok J -> bytes s -> reading cf s w ->
  exists w1, zlen (tw_cin w1) <= zlen (tw_cin w) /\ (forall k, te_rl e = Some k -> 1 <= k -> 0 < zlen (tw_cin w) -> zlen (tw_cin w1) < zlen (tw_cin w)) /\ mid cf s w1 /\
  match tcp_handle_all J cf e w with
  | Ok w' => outcome cf s w1 w'
  | Fail => False
  | Bad f => f = SignedOverflow /\ cf_signed cf = true /\ exists h0 r, s = h0 :: r /\ 128 <= h0
  end.
Proof.
  intros HJ HB HR. destruct (get_wanted_ok cf s e w HR) as (w1 & E1 & M1 & L1 & P1). exists w1. split; [exact L1|]. split; [exact P1|]. split; [exact M1|].
  rewrite handle_all_rest, E1. cbn [bind]. pose proof (process_ok J cf s e w1 HJ HB M1) as HP. destruct (tcp_process_data J cf e w1) as [w2| |f]; cbn [bind]; [|exact HP|exact HP].
  rewrite rest_idle; [exact HP|]. destruct HP as [w2 (_ & R & _) _|h0 h1 n r w2 _ _ _ ->|p w2 _ _ _ _ ->|p i ar w2 _ _ _ _ _ H _ _ _ _]; [|left; reflexivity|left; reflexivity|right; exact H].
  left. destruct R as [(a & j & die & -> & _)|(h0 & h1 & n & a & j & die & _ & _ & -> & _)]; reflexivity.
Qed.
Lemma accept_reading J cf now s : junk_ok J -> reading cf s (tcp_accept J cf now s).
Proof.
  intros HJ. split; [split; cbn [tcp_accept tw_cout tw_copen tw_query]; auto|]. split; [|cbn [tcp_accept tw_c tc_got tc_wanted]; lia]. left. exists [], (mkjunk J 3), (soon now (cf_tcp cf)). split; [reflexivity|].
  split; [rewrite zlen_mkjunk by lia; rewrite zlen_nil; lia|]. split; [apply bytes_mkjunk; exact HJ|reflexivity].
Qed.
