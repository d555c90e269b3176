(** Proofs about ModelDwTcp: no access outside the buffers. *)
From Verif Require Import CBase Bits SpecNames SpecMessage SpecQuery SpecDwStr SpecAcl ModelDwStr ModelDwSys ModelDwUdp ModelDwTcp SpecTcp ProofDwStr ProofDwDname ProofDwSys ProofDwUdp ProofDwDecomp ProofMessage ProofDwTcp ProofDwTcpRun.

Definition holds_buf (c : tconn) (P : list Z -> Prop) : Prop := exists m, tc_buf c = Some m /\ P m.
Inductive ok_conn (c : tconn) : Prop :=
| K0 : c = tc_reset -> ok_conn c
| K1 : tc_state c = 1 -> tc_sent c = 0 -> ok_conn c
| K2 : tc_state c = 2 \/ tc_state c = 3 -> tc_sent c = 0 -> holds_buf c (fun m => 0 <= tc_got c <= tc_wanted c /\ tc_wanted c <= zlen m) -> ok_conn c
| K4 : tc_state c = 4 -> tc_sent c = 0 -> ok_conn c
| K5 : tc_state c = 5 -> tc_sent c = 0 -> holds_buf c (fun m => zlen m = 3) -> tc_wanted c = 2 -> 0 <= tc_got c <= 2 -> ok_conn c
| K6 : tc_state c = 6 -> holds_buf c (fun m => zlen m = tc_wanted c + 3) -> 0 <= tc_got c <= tc_wanted c -> 0 <= tc_sent c <= tc_got c + 2 -> ok_conn c.
Lemma ok_over w : ok_conn (tw_c w) -> over w.
Proof. intros [H|H|H|H|H|H]; [right; exact H|left|left|left|left|left]; lia. Qed.

Lemma net_send_ok open k m off n : 0 <= off -> 0 <= n -> off + n <= zlen m ->
  exists r, net_send open k m off n = Ok r /\ match r with None => open = false \/ k = None | Some l => open = true /\ exists x, k = Some x /\ l = zslice m off (Z.min x n) /\ zlen l = Z.max 0 (Z.min x n) end.
Proof.
  intros. unfold net_send. replace ((off <? 0) || (n <? 0) || (zlen m <? off + n)) with false by lia. destruct k as [x|]; [|exists None; split; [reflexivity|right; reflexivity]].
  eexists. split; [reflexivity|]. destruct open; [|left; reflexivity]. split; [reflexivity|]. exists x. split; [reflexivity|]. split; [reflexivity|].
  destruct (Z_le_gt_dec 0 (Z.min x n)); [rewrite zlen_zslice; lia|rewrite zslice_neg by lia; rewrite zlen_nil; lia].
Qed.
Lemma send_safe cf e w : ok_conn (tw_c w) -> exists w', tcp_send_wanted cf e w = Ok w' /\ ok_conn (tw_c w').
Proof.
  intros K. unfold tcp_send_wanted. destruct (negb (tc_state (tw_c w) =? 2)) eqn:ES; [eauto|].
  destruct K as [H|H|H HS (m & EB & HG & HM)|H|H|H]; try (exfalso; try rewrite H in ES; cbn in ES; lia).
  cbv zeta. destruct (Z.ltb_spec 0 (tc_wanted (tw_c w) - tc_got (tw_c w))).
  - unfold buf_of. rewrite EB. cbn [bind]. destruct (net_send_ok (tc_local (tw_c w)) (te_sl e) m (tc_got (tw_c w)) (tc_wanted (tw_c w) - tc_got (tw_c w))) as (r & -> & HR); [lia|lia|lia|]. cbn [bind].
    destruct r as [l|]; [|exists w; split; [reflexivity|]; apply K2; [lia|exact HS|exists m; auto]]. destruct HR as (_ & x & _ & _ & HL).
    eexists. split; [reflexivity|]. apply K2; cbn [tw_c tc_state tc_sent tc_got tc_wanted]; [lia|exact HS|]. exists m. cbn [tc_buf]. split; [first [reflexivity|exact EB]|]. lia.
  - eexists. split; [reflexivity|]. apply K0. reflexivity.
Qed.
Lemma up_safe cf e w : ok_conn (tw_c w) -> exists w', tcp_upstream_send cf e w = Ok w' /\ ok_conn (tw_c w').
Proof.
  intros K. unfold tcp_upstream_send. destruct (negb (tc_state (tw_c w) =? 3)) eqn:ES; [eauto|].
  destruct K as [H|H|H HS (m & EB & HG & HM)|H|H|H]; try (exfalso; try rewrite H in ES; cbn in ES; lia).
  replace (tc_wanted (tw_c w) <? tc_got (tw_c w)) with false by lia. cbv zeta. unfold buf_of. rewrite EB. cbn [bind].
  destruct (net_send_ok (tc_up (tw_c w)) (te_su e) m (tc_got (tw_c w)) (tc_wanted (tw_c w) - tc_got (tw_c w))) as (r & -> & HR); [lia|lia|lia|]. cbn [bind].
  destruct r as [l|]; [|exists w; split; [reflexivity|]; apply K2; [lia|exact HS|exists m; auto]]. destruct HR as (_ & x & _ & _ & HL). eexists. split; [reflexivity|].
  destruct (Z.leb_spec (tc_wanted (tw_c w)) (tc_got (tw_c w) + zlen l)).
  - apply K4; cbn [tw_c tc_state tc_sent]; [reflexivity|exact HS].
  - apply K2; cbn [tw_c tc_state tc_sent tc_got tc_wanted]; [lia|exact HS|]. exists m. cbn [tc_buf]. split; [first [reflexivity|exact EB]|]. lia.
Qed.
Lemma prepare_safe J w : ok_conn (tw_c w) -> ok_conn (tw_c (tcp_prepare_upstream_len J w)).
Proof.
  intros K. unfold tcp_prepare_upstream_len. destruct (negb (tc_state (tw_c w) =? 4)) eqn:ES; [exact K|].
  destruct K as [H|H|H|H HS|H|H]; try (exfalso; try rewrite H in ES; cbn in ES; lia). apply K5; cbn [set_c tw_c tc_state tc_sent tc_wanted tc_got]; [reflexivity|exact HS| |reflexivity|lia].
  eexists. split; [reflexivity|]. rewrite zlen_mkjunk; lia.
Qed.
Lemma recv_ok open k n s : 0 <= n -> match net_recv open k n s with (None, r) => r = s /\ (open = false \/ k = None) | (Some l, r) => open = true /\ zlen l <= n /\ s = l ++ r /\ exists x, k = Some x /\ (1 <= x -> 1 <= n -> 1 <= zlen s -> 1 <= zlen l) end.
Proof.
  intros Hn. unfold net_recv. destruct k as [x|]; [|auto]. destruct open; [|auto]. split; [reflexivity|]. split; [rewrite zlen_firstn; lia|]. split; [symmetry; apply firstn_skipn|]. exists x. split; [reflexivity|]. intros. rewrite zlen_firstn. lia.
Qed.
Lemma word_bound a b : 0 <= Z.lor (Z.shiftl (Z.land a 255) 8) (Z.land b 255) < 65536.
Proof. rewrite !land_255. rewrite lor_shiftl8 by lia. lia. Qed.
Lemma put_safe m off l : 0 <= off -> off + zlen l <= zlen m -> exists m', put_at m off l = Ok m' /\ zlen m' = zlen m.
Proof.
  intros. unfold put_at. eexists. split; [apply copy_bytes_ok; unfold zlen in *; lia|]. pose proof (zlen_nonneg l).
  rewrite zlen_splice; [reflexivity|lia|]. rewrite zlen_zslice by (unfold zlen in *; lia). unfold zlen in *. lia.
Qed.
Lemma len_safe J cf e w : ok_conn (tw_c w) -> exists w', tcp_get_upstream_len J cf e w = Ok w' /\ ok_conn (tw_c w').
Proof.
  intros K. unfold tcp_get_upstream_len. destruct (negb (tc_state (tw_c w) =? 5)) eqn:ES; [eauto|].
  destruct K as [H|H|H|H HS|H HS (m & EB & HM) HW HG|H]; try (exfalso; try rewrite H in ES; cbn in ES; lia).
  cbv zeta. unfold buf_of. rewrite EB. cbn [bind]. rewrite HW. destruct (Z.ltb_spec 0 (2 - tc_got (tw_c w))).
  - replace ((tc_got (tw_c w) <? 0) || (zlen m <? tc_got (tw_c w) + (2 - tc_got (tw_c w)))) with false by lia.
    pose proof (recv_ok (tc_up (tw_c w)) (te_ru e) (2 - tc_got (tw_c w)) (tw_uin w) ltac:(lia)) as HR. destruct (net_recv (tc_up (tw_c w)) (te_ru e) (2 - tc_got (tw_c w)) (tw_uin w)) as [[[|b l]|] rest].
    + exists w. split; [reflexivity|]. apply K5; auto. exists m. auto.
    + destruct HR as (_ & HL & _). destruct (put_safe m (tc_got (tw_c w)) (b :: l)) as (m' & -> & Lm); [lia|lia|]. cbn [bind]. eexists. split; [reflexivity|].
      pose proof (zlen_nonneg (b :: l)). apply K5; cbn [tw_c tc_state tc_sent tc_wanted tc_got]; [exact H|exact HS| |reflexivity|lia]. exists m'. split; [reflexivity|lia].
    + exists w. split; [reflexivity|]. apply K5; auto. exists m. auto.
  - replace (2 - tc_got (tw_c w) =? 0) with true by lia. destruct (rd_ok m 0 ltac:(lia)) as (b0 & -> & _). cbn [bind]. destruct (rd_ok m 1 ltac:(lia)) as (b1 & -> & _). cbn [bind].
    pose proof (word_bound b0 b1) as HWd. set (n := Z.lor (Z.shiftl (Z.land b0 255) 8) (Z.land b1 255)) in *. clearbody n.
    pose proof (zlen_mkjunk J (n + 3) ltac:(lia)) as LJ. rewrite wr_ok by lia. cbn [bind]. rewrite wr_ok by (rewrite zlen_zupd; lia). cbn [bind]. eexists. split; [reflexivity|].
    apply K6; cbn [set_c tw_c tc_state tc_sent tc_wanted tc_got]; [reflexivity| |lia|lia]. eexists. split; [reflexivity|]. rewrite !zlen_zupd. exact LJ.
Qed.
Lemma forward_safe cf e w : ok_conn (tw_c w) -> exists w', tcp_downstream_forward cf e w = Ok w' /\ ok_conn (tw_c w').
Proof.
  intros K. unfold tcp_downstream_forward. destruct (negb (tc_state (tw_c w) =? 6)) eqn:ES; [eauto|].
  destruct K as [H|H|H|H HS|H|H (m & EB & HM) HG HS]; try (exfalso; try rewrite H in ES; cbn in ES; lia).
  rewrite EB. destruct (_ || _) eqn:EC; [eexists; split; [reflexivity|apply K0; reflexivity]|]. cbv zeta.
  replace ((tc_got (tw_c w) <? 0) || (zlen m <? 2 + tc_got (tw_c w) + (tc_wanted (tw_c w) - tc_got (tw_c w)))) with false by lia.
  pose proof (recv_ok (tc_up (tw_c w)) (te_ru e) (tc_wanted (tw_c w) - tc_got (tw_c w)) (tw_uin w) ltac:(lia)) as HR.
  destruct (net_recv (tc_up (tw_c w)) (te_ru e) (tc_wanted (tw_c w) - tc_got (tw_c w)) (tw_uin w)) as [[[|b l]|] rest].
  - exists w. split; [reflexivity|]. apply K6; auto. exists m. auto.
  - destruct HR as (_ & HL & _). destruct (put_safe m (2 + tc_got (tw_c w)) (b :: l)) as (m' & -> & Lm); [lia|lia|]. cbn [bind]. set (len := zlen (b :: l)) in *. assert (1 <= len) by (unfold len; rewrite zlen_cons; pose proof (zlen_nonneg l); lia). clearbody len.
    destruct (net_send_ok (tc_local (tw_c w)) (te_sl e) m' (tc_sent (tw_c w)) (tc_got (tw_c w) + len - tc_sent (tw_c w) + 2)) as (r & -> & HR); [lia|lia|lia|]. cbn [bind].
    assert (forall out sent die, 0 <= sent <= tc_got (tw_c w) + len + 2 -> ok_conn (tw_c (mktw (mktc (tc_local (tw_c w)) (tc_up (tw_c w)) (Some m') (tc_wanted (tw_c w)) (tc_got (tw_c w) + len) sent (tc_state (tw_c w)) die) (tw_cin w) (tw_cout w ++ out) (tw_copen w) rest (tw_uout w) (tw_uopen w) (tw_query w)))) as KK.
    { intros out sent die Hs. cbn [tw_c]. apply K6; cbn [tc_state tc_sent tc_wanted tc_got]; [exact H| |lia|lia]. exists m'. split; [reflexivity|lia]. }
    destruct r as [[|o l']|]; [eexists; split; [reflexivity|apply KK; lia]| |eexists; split; [reflexivity|apply KK; lia]].
    destruct HR as (_ & x & _ & _ & HL'). destruct (negb (zlen (o :: l') =? len)); [eexists; split; [reflexivity|apply KK; lia]|].
    destruct (tc_wanted (tw_c w) =? tc_got (tw_c w) + len); eexists; (split; [reflexivity|]); [apply K0; reflexivity|apply KK; lia].
  - exists w. split; [reflexivity|]. apply K6; auto. exists m. auto.
Qed.
Lemma rest_safe J cf e w : ok_conn (tw_c w) -> exists w', tcp_rest J cf e w = Ok w' /\ ok_conn (tw_c w').
Proof.
  intros K. unfold tcp_rest. destruct (send_safe cf e w K) as (w1 & -> & K1'). cbn [bind]. destruct (up_safe cf e w1 K1') as (w2 & -> & K2'). cbn [bind].
  destruct (len_safe J cf e _ (prepare_safe J w2 K2')) as (w3 & -> & K3'). cbn [bind]. exact (forward_safe cf e w3 K3').
Qed.
Lemma framed J packet : exists m, (m <- wr (mkjunk J (zlen packet + 3)) 0 (Z.shiftr (Z.land (zlen packet) 65280) 8) ;; m <- wr m 1 (Z.land (zlen packet) 255) ;; put_at m 2 packet) = Ok m /\ zlen m = zlen packet + 3 /\
  (zlen packet < 65536 -> exists j, m = frame packet ++ j).
Proof.
  pose proof (zlen_nonneg packet) as Hp. pose proof (zlen_mkjunk J (zlen packet + 3) ltac:(lia)) as LJ. rewrite wr_ok by lia. cbn [bind]. rewrite wr_ok by (rewrite zlen_zupd; lia). cbn [bind].
  destruct (mkjunk J (zlen packet + 3)) as [|x [|y t]] eqn:EJ; rewrite ?zlen_cons, ?zlen_nil in LJ; [lia|lia|]. set (v0 := Z.shiftr (Z.land (zlen packet) 65280) 8). set (v1 := Z.land (zlen packet) 255).
  assert (zupd (zupd (x :: y :: t) 0 v0) 1 v1 = [v0; v1] ++ t) as -> by reflexivity. destruct (put_at_app [v0; v1] t packet ltac:(lia)) as (j & E & Lj & _). change (zlen [v0; v1]) with 2 in E. rewrite E.
  exists (([v0; v1] ++ packet) ++ j). split; [reflexivity|]. split; [rewrite !zlen_app; change (zlen [v0; v1]) with 2; lia|].
  intros HL. exists j. unfold frame, num2. f_equal. f_equal. unfold v0, v1. rewrite Z.shiftr_land. change (Z.shiftr 65280 8) with 255. rewrite !land_255, Z.shiftr_div_pow2 by lia. change (2 ^ 8) with 256. f_equal. apply Z.mod_small. lia.
Qed.
Lemma bind_assoc3 {A} (a : res (list Z)) (b c : list Z -> res (list Z)) (k : list Z -> res A) : (m <- a ;; m <- b m ;; m <- c m ;; k m) = (m <- (m <- a ;; m <- b m ;; c m) ;; k m).
Proof. destruct a as [x| |f]; cbn [bind]; [|reflexivity|reflexivity]. destruct (b x); reflexivity. Qed.
Lemma return_ok J cf now packet w : exists m, zlen m = zlen packet + 3 /\ (zlen packet < 65536 -> exists j, m = frame packet ++ j) /\
  tcp_return_reply J cf now packet w = Ok (set_c w (mktc (tc_local (tw_c w)) (tc_up (tw_c w)) (Some m) (zlen packet + 2) 0 (tc_sent (tw_c w)) 2 (soon now (cf_tcp cf)))).
Proof. destruct (framed J packet) as (m & E & L & F). exists m. split; [exact L|]. split; [exact F|]. unfold tcp_return_reply. cbv zeta. rewrite bind_assoc3, E. reflexivity. Qed.
Lemma retry_ok J packet up w : exists m, zlen m = zlen packet + 3 /\ (zlen packet < 65536 -> exists j, m = frame packet ++ j) /\
  tcp_truncated_retry J packet up w = Ok (match up with None => close_local w | Some s => mktw (mktc (tc_local (tw_c w)) true (Some m) (zlen packet + 2) 0 (tc_sent (tw_c w)) 3 (tc_die (tw_c w)))
               (tw_cin w) (tw_cout w) (tw_copen w) s [] true (tw_query w) end).
Proof. destruct (framed J packet) as (m & E & L & F). exists m. split; [exact L|]. split; [exact F|]. unfold tcp_truncated_retry. cbv zeta. rewrite bind_assoc3, E. cbn [bind]. destruct up; reflexivity. Qed.

Lemma sent0 c : ok_conn c -> tc_state c <> 6 -> tc_sent c = 0.
Proof. intros [-> |H|H|H|H|H] N; try reflexivity; try assumption; lia. Qed.
Lemma step_safe J cf ev w : ok_conn (tw_c w) -> quiet ev w -> exists w', tcp_step J cf ev w = Ok w' /\ ok_conn (tw_c w').
Proof.
  intros K Q. destruct ev as [e|now|now p|p up]; cbn [tcp_step quiet] in *.
  - rewrite over_tick by (apply ok_over; exact K). apply rest_safe. exact K.
  - eexists. split; [reflexivity|]. unfold kill_tcp_expired. destruct (_ && _); [apply K0; reflexivity|exact K].
  - destruct (return_ok J cf now p w) as (m & L & _ & ->). eexists. split; [reflexivity|]. pose proof (zlen_nonneg p). apply K2; cbn [set_c tw_c tc_state tc_sent tc_got tc_wanted]; [auto|apply sent0; assumption|]. exists m. split; [reflexivity|lia].
  - destruct (retry_ok J p up w) as (m & L & _ & ->). eexists. split; [reflexivity|]. pose proof (zlen_nonneg p). destruct up as [s|]; [|apply K0; reflexivity]. apply K2; cbn [tw_c tc_state tc_sent tc_got tc_wanted]; [auto|apply sent0; assumption|]. exists m. split; [reflexivity|lia].
Qed.
Lemma step_safe_reading J cf s ev w : junk_ok J -> bytes s -> reading cf s w ->
  match tcp_step J cf ev w with
  | Ok w' => reading cf s w' \/ ok_conn (tw_c w')
  | Fail => False
  | Bad f => f = SignedOverflow /\ cf_signed cf = true /\ exists h0 r, s = h0 :: r /\ 128 <= h0
  end.
Proof.
  intros HJ HB HR. destruct (reading_not_over cf s w HR) as (_ & S0 & _). destruct ev as [e|now|now p|p up]; cbn [tcp_step].
  - destruct (tick_ok J cf s e w HJ HB HR) as (w1 & _ & _ & _ & HD). destruct (tcp_handle_all J cf e w) as [w2| |f]; [|exact HD|exact HD].
    destruct HD as [w2 R2 _|h0 h1 n r w2 _ _ _ ->|p w2 _ _ _ _ ->|p i ar w2 A1 A2 A3 A4 A5 A6 A7 _ _ _ A11]; [left; exact R2|right; apply K0; reflexivity|right; apply K0; reflexivity|right; apply K1; assumption].
  - unfold kill_tcp_expired. destruct (_ && _); [right; apply K0; reflexivity|left; exact HR].
  - destruct (return_ok J cf now p w) as (m & L & _ & ->). right. pose proof (zlen_nonneg p). apply K2; cbn [set_c tw_c tc_state tc_sent tc_got tc_wanted]; [auto|exact S0|]. exists m. split; [reflexivity|lia].
  - destruct (retry_ok J p up w) as (m & L & _ & ->). right. pose proof (zlen_nonneg p). destruct up as [s'|]; [|apply K0; reflexivity]. apply K2; cbn [tw_c tc_state tc_sent tc_got tc_wanted]; [auto|exact S0|]. exists m. split; [reflexivity|lia].
Qed.
Lemma run_safe J cf s evs : junk_ok J -> bytes s -> forall w, reading cf s w \/ ok_conn (tw_c w) -> calm J cf evs w ->
  match tcp_run J cf evs w with
  | Ok w' => reading cf s w' \/ ok_conn (tw_c w')
  | Fail => False
  | Bad f => f = SignedOverflow /\ cf_signed cf = true /\ exists h0 r, s = h0 :: r /\ 128 <= h0
  end.
Proof.
  intros HJ HB. induction evs as [|ev evs IH]; intros w HW HC; cbn [tcp_run]; [exact HW|]. destruct HC as (HQ & HC). destruct HW as [HR|HK].
  - pose proof (step_safe_reading J cf s ev w HJ HB HR) as HS. destruct (tcp_step J cf ev w) as [w1| |f]; cbn [bind]; [|exact HS|exact HS]. apply IH; [exact HS|apply HC; reflexivity].
  - destruct (step_safe J cf ev w HK HQ) as (w1 & E & K'). rewrite E. cbn [bind]. apply IH; [right; exact K'|apply HC; exact E].
Qed.
