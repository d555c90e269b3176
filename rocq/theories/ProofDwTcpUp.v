(** Proofs about ModelDwTcp: the query upstream, and the reply to it, from beginning to end. *)
From Verif Require Import CBase Bits SpecNames SpecMessage SpecQuery SpecDwStr SpecAcl ModelDwStr ModelDwSys ModelDwUdp ModelDwTcp SpecTcp ProofDwStr ProofMessage ProofDwTcp ProofDwTcpRun ProofDwTcpSafe ProofDwTcpSend.

Lemma idle_send cf e w : tc_state (tw_c w) <> 2 -> tcp_send_wanted cf e w = Ok w.
Proof. intros H. unfold tcp_send_wanted. replace (tc_state (tw_c w) =? 2) with false by lia. reflexivity. Qed.
Lemma idle_up cf e w : tc_state (tw_c w) <> 3 -> tcp_upstream_send cf e w = Ok w.
Proof. intros H. unfold tcp_upstream_send. replace (tc_state (tw_c w) =? 3) with false by lia. reflexivity. Qed.
Lemma idle_prepare J w : tc_state (tw_c w) <> 4 -> tcp_prepare_upstream_len J w = w.
Proof. intros H. unfold tcp_prepare_upstream_len. replace (tc_state (tw_c w) =? 4) with false by lia. reflexivity. Qed.
Lemma idle_len J cf e w : tc_state (tw_c w) <> 5 -> tcp_get_upstream_len J cf e w = Ok w.
Proof. intros H. unfold tcp_get_upstream_len. replace (tc_state (tw_c w) =? 5) with false by lia. reflexivity. Qed.
Lemma idle_forward cf e w : tc_state (tw_c w) <> 6 -> tcp_downstream_forward cf e w = Ok w.
Proof. intros H. unfold tcp_downstream_forward. replace (tc_state (tw_c w) =? 6) with false by lia. reflexivity. Qed.

Section Upstream.
Variables (q us c0 : list Z).
Hypothesis Hus : bytes us.
Lemma s3 g w : P3 q us c0 g w -> tc_state (tw_c w) = 3.
Proof. intros (j & die & -> & _). reflexivity. Qed.
Lemma s5 a w : P5 q us c0 a w -> tc_state (tw_c w) = 5.
Proof. intros (j & die & -> & _). reflexivity. Qed.
Lemma s6 full b w : P6 q us c0 full b w -> tc_state (tw_c w) = 6.
Proof. intros (h0 & h1 & j & sent & die & -> & _). reflexivity. Qed.

(** What is left to be done, if the reply has [N] octets. *)
Definition stage (full : Prop) (N m : Z) (w : tworld) : Prop :=
  (exists g, P3 q us c0 g w /\ m = zlen q + 2 - g + N + 4) \/ (exists a, P5 q us c0 a w /\ m = 2 - zlen a + N + 2) \/ (exists b, P6 q us c0 full b w /\ m = N - zlen b + 1) \/ (PE q us c0 full w /\ m = 0).
Definition eager (e : tenv) : Prop := exists x y, te_ru e = Some x /\ 1 <= x /\ te_su e = Some y /\ 1 <= y.
(** [N] is the length of the reply; [rest] follows it. *)
Definition reply_in (N : Z) : Prop := exists body rest, us = frame body ++ rest /\ zlen body = N /\ N < 65536.
Lemma reply_head N h0 h1 t : reply_in N -> us = h0 :: h1 :: t -> h0 * 256 + h1 = N /\ N <= zlen t.
Proof.
  intros (body & rest & -> & LB & LN) E. unfold frame, num2 in E. cbn [app] in E. injection E as <- <- <-. rewrite zlen_app. pose proof (zlen_nonneg rest). lia.
Qed.
Lemma forward_stage cf e (full : Prop) N b w : (full -> exists k, te_sl e = Some k /\ 65537 <= k) -> P6 q us c0 full b w ->
  exists w' m', tcp_downstream_forward cf e w = Ok w' /\ stage full N m' w' /\ (reply_in N -> m' <= N - zlen b + 1 /\ (eager e -> m' < N - zlen b + 1)).
Proof.
  intros HF H. pose proof H as (h0 & h1 & j & sent & die & EC & L1 & _ & HU & _).
  destruct (p6_forward q us c0 cf e full b w HF Hus H) as (w' & E & [(b' & H' & L & P)|HE]).
  - exists w', (N - zlen b' + 1). split; [exact E|]. split; [right; right; left; exists b'; auto|]. intros HN. split; [lia|]. intros (x & y & EX & HX & _). destruct (reply_head N h0 h1 _ HN HU) as (EN & LN). rewrite zlen_app in LN.
    destruct (Z_lt_dec (zlen b) N) as [LT|LT]; [specialize (P x EX HX ltac:(lia)); lia|].
    exfalso. revert E. unfold tcp_downstream_forward. rewrite EC. cbn [tc_state tc_wanted tc_got tc_sent tc_buf]. change (negb (6 =? 6)) with false. cbv iota. replace (h0 * 256 + h1 <=? zlen b) with true by lia. cbn [orb]. intros X. apply Ok_inj in X. subst w'.
    destruct H' as (? & ? & ? & ? & ? & X & _). discriminate X.
  - exists w', 0. split; [exact E|]. split; [right; right; right; auto|]. intros HN. destruct (reply_head N h0 h1 _ HN HU) as (EN & LN). split; [lia|]. intros _. lia.
Qed.
Lemma stage_tick J cf e (full : Prop) N m w : (full -> exists k, te_sl e = Some k /\ 65537 <= k) -> 0 <= N -> stage full N m w ->
  exists w' m', tcp_handle_all J cf e w = Ok w' /\ stage full N m' w' /\ (reply_in N -> m' <= m /\ (eager e -> 0 < m -> m' < m)).
Proof.
  intros HF HN [(g & H & ->)|[(a & H & ->)|[(b & H & ->)|(H & ->)]]].
  - pose proof (s3 g w H) as ST. rewrite over_tick by (left; lia). unfold tcp_rest. rewrite idle_send by lia. cbn [bind]. destruct (p3_send q us c0 cf e g w H) as (w1 & -> & [(g' & H' & L & P)|H4]); cbn [bind].
    + pose proof (s3 g' w1 H'). rewrite idle_prepare, idle_len by lia. cbn [bind]. rewrite idle_forward by lia. exists w1, (zlen q + 2 - g' + N + 4). split; [reflexivity|]. split; [left; exists g'; auto|]. intros _. split; [lia|]. intros (x & y & _ & _ & EY & HY) _. specialize (P y EY HY). lia.
    + pose proof (p4_prepare q us c0 J w1 H4) as H5. destruct (p5_len q us c0 J cf e [] _ Hus H5) as (w2 & -> & [(a' & H' & L & P & _)|(X & _)]); [|rewrite zlen_nil in X; lia]. cbn [bind]. pose proof (s5 a' w2 H'). rewrite idle_forward by lia.
      exists w2, (2 - zlen a' + N + 2). split; [reflexivity|]. split; [right; left; exists a'; auto|]. intros _. destruct H as (_ & _ & _ & HG & _). pose proof (zlen_nonneg a'). lia.
  - pose proof (s5 a w H) as ST. rewrite over_tick by (left; lia). unfold tcp_rest. rewrite idle_send by lia. cbn [bind]. rewrite idle_up by lia. cbn [bind]. rewrite idle_prepare by lia.
    destruct (p5_len q us c0 J cf e a w Hus H) as (w2 & -> & [(a' & H' & L & P & PN)|(X & H6)]); cbn [bind].
    + pose proof (s5 a' w2 H'). rewrite idle_forward by lia. exists w2, (2 - zlen a' + N + 2). split; [reflexivity|]. split; [right; left; exists a'; auto|]. intros HR. split; [lia|]. intros (x & y & EX & HX & _) _.
      destruct H as (j & die & _ & L2 & _ & HU & _). specialize (P x EX HX ltac:(lia)). destruct HR as (body & rest & EU & LB & _). pose proof (f_equal (@zlen Z) EU) as LU. rewrite HU, !zlen_app, zlen_frame in LU. pose proof (zlen_nonneg rest). specialize (P ltac:(lia)). lia.
    + destruct (forward_stage cf e full N [] w2 HF (H6 full)) as (w' & m' & E & HS & HM). exists w', m'. split; [exact E|]. split; [exact HS|]. intros HR. destruct (HM HR) as (M1 & _). rewrite zlen_nil in M1. lia.
  - pose proof (s6 full b w H) as ST. rewrite over_tick by (left; lia). unfold tcp_rest. rewrite idle_send by lia. cbn [bind]. rewrite idle_up by lia. cbn [bind]. rewrite idle_prepare, idle_len by lia. cbn [bind].
    destruct (forward_stage cf e full N b w HF H) as (w' & m' & E & HS & HM). exists w', m'. split; [exact E|]. split; [exact HS|]. intros HR. destruct (HM HR) as (M1 & M2). auto.
  - destruct H as (EC & H). exists w, 0. split; [|split; [right; right; right; split; [split; assumption|reflexivity]|lia]]. rewrite over_tick by (right; exact EC). apply rest_idle. left. rewrite EC. reflexivity.
Qed.
Lemma stage_run J cf (full : Prop) N evs : 0 <= N -> Forall is_tick evs -> (full -> Forall takes_all evs) -> forall m w, stage full N m w ->
  exists w' m', tcp_run J cf evs w = Ok w' /\ stage full N m' w' /\ (reply_in N -> m' <= Z.max 0 (m - count_ev eager_ev evs)).
Proof.
  intros HN HT. induction HT as [|ev evs (e & ->) HT IH]; intros HF m w HW; cbn [tcp_run tcp_step].
  - exists w, m. split; [reflexivity|]. split; [exact HW|]. change (count_ev eager_ev []) with 0. lia.
  - assert (full -> exists k, te_sl e = Some k /\ 65537 <= k) as HF1. { intros F. specialize (HF F). apply Forall_inv in HF as (e' & k & A0 & A). injection A0 as ->. exists k. exact A. }
    assert (full -> Forall takes_all evs) as HF2 by (intros F; specialize (HF F); inversion HF; assumption).
    destruct (stage_tick J cf e full N m w HF1 HN HW) as (w1 & m1 & -> & H1 & M1). cbn [bind]. destruct (IH HF2 m1 w1 H1) as (w2 & m2 & E2 & H2 & M2). exists w2, m2. split; [exact E2|]. split; [exact H2|].
    intros HR. specialize (M2 HR). destruct (M1 HR) as (A & B). unfold count_ev in *. cbn [filter eager_ev]. destruct (te_ru e) as [x|] eqn:EX; [|lia]. destruct (te_su e) as [y|] eqn:EY; [|lia].
    destruct ((1 <=? x) && (1 <=? y)) eqn:EE; [|lia]. rewrite zlen_cons. assert (eager e) as EG by (exists x, y; split; [exact EX|]; split; [lia|]; split; [exact EY|lia]). specialize (B EG). set (cnt := zlen (filter eager_ev evs)) in *. pose proof (zlen_nonneg (filter eager_ev evs)). fold cnt in H. clearbody cnt. clear - A B M2 H. destruct (Z_lt_dec 0 m) as [l|l]; [specialize (B l); lia|lia].
Qed.
End Upstream.

Lemma retry_stage J w q us full : zlen q < 65536 -> tc_local (tw_c w) = true -> tc_sent (tw_c w) = 0 -> tw_copen w = true ->
  exists w', tcp_truncated_retry J q (Some us) w = Ok w' /\ forall N, stage q us (tw_cout w) full N (zlen q + 2 + N + 4) w'.
Proof.
  intros HL HC HS HO. destruct (retry_ok J q (Some us) w) as (m & Lm & HF & ->). destruct (HF HL) as (j & ->). eexists. split; [reflexivity|]. pose proof (zlen_nonneg q). intros N. left. exists 0. split; [|lia].
  exists j, (tc_die (tw_c w)). cbn [tw_c tw_uout tw_uin tw_cout]. rewrite HC, HS. split; [reflexivity|]. split; [lia|]. split; [reflexivity|]. split; [reflexivity|]. split; [reflexivity|]. split; [exact HO|reflexivity].
Qed.
(** What all the stages have in common. *)
Lemma zslice_prefix l k : 0 <= k <= zlen l -> prefix (zslice l 0 k) l.
Proof. intros H. exists (zslice l k (zlen l - k)). rewrite <- (zslice_all l) at 1. replace (zlen l) with (k + (zlen l - k)) at 1 by lia. rewrite (zslice_split l 0 k) by lia. reflexivity. Qed.
Lemma prefix_app a b c : prefix a b -> prefix a (b ++ c).
Proof. intros (d & ->). exists (d ++ c). rewrite app_assoc. reflexivity. Qed.
Lemma prefix_nil l : prefix [] l.
Proof. exists l. reflexivity. Qed.
Lemma stage_says q us c0 full N m w : bytes us -> stage q us c0 full N m w ->
  prefix (tw_uout w) (frame q) /\ exists x, tw_cout w = c0 ++ x /\ prefix x us /\ forall body rest, zlen body < 65536 -> us = frame body ++ rest -> prefix x (frame body).
Proof.
  intros HB H. pose proof (zlen_frame q) as LF.
  assert (forall h0 h1 b uin sent, us = h0 :: h1 :: b ++ uin -> zlen b <= h0 * 256 + h1 -> 0 <= sent <= zlen b + 2 -> tw_cout w = c0 ++ zslice (h0 :: h1 :: b) 0 sent ->
     exists x, tw_cout w = c0 ++ x /\ prefix x us /\ forall body rest, zlen body < 65536 -> us = frame body ++ rest -> prefix x (frame body)) as K.
  { intros h0 h1 b uin sent EU LB LS EC. exists (zslice (h0 :: h1 :: b) 0 sent). split; [exact EC|].
    assert (prefix (zslice (h0 :: h1 :: b) 0 sent) (h0 :: h1 :: b)) as PX by (apply zslice_prefix; rewrite !zlen_cons; lia).
    split; [rewrite EU; change (h0 :: h1 :: b ++ uin) with ((h0 :: h1 :: b) ++ uin); apply prefix_app; exact PX|]. intros body rest LBd E2. rewrite EU in E2. unfold frame, num2 in *. cbn [app] in E2. injection E2 as E0 E1 E2.
    pose proof (zlen_nonneg body). destruct PX as (c & PX). assert (zlen b <= zlen body) as LE by lia.
    assert (exists t, body = b ++ t) as (t & ->). { exists (skipn (length b) body). apply (f_equal (firstn (length b))) in E2. rewrite !firstn_app, firstn_all, Nat.sub_diag in E2. cbn [firstn] in E2. rewrite app_nil_r in E2.
      unfold zlen in LE. replace (length b - length body)%nat with 0%nat in E2 by lia. cbn [firstn] in E2. rewrite app_nil_r in E2. rewrite E2 at 1. symmetry. apply firstn_skipn. }
    exists (c ++ t). rewrite (app_assoc (zslice (h0 :: h1 :: b) 0 sent) c t), <- PX. rewrite <- E0, <- E1. reflexivity. }
  destruct H as [(g & (j & die & _ & HG & HU & _ & HC & _) & _)|[(a & (j & die & _ & _ & _ & _ & HU & HC & _) & _)|[(b & (h0 & h1 & j & sent & die & _ & L1 & _ & HI & HU & HC & HS & _) & _)|((_ & h0 & h1 & b & sent & LB & HI & HU & HC & HS & _) & _)]]].
  - split; [rewrite HU; apply zslice_prefix; lia|]. exists []. rewrite app_nil_r. split; [exact HC|]. split; [apply prefix_nil|]. intros. apply prefix_nil.
  - split; [rewrite HU; exists []; rewrite app_nil_r; reflexivity|]. exists []. rewrite app_nil_r. split; [exact HC|]. split; [apply prefix_nil|]. intros. apply prefix_nil.
  - split; [rewrite HU; exists []; rewrite app_nil_r; reflexivity|]. exact (K h0 h1 b _ sent HI L1 HS HC).
  - split; [rewrite HU; exists []; rewrite app_nil_r; reflexivity|]. exact (K h0 h1 b _ sent HI ltac:(lia) HS HC).
Qed.
