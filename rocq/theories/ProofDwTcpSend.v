(** Proofs about ModelDwTcp: what is sent. *)
From Verif Require Import CBase Bits SpecNames SpecMessage SpecQuery SpecDwStr SpecAcl ModelDwStr ModelDwSys ModelDwUdp ModelDwTcp SpecTcp ProofDwStr ProofDwDname ProofDwSys ProofDwUdp ProofDwDecomp ProofMessage ProofDwTcp ProofDwTcpRun ProofDwTcpSafe.

Lemma zlen_frame p : zlen (frame p) = zlen p + 2.
Proof. unfold frame, num2. rewrite zlen_app. change (zlen [zlen p / 256; zlen p mod 256]) with 2. lia. Qed.

(** *** The reply *)
Definition sending (r c0 : list Z) (g : Z) (w : tworld) : Prop :=
  exists u j die, tw_c w = mktc true u (Some (frame r ++ j)) (zlen r + 2) g 0 2 die /\ 0 <= g <= zlen r + 2 /\ tw_cout w = c0 ++ zslice (frame r) 0 g /\ tw_copen w = true.
Definition answered (r c0 : list Z) (w : tworld) : Prop := tw_c w = tc_reset /\ tw_cout w = c0 ++ frame r /\ tw_copen w = false.
Lemma rest_of J cf e w : over w -> (forall w', tcp_send_wanted cf e w = Ok w' -> tc_state (tw_c w') = 2 \/ tw_c w' = tc_reset) -> tcp_rest J cf e w = tcp_send_wanted cf e w.
Proof.
  intros HO H. unfold tcp_rest. destruct (tcp_send_wanted cf e w) as [w'| |f]; cbn [bind]; [|reflexivity|reflexivity]. specialize (H w' eq_refl).
  assert (tc_state (tw_c w') = 0 \/ tc_state (tw_c w') = 2) as S by (destruct H as [H|H]; [right; exact H|left; rewrite H; reflexivity]).
  unfold tcp_upstream_send, tcp_prepare_upstream_len, tcp_get_upstream_len, tcp_downstream_forward.
  replace (tc_state (tw_c w') =? 3) with false by lia. cbn [negb bind]. replace (tc_state (tw_c w') =? 4) with false by lia. cbn [negb bind]. replace (tc_state (tw_c w') =? 5) with false by lia. cbn [negb bind]. replace (tc_state (tw_c w') =? 6) with false by lia. reflexivity.
Qed.
Lemma sending_tick J cf e r c0 g w : sending r c0 g w ->
  exists w', tcp_handle_all J cf e w = Ok w' /\ ((exists g', sending r c0 g' w' /\ g <= g' /\ (forall k, te_sl e = Some k -> 1 <= k -> g < g')) \/ answered r c0 w').
Proof.
  intros (u & j & die & E & HG & HO & HP). pose proof (zlen_frame r) as LF. pose proof (zlen_nonneg j) as Lj.
  assert (over w) as OV by (left; rewrite E; cbn; lia). rewrite over_tick by exact OV.
  assert (exists w', tcp_send_wanted cf e w = Ok w' /\ ((exists g', sending r c0 g' w' /\ g <= g' /\ (forall k, te_sl e = Some k -> 1 <= k -> g < g')) \/ answered r c0 w')) as (w' & EW & HW).
  { unfold tcp_send_wanted. rewrite E. cbn [tc_state tc_wanted tc_got tc_local tc_up tc_buf tc_sent]. change (2 =? 2) with true. cbn [negb]. cbv zeta. destruct (Z.ltb_spec 0 (zlen r + 2 - g)) as [L|L].
    - unfold buf_of. cbn [tc_buf bind]. destruct (net_send_ok true (te_sl e) (frame r ++ j) g (zlen r + 2 - g)) as (x & -> & HX); [lia|lia|rewrite zlen_app; lia|]. cbn [bind].
      destruct x as [l|].
      + destruct HX as (_ & x & EX & EL & LL). eexists. split; [reflexivity|]. left. exists (g + zlen l). split; [|split; [lia|intros k Hk K1; rewrite EX in Hk; injection Hk as <-; lia]].
        exists u, j, (soon (te_now e) (cf_tcp cf)). cbn [tw_c tw_cout tw_copen]. split; [reflexivity|]. split; [lia|]. split; [|exact HP]. rewrite HO, <- app_assoc. f_equal.
        rewrite zslice_split by lia. f_equal. rewrite LL, EL, Z.add_0_l. destruct (Z_le_gt_dec 0 (Z.min x (zlen r + 2 - g))) as [Q|Q].
        * rewrite zslice_app_l by lia. f_equal. lia.
        * rewrite (zslice_neg _ _ (Z.min _ _)) by lia. rewrite zslice_neg by lia. reflexivity.
      + exists w. split; [reflexivity|]. left. exists g. split; [exists u, j, die; auto|]. split; [lia|]. destruct HX as [X|X]; [discriminate|]. rewrite X. discriminate.
    - eexists. split; [reflexivity|]. right. split; [reflexivity|]. cbn [close_local tw_cout tw_copen]. split; [|rewrite E; reflexivity]. rewrite HO. f_equal. replace g with (zlen (frame r)) by lia. apply zslice_all. }
  exists w'. split; [|exact HW]. rewrite rest_of; [exact EW|exact OV|]. intros w2 E2. rewrite EW in E2. injection E2 as <-. destruct HW as [(g' & (? & ? & ? & -> & _) & _)|(H & _)]; [left; reflexivity|right; exact H].
Qed.
Lemma sending_run J cf r c0 evs : Forall is_tick evs -> forall g w, sending r c0 g w ->
  exists w', tcp_run J cf evs w = Ok w' /\ ((exists g', sending r c0 g' w' /\ count_ev takes evs <= g' - g) \/ answered r c0 w').
Proof.
  induction 1 as [|ev evs (e & ->) HT IH]; intros g w HW; cbn [tcp_run tcp_step].
  - exists w. split; [reflexivity|]. left. exists g. split; [exact HW|]. change (count_ev takes []) with 0. lia.
  - destruct (sending_tick J cf e r c0 g w HW) as (w1 & -> & [(g1 & H1 & L1 & P1)|HA]); cbn [bind].
    + destruct (IH g1 w1 H1) as (w2 & E2 & [(g2 & H2 & L2)|HA]); exists w2; (split; [exact E2|]); [|right; exact HA]. left. exists g2. split; [exact H2|].
      unfold count_ev in *. cbn [filter takes]. destruct (te_sl e) as [k|]; [|lia]. destruct (Z.leb_spec 1 k) as [K|K]; [|lia]. rewrite zlen_cons. specialize (P1 k eq_refl K). lia.
    + exists w1. split; [|right; exact HA]. apply idle_run; [exact HT|right; exact (proj1 HA)].
Qed.
Lemma reply_sending J cf now r w : zlen r < 65536 -> tc_local (tw_c w) = true -> tc_sent (tw_c w) = 0 -> tw_copen w = true ->
  exists w', tcp_return_reply J cf now r w = Ok w' /\ sending r (tw_cout w) 0 w' /\ tw_query w' = tw_query w.
Proof.
  intros HL HC HS HO. destruct (return_ok J cf now r w) as (m & Lm & HF & ->). destruct (HF HL) as (j & ->). eexists. split; [reflexivity|]. split; [|reflexivity]. pose proof (zlen_nonneg r).
  exists (tc_up (tw_c w)), j, (soon now (cf_tcp cf)). cbn [set_c tw_c tw_cout tw_copen]. rewrite HC, HS. split; [reflexivity|]. split; [lia|]. split; [rewrite zslice_nil, app_nil_r; reflexivity|exact HO].
Qed.

(** *** The query upstream and the reply to it *)
Section Upstream.
Variables (q us c0 : list Z).
Definition base (w : tworld) : Prop := tw_copen w = true /\ tw_uopen w = true.
Definition P3 (g : Z) (w : tworld) : Prop :=
  exists j die, tw_c w = mktc true true (Some (frame q ++ j)) (zlen q + 2) g 0 3 die /\ 0 <= g < zlen q + 2 /\ tw_uout w = zslice (frame q) 0 g /\ tw_uin w = us /\ tw_cout w = c0 /\ base w.
Definition P4 (w : tworld) : Prop :=
  exists die b wd g, tw_c w = mktc true true b wd g 0 4 die /\ tw_uout w = frame q /\ tw_uin w = us /\ tw_cout w = c0 /\ base w.
Definition P5 (a : list Z) (w : tworld) : Prop :=
  exists j die, tw_c w = mktc true true (Some (a ++ j)) 2 (zlen a) 0 5 die /\ zlen a <= 2 /\ zlen a + zlen j = 3 /\ us = a ++ tw_uin w /\ tw_uout w = frame q /\ tw_cout w = c0 /\ base w.
Definition P6 (full : Prop) (b : list Z) (w : tworld) : Prop :=
  exists h0 h1 j sent die, tw_c w = mktc true true (Some ((h0 :: h1 :: b) ++ j)) (h0 * 256 + h1) (zlen b) sent 6 die /\ zlen b <= h0 * 256 + h1 /\ zlen b + zlen j = h0 * 256 + h1 + 1 /\
    us = h0 :: h1 :: b ++ tw_uin w /\ tw_uout w = frame q /\ tw_cout w = c0 ++ zslice (h0 :: h1 :: b) 0 sent /\ 0 <= sent <= zlen b + 2 /\ base w /\ (full -> sent = if zlen b =? 0 then 0 else zlen b + 2).
Definition PE (full : Prop) (w : tworld) : Prop :=
  tw_c w = tc_reset /\ exists h0 h1 b sent, zlen b = h0 * 256 + h1 /\ us = h0 :: h1 :: b ++ tw_uin w /\ tw_uout w = frame q /\ tw_cout w = c0 ++ zslice (h0 :: h1 :: b) 0 sent /\ 0 <= sent <= zlen b + 2 /\
    tw_copen w = false /\ tw_uopen w = false /\ (full -> sent = if zlen b =? 0 then 0 else zlen b + 2).

Lemma p3_send cf e g w : P3 g w -> exists w', tcp_upstream_send cf e w = Ok w' /\ ((exists g', P3 g' w' /\ g <= g' /\ (forall k, te_su e = Some k -> 1 <= k -> g < g')) \/ P4 w').
Proof.
  intros (j & die & E & HG & HU & HI & HC & HB). pose proof (zlen_frame q) as LF. pose proof (zlen_nonneg j) as Lj. unfold tcp_upstream_send. rewrite E. cbn [tc_state tc_wanted tc_got tc_up tc_local tc_buf tc_sent]. change (3 =? 3) with true. cbn [negb].
  replace (zlen q + 2 <? g) with false by lia. cbv zeta. rewrite E. unfold buf_of. cbn [tc_state tc_wanted tc_got tc_up tc_local tc_buf tc_sent bind].
  destruct (net_send_ok true (te_su e) (frame q ++ j) g (zlen q + 2 - g)) as (x & -> & HX); [lia|lia|rewrite zlen_app; lia|]. cbn [bind]. destruct x as [l|].
  - destruct HX as (_ & x & EX & EL & LL). eexists. split; [reflexivity|].
    assert (tw_uout w ++ l = zslice (frame q) 0 (g + zlen l)) as EO.
    { rewrite HU, zslice_split by lia. f_equal. rewrite LL, EL, Z.add_0_l. destruct (Z_le_gt_dec 0 (Z.min x (zlen q + 2 - g))) as [Q|Q].
      - rewrite zslice_app_l by lia. f_equal. lia.
      - rewrite (zslice_neg _ _ (Z.min _ _)) by lia. rewrite zslice_neg by lia. reflexivity. }
    destruct (Z.leb_spec (zlen q + 2) (g + zlen l)) as [LE|LE].
    + right. eexists _, _, _, _. cbn [tw_c tw_uout tw_uin tw_cout]. split; [reflexivity|]. split; [|auto]. rewrite EO. replace (g + zlen l) with (zlen (frame q)) by lia. apply zslice_all.
    + left. exists (g + zlen l). split; [|split; [lia|intros k Hk K1; rewrite EX in Hk; injection Hk as <-; lia]]. eexists j, _. cbn [tw_c tw_uout tw_uin tw_cout]. split; [reflexivity|]. split; [lia|]. auto.
  - exists w. split; [reflexivity|]. left. exists g. split; [exists j, die; auto 10|]. split; [lia|]. destruct HX as [X|X]; [discriminate|]. rewrite X. discriminate.
Qed.
Lemma p4_prepare J w : P4 w -> P5 [] (tcp_prepare_upstream_len J w).
Proof.
  intros (die & b & wd & g & E & HU & HI & HC & HB). unfold tcp_prepare_upstream_len. rewrite E. cbn [tc_state tc_local tc_up tc_sent tc_die]. change (negb (4 =? 4)) with false. cbv iota.
  exists (mkjunk J 3), die. cbn [set_c tw_c tw_uout tw_uin tw_cout app]. split; [reflexivity|]. rewrite zlen_nil, zlen_mkjunk by lia. split; [lia|]. split; [lia|]. auto.
Qed.
Lemma p5_len J cf e a w : bytes us -> P5 a w -> exists w', tcp_get_upstream_len J cf e w = Ok w' /\
  ((exists a', P5 a' w' /\ zlen a <= zlen a' /\ (forall k, te_ru e = Some k -> 1 <= k -> zlen a < 2 -> 1 <= zlen (tw_uin w) -> zlen a < zlen a') /\ (zlen a = 2 -> False)) \/ (zlen a = 2 /\ forall full, P6 full [] w')).
Proof.
  intros HBy (j & die & E & L2 & L3 & HI & HU & HC & HB). unfold tcp_get_upstream_len. rewrite E. cbn [tc_state tc_local tc_up tc_sent tc_die tc_wanted tc_got tc_buf]. change (negb (5 =? 5)) with false. cbv iota zeta. unfold buf_of. cbn [tc_buf bind].
  pose proof (zlen_nonneg a). destruct (Z.ltb_spec 0 (2 - zlen a)) as [L|L].
  - replace ((zlen a <? 0) || (zlen (a ++ j) <? zlen a + (2 - zlen a))) with false by (rewrite zlen_app; lia).
    pose proof (recv_ok true (te_ru e) (2 - zlen a) (tw_uin w) ltac:(lia)) as HR. destruct (net_recv true (te_ru e) (2 - zlen a) (tw_uin w)) as [[[|b l]|] rest].
    + exists w. split; [reflexivity|]. left. exists a. split; [exists j, die; auto 10|]. split; [lia|]. split; [|lia]. destruct HR as (_ & _ & _ & x & -> & Hx). intros k [= <-] K A1 A2. rewrite zlen_nil in Hx. lia.
    + destruct HR as (_ & HL & ES & x & EX & Hx). destruct (put_at_app a j (b :: l) ltac:(lia)) as (j' & -> & Lj & _). cbn [bind]. eexists. split; [reflexivity|]. left. exists (a ++ b :: l).
      assert (zlen (a ++ b :: l) = zlen a + zlen (b :: l)) as LA by apply zlen_app. pose proof (zlen_nonneg l). pose proof (zlen_cons b l).
      split; [|split; [lia|split; [lia|lia]]]. eexists j', _. cbn [tw_c tw_uin tw_uout tw_cout]. rewrite LA. split; [reflexivity|]. split; [lia|]. split; [lia|]. split; [|auto]. rewrite HI, ES at 1. rewrite <- app_assoc. reflexivity.
    + exists w. split; [reflexivity|]. left. exists a. split; [exists j, die; auto 10|]. split; [lia|]. split; [|lia]. destruct HR as (_ & [X|X]); [discriminate|]. rewrite X. discriminate.
  - replace (2 - zlen a =? 0) with true by lia. destruct a as [|h0 [|h1 [|? ?]]]; rewrite ?zlen_cons, ?zlen_nil in *; try lia. 2: { pose proof (zlen_nonneg l). lia. }
    cbn [app] in *. rewrite rd_app_head. cbn [bind]. rewrite rd_app_second. cbn [bind]. rewrite HI in HBy. inversion HBy as [|? ? B0 HB1]; subst. inversion HB1 as [|? ? B1 _]; subst. unfold byte in *.
    rewrite !land_255, !Z.mod_small, lor_shiftl8 by lia. set (n := h0 * 256 + h1). pose proof (zlen_mkjunk J (n + 3) ltac:(lia)) as LJ. rewrite wr_ok by lia. cbn [bind]. rewrite wr_ok by (rewrite zlen_zupd; lia). cbn [bind].
    eexists. split; [reflexivity|]. right. split; [reflexivity|]. intros full. destruct (mkjunk J (n + 3)) as [|x [|y t]] eqn:EJ; rewrite ?zlen_cons, ?zlen_nil in LJ; [lia|lia|].
    assert (Z.shiftr (Z.land n 65280) 8 = h0) as E0. { rewrite Z.shiftr_land. change (Z.shiftr 65280 8) with 255. rewrite land_255, Z.shiftr_div_pow2 by lia. change (2 ^ 8) with 256. unfold n. lia. }
    assert (n mod 256 = h1) as E1 by (unfold n; lia). rewrite E0, E1.
    exists h0, h1, t, 0. eexists. cbn [set_c tw_c tw_uin tw_uout tw_cout app]. change (zupd (zupd (x :: y :: t) 0 h0) 1 h1) with (h0 :: h1 :: t). change (zlen (@nil Z)) with 0. split; [reflexivity|]. split; [lia|]. split; [lia|]. split; [exact HI|]. split; [exact HU|].
    split; [rewrite zslice_nil, app_nil_r; exact HC|]. split; [lia|]. split; [exact HB|]. reflexivity.
Qed.
Lemma p6_forward cf e (full : Prop) b w : (full -> exists k, te_sl e = Some k /\ 65537 <= k) -> bytes us -> P6 full b w -> exists w', tcp_downstream_forward cf e w = Ok w' /\
  ((exists b', P6 full b' w' /\ zlen b <= zlen b' /\ (forall k, te_ru e = Some k -> 1 <= k -> 1 <= zlen (tw_uin w) -> zlen b < zlen b')) \/ PE full w').
Proof.
  intros HFull HBy (h0 & h1 & j & sent & die & E & L1 & L2 & HI & HU & HC & HS & HB & HFu). unfold tcp_downstream_forward. rewrite E. cbn [tc_state tc_local tc_up tc_sent tc_die tc_wanted tc_got tc_buf]. change (negb (6 =? 6)) with false. cbv iota zeta.
  set (n := h0 * 256 + h1) in *. pose proof (zlen_nonneg b) as Lb. assert (n < 65536) as Hn. { rewrite HI in HBy. inversion HBy as [|? ? B0 HB1]; subst. inversion HB1 as [|? ? B1 _]; subst. unfold byte in *. unfold n. lia. }
  assert (forall l x, zlen ((h0 :: h1 :: l) ++ x) = zlen l + 2 + zlen x) as LM by (intros; rewrite zlen_app, !zlen_cons; lia).
  destruct (_ || _) eqn:EC.
  - eexists. split; [reflexivity|]. right. split; [reflexivity|]. assert (zlen b = n) as EN. { destruct (Z.leb_spec n (zlen b)); [lia|]. cbn [orb] in EC. lia. }
    exists h0, h1, b, sent. cbn [close_both tw_c tw_uin tw_uout tw_cout tw_copen tw_uopen]. rewrite E. cbn [tc_local tc_up]. auto 12.
  - replace ((zlen b <? 0) || (zlen ((h0 :: h1 :: b) ++ j) <? 2 + zlen b + (n - zlen b))) with false by (rewrite LM; lia).
    pose proof (recv_ok true (te_ru e) (n - zlen b) (tw_uin w) ltac:(lia)) as HR. destruct (net_recv true (te_ru e) (n - zlen b) (tw_uin w)) as [[[|x l]|] rest].
    + exists w. split; [reflexivity|]. left. exists b. split; [exists h0, h1, j, sent, die; fold n; auto 12|]. split; [lia|]. destruct HR as (_ & _ & _ & y & -> & Hy). intros k [= <-] K A. rewrite zlen_nil in Hy. lia.
    + destruct HR as (_ & HL & ES & y & EY & Hy). replace (2 + zlen b) with (zlen (h0 :: h1 :: b)) by (rewrite !zlen_cons; lia). destruct (put_at_app (h0 :: h1 :: b) j (x :: l) ltac:(lia)) as (j' & -> & Lj & _). cbn [bind].
      set (b' := b ++ x :: l). change ((h0 :: h1 :: b) ++ x :: l) with (h0 :: h1 :: b'). set (len := zlen (x :: l)) in *. assert (zlen b' = zlen b + len) as LB by apply zlen_app. assert (1 <= len) as L1' by (unfold len; rewrite zlen_cons; pose proof (zlen_nonneg l); lia).
      pose proof (zlen_nonneg j') as LJ'. rewrite <- LB. destruct (net_send_ok true (te_sl e) ((h0 :: h1 :: b') ++ j') sent (zlen b' - sent + 2)) as (r & -> & HX); [lia|lia|rewrite LM; lia|]. cbn [bind].
      assert (us = h0 :: h1 :: b' ++ rest) as EU by (unfold b'; rewrite HI at 1; rewrite ES, <- app_assoc; reflexivity).
      assert (zslice (h0 :: h1 :: b) 0 sent = zslice (h0 :: h1 :: b') 0 sent) as EZ. { change (h0 :: h1 :: b') with ((h0 :: h1 :: b) ++ x :: l). rewrite zslice_app_l; [reflexivity|lia|lia|rewrite !zlen_cons; lia]. }
      assert (zlen b' <> 0) as NZ by lia.
      assert (forall out sent' die', tw_cout w ++ out = c0 ++ zslice (h0 :: h1 :: b') 0 sent' -> 0 <= sent' <= zlen b' + 2 -> (full -> sent' = zlen b' + 2) ->
        P6 full b' (mktw (mktc true true (Some ((h0 :: h1 :: b') ++ j')) n (zlen b') sent' 6 die') (tw_cin w) (tw_cout w ++ out) (tw_copen w) rest (tw_uout w) (tw_uopen w) (tw_query w))) as KP.
      { intros out sent' die' A1 A2 A3. exists h0, h1, j', sent', die'. cbn [tw_c tw_uin tw_uout tw_cout]. fold n. split; [reflexivity|]. split; [lia|]. split; [lia|]. split; [exact EU|]. split; [exact HU|]. split; [exact A1|]. split; [exact A2|]. split; [exact HB|].
        intros F. replace (zlen b' =? 0) with false by lia. exact (A3 F). }
      assert (forall w', P6 full b' w' -> (exists b'', P6 full b'' w' /\ zlen b <= zlen b'' /\ (forall k, te_ru e = Some k -> 1 <= k -> 1 <= zlen (tw_uin w) -> zlen b < zlen b'')) \/ PE full w') as DONE.
      { intros w' H. left. exists b'. split; [exact H|]. split; [lia|]. intros; lia. }
      assert (r = None \/ r = Some [] -> full -> False) as NF.
      { intros A F. destruct (HFull F) as (k & EK & HK). destruct A as [-> | ->].
        - destruct HX as [X|X]; [discriminate|congruence].
        - destruct HX as (_ & z & EZ' & _ & LZ). rewrite EK in EZ'. injection EZ' as <-. rewrite zlen_nil in LZ. lia. }
      destruct r as [[|o out]|].
      * eexists. split; [reflexivity|]. apply DONE, KP; [rewrite app_nil_r, HC, EZ; reflexivity|lia|]. intros F. exfalso. exact (NF (or_intror eq_refl) F).
      * destruct HX as (_ & z & EZ' & EO & LZ). assert (1 <= Z.min z (zlen b' - sent + 2)) as Hz by (rewrite zlen_cons in LZ; pose proof (zlen_nonneg out); lia).
        assert (tw_cout w ++ o :: out = c0 ++ zslice (h0 :: h1 :: b') 0 (sent + zlen (o :: out))) as EOut.
        { rewrite HC, EZ, <- app_assoc. f_equal. rewrite (zslice_split (h0 :: h1 :: b') 0 sent) by lia. f_equal. rewrite LZ, EO, Z.add_0_l. rewrite zslice_app_l; [f_equal; lia|lia|lia|rewrite !zlen_cons; lia]. }
        assert (full -> sent + zlen (o :: out) = zlen b' + 2) as HFl. { intros F. destruct (HFull F) as (k & EK & HK). rewrite EK in EZ'. injection EZ' as <-. lia. }
        destruct (negb (zlen (o :: out) =? len)); [eexists; split; [reflexivity|]; apply DONE, KP; [exact EOut|lia|exact HFl]|].
        destruct (Z.eqb_spec n (zlen b')) as [EN|EN]; (eexists; split; [reflexivity|]); [|apply DONE, KP; [exact EOut|lia|exact HFl]].
        right. split; [reflexivity|]. exists h0, h1, b', (sent + zlen (o :: out)). cbn [close_both tw_c tw_uin tw_uout tw_cout tw_copen tw_uopen tc_local tc_up]. fold n. split; [lia|]. split; [exact EU|]. split; [exact HU|]. split; [exact EOut|]. split; [lia|]. split; [reflexivity|]. split; [reflexivity|].
        intros F. replace (zlen b' =? 0) with false by lia. exact (HFl F).
      * eexists. split; [reflexivity|]. apply DONE, KP; [rewrite app_nil_r, HC, EZ; reflexivity|lia|]. intros F. exfalso. exact (NF (or_introl eq_refl) F).
    + exists w. split; [reflexivity|]. left. exists b. split; [exists h0, h1, j, sent, die; fold n; auto 12|]. split; [lia|]. destruct HR as (_ & [X|X]); [discriminate|]. rewrite X. discriminate.
Qed.
End Upstream.
