(** Decompression yields what the message says. *)
From Verif Require Import CBase Bits SpecNames SpecMessage SpecDeadwoodMsg SpecDwStr ModelDwStr ModelDwCompress ProofDwStr ProofDwCompressSafe.

Lemma zlen_wire_pos n : 1 <= zlen (wire n).
Proof. destruct n as [|l n]; cbn [wire]; rewrite zlen_cons; [change (zlen (@nil Z)) with 0; lia|]. pose proof (zlen_nonneg (l ++ wire n)). lia. Qed.
Fixpoint wirel (n : name) : list Z := match n with [] => [] | l :: n => zlen l :: l ++ wirel n end.
Lemma wire_app a b : wire (a ++ b) = wirel a ++ wire b.
Proof. induction a as [|l a IH]; cbn [app wire wirel]; [reflexivity|]. rewrite IH, app_assoc. reflexivity. Qed.
Lemma wire_wirel a : wire a = wirel a ++ [0].
Proof. rewrite <- (app_nil_r a) at 1. apply wire_app. Qed.
Lemma zlen_wirel a : zlen (wire a) - 1 = zlen (wirel a).
Proof. rewrite wire_wirel, zlen_app. change (zlen [0]) with 1. lia. Qed.
Lemma bytes_wire n : good_name n -> bytes (wire n).
Proof.
  intros G. induction G as [|l n (Hl & Hb) G IH]; cbn [wire]; [repeat constructor; unfold byte; lia|]. constructor; [unfold byte; lia|]. apply bytes_app. auto.
Qed.

Lemma zlen_u16be v : zlen (u16be v) = 2. Proof. reflexivity. Qed.
Lemma be16_mid A v B : be16 (A ++ u16be v ++ B) (zlen A) = v mod 65536.
Proof.
  unfold be16. pose proof (zlen_nonneg A). rewrite (zget_app_r A _ (zlen A)), (zget_app_r A _ (zlen A + 1)) by lia. rewrite Z.sub_diag. replace (zlen A + 1 - zlen A) with 1 by lia. rewrite (zget_app_l _ _ 0), (zget_app_l _ _ 1) by (rewrite zlen_u16be; lia).
  unfold u16be. change (zget [Z.land (Z.shiftr (u16 v) 8) 255; Z.land (u16 v) 255] 0) with (Some (Z.land (Z.shiftr (u16 v) 8) 255)).
  change (zget [Z.land (Z.shiftr (u16 v) 8) 255; Z.land (u16 v) 255] 1) with (Some (Z.land (u16 v) 255)). cbv iota. rewrite !land_255, Z.shiftr_div_pow2 by lia. change (2 ^ 8) with 256. unfold u16.
  assert (0 <= v mod 65536 < 65536) by lia. set (w := v mod 65536) in *. rewrite (Z.mod_small (w / 256)) by (split; [apply Z.div_pos; lia|apply Z.div_lt_upper_bound; lia]). pose proof (Z.div_mod w 256 ltac:(lia)). lia.
Qed.
Lemma u16be_mod v w : v mod 65536 = w mod 65536 -> u16be v = u16be w.
Proof. intros E. unfold u16be, u16. rewrite E. reflexivity. Qed.
Lemma splice_mid (A X Y B : list Z) : zlen X = zlen Y -> splice (A ++ X ++ B) (zlen A) Y = A ++ Y ++ B.
Proof.
  intros E. unfold splice, zlen in *. rewrite Nat2Z.id. rewrite firstn_app, firstn_all, Nat.sub_diag. cbn [firstn]. rewrite app_nil_r. f_equal. f_equal.
  rewrite skipn_app. rewrite skipn_all2 by lia. cbn [app]. rewrite skipn_app. rewrite skipn_all2 by lia. cbn [app].
  replace (length A + length Y - length A - length X)%nat with 0%nat by lia. reflexivity.
Qed.
Lemma layout_desc type : match layout type with
  | None => dwc_type_desc type = 0
  | Some (lead, n, tail) => 0 < dwc_type_desc type /\ desc_lead (dwc_type_desc type) = lead /\ Z.to_nat (desc_names (dwc_type_desc type)) = n /\ desc_tail (dwc_type_desc type) = tail end.
Proof.
  unfold layout, dwc_type_desc. cbn [existsb].
  repeat (match goal with |- context [type =? ?c] => destruct (Z.eqb_spec type c) as [->|?] end; [vm_compute; repeat split; reflexivity|]). reflexivity.
Qed.
Lemma layout_some type lead n tail : layout type = Some (lead, n, tail) -> 0 <= lead <= 6 /\ 0 <= tail <= 20.
Proof. unfold layout. repeat (match goal with |- context [if ?c then _ else _] => destruct c end; [intros E; injection E as <- <- <-; lia|]). discriminate. Qed.
Lemma u16be_num16 v : 0 <= v < 65536 -> u16be v = num16 v.
Proof. intros. apply u16be_small. assumption. Qed.
Lemma zlen_offset_table rs : forall s, zlen (offset_table s rs) = 4 * Z.of_nat (length rs).
Proof. induction rs as [|r rs IH]; intros s; cbn [offset_table length]; [reflexivity|]. repeat rewrite zlen_app. rewrite IH. change (zlen (num16 s)) with 2. change (zlen (num16 (s + zlen (wire (rr_owner r))))) with 2. lia. Qed.

Section MSG.
  Variable J : Z -> Z.
  Hypothesis HJ : junk_ok J.
  Variables inp q : dwstr.
  Hypothesis Di : dok inp.
  Hypothesis Dq : dok q.
  Variables header class body trail qt : list Z.
  Variable qn : name.
  Hypothesis Hq : con q = wire qn ++ qt.
  Hypothesis Hqt : zlen qt = 2.
  Hypothesis Hgq : good_name qn.
  Hypothesis Hh : zlen header = 12.
  Hypothesis Hc : zlen class = 2.
  Hypothesis Hi : con inp = body ++ trail.
  Hypothesis Ht : zlen trail = 7.
  Let m := message header (con q) class body.
  Let S0 := 14 + d_len q.
  Let T := pointer_ok qn S0.

  Lemma zlen_m : zlen m = S0 + zlen body.
  Proof. subst m S0. unfold message. repeat rewrite zlen_app. rewrite zlen_con by auto. lia. Qed.
  Lemma len_inp : d_len inp = zlen body + 7.
  Proof. rewrite <- (zlen_con inp) by auto. rewrite Hi, zlen_app. lia. Qed.
  Lemma len_q : d_len q = zlen (wire qn) + 2.
  Proof. rewrite <- (zlen_con q) by auto. rewrite Hq, zlen_app. lia. Qed.
  Lemma get_body p : S0 <= p < zlen m -> zget m p = zget (d_mem inp) (p - S0).
  Proof.
    intros Hp. rewrite zlen_m in Hp. pose proof len_inp. pose proof (dwf_len _ (dok_dwf _ Dq)). rewrite <- (zget_con inp) by (auto; lia). subst m S0. unfold message.
    repeat rewrite zget_app_r by (rewrite ?zlen_con by auto; lia). rewrite Hi. rewrite zget_app_l by (rewrite ?zlen_con by auto; lia). f_equal. rewrite zlen_con by auto. lia.
  Qed.
  Lemma get_q p : 12 <= p < 12 + d_len q -> zget m p = zget (d_mem q) (p - 12).
  Proof.
    intros Hp. rewrite <- (zget_con q) by (auto; lia). subst m. unfold message. rewrite zget_app_r by lia. rewrite zget_app_l by (rewrite ?zlen_con by auto; lia). f_equal. lia.
  Qed.
  Lemma slice_body p n : S0 <= p -> 0 <= n -> p + n <= zlen m -> zslice m p n = zslice (con inp) (p - S0) n.
  Proof.
    intros Hp Hn He. rewrite zlen_m in He. pose proof len_inp. pose proof (dwf_len _ (dok_dwf _ Dq)). subst m. unfold message.
    repeat rewrite zslice_app_r by (repeat rewrite ?zlen_app, ?zlen_con by auto; subst S0; lia).
    rewrite Hi. rewrite zslice_app_l by (repeat rewrite ?zlen_app, ?zlen_con by auto; subst S0; lia). rewrite !zlen_con by auto. f_equal. subst S0. lia.
  Qed.

  (** Names in the question. *)
  Lemma q_at before l rest : qn = before ++ l :: rest -> forall p, p = zlen (wire before) - 1 ->
    zget (con q) p = Some (zlen l) /\ zslice (con q) (p + 1) (zlen l) = l /\ 1 <= zlen l <= 63 /\ p + 1 + zlen l < d_len q /\ 0 <= p.
  Proof.
    intros E p ->. pose proof (zlen_nonneg (wirel before)). rewrite zlen_wirel. pose proof len_q as Lq. rewrite E in Lq. rewrite wire_app in Lq. cbn [wire] in Lq.
    rewrite Hq, E, wire_app. cbn [wire]. repeat rewrite ?zlen_app, ?zlen_cons in Lq. pose proof (zlen_wire_pos rest).
    assert (good_label l) as (Hl & _) by (unfold good_name in Hgq; rewrite E in Hgq; apply Forall_app in Hgq as (_ & Hg); inversion Hg; assumption).
    rewrite <- app_assoc. cbn [app]. rewrite zget_app_r, Z.sub_diag by lia. rewrite zget_cons_0. split; [reflexivity|]. split; [|lia].
    rewrite zslice_app_r by (repeat rewrite ?zlen_app, ?zlen_cons; lia). replace (zlen (wirel before) + 1 - zlen (wirel before)) with 1 by lia.
    change (zlen l :: (l ++ wire rest) ++ qt) with ([zlen l] ++ (l ++ wire rest) ++ qt). rewrite zslice_app_r by (repeat rewrite ?zlen_app; change (zlen [zlen l]) with 1; lia).
    change (1 - zlen [zlen l]) with 0. rewrite <- app_assoc. rewrite zslice_app_l by lia. apply zslice_all.
  Qed.
  Lemma q_end p : p = zlen (wire qn) - 1 -> zget (con q) p = Some 0 /\ 0 <= p < d_len q.
  Proof.
    intros ->. pose proof len_q. pose proof (zlen_wire_pos qn). rewrite zlen_wirel in *. rewrite Hq, wire_wirel, <- app_assoc. rewrite zget_app_r, Z.sub_diag by lia. split; [reflexivity|].
    pose proof (zlen_nonneg (wirel qn)). pose proof (zlen_wirel qn). lia.
  Qed.
  Lemma before_snoc before l : zlen (wire (before ++ [l])) - 1 = zlen (wire before) - 1 + 1 + zlen l.
  Proof. rewrite !zlen_wirel. induction before as [|x b IH]; cbn [app wirel]; repeat rewrite ?zlen_cons, ?zlen_app; [change (zlen (@nil Z)) with 0; lia|lia]. Qed.
  Lemma q_name rest : forall before, qn = before ++ rest -> forall k p n e, p = 12 + zlen (wire before) - 1 -> name_at T m k p n e -> n = rest /\ k = S (length rest).
  Proof.
    induction rest as [|l rest IH]; intros before E k p n e -> H.
    - rewrite app_nil_r in E. subst before. destruct (q_end _ eq_refl) as (G & R). rewrite zget_con in G by (auto; lia).
      assert (zget m (12 + zlen (wire qn) - 1) = Some 0) as G0 by (rewrite get_q by lia; rewrite <- G; f_equal; lia).
      inversion H as [p Hp|k0 p l n0 e0 Hl Hp Hs Hn|k0 p hi lo n0 e0 Hp]; subst; [auto| |]; exfalso; rewrite G0 in Hp; injection Hp as Hp; lia.
    - destruct (q_at before l rest E _ eq_refl) as (G & Hs & Hl & R & R0). rewrite zget_con in G by (auto; lia).
      assert (zget m (12 + zlen (wire before) - 1) = Some (zlen l)) as G0 by (rewrite get_q by lia; rewrite <- G; f_equal; lia).
      pose proof (conj Logic.I E) as E'. clear E.
      inversion H as [p Hp|k0 p l0 n0 e0 Hl0 Hp Hs0 Hn|k0 p hi lo n0 e0 Hp]; subst; try (exfalso; rewrite G0 in Hp; injection Hp as Hp; lia).
      rewrite G0 in Hp. injection Hp as Hp.
      assert (l0 = l) as El.
      { pose proof zlen_m as Lm. unfold S0 in Lm. pose proof (zlen_nonneg body). transitivity (zslice (con q) (zlen (wire before) - 1 + 1) (zlen l)); [|exact Hs].
        rewrite <- Hs0 at 1. rewrite <- Hp. assert (zlen (con q) = d_len q) as Lcq by (apply zlen_con; auto). apply zlist_ext.
        - rewrite !zlen_zslice; lia.
        - intros i Hir. rewrite zlen_zslice in Hir by lia.
          rewrite !zget_zslice by lia. rewrite get_q by lia. rewrite zget_con by (auto; lia). f_equal. lia. }
      subst l0.
      destruct (IH (before ++ [l]) ltac:(rewrite <- app_assoc; exact (proj2 E')) k0 (12 + zlen (wire (before ++ [l])) - 1) n0 e eq_refl) as (-> & ->); [|auto].
      replace (12 + zlen (wire (before ++ [l])) - 1) with (12 + zlen (wire before) - 1 + 1 + zlen l) by (pose proof (before_snoc before l); lia). exact Hn.
  Qed.

  Definition fits (out : dwstr) (add : list Z) : Prop := d_len out + zlen add < d_max out.
  Definition added (out : dwstr) (add : list Z) (out' : dwstr) : Prop := dok out' /\ con out' = con out ++ add /\ d_max out' = d_max out.
  Lemma added_len out add out' : dok out -> added out add out' -> d_len out' = d_len out + zlen add.
  Proof. intros D (D' & C & _). apply (f_equal zlen) in C. rewrite zlen_app, !zlen_con in C by auto. exact C. Qed.
  Lemma added_trans a x b y c : added a x b -> added b y c -> added a (x ++ y) c.
  Proof. intros (D1 & C1 & M1) (D2 & C2 & M2). split; [exact D2|]. split; [rewrite C2, C1, app_assoc; reflexivity|congruence]. Qed.
  Lemma added_nil a : dok a -> added a [] a.
  Proof. intros D. split; [exact D|]. split; [rewrite app_nil_r; reflexivity|reflexivity]. Qed.

  Lemma copy_label src off l out (D : dok out) : dok src -> 0 <= off -> 1 <= zlen l <= 63 -> off + 1 + zlen l <= d_len src -> zget (con src) off = Some (zlen l) -> zslice (con src) (off + 1) (zlen l) = l ->
    fits out (zlen l :: l) -> exists tmp out', dw_substr J (Some src) off (zlen l + 1) 1 = Ok (Some tmp) /\ dw_append (Some tmp) out = Ok (0, out') /\ added out (zlen l :: l) out'.
  Proof.
    intros Ds Ho Hl He G Hs F. unfold fits in F. rewrite zlen_cons in F.
    destruct (dw_substr_ok J src off (zlen l + 1) 1 HJ Ds ltac:(lia) ltac:(lia) ltac:(lia) ltac:(lia) ltac:(lia)) as (tmp & E & Dt & Ct & _ & Lt).
    destruct (dw_append_ok tmp out Dt D ltac:(lia)) as (out' & E2 & D2 & C2 & M2). exists tmp, out'. split; [exact E|]. split; [exact E2|]. split; [exact D2|]. split; [|exact M2].
    rewrite C2, Ct. f_equal. rewrite Z.add_comm. rewrite zslice_split by lia. rewrite (zslice_one _ _ _ G), Hs. reflexivity.
  Qed.
  Lemma finish_ok out delta off followed t : dok out -> fits out [0] -> 0 <= off ->
    exists out', dwc_finish_name out delta off followed t = Ok (if followed then t else off + 1, out', if followed then delta + 1 else delta) /\ added out [0] out'.
  Proof.
    intros D F Ho. unfold fits in F. change (zlen [0]) with 1 in F. unfold dwc_finish_name. rewrite (dok_sane out D). cbn [negb orb]. replace (off <? 0) with false by lia.
    destruct (dw_addchar_ok out 0 D ltac:(unfold byte; lia) F) as (out' & -> & D' & C' & M'). cbn [bind]. exists out'. split; [reflexivity|]. split; auto.
  Qed.
  Lemma loop_q rest : forall before, qn = before ++ rest -> forall k out delta off t, (S (length rest) <= k)%nat -> off = zlen (wire before) - 1 -> dok out -> fits out (wire rest) ->
    exists out', decomp_loop k J inp q out delta off t true true = Ok (t, out', delta + zlen (wire rest)) /\ added out (wire rest) out'.
  Proof.
    pose proof (dwf_max _ (dok_dwf _ Dq)) as Mq. pose proof (dwf_len _ (dok_dwf _ Dq)) as Lq.
    induction rest as [|l rest IH]; intros before E k out delta off t Hk Ho D F; destruct k as [|k]; try lia; cbn [decomp_loop].
    - rewrite app_nil_r in E. rewrite <- E in Ho. destruct (q_end off Ho) as (G & R). rewrite u32_small by lia. replace (d_len q <? off + 1) with false by lia.
      rewrite rd_con by (auto; lia). rewrite (rd_of_zget _ _ _ G). cbn [bind]. change (192 <=? 0) with false. change (63 <? 0) with false. change (0 =? 0) with true. cbv iota.
      apply finish_ok; auto. lia.
    - destruct (q_at before l rest E off Ho) as (G & Hs & Hl & R & R0). rewrite u32_small by lia. replace (d_len q <? off + 1) with false by lia.
      rewrite rd_con by (auto; lia). rewrite (rd_of_zget _ _ _ G). cbn [bind]. replace (192 <=? zlen l) with false by lia. replace (63 <? zlen l) with false by lia. replace (zlen l =? 0) with false by lia.
      assert (fits out (zlen l :: l)) as F1 by (unfold fits in *; cbn [wire] in F; rewrite zlen_cons, zlen_app in F; rewrite zlen_cons; pose proof (zlen_wire_pos rest); lia).
      destruct (copy_label q off l out D Dq ltac:(lia) Hl ltac:(lia) G Hs F1) as (tmp & out1 & -> & E2 & A1). cbn [bind]. rewrite E2. cbn [bind].
      pose proof (added_len _ _ _ D A1) as L1. pose proof A1 as (D1 & _ & M1).
      destruct (IH (before ++ [l]) ltac:(rewrite <- app_assoc; exact E) k out1 (delta + (zlen l + 1)) (off + (zlen l + 1)) t ltac:(cbn [length] in Hk; lia)) as (out2 & E3 & A2).
      { rewrite before_snoc. lia. } { exact D1. } { unfold fits in *. rewrite L1, M1. cbn [wire] in F. rewrite zlen_cons, zlen_app in *. lia. }
      exists out2. split; [|exact (added_trans _ _ _ _ _ A1 A2)]. rewrite E3. f_equal. f_equal. cbn [wire]. rewrite zlen_cons, zlen_app. lia.
  Qed.
  Lemma name_at_pos k p n e : name_at T m k p n e -> p < e.
  Proof. intros H. induction H; lia. Qed.
  Lemma name_at_range k p n e : name_at T m k p n e -> 0 <= p /\ e <= zlen m.
  Proof.
    intros H. induction H as [p Hp|k p l n e Hl Hp Hs Hn IH|k p hi lo n e Hp Hhi Hlo HT Hn IH]; try (apply zget_range in Hp; lia).
    apply zget_range in Hlo. apply zget_range in Hp. lia.
  Qed.

  Lemma loop_name k p n e (H : name_at T m k p n e) : forall j out delta t followed, (k <= j)%nat -> S0 <= p -> dok out -> fits out (wire n) -> (followed = false -> delta = 0) ->
    exists out', decomp_loop j J inp q out delta (p - S0) t followed false =
      Ok (if followed then t else e - S0, out', if followed then delta + zlen (wire n) else zlen (wire n) - (e - p)) /\ added out (wire n) out'.
  Proof.
    pose proof (dwf_max _ (dok_dwf _ Di)) as Mi. pose proof (dwf_len _ (dok_dwf _ Di)) as Li. pose proof (dwf_len _ (dok_dwf _ Dq)) as Lq. pose proof len_inp as Ei. pose proof zlen_m as Lm.
    assert (0 <= S0) as HS0 by (unfold S0; lia).
    induction H as [p Hp|k p l n e Hl Hp Hs Hn IH|k p hi lo n e Hp Hhi Hlo HT Hn IH]; intros j out delta t followed Hj Hp0 D F Hd; destruct j as [|j]; try lia; cbn [decomp_loop];
      pose proof (zget_range _ _ _ Hp) as Rp; rewrite get_body in Hp by lia; rewrite u32_small by lia; replace (d_len inp <? p - S0 + 1) with false by lia; rewrite (rd_of_zget _ _ _ Hp); cbn [bind].
    - change (192 <=? 0) with false. change (63 <? 0) with false. change (0 =? 0) with true. cbv iota.
      destruct (finish_ok out delta (p - S0) followed t D F ltac:(lia)) as (out' & -> & A). exists out'. split; [|exact A]. f_equal. f_equal; [f_equal|]; destruct followed; auto; try lia.
      + change (zlen (wire [])) with 1. rewrite Hd by reflexivity. lia.
    - pose proof (name_at_pos _ _ _ _ Hn). pose proof (name_at_range _ _ _ _ Hn).
      replace (192 <=? zlen l) with false by lia. replace (63 <? zlen l) with false by lia. replace (zlen l =? 0) with false by lia.
      assert (fits out (zlen l :: l)) as F1 by (unfold fits in *; cbn [wire] in F; rewrite zlen_cons, zlen_app in F; rewrite zlen_cons; pose proof (zlen_wire_pos n); lia).
      rewrite slice_body in Hs by lia.
      destruct (copy_label inp (p - S0) l out D Di ltac:(lia) Hl ltac:(lia)) as (tmp & out1 & -> & E2 & A1); [rewrite zget_con by (auto; lia); exact Hp|rewrite <- Hs at 2; f_equal; lia|exact F1|].
      cbn [bind]. rewrite E2. cbn [bind]. pose proof (added_len _ _ _ D A1) as L1. pose proof A1 as (D1 & _ & M1).
      destruct (IH j out1 (if followed then delta + (zlen l + 1) else delta) t followed ltac:(lia) ltac:(lia) D1) as (out2 & E3 & A2).
      { unfold fits in *. rewrite L1, M1. cbn [wire] in F. rewrite zlen_cons, zlen_app in *. lia. } { destruct followed; [discriminate|exact Hd]. }
      exists out2. split; [|exact (added_trans _ _ _ _ _ A1 A2)]. replace (p - S0 + (zlen l + 1)) with (p + 1 + zlen l - S0) by lia. rewrite E3. cbn [wire]. rewrite zlen_cons, zlen_app.
      f_equal. f_equal. destruct followed; lia.
    - pose proof (zget_range _ _ _ Hlo) as Rlo. rewrite get_body in Hlo by lia. replace (192 <=? hi) with true by lia. cbv zeta.
      assert (0 <= lo < 256) as Blo by (eapply zget_bytes; [|exact Hlo]; apply Di).
      unfold dwc_decomp_offset. rewrite (dok_sane inp Di). cbn [negb]. replace (p - S0 <? 0) with false by lia. rewrite u32_small by lia. replace (d_len inp <? p - S0) with false by lia. cbn [orb].
      rewrite (rd_of_zget _ _ _ Hp). cbn [bind]. replace (hi <? 64) with false by lia. replace (p - S0 + 1) with (p + 1 - S0) by lia. rewrite (rd_of_zget _ _ _ Hlo). cbn [bind].
      rewrite land_63, Z.shiftl_mul_pow2 by lia. change (2 ^ 8) with 256. replace (hi mod 64) with (hi - 192) by lia. set (tgt := (hi - 192) * 256 + lo) in *.
      pose proof (name_at_pos _ _ _ _ Hn). pose proof (name_at_range _ _ _ _ Hn).
      destruct HT as [HT|(before & rest & Eq & HT)].
      + replace (tgt - 12 <? d_len q) with false by (unfold S0 in *; lia). cbn [andb]. replace (tgt - 12 - d_len q - 2) with (tgt - S0) by (unfold S0; lia).
        rewrite u32_small by lia. replace (tgt - S0 <? 0) with false by lia. replace (d_len inp <? tgt - S0) with false by lia. cbn [orb bind].
        replace (tgt - S0 =? -1) with false by lia. replace (tgt - S0 <? 0) with false by lia.
        destruct (IH j out (if followed then delta else -2) (if followed then t else p + 2 - S0) true ltac:(lia) HT D F ltac:(discriminate)) as (out1 & E1 & A1).
        exists out1. split; [|exact A1]. replace (if followed then t else p - S0 + 2) with (if followed then t else p + 2 - S0) by (destruct followed; lia). rewrite E1. f_equal. f_equal. destruct followed; lia.
      + pose proof len_q as Lqq. assert (zlen (wire before) <= zlen (wire qn)) by (rewrite Eq, wire_app, zlen_app, (wire_wirel before), zlen_app; change (zlen [0]) with 1; pose proof (zlen_wire_pos rest); lia).
        pose proof (zlen_wire_pos before).
        replace (tgt - 12 <? d_len q) with true by lia. replace (0 <? d_len q) with true by lia. cbn [andb bind]. replace (-2 - (tgt - 12) =? -1) with false by lia. replace (-2 - (tgt - 12) <? 0) with true by lia.
        destruct (q_name rest before Eq _ _ _ _ HT Hn) as (-> & ->).
        destruct (loop_q rest before Eq j out (if followed then delta else -2) (tgt - 12) (if followed then t else p + 2 - S0) ltac:(lia) ltac:(lia) D F) as (out1 & E1 & A1).
        exists out1. split; [|exact A1]. replace (-2 - (-2 - (tgt - 12))) with (tgt - 12) by lia. replace (if followed then t else p - S0 + 2) with (if followed then t else p + 2 - S0) by (destruct followed; lia).
        rewrite E1. f_equal. f_equal. destruct followed; lia.
  Qed.

  Lemma dname_ok k p n e out : name_at T m k p n e -> (k <= 200)%nat -> S0 <= p -> dok out -> fits out (wire n) ->
    exists out', dwc_decomp_dname J inp out q 0 (p - S0) = Ok (e - S0, out', zlen (wire n) - (e - p)) /\ added out (wire n) out'.
  Proof.
    intros H Hk Hp D F. unfold dwc_decomp_dname. rewrite (dok_sane inp Di), (dok_sane out D), (dok_sane q Dq). cbn [negb orb]. replace (p - S0 <? 0) with false by lia.
    exact (loop_name k p n e H 200%nat out 0 0 false Hk Hp D F (fun _ => eq_refl)).
  Qed.

  Lemma names_ok ns : forall p e out A v B, names_at T m 200 p ns e -> S0 <= p -> dok out -> d_max out <= 100000 -> con out = A ++ u16be v ++ B -> fits out (concat (map wire ns)) ->
    exists out', decomp_names (length ns) J inp out q (zlen A) (p - S0) = Ok (e - S0, out') /\ dok out' /\ d_max out' = d_max out /\
      con out' = A ++ u16be (v + zlen (concat (map wire ns)) - (e - p)) ++ B ++ concat (map wire ns).
  Proof.
    induction ns as [|n ns IH]; intros p e out A v B H Hp D Hm C F; inversion H as [p0 Ep|k p0 n0 e0 ns0 e' Hk Hn Hns]; subst; cbn [length decomp_names].
    - exists out. split; [reflexivity|]. split; [exact D|]. split; [reflexivity|]. cbn [map concat]. rewrite C, app_nil_r. do 2 f_equal. apply u16be_mod. change (zlen (@nil Z)) with 0. f_equal. lia.
    - cbn [map concat] in F. unfold fits in F. rewrite zlen_app in F. pose proof (zlen_nonneg (concat (map wire ns))). pose proof (name_at_pos _ _ _ _ Hn). pose proof (name_at_range _ _ _ _ Hn).
      destruct (dname_ok k p n e0 out Hn Hk Hp D) as (out1 & -> & A1); [unfold fits; lia|]. cbn [bind]. replace (e0 - S0 <? 0) with false by lia.
      pose proof (added_len _ _ _ D A1) as L1. pose proof A1 as (D1 & C1 & M1). rewrite C in C1. repeat rewrite <- app_assoc in C1.
      pose proof (zlen_nonneg A). pose proof (zlen_nonneg (B ++ wire n)).
      assert (d_len out1 = zlen A + 2 + zlen (B ++ wire n)) as L1' by (rewrite <- (zlen_con out1) by auto; rewrite C1; repeat rewrite zlen_app; rewrite zlen_u16be; lia).
      pose proof (dwf_max _ (dok_dwf _ D1)). pose proof (proj2 D1).
      destruct (dw_fetch_u16_ok out1 (zlen A) D1 ltac:(lia) ltac:(lia)) as (-> & _). cbn [bind].
      rewrite C1. rewrite be16_mid.
      destruct (dw_put_u16_ok out1 (v mod 65536 + (zlen (wire n) - (e0 - p))) (zlen A) D1 ltac:(lia) ltac:(lia) ltac:(lia)) as (out2 & -> & D2 & C2 & M2 & L2). cbn [bind].
      rewrite C1, splice_mid in C2 by reflexivity.
      destruct (IH e0 e out2 A _ (B ++ wire n) Hns ltac:(lia) D2 ltac:(lia) C2) as (out3 & -> & D3 & M3 & C3); [unfold fits; lia|].
      exists out3. split; [reflexivity|]. split; [exact D3|]. split; [lia|]. rewrite C3. cbn [map concat]. rewrite <- app_assoc. f_equal. f_equal. apply u16be_mod. rewrite zlen_app. lia.
  Qed.


  Lemma copy_slice off n out : dok out -> 0 <= off -> 0 <= n < 100000 -> off + n <= d_len inp -> fits out (zslice (con inp) off n) ->
    exists tmp out', dw_substr J (Some inp) off n 1 = Ok (Some tmp) /\ dw_append (Some tmp) out = Ok (0, out') /\ added out (zslice (con inp) off n) out'.
  Proof.
    intros D Ho Hn He F. unfold fits in F. rewrite zlen_zslice in F by (rewrite ?zlen_con by auto; lia).
    destruct (dw_substr_ok J inp off n 1 HJ Di ltac:(lia) ltac:(lia) ltac:(lia) ltac:(lia) ltac:(lia)) as (tmp & E & Dt & Ct & _ & Lt).
    destruct (dw_append_ok tmp out Dt D ltac:(lia)) as (out' & E2 & D2 & C2 & M2). exists tmp, out'. split; [exact E|]. split; [exact E2|]. split; [exact D2|]. split; [|exact M2].
    rewrite C2, Ct. reflexivity.
  Qed.
  Lemma names_at_pos ns : forall p e, names_at T m 200 p ns e -> 0 <= p -> p <= e /\ (p <= zlen m -> e <= zlen m).
  Proof.
    induction ns as [|n ns IH]; intros p e H Hp; inversion H as [p0 Ep|k p0 n0 e0 ns0 e' Hk Hn Hns]; subst; [lia|].
    pose proof (name_at_pos _ _ _ _ Hn). pose proof (name_at_range _ _ _ _ Hn). destruct (IH _ _ Hns ltac:(lia)). lia.
  Qed.

  Lemma rr_ok p r e out stack : rr_at T m 200 p r e -> S0 <= p -> dok out -> d_max out <= 65536 -> dok stack -> fits out (rr_plain r) ->
    let tab := num16 (d_len out) ++ num16 (d_len out + zlen (wire (rr_owner r))) in fits stack tab ->
    exists out' stack', dwc_decomp_rr J inp out q stack (p - S0) = Ok (e - S0, out', stack') /\ added out (rr_plain r) out' /\ added stack tab stack' /\ p < e.
  Proof.
    intros H Hp D Hm Dst F tab Fs. destruct H as [k o rdlength e2 Hk Hn Hty Hme Hrd Hfix He Hem Hlay]. subst tab.
    pose proof (dwf_max _ (dok_dwf _ Di)) as Mi. pose proof (dwf_len _ (dok_dwf _ Di)) as Li. pose proof (dwf_len _ (dok_dwf _ Dq)) as Lq. pose proof len_inp as Ei. pose proof zlen_m as Lm.
    assert (0 <= S0) as HS0 by (unfold S0; lia). pose proof (name_at_pos _ _ _ _ Hn). pose proof (name_at_range _ _ _ _ Hn). pose proof (zlen_wire_pos (rr_owner r)).
    unfold fits in F, Fs. unfold rr_plain in F. repeat rewrite zlen_app in F. change (zlen (num16 (rr_type r))) with 2 in F. change (zlen (num16 (zlen (rdata_plain r)))) with 2 in F. rewrite Hme in F.
    rewrite zlen_app in Fs. change (zlen (num16 (d_len out))) with 2 in Fs. change (zlen (num16 (d_len out + zlen (wire (rr_owner r))))) with 2 in Fs.
    pose proof (zlen_nonneg (rdata_plain r)) as Hrp. pose proof (dwf_len _ (dok_dwf _ D)) as Lo.
    unfold dwc_decomp_rr. rewrite (dok_sane inp Di), (dok_sane q Dq), (dok_sane out D), (dok_sane stack Dst). cbn [negb orb]. replace (p - S0 <? 0) with false by lia.
    destruct (dw_push_u16_ok stack (d_len out) Dst ltac:(lia)) as (st1 & -> & Ds1 & Cs1 & Ms1). cbn [bind]. rewrite u16be_num16 in Cs1 by lia.
    assert (added stack (num16 (d_len out)) st1) as As1 by (split; auto). pose proof (added_len _ _ _ Dst As1) as Ls1. change (zlen (num16 (d_len out))) with 2 in Ls1.
    destruct (dname_ok k p (rr_owner r) o out Hn Hk Hp D ltac:(unfold fits; lia)) as (out1 & -> & A1). cbn [bind]. pose proof (added_len _ _ _ D A1) as L1. pose proof A1 as (D1 & C1 & M1).
    rewrite !u32_small by lia. replace (o - S0 <? 0) with false by lia. replace (d_len inp - 7 <? o - S0) with false by lia. cbn [orb].
    destruct (dw_push_u16_ok st1 (d_len out1) Ds1 ltac:(lia)) as (st2 & -> & Ds2 & Cs2 & Ms2). cbn [bind]. rewrite u16be_num16 in Cs2 by lia. rewrite L1 in Cs2.
    assert (added stack (num16 (d_len out) ++ num16 (d_len out + zlen (wire (rr_owner r)))) st2) as As2 by (eapply added_trans; [exact As1|split; auto]).
    rewrite slice_body in Hfix by lia. set (oo := o - S0) in *.
    assert (forall i j, 0 <= i < 9 -> j = oo + i -> be16 (con inp) j = be16 (num16 (rr_type r) ++ rr_meta r ++ num16 rdlength) i) as Hbe.
    { intros i j Hi0 ->. rewrite <- Hfix. unfold be16. rewrite !zget_zslice by lia. rewrite Z.add_assoc. reflexivity. }
    destruct (dw_fetch_u16_ok inp oo Di ltac:(lia) ltac:(lia)) as (-> & _). cbn [bind].
    assert (be16 (con inp) oo = rr_type r) as Ety. { rewrite (Hbe 0) by lia. rewrite <- u16be_num16 by lia. etransitivity; [exact (be16_mid [] (rr_type r) _)|]. apply Z.mod_small. lia. }
    rewrite Ety. replace (rr_type r =? -1) with false by lia. cbv zeta.
    destruct (copy_slice oo 10 out1 D1 ltac:(lia) ltac:(lia) ltac:(lia)) as (tmp & out2 & -> & E2 & A2). { unfold fits. rewrite zlen_zslice by (rewrite ?zlen_con by auto; lia). lia. }
    cbn [bind]. rewrite E2. cbn [bind]. rewrite Hfix in A2. pose proof (added_len _ _ _ D1 A2) as L2. pose proof A2 as (D2 & C2 & M2).
    assert (zlen (num16 (rr_type r) ++ rr_meta r ++ num16 rdlength) = 10) as L10 by (repeat rewrite zlen_app; rewrite Hme; reflexivity). rewrite L10 in L2.
    destruct (dw_fetch_u16_ok inp (oo + 8) Di ltac:(lia) ltac:(lia)) as (-> & _). cbn [bind].
    assert (be16 (con inp) (oo + 8) = rdlength) as Erd.
    { rewrite (Hbe 8) by lia. rewrite app_assoc. rewrite <- (u16be_num16 rdlength) by lia. rewrite <- (app_nil_r (u16be rdlength)).
      replace 8 with (zlen (num16 (rr_type r) ++ rr_meta r)) by (rewrite zlen_app, Hme; reflexivity). rewrite be16_mid. apply Z.mod_small. lia. }
    rewrite Erd. pose proof (layout_desc (rr_type r)) as Hdesc. destruct (layout (rr_type r)) as [((lead & nn) & tail)|] eqn:Elay.
    - destruct Hdesc as (Hd0 & Hdl & Hdn & Hdt). destruct Hlay as (Hle & Hlead & Hnn & Hns & Htail & Hend). apply layout_some in Elay.
      destruct (names_at_pos _ _ _ Hns ltac:(lia)) as (Hp1 & Hp2). specialize (Hp2 Hle).
      replace (dwc_type_desc (rr_type r) =? 0) with false by lia.
      unfold dwc_decomp_rddata. rewrite (dok_sane inp Di), (dok_sane q Dq), (dok_sane out2 D2). cbn [negb orb]. replace (dwc_type_desc (rr_type r) <? 0) with false by lia. replace (oo <? 0) with false by lia. cbn [orb]. cbv zeta.
      rewrite Hdl, Hdt, Hdn.
      assert (zlen (rdata_plain r) = lead + zlen (concat (map wire (rr_names r))) + tail) as Lrd.
      { unfold rdata_plain. repeat rewrite zlen_app. rewrite Hlead, Htail. rewrite !zlen_zslice by lia. lia. }
      pose proof (zlen_nonneg (concat (map wire (rr_names r)))) as Hnw.
      rewrite slice_body in Hlead, Htail by lia.
      assert (exists out3, (if 0 <? lead
         then if d_len inp <? u32 (oo + 10 + lead) then Fail
          else tmp <- dw_substr J (Some inp) (oo + 10) lead 1 ;; '(code, out0) <- dw_append tmp out2 ;; (if code =? -1 then Fail else Ok (oo + 10 + lead, out0))
         else Ok (oo + 10, out2)) = Ok (oo + 10 + lead, out3) /\ added out2 (rr_lead r) out3) as (out3 & -> & A3).
      { destruct (Z.ltb_spec 0 lead).
        - rewrite u32_small by lia. replace (d_len inp <? oo + 10 + lead) with false by lia.
          destruct (copy_slice (oo + 10) lead out2 D2 ltac:(lia) ltac:(lia) ltac:(lia)) as (tmp3 & out3 & -> & E3 & A3). { unfold fits. rewrite zlen_zslice by (rewrite ?zlen_con by auto; lia). lia. }
          cbn [bind]. rewrite E3. cbn [bind]. exists out3. split; [reflexivity|]. rewrite Hlead. replace (o + 10 - S0) with (oo + 10) by lia. exact A3.
        - exists out2. replace lead with 0 in * by lia. split; [rewrite Z.add_0_r; reflexivity|]. rewrite Hlead, zslice_nil. apply added_nil. exact D2. }
      cbn [bind]. pose proof (added_len _ _ _ D2 A3) as L3. pose proof A3 as (D3 & C3 & M3).
      assert (zlen (rr_lead r) = lead) as Llead by (rewrite Hlead; rewrite zlen_zslice by (rewrite ?zlen_con by auto; lia); reflexivity).
      set (A := con out1 ++ num16 (rr_type r) ++ rr_meta r).
      assert (con out3 = A ++ u16be rdlength ++ rr_lead r) as C3' by (rewrite C3, C2, u16be_num16 by lia; unfold A; repeat rewrite <- app_assoc; reflexivity).
      assert (i32 (d_len out2 - 2) = zlen A) as ->. { unfold A. repeat rewrite zlen_app. rewrite zlen_con by auto. rewrite Hme. change (zlen (num16 (rr_type r))) with 2. rewrite i32_small by lia. lia. }
      rewrite <- Hnn. replace (oo + 10 + lead) with (o + 10 + lead - S0) by lia.
      destruct (names_ok (rr_names r) (o + 10 + lead) e2 out3 A rdlength (rr_lead r) Hns ltac:(lia) D3 ltac:(lia) C3') as (out4 & -> & D4 & M4 & C4); [unfold fits; lia|]. cbn [bind].
      assert (d_len out4 = d_len out3 + zlen (concat (map wire (rr_names r)))) as L4.
      { rewrite <- (zlen_con out4) by auto. rewrite C4. rewrite <- (zlen_con out3) by auto. rewrite C3'. repeat rewrite zlen_app. rewrite !zlen_u16be. lia. }
      assert (exists out5, (if 0 <? tail then if d_len inp <? u32 (e2 - S0 + tail) then Fail else tmp <- dw_substr J (Some inp) (e2 - S0) tail 1 ;; '(_, out0) <- dw_append tmp out4 ;; Ok (e2 - S0 + tail, out0)
          else Ok (e2 - S0, out4)) = Ok (e - S0, out5) /\ added out4 (rr_tail r) out5) as (out5 & -> & A5).
      { destruct (Z.ltb_spec 0 tail).
        - rewrite u32_small by lia. replace (d_len inp <? e2 - S0 + tail) with false by lia.
          destruct (copy_slice (e2 - S0) tail out4 D4 ltac:(lia) ltac:(lia) ltac:(lia)) as (tmp3 & out5 & -> & E3 & A5). { unfold fits. rewrite zlen_zslice by (rewrite ?zlen_con by auto; lia). lia. }
          cbn [bind]. rewrite E3. cbn [bind]. exists out5. split; [f_equal; f_equal; lia|]. rewrite Htail. exact A5.
        - exists out4. replace tail with 0 in * by lia. split; [f_equal; f_equal; lia|]. rewrite Htail, zslice_nil. apply added_nil. exact D4. }
      cbn [bind]. exists out5, st2. split; [reflexivity|]. split; [|split; [exact As2|lia]]. destruct A5 as (D5 & C5 & M5). split; [exact D5|]. split; [|lia].
      rewrite C5, C4. unfold rr_plain. rewrite <- (u16be_num16 (zlen (rdata_plain r))) by lia. unfold A. rewrite C1. unfold rdata_plain at 2. repeat rewrite <- app_assoc. do 4 f_equal. f_equal.
      apply u16be_mod. f_equal. lia.
    - rewrite Hdesc. change (0 =? 0) with true. cbv iota. destruct Hlay as (Hlead & Hnn & Htail & _). rewrite u32_small by lia. replace (d_len inp <? oo + 10 + rdlength) with false by lia.
      rewrite slice_body in Hlead by lia. assert (rdata_plain r = rr_lead r) as Erp by (unfold rdata_plain; rewrite Hnn, Htail; cbn [map concat app]; apply app_nil_r).
      assert (zlen (rr_lead r) = rdlength) as Llead by (rewrite Hlead; rewrite zlen_zslice by (rewrite ?zlen_con by auto; lia); reflexivity). rewrite Erp, Llead in F.
      destruct (copy_slice (oo + 10) rdlength out2 D2 ltac:(lia) ltac:(lia) ltac:(lia)) as (tmp3 & out3 & -> & E3 & A3). { unfold fits. rewrite zlen_zslice by (rewrite ?zlen_con by auto; lia). lia. }
      cbn [bind]. rewrite E3. cbn [bind]. exists out3, st2. split; [f_equal; f_equal; f_equal; lia|]. split; [|split; [exact As2|lia]].
      destruct A3 as (D3 & C3 & M3). split; [exact D3|]. split; [|lia]. rewrite C3, C2, C1. unfold rr_plain. rewrite Erp, Llead. rewrite Hlead. repeat rewrite <- app_assoc. do 5 f_equal. f_equal. lia.
  Qed.

  Lemma rrs_ok rs : forall j p out stack, rrs_at T m 200 p rs (S0 + zlen body) -> (length rs <= j)%nat -> S0 <= p -> dok out -> d_max out <= 65536 -> dok stack -> fits out (plain_records rs) -> fits stack (offset_table (d_len out) rs) ->
    exists out' stack', decompress_loop j J inp out q stack (p - S0) = Ok (out', stack') /\ added out (plain_records rs) out' /\ added stack (offset_table (d_len out) rs) stack'.
  Proof.
    pose proof (dwf_max _ (dok_dwf _ Di)) as Mi. pose proof (dwf_len _ (dok_dwf _ Di)) as Li. pose proof len_inp as Ei. pose proof (zlen_nonneg body) as Lb.
    induction rs as [|r rs IH]; intros j p out stack H Hj Hp D Hm Dst F Fs; inversion H as [p0 Ep|p0 r0 e0 rs0 e' Hr Hrs].
    - exists out, stack. cbn [plain_records map concat offset_table]. split; [|split; apply added_nil; assumption]. destruct j as [|j]; cbn [decompress_loop]; [reflexivity|].
      rewrite !u32_small by lia. replace (S0 + zlen body - S0 <? d_len inp - 7) with false by lia. reflexivity.
    - destruct j as [|j]; [cbn [length] in Hj; lia|]. cbn [decompress_loop]. unfold plain_records in F. cbn [map concat] in F. fold (plain_records rs) in F. unfold fits in F. rewrite zlen_app in F. pose proof (zlen_nonneg (plain_records rs)).
      unfold fits in Fs. rewrite zlen_offset_table in Fs. cbn [length] in Fs, Hj.
      destruct (rr_ok p r e0 out stack Hr Hp D Hm Dst) as (out1 & st1 & E1 & A1 & As1 & Hpe); [unfold fits; lia|unfold fits; rewrite zlen_app; change (zlen (num16 (d_len out))) with 2; change (zlen (num16 (d_len out + zlen (wire (rr_owner r))))) with 2; lia|].
      assert (S0 <= e0 /\ e0 <= S0 + zlen body) as (He1 & He2) by (split; [lia|]; destruct Hr; pose proof zlen_m; lia).
      rewrite !u32_small by lia. replace (p - S0 <? d_len inp - 7) with true by lia.
      rewrite E1. cbn [bind]. rewrite u32_small by lia. replace (e0 - S0 <? 0) with false by lia. replace (d_len inp - 7 <? e0 - S0) with false by lia. cbn [orb].
      pose proof (added_len _ _ _ D A1) as L1. pose proof A1 as (D1 & C1 & M1). pose proof (added_len _ _ _ Dst As1) as Ls1. pose proof As1 as (Ds1 & Cs1 & Ms1). rewrite zlen_app in Ls1.
      change (zlen (num16 (d_len out))) with 2 in Ls1. change (zlen (num16 (d_len out + zlen (wire (rr_owner r))))) with 2 in Ls1.
      destruct (IH j e0 out1 st1 Hrs ltac:(lia) He1 D1 ltac:(lia) Ds1) as (out2 & st2 & -> & A2 & As2); [unfold fits; lia|unfold fits; rewrite zlen_offset_table; lia|].
      exists out2, st2. split; [reflexivity|]. split; [unfold plain_records; cbn [map concat]; exact (added_trans _ _ _ _ _ A1 A2)|].
      cbn [offset_table]. rewrite app_assoc. rewrite <- L1. exact (added_trans _ _ _ _ _ As1 As2).
  Qed.

  Lemma decompress_ok Jo Js rs : junk_ok Jo -> junk_ok Js -> rrs_at T m 200 S0 rs (S0 + zlen body) -> (length rs <= 511)%nat ->
    zlen (plain_records rs) + 4 * Z.of_nat (length rs) + 7 < 2048 ->
    exists out, dwc_decompress Jo Js J q inp = Ok out /\ dok out /\ con out = plain_records rs ++ offset_table 0 rs ++ trail.
  Proof.
    intros HJo HJs H Hn Hfit. unfold dwc_decompress. rewrite (dok_sane inp Di), (dok_sane q Dq). cbn [negb orb]. pose proof (dwf_max _ (dok_dwf _ Di)) as Mi. pose proof (dwf_len _ (dok_dwf _ Di)) as Li.
    destruct (dw_create_ok Jo 2048 HJo ltac:(lia)) as (out & -> & Wo & Lo & Mo). destruct (dw_create_ok Js 2048 HJs ltac:(lia)) as (st & -> & Ws & Ls & Ms).
    assert (dok out) as D by (split; [exact Wo|lia]). assert (dok st) as Dst by (split; [exact Ws|lia]).
    destruct (rrs_ok rs (Z.to_nat 1000) S0 out st H ltac:(lia) ltac:(lia) D ltac:(lia) Dst) as (out1 & st1 & E1 & A1 & As1); [unfold fits; lia|unfold fits; rewrite zlen_offset_table; lia|].
    rewrite Z.sub_diag in E1. rewrite E1. cbn [bind]. pose proof (added_len _ _ _ D A1) as L1. pose proof A1 as (D1 & C1 & M1). pose proof (added_len _ _ _ Dst As1) as Ls1. pose proof As1 as (Ds1 & Cs1 & Ms1).
    rewrite zlen_offset_table in Ls1. destruct (dw_append_ok st1 out1 Ds1 D1 ltac:(lia)) as (out2 & -> & D2 & C2 & M2). cbn [bind].
    pose proof len_inp as Ei. pose proof (zlen_nonneg body).
    assert (dw_substr J (Some inp) (-7) (-1) 1 = dw_substr J (Some inp) (zlen body) 7 1) as ->.
    { unfold dw_substr. change (-7 <? 0) with true. change (-1 <? 0) with true. change (7 <? 0) with false. replace (zlen body <? 0) with false by lia. cbv zeta iota. rewrite (i32_small (d_len inp + -7)) by lia. rewrite i32_small by lia.
      replace (d_len inp + -7) with (zlen body) by lia. replace (d_len inp - zlen body + -1 + 1) with 7 by lia. reflexivity. }
    destruct (dw_substr_ok J inp (zlen body) 7 1 HJ Di ltac:(lia) ltac:(lia) ltac:(lia) ltac:(lia) ltac:(lia)) as (tmp & -> & Dt & Ct & Mt & Lt). cbn [bind].
    assert (d_len out2 = d_len out1 + d_len st1) as L2. { rewrite <- (zlen_con out2) by auto. rewrite C2, zlen_app, !zlen_con by auto. reflexivity. }
    destruct (dw_append_ok tmp out2 Dt D2 ltac:(lia)) as (out3 & -> & D3 & C3 & M3). cbn [bind]. exists out3. split; [reflexivity|]. split; [exact D3|].
    rewrite C3, C2, C1, Cs1, Ct, Hi. rewrite !con_nil by assumption. cbn [app]. rewrite zslice_app_r by lia. rewrite Z.sub_diag, <- Ht, zslice_all. rewrite Lo. rewrite <- app_assoc. reflexivity.
  Qed.
End MSG.

(** From the packet to the string that is decompressed. *)
Lemma dn_end_ok n : forall rest s off, dok s -> good_name n -> 0 <= off -> zslice (con s) off (zlen (wire n)) = wire n -> off + zlen (wire n) <= d_len s -> (length n < rest)%nat ->
  dn_end_loop rest s off = Ok (off + zlen (wire n)).
Proof.
  induction n as [|l n IH]; intros rest s off D G Ho Hs He Hr; destruct rest as [|rest]; try (cbn [length] in Hr; lia); cbn [dn_end_loop]; pose proof D as [[B L M Me] K]; pose proof (zlen_con s ltac:(auto)) as Lc.
  - change (zlen (wire [])) with 1 in *. rewrite u32_small by lia. replace (d_len s <? off + 1) with false by lia.
    assert (zget (con s) off = Some 0) as G0 by (apply (f_equal (fun l => zget l 0)) in Hs; rewrite zget_zslice, Z.add_0_r in Hs by lia; exact Hs).
    rewrite rd_con by (auto; lia). rewrite (rd_of_zget _ _ _ G0). cbn [bind]. reflexivity.
  - inversion G as [|? ? (Hl & Hb) G']; subst. cbn [wire] in Hs, He. rewrite zlen_cons, zlen_app in Hs, He. pose proof (zlen_wire_pos n).
    rewrite u32_small by lia. replace (d_len s <? off + 1) with false by lia.
    assert (zget (con s) off = Some (zlen l)) as G0 by (apply (f_equal (fun l => zget l 0)) in Hs; rewrite zget_zslice, Z.add_0_r in Hs by lia; exact Hs).
    rewrite rd_con by (auto; lia). rewrite (rd_of_zget _ _ _ G0). cbn [bind]. replace (192 <=? zlen l) with false by lia. replace (63 <? zlen l) with false by lia. replace (zlen l =? 0) with false by lia.
    rewrite (IH rest s (off + zlen l + 1)); auto; try lia.
    + cbn [wire]. rewrite zlen_cons, zlen_app. f_equal. lia.
    + apply (f_equal (fun x => zslice x (1 + zlen l) (zlen (wire n)))) in Hs. rewrite zslice_zslice in Hs by lia.
      replace (off + zlen l + 1) with (off + (1 + zlen l)) by lia. rewrite Hs. change (zlen l :: l ++ wire n) with ((zlen l :: l) ++ wire n).
      rewrite zslice_app_r by (rewrite ?zlen_cons; lia). rewrite zlen_cons. replace (1 + zlen l - (zlen l + 1)) with 0 by lia. apply zslice_all.
    + cbn [length] in Hr. lia.
Qed.
Lemma packet_to_cache_ok J raw len type header qn qt class body : junk_ok J -> bytes raw -> zslice raw 0 len = header ++ (wire qn ++ qt) ++ class ++ body -> len + 2 <= zlen raw -> 0 <= len < 1000000 -> byte type ->
  zlen header = 12 -> zlen qt = 2 -> zlen class = 2 -> good_name qn -> (length qn < 200)%nat ->
  exists s, dw_packet_to_cache J raw len type = Ok (Some s) /\ dok s /\ con s = body ++ zslice header 6 6 ++ [type].
Proof.
  intros HJ HB Hm Hr Hlm Hty Hh Hqt Hc Hg Hqn. unfold dw_packet_to_cache. set (hack := mkdw raw len (len + 1)). cbv zeta.
  assert (dok hack) as D by (split; [constructor|]; cbn [hack d_mem d_len d_max]; try assumption; lia). assert (d_len hack = len) as EL by reflexivity.
  assert (con hack = header ++ (wire qn ++ qt) ++ class ++ body) as C by exact Hm.
  assert (zlen body = len - 16 - zlen (wire qn)) as Lb. { pose proof (zlen_con hack ltac:(auto)) as L. rewrite C, EL in L. repeat rewrite zlen_app in L. lia. }
  clearbody hack. pose proof (zlen_nonneg body). pose proof (zlen_wire_pos qn).
  assert (bytes header) as Bh. { pose proof (bytes_con hack ltac:(auto)) as Bc. rewrite C in Bc. apply bytes_app in Bc. apply Bc. }
  assert (forall i, 0 <= i -> i + 2 <= 12 -> dw_fetch_u16 hack i = Ok (be16 header i) /\ 0 <= be16 header i < 65536 /\ u16be (be16 header i) = zslice header i 2) as HF.
  { intros i Hi1 Hi2. destruct (dw_fetch_u16_ok hack i D ltac:(lia) ltac:(lia)) as (E & R). assert (be16 (con hack) i = be16 header i) as Eb. { unfold be16. rewrite C. rewrite (zget_app_l _ _ i), (zget_app_l _ _ (i + 1)) by lia. reflexivity. }
    rewrite Eb in E, R. split; [exact E|]. split; [exact R|]. rewrite u16be_small by exact R. unfold be16. destruct (rd_byte header i Bh ltac:(lia)) as (a & _ & Ga & Ha). destruct (rd_byte header (i + 1) Bh ltac:(lia)) as (b & _ & Gb & Hb). rewrite Ga, Gb.
    change 2 with (1 + 1). rewrite zslice_split by lia. rewrite (zslice_one _ _ _ Ga), (zslice_one _ _ _ Gb). unfold byte in *. cbn [app]. f_equal; [lia|]. f_equal. lia. }
  destruct (HF 6 ltac:(lia) ltac:(lia)) as (-> & R6 & U6). destruct (HF 8 ltac:(lia) ltac:(lia)) as (-> & R8 & U8). destruct (HF 10 ltac:(lia) ltac:(lia)) as (-> & R10 & U10). cbn [bind].
  replace (be16 header 6 <? 0) with false by lia. replace (be16 header 8 <? 0) with false by lia. replace (be16 header 10 <? 0) with false by lia. cbn [orb].
  unfold dw_get_dn_end. rewrite (dok_sane hack D). cbn [negb]. rewrite (dn_end_ok qn 200 hack 12 D Hg ltac:(lia)); [|rewrite C|lia|lia].
  2:{ rewrite zslice_app_r by (repeat rewrite zlen_app; lia). rewrite Hh. change (12 - 12) with 0. rewrite <- app_assoc. rewrite zslice_app_l by lia. apply zslice_all. }
  cbn [bind]. replace (12 + zlen (wire qn) <? 0) with false by lia.
  assert (dw_substr J (Some hack) (12 + zlen (wire qn) + 4) (-1) 7 = dw_substr J (Some hack) (16 + zlen (wire qn)) (zlen body) 7) as ->.
  { unfold dw_substr. change (-1 <? 0) with true. replace (zlen body <? 0) with false by lia. replace (12 + zlen (wire qn) + 4) with (16 + zlen (wire qn)) by lia. replace (16 + zlen (wire qn) <? 0) with false by lia. cbv zeta iota.
    rewrite i32_small by lia. replace (d_len hack - (16 + zlen (wire qn)) + -1 + 1) with (zlen body) by lia. reflexivity. }
  destruct (dw_substr_ok J hack (16 + zlen (wire qn)) (zlen body) 7 HJ D ltac:(lia) ltac:(lia) ltac:(lia) ltac:(lia) ltac:(lia)) as (s0 & -> & D0 & C0 & M0 & L0). cbn [bind].
  assert (con s0 = body) as C0'.
  { rewrite C0, C. rewrite zslice_app_r by (repeat rewrite zlen_app; lia). rewrite zslice_app_r by (repeat rewrite zlen_app; lia). rewrite zlen_app. rewrite zslice_app_r by lia. replace (16 + zlen (wire qn) - zlen header - (zlen (wire qn) + zlen qt) - zlen class) with 0 by lia. apply zslice_all. }
  change (dw_put_u16 s0 (be16 header 6) (-1)) with (dw_push_u16 (be16 header 6) s0).
  destruct (dw_push_u16_ok s0 (be16 header 6) D0 ltac:(lia)) as (s1 & -> & D1 & C1 & M1). cbn [bind]. assert (d_len s1 = zlen body + 2) as L1 by (rewrite <- (zlen_con s1) by auto; rewrite C1, C0', zlen_app; reflexivity).
  change (dw_put_u16 s1 (be16 header 8) (-1)) with (dw_push_u16 (be16 header 8) s1).
  destruct (dw_push_u16_ok s1 (be16 header 8) D1 ltac:(lia)) as (s2 & -> & D2 & C2 & M2). cbn [bind]. assert (d_len s2 = zlen body + 4) as L2 by (rewrite <- (zlen_con s2) by auto; rewrite C2, C1, C0'; repeat rewrite zlen_app; change (zlen (u16be (be16 header 6))) with 2; change (zlen (u16be (be16 header 8))) with 2; lia).
  change (dw_put_u16 s2 (be16 header 10) (-1)) with (dw_push_u16 (be16 header 10) s2).
  destruct (dw_push_u16_ok s2 (be16 header 10) D2 ltac:(lia)) as (s3 & -> & D3 & C3 & M3). cbn [bind]. assert (d_len s3 = zlen body + 6) as L3 by (rewrite <- (zlen_con s3) by auto; rewrite C3, zlen_app, zlen_con by auto; change (zlen (u16be (be16 header 10))) with 2; lia).
  destruct (dw_addchar_ok s3 type D3 Hty ltac:(lia)) as (s4 & -> & D4 & C4 & M4). cbn [bind]. exists s4. split; [reflexivity|]. split; [exact D4|].
  rewrite C4, C3, C2, C1, C0', U6, U8, U10. repeat rewrite <- app_assoc. f_equal. change (zslice header 6 6) with (zslice header 6 (2 + 4)). rewrite (zslice_split header 6 2 4) by lia. change (zslice header (6 + 2) 4) with (zslice header (6 + 2) (2 + 2)). rewrite (zslice_split header (6 + 2) 2 2) by lia. change (6 + 2 + 2) with 10. change (6 + 2) with 8. repeat rewrite <- app_assoc. reflexivity.
Qed.
