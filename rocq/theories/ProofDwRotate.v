(** Rotation of a stored answer, and lower-casing. *)
From Verif Require Import CBase Bits SpecNames SpecMessage SpecDeadwoodMsg SpecDwStr SpecAnswer ModelDwStr ModelDwDnsStr ProofDwStr ProofDwCompressSafe ProofDwDecomp ProofDwDnsStr.

Lemma dw_substr_rest J s begin mx : dok s -> 0 <= begin <= d_len s -> dw_substr J (Some s) begin (-1) mx = dw_substr J (Some s) begin (d_len s - begin) mx.
Proof.
  intros D Hb. pose proof D as [[B L M Me] K]. unfold dw_substr. rewrite (dok_sane s D). cbn [negb]. cbv zeta. replace (begin <? 0) with false by lia. change (-1 <? 0) with true. cbv iota.
  rewrite i32_small by lia. replace (d_len s - begin + -1 + 1) with (d_len s - begin) by lia. replace (d_len s - begin <? 0) with false by lia. reflexivity.
Qed.

Section ROT.
  Variable J : Z -> Z.
  Hypothesis HJ : junk_ok J.

  Lemma substr_piece s X Y Z0 : dok s -> d_len s < 1000000 -> con s = X ++ Y ++ Z0 -> exists t, dw_substr J (Some s) (zlen X) (zlen Y) 1 = Ok (Some t) /\ dok t /\ con t = Y.
  Proof.
    intros D Hl C. pose proof (f_equal zlen C) as L. repeat rewrite zlen_app in L. rewrite zlen_con in L by auto. pose proof (zlen_nonneg X). pose proof (zlen_nonneg Y). pose proof (zlen_nonneg Z0).
    destruct (dw_substr_ok J s (zlen X) (zlen Y) 1 HJ D ltac:(lia) ltac:(lia) ltac:(lia) ltac:(lia) ltac:(lia)) as (t & E & Dt & Ct & _). exists t. split; [exact E|]. split; [exact Dt|].
    rewrite Ct, C. rewrite zslice_app_r, Z.sub_diag by (rewrite ?zlen_app; lia). rewrite zslice_app_l by lia. apply zslice_all.
  Qed.
  Lemma con_truncate s X Y : dok s -> con s = X ++ Y -> dok (mkdw (d_mem s) (zlen X) (d_max s)) /\ con (mkdw (d_mem s) (zlen X) (d_max s)) = X.
  Proof.
    intros D C. pose proof (f_equal zlen C) as L. rewrite zlen_app, zlen_con in L by auto. pose proof (zlen_nonneg X). pose proof (zlen_nonneg Y). pose proof D as [[B Ll M Me] K]. split.
    - split; [constructor|]; cbn [d_mem d_len d_max]; auto; lia.
    - unfold con. cbn [d_mem d_len]. rewrite zslice_con by (auto; lia). rewrite C, zslice_app_l by lia. apply zslice_all.
  Qed.
  Lemma append_con a t : dok a -> dok t -> d_len t + d_len a < d_max t -> exists t', dw_append (Some a) t = Ok (0, t') /\ dok t' /\ con t' = con t ++ con a /\ d_max t' = d_max t /\ d_len t' = d_len t + d_len a.
  Proof.
    intros Da Dt Hl. destruct (dw_append_ok a t Da Dt Hl) as (t' & E & D' & C' & M'). exists t'. do 4 (split; [assumption|]).
    pose proof (f_equal zlen C') as L. rewrite zlen_app, !zlen_con in L by auto. exact L.
  Qed.
  Lemma rotate_ok s A P1 P2 P3 : dok s -> d_len s < 1000000 -> con s = A ++ P1 ++ P2 ++ P3 -> P1 <> [] -> P2 <> [] -> P3 <> [] ->
    exists s', dw_rotate J s (zlen A) (zlen A + zlen P1) (zlen A + zlen P1 + zlen P2) = Ok (1, s') /\ dok s' /\ con s' = A ++ P2 ++ P1 ++ P3 /\ d_len s' = d_len s.
  Proof.
    intros D Hl C N1 N2 N3. pose proof (f_equal zlen C) as L. repeat rewrite zlen_app in L. rewrite zlen_con in L by auto. pose proof D as [[B Ll M Me] K].
    assert (forall l : list Z, l <> [] -> 1 <= zlen l) as Hpos by (intros [|x l] N; [congruence|rewrite zlen_cons; pose proof (zlen_nonneg l); lia]).
    pose proof (Hpos _ N1). pose proof (Hpos _ N2). pose proof (Hpos _ N3). pose proof (zlen_nonneg A).
    unfold dw_rotate. rewrite u32_small by lia. replace ((zlen A + zlen P1 <=? zlen A) || (zlen A + zlen P1 + zlen P2 <=? zlen A + zlen P1) || (d_len s <=? zlen A + zlen P1 + zlen P2)) with false by lia.
    replace (zlen A + zlen P1 - zlen A) with (zlen P1) by lia. destruct (substr_piece s A P1 (P2 ++ P3) D Hl) as (p1 & -> & D1 & C1); [rewrite C; reflexivity|]. cbn [bind].
    replace (zlen A + zlen P1 + zlen P2 - (zlen A + zlen P1)) with (zlen P2) by lia. rewrite <- (zlen_app A P1).
    destruct (substr_piece s (A ++ P1) P2 P3 D Hl) as (p2 & -> & D2 & C2); [rewrite C, <- app_assoc; reflexivity|]. cbn [bind].
    rewrite <- (zlen_app (A ++ P1) P2). rewrite dw_substr_rest by (auto; repeat rewrite zlen_app; lia). replace (d_len s - zlen ((A ++ P1) ++ P2)) with (zlen P3) by (repeat rewrite zlen_app; lia).
    destruct (substr_piece s ((A ++ P1) ++ P2) P3 [] D Hl) as (p3 & -> & D3 & C3); [rewrite C, app_nil_r; repeat rewrite <- app_assoc; reflexivity|]. cbn [bind].
    destruct (con_truncate s A (P1 ++ P2 ++ P3) D C) as (D0 & C0). set (s0 := mkdw (d_mem s) (zlen A) (d_max s)) in *.
    pose proof (zlen_con p1 ltac:(auto)) as L1. pose proof (zlen_con p2 ltac:(auto)) as L2. pose proof (zlen_con p3 ltac:(auto)) as L3. rewrite C1 in L1. rewrite C2 in L2. rewrite C3 in L3.
    assert (d_len s0 = zlen A /\ d_max s0 = d_max s) as (L0 & M0) by (split; reflexivity). clearbody s0.
    destruct (append_con p2 s0 D2 D0 ltac:(lia)) as (s1 & -> & Ds1 & Cs1 & Ms1 & Ls1). cbn [bind].
    destruct (append_con p1 s1 D1 Ds1 ltac:(lia)) as (s2 & -> & Ds2 & Cs2 & Ms2 & Ls2). cbn [bind].
    destruct (append_con p3 s2 D3 Ds2 ltac:(lia)) as (s3 & -> & Ds3 & Cs3 & Ms3 & Ls3). cbn [bind].
    exists s3. split; [reflexivity|]. split; [exact Ds3|]. split; [|lia]. rewrite Cs3, Cs2, Cs1, C0, C1, C2, C3. repeat rewrite <- app_assoc. reflexivity.
  Qed.
End ROT.

(** *** The offsets *)
Lemma flat16_pair a b L : flat16 (a :: b :: L) = num16 a ++ num16 b ++ flat16 L. Proof. reflexivity. Qed.
Lemma rotate_loop_ok d : 0 <= d -> forall rs s P T1 x y o Zt this first start sl, dok s -> d_len s < 1000000 -> con s = P ++ flat16 (T1 ++ [x; y] ++ offs o rs) ++ Zt -> zlen T1 = 2 * this ->
  d <= o -> o + zlen (plain_records rs) < 65536 -> Forall rr_fits rs -> (first = true -> start = o - d) -> (first = false -> sl = d) ->
  exists s' x' y' sl', rotate_loop (length rs) s (zlen P) this first start sl = Ok (s', sl') /\ dok s' /\ con s' = P ++ flat16 (T1 ++ offs (o - d) rs ++ [x'; y']) ++ Zt /\ d_len s' = d_len s /\
    (first = false \/ rs <> [] -> sl' = d).
Proof.
  intros Hd. induction rs as [|r rs IH]; intros s P T1 x y o Zt this first start sl D Hl C HT Ho HO F Hf1 Hf2; cbn [length rotate_loop].
  - exists s, x, y, sl. split; [reflexivity|]. split; [exact D|]. split; [exact C|]. split; [reflexivity|]. intros [E|N]; [apply Hf2; exact E|congruence].
  - inversion F as [|r0 rs0 Fr Frs]; subst r0 rs0. rewrite plain_records_cons, zlen_app in HO. pose proof (zlen_nonneg (plain_records rs)). pose proof (zlen_nonneg (rdata_plain r)).
    pose proof (zlen_rr_plain r Fr) as Lr. pose proof (zlen_wire_pos (rr_owner r)) as Lw. set (w := zlen (wire (rr_owner r))) in *. cbn [offs] in C. fold w in C.
    assert (con s = P ++ flat16 T1 ++ num16 x ++ num16 y ++ num16 o ++ num16 (o + w) ++ flat16 (offs (o + zlen (rr_plain r)) rs) ++ Zt) as C1.
    { rewrite C, flat16_app. cbn [app]. rewrite !flat16_pair. repeat rewrite <- app_assoc. reflexivity. }
    assert (zlen (flat16 T1) = 4 * this) as LT by (rewrite zlen_flat16; lia).
    replace (zlen P + (this + 1) * 4) with (zlen (P ++ flat16 T1 ++ num16 x ++ num16 y)) by (repeat rewrite zlen_app; rewrite !zlen_num16; lia).
    rewrite (fetch_mid s (P ++ flat16 T1 ++ num16 x ++ num16 y) o (num16 (o + w) ++ flat16 (offs (o + zlen (rr_plain r)) rs) ++ Zt) D) by (rewrite ?C1; repeat rewrite <- app_assoc; reflexivity || lia). cbn [bind].
    replace (zlen P + 2 + (this + 1) * 4) with (zlen (P ++ flat16 T1 ++ num16 x ++ num16 y ++ num16 o)) by (repeat rewrite zlen_app; rewrite !zlen_num16; lia).
    rewrite (fetch_mid s (P ++ flat16 T1 ++ num16 x ++ num16 y ++ num16 o) (o + w) (flat16 (offs (o + zlen (rr_plain r)) rs) ++ Zt) D) by (rewrite ?C1; repeat rewrite <- app_assoc; reflexivity || lia). cbn [bind].
    assert ((if first then o - start else sl) = d) as -> by (destruct first; [rewrite Hf1 by reflexivity; lia|apply Hf2; reflexivity]). cbv zeta.
    replace (zlen P + this * 4) with (zlen (P ++ flat16 T1)) by (rewrite zlen_app; lia).
    destruct (put_mid s (P ++ flat16 T1) (num16 x) (o - d) (num16 y ++ num16 o ++ num16 (o + w) ++ flat16 (offs (o + zlen (rr_plain r)) rs) ++ Zt) D) as (s1 & -> & D1 & Cs1 & _ & Ls1);
      [rewrite C1; repeat rewrite <- app_assoc; reflexivity|reflexivity|lia|]. cbn [bind].
    replace (zlen P + 2 + this * 4) with (zlen (P ++ flat16 T1 ++ num16 (o - d))) by (repeat rewrite zlen_app; rewrite zlen_num16; lia).
    destruct (put_mid s1 (P ++ flat16 T1 ++ num16 (o - d)) (num16 y) (o + w - d) (num16 o ++ num16 (o + w) ++ flat16 (offs (o + zlen (rr_plain r)) rs) ++ Zt) D1) as (s2 & -> & D2 & Cs2 & _ & Ls2);
      [rewrite Cs1, Z.mod_small by lia; repeat rewrite <- app_assoc; reflexivity|reflexivity|lia|]. cbn [bind].
    rewrite Z.mod_small in Cs2 by lia.
    destruct (IH s2 P (T1 ++ [o - d; o + w - d]) o (o + w) (o + zlen (rr_plain r)) Zt (this + 1) false start d D2) as (s' & x' & y' & sl' & E & D' & C' & L' & Hsl); auto; try lia.
    + rewrite Cs2. repeat rewrite flat16_app. cbn [app]. rewrite !flat16_pair. repeat rewrite <- app_assoc. reflexivity.
    + rewrite zlen_app. change (zlen [o - d; o + w - d]) with 2. lia.
    + exists s', x', y', sl'. split; [exact E|]. split; [exact D'|]. split; [|split; [lia|intros _; apply Hsl; left; reflexivity]].
      rewrite C'. cbn [offs]. fold w. replace (o - d + w) with (o + w - d) by lia. replace (o - d + zlen (rr_plain r)) with (o + zlen (rr_plain r) - d) by lia. repeat rewrite <- app_assoc. reflexivity.
Qed.

Lemma rotate_offsets_ok s P cn r0 rs Zt : dok s -> d_len s < 65536 -> con s = P ++ flat16 (offs 0 (cn ++ r0 :: rs)) ++ Zt -> zlen Zt = 7 -> Forall rr_fits (r0 :: rs) -> rs <> [] ->
  zlen P = zlen (plain_records (cn ++ r0 :: rs)) ->
  exists s', dwc_rotate_offsets s (zlen P) (zlen cn) (zlen (cn ++ r0 :: rs)) = Ok (1, s') /\ dok s' /\ con s' = P ++ flat16 (offs 0 (cn ++ rs ++ [r0])) ++ Zt /\ d_len s' = d_len s.
Proof.
  intros D Hl C HZ F Hne HP. inversion F as [|r1 rs1 Fr Frs]; subst r1 rs1. pose proof (zlen_rr_plain r0 Fr) as Lr. pose proof (zlen_wire_pos (rr_owner r0)) as Lw. pose proof (zlen_nonneg (rdata_plain r0)).
  pose proof (f_equal zlen C) as L. repeat rewrite zlen_app in L. rewrite zlen_con in L by auto. rewrite zlen_flat16, zlen_offs in L.
  assert (1 <= zlen rs) as Hrs by (destruct rs; [congruence|rewrite zlen_cons; pose proof (zlen_nonneg rs); lia]). pose proof (zlen_nonneg cn). pose proof (zlen_nonneg P).
  rewrite plain_records_app, plain_records_cons in HP. repeat rewrite zlen_app in HP. pose proof (zlen_nonneg (plain_records rs)). pose proof (zlen_nonneg (plain_records cn)). pose proof (zlen_nonneg (rdata_plain r0)).
  rewrite zlen_app, zlen_cons in L. unfold dwc_rotate_offsets. rewrite zlen_app, zlen_cons.
  replace ((zlen cn + (zlen rs + 1) <=? zlen cn) || (zlen cn <? 0)) with false by lia. replace (zlen cn =? zlen cn + (zlen rs + 1) - 1) with false by lia.
  replace (zlen P + (zlen cn + (zlen rs + 1)) * 4 =? d_len s - 7) with true by lia. cbn [negb].
  rewrite offs_app in C. cbn [offs] in C. rewrite Z.add_0_l in C. set (b := zlen (plain_records cn)) in *. set (w := zlen (wire (rr_owner r0))) in *.
  assert (con s = P ++ flat16 (offs 0 cn) ++ num16 b ++ num16 (b + w) ++ flat16 (offs (b + zlen (rr_plain r0)) rs) ++ Zt) as C1.
  { rewrite C, flat16_app, flat16_pair. repeat rewrite <- app_assoc. reflexivity. }
  assert (zlen (flat16 (offs 0 cn)) = 4 * zlen cn) as LT by (rewrite zlen_flat16, zlen_offs; lia).
  replace (zlen P + zlen cn * 4) with (zlen (P ++ flat16 (offs 0 cn))) by (rewrite zlen_app; lia).
  rewrite (fetch_mid s (P ++ flat16 (offs 0 cn)) b (num16 (b + w) ++ flat16 (offs (b + zlen (rr_plain r0)) rs) ++ Zt) D) by (rewrite ?C1; repeat rewrite <- app_assoc; reflexivity || lia). cbn [bind].
  replace (zlen P + 2 + zlen cn * 4) with (zlen (P ++ flat16 (offs 0 cn) ++ num16 b)) by (repeat rewrite zlen_app; rewrite zlen_num16; lia).
  rewrite (fetch_mid s (P ++ flat16 (offs 0 cn) ++ num16 b) (b + w) (flat16 (offs (b + zlen (rr_plain r0)) rs) ++ Zt) D) by (rewrite ?C1; repeat rewrite <- app_assoc; reflexivity || lia). cbn [bind].
  replace (Z.to_nat (zlen cn + (zlen rs + 1) - 1 - zlen cn)) with (length rs) by (unfold zlen; lia).
  destruct (rotate_loop_ok (zlen (rr_plain r0)) ltac:(lia) rs s P (offs 0 cn) b (b + w) (b + zlen (rr_plain r0)) Zt (zlen cn) true b 0) as (s1 & x' & y' & sl & -> & D1 & Cs1 & Ls1 & Hsl); auto; try lia.
  { rewrite zlen_offs. lia. }
  rewrite Hsl by (right; exact Hne). cbn [bind]. replace (b + zlen (rr_plain r0) - zlen (rr_plain r0)) with b in Cs1 by lia.
  set (O' := flat16 (offs 0 cn) ++ flat16 (offs b rs)). assert (zlen O' = 4 * (zlen cn + zlen rs)) as LO by (unfold O'; rewrite zlen_app, !zlen_flat16, !zlen_offs; lia).
  assert (con s1 = P ++ O' ++ num16 x' ++ num16 y' ++ Zt) as Cs1'. { rewrite Cs1. repeat rewrite flat16_app. change (flat16 [x'; y']) with (num16 x' ++ num16 y'). unfold O'. repeat rewrite <- app_assoc. reflexivity. }
  replace (zlen P + (zlen cn + (zlen rs + 1) - 1) * 4) with (zlen (P ++ O')) by (rewrite zlen_app; lia).
  destruct (put_mid s1 (P ++ O') (num16 x') (zlen P - zlen (rr_plain r0)) (num16 y' ++ Zt) D1) as (s2 & -> & D2 & Cs2 & _ & Ls2); [rewrite Cs1'; repeat rewrite <- app_assoc; reflexivity|reflexivity|lia|]. cbn [bind].
  rewrite Z.mod_small in Cs2 by lia.
  replace (zlen P + 2 + (zlen cn + (zlen rs + 1) - 1) * 4) with (zlen (P ++ O' ++ num16 (zlen P - zlen (rr_plain r0)))) by (repeat rewrite zlen_app; rewrite zlen_num16; lia).
  destruct (put_mid s2 (P ++ O' ++ num16 (zlen P - zlen (rr_plain r0))) (num16 y') (zlen P - zlen (rr_plain r0) + (b + w - b)) Zt D2) as (s3 & -> & D3 & Cs3 & _ & Ls3);
    [rewrite Cs2; repeat rewrite <- app_assoc; reflexivity|reflexivity|lia|]. cbn [bind]. rewrite Z.mod_small in Cs3 by lia.
  exists s3. split; [reflexivity|]. split; [exact D3|]. split; [|lia]. rewrite Cs3. repeat rewrite offs_app. repeat rewrite flat16_app. rewrite Z.add_0_l. fold b. cbn [offs]. fold w. rewrite flat16_pair. unfold O'.
  replace (zlen P - zlen (rr_plain r0)) with (b + zlen (plain_records rs)) by lia. replace (b + w - b) with w by lia. change (flat16 []) with (@nil Z). rewrite app_nil_r. repeat rewrite <- app_assoc. reflexivity.
Qed.

(** *** Finding the first record that is not a CNAME *)
Lemma cnames_others an : an = cnames an ++ others an.
Proof. induction an as [|r an IH]; [reflexivity|]. cbn [cnames others]. destruct (rr_type r =? 5); [cbn [app]; rewrite <- IH|]; reflexivity. Qed.
Lemma rotated_split an : rotated an = cnames an ++ match others an with [] => [] | r :: rest => rest ++ [r] end.
Proof. induction an as [|r an IH]; [reflexivity|]. cbn [cnames others rotated]. destruct (rr_type r =? 5); [cbn [app]; rewrite <- IH|]; reflexivity. Qed.
Lemma get_type_ok p A an B L Pre Post r rest : dok p -> con p = A ++ plain_records an ++ B -> L = Pre ++ offs (zlen A) an ++ Post -> an = r :: rest -> rr_fits r ->
  forall max off, zlen Pre = 2 * off -> 0 <= off <= max -> zlen A + zlen (wire (rr_owner r)) <= d_len p ->
  dwc_get_type (Some p) L max off = Ok (if reserved (rr_type r) then 65393 else rr_type r).
Proof.
  intros D C EL -> (Hty & Hme & Hrd) max off HP Hm Hle. unfold dwc_get_type. replace ((off <? 0) || (max <? off)) with false by lia. cbn [offs] in EL.
  rewrite (rd_at L (Pre ++ [zlen A]) (zlen A + zlen (wire (rr_owner r))) (offs (zlen A + zlen (rr_plain r)) rest ++ Post))
    by (rewrite ?EL; repeat rewrite <- app_assoc; rewrite ?zlen_app; change (zlen [zlen A]) with 1; reflexivity || lia). cbn [bind].
  pose proof (zlen_nonneg A). pose proof (zlen_wire_pos (rr_owner r)).
  replace ((zlen A + zlen (wire (rr_owner r)) <? 0) || (d_len p <? zlen A + zlen (wire (rr_owner r)))) with false by lia.
  rewrite plain_records_cons in C. unfold rr_plain in C.
  replace (zlen A + zlen (wire (rr_owner r))) with (zlen (A ++ wire (rr_owner r))) by (rewrite zlen_app; reflexivity).
  rewrite (fetch_mid p (A ++ wire (rr_owner r)) (rr_type r) (rr_meta r ++ num16 (zlen (rdata_plain r)) ++ rdata_plain r ++ plain_records rest ++ B) D) by (rewrite ?C; repeat rewrite <- app_assoc; reflexivity || lia). cbn [bind].
  unfold reserved. replace (rr_type r <? 0) with false by lia. replace (65536 <=? rr_type r) with false by lia. cbn [orb]. rewrite orb_false_r. destruct (_ && _); reflexivity.
Qed.
Lemma rr_find_loop_ok look p an : forall n A B Pre Post, n_packet look = Some p -> dok p -> con p = A ++ plain_records an ++ B -> n_an look = Pre ++ offs (zlen A) an ++ Post -> Forall rr_fits an ->
  forall rr, zlen Pre = 2 * rr -> 0 <= rr -> n_ancount look = rr + zlen an -> (length an < n)%nat ->
  rr_find_loop n look rr 5 = Ok (match others an with [] => rr + zlen an - 1 | r :: _ => if reserved (rr_type r) then -1 else rr + zlen (cnames an) end).
Proof.
  induction an as [|r an IH]; intros n A B Pre Post Hp D C EL F rr HP Hrr Hc Hn; destruct n as [|n]; try (cbn [length] in Hn; lia); cbn [rr_find_loop].
  - change (zlen (@nil SpecMessage.rr)) with 0 in *. rewrite Hc. replace (rr <? rr + 0) with false by lia. cbn [andb others]. replace (rr + 0 <? rr) with false by lia. f_equal. lia.
  - inversion F as [|r0 an0 Fr Fan]; subst r0 an0. rewrite zlen_cons in Hc. pose proof (zlen_nonneg an). replace (rr <? n_ancount look) with true by lia. change (5 =? 5) with true. cbn [andb]. rewrite Hp.
    pose proof (f_equal zlen C) as L. rewrite plain_records_cons in L. repeat rewrite zlen_app in L. rewrite zlen_con in L by auto. rewrite zlen_rr_plain in L by exact Fr.
    pose proof (zlen_nonneg B). pose proof (zlen_nonneg (plain_records an)). pose proof (zlen_nonneg (rdata_plain r)).
    rewrite (get_type_ok p A (r :: an) B (n_an look) Pre Post r an D C EL eq_refl Fr) by lia. cbn [bind].
    cbn [others cnames]. destruct (reserved (rr_type r)) eqn:ER.
    + change (65393 =? 65393) with true. cbv iota. destruct (Z.eqb_spec (rr_type r) 5) as [E5|N5]; [rewrite E5 in ER; discriminate|]. rewrite ER. reflexivity.
    + destruct (Z.eqb_spec (rr_type r) 65393) as [E|N]; [exfalso; rewrite E in ER; discriminate|]. destruct (Z.eqb_spec (rr_type r) 5) as [E5|N5].
      * rewrite E5. rewrite (IH n (A ++ rr_plain r) B (Pre ++ [zlen A; zlen A + zlen (wire (rr_owner r))]) Post); auto.
        -- rewrite !zlen_cons. destruct (others an) as [|r1 o1]; [f_equal; lia|]. destruct (reserved (rr_type r1)); f_equal; lia.
        -- rewrite C, plain_records_cons. repeat rewrite <- app_assoc. reflexivity.
        -- rewrite EL. cbn [offs]. rewrite zlen_app. repeat rewrite <- app_assoc. reflexivity.
        -- rewrite zlen_app. change (zlen [_; _]) with 2. lia.
        -- lia.
        -- lia.
        -- cbn [length] in Hn. lia.
      * rewrite ER. change (zlen (@nil SpecMessage.rr)) with 0. destruct n; cbn [rr_find_loop]; [cbn [length] in Hn; lia|].
        replace (rr_type r =? 5) with false by lia. rewrite andb_false_r. replace (n_ancount look <? rr + 1) with false by lia. f_equal. lia.
Qed.

Section ROT2.
  Variable J : Z -> Z.
  Hypothesis HJ : junk_ok J.

  Lemma rr_plain_ne r : rr_plain r <> [].
  Proof. unfold rr_plain. intros E. apply app_eq_nil in E as [E _]. pose proof (zlen_wire_pos (rr_owner r)). rewrite E in H. change (zlen (@nil Z)) with 0 in H. lia. Qed.
  Lemma plain_records_ne r rs : plain_records (r :: rs) <> [].
  Proof. rewrite plain_records_cons. intros E. apply app_eq_nil in E as [E _]. exact (rr_plain_ne _ E). Qed.

  Lemma offs_hd st r rs : exists l, offs st (r :: rs) = st :: l. Proof. eexists. reflexivity. Qed.

  Lemma rr_rotate_ok s an ns ar t : holds s an ns ar t ->
    exists code s', dwc_rr_rotate J s = Ok (code, s') /\ (if rotates an ns ar then code = 1 /\ holds s' (rotated an) ns ar t else code = -1).
  Proof.
    intros H. pose proof H as [D C F Ht Hl]. unfold dwc_rr_rotate. pose proof (holds_len _ _ _ _ _ H) as L.
    destruct (an ++ ns ++ ar) as [|r0 rs0] eqn:ER.
    { apply app_eq_nil in ER as [-> ER]. apply app_eq_nil in ER as [-> ->]. rewrite (make_dns_str_empty J s t H). exists (-1), s. split; reflexivity. }
    destruct (make_dns_str_ok J HJ s an ns ar t H) as (p & -> & Dp & Cp & Lp); [rewrite ER; discriminate|]. rewrite <- ER in *. clear ER r0 rs0. cbn [n_ancount n_nscount n_arcount n_an n_ns n_ar].
    assert (an = [] \/ 1 <= zlen an) as [->|Han] by (destruct an as [|x0 l0]; [left; reflexivity|right; rewrite zlen_cons; pose proof (zlen_nonneg l0); lia]); [exists (-1), s; split; reflexivity|].
    replace (zlen an =? 0) with false by lia.
    assert (Forall rr_fits an /\ Forall rr_fits (ns ++ ar)) as [Fan Fnr] by (apply Forall_app in F; exact F).
    set (look := mkdns _ _ _ _ _ _ _ _). unfold dwc_rr_find.
    rewrite (rr_find_loop_ok look p an (S (Z.to_nat (n_ancount look))) [] (plain_records (ns ++ ar) ++ offset_table 0 (an ++ ns ++ ar) ++ num16 (zlen an) ++ num16 (zlen ns) ++ num16 (zlen ar) ++ [t]) [] []); auto.
    2: { rewrite Cp, C. unfold answer. rewrite (plain_records_app an), <- app_assoc. reflexivity. }
    2: { cbn [app]. rewrite app_nil_r. reflexivity. }
    2: { lia. }
    2: { cbn [look n_ancount]. unfold zlen. lia. }
    cbn [bind]. clear look. rewrite !Z.add_0_l. pose proof (cnames_others an) as Eco. set (cn := cnames an) in *. unfold rotates.
    destruct (others an) as [|r0 rest] eqn:Eot.
    { replace ((zlen an - 1 =? -1) || (zlen an <=? zlen an - 1 + 1)) with true by lia. exists (-1), s. auto. }
    destruct (reserved (rr_type r0)) eqn:Eres; [exists (-1), s; split; [reflexivity|]; destruct rest, ns, ar; reflexivity|].
    assert (zlen an = zlen cn + zlen rest + 1) as Lan by (rewrite Eco, zlen_app, zlen_cons; lia). pose proof (zlen_nonneg cn). pose proof (zlen_nonneg rest).
    destruct rest as [|r1 rest].
    { change (zlen (@nil rr)) with 0 in Lan. replace ((zlen cn =? -1) || (zlen an <=? zlen cn + 1)) with true by lia. exists (-1), s. auto. }
    replace ((zlen cn =? -1) || (zlen an <=? zlen cn + 1)) with false by (rewrite zlen_cons in Lan; pose proof (zlen_nonneg rest); lia).
    set (b := zlen (plain_records cn)).
    assert (offs 0 an = offs 0 cn ++ b :: b + zlen (wire (rr_owner r0)) :: b + zlen (rr_plain r0) :: b + zlen (rr_plain r0) + zlen (wire (rr_owner r1)) :: offs (b + zlen (rr_plain r0) + zlen (rr_plain r1)) rest) as Eoffs.
    { rewrite Eco, offs_app, Z.add_0_l. reflexivity. }
    rewrite (rd_at (offs 0 an) (offs 0 cn) b (b + zlen (wire (rr_owner r0)) :: b + zlen (rr_plain r0) :: b + zlen (rr_plain r0) + zlen (wire (rr_owner r1)) :: offs (b + zlen (rr_plain r0) + zlen (rr_plain r1)) rest) _ Eoffs) by (rewrite zlen_offs; lia). cbn [bind].
    rewrite (rd_at (offs 0 an) (offs 0 cn ++ [b; b + zlen (wire (rr_owner r0))]) (b + zlen (rr_plain r0)) (b + zlen (rr_plain r0) + zlen (wire (rr_owner r1)) :: offs (b + zlen (rr_plain r0) + zlen (rr_plain r1)) rest))
      by (rewrite ?Eoffs, ?zlen_app, ?zlen_offs; rewrite <- ?app_assoc; reflexivity || (change (zlen [_; _]) with 2; lia)). cbn [bind].
    set (P1 := rr_plain r0). set (P2 := plain_records (r1 :: rest)). assert (plain_records an = plain_records cn ++ P1 ++ P2) as Epl by (rewrite Eco, plain_records_app, plain_records_cons; reflexivity).
    set (fin := b + zlen P1 + zlen P2). assert (zlen (plain_records an) = fin) as Lpl by (rewrite Epl; repeat rewrite zlen_app; unfold fin, b; lia).
    match goal with |- context [bind ?m _] => assert (m = Ok fin) as -> end.
    { destruct ns as [|n0 ns0].
      - change (zlen (@nil rr) =? 0) with true. cbn [andb]. destruct ar as [|a0 ar0].
        + change (zlen (@nil rr) =? 0) with true. cbv iota. rewrite !app_nil_r in *. change (zlen (@nil rr)) with 0 in L. f_equal. lia.
        + rewrite zlen_cons. pose proof (zlen_nonneg ar0). replace (zlen ar0 + 1 =? 0) with false by lia. change (0 <? zlen (@nil rr)) with false. cbv iota.
          unfold aroff. rewrite Lpl. change (zlen (plain_records [])) with 0. rewrite Z.add_0_r. reflexivity.
      - rewrite zlen_cons. pose proof (zlen_nonneg ns0). replace (zlen ns0 + 1 =? 0) with false by lia. cbn [andb]. replace (0 <? zlen ns0 + 1) with true by lia. unfold nsoff. rewrite Lpl. reflexivity. }
    cbn [bind]. pose proof (zlen_nonneg P1). pose proof (zlen_nonneg P2). pose proof (zlen_nonneg (plain_records cn)). replace (fin <? 0) with false by lia. rewrite andb_false_r.
    set (Zt := num16 (zlen an) ++ num16 (zlen ns) ++ num16 (zlen ar) ++ [t]).
    change (dw_rotate J s b (b + zlen P1) fin) with (dw_rotate J s (zlen (plain_records cn)) (zlen (plain_records cn) + zlen P1) (zlen (plain_records cn) + zlen P1 + zlen P2)).
    destruct (rotate_ok J HJ s (plain_records cn) P1 P2 (plain_records (ns ++ ar) ++ flat16 (offs 0 (an ++ ns ++ ar)) ++ Zt) D) as (s1 & -> & D1 & C1 & L1).
    { lia. }
    { rewrite C. unfold answer. rewrite plain_records_app, Epl, offset_table_offs. repeat rewrite <- app_assoc. reflexivity. }
    { apply rr_plain_ne. } { apply plain_records_ne. } { intros E. apply app_eq_nil in E as [_ E]. apply app_eq_nil in E as [_ E]. discriminate. }
    cbn [bind]. change (1 =? -1) with false. cbv iota.
    destruct (negb ((zlen ns =? 0) && (zlen ar =? 0))) eqn:Ens.
    { unfold dwc_rotate_offsets. pose proof (zlen_nonneg ns). pose proof (zlen_nonneg ar). rewrite zlen_cons in Lan. pose proof (zlen_nonneg rest).
      replace ((zlen an <=? zlen cn) || (zlen cn <? 0)) with false by lia. replace (zlen cn =? zlen an - 1) with false by lia.
      replace (d_len s1 - 7 - (zlen an + zlen ns + zlen ar) * 4 + zlen an * 4 =? d_len s1 - 7) with false by lia. cbn [negb]. exists (-1), s1. split; [reflexivity|].
      destruct ns; [destruct ar; [discriminate|]|]; reflexivity. }
    assert (ns = [] /\ ar = []) as [-> ->].
    { destruct ns; [|exfalso; rewrite zlen_cons in Ens; pose proof (zlen_nonneg ns); lia]. destruct ar; [auto|]. exfalso. rewrite (zlen_cons _ ar) in Ens. pose proof (zlen_nonneg ar). change (zlen (@nil rr)) with 0 in Ens. lia. }
    change (zlen (@nil rr)) with 0 in *. rewrite ?app_nil_r in *. change (plain_records []) with (@nil Z) in C1. cbn [app] in C1. cbn [negb].
    rewrite Eco in C1. replace (d_len s1 - 7 - (zlen an + 0 + 0) * 4) with (zlen (plain_records cn ++ P2 ++ P1)) by (repeat rewrite zlen_app; unfold fin, b in *; lia).
    rewrite (f_equal (@zlen rr) Eco). destruct (rotate_offsets_ok s1 (plain_records cn ++ P2 ++ P1) cn r0 (r1 :: rest) Zt D1) as (s2 & -> & D2 & C2 & L2); auto.
    { lia. } { rewrite C1. repeat rewrite <- app_assoc. reflexivity. }
    { rewrite Eco in Fan. apply Forall_app in Fan. apply Fan. } { discriminate. }
    { rewrite plain_records_app, plain_records_cons. repeat rewrite zlen_app. subst P1 P2. lia. }
    exists 1, s2. split; [reflexivity|]. split; [reflexivity|]. rewrite rotated_split, Eot. fold cn. constructor; auto; rewrite ?app_nil_r.
    - rewrite C2. unfold answer. rewrite !app_nil_r, offset_table_offs. repeat rewrite plain_records_app. change (plain_records [r0]) with (P1 ++ []). rewrite app_nil_r.
      replace (zlen (cn ++ (r1 :: rest) ++ [r0])) with (zlen an) by (rewrite Eco; repeat rewrite zlen_app; rewrite zlen_cons; change (zlen [r0]) with 1; lia). repeat rewrite <- app_assoc. reflexivity.
    - rewrite Eco in Fan. apply Forall_app in Fan as [Fc Fo]. inversion Fo as [|x0 l0 F0 Fr]. apply Forall_app. split; [exact Fc|]. apply Forall_app. split; [exact Fr|]. constructor; [exact F0|constructor].
    - lia.
  Qed.
End ROT2.
