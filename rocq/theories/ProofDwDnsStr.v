(** Proofs about the offset table, rotation, TTL ageing and the IP filter. *)
From Verif Require Import CBase Bits SpecNames SpecMessage SpecDeadwoodMsg SpecDwStr SpecAnswer ModelDwStr ModelDwDnsStr ProofDwStr ProofDwCompressSafe ProofDwDecomp.

(** *** Fetching and storing in the middle *)
Lemma zlen_num16 v : zlen (num16 v) = 2. Proof. reflexivity. Qed.
Lemma fetch_mid s X v Y : dok s -> con s = X ++ num16 v ++ Y -> 0 <= v < 65536 -> dw_fetch_u16 s (zlen X) = Ok v.
Proof.
  intros D C Hv. pose proof (f_equal zlen C) as L. repeat rewrite zlen_app in L. rewrite zlen_con in L by auto. rewrite zlen_num16 in L.
  pose proof (zlen_nonneg X). pose proof (zlen_nonneg Y). destruct (dw_fetch_u16_ok s (zlen X) D ltac:(lia) ltac:(lia)) as [-> _].
  rewrite C. rewrite <- (u16be_num16 v) by lia. rewrite be16_mid. rewrite Z.mod_small by lia. reflexivity.
Qed.
Lemma put_mid s X old v Y : dok s -> con s = X ++ old ++ Y -> zlen old = 2 -> d_len s < 16777216 ->
  exists s', dw_put_u16 s v (zlen X) = Ok (0, s') /\ dok s' /\ con s' = X ++ num16 (v mod 65536) ++ Y /\ d_max s' = d_max s /\ d_len s' = d_len s.
Proof.
  intros D C Ho H24. pose proof (f_equal zlen C) as L. repeat rewrite zlen_app in L. rewrite zlen_con in L by auto. rewrite Ho in L.
  pose proof (zlen_nonneg X). pose proof (zlen_nonneg Y).
  destruct (dw_put_u16_ok s v (zlen X) D ltac:(lia) ltac:(lia) H24) as (s' & E & D' & C' & M & L'). exists s'. split; [exact E|]. split; [exact D'|]. split; [|auto].
  rewrite C', C. rewrite splice_mid by (rewrite Ho; reflexivity). f_equal. f_equal. rewrite <- u16be_num16 by lia. apply u16be_mod. lia.
Qed.

(** *** The offset table *)
Fixpoint offs (start : Z) (rs : list rr) : list Z :=
  match rs with
  | [] => []
  | r :: rest => start :: start + zlen (wire (rr_owner r)) :: offs (start + zlen (rr_plain r)) rest
  end.
Definition flat16 (L : list Z) : list Z := concat (map num16 L).
Lemma flat16_app a b : flat16 (a ++ b) = flat16 a ++ flat16 b.
Proof. unfold flat16. rewrite map_app, concat_app. reflexivity. Qed.
Lemma zlen_flat16 L : zlen (flat16 L) = 2 * zlen L.
Proof. induction L as [|x L IH]; [reflexivity|]. change (flat16 (x :: L)) with (num16 x ++ flat16 L). rewrite zlen_app, IH, zlen_num16, zlen_cons. lia. Qed.
Lemma offset_table_offs rs : forall st, offset_table st rs = flat16 (offs st rs).
Proof. induction rs as [|r rs IH]; intros st; [reflexivity|]. cbn [offset_table offs]. rewrite IH. reflexivity. Qed.
Lemma plain_records_app a b : plain_records (a ++ b) = plain_records a ++ plain_records b.
Proof. unfold plain_records. rewrite map_app, concat_app. reflexivity. Qed.
Lemma plain_records_cons r b : plain_records (r :: b) = rr_plain r ++ plain_records b.
Proof. reflexivity. Qed.
Lemma offs_app a : forall st b, offs st (a ++ b) = offs st a ++ offs (st + zlen (plain_records a)) b.
Proof.
  induction a as [|r a IH]; intros st b; cbn [app offs]; [rewrite Z.add_0_r; reflexivity|]. rewrite IH, plain_records_cons, zlen_app, Z.add_assoc. reflexivity.
Qed.
Lemma zlen_offs rs : forall st, zlen (offs st rs) = 2 * zlen rs.
Proof. induction rs as [|r rs IH]; intros st; cbn [offs]; [reflexivity|]. repeat rewrite zlen_cons. rewrite IH. lia. Qed.
Lemma zlen_rr_plain r : rr_fits r -> zlen (rr_plain r) = zlen (wire (rr_owner r)) + 10 + zlen (rdata_plain r).
Proof. intros (_ & Hm & _). unfold rr_plain. repeat rewrite zlen_app. rewrite !zlen_num16. lia. Qed.
Lemma offs_range rs : forall st, 0 <= st -> st + zlen (plain_records rs) < 65536 -> Forall rr_fits rs -> Forall (fun v => 0 <= v < 65536) (offs st rs).
Proof.
  induction rs as [|r rs IH]; intros st Hs Hl F; cbn [offs]; [constructor|]. inversion F as [|r0 rs0 Fr Frs]; subst. rewrite plain_records_cons, zlen_app in Hl.
  pose proof (zlen_rr_plain r Fr) as Lr. pose proof (zlen_nonneg (rdata_plain r)). pose proof (zlen_wire_pos (rr_owner r)). pose proof (zlen_nonneg (plain_records rs)).
  constructor; [lia|]. constructor; [lia|]. apply IH; auto; lia.
Qed.

(** *** dwc_place_offsets *)
Lemma zupd_mid X x Y v : zupd (X ++ x :: Y) (zlen X) v = X ++ v :: Y.
Proof.
  unfold zupd, zlen. replace (Z.of_nat (length X) <? 0) with false by lia. rewrite Nat2Z.id. induction X as [|a X IH]; [reflexivity|]. cbn [length app upd_nat]. rewrite IH. reflexivity.
Qed.
Lemma wr_mid X x Y v : wr (X ++ x :: Y) (zlen X) v = Ok (X ++ v :: Y).
Proof. rewrite wr_ok; [rewrite zupd_mid; reflexivity|]. rewrite zlen_app, zlen_cons. pose proof (zlen_nonneg X). pose proof (zlen_nonneg Y). lia. Qed.
Lemma snoc2 {A} (L : list A) n : length L = (2 * S n)%nat -> exists L' a b, L = L' ++ [a; b] /\ length L' = (2 * n)%nat.
Proof.
  intros H. destruct (exists_last (l := L)) as (L1 & b & ->); [intros E; rewrite E in H; cbn in H; lia|]. rewrite app_length in H. cbn [length] in H.
  destruct (exists_last (l := L1)) as (L2 & a & ->); [intros E; rewrite E in H; cbn in H; lia|]. rewrite app_length in H. cbn [length] in H.
  exists L2, a, b. split; [rewrite <- app_assoc; reflexivity|lia].
Qed.
Lemma place_offsets_ok n : forall s A L B X Y off, dok s -> con s = A ++ flat16 L ++ B -> length L = (2 * n)%nat -> length X = (2 * n)%nat -> Forall (fun v => 0 <= v < 65536) L ->
  off = zlen A + 2 * zlen L -> dwc_place_offsets n s off (X ++ Y) = Ok (zlen A, L ++ Y).
Proof.
  induction n as [|n IH]; intros s A L B X Y off D C HL HX F ->; cbn [dwc_place_offsets]; rewrite (dok_sane s D); cbn [negb].
  - destruct L; [|cbn [length] in HL; lia]. destruct X; [|cbn [length] in HX; lia]. change (zlen (@nil Z)) with 0. rewrite Z.mul_0_r, Z.add_0_r. reflexivity.
  - destruct (snoc2 L n HL) as (L' & a & b & -> & HL'). destruct (snoc2 X n HX) as (X' & x & y & -> & HX'). pose proof (zlen_nonneg A). pose proof (zlen_nonneg L').
    apply Forall_app in F as [F' F2]. inversion F2 as [|? ? Ha F3]; subst. inversion F3 as [|? ? Hb _]; subst. clear F2 F3.
    rewrite flat16_app in C. change (flat16 [a; b]) with (num16 a ++ num16 b) in C.
    rewrite zlen_app. change (zlen [a; b]) with 2. cbv zeta. replace (zlen A + 2 * (zlen L' + 2) - 2 <? 0) with false by lia.
    replace (zlen A + 2 * (zlen L' + 2) - 2) with (zlen (A ++ flat16 L' ++ num16 a)) by (repeat rewrite zlen_app; rewrite zlen_flat16, zlen_num16; lia).
    rewrite (fetch_mid s (A ++ flat16 L' ++ num16 a) b B D) by (auto; rewrite C; repeat rewrite <- app_assoc; reflexivity). cbn [bind].
    assert (Z.of_nat n * 2 + 1 = zlen (X' ++ [x])) as -> by (unfold zlen; rewrite app_length; cbn [length]; lia).
    replace ((X' ++ [x; y]) ++ Y) with ((X' ++ [x]) ++ y :: Y) by (repeat rewrite <- app_assoc; reflexivity). rewrite wr_mid. cbn [bind].
    replace (zlen (A ++ flat16 L' ++ num16 a) - 2) with (zlen (A ++ flat16 L')) by (repeat rewrite zlen_app; rewrite zlen_num16; lia).
    replace (zlen (A ++ flat16 L') <? 0) with false by (pose proof (zlen_nonneg (A ++ flat16 L')); lia).
    rewrite (fetch_mid s (A ++ flat16 L') a (num16 b ++ B) D) by (auto; rewrite C; repeat rewrite <- app_assoc; reflexivity). cbn [bind].
    assert (Z.of_nat n * 2 = zlen X') as -> by (unfold zlen; lia). rewrite <- app_assoc. cbn [app]. rewrite wr_mid. cbn [bind].
    unfold u16. rewrite !Z.mod_small by lia.
    replace ((L' ++ [a; b]) ++ Y) with (L' ++ (a :: b :: Y)) by (repeat rewrite <- app_assoc; reflexivity). apply (IH s A L' (num16 a ++ num16 b ++ B)); auto.
    + rewrite C. repeat rewrite <- app_assoc. reflexivity.
    + rewrite zlen_app, zlen_flat16. reflexivity.
Qed.

(** *** dw_copy *)
Lemma dw_copy_ok J s : junk_ok J -> dok s -> exists t, dw_copy J (Some s) = Ok (Some t) /\ dok t /\ con t = con s /\ d_max t = d_max s /\ d_len t = d_len s.
Proof.
  intros HJ D. pose proof D as [W K]. pose proof W as [B L M Me]. unfold dw_copy, dw_substr. rewrite (dok_sane s D). cbn [negb]. cbv zeta. change (0 <? 0) with false. change (-1 <? 0) with true.
  change (0 <=? -1) with false. change (-1 =? -1) with true. cbv iota. rewrite i32_small by lia. replace (d_len s - 0 + -1 + 1) with (d_len s) by lia.
  destruct (dw_create_ok J (d_max s) HJ ltac:(lia)) as (cp & -> & Wc & Lc & Mc). pose proof Wc as [Bc Lcc Mcc Mec].
  pose proof (substr_loop_ok s 0 (Z.to_nat (d_len s)) 0 (d_mem cp) (d_max cp) W ltac:(lia) ltac:(lia) ltac:(lia) ltac:(lia)) as HS. cbv zeta in HS.
  replace (Z.max 0 _) with (d_len s) in HS by lia. rewrite !Z.add_0_l in HS. rewrite HS. cbn [bind]. eexists. split; [reflexivity|].
  assert (zlen (zslice (d_mem s) 0 (d_len s)) = d_len s) as Lz by (apply zlen_zslice; lia).
  split; [|split; [|cbn [d_max d_len]; split; [exact Mc|reflexivity]]].
  - split; [constructor|]; cbn [d_mem d_len d_max]; try lia; [apply bytes_splice; [exact Bc|apply bytes_zslice; exact B]|]. rewrite zlen_splice by lia. lia.
  - unfold con at 1. cbn [d_mem d_len]. rewrite <- Lz at 2. rewrite zslice_splice_same by lia. reflexivity.
Qed.

(** *** dwc_make_dns_str on an answer *)
Section HOLDS.
  Variable J : Z -> Z.
  Hypothesis HJ : junk_ok J.

  Lemma zlen_answer an ns ar t : zlen (answer an ns ar t) = zlen (plain_records (an ++ ns ++ ar)) + 4 * (zlen an + zlen ns + zlen ar) + 7.
  Proof.
    unfold answer. repeat rewrite zlen_app. rewrite zlen_offset_table, !zlen_num16. change (zlen [t]) with 1. repeat rewrite app_length. unfold zlen. lia.
  Qed.
  Lemma holds_len s an ns ar t : holds s an ns ar t -> d_len s = zlen (plain_records (an ++ ns ++ ar)) + 4 * (zlen an + zlen ns + zlen ar) + 7.
  Proof. intros [D C _ _ _]. rewrite <- (zlen_con s) by auto. rewrite C. apply zlen_answer. Qed.

  Definition nsoff (an : list rr) : Z := zlen (plain_records an).
  Definition aroff (an ns : list rr) : Z := zlen (plain_records an) + zlen (plain_records ns).
  Lemma answer_offs an ns ar t : answer an ns ar t = plain_records (an ++ ns ++ ar) ++ flat16 (offs 0 an) ++ flat16 (offs (nsoff an) ns) ++ flat16 (offs (aroff an ns) ar) ++ num16 (zlen an) ++ num16 (zlen ns) ++ num16 (zlen ar) ++ [t].
  Proof. unfold answer. rewrite offset_table_offs, !offs_app, !flat16_app. repeat rewrite <- app_assoc. reflexivity. Qed.

  Lemma length_offs rs st : length (offs st rs) = (2 * length rs)%nat.
  Proof. pose proof (zlen_offs rs st). unfold zlen in *. lia. Qed.
  Lemma offs_holds s an ns ar t : holds s an ns ar t ->
    Forall (fun v => 0 <= v < 65536) (offs 0 an) /\ Forall (fun v => 0 <= v < 65536) (offs (nsoff an) ns) /\ Forall (fun v => 0 <= v < 65536) (offs (aroff an ns) ar).
  Proof.
    intros H. pose proof (holds_len _ _ _ _ _ H) as L. pose proof (h_len _ _ _ _ _ H). pose proof (h_fits _ _ _ _ _ H) as F. rewrite !plain_records_app, !zlen_app in L.
    apply Forall_app in F as [F1 F]. apply Forall_app in F as [F2 F3]. pose proof (zlen_nonneg (plain_records an)). pose proof (zlen_nonneg (plain_records ns)). pose proof (zlen_nonneg (plain_records ar)).
    pose proof (zlen_nonneg an). pose proof (zlen_nonneg ns). pose proof (zlen_nonneg ar). unfold nsoff, aroff. repeat split; apply offs_range; auto; lia.
  Qed.

  Lemma make_dns_str_ok s an ns ar t : holds s an ns ar t -> an ++ ns ++ ar <> [] ->
    exists p, dwc_make_dns_str J s = Ok (mkdns (Some p) (offs 0 an) (offs (nsoff an) ns) (offs (aroff an ns) ar) (zlen an) (zlen ns) (zlen ar) t) /\
      dok p /\ con p = con s /\ d_len p = d_len s.
  Proof.
    intros H Hne. pose proof H as [D C F Ht Hl]. pose proof (holds_len _ _ _ _ _ H) as L. destruct (offs_holds _ _ _ _ _ H) as (O1 & O2 & O3).
    pose proof (zlen_nonneg (plain_records (an ++ ns ++ ar))) as L0. pose proof (zlen_nonneg an). pose proof (zlen_nonneg ns). pose proof (zlen_nonneg ar).
    assert (1 <= zlen an + zlen ns + zlen ar) as Hone.
    { destruct an; [|rewrite zlen_cons; pose proof (zlen_nonneg an); lia]. destruct ns; [|rewrite zlen_cons; pose proof (zlen_nonneg ns); lia]. destruct ar; [exfalso; apply Hne; reflexivity|rewrite zlen_cons; pose proof (zlen_nonneg ar); lia]. }
    rewrite answer_offs in C. set (P := plain_records _) in *.
    unfold dwc_make_dns_str. rewrite (dok_sane s D). cbn [negb]. cbv zeta. replace (d_len s - 1 <? 7) with false by lia.
    assert (rd (d_mem s) (d_len s - 1) = Ok t) as ->.
    { rewrite rd_con by (auto; lia). unfold rd. rewrite C. rewrite !app_assoc. rewrite zget_app_r.
      - rewrite L. repeat rewrite zlen_app. rewrite !zlen_flat16, !zlen_offs, !zlen_num16. match goal with |- context [zget _ ?i] => replace i with 0 by lia end. reflexivity.
      - rewrite L. repeat rewrite zlen_app. rewrite !zlen_flat16, !zlen_offs, !zlen_num16. lia. }
    cbn [bind]. replace (negb (t =? 0) && negb (t =? 1) && negb (t =? 2)) with false by lia.
    set (O := flat16 (offs 0 an)) in *. set (O' := flat16 (offs (nsoff an) ns)) in *. set (O'' := flat16 (offs (aroff an ns) ar)) in *.
    assert (zlen O = 4 * zlen an /\ zlen O' = 4 * zlen ns /\ zlen O'' = 4 * zlen ar) as (LO & LO' & LO'') by (unfold O, O', O''; rewrite !zlen_flat16, !zlen_offs; lia).
    replace (d_len s - 1 - 2) with (zlen (P ++ O ++ O' ++ O'' ++ num16 (zlen an) ++ num16 (zlen ns))) by (repeat rewrite zlen_app; rewrite !zlen_num16; lia).
    rewrite (fetch_mid s (P ++ O ++ O' ++ O'' ++ num16 (zlen an) ++ num16 (zlen ns)) (zlen ar) [t] D) by (rewrite ?C; repeat rewrite <- app_assoc; reflexivity || lia). cbn [bind].
    replace (zlen (P ++ O ++ O' ++ O'' ++ num16 (zlen an) ++ num16 (zlen ns)) - 2) with (zlen (P ++ O ++ O' ++ O'' ++ num16 (zlen an))) by (repeat rewrite zlen_app; rewrite !zlen_num16; lia).
    rewrite (fetch_mid s (P ++ O ++ O' ++ O'' ++ num16 (zlen an)) (zlen ns) (num16 (zlen ar) ++ [t]) D) by (rewrite ?C; repeat rewrite <- app_assoc; reflexivity || lia). cbn [bind].
    replace (zlen (P ++ O ++ O' ++ O'' ++ num16 (zlen an)) - 2) with (zlen (P ++ O ++ O' ++ O'')) by (repeat rewrite zlen_app; rewrite !zlen_num16; lia).
    rewrite (fetch_mid s (P ++ O ++ O' ++ O'') (zlen an) (num16 (zlen ns) ++ num16 (zlen ar) ++ [t]) D) by (rewrite ?C; repeat rewrite <- app_assoc; reflexivity || lia). cbn [bind].
    unfold dwc_init_dns_str. replace ((zlen an <? 0) || (zlen ns <? 0) || (zlen ar <? 0)) with false by lia. cbn [bind n_an n_ns n_ar].
    destruct (dw_copy_ok J s HJ D) as (p & -> & Dp & Cp & _ & Lp). cbn [bind].
    assert (forall n, length (zeros (n * 2)) = Z.to_nat (n * 2)) as Lzr by (intros; apply repeat_length).
    rewrite <- (app_nil_r (zeros (zlen ar * 2))).
    rewrite (place_offsets_ok (Z.to_nat (zlen ar)) s (P ++ O ++ O') (offs (aroff an ns) ar) (num16 (zlen an) ++ num16 (zlen ns) ++ num16 (zlen ar) ++ [t])); auto;
      [|rewrite C; repeat rewrite <- app_assoc; reflexivity|rewrite length_offs; unfold zlen; lia|rewrite Lzr; lia|repeat rewrite zlen_app; rewrite zlen_offs; lia].
    cbn [bind]. pose proof (zlen_nonneg (P ++ O ++ O')). replace (zlen (P ++ O ++ O') <? 0) with false by lia.
    rewrite <- (app_nil_r (zeros (zlen ns * 2))).
    rewrite (place_offsets_ok (Z.to_nat (zlen ns)) s (P ++ O) (offs (nsoff an) ns) (O'' ++ num16 (zlen an) ++ num16 (zlen ns) ++ num16 (zlen ar) ++ [t])); auto;
      [|rewrite C; repeat rewrite <- app_assoc; reflexivity|rewrite length_offs; unfold zlen; lia|rewrite Lzr; lia|repeat rewrite zlen_app; rewrite zlen_offs; lia].
    cbn [bind]. pose proof (zlen_nonneg (P ++ O)). replace (zlen (P ++ O) <? 0) with false by lia.
    rewrite <- (app_nil_r (zeros (zlen an * 2))).
    rewrite (place_offsets_ok (Z.to_nat (zlen an)) s P (offs 0 an) (O' ++ O'' ++ num16 (zlen an) ++ num16 (zlen ns) ++ num16 (zlen ar) ++ [t])); auto;
      [|rewrite length_offs; unfold zlen; lia|rewrite Lzr; lia|rewrite zlen_app, zlen_offs; lia].
    cbn [bind]. replace (zlen P <? 0) with false by lia. rewrite !app_nil_r. exists p. auto.
  Qed.
  Lemma make_dns_str_empty s t : holds s [] [] [] t -> dwc_make_dns_str J s = Fail.
  Proof. intros H. pose proof (holds_len _ _ _ _ _ H) as L. change (zlen (plain_records _) + _ + 7) with 7 in L. unfold dwc_make_dns_str. rewrite (dok_sane s (h_ok _ _ _ _ _ H)), L. reflexivity. Qed.
End HOLDS.

(** *** TTL ageing *)
Lemma rd_at L X v Y i : L = X ++ v :: Y -> i = zlen X -> rd L i = Ok v.
Proof. intros -> ->. unfold rd. rewrite zget_app_r, Z.sub_diag by lia. reflexivity. Qed.
Lemma six (l : list Z) : zlen l = 6 -> exists a b c d e f, l = [a; b; c; d; e; f].
Proof.
  intros H. do 6 (destruct l as [|? l]; [exfalso; repeat rewrite zlen_cons in H; change (zlen (@nil Z)) with 0 in H; lia|]). destruct l; [do 6 eexists; reflexivity|].
  exfalso. repeat rewrite zlen_cons in H. pose proof (zlen_nonneg l). lia.
Qed.
Lemma ttl_loop_ok v : 0 <= v < 2147483648 -> forall an s A B L Pre Post, dok s -> d_len s < 16777216 -> con s = A ++ plain_records an ++ B -> Forall rr_fits an ->
  L = Pre ++ offs (zlen A) an ++ Post -> forall counter, zlen Pre = 2 * counter ->
  exists s', ttl_loop (length an) s L counter (v / 65536) (v mod 65536) = Ok s' /\ dok s' /\ con s' = A ++ plain_records (map (set_ttl v) an) ++ B /\ d_len s' = d_len s.
Proof.
  intros Hv. induction an as [|r an IH]; intros s A B L Pre Post D H24 C F EL counter Hc; cbn [length ttl_loop map].
  - exists s. split; [reflexivity|]. auto.
  - inversion F as [|r0 an0 Fr Fan]; subst r0 an0. cbn [offs] in EL.
    rewrite (rd_at L (Pre ++ [zlen A]) (zlen A + zlen (wire (rr_owner r))) (offs (zlen A + zlen (rr_plain r)) an ++ Post))
      by (rewrite ?EL; repeat rewrite <- app_assoc; rewrite ?zlen_app; change (zlen [zlen A]) with 1; reflexivity || lia). cbn [bind].
    destruct Fr as (Hty & Hme & Hrd). destruct (six _ Hme) as (c0 & c1 & t0 & t1 & t2 & t3 & Em).
    set (W := wire (rr_owner r)) in *. set (R := num16 (zlen (rdata_plain r)) ++ rdata_plain r) in *.
    assert (forall x, rr_plain (mkrr (rr_owner r) (rr_type r) x (rr_lead r) (rr_names r) (rr_tail r)) = W ++ num16 (rr_type r) ++ x ++ R) as Hpl by reflexivity.
    assert (rr_plain r = W ++ num16 (rr_type r) ++ [c0; c1; t0; t1; t2; t3] ++ R) as Er by (rewrite <- Em; reflexivity).
    rewrite plain_records_cons, Er in C.
    replace (zlen A + zlen W + 4) with (zlen (A ++ W ++ num16 (rr_type r) ++ [c0; c1])) by (repeat rewrite zlen_app; rewrite zlen_num16; change (zlen [c0; c1]) with 2; lia).
    destruct (put_mid s (A ++ W ++ num16 (rr_type r) ++ [c0; c1]) [t0; t1] (v / 65536) ([t2; t3] ++ R ++ plain_records an ++ B) D) as (s1 & -> & D1 & C1 & M1 & L1); [rewrite C; repeat rewrite <- app_assoc; reflexivity|reflexivity|lia|]. cbn [bind].
    replace (zlen A + zlen W + 6) with (zlen (A ++ W ++ num16 (rr_type r) ++ [c0; c1] ++ num16 (v / 65536))) by (repeat rewrite zlen_app; rewrite !zlen_num16; change (zlen [c0; c1]) with 2; lia).
    destruct (put_mid s1 (A ++ W ++ num16 (rr_type r) ++ [c0; c1] ++ num16 (v / 65536)) [t2; t3] (v mod 65536) (R ++ plain_records an ++ B) D1) as (s2 & -> & D2 & C2 & M2 & L2);
      [rewrite C1; rewrite Z.mod_small by lia; repeat rewrite <- app_assoc; reflexivity|reflexivity|lia|]. cbn [bind].
    assert (rr_plain (set_ttl v r) = W ++ num16 (rr_type r) ++ ([c0; c1] ++ num32 v) ++ R) as Er' by (unfold set_ttl; rewrite Hpl, Em; reflexivity).
    assert (zlen (rr_plain (set_ttl v r)) = zlen (rr_plain r)) as Lr by (rewrite Er, Er'; repeat rewrite zlen_app; reflexivity).
    destruct (IH s2 (A ++ rr_plain (set_ttl v r)) B L (Pre ++ [zlen A; zlen A + zlen W]) Post D2) with (counter := counter + 1) as (s' & E & D' & C' & L').
    + lia.
    + rewrite C2, Er'. unfold num32. rewrite Z.mod_mod by lia. repeat rewrite <- app_assoc. reflexivity.
    + exact Fan.
    + rewrite EL. rewrite zlen_app, Lr. repeat rewrite <- app_assoc. reflexivity.
    + rewrite zlen_app. change (zlen [zlen A; zlen A + zlen W]) with 2. lia.
    + exists s'. split; [exact E|]. split; [exact D'|]. split; [|lia]. rewrite C', plain_records_cons. repeat rewrite <- app_assoc. reflexivity.
Qed.

Lemma set_ttl_len v r : rr_fits r -> zlen (rr_plain (set_ttl v r)) = zlen (rr_plain r).
Proof. intros (_ & Hm & _). unfold rr_plain, set_ttl. cbn [rr_owner rr_type rr_meta rr_lead rr_names rr_tail]. repeat rewrite zlen_app. rewrite zlen_zslice by lia. change (zlen (num32 v)) with 4. change (rdata_plain (mkrr _ _ _ _ _ _)) with (rdata_plain r). rewrite zlen_num16. lia. Qed.
Lemma set_ttl_fits v r : rr_fits r -> rr_fits (set_ttl v r).
Proof. intros (H1 & H2 & H3). split; [exact H1|]. split; [|exact H3]. unfold set_ttl. cbn [rr_meta]. rewrite zlen_app, zlen_zslice by lia. reflexivity. Qed.
Lemma offs_set_ttl v an : Forall rr_fits an -> forall st rest, offset_table st (map (set_ttl v) an ++ rest) = offset_table st (an ++ rest).
Proof.
  intros F. induction F as [|r an Fr F IH]; intros st rest; [reflexivity|]. cbn [map app offset_table]. rewrite IH, set_ttl_len by exact Fr. reflexivity.
Qed.
Lemma set_ttl_map_fits v an : Forall rr_fits an -> Forall rr_fits (map (set_ttl v) an).
Proof. intros F. induction F; constructor; [apply set_ttl_fits|]; assumption. Qed.

Section HOLDS2.
  Variable J : Z -> Z.
  Hypothesis HJ : junk_ok J.

  Lemma ttl_age_ok s an ns ar t ttl : holds s an ns ar t -> 0 <= ttl < 2147483648 ->
    exists code s', dwc_ttl_age J s ttl = Ok (code, s') /\ holds s' (map (set_ttl (Z.max 5 ttl)) an) ns ar t /\ (code = 1 \/ (code = -1 /\ an ++ ns ++ ar = [])).
  Proof.
    intros H Httl. pose proof H as [D C F Ht Hl]. unfold dwc_ttl_age. replace (ttl =? -1) with false by lia.
    destruct (an ++ ns ++ ar) as [|r0 rs0] eqn:ER.
    - apply app_eq_nil in ER as [-> ER]. apply app_eq_nil in ER as [-> ->]. rewrite make_dns_str_empty with (t := t) by exact H. exists (-1), s. auto.
    - destruct (make_dns_str_ok J HJ s an ns ar t H) as (p & -> & _); [rewrite ER; discriminate|]. cbn [n_ancount n_an]. cbv zeta.
      set (v := Z.max 5 ttl). replace (if ttl <? 5 then 5 else ttl) with v by (subst v; destruct (Z.ltb_spec ttl 5); lia). assert (0 <= v < 2147483648) as Hv by lia.
      replace (Z.land (u16 (Z.shiftr v 16)) 32767) with (v / 65536).
      2: { rewrite Z.shiftr_div_pow2 by lia. change (2 ^ 16) with 65536. unfold u16. rewrite Z.mod_small by lia. change 32767 with (2 ^ 15 - 1). rewrite land_ones_mod by lia. change (2 ^ 15) with 32768. rewrite Z.mod_small by lia. reflexivity. }
      rewrite land_65535.
      assert (Forall rr_fits an /\ Forall rr_fits (ns ++ ar)) as [Fan Fr] by (rewrite <- ER in F; apply Forall_app in F; exact F).
      replace (Z.to_nat (zlen an)) with (length an) by (unfold zlen; lia).
      destruct (ttl_loop_ok v Hv an s [] (plain_records (ns ++ ar) ++ offset_table 0 (an ++ ns ++ ar) ++ num16 (zlen an) ++ num16 (zlen ns) ++ num16 (zlen ar) ++ [t]) (offs 0 an) [] []) with (counter := 0) as (s' & -> & D' & C' & L'); auto.
      + lia.
      + rewrite C. unfold answer. rewrite (plain_records_app an), <- app_assoc. reflexivity.
      + rewrite app_nil_r. reflexivity.
      + cbn [bind]. exists 1, s'. split; [reflexivity|]. split; [|left; reflexivity]. constructor; auto; [| |lia].
        * rewrite C'. unfold answer. rewrite (plain_records_app (map _ an)), <- app_assoc, offs_set_ttl by exact Fan. unfold zlen. rewrite map_length. reflexivity.
        * apply Forall_app. split; [apply set_ttl_map_fits; exact Fan|exact Fr].
  Qed.
End HOLDS2.

(** *** The IP filter *)
Lemma land_shiftl_mask x m k : 0 <= k -> Z.land x (Z.shiftl m k) = Z.shiftl (Z.land (Z.shiftr x k) m) k.
Proof.
  intros Hk. apply Z.bits_inj'. intros n Hn. rewrite Z.land_spec, !Z.shiftl_spec by lia. destruct (Z_lt_dec n k).
  - rewrite !(Z.testbit_neg_r _ (n - k)) by lia. apply andb_false_r.
  - rewrite Z.land_spec, Z.shiftr_spec by lia. replace (n - k + k) with n by lia. reflexivity.
Qed.
Lemma land_high x k j : 0 <= k -> 0 <= j -> 0 <= x < 2 ^ (k + j) -> Z.land x (Z.shiftl (2 ^ j - 1) k) = x / 2 ^ k * 2 ^ k.
Proof.
  intros Hk Hj Hx. rewrite land_shiftl_mask by lia. rewrite land_ones_mod by lia. rewrite Z.shiftl_mul_pow2, Z.shiftr_div_pow2 by lia. f_equal. apply Z.mod_small.
  rewrite Z.pow_add_r in Hx by lia. assert (0 < 2 ^ k) by (apply Z.pow_pos_nonneg; lia). split; [apply Z.div_pos; lia|]. apply Z.div_lt_upper_bound; lia.
Qed.
Lemma ip_number a b c d : byte a -> byte b -> byte c -> byte d -> u32 (Z.lor (Z.lor (Z.lor (Z.shiftl a 24) (Z.shiftl b 16)) (Z.shiftl c 8)) d) = ((a * 256 + b) * 256 + c) * 256 + d.
Proof.
  unfold byte. intros Ha Hb Hc Hd.
  replace (Z.lor (Z.lor (Z.lor (Z.shiftl a 24) (Z.shiftl b 16)) (Z.shiftl c 8)) d) with (Z.lor (Z.shiftl (Z.lor (Z.shiftl (Z.lor (Z.shiftl a 8) b) 8) c) 8) d).
  - rewrite !lor_shiftl8 by lia. apply u32_small. lia.
  - rewrite !Z.shiftl_lor, !Z.shiftl_shiftl by lia. reflexivity.
Qed.
Lemma bad_ip_number a b c d : byte a -> byte b -> byte c -> byte d ->
  let ipc := ((a * 256 + b) * 256 + c) * 256 + d in
  (Z.land ipc 4294901760 =? 3232235520) || (Z.land ipc 4293918720 =? 2886729728) || (Z.land ipc 4278190080 =? 167772160) || (Z.land ipc 4278190080 =? 2130706432)
  || (Z.land ipc 4294901760 =? 2851995648) || (Z.land ipc 4278190080 =? 3758096384) || (Z.land ipc 4294901760 =? 0) = private_ip [a; b; c; d].
Proof.
  intros Ha Hb Hc Hd ipc. unfold byte in *. assert (0 <= ipc < 2 ^ 32) as Hi by (change (2 ^ 32) with 4294967296; subst ipc; lia).
  change 4294901760 with (Z.shiftl (2 ^ 16 - 1) 16). change 4293918720 with (Z.shiftl (2 ^ 12 - 1) 20). change 4278190080 with (Z.shiftl (2 ^ 8 - 1) 24).
  rewrite !land_high by (auto; lia). change (2 ^ 16) with 65536. change (2 ^ 20) with 1048576. change (2 ^ 24) with 16777216.
  assert (ipc / 65536 = a * 256 + b) as -> by (subst ipc; lia). assert (ipc / 1048576 = a * 16 + b / 16) as -> by (subst ipc; lia). assert (ipc / 16777216 = a) as -> by (subst ipc; lia).
  unfold private_ip. clearbody ipc. clear Hi. lia.
Qed.
Lemma check_ip_ok filter blocked ip : dok ip -> dwc_check_ip filter blocked (Some ip) = Ok ((filter && private_ip (con ip)) || match blocked with Some f => f (con ip) | None => false end).
Proof.
  intros D. pose proof D as [[B L M Me] K]. unfold dwc_check_ip.
  assert (firstn (Z.to_nat (d_len ip)) (d_mem ip) = con ip) as -> by reflexivity.
  match goal with |- bind ?m _ = _ => assert (m = Ok (filter && private_ip (con ip))) as -> end.
  2: { cbn [bind]. destruct (filter && private_ip (con ip)); [reflexivity|]. cbn [orb]. destruct blocked; reflexivity. }
  destruct (Z.eqb_spec (d_len ip) 4) as [E4|N4]; cbn [andb].
  - destruct filter; [|reflexivity].
    destruct (rd_byte (d_mem ip) 0 B ltac:(lia)) as (a & R0 & G0 & H0). destruct (rd_byte (d_mem ip) 1 B ltac:(lia)) as (b & R1 & G1 & H1).
    destruct (rd_byte (d_mem ip) 2 B ltac:(lia)) as (c & R2 & G2 & H2). destruct (rd_byte (d_mem ip) 3 B ltac:(lia)) as (d & R3 & G3 & H3).
    rewrite R0, R1, R2, R3. cbn [bind]. cbv zeta. rewrite ip_number by assumption. cbn [andb]. f_equal.
    assert (con ip = [a; b; c; d]) as ->; [|apply bad_ip_number; assumption].
    apply zlist_ext; [rewrite zlen_con by auto; rewrite E4; reflexivity|]. rewrite zlen_con by auto. intros i Hi. rewrite zget_con by auto.
    assert (i = 0 \/ i = 1 \/ i = 2 \/ i = 3) as [->|[->|[->| ->]]] by lia; [rewrite G0|rewrite G1|rewrite G2|rewrite G3]; reflexivity.
  - f_equal. symmetry. apply andb_false_intro2. pose proof (zlen_con ip ltac:(auto)) as Lc. destruct (con ip) as [|a [|b [|c [|d [|e l]]]]]; try reflexivity. exfalso. apply N4. rewrite <- Lc. reflexivity.
Qed.

Section FILTER.
  Variable J : Z -> Z.
  Hypothesis HJ : junk_ok J.
  Variable filter : bool.
  Variable blocked : option (list Z -> bool).

  Lemma substr_at s X Y Z0 n : dok s -> con s = X ++ Y ++ Z0 -> zlen Y = n -> n < 1000 -> exists t, dw_substr J (Some s) (zlen X) n 1 = Ok (Some t) /\ dok t /\ con t = Y.
  Proof.
    intros D C HY Hn. pose proof (f_equal zlen C) as L. repeat rewrite zlen_app in L. rewrite zlen_con in L by auto. pose proof (zlen_nonneg X). pose proof (zlen_nonneg Y). pose proof (zlen_nonneg Z0).
    destruct (dw_substr_ok J s (zlen X) n 1 HJ D ltac:(lia) ltac:(lia) ltac:(lia) ltac:(lia) ltac:(lia)) as (t & E & Dt & Ct & _). exists t. split; [exact E|]. split; [exact Dt|].
    rewrite Ct, C. rewrite zslice_app_r, Z.sub_diag by (rewrite ?zlen_app; lia). rewrite zslice_app_l by lia. rewrite <- HY. apply zslice_all.
  Qed.
  Lemma bad_ip_loop_ok an : forall s A B L Pre Post, dok s -> con s = A ++ plain_records an ++ B -> Forall rr_fits an -> Forall ip_size_ok an ->
    L = Pre ++ offs (zlen A) an ++ Post -> forall counter, zlen Pre = 2 * counter ->
    bad_ip_loop (length an) J filter blocked s L counter = Ok (existsb (unwanted filter blocked) an).
  Proof.
    induction an as [|r an IH]; intros s A B L Pre Post D C F FI EL counter Hc; cbn [length bad_ip_loop existsb]; [reflexivity|].
    inversion F as [|r0 an0 Fr Fan]; subst r0 an0. inversion FI as [|r0 an0 Ir Ian]; subst r0 an0. cbn [offs] in EL.
    assert (forall k, k = counter + 1 -> bad_ip_loop (length an) J filter blocked s L k = Ok (existsb (unwanted filter blocked) an)) as IH'.
    { intros k ->. apply (IH s (A ++ rr_plain r) B L (Pre ++ [zlen A; zlen A + zlen (wire (rr_owner r))]) Post); auto.
      - rewrite C, plain_records_cons. repeat rewrite <- app_assoc. reflexivity.
      - rewrite EL, zlen_app. repeat rewrite <- app_assoc. reflexivity.
      - rewrite zlen_app. change (zlen [zlen A; zlen A + zlen (wire (rr_owner r))]) with 2. lia. }
    rewrite (rd_at L (Pre ++ [zlen A]) (zlen A + zlen (wire (rr_owner r))) (offs (zlen A + zlen (rr_plain r)) an ++ Post))
      by (rewrite ?EL; repeat rewrite <- app_assoc; rewrite ?zlen_app; change (zlen [zlen A]) with 1; reflexivity || lia). cbn [bind].
    destruct Fr as (Hty & Hme & Hrd). rewrite plain_records_cons in C. unfold rr_plain in C.
    assert (con s = (A ++ wire (rr_owner r)) ++ num16 (rr_type r) ++ (rr_meta r ++ num16 (zlen (rdata_plain r)) ++ rdata_plain r ++ plain_records an ++ B)) as C1 by (rewrite C; repeat rewrite <- app_assoc; reflexivity).
    replace (zlen A + zlen (wire (rr_owner r))) with (zlen (A ++ wire (rr_owner r))) by (rewrite zlen_app; reflexivity).
    rewrite (fetch_mid s _ _ _ D C1) by lia. cbn [bind]. unfold unwanted at 1, rr_ip.
    assert (forall n, (n <= 1000)%nat -> Z.of_nat n <= zlen (rdata_plain r) -> Z.of_nat n < 1000 -> exists t, dw_substr J (Some s) (zlen (A ++ wire (rr_owner r)) + 10) (Z.of_nat n) 1 = Ok (Some t) /\ dok t /\ con t = firstn n (rdata_plain r)) as HS.
    { intros n Hn Hn2 Hn3. set (X := A ++ wire (rr_owner r) ++ num16 (rr_type r) ++ rr_meta r ++ num16 (zlen (rdata_plain r))).
      replace (zlen (A ++ wire (rr_owner r)) + 10) with (zlen X) by (subst X; repeat rewrite zlen_app; rewrite !zlen_num16; lia).
      apply (substr_at s X (firstn n (rdata_plain r)) (skipn n (rdata_plain r) ++ plain_records an ++ B)); auto.
      - rewrite C. subst X. rewrite (app_assoc (firstn n _)), firstn_skipn. repeat rewrite <- app_assoc. reflexivity.
      - unfold zlen in *. rewrite firstn_length. lia. }
    destruct Ir as [I1 I28]. destruct (Z.eqb_spec (rr_type r) 1) as [E1|N1].
    - destruct (HS 4%nat ltac:(lia) ltac:(specialize (I1 E1); lia) ltac:(lia)) as (ip & Es & Dip & Cip). change (Z.of_nat 4) with 4 in Es. rewrite Es. cbn [bind]. rewrite check_ip_ok by exact Dip. cbn [bind]. rewrite Cip.
      destruct ((filter && _) || _); [reflexivity|]. cbn [orb]. apply IH'. reflexivity.
    - destruct (Z.eqb_spec (rr_type r) 28) as [E28|N28]; [|cbn [orb]; apply IH'; reflexivity].
      destruct (HS 16%nat ltac:(lia) ltac:(specialize (I28 E28); lia) ltac:(lia)) as (ip & Es & Dip & Cip). change (Z.of_nat 16) with 16 in Es. rewrite Es. cbn [bind]. rewrite check_ip_ok by exact Dip. cbn [bind]. rewrite Cip.
      destruct ((filter && _) || _); [reflexivity|]. cbn [orb]. apply IH'. reflexivity.
  Qed.
  Lemma has_bad_ip_ok s an ns ar t : holds s an ns ar t -> Forall ip_size_ok an -> dwc_has_bad_ip J filter blocked s = Ok (existsb (unwanted filter blocked) an).
  Proof.
    intros H HI. pose proof H as [D C F Ht Hl]. unfold dwc_has_bad_ip. destruct (an ++ ns ++ ar) as [|r0 rs0] eqn:ER.
    - apply app_eq_nil in ER as [-> ER]. apply app_eq_nil in ER as [-> ->]. rewrite make_dns_str_empty with (t := t) by exact H. reflexivity.
    - destruct (make_dns_str_ok J HJ s an ns ar t H) as (p & -> & _); [rewrite ER; discriminate|]. cbn [n_ancount n_an]. replace (Z.to_nat (zlen an)) with (length an) by (unfold zlen; lia).
      eapply (bad_ip_loop_ok an s [] _ _ [] []); auto.
      + rewrite C. unfold answer. rewrite (plain_records_app an), <- app_assoc. reflexivity.
      + rewrite <- ER in F. apply Forall_app in F. apply F.
      + rewrite app_nil_r. reflexivity.
  Qed.
End FILTER.
