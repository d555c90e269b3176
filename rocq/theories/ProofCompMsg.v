(** Messages written by MaraDNS' compressor say what was to be written. *)
From Verif Require Import CBase Bits ModelDwStr SpecDwStr ProofDwStr SpecNames SpecMessage SpecAcl SpecDeadwoodMsg SpecQuery ModelJsStr SpecJsStr ProofJsStr ProofJsSearch
  ModelQueries SpecQueries ProofQueries ProofDwDname ProofDwNames ProofDwDnsStr ProofQuestion ModelDecomp SpecDecomp ProofJsList ProofDecompList ProofDecompPacket ProofDecompSpec ProofDecompRec ModelCompress ProofCompList ProofCompPacket
  SpecCompress SpecReply SpecPack ProofCompName ProofCompRec.

Lemma canswers_S n mx m st : l_canswers (S n) mx m st = obind (l_crec mx m st) (l_canswers n mx m).
Proof.
  cbn [l_canswers]. unfold l_crec. destruct (l_cname mx m st) as [s1|]; cbn [obind]; [|reflexivity]. destruct (l_ctype m s1) as [(t & s2)|]; cbn [obind]; [|reflexivity]. cbv zeta. destruct (l_u16 m s2) as [(rl & s3)|]; cbn [obind]; [|reflexivity]. destruct (l_cdata mx m s3 (zlen (l_out s2)) t rl); reflexivity.
Qed.
Definition recs_labels (rs : list rr) : Z := total (map rr_labels rs).
Lemma rr_labels_nonneg r : 0 <= rr_labels r. Proof. apply (total_nonneg (rr_owner r :: rr_names r)). Qed.
Lemma recs_labels_nonneg rs : 0 <= recs_labels rs.
Proof. unfold recs_labels. induction rs as [|r rs IH]; cbn [map total]; [lia|]. pose proof (rr_labels_nonneg r). lia. Qed.
Lemma plain_canswers (P : Prop) mx m rs : bytes m -> Forall plain_rr rs -> forall out off pts, 0 <= off -> off + zlen (plain_records rs) <= zlen m -> zslice m off (zlen (plain_records rs)) = plain_records rs ->
  bytes out -> 12 <= zlen out -> Forall (place_ok yes out) pts -> (P -> zlen out + zlen (plain_records rs) < 4100 /\ off + zlen (plain_records rs) < mx /\ zlen pts + recs_labels rs <= 150) ->
  yields P (l_canswers (length rs) mx m (mkl out off pts)) (fun st => exists y rs', l_out st = out ++ y /\ bytes y /\ recs_in 256 (out ++ y) (zlen out) rs' (zlen out + zlen y) /\ Forall2 same_rr rs' (map capped rs) /\ Forall small_data rs /\ zlen y <= zlen (plain_records rs)).
Proof.
  intros BM. induction 1 as [|r rs PR PRS IH]; intros out off pts O RG E BO O12 PO HP.
  - cbn [length l_canswers]. apply yields_some. exists [], []. rewrite app_nil_r. cbn [l_out map]. change (zlen (@nil Z)) with 0. rewrite Z.add_0_r. split; [reflexivity|]. split; [constructor|]. split; [constructor|]. split; [constructor|]. split; [constructor|]. apply zlen_nonneg.
  - unfold plain_records in *. cbn [map concat length] in *. fold (plain_records rs) in *. rewrite zlen_app in *. pose proof (zlen_nonneg (plain_records rs)). pose proof (zlen_nonneg (rr_plain r)). unfold recs_labels in HP. cbn [map total] in HP. fold (recs_labels rs) in HP. pose proof (rr_labels_nonneg r). pose proof (recs_labels_nonneg rs).
    destruct (zslice_app_inv m off (rr_plain r) (plain_records rs)) as (E1 & E2); [lia|rewrite zlen_app; lia|rewrite zlen_app; exact E|]. rewrite canswers_S.
    eapply yields_bind; [apply (plain_crec P mx m r out off pts); try assumption; try lia; intros X; specialize (HP X); lia|]. intros [out1 off1 pts1] (y & r' & EO & BY & RI & SR & LY & SD & OF & PO1 & NP1). cbn [l_out l_off l_pts] in *. subst out1 off1. pose proof (zlen_nonneg y). pose proof (zlen_app out y) as LO.
    eapply yields_weak; [intros X; exact X| |apply (IH (out ++ y) (off + zlen (rr_plain r)) pts1); try assumption; try lia].
    + intros st (z & rs' & EO2 & BZ & RIS & SRS & SDS & LZ). exists (y ++ z), (r' :: rs'). rewrite <- app_assoc in *. split; [exact EO2|]. split; [apply bytes_app; split; assumption|]. rewrite zlen_app. split; [|split; [constructor; assumption|split; [constructor; assumption|lia]]].
      apply (recs_more _ _ _ _ (zlen out + zlen y)); [rewrite app_assoc; apply rec_in_app, RI|]. rewrite LO in RIS. replace (zlen out + (zlen y + zlen z)) with (zlen out + zlen y + zlen z) by lia. exact RIS.
    + apply bytes_app; split; assumption.
Qed.
Lemma comp_fresh mx m begin n : bytes m -> good_name n -> forall F out off ret st, 0 <= off -> zslice m off (zlen (wire n)) = wire n -> off + zlen (wire n) <= zlen m -> l_comp F mx m (mkl out off []) begin = Some (ret, st) -> l_out st = out ++ wire n.
Proof.
  intros BM. induction 1 as [|l n GL G IH]; intros F out off ret st O E R; (destruct F as [|F]; [discriminate|]); cbn [l_comp].
  - change (zlen (wire [])) with 1 in *. change (wire []) with [0] in *. destruct (zslice_cons_inv m off 0 [] O R E) as (E0 & _). unfold l_sub. rewrite E0. cbn [Z.eqb]. unfold l_take, l_add. rewrite E. destruct ((off <? zlen m) && (off + 1 <=? zlen m)); [|discriminate]. destruct (zlen out + zlen [0] <? 4100); [|discriminate]. cbn [obind]. destruct (mx <=? off + 1); [discriminate|]. cbn [obind Z.eqb].
    intros X. apply some_inj, pair_equal_spec in X as (_ & <-). reflexivity.
  - pose proof GL as (L63 & BL). pose proof (wire_pos1 n) as W1. rewrite wire_app_len in R, E. cbn [wire] in E.
    destruct (zslice_cons_inv m off (zlen l) (l ++ wire n) O) as (E0 & E1).
    { rewrite zlen_cons, zlen_app. lia. }
    { rewrite zlen_cons, zlen_app. replace (zlen l + zlen (wire n) + 1) with (zlen l + 1 + zlen (wire n)) by lia. exact E. }
    destruct (zslice_app_inv m (off + 1) l (wire n)) as (E2 & E3); [lia|rewrite zlen_app; lia|exact E1|].
    unfold l_sub. rewrite E0. replace (zlen l =? 0) with false by lia. replace (63 <? zlen l) with false by lia. destruct ((zlen m <=? off + zlen l + 1) || (mx <=? off + zlen l + 1)); [discriminate|]. cbn [l_find]. unfold l_take, l_add.
    assert (zslice m off (zlen l + 1) = zlen l :: l) as ES by (apply label_slice; try assumption; lia). rewrite ES. destruct ((off <? zlen m) && (off + (zlen l + 1) <=? zlen m)); [|discriminate]. destruct (zlen out + zlen (zlen l :: l) <? 4100); [|discriminate]. cbn [obind]. cbn [Z.eqb Pos.eqb].
    intros X. apply IH in X; [|lia|replace (off + zlen l + 1) with (off + 1 + zlen l) by lia; exact E3|lia]. rewrite X, <- app_assoc. reflexivity.
Qed.
Lemma add_points_out st p st' : l_add_points st p = Some st' -> l_out st' = l_out st.
Proof. unfold l_add_points. destruct (l_points _ _ _ _); cbn [obind]; [|discriminate]. intros X. apply some_inj in X as <-. reflexivity. Qed.
Lemma cname_fresh mx m n out off st : bytes m -> good_name n -> 0 <= off -> zslice m off (zlen (wire n)) = wire n -> off + zlen (wire n) <= zlen m -> l_cname mx m (mkl out off []) = Some st -> l_out st = out ++ wire n.
Proof.
  intros BM G O E R. unfold l_cname. cbn [l_off l_out]. destruct (l_comp (S (Z.to_nat (zlen m))) mx m (mkl out off []) off) as [(ret & s1)|] eqn:C; cbn [obind]; [|discriminate]. pose proof (comp_fresh _ _ _ _ BM G _ _ _ _ _ O E R C) as X.
  destruct (ret =? 3); [intros Y; apply some_inj in Y as <-; exact X|]. intros Y. rewrite (add_points_out _ _ _ Y). exact X.
Qed.
Lemma chead_ok m header : bytes m -> 12 <= zlen m -> header = zslice m 0 12 -> field16 m 4 <= 1 -> (field16 m 4 = 0 -> field16 m 6 + field16 m 8 + field16 m 10 = 0) ->
  l_chead m = Some (if field16 m 4 =? 0 then -2 else field16 m 6 + field16 m 8 + field16 m 10, mkl header 12 []).
Proof.
  intros BM L -> Q1 Q0. unfold l_chead, l_take, l_add. change (zlen (@nil Z)) with 0. rewrite zlen_zslice by lia. replace ((0 <? zlen m) && (0 + 4 <=? zlen m)) with true by lia. change (0 + 4 <? 4100) with true. cbn [obind app]. replace (zlen m <=? 4) with false by lia.
  assert (forall out off, 0 <= off -> off + 2 <= zlen m -> zlen out + 2 < 4100 -> l_u16 m (mkl out off []) = Some (field16 m off, mkl (out ++ zslice m off 2) (off + 2) [])) as U.
  { intros out off O1 O2 O3. pose proof (u16_step True m out off [] (zslice m off 2) BM O1 O2 ltac:(apply zlen_zslice; lia) eq_refl ltac:(intros _; exact O3)) as Y. destruct (l_u16 m (mkl out off [])); cbn [yields] in Y; [rewrite Y; reflexivity|destruct (Y Logic.I)]. }
  assert (forall k, 0 <= k -> zslice m 0 k ++ zslice m k 2 = zslice m 0 (k + 2)) as ZS by (intros k K; rewrite zslice_split by lia; reflexivity).
  rewrite U by (rewrite ?zlen_zslice; lia). cbn [obind]. rewrite (ZS 4) by lia. change (4 + 2) with 6.
  rewrite U by (rewrite ?zlen_zslice; lia). cbn [obind]. rewrite (ZS 6) by lia. change (6 + 2) with 8.
  rewrite U by (rewrite ?zlen_zslice; lia). cbn [obind]. rewrite (ZS 8) by lia. change (8 + 2) with 10.
  rewrite U by (rewrite ?zlen_zslice; lia). cbn [obind]. rewrite (ZS 10) by lia. change (10 + 2) with 12.
  destruct (num16_number m 4 BM ltac:(lia) ltac:(lia)) as (_ & R4). fold (field16 m 4) in R4. replace (1 <? field16 m 4) with false by lia. destruct (negb (field16 m 6 + field16 m 8 + field16 m 10 =? 0) && negb (field16 m 4 =? 1)) eqn:G; [lia|reflexivity].
Qed.
Lemma field16_app h x p : 0 <= p -> p + 2 <= zlen h -> field16 (h ++ x) p = field16 h p.
Proof. intros P L. unfold field16. rewrite zslice_app_l by lia. reflexivity. Qed.
Lemma compress_says mx cap m header n q rs : bytes m -> plain_message m header n q rs ->
  yields (zlen m < 4100 /\ zlen m < mx /\ all_labels n rs <= 150 /\ zlen m < cap) (l_compress mx cap m)
    (fun y => exists rs', expands 256 y rs' (header ++ (wire n ++ q) ++ plain_records rs') /\ Forall2 same_rr rs' (map capped rs) /\ Forall small_data rs /\ zlen y <= zlen m /\ zlen y < cap).
Proof.
  intros BM [EM LH LQ QD CT SN PRS]. pose proof SN as (G & L255). pose proof (wire_pos1 n) as WP. pose proof (zlen_nonneg (plain_records rs)) as RN. assert (zlen m = 16 + zlen (wire n) + zlen (plain_records rs)) as LM by (rewrite EM, !zlen_app, LH, LQ; lia).
  assert (all_labels n rs = labels n + recs_labels rs) as AL by reflexivity. pose proof (recs_labels_nonneg rs) as RLN.
  assert (header = zslice m 0 12) as EH by (rewrite EM, zslice_app_l, <- LH by lia; symmetry; apply zslice_all).
  destruct (zslice_app_inv m 0 header ((wire n ++ q) ++ plain_records rs)) as (_ & E1); [lia|rewrite <- EM; lia|rewrite <- EM; apply zslice_all|]. rewrite <- app_assoc in E1. rewrite LH in E1. change (0 + 12) with 12 in E1.
  destruct (zslice_app_inv m 12 (wire n) (q ++ plain_records rs)) as (E2 & E3); [lia|rewrite !zlen_app; lia|exact E1|]. destruct (zslice_app_inv m (12 + zlen (wire n)) q (plain_records rs)) as (E4 & E5); [lia|rewrite !zlen_app; lia|exact E3|]. rewrite LQ in E4, E5.
  assert (bytes header) as BH by (rewrite EH; apply bytes_zslice, BM). assert (bytes q) as BQ by (rewrite <- E4; apply bytes_zslice, BM). assert (bytes (wire n)) as BW by (rewrite <- E2; apply bytes_zslice, BM).
  set (P := zlen m < 4100 /\ zlen m < mx /\ all_labels n rs <= 150 /\ zlen m < cap). unfold l_compress. rewrite (chead_ok m header BM ltac:(lia) EH ltac:(lia) ltac:(lia)). cbn [obind]. rewrite QD. change (1 =? 0) with false. cbv iota. rewrite CT.
  unfold l_cquestion. pose proof (zlen_nonneg rs) as RSN. replace (zlen rs =? -2) with false by lia.
  eapply yields_bind; [eapply yields_bind; [|]|].
  - pose proof (l_cname_ok yes mx m n header 12 [] BM SN ltac:(lia) E2 ltac:(lia) BH ltac:(lia) ltac:(constructor) ltac:(intros; exact Logic.I)) as Y. pose proof (cname_fresh mx m n header 12) as F. destruct (l_cname mx m (mkl header 12 [])) as [st|] eqn:EC; cbn [yields] in Y |- *.
    + specialize (F st BM G ltac:(lia) E2 ltac:(lia) eq_refl). instantiate (1 := fun st => exists pts, st = mkl (header ++ wire n) (12 + zlen (wire n)) pts /\ Forall (place_ok yes (header ++ wire n)) pts /\ zlen pts <= labels n).
      destruct st as [o of pts]. cbn [l_out l_off l_pts] in *. destruct Y as ((y & b & n' & _ & EF & _) & Y2 & Y3). subst o of. exists pts. split; [reflexivity|]. split; [exact Y2|]. change (zlen (@nil Z)) with 0 in Y3. lia.
    + unfold P. change (zlen (@nil Z)) with 0 in Y. lia.
  - intros st (pts & -> & PO & NP). assert (zlen (header ++ wire n) = 12 + zlen (wire n)) as L1 by (rewrite zlen_app; lia).
    assert (zslice m (12 + zlen (wire n)) 2 = zslice q 0 2) as Q1 by (rewrite <- E4, zslice_zslice by lia; f_equal; lia). assert (zslice m (12 + zlen (wire n) + 2) 2 = zslice q 2 2) as Q2 by (rewrite <- E4, zslice_zslice by lia; f_equal; lia).
    eapply yields_bind; [apply (u16_step P m _ _ pts (zslice q 0 2)); try assumption; try lia; apply zlen_zslice; lia|]. intros p ->.
    eapply yields_bind; [apply (u16_step P m _ _ pts (zslice q 2 2)); try assumption; try lia; [apply zlen_zslice; lia|rewrite zlen_app, zlen_zslice by lia; lia]|]. intros p ->. cbn [yields].
    instantiate (1 := fun st => exists pts, st = mkl (header ++ wire n ++ q) (16 + zlen (wire n)) pts /\ Forall (place_ok yes (header ++ wire n ++ q)) pts /\ zlen pts <= labels n). exists pts.
    rewrite <- !app_assoc. replace (zslice q 0 2 ++ zslice q 2 2) with q by (rewrite <- (zslice_all q) at 1; rewrite LQ; apply (zslice_split q 0 2 2); lia). split; [f_equal; lia|]. split; [rewrite app_assoc; apply places_app, PO|exact NP].
  - intros st (pts & -> & PO & NP). assert (zlen (header ++ wire n ++ q) = 16 + zlen (wire n)) as L2 by (rewrite !zlen_app; lia). replace (Z.to_nat (zlen rs)) with (length rs) by (unfold zlen; lia).
    eapply yields_bind; [apply (plain_canswers P mx m rs BM PRS); try assumption; try lia|].
    + rewrite <- E5 at 2. f_equal. lia.
    + apply bytes_app; split; [exact BH|]. apply bytes_app; split; assumption.
    + unfold P. lia.
    + intros [out' off' pts'] (y & rs' & EO & BY & RI & SR & SD & LY). cbn [l_out] in *. subst out'. pose proof (zlen_app (header ++ wire n ++ q) y) as LA. destruct (zlen ((header ++ wire n ++ q) ++ y) <? cap) eqn:GC; cbn [yields]; [|unfold P; lia].
      exists rs'. split; [|split; [exact SR|split; [exact SD|split; lia]]]. rewrite <- app_assoc in *. set (w := (wire n ++ q) ++ y) in *. pose proof (zlen_nonneg y). assert (zlen (header ++ w) = 16 + zlen (wire n) + zlen y) as LW by lia.
      assert (forall p, 0 <= p -> p + 2 <= 12 -> field16 (header ++ w) p = field16 m p) as FF. { intros p P0 P2. rewrite EM. rewrite !field16_app by lia. reflexivity. }
      apply (exp_question _ _ _ _ n (12 + zlen (wire n)) (16 + zlen (wire n) + zlen y)).
      * lia.
      * rewrite FF by lia. exact QD.
      * apply plain_in; try assumption; try lia. unfold w. rewrite <- app_assoc, zslice_app_r by (rewrite ?zlen_app; lia). rewrite LH, Z.sub_diag, zslice_app_l by lia. apply zslice_all.
      * lia.
      * rewrite L2 in RI. replace (12 + zlen (wire n) + 4) with (16 + zlen (wire n)) by lia. exact RI.
      * rewrite !FF by lia. rewrite CT. pose proof (same_length _ _ _ SR) as SL. rewrite map_length in SL. unfold zlen. rewrite SL. reflexivity.
      * rewrite zslice_app_l by lia. rewrite <- LH at 1. rewrite zslice_all. f_equal. f_equal. f_equal. unfold w. rewrite <- app_assoc, app_assoc, zslice_app_r by (rewrite ?zlen_app; lia). rewrite zlen_app, LH, Z.sub_diag, zslice_app_l by lia. rewrite <- LQ. symmetry. apply zslice_all.
Qed.
