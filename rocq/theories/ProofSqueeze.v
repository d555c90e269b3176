(** The length of names in packets, and making packets shorter (dns/Queries.c dlabel_length, squeeze_to_fit). *)
From Verif Require Import CBase Bits ModelDwStr SpecDwStr ProofDwStr SpecNames SpecMessage SpecAcl SpecDeadwoodMsg SpecQuery ModelJsStr SpecJsStr ProofJsStr ProofJsSearch
  ModelQueries SpecQueries ProofQueries ProofHname ProofQuestion.

(** ** dlabel_length *)
Lemma dl_safe F : forall s o length toread, j_wf s -> j_size s = 1 -> 0 <= o -> 0 <= length -> o + length <= j_count s -> zget (j_mem s) (o + length) = Some toread ->
  257 - length < 2 * Z.of_nat F -> (0 < F)%nat ->
  exists r, dlabel_loop F s o length toread = Ok r /\ (r = -1 \/ (length + 1 <= r /\ o + r <= j_count s /\ (r <= 256 -> name_form (zslice (j_mem s) (o + length) (r - length))))).
Proof.
  induction F as [|F IH]; intros s o len toread W S1 O L C E FF F0; [lia|]. cbn [dlabel_loop].
  pose proof (jw_mem s W) as LM. rewrite S1 in LM. pose proof (jw_count s W). pose proof (jw_bytes s W) as BM. pose proof (zget_bytes _ _ _ BM E) as BT. unfold byte in BT.
  destruct ((len <? 256) && (0 <? toread) && negb (toread =? 95)) eqn:G.
  - destruct (192 <=? toread) eqn:G2.
    { eexists. split; [reflexivity|]. destruct (len + 2 + o <=? j_count s) eqn:G3; [right|left; reflexivity]. split; [lia|]. split; [lia|]. intros _.
      destruct (zget_some (j_mem s) (o + len + 1) ltac:(lia)) as (b & EB). exists [], [toread; b]. split; [constructor|]. split; [|right; right; exists toread, b; split; [lia|reflexivity]].
      replace (len + 2 - len) with (1 + 1) by lia. rewrite zslice_split by lia. rewrite (zslice_one _ _ _ E), (zslice_one _ _ _ EB). reflexivity. }
    destruct (63 <? toread) eqn:G4; [eexists; split; [reflexivity|]; left; reflexivity|]. cbv zeta.
    destruct (j_count s <? len + (toread + 1) + o) eqn:G5; [eexists; split; [reflexivity|]; left; reflexivity|].
    destruct (zget_some (j_mem s) (o + (len + (toread + 1))) ltac:(lia)) as (b & EB).
    assert (rd (j_mem s) (len + (toread + 1) + o) = Ok b) as -> by (apply rd_of_zget; rewrite <- EB; f_equal; lia). cbn [bind].
    destruct (IH s o (len + (toread + 1)) b) as (r & -> & R); try assumption; try lia.
    eexists. split; [reflexivity|]. destruct R as [R|(R1 & R2 & R3)]; [left; exact R|right]. split; [lia|]. split; [lia|]. intros R256.
    destruct (R3 R256) as (n & e & GN & EN & EE).
    assert (zlen (zslice (j_mem s) (o + len + 1) toread) = toread) as LL by (apply zlen_zslice; lia).
    exists (zslice (j_mem s) (o + len + 1) toread :: n), e. split; [constructor; [split; [lia|apply bytes_zslice, BM]|exact GN]|]. split; [|exact EE].
    rewrite labels_cons, LL. replace (r - len) with (1 + (toread + (r - (len + (toread + 1))))) by lia. rewrite !zslice_split by lia. rewrite (zslice_one _ _ _ E). cbn [app].
    f_equal. rewrite <- app_assoc. f_equal. rewrite <- EN. f_equal. lia.
  - eexists. split; [reflexivity|]. destruct (len + 1 + o <=? j_count s) eqn:G3; [right|left; reflexivity]. split; [lia|]. split; [lia|]. intros R256.
    replace (len + 1 - len) with 1 by lia. rewrite (zslice_one _ _ _ E). exists [], [toread]. split; [constructor|]. split; [reflexivity|].
    destruct (Z.eqb_spec toread 95) as [-> |]; [right; left; reflexivity|left; f_equal; lia].
Qed.
Lemma dlabel_length_gen s o : j_wf s -> j_size s = 1 -> i32_ok o ->
  exists r, dlabel_length s o = Ok r /\ (r = -1 \/ (1 <= r /\ 0 <= o /\ o + r <= j_count s /\ (r <= 256 -> name_form (zslice (j_mem s) o r)))).
Proof.
  intros W S1 IO. unfold i32_ok in IO. unfold dlabel_length. cbv zeta. rewrite octet_ok by assumption. cbn [negb].
  pose proof (jw_mem s W) as LM. rewrite S1 in LM. pose proof (jw_count s W). pose proof (jw_small s W) as SM. rewrite S1 in SM.
  destruct (j_count s <? u32 o) eqn:G; [eexists; split; [reflexivity|]; left; reflexivity|].
  assert (u32 o = o /\ 0 <= o) as (U & O) by (unfold u32 in *; split; lia). rewrite U in *. clear U.
  destruct (zget_some (j_mem s) o ltac:(lia)) as (b & E). rewrite (rd_of_zget _ _ _ E). cbn [bind].
  destruct (dl_safe 258 s o 0 b) as (r & -> & R); try assumption; try lia.
  { rewrite Z.add_0_r. exact E. }
  eexists. split; [reflexivity|]. destruct R as [R|(R1 & R2 & R3)]; [left; exact R|right]. split; [lia|]. split; [lia|]. split; [lia|]. rewrite Z.add_0_r, Z.sub_0_r in R3. exact R3.
Qed.
Lemma dl_ok n e : forall F s o length toread, j_wf s -> j_size s = 1 -> 0 <= o -> 0 <= length ->
  good_name n -> (e = [0] \/ e = [95] \/ exists a b, 192 <= a /\ e = [a; b]) -> zslice (j_mem s) (o + length) (zlen (labels n ++ e)) = labels n ++ e ->
  o + length + zlen (labels n ++ e) <= j_count s -> length + zlen (labels n) < 256 -> zget (j_mem s) (o + length) = Some toread -> (List.length n < F)%nat ->
  dlabel_loop F s o length toread = Ok (length + zlen (labels n ++ e)).
Proof.
  induction n as [|l n IH]; intros F s o len toread W S1 O L GN EE EL C C2 E FF; (destruct F as [|F]; [cbn in FF; lia|]); cbn [dlabel_loop].
  - change (labels []) with (@nil Z) in *. cbn [app] in *. change (zlen (@nil Z)) with 0 in *.
    pose proof (jw_mem s W) as LM. rewrite S1 in LM. pose proof (jw_count s W).
    assert (zget e 0 = Some toread) as E0.
    { rewrite <- EL. assert (1 <= zlen e) as LE by (destruct EE as [-> |[-> |(x & y & _ & ->)]]; cbv; discriminate).
      rewrite zget_zslice by lia. rewrite !Z.add_0_r in *. exact E. }
    destruct EE as [-> |[-> |(a & b & A & ->)]]; cbn in E0; injection E0 as <-.
    + change (zlen [0]) with 1 in *. rewrite andb_false_r. cbn [andb]. replace (len + 1 + o <=? j_count s) with true by lia. reflexivity.
    + change (zlen [95]) with 1 in *. change (negb (95 =? 95)) with false. rewrite andb_false_r. replace (len + 1 + o <=? j_count s) with true by lia. reflexivity.
    + change (zlen [a; b]) with 2 in *. replace ((len <? 256) && (0 <? a) && negb (a =? 95)) with true by lia. replace (192 <=? a) with true by lia.
      replace (len + 2 + o <=? j_count s) with true by lia. reflexivity.
  - apply Forall_cons_iff in GN as ((G1 & G2) & GN). rewrite labels_cons in *. cbn [app] in *. rewrite <- app_assoc in *. rewrite zlen_cons, zlen_app in C2. rewrite zlen_cons, (zlen_app l) in *.
    pose proof (jw_mem s W) as LM. rewrite S1 in LM. pose proof (jw_count s W). pose proof (zlen_nonneg (labels n ++ e)). pose proof (zlen_nonneg (labels n)).
    replace (zlen l + zlen (labels n ++ e) + 1) with (1 + (zlen l + zlen (labels n ++ e))) in EL by lia. rewrite zslice_split in EL by lia. rewrite (zslice_one _ _ _ E) in EL. cbn [app] in EL.
    injection EL as -> EL. rewrite zslice_split in EL by lia. apply app_split in EL as (_ & EL).
    2:{ apply Nat2Z.inj. apply (zlen_zslice (j_mem s) (o + len + 1) (zlen l)); lia. }
    replace ((len <? 256) && (0 <? zlen l) && negb (zlen l =? 95)) with true by lia. replace (192 <=? zlen l) with false by lia. replace (63 <? zlen l) with false by lia. cbv zeta.
    replace (j_count s <? len + (zlen l + 1) + o) with false by lia.
    destruct (zget_some (j_mem s) (o + (len + (zlen l + 1))) ltac:(lia)) as (b & EB).
    assert (rd (j_mem s) (len + (zlen l + 1) + o) = Ok b) as -> by (apply rd_of_zget; rewrite <- EB; f_equal; lia). cbn [bind].
    rewrite IH; try assumption; try lia.
    + f_equal. lia.
    + replace (o + (len + (zlen l + 1))) with (o + len + 1 + zlen l) by lia. exact EL.
    + cbn in FF. lia.
Qed.
Lemma dlabel_length_ok s a n e b : holding s (a ++ (labels n ++ e) ++ b) -> good_name n -> (e = [0] \/ e = [95] \/ exists x y, 192 <= x /\ e = [x; y]) -> zlen (labels n) < 256 ->
  dlabel_length s (zlen a) = Ok (zlen (labels n ++ e)).
Proof.
  intros H GN EE C. destruct (holding_slice s _ H) as (E1 & C1 & M1 & N1 & B1 & Z1). destruct H as (W & S1 & _). rewrite !(zlen_app _ (_ ++ b)), (zlen_app _ b) in *.
  pose proof (zlen_nonneg a). pose proof (zlen_nonneg b). pose proof (zlen_nonneg (labels n)).
  assert (1 <= zlen e) as LE by (destruct EE as [-> |[-> |(x & y & _ & ->)]]; cbv; discriminate).
  assert (zlen (labels n ++ e) = zlen (labels n) + zlen e) as LN by apply zlen_app.
  unfold dlabel_length. cbv zeta. rewrite octet_ok by assumption. cbn [negb]. rewrite u32_small by lia. replace (j_count s <? zlen a) with false by lia.
  destruct (zget_some (j_mem s) (zlen a) ltac:(lia)) as (t & E). rewrite (rd_of_zget _ _ _ E). cbn [bind].
  rewrite (dl_ok n e); try assumption; try lia.
  - f_equal.
  - rewrite Z.add_0_r.
    assert (zslice (j_mem s) (zlen a) (zlen (labels n ++ e)) = zslice (a ++ (labels n ++ e) ++ b) (zlen a) (zlen (labels n ++ e))) as X.
    { rewrite <- E1. rewrite zslice_zslice by lia. rewrite Z.add_0_l. reflexivity. }
    rewrite X, zslice_app_r by (rewrite ?zlen_app; lia). rewrite Z.sub_diag, zslice_app_l by lia. apply zslice_all.
  - rewrite Z.add_0_r. exact E.
  - assert (Z.of_nat (length n) <= zlen (labels n)) as X; [|lia]. clear -GN. induction n as [|l n IH]; [reflexivity|]. apply Forall_cons_iff in GN as (G & GN). specialize (IH GN).
    rewrite labels_cons, zlen_cons, zlen_app. cbn [length]. pose proof (zlen_nonneg l). lia.
Qed.
Lemma dlabel_wire s a n b : holding s (a ++ wire n ++ b) -> short_name n -> dlabel_length s (zlen a) = Ok (zlen (wire n)).
Proof.
  intros H (GN & SN). rewrite wire_labels in *. rewrite zlen_app in SN. change (zlen [0]) with 1 in SN. apply (dlabel_length_ok s a n [0] b); try assumption; [left; reflexivity|lia].
Qed.

(** ** Past questions and records *)
Lemma skip_questions_ok qs : forall s a b, holding s (a ++ concat (map question_bytes qs) ++ b) -> Forall question_ok qs -> (qs = [] \/ b <> []) ->
  skip_questions (length qs) s (zlen a) = Ok (Some (zlen a + zlen (concat (map question_bytes qs)))).
Proof.
  induction qs as [|q qs IH]; intros s a b H Q NE; cbn [skip_questions length].
  - cbn [map concat]. change (zlen (@nil Z)) with 0. rewrite Z.add_0_r. reflexivity.
  - apply Forall_cons_iff in Q as (Q1 & Q). destruct NE as [NE|NE]; [discriminate|]. cbn [map concat] in *.
    assert (a ++ (question_bytes q ++ concat (map question_bytes qs)) ++ b = a ++ wire (qu_name q) ++ ((be 2 (qu_type q) ++ be 2 (qu_class q)) ++ concat (map question_bytes qs) ++ b)) as E1.
    { unfold question_bytes at 1. rewrite <- !app_assoc. reflexivity. }
    assert (a ++ (question_bytes q ++ concat (map question_bytes qs)) ++ b = (a ++ question_bytes q) ++ concat (map question_bytes qs) ++ b) as E2 by (rewrite <- !app_assoc; reflexivity).
    destruct (holding_slice s _ H) as (_ & C1 & _). rewrite (dlabel_wire s a (qu_name q) _ (eq_rect _ (holding s) H _ E1) (proj1 Q1)). cbn [bind].
    pose proof (wire_pos (qu_name q)). replace (zlen (wire (qu_name q)) =? JS_ERROR) with false by (unfold JS_ERROR; lia). cbv zeta.
    rewrite !zlen_app in *. pose proof (zlen_question q) as LQ. pose proof (zlen_nonneg (concat (map question_bytes qs))).
    assert (1 <= zlen b) by (destruct b as [|x b]; [congruence|rewrite zlen_cons; pose proof (zlen_nonneg b); lia]).
    replace (j_count s <=? zlen a + (zlen (wire (qu_name q)) + 4)) with false by lia.
    replace (zlen a + (zlen (wire (qu_name q)) + 4)) with (zlen (a ++ question_bytes q)) by (rewrite zlen_app; lia).
    rewrite (IH s (a ++ question_bytes q) b); [rewrite zlen_app; do 2 f_equal; lia| |exact Q|right; exact NE]. rewrite <- E2. exact H.
Qed.
Lemma zlen_rr r : zlen (rr_meta r) = 6 -> zlen (rr_plain r) = zlen (wire (rr_owner r)) + 10 + zlen (rdata_plain r).
Proof. intros M. unfold rr_plain. rewrite !zlen_app, M. change (zlen (num16 _)) with 2. change (zlen (num16 (zlen (rdata_plain r)))) with 2. lia. Qed.
Lemma skip_records_ok rs : forall s a b, holding s (a ++ plain_records rs ++ b) -> Forall record_ok rs -> (rs = [] \/ b <> []) ->
  skip_records (length rs) s (zlen a) = Ok (Some (zlen a + zlen (plain_records rs))).
Proof.
  unfold plain_records. induction rs as [|q qs IH]; intros s a b H Q NE; cbn [skip_records length].
  - cbn [map concat]. change (zlen (@nil Z)) with 0. rewrite Z.add_0_r. reflexivity.
  - apply Forall_cons_iff in Q as (Q1 & Q). destruct NE as [NE|NE]; [discriminate|]. cbn [map concat] in *. pose proof Q1 as (SN & WT & WM & WL).
    set (tail := concat (map rr_plain qs) ++ b).
    assert (a ++ (rr_plain q ++ concat (map rr_plain qs)) ++ b = a ++ wire (rr_owner q) ++ ((num16 (rr_type q) ++ rr_meta q) ++ num16 (zlen (rdata_plain q)) ++ rdata_plain q ++ tail)) as E1.
    { unfold rr_plain at 1, tail. rewrite <- !app_assoc. reflexivity. }
    assert (a ++ (rr_plain q ++ concat (map rr_plain qs)) ++ b = (a ++ rr_plain q) ++ concat (map rr_plain qs) ++ b) as E2 by (rewrite <- !app_assoc; reflexivity).
    destruct (holding_slice s _ H) as (ES & C1 & M1 & N1 & B1 & Z1). rewrite (dlabel_wire s a (rr_owner q) _ (eq_rect _ (holding s) H _ E1) SN). cbn [bind].
    pose proof (wire_pos (rr_owner q)). replace (zlen (wire (rr_owner q)) =? JS_ERROR) with false by (unfold JS_ERROR; lia). cbv zeta.
    rewrite E1 in ES.
    rewrite !zlen_app in C1. pose proof (zlen_rr q WM) as LQ. pose proof (zlen_nonneg (concat (map rr_plain qs))). pose proof (zlen_nonneg (rdata_plain q)). pose proof (zlen_nonneg a).
    assert (1 <= zlen b) by (destruct b as [|x b]; [congruence|rewrite zlen_cons; pose proof (zlen_nonneg b); lia]).
    replace (j_count s <=? zlen a + (zlen (wire (rr_owner q)) + 8) + 2) with false by lia.
    set (pre := a ++ wire (rr_owner q) ++ num16 (rr_type q) ++ rr_meta q).
    assert (zlen pre = zlen a + (zlen (wire (rr_owner q)) + 8)) as LP by (unfold pre; rewrite !zlen_app, WM; change (zlen (num16 (rr_type q))) with 2; lia).
    destruct (holding_mem s _ H) as (_ & rst & EM & _). rewrite E1 in EM.
    assert (j_mem s = pre ++ num16 (zlen (rdata_plain q)) ++ (rdata_plain q ++ tail ++ rst)) as EM2.
    { rewrite EM. unfold pre. rewrite <- !app_assoc. reflexivity. }
    unfold num16 at 1 in EM2. cbn [app] in EM2. rewrite EM2, <- LP, rd_here. cbn [bind].
    assert (pre ++ zlen (rdata_plain q) / 256 :: zlen (rdata_plain q) mod 256 :: rdata_plain q ++ tail ++ rst = (pre ++ [zlen (rdata_plain q) / 256]) ++ zlen (rdata_plain q) mod 256 :: rdata_plain q ++ tail ++ rst) as EA by (rewrite <- app_assoc; reflexivity).
    rewrite EA. replace (zlen pre + 1) with (zlen (pre ++ [zlen (rdata_plain q) / 256])) by (rewrite zlen_app; reflexivity). rewrite rd_here. cbn [bind].
    rewrite land_255, Z.shiftl_mul_pow2 by lia. change (2 ^ 8) with 256.
    assert (zlen pre + (zlen (rdata_plain q) / 256 mod 256 * 256 + zlen (rdata_plain q) mod 256 + 2) = zlen (a ++ rr_plain q)) as EO by (rewrite zlen_app; lia).
    rewrite EO. rewrite zlen_app. replace (j_count s <=? zlen a + zlen (rr_plain q)) with false by lia. rewrite <- zlen_app.
    rewrite (IH s (a ++ rr_plain q) b); [rewrite !zlen_app; do 2 f_equal; lia| |exact Q|right; exact NE]. rewrite <- E2. exact H.
Qed.
Lemma skip_questions_safe n : forall s o, j_wf s -> j_size s = 1 -> 12 <= o <= Z.max 12 (j_count s) ->
  exists r, skip_questions n s o = Ok r /\ (r = None \/ exists p, r = Some p /\ o <= p /\ (p = o \/ p < j_count s)).
Proof.
  induction n as [|n IH]; intros s o W S1 O; cbn [skip_questions]; [eexists; split; [reflexivity|]; right; exists o; split; [reflexivity|split; [lia|left; reflexivity]]|].
  pose proof (jw_small s W) as SM. rewrite S1 in SM. pose proof (jw_count s W).
  destruct (dlabel_length_gen s o W S1) as (r & -> & R); [unfold i32_ok; lia|]. cbn [bind].
  destruct R as [-> |(R1 & R2 & R3 & _)]; [eexists; split; [reflexivity|left; reflexivity]|]. replace (r =? JS_ERROR) with false by (unfold JS_ERROR; lia). cbv zeta.
  destruct (j_count s <=? o + (r + 4)) eqn:G; [eexists; split; [reflexivity|left; reflexivity]|].
  destruct (IH s (o + (r + 4)) W S1 ltac:(lia)) as (x & -> & X). eexists. split; [reflexivity|]. destruct X as [X|(p & -> & P1 & P2)]; [left; exact X|right]. exists p. split; [reflexivity|lia].
Qed.
Lemma skip_records_safe n : forall s o, j_wf s -> j_size s = 1 -> 12 <= o <= Z.max 12 (j_count s) ->
  exists r, skip_records n s o = Ok r /\ (r = None \/ exists p, r = Some p /\ o <= p /\ (p = o \/ p < j_count s)).
Proof.
  induction n as [|n IH]; intros s o W S1 O; cbn [skip_records]; [eexists; split; [reflexivity|]; right; exists o; split; [reflexivity|split; [lia|left; reflexivity]]|].
  pose proof (jw_small s W) as SM. rewrite S1 in SM. pose proof (jw_count s W). pose proof (jw_mem s W) as LM. rewrite S1 in LM.
  destruct (dlabel_length_gen s o W S1) as (r & -> & R); [unfold i32_ok; lia|]. cbn [bind].
  destruct R as [-> |(R1 & R2 & R3 & _)]; [eexists; split; [reflexivity|left; reflexivity]|]. replace (r =? JS_ERROR) with false by (unfold JS_ERROR; lia). cbv zeta.
  destruct (j_count s <=? o + (r + 8) + 2) eqn:G; [eexists; split; [reflexivity|left; reflexivity]|].
  destruct (zget_some (j_mem s) (o + (r + 8)) ltac:(lia)) as (x & E1). destruct (zget_some (j_mem s) (o + (r + 8) + 1) ltac:(lia)) as (y & E2).
  rewrite (rd_of_zget _ _ _ E1), (rd_of_zget _ _ _ E2). cbn [bind]. pose proof (zget_bytes _ _ _ (jw_bytes s W) E1) as BX. pose proof (zget_bytes _ _ _ (jw_bytes s W) E2) as BY. unfold byte in *.
  rewrite land_255, Z.shiftl_mul_pow2 by lia. change (2 ^ 8) with 256.
  destruct (j_count s <=? o + (r + 8) + (x mod 256 * 256 + y + 2)) eqn:G2; [eexists; split; [reflexivity|left; reflexivity]|].
  destruct (IH s (o + (r + 8) + (x mod 256 * 256 + y + 2)) W S1 ltac:(lia)) as (z & -> & X). eexists. split; [reflexivity|]. destruct X as [X|(p & -> & P1 & P2)]; [left; exact X|right].
  exists p. split; [reflexivity|lia].
Qed.

(** ** squeeze_to_fit *)
Lemma give_up_ok h s : j_wf s -> j_size s = 1 -> 14 <= j_max s ->
  exists s', give_up h s = Ok s' /\ holding s' (hdr_octets (set_flags h 1 0 0 0 0)) /\ j_max s' = j_max s.
Proof.
  intros W S1 M. unfold give_up. fold (set_flags h 1 0 0 0 0). destruct (make_hdr_ok (set_flags h 1 0 0 0 0) s W S1 M) as (s' & -> & H & MX & _). cbn [bind].
  eexists. split; [reflexivity|]. split; assumption.
Qed.
Lemma squeeze_safe s : j_wf s -> exists o, squeeze_to_fit s = Ok o /\
  match o with
  | None => octet_string s = false \/ j_max s < 14
  | Some s' => j_wf s' /\ j_size s' = 1 /\ j_max s' = j_max s /\ 12 <= j_count s' /\ (12 < j_count s -> j_count s' < j_count s) /\ (j_count s <= 12 -> j_count s' = 12)
  end.
Proof.
  intros W. destruct (octet_string s) eqn:O.
  2:{ unfold squeeze_to_fit, read_hdr. rewrite O. cbn [negb bind]. eexists. split; [reflexivity|]. left. reflexivity. }
  assert (j_size s = 1) as S1 by (unfold octet_string in O; lia).
  destruct (Z.ltb_spec (j_max s) 14) as [M|M].
  { unfold squeeze_to_fit, read_hdr. rewrite O. cbn [negb]. replace (j_max s <? 14) with true by lia. cbn [bind]. eexists. split; [reflexivity|]. right. lia. }
  unfold squeeze_to_fit. rewrite (read_hdr_ok s W S1 M). cbn [bind]. set (h := decode (zslice (j_mem s) 0 12)).
  destruct (give_up_ok h s W S1 M) as (sg & EG & HG & MG). destruct (holding_slice sg _ HG) as (_ & CG & _). change (zlen (hdr_octets _)) with 12 in CG. destruct HG as (WG & SG & _).
  pose proof (jw_count s W).
  assert (exists o, (s0 <- give_up h s ;; Ok (Some s0)) = Ok o /\
    match o with None => true = false \/ j_max s < 14 | Some s' => j_wf s' /\ j_size s' = 1 /\ j_max s' = j_max s /\ 12 <= j_count s' /\ (12 < j_count s -> j_count s' < j_count s) /\ (j_count s <= 12 -> j_count s' = 12) end) as GU.
  { rewrite EG. cbn [bind]. eexists. split; [reflexivity|]. cbv beta iota. split; [exact WG|]. split; [exact SG|]. split; [exact MG|]. lia. }
  destruct ((q_tc h =? 1) || _); [exact GU|].
  destruct (skip_questions_safe (Z.to_nat (q_qd h)) s 12 W S1 ltac:(lia)) as (r & -> & R). cbn [bind]. destruct R as [-> |(p & -> & P1 & P2)]; [exact GU|].
  destruct (skip_records_safe (Z.to_nat (q_an h + q_ns h + q_ar h - 1)) s p W S1 ltac:(lia)) as (r & -> & R). cbn [bind]. destruct R as [-> |(p' & -> & P3 & P4)]; [exact GU|]. cbv zeta.
  match goal with |- context [make_hdr ?h' s] => destruct (make_hdr_ok h' s W S1 M) as (s' & -> & HH & MH & _) end. cbn [bind].
  eexists. split; [reflexivity|]. cbv beta iota. destruct HH as (WH & SH & _). split; [apply wf_set_count; [exact WH|lia]|]. split; [exact SH|]. split; [exact MH|]. unfold set_count. cbn [j_count]. lia.
Qed.

Lemma is_msg_intro m h x : zlen x = 12 -> bits x = header_bits (m_hdr m) -> h = x ++ concat (map question_bytes (m_qd m)) ++ plain_records (m_an m ++ m_ns m ++ m_ar m) -> is_msg m h.
Proof.
  intros L B ->. assert (zslice (x ++ concat (map question_bytes (m_qd m)) ++ plain_records (m_an m ++ m_ns m ++ m_ar m)) 0 12 = x) as E by (rewrite zslice_app_l by lia; rewrite <- L; apply zslice_all).
  unfold is_msg. rewrite E. split; [exact L|]. split; [exact B|]. pose proof (zlen_nonneg (concat (map question_bytes (m_qd m)) ++ plain_records (m_an m ++ m_ns m ++ m_ar m))) as NN.
  rewrite zslice_app_r by (rewrite ?zlen_app; rewrite ?zlen_app in NN; lia). rewrite L, Z.sub_diag. rewrite (zlen_app x), L. replace (12 + _ - 12) with (zlen (concat (map question_bytes (m_qd m)) ++ plain_records (m_an m ++ m_ns m ++ m_ar m))) by lia. apply zslice_all.
Qed.
Lemma is_msg_elim m l : is_msg m l -> exists x, zlen x = 12 /\ bits x = header_bits (m_hdr m) /\ l = x ++ concat (map question_bytes (m_qd m)) ++ plain_records (m_an m ++ m_ns m ++ m_ar m).
Proof.
  intros (L & B & E). exists (zslice l 0 12). split; [exact L|]. split; [exact B|]. rewrite <- E.
  assert (12 <= zlen l) as N. { destruct (Z.leb_spec 12 (zlen l)); [assumption|]. exfalso. assert (zlen (zslice l 0 12) <= zlen l) as X; [|lia]. unfold zslice. unfold zlen. rewrite firstn_length, skipn_length. lia. }
  replace 12 with (0 + 12) at 2 by lia. rewrite <- zslice_split by lia. replace (12 + (zlen l - 12)) with (zlen l) by lia. symmetry. apply zslice_all.
Qed.
Lemma fits_flags h tc qd an ns ar : header_fits h -> below 1 tc -> below 16 qd -> below 16 an -> below 16 ns -> below 16 ar -> header_fits (set_flags h tc qd an ns ar).
Proof.
  intros F A B C D E. apply fits_spec in F as (F1 & F2 & F3 & F4 & F5 & F6 & F7 & F8 & F9 & _). unfold header_fits, header_fields, set_flags.
  cbn [q_id q_qr q_opcode q_aa q_tc q_rd q_ra q_z q_rcode q_qd q_an q_ns q_ar]. repeat (apply Forall_cons; [cbn [fst snd]; assumption|]). constructor.
Qed.
Lemma zlen_hdr h : zlen (hdr_octets h) = 12. Proof. reflexivity. Qed.
Lemma removelast_app' {A} (l : list A) x : removelast (l ++ [x]) = l.
Proof. rewrite removelast_app by discriminate. cbn. apply app_nil_r. Qed.
Lemma plain_snoc rs r : plain_records (rs ++ [r]) = plain_records rs ++ rr_plain r.
Proof. unfold plain_records. rewrite map_app, concat_app. cbn [map concat]. rewrite app_nil_r. reflexivity. Qed.
Lemma bytes_hdr_bits x h : bytes x -> zlen x = 12 -> bits x = header_bits h -> header_fits h -> decode x = h.
Proof.
  intros B L E F. destruct (decode_ok x B L) as (F2 & E2). apply header_bits_inj; [exact F2|exact F|]. rewrite E2. exact E.
Qed.

(** Keeping all but the last record *)
Lemma squeeze_keep s x qs rs r h : holding s (x ++ concat (map question_bytes qs) ++ plain_records (rs ++ [r])) -> zlen x = 12 -> Forall question_ok qs -> Forall record_ok (rs ++ [r]) -> 14 <= j_max s ->
  skip_questions (length qs) s 12 = Ok (Some (12 + zlen (concat (map question_bytes qs)))) /\
  skip_records (length rs) s (12 + zlen (concat (map question_bytes qs))) = Ok (Some (12 + zlen (concat (map question_bytes qs)) + zlen (plain_records rs))) /\
  exists s', make_hdr h s = Ok (1, s') /\ holding (set_count s' (12 + zlen (concat (map question_bytes qs)) + zlen (plain_records rs))) (hdr_octets h ++ concat (map question_bytes qs) ++ plain_records rs) /\ j_max s' = j_max s.
Proof.
  intros H LX Q R M. rewrite plain_snoc in H. set (qb := concat (map question_bytes qs)) in *. apply Forall_app in R as (R & RR). apply Forall_cons_iff in RR as (RR & _).
  assert (rr_plain r <> []) as NE.
  { destruct RR as (_ & _ & WM & _). intros X. pose proof (zlen_rr r WM) as Y. rewrite X in Y. change (zlen (@nil Z)) with 0 in Y. pose proof (wire_pos (rr_owner r)). pose proof (zlen_nonneg (rdata_plain r)). lia. }
  split; [|split].
  - rewrite <- LX. apply (skip_questions_ok qs s x (plain_records rs ++ rr_plain r)); [exact H|exact Q|]. right. intros X. apply app_eq_nil in X as (_ & X). congruence.
  - rewrite <- LX, <- zlen_app. apply (skip_records_ok rs s (x ++ qb) (rr_plain r)); [|exact R|right; exact NE]. rewrite <- !app_assoc. exact H.
  - destruct (holding_slice s _ H) as (E1 & C1 & M1 & N1 & B1 & Z1). destruct H as (W & S1 & _).
    destruct (make_hdr_ok h s W S1 M) as (s' & -> & (WH & SH & _) & MH & _ & EM). exists s'. split; [reflexivity|]. split; [|exact MH].
    rewrite !zlen_app in C1. pose proof (zlen_nonneg qb). pose proof (zlen_nonneg (plain_records rs)). pose proof (zlen_nonneg (rr_plain r)). fold qb.
    split; [apply wf_set_count; [exact WH|lia]|]. split; [exact SH|]. unfold octets_of, set_count. cbn [j_mem j_size j_count]. rewrite SH, Z.mul_1_l, EM.
    replace (12 + zlen qb + zlen (plain_records rs)) with (12 + (zlen qb + zlen (plain_records rs))) by lia. rewrite zslice_split by (rewrite ?zlen_splice; rewrite ?zlen_hdr; lia).
    apply f_equal2.
    + rewrite <- (zlen_hdr h). apply zslice_splice_same; rewrite ?zlen_hdr; lia.
    + rewrite Z.add_0_l. rewrite zslice_splice_disj by (rewrite ?zlen_hdr; lia).
      assert (zslice (j_mem s) 12 (zlen qb + zlen (plain_records rs)) = zslice (x ++ qb ++ plain_records rs ++ rr_plain r) 12 (zlen qb + zlen (plain_records rs))) as X.
      { rewrite <- E1. rewrite zslice_zslice by (rewrite ?zlen_app; lia). rewrite Z.add_0_l. reflexivity. }
      rewrite X, zslice_app_r by (rewrite ?zlen_app; lia). rewrite LX, Z.sub_diag, app_assoc, zslice_app_l by (rewrite ?zlen_app; lia). rewrite <- zlen_app. apply zslice_all.
Qed.
Lemma squeeze_ok s l m : holding s l -> 14 <= j_max s -> is_msg m l -> msg_ok m ->
  exists s' l', squeeze_to_fit s = Ok (Some s') /\ holding s' l' /\ is_msg (drop_last m) l' /\ msg_ok (drop_last m) /\ j_max s' = j_max s.
Proof.
  intros H M IM (HF & Cqd & Can & Cns & Car & Q & R). destruct (is_msg_elim m l IM) as (x & LX & BX & EL). destruct (holding_slice s _ H) as (E1 & C1 & M1 & N1 & B1 & Z1).
  pose proof (proj1 H) as W. pose proof (proj1 (proj2 H)) as S1.
  assert (12 <= zlen l) as L12.
  { rewrite EL, zlen_app, LX. match goal with |- context [zlen ?q] => pose proof (zlen_nonneg q) end. lia. }
  assert (zslice (j_mem s) 0 12 = x) as EX.
  { assert (zslice (j_mem s) 0 12 = zslice l 0 12) as -> by (rewrite <- E1; rewrite zslice_zslice by lia; reflexivity). rewrite EL. rewrite zslice_app_l by lia. rewrite <- LX. apply zslice_all. }
  assert (decode (zslice (j_mem s) 0 12) = m_hdr m) as ED by (rewrite EX; apply bytes_hdr_bits; try assumption; rewrite <- EX; apply bytes_zslice, B1).
  unfold squeeze_to_fit. rewrite (read_hdr_ok s W S1 M). cbn [bind]. rewrite ED. set (h := m_hdr m) in *. unfold drop_last. fold h. rewrite <- Cns, <- Car.
  pose proof (fits_spec h HF) as (_ & _ & _ & _ & _ & _ & _ & _ & _ & F10 & F11 & F12 & F13).
  destruct ((q_tc h =? 1) || ((q_ns h =? 0) && (q_ar h =? 0))) eqn:G.
  { destruct (give_up_ok h s W S1 M) as (s' & -> & HG & MG). cbn [bind]. exists s', (hdr_octets (set_flags h 1 0 0 0 0)). split; [reflexivity|]. split; [exact HG|].
    assert (header_fits (set_flags h 1 0 0 0 0)) as HF2 by (apply fits_flags; [exact HF|..]; unfold below; cbv; split; (discriminate || reflexivity)).
    split; [|split; [|exact MG]].
    - apply (is_msg_intro _ _ (hdr_octets (set_flags h 1 0 0 0 0))); cbn [m_hdr m_qd m_an m_ns m_ar]; [reflexivity|apply hdr_octets_bits; exact HF2|]. cbn [map concat app]. unfold plain_records. cbn [map concat]. rewrite app_nil_r. reflexivity.
    - split; [exact HF2|]. cbn. repeat (split; [reflexivity|]). split; constructor. }
  apply orb_false_iff in G as (GT & GN). unfold below in F10, F11, F12, F13. change (2 ^ Z.of_nat 16) with 65536 in *.
  assert (Z.to_nat (q_qd h) = length (m_qd m)) as -> by (rewrite Cqd; unfold zlen; lia).
  (* the last record *)
  assert (exists rs r, m_an m ++ m_ns m ++ m_ar m = rs ++ [r] /\ Z.to_nat (q_an h + q_ns h + q_ar h - 1) = length rs /\
    rs = m_an m ++ (if 0 <? q_ar h then m_ns m ++ removelast (m_ar m) else removelast (m_ns m) ++ [])) as (rs & r & ER & EN & ERS).
  { destruct (0 <? q_ar h) eqn:GA.
    - destruct (@exists_last _ (m_ar m)) as (ar & r & EAR). { intros X. rewrite X in Car. change (zlen (@nil rr)) with 0 in Car. lia. }
      exists (m_an m ++ m_ns m ++ ar), r. rewrite EAR, removelast_app'. split; [rewrite <- !app_assoc; reflexivity|]. split; [|reflexivity]. rewrite !app_length. rewrite Can, Cns, Car, EAR. rewrite zlen_app. unfold zlen. cbn [length]. lia.
    - assert (m_ar m = []) as EA by (assert (zlen (m_ar m) = 0) as X by lia; unfold zlen in X; apply length_zero_iff_nil; lia).
      destruct (@exists_last _ (m_ns m)) as (ns & r & ENS). { intros X. rewrite X in Cns. change (zlen (@nil rr)) with 0 in Cns. lia. }
      exists (m_an m ++ ns), r. rewrite EA, ENS, removelast_app', !app_nil_r. split; [rewrite <- !app_assoc; reflexivity|]. split; [|reflexivity]. rewrite !app_length. rewrite Can, Cns, Car, ENS, EA, zlen_app. unfold zlen. cbn [length]. lia. }
  rewrite ER in EL, R. rewrite EL in H. rewrite EN. clear IM.
  set (h' := if 0 <? q_ar h then set_flags h 0 (q_qd h) (q_an h) (q_ns h) (q_ar h - 1) else set_flags h 0 (q_qd h) (q_an h) (q_ns h - 1) (q_ar h)).
  destruct (squeeze_keep s x (m_qd m) rs r h' H LX Q R M) as (-> & K2 & s' & K3 & K4 & K5). cbn [bind]. rewrite K2. cbn [bind]. cbv zeta.
  fold (set_flags h 0 (q_qd h) (q_an h) (q_ns h) (q_ar h - 1)). fold (set_flags h 0 (q_qd h) (q_an h) (q_ns h - 1) (q_ar h)). fold h'. rewrite K3. cbn [bind].
  do 2 eexists. split; [reflexivity|]. split; [exact K4|]. rewrite Car. rewrite <- Car.
  assert (header_fits h') as HF2.
  { unfold h'. destruct (0 <? q_ar h) eqn:GA; apply fits_flags; try assumption; unfold below; change (2 ^ Z.of_nat 16) with 65536; change (2 ^ Z.of_nat 1) with 2; try lia. }
  apply Forall_app in R as (R & _).
  destruct (0 <? q_ar h) eqn:GA; unfold h' in *.
  - split; [|split; [|exact K5]].
    + apply (is_msg_intro _ _ (hdr_octets (set_flags h 0 (q_qd h) (q_an h) (q_ns h) (q_ar h - 1)))); cbn [m_hdr m_qd m_an m_ns m_ar]; [reflexivity|apply hdr_octets_bits; exact HF2|]. rewrite ERS. reflexivity.
    + split; [exact HF2|]. cbn [m_hdr m_qd m_an m_ns m_ar set_flags q_qd q_an q_ns q_ar]. split; [exact Cqd|]. split; [exact Can|]. split; [exact Cns|]. split; [|split; [exact Q|rewrite <- ERS; exact R]].
      destruct (@exists_last _ (m_ar m)) as (ar & y & EAR). { intros X. rewrite X in Car. change (zlen (@nil rr)) with 0 in Car. lia. }
      rewrite Car, EAR, removelast_app', zlen_app. change (zlen [y]) with 1. lia.
  - assert (m_ar m = []) as EA by (assert (zlen (m_ar m) = 0) as X by lia; unfold zlen in X; apply length_zero_iff_nil; lia). split; [|split; [|exact K5]].
    + apply (is_msg_intro _ _ (hdr_octets (set_flags h 0 (q_qd h) (q_an h) (q_ns h - 1) (q_ar h)))); cbn [m_hdr m_qd m_an m_ns m_ar]; [reflexivity|apply hdr_octets_bits; exact HF2|]. rewrite ERS. reflexivity.
    + split; [exact HF2|]. cbn [m_hdr m_qd m_an m_ns m_ar set_flags q_qd q_an q_ns q_ar]. split; [exact Cqd|]. split; [exact Can|]. split; [|split; [|split; [exact Q|rewrite <- ERS; exact R]]].
      * destruct (@exists_last _ (m_ns m)) as (ar & y & EAR). { intros X. rewrite X in Cns. change (zlen (@nil rr)) with 0 in Cns. lia. }
        rewrite Cns, EAR, removelast_app', zlen_app. change (zlen [y]) with 1. lia.
      * rewrite Car, EA. reflexivity.
Qed.
