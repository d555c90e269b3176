(** Records and messages: what Decompress.c writes, in terms of SpecDecomp.v. *)
From Verif Require Import CBase Bits ModelDwStr SpecDwStr ProofDwStr SpecNames SpecMessage SpecAcl SpecDeadwoodMsg SpecQuery ModelJsStr SpecJsStr ProofJsStr ProofJsSearch
  ModelQueries SpecQueries ProofQueries ProofQuestion ModelDecomp SpecDecomp ProofJsList ProofDecompList ProofDecompPacket ProofDecompSpec.

Lemma data_sound m p type rdl x : bytes m -> 0 <= p <= zlen m -> 0 <= rdl -> l_data m p type rdl = Some x -> long m \/ made m p type rdl x.
Proof.
  intros B P R. unfold l_data, flat0. cbn [find_desc rr_num].
  do 17 match goal with |- context [if ?n =? type then Some _ else _] => destruct (Z.eqb_spec n type) as [<-|?]; [intros H; cbn [description] in H;
    first [ refine (one_name_s _ _ _ _ _ _ _ B P H); reflexivity | refine (two_names_s _ _ _ _ _ _ _ B P H); reflexivity | refine (lead2_s _ _ _ _ _ _ _ B P H); reflexivity | refine (lead6_s _ _ _ _ _ _ _ B P H); reflexivity
          | refine (addr_s _ _ _ _ _ _ _ _ B P H); [reflexivity|discriminate] | refine (text_s _ _ _ _ _ _ _ _ B P R H); [reflexivity|discriminate] | refine (soa_s _ _ _ _ _ _ _ B P H); reflexivity ]|] end.
  intros H. right. assert (layout type = None) as LA.
  { unfold layout, existsb. repeat match goal with |- context [type =? ?n] => replace (type =? n) with false by lia end. reflexivity. }
  assert (p + rdl <= zlen m /\ x = zslice m p rdl) as (A1 & ->).
  { destruct (rdl =? 0) eqn:G; [apply some_inj in H as <-; assert (rdl = 0) as -> by lia; rewrite zslice_nil; split; [lia|reflexivity]|]. apply l_take_some in H as (_ & L & -> & _). split; [exact L|reflexivity]. }
  exists (zslice m p rdl), [], []. unfold data_in. rewrite LA. cbn [map concat]. rewrite !app_nil_r. split; [|split; [reflexivity|exact A1]]. split; [reflexivity|]. split; [reflexivity|]. split; [reflexivity|]. split; intros X; lia.
Qed.

(** ** And the other way *)
Lemma names_1 m p ns e : length ns = 1%nat -> names_in 256 m p ns e -> exists n, ns = [n] /\ name_in 256 m p n e.
Proof. intros L H. destruct ns as [|n [|]]; try discriminate. inversion H as [|? ? ? ? ? N R]; subst. inversion R; subst. exists n. split; [reflexivity|exact N]. Qed.
Lemma names_2 m p ns e : length ns = 2%nat -> names_in 256 m p ns e -> exists n e1 n2, ns = [n; n2] /\ name_in 256 m p n e1 /\ name_in 256 m e1 n2 e.
Proof. intros L H. destruct ns as [|n [|n2 [|]]]; try discriminate. inversion H as [|? ? e1 ? ? N R]; subst. inversion R as [|? ? ? ? ? N2 R2]; subst. inversion R2; subst. exists n, e1, n2. split; [reflexivity|]. split; assumption. Qed.
Ltac lens := repeat match goal with |- context [zlen (_ ++ _)] => rewrite zlen_app end; repeat rewrite zlen_zslice by lia; change (zlen (@nil Z)) with 0; try lia.
Definition filled (m : list Z) (p rdl : Z) (desc : list Z) : option (list Z) := obind (l_fields desc m [] p rdl 0) (fun '(total, out) => if rdl =? total then Some out else None).
Lemma filled_intro m p rdl desc t out : l_fields desc m [] p rdl 0 = Some (t, out) -> rdl = t -> filled m p rdl desc = Some out.
Proof. intros E <-. unfold filled. rewrite E. cbn [obind]. rewrite Z.eqb_refl. reflexivity. Qed.

Section complete.
Variables (m : list Z) (p type rdl : Z) (lead : list Z) (names : list name) (tail : list Z).
Hypotheses (B : bytes m) (P : 0 <= p) (R : 0 <= rdl) (PR : p + rdl <= zlen m) (D : data_in 256 m p type rdl lead names tail) (C : zlen (lead ++ concat (map wire names) ++ tail) < 4512).
Lemma one_name_c rest : layout type = Some (0, 1%nat, 0) -> filled m p rdl (64 :: 0 :: rest) = Some (lead ++ concat (map wire names) ++ tail).
Proof.
  intros LA. unfold data_in in D. rewrite LA in D. destruct D as (D1 & D2 & D3 & e & D4 & D5 & D6). rewrite !zslice_nil in *. rewrite Z.add_0_r in *. apply names_1 in D4 as (n1 & E & N1); [|exact D3]. subst lead tail names.
  cbn [map concat app] in *. rewrite ?app_nil_r in *. pose proof (name_in_range _ _ _ _ _ N1). eapply filled_intro; [rewrite (fD_c _ _ _ _ _ _ _ _ B N1) by lens; rewrite fE; reflexivity|lia].
Qed.
Lemma two_names_c rest : layout type = Some (0, 2%nat, 0) -> filled m p rdl (64 :: 64 :: 0 :: rest) = Some (lead ++ concat (map wire names) ++ tail).
Proof.
  intros LA. unfold data_in in D. rewrite LA in D. destruct D as (D1 & D2 & D3 & e & D4 & D5 & D6). rewrite !zslice_nil in *. rewrite Z.add_0_r in *. apply names_2 in D4 as (n1 & e1 & n2 & E & N1 & N2); [|exact D3]. subst lead tail names.
  cbn [map concat app] in *. rewrite ?app_nil_r in *. pose proof (name_in_range _ _ _ _ _ N1). pose proof (name_in_range _ _ _ _ _ N2). pose proof (wire_pos1 n1). pose proof (wire_pos1 n2). rewrite zlen_app in C.
  eapply filled_intro; [rewrite (fD_c _ _ _ _ _ _ _ _ B N1) by lens; rewrite (fD_c _ _ _ _ _ _ _ _ B N2) by lens; rewrite fE; reflexivity|lia].
Qed.
Lemma soa_c rest : layout type = Some (0, 2%nat, 20) -> filled m p rdl (64 :: 64 :: 4 :: 4 :: 4 :: 4 :: 4 :: 0 :: rest) = Some (lead ++ concat (map wire names) ++ tail).
Proof.
  intros LA. unfold data_in in D. rewrite LA in D. destruct D as (D1 & D2 & D3 & e & D4 & D5 & D6). rewrite !zslice_nil in *. rewrite Z.add_0_r in *. apply names_2 in D4 as (n1 & e1 & n2 & E & N1 & N2); [|exact D3]. subst lead tail names.
  cbn [map concat app] in *. rewrite ?app_nil_r in *. pose proof (name_in_range _ _ _ _ _ N1). pose proof (name_in_range _ _ _ _ _ N2). pose proof (wire_pos1 n1). pose proof (wire_pos1 n2). rewrite !zlen_app in C. rewrite zlen_zslice in C by lia.
  rewrite <- app_assoc. change 20 with (4 + (4 + (4 + (4 + 4)))). rewrite !(zslice_split m) by lia.
  eapply filled_intro; [rewrite (fD_c _ _ _ _ _ _ _ _ B N1) by lens; rewrite (fD_c _ _ _ _ _ _ _ _ B N2) by lens; rewrite 5 fN_c by lens; rewrite fE; cbn [app]; rewrite <- !app_assoc; reflexivity|lia].
Qed.
Lemma lead2_c rest : layout type = Some (2, 1%nat, 0) -> filled m p rdl (2 :: 64 :: 0 :: rest) = Some (lead ++ concat (map wire names) ++ tail).
Proof.
  intros LA. unfold data_in in D. rewrite LA in D. destruct D as (D1 & D2 & D3 & e & D4 & D5 & D6). rewrite zslice_nil in *. rewrite Z.add_0_r in *. apply names_1 in D4 as (n1 & E & N1); [|exact D3]. subst lead tail names.
  cbn [map concat app] in *. rewrite ?app_nil_r in *. pose proof (name_in_range _ _ _ _ _ N1). pose proof (wire_pos1 n1). rewrite !zlen_app in C. rewrite zlen_zslice in C by lia.
  eapply filled_intro; [rewrite fN_c by lens; rewrite (fD_c _ _ _ _ _ _ _ _ B N1) by lens; rewrite fE; reflexivity|lia].
Qed.
Lemma lead6_c rest : layout type = Some (6, 1%nat, 0) -> filled m p rdl (2 :: 2 :: 2 :: 64 :: 0 :: rest) = Some (lead ++ concat (map wire names) ++ tail).
Proof.
  intros LA. unfold data_in in D. rewrite LA in D. destruct D as (D1 & D2 & D3 & e & D4 & D5 & D6). rewrite zslice_nil in *. rewrite Z.add_0_r in *. apply names_1 in D4 as (n1 & E & N1); [|exact D3]. subst lead tail names.
  cbn [map concat app] in *. rewrite ?app_nil_r in *. pose proof (name_in_range _ _ _ _ _ N1). pose proof (wire_pos1 n1). rewrite !zlen_app in C. rewrite zlen_zslice in C by lia.
  replace (p + 6) with (p + 2 + 2 + 2) in N1 by lia. change 6 with (2 + (2 + 2)). rewrite !(zslice_split m) by lia.
  eapply filled_intro; [rewrite 3 fN_c by lens; rewrite (fD_c _ _ _ _ _ _ _ _ B N1) by lens; rewrite fE; cbn [app]; rewrite <- !app_assoc; reflexivity|lia].
Qed.
Lemma addr_c rest : type = 1 -> filled m p rdl (4 :: 0 :: rest) = Some (lead ++ concat (map wire names) ++ tail).
Proof.
  intros ->. unfold data_in in D. change (layout 1) with (@None (Z * nat * Z)) in D. destruct D as (D1 & D2 & D3 & D4 & _). specialize (D4 eq_refl). subst lead tail names. cbn [map concat app] in *. rewrite ?app_nil_r in *.
  rewrite zlen_zslice in D4 by lia. subst rdl. eapply filled_intro; [rewrite fN_c by lens; rewrite fE; reflexivity|lia].
Qed.
Lemma text_c rest : type = 16 -> filled m p rdl (65 :: 66 :: rest) = Some (lead ++ concat (map wire names) ++ tail).
Proof.
  intros ->. unfold data_in in D. change (layout 16) with (@None (Z * nat * Z)) in D. destruct D as (D1 & D2 & D3 & _ & D5). specialize (D5 eq_refl). subst lead tail names. cbn [map concat app] in *. rewrite ?app_nil_r in *.
  destruct D5 as (b & D5 & D6). pose proof (zget_range _ _ _ D5) as RR. rewrite zlen_zslice in * by lia. rewrite zget_zslice in D5 by lia. rewrite Z.add_0_r in D5. pose proof (zget_bytes _ _ _ B D5) as Bb. unfold byte in Bb.
  unfold filled. cbn [l_fields Z.eqb Pos.eqb Z.ltb Z.compare Pos.compare Pos.compare_cont andb]. rewrite D5. rewrite take_complete by lens. cbn [obind app].
  replace (0 + (b + 1)) with (b + 1) by lia. destruct (rdl - (b + 1) <=? 0) eqn:G; cbn [obind]; [replace rdl with (b + 1) by lia; rewrite Z.eqb_refl; reflexivity|].
  rewrite take_complete by lens. cbn [obind]. replace (rdl =? b + 1 + (rdl - (b + 1))) with true by lia. rewrite <- (zslice_split m p (b + 1) (rdl - (b + 1))) by lia. replace (b + 1 + (rdl - (b + 1))) with rdl by lia. reflexivity.
Qed.
Lemma filled_eq desc : obind (l_fields desc m [] p rdl 0) (fun '(total, out) => if rdl =? total then Some out else None) = filled m p rdl desc. Proof. reflexivity. Qed.
Opaque filled.
Lemma data_complete : l_data m p type rdl = Some (lead ++ concat (map wire names) ++ tail).
Proof.
  unfold l_data, flat0. cbn [find_desc rr_num].
  do 17 match goal with |- context [if ?n =? type then Some _ else _] => destruct (Z.eqb_spec n type) as [E|?]; [symmetry in E; cbn [description]; rewrite filled_eq;
    first [ refine (one_name_c _ _); rewrite E; reflexivity | refine (two_names_c _ _); rewrite E; reflexivity | refine (lead2_c _ _); rewrite E; reflexivity | refine (lead6_c _ _); rewrite E; reflexivity | refine (addr_c _ _); exact E | refine (text_c _ _); exact E | refine (soa_c _ _); rewrite E; reflexivity ]|] end.
  assert (layout type = None) as LA.
  { unfold layout, existsb. repeat match goal with |- context [type =? ?n] => replace (type =? n) with false by lia end. reflexivity. }
  unfold data_in in D. rewrite LA in D. destruct D as (D1 & D2 & D3 & _). subst lead names tail. cbn [map concat] in *. rewrite !app_nil_r in *. destruct (rdl =? 0) eqn:G; [replace rdl with 0 by lia; rewrite zslice_nil; reflexivity|].
  rewrite zlen_zslice in C by lia. apply take_complete; lens.
Qed.
End complete.

(** ** Records *)
Lemma be_num16 v : 0 <= v < 65536 -> be 2 v = num16 v.
Proof. intros V. unfold num16. rewrite be_2. apply f_equal2; [lia|reflexivity]. Qed.
Lemma num16_number m p : bytes m -> 0 <= p -> p + 2 <= zlen m -> zslice m p 2 = num16 (number (zslice m p 2)) /\ 0 <= number (zslice m p 2) < 65536.
Proof.
  intros B P L. destruct (number_2 m p B P L) as (a & b & _ & _ & Ba & Bb & E1 & E2). rewrite E2, E1. unfold byte in *. split; [|lia]. unfold num16. apply f_equal2; [lia|]. apply f_equal2; [lia|reflexivity].
Qed.
Lemma number_num16 v : 0 <= v < 65536 -> number (num16 v) = v.
Proof. intros V. unfold num16, number. cbn [fold_left]. lia. Qed.

Lemma answers_sound n : forall cap m out p o, bytes m -> 0 <= p -> l_answers n cap m out p = Some o ->
  long m \/ exists rs e, recs_in 256 m p rs e /\ length rs = n /\ o = out ++ plain_records rs /\ (n = O \/ zlen o < cap) /\ Forall small_data rs.
Proof.
  induction n as [|n IH]; intros cap m out p o B P H; cbn [l_answers] in H.
  { right. apply some_inj in H as <-. exists [], p. split; [constructor|]. split; [reflexivity|]. split; [symmetry; apply app_nil_r|]. split; [left; reflexivity|constructor]. }
  apply obind_some in H as ((len & o1) & E1 & H). destruct (dlabel_sound _ _ _ _ _ _ B P E1) as [L|(nm & N & -> & _)]; [left; exact L|]. pose proof (name_in_range _ _ _ _ _ N) as RN.
  apply obind_some in H as ((ty & o2) & E2 & H). unfold l_type in E2. apply obind_some in E2 as (o3 & E2 & E3). apply some_inj, pair_equal_spec in E3 as (<- & <-). apply l_take_some in E2 as (_ & L2 & -> & _).
  apply obind_some in H as (rdl & E3 & H). unfold l_word in E3. destruct (p + len + 8 + 2 <=? zlen m) eqn:G3; [|discriminate]. apply some_inj in E3 as <-.
  apply obind_some in H as (rd & E4 & H). destruct (num16_number m (p + len) B ltac:(lia) ltac:(lia)) as (ET & RT). destruct (num16_number m (p + len + 8) B ltac:(lia) ltac:(lia)) as (EL & RL).
  set (ty := number (zslice m (p + len) 2)) in *. set (rdl := number (zslice m (p + len + 8) 2)) in *. clearbody ty rdl.
  pose proof (l_data_len m (p + len + 8 + 2) ty rdl rd B ltac:(lia) E4) as (SD & BD).
  destruct (data_sound m (p + len + 8 + 2) ty rdl rd B ltac:(lia) ltac:(lia) E4) as [L|(lead & names & tail & D & -> & LD)]; [left; exact L|].
  apply obind_some in H as (o4 & E5 & H). apply obind_some in H as (o5 & E6 & H). unfold l_add in E5, E6. match type of E5 with (if ?b then _ else _) = _ => destruct b eqn:G5; [|discriminate] end. apply some_inj in E5 as <-. match type of E6 with (if ?b then _ else _) = _ => destruct b eqn:G6; [|discriminate] end. apply some_inj in E6 as <-.
  apply IH in H; [|exact B|lia]. destruct H as [L|(rs & e & RS & LR & -> & CR & SR)]; [left; exact L|right].
  set (r := mkrr nm ty (zslice m (p + len + 2) 6) lead names tail).
  exists (r :: rs), e. split.
  { eapply recs_more; [|exact RS]. apply (rec_in_intro 256 m p r _ (p + len) rdl); cbn [r rr_owner rr_type rr_meta rr_lead rr_names rr_tail]; [exact N|lia|apply zlen_zslice; lia|lia| |lia|lia|].
    - change 10 with (2 + (6 + 2)). rewrite !(zslice_split m) by lia. rewrite ET, <- EL. replace (p + len + 2 + 6) with (p + len + 8) by lia. reflexivity.
    - replace (p + len + 10) with (p + len + 8 + 2) by lia. exact D. }
  split; [cbn [length]; rewrite LR; reflexivity|].
  assert (rr_plain r = wire nm ++ zslice m (p + len) 8 ++ be 2 (zlen (lead ++ concat (map wire names) ++ tail)) ++ lead ++ concat (map wire names) ++ tail) as EP.
  { unfold rr_plain, rdata_plain. cbn [r rr_owner rr_type rr_meta rr_lead rr_names rr_tail]. rewrite be_num16 by (pose proof (zlen_nonneg (lead ++ concat (map wire names) ++ tail)); lia). change 8 with (2 + 6). rewrite (zslice_split m (p + len) 2 6) by lia. rewrite ET, <- !app_assoc. reflexivity. }
  split; [|split].
  - unfold plain_records. cbn [map concat]. rewrite EP, <- !app_assoc. reflexivity.
  - right. destruct CR as [->|CR]; [|exact CR]. destruct rs; [|discriminate]. unfold plain_records. cbn [map concat]. rewrite app_nil_r. rewrite zlen_app. lia.
  - constructor; [exact SD|exact SR].
Qed.

Lemma answers_complete m rs e p : recs_in 256 m p rs e -> forall cap out, bytes m -> Forall small_data rs -> (rs <> [] -> zlen out + zlen (plain_records rs) < cap) -> l_answers (length rs) cap m out p = Some (out ++ plain_records rs).
Proof.
  induction 1 as [p|p r e rs e' HR HRS IH]; intros cap out B SD C; cbn [length l_answers]; [unfold plain_records; cbn [map concat]; rewrite app_nil_r; reflexivity|].
  apply Forall_cons_iff in SD as (S1 & SD). specialize (C ltac:(discriminate)). destruct HR as [o rdl N RT RM RL HZ OE EM D]. pose proof (name_in_range _ _ _ _ _ N) as RN. unfold small_data in S1.
  unfold plain_records in *. cbn [map concat] in *. rewrite zlen_app in C. pose proof (zlen_nonneg (concat (map rr_plain rs))). unfold rr_plain in C at 1. rewrite !zlen_app in C. pose proof (zlen_nonneg (rdata_plain r)). change (zlen (num16 (rr_type r))) with 2 in C. change (zlen (num16 (zlen (rdata_plain r)))) with 2 in C.
  rewrite (dlabel_complete cap m out p _ _ B N) by lia. cbn [obind]. replace (p + (o - p)) with o by lia.
  assert (zslice m o 2 = num16 (rr_type r) /\ zslice m (o + 2) 6 = rr_meta r /\ zslice m (o + 8) 2 = num16 rdl) as (Z1 & Z2 & Z3).
  { assert (zslice (zslice m o 10) 0 2 = num16 (rr_type r) /\ zslice (zslice m o 10) 2 6 = rr_meta r /\ zslice (zslice m o 10) 8 2 = num16 rdl) as (A1 & A2 & A3).
    { rewrite HZ. split; [reflexivity|]. split.
      - rewrite zslice_app_r by (rewrite ?zlen_app; change (zlen (num16 (rr_type r))) with 2; change (zlen (num16 rdl)) with 2; lia). change (2 - zlen (num16 (rr_type r))) with 0. rewrite zslice_app_l by lia. rewrite <- RM. apply zslice_all.
      - rewrite app_assoc. rewrite zslice_app_r by (rewrite ?zlen_app; change (zlen (num16 (rr_type r))) with 2; change (zlen (num16 rdl)) with 2; lia). rewrite zlen_app, RM. change (8 - (zlen (num16 (rr_type r)) + 6)) with 0. reflexivity. }
    rewrite zslice_zslice in A1, A2, A3 by lia. rewrite Z.add_0_r in A1. repeat split; assumption. }
  unfold l_type. rewrite take_complete by (rewrite ?zlen_app; lia). cbn [obind]. rewrite Z1, number_num16 by lia. unfold l_word. replace (o + 8 + 2 <=? zlen m) with true by lia. cbn [obind]. rewrite Z3, number_num16 by lia.
  replace (o + 8 + 2) with (o + 10) by lia. rewrite (data_complete m (o + 10) (rr_type r) rdl (rr_lead r) (rr_names r) (rr_tail r) B ltac:(lia) ltac:(lia) ltac:(lia) D S1). cbn [obind].
  fold (rdata_plain r). rewrite be_num16 by lia. unfold l_add at 1. rewrite !zlen_app, zlen_zslice by lia. change (zlen (num16 (zlen (rdata_plain r)))) with 2.
  replace (_ <? cap) with true by lia. cbn [obind]. unfold l_add at 1. rewrite !zlen_app, zlen_zslice by lia. change (zlen (num16 (zlen (rdata_plain r)))) with 2. replace (_ <? cap) with true by lia. cbn [obind]. rewrite OE.
  assert (((((out ++ wire (rr_owner r)) ++ zslice m o 8) ++ num16 (zlen (rdata_plain r))) ++ rdata_plain r) = out ++ rr_plain r) as EQ.
  { unfold rr_plain. change 8 with (2 + 6). rewrite (zslice_split m o 2 6) by lia. rewrite Z1, Z2, <- !app_assoc. reflexivity. }
  rewrite EQ, IH; [rewrite app_assoc; reflexivity|exact B|exact SD|]. intros _. rewrite zlen_app. unfold rr_plain at 1. rewrite !zlen_app. change (zlen (num16 (rr_type r))) with 2. change (zlen (num16 (zlen (rdata_plain r)))) with 2. lia.
Qed.

(** ** Messages *)
Lemma head_range m : bytes m -> 12 <= zlen m -> 0 <= field16 m 4 /\ 0 <= totals m.
Proof. intros B M. pose proof (field16_range m 4 B ltac:(lia) ltac:(lia)). pose proof (totals_range m B M). lia. Qed.
Lemma packet_sound cap m o : bytes m -> l_packet cap m = Some o -> long m \/ exists rs, expands 256 m rs o /\ Forall small_data rs /\ zlen o < cap.
Proof.
  intros B H. unfold l_packet in H. apply obind_some in H as ((an & o1) & EH & H). unfold l_header in EH. destruct (zlen m <? 12) eqn:GM; [discriminate|]. assert (12 <= zlen m) as M by lia.
  destruct (field16 m 4 <=? 1) eqn:GQ; [|discriminate]. apply obind_some in EH as (o2 & ET & EH). apply some_inj, pair_equal_spec in EH as (EA & <-). apply l_take_some in ET as (_ & _ & -> & CH). destruct (head_range m B M) as (Q0 & T0).
  rewrite zlen_zslice in CH by lia. change (zlen (@nil Z)) with 0 in CH. cbn [app] in H.
  assert (zlen (zslice m 0 12) = 12) as Z12 by (apply zlen_zslice; lia).
  destruct (field16 m 4 =? 0) eqn:G0; cbn [andb] in EA.
  - destruct (1 <=? totals m) eqn:G1.
    + replace (an =? -2) with false in H by lia. replace (an <=? -3) with true in H by lia. apply answers_sound in H; [|exact B|lia]. destruct H as [L|(rs & e & RS & LR & -> & CR & SR)]; [left; exact L|right].
      exists rs. split; [|split; [exact SR|destruct CR as [CR|CR]; [lia|exact CR]]]. apply (exp_none 256 m rs _ e); [exact M|lia|exact RS| |reflexivity]. change (field16 m 6 + field16 m 8 + field16 m 10) with (totals m). unfold zlen. lia.
    + subst an. cbn [Z.eqb Pos.eqb] in H. apply some_inj in H as <-. right. exists []. split; [|split; [constructor|lia]]. apply (exp_none 256 m [] _ 12); [exact M|lia|constructor| |unfold plain_records; cbn [map concat]; symmetry; apply app_nil_r].
      change (field16 m 6 + field16 m 8 + field16 m 10) with (totals m). change (zlen (@nil rr)) with 0. lia.
  - subst an. replace (totals m =? -2) with false in H by lia. replace (totals m <=? -3) with false in H by lia. apply obind_some in H as ((len & o3) & EQ & H).
    unfold l_question in EQ. apply obind_some in EQ as ((len2 & o4) & ED & EQ). destruct (dlabel_sound cap m (zslice m 0 12) 12 len2 o4 B ltac:(lia) ED) as [L|(n & N & -> & _)]; [left; exact L|]. apply obind_some in EQ as (o5 & ET & EQ). apply some_inj, pair_equal_spec in EQ as (<- & <-). apply l_take_some in ET as (_ & L4 & -> & C4).
    rewrite <- zlen_app in C4. pose proof (name_in_range _ _ _ _ _ N). apply answers_sound in H; [|exact B|lia]. destruct H as [L|(rs & e & RS & LR & -> & CR & SR)]; [left; exact L|right].
    exists rs. split; [|split; [exact SR|]].
    + apply (exp_question 256 m rs _ n (12 + len2) e); [exact M|lia|exact N|lia| | |].
      * replace (12 + len2 + 4) with (12 + (len2 + 4)) by lia. exact RS.
      * change (field16 m 6 + field16 m 8 + field16 m 10) with (totals m). unfold zlen. lia.
      * rewrite <- !app_assoc. reflexivity.
    + destruct CR as [CR|CR]; [|exact CR]. destruct rs; [|cbn [length] in LR; lia]. unfold plain_records. cbn [map concat]. rewrite app_nil_r. exact C4.
Qed.
Lemma packet_complete cap m rs o : bytes m -> expands 256 m rs o -> Forall small_data rs -> zlen o < cap -> l_packet cap m = Some o.
Proof.
  intros B X SD C. unfold l_packet, l_header.
  assert (12 <= zlen m) as M by (destruct X; assumption). destruct (head_range m B M) as (Q0 & T0). assert (zlen (zslice m 0 12) = 12) as Z12 by (apply zlen_zslice; lia).
  assert (12 < cap) as C12 by (destruct X as [n q e X1 X2 X3 X4 X5 X6 ->|e X1 X2 X3 X4 ->]; rewrite zlen_app, Z12 in C; [pose proof (zlen_nonneg (wire n)); pose proof (wire_pos1 n); rewrite !zlen_app in C; pose proof (zlen_nonneg (zslice m q 4)); pose proof (zlen_nonneg (plain_records rs))|pose proof (zlen_nonneg (plain_records rs))]; lia).
  replace (zlen m <? 12) with false by lia. rewrite take_complete by (change (zlen (@nil Z)) with 0; lia). cbn [obind app].
  destruct X as [n q e X1 X2 X3 X4 X5 X6 ->|e X1 X2 X3 X4 ->]; change (field16 m 6 + field16 m 8 + field16 m 10) with (totals m) in *; rewrite X2.
  - cbn [Z.leb Z.compare Pos.compare Pos.compare_cont Z.eqb andb obind]. replace (totals m =? -2) with false by lia. replace (totals m <=? -3) with false by lia.
    pose proof (name_in_range _ _ _ _ _ X3). rewrite !zlen_app, Z12, zlen_zslice in C by lia. pose proof (zlen_nonneg (plain_records rs)).
    unfold l_question. rewrite (dlabel_complete cap m _ 12 n q B X3) by lia. cbn [obind]. replace (12 + (q - 12)) with q by lia. rewrite take_complete by (rewrite ?zlen_app; lia). cbn [obind].
    replace (Z.to_nat (totals m)) with (length rs) by (unfold zlen in X6; lia). replace (12 + (q - 12 + 4)) with (q + 4) by lia.
    rewrite (answers_complete m rs e (q + 4) X5 cap _ B SD); [rewrite <- !app_assoc; reflexivity|]. intros _. rewrite !zlen_app, Z12, zlen_zslice by lia. lia.
  - cbn [Z.leb Z.compare Pos.compare Pos.compare_cont Z.eqb andb obind]. rewrite zlen_app, Z12 in C. destruct (1 <=? totals m) eqn:G1; cbn [obind].
    + replace (-2 - totals m =? -2) with false by lia. replace (-2 - totals m <=? -3) with true by lia. replace (Z.to_nat (-2 - (-2 - totals m))) with (length rs) by (unfold zlen in X4; lia).
      apply (answers_complete m rs e 12 X3 cap _ B SD). intros _. lia.
    + cbn [Z.eqb Pos.eqb]. destruct rs; [unfold plain_records; cbn [map concat]; rewrite app_nil_r; reflexivity|]. unfold zlen in X4. cbn [length] in X4. lia.
Qed.
