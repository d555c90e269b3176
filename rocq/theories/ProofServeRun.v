(** What MaraDNS answers (server/MaraDNS.c), in terms of names: the search. *)
From Verif Require Import CBase Bits ModelDwStr SpecDwStr ProofDwStr SpecNames SpecMessage SpecAcl SpecDeadwoodMsg SpecQuery ModelJsStr SpecJsStr ProofJsStr ProofJsSearch
  ModelQueries SpecQueries ProofQueries ProofDwDnsStr ProofQuestion ProofHname ModelDecomp SpecDecomp ProofJsList ProofSqueeze ProofDecompList ModelMaraHash SpecMaraHash ProofMaraHash ModelServe SpecServe ProofServe.

(** ** Strings *)
Lemma held_bytes cap s q : held cap s q -> bytes q. Proof. intros (H & _). exact (fa_bytes _ _ (hold_facts s q H)). Qed.
Lemma copy_held ca a x cb b y : held ca a x -> held cb b y -> zlen x < cb -> exists s', js_copy a b = Ok (1, s') /\ held cb s' x.
Proof.
  intros (HA & _) (HB & <-) L. pose proof (hold_facts a x HA) as [Wa Sa La Ca Ma Na Ba Xa Ua Oa _ _]. pose proof (hold_facts b y HB) as [Wt St Lt Ct Mt Nt Bt Xt Ut Ot _ _].
  destruct (js_copy_ok a b Wa Wt) as (s' & -> & W' & V'). revert V'. unfold s_copy. rewrite Ua, Ut, !s_len_value, !unit_value, cap_value, oct_value by assumption. rewrite Sa, St, <- La, Oa. cbn [Z.eqb Pos.eqb andb]. replace (zlen x <? j_max b) with true by lia. cbn [fst snd]. intros V'.
  exists s'. split; [reflexivity|]. apply (value_held _ _ _ _ W' V').
Qed.
Lemma substr_held ca a x cb b y p n : held ca a x -> held cb b y -> 0 <= p -> 0 <= n -> p + n <= zlen x -> p < zlen x -> n < cb -> exists s', js_substr a b p n = Ok (1, s') /\ held cb s' (zslice x p n).
Proof.
  intros (HA & _) (HB & <-) P N L L2 L3. pose proof (hold_facts a x HA) as [Wa Sa La Ca Ma Na Ba Xa Ua Oa _ Sl]. pose proof (hold_facts b y HB) as [Wt St Lt Ct Mt Nt Bt Xt Ut Ot _ _].
  destruct (js_substr_ok a b p n Wa Wt ltac:(lia) ltac:(lia) ltac:(lia)) as (s' & -> & W' & V'). revert V'. unfold s_substr. rewrite Ua, Ut, !s_len_value, !unit_value, cap_value by assumption. rewrite Sa, St, <- La. cbn [Z.eqb Pos.eqb andb].
  replace ((0 <=? n) && (0 <=? p) && (p <? zlen x) && (p + n <=? zlen x) && (n <? j_max b)) with true by lia. cbn [fst snd]. intros V'.
  exists s'. split; [reflexivity|]. unfold with_oct in V'. rewrite unit_value, cap_value, St in V'. unfold units in V'. rewrite unit_value, oct_value, Sa, Oa, !Z.mul_1_r in V'. apply (value_held _ _ _ _ W' V').
Qed.
Lemma append_held ca a x cap t y : held ca a x -> held cap t y -> zlen y + zlen x < cap -> exists s', js_append a t = Ok (0, s') /\ held cap s' (y ++ x).
Proof.
  intros (HA & _) (HB & <-) L. pose proof (hold_facts a x HA) as [Wa Sa La Ca Ma Na Ba Xa Ua Oa _ _]. pose proof (hold_facts t y HB) as [Wt St Lt Ct Mt Nt Bt Xt Ut Ot _ _].
  destruct (js_append_ok a t Wa Wt) as (s' & -> & W' & V'). revert V'. unfold s_append. rewrite Ua, Ut, !s_len_value, !unit_value, cap_value, !oct_value by assumption. rewrite Sa, St, <- La, <- Lt, Oa, Ot. cbn [Z.eqb Pos.eqb andb]. replace (zlen x + zlen y <? j_max t) with true by lia. cbn [fst snd]. intros V'.
  exists s'. split; [reflexivity|]. unfold with_oct in V'. rewrite unit_value, cap_value, St in V'. apply (value_held _ _ _ _ W' V').
Qed.
Lemma append_held_not ca a x cap t y : held ca a x -> held cap t y -> cap <= zlen y + zlen x -> exists s', js_append a t = Ok (-1, s').
Proof.
  intros (HA & _) (HB & <-) L. pose proof (hold_facts a x HA) as [Wa Sa La Ca Ma Na Ba Xa Ua Oa _ _]. pose proof (hold_facts t y HB) as [Wt St Lt Ct Mt Nt Bt Xt Ut Ot _ _].
  destruct (js_append_ok a t Wa Wt) as (s' & -> & W' & V'). revert V'. unfold s_append. rewrite Ua, Ut, !s_len_value, !unit_value, cap_value, !oct_value by assumption. rewrite Sa, St, <- La, <- Lt, Oa, Ot. cbn [Z.eqb Pos.eqb andb]. replace (zlen x + zlen y <? j_max t) with false by lia. cbn [fst snd]. intros _.
  exists s'. reflexivity.
Qed.
Lemma word_held cap t y v : held cap t y -> 0 <= v <= 65535 -> exists r s', js_adduint16 t v = Ok (r, s') /\ (zlen y + 2 < cap -> r <> -1 /\ held cap s' (y ++ be 2 v)) /\ (cap <= zlen y + 2 -> r = -1).
Proof.
  intros (HT & <-) V. pose proof (hold_facts t y HT) as [Wt St Lt Ct Mt Nt Bt Xt Ut Ot _ _].
  destruct (js_adduint16_ok t v Wt) as (s' & -> & W' & V'). revert V'. unfold s_adduint16, s_add. replace ((0 <=? v) && (v <=? 65535)) with true by lia. rewrite Ut, !s_len_value, !unit_value, cap_value, !oct_value by assumption. rewrite St, <- Lt, Ot. cbn [Z.eqb Pos.eqb andb]. change (zlen (be 2 v)) with 2.
  destruct (zlen y + 2 <? j_max t) eqn:G; cbn [fst snd]; intros V'; eexists _, _; (split; [reflexivity|]); split; intros; try lia.
  split; [lia|]. unfold with_oct in V'. rewrite unit_value, cap_value, St in V'. apply (value_held _ _ _ _ W' V').
Qed.
Lemma be_num2 v : word v -> be 2 v = num2 v.
Proof. unfold word. intros V. unfold be, num2. cbn [seq rev app map Z.of_nat Pos.of_succ_nat]. change (256 ^ 1) with 256. change (256 ^ 0) with 1. change (Pos.succ 1) with 2%positive. f_equal; [|f_equal]; [lia|]. rewrite Z.div_1_r. reflexivity. Qed.
Lemma bytes_num2 v : word v -> bytes (num2 v).
Proof. unfold word. intros V. repeat constructor; unfold byte; lia. Qed.

(** ** Names *)
Lemma wire_cons l n : wire (l :: n) = zlen l :: l ++ wire n. Proof. reflexivity. Qed.
Lemma zlen_wire_pos' n : 1 <= zlen (wire n).
Proof. destruct n as [|l n]; [reflexivity|]. rewrite wire_cons, zlen_cons, zlen_app. pose proof (zlen_nonneg l). pose proof (zlen_nonneg (wire n)). lia. Qed.
Lemma zlen_plain n t : zlen (plain n t) = zlen (wire n) + 2. Proof. unfold plain. rewrite zlen_app. reflexivity. Qed.
Lemma zlen_star n t : zlen (star_of n t) = zlen (wire n) + 3. Proof. unfold star_of. rewrite zlen_cons, zlen_app. change (zlen (num2 t)) with 2. lia. Qed.
Lemma zlen_wire_tl l n : zlen (wire (l :: n)) = 1 + zlen l + zlen (wire n). Proof. rewrite wire_cons, zlen_cons, zlen_app. lia. Qed.
Lemma zlen_lower_wire n : zlen (wire (lower_name n)) = zlen (wire n).
Proof. induction n as [|l n IH]; [reflexivity|]. cbn [lower_name map]. fold (lower_name n). rewrite !zlen_wire_tl, IH. unfold lower_label. rewrite zlen_map. reflexivity. Qed.
Lemma lower_small x : x < 65 -> lower x = x. Proof. intros X. unfold lower. replace ((65 <=? x) && (x <=? 90)) with false by lia. reflexivity. Qed.
Lemma lower_wire' n : good_name n -> map lower (wire n) = wire (lower_name n).
Proof.
  induction n as [|l n IH]; intros G; [reflexivity|]. apply Forall_cons_iff in G as ((L & B) & G). cbn [lower_name map]. fold (lower_name n). rewrite !wire_cons. cbn [map]. rewrite map_app, IH by exact G. unfold lower_label. rewrite zlen_map, lower_small by lia. reflexivity.
Qed.
Lemma good_lower n : good_name n -> good_name (lower_name n).
Proof. intros G. induction G as [|l n (L & B) G IH]; [constructor|]. cbn [lower_name map]. constructor; [|exact IH]. split; unfold lower_label; [rewrite zlen_map; exact L|apply bytes_lower, B]. Qed.
Lemma fold_plain n t : good_name n -> l_fold (plain n t) = plain (lower_name n) t.
Proof.
  intros G. unfold l_fold, plain. rewrite zlen_app. change (zlen (num2 t)) with 2. replace (zlen (wire n) + 2 - 2) with (zlen (wire n)) by lia. pose proof (zlen_nonneg (wire n)).
  rewrite zslice_app_l, zslice_all by lia. rewrite zslice_app_r by (change (zlen (num2 t)) with 2; lia). rewrite Z.sub_diag. change 2 with (zlen (num2 t)) at 1. rewrite zslice_all, lower_wire' by exact G. reflexivity.
Qed.
Lemma retype_app a t t' : l_retype (a ++ num2 t) t' = a ++ num2 t'.
Proof.
  unfold l_retype. rewrite zlen_app. change (zlen (num2 t)) with 2. replace (zlen a + 2 - 2) with (zlen a) by lia. pose proof (zlen_nonneg a). rewrite zslice_app_l, zslice_all by lia. reflexivity.
Qed.
Lemma type_app a t : 1 <= zlen a -> word t -> l_type (a ++ num2 t) = t.
Proof.
  intros L W. unfold word in W. unfold l_type, at_. rewrite zlen_app. change (zlen (num2 t)) with 2. replace (zlen a + 2 <? 3) with false by lia. rewrite !zget_app_r by lia. replace (zlen a + 2 - 1 - zlen a) with 1 by lia. replace (zlen a + 2 - 2 - zlen a) with 0 by lia. change (zget (num2 t) 1) with (Some (t mod 256)). change (zget (num2 t) 0) with (Some (t / 256)). cbv iota. lia.
Qed.
Lemma retype_plain n t t' : l_retype (plain n t) t' = plain n t'. Proof. apply retype_app. Qed.
Lemma retype_star n t t' : l_retype (star_of n t) t' = star_of n t'. Proof. apply (retype_app (95 :: wire n)). Qed.
Lemma type_plain n t : word t -> l_type (plain n t) = t. Proof. intros W. apply type_app; [apply zlen_wire_pos'|exact W]. Qed.
Lemma type_star n t : word t -> l_type (star_of n t) = t.
Proof. intros W. apply (type_app (95 :: wire n)); [|exact W]. rewrite zlen_cons. pose proof (zlen_nonneg (wire n)). lia. Qed.
Lemma at_0 x q : at_ (x :: q) 0 = x. Proof. reflexivity. Qed.
Lemma at_1 x y q : at_ (x :: y :: q) 1 = y. Proof. reflexivity. Qed.
Lemma make_star_plain l n t : good_label l -> l_make_star (plain (l :: n) t) = (1, star_of n t).
Proof.
  intros (L & B). unfold l_make_star, plain. rewrite wire_cons. cbn [app]. rewrite at_0. cbv zeta. replace (zlen l =? 95) with false by lia. rewrite zlen_cons, !zlen_app. pose proof (zlen_nonneg (wire n)). change (zlen (num2 t)) with 2.
  replace ((_ <? zlen l) || (63 <? zlen l)) with false by lia. replace (zlen l =? 0) with false by lia. replace (zlen l =? _) with false by lia. unfold star_of. f_equal. f_equal. change (zlen l :: (l ++ wire n) ++ num2 t) with ([zlen l] ++ (l ++ wire n) ++ num2 t). rewrite <- app_assoc.
  rewrite zslice_app_r by (change (zlen [zlen l]) with 1; rewrite ?zlen_app; change (zlen (num2 t)) with 2; lia). change (zlen [zlen l]) with 1. replace (zlen l + 1 - 1) with (zlen l) by lia.
  rewrite zslice_app_r by (rewrite ?zlen_app; change (zlen (num2 t)) with 2; lia). rewrite Z.sub_diag. replace (zlen l + zlen (wire n) + 2 + 1 - (zlen l + 1)) with (zlen (wire n ++ num2 t)) by (rewrite zlen_app; change (zlen (num2 t)) with 2; lia). apply zslice_all.
Qed.
Lemma bobbit_star_cons l n t : good_label l -> l_bobbit_star (star_of (l :: n) t) = (1, star_of n t).
Proof.
  intros (L & B). unfold l_bobbit_star, star_of. rewrite wire_cons. cbn [app]. rewrite at_0, at_1. change (negb (95 =? 95)) with false. cbv iota. rewrite !zlen_cons, !zlen_app. pose proof (zlen_nonneg (wire n)). change (zlen (num2 t)) with 2.
  replace ((_ <? zlen l + 2) || (63 <? zlen l)) with false by lia. replace (zlen l =? 0) with false by lia. f_equal. f_equal. change (95 :: zlen l :: (l ++ wire n) ++ num2 t) with ([95; zlen l] ++ (l ++ wire n) ++ num2 t). rewrite <- app_assoc.
  rewrite zslice_app_r by (change (zlen [95; zlen l]) with 2; rewrite ?zlen_app; change (zlen (num2 t)) with 2; lia). change (zlen [95; zlen l]) with 2. replace (zlen l + 2 - 2) with (zlen l) by lia.
  rewrite zslice_app_r by (rewrite ?zlen_app; change (zlen (num2 t)) with 2; lia). rewrite Z.sub_diag. replace (zlen l + zlen (wire n) + 2 + 1 + 1 - (zlen l + 2)) with (zlen (wire n ++ num2 t)) by (rewrite zlen_app; change (zlen (num2 t)) with 2; lia). apply zslice_all.
Qed.
Lemma bobbit_star_nil t : l_bobbit_star (star_of [] t) = (0, star_of [] t). Proof. reflexivity. Qed.
Lemma bobbit_cons l n t : good_label l -> l_bobbit (plain (l :: n) t) = (1, plain n t).
Proof.
  intros (L & B). unfold l_bobbit, plain. rewrite wire_cons. cbn [app]. rewrite at_0. cbv zeta. rewrite !zlen_cons, !zlen_app. pose proof (zlen_nonneg (wire n)). change (zlen (num2 t)) with 2.
  replace (zlen l =? 95) with false by lia. cbn [negb andb]. replace ((_ <? zlen l + 1) || (63 <? zlen l)) with false by lia. replace (zlen l =? 0) with false by lia. f_equal. change (zlen l :: (l ++ wire n) ++ num2 t) with ([zlen l] ++ (l ++ wire n) ++ num2 t). rewrite <- app_assoc.
  rewrite zslice_app_r by (change (zlen [zlen l]) with 1; rewrite ?zlen_app; change (zlen (num2 t)) with 2; lia). change (zlen [zlen l]) with 1. replace (zlen l + 1 - 1) with (zlen l) by lia.
  rewrite zslice_app_r by (rewrite ?zlen_app; change (zlen (num2 t)) with 2; lia). rewrite Z.sub_diag. replace (zlen l + zlen (wire n) + 2 + 1 - (zlen l + 1)) with (zlen (wire n ++ num2 t)) by (rewrite zlen_app; change (zlen (num2 t)) with 2; lia). apply zslice_all.
Qed.
Lemma bobbit_nil t : l_bobbit (plain [] t) = (0, plain [] t). Proof. reflexivity. Qed.

Lemma make_star_held cap s l n t : held cap s (plain (l :: n) t) -> good_label l -> zlen (plain (l :: n) t) < cap -> exists s', make_starlabel s = Ok (1, s') /\ held cap s' (star_of n t).
Proof. intros H G L. destruct (make_starlabel_held cap s _ H ltac:(rewrite zlen_plain in *; pose proof (zlen_wire_pos' (l :: n)); lia)) as (s' & E & H'). rewrite make_star_plain in * by exact G. exists s'. split; assumption. Qed.
Lemma bobbit_star_held cap s l n t : held cap s (star_of (l :: n) t) -> good_label l -> zlen (star_of (l :: n) t) < cap -> exists s', bobbit_starlabel s = Ok (1, s') /\ held cap s' (star_of n t).
Proof. intros H G L. destruct (bobbit_starlabel_held cap s _ H ltac:(rewrite zlen_star in *; pose proof (zlen_wire_pos' (l :: n)); lia)) as (s' & E & H'). rewrite bobbit_star_cons in * by exact G. exists s'. split; assumption. Qed.
Lemma bobbit_star_root cap s t : held cap s (star_of [] t) -> 4 < cap -> exists s', bobbit_starlabel s = Ok (0, s') /\ held cap s' (star_of [] t).
Proof. intros H L. destruct (bobbit_starlabel_held cap s _ H ltac:(change (zlen (star_of [] t)) with 4; lia)) as (s' & E & H'). exists s'. split; assumption. Qed.
Lemma bobbit_held cap s l n t : held cap s (plain (l :: n) t) -> good_label l -> zlen (plain (l :: n) t) < cap -> exists s', bobbit_label s = Ok (1, s') /\ held cap s' (plain n t).
Proof. intros H G L. destruct (bobbit_label_held cap s _ H ltac:(rewrite zlen_plain in *; pose proof (zlen_wire_pos' (l :: n)); lia)) as (s' & E & H'). rewrite bobbit_cons in * by exact G. exists s'. split; assumption. Qed.
Lemma bobbit_root cap s t : held cap s (plain [] t) -> 3 < cap -> exists s', bobbit_label s = Ok (0, s') /\ held cap s' (plain [] t).
Proof. intros H L. destruct (bobbit_label_held cap s _ H ltac:(change (zlen (plain [] t)) with 3; lia)) as (s' & E & H'). exists s'. split; assumption. Qed.
Lemma change_plain cap s n t t' : held cap s (plain n t) -> word t' -> exists s', change_rtype s t' = Ok (1, s') /\ held cap s' (plain n t').
Proof. intros H W. unfold word in W. destruct (retype_held cap s _ t' H ltac:(rewrite zlen_plain; pose proof (zlen_wire_pos' n); lia) ltac:(lia)) as (s' & E & H'). rewrite retype_plain in H'. exists s'. split; assumption. Qed.
Lemma change_star cap s n t t' : held cap s (star_of n t) -> word t' -> exists s', change_rtype s t' = Ok (1, s') /\ held cap s' (star_of n t').
Proof. intros H W. unfold word in W. destruct (retype_held cap s _ t' H ltac:(rewrite zlen_star; pose proof (zlen_wire_pos' n); lia) ltac:(lia)) as (s' & E & H'). rewrite retype_star in H'. exists s'. split; assumption. Qed.
Lemma fold_held cap s n t : held cap s (plain n t) -> good_name n -> zlen (plain n t) < cap -> exists r s', fold_case s = Ok (r, s') /\ (r =? -1) = false /\ held cap s' (plain (lower_name n) t).
Proof. intros H G L. destruct (fold_case_held cap s _ H ltac:(rewrite zlen_plain in *; pose proof (zlen_wire_pos' n); lia)) as (r & s' & E & R & H'). rewrite fold_plain in H' by exact G. exists r, s'. split; [exact E|]. split; [lia|exact H']. Qed.

(** ** Names that end in a star *)
Lemma held_cut cap s a b : held cap s (a ++ b) -> held cap (set_count s (zlen a)) a.
Proof.
  intros H. destruct (held_mem cap s _ H) as (r & E & LR & C & BQ & BR & CQ & S1 & M & SA & SM). rewrite zlen_app in *. pose proof (zlen_nonneg a). pose proof (zlen_nonneg b).
  pose proof (held_new cap s (a ++ b) (j_mem s) (zlen a) H) as X. assert (zslice (j_mem s) 0 (zlen a) = a) as Y by (rewrite E, <- app_assoc, zslice_app_l, zslice_all by lia; reflexivity). rewrite Y in X. apply X; [rewrite E; apply bytes_app; split; assumption|reflexivity|lia].
Qed.
Lemma held_last cap s a x y : held cap s (a ++ [x]) -> byte y -> exists mem, wr (j_mem s) (zlen a) y = Ok mem /\ held cap (set_mem s mem) (a ++ [y]).
Proof.
  intros H B. destruct (held_mem cap s _ H) as (r & E & LR & C & BQ & BR & CQ & S1 & M & SA & SM). rewrite E, <- app_assoc. cbn [app]. rewrite wr_here. eexists. split; [reflexivity|].
  pose proof (held_same cap s _ (a ++ y :: r) H) as X. replace (a ++ y :: r) with ((a ++ [y]) ++ r) in * by (rewrite <- app_assoc; reflexivity). replace (zlen (a ++ [x])) with (zlen (a ++ [y])) in X by (rewrite !zlen_app; reflexivity). rewrite zslice_app_l, zslice_all in X by (pose proof (zlen_nonneg (a ++ [y])); lia). apply X.
  - apply bytes_app. split; [|exact BR]. apply bytes_app in BQ as (BA & _). apply bytes_app. split; [exact BA|constructor; [exact B|constructor]].
  - rewrite E, !zlen_app. reflexivity.
Qed.
Lemma type_read cap s a t : held cap s (a ++ num2 t) -> 1 <= zlen a -> word t -> rd (j_mem s) (j_count s - 1) = Ok (t mod 256) /\ rd (j_mem s) (j_count s - 2) = Ok (t / 256) /\ j_count s = zlen a + 2.
Proof.
  intros H L W. destruct (held_mem cap s _ H) as (r & E & LR & C & _). rewrite C, E. rewrite zlen_app in *. change (zlen (num2 t)) with 2 in *. replace (zlen a + 2 - 2) with (zlen a) by lia. replace (zlen a + 2 - 1) with (zlen (a ++ [t / 256])) by (rewrite zlen_app; change (zlen [t / 256]) with 1; lia). split; [|split; [|reflexivity]].
  - replace ((a ++ num2 t) ++ r) with ((a ++ [t / 256]) ++ t mod 256 :: r) by (rewrite <- !app_assoc; reflexivity). apply rd_here.
  - rewrite <- app_assoc. apply rd_here.
Qed.
Lemma end_plain s l n t : held 256 s (plain (l :: n) t) -> good_name (l :: n) -> zlen (wire (l :: n)) <= 253 -> word t -> exists s', bobbit_starlabel_end s = Ok (130, s') /\ held 256 s' (ending (l :: n) t).
Proof.
  intros H G L W. pose proof (hold_facts s _ (proj1 H)) as [Ws S1 LQ C LM SM B SA U O _ _]. destruct (type_read _ _ _ _ H (zlen_wire_pos' _) W) as (E1 & E2 & EC). assert (j_max s = 256) as M by apply H. assert (3 <= zlen (wire (l :: n))) as L3. { rewrite zlen_wire_tl. apply Forall_cons_iff in G as ((X & _) & _). pose proof (zlen_wire_pos' n). lia. }
  unfold bobbit_starlabel_end. rewrite S1, M. change (negb (1 =? 1)) with false. cbv iota. replace (256 <=? j_count s) with false by lia. replace (j_count s <? 2) with false by lia. replace (j_count s =? 3) with false by lia. rewrite E1. cbn [bind]. rewrite E2. cbn [bind]. cbv zeta. replace (t mod 256 + t / 256 * 256) with t by (unfold word in W; lia).
  rewrite EC. replace (zlen (wire (l :: n)) + 2 - 2) with (zlen (wire (l :: n))) by lia. pose proof (held_cut _ _ _ _ H) as HC. set (s1 := set_count s (zlen (wire (l :: n)))) in *.
  pose proof (dlabel_wire s1 [] (l :: n) []) as D. cbn [app] in D. rewrite app_nil_r in D. change (zlen (@nil Z)) with 0 in D. rewrite D; [|apply HC|split; [exact G|lia]]. cbn [bind].
  replace (j_count s1) with (zlen (wire (l :: n))) by reflexivity. replace ((zlen (wire (l :: n)) - 1 <? 0) || (zlen (wire (l :: n)) <? zlen (wire (l :: n)) - 1)) with false by lia.
  rewrite wire_labels in *. set (a := labels (l :: n)) in *. assert (zlen (a ++ [0]) - 1 = zlen a) as -> by (rewrite zlen_app; change (zlen [0]) with 1; lia).
  destruct (held_mem _ _ _ HC) as (r & EM & _). assert (rd (j_mem s1) (zlen a) = Ok 0) as -> by (rewrite EM, <- app_assoc; apply rd_here). cbn [bind]. change (0 =? 0) with true. cbv iota.
  destruct (held_last _ _ _ _ 95 HC ltac:(unfold byte; lia)) as (mem & -> & H2). cbn [bind].
  destruct (word_held _ _ _ t H2 ltac:(unfold word in W; lia)) as (rr & s3 & -> & X & _). rewrite zlen_app in *. change (zlen [95]) with 1 in *. change (zlen [0]) with 1 in *. destruct (X ltac:(lia)) as (NR & H3). cbn [bind]. change JS_ERROR with (-1). replace (rr =? -1) with false by lia. exists s3. split; [reflexivity|]. rewrite be_num2, <- app_assoc in H3 by exact W. exact H3.
Qed.

Lemma labels_app a b : labels (a ++ b) = labels a ++ labels b.
Proof. unfold labels. rewrite map_app, concat_app. reflexivity. Qed.
Lemma labels_snoc a l : labels (a ++ [l]) = labels a ++ zlen l :: l. Proof. rewrite labels_app. unfold labels at 2. cbn [map concat]. rewrite app_nil_r. reflexivity. Qed.
Lemma removelast_snoc {A} (a : list A) x : removelast (a ++ [x]) = a. Proof. apply removelast_last. Qed.
Fixpoint last_of (n : name) (d : Z) : Z := match n with [] => d | l :: n => last_of n (zlen l) end.
Lemma last_of_snoc n l d : last_of (n ++ [l]) d = zlen l. Proof. revert d. induction n as [|x n IH]; intros d; [reflexivity|]. cbn [app last_of]. apply IH. Qed.
Lemma end_loop_ok s p u r : j_mem s = labels (p ++ u) ++ 95 :: r -> good_name u -> zlen (labels (p ++ u)) < j_count s -> j_count s <= 254 -> j_max s = 256 -> forall k ret d, (length u < k)%nat ->
  end_loop k s ret (zlen (labels p)) (match u with [] => 95 | l :: _ => zlen l end) d = Ok (Some (ret + zlen u, zlen (labels (p ++ u)), last_of u d)).
Proof.
  revert p. induction u as [|l u IH]; intros p E G C C2 M k ret d K; destruct k as [|k]; try (cbn [length] in K; lia); cbn [end_loop].
  - change (negb (95 =? 95)) with false. rewrite andb_false_r. change (zlen (@nil (list Z))) with 0. rewrite Z.add_0_r, app_nil_r. reflexivity.
  - apply Forall_cons_iff in G as ((G1 & G2) & G). replace (p ++ l :: u) with ((p ++ [l]) ++ u) in * by (rewrite <- app_assoc; reflexivity). pose proof (zlen_nonneg (labels p)). pose proof (zlen_nonneg (labels u)).
    assert (zlen (labels ((p ++ [l]) ++ u)) = zlen (labels p) + zlen l + 1 + zlen (labels u)) as LL by (rewrite labels_app, labels_snoc, !zlen_app, zlen_cons; lia).
    replace ((zlen (labels p) <? 256) && (0 <? zlen l) && negb (zlen l =? 95)) with true by lia. replace (63 <? zlen l) with false by lia. cbv zeta. replace ((j_count s <? zlen (labels p) + zlen l + 1) || (j_max s <=? zlen (labels p) + zlen l + 1)) with false by lia.
    assert (zlen (labels p) + zlen l + 1 = zlen (labels (p ++ [l]))) as -> by (rewrite labels_snoc, zlen_app, zlen_cons; lia).
    assert (rd (j_mem s) (zlen (labels (p ++ [l]))) = Ok (match u with [] => 95 | l :: _ => zlen l end)) as ->.
    { rewrite E, labels_app, <- app_assoc. destruct u as [|x u]; [|rewrite labels_cons; cbn [app]]; apply rd_here. }
    cbn [bind]. rewrite IH by (try assumption; cbn [length] in K; lia). rewrite zlen_cons. cbn [last_of]. replace (ret + (zlen u + 1)) with (ret + 1 + zlen u) by lia. reflexivity.
Qed.
Lemma zlen_ending n t : zlen (ending n t) = zlen (labels n) + 3. Proof. unfold ending. rewrite zlen_app, zlen_cons. change (zlen (num2 t)) with 2. lia. Qed.
Lemma names_short n : good_name n -> 2 * zlen n <= zlen (labels n).
Proof. intros G. induction G as [|l n (L & _) G IH]; [reflexivity|]. rewrite labels_cons, !zlen_cons, zlen_app. lia. Qed.
Lemma end_ending s n l t : held 256 s (ending (n ++ [l]) t) -> good_name (n ++ [l]) -> zlen (labels (n ++ [l])) <= 252 -> word t -> exists s', bobbit_starlabel_end s = Ok (zlen (n ++ [l]), s') /\ held 256 s' (ending n t).
Proof.
  intros H G L W. pose proof (hold_facts s _ (proj1 H)) as [Ws S1 LQ C LM SM B SA U O _ _]. unfold ending in H. change (95 :: num2 t) with ([95] ++ num2 t) in H. rewrite app_assoc in H. rewrite zlen_ending in *. pose proof (names_short _ G) as NS. pose proof (zlen_nonneg n) as NN.
  assert (good_label l) as (G1 & G2) by (apply Forall_app in G as (_ & G); apply Forall_inv in G; exact G). assert (zlen (labels (n ++ [l])) = zlen (labels n) + zlen l + 1) as LL by (rewrite labels_snoc, zlen_app, zlen_cons; lia). pose proof (zlen_nonneg (labels n)).
  destruct (type_read _ _ _ _ H ltac:(rewrite zlen_app; change (zlen [95]) with 1; lia) W) as (E1 & E2 & EC). assert (j_max s = 256) as M by apply H. rewrite zlen_app in EC. change (zlen [95]) with 1 in EC.
  unfold bobbit_starlabel_end. rewrite S1, M. change (negb (1 =? 1)) with false. cbv iota. replace (256 <=? j_count s) with false by lia. replace (j_count s <? 2) with false by lia. replace (j_count s =? 3) with false by lia. rewrite E1. cbn [bind]. rewrite E2. cbn [bind]. cbv zeta. replace (t mod 256 + t / 256 * 256) with t by (unfold word in W; lia).
  pose proof (held_cut _ _ _ _ H) as HC. rewrite zlen_app in HC. change (zlen [95]) with 1 in HC. replace (j_count s - 2) with (zlen (labels (n ++ [l])) + 1) by lia. set (s1 := set_count s (zlen (labels (n ++ [l])) + 1)) in *.
  pose proof (dlabel_length_ok s1 [] (n ++ [l]) [95] []) as D. cbn [app] in D. rewrite app_nil_r in D. change (zlen (@nil Z)) with 0 in D. rewrite D; [|apply HC|exact G|right; left; reflexivity|lia]. cbn [bind]. rewrite zlen_app. change (zlen [95]) with 1.
  replace (j_count s1) with (zlen (labels (n ++ [l])) + 1) by reflexivity. replace ((_ <? 0) || (zlen (labels (n ++ [l])) + 1 <? zlen (labels (n ++ [l])) + 1 - 1)) with false by lia.
  replace (zlen (labels (n ++ [l])) + 1 - 1) with (zlen (labels (n ++ [l]))) by lia. destruct (held_mem _ _ _ HC) as (r & EM & LR & _). rewrite <- app_assoc in EM. cbn [app] in EM. assert (rd (j_mem s1) (zlen (labels (n ++ [l]))) = Ok 95) as -> by (rewrite EM; apply rd_here). cbn [bind]. change (95 =? 0) with false. cbv iota.
  assert (rd (j_mem s1) 0 = Ok (match n ++ [l] with [] => 95 | x :: _ => zlen x end)) as ->. { rewrite EM. destruct n as [|x n]; cbn [app]; rewrite labels_cons; reflexivity. } cbn [bind].
  change 0 with (zlen (labels [])) at 2. rewrite (end_loop_ok s1 [] (n ++ [l]) r); [|exact EM|exact G|cbn [app]; change (j_count s1) with (zlen (labels (n ++ [l])) + 1); lia|change (j_count s1) with (zlen (labels (n ++ [l])) + 1); lia|exact M|].
  2: { unfold zlen in NS at 1. apply Nat2Z.inj_lt. change (Z.of_nat 258) with 258. lia. }
  cbn [bind app]. rewrite last_of_snoc. replace (256 <=? zlen (labels (n ++ [l]))) with false by lia. replace (_ || _) with false by lia.
  replace (zlen (labels (n ++ [l])) + 1 - (zlen l + 1)) with (zlen (labels n ++ [zlen l])) by (rewrite zlen_app; change (zlen [zlen l]) with 1; lia).
  assert (held 256 s1 ((labels n ++ [zlen l]) ++ l ++ [95])) as HC2. { rewrite labels_snoc in HC. replace ((labels n ++ [zlen l]) ++ l ++ [95]) with ((labels n ++ zlen l :: l) ++ [95]) by (rewrite <- !app_assoc; reflexivity). exact HC. }
  pose proof (held_cut _ _ _ _ HC2) as HD. set (s2 := set_count s1 (zlen (labels n ++ [zlen l]))) in *. replace (j_count s2) with (zlen (labels n) + 1) by (unfold s2; cbn [set_count j_count]; rewrite zlen_app; reflexivity). replace (zlen (labels n) + 1 <? 1) with false by lia.
  replace (zlen (labels n) + 1 - 1) with (zlen (labels n)) by lia. destruct (held_last _ _ _ _ 95 HD ltac:(unfold byte; lia)) as (mem & -> & H2). cbn [bind].
  destruct (word_held _ _ _ t H2 ltac:(unfold word in W; lia)) as (rr & s3 & -> & X & _). rewrite zlen_app in X. change (zlen [95]) with 1 in *. destruct (X ltac:(lia)) as (NR & H3). cbn [bind]. change JS_ERROR with (-1). replace (rr =? -1) with false by lia. exists s3. split; [rewrite Z.add_0_l; reflexivity|]. rewrite be_num2, <- app_assoc in H3 by exact W. exact H3.
Qed.
Lemma end_root s t : held 256 s (ending [] t) -> bobbit_starlabel_end s = Ok (0, s).
Proof.
  intros H. pose proof (hold_facts s _ (proj1 H)) as [Ws S1 LQ C LM SM B SA U O _ _]. change (zlen (ending [] t)) with 3 in *. assert (j_max s = 256) as M by apply H. unfold bobbit_starlabel_end. rewrite S1, M, <- LQ. reflexivity.
Qed.

(** ** Replies without records *)
Lemma reply_octets id aa tc rdv rcode qd an : word id -> bit aa -> bit tc -> bit rdv -> 0 <= rcode < 16 -> word qd -> word an ->
  hdr_octets (mkqh id 1 0 aa tc rdv 0 0 rcode qd an 0 0) = reply_header id aa tc rdv rcode qd an.
Proof.
  unfold word. intros I A T D RC Q N. unfold hdr_octets, reply_header, header_bytes, num2. cbn [q_id q_qr q_opcode q_aa q_tc q_rd q_ra q_z q_rcode q_qd q_an q_ns q_ar h_id h_qr h_opcode h_aa h_tc h_rd h_ra h_z h_ad h_cd h_rcode h_qdcount h_ancount h_nscount h_arcount app].
  destruct (hi_div id ltac:(lia)) as (-> & ->). destruct (hi_div qd ltac:(lia)) as (-> & ->). destruct (hi_div an ltac:(lia)) as (-> & ->).
  assert (u8 (Z.lor (Z.lor (flag 0 128) (Z.shiftl (Z.land 0 7) 4)) (Z.land rcode 15)) = rcode) as ->. { change (flag 0 128) with 0. change (Z.shiftl (Z.land 0 7) 4) with 0. rewrite !Z.lor_0_l. change 15 with (Z.ones 4). rewrite Z.land_ones by lia. unfold u8. change (2 ^ 4) with 16. lia. }
  destruct A as [-> | ->], T as [-> | ->], D as [-> | ->]; repeat (f_equal; try lia).
Qed.
Lemma made_header J cap hd : junk_ok J -> 14 <= cap -> cap + 3 < 2147483648 -> exists s s', create J cap 1 = Ok s /\ make_hdr hd s = Ok (1, s') /\ held cap s' (hdr_octets hd).
Proof.
  intros HJ C C2. destruct (create_held J cap HJ ltac:(lia) C2) as (s & E & (H & M)). pose proof (hold_facts s _ H) as [Ws S1 _ _ _ _ _ _ _ _ _ _]. destruct (make_hdr_ok hd s Ws S1 ltac:(lia)) as (s' & E' & H' & M' & _). exists s, s'. split; [exact E|]. split; [exact E'|]. split; [exact H'|lia].
Qed.
(** The outcome of udperror for a packet with these first octets. *)
Definition opt_held (o : option js) (q : option (list Z)) : Prop := match o, q with None, None => True | Some s, Some q => exists cap, held cap s q | _, _ => False end.
Lemma udperror_ok J cap raw id rest error rdv o q : junk_ok J -> held cap raw (num2 id ++ rest) -> 1 <= zlen rest -> word id -> bit rdv -> opt_held o q -> (error = -111 \/ 0 <= error < 16) ->
  udperror J raw o error rdv = Ok (refusal id rdv (if error =? -111 then 0 else error) (if error =? -111 then 1 else 0) q).
Proof.
  intros HJ H LR W BR HO ER. pose proof (hold_facts raw _ (proj1 H)) as [Ws S1 LQ C LM SM B SA U O G _]. assert (zlen (num2 id ++ rest) = 2 + zlen rest) as L2 by (rewrite zlen_app; reflexivity). rewrite L2 in *. unfold udperror. replace ((j_count raw <? 2) || (j_max raw <? 3)) with false by lia.
  assert (rd (j_mem raw) 0 = Ok (id / 256)) as E0 by (apply rd_of_zget; rewrite G by lia; reflexivity). assert (rd (j_mem raw) 1 = Ok (id mod 256)) as E1 by (apply rd_of_zget; rewrite G by lia; reflexivity).
  change TRUNCATED with (-111).
  set (rc := if error =? -111 then 0 else error). set (tc := if error =? -111 then 1 else 0). assert (0 <= rc < 16) as RC by (unfold rc; destruct (Z.eqb_spec error (-111)); lia). assert (bit tc) as TC by (unfold tc, bit; destruct (error =? -111); lia).
  set (qd := match o with Some _ => 1 | None => 0 end). assert (word qd) as QD by (unfold qd, word; destruct o; lia).
  destruct (made_header J 96 (mkqh id 1 0 0 tc rdv 0 0 rc qd 0 0 0) HJ ltac:(lia) ltac:(lia)) as (s & s' & -> & EH & HH). cbn [bind]. rewrite E0. cbn [bind]. rewrite E1. cbn [bind]. cbv zeta. replace (id / 256 * 256 + id mod 256) with id by (unfold word in W; lia). fold rc tc qd. rewrite EH. cbn [bind fst snd]. change (1 =? JS_ERROR) with false. cbv iota.
  rewrite reply_octets in HH; try assumption; [|left; reflexivity|unfold word; lia]. unfold refusal.
  destruct o as [s0|], q as [q|]; cbn [opt_held] in HO; try contradiction; [|rewrite (oct_held _ _ _ HH); reflexivity].
  destruct HO as (cq & HQ). unfold qd in *. clear qd QD. set (hb := reply_header id 0 tc rdv rc 1 0) in *. assert (zlen hb = 12) as LB by reflexivity. clearbody hb.
  destruct (zlen hb + zlen q <? 96) eqn:G1.
  - destruct (append_held _ _ _ _ _ _ HQ HH ltac:(lia)) as (s2 & -> & H2). cbn [bind fst snd]. change (0 =? JS_ERROR) with false. cbv iota. destruct (word_held _ _ _ 1 H2 ltac:(lia)) as (r3 & s3 & -> & X & Y). rewrite zlen_app in *. cbn [bind fst snd]. change JS_ERROR with (-1).
    destruct (zlen q <? 82) eqn:G2.
    + destruct (X ltac:(lia)) as (NR & H3). replace (r3 =? -1) with false by lia. rewrite (oct_held _ _ _ H3), <- app_assoc. reflexivity.
    + rewrite Y by lia. reflexivity.
  - destruct (append_held_not _ _ _ _ _ _ HQ HH ltac:(lia)) as (s2 & ->). cbn [bind fst snd]. change (-1 =? JS_ERROR) with true. cbv iota. replace (zlen q <? 82) with false by lia. reflexivity.
Qed.

Lemma dword_held cap t y v : held cap t y -> 0 <= v < 4294967296 -> zlen y + 4 < cap -> exists r s', js_adduint32 t v = Ok (r, s') /\ (r =? -1) = false /\ held cap s' (y ++ be 4 v).
Proof.
  intros (HT & <-) V L. pose proof (hold_facts t y HT) as [Wt St Lt Ct Mt Nt Bt Xt Ut Ot _ _].
  destruct (js_adduint32_ok t v Wt V) as (s' & -> & W' & V'). revert V'. unfold s_adduint32, s_add. rewrite Ut, !s_len_value, !unit_value, cap_value, !oct_value by assumption. rewrite St, <- Lt, Ot. cbn [Z.eqb Pos.eqb andb]. change (zlen (be 4 v)) with 4. replace (zlen y + 4 <? j_max t) with true by lia. cbn [fst snd]. intros V'.
  eexists _, _. split; [reflexivity|]. split; [reflexivity|]. unfold with_oct in V'. rewrite unit_value, cap_value, St in V'. apply (value_held _ _ _ _ W' V').
Qed.
Lemma word_held' cap t y v : held cap t y -> word v -> zlen y + 2 < cap -> exists r s', js_adduint16 t v = Ok (r, s') /\ (r =? -1) = false /\ held cap s' (y ++ num2 v).
Proof. intros H V L. unfold word in V. destruct (word_held cap t y v H ltac:(lia)) as (r & s' & -> & X & _). destruct (X L) as (N & H'). exists r, s'. split; [reflexivity|]. split; [lia|]. rewrite be_num2 in H' by exact V. exact H'. Qed.
Lemma byte_held cap t y v : held cap t y -> 0 <= v < 256 -> zlen y + 1 < cap -> exists r s', js_addbyte t v = Ok (r, s') /\ (r =? -1) = false /\ held cap s' (y ++ [v]).
Proof.
  intros (HT & <-) V L. pose proof (hold_facts t y HT) as [Wt St Lt Ct Mt Nt Bt Xt Ut Ot _ _].
  destruct (js_addbyte_ok t v Wt) as (s' & -> & W' & V'). revert V'. unfold s_addbyte, s_add. replace (be 1 v) with [v] by (cbn; f_equal; lia). rewrite Ut, !s_len_value, !unit_value, cap_value, !oct_value by assumption. rewrite St, <- Lt, Ot. cbn [Z.eqb Pos.eqb andb]. change (zlen [v]) with 1. replace (zlen y + 1 <? j_max t) with true by lia. cbn [fst snd]. intros V'.
  eexists _, _. split; [reflexivity|]. split; [reflexivity|]. unfold with_oct in V'. rewrite unit_value, cap_value, St in V'. apply (value_held _ _ _ _ W' V').
Qed.
Lemma octets_held cap l : forall s y, held cap s y -> bytes l -> zlen y + zlen l < cap -> exists s', add_octets s l = Ok (Some s') /\ held cap s' (y ++ l).
Proof.
  induction l as [|v l IH]; intros s y H B L; cbn [add_octets]; [exists s; rewrite app_nil_r; split; [reflexivity|exact H]|]. apply Forall_cons_iff in B as (BV & B). unfold byte in BV. rewrite zlen_cons in L. pose proof (zlen_nonneg l).
  destruct (byte_held cap s y v H BV ltac:(lia)) as (r & s1 & -> & NR & H1). cbn [bind fst snd]. change JS_ERROR with (-1). rewrite NR. cbv iota zeta. destruct (IH s1 _ H1 B ltac:(rewrite zlen_app; change (zlen [v]) with 1; lia)) as (s2 & E & H2). exists s2. split; [exact E|]. rewrite <- app_assoc in H2. exact H2.
Qed.
Lemma words_held cap l : forall s y, held cap s y -> Forall word l -> zlen y + 2 * zlen l < cap -> exists s', add_words s l = Ok (Some s') /\ held cap s' (y ++ concat (map num2 l)).
Proof.
  induction l as [|v l IH]; intros s y H B L; cbn [add_words map concat]; [exists s; rewrite app_nil_r; split; [reflexivity|exact H]|]. apply Forall_cons_iff in B as (BV & B). rewrite zlen_cons in L. pose proof (zlen_nonneg l).
  destruct (word_held' cap s y v H BV ltac:(lia)) as (r & s1 & -> & NR & H1). cbn [bind fst snd]. change JS_ERROR with (-1). rewrite NR. cbv iota zeta. destruct (IH s1 _ H1 B ltac:(rewrite zlen_app; change (zlen (num2 v)) with 2; lia)) as (s2 & E & H2). exists s2. split; [exact E|]. rewrite <- app_assoc in H2. exact H2.
Qed.

(** ** Addresses written as names *)
Fixpoint quads (k : nat) (u : name) : option (list Z * name) :=
  match k with
  | O => Some ([], u)
  | S k => match u with [] => None | l :: u => match number l with Some v => match quads k u with Some (vs, w) => Some (v :: vs, w) | None => None end | None => None end end
  end.
Lemma quad_quads n : quad n = match quads 4 n with Some (vs, []) => Some vs | _ => None end.
Proof. destruct n as [|a [|b [|c [|d [|e n]]]]]; cbn [quad quads]; try reflexivity; repeat match goal with |- context [number ?x] => destruct (number x) end; reflexivity. Qed.
Lemma digits_ok l : forall pre r v, ddip_digits (length l) (pre ++ l ++ r) (zlen pre) v = Ok (if forallb (fun b => (48 <=? b) && (b <=? 57)) l then Some (fold_left (fun v b => v * 10 + (b - 48)) l v) else None).
Proof.
  induction l as [|x l IH]; intros pre r v; cbn [length ddip_digits forallb fold_left app]; [reflexivity|]. rewrite rd_here. cbn [bind]. replace ((57 <? x) || (x <? 48)) with (negb ((48 <=? x) && (x <=? 57))) by lia. destruct ((48 <=? x) && (x <=? 57)); cbn [negb andb]; [|reflexivity].
  specialize (IH (pre ++ [x]) r (v * 10 + (x - 48))). rewrite zlen_app, <- app_assoc in IH. exact IH.
Qed.
Lemma decimal_text l : decimal (map (fun b => b - 48) l) = fold_left (fun v b => v * 10 + (b - 48)) l 0.
Proof. unfold decimal. generalize 0. induction l as [|x l IH]; intros a; cbn [map fold_left]; [reflexivity|]. apply IH. Qed.
Lemma number_bound l v : Forall byte l -> number l = Some v -> 0 <= v <= 255.
Proof.
  intros B. unfold number. destruct ((zlen l <=? 3) && forallb _ l) eqn:G; [|discriminate]. cbv zeta. destruct (decimal (map (fun b => b - 48) l) <=? 255) eqn:G2; [|discriminate]. intros E. injection E as <-. split; [|lia]. apply andb_true_iff in G as (_ & G). rewrite decimal_text.
  assert (forall l a, 0 <= a -> forallb (fun b => (48 <=? b) && (b <=? 57)) l = true -> 0 <= fold_left (fun v b => v * 10 + (b - 48)) l a) as X; [|apply X; [lia|exact G]].
  clear. induction l as [|x l IH]; intros a A G; cbn [fold_left forallb] in *; [exact A|]. apply andb_true_iff in G as (G1 & G2). apply IH; [lia|exact G2].
Qed.
Lemma ddip_labels_ok q : forall k u pre r ip, j_mem q = pre ++ wire u ++ r -> zlen (pre ++ wire u) <= j_count q -> good_name u ->
  match quads k u with
  | Some (vs, w) => exists p, ddip_labels k q (zlen pre) ip = Ok (inr (p, ip ++ vs)) /\ rd (j_mem q) p = Ok (match w with [] => 0 | l :: _ => zlen l end) /\ bytes vs /\ zlen vs = Z.of_nat k /\ good_name w
  | None => ddip_labels k q (zlen pre) ip = Ok (inl 0)
  end.
Proof.
  induction k as [|k IH]; intros u pre r ip E C G; cbn [quads ddip_labels].
  - exists (zlen pre). split; [rewrite app_nil_r; reflexivity|]. split; [|split; [constructor|split; [reflexivity|exact G]]]. rewrite E. destruct u as [|l u]; [|rewrite wire_cons; cbn [app]]; apply rd_here.
  - destruct u as [|l u].
    + rewrite E. assert (rd (pre ++ wire [] ++ r) (zlen pre) = Ok 0) as -> by apply rd_here. reflexivity.
    + apply Forall_cons_iff in G as ((G1 & G2) & G). assert (rd (j_mem q) (zlen pre) = Ok (zlen l)) as -> by (rewrite E, wire_cons; cbn [app]; apply rd_here). cbn [bind]. unfold number at 1. destruct ((zlen l <=? 3) && forallb (fun b => (48 <=? b) && (b <=? 57)) l) eqn:GD.
      * apply andb_true_iff in GD as (L3 & GD). replace ((zlen l <? 1) || (3 <? zlen l)) with false by lia. cbv zeta. rewrite zlen_app, zlen_wire_tl in C. pose proof (zlen_wire_pos' u). replace (j_count q <? zlen pre + zlen l + 1) with false by lia.
        assert (j_mem q = (pre ++ [zlen l]) ++ l ++ wire u ++ r) as E2. { rewrite E, wire_cons. cbn [app]. rewrite <- !app_assoc. reflexivity. }
        pose proof (digits_ok l (pre ++ [zlen l]) (wire u ++ r) 0) as D. rewrite <- E2, zlen_app in D. change (zlen [zlen l]) with 1 in D. replace (length l) with (Z.to_nat (zlen l)) in D by (unfold zlen; lia). rewrite D, GD. cbn [bind]. rewrite <- decimal_text. set (dv := decimal (map (fun b => b - 48) l)). replace (255 <? dv) with (negb (dv <=? 255)) by lia. destruct (dv <=? 255) eqn:GV; cbn [negb]; [|reflexivity].
        assert (number l = Some dv) as NL by (unfold number; rewrite L3, GD; cbn [andb]; cbv zeta; fold dv; rewrite GV; reflexivity). pose proof (number_bound l _ G2 NL) as NB.
        assert (j_mem q = ((pre ++ [zlen l]) ++ l) ++ wire u ++ r) as E3 by (rewrite E2, <- !app_assoc; reflexivity). specialize (IH u ((pre ++ [zlen l]) ++ l) r (ip ++ [dv]) E3). rewrite !zlen_app in IH. change (zlen [zlen l]) with 1 in IH. specialize (IH ltac:(lia) G). replace (zlen pre + 1 + zlen l) with (zlen pre + zlen l + 1) in IH by lia.
        destruct (quads k u) as [(vs, w)|]; [|exact IH]. destruct IH as (p & -> & X & BV & LV & Y). exists p. split; [rewrite <- app_assoc; reflexivity|]. split; [exact X|]. split; [constructor; [unfold byte; lia|exact BV]|]. split; [rewrite zlen_cons, LV; lia|exact Y].
      * destruct ((zlen l <? 1) || (3 <? zlen l)) eqn:GL; [reflexivity|]. replace (zlen l <=? 3) with true in GD by lia. cbn [andb] in GD. cbv zeta. rewrite zlen_app, zlen_wire_tl in C. pose proof (zlen_wire_pos' u). replace (j_count q <? zlen pre + zlen l + 1) with false by lia.
        assert (j_mem q = (pre ++ [zlen l]) ++ l ++ wire u ++ r) as E2. { rewrite E, wire_cons. cbn [app]. rewrite <- !app_assoc. reflexivity. }
        pose proof (digits_ok l (pre ++ [zlen l]) (wire u ++ r) 0) as D. rewrite <- E2, zlen_app in D. change (zlen [zlen l]) with 1 in D. replace (length l) with (Z.to_nat (zlen l)) in D by (unfold zlen; lia). rewrite D, GD. reflexivity.
Qed.
