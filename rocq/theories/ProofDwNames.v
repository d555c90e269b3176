(** Deadwood's name comparison and bailiwick test are exact. *)
From Verif Require Import CBase Bits SpecNames SpecMessage SpecReply SpecDwStr ModelDwStr ModelDwCompress ModelDwDnsStr ModelDwRecurse ProofDwStr ProofDwCompressSafe ProofDwDecomp ProofDwDnsStr.

Lemma c_lower_lower b : byte b -> c_lower b = lower b.
Proof. intros H. unfold byte in H. unfold c_lower, lower. destruct ((65 <=? b) && (b <=? 90)) eqn:E; [|reflexivity]. unfold u8. lia. Qed.
Lemma c_lower_small b : b < 65 -> c_lower b = b.
Proof. intros H. unfold c_lower. replace (65 <=? b) with false by lia. reflexivity. Qed.
Lemma map_c_lower l : bytes l -> map c_lower l = map lower l.
Proof. intros B. apply map_ext_in. intros b Hb. apply c_lower_lower. unfold bytes in B. rewrite Forall_forall in B. auto. Qed.

(** The string has [l] at [o]. *)
Definition in_at (s : dwstr) (o : Z) (l : list Z) : Prop := exists A B, con s = A ++ l ++ B /\ o = zlen A.
Lemma in_at_range s o l : dok s -> in_at s o l -> 0 <= o /\ o + zlen l <= d_len s.
Proof. intros D (A & B & C & ->). rewrite <- (zlen_con s) by auto. rewrite C. repeat rewrite zlen_app. pose proof (zlen_nonneg A). pose proof (zlen_nonneg B). lia. Qed.
Lemma in_at_app_l s o a b : in_at s o (a ++ b) -> in_at s o a.
Proof. intros (A & B & C & ->). exists A, (b ++ B). rewrite C, <- app_assoc. auto. Qed.
Lemma in_at_app_r s o a b : in_at s o (a ++ b) -> in_at s (o + zlen a) b.
Proof. intros (A & B & C & ->). exists (A ++ a), B. rewrite C, zlen_app. repeat rewrite <- app_assoc. auto. Qed.
Lemma in_at_cons_l s o x b : in_at s o (x :: b) -> in_at s o [x].
Proof. intros H. change (x :: b) with ([x] ++ b) in H. eapply in_at_app_l; eauto. Qed.
Lemma in_at_cons_r s o x b : in_at s o (x :: b) -> in_at s (o + 1) b.
Proof. intros H. change (x :: b) with ([x] ++ b) in H. apply in_at_app_r in H. exact H. Qed.
Lemma in_at_get s o x b : dok s -> in_at s o (x :: b) -> rd (d_mem s) o = Ok x.
Proof.
  intros D H. pose proof (in_at_range _ _ _ D H) as R. rewrite zlen_cons in R. pose proof (zlen_nonneg b). destruct H as (A & B & C & E). rewrite rd_con by (auto; lia). eapply rd_at; [rewrite C; reflexivity|exact E].
Qed.

Lemma issame_inner_ok u1 : forall s1 s2 u2 p1 p2 c, dok s1 -> dok s2 -> in_at s1 (p1 + 1) u1 -> in_at s2 (p2 + 1) u2 -> length u2 = length u1 -> c + zlen u1 <= 260 ->
  issame_inner (length u1) (d_mem s1) (d_mem s2) p1 p2 (d_len s1) (d_len s2) c =
  Ok (if zlist_eqb (map c_lower u1) (map c_lower u2) then inr (p1 + zlen u1, p2 + zlen u1, c + zlen u1) else inl 0).
Proof.
  induction u1 as [|a u1 IH]; intros s1 s2 u2 p1 p2 c D1 D2 I1 I2 El Hc; destruct u2 as [|b u2]; try discriminate El; cbn [length issame_inner map zlist_eqb].
  - rewrite zlen_nil, !Z.add_0_r. reflexivity.
  - rewrite zlen_cons in Hc. pose proof (zlen_nonneg u1). replace (c <? 260) with true by lia. cbv zeta. pose proof (in_at_range _ _ _ D1 I1) as R1. pose proof (in_at_range _ _ _ D2 I2) as R2. rewrite zlen_cons in R1, R2. pose proof (zlen_nonneg u2).
    replace ((d_len s1 <? p1 + 1) || (d_len s2 <? p2 + 1)) with false by lia. rewrite (in_at_get _ _ _ _ D1 I1), (in_at_get _ _ _ _ D2 I2). cbn [bind].
    destruct (c_lower a =? c_lower b); cbn [negb andb]; [|reflexivity]. injection El as El. rewrite (IH s1 s2 u2); auto; [|exact (in_at_cons_r _ _ _ _ I1)|exact (in_at_cons_r _ _ _ _ I2)|lia].
    destruct (zlist_eqb _ _); [|reflexivity]. rewrite zlen_cons. replace (p1 + 1 + zlen u1) with (p1 + (zlen u1 + 1)) by lia. replace (p2 + 1 + zlen u1) with (p2 + (zlen u1 + 1)) by lia. replace (c + 1 + zlen u1) with (c + (zlen u1 + 1)) by lia. reflexivity.
Qed.

Lemma same_name_spec a b : same_name a b = true <-> lower_name a = lower_name b.
Proof. unfold same_name. destruct (list_eq_dec _ _ _); split; auto; discriminate. Qed.
Lemma same_name_cons l1 n1 l2 n2 : same_name (l1 :: n1) (l2 :: n2) = zlist_eqb (lower_label l1) (lower_label l2) && same_name n1 n2.
Proof.
  unfold same_name. destruct (list_eq_dec _ (lower_name (l1 :: n1)) _) as [E|N].
  - injection E as E1 E2. rewrite E1, zlist_eqb_refl. destruct (list_eq_dec _ _ _) as [_|N]; [reflexivity|]. exfalso. exact (N E2).
  - destruct (zlist_eqb _ _) eqn:E; [|reflexivity]. apply zlist_eqb_spec in E. destruct (list_eq_dec _ (lower_name n1) _) as [E2|_]; [|reflexivity]. exfalso. apply N. cbn [lower_name map]. rewrite E. unfold lower_name in E2. rewrite E2. reflexivity.
Qed.
Lemma same_name_refl a : same_name a a = true. Proof. apply same_name_spec. reflexivity. Qed.
Lemma same_name_sym a b : same_name a b = same_name b a.
Proof. destruct (same_name a b) eqn:E, (same_name b a) eqn:F; auto; [apply same_name_spec in E; symmetry in E; apply same_name_spec in E; congruence|apply same_name_spec in F; symmetry in F; apply same_name_spec in F; congruence]. Qed.
Lemma same_name_trans a b c : same_name a b = true -> same_name b c = true -> same_name a c = true.
Proof. rewrite !same_name_spec. congruence. Qed.
Lemma same_name_replace a b c : same_name a b = true -> same_name a c = same_name b c.
Proof. rewrite same_name_spec. intros E. unfold same_name. rewrite E. reflexivity. Qed.
Lemma same_name_len a b : same_name a b = true -> zlen (wire a) = zlen (wire b) /\ zlen a = zlen b.
Proof.
  rewrite same_name_spec. revert b. induction a as [|x a IH]; intros [|y b] E; try discriminate E; [auto|]. injection E as E1 E2. destruct (IH b E2) as (L1 & L2). apply (f_equal zlen) in E1. unfold lower_label, zlen in E1. rewrite !map_length in E1.
  cbn [wire]. rewrite !zlen_cons, !zlen_app, L1, L2. unfold zlen at 1 3. split; lia.
Qed.

Definition weight (n : name) : Z := zlen (wire n) + zlen n - 1.
Lemma weight_cons l n : weight (l :: n) = zlen l + 2 + weight n.
Proof. unfold weight. cbn [wire]. rewrite !zlen_cons, zlen_app. lia. Qed.
Lemma weight_nonneg n : 0 <= weight n.
Proof. unfold weight. pose proof (zlen_wire_pos n). pose proof (zlen_nonneg n). lia. Qed.
Lemma weight_length n : zlen n <= weight n.
Proof. unfold weight. pose proof (zlen_wire_pos n). lia. Qed.
Definition hd0 (n : name) : Z := match n with [] => 0 | l :: _ => zlen l end.
Lemma wire_hd n : exists t, wire n = hd0 n :: t. Proof. destruct n; cbn [wire hd0]; eauto. Qed.
Lemma hd0_range n : good_name n -> 0 <= hd0 n <= 63.
Proof. intros G. destruct n as [|l n]; cbn [hd0]; [lia|]. inversion G as [|? ? (H & _) _]; subst. lia. Qed.

Lemma issame_outer_ok n1 : forall fuel s1 s2 n2 p1 p2 c, dok s1 -> dok s2 -> good_name n1 -> good_name n2 -> in_at s1 p1 (wire n1) -> in_at s2 p2 (wire n2) -> 0 <= c -> c + weight n1 <= 259 \/ c + weight n2 <= 259 -> 260 <= c + Z.of_nat fuel ->
  issame_outer fuel (d_mem s1) (d_mem s2) p1 p2 (d_len s1) (d_len s2) c = Ok (if same_name n1 n2 then 1 else 0).
Proof.
  induction n1 as [|l1 n1 IH]; intros fuel s1 s2 n2 p1 p2 c D1 D2 G1 G2 I1 I2 Hc Hw Hf; pose proof (weight_nonneg n2) as Hw2; (destruct fuel as [|fuel]; [exfalso; pose proof (weight_nonneg []); try pose proof (weight_nonneg (l1 :: n1)); lia|]); cbn [issame_outer].
  - pose proof (weight_nonneg n2). change (weight []) with 0 in Hw. replace (c <? 260) with true by lia. cbn [wire] in I1. destruct (wire_hd n2) as (t2 & E2). rewrite E2 in I2. rewrite (in_at_get _ _ _ _ D1 I1), (in_at_get _ _ _ _ D2 I2). cbn [bind].
    destruct n2 as [|l2 n2]; cbn [hd0]; [reflexivity|]. inversion G2 as [|? ? (Hl & _) _]; subst. replace (0 =? zlen l2) with false by lia. cbn [negb]. reflexivity.
  - rewrite weight_cons in Hw. pose proof (weight_nonneg n1). pose proof (weight_nonneg n2). inversion G1 as [|? ? (Hl1 & Hb1) G1']; subst. replace (c <? 260) with true by lia.
    destruct (wire_hd n2) as (t2 & E2). pose proof I2 as I2'. rewrite E2 in I2'. cbn [wire] in I1. rewrite (in_at_get _ _ _ _ D1 I1), (in_at_get _ _ _ _ D2 I2'). cbn [bind].
    destruct n2 as [|l2 n2]; cbn [hd0] in *.
    { replace (zlen l1 =? 0) with false by lia. cbn [negb]. reflexivity. }
    inversion G2 as [|? ? (Hl2 & Hb2) G2']; subst. destruct (Z.eqb_spec (zlen l1) (zlen l2)) as [El|Nl]; cbn [negb].
    2:{ unfold same_name. destruct (list_eq_dec _ _ _) as [E|]; [|reflexivity]. exfalso. injection E as E _. apply (f_equal zlen) in E. unfold lower_label, zlen in E. rewrite !map_length in E. unfold zlen in Nl. lia. }
    rewrite weight_cons in Hw. pose proof (weight_nonneg n2). replace (63 <? zlen l1) with false by lia. replace (zlen l1 =? 0) with false by lia.
    cbn [wire] in I2. apply in_at_cons_r in I1. apply in_at_cons_r in I2. destruct (wire_hd n1) as (t1 & F1). destruct (wire_hd n2) as (t3 & F2).
    pose proof I1 as J1. pose proof I2 as J2. rewrite F1 in J1. rewrite F2 in J2. change (hd0 n1 :: t1) with ([hd0 n1] ++ t1) in J1. change (hd0 n2 :: t3) with ([hd0 n2] ++ t3) in J2. rewrite app_assoc in J1, J2. apply in_at_app_l in J1. apply in_at_app_l in J2.
    assert (Z.to_nat (zlen l1 + 1) = length (l1 ++ [hd0 n1])) as -> by (rewrite app_length; cbn [length]; unfold zlen; lia).
    rewrite (issame_inner_ok (l1 ++ [hd0 n1]) s1 s2 (l2 ++ [hd0 n2])); auto; [|rewrite !app_length; unfold zlen in El; cbn [length]; lia|rewrite zlen_app; change (zlen [hd0 n1]) with 1; lia]. cbn [bind].
    rewrite !map_app. cbn [map]. pose proof (hd0_range n1 G1'). pose proof (hd0_range n2 G2'). rewrite !(c_lower_small (hd0 _)) by lia. rewrite !map_c_lower by assumption.
    destruct (zlist_eqb (map lower l1 ++ [hd0 n1]) (map lower l2 ++ [hd0 n2])) eqn:E.
    + apply zlist_eqb_spec in E. apply app_inj_tail in E as (E3 & E4). rewrite zlen_app. change (zlen [hd0 n1]) with 1.
      apply in_at_app_r in I1. apply in_at_app_r in I2. rewrite (IH fuel s1 s2 n2); auto; try lia.
      * rewrite same_name_cons. unfold lower_label. rewrite E3, zlist_eqb_refl. reflexivity.
      * replace (p1 + (zlen l1 + 1)) with (p1 + 1 + zlen l1) by lia. exact I1.
      * replace (p2 + (zlen l1 + 1)) with (p2 + 1 + zlen l2) by lia. exact I2.
    + apply zlist_eqb_neq in E. unfold same_name. destruct (list_eq_dec _ _ _) as [F|_]; [|reflexivity]. exfalso. apply E. cbn [lower_name map] in F. injection F as F3 F4. unfold lower_label in F3. rewrite F3. f_equal. f_equal.
      destruct n1 as [|x n1], n2 as [|y n2]; try discriminate F4; [reflexivity|]. injection F4 as F4 _. apply (f_equal zlen) in F4. unfold lower_label, zlen in F4. rewrite !map_length in F4. unfold hd0, zlen. lia.
Qed.

(** A name and the string it stands in. *)
Definition named (s : dwstr) (o : Z) (n : name) : Prop := good_name n /\ in_at s o (wire n).
Lemma comparable_weight n : comparable n <-> weight n <= 259.
Proof. unfold comparable, weight. lia. Qed.

Lemma issame_2dw_ok s1 o1 n1 s2 o2 n2 : dok s1 -> dok s2 -> named s1 o1 n1 -> named s2 o2 n2 -> comparable n1 \/ comparable n2 ->
  dwx_dname_issame_2dw s1 o1 s2 o2 = Ok (if same_name n1 n2 then 1 else 0).
Proof.
  intros D1 D2 (G1 & I1) (G2 & I2) W. rewrite !comparable_weight in W. pose proof (in_at_range _ _ _ D1 I1). pose proof (in_at_range _ _ _ D2 I2). pose proof (zlen_wire_pos n1). pose proof (zlen_wire_pos n2).
  pose proof D1 as [[B1 L1 M1 Me1] K1]. pose proof D2 as [[B2 L2 M2 Me2] K2]. unfold dwx_dname_issame_2dw. rewrite (dok_sane _ D1), (dok_sane _ D2). cbn [negb orb]. rewrite !u32_small by lia.
  replace ((d_len s1 <? o1) || (d_len s2 <? o2)) with false by lia. apply issame_outer_ok; auto; lia.
Qed.

Lemma comparable_parent l n : comparable (l :: n) -> comparable n.
Proof. rewrite !comparable_weight, weight_cons. pose proof (zlen_nonneg l). lia. Qed.
Lemma named_cons s o l n : named s o (l :: n) -> good_label l /\ named s (o + zlen l + 1) n.
Proof.
  intros (G & I). inversion G as [|? ? Hl G']; subst. split; [exact Hl|]. split; [exact G'|]. cbn [wire] in I. apply in_at_cons_r in I. apply in_at_app_r in I. replace (o + zlen l + 1) with (o + 1 + zlen l) by lia. exact I.
Qed.
Lemma named_get s o n : dok s -> named s o n -> rd (d_mem s) o = Ok (hd0 n).
Proof. intros D (G & I). destruct (wire_hd n) as (t & E). rewrite E in I. exact (in_at_get _ _ _ _ D I). Qed.
Lemma named_lt s o n : dok s -> named s o n -> 0 <= o < d_len s.
Proof. intros D (G & I). pose proof (in_at_range _ _ _ D I). pose proof (zlen_wire_pos n). lia. Qed.

Lemma same_one b : ((if b : bool then 1 else 0) =? 1) = b. Proof. destruct b; reflexivity. Qed.
Lemma bailiwick_top_loop_ok n : forall fuel inp o b z, dok inp -> dok b -> named inp o n -> named b 0 z -> comparable z -> (length n < fuel)%nat ->
  bailiwick_top_loop fuel inp o b = Ok (below z n).
Proof.
  induction n as [|l n IH]; intros fuel inp o b z D Db N Nb Cz Hf; (destruct fuel as [|fuel]; [cbn [length] in Hf; lia|]); cbn [bailiwick_top_loop below]; rewrite (named_get _ _ _ D N); cbn [bind hd0]; [reflexivity|].
  destruct (named_cons _ _ _ _ N) as ((Hl & _) & N'). replace (zlen l =? 0) with false by lia. replace (63 <? zlen l) with false by lia. cbv zeta.
  pose proof (named_lt _ _ _ D N'). replace (d_len inp <=? o + zlen l + 1) with false by lia. rewrite (issame_2dw_ok _ _ n _ _ z) by auto. cbn [bind]. rewrite same_one.
  destruct n as [|l' n]; cbn [at_or_below].
  - destruct (same_name [] z); [reflexivity|]. cbn [orb]. rewrite (IH fuel inp _ b z); auto. cbn [length] in *. lia.
  - destruct (same_name (l' :: n) z); [reflexivity|]. cbn [orb]. rewrite (IH fuel inp _ b z); auto. cbn [length] in *. lia.
Qed.
Lemma bailiwick_query_loop_ok q : forall fuel inp o n query qo, dok inp -> dok query -> named inp o n -> named query qo q -> comparable n \/ comparable q -> (length q < fuel)%nat ->
  bailiwick_query_loop fuel inp o query qo = Ok (below n q).
Proof.
  induction q as [|l q IH]; intros fuel inp o n query qo D Dq N Nq C Hf; (destruct fuel as [|fuel]; [cbn [length] in Hf; lia|]); cbn [bailiwick_query_loop below]; rewrite (named_get _ _ _ Dq Nq); cbn [bind hd0]; [reflexivity|].
  destruct (named_cons _ _ _ _ Nq) as ((Hl & _) & N'). replace (zlen l =? 0) with false by lia. replace (63 <? zlen l) with false by lia. cbv zeta.
  assert (comparable n \/ comparable q) as C' by (destruct C as [C|C]; [left; exact C|right; exact (comparable_parent _ _ C)]).
  pose proof (named_lt _ _ _ Dq N'). replace (d_len query <=? qo + zlen l + 1) with false by lia. rewrite (issame_2dw_ok _ _ n _ _ q) by auto. cbn [bind]. rewrite same_one. rewrite (same_name_sym n q).
  destruct q as [|l' q]; cbn [at_or_below].
  - destruct (same_name [] n); [reflexivity|]. cbn [orb]. rewrite (IH fuel inp o n query); auto. cbn [length] in *. lia.
  - destruct (same_name (l' :: q) n); [reflexivity|]. cbn [orb]. rewrite (IH fuel inp o n query); auto. cbn [length] in *. lia.
Qed.
Lemma at_or_below_below z n : at_or_below z n = same_name n z || below z n. Proof. destruct n; reflexivity. Qed.

Theorem in_bailiwick_ok inp o n b z query q : dok inp -> dok b -> named inp o n -> named b 0 z -> comparable z -> zlen n < 1024 ->
  match query with None => q = None | Some s => exists qn, q = Some qn /\ dok s /\ named s 0 qn /\ 2 < d_len s /\ (comparable n \/ comparable qn) /\ zlen qn < 1024 end ->
  dwx_string_in_bailiwick inp o b query = Ok (match q with None => true | Some qn => at_or_below n qn end && below z n).
Proof.
  intros D Db N Nb Cz Hn Hq. unfold dwx_string_in_bailiwick. assert (match query with None => Ok true | Some query => dwx_string_bailiwick_query inp o query end = Ok (match q with None => true | Some qn => at_or_below n qn end)) as ->.
  { destruct query as [s|]; [|subst q; reflexivity]. destruct Hq as (qn & -> & Ds & Ns & L & C & Hl). unfold dwx_string_bailiwick_query. replace (d_len s <=? 2) with false by lia. rewrite (issame_2dw_ok _ _ n _ _ qn) by auto. cbn [bind]. rewrite same_one.
    rewrite at_or_below_below, (same_name_sym qn n). destruct (same_name n qn); [reflexivity|]. cbn [orb]. apply bailiwick_query_loop_ok; auto. unfold zlen in Hl. lia. }
  cbn [bind]. destruct (match q with None => true | Some qn => at_or_below n qn end); [|reflexivity]. cbn [andb]. unfold dwx_string_bailiwick_top. pose proof (named_lt _ _ _ D N). replace ((o <? 0) || (d_len inp <=? o)) with false by lia.
  apply bailiwick_top_loop_ok; auto. unfold zlen in Hn. lia.
Qed.
