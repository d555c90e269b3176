(** Proofs about ModelIp6: the second pass, field by field. *)
From Verif Require Import CBase Bits ModelIp6 SpecIp6 ProofIp6 ProofIp6Safe ProofIp6Colon.

Definition put (ip : list Z) (o q : Z) : list Z := zupd (zupd ip (o + 1) (q mod 256)) o (q / 256).
Lemma zlen_put ip o q : zlen (put ip o q) = zlen ip.
Proof. unfold put. rewrite !zlen_zupd. reflexivity. Qed.

Lemma hex_range c v : hex c = Some v -> 0 <= v < 16.
Proof.
  unfold hex. destruct (_ && _) eqn:A; [intro E; injection E as <-; lia|].
  destruct (_ && _) eqn:B in |- *; [intro E; injection E as <-; lia|].
  destruct (_ && _) eqn:C in |- *; [intro E; injection E as <-; lia|discriminate].
Qed.
Lemma hex_char c v : hex c = Some v -> c <> 0 /\ c <> 58 /\ c <> 95 /\ c <> 45 /\ c <> 32.
Proof.
  unfold hex. destruct (_ && _) eqn:A; [intro E; lia|].
  destruct (_ && _) eqn:B in |- *; [intro E; lia|].
  destruct (_ && _) eqn:C in |- *; [intro E; lia|discriminate].
Qed.
Lemma hex_digit_hex c v cl : hex c = Some v -> hex_digit c cl = Go (Some v).
Proof.
  intro H. pose proof (hex_char _ _ H). revert H. unfold hex, hex_digit. destruct ((48 <=? c) && (c <=? 57)) eqn:A; [intro E; injection E as <-; reflexivity|].
  replace (c =? 95) with false by lia. cbn [andb].
  destruct ((97 <=? c) && (c <=? 102)) eqn:B; [intro E; injection E as <-; f_equal; f_equal; lia|].
  destruct ((65 <=? c) && (c <=? 70)) eqn:C; [intro E; injection E as <-; f_equal; f_equal; lia|discriminate].
Qed.
Lemma hex_digit_bad c cl : hex c = None -> c <> 58 -> c <> 45 -> c <> 32 -> cl <> 0 -> hex_digit c cl = Return 0.
Proof.
  intros H H1 H2 H3 H4. revert H. unfold hex, hex_digit. destruct ((48 <=? c) && (c <=? 57)) eqn:A; [discriminate|].
  replace ((c =? 95) && (cl =? 0)) with false by lia.
  destruct ((97 <=? c) && (c <=? 102)) eqn:B; [discriminate|].
  destruct ((65 <=? c) && (c <=? 70)) eqn:C; [discriminate|]. intros _. replace (negb (c =? 58) && negb (c =? 45) && negb (c =? 32)) with true by lia. reflexivity.
Qed.
Lemma quad_next q v : 0 <= q < 4096 -> 0 <= v < 16 -> u16 (u16 (Z.shiftl q 4) + v) = q * 16 + v.
Proof. intros Q V. rewrite Z.shiftl_mul_pow2 by lia. change (2 ^ 4) with 16. unfold u16. rewrite (Z.mod_small (q * 16)) by lia. apply Z.mod_small. lia. Qed.

Section Steps.
Variables (af db cl : Z) (CL : cl <> 0).

Lemma step_hex x v n q o c d h ip i : hex x = Some v -> 0 <= q < 4096 -> 0 <= d <= 2 -> n <> 0 ->
  second_step af db cl x n (mkp2 q o c d h ip i) = Ok (Go (mkp2 (q * 16 + v) o c (d + 1) (h + 1) ip (i + 1))).
Proof.
  intros H Q D N. pose proof (hex_char _ _ H). pose proof (hex_range _ _ H). unfold second_step. rewrite (hex_digit_hex _ _ cl H). cbv zeta. cbn [p2_quad p2_out p2_current p2_digits p2_hex p2_ip p2_index].
  rewrite quad_next by assumption. replace (x =? 58) with false by lia. cbn [andb].
  replace (d + 1 =? 5) with false by lia. cbn [andb]. replace (d + 1 =? 4) with false by lia. replace (d + 1 =? 8) with false by lia. replace (n =? 0) with false by lia. reflexivity.
Qed.
Lemma step_hex_out x v n q o c d h ip i : hex x = Some v -> 0 <= q < 4096 -> 0 <= d <= 3 -> d = 3 \/ n = 0 -> 0 <= o -> zlen ip = 16 ->
  second_step af db cl x n (mkp2 q o c d h ip i) =
    if 16 <=? o + 1 then Ok (Return (-257)) else Ok (Go (mkp2 0 (o + 2) (c + 1) (d + 1) (h + 1) (put ip o (q * 16 + v)) (i + 1))).
Proof.
  intros H Q D N O L. pose proof (hex_char _ _ H). pose proof (hex_range _ _ H). unfold second_step. rewrite (hex_digit_hex _ _ cl H). cbv zeta. cbn [p2_quad p2_out p2_current p2_digits p2_hex p2_ip p2_index].
  rewrite quad_next by assumption. replace (x =? 58) with false by lia. cbn [andb].
  replace (d + 1 =? 5) with false by lia. cbn [andb]. replace (d + 1 =? 8) with false by lia.
  rewrite andb_true_r. replace ((d + 1 =? 4) || false || (n =? 0)) with true by lia.
  destruct (16 <=? o + 1) eqn:G; [reflexivity|]. rewrite wr_ok by lia. cbn [bind]. rewrite wr_ok by (rewrite zlen_zupd; lia). cbn [bind].
  unfold put. rewrite land_255, Z.shiftr_div_pow2 by lia. reflexivity.
Qed.
Lemma step_hex5 x v n q o c h ip i : hex x = Some v ->
  second_step af db cl x n (mkp2 q o c 4 h ip i) = Ok (Return (-261)).
Proof.
  intros H. unfold second_step. rewrite (hex_digit_hex _ _ cl H). cbv zeta. cbn [p2_digits andb]. change (4 + 1 =? 5) with true. replace (cl =? 0) with false by lia. reflexivity.
Qed.
Lemma step_bad x n st : hex x = None -> x <> 58 -> x <> 45 -> x <> 32 -> second_step af db cl x n st = Ok (Return (- (p2_index st + 1))).
Proof. intros. unfold second_step. rewrite hex_digit_bad by assumption. reflexivity. Qed.
Lemma step_colon_out n q o c d h ip i : i <> db -> 1 <= d <= 3 -> 0 <= q < 65536 -> 0 <= o -> zlen ip = 16 ->
  second_step af db cl 58 n (mkp2 q o c d h ip i) =
    if 16 <=? o + 1 then Ok (Return (-257)) else Ok (Go (mkp2 0 (o + 2) (c + 1) 0 h (put ip o q) (i + 1))).
Proof.
  intros N D Q O L. unfold second_step. change (hex_digit 58 cl) with (@Go (option Z) None). cbv zeta. cbn [p2_quad p2_out p2_current p2_digits p2_hex p2_ip p2_index].
  replace (i =? db) with false by lia. change (58 =? 58) with true. cbn [andb negb].
  replace (d =? 0) with false by lia. replace (d =? 4) with false by lia. cbn [andb negb]. change (8 =? 4) with false. change (8 =? 8) with true. cbn [andb orb].
  destruct (16 <=? o + 1) eqn:G; [reflexivity|]. rewrite wr_ok by lia. cbn [bind]. rewrite wr_ok by (rewrite zlen_zupd; lia). cbn [bind].
  unfold put. rewrite land_255, Z.shiftr_div_pow2 by lia. reflexivity.
Qed.
Lemma step_colon_4 n q o c h ip i : i <> db -> n <> 0 ->
  second_step af db cl 58 n (mkp2 q o c 4 h ip i) = Ok (Go (mkp2 q o c 0 h ip (i + 1))).
Proof.
  intros N D. unfold second_step. change (hex_digit 58 cl) with (@Go (option Z) None). cbv zeta. cbn [p2_quad p2_out p2_current p2_digits p2_hex p2_ip p2_index].
  replace (i =? db) with false by lia. change (58 =? 58) with true. cbn [andb negb].
  change (4 =? 0) with false. change (4 =? 4) with true. cbn [andb negb]. change (0 =? 8) with false. replace (n =? 0) with false by lia. reflexivity.
Qed.
Lemma step_colon_0 n q o c h ip i : i <> db -> n <> 0 ->
  second_step af db cl 58 n (mkp2 q o c 0 h ip i) = Ok (Go (mkp2 q o c 0 h ip (i + 1))).
Proof.
  intros N D. unfold second_step. change (hex_digit 58 cl) with (@Go (option Z) None). cbv zeta. cbn [p2_quad p2_out p2_current p2_digits p2_hex p2_ip p2_index].
  replace (i =? db) with false by lia. change (58 =? 58) with true. cbn [andb negb].
  change (0 =? 0) with true. change (0 =? 4) with false. cbn [andb negb]. change (0 =? 4) with false. change (0 =? 8) with false. replace (n =? 0) with false by lia. reflexivity.
Qed.
Lemma step_double n o c h ip i : i = db -> 0 <= af -> 0 <= c -> zlen ip = 16 ->
  second_step af db cl 58 n (mkp2 0 o c 0 h ip i) =
    if 8 <=? c + af then Ok (Return (-259))
    else if n =? 0 then (if 16 <=? (8 - af) * 2 + 1 then Ok (Return (-257)) else Ok (Go (mkp2 0 ((8 - af) * 2 + 2) (8 - af + 1) 0 h (put ip ((8 - af) * 2) 0) (i + 1))))
    else Ok (Go (mkp2 0 ((8 - af) * 2) (8 - af) 0 h ip (i + 1))).
Proof.
  intros N A C0 L. unfold second_step. change (hex_digit 58 cl) with (@Go (option Z) None). cbv zeta. cbn [p2_quad p2_out p2_current p2_digits p2_hex p2_ip p2_index].
  replace (i =? db) with true by lia. change (58 =? 58) with true. cbn [andb negb]. change (0 =? 0) with true. cbn [andb orb negb].
  destruct (8 <=? c + af) eqn:B; [reflexivity|]. replace (8 - af <? 0) with false by lia. change (0 =? 4) with false. change (0 =? 8) with false. cbn [andb orb].
  destruct (n =? 0); [|reflexivity]. destruct (16 <=? (8 - af) * 2 + 1) eqn:G; [reflexivity|].
  rewrite wr_ok by lia. cbn [bind]. rewrite wr_ok by (rewrite zlen_zupd; lia). cbn [bind]. reflexivity.
Qed.

Lemma group_cases g : group g -> exists a v, hex a = Some v /\ (g = [a] \/ exists b w, hex b = Some w /\ (g = [a; b] \/ exists c x, hex c = Some x /\ (g = [a; b; c] \/ exists d y, hex d = Some y /\ g = [a; b; c; d]))).
Proof.
  intros (L & H). destruct g as [|a g]; [change (zlen (@nil Z)) with 0 in L; lia|].
  inversion_clear H as [|? ? HA H1]. destruct (hex a) as [v|] eqn:EA; [|congruence]. exists a, v. split; [exact EA|].
  destruct g as [|b g]; [left; reflexivity|right]. inversion_clear H1 as [|? ? HB H2]. destruct (hex b) as [w|] eqn:EB; [|congruence]. exists b, w. split; [exact EB|].
  destruct g as [|c g]; [left; reflexivity|right]. inversion_clear H2 as [|? ? HC H3]. destruct (hex c) as [x|] eqn:EC; [|congruence]. exists c, x. split; [exact EC|].
  destruct g as [|d g]; [left; reflexivity|right]. inversion_clear H3 as [|? ? HD H4]. destruct (hex d) as [y|] eqn:ED; [|congruence]. exists d, y. split; [exact ED|].
  destruct g; [reflexivity|]. rewrite !zlen_cons in L. pose proof (zlen_nonneg g). lia.
Qed.

(** A group and its colon. *)
Lemma lpass2_group g t o c h ip i : group g -> t <> [] -> hd 0 t <> 0 -> i + zlen g <> db -> 0 <= o -> zlen ip = 16 ->
  lpass2 af db cl (g ++ 58 :: t) (mkp2 0 o c 0 h ip i) =
    if 16 <=? o + 1 then Ok (Return (-257)) else lpass2 af db cl t (mkp2 0 (o + 2) (c + 1) 0 (h + zlen g) (put ip o (number g)) (i + zlen g + 1)).
Proof.
  intros G T HT D O L. destruct (group_cases g G) as (a & v & EA & [-> | (b & w & EB & [-> | (e & x & EE & [-> | (k & y & EK & ->)])])]);
  repeat match goal with H : hex _ = Some _ |- _ => let R := fresh in pose proof (hex_range _ _ H) as R; let R2 := fresh in pose proof (hex_char _ _ H) as R2; revert H end; intros;
  unfold zlen in D; cbn [length] in D; cbn [app lpass2 hd].
  - rewrite (step_hex _ _ _ _ _ _ _ _ _ _ EA) by lia. cbn [bind]. rewrite step_colon_out by lia.
    destruct (16 <=? o + 1); [reflexivity|]. cbn [bind]. unfold number, hex_val; cbn [fold_left]; rewrite EA. unfold zlen; cbn [length]. f_equal; f_equal; lia.
  - rewrite (step_hex _ _ _ _ _ _ _ _ _ _ EA) by lia. cbn [bind]. rewrite (step_hex _ _ _ _ _ _ _ _ _ _ EB) by lia. cbn [bind]. rewrite step_colon_out by lia.
    destruct (16 <=? o + 1); [reflexivity|]. cbn [bind]. unfold number, hex_val; cbn [fold_left]; rewrite EA, EB. unfold zlen; cbn [length]. f_equal; f_equal; lia.
  - rewrite (step_hex _ _ _ _ _ _ _ _ _ _ EA) by lia. cbn [bind]. rewrite (step_hex _ _ _ _ _ _ _ _ _ _ EB) by lia. cbn [bind].
    rewrite (step_hex _ _ _ _ _ _ _ _ _ _ EE) by lia. cbn [bind]. rewrite step_colon_out by lia.
    destruct (16 <=? o + 1); [reflexivity|]. cbn [bind]. unfold number, hex_val; cbn [fold_left]; rewrite EA, EB, EE. unfold zlen; cbn [length]. f_equal; f_equal; lia.
  - rewrite (step_hex _ _ _ _ _ _ _ _ _ _ EA) by lia. cbn [bind]. rewrite (step_hex _ _ _ _ _ _ _ _ _ _ EB) by lia. cbn [bind].
    rewrite (step_hex _ _ _ _ _ _ _ _ _ _ EE) by lia. cbn [bind]. rewrite (step_hex_out _ _ _ _ _ _ _ _ _ _ EK) by lia.
    destruct (16 <=? o + 1); [reflexivity|]. cbn [bind]. change (0 + 1 + 1 + 1 + 1) with 4. rewrite step_colon_4 by lia. cbn [bind].
    unfold number, hex_val; cbn [fold_left]; rewrite EA, EB, EE, EK. unfold zlen; cbn [length]. f_equal; f_equal; lia.
Qed.
(** The last group. *)
Lemma lpass2_last g o c h ip i : group g -> 0 <= o -> zlen ip = 16 ->
  lpass2 af db cl g (mkp2 0 o c 0 h ip i) =
    if 16 <=? o + 1 then Ok (Return (-257)) else Ok (Go (mkp2 0 (o + 2) (c + 1) (zlen g) (h + zlen g) (put ip o (number g)) (i + zlen g))).
Proof.
  intros G O L. destruct (group_cases g G) as (a & v & EA & [-> | (b & w & EB & [-> | (e & x & EE & [-> | (k & y & EK & ->)])])]);
  repeat match goal with H : hex _ = Some _ |- _ => let R := fresh in pose proof (hex_range _ _ H) as R; let R2 := fresh in pose proof (hex_char _ _ H) as R2; revert H end; intros;
  cbn [app lpass2 hd].
  - rewrite (step_hex_out _ _ _ _ _ _ _ _ _ _ EA) by lia.
    destruct (16 <=? o + 1); [reflexivity|]. cbn [bind]. unfold number, hex_val; cbn [fold_left]; rewrite EA. unfold zlen; cbn [length]. f_equal; f_equal; f_equal; lia.
  - rewrite (step_hex _ _ _ _ _ _ _ _ _ _ EA) by lia. cbn [bind]. rewrite (step_hex_out _ _ _ _ _ _ _ _ _ _ EB) by lia.
    destruct (16 <=? o + 1); [reflexivity|]. cbn [bind]. unfold number, hex_val; cbn [fold_left]; rewrite EA, EB. unfold zlen; cbn [length]. f_equal; f_equal; f_equal; lia.
  - rewrite (step_hex _ _ _ _ _ _ _ _ _ _ EA) by lia. cbn [bind]. rewrite (step_hex _ _ _ _ _ _ _ _ _ _ EB) by lia. cbn [bind].
    rewrite (step_hex_out _ _ _ _ _ _ _ _ _ _ EE) by lia.
    destruct (16 <=? o + 1); [reflexivity|]. cbn [bind]. unfold number, hex_val; cbn [fold_left]; rewrite EA, EB, EE. unfold zlen; cbn [length]. f_equal; f_equal; f_equal; lia.
  - rewrite (step_hex _ _ _ _ _ _ _ _ _ _ EA) by lia. cbn [bind]. rewrite (step_hex _ _ _ _ _ _ _ _ _ _ EB) by lia. cbn [bind].
    rewrite (step_hex _ _ _ _ _ _ _ _ _ _ EE) by lia. cbn [bind]. rewrite (step_hex_out _ _ _ _ _ _ _ _ _ _ EK) by lia.
    destruct (16 <=? o + 1); [reflexivity|]. cbn [bind].
    unfold number, hex_val; cbn [fold_left]; rewrite EA, EB, EE, EK. unfold zlen; cbn [length]. f_equal; f_equal; f_equal; lia.
Qed.

(** A field which is not a group. *)
Definition plain (c : Z) : Prop := c <> 0 /\ c <> 45 /\ c <> 32.
Lemma lpass2_bad u : forall f q o c d h ip i, field f -> Forall plain f -> 0 <= d <= 4 -> (d <= 3 -> 0 <= q < 16 ^ d) -> 0 <= o -> zlen ip = 16 -> 0 <= i ->
  ~ (Forall (fun c => hex c <> None) f /\ d + zlen f <= 4) ->
  exists k, lpass2 af db cl (f ++ u) (mkp2 q o c d h ip i) = Ok (Return k) /\ k < 0.
Proof.
  induction f as [|x f IH]; intros q o c d h ip i HF HP HD HQ HO HL HI HN.
  - exfalso; apply HN; split; [constructor|change (zlen (@nil Z)) with 0; lia].
  - cbn [app lpass2]. inversion_clear HP as [|? ? (X1 & X2 & X3) HP'].
    assert (x <> 58) by (intro; apply HF; left; auto).
    destruct (hex x) as [v|] eqn:E.
    2:{ rewrite step_bad by assumption. cbn [bind]. eexists; split; [reflexivity|cbn [p2_index]; lia]. }
    destruct (Z.eq_dec d 4) as [->|D4]. { rewrite (step_hex5 _ _ _ _ _ _ _ _ _ E). cbn [bind]. eexists; split; [reflexivity|lia]. }
    assert (HQ' : 0 <= q < 16 ^ d) by (apply HQ; lia).
    assert (16 ^ d <= 4096) by (change 4096 with (16 ^ 3); apply Z.pow_le_mono_r; lia).
    destruct f as [|y f]. { exfalso; apply HN; split; [constructor; [congruence|constructor]|rewrite zlen_cons; change (zlen (@nil Z)) with 0; lia]. }
    assert (y <> 0) by (inversion_clear HP' as [|? ? Y _]; destruct Y; assumption).
    assert (HN' : ~ (Forall (fun c => hex c <> None) (y :: f) /\ d + 1 + zlen (y :: f) <= 4)).
    { intros (A & B). apply HN. split; [constructor; [congruence|exact A]|rewrite zlen_cons; lia]. }
    pose proof (hex_range _ _ E) as HV.
    destruct (Z.eq_dec d 3) as [D3|D3].
    + rewrite (step_hex_out _ _ _ _ _ _ _ _ _ _ E) by lia. destruct (16 <=? o + 1); cbn [bind]; [eexists; split; [reflexivity|lia]|].
      apply IH; [intro; apply HF; right; auto|exact HP'|lia|lia|lia|rewrite zlen_put; exact HL|lia|exact HN'].
    + cbn [app hd]. rewrite (step_hex _ _ _ _ _ _ _ _ _ _ E) by lia. cbn [bind].
      apply IH; [intro; apply HF; right; auto|exact HP'|lia| |lia|exact HL|lia|exact HN'].
      intros _. rewrite Z.pow_add_r by lia. change (16 ^ 1) with 16. lia.
Qed.
Lemma lpass2_not_group f u o c h ip i : full f -> Forall plain f -> 0 <= o -> zlen ip = 16 -> 0 <= i -> ~ group f ->
  exists k, lpass2 af db cl (f ++ u) (mkp2 0 o c 0 h ip i) = Ok (Return k) /\ k < 0.
Proof.
  intros (HF & N) HP HO HL HI HG. apply lpass2_bad; try assumption; try lia.
  intros (A & B). apply HG. split; [|exact A]. destruct f; [contradiction|]. rewrite zlen_cons in *. pose proof (zlen_nonneg f). lia.
Qed.
End Steps.
