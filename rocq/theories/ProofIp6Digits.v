(** Proofs about ModelIp6: strings without colons. *)
From Verif Require Import CBase Bits ModelIp6 SpecIp6 ProofIp6 ProofIp6Safe ProofIp6Quad ProofIp6Exact ProofIp6All.

Definition digit (c : Z) : Prop := hex c <> None \/ c = 95.
Lemma hex_val_range c : 0 <= hex_val c < 16.
Proof. unfold hex_val. destruct (hex c) eqn:E; [exact (hex_range _ _ E)|lia]. Qed.
Lemma digit_char c : digit c -> c <> 0 /\ c <> 58 /\ blank c = false /\ hex_digit c 0 = Go (Some (hex_val c)).
Proof.
  intros [H| ->]; [|repeat split; lia]. destruct (hex c) as [v|] eqn:E; [|congruence]. pose proof (hex_char _ _ E).
  unfold blank, hex_val. rewrite E. repeat split; try lia. apply hex_digit_hex, E.
Qed.
Lemma digit_dec c : digit c \/ ~ digit c.
Proof. unfold digit. destruct (hex c); [left; left; discriminate|]. destruct (Z.eq_dec c 95); [left; right; assumption|right; intros [H|H]; congruence]. Qed.
Lemma hex_digit_not c : ~ digit c -> c <> 58 -> blank c = false -> exists k, hex_digit c 0 = Return k.
Proof.
  intros H H1 H2. unfold blank in H2. assert (HN : hex c = None) by (destruct (hex c) eqn:E; [exfalso; apply H; left; congruence|reflexivity]).
  assert (c <> 95) by (intro; apply H; right; assumption).
  revert HN. unfold hex, hex_digit. destruct ((48 <=? c) && (c <=? 57)); [discriminate|]. replace ((c =? 95) && (0 =? 0)) with false by lia.
  destruct ((97 <=? c) && (c <=? 102)); [discriminate|]. destruct ((65 <=? c) && (c <=? 70)); [discriminate|]. intros _.
  replace (negb (c =? 58) && negb (c =? 45) && negb (c =? 32)) with true by lia. eauto.
Qed.
Lemma blank_digit c : blank c = true -> hex_digit c 0 = Go None.
Proof. unfold blank. intro H. assert (c = 32 \/ c = 45) as [-> | ->] by lia; reflexivity. Qed.

Lemma pairs_app : forall A B, Z.even (zlen A) = true -> pairs (A ++ B) = pairs A ++ pairs B.
Proof.
  fix IH 1. intros A B H. destruct A as [|a [|b A]]; [reflexivity|discriminate|]. cbn [app pairs]. f_equal. apply IH.
  rewrite !zlen_cons, <- Z.add_assoc, Z.even_add in H. destruct (Z.even (zlen A)); [reflexivity|discriminate].
Qed.
Lemma number_snoc r x : number (r ++ [x]) = number r * 16 + hex_val x.
Proof. unfold number. rewrite fold_left_app. reflexivity. Qed.
Lemma number_bound r : zlen r <= 3 -> 0 <= number r < 4096.
Proof.
  intro L. destruct r as [|a [|b [|c [|d r]]]]; try (rewrite !zlen_cons in L; pose proof (zlen_nonneg r); lia); unfold number; cbn [fold_left];
  try pose proof (hex_val_range a); try pose proof (hex_val_range b); try pose proof (hex_val_range c); lia.
Qed.
Lemma pairs_four r x : zlen r = 3 -> pairs (r ++ [x]) = [number (r ++ [x]) / 256; number (r ++ [x]) mod 256].
Proof.
  intro L. destruct r as [|a [|b [|c [|d r]]]]; try (rewrite !zlen_cons in L; try pose proof (zlen_nonneg r); change (zlen (@nil Z)) with 0 in L; lia); [discriminate|].
  cbn [app pairs]. unfold number; cbn [fold_left]. pose proof (hex_val_range a). pose proof (hex_val_range b). pose proof (hex_val_range c). pose proof (hex_val_range x).
  set (p := hex_val a) in *. set (q := hex_val b) in *. set (s := hex_val c) in *. set (t := hex_val x) in *. clearbody p q s t.
  f_equal; [|f_equal]; lia.
Qed.

(** Where the second pass is when the digits have been [D ++ r], those of [D] in fours. *)
Definition at_ (n : Z) (D r : list Z) (i : Z) : pass2 :=
  mkp2 (number r) (2 * n) n ((4 * n + zlen r) mod 8) (4 * n + zlen r) (pairs D ++ repeat 0 (Z.to_nat (16 - 2 * n))) i.

Lemma step_digit n D r i x nx : digit x -> 0 <= n <= 8 -> zlen D = 4 * n -> zlen (pairs D) = 2 * n -> zlen r <= 2 -> nx <> 0 ->
  second_step 1 (-1) 0 x nx (at_ n D r i) = Ok (Go (at_ n D (r ++ [x]) (i + 1))).
Proof.
  intros HX N LD LP LR NX. pose proof (digit_char x HX) as (X0 & X1 & X2 & EX). pose proof (zlen_nonneg r). pose proof (number_bound r ltac:(lia)).
  pose proof (hex_val_range x). unfold second_step, at_. rewrite EX. cbv zeta. cbn [p2_quad p2_out p2_current p2_digits p2_hex p2_ip p2_index].
  rewrite quad_next by assumption. replace (x =? 58) with false by lia. change (negb (0 =? 0)) with false. rewrite !andb_false_r. cbn [andb].
  replace ((4 * n + zlen r) mod 8 + 1 =? 4) with false by lia. replace ((4 * n + zlen r) mod 8 + 1 =? 8) with false by lia. replace (nx =? 0) with false by lia. cbn [andb orb].
  rewrite number_snoc, zlen_app, zlen_cons. change (zlen (@nil Z)) with 0.
  do 2 f_equal. f_equal; lia.
Qed.
Lemma step_digit_4 n D r i x nx : digit x -> 0 <= n <= 8 -> zlen D = 4 * n -> zlen (pairs D) = 2 * n -> zlen r = 3 ->
  second_step 1 (-1) 0 x nx (at_ n D r i) = if n =? 8 then Ok (Return (-257)) else
    Ok (Go (mkp2 0 (2 * (n + 1)) (n + 1) (if n mod 2 =? 1 then 0 else 4) (4 * (n + 1)) (pairs (D ++ r ++ [x]) ++ repeat 0 (Z.to_nat (16 - 2 * (n + 1)))) (i + 1))).
Proof.
  intros HX N LD LP LR. pose proof (digit_char x HX) as (X0 & X1 & X2 & EX). pose proof (number_bound r ltac:(lia)).
  pose proof (hex_val_range x). unfold second_step, at_. rewrite EX. cbv zeta. cbn [p2_quad p2_out p2_current p2_digits p2_hex p2_ip p2_index].
  rewrite quad_next by assumption. replace (x =? 58) with false by lia. change (negb (0 =? 0)) with false. rewrite !andb_false_r. cbn [andb].
  rewrite andb_true_r. replace (((4 * n + zlen r) mod 8 + 1 =? 4) || ((4 * n + zlen r) mod 8 + 1 =? 8) || (nx =? 0)) with true by lia.
  destruct (n =? 8) eqn:E8. { replace (16 <=? 2 * n + 1) with true by lia. reflexivity. }
  replace (16 <=? 2 * n + 1) with false by lia.
  assert (LI : zlen (pairs D ++ repeat 0 (Z.to_nat (16 - 2 * n))) = 16) by (rewrite zlen_app, zlen_repeat; lia).
  rewrite wr_ok by lia. cbn [bind]. rewrite wr_ok by (rewrite zlen_zupd; lia). cbn [bind].
  rewrite land_255, Z.shiftr_div_pow2 by lia. change (2 ^ 8) with 256.
  replace (Z.to_nat (16 - 2 * n)) with (S (S (Z.to_nat (16 - 2 * (n + 1))))) by lia. cbn [repeat].
  pose proof (put_mid (pairs D) 0 0 (repeat 0 (Z.to_nat (16 - 2 * (n + 1)))) (number r * 16 + hex_val x)) as PM. unfold put in PM. rewrite LP in PM. rewrite PM.
  rewrite pairs_app by (rewrite LD; rewrite Z.even_mul; reflexivity). rewrite (pairs_four r x LR), number_snoc, <- app_assoc. cbn [app].
  do 2 f_equal. f_equal; try lia.
  destruct (n mod 2 =? 1) eqn:E2.
  - replace ((4 * n + zlen r) mod 8 + 1 =? 8) with true by lia. reflexivity.
  - replace ((4 * n + zlen r) mod 8 + 1 =? 8) with false by lia. lia.
Qed.
Lemma four_at n D r x i : zlen r = 3 -> 0 <= n < 8 ->
  mkp2 0 (2 * (n + 1)) (n + 1) (if n mod 2 =? 1 then 0 else 4) (4 * (n + 1)) (pairs (D ++ r ++ [x]) ++ repeat 0 (Z.to_nat (16 - 2 * (n + 1)))) (i + 1) = at_ (n + 1) (D ++ r ++ [x]) [] (i + 1).
Proof.
  intros LR N. unfold at_. change (zlen (@nil Z)) with 0. change (number []) with 0. rewrite Z.add_0_r. f_equal. destruct (n mod 2 =? 1) eqn:E; lia.
Qed.
Lemma step_blank n D r i x nx : blank x = true -> 0 <= n <= 8 -> zlen r <= 3 -> nx <> 0 ->
  second_step 1 (-1) 0 x nx (at_ n D r i) = Ok (Go (at_ n D r (i + 1))).
Proof.
  intros HX N LR NX. assert (X : x <> 58) by (unfold blank in HX; lia). pose proof (zlen_nonneg r).
  unfold second_step, at_. rewrite (blank_digit x HX). cbv zeta. cbn [p2_quad p2_out p2_current p2_digits p2_hex p2_ip p2_index].
  replace (x =? 58) with false by lia. cbn [andb]. rewrite andb_false_r. replace ((4 * n + zlen r) mod 8 =? 8) with false by lia. replace (nx =? 0) with false by lia. reflexivity.
Qed.
(** The last octet: a digit which is not a fourth, or a blank, is no good. *)
Lemma step_end n D r i x st : 0 <= n <= 8 -> zlen (pairs D) = 2 * n -> zlen r <= 3 -> x <> 58 ->
  second_step 1 (-1) 0 x 0 (at_ n D r i) = Ok (Go st) -> p2_hex st = 32 -> digit x /\ zlen r = 3 /\ n = 7.
Proof.
  intros N LP LR X E H32. pose proof (zlen_nonneg r).
  assert (HX : digit x \/ (blank x = true /\ hex_digit x 0 = Go None)).
  { destruct (digit_dec x) as [|ND]; [left; assumption|right]. destruct (blank x) eqn:B; [split; [reflexivity|apply blank_digit, B]|].
    destruct (hex_digit_not x ND X B) as (k & K). unfold second_step in E. rewrite K in E. discriminate E. }
  assert (O : 2 * n + 1 < 16 /\ p2_hex st = if match hex_digit x 0 with Go (Some _) => true | _ => false end then 4 * n + zlen r + 1 else 4 * n + zlen r).
  { revert E. unfold second_step, at_. replace (x =? 58) with false by lia. destruct HX as [D1|(B & EB)].
    - pose proof (digit_char x D1) as (_ & _ & _ & EX). rewrite EX. cbv zeta. cbn [p2_quad p2_out p2_current p2_digits p2_hex p2_ip p2_index].
      change (negb (0 =? 0)) with false. rewrite !andb_false_r. cbn [andb]. change (0 =? 0) with true. rewrite orb_true_r.
      destruct (16 <=? 2 * n + 1) eqn:G; [discriminate|]. rewrite wr_ok by (rewrite zlen_app, zlen_repeat; lia). cbn [bind]. rewrite wr_ok by (rewrite zlen_zupd, zlen_app, zlen_repeat; lia). cbn [bind].
      intro E. injection E as <-. split; [lia|reflexivity].
    - rewrite EB. cbv zeta. cbn [p2_quad p2_out p2_current p2_digits p2_hex p2_ip p2_index].
      cbn [andb]. change (0 =? 0) with true. rewrite orb_true_r.
      destruct (16 <=? 2 * n + 1) eqn:G; [discriminate|]. rewrite wr_ok by (rewrite zlen_app, zlen_repeat; lia). cbn [bind]. rewrite wr_ok by (rewrite zlen_zupd, zlen_app, zlen_repeat; lia). cbn [bind].
      intro E. injection E as <-. split; [lia|reflexivity]. }
  destruct O as (O1 & O2). destruct HX as [D1|(B & EB)].
  - pose proof (digit_char x D1) as (_ & _ & _ & EX). rewrite EX in O2. cbv iota in O2. split; [exact D1|]. lia.
  - rewrite EB in O2. cbv iota in O2. exfalso; lia.
Qed.

Definition taken (s : list Z) (st : pass2) (v : list Z) : Prop :=
  exists st', lpass2 1 (-1) 0 s st = Ok (Go st') /\ p2_hex st' = 32 /\ p2_ip st' = v.

Lemma zlen_snoc (r : list Z) x : zlen (r ++ [x]) = zlen r + 1.
Proof. rewrite zlen_app, zlen_cons. reflexivity. Qed.

Lemma taken_iff : forall s n D r i v, s <> [] -> ~ In 0 s -> ~ In 58 s -> 0 <= n <= 8 -> zlen D = 4 * n -> zlen (pairs D) = 2 * n -> zlen r <= 3 ->
  (taken s (at_ n D r i) v <-> zlen (D ++ r ++ digits_of s) = 32 /\ Forall digit (digits_of s) /\ blank (last s 0) = false /\ v = pairs (D ++ r ++ digits_of s)).
Proof.
  induction s as [|x s IH]; intros n D r i v NE N0 N58 HN LD LP LR; [contradiction|].
  assert (X58 : x <> 58) by (intro; apply N58; left; assumption).
  destruct s as [|y s].
  - cbn [last]. split.
    + intros (st & E & H32 & <-). cbn [lpass2 hd] in E. destruct (second_step 1 (-1) 0 x 0 (at_ n D r i)) as [[k|st']| |] eqn:ES; cbn [bind] in E; try discriminate. injection E as ->.
      destruct (step_end _ _ _ _ _ _ HN LP LR X58 ES H32) as (DX & R3 & ->).
      pose proof (digit_char x DX) as (_ & _ & BX & _). unfold digits_of. cbn [filter]. rewrite BX. cbn [negb].
      rewrite (step_digit_4 7 D r i x 0 DX) in ES by (first [assumption | lia]). change (7 =? 8) with false in ES. cbv iota in ES. injection ES as <-. cbn [p2_ip].
      split; [rewrite zlen_app, zlen_snoc; lia|]. split; [constructor; [exact DX|constructor]|]. split; [reflexivity|].
      change (Z.to_nat (16 - 2 * (7 + 1))) with 0%nat. cbn [repeat]. rewrite app_nil_r. reflexivity.
    + intros (L & F & B & ->). unfold digits_of in *. cbn [filter] in *. rewrite B in *. cbn [negb] in *. inversion_clear F as [|? ? DX _].
      rewrite zlen_app, zlen_snoc in L. assert (n = 7 /\ zlen r = 3) as (-> & R3) by (pose proof (zlen_nonneg r); lia).
      exists (mkp2 0 16 8 0 32 (pairs (D ++ r ++ [x])) (i + 1)). split; [|split; reflexivity].
      cbn [lpass2 hd]. rewrite (step_digit_4 7 D r i x 0 DX) by (first [assumption | lia]). change (7 =? 8) with false. cbn [bind].
      change (Z.to_nat (16 - 2 * (7 + 1))) with 0%nat. cbn [repeat]. rewrite app_nil_r. reflexivity.
  - assert (Y0 : y <> 0) by (intro; apply N0; right; left; assumption).
    assert (N0' : ~ In 0 (y :: s)) by (intro; apply N0; right; assumption).
    assert (N58' : ~ In 58 (y :: s)) by (intro; apply N58; right; assumption).
    change (last (x :: y :: s) 0) with (last (y :: s) 0).
    assert (STEP : forall st, second_step 1 (-1) 0 x y (at_ n D r i) = Ok (Go st) -> (taken (x :: y :: s) (at_ n D r i) v <-> taken (y :: s) st v)).
    { intros st E. unfold taken. change (lpass2 1 (-1) 0 (x :: y :: s) (at_ n D r i)) with (bind (second_step 1 (-1) 0 x y (at_ n D r i)) (fun q => match q with Return k => Ok (Return k) | Go st => lpass2 1 (-1) 0 (y :: s) st end)).
      rewrite E. cbn [bind]. tauto. }
    assert (STOP : forall k, second_step 1 (-1) 0 x y (at_ n D r i) = Ok (Return k) -> ~ taken (x :: y :: s) (at_ n D r i) v).
    { intros k E (st & E' & _). change (lpass2 1 (-1) 0 (x :: y :: s) (at_ n D r i)) with (bind (second_step 1 (-1) 0 x y (at_ n D r i)) (fun q => match q with Return k => Ok (Return k) | Go st => lpass2 1 (-1) 0 (y :: s) st end)) in E'.
      rewrite E in E'. discriminate E'. }
    destruct (blank x) eqn:B.
    + rewrite (STEP _ (step_blank n D r i x y B HN LR Y0)). rewrite (IH n D r (i + 1) v ltac:(discriminate) N0' N58' HN LD LP LR).
      assert (digits_of (x :: y :: s) = digits_of (y :: s)) as -> by (unfold digits_of; cbn [filter]; rewrite B; reflexivity). tauto.
    + assert (EDS : digits_of (x :: y :: s) = x :: digits_of (y :: s)) by (unfold digits_of; cbn [filter]; rewrite B; reflexivity).
      destruct (digit_dec x) as [DX|DX].
      2:{ destruct (hex_digit_not x DX X58 B) as (k & K). split; [intro T; exfalso; revert T; apply (STOP (- (i + 1))); unfold second_step; rewrite K; reflexivity|].
          rewrite EDS. intros (_ & F & _). inversion F; contradiction. }
      destruct (Z.eq_dec (zlen r) 3) as [R3|R3].
      * pose proof (step_digit_4 n D r i x y DX HN LD LP R3) as ES. destruct (n =? 8) eqn:E8.
        -- split; [intro T; exfalso; revert T; exact (STOP _ ES)|]. rewrite EDS, !zlen_app, zlen_cons. pose proof (zlen_nonneg (digits_of (y :: s))). lia.
        -- rewrite (four_at n D r x i R3) in ES by lia. rewrite (STEP _ ES).
           rewrite (IH (n + 1) (D ++ r ++ [x]) [] (i + 1) v ltac:(discriminate) N0' N58'); [|lia|rewrite zlen_app, zlen_snoc; lia| |change (zlen (@nil Z)) with 0; lia].
           ++ rewrite EDS. cbn [app]. rewrite <- !app_assoc. cbn [app]. split; intros (A & F & C & H); (split; [exact A|]); (split; [|split; [exact C|exact H]]); [constructor; assumption|inversion F; assumption].
           ++ rewrite pairs_app by (rewrite LD, Z.even_mul; reflexivity). rewrite zlen_app, LP, (pairs_four r x R3), !zlen_cons. change (zlen (@nil Z)) with 0. lia.
      * rewrite (STEP _ (step_digit n D r i x y DX HN LD LP ltac:(lia) Y0)).
        rewrite (IH n D (r ++ [x]) (i + 1) v ltac:(discriminate) N0' N58' HN LD LP) by (rewrite zlen_snoc; lia).
        rewrite EDS, <- app_assoc. cbn [app]. split; intros (A & F & C & H); (split; [exact A|]); (split; [|split; [exact C|exact H]]); [constructor; assumption|inversion F; assumption].
Qed.

Lemma lpass1_none : forall s l i, ~ In 58 s -> l <> 58 -> exists l', l' <> 58 /\ lpass1 s (mkp1 1 (-1) 0 l i) = Go (mkp1 1 (-1) 0 l' (i + zlen s)).
Proof.
  intros s l i N L. destruct s as [|x s]; [exists l; split; [exact L|]; cbn [lpass1]; change (zlen (@nil Z)) with 0; rewrite Z.add_0_r; reflexivity|].
  apply (ProofIp6Colon.lpass1_last (x :: s) 1 (-1) 0 l i N). discriminate.
Qed.

Lemma digits_iff s j ip v : ~ In 0 s -> ~ In 58 s -> zlen ip = 16 ->
  (ip6Parse (s ++ 0 :: j) ip = Ok (1, v) <-> zlen s < 100 /\ ip6_digits s v /\ blank (last s 0) = false).
Proof.
  intros N0 N58 HI. destruct (Z.lt_ge_cases (zlen s) 100) as [L|L].
  2:{ destruct (ip6Parse_long s j ip N0 L) as (k & -> & K). split; [intro E; injection E as E _; lia|lia]. }
  rewrite (ip6Parse_list s j ip N0 L HI). destruct (lpass1_none s 0 0 N58 ltac:(discriminate)) as (l & Hl & ->).
  cbn [p1_last p1_double p1_index p1_after p1_colons]. replace (l =? 58) with false by lia. cbn [andb].
  destruct s as [|x s].
  - cbn [lpass2 bind]. unfold finish. cbn [p1_colons p2_hex]. split; [intro E; injection E as E; discriminate E|]. intros (_ & (E & _) & _). discriminate E.
  - set (s0 := x :: s) in *. assert (NE : s0 <> []) by discriminate. clearbody s0.
    assert (T : taken s0 (at_ 0 [] [] 0) v <-> ip6_digits s0 v /\ blank (last s0 0) = false).
    { rewrite (taken_iff s0 0 [] [] 0 v NE N0 N58) by (first [reflexivity | change (zlen (@nil Z)) with 0; lia]). cbn [app]. unfold ip6_digits, digit. tauto. }
    change (mkp2 0 0 0 0 0 (repeat 0 16) 0) with (at_ 0 [] [] 0).
    split.
    + intro E. split; [exact L|]. apply T. destruct (lpass2 1 (-1) 0 s0 (at_ 0 [] [] 0)) as [[k|st]| |] eqn:E2; cbn [bind] in E; try discriminate E.
      * destruct (lpass2_ok 1 (-1) 0 s0 (at_ 0 [] [] 0) inv2_start) as [(k' & E3 & K)|(st' & E3 & _)]; rewrite E3 in E2; [injection E2 as ->|discriminate E2]. injection E as E _. lia.
      * unfold finish in E. cbn [p1_colons] in E. change (0 =? 0) with true in E. cbn [andb negb] in E. destruct (p2_hex st =? 32) eqn:H32; cbn [negb] in E; [|injection E as E _; discriminate E].
        injection E as <-. exists st. split; [exact E2|]. split; [lia|reflexivity].
    + intros (_ & H). apply T in H as (st & -> & H32 & <-). cbn [bind]. unfold finish. cbn [p1_colons]. rewrite H32. reflexivity.
Qed.
