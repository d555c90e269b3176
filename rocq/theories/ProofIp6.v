(** Proofs about ModelIp6: the passes as functions of the string. *)
From Verif Require Import CBase Bits ModelIp6 SpecIp6.

Fixpoint lpass1 (s : list Z) (st : pass1) : outcome pass1 :=
  match s with
  | [] => Go st
  | c :: s =>
      let again := (p1_last st =? 58) && (c =? 58) in
      if again && negb (p1_double st =? -1) then Return (- (p1_index st + 1))
      else
        let double := if again then p1_index st else p1_double st in
        let after := if negb (p1_last st =? 58) && (c =? 58) && negb (double =? -1) then p1_after st + 1 else p1_after st in
        let colons := if c =? 58 then p1_colons st + 1 else p1_colons st in
        lpass1 s (mkp1 after double colons c (p1_index st + 1))
  end.
Fixpoint lpass2 (af db cl : Z) (s : list Z) (st : pass2) : res (outcome pass2) :=
  match s with
  | [] => Ok (Go st)
  | c :: t => r <- second_step af db cl c (hd 0 t) st ;; match r with Return k => Ok (Return k) | Go st => lpass2 af db cl t st end
  end.

Lemma rd_here pre c t : rd (pre ++ c :: t) (zlen pre) = Ok c.
Proof. apply rd_of_zget. rewrite zget_app_r by lia. rewrite Z.sub_diag. apply zget_cons_0. Qed.

Lemma second_step_index af db cl c x st st' : second_step af db cl c x st = Ok (Go st') -> p2_index st' = p2_index st + 1.
Proof.
  unfold second_step. destruct (hex_digit c cl) as [k|h]; [discriminate|]. cbv zeta.
  repeat match goal with
         | |- (if ?b then _ else _) = _ -> _ => destruct b
         | |- bind ?r _ = _ -> _ => destruct r; cbn [bind]
         end; try discriminate; intro E; injection E as <-; reflexivity.
Qed.

Lemma first_pass_list n j : forall s pre st, ~ In 0 s -> zlen pre + zlen s < 100 -> (length s <= n)%nat -> p1_index st = zlen pre ->
  first_pass n (pre ++ s ++ 0 :: j) st = Ok (lpass1 s st).
Proof.
  induction n as [|n IH]; intros s pre st HN HL HS HI; destruct s as [|c s]; cbn [first_pass lpass1 app]; rewrite HI, rd_here; cbn [bind].
  - reflexivity.
  - cbn [length] in HS; lia.
  - reflexivity.
  - assert (Hc : c <> 0) by (intro; apply HN; left; auto).
    rewrite zlen_cons in HL. pose proof (zlen_nonneg s).
    replace (negb (c =? 0)) with true by lia. replace (zlen pre <? 100) with true by lia. cbn [andb negb].
    destruct (_ && negb (p1_double st =? -1)); [reflexivity|].
    change (pre ++ c :: s ++ 0 :: j) with (pre ++ [c] ++ s ++ 0 :: j). rewrite app_assoc.
    apply IH; [intro; apply HN; right; auto|rewrite zlen_app, zlen_cons; change (zlen (@nil Z)) with 0; lia|cbn [length] in HS; lia|].
    cbn [p1_index]. rewrite zlen_app, zlen_cons. change (zlen (@nil Z)) with 0. lia.
Qed.
Lemma first_pass_long n j : forall s pre st, ~ In 0 s -> 100 <= zlen pre + zlen s -> zlen pre <= 100 -> Z.of_nat n = 100 - zlen pre -> p1_index st = zlen pre ->
  (exists k, first_pass n (pre ++ s ++ 0 :: j) st = Ok (Return k) /\ k < 0) \/ (exists f, first_pass n (pre ++ s ++ 0 :: j) st = Ok (Go f) /\ p1_index f = 100).
Proof.
  induction n as [|n IH]; intros s pre st HN HL HP HS HI.
  - right. exists st. assert (zlen pre = 100) by lia. split; [|lia].
    destruct s as [|c s]; cbn [first_pass app]; rewrite HI, rd_here; cbn [bind]; rewrite H; change (100 <? 100) with false; rewrite andb_false_r; reflexivity.
  - destruct s as [|c s]; [change (zlen (@nil Z)) with 0 in HL; lia|]. cbn [first_pass app]; rewrite HI, rd_here; cbn [bind].
    assert (Hc : c <> 0) by (intro; apply HN; left; auto).
    rewrite zlen_cons in HL. pose proof (zlen_nonneg s).
    replace (negb (c =? 0)) with true by lia. replace (zlen pre <? 100) with true by lia. cbn [andb negb].
    destruct (_ && negb (p1_double st =? -1)); [left; eexists; split; [reflexivity|pose proof (zlen_nonneg pre); lia]|].
    change (pre ++ c :: s ++ 0 :: j) with (pre ++ [c] ++ s ++ 0 :: j). rewrite app_assoc.
    apply IH; [intro; apply HN; right; auto|rewrite zlen_app, zlen_cons; change (zlen (@nil Z)) with 0; lia..|].
    cbn [p1_index]. rewrite zlen_app, zlen_cons. change (zlen (@nil Z)) with 0. lia.
Qed.
Lemma second_pass_list n j af db cl : forall s pre st, ~ In 0 s -> zlen pre + zlen s < 100 -> (length s <= n)%nat -> p2_index st = zlen pre ->
  second_pass n af db cl (pre ++ s ++ 0 :: j) st = lpass2 af db cl s st.
Proof.
  induction n as [|n IH]; intros s pre st HN HL HS HI; destruct s as [|c s]; cbn [second_pass lpass2 app]; rewrite HI, rd_here; cbn [bind].
  - reflexivity.
  - cbn [length] in HS; lia.
  - reflexivity.
  - assert (Hc : c <> 0) by (intro; apply HN; left; auto).
    rewrite zlen_cons in HL. pose proof (zlen_nonneg s).
    replace (negb (c =? 0)) with true by lia. replace (zlen pre <? 100) with true by lia. cbn [andb negb].
    change (pre ++ c :: s ++ 0 :: j) with (pre ++ [c] ++ s ++ 0 :: j). rewrite app_assoc.
    replace (zlen pre + 1) with (zlen (pre ++ [c])) by (rewrite zlen_app, zlen_cons; change (zlen (@nil Z)) with 0; lia).
    replace (rd ((pre ++ [c]) ++ s ++ 0 :: j) (zlen (pre ++ [c]))) with (Ok (hd 0 s)).
    2:{ destruct s; cbn [app hd]; rewrite rd_here; reflexivity. }
    cbn [bind]. destruct (second_step af db cl c (hd 0 s) st) as [[k|st']| |] eqn:E; cbn [bind]; try reflexivity.
    apply IH; [intro; apply HN; right; auto|rewrite zlen_app, zlen_cons; change (zlen (@nil Z)) with 0; lia|cbn [length] in HS; lia|].
    rewrite (second_step_index _ _ _ _ _ _ _ E), HI, zlen_app, zlen_cons. change (zlen (@nil Z)) with 0. lia.
Qed.

Lemma clear_all ip : zlen ip = 16 -> clear 16 0 ip = Ok (repeat 0 16).
Proof.
  intro L. do 17 (destruct ip as [|? ip]; [try (exfalso; revert L; unfold zlen; cbn [length]; lia)|]); [|exfalso; revert L; rewrite !zlen_cons; pose proof (zlen_nonneg ip); lia].
  reflexivity.
Qed.

(** What follows the passes. *)
Definition finish (f : pass1) (st : pass2) : Z :=
  if (p1_colons f =? 0) && negb (p2_hex st =? 32) then -260
  else if negb (p1_colons f =? 0) && negb (p2_current st =? 8) then -262 else 1.

Lemma lpass1_index : forall s st f, lpass1 s st = Go f -> p1_index f = p1_index st + zlen s.
Proof.
  induction s as [|c s IH]; intros st f; cbn [lpass1]; [intro E; injection E as ->; change (zlen (@nil Z)) with 0; lia|].
  cbv zeta. destruct (_ && negb (p1_double st =? -1)); [discriminate|]. intro E. rewrite (IH _ _ E), zlen_cons. cbn [p1_index]. lia.
Qed.
Lemma lpass2_index af db cl : forall s st st', lpass2 af db cl s st = Ok (Go st') -> p2_index st' = p2_index st + zlen s.
Proof.
  induction s as [|c s IH]; intros st f; cbn [lpass2]; [intro E; injection E as ->; change (zlen (@nil Z)) with 0; lia|].
  destruct (second_step af db cl c (hd 0 s) st) as [[k|st']| |] eqn:E; cbn [bind]; try discriminate.
  intro E'. rewrite (IH _ _ E'), (second_step_index _ _ _ _ _ _ _ E), zlen_cons. lia.
Qed.

Lemma ip6Parse_list s j ip : ~ In 0 s -> zlen s < 100 -> zlen ip = 16 ->
  ip6Parse (s ++ 0 :: j) ip =
    match lpass1 s (mkp1 1 (-1) 0 0 0) with
    | Return k => Ok (k, ip)
    | Go f =>
        if (p1_last f =? 58) && negb (p1_double f =? p1_index f - 1) then Ok (-263, ip)
        else r <- lpass2 (p1_after f) (p1_double f) (p1_colons f) s (mkp2 0 0 0 0 0 (repeat 0 16) 0) ;;
             match r with Return k => Ok (k, repeat 0 16) | Go st => Ok (finish f st, p2_ip st) end
    end.
Proof.
  intros HN HL L. unfold ip6Parse. rewrite (first_pass_list 100 j s [] _ HN) by (first [reflexivity | change (zlen (@nil Z)) with 0; unfold zlen in *; lia]).
  cbn [bind]. destruct (lpass1 s _) as [k|f] eqn:E1; [reflexivity|].
  destruct (_ && _); [reflexivity|]. apply lpass1_index in E1. cbn [p1_index] in E1.
  replace (100 <=? p1_index f) with false by lia. rewrite (clear_all ip L). cbn [bind].
  rewrite (second_pass_list 100 j _ _ _ s [] _ HN) by (first [reflexivity | change (zlen (@nil Z)) with 0; unfold zlen in *; lia]).
  destruct (lpass2 _ _ _ s _) as [[k|st]| |] eqn:E2; cbn [bind]; try reflexivity.
  apply lpass2_index in E2. cbn [p2_index] in E2. replace (100 <=? p2_index st) with false by lia.
  unfold finish. destruct (_ && _); [reflexivity|]. destruct (_ && _); reflexivity.
Qed.
Lemma ip6Parse_long s j ip : ~ In 0 s -> 100 <= zlen s -> exists k, ip6Parse (s ++ 0 :: j) ip = Ok (k, ip) /\ k < 0.
Proof.
  intros HN HL. unfold ip6Parse.
  destruct (first_pass_long 100 j s [] (mkp1 1 (-1) 0 0 0) HN) as [(k & E & K)|(f & E & F)]; try reflexivity; try (change (zlen (@nil Z)) with 0; lia).
  - change ([] ++ s ++ 0 :: j) with (s ++ 0 :: j) in E. rewrite E. cbn [bind]. eauto.
  - change ([] ++ s ++ 0 :: j) with (s ++ 0 :: j) in E. rewrite E. cbn [bind]. destruct (_ && _); [exists (-263); split; [reflexivity|lia]|].
    rewrite F. change (100 <=? 100) with true. exists (-256); split; [reflexivity|lia].
Qed.
