(** Proofs about ModelIp6: what strings with colons and without blanks are accepted (the end). *)
From Verif Require Import CBase Bits ModelIp6 SpecIp6 ProofIp6 ProofIp6Safe ProofIp6Colon ProofIp6Quad ProofIp6Exact.

Definition lead (b : bool) : list Z := if b then [58] else [].
Definition start2 (b : bool) : pass2 := mkp2 0 0 0 0 0 (repeat 0 16) (zlen (lead b)).

Lemma lpass1_start b F t : Forall full F -> (b = false -> F <> []) ->
  lpass1 (lead b ++ cat F ++ t) (mkp1 1 (-1) 0 0 0) = lpass1 t (mkp1 1 (-1) (zlen (lead b) + zlen F) 58 (zlen (lead b) + zlen (cat F))).
Proof.
  intros HF HB. destruct b.
  - change (lpass1 (lead true ++ cat F ++ t) (mkp1 1 (-1) 0 0 0)) with (lpass1 (cat F ++ t) (mkp1 1 (-1) 1 58 1)).
    rewrite (lpass1_full F _ _ _ _ _ HF). reflexivity.
  - destruct F as [|f F]; [contradiction HB; reflexivity|]. inversion_clear HF as [|? ? (F1 & F2) HF'].
    cbn [lead app]. rewrite cat_cons, (lpass1_field f _ _ _ _ _ _ F1 F2), (lpass1_full F _ _ _ _ _ HF'), zlen_cat_cons, zlen_cons.
    change (-1 =? -1) with true. change (zlen (@nil Z)) with 0. cbv iota. f_equal. f_equal; lia.
Qed.
Lemma lpass2_start b af db cl u : db <> 0 -> hd 0 u <> 0 ->
  lpass2 af db cl (lead b ++ u) (mkp2 0 0 0 0 0 (repeat 0 16) 0) = lpass2 af db cl u (start2 b).
Proof.
  intros D U. destruct b; [|reflexivity]. cbn [lead app lpass2]. rewrite step_colon_0 by lia. reflexivity.
Qed.
Lemma zeros_split n m : (n + m = 16)%nat -> repeat 0 16 = repeat 0 n ++ repeat 0 m.
Proof. intros <-. apply repeat_app. Qed.
Lemma zlen_repeat n : zlen (repeat 0 n) = Z.of_nat n.
Proof. unfold zlen. rewrite repeat_length. reflexivity. Qed.
Lemma groups_dec : forall F, Forall full F -> Forall group F \/ ~ Forall group F.
Proof.
  induction F as [|f F IH]; intro HF; [left; constructor|]. inversion_clear HF as [|? ? F1 HF'].
  destruct (IH HF') as [A|A]; [|right; intro H; inversion H; contradiction].
  destruct (hex_all f) as [B|B]; [|right; intro H; inversion H as [|? ? (_ & X) ?]; contradiction].
  destruct (Z.le_gt_cases (zlen f) 4) as [L4|L4]; [|right; intro H; inversion H as [|? ? (X & _) ?]; lia].
  left. constructor; [|exact A]. split; [|exact B]. destruct F1 as (_ & F1). destruct f; [contradiction|]. rewrite zlen_cons in *. pose proof (zlen_nonneg f). lia.
Qed.
Lemma group_dec f : full f -> group f \/ ~ group f.
Proof. intro H. destruct (groups_dec [f]) as [A|A]; [constructor; [exact H|constructor]|left; inversion A; assumption|right; intro B; apply A; constructor; [exact B|constructor]]. Qed.

(** No double colon. *)
Lemma exact_A b G f j ip v : Forall full G -> full f -> Forall (Forall plain) G -> Forall plain f -> (b = false -> G <> []) ->
  zlen (lead b ++ cat G ++ f) < 100 -> zlen ip = 16 ->
  (ip6Parse ((lead b ++ cat G ++ f) ++ 0 :: j) ip = Ok (1, v) <-> Forall group (G ++ [f]) /\ zlen G = 7 /\ v = octets (G ++ [f])).
Proof.
  intros HG Hf PG Pf HB HL HI.
  assert (N0 : ~ In 0 (cat G ++ f)) by (rewrite in_app_iff; intros [I|I]; [exact (cat_plain _ PG I)|exact (plain_0 _ Pf I)]).
  assert (N : ~ In 0 (lead b ++ cat G ++ f)).
  { rewrite in_app_iff. intros [I|I]; [|auto]. destruct b; cbn in I; [destruct I as [I|I]; [lia|auto]|auto]. }
  assert (NE : cat G ++ f <> []) by (apply app_neq_nil, Hf).
  rewrite ip6Parse_list by assumption. rewrite lpass1_start by assumption.
  destruct Hf as (Hf & Ne). destruct (lpass1_last f 1 (-1) (zlen (lead b) + zlen G) 58 (zlen (lead b) + zlen (cat G)) Hf Ne) as (l & Hl & ->).
  cbn [p1_last p1_double p1_index p1_after p1_colons]. replace (l =? 58) with false by lia. cbn [andb].
  rewrite lpass2_start by (first [lia | apply hd_ok; assumption]). unfold start2, finish. cbn [p1_colons].
  assert (CL : zlen (lead b) + zlen G <> 0).
  { pose proof (zlen_nonneg G). destruct b; [cbn [lead]; rewrite zlen_cons; change (zlen (@nil Z)) with 0; lia|]. destruct G; [contradiction HB; reflexivity|]. rewrite zlen_cons in *. change (zlen (lead false)) with 0. pose proof (zlen_nonneg G). lia. }
  set (cl := zlen (lead b) + zlen G) in *. clearbody cl.
  pose proof (zlen_nonneg (lead b)). pose proof (zlen_nonneg (cat G)).
  destruct (groups_dec G HG) as [GG|GG].
  2:{ destruct (run_bad 1 (-1) cl CL G f 0 0 (repeat 0 16) (zlen (lead b)) HG PG Ne (plain_0 _ Pf)) as (k & E & K); try lia; try reflexivity; [intros (A & _); contradiction|].
      change (2 * 0) with 0 in E. rewrite E. cbn [bind]. split; [intro X; injection X as X _; lia|]. intros (A & _). apply Forall_app in A as (A & _). contradiction. }
  destruct (Z.le_gt_cases (zlen G) 8) as [L8|L8].
  2:{ destruct (run_bad 1 (-1) cl CL G f 0 0 (repeat 0 16) (zlen (lead b)) HG PG Ne (plain_0 _ Pf)) as (k & E & K); try lia; try reflexivity.
      change (2 * 0) with 0 in E. rewrite E. cbn [bind]. split; [intro X; injection X as X _; lia|]. lia. }
  assert (LG : (length G <= 8)%nat) by (unfold zlen in L8; lia).
  destruct (run_groups 1 (-1) cl G f 0 0 [] (repeat 0 (2 * length G)) (repeat 0 (16 - 2 * length G)) (zlen (lead b))) as (h & E); try assumption; try lia; try reflexivity.
  { exact (plain_0 _ Pf). }
  { rewrite zlen_repeat. unfold zlen. lia. }
  { cbn [app]. rewrite <- repeat_app, zlen_repeat. lia. }
  cbn [app] in E. rewrite <- (zeros_split (2 * length G) (16 - 2 * length G)) in E by lia. change (2 * 0) with 0 in E. rewrite E. clear E.
  rewrite !Z.add_0_l.
  assert (LO : zlen (octets G ++ repeat 0 (16 - 2 * length G)) = 16) by (rewrite zlen_app, zlen_octets, zlen_repeat; unfold zlen in *; lia).
  destruct (group_dec f (conj Hf Ne)) as [Gf|Gf].
  2:{ destruct (lpass2_not_group 1 (-1) cl CL f [] (2 * zlen G) (zlen G) h (octets G ++ repeat 0 (16 - 2 * length G)) (zlen (lead b) + zlen (cat G)) (conj Hf Ne) Pf) as (k & E & K); try assumption; try lia.
      { pose proof (zlen_nonneg G). lia. }
      rewrite app_nil_r in E. rewrite E. cbn [bind]. split; [intro X; injection X as X _; lia|]. intros (A & _). apply Forall_app in A as (_ & A). inversion A; contradiction. }
  rewrite (lpass2_last 1 (-1) cl) by (first [assumption | pose proof (zlen_nonneg G); lia]).
  destruct (16 <=? 2 * zlen G + 1) eqn:E8.
  { cbn [bind]. split; [intro X; injection X as X _; lia|lia]. }
  cbn [bind p2_hex p2_current p2_ip]. replace (cl =? 0) with false by lia. cbn [andb negb].
  destruct (zlen G + 1 =? 8) eqn:E7.
  - cbn [andb negb].
    replace (16 - 2 * length G)%nat with 2%nat by (unfold zlen in E7; lia). cbn [repeat].
    replace (2 * zlen G) with (zlen (octets G)) by apply zlen_octets. rewrite put_mid.
    assert (EO : octets (G ++ [f]) = octets G ++ [number f / 256; number f mod 256]) by (rewrite octets_app; reflexivity).
    rewrite EO. split.
    + intro X. injection X as <-. split; [apply Forall_app; split; [exact GG|constructor; [exact Gf|constructor]]|]. split; [lia|reflexivity].
    + intros (_ & _ & ->). reflexivity.
  - cbn [negb]. split; [intro X; injection X as X _; lia|lia].
Qed.

(** A double colon. *)
Definition rest (R : list (list Z)) (f : list Z) : list (list Z) := match f with [] => [] | _ => R ++ [f] end.
Lemma exact_B b G R f j ip v : Forall full G -> Forall full R -> (f = [] /\ R = [] \/ full f) -> Forall (Forall plain) G -> Forall (Forall plain) R -> Forall plain f -> (b = false -> G <> []) ->
  zlen (lead b ++ cat G ++ [58] ++ cat R ++ f) < 100 -> zlen ip = 16 ->
  (ip6Parse ((lead b ++ cat G ++ [58] ++ cat R ++ f) ++ 0 :: j) ip = Ok (1, v) <->
   Forall group G /\ Forall group (rest R f) /\ zlen G + zlen R + 1 <= 7 /\
   v = octets G ++ repeat 0 (16 - 2 * (length G + length (rest R f))) ++ octets (rest R f)).
Proof.
  intros HG HR Hf PG PR Pf HB HL HI.
  assert (N1 : ~ In 0 (cat R ++ f)) by (rewrite in_app_iff; intros [I|I]; [exact (cat_plain _ PR I)|exact (plain_0 _ Pf I)]).
  assert (N2 : ~ In 0 ([58] ++ cat R ++ f)) by (cbn [app]; intros [I|I]; [lia|auto]).
  assert (N0 : ~ In 0 (cat G ++ [58] ++ cat R ++ f)) by (rewrite in_app_iff; intros [I|I]; [exact (cat_plain _ PG I)|exact (N2 I)]).
  assert (N : ~ In 0 (lead b ++ cat G ++ [58] ++ cat R ++ f)).
  { rewrite in_app_iff. intros [I|I]; [|auto]. destruct b; cbn in I; [destruct I as [I|I]; [lia|auto]|auto]. }
  rewrite ip6Parse_list by assumption. rewrite lpass1_start by assumption.
  pose proof (zlen_nonneg (lead b)). pose proof (zlen_nonneg (cat G)). pose proof (zlen_nonneg G). pose proof (zlen_nonneg R).
  set (db := zlen (lead b) + zlen (cat G)) in *.
  assert (D1 : 1 <= db).
  { unfold db. destruct b; [change (zlen (lead true)) with 1; lia|]. destruct G as [|g G]; [contradiction HB; reflexivity|]. rewrite zlen_cat_cons in *. pose proof (zlen_nonneg g). pose proof (zlen_nonneg (cat G)). lia. }
  change ([58] ++ cat R ++ f) with (58 :: cat R ++ f) at 1. rewrite lpass1_empty. change (-1 =? -1) with true. cbv iota.
  rewrite (lpass1_full R _ _ _ _ _ HR). replace (db =? -1) with false by lia. cbv iota.
  set (cl := zlen (lead b) + zlen G + 1 + zlen R).
  assert (CL : cl <> 0) by (unfold cl; lia). clearbody cl.
  assert (E1 : exists l i, lpass1 f (mkp1 (1 + zlen R) db cl 58 (db + 1 + zlen (cat R))) = Go (mkp1 (1 + zlen R) db cl l i) /\ (l =? 58) && negb (db =? i - 1) = false).
  { destruct Hf as [(-> & ->)|(Hf & Ne)].
    - cbn [lpass1]. do 2 eexists. split; [reflexivity|]. change (zlen (cat [])) with 0. lia.
    - destruct (lpass1_last f (1 + zlen R) db cl 58 (db + 1 + zlen (cat R)) Hf Ne) as (l & Hl & ->). do 2 eexists. split; [reflexivity|]. replace (l =? 58) with false by lia. reflexivity. }
  destruct E1 as (l & i & -> & E1). cbn [p1_last p1_double p1_index p1_after p1_colons]. rewrite E1.
  assert (NE : cat G ++ [58] ++ cat R ++ f <> []) by (apply app_neq_nil; discriminate).
  rewrite lpass2_start by (first [lia | apply hd_ok; assumption]). unfold start2, finish. cbn [p1_colons].
  destruct (groups_dec G HG) as [GG|GG].
  2:{ destruct (run_bad (1 + zlen R) db cl CL G ([58] ++ cat R ++ f) 0 0 (repeat 0 16) (zlen (lead b)) HG PG ltac:(discriminate) N2) as (k & E & K); try lia; try reflexivity; [intros (A & _); contradiction|].
      change (2 * 0) with 0 in E. rewrite E. cbn [bind]. split; [intro X; injection X as X _; lia|]. intros (A & _). contradiction. }
  destruct (Z.le_gt_cases (zlen G) 8) as [L8|L8].
  2:{ destruct (run_bad (1 + zlen R) db cl CL G ([58] ++ cat R ++ f) 0 0 (repeat 0 16) (zlen (lead b)) HG PG ltac:(discriminate) N2) as (k & E & K); try lia; try reflexivity.
      change (2 * 0) with 0 in E. rewrite E. cbn [bind]. split; [intro X; injection X as X _; lia|]. lia. }
  assert (LG : (length G <= 8)%nat) by (unfold zlen in L8; lia).
  destruct (run_groups (1 + zlen R) db cl G ([58] ++ cat R ++ f) 0 0 [] (repeat 0 (2 * length G)) (repeat 0 (16 - 2 * length G)) (zlen (lead b))) as (h & E); try assumption; try lia; try reflexivity.
  { discriminate. }
  { rewrite zlen_repeat. unfold zlen. lia. }
  { cbn [app]. rewrite <- repeat_app, zlen_repeat. lia. }
  cbn [app] in E. rewrite <- (zeros_split (2 * length G) (16 - 2 * length G)) in E by lia. change (2 * 0) with 0 in E. cbn [app]. rewrite E. clear E. fold db.
  rewrite !Z.add_0_l.
  assert (LO : zlen (octets G ++ repeat 0 (16 - 2 * length G)) = 16) by (rewrite zlen_app, zlen_octets, zlen_repeat; unfold zlen in *; lia).
  cbn [lpass2]. rewrite step_double by (first [reflexivity | assumption | lia]).
  destruct (8 <=? zlen G + (1 + zlen R)) eqn:E8.
  { cbn [bind]. split; [intro X; injection X as X _; lia|lia]. }
  destruct Hf as [(-> & ->)|(Hf & Ne)].
  - cbn [cat flat_map app hd rest]. change (0 =? 0) with true. change (zlen (@nil (list Z))) with 0. cbv iota.
    change (8 - (1 + 0)) with 7. change (16 <=? 7 * 2 + 1) with false. cbn [bind lpass2 p2_hex p2_current p2_ip]. change (7 + 1 =? 8) with true. cbn [negb]. rewrite !andb_false_r.
    replace (cl =? 0) with false by lia. cbn [andb].
    change (octets []) with (@nil Z). rewrite app_nil_r. change (length (@nil (list Z))) with 0%nat. rewrite Nat.add_0_r.
    assert (put (octets G ++ repeat 0 (16 - 2 * length G)) (7 * 2) 0 = octets G ++ repeat 0 (16 - 2 * length G)) as ->.
    { replace (16 - 2 * length G)%nat with ((14 - 2 * length G) + 2)%nat by (unfold zlen in *; cbn [length] in *; lia). rewrite repeat_app. cbn [repeat]. rewrite app_assoc.
      replace (7 * 2) with (zlen (octets G ++ repeat 0 (14 - 2 * length G))) by (rewrite zlen_app, zlen_octets, zlen_repeat; unfold zlen in *; cbn [length] in *; lia).
      rewrite put_mid. reflexivity. }
    split.
    + intro X. injection X as <-. split; [exact GG|]. split; [constructor|]. split; [change (zlen (@nil (list Z))) with 0 in E8; lia|reflexivity].
    + intros (_ & _ & _ & ->). reflexivity.
  - assert (NR : cat R ++ f <> []) by (apply app_neq_nil, Ne).
    replace (hd 0 (cat R ++ f) =? 0) with false by (pose proof (hd_ok _ NR N1); lia). cbn [bind].
    replace (8 - (1 + zlen R)) with (7 - zlen R) by lia. replace ((7 - zlen R) * 2) with (2 * (7 - zlen R)) by lia.
    pose proof (zlen_nonneg (cat R)).
    assert (LGR : (length G + length R <= 6)%nat) by (unfold zlen in E8; lia).
    replace (rest R f) with (R ++ [f]) by (destruct f; [contradiction|reflexivity]).
    set (z := repeat 0 (16 - 2 * (length G + length (R ++ [f])))).
    assert (EZ : octets G ++ repeat 0 (16 - 2 * length G) = (octets G ++ z) ++ repeat 0 (2 * length R) ++ [0; 0]).
    { unfold z. rewrite app_length. cbn [length]. change [0; 0] with (repeat 0 2). rewrite <- app_assoc, <- !repeat_app. f_equal. f_equal. lia. }
    assert (LZ : zlen (octets G ++ z) = 2 * (7 - zlen R)) by (unfold z; rewrite app_length, zlen_app, zlen_octets, zlen_repeat; cbn [length]; unfold zlen; lia).
    destruct (groups_dec R HR) as [GR|GR].
    2:{ destruct (run_bad (1 + zlen R) db cl CL R f (7 - zlen R) h (octets G ++ repeat 0 (16 - 2 * length G)) (db + 1) HR PR Ne (plain_0 _ Pf)) as (k & E & K); try lia; [intros (A & _); contradiction|].
        rewrite E. cbn [bind]. split; [intro X; injection X as X _; lia|]. intros (_ & A & _). apply Forall_app in A as (A & _). contradiction. }
    rewrite EZ.
    destruct (run_groups (1 + zlen R) db cl R f (7 - zlen R) h (octets G ++ z) (repeat 0 (2 * length R)) [0; 0] (db + 1)) as (h' & E); try assumption; try lia.
    { exact (plain_0 _ Pf). }
    { rewrite zlen_repeat. unfold zlen. lia. }
    { rewrite <- EZ. exact LO. }
    rewrite E. clear E. replace (7 - zlen R + zlen R) with 7 by lia.
    assert (L7 : zlen ((octets G ++ z) ++ octets R) = 2 * 7) by (rewrite zlen_app, LZ, zlen_octets; lia).
    destruct (group_dec f (conj Hf Ne)) as [Gf|Gf].
    2:{ destruct (lpass2_not_group (1 + zlen R) db cl CL f [] (2 * 7) 7 h' ((octets G ++ z) ++ octets R ++ [0; 0]) (db + 1 + zlen (cat R)) (conj Hf Ne) Pf) as (k & E & K); try assumption; try lia.
        { rewrite app_assoc, zlen_app, L7. reflexivity. }
        rewrite app_nil_r in E. rewrite E. cbn [bind]. split; [intro X; injection X as X _; lia|]. intros (_ & A & _). apply Forall_app in A as (_ & A). inversion A; contradiction. }
    rewrite (lpass2_last (1 + zlen R) db cl) by (first [assumption | lia | rewrite app_assoc, zlen_app, L7; reflexivity]).
    change (16 <=? 2 * 7 + 1) with false. cbn [bind p2_hex p2_current p2_ip]. replace (cl =? 0) with false by lia. change (7 + 1 =? 8) with true. cbn [andb negb].
    rewrite app_assoc, <- L7, put_mid.
    assert (EO : octets (R ++ [f]) = octets R ++ [number f / 256; number f mod 256]) by (rewrite octets_app; reflexivity).
    rewrite EO. rewrite <- !app_assoc. split.
    + intro X. injection X as <-. split; [exact GG|]. split; [apply Forall_app; split; [exact GR|constructor; [exact Gf|constructor]]|]. split; [lia|]. reflexivity.
    + intros (_ & _ & _ & ->). reflexivity.
Qed.
