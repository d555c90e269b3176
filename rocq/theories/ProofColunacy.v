(** Proofs about names in coLunacyDNS packets. *)
From Verif Require Import CBase SpecNames SpecAcl SpecDwStr ModelDwStr ModelColunacy SpecColunacy.
From Verif Require Import Bits ProofDwStr ProofDwDnsStr.

Lemma wr_mid X x Y v : wr (X ++ x :: Y) (zlen X) v = Ok (X ++ v :: Y).
Proof. rewrite wr_ok; [rewrite zupd_mid; reflexivity|]. rewrite zlen_app, zlen_cons. pose proof (zlen_nonneg X). pose proof (zlen_nonneg Y). lia. Qed.
Lemma wr_next X x Y v i : i = zlen X -> wr (X ++ x :: Y) i v = Ok (X ++ v :: Y).
Proof. intros ->. apply wr_mid. Qed.
Lemma put_at_mid src : forall X Y, zlen src <= zlen Y -> put_at (X ++ Y) (zlen X) src = Ok (X ++ src ++ skipn (length src) Y).
Proof.
  induction src as [|c src IH]; intros X Y H; [reflexivity|]. destruct Y as [|y Y]; [rewrite zlen_cons in H; change (zlen (@nil Z)) with 0 in H; pose proof (zlen_nonneg src); lia|].
  cbn [put_at]. rewrite wr_mid. cbn [bind]. replace (X ++ c :: Y) with ((X ++ [c]) ++ Y) by (rewrite <- app_assoc; reflexivity).
  replace (zlen X + 1) with (zlen (X ++ [c])) by (rewrite zlen_app; reflexivity). rewrite IH by (rewrite !zlen_cons in H; lia). rewrite <- app_assoc. reflexivity.
Qed.

Lemma is_safe_plain c : is_safe c = true <-> plain_char c.
Proof. unfold is_safe, plain_char. rewrite !orb_true_iff, !andb_true_iff. lia. Qed.
Lemma hex_char_nth d : 0 <= d < 16 -> hex_char d = nth (Z.to_nat d) digits 0.
Proof.
  intros H. assert (d = 0 \/ d = 1 \/ d = 2 \/ d = 3 \/ d = 4 \/ d = 5 \/ d = 6 \/ d = 7 \/ d = 8 \/ d = 9 \/ d = 10 \/ d = 11 \/ d = 12 \/ d = 13 \/ d = 14 \/ d = 15) as C by lia.
  repeat (destruct C as [-> |C]; [reflexivity|]). subst. reflexivity.
Qed.
Lemma four_long (F : list Z) : 4 <= zlen F -> exists a b c d G, F = a :: b :: c :: d :: G.
Proof. intros H. do 4 (destruct F as [|? F]; [rewrite ?zlen_cons in H; change (zlen (@nil Z)) with 0 in H; lia|]). repeat eexists. Qed.
Lemma land_15 x : 0 <= x -> Z.land x 15 = x mod 16.
Proof. intros. change 15 with (Z.ones 4). rewrite Z.land_ones by lia. reflexivity. Qed.

Lemma hn_octet_ok c t W F max : byte c -> char_is c t -> zlen W + 5 < max -> max <= zlen W + zlen F ->
  hn_octet c (W ++ F) max (zlen W) = Ok (Some (W ++ t ++ skipn (length t) F, zlen W + zlen t)).
Proof.
  intros B H L1 L2. pose proof (zlen_nonneg W). unfold byte in B. unfold hn_octet. destruct H as [(S0 & ->)|(S0 & ->)].
  - apply is_safe_plain in S0. rewrite S0. replace (max <=? zlen W) with false by lia. destruct F as [|f F]; [change (zlen (@nil Z)) with 0 in L2; lia|].
    rewrite wr_mid. reflexivity.
  - destruct (is_safe c) eqn:E; [apply is_safe_plain in E; contradiction|]. replace (max <=? zlen W + 5) with false by lia.
    destruct (four_long F ltac:(lia)) as (f0 & f1 & f2 & f3 & G & ->). rewrite wr_mid. cbn [bind].
    rewrite Z.shiftr_div_pow2 by lia. change (2 ^ 4) with 16. rewrite !land_15 by lia. rewrite (Z.mod_small (c / 16)) by lia. rewrite !hex_char_nth by lia.
    set (u := nth (Z.to_nat (c / 16)) digits 0). set (v := nth (Z.to_nat (c mod 16)) digits 0).
    change (W ++ 123 :: f1 :: f2 :: f3 :: G) with (W ++ [123] ++ f1 :: f2 :: f3 :: G). rewrite app_assoc. rewrite wr_next by (rewrite zlen_app; reflexivity). cbn [bind].
    change (u :: f2 :: f3 :: G) with ([u] ++ f2 :: f3 :: G). rewrite app_assoc. rewrite wr_next by (rewrite !zlen_app; change (zlen [123]) with 1; change (zlen [u]) with 1; lia). cbn [bind].
    change (v :: f3 :: G) with ([v] ++ f3 :: G). rewrite app_assoc. rewrite wr_next by (rewrite !zlen_app; change (zlen [123]) with 1; change (zlen [u]) with 1; change (zlen [v]) with 1; lia). cbn [bind].
    rewrite <- !app_assoc. reflexivity.
Qed.

Lemma labels_cons l n : labels (l :: n) = zlen l :: l ++ labels n. Proof. reflexivity. Qed.
Lemma wire_labels0 n : wire n = labels n ++ [0].
Proof. induction n as [|l n IH]; [reflexivity|]. rewrite labels_cons. cbn [wire]. rewrite IH, <- app_comm_cons, <- app_assoc. reflexivity. Qed.
Lemma hn_loop_end n m base out max inp outp : hn_loop n m base out max 0 inp outp = (if max <=? outp then Ok (-1, out) else out <- wr out outp 0 ;; Ok (inp, out)).
Proof. destruct n; reflexivity. Qed.
Definition name_tail (TL : list Z) : Prop := TL = [0] \/ exists a b, TL = [a; b] /\ 64 <= a.

Lemma hn_run : forall fuel c cur ts ls lts W F P R TL base inp max,
  bytes (c :: cur) -> Forall2 char_is (c :: cur) ts -> good_name ls -> Forall2 label_is ls lts -> name_tail TL ->
  zlen W + zlen (concat ts ++ [46] ++ concat lts) + 6 <= max -> max <= zlen W + zlen F -> zlen P = base + inp + 1 -> 0 <= inp ->
  inp + zlen (c :: cur) + zlen (labels ls) <= max -> zlen (c :: cur) + zlen (labels ls) <= Z.of_nat fuel ->
  exists out', hn_loop fuel (P ++ (c :: cur) ++ labels ls ++ TL ++ R) base (W ++ F) max (zlen (c :: cur)) inp (zlen W) = Ok (inp + zlen (c :: cur) + zlen (labels ls) + zlen TL, out') /\
    (TL = [0] -> exists G, out' = W ++ (concat ts ++ [46] ++ concat lts) ++ 0 :: G).
Proof.
  induction fuel as [|fuel IH]; intros c cur ts ls lts W F P R TL base inp max B HC HN HL HT L1 L2 LP Hi L3 L4; pose proof (zlen_nonneg cur); pose proof (zlen_nonneg (labels ls)); rewrite zlen_cons in *; [lia|].
  pose proof (zlen_nonneg W). pose proof (zlen_nonneg (concat lts)). inversion HC as [|c0 t cur0 ts' C1 C2 e1 e2]; subst. clear HC. inversion B as [|? ? B1 B2]; subst. cbn [concat] in *. rewrite !zlen_app in L1. change (zlen [46]) with 1 in L1. pose proof (zlen_nonneg t). pose proof (zlen_nonneg (concat ts')).
  assert (zlen t <= zlen F /\ 1 <= zlen t) as (LtF & Lt1) by (split; [lia|]; destruct C1 as [(_ & ->)|(_ & ->)]; reflexivity || (unfold zlen; cbn [length]; lia)).
  set (F1 := skipn (length t) F). assert (zlen F1 = zlen F - zlen t) as LF1 by (subst F1; unfold zlen in *; rewrite skipn_length; lia).
  cbn [hn_loop]. replace (zlen cur + 1 <=? 0) with false by lia. replace ((max <=? inp) || (max <=? zlen W)) with false by lia. cbv zeta.
  erewrite rd_at; [|reflexivity|lia]. cbn [bind]. rewrite (hn_octet_ok c t) by (assumption || lia). cbn [bind]. fold F1.
  replace (zlen cur + 1 - 1) with (zlen cur) by lia.
  destruct cur as [|c2 cur].
  - inversion C2; subst. change (zlen (@nil Z)) with 0 in *. cbn [concat] in *. rewrite app_nil_r in *. change (zlen (@nil Z)) with 0 in *. change (0 =? 0) with true. cbv iota.
    destruct ls as [|l ls].
    + inversion HL; subst. cbn [concat] in *. change (labels []) with (@nil Z) in *. change (zlen (@nil Z)) with 0 in *. cbn [app] in *.
      destruct HT as [-> |(a & b & -> & Ha)].
      * erewrite (rd_at _ (P ++ [c]) 0 R); [|rewrite <- app_assoc; reflexivity|rewrite zlen_app; change (zlen [c]) with 1; lia]. cbn [bind]. change (64 <=? 0) with false. cbv iota. replace (max <=? zlen W + zlen t) with false by lia.
        destruct F1 as [|f1 [|f2 G]]; [change (zlen (@nil Z)) with 0 in LF1; lia|change (zlen [f1]) with 1 in LF1; lia|].
        rewrite app_assoc, wr_next by (rewrite zlen_app; lia). cbn [bind]. rewrite hn_loop_end. replace (max <=? zlen W + zlen t + 1) with false by lia.
        change (46 :: f2 :: G) with ([46] ++ f2 :: G). rewrite app_assoc, wr_next by (rewrite !zlen_app; change (zlen [46]) with 1; lia). cbn [bind].
        eexists. split; [f_equal; f_equal; change (zlen [0]) with 1; lia|]. intros _. exists G. rewrite <- !app_assoc. reflexivity.
      * erewrite (rd_at _ (P ++ [c]) a (b :: R)); [|rewrite <- app_assoc; reflexivity|rewrite zlen_app; change (zlen [c]) with 1; lia]. cbn [bind]. replace (64 <=? a) with true by lia.
        unfold hn_pointer. replace (max <=? zlen W + zlen t + 1) with false by lia.
        destruct F1 as [|f1 [|f2 G]]; [change (zlen (@nil Z)) with 0 in LF1; lia|change (zlen [f1]) with 1 in LF1; lia|].
        rewrite app_assoc, wr_next by (rewrite zlen_app; lia). cbn [bind].
        change (42 :: f2 :: G) with ([42] ++ f2 :: G). rewrite app_assoc, wr_next by (rewrite !zlen_app; change (zlen [42]) with 1; lia). cbn [bind].
        eexists. split; [f_equal; f_equal; change (zlen [a; b]) with 2; lia|]. intros E. discriminate E.
    + inversion HL as [|? tl ? lts' HL1 HL2]; subst. inversion HN as [|? ? (G1 & G2) HN']; subst. cbn [concat] in *. rewrite zlen_app in *. destruct HL1 as (tsl & HL1 & ->). rewrite zlen_app in *. change (zlen [46]) with 1 in *.
      pose proof (zlen_nonneg (labels ls)). pose proof (zlen_nonneg (concat tsl)). pose proof (zlen_nonneg (concat lts')). rewrite labels_cons in *. rewrite zlen_cons, zlen_app in *. 
      erewrite (rd_at _ (P ++ [c]) (zlen l)); [|rewrite <- app_assoc; cbn [app]; reflexivity|rewrite zlen_app; change (zlen [c]) with 1; lia]. cbn [bind]. replace (64 <=? zlen l) with false by lia. replace (max <=? zlen W + zlen t) with false by lia.
      destruct F1 as [|f1 G]; [change (zlen (@nil Z)) with 0 in LF1; lia|]. rewrite zlen_cons in LF1.
      rewrite app_assoc, wr_next by (rewrite zlen_app; lia). cbn [bind]. destruct l as [|l0 l]; [change (zlen (@nil Z)) with 0 in G1; lia|]. 
      specialize (IH l0 l tsl ls lts' ((W ++ t) ++ [46]) G (P ++ [c; zlen (l0 :: l)]) R TL base (inp + 1 + 1) max G2 HL1 HN' HL2 HT).
      rewrite !zlen_app in IH. change (zlen [46]) with 1 in IH. change (zlen [c; zlen (l0 :: l)]) with 2 in IH.
      destruct IH as (out' & E1 & E2); [lia|lia|lia|lia|lia|lia|].
      exists out'. split.
      * rewrite <- !app_assoc in *. cbn [app] in *. rewrite <- !app_assoc in *. cbn [app] in *. rewrite E1. f_equal. f_equal. lia.
      * intros e. destruct (E2 e) as (G' & ->). exists G'. rewrite <- !app_assoc. reflexivity.
  - rewrite zlen_cons in *. pose proof (zlen_nonneg cur). replace (zlen cur + 1 =? 0) with false by lia.
    specialize (IH c2 cur ts' ls lts (W ++ t) F1 (P ++ [c]) R TL base (inp + 1) max B2 C2 HN HL HT). rewrite !zlen_app in IH. change (zlen [c]) with 1 in IH. change (zlen [46]) with 1 in IH. rewrite !zlen_cons in IH.
    destruct IH as (out' & E1 & E2); [lia|lia|lia|lia|lia|lia|].
    exists out'. split.
    + rewrite <- !app_assoc in *. cbn [app] in *. rewrite E1. f_equal. f_equal. lia.
    + intros e. destruct (E2 e) as (G' & ->). exists G'. rewrite <- !app_assoc. reflexivity.
Qed.

(** A name read: its length, less one; and its text. *)
Lemma human_name n t TL P R F max : good_name n -> human n t -> name_tail TL ->
  zlen t + 6 <= max -> max <= zlen F -> zlen (labels n) <= max ->
  exists out', humanDNSname (P ++ labels n ++ TL ++ R) (zlen P) F max = Ok (zlen (labels n) + zlen TL - 1, out') /\ (TL = [0] -> exists G, out' = t ++ 0 :: G).
Proof.
  intros HN (ts & HT & ->) HTL L1 L2 L3. unfold humanDNSname. pose proof (zlen_nonneg (concat ts)). destruct n as [|l n].
  - inversion HT; subst. cbn [concat] in *. change (zlen (@nil Z)) with 0 in *. change (labels []) with (@nil Z). cbn [app]. destruct F as [|f0 [|f1 F]]; [change (zlen (@nil Z)) with 0 in L2; lia|change (zlen [f0]) with 1 in L2; lia|].
    destruct HTL as [-> |(a & b & -> & Ha)].
    + erewrite rd_at; [|reflexivity|reflexivity]. cbn [bind]. change (64 <=? 0) with false. cbv iota. rewrite hn_loop_end. replace (max <=? 0) with false by lia.
      change (f0 :: f1 :: F) with ([] ++ f0 :: f1 :: F). rewrite wr_next by reflexivity. cbn [bind]. eexists. split; [reflexivity|]. intros _. exists (f1 :: F). reflexivity.
    + erewrite rd_at; [|reflexivity|reflexivity]. cbn [bind]. replace (64 <=? a) with true by lia. unfold hn_pointer. replace (max <=? 0 + 1) with false by lia.
      change (f0 :: f1 :: F) with ([] ++ f0 :: f1 :: F). rewrite wr_next by reflexivity. cbn [bind app].
      change (42 :: f1 :: F) with ([42] ++ f1 :: F). rewrite wr_next by reflexivity. cbn [bind]. eexists. split; [reflexivity|]. intros E. discriminate E.
  - inversion HT as [|? tl ? lts H1 H2]; subst. destruct H1 as (tsl & H1 & ->). inversion HN as [|? ? (G1 & G2) HN']; subst. cbn [concat] in *. rewrite labels_cons in *. rewrite <- app_comm_cons.
    erewrite rd_at; [|reflexivity|reflexivity]. cbn [bind]. replace (64 <=? zlen l) with false by lia. destruct l as [|c cur]; [change (zlen (@nil Z)) with 0 in G1; lia|].
    rewrite zlen_cons, zlen_app in L3. pose proof (zlen_nonneg (labels n)). 
    pose proof (hn_run (Z.to_nat (max + 1)) c cur tsl n lts [] F (P ++ [zlen (c :: cur)]) R TL (zlen P) 0 max G2 H1 HN' H2 HTL) as X. cbn [app] in X.
    change (zlen (@nil Z)) with 0 in X. rewrite zlen_app in X. change (zlen [zlen (c :: cur)]) with 1 in X. rewrite <- app_assoc in L1.
    destruct X as (out' & E1 & E2); [rewrite !zlen_app in *; rewrite ?zlen_cons in *; change (zlen (@nil Z)) with 0 in *; lia|lia|rewrite zlen_app; change (zlen [zlen (c :: cur)]) with 1; lia|lia|lia|lia|].
    exists out'. split.
    + match type of E1 with hn_loop _ ?m1 _ _ _ _ _ _ = _ => match goal with |- hn_loop _ ?m2 _ _ _ _ _ _ = _ => replace m2 with m1 by (rewrite <- ?app_assoc; cbn [app]; rewrite <- ?app_assoc; reflexivity) end end.
      rewrite E1. f_equal. f_equal. rewrite !zlen_cons, zlen_app, !zlen_cons. lia.
    + intros e. destruct (E2 e) as (G' & ->). exists G'. rewrite <- !app_assoc. cbn [app]. reflexivity.
Qed.
