(** Proofs about the names coLunacyDNS sends upstream. *)
From Verif Require Import CBase SpecNames SpecAcl SpecDwStr ModelDwStr ModelColunacy SpecColunacy.
From Verif Require Import Bits ProofDwStr ProofDwDnsStr ProofColunacy ProofColunacyServe ProofColunacySafe.

Lemma lower_flip c b : lower (flip_case c b) = lower c.
Proof. unfold lower, flip_case. destruct ((97 <=? c) && (c <=? 122) && b) eqn:E1; [|destruct ((65 <=? c) && (c <=? 90) && b) eqn:E2; [|reflexivity]].
  - apply andb_true_iff in E1 as (E1 & _). replace ((65 <=? c - 32) && (c - 32 <=? 90)) with true by lia. replace ((65 <=? c) && (c <=? 90)) with false by lia. lia.
  - apply andb_true_iff in E2 as (E2 & _). replace ((65 <=? c + 32) && (c + 32 <=? 90)) with false by lia. replace ((65 <=? c) && (c <=? 90)) with true by lia. reflexivity.
Qed.

Lemma h2d_label_ok R a rest : forall l X Y len r, Forall (fun c => c <> 46 /\ c <> 0) l -> len + zlen l < 64 -> zlen X + zlen l < a -> zlen l <= zlen Y ->
  exists l' r', h2d_label (l ++ 46 :: rest) (X ++ Y) (zlen X) a len R r = Ok (Some (46 :: rest, X ++ l' ++ skipn (length l) Y, zlen X + zlen l, len + zlen l, r')) /\ map lower l' = map lower l.
Proof.
  induction l as [|c l IH]; intros X Y len r H L1 L2 L3.
  - exists [], r. cbn [app h2d_label]. change (46 =? 46) with true. rewrite andb_false_r. cbn [andb app length skipn]. change (zlen (@nil Z)) with 0. split; [|reflexivity]. rewrite !Z.add_0_r. reflexivity.
  - rewrite zlen_cons in *. pose proof (zlen_nonneg l). inversion H as [|? ? (H1 & H2) H3]; subst. destruct Y as [|y Y]; [change (zlen (@nil Z)) with 0 in L3; lia|]. rewrite zlen_cons in L3.
    cbn [app h2d_label]. replace ((zlen X <? a) && negb (c =? 46) && (len <? 64)) with true by lia. cbv zeta. rewrite wr_mid. cbn [bind].
    assert (at_z (l ++ 46 :: rest) <> 0) as NZ by (destruct l as [|c2 l2]; cbn [app at_z]; [lia|]; inversion H3 as [|? ? (? & ?) ?]; subst; assumption).
    replace ((64 <=? len + 1) || (at_z (l ++ 46 :: rest) =? 0) || (a <=? zlen X + 1)) with false by lia.
    destruct (IH (X ++ [flip_case c (R r)]) Y (len + 1) (if uses_bit c then Datatypes.S r else r) H3) as (l' & r' & E & M); [lia|rewrite zlen_app; change (zlen [flip_case c (R r)]) with 1; lia|lia|].
    rewrite <- app_assoc, zlen_app in E. change (zlen [flip_case c (R r)]) with 1 in E. cbn [app] in E. rewrite E. exists (flip_case c (R r) :: l'), r'. split; [|cbn [map]; rewrite lower_flip, M; reflexivity].
    rewrite <- app_assoc. cbn [length skipn app]. do 3 f_equal. f_equal; [|lia]. f_equal. lia.
Qed.

Lemma zlen_lower_map (l l' : list Z) : map lower l' = map lower l -> zlen l' = zlen l.
Proof. intros H. apply (f_equal (@length Z)) in H. rewrite !map_length in H. unfold zlen. lia. Qed.
Lemma zlen_dots_cons l n : zlen (dots (l :: n)) = zlen l + 1 + zlen (dots n).
Proof. unfold dots. cbn [map concat]. rewrite !zlen_app. reflexivity. Qed.
Lemma dots_cons l n : dots (l :: n) = l ++ 46 :: dots n.
Proof. unfold dots. cbn [map concat]. rewrite <- app_assoc. reflexivity. Qed.

Lemma h2d_loop_ok R a : forall n fuel X Y r, n <> [] -> Forall text_label n -> zlen X + 1 + zlen (dots n) <= a -> a + 2 <= zlen X + zlen Y -> (length n <= fuel)%nat ->
  exists n' Y', h2d_loop fuel (dots n) (X ++ Y) (zlen X) (zlen X + 1) a R r = Ok (Some (X ++ wire n' ++ Y', zlen X + zlen (wire n'))) /\ lower_name n' = lower_name n.
Proof.
  induction n as [|l n IH]; intros fuel X Y r NE H L1 L2 F; [contradiction|]. destruct fuel as [|fuel]; [cbn [length] in F; lia|]. inversion H as [|? ? ((G1 & G2) & G3) H']; subst.
  rewrite zlen_dots_cons in L1. pose proof (zlen_nonneg (dots n)). pose proof (zlen_nonneg X). destruct Y as [|y Y]; [change (zlen (@nil Z)) with 0 in L2; lia|]. rewrite zlen_cons in L2.
  rewrite dots_cons. cbn [h2d_loop].
  destruct (h2d_label_ok R a (dots n) l (X ++ [y]) Y 0 r G3) as (l' & r' & E & M); [lia|rewrite zlen_app; change (zlen [y]) with 1; lia|lia|].
  rewrite <- app_assoc, zlen_app in E. change (zlen [y]) with 1 in E. cbn [app] in E. rewrite E. cbn [bind]. clear E. rewrite <- app_assoc. cbn [app]. rewrite wr_mid. cbn [bind]. change (negb (at_z (46 :: dots n) =? 46)) with false. cbv iota zeta.
  pose proof (zlen_lower_map _ _ M) as LM. set (Y1 := skipn (length l) Y). assert (zlen Y1 = zlen Y - zlen l) as LY1 by (unfold Y1, zlen in *; rewrite skipn_length; lia). rewrite Z.add_0_l.
  destruct n as [|l2 n2].
  - change (dots []) with (@nil Z). change (at_z [] =? 0) with true. cbv iota. destruct Y1 as [|y1 Y2]; [change (zlen (@nil Z)) with 0 in LY1; lia|].
    replace (X ++ zlen l :: l' ++ y1 :: Y2) with ((X ++ zlen l :: l') ++ y1 :: Y2) by (rewrite <- app_assoc; reflexivity). rewrite wr_next by (rewrite zlen_app, zlen_cons; lia). cbn [bind].
    exists [l'], Y2. split; [|unfold lower_name, lower_label; cbn [map]; rewrite M; reflexivity]. cbn [wire]. rewrite LM. f_equal. f_equal. f_equal; [rewrite <- !app_assoc; cbn [app]; rewrite <- app_assoc; reflexivity|rewrite zlen_cons, zlen_app; change (zlen [0]) with 1; lia].
  - assert (at_z (dots (l2 :: n2)) <> 0 /\ dots (l2 :: n2) <> []) as (NZ & NN).
    { rewrite dots_cons. inversion H' as [|? ? ((A1 & A2) & A3) A4]; subst. destruct l2 as [|c2 l2]; [change (zlen (@nil Z)) with 0 in A1; lia|]. cbn [app at_z]. inversion A3 as [|? ? (? & ?) ?]; subst. split; [assumption|discriminate]. }
    replace (at_z (dots (l2 :: n2)) =? 0) with false by lia. replace (zlen l =? 0) with false by lia.
    destruct (IH fuel (X ++ zlen l :: l') Y1 r') as (n' & Y' & E & M'); [discriminate|exact H'|rewrite zlen_app, zlen_cons; lia|rewrite zlen_app, zlen_cons; lia|cbn [length] in *; lia|].
    assert (zlen (X ++ zlen l :: l') = zlen X + 1 + zlen l) as LX by (rewrite zlen_app, zlen_cons; lia). rewrite LX in E. rewrite <- app_assoc in E. cbn [app] in E. rewrite E.
    exists (l' :: n'), Y'. split; [|unfold lower_name in *; cbn [map]; unfold lower_label at 1 3; rewrite M, M'; reflexivity]. cbn [wire]. rewrite LM. do 2 f_equal. f_equal; [rewrite <- !app_assoc; cbn [app]; rewrite <- app_assoc; reflexivity|rewrite zlen_cons, zlen_app; lia].
Qed.

Lemma human2DNS_ok J R n : n <> [] -> Forall text_label n -> zlen (dots n) <= 256 -> exists n', human2DNS J R (dots n) = Ok (Some (wire n')) /\ lower_name n' = lower_name n.
Proof.
  intros NE H L. unfold human2DNS. pose proof (zlen_nonneg (dots n)). rewrite Z.min_l by lia. set (a := zlen (dots n) + 1). cbv zeta.
  destruct (wr_len (mkjunk J (a + 2)) a 0) as (m & E & Lm); [rewrite zlen_mkjunk by lia; lia|]. rewrite E. cbn [bind]. rewrite zlen_mkjunk in Lm by lia.
  assert (length n <= length (dots n))%nat as LN.
  { clear. induction n as [|l n IH]; [reflexivity|]. rewrite dots_cons, app_length. cbn [length]. lia. }
  destruct (h2d_loop_ok R a n (S (length (dots n))) [] m 0%nat NE H) as (n' & Y' & E2 & M); [change (zlen (@nil Z)) with 0; lia|change (zlen (@nil Z)) with 0; lia|lia|]. cbn [app] in E2. change (zlen (@nil Z)) with 0 in E2. change (0 + 1) with 1 in E2. 
  rewrite E2. cbn [bind]. exists n'. split; [|exact M]. pose proof (zlen_nonneg Y'). pose proof (zlen_nonneg (wire n')). replace (zlen (wire n' ++ Y') <? 0 + zlen (wire n')) with false by (rewrite zlen_app; lia). rewrite zslice_front by lia. reflexivity.
Qed.

(** ** All texts *)
Lemma h2d_label_all R a : forall z m p len r, Forall (fun c => c <> 0) z -> zlen m = a + 2 -> 0 <= p <= a -> 0 <= len < 64 ->
  exists o, h2d_label z m p a len R r = Ok o /\
  match o with
  | None => True
  | Some (z', m', p', len', r') => exists l, z = l ++ z' /\ Forall (fun c => c <> 46 /\ c <> 0) l /\ len' = len + zlen l /\ len' <= 63 /\ zlen m' = zlen m /\ p' = p + zlen l /\ p' <= a /\ (zlen l = 0 \/ p' < a)
  end.
Proof.
  induction z as [|c z IH]; intros m p len r H Lm Hp Hlen; cbn [h2d_label].
  - eexists. split; [reflexivity|]. cbv beta iota. exists []. cbn [app]. change (zlen (@nil Z)) with 0. repeat split; try lia. constructor.
  - inversion H; subst. destruct ((p <? a) && negb (c =? 46) && (len <? 64)) eqn:E.
    + cbv zeta. wr_step m p (flip_case c (R r)) L1. destruct ((64 <=? len + 1) || (at_z z =? 0) || (a <=? p + 1)) eqn:E2; [eexists; split; [reflexivity|exact Logic.I]|].
      destruct (IH m0 (p + 1) (len + 1) (if uses_bit c then S r else r)) as (o & E3 & X); [assumption|lia|lia|lia|]. exists o. split; [exact E3|]. destruct o as [((((z', m'), p'), len'), r')|]; [|exact Logic.I]. destruct X as (l & -> & X1 & X2 & X3 & X4 & X5 & X6 & X7).
      exists (c :: l). rewrite zlen_cons. split; [reflexivity|]. split; [constructor; [split; [lia|assumption]|assumption]|]. repeat split; lia.
    + eexists. split; [reflexivity|]. cbv beta iota. exists []. cbn [app]. change (zlen (@nil Z)) with 0. repeat split; try lia. constructor.
Qed.
Lemma h2d_loop_all R a : forall fuel z m label r, bytes z -> Forall (fun c => c <> 0) z -> zlen m = a + 2 -> 0 <= label < a -> (length z < fuel)%nat ->
  exists o, h2d_loop fuel z m label (label + 1) a R r = Ok o /\
  match o with None => True | Some (m', p') => zlen m' = zlen m /\ 0 <= p' <= zlen m' /\ exists n rest, z = dots n ++ rest /\ Forall text_label n /\ (rest = [] /\ n <> [] \/ exists t, rest = 46 :: t) end.
Proof.
  induction fuel as [|fuel IH]; intros z m label r BZ H Lm Hl F; [lia|]. cbn [h2d_loop].
  destruct (h2d_label_all R a z m (label + 1) 0 r H Lm) as (o & E & X); [lia|lia|]. rewrite E. cbn [bind]. clear E. destruct o as [((((z', m'), p'), len'), r')|]; [|eexists; split; [reflexivity|exact Logic.I]].
  destruct X as (l & -> & X1 & X2 & X3 & X4 & X5 & X6 & X7). pose proof (zlen_nonneg l). wr_step m' label len' L1.
  destruct (at_z z' =? 46) eqn:E46; cbn [negb]; [|eexists; split; [reflexivity|exact Logic.I]]. cbv zeta.
  destruct z' as [|c z']; [discriminate E46|]. cbn [at_z] in E46. assert (c = 46) as -> by lia. apply Forall_app in H as (H1 & H2). inversion H2; subst. apply bytes_app in BZ as (BZ1 & BZ2). inversion BZ2; subst.
  destruct (at_z z' =? 0) eqn:E0.
  - assert (z' = []) as -> by (destruct z' as [|c z']; [reflexivity|]; cbn [at_z] in E0; match goal with H : Forall (fun c => c <> 0) (c :: z') |- _ => inversion H; subst end; lia).
    wr_step m0 (label + 1 + zlen l) 0 L2. eexists. split; [reflexivity|]. cbv beta iota. split; [lia|]. split; [lia|].
    destruct (Z.eq_dec (zlen l) 0) as [Z0|NZ].
    + destruct l; [|rewrite zlen_cons in Z0; pose proof (zlen_nonneg l); lia]. exists [], [46]. split; [reflexivity|]. split; [constructor|]. right. exists []. reflexivity.
    + exists [l], []. split; [rewrite dots_cons, app_nil_r; reflexivity|]. split; [constructor; [|constructor]|left; split; [reflexivity|discriminate]]. split; [split; [lia|assumption]|assumption].
  - destruct (0 + zlen l =? 0) eqn:EL.
    + eexists. split; [reflexivity|]. cbv beta iota. split; [lia|]. split; [lia|]. destruct l; [|rewrite zlen_cons in EL; pose proof (zlen_nonneg l); lia]. exists [], (46 :: z'). split; [reflexivity|]. split; [constructor|]. right. exists z'. reflexivity.
    + destruct (Z_lt_le_dec (label + 1 + zlen l) a) as [HA|HA].
      * destruct (IH z' m0 (label + 1 + zlen l) r') as (o & E & X); [assumption|assumption|lia|lia|rewrite app_length in F; cbn [length] in F; lia|]. exists o. split; [exact E|]. destruct o as [(m2, p2)|]; [|exact Logic.I]. destruct X as (Y1 & Y2 & n & rest & -> & Y3 & Y4).
        split; [lia|]. split; [lia|]. exists (l :: n), rest. split; [rewrite dots_cons, <- app_assoc; reflexivity|]. split; [constructor; [split; [split; [lia|assumption]|assumption]|assumption]|]. destruct Y4 as [(-> & _)|Y4]; [left; split; [reflexivity|discriminate]|right; exact Y4].
      * exfalso. lia.
Qed.
