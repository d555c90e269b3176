(** E-mail addresses in text form. *)
From Verif Require Import CBase Bits ModelDwStr SpecDwStr ProofDwStr SpecNames SpecMessage SpecAcl SpecQuery ModelJsStr SpecJsStr ProofJsStr ProofJsSearch
  ModelQueries SpecQueries ProofQueries ProofHname.

Lemma ll_email l n F count c t rest : ~ In 64 l -> dotless n -> ~ In 46 t ->
  count - 1 = zlen l + 1 + zlen (dots n) + zlen t -> count <= 257 -> (length l + 1 + length (dots n ++ t) <= F)%nat ->
  exists ok fa cc m, lengths_loop F count true (c :: l ++ 64 :: dots n ++ t ++ rest) 0 0 0 = Ok (ok, fa, cc, m) /\
    (if label_len l && forallb label_len n then ok = true /\ fa = false /\ cc = count - 1 /\ m = zlen l :: l ++ after 64 n ++ t ++ rest else ok = false).
Proof.
  intros NI D T CC C2 FF. pose proof (zlen_nonneg l). pose proof (zlen_nonneg (dots n)). pose proof (zlen_nonneg t).
  assert (F = (length l + (1 + (F - length l - 1)))%nat) as EF by lia.
  rewrite EF, (ll_chunk l); [|exact NI|lia| |lia|lia].
  2:{ intros i Hi. change (c :: l ++ 64 :: dots n ++ t ++ rest) with ([c] ++ l ++ (64 :: dots n ++ t ++ rest)). exact (zget_mid [c] l _ i Hi). }
  rewrite !Z.add_0_l. cbn [Nat.add lengths_loop]. replace ((zlen l <? 256) && (zlen l <? count)) with true by lia. cbv zeta.
  assert (c :: l ++ 64 :: dots n ++ t ++ rest = (c :: l) ++ 64 :: dots n ++ t ++ rest) as EM by reflexivity.
  assert (rd (c :: l ++ 64 :: dots n ++ t ++ rest) (zlen l + 1) = Ok 64) as G by (rewrite EM, <- (zlen_cons c l); apply rd_here).
  rewrite G. cbn [bind]. change (64 =? 64) with true. cbv match.
  unfold label_len at 1. destruct ((zlen l <? 1) || (63 <? zlen l)) eqn:LL.
  { replace ((1 <=? zlen l) && (zlen l <=? 63)) with false by lia. cbn [andb]. do 4 eexists. split; reflexivity. }
  replace ((1 <=? zlen l) && (zlen l <=? 63)) with true by lia. cbn [andb].
  rewrite (wr_here [] c (l ++ 64 :: dots n ++ t ++ rest) (zlen l) : wr (c :: l ++ 64 :: dots n ++ t ++ rest) 0 (zlen l) = _). cbn [bind app].
  destruct (Z.eqb_spec (zlen l + 1) (count - 1)) as [E|NE].
  - assert (dots n = [] /\ t = []) as (E1 & E2).
    { assert (zlen (dots n) = 0 /\ zlen t = 0) as (Z1 & Z2) by lia. unfold zlen in Z1, Z2. split; apply length_zero_iff_nil; lia. }
    assert (n = []) as -> by (destruct n as [|l' n']; [reflexivity|rewrite dots_cons in E1; destruct l'; discriminate]).
    subst t. do 4 eexists. split; [reflexivity|]. cbn [forallb after app]. split; [reflexivity|]. split; [reflexivity|]. split; [lia|reflexivity].
  - replace (zlen l + 1) with (zlen (zlen l :: l)) by (rewrite zlen_cons; lia).
    destruct (ll_labels n (F - length l - 1) count (zlen l :: l) 64 t rest) as (ok & cc & m & R & RR); try assumption.
    + intros X. apply app_eq_nil in X as (X1 & X2). rewrite X1, X2 in *. change (zlen (@nil Z)) with 0 in *. lia.
    + rewrite zlen_cons. lia.
    + lia.
    + cbn [app] in R. rewrite R. do 4 eexists. split; [reflexivity|]. destruct (forallb label_len n); [|exact RR]. destruct RR as (-> & -> & ->). cbn [app]. auto.
Qed.
Lemma split_at b : ~ In 64 b \/ exists l d, b = l ++ 64 :: d /\ ~ In 64 l.
Proof.
  induction b as [|x b IH]; [left; intros []|]. destruct (Z.eq_dec x 64) as [-> |N]; [right; exists [], b; split; [reflexivity|intros []]|].
  destruct IH as [IH|(l & d & -> & NI)]; [left; intros [X|X]; [congruence|tauto]|right; exists (x :: l), d; split; [reflexivity|intros [X|X]; [congruence|tauto]]].
Qed.
Lemma email_good s c l n : holding s (c :: email_text l n) -> email_ok l n ->
  exists s', email_2rfc1035 s = Ok (1, s') /\ holding s' (wire (l :: n)) /\ j_max s' = j_max s.
Proof.
  intros H (G & NE & NI & D & L). destruct (st_mem s c _ H) as (r & EM & BR & BB & BC & EC & LL & LM). destruct H as (W & S1 & _).
  unfold email_text in *. rewrite !zlen_app in *. change (zlen [64]) with 1 in *. pose proof (zlen_nonneg (dots n)). pose proof (zlen_nonneg r).
  pose proof (good_lens _ G) as GL. cbn [forallb] in GL. pose proof GL as GL2. apply andb_true_iff in GL as (GL & _). unfold label_len in GL.
  unfold email_2rfc1035. rewrite octet_ok by assumption. cbn [negb]. replace (j_count s <? 1) with false by lia.
  rewrite EM. destruct (zget_some (c :: (l ++ [64] ++ dots n) ++ r) 1) as (b1 & E1). { rewrite zlen_cons, !zlen_app. change (zlen [64]) with 1. lia. }
  rewrite (rd_of_zget _ _ _ E1). cbn [bind].
  assert (j_count s =? 2 = false) as X2.
  { destruct n as [|l' n']; [congruence|]. apply Forall_cons_iff in G as (_ & G). apply Forall_cons_iff in G as ((G1 & _) & _). rewrite dots_cons, zlen_app, zlen_cons in *. pose proof (zlen_nonneg (dots n')). lia. }
  rewrite X2. cbn [andb].
  destruct (ll_email l n 258 (j_count s) c [] r) as (ok & fa & cc & m & R & RR); try assumption.
  { intros []. } { change (zlen (@nil Z)) with 0. lia. } { lia. } { rewrite app_nil_r. unfold zlen in L. lia. }
  assert (c :: (l ++ [64] ++ dots n) ++ r = c :: l ++ 64 :: dots n ++ [] ++ r) as EQ by (rewrite <- ?app_assoc; cbn [app]; reflexivity).
  rewrite EQ, R. cbn [bind]. rewrite GL2 in RR. destruct RR as (-> & -> & -> & ->). cbn [negb]. replace (j_count s - 1 <? 256) with true by lia. cbn [negb app].
  destruct n as [|l' n]; [congruence|]. cbn [after].
  assert (zlen l :: l ++ (labels (l' :: n) ++ [46]) ++ r = labels (l :: l' :: n) ++ 46 :: r) as EQ2.
  { rewrite (labels_cons l). cbn [app]. rewrite <- ?app_assoc. reflexivity. }
  rewrite EQ2. replace (j_count s - 1) with (zlen (labels (l :: l' :: n))) by (rewrite labels_cons, zlen_cons, zlen_app, <- zlen_dots_labels; lia).
  rewrite rd_here. cbn [bind]. change (46 =? 46) with true. cbv match. rewrite wr_here. cbn [bind].
  eexists. split; [reflexivity|]. split; [|reflexivity]. rewrite <- set_count_set_mem. apply (hold_new s _ _ _ r); try assumption.
  - rewrite wire_labels, <- app_assoc. reflexivity.
  - apply bytes_app. split; [apply bytes_labels, G|]. constructor; [unfold byte; lia|exact BR].
  - rewrite EM, zlen_cons, !zlen_app, zlen_cons, labels_cons, zlen_cons, zlen_app, <- zlen_dots_labels. change (zlen [64]) with 1. lia.
  - rewrite wire_labels, zlen_app. change (zlen [0]) with 1. rewrite labels_cons, zlen_cons, zlen_app, <- zlen_dots_labels. lia.
  - lia.
Qed.
Lemma email_root s c : holding s [c; 46] -> exists s', email_2rfc1035 s = Ok (1, s') /\ holding s' (wire []) /\ j_max s' = j_max s.
Proof.
  intros H. destruct (st_mem s c [46] H) as (r & EM & BR & BB & BC & EC & LL & LM). destruct H as (W & S1 & _). change (zlen [46]) with 1 in *.
  unfold email_2rfc1035. rewrite octet_ok by assumption. cbn [negb]. replace (j_count s <? 1) with false by lia.
  rewrite EM. cbn [app]. change (rd (c :: 46 :: r) 1) with (Ok 46). cbn [bind].
  replace (j_count s =? 2) with true by lia. change (46 =? 46) with true. cbn [andb]. rewrite (wr_here [] c (46 :: r) 0 : wr (c :: 46 :: r) 0 0 = _). cbn [bind app].
  eexists. split; [reflexivity|]. split; [|reflexivity]. apply (hold_new s _ _ _ (46 :: r)); try assumption; try reflexivity.
  - constructor; [unfold byte; lia|]. constructor; [unfold byte; lia|exact BR].
  - rewrite EM. rewrite !zlen_cons. rewrite zlen_app. change (zlen [46]) with 1. lia.
  - lia.
Qed.
Lemma ll_one_at F c x r : lengths_loop (S (S F)) 1 true (c :: x :: r) 0 0 0 = if x =? 64 then Ok (false, true, 1, c :: x :: r) else Ok (true, true, 1, c :: x :: r).
Proof. cbn [lengths_loop]. change (rd (c :: x :: r) (0 + 1)) with (Ok x). cbn -[Z.eqb]. destruct (x =? 64); reflexivity. Qed.
Lemma set_mem_id s : set_mem s (j_mem s) = s. Proof. destruct s; reflexivity. Qed.
(** What is accepted: an address, or what hname_2rfc1035 takes. *)
Lemma email_exact s t : holding s t ->
  exists r s', email_2rfc1035 s = Ok (r, s') /\ j_wf s' /\ j_size s' = 1 /\ j_max s' = j_max s /\
    (r <> -1 -> r <> -2 -> (exists c, r = 1 /\ t = [c; 46]) \/ (exists c l n, r = 1 /\ t = c :: email_text l n /\ email_ok l n) \/
       (hname_2rfc1035 0 s = Ok (r, s') /\ exists c n, t = c :: text n /\ type_of c = Some r /\ text_ok n)).
Proof.
  intros H. assert (j_wf s /\ j_size s = 1) as (W & S1) by (destruct H as (? & ? & _); tauto).
  destruct t as [|c b].
  { destruct (holding_mem s _ H) as (C & _). change (zlen (@nil Z)) with 0 in C. unfold email_2rfc1035. rewrite octet_ok by assumption. cbn [negb].
    replace (j_count s <? 1) with true by lia. do 2 eexists. split; [reflexivity|]. split; [exact W|]. split; [exact S1|]. split; [reflexivity|]. unfold JS_ERROR. congruence. }
  destruct (zlist_eq_dec b [46]) as [-> |NR].
  { destruct (email_root s c H) as (s' & -> & (W' & S' & _) & M). do 2 eexists. split; [reflexivity|]. split; [exact W'|]. split; [exact S'|]. split; [exact M|].
    intros _ _. left. exists c. split; reflexivity. }
  destruct (st_mem s c b H) as (r & EM & BR & BB & BC & EC & LL & LM). pose proof (zlen_nonneg b).
  unfold email_2rfc1035. rewrite octet_ok by assumption. cbn [negb]. replace (j_count s <? 1) with false by lia.
  destruct (zget_some (j_mem s) 1) as (b1 & E1). { rewrite (jw_mem s W), S1. lia. }
  rewrite (rd_of_zget _ _ _ E1). cbn [bind].
  assert ((j_count s =? 2) && (b1 =? 46) = false) as C1.
  { destruct (Z.eqb_spec b1 46) as [-> |]; [|apply andb_false_r]. destruct (Z.eqb_spec (j_count s) 2) as [E|]; [|reflexivity]. exfalso. apply NR.
    assert (zlen b = 1) as L1 by lia. destruct b as [|x [|y d]]; [discriminate| |rewrite !zlen_cons in L1; pose proof (zlen_nonneg d); lia].
    rewrite EM in E1. cbn in E1. injection E1 as ->. reflexivity. }
  rewrite C1.
  destruct (ll_safe 258 (j_count s) true (j_mem s) 0 0 0) as (ok & fa & cc & m & R & B1 & B2 & B3 & B4 & B5 & _ & B7); try lia.
  { apply (jw_bytes s W). } { rewrite (jw_mem s W), S1. lia. }
  rewrite R. cbn [bind]. destruct ok; cbn [negb].
  2:{ do 2 eexists. split; [reflexivity|]. split; [apply wf_set_mem; assumption|]. split; [exact S1|]. split; [reflexivity|]. unfold JS_ERROR. congruence. }
  destruct fa.
  { rewrite (B7 eq_refl), set_mem_id. destruct (hname_exact s _ H) as (r' & s' & E & W' & S' & M & X). exists r', s'. split; [exact E|]. split; [exact W'|]. split; [exact S'|]. split; [exact M|].
    intros N1 N2. right. right. split; [exact E|]. exact (X N1 N2). }
  destruct (cc <? 256) eqn:G256; cbn [negb].
  2:{ do 2 eexists. split; [reflexivity|]. split; [apply wf_set_mem; assumption|]. split; [exact S1|]. split; [reflexivity|]. unfold JS_ERROR. congruence. }
  destruct (zget_some m cc) as (x & EX). { rewrite B2, (jw_mem s W), S1. lia. }
  rewrite (rd_of_zget _ _ _ EX). cbn [bind].
  destruct (x =? 46) eqn:X46.
  2:{ do 2 eexists. split; [reflexivity|]. split; [apply wf_set_mem; assumption|]. split; [exact S1|]. split; [reflexivity|]. unfold JS_ERROR. congruence. }
  rewrite wr_ok by (rewrite B2, (jw_mem s W), S1; lia). cbn [bind].
  do 2 eexists. split; [reflexivity|]. split; [apply wf_set_mem; [exact W| |rewrite zlen_zupd; exact B2]; apply bytes_zupd; [exact B1|unfold byte; lia]|]. split; [exact S1|]. split; [reflexivity|].
  intros _ _. right. left.
  assert (j_count s <= 256) as CB.
  { destruct (Z.leb_spec (j_count s) 256) as [|CB]; [assumption|]. rewrite B5 in G256 by (reflexivity || lia). lia. }
  destruct (split_at b) as [NA|(l & d & -> & NI)].
  { exfalso. destruct b as [|y b].
    - (* nothing but the first octet *)
      change (zlen (@nil Z)) with 0 in *. cbn [app] in *. replace (j_count s) with 1 in R by lia. rewrite EM in R. destruct r as [|z r]; [change (zlen (@nil Z)) with 0 in *; lia|].
      change 258%nat with (S (S 256)) in R. rewrite ll_one_at in R. destruct (z =? 64); discriminate.
    - rewrite (ll_end (y :: b)) in R; try assumption; try discriminate; try lia.
      + unfold zlen in *. lia.
      + intros i Hi. rewrite EM. exact (zget_mid [c] (y :: b) r i Hi). }
  destruct (split_dots d) as (n & t & -> & D & NT). rewrite zlen_app, zlen_cons, zlen_app in *. pose proof (zlen_nonneg l). pose proof (zlen_nonneg (dots n)). pose proof (zlen_nonneg t).
  destruct (ll_email l n 258 (j_count s) c t r) as (ok & fa & c' & m' & R' & RR); try assumption; try lia.
  { rewrite app_length. unfold zlen in *. lia. }
  assert (c :: (l ++ 64 :: dots n ++ t) ++ r = c :: l ++ 64 :: dots n ++ t ++ r) as EQ by (rewrite <- ?app_assoc; cbn [app]; rewrite <- ?app_assoc; reflexivity).
  rewrite EM, EQ, R' in R. injection R as -> -> -> ->.
  destruct (label_len l && forallb label_len n) eqn:GL; [|discriminate]. destruct RR as (_ & _ & -> & ->).
  assert (zlen (after 64 n) = 1 + zlen (dots n)) as LA.
  { destruct n as [|l' n]; [reflexivity|]. cbn [after]. rewrite zlen_app, zlen_dots_labels. change (zlen [46]) with 1. lia. }
  destruct t as [|y t].
  - destruct n as [|l' n].
    + exfalso. change (dots []) with (@nil Z) in *. change (zlen (@nil Z)) with 0 in *. cbn [after app] in EX.
      replace (j_count s - 1) with (zlen (zlen l :: l)) in EX by (rewrite zlen_cons; lia).
      change (zlen l :: l ++ 64 :: r) with ((zlen l :: l) ++ 64 :: r) in EX. rewrite zget_app_r in EX by lia. rewrite Z.sub_diag in EX. cbn in EX. injection EX as <-. discriminate.
    + rewrite app_nil_r in *. change (zlen (@nil Z)) with 0 in *. exists c, l, (l' :: n). split; [reflexivity|]. split; [reflexivity|]. split.
      * apply lens_good; [exact GL|]. apply bytes_app in BB as (BB1 & BB2). apply Forall_cons_iff in BB2 as (_ & BB2). constructor; [exact BB1|apply bytes_dots, BB2].
      * split; [discriminate|]. split; [exact NI|]. split; [exact D|]. unfold email_text. rewrite !zlen_app. change (zlen [64]) with 1. lia.
  - exfalso. destruct (@exists_last _ (y :: t)) as (t0 & z & ET); [discriminate|]. rewrite ET in *. rewrite zlen_app in *. change (zlen [z]) with 1 in *.
    assert (zlen l :: l ++ after 64 n ++ (t0 ++ [z]) ++ r = ((zlen l :: l) ++ after 64 n ++ t0) ++ z :: r) as EQ3 by (rewrite <- ?app_assoc; cbn [app]; rewrite <- ?app_assoc; reflexivity).
    rewrite EQ3 in EX. replace (j_count s - 1) with (zlen ((zlen l :: l) ++ after 64 n ++ t0)) in EX by (rewrite !zlen_app, zlen_cons; lia).
    rewrite zget_app_r in EX by lia. rewrite Z.sub_diag in EX. cbn in EX. injection EX as <-. apply NT. apply in_or_app. right. left. lia.
Qed.

(** With and without stars, nothing goes wrong on any string. *)
Lemma hname_safe star s : j_wf s -> exists r s', hname_2rfc1035 star s = Ok (r, s') /\ j_wf s'.
Proof.
  intros W. unfold hname_2rfc1035. destruct (octet_string s) eqn:O; cbn [negb]; [|do 2 eexists; split; [reflexivity|exact W]].
  assert (j_size s = 1) as S1 by (unfold octet_string in O; lia). pose proof (jw_mem s W) as LM. rewrite S1 in LM. pose proof (jw_count s W). pose proof (jw_bytes s W) as BM.
  destruct (j_count s <? 1) eqn:C; [do 2 eexists; split; [reflexivity|exact W]|].
  destruct (zget_some (j_mem s) 0 ltac:(lia)) as (b0 & E0). rewrite (rd_of_zget _ _ _ E0). cbn [bind]. destruct (type_of b0) as [ty|]; [|do 2 eexists; split; [reflexivity|exact W]].
  destruct (zget_some (j_mem s) 1 ltac:(lia)) as (b1 & E1). rewrite (rd_of_zget _ _ _ E1). cbn [bind].
  assert (forall m i v n, zlen m = zlen (j_mem s) -> bytes m -> byte v -> 0 <= n <= j_max s -> j_wf (set_count (set_mem s (zupd m i v)) n)) as WN.
  { intros m i v n L B V N. apply wf_set_count; [|exact N]. apply wf_set_mem; [exact W|apply bytes_zupd; assumption|rewrite zlen_zupd; exact L]. }
  destruct ((b1 =? 46) && (j_count s =? 2)).
  { rewrite wr_ok by lia. cbn [bind]. do 2 eexists. split; [reflexivity|]. apply WN; try reflexivity; try assumption; try lia. unfold byte; lia. }
  destruct ((b1 =? 42) && (j_count s =? 2) && (star =? 1)).
  { rewrite wr_ok by lia. cbn [bind]. do 2 eexists. split; [reflexivity|]. apply WN; try reflexivity; try assumption; try lia. unfold byte; lia. }
  destruct (ll_safe 258 (j_count s) false (j_mem s) 0 0 0) as (ok & fa & cc & m & -> & B1 & B2 & B3 & B4 & _); try assumption; try lia.
  cbn [bind]. assert (j_wf (set_mem s m)) as WM by (apply wf_set_mem; assumption).
  destruct ok; cbn [negb]; [|do 2 eexists; split; [reflexivity|exact WM]]. destruct (cc <? 256) eqn:G; cbn [negb]; [|do 2 eexists; split; [reflexivity|exact WM]].
  destruct (zget_some m cc ltac:(lia)) as (x & EX). rewrite (rd_of_zget _ _ _ EX). cbn [bind]. destruct (x =? 46).
  { rewrite wr_ok by lia. cbn [bind]. do 2 eexists. split; [reflexivity|]. rewrite <- set_count_set_mem. apply WN; try assumption. unfold byte; lia. }
  destruct ((1 <? cc) && (x =? 42) && (1 <? j_count s) && (star =? 1)) eqn:G2; [|do 2 eexists; split; [reflexivity|exact WM]].
  rewrite wr_ok by lia. cbn [bind]. do 2 eexists. split; [reflexivity|]. apply WN; try assumption; try lia. unfold byte; lia.
Qed.
