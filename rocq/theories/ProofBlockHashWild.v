(** The wildcard search of DwUdpSocket.c 780-820. *)
From Verif Require Import CBase Bits SpecNames SpecBlockHash ModelBlockHash ProofBlockHashRead ProofBlockHashMake.

(** Labels without the final root. *)
Fixpoint body (n : list (list Z)) : list Z :=
  match n with [] => [] | l :: r => zlen l :: l ++ body r end.

Lemma wire_body n : wire n = body n ++ [0].
Proof. induction n as [|l r IH]; cbn [wire body app]; [reflexivity|]. rewrite IH, app_assoc. reflexivity. Qed.
Lemma body_app a b : body (a ++ b) = body a ++ body b.
Proof. induction a as [|l r IH]; cbn [body app]; [reflexivity|]. rewrite IH, app_assoc. reflexivity. Qed.
Lemma wire_app a b : wire (a ++ b) = body a ++ wire b.
Proof. rewrite !wire_body, body_app, app_assoc. reflexivity. Qed.

Definition pos (n : list (list Z)) (i : nat) : Z :=
  if (i <=? length n)%nat then zlen (body (firstn (length n - i) n)) else 0.

Lemma labels_spec ty : zlen ty = 2 -> forall post pre fuel,
  good_name (pre ++ post) -> (length post < fuel)%nat ->
  bl_labels fuel (wire (pre ++ post) ++ ty) (zlen (body pre)) (pos pre 1) (pos pre 2) (pos pre 3)
  = Ok (pos (pre ++ post) 1, pos (pre ++ post) 2, pos (pre ++ post) 3).
Proof.
  intros Hty. induction post as [|l post IH]; intros pre fuel HG HF;
    (destruct fuel as [|fuel]; [cbn in HF; lia|]); cbn [bl_labels].
  - rewrite wire_app. rewrite !zlen_app. change (zlen (wire [])) with 1. pose proof (zlen_nonneg (body pre)).
    replace (zlen (body pre) <? zlen (body pre) + 1 + zlen ty - 2) with true by lia. cbn [negb].
    rewrite <- app_assoc. cbn [wire app]. rewrite (rd_of_zget _ _ 0 (zget_mid _ _ _)). cbn [bind].
    rewrite app_nil_r. reflexivity.
  - rewrite wire_app, !zlen_app. cbn [wire]. rewrite zlen_cons, zlen_app, wire_body, zlen_app.
    change (zlen [0]) with 1. pose proof (zlen_nonneg (body pre)). pose proof (zlen_nonneg l). pose proof (zlen_nonneg (body post)).
    replace (zlen (body pre) <? _) with true by lia. cbn [negb].
    rewrite <- app_assoc. cbn [app]. rewrite (rd_of_zget _ _ (zlen l) (zget_mid _ _ _)). cbn [bind].
    assert (1 <= zlen l <= 63) as Hl.
    { unfold good_name in HG. rewrite Forall_forall in HG. apply (HG l). apply in_app_iff. right. left. reflexivity. }
    replace ((zlen l <? 1) || (63 <? zlen l)) with false by lia.
    specialize (IH (pre ++ [l]) fuel). rewrite <- app_assoc in IH. cbn [app] in IH.
    assert (zlen (body (pre ++ [l])) = zlen (body pre) + zlen l + 1) as P0
      by (rewrite body_app; cbn [body]; repeat rewrite ?zlen_app, ?zlen_cons, ?zlen_nil; lia).
    assert (pos (pre ++ [l]) 1 = zlen (body pre)) as P1.
    { unfold pos. rewrite app_length. cbn [length]. replace (1 <=? length pre + 1)%nat with true by lia.
      replace (length pre + 1 - 1)%nat with (length pre) by lia. rewrite firstn_app, Nat.sub_diag, firstn_all, app_nil_r. reflexivity. }
    assert (pos (pre ++ [l]) 2 = pos pre 1) as P2.
    { unfold pos. rewrite app_length. cbn [length]. destruct (1 <=? length pre)%nat eqn:E.
      - replace (2 <=? length pre + 1)%nat with true by lia.
        replace (length pre + 1 - 2)%nat with (length pre - 1)%nat by lia.
        rewrite firstn_app. replace (length pre - 1 - length pre)%nat with 0%nat by lia. cbn [firstn]. rewrite app_nil_r. reflexivity.
      - replace (2 <=? length pre + 1)%nat with false by lia. reflexivity. }
    assert (pos (pre ++ [l]) 3 = pos pre 2) as P3.
    { unfold pos. rewrite app_length. cbn [length]. destruct (2 <=? length pre)%nat eqn:E.
      - replace (3 <=? length pre + 1)%nat with true by lia.
        replace (length pre + 1 - 3)%nat with (length pre - 2)%nat by lia.
        rewrite firstn_app. replace (length pre - 2 - length pre)%nat with 0%nat by lia. cbn [firstn]. rewrite app_nil_r. reflexivity.
      - replace (3 <=? length pre + 1)%nat with false by lia. reflexivity. }
    rewrite P0, P1, P2, P3 in IH.
    rewrite wire_app in IH. cbn [wire] in IH. rewrite wire_body in IH. rewrite <- app_assoc in IH. cbn [app] in IH.
    apply IH; [exact HG|cbn in HF; lia].
Qed.

Section W.
Context (b : blockhash) (listed : list (list Z)).
Context (HB : forall q, zlen q <= 65280 ->
   dbh_has_string b q = Ok (if existsb (zlist_eqb q) listed then 1 else 0)).

Lemma mem_In q : existsb (zlist_eqb q) listed = true <-> In q listed.
Proof.
  rewrite existsb_exists. split.
  - intros (x & Hx & E). apply zlist_eqb_spec in E. now subst.
  - intros H. exists q. split; [exact H|apply zlist_eqb_refl].
Qed.

Lemma body_pos n : good_name n -> n <> [] -> 0 < zlen (body n).
Proof. destruct n as [|l r]; [congruence|]. intros _ _. cbn [body]. rewrite zlen_cons, zlen_app.
  pose proof (zlen_nonneg l). pose proof (zlen_nonneg (body r)). lia. Qed.

Lemma try_spec n ty i : good_name n -> zlen ty = 2 -> zlen (wire n) <= 65280 -> (1 <= i)%nat ->
  bl_try b (wire n ++ ty) (pos n i)
  = Ok ((i <? length n)%nat && existsb (zlist_eqb (wire (skipn (length n - i) n))) listed).
Proof.
  intros HG Hty HL Hi. unfold bl_try, pos.
  destruct (Nat.leb_spec i (length n)) as [H|H].
  2:{ replace (0 <? 0) with false by lia. cbn [andb]. replace (i <? length n)%nat with false by lia. reflexivity. }
  set (k := (length n - i)%nat).
  assert (wire n = body (firstn k n) ++ wire (skipn k n)) as EW by (rewrite <- wire_app, firstn_skipn; reflexivity).
  rewrite EW. rewrite !zlen_app.
  assert (1 <= zlen (wire (skipn k n))) as H1.
  { rewrite wire_body, zlen_app. change (zlen [0]) with 1. pose proof (zlen_nonneg (body (skipn k n))). lia. }
  pose proof (zlen_nonneg (body (firstn k n))) as H2.
  destruct (Nat.ltb_spec i (length n)) as [H3|H3].
  - assert (0 < zlen (body (firstn k n))) as H4.
    { apply body_pos.
      - unfold good_name in *. rewrite <- (firstn_skipn k n) in HG. apply Forall_app in HG. tauto.
      - destruct n as [|l r]; [cbn in H3; lia|]. destruct k eqn:EK; [unfold k in EK; lia|]. cbn. congruence. }
    replace (0 <? _) with true by lia. replace (_ <? _) with true by lia. cbn [andb].
    replace (zslice _ _ _) with (wire (skipn k n)).
    + rewrite HB.
      * cbn [bind]. destruct (existsb _ _); reflexivity.
      * rewrite EW, zlen_app in HL. lia.
    + rewrite <- app_assoc. rewrite zslice_app_r by (rewrite ?zlen_app; lia). rewrite Z.sub_diag.
      replace (_ + _ + _ - _ - 2) with (zlen (wire (skipn k n))) by lia.
      rewrite zslice_app_l by lia. symmetry. apply zslice_all.
  - replace k with 0%nat by (unfold k; lia). cbn [firstn body]. reflexivity.
Qed.

Lemma blocked_spec n ty : good_name n -> zlen ty = 2 -> zlen (wire n) <= 65280 ->
  exists r, in_blocked_hosts b (wire n ++ ty) = Ok r /\ (r = true <-> bl_blocks listed n).
Proof.
  intros HG Hty HL. unfold in_blocked_hosts.
  assert (1 <= zlen (wire n)) as H1.
  { rewrite wire_body, zlen_app. change (zlen [0]) with 1. pose proof (zlen_nonneg (body n)). lia. }
  rewrite zlen_app. replace (2 <? _) with true by lia. cbn [negb].
  replace (zslice _ _ _) with (wire n).
  2:{ replace (zlen (wire n) + zlen ty - 2) with (zlen (wire n)) by lia.
      rewrite zslice_app_l by lia. symmetry. apply zslice_all. }
  rewrite HB by lia. cbn [bind].
  assert (forall i, (1 <= i <= 3)%nat -> (i <? length n)%nat && existsb (zlist_eqb (wire (skipn (length n - i) n))) listed = true -> bl_blocks listed n) as S1.
  { intros i Hi E. apply andb_true_iff in E as [E1 E2]. apply mem_In in E2.
    exists (firstn (length n - i) n), (skipn (length n - i) n). split; [symmetry; apply firstn_skipn|].
    split; [exact E2|]. right. rewrite skipn_length. lia. }
  destruct (existsb (zlist_eqb (wire n)) listed) eqn:E0.
  { exists true. split; [reflexivity|]. split; [|reflexivity]. intros _.
    exists [], n. split; [reflexivity|]. split; [now apply mem_In|now left]. }
  change (if false then 1 else 0) with 0. cbn [Z.eqb].
  pose proof (labels_spec ty Hty n [] (S (length (wire n ++ ty))) HG) as EL.
  cbn [app] in EL. change (zlen (body [])) with 0 in EL. change (pos [] 1) with 0 in EL. change (pos [] 2) with 0 in EL. change (pos [] 3) with 0 in EL.
  rewrite EL.
  2:{ assert (length n <= length (wire n))%nat.
      { clear. induction n as [|l r IH]; cbn [wire length]; [lia|]. rewrite app_length. lia. }
      rewrite app_length. lia. }
  cbn [bind]. rewrite !try_spec by (try assumption; lia). cbn [bind].
  destruct ((1 <? length n)%nat && existsb (zlist_eqb (wire (skipn (length n - 1) n))) listed) eqn:E1.
  { exists true. split; [reflexivity|]. split; [|reflexivity]. intros _. apply (S1 1%nat); [lia|exact E1]. }
  destruct ((2 <? length n)%nat && existsb (zlist_eqb (wire (skipn (length n - 2) n))) listed) eqn:E2.
  { exists true. split; [reflexivity|]. split; [|reflexivity]. intros _. apply (S1 2%nat); [lia|exact E2]. }
  cbn [bind].
  eexists. split; [reflexivity|].
  split; [intros E3; apply (S1 3%nat); [lia|exact E3]|].
  intros (sub & par & EN & HIn & Hc). apply mem_In in HIn.
  destruct sub as [|s0 sub].
  { cbn in EN. subst par. congruence. }
  destruct Hc as [?|Hc]; [discriminate|].
  assert (skipn (length n - length par) n = par) as ES.
  { rewrite EN, app_length. replace (_ - _)%nat with (length (s0 :: sub)) by lia. rewrite skipn_app, skipn_all, Nat.sub_diag. reflexivity. }
  assert (length par < length n)%nat as HLt by (rewrite EN, app_length; cbn; lia).
  assert (length par = 1 \/ length par = 2 \/ length par = 3)%nat as [C|[C|C]] by lia; rewrite C in ES, HLt; rewrite ES in *.
  - replace (1 <? length n)%nat with true in E1 by lia. cbn in E1. congruence.
  - replace (2 <? length n)%nat with true in E2 by lia. cbn in E2. congruence.
  - replace (3 <? length n)%nat with true by lia. exact HIn.
Qed.
End W.

Lemma blocklist_exact f k1 k2 nb junk :
  Forall bl_line_ok f -> bl_names f <> [] ->
  0 <= k1 < 4294967296 -> 0 <= k2 < 4294967296 ->
  (forall n, 0 <= n -> zlen (junk n) = n) ->
  bl_size nb f <= 2147479552 ->
  exists file b,
    block_hash_make (bl_text f) k1 k2 nb junk = Ok file /\
    dbh_make_block_hash file = Ok b /\
    (forall q, zlen q <= 65280 ->
      exists r, dbh_has_string b q = Ok r /\ (r = 1 <-> In q (bl_names f)) /\ (r = 0 <-> ~ In q (bl_names f))) /\
    (forall n t1 t2, good_name n -> zlen (wire n) <= 255 ->
      exists r, in_blocked_hosts b (wire n ++ [t1; t2]) = Ok r /\
        (r = true <-> bl_blocks (bl_names f) n)).
Proof.
  intros Hf Hne Hk1 Hk2 HJ HB.
  destruct (blocklist_roundtrip f k1 k2 nb junk Hf Hne Hk1 Hk2 HJ HB) as (file & b & E1 & E2 & _ & E3).
  exists file, b. split; [exact E1|]. split; [exact E2|]. split.
  - intros q Hq. eexists. split; [apply E3; exact Hq|].
    pose proof (mem_In (bl_names f) q) as M. destruct (existsb _ _).
    + assert (In q (bl_names f)) by (apply M; reflexivity). split; split; intros; try lia; try tauto.
    + assert (~ In q (bl_names f)) by (intros C; apply M in C; discriminate).
      split; split; intros; try lia; try tauto.
  - intros n t1 t2 HG HL. apply blocked_spec; try assumption; try reflexivity. lia.
Qed.

Lemma load_lookup_safe file b q :
  bytes file -> dbh_make_block_hash file = Ok b -> bh_size b <> 0 ->
  exists r, dbh_has_string b q = Ok r /\ (r = -1 \/ r = 0 \/ r = 1).
Proof.
  intros Hf E Hz. apply has_string_ok; [|exact Hz]. exact (make_block_hash_valid _ _ Hf E).
Qed.

Lemma bl_labels_safe query : bytes query -> forall fuel p l1 l2 l3,
  0 <= p -> zlen query + 1 - p <= Z.of_nat fuel -> 0 < Z.of_nat fuel -> safe (bl_labels fuel query p l1 l2 l3).
Proof.
  intros Hq. induction fuel as [|fuel IH]; intros p l1 l2 l3 H0 H1 H2; [lia|]. cbn [bl_labels].
  destruct (Z.ltb_spec p (zlen query - 2)); cbn [negb]; [|apply safe_Ok].
  apply safe_bind_rd; [lia|]. intros v Hv.
  destruct (Z.ltb_spec v 1); cbn [orb]; [apply safe_Ok|].
  destruct (63 <? v); [apply safe_Ok|]. apply IH; lia.
Qed.

Lemma in_blocked_hosts_safe file b query :
  bytes file -> bytes query -> dbh_make_block_hash file = Ok b -> bh_size b <> 0 ->
  safe (in_blocked_hosts b query).
Proof.
  intros Hf Hq E Hz. unfold in_blocked_hosts.
  assert (forall q, exists r, dbh_has_string b q = Ok r) as HS
    by (intros q; destruct (load_lookup_safe file b q Hf E Hz) as (r & ? & _); eauto).
  destruct (2 <? zlen query); cbn [negb]; [|apply safe_Ok].
  destruct (HS (zslice query 0 (zlen query - 2))) as (r & ->). cbn [bind].
  destruct (r =? 1); [apply safe_Ok|].
  assert (safe (bl_labels (S (length query)) query 0 0 0 0)) as SL
    by (apply bl_labels_safe; unfold zlen; try assumption; lia).
  assert (forall l, exists t, bl_try b query l = Ok t) as HT.
  { intros l. unfold bl_try. destruct (_ && _); [|eauto].
    destruct (HS (zslice query l (zlen query - l - 2))) as (r' & ->). cbn [bind]. eauto. }
  destruct (bl_labels _ _ _ _ _ _) as [[[l1 l2] l3]| |fl]; cbn [bind]; [|apply safe_Fail|].
  - destruct (HT l1) as ([] & ->); cbn [bind]; [apply safe_Ok|].
    destruct (HT l2) as ([] & ->); cbn [bind]; [apply safe_Ok|].
    destruct (HT l3) as (? & ->). apply safe_Ok.
  - exfalso. exact (SL fl eq_refl).
Qed.
