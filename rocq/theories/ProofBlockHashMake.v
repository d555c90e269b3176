(** Round trip: compile a block list, load it, look names up. *)
From Verif Require Import CBase Bits SpecNames SpecBlockHash ModelBlockHash ProofBlockHashRead.

(** ** Reading the source *)
Lemma fgets_line body rest : forall n,
  ~ In 10 body -> (length body < n)%nat ->
  bm_fgets n (body ++ 10 :: rest) = (body ++ [10], rest).
Proof.
  induction body as [|c body IH]; intros n Hn Hl; destruct n; cbn in Hl; try lia; cbn.
  - reflexivity.
  - destruct (Z.eqb_spec c 10); [subst; cbn in Hn; tauto|].
    rewrite IH; [reflexivity| |lia]. intros H; apply Hn; now right.
Qed.

Lemma dotted_no10 labels :
  Forall (fun lab => 1 <= zlen lab <= 63 /\ Forall bl_char lab) labels ->
  ~ In 10 (dotted labels) /\ ~ In 0 (dotted labels).
Proof.
  induction labels as [|l rest IH]; intros H; [cbn; tauto|].
  inversion H as [|? ? [_ Hl] Hr]; subst. destruct (IH Hr) as [I1 I0].
  assert (~ In 10 l /\ ~ In 0 l) as [J1 J0].
  { rewrite Forall_forall in Hl. split; intros Hin; apply Hl in Hin; unfold bl_char in Hin; lia. }
  destruct rest as [|l2 rest]; [cbn; tauto|].
  change (dotted (l :: l2 :: rest)) with (l ++ 46 :: dotted (l2 :: rest)).
  split; rewrite in_app_iff; cbn; intros [?|[?|?]]; try tauto; lia.
Qed.

Lemma cstr_id l : ~ In 0 l -> bm_cstr l = l.
Proof.
  induction l as [|c l IH]; cbn; [reflexivity|]. intros H.
  destruct (Z.eqb_spec c 0); [subst; tauto|]. rewrite IH; tauto.
Qed.

Definition eol_body (e : bl_eol) : list Z := removelast (eol_bytes e).
Lemma eol_split e : eol_bytes e = eol_body e ++ [10].
Proof. now destruct e. Qed.

(** The list of raw lines as readFile keeps them. *)
Fixpoint raw_lines (f : list bl_line) : list (list Z) :=
  match f with
  | [] => []
  | BLName labels e :: rest => (32 :: dotted labels ++ eol_bytes e) :: raw_lines rest
  | BLComment _ :: rest => raw_lines rest
  end.

Lemma read_file_spec f : Forall bl_line_ok f ->
  forall fuel, (length (bl_text f) < fuel)%nat -> bm_read_file fuel (bl_text f) = Ok (raw_lines f).
Proof.
  induction f as [|l f IH]; intros Hf fuel Hfuel.
  { destruct fuel; cbn in *; [lia|reflexivity]. }
  inversion Hf as [|? ? Hl Hr]; subst. destruct fuel as [|fuel]; [lia|].
  unfold bl_text in *. cbn [map concat] in *. fold (bl_text f) in *.
  assert (exists body, bl_line_text l = body ++ [10] /\ ~ In 10 body) as (body & Eb & Nb).
  { destruct l as [labels e|t]; destruct Hl as [_ Hl]; cbn [bl_line_text].
    - destruct Hl as (_ & HF & _). exists (dotted labels ++ eol_body e).
      rewrite eol_split, app_assoc. split; [reflexivity|].
      rewrite in_app_iff. apply dotted_no10 in HF as [HF _]. destruct e; cbn; intuition lia.
    - exists (35 :: t). split; [reflexivity|]. cbn. intuition lia. }
  destruct Hl as [Hlen Hl].
  assert (bm_fgets 1009 (bl_line_text l ++ bl_text f) = (bl_line_text l, bl_text f)) as EG.
  { rewrite Eb, <- app_assoc. apply fgets_line; [exact Nb|].
    rewrite Eb, zlen_app in Hlen. unfold zlen in Hlen. cbn in Hlen. lia. }
  cbn [bm_read_file].
  destruct (bl_line_text l ++ bl_text f) as [|c0 t0] eqn:E0.
  { exfalso. rewrite Eb in E0. destruct body; discriminate. }
  rewrite EG.
  assert (length (bl_text f) < fuel)%nat as HF2.
  { assert (length (bl_line_text l ++ bl_text f) = S (length t0)) as EE by (rewrite E0; reflexivity).
    rewrite app_length, Eb, app_length in EE. cbn in EE, Hfuel. lia. }
  rewrite (IH Hr fuel HF2). cbn [bind].
  destruct l as [labels e|t]; cbn [bl_line_text raw_lines] in *; [|reflexivity].
  destruct Hl as (Hne & HF & H35).
  rewrite cstr_id.
  2:{ intros [?|Hin]; [lia|]. rewrite in_app_iff in Hin. destruct Hin as [Hin|Hin].
      - apply dotted_no10 in HF as [_ HF]. tauto.
      - destruct e; cbn in Hin; intuition lia. }
  destruct labels as [|l0 ls]; [congruence|]. inversion HF as [|? ? [Hl0 _] _]; subst.
  destruct l0 as [|c l0]; [rewrite zlen_nil in Hl0; lia|].
  assert (exists tl, dotted ((c :: l0) :: ls) = c :: tl) as [tl Etl].
  { destruct ls; [exists l0; reflexivity|]. exists (l0 ++ 46 :: dotted (l :: ls)). reflexivity. }
  rewrite Etl in *. cbn [hd] in H35. cbn [app].
  cbn [hd]. destruct (Z.eqb_spec c 35); [congruence|reflexivity].
Qed.

(** ** Converting one line *)
Definition is_sep (c : Z) : bool := (c =? 46) || (c =? 10) || (c =? 32) || (c =? 13).

Lemma zget_mid pre x post : zget (pre ++ x :: post) (zlen pre) = Some x.
Proof. rewrite zget_app_r by lia. rewrite Z.sub_diag. reflexivity. Qed.

Lemma wr_mid pre x post v : wr (pre ++ x :: post) (zlen pre) v = Ok (pre ++ v :: post).
Proof.
  rewrite wr_ok.
  2:{ rewrite zlen_app, zlen_cons. pose proof (zlen_nonneg pre). pose proof (zlen_nonneg post). lia. }
  f_equal. unfold zupd. pose proof (zlen_nonneg pre). replace (zlen pre <? 0) with false by lia.
  unfold zlen. rewrite Nat2Z.id. induction pre as [|a pre IH]; cbn; [reflexivity|]. f_equal. apply IH.
  apply zlen_nonneg.
Qed.

Lemma lower_bl_char c : bl_char c -> bl_char (lower c) /\ is_sep c = false /\ is_sep (lower c) = false.
Proof.
  unfold bl_char, lower, is_sep. intros H. destruct ((65 <=? c) && (c <=? 90)) eqn:E; lia.
Qed.

Lemma scan_label len sep rest pre : is_sep sep = true -> forall l done x fuel,
  Forall bl_char l -> 1 <= zlen (done ++ l) <= 63 ->
  len = zlen (pre ++ x :: done ++ l ++ sep :: rest) ->
  bm_dns_loop (S (length l + fuel)) len (pre ++ x :: done ++ l ++ sep :: rest)
    (zlen pre + 1 + zlen done) (zlen pre) =
  bm_dns_loop fuel len (pre ++ zlen (done ++ l) :: done ++ map lower l ++ sep :: rest)
    (zlen pre + 1 + zlen (done ++ l) + 1) (zlen pre + 1 + zlen (done ++ l)).
Proof.
  intros Hsep. induction l as [|c l IH]; intros done x fuel HF HL Hlen.
  - rewrite app_nil_r in *. cbn [length plus app map] in *. cbn [bm_dns_loop].
    assert (pre ++ x :: done ++ sep :: rest = (pre ++ x :: done) ++ sep :: rest) as E
      by (rewrite <- app_assoc; reflexivity).
    assert (zlen (pre ++ x :: done) = zlen pre + 1 + zlen done) as EL
      by (rewrite zlen_app, zlen_cons; lia).
    pose proof (zlen_nonneg pre). pose proof (zlen_nonneg rest).
    assert (len = zlen pre + 1 + zlen done + 1 + zlen rest) as Hlen'.
    { rewrite Hlen, E, zlen_app, EL, zlen_cons. lia. }
    replace (zlen pre + 1 + zlen done <? len) with true by lia. cbn [negb].
    replace ((len <=? zlen pre) || (len <=? zlen pre + 1 + zlen done)) with false by lia.
    assert (rd (pre ++ x :: done ++ sep :: rest) (zlen pre + 1 + zlen done) = Ok sep) as ER.
    { apply rd_of_zget. rewrite E, <- EL. apply zget_mid. }
    rewrite ER. cbn [bind].
    replace ((sep <=? 90) && (65 <=? sep)) with false
      by (unfold is_sep in Hsep; lia).
    cbn [bind]. rewrite ER. cbn [bind].
    unfold is_sep in Hsep. rewrite Hsep.
    replace ((0 <=? zlen pre + 1 + zlen done - zlen pre - 1) && (zlen pre + 1 + zlen done - zlen pre - 1 <? 64))
      with true by lia.
    rewrite wr_mid. cbn [bind].
    replace (zlen pre + 1 + zlen done - zlen pre - 1) with (zlen done) by lia.
    replace (zlen done =? 0) with false by lia. reflexivity.
  - inversion HF as [|? ? Hc HF']; subst.
    destruct (lower_bl_char c Hc) as (Hc1 & Hs0 & Hs1).
    cbn [length plus].
    replace (S (S (length l + fuel))) with (S (S (length l + fuel))) by reflexivity.
    remember (S (length l + fuel)) as F eqn:EF. cbn [bm_dns_loop].
    assert (forall d, pre ++ x :: done ++ (d :: l) ++ sep :: rest
            = (pre ++ x :: done) ++ d :: (l ++ sep :: rest)) as E
      by (intros; rewrite <- app_assoc; reflexivity).
    assert (zlen (pre ++ x :: done) = zlen pre + 1 + zlen done) as EL
      by (rewrite zlen_app, zlen_cons; lia).
    pose proof (zlen_nonneg pre). pose proof (zlen_nonneg rest). pose proof (zlen_nonneg done).
    pose proof (zlen_nonneg (l ++ sep :: rest)).
    assert (zlen pre + 1 + zlen done < zlen (pre ++ x :: done ++ (c :: l) ++ sep :: rest)) as Hlt.
    { rewrite E, zlen_app, EL, zlen_cons. lia. }
    replace (zlen pre + 1 + zlen done <? zlen (pre ++ x :: done ++ (c :: l) ++ sep :: rest))
      with true by lia. cbn [negb].
    replace ((zlen (pre ++ x :: done ++ (c :: l) ++ sep :: rest) <=? zlen pre) ||
             (zlen (pre ++ x :: done ++ (c :: l) ++ sep :: rest) <=? zlen pre + 1 + zlen done))
      with false by lia.
    assert (forall d, rd (pre ++ x :: done ++ (d :: l) ++ sep :: rest) (zlen pre + 1 + zlen done) = Ok d) as ER.
    { intros d. apply rd_of_zget. rewrite E, <- EL. apply zget_mid. }
    rewrite ER. cbn [bind].
    assert ((if (c <=? 90) && (65 <=? c)
      then wr (pre ++ x :: done ++ (c :: l) ++ sep :: rest) (zlen pre + 1 + zlen done) (c + 32)
      else Ok (pre ++ x :: done ++ (c :: l) ++ sep :: rest))
      = Ok (pre ++ x :: done ++ (lower c :: l) ++ sep :: rest)) as EW.
    { unfold lower. rewrite (andb_comm (65 <=? c)). destruct ((c <=? 90) && (65 <=? c)).
      - rewrite !E, <- EL. apply wr_mid.
      - reflexivity. }
    rewrite EW. cbn [bind]. rewrite ER. cbn [bind]. unfold is_sep in Hs1. rewrite Hs1.
    assert (pre ++ x :: done ++ (lower c :: l) ++ sep :: rest
            = pre ++ x :: (done ++ [lower c]) ++ l ++ sep :: rest) as EA
      by (rewrite <- (app_assoc done); reflexivity).
    rewrite EA. subst F.
    assert (zlen (done ++ [lower c]) = zlen done + 1) as EL1 by (rewrite zlen_app; reflexivity).
    replace (zlen pre + 1 + zlen done + 1) with (zlen pre + 1 + zlen (done ++ [lower c])) by lia.
    assert (zlen ((done ++ [lower c]) ++ l) = zlen (done ++ c :: l)) as EL2
      by (rewrite !zlen_app, !zlen_cons, zlen_nil; lia).
    rewrite (IH (done ++ [lower c]) x fuel HF'); rewrite ?EL2.
    + f_equal. f_equal. f_equal. rewrite <- app_assoc. reflexivity.
    + exact HL.
    + cbn [app]. repeat rewrite ?zlen_app, ?zlen_cons, ?zlen_nil. lia.
Qed.

Fixpoint enc_body (labels : list (list Z)) : list Z :=
  match labels with
  | [] => []
  | l :: rest => zlen l :: map lower l ++ enc_body rest
  end.

Lemma wire_enc_body labels : wire (lower_name labels) = enc_body labels ++ [0].
Proof.
  induction labels as [|l rest IH]; [reflexivity|]. cbn.
  unfold lower_label at 1, zlen. rewrite map_length. f_equal. rewrite <- app_assoc. f_equal. exact IH.
Qed.

Definition eol_tail (e : bl_eol) : list Z := tl (eol_bytes e).

Lemma zlen_map_lower l : zlen (map lower l) = zlen l.
Proof. unfold zlen. now rewrite map_length. Qed.

Lemma dns_loop_end pre s e fuel len :
  is_sep s = true -> len = zlen (pre ++ s :: eol_tail e) -> (1 <= fuel)%nat ->
  bm_dns_loop fuel len (pre ++ s :: eol_tail e) (zlen pre + 1) (zlen pre) =
  match eol_tail e with
  | [] => Ok (pre ++ [s], inr (zlen pre))
  | _ => Ok (pre ++ 0 :: eol_tail e, inl (zlen pre + 1))
  end.
Proof.
  intros Hs Hlen Hf. destruct fuel as [|fuel]; [lia|]. cbn [bm_dns_loop].
  pose proof (zlen_nonneg pre).
  destruct (eol_tail e) as [|s2 t] eqn:Et.
  - rewrite zlen_app in Hlen. change (zlen [s]) with 1 in Hlen.
    replace (zlen pre + 1 <? len) with false by lia. reflexivity.
  - assert (is_sep s2 = true) as Hs2 by (destruct e; cbn in Et; inversion Et; reflexivity).
    rewrite zlen_app, !zlen_cons in Hlen. pose proof (zlen_nonneg t).
    replace (zlen pre + 1 <? len) with true by lia. cbn [negb].
    replace ((len <=? zlen pre) || (len <=? zlen pre + 1)) with false by lia.
    assert (rd (pre ++ s :: s2 :: t) (zlen pre + 1) = Ok s2) as ER.
    { apply rd_of_zget. rewrite zget_app_r by lia.
      replace (zlen pre + 1 - zlen pre) with 1 by lia. reflexivity. }
    rewrite ER. cbn [bind].
    replace ((s2 <=? 90) && (65 <=? s2)) with false by (unfold is_sep in Hs2; lia).
    cbn [bind]. rewrite ER. cbn [bind]. unfold is_sep in Hs2. rewrite Hs2.
    replace ((0 <=? zlen pre + 1 - zlen pre - 1) && (zlen pre + 1 - zlen pre - 1 <? 64)) with true by lia.
    rewrite wr_mid. cbn [bind].
    replace (zlen pre + 1 - zlen pre - 1) with 0 by lia. reflexivity.
Qed.

Lemma dns_loop_labels e : forall labels len pre x fuel,
  labels <> [] ->
  Forall (fun lab => 1 <= zlen lab <= 63 /\ Forall bl_char lab) labels ->
  len = zlen (pre ++ x :: dotted labels ++ eol_bytes e) ->
  (length (dotted labels) + 2 <= fuel)%nat ->
  exists s, 
  bm_dns_loop fuel len (pre ++ x :: dotted labels ++ eol_bytes e) (zlen pre + 1) (zlen pre) =
  match eol_tail e with
  | [] => Ok ((pre ++ enc_body labels) ++ [s], inr (zlen (pre ++ enc_body labels)))
  | _ => Ok ((pre ++ enc_body labels) ++ 0 :: eol_tail e, inl (zlen (pre ++ enc_body labels) + 1))
  end.
Proof.
  induction labels as [|l rest IH]; intros len pre x fuel Hne HF Hlen Hfuel; [congruence|].
  inversion HF as [|? ? [Hl Hc] HF']; subst.
  destruct rest as [|l2 rest].
  - (* last label *)
    cbn [dotted] in *.
    assert (exists s, eol_bytes e = s :: eol_tail e /\ is_sep s = true) as (s & Ee & Hs)
      by (destruct e; eexists; split; reflexivity).
    exists s.
    rewrite Ee in *. replace fuel with (S (length l + (fuel - S (length l))))%nat by lia.
    pose proof (scan_label (zlen (pre ++ x :: l ++ s :: eol_tail e)) s (eol_tail e) pre Hs l [] x
                  (fuel - S (length l)) Hc) as HS.
    cbn [app] in HS. rewrite zlen_nil, Z.add_0_r in HS. rewrite HS by (try reflexivity; lia). clear HS.
    assert (pre ++ zlen l :: map lower l ++ s :: eol_tail e
            = (pre ++ enc_body [l]) ++ s :: eol_tail e) as E.
    { cbn [enc_body]. rewrite app_nil_r, <- app_assoc. reflexivity. }
    rewrite E.
    assert (zlen (pre ++ enc_body [l]) = zlen pre + 1 + zlen l) as EL.
    { cbn [enc_body]. rewrite app_nil_r, zlen_app, zlen_cons, zlen_map_lower. lia. }
    rewrite <- EL. apply dns_loop_end; [exact Hs| |lia].
    rewrite <- E. rewrite !zlen_app, !zlen_cons, !zlen_app, zlen_map_lower. reflexivity.
  - change (dotted (l :: l2 :: rest)) with (l ++ 46 :: dotted (l2 :: rest)) in *.
    rewrite app_length in Hfuel. cbn [length] in Hfuel.
    replace fuel with (S (length l + (fuel - S (length l))))%nat by lia.
    rewrite <- (app_assoc l). cbn [app].
    pose proof (scan_label (zlen (pre ++ x :: l ++ 46 :: dotted (l2 :: rest) ++ eol_bytes e)) 46
                  (dotted (l2 :: rest) ++ eol_bytes e) pre eq_refl l [] x
                  (fuel - S (length l)) Hc) as HS.
    cbn [app] in HS. rewrite zlen_nil, Z.add_0_r in HS. rewrite HS by (try reflexivity; lia). clear HS.
    assert (pre ++ zlen l :: map lower l ++ 46 :: dotted (l2 :: rest) ++ eol_bytes e
            = (pre ++ enc_body [l]) ++ 46 :: dotted (l2 :: rest) ++ eol_bytes e) as E.
    { cbn [enc_body]. rewrite app_nil_r, <- app_assoc. reflexivity. }
    rewrite E.
    assert (zlen (pre ++ enc_body [l]) = zlen pre + 1 + zlen l) as EL.
    { cbn [enc_body]. rewrite app_nil_r, zlen_app, zlen_cons, zlen_map_lower. lia. }
    rewrite <- EL.
    assert (pre ++ enc_body (l :: l2 :: rest) = (pre ++ enc_body [l]) ++ enc_body (l2 :: rest)) as E2.
    { rewrite <- app_assoc. f_equal. cbn [enc_body]. rewrite app_nil_r. reflexivity. }
    rewrite E2. apply IH; [congruence|exact HF'| |lia].
    rewrite <- E. rewrite !zlen_app, !zlen_cons, !zlen_app, !zlen_cons, zlen_map_lower. reflexivity.
Qed.

Lemma convert_line labels e :
  bl_line_ok (BLName labels e) ->
  exists str n, bm_dns_convert_string (32 :: dotted labels ++ eol_bytes e) = Ok (str, n) /\
    0 < n /\ zslice str 0 n = wire (lower_name labels).
Proof.
  intros (Hlen & Hne & HF & _). cbn [bl_line_text] in Hlen.
  unfold bm_dns_convert_string.
  rewrite zlen_cons. replace (1040 <? zlen (dotted labels ++ eol_bytes e) + 1) with false by lia.
  destruct (dns_loop_labels e labels (zlen ([] ++ 32 :: dotted labels ++ eol_bytes e)) [] 32
              (S (length (32 :: dotted labels ++ eol_bytes e))) Hne HF eq_refl) as (s & HS).
  { cbn [length]. rewrite app_length. destruct e; cbn [eol_bytes length]; lia. }
  cbn [app] in HS. rewrite zlen_nil, zlen_cons in HS. cbn [Z.add] in HS. rewrite HS. clear HS.
  rewrite wire_enc_body.
  pose proof (zlen_nonneg (enc_body labels)).
  destruct (eol_tail e) as [|c t] eqn:Et; cbn [bind].
  - assert (zlen (dotted labels ++ eol_bytes e) = zlen (enc_body labels)) as EL.
    { assert (zlen (eol_bytes e) = 1) as E1 by (destruct e; cbn in Et; try discriminate; reflexivity).
      rewrite zlen_app, E1. clear -Hne. induction labels as [|l rest IH]; [congruence|].
      destruct rest as [|l2 rest].
      - cbn [dotted enc_body]. rewrite app_nil_r, zlen_cons, zlen_map_lower. lia.
      - change (dotted (l :: l2 :: rest)) with (l ++ 46 :: dotted (l2 :: rest)).
        cbn [enc_body]. fold (enc_body (l2 :: rest)).
        change (zlen l2 :: map lower l2 ++ enc_body rest) with (enc_body (l2 :: rest)).
        rewrite zlen_app, !zlen_cons, zlen_app, zlen_map_lower.
        specialize (IH ltac:(congruence)). lia. }
    rewrite EL. replace (Z.max 1 (zlen (enc_body labels) + 1) - zlen (enc_body labels) - 1) with 0 by lia.
    cbn [Z.leb Z.ltb Z.compare andb]. rewrite wr_mid. cbn [bind].
    eexists _, _. split; [reflexivity|]. split; [lia|].
    assert (zlen (enc_body labels ++ [0]) = zlen (enc_body labels) + 1) as E1 by (rewrite zlen_app; reflexivity).
    rewrite <- E1. apply zslice_all.
  - eexists _, _. split; [reflexivity|]. split; [lia|].
    change (enc_body labels ++ 0 :: c :: t) with (enc_body labels ++ [0] ++ (c :: t)).
    rewrite app_assoc.
    assert (zlen (enc_body labels ++ [0]) = zlen (enc_body labels) + 1) as E1 by (rewrite zlen_app; reflexivity).
    rewrite zslice_app_l by lia. rewrite <- E1. apply zslice_all.
Qed.

Lemma convert_chain_spec f : Forall bl_line_ok f ->
  bm_dns_convert_chain (raw_lines f) = Ok (bl_names f).
Proof.
  induction f as [|l f IH]; intros H; [reflexivity|]. inversion H as [|? ? Hl Hr]; subst.
  destruct l as [labels e|t]; cbn [raw_lines bl_names bm_dns_convert_chain]; [|now apply IH].
  destruct (convert_line labels e Hl) as (str & n & -> & Hn & Hs). cbn [bind].
  rewrite (IH Hr). cbn [bind]. replace (0 <? n) with true by lia. rewrite Hs. reflexivity.
Qed.

(** ** Filling the buckets *)
Definition esize (chain : list (list Z)) : Z := fold_right (fun s a => zlen s + 2 + a) 0 chain.
Definition tsize (bs : list (list (list Z))) : Z := fold_right (fun c a => esize c + a) 0 bs.

Lemma esize_nonneg c : 0 <= esize c.
Proof. induction c as [|s c IH]; cbn [esize fold_right]; [lia|]. pose proof (zlen_nonneg s). unfold esize in IH. lia. Qed.

Lemma chain_insert_spec s chain : forall chain' d,
  bm_chain_insert s chain = (chain', d) ->
  (forall x, In x chain' <-> x = s \/ In x chain) /\ esize chain' = esize chain + d /\
  0 <= d <= zlen s + 2.
Proof.
  pose proof (zlen_nonneg s).
  induction chain as [|p rest IH]; intros chain' d E; cbn in E.
  - injection E as <- <-. split; [cbn; intuition congruence|]. cbn. lia.
  - destruct (zlist_eqb s p) eqn:Ep.
    + injection E as <- <-. apply zlist_eqb_spec in Ep as ->. split; [cbn; intuition congruence|]. lia.
    + destruct (bm_chain_insert s rest) as [r d'] eqn:Er. injection E as <- <-.
      destruct (IH _ _ eq_refl) as (I1 & I2 & I3). split; [|cbn [esize fold_right]; fold (esize r); fold (esize rest); lia].
      intros x. cbn. rewrite I1. intuition congruence.
Qed.

Lemma length_upd_bucket b i c : length (bm_upd_bucket b i c) = length b.
Proof. revert i; induction b; intros [|i]; cbn; auto. Qed.

Lemma nth_upd_bucket b i c j : (i < length b)%nat ->
  nth_error (bm_upd_bucket b i c) j = if Nat.eqb i j then Some c else nth_error b j.
Proof.
  revert i j; induction b as [|h t IH]; intros [|i] [|j]; cbn; intros; try lia; auto.
  apply IH. lia.
Qed.

Lemma tsize_upd b : forall i c old, nth_error b i = Some old ->
  tsize (bm_upd_bucket b i c) = tsize b + esize c - esize old.
Proof.
  induction b as [|h t IH]; intros [|i] c old E; cbn [nth_error bm_upd_bucket] in *; try discriminate.
  - injection E as ->. cbn [tsize fold_right]. lia.
  - cbn [tsize fold_right]. fold (tsize t). fold (tsize (bm_upd_bucket t i c)).
    rewrite (IH i c old E). lia.
Qed.

Definition tot (buf : list (list Z)) : Z := fold_right (fun s a => zlen s + 2 + a) 0 buf.

Lemma fill_hash_spec k1 k2 hs : 0 < hs -> forall buf buckets total,
  zlen buckets = hs -> total = tsize buckets -> 0 <= total -> total + tot buf < 4294967296 ->
  (forall i chain s, nth_error buckets i = Some chain -> In s chain ->
     Z.to_nat (halfsip13 s k1 k2 mod hs) = i) ->
  exists bs t, bm_fill_hash k1 k2 buf hs buckets total = Ok (bs, t) /\
    zlen bs = hs /\ t = tsize bs /\ 0 <= t <= total + tot buf /\
    (forall i chain s, nth_error bs i = Some chain -> In s chain ->
       Z.to_nat (halfsip13 s k1 k2 mod hs) = i /\
       (In s buf \/ exists c0, nth_error buckets i = Some c0 /\ In s c0)) /\
    (forall s, In s buf -> exists chain,
       nth_error bs (Z.to_nat (halfsip13 s k1 k2 mod hs)) = Some chain /\ In s chain) /\
    (forall i c0 s, nth_error buckets i = Some c0 -> In s c0 ->
       exists chain, nth_error bs i = Some chain /\ In s chain).
Proof.
  intros Hhs. induction buf as [|s buf IH]; intros buckets total HL HT H0 HB HI.
  - exists buckets, total. cbn [bm_fill_hash tot fold_right].
    split; [reflexivity|]. split; [exact HL|]. split; [exact HT|]. split; [lia|].
    split; [intros i chain s Hi Hs; split; [eapply HI; eauto|right; eauto]|].
    split; [intros s []|]. eauto.
  - cbn [bm_fill_hash]. replace (hs =? 0) with false by lia.
    set (key := halfsip13 s k1 k2 mod hs).
    assert (0 <= key < hs) as Hk by (apply Z.mod_pos_bound; lia).
    destruct (nth_error buckets (Z.to_nat key)) as [chain|] eqn:En.
    2:{ apply nth_error_None in En. unfold zlen in HL. lia. }
    destruct (bm_chain_insert s chain) as [chain' d] eqn:Ei.
    destruct (chain_insert_spec s chain chain' d Ei) as (C1 & C2 & C3).
    cbn [tot fold_right] in HB. fold (tot buf) in HB.
    assert (0 <= tot buf) as Htb by apply esize_nonneg.
    pose proof (zlen_nonneg s).
    assert (u32 (total + d) = total + d) as EU by (unfold u32; apply Z.mod_small; lia).
    rewrite EU.
    assert (Z.to_nat key < length buckets)%nat as Hlt by (unfold zlen in HL; lia).
    destruct (IH (bm_upd_bucket buckets (Z.to_nat key) chain') (total + d))
      as (bs & t & E & L1 & L2 & L3 & L4 & L5 & L6).
    + unfold zlen in *. rewrite length_upd_bucket. lia.
    + rewrite (tsize_upd _ _ _ chain) by exact En. lia.
    + lia.
    + lia.
    + intros i ch x Hi Hx. rewrite nth_upd_bucket in Hi by exact Hlt.
      destruct (Nat.eqb_spec (Z.to_nat key) i) as [<-|N].
      * injection Hi as <-. apply C1 in Hx as [->|Hx]; [reflexivity|]. eapply HI; eauto.
      * eapply HI; eauto.
    + exists bs, t. rewrite E. cbn [tot fold_right]. fold (tot buf).
      split; [reflexivity|]. split; [exact L1|]. split; [exact L2|]. split; [lia|].
      split; [|split].
      * intros i ch x Hi Hx. destruct (L4 i ch x Hi Hx) as (P1 & P2). split; [exact P1|].
        destruct P2 as [P2|(c0 & P2 & P3)]; [left; now right|].
        rewrite nth_upd_bucket in P2 by exact Hlt.
        destruct (Nat.eqb_spec (Z.to_nat key) i) as [<-|N].
        -- injection P2 as <-. apply C1 in P3 as [->|P3]; [left; now left|]. right; eauto.
        -- right; eauto.
      * intros x [<-|Hx]; [|auto]. apply (L6 (Z.to_nat key) chain').
        -- rewrite nth_upd_bucket by exact Hlt. now rewrite Nat.eqb_refl.
        -- apply C1. now left.
      * intros i c0 x Hi Hx.
        destruct (Nat.eqb_spec (Z.to_nat key) i) as [<-|N].
        -- rewrite En in Hi. injection Hi as <-. apply (L6 (Z.to_nat key) chain').
           ++ rewrite nth_upd_bucket by exact Hlt. now rewrite Nat.eqb_refl.
           ++ apply C1. now right.
        -- apply (L6 i c0); [|exact Hx]. rewrite nth_upd_bucket by exact Hlt.
           destruct (Nat.eqb_spec (Z.to_nat key) i); [congruence|exact Hi].
Qed.

(** ** Writing the image *)
Definition be32 (v : Z) : list Z := [v / 16777216; v / 65536 mod 256; v / 256 mod 256; v mod 256].
Definition be16 (v : Z) : list Z := [v / 256; v mod 256].
Definition LIM : Z := 2147479552.

Lemma splice_nil l off : 0 <= off <= zlen l -> splice l off [] = l.
Proof.
  intros H. apply zlist_ext.
  - rewrite zlen_splice; rewrite ?zlen_nil; lia.
  - intros i _. rewrite zget_splice by (rewrite ?zlen_nil; lia). rewrite zlen_nil.
    replace ((off <=? i) && (i <? off + 0)) with false by lia. reflexivity.
Qed.

Lemma wr_splice block off v : 0 <= off < zlen block -> wr block off v = Ok (splice block off [v]).
Proof. intros H. rewrite wr_ok, zupd_splice by lia. reflexivity. Qed.

Lemma write_bytes_splice str : forall block off,
  0 <= off -> off + zlen str <= zlen block -> bm_write_bytes block str off = Ok (splice block off str).
Proof.
  induction str as [|c rest IH]; intros block off H0 H1; cbn [bm_write_bytes].
  - rewrite zlen_nil in H1. rewrite splice_nil by lia. reflexivity.
  - rewrite zlen_cons in H1. pose proof (zlen_nonneg rest).
    rewrite wr_splice by lia. cbn [bind].
    assert (zlen (splice block off [c]) = zlen block) as EL
      by (apply zlen_splice; change (zlen [c]) with 1; lia).
    rewrite IH by lia. f_equal.
    change (off + 1) with (off + zlen [c]). rewrite splice_splice; [reflexivity|lia|].
    change (zlen [c]) with 1. lia.
Qed.

Lemma write32_splice block v off max :
  zlen block = max -> max <= LIM -> 0 <= off -> off + 4 <= max -> 0 <= v < 4294967296 ->
  bm_write32 block v off max = Ok (splice block off (be32 v)).
Proof.
  unfold LIM. intros HL HM H0 H1 Hv. unfold bm_write32.
  assert (u32 (off + 3) = off + 3) as EU by (unfold u32; apply Z.mod_small; lia). rewrite EU.
  replace (max <=? off + 3) with false by lia.
  pose proof (write_bytes_splice (be32 v) block off H0) as W.
  rewrite <- W by (change (zlen (be32 v)) with 4; lia). clear W.
  unfold be32. cbn [bm_write_bytes].
  rewrite !land_255, !Z.shiftr_div_pow2 by lia. unfold u8.
  change (2 ^ 24) with 16777216. change (2 ^ 16) with 65536. change (2 ^ 8) with 256.
  rewrite (Z.mod_small (v / 16777216)) by lia.
  replace (off + 1 + 1) with (off + 2) by lia. replace (off + 2 + 1) with (off + 3) by lia.
  destruct (wr block off (v / 16777216)) as [b1| |] ; cbn [bind]; try reflexivity.
  destruct (wr b1 (off + 1) (v / 65536 mod 256)) as [b2| |] ; cbn [bind]; try reflexivity.
  destruct (wr b2 (off + 2) (v / 256 mod 256)) as [b3| |] ; cbn [bind]; try reflexivity.
  destruct (wr b3 (off + 3) (v mod 256)) as [b4| |] ; cbn [bind]; reflexivity.
Qed.

Lemma write16_splice block v off max :
  zlen block = max -> max <= LIM -> 0 <= off -> off + 2 <= max -> 0 <= v < 65536 ->
  bm_write16 block v off max = Ok (splice block off (be16 v)).
Proof.
  unfold LIM. intros HL HM H0 H1 Hv. unfold bm_write16.
  assert (u32 (off + 1) = off + 1) as EU by (unfold u32; apply Z.mod_small; lia). rewrite EU.
  replace (max <=? off + 1) with false by lia.
  pose proof (write_bytes_splice (be16 v) block off H0) as W.
  rewrite <- W by (change (zlen (be16 v)) with 2; lia). clear W.
  unfold be16. cbn [bm_write_bytes].
  rewrite !land_255, !Z.shiftr_div_pow2 by lia. unfold u8. change (2 ^ 8) with 256.
  rewrite (Z.mod_small (v / 256)) by lia.
  destruct (wr block off (v / 256)) as [b1| |] ; cbn [bind]; try reflexivity.
  destruct (wr b1 (off + 1) (v mod 256)) as [b2| |] ; cbn [bind]; reflexivity.
Qed.

Fixpoint enc_chain (chain : list (list Z)) : list Z :=
  match chain with
  | [] => []
  | s :: rest => be16 (zlen s) ++ s ++ enc_chain rest
  end.

Lemma zlen_enc_chain chain : zlen (enc_chain chain) = esize chain.
Proof.
  induction chain as [|s rest IH]; [reflexivity|]. cbn [enc_chain esize fold_right]. fold (esize rest).
  rewrite !zlen_app, IH. change (zlen (be16 (zlen s))) with 2. lia.
Qed.

Lemma write_chain_splice max : max <= LIM -> forall chain block off,
  zlen block = max -> 0 <= off -> off + esize chain < max ->
  Forall (fun s => zlen s <= 1040) chain ->
  bm_write_chain_loop block chain off max =
  Ok (splice block off (enc_chain chain), off + esize chain).
Proof.
  intros HM. assert (max <= 2147479552) as HM' by exact HM.
  induction chain as [|s rest IH]; intros block off HL H0 H1 HF; cbn [bm_write_chain_loop].
  - cbn [esize fold_right] in *. cbn [enc_chain]. rewrite splice_nil by lia. do 2 f_equal. lia.
  - inversion HF as [|? ? Hs HF']; subst.
    cbn [esize fold_right] in H1. fold (esize rest) in H1. pose proof (esize_nonneg rest).
    pose proof (zlen_nonneg s).
    replace ((zlen s <? 0) || (1040 <? zlen s)) with false by lia.
    rewrite write16_splice by (try reflexivity; lia). cbn [bind].
    assert (u32 (off + 2) = off + 2) as E1 by (unfold u32; apply Z.mod_small; lia). rewrite E1.
    unfold bm_write_string.
    assert (u32 (off + 2 + zlen s) = off + 2 + zlen s) as E2 by (unfold u32; apply Z.mod_small; lia).
    rewrite E2. replace (zlen block <=? off + 2 + zlen s) with false by lia.
    assert (zlen (splice block off (be16 (zlen s))) = zlen block) as EL1
      by (apply zlen_splice; change (zlen (be16 (zlen s))) with 2; lia).
    rewrite write_bytes_splice by lia. cbn [bind].
    change (off + 2) with (off + zlen (be16 (zlen s))).
    rewrite splice_splice by (change (zlen (be16 (zlen s))) with 2; lia).
    change (zlen (be16 (zlen s))) with 2.
    assert (zlen (be16 (zlen s) ++ s) = 2 + zlen s) as EL2 by (rewrite zlen_app; reflexivity).
    assert (zlen (splice block off (be16 (zlen s) ++ s)) = zlen block) as EL3
      by (apply zlen_splice; lia).
    rewrite IH; [|exact EL3|lia|lia|exact HF'].
    replace (off + 2 + zlen s) with (off + zlen (be16 (zlen s) ++ s)) by lia.
    rewrite splice_splice; [|lia|rewrite EL2, zlen_enc_chain; lia].
    rewrite EL2. cbn [enc_chain esize fold_right]. fold (esize rest).
    rewrite <- app_assoc. do 2 f_equal. lia.
Qed.

(** What the finished image must contain for bucket [k] (counted from [i]). *)
Definition bucket_at (block : list Z) (k : Z) (chain : list (list Z)) (lo hi : Z) : Prop :=
  match chain with
  | [] => zslice block (16 + 4 * k) 4 = be32 0
  | _ => exists off, lo < off /\ off + esize chain <= hi /\
           zslice block (16 + 4 * k) 4 = be32 off /\
           zslice block off (esize chain + 1) = enc_chain chain ++ [255]
  end.

Definition nsize (chain : list (list Z)) : Z :=
  match chain with [] => 0 | _ => esize chain + 1 end.
Definition nsizes (bs : list (list (list Z))) : Z := fold_right (fun c a => nsize c + a) 0 bs.

Lemma nsize_nonneg c : 0 <= nsize c.
Proof. destruct c; [cbn; lia|]. unfold nsize. pose proof (esize_nonneg (l :: c)). lia. Qed.
Lemma nsizes_nonneg bs : 0 <= nsizes bs.
Proof. induction bs as [|c bs IH]; [cbn; lia|]. cbn [nsizes fold_right]. fold (nsizes bs). pose proof (nsize_nonneg c). lia. Qed.

Lemma write_one_bucket_spec max block i chain mo n :
  max <= LIM -> zlen block = max -> 0 <= i < n -> 16 + 4 * n <= mo + 1 ->
  mo + 1 + nsize chain <= max -> Forall (fun s => zlen s <= 1040) chain ->
  exists block',
    bm_write_one_bucket block i chain max mo = Ok (block', mo + nsize chain) /\
    zlen block' = max /\
    bucket_at block' i chain mo (mo + nsize chain) /\
    (forall j m, 0 <= j -> 0 <= m -> j + m <= mo + 1 -> (j + m <= 16 + 4 * i \/ 16 + 4 * i + 4 <= j) ->
       zslice block' j m = zslice block j m).
Proof.
  intros HM HL Hi Hn HB HF. assert (max <= 2147479552) as HM' by exact HM.
  pose proof (nsize_nonneg chain).
  assert (u32 (16 + u32 (4 * i)) = 16 + 4 * i) as EU by (unfold u32; rewrite !Z.mod_small; lia).
  unfold bm_write_one_bucket. rewrite EU.
  destruct chain as [|s rest].
  - rewrite write32_splice by (try assumption; lia). cbn [bind nsize].
    rewrite Z.add_0_r. eexists. split; [reflexivity|].
    assert (zlen (be32 0) = 4) as E4 by reflexivity.
    split; [rewrite zlen_splice; lia|]. split.
    + unfold bucket_at. rewrite <- E4. apply zslice_splice_same; lia.
    + intros j m Hj Hm Hjm Hd. apply zslice_splice_disj; lia.
  - assert (u32 (mo + 1) = mo + 1) as EU1.
    { unfold nsize in HB. pose proof (esize_nonneg (s :: rest)). unfold u32; apply Z.mod_small; lia. }
    rewrite EU1.
    set (chain := s :: rest) in *. assert (nsize chain = esize chain + 1) as En by reflexivity.
    pose proof (esize_nonneg chain).
    rewrite write32_splice by (try assumption; lia). cbn [bind].
    replace (max <=? mo + 1) with false by lia.
    assert (zlen (be32 (mo + 1)) = 4) as E4 by reflexivity.
    set (b1 := splice block (16 + 4 * i) (be32 (mo + 1))).
    assert (zlen b1 = max) as HL1 by (unfold b1; rewrite zlen_splice; lia).
    rewrite write_chain_splice by (try assumption; lia). cbn [bind].
    set (b2 := splice b1 (mo + 1) (enc_chain chain)).
    pose proof (zlen_enc_chain chain) as EC.
    assert (zlen b2 = max) as HL2 by (unfold b2; rewrite zlen_splice; lia).
    unfold bm_write_term. replace (max <=? mo + 1 + esize chain) with false by lia.
    rewrite wr_splice by lia. cbn [bind].
    replace (mo <? mo + 1 + esize chain) with true by lia.
    replace (mo + 1 + esize chain =? 0) with false by lia.
    assert (splice b2 (mo + 1 + esize chain) [255] = splice b1 (mo + 1) (enc_chain chain ++ [255])) as ES.
    { unfold b2. rewrite <- EC. apply splice_splice; [lia|]. change (zlen [255]) with 1. lia. }
    rewrite ES.
    assert (zlen (enc_chain chain ++ [255]) = esize chain + 1) as EL5
      by (rewrite zlen_app, EC; reflexivity).
    eexists. split; [do 2 f_equal; lia|].
    split; [rewrite zlen_splice; lia|]. split.
    + exists (mo + 1). split; [lia|]. split; [lia|]. split.
      * rewrite zslice_splice_disj by lia. rewrite <- E4. unfold b1. apply zslice_splice_same; lia.
      * rewrite <- EL5. apply zslice_splice_same; lia.
    + intros j m Hj Hm Hjm Hd. rewrite zslice_splice_disj by lia.
      unfold b1. apply zslice_splice_disj; lia.
Qed.

Lemma write_buckets_spec max : max <= LIM -> forall bs block i mo,
  zlen block = max -> 0 <= i -> 16 + 4 * (i + zlen bs) <= mo + 1 ->
  mo + 1 + nsizes bs <= max -> Forall (Forall (fun s => zlen s <= 1040)) bs ->
  exists block',
    bm_write_buckets block i bs max mo = Ok (block', mo + nsizes bs) /\
    zlen block' = max /\
    (forall k chain, nth_error bs k = Some chain ->
        bucket_at block' (i + Z.of_nat k) chain mo (mo + nsizes bs)) /\
    (forall j m, 0 <= j -> 0 <= m -> j + m <= mo + 1 -> (j + m <= 16 + 4 * i \/ 16 + 4 * (i + zlen bs) <= j) ->
       zslice block' j m = zslice block j m).
Proof.
  intros HM. assert (max <= 2147479552) as HM' by exact HM.
  induction bs as [|chain bs IH]; intros block i mo HL Hi Hmo HB HF; cbn [bm_write_buckets].
  - cbn [nsizes fold_right]. rewrite Z.add_0_r. exists block. split; [reflexivity|]. split; [exact HL|]. split.
    + intros [|k] c E; discriminate.
    + reflexivity.
  - inversion HF as [|? ? HFc HFr]; subst.
    cbn [nsizes fold_right] in *. fold (nsizes bs) in *.
    rewrite zlen_cons in Hmo. pose proof (zlen_nonneg bs). pose proof (nsizes_nonneg bs). pose proof (nsize_nonneg chain).
    destruct (write_one_bucket_spec (zlen block) block i chain mo (i + (zlen bs + 1)))
      as (b1 & E1 & L1 & B1 & F1); try assumption; try reflexivity; try lia.
    rewrite E1. cbn [bind].
    destruct (IH b1 (i + 1) (mo + nsize chain)) as (b2 & E2 & L2 & B2 & F2); try assumption; try lia.
    rewrite E2. exists b2. split; [do 2 f_equal; lia|]. split; [exact L2|]. split.
    + intros [|k] c E; cbn [nth_error] in E.
      * injection E as <-. rewrite Z.add_0_r.
        unfold bucket_at in *. destruct chain as [|s rest].
        -- rewrite F2 by lia. exact B1.
        -- destruct B1 as (off & O1 & O2 & O3 & O4). exists off. split; [exact O1|]. split; [lia|].
           pose proof (esize_nonneg (s :: rest)).
           split.
           ++ rewrite F2 by lia. exact O3.
           ++ rewrite F2; [exact O4|lia|lia|lia|]. right. lia.
      * specialize (B2 k c E). replace (i + Z.of_nat (S k)) with (i + 1 + Z.of_nat k) by lia.
        unfold bucket_at in *. destruct c as [|s rest]; [exact B2|].
        destruct B2 as (off & O1 & O2 & O3 & O4). exists off. split; [lia|]. split; [lia|]. auto.
    + intros j m Hj Hm Hjm Hd. rewrite zlen_cons in Hd. rewrite F2; [apply F1|..]; lia.
Qed.

Lemma nsizes_bound bs : nsizes bs <= tsize bs + zlen bs.
Proof.
  induction bs as [|c bs IH]; [cbn; lia|]. cbn [nsizes tsize fold_right]. fold (nsizes bs). fold (tsize bs).
  rewrite zlen_cons. assert (nsize c <= esize c + 1) by (destruct c; cbn [nsize esize fold_right]; lia). lia.
Qed.

Lemma make_block_spec bs k1 k2 total junk :
  (forall n, 0 <= n -> zlen (junk n) = n) ->
  0 <= k1 < 4294967296 -> 0 <= k2 < 4294967296 -> 0 <= total -> total = tsize bs ->
  16 + 5 * zlen bs + total <= LIM -> Forall (Forall (fun s => zlen s <= 1040)) bs ->
  exists block mo, bm_make_block bs k1 k2 total junk = Ok (block, mo) /\
    16 + 4 * zlen bs <= mo + 1 /\ mo + 1 <= zlen block /\ mo + 1 <= LIM /\
    zslice block 0 16 = [0; 68; 119; 66] ++ be32 k1 ++ be32 k2 ++ be32 (zlen bs) /\
    (forall k chain, nth_error bs k = Some chain -> bucket_at block (Z.of_nat k) chain (15 + 4 * zlen bs) mo).
Proof.
  intros HJ Hk1 Hk2 Ht0 Ht HB HF. unfold LIM in HB. pose proof (zlen_nonneg bs).
  unfold bm_make_block.
  assert (u32 (16 + 4 * zlen bs + total + zlen bs) = 16 + 4 * zlen bs + total + zlen bs) as EU
    by (unfold u32; apply Z.mod_small; lia).
  rewrite EU. set (max := 16 + 4 * zlen bs + total + zlen bs).
  assert (max <= LIM) as HM by (unfold max, LIM; lia).
  assert (max <= 2147479552) as HM' by exact HM.
  assert (zlen (junk max) = max) as HL by (apply HJ; lia).
  unfold bm_write_header. replace (max <? 16) with false by lia.
  assert (forall l o v, zlen l = max -> 0 <= o < max ->
     wr l o v = Ok (splice l o [v]) /\ zlen (splice l o [v]) = max) as WR.
  { intros l o v Hl Ho. split; [apply wr_splice; lia|]. rewrite zlen_splice; change (zlen [v]) with 1; lia. }
  assert (16 <= max) as Hmax by lia.
  assert (forall A n B, zlen A = n -> n + zlen B <= 16 ->
     splice (splice (junk max) 0 A) n B = splice (junk max) 0 (A ++ B)) as SS.
  { intros A n B HA HB'. rewrite <- HA. change (zlen A) with (0 + zlen A) at 1. apply splice_splice; lia. }
  assert (forall d, zlen d <= 16 -> zlen (splice (junk max) 0 d) = max) as LS by (intros; rewrite zlen_splice; lia).
  destruct (WR (junk max) 0 0) as [-> L0]; [assumption|lia|]. cbn [bind].
  destruct (WR (splice (junk max) 0 [0]) 1 68) as [-> L1]; [assumption|lia|]. cbn [bind].
  rewrite (SS [0] 1 [68]) in * by (try reflexivity; change (zlen [68]) with 1; lia).
  destruct (WR (splice (junk max) 0 ([0] ++ [68])) 2 119) as [-> L2]; [assumption|lia|]. cbn [bind].
  rewrite (SS ([0]++[68]) 2 [119]) in * by (try reflexivity; change (zlen [119]) with 1; lia).
  destruct (WR (splice (junk max) 0 (([0] ++ [68]) ++ [119])) 3 66) as [-> L3]; [assumption|lia|]. cbn [bind].
  rewrite (SS (([0]++[68]) ++ [119]) 3 [66]) in * by (try reflexivity; change (zlen [66]) with 1; lia).
  change ((([0] ++ [68]) ++ [119]) ++ [66]) with [0; 68; 119; 66] in *.
  rewrite write32_splice by (try assumption; lia). cbn [bind].
  rewrite (SS [0; 68; 119; 66] 4 (be32 k1)) by (try reflexivity; change (zlen (be32 k1)) with 4; lia).
  rewrite write32_splice; [|apply LS; change (zlen ([0;68;119;66] ++ be32 k1)) with 8; lia|assumption|lia|lia|assumption]. cbn [bind].
  rewrite (SS ([0; 68; 119; 66] ++ be32 k1) 8 (be32 k2)) by (try reflexivity; change (zlen (be32 k2)) with 4; lia).
  rewrite write32_splice; [|apply LS; change (zlen (([0;68;119;66] ++ be32 k1) ++ be32 k2)) with 12; lia|assumption|lia|lia|lia]. cbn [bind].
  rewrite (SS (([0; 68; 119; 66] ++ be32 k1) ++ be32 k2) 12 (be32 (zlen bs))) by (try reflexivity; change (zlen (be32 (zlen bs))) with 4; lia).
  rewrite <- !app_assoc.
  set (hdr := [0; 68; 119; 66] ++ be32 k1 ++ be32 k2 ++ be32 (zlen bs)).
  assert (zlen hdr = 16) as LH by reflexivity.
  assert (u32 (16 + zlen bs * 4 - 1) = 15 + 4 * zlen bs) as EU2 by (unfold u32; rewrite Z.mod_small; lia).
  rewrite EU2.
  pose proof (nsizes_bound bs). pose proof (nsizes_nonneg bs).
  destruct (write_buckets_spec max HM bs (splice (junk max) 0 hdr) 0 (15 + 4 * zlen bs))
    as (block & E & L & B & F); try assumption; try lia.
  rewrite E. exists block, (15 + 4 * zlen bs + nsizes bs). split; [reflexivity|].
  split; [lia|]. split; [lia|]. split; [unfold LIM; lia|]. split.
  - rewrite F by lia. rewrite <- LH. apply zslice_splice_same; lia.
  - intros k chain Hk. specialize (B k chain Hk). rewrite Z.add_0_l in B. exact B.
Qed.

(** ** Looking up in the finished image *)
Lemma zslice_get l i n d j : zslice l i n = d -> 0 <= i -> 0 <= j < n -> zget l (i + j) = zget d j.
Proof. intros <- Hi Hj. symmetry. apply zget_zslice; lia. Qed.

Lemma read32_be32 block off max v :
  zslice block off 4 = be32 v -> 0 <= off -> off + 4 <= max -> max <= LIM -> 0 <= v < 4294967296 ->
  dbh_read32 block off max = Ok v.
Proof.
  unfold LIM. intros HS H0 H1 HM Hv. unfold dbh_read32.
  assert (u32 (off + 3) = off + 3) as EU by (unfold u32; apply Z.mod_small; lia). rewrite EU.
  replace (max <=? off + 3) with false by lia.
  pose proof (zslice_get _ _ _ _ 0 HS H0 ltac:(lia)) as G0. rewrite Z.add_0_r in G0.
  pose proof (zslice_get _ _ _ _ 1 HS H0 ltac:(lia)) as G1.
  pose proof (zslice_get _ _ _ _ 2 HS H0 ltac:(lia)) as G2.
  pose proof (zslice_get _ _ _ _ 3 HS H0 ltac:(lia)) as G3.
  cbn in G0, G1, G2, G3.
  rewrite (rd_of_zget _ _ _ G0), (rd_of_zget _ _ _ G1), (rd_of_zget _ _ _ G2), (rd_of_zget _ _ _ G3).
  cbn [bind]. rewrite be32_lor by (unfold byte; lia). f_equal. lia.
Qed.

Lemma enc_chain_zlen_pos s rest : 2 <= zlen (enc_chain (s :: rest)).
Proof. cbn [enc_chain]. rewrite !zlen_app. change (zlen (be16 (zlen s))) with 2.
  pose proof (zlen_nonneg s). pose proof (zlen_nonneg (enc_chain rest)). lia. Qed.

Lemma zslice_sub l i n d j m :
  zslice l i n = d -> 0 <= i -> 0 <= j -> 0 <= m -> j + m <= n ->
  zslice l (i + j) m = zslice d j m.
Proof. intros <- Hi Hj Hm H. rewrite zslice_zslice by lia. reflexivity. Qed.

Lemma walk_chain block max q : max <= LIM -> zlen block = max -> forall chain fuel off,
  0 <= off -> off + esize chain + 1 <= max ->
  zslice block off (esize chain + 1) = enc_chain chain ++ [255] ->
  Forall (fun s => zlen s <= 1040) chain ->
  (length chain < fuel)%nat ->
  dbh_walk fuel block max q off = Ok (if existsb (zlist_eqb q) chain then 1 else 0).
Proof.
  intros HM HL. assert (max <= 2147479552) as HM' by exact HM.
  induction chain as [|s rest IH]; intros fuel off H0 H1 HS HF Hfuel;
    (destruct fuel as [|fuel]; [cbn in Hfuel; lia|]); cbn [dbh_walk].
  - cbn [esize fold_right enc_chain app existsb] in *.
    replace (off <? max) with true by lia. cbn [negb].
    pose proof (zslice_get _ _ _ _ 0 HS H0 ltac:(lia)) as G0. rewrite Z.add_0_r in G0. cbn in G0.
    rewrite (rd_of_zget _ _ _ G0). reflexivity.
  - inversion HF as [|? ? Hs HF']; subst.
    cbn [esize fold_right] in H1, HS. fold (esize rest) in *. pose proof (esize_nonneg rest). pose proof (zlen_nonneg s).
    replace (off <? zlen block) with true by lia. cbn [negb].
    cbn [enc_chain] in HS. rewrite <- !app_assoc in HS.
    pose proof (zslice_get _ _ _ _ 0 HS H0 ltac:(lia)) as G0. rewrite Z.add_0_r in G0.
    pose proof (zslice_get _ _ _ _ 1 HS H0 ltac:(lia)) as G1.
    change (zget (be16 (zlen s) ++ s ++ enc_chain rest ++ [255]) 0) with (Some (zlen s / 256)) in G0.
    change (zget (be16 (zlen s) ++ s ++ enc_chain rest ++ [255]) 1) with (Some (zlen s mod 256)) in G1.
    rewrite (rd_of_zget _ _ _ G0). cbn [bind].
    replace (zlen s / 256 =? 255) with false by lia.
    unfold u32. rewrite (Z.mod_small (off + 1)), (Z.mod_small (zlen block - 1)) by lia.
    replace (zlen block - 1 <=? off + 1) with false by lia.
    rewrite (rd_of_zget _ _ _ G1). cbn [bind].
    rewrite lor_shiftl8 by lia.
    replace (zlen s / 256 * 256 + zlen s mod 256) with (zlen s) by lia.
    replace ((zlen s <? 0) || (65280 <? zlen s)) with false by lia.
    rewrite (Z.mod_small (off + 1 + 1)), (Z.mod_small (off + 1 + 1 + zlen s)) by lia.
    replace (zlen block <? off + 1 + 1 + zlen s) with false by lia.
    assert (zslice block (off + 1 + 1) (zlen s) = s) as SS.
    { replace (off + 1 + 1) with (off + 2) by lia.
      rewrite (zslice_sub _ _ _ _ 2 (zlen s) HS) by lia.
      rewrite zslice_app_r.
      - change (2 - zlen (be16 (zlen s))) with 0. rewrite zslice_app_l by lia. apply zslice_all.
      - change (zlen (be16 (zlen s))) with 2. lia.
      - lia.
      - rewrite zlen_app. change (zlen (be16 (zlen s))) with 2. pose proof (zlen_nonneg (enc_chain rest ++ [255])). lia. }
    assert (zslice block (off + 1 + 1 + zlen s) (esize rest + 1) = enc_chain rest ++ [255]) as SR.
    { replace (off + 1 + 1 + zlen s) with (off + (2 + zlen s)) by lia.
      rewrite (zslice_sub _ _ _ _ (2 + zlen s) (esize rest + 1) HS) by lia.
      assert (zlen (enc_chain rest ++ [255]) = esize rest + 1) as EL
        by (rewrite zlen_app, zlen_enc_chain; reflexivity).
      assert (zlen (be16 (zlen s) ++ s) = 2 + zlen s) as E2 by (rewrite zlen_app; reflexivity).
      rewrite (app_assoc (be16 (zlen s))). rewrite zslice_app_r by lia.
      rewrite E2, Z.sub_diag, <- EL. apply zslice_all. }
    assert (dbh_walk fuel block (zlen block) q (off + 1 + 1 + zlen s)
            = Ok (if existsb (zlist_eqb q) rest then 1 else 0)) as EW.
    { apply IH; try assumption; try lia. cbn in Hfuel. lia. }
    cbn [existsb].
    destruct (Z.eqb_spec (zlen s) (zlen q)) as [E|N]; cbn [negb].
    + destruct (dbh_cmp_ok block q (off + 1 + 1) (off + 1 + 1 + zlen s) (zlen s)) as (m & o & -> & Hmo); try lia.
      cbn [bind]. rewrite <- E, SS in Hmo.
      destruct Hmo as [[-> Hq]|(Hm & -> & Hq)].
      * subst q. rewrite zlist_eqb_refl. reflexivity.
      * replace (m =? 0) with false by lia.
        destruct (zlist_eqb q s) eqn:Eq; [apply zlist_eqb_spec in Eq; congruence|]. exact EW.
    + destruct (zlist_eqb q s) eqn:Eq; [apply zlist_eqb_spec in Eq; congruence|]. exact EW.
Qed.

Lemma wire_len_bound labels e :
  bl_line_ok (BLName labels e) -> zlen (wire (lower_name labels)) <= 1040.
Proof.
  intros H. destruct (convert_line labels e H) as (str & n & E & Hn & <-).
  assert (zlen str <= 1040).
  { unfold bm_dns_convert_string in E. destruct (Z.ltb_spec 1040 (zlen (32 :: dotted labels ++ eol_bytes e))) as [HH|HH].
    - destruct H as [HH2 _]. cbn [bl_line_text] in HH2. rewrite zlen_cons in HH. lia.
    - assert (forall fuel len s c d s' r, bm_dns_loop fuel len s c d = Ok (s', r) -> zlen s' = zlen s) as LP.
      { clear. induction fuel as [|fuel IH]; intros len s c d s' r; [discriminate|]. cbn [bm_dns_loop].
        assert (forall l i v l', wr l i v = Ok l' -> zlen l' = zlen l) as WL.
        { intros l i v l'. unfold wr. destruct (_ && _); [|discriminate]. intros X; injection X as <-. apply zlen_zupd. }
        destruct (negb _); [congruence|]. destruct (_ || _); [congruence|].
        destruct (rd s c) as [x| |]; cbn [bind]; try discriminate.
        destruct ((x <=? 90) && (65 <=? x)).
        - destruct (wr s c (x + 32)) as [s1| |] eqn:W; cbn [bind]; try discriminate. apply WL in W.
          destruct (rd s1 c) as [x1| |]; cbn [bind]; try discriminate.
          destruct (_ || _); [|intros X; apply IH in X; lia].
          destruct (_ && _); [|intros X; injection X as <- _; lia].
          destruct (wr s1 d _) as [s2| |] eqn:W2; cbn [bind]; try discriminate. apply WL in W2.
          destruct (_ =? 0); [intros X; injection X as <- _; lia|intros X; apply IH in X; lia].
        - cbn [bind]. destruct (rd s c) as [x1| |]; cbn [bind]; try discriminate.
          destruct (_ || _); [|intros X; apply IH in X; lia].
          destruct (_ && _); [|intros X; injection X as <- _; lia].
          destruct (wr s d _) as [s2| |] eqn:W2; cbn [bind]; try discriminate. apply WL in W2.
          destruct (_ =? 0); [intros X; injection X as <- _; lia|intros X; apply IH in X; lia]. }
      apply bind_Ok in E as ([s1 r] & E1 & E2). apply LP in E1.
      destruct r as [ret|dp]; [injection E2 as <- _; lia|].
      apply bind_Ok in E2 as (s2 & E2 & E3). injection E3 as <- _.
      destruct (_ && _); [|injection E2 as <-; lia].
      unfold wr in E2. destruct (_ && _) in E2; [|discriminate]. injection E2 as <-. rewrite zlen_zupd. lia. }
  unfold zslice, zlen in *. rewrite firstn_length, skipn_length. lia.
Qed.

Lemma bl_names_bound f : Forall bl_line_ok f -> Forall (fun s => zlen s <= 1040) (bl_names f).
Proof.
  induction f as [|l f IH]; intros H; [constructor|]. inversion H as [|? ? Hl Hr]; subst.
  destruct l as [labels e|t]; cbn; [|auto]. constructor; [|auto]. now apply (wire_len_bound labels e).
Qed.

Lemma length_raw_lines f : Forall bl_line_ok f -> zlen (raw_lines f) = zlen (bl_names f).
Proof.
  induction f as [|l f IH]; intros H; [reflexivity|]. inversion H; subst.
  destruct l; cbn [raw_lines bl_names]; rewrite ?zlen_cons, IH; auto.
Qed.

Lemma chain_fuel chain : Z.of_nat (length chain) * 2 <= esize chain.
Proof.
  induction chain as [|s rest IH]; [cbn; lia|]. cbn [esize fold_right length]. fold (esize rest).
  pose proof (zlen_nonneg s). lia.
Qed.

Lemma blocklist_roundtrip f k1 k2 nb junk :
  Forall bl_line_ok f -> bl_names f <> [] ->
  0 <= k1 < 4294967296 -> 0 <= k2 < 4294967296 ->
  (forall n, 0 <= n -> zlen (junk n) = n) ->
  bl_size nb f <= LIM ->
  exists file b,
    block_hash_make (bl_text f) k1 k2 nb junk = Ok file /\
    dbh_make_block_hash file = Ok b /\
    bh_size b = bl_buckets nb (zlen (bl_names f)) /\
    forall q, zlen q <= 65280 ->
      dbh_has_string b q = Ok (if existsb (zlist_eqb q) (bl_names f) then 1 else 0).
Proof.
  intros Hf Hne Hk1 Hk2 HJ HB. unfold LIM in HB. unfold bl_size in HB.
  fold (tot (bl_names f)) in HB.
  assert (0 <= tot (bl_names f)) as Htot by apply esize_nonneg.
  unfold block_hash_make. rewrite read_file_spec by (try assumption; lia). cbn [bind].
  rewrite convert_chain_spec by assumption. cbn [bind].
  rewrite length_raw_lines by assumption.
  assert (0 < zlen (bl_names f)) as Hpos.
  { destruct (bl_names f); [congruence|]. rewrite zlen_cons. pose proof (zlen_nonneg l0). lia. }
  set (hs := match nb with None => _ | Some n => _ end).
  assert (hs = bl_buckets nb (zlen (bl_names f)) /\ 0 < hs) as [Ehs Hhs].
  { unfold hs, bl_buckets. destruct nb as [n|]; [destruct (Z.ltb_spec n 1024); lia|].
    rewrite Z.shiftr_div_pow2 by lia. change (2 ^ 2) with 4. lia. }
  rewrite <- Ehs in *. clearbody hs.
  destruct (fill_hash_spec k1 k2 hs Hhs (bl_names f) (repeat [] (Z.to_nat hs)) 0)
    as (bs & t & -> & L1 & L2 & L3 & L4 & L5 & _); try lia.
  { unfold zlen. rewrite repeat_length. lia. }
  { clear. induction (Z.to_nat hs) as [|n IH]; [reflexivity|]. cbn [repeat tsize fold_right]. fold (tsize (repeat [] n)). cbn [esize fold_right]. lia. }
  { intros i chain s Hi Hs. apply nth_error_In in Hi. apply repeat_spec in Hi. subst. destruct Hs. }
  cbn [bind].
  assert (Forall (Forall (fun s => zlen s <= 1040)) bs) as HFb.
  { apply Forall_forall. intros chain Hc. apply In_nth_error in Hc as [i Hi]. apply Forall_forall. intros s Hs.
    destruct (L4 i chain s Hi Hs) as (_ & [Hin|(c0 & P1 & P2)]).
    - pose proof (bl_names_bound f Hf) as Hbn. rewrite Forall_forall in Hbn. auto.
    - apply nth_error_In in P1. apply repeat_spec in P1. subst. destruct P2. }
  destruct (make_block_spec bs k1 k2 t junk) as (block & mo & -> & M1 & M2 & M3 & M4 & M5); try assumption; try lia.
  { unfold LIM. lia. }
  cbn [bind]. unfold LIM in M3. rewrite L1 in *.
  assert (u32 (mo + 1) = mo + 1) as EU by (unfold u32; apply Z.mod_small; lia). rewrite EU.
  set (file := zslice block 0 (mo + 1)).
  assert (zlen file = mo + 1) as LF by (unfold file; apply zlen_zslice; lia).
  assert (forall i n, 0 <= i -> 0 <= n -> i + n <= mo + 1 -> zslice file i n = zslice block i n) as SL.
  { intros i n Hi Hn Hin. unfold file. rewrite zslice_zslice by lia. reflexivity. }
  assert (zslice file 0 16 = [0; 68; 119; 66] ++ be32 k1 ++ be32 k2 ++ be32 hs) as HH
    by (rewrite SL by lia; exact M4).
  assert (u32 (zlen file) = mo + 1) as EU2 by (rewrite LF; exact EU).
  exists file, {| bh_block := file; bh_max := mo + 1; bh_key1 := k1; bh_key2 := k2; bh_size := hs |}.
  split; [reflexivity|]. split; [|split; [reflexivity|]].
  - unfold dbh_make_block_hash. rewrite EU2.
    replace (mo + 1 <? 16) with false by lia. replace (2147479552 <? mo + 1) with false by lia.
    assert (zslice file 0 (mo + 1) = file) as EF by (rewrite <- LF; apply zslice_all). rewrite EF.
    pose proof (zslice_get _ _ _ _ 0 HH ltac:(lia) ltac:(lia)) as G0.
    pose proof (zslice_get _ _ _ _ 1 HH ltac:(lia) ltac:(lia)) as G1.
    pose proof (zslice_get _ _ _ _ 2 HH ltac:(lia) ltac:(lia)) as G2.
    pose proof (zslice_get _ _ _ _ 3 HH ltac:(lia) ltac:(lia)) as G3.
    cbn [Z.add] in G0, G1, G2, G3.
    change (zget file 0 = Some 0) in G0. change (zget file 1 = Some 68) in G1.
    change (zget file 2 = Some 119) in G2. change (zget file 3 = Some 66) in G3.
    rewrite (rd_of_zget _ _ _ G0), (rd_of_zget _ _ _ G1), (rd_of_zget _ _ _ G2), (rd_of_zget _ _ _ G3).
    cbn [bind Z.eqb Pos.eqb negb orb].
    rewrite (read32_be32 file 4 (mo + 1) k1), (read32_be32 file 8 (mo + 1) k2), (read32_be32 file 12 (mo + 1) hs);
      try (unfold LIM; lia).
    + cbn [bind]. replace (mo + 1 <? hs) with false by lia. reflexivity.
    + exact (zslice_sub _ _ _ _ 12 4 HH ltac:(lia) ltac:(lia) ltac:(lia) ltac:(lia)).
    + exact (zslice_sub _ _ _ _ 8 4 HH ltac:(lia) ltac:(lia) ltac:(lia) ltac:(lia)).
    + exact (zslice_sub _ _ _ _ 4 4 HH ltac:(lia) ltac:(lia) ltac:(lia) ltac:(lia)).
  - intros q Hq. unfold dbh_has_string. cbn [bh_block bh_max bh_key1 bh_key2 bh_size].
    pose proof (zlen_nonneg q).
    replace ((zlen q <? 0) || (65280 <? zlen q)) with false by lia.
    replace (hs =? 0) with false by lia.
    set (bucket := halfsip13 q k1 k2 mod hs).
    assert (0 <= bucket < hs) as Hbk by (apply Z.mod_pos_bound; lia).
    assert (u32 (16 + u32 (4 * bucket)) = 16 + 4 * bucket) as EU3 by (unfold u32; rewrite !Z.mod_small; lia).
    rewrite EU3.
    destruct (nth_error bs (Z.to_nat bucket)) as [chain|] eqn:En.
    2:{ apply nth_error_None in En. unfold zlen in L1. lia. }
    pose proof (M5 _ _ En) as B. rewrite Z2Nat.id in B by lia.
    assert (existsb (zlist_eqb q) (bl_names f) = existsb (zlist_eqb q) chain) as EE.
    { apply eq_true_iff_eq. rewrite !existsb_exists. split; intros (x & Hx & Ex); apply zlist_eqb_spec in Ex; subst x.
      - destruct (L5 q Hx) as (c & Hc & Hin). fold bucket in Hc. rewrite En in Hc. injection Hc as <-.
        exists q. split; [exact Hin|apply zlist_eqb_refl].
      - destruct (L4 _ _ q En Hx) as (_ & [Hin|(c0 & P1 & P2)]).
        + exists q. split; [exact Hin|apply zlist_eqb_refl].
        + apply nth_error_In in P1. apply repeat_spec in P1. subst. destruct P2. }
    rewrite EE. unfold bucket_at in B. destruct chain as [|s rest].
    + rewrite (read32_be32 file (16 + 4 * bucket) (mo + 1) 0); [reflexivity| | | | |]; try (unfold LIM; lia).
      rewrite SL by lia. exact B.
    + destruct B as (off & O1 & O2 & O3 & O4). set (chain := s :: rest) in *.
      assert (0 <= esize chain) as Hes by apply esize_nonneg.
      assert (2 <= esize chain) as Hes2 by (rewrite <- zlen_enc_chain; apply enc_chain_zlen_pos).
      rewrite (read32_be32 file (16 + 4 * bucket) (mo + 1) off); try (unfold LIM; lia).
      2:{ rewrite SL by lia. exact O3. }
      cbn [bind]. replace (off =? 0) with false by lia.
      assert (u32 (mo + 1 - 1) = mo) as EU4 by (unfold u32; rewrite Z.mod_small; lia). rewrite EU4.
      replace (mo <=? off) with false by lia.
      apply walk_chain.
      * unfold LIM; lia.
      * exact LF.
      * lia.
      * lia.
      * rewrite SL by lia. exact O4.
      * rewrite Forall_forall in HFb. apply HFb. eapply nth_error_In; eauto.
      * pose proof (chain_fuel chain). unfold zlen in LF. lia.
Qed.
