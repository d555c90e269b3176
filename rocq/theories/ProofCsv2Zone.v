(** Zone files: what is between the lines, commands. *)
From Coq Require Import String.
From Verif Require Import CBase Bits ModelDwStr SpecDwStr ProofDwStr SpecNames SpecMessage SpecQuery ModelJsStr SpecJsStr ProofJsStr ModelQueries SpecQueries ProofQueries ProofHname ProofJsList ModelServe ProofServe ProofServeRun
  ModelIpAcl ModelCsv2 SpecCsv2 ProofCsv2 ProofCsv2Names ProofCsv2Addr PropsCsv2 ModelCsv2Rr SpecCsv2Rr ProofCsv2Rr PropsCsv2Rr ModelCsv2Txt SpecCsv2Txt ProofCsv2Txt ModelCsv2Zone SpecCsv2Zone.
Local Open Scope Z_scope.
Local Open Scope list_scope.

(** ** Comments *)
Lemma comment_char f c rest : reading f (c :: rest) -> c <> 123 -> f_tilde f = true -> 0 <= f_seen f < 10 ->
  exists g, csv2_readchar f = (c, g) /\ (if c =? 126 then set_seen g (f_seen g - 1) else g) = step f rest c.
Proof.
  intros (O & R) N T SN. unfold csv2_readchar. rewrite O, R. cbn [negb]. replace (c =? 123) with false by lia. cbn [f_brace f_tilde andb]. rewrite T. cbn [negb]. rewrite andb_false_r.
  destruct (Z.eqb_spec c 126) as [-> |NE]; cbn [andb].
  - replace (f_seen f <? 10) with true by lia. eexists. split; [reflexivity|]. unfold set_seen, step. cbn. try rewrite O. try rewrite T. f_equal. lia.
  - eexists. split; [reflexivity|]. unfold step. try rewrite O. try rewrite T. reflexivity.
Qed.
Lemma comment_loop_on c rest l : c = 10 \/ c = 13 -> forall n f, reading f (l ++ c :: rest) -> f_tilde f = true -> 0 <= f_seen f < 10 -> Forall (fun b => 0 <= b < 256 /\ b <> 10 /\ b <> 13 /\ b <> 123) l -> (length l < n)%nat ->
  exists g, comment_loop (S n) f = (true, g) /\ goes f g rest.
Proof.
  intros C. induction l as [|b l IH]; intros n f R T SN F L; cbn [app length] in *.
  - destruct (comment_char f c rest R ltac:(lia) T SN) as (g & E & EG). cbn [comment_loop]. rewrite E. cbv zeta. rewrite EG. destruct n as [|n]; [lia|]. replace (negb (c =? 10) && negb (c =? 13) && negb (c =? -2)) with false by lia. eexists. split; [reflexivity|]. split; [apply step_reading|cbn; auto].
  - apply Forall_cons_iff in F as (FB & F). destruct (comment_char f b (l ++ c :: rest) R ltac:(lia) T SN) as (g & E & EG). cbn [comment_loop]. rewrite E. cbv zeta. rewrite EG. destruct n as [|n]; [lia|]. replace (negb (b =? 10) && negb (b =? 13) && negb (b =? -2)) with true by lia.
    destruct (IH n (step f (l ++ c :: rest) b) (step_reading _ _ _) T SN F ltac:(lia)) as (h & EH & GH). exists h. split; [exact EH|]. refine (goes_trans _ _ _ _ _ _ GH). split; [apply step_reading|cbn; auto].
Qed.
Lemma comment_on f l c rest : filler_ok (Comment l c) -> reading f (l ++ c :: rest) -> 0 <= f_seen f < 10 -> exists g, process_comment f = g /\ goes f g rest.
Proof.
  intros (C & F & L) (O & R) SN. unfold process_comment. assert (exists n, Z.to_nat 5000 = S n /\ (length l < n)%nat) as (n & -> & LN) by (exists (Z.to_nat 4999); unfold zlen in L; lia).
  destruct (comment_loop_on c rest l C n (set_tilde f true) (conj O R) eq_refl SN F LN) as (g & -> & (RG & _ & B & SE & H)). eexists. split; [reflexivity|]. destruct RG as (OG & RG). split; [split; [exact OG|exact RG]|]. cbn. auto.
Qed.

(** ** Between the lines *)
Lemma bars_nonneg g : forall b, 0 <= bars b g.
Proof. induction g as [|x g IH]; intros b; cbn [bars]; [destruct (b =? 124); lia|]. destruct x as [c| |l c]; [pose proof (IH c)|pose proof (IH 0)|pose proof (IH 0)]; destruct (b =? 124); lia. Qed.
Definition marks (g : list filler) : Z := zlen (filter (fun x => match x with Tilde => true | _ => false end) g).
Lemma marks_nonneg g : 0 <= marks g. Proof. apply zlen_nonneg. Qed.
Lemma read_tilde f rest : reading f (126 :: rest) -> f_tilde f = true -> 0 <= f_seen f < 10 -> csv2_read_unicode f = (126, mkcsv2 rest 126 (f_uni f) true true (f_brace f) (f_seen f + 1) (f_hand f)).
Proof.
  intros (O & R) T SN. unfold csv2_read_unicode, csv2_readchar. rewrite O, R. cbn [negb]. change (126 =? 123) with false. change (126 =? 126) with true. cbn [f_tilde f_brace andb negb]. rewrite T. cbn [negb]. replace (f_seen f <? 10) with true by lia. reflexivity.
Qed.
Lemma gap_steps tail g : forall n c (pipe : bool) f, Forall filler_ok g -> (if pipe then 1 else 0) + (bars c g - (if c =? 124 then 1 else 0)) <= 1 -> reading f (gap_text g ++ tail) ->
  (marks g = 0 \/ (f_tilde f = true /\ 100 < f_hand f)) -> 0 <= f_seen f -> f_seen f + marks g < 10 ->
  exists c' pipe' h, first_loop (length g + n) csv2_is_starwhitis_orslash 1 c pipe f = first_loop n csv2_is_starwhitis_orslash 1 c' pipe' h /\ reading h tail /\ f_hand h = f_hand f /\ f_seen h = f_seen f + marks g /\
    (line_start c g -> c' = 13 \/ c' = 10 \/ c' = -328).
Proof.
  induction g as [|x g IH]; intros n c pipe f F P R T S0 S1.
  - exists c, pipe, f. change (marks []) with 0. cbn [length Nat.add gap_text map concat app line_start] in *. split; [reflexivity|]. split; [exact R|]. split; [reflexivity|]. split; [lia|auto].
  - apply Forall_cons_iff in F as (FX & F). cbn [gap_text map concat] in R. fold (gap_text g) in R. rewrite <- app_assoc in R. pose proof (marks_nonneg g) as MN.
    destruct x as [d| |l d]; cbn [filler_text app length Nat.add first_loop bars] in *.
    + change (marks (Blank d :: g)) with (marks g) in *. cbn [filler_ok] in FX. destruct (delim_facts d FX) as (D1 & D2 & D3 & D4 & D5 & D6 & D7 & D8 & D9). rewrite (read_ascii f d _ R D2 D3 D4).
      replace (d =? FATAL) with false by (unfold FATAL; lia). replace (d =? -2) with false by lia. replace (d =? 35) with false by lia. change (1 =? 1) with true. cbn [negb andb].
      assert (csv2_is_starwhitis_orslash d = false) as ->  by (unfold delimiter in FX; unfold csv2_is_starwhitis_orslash, csv2_is_text, csv2_is_alphanum, csv2_is_alpha, csv2_is_number; lia). rewrite !andb_false_r. replace (d =? 46) with false by lia. replace (d =? 126) with false by lia. rewrite D1. cbn [negb andb].
      assert (forall p, (if p : bool then 1 else 0) + (bars d g - (if d =? 124 then 1 else 0)) <= 1 -> exists c' pipe' h, first_loop (length g + n) csv2_is_starwhitis_orslash 1 d p (step f (gap_text g ++ tail) d) = first_loop n csv2_is_starwhitis_orslash 1 c' pipe' h /\ reading h tail /\ f_hand h = f_hand f /\ f_seen h = f_seen f + marks g /\ (line_start d g -> c' = 13 \/ c' = 10 \/ c' = -328)) as K.
      { intros p PP. exact (IH n d p (step f (gap_text g ++ tail) d) F PP (step_reading _ _ _) T S0 S1). }
      pose proof (bars_nonneg g d) as BN. destruct (Z.eqb_spec d 124) as [-> |NE].
      * destruct pipe.
        { exfalso. assert (1 <= bars 124 g) by (destruct g as [|[y| |ll y] g']; cbn [bars]; change (124 =? 124) with true; cbv iota; try (pose proof (bars_nonneg g' y)); try (pose proof (bars_nonneg g' 0)); lia). destruct (c =? 124); lia. }
        { apply K. destruct (c =? 124); lia. }
      * apply K. destruct pipe; destruct (c =? 124); lia.
    + assert (marks (Tilde :: g) = marks g + 1) as ME by (unfold marks; cbn [filter]; rewrite zlen_cons; reflexivity). rewrite ME in *. destruct T as [T|(T & TH)]; [lia|]. rewrite (read_tilde f _ R T) by lia. change (126 =? FATAL) with false. change (126 =? -2) with false. change (126 =? 35) with false. change (1 =? 1) with true. cbn [negb andb].
      change (csv2_is_starwhitis_orslash 126) with false. rewrite !andb_false_r. change (126 =? 46) with false. change (126 =? 124) with false. change (126 =? 126) with true. cbn [f_hand andb]. replace (100 <? f_hand f) with true by lia.
      destruct (IH n 126 pipe (mkcsv2 (gap_text g ++ tail) 126 (f_uni f) true true (f_brace f) (f_seen f + 1) (f_hand f)) F) as (c' & p' & h & E & RH & HH & SH & LH).
      { change (126 =? 124) with false. cbv iota. pose proof (bars_nonneg g 126). assert (bars 126 g = bars 0 g) by (destruct g; reflexivity). destruct pipe; destruct (c =? 124); lia. }
      { split; reflexivity. } { right. split; [reflexivity|exact TH]. } { cbn [f_seen]. lia. } { cbn [f_seen]. lia. }
      exists c', p', h. split; [exact E|]. split; [exact RH|]. split; [exact HH|]. cbn [f_seen] in SH. split; [lia|exact LH].
    + change (marks (Comment l d :: g)) with (marks g) in *. rewrite (read_ascii f 35 _ R) by lia. change (35 =? FATAL) with false. change (35 =? -2) with false. change (35 =? 35) with true. cbv iota.
      destruct (comment_on (step f ((l ++ [d]) ++ gap_text g ++ tail) 35) l d (gap_text g ++ tail) FX) as (h & -> & (RH & TH & _ & SH & HH)).
      { split; [reflexivity|]. cbn [f_rest step]. rewrite <- app_assoc. reflexivity. } { cbn [f_seen step]. lia. }
      cbn [f_seen f_tilde f_hand step] in *. destruct (IH n 10 pipe h F) as (c' & p' & h2 & E & RH2 & HH2 & SH2 & LH).
      { change (10 =? 124) with false. cbv iota. assert (bars 10 g = bars 0 g) by (destruct g; reflexivity). destruct pipe; destruct (c =? 124); lia. }
      { exact RH. } { rewrite TH, HH. exact T. } { lia. } { lia. }
      exists c', p', h2. split; [exact E|]. split; [exact RH2|]. split; [lia|]. split; [lia|exact LH].
Qed.
(** Up to the first character of a line *)
Lemma tilde_done h x rest h' : ok_char x -> x <> 123 -> x <> 126 -> reading h (utf8 x ++ rest) -> tilde_rule (f_hand h) (f_seen h) = Some h' ->
  exists g, csv2_tilde_processing (snd (csv2_read_unicode h)) = (1, snd (csv2_read_unicode g)) /\ reading g (utf8 x ++ rest) /\ f_hand g = h'.
Proof.
  intros K N1 N2 R T. assert (forall tl hd, let g := mkcsv2 (f_rest h) (f_just h) (f_uni h) (f_ok h) tl (f_brace h) (f_seen h) hd in reading g (utf8 x ++ rest) /\
    snd (csv2_read_unicode g) = let k := snd (csv2_read_unicode h) in mkcsv2 (f_rest k) (f_just k) (f_uni k) (f_ok k) tl (f_brace k) (f_seen k) hd) as M.
  { intros tl hd g. assert (reading g (utf8 x ++ rest)) as RG by exact R. split; [exact RG|]. destruct (Z_lt_dec x 128) as [L|L].
    - destruct K as [K|(K & _)]; [|unfold wide in K; lia]. rewrite utf8_small in * by lia. rewrite (read_ascii g x rest RG K N1 N2), (read_ascii h x rest R K N1 N2). reflexivity.
    - destruct K as [K|(K & _)]; [lia|]. rewrite (read_utf8 g x rest K RG), (read_utf8 h x rest K R). reflexivity. }
  destruct (read_char h x rest K N1 N2 R) as (k & EK & (RK & TK & BK & SK & HK) & _). rewrite EK in *. cbn [snd] in *. unfold csv2_tilde_processing. rewrite SK, HK. unfold tilde_rule in T.
  assert (f_ok k = true) as OK by exact (proj1 RK). assert (f_hand h = 0 \/ 1 <= f_hand h <= 3 \/ f_hand h = 101 \/ f_hand h = 102 \/ f_hand h = 103) as HC.
  { repeat match type of T with context [if ?b then _ else _] => destruct b eqn:? end; try discriminate; lia. }
  destruct HC as [H|[H|[H|[H|H]]]].
  - rewrite H in *. assert (f_seen h = 0 /\ h' = 0) as (_ & ->) by (destruct (f_seen h =? 0) eqn:Q; [split; [lia|inversion T; reflexivity]|destruct (f_seen h =? 1); discriminate]). exists h. rewrite EK. split; [reflexivity|]. split; [exact R|exact H].
  - replace (100 <? f_hand h) with false by lia. replace ((0 <? f_hand h) && (f_hand h <? 20)) with true by lia. assert (h' = f_hand h + 100) as -> by (repeat match type of T with context [if ?b then _ else _] => destruct b eqn:? end; try discriminate; try lia; congruence).
    destruct (M (f_tilde h) (f_hand h + 100)) as (RG & EG). eexists. split; [rewrite EG; unfold set_hand; rewrite <- TK; reflexivity|]. split; [exact RG|reflexivity].
  - rewrite H in *. change (100 <? 101) with true. cbv iota. assert (f_seen h = 0 /\ h' = 101) as (SZ & ->) by (destruct (f_seen h =? 0) eqn:Q; [split; [lia|inversion T; reflexivity]|destruct (f_seen h =? 1); discriminate]). rewrite SZ. cbn.
    destruct (M false 101) as (RG & EG). eexists. split; [rewrite EG; unfold set_tilde; try rewrite HK; reflexivity|]. split; [exact RG|reflexivity].
  - rewrite H in *. change (100 <? 102) with true. cbv iota. assert ((f_seen h = 0 /\ h' = 101) \/ (f_seen h = 1 /\ h' = 103)) as [(SZ & ->)|(SZ & ->)].
    { destruct (f_seen h =? 0) eqn:Q; [left; split; [lia|inversion T; reflexivity]|]. destruct (f_seen h =? 1) eqn:Q1; [right; split; [lia|inversion T; reflexivity]|discriminate]. }
    + rewrite SZ. cbn. destruct (M false 101) as (RG & EG). eexists. split; [rewrite EG; reflexivity|]. split; [exact RG|reflexivity].
    + rewrite SZ. cbn. destruct (M false 103) as (RG & EG). eexists. split; [rewrite EG; reflexivity|]. split; [exact RG|reflexivity].
  - rewrite H in *. change (100 <? 103) with true. cbv iota. assert (f_seen h = 1 /\ h' = 103) as (SZ & ->).
    { destruct (f_seen h =? 0) eqn:Q; [discriminate|]. destruct (f_seen h =? 1) eqn:Q1; [split; [lia|inversion T; reflexivity]|discriminate]. }
    rewrite SZ. cbn. destruct (M false 103) as (RG & EG). eexists. split; [rewrite EG; unfold set_tilde; try rewrite HK; reflexivity|]. split; [exact RG|reflexivity].
Qed.
(** csv2_get_1st before a line: up to the loop and through what is between *)
Lemma gap_on b g tail f h' : gap_ok b g -> (b = 126 -> f_hand f = 103) -> tilde_rule (f_hand f) (tildes_in b g) = Some h' -> f_just f = b -> reading f (gap_text g ++ tail) ->
  exists n c pipe h, csv2_get_1st f csv2_is_starwhitis_orslash 1 = first_loop (S n) csv2_is_starwhitis_orslash 1 c pipe h /\ reading h tail /\ f_hand h = f_hand f /\ f_seen h = tildes_in b g /\ (line_start b g -> c = 13 \/ c = 10 \/ c = -328).
Proof.
  intros (BB & F & BA & LG) B126 T JU R. pose proof (marks_nonneg g) as MN. assert (tildes_in b g = (if b =? 126 then 1 else 0) + marks g) as TI by reflexivity.
  assert (tildes_in b g <= 1 /\ (tildes_in b g = 0 \/ f_hand f = 102 \/ f_hand f = 103)) as (T1 & T2). { unfold tilde_rule in T. repeat match type of T with context [if ?q then _ else _] => destruct q eqn:? end; try discriminate; lia. }
  unfold csv2_get_1st, csv2_justread. rewrite (proj1 R), JU. unfold delimiter in BB. replace (127 <? b) with false by lia. change (negb (1 =? 1)) with false. change (1 =? 1) with true. cbn [andb]. replace (b =? 46) with false by lia.
  assert ((b =? -328) && csv2_is_starwhitis_orslash b = false) as -> by (destruct (Z.eqb_spec b (-328)) as [-> |]; reflexivity).
  assert (negb (b =? -328) && negb (csv2_is_delimiter b) && negb ((b =? 126) && (f_hand f =? 103)) = false) as -> by (unfold csv2_is_delimiter; destruct (Z.eqb_spec b 126); [rewrite B126 by assumption; cbn [andb negb Z.eqb Pos.eqb]; apply andb_false_r|lia]). cbv iota zeta.
  assert (exists n, Z.to_nat 10000 = (length g + S n)%nat) as (n & ->) by (exists (Z.to_nat 10000 - length g - 1)%nat; unfold zlen in *; lia).
  match goal with |- context [first_loop _ _ 1 b _ ?k] => set (k0 := k) end.
  assert (reading k0 (gap_text g ++ tail) /\ f_hand k0 = f_hand f /\ f_seen k0 = (if b =? 126 then 1 else 0) /\ (f_hand f = 102 \/ f_hand f = 103 -> f_tilde k0 = true)) as (RK & HK & SK & TK).
  { unfold k0. destruct R as (O & R). destruct (f_hand f =? 101) eqn:Q1; [|destruct ((f_hand f =? 102) || (f_hand f =? 103)) eqn:Q2]; cbn; (split; [split; assumption|]); (split; [reflexivity|]); (split; [reflexivity|]); try reflexivity; intros; lia. }
  destruct (gap_steps tail g (S n) b (b =? 124) k0 F) as (c & p & h & E & RH & HH & SH & LH).
  { destruct (b =? 124); lia. } { exact RK. } { rewrite HK. destruct (Z.eq_dec (marks g) 0) as [MZ|MZ]; [left; exact MZ|right]. assert (f_hand f = 102 \/ f_hand f = 103) as HC by (destruct (b =? 126); lia). split; [apply TK, HC|lia]. } { rewrite SK. destruct (b =? 126); lia. } { rewrite SK. lia. }
  exists n, c, p, h. split; [exact E|]. split; [exact RH|]. split; [lia|]. split; [lia|exact LH].
Qed.
Lemma get_start b g x rest f h' : ok_char x -> x <> 123 -> x <> 126 -> x <> 35 -> csv2_is_starwhitis_orslash x = true \/ x = 46 -> gap_ok b g -> line_start b g -> (b = 126 -> f_hand f = 103) -> tilde_rule (f_hand f) (tildes_in b g) = Some h' -> f_just f = b ->
  reading f (gap_text g ++ utf8 x ++ rest) -> exists h, csv2_get_1st f csv2_is_starwhitis_orslash 1 = (1, snd (csv2_read_unicode h)) /\ reading h (utf8 x ++ rest) /\ f_hand h = h'.
Proof.
  intros K N1 N2 N3 OX G LS B T JU R. destruct (gap_on b g _ f h' G B T JU R) as (n & c & p & h & -> & RH & HH & SH & LH). specialize (LH LS). rewrite <- HH, <- SH in T. destruct (tilde_done h x rest h' K N1 N2 RH T) as (k & EK & RK & HK). exists k. split; [|split; assumption].
  rewrite <- EK. destruct (read_char h x rest K N1 N2 RH) as (q & E & _). cbn [first_loop]. rewrite E. cbn [snd]. pose proof (ok_range x K). replace (x =? FATAL) with false by (unfold FATAL; lia). replace (x =? -2) with false by lia. replace (x =? 35) with false by lia. change (1 =? 1) with true. cbn [negb andb].
  replace ((c =? 13) || (c =? 10) || (c =? -328)) with true by lia. cbn [andb]. destruct (csv2_is_starwhitis_orslash x) eqn:OX2; [reflexivity|]. destruct OX as [OX|OX]; [discriminate|]. replace (x =? 46) with true by lia. reflexivity.
Qed.
Lemma get_end b g f h' : gap_ok b g -> (b = 126 -> f_hand f = 103) -> tilde_rule (f_hand f) (tildes_in b g) = Some h' -> f_just f = b -> reading f (gap_text g) -> exists h, csv2_get_1st f csv2_is_starwhitis_orslash 1 = (-2, h).
Proof.
  intros G B T JU R. destruct (gap_on b g [] f h' G B T JU ltac:(rewrite app_nil_r; exact R)) as (n & c & p & h & -> & RH & _). cbn [first_loop]. unfold csv2_read_unicode, csv2_readchar. rewrite (proj1 RH), (proj2 RH). cbn. eexists. reflexivity.
Qed.
