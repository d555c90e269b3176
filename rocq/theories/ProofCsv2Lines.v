(** Zone files: commands, records, and the whole file. *)
From Coq Require Import String.
From Verif Require Import CBase Bits ModelDwStr SpecDwStr ProofDwStr SpecNames SpecMessage SpecQuery ModelJsStr SpecJsStr ProofJsStr ModelQueries SpecQueries ProofQueries ProofHname ProofJsList ModelServe ProofServe ProofServeRun
  ModelIpAcl ModelCsv2 SpecCsv2 ProofCsv2 ProofCsv2Names ProofCsv2Addr PropsCsv2 ModelCsv2Rr SpecCsv2Rr ProofCsv2Rr PropsCsv2Rr ModelCsv2Txt SpecCsv2Txt ProofCsv2Txt PropsCsv2Txt ModelCsv2Zone SpecCsv2Zone ProofCsv2Zone SpecCsv2Aaaa ModelCsv2Aaaa ProofCsv2Aaaa ModelCsv2Soa SpecCsv2Soa PropsCsv2Soa.
Local Open Scope Z_scope.
Local Open Scope list_scope.

(** ** The name after /origin and /opush *)
Lemma text_end m : exists y, text m = y ++ [46].
Proof.
  destruct m as [|l m]; [exists []; reflexivity|]. destruct (@exists_last _ (l :: m) ltac:(discriminate)) as (m' & l' & ->). rewrite text_dots by (destruct m'; discriminate). rewrite dots_app. unfold dots at 2. cbn [map concat]. rewrite app_nil_r, app_assoc. eexists. reflexivity.
Qed.
Lemma origin_taken J h n e d rest : junk_ok J -> delimiter d -> name_chars n -> no_command n -> (n <> [] \/ e = Percent) -> zlen (dotted n) + zlen (tail_of e) <= 255 -> reading h (dotted n ++ tail_of e ++ d :: rest) ->
  exists o o2 k g, process_1stchar J (snd (csv2_read_unicode h)) csv2_is_starwhitis [] = Ok (Some o, k) /\ js_append_dname o k 3 = Ok (Some o2, g) /\ held 256 o2 (dotted n ++ tail_of e) /\ after_reading h g rest d.
Proof.
  intros HJ D F NC NE L R. destruct n as [|l ns].
  - destruct NE as [NE| ->]; [congruence|]. cbn [dotted map concat app tail_of] in *. destruct (delim_facts d D) as (D1 & D2 & D3 & D4 & _).
    destruct (read_at h 37 (d :: rest) ltac:(left; lia) ltac:(lia) ltac:(lia)) as (g & E & G & A); [exact R|]. rewrite E. cbn [snd].
    destruct (first_on J g 37 csv2_is_starwhitis [] HJ A) as (o & -> & H); [left; lia|reflexivity|constructor|vm_compute; discriminate|]. change ([] ++ utf8 37) with [37] in H.
    exists o, o, g, (step g rest d). split; [reflexivity|]. unfold js_append_dname, csv2_justread. pose proof A as (O & JU & _). rewrite O, JU. change (last (utf8 37) 0) with 37.
    change (((37 =? 37) && negb ((3 =? 4) || (3 =? 5))) || (37 =? 46)) with true. cbv iota. rewrite (read_ascii g d rest (proj1 G) D2 D3 D4). replace (d =? FATAL) with false by (unfold FATAL; lia). split; [reflexivity|]. split; [exact H|]. exact (step_after h g _ _ _ G).
  - clear NE. apply Forall_cons_iff in F as ((NL & FL) & F). destruct l as [|c l]; [congruence|]. cbn [no_command] in NC. apply Forall_cons_iff in FL as (FC & FL). destruct (name_ok c FC) as (K & N1 & N2 & N3 & N4 & DN).
    assert (dotted ((c :: l) :: ns) = utf8 c ++ written l ++ 46 :: dotted ns) as ED by (unfold dotted; cbn [map concat written flat_map]; rewrite <- !app_assoc; reflexivity). rewrite ED in *. rewrite <- !app_assoc in R. cbn [app] in R.
    destruct (read_at h c _ K N1 N2 R) as (g & E & G & A). rewrite E. cbn [snd].
    destruct (first_on J g c csv2_is_starwhitis [] HJ A K) as (o & F1 & H).
    { unfold csv2_is_starwhitis, csv2_is_text. unfold csv2_is_dname in DN. replace (c =? 47) with false in DN by lia. rewrite orb_false_r in DN. rewrite DN. reflexivity. }
    { constructor. } { vm_compute. discriminate. }
    rewrite !zlen_app, zlen_cons in L. pose proof (zlen_nonneg (dotted ns)). pose proof (zlen_nonneg (written l)). pose proof (zlen_nonneg (tail_of e)). pose proof (utf8_pos c). cbn [app] in H.
    destruct (fuel_split (length l + S (label_steps ns))) as (n & FU). { pose proof (written_long l). pose proof (steps_short ns). lia. }
    destruct (dname_nondot (label_steps ns + S n) 0 3 o g l _ _ FL (proj1 G) H ltac:(lia)) as (o1 & g1 & x1 & E1 & HO1 & G1 & X1).
    destruct (dname_labels 3 ns (S n) x1 o1 g1 _ _ F (proj1 G1) HO1 ltac:(rewrite !zlen_app; change (zlen [46]) with 1; lia)) as (o2 & g2 & x2 & E2 & HO2 & G2 & X2).
    destruct (dname_end n x2 3 o2 g2 e d rest _ ltac:(lia) ltac:(lia) D (proj1 G2) HO2 ltac:(rewrite !zlen_app; change (zlen [46]) with 1; lia)) as (o3 & E3 & HO3).
    exists o, o3, g, (step g2 rest d). split; [exact F1|]. split.
    + unfold js_append_dname, csv2_justread. destruct A as (O & JU & _). rewrite O, JU. assert (last (utf8 c) 0 <> 37 /\ last (utf8 c) 0 <> 46 /\ csv2_is_dname (last (utf8 c) 0) = true) as (Q1 & Q2 & Q3).
      { destruct (Z_lt_dec c 128); [rewrite utf8_small by lia; cbn [last]; split; [|split; [exact N3|exact DN]]; unfold name_char, wide in FC; lia|]. assert (wide c) as W by (destruct K as [K|(K & _)]; [lia|exact K]). pose proof (last_wide c W). split; [lia|]. split; [lia|]. unfold csv2_is_dname. replace (127 <? last (utf8 c) 0) with true by lia. rewrite !orb_true_r. reflexivity. }
      replace (last (utf8 c) 0 =? 37) with false by lia. replace (last (utf8 c) 0 =? 46) with false by lia. cbn [andb orb]. change (3 =? 0) with false. change (3 =? 5) with false. cbn [negb andb]. rewrite Q3. etransitivity; [|exact E3]. rewrite FU. replace (length l + S (label_steps ns) + S n)%nat with (length l + S (label_steps ns + S n))%nat by lia. etransitivity; [exact E1|exact E2].
    + split.
      * rewrite <- !app_assoc in HO3. cbn [app] in HO3. rewrite <- !app_assoc. cbn [app]. exact HO3.
      * exact (step_after h g2 _ _ _ (goes_trans _ _ _ _ _ G (goes_trans _ _ _ _ _ G1 G2))).
Qed.
Lemma new_origin_on J f cap zone z n e sep d rest : junk_ok J -> held cap zone (text z) -> host z n e -> separators (f_just f :: sep) -> zlen sep < 10000 -> delimiter d -> reading f (sep ++ spelled n e ++ d :: rest) ->
  exists o g, new_origin J f zone = Ok (Some o, g) /\ held 256 o (text (meant n e z)) /\ after_reading f g rest d.
Proof.
  intros HJ HZ (NC & CM & TK & FZ & NE) SE LE D R. pose proof (text_meant n e z FZ) as TM. destruct (spelled_first n e NC CM NE) as (x & t & E & K & X1 & X2 & X3 & OX). pose proof R as R0. rewrite E, <- app_assoc in R.
  destruct (get_here csv2_is_dchar x (t ++ d :: rest) sep f ltac:(intros q Q; unfold delimiter in Q; unfold csv2_is_dchar, csv2_is_text, csv2_is_alphanum, csv2_is_alpha, csv2_is_number; lia) OX K X1 X2 X3 SE LE R) as (h & E1 & G).
  assert (spelled n e = dotted n ++ tail_of e) as ES. { destruct e; cbn [spelled tail_of]; [|reflexivity]. rewrite app_nil_r. destruct n; [destruct NE; congruence|reflexivity]. }
  assert (reading h (dotted n ++ tail_of e ++ d :: rest)) as RH by (rewrite app_assoc, <- ES, E, <- app_assoc; exact (proj1 G)).
  assert (zlen (dotted n) + zlen (tail_of e) <= 255 /\ match e with Absolute => dotted n = text (meant n e z) | Percent => zlen (dotted n) + zlen (text z) < 256 end) as (LD & LT).
  { destruct TK as (_ & _ & TL). destruct e; cbn [tail_of] in *.
    - rewrite app_nil_r in ES. rewrite <- ES, TM. change (zlen (@nil Z)) with 0. split; [lia|reflexivity].
    - destruct FZ as (NZ & _ & LZ). rewrite <- TM, zlen_app in LZ. change (zlen [37]) with 1. destruct z as [|a z]; [congruence|]. rewrite text_dots, dots_cons, zlen_app, zlen_cons in * by discriminate. pose proof (zlen_nonneg a). pose proof (zlen_nonneg (dots z)). lia. }
  destruct (origin_taken J h n e d rest HJ D NC CM NE LD RH) as (o & o2 & k & g & F1 & F2 & H & A). unfold new_origin. rewrite E1. change (negb (1 =? JS_SUCCESS)) with false. cbv iota. rewrite F1. cbn [bind]. rewrite F2. cbn [bind]. pose proof (after_goes _ _ _ _ _ _ G A) as AG.
  destruct e; cbn [tail_of] in *.
  - rewrite app_nil_r, LT in H. destruct (text_end (meant n Absolute z)) as (y & EY). pose proof H as H0. rewrite EY in H0. rewrite (convert_absolute o2 y zone H0). cbn [bind]. exists o2, g. split; [reflexivity|]. split; [exact H|exact AG].
  - destruct (convert_percent o2 (dotted n) cap zone (text z) H HZ LT) as (o3 & -> & H3). cbn [bind]. exists o3, g. split; [reflexivity|]. split; [rewrite <- TM; exact H3|exact AG].
Qed.

(** ** Commands *)
Definition agrees (s : scope) (st : zst) : Prop :=
  (exists cap, held cap (z_origin st) (text (s_origin s))) /\ Forall2 (fun o n => exists cap, held cap o (text n)) (z_stack st) (s_aside s) /\
  z_height st = s_pushes s /\ zlen (s_aside s) <= s_pushes s <= 8 /\ z_ttl st = s_ttl s.
Definition fin (f g : csv2) (rest : list Z) (d : Z) : Prop := reading g rest /\ f_just g = d /\ f_hand g = f_hand f.
Lemma fin_after f g rest d : after_reading f g rest d -> fin f g rest d.
Proof. intros (A & B & _ & _ & _ & C). split; [exact A|split; [exact B|exact C]]. Qed.
Lemma fin_hand f f' g rest d : f_hand f = f_hand f' -> fin f g rest d -> fin f' g rest d.
Proof. intros E (A & B & C). split; [exact A|split; [exact B|congruence]]. Qed.
Ltac letters := repeat (rewrite (read_ascii _ _ _ (step_reading _ _ _)) by lia).
Lemma slash_on J R s st c s' d rest h : junk_ok J -> command_line s c s' d -> agrees s st -> reading h (c ++ rest) ->
  exists st' g, csv2_justread (snd (csv2_read_unicode h)) = 47 /\ slash_command J R st (snd (csv2_read_unicode h)) = Ok (Some st', g) /\ agrees s' st' /\ fin h g rest d.
Proof.
  intros HJ C (OO & AS & HH & BB & TT) RD. destruct C as [d1 sep l v d A NF D|d1 sep n e d A HN D|d1 sep n e d A HN D P8|o a d EA D].
  - destruct A as (SE & LE). pose proof (sep_delim _ _ SE) as D1. destruct (delim_facts d1 D1) as (DD & Q2 & Q3 & Q4 & _). cbn [octets app] in RD. rewrite <- !app_assoc in RD. cbn [app] in RD. vm_compute (Z.of_N _) in RD.
    rewrite (read_ascii h 47 _ RD) by lia. cbn [snd]. unfold slash_command, command. letters. change (letter1 116) with 1. change (letter2 1 116) with 1. change (letter3 1 108) with 1. change (1 =? 0) with false. cbv iota. try rewrite (read_ascii _ d1 _ (step_reading _ _ _) Q2 Q3 Q4). rewrite DD. change (1 =? 1) with true. cbn [andb].
    match goal with |- context [csv2_get_num J ?f] => destruct (get_num J f sep l v d rest HJ SE LE NF D (step_reading _ _ _)) as (g & -> & AG) end. cbn [bind]. pose proof (field_nonneg _ _ NF). replace (v <? 0) with false by lia. do 2 eexists. split; [reflexivity|]. split; [reflexivity|]. split; [|exact (fin_hand _ h _ _ _ eq_refl (fin_after _ _ _ _ AG))].
    split; [exact OO|]. split; [exact AS|]. split; [exact HH|]. split; [exact BB|reflexivity].
  - destruct A as (SE & LE). pose proof (sep_delim _ _ SE) as D1. destruct (delim_facts d1 D1) as (DD & Q2 & Q3 & Q4 & _). cbn [octets app] in RD. rewrite <- !app_assoc in RD. cbn [app] in RD. vm_compute (Z.of_N _) in RD. destruct OO as (cap & OO).
    rewrite (read_ascii h 47 _ RD) by lia. cbn [snd]. unfold slash_command, command. letters. change (letter1 111) with 2. change (letter2 2 114) with 2. change (letter3 2 105) with 2. change (2 =? 0) with false. cbv iota. letters. change (2 =? 1) with false. change (2 =? 2) with true. change (103 =? 103) with true. cbn [andb expect]. letters. change (105 =? 105) with true. cbv iota. letters. change (110 =? 110) with true. cbn [negb].
    try rewrite (read_ascii _ d1 _ (step_reading _ _ _) Q2 Q3 Q4). rewrite DD. cbn [negb].
    match goal with |- context [new_origin J ?f _] => destruct (new_origin_on J f cap (z_origin st) (s_origin s) n e sep d rest HJ OO HN SE LE D (step_reading _ _ _)) as (o & g & -> & HO & AG) end. cbn [bind]. do 2 eexists. split; [reflexivity|]. split; [reflexivity|]. split; [|exact (fin_hand _ h _ _ _ eq_refl (fin_after _ _ _ _ AG))].
    split; [exists 256; exact HO|]. split; [exact AS|]. split; [exact HH|]. split; [exact BB|exact TT].
  - destruct A as (SE & LE). pose proof (sep_delim _ _ SE) as D1. destruct (delim_facts d1 D1) as (DD & Q2 & Q3 & Q4 & _). cbn [octets app] in RD. rewrite <- !app_assoc in RD. cbn [app] in RD. vm_compute (Z.of_N _) in RD. pose proof OO as OO'. destruct OO as (cap & OO).
    rewrite (read_ascii h 47 _ RD) by lia. cbn [snd]. unfold slash_command, command. letters. change (letter1 111) with 2. change (letter2 2 112) with 3. change (letter3 3 117) with 3. change (2 =? 0) with false. change (3 =? 0) with false. cbv iota. letters. change (3 =? 1) with false. change (3 =? 2) with false. change (3 =? 3) with true. change (115 =? 115) with true. cbn [andb expect]. letters. change (104 =? 104) with true. cbn [negb].
    try rewrite (read_ascii _ d1 _ (step_reading _ _ _) Q2 Q3 Q4). rewrite DD. cbn [negb].
    match goal with |- context [new_origin J ?f _] => destruct (new_origin_on J f cap (z_origin st) (s_origin s) n e sep d rest HJ OO HN SE LE D (step_reading _ _ _)) as (o & g & -> & HO & AG) end. cbn [bind]. pose proof (zlen_nonneg (s_aside s)). replace ((7 <? z_height st) || (z_height st <? 0)) with false by lia.
    do 2 eexists. split; [reflexivity|]. split; [reflexivity|]. split; [|exact (fin_hand _ h _ _ _ eq_refl (fin_after _ _ _ _ AG))].
    split; [exists 256; exact HO|]. split; [constructor; [exact OO'|exact AS]|]. cbn [z_height s_pushes s_aside z_ttl s_ttl]. split; [lia|]. split; [rewrite zlen_cons; lia|exact TT].
  - destruct (delim_facts d D) as (DD & Q2 & Q3 & Q4 & _). cbn [octets app] in RD. vm_compute (Z.of_N _) in RD. rewrite EA in *. inversion AS as [|o' n' sk a' HO' AS' ES]; subst.
    rewrite (read_ascii h 47 _ RD) by lia. cbn [snd]. unfold slash_command, command. letters. change (letter1 111) with 2. change (letter2 2 112) with 3. change (letter3 3 111) with 4. change (2 =? 0) with false. change (3 =? 0) with false. change (4 =? 0) with false. cbv iota. letters. change (4 =? 1) with false. change (4 =? 2) with false. change (4 =? 3) with false. change (4 =? 4) with true. change (112 =? 112) with true. cbn [andb].
    try rewrite (read_ascii _ d _ (step_reading _ _ _) Q2 Q3 Q4). rewrite DD. cbn [negb]. rewrite zlen_cons in BB. pose proof (zlen_nonneg a). replace ((z_height st <? 1) || (8 <? z_height st)) with false by lia. rewrite <- ES.
    do 2 eexists. split; [reflexivity|]. split; [reflexivity|]. split; [|split; [apply step_reading|split; reflexivity]]. split; [exact HO'|]. split; [exact AS'|]. cbn [z_height s_pushes s_aside z_ttl s_ttl]. split; [exact HH|]. split; [lia|exact TT].
Qed.

(** ** Where the first character of a field was read before *)
Definition back (h : csv2) : csv2 := mkcsv2 (f_rest h) 32 (f_uni h) (f_ok h) (f_tilde h) (f_brace h) (f_seen h) (f_hand h).
Lemma back_get is_ok x rest h : reading h (x :: rest) -> 0 <= x < 128 -> x <> 123 -> x <> 126 -> x <> 35 -> is_ok x = true -> (forall d, delimiter d -> is_ok d = false) ->
  csv2_get_1st (back h) is_ok 0 = (1, step h rest x) /\ csv2_get_1st (step h rest x) is_ok 0 = (1, step h rest x).
Proof.
  intros R RX X1 X2 X3 OX ND. split.
  - destruct (get_here is_ok x rest [] (back h) ND OX ltac:(left; lia) X1 X2 X3) as (k & E & G).
    { split; [apply Forall_cons; [unfold delimiter; cbn; lia|constructor]|vm_compute; lia]. } { vm_compute. reflexivity. } { rewrite utf8_small by lia. exact R. }
    clear k E G. unfold csv2_get_1st, csv2_justread. cbn [back f_ok f_just]. rewrite (proj1 R). change (127 <? 32) with false. cbv iota. rewrite (ND 32) by (unfold delimiter; lia). change (0 =? 1) with false. change (csv2_is_delimiter 32) with true. change (32 =? -328) with false. change (32 =? 124) with false. cbn [negb andb].
    assert (exists n, Z.to_nat 10000 = S n) as (n & ->) by (exists (Z.to_nat 9999); lia). cbn [first_loop]. rewrite (read_ascii (back h) x rest R RX X1 X2). replace (x =? FATAL) with false by (unfold FATAL; lia). replace (x =? -2) with false by lia. replace (x =? 35) with false by lia. change (0 =? 1) with false. cbn [negb andb]. rewrite OX. reflexivity.
  - unfold csv2_get_1st, csv2_justread. cbn [step f_ok f_just]. replace (127 <? x) with false by lia. change (0 =? 1) with false. cbn [negb andb]. rewrite OX. reflexivity.
Qed.
Lemma back_sep h : separators (f_just (back h) :: []).
Proof. split; [apply Forall_cons; [unfold delimiter; cbn; lia|constructor]|vm_compute; lia]. Qed.
Lemma alpha_delim d : delimiter d -> csv2_is_alpha d = false. Proof. unfold delimiter, csv2_is_alpha. lia. Qed.
Lemma number_delim d : delimiter d -> csv2_is_number d = false. Proof. unfold delimiter, csv2_is_number. lia. Qed.
Lemma back_rtype n J h x rest : reading h (x :: rest) -> letter x -> rtype_loop (S n) J (step h rest x) = rtype_loop (S n) J (back h).
Proof.
  intros R LX. unfold letter in LX. destruct (back_get csv2_is_alpha x rest h R ltac:(lia) ltac:(lia) ltac:(lia) ltac:(lia) ltac:(unfold csv2_is_alpha; lia) alpha_delim) as (E1 & E2). cbn [rtype_loop]. rewrite E1, E2. reflexivity.
Qed.
Lemma back_a J J2 h x rest : reading h (x :: rest) -> 48 <= x <= 57 -> csv2_get_a J J2 (step h rest x) = csv2_get_a J J2 (back h).
Proof.
  intros R LX. destruct (back_get csv2_is_number x rest h R ltac:(lia) ltac:(lia) ltac:(lia) ltac:(lia) ltac:(unfold csv2_is_number; lia) number_delim) as (E1 & E2). unfold csv2_get_a. rewrite E1, E2. reflexivity.
Qed.
(** Types, with enough fuel *)
Lemma type_on J f sep cl t s n d rest m : junk_ok J -> separators (f_just f :: sep) -> zlen sep < 10000 -> Forall class_ok cl ->
  In (s, n) types -> same_word t s -> delimiter d -> reading f (sep ++ concat (map class_text cl) ++ t ++ d :: rest) ->
  exists g, rtype_loop (length cl + S m) J f = Ok (n, g) /\ after_reading f g rest d.
Proof.
  intros HJ SE LE FC I SW D R. pose proof (type_word t s n I SW) as WT.
  destruct (classes_on J d rest cl HJ D FC (S m) f sep t SE LE WT R) as (h & sep' & -> & G & SH & LH). destruct (rtype_round J m h sep' t d rest HJ SH LH WT D (proj1 G)) as (g & A & ->). rewrite (type_found t s n I SW). pose proof (type_positive s n I). cbv zeta.
  replace (n =? -3) with false by lia. replace ((n =? -1) || (n =? 0)) with false by lia. replace ((n <=? -2) && (-11 <=? n)) with false by lia. exists g. split; [reflexivity|]. exact (after_goes _ _ _ _ _ _ G A).
Qed.
Lemma raw_type_on J f sep cl w d1 sep1 l v d rest m : junk_ok J -> separators (f_just f :: sep) -> zlen sep < 10000 -> Forall class_ok cl ->
  same_word w "RAW" -> separators (d1 :: sep1) -> zlen sep1 < 10000 -> number_field l v -> v <= 65535 -> delimiter d ->
  reading f (sep ++ concat (map class_text cl) ++ w ++ d1 :: sep1 ++ l ++ d :: rest) ->
  exists g, rtype_loop (length cl + S m) J f = Ok (100000 + v, g) /\ after_reading f g rest d.
Proof.
  intros HJ SE LE FC SW S1 L1 NF LV D R. destruct (raw_word w SW) as (WW & LK). pose proof (sep_delim _ _ S1) as D1.
  destruct (classes_on J d1 (sep1 ++ l ++ d :: rest) cl HJ D1 FC (S m) f sep w SE LE WW R) as (h & sep' & -> & G & SH & LH). destruct (rtype_round J m h sep' w d1 _ HJ SH LH WW D1 (proj1 G)) as (g & A & ->). rewrite LK. cbv zeta. change (-3 =? -3) with true. cbv iota.
  destruct l as [|x l]; [destruct NF as ((NE & _) & _); congruence|]. pose proof (number_head _ _ _ NF) as RX. pose proof A as (RG & JG & _). assert (separators (f_just g :: sep1)) as (SF & SP) by (rewrite JG; exact S1).
  destruct (get_1st csv2_is_number x (l ++ d :: rest) sep1 g number_delim ltac:(unfold csv2_is_number; lia) ltac:(lia) ltac:(lia) ltac:(lia) ltac:(lia) SF SP L1 RG) as (g2 & -> & G2 & A2).
  change (1 <? 0) with false. cbv iota. destruct (get_num_at J g g2 x l v d rest HJ G2 A2 NF D) as (g3 & -> & A3). cbn [bind]. pose proof (field_nonneg _ _ NF).
  replace (v <? 0) with false by lia. replace (2147483648 <=? v + 100000) with false by lia. exists g3. split; [f_equal; f_equal; lia|]. exact (after_goes _ _ _ _ _ _ G (after_goes _ _ _ _ _ _ (after_goes_on _ _ _ _ A) A3)).
Qed.
Lemma classes_first cl w rest : Forall class_ok cl -> word w -> exists x t, concat (map class_text cl) ++ w ++ rest = x :: t /\ letter x /\ (length cl < length t + 1)%nat.
Proof.
  intros F WW. assert (length cl <= length (concat (map class_text cl)))%nat as L by (clear F; induction cl as [|((v & dd) & s) cl IH]; [cbn; lia|]; cbn [map concat length class_text]; rewrite !app_length; cbn [length]; lia).
  destruct (word_plain w WW) as (_ & y & l & -> & LY). destruct F as [|((v & dd) & s) cl (SW & SS & LS) F].
  - exists y, (l ++ rest). split; [reflexivity|]. split; [exact LY|cbn; lia].
  - destruct (in_word v SW) as (WV & _). destruct (word_plain v WV) as (_ & x & k & -> & LX). cbn [map concat class_text app] in *. eexists x, _. split; [reflexivity|]. split; [exact LX|]. rewrite !app_length in *. cbn [length] in *. rewrite ?app_length in *. cbn [length] in *. rewrite ?app_length in *. lia.
Qed.

Lemma loop_more J n : forall f v g m, (n <= m)%nat -> rtype_loop n J f = Ok (v, g) -> rtype_loop m J f = Ok (v, g).
Proof.
  induction n as [|n IH]; intros f v g m L E; [discriminate|]. destruct m as [|m]; [lia|]. cbn [rtype_loop] in *. destruct (csv2_get_1st f csv2_is_alpha 0) as (r & f1). destruct (negb (r =? JS_SUCCESS)); [exact E|].
  destruct (process_something J f1 csv2_is_text) as [(o & f2)| |]; cbn [bind] in *; try discriminate. destruct o as [o|]; [|exact E]. destruct (csv2_numeric_rtype J o) as [ret| |]; cbn [bind] in *; try discriminate.
  destruct (ret =? -3); [exact E|]. destruct ((ret =? -1) || (ret =? 0)); [exact E|]. destruct ((ret <=? -2) && (-11 <=? ret)); [|exact E]. apply IH; [lia|exact E].
Qed.

(** ** Data *)
Lemma mx_given J f zone cap z v n e sep d rest : junk_ok J -> 0 <= v <= 65535 -> host_ok zone cap z n e -> separators (f_just f :: sep) -> zlen sep < 10000 -> delimiter d -> zlen (wire (meant n e z)) <= 253 ->
  reading f (sep ++ spelled n e ++ d :: rest) -> exists s g, csv2_get_mx J f zone v = Ok (Some s, g) /\ holding s (two v ++ wire (meant n e z)) /\ after_reading f g rest d.
Proof.
  intros HJ RV HO SE LE D L R. unfold csv2_get_mx. replace (v <? 0) with false by lia. cbn [bind]. replace (v <? 0) with false by lia. destruct (new_out J HJ) as (out & -> & HN).
  destruct (word_held 256 out [] v HN ltac:(lia)) as (r & out' & -> & X & _). destruct (X ltac:(vm_compute; reflexivity)) as (NR & H'). cbn [bind]. change JS_ERROR with (-1). replace (r =? -1) with false by lia. replace (v =? -2) with false by lia. cbv iota.
  cbn [app] in H'. rewrite two_be in H' by lia. destruct (host_on J f zone cap z n e sep d rest out' (two v) HJ HO SE LE D R H') as (o & h & -> & AH & X2). change (zlen (two v)) with 2 in X2. replace (2 + zlen (wire (meant n e z)) <? 256) with true in X2 by lia. destruct X2 as (s & -> & HS). exists s, h. split; [reflexivity|]. split; [exact HS|exact AH].
Qed.
Lemma host_of zone cap z n e : held cap zone (text z) -> host z n e -> host_ok zone cap z n e.
Proof. intros H X. split; [exact H|exact X]. Qed.
Lemma field_type sn h z d1 t l x d : field sn h z d1 t l x d -> final_type t = t.
Proof. intros F. destruct F as [| | |t sep m d I|t sep m d2 sep2 m2 d I|t sep n e d I| t sep p v d2 sep2 n e d I| | t sep c m e I]; try reflexivity; [| | | |destruct I as [(I & _)|[(-> & _)|(-> & _)]]; [|reflexivity|reflexivity]]; cbn [In] in I; repeat (destruct I as [<- |I]; [reflexivity|]); contradiction. Qed.
Lemma field_on sn J J2 O U st cap f z d1 t l x d rest : reads_aaaa O -> reads_soa sn O -> reads_mbox O -> junk_ok J -> junk_ok J2 -> f_just f = d1 -> f_hand f <> 2 -> field sn (f_hand f) z d1 t l x d -> held cap (z_origin st) (text z) -> reading f (l ++ rest) ->
  exists s g, rr_data J J2 O U st f t = Ok (Some s, g) /\ holding s x /\ fin f g rest d.
Proof.
  intros HA HS HM HJ HJ2 JU N2 F HZ R. destruct F as [sep a b c d dl A DA DB DC DD D LQ|sep t v dl A TX D|sep n e d0 sep0 m d2 sep2 p1 v1 d3 sep3 p2 v2 d4 sep4 p3 v3 d5 sep5 p4 v4 d6 sep6 p5 v5 d A HN A0 MK A2 N1 A3 N3 A4 N4 A5 N5 A6 N6 D LT|t sep m d I A MK D|t sep m d2 sep2 m2 d I A MK A2 MK2 D LT|t sep n e d I A HN D|t sep p v d2 sep2 n e d I A NF LV A2 HN LW D|sep p v d2 sep2 q w d3 sep3 r u d4 sep4 n e d A NF LV A2 NF2 LV2 A3 NF3 LV3 A4 HN LW D|t sep c m e I A RO ER F L1 L2].
  - destruct A as (SE & LE). rewrite <- JU in SE. rewrite <- !app_assoc in R. cbn [app] in R. destruct (C47_address J J2 f sep a b c d dl rest HJ HJ2 SE LE DA DB DC DD D LQ R) as (ip & g & E & H & AG). change (rr_data J J2 O U st f 1) with (checked (csv2_get_a J J2 f)). unfold checked. rewrite E. cbn [bind]. exists ip, g. split; [reflexivity|]. split; [exact H|exact (fin_after _ _ _ _ AG)].
  - destruct A as (SE & LE). rewrite <- JU in SE. rewrite <- !app_assoc in R. cbn [app] in R. destruct (HA st f) as (J3 & J4 & HJ3 & HJ4 & EA). destruct (aaaa_ok J3 J4 f sep t v dl rest HJ3 HJ4 SE LE TX D R) as (ip & g & E & H & AG). change (rr_data J J2 O U st f 28) with (checked (O 28 st f)). rewrite EA. unfold checked. rewrite E. cbn [bind]. exists ip, g. split; [reflexivity|]. split; [exact (proj1 H)|exact (fin_after _ _ _ _ AG)].
  - destruct A as (SE & LE). rewrite <- JU in SE. repeat (rewrite <- !app_assoc in R; cbn [app] in R). destruct HS as (SV & HS). destruct (HS st f) as (J3 & HJ3 & EA). destruct A0 as (S0 & L0). destruct A2 as (S2 & L2). destruct A3 as (S3 & L3). destruct A4 as (S4 & L4). destruct A5 as (S5 & L5). destruct A6 as (S6 & L6).
    destruct (C52_soa J3 f (z_origin st) cap z sn sep n e d0 sep0 m d2 sep2 p1 v1 d3 sep3 p2 v2 d4 sep4 p3 v3 d5 sep5 p4 v4 d6 sep6 p5 v5 d rest HJ3 (host_of _ _ _ _ _ HZ HN) MK SV SE LE S0 L0 S2 L2 S3 L3 S4 L4 S5 L5 S6 L6 N1 N3 N4 N5 N6 D LT R) as (o & g & E & H & AG).
    change (rr_data J J2 O U st f 6) with (checked (O 6 st f)). rewrite EA. unfold checked. rewrite E. cbn [bind]. exists o, g. split; [reflexivity|]. split; [exact H|exact (fin_after _ _ _ _ AG)].
  - destruct A as (SE & LE). rewrite <- JU in SE. rewrite <- !app_assoc in R. cbn [app] in R. destruct (HM st f) as (J3 & HJ3 & EA & _). destruct (C52_mailbox J3 f (z_origin st) cap z sep m d rest HJ3 HZ SE LE MK D R) as (o & g & E & H & AG).
    assert (rr_data J J2 O U st f t = checked (O t st f)) as -> by (cbn [In] in I; repeat (destruct I as [<- |I]; [reflexivity|]); contradiction). rewrite (EA t I). unfold checked. rewrite E. cbn [bind]. exists o, g. split; [reflexivity|]. split; [exact H|exact (fin_after _ _ _ _ AG)].
  - destruct A as (SE & LE). destruct A2 as (S2 & L2). rewrite <- JU in SE. repeat (rewrite <- !app_assoc in R; cbn [app] in R). destruct (HM st f) as (J3 & HJ3 & _ & EA). destruct (C52_mailboxes J3 f (z_origin st) cap z sep m d2 sep2 m2 d rest HJ3 HZ SE LE MK S2 L2 MK2 D LT R) as (o & g & E & H & AG).
    assert (rr_data J J2 O U st f t = checked (O t st f)) as -> by (cbn [In] in I; repeat (destruct I as [<- |I]; [reflexivity|]); contradiction). rewrite (EA t I). unfold checked. rewrite E. cbn [bind]. exists o, g. split; [reflexivity|]. split; [exact H|exact (fin_after _ _ _ _ AG)].
  - destruct A as (SE & LE). rewrite <- JU in SE. rewrite <- !app_assoc in R. cbn [app] in R. assert (rr_data J J2 O U st f t = let '(r, f) := csv2_get_1st f csv2_is_dchar 0 in if negb (r =? JS_SUCCESS) then Ok (None, f) else checked (csv2_get_hostname J f (z_origin st) 3)) as -> by (cbn [In] in I; repeat (destruct I as [<- |I]; [reflexivity|]); contradiction).
    destruct HN as (NC & CM & TK & FZ & NE). destruct (spelled_first n e NC CM NE) as (y & tt & E & K & X1 & X2 & X3 & OX). pose proof R as R0. rewrite E, <- app_assoc in R.
    destruct (get_here csv2_is_dchar y (tt ++ d :: rest) sep f ltac:(intros q Q; unfold delimiter in Q; unfold csv2_is_dchar, csv2_is_text, csv2_is_alphanum, csv2_is_alpha, csv2_is_number; lia) OX K X1 X2 X3 SE LE R) as (h & E1 & G). rewrite E1. change (negb (1 =? JS_SUCCESS)) with false. cbv iota.
    assert (reading h (spelled n e ++ d :: rest)) as RH by (rewrite E, <- app_assoc; exact (proj1 G)).
    destruct (C47_name J h (z_origin st) cap z 3 n e d rest HJ HZ ltac:(cbn; auto) D NC CM TK FZ RH) as (s & g & E2 & H & AG). unfold name_at in E2. unfold checked. rewrite E2. cbn [bind]. exists s, g. split; [reflexivity|]. split; [exact H|]. exact (fin_after _ _ _ _ (after_goes _ _ _ _ _ _ G AG)).
  - destruct A as (SE & LE). destruct A2 as (SE2 & LE2). rewrite <- JU in SE. rewrite <- !app_assoc in R. cbn [app] in R. rewrite <- !app_assoc in R. cbn [app] in R. assert (rr_data J J2 O U st f t = checked (csv2_get_mx J f (z_origin st) (-1))) as -> by (cbn [In] in I; repeat (destruct I as [<- |I]; [reflexivity|]); contradiction).
    destruct (C48_mx J f (z_origin st) cap z sep p v d2 sep2 n e d rest HJ SE LE NF LV SE2 LE2 (host_of _ _ _ _ _ HZ HN) D R) as (o & g & E & AG & X). replace (zlen (wire (meant n e z)) <=? 253) with true in X by lia. destruct X as (s & -> & H). unfold checked. rewrite E. cbn [bind]. exists s, g. split; [reflexivity|]. split; [exact H|exact (fin_after _ _ _ _ AG)].
  - destruct A as (SE & LE). destruct A2 as (SE2 & LE2). destruct A3 as (SE3 & LE3). destruct A4 as (SE4 & LE4). rewrite <- JU in SE. repeat (rewrite <- !app_assoc in R; cbn [app] in R). change (rr_data J J2 O U st f 33) with (checked (csv2_get_srv J f (z_origin st))).
    destruct (C48_srv J f (z_origin st) cap z sep p v d2 sep2 q w d3 sep3 r u d4 sep4 n e d rest HJ SE LE NF LV SE2 LE2 NF2 LV2 SE3 LE3 NF3 LV3 SE4 LE4 (host_of _ _ _ _ _ HZ HN) D R) as (o & g & E & AG & X). replace (zlen (wire (meant n e z)) <=? 249) with true in X by lia. destruct X as (s & -> & H). unfold checked. rewrite E. cbn [bind]. exists s, g. split; [reflexivity|]. split; [exact H|exact (fin_after _ _ _ _ AG)].
  - destruct A as (SE & LE). rewrite <- JU in SE. rewrite <- !app_assoc in R.
    assert (exists k, rr_data J J2 O U st f t = checked (csv2_get_txt J U f k) /\ (k = 0 \/ k = zlen (chunks_of c m))) as (k & -> & KK).
    { destruct I as [(I & N102)|[(-> & EC)|(-> & EC)]]; [|exists 2; split; [reflexivity|right; lia]|exists 3; split; [reflexivity|right; lia]]. exists 0. split; [|left; reflexivity].
      assert ((f_hand f =? 2) || (f_hand f =? 102) = false) as NF by lia. cbn [In] in I. repeat (destruct I as [<- |I]; [unfold rr_data; cbv zeta; rewrite NF; reflexivity|]); contradiction. }
    destruct (C49_txt J U f k sep c m e rest HJ SE LE RO ER F L1 L2 KK R) as (s & g & E & H & RG & JG & HG). unfold checked. rewrite E. cbn [bind]. exists s, g. split; [reflexivity|]. split; [exact H|]. split; [exact RG|split; assumption].
Qed.

(** ** Type and data *)
Definition rr_tail (J : Z -> Z -> Z) (O : Z -> zst -> csv2 -> res (option js * csv2)) (U : Z) (st : zst) (name : js) (ttl : Z) (f : csv2) : res (Z * option added * csv2) :=
  if csv2_is_alpha (csv2_justread f) then
    ' (t, f) <- csv2_get_rtype (J (-3)) f ;;
    if t =? -1 then Ok (-1, None, csv2_error f)
    else
      ' (d, f) <- rr_data (J (-4)) (J (-5)) O U st f t ;;
      match d with
      | None => Ok (-1, None, f)
      | Some d => Ok (JS_SUCCESS, Some (mkadded name (final_type t) ttl (Some d)), f)
      end
  else if csv2_is_number (csv2_justread f) then
    ' (d, f) <- csv2_get_a (J (-4)) (J (-5)) f ;; Ok (JS_SUCCESS, Some (mkadded name 1 ttl d), f)
  else Ok (-1, None, csv2_error f).
Lemma tail_alpha J O U st name ttl h x rest cl r : reading h (x :: rest) -> letter x -> (length cl < length rest + 1)%nat -> (forall m, rtype_loop (@length (list Z * Z * list Z) cl + S m) (J (-3)) (back h) = r) ->
  rr_tail J O U st name ttl (step h rest x) = (' (t, f) <- r ;; if t =? -1 then Ok (-1, None, csv2_error f) else ' (d, f) <- rr_data (J (-4)) (J (-5)) O U st f t ;; match d with None => Ok (-1, None, f) | Some d => Ok (JS_SUCCESS, Some (mkadded name (final_type t) ttl (Some d)), f) end).
Proof.
  intros R LX L E. unfold rr_tail, csv2_justread. cbn [step f_ok f_just]. unfold letter in LX. replace (csv2_is_alpha x) with true by (unfold csv2_is_alpha; lia). unfold csv2_get_rtype. cbn [step f_rest]. fold (step h rest x). rewrite (back_rtype _ (J (-3)) h x rest R LX).
  replace (S (length rest)) with (length cl + S (length rest - length cl))%nat by lia. rewrite E. reflexivity.
Qed.
Lemma typed_on sn J O U st cap h z l t x d rest name ttl : reads_aaaa O -> reads_soa sn O -> reads_mbox O -> (forall k, junk_ok (J k)) -> U + 1512 <= 2147483647 -> f_hand h <> 2 -> typed sn (f_hand h) z l t x d -> held cap (z_origin st) (text z) -> reading h (l ++ rest) ->
  exists s g, rr_tail J O U st name ttl (snd (csv2_read_unicode h)) = Ok (JS_SUCCESS, Some (mkadded name t ttl (Some s)), g) /\ holding s x /\ fin h g rest d.
Proof.
  intros HA HS HM HJ HU N2 T HZ R. destruct T as [cl w s t d1 l x d FC I SW D1 F|cl w s t v d1 sep n e d C FC SW A HN L D|cl w d1 sep1 l t d2 sep2 c d FC SW A1 NF LT NI A2 NE CK D L1 L2|a b c d dl DA DB DC DD D LQ].
  - rewrite <- !app_assoc in R. cbn [app] in R. pose proof (type_word w s t I SW) as WW. destruct (classes_first cl w (d1 :: l ++ rest) FC WW) as (y & tl & EY & LY & LL).
    assert (reading (back h) ([] ++ concat (map class_text cl) ++ w ++ d1 :: l ++ rest)) as RB by exact R. rewrite EY in R.
    destruct (type_on (J (-3)) (back h) [] cl w s t d1 (l ++ rest) 0 (HJ _) (back_sep h) ltac:(vm_compute; reflexivity) FC I SW D1 RB) as (g' & E0 & AG).
    assert (forall m, rtype_loop (length cl + S m) (J (-3)) (back h) = Ok (t, g')) as E by (intros m; refine (loop_more (J (-3)) (length cl + 1) _ _ _ _ _ E0); lia).
    unfold letter in LY. rewrite (read_ascii h y tl R) by lia. cbn [snd]. rewrite (tail_alpha J O U st name ttl h y tl cl _ R LY LL E). cbn [bind]. pose proof (type_positive s t I) as TP. replace (t =? -1) with false by lia.
    destruct AG as (RG & JG & _ & _ & _ & HG). cbn [back f_hand] in HG. rewrite <- HG in F, N2. destruct (field_on sn (J (-4)) (J (-5)) O U st cap g' z d1 t l x d rest HA HS HM (HJ _) (HJ _) JG N2 F HZ RG) as (o & g2 & -> & H & FN). cbn [bind]. exists o, g2. split; [rewrite (field_type sn _ _ _ _ _ _ _ F); reflexivity|]. split; [exact H|exact (fin_hand _ _ _ _ _ HG FN)].
  - assert (In (s, t) types /\ 0 <= v <= 65535 /\ (forall J J2 f, rr_data J J2 O U st f t = checked (csv2_get_mx J f (z_origin st) v)) /\ final_type t = 15 /\ t <> -1) as (I & RV & ED & EF & NT).
    { destruct C as [C|C]; injection C as -> -> ->; (split; [vm_compute; tauto|]); (split; [lia|]); (split; [intros; reflexivity|]); (split; [reflexivity|lia]). }
    repeat (rewrite <- !app_assoc in R; cbn [app] in R). destruct A as (SE & LE). pose proof (sep_delim _ _ SE) as D1. pose proof (type_word w s t I SW) as WW. destruct (classes_first cl w (d1 :: sep ++ spelled n e ++ d :: rest) FC WW) as (y & tl & EY & LY & LL).
    assert (reading (back h) ([] ++ concat (map class_text cl) ++ w ++ d1 :: sep ++ spelled n e ++ d :: rest)) as RB by exact R. rewrite EY in R.
    destruct (type_on (J (-3)) (back h) [] cl w s t d1 _ 0 (HJ _) (back_sep h) ltac:(vm_compute; reflexivity) FC I SW D1 RB) as (g & E0 & AG).
    assert (forall m, rtype_loop (length cl + S m) (J (-3)) (back h) = Ok (t, g)) as E by (intros m; refine (loop_more (J (-3)) (length cl + 1) _ _ _ _ _ E0); lia).
    unfold letter in LY. rewrite (read_ascii h y tl R) by lia. cbn [snd]. rewrite (tail_alpha J O U st name ttl h y tl cl _ R LY LL E). cbn [bind]. replace (t =? -1) with false by lia. rewrite ED. destruct AG as (RG & JG & _ & _ & _ & HG).
    destruct (mx_given (J (-4)) g (z_origin st) cap z v n e sep d rest (HJ _) RV (host_of _ _ _ _ _ HZ HN) ltac:(rewrite JG; exact SE) LE D L RG) as (o & g2 & E2 & H & AG2). unfold checked. rewrite E2. cbn [bind]. exists o, g2. split; [rewrite EF; reflexivity|]. split; [exact H|exact (fin_hand _ _ _ _ _ HG (fin_after _ _ _ _ AG2))].
  - repeat (rewrite <- !app_assoc in R; cbn [app] in R). destruct A1 as (SE1 & LE1). destruct A2 as (SE2 & LE2). pose proof (sep_delim _ _ SE2) as D2. destruct (raw_word w SW) as (WW & _). destruct (classes_first cl w (d1 :: sep1 ++ l ++ d2 :: sep2 ++ chunk_text c ++ d :: rest) FC WW) as (y & tl & EY & LY & LL).
    assert (reading (back h) ([] ++ concat (map class_text cl) ++ w ++ d1 :: sep1 ++ l ++ d2 :: sep2 ++ chunk_text c ++ d :: rest)) as RB by exact R. rewrite EY in R.
    destruct (raw_type_on (J (-3)) (back h) [] cl w d1 sep1 l t d2 _ 0 (HJ _) (back_sep h) ltac:(vm_compute; reflexivity) FC SW SE1 LE1 NF LT D2 RB) as (g & E0 & AG).
    assert (forall m, rtype_loop (length cl + S m) (J (-3)) (back h) = Ok (100000 + t, g)) as E by (intros m; refine (loop_more (J (-3)) (length cl + 1) _ _ _ _ _ E0); lia).
    pose proof (field_nonneg _ _ NF) as TN. unfold letter in LY. rewrite (read_ascii h y tl R) by lia. cbn [snd]. rewrite (tail_alpha J O U st name ttl h y tl cl _ R LY LL E). cbn [bind]. replace (100000 + t =? -1) with false by lia. destruct AG as (RG & JG & _ & _ & _ & HG). cbn [back f_hand] in HG.
    assert (rr_data (J (-4)) (J (-5)) O U st g (100000 + t) = checked (csv2_get_raw (J (-4)) U g)) as ->.
    { unfold rr_data, one_of. cbn [existsb]. cbv zeta. repeat match goal with |- context [100000 + t =? ?k] => replace (100000 + t =? k) with false by lia end. cbn [orb]. replace ((100000 <=? 100000 + t) && (100000 + t <=? 165535)) with true by lia. replace (100000 + t - 100000) with t by lia. unfold forbidden in NI. cbn [In] in NI. repeat match goal with |- context [t =? ?k] => replace (t =? k) with false by lia end. reflexivity. }
    assert (tildes g = (f_hand h =? 103)) as TG by (unfold tildes; rewrite HG; reflexivity).
    destruct (C49_raw (J (-4)) U g sep2 c d rest (HJ _) ltac:(rewrite JG; exact SE2) LE2 NE ltac:(rewrite TG; exact CK) ltac:(rewrite TG; destruct D as [D|(D & D')]; [left; exact D|right; split; [lia|exact D']]) L1 ltac:(lia) L2 RG) as (o & g2 & E2 & H & RG2 & JG2 & HG2). unfold checked. rewrite E2. cbn [bind].
    assert (final_type (100000 + t) = t) as ->. { unfold final_type, one_of. cbn [existsb]. replace (100000 + t =? 3) with false by lia. replace (100000 + t =? 4) with false by lia. cbn [orb]. replace ((100000 <=? 100000 + t) && (100000 + t <=? 165535)) with true by lia. lia. }
    exists o, g2. split; [reflexivity|]. split; [exact H|]. split; [exact RG2|]. split; [exact JG2|congruence].
  - destruct a as [|y a]; [destruct DA as ((NE & _) & _); congruence|]. assert (48 <= y <= 57) as RY by (destruct DA as ((_ & FA) & _); exact (Forall_inv FA)). rewrite <- app_assoc in R. cbn [app] in R.
    assert (reading (back h) ([] ++ quad_text (y :: a) b c d ++ dl :: rest)) as RB by exact R. destruct (C47_address (J (-4)) (J (-5)) (back h) [] (y :: a) b c d dl rest (HJ _) (HJ _) (back_sep h) ltac:(vm_compute; reflexivity) DA DB DC DD D LQ RB) as (ip & g & E & H & AG).
    assert (exists tl, quad_text (y :: a) b c d ++ dl :: rest = y :: tl) as (tl & EY) by (unfold quad_text; cbn [app]; eexists; reflexivity). rewrite EY in R. rewrite (read_ascii h y tl R) by lia. cbn [snd]. unfold rr_tail, csv2_justread. cbn [step f_ok f_just]. replace (csv2_is_alpha y) with false by (unfold csv2_is_alpha; lia). replace (csv2_is_number y) with true by (unfold csv2_is_number; lia).
    fold (step h tl y). rewrite (back_a _ _ h y tl R RY), E. cbn [bind]. exists ip, g. split; [reflexivity|]. split; [exact H|]. exact (fin_hand (back h) h _ _ _ eq_refl (fin_after _ _ _ _ AG)).
Qed.

(** ** Records *)
Lemma typed_first sn h z l t x d rest : typed sn h z l t x d -> exists y tl, l ++ rest = y :: tl /\ (letter y \/ 48 <= y <= 57).
Proof.
  intros T. destruct T as [cl w s t d1 l x d FC I SW D1 F|cl w s t v d1 sep n e d C FC SW A HN L D|cl w d1 sep1 l t d2 sep2 c d FC SW A1 NF LT NI A2 NE CK D L1 L2|a b c d dl DA DB DC DD D LQ].
  - destruct (classes_first cl w (d1 :: l ++ rest) FC (type_word w s t I SW)) as (y & tl & E & LY & _). exists y, tl. split; [|left; exact LY]. rewrite <- E, <- !app_assoc. reflexivity.
  - assert (In (s, t) types) as I by (destruct C as [C|C]; injection C as -> -> ->; vm_compute; tauto). destruct (classes_first cl w ((d1 :: sep ++ spelled n e ++ [d]) ++ rest) FC (type_word w s t I SW)) as (y & tl & E & LY & _). exists y, tl. split; [|left; exact LY]. rewrite <- E, <- !app_assoc. reflexivity.
  - destruct (raw_word w SW) as (WW & _). destruct (classes_first cl w ((d1 :: sep1 ++ l ++ d2 :: sep2 ++ chunk_text c ++ [d]) ++ rest) FC WW) as (y & tl & E & LY & _). exists y, tl. split; [|left; exact LY]. rewrite <- E, <- !app_assoc. reflexivity.
  - destruct a as [|y a]; [destruct DA as ((NE & _) & _); congruence|]. exists y. eexists. split; [unfold quad_text; cbn [app]; reflexivity|]. right. destruct DA as ((_ & FA) & _). exact (Forall_inv FA).
Qed.
Lemma typed_end sn h z l t x d : typed sn h z l t x d -> delimiter d \/ (d = 126 /\ h = 103).
Proof.
  intros T. destruct T as [cl w s t d1 l x d FC I SW D1 F|cl w s t v d1 sep n e d C FC SW A HN L D|cl w d1 sep1 l t d2 sep2 c d FC SW A1 NF LT NI A2 NE CK D L1 L2|a b c d dl DA DB DC DD D LQ]; try (left; assumption).
  - destruct F as [| | | | | | | |tt sep c m e J A RO ER]; try (left; assumption). unfold ends_record in ER. destruct (Z.eqb_spec h 103) as [EH|EH].
    + destruct ER as (b & -> & _). rewrite last_last. right. split; [reflexivity|exact EH].
    + destruct ER as (q & -> & Q). left. exact Q.
  - destruct D as [D|(D & D')]; [left; exact D|right; split; assumption].
Qed.
(** The name at the beginning of the line *)
Lemma owner_first z o x : owner z o x -> exists y t, o = utf8 y ++ t /\ ok_char y /\ y <> 123 /\ y <> 126 /\ y <> 35 /\ y <> 47 /\ (csv2_is_starwhitis_orslash y = true \/ y = 46).
Proof.
  intros W. destruct W as [n e F NC TK FZ|n e F TK FZ].
  - destruct n as [|l n].
    + destruct e; [exists 46, []|exists 37, []]; (split; [reflexivity|]); (split; [left; lia|]); do 4 (split; [lia|]); [right; reflexivity|left; reflexivity].
    + destruct (spelled_first (l :: n) e F NC ltac:(left; discriminate)) as (y & t & E & K & X1 & X2 & X3 & OX). exists y, t. split; [exact E|]. split; [exact K|]. do 3 (split; [assumption|]).
      assert (y <> 47). { intros ->. vm_compute in OX. discriminate. }
      split; [assumption|]. left. unfold csv2_is_dchar in OX. unfold csv2_is_starwhitis_orslash. destruct (csv2_is_text y); [reflexivity|]. cbn [orb] in *. lia.
  - exists 42, (46 :: dotted n ++ (if e then [] else [37])). split; [reflexivity|]. split; [left; lia|]. do 4 (split; [lia|]). left. reflexivity.
Qed.
Lemma owner_on J sw zone cap z o x d rest h : junk_ok J -> sw = 0 \/ sw = 1 -> held cap zone (text z) -> owner z o x -> delimiter d -> reading h (o ++ d :: rest) ->
  exists s g, csv2_get_hostname J (snd (csv2_read_unicode h)) zone (sw + 1) = Ok (Some s, g) /\ holding s x /\ after_reading h g rest d.
Proof.
  intros HJ SW HZ W D R. destruct W as [n e F NC TK FZ|n e F TK FZ].
  - exact (C47_name J h zone cap z (sw + 1) n e d rest HJ HZ ltac:(cbn; lia) D F NC TK FZ R).
  - apply (C47_star J h zone cap z (sw + 1) n e d rest HJ HZ ltac:(cbn; lia) D F TK FZ). cbn [app] in R. rewrite <- app_assoc in R. exact R.
Qed.
Lemma plus_delim d : delimiter d -> csv2_is_alphanum_orplus d = false. Proof. unfold delimiter, csv2_is_alphanum_orplus, csv2_is_alphanum, csv2_is_alpha, csv2_is_number. lia. Qed.
Lemma alnum_delim d : delimiter d -> csv2_is_alphanum d = false. Proof. unfold delimiter, csv2_is_alphanum, csv2_is_alpha, csv2_is_number. lia. Qed.
Lemma rest_split J O U sw st f : rr_rest J O U sw st f =
  if negb ((sw =? 0) || (sw =? 1)) then Ok (-1, None, csv2_error f)
  else
    ' (name, f) <- csv2_get_hostname (J (-1)) f (z_origin st) (sw + 1) ;;
    match name with
    | None => Ok (-1, None, csv2_error f)
    | Some name =>
        let '(r, f) := csv2_get_1st f csv2_is_alphanum_orplus 0 in
        if r <? 0 then Ok (-1, None, csv2_error f)
        else ' (ttl, f) <- rr_ttl (J (-2)) st f ;; match ttl with None => Ok (-1, None, f) | Some ttl => rr_tail J O U st name ttl f end
    end.
Proof. reflexivity. Qed.
Lemma record_on sn J O U sw s st h l r d rest : reads_aaaa O -> reads_soa sn O -> reads_mbox O -> (forall k, junk_ok (J k)) -> U + 1512 <= 2147483647 -> sw = 0 \/ sw = 1 -> f_hand h <> 2 -> record_line sn (f_hand h) s l r d -> agrees s st -> reading h (l ++ rest) ->
  exists a g, rr_rest J O U sw st (snd (csv2_read_unicode h)) = Ok (JS_SUCCESS, Some a, g) /\ is_added r a /\ fin h g rest d.
Proof.
  intros HA HS HM HJ HU SW N2 L ((cap & HZ) & _ & _ & _ & TT) R. rewrite rest_split. replace (negb ((sw =? 0) || (sw =? 1))) with false by lia. destruct L as [o x d0 sep0 l t y d W A T|o x d0 sep0 p v d1 sep1 l t y d W A NF A1 T].
  - repeat (rewrite <- !app_assoc in R; cbn [app] in R). destruct A as (SE & LE). destruct (owner_on (J (-1)) sw (z_origin st) cap (s_origin s) o x d0 (sep0 ++ l ++ rest) h (HJ _) SW HZ W (sep_delim _ _ SE) R) as (n & g & -> & HN & AG). cbn [bind].
    destruct (typed_first sn _ _ _ _ _ _ rest T) as (c & tl & EC & CC). assert (0 <= c < 128 /\ c <> 123 /\ c <> 126 /\ c <> 35 /\ c <> 43 /\ csv2_is_alphanum_orplus c = true) as (C1 & C2 & C3 & C4 & C5 & C6) by (unfold letter in CC; unfold csv2_is_alphanum_orplus, csv2_is_alphanum, csv2_is_alpha, csv2_is_number; lia).
    pose proof AG as (RG & JG & _ & _ & _ & HG). rewrite EC in RG. destruct (get_here csv2_is_alphanum_orplus c tl sep0 g plus_delim C6 ltac:(left; lia) C2 C3 C4 ltac:(rewrite JG; exact SE) LE ltac:(rewrite utf8_small by lia; exact RG)) as (k & E1 & G). rewrite E1. change (1 <? 0) with false. cbv iota.
    rewrite utf8_small in G by lia. cbn [app] in G. pose proof (proj1 G) as RK. assert (csv2_justread (snd (csv2_read_unicode k)) = c) as JC by (rewrite (read_ascii k c tl RK) by lia; reflexivity).
    unfold rr_ttl. rewrite JC. replace (c =? 43) with false by lia. cbn [bind]. destruct G as (_ & _ & _ & _ & HK). assert (f_hand k = f_hand h) as EH by congruence. rewrite <- EH in T, N2. rewrite <- EC in RK.
    destruct (typed_on sn J O U st cap k (s_origin s) l t y d rest n (z_ttl st) HA HS HM HJ HU N2 T HZ RK) as (q & g2 & -> & HQ & FN). do 2 eexists. split; [reflexivity|]. split; [|exact (fin_hand _ _ _ _ _ EH FN)].
    split; [exact HN|]. split; [reflexivity|]. split; [exact TT|]. exists q. split; [reflexivity|exact HQ].
  - repeat (rewrite <- !app_assoc in R; cbn [app] in R). destruct A as (SE & LE). destruct A1 as (SE1 & LE1). destruct p as [|b p]; [destruct NF as ((NE & _) & _); congruence|]. pose proof (number_head _ _ _ NF) as RB.
    destruct (owner_on (J (-1)) sw (z_origin st) cap (s_origin s) o x d0 _ h (HJ _) SW HZ W (sep_delim _ _ SE) R) as (n & g & -> & HN & AG). cbn [bind]. pose proof AG as (RG & JG & _ & _ & _ & HG).
    destruct (get_here csv2_is_alphanum_orplus 43 ((b :: p) ++ d1 :: sep1 ++ l ++ rest) sep0 g plus_delim eq_refl ltac:(left; lia) ltac:(lia) ltac:(lia) ltac:(lia) ltac:(rewrite JG; exact SE) LE RG) as (k & E1 & G). rewrite E1. change (1 <? 0) with false. cbv iota.
    rewrite (read_ascii k 43 _ (proj1 G)) by lia. cbn [snd]. unfold rr_ttl, csv2_justread. cbn [step f_ok f_just]. change (43 =? 43) with true. cbv iota. fold (step k ((b :: p) ++ d1 :: sep1 ++ l ++ rest) 43).
    set (k1 := step k ((b :: p) ++ d1 :: sep1 ++ l ++ rest) 43). assert (reading k1 (utf8 b ++ p ++ d1 :: sep1 ++ l ++ rest)) as R1 by (rewrite utf8_small by lia; split; reflexivity). destruct (read_at k1 b _ ltac:(left; lia) ltac:(lia) ltac:(lia) R1) as (k2 & -> & G2 & A2). replace (b <? 0) with false by lia.
    destruct (get_num_at (J (-2)) k1 k2 b p v d1 _ (HJ _) G2 A2 NF (sep_delim _ _ SE1)) as (k3 & -> & A3). cbn [bind]. pose proof (field_nonneg _ _ NF). replace (v <? 0) with false by lia. pose proof A3 as (R3 & J3 & _ & _ & _ & H3).
    destruct (typed_first sn _ _ _ _ _ _ rest T) as (c & tl & EC & CC). assert (0 <= c < 128 /\ c <> 123 /\ c <> 126 /\ c <> 35 /\ csv2_is_alphanum c = true) as (C1 & C2 & C3 & C4 & C6) by (unfold letter in CC; unfold csv2_is_alphanum, csv2_is_alpha, csv2_is_number; lia).
    rewrite EC in R3. destruct (get_here csv2_is_alphanum c tl sep1 k3 alnum_delim C6 ltac:(left; lia) C2 C3 C4 ltac:(rewrite J3; exact SE1) LE1 ltac:(rewrite utf8_small by lia; exact R3)) as (k4 & E4 & G4). rewrite E4. change (1 <? 0) with false. cbv iota. cbn [bind].
    destruct G4 as (R4 & _ & _ & _ & H4). rewrite utf8_small in R4 by lia. change ([c] ++ tl) with (c :: tl) in R4. rewrite <- EC in R4. destruct G as (_ & _ & _ & _ & HK). assert (f_hand k4 = f_hand h) as EH by (unfold k1 in H3; cbn [step f_hand] in H3; congruence). rewrite <- EH in T, N2.
    destruct (typed_on sn J O U st cap k4 (s_origin s) l t y d rest n v HA HS HM HJ HU N2 T HZ R4) as (q & g2 & -> & HQ & FN). do 2 eexists. split; [reflexivity|]. split; [|exact (fin_hand _ _ _ _ _ EH FN)].
    split; [exact HN|]. split; [reflexivity|]. split; [reflexivity|]. exists q. split; [reflexivity|exact HQ].
Qed.

(** ** Files *)
Definition after_start (J : Z -> Z -> Z) (R : csv2 -> csv2) (O : Z -> zst -> csv2 -> res (option js * csv2)) (U sw : Z) (r : res (Z * zst * csv2)) : res (Z * option added * zst * csv2) :=
  ' (q, st, f) <- r ;; if q <? 0 then Ok (q, None, st, f) else ' (q, a, f) <- rr_rest J O U sw st f ;; Ok (q, a, st, f).
Definition after_rr (m : nat) (J : nat -> Z -> Z -> Z) (R : csv2 -> csv2) (O : Z -> zst -> csv2 -> res (option js * csv2)) (U : nat -> Z) (sw : Z) (r : res (Z * option added * zst * csv2)) : res (list added) :=
  ' (q, a, st, f) <- r ;; if q <? 0 then Ok [] else l <- zone_loop m J R O U sw st f ;; Ok (match a with None => l | Some a => a :: l end).
Lemma loop_split m J R O U sw st f : zone_loop (S m) J R O U sw st f = after_rr m J R O U sw (after_start (J m) R O (U m) sw (rr_start (S (length (f_rest f))) (J m) R st f)).
Proof. reflexivity. Qed.
Lemma rule_ok h n h' : tilde_rule h n = Some h' -> h' <> 2.
Proof. unfold tilde_rule. intros T. repeat match type of T with context [if ?q then _ else _] => destruct q eqn:? end; try discriminate; injection T as <-; lia. Qed.
Lemma line_end s c s' d : command_line s c s' d -> delimiter d.
Proof. intros C. destruct C; assumption. Qed.
Lemma record_end sn h s l r d : record_line sn h s l r d -> d = 126 -> h = 103.
Proof. intros L E. assert (exists z l t y, typed sn h z l t y d) as (z & l' & t & y & T) by (destruct L; eauto 6). destruct (typed_end sn _ _ _ _ _ _ T) as [D|(_ & D)]; [unfold delimiter in D; lia|exact D]. Qed.
Lemma file_on sn J R O U sw : reads_aaaa O -> reads_soa sn O -> reads_mbox O -> (forall m k, junk_ok (J m k)) -> (forall m, U m + 1512 <= 2147483647) -> sw = 0 \/ sw = 1 -> forall b h s l rs, zone_file sn b h s l rs -> forall m k st f, (b = 126 -> h = 103) -> agrees s st -> reading f l -> f_just f = b -> f_hand f = h ->
  (length l < k)%nat -> exists adds, after_rr m J R O U sw (after_start (J m) R O (U m) sw (rr_start k (J m) R st f)) = Ok adds /\ Forall2 is_added (firstn (S m) rs) adds.
Proof.
  intros HA HS HM HJ HU SW b h s l rs ZF. induction ZF as [b h s g h' G T|b h s g h' c s' d l rs G LS T C ZF IH|b h s g h' c r d l rs G LS T C ZF IH]; intros m k st f B AG RD JU HH LK; (destruct k as [|k]; [lia|]); cbn [rr_start].
  - destruct (get_end b g f h' G ltac:(rewrite HH; exact B) ltac:(rewrite HH; exact T) JU RD) as (h2 & ->). cbv iota zeta. change (-2 =? -2) with true. cbv iota. exists []. split; [reflexivity|constructor].
  - rewrite !app_length in LK. assert (exists c', c = 47 :: c') as (c' & EC) by (destruct C; cbn; eexists; reflexivity).
    destruct (get_start b g 47 (c' ++ l) f h' ltac:(left; lia) ltac:(lia) ltac:(lia) ltac:(lia) ltac:(left; reflexivity) G LS ltac:(rewrite HH; exact B) ltac:(rewrite HH; exact T) JU ltac:(rewrite EC in RD; exact RD)) as (q & -> & RQ & HQ).
    change (1 =? -2) with false. change (1 =? JS_ERROR) with false. cbv iota. assert (reading q (c ++ l)) as RC by (rewrite EC; exact RQ).
    destruct (slash_on (J m (Z.of_nat k)) R s st c s' d l q (HJ _ _) C AG RC) as (st' & g2 & E1 & E2 & AG' & (RG & JG & HG)). rewrite E1. change (47 =? 47) with true. cbv iota. rewrite E2. cbn [bind].
    apply IH; try assumption; [|congruence|subst c; cbn [length] in LK; lia]. intros ->. pose proof (line_end _ _ _ _ C) as D. unfold delimiter in D. lia.
  - rewrite !app_length in LK. assert (exists o z x t, c = o ++ t /\ owner z o x) as (o & z & x & t & EC & W) by (destruct C; eauto 8). destruct (owner_first z o x W) as (y & t' & EO & K & X1 & X2 & X3 & X4 & OX).
    assert (reading f (gap_text g ++ utf8 y ++ (t' ++ t) ++ l)) as RD' by (rewrite EC, EO in RD; rewrite <- !app_assoc in *; exact RD).
    destruct (get_start b g y _ f h' K X1 X2 X3 OX G LS ltac:(rewrite HH; exact B) ltac:(rewrite HH; exact T) JU RD') as (q & -> & RQ & HQ). change (1 =? -2) with false. change (1 =? JS_ERROR) with false. cbv iota.
    assert (csv2_justread (snd (csv2_read_unicode q)) =? 47 = false) as ->.
    { destruct (read_at q y _ K X1 X2 RQ) as (k2 & -> & _ & (OK & JK & _)). cbn [snd]. unfold csv2_justread. rewrite OK, JK. destruct (Z_lt_dec y 128) as [LY|LY]; [rewrite utf8_small by (pose proof (ok_range y K); lia); cbn [last]; lia|]. pose proof (ok_range y K). assert (wide y) as WY by (unfold wide; lia). pose proof (last_wide y WY). lia. }
    cbv iota. unfold after_start at 1. cbn [bind]. change (1 <? 0) with false. cbv iota. pose proof (rule_ok _ _ _ T) as N2. rewrite <- HQ in C, N2.
    destruct (record_on sn (J m) O (U m) sw s st q c r d l HA HS HM (HJ m) (HU m) SW N2 C AG) as (a & g2 & -> & IA & (RG & JG & HG)). { rewrite EC, EO. rewrite <- !app_assoc. rewrite <- app_assoc in RQ. exact RQ. }
    cbn [bind]. unfold after_rr. cbn [bind]. change (JS_SUCCESS <? 0) with false. cbv iota. destruct m as [|m].
    + cbn [zone_loop bind]. exists [a]. split; [reflexivity|]. cbn [firstn]. constructor; [exact IA|constructor].
    + rewrite loop_split. destruct (IH m (S (length (f_rest g2))) st g2) as (adds & -> & FA); try assumption; [|congruence|rewrite (proj2 RG); lia|].
      { intros ->. rewrite <- HQ. exact (record_end sn _ _ _ _ _ C eq_refl). }
      cbn [bind]. exists (a :: adds). split; [reflexivity|]. cbn [firstn]. constructor; [exact IA|exact FA].
Qed.
