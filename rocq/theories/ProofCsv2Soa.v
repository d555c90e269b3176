(** Mailboxes and SOA data in zone files. *)
From Coq Require Import String.
From Verif Require Import CBase Bits ModelDwStr SpecDwStr ProofDwStr SpecNames SpecMessage SpecQuery ModelJsStr SpecJsStr ProofJsStr ModelQueries SpecQueries ProofQueries ProofHname ProofEmail ProofJsList ModelServe ProofServe ProofServeRun
  ModelIpAcl ModelCsv2 SpecCsv2 ProofCsv2 ProofCsv2Names ProofCsv2Addr PropsCsv2 ModelCsv2Rr SpecCsv2Rr ProofCsv2Rr PropsCsv2Rr ModelCsv2Soa SpecCsv2Soa.
Local Open Scope Z_scope.
Local Open Scope list_scope.

(** ** Before the at sign *)
Lemma mail_facts c : mail_char c -> 0 <= c < 128 /\ c <> 123 /\ c <> 126 /\ c <> 46 /\ c <> 64 /\ c <> 92 /\ csv2_b4_at c = true.
Proof. intros H. unfold mail_char, mail_first in H. repeat match goal with |- _ /\ _ => split end; try lia. unfold csv2_b4_at, csv2_is_alphanum, csv2_is_alpha, csv2_is_number. lia. Qed.
Lemma add_on o y c : held 256 o y -> 0 <= c < 128 -> zlen y + 1 <= 256 -> exists o', csv2_append_utf8 o c = Ok (1, o') /\ held 256 o' (y ++ [c]).
Proof. intros H R L. destruct (char_on o y c H ltac:(left; lia)) as (o' & E & H'); [rewrite utf8_small by lia; exact L|]. rewrite utf8_small in H' by lia. exists o'. auto. Qed.
Lemma step_goes f c rest : goes f (step f rest c) rest. Proof. split; [apply step_reading|cbn; auto]. Qed.
Lemma part_on n p o f rest y : mail_char (p_char p) -> reading f (part_text p ++ rest) -> held 256 o y -> zlen y + zlen (part_octets p) <= 256 ->
  exists o' g, mbox_loop (S n) false o f = mbox_loop n false o' g /\ held 256 o' (y ++ part_octets p) /\ goes f g rest.
Proof.
  intros MC R H L. destruct p as [[|] c]; cbn [p_dot p_char part_text part_octets app] in *; destruct (mail_facts c MC) as (C1 & C2 & C3 & C4 & C5 & C6 & C7); cbn [mbox_loop andb].
  - rewrite (read_ascii f 92 _ R) by lia. cbn [bind]. change (0 =? 46) with false. change (92 =? FATAL) with false. change ((92 =? 64) || (92 =? 46)) with false. cbv iota. unfold mbox_dot. change (92 =? 92) with true. cbv iota.
    rewrite (read_ascii _ 46 (c :: rest) (step_reading _ _ _)) by lia. change (negb (46 =? 46)) with false. cbv iota. change (zlen [46; c]) with 2 in L.
    destruct (add_on o y 46 H ltac:(lia) ltac:(lia)) as (o1 & -> & H1). cbn [bind]. change (1 <? 0) with false. cbv iota. rewrite (read_ascii _ c rest (step_reading _ _ _)) by lia. cbn [bind]. rewrite C7.
    destruct (add_on o1 (y ++ [46]) c H1 ltac:(lia) ltac:(rewrite zlen_app; change (zlen [46]) with 1; lia)) as (o2 & -> & H2). cbn [bind]. change (1 <? 0) with false. cbv iota. rewrite <- app_assoc in H2.
    do 2 eexists. split; [reflexivity|]. split; [exact H2|]. exact (goes_trans _ _ _ _ _ (step_goes f 92 (46 :: c :: rest)) (goes_trans _ _ _ _ _ (step_goes _ 46 (c :: rest)) (step_goes _ c rest))).
  - rewrite (read_ascii f c _ R) by lia. cbn [bind]. change (0 =? 46) with false. replace (c =? FATAL) with false by (unfold FATAL; lia). replace ((c =? 64) || (c =? 46)) with false by lia. cbv iota. unfold mbox_dot. replace (c =? 92) with false by lia. cbn [bind]. rewrite C7. change (zlen [c]) with 1 in L.
    destruct (add_on o y c H ltac:(lia) ltac:(lia)) as (o1 & -> & H1). cbn [bind]. change (1 <? 0) with false. cbv iota. do 2 eexists. split; [reflexivity|]. split; [exact H1|apply step_goes].
Qed.
Lemma parts_on ps : forall n o f rest y, Forall (fun p => mail_char (p_char p)) ps -> reading f (flat_map part_text ps ++ rest) -> held 256 o y -> zlen y + zlen (flat_map part_octets ps) <= 256 ->
  exists o' g, mbox_loop (length ps + n) false o f = mbox_loop n false o' g /\ held 256 o' (y ++ flat_map part_octets ps) /\ goes f g rest.
Proof.
  induction ps as [|p ps IH]; intros n o f rest y F R H L.
  - exists o, f. cbn [flat_map app] in *. rewrite app_nil_r. split; [reflexivity|]. split; [exact H|]. split; [exact R|auto].
  - apply Forall_cons_iff in F as (FP & F). cbn [flat_map] in *. rewrite zlen_app in L. pose proof (zlen_nonneg (flat_map part_octets ps)). rewrite <- app_assoc in R.
    destruct (part_on (length ps + n) p o f _ y FP R H ltac:(lia)) as (o1 & g1 & E1 & H1 & G1). cbn [length Nat.add]. rewrite E1.
    destruct (IH n o1 g1 rest _ F (proj1 G1) H1 ltac:(rewrite zlen_app; lia)) as (o' & g & -> & H' & G). exists o', g. split; [reflexivity|]. split; [rewrite app_assoc; exact H'|exact (goes_trans _ _ _ _ _ G1 G)].
Qed.
Lemma first_on_dot n o f y c : held 256 o (90 :: c :: y) -> c <> 46 -> mbox_loop (S n) true o f = mbox_loop (S n) false o f.
Proof.
  intros H NC. cbn [mbox_loop andb]. destruct (csv2_read_unicode f) as [look g]. rewrite (count_held _ _ H), (rd1_held _ _ _ _ H). pose proof (zlen_nonneg y). replace (2 <=? zlen (90 :: c :: y)) with true by (rewrite !zlen_cons; lia). cbn [bind]. change (0 =? 46) with false. replace (c =? 46) with false by lia. reflexivity.
Qed.
(** ** After it *)
Lemma at_on n o f ns e d rest y : name_chars ns -> delimiter d -> reading f (64 :: dotted ns ++ tail_of e ++ d :: rest) -> held 256 o y -> zlen y + 1 + zlen (dotted ns) + zlen (tail_of e) <= 256 ->
  exists o' g, mbox_loop (S n) false o f = Ok (Some o', g) /\ held 256 o' (y ++ 64 :: dotted ns ++ tail_of e) /\ after_reading f g rest d.
Proof.
  intros F D R H L. pose proof (zlen_nonneg (dotted ns)) as Z1. pose proof (zlen_nonneg (tail_of e)) as Z2. pose proof (zlen_nonneg y) as Z3. cbn [mbox_loop andb]. rewrite (read_ascii f 64 _ R) by lia. cbn [bind]. change (0 =? 46) with false. change (64 =? FATAL) with false. change ((64 =? 64) || (64 =? 46)) with true. change (64 =? 46) with false. cbv iota.
  destruct (add_on o y 64 H ltac:(lia) ltac:(lia)) as (o1 & -> & H1). cbn [bind]. change (1 <? 0) with false. cbv iota. set (g := step f (dotted ns ++ tail_of e ++ d :: rest) 64).
  assert (csv2_justread g = 64) as JU by (unfold csv2_justread, g; cbn; rewrite ?(proj1 R); reflexivity). unfold js_append_dname. rewrite JU. change (64 =? 37) with false. change (64 =? 46) with false. change (0 =? 0) with true. cbn [andb orb negb].
  pose proof (steps_short ns) as SS. destruct (fuel_split (label_steps ns) ltac:(lia)) as (k & ->).
  destruct (dname_labels 0 ns (S k) 0 o1 g (tail_of e ++ d :: rest) _ F (step_reading _ _ _) H1 ltac:(rewrite zlen_app; change (zlen [64]) with 1; lia)) as (o2 & g2 & x2 & -> & H2 & G2 & _).
  destruct (dname_end k x2 0 o2 g2 e d rest _ ltac:(lia) ltac:(lia) D (proj1 G2) H2 ltac:(rewrite !zlen_app; change (zlen [64]) with 1; lia)) as (o3 & -> & H3). exists o3. eexists. split; [reflexivity|]. split.
  - rewrite <- !app_assoc in H3. exact H3.
  - exact (step_after f g2 rest d _ (goes_trans _ _ _ _ _ (step_goes f 64 _) G2)).
Qed.
(** ** Mailboxes *)
Lemma parts_len ps : Z.of_nat (length ps) <= zlen (flat_map part_octets ps).
Proof. induction ps as [|[b c] ps IH]; [reflexivity|]. cbn [flat_map length]. rewrite zlen_app. assert (1 <= zlen (part_octets (mkpart b c))) by (destruct b; vm_compute; discriminate). lia. Qed.
Lemma dots_meant n e z : dots (meant n e z) = dotted n ++ match e with Absolute => [] | Percent => dots z end.
Proof. unfold meant. destruct e; [rewrite !app_nil_r; symmetry; apply dots_written|]. rewrite dots_app, <- dots_written. reflexivity. Qed.
Lemma email_long n : good_name n -> n <> [] -> 2 <= zlen (dots n).
Proof. intros G NE. destruct n as [|a n]; [congruence|]. apply Forall_cons_iff in G as ((A & _) & _). unfold dots. cbn [map concat]. rewrite !zlen_app. change (zlen [46]) with 1. pose proof (zlen_nonneg (concat (map (fun l => l ++ [46]) n))). lia. Qed.
Lemma mailbox_on J f zone cap z m d sep rest out y : junk_ok J -> held cap zone (text z) -> mailbox_ok m z -> separators (f_just f :: sep) -> zlen sep < 10000 -> delimiter d -> reading f (sep ++ mailbox_text m ++ d :: rest) -> held 512 out y ->
  zlen y + zlen (wire (mailbox_name m z)) < 512 ->
  exists o g, mbox_names 1 J out f zone = Ok (Some o, g) /\ held 512 o (y ++ wire (mailbox_name m z)) /\ after_reading f g rest d.
Proof.
  intros HJ HZ (MF & FP & NC & EK & PC) (SF & SP) LE D R HO LO. destruct m as [c ps ns e]. unfold mailbox_text, local_text, mailbox_name, local_octets in *. cbn [m_first m_parts m_host m_end] in *.
  destruct (mail_facts c (or_introl MF)) as (C1 & C2 & C3 & C4 & C5 & C6 & _). cbn [mbox_names]. cbn [app] in R. rewrite <- !app_assoc in R. cbn [app] in R. rewrite <- !app_assoc in R.
  assert (csv2_is_alphanum_ordot c = true) as CK by (unfold csv2_is_alphanum_ordot, csv2_is_alphanum, csv2_is_alpha, csv2_is_number; unfold mail_first in MF; lia).
  destruct (get_1st csv2_is_alphanum_ordot c _ sep f ltac:(intros q Q; unfold delimiter in Q; unfold csv2_is_alphanum_ordot, csv2_is_alphanum, csv2_is_alpha, csv2_is_number; lia) CK C1 C2 C3 ltac:(unfold mail_first in MF; lia) SF SP LE R) as (g & -> & G & A). change (negb (1 =? JS_SUCCESS)) with false. cbv iota.
  unfold process_mbox. destruct (first_on J g c csv2_is_alphanum_ordot [90] HJ A ltac:(left; lia) CK ltac:(apply Forall_cons; [unfold byte; lia|constructor]) ltac:(vm_compute; discriminate)) as (o & -> & HH). cbn [bind]. rewrite utf8_small in HH by lia. cbn [app] in HH.
  pose proof EK as (GN & NE & NI & DL & LT). unfold email_text in LT, PC. rewrite dots_meant in LT, PC. rewrite !zlen_app in LT, PC. rewrite zlen_cons in LT, PC. change (zlen [64]) with 1 in LT, PC.
  pose proof (zlen_nonneg (flat_map part_octets ps)) as Z1. pose proof (zlen_nonneg (dotted ns)) as Z2. pose proof (parts_len ps) as PL. pose proof (zlen_nonneg (tail_of e)) as Z3.
  assert (1 + zlen (flat_map part_octets ps) + 1 + zlen (dotted ns) + zlen (tail_of e) <= 255) as LL.
  { destruct e; cbn [tail_of] in *; [change (zlen (@nil Z)) with 0 in *; lia|]. destruct (PC eq_refl) as (ZN & L2). change (zlen [37]) with 1. assert (good_name z) as GZ by (unfold meant in GN; apply Forall_cons_iff in GN as (_ & GN); apply Forall_app in GN as (_ & GN); exact GN). pose proof (email_long z GZ ZN). lia. }
  destruct (fuel_split (length ps) ltac:(lia)) as (k & EF). rewrite EF. replace (length ps + S k)%nat with (S (length ps + k)) by lia. rewrite (first_on_dot _ o g [] c HH C4). replace (S (length ps + k)) with (length ps + S k)%nat by lia.
  destruct (parts_on ps (S k) o g _ _ FP (proj1 G) HH ltac:(change (zlen [90; c]) with 2; lia)) as (o1 & g1 & -> & H1 & G1).
  destruct (at_on k o1 g1 ns e d rest _ NC D (proj1 G1) H1 ltac:(rewrite zlen_app; change (zlen [90; c]) with 2; lia)) as (o2 & g2 & -> & H2 & AG). cbn [bind].
  pose proof (after_goes _ _ _ _ _ _ (goes_trans _ _ _ _ _ G G1) AG) as AF.
  assert (exists o3, csv2_convert_percent o2 zone = Ok (Some o3) /\ held 256 o3 (90 :: email_text (c :: flat_map part_octets ps) (meant ns e z))) as (o3 & -> & H3).
  { unfold email_text. rewrite dots_meant. destruct e; cbn [tail_of] in *.
    - assert (exists q, dotted ns = q ++ [46]) as (q & EQ). { unfold meant in NE. rewrite app_nil_r in NE. destruct ns as [|a b] using rev_ind; [cbn in NE; congruence|]. unfold dotted. rewrite map_app, concat_app. cbn [map concat]. rewrite app_nil_r. exists (concat (map (fun l => written l ++ [46]) b) ++ written a). rewrite app_assoc. reflexivity. }
      exists o2. rewrite !app_nil_r in *. split; [|exact H2]. rewrite EQ in H2. apply (convert_absolute o2 (90 :: c :: flat_map part_octets ps ++ 64 :: q)). cbn [app] in *. rewrite <- app_assoc in *. cbn [app] in *. exact H2.
    - destruct (PC eq_refl) as (ZN & L2). rewrite text_dots in HZ by exact ZN. destruct (convert_percent o2 (90 :: c :: flat_map part_octets ps ++ 64 :: dotted ns) cap zone (dots z)) as (o3 & E3 & H3); [cbn [app] in *; rewrite <- app_assoc; cbn [app]; exact H2|exact HZ|rewrite !zlen_cons, zlen_app, zlen_cons; rewrite ?zlen_app in L2; lia|].
      exists o3. split; [exact E3|]. cbn [app] in *. rewrite <- app_assoc in *. cbn [app] in *. exact H3. }
  cbn [bind]. destruct (email_good o3 90 _ _ (proj1 H3) EK) as (o4 & -> & H4 & M4). cbn [bind]. change (1 =? JS_ERROR) with false. cbv iota.
  destruct (append_held (j_max o4) o4 _ 512 out y (conj H4 eq_refl) HO LO) as (o5 & -> & H5). cbn [bind]. change (0 =? JS_ERROR) with false. cbv iota. exists o5, g2. split; [reflexivity|]. split; [exact H5|exact AF].
Qed.

(** One after another *)
Lemma names_more J n out f zone o g : mbox_names 1 J out f zone = Ok (Some o, g) -> mbox_names (S n) J out f zone = mbox_names n J o g zone.
Proof.
  cbn [mbox_names]. destruct (csv2_get_1st f csv2_is_alphanum_ordot 0) as [r h]. destruct (negb (r =? JS_SUCCESS)); [discriminate|]. destruct (process_mbox J h) as [(a & k)| |]; cbn [bind]; try discriminate. destruct a as [a|]; [|discriminate].
  destruct (csv2_convert_percent a zone) as [b| |]; cbn [bind]; try discriminate. destruct b as [b|]; [|discriminate]. destruct (email_2rfc1035 b) as [(r2 & c)| |]; cbn [bind]; try discriminate. destruct (r2 =? JS_ERROR); [discriminate|]. destruct (js_append c out) as [(r3 & e)| |]; cbn [bind]; try discriminate. destruct (r3 =? JS_ERROR); [discriminate|]. intros [= <- <-]. reflexivity.
Qed.

(** ** SOA data *)
Lemma quad_held cap t y v : held cap t y -> 0 <= v < 4294967296 -> zlen y + 4 < cap -> exists r s', js_adduint32 t v = Ok (r, s') /\ (r =? JS_ERROR) = false /\ held cap s' (y ++ four v).
Proof.
  intros (HT & <-) V L. pose proof (hold_facts t y HT) as [Wt St Lt Ct Mt Nt Bt Xt Ut Ot _ _].
  destruct (js_adduint32_ok t v Wt V) as (s' & -> & W' & V'). revert V'. unfold s_adduint32, s_add. rewrite Ut, !s_len_value, !unit_value, cap_value, !oct_value by assumption. rewrite St, <- Lt, Ot. cbn [Z.eqb Pos.eqb andb]. change (zlen (be 4 v)) with 4. replace (zlen y + 4 <? j_max t) with true by lia. cbn [fst snd]. intros V'.
  eexists _, _. split; [reflexivity|]. split; [reflexivity|]. unfold with_oct in V'. rewrite unit_value, cap_value, St in V'. replace (four v) with (be 4 v); [apply (value_held _ _ _ _ W' V')|].
  unfold four. change (be 4 v) with [v / 16777216 mod 256; v / 65536 mod 256; v / 256 mod 256; v / 1 mod 256]. rewrite Z.div_1_r, (Z.mod_small (v / 16777216)) by lia. reflexivity.
Qed.
Lemma serial_on J f sep d rest : separators (f_just f :: sep) -> zlen sep < 10000 -> delimiter d -> reading f (sep ++ octets "/serial" ++ d :: rest) ->
  exists g, csv2_get_num J f = Ok (-2, g) /\ after_reading f g rest d.
Proof.
  intros (SF & SP) LS D R. unfold csv2_get_num. change (octets "/serial" ++ d :: rest) with (47 :: [115; 101; 114; 105; 97; 108] ++ d :: rest) in R. cbn [app] in R.
  destruct (get_1st csv2_is_number_orslash 47 _ sep f ltac:(intros q Q; unfold delimiter in Q; unfold csv2_is_number_orslash, csv2_is_number; lia) eq_refl ltac:(lia) ltac:(lia) ltac:(lia) ltac:(lia) SF SP LS R) as (g & -> & G & A). change (negb (1 =? JS_SUCCESS)) with false. cbv iota.
  assert (csv2_justread g = 47) as -> by (unfold csv2_justread; rewrite (proj1 A), (proj1 (proj2 A)); reflexivity). change (47 =? 47) with true. cbv iota.
  cbn [expect]. rewrite (read_ascii g _ _ (proj1 G)) by lia. rewrite Z.eqb_refl. do 5 (rewrite (read_ascii _ _ _ (step_reading _ _ _)) by lia; rewrite Z.eqb_refl). cbn [negb]. destruct (delim_facts d D) as (D1 & D2 & D3 & D4 & _).
  rewrite (read_ascii _ _ _ (step_reading _ _ _)) by lia. rewrite D1. eexists. split; [reflexivity|]. destruct G as (_ & G1 & G2 & G3 & G4). split; [apply step_reading|]. split; [reflexivity|]. cbn. auto.
Qed.
Lemma number_32 J f sep l v d rest serial first n out y : junk_ok J -> separators (f_just f :: sep) -> zlen sep < 10000 -> (number_field l v \/ first = true /\ l = octets "/serial" /\ v = serial) -> 0 <= serial < 4294967296 -> delimiter d ->
  reading f (sep ++ l ++ d :: rest) -> held 512 out y -> zlen y + 4 < 512 ->
  exists out' g, soa_numbers (S n) J first serial out f = soa_numbers n J false serial out' g /\ held 512 out' (y ++ four v) /\ after_reading f g rest d.
Proof.
  intros HJ SE LS NF SV D R HO L. cbn [soa_numbers]. destruct NF as [NF|(-> & -> & ->)].
  - pose proof (field_nonneg _ _ NF) as VN. pose proof NF as (_ & _ & VM & _). destruct (get_num J f sep l v d rest HJ SE LS NF D R) as (g & -> & AG). cbn [bind]. replace (v =? -2) with false by lia. replace (v <? 0) with false by lia. cbn [andb negb].
    destruct (quad_held 512 out y v HO ltac:(lia) L) as (r & s' & -> & E & H'). cbn [bind]. rewrite E. exists s', g. auto.
  - destruct (serial_on J f sep d rest SE LS D R) as (g & -> & AG). cbn [bind]. change ((-2 =? -2) && true) with true. cbn [andb negb].
    destruct (quad_held 512 out y serial HO ltac:(lia) L) as (r & s' & -> & E & H'). cbn [bind]. rewrite E. exists s', g. auto.
Qed.
