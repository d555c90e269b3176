(** C48: numbers, types of records, and the data of MX and SRV records in zone files mean what is written
    (parse/Csv2_parse.c). *)
From Coq Require Import String.
From Verif Require Import CBase Bits ModelDwStr SpecDwStr ProofDwStr SpecNames SpecMessage SpecQuery ModelJsStr SpecJsStr ProofJsStr ModelQueries SpecQueries ProofQueries ProofHname ProofJsList ModelServe ProofServe ProofServeRun
  ModelIpAcl ModelCsv2 SpecCsv2 ProofCsv2 ProofCsv2Names ProofCsv2Addr PropsCsv2 ModelCsv2Rr SpecCsv2Rr ProofCsv2Rr.
Local Open Scope Z_scope.
Local Open Scope list_scope.

(** ** Numbers *)
Theorem C48_number : forall J f sep l v d rest, junk_ok J -> separators (f_just f :: sep) -> zlen sep < 10000 -> number_field l v -> delimiter d ->
  reading f (sep ++ l ++ d :: rest) -> exists g, csv2_get_num J f = Ok (v, g) /\ after_reading f g rest d.
Proof. intros. eapply get_num; eassumption. Qed.

(** ** Types of records *)
Lemma in_word w : same_word w "IN" -> word w /\ lookup rtypes (map low_ascii w) = -2.
Proof.
  intros E. split; [|rewrite (same_low w _ E); vm_compute; reflexivity]. unfold same_word in E. destruct w as [|a [|b [|c w]]]; try discriminate. cbn in E. injection E as E1 E2.
  assert (letter a /\ letter b) as (LA & LB) by (unfold upper in *; unfold letter; destruct ((97 <=? a) && (a <=? 122)) eqn:A; destruct ((97 <=? b) && (b <=? 122)) eqn:B; lia). split; [|vm_compute; discriminate]. split; [exact LA|]. apply Forall_cons; [left; exact LB|constructor].
Qed.
Lemma sep_delim d s : separators (d :: s) -> delimiter d. Proof. intros (F & _). exact (Forall_inv F). Qed.
Lemma classes_on J d rest cl : junk_ok J -> delimiter d -> Forall class_ok cl -> forall n f sep t, separators (f_just f :: sep) -> zlen sep < 10000 -> word t -> reading f (sep ++ concat (map class_text cl) ++ t ++ d :: rest) ->
  exists h sep', rtype_loop (length cl + n) J f = rtype_loop n J h /\ goes f h (sep' ++ t ++ d :: rest) /\ separators (f_just h :: sep') /\ zlen sep' < 10000.
Proof.
  intros HJ D F. induction F as [|((w & dd) & s) cl (SW & SS & LS) F IH]; intros n f sep t SE LE WT R; cbn [map concat length Nat.add app class_text] in *.
  - exists f, sep. split; [reflexivity|]. split; [split; [exact R|auto]|]. split; assumption.
  - destruct (in_word w SW) as (WW & LK). pose proof (sep_delim _ _ SS) as DD. rewrite <- !app_assoc in R. cbn [app] in R.
    destruct (rtype_round J (length cl + n) f sep w dd (s ++ concat (map class_text cl) ++ t ++ d :: rest) HJ SE LE WW DD R) as (g & A & E). rewrite LK in E. cbv zeta in E. change (-2 =? -3) with false in E. change ((-2 =? -1) || (-2 =? 0)) with false in E. change ((-2 <=? -2) && (-11 <=? -2)) with true in E. cbv iota in E.
    destruct (IH n g s t ltac:(rewrite (proj1 (proj2 A)); exact SS) LS WT (proj1 A)) as (h & sep' & EH & G & SH & LH). exists h, sep'. split; [rewrite E; exact EH|]. split; [exact (goes_trans _ _ _ _ _ (after_goes_on _ _ _ _ A) G)|]. split; assumption.
Qed.
Lemma fuel_cl cl sep t d rest f : reading f (sep ++ concat (map class_text cl) ++ t ++ d :: rest) -> exists n, S (length (f_rest f)) = (length cl + S n)%nat.
Proof.
  intros (_ & ->). assert (length cl <= length (concat (map class_text cl)))%nat as L. { induction cl as [|((w & dd) & s) cl IH]; [cbn; lia|]. cbn [map concat length class_text]. rewrite !app_length. cbn [length]. lia. }
  exists (length (sep ++ concat (map class_text cl) ++ t ++ d :: rest) - length cl)%nat. rewrite !app_length in *. lia.
Qed.
Lemma type_word t s n : In (s, n) types -> same_word t s -> word t.
Proof.
  intros I E. assert (forallb (fun p => match octets (fst p) with [] => false | c :: l => (65 <=? c) && (c <=? 90) && forallb (fun c => ((65 <=? c) && (c <=? 90)) || ((48 <=? c) && (c <=? 57)) || (c =? 45)) l && (zlen l <=? 10) end) types = true) as FB by (vm_compute; reflexivity).
  rewrite forallb_forall in FB. specialize (FB _ I). cbn [fst] in FB. unfold same_word in E. rewrite <- E in FB. destruct t as [|c t]; [discriminate|]. cbn [map] in FB. apply andb_prop in FB as (FB & LB). apply andb_prop in FB as (CB & TB). rewrite forallb_forall in TB.
  split; [split|].
  - unfold letter. unfold upper in CB. destruct ((97 <=? c) && (c <=? 122)) eqn:U; lia.
  - apply Forall_forall. intros b IB. specialize (TB (upper b) (in_map upper t b IB)). unfold letter. unfold upper in TB. destruct ((97 <=? b) && (b <=? 122)) eqn:U; lia.
  - rewrite zlen_cons. unfold zlen in *. rewrite map_length in LB. lia.
Qed.
(** The name of a type, in letters of either case, is read as its number. *)
Theorem C48_type : forall J f sep classes t s n d rest, junk_ok J -> separators (f_just f :: sep) -> zlen sep < 10000 -> Forall class_ok classes ->
  In (s, n) types -> same_word t s -> delimiter d -> reading f (sep ++ concat (map class_text classes) ++ t ++ d :: rest) ->
  exists g, csv2_get_rtype J f = Ok (n, g) /\ after_reading f g rest d.
Proof.
  intros J f sep cl t s n d rest HJ SE LE FC I SW D R. unfold csv2_get_rtype. destruct (fuel_cl cl sep t d rest f R) as (m & ->). pose proof (type_word t s n I SW) as WT.
  destruct (classes_on J d rest cl HJ D FC (S m) f sep t SE LE WT R) as (h & sep' & -> & G & SH & LH). destruct (rtype_round J m h sep' t d rest HJ SH LH WT D (proj1 G)) as (g & A & ->). rewrite (type_found t s n I SW). pose proof (type_positive s n I). cbv zeta.
  replace (n =? -3) with false by lia. replace ((n =? -1) || (n =? 0)) with false by lia. replace ((n <=? -2) && (-11 <=? n)) with false by lia. exists g. split; [reflexivity|]. exact (after_goes _ _ _ _ _ _ G A).
Qed.
(** No other word is the name of a type. *)
Theorem C48_type_unknown : forall J f sep classes t d rest, junk_ok J -> separators (f_just f :: sep) -> zlen sep < 10000 -> Forall class_ok classes ->
  word t -> (forall s, In s (map fst types ++ words) -> ~ same_word t s) -> delimiter d -> reading f (sep ++ concat (map class_text classes) ++ t ++ d :: rest) ->
  exists g, csv2_get_rtype J f = Ok (-1, g).
Proof.
  intros J f sep cl t d rest HJ SE LE FC WT N D R. unfold csv2_get_rtype. destruct (fuel_cl cl sep t d rest f R) as (m & ->).
  destruct (classes_on J d rest cl HJ D FC (S m) f sep t SE LE WT R) as (h & sep' & -> & G & SH & LH). destruct (rtype_round J m h sep' t d rest HJ SH LH WT D (proj1 G)) as (g & A & ->). rewrite (type_unknown t N). exists g. reflexivity.
Qed.
Lemma raw_word w : same_word w "RAW" -> word w /\ lookup rtypes (map low_ascii w) = -3.
Proof.
  intros E. split; [|rewrite (same_low w _ E); vm_compute; reflexivity]. unfold same_word in E. destruct w as [|a [|b [|c [|x w]]]]; try discriminate. cbn in E. injection E as E1 E2 E3.
  assert (letter a /\ letter b /\ letter c) as (LA & LB & LC) by (unfold upper in *; unfold letter; destruct ((97 <=? a) && (a <=? 122)) eqn:A; destruct ((97 <=? b) && (b <=? 122)) eqn:B; destruct ((97 <=? c) && (c <=? 122)) eqn:C; lia). split; [|vm_compute; discriminate]. split; [exact LA|]. apply Forall_cons; [left; exact LB|]. apply Forall_cons; [left; exact LC|constructor].
Qed.
(** A type by its number: 100000 is added, which tells the caller that the data is raw. *)
Theorem C48_type_raw : forall J f sep classes w d1 sep1 l v d rest, junk_ok J -> separators (f_just f :: sep) -> zlen sep < 10000 -> Forall class_ok classes ->
  same_word w "RAW" -> separators (d1 :: sep1) -> zlen sep1 < 10000 -> number_field l v -> v <= 65535 -> delimiter d ->
  reading f (sep ++ concat (map class_text classes) ++ w ++ d1 :: sep1 ++ l ++ d :: rest) ->
  exists g, csv2_get_rtype J f = Ok (100000 + v, g) /\ after_reading f g rest d.
Proof.
  intros J f sep cl w d1 sep1 l v d rest HJ SE LE FC SW S1 L1 NF LV D R. unfold csv2_get_rtype. destruct (fuel_cl cl sep w d1 _ f R) as (m & ->). destruct (raw_word w SW) as (WW & LK). pose proof (sep_delim _ _ S1) as D1.
  destruct (classes_on J d1 (sep1 ++ l ++ d :: rest) cl HJ D1 FC (S m) f sep w SE LE WW R) as (h & sep' & -> & G & SH & LH). destruct (rtype_round J m h sep' w d1 _ HJ SH LH WW D1 (proj1 G)) as (g & A & ->). rewrite LK. cbv zeta. change (-3 =? -3) with true. cbv iota.
  destruct l as [|x l]; [destruct NF as ((NE & _) & _); congruence|]. pose proof (number_head _ _ _ NF) as RX. pose proof A as (RG & JG & _). assert (separators (f_just g :: sep1)) as (SF & SP) by (rewrite JG; exact S1).
  destruct (get_1st csv2_is_number x (l ++ d :: rest) sep1 g ltac:(intros q Q; unfold delimiter in Q; unfold csv2_is_number; lia) ltac:(unfold csv2_is_number; lia) ltac:(lia) ltac:(lia) ltac:(lia) ltac:(lia) SF SP L1 RG) as (g2 & -> & G2 & A2).
  change (1 <? 0) with false. cbv iota. destruct (get_num_at J g g2 x l v d rest HJ G2 A2 NF D) as (g3 & -> & A3). cbn [bind]. pose proof (field_nonneg _ _ NF).
  replace (v <? 0) with false by lia. replace (2147483648 <=? v + 100000) with false by lia. exists g3. split; [f_equal; f_equal; lia|]. exact (after_goes _ _ _ _ _ _ G (after_goes _ _ _ _ _ _ (after_goes_on _ _ _ _ A) A3)).
Qed.

(** ** MX and SRV *)
(** The host of these records: a name as in C47_name, but not a dot alone. *)
Definition host_ok (zone : js) (cap : Z) (z : name) (n : list (list Z)) (e : ending_) : Prop :=
  held cap zone (text z) /\ name_chars n /\ no_command n /\ text_ok (meant n e z) /\ fits_zone n e z /\ (n <> [] \/ e = Percent).
Lemma spelled_first n e : name_chars n -> no_command n -> (n <> [] \/ e = Percent) -> exists x t, spelled n e = utf8 x ++ t /\ ok_char x /\ x <> 123 /\ x <> 126 /\ x <> 35 /\ csv2_is_dchar x = true.
Proof.
  intros F NC NE. destruct n as [|l n].
  - destruct NE as [NE|NE]; [congruence|]. subst e. exists 37, []. split; [reflexivity|]. split; [left; lia|]. split; [lia|]. split; [lia|]. split; [lia|reflexivity].
  - apply Forall_cons_iff in F as ((NL & FL) & F). destruct l as [|c l]; [congruence|]. pose proof (Forall_inv FL) as NCH. cbn [no_command] in NC. destruct (name_ok c NCH) as (K & C1 & C2 & C3 & C4 & C5).
    assert (exists t, spelled ((c :: l) :: n) e = utf8 c ++ t) as (t & E). { unfold spelled, dotted. cbn [map concat]. change (written (c :: l)) with (utf8 c ++ written l). destruct e; rewrite <- !app_assoc; eexists; reflexivity. }
    exists c, t. split; [exact E|]. split; [exact K|]. split; [exact C1|]. split; [exact C2|]. unfold name_char, wide in NCH. split; [lia|]. unfold csv2_is_dchar, csv2_is_text, csv2_is_alphanum, csv2_is_alpha, csv2_is_number. lia.
Qed.
Lemma host_on J f zone cap z n e sep d rest out y : junk_ok J -> host_ok zone cap z n e -> separators (f_just f :: sep) -> zlen sep < 10000 -> delimiter d -> reading f (sep ++ spelled n e ++ d :: rest) -> held 256 out y ->
  exists o g, mx_names 1 J out f zone = Ok (o, g) /\ after_reading f g rest d /\ (if zlen y + zlen (wire (meant n e z)) <? 256 then exists s, o = Some s /\ holding s (y ++ wire (meant n e z)) else o = None).
Proof.
  intros HJ (HZ & NC & CM & TK & FZ & NE) SE LE D R HO. destruct (spelled_first n e NC CM NE) as (x & t & E & K & X1 & X2 & X3 & OX). rewrite E, <- app_assoc in R.
  destruct (get_here csv2_is_dchar x (t ++ d :: rest) sep f ltac:(intros q Q; unfold delimiter in Q; unfold csv2_is_dchar, csv2_is_text, csv2_is_alphanum, csv2_is_alpha, csv2_is_number; lia) OX K X1 X2 X3 SE LE R) as (h & E1 & G).
  cbn [mx_names]. rewrite E1. change (negb (1 =? JS_SUCCESS)) with false. cbv iota.
  assert (reading h (spelled n e ++ d :: rest)) as RH by (rewrite E, <- app_assoc; exact (proj1 G)).
  destruct (C47_name J h zone cap z 3 n e d rest HJ HZ ltac:(cbn; auto) D NC CM TK FZ RH) as (s & g & E2 & H & A). unfold name_at in E2. rewrite E2. cbn [bind]. assert (held (j_max s) s (wire (meant n e z))) as HS by (split; [exact H|reflexivity]).
  pose proof (after_goes _ _ _ _ _ _ G A) as AG. destruct (Z.ltb_spec (zlen y + zlen (wire (meant n e z))) 256) as [L|L].
  - destruct (append_held _ s _ 256 out y HS HO L) as (s' & -> & H'). cbn [bind]. change (0 =? JS_ERROR) with false. cbv iota. exists (Some s'), g. split; [reflexivity|]. split; [exact AG|]. exists s'. split; [reflexivity|exact (proj1 H')].
  - destruct (append_held_not _ s _ 256 out y HS HO L) as (s' & ->). cbn [bind]. change (-1 =? JS_ERROR) with true. cbv iota. exists None, g. split; [reflexivity|]. split; [exact AG|reflexivity].
Qed.
Lemma two_be v : 0 <= v <= 65535 -> be 2 v = two v.
Proof. intros H. unfold two. change (be 2 v) with [v / 256 mod 256; v / 1 mod 256]. rewrite Z.div_1_r, (Z.mod_small (v / 256)) by lia. reflexivity. Qed.
Lemma new_out J : junk_ok J -> exists out, js_create J 256 1 = Some out /\ held 256 out [].
Proof. intros HJ. destruct (js_create_ok J 256 1 HJ ltac:(lia) ltac:(lia) ltac:(lia)) as (s & E & W & V & _). exists s. split; [exact E|exact (value_held _ _ _ _ W V)]. Qed.

(** An MX record: the preference in two octets and the host; names of more than 253 octets do not fit. *)
Theorem C48_mx : forall J f zone cap z sep p v d1 sep1 n e d rest, junk_ok J -> separators (f_just f :: sep) -> zlen sep < 10000 ->
  number_field p v -> v <= 65535 -> separators (d1 :: sep1) -> zlen sep1 < 10000 -> host_ok zone cap z n e -> delimiter d ->
  reading f (sep ++ p ++ d1 :: sep1 ++ spelled n e ++ d :: rest) ->
  exists o g, csv2_get_mx J f zone (-1) = Ok (o, g) /\ after_reading f g rest d /\
    (if zlen (wire (meant n e z)) <=? 253 then exists s, o = Some s /\ holding s (two v ++ wire (meant n e z)) else o = None).
Proof.
  intros J f zone cap z sep p v d1 sep1 n e d rest HJ SE LE NF LV S1 L1 HO D R. pose proof (field_nonneg _ _ NF). unfold csv2_get_mx. change (-1 <? 0) with true. cbv iota.
  destruct (get_num J f sep p v d1 _ HJ SE LE NF (sep_delim _ _ S1) R) as (g & -> & A). cbn [bind]. replace (v <? 0) with false by lia. destruct (new_out J HJ) as (out & -> & HN).
  destruct (word_held 256 out [] v HN ltac:(lia)) as (r & out' & -> & X & _). destruct (X ltac:(vm_compute; reflexivity)) as (NR & H'). cbn [bind]. change JS_ERROR with (-1). replace (r =? -1) with false by lia. change (-1 =? -2) with false. cbv iota.
  cbn [app] in H'. rewrite two_be in H' by lia. destruct (host_on J g zone cap z n e sep1 d rest out' (two v) HJ HO ltac:(rewrite (proj1 (proj2 A)); exact S1) L1 D (proj1 A) H') as (o & h & -> & AH & X2). exists o, h. split; [reflexivity|]. split; [exact (after_goes _ _ _ _ _ _ (after_goes_on _ _ _ _ A) AH)|].
  change (zlen (two v)) with 2 in X2. replace (zlen (wire (meant n e z)) <=? 253) with (2 + zlen (wire (meant n e z)) <? 256) by lia. exact X2.
Qed.
(** An SRV record: priority, weight and port in two octets each, and the host; names of more than 249 octets
    do not fit. *)
Theorem C48_srv : forall J f zone cap z sep p v d1 sep1 q w d2 sep2 t u d3 sep3 n e d rest, junk_ok J -> separators (f_just f :: sep) -> zlen sep < 10000 ->
  number_field p v -> v <= 65535 -> separators (d1 :: sep1) -> zlen sep1 < 10000 ->
  number_field q w -> w <= 65535 -> separators (d2 :: sep2) -> zlen sep2 < 10000 ->
  number_field t u -> u <= 65535 -> separators (d3 :: sep3) -> zlen sep3 < 10000 -> host_ok zone cap z n e -> delimiter d ->
  reading f (sep ++ p ++ d1 :: sep1 ++ q ++ d2 :: sep2 ++ t ++ d3 :: sep3 ++ spelled n e ++ d :: rest) ->
  exists o g, csv2_get_srv J f zone = Ok (o, g) /\ after_reading f g rest d /\
    (if zlen (wire (meant n e z)) <=? 249 then exists s, o = Some s /\ holding s (two v ++ two w ++ two u ++ wire (meant n e z)) else o = None).
Proof.
  intros J f zone cap z sep p v d1 sep1 q w d2 sep2 t u d3 sep3 n e d rest HJ SE LE NV LV S1 L1 NW LW S2 L2 NU LU S3 L3 HO D R. pose proof (field_nonneg _ _ NV). pose proof (field_nonneg _ _ NW). pose proof (field_nonneg _ _ NU).
  unfold csv2_get_srv. destruct (new_out J HJ) as (out & -> & HN). cbn [srv_numbers].
  destruct (get_num J f sep p v d1 _ HJ SE LE NV (sep_delim _ _ S1) R) as (g1 & -> & A1). cbn [bind]. replace (v <? 0) with false by lia.
  destruct (word_held 256 out [] v HN ltac:(lia)) as (r1 & o1 & -> & X1 & _). destruct (X1 ltac:(vm_compute; reflexivity)) as (NR1 & H1'). cbn [bind]. change JS_ERROR with (-1). replace (r1 =? -1) with false by lia.
  destruct (get_num J g1 sep1 q w d2 _ HJ ltac:(rewrite (proj1 (proj2 A1)); exact S1) L1 NW (sep_delim _ _ S2) (proj1 A1)) as (g2 & -> & A2). cbn [bind]. replace (w <? 0) with false by lia.
  destruct (word_held 256 o1 _ w H1' ltac:(lia)) as (r2 & o2 & -> & X2 & _). destruct (X2 ltac:(vm_compute; reflexivity)) as (NR2 & H2'). cbn [bind]. replace (r2 =? -1) with false by lia.
  destruct (get_num J g2 sep2 t u d3 _ HJ ltac:(rewrite (proj1 (proj2 A2)); exact S2) L2 NU (sep_delim _ _ S3) (proj1 A2)) as (g3 & -> & A3). cbn [bind]. replace (u <? 0) with false by lia.
  destruct (word_held 256 o2 _ u H2' ltac:(lia)) as (r3 & o3 & -> & X3 & _). destruct (X3 ltac:(vm_compute; reflexivity)) as (NR3 & H3'). cbn [bind]. replace (r3 =? -1) with false by lia. cbv iota. cbn [bind]. cbv iota.
  cbn [app] in H3'. rewrite !two_be in H3' by lia.
  destruct (host_on J g3 zone cap z n e sep3 d rest o3 _ HJ HO ltac:(rewrite (proj1 (proj2 A3)); exact S3) L3 D (proj1 A3) H3') as (o & h & -> & AH & X4). exists o, h. split; [reflexivity|]. split.
  - pose proof (after_goes_on _ _ _ _ A1) as G1. pose proof (after_goes_on _ _ _ _ A2) as G2. pose proof (after_goes_on _ _ _ _ A3) as G3. exact (after_goes _ _ _ _ _ _ (goes_trans _ _ _ _ _ G1 (goes_trans _ _ _ _ _ G2 G3)) AH).
  - rewrite !zlen_app in X4. change (zlen (two _)) with 2 in X4. replace (zlen (wire (meant n e z)) <=? 249) with (2 + 2 + 2 + zlen (wire (meant n e z)) <? 256) by lia. rewrite <- !app_assoc in X4. exact X4.
Qed.

(** ** Cases *)
Ltac chars := repeat (apply Forall_cons; [unfold delimiter, file; cbn [f_just]; lia|]); constructor.
Lemma ex_field l v : forallb (fun c => (48 <=? c) && (c <=? 57)) l = true -> l <> [] -> decimal_of l = v -> 0 < v < 2147483648 -> zlen l <= 256 -> number_field l v.
Proof. intros F NE E V L. split; [split; [exact NE|]|]. - apply Forall_forall. rewrite forallb_forall in F. intros c I. specialize (F c I). lia. - split; [exact E|]. split; [lia|]. split; [lia|exact L]. Qed.
(** 0086400 after a blank *)
Example C48_number_ex : exists g, csv2_get_num K (file [32; 48; 48; 56; 54; 52; 48; 48; 124; 65]) = Ok (86400, g) /\ reading g [65].
Proof.
  destruct (C48_number K (file [32; 48; 48; 56; 54; 52; 48; 48; 124; 65]) [32] [48; 48; 56; 54; 52; 48; 48] 86400 124 [65] K_ok) as (g & E & A).
  - split; [chars|vm_compute; lia].
  - vm_compute. reflexivity.
  - apply ex_field; [reflexivity|discriminate|reflexivity|lia|vm_compute; discriminate].
  - unfold delimiter. lia.
  - split; reflexivity.
  - exists g. split; [exact E|exact (proj1 A)].
Qed.
(** in  mX, then a blank *)
Example C48_type_ex : exists g, csv2_get_rtype K (file [105; 110; 32; 32; 109; 88; 32; 49]) = Ok (15, g) /\ reading g [49].
Proof.
  destruct (C48_type K (file [105; 110; 32; 32; 109; 88; 32; 49]) [] [([105; 110], 32, [32])] [109; 88] "MX" 15 32 [49] K_ok) as (g & E & A).
  - split; [chars|vm_compute; lia].
  - vm_compute. reflexivity.
  - apply Forall_cons; [|constructor]. split; [reflexivity|]. split; [split; [chars|vm_compute; lia]|vm_compute; reflexivity].
  - vm_compute. tauto.
  - reflexivity.
  - unfold delimiter. lia.
  - split; reflexivity.
  - exists g. split; [exact E|exact (proj1 A)].
Qed.
(** Aa is no type. *)
Example C48_type_unknown_ex : exists g, csv2_get_rtype K (file [65; 97; 32]) = Ok (-1, g).
Proof.
  apply (C48_type_unknown K (file [65; 97; 32]) [] [] [65; 97] 32 [] K_ok).
  - split; [chars|vm_compute; lia].
  - vm_compute. reflexivity.
  - constructor.
  - split; [|vm_compute; discriminate]. split; [unfold letter; lia|]. apply Forall_cons; [left; unfold letter; lia|constructor].
  - intros s I E. assert (forallb (fun s => negb (zlist_eqb (map upper [65; 97]) (octets s))) (map fst types ++ words) = true) as FB by (vm_compute; reflexivity). rewrite forallb_forall in FB. specialize (FB s I). unfold same_word in E. rewrite E, zlist_eqb_refl in FB. discriminate.
  - unfold delimiter. lia.
  - split; reflexivity.
Qed.
(** raw 44 *)
Example C48_type_raw_ex : exists g, csv2_get_rtype K (file [114; 65; 119; 32; 52; 52; 32]) = Ok (100044, g) /\ reading g [].
Proof.
  destruct (C48_type_raw K (file [114; 65; 119; 32; 52; 52; 32]) [] [] [114; 65; 119] 32 [] [52; 52] 44 32 [] K_ok) as (g & E & A).
  - split; [chars|vm_compute; lia].
  - vm_compute. reflexivity.
  - constructor.
  - reflexivity.
  - split; [chars|vm_compute; lia].
  - vm_compute. reflexivity.
  - apply ex_field; [reflexivity|discriminate|reflexivity|lia|vm_compute; discriminate].
  - lia.
  - unfold delimiter. lia.
  - split; reflexivity.
  - exists g. split; [exact E|exact (proj1 A)].
Qed.
Lemma ex_host : host_ok (str (text ex_z) 256) 256 ex_z ex_n Percent.
Proof.
  destruct ex_meant as (TK & NC & FZ & _). split; [apply str_held; [apply bytesb_spec; reflexivity|vm_compute; discriminate|lia]|]. split; [exact NC|]. split; [discriminate|]. split; [exact TK|]. split; [exact FZ|left; discriminate].
Qed.
(** 300 and the host of C47_name_ex *)
Example C48_mx_ex : exists s g, csv2_get_mx K (file [51; 48; 48; 32; 195; 188; 46; 97; 98; 46; 37; 10]) (str (text ex_z) 256) (-1) = Ok (Some s, g) /\ holding s [1; 44; 2; 195; 188; 2; 97; 98; 2; 101; 120; 0].
Proof.
  destruct (C48_mx K (file [51; 48; 48; 32; 195; 188; 46; 97; 98; 46; 37; 10]) (str (text ex_z) 256) 256 ex_z [] [51; 48; 48] 300 32 [] ex_n Percent 10 [] K_ok) as (o & g & E & A & X).
  - split; [chars|vm_compute; lia].
  - vm_compute. reflexivity.
  - apply ex_field; [reflexivity|discriminate|reflexivity|lia|vm_compute; discriminate].
  - lia.
  - split; [chars|vm_compute; lia].
  - vm_compute. reflexivity.
  - exact ex_host.
  - unfold delimiter. lia.
  - split; reflexivity.
  - change (zlen (wire (meant ex_n Percent ex_z)) <=? 253) with true in X. destruct X as (s & -> & H). exists s, g. split; [exact E|exact H].
Qed.
(** 1 2 5060 and this host *)
Example C48_srv_ex : exists s g, csv2_get_srv K (file [49; 32; 50; 32; 53; 48; 54; 48; 32; 195; 188; 46; 97; 98; 46; 37; 10]) (str (text ex_z) 256) = Ok (Some s, g) /\ holding s [0; 1; 0; 2; 19; 196; 2; 195; 188; 2; 97; 98; 2; 101; 120; 0].
Proof.
  destruct (C48_srv K (file [49; 32; 50; 32; 53; 48; 54; 48; 32; 195; 188; 46; 97; 98; 46; 37; 10]) (str (text ex_z) 256) 256 ex_z [] [49] 1 32 [] [50] 2 32 [] [53; 48; 54; 48] 5060 32 [] ex_n Percent 10 [] K_ok) as (o & g & E & A & X).
  - split; [chars|vm_compute; lia].
  - vm_compute. reflexivity.
  - apply ex_field; [reflexivity|discriminate|reflexivity|lia|vm_compute; discriminate].
  - lia.
  - split; [chars|vm_compute; lia].
  - vm_compute. reflexivity.
  - apply ex_field; [reflexivity|discriminate|reflexivity|lia|vm_compute; discriminate].
  - lia.
  - split; [chars|vm_compute; lia].
  - vm_compute. reflexivity.
  - apply ex_field; [reflexivity|discriminate|reflexivity|lia|vm_compute; discriminate].
  - lia.
  - split; [chars|vm_compute; lia].
  - vm_compute. reflexivity.
  - exact ex_host.
  - unfold delimiter. lia.
  - split; reflexivity.
  - change (zlen (wire (meant ex_n Percent ex_z)) <=? 249) with true in X. destruct X as (s & -> & H). exists s, g. split; [exact E|exact H].
Qed.

(** ** What goes wrong *)
(** Zero with more than one digit is an error, although other numbers may begin with zeros. *)
Theorem C48_zeros_refuted : exists g, csv2_get_num K (file [48; 48; 32]) = Ok (-1, g) /\ digits [48; 48] /\ decimal_of [48; 48] = 0.
Proof. eexists. split; [vm_compute; reflexivity|]. split; [split; [discriminate|repeat (apply Forall_cons; [lia|]); constructor]|reflexivity]. Qed.
(** 2147483648, a number of 32 bits such as a serial number may be, overflows. *)
Theorem C48_overflow_refuted : csv2_get_num K (file [50; 49; 52; 55; 52; 56; 51; 54; 52; 56; 32]) = Bad SignedOverflow.
Proof. vm_compute. reflexivity. Qed.
(** The root is not taken as the host of an MX record (RFC 7505: this domain receives no mail). *)
Theorem C48_null_mx_refuted : exists g, csv2_get_mx K (file [48; 32; 46; 10]) (str (text ex_z) 256) (-1) = Ok (None, g) /\ text_ok (meant [] Absolute ex_z).
Proof. eexists. split; [vm_compute; reflexivity|]. split; [constructor|]. split; [constructor|]. vm_compute. discriminate. Qed.

Print Assumptions C48_number.
Print Assumptions C48_type.
Print Assumptions C48_type_unknown.
Print Assumptions C48_type_raw.
Print Assumptions C48_mx.
Print Assumptions C48_srv.
Print Assumptions C48_zeros_refuted.
Print Assumptions C48_overflow_refuted.
Print Assumptions C48_null_mx_refuted.
