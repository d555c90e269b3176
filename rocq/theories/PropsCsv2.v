(** C47: names and addresses in zone files mean what is written (parse/Csv2_parse.c, parse/Csv2_rr_a.c,
    parse/ParseCsv1.c). *)
From Verif Require Import CBase Bits ModelDwStr SpecDwStr ProofDwStr SpecNames SpecMessage SpecQuery ModelJsStr SpecJsStr ProofJsStr ModelQueries SpecQueries ProofQueries ProofHname ProofJsList ModelServe ProofServe
  ModelIpAcl ModelCsv2 SpecCsv2 ProofCsv2 ProofCsv2Names ProofCsv2Addr ProofServeSafe ProofCsv2Any.

(** ** Characters *)
(** A character outside of ASCII is read from its UTF-8 form, and nothing more is read. *)
Theorem C47_character_read : forall f c rest, wide c -> reading f (utf8 c ++ rest) ->
  exists g, csv2_read_unicode f = (c, g) /\ after_reading f g rest (last (utf8 c) 0) /\ f_uni g = c.
Proof.
  intros f c rest W R. exists (step_u f rest (last (utf8 c) 0) c). split; [apply read_utf8; assumption|]. split; [|reflexivity]. split; [split; reflexivity|]. split; [reflexivity|]. cbn. auto.
Qed.
(** A kept character is put at the end of a string in UTF-8 if there is room for it; otherwise there is an error. *)
Theorem C47_character_written : forall s y c, held 256 s y -> kept c ->
  exists r s', csv2_append_utf8 s c = Ok (r, s') /\ (if zlen y + zlen (utf8 c) <=? 256 then r = JS_SUCCESS /\ held 256 s' (y ++ utf8 c) else r = JS_ERROR).
Proof.
  intros s y c H K. assert (0 <= c < 2147483648) as RG by (unfold kept in K; lia). assert (ok_char c) as OC by (unfold ok_char, wide; destruct (Z_lt_dec c 128); [left; lia|right; split; [lia|exact K]]).
  destruct (Z.leb_spec (zlen y + zlen (utf8 c)) 256) as [L|L].
  - destruct (char_on s y c H OC L) as (s' & E & H'). exists 1, s'. split; [exact E|]. split; [reflexivity|exact H'].
  - unfold csv2_append_utf8. destruct (held_mem 256 s y H) as (r & E & LR & C & BQ & BR & CQ & S1 & M & SA & SM). unfold octet_string. rewrite SA, S1. cbn [Z.eqb Pos.eqb andb negb]. replace (c <? 0) with false by lia. pose proof (utf8_bytes c RG) as B.
    destruct (Z.ltb_spec c 128).
    + rewrite utf8_small in L, B by lia. destruct (octets_full 256 [c] s y H B L) as (s' & z & -> & _). exists (-1), s'. split; reflexivity.
    + rewrite (marked_kept c ltac:(unfold wide; lia) K). destruct (octets_full 256 _ s y H B L) as (s' & z & -> & _). exists (-1), s'. split; reflexivity.
Qed.
(** All other characters are written wrongly: too short for UTF-8. *)
Theorem C47_character_written_refuted : forall s y c, held 256 s y -> wide c -> ~ kept c -> zlen y <= 250 ->
  exists s' l, csv2_append_utf8 s c = Ok (JS_SUCCESS, s') /\ held 256 s' (y ++ l) /\ zlen l < zlen (utf8 c).
Proof.
  intros s y c H W K L. destruct (marked_lost c W K) as (a & l & E & LT). assert (zlen (utf8 c) <= 6) as L6 by (unfold utf8; repeat match goal with |- context [if ?b then _ else _] => destruct b end; vm_compute; discriminate).
  destruct (marked_any c (a :: l) ltac:(unfold wide in W; lia) E) as (B & _).
  destruct (octets_on 256 (a :: l) s y H B ltac:(lia)) as (s' & EO & H'). exists s', (a :: l). split; [|split; [exact H'|exact LT]].
  unfold csv2_append_utf8. destruct (held_mem 256 s y H) as (r & EM & LR & C & BQ & BR & CQ & S1 & M & SA & SM). unfold octet_string. rewrite SA, S1. cbn [Z.eqb Pos.eqb andb negb]. unfold wide in W. replace (c <? 0) with false by lia. replace (c <? 128) with false by lia. rewrite E. exact EO.
Qed.

(** ** Names *)
(** A name with its end, or relative to the zone, becomes this name in wire form. *)
Theorem C47_name : forall J f zone cap z sw n e d rest, junk_ok J -> held cap zone (text z) -> In sw [1; 2; 3] -> delimiter d ->
  name_chars n -> no_command n -> text_ok (meant n e z) -> fits_zone n e z -> reading f (spelled n e ++ d :: rest) ->
  exists s g, name_at J f zone sw = Ok (Some s, g) /\ holding s (wire (meant n e z)) /\ after_reading f g rest d.
Proof.
  intros J f zone cap z sw n e d rest HJ HZ SW D F NC TK FZ R. pose proof (text_meant n e z FZ) as TM. pose proof (meant_starless n e z F FZ) as SL.
  assert (sw <> 4 /\ sw <> 5 /\ sw <> 0) as (S4 & S5 & S0) by (cbn [In] in SW; lia).
  assert (exists body, taken J f sw body e d rest /\ match e with Absolute => body = text (meant n e z) | Percent => body ++ text z = text (meant n e z) /\ zlen (text (meant n e z)) <= 254 end) as (body & T & EB).
  { destruct n as [|l n].
    - destruct e; cbn [spelled dotted map concat app] in *.
      + exists [46]. split; [|exact TM]. apply (taken_one J f sw 46 d rest Absolute HJ S4 S5 D (or_introl eq_refl) R eq_refl).
      + exists []. split; [|split; [exact TM|exact (proj2 (proj2 FZ))]]. apply (taken_one J f sw 37 d rest Percent HJ S4 S5 D (or_intror eq_refl) R eq_refl).
    - exists (dotted (l :: n)). split.
      + apply taken_name; try assumption; [discriminate| |].
        * destruct TK as (_ & _ & TL). destruct e; cbn [tail_of].
          -- change (zlen (@nil Z)) with 0. unfold spelled in TM. rewrite TM. lia.
          -- rewrite <- TM, zlen_app in TL. change (zlen [37]) with 1. destruct FZ as (NZ & _). assert (1 <= zlen (text z)); [|lia]. destruct z as [|a z]; [congruence|]. rewrite text_dots, dots_cons, zlen_app, zlen_cons by discriminate. pose proof (zlen_nonneg a). pose proof (zlen_nonneg (dots z)). lia.
        * destruct e; cbn [tail_of spelled app] in *; [exact R|rewrite <- app_assoc in R; exact R].
      + destruct e; [exact TM|split; [exact TM|exact (proj2 (proj2 FZ))]]. }
  destruct (hostname_of J f cap zone (text z) sw body e d rest _ T HZ TK EB) as (g & s & E & H & A). rewrite E, (meta_plain s _ H (proj1 TK) SL (wire_short _ TK)). cbn [bind]. change (1 =? JS_ERROR) with false. exists s, g. split; [reflexivity|]. split; [exact (proj1 H)|exact A].
Qed.
(** A name that begins with a star stands for all names that end as it does: in the database an
    underscore is in place of the first label. *)
Theorem C47_star : forall J f zone cap z sw n e d rest, junk_ok J -> held cap zone (text z) -> In sw [1; 2] -> delimiter d ->
  name_chars n -> text_ok ([42] :: meant n e z) -> (e = Percent -> z <> [] /\ zlen (text ([42] :: meant n e z)) <= 254) ->
  reading f (42 :: 46 :: dotted n ++ (if e then [] else [37]) ++ d :: rest) ->
  exists s g, name_at J f zone sw = Ok (Some s, g) /\ holding s (95 :: wire (meant n e z)) /\ after_reading f g rest d.
Proof.
  intros J f zone cap z sw n e d rest HJ HZ SW D F TK FZ R.
  assert (match e with Absolute => 42 :: 46 :: dotted n = text ([42] :: meant n e z) | Percent => (42 :: 46 :: dotted n) ++ text z = text ([42] :: meant n e z) end) as TM.
  { rewrite (text_dots ([42] :: _)), dots_cons by discriminate. destruct e; unfold meant; [rewrite app_nil_r, dots_written; reflexivity|]. destruct (FZ eq_refl) as (NZ & _). rewrite dots_app, (text_dots z NZ), dots_written. reflexivity. }
  assert (taken J f sw (42 :: 46 :: dotted n) e d rest) as T.
  { apply (taken_star J f sw n e d rest HJ ltac:(cbn [In] in SW; lia) D F); [|destruct e; exact R]. destruct TK as (_ & _ & TL). destruct e; cbn [tail_of].
    - change (zlen (@nil Z)) with 0. rewrite <- TM, !zlen_cons in TL. lia.
    - rewrite <- TM, zlen_app, !zlen_cons in TL. change (zlen [37]) with 1. destruct (FZ eq_refl) as (NZ & _). assert (1 <= zlen (text z)); [|lia]. destruct z as [|a z]; [congruence|]. rewrite text_dots, dots_cons, zlen_app, zlen_cons by discriminate. pose proof (zlen_nonneg a). pose proof (zlen_nonneg (dots z)). lia. }
  destruct (hostname_of J f cap zone (text z) sw _ e d rest ([42] :: meant n e z) T HZ TK) as (g & s & E & H & A).
  { destruct e; [exact TM|split; [exact TM|exact (proj2 (FZ eq_refl))]]. }
  destruct (meta_star s _ H) as (s' & EM & H'). rewrite E, EM. cbn [bind]. change (1 =? JS_ERROR) with false. exists s', g. split; [reflexivity|]. split; [exact (proj1 H')|exact A].
Qed.

(** Whatever is in the file, nothing is read or written outside of memory, and what is taken as a
    name is one: no star in it, or a star and a dot at the beginning, which gives an underscore. *)
Theorem C47_accepted : forall J f zone cap z sw, junk_ok J -> f_just f < 128 -> In sw [1; 3; 4] -> held cap zone z -> ~ In 42 z ->
  exists o g, name_at J f zone sw = Ok (o, g) /\
    forall s, o = Some s -> exists n, text_ok n /\ starless n /\ (holding s (wire n) \/ holding s (95 :: wire n)).
Proof.
  intros J f zone cap z sw HJ L SW HZ NZ. destruct (hostname_any J f cap zone z sw HJ L SW HZ NZ) as ((o & g) & E & H). exists o, g. split; [exact E|]. intros s ->. exact H.
Qed.

(** ** Addresses *)
Theorem C47_address : forall J J2 f sep a b c d dl rest, junk_ok J -> junk_ok J2 -> separators (f_just f :: sep) -> zlen sep < 10000 ->
  octet_digits a -> octet_digits b -> octet_digits c -> octet_digits d -> delimiter dl -> zlen (quad_text a b c d) <= 256 ->
  reading f (sep ++ quad_text a b c d ++ dl :: rest) ->
  exists ip g, csv2_get_a J J2 f = Ok (Some ip, g) /\ holding ip [decimal_of a; decimal_of b; decimal_of c; decimal_of d] /\ after_reading f g rest dl.
Proof.
  intros J J2 f sep a b c d dl rest HJ HJ2 (SF & SP) LS DA DB DC DD D LQ R. destruct a as [|x a]; [destruct DA as ((NE & _) & _); congruence|].
  assert (48 <= x <= 57 /\ Forall (fun c => 48 <= c <= 57) a) as (RX & FA) by (destruct DA as ((_ & FA) & _); apply Forall_cons_iff in FA; exact FA).
  assert (quad_text (x :: a) b c d ++ dl :: rest = x :: a ++ [46] ++ b ++ [46] ++ c ++ [46] ++ d ++ dl :: rest) as EQ by (unfold quad_text; cbn [app]; rewrite <- !app_assoc; cbn [app]; rewrite <- !app_assoc; cbn [app]; rewrite <- !app_assoc; reflexivity). rewrite EQ in R.
  unfold csv2_get_a. destruct (get_1st csv2_is_number x _ sep f ltac:(intros q Q; unfold delimiter in Q; unfold csv2_is_number; lia) ltac:(unfold csv2_is_number; lia) ltac:(lia) ltac:(lia) ltac:(lia) ltac:(lia) SF SP LS R) as (g & -> & G & A).
  change (negb (1 =? JS_SUCCESS)) with false. cbv iota. destruct (ddip_text J f g x a b c d dl rest HJ G A RX FA (proj2 (proj1 DB)) (proj2 (proj1 DC)) (proj2 (proj1 DD)) D LQ) as (o & h & -> & HO & AH). cbn [bind].
  destruct (ddip_2_ip_ok J2 o (x :: a) b c d HJ2 HO DA DB DC DD) as (out & ip & -> & -> & HI). cbn [bind]. exists ip, h. split; [reflexivity|]. split; [exact (proj1 HI)|exact AH].
Qed.

(** ** Cases *)
Definition K : Z -> Z := fun _ => 165.
Lemma K_ok : junk_ok K. Proof. intros i. unfold K, byte. lia. Qed.
(** A file with the octets [l], where a line feed was read last. *)
Definition file (l : list Z) : csv2 := mkcsv2 l 10 0 true false false 0 0.
Definition str (l : list Z) (cap : Z) : js := mkjs (l ++ repeat 0 (Z.to_nat (cap + 3 - zlen l))) 1 (zlen l) cap 1.
(** The zone example.: the name ü.ab.% followed by a blank. *)
Definition ex_n : list (list Z) := [[252]; [97; 98]].
Definition ex_z : name := [[101; 120]].
Lemma str_held l cap : bytes l -> zlen l <= cap -> cap < 10000 -> held cap (str l cap) l.
Proof.
  intros B L C. pose proof (zlen_nonneg l). assert (zlen (repeat 0 (Z.to_nat (cap + 3 - zlen l))) = cap + 3 - zlen l) as LR by (unfold zlen at 1; rewrite repeat_length; lia). split; [|reflexivity]. split; [|split; [reflexivity|]].
  - constructor; unfold str; cbn [j_mem j_size j_count j_max]; try lia; [rewrite zlen_app; lia|]. apply bytes_app. split; [exact B|]. apply Forall_forall. intros x Hx. apply repeat_spec in Hx. subst x. unfold byte. lia.
  - unfold octets_of, str. cbn [j_mem j_size j_count]. rewrite Z.mul_1_l, zslice_app_l by lia. apply zslice_all.
Qed.
Lemma ex_meant : text_ok (meant ex_n Percent ex_z) /\ name_chars ex_n /\ fits_zone ex_n Percent ex_z /\ spelled ex_n Percent = [195; 188; 46; 97; 98; 46; 37].
Proof.
  split; [|split; [|split]].
  - split; [|split].
    + repeat (apply Forall_cons; [split; [split; vm_compute; discriminate|apply bytesb_spec; reflexivity]|]). constructor.
    + repeat (apply Forall_cons; [repeat (apply Forall_cons; [discriminate|]); constructor|]). constructor.
    + vm_compute. discriminate.
  - apply Forall_cons; [|apply Forall_cons; [|constructor]]; (split; [discriminate|]); repeat (apply Forall_cons; [unfold name_char, wide, kept; lia|]); constructor.
  - split; [discriminate|]. split; [|vm_compute; discriminate]. repeat (apply Forall_cons; [repeat (apply Forall_cons; [discriminate|]); constructor|]). constructor.
  - reflexivity.
Qed.
Example C47_name_ex : exists s g, name_at K (file [195; 188; 46; 97; 98; 46; 37; 32; 49]) (str (text ex_z) 256) 1 = Ok (Some s, g) /\ holding s [2; 195; 188; 2; 97; 98; 2; 101; 120; 0] /\ reading g [49].
Proof.
  destruct ex_meant as (TK & NC & FZ & SP). destruct (C47_name K (file [195; 188; 46; 97; 98; 46; 37; 32; 49]) (str (text ex_z) 256) 256 ex_z 1 ex_n Percent 32 [49] K_ok) as (s & g & E & H & A); try assumption.
  - apply str_held; [apply bytesb_spec; reflexivity|vm_compute; discriminate|lia].
  - left. reflexivity.
  - unfold delimiter. lia.
  - discriminate.
  - split; reflexivity.
  - exists s, g. split; [exact E|]. split; [exact H|exact (proj1 A)].
Qed.
(** *.ü.ab. *)
Example C47_star_ex : exists s g, name_at K (file [42; 46; 195; 188; 46; 97; 98; 46; 10]) (str (text ex_z) 256) 1 = Ok (Some s, g) /\ holding s [95; 2; 195; 188; 2; 97; 98; 0] /\ reading g [].
Proof.
  destruct ex_meant as (_ & NC & _). destruct (C47_star K (file [42; 46; 195; 188; 46; 97; 98; 46; 10]) (str (text ex_z) 256) 256 ex_z 1 ex_n Absolute 10 [] K_ok) as (s & g & E & H & A); try assumption.
  - apply str_held; [apply bytesb_spec; reflexivity|vm_compute; discriminate|lia].
  - left. reflexivity.
  - unfold delimiter. lia.
  - split; [|split].
    + repeat (apply Forall_cons; [split; [split; vm_compute; discriminate|apply bytesb_spec; reflexivity]|]). constructor.
    + repeat (apply Forall_cons; [repeat (apply Forall_cons; [discriminate|]); constructor|]). constructor.
    + vm_compute. discriminate.
  - discriminate.
  - split; reflexivity.
  - exists s, g. split; [exact E|]. split; [exact H|exact (proj1 A)].
Qed.
(** 10.0.07.255 after a blank and a bar *)
Example C47_address_ex : exists ip g, csv2_get_a K K (file ([32; 124; 32] ++ quad_text [49; 48] [48] [48; 55] [50; 53; 53] ++ [10])) = Ok (Some ip, g) /\ holding ip [10; 0; 7; 255].
Proof.
  destruct (C47_address K K (file ([32; 124; 32] ++ quad_text [49; 48] [48] [48; 55] [50; 53; 53] ++ [10])) [32; 124; 32] [49; 48] [48] [48; 55] [50; 53; 53] 10 [] K_ok K_ok) as (ip & g & E & H & _).
  - split; [|vm_compute; lia]. repeat (apply Forall_cons; [unfold delimiter, file; cbn [f_just]; lia|]). constructor.
  - vm_compute. reflexivity.
  - split; [split; [discriminate|repeat (apply Forall_cons; [lia|]); constructor]|vm_compute; discriminate].
  - split; [split; [discriminate|repeat (apply Forall_cons; [lia|]); constructor]|vm_compute; discriminate].
  - split; [split; [discriminate|repeat (apply Forall_cons; [lia|]); constructor]|vm_compute; discriminate].
  - split; [split; [discriminate|repeat (apply Forall_cons; [lia|]); constructor]|vm_compute; discriminate].
  - unfold delimiter. lia.
  - vm_compute. discriminate.
  - split; reflexivity.
  - exists ip, g. split; [exact E|exact H].
Qed.
(** Thai KO KAI: the octets 248 and 129 are in the name. *)
Example C47_character_refuted_ex : exists s g, name_at K (file (utf8 3585 ++ [46; 10])) (str (text ex_z) 256) 1 = Ok (Some s, g) /\ octets_of s = [2; 248; 129; 0] /\ utf8 3585 = [224; 184; 129].
Proof. eexists _, _. split; [vm_compute; reflexivity|]. split; vm_compute; reflexivity. Qed.

(** ** What goes wrong *)
(** com.% is no name in the root zone. *)
Theorem C47_root_zone_refuted : exists g, name_at K (file [99; 111; 109; 46; 37; 10]) (str (text []) 256) 1 = Ok (None, g) /\ text_ok (meant [[99; 111; 109]] Percent []).
Proof.
  eexists. split; [vm_compute; reflexivity|]. split; [|split].
  - repeat (apply Forall_cons; [split; [split; vm_compute; discriminate|apply bytesb_spec; reflexivity]|]). constructor.
  - repeat (apply Forall_cons; [repeat (apply Forall_cons; [discriminate|]); constructor|]). constructor.
  - vm_compute. discriminate.
Qed.
(** An address without its last number is taken: 1.2.3. is 1.2.3.0. *)
Theorem C47_last_number_missing_refuted : exists ip g, csv2_get_a K K (file [49; 46; 50; 46; 51; 46; 10]) = Ok (Some ip, g) /\ octets_of ip = [1; 2; 3; 0].
Proof. eexists _, _. split; vm_compute; reflexivity. Qed.
(** Numbers with many digits overflow. *)
Theorem C47_number_overflow_refuted : csv2_get_a K K (file (repeat 57 12 ++ [46; 49; 46; 49; 46; 49; 10])) = Bad SignedOverflow.
Proof. vm_compute. reflexivity. Qed.

Print Assumptions C47_character_read.
Print Assumptions C47_character_written.
Print Assumptions C47_character_written_refuted.
Print Assumptions C47_name.
Print Assumptions C47_star.
Print Assumptions C47_accepted.
Print Assumptions C47_address.
Print Assumptions C47_root_zone_refuted.
Print Assumptions C47_last_number_missing_refuted.
Print Assumptions C47_number_overflow_refuted.
