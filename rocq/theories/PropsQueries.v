(** C20, C21, C23, C38: headers, names in text form, questions and records, shortening answers (dns/Queries.c). *)
From Verif Require Import CBase Bits ModelDwStr SpecDwStr ProofDwStr SpecNames SpecMessage SpecAcl SpecDeadwoodMsg SpecQuery ModelJsStr SpecJsStr ProofJsStr ProofJsSearch
  ModelQueries SpecQueries ProofQueries ProofHname ProofEmail ProofQuestion ProofSqueeze.

(** A string of capacity [cap] for the examples. *)
Definition str (l : list Z) (cap : Z) : js := mkjs (l ++ repeat 0 (Z.to_nat (cap + 3 - zlen l))) 1 (zlen l) cap 1.
Lemma str_ok l cap : bytes l -> zlen l <= cap -> cap + 3 < 2147483648 -> holding (str l cap) l.
Proof.
  intros B L C. pose proof (zlen_nonneg l). assert (zlen (repeat 0 (Z.to_nat (cap + 3 - zlen l))) = cap + 3 - zlen l) as LR by (unfold zlen at 1; rewrite repeat_length; lia).
  split; [|split; [reflexivity|]].
  - constructor; unfold str; cbn [j_mem j_size j_count j_max j_enc]; rewrite ?zlen_app, ?LR; try lia. apply bytes_app. split; [exact B|]. apply Forall_forall. intros x Hx. apply repeat_spec in Hx as ->. unfold byte. lia.
  - unfold octets_of, str. cbn [j_mem j_size j_count]. rewrite Z.mul_1_l, zslice_app_l by lia. apply zslice_all.
Qed.
Ltac str_tac := apply str_ok; [apply bytesb_spec; vm_compute; reflexivity|vm_compute; discriminate|vm_compute; reflexivity].

Ltac wf_tac := constructor; [vm_compute; discriminate|vm_compute; split; discriminate|vm_compute; reflexivity|vm_compute; reflexivity|apply bytesb_spec; vm_compute; reflexivity].

(** ** C20: headers *)
Lemma bits8_inj a b : byte a -> byte b -> bits8 a = bits8 b -> a = b.
Proof.
  intros A B E. apply (nbits_inj 8); [exact A|exact B|]. exact E.
Qed.
Lemma bits_inj a : forall b, bytes a -> bytes b -> bits a = bits b -> a = b.
Proof.
  induction a as [|x a IH]; intros [|y b] A B E; try discriminate; [reflexivity|]. apply Forall_cons_iff in A as (A1 & A). apply Forall_cons_iff in B as (B1 & B).
  unfold bits in E. cbn [flat_map] in E. apply app_split in E as (E1 & E2); [|reflexivity]. f_equal; [apply bits8_inj; assumption|apply IH; assumption].
Qed.
(** A header is written as its fields, most significant bits first, and nothing else. *)
Theorem C20_header_is_written : forall h s, header_fits h -> j_wf s -> j_size s = 1 -> 14 <= j_max s ->
  exists s' l, make_hdr h s = Ok (1, s') /\ holding s' l /\ zlen l = 12 /\ bits l = header_bits h.
Proof.
  intros h s F W S1 M. destruct (make_hdr_ok h s W S1 M) as (s' & E & H & _). exists s', (hdr_octets h). split; [exact E|]. split; [exact H|]. split; [reflexivity|]. apply hdr_octets_bits, F.
Qed.
(** Any twelve octets are read as the header whose bits they are. *)
Theorem C20_header_is_read : forall s l, holding s l -> 14 <= j_max s -> 12 <= zlen l ->
  exists h, read_hdr s = Ok (Some h) /\ header_fits h /\ header_bits h = bits (zslice l 0 12).
Proof.
  intros s l H M L. destruct (holding_slice s l H) as (E1 & C1 & M1 & N1 & B1 & Z1). destruct H as (W & S1 & _).
  assert (zslice (j_mem s) 0 12 = zslice l 0 12) as EX by (rewrite <- E1; rewrite zslice_zslice by lia; reflexivity).
  exists (decode (zslice l 0 12)). rewrite <- EX. split; [apply read_hdr_ok; assumption|]. apply decode_ok; [apply bytes_zslice, B1|apply zlen_zslice; lia].
Qed.
(** What was written is read; what was read is written again as it was. *)
Theorem C20_round_trip : forall h s, header_fits h -> j_wf s -> j_size s = 1 -> 14 <= j_max s ->
  exists s', make_hdr h s = Ok (1, s') /\ read_hdr s' = Ok (Some h).
Proof.
  intros h s F W S1 M. destruct (make_hdr_ok h s W S1 M) as (s' & E & H & MX & _). exists s'. split; [exact E|].
  destruct (C20_header_is_read s' (hdr_octets h) H) as (h' & R & F' & B'); [lia|reflexivity || (rewrite zlen_hdr; lia)|].
  rewrite R. do 2 f_equal. apply header_bits_inj; [exact F'|exact F|]. rewrite B'. change (zslice (hdr_octets h) 0 12) with (hdr_octets h). apply hdr_octets_bits, F.
Qed.
Theorem C20_read_then_write : forall s l t, holding s l -> 14 <= j_max s -> 12 <= zlen l -> j_wf t -> j_size t = 1 -> 14 <= j_max t ->
  exists h t', read_hdr s = Ok (Some h) /\ make_hdr h t = Ok (1, t') /\ holding t' (zslice l 0 12).
Proof.
  intros s l t H M L WT ST MT. destruct (C20_header_is_read s l H M L) as (h & R & F & B). destruct (make_hdr_ok h t WT ST MT) as (t' & E & HT & _).
  exists h, t'. split; [exact R|]. split; [exact E|].
  replace (zslice l 0 12) with (hdr_octets h); [exact HT|]. apply bits_inj; [apply bytes_hdr|apply bytes_zslice, (holding_bytes s l H)|]. rewrite hdr_octets_bits by exact F. exact B.
Qed.
Definition hdr1 : q_header := mkqh 4660 1 5 1 0 1 1 5 9 1 2 3 40000.
Example C20_witness : header_fits hdr1 /\ holding (str [] 14) [] /\
  (' (_, s) <- make_hdr hdr1 (str [] 14) ;; Ok (octets_of s)) = Ok [18; 52; 173; 217; 0; 1; 0; 2; 0; 3; 156; 64] /\
  holding (str [18; 52; 173; 217; 0; 1; 0; 2; 0; 3; 156; 64; 7] 14) [18; 52; 173; 217; 0; 1; 0; 2; 0; 3; 156; 64; 7] /\ read_hdr (str [18; 52; 173; 217; 0; 1; 0; 2; 0; 3; 156; 64; 7] 14) = Ok (Some hdr1).
Proof.
  split; [|split; [|split; [|split]]].
  - unfold header_fits, header_fields, hdr1, below. cbn. repeat (apply Forall_cons; [cbn; lia|]). constructor.
  - str_tac.
  - vm_compute. reflexivity.
  - str_tac.
  - vm_compute. reflexivity.
Qed.
(** The length of the string is not looked at: a string of no octets has a header, too, made of what
    was in its buffer before. *)
Theorem C20_short_string_refuted : exists s h, holding s [] /\ read_hdr s = Ok (Some h) /\ q_an h = 513.
Proof.
  exists (mkjs [1; 1; 1; 1; 2; 1; 2; 1; 2; 1; 2; 1; 2; 1; 2; 1; 0] 1 0 14 1), (mkqh 257 0 0 0 0 1 0 0 1 513 513 513 513).
  split; [|split; vm_compute; reflexivity]. split; [|split; reflexivity]. wf_tac.
Qed.
Print Assumptions C20_header_is_written.
Print Assumptions C20_header_is_read.
Print Assumptions C20_round_trip.
Print Assumptions C20_read_then_write.
Print Assumptions C20_short_string_refuted.

(** ** C21: names in text form *)
(** A letter and a name is turned into the name's wire form; the letter's type is returned. *)
Theorem C21_text_to_wire : forall star s c ty n, holding s (c :: text n) -> In (c, ty) letters -> text_ok n ->
  exists s', hname_2rfc1035 star s = Ok (ty, s') /\ holding s' (wire n) /\ j_max s' = j_max s.
Proof.
  intros star s c ty n H T (G & D & L). apply type_letters in T. destruct n as [|l n]; [exact (hname_root star s c ty H T)|].
  apply (hname_good star s c ty (l :: n) H T ltac:(discriminate) G D). exact L.
Qed.
(** Everything else is rejected: any accepted string is a letter and a name. *)
Theorem C21_malformed_is_rejected : forall s t, holding s t ->
  exists r s', hname_2rfc1035 0 s = Ok (r, s') /\ j_wf s' /\
    (r = -1 \/ r = -2 \/ exists c n, In (c, r) letters /\ t = c :: text n /\ text_ok n /\ holding s' (wire n)).
Proof.
  intros s t H. destruct (hname_exact s t H) as (r & s' & E & W & S1 & M & X). exists r, s'. split; [exact E|]. split; [exact W|].
  destruct (Z.eq_dec r (-1)) as [|N1]; [left; assumption|]. destruct (Z.eq_dec r (-2)) as [|N2]; [right; left; assumption|]. right. right. destruct (X N1 N2) as (c & n & -> & T & OK).
  exists c, n. apply type_letters in T. split; [exact T|]. split; [reflexivity|]. split; [exact OK|]. destruct (C21_text_to_wire 0 s c r n H T OK) as (s2 & E2 & H2 & _).
  rewrite E in E2. injection E2 as <-. exact H2.
Qed.
(** A name in wire form is turned into text. *)
Theorem C21_wire_to_text : forall s n c ty, holding s (wire n) -> In (c, ty) letters -> good_name n -> zlen (wire n) <= 256 -> 2 <= j_max s ->
  exists s', hname_translate s ty = Ok (1, s') /\ holding s' (c :: text n).
Proof.
  intros s n c ty H T G L M. destruct (hname_translate_ok s n ty H G L (fun _ => M)) as (s' & E & HH). exists s'. split; [exact E|].
  assert (letter_of ty = c /\ (ty =? -301) = false) as (EL & E3) by (unfold letters in T; cbn [In] in T; repeat (destruct T as [T|T]; [injection T as <- <-; split; reflexivity|]); destruct T).
  rewrite EL, E3 in HH. destruct n as [|l n]; [exact HH|]. rewrite spoken_dots in HH. exact HH.
Qed.
Theorem C21_round_trip : forall star s c ty n, holding s (c :: text n) -> In (c, ty) letters -> text_ok n ->
  exists s1 s2, hname_2rfc1035 star s = Ok (ty, s1) /\ hname_translate s1 ty = Ok (1, s2) /\ holding s2 (c :: text n).
Proof.
  intros star s c ty n H T OK. destruct (C21_text_to_wire star s c ty n H T OK) as (s1 & E1 & H1 & M1). destruct OK as (G & D & L).
  assert (2 <= zlen (c :: text n)) as L2.
  { rewrite zlen_cons. destruct n as [|l n]; [cbv; discriminate|]. rewrite text_dots by discriminate. rewrite dots_cons, zlen_app, zlen_cons. pose proof (zlen_nonneg l). pose proof (zlen_nonneg (dots n)). lia. }
  destruct (holding_slice s _ H) as (_ & C & _ & N & _).
  destruct (C21_wire_to_text s1 n c ty H1 T G) as (s2 & E2 & H2).
  - destruct n as [|l n]; [cbv; discriminate|]. rewrite text_dots in L by discriminate. rewrite wire_labels, zlen_app, <- zlen_dots_labels. change (zlen [0]) with 1. lia.
  - lia.
  - exists s1, s2. split; [exact E1|]. split; [exact E2|exact H2].
Qed.
Definition www : name := [[119; 119; 119]; [97]].
Example C21_witness : text_ok www /\ In (78, 2) letters /\ holding (str (78 :: text www) 20) (78 :: text www) /\ text www = [119; 119; 119; 46; 97; 46] /\
  holding (str (wire www) 20) (wire www) /\ (' (r, s) <- hname_2rfc1035 0 (str (78 :: text www) 20) ;; Ok (r, octets_of s)) = Ok (2, wire www).
Proof.
  split; [|split; [|split; [|split; [|split]]]].
  - split; [|split].
    + repeat (apply Forall_cons; [split; [cbv; split; discriminate|apply bytesb_spec; reflexivity]|]). constructor.
    + repeat (apply Forall_cons; [repeat (apply Forall_cons; [discriminate|]); constructor|]). constructor.
    + vm_compute. discriminate.
  - right. left. reflexivity.
  - str_tac.
  - reflexivity.
  - str_tac.
  - vm_compute. reflexivity.
Qed.
(** The names that end in a star stand for all names below: the star becomes an underscore. *)
Theorem C21_star : forall s c ty n, holding s (c :: dots n ++ [42]) -> In (c, ty) letters -> good_name n -> dotless n -> zlen (dots n) <= 254 ->
  exists s', hname_2rfc1035 1 s = Ok (ty, s') /\ holding s' (labels n ++ [95]).
Proof.
  intros s c ty n H T G D L. apply type_letters in T. destruct (hname_star s c ty n H T G D L) as (s' & E & HH & _). exists s'. split; assumption.
Qed.
Example C21_star_witness : holding (str (65 :: dots www ++ [42]) 20) (65 :: dots www ++ [42]) /\
  (' (r, s) <- hname_2rfc1035 1 (str (65 :: dots www ++ [42]) 20) ;; Ok (r, octets_of s)) = Ok (1, [3; 119; 119; 119; 1; 97; 95]).
Proof. split; [str_tac|vm_compute; reflexivity]. Qed.
(** A star after other letters is accepted as well, and the result is no name: "Afoo*" becomes the
    octets A, f, o, underscore: a label of 65 octets of which there are two. *)
Theorem C21_malformed_star_refuted : exists s s', holding s [65; 102; 111; 111; 42] /\ hname_2rfc1035 1 s = Ok (1, s') /\ holding s' [65; 102; 111; 95] /\ ~ name_form [65; 102; 111; 95].
Proof.
  exists (str [65; 102; 111; 111; 42] 20). eexists. split; [str_tac|]. split; [vm_compute; reflexivity|]. split.
  - split; [|split; [reflexivity|vm_compute; reflexivity]]. wf_tac.
  - intros (n & e & G & E & EE). destruct n as [|l n].
    + change (labels []) with (@nil Z) in E. cbn [app] in E. subst e. destruct EE as [EE|[EE|(a & b & A & EE)]]; discriminate.
    + rewrite labels_cons in E. cbn [app] in E. injection E as E _. apply Forall_cons_iff in G as ((G & _) & _). lia.
Qed.
(** A name may be one octet longer than the 255 octets of RFC 1035. *)
Theorem C21_long_name_refuted : exists s s' n, holding s (65 :: text n) /\ hname_2rfc1035 0 s = Ok (1, s') /\ holding s' (wire n) /\ zlen (wire n) = 256.
Proof.
  set (n := repeat [97] 124 ++ [repeat 97 6]).
  assert (text_ok n) as OK.
  { split; [|split].
    - apply Forall_forall. intros l I. apply in_app_or in I as [I|[<-|[]]]; [apply repeat_spec in I as ->|]; (split; [cbv; split; discriminate|apply bytesb_spec; reflexivity]).
    - apply Forall_forall. intros l I. apply Forall_forall. intros x X. apply in_app_or in I as [I|[<-|[]]]; [apply repeat_spec in I as ->; destruct X as [<-|[]]; discriminate|apply repeat_spec in X as ->; discriminate].
    - vm_compute. discriminate. }
  assert (holding (str (65 :: text n) 300) (65 :: text n)) as H by str_tac.
  destruct (C21_text_to_wire 0 _ 65 1 n H (or_introl eq_refl) OK) as (s' & E & H' & _). exists (str (65 :: text n) 300), s', n. split; [exact H|]. split; [exact E|]. split; [exact H'|]. vm_compute. reflexivity.
Qed.
(** E-mail addresses: any octet, a label (which may have dots), an at sign, a name. *)
Theorem C21_email_to_wire : forall s c l n, holding s (c :: email_text l n) -> email_ok l n ->
  exists s', email_2rfc1035 s = Ok (1, s') /\ holding s' (wire (l :: n)).
Proof. intros s c l n H OK. destruct (email_good s c l n H OK) as (s' & E & HH & _). exists s'. split; assumption. Qed.
Theorem C21_email_malformed_is_rejected : forall s t, holding s t ->
  exists r s', email_2rfc1035 s = Ok (r, s') /\ j_wf s' /\
    (r = -1 \/ r = -2 \/ (exists c l n, r = 1 /\ t = c :: email_text l n /\ email_ok l n /\ holding s' (wire (l :: n))) \/
     (exists c n, (r = 1 /\ n = [] \/ In (c, r) letters) /\ t = c :: text n /\ text_ok n /\ holding s' (wire n))).
Proof.
  intros s t H. destruct (email_exact s t H) as (r & s' & E & W & S1 & M & X). exists r, s'. split; [exact E|]. split; [exact W|].
  destruct (Z.eq_dec r (-1)) as [|N1]; [left; assumption|]. destruct (Z.eq_dec r (-2)) as [|N2]; [right; left; assumption|]. right. right.
  destruct (X N1 N2) as [(c & -> & ->)|[(c & l & n & -> & -> & OK)|(EH & c & n & -> & T & OK)]].
  - right. exists c, []. split; [left; split; reflexivity|]. split; [reflexivity|]. split; [split; [constructor|split; [constructor|vm_compute; discriminate]]|].
    destruct (email_root s c H) as (s2 & E2 & H2 & _). rewrite E in E2. injection E2 as <-. exact H2.
  - left. exists c, l, n. split; [reflexivity|]. split; [reflexivity|]. split; [exact OK|]. destruct (email_good s c l n H OK) as (s2 & E2 & H2 & _). rewrite E in E2. injection E2 as <-. exact H2.
  - right. apply type_letters in T. exists c, n. split; [right; exact T|]. split; [reflexivity|]. split; [exact OK|]. destruct (C21_text_to_wire 0 s c r n H T OK) as (s2 & E2 & H2 & _).
    rewrite EH in E2. injection E2 as <-. exact H2.
Qed.
Theorem C21_email_round_trip : forall s l n, holding s (124 :: email_text l n) -> email_ok l n ->
  exists s1 s2, email_2rfc1035 s = Ok (1, s1) /\ email_translate s1 = Ok (1, s2) /\ holding s2 (124 :: email_text l n).
Proof.
  intros s l n H OK. destruct (email_good s 124 l n H OK) as (s1 & E1 & H1 & _). destruct OK as (G & NE & NI & D & L).
  destruct (email_translate_ok s1 l n H1 G) as (s2 & E2 & H2).
  - cbn [wire]. rewrite zlen_cons, zlen_app, wire_labels, zlen_app, <- zlen_dots_labels. unfold email_text in L. rewrite !zlen_app in L. change (zlen [64]) with 1 in L. change (zlen [0]) with 1. lia.
  - exists s1, s2. split; [exact E1|]. split; [exact E2|exact H2].
Qed.
Example C21_email_witness : email_ok [106; 46; 100] www /\ holding (str (124 :: email_text [106; 46; 100] www) 20) (124 :: email_text [106; 46; 100] www).
Proof.
  split; [|str_tac]. destruct C21_witness as ((G & D & _) & _). split; [|split; [discriminate|split; [|split; [exact D|vm_compute; discriminate]]]].
  - apply Forall_cons; [split; [cbv; split; discriminate|apply bytesb_spec; reflexivity]|exact G].
  - cbn. intros X. repeat (destruct X as [X|X]; [discriminate|]). exact X.
Qed.
(** No string of octets, well formed or not, makes one of the four leave its buffer. *)
Theorem C21_safe : forall star s q, j_wf s ->
  safe (hname_translate s q) /\ safe (email_translate s) /\ safe (hname_2rfc1035 star s) /\ safe (email_2rfc1035 s).
Proof.
  intros star s q W. assert (j_size s <> 1 -> octet_string s = false) as N1 by (intros N; unfold octet_string; replace (j_size s =? 1) with false by lia; apply andb_false_r).
  split; [|split; [|split]].
  - destruct (translate_safe s q W) as (r & s' & -> & _). intros f. discriminate.
  - destruct (email_translate_safe s W) as (r & s' & -> & _). intros f. discriminate.
  - destruct (hname_safe star s W) as (r & s' & -> & _). intros f. discriminate.
  - destruct (Z.eq_dec (j_size s) 1) as [S1|S1].
    + destruct (email_exact s (octets_of s)) as (r & s' & -> & _); [split; [exact W|split; [exact S1|reflexivity]]|]. intros f. discriminate.
    + unfold email_2rfc1035. rewrite (N1 S1). intros f. discriminate.
Qed.
Example C21_safe_witness : j_wf (str [200; 1; 2] 3). Proof. assert (holding (str [200; 1; 2] 3) [200; 1; 2]) as (W & _) by str_tac. exact W. Qed.
Print Assumptions C21_text_to_wire.
Print Assumptions C21_malformed_is_rejected.
Print Assumptions C21_wire_to_text.
Print Assumptions C21_round_trip.
Print Assumptions C21_star.
Print Assumptions C21_malformed_star_refuted.
Print Assumptions C21_long_name_refuted.
Print Assumptions C21_email_to_wire.
Print Assumptions C21_email_malformed_is_rejected.
Print Assumptions C21_email_round_trip.
Print Assumptions C21_safe.
