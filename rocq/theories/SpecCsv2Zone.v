(** What the lines of a zone file mean (man csv2). *)
From Coq Require Import String.
From Verif Require Import CBase ModelDwStr SpecDwStr ModelJsStr SpecJsStr ModelCsv2 ModelCsv2Aaaa ModelCsv2Soa SpecNames SpecMessage SpecQuery SpecQueries SpecCsv2 SpecCsv2Rr SpecCsv2Txt SpecCsv2Aaaa SpecCsv2Soa ModelQueries ModelCsv2Zone.
Local Open Scope string_scope.
Local Open Scope list_scope.
Local Open Scope Z_scope.

(** ** What is between the lines: blanks, ends of lines, at most one bar; tildes; comments *)
Inductive filler := Blank (c : Z) | Tilde | Comment (l : list Z) (c : Z).
Definition filler_text (x : filler) : list Z := match x with Blank c => [c] | Tilde => [126] | Comment l c => 35 :: l ++ [c] end.
Definition filler_ok (x : filler) : Prop :=
  match x with
  | Blank c => delimiter c
  | Tilde => True
  | Comment l c => (c = 10 \/ c = 13) /\ Forall (fun b => 0 <= b < 256 /\ b <> 10 /\ b <> 13 /\ b <> 123) l /\ zlen l <= 4998
  end.
Definition gap_text (g : list filler) : list Z := concat (map filler_text g).
(** Bars and tildes; [b] is the octet before. *)
Fixpoint bars (b : Z) (g : list filler) : Z := (if b =? 124 then 1 else 0) + match g with [] => 0 | Blank c :: g => bars c g | _ :: g => bars 0 g end.
Definition tildes_in (b : Z) (g : list filler) : Z := (if b =? 126 then 1 else 0) + zlen (filter (fun x => match x with Tilde => true | _ => false end) g).
(** What follows is at the beginning of a line ([-328]: at the beginning of the file). *)
Fixpoint line_start (b : Z) (g : list filler) : Prop :=
  match g with [] => b = 13 \/ b = 10 \/ b = -328 | Blank c :: g => line_start c g | Tilde :: g => line_start 126 g | Comment _ _ :: g => line_start 10 g end.
Definition gap_ok (b : Z) (g : list filler) : Prop := (b = -328 \/ b = 126 \/ delimiter b) /\ Forall filler_ok g /\ bars b g <= 1 /\ zlen g < 10000.
(** Tildes (csv2_tilde_handling): 0 to 3 before the first line, where none may be; after it 0 or 101: none;
    103: one before each line; 102: the first place decides. *)
Definition tilde_rule (h n : Z) : option Z :=
  if n =? 0 then if h =? 0 then Some 0 else if (1 <=? h) && (h <=? 3) then Some (h + 100) else if (h =? 101) || (h =? 102) then Some 101 else None
  else if (n =? 1) && ((h =? 102) || (h =? 103)) then Some 103 else None.

(** ** Commands *)
(** The origin, which a percent sign stands for; those that were put aside; how many were put aside so
    far; the time to live of records that have none of their own. *)
Record scope := mkscope { s_origin : name; s_aside : list name; s_pushes : Z; s_ttl : Z }.
(** A name that may be the origin, or the data of a record. *)
Definition host (z : name) (n : list (list Z)) (e : ending_) : Prop :=
  name_chars n /\ no_command n /\ text_ok (meant n e z) /\ fits_zone n e z /\ (n <> [] \/ e = Percent).
Definition apart (d : Z) (sep : list Z) : Prop := separators (d :: sep) /\ zlen sep < 10000.
(** [command_line s t s' d]: the command [t], which ends with [d], changes [s] to [s'].  At most eight
    origins may be put aside in a file. *)
Inductive command_line (s : scope) : list Z -> scope -> Z -> Prop :=
| Ttl d1 sep l v d : apart d1 sep -> number_field l v -> delimiter d ->
    command_line s (octets "/ttl" ++ d1 :: sep ++ l ++ [d]) (mkscope (s_origin s) (s_aside s) (s_pushes s) v) d
| Origin d1 sep n e d : apart d1 sep -> host (s_origin s) n e -> delimiter d ->
    command_line s (octets "/origin" ++ d1 :: sep ++ spelled n e ++ [d]) (mkscope (meant n e (s_origin s)) (s_aside s) (s_pushes s) (s_ttl s)) d
| Push d1 sep n e d : apart d1 sep -> host (s_origin s) n e -> delimiter d -> s_pushes s < 8 ->
    command_line s (octets "/opush" ++ d1 :: sep ++ spelled n e ++ [d]) (mkscope (meant n e (s_origin s)) (s_origin s :: s_aside s) (s_pushes s + 1) (s_ttl s)) d
| Pop o a d : s_aside s = o :: a -> delimiter d ->
    command_line s (octets "/opop" ++ [d]) (mkscope o a (s_pushes s) (s_ttl s)) d.

(** ** Records *)
Section Serial.
(** What /serial stands for. *)
Variable sn : Z.
(** The name: as it is written and as it is stored (a star: C47). *)
Inductive owner (z : name) : list Z -> list Z -> Prop :=
| Plain n e : name_chars n -> no_command n -> text_ok (meant n e z) -> fits_zone n e z -> owner z (spelled n e) (wire (meant n e z))
| Star n e : name_chars n -> text_ok ([42] :: meant n e z) -> (e = Percent -> z <> [] /\ zlen (text ([42] :: meant n e z)) <= 254) ->
    owner z (42 :: 46 :: dotted n ++ (if e then [] else [37])) (95 :: wire (meant n e z)).
(** [field h z t l x d]: after the number [t] of the type and a delimiter, [l] is written; the data is [x], and
    the line ends with [d]. *)
Inductive field (h : Z) (z : name) (d1 : Z) : Z -> list Z -> list Z -> Z -> Prop :=
| FAddress sep a b c d dl : apart d1 sep -> octet_digits a -> octet_digits b -> octet_digits c -> octet_digits d -> delimiter dl -> zlen (quad_text a b c d) <= 256 ->
    field h z d1 1 (sep ++ quad_text a b c d ++ [dl]) [decimal_of a; decimal_of b; decimal_of c; decimal_of d] dl
| FAddress6 sep t v dl : apart d1 sep -> ip6_text t v -> delimiter dl -> field h z d1 28 (sep ++ t ++ [dl]) v dl
| FSoa sep n e d0 sep0 m d2 sep2 p1 v1 d3 sep3 p2 v2 d4 sep4 p3 v3 d5 sep5 p4 v4 d6 sep6 p5 v5 d : apart d1 sep -> host z n e -> apart d0 sep0 -> mailbox_ok m z -> apart d2 sep2 -> serial_field sn p1 v1 -> apart d3 sep3 -> number_field p2 v2 ->
    apart d4 sep4 -> number_field p3 v3 -> apart d5 sep5 -> number_field p4 v4 -> apart d6 sep6 -> number_field p5 v5 -> delimiter d -> zlen (wire (meant n e z)) + zlen (wire (mailbox_name m z)) + 20 < 512 ->
    field h z d1 6 (sep ++ spelled n e ++ d0 :: sep0 ++ mailbox_text m ++ d2 :: sep2 ++ p1 ++ d3 :: sep3 ++ p2 ++ d4 :: sep4 ++ p3 ++ d5 :: sep5 ++ p4 ++ d6 :: sep6 ++ p5 ++ [d])
      (wire (meant n e z) ++ wire (mailbox_name m z) ++ four v1 ++ four v2 ++ four v3 ++ four v4 ++ four v5) d
| FMailbox t sep m d : In t [8; 9] -> apart d1 sep -> mailbox_ok m z -> delimiter d -> field h z d1 t (sep ++ mailbox_text m ++ [d]) (wire (mailbox_name m z)) d
| FMailboxes t sep m d2 sep2 m2 d : In t [14; 17] -> apart d1 sep -> mailbox_ok m z -> apart d2 sep2 -> mailbox_ok m2 z -> delimiter d -> zlen (wire (mailbox_name m z)) + zlen (wire (mailbox_name m2 z)) < 512 ->
    field h z d1 t (sep ++ mailbox_text m ++ d2 :: sep2 ++ mailbox_text m2 ++ [d]) (wire (mailbox_name m z) ++ wire (mailbox_name m2 z)) d
| FHost t sep n e d : In t [2; 5; 7; 12; 23] -> apart d1 sep -> host z n e -> delimiter d -> field h z d1 t (sep ++ spelled n e ++ [d]) (wire (meant n e z)) d
| FMx t sep p v d2 sep2 n e d : In t [15; 18; 21] -> apart d1 sep -> number_field p v -> v <= 65535 -> apart d2 sep2 -> host z n e -> zlen (wire (meant n e z)) <= 253 -> delimiter d ->
    field h z d1 t (sep ++ p ++ d2 :: sep2 ++ spelled n e ++ [d]) (two v ++ wire (meant n e z)) d
| FSrv sep p v d2 sep2 q w d3 sep3 r u d4 sep4 n e d : apart d1 sep -> number_field p v -> v <= 65535 -> apart d2 sep2 -> number_field q w -> w <= 65535 ->
    apart d3 sep3 -> number_field r u -> u <= 65535 -> apart d4 sep4 -> host z n e -> zlen (wire (meant n e z)) <= 249 -> delimiter d ->
    field h z d1 33 (sep ++ p ++ d2 :: sep2 ++ q ++ d3 :: sep3 ++ r ++ d4 :: sep4 ++ spelled n e ++ [d]) (two v ++ two w ++ two u ++ wire (meant n e z)) d
| FTxt t sep c m e : In t [16; 19; 20; 99] /\ h <> 102 \/ t = 13 /\ zlen (chunks_of c m) = 2 \/ t = 27 /\ zlen (chunks_of c m) = 3 ->
    apart d1 sep -> record_ok (h =? 103) c m -> ends_record (h =? 103) e -> Forall (fun l => zlen l <= 255) (chunks_of c m) ->
    zlen (strings (chunks_of c m)) <= 1512 -> zlen (record_text c m ++ e) <= 10000 -> field h z d1 t (sep ++ record_text c m ++ e) (strings (chunks_of c m)) (last e 0).
(** The type and the data: by name, or RAW with a number.  Types above 100 with another purpose, and 38, 39 and
    41, cannot be used.  An address may stand alone. *)
Definition forbidden : list Z := [38; 39; 41; 251; 252; 253; 254; 255].
Inductive typed (h : Z) (z : name) : list Z -> Z -> list Z -> Z -> Prop :=
| Named classes w s t d1 l x d : Forall class_ok classes -> In (s, t) types -> same_word w s -> delimiter d1 -> field h z d1 t l x d ->
    typed h z (concat (map class_text classes) ++ w ++ d1 :: l) t x d
| Mail classes w s t v d1 sep n e d : (s, t, v) = ("MD", 3, 0) \/ (s, t, v) = ("MF", 4, 10) -> Forall class_ok classes -> same_word w s -> apart d1 sep -> host z n e -> zlen (wire (meant n e z)) <= 253 -> delimiter d ->
    typed h z (concat (map class_text classes) ++ w ++ d1 :: sep ++ spelled n e ++ [d]) 15 (two v ++ wire (meant n e z)) d
| Raw classes w d1 sep1 l t d2 sep2 c d : Forall class_ok classes -> same_word w "RAW" -> apart d1 sep1 -> number_field l t -> t <= 65535 -> ~ In t forbidden -> apart d2 sep2 -> c <> [] -> chunk_ok (h =? 103) c ->
    delimiter d \/ (h = 103 /\ d = 126) -> zlen (chunk_octets c) <= 1512 -> zlen (chunk_text c) < 10000 ->
    typed h z (concat (map class_text classes) ++ w ++ d1 :: sep1 ++ l ++ d2 :: sep2 ++ chunk_text c ++ [d]) t (chunk_octets c) d
| Alone a b c d dl : octet_digits a -> octet_digits b -> octet_digits c -> octet_digits d -> delimiter dl -> zlen (quad_text a b c d) <= 256 ->
    typed h z (quad_text a b c d ++ [dl]) 1 [decimal_of a; decimal_of b; decimal_of c; decimal_of d] dl.
Record record := mkrecord { r_name : list Z; r_type : Z; r_ttl : Z; r_data : list Z }.
(** [record_line h s l r d]: the line [l], which ends with [d], means the record [r]. *)
Inductive record_line (h : Z) (s : scope) : list Z -> record -> Z -> Prop :=
| Short o x d0 sep0 l t y d : owner (s_origin s) o x -> apart d0 sep0 -> typed h (s_origin s) l t y d ->
    record_line h s (o ++ d0 :: sep0 ++ l) (mkrecord x t (s_ttl s) y) d
| Long o x d0 sep0 p v d1 sep1 l t y d : owner (s_origin s) o x -> apart d0 sep0 -> number_field p v -> apart d1 sep1 -> typed h (s_origin s) l t y d ->
    record_line h s (o ++ d0 :: sep0 ++ 43 :: p ++ d1 :: sep1 ++ l) (mkrecord x t v y) d.

(** ** Files *)
(** [zone_file b h s l rs]: after the octet [b], [l] means the records [rs]. *)
Inductive zone_file (b h : Z) (s : scope) : list Z -> list record -> Prop :=
| End g h' : gap_ok b g -> tilde_rule h (tildes_in b g) = Some h' -> zone_file b h s (gap_text g) []
| Line g h' c s' d l rs : gap_ok b g -> line_start b g -> tilde_rule h (tildes_in b g) = Some h' -> command_line s c s' d -> zone_file d h' s' l rs ->
    zone_file b h s (gap_text g ++ c ++ l) rs
| Rr g h' c r d l rs : gap_ok b g -> line_start b g -> tilde_rule h (tildes_in b g) = Some h' -> record_line h' s c r d -> zone_file d h' s l rs ->
    zone_file b h s (gap_text g ++ c ++ l) (r :: rs).
End Serial.
Arguments FAddress {sn}.
Arguments FAddress6 {sn}.
Arguments FSoa {sn}.
Arguments FMailbox {sn}.
Arguments FMailboxes {sn}.
Arguments FHost {sn}.
Arguments FMx {sn}.
Arguments FSrv {sn}.
Arguments FTxt {sn}.
Arguments Named {sn}.
Arguments Mail {sn}.
Arguments Raw {sn}.
Arguments Alone {sn}.
Arguments Short {sn}.
Arguments Long {sn}.
Arguments End {sn}.
Arguments Line {sn}.
Arguments Rr {sn}.
(** At the beginning of the file of the zone [z] records live for a day. *)
Definition at_first (z : name) : scope := mkscope z [] 0 86400.

(** Of the types which the model of the file leaves out, AAAA is read as in Csv2_rr_aaaa.c (C51), and SOA as in
    Csv2_rr_soa.c (C52), where [sn] is the number that /serial stands for; MG and MR have one mailbox, and
    MINFO and RP two, as in Csv2_rr_wks.c (C52). *)
Definition reads_aaaa (O : Z -> zst -> csv2 -> res (option js * csv2)) : Prop := forall st f, exists J J2, junk_ok J /\ junk_ok J2 /\ O 28 st f = csv2_get_aaaa J J2 f.
Definition reads_soa (sn : Z) (O : Z -> zst -> csv2 -> res (option js * csv2)) : Prop :=
  0 <= sn < 4294967296 /\ forall st f, exists J, junk_ok J /\ O 6 st f = csv2_get_soa J f (z_origin st) sn.
Definition reads_mbox (O : Z -> zst -> csv2 -> res (option js * csv2)) : Prop :=
  forall st f, exists J, junk_ok J /\ (forall t, In t [8; 9] -> O t st f = csv2_get_mbox J f (z_origin st) 1) /\ forall t, In t [14; 17] -> O t st f = csv2_get_mbox J f (z_origin st) 2.
(** The server was given the record. *)
Definition is_added (r : record) (a : added) : Prop := holding (a_name a) (r_name r) /\ a_type a = r_type r /\ a_ttl a = r_ttl r /\ exists d, a_data a = Some d /\ holding d (r_data r).
