(** What the host names and addresses in a zone file mean. *)
From Verif Require Import CBase SpecNames SpecMessage SpecQuery SpecQueries ModelJsStr ModelCsv2.

(** ** Characters: UTF-8 as it was first defined (RFC 2279), up to six octets *)
Definition utf8 (c : Z) : list Z :=
  if c <? 128 then [c]
  else if c <? 2048 then [192 + c / 64; 128 + c mod 64]
  else if c <? 65536 then [224 + c / 4096; 128 + c / 64 mod 64; 128 + c mod 64]
  else if c <? 2097152 then [240 + c / 262144; 128 + c / 4096 mod 64; 128 + c / 64 mod 64; 128 + c mod 64]
  else if c <? 67108864 then [248 + c / 16777216; 128 + c / 262144 mod 64; 128 + c / 4096 mod 64; 128 + c / 64 mod 64; 128 + c mod 64]
  else [252 + c / 1073741824; 128 + c / 16777216 mod 64; 128 + c / 262144 mod 64; 128 + c / 4096 mod 64; 128 + c / 64 mod 64; 128 + c mod 64].
(** Characters outside of ASCII. *)
Definition wide (c : Z) : Prop := 128 <= c < 2147483648.
(** Those which the server writes as they should be. *)
Definition kept (c : Z) : Prop :=
  0 <= c < 2048 \/ 4096 <= c < 65536 \/ 262144 <= c < 2097152 \/ 16777216 <= c < 67108864 \/ 1073741824 <= c < 2147483648.

(** ** Files *)
(** A file that can be read on, with [l] to come. *)
Definition reading (f : csv2) (l : list Z) : Prop := f_ok f = true /\ f_rest f = l.
(** [g] is [f] after its part [l] was read; the last octet is [b]. *)
Definition after_reading (f g : csv2) (rest : list Z) (b : Z) : Prop :=
  reading g rest /\ f_just g = b /\ f_tilde g = f_tilde f /\ f_brace g = f_brace f /\ f_seen g = f_seen f /\ f_hand g = f_hand f.

(** ** Names *)
(** Letters, digits, hyphens, underscores, slashes, and what is not ASCII. *)
Definition name_char (c : Z) : Prop :=
  48 <= c <= 57 \/ 65 <= c <= 90 \/ 97 <= c <= 122 \/ c = 45 \/ c = 95 \/ c = 47 \/ (wide c /\ kept c).
(** A label as it is written, a list of characters; its octets. *)
Definition written (l : list Z) : list Z := flat_map utf8 l.
Definition label_chars (l : list Z) : Prop := l <> [] /\ Forall name_char l.
Definition delimiter (c : Z) : Prop := c = 13 \/ c = 10 \/ c = 9 \/ c = 32 \/ c = 124.
(** A name in a zone file: labels, each with a dot; the name ends there, or with a percent sign that
    stands for the name of the zone.  A dot alone is the root. *)
Inductive ending_ := Absolute | Percent.
Definition dotted (n : list (list Z)) : list Z := concat (map (fun l => written l ++ [46]) n).
Definition spelled (n : list (list Z)) (e : ending_) : list Z :=
  match e with
  | Absolute => match n with [] => [46] | _ => dotted n end
  | Percent => dotted n ++ [37]
  end.
Definition meant (n : list (list Z)) (e : ending_) (zone : name) : name :=
  map written n ++ match e with Absolute => [] | Percent => zone end.
(** The name does not begin with a slash, which is for commands. *)
Definition no_command (n : list (list Z)) : Prop := match n with (c :: _) :: _ => c <> 47 | _ => True end.
Definition name_chars (n : list (list Z)) : Prop := Forall label_chars n.
(** The zone: no star in it; if the name refers to it, it is not the root, and there is room for it. *)
Definition starless (n : name) : Prop := Forall (Forall (fun b => b <> 42)) n.
Definition fits_zone (n : list (list Z)) (e : ending_) (zone : name) : Prop :=
  match e with Absolute => True | Percent => zone <> [] /\ starless zone /\ zlen (text (meant n e zone)) <= 254 end.

(** What is read as a name at the place where the file is: the first character is read before. *)
Definition name_at (J : Z -> Z) (f : csv2) (zone : js) (sw : Z) : res (option js * csv2) :=
  csv2_get_hostname J (snd (csv2_read_unicode f)) zone sw.

(** ** Addresses: four numbers in decimal, with dots between them *)
Definition digits (d : list Z) : Prop := d <> [] /\ Forall (fun c => 48 <= c <= 57) d.
Definition decimal_of (d : list Z) : Z := fold_left (fun v c => v * 10 + (c - 48)) d 0.
Definition quad_text (a b c d : list Z) : list Z := a ++ [46] ++ b ++ [46] ++ c ++ [46] ++ d.
Definition octet_digits (d : list Z) : Prop := digits d /\ decimal_of d <= 255.
(** What may stand between two fields: blanks and ends of lines, and at most one bar. *)
Definition separators (l : list Z) : Prop := Forall delimiter l /\ (count_occ Z.eq_dec l 124%Z <= 1)%nat.
