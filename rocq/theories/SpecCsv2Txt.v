(** What the text of TXT, HINFO and RAW data in a zone file means (man csv2_txt). *)
From Verif Require Import CBase ModelCsv2 SpecCsv2.

(** ** Parts of a text *)
(** Characters that stand for themselves without quotes: letters, digits and - _ + % ! ^ = *)
Definition bare (c : Z) : Prop := 48 <= c <= 57 \/ 65 <= c <= 90 \/ 97 <= c <= 122 \/ In c [45; 95; 43; 37; 33; 94; 61].
Definition octal_digit (v : Z) : Z := 48 + v.
(** The digit [v] in hexadecimal, in lower or upper case. *)
Definition hexadecimal (up : bool) (v : Z) : Z := if v <? 10 then 48 + v else if up then 55 + v else 87 + v.
Inductive part :=
| Bare (c : Z)            (** a character *)
| Quoted (l : list Z)     (** characters between ' and ' *)
| Tick                    (** \' : a quote *)
| Octal (v : Z)           (** \ and three octal digits *)
| Hexa (v : Z) (u w : bool). (** \x and two hexadecimal digits *)
Definition part_text (p : part) : list Z :=
  match p with
  | Bare c => [c]
  | Quoted l => [39] ++ written l ++ [39]
  | Tick => [92; 39]
  | Octal v => [92; octal_digit (v / 64); octal_digit (v / 8 mod 8); octal_digit (v mod 8)]
  | Hexa v u w => [92; 120; hexadecimal u (v / 16); hexadecimal w (v mod 16)]
  end.
Definition part_octets (p : part) : list Z :=
  match p with Bare c => [c] | Quoted l => written l | Tick => [39] | Octal v | Hexa v _ _ => [v] end.
(** What may be quoted: not the quote; braces and tildes are not for zone files; characters that are
    written as they should be (C47).  If tildes end records: no # and |, no control characters. *)
Definition quotable (tilde : bool) (c : Z) : Prop :=
  0 <= c < 2097152 /\ kept c /\ ~ In c [39; 123; 126] /\ (tilde = true -> 32 <= c /\ ~ In c [35; 124; 127]).
Definition part_ok (tilde : bool) (p : part) : Prop :=
  match p with Bare c => bare c | Quoted l => Forall (quotable tilde) l | Tick => True | Octal v | Hexa v _ _ => 0 <= v < 256 end.
(** A backslash and blanks before a part: the text goes on in another line. *)
Definition blank (c : Z) : Prop := In c [13; 10; 9; 32].
Definition folded := (list (list Z) * part)%type.
Definition folded_text (x : folded) : list Z := concat (map (fun b => 92 :: b) (fst x)) ++ part_text (snd x).
Definition folded_ok (tilde : bool) (x : folded) : Prop := Forall (fun b => b <> [] /\ Forall blank b) (fst x) /\ part_ok tilde (snd x).

(** ** Chunks *)
Definition chunk_text (c : list folded) : list Z := concat (map folded_text c).
Definition chunk_octets (c : list folded) : list Z := concat (map (fun x => part_octets (snd x)) c).
Definition chunk_ok (tilde : bool) (c : list folded) : Prop := Forall (folded_ok tilde) c.
(** Between two chunks: a semicolon or, if tildes end records, blanks before a quote or a backslash. *)
Inductive between := Semicolon | Blanks (b : list Z).
Definition between_text (s : between) : list Z := match s with Semicolon => [59] | Blanks b => b end.
Definition between_ok (tilde : bool) (s : between) (next : list folded) : Prop :=
  match s with
  | Semicolon => True
  | Blanks b => tilde = true /\ b <> [] /\ Forall blank b /\ match chunk_text next with c :: _ => c = 39 \/ c = 92 | [] => False end
  end.
Definition more := list (between * list folded).
Definition record_text (c : list folded) (m : more) : list Z := chunk_text c ++ concat (map (fun x => between_text (fst x) ++ chunk_text (snd x)) m).
(** A record does not begin with blanks, which would be taken to stand before it. *)
Definition begun (c : list folded) (m : more) : Prop := c = [] -> match m with (Semicolon, _) :: _ => True | _ => False end.
Definition record_ok (tilde : bool) (c : list folded) (m : more) : Prop :=
  begun c m /\ chunk_ok tilde c /\ Forall (fun x => chunk_ok tilde (snd x) /\ between_ok tilde (fst x) (snd x)) m.
(** RFC 1035, 3.3.14: each chunk with its length before it. *)
Definition character_string (l : list Z) : list Z := zlen l :: l.
Definition strings (l : list (list Z)) : list Z := concat (map character_string l).
Definition chunks_of (c : list folded) (m : more) : list (list Z) := map chunk_octets (c :: map snd m).
(** A record ends with a delimiter or, if tildes end records, with a tilde, maybe after blanks. *)
Definition ends_record (tilde : bool) (e : list Z) : Prop :=
  if tilde then exists b, e = b ++ [126] /\ Forall blank b else exists d, e = [d] /\ delimiter d.
