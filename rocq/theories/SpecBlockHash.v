(** Specification of block-list source files. *)
From Verif Require Import CBase SpecNames.

(** One line of the source file: a host name with one of the line endings, or a
    comment. *)
Inductive bl_eol := Eol_nl | Eol_dot_nl | Eol_cr_nl | Eol_dot_cr_nl.
Definition eol_bytes (e : bl_eol) : list Z :=
  match e with
  | Eol_nl => [10] | Eol_dot_nl => [46; 10]
  | Eol_cr_nl => [13; 10] | Eol_dot_cr_nl => [46; 13; 10]
  end.

Inductive bl_line :=
| BLName (labels : list (list Z)) (e : bl_eol)
| BLComment (text : list Z).

Definition bl_line_text (l : bl_line) : list Z :=
  match l with
  | BLName labels e => dotted labels ++ eol_bytes e
  | BLComment t => 35 :: t ++ [10]
  end.

(** The source file. *)
Definition bl_text (f : list bl_line) : list Z := concat (map bl_line_text f).

(** Characters that can occur in a host name of the list: anything but
    NUL, newline, CR, space and dot. *)
Definition bl_char (c : Z) : Prop :=
  0 < c < 256 /\ c <> 10 /\ c <> 13 /\ c <> 32 /\ c <> 46.

Definition bl_line_ok (l : bl_line) : Prop :=
  zlen (bl_line_text l) <= 1009 /\
  match l with
  | BLName labels _ =>
      labels <> [] /\
      Forall (fun lab => 1 <= zlen lab <= 63 /\ Forall bl_char lab) labels /\
      hd 0 (dotted labels) <> 35
  | BLComment t => ~ In 10 t
  end.

(** The host names of the file, in lower-case wire form: what must be blocked. *)
Fixpoint bl_names (f : list bl_line) : list (list Z) :=
  match f with
  | [] => []
  | BLName labels _ :: rest => wire (lower_name labels) :: bl_names rest
  | BLComment _ :: rest => bl_names rest
  end.

(** Number of buckets the compiler uses: from the command line or from the number
    of names. *)
Definition bl_buckets (nb : option Z) (n : Z) : Z :=
  match nb with Some k => Z.max k 1024 | None => n + n / 4 end.

(** An upper bound on the size of the compiled file. *)
Definition bl_size (nb : option Z) (f : list bl_line) : Z :=
  16 + 5 * bl_buckets nb (zlen (bl_names f))
  + fold_right (fun s a => zlen s + 2 + a) 0 (bl_names f).

(** What the resolver must block, given the listed names: a name that is listed,
    and a name with a listed parent of one, two or three labels. *)
Definition bl_blocks (listed : list (list Z)) (name : list (list Z)) : Prop :=
  exists sub parent, name = sub ++ parent /\ In (wire parent) listed /\
    (sub = [] \/ (1 <= length parent <= 3)%nat).
