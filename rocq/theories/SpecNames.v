(** Independent specification vocabulary for domain names: a name is a list of
    labels; [wire] is the RFC 1035 3.1 encoding, [dotted] the usual text. *)
From Verif Require Import CBase.

(** RFC 1035 wire form: each label preceded by its length, then the root (0). *)
Fixpoint wire (labels : list (list Z)) : list Z :=
  match labels with
  | [] => [0]
  | l :: rest => zlen l :: l ++ wire rest
  end.

(** A label: 1 to 63 bytes. *)
Definition good_label (l : list Z) : Prop := 1 <= zlen l <= 63 /\ bytes l.
Definition good_name (n : list (list Z)) : Prop := Forall good_label n.

(** www.example.com *)
Fixpoint dotted (labels : list (list Z)) : list Z :=
  match labels with
  | [] => []
  | [l] => l
  | l :: rest => l ++ 46 :: dotted rest
  end.

(** ASCII lower case of one byte / a label / a name. *)
Definition lower (b : Z) : Z := if (65 <=? b) && (b <=? 90) then b + 32 else b.
Definition lower_label (l : list Z) : list Z := map lower l.
Definition lower_name (n : list (list Z)) : list (list Z) := map lower_label n.
