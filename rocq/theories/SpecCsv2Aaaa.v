(** What an IPv6 address in a zone file means (RFC 4291, section 2.2, forms 1 and 2). *)
From Verif Require Import CBase SpecCsv2.

Definition hex_digit (c : Z) : Prop := 48 <= c <= 57 \/ 65 <= c <= 70 \/ 97 <= c <= 102.
Definition hex_value (c : Z) : Z := if c <=? 57 then c - 48 else if c <=? 70 then c - 55 else c - 87.
(** A group: one to four digits, for two octets. *)
Definition group_ok (g : list Z) : Prop := 1 <= zlen g <= 4 /\ Forall hex_digit g.
Definition group_value (g : list Z) : Z := fold_left (fun v c => v * 16 + hex_value c) g 0.
Definition group_octets (g : list Z) : list Z := [group_value g / 256; group_value g mod 256].
(** Groups with colons between them. *)
Fixpoint groups (gs : list (list Z)) : list Z :=
  match gs with [] => [] | [g] => g | g :: gs => g ++ 58 :: groups gs end.
(** Eight groups; or fewer, with two colons once in place of one or more groups of zeros. *)
Inductive ip6_text : list Z -> list Z -> Prop :=
| Whole : forall gs, Forall group_ok gs -> length gs = 8%nat -> ip6_text (groups gs) (flat_map group_octets gs)
| Shortened : forall l r, Forall group_ok l -> Forall group_ok r -> (length l + length r <= 7)%nat ->
    ip6_text (groups l ++ [58; 58] ++ groups r) (flat_map group_octets l ++ repeat 0 (16 - 2 * (length l + length r)) ++ flat_map group_octets r).
