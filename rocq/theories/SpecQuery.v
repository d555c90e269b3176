(** Names in packets and in configuration files. *)
From Verif Require Import CBase SpecNames.

(** No control characters. *)
Definition printable (n : list (list Z)) : Prop := Forall (Forall (fun b => 32 <= b)) n.
(** At [offset] of the packet [raw], the first [max] bytes of which were received, stands
    the name [n], of up to 256 bytes, and at least two bytes (the type) follow. *)
Definition query_name_at (raw : list Z) (offset max : Z) (n : list (list Z)) : Prop :=
  good_name n /\ printable n /\ zlen (wire n) <= 256 /\ offset + zlen (wire n) <= max - 2 /\ zslice raw offset (zlen (wire n)) = wire n.

(** A name as text: every label followed by a dot; a dot for the root. *)
Definition text (n : list (list Z)) : list Z := match n with [] => [46] | _ => concat (map (fun l => l ++ [46]) n) end.
Definition dotless (n : list (list Z)) : Prop := Forall (Forall (fun b => b <> 46)) n.
