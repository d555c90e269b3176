(** How an IPv6 address is written: RFC 4291 2.2, forms 1 and 2, and the form of 32 digits in the
    documentation of coLunacyDNS (doc/, README: hyphens and blanks do not count, [_] is a zero). *)
From Verif Require Import CBase.

(** Hexadecimal digits. *)
Definition hex (c : Z) : option Z :=
  if (48 <=? c) && (c <=? 57) then Some (c - 48)
  else if (97 <=? c) && (c <=? 102) then Some (c - 87)
  else if (65 <=? c) && (c <=? 70) then Some (c - 55) else None.
Definition hex_val (c : Z) : Z := match hex c with Some h => h | None => 0 end.
(** A group: one to four digits; its number; as two octets. *)
Definition group (g : list Z) : Prop := 1 <= zlen g <= 4 /\ Forall (fun c => hex c <> None) g.
Definition number (g : list Z) : Z := fold_left (fun n c => n * 16 + hex_val c) g 0.
Definition octets (gs : list (list Z)) : list Z := flat_map (fun g => [number g / 256; number g mod 256]) gs.
(** Groups with colons between them. *)
Fixpoint with_colons (gs : list (list Z)) : list Z :=
  match gs with [] => [] | [g] => g | g :: gs => g ++ [58] ++ with_colons gs end.

(** [ip6_text s v]: RFC 4291 has [s] for the address of octets [v]. *)
Inductive ip6_text : list Z -> list Z -> Prop :=
| eight gs : Forall group gs -> length gs = 8%nat -> ip6_text (with_colons gs) (octets gs)
| doubled l r : Forall group l -> Forall group r -> zlen l + zlen r <= 7 ->
    ip6_text (with_colons l ++ [58; 58] ++ with_colons r) (octets l ++ repeat 0 (16 - 2 * (length l + length r)) ++ octets r).

(** The other form. *)
Definition blank (c : Z) : bool := (c =? 32) || (c =? 45).
Definition digits_of (s : list Z) : list Z := filter (fun c => negb (blank c)) s.
Fixpoint pairs (d : list Z) : list Z := match d with a :: b :: d => hex_val a * 16 + hex_val b :: pairs d | _ => [] end.
Definition ip6_digits (s : list Z) (v : list Z) : Prop :=
  zlen (digits_of s) = 32 /\ Forall (fun c => hex c <> None \/ c = 95) (digits_of s) /\ v = pairs (digits_of s).

(** A string in memory: what is after its octet 0 does not matter. *)
Definition in_memory (s : list Z) (m : list Z) : Prop := ~ In 0 s /\ exists j, m = s ++ 0 :: j.

(** Seven groups and [::] for the last. *)
Definition seven_doubled (s : list Z) : Prop := exists l, Forall group l /\ zlen l = 7 /\ s = with_colons l ++ [58; 58].
