(** What can be said of the outcome for any packet whatsoever (server/MaraDNS.c). *)
From Verif Require Import CBase ModelServe.

(** The octets [l] are sent because of the packet [p]: a response (its QR bit is set) with the same
    ID, and not longer than 512 octets. *)
Definition own_reply (p l : list Z) : Prop :=
  12 <= zlen l <= 512 /\ zslice l 0 2 = zslice p 0 2 /\ exists b, zget l 2 = Some b /\ 128 <= b.
(** [q] is the name and the type after the header of [p]. *)
Definition question_of (p q : list Z) : Prop := 3 <= zlen q <= 255 /\ 16 + (zlen q - 2) <= zlen p /\ q = zslice p 12 (zlen q).
(** The outcome has to do with the packet [p] and with nothing else. *)
Definition about {V} (p : list Z) (o : outcome V) : Prop :=
  match o with
  | Quiet => True
  | Octets l => own_reply p l
  | Answer _ q _ | Refer _ q | Star _ q _ _ | Missing _ q _ | Rejected q | Report q | AllOf q => question_of p q
  end.
