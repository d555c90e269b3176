(** WKS data (RFC 1035 3.4.2): an address, a protocol, and a bit for each port. *)
From Verif Require Import CBase SpecCsv2.

(** The bit of port [p] in the map [m]: that of port 0 is the highest bit of the first octet. *)
Definition port_bit (m : list Z) (p : Z) : bool := Z.testbit (nth (Z.to_nat (p / 8)) m 0) (7 - p mod 8).
(** A list of ports in a zone file: the digits of each, and the blank or comma after it; if records end with a tilde
    ([tilde]), it may be the end of a line. *)
Definition port_ok (tilde : bool) (p : list Z * Z) : Prop := digits (fst p) /\ decimal_of (fst p) <= 1024 /\ In (snd p) (if tilde then [44; 9; 32; 10; 13] else [44; 9; 32]).
Definition ports_text (l : list (list Z * Z)) : list Z := concat (map (fun p => fst p ++ [snd p]) l).
Definition ports_of (l : list (list Z * Z)) : list Z := map (fun p => decimal_of (fst p)) l.
(** Ten ports at most, in less than 1000 characters. *)
Definition ports_ok (tilde : bool) (l : list (list Z * Z)) : Prop := l <> [] /\ Forall (port_ok tilde) l /\ zlen l <= 10 /\ zlen (ports_text l) < 1000.
(** The map [m] has the bits of the ports [ps] and no others, and no more octets than these ports require. *)
Definition map_of (ps m : list Z) : Prop :=
  (forall q, 0 <= q < 8 * zlen m -> (port_bit m q = true <-> In q ps)) /\ Forall (fun q => 0 <= q < 8 * zlen m) ps /\ exists q, In q ps /\ zlen m = q / 8 + 1.
