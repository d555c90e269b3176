(** What a DNS message says (RFC 1035 3.1, 3.2.1, 4.1.4), independently of any program:
    which name and which resource record stand at a given place of a message [m], and
    what the same record looks like without compression. *)
From Verif Require Import CBase SpecNames.

Definition name := list (list Z).

(** [name_at T m k p n e]: the name standing at [p] is [n]; the bytes it takes at [p] end
    before [e].  [k] counts the labels, pointers and the root passed on the way.  Pointers
    must lead to places satisfying [T]. *)
Inductive name_at (T : Z -> Prop) (m : list Z) : nat -> Z -> name -> Z -> Prop :=
| at_root p : zget m p = Some 0 -> name_at T m 1 p [] (p + 1)
| at_label k p l n e : 1 <= zlen l <= 63 -> zget m p = Some (zlen l) -> zslice m (p + 1) (zlen l) = l ->
    name_at T m k (p + 1 + zlen l) n e -> name_at T m (S k) p (l :: n) e
| at_pointer k p hi lo n e : zget m p = Some hi -> 192 <= hi < 256 -> zget m (p + 1) = Some lo ->
    T ((hi - 192) * 256 + lo) -> name_at T m k ((hi - 192) * 256 + lo) n e -> name_at T m (S k) p n (p + 2).

Inductive names_at (T : Z -> Prop) (m : list Z) (limit : nat) : Z -> list name -> Z -> Prop :=
| names_nil p : names_at T m limit p [] p
| names_cons k p n e ns e' : (k <= limit)%nat -> name_at T m k p n e -> names_at T m limit e ns e' -> names_at T m limit p (n :: ns) e'.

(** The types whose data contain names: how many bytes come first, how many names, how
    many bytes after them (RFC 1035 3.3, RFC 1183, RFC 2782).  Others: no names. *)
Definition layout (type : Z) : option (Z * nat * Z) :=
  if existsb (Z.eqb type) [2; 3; 4; 5; 7; 8; 9; 12] then Some (0, 1%nat, 0)  (* NS MD MF CNAME MB MG MR PTR *)
  else if existsb (Z.eqb type) [14; 17] then Some (0, 2%nat, 0)              (* MINFO RP *)
  else if type =? 6 then Some (0, 2%nat, 20)                                 (* SOA *)
  else if existsb (Z.eqb type) [15; 18; 21] then Some (2, 1%nat, 0)          (* MX AFSDB RT *)
  else if type =? 33 then Some (6, 1%nat, 0)                                 (* SRV *)
  else None.

(** A record: its name, type, class and TTL (6 bytes), and data: bytes, names, bytes. *)
Record rr := mkrr { rr_owner : name; rr_type : Z; rr_meta : list Z; rr_lead : list Z; rr_names : list name; rr_tail : list Z }.

Definition num16 (v : Z) : list Z := [v / 256; v mod 256].

(** Without compression. *)
Definition rdata_plain (r : rr) : list Z := rr_lead r ++ concat (map wire (rr_names r)) ++ rr_tail r.
Definition rr_plain (r : rr) : list Z :=
  wire (rr_owner r) ++ num16 (rr_type r) ++ rr_meta r ++ num16 (zlen (rdata_plain r)) ++ rdata_plain r.

(** [rr_at T m limit p r e]: at [p] stands record [r], which ends before [e]. *)
Inductive rr_at (T : Z -> Prop) (m : list Z) (limit : nat) (p : Z) (r : rr) (e : Z) : Prop :=
| rr_at_intro k o rdlength e2 :
    (k <= limit)%nat -> name_at T m k p (rr_owner r) o ->
    0 <= rr_type r < 65536 -> zlen (rr_meta r) = 6 -> 0 <= rdlength < 65536 ->
    zslice m o 10 = num16 (rr_type r) ++ rr_meta r ++ num16 rdlength ->
    o + 10 + rdlength = e -> e <= zlen m ->
    match layout (rr_type r) with
    | None => rr_lead r = zslice m (o + 10) rdlength /\ rr_names r = [] /\ rr_tail r = [] /\ e2 = e
    | Some (lead, n, tail) =>
        o + 10 + lead <= zlen m /\
        rr_lead r = zslice m (o + 10) lead /\ length (rr_names r) = n /\
        names_at T m limit (o + 10 + lead) (rr_names r) e2 /\
        rr_tail r = zslice m e2 tail /\ e2 + tail = e
    end -> rr_at T m limit p r e.

Inductive rrs_at (T : Z -> Prop) (m : list Z) (limit : nat) : Z -> list rr -> Z -> Prop :=
| rrs_nil p : rrs_at T m limit p [] p
| rrs_cons p r e rs e' : rr_at T m limit p r e -> rrs_at T m limit e rs e' -> rrs_at T m limit p (r :: rs) e'.
