(** What Deadwood keeps in its cache for a query: the records of the three sections, where
    each of them begins and has its type, the three counts, and a type byte. *)
From Verif Require Import CBase SpecNames SpecMessage SpecDeadwoodMsg SpecDwStr ModelDwStr.

Definition answer (an ns ar : list rr) (t : Z) : list Z :=
  plain_records (an ++ ns ++ ar) ++ offset_table 0 (an ++ ns ++ ar) ++ num16 (zlen an) ++ num16 (zlen ns) ++ num16 (zlen ar) ++ [t].

Definition rr_fits (r : rr) : Prop := 0 <= rr_type r < 65536 /\ zlen (rr_meta r) = 6 /\ zlen (rdata_plain r) < 65536.

(** A valid string object holding such an answer (0: positive, 1: no such name, 2: no such
    record).  The offsets are 16-bit numbers. *)
Record holds (s : dwstr) (an ns ar : list rr) (t : Z) : Prop := {
  h_ok : dok s;
  h_con : con s = answer an ns ar t;
  h_fits : Forall rr_fits (an ++ ns ++ ar);
  h_type : 0 <= t <= 2;
  h_len : d_len s < 65536 }.

(** Rotation: the CNAME records at the front stay; of the others the first becomes the
    last. *)
Fixpoint rotated (an : list rr) : list rr :=
  match an with
  | [] => []
  | r :: rest => if rr_type r =? 5 then r :: rotated rest else rest ++ [r]
  end.

(** The CNAME records at the front, and what comes after them. *)
Fixpoint cnames (an : list rr) : list rr := match an with [] => [] | r :: rest => if rr_type r =? 5 then r :: cnames rest else [] end.
Fixpoint others (an : list rr) : list rr := match an with [] => [] | r :: rest => if rr_type r =? 5 then others rest else an end.
(** Type numbers Deadwood keeps for its own use. *)
Definition reserved (ty : Z) : bool := (65392 <=? ty) && (ty <=? 65407).
(** When rotation happens: two records or more after the CNAME records, the first of them
    not of a reserved type, and nothing but answers. *)
Definition rotates (an ns ar : list rr) : bool :=
  match others an, ns, ar with
  | r :: _ :: _, [], [] => negb (reserved (rr_type r))
  | _, _, _ => false
  end.

(** The same record with another TTL. *)
Definition num32 (v : Z) : list Z := num16 (v / 65536) ++ num16 (v mod 65536).
Definition set_ttl (ttl : Z) (r : rr) : rr :=
  mkrr (rr_owner r) (rr_type r) (zslice (rr_meta r) 0 2 ++ num32 ttl) (rr_lead r) (rr_names r) (rr_tail r).

(** Addresses that an answer from the Internet should not contain: 192.168.0.0/16,
    172.16.0.0/12, 10.0.0.0/8, 127.0.0.0/8, 169.254.0.0/16, 224.0.0.0/8, 0.0.0.0/16. *)
Definition private_ip (ip : list Z) : bool :=
  match ip with
  | [a; b; _; _] => ((a =? 192) && (b =? 168)) || ((a =? 172) && (16 <=? b) && (b <=? 31)) || (a =? 10) || (a =? 127)
                    || ((a =? 169) && (b =? 254)) || (a =? 224) || ((a =? 0) && (b =? 0))
  | _ => false
  end.
(** The address in a record: 4 bytes of an A record, 16 of an AAAA record. *)
Definition rr_ip (r : rr) : option (list Z) :=
  if rr_type r =? 1 then Some (firstn 4 (rdata_plain r)) else if rr_type r =? 28 then Some (firstn 16 (rdata_plain r)) else None.
Definition ip_size_ok (r : rr) : Prop := (rr_type r = 1 -> 4 <= zlen (rdata_plain r)) /\ (rr_type r = 28 -> 16 <= zlen (rdata_plain r)).
(** [filter]: private addresses are unwanted; [blocked]: the user's own list. *)
Definition unwanted (filter : bool) (blocked : option (list Z -> bool)) (r : rr) : bool :=
  match rr_ip r with
  | None => false
  | Some ip => (filter && private_ip ip) || match blocked with Some f => f ip | None => false end
  end.
