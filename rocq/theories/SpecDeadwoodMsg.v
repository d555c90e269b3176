(** How Deadwood stores messages: the query name with its type, and the records with the
    three counts and a type byte after them. *)
From Verif Require Import CBase SpecNames SpecMessage.

(** The whole message: header, query name and type, class, records. *)
Definition message (header question class records : list Z) : list Z := header ++ question ++ class ++ records.
(** Sensible places for pointers: the labels of the query name, or the records. *)
Definition pointer_ok (qname : name) (records_start : Z) (p : Z) : Prop :=
  records_start <= p \/ exists before rest, qname = before ++ rest /\ p = 12 + zlen (wire before) - 1.

(** The offset table of the decompressed form: for each record, where it starts and where
    its type is. *)
Fixpoint offset_table (start : Z) (rs : list rr) : list Z :=
  match rs with
  | [] => []
  | r :: rest => num16 start ++ num16 (start + zlen (wire (rr_owner r))) ++ offset_table (start + zlen (rr_plain r)) rest
  end.
Definition plain_records (rs : list rr) : list Z := concat (map rr_plain rs).
