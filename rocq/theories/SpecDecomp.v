(** What a compressed message says when compression pointers may only lead strictly backwards, to
    places after the header (RFC 1035 4.1.4 with this restriction), and what the same message
    looks like without compression. *)
From Verif Require Import CBase SpecNames SpecMessage SpecDeadwoodMsg SpecJsStr.

(** [name_back m k p n e]: at [p] stands the name [n], whose octets there end before [e]; [k]
    counts the labels, pointers and the root passed on the way. *)
Inductive name_back (m : list Z) : nat -> Z -> name -> Z -> Prop :=
| back_root p : zget m p = Some 0 -> name_back m 1 p [] (p + 1)
| back_label k p l n e : 1 <= zlen l <= 63 -> zget m p = Some (zlen l) -> zslice m (p + 1) (zlen l) = l ->
    name_back m k (p + 1 + zlen l) n e -> name_back m (S k) p (l :: n) e
| back_pointer k p hi lo n e : zget m p = Some hi -> 192 <= hi < 256 -> zget m (p + 1) = Some lo ->
    12 <= (hi - 192) * 256 + lo < p -> name_back m k ((hi - 192) * 256 + lo) n e -> name_back m (S k) p n (p + 2).
(** At most 255 steps, and a name of at most [max] octets. *)
Definition name_in (max : Z) (m : list Z) (p : Z) (n : name) (e : Z) : Prop := exists k, (k <= 255)%nat /\ name_back m k p n e /\ zlen (wire n) <= max.

Inductive names_in (max : Z) (m : list Z) : Z -> list name -> Z -> Prop :=
| names_none p : names_in max m p [] p
| names_more p n e ns e' : name_in max m p n e -> names_in max m e ns e' -> names_in max m p (n :: ns) e'.

(** The data of type A are four octets, those of type TXT begin with a string. *)
Definition data_ok (type : Z) (l : list Z) : Prop :=
  (type = 1 -> zlen l = 4) /\ (type = 16 -> exists b, zget l 0 = Some b /\ b + 1 <= zlen l).

(** The [rdlength] octets of data at [p], for a record of type [type]: octets, names, octets. *)
Definition data_in (max : Z) (m : list Z) (p type rdlength : Z) (lead : list Z) (names : list name) (tail : list Z) : Prop :=
  match layout type with
  | None => lead = zslice m p rdlength /\ names = [] /\ tail = [] /\ data_ok type lead
  | Some (nlead, n, ntail) =>
      p + nlead <= zlen m /\ lead = zslice m p nlead /\ length names = n /\
      exists e, names_in max m (p + nlead) names e /\ tail = zslice m e ntail /\ e + ntail = p + rdlength
  end.

(** [rec_in m p r e]: at [p] stands the record [r], which ends before [e]. *)
Inductive rec_in (max : Z) (m : list Z) (p : Z) (r : rr) (e : Z) : Prop :=
| rec_in_intro o rdlength :
    name_in max m p (rr_owner r) o ->
    0 <= rr_type r < 65536 -> zlen (rr_meta r) = 6 -> 0 <= rdlength < 65536 ->
    zslice m o 10 = num16 (rr_type r) ++ rr_meta r ++ num16 rdlength ->
    o + 10 + rdlength = e -> e <= zlen m ->
    data_in max m (o + 10) (rr_type r) rdlength (rr_lead r) (rr_names r) (rr_tail r) -> rec_in max m p r e.
Inductive recs_in (max : Z) (m : list Z) : Z -> list rr -> Z -> Prop :=
| recs_none p : recs_in max m p [] p
| recs_more p r e rs e' : rec_in max m p r e -> recs_in max m e rs e' -> recs_in max m p (r :: rs) e'.

(** The message [m] without compression is [out]; its records are [rs].  There is at most one
    question, and no name is longer than [max]. *)
Definition field16 (m : list Z) (p : Z) : Z := number (zslice m p 2).
Inductive expands (max : Z) (m : list Z) (rs : list rr) (out : list Z) : Prop :=
| exp_question n q e : 12 <= zlen m -> field16 m 4 = 1 ->
    name_in max m 12 n q -> q + 4 <= zlen m ->
    recs_in max m (q + 4) rs e -> zlen rs = field16 m 6 + field16 m 8 + field16 m 10 ->
    out = zslice m 0 12 ++ (wire n ++ zslice m q 4) ++ plain_records rs -> expands max m rs out
| exp_none e : 12 <= zlen m -> field16 m 4 = 0 ->
    recs_in max m 12 rs e -> zlen rs = field16 m 6 + field16 m 8 + field16 m 10 ->
    out = zslice m 0 12 ++ plain_records rs -> expands max m rs out.
(** No name in the message takes more than 256 octets (names that take more than 259 do not count:
    no place says them). *)
Definition no_long_names (m : list Z) : Prop := forall p n e, name_in 259 m p n e -> zlen (wire n) <= 256.
(** A record is not too large for the buffer through which its data pass. *)
Definition small_data (r : rr) : Prop := zlen (rdata_plain r) < 4512.
