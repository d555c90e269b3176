(** Messages without compression, as MaraDNS makes them before it compresses them. *)
From Verif Require Import CBase SpecNames SpecMessage SpecDeadwoodMsg SpecQueries SpecJsStr SpecDecomp.

(** A record: names of at most 255 octets, data of the shape its type asks for. *)
Definition plain_rr (r : rr) : Prop :=
  short_name (rr_owner r) /\ 0 <= rr_type r < 65536 /\ zlen (rr_meta r) = 6 /\ zlen (rdata_plain r) < 65536 /\
  match layout (rr_type r) with
  | None => rr_names r = [] /\ rr_tail r = [] /\ data_ok (rr_type r) (rr_lead r)
  | Some (nlead, n, ntail) => zlen (rr_lead r) = nlead /\ length (rr_names r) = n /\ Forall short_name (rr_names r) /\ zlen (rr_tail r) = ntail
  end.
(** A message with one question, for [n], and the records [rs]. *)
Record plain_message (m header : list Z) (n : name) (qtype_class : list Z) (rs : list rr) : Prop := {
  pm_octets : m = header ++ (wire n ++ qtype_class) ++ plain_records rs;
  pm_header : zlen header = 12; pm_rest : zlen qtype_class = 4;
  pm_qd : field16 m 4 = 1; pm_counts : field16 m 6 + field16 m 8 + field16 m 10 = zlen rs;
  pm_name : short_name n; pm_records : Forall plain_rr rs }.
(** The TTL, in the last four octets of [rr_meta], is not 4294967295. *)
Definition ttl_ok (r : rr) : Prop := zslice (rr_meta r) 2 4 <> [255; 255; 255; 255].
(** How many labels the names have, the roots included. *)
Definition labels (n : name) : Z := zlen n + 1.
Fixpoint total (l : list Z) : Z := match l with [] => 0 | x :: l => x + total l end.
Definition all_labels (n : name) (rs : list rr) : Z := labels n + total (map (fun r => total (map labels (rr_owner r :: rr_names r))) rs).
(** The record with its TTL reduced to 4294967294. *)
Definition capped (r : rr) : rr :=
  mkrr (rr_owner r) (rr_type r) (zslice (rr_meta r) 0 2 ++ be 4 (Z.min (number (zslice (rr_meta r) 2 4)) 4294967294)) (rr_lead r) (rr_names r) (rr_tail r).
