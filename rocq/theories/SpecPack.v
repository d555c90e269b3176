(** How the records of a cached answer are written with compressed names (RFC 1035 4.1.4). *)
From Verif Require Import CBase SpecNames SpecMessage SpecDeadwoodMsg SpecAnswer SpecReply.

(** The places of the message a pointer may lead to, with the name that stands there. *)
Definition places := list (Z * name).
Fixpoint place_of (t : places) (n : name) : option Z :=
  match t with [] => None | (p, x) :: t => if same_name x n then Some p else place_of t n end.
(** Those of the question. *)
Fixpoint question_places (at_ : Z) (n : name) : places := match n with [] => [] | l :: rest => (at_, n) :: question_places (at_ + 1 + zlen l) rest end.

(** The name [n] at [at_]: labels, up to a rest that stands somewhere already. *)
Fixpoint pack_name (t : places) (at_ : Z) (n : name) : list Z * places :=
  match n with
  | [] => ([0], t)
  | l :: rest =>
      match place_of t n with
      | Some p => (num16 (49152 + p), t)
      | None => let '(b, t') := pack_name (t ++ [(at_, n)]) (at_ + 1 + zlen l) rest in (zlen l :: l ++ b, t')
      end
  end.
Fixpoint pack_names (t : places) (at_ : Z) (ns : list name) : list Z * places :=
  match ns with
  | [] => ([], t)
  | n :: ns => let '(b, t) := pack_name t at_ n in let '(b', t) := pack_names t (at_ + zlen b) ns in (b ++ b', t)
  end.
(** Names in the data are compressed for NS, CNAME, SOA, PTR and MX. *)
Definition packs (type : Z) : bool := existsb (Z.eqb type) [2; 5; 6; 12; 15].
Definition pack_rr (t : places) (at_ : Z) (r : rr) : list Z * places :=
  let '(o, t) := pack_name t at_ (rr_owner r) in
  let '(d, t) := if packs (rr_type r) then let '(b, t) := pack_names t (at_ + zlen o + 10 + zlen (rr_lead r)) (rr_names r) in (rr_lead r ++ b ++ rr_tail r, t) else (rdata_plain r, t) in
  (o ++ num16 (rr_type r) ++ rr_meta r ++ num16 (zlen d) ++ d, t).
Fixpoint pack_rrs (t : places) (at_ : Z) (rs : list rr) : list Z * places :=
  match rs with
  | [] => ([], t)
  | r :: rs => let '(b, t) := pack_rr t at_ r in let '(b', t) := pack_rrs t (at_ + zlen b) rs in (b ++ b', t)
  end.
(** The records [rs] after the question [qn]. *)
Definition packed (qn : name) (rs : list rr) : list Z := fst (pack_rrs (question_places 12 qn) (16 + zlen (wire qn)) rs).

(** The same record, upper and lower case of names aside. *)
Definition same_rr (a b : rr) : Prop :=
  same_name (rr_owner a) (rr_owner b) = true /\ rr_type a = rr_type b /\ rr_meta a = rr_meta b /\ rr_lead a = rr_lead b /\
  Forall2 (fun x y => same_name x y = true) (rr_names a) (rr_names b) /\ rr_tail a = rr_tail b.
Definition rr_all_names (r : rr) : list name := rr_owner r :: rr_names r.

(** A name in which no run of labels is followed by the same run of labels, the part it has
    in common with the end of the question aside. *)
Definition no_repeat (qn n : name) : Prop :=
  exists front back qfront qback, n = front ++ back /\ qn = qfront ++ qback /\ same_name qback back = true /\
  forall a w w' b, n = a ++ w ++ w' ++ b -> w <> [] -> same_name w w' = true -> (length front <= length (a ++ w))%nat.
