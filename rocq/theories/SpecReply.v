(** What a recursive resolver may take over from the reply of one server: names compared
    without regard to case, zones, CNAME chains. *)
From Verif Require Import CBase SpecNames SpecMessage SpecDeadwoodMsg SpecDwStr SpecAnswer ModelDwStr.

(** The same name, upper and lower case being the same. *)
Definition same_name (a b : name) : bool := if list_eq_dec zlist_eq_dec (lower_name a) (lower_name b) then true else false.
(** [n] is the zone itself or below it: the labels of the zone are the last labels of [n]. *)
Fixpoint at_or_below (zone n : name) : bool :=
  same_name n zone || match n with [] => false | _ :: parent => at_or_below zone parent end.
(** [n] is below the zone. *)
Definition below (zone n : name) : bool := match n with [] => false | _ :: parent => at_or_below zone parent end.

(** Deadwood compares names of up to 259 bytes, counting the labels twice: every name of
    up to 255 bytes and 86 labels is one. *)
Definition comparable (n : name) : Prop := zlen (wire n) + zlen n <= 260.

(** Where a record points: CNAME and NS records. *)
Definition target (r : rr) : name := match rr_names r with n :: _ => n | [] => [] end.
Definition rr_class (r : rr) : list Z := zslice (rr_meta r) 0 2.
Definition class_in (r : rr) : bool := zlist_eqb (rr_class r) [0; 1].

(** Names of labels of 1..63 bytes, at most 199 of them; data of the form the type asks for. *)
Definition proper_name (n : name) : Prop := good_name n /\ zlen n < 200.
Definition proper_rr (r : rr) : Prop :=
  proper_name (rr_owner r) /\ Forall proper_name (rr_names r) /\
  match layout (rr_type r) with
  | None => rr_names r = [] /\ rr_tail r = []
  | Some (lead, n, tail) => zlen (rr_lead r) = lead /\ length (rr_names r) = n /\ zlen (rr_tail r) = tail
  end.

(** A chain of CNAME records from [q], each owned by the name the one before points to;
    [e] is where it ends. *)
Inductive cname_chain : name -> list rr -> name -> Prop :=
| chain_nil q : cname_chain q [] q
| chain_cons q r rest e : rr_type r = 5 -> same_name (rr_owner r) q = true -> cname_chain (target r) rest e -> cname_chain q (r :: rest) e.

(** A record of the type asked for, for the name asked for or the one the chain leads to. *)
Definition answers (q : name) (qt : Z) (e : name) (r : rr) : bool :=
  (rr_type r =? qt) && (same_name (rr_owner r) q || same_name (rr_owner r) e).

(** What is kept of a chain that does not lead to an answer: the names pointed to, each
    with its length; then where the last of them starts, and 17. *)
Definition cname_entry (r : rr) : list Z := num16 (zlen (wire (target r))) ++ wire (target r).
Definition cname_entries (rs : list rr) : list Z := concat (map cname_entry rs).
Definition last_entry (rs : list rr) : Z := zlen (cname_entries (removelast rs)).
Definition cname_referral (rs : list rr) : list Z := cname_entries rs ++ num16 (last_entry rs) ++ [17].

(** The records of the authority section and of the additional section that matter. *)
Definition ns_or_soa (r : rr) : bool := (rr_type r =? 2) || (rr_type r =? 6).
Definition address (r : rr) : bool := (rr_type r =? 1) || (rr_type r =? 28).
(** A record that answers the question. *)
Definition asked_for (q : name) (qt : Z) (r : rr) : bool := same_name (rr_owner r) q && (rr_type r =? qt).

(** ** Referrals *)

(** The records of the authority section a server for the zone [z] may give, asked for
    [q]: about a name above [q] (or [q] itself), below [z]. *)
Definition accepted (q z : name) (r : rr) : bool := ns_or_soa r && at_or_below (rr_owner r) q && below z (rr_owner r).
Definition server (q z : name) (r : rr) : bool := accepted q z r && (rr_type r =? 2).
(** [a]: an address of the server [s] names. *)
Definition address_of (s a : rr) : bool := address a && same_name (target s) (rr_owner a).
(** The zone referred to: the longest name. *)
Definition longer (best : list Z) (n : name) : list Z := if zlen best <? zlen (wire n) then wire n else best.
Definition referred_zone (q z : name) (ns : list rr) : list Z := fold_left longer (map rr_owner (filter (accepted q z) ns)) [].
(** The servers: addresses, and names of servers without address. *)
Definition glue_entry (a : rr) : list Z := rr_type a :: match rr_ip a with Some ip => ip | None => [] end.
Definition name_entry (s : rr) : list Z := 2 :: num16 (zlen (wire (target s))) ++ wire (target s).
Definition server_entries (q z : name) (ns ar : list rr) : list (list Z) :=
  map glue_entry (filter (fun a => existsb (fun s => server q z s && address_of s a) ns) ar) ++
  map name_entry (filter (fun s => server q z s && negb (existsb (address_of s) ar)) ns).
(** Where each of them starts. *)
Fixpoint starts (at_ : Z) (l : list (list Z)) : list Z := match l with [] => [] | x :: l => at_ :: starts (at_ + zlen x) l end.
(** What is stored for a referral. *)
Definition ns_referral (zone : list Z) (entries : list (list Z)) : list Z :=
  zone ++ concat entries ++ concat (map num16 (starts (zlen zone) entries)) ++ [zlen entries; 16].

(** ** Any reply *)

(** Some of the records, in their order. *)
Inductive sublist {A} : list A -> list A -> Prop :=
| sub_nil : sublist [] []
| sub_skip x a b : sublist a b -> sublist a (x :: b)
| sub_keep x a b : sublist a b -> sublist (x :: a) (x :: b).

(** The three strings Deadwood starts from: the question (name and type), the zone the
    server was asked about, the reply after decompression. *)
Record asks (s : dwstr) (q : name) (qt : Z) : Prop := {
  asks_ok : dok s;
  asks_con : con s = wire q ++ num16 qt;
  asks_name : good_name q;
  asks_size : comparable q;
  asks_type : 0 <= qt < 65536
}.
Record about (s : dwstr) (z : name) : Prop := {
  about_ok : dok s;
  about_con : exists rest, con s = wire z ++ rest;
  about_name : good_name z;
  about_size : comparable z
}.
Record reply (s : dwstr) (an ns ar : list rr) (t : Z) : Prop := {
  reply_holds : holds s an ns ar t;
  reply_type : t = 0 \/ t = 1;
  reply_proper : Forall proper_rr (an ++ ns ++ ar)
}.
