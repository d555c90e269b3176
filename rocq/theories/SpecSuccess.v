(** What a reply of MaraDNS says. *)
From Verif Require Import CBase SpecNames SpecMessage SpecDeadwoodMsg SpecReply SpecPack SpecAcl ModelJsStr ModelQueries SpecQueries SpecDecomp SpecJsStr SpecCompress ModelMaraHash ModelServe ModelBigHash ModelSuccess.
From Verif Require Import SpecMessage.

(** The octets [y], compression undone, are the message [m]: its header, its questions and its
    records, letter case and TTLs of 4294967295 aside. *)
Definition conveys (y : list Z) (m : msg) : Prop :=
  exists x rs, zlen x = 12 /\ bits x = header_bits (m_hdr m) /\
    expands 256 y rs (x ++ concat (map question_bytes (m_qd m)) ++ plain_records rs) /\ Forall2 same_rr rs (map capped (m_an m ++ m_ns m ++ m_ar m)).
(** A reply before it is made to fit: one question, and records as RFC 1035 describes them. *)
Definition reply_ok (m : msg) : Prop := msg_ok m /\ zlen (m_qd m) = 1 /\ Forall plain_rr (m_an m ++ m_ns m ++ m_ar m) /\ q_tc (m_hdr m) = 0.
(** Octets before compression; messages that are small enough for compress_data, with buffers of [mx]
    and [cap] octets. *)
Definition size_of (m : msg) : Z := 12 + zlen (concat (map question_bytes (m_qd m)) ++ plain_records (m_an m ++ m_ns m ++ m_ar m)).
Definition easy (mx cap : Z) (m : msg) : Prop :=
  size_of m < 4100 /\ size_of m < mx /\ size_of m < cap /\ forall q, m_qd m = [q] -> all_labels (qu_name q) (m_an m ++ m_ns m ++ m_ar m) <= 150.
(** [k] times a record less (see SpecQueries). *)
Fixpoint drops (k : nat) (m : msg) : msg := match k with O => m | S k => drops k (drop_last m) end.

(** ** The records in memory *)
(** A cell of the heap is the record [r] of class IN. *)
Definition is_rr (c : srr) (r : rr) : Prop :=
  plain_rr r /\ holding (s_query c) (wire (rr_owner r) ++ num16 (rr_type r)) /\ holding (s_data c) (rdata_plain r) /\
  rr_meta r = [0; 1] ++ be 4 (s_ttl c) /\ 0 <= s_ttl c < 4294967296 /\ s_type c = rr_type r.
Definition at_ (h : heap) (p : nat) (c : srr) : Prop := nth_error h p = Some (Some c).
(** The cells from [w] on, as their next fields link them. *)
Inductive chain (h : heap) : option nat -> list nat -> Prop :=
| chain_end : chain h None []
| chain_more p c l : at_ h p c -> chain h (s_next c) l -> chain h (Some p) (p :: l).
(** The same for the lists of the types a name has. *)
Inductive list_at (ls : list (option rr_list)) : option nat -> list rr_list -> Prop :=
| list_end : list_at ls None []
| list_more p e l : nth_error ls p = Some (Some e) -> list_at ls (l_next e) l -> list_at ls (Some p) (e :: l).
(** Name and type of two records are the same. *)
Definition same_set (a b : rr) : Prop := rr_owner a = rr_owner b /\ rr_type a = rr_type b.
(** The cells [G] are the records [R]; their pointers lead to cells of [G]; following [next] comes to
    an end, and leads to records with the same name and type, or to name servers.  No cell is marked
    as seen. *)
Record records_ok (h : heap) (ls : list (option rr_list)) (G : nat -> Prop) (R : nat -> rr) : Prop := {
  ro_cell : forall p, G p -> exists c, at_ h p c /\ is_rr c (R p) /\ (s_auth c = 0 \/ s_auth c = 1) /\ s_seen c = 0;
  ro_next : forall p c q, G p -> at_ h p c -> s_next c = Some q -> G q /\ (rr_type (R q) = 2 \/ same_set (R p) (R q));
  ro_ip : forall p c q, G p -> at_ h p c -> s_ip c = Some q -> G q;
  ro_ip6 : forall p c q, G p -> at_ h p c -> s_ip6 c = Some q -> G q;
  ro_list : forall p c l, G p -> at_ h p c -> s_list c = Some l -> exists es, list_at ls (Some l) es /\ Forall (fun e => G (l_data e)) es;
  ro_rank : exists rank : nat -> nat, forall p c q, G p -> at_ h p c -> s_next c = Some q -> (rank q < rank p)%nat }.

(** ** What a reply is made of *)
Fixpoint take_while {A} (f : A -> bool) (l : list A) : list A := match l with [] => [] | x :: l => if f x then x :: take_while f l else [] end.
Fixpoint drop_while {A} (f : A -> bool) (l : list A) : list A := match l with [] => [] | x :: l' => if f x then drop_while f l' else l end.
Section Reply.
Context (h : heap) (ls : list (option rr_list)) (R : nat -> rr) (lim : limits) (asked : Z).
(** Of the chain that was found, the records that answer the question, and the name servers after them. *)
Definition is_answer (p : nat) : bool := (asked =? 2) || negb (rr_type (R p) =? 2).
Definition answers (ps : list nat) : list nat := take_while is_answer ps.
Definition authority (ps : list nat) : list nat := drop_while is_answer ps.
(** The chain after round robin: the first answer is the last. *)
Definition turned (ps : list nat) : list nat := match answers ps with a :: b :: as_ => (b :: as_) ++ a :: authority ps | _ => ps end.
(** The records of the type asked for a CNAME record leads to: at most 100, which the list of the
    types of the name it points to says where to find. *)
Definition leads_to (p : nat) (qs : list nat) : Prop :=
  exists c, at_ h p c /\
    match s_list c with
    | Some l =>
        if s_type c =? 5 then
          exists es, list_at ls (Some l) es /\
            match find (fun e => ModelBigHash.l_type e =? asked) (firstn 1001 es) with
            | Some e => exists path, chain h (Some (l_data e)) path /\ qs = firstn 100 (take_while (fun q => rr_type (R q) =? asked) path)
            | None => qs = []
            end
        else qs = []
    | None => qs = []
    end.
Inductive with_targets : list nat -> list nat -> Prop :=
| wt_nil : with_targets [] []
| wt_more l l' p qs : with_targets l l' -> leads_to p qs -> with_targets (l ++ [p]) (l' ++ p :: qs).
(** [x] is one of the addresses the record [p] (not a CNAME) points to. *)
Definition points_to (p a : nat) : Prop :=
  exists c, at_ h p c /\ s_type c <> 5 /\ (s_ip c = Some a \/ with_ipv6 lim = true /\ s_ip6 c = Some a).
Definition address_of (p x : nat) : Prop := exists a, points_to p a /\ same_set (R a) (R x) /\ rr_type (R x) <> 2.

(** A reply with the answers [fa], which with what CNAMEs lead to are [an], the name servers [ns] and
    the additional records [ar], for the chain [ps]. *)
Record fair (may_ns : bool) (ps fa an ns ar : list nat) : Prop := {
  fair_an : exists rest, answers ps = fa ++ rest;
  fair_targets : with_targets fa an;
  fair_ns : exists rest, authority ps = ns ++ rest;
  fair_may : may_ns = false -> ns = [];
  fair_ar : Forall (fun x => exists p, In p (fa ++ ns) /\ address_of p x) ar;
  fair_once : zlen ar <= 250 -> NoDup ar;
  fair_len1 : zlen fa <= Z.max 0 (max_chain lim); fair_len2 : zlen ns <= Z.max 0 (max_chain lim);
  fair_total : zlen fa + zlen ns + zlen ar <= Z.max 0 (max_total lim) }.
(** ... that leaves nothing out, unless there are as many records as there may be. *)
Definition complete (may_ns : bool) (ps fa ns ar : list nat) : Prop :=
  max_total lim <= zlen fa + zlen ns + zlen ar \/
  (fa = answers ps \/ max_chain lim <= zlen fa) /\
  (ns = authority ps \/ max_chain lim <= zlen ns \/ may_ns = false) /\
  (1 <= max_ar_chain lim -> forall p a, In p (fa ++ ns) -> points_to p a -> rr_type (R a) <> 2 -> In a ar).
End Reply.
(** The cells are the same but for [next]. *)
Definition but_next (a b : srr) : Prop := set_snext a None = set_snext b None.
(** The reply with the answers [an], the name servers [ns] and the additional records [ar] to the question for [n] and [ty]. *)
Definition reply_of (id aa rd : Z) (n : name) (ty : Z) (an ns ar : list rr) : msg :=
  mkmsg (mkqh id 1 0 aa 0 rd 0 0 0 1 (zlen an) (zlen ns) (zlen ar)) [mkquestion n ty 1] an ns ar.
