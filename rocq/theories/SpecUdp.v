(** What a query and a reply ask, and what it means that a reply belongs to a query. *)
From Verif Require Import CBase SpecNames SpecMessage SpecQuery SpecDwStr SpecAcl ModelBlockHash ModelDwStr ModelDwUdp ModelDwPend.

(** The question of a packet (the first [len] bytes of [p]): name and type, in lower case. *)
Definition question (p : list Z) (len : Z) (q : list Z) : Prop :=
  exists n t0 t1, query_name_at p 12 len n /\ zslice p (12 + zlen (wire n)) 2 = [t0; t1] /\ ~ 65392 <= t0 * 256 + t1 <= 65407 /\ q = wire (lower_name n) ++ [t0; t1].
(** The ID. *)
Definition id_is (p : list Z) (id : Z) : Prop := exists b0 b1, zslice p 0 2 = [b0; b1] /\ id = b0 * 256 + b1.
(** Not all of the four counts in the header are zero. *)
Definition has_sections (p : list Z) : Prop := zslice p 4 8 <> [0; 0; 0; 0; 0; 0; 0; 0].

(** ** Histories: what came in and what went out, in order. *)
Inductive item := In (e : event) | Out (o : out).

(** What is received fits the buffers and consists of bytes. *)
Definition event_ok (maxprocs : nat) (e : event) : Prop :=
  match e with
  | Query client id orig packet len hint _ =>
      bytes packet /\ 12 <= len <= zlen packet /\ zlen packet <= 522 /\ 0 <= id < 65536 /\ dok orig /\
      match hint with None => True | Some b => 0 <= b < Z.of_nat maxprocs end
  | Datagram b a count _ _ => bytes a /\ count <= zlen a /\ zlen a = 520 /\ 0 <= b < Z.of_nat maxprocs
  | Timeout b _ _ => 0 <= b < Z.of_nat maxprocs
  | Glue b _ => 0 <= b < Z.of_nat maxprocs
  end.

(** [run J cf st evs tr st']: from [st], [evs] happen; the history is [tr]. *)
Inductive run (J : Z -> Z) (cf : pconf) : list remote -> list event -> list item -> list remote -> Prop :=
| run_nil st : run J cf st [] [] st
| run_step st e st1 o evs tr st2 : step J cf st e = Ok (st1, o) -> run J cf st1 evs tr st2 -> run J cf st (e :: evs) (In e :: map Out o ++ tr) st2.

(** [up] is the last packet that was sent by slot [b]. *)
Definition last_sent (tr : list item) (b : Z) (up : list Z) : Prop :=
  exists t1 t2, tr = t1 ++ Out (Upstream b up) :: t2 /\ forall p, ~ List.In (Out (Upstream b p)) t2.

(** The clients that wait for the answer to the query of a slot. *)
Definition waiting (r : remote) (xs : list local) : Prop :=
  match re_local r with None => xs = [] | Some l => exists rest, l = map At xs ++ rest end /\ re_num r = zlen xs.

(** Whenever the address of a server was found while its query waited, the query could be sent. *)
Definition glue_sent (tr : list item) : Prop := forall b e, List.In (In (Glue b e)) tr -> e_io e = true.

(** Client [c] has asked [q] with this ID. *)
Definition has_asked (tr : list item) (c id : Z) (q : list Z) : Prop :=
  exists orig packet len hint e, List.In (In (Query c id orig packet len hint e)) tr /\ question packet len q.

(** [o] answers question [q] of client [c] with ID [id]. *)
Definition answers (o : out) (c id : Z) (q : list Z) : Prop :=
  match o with
  | Upstream _ _ => False
  | Cached c' id' query _ => c' = c /\ id' = id /\ con query = q
  | Packet c' p => c' = c /\ id_is p id /\ question p (zlen p) q
  end.
Definition to_client (o : out) (c : Z) : Prop := match o with Upstream _ _ => False | Cached c' _ _ _ => c' = c | Packet c' _ => c' = c end.

(** How many queries with this ID a client has sent, and how many replies with it were sent
    to the client. *)
Definition asked1 (c id : Z) (i : item) : nat := match i with In (Query c' id' _ _ _ _ _) => if (c' =? c) && (id' =? id) then 1%nat else O | _ => O end.
Definition idof (p : list Z) : Z := match p with b0 :: b1 :: _ => b0 * 256 + b1 | _ => -1 end.
Definition answered1 (c id : Z) (i : item) : nat :=
  match i with
  | Out (Cached c' id' _ _) => if (c' =? c) && (id' =? id) then 1%nat else O
  | Out (Packet c' p) => if (c' =? c) && (idof p =? id) then 1%nat else O
  | _ => O
  end.
Fixpoint total (f : item -> nat) (tr : list item) : nat := match tr with [] => O | i :: tr => (f i + total f tr)%nat end.

(** ** Replies that are made up *)
(** The header of a reply without answers. *)
Definition denied (h : header) : header :=
  mkheader (h_id h) 1 (h_opcode h) (h_aa h) (h_tc h) (h_rd h) 1 (h_z h) (h_ad h) (h_cd h) (h_rcode h) (h_qdcount h) 0 1 0.
Definition without_additional (h : header) : header :=
  mkheader (h_id h) (h_qr h) (h_opcode h) (h_aa h) (h_tc h) (h_rd h) (h_ra h) (h_z h) (h_ad h) (h_cd h) (h_rcode h) (h_qdcount h) (h_ancount h) (h_nscount h) 0.
(** A query with one additional record (EDNS) is taken for the query without it. *)
Definition seen_header (h : header) : header := if h_arcount h =? 1 then without_additional h else h.
Definition seen_len (h : header) (len : Z) (n : list (list Z)) : Z := if h_arcount h =? 1 then 16 + zlen (wire n) else len.
(** An SOA record of the name that was asked (at 12), TTL 0: z.<name> y.<name> 1 1 1 1 1. *)
Definition no_data : list Z :=
  [192; 12] ++ num16 6 ++ num16 1 ++ [0; 0; 0; 0] ++ num16 28 ++ ([1; 122; 192; 12] ++ [1; 121; 192; 12] ++ [0; 0; 0; 1] ++ [0; 0; 0; 1] ++ [0; 0; 0; 1] ++ [0; 0; 0; 1] ++ [0; 0; 0; 1]).
(** What the block list says about a question. *)
Definition blocklist_says (cf : conf) (q : list Z) (b : bool) : Prop :=
  match cf_hash cf with None => b = false | Some hash => in_blocked_hosts hash q = Ok b end.
(** The configuration has this question rejected. *)
Definition rejected (cf : conf) (type : Z) (b : bool) : Prop :=
  (type = 28 /\ cf_reject_aaaa cf = true) \/ (type = 12 /\ cf_reject_ptr cf = true) \/ ((type = 255 \/ type = 13) /\ cf_rfc8482 cf = true) \/ b = true.
