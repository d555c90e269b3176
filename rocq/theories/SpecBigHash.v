(** What loading zones is for: under every name and type the server has the authoritative records,
    or, if no zone has any, the glue; with them go the NS records of the zone they are from. *)
From Verif Require Import CBase ModelDwStr SpecDwStr ModelJsStr SpecJsStr ModelQueries SpecQueries ModelMaraHash ModelServe ModelBigHash SpecNames SpecAcl.

(** A record of a zone.  Names are octets in wire form, where '_' (95) stands for a star label. *)
Record entry := mkentry { e_owner : list Z; e_type : Z; e_ttl : Z; e_perms : Z; e_data : list Z; e_zone : list Z }.

(** The first label of a name. *)
Definition label1 (q : list Z) : list Z :=
  match q with [] => [] | c :: _ => zslice q 0 (if c =? 95 then 1 else c + 1) end.
(** A zone is authoritative for its own name, and one label below for all but NS records. *)
Definition authority (e : entry) : bool :=
  zlist_eqb (e_owner e) (e_zone e) || negb (e_type e =? RR_NS) && zlist_eqb (e_owner e) (label1 (e_owner e) ++ e_zone e).
Definition about (q : list Z) (t : Z) (e : entry) : bool := zlist_eqb (e_owner e) q && (e_type e =? t).

(** ** What should be served *)
(** The authoritative records if there are any, otherwise the glue. *)
Definition valid (es : list entry) (q : list Z) (t : Z) (e : entry) : bool :=
  about q t e && (authority e || negb (existsb (fun x => about q t x && authority x) es)).
Definition winners (es : list entry) (q : list Z) (t : Z) : list entry := filter (valid es q t) es.
(** In the order loaded; but new NS records go behind the first one. *)
Definition ordered (t : Z) (l : list entry) : list entry :=
  if t =? RR_NS then match l with [] => [] | e :: r => e :: rev r end else l.
Notation item := (Z * Z * list Z)%type.
Definition item_of (e : entry) : item := (e_ttl e, e_perms e, e_data e).
Definition rrset (es : list entry) (q : list Z) (t : Z) : list item := map item_of (ordered t (winners es q t)).

(** The first of them, and what was loaded before it. *)
Fixpoint first_such (f : entry -> bool) (pre es : list entry) : option (list entry * entry) :=
  match es with
  | [] => None
  | e :: r => if f e then Some (pre, e) else first_such f (pre ++ [e]) r
  end.
Definition has_ns (es : list entry) (z : list Z) : bool := existsb (about z RR_NS) es.
(** The NS records of its zone go with the set, if there were any when its first record was loaded. *)
Definition nameservers (es : list entry) (q : list Z) (t : Z) : list item :=
  if t =? RR_NS then []
  else match first_such (valid es q t) [] es with
  | Some (pre, e) => if has_ns pre (e_zone e) then rrset es (e_zone e) RR_NS else []
  | None => []
  end.
(** The answer: whether it is authoritative, the records, the NS records. *)
Definition served (es : list entry) (q : list Z) (t : Z) : option (bool * list item * list item) :=
  match winners es q t with
  | [] => None
  | e :: _ => Some (authority e, rrset es q t, nameservers es q t)
  end.

(** ** The program *)
(** A call of add_rr_to_bighash. *)
Record call := mkcall { c_junk : Z -> Z -> Z; c_query : js; c_data : js; c_ttl : Z; c_zone : js; c_perms : Z }.
Definition add_call (add : Z) (b : bighash) (c : call) : res (Z * bighash * js) :=
  add_rr_to_bighash (c_junk c) add b (c_query c) (c_data c) (c_ttl c) (c_zone c) (c_perms c).
Fixpoint load (add : Z) (b : bighash) (cs : list call) : res (list Z * bighash) :=
  match cs with
  | [] => Ok ([], b)
  | c :: cs => ' (r, b, _) <- add_call add b c ;; ' (rs, b) <- load add b cs ;; Ok (r :: rs, b)
  end.
Definition start (bits : Z) : res bighash := h <- mhash_create bits ;; Ok (mkbig h [] []).

(** Reading a chain of records, as the code that sends answers does. *)
Fixpoint read_chain (n : nat) (rs : list (option rr)) (p : option nat) : res (list rr) :=
  match p with
  | None => Ok []
  | Some p => match n with O => Bad NoFuel | S n => r <- cell rs p ;; l <- read_chain n rs (rr_next r) ;; Ok (r :: l) end
  end.
(** The records of the type asked for, up to the NS records. *)
Fixpoint split_type (t : Z) (l : list rr) : list rr * list rr :=
  match l with
  | [] => ([], [])
  | r :: l' => if rr_type r =? t then let (a, b) := split_type t l' in (r :: a, b) else ([], l)
  end.
Definition rr_item (r : rr) : item := (rr_ttl r, rr_perms r, octets_of (rr_data r)).
Definition look_up (add : Z) (b : bighash) (key : js) (t : Z) : res (option (bool * list item * list item)) :=
  ' (v, dt) <- mhash_get add (b_hash b) key ;;
  match v with
  | None => Ok None
  | Some p =>
      if negb (dt =? MARA_DNSRR) then Ok None
      else
        l <- read_chain (length (b_rr b)) (b_rr b) (Some p) ;;
        match l with
        | [] => Ok None
        | r :: _ => let (a, n) := split_type t l in Ok (Some (rr_auth r =? 1, map rr_item a, map rr_item n))
        end
  end.

(** Reading the list of all types of a name, and the records of each. *)
Fixpoint read_list (n : nat) (ls : list (option rr_list)) (p : option nat) : res (list rr_list) :=
  match p with
  | None => Ok []
  | Some p => match n with O => Bad NoFuel | S n => r <- cell ls p ;; l <- read_list n ls (l_next r) ;; Ok (r :: l) end
  end.
Definition set_at (b : bighash) (r : rr_list) : res (Z * (bool * list item * list item)) :=
  l <- read_chain (length (b_rr b)) (b_rr b) (Some (l_data r)) ;;
  match l with
  | [] => Bad OutOfBounds
  | x :: _ => let (a, n) := split_type (l_type r) l in Ok (l_type r, (rr_auth x =? 1, map rr_item a, map rr_item n))
  end.
Fixpoint sets_at (b : bighash) (l : list rr_list) : res (list (Z * (bool * list item * list item))) :=
  match l with [] => Ok [] | r :: l => x <- set_at b r ;; xs <- sets_at b l ;; Ok (x :: xs) end.
Definition look_any (add : Z) (b : bighash) (key : js) : res (list (Z * (bool * list item * list item))) :=
  ' (v, dt) <- mhash_get add (b_hash b) key ;;
  match v with
  | None => Ok []
  | Some p =>
      if negb (dt =? MARA_DNS_LIST) then Bad OutOfBounds
      else l <- read_list (length (b_list b)) (b_list b) (Some p) ;; sets_at b l
  end.

(** ** The records the theorems are about *)
(** Names without zero octets before the end, which is the root or a star. *)
Definition clean (q : list Z) : Prop := exists x e, q = x ++ [e] /\ Forall (fun b => b <> 0) x /\ bytes x /\ (e = 0 \/ e = 95).
Record entry_ok (e : entry) : Prop := {
  o_owner : clean (e_owner e);
  o_first : hd 0 (e_owner e) < 64 \/ hd 0 (e_owner e) = 95;
  o_long : zlen (e_owner e) <= 253;
  o_zone : clean (e_zone e);
  o_type : 0 <= e_type e < 65000;
  o_meta : e_type e <> RR_ANY /\ e_type e <> 251 /\ e_type e <> 252;
  o_star : e_type e < 256 \/ last (e_zone e) 0 = 0 }.
(** A string with these octets. *)
Definition short (s : js) (l : list Z) : Prop := holding s l /\ j_max s < 2000000000.
(** The strings of the call are those of the record. *)
Record call_of (c : call) (e : entry) : Prop := {
  k_junk : forall i, junk_ok (c_junk c i);
  k_query : short (c_query c) (e_owner e ++ num2 (e_type e));
  k_data : short (c_data c) (e_data e);
  k_zone : short (c_zone c) (e_zone e ++ num2 RR_NS);
  k_ttl : c_ttl c = e_ttl e;
  k_perms : c_perms c = e_perms e }.

(** Is this one of the NS records a zone has for itself? *)
Definition own_ns (z : list Z) (e : entry) : bool := about z RR_NS e && zlist_eqb (e_zone e) z.
(** A zone's NS records come before its other records; or else no other zone has loaded NS records
    for it, or it has none itself. *)
Definition orderly (es : list entry) : Prop :=
  forall pre e post, es = pre ++ e :: post -> e_type e <> RR_NS ->
    existsb (own_ns (e_zone e)) pre = true \/ has_ns pre (e_zone e) = false \/ existsb (own_ns (e_zone e)) post = false.

(** The records were loaded into an empty table of 2^bits chains. *)
Definition loaded (add bits : Z) (cs : list call) (es : list entry) (b : bighash) : Prop :=
  Forall2 call_of cs es /\ Forall entry_ok es /\ orderly es /\ zlen es <= 116508 /\ 1 <= bits <= 24 /\
  exists b0 rs, start bits = Ok b0 /\ load add b0 cs = Ok (rs, b).
