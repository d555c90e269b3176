(** What an authoritative server is to answer (RFC 1034 4.3.2), in terms of names. *)
From Verif Require Import CBase ModelDwStr SpecDwStr SpecNames SpecMessage SpecAcl SpecQuery ModelJsStr SpecJsStr ModelQueries SpecQueries ModelMaraHash SpecMaraHash ModelServe.

(** ** Keys of the zone data *)
(** The records of a name; those of all names below it ([*.n]); those of all names that begin with
    these labels ([n.*], in the default zone). *)
Definition plain (n : name) (t : Z) : list Z := wire n ++ num2 t.
Definition star_of (n : name) (t : Z) : list Z := 95 :: wire n ++ num2 t.
Definition ending (n : name) (t : Z) : list Z := labels n ++ 95 :: num2 t.

(** The name, its parent, and so on up to the root. *)
Fixpoint ups (n : name) : list name := n :: match n with [] => [] | _ :: r => ups r end.
(** The names with one label less at the end, and so on; with the number of labels taken from. *)
Fixpoint cuts (n : nat) (l : name) : list (Z * name) :=
  match n with O => [] | S n => (zlen l, removelast l) :: cuts n (removelast l) end.
(** The first for which [f] gives something. *)
Fixpoint closest {A B} (f : A -> option B) (l : list A) : option B :=
  match l with [] => None | s :: l => match f s with Some v => Some v | None => closest f l end end.

Definition T_A : Z := 1.
Definition T_NS : Z := 2.
Definition T_CNAME : Z := 5.
Definition T_SOA : Z := 6.
Definition T_ANY : Z := 255.

(** ** Replies without records *)
Definition reply_header (id aa tc rd rcode qd an : Z) : list Z := header_bytes (mkheader id 1 0 aa tc rd 0 0 0 0 rcode qd an 0 0).
(** A refusal echoes the question, but for long names nothing is sent. *)
Definition refusal (id rd rcode tc : Z) (q : option (list Z)) : option (list Z) :=
  match q with
  | None => Some (reply_header id 0 tc rd rcode 0 0)
  | Some q => if zlen q <? 82 then Some (reply_header id 0 tc rd rcode 1 0 ++ q ++ [0; 1]) else None
  end.

(** Four labels that are numbers up to 255. *)
Definition number (l : list Z) : option Z :=
  if (zlen l <=? 3) && forallb (fun b => (48 <=? b) && (b <=? 57)) l then
    let v := decimal (map (fun b => b - 48) l) in if v <=? 255 then Some v else None
  else None.
Definition quad (n : name) : option (list Z) :=
  match n with
  | [a; b; c; d] => match number a, number b, number c, number d with Some a, Some b, Some c, Some d => Some [a; b; c; d] | _, _, _, _ => None end
  | _ => None
  end.
(** The reply for such a name: the address, for 19770616 seconds. *)
Definition quad_reply (id : Z) (n : name) (t : Z) (ip : list Z) : list Z :=
  reply_header id 0 0 0 0 1 1 ++ plain n t ++ num2 1 ++ plain n T_A ++ num2 1 ++ [1; 45; 172; 248] ++ num2 4 ++ ip.
(** The reply to questions for all records (RFC 8482): a HINFO record "RFC8482", for an hour. *)
Definition any_reply (id rd : Z) (n : name) : list Z :=
  reply_header id 1 0 rd 0 1 1 ++ plain n T_ANY ++ num2 1 ++ [192; 12] ++ num2 13 ++ num2 1 ++ [0; 0; 14; 16] ++ num2 9 ++ 7 :: [82; 70; 67; 56; 52; 56; 50] ++ [0].

Section Zone.
Context {V : Type} (auth : V -> bool) (m : amap V).
Definition records (key : list Z) : option V := match m (1, key) with Some (v, dt) => if dt =? 3 then Some v else None | None => None end.
(** Whether there are records of any type with the name. *)
Definition named (key : list Z) : bool := match m (1, key) with Some (_, dt) => dt =? 6 | None => false end.

Context (c : conf) (id rd : Z) (n : name) (t : Z).
Let q := plain n t.
Let low := lower_name n.

(** Nothing was found: without authority the query is refused, otherwise there is no such name or
    no such record (the number 4: there are other records). *)
Definition nothing (zone : option (option V)) (there : Z) : outcome V :=
  match zone with
  | None => match refusal id rd 5 0 None with Some l => Octets l | None => Quiet end
  | Some soa => Missing soa q there
  end.
(** The default zone. *)
Fixpoint default_zone (l : list (Z * name)) (there : Z) : Z * outcome V :=
  match l with
  | [] => match records (ending [] T_SOA) with Some v => (1, Missing (Some v) q there) | None => (-1, Quiet) end
  | (k, s) :: l =>
      if 120 <? k then default_zone l there
      else
        match records (ending s t) with
        | Some v => (1, Star v q q k)
        | None => default_zone l (if named (ending s T_ANY) then 4 else there)
        end
  end.
Definition last_resort (zone : option (option V)) (there : Z) : Z * outcome V :=
  if c_default c =? 1 then default_zone (cuts (length n) n) there else (1, nothing zone there).

(** Stars: the closest one that has the type.  With bind_star_handling 2 a star does not apply to
    names below a name that there is. *)
Fixpoint wild (soa : option V) (first : bool) (l : list name) (there : Z) : outcome V + Z :=
  match l with
  | [] => inr there
  | s :: l =>
      match records (star_of s t) with
      | Some v => inl (Star v q q 0)
      | None =>
          let here := (1 <=? c_star c) && named (star_of s T_ANY) in
          let there := if here then 4 else there in
          if (c_star c =? 2) && named (plain s T_ANY) && (first || negb here)
          then inl (Missing soa q (if first then there else Z.land there 3))
          else wild soa false l there
      end
  end.
(** A star that is a CNAME; with bind_star_handling only that of the parent is found (see
    [C44_star_cname_refuted]). *)
Definition wild_cname : option V :=
  if 7 <? c_dos c then None
  else closest (fun s => records (star_of s T_CNAME)) (if 1 <=? c_star c then [tl low] else ups (tl low)).
Definition wildcards (zone : option (option V)) : Z * outcome V :=
  let soa := match zone with Some soa => soa | None => None end in
  if 17 <? c_dos c then last_resort zone 0
  else if (1 <=? c_star c) && named (plain low T_ANY) then last_resort zone 4
  else
    match wild soa true (ups (tl low)) 0 with
    | inl o => (1, o)
    | inr there => match wild_cname with Some v => (1, Star v q (plain n T_CNAME) 0) | None => last_resort zone there end
    end.

(** An error: the question is echoed as it is looked up at that time. *)
Definition send (o : option (list Z)) : outcome V := match o with Some l => Octets l | None => Quiet end.
Definition failure (rcode tc : Z) (question : list Z) : Z * outcome V :=
  (-1, if c_nofp c =? 1 then Quiet else send (refusal id rd rcode tc (Some question))).
(** Names that are themselves an address. *)
Definition address : option (list Z) := if negb (c_nofp c =? 1) && ((t =? T_A) || (t =? T_ANY)) then quad n else None.
(** The closest name servers: a delegation, or a zone of this server with its SOA record. *)
Definition closest_servers : option (V * name) := closest (fun s => option_map (fun v => (v, s)) (records (plain s T_NS))) (ups low).
Definition below_zone : Z * outcome V :=
  match (if (rd =? 1) && (c_recdel c =? 1) then None else closest_servers) with
  | Some (v, s) => if auth v then wildcards (Some (records (plain s T_SOA))) else (1, Refer v q)
  | None => wildcards None
  end.
Definition no_delegation : Z * outcome V :=
  match address with
  | Some ip => if (0 <? id) && (id <? 65535) then (1, Octets (quad_reply id n t ip)) else failure 2 0 (plain low T_NS)
  | None => below_zone
  end.
Definition up_the_tree : Z * outcome V :=
  if 11 <? c_dos c then wildcards None
  else
    match records (plain low T_NS) with
    | Some v => if auth v then no_delegation else (1, Refer v q)
    | None => no_delegation
    end.

(** The records with the name and type, then a CNAME. *)
Definition respond : Z * outcome V :=
  match records (plain low t) with
  | Some v => (1, Answer v q ((t =? T_A) || (t =? T_CNAME)))
  | None =>
      match (if 7 <? c_dos c then None else records (plain low T_CNAME)) with
      | Some v => (1, Answer v q true)
      | None => up_the_tree
      end
  end.

(** The types that are not looked up: rejected ones; 250, 253 and 254; zone transfers, for which the
    client is to use TCP; and all records. *)
Definition decision : Z * outcome V :=
  if ((t =? 28) && negb (c_raaaa c =? 0)) || ((t =? 12) && negb (c_rptr c =? 0)) then (1, Rejected q)
  else if (t =? 250) || (t =? 253) || (t =? 254) then failure 4 0 (plain low t)
  else if (t =? 251) || (t =? 252) then failure 0 1 (plain low t)
  else if c_dos c =? 78 then (1, if c_default c =? 1 then Missing None q 0 else nothing None 0)
  else if (c_dos c <=? 13) && (t =? T_ANY) then
    if negb (c_8482 c =? 0) then (1, Octets (any_reply id rd n))
    else
      let r := c_any c (plain low t) in
      if r =? 1 then (1, AllOf q) else if r =? -1 then failure 2 0 (plain low t) else respond
  else respond.
End Zone.

(** What is sent but for the echoed question: the header, which records, and how. *)
Definition shown {V} (o : outcome V) : outcome V :=
  match o with
  | Quiet => Quiet | Octets l => Octets (zslice l 0 12) | Answer v _ chase => Answer v [] chase | Refer v _ => Refer v []
  | Star v _ _ k => Star v [] [] k | Missing soa _ k => Missing soa [] k | Rejected _ => Rejected [] | Report _ => Report [] | AllOf _ => AllOf []
  end.
(** The server does not report on itself. *)
Definition no_reports (c : conf) (n : name) (t : Z) : Prop :=
  c_dos c <> 79 /\ (c_dos c <= 0 -> c_admin c = true -> c_version c (plain n t) = 0 /\ c_status c (plain n t) = 0).
(** A name that fits with its type into 255 octets. *)
Definition fitting (n : name) : Prop := good_name n /\ zlen (wire n) <= 253.
(** A query: a header without QR bit and with one question, the question, and anything after it. *)
Definition is_query (p : list Z) (h : header) (n : name) (t class : Z) : Prop :=
  exists rest, p = header_bytes h ++ plain n t ++ num2 class ++ rest /\ bytes rest /\ header_ok h /\ h_qr h = 0 /\ h_opcode h = 0 /\ h_qdcount h = 1.
(** The zone data after any number of insertions and other operations. *)
Definition zone_data {V} (add : Z) (h : mhash V) (m : amap V) : Prop :=
  exists bits os h0 rs, 1 <= bits <= 24 /\ Forall op_ok os /\ forallb (fun o => match o with Resize _ _ => false | _ => true end) os = true /\
    zlen (filter (fun o => match o with Put _ _ _ _ => true | _ => false end) os) <= 349525 /\
    mhash_create bits = Ok h0 /\ run add h0 os = Ok (rs, h) /\ m = snd (a_run empty os).
(** No records are kept with the type ANY. *)
Definition no_any {V} (m : amap V) : Prop := forall s, records m (star_of s T_ANY) = None.

(** ** Scenarios *)
(** Somebody asks for records of a name (other than the root), and the server finds zone data [m]. *)
Definition asked {V} (add : Z) (zd : mhash V) (m : amap V) (c : conf) (J1 J2 J : Z -> Z) (raw : js) (h : header) (n : name) (t : Z) : Prop :=
  zone_data add zd m /\ no_any m /\ junk_ok J1 /\ junk_ok J2 /\ junk_ok J /\
  exists p class, holding raw p /\ is_query p h n t class /\ fitting n /\ n <> [] /\ word t /\ word class /\ (class / 256 = 0 \/ class mod 256 = 1) /\ no_reports c n t.
(** Types that are looked up in the zone data. *)
Definition looked_up (c : conf) (t : Z) : Prop := ~ (t = 28 /\ c_raaaa c <> 0) /\ ~ (t = 12 /\ c_rptr c <> 0) /\ ~ (250 <= t <= 255) /\ c_dos c <> 78.
(** The settings that a server has if it has no default zone, does not protect itself by leaving
    searches out, and does not leave delegations to recursion. *)
Definition full_search (c : conf) (rd : Z) : Prop := c_dos c <= 7 /\ c_default c <> 1 /\ (rd = 0 \/ c_recdel c <> 1).
(** [s] is the longest ending of the name for which [f] gives something. *)
Definition nearest {A} (f : name -> option A) (n s : name) (v : A) : Prop :=
  (exists a, n = a ++ s) /\ f s = Some v /\ forall b r, n = b ++ r -> (length s < length r)%nat -> f r = None.
(** There is none. *)
Definition nowhere {A} (f : name -> option A) (n : name) : Prop := forall b r, n = b ++ r -> f r = None.
