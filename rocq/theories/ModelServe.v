(** Model of server/MaraDNS.c: what the authoritative server (built with -DAUTHONLY, as
    build/Makefile.linux does) decides to answer to a query, with the functions on names that
    it uses (dns/bobbit.c and the top of server/MaraBigHash.c).

    The zone data is the table of ModelMaraHash; what its elements hold is of any type [V], with
    [auth v] for [point->authoritative != 0].  The strings are those of ModelJsStr.  Left out: what
    is printed and logged, running out of memory, and how the records found are put into the
    packet (udpsuccess, udpstar, udpnotfound): the outcome says which of them is called with what. *)
From Verif Require Import CBase ModelDwStr ModelJsStr ModelMaraHash ModelQueries ModelDecomp.

Definition oct (s : js) : list Z := zslice (j_mem s) 0 (j_count s).

(** ** Names *)
(** MaraDNS.c 2248-2256, the loop of fold_case. *)
Fixpoint fold_loop (n : nat) (i : Z) (mem : list Z) (ret : Z) : res (Z * list Z) :=
  match n with
  | O => Ok (ret, mem)
  | S n =>
      x <- rd mem i ;;
      if (65 <=? x) && (x <=? 90) then mem <- wr mem i (x + 32) ;; fold_loop n (i + 1) mem 1
      else fold_loop n (i + 1) mem ret
  end.
(** MaraDNS.c 2235-2260, fold_case. *)
Definition fold_case (s : js) : res (Z * js) :=
  if j_max s <=? j_count s then Ok (JS_ERROR, s)
  else if negb (j_size s =? 1) then Ok (JS_ERROR, s)
  else if j_count s <? 2 then Ok (JS_ERROR, s)
  else ' (r, mem) <- fold_loop (Z.to_nat (j_count s - 2)) 0 (j_mem s) 0 ;; Ok (r, set_mem s mem).

(** The loops that move octets to the left (MaraDNS.c 2014-2017, 2053-2056, bobbit.c 51-54):
    [n] octets from [i] on are taken from [length] places further. *)
Fixpoint shift_loop (n : nat) (i length : Z) (mem : list Z) : res (list Z) :=
  match n with
  | O => Ok mem
  | S n => x <- rd mem (i + length) ;; mem <- wr mem i x ;; shift_loop n (i + 1) length mem
  end.

(** MaraDNS.c 1994-2023, bobbit_starlabel. *)
Definition bobbit_starlabel (s : js) : res (Z * js) :=
  if negb (j_size s =? 1) then Ok (JS_ERROR, s)
  else if j_max s <=? j_count s then Ok (JS_ERROR, s)
  else if j_count s <? 2 then Ok (JS_ERROR, s)
  else
    c <- rd (j_mem s) 0 ;;
    if negb (c =? 95) then Ok (JS_ERROR, s)
    else
      length <- rd (j_mem s) 1 ;;
      if (j_count s <? length + 2) || (63 <? length) then Ok (JS_ERROR, s)
      else if length =? 0 then Ok (0, s)
      else
        let length := length + 1 in
        mem <- shift_loop (Z.to_nat (j_count s - length)) 1 length (j_mem s) ;;
        Ok (JS_SUCCESS, set_count (set_mem s mem) (j_count s - length)).

(** MaraDNS.c 2034-2062, make_starlabel. *)
Definition make_starlabel (s : js) : res (Z * js) :=
  if negb (j_size s =? 1) then Ok (JS_ERROR, s)
  else if j_max s <=? j_count s then Ok (JS_ERROR, s)
  else if j_count s <? 2 then Ok (JS_ERROR, s)
  else
    length <- rd (j_mem s) 0 ;;
    if length =? 95 then Ok (0, s)
    else
      mem <- wr (j_mem s) 0 95 ;;
      let s := set_mem s mem in
      if (j_count s <? length) || (63 <? length) then Ok (JS_ERROR, s)
      else if length =? 0 then Ok (0, s)
      else
        mem <- shift_loop (Z.to_nat (j_count s - length - 1)) 1 length (j_mem s) ;;
        Ok (JS_SUCCESS, set_count (set_mem s mem) (j_count s - length)).

(** dns/bobbit.c 30-60, bobbit_label. *)
Definition bobbit_label (s : js) : res (Z * js) :=
  if negb (j_size s =? 1) then Ok (JS_ERROR, s)
  else if j_max s <=? j_count s then Ok (JS_ERROR, s)
  else if j_count s <? 1 then Ok (JS_ERROR, s)
  else
    length <- rd (j_mem s) 0 ;;
    if negb (length =? 95) && ((j_count s <? length + 1) || (63 <? length)) then Ok (JS_ERROR, s)
    else if length =? 0 then Ok (0, s)
    else
      let length := (if length =? 95 then 0 else length) + 1 in
      mem <- shift_loop (Z.to_nat (j_count s - length)) 0 length (j_mem s) ;;
      Ok (JS_SUCCESS, set_count (set_mem s mem) (j_count s - length)).

(** MaraDNS.c 2110-2125, the loop of bobbit_starlabel_end that goes to the last label:
    [None] for JS_ERROR, otherwise ret, length and counter. *)
Fixpoint end_loop (n : nat) (s : js) (ret length toread counter : Z) : res (option (Z * Z * Z)) :=
  match n with
  | O => Bad NoFuel
  | S n =>
      if (length <? 256) && (0 <? toread) && negb (toread =? 95) then
        if 63 <? toread then Ok None
        else
          let length := length + toread + 1 in
          if (j_count s <? length) || (j_max s <=? length) then Ok None
          else t <- rd (j_mem s) length ;; end_loop n s (ret + 1) length t toread
      else Ok (Some (ret, length, counter))
  end.
(** MaraDNS.c 2076-2146, bobbit_starlabel_end. *)
Definition bobbit_starlabel_end (s : js) : res (Z * js) :=
  if negb (j_size s =? 1) then Ok (JS_ERROR, s)
  else if j_max s <=? j_count s then Ok (JS_ERROR, s)
  else if j_count s <? 2 then Ok (JS_ERROR, s)
  else if j_count s =? 3 then Ok (0, s)
  else
    b <- rd (j_mem s) (j_count s - 1) ;;
    a <- rd (j_mem s) (j_count s - 2) ;;
    let rtype := b + a * 256 in
    let s := set_count s (j_count s - 2) in
    counter <- dlabel_length s 0 ;;
    let counter := counter - 1 in
    if (counter <? 0) || (j_count s <? counter) then Ok (JS_ERROR, s)
    else
      x <- rd (j_mem s) counter ;;
      if x =? 0 then
        mem <- wr (j_mem s) counter 95 ;;
        ' (r, s) <- js_adduint16 (set_mem s mem) rtype ;;
        Ok (if r =? JS_ERROR then JS_ERROR else 130, s)
      else
        toread <- rd (j_mem s) 0 ;;
        e <- end_loop 258 s 0 0 toread 0 ;;
        match e with
        | None => Ok (JS_ERROR, s)
        | Some (ret, length, counter) =>
            if 256 <=? length then Ok (JS_ERROR, s)
            else
              let counter := counter + 1 in
              if (j_count s <? counter) || (length <? counter) then Ok (JS_ERROR, s)
              else
                let s := set_count s (j_count s - counter) in
                if j_count s <? 1 then Ok (JS_ERROR, s)
                else
                  mem <- wr (j_mem s) (j_count s - 1) 95 ;;
                  ' (r, s) <- js_adduint16 (set_mem s mem) rtype ;;
                  Ok (if r =? JS_ERROR then JS_ERROR else ret, s)
        end.

(** MaraBigHash.c 131-146, get_rtype. *)
Definition get_rtype (s : js) : res Z :=
  if negb (js_sane s) then Ok JS_ERROR
  else if j_count s <? 3 then Ok JS_ERROR
  else b <- rd (j_mem s) (j_count s - 1) ;; a <- rd (j_mem s) (j_count s - 2) ;; Ok (b + a * 256).
(** MaraBigHash.c 154-169, change_rtype. *)
Definition change_rtype (s : js) (newtype : Z) : res (Z * js) :=
  if negb (js_sane s) then Ok (JS_ERROR, s)
  else if j_count s <? 3 then Ok (JS_ERROR, s)
  else if (newtype <? 0) || (65535 <? newtype) then Ok (JS_ERROR, s)
  else
    mem <- wr (j_mem s) (j_count s - 1) (lo newtype) ;;
    mem <- wr mem (j_count s - 2) (hi newtype) ;;
    Ok (JS_SUCCESS, set_mem s mem).

(** ** Replies that are made on the spot *)
Definition FORMAT_ERROR : Z := 1.
Definition SERVER_FAIL : Z := 2.
Definition NOT_IMPLEMENTED : Z := 4.
Definition REFUSED : Z := 5.
Definition TRUNCATED : Z := -111.

(** The caller gives up (nothing is sent) when a function returned JS_ERROR. *)
Notation "'try' p <- m ;; k" := (bind m (fun rp => let p := snd rp in if fst rp =? JS_ERROR then Ok None else k)) (at level 100, p name, m at next level, right associativity).

(** MaraDNS.c 514-605, udperror: the octets sent, if any. *)
Definition udperror (J : Z -> Z) (raw : js) (question : option js) (error rd_val : Z) : res (option (list Z)) :=
  if (j_count raw <? 2) || (j_max raw <? 3) then Ok None
  else
    reply <- create J 96 1 ;;
    a <- rd (j_mem raw) 0 ;; b <- rd (j_mem raw) 1 ;;
    let tc := if error =? TRUNCATED then 1 else 0 in
    let rcode := if error =? TRUNCATED then 0 else error in
    let qd := match question with Some _ => 1 | None => 0 end in
    try reply <- make_hdr (mkqh (a * 256 + b) 1 0 0 tc rd_val 0 0 rcode qd 0 0 0) reply ;;
    match question with
    | None => Ok (Some (oct reply))
    | Some q => try reply <- js_append q reply ;; try reply <- js_adduint16 reply 1 ;; Ok (Some (oct reply))
    end.

(** MaraDNS.c 897-959, udpany with rfc8482 set: a HINFO record that says RFC8482 (RFC 8482). *)
Fixpoint add_words (s : js) (l : list Z) : res (option js) :=
  match l with
  | [] => Ok (Some s)
  | v :: l => try s <- js_adduint16 s v ;; add_words s l
  end.
Definition any_hinfo (J : Z -> Z) (origq : js) (id rd_val : Z) : res (option (list Z)) :=
  ar <- create J 1024 1 ;;
  try ar <- make_hdr (mkqh id 1 0 1 0 rd_val 0 0 0 1 1 0 0) ar ;;
  try ar <- js_append origq ar ;;
  o <- add_words ar [1; 49164; 13; 1; 0; 3600; 9; 1874; 17987; 14388; 14386] ;;
  match o with
  | None => Ok None
  | Some ar => try ar <- js_addbyte ar 0 ;; Ok (Some (oct ar))
  end.

(** MaraDNS.c 2305-2312, the digits of one label, from [critter] up to [lenl] ([None]: no digit). *)
Fixpoint ddip_digits (n : nat) (mem : list Z) (critter value : Z) : res (option Z) :=
  match n with
  | O => Ok (Some value)
  | S n =>
      val <- rd mem critter ;;
      if (57 <? val) || (val <? 48) then Ok None else ddip_digits n mem (critter + 1) (value * 10 + (val - 48))
  end.
(** MaraDNS.c 2296-2316, the four labels: [inl] what the function returns, or the place after them
    and the numbers. *)
Fixpoint ddip_labels (n : nat) (q : js) (lenl : Z) (ip : list Z) : res (Z + Z * list Z) :=
  match n with
  | O => Ok (inr (lenl, ip))
  | S n =>
      length <- rd (j_mem q) lenl ;;
      if (length <? 1) || (3 <? length) then Ok (inl 0)
      else
        let next := lenl + length + 1 in
        if j_count q <? next then Ok (inl JS_ERROR)
        else
          v <- ddip_digits (Z.to_nat length) (j_mem q) (lenl + 1) 0 ;;
          match v with
          | None => Ok (inl 0)
          | Some v => if 255 <? v then Ok (inl 0) else ddip_labels n q next (ip ++ [v])
          end
  end.
Fixpoint add_octets (s : js) (l : list Z) : res (option js) :=
  match l with
  | [] => Ok (Some s)
  | v :: l => try s <- js_addbyte s v ;; add_octets s l
  end.
(** MaraDNS.c 2322-2378, the reply with an A record. *)
Definition ddip_reply (J : Z -> Z) (query : js) (id : Z) (ip : list Z) : res (option (list Z)) :=
  reply <- create J 512 1 ;;
  if negb ((0 <? id) && (id <? 65535)) then Ok None
  else
    try reply <- make_hdr (mkqh id 1 0 0 0 0 0 0 0 1 1 0 0) reply ;;
    try reply <- js_append query reply ;;
    try reply <- js_adduint16 reply 1 ;;
    try query <- change_rtype query 1 ;;
    try reply <- js_append query reply ;;
    try reply <- js_adduint16 reply 1 ;;
    try reply <- js_adduint32 reply 19770616 ;;
    try reply <- js_adduint16 reply 4 ;;
    o <- add_octets reply ip ;;
    Ok (match o with Some reply => Some (oct reply) | None => None end).
(** MaraDNS.c 2270-2390, ddip_check: what it returns, and the octets sent. *)
Definition ddip_check (J : Z -> Z) (query : js) (id : Z) : res (Z * option (list Z)) :=
  if negb (j_size query =? 1) then Ok (JS_ERROR, None)
  else if j_max query <=? j_count query then Ok (JS_ERROR, None)
  else
    t <- get_rtype query ;;
    if negb (t =? 1) && negb (t =? 255) then Ok (0, None)
    else if j_count query <? 9 then Ok (0, None)
    else
      l <- ddip_labels 4 query 0 [] ;;
      match l with
      | inl r => Ok (r, None)
      | inr (lenl, ip) =>
          x <- rd (j_mem query) lenl ;;
          if negb (x =? 0) then Ok (0, None)
          else
            o <- ddip_reply J query id ip ;;
            Ok (match o with Some l => (JS_SUCCESS, Some l) | None => (JS_ERROR, None) end)
      end.

(** ** The search *)
(** The settings (mararc variables).  [c_admin]: whether the client is on the list of administrators
    (check_ipv4_acl).  [c_version], [c_status]: what the parts of proc_query that report on the
    server itself (2774-2797, and 2805-2981) do with a question: 1 when they answer, -1 for an error,
    otherwise 0.  [c_any]: the same for udpany without RFC 8482 (961-1209). *)
Record conf := mkconf {
  c_nofp : Z; c_dos : Z; c_star : Z; c_default : Z; c_recdel : Z; c_raaaa : Z; c_rptr : Z; c_8482 : Z; c_debug : Z; c_admin : bool;
  c_version : list Z -> Z; c_status : list Z -> Z; c_any : list Z -> Z }.
(** What is sent: nothing; these octets; the records [v] for the question, with the address of a
    CNAME if [chase] (udpsuccess); the name servers [v] (udpsuccess, a delegation); the records [v]
    under the name [owner] (udpstar); that there is nothing, with a SOA record (udpnotfound, [how]
    is always_not_there); the same with the SOA record made up for rejected types; a report on the
    server; all records with the name. *)
Inductive outcome (V : Type) :=
| Quiet
| Octets (l : list Z)
| Answer (v : V) (question : list Z) (chase : bool)
| Refer (v : V) (question : list Z)
| Star (v : V) (question owner : list Z) (labels : Z)
| Missing (soa : option V) (question : list Z) (how : Z)
| Rejected (question : list Z)
| Report (question : list Z)
| AllOf (question : list Z).
Arguments Quiet {V}. Arguments Octets {V}. Arguments Answer {V}. Arguments Refer {V}. Arguments Star {V}.
Arguments Missing {V}. Arguments Rejected {V}. Arguments Report {V}. Arguments AllOf {V}.

Section Serve.
Context {V : Type} (auth : V -> bool) (add : Z) (h : mhash V) (c : conf) (J : Z -> Z) (raw : js) (rd_val id : Z).
Notation out := (Z * outcome V)%type.

(** The tests [value != 0 && datatype == MARA_DNSRR] and [... == MARA_DNS_LIST] (MaraHash.h 51, 54). *)
Definition find_rr (key : js) : res (option V) :=
  ' (v, dt) <- mhash_get add h key ;; Ok (if dt =? 3 then v else None).
Definition find_list (key : js) : res bool :=
  ' (v, dt) <- mhash_get add h key ;; Ok (match v with Some _ => dt =? 6 | None => false end).

Definition sent (o : option (list Z)) : outcome V := match o with Some l => Octets l | None => Quiet end.
(** MaraDNS.c 3404-3412, serv_fail. *)
Definition serv_fail (lookfor : js) : res out :=
  if c_nofp c =? 1 then Ok (JS_ERROR, Quiet)
  else o <- udperror J raw (Some lookfor) SERVER_FAIL rd_val ;; Ok (JS_ERROR, sent o).
Notation "'ok' p <- m ;; k" := (bind m (fun rp => let p := snd rp in if fst rp =? JS_ERROR then serv_fail p else k)) (at level 100, p name, m at next level, right associativity).

(** MaraDNS.c 2425-2465, hunt_single_query. *)
Definition hunt_single_query (query question : js) : res (option (outcome V)) :=
  qo <- get_rtype question ;; qq <- get_rtype query ;;
  if (qo =? JS_ERROR) || (qq =? JS_ERROR) then Ok (Some Quiet)
  else
    v <- find_rr query ;;
    Ok (match v with Some v => Some (Answer v (oct question) ((qo =? 1) || (qq =? 5))) | None => None end).

(** MaraDNS.c 2472-2506, star_collision.  The copy with its pointer moved is written as a string of
    its own, with one place less. *)
Definition star_collision (lookfor : js) : res Z :=
  if js_length lookfor <? 2 then Ok 0
  else
    be_anal <- create J 257 1 ;;
    ' (r, be_anal) <- js_copy lookfor be_anal ;;
    if r =? JS_ERROR then Ok JS_ERROR
    else
      let be_anal := mkjs (tl (j_mem be_anal)) (j_size be_anal) (j_count be_anal - 1) (j_max be_anal - 1) (j_enc be_anal) in
      ' (r, be_anal) <- change_rtype be_anal 255 ;;
      if r =? JS_ERROR then Ok JS_ERROR
      else b <- find_list be_anal ;; Ok (if (b : bool) then 1 else 0).

(** MaraDNS.c 3362-3399: nothing was found. *)
Definition recursive_call (origq : js) (have : bool) (nx : option V) (ant : Z) : res out :=
  if negb have && negb (c_default c =? 1) then o <- udperror J raw None REFUSED rd_val ;; Ok (JS_SUCCESS, sent o)
  else Ok (JS_SUCCESS, Missing nx (oct origq) ant).

(** MaraDNS.c 3305-3342, the loop over names that end in a star. *)
Fixpoint end_search (n : nat) (lookfor origq : js) (ant : Z) : res (out + js * Z) :=
  match n with
  | O => Bad NoFuel
  | S n =>
      ' (labels, lookfor) <- bobbit_starlabel_end lookfor ;;
      if labels <=? 0 then Ok (inr (lookfor, ant))
      else if 120 <? labels then end_search n lookfor origq ant
      else
        v <- find_rr lookfor ;;
        match v with
        | Some v => Ok (inl (JS_SUCCESS, Star v (oct origq) (oct origq) labels))
        | None =>
            t <- get_rtype lookfor ;;
            if t =? JS_ERROR then o <- serv_fail lookfor ;; Ok (inl o)
            else
              ' (r, lookfor) <- change_rtype lookfor 255 ;;
              if r =? JS_ERROR then o <- serv_fail lookfor ;; Ok (inl o)
              else
                b <- find_list lookfor ;;
                ' (r, lookfor) <- change_rtype lookfor t ;;
                if r =? JS_ERROR then o <- serv_fail lookfor ;; Ok (inl o)
                else end_search n lookfor origq (if (b : bool) then 4 else ant)
        end
  end.
(** MaraDNS.c 3296-3360, skip_starwhitis. *)
Definition after_stars (lookfor origq : js) (have : bool) (nx : option V) (ant : Z) : res out :=
  if c_default c =? 1 then
    ok lookfor <- js_copy origq lookfor ;;
    e <- end_search 600 lookfor origq ant ;;
    match e with
    | inl o => Ok o
    | inr (lookfor, ant) =>
        ' (r, lookfor) <- change_rtype lookfor 6 ;;
        if r =? JS_ERROR then Ok (JS_ERROR, Quiet)
        else
          v <- find_rr lookfor ;;
          Ok (match v with Some v => (JS_SUCCESS, Missing (Some v) (oct origq) ant) | None => (JS_ERROR, Quiet) end)
    end
  else recursive_call origq have nx ant.

(** MaraDNS.c 3260-3291: stars with a CNAME, above.  What mhash_get found first is overwritten when
    bind_star_handling is set. *)
Fixpoint cname_search (n : nat) (lookfor origq : js) : res (out + js * bool) :=
  match n with
  | O => Bad NoFuel
  | S n =>
      ' (b, lookfor) <- bobbit_starlabel lookfor ;;
      if b <=? 0 then Ok (inr (lookfor, false))
      else
        v <- find_rr lookfor ;;
        let go lookfor v :=
          match v with
          | Some v =>
              ' (r, lookfor) <- js_copy origq lookfor ;;
              if r =? JS_ERROR then o <- serv_fail lookfor ;; Ok (inl o)
              else
                ' (r, lookfor) <- change_rtype lookfor 5 ;;
                if r =? JS_ERROR then o <- serv_fail lookfor ;; Ok (inl o)
                else Ok (inl (JS_SUCCESS, Star v (oct origq) (oct lookfor) 0))
          | None => cname_search n lookfor origq
          end in
        if 1 <=? c_star c then
          t <- get_rtype lookfor ;;
          ' (r, lookfor) <- change_rtype lookfor 255 ;;
          if r =? JS_ERROR then o <- serv_fail lookfor ;; Ok (inl o)
          else
            b <- find_list lookfor ;;
            v <- find_rr lookfor ;;
            if (b : bool) then Ok (inr (lookfor, true))
            else
              ' (r, lookfor) <- change_rtype lookfor t ;;
              if r =? JS_ERROR then o <- serv_fail lookfor ;; Ok (inl o)
              else go lookfor v
        else go lookfor v
  end.
(** MaraDNS.c 3224-3294, star records that are a CNAME. *)
Definition star_cname (lookfor origq : js) (have : bool) (nx : option V) (ant : Z) : res out :=
  if 7 <? c_dos c then after_stars lookfor origq have nx ant
  else
    ok lookfor <- js_copy origq lookfor ;;
    ok lookfor <- fold_case lookfor ;;
    ok lookfor <- make_starlabel lookfor ;;
    ok lookfor <- change_rtype lookfor 5 ;;
    v <- find_rr lookfor ;;
    match v with
    | Some v =>
        ok lookfor <- js_copy origq lookfor ;;
        ok lookfor <- change_rtype lookfor 5 ;;
        Ok (JS_SUCCESS, Star v (oct origq) (oct lookfor) 0)
    | None =>
        e <- cname_search 300 lookfor origq ;;
        match e with
        | inl o => Ok o
        | inr (lookfor, _) => after_stars lookfor origq have nx ant
        end
    end.

(** MaraDNS.c 3172-3222, the loop over the stars above. *)
Fixpoint star_search (n : nat) (lookfor origq : js) (nx : option V) (ant : Z) : res (out + js * Z) :=
  match n with
  | O => Bad NoFuel
  | S n =>
      ' (b, lookfor) <- bobbit_starlabel lookfor ;;
      if b <=? 0 then Ok (inr (lookfor, ant))
      else
        t <- (if 1 <=? c_star c then get_rtype lookfor else Ok 1) ;;
        v <- find_rr lookfor ;;
        match v with
        | Some v => Ok (inl (JS_SUCCESS, Star v (oct origq) (oct origq) 0))
        | None =>
            if 1 <=? c_star c then
              ' (r, lookfor) <- change_rtype lookfor 255 ;;
              if r =? JS_ERROR then o <- serv_fail lookfor ;; Ok (inl o)
              else
                b <- find_list lookfor ;;
                k <- (if (b : bool) then Ok 0 else if c_star c =? 2 then star_collision lookfor else Ok 0) ;;
                let ant' := if b : bool then 4 else ant in
                if k =? -1 then o <- serv_fail lookfor ;; Ok (inl o)
                else if k =? 1 then Ok (inl (JS_SUCCESS, Missing nx (oct origq) (Z.land ant' 3)))
                else
                  ' (r, lookfor) <- change_rtype lookfor t ;;
                  if r =? JS_ERROR then o <- serv_fail lookfor ;; Ok (inl o)
                  else star_search n lookfor origq nx ant'
            else star_search n lookfor origq nx ant
        end
  end.
(** MaraDNS.c 3112-3222, the star records for the name, from "Maybe it is a star record" on. *)
Definition stars_from (lookfor origq : js) (have : bool) (nx : option V) : res out :=
  ok lookfor <- js_copy origq lookfor ;;
  ok lookfor <- fold_case lookfor ;;
  ok lookfor <- make_starlabel lookfor ;;
  v <- find_rr lookfor ;;
  match v with
  | Some v => Ok (JS_SUCCESS, Star v (oct origq) (oct origq) 0)
  | None =>
      let next lookfor ant :=
        k <- (if c_star c =? 2 then star_collision lookfor else Ok 0) ;;
        if k =? -1 then serv_fail lookfor
        else if k =? 1 then Ok (JS_SUCCESS, Missing nx (oct origq) ant)
        else
          e <- star_search 300 lookfor origq nx ant ;;
          match e with
          | inl o => Ok o
          | inr (lookfor, ant) => star_cname lookfor origq have nx ant
          end in
      if 1 <=? c_star c then
        t <- get_rtype lookfor ;;
        ok lookfor <- change_rtype lookfor 255 ;;
        b <- find_list lookfor ;;
        ok lookfor <- change_rtype lookfor t ;;
        next lookfor (if (b : bool) then 4 else 0)
      else next lookfor 0
  end.
(** MaraDNS.c 3083-3110, skip_delegation_ns: no star is looked for if there is anything with the name. *)
Definition stars (lookfor origq : js) (have : bool) (nx : option V) : res out :=
  if 17 <? c_dos c then after_stars lookfor origq have nx 0
  else if 1 <=? c_star c then
    ok lookfor <- js_copy origq lookfor ;;
    ok lookfor <- fold_case lookfor ;;
    ok lookfor <- change_rtype lookfor 255 ;;
    b <- find_list lookfor ;;
    if (b : bool) then after_stars lookfor origq have nx 4 else stars_from lookfor origq have nx
  else stars_from lookfor origq have nx.

(** MaraDNS.c 3053-3080, the search for name servers up the tree. *)
Fixpoint ns_search (n : nat) (lookfor origq : js) : res (out + js * bool * option V) :=
  match n with
  | O => Bad NoFuel
  | S n =>
      v <- find_rr lookfor ;;
      match v with
      | Some v =>
          if auth v then
            ' (r, lookfor) <- change_rtype lookfor 6 ;;
            if r =? JS_ERROR then o <- serv_fail lookfor ;; Ok (inl o)
            else nx <- find_rr lookfor ;; Ok (inr (lookfor, true, nx))
          else Ok (inl (JS_SUCCESS, Refer v (oct origq)))
      | None =>
          ' (b, lookfor) <- bobbit_label lookfor ;;
          if 0 <? b then ns_search n lookfor origq else Ok (inr (lookfor, false, None))
      end
  end.
(** MaraDNS.c 2983-3081, skip_easter_egg. *)
Definition delegation (lookfor origq : js) : res out :=
  if 11 <? c_dos c then stars lookfor origq false None
  else
    ok lookfor <- change_rtype lookfor 2 ;;
    v <- find_rr lookfor ;;
    let next (_ : unit) :=
      ' (r, o) <- (if c_nofp c =? 1 then Ok (0, None) else ddip_check J origq id) ;;
      if r =? JS_SUCCESS then Ok (JS_SUCCESS, sent o)
      else if r =? JS_ERROR then serv_fail lookfor
      else if negb (rd_val =? 1) || negb (c_recdel c =? 1) then
        e <- ns_search 300 lookfor origq ;;
        match e with
        | inl o => Ok o
        | inr (lookfor, have, nx) => stars lookfor origq have nx
        end
      else stars lookfor origq false None in
    match v with
    | Some v => if auth v then next tt else Ok (JS_SUCCESS, Refer v (oct origq))
    | None => next tt
    end.

(** MaraDNS.c 2756-2981, the reports on the server.  [version]: dos_protection_level is 79. *)
Definition reports (lookfor origq : js) (version : bool) : res out :=
  if negb version && ((0 <? c_dos c) || negb (c_admin c)) then delegation lookfor origq
  else
    let r := c_version c (oct origq) in
    if r =? JS_SUCCESS then Ok (JS_SUCCESS, Report (oct origq))
    else if r =? JS_ERROR then serv_fail lookfor
    else if (c_dos c =? 79) && (c_debug c <=? 1) then recursive_call origq false None 0
    else
      let r := c_status c (oct origq) in
      if r =? JS_SUCCESS then Ok (JS_SUCCESS, Report (oct origq))
      else if r =? JS_ERROR then serv_fail lookfor
      else delegation lookfor origq.

(** MaraDNS.c 2730-2752, skip_rrany: the name itself, and a CNAME. *)
Definition exact (lookfor origq : js) : res out :=
  r <- hunt_single_query lookfor origq ;;
  match r with
  | Some o => Ok (JS_SUCCESS, o)
  | None =>
      if 7 <? c_dos c then reports lookfor origq false
      else
        ok lookfor <- change_rtype lookfor 5 ;;
        r <- hunt_single_query lookfor origq ;;
        match r with
        | Some o => Ok (JS_SUCCESS, o)
        | None => reports lookfor origq false
        end
  end.

(** MaraDNS.c 2644-2728, from the copy of the query on. *)
Definition with_question (lookfor origq : js) : res out :=
  ' (r, origq) <- js_copy lookfor origq ;;
  if r =? JS_ERROR then serv_fail lookfor
  else
    ' (_, lookfor) <- fold_case lookfor ;;
    qtype <- get_rtype origq ;;
    let not_impl e := if c_nofp c =? 1 then Ok (JS_ERROR, Quiet) else o <- udperror J raw (Some lookfor) e rd_val ;; Ok (JS_ERROR, sent o) in
    if qtype =? JS_ERROR then serv_fail lookfor
    else if (qtype =? 28) && negb (c_raaaa c =? 0) then Ok (JS_SUCCESS, Rejected (oct origq))
    else if (qtype =? 12) && negb (c_rptr c =? 0) then Ok (JS_SUCCESS, Rejected (oct origq))
    else if (qtype =? 253) || (qtype =? 254) || (qtype =? 250) then not_impl NOT_IMPLEMENTED
    else if (qtype =? 251) || (qtype =? 252) then not_impl TRUNCATED
    else if c_dos c =? 78 then recursive_call origq false None 0
    else if c_dos c =? 79 then reports lookfor origq true
    else if (c_dos c <=? 13) && (qtype =? 255) then
      if negb (c_8482 c =? 0) then
        o <- any_hinfo J origq id rd_val ;;
        match o with Some l => Ok (JS_SUCCESS, Octets l) | None => serv_fail lookfor end
      else
        let r := c_any c (oct lookfor) in
        if r =? JS_SUCCESS then Ok (JS_SUCCESS, AllOf (oct origq))
        else if r =? JS_ERROR then serv_fail lookfor
        else exact lookfor origq
    else exact lookfor origq.
End Serve.

(** MaraDNS.c 2514-2642, proc_query. *)
Definition proc_query {V} (auth : V -> bool) (add : Z) (h : mhash V) (c : conf) (J1 J2 J : Z -> Z) (raw : js) : res (Z * outcome V) :=
  if negb (js_sane raw) then Ok (JS_SUCCESS, Quiet)
  else if negb (j_size raw =? 1) then Ok (JS_SUCCESS, Quiet)
  else
    hdr <- read_hdr raw ;;
    match hdr with
    | None => o <- udperror J raw None FORMAT_ERROR 0 ;; Ok (JS_SUCCESS, sent o)
    | Some hd =>
        let rd_val := q_rd hd in
        let err e := if c_nofp c =? 1 then Ok (JS_SUCCESS, Quiet) else o <- udperror J raw None e rd_val ;; Ok (JS_SUCCESS, sent o) in
        if negb (q_qr hd =? 0) then Ok (JS_SUCCESS, Quiet)
        else if negb (q_qd hd =? 1) then err NOT_IMPLEMENTED
        else if j_count raw <? 14 then err FORMAT_ERROR
        else
          length <- dlabel_length raw 12 ;;
          if (length <? 0) || (255 <? length) then err FORMAT_ERROR
          else if j_count raw <? 16 + length then err FORMAT_ERROR
          else
            lookfor <- create J1 256 1 ;;
            origq <- create J2 256 1 ;;
            ' (r, lookfor) <- js_substr raw lookfor 12 (length + 2) ;;
            if r =? JS_ERROR then serv_fail c J raw rd_val lookfor
            else if negb (q_opcode hd =? 0) then
              o <- udperror J raw (Some lookfor) NOT_IMPLEMENTED rd_val ;; Ok (JS_SUCCESS, sent o)
            else
              a <- rd (j_mem raw) (length + 14) ;;
              b <- rd (j_mem raw) (length + 15) ;;
              if negb (a =? 0) && negb (b =? 1) then
                if c_nofp c =? 1 then Ok (JS_ERROR, Quiet)
                else o <- udperror J raw (Some lookfor) NOT_IMPLEMENTED rd_val ;; Ok (JS_ERROR, sent o)
              else with_question auth add h c J raw rd_val (q_id hd) lookfor origq
    end.
