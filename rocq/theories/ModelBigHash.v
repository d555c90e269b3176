(** Model of how MaraDNS loads its zones: add_rr_to_bighash of server/MaraBigHash.c and what it
    calls there and in server/MaraAnyChain.c.

    The resource records (rr) and the links of the ANY chains (rr_list) are cells of two heaps; a
    pointer is the number of its cell, a freed cell is [None].  The table is the one of
    ModelMaraHash; its values are the pointers.  Left out are the fields of an rr these functions
    only set to 0 (expire, ip, ip6, ptr, seen, zap, list, rcode), the counter dns_records_served and
    running out of memory.  The string [rr_query] points to (a key of the table, which lives until
    the key is removed from the table) is kept in the record.  The strings made by one call get the
    contents [J 0], [J 1], ... *)
From Verif Require Import CBase ModelDwStr ModelJsStr ModelMaraHash ModelServe.

(** MaraDns.h 204-229, rr. *)
Record rr := mkrr { rr_ttl : Z; rr_auth : Z; rr_perms : Z; rr_type : Z; rr_query : option js; rr_data : js; rr_next : option nat }.
(** MaraDns.h 232-236, rr_list. *)
Record rr_list := mklist { l_type : Z; l_data : nat; l_next : option nat }.
(** The table and the memory. *)
Record bighash := mkbig { b_hash : mhash nat; b_rr : list (option rr); b_list : list (option rr_list) }.

(** MaraDns.h 279 and 383, MaraHash.h 51 and 54 *)
Definition RR_NS : Z := 2.
Definition RR_ANY : Z := 255.
Definition MARA_DNSRR : Z := 3.
Definition MARA_DNS_LIST : Z := 6.

(** Reading, writing and freeing a cell. *)
Section Heap.
Context {A : Type}.
Definition cell (h : list (option A)) (p : nat) : res A :=
  match nth_error h p with Some (Some x) => Ok x | Some None => Bad UseAfterFree | None => Bad OutOfBounds end.
Definition upd (h : list (option A)) (p : nat) (x : option A) : list (option A) := firstn p h ++ x :: skipn (S p) h.
Definition set_cell (h : list (option A)) (p : nat) (x : A) : res (list (option A)) := _ <- cell h p ;; Ok (upd h p (Some x)).
Definition free_cell (h : list (option A)) (p : nat) : res (list (option A)) := _ <- cell h p ;; Ok (upd h p None).
End Heap.

Definition set_next (r : rr) (n : option nat) : rr := mkrr (rr_ttl r) (rr_auth r) (rr_perms r) (rr_type r) (rr_query r) (rr_data r) n.
Definition set_query (r : rr) (q : option js) : rr := mkrr (rr_ttl r) (rr_auth r) (rr_perms r) (rr_type r) q (rr_data r) (rr_next r).
Definition set_lnext (r : rr_list) (n : option nat) : rr_list := mklist (l_type r) (l_data r) n.

(** MaraAnyChain.c 97-103, finding the end of the list: after [n] steps the walk stops. *)
Fixpoint list_end (n : nat) (ls : list (option rr_list)) (p : nat) : res nat :=
  match n with
  | O => Ok p
  | S n => r <- cell ls p ;; match l_next r with None => Ok p | Some q => list_end n ls q end
  end.
(** MaraAnyChain.c 52-62 and 148-158: a copy of the query with the type ANY. *)
Definition any_query (J : Z -> Z) (query : js) : res (option js) :=
  match js_create J 256 1 with
  | None => Ok None
  | Some copy =>
      ' (r, copy) <- js_copy query copy ;;
      if r =? JS_ERROR then Ok None
      else ' (r, copy) <- change_rtype copy RR_ANY ;; Ok (if r =? JS_ERROR then None else Some copy)
  end.
Definition FAR : Z := 65000.
(** MaraAnyChain.c 35-116, any_add_rr.  [harderror] ends the program. *)
Definition any_add_rr (J : Z -> Z -> Z) (add : Z) (b : bighash) (query : js) (data : nat) : res (Z * bighash) :=
  rrtype <- get_rtype query ;;
  if (rrtype =? JS_ERROR) || (rrtype <? 0) || (65535 <? rrtype) then Ok (JS_ERROR, b)
  else
    copy <- any_query (J 0) query ;;
    match copy with
    | None => Ok (JS_ERROR, b)
    | Some copy =>
        let new := length (b_list b) in
        let ls := b_list b ++ [Some (mklist rrtype data None)] in
        ' (v, dt) <- mhash_get add (b_hash b) copy ;;
        match v with
        | None =>
            if dt =? 0 then
              ' (_, h) <- mhash_put (J 1) add (b_hash b) copy new MARA_DNS_LIST ;;
              Ok (JS_SUCCESS, mkbig h (b_rr b) ls)
            else Fail
        | Some point =>
            if negb (dt =? MARA_DNS_LIST) then Fail
            else
              point <- list_end (Z.to_nat FAR) ls point ;;
              r <- cell ls point ;;
              match l_next r with
              | Some _ => Ok (JS_ERROR, mkbig (b_hash b) (b_rr b) ls)
              | None => ls <- set_cell ls point (set_lnext r (Some new)) ;; Ok (JS_SUCCESS, mkbig (b_hash b) (b_rr b) ls)
              end
        end
    end.

(** MaraAnyChain.c 200-214, looking for the link behind [point] and unlinking it: -2 if it is not there. *)
Fixpoint list_zap (n : nat) (ls : list (option rr_list)) (point data : nat) : res (Z * list (option rr_list)) :=
  match n with
  | O => Ok (JS_ERROR, ls)
  | S n =>
      last <- cell ls point ;;
      match l_next last with
      | None => Ok (-2, ls)
      | Some p =>
          r <- cell ls p ;;
          if (l_data r =? data)%nat then
            ls <- set_cell ls point (set_lnext last (l_next r)) ;;
            ls <- free_cell ls p ;;
            Ok (JS_SUCCESS, ls)
          else list_zap n ls p data
      end
  end.
(** MaraAnyChain.c 138-217, any_zap_rr.  What the table has under the query is taken for a list. *)
Definition any_zap_rr (J : Z -> Z -> Z) (add : Z) (b : bighash) (query : js) (data : nat) : res (Z * bighash) :=
  copy <- any_query (J 2) query ;;
  match copy with
  | None => Ok (JS_ERROR, b)
  | Some copy =>
      ' (v, dt) <- mhash_get add (b_hash b) copy ;;
      match v with
      | None => Ok (JS_SUCCESS, b)
      | Some point =>
          if dt =? 0 then Ok (JS_SUCCESS, b)
          else if negb (dt =? MARA_DNS_LIST) then Bad OutOfBounds
          else
            r <- cell (b_list b) point ;;
            if (l_data r =? data)%nat then
              ' (last, h) <- mhash_undef add (b_hash b) copy ;;
              match last with
              | None => Fail
              | Some last =>
                  if negb (last =? point)%nat then Fail
                  else
                    ls <- free_cell (b_list b) last ;;
                    match l_next r with
                    | None => Ok (JS_SUCCESS, mkbig h (b_rr b) ls)
                    | Some p =>
                        ' (_, h) <- mhash_put (J 3) add h copy p MARA_DNS_LIST ;;
                        Ok (JS_SUCCESS, mkbig h (b_rr b) ls)
                    end
              end
            else
              ' (r, ls) <- list_zap (Z.to_nat FAR) (b_list b) point data ;;
              Ok (r, mkbig (b_hash b) (b_rr b) ls)
      end
  end.

(** MaraBigHash.c 231-240, 315-324: a copy of the answer. *)
Definition copy_value (J : Z -> Z) (value : js) : res (option js) :=
  match js_create J (j_count value + 1) (j_size value) with
  | None => Ok None
  | Some new => ' (r, new) <- js_copy value new ;; Ok (if r =? JS_ERROR then None else Some new)
  end.

(** MaraBigHash.c 199-271, mhash_put_rr. *)
Definition mhash_put_rr (J : Z -> Z -> Z) (add : Z) (b : bighash) (query value : js) (ttl authoritative perms : Z) : res (Z * bighash) :=
  rrtype <- get_rtype query ;;
  if (rrtype =? JS_ERROR) || (rrtype <? 0) || (65535 <? rrtype) then Ok (JS_ERROR, b)
  else
    new <- copy_value (J 4) value ;;
    match new with
    | None => Ok (JS_ERROR, b)
    | Some new =>
        let data := length (b_rr b) in
        let rs := b_rr b ++ [Some (mkrr ttl authoritative perms rrtype None new None)] in
        ' (ret, h) <- mhash_put (J 5) add (b_hash b) query data MARA_DNSRR ;;
        ' (r, b) <- any_add_rr J add (mkbig h rs (b_list b)) query data ;;
        if r =? JS_ERROR then Ok (JS_ERROR, b)
        else
          ' (_, h) <- mhash_autogrow (J 6) add (b_hash b) ;;
          key <- mhash_get_immutable_key add h query ;;
          d <- cell (b_rr b) data ;;
          rs <- set_cell (b_rr b) data (set_query d key) ;;
          if ret =? JS_ERROR then rs <- free_cell rs data ;; Ok (JS_ERROR, mkbig h rs (b_list b))
          else Ok (JS_SUCCESS, mkbig h rs (b_list b))
    end.

(** MaraBigHash.c 351-352, the last record before the first NS record. *)
Fixpoint before_ns (n : nat) (rs : list (option rr)) (p : nat) : res nat :=
  match n with
  | O => Bad NoFuel
  | S n =>
      r <- cell rs p ;;
      match rr_next r with
      | None => Ok p
      | Some q => x <- cell rs q ;; if rr_type x =? RR_NS then Ok p else before_ns n rs q
      end
  end.
(** MaraBigHash.c 279-359, mhash_add_rr. *)
Definition mhash_add_rr (J : Z -> Z -> Z) (add : Z) (b : bighash) (query value : js) (ttl authoritative perms : Z) : res (Z * bighash) :=
  rrtype <- get_rtype query ;;
  if (rrtype =? JS_ERROR) || (rrtype <? 0) || (65535 <? rrtype) then Ok (JS_ERROR, b)
  else
    new <- copy_value (J 4) value ;;
    match new with
    | None => Ok (JS_ERROR, b)
    | Some new =>
        ' (v, dt) <- mhash_get add (b_hash b) query ;;
        match v with
        | None => Ok (JS_ERROR, b)
        | Some head =>
            if negb (dt =? MARA_DNSRR) then Ok (JS_ERROR, b)
            else
              let data := length (b_rr b) in
              first <- cell (b_rr b) head ;;
              point <- before_ns (S (length (b_rr b))) (b_rr b) head ;;
              r <- cell (b_rr b) point ;;
              let rs := b_rr b ++ [Some (mkrr ttl authoritative perms rrtype (rr_query first) new (rr_next r))] in
              rs <- set_cell rs point (set_next r (Some data)) ;;
              Ok (JS_SUCCESS, mkbig (b_hash b) rs (b_list b))
        end
    end.

(** MaraBigHash.c 596-597, the last record. *)
Fixpoint last_rr (n : nat) (rs : list (option rr)) (p : nat) : res nat :=
  match n with
  | O => Bad NoFuel
  | S n => r <- cell rs p ;; match rr_next r with None => Ok p | Some q => last_rr n rs q end
  end.
(** MaraBigHash.c 537-602, mhash_add_ns. *)
Definition mhash_add_ns (add : Z) (b : bighash) (query ns : js) : res (Z * bighash) :=
  t <- get_rtype query ;;
  if (t =? JS_ERROR) || (t <? 0) || (65535 <? t) then Ok (JS_ERROR, b)
  else if t =? RR_NS then Ok (JS_SUCCESS, b)
  else
    t <- get_rtype ns ;;
    if (t =? JS_ERROR) || (t <? 0) || (65535 <? t) then Ok (JS_ERROR, b)
    else if negb (t =? RR_NS) then Ok (JS_SUCCESS, b)
    else
      ' (v, dt) <- mhash_get add (b_hash b) query ;;
      match v with
      | None => Ok (JS_ERROR, b)
      | Some point =>
          if negb (dt =? MARA_DNSRR) then Ok (JS_ERROR, b)
          else
            ' (v, dt) <- mhash_get add (b_hash b) ns ;;
            match v with
            | None => Ok (JS_SUCCESS, b)
            | Some ns_rr =>
                if negb (dt =? MARA_DNSRR) then Ok (JS_ERROR, b)
                else
                  point <- last_rr (S (length (b_rr b))) (b_rr b) point ;;
                  r <- cell (b_rr b) point ;;
                  rs <- set_cell (b_rr b) point (set_next r (Some ns_rr)) ;;
                  Ok (JS_SUCCESS, mkbig (b_hash b) rs (b_list b))
            end
      end.

(** MaraBigHash.c 1350-1377: 1 if the zone, given the type of the query, is the query without its
    first label; [None] for a first octet that is no length. *)
Definition first_label (query zone : js) : res (option Z) :=
  c <- rd (j_mem query) 0 ;;
  if negb (c =? 95) && (64 <=? c) then Ok None
  else
    let label_len := if c =? 95 then 1 else c + 1 in
    if negb (j_count zone =? j_count query - label_len) then Ok (Some 0)
    else g <- js_fgrep_offset zone query 0 ;; Ok (Some (if g =? label_len then 1 else 0)).

(** MaraBigHash.c 1308-1449, add_rr_to_bighash.  The zone is changed and changed back. *)
Definition add_rr_to_bighash (J : Z -> Z -> Z) (add : Z) (b : bighash) (query data : js) (ttl : Z) (zone : js) (perms : Z) : res (Z * bighash * js) :=
  if negb (js_sane query) || negb (js_sane data) then Ok (JS_ERROR, b, zone)
  else if (j_count query <? 3) || (j_count zone <? 3) then Ok (JS_ERROR, b, zone)
  else
    qtype <- get_rtype query ;;
    if (qtype =? JS_ERROR) || (qtype =? RR_ANY) || (qtype =? 251) || (qtype =? 252) then Ok (JS_ERROR, b, zone)
    else
      ' (r, zone) <- change_rtype zone qtype ;;
      if r =? JS_ERROR then ' (_, zone) <- change_rtype zone RR_NS ;; Ok (JS_ERROR, b, zone)
      else
        same <- js_issame zone query ;;
        authority <-
          (if negb (same =? 0) then Ok (Some 1)
           else t <- get_rtype query ;; if negb (t =? RR_NS) then first_label query zone else Ok (Some 0)) ;;
        ' (_, zone) <- change_rtype zone RR_NS ;;
        match authority with
        | None => Ok (JS_ERROR, b, zone)
        | Some has_authority =>
            ' (v, dt) <- mhash_get add (b_hash b) query ;;
            match v with
            | None =>
                ' (r, b) <- mhash_put_rr J add b query data ttl has_authority perms ;;
                if r =? JS_ERROR then Ok (JS_ERROR, b, zone)
                else ' (r, b) <- mhash_add_ns add b query zone ;; Ok (if r =? JS_ERROR then JS_ERROR else JS_SUCCESS, b, zone)
            | Some point =>
                if negb (dt =? MARA_DNSRR) then Ok (JS_ERROR, b, zone)
                else
                  first <- cell (b_rr b) point ;;
                  let old := rr_auth first in
                  if (old =? 1) && (has_authority =? 1) || (old =? 0) && (has_authority =? 0) then
                    ' (r, b) <- mhash_add_rr J add b query data ttl has_authority perms ;;
                    Ok (if r =? JS_ERROR then JS_ERROR else JS_SUCCESS, b, zone)
                  else if (old =? 0) && (has_authority =? 1) then
                    ' (nukeme, h) <- mhash_undef add (b_hash b) query ;;
                    match nukeme with
                    | None => Ok (JS_ERROR, mkbig h (b_rr b) (b_list b), zone)
                    | Some nukeme =>
                        ' (r, b) <- any_zap_rr J add (mkbig h (b_rr b) (b_list b)) query nukeme ;;
                        if r =? JS_ERROR then Ok (JS_ERROR, b, zone)
                        else
                          rs <- free_cell (b_rr b) nukeme ;;
                          ' (r, b) <- mhash_put_rr J add (mkbig (b_hash b) rs (b_list b)) query data ttl has_authority perms ;;
                          if r =? JS_ERROR then Ok (JS_ERROR, b, zone)
                          else ' (r, b) <- mhash_add_ns add b query zone ;; Ok (if r =? JS_ERROR then JS_ERROR else JS_SUCCESS, b, zone)
                    end
                  else if (old =? 1) && (has_authority =? 0) then Ok (JS_SUCCESS, b, zone)
                  else Ok (JS_ERROR, b, zone)
            end
        end.
