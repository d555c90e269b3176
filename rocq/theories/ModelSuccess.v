(** Model of how MaraDNS answers with records it found: udpsuccess (server/udpsuccess.c), and how
    udpstar and udpany (server/MaraDNS.c) finish their replies.  The code is the one compiled with
    AUTHONLY, the only one that server/Makefile.* build.

    The records are the cells of a heap, as in ModelBigHash; a pointer is the number of its cell.
    Left out of an rr are the fields that only the recursive code sets: expire (0, so that
    determine_ttl, MaraDNS.c 439-457, returns the TTL), ptr and zap (0), and rcode.  The
    corresponding branches (udpsuccess.c 333-389, 398-427 and 502-507) are left out: 333 asks for a
    CNAME record with [ip], and MaraBigHash.c add_an 1138-1201 sets [ip] for the records of MX and NS
    queries only.  The strings of a record, pointers in C, are kept in its cell, and are never null. *)
From Verif Require Import CBase ModelDwStr ModelJsStr ModelQueries ModelDecomp ModelCompress ModelMaraHash ModelServe ModelBigHash.

(** MaraDns.h 204-229, rr. *)
Record srr := mks { s_query : js; s_data : js; s_ttl : Z; s_type : Z; s_auth : Z; s_next : option nat; s_ip : option nat; s_ip6 : option nat; s_list : option nat; s_seen : Z }.
Definition heap := list (option srr).
Definition set_snext (r : srr) (n : option nat) : srr := mks (s_query r) (s_data r) (s_ttl r) (s_type r) (s_auth r) n (s_ip r) (s_ip6 r) (s_list r) (s_seen r).
Definition set_seen (r : srr) (b : Z) : srr := mks (s_query r) (s_data r) (s_ttl r) (s_type r) (s_auth r) (s_next r) (s_ip r) (s_ip6 r) (s_list r) b.
(** [p->next = n] and [p->seen = b]. *)
Definition put_next (h : heap) (p : nat) (n : option nat) : res heap := r <- cell h p ;; set_cell h p (set_snext r n).
Definition put_seen (h : heap) (p : nat) (b : Z) : res heap := r <- cell h p ;; set_cell h p (set_seen r b).

(** MaraDns.h 278-300 *)
Definition RR_CNAME : Z := 5.
(** The settings max_chain, max_ar_chain and max_total (MaraDNS.c 90-95), and whether the program was
    compiled with IPV6. *)
Record limits := mklim { max_chain : Z; max_ar_chain : Z; max_total : Z; with_ipv6 : bool }.

(** The variables of udpsuccess: the strings most and ar, the counts in the header, total_count,
    a_count, in_ns, the heap, the seenlist (its latest entry first), *rotate_point, rotate_2nd and
    rotate_last. *)
Record st := mkst { t_most : js; t_ar : js; t_an : Z; t_ns : Z; t_arc : Z; t_total : Z; t_a : Z; t_in : bool; t_heap : heap; t_seen : list nat; t_point : nat; t_2nd : option nat; t_last : option nat }.

(** 217-232, 258-270, 305-316, 465-487: a record is appended (a JS_ERROR is [Fail]).  The test
    480-482 is one that js_adduint16 makes as well. *)
Definition put_rr (c : srr) (s : js) : res js :=
  s <- (r <- js_append (s_query c) s ;; good r) ;;
  s <- (r <- js_adduint16 s 1 ;; good r) ;;
  s <- (r <- js_adduint32 s (s_ttl c) ;; good r) ;;
  s <- (r <- js_adduint16 s (j_count (s_data c)) ;; good r) ;;
  r <- js_append (s_data c) s ;; good r.

(** A part of udpsuccess: whether it got through, or jumped to giveerror, and the variables. *)
Notation "'get' t <- m ;; k" := (bind m (fun bt => let t := snd bt in if fst bt then k else Ok (false, t))) (at level 100, t name, m at next level, right associativity).
(** ... with the new value of a string. *)
Definition got (r : res js) (t : st) (k : js -> st) : res (bool * st) :=
  match r with Ok s => Ok (true, k s) | Fail => Ok (false, t) | Bad f => Bad f end.

(** 239-279 and 285-325, the loop over additional records from [w] on.  [a]: an_count. *)
Fixpoint addresses (fuel : nat) (lim : limits) (w : option nat) (a : Z) (t : st) : res (bool * st) :=
  match fuel, w with
  | _, None => Ok (true, t)
  | O, _ => Bad NoFuel
  | S fuel, Some p =>
      c <- cell (t_heap t) p ;;
      if s_type c =? RR_NS then Ok (true, t)
      else if s_seen c =? 1 then addresses fuel lim (s_next c) a t
      else if (max_ar_chain lim <=? a) || (max_total lim <=? t_total t) then Ok (true, t)
      else
        get t <- got (put_rr c (t_ar t)) t (fun ar => mkst (t_most t) ar (t_an t) (t_ns t) (u16 (t_arc t + 1)) (t_total t + 1) (t_a t) (t_in t) (t_heap t) (t_seen t) (t_point t) (t_2nd t) (t_last t)) ;;
        t <- (if zlen (t_seen t) <? 250 then
                h <- put_seen (t_heap t) p 1 ;;
                Ok (mkst (t_most t) (t_ar t) (t_an t) (t_ns t) (t_arc t) (t_total t) (t_a t) (t_in t) h (p :: t_seen t) (t_point t) (t_2nd t) (t_last t))
              else Ok t) ;;
        addresses fuel lim (s_next c) (a + 1) t
  end.

(** 441-449: the search for the type [asked] in a list. *)
Fixpoint find_type (n : nat) (ls : list (option rr_list)) (p : nat) (asked : Z) : res nat :=
  match n with
  | O => Ok p
  | S n =>
      r <- cell ls p ;;
      if ModelBigHash.l_type r =? asked then Ok p else match l_next r with None => Ok p | Some q => find_type n ls q asked end
  end.
(** 455-490: the records a CNAME leads to. *)
Fixpoint targets (n : nat) (w : option nat) (asked : Z) (t : st) : res (bool * st) :=
  match n, w with
  | O, _ | _, None => Ok (true, t)
  | S n, Some p =>
      c <- cell (t_heap t) p ;;
      if negb (s_type c =? asked) then Ok (true, t)
      else
        get t <- got (put_rr c (t_most t)) t (fun most => mkst most (t_ar t) (u16 (t_an t + 1)) (t_ns t) (t_arc t) (t_total t) (t_a t) (t_in t) (t_heap t) (t_seen t) (t_point t) (t_2nd t) (t_last t)) ;;
        targets n (s_next c) asked t
  end.
(** 433-493 *)
Definition follow (ls : list (option rr_list)) (c : srr) (asked : Z) (t : st) : res (bool * st) :=
  match s_list c with
  | Some l =>
      if s_type c =? RR_CNAME then
        p <- find_type 1000 ls l asked ;;
        r <- cell ls p ;;
        if ModelBigHash.l_type r =? asked then targets 100 (Some (l_data r)) asked t else Ok (true, t)
      else Ok (true, t)
  | None => Ok (true, t)
  end.

(** 205-494: a record is shown. *)
Definition show (lim : limits) (ls : list (option rr_list)) (fuel : nat) (asked : Z) (c : srr) (t : st) : res (bool * st) :=
  get t <- got (put_rr c (t_most t)) t (fun most =>
    mkst most (t_ar t) (if t_in t then t_an t else u16 (t_an t + 1)) (if t_in t then u16 (t_ns t + 1) else t_ns t) (t_arc t) (t_total t + 1) (t_a t + 1) (t_in t) (t_heap t) (t_seen t) (t_point t) (t_2nd t) (t_last t)) ;;
  get t <- (if s_type c =? RR_CNAME then Ok (true, t) else addresses fuel lim (s_ip c) 0 t) ;;
  get t <- (if (s_type c =? RR_CNAME) || negb (with_ipv6 lim) then Ok (true, t) else addresses fuel lim (s_ip6 c) 0 t) ;;
  follow ls c asked t.

(** 195-198 and 508-511: the first record, [first], becomes the one before [n]. *)
Definition rotate (first last second : nat) (n : option nat) (t : st) : res st :=
  h <- put_next (t_heap t) first n ;;
  h <- put_next h last (Some first) ;;
  Ok (mkst (t_most t) (t_ar t) (t_an t) (t_ns t) (t_arc t) (t_total t) (t_a t) (t_in t) h (t_seen t) second None (t_last t)).
(** 182-206: the beginning of the authority section. *)
Definition begin_ns (lim : limits) (first p : nat) (t : st) : res st :=
  t <- (match t_2nd t, t_last t with
        | Some second, Some last => if max_ar_chain lim =? 1 then rotate first last second (Some p) t else Ok t
        | _, _ => Ok t
        end) ;;
  Ok (mkst (t_most t) (t_ar t) (t_an t) (t_ns t) (t_arc t) (t_total t) 0 true (t_heap t) (t_seen t) (t_point t) (t_2nd t) (t_last t)).
Definition set_last (t : st) (p : nat) : st :=
  mkst (t_most t) (t_ar t) (t_an t) (t_ns t) (t_arc t) (t_total t) (t_a t) (t_in t) (t_heap t) (t_seen t) (t_point t) (t_2nd t) (Some p).
(** 179-514, the loop over the records.  [auth]: is_auth, [deleg]: ns_delegation. *)
Fixpoint records (fuel addr : nat) (lim : limits) (ls : list (option rr_list)) (asked auth : Z) (deleg : bool) (first : nat) (w : option nat) (t : st) : res (bool * st) :=
  match fuel, w with
  | _, None => Ok (true, t)
  | O, _ => Bad NoFuel
  | S fuel, Some p =>
      c <- cell (t_heap t) p ;;
      t <- (if negb (asked =? RR_NS) && (s_type c =? RR_NS) && negb (t_in t) then begin_ns lim first p t else Ok t) ;;
      get t <- (if (t_a t <? max_chain lim) && (t_total t <? max_total lim) && (negb (t_in t) || (auth =? 1) || deleg) then show lim ls addr asked c t else Ok (true, t)) ;;
      c <- cell (t_heap t) p ;;
      let t := set_last t p in
      t <- (match s_next c, t_2nd t with
            | None, Some second => if (max_ar_chain lim =? 1) && negb (asked =? RR_NS) then rotate first p second None t else Ok t
            | _, _ => Ok t
            end) ;;
      records fuel addr lim ls asked auth deleg first (s_next c) t
  end.

(** What the client gets: these octets, or SERVER_FAIL (udperror). *)
Inductive reply := Sent (s : js) | ServFail.

(** 542-606, after the header and the additional records are in [most].  When compress_data fails
    nothing reads what it left in [ar]; the model keeps the old contents.  [long]: the connection is
    one over IPv4 and check_ipv4_acl lets it have long packets.  [n] squeezes are left, [err]:
    compress_error_happened. *)
Fixpoint squeeze_loop (n : nat) (J : Z -> Z) (F : list (list rrdesc)) (most ar : js) (err : bool) : res reply :=
  match n with
  | O => Ok (if err then ServFail else Sent ar)
  | S n =>
      o <- squeeze_to_fit most ;;
      match o with
      | None => Ok ServFail
      | Some most =>
          if 12 <? j_count most then
            match compress_data J F most ar with
            | Ok ar => if j_count ar <=? 512 then Ok (Sent ar) else squeeze_loop n J F most ar false
            | Fail => squeeze_loop n J F most ar true
            | Bad f => Bad f
            end
          else if j_count most =? 12 then
            ' (r, ar) <- js_copy most ar ;;
            if r =? JS_ERROR then Ok ServFail else squeeze_loop n J F most ar false
          else Ok ServFail
      end
  end.
Definition fit (J : Z -> Z) (F : list (list rrdesc)) (long : bool) (most ar : js) : res reply :=
  match compress_data J F most ar with
  | Ok ar => if (j_count ar <=? 512) || (long && (j_count ar <? 4096)) then Ok (Sent ar) else squeeze_loop 20 J F most ar false
  | Fail => squeeze_loop 20 J F most ar true
  | Bad f => Bad f
  end.
(** 529-540 *)
Definition finish (J : Z -> Z) (F : list (list rrdesc)) (long : bool) (hd : q_header) (most ar : js) : res reply :=
  let length_save := j_count most in
  ' (_, most) <- make_hdr hd most ;;
  ' (r, most) <- js_append ar (set_count most length_save) ;;
  if r =? JS_ERROR then Ok ServFail else fit J F long most ar.

(** 614-619 and 632-637: the marks are removed. *)
Fixpoint unmark (l : list nat) (h : heap) : res heap :=
  match l with [] => Ok h | p :: l => h <- put_seen h p 0 ;; unmark l h end.

(** 61-640, udpsuccess.  The reply, the heap afterwards, and what *rotate_point was set to (the head of
    the chain, if it was not set).  [where] is not null.  The contents of the two new strings: [J 0]
    and [J 1]; compress_data uses [J 2]. *)
Definition udpsuccess (J : Z -> Z -> Z) (F : list (list rrdesc)) (lim : limits) (ls : list (option rr_list)) (force : Z) (long : bool) (id rd_val : Z) (query : js) (h : heap) (where_ : nat) : res (reply * heap * nat) :=
  most <- create (J 0) 1024 1 ;;
  ar <- create (J 1) 5000 1 ;;
  ' (r, most) <- make_hdr (mkqh id 0 0 0 0 0 0 0 0 0 0 0 0) most ;;
  if r =? JS_ERROR then Ok (ServFail, h, where_)
  else
    c <- cell h where_ ;;
    if negb (js_sane (s_query c)) || negb (js_sane (s_data c)) || negb (js_sane query) then Ok (ServFail, h, where_)
    else
      rt <- get_rtype query ;;
      let asked := u16 rt in
      let deleg := negb (asked =? RR_NS) && (s_type c =? RR_NS) in
      let aa := if force =? 1 then 1 else s_auth c in
      if (j_count (s_data c) <? 0) || (65535 <? j_count (s_data c)) then Ok (ServFail, h, where_)
      else
        match (most <- (r <- js_append query most ;; good r) ;; r <- js_adduint16 most 1 ;; good r) with
        | Bad f => Bad f
        | Fail => Ok (ServFail, h, where_)
        | Ok most =>
            second <- (match s_next c with
                       | None => Ok None
                       | Some q => d <- cell h q ;; Ok (if negb (asked =? RR_NS) && (s_type d =? RR_NS) then None else Some q)
                       end) ;;
            ' (ok, t) <- records (S (length h)) (S (length h)) lim ls asked (s_auth c) deleg where_ (Some where_)
                           (mkst most ar 0 0 0 0 0 false h [] where_ second None) ;;
            o <- (if ok then finish (J 2) F long (mkqh id 1 0 aa 0 rd_val 0 0 0 1 (t_an t) (t_ns t) (t_arc t)) (t_most t) (t_ar t) else Ok ServFail) ;;
            h <- unmark (t_seen t) (t_heap t) ;;
            Ok (o, h, t_point t)
        end.

(** One query after another, each for one of the sets of records; [heads] are the points of the big
    hash where the sets were found (MaraDNS.c 2434-2458, 3015-3022: spot_data.value and spot_data.point). *)
Record request := mkrequest { rq_set : nat; rq_force : Z; rq_long : bool; rq_id : Z; rq_rd : Z; rq_query : js; rq_junk : Z -> Z -> Z }.
Fixpoint serve_sets (F : list (list rrdesc)) (lim : limits) (ls : list (option rr_list)) (l : list request) (h : heap) (heads : nat -> nat) : res (list reply * heap * (nat -> nat)) :=
  match l with
  | [] => Ok ([], h, heads)
  | r :: l =>
      ' (o, h, p) <- udpsuccess (rq_junk r) F lim ls (rq_force r) (rq_long r) (rq_id r) (rq_rd r) (rq_query r) h (heads (rq_set r)) ;;
      ' (os, h, heads) <- serve_sets F lim ls l h (fun i => if (i =? rq_set r)%nat then p else heads i) ;;
      Ok (o :: os, h, heads)
  end.

(** ** udpstar and udpany *)
(** MaraDNS.c 1621-1656, the end of udpstar: [most] and [ar] are complete, and [hd] is the header. *)
Definition star_finish (J : Z -> Z) (F : list (list rrdesc)) (hd : q_header) (most ar : js) : res reply :=
  let length_save := j_count most in
  ' (_, most) <- make_hdr hd most ;;
  ' (r, most) <- js_append ar (set_count most length_save) ;;
  if r =? JS_ERROR then Ok ServFail
  else
    match compress_data J F most ar with
    | Bad f => Bad f
    | Fail => Ok ServFail
    | Ok ar =>
        if 512 <? j_count ar then
          ' (_, ar) <- make_hdr (mkqh (q_id hd) (q_qr hd) (q_opcode hd) (q_aa hd) 1 (q_rd hd) (q_ra hd) (q_z hd) (q_rcode hd) (q_qd hd) (q_an hd) (q_ns hd) (q_ar hd)) ar ;;
          Ok (Sent ar)
        else Ok (Sent ar)
    end.
(** MaraDNS.c 1119-1176, the end of udpany: [ns] and [ar] are appended; of a reply that is too long
    the header and the question [query] are left. *)
Definition any_finish (J : Z -> Z) (F : list (list rrdesc)) (long : bool) (hd : q_header) (query most ns ar : js) : res reply :=
  let length_save := j_count most in
  ' (_, most) <- make_hdr hd most ;;
  ' (r, most) <- js_append ns (set_count most length_save) ;;
  if r =? JS_ERROR then Ok ServFail
  else
    ' (r, most) <- js_append ar most ;;
    if r =? JS_ERROR then Ok ServFail
    else
      match compress_data J F most ar with
      | Bad f => Bad f
      | Fail => Ok ServFail
      | Ok ar =>
          if (512 <? j_count ar) && negb (long && (j_count ar <? 4096)) then
            ' (_, ar) <- make_hdr (mkqh (q_id hd) (q_qr hd) (q_opcode hd) (q_aa hd) 1 (q_rd hd) (q_ra hd) (q_z hd) (q_rcode hd) (q_qd hd) 0 (q_ns hd) (q_ar hd)) ar ;;
            ' (_, ar) <- js_append query ar ;;
            ' (_, ar) <- js_adduint16 ar 1 ;;
            Ok (Sent ar)
          else Ok (Sent ar)
      end.
