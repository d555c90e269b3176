(** Model of deadwood-github/src/DwRecurse.c 174-1735: what Deadwood takes over from an
    upstream reply.  [inp] is the decompressed reply, [query] the name and type asked for,
    [bailiwick] the zone the server answers for.

    Allocation failure is not modelled.  Offsets and counts are 16-bit numbers plus small
    constants, so plain integers stand for the int32_t arithmetic. *)
From Verif Require Import CBase ModelDwStr ModelDwCompress ModelDwDnsStr.

(** ** Comparing names *)

(** DwRecurse.c 192-207, the inner loop of dwx_dname_issame; [n]: how often it still runs.
    [inl code]: return; [inr]: the two places and the counter. *)
Fixpoint issame_inner (n : nat) (m1 m2 : list Z) (p1 p2 pmax1 pmax2 counter : Z) : res (Z + Z * Z * Z) :=
  match n with
  | O => Ok (inr (p1, p2, counter))
  | S n =>
      if counter <? 260 then
        let p1 := p1 + 1 in let p2 := p2 + 1 in let counter := counter + 1 in
        if (pmax1 <? p1) || (pmax2 <? p2) then Ok (inl (-1))
        else
          a <- rd m1 p1 ;; b <- rd m2 p2 ;;
          if negb (c_lower a =? c_lower b) then Ok (inl 0) else issame_inner n m1 m2 p1 p2 pmax1 pmax2 counter
      else Ok (inr (p1, p2, counter))
  end.
(** DwRecurse.c 179-208, the outer loop: 1 same, 0 not, -1 error.  [counter] grows by one
    at least, so 260 rounds are enough. *)
Fixpoint issame_outer (n : nat) (m1 m2 : list Z) (p1 p2 pmax1 pmax2 counter : Z) : res Z :=
  match n with
  | O => Ok (-1)
  | S n =>
      if counter <? 260 then
        a <- rd m1 p1 ;; b <- rd m2 p2 ;;
        if negb (a =? b) then Ok 0
        else if 63 <? a then Ok (-1)
        else if a =? 0 then Ok 1
        else
          r <- issame_inner (Z.to_nat (a + 1)) m1 m2 p1 p2 pmax1 pmax2 counter ;;
          match r with
          | inl code => Ok code
          | inr (p1, p2, counter) => issame_outer n m1 m2 p1 p2 pmax1 pmax2 (counter + 1)
          end
      else Ok (-1)
  end.
Definition dwx_dname_issame (m1 m2 : list Z) (p1 p2 pmax1 pmax2 : Z) : res Z := issame_outer 260 m1 m2 p1 p2 pmax1 pmax2 0.

(** DwRecurse.c 232-249, dwx_dname_issame_2dw.  The offsets are uint32_t. *)
Definition dwx_dname_issame_2dw (in1 : dwstr) (offset1 : Z) (in2 : dwstr) (offset2 : Z) : res Z :=
  if negb (dw_sane in1) || negb (dw_sane in2) || (d_len in1 <? u32 offset1) || (d_len in2 <? u32 offset2) then Ok (-1)
  else dwx_dname_issame (d_mem in1) (d_mem in2) (u32 offset1) (u32 offset2) (d_len in1) (d_len in2).
(** DwRecurse.c 214-228, dwx_dname_issame_dw. *)
Definition dwx_dname_issame_dw (inp : dwstr) (offset1 offset2 : Z) : res Z := dwx_dname_issame_2dw inp offset1 inp offset2.

(** ** The reply and what each record is good for *)

(** DwRecurse.c 276-291, dwx_rrtype_number. *)
Definition dwx_rrtype_number (rr : Z) : Z := if rr <? 1 then -1 else if 30 <=? rr then 31 else rr.

(** DwRecurse.h, dns_details.  Each array has one element per record.  In C there is one
    more; only the first element is read when there is no record, and it is 0
    (dwx_init_dns_details, 294-318). *)
Record details := mkdet { v_look : dnsstr; v_an : list Z; v_ns : list Z; v_ar : list Z }.
Definition set_an (v : details) (l : list Z) : details := mkdet (v_look v) l (v_ns v) (v_ar v).
Definition set_ns (v : details) (l : list Z) : details := mkdet (v_look v) (v_an v) l (v_ar v).
Definition set_ar (v : details) (l : list Z) : details := mkdet (v_look v) (v_an v) (v_ns v) l.

(** DwRecurse.c 366-377, the loops of dwx_create_dns_details: [n] records left of the
    section [offs]; [i] is the record. *)
Fixpoint types_loop (n : nat) (inp : dwstr) (offs : list Z) (i : Z) (types : list Z) : res (list Z) :=
  match n with
  | O => Ok types
  | S n =>
      o <- rd offs (i * 2 + 1) ;;
      t <- dw_fetch_u16 inp o ;;
      types <- wr types i (dwx_rrtype_number t) ;;
      types_loop n inp offs (i + 1) types
  end.
Definition init_types (count : Z) : list Z := zeros (if count =? 0 then 1 else count).
(** DwRecurse.c 351-389, dwx_create_dns_details. *)
Definition dwx_create_dns_details (J : Z -> Z) (inp : dwstr) : res details :=
  look <- dwc_make_dns_str J inp ;;
  an <- types_loop (Z.to_nat (n_ancount look)) inp (n_an look) 0 (init_types (n_ancount look)) ;;
  ns <- types_loop (Z.to_nat (n_nscount look)) inp (n_ns look) 0 (init_types (n_nscount look)) ;;
  ar <- types_loop (Z.to_nat (n_arcount look)) inp (n_ar look) 0 (init_types (n_arcount look)) ;;
  Ok (mkdet look an ns ar).

(** ** Bailiwick *)

(** DwRecurse.c 695-738, dwx_string_bailiwick_query. *)
Fixpoint bailiwick_query_loop (n : nat) (inp : dwstr) (offset : Z) (query : dwstr) (q_offset : Z) : res bool :=
  match n with
  | O => Ok false
  | S n =>
      len <- rd (d_mem query) q_offset ;;
      if len =? 0 then Ok false
      else if 63 <? len then Ok false
      else
        let q_offset := q_offset + len + 1 in
        if d_len query <=? q_offset then Ok false
        else
          same <- dwx_dname_issame_2dw inp offset query q_offset ;;
          if same =? 1 then Ok true else bailiwick_query_loop n inp offset query q_offset
  end.
Definition dwx_string_bailiwick_query (inp : dwstr) (offset : Z) (query : dwstr) : res bool :=
  if d_len query <=? 2 then Ok false
  else
    same <- dwx_dname_issame_2dw inp offset query 0 ;;
    if same =? 1 then Ok true else bailiwick_query_loop (Z.to_nat 1024) inp offset query 0.

(** DwRecurse.c 745-780, dwx_string_bailiwick_top. *)
Fixpoint bailiwick_top_loop (n : nat) (inp : dwstr) (offset : Z) (bailiwick : dwstr) : res bool :=
  match n with
  | O => Ok false
  | S n =>
      len <- rd (d_mem inp) offset ;;
      if len =? 0 then Ok false
      else if 63 <? len then Ok false
      else
        let offset := offset + len + 1 in
        if d_len inp <=? offset then Ok false
        else
          same <- dwx_dname_issame_2dw inp offset bailiwick 0 ;;
          if same =? 1 then Ok true else bailiwick_top_loop n inp offset bailiwick
  end.
Definition dwx_string_bailiwick_top (inp : dwstr) (offset : Z) (bailiwick : dwstr) : res bool :=
  if (offset <? 0) || (d_len inp <=? offset) then Ok false
  else bailiwick_top_loop (Z.to_nat 1024) inp offset bailiwick.

(** DwRecurse.c 782-794, dwx_string_in_bailiwick. *)
Definition dwx_string_in_bailiwick (inp : dwstr) (offset : Z) (bailiwick : dwstr) (query : option dwstr) : res bool :=
  good <- match query with None => Ok true | Some query => dwx_string_bailiwick_query inp offset query end ;;
  if (good : bool) then dwx_string_bailiwick_top inp offset bailiwick else Ok false.

(** ** Which records of the answer section are used *)

(** DwRecurse.c 404-450, dwx_check_answer_section_any (the loop). *)
Fixpoint check_any_loop (n : nat) (inp query : dwstr) (an : list Z) (i : Z) (types : list Z) (cname_chain : Z) (use_cname : bool) : res (list Z) :=
  match n with
  | O => Ok types
  | S n =>
      o <- rd an (i * 2) ;;
      o1 <- rd an (i * 2 + 1) ;;
      same_q <- dwx_dname_issame_2dw query 0 inp o ;;
      type <- dw_fetch_u16 inp o1 ;;
      if (same_q =? 1) && negb (type =? 5) then check_any_loop n inp query an (i + 1) types cname_chain false
      else if (cname_chain =? 0) && (i =? cname_chain) && use_cname && (same_q =? 1) && (type =? 5) then
        check_any_loop n inp query an (i + 1) types (cname_chain + 1) use_cname
      else
        same_c <- (if 0 <? cname_chain then
                     t <- rd an ((cname_chain - 1) * 2 + 1) ;; dwx_dname_issame_dw inp (t + 10) o
                   else Ok 0) ;;
        if (0 <? cname_chain) && (i =? cname_chain) && use_cname && (same_c =? 1) && (type =? 5) then
          check_any_loop n inp query an (i + 1) types (cname_chain + 1) use_cname
        else if (0 <? cname_chain) && (same_c =? 1) && negb (type =? 5) then
          check_any_loop n inp query an (i + 1) types cname_chain false
        else types <- wr types i 36 ;; check_any_loop n inp query an (i + 1) types cname_chain use_cname
  end.

(** DwRecurse.c 484-545, the loop of dwx_check_answer_section.  [offset] counts the
    accepted records.  The comparisons are made where C makes them or earlier (they have no
    effect). *)
Fixpoint check_loop (n : nat) (inp query bailiwick : dwstr) (an : list Z) (qtype i : Z) (types : list Z) (cname_chain : Z) (use_cname : bool) (offset : Z) : res (list Z) :=
  match n with
  | O => Ok types
  | S n =>
      o <- rd an (i * 2) ;;
      o1 <- rd an (i * 2 + 1) ;;
      same_q <- dwx_dname_issame_2dw query 0 inp o ;;
      type <- dw_fetch_u16 inp o1 ;;
      if (same_q =? 1) && (0 <=? offset) && (type =? qtype) then
        check_loop n inp query bailiwick an qtype (i + 1) types cname_chain false (offset + 1)
      else if (cname_chain =? 0) && negb (qtype =? 5) && (offset =? cname_chain) && use_cname && (same_q =? 1) && (type =? 5) then
        t <- rd an 1 ;;
        good <- dwx_string_in_bailiwick inp (t + 10) bailiwick None ;;
        if negb good then check_loop n inp query bailiwick an qtype (i + 1) types (-1) false (-2)
        else check_loop n inp query bailiwick an qtype (i + 1) types (cname_chain + 1) use_cname (offset + 1)
      else
        same_c <- (if 0 <? cname_chain then
                     t <- rd an ((cname_chain - 1) * 2 + 1) ;; dwx_dname_issame_dw inp (t + 10) o
                   else Ok 0) ;;
        if (0 <? cname_chain) && negb (qtype =? 5) && (offset =? cname_chain) && use_cname && (same_c =? 1) && (type =? 5) then
          t <- rd an (cname_chain * 2 + 1) ;;
          good <- dwx_string_in_bailiwick inp (t + 10) bailiwick None ;;
          if negb good then check_loop n inp query bailiwick an qtype (i + 1) types (-1) false (-2)
          else check_loop n inp query bailiwick an qtype (i + 1) types (cname_chain + 1) use_cname (offset + 1)
        else if (0 <? cname_chain) && negb (qtype =? 5) && (same_c =? 1) && (type =? qtype) then
          check_loop n inp query bailiwick an qtype (i + 1) types cname_chain false (offset + 1)
        else types <- wr types i 36 ;; check_loop n inp query bailiwick an qtype (i + 1) types cname_chain use_cname offset
  end.
(** DwRecurse.c 468-548, dwx_check_answer_section (with 404-419); [Fail] is -1. *)
Definition dwx_check_answer_section (inp query : dwstr) (v : details) (bailiwick : dwstr) : res details :=
  let look := v_look v in
  qtype <- dw_fetch_u16 query (-1) ;;
  if qtype =? -1 then Fail
  else if qtype =? 255 then
    an <- check_any_loop (Z.to_nat (n_ancount look)) inp query (n_an look) 0 (v_an v) 0 true ;; Ok (set_an v an)
  else
    an <- check_loop (Z.to_nat (n_ancount look)) inp query bailiwick (n_an look) qtype 0 (v_an v) 0 true 0 ;; Ok (set_an v an).

(** A pass over the [n] records of a section: every type becomes [f] of it. *)
Fixpoint retype (n : nat) (f : Z -> Z) (i : Z) (types : list Z) : res (list Z) :=
  match n with
  | O => Ok types
  | S n => t <- rd types i ;; types <- wr types i (f t) ;; retype n f (i + 1) types
  end.
(** DwRecurse.c 556-576, dwx_if_an_then_no_ns_nor_ar. *)
Definition dwx_if_an_then_no_ns_nor_ar (v : details) : res details :=
  let look := v_look v in
  if n_ancount look =? 0 then Ok v
  else
    ns <- retype (Z.to_nat (n_nscount look)) (fun _ => 36) 0 (v_ns v) ;;
    ar <- retype (Z.to_nat (n_arcount look)) (fun _ => 36) 0 (v_ar v) ;;
    Ok (mkdet look (v_an v) ns ar).
(** DwRecurse.c 582-604, dwx_cleanup_ns_ar. *)
Definition dwx_cleanup_ns_ar (v : details) : res details :=
  let look := v_look v in
  ns <- retype (Z.to_nat (n_nscount look)) (fun t => if negb (t =? 2) && negb (t =? 6) then 36 else t) 0 (v_ns v) ;;
  ar <- retype (Z.to_nat (n_arcount look)) (fun t => if negb (t =? 1) && negb (t =? 28) then 36 else t) 0 (v_ar v) ;;
  Ok (mkdet look (v_an v) ns ar).

(** ** Referrals *)

(** DwRecurse.c 803-837, dwx_check_bailiwick_ns_section; [Fail] is -1. *)
Fixpoint check_ns_loop (n : nat) (inp : dwstr) (ns : list Z) (i : Z) (bailiwick query : dwstr) (types : list Z) : res (list Z) :=
  match n with
  | O => Ok types
  | S n =>
      o <- rd ns (i * 2) ;;
      good <- dwx_string_in_bailiwick inp o bailiwick (Some query) ;;
      types <- (if (good : bool) then Ok types else wr types i 37) ;;
      check_ns_loop n inp ns (i + 1) bailiwick query types
  end.
Definition glue_max (count : Z) : Z := if 15 <? count then 15 else count.
Definition dwx_check_bailiwick_ns_section (v : details) (query bailiwick : dwstr) : res details :=
  let look := v_look v in
  if n_nscount look <=? 0 then Ok v
  else
    match n_packet look with
    | None => Fail
    | Some inp =>
        ns <- check_ns_loop (Z.to_nat (glue_max (n_nscount look))) inp (n_ns look) 0 bailiwick query (v_ns v) ;;
        Ok (set_ns v ns)
    end.

(** DwRecurse.c 841-867, dwx_make_link; [ns], [ar]: the record numbers. *)
Definition is_a_glue (t : Z) : bool := (80 <=? t) && (t <=? 95).
Definition is_aaaa_glue (t : Z) : bool := (64 <=? t) && (t <=? 79).
Definition dwx_make_link (v : details) (ns ar : Z) : res details :=
  if 15 <? ns then Ok v
  else
    t <- rd (v_ar v) ar ;;
    v <- (if (t =? 1) || is_a_glue t then
            x <- rd (v_ns v) ns ;; l <- wr (v_ns v) ns (Z.lor x 33) ;; Ok (set_ns v l)
          else if (t =? 28) || is_aaaa_glue t then
            x <- rd (v_ns v) ns ;; l <- wr (v_ns v) ns (Z.lor x 34) ;; Ok (set_ns v l)
          else Ok v) ;;
    if t =? 1 then l <- wr (v_ar v) ar (80 + ns) ;; Ok (set_ar v l)
    else if t =? 28 then l <- wr (v_ar v) ar (64 + ns) ;; Ok (set_ar v l)
    else Ok v.
(** DwRecurse.c 873-904, dwx_link_ns_records. *)
Fixpoint link_ar_loop (n : nat) (packet : option dwstr) (v : details) (ns ar : Z) : res details :=
  match n with
  | O => Ok v
  | S n =>
      o <- rd (n_ns (v_look v)) (ns * 2 + 1) ;;
      a <- rd (n_ar (v_look v)) (ar * 2) ;;
      same <- match packet with None => Ok (-1) | Some inp => dwx_dname_issame_dw inp (o + 10) a end ;;
      v <- (if same =? 1 then dwx_make_link v ns ar else Ok v) ;;
      link_ar_loop n packet v ns (ar + 1)
  end.
Fixpoint link_ns_loop (n : nat) (packet : option dwstr) (v : details) (ns : Z) : res details :=
  match n with
  | O => Ok v
  | S n =>
      t <- rd (v_ns v) ns ;;
      v <- (if t =? 2 then
              l <- wr (v_ns v) ns 32 ;;
              link_ar_loop (Z.to_nat (n_arcount (v_look v))) packet (set_ns v l) ns 0
            else Ok v) ;;
      link_ns_loop n packet v (ns + 1)
  end.
Definition dwx_link_ns_records (v : details) : res details :=
  link_ns_loop (Z.to_nat (glue_max (n_nscount (v_look v)))) (n_packet (v_look v)) v 0.

(** DwRecurse.c 911-946, dwx_get_1_dns_rr. *)
Definition dwx_get_1_dns_rr (J : Z -> Z) (inp : dwstr) (offset : Z) : res (option dwstr) :=
  if (offset <? 0) || (d_len inp <? offset) then Ok None
  else
    fin <- dw_get_dn_end inp offset ;;
    if (fin =? -1) || (fin <? offset) then Ok None
    else
      class <- dw_fetch_u16 inp (fin + 2) ;;
      if negb (class =? 1) then Ok None
      else
        rdlength <- dw_fetch_u16 inp (fin + 8) ;;
        if rdlength <? 0 then Ok None
        else
          let fin := fin + (10 + rdlength) in
          if fin <=? offset then Ok None else dw_substr J (Some inp) offset (fin - offset) 1.

(** DwRecurse.c 955-968, dwx_get_dns_string. *)
Definition dwx_get_dns_string (J : Z -> Z) (inp : dwstr) (offset : Z) : res (option dwstr) :=
  if (offset <? 0) || (d_len inp <? offset) then Ok None
  else
    fin <- dw_get_dn_end inp offset ;;
    if fin <? offset then Ok None else dw_substr J (Some inp) offset (fin - offset) 1.

(** DwRecurse.c 1001-1024, the loop of dwx_make_cname_refer; [Fail] is NULL. *)
Fixpoint cname_refer_loop (n : nat) (J : Z -> Z) (packet : dwstr) (an types : list Z) (i : Z) (out : dwstr) (final_offset : Z) : res (dwstr * Z) :=
  match n with
  | O => Ok (out, final_offset)
  | S n =>
      t <- rd types i ;;
      if t =? 36 then cname_refer_loop n J packet an types (i + 1) out final_offset
      else if negb (t =? 5) then Fail
      else
        o <- rd an (i * 2 + 1) ;;
        tmp <- dwx_get_dns_string J packet (o + 10) ;;
        match tmp with
        | None => Fail
        | Some tmp =>
            if 256 <? d_len tmp then Fail
            else
              let final_offset := d_len out in
              '(code, out) <- dw_push_u16 (d_len tmp) out ;;
              if code =? -1 then Fail
              else
                '(code, out) <- dw_append (Some tmp) out ;;
                if code =? -1 then Fail else cname_refer_loop n J packet an types (i + 1) out final_offset
        end
  end.
(** DwRecurse.c 987-1037, dwx_make_cname_refer; [Jo]: what malloc leaves in the output. *)
Definition dwx_make_cname_refer (Jo J : Z -> Z) (v : details) : res dwstr :=
  let look := v_look v in
  match dw_create Jo (257 * n_ancount look), n_packet look with
  | Some out, Some packet =>
      '(out, final_offset) <- cname_refer_loop (Z.to_nat (n_ancount look)) J packet (n_an look) (v_an v) 0 out 0 ;;
      '(code, out) <- dw_push_u16 final_offset out ;;
      if code =? -1 then Fail
      else '(code, out) <- dw_addchar 17 out ;; if code =? -1 then Fail else Ok out
  | _, _ => Fail
  end.

(** DwRecurse.c 1040-1075, dwx_make_nsglue. *)
Definition dwx_make_nsglue (Jo J : Z -> Z) (inp : dwstr) (toffset type : Z) : res (option dwstr) :=
  match (if is_a_glue type then Some (1, 4) else if is_aaaa_glue type then Some (28, 16) else None) with
  | None => Ok None
  | Some (otype, len) =>
      match dw_create Jo (len + 2) with
      | None => Ok None
      | Some out =>
          '(code, out) <- dw_addchar otype out ;;
          if code =? -1 then Ok None
          else
            '(code, out) <- dw_substr_append J inp toffset len out ;;
            if code =? -1 then Ok None else Ok (Some out)
      end
  end.

(** DwRecurse.c 1078-1114, dwx_make_nsglueless. *)
Definition dwx_make_nsglueless (Jo J : Z -> Z) (inp : dwstr) (offset : Z) : res (option dwstr) :=
  rdlength <- dw_fetch_u16 inp offset ;;
  tmp <- dwx_get_dns_string J inp (offset + 2) ;;
  match tmp with
  | None => Ok None
  | Some tmp =>
      if negb (d_len tmp =? rdlength) then Ok None
      else
        match dw_create Jo (rdlength + 5) with
        | None => Ok None
        | Some out =>
            '(code, out) <- dw_addchar 2 out ;;
            if code =? -1 then Ok None
            else
              '(code, out) <- dw_push_u16 rdlength out ;;
              if code =? -1 then Ok None
              else
                '(code, out) <- dw_append (Some tmp) out ;;
                if code =? -1 then Ok None else Ok (Some out)
        end
  end.

(** DwRecurse.c 1117-1146, dwx_make_ns_refer_glued; [Fail] is -1.  [offset]: the array of
    33 uint16_t of the caller. *)
Fixpoint refer_glued_loop (n : nat) (Jo J : Z -> Z) (packet : dwstr) (ar types : list Z) (i : Z) (out : dwstr) (offset : list Z) (onumber : Z) : res (dwstr * list Z * Z) :=
  match n with
  | O => Ok (out, offset, onumber)
  | S n =>
      toffset <- rd ar (i * 2 + 1) ;;
      t <- rd types i ;;
      if is_a_glue t || is_aaaa_glue t then
        offset <- wr offset onumber (u16 (d_len out)) ;;
        let onumber := onumber + 1 in
        tmp <- dwx_make_nsglue Jo J packet (toffset + 10) t ;;
        '(code, out) <- dw_append tmp out ;;
        if (code =? -1) || (31 <? onumber) then Fail
        else refer_glued_loop n Jo J packet ar types (i + 1) out offset onumber
      else refer_glued_loop n Jo J packet ar types (i + 1) out offset onumber
  end.
(** DwRecurse.c 1211-1227, the glueless servers. *)
Fixpoint refer_glueless_loop (n : nat) (Jo J : Z -> Z) (packet : dwstr) (ns types : list Z) (i : Z) (out : dwstr) (offset : list Z) (onumber : Z) : res (dwstr * list Z * Z) :=
  match n with
  | O => Ok (out, offset, onumber)
  | S n =>
      t <- rd types i ;;
      if t =? 32 then
        offset <- wr offset onumber (u16 (d_len out)) ;;
        let onumber := onumber + 1 in
        toffset <- rd ns (i * 2 + 1) ;;
        tmp <- dwx_make_nsglueless Jo J packet (toffset + 8) ;;
        '(code, out) <- dw_append tmp out ;;
        if (code =? -1) || (31 <? onumber) then Fail
        else refer_glueless_loop n Jo J packet ns types (i + 1) out offset onumber
      else refer_glueless_loop n Jo J packet ns types (i + 1) out offset onumber
  end.
(** DwRecurse.c 1229-1233: the list of offsets (also 1363-1368). *)
Fixpoint push_offsets (n : nat) (offset : list Z) (i : Z) (out : dwstr) : res dwstr :=
  match n with
  | O => Ok out
  | S n =>
      v <- rd offset i ;;
      '(code, out) <- dw_push_u16 v out ;;
      if code =? -1 then Fail else push_offsets n offset (i + 1) out
  end.

(** DwRecurse.c 1162-1182, dwx_find_ns_referral: the longest name. *)
Fixpoint longest_loop (n : nat) (packet : dwstr) (ns types : list Z) (i max max_num : Z) : res (Z * Z) :=
  match n with
  | O => Ok (max, max_num)
  | S n =>
      t <- rd types i ;;
      if negb (t =? 36) && negb (t =? 37) then
        o <- rd ns (i * 2) ;;
        fin <- dw_get_dn_end packet o ;;
        if max <? fin - o then longest_loop n packet ns types (i + 1) (fin - o) i
        else longest_loop n packet ns types (i + 1) max max_num
      else longest_loop n packet ns types (i + 1) max max_num
  end.
Definition dwx_find_ns_referral (J : Z -> Z) (packet : dwstr) (v : details) (out_len : Z) : res (option dwstr) :=
  let look := v_look v in
  '(max, max_num) <- longest_loop (Z.to_nat (n_nscount look)) packet (n_ns look) (v_ns v) 0 0 0 ;;
  o <- rd (n_ns look) (max_num * 2) ;;
  dw_substr J (Some packet) o max (out_len + 3).

(** DwRecurse.c 1185-1252, dwx_make_ns_refer_proc; [Fail] is NULL. *)
Definition dwx_make_ns_refer_proc (Jz Jo J : Z -> Z) (packet : dwstr) (v : details) (out_len : Z) : res dwstr :=
  let look := v_look v in
  out <- dwx_find_ns_referral Jz packet v out_len ;;
  match out with
  | None => Fail
  | Some out =>
      '(out, offset, onumber) <- refer_glued_loop (Z.to_nat (n_arcount look)) Jo J packet (n_ar look) (v_ar v) 0 out (zeros 33) 0 ;;
      '(out, offset, onumber) <- refer_glueless_loop (Z.to_nat (n_nscount look)) Jo J packet (n_ns look) (v_ns v) 0 out offset onumber ;;
      out <- push_offsets (Z.to_nat onumber) offset 0 out ;;
      '(code, out) <- dw_addchar onumber out ;;
      if code =? -1 then Fail
      else '(code, out) <- dw_addchar 16 out ;; if code =? -1 then Fail else Ok out
  end.

(** DwRecurse.c 1275-1306, dwx_make_ns_refer: the length needed. *)
Fixpoint glued_len (n : nat) (types : list Z) (i len : Z) : res Z :=
  match n with
  | O => Ok len
  | S n => t <- rd types i ;; glued_len n types (i + 1) (if is_a_glue t then len + 8 else if is_aaaa_glue t then len + 20 else len)
  end.
Fixpoint glueless_len (n : nat) (packet : dwstr) (ns types : list Z) (i len : Z) : res Z :=
  match n with
  | O => Ok len
  | S n =>
      t <- rd types i ;;
      if t =? 32 then
        o <- rd ns (i * 2 + 1) ;;
        rdlength <- dw_fetch_u16 packet (o + 8) ;;
        if rdlength <=? 0 then Fail else glueless_len n packet ns types (i + 1) (len + (rdlength + 6))
      else glueless_len n packet ns types (i + 1) len
  end.
(** DwRecurse.c 1254-1308, dwx_make_ns_refer; [Fail] is NULL. *)
Definition dwx_make_ns_refer (Jz Jo J : Z -> Z) (v : details) : res dwstr :=
  let look := v_look v in
  match n_packet look with
  | None => Fail
  | Some packet =>
      len <- glued_len (Z.to_nat (n_arcount look)) (v_ar v) 0 0 ;;
      len <- glueless_len (Z.to_nat (n_nscount look)) packet (n_ns look) (v_ns v) 0 len ;;
      dwx_make_ns_refer_proc Jz Jo J packet v len
  end.

(** ** Complete answers *)

(** DwRecurse.c 1316-1353, dwx_copy_over_section; [Fail] is -1.  [offsets] is the caller's
    array of [max_offset] uint16_t. *)
Fixpoint copy_section (n : nat) (J : Z -> Z) (out packet : dwstr) (types section : list Z) (i : Z) (offsets : list Z) (out_count this_offset max_offset : Z) : res (dwstr * list Z * Z * Z) :=
  match n with
  | O => Ok (out, offsets, out_count, this_offset)
  | S n =>
      t <- rd types i ;;
      if (t =? 36) || (t =? 37) then copy_section n J out packet types section (i + 1) offsets out_count this_offset max_offset
      else
        o <- rd section (i * 2) ;;
        tmp <- dwx_get_1_dns_rr J packet o ;;
        match tmp with
        | None => Fail
        | Some tmp =>
            if max_offset <? this_offset + 1 then Fail
            else
              o1 <- rd section (i * 2 + 1) ;;
              offsets <- wr offsets this_offset (u16 (d_len out)) ;;
              offsets <- wr offsets (this_offset + 1) (u16 (d_len out + (o1 - o))) ;;
              '(code, out) <- dw_append (Some tmp) out ;;
              if code =? -1 then Fail
              else copy_section n J out packet types section (i + 1) offsets (out_count + 1) (this_offset + 2) max_offset
        end
  end.

(** DwRecurse.c 1358-1380, dwx_remake_footer; [Fail] is -1.  The counts are uint16_t. *)
Definition dwx_remake_footer (out : dwstr) (offsets : list Z) (an ns ar type : Z) : res dwstr :=
  out <- push_offsets (Z.to_nat ((an + ns + ar) * 2)) offsets 0 out ;;
  '(c1, out) <- dw_push_u16 an out ;; if c1 =? -1 then Fail else
  '(c2, out) <- dw_push_u16 ns out ;; if c2 =? -1 then Fail else
  '(c3, out) <- dw_push_u16 ar out ;; if c3 =? -1 then Fail else
  '(c4, out) <- dw_addchar type out ;; if c4 =? -1 then Fail else Ok out.

(** DwRecurse.c 1406-1452, dwx_remake_complete_reply; [Fail] is NULL. *)
Definition dwx_remake_complete_reply (Jo J : Z -> Z) (v : details) (type : Z) : res dwstr :=
  let look := v_look v in
  match n_packet look with
  | None => Fail
  | Some packet =>
      let total := (n_ancount look + n_nscount look + n_arcount look) * 2 in
      match dw_create Jo (d_len packet + 1) with
      | None => Fail
      | Some out =>
          '(out, offsets, an, to) <- copy_section (Z.to_nat (n_ancount look)) J out packet (v_an v) (n_an look) 0 (zeros total) 0 0 total ;;
          '(out, offsets, ns, to) <- copy_section (Z.to_nat (n_nscount look)) J out packet (v_ns v) (n_ns look) 0 offsets 0 to total ;;
          '(out, offsets, ar, to) <- copy_section (Z.to_nat (n_arcount look)) J out packet (v_ar v) (n_ar look) 0 offsets 0 to total ;;
          dwx_remake_footer out offsets (u16 an) (u16 ns) (u16 ar) type
      end
  end.

(** DwRecurse.c 1481-1515, what the answer section says.  [None]: nothing found in it. *)
Fixpoint after_cname (n : nat) (types : list Z) (qtype counter : Z) : res Z :=
  match n with
  | O => Ok 17
  | S n =>
      t <- rd types counter ;;
      if (t =? dwx_rrtype_number qtype) || ((qtype =? 255) && negb (t =? 5)) then Ok 0
      else if negb (t =? 5) && negb (t =? 36) then Ok 19
      else after_cname n types qtype (counter + 1)
  end.
Fixpoint an_type_loop (n : nat) (types : list Z) (ancount qtype index : Z) : res (option Z) :=
  match n with
  | O => Ok None
  | S n =>
      t <- rd types index ;;
      if (t =? dwx_rrtype_number qtype) || ((qtype =? 255) && negb (t =? 5)) then Ok (Some 0)
      else if t =? 5 then
        let max := if ancount <? 32 then ancount else 32 in
        r <- after_cname (Z.to_nat (max - (index + 1))) types qtype (index + 1) ;; Ok (Some r)
      else if negb (t =? 36) then Ok (Some 19)
      else an_type_loop n types ancount qtype (index + 1)
  end.
(** DwRecurse.c 1523-1533: an answer in the additional section. *)
Fixpoint find_in_ar (n : nat) (query inp : dwstr) (ar : list Z) (qtype i : Z) : res (option Z) :=
  match n with
  | O => Ok None
  | S n =>
      o <- rd ar (i * 2) ;;
      o1 <- rd ar (i * 2 + 1) ;;
      same <- dwx_dname_issame_2dw query 0 inp o ;;
      type <- dw_fetch_u16 inp o1 ;;
      if (same =? 1) && (type =? qtype) then Ok (Some i) else find_in_ar n query inp ar qtype (i + 1)
  end.
(** DwRecurse.c 1458-1537, dwx_determine_answer_type; also returns the view. *)
Definition dwx_determine_answer_type (v : details) (query inp : dwstr) : res (Z * details) :=
  let look := v_look v in
  qtype <- dw_fetch_u16 query (-1) ;;
  if qtype =? -1 then Ok (20, v)
  else
    r <- (if 0 <? n_ancount look then
            an_type_loop (Z.to_nat (if 7 <? n_ancount look then 7 else n_ancount look)) (v_an v) (n_ancount look) qtype 0
          else Ok None) ;;
    match r with
    | Some t => Ok (t, v)
    | None =>
        t <- rd (v_ns v) 0 ;;
        if t =? 6 then Ok (2, v)
        else if t =? 2 then
          found <- find_in_ar (Z.to_nat (n_arcount look)) query inp (n_ar look) qtype 0 ;;
          match found with
          | Some i => l <- wr (v_ar v) i 38 ;; Ok (23, set_ar v l)
          | None => Ok (16, v)
          end
        else Ok (19, v)
    end.

(** DwRecurse.c 1545-1583, dwx_make_cache_string; [Fail] is NULL.  [Jz], [Jo], [J]: what
    malloc leaves in the various strings. *)
Definition dwx_make_cache_string (Jz Jo J : Z -> Z) (v : details) (type : Z) : res dwstr :=
  match n_packet (v_look v) with
  | None => Fail
  | Some packet =>
      if d_len packet =? 0 then Fail
      else
        in_type <- rd (d_mem packet) (d_len packet - 1) ;;
        let type := if (in_type =? 1) && (type =? 2) then 1 else type in
        if negb (in_type =? 0) && negb (in_type =? 1) then Fail
        else if type =? 17 then dwx_make_cname_refer Jo J v
        else if type =? 16 then dwx_make_ns_refer Jz Jo J v
        else if (type =? 0) || (type =? 1) || (type =? 2) then dwx_remake_complete_reply Jo J v type
        else Fail
  end.

(** DwRecurse.c 1620-1656, dwx_answer_in_ar; [Fail] is NULL.  The loop stops at the first
    record marked. *)
Fixpoint answer_in_ar_loop (n : nat) (J : Z -> Z) (inp : dwstr) (ar types : list Z) (i : Z) (tmp : option dwstr) (dname_len : Z) : res (option dwstr * Z) :=
  match n with
  | O => Ok (tmp, dname_len)
  | S n =>
      t <- rd types i ;;
      match tmp with
      | None =>
          if t =? 38 then
            o <- rd ar (i * 2) ;;
            tmp <- dwx_get_1_dns_rr J inp o ;;
            o1 <- rd ar (i * 2 + 1) ;;
            answer_in_ar_loop n J inp ar types (i + 1) tmp (o1 - o)
          else answer_in_ar_loop n J inp ar types (i + 1) tmp dname_len
      | Some _ => answer_in_ar_loop n J inp ar types (i + 1) tmp dname_len
      end
  end.
Definition dwx_answer_in_ar (Jo J : Z -> Z) (v : details) (inp : dwstr) : res dwstr :=
  let look := v_look v in
  '(tmp, dname_len) <- answer_in_ar_loop (Z.to_nat (n_arcount look)) J inp (n_ar look) (v_ar v) 0 None 0 ;;
  match tmp with
  | None => Fail
  | Some tmp =>
      match dw_create Jo (d_len tmp + 14) with
      | None => Fail
      | Some out =>
          '(c, out) <- dw_append (Some tmp) out ;; if c =? -1 then Fail else
          '(c, out) <- dw_push_u16 0 out ;; if c =? -1 then Fail else
          '(c, out) <- dw_push_u16 dname_len out ;; if c =? -1 then Fail else
          '(c, out) <- dw_push_u16 1 out ;; if c =? -1 then Fail else
          '(c, out) <- dw_push_u16 0 out ;; if c =? -1 then Fail else
          '(c, out) <- dw_push_u16 0 out ;; if c =? -1 then Fail else
          '(c, out) <- dw_addchar 0 out ;; if c =? -1 then Fail else Ok out
      end
  end.

(** DwRecurse.c 1665-1735, dwx_dissect_packet; [Fail] is NULL. *)
Definition dwx_dissect_packet (Jz Jo J : Z -> Z) (inp query bailiwick : dwstr) : res dwstr :=
  qtype <- dw_fetch_u16 query (-1) ;;
  if qtype =? -1 then Fail
  else
    v <- dwx_create_dns_details J inp ;;
    v <- dwx_check_answer_section inp query v bailiwick ;;
    v <- dwx_if_an_then_no_ns_nor_ar v ;;
    v <- dwx_cleanup_ns_ar v ;;
    '(type, v) <- dwx_determine_answer_type v query inp ;;
    if type =? 23 then dwx_answer_in_ar Jo J v inp
    else
      v <- (if type =? 16 then
              v <- dwx_check_bailiwick_ns_section v query bailiwick ;; dwx_link_ns_records v
            else Ok v) ;;
      dwx_make_cache_string Jz Jo J v type.
