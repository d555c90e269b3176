(** Model of MaraDNS' compressor, dns/Compress.c, as built by dns/Makefile (AUTHONLY).

    JS_ERROR is [Fail]: every caller passes it on at once (valid_state then is 0, and the state is
    thrown away), but for compress_compare_dlabels, whose result is kept.  The fields
    this_dlabel_begin, this_rdlength_begin, this_rr_type, current_rdlength and number_answers of
    the state, each of which is set just before it is used, are passed as arguments; [uncompressed]
    does not change.  Offsets are bounded by unit_count, which [j_wf] bounds below 2^31, so that
    the unsigned and signed sums below do not wrap.  [J] is what malloc finds in the memory it
    hands out, [formats] what decomp_init made. *)
From Verif Require Import CBase ModelDwStr ModelJsStr ModelQueries ModelDecomp.

(** Compress.c 24-33 *)
Definition MAX_DLABEL_POINTS : Z := 160.
Definition MAX_COMPRESSED_LEN : Z := 4096.

(** Compress.c 44-55, compress_state. *)
Record cstate := mkc { k_comp : js; k_off : Z; k_points : list Z }.

(** Compress.c 64-100, compress_init_state: dlabel_points has 163 entries, the first of which is set. *)
Definition compress_init_state (J : Z -> Z) (uncompressed : js) : res cstate :=
  if negb (js_sane uncompressed) then Fail
  else
    compressed <- create J (MAX_COMPRESSED_LEN + 4) 1 ;;
    points <- wr (mkjunk J (MAX_DLABEL_POINTS + 3)) 0 0 ;;
    Ok (mkc compressed 0 points).

(** Compress.c 143-151, the loop of compress_issame. *)
Definition fold_case1 (b : Z) : Z := if (65 <=? b) && (b <=? 90) then b + 32 else b.
Fixpoint issame_loop (n : nat) (a b : list Z) (counter : Z) : res Z :=
  match n with
  | O => Ok 1
  | S n =>
      lc1 <- rd a counter ;; lc2 <- rd b counter ;;
      if negb (fold_case1 lc1 =? fold_case1 lc2) then Ok 0 else issame_loop n a b (counter + 1)
  end.
(** Compress.c 118-155, compress_issame. *)
Definition compress_issame (a b : js) : res Z :=
  if negb (js_sane a) || negb (js_sane b) then Ok JS_ERROR
  else if negb (j_size a =? j_size b) then Ok 0
  else if negb (j_count a =? j_count b) then Ok 0
  else issame_loop (Z.to_nat (j_count a * j_size a)) (j_mem a) (j_mem b) 0.

(** Compress.c 165-183, compress_compare_dlabels. *)
Definition compress_compare_dlabels (J : Z -> Z) (packet1 packet2 : js) (offset1 offset2 : Z) : res Z :=
  match decomp_get_label J packet1 offset1 with
  | Bad f => Bad f
  | Fail => Ok JS_ERROR
  | Ok a =>
      match decomp_get_label J packet2 offset2 with
      | Bad f => Bad f
      | Fail => Ok JS_ERROR
      | Ok b => compress_issame a b
      end
  end.

(** Compress.c 210-214: the first entry of dlabel_points that is 0. *)
Fixpoint first_free (n : nat) (points : list Z) (counter : Z) : res Z :=
  match n with
  | O => Bad NoFuel
  | S n =>
      p <- rd points counter ;;
      if negb (p =? 0) && (counter <? MAX_DLABEL_POINTS - 10) then first_free n points (counter + 1) else Ok counter
  end.
(** Compress.c 217-260, the loop of compress_add_dlabel_points; [n] is 257 - limit. *)
Fixpoint points_loop (n : nat) (compressed : js) (points : list Z) (counter offset : Z) : res (list Z) :=
  match n with
  | O => Fail
  | S n =>
      if j_count compressed <=? offset then Fail
      else
        len <- rd (j_mem compressed) offset ;;
        if 192 <=? len then Ok points
        else if j_count compressed <=? offset + len then Fail
        else if MAX_DLABEL_POINTS - 10 <=? counter then Fail
        else
          points <- wr points counter offset ;;
          points <- wr points (counter + 1) 0 ;;
          if (len =? 0) || (63 <? len) then Ok points
          else points_loop n compressed points (counter + 1) (offset + len + 1)
  end.
(** Compress.c 200-263, compress_add_dlabel_points. *)
Definition compress_add_dlabel_points (state : cstate) (offset : Z) : res cstate :=
  counter <- first_free 151 (k_points state) 0 ;;
  points <- points_loop 257 (k_comp state) (k_points state) counter offset ;;
  Ok (mkc (k_comp state) (k_off state) points).

(** Compress.c 329-379, the loop of compress_sub_dlabel up to the pointer: the entry of
    dlabel_points at which the same name stands. *)
Fixpoint find_point (n : nat) (J : Z -> Z) (uncompressed : js) (state : cstate) (begin counter : Z) : res (option Z) :=
  match n with
  | O => Fail
  | S n =>
      p <- rd (k_points state) counter ;;
      if p =? 0 then Ok None
      else if begin <=? p then Ok None
      else
        same <- compress_compare_dlabels J uncompressed (k_comp state) (k_off state) p ;;
        if same =? 1 then Ok (Some p) else find_point n J uncompressed state begin (counter + 1)
  end.
(** Compress.c 279-398, compress_sub_dlabel: the result and the new state. *)
Definition compress_sub_dlabel (J : Z -> Z) (uncompressed : js) (state : cstate) (begin : Z) : res (Z * cstate) :=
  let off := k_off state in
  if j_count uncompressed <=? off then Fail
  else
    len <- rd (j_mem uncompressed) off ;;
    if len =? 0 then
      r <- js_substr_append J uncompressed (k_comp state) off 1 ;; compressed <- good r ;;
      if (j_count uncompressed <? off + 1) || (j_max uncompressed <=? off + 1) then Fail
      else if off =? j_count uncompressed then Ok (3, mkc compressed off (k_points state))
      else Ok (0, mkc compressed (off + 1) (k_points state))
    else if 63 <? len then Fail
    else if (j_count uncompressed <=? off + len + 1) || (j_max uncompressed <=? off + len + 1) then Fail
    else
      found <- find_point 155 J uncompressed state begin 0 ;;
      match found with
      | Some p =>
          if (p <? 12) || (16384 <=? p) then Fail
          else
            r <- js_adduint16 (k_comp state) (Z.lor (u16 p) 49152) ;; compressed <- good r ;;
            length <- dlabel_length uncompressed off ;;
            if length =? JS_ERROR then Fail
            else if (j_count uncompressed <? off + length) || (j_max uncompressed <=? off + length) then Fail
            else
              let off := off + length in
              Ok (if off =? j_count uncompressed then 3 else 2, mkc compressed off (k_points state))
      | None =>
          r <- js_substr_append J uncompressed (k_comp state) off (len + 1) ;; compressed <- good r ;;
          Ok (1, mkc compressed (off + len + 1) (k_points state))
      end.

(** Compress.c 413-440, compress_dlabel. *)
Fixpoint sub_loop (n : nat) (J : Z -> Z) (uncompressed : js) (state : cstate) (begin : Z) : res (Z * cstate) :=
  match n with
  | O => Bad NoFuel
  | S n =>
      ' (ret, state) <- compress_sub_dlabel J uncompressed state begin ;;
      if ret =? 1 then sub_loop n J uncompressed state begin else Ok (ret, state)
  end.
Definition compress_dlabel (J : Z -> Z) (uncompressed : js) (state : cstate) : res cstate :=
  let offset := j_count (k_comp state) in
  ' (ret, state) <- sub_loop (S (Z.to_nat (j_count uncompressed))) J uncompressed state (k_off state) ;;
  if ret =? 3 then Ok state else compress_add_dlabel_points state offset.

(** Compress.c 454-475, compress_get_tocomp. *)
Definition compress_get_tocomp (formats : list (list rrdesc)) (rr_num : Z) : res Z :=
  desc <- decomp_get_rrdesc formats rr_num ;; Ok (match desc with Some d => tocompress d | None => 0 end).

(** Compress.c 520-634, the loop of compress_rddata: total, ctotal and the new state. *)
Definition take (J : Z -> Z) (uncompressed : js) (state : cstate) (count : Z) : res cstate :=
  r <- js_substr_append J uncompressed (k_comp state) (k_off state) count ;; compressed <- good r ;;
  Ok (mkc compressed (k_off state + count) (k_points state)).
Fixpoint fields_loop (J : Z -> Z) (desc : list Z) (to_compress : Z) (uncompressed : js) (state : cstate) (rdlength total ctotal : Z) : res (Z * Z * cstate) :=
  match desc with
  | [] => Bad OutOfBounds
  | subtype :: desc =>
      if subtype =? 0 then Ok (total, ctotal, state)
      else if (0 <? subtype) && (subtype <? 64) then
        state <- take J uncompressed state subtype ;;
        fields_loop J desc to_compress uncompressed state rdlength (total + subtype) (ctotal + subtype)
      else if subtype =? RRSUB_DLABEL then
        len <- dlabel_length uncompressed (k_off state) ;;
        if len <? 1 then Fail
        else
          let point := j_count (k_comp state) in
          if to_compress =? 0 then
            r <- js_substr_append J uncompressed (k_comp state) (k_off state) len ;; compressed <- good r ;;
            state <- compress_add_dlabel_points (mkc compressed (k_off state) (k_points state)) point ;;
            fields_loop J desc to_compress uncompressed (mkc (k_comp state) (k_off state + len) (k_points state)) rdlength (total + len) (ctotal + len)
          else
            state <- compress_dlabel J uncompressed state ;;
            clen <- dlabel_length (k_comp state) point ;;
            fields_loop J desc to_compress uncompressed state rdlength (total + len) (ctotal + clen)
      else if subtype =? RRSUB_TEXT then
        if j_count uncompressed <=? k_off state then Fail
        else
          len <- rd (j_mem uncompressed) (k_off state) ;;
          if (len <? 0) || (256 <? len) then Fail
          else
            state <- take J uncompressed state len ;;
            fields_loop J desc to_compress uncompressed state rdlength (total + len) (ctotal + len)
      else if subtype =? RRSUB_VARIABLE then
        let len := rdlength - total in
        if len =? 0 then Ok (total, ctotal, state)
        else state <- take J uncompressed state len ;; Ok (total + len, ctotal + len, state)
      else Fail
  end.
(** Compress.c 489-663, compress_rddata. *)
Definition compress_rddata (J : Z -> Z) (formats : list (list rrdesc)) (uncompressed : js) (state : cstate) (rdbegin type rdlength : Z) : res cstate :=
  desc <- decomp_get_rrdesc formats type ;;
  to_compress <- compress_get_tocomp formats type ;;
  match desc with
  | None => if rdlength =? 0 then Ok state else take J uncompressed state rdlength
  | Some d =>
      ' (total, ctotal, state) <- fields_loop J (description d) to_compress uncompressed state rdlength 0 0 ;;
      if negb (rdlength =? total) then Fail
      else if negb (ctotal =? total) then
        if (65535 <? ctotal) || (ctotal <? 2) then Fail
        else if (rdbegin <? 12) || (u32 (j_count (k_comp state) - 1) <=? rdbegin) then Fail
        else
          let c := k_comp state in
          mem <- wr (j_mem c) rdbegin (Z.land (Z.shiftr ctotal 8) 255) ;;
          mem <- wr mem (rdbegin + 1) (Z.land ctotal 255) ;;
          Ok (mkc (mkjs mem (j_size c) (j_count c) (j_max c) (j_enc c)) (k_off state) (k_points state))
      else Ok state
  end.

(** Compress.c 678-706, compress_get_uint16. *)
Definition compress_get_uint16 (uncompressed : js) (state : cstate) : res (Z * cstate) :=
  number <- js_readuint16 uncompressed (k_off state) ;;
  if number =? JS_ERROR then Fail
  else if (number <? 0) || (65535 <? number) then Fail
  else
    r <- js_adduint16 (k_comp state) number ;; compressed <- good r ;;
    if j_count uncompressed <? k_off state + 2 then Fail
    else Ok (number, mkc compressed (k_off state + 2) (k_points state)).

(** Compress.c 723-763, compress_get_type_etc. *)
Definition compress_get_type_etc (uncompressed : js) (state : cstate) : res (Z * cstate) :=
  ' (type, state) <- compress_get_uint16 uncompressed state ;;
  ' (_, state) <- compress_get_uint16 uncompressed state ;;
  number <- js_readuint32 uncompressed (k_off state) ;;
  if number =? 4294967295 then Fail
  else
    r <- js_adduint32 (k_comp state) number ;; compressed <- good r ;;
    if j_count uncompressed <=? k_off state + 4 then Fail
    else Ok (type, mkc compressed (k_off state + 4) (k_points state)).

(** Compress.c 773-852, compress_get_header. *)
Definition compress_get_header (J : Z -> Z) (uncompressed : js) (state : cstate) : res (Z * cstate) :=
  if negb (k_off state =? 0) then Fail
  else
    r <- js_substr_append J uncompressed (k_comp state) 0 4 ;; compressed <- good r ;;
    if j_count uncompressed <=? 4 then Fail
    else
      ' (qdcount, state) <- compress_get_uint16 uncompressed (mkc compressed 4 (k_points state)) ;;
      ' (ancount, state) <- compress_get_uint16 uncompressed state ;;
      ' (nscount, state) <- compress_get_uint16 uncompressed state ;;
      ' (arcount, state) <- compress_get_uint16 uncompressed state ;;
      if (qdcount <? 0) || (1 <? qdcount) then Fail
      else
        let total := ancount + nscount + arcount in
        if negb (total =? 0) && negb (qdcount =? 1) then Fail
        else Ok (if qdcount =? 0 then -2 else total, state).

(** Compress.c 863-895, compress_get_question. *)
Definition compress_get_question (J : Z -> Z) (uncompressed : js) (state : cstate) (number_answers : Z) : res cstate :=
  if negb (k_off state =? 12) then Fail
  else if number_answers =? -2 then Ok state
  else
    state <- compress_dlabel J uncompressed state ;;
    ' (_, state) <- compress_get_uint16 uncompressed state ;;
    ' (_, state) <- compress_get_uint16 uncompressed state ;;
    Ok state.

(** Compress.c 923-949, compress_answers (and compress_get_rdlength, 901-915); [n] is
    number_answers - counter. *)
Fixpoint compress_answers (n : nat) (J : Z -> Z) (formats : list (list rrdesc)) (uncompressed : js) (state : cstate) : res cstate :=
  match n with
  | O => Ok state
  | S n =>
      state <- compress_dlabel J uncompressed state ;;
      ' (type, state) <- compress_get_type_etc uncompressed state ;;
      let rdbegin := j_count (k_comp state) in
      ' (rdlength, state) <- compress_get_uint16 uncompressed state ;;
      state <- compress_rddata J formats uncompressed state rdbegin type rdlength ;;
      compress_answers n J formats uncompressed state
  end.

(** Compress.c 980-1024, compress_data. *)
Definition compress_data (J : Z -> Z) (formats : list (list rrdesc)) (in_ out : js) : res js :=
  state <- compress_init_state J in_ ;;
  ' (number_answers, state) <- compress_get_header J in_ state ;;
  state <- compress_get_question J in_ state number_answers ;;
  state <- compress_answers (Z.to_nat number_answers) J formats in_ state ;;
  r <- js_copy (k_comp state) out ;; good r.
