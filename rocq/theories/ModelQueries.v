(** Model of dns/Queries.c: MaraDNS' headers, questions, record headers and names in text form.
    Strings are the js_string objects of ModelJsStr; the pointers passed are not NULL and lead to
    different objects.  Offsets are ints that are at least 0 once they have passed the (unsigned)
    comparisons with a length; lengths are below 2^31, so sums of the two do not wrap. *)
From Verif Require Import CBase ModelDwStr ModelJsStr.

(** MaraDns.h 240-254, q_header. *)
Record q_header := mkqh { q_id : Z; q_qr : Z; q_opcode : Z; q_aa : Z; q_tc : Z; q_rd : Z; q_ra : Z; q_z : Z; q_rcode : Z;
                          q_qd : Z; q_an : Z; q_ns : Z; q_ar : Z }.

(** The test at the top of most of the functions: a valid string of octets. *)
Definition octet_string (s : js) : bool := js_sane s && (j_size s =? 1).
Definition set_mem (s : js) (m : list Z) : js := mkjs m (j_size s) (j_count s) (j_max s) (j_enc s).
Definition set_count (s : js) (n : Z) : js := mkjs (j_mem s) (j_size s) n (j_max s) (j_enc s).

(** Consecutive assignments raw[i] = ..; raw[i + 1] = ..; *)
Fixpoint put (mem : list Z) (i : Z) (l : list Z) : res (list Z) :=
  match l with [] => Ok mem | b :: l => mem <- wr mem i b ;; put mem (i + 1) l end.

(** Queries.c 33-69, dlabel_length; the loop is 46-62, [length] and [toread] its variables. *)
Fixpoint dlabel_loop (n : nat) (s : js) (offset length toread : Z) : res Z :=
  match n with
  | O => Bad NoFuel
  | S n =>
      if (length <? 256) && (0 <? toread) && negb (toread =? 95) then
        if 192 <=? toread then Ok (if length + 2 + offset <=? j_count s then length + 2 else JS_ERROR)
        else if 63 <? toread then Ok JS_ERROR
        else
          let length := length + (toread + 1) in
          if j_count s <? length + offset then Ok JS_ERROR
          else toread <- rd (j_mem s) (length + offset) ;; dlabel_loop n s offset length toread
      else Ok (if length + 1 + offset <=? j_count s then length + 1 else JS_ERROR)
  end.
Definition dlabel_length (s : js) (offset : Z) : res Z :=
  let offset := u32 offset in
  if negb (octet_string s) then Ok JS_ERROR
  else if j_count s <? offset then Ok JS_ERROR
  else toread <- rd (j_mem s) offset ;; dlabel_loop 258 s offset 0 toread.

(** Queries.c 113-137: the twelve octets. *)
Definition hi (v : Z) : Z := u8 (Z.shiftr (Z.land v 65280) 8).
Definition lo (v : Z) : Z := u8 (Z.land v 255).
Definition flag (v b : Z) : Z := if v =? 1 then b else 0.
Definition hdr_octets (h : q_header) : list Z :=
  [hi (q_id h); lo (q_id h);
   u8 (Z.lor (Z.lor (Z.lor (Z.lor (flag (q_qr h) 128) (Z.shiftl (Z.land (q_opcode h) 15) 3)) (flag (q_aa h) 4)) (flag (q_tc h) 2)) (flag (q_rd h) 1));
   u8 (Z.lor (Z.lor (flag (q_ra h) 128) (Z.shiftl (Z.land (q_z h) 7) 4)) (Z.land (q_rcode h) 15));
   hi (q_qd h); lo (q_qd h); hi (q_an h); lo (q_an h); hi (q_ns h); lo (q_ns h); hi (q_ar h); lo (q_ar h)].

(** Queries.c 96-143, make_hdr.  (The intermediate values of raw[2] and raw[3] are left out.) *)
Definition make_hdr (h : q_header) (s : js) : res (Z * js) :=
  if negb (octet_string s) then Ok (JS_ERROR, s)
  else if j_max s <? 14 then Ok (JS_ERROR, s)
  else mem <- put (j_mem s) 0 (hdr_octets h) ;; Ok (JS_SUCCESS, set_count (set_mem s mem) 12).

(** Queries.c 152-199, read_hdr ([None]: JS_ERROR). *)
Definition tst (b m : Z) : Z := if Z.land b m =? 0 then 0 else 1.
Definition pair16 (a b : Z) : Z := Z.lor (Z.shiftl a 8) b.
Definition read_hdr (s : js) : res (option q_header) :=
  if negb (octet_string s) then Ok None
  else if j_max s <? 14 then Ok None
  else
    let raw := rd (j_mem s) in
    r0 <- raw 0 ;; r1 <- raw 1 ;; r2 <- raw 2 ;; r3 <- raw 3 ;; r4 <- raw 4 ;; r5 <- raw 5 ;;
    r6 <- raw 6 ;; r7 <- raw 7 ;; r8 <- raw 8 ;; r9 <- raw 9 ;; r10 <- raw 10 ;; r11 <- raw 11 ;;
    Ok (Some (mkqh (pair16 r0 r1) (tst r2 128) (Z.shiftr (Z.land r2 120) 3) (tst r2 4) (tst r2 2) (tst r2 1)
                (tst r3 128) (Z.shiftr (Z.land r3 112) 4) (Z.land r3 15) (pair16 r4 r5) (pair16 r6 r7) (pair16 r8 r9) (pair16 r10 r11))).

(** The inner loops at 239-249, 315-325 and 727-737: [n] octets of a label are copied from
    [src] at [so + counter] to [dst] at [do + counter], as long as both places are below the limits. *)
Fixpoint copy_label (n : nat) (src : list Z) (so slim : Z) (dst : list Z) (do_ dlim counter : Z) : res (bool * Z * list Z) :=
  match n with
  | O => Ok (true, counter, dst)
  | S n =>
      if (so + counter <? slim) && (do_ + counter <? dlim) then
        b <- rd src (so + counter) ;; dst <- wr dst (do_ + counter) b ;; copy_label n src so slim dst do_ dlim (counter + 1)
      else Ok (false, counter, dst)
  end.
(** The loops at 232-250, 308-327 and 717-738: a name without its end.  The test 718-719 of the
    third one has nothing to do: 730-731 leave the loop before. *)
Fixpoint copy_name (n : nat) (src : list Z) (so slim : Z) (dst : list Z) (do_ dlim counter : Z) : res (bool * Z * list Z) :=
  match n with
  | O => Bad NoFuel
  | S n =>
      if counter <? 256 then
        toread <- rd src (so + counter) ;;
        if 63 <? toread then Ok (false, counter, dst)
        else if toread =? 0 then Ok (true, counter, dst)
        else
          ' (ok, counter, dst) <- copy_label (Z.to_nat (toread + 1)) src so slim dst do_ dlim counter ;;
          if ok : bool then copy_name n src so slim dst do_ dlim counter else Ok (false, counter, dst)
      else Ok (true, counter, dst)
  end.

(** Queries.c 206-274, make_question: the question [qname] [qtype] [qclass] is put at the end of [s]. *)
Definition make_question (qname : js) (qtype qclass : Z) (s : js) : res (Z * js) :=
  let offset := j_count s in
  if negb (octet_string s) then Ok (JS_ERROR, s)
  else if negb (octet_string qname) then Ok (JS_ERROR, s)
  else if j_max s <=? offset then Ok (JS_ERROR, s)
  else
    ' (ok, counter, mem) <- copy_name 258 (j_mem qname) 0 (j_max qname) (j_mem s) offset (j_max s) 0 ;;
    if negb ok then Ok (JS_ERROR, set_mem s mem)
    else
      mem <- wr mem (offset + counter) 0 ;;
      let counter := counter + 1 in
      if counter + offset + 4 <? j_max s then
        mem <- put mem (counter + offset) [hi qtype; lo qtype; hi qclass; lo qclass] ;;
        Ok (JS_SUCCESS, set_count (set_mem s mem) (counter + offset + 4))
      else Ok (JS_ERROR, set_mem s mem).

(** Queries.c 281-348, read_question: the number of octets, the name, the type and the class
    ([qtype], [qclass] are what was there before). *)
Definition read_question (s qname : js) (qtype qclass offset : Z) : res (Z * (js * Z * Z)) :=
  let old := (qname, qtype, qclass) in
  if negb (octet_string s) then Ok (JS_ERROR, old)
  else if negb (octet_string qname) then Ok (JS_ERROR, old)
  else if j_count s <=? u32 offset then Ok (JS_ERROR, old)
  else
    ' (ok, counter, mem) <- copy_name 258 (j_mem s) offset (j_count s) (j_mem qname) 0 (j_max qname) 0 ;;
    if negb ok then Ok (JS_ERROR, (set_mem qname mem, qtype, qclass))
    else
      mem <- wr mem counter 0 ;;
      let counter := counter + 1 in
      if counter + offset + 4 <=? j_count s then
        let raw i := rd (j_mem s) (counter + offset + i) in
        r0 <- raw 0 ;; r1 <- raw 1 ;; r2 <- raw 2 ;; r3 <- raw 3 ;;
        if counter <? j_max qname
        then Ok (counter + 4, (set_count (set_mem qname mem) counter, pair16 r0 r1, pair16 r2 r3))
        else Ok (JS_ERROR, (set_mem qname mem, pair16 r0 r1, pair16 r2 r3))
      else Ok (JS_ERROR, (set_mem qname mem, qtype, qclass)).

(** Queries.c 697-766, read_rr_h: the number of octets, and name, type, class, TTL and RDLENGTH
    ([None] on error).  The octet after the name is copied, not set to 0.  In [raw[4] << 24] an
    unsigned char has become an int. *)
Definition read_rr_h (s name : js) (offset : Z) : res (option (Z * (js * Z * Z * Z * Z))) :=
  if negb (octet_string s) then Ok None
  else if negb (octet_string name) then Ok None
  else if j_max s <=? u32 offset then Ok None
  else if j_count s <? offset then Ok None
  else
    ' (ok, counter, mem) <- copy_name 258 (j_mem s) offset (j_count s) (j_mem name) 0 (j_max name) 0 ;;
    if negb ok then Ok None
    else
      b <- rd (j_mem s) (offset + counter) ;; mem <- wr mem counter b ;;
      let counter := counter + 1 in
      if counter + offset + 10 <=? j_count s then
        let raw i := rd (j_mem s) (counter + offset + i) in
        r0 <- raw 0 ;; r1 <- raw 1 ;; r2 <- raw 2 ;; r3 <- raw 3 ;; r4 <- raw 4 ;;
        r5 <- raw 5 ;; r6 <- raw 6 ;; r7 <- raw 7 ;; r8 <- raw 8 ;; r9 <- raw 9 ;;
        if 128 <=? r4 then Bad SignedOverflow
        else if counter <? j_max name
        then Ok (Some (counter + 10, (set_count (set_mem name mem) counter, pair16 r0 r1, pair16 r2 r3,
                         Z.lor (Z.lor (Z.lor (Z.shiftl r4 24) (Z.shiftl r5 16)) (Z.shiftl r6 8)) r7, pair16 r8 r9)))
        else Ok None
      else Ok None.

(** Queries.c 379-414: the letter for a type (MaraDns.h 391-395: -300 and -301 ask for a space,
    -2 asks for a pipe). *)
Definition letter_of (qtype : Z) : Z :=
  if qtype =? 1 then 65 else if qtype =? 2 then 78 else if qtype =? 5 then 67 else if qtype =? 6 then 83
  else if qtype =? 12 then 80 else if qtype =? 15 then 64 else if qtype =? 16 then 84 else if qtype =? 255 then 90
  else if qtype =? -2 then 124 else if (qtype =? -300) || (qtype =? -301) then 32 else 85.

(** Queries.c 430-449 and 487-507: lengths become dots, the first one an at sign if [at_]. *)
Fixpoint dots_loop (n : nat) (count : Z) (at_ : bool) (mem : list Z) (counter toread : Z) : res (Z * list Z) :=
  match n with
  | O => Bad NoFuel
  | S n =>
      if (counter <? 256) && (0 <? toread) then
        if 63 <? toread then Ok (JS_ERROR, mem)
        else
          let counter := counter + (toread + 1) in
          if count <? counter then Ok (JS_ERROR, mem)
          else
            toread <- rd mem counter ;;
            mem <- wr mem counter (if at_ then 64 else 46) ;;
            dots_loop n count false mem counter toread
      else Ok (JS_SUCCESS, mem)
  end.

(** Queries.c 356-453, hname_translate. *)
Definition hname_translate (s : js) (qtype : Z) : res (Z * js) :=
  if negb (octet_string s) then Ok (JS_ERROR, s)
  else if j_count s <? 1 then Ok (JS_ERROR, s)
  else
    toread <- rd (j_mem s) 0 ;;
    mem <- wr (j_mem s) 0 (letter_of qtype) ;;
    if (j_count s =? 1) && (toread =? 0) then
      if j_max s <? 2 then Ok (JS_ERROR, set_mem s mem)
      else mem <- wr mem 1 46 ;; Ok (JS_SUCCESS, set_count (set_mem s mem) 2)
    else
      ' (r, mem) <- dots_loop 258 (j_count s) (qtype =? -301) mem 0 toread ;;
      Ok (r, set_mem s mem).

(** Queries.c 460-510, email_translate. *)
Definition email_translate (s : js) : res (Z * js) :=
  if negb (octet_string s) then Ok (JS_ERROR, s)
  else if j_count s <? 1 then Ok (JS_ERROR, s)
  else
    toread <- rd (j_mem s) 0 ;;
    mem <- wr (j_mem s) 0 124 ;;
    ' (r, mem) <- dots_loop 258 (j_count s) true mem 0 toread ;;
    Ok (r, set_mem s mem).

(** Queries.c 541-571: the type for a letter ([None]: -2 is returned). *)
Definition type_of (letter : Z) : option Z :=
  if letter =? 65 then Some 1 else if letter =? 78 then Some 2 else if letter =? 67 then Some 5
  else if letter =? 83 then Some 6 else if letter =? 80 then Some 12 else if letter =? 64 then Some 15
  else if letter =? 84 then Some 16 else if letter =? 85 then Some (-3) else if letter =? 90 then Some 255 else None.

(** Queries.c 590-606 (with [firstat] = 0) and 661-680: dots become lengths; as long as [firstat]
    holds an at sign is looked for instead.  Whether there was no error, [firstat] and [counter]
    afterwards, and the buffer. *)
Fixpoint lengths_loop (n : nat) (count : Z) (firstat : bool) (mem : list Z) (counter seen towrite : Z) : res (bool * bool * Z * list Z) :=
  match n with
  | O => Bad NoFuel
  | S n =>
      if (counter <? 256) && (counter <? count) then
        let counter := counter + 1 in
        b <- rd mem counter ;;
        if b =? (if firstat then 64 else 46) then
          if (seen <? 1) || (63 <? seen) then Ok (false, firstat, counter, mem)
          else
            mem <- wr mem towrite seen ;;
            if counter =? count - 1 then Ok (true, false, counter, mem) else lengths_loop n count false mem counter 0 counter
        else if counter =? count - 1 then Ok (true, firstat, counter, mem)
        else lengths_loop n count firstat mem counter (seen + 1) towrite
      else Ok (true, firstat, counter, mem)
  end.

(** Queries.c 523-622, hname_2rfc1035_starwhitis (hname_2rfc1035, 518-520, has [star] = 0). *)
Definition hname_2rfc1035 (star : Z) (s : js) : res (Z * js) :=
  if negb (octet_string s) then Ok (JS_ERROR, s)
  else if j_count s <? 1 then Ok (JS_ERROR, s)
  else
    b0 <- rd (j_mem s) 0 ;;
    match type_of b0 with
    | None => Ok (-2, s)
    | Some ret =>
        b1 <- rd (j_mem s) 1 ;;
        if (b1 =? 46) && (j_count s =? 2) then
          mem <- wr (j_mem s) 0 0 ;; Ok (ret, set_count (set_mem s mem) 1)
        else if (b1 =? 42) && (j_count s =? 2) && (star =? 1) then
          mem <- wr (j_mem s) 0 95 ;; Ok (ret, set_count (set_mem s mem) 1)
        else
          ' (ok, _, counter, mem) <- lengths_loop 258 (j_count s) false (j_mem s) 0 0 0 ;;
          if negb ok then Ok (JS_ERROR, set_mem s mem)
          else if negb (counter <? 256) then Ok (JS_ERROR, set_mem s mem)
          else
            b <- rd mem counter ;;
            if b =? 46 then mem <- wr mem counter 0 ;; Ok (ret, set_mem s mem)
            else if (1 <? counter) && (b =? 42) && (1 <? j_count s) && (star =? 1) then
              mem <- wr mem (counter - 1) 95 ;; Ok (ret, set_count (set_mem s mem) (j_count s - 1))
            else Ok (JS_ERROR, set_mem s mem)
    end.

(** Queries.c 629-690, email_2rfc1035. *)
Definition email_2rfc1035 (s : js) : res (Z * js) :=
  if negb (octet_string s) then Ok (JS_ERROR, s)
  else if j_count s <? 1 then Ok (JS_ERROR, s)
  else
    b1 <- rd (j_mem s) 1 ;;
    if (j_count s =? 2) && (b1 =? 46) then
      mem <- wr (j_mem s) 0 0 ;; Ok (JS_SUCCESS, set_count (set_mem s mem) 1)
    else
      ' (ok, firstat, counter, mem) <- lengths_loop 258 (j_count s) true (j_mem s) 0 0 0 ;;
      if negb ok then Ok (JS_ERROR, set_mem s mem)
      else if firstat : bool then hname_2rfc1035 0 (set_mem s mem)
      else if negb (counter <? 256) then Ok (JS_ERROR, set_mem s mem)
      else
        b <- rd mem counter ;;
        if b =? 46 then mem <- wr mem counter 0 ;; Ok (JS_SUCCESS, set_mem s mem) else Ok (JS_ERROR, set_mem s mem).

(** Queries.c 1002-1007, 1019-1023, ..: everything but the header is given up. *)
Definition give_up (h : q_header) (s : js) : res js :=
  ' (_, s) <- make_hdr (mkqh (q_id h) (q_qr h) (q_opcode h) (q_aa h) 1 (q_rd h) (q_ra h) (q_z h) (q_rcode h) 0 0 0 0) s ;; Ok s.

(** Queries.c 1013-1034, past the [n] questions from [offset]: [None] if the packet is given up. *)
Fixpoint skip_questions (n : nat) (s : js) (offset : Z) : res (option Z) :=
  match n with
  | O => Ok (Some offset)
  | S n =>
      len <- dlabel_length s offset ;;
      if len =? JS_ERROR then Ok None
      else
        let offset := offset + (len + 4) in
        if j_count s <=? offset then Ok None else skip_questions n s offset
  end.
(** Queries.c 1037-1070, past [n] records. *)
Fixpoint skip_records (n : nat) (s : js) (offset : Z) : res (option Z) :=
  match n with
  | O => Ok (Some offset)
  | S n =>
      len <- dlabel_length s offset ;;
      if len =? JS_ERROR then Ok None
      else
        let offset := offset + (len + 8) in
        if j_count s <=? offset + 2 then Ok None
        else
          a <- rd (j_mem s) offset ;; b <- rd (j_mem s) (offset + 1) ;;
          let offset := offset + (Z.shiftl (Z.land a 255) 8 + b + 2) in
          if j_count s <=? offset then Ok None else skip_records n s offset
  end.
(** Queries.c 982-1090, squeeze_to_fit ([None]: 0 is returned).  Lines 1081-1085 are not reached. *)
Definition squeeze_to_fit (s : js) : res (option js) :=
  h <- read_hdr s ;;
  match h with
  | None => Ok None
  | Some h =>
      if (q_tc h =? 1) || ((q_ns h =? 0) && (q_ar h =? 0)) then s <- give_up h s ;; Ok (Some s)
      else
        o <- skip_questions (Z.to_nat (q_qd h)) s 12 ;;
        match o with
        | None => s <- give_up h s ;; Ok (Some s)
        | Some offset =>
            o <- skip_records (Z.to_nat (q_an h + q_ns h + q_ar h - 1)) s offset ;;
            match o with
            | None => s <- give_up h s ;; Ok (Some s)
            | Some offset =>
                let h := if 0 <? q_ar h
                         then mkqh (q_id h) (q_qr h) (q_opcode h) (q_aa h) 0 (q_rd h) (q_ra h) (q_z h) (q_rcode h) (q_qd h) (q_an h) (q_ns h) (q_ar h - 1)
                         else mkqh (q_id h) (q_qr h) (q_opcode h) (q_aa h) 0 (q_rd h) (q_ra h) (q_z h) (q_rcode h) (q_qd h) (q_an h) (q_ns h - 1) (q_ar h) in
                ' (_, s) <- make_hdr h s ;; Ok (Some (set_count s offset))
            end
        end
  end.
