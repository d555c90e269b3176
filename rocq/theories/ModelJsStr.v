(** Model of MaraDNS' string library, libs/JsStr.c with the parts of libs/JsStrOS.c and
    libs/JsStrCP.c that the name server uses.

    A live js_string: [j_mem] is the whole allocated buffer, [j_size], [j_count], [j_max], [j_enc]
    the fields unit_size, unit_count, max_count and encoding (JsStr.h 21-31).  is_good is left
    out: it is JS_SANE_NUMBER from js_create on.  Pointers passed to the functions are not NULL,
    and a function with two string arguments gets two different strings.  The products
    unit_size * unit_count and unit_size * max_count are written without the wrap to 32 bits:
    [j_wf] (SpecJsStr) bounds the allocated size below 2^31. *)
From Verif Require Import CBase ModelDwStr.

Record js := mkjs { j_mem : list Z; j_size : Z; j_count : Z; j_max : Z; j_enc : Z }.

Definition JS_ERROR : Z := -1.
Definition JS_SUCCESS : Z := 1.
Definition JS_BINARY : Z := 1.
Definition JS_US_ASCII : Z := 2.
Definition JS_ISO_8859_1 : Z := 3.

(** JsStr.c 9-14, js_octets: number of allowed octets. *)
Definition js_octets (s : js) : Z := j_max s * j_size s.

(** JsStr.c 16-40, js_create; JsStrOS.c 63-131, js_alloc.  The new buffer holds the arbitrary
    octets [J].  js_alloc gives 0 for a size of zero ([None]); running out of memory is left out. *)
Definition js_create (J : Z -> Z) (max unit : Z) : option js :=
  if (max + 3 =? 0) || (unit =? 0) then None
  else Some (mkjs (mkjunk J ((max + 3) * unit)) unit 0 max JS_BINARY).

(** JsStr.c 198-217, js_has_sanity. *)
Definition js_sane (s : js) : bool :=
  negb (j_max s <? j_count s) && negb ((j_enc s =? JS_US_ASCII) && negb (j_size s =? 1)).

(** JsStr.c 76-93, js_set_encode. *)
Definition js_set_encode (s : js) (e : Z) : Z * js :=
  if negb (js_sane s) then (-1, s)
  else if (e <? 1) || (3 <? e) then (-1, s)
  else (0, mkjs (j_mem s) (j_size s) (j_count s) (j_max s) e).

(** JsStr.c 115-121, js_length. *)
Definition js_length (s : js) : Z := if js_sane s then i32 (j_count s) else JS_ERROR.

(** JsStr.c 223-249, js_str2js.  [str] is the caller's buffer. *)
Definition js_str2js (s : js) (str : list Z) (count size : Z) : res (Z * js) :=
  if j_max s <? u32 count then Ok (-1, s)
  else if negb (js_sane s) then Ok (-1, s)
  else if negb (u32 size =? j_size s) then Ok (-1, s)
  else
    mem <- copy_bytes (Z.to_nat (count * size)) str 0 (j_mem s) 0 ;;
    Ok (1, mkjs mem (j_size s) count (j_max s) (j_enc s)).

(** JsStr.c 255-273, js_js2str.  [buf] is the caller's buffer, returned as it is afterwards. *)
Definition js_js2str (s : js) (buf : list Z) (max : Z) : res (Z * list Z) :=
  if negb (js_sane s) then Ok (-1, buf)
  else if u32 max <=? j_size s * j_count s then Ok (-1, buf)
  else
    buf <- copy_bytes (Z.to_nat (j_size s * j_count s)) (j_mem s) 0 buf 0 ;;
    buf <- wr buf (j_size s * j_count s) 0 ;;
    Ok (1, buf).

(** JsStr.c 304-308, the comparing loop of js_issame. *)
Fixpoint same_loop (n : nat) (i : Z) (a b : list Z) : res Z :=
  match n with
  | O => Ok 1
  | S n => x <- rd a i ;; y <- rd b i ;; if negb (x =? y) then Ok 0 else same_loop n (i + 1) a b
  end.

(** JsStr.c 278-312, js_issame. *)
Definition js_issame (a b : js) : res Z :=
  if negb (js_sane a) then Ok (-1)
  else if negb (js_sane b) then Ok (-1)
  else if negb (j_size a =? j_size b) then Ok 0
  else if negb (j_count a =? j_count b) then Ok 0
  else same_loop (Z.to_nat (j_count a * j_size a)) 0 (j_mem a) (j_mem b).

(** JsStr.c 381-387, the inner loop of js_fgrep_offset: every octet of the expression is compared. *)
Fixpoint fgrep_place (n : nat) (place counter : Z) (exp s : js) (mtch : Z) : res Z :=
  match n with
  | O => Ok mtch
  | S n =>
      if j_count s * j_size s <=? place + counter then Ok mtch
      else
        x <- rd (j_mem exp) place ;; y <- rd (j_mem s) (place + counter) ;;
        fgrep_place n (place + 1) counter exp s (if x =? y then mtch else -2)
  end.

(** JsStr.c 373-390, the outer loop. *)
Fixpoint fgrep_loop (n : nat) (counter offset : Z) (exp s : js) : res Z :=
  match n with
  | O => Ok (-2)
  | S n =>
      x <- rd (j_mem exp) 0 ;; y <- rd (j_mem s) counter ;;
      mtch <- (if (x =? y) && (counter mod j_size s =? 0) && (offset * j_size s <=? counter)
               then fgrep_place (Z.to_nat (j_count exp * j_size exp)) 0 counter exp s (counter / j_size s)
               else Ok (-2)) ;;
      if mtch =? -2 then fgrep_loop n (counter + 1) offset exp s else Ok mtch
  end.

(** JsStr.c 330-395, js_fgrep_offset (and js_fgrep, 319-321, with offset 0). *)
Definition js_fgrep_offset (exp s : js) (offset : Z) : res Z :=
  if negb (js_sane exp) then Ok (-1)
  else if negb (js_sane s) then Ok (-1)
  else if j_count s <? u32 offset then Ok (-1)
  else
    let offset := if offset <? 0 then i32 (j_count s + offset) else offset in
    if offset <? 0 then Ok (-1)
    else if negb (j_size exp =? j_size s) then Ok (-2)
    else if j_count s <? j_count exp then Ok (-2)
    else if j_count exp <=? 0 then Ok 0
    else fgrep_loop (Z.to_nat ((j_count s - j_count exp) * j_size s + 1)) 0 offset exp s.

(** JsStr.c 459-469, the comparison of the further octets of a character in js_match_offset:
    [miss] becomes the value of match when one differs. *)
Fixpoint place_loop (n : nat) (place pexp counter : Z) (exp s : js) (mtch miss : Z) : res Z :=
  match n with
  | O => Ok mtch
  | S n =>
      x <- rd (j_mem exp) (pexp + place) ;; y <- rd (j_mem s) (counter + place) ;;
      place_loop n (place + 1) pexp counter exp s
        (if negb (x =? y) && (pexp + place <? js_octets exp) && (counter + place <? js_octets s) then miss else mtch) miss
  end.

(** JsStr.c 446-473, the loop over the expression. *)
Fixpoint match_exp (n : nat) (pexp counter : Z) (exp s : js) : res Z :=
  match n with
  | O => Ok (-2)
  | S n =>
      x <- rd (j_mem exp) pexp ;; y <- rd (j_mem s) counter ;;
      mtch <- (if (x =? y) && (pexp mod j_size exp =? 0) && (pexp <? js_octets exp)
               then place_loop (Z.to_nat (j_size exp - 1)) 1 pexp counter exp s (counter / j_size exp) (-2)
               else Ok (-2)) ;;
      if mtch =? -2 then match_exp n (pexp + 1) counter exp s else Ok mtch
  end.

(** JsStr.c 440-477, the loop over the string. *)
Fixpoint match_loop (n : nat) (counter offset : Z) (exp s : js) : res Z :=
  match n with
  | O => Ok (-2)
  | S n =>
      mtch <- (if offset <=? counter then match_exp (Z.to_nat (j_count exp * j_size exp)) 0 counter exp s else Ok (-2)) ;;
      if mtch =? -2 then match_loop n (counter + 1) offset exp s else Ok mtch
  end.

(** JsStr.c 413-482, js_match_offset (js_match, 402-404, has offset 0). *)
Definition js_match_offset (exp s : js) (offset : Z) : res Z :=
  if negb (js_sane exp) then Ok (-1)
  else if negb (js_sane s) then Ok (-1)
  else
    let offset := if offset <? 0 then i32 (j_count s + offset) else offset in
    if offset <? 0 then Ok (-1)
    else if negb (j_size exp =? j_size s) then Ok (-2)
    else if j_count exp <=? 0 then Ok (-2)
    else match_loop (Z.to_nat (j_count s * j_size s)) 0 offset exp s.

(** JsStr.c 533-566, the loop over the expression in js_notmatch_offset: [mtch] is carried on, and
    a character of the list that is equal ends the loop with -2. *)
Fixpoint notmatch_exp (n : nat) (pexp counter : Z) (exp s : js) (mtch : Z) : res Z :=
  match n with
  | O => Ok mtch
  | S n =>
      let mtch := if pexp mod j_size exp =? 0 then counter / j_size exp else mtch in
      x <- rd (j_mem exp) pexp ;; y <- rd (j_mem s) counter ;;
      if (x =? y) && (pexp mod j_size exp =? 0) && (pexp <? js_octets exp) then
        mtch <- place_loop (Z.to_nat (j_size exp - 1)) 1 pexp counter exp s (-2) (counter / j_size exp) ;;
        if mtch =? -2 then Ok (-2) else notmatch_exp n (pexp + 1) counter exp s mtch
      else notmatch_exp n (pexp + 1) counter exp s mtch
  end.

(** JsStr.c 527-570, the loop over the string. *)
Fixpoint notmatch_loop (n : nat) (counter offset : Z) (exp s : js) : res Z :=
  match n with
  | O => Ok (-2)
  | S n =>
      mtch <- (if offset <=? counter then notmatch_exp (Z.to_nat (j_count exp * j_size exp)) 0 counter exp s (-2) else Ok (-2)) ;;
      if mtch =? -2 then notmatch_loop n (counter + 1) offset exp s else Ok mtch
  end.

(** JsStr.c 500-575, js_notmatch_offset (js_notmatch, 489-491, has offset 0). *)
Definition js_notmatch_offset (exp s : js) (offset : Z) : res Z :=
  if negb (js_sane exp) then Ok (-1)
  else if negb (js_sane s) then Ok (-1)
  else
    let offset := if offset <? 0 then i32 (j_count s + offset) else offset in
    if offset <? 0 then Ok (-1)
    else if negb (j_size exp =? j_size s) then Ok (-2)
    else if j_count exp <=? 0 then Ok (-2)
    else notmatch_loop (Z.to_nat (j_count s * j_size s)) 0 offset exp s.

(** JsStr.c 665-690, js_append: [a] is appended to [t]. *)
Definition js_append (a t : js) : res (Z * js) :=
  if negb (js_sane a) then Ok (-1, t)
  else if negb (js_sane t) then Ok (-1, t)
  else if negb (j_size a =? j_size t) then Ok (-1, t)
  else if j_max t <=? u32 (j_count a + j_count t) then Ok (-1, t)
  else
    mem <- copy_bytes (Z.to_nat (j_size a * j_count a)) (j_mem a) 0 (j_mem t) (j_size t * j_count t) ;;
    Ok (0, mkjs mem (j_size t) (j_count t + j_count a) (j_max t) (j_enc t)).

(** JsStr.c 632-640, the loop of js_insert that writes the inserted octets: [counter] and the
    buffer afterwards. *)
Fixpoint insert_inner (n : nat) (counter place : Z) (ins mem : list Z) (lim : Z) : res (Z * list Z) :=
  match n with
  | O => Ok (counter, mem)
  | S n =>
      mem <- (if place + counter <? lim then b <- rd ins counter ;; wr mem (place + counter) b else Ok mem) ;;
      insert_inner n (counter + 1) place ins mem lim
  end.

(** JsStr.c 629-646, the loop over the old octets [tmp]. *)
Fixpoint insert_outer (n : nat) (place counter : Z) (tmp : list Z) (a : js) (mem : list Z) (at_ lim : Z) : res (list Z) :=
  match n with
  | O => Ok mem
  | S n =>
      ' (counter, mem) <- (if place =? at_
                           then insert_inner (Z.to_nat (j_size a * j_count a - counter)) counter place (j_mem a) mem lim
                           else Ok (counter, mem)) ;;
      mem <- (if place + counter <? lim then b <- rd tmp place ;; wr mem (place + counter) b else Ok mem) ;;
      insert_outer n (place + 1) counter tmp a mem at_ lim
  end.

(** JsStr.c 585-655, js_insert: [a] is put into [t] at [where_].  The temporary copy holds exactly
    the octets of [t]. *)
Definition js_insert (a t : js) (where_ : Z) : res (Z * js) :=
  if negb (js_sane a) then Ok (-1, t)
  else if negb (js_sane t) then Ok (-1, t)
  else if negb (j_size a =? j_size t) then Ok (-1, t)
  else if j_count t <? u32 where_ then Ok (-1, t)
  else if u32 where_ =? j_count t then js_append a t
  else if j_max t <? u32 (j_count a + j_count t) then Ok (-1, t)
  else
    tmp <- copy_bytes (Z.to_nat (j_size t * j_count t)) (j_mem t) 0 (repeat 0 (Z.to_nat (j_size t * j_count t))) 0 ;;
    let where_ := if where_ <? 0 then i32 (j_count t + where_) else where_ in
    if where_ <? 0 then Ok (-1, t)
    else
      mem <- insert_outer (Z.to_nat (j_size t * j_count t)) 0 0 tmp a (j_mem t) (where_ * j_size t) (j_size t * j_max t) ;;
      Ok (0, mkjs mem (j_size t) (j_count t + j_count a) (j_max t) (j_enc t)).

(** JsStr.c 702-737, js_substr.  [start + count] is an addition of signed integers. *)
Definition js_substr (s d : js) (start count : Z) : res (Z * js) :=
  if negb (js_sane s) then Ok (-1, d)
  else if negb (js_sane d) then Ok (-1, d)
  else if negb (j_size s =? j_size d) then Ok (-1, d)
  else if count <? 0 then Ok (-1, d)
  else if (j_count s <=? u32 start) || (j_max s <=? u32 start) then Ok (-1, d)
  else if 2147483648 <=? start + count then Bad SignedOverflow
  else if j_count s <? u32 (start + count) then Ok (-1, d)
  else if j_max s <? u32 (start + count) then Ok (-1, d)
  else if j_max d <=? count then Ok (-1, d)
  else
    mem <- copy_bytes (Z.to_nat (Z.min (count * j_size s) (Z.min (js_octets d) (js_octets s - start * j_size s))))
             (j_mem s) (start * j_size s) (j_mem d) 0 ;;
    Ok (JS_SUCCESS, mkjs mem (j_size d) count (j_max d) (j_enc d)).

(** JsStr.c 742-769, js_copy. *)
Definition js_copy (s d : js) : res (Z * js) :=
  if negb (js_sane s) || negb (js_sane d) then Ok (-1, d)
  else if negb (j_size s =? j_size d) then Ok (-1, d)
  else if js_octets d <=? j_size s * j_count s then Ok (-1, d)
  else
    mem <- copy_bytes (Z.to_nat (Z.min (j_size s * j_count s) (Z.min (js_octets d) (js_octets s)))) (j_mem s) 0 (j_mem d) 0 ;;
    Ok (JS_SUCCESS, mkjs mem (j_size d) (j_count s) (j_max d) (j_enc s)).

(** JsStr.c 793-798, the loop of js_val. *)
Fixpoint val_loop (n : nat) (i : Z) (mem : list Z) (v : Z) : res Z :=
  match n with O => Ok v | S n => b <- rd mem i ;; val_loop n (i + 1) mem (v * 256 + b) end.

(** JsStr.c 778-802, js_val. *)
Definition js_val (s : js) (offset : Z) : res Z :=
  if negb (js_sane s) then Ok JS_ERROR
  else if j_count s <=? u32 offset then Ok JS_ERROR
  else if 4 <=? j_size s then Ok JS_ERROR
  else val_loop (Z.to_nat (j_size s)) (offset * j_size s) (j_mem s) 0.

(** JsStrOS.c 863-868, js_qstr2js.  A C string is given by its octets [c] before the NUL. *)
Definition js_qstr2js (s : js) (c : list Z) : res (Z * js) := js_str2js s (c ++ [0]) (zlen c) (j_size s).

(** JsStr.c 809-835, js_qappend. *)
Definition js_qappend (J : Z -> Z) (c : list Z) (t : js) : res (Z * js) :=
  if negb (js_sane t) then Ok (JS_ERROR, t)
  else match js_create J 1024 (j_size t) with
  | None => Ok (JS_ERROR, t)
  | Some tmp =>
      ' (r, tmp) <- js_qstr2js tmp c ;;
      if r =? JS_ERROR then Ok (JS_ERROR, t) else js_append tmp t
  end.

(** JsStr.c 843-878, js_qprepend. *)
Definition js_qprepend (J : Z -> Z) (c : list Z) (t : js) : res (Z * js) :=
  if negb (js_sane t) then Ok (JS_ERROR, t)
  else match js_create J 1024 (j_size t) with
  | None => Ok (JS_ERROR, t)
  | Some tmp =>
      ' (r, tmp) <- js_qstr2js tmp c ;;
      if r =? JS_ERROR then Ok (JS_ERROR, t)
      else
        let tmp := mkjs (j_mem tmp) (j_size tmp) (j_count tmp) (j_max tmp) (j_enc t) in
        ' (r, tmp) <- js_append t tmp ;;
        if r =? JS_ERROR then Ok (JS_ERROR, t) else js_copy tmp t
  end.

(** JsStr.c 885-913, js_qissame. *)
Definition js_qissame (J : Z -> Z) (c : list Z) (t : js) : res Z :=
  if negb (js_sane t) then Ok JS_ERROR
  else match js_create J 1024 (j_size t) with
  | None => Ok JS_ERROR
  | Some tmp =>
      ' (r, tmp) <- js_qstr2js tmp c ;;
      if r =? JS_ERROR then Ok JS_ERROR
      else js_issame (mkjs (j_mem tmp) (j_size t) (j_count tmp) (j_max tmp) (j_enc t)) t
  end.

(** JsStr.c 920-946, js_qfgrep. *)
Definition js_qfgrep (J : Z -> Z) (c : list Z) (t : js) : res Z :=
  if negb (js_sane t) then Ok JS_ERROR
  else match js_create J 1024 (j_size t) with
  | None => Ok JS_ERROR
  | Some tmp =>
      ' (r, tmp) <- js_qstr2js tmp c ;;
      if r =? JS_ERROR then Ok JS_ERROR else js_fgrep_offset tmp t 0
  end.

(** JsStr.c 954-970, js_addbyte (the argument is an unsigned char). *)
Definition js_addbyte (s : js) (b : Z) : res (Z * js) :=
  if negb (js_sane s) then Ok (JS_ERROR, s)
  else if negb (j_size s =? 1) then Ok (JS_ERROR, s)
  else if j_max s <=? u32 (j_count s + 1) then Ok (JS_ERROR, s)
  else
    mem <- wr (j_mem s) (j_count s) (u8 b) ;;
    Ok (JS_SUCCESS, mkjs mem (j_size s) (j_count s + 1) (j_max s) (j_enc s)).

(** JsStr.c 978-993, js_changebyte. *)
Definition js_changebyte (s : js) (b offset : Z) : res (Z * js) :=
  if negb (js_sane s) then Ok (JS_ERROR, s)
  else if negb (j_size s =? 1) then Ok (JS_ERROR, s)
  else if j_count s <=? u32 offset then Ok (JS_ERROR, s)
  else
    mem <- wr (j_mem s) offset (u8 b) ;;
    Ok (JS_SUCCESS, mkjs mem (j_size s) (j_count s) (j_max s) (j_enc s)).

(** JsStr.c 1001-1021, js_adduint16. *)
Definition js_adduint16 (s : js) (n : Z) : res (Z * js) :=
  if negb (js_sane s) then Ok (JS_ERROR, s)
  else if negb (j_size s =? 1) then Ok (JS_ERROR, s)
  else if (n <? 0) || (65535 <? n) then Ok (JS_ERROR, s)
  else if j_max s <=? u32 (j_count s + 2) then Ok (JS_ERROR, s)
  else
    mem <- wr (j_mem s) (j_count s) (Z.land (Z.shiftr n 8) 255) ;;
    mem <- wr mem (j_count s + 1) (Z.land n 255) ;;
    Ok (JS_SUCCESS, mkjs mem (j_size s) (j_count s + 2) (j_max s) (j_enc s)).

(** JsStrOS.c 877-897, js_adduint32 (the argument is a uint32_t). *)
Definition js_adduint32 (s : js) (n : Z) : res (Z * js) :=
  if negb (js_sane s) then Ok (JS_ERROR, s)
  else if negb (j_size s =? 1) then Ok (JS_ERROR, s)
  else if j_max s <=? u32 (j_count s + 4) then Ok (JS_ERROR, s)
  else
    let n := u32 n in
    mem <- wr (j_mem s) (j_count s) (Z.land (Z.shiftr n 24) 255) ;;
    mem <- wr mem (j_count s + 1) (Z.land (Z.shiftr n 16) 255) ;;
    mem <- wr mem (j_count s + 2) (Z.land (Z.shiftr n 8) 255) ;;
    mem <- wr mem (j_count s + 3) (Z.land n 255) ;;
    Ok (JS_SUCCESS, mkjs mem (j_size s) (j_count s + 4) (j_max s) (j_enc s)).

(** JsStr.c 1029-1041, js_readbyte.  [offset] is an unsigned int, and so is unit_count - 1. *)
Definition js_readbyte (s : js) (offset : Z) : res Z :=
  if negb (js_sane s) then Ok JS_ERROR
  else if negb (j_size s =? 1) then Ok JS_ERROR
  else if u32 (j_count s - 1) <? u32 offset then Ok JS_ERROR
  else rd (j_mem s) (u32 offset).

(** JsStr.c 1050-1067, js_readuint16. *)
Definition js_readuint16 (s : js) (offset : Z) : res Z :=
  if negb (js_sane s) then Ok JS_ERROR
  else if negb (j_size s =? 1) then Ok JS_ERROR
  else if u32 (j_count s - 2) <? u32 offset then Ok JS_ERROR
  else
    a <- rd (j_mem s) (u32 offset) ;; b <- rd (j_mem s) (u32 offset + 1) ;;
    Ok (Z.lor (Z.land (Z.shiftl a 8) 65280) (Z.land b 255)).

(** JsStrOS.c 907-929, js_readuint32. *)
Definition js_readuint32 (s : js) (offset : Z) : res Z :=
  if negb (js_sane s) then Ok 4294967295
  else if negb (j_size s =? 1) then Ok 4294967295
  else if u32 (j_count s - 4) <? u32 offset then Ok 4294967295
  else
    a <- rd (j_mem s) (u32 offset) ;; b <- rd (j_mem s) (u32 offset + 1) ;;
    c <- rd (j_mem s) (u32 offset + 2) ;; d <- rd (j_mem s) (u32 offset + 3) ;;
    let ret := Z.lor (Z.lor (Z.lor (Z.land (Z.shiftl a 24) 4278190080) (Z.land (Z.shiftl b 16) 16711680))
                        (Z.land (Z.shiftl c 8) 65280)) (Z.land d 255) in
    Ok (if ret =? 4294967295 then 4294967294 else ret).

(** JsStr.c 1081-1110, js_substr_append: octets [offset .. offset + length) of [s] are appended to
    [d].  A negative [length] below -3 would ask malloc for more than it has; here js_create's
    buffer is then empty. *)
Definition js_substr_append (J : Z -> Z) (s d : js) (offset length : Z) : res (Z * js) :=
  match js_create J (length + 2) 1 with
  | None => Ok (JS_ERROR, d)
  | Some tmp =>
      if 2147483648 <=? offset + length then Bad SignedOverflow
      else if j_count s <? u32 (offset + length) then Ok (JS_ERROR, d)
      else
        ' (r, tmp) <- js_substr s tmp offset length ;;
        if negb (r =? JS_SUCCESS) then Ok (JS_ERROR, d)
        else
          ' (r, d) <- js_append tmp d ;;
          if r =? JS_ERROR then Ok (JS_ERROR, d) else Ok (JS_SUCCESS, d)
  end.

(** JsStrCP.c 94-100, the loop of js_atoi. *)
Fixpoint atoi_loop (n : nat) (i : Z) (mem : list Z) (v : Z) : res Z :=
  match n with
  | O => Ok v
  | S n =>
      b <- rd mem i ;;
      if (48 <=? b) && (b <=? 57) then
        if 2147483648 <=? v * 10 + (b - 48) then Bad SignedOverflow else atoi_loop n (i + 1) mem (v * 10 + (b - 48))
      else Ok v
  end.

(** JsStrCP.c 81-106, js_atoi.  The strings it is used on have unit size 1. *)
Definition js_atoi (s : js) (offset : Z) : res Z :=
  if negb (js_sane s) then Ok 0
  else if negb (j_enc s =? JS_US_ASCII) && negb (j_enc s =? JS_ISO_8859_1) then Ok 0
  else if j_count s <=? u32 offset then Ok 0
  else atoi_loop (Z.to_nat (j_count s - offset)) offset (j_mem s) 0.

(** JsStrCP.c 125-146: one octet of js_tolower. *)
Definition lower_ascii (b : Z) : Z := if (65 <=? b) && (b <=? 90) then b + 32 else b.
Definition lower_latin1 (b : Z) : Z :=
  let b := lower_ascii b in
  let b := if (192 <=? b) && (b <=? 214) then u8 (b + 32) else b in
  if (216 <=? b) && (b <=? 222) then u8 (b + 32) else b.
Fixpoint lower_loop (n : nat) (f : Z -> Z) (i : Z) (mem : list Z) : res (list Z) :=
  match n with
  | O => Ok mem
  | S n => b <- rd mem i ;; mem <- wr mem i (f b) ;; lower_loop n f (i + 1) mem
  end.
(** JsStrCP.c 113-152, js_tolower (0: encoding not supported). *)
Definition js_tolower (s : js) : res (Z * js) :=
  if negb (js_sane s) then Ok (JS_ERROR, s)
  else if negb (j_size s =? 1) then Ok (JS_ERROR, s)
  else if j_enc s =? JS_US_ASCII then
    mem <- lower_loop (Z.to_nat (j_count s)) lower_ascii 0 (j_mem s) ;;
    Ok (JS_SUCCESS, mkjs mem (j_size s) (j_count s) (j_max s) (j_enc s))
  else if j_enc s =? JS_ISO_8859_1 then
    mem <- lower_loop (Z.to_nat (j_count s)) lower_latin1 0 (j_mem s) ;;
    Ok (JS_SUCCESS, mkjs mem (j_size s) (j_count s) (j_max s) (j_enc s))
  else Ok (0, s).
