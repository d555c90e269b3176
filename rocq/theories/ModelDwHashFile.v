(** Model of the cache file of Deadwood: DwHash.c 806-1125.

    A file being read is what is left of it and the end-of-file indicator of stdio, which
    is only set by a read that fails.  I/O errors other than end of file are not modelled,
    nor are allocation failures. *)
From Verif Require Import CBase ModelDwHash.

(** *** Writing *)

Definition byte_of (num sh : Z) : Z := Z.land (u8 (Z.shiftr num sh)) 255.

(** DwHash.c 807-822, dwh_put_int32. *)
Definition dwh_put_int32 (num : Z) : list Z :=
  if num <? 0 then [255; 255; 255; 255]
  else map (byte_of num) [24; 16; 8; 0].

(** DwHash.c 825-845, dwh_put_int64. *)
Definition dwh_put_int64 (num : Z) : list Z :=
  if num <? 0 then [0; 0; 0; 0; 0; 0; 0; 1]
  else map (byte_of num) [56; 48; 40; 32; 24; 16; 8; 0].

(** DwHash.c 850-872, dwh_put_dwstr; strings in the table are sane. *)
Definition dwh_put_dwstr (s : list Z) : list Z :=
  if 16777216 <? zlen s then dwh_put_int32 (-1)
  else dwh_put_int32 (zlen s) ++ map (fun b => Z.land b 255) s.

(** DwHash.c 876-886, dwh_put_hash_element.  The NULL check on the element is the
    caller's [ge]; the key is never NULL. *)
Definition dwh_put_hash_element (e : elem) : list Z :=
  if (e_exp e =? 0) || (zlen (e_key e) =? 0) || (zlen (e_val e) =? 0) then []
  else dwh_put_dwstr (e_key e) ++ dwh_put_dwstr (e_val e) ++ dwh_put_int64 (e_exp e).

(** DwHash.c 890-934, dwh_write_hash: the bytes written.  [index] is the loop counter;
    the fuel counts the nodes of the ring. *)
Fixpoint write_loop (fuel : nat) (index : Z) (h : hash) (seek : Z) : res (list Z) :=
  match fuel with
  | O => Bad NoFuel
  | S fuel =>
      if 16777217 <=? index then Ok []
      else
        f <- gf h seek ;;
        out <- (if f_rec f =? 0 then Ok [] else e <- ge h (f_rec f) ;; Ok (dwh_put_hash_element e)) ;;
        if seek =? h_fila h then Ok out
        else rest <- write_loop fuel (index + 1) h (f_last f) ;; Ok (out ++ rest)
  end.
Definition dwh_write_hash (h : hash) : res (list Z) :=
  body <- (if h_fila h =? 0 then Ok []
           else top <- gf h (h_fila h) ;; write_loop (Z.to_nat (h_brk h)) 0 h (f_last top)) ;;
  Ok (dwh_put_int32 4478771 ++ dwh_put_int32 0 ++ body).

(** *** Reading *)

Record handle := mkhandle { rest : list Z; eof : bool }.

(** getc / fgetc stored into a uint8_t: EOF becomes 255 and sets the indicator. *)
Definition getc (f : handle) : Z * handle :=
  match rest f with
  | [] => (255, mkhandle [] true)
  | b :: r => (Z.land b 255, mkhandle r (eof f))
  end.

(** The loops of dwh_get_int32 and dwh_get_int64 over the remaining shift counts. *)
Fixpoint get_bytes (shifts : list Z) (out : Z) (f : handle) : Z * handle :=
  match shifts with
  | [] => (out, f)
  | sh :: more =>
      let '(b, f) := getc f in
      if eof f then (-2, f) else get_bytes more (Z.lor out (Z.shiftl b sh)) f
  end.
(** DwHash.c 939-968 and 973-1002: dwh_get_int32 / dwh_get_int64. *)
Definition get_int (top : Z) (shifts : list Z) (f : handle) : Z * handle :=
  if eof f then (-2, f)
  else
    let '(b, f) := getc f in
    if 127 <? b then (if eof f then -2 else -1, f)
    else get_bytes shifts (Z.shiftl b top) f.
Definition dwh_get_int32 := get_int 24 [16; 8; 0].
Definition dwh_get_int64 := get_int 56 [48; 40; 32; 24; 16; 8; 0].

(** DwHash.c 1027-1034: after the end of the file the string is padded with zeros. *)
Fixpoint read_bytes (n : nat) (f : handle) : list Z * handle :=
  match n with
  | O => ([], f)
  | S n =>
      let '(b, f) := getc f in
      let b := if eof f then 0 else b in
      let '(l, f) := read_bytes n f in
      (b :: l, f)
  end.

(** DwHash.c 1006-1038, dwh_get_dwstr; [None] is the NULL result.  [len + 1] is computed
    in int32_t; dw_create (DwStr.c 49-70) refuses sizes of 2^27 and more. *)
Definition dwh_get_dwstr (f : handle) : res (option (list Z) * handle) :=
  let '(len, f) := dwh_get_int32 f in
  if len =? -2 then Ok (None, f)
  else
    let len := if len <? 0 then 0 else len in
    if len =? 2147483647 then Bad SignedOverflow
    else if 134217728 <=? len + 1 then Ok (None, f)
    else let '(s, f) := read_bytes (Z.to_nat len) f in Ok (Some s, f).

(** DwHash.c 1042-1077, dwh_get_hash_element: key, value and expiry time of the next
    element, or nothing. *)
Definition dwh_get_hash_element (f : handle) : res (option (list Z * list Z * Z) * handle) :=
  '(key, f) <- dwh_get_dwstr f ;;
  '(val, f) <- dwh_get_dwstr f ;;
  let '(exp, f) := dwh_get_int64 f in
  match key, val with
  | Some k, Some v =>
      if (exp <? 2) || (zlen k =? 0) || (zlen v =? 0) then Ok (None, f)
      else Ok (Some (k, v, exp), f)
  | _, _ => Ok (None, f)
  end.

(** DwHash.c 1108-1121, the loop of dwh_read_hash.  The fields of the new element that
    dwh_get_hash_element does not set come from malloc: [jfila], [jimm] for the
    n-th element are arbitrary ([next] and [prev] are set before they are used).
    The fuel counts the bytes of the file. *)
Fixpoint read_loop (fuel : nat) (H : list Z -> Z) (jfila jimm : Z -> Z) (counter : Z)
         (h : hash) (f : handle) : res hash :=
  match fuel with
  | O => Bad NoFuel
  | S fuel =>
      if eof f || (16777218 <=? counter) then Ok h
      else
        '(e, f) <- dwh_get_hash_element f ;;
        match e with
        | None => Ok h
        | Some (k, v, exp) =>
            let '(new, h) := alloc_elem h (mkelem k v (jfila counter) (jimm counter) exp 0 PNull) in
            '(r, h) <- dwh_place_new H h new 1 ;;
            if r =? -1 then Ok h else read_loop fuel H jfila jimm (counter + 1) h f
        end
  end.

(** DwHash.c 1081-1125, dwh_read_hash; [Fail] is the NULL result.  [cache_size] is the
    global set from maximum_cache_elements. *)
Definition read_max (cache_size : Z) : Z :=
  if (32 <? cache_size) && (cache_size <? 16777218) then cache_size else 1024.
Definition dwh_read_hash (H : list Z -> Z) (jfila jimm : Z -> Z) (cache_size : Z)
           (file : list Z) : res hash :=
  let f := mkhandle file false in
  let '(magic, f) := dwh_get_int32 f in
  if negb (magic =? 4478771) then Fail
  else
    let '(_, f) := dwh_get_int32 f in
    read_loop (S (length file)) H jfila jimm 0 (dwh_hash_init cache_size (read_max cache_size)) f.
