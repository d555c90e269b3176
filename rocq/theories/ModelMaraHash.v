(** Model of libs/MaraHash.c: MaraDNS' associative arrays, used for the zone data and for the
    configuration.

    The pointers to values are values of any type [V].  The global mhash_secret_add_constant
    (MaraHash.c 45, set once from a file before any table is made, 693-711) is the argument [add].
    Every operation that makes strings gets the contents [J] of the new memory.  Running out of
    memory is left out, and with it the size of the allocated table, which overflows an int from
    28 bits on. *)
From Verif Require Import CBase ModelDwStr ModelJsStr.

(** MaraHash.h 25-30, mhash_spot; the chain of [next] pointers is a list. *)
Record spot (V : Type) := mkspot { sp_key : js; sp_value : V; sp_type : Z }.
Arguments mkspot {V}.
Arguments sp_key {V}.
Arguments sp_value {V}.
Arguments sp_type {V}.
(** MaraHash.h 41-45, mhash. *)
Record mhash (V : Type) := mkmhash { h_bits : Z; h_table : list (list (spot V)); h_spots : Z }.
Arguments mkmhash {V}.
Arguments h_bits {V}.
Arguments h_table {V}.
Arguments h_spots {V}.

(** MaraHash.c 39-44, mhash_mask. *)
Definition mhash_mask : list Z :=
  [1; 1; 3; 7; 15; 31; 63; 127; 255; 511; 1023; 2047; 4095; 8191; 16383; 32767; 65535; 131071; 262143; 524287; 1048575; 2097151;
   4194303; 8388607; 16777215; 33554431; 67108863; 134217727; 268435455; 536870911; 1073741823].

Section Table.
Context {V : Type}.
Notation spot := (spot V).
Notation mhash := (mhash V).

(** Reading and writing an element of the table. *)
Definition chain_at (t : list (list spot)) (i : Z) : res (list spot) :=
  if i <? 0 then Bad OutOfBounds
  else match nth_error t (Z.to_nat i) with Some c => Ok c | None => Bad OutOfBounds end.
Fixpoint set_nat (t : list (list spot)) (i : nat) (c : list spot) : list (list spot) :=
  match t, i with
  | [], _ => []
  | _ :: t, O => c :: t
  | x :: t, S i => x :: set_nat t i c
  end.
Definition set_chain (t : list (list spot)) (i : Z) (c : list spot) : list (list spot) := set_nat t (Z.to_nat i) c.

(** MaraHash.c 53-80, mhash_create. *)
Definition mhash_create (bits : Z) : res mhash :=
  m <- rd mhash_mask bits ;;
  Ok (mkmhash bits (repeat [] (Z.to_nat (m + 1))) 0).

(** MaraHash.c 104-111, the loop of mhash_js.  [*point << shift] is computed in int. *)
Fixpoint js_hash_loop (n : nat) (i : Z) (mem : list Z) (ret shift add bits : Z) : res Z :=
  match n with
  | O => Ok ret
  | S n =>
      x <- rd mem i ;;
      if 2147483648 <=? x * 2 ^ shift then Bad SignedOverflow
      else
        let ret := u32 (ret + x * 2 ^ shift) in
        let ret := u32 (ret + add) in
        let ret := u32 (ret * 45737) in
        if bits =? 0 then Bad DivZero
        else js_hash_loop n (i + 1) mem ret (Z.rem (shift + 7) bits) add bits
  end.

(** MaraHash.c 89-125, mhash_js. *)
Definition mhash_js (add : Z) (tohash : js) (bits : Z) : res Z :=
  if negb (js_sane tohash) then Ok 0
  else if js_octets tohash <? j_count tohash * j_size tohash then Ok 0
  else
    ret <- js_hash_loop (Z.to_nat (j_count tohash * j_size tohash)) 0 (j_mem tohash) 0 0 add bits ;;
    m <- rd mhash_mask bits ;;
    let ret := Z.land (Z.lxor ret (Z.shiftr ret 7)) m in
    Ok (if ret =? 0 then 1 else ret).

(** MaraHash.c 171-192, the walk of mhash_put along the chain: [None] if the key is there. *)
Fixpoint chain_put (l : list spot) (new : spot) : res (option (list spot)) :=
  match l with
  | [] => Ok (Some [new])
  | p :: r =>
      s <- js_issame (sp_key p) (sp_key new) ;;
      if negb (s =? 0) then Ok None
      else o <- chain_put r new ;; Ok (match o with Some r => Some (p :: r) | None => None end)
  end.

(** MaraHash.c 133-203, mhash_put.  A key that cannot be copied (lines 150-158: an empty table slot
    is freed, or one that is still in use) does not occur, see [C22_is_a_map]. *)
Definition mhash_put (J : Z -> Z) (add : Z) (h : mhash) (key : js) (v : V) (dt : Z) : res (Z * mhash) :=
  if negb (js_sane key) then Ok (JS_ERROR, h)
  else
    i <- mhash_js add key (h_bits h) ;;
    if i =? 0 then Ok (JS_ERROR, h)
    else match js_create J (j_count key + 1) (j_size key) with
    | None => Bad UseAfterFree
    | Some k =>
        ' (r, k) <- js_copy key k ;;
        if r =? JS_ERROR then Bad UseAfterFree
        else
          c <- chain_at (h_table h) i ;;
          o <- chain_put c (mkspot k v dt) ;;
          Ok (match o with
              | Some c => (JS_SUCCESS, mkmhash (h_bits h) (set_chain (h_table h) i c) (u32 (h_spots h + 1)))
              | None => (JS_ERROR, h)
              end)
    end.

(** MaraHash.c 240-249 and 285-290, the walk along the chain. *)
Fixpoint chain_find (key : js) (l : list spot) : res (option spot) :=
  match l with
  | [] => Ok None
  | p :: r => s <- js_issame key (sp_key p) ;; if s =? 0 then chain_find key r else Ok (Some p)
  end.

(** MaraHash.c 212-258, mhash_get: the fields value (a null pointer is [None]) and datatype. *)
Definition mhash_get (add : Z) (h : mhash) (key : js) : res (option V * Z) :=
  if negb (js_sane key) then Ok (None, -1)
  else
    i <- mhash_js add key (h_bits h) ;;
    c <- chain_at (h_table h) i ;;
    o <- chain_find key c ;;
    Ok (match o with Some p => (Some (sp_value p), sp_type p) | None => (None, 0) end).

(** MaraHash.c 266-296, mhash_get_immutable_key. *)
Definition mhash_get_immutable_key (add : Z) (h : mhash) (key : js) : res (option js) :=
  if negb (js_sane key) then Ok None
  else
    i <- mhash_js add key (h_bits h) ;;
    c <- chain_at (h_table h) i ;;
    o <- chain_find key c ;;
    Ok (match o with Some p => Some (sp_key p) | None => None end).

(** MaraHash.c 323-340, finding and unlinking an element. *)
Fixpoint chain_undef (key : js) (l : list spot) : res (option (spot * list spot)) :=
  match l with
  | [] => Ok None
  | p :: r =>
      s <- js_issame key (sp_key p) ;;
      if s =? 0 then o <- chain_undef key r ;; Ok (match o with Some (q, r) => Some (q, p :: r) | None => None end)
      else Ok (Some (p, r))
  end.

(** MaraHash.c 303-361, mhash_undef. *)
Definition mhash_undef (add : Z) (h : mhash) (key : js) : res (option V * mhash) :=
  i <- mhash_js add key (h_bits h) ;;
  if i =? 0 then Ok (None, h)
  else
    c <- chain_at (h_table h) i ;;
    o <- chain_undef key c ;;
    Ok (match o with
        | Some (p, c) => (Some (sp_value p), mkmhash (h_bits h) (set_chain (h_table h) i c) (u32 (h_spots h - 1)))
        | None => (None, h)
        end).

(** MaraHash.c 459-483, putting the old elements into the new table.  An insane key would be looked
    at for ever. *)
Fixpoint rehash (J : Z -> Z) (add : Z) (l : list spot) (h : mhash) : res mhash :=
  match l with
  | [] => Ok h
  | p :: l =>
      if negb (js_sane (sp_key p)) then Bad NoFuel
      else ' (_, h) <- mhash_put J add h (sp_key p) (sp_value p) (sp_type p) ;; rehash J add l h
  end.

(** MaraHash.c 427-489, mhash_resize.  Element 0 of the old table is not looked at; the number of
    elements is not set back before the elements are counted again. *)
Definition mhash_resize (J : Z -> Z) (add : Z) (h : mhash) (bits : Z) : res (Z * mhash) :=
  if (bits <? 1) || (29 <? bits) then Ok (JS_ERROR, h)
  else
    m <- rd mhash_mask bits ;;
    h <- rehash J add (concat (tl (h_table h))) (mkmhash bits (repeat [] (Z.to_nat (m + 1))) (h_spots h)) ;;
    Ok (JS_SUCCESS, h).

(** MaraHash.c 497-526, mhash_autogrow. *)
Definition mhash_autogrow (J : Z -> Z) (add : Z) (h : mhash) : res (Z * mhash) :=
  let bits := h_bits h in
  if (bits <? 1) || (29 <? bits) then Ok (JS_ERROR, h)
  else if bits <? 4 then
    ' (r, h) <- mhash_resize J add h (bits + 1) ;; Ok (if r =? JS_ERROR then JS_ERROR else 2, h)
  else
    m <- rd mhash_mask (bits - 1) ;;
    if m <=? h_spots h then
      ' (r, h) <- mhash_resize J add h (bits + 1) ;; Ok (if r =? JS_ERROR then JS_ERROR else 2, h)
    else Ok (1, h).

(** MaraHash.c 539-549 and 606-616, looking for the next chain that is not empty: its first element. *)
Fixpoint first_spot (t : list (list spot)) : option spot :=
  match t with
  | [] => None
  | [] :: t => first_spot t
  | (p :: _) :: _ => Some p
  end.

(** MaraHash.c 535-553, mhash_firstkey. *)
Definition mhash_firstkey (h : mhash) (key : js) : res (Z * js) :=
  match first_spot (h_table h) with
  | Some p => js_copy (sp_key p) key
  | None => Ok (0, key)
  end.

(** MaraHash.c 585-600, finding the element in its chain and looking at the next one: [None] if it is
    not there, [Some None] if it is the last one. *)
Fixpoint chain_next (key : js) (l : list spot) : res (option (option spot)) :=
  match l with
  | [] => Ok None
  | p :: r =>
      s <- js_issame key (sp_key p) ;;
      if s =? 0 then chain_next key r else Ok (Some (match r with [] => None | q :: _ => Some q end))
  end.

(** MaraHash.c 565-620, mhash_nextkey. *)
Definition mhash_nextkey (add : Z) (h : mhash) (key : js) : res (Z * js) :=
  i <- mhash_js add key (h_bits h) ;;
  m <- rd mhash_mask (h_bits h) ;;
  if m <? i then Ok (JS_ERROR, key)
  else
    c <- chain_at (h_table h) i ;;
    o <- chain_next key c ;;
    match o with
    | None => Ok (JS_ERROR, key)
    | Some (Some q) => js_copy (sp_key q) key
    | Some None =>
        match first_spot (skipn (Z.to_nat (i + 1)) (h_table h)) with
        | Some q => js_copy (sp_key q) key
        | None => Ok (0, key)
        end
    end.
End Table.

(** MaraHash.h 48 *)
Definition MARA_JS : Z := 1.

(** MaraHash.c 367-389, mhash_put_js: a copy of the value goes into the table. *)
Definition mhash_put_js (J : Z -> Z) (add : Z) (h : mhash js) (key value : js) : res (Z * mhash js) :=
  match js_create J (j_count value + 1) (j_size value) with
  | None => Ok (JS_ERROR, h)
  | Some new =>
      ' (r, new) <- js_copy value new ;;
      if r =? JS_ERROR then Ok (JS_ERROR, h) else mhash_put J add h key new MARA_JS
  end.
(** MaraHash.c 395-405, mhash_get_js. *)
Definition mhash_get_js (add : Z) (h : mhash js) (key : js) : res (option js) :=
  ' (v, dt) <- mhash_get add h key ;;
  Ok (match v with
      | Some s => if negb (dt =? MARA_JS) then None else if negb (js_sane s) then None else Some s
      | None => None
      end).

(** MaraHash.h 19-22, mara_tuple: [None] is a null pointer. *)
Definition tuple := list (option js).
(** MaraHash.c 626-644, mtuple_new.  js_alloc gives 0 for no elements. *)
Definition mtuple_new (elements : Z) : option tuple := if elements =? 0 then None else Some (repeat None (Z.to_nat elements)).
(** MaraHash.c 653-675, mtuple_put. *)
Definition mtuple_put (J : Z -> Z) (t : tuple) (s : js) (e : Z) : res (Z * tuple) :=
  if (zlen t <=? e) || (e <? 0) then Ok (JS_ERROR, t)
  else match nth_error t (Z.to_nat e) with
  | None => Bad OutOfBounds
  | Some (Some _) => Ok (JS_ERROR, t)
  | Some None =>
      match js_create J (j_count s + 1) (j_size s) with
      | None => Ok (JS_ERROR, t)
      | Some c =>
          ' (r, c) <- js_copy s c ;;
          if r =? JS_ERROR then Ok (JS_ERROR, t)
          else Ok (JS_SUCCESS, firstn (Z.to_nat e) t ++ Some c :: skipn (Z.to_nat e + 1) t)
      end
  end.
(** MaraHash.c 683-690, mtuple_get. *)
Definition mtuple_get (t : tuple) (e : Z) : res (option js) :=
  if (zlen t <=? e) || (e <? 0) then Ok None
  else match nth_error t (Z.to_nat e) with None => Bad OutOfBounds | Some o => Ok o end.
