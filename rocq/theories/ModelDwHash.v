(** Model of Deadwood's cache table, deadwood-github/src/DwHash.c (types in DwHash.h),
    at the level of its pointers: hash chains with back pointers and the circular
    doubly linked "fila" that orders elements by recent use.

    The heap is explicit.  Addresses are positive integers, 0 is NULL, an address is
    never handed out twice (so a dangling pointer never becomes valid again), and using
    an address that is not allocated is [Bad UseAfterFree].  Allocation failures are
    not modelled.  [dw_str] objects are the byte lists they hold; keys and values are
    copied on the way in and out (dw_copy), so sharing is not observable. *)
From Verif Require Import CBase.

(** A pointer to a chain pointer: [prev] of DwHash.h 38-40. *)
Inductive ploc := PNull | PBucket (i : Z) | PNext (e : Z).

(** DwHash.h 24-28. *)
Record fila := mkfila { f_last : Z; f_next : Z; f_rec : Z }.

(** DwHash.h 31-41. *)
Record elem := mkelem {
  e_key : list Z; e_val : list Z; e_fila : Z; e_imm : Z; e_exp : Z;
  e_next : Z; e_prev : ploc }.

(** DwHash.h 43-49, together with the heap.  [h_brk] is the next fresh address. *)
Record hash := mkhash {
  h_elems : Z -> option elem; h_filas : Z -> option fila; h_brk : Z;
  h_fila : Z; h_tab : list Z; h_mask : Z; h_size : Z; h_max : Z }.

(** *** Heap access *)
Definition ge (h : hash) (p : Z) : res elem :=
  if p =? 0 then Bad NullDeref
  else match h_elems h p with Some e => Ok e | None => Bad UseAfterFree end.
Definition gf (h : hash) (p : Z) : res fila :=
  if p =? 0 then Bad NullDeref
  else match h_filas h p with Some f => Ok f | None => Bad UseAfterFree end.

Definition upd {A} (m : Z -> A) (p : Z) (v : A) : Z -> A :=
  fun q => if q =? p then v else m q.

Definition set_elems (h : hash) (m : Z -> option elem) : hash :=
  mkhash m (h_filas h) (h_brk h) (h_fila h) (h_tab h) (h_mask h) (h_size h) (h_max h).
Definition set_filas (h : hash) (m : Z -> option fila) : hash :=
  mkhash (h_elems h) m (h_brk h) (h_fila h) (h_tab h) (h_mask h) (h_size h) (h_max h).
Definition set_fila (h : hash) (f : Z) : hash :=
  mkhash (h_elems h) (h_filas h) (h_brk h) f (h_tab h) (h_mask h) (h_size h) (h_max h).
Definition set_tab (h : hash) (t : list Z) : hash :=
  mkhash (h_elems h) (h_filas h) (h_brk h) (h_fila h) t (h_mask h) (h_size h) (h_max h).
Definition set_size (h : hash) (n : Z) : hash :=
  mkhash (h_elems h) (h_filas h) (h_brk h) (h_fila h) (h_tab h) (h_mask h) n (h_max h).
Definition set_brk (h : hash) (n : Z) : hash :=
  mkhash (h_elems h) (h_filas h) n (h_fila h) (h_tab h) (h_mask h) (h_size h) (h_max h).

Definition put_elem (h : hash) (p : Z) (e : elem) : hash :=
  set_elems h (upd (h_elems h) p (Some e)).
Definition put_fila (h : hash) (p : Z) (f : fila) : hash :=
  set_filas h (upd (h_filas h) p (Some f)).

(** Field assignments through a pointer. *)
Definition set_e_next (h : hash) (p v : Z) : res hash :=
  e <- ge h p ;;
  Ok (put_elem h p (mkelem (e_key e) (e_val e) (e_fila e) (e_imm e) (e_exp e) v (e_prev e))).
Definition set_e_prev (h : hash) (p : Z) (v : ploc) : res hash :=
  e <- ge h p ;;
  Ok (put_elem h p (mkelem (e_key e) (e_val e) (e_fila e) (e_imm e) (e_exp e) (e_next e) v)).
Definition set_e_fila (h : hash) (p v : Z) : res hash :=
  e <- ge h p ;;
  Ok (put_elem h p (mkelem (e_key e) (e_val e) v (e_imm e) (e_exp e) (e_next e) (e_prev e))).
Definition set_e_perm (h : hash) (p : Z) : res hash :=
  e <- ge h p ;;
  Ok (put_elem h p (mkelem (e_key e) (e_val e) (e_fila e) 1 0 (e_next e) (e_prev e))).
Definition set_f_next (h : hash) (p v : Z) : res hash :=
  f <- gf h p ;; Ok (put_fila h p (mkfila (f_last f) v (f_rec f))).
Definition set_f_last (h : hash) (p v : Z) : res hash :=
  f <- gf h p ;; Ok (put_fila h p (mkfila v (f_next f) (f_rec f))).

(** free() *)
Definition free_elem (h : hash) (p : Z) : res hash :=
  _ <- ge h p ;; Ok (set_elems h (upd (h_elems h) p None)).
Definition free_fila (h : hash) (p : Z) : res hash :=
  _ <- gf h p ;; Ok (set_filas h (upd (h_filas h) p None)).

(** *ptr = v for a pointer to a chain pointer. *)
Definition store (h : hash) (l : ploc) (v : Z) : res hash :=
  match l with
  | PNull => Bad NullDeref
  | PBucket i => t <- wr (h_tab h) i v ;; Ok (set_tab h t)
  | PNext e => set_e_next h e v
  end.

(** *** DwHash.c *)

(** DwHash.c 147-200, dwh_hash_compress; [mul] is MUL_CONSTANT (a random prime
    chosen at build time), [add] is add_constant (random at start-up). *)
Fixpoint compress_loop (mul add : Z) (s : list Z) (out : Z) : Z :=
  let mix tmp :=
    let out := u32 (Z.lxor out tmp * mul + add) in
    Z.lor (Z.shiftr out 19) (u32 (Z.shiftl out 13)) in
  match s with
  | [] => out
  | a :: b :: c :: d :: rest =>
      compress_loop mul add rest
        (mix (Z.lor (Z.lor (Z.lor (Z.shiftl a 24) (Z.shiftl b 16)) (Z.shiftl c 8)) d))
  | [a] => mix (Z.shiftl a 24)
  | [a; b] => mix (Z.lor (Z.shiftl a 24) (Z.shiftl b 16))
  | [a; b; c] => mix (Z.lor (Z.lor (Z.shiftl a 24) (Z.shiftl b 16)) (Z.shiftl c 8))
  end.
Definition dwh_hash_compress (mul add : Z) (s : list Z) : Z :=
  let out := compress_loop mul add s 0 in
  let out := u32 (Z.lxor out (zlen s) * mul + add) in
  Z.lor (Z.shiftr out 19) (u32 (Z.shiftl out 13)).

(** DwHash.c 254-259: the mask. *)
Fixpoint power_two_loop (fuel : nat) (a p : Z) : Z :=
  match fuel with
  | O => p
  | S fuel => if 0 <? a then power_two_loop fuel (Z.shiftr a 1) (u32 (Z.shiftl p 1)) else p
  end.

(** DwHash.c 239-280, dwh_hash_init; the other heap contents do not matter. *)
Definition init_elements (cache_size elements : Z) : Z :=
  if (elements =? 0) && (0 <? cache_size) then cache_size
  else if elements <? 2 then 2
  else if 134217728 <? elements then 134217728
  else elements.
Definition dwh_hash_init (cache_size elements : Z) : hash :=
  let elements := init_elements cache_size elements in
  let p := power_two_loop 33 elements 1 in
  mkhash (fun _ => None) (fun _ => None) 1 0 (repeat 0 (Z.to_nat (p + 1))) (p - 1) 0 elements.

(** DwHash.c 285-313, dwh_fila_new. *)
Definition dwh_fila_new (h : hash) (val : Z) : res hash :=
  let new := h_brk h in
  let h := set_brk h (new + 1) in
  if h_fila h =? 0 then
    let h := put_fila h new (mkfila new new val) in
    h <- set_e_fila h val new ;;
    Ok (set_fila h new)
  else
    top <- gf h (h_fila h) ;;
    let h := put_fila h new (mkfila (f_last top) (h_fila h) val) in
    h <- set_e_fila h val new ;;
    h <- set_f_next h (f_last top) new ;;
    h <- set_f_last h (h_fila h) new ;;
    Ok (set_fila h new).

(** DwHash.c 383-403, dwh_grep.  [H] is dwh_hash_compress for the constants of this
    run; at most 32000 chain elements are looked at. *)
Definition GREP_MAX : nat := Z.to_nat 32000.
Fixpoint grep_loop (n : nat) (h : hash) (key : list Z) (seek : Z) : res Z :=
  match n with
  | O => Ok 0
  | S n =>
      if seek =? 0 then Ok 0
      else
        e <- ge h seek ;;
        if zlist_eqb key (e_key e) then Ok seek else grep_loop n h key (e_next e)
  end.
Definition bucket (H : list Z -> Z) (h : hash) (key : list Z) : Z :=
  Z.land (H key) (h_mask h).
Definition dwh_grep (H : list Z -> Z) (h : hash) (key : list Z) : res Z :=
  seek <- rd (h_tab h) (bucket H h key) ;;
  grep_loop GREP_MAX h key seek.

(** DwHash.c 319-349, dwh_fila_zap with get_hash = 0. *)
Definition fila_unlink (h : hash) (zap : Z) : res hash :=
  z <- gf h zap ;;
  let change := f_next z in
  h <- set_f_next h (f_last z) change ;;
  z <- gf h zap ;;
  h <- set_f_last h change (f_last z) ;;
  let h := if zap =? h_fila h then set_fila h change else h in
  let h := if zap =? h_fila h then set_fila h 0 else h in
  free_fila h zap.
Definition dwh_fila_zap0 (h : hash) (zap : Z) : res hash :=
  if zap =? 0 then Ok h else fila_unlink h zap.

(** DwHash.c 468-510, dwh_zap, once the element is known and is not NULL. *)
Definition zap_unlink (h : hash) (seek : Z) : res hash :=
  e <- ge h seek ;;
  h <- (match e_prev e with PNull => Ok h | l => store h l (e_next e) end) ;;
  e <- ge h seek ;;
  if e_next e =? 0 then Ok h else set_e_prev h (e_next e) (e_prev e).
Definition zap_elem (h : hash) (seek : Z) (has_key : bool) (use_fila : Z) : res (Z * hash) :=
  e <- ge h seek ;;
  if e_imm e =? 1 then Ok (-1, h)
  else
    h <- zap_unlink h seek ;;
    h <- (if has_key && (use_fila =? 1) then e <- ge h seek ;; dwh_fila_zap0 h (e_fila e)
          else Ok h) ;;
    h <- free_elem h seek ;;
    Ok (1, if 0 <? h_size h then set_size h (h_size h - 1) else h).
Definition dwh_zap (H : list Z -> Z) (h : hash) (key : list Z) (use_fila : Z)
  : res (Z * hash) :=
  seek <- dwh_grep H h key ;;
  if seek =? 0 then Ok (0, h) else zap_elem h seek true use_fila.

(** DwHash.c 319-349, dwh_fila_zap with get_hash = 1. *)
Definition dwh_fila_zap1 (h : hash) (zap : Z) : res hash :=
  if zap =? 0 then Ok h
  else
    z <- gf h zap ;;
    h <- fila_unlink h zap ;;
    if f_rec z =? 0 then Ok h
    else '(_, h) <- zap_elem h (f_rec z) false 1 ;; Ok h.

(** DwHash.c 354-378, dwh_fila_fetch. *)
Definition dwh_fila_fetch (h : hash) (get : Z) : res hash :=
  if (get =? 0) || (h_fila h =? 0) then Ok h
  else if get =? h_fila h then Ok h
  else
    g <- gf h get ;;
    let change := f_next g in
    h <- set_f_next h (f_last g) change ;;
    g <- gf h get ;;
    h <- set_f_last h change (f_last g) ;;
    top <- gf h (h_fila h) ;;
    h <- set_f_last h get (f_last top) ;;
    h <- set_f_next h get (h_fila h) ;;
    top <- gf h (h_fila h) ;;
    h <- set_f_next h (f_last top) get ;;
    h <- set_f_last h (h_fila h) get ;;
    Ok (set_fila h get).

(** DwHash.c 411-440, dwh_get; [now] is get_time().  The value returned is a copy. *)
Definition dwh_get (H : list Z -> Z) (now : Z) (h : hash) (key : list Z)
           (ignore_expire use_fila : Z) : res (option (list Z) * hash) :=
  seek <- dwh_grep H h key ;;
  if seek =? 0 then Ok (None, h)
  else
    e <- ge h seek ;;
    if (use_fila =? 1) && negb (ignore_expire =? 1)
       && ((e_exp e <? now) || (now + 24219648000 <? e_exp e)) && negb (e_exp e =? 0)
    then Ok (None, h)
    else
      h <- (if (use_fila =? 1) && (e_imm e =? 0) then dwh_fila_fetch h (e_fila e) else Ok h) ;;
      Ok (Some (e_val e), h).

(** DwHash.c 443-460, dwh_get_ttl. *)
Definition dwh_get_ttl (H : list Z -> Z) (now : Z) (h : hash) (key : list Z) : res Z :=
  seek <- dwh_grep H h key ;;
  if seek =? 0 then Ok (-1)
  else
    e <- ge h seek ;;
    let time := Z.shiftr (e_exp e - now) 8 in
    if (time <? 0) || (31536000 <? time) then Ok (-1) else Ok time.

(** DwHash.c 513-571, dwh_init_element: allocate and fill in a new element. *)
Definition init_expire (H : list Z -> Z) (now : Z) (h : hash) (key : list Z) (ttl : Z) : res Z :=
  if negb (ttl =? -2) then
    let ttl := if ttl <? 30 then 30 else if 63072000 <? ttl then 63072000 else ttl in
    Ok (now + Z.shiftl ttl 8)
  else
    seek <- dwh_grep H h key ;;
    if seek =? 0 then Ok (now + 7680) else e <- ge h seek ;; Ok (e_exp e).
Definition alloc_elem (h : hash) (e : elem) : Z * hash :=
  (h_brk h, put_elem (set_brk h (h_brk h + 1)) (h_brk h) e).

(** DwHash.c 574-612, dwh_place_new.  The result code is 1, or -1 (then the caller
    frees the element). *)
Definition link_new (H : list Z -> Z) (h : hash) (new : Z) (key : list Z) : res hash :=
  let index := bucket H h key in
  next <- rd (h_tab h) index ;;
  h <- set_e_next h new next ;;
  h <- set_e_prev h new (PBucket index) ;;
  h <- (if next =? 0 then Ok h else set_e_prev h next (PNext new)) ;;
  t <- wr (h_tab h) index new ;;
  Ok (set_tab h t).
Definition dwh_place_new (H : list Z -> Z) (h : hash) (new : Z) (use_fila : Z)
  : res (Z * hash) :=
  e <- ge h new ;;
  '(r, h) <- dwh_zap H h (e_key e) use_fila ;;
  if r =? -1 then Ok (-1, h)
  else
    h <- link_new H h new (e_key e) ;;
    if use_fila =? 1 then
      h <- dwh_fila_new h new ;;
      let h := set_size h (h_size h + 1) in
      if h_max h <=? h_size h then
        top <- gf h (h_fila h) ;;
        h <- dwh_fila_zap1 h (f_last top) ;;
        Ok (1, h)
      else Ok (1, h)
    else Ok (1, set_size h (h_size h + 1)).

(** DwHash.c 620-657, dwh_add. *)
Definition dwh_add (H : list Z -> Z) (now : Z) (h : hash) (key value : list Z)
           (ttl use_fila : Z) : res (Z * hash) :=
  if (0 <? ttl) || (ttl =? -2) then
    exp <- init_expire H now h key ttl ;;
    let '(new, h) := alloc_elem h (mkelem key value 0 0 exp 0 PNull) in
    '(r, h) <- dwh_place_new H h new use_fila ;;
    if r =? -1 then h <- free_elem h new ;; Ok (-1, h)
    else if use_fila =? 2 then h <- set_e_perm h new ;; Ok (1, h)
    else Ok (1, h)
  else Ok (1, h).

(** ** The public interface as a transition system *)
Inductive hop :=
| OpAdd (key value : list Z) (ttl : Z)         (* dwh_add(..., ttl, 1) *)
| OpAddPerm (key value : list Z) (ttl : Z)     (* dwh_add(..., ttl, 2) *)
| OpGet (key : list Z) (ignore_expire : Z)     (* dwh_get(..., ignore_expire, 1) *)
| OpTtl (key : list Z)                         (* dwh_get_ttl *)
| OpZap (key : list Z).                        (* dwh_zap(hash, key, 0, 1) *)

Inductive hout := OutCode (c : Z) | OutVal (v : option (list Z)) | OutTtl (t : Z).

Definition hstep (H : list Z -> Z) (now : Z) (h : hash) (o : hop) : res (hout * hash) :=
  match o with
  | OpAdd k v ttl => '(c, h) <- dwh_add H now h k v ttl 1 ;; Ok (OutCode c, h)
  | OpAddPerm k v ttl => '(c, h) <- dwh_add H now h k v ttl 2 ;; Ok (OutCode c, h)
  | OpGet k ign => '(v, h) <- dwh_get H now h k ign 1 ;; Ok (OutVal v, h)
  | OpTtl k => t <- dwh_get_ttl H now h k ;; Ok (OutTtl t, h)
  | OpZap k => '(c, h) <- dwh_zap H h k 1 ;; Ok (OutCode c, h)
  end.

(** A history: each operation with the time at which it runs. *)
Fixpoint hrun (H : list Z -> Z) (h : hash) (ops : list (Z * hop)) : res (list hout * hash) :=
  match ops with
  | [] => Ok ([], h)
  | (now, o) :: rest =>
      '(out, h) <- hstep H now h o ;;
      '(outs, h) <- hrun H h rest ;;
      Ok (out :: outs, h)
  end.
