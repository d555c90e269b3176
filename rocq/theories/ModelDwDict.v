(** Model of Deadwood's dictionaries (deadwood-github/src/DwDict.c), which hold the
    dictionary variables of dwood3rc: DwHash.c tables without a fila that grow. *)
From Verif Require Import CBase SpecDict ModelDwHash.

(** DwDict.c 38-40, dwd_init: dwh_hash_init(2) (the global cache size is only looked at
    for an argument of 0). *)
Definition dwd_init : hash := dwh_hash_init 0 2.

(** DwHash.c 687-691: move one chain, at most 10000 elements of it. *)
Definition MOVE_MAX : nat := Z.to_nat 10000.
Fixpoint grow_chain (n : nat) (H : list Z -> Z) (new : hash) (point : Z) : res hash :=
  match n with
  | O => Ok new
  | S n =>
      if point =? 0 then Ok new
      else
        e <- ge new point ;;
        '(_, new) <- dwh_place_new H new point 0 ;;
        grow_chain n H new (e_next e)
  end.
(** DwHash.c 685-692: all chains; [tab] is what is left of the old table. *)
Fixpoint grow_buckets (H : list Z -> Z) (tab : list Z) (new : hash) : res hash :=
  match tab with
  | [] => Ok new
  | p :: rest => new <- grow_chain MOVE_MAX H new p ;; grow_buckets H rest new
  end.
(** DwHash.c 667-695, dwh_hash_autogrow.  The two tables share the heap; the old table is
    freed (dwh_hash_zap frees no elements). *)
Definition dwh_hash_autogrow (H : list Z -> Z) (h : hash) : res hash :=
  if negb (h_fila h =? 0) then Ok h
  else if h_size h <? h_mask h then Ok h
  else if negb (Z.land (h_mask h + 1) (h_mask h) =? 0) then Ok h
  else
    let t := dwh_hash_init 0 (h_mask h + 1) in
    grow_buckets H (zslice (h_tab h) 0 (h_mask h + 1))
      (mkhash (h_elems h) (h_filas h) (h_brk h) (h_fila t) (h_tab t) (h_mask t) (h_size t) (h_max t)).

(** DwDict.c 54-61, dwd_add. *)
Definition dwd_add (H : list Z -> Z) (now : Z) (h : hash) (key value : list Z) : res hash :=
  '(a, h) <- dwh_add H now h key value 1 0 ;;
  if a =? -1 then Ok h else dwh_hash_autogrow H h.

(** DwDict.c 66-69, dwd_fetch. *)
Definition dwd_fetch (H : list Z -> Z) (now : Z) (h : hash) (key : list Z) : res (option (list Z)) :=
  '(v, _) <- dwh_get H now h key 1 0 ;; Ok v.

(** DwDict.c 74-111, dwd_nextkey; [None] is a NULL key or result.  First the inner loop:
    [inl k] is a return, [inr found] falls through to the next bucket. *)
Fixpoint nextkey_chain (n : nat) (h : hash) (key : option (list Z)) (found : bool) (point : Z)
  : res (list Z + bool) :=
  match n with
  | O => Ok (inr found)
  | S n =>
      if point =? 0 then Ok (inr found)
      else
        e <- ge h point ;;
        if found then Ok (inl (e_key e))
        else nextkey_chain n h key
               (match key with Some k => zlist_eqb (e_key e) k | None => false end) (e_next e)
  end.
Fixpoint nextkey_buckets (h : hash) (key : option (list Z)) (found : bool) (tab : list Z)
  : res (option (list Z)) :=
  match tab with
  | [] => Ok None
  | p :: rest =>
      r <- nextkey_chain MOVE_MAX h key found p ;;
      match r with inl k => Ok (Some k) | inr found => nextkey_buckets h key found rest end
  end.
Definition dwd_nextkey (H : list Z -> Z) (h : hash) (key : option (list Z)) : res (option (list Z)) :=
  let count := match key with None => 0 | Some k => Z.land (H k) (h_mask h) end in
  nextkey_buckets h key (match key with None => true | Some _ => false end)
                  (zslice (h_tab h) count (h_mask h + 1 - count)).

(** ** As a transition system *)
Definition dstep (H : list Z -> Z) (now : Z) (h : hash) (o : dop) : res (dout * hash) :=
  match o with
  | DAdd k v => h <- dwd_add H now h k v ;; Ok (DDone, h)
  | DFetch k => v <- dwd_fetch H now h k ;; Ok (DVal v, h)
  | DSize => Ok (DNum (h_size h), h)
  end.
Fixpoint drun (H : list Z -> Z) (h : hash) (ops : list (Z * dop)) : res (list dout * hash) :=
  match ops with
  | [] => Ok ([], h)
  | (now, o) :: rest =>
      '(out, h) <- dstep H now h o ;;
      '(outs, h) <- drun H h rest ;;
      Ok (out :: outs, h)
  end.
