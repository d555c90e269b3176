(** What a dictionary must do. *)
From Coq Require Import Permutation.
From Verif Require Import CBase.

(** Keys with their values, each key once. *)
Definition dict := list (list Z * list Z).
Definition d_remove (k : list Z) (m : dict) : dict := filter (fun kv => negb (zlist_eqb k (fst kv))) m.
Definition d_add (k v : list Z) (m : dict) : dict := (k, v) :: d_remove k m.
Definition d_fetch (k : list Z) (m : dict) : option (list Z) :=
  option_map snd (find (fun kv => zlist_eqb k (fst kv)) m).

(** The operations of a dictionary, what they return, and a whole history. *)
Inductive dop := DAdd (key value : list Z) | DFetch (key : list Z) | DSize.
Inductive dout := DDone | DVal (v : option (list Z)) | DNum (n : Z).
Definition d_step (m : dict) (o : dop) : dout * dict :=
  match o with
  | DAdd k v => (DDone, d_add k v m)
  | DFetch k => (DVal (d_fetch k m), m)
  | DSize => (DNum (zlen m), m)
  end.
Fixpoint d_run (m : dict) (ops : list dop) : list dout * dict :=
  match ops with
  | [] => ([], m)
  | o :: rest => let '(out, m) := d_step m o in let '(outs, m) := d_run m rest in (out :: outs, m)
  end.

(** [next] walks through [keys]: from the start to the first, from each to the one after
    it, and from the last to nothing. *)
Fixpoint walks (next : option (list Z) -> res (option (list Z))) (from : option (list Z)) (keys : list (list Z)) : Prop :=
  match keys with
  | [] => next from = Ok None
  | k :: rest => next from = Ok (Some k) /\ walks next (Some k) rest
  end.

(** The limit of the implementation: it looks at no more than 10000 elements of one
    chain.  [few]: no chain of a table with this mask is longer. *)
Definition few (H : list Z -> Z) (mask : Z) (m : dict) : Prop :=
  forall b, (length (filter (fun kv => (Z.land (H (fst kv)) mask =? b)%Z) m) <= Z.to_nat 10000)%nat.
(** The mask after an insertion that leaves [size] elements. *)
Definition next_mask (mask size : Z) : Z := if size <? mask then mask else Z.min (2 * mask + 1) 268435455.
(** No chain ever gets longer in this history. *)
Fixpoint spread (H : list Z -> Z) (mask : Z) (m : dict) (ops : list dop) : Prop :=
  match ops with
  | [] => True
  | DAdd k v :: rest =>
      let m := d_add k v m in
      let mask' := next_mask mask (zlen m) in
      few H mask m /\ few H mask' m /\ spread H mask' m rest
  | _ :: rest => spread H mask m rest
  end.
