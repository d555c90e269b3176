(** Histories of cache operations, and what the specification of [SpecCache] answers to
    them.  The operations and their possible answers are those of the interface in
    [ModelDwHash]; nothing else of the model is used. *)
From Verif Require Import CBase ModelDwHash SpecCache.

Definition c_step (now : Z) (c : cache) (o : hop) : hout * cache :=
  match o with
  | OpAdd k v ttl => let '(r, c) := c_add c now k v ttl in (OutCode r, c)
  | OpAddPerm k v ttl => let '(r, c) := c_add_perm c k v ttl in (OutCode r, c)
  | OpGet k ign => let '(v, c) := c_get c now k (ign =? 1) in (OutVal v, c)
  | OpTtl k => (OutTtl (c_ttl c now k), c)
  | OpZap k => let '(r, c) := c_zap c k in (OutCode r, c)
  end.

Fixpoint c_run (c : cache) (ops : list (Z * hop)) : list hout * cache :=
  match ops with
  | [] => ([], c)
  | (now, o) :: rest =>
      let '(out, c) := c_step now c o in
      let '(outs, c) := c_run c rest in (out :: outs, c)
  end.

(** What the caller must respect: times are positive, and a permanent entry is never
    added over an ordinary one that is still there. *)
Definition allowed (now : Z) (c : cache) (o : hop) : Prop :=
  0 < now /\
  match o with
  | OpAddPerm k _ _ => c_find k (recent c) = None
  | _ => True
  end.

(** No hash bucket holds more than 32000 entries. *)
Definition uncrowded (bucket_of : list Z -> Z) (c : cache) : Prop :=
  forall b, (length (filter (fun e => (bucket_of (c_key e) =? b)%Z) (recent c ++ perm c)) <= Z.to_nat 32000)%nat.

(** Both, before each operation of a history. *)
Fixpoint good_history (bucket_of : list Z -> Z) (c : cache) (ops : list (Z * hop)) : Prop :=
  match ops with
  | [] => True
  | (now, o) :: rest =>
      allowed now c o /\ uncrowded bucket_of c /\ good_history bucket_of (snd (c_step now c o)) rest
  end.

(** The same without the condition on buckets. *)
Fixpoint allowed_history (c : cache) (ops : list (Z * hop)) : Prop :=
  match ops with
  | [] => True
  | (now, o) :: rest => allowed now c o /\ allowed_history (snd (c_step now c o)) rest
  end.

(** How many permanent entries a history may create at most. *)
Fixpoint perm_adds (ops : list (Z * hop)) : Z :=
  match ops with
  | [] => 0
  | (_, OpAddPerm _ _ _) :: rest => 1 + perm_adds rest
  | _ :: rest => perm_adds rest
  end.

(** Where the value of a key should come from, given a history and its answers: the last
    store of that key which was accepted, unless a later deletion succeeded. *)
Inductive origin := Ordinary (t : Z) (v : list Z) (ttl : Z) | Permanent (v : list Z).
Definition latest_step (k : list Z) (cur : option origin) (ev : (Z * hop) * hout) : option origin :=
  match ev with
  | ((now, OpAdd k' v ttl), OutCode r) =>
      if zlist_eqb k k' && (r =? 1) && storable ttl then Some (Ordinary now v ttl) else cur
  | ((_, OpAddPerm k' v ttl), OutCode r) =>
      if zlist_eqb k k' && (r =? 1) && storable ttl then Some (Permanent v) else cur
  | ((_, OpZap k'), OutCode r) => if zlist_eqb k k' && (r =? 1) then None else cur
  | _ => cur
  end.
Definition latest (k : list Z) (ops : list (Z * hop)) (outs : list hout) : option origin :=
  fold_left (latest_step k) (combine ops outs) None.

(** The keys a history stores or looks up. *)
Fixpoint touched (ops : list (Z * hop)) : list (list Z) :=
  match ops with
  | [] => []
  | (_, OpAdd k _ _) :: rest => k :: touched rest
  | (_, OpGet k _) :: rest => k :: touched rest
  | _ :: rest => touched rest
  end.

(** The history neither deletes nor stores [k]. *)
Fixpoint leaves_alone (k : list Z) (ops : list (Z * hop)) : Prop :=
  match ops with
  | [] => True
  | (_, OpAdd k' _ _) :: rest | (_, OpAddPerm k' _ _) :: rest | (_, OpZap k') :: rest =>
      k' <> k /\ leaves_alone k rest
  | _ :: rest => leaves_alone k rest
  end.
