(** What a cache with recency eviction, expiry and permanent entries must do.  This
    specification knows nothing of hashing, chains or pointers. *)
From Verif Require Import CBase.

Record centry := mkentry { c_key : list Z; c_val : list Z; c_exp : Z }.

(** [recent]: ordinary entries, most recently used first.  [perm]: entries that are
    never replaced, removed, evicted or expired. *)
Record cache := mkcache { recent : list centry; perm : list centry; capacity : Z }.

Definition empty_cache (cap : Z) : cache := mkcache [] [] cap.

Definition c_find (k : list Z) (l : list centry) : option centry :=
  find (fun e => zlist_eqb k (c_key e)) l.
Definition c_remove (k : list Z) (l : list centry) : list centry :=
  filter (fun e => negb (zlist_eqb k (c_key e))) l.

(** Times are in 1/256 second.  TTLs are kept between 30 seconds and two years. *)
Definition clamp_ttl (ttl : Z) : Z := Z.max 30 (Z.min ttl 63072000).

(** An entry is fresh until its expiry time; one that claims to expire more than three
    years from now is not trusted. *)
Definition fresh (now : Z) (e : centry) : Prop := now <= c_exp e <= now + 24219648000.
Definition freshb (now : Z) (e : centry) : bool :=
  (now <=? c_exp e) && (c_exp e <=? now + 24219648000).

(** Store [k -> v]: the new entry is the most recently used; if that makes the cache
    full, the least recently used entry goes. *)
Definition c_insert (c : cache) (e : centry) : cache :=
  let l := e :: c_remove (c_key e) (recent c) in
  let l := if capacity c <=? zlen l + zlen (perm c) then removelast l else l in
  mkcache l (perm c) (capacity c).

(** The special TTL -2 keeps the expiry time of the entry being replaced. *)
Definition new_expiry (c : cache) (now : Z) (k : list Z) (ttl : Z) : Z :=
  if ttl =? -2
  then match c_find k (recent c) with Some e => c_exp e | None => now + 256 * 30 end
  else now + 256 * clamp_ttl ttl.

(** A TTL that is neither positive nor -2 means "do not store". *)
Definition storable (ttl : Z) : bool := (0 <? ttl) || (ttl =? -2).

Definition c_add (c : cache) (now : Z) (k v : list Z) (ttl : Z) : Z * cache :=
  if negb (storable ttl) then (1, c)
  else match c_find k (perm c) with
       | Some _ => (-1, c)
       | None => (1, c_insert c (mkentry k v (new_expiry c now k ttl)))
       end.

Definition c_add_perm (c : cache) (k v : list Z) (ttl : Z) : Z * cache :=
  if negb (storable ttl) then (1, c)
  else match c_find k (perm c) with
       | Some _ => (-1, c)
       | None => (1, mkcache (recent c) (mkentry k v 0 :: perm c) (capacity c))
       end.

(** A successful lookup makes the entry the most recently used one. *)
Definition c_get (c : cache) (now : Z) (k : list Z) (even_if_expired : bool)
  : option (list Z) * cache :=
  match c_find k (perm c) with
  | Some e => (Some (c_val e), c)
  | None =>
      match c_find k (recent c) with
      | None => (None, c)
      | Some e =>
          if even_if_expired || freshb now e
          then (Some (c_val e), mkcache (e :: c_remove k (recent c)) (perm c) (capacity c))
          else (None, c)
      end
  end.

(** Remaining life in whole seconds; -1 if there is none to speak of. *)
Definition c_ttl (c : cache) (now : Z) (k : list Z) : Z :=
  match c_find k (perm c) with
  | Some _ => -1
  | None =>
      match c_find k (recent c) with
      | None => -1
      | Some e =>
          let s := (c_exp e - now) / 256 in
          if (0 <=? s) && (s <=? 31536000) then s else -1
      end
  end.

Definition c_zap (c : cache) (k : list Z) : Z * cache :=
  match c_find k (perm c) with
  | Some _ => (-1, c)
  | None =>
      match c_find k (recent c) with
      | None => (0, c)
      | Some _ => (1, mkcache (c_remove k (recent c)) (perm c) (capacity c))
      end
  end.
