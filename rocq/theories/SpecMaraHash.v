(** What MaraDNS' associative arrays are for: finite maps from strings to values. *)
From Verif Require Import CBase ModelDwStr SpecDwStr ModelJsStr SpecJsStr ModelMaraHash.

(** What counts in a key: the size of its characters and its octets. *)
Definition kid : Type := Z * list Z.
Definition kid_of (k : js) : kid := (j_size k, octets_of k).
Definition kid_eqb (a b : kid) : bool := (fst a =? fst b) && zlist_eqb (snd a) (snd b).

(** A valid string short enough to be copied with one unit to spare. *)
Definition str_ok (k : js) : Prop := j_wf k /\ (j_count k + 4) * j_size k < 2147483648.
(** ASCII strings must have characters of one octet. *)
Definition usable_key (k : js) : bool := usable (value_of k).

(** ** The map *)
Definition amap (V : Type) : Type := kid -> option (V * Z).
Definition empty {V} : amap V := fun _ => None.
Definition a_set {V} (m : amap V) (k : kid) (v : option (V * Z)) : amap V := fun x => if kid_eqb k x then v else m x.

Inductive op (V : Type) :=
| Put (J : Z -> Z) (k : js) (v : V) (dt : Z)
| Get (k : js)
| Key (k : js)
| Undef (k : js)
| Resize (J : Z -> Z) (bits : Z)
| Autogrow (J : Z -> Z).
Arguments Put {V}. Arguments Get {V}. Arguments Key {V}. Arguments Undef {V}. Arguments Resize {V}. Arguments Autogrow {V}.

(** What the caller sees. *)
Inductive answer (V : Type) :=
| Code (c : Z)
| Value (v : option V) (dt : Z)
| Old (v : option V)
| TheKey (k : option kid)
| Done.
Arguments Code {V}. Arguments Value {V}. Arguments Old {V}. Arguments TheKey {V}. Arguments Done {V}.

(** Putting a key that is there is an error; a value can be looked up and removed. *)
Definition a_step {V} (m : amap V) (o : op V) : answer V * amap V :=
  match o with
  | Put _ k v dt => if usable_key k then match m (kid_of k) with None => (Code 1, a_set m (kid_of k) (Some (v, dt))) | Some _ => (Code (-1), m) end else (Code (-1), m)
  | Get k => (if usable_key k then match m (kid_of k) with Some (v, dt) => Value (Some v) dt | None => Value None 0 end else Value None (-1), m)
  | Key k => (TheKey (if usable_key k then match m (kid_of k) with Some _ => Some (kid_of k) | None => None end else None), m)
  | Undef k => if usable_key k then (Old (option_map fst (m (kid_of k))), a_set m (kid_of k) None) else (Old None, m)
  | Resize _ b => (Code (if (1 <=? b) && (b <=? 29) then 1 else -1), m)
  | Autogrow _ => (Done, m)
  end.
Fixpoint a_run {V} (m : amap V) (os : list (op V)) : list (answer V) * amap V :=
  match os with
  | [] => ([], m)
  | o :: os => let (r, m) := a_step m o in let (rs, m) := a_run m os in (r :: rs, m)
  end.

(** ** The program *)
Definition step {V} (add : Z) (h : mhash V) (o : op V) : res (answer V * mhash V) :=
  match o with
  | Put J k v dt => ' (r, h) <- mhash_put J add h k v dt ;; Ok (Code r, h)
  | Get k => ' (v, dt) <- mhash_get add h k ;; Ok (Value v dt, h)
  | Key k => o <- mhash_get_immutable_key add h k ;; Ok (TheKey (option_map kid_of o), h)
  | Undef k => ' (v, h) <- mhash_undef add h k ;; Ok (Old v, h)
  | Resize J b => ' (r, h) <- mhash_resize J add h b ;; Ok (Code r, h)
  | Autogrow J => ' (_, h) <- mhash_autogrow J add h ;; Ok (Done, h)
  end.
Fixpoint run {V} (add : Z) (h : mhash V) (os : list (op V)) : res (list (answer V) * mhash V) :=
  match os with
  | [] => Ok ([], h)
  | o :: os => ' (r, h) <- step add h o ;; ' (rs, h) <- run add h os ;; Ok (r :: rs, h)
  end.

Definition op_ok {V} (o : op V) : Prop :=
  match o with
  | Put J k _ _ => junk_ok J /\ str_ok k
  | Get k | Key k | Undef k => j_wf k
  | Resize J b => junk_ok J /\ b <= 24
  | Autogrow J => junk_ok J
  end.

(** ** Going through all keys: the keys found, until the function gives 0 *)
Fixpoint walk {V} (add : Z) (n : nat) (h : mhash V) (buf : js) : res (list kid * bool) :=
  match n with
  | O => Ok ([], false)
  | S n =>
      ' (r, buf) <- mhash_nextkey add h buf ;;
      if r =? 0 then Ok ([], true)
      else if r =? 1 then ' (ks, e) <- walk add n h buf ;; Ok (kid_of buf :: ks, e)
      else Ok ([], false)
  end.
Definition all_keys {V} (add : Z) (n : nat) (h : mhash V) (buf : js) : res (list kid * bool) :=
  ' (r, buf) <- mhash_firstkey h buf ;;
  if r =? 0 then Ok ([], true)
  else if r =? 1 then ' (ks, e) <- walk add n h buf ;; Ok (kid_of buf :: ks, e)
  else Ok ([], false).
