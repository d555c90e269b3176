(** What MaraDNS' strings are for: lists of octets with a bounded length.  Every operation is
    described here on lists only; PropsJsStr shows that the model of the C code does just this. *)
From Verif Require Import CBase ModelDwStr SpecDwStr ModelJsStr.

(** A valid js_string object: the buffer holds three units more than max_count, all of it octets. *)
Record j_wf (s : js) : Prop := {
  jw_size : 1 <= j_size s;
  jw_count : 0 <= j_count s <= j_max s;
  jw_mem : zlen (j_mem s) = (j_max s + 3) * j_size s;
  jw_small : (j_max s + 3) * j_size s < 2147483648;
  jw_bytes : bytes (j_mem s) }.

(** The string as a value: the octets of its [unit_count] units. *)
Record jstr := mkstr { s_unit : Z; s_cap : Z; s_enc : Z; s_oct : list Z }.
Definition octets_of (s : js) : list Z := zslice (j_mem s) 0 (j_size s * j_count s).
Definition value_of (s : js) : jstr := mkstr (j_size s) (j_max s) (j_enc s) (octets_of s).

(** Its length in units; an ASCII string with characters of several octets is rejected everywhere. *)
Definition s_len (s : jstr) : Z := zlen (s_oct s) / s_unit s.
Definition usable (s : jstr) : bool := negb ((s_enc s =? 2) && negb (s_unit s =? 1)).
Definition with_oct (s : jstr) (l : list Z) : jstr := mkstr (s_unit s) (s_cap s) (s_enc s) l.
(** Units [i .. i + n) *)
Definition units (s : jstr) (i n : Z) : list Z := zslice (s_oct s) (i * s_unit s) (n * s_unit s).

(** ** Operations that change a string: the code returned and the string afterwards *)
Definition s_set_encode (s : jstr) (e : Z) : Z * jstr :=
  if usable s && (1 <=? e) && (e <=? 3) then (0, mkstr (s_unit s) (s_cap s) e (s_oct s)) else (-1, s).

(** The first [count] units of [size] octets of a buffer. *)
Definition s_str2js (s : jstr) (buf : list Z) (count size : Z) : Z * jstr :=
  if (0 <=? count) && (count <=? s_cap s) && usable s && (size =? s_unit s)
  then (1, with_oct s (zslice buf 0 (count * size))) else (-1, s).

(** The result must be shorter than the capacity. *)
Definition s_append (a t : jstr) : Z * jstr :=
  if usable a && usable t && (s_unit a =? s_unit t) && (s_len a + s_len t <? s_cap t)
  then (0, with_oct t (s_oct t ++ s_oct a)) else (-1, t).

(** Before unit [w] of [t]; here the result may fill the capacity, unless [w] is the end. *)
Definition s_insert (a t : jstr) (w : Z) : Z * jstr :=
  if w =? s_len t then s_append a t
  else if usable a && usable t && (s_unit a =? s_unit t) && (0 <=? w) && (w <? s_len t) && (s_len a + s_len t <=? s_cap t)
  then (0, with_oct t (units t 0 w ++ s_oct a ++ units t w (s_len t - w))) else (-1, t).

(** Units [start .. start + count) of [s] become [d]. *)
Definition s_substr (s d : jstr) (start count : Z) : Z * jstr :=
  if usable s && usable d && (s_unit s =? s_unit d) && (0 <=? count) && (0 <=? start) && (start <? s_len s) &&
     (start + count <=? s_len s) && (count <? s_cap d)
  then (1, with_oct d (units s start count)) else (-1, d).

Definition s_copy (s d : jstr) : Z * jstr :=
  if usable s && usable d && (s_unit s =? s_unit d) && (s_len s <? s_cap d)
  then (1, mkstr (s_unit d) (s_cap d) (s_enc s) (s_oct s)) else (-1, d).

(** A C string [c] before or after a string of octets; it may have 1024 octets. *)
Definition s_qappend (c : list Z) (t : jstr) : Z * jstr :=
  if usable t && (zlen c <=? 1024) && (zlen c + s_len t <? s_cap t) then (0, with_oct t (s_oct t ++ c)) else (-1, t).
Definition s_qprepend (c : list Z) (t : jstr) : Z * jstr :=
  if usable t && (zlen c <=? 1024) && (zlen c + s_len t <? 1024) && (zlen c + s_len t <? s_cap t)
  then (1, with_oct t (c ++ s_oct t)) else (-1, t).

(** Numbers, most significant octet first. *)
Definition be (n : nat) (v : Z) : list Z := map (fun i => v / 256 ^ Z.of_nat i mod 256) (rev (seq 0 n)).
Definition s_add (t : jstr) (l : list Z) : Z * jstr :=
  if usable t && (s_unit t =? 1) && (s_len t + zlen l <? s_cap t) then (1, with_oct t (s_oct t ++ l)) else (-1, t).
Definition s_addbyte (t : jstr) (b : Z) : Z * jstr := s_add t (be 1 b).
Definition s_adduint16 (t : jstr) (v : Z) : Z * jstr := if (0 <=? v) && (v <=? 65535) then s_add t (be 2 v) else (-1, t).
Definition s_adduint32 (t : jstr) (v : Z) : Z * jstr := s_add t (be 4 v).
Definition s_changebyte (t : jstr) (b o : Z) : Z * jstr :=
  if usable t && (s_unit t =? 1) && (0 <=? o) && (o <? s_len t)
  then (1, with_oct t (zslice (s_oct t) 0 o ++ [b mod 256] ++ zslice (s_oct t) (o + 1) (s_len t - o - 1))) else (-1, t).

Definition s_substr_append (s d : jstr) (o l : Z) : Z * jstr :=
  if usable s && usable d && (s_unit s =? 1) && (s_unit d =? 1) && (0 <=? l) && (0 <=? o) && (o <? s_len s) &&
     (o + l <=? s_len s) && (s_len d + l <? s_cap d)
  then (1, with_oct d (s_oct d ++ zslice (s_oct s) o l)) else (-1, d).

(** Lower case, in ASCII and in Latin-1 (where the letters 192-222 but 215 have lower case forms). *)
Definition low_ascii (b : Z) : Z := if (65 <=? b) && (b <=? 90) then b + 32 else b.
Definition low_latin1 (b : Z) : Z :=
  if ((65 <=? b) && (b <=? 90)) || ((192 <=? b) && (b <=? 222) && negb (b =? 215)) then b + 32 else b.
Definition s_tolower (t : jstr) : Z * jstr :=
  if negb (usable t) || negb (s_unit t =? 1) then (-1, t)
  else if s_enc t =? 2 then (1, with_oct t (map low_ascii (s_oct t)))
  else if s_enc t =? 3 then (1, with_oct t (map low_latin1 (s_oct t)))
  else (0, t).

(** ** Questions *)
Definition s_issame (a b : jstr) : Z :=
  if usable a && usable b then if (s_unit a =? s_unit b) && zlist_eqb (s_oct a) (s_oct b) then 1 else 0 else -1.

(** The first of [n] places from [k] on where [f] holds; -2 if there is none. *)
Fixpoint first_from (n : nat) (k : Z) (f : Z -> bool) : Z :=
  match n with O => -2 | S n => if f k then k else first_from n (k + 1) f end.

Definition s_fgrep (e s : jstr) (o : Z) : Z :=
  if negb (usable e && usable s && (0 <=? o) && (o <=? s_len s)) then -1
  else if negb (s_unit e =? s_unit s) || (s_len s <? s_len e) then -2
  else if s_len e =? 0 then 0
  else first_from (Z.to_nat (s_len s - s_len e + 1 - o)) o (fun k => zlist_eqb (units s k (s_len e)) (s_oct e)).

(** A negative [o] counts from the end. *)
Definition s_search (want : bool) (e s : jstr) (o : Z) : Z :=
  let o := if o <? 0 then s_len s + o else o in
  if negb (usable e && usable s && (0 <=? o)) then -1
  else if negb (s_unit e =? s_unit s) || (s_len e =? 0) then -2
  else first_from (Z.to_nat (s_len s - o)) o
         (fun k => match zget (s_oct s) k with Some c => Bool.eqb (existsb (Z.eqb c) (s_oct e)) want | None => false end).

Definition s_length (s : jstr) : Z := if usable s then s_len s else -1.

Definition number (l : list Z) : Z := fold_left (fun v b => v * 256 + b) l 0.
Definition s_val (s : jstr) (o : Z) : Z :=
  if usable s && (0 <=? o) && (o <? s_len s) && (s_unit s <? 4) then number (units s o 1) else -1.

(** ** Reading: what the octet at [o], or the number at [o], should be *)
Definition s_readbyte (s : jstr) (o : Z) : Z :=
  if usable s && (s_unit s =? 1) && (0 <=? o) && (o + 1 <=? s_len s) then number (zslice (s_oct s) o 1) else -1.
Definition s_readuint16 (s : jstr) (o : Z) : Z :=
  if usable s && (s_unit s =? 1) && (0 <=? o) && (o + 2 <=? s_len s) then number (zslice (s_oct s) o 2) else -1.
(** The number 2^32 - 1 stands for an error; a string with this very number yields 2^32 - 2. *)
Definition s_readuint32 (s : jstr) (o : Z) : Z :=
  if usable s && (s_unit s =? 1) && (0 <=? o) && (o + 4 <=? s_len s) then Z.min (number (zslice (s_oct s) o 4)) 4294967294
  else 4294967295.

(** Decimal digits from [o] on, as long as there are any. *)
Fixpoint digits (l : list Z) : list Z :=
  match l with b :: l => if (48 <=? b) && (b <=? 57) then (b - 48) :: digits l else [] | [] => [] end.
Definition decimal (l : list Z) : Z := fold_left (fun v d => v * 10 + d) l 0.
Definition s_atoi (s : jstr) (o : Z) : Z :=
  if usable s && ((s_enc s =? 2) || (s_enc s =? 3)) && (0 <=? o) && (o <? s_len s)
  then decimal (digits (zslice (s_oct s) o (s_len s - o))) else 0.

(** ** Programs over many strings
    Strings are named by their place in the store.  A program outside the contract of the library
    has no meaning ([None]): numbers that are no C ints, one string used twice by one call, C
    strings and character sets with strings of wide characters, a substring whose end is no int. *)
Inductive jsop :=
| Create (max unit : Z)
| SetEncode (i : nat) (e : Z)
| Str2js (i : nat) (buf : list Z) (count size : Z)
| Append (i j : nat)
| Insert (i j : nat) (w : Z)
| Substr (i j : nat) (start count : Z)
| Copy (i j : nat)
| Qappend (c : list Z) (j : nat)
| Qprepend (c : list Z) (j : nat)
| Addbyte (j : nat) (b : Z)
| Changebyte (j : nat) (b o : Z)
| Adduint16 (j : nat) (v : Z)
| Adduint32 (j : nat) (v : Z)
| SubstrAppend (i j : nat) (o l : Z)
| Tolower (j : nat)
| Issame (i j : nat)
| Fgrep (i j : nat) (o : Z)
| Match (i j : nat) (o : Z)
| Notmatch (i j : nat) (o : Z)
| Length (j : nat)
| Val (j : nat) (o : Z).

Definition setn {A} (l : list A) (i : nat) (x : A) : list A := firstn i l ++ x :: skipn (S i) l.

(** The C calls. *)
Definition c_put (st : list js) (j : nat) (r : res (Z * js)) : res (Z * list js) :=
  ' (c, s) <- r ;; Ok (c, setn st j s).
Definition c_get (st : list js) (r : res Z) : res (Z * list js) := c <- r ;; Ok (c, st).
Definition c_one (st : list js) (j : nat) (k : js -> res (Z * list js)) : res (Z * list js) :=
  match nth_error st j with Some s => k s | None => Bad OutOfBounds end.
Definition c_two (st : list js) (i j : nat) (k : js -> js -> res (Z * list js)) : res (Z * list js) :=
  c_one st i (fun a => c_one st j (fun b => k a b)).
Definition c_op (J : Z -> Z) (op : jsop) (st : list js) : res (Z * list js) :=
  match op with
  | Create max unit => match js_create J max unit with Some s => Ok (1, st ++ [s]) | None => Ok (0, st) end
  | SetEncode j e => c_one st j (fun s => c_put st j (Ok (js_set_encode s e)))
  | Str2js j buf count size => c_one st j (fun s => c_put st j (js_str2js s buf count size))
  | Append i j => c_two st i j (fun a b => c_put st j (js_append a b))
  | Insert i j w => c_two st i j (fun a b => c_put st j (js_insert a b w))
  | Substr i j start count => c_two st i j (fun a b => c_put st j (js_substr a b start count))
  | Copy i j => c_two st i j (fun a b => c_put st j (js_copy a b))
  | Qappend c j => c_one st j (fun s => c_put st j (js_qappend J c s))
  | Qprepend c j => c_one st j (fun s => c_put st j (js_qprepend J c s))
  | Addbyte j b => c_one st j (fun s => c_put st j (js_addbyte s b))
  | Changebyte j b o => c_one st j (fun s => c_put st j (js_changebyte s b o))
  | Adduint16 j v => c_one st j (fun s => c_put st j (js_adduint16 s v))
  | Adduint32 j v => c_one st j (fun s => c_put st j (js_adduint32 s v))
  | SubstrAppend i j o l => c_two st i j (fun a b => c_put st j (js_substr_append J a b o l))
  | Tolower j => c_one st j (fun s => c_put st j (js_tolower s))
  | Issame i j => c_two st i j (fun a b => c_get st (js_issame a b))
  | Fgrep i j o => c_two st i j (fun a b => c_get st (js_fgrep_offset a b o))
  | Match i j o => c_two st i j (fun a b => c_get st (js_match_offset a b o))
  | Notmatch i j o => c_two st i j (fun a b => c_get st (js_notmatch_offset a b o))
  | Length j => c_one st j (fun s => Ok (js_length s, st))
  | Val j o => c_one st j (fun s => c_get st (js_val s o))
  end.

(** What they are to do. *)
Definition int (z : Z) : bool := (-2147483648 <=? z) && (z <? 2147483648).
Definition octets (l : list Z) : bool := forallb (fun b => (0 <=? b) && (b <? 256)) l.
Definition a_put (st : list jstr) (j : nat) (r : Z * jstr) : option (Z * list jstr) := Some (fst r, setn st j (snd r)).
Definition a_one (st : list jstr) (j : nat) (k : jstr -> option (Z * list jstr)) : option (Z * list jstr) :=
  match nth_error st j with Some s => k s | None => None end.
Definition a_two (st : list jstr) (i j : nat) (k : jstr -> jstr -> option (Z * list jstr)) : option (Z * list jstr) :=
  if Nat.eqb i j then None else a_one st i (fun a => a_one st j (fun b => k a b)).
Definition when {A} (b : bool) (x : option A) : option A := if b then x else None.
Definition a_op (op : jsop) (st : list jstr) : option (Z * list jstr) :=
  match op with
  | Create max unit => when ((0 <=? max) && (1 <=? unit) && ((max + 3) * unit <? 2147483648)) (Some (1, st ++ [mkstr unit max 1 []]))
  | SetEncode j e => when (int e) (a_one st j (fun s => a_put st j (s_set_encode s e)))
  | Str2js j buf count size =>
      when (int count && int size && octets buf && (count * size <=? zlen buf)) (a_one st j (fun s => a_put st j (s_str2js s buf count size)))
  | Append i j => a_two st i j (fun a b => a_put st j (s_append a b))
  | Insert i j w => when (int w) (a_two st i j (fun a b => a_put st j (s_insert a b w)))
  | Substr i j start count =>
      when (int start && int count && int (start + count)) (a_two st i j (fun a b => a_put st j (s_substr a b start count)))
  | Copy i j => a_two st i j (fun a b => a_put st j (s_copy a b))
  | Qappend c j => when (octets c && (zlen c <? 2147483648)) (a_one st j (fun s => when (s_unit s =? 1) (a_put st j (s_qappend c s))))
  | Qprepend c j => when (octets c && (zlen c <? 2147483648)) (a_one st j (fun s => when (s_unit s =? 1) (a_put st j (s_qprepend c s))))
  | Addbyte j b => when ((0 <=? b) && (b <? 256)) (a_one st j (fun s => a_put st j (s_addbyte s b)))
  | Changebyte j b o => when ((0 <=? b) && (b <? 256) && int o) (a_one st j (fun s => a_put st j (s_changebyte s b o)))
  | Adduint16 j v => when (int v) (a_one st j (fun s => a_put st j (s_adduint16 s v)))
  | Adduint32 j v => when ((0 <=? v) && (v <? 4294967296)) (a_one st j (fun s => a_put st j (s_adduint32 s v)))
  | SubstrAppend i j o l =>
      when (int o && (0 <=? l) && (l <? 2147483600) && int (o + l)) (a_two st i j (fun a b => a_put st j (s_substr_append a b o l)))
  | Tolower j => a_one st j (fun s => a_put st j (s_tolower s))
  | Issame i j => a_two st i j (fun a b => Some (s_issame a b, st))
  | Fgrep i j o => when (int o) (a_two st i j (fun a b => Some (s_fgrep a b o, st)))
  | Match i j o => when (int o) (a_two st i j (fun a b => when (s_unit b =? 1) (Some (s_search true a b o, st))))
  | Notmatch i j o => when (int o) (a_two st i j (fun a b => when (s_unit b =? 1) (Some (s_search false a b o, st))))
  | Length j => a_one st j (fun s => Some (s_length s, st))
  | Val j o => when (int o) (a_one st j (fun s => Some (s_val s o, st)))
  end.

(** Whole programs, with the codes they see.  [J n] is what malloc finds in the memory it hands
    out during operation [n]. *)
Fixpoint c_run (J : nat -> Z -> Z) (n : nat) (ops : list jsop) (st : list js) : res (list Z * list js) :=
  match ops with
  | [] => Ok ([], st)
  | op :: ops => ' (c, st) <- c_op (J n) op st ;; ' (cs, st) <- c_run J (S n) ops st ;; Ok (c :: cs, st)
  end.
Fixpoint a_run (ops : list jsop) (st : list jstr) : option (list Z * list jstr) :=
  match ops with
  | [] => Some ([], st)
  | op :: ops =>
      match a_op op st with
      | Some (c, st) => match a_run ops st with Some (cs, st) => Some (c :: cs, st) | None => None end
      | None => None
      end
  end.
