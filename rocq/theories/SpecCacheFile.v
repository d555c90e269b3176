(** What can be kept in a cache file, and what may come out of one. *)
From Verif Require Import CBase SpecCache.

(** Keys and values are non-empty strings of at most 16 MiB, and the expiry time is a
    positive 63-bit number (0 and 1 mean "no such entry" in the file). *)
Definition storable_entry (en : centry) : Prop :=
  bytes (c_key en) /\ bytes (c_val en) /\
  0 < zlen (c_key en) <= 16777216 /\ 0 < zlen (c_val en) <= 16777216 /\
  2 <= c_exp en < 2 ^ 63.

Definition sound_entry (en : centry) : Prop :=
  bytes (c_key en) /\ bytes (c_val en) /\
  0 < zlen (c_key en) /\ 0 < zlen (c_val en) /\ 2 <= c_exp en.

(** The bytes 7f ff ff ff occur somewhere in the file. *)
Definition contains_max (file : list Z) : Prop :=
  exists before after, file = before ++ [127; 255; 255; 255] ++ after.
