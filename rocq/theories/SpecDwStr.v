(** What a valid Deadwood string object is, and what it contains. *)
From Verif Require Import CBase ModelDwStr.

(** The contents: the first [len] bytes of the buffer. *)
Definition con (s : dwstr) : list Z := zslice (d_mem s) 0 (d_len s).

(** A valid object: the allocation holds [max] bytes and one more, all of them bytes, and
    [len] is at most [max]; [dok]: one that also passes the sanity check.  Strings made by
    dw_create have two more. *)
Record dwf (s : dwstr) : Prop := {
  dwf_bytes : bytes (d_mem s);
  dwf_len : 0 <= d_len s <= d_max s;
  dwf_max : d_max s < 134217728;
  dwf_mem : d_max s + 1 <= zlen (d_mem s) }.
Definition dok (s : dwstr) : Prop := dwf s /\ d_len s < d_max s.
(** Whatever malloc leaves in memory, it is bytes. *)
Definition junk_ok (J : Z -> Z) : Prop := forall i, byte (J i).

