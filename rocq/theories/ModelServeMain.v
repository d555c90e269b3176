(** Model of server/MaraDNS.c: what is done with a datagram that was received (main, 4641-4737). *)
From Verif Require Import CBase ModelJsStr ModelMaraHash ModelDecomp ModelServe.

(** MaraDNS.c 4645-4732, with log_level below 3: the datagram in [incoming] is decompressed into
    [uncomp] and then looked at; one that cannot be decompressed is dropped.  [formats]: what
    decomp_init (4617) made.  Left out: the address of the client, debug_delay. *)
Definition datagram {V} (auth : V -> bool) (add : Z) (h : mhash V) (c : conf) (formats : list (list rrdesc)) (J0 J1 J2 J : Z -> Z) (incoming uncomp : js) : res (outcome V) :=
  match decompress_data J0 formats incoming uncomp with
  | Ok uncomp => ' (_, o) <- proc_query auth add h c J1 J2 J uncomp ;; Ok o
  | Fail => Ok Quiet
  | Bad f => Bad f
  end.
