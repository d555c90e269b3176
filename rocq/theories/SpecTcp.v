(** DNS over TCP (RFC 1035 4.2.2): messages in a stream, and what a client may ask.  Only the
    type of events is the model's. *)
From Verif Require Import CBase SpecNames SpecQuery SpecAcl ModelDwTcp.

(** A message in a stream: its length, then the message. *)
Definition frame (p : list Z) : list Z := num2 (zlen p) ++ p.
(** The lengths that can be sent. *)
Definition sendable (p : list Z) : Prop := 12 <= zlen p < 65536.

(** A message that asks one question, perhaps with one additional record (as EDNS has it); the
    ID is [id]. *)
Definition asks (p : list Z) (id ar : Z) : Prop :=
  exists h rest n t0 t1, header_ok h /\ p = header_bytes h ++ rest /\ plain_query h /\ h_id h = id /\ h_arcount h = ar /\ (ar = 0 \/ ar = 1) /\
    query_name_at p 12 (zlen p) n /\ zslice p (12 + zlen (wire n)) 2 = [t0; t1] /\ ~ 65392 <= t0 * 256 + t1 <= 65407.

(** The lengths the code reads right: all of them if [char] is unsigned, else those the two
    octets of which are below 128. *)
Definition readable (cf : tconf) (p : list Z) : Prop := cf_signed cf = true -> zlen p / 256 < 128 /\ zlen p mod 256 < 128.

(** The handlings of the connection in which the network has at least one octet of the client
    (or that it has ended); in which it takes at least one octet for the client. *)
Definition brings (ev : tevent) : bool := match ev with Tick e => match te_rl e with Some k => 1 <=? k | None => false end | _ => false end.
Definition takes (ev : tevent) : bool := match ev with Tick e => match te_sl e with Some k => 1 <=? k | None => false end | _ => false end.
Definition is_tick (ev : tevent) : Prop := exists e, ev = Tick e.
(** ... in which it takes all it is given for the client. *)
Definition takes_all (ev : tevent) : Prop := exists e k, ev = Tick e /\ te_sl e = Some k /\ 65537 <= k.
Definition count_ev (f : tevent -> bool) (evs : list tevent) : Z := zlen (filter f evs).
Definition prefix (a b : list Z) : Prop := exists c, b = a ++ c.
(** ... in which it has nothing of the client. *)
Definition mute (ev : tevent) : Prop := exists e, ev = Tick e /\ te_rl e = None.
(** ... in which it moves at least one octet to and from the upstream server. *)
Definition eager_ev (ev : tevent) : bool := match ev with Tick e => match te_ru e, te_su e with Some x, Some y => (1 <=? x) && (1 <=? y) | _, _ => false end | _ => false end.

(** A reply is not handed to a connection which is forwarding one from upstream (state 6). *)
Definition quiet (ev : tevent) (w : tworld) : Prop := match ev with GotReply _ _ | Retry _ _ => tc_state (tw_c w) <> 6 | _ => True end.
Fixpoint calm (J : Z -> Z) (cf : tconf) (evs : list tevent) (w : tworld) : Prop :=
  match evs with [] => True | ev :: evs => quiet ev w /\ forall w', tcp_step J cf ev w = Ok w' -> calm J cf evs w' end.

(** ** A slot and the clients which use it one after the other *)
(** A client connects; the slot is handled, or has expired; the reply to a query comes, which
    the slot's number was remembered for.  [snd]: how many such queries there are. *)
Inductive sevent := SAccept (now : Z) (stream : list Z) | STick (e : tenv) | SExpire (now : Z) | SReply (now : Z) (packet : list Z).
Definition slot_step (J : Z -> Z) (cf : tconf) (ev : sevent) (sl : tworld * nat) : res (tworld * nat) :=
  let '(w, due) := sl in
  match ev with
  | SAccept now s => Ok (if tc_local (tw_c w) then (w, due) else (tcp_accept J cf now s, due))
  | STick e => w' <- tcp_handle_all J cf e w ;; Ok (w', (due + (length (tw_query w') - length (tw_query w)))%nat)
  | SExpire now => Ok (kill_tcp_expired now w, due)
  | SReply now p => match due with O => Ok (w, due) | S due => w' <- tcp_return_reply J cf now p w ;; Ok (w', due) end
  end.
Fixpoint slot_run (J : Z -> Z) (cf : tconf) (evs : list sevent) (sl : tworld * nat) : res (tworld * nat) :=
  match evs with [] => Ok sl | ev :: evs => sl <- slot_step J cf ev sl ;; slot_run J cf evs sl end.
Definition empty_slot : tworld * nat := (mktw tc_reset [] [] false [] [] false [], 0%nat).
(** No connection expires while it waits for a reply (state 1). *)
Fixpoint patient (J : Z -> Z) (cf : tconf) (evs : list sevent) (sl : tworld * nat) : Prop :=
  match evs with
  | [] => True
  | ev :: evs =>
      match ev with SExpire now => tc_state (tw_c (fst sl)) = 1 -> now <= tc_die (tw_c (fst sl)) | _ => True end /\
      forall sl', slot_step J cf ev sl = Ok sl' -> patient J cf evs sl'
  end.
(** Clients send octets. *)
Definition opens_well (ev : sevent) : Prop := match ev with SAccept _ s => bytes s | _ => True end.
