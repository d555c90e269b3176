(** Model of deadwood-github/src/DwTcpSocket.c: one slot of tcp_pend, that is one connection
    of a client over TCP, and the connection upstream it may need.

    The network is an oracle: every call of recv and send says how many octets it moves, so
    that every way of splitting a stream, and every order of events, is covered.  Memory is
    always available.  [J]: what is in memory that has been allocated. *)
From Verif Require Import CBase SpecDwStr ModelDwStr ModelDwSys.

(** DwSocket.h 188-197, tcp_pend_T.  [tc_local], [tc_up]: whether the field is a socket (and
    not INVALID_SOCKET). *)
Record tconn := mktc {
  tc_local : bool; tc_up : bool; tc_buf : option (list Z);
  tc_wanted : Z; tc_got : Z; tc_sent : Z; tc_state : Z; tc_die : Z }.

(** DwSocket.h 200-207, init_tcp_pend, and 218-227, reset_tcp_pend (the buffer is freed). *)
Definition tc_reset : tconn := mktc false false None 0 0 0 0 0.

(** The slot and what is around it.  [tw_cin], [tw_uin]: what the client and the upstream
    server send and has not been received yet; [tw_cout], [tw_uout]: what has been sent to
    them; [tw_copen], [tw_uopen]: whether the socket is open; [tw_query]: the ID and the packet
    of the queries handed to forward_local_udp_packet. *)
Record tworld := mktw {
  tw_c : tconn;
  tw_cin : list Z; tw_cout : list Z; tw_copen : bool;
  tw_uin : list Z; tw_uout : list Z; tw_uopen : bool;
  tw_query : list (Z * list Z) }.

Definition set_c (w : tworld) (c : tconn) : tworld :=
  mktw c (tw_cin w) (tw_cout w) (tw_copen w) (tw_uin w) (tw_uout w) (tw_uopen w) (tw_query w).

(** What is not part of the code: the timeouts (in seconds), whether [char] is signed. *)
Record tconf := mktcf { cf_tcp : Z; cf_udp : Z; cf_signed : bool }.

(** What happens during one call of tcp_handle_all: the time; for the socket of the client
    (l) and upstream (u), what recv (r) and send (s) do: [None] is -1; [Some k] is at most [k]
    octets. *)
Record tenv := mkte { te_now : Z; te_rl : option Z; te_sl : option Z; te_ru : option Z; te_su : option Z }.

Definition soon (now timeout : Z) : Z := now + timeout * 256.

(** recv of at most [n] octets from [s], with what is left of [s]; -1 is [None]. *)
Definition net_recv (open : bool) (k : option Z) (n : Z) (s : list Z) : option (list Z) * list Z :=
  match k with
  | Some k =>
      if open then let m := Z.to_nat (Z.min k n) in (Some (firstn m s), skipn m s) else (None, s)
  | None => (None, s)
  end.

(** send of [n] octets of [m] from [off]: those sent; -1 is [None].  All of the [n] octets must
    be in memory. *)
Definition net_send (open : bool) (k : option Z) (m : list Z) (off n : Z) : res (option (list Z)) :=
  if (off <? 0) || (n <? 0) || (zlen m <? off + n) then Bad OutOfBounds
  else
    match k with
    | Some k => Ok (if open then Some (zslice m off (Z.min k n)) else None)
    | None => Ok None
    end.

(** memcpy of [l] to [off] in [m]. *)
Definition put_at (m : list Z) (off : Z) (l : list Z) : res (list Z) := copy_bytes (length l) l 0 m off.

Definition buf_of (c : tconn) : res (list Z) := match tc_buf c with Some m => Ok m | None => Bad NullDeref end.

(** closesocket(local) and reset_tcp_pend; [close_both] also closes upstream first. *)
Definition close_local (w : tworld) : tworld :=
  mktw tc_reset (tw_cin w) (tw_cout w) (if tc_local (tw_c w) then false else tw_copen w)
       (tw_uin w) (tw_uout w) (tw_uopen w) (tw_query w).
Definition close_both (w : tworld) : tworld :=
  mktw tc_reset (tw_cin w) (tw_cout w) (if tc_local (tw_c w) then false else tw_copen w)
       (tw_uin w) (tw_uout w) (if tc_up (tw_c w) then false else tw_uopen w) (tw_query w).

(** DwTcpSocket.c 147-190, local_tcp_accept, from 176: the client may use the server.  The slot
    is initialised, so nothing is known about the upstream socket it had. *)
Definition tcp_accept (J : Z -> Z) (cf : tconf) (now : Z) (stream : list Z) : tworld :=
  mktw (mktc true false (Some (mkjunk J 3)) 2 0 0 0 (soon now (cf_tcp cf))) stream [] true [] [] false [].

(** DwTcpSocket.c 194-217, tcp_get_wanted. *)
Definition tcp_get_wanted (cf : tconf) (e : tenv) (w : tworld) : res tworld :=
  let c := tw_c w in
  let toget := tc_wanted c - tc_got c in
  if (0 <? toget) && (tc_state c =? 0) then
    let '(r, rest) := net_recv (tc_local c) (te_rl e) toget (tw_cin w) in
    match r with
    | None => Ok w
    | Some l =>
        m <- buf_of c ;;
        m <- put_at m (tc_got c) l ;;
        Ok (mktw (mktc (tc_local c) (tc_up c) (Some m) (tc_wanted c) (tc_got c + zlen l) (tc_sent c) (tc_state c)
                       (soon (te_now e) (cf_tcp cf)))
                 rest (tw_cout w) (tw_copen w) (tw_uin w) (tw_uout w) (tw_uopen w) (tw_query w))
    end
  else Ok w.

(** DwTcpSocket.c 254-300, tcp_to_udp.  get_reply_from_cache is called without a client (276),
    so that it does nothing (DwUdpSocket.c 556-558) and the query always goes on to
    forward_local_udp_packet; that code gets the ID and the packet. *)
Definition tcp_to_udp (J : Z -> Z) (cf : tconf) (e : tenv) (w : tworld) : res tworld :=
  let c := tw_c w in
  m <- buf_of c ;;
  id <- get_dns_qid m (tc_wanted c) 2 ;;
  if id =? -1 then Ok (close_local w)
  else
    match dw_get_dname_type J m 12 (tc_wanted c) with
    | Bad f => Bad f
    | Fail => Ok (close_local w)
    | Ok _ =>
        Ok (mktw (mktc (tc_local c) (tc_up c) (tc_buf c) (tc_wanted c) (tc_got c) (tc_sent c) 1
                       (te_now e + cf_tcp cf * 1024))
                 (tw_cin w) (tw_cout w) (tw_copen w) (tw_uin w) (tw_uout w) (tw_uopen w)
                 (tw_query w ++ [(id, zslice m 0 (tc_wanted c))]))
    end.

(** A [char] as an int. *)
Definition char_val (cf : tconf) (b : Z) : Z := if cf_signed cf then i8 b else b.
(** DwTcpSocket.c 232-234: the length.  To shift a negative number to the left is undefined. *)
Definition frame_len (cf : tconf) (b0 b1 : Z) : res Z :=
  if char_val cf b0 <? 0 then Bad SignedOverflow
  else Ok (Z.lor (Z.shiftl (char_val cf b0) 8) (char_val cf b1)).

(** DwTcpSocket.c 221-250, tcp_process_data. *)
Definition tcp_process_data (J : Z -> Z) (cf : tconf) (e : tenv) (w : tworld) : res tworld :=
  let c := tw_c w in
  if negb (tc_wanted c =? tc_got c) || negb (tc_state c =? 0) then Ok w
  else
    match tc_buf c with
    | None => Ok w
    | Some m =>
        if tc_wanted c =? 2 then
          b0 <- rd m 0 ;; b1 <- rd m 1 ;;
          wanted <- frame_len cf b0 b1 ;;
          if wanted <? 12 then Ok (close_local w)
          else
            Ok (set_c w (mktc (tc_local c) (tc_up c) (Some (mkjunk J (wanted + 1))) wanted 0 (tc_sent c) (tc_state c)
                              (soon (te_now e) (cf_tcp cf))))
        else if 12 <=? tc_wanted c then tcp_to_udp J cf e w
        else Ok w
    end.

(** DwTcpSocket.c 304-318, tcp_return_reply. *)
Definition tcp_return_reply (J : Z -> Z) (cf : tconf) (now : Z) (packet : list Z) (w : tworld) : res tworld :=
  let c := tw_c w in
  let len := zlen packet in
  m <- wr (mkjunk J (len + 3)) 0 (Z.shiftr (Z.land len 65280) 8) ;;
  m <- wr m 1 (Z.land len 255) ;;
  m <- put_at m 2 packet ;;
  Ok (set_c w (mktc (tc_local c) (tc_up c) (Some m) (len + 2) 0 (tc_sent c) 2 (soon now (cf_tcp cf)))).

(** DwTcpSocket.c 322-342, tcp_send_wanted. *)
Definition tcp_send_wanted (cf : tconf) (e : tenv) (w : tworld) : res tworld :=
  let c := tw_c w in
  if negb (tc_state c =? 2) then Ok w
  else
    let tosend := tc_wanted c - tc_got c in
    if 0 <? tosend then
      m <- buf_of c ;;
      r <- net_send (tc_local c) (te_sl e) m (tc_got c) tosend ;;
      match r with
      | None => Ok w
      | Some l =>
          Ok (mktw (mktc (tc_local c) (tc_up c) (tc_buf c) (tc_wanted c) (tc_got c + zlen l) (tc_sent c) (tc_state c)
                         (soon (te_now e) (cf_tcp cf)))
                   (tw_cin w) (tw_cout w ++ l) (tw_copen w) (tw_uin w) (tw_uout w) (tw_uopen w) (tw_query w))
      end
    else Ok (close_local w).

(** DwTcpSocket.c 378-430, tcp_truncated_retry.  [packet]: what make_dns_query_packet makes;
    [up]: what the upstream server will send, if a connection to it can be opened. *)
Definition tcp_truncated_retry (J : Z -> Z) (packet : list Z) (up : option (list Z)) (w : tworld) : res tworld :=
  let c := tw_c w in
  let len := zlen packet in
  m <- wr (mkjunk J (len + 3)) 0 (Z.shiftr (Z.land len 65280) 8) ;;
  m <- wr m 1 (Z.land len 255) ;;
  m <- put_at m 2 packet ;;
  match up with
  | None => Ok (close_local w)
  | Some s =>
      Ok (mktw (mktc (tc_local c) true (Some m) (len + 2) 0 (tc_sent c) 3 (tc_die c))
               (tw_cin w) (tw_cout w) (tw_copen w) s [] true (tw_query w))
  end.

(** DwTcpSocket.c 433-460, tcp_upstream_send.  After closing (440-443) the code goes on with
    the closed slot. *)
Definition tcp_upstream_send (cf : tconf) (e : tenv) (w : tworld) : res tworld :=
  if negb (tc_state (tw_c w) =? 3) then Ok w
  else
    let w := if tc_wanted (tw_c w) <? tc_got (tw_c w) then close_both w else w in
    let c := tw_c w in
    m <- buf_of c ;;
    r <- net_send (tc_up c) (te_su e) m (tc_got c) (tc_wanted c - tc_got c) ;;
    match r with
    | None => Ok w
    | Some l =>
        let got := tc_got c + zlen l in
        let all := tc_wanted c <=? got in
        Ok (mktw (mktc (tc_local c) (tc_up c) (if all then None else tc_buf c) (tc_wanted c) got (tc_sent c)
                       (if all then 4 else tc_state c) (soon (te_now e) (cf_udp cf)))
                 (tw_cin w) (tw_cout w) (tw_copen w) (tw_uin w) (tw_uout w ++ l) (tw_uopen w) (tw_query w))
    end.

(** DwTcpSocket.c 464-477, tcp_prepare_upstream_len. *)
Definition tcp_prepare_upstream_len (J : Z -> Z) (w : tworld) : tworld :=
  let c := tw_c w in
  if negb (tc_state c =? 4) then w
  else set_c w (mktc (tc_local c) (tc_up c) (Some (mkjunk J 3)) 2 0 (tc_sent c) 5 (tc_die c)).

(** DwTcpSocket.c 481-515, tcp_get_upstream_len. *)
Definition tcp_get_upstream_len (J : Z -> Z) (cf : tconf) (e : tenv) (w : tworld) : res tworld :=
  let c := tw_c w in
  if negb (tc_state c =? 5) then Ok w
  else
    let toget := tc_wanted c - tc_got c in
    if 0 <? toget then
      m <- buf_of c ;;
      if (tc_got c <? 0) || (zlen m <? tc_got c + toget) then Bad OutOfBounds
      else
        let '(r, rest) := net_recv (tc_up c) (te_ru e) toget (tw_uin w) in
        match r with
        | None => Ok w
        | Some [] => Ok w
        | Some l =>
            m <- put_at m (tc_got c) l ;;
            Ok (mktw (mktc (tc_local c) (tc_up c) (Some m) (tc_wanted c) (tc_got c + zlen l) (tc_sent c) (tc_state c)
                           (soon (te_now e) (cf_tcp cf)))
                     (tw_cin w) (tw_cout w) (tw_copen w) rest (tw_uout w) (tw_uopen w) (tw_query w))
        end
    else if toget =? 0 then
      m <- buf_of c ;;
      b0 <- rd m 0 ;; b1 <- rd m 1 ;;
      let wanted := Z.lor (Z.shiftl (Z.land b0 255) 8) (Z.land b1 255) in
      m <- wr (mkjunk J (wanted + 3)) 0 (Z.shiftr (Z.land wanted 65280) 8) ;;
      m <- wr m 1 (Z.land wanted 255) ;;
      Ok (set_c w (mktc (tc_local c) (tc_up c) (Some m) wanted 0 (tc_sent c) 6 (soon (te_now e) (cf_tcp cf))))
    else Ok w.

(** DwTcpSocket.c 519-574, tcp_downstream_forward. *)
Definition tcp_downstream_forward (cf : tconf) (e : tenv) (w : tworld) : res tworld :=
  let c := tw_c w in
  if negb (tc_state c =? 6) then Ok w
  else
    match tc_buf c with
    | None => Ok (close_both w)
    | Some m =>
        if (tc_wanted c <=? tc_got c) || (tc_wanted c + 2 <=? tc_sent c) then Ok (close_both w)
        else
          let toget := tc_wanted c - tc_got c in
          if (tc_got c <? 0) || (zlen m <? 2 + tc_got c + toget) then Bad OutOfBounds
          else
            let '(r, rest) := net_recv (tc_up c) (te_ru e) toget (tw_uin w) in
            match r with
            | None => Ok w
            | Some [] => Ok w
            | Some l =>
                m <- put_at m (2 + tc_got c) l ;;
                let len := zlen l in
                let got := tc_got c + len in
                let die := if len =? toget then tc_die c else soon (te_now e) (cf_tcp cf) in
                s <- net_send (tc_local c) (te_sl e) m (tc_sent c) (got - tc_sent c + 2) ;;
                let keep (out : list Z) (sent die : Z) :=
                  mktw (mktc (tc_local c) (tc_up c) (Some m) (tc_wanted c) got sent (tc_state c) die)
                       (tw_cin w) (tw_cout w ++ out) (tw_copen w) rest (tw_uout w) (tw_uopen w) (tw_query w) in
                match s with
                | None => Ok (keep [] (tc_sent c) die)
                | Some [] => Ok (keep [] (tc_sent c) die)
                | Some out =>
                    let actual := zlen out in
                    if negb (actual =? len) then Ok (keep out (tc_sent c + actual) (soon (te_now e) (cf_tcp cf)))
                    else if tc_wanted c =? got then Ok (close_both (keep out (tc_sent c) die))
                    else Ok (keep out (tc_sent c + actual) die)
                end
            end
    end.

(** DwTcpSocket.c 577-587, tcp_handle_all. *)
Definition tcp_handle_all (J : Z -> Z) (cf : tconf) (e : tenv) (w : tworld) : res tworld :=
  w <- tcp_get_wanted cf e w ;;
  w <- tcp_process_data J cf e w ;;
  w <- tcp_send_wanted cf e w ;;
  w <- tcp_upstream_send cf e w ;;
  w <- tcp_get_upstream_len J cf e (tcp_prepare_upstream_len J w) ;;
  tcp_downstream_forward cf e w.

(** DwTcpSocket.c 590-599, kill_tcp_expired, for one slot. *)
Definition kill_tcp_expired (now : Z) (w : tworld) : tworld :=
  if (0 <? tc_die (tw_c w)) && (tc_die (tw_c w) <? now) then close_local w else w.

(** What can happen to a slot: the main loop (DwSocket.c 1234-1268) handles it and closes it
    when it has expired; the code for UDP has a reply for it (DwUdpSocket.c 660, 1150, 1356,
    1438; DwSocket.c 1122) or found the reply truncated (DwUdpSocket.c 1318). *)
Inductive tevent :=
| Tick (e : tenv)
| Expire (now : Z)
| GotReply (now : Z) (packet : list Z)
| Retry (packet : list Z) (up : option (list Z)).

Definition tcp_step (J : Z -> Z) (cf : tconf) (ev : tevent) (w : tworld) : res tworld :=
  match ev with
  | Tick e => tcp_handle_all J cf e w
  | Expire now => Ok (kill_tcp_expired now w)
  | GotReply now p => tcp_return_reply J cf now p w
  | Retry p up => tcp_truncated_retry J p up w
  end.

Fixpoint tcp_run (J : Z -> Z) (cf : tconf) (evs : list tevent) (w : tworld) : res tworld :=
  match evs with
  | [] => Ok w
  | ev :: evs => w <- tcp_step J cf ev w ;; tcp_run J cf evs w
  end.
