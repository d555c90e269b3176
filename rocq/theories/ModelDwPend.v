(** Model of the table of pending queries (DwUdpSocket.c, DwSocket.c): queries of clients are
    sent on or join one that is on its way, replies of upstream servers are checked and given
    to the clients that wait, timeouts.

    Simplifications: all clients use UDP; a query that another query gives rise to (an NS or
    CNAME without address) has a slot of its own that is not modelled; serving expired
    records is modelled separately; [res Bad] as everywhere.  A client (socket, address and
    port) is a number. *)
From Verif Require Import CBase SpecDwStr ModelDwStr ModelDwDnsStr ModelDwSys ModelDwUdp.

(** DwSocket.h 133-158, local_T. *)
Record local := mklocal { lo_client : Z; lo_open : bool; lo_id : Z; lo_orig : dwstr }.
(** An element of rem[].local: not written yet; NULL; a pointer. *)
Inductive lptr := Unset | Null | At (l : local).
(** DwSocket.h 160-175, remote_T; [re_timer]: die is not 0. *)
Record remote := mkremote { re_open : bool; re_timer : bool; re_id : Z; re_query : option dwstr; re_local : option (list lptr); re_num : Z;
                            re_retries : Z; re_depth : Z; re_up : bool }.

(** The configuration: max_inflights, num_retries, truncation_hack, handle_noreply. *)
Record pconf := mkpconf { pc_inflights : Z; pc_retries : Z; pc_hack : bool; pc_noreply : bool }.

(** What is sent: a packet to an upstream server (by the socket of slot [b]); to a client what
    the cache holds for [query], if anything, with this ID and question; a packet to a
    client. *)
Inductive out :=
| Upstream (b : Z) (packet : list Z)
| Cached (client id : Z) (query orig : dwstr)
| Packet (client : Z) (packet : list Z).

(** What the surroundings answer when a server is to be connected: a random number; whether
    there is an address (0: no, 1: yes, 2: only a server's name); whether it is an upstream
    server that recurses; whether the system calls succeed. *)
Record env := mkenv { e_rnd : Z; e_addr : Z; e_up : bool; e_io : bool }.

(** Arrays of anything. *)
Definition aget {A} (l : list A) (i : Z) : res A :=
  if i <? 0 then Bad OutOfBounds else match nth_error l (Z.to_nat i) with Some x => Ok x | None => Bad OutOfBounds end.
Fixpoint aupd {A} (l : list A) (i : nat) (v : A) : list A :=
  match l, i with [], _ => [] | _ :: t, O => v :: t | h :: t, S j => h :: aupd t j v end.
Definition aset {A} (l : list A) (i : Z) (v : A) : res (list A) :=
  if (0 <=? i) && (i <? zlen l) then Ok (aupd l (Z.to_nat i) v) else Bad OutOfBounds.

(** DwSocket.c 134-148: the locals are freed; this looks at the first num_locals pointers. *)
Fixpoint free_locals (n : nat) (l : list lptr) (i : Z) : res unit :=
  match n with
  | O => Ok tt
  | S n => p <- aget l i ;; match p with Unset => Bad Uninit | _ => free_locals n l (i + 1) end
  end.
(** DwSocket.c 114-151, reset_rem. *)
Definition fresh (cf : pconf) : remote := mkremote false false 0 None None 0 (pc_retries cf) 0 false.
Definition reset_rem (cf : pconf) (r : remote) : res remote :=
  _ <- match re_local r with None => Ok tt | Some l => free_locals (Z.to_nat (re_num r)) l 0 end ;;
  Ok (fresh cf).

(** DwUdpSocket.c 188-257, make_remote_connection: every caller sees to it that the socket of
    the slot is closed and says so ([x_socket_num]).  Result: the return value, the slot, the
    packet as changed, what was sent. *)
Definition make_remote_connection (b : Z) (r : remote) (packet : list Z) (len : Z) (e : env) : res (Z * remote * list Z * list out) :=
  if re_open r || (83 <? re_depth r) then Ok (-1, r, packet, [])
  else
    let r := mkremote (re_open r) (re_timer r) (re_id r) (re_query r) (re_local r) (re_num r) (re_retries r) (re_depth r + 1) (re_up r) in
    '(rnum, packet) <- set_dns_qid packet len (u16 (e_rnd e)) ;;
    if rnum =? -1 then Ok (-1, r, packet, [])
    else
      let r := mkremote (re_open r) (re_timer r) (re_id r) (re_query r) (re_local r) (re_num r) (re_retries r) (re_depth r) (re_up r || e_up e) in
      a2 <- rd packet 2 ;;
      packet <- wr packet 2 (if re_up r then Z.lor a2 1 else Z.land a2 254) ;;
      if e_addr e =? 0 then Ok (-1, r, packet, [])
      else if e_addr e =? 2 then Ok (2, r, packet, [])
      else if negb (e_io e) then Ok (-1, r, packet, [])
      else Ok (1, mkremote true (re_timer r) rnum (re_query r) (re_local r) (re_num r) (re_retries r) (re_depth r) (re_up r), packet, [Upstream b (zslice packet 0 len)]).

(** DwSocket.c 991-1000, find_free_remote. *)
Fixpoint find_free (l : list remote) (i : Z) : option Z :=
  match l with
  | [] => None
  | r :: l => if negb (re_open r) && match re_local r with None => true | Some _ => false end then Some i else find_free l (i + 1)
  end.

(** dw_get_dname_type followed by dwc_lower_case; NULL is [None]. *)
Definition lowered (J : Z -> Z) (packet : list Z) (len : Z) : res (option dwstr) :=
  match dw_get_dname_type J packet 12 len with
  | Bad f => Bad f
  | Fail => Ok None
  | Ok q => '(_, q) <- dwc_lower_case q ;; Ok (Some q)
  end.

(** DwUdpSocket.c 291-328, find_inflight_query.  [hint]: what the hash of queries on their way
    says; nothing is assumed about that but that it is the number of a slot. *)
Definition find_inflight (J : Z -> Z) (cf : pconf) (st : list remote) (packet : list Z) (len : Z) (hint : option Z) : res (option Z) :=
  if (len <? 12) || (pc_inflights cf <? 2) then Ok None
  else
    q <- lowered J packet len ;;
    match q with
    | None => Ok None
    | Some q =>
        match hint with
        | None => Ok None
        | Some b =>
            r <- aget st b ;;
            if negb (re_open r) then Ok None
            else
              same <- match re_query r with None => Ok (-1) | Some q' => dw_issame q q' end ;;
              if same =? 1 then Ok (Some b) else Ok None
        end
    end.

(** DwUdpSocket.c 386-392: how many pointers are allocated. *)
Definition num_alloc (cf : pconf) : Z := (if pc_inflights cf <? 1 then 1 else if 32000 <? pc_inflights cf then 32000 else pc_inflights cf) + 1.

(** DwUdpSocket.c 339-374, make_new_udp_connect. *)
Definition make_new_udp_connect (J : Z -> Z) (cf : pconf) (b : Z) (r : remote) (packet : list Z) (len : Z) (e : env) : res (Z * remote * list Z * list out) :=
  if re_open r then Ok (-1, r, packet, [])
  else
    q <- lowered J packet len ;;
    let r := mkremote (re_open r) (re_timer r) (re_id r) q (Some (repeat Unset (Z.to_nat (num_alloc cf)))) (re_num r) (re_retries r) (re_depth r) (re_up r) in
    '(z, r, packet, o) <- make_remote_connection b r packet len e ;;
    if negb (z =? 1) then Ok (z, r, packet, o)
    else Ok (1, mkremote (re_open r) (re_timer r) (re_id r) (re_query r) (Some (repeat Null (Z.to_nat (num_alloc cf)))) 1 (re_retries r) (re_depth r) (re_up r), packet, o).

(** DwUdpSocket.c 379-444, forward_local_udp_packet.  Result: the return value, the table,
    what was sent. *)
Definition forward (J : Z -> Z) (cf : pconf) (st : list remote) (client id : Z) (orig : dwstr) (packet : list Z) (len : Z) (hint : option Z) (e : env)
  : res (Z * list remote * list out) :=
  let add (st : list remote) (b : Z) (r : remote) (o : list out) : res (Z * list remote * list out) :=
    if re_num r =? 0 then r <- reset_rem cf r ;; st <- aset st b r ;; Ok (-1, st, o)
    else
      match re_local r with
      | None => Bad NullDeref
      | Some l =>
          l <- aset l (re_num r - 1) (At (mklocal client true (u16 id) orig)) ;;
          let r := mkremote (re_open r) (re_timer r) (re_id r) (re_query r) (Some l) (re_num r) (re_retries r) (re_depth r) (re_up r) in
          if negb (re_open r) then r <- reset_rem cf r ;; st <- aset st b r ;; Ok (-1, st, o)
          else
            st <- aset st b (mkremote (re_open r) true (re_id r) (re_query r) (re_local r) (re_num r) (re_retries r) (re_depth r) (re_up r)) ;;
            Ok (0, st, o)
      end in
  j <- find_inflight J cf st packet len hint ;;
  match j with
  | Some b =>
      r <- aget st b ;;
      if num_alloc cf - 2 <=? re_num r then Ok (-1, st, [])
      else add st b (mkremote (re_open r) (re_timer r) (re_id r) (re_query r) (re_local r) (u16 (re_num r + 1)) (re_retries r) (re_depth r) (re_up r)) []
  | None =>
      match find_free st 0 with
      | None => Ok (-1, st, [])
      | Some b =>
          r <- aget st b ;;
          r <- reset_rem cf r ;;
          '(z, r, _, o) <- make_new_udp_connect J cf b r packet len e ;;
          if z =? 2 then st <- aset st b r ;; Ok (0, st, o)
          else add st b r o
      end
  end.

(** ** Replies *)

(** DwUdpSocket.c 886-925, forward_remote_reply: only once for every local. *)
Definition forward_remote_reply (packet : list Z) (l : list lptr) (i : Z) : res (list lptr * list out) :=
  p <- aget l i ;;
  match p with
  | Unset => Bad Uninit
  | Null => Bad NullDeref
  | At x =>
      if negb (lo_open x) then Ok (l, [])
      else l <- aset l i (At (mklocal (lo_client x) false (lo_id x) (lo_orig x))) ;; Ok (l, [Packet (lo_client x) packet])
  end.

(** DwUdpSocket.c 1132-1152: the reply for every local. *)
Fixpoint not_there_loop (n : nat) (i : Z) (answer : list Z) (count : Z) (l : list lptr) : res (list out) :=
  match n with
  | O => Ok []
  | S n =>
      p <- aget l i ;;
      match p with
      | Unset => Bad Uninit
      | Null => Bad NullDeref
      | At x =>
          answer <- wr answer 0 (Z.land (Z.shiftr (lo_id x) 8) 255) ;;
          answer <- wr answer 1 (Z.land (lo_id x) 255) ;;
          p <- sendto answer (count + 40) ;;
          '(l, o) <- forward_remote_reply p l i ;;
          o' <- not_there_loop n (i + 1) answer count l ;;
          Ok (o ++ o')
      end
  end.
(** DwUdpSocket.c 1114-1163, make_synth_not_there.  [a]: the upstream packet.  Result: [None]
    if nothing was done. *)
Definition make_synth_not_there (J : Z -> Z) (cf : pconf) (r : remote) (a : list Z) (count : Z) : res (remote * list out) :=
  match re_local r with
  | None => Ok (r, [])
  | Some l =>
      if count <? 12 then Ok (r, [])
      else
        s <- make_synth_not_there_answer J a count ;;
        match s with
        | None => Ok (r, [])
        | Some (answer, count) =>
            answer <- or_at answer 2 128 ;;
            answer <- wr answer 9 1 ;;
            answer <- wr answer 11 0 ;; answer <- wr answer 10 0 ;; answer <- wr answer 8 0 ;; answer <- wr answer 7 0 ;; answer <- wr answer 6 0 ;;
            o <- not_there_loop (Z.to_nat (re_num r)) 0 answer count l ;;
            r <- reset_rem cf r ;;
            Ok (r, o)
        end
  end.

(** DwUdpSocket.c 1172-1223, send_reply_from_cache, for a client. *)
Definition send_reply_from_cache (J : Z -> Z) (a : list Z) (count : Z) (x : local) : res (list out) :=
  match dw_get_dname_type J a 12 count with
  | Bad f => Bad f
  | Fail => Ok []
  | Ok query => '(_, query) <- dwc_lower_case query ;; Ok [Cached (lo_client x) (lo_id x) query (lo_orig x)]
  end.

(** DwRecurse.c 1732-1755 and 1807-1815, in dwx_handle_ns_refer: the query is sent to the
    servers of the referral. *)
Definition refer_connect (J : Z -> Z) (b : Z) (r : remote) (e : option env) : res (remote * list out) :=
  match e with
  | None => Ok (r, [])
  | Some e =>
      match make_dns_header J (re_id r) 0 0 0 0 with
      | Bad f => Bad f
      | Fail => Ok (r, [])
      | Ok packet =>
          '(c, packet) <- dw_append (re_query r) packet ;;
          if c =? -1 then Ok (r, [])
          else
            '(c, packet) <- dw_put_u16 packet 1 (-1) ;;
            if c =? -1 then Ok (r, [])
            else
              let r := mkremote false true (re_id r) (re_query r) (re_local r) (re_num r) (re_retries r) (re_depth r) (re_up r) in
              '(_, r, _, o) <- make_remote_connection b r (d_mem packet) (d_len packet) e ;;
              Ok (r, o)
      end
  end.

(** DwUdpSocket.c 1227-1355, get_rem_udp_packet_core, with tcp_listen 0.  [code]: what
    cache_dns_reply returns; [e]: for a referral (16 and more), how connecting goes.  Result:
    the return value, the buffer, the slot, what was sent. *)
Definition rem_core (J : Z -> Z) (cf : pconf) (b : Z) (r : remote) (a : list Z) (count : Z) (i : Z) (code : Z) (e : option env)
  : res (Z * list Z * remote * list out) :=
  if count <? 12 then Ok (-1, a, r, [])
  else
    match re_local r with
    | None => Bad NullDeref
    | Some l =>
        p <- aget l i ;;
        match p with
        | Unset => Bad Uninit
        | Null => Ok (-1, a, r, [])
        | At x =>
            c <- cut_truncated (pc_hack cf) a count ;;
            match c with
            | None => Ok (-1, a, r, [])
            | Some (a, count) =>
                a2 <- rd a 2 ;;
                if negb (Z.land a2 2 =? 0) then Ok (-1, a, r, [])
                else if code =? -2 then '(r, o) <- make_synth_not_there J cf r a count ;; Ok (-1, a, r, o)
                else if code <? 0 then Ok (-1, a, r, [])
                else if 16 <=? code then '(r, o) <- refer_connect J b r e ;; Ok (3, a, r, o)
                else
                  '(_, a) <- set_dns_qid a count (u16 (lo_id x)) ;;
                  o <- send_reply_from_cache J a count x ;;
                  Ok (1, a, r, o)
            end
        end
    end.

(** DwUdpSocket.c 1394-1410: all the locals.  [es]: one element for every local.  Result:
    whether one gave up, whether the slot is kept, the slot, what was sent. *)
Fixpoint core_loop (J : Z -> Z) (cf : pconf) (b : Z) (n : nat) (i : Z) (r : remote) (a : list Z) (count : Z) (code : Z) (es : list (option env)) (keep : bool)
  : res (bool * bool * remote * list out) :=
  match n with
  | O => Ok (false, keep, r, [])
  | S n =>
      '(c, a, r, o) <- rem_core J cf b r a count i code (hd None es) ;;
      if c =? -1 then Ok (true, keep, r, o)
      else
        '(g, k, r, o') <- core_loop J cf b n (i + 1) r a count code (tl es) (keep || (c =? 3)) ;;
        Ok (g, k, r, o ++ o')
  end.

(** DwUdpSocket.c 1363-1410, get_remote_udp_packet.  [a]: the 520 bytes of the buffer, the
    first [count] received. *)
Definition get_remote_udp_packet (J : Z -> Z) (cf : pconf) (b : Z) (r : remote) (a : list Z) (count : Z) (code : Z) (es : list (option env))
  : res (remote * list out) :=
  if (count <? 12) || (512 <? count) then Ok (r, [])
  else
    a <- or_at a 2 128 ;;
    v <- verify_dns_packet J (re_id r) (re_query r) a count ;;
    if negb v then Ok (r, [])
    else
      '(g, k, r, o) <- core_loop J cf b (Z.to_nat (re_num r)) 0 r a count code es false ;;
      if g || k then Ok (r, o)
      else r <- reset_rem cf r ;; Ok (r, o).

(** ** Timeouts *)

(** DwUdpSocket.c 1413-1447, server_fail_noreply. *)
Definition server_fail_noreply (J : Z -> Z) (r : remote) (i : Z) : res (remote * list out) :=
  match re_local r with
  | None => Bad NullDeref
  | Some l =>
      p <- aget l i ;;
      match p with
      | Unset => Bad Uninit
      | Null => Ok (r, [])
      | At x =>
          match make_dns_header J (lo_id x) 33154 0 0 0 with
          | Bad f => Bad f
          | Fail => Ok (r, [])
          | Ok packet =>
              '(c, packet) <- dw_append (re_query r) packet ;;
              if c =? -1 then Ok (r, [])
              else
                '(c, packet) <- dw_put_u16 packet 1 (-1) ;;
                if c =? -1 then Ok (r, [])
                else
                  p <- sendto (d_mem packet) (d_len packet) ;;
                  '(l, o) <- forward_remote_reply p l 0 ;;
                  Ok (mkremote (re_open r) (re_timer r) (re_id r) (re_query r) (Some l) (re_num r) (re_retries r) (re_depth r) (re_up r), o)
          end
      end
  end.
(** DwSocket.c 1182-1191: for every local. *)
Fixpoint fail_loop (J : Z -> Z) (n : nat) (i : Z) (r : remote) : res (remote * list out) :=
  match n with
  | O => Ok (r, [])
  | S n =>
      '(r, o) <- server_fail_noreply J r i ;;
      '(r, o') <- fail_loop J n (i + 1) r ;;
      Ok (r, o ++ o')
  end.
(** DwSocket.c 1150-1199, handle_expired, with resurrections 0.  [rnd]: a random number.
    Result: the return value, the slot, what was sent. *)
Definition handle_expired (J : Z -> Z) (cf : pconf) (b : Z) (r : remote) (rnd : Z) (e : env) : res (Z * remote * list out) :=
  if 0 <? re_retries r then
    let r := mkremote false (re_timer r) (u16 rnd) (re_query r) (re_local r) (re_num r) (re_retries r - 1) (re_depth r) (re_up r) in
    match make_dns_header J (re_id r) (if re_up r then 384 else 128) 0 0 0 with
    | Bad f => Bad f
    | Fail => Ok (0, r, [])
    | Ok packet =>
        '(c, packet) <- dw_append (re_query r) packet ;;
        if c =? -1 then Ok (0, r, [])
        else
          '(c, packet) <- dw_put_u16 packet 1 (-1) ;;
          if c =? -1 then Ok (0, r, [])
          else
            '(_, r, _, o) <- make_remote_connection b r (d_mem packet) (d_len packet) e ;;
            Ok (1, mkremote (re_open r) true (re_id r) (re_query r) (re_local r) (re_num r) (re_retries r) (re_depth r) (re_up r), o)
    end
  else if pc_noreply cf then '(r, o) <- fail_loop J (Z.to_nat (re_num r)) 0 r ;; Ok (0, r, o)
  else Ok (0, r, []).

(** DwRecurse.c 3131-3196, dwx_glueless_done: the address of a server has been found, the
    query is sent to it.  [e_addr] 0: the cache no longer has the address, or no socket for it. *)
Definition glueless_done (J : Z -> Z) (b : Z) (r : remote) (e : env) : res (remote * list out) :=
  if 83 <? re_depth r then Ok (r, [])
  else if e_addr e =? 0 then Ok (mkremote (re_open r) (re_timer r) (re_id r) (re_query r) (re_local r) (re_num r) (re_retries r) (re_depth r + 1) (re_up r), [])
  else
    let r := mkremote (re_open r) (re_timer r) (u16 (e_rnd e)) (re_query r) (re_local r) (re_num r) (re_retries r) (re_depth r + 1) (re_up r) in
    match make_dns_header J (re_id r) 0 0 0 0 with
    | Bad f => Bad f
    | Fail => Ok (r, [])
    | Ok packet =>
        '(c, packet) <- dw_append (re_query r) packet ;;
        if c =? -1 then Ok (r, [])
        else
          '(c, packet) <- dw_put_u16 packet 1 (-1) ;;
          if c =? -1 then Ok (r, [])
          else if negb (e_io e) then Ok (r, [])
          else
            p <- sendto (d_mem packet) (d_len packet) ;;
            Ok (mkremote true (re_timer r) (re_id r) (re_query r) (re_local r) (re_num r) (re_retries r) (re_depth r) (re_up r), [Upstream b p])
    end.

(** ** The machine *)

(** A query of a client that is not answered from the cache; a packet on the socket of slot
    [b]; the time of slot [b] is over; the address that slot [b] waits for is there. *)
Inductive event :=
| Query (client id : Z) (orig : dwstr) (packet : list Z) (len : Z) (hint : option Z) (e : env)
| Datagram (b : Z) (a : list Z) (count : Z) (code : Z) (es : list (option env))
| Timeout (b : Z) (rnd : Z) (e : env)
| Glue (b : Z) (e : env).

(** DwSocket.c 1053-1095 (process_results) and 1204-1216 (kill_expired), one socket or slot at
    a time. *)
Definition step (J : Z -> Z) (cf : pconf) (st : list remote) (ev : event) : res (list remote * list out) :=
  match ev with
  | Query client id orig packet len hint e => '(_, st, o) <- forward J cf st client id orig packet len hint e ;; Ok (st, o)
  | Datagram b a count code es =>
      r <- aget st b ;;
      if negb (re_open r) then Ok (st, [])
      else '(r, o) <- get_remote_udp_packet J cf b r a count code es ;; st <- aset st b r ;; Ok (st, o)
  | Timeout b rnd e =>
      r <- aget st b ;;
      if negb (re_timer r) then Ok (st, [])
      else
        '(c, r, o) <- handle_expired J cf b r rnd e ;;
        if c =? 1 then st <- aset st b r ;; Ok (st, o)
        else r <- reset_rem cf r ;; st <- aset st b r ;; Ok (st, o)
  | Glue b e =>
      r <- aget st b ;;
      match re_local r with
      | None => Ok (st, [])  (* rem[b].child_id is -1 *)
      | Some _ => '(r, o) <- glueless_done J b r e ;; st <- aset st b r ;; Ok (st, o)
      end
  end.
Definition init (cf : pconf) (maxprocs : nat) : list remote := repeat (fresh cf) maxprocs.
