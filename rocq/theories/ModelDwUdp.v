(** Model of parts of deadwood-github/src/DwUdpSocket.c: making the packets that are sent to
    clients, the check of replies from upstream servers, what is done with a packet from a
    client before the cache is looked at. *)
From Verif Require Import CBase SpecDwStr ModelDwStr ModelDwDnsStr ModelBlockHash ModelDwSys.

(** ** Packets for clients *)

(** dw_put_u16 in a chain of [if(... == -1) goto catch]. *)
Definition put_or_fail (s : dwstr) (v : Z) : res dwstr :=
  '(c, s) <- dw_put_u16 s v (-1) ;; if c =? -1 then Fail else Ok s.

(** DwUdpSocket.c 447-487, make_dns_header.  [Fail]: NULL. *)
Definition make_dns_header (J : Z -> Z) (id flags ancount nscount arcount : Z) : res dwstr :=
  if (id <? 0) || (ancount <? 0) || (nscount <? 0) || (arcount <? 0) then Fail
  else
    match dw_create J 515 with
    | None => Fail
    | Some out =>
        out <- put_or_fail out id ;;
        out <- put_or_fail out flags ;;
        out <- put_or_fail out 1 ;;
        out <- put_or_fail out ancount ;;
        out <- put_or_fail out nscount ;;
        put_or_fail out arcount
    end.

(** DwRecurse.h 73-74. *)
Definition TYPE_TRUNCATED : Z := 3.
Definition TYPE_TRUNCATED_NXDOMAIN : Z := 4.

(** DwUdpSocket.c 493-541, make_dns_packet.  The counts at the end of [answer] are taken off
    it: the second component is what is left for the caller.  First component: the packet, or
    NULL. *)
Definition make_dns_packet (J : Z -> Z) (question : option dwstr) (answer : dwstr) (id : Z) : res (option dwstr * dwstr) :=
  '(t, answer) <- dw_pop_u8 answer ;;
  let truncated := (t =? TYPE_TRUNCATED) || (t =? TYPE_TRUNCATED_NXDOMAIN) in
  '(ar, ns, an, answer) <-
    (if truncated then Ok (0, 0, 0, answer)
     else
       '(ar, answer) <- dw_pop_u16 answer ;;
       '(ns, answer) <- dw_pop_u16 answer ;;
       '(an, answer) <- dw_pop_u16 answer ;;
       Ok (ar, ns, an, answer)) ;;
  let out :=
    if (t =? 0) || (t =? 2) then make_dns_header J id 33152 an ns ar
    else if t =? 1 then make_dns_header J id 33155 an ns ar
    else if t =? TYPE_TRUNCATED then make_dns_header J id 33664 0 0 0
    else if t =? TYPE_TRUNCATED_NXDOMAIN then make_dns_header J id 33667 0 0 0
    else Fail in
  match out with
  | Bad f => Bad f
  | Fail => Ok (None, answer)
  | Ok out =>
      '(c, out) <- dw_append question out ;;
      if c =? -1 then Ok (None, answer)
      else
        '(c, out) <- dw_put_u16 out 1 (-1) ;;
        if c =? -1 then Ok (None, answer)
        else if truncated then Ok (Some out, answer)
        else
          '(c, out) <- dw_append (Some answer) out ;;
          if c =? -1 then Ok (None, answer) else Ok (Some out, answer)
  end.

(** ** Made-up replies *)

(** DwUdpSocket.c 1062-1069: the copying of the name, up to a zero byte.  Result: where it
    stopped, and the answer. *)
Fixpoint synth_name (n : nat) (a : list Z) (count counter : Z) (answer : list Z) : res (Z * list Z) :=
  match n with
  | O => Bad NoFuel
  | S n =>
      if (counter <? 520) && (counter <? count) then
        b <- rd a counter ;;
        if b =? 0 then Ok (counter, answer)
        else answer <- wr answer counter b ;; synth_name n a count (counter + 1) answer
      else Ok (counter, answer)
  end.

(** DwUdpSocket.c 1043-1090, make_synth_answer, with type 0 (every call has that).  [a]: the
    packet; [J]: what malloc left in memory.  Result: the answer's memory and the new
    [*count], or NULL. *)
Definition make_synth_answer (J : Z -> Z) (a : list Z) (count : Z) (synth : list Z) (slen : Z) : res (option (list Z * Z)) :=
  let answer := mkjunk J (count + slen + 3) in
  let counter := Z.min 12 count in
  answer <- copy_bytes (Z.to_nat counter) a 0 answer 0 ;;
  '(counter, answer) <- synth_name 521 a count counter answer ;;
  if (count <? counter + 5) || (512 <? counter) then Ok None
  else
    answer <- copy_bytes 5 a counter answer counter ;;
    let count := counter + 5 in
    answer <- copy_bytes (Z.to_nat slen) synth 0 answer count ;;
    Ok (Some (answer, count)).

(** DwUdpSocket.c 1092-1105, make_synth_not_there_answer (the array has 41 elements, the
    last one zero). *)
Definition not_there : list Z :=
  [192; 12; 0; 6; 0; 1; 0; 0; 0; 0; 0; 28; 1; 122; 192; 12; 1; 121; 192; 12;
   0; 0; 0; 1; 0; 0; 0; 1; 0; 0; 0; 1; 0; 0; 0; 1; 0; 0; 0; 1; 0].
Definition make_synth_not_there_answer (J : Z -> Z) (a : list Z) (count : Z) := make_synth_answer J a count not_there 40.

(** DwUdpSocket.c 1107-1112, make_synth_rfc8482_answer. *)
Definition any_answer : list Z := [192; 12; 0; 13; 0; 1; 0; 0; 0; 0; 0; 9; 7; 82; 70; 67; 56; 52; 56; 50; 0; 0].
Definition make_synth_rfc8482_answer (J : Z -> Z) (a : list Z) (count : Z) := make_synth_answer J a count any_answer 21.

(** x[i] |= v *)
Definition or_at (l : list Z) (i v : Z) : res (list Z) := b <- rd l i ;; wr l i (u8 (Z.lor b v)).
(** sendto: the kernel reads [n] bytes of the memory. *)
Definition sendto (mem : list Z) (n : Z) : res (list Z) := if zlen mem <? n then Bad OutOfBounds else Ok (zslice mem 0 n).

(** DwUdpSocket.c 606-623 and 836-851: flagging the answer, and sending it with 40 bytes more
    than the question. *)
Definition flag_and_send (answer : list Z) (len : Z) : res (list Z) :=
  answer <- or_at answer 2 128 ;;
  answer <- or_at answer 3 128 ;;
  answer <- wr answer 9 1 ;;
  answer <- wr answer 11 0 ;; answer <- wr answer 10 0 ;; answer <- wr answer 8 0 ;; answer <- wr answer 7 0 ;; answer <- wr answer 6 0 ;;
  sendto answer (len + 40).

(** DwUdpSocket.c 600-628, in get_reply_from_cache: the reply to a client asking for a name
    that is in the cache as blocked; the result of make_synth_not_there_answer is used
    without a look at it. *)
Definition blocklisted_reply (J : Z -> Z) (orig_packet : list Z) (orig_len : Z) : res (list Z) :=
  r <- make_synth_not_there_answer J orig_packet orig_len ;;
  match r with None => Bad NullDeref | Some (answer, len) => flag_and_send answer len end.

(** ** A packet from a client *)

Record conf := mkconf { cf_reject_aaaa : bool; cf_reject_ptr : bool; cf_rfc8482 : bool; cf_acl : list ipmask; cf_hash : option blockhash }.

(** What becomes of a packet: nothing; a reply is made up; the cache is looked at and, if
    there is nothing in it, the packet is sent on. *)
Inductive action :=
| Drop
| Reply (packet : list Z)
| Lookup (query orig_query : dwstr) (id : Z) (packet : list Z) (len : Z).

(** DwUdpSocket.c 768-883, in get_local_udp_packet: the question is looked at. *)
Definition local_question (J : Z -> Z) (cf : conf) (id : Z) (packet : list Z) (len : Z) : res action :=
  if (id <? 0) || (len <? 13) then Ok Drop
  else
    match dw_get_dname_type J packet 12 len with
    | Bad f => Bad f
    | Fail => Ok Drop
    | Ok query =>
        qtype <- dw_fetch_u16 query (-1) ;;
        orig <- dw_copy J (Some query) ;;
        '(_, query) <- dwc_lower_case query ;;
        blocked <- match cf_hash cf with None => Ok false | Some h => if 2 <? d_len query then in_blocked_hosts h (con query) else Ok false end ;;
        if ((qtype =? 28) && cf_reject_aaaa cf) || ((qtype =? 12) && cf_reject_ptr cf) ||
           (((qtype =? 255) || (qtype =? 13)) && cf_rfc8482 cf) || blocked then
          r <- (if (qtype =? 255) || (qtype =? 13) then make_synth_rfc8482_answer J packet len else make_synth_not_there_answer J packet len) ;;
          match r with
          | None => Ok Drop
          | Some (answer, len) => p <- flag_and_send answer len ;; Ok (Reply p)
          end
        else match orig with None => Ok Drop | Some orig => Ok (Lookup query orig id packet len) end
    end.

(** DwUdpSocket.c 720-883, get_local_udp_packet.  [packet]: the 522 bytes of the buffer, the
    first [len] of them received ([len] at most 520); [ip]: the sender.  The logging is left
    out. *)
Definition get_local_udp_packet (J : Z -> Z) (cf : conf) (ip packet : list Z) (len : Z) : res action :=
  if len <? 12 then Ok Drop
  else
    ok <- check_ip_acl (cf_acl cf) (zlen ip) ip ;;
    if negb (ok =? 1) then Ok Drop
    else
      id <- get_dns_qid packet len 2 ;;
      if id =? -2 then
        match dw_get_dname_type J packet 12 len with
        | Bad f => Bad f
        | Fail => Ok Drop
        | Ok query =>
            let len := d_len query + 14 in
            packet <- wr packet 11 0 ;;
            id <- get_dns_qid packet len 2 ;;
            local_question J cf id packet len
        end
      else local_question J cf id packet len.

(** ** A packet from an upstream server *)

(** DwUdpSocket.c 1012-1040, verify_dns_packet; [remote_id] and [query] are those of the
    pending query. *)
Definition verify_dns_packet (J : Z -> Z) (remote_id : Z) (query : option dwstr) (packet : list Z) (len : Z) : res bool :=
  id <- get_dns_qid packet len 0 ;;
  if negb (id =? remote_id) then Ok false
  else
    match dw_get_dname_type J packet 12 len with
    | Bad f => Bad f
    | Fail => Ok false
    | Ok question =>
        '(_, question) <- dwc_lower_case question ;;
        same <- match query with None => Ok (-1) | Some q => dw_issame question q end ;;
        Ok (same =? 1)
    end.

(** DwUdpSocket.c 1249-1297: cutting a truncated packet after the first record.  [y]: the
    state; [x]: how many bytes are left of a field.  Result: the new length, or the packet is
    not one that can be cut. *)
Fixpoint cut_loop (n : nat) (a : list Z) (count z y x : Z) : res (option Z) :=
  match n with
  | O => Bad NoFuel
  | S n =>
      if z <? count then
        if y =? 0 then
          b <- rd a z ;;
          if 63 <? b then Ok None
          else if b =? 0 then cut_loop n a count (z + 1) 7 4
          else cut_loop n a count (z + 1) 1 b
        else if y =? 1 then cut_loop n a count (z + 1) (if x - 1 =? 0 then 0 else y) (x - 1)
        else if y =? 7 then cut_loop n a count (z + 1) (if x - 1 =? 0 then 2 else y) (x - 1)
        else if y =? 2 then
          b <- rd a z ;; if negb (b =? 192) then Ok None else cut_loop n a count (z + 1) 3 x
        else if y =? 3 then
          b <- rd a z ;; if negb (b =? 12) then Ok None else cut_loop n a count (z + 1) 4 8
        else if y =? 4 then cut_loop n a count (z + 1) (if x - 1 =? 0 then 5 else y) (x - 1)
        else if y =? 5 then
          b <- rd a z ;; if negb (b =? 0) then Ok None else cut_loop n a count (z + 1) 6 x
        else if y =? 6 then
          b <- rd a z ;;
          if count <? z + b + 1 then Ok None else cut_loop n a (z + b + 1) (z + 1) 8 x
        else cut_loop n a count (z + 1) y x
      else Ok (Some count)
  end.

(** DwUdpSocket.c 1243-1299: the packet as it is looked at; [None]: it is given up. *)
Definition cut_truncated (hack : bool) (a : list Z) (count : Z) : res (option (list Z * Z)) :=
  a2 <- rd a 2 ;; a7 <- rd a 7 ;;
  if negb (Z.land a2 2 =? 0) && (0 <? a7) && hack then
    a <- wr a 11 0 ;; a <- wr a 10 0 ;; a <- wr a 9 0 ;; a <- wr a 8 0 ;; a <- wr a 6 0 ;;
    a <- wr a 7 1 ;;
    r <- cut_loop (Z.to_nat (count + 1)) a count 12 0 0 ;;
    match r with
    | None => Ok None
    | Some count => a2 <- rd a 2 ;; a <- wr a 2 (Z.land a2 253) ;; Ok (Some (a, count))
    end
  else Ok (Some (a, count)).
