(** Model of deadwood-github/src/DwDnsStr.c: reading the offset table of a stored answer,
    record rotation, TTL ageing, the IP filter, lower-casing.

    Allocation failure is not modelled.  [in->len], [end] and the counts are far below
    2^31 in every call, so plain integers stand for the int32_t arithmetic. *)
From Verif Require Import CBase ModelDwStr.

(** DwDnsStr.h 26-35, dns_string.  The arrays are lists of uint16_t: two per record, and
    one more element is allocated but never initialised (dwc_init_dns_str, 38-63). *)
Record dnsstr := mkdns { n_packet : option dwstr; n_an : list Z; n_ns : list Z; n_ar : list Z; n_ancount : Z; n_nscount : Z; n_arcount : Z; n_type : Z }.

(** DwDnsStr.c 33-93, dwc_init_dns_str: zeroed arrays; [Fail] is 0. *)
Definition zeros (n : Z) : list Z := repeat 0 (Z.to_nat n).
Definition dwc_init_dns_str (ancount nscount arcount : Z) : res dnsstr :=
  if (ancount <? 0) || (nscount <? 0) || (arcount <? 0) then Fail
  else Ok (mkdns None (zeros (ancount * 2)) (zeros (nscount * 2)) (zeros (arcount * 2)) ancount nscount arcount 0).

(** DwDnsStr.c 114-136, dwc_place_offsets; [n] is [count].  Returns the new offset (-1:
    error) and the array. *)
Fixpoint dwc_place_offsets (n : nat) (inp : dwstr) (offset : Z) (array : list Z) : res (Z * list Z) :=
  if negb (dw_sane inp) then Ok (-1, array)
  else
    match n with
    | O => Ok (offset, array)
    | S n =>
        let offset := offset - 2 in
        if offset <? 0 then Ok (-1, array)
        else
          v <- dw_fetch_u16 inp offset ;;
          array <- wr array (Z.of_nat n * 2 + 1) (u16 v) ;;
          let offset := offset - 2 in
          if offset <? 0 then Ok (-1, array)
          else
            v <- dw_fetch_u16 inp offset ;;
            array <- wr array (Z.of_nat n * 2) (u16 v) ;;
            dwc_place_offsets n inp offset array
    end.

(** DwDnsStr.c 139-194, dwc_make_dns_str; [Fail] is 0. *)
Definition dwc_make_dns_str (J : Z -> Z) (inp : dwstr) : res dnsstr :=
  if negb (dw_sane inp) then Fail
  else
    let offset := d_len inp - 1 in
    if offset <? 7 then Fail
    else
      type <- rd (d_mem inp) offset ;;
      if negb (type =? 0) && negb (type =? 1) && negb (type =? 2) then Fail
      else
        let offset := offset - 2 in
        arcount <- dw_fetch_u16 inp offset ;;
        let offset := offset - 2 in
        nscount <- dw_fetch_u16 inp offset ;;
        let offset := offset - 2 in
        ancount <- dw_fetch_u16 inp offset ;;
        out <- dwc_init_dns_str ancount nscount arcount ;;
        packet <- dw_copy J (Some inp) ;;
        '(offset, ar) <- dwc_place_offsets (Z.to_nat arcount) inp offset (n_ar out) ;;
        if offset <? 0 then Fail
        else
          '(offset, ns) <- dwc_place_offsets (Z.to_nat nscount) inp offset (n_ns out) ;;
          if offset <? 0 then Fail
          else
            '(offset, an) <- dwc_place_offsets (Z.to_nat ancount) inp offset (n_an out) ;;
            if offset <? 0 then Fail
            else Ok (mkdns packet an ns ar ancount nscount arcount type).

(** DwDnsStr.c 244-272, dwc_get_type. *)
Definition dwc_get_type (packet : option dwstr) (list : list Z) (max offset : Z) : res Z :=
  match packet with
  | None => Ok 65393
  | Some packet =>
      if (offset <? 0) || (max <? offset) then Ok 65393
      else
        where_ <- rd list (offset * 2 + 1) ;;
        if (where_ <? 0) || (d_len packet <? where_) then Ok 65393
        else
          val <- dw_fetch_u16 packet where_ ;;
          if (val <? 0) || ((65392 <=? val) && (val <=? 65407)) || (65536 <=? val) then Ok 65393 else Ok val
  end.

(** DwDnsStr.c 275-300, dwc_rr_find: -1 error. *)
Fixpoint rr_find_loop (n : nat) (look : dnsstr) (rr type : Z) : res Z :=
  match n with
  | O => Ok (if n_ancount look <? rr then -1 else rr - 1)
  | S n =>
      if (rr <? n_ancount look) && (type =? 5) then
        type <- dwc_get_type (n_packet look) (n_an look) (n_ancount look) rr ;;
        if type =? 65393 then Ok (-1) else rr_find_loop n look (rr + 1) type
      else Ok (if n_ancount look <? rr then -1 else rr - 1)
  end.
Definition dwc_rr_find (look : dnsstr) : res Z := rr_find_loop (S (Z.to_nat (n_ancount look))) look 0 5.

(** DwDnsStr.c 309-355, dwc_rotate_offsets.  The loop (340-348): [n] iterations left. *)
Fixpoint rotate_loop (n : nat) (s : dwstr) (fin this_rr : Z) (first : bool) (start start_len : Z) : res (dwstr * Z) :=
  match n with
  | O => Ok (s, start_len)
  | S n =>
      next_rr <- dw_fetch_u16 s (fin + (this_rr + 1) * 4) ;;
      next_rr_b <- dw_fetch_u16 s (fin + 2 + (this_rr + 1) * 4) ;;
      let start_len := if first then next_rr - start else start_len in
      '(_, s) <- dw_put_u16 s (next_rr - start_len) (fin + this_rr * 4) ;;
      '(_, s) <- dw_put_u16 s (next_rr_b - start_len) (fin + 2 + this_rr * 4) ;;
      rotate_loop n s fin (this_rr + 1) false start start_len
  end.
Definition dwc_rotate_offsets (s : dwstr) (fin first_rr last_rr : Z) : res (Z * dwstr) :=
  if (last_rr <=? first_rr) || (first_rr <? 0) then Ok (-1, s)
  else if first_rr =? last_rr - 1 then Ok (1, s)
  else if negb (fin + last_rr * 4 =? d_len s - 7) then Ok (-1, s)
  else
    start <- dw_fetch_u16 s (fin + first_rr * 4) ;;
    start_b <- dw_fetch_u16 s (fin + 2 + first_rr * 4) ;;
    '(s, start_len) <- rotate_loop (Z.to_nat (last_rr - 1 - first_rr)) s fin first_rr true start 0 ;;
    '(_, s) <- dw_put_u16 s (fin - start_len) (fin + (last_rr - 1) * 4) ;;
    '(_, s) <- dw_put_u16 s (fin - start_len + (start_b - start)) (fin + 2 + (last_rr - 1) * 4) ;;
    Ok (1, s).

(** DwDnsStr.c 370-436, dwc_rr_rotate with out_start = out_end = 0 (rotation).  The
    string is returned as it then is: on an error after dw_rotate it has been changed. *)
Definition dwc_rr_rotate (J : Z -> Z) (s : dwstr) : res (Z * dwstr) :=
  match dwc_make_dns_str J s with
  | Bad f => Bad f
  | Fail => Ok (-1, s)
  | Ok look =>
      if n_ancount look =? 0 then Ok (-1, s)
      else
        rr <- dwc_rr_find look ;;
        if (rr =? -1) || (n_ancount look <=? rr + 1) then Ok (-1, s)
        else
          start <- rd (n_an look) (rr * 2) ;;
          pivot <- rd (n_an look) ((rr + 1) * 2) ;;
          fin <- (if (n_nscount look =? 0) && (n_arcount look =? 0) then Ok (d_len s - 7 - n_ancount look * 4)
                  else if 0 <? n_nscount look then rd (n_ns look) 0 else rd (n_ar look) 0) ;;
          if (n_nscount look =? 0) && (n_arcount look =? 0) && (fin <? 0) then Ok (-1, s)
          else
            '(code, s) <- dw_rotate J s start pivot fin ;;
            if code =? -1 then Ok (-1, s)
            else dwc_rotate_offsets s (d_len s - 7 - (n_ancount look + n_nscount look + n_arcount look) * 4) rr (n_ancount look)
  end.

(** DwDnsStr.c 370-436 with out_start and out_end: where the answers begin and end.
    [(start, pivot read, end)]; pivot is read (402) even when there is one answer only:
    the element after the last is inside the allocation, never initialised, and not used
    here. *)
Definition dwc_rr_extent (J : Z -> Z) (s : dwstr) : res (option (Z * Z)) :=
  match dwc_make_dns_str J s with
  | Bad f => Bad f
  | Fail => Ok None
  | Ok look =>
      if n_ancount look =? 0 then Ok None
      else
        start <- rd (n_an look) 0 ;;
        fin <- (if (n_nscount look =? 0) && (n_arcount look =? 0) then Ok (d_len s - 7 - n_ancount look * 4)
                else if 0 <? n_nscount look then rd (n_ns look) 0 else rd (n_ar look) 0) ;;
        if (n_nscount look =? 0) && (n_arcount look =? 0) && (fin <? 0) then Ok None else Ok (Some (start, fin))
  end.

(** DwDnsStr.c 439-476, dwc_ttl_age. *)
Fixpoint ttl_loop (n : nat) (s : dwstr) (an : list Z) (counter left right : Z) : res dwstr :=
  match n with
  | O => Ok s
  | S n =>
      o <- rd an (counter * 2 + 1) ;;
      '(_, s) <- dw_put_u16 s left (o + 4) ;;
      '(_, s) <- dw_put_u16 s right (o + 6) ;;
      ttl_loop n s an (counter + 1) left right
  end.
Definition dwc_ttl_age (J : Z -> Z) (s : dwstr) (ttl : Z) : res (Z * dwstr) :=
  if ttl =? -1 then Ok (-1, s)
  else
    match dwc_make_dns_str J s with
    | Bad f => Bad f
    | Fail => Ok (-1, s)
    | Ok look =>
        let ttl := if ttl <? 5 then 5 else ttl in
        let left := Z.land (u16 (Z.shiftr ttl 16)) 32767 in
        let right := Z.land ttl 65535 in
        s <- ttl_loop (Z.to_nat (n_ancount look)) s (n_an look) 0 left right ;;
        Ok (1, s)
    end.

(** DwDnsStr.c 534-584, dwc_check_ip.  [filter]: filter_rfc1918 is 1.  [blocked]: whether
    a string is a key of the ip_blocklist dictionary (None: no dictionary); dwd_fetch is
    the subject of C31.  The first byte is shifted into the sign bit of an int, which
    gcc defines; the result is stored in a uint32_t. *)
Definition dwc_check_ip (filter : bool) (blocked : option (list Z -> bool)) (ip : option dwstr) : res bool :=
  match ip with
  | None => Ok false
  | Some ip =>
      bad <- (if (d_len ip =? 4) && filter then
                a <- rd (d_mem ip) 0 ;; b <- rd (d_mem ip) 1 ;; c <- rd (d_mem ip) 2 ;; d <- rd (d_mem ip) 3 ;;
                let ipc := u32 (Z.lor (Z.lor (Z.lor (Z.shiftl a 24) (Z.shiftl b 16)) (Z.shiftl c 8)) d) in
                Ok ((Z.land ipc 4294901760 =? 3232235520) (* ffff0000, c0a80000 *)
                    || (Z.land ipc 4293918720 =? 2886729728) (* fff00000, ac100000 *)
                    || (Z.land ipc 4278190080 =? 167772160) (* ff000000, 0a000000 *)
                    || (Z.land ipc 4278190080 =? 2130706432) (* ff000000, 7f000000 *)
                    || (Z.land ipc 4294901760 =? 2851995648) (* ffff0000, a9fe0000 *)
                    || (Z.land ipc 4278190080 =? 3758096384) (* ff000000, e0000000 *)
                    || (Z.land ipc 4294901760 =? 0))
              else Ok false) ;;
      if (bad : bool) then Ok true
      else match blocked with
           | None => Ok false
           | Some f => Ok (f (firstn (Z.to_nat (d_len ip)) (d_mem ip)))
           end
  end.

(** DwDnsStr.c 589-640, dwc_has_bad_ip. *)
Fixpoint bad_ip_loop (n : nat) (J : Z -> Z) (filter : bool) (blocked : option (list Z -> bool)) (s : dwstr) (an : list Z) (counter : Z) : res bool :=
  match n with
  | O => Ok false
  | S n =>
      o <- rd an (counter * 2 + 1) ;;
      type <- dw_fetch_u16 s o ;;
      if type =? 1 then
        ip <- dw_substr J (Some s) (o + 10) 4 1 ;;
        bad <- dwc_check_ip filter blocked ip ;;
        if (bad : bool) then Ok true else bad_ip_loop n J filter blocked s an (counter + 1)
      else if type =? 28 then
        ip <- dw_substr J (Some s) (o + 10) 16 1 ;;
        bad <- dwc_check_ip filter blocked ip ;;
        if (bad : bool) then Ok true else bad_ip_loop n J filter blocked s an (counter + 1)
      else bad_ip_loop n J filter blocked s an (counter + 1)
  end.
Definition dwc_has_bad_ip (J : Z -> Z) (filter : bool) (blocked : option (list Z -> bool)) (s : dwstr) : res bool :=
  match dwc_make_dns_str J s with
  | Bad f => Bad f
  | Fail => Ok false
  | Ok look => bad_ip_loop (Z.to_nat (n_ancount look)) J filter blocked s (n_an look) 0
  end.

(** DwDnsStr.c 644-670, dwc_lower_case: the bytes that are not label lengths. *)
Fixpoint lower_loop (n : nat) (mem : list Z) (counter place : Z) : res (list Z) :=
  match n with
  | O => Ok mem
  | S n =>
      c <- rd mem counter ;;
      if counter =? place then
        if c =? 0 then Ok mem else lower_loop n mem (counter + 1) (place + (c + 1))
      else if (65 <=? c) && (c <=? 90) then
        mem <- wr mem counter (u8 (c + 32)) ;; lower_loop n mem (counter + 1) place
      else lower_loop n mem (counter + 1) place
  end.
Definition dwc_lower_case (s : dwstr) : res (Z * dwstr) :=
  if d_len s =? 0 then Ok (-1, s)
  else mem <- lower_loop (Z.to_nat (d_len s)) (d_mem s) 0 0 ;; Ok (1, mkdw mem (d_len s) (d_max s)).

(** DwDnsStr.c 479-531, dwc_process, seen from one cache entry: [value] is what dwh_get
    returns a copy of (which exists), [ttl] what dwh_get_ttl returns; the result is the
    value of the entry afterwards.  dwh_add(..., -2, 1) replaces the value and keeps the
    expiry (DwHash.c, subject of C01-C03).  [ttl_age], [rotate]: parameters of dwood3rc. *)
Definition dwc_process (J : Z -> Z) (ttl_age rotate : bool) (action ttl : Z) (value : dwstr) : res dwstr :=
  cache_type <- dw_fetch_u8 value (-1) ;;
  if cache_type =? 24 then Ok value
  else
    aged <- (if ttl_age && (Z.land action 2 =? 2) then
               if ttl =? -1 then Ok None
               else '(code, fetch) <- dwc_ttl_age J value ttl ;; if code =? -1 then Ok None else Ok (Some fetch)
             else Ok (Some value)) ;;
    match aged with
    | None => Ok value
    | Some value =>
        if rotate && (Z.land action 1 =? 1) then
          '(code, fetch) <- dwc_rr_rotate J value ;;
          if (code =? -1) || (ttl =? -1) then Ok value else Ok fetch
        else Ok value
    end.
