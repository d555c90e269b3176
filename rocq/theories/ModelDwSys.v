(** Model of parts of deadwood-github/src/DwSys.c and DwSocket.c: the check of the header
    of a packet, the list of networks that may use the server. *)
From Verif Require Import CBase SpecDwStr ModelDwStr.

(** ** The header of a packet *)

(** DwSys.c 865-906, get_dns_qid.  [a] is the receive buffer. *)
Definition get_dns_qid (a : list Z) (len check : Z) : res Z :=
  if len <? 12 then Ok (-1)
  else
    a0 <- rd a 0 ;; a1 <- rd a 1 ;; a2 <- rd a 2 ;; a3 <- rd a 3 ;; a4 <- rd a 4 ;; a5 <- rd a 5 ;; a6 <- rd a 6 ;;
    a7 <- rd a 7 ;; a8 <- rd a 8 ;; a9 <- rd a 9 ;; a10 <- rd a 10 ;; a11 <- rd a 11 ;;
    if (check =? 1) && negb (Z.land a2 128 =? 0) then Ok (-1)
    else if (check =? 2) && (negb (Z.land a2 249 =? 1) || negb (Z.land a3 79 =? 0) || negb (a4 =? 0) || negb (a5 =? 1) ||
              negb (a6 =? 0) || negb (a7 =? 0) || negb (a8 =? 0) || negb (a9 =? 0) || negb (a10 =? 0)) then Ok (-1)
    else if (check =? 2) && (a11 =? 1) then Ok (-2)
    else if (check =? 2) && negb (a11 =? 0) then Ok (-1)
    else if (a5 =? 0) && (a4 =? 0) && (a6 =? 0) && (a7 =? 0) && (a8 =? 0) && (a9 =? 0) && (a10 =? 0) && (a11 =? 0) then Ok (-1)
    else Ok (Z.lor (Z.shiftl a0 8) a1).

(** DwSys.c 911-919, set_dns_qid; [qid] is a uint16_t. *)
Definition set_dns_qid (packet : list Z) (len qid : Z) : res (Z * list Z) :=
  if len <? 12 then Ok (-1, packet)
  else
    packet <- wr packet 0 (u8 (Z.shiftr qid 8)) ;;
    packet <- wr packet 1 (Z.land qid 255) ;;
    Ok (qid, packet).

(** DwSys.c 997-1016, get_key_n: [val] is the number in the configuration. *)
Definition get_key_n (val min max def : Z) : Z :=
  if val <? min then (if def =? -1 then min else def)
  else if max <? val then (if def =? -1 then max else def)
  else val.

(** ** Lists in the configuration *)

(** DwStr.c 688-715, dw_zap_lws: without blanks and tabs at the beginning. *)
Fixpoint lws_loop (n : nat) (s : dwstr) (index : Z) : res Z :=
  match n with
  | O => Ok index
  | S n => b <- rd (d_mem s) index ;; if (b =? 32) || (b =? 9) then lws_loop n s (index + 1) else Ok index
  end.
Definition dw_zap_lws (J : Z -> Z) (s : dwstr) : res (option dwstr) :=
  if negb (dw_sane s) then Ok None
  else
    index <- lws_loop (Z.to_nat (d_len s)) s 0 ;;
    if d_len s <=? index then Ok (dw_create J 1) else dw_substr J (Some s) index (-1) 1.

(** A C string: what is before the first zero byte. *)
Fixpoint cstring (l : list Z) : list Z := match l with [] => [] | b :: l => if b =? 0 then [] else b :: cstring l end.
(** DwStr.c 578-593, dw_to_cstr: the copy, seen as a C string. *)
Definition dw_to_cstr (s : dwstr) : option (list Z) :=
  if negb (dw_sane s) then None else Some (cstring (con s)).

(** DwSys.c 924-949, pop_last_item.  [J] stands for all memory that is allocated. *)
Definition pop_last_item (J : Z -> Z) (s : dwstr) : res (option (list Z) * dwstr) :=
  '(a, s) <- dw_qspop J s ;;
  match a with
  | None => Ok (None, s)
  | Some a =>
      b <- dw_zap_lws J a ;;
      match b with None => Ok (None, s) | Some b => Ok (dw_to_cstr b, s) end
  end.

(** ** Networks *)

(** DwSys.c 956-992, make_netmask, on the array [str].  The pointer [str] is the index
    [i]. *)
Fixpoint mask_ff (div : nat) (str : list Z) (i : Z) : res (list Z * Z) :=
  match div with
  | O => Ok (str, i)
  | S div => str <- wr str i 255 ;; mask_ff div str (i + 1)
  end.
Fixpoint mask_00 (len : nat) (str : list Z) (i : Z) : res (list Z) :=
  match len with
  | O => Ok str
  | S len => str <- wr str (i + 1) 0 ;; mask_00 len str (i + 1)
  end.
Definition make_netmask (num : Z) (str : list Z) (len : Z) : res (list Z) :=
  if (len <? 1) || (64 <? len) then Ok str
  else
    let div := Z.shiftr num 3 in
    let rem := Z.land num 7 in
    if (div <? 0) || (len <? div) then Ok str
    else
      let last := u8 (Z.shiftl 255 (8 - rem)) in
      '(str, i) <- mask_ff (Z.to_nat div) str 0 ;;
      let len := len - div in
      if 0 <? len then str <- wr str i last ;; mask_00 (Z.to_nat (len - 1)) str i
      else Ok str.

(** DwSocket.h 113-122, ip_mask_T (with IPv6); ip and mask are arrays of 17. *)
Record ipmask := mkipm { im_len : Z; im_ip : list Z; im_mask : list Z }.
(** The table is a static variable (DwSocket.c 49): all zero at the start, 129 entries. *)
Definition ipm0 : ipmask := mkipm 0 (repeat 0 17) (repeat 0 17).
Definition acl0 : list ipmask := repeat ipm0 129.

(** What inet_pton does for the two families: the bytes it stores, if it accepts the text
    (it is part of the C library and a parameter of the model). *)
Record libc := mklibc { pton4 : list Z -> option (list Z); pton6 : list Z -> option (list Z) }.
Definition store (new old : list Z) : list Z := new ++ skipn (length new) old.

(** DwSocket.c 232-247, pop_ip_core: [c] is the text. *)
Definition pop_ip_core (L : libc) (e : ipmask) (c : list Z) : ipmask :=
  match pton4 L c with
  | Some a => mkipm 4 (store a (im_ip e)) (im_mask e)
  | None => match pton6 L c with Some a => mkipm 16 (store a (im_ip e)) (im_mask e) | None => mkipm 0 (im_ip e) (im_mask e) end
  end.

(** The C library's strchr(c,'/'): what is before the slash and what is after it. *)
Fixpoint at_slash (l : list Z) : option (list Z * list Z) :=
  match l with
  | [] => None
  | b :: l => if b =? 47 then Some ([], l) else match at_slash l with Some (x, y) => Some (b :: x, y) | None => None end
  end.
(** The C library's atoi: white space, a sign, digits.  A number that does not fit makes
    the behaviour undefined. *)
Fixpoint skip_space (l : list Z) : list Z :=
  match l with [] => [] | b :: r => if (b =? 32) || ((9 <=? b) && (b <=? 13)) then skip_space r else l end.
Fixpoint digits (l : list Z) (acc : Z) : Z :=
  match l with [] => acc | b :: l => if (48 <=? b) && (b <=? 57) then digits l (acc * 10 + (b - 48)) else acc end.
Definition atoi (l : list Z) : res Z :=
  let l := skip_space l in
  let v := match l with b :: r => if b =? 45 then - digits r 0 else if b =? 43 then digits r 0 else digits l 0 | [] => 0 end in
  if (v <? -2147483648) || (2147483647 <? v) then Bad SignedOverflow else Ok v.

(** DwSocket.c 340-379, pop_ip_mask. *)
Definition pop_ip_mask (J : Z -> Z) (L : libc) (s : dwstr) (e : ipmask) : res (ipmask * dwstr) :=
  '(c, s) <- pop_last_item J s ;;
  match c with
  | None => Ok (e, s)
  | Some c =>
      match at_slash c with
      | None =>
          let e := pop_ip_core L e c in
          mask <- make_netmask (im_len e * 8) (im_mask e) (im_len e) ;;
          Ok (mkipm (im_len e) (im_ip e) mask, s)
      | Some (x, q) =>
          let e := pop_ip_core L e x in
          match q with
          | [] => Ok (e, s)
          | _ =>
              n <- atoi q ;;
              if negb (im_len e =? 4) && negb (im_len e =? 16) then Ok (e, s)
              else
                let n := if (n <? 0) || (im_len e * 8 <? n) then im_len e * 8 else n in
                mask <- make_netmask n (im_mask e) (im_len e) ;;
                Ok (mkipm (im_len e) (im_ip e) mask, s)
          end
      end
  end.

(** DwSocket.c 407-428, set_ipmask_list: [n] entries may still be filled, the rest gets
    length 0. *)
Definition unset (e : ipmask) : ipmask := mkipm 0 (im_ip e) (im_mask e).
Fixpoint ipmask_loop (J : Z -> Z) (L : libc) (n : nat) (s : dwstr) (tab : list ipmask) : res (list ipmask) :=
  match n, tab with
  | O, _ => Ok (map unset (firstn 1 tab) ++ skipn 1 tab)
  | S _, [] => Bad OutOfBounds
  | S n', e :: tab' =>
      '(e, s) <- pop_ip_mask J L s e ;;
      if im_len e =? 0 then Ok (map unset (firstn (S n) (e :: tab')) ++ skipn (S n) (e :: tab'))
      else tab' <- ipmask_loop J L n' s tab' ;; Ok (e :: tab')
  end.
Definition set_ipmask_list (J : Z -> Z) (L : libc) (tab : list ipmask) (s : dwstr) : res (list ipmask) :=
  ipmask_loop J L 127 s tab.

(** DwSocket.c 461-485, check_ip_acl.  [ip], [len]: the address of the client. *)
Fixpoint same_net (n : nat) (b : Z) (eip emask ip : list Z) : res bool :=
  match n with
  | O => Ok true
  | S n =>
      m <- rd emask b ;; x <- rd eip b ;; y <- rd ip b ;;
      if negb (Z.land x m =? Z.land y m) then Ok false else same_net n (b + 1) eip emask ip
  end.
Fixpoint acl_loop (n : nat) (tab : list ipmask) (len : Z) (ip : list Z) : res Z :=
  match n, tab with
  | O, _ => Ok 0
  | S _, [] => Bad OutOfBounds
  | S n, e :: tab =>
      if im_len e =? 0 then Ok 0
      else if negb (len =? im_len e) then acl_loop n tab len ip
      else
        r <- same_net (Z.to_nat len) 0 (im_ip e) (im_mask e) ip ;;
        if r then Ok 1 else acl_loop n tab len ip
  end.
Definition check_ip_acl (tab : list ipmask) (len : Z) (ip : list Z) : res Z := acl_loop 128 tab len ip.
