(** Model of Deadwood's string objects (deadwood-github/src/DwStr.c).

    A [dw_str] is a heap buffer with a length and a maximum.  [d_mem] is the whole
    allocation, so that reading or writing outside it is a fault, while reading inside it
    but past [d_len] is not (the code does that): what is there is whatever malloc left.
    malloc's contents are a parameter [J] of the functions that allocate; the theorems
    quantify over it.  Allocation failure is not modelled; [sane] is always 114 and [str]
    never 0 in a live object, so the sanity check is the check of the lengths. *)
From Verif Require Import CBase.

Record dwstr := mkdw { d_mem : list Z; d_len : Z; d_max : Z }.

Definition mkjunk (J : Z -> Z) (n : Z) : list Z := map (fun i => J (Z.of_nat i)) (seq 0 (Z.to_nat n)).

(** DwStr.c 26-43, dw_assert_sanity. *)
Definition dw_sane (s : dwstr) : bool := (d_len s <? d_max s) && (d_len s <=? 268435455).

(** DwStr.c 49-70, dw_create; the argument is a uint32_t. *)
Definition dw_create (J : Z -> Z) (size : Z) : option dwstr :=
  if 134217728 <=? u32 size then None else Some (mkdw (mkjunk J (u32 size + 2)) 0 (u32 size)).

(** DwStr.c 100-112, dw_addchar. *)
Definition dw_addchar (add : Z) (s : dwstr) : res (Z * dwstr) :=
  if negb (dw_sane s) then Ok (-1, s)
  else if d_len s + 1 <? d_max s then
    mem <- wr (d_mem s) (d_len s) (u8 add) ;; Ok (0, mkdw mem (d_len s + 1) (d_max s))
  else Ok (-1, s).

(** The copying loops: [n] bytes of [src] from [i] to [dst] at [j]. *)
Fixpoint copy_bytes (n : nat) (src : list Z) (i : Z) (dst : list Z) (j : Z) : res (list Z) :=
  match n with
  | O => Ok dst
  | S n => b <- rd src i ;; dst <- wr dst j b ;; copy_bytes n src (i + 1) dst (j + 1)
  end.

(** DwStr.c 116-136, dw_cstr_append: [add] is the caller's buffer. *)
Definition dw_cstr_append (add : list Z) (len : Z) (s : dwstr) : res (Z * dwstr) :=
  if negb (dw_sane s) then Ok (-1, s)
  else if len <? 0 then Ok (-1, s)
  else if d_max s <=? d_len s + len then Ok (-1, s)
  else mem <- copy_bytes (Z.to_nat len) add 0 (d_mem s) (d_len s) ;; Ok (0, mkdw mem (d_len s + len) (d_max s)).

(** DwStr.c 287-295, the copying loop of dw_substr: [n] is how often it still runs.
    [c + begin] is compared as an unsigned number. *)
Fixpoint substr_loop (n : nat) (c : Z) (obj : dwstr) (begin : Z) (mem : list Z) (max : Z) : res (Z * list Z) :=
  match n with
  | O => Ok (c, mem)
  | S n =>
      if (d_len obj <? u32 (c + begin)) || (max <=? c) then Ok (c, mem)
      else b <- rd (d_mem obj) (begin + c) ;; mem <- wr mem c b ;; substr_loop n (c + 1) obj begin mem max
  end.
(** DwStr.c 261-311, dw_substr.  [None] is NULL. *)
Definition dw_substr (J : Z -> Z) (obj : option dwstr) (begin amount max : Z) : res (option dwstr) :=
  match obj with
  | None => Ok None
  | Some obj =>
      if negb (dw_sane obj) then Ok None
      else
        let begin := if begin <? 0 then i32 (d_len obj + begin) else begin in
        let amount := if amount <? 0 then i32 (d_len obj - begin + amount + 1) else amount in
        let copy := if 0 <=? max then dw_create J (amount + max + 1)
                    else if max =? -1 then dw_create J (d_max obj) else None in
        match copy with
        | None => Ok None
        | Some copy =>
            '(c, mem) <- substr_loop (Z.to_nat amount) 0 obj begin (d_mem copy) (d_max copy) ;;
            Ok (Some (mkdw mem c (d_max copy)))
        end
  end.
(** DwStr.h 41, dw_copy. *)
Definition dw_copy (J : Z -> Z) (obj : option dwstr) : res (option dwstr) := dw_substr J obj 0 (-1) (-1).

(** DwStr.c 319-334, dw_fetch_u16 (-1 on error). *)
Definition dw_fetch_u16 (s : dwstr) (offset : Z) : res Z :=
  if negb (dw_sane s) then Ok (-1)
  else
    let offset := if offset <? 0 then i32 (offset + d_len s - 1) else offset in
    if (d_len s <? u32 (offset + 1)) || (offset <? 0) then Ok (-1)
    else hi <- rd (d_mem s) offset ;; lo <- rd (d_mem s) (offset + 1) ;; Ok (Z.lor (Z.shiftl hi 8) lo).

(** DwStr.c 337-349 and 352-364, dw_pop_u16 and dw_pop_u8. *)
Definition dw_pop_u16 (s : dwstr) : res (Z * dwstr) :=
  if negb (dw_sane s) then Ok (-1, s)
  else if d_len s <? 2 then Ok (-1, s)
  else
    hi <- rd (d_mem s) (d_len s - 2) ;; lo <- rd (d_mem s) (d_len s - 1) ;;
    Ok (Z.lor (Z.shiftl hi 8) lo, mkdw (d_mem s) (d_len s - 2) (d_max s)).
Definition dw_pop_u8 (s : dwstr) : res (Z * dwstr) :=
  if negb (dw_sane s) then Ok (-1, s)
  else if d_len s <? 1 then Ok (-1, s)
  else b <- rd (d_mem s) (d_len s - 1) ;; Ok (b, mkdw (d_mem s) (d_len s - 1) (d_max s)).

(** DwStr.c 371-386, dw_fetch_u8. *)
Definition dw_fetch_u8 (s : dwstr) (offset : Z) : res Z :=
  if negb (dw_sane s) then Ok (-1)
  else
    let offset := if offset <? 0 then i32 (d_len s + offset) else offset in
    if (d_len s <? u32 offset) || (offset <? 0) then Ok (-1) else rd (d_mem s) offset.

(** DwStr.c 402-433, dw_put_u16.  A negative offset below the start of the string stays
    negative; [offset > obj->len] is an unsigned comparison and catches it. *)
Definition dw_put_u16 (s : dwstr) (value offset : Z) : res (Z * dwstr) :=
  if negb (dw_sane s) then Ok (-1, s)
  else
    let value := u16 value in
    let offset := if offset <? 0 then i32 (d_len s + offset + 1) else offset in
    if (d_len s <? u32 offset) || (268435455 <? d_len s) then Ok (-1, s)
    else
      let put len :=
        mem <- wr (d_mem s) offset (Z.land (Z.shiftr value 8) 255) ;;
        mem <- wr mem (offset + 1) (Z.land value 255) ;;
        Ok (0, mkdw mem len (d_max s)) in
      if Z.land (d_len s) 16777215 - 1 <=? offset then
        let expand_by := d_len s - offset + 2 in
        if d_max s <=? d_len s + expand_by then Ok (-1, s) else put (d_len s + expand_by)
      else put (d_len s).
(** DwStr.h 42, dw_push_u16. *)
Definition dw_push_u16 (number : Z) (s : dwstr) : res (Z * dwstr) := dw_put_u16 s number (-1).

(** DwStr.c 452-477, dw_put_u8. *)
Definition dw_put_u8 (s : dwstr) (value offset : Z) : res (Z * dwstr) :=
  if negb (dw_sane s) then Ok (-1, s)
  else
    let offset := if offset <? 0 then i32 (d_len s + offset + 1) else offset in
    if (d_len s <? u32 offset) || (268435455 <? d_len s) then Ok (-1, s)
    else
      let put len := mem <- wr (d_mem s) offset (Z.land value 255) ;; Ok (0, mkdw mem len (d_max s)) in
      if offset =? Z.land (d_len s) 16777215 then
        if d_max s <? d_len s + 1 then Ok (-1, s) else put (d_len s + 1)
      else put (d_len s).

(** DwStr.c 511-528, dw_issame. *)
Fixpoint issame_loop (n : nat) (c : Z) (a b : list Z) : res Z :=
  match n with
  | O => Ok 1
  | S n => x <- rd a c ;; y <- rd b c ;; if negb (x =? y) then Ok 0 else issame_loop n (c + 1) a b
  end.
Definition dw_issame (a b : dwstr) : res Z :=
  if negb (dw_sane a) then Ok (-1)
  else if negb (dw_sane b) then Ok (-1)
  else if negb (d_len a =? d_len b) then Ok 0
  else issame_loop (Z.to_nat (d_len a)) 0 (d_mem a) (d_mem b).

(** DwStr.c 533-549, dw_append (of two different objects). *)
Definition dw_append (toappend : option dwstr) (target : dwstr) : res (Z * dwstr) :=
  match toappend with
  | None => Ok (-1, target)
  | Some a =>
      if negb (dw_sane a) then Ok (-1, target)
      else if negb (dw_sane target) then Ok (-1, target)
      else if d_max target <=? d_len target + d_len a then Ok (-1, target)
      else
        mem <- copy_bytes (Z.to_nat (d_len a)) (d_mem a) 0 (d_mem target) (d_len target) ;;
        Ok (0, mkdw mem (d_len target + d_len a) (d_max target))
  end.

(** DwStr.c 556-573, dw_substr_append. *)
Definition dw_substr_append (J : Z -> Z) (from : dwstr) (begin amount : Z) (target : dwstr) : res (Z * dwstr) :=
  tmp <- dw_substr J (Some from) begin amount 1 ;;
  match tmp with None => Ok (-1, target) | Some _ => dw_append tmp target end.

(** DwStr.c 601-630, dw_rfind (-2: not found). *)
Fixpoint rfind_loop (n : nat) (mem : list Z) (index : Z) (rx : Z) : res Z :=
  match n with
  | O => Ok (-2)
  | S n => b <- rd mem index ;; if b =? rx then Ok index else rfind_loop n mem (index - 1) rx
  end.
Definition dw_rfind (s : dwstr) (rx : Z) : res Z :=
  if negb (dw_sane s) then Ok (-1) else rfind_loop (Z.to_nat (d_len s)) (d_mem s) (d_len s - 1) rx.

(** DwStr.c 639-681, dw_qspop: the last comma-separated item and what is left. *)
Definition dw_qspop (J : Z -> Z) (s : dwstr) : res (option dwstr * dwstr) :=
  if negb (dw_sane s) then Ok (None, s)
  else
    index <- dw_rfind s 44 ;;
    if index =? -2 then out <- dw_copy J (Some s) ;; Ok (out, mkdw (d_mem s) 0 (d_max s))
    else if index <? 0 then Ok (None, s)
    else
      let index := index + 1 in
      let len := d_len s - index in
      if len <? 0 then Ok (None, s)
      else
        out <- dw_substr J (Some s) index len 1 ;;
        Ok (out, mkdw (d_mem s) (d_len s - (len + 1)) (d_max s)).

(** ** Domain names *)

(** DwStr.c 796-836, the loop of dw_get_dname.  [offset] indexes the caller's buffer
    [raw], [soffset] the new string.  [n]: iterations left of the outer loop (400), then
    the inner loop over the bytes of a label. *)
Fixpoint dname_label (len : nat) (raw : list Z) (offset max : Z) (out : list Z) (soffset : Z) : res (Z * list Z * Z) :=
  match len with
  | O => Ok (offset, out, soffset)
  | S len =>
      let soffset := soffset + 1 in
      let offset := offset + 1 in
      if (max - 2 <=? offset) || (255 <? soffset) then Fail
      else
        b <- rd raw offset ;;
        out <- wr out soffset b ;;
        if b <? 32 then Fail else dname_label len raw offset max out soffset
  end.
Fixpoint dname_loop (n : nat) (counter : Z) (raw : list Z) (offset max : Z) (out : list Z) (soffset : Z) : res (list Z * Z * Z) :=
  match n with
  | O => Ok (out, soffset, counter)
  | S n =>
      if (max - 2 <=? offset) || (255 <? soffset) then Fail
      else
        len <- rd raw offset ;;
        if 63 <? len then Fail
        else
          out <- wr out soffset len ;;
          if len =? 0 then Ok (out, soffset, counter)
          else
            '(offset, out, soffset) <- dname_label (Z.to_nat len) raw offset max out soffset ;;
            dname_loop n (counter + 1) raw (offset + 1) max out (soffset + 1)
  end.
(** DwStr.c 781-838, dw_get_dname; [Fail] is NULL.  Also returns the label count. *)
Definition dw_get_dname (J : Z -> Z) (raw : list Z) (offset max : Z) : res (dwstr * Z) :=
  match dw_create J (if 260 <? max then max else 260) with
  | None => Fail
  | Some out =>
      '(mem, soffset, count) <- dname_loop 400 0 raw offset max (d_mem out) 0 ;;
      Ok (mkdw mem (soffset + 1) (d_max out), count)
  end.
(** DwStr.c 846-876, dw_get_dname_type. *)
Definition dw_get_dname_type (J : Z -> Z) (raw : list Z) (offset max : Z) : res dwstr :=
  '(out, _) <- dw_get_dname J raw offset max ;;
  let offset := offset + d_len out in
  b0 <- rd raw offset ;; b1 <- rd raw (offset + 1) ;;
  if (b0 =? 255) && (Z.land b1 240 =? 112) then Fail
  else
    mem <- wr (d_mem out) (d_len out) b0 ;;
    mem <- wr mem (d_len out + 1) b1 ;;
    Ok (mkdw mem (d_len out + 2) (d_max out)).

(** DwStr.c 879-907, dw_get_dn_end (-1 on error).  The offset is signed; the check is
    unsigned. *)
Fixpoint dn_end_loop (n : nat) (s : dwstr) (offset : Z) : res Z :=
  match n with
  | O => Ok (offset + 1)
  | S n =>
      if d_len s <? u32 (offset + 1) then Ok (-1)
      else
        len <- rd (d_mem s) offset ;;
        if 192 <=? len then Ok (offset + 2)
        else if 63 <? len then Ok (-1)
        else if len =? 0 then Ok (offset + 1)
        else dn_end_loop n s (offset + len + 1)
  end.
Definition dw_get_dn_end (s : dwstr) (offset : Z) : res Z :=
  if negb (dw_sane s) then Ok (-1) else dn_end_loop 200 s offset.

(** DwStr.c 1002-1016, dw_cachepacket_to_ancount. *)
Definition dw_cachepacket_to_ancount (s : dwstr) : res Z :=
  if negb (dw_sane s) || (d_len s <? 7) then Ok (-1) else dw_fetch_u16 s (d_len s - 7).

(** DwStr.c 1027-1071, dw_packet_to_cache: [raw] is the receive buffer, of which the
    first [len] bytes were received.  A NULL [out] makes the calls that follow fail
    without effect. *)
Definition dw_packet_to_cache (J : Z -> Z) (raw : list Z) (len type : Z) : res (option dwstr) :=
  let hack := mkdw raw len (len + 1) in
  ancount <- dw_fetch_u16 hack 6 ;;
  nscount <- dw_fetch_u16 hack 8 ;;
  arcount <- dw_fetch_u16 hack 10 ;;
  if (ancount <? 0) || (nscount <? 0) || (arcount <? 0) then Ok None
  else
    offset <- dw_get_dn_end hack 12 ;;
    if offset <? 0 then Ok None
    else
      out <- dw_substr J (Some hack) (offset + 4) (-1) 7 ;;
      match out with
      | None => Ok None
      | Some out =>
          '(_, out) <- dw_put_u16 out ancount (-1) ;;
          '(_, out) <- dw_put_u16 out nscount (-1) ;;
          '(_, out) <- dw_put_u16 out arcount (-1) ;;
          '(_, out) <- dw_addchar type out ;;
          Ok (Some out)
      end.

(** DwStr.c 1126-1140, dw_ends_in_dot, on a sane string. *)
Definition dw_ends_in_dot (s : dwstr) : res bool :=
  if d_len s <? 1 then Ok false else b <- rd (d_mem s) (d_len s - 1) ;; Ok (b =? 46).

(** DwStr.c 1153-1177, dw_dnsname_delim_convert: one byte of the name; [Fail] is -1.
    Returns the new output, place and count. *)
Definition delim_convert (inp : dwstr) (out : list Z) (max a place count : Z) : res (list Z * Z * Z) :=
  b <- rd (d_mem inp) a ;;
  '(out, place, count) <-
    (if b =? 46 then
       if count <=? 0 then Fail
       else
         out <- (if place <? max then wr out place (u8 count) else Ok out) ;;
         Ok (out, a + 1, -1)
     else Ok (out, place, count)) ;;
  let count := count + 1 in
  out <- (if a + 1 <? max then wr out (a + 1) b else Ok out) ;;
  if 63 <? count then Fail else Ok (out, place, count).
Fixpoint convert_loop (n : nat) (inp : dwstr) (out : list Z) (max a place count : Z) : res (list Z) :=
  match n with
  | O => Ok out
  | S n =>
      '(out, place, count) <- delim_convert inp out max a place count ;;
      convert_loop n inp out max (a + 1) place count
  end.
(** DwStr.c 1181-1227, dw_dnsname_convert; [Fail] is NULL. *)
Definition dw_dnsname_convert (J : Z -> Z) (inp : dwstr) : res dwstr :=
  if negb (dw_sane inp) then Fail
  else
    dot <- dw_ends_in_dot inp ;;
    if negb dot then Fail
    else
      match dw_create J (d_len inp + 4) with
      | None => Fail
      | Some out =>
          let len := d_len inp + 1 in
          first <- rd (d_mem inp) 0 ;;
          if first =? 46 then
            if negb (d_len inp =? 1) then Fail
            else
              mem <- (if 1 <? d_max out then wr (d_mem out) 0 0 else Ok (d_mem out)) ;;
              Ok (mkdw mem 1 (d_max out))
          else
            mem <- convert_loop (Z.to_nat (d_len inp)) inp (d_mem out) (d_max out) 0 0 0 ;;
            mem <- (if len - 1 <? d_max out then wr mem (len - 1) 0 else Ok mem) ;;
            Ok (mkdw mem len (d_max out))
      end.

(** DwStr.c 1236-1271, dw_dnslabel_chop; [Fail] is NULL. *)
Fixpoint chop_loop (n : nat) (inp : dwstr) (a : Z) (out : list Z) (max b : Z) : res (list Z * Z) :=
  match n with
  | O => Bad NoFuel
  | S n =>
      if (a <? d_len inp) && (b <? max) then
        x <- rd (d_mem inp) a ;; out <- wr out b x ;; chop_loop n inp (a + 1) out max (b + 1)
      else Ok (out, b)
  end.
Definition dw_dnslabel_chop (J : Z -> Z) (inp : dwstr) : res dwstr :=
  if negb (dw_sane inp) then Fail
  else if d_len inp <? 2 then Fail
  else
    offset <- rd (d_mem inp) 0 ;;
    if (offset <? 1) || (63 <? offset) then Fail
    else if d_len inp <? offset then Fail
    else
      match dw_create J (d_len inp - offset + 1) with
      | None => Fail
      | Some out =>
          '(mem, b) <- chop_loop (Z.to_nat (d_len inp + 1)) inp (offset + 1) (d_mem out) (d_max out) 0 ;;
          Ok (mkdw mem b (d_max out))
      end.

(** DwStr.c 1283-1318, dw_rotate; the comparisons with [in->len] are unsigned.  On
    success the string becomes part 2, part 1, part 3 after [start]. *)
Definition dw_rotate (J : Z -> Z) (s : dwstr) (start pivot fin : Z) : res (Z * dwstr) :=
  if (pivot <=? start) || (fin <=? pivot) || (d_len s <=? u32 fin) then Ok (-1, s)
  else
    part1 <- dw_substr J (Some s) start (pivot - start) 1 ;;
    match part1 with
    | None => Ok (-1, s)
    | Some _ =>
        part2 <- dw_substr J (Some s) pivot (fin - pivot) 1 ;;
        match part2 with
        | None => Ok (-1, s)
        | Some _ =>
            part3 <- dw_substr J (Some s) fin (-1) 1 ;;
            match part3 with
            | None => Ok (-1, s)
            | Some _ =>
                let s := mkdw (d_mem s) start (d_max s) in
                '(_, s) <- dw_append part2 s ;;
                '(_, s) <- dw_append part1 s ;;
                '(_, s) <- dw_append part3 s ;;
                Ok (1, s)
            end
        end
    end.
