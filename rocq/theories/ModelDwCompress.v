(** Model of deadwood-github/src/DwCompress.c, decompression and name comparison.

    Answers are held without header, question and class; a compression pointer counts from
    the start of the whole packet (12 bytes of header, the question [q], 2 bytes of class). *)
From Verif Require Import CBase ModelDwStr.

(** DwCompress.c 36-62, dwc_decomp_offset: -1 error; -2 - o: offset o in the question;
    otherwise an offset in the answer. *)
Definition dwc_decomp_offset (inp : dwstr) (offset qlen : Z) : res Z :=
  if negb (dw_sane inp) then Ok (-1)
  else if (offset <? 0) || (d_len inp <? u32 offset) then Ok (-1)
  else
    b <- rd (d_mem inp) offset ;;
    if b <? 64 then Ok offset
    else
      lo <- rd (d_mem inp) (offset + 1) ;;
      let o := Z.shiftl (Z.land b 63) 8 + lo - 12 in
      if (o <? qlen) && (0 <? qlen) then Ok (-2 - o)
      else
        let o := o - qlen - 2 in
        if (o <? 0) || (d_len inp <? u32 o) then Ok (-1) else Ok o.

(** DwCompress.c 66-81, dwc_finish_name; [Fail] is -1.  The result of dw_addchar is
    ignored. *)
Definition dwc_finish_name (out : dwstr) (delta offset : Z) (followed : bool) (t : Z) : res (Z * dwstr * Z) :=
  if negb (dw_sane out) || (offset <? 0) then Fail
  else
    '(_, out) <- dw_addchar 0 out ;;
    Ok (if followed then t else offset + 1, out, if followed then delta + 1 else delta).

(** DwCompress.c 106-154, the loop of dwc_decomp_dname: at most 200 labels and pointers.
    [useq]: reading from the question; [followed]: a pointer was followed.  When the loop
    runs out the C code returns [t] as on success.  Returns where the name ends in the
    source, the output and [delta]. *)
Fixpoint decomp_loop (n : nat) (J : Z -> Z) (inp q out : dwstr) (delta offset t : Z) (followed useq : bool) : res (Z * dwstr * Z) :=
  match n with
  | O => Ok (t, out, delta)
  | S n =>
      let src := if useq then q else inp in
      if d_len src <? u32 (offset + 1) then Fail
      else
        len <- rd (d_mem src) offset ;;
        if 192 <=? len then
          if useq then Fail
          else
            let t := if followed then t else offset + 2 in
            let delta := if followed then delta else -2 in
            offset <- dwc_decomp_offset inp offset (d_len q) ;;
            if offset =? -1 then Fail
            else if offset <? 0 then decomp_loop n J inp q out delta (-2 - offset) t true true
            else decomp_loop n J inp q out delta offset t true false
        else if 63 <? len then Fail
        else if len =? 0 then dwc_finish_name out delta offset followed t
        else
          tmp <- dw_substr J (Some src) offset (len + 1) 1 ;;
          '(_, out) <- dw_append tmp out ;;
          decomp_loop n J inp q out (if followed then delta + (len + 1) else delta) (offset + (len + 1)) t followed useq
  end.
(** DwCompress.c 94-156, dwc_decomp_dname; [Fail] is -1.  Every caller gives up on -1. *)
Definition dwc_decomp_dname (J : Z -> Z) (inp out q : dwstr) (delta where_dname : Z) : res (Z * dwstr * Z) :=
  if negb (dw_sane inp) || negb (dw_sane out) || negb (dw_sane q) || (where_dname <? 0) then Fail
  else decomp_loop 200 J inp q out delta where_dname 0 false false.

(** DwCompress.c 172-204, dwc_type_desc: compress?, bytes before, names, 16-bit words
    after. *)
Definition dwc_type_desc (type : Z) : Z :=
  if type =? 15 then 4624 (* 0x1210 *)
  else if (type =? 2) || (type =? 12) || (type =? 5) then 4112 (* 0x1010 *)
  else if type =? 6 then 4138 (* 0x102a *)
  else if (type =? 3) || (type =? 4) || (type =? 7) || (type =? 8) || (type =? 9) then 16 (* 0x0010 *)
  else if (type =? 14) || (type =? 17) then 32 (* 0x0020 *)
  else if (type =? 18) || (type =? 21) then 528 (* 0x0210 *)
  else if type =? 33 then 1552 (* 0x0610 *)
  else 0.
(** DwCompress.c 224-226 (and 774-776). *)
Definition desc_lead (desc : Z) : Z := Z.shiftr (Z.land desc 3840) 8.
Definition desc_names (desc : Z) : Z := Z.shiftr (Z.land desc 240) 4.
Definition desc_tail (desc : Z) : Z := Z.shiftl (Z.land desc 15) 1.

(** DwCompress.c 241-252, the names of the rddata; [rdo] is where RDLENGTH is. *)
Fixpoint decomp_names (n : nat) (J : Z -> Z) (inp out q : dwstr) (rdo offset : Z) : res (Z * dwstr) :=
  match n with
  | O => Ok (offset, out)
  | S n =>
      '(offset, out, delta) <- dwc_decomp_dname J inp out q 0 offset ;;
      if offset <? 0 then Fail
      else
        rdlength <- dw_fetch_u16 out rdo ;;
        '(_, out) <- dw_put_u16 out (rdlength + delta) rdo ;;
        decomp_names n J inp out q rdo offset
  end.
(** DwCompress.c 211-270, dwc_decomp_rddata; [Fail] is -1. *)
Definition dwc_decomp_rddata (J : Z -> Z) (desc offset : Z) (inp out q : dwstr) : res (Z * dwstr) :=
  if negb (dw_sane inp) || negb (dw_sane out) || negb (dw_sane q) || (desc <? 0) || (offset <? 0) then Fail
  else
    let lead := desc_lead desc in
    let tail := desc_tail desc in
    let offset := offset + 10 in
    let rdo := i32 (d_len out - 2) in
    '(offset, out) <-
      (if 0 <? lead then
         if d_len inp <? u32 (offset + lead) then Fail
         else
           tmp <- dw_substr J (Some inp) offset lead 1 ;;
           '(code, out) <- dw_append tmp out ;;
           if code =? -1 then Fail else Ok (offset + lead, out)
       else Ok (offset, out)) ;;
    '(offset, out) <- decomp_names (Z.to_nat (desc_names desc)) J inp out q rdo offset ;;
    if 0 <? tail then
      if d_len inp <? u32 (offset + tail) then Fail
      else
        tmp <- dw_substr J (Some inp) offset tail 1 ;;
        '(_, out) <- dw_append tmp out ;;
        Ok (offset + tail, out)
    else Ok (offset, out).

(** DwCompress.c 279-333, dwc_decomp_rr; [Fail] is -1. *)
Definition dwc_decomp_rr (J : Z -> Z) (inp out q stack : dwstr) (offset : Z) : res (Z * dwstr * dwstr) :=
  if negb (dw_sane inp) || negb (dw_sane out) || negb (dw_sane q) || negb (dw_sane stack) || (offset <? 0) then Fail
  else
    '(_, stack) <- dw_push_u16 (d_len out) stack ;;
    '(offset, out, _) <- dwc_decomp_dname J inp out q 0 offset ;;
    if (offset <? 0) || (u32 (d_len inp - 7) <? u32 offset) then Fail
    else
      '(_, stack) <- dw_push_u16 (d_len out) stack ;;
      val <- dw_fetch_u16 inp offset ;;
      if val =? -1 then Fail
      else
        let desc := dwc_type_desc val in
        tmp <- dw_substr J (Some inp) offset 10 1 ;;
        '(_, out) <- dw_append tmp out ;;
        val <- dw_fetch_u16 inp (offset + 8) ;;
        if desc =? 0 then
          if d_len inp <? u32 (offset + 10 + val) then Fail
          else
            tmp <- dw_substr J (Some inp) (offset + 10) val 1 ;;
            '(_, out) <- dw_append tmp out ;;
            Ok (offset + (val + 10), out, stack)
        else
          '(offset, out) <- dwc_decomp_rddata J desc offset inp out q ;;
          Ok (offset, out, stack).

(** DwCompress.c 359-364, the loop of dwc_decompress: at most 1000 records. *)
Fixpoint decompress_loop (n : nat) (J : Z -> Z) (inp out q stack : dwstr) (offset : Z) : res (dwstr * dwstr) :=
  match n with
  | O => Ok (out, stack)
  | S n =>
      if u32 offset <? u32 (d_len inp - 7) then
        '(offset, out, stack) <- dwc_decomp_rr J inp out q stack offset ;;
        if (offset <? 0) || (u32 (d_len inp - 7) <? u32 offset) then Fail
        else decompress_loop n J inp out q stack offset
      else Ok (out, stack)
  end.
(** DwCompress.c 340-385, dwc_decompress; [Fail] is NULL.  [Jo], [Js]: what malloc leaves
    in the output and in the stack of offsets; [J]: in temporary strings. *)
Definition dwc_decompress (Jo Js J : Z -> Z) (q inp : dwstr) : res dwstr :=
  if negb (dw_sane inp) || negb (dw_sane q) then Fail
  else
    match dw_create Jo 2048, dw_create Js 2048 with
    | Some out, Some stack =>
        '(out, stack) <- decompress_loop (Z.to_nat 1000) J inp out q stack 0 ;;
        '(_, out) <- dw_append (Some stack) out ;;
        tmp <- dw_substr J (Some inp) (-7) (-1) 1 ;;
        '(_, out) <- dw_append tmp out ;;
        Ok out
    | _, _ => Fail
    end.

(** DwCompress.c 392-428, dwc_label_same: 1 same, 0 different, -1 error. *)
Definition c_lower (b : Z) : Z := if (65 <=? b) && (b <=? 90) then u8 (b + 32) else b.
Fixpoint label_bytes (n : nat) (a : list Z) (a_o : Z) (b : list Z) (b_o : Z) (c : Z) : res Z :=
  match n with
  | O => Ok 1
  | S n =>
      if 0 <? c then
        x <- rd a (a_o + c) ;; y <- rd b (b_o + c) ;;
        if negb (c_lower x =? c_lower y) then Ok 0 else label_bytes n a a_o b b_o (c - 1)
      else Ok 1
  end.
Definition dwc_label_same (a : dwstr) (a_o : Z) (b : dwstr) (b_o : Z) : res Z :=
  if negb (dw_sane a) || negb (dw_sane b) || (d_len a <? u32 a_o) || (d_len b <? u32 b_o) || (a_o <? 0) || (b_o <? 0) then Ok (-1)
  else
    x <- rd (d_mem a) a_o ;; y <- rd (d_mem b) b_o ;;
    if negb (c_lower x =? c_lower y) then Ok 0
    else if (64 <? x) || (d_len a <? u32 (a_o + x)) || (d_len b <? u32 (b_o + x)) then Ok (-1)
    else label_bytes 128 (d_mem a) a_o (d_mem b) b_o x.

(** DwCompress.c 441-492, dwc_dname_same; [q] may be NULL.  In the question the byte at
    [place] is not checked for a pointer. *)
Fixpoint dname_same_loop (n : nat) (u : dwstr) (u_o : Z) (c : dwstr) (place : Z) (q : option dwstr) (in_q : bool) : res Z :=
  match n with
  | O => Ok (-1)
  | S n =>
      r <- (if in_q then Ok (Some (place, true))
            else
              p <- dwc_decomp_offset c place (match q with Some q => d_len q | None => 0 end) ;;
              if p =? -1 then Ok None
              else match q with
                   | None => if p <? 0 then Ok None else Ok (Some (p, false))
                   | Some _ => if p <? -1 then Ok (Some (-2 - p, true)) else Ok (Some (p, false))
                   end) ;;
      match r with
      | None => Ok (-1)
      | Some (place, in_q) =>
          match (if in_q then q else Some c) with
          | None => Bad NullDeref
          | Some src =>
              same <- dwc_label_same u u_o src place ;;
              if negb (same =? 1) then Ok 0
              else
                len <- rd (d_mem u) u_o ;;
                if len =? 0 then Ok 1
                else if (64 <? len) || (d_len u <=? u32 (u_o + len)) then Ok (-1)
                else if d_len src <=? u32 (place + len) then Ok (-1)
                else dname_same_loop n u (u_o + (len + 1)) c (place + (len + 1)) q in_q
          end
      end
  end.
Definition dwc_dname_same (u : dwstr) (u_o : Z) (c : dwstr) (c_o : Z) (q : option dwstr) : res Z :=
  if negb (dw_sane u) || negb (dw_sane c) || (u_o <? 0) || (d_len u <? u32 u_o) || (c_o <? 0) || (d_len c <? u32 c_o) then Ok (-1)
  else dname_same_loop (Z.to_nat 300) u u_o c c_o q false.

(** DwCompress.c 528-583, dwc_in_bailiwick: >= 0 found in the answer, <= -3 in the
    question, -2 not found, -1 error. *)
Fixpoint bailiwick_loop (n : nat) (b : dwstr) (b_o : Z) (h : dwstr) (place : Z) (q : option dwstr) (in_q : bool) : res Z :=
  match n with
  | O => Ok (-1)
  | S n =>
      r <- (if in_q then Ok (Some (place, true))
            else
              p <- dwc_decomp_offset h place (match q with Some q => d_len q | None => 0 end) ;;
              if p =? -1 then Ok None
              else match q with
                   | None => if p <? 0 then Ok None else Ok (Some (p, false))
                   | Some _ => if p <? 0 then Ok (Some (-2 - p, true)) else Ok (Some (p, false))
                   end) ;;
      match r with
      | None => Ok (-1)
      | Some (place, in_q) =>
          match (if in_q then q else Some h) with
          | None => Ok (-1)
          | Some src =>
              same <- dwc_dname_same b b_o src place q ;;
              if same =? 1 then Ok (if in_q then -3 - place else place)
              else
                len <- rd (d_mem src) place ;;
                if d_len src <? u32 (len + place + 1) then Ok (-1)
                else if len =? 0 then Ok (-2)
                else bailiwick_loop n b b_o h (place + (len + 1)) q in_q
          end
      end
  end.
Definition dwc_in_bailiwick (b : dwstr) (b_o : Z) (h : dwstr) (h_o : Z) (q : option dwstr) : res Z :=
  if negb (dw_sane b) || negb (dw_sane h) || (b_o <? 0) || (d_len b <? u32 b_o) || (h_o <? 0) || (d_len h <? u32 h_o) then Ok (-1)
  else bailiwick_loop (Z.to_nat 300) b b_o h h_o q false.
