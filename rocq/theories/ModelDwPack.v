(** Model of deadwood-github/src/DwCompress.c, compression. *)
From Verif Require Import CBase ModelDwStr ModelDwCompress ModelDwDnsStr.

(** DwCompress.c 594-622, dwc_push_offsets; [Fail] is -1 (the only caller gives up). *)
Fixpoint push_loop (n : nat) (dns stack : dwstr) (place offset : Z) : res dwstr :=
  match n with
  | O => Ok stack
  | S n =>
      if (d_len dns <? u32 place) || (place <? 0) then Fail
      else
        len <- rd (d_mem dns) place ;;
        if (192 <=? len) || (len =? 0) then Ok stack
        else if 64 <=? len then Fail
        else if (place <? 0) || (16383 <=? place) || (place + offset <? 0) || (65535 <? place + offset) then Fail
        else
          '(code, stack) <- dw_push_u16 (place + offset) stack ;;
          if code =? -1 then Fail else push_loop n dns stack (place + (len + 1)) offset
  end.
Definition dwc_push_offsets (dns stack : dwstr) (place offset : Z) : res dwstr :=
  if negb (dw_sane dns) || negb (dw_sane stack) then Fail else push_loop (Z.to_nat 300) dns stack place offset.

(** DwCompress.c 640-677, dwc_seek_comp_pointer: -2 not found, -1 error. *)
Fixpoint seek_loop (n : nat) (u : dwstr) (u_o : Z) (c q s : dwstr) (s_o : Z) : res Z :=
  match n with
  | O => Ok (-2)
  | S n =>
      if u32 s_o <? d_len s then
        offset <- dw_fetch_u16 s s_o ;;
        if offset <? 0 then Ok (-1)
        else
          let in_q := 32768 <=? offset in
          let offset := Z.land offset 16383 in
          if in_q then
            same <- dwc_dname_same u u_o q offset None ;;
            if same =? 1 then Ok (12 + offset) else seek_loop n u u_o c q s (s_o + 2)
          else
            same <- dwc_dname_same u u_o c offset (Some q) ;;
            if same =? 1 then Ok (12 + d_len q + 2 + offset) else seek_loop n u u_o c q s (s_o + 2)
      else Ok (-2)
  end.
Definition dwc_seek_comp_pointer (u : dwstr) (u_o : Z) (c q s : dwstr) : res Z :=
  if negb (dw_sane u) || negb (dw_sane c) || (u_o <? 0) || (d_len u <? u32 u_o) then Ok (-1)
  else seek_loop (Z.to_nat 1000) u u_o c q s 0.

(** DwCompress.c 708-747, the loop of dwc_compress_dlabels: one name.  Whether dw_addchar and
    dw_append succeed is not looked at.  Result: where the name ends in [u], the compressed
    string, the stack; [Fail] is -1. *)
Fixpoint dlabel_loop (n : nat) (J : Z -> Z) (u : dwstr) (u_o : Z) (c s q : dwstr) : res (Z * dwstr * dwstr) :=
  match n with
  | O => Fail
  | S n =>
      point <- dwc_seek_comp_pointer u u_o c q s ;;
      if 0 <? point then
        '(code, c) <- dw_push_u16 (Z.lor (Z.land point 16383) 49152) c ;;
        if code =? -1 then Fail
        else
          e <- dw_get_dn_end u u_o ;;
          if e =? -1 then Fail else Ok (e, c, s)
      else if point =? -2 then
        len <- rd (d_mem u) u_o ;;
        if 63 <? len then Fail
        else if len =? 0 then '(_, c) <- dw_addchar 0 c ;; Ok (u_o + 1, c, s)
        else
          '(code, s) <- dw_push_u16 (d_len c) s ;;
          if code =? -1 then Fail
          else
            tmp <- dw_substr J (Some u) u_o (len + 1) 1 ;;
            match tmp with
            | None => Fail
            | Some tmp => '(_, c) <- dw_append (Some tmp) c ;; dlabel_loop n J u (u_o + (len + 1)) c s q
            end
      else Fail
  end.
(** DwCompress.c 691-750, dwc_compress_dlabels; the recursion is at most 20 deep. *)
Fixpoint compress_dlabels (fuel : nat) (J : Z -> Z) (u : dwstr) (u_o : Z) (c : dwstr) (num : Z) (s q : dwstr) (d : Z) : res (Z * dwstr * dwstr) :=
  match fuel with
  | O => Bad NoFuel
  | S fuel =>
      if negb (dw_sane u) || negb (dw_sane c) || negb (dw_sane s) || (u_o <? 0) || (d_len u <? u32 u_o) then Fail
      else if (20 <=? d) || (num <=? 0) then Ok (u_o, c, s)
      else
        '(u_o, c, s) <- dlabel_loop (Z.to_nat 300) J u u_o c s q ;;
        compress_dlabels fuel J u u_o c (num - 1) s q (d + 1)
  end.
Definition dwc_compress_dlabels (J : Z -> Z) (u : dwstr) (u_o : Z) (c : dwstr) (num : Z) (s q : dwstr) : res (Z * dwstr * dwstr) :=
  compress_dlabels 21 J u u_o c num s q 0.

(** DwCompress.c 779-787 and 795-804: [n] bytes of [u] are copied. *)
Definition copy_part (J : Z -> Z) (u : dwstr) (offset n : Z) (c : dwstr) : res (Z * dwstr) :=
  if 0 <? n then
    tmp <- dw_substr J (Some u) offset n 1 ;;
    '(code, c) <- dw_append tmp c ;;
    if code =? -1 then Fail else Ok (offset + n, c)
  else Ok (offset, c).
(** DwCompress.c 761-807, dwc_comp_rddata; [Fail] is -1. *)
Definition dwc_comp_rddata (J : Z -> Z) (desc : Z) (u : dwstr) (offset : Z) (c s q : dwstr) : res (Z * dwstr * dwstr) :=
  if negb (dw_sane u) || negb (dw_sane c) || negb (dw_sane s) || (desc <? 0) || (offset <? 0) || (d_len u <? u32 offset) then Fail
  else
    '(offset, c) <- copy_part J u offset (desc_lead desc) c ;;
    '(offset, c, s) <- dwc_compress_dlabels J u offset c (desc_names desc) s q ;;
    '(offset, c) <- copy_part J u offset (desc_tail desc) c ;;
    Ok (offset, c, s).

(** DwCompress.c 821-871, dwc_compress_rr; [name], [data]: the two offsets.  [Fail] is -1. *)
Definition dwc_compress_rr (J : Z -> Z) (name data : Z) (u c q s : dwstr) : res (dwstr * dwstr) :=
  if negb (dw_sane u) || negb (dw_sane c) || negb (dw_sane q) || negb (dw_sane s) then Fail
  else if (d_len u <? name) || (d_len u <? data) || (data <? name) then Fail
  else
    '(offset, c, s) <- dwc_compress_dlabels J u name c 1 s q ;;
    if negb (offset =? data) then Fail
    else
      tmp <- dw_substr J (Some u) offset 10 1 ;;
      match tmp with
      | None => Fail
      | Some tmp =>
          '(_, c) <- dw_append (Some tmp) c ;;
          type <- dw_fetch_u16 u offset ;;
          let desc := dwc_type_desc type in
          if Z.land desc 4096 =? 0 then
            len <- dw_fetch_u16 u (offset + 8) ;;
            tmp <- dw_substr J (Some u) (offset + 10) len 1 ;;
            '(code, c) <- dw_append tmp c ;;
            if code =? -1 then Fail else Ok (c, s)
          else
            let rdold := d_len c in
            '(_, c, s) <- dwc_comp_rddata J desc u (offset + 10) c s q ;;
            '(_, c) <- dw_put_u16 c (d_len c - rdold) (rdold - 2) ;;
            Ok (c, s)
      end.

(** DwCompress.c 885-890 (and 893-898, 901-906): one section; [n] records from [seek] on. *)
Fixpoint compress_section (n : nat) (J : Z -> Z) (l : list Z) (seek : Z) (u c q s : dwstr) : res (dwstr * dwstr) :=
  match n with
  | O => Ok (c, s)
  | S n =>
      name <- rd l seek ;; data <- rd l (seek + 1) ;;
      '(c, s) <- dwc_compress_rr J name data u c q s ;;
      compress_section n J l (seek + 2) u c q s
  end.
(** DwCompress.c 874-912, dwc_compress_all_rrs. *)
Definition dwc_compress_all_rrs (J : Z -> Z) (d : dnsstr) (u c q s : dwstr) : res (dwstr * dwstr) :=
  if negb (dw_sane u) || negb (dw_sane c) || negb (dw_sane q) || negb (dw_sane s) then Fail
  else
    '(c, s) <- compress_section (Z.to_nat (n_ancount d)) J (n_an d) 0 u c q s ;;
    '(c, s) <- compress_section (Z.to_nat (n_nscount d)) J (n_ns d) 0 u c q s ;;
    compress_section (Z.to_nat (n_arcount d)) J (n_ar d) 0 u c q s.

(** DwCompress.c 917-965, dwc_compress; [Fail] is NULL.  [Js], [Jo]: what malloc left in the
    stack and in the output; [J]: in temporary strings. *)
Definition dwc_compress (Js Jo J : Z -> Z) (q inp : dwstr) : res dwstr :=
  if negb (dw_sane q) || negb (dw_sane inp) then Fail
  else
    match dw_create Js 1024, dw_create Jo 515 with
    | Some stack, Some out =>
        stack <- dwc_push_offsets q stack 0 32768 ;;
        d <- dwc_make_dns_str J inp ;;
        '(out, stack) <- dwc_compress_all_rrs J d inp out q stack ;;
        '(_, out) <- dw_push_u16 (n_ancount d) out ;;
        '(_, out) <- dw_push_u16 (n_nscount d) out ;;
        '(_, out) <- dw_push_u16 (n_arcount d) out ;;
        '(_, out) <- dw_addchar (n_type d) out ;;
        Ok out
    | _, _ => Fail
    end.
