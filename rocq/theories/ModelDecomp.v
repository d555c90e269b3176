(** Model of MaraDNS' decompressor, dns/Decompress.c, as built by dns/Makefile (AUTHONLY).

    JS_ERROR (and, for decomp_get_label, a null pointer) is [Fail]: every caller passes it on at
    once.  What the output string holds after an error is left out, and so are the log messages.
    [J] is what malloc finds in the memory it hands out.  Offsets are bounded by unit_count, which
    [j_wf] bounds below 2^31; sums that are compared before they are bounded carry the wrap to 32
    bits. *)
From Coq Require Import String Ascii.
From Verif Require Import CBase ModelDwStr ModelJsStr ModelQueries.
Local Open Scope list_scope.

Definition good (r : Z * js) : res js := if fst r =? JS_ERROR then Fail else Ok (snd r).
Definition create (J : Z -> Z) (max unit : Z) : res js := match js_create J max unit with Some s => Ok s | None => Fail end.

(** Decompress.c 98-178, the loop of decomp_get_label. *)
Fixpoint label_loop (n : nat) (c ret : js) (cplace dplace limit : Z) : res js :=
  match n with
  | O => Bad NoFuel
  | S n =>
      if j_count c <=? u32 cplace then Fail
      else
        let limit := limit + 1 in
        counter <- rd (j_mem c) cplace ;;
        if (63 <? counter) && (counter <? 192) then Fail
        else if 192 <=? counter then
          if j_count c <=? u32 (cplace + 1) then Fail
          else
            lo <- rd (j_mem c) (cplace + 1) ;;
            let target := Z.lor (Z.shiftl (Z.land counter 63) 8) lo in
            if cplace <=? target then Fail
            else if target <? 12 then Fail
            else if limit <? 256 then label_loop n c ret target dplace limit else Fail
        else if 0 <? counter then
          let counter := counter + 1 in
          if j_max ret <=? u32 (dplace + counter) then Fail
          else if j_count c <=? u32 (cplace + counter) then Fail
          else
            mem <- copy_bytes (Z.to_nat counter) (j_mem c) cplace (j_mem ret) dplace ;;
            let ret := mkjs mem (j_size ret) (j_count ret + counter) (j_max ret) (j_enc ret) in
            if limit <? 256 then label_loop n c ret (cplace + counter) (dplace + counter) limit else Fail
        else
          if j_max ret <=? u32 dplace then Fail
          else
            mem <- wr (j_mem ret) dplace 0 ;;
            if 256 <=? limit then Fail else Ok (mkjs mem (j_size ret) (j_count ret + 1) (j_max ret) (j_enc ret))
  end.

(** Decompress.c 68-183, decomp_get_label. *)
Definition decomp_get_label (J : Z -> Z) (c : js) (offset : Z) : res js :=
  if negb (j_size c =? 1) then Fail
  else if j_max c <? j_count c then Fail
  else if j_count c <? u32 offset then Fail
  else ret <- create J 259 1 ;; label_loop 256 c ret (i32 offset) 0 0.

(** Decompress.c 202-245, decomp_append_dlabel: the length of the name in the packet and the output. *)
Definition decomp_append_dlabel (J : Z -> Z) (c u : js) (offset : Z) : res (Z * js) :=
  if negb (js_sane c) then Fail
  else if negb (js_sane u) then Fail
  else if negb (j_size c =? 1) then Fail
  else if negb (j_size u =? 1) then Fail
  else if j_count c <=? u32 offset then Fail
  else
    dlabel <- decomp_get_label J c offset ;;
    length <- dlabel_length c offset ;;
    if length =? JS_ERROR then Fail
    else r <- js_append dlabel u ;; u <- good r ;; Ok (length, u).

(** Decompress.c 271-296, decomp_append_bytes. *)
Definition decomp_append_bytes (J : Z -> Z) (c u : js) (offset length : Z) : res js :=
  temp <- create J (length + 2) 1 ;;
  if j_count c <? u32 (offset + length) then Fail
  else
    ' (r, temp) <- js_substr c temp (i32 offset) length ;;
    if negb (r =? JS_SUCCESS) then Fail else r <- js_append temp u ;; good r.

(** Decompress.c 319-333, decomp_get_type_etc. *)
Definition decomp_get_type_etc (J : Z -> Z) (c u : js) (offset : Z) : res (Z * js) :=
  type <- js_readuint16 c offset ;;
  u <- decomp_append_bytes J c u offset 8 ;;
  if type =? JS_ERROR then Fail else Ok (type, u).

(** Decompress.c 354-363, decomp_get_rdlength. *)
Definition decomp_get_rdlength (c : js) (offset : Z) : res Z :=
  rdlength <- js_readuint16 c offset ;; if rdlength =? JS_ERROR then Fail else Ok rdlength.

(** Decompress.c 385-434, decomp_get_header. *)
Definition count16 (c : js) (offset max : Z) : res Z :=
  v <- js_readuint16 c offset ;; if (v <? 0) || (max <? v) then Fail else Ok v.
Definition decomp_get_header (J : Z -> Z) (c u : js) : res (Z * js) :=
  if negb (js_sane c) then Fail
  else if negb (js_sane u) then Fail
  else if j_count c <? 12 then Fail
  else if negb (j_count u =? 0) then Fail
  else
    qdcount <- count16 c 4 1 ;;
    ancount <- count16 c 6 65535 ;; nscount <- count16 c 8 65535 ;; arcount <- count16 c 10 65535 ;;
    let total := ancount + nscount + arcount in
    u <- decomp_append_bytes J c u 0 12 ;;
    if (qdcount =? 0) && (1 <=? total) then Ok (-2 - total, u)
    else if qdcount =? 0 then Ok (-2, u)
    else Ok (total, u).

(** Decompress.c 453-481, decomp_get_question. *)
Definition decomp_get_question (J : Z -> Z) (c u : js) : res (Z * js) :=
  if j_count c <? 12 then Fail
  else if negb (j_count u =? 12) then Fail
  else
    ' (length, u) <- decomp_append_dlabel J c u 12 ;;
    if length <? 1 then Fail
    else u <- decomp_append_bytes J c u (12 + length) 4 ;; Ok (length + 4, u).

(** ** The descriptions of the types *)
(** Compress_rrs.h 20-31 *)
Record rrdesc := mkdesc { rr_num : Z; description : list Z; tocompress : Z }.
Definition RR_HASH_SIZE : Z := 7.
Definition RRSUB_DLABEL : Z := 64.
Definition RRSUB_TEXT : Z := 65.
Definition RRSUB_VARIABLE : Z := 66.

(** Compress_rrdescs.h 40-57 (the texts after the fourth bar, which are not looked at, are cut short) *)
Definition oct (s : string) : list Z := map (fun c => Z.of_N (N_of_ascii c)) (list_ascii_of_string s).
Definition rr_descs : list (list Z) := map oct
  [":1|A|4|N|en;"; ":15|MX|2;D|C|en;"; ":2|NS|D|C|en;"; ":6|SOA|D;D;4;4;4;4;4|C|en;"; ":12|PTR|D|C|en;"; ":16|TXT|T;V|N|en;";
   ":5|CNAME|D|C|en;"; ":3|MD|D|N|en;"; ":4|MF|D|N|en;"; ":7|MB|D|N|en;"; ":8|MG|D|N|en;"; ":9|MR|D|N|en;"; ":14|MINFO|D;D|N|en;";
   ":17|RP|D;D|N|en;"; ":18|AFSDB|2;D|N|en;"; ":21|RT|2;D|N|en;"; ":33|SRV|2;2;2;D|N|en;"]%string.

(** Decompress.c 569-680, the loop of decomp_add_rrdesc: fieldnum, subfieldnum, rtype, new->description
    (its first MAX_RR_SECTIONS - 1 = 15 octets) and new->tocompress. *)
Record dstate := mkds { ds_field : Z; ds_sub : Z; ds_type : Z; ds_desc : list Z; ds_comp : Z }.
Fixpoint desc_loop (n : nat) (s : js) (counter : Z) (p : dstate) : res dstate :=
  match n with
  | O => Ok p
  | S n =>
      let '(mkds field sub type desc comp) := p in
      c <- rd (j_mem s) counter ;;
      if field =? 1 then
        if sub =? 1 then desc_loop n s (counter + 1) (mkds field (if c =? 58 then sub + 1 else sub) type desc comp)
        else if sub =? 2 then
          type <- (if type =? -1 then t <- js_atoi s counter ;; if (t <=? 0) || (65535 <? t) then Fail else Ok t else Ok type) ;;
          desc_loop n s (counter + 1) (if c =? 124 then mkds 2 1 type desc comp else mkds field sub type desc comp)
        else desc_loop n s (counter + 1) p
      else if field =? 2 then desc_loop n s (counter + 1) (if c =? 124 then mkds 3 1 type desc comp else p)
      else if field =? 3 then
        if 14 <? sub then Fail
        else
          old <- rd desc (sub - 1) ;;
          if old =? 0 then
            v <- (if (49 <=? c) && (c <=? 57) then Ok (c - 48)
                  else if c =? 68 then Ok RRSUB_DLABEL
                  else if c =? 84 then Ok RRSUB_TEXT
                  else if c =? 86 then Ok RRSUB_VARIABLE
                  else Fail) ;;
            desc <- wr desc (sub - 1) v ;;
            desc_loop n s (counter + 1) (mkds field sub type desc comp)
          else if negb (c =? 59) && negb (c =? 124) then Fail
          else if c =? 59 then
            if old =? RRSUB_VARIABLE then Fail else desc_loop n s (counter + 1) (mkds field (sub + 1) type desc comp)
          else desc_loop n s (counter + 1) (mkds 4 1 type desc comp)
      else if field =? 4 then
        if (c =? 67) && (comp =? 79) then desc_loop n s (counter + 1) (mkds field sub type desc 1)
        else if (c =? 78) && (comp =? 79) then desc_loop n s (counter + 1) (mkds field sub type desc 0)
        else if (c =? 124) && negb (comp =? 79) then desc_loop n s (counter + 1) (mkds 5 1 type desc comp)
        else Fail
      else Ok p
  end.

(** The hash: seven chains.  [bucket]: rr_formats[i]. *)
Definition bucket (formats : list (list rrdesc)) (i : Z) : res (list rrdesc) :=
  if i <? 0 then Bad OutOfBounds else match nth_error formats (Z.to_nat i) with Some c => Ok c | None => Bad OutOfBounds end.
Fixpoint set_bucket (formats : list (list rrdesc)) (i : nat) (chain : list rrdesc) : list (list rrdesc) :=
  match formats, i with
  | [], _ => []
  | _ :: fs, O => chain :: fs
  | f :: fs, S i => f :: set_bucket fs i chain
  end.
(** Decompress.c 537-705, decomp_add_rrdesc. *)
Definition decomp_add_rrdesc (s : js) (formats : list (list rrdesc)) : res (list (list rrdesc)) :=
  if negb (js_sane s) then Fail
  else
    let s := snd (js_set_encode s JS_US_ASCII) in
    p <- desc_loop (Z.to_nat (j_count s)) s 0 (mkds 1 1 (-1) (repeat 0 15) 79) ;;
    let place := Z.rem (ds_type p) RR_HASH_SIZE in
    chain <- bucket formats place ;;
    Ok (set_bucket formats (Z.to_nat place) (chain ++ [mkdesc (ds_type p) (ds_desc p) (ds_comp p)])).

(** Decompress.c 728-756, decomp_init, with 502-514, decomp_init_rrdesc. *)
Fixpoint add_all (temp : js) (descs : list (list Z)) (formats : list (list rrdesc)) : res (list (list rrdesc)) :=
  match descs with
  | [] => Ok formats
  | d :: descs =>
      ' (r, temp) <- js_qstr2js temp d ;;
      if negb (r =? JS_SUCCESS) then Fail
      else formats <- decomp_add_rrdesc temp formats ;; add_all (snd (js_set_encode temp JS_US_ASCII)) descs formats
  end.
Definition decomp_init (J : Z -> Z) : res (list (list rrdesc)) :=
  temp <- create J 256 1 ;; add_all temp rr_descs (repeat [] (Z.to_nat RR_HASH_SIZE)).

(** Decompress.c 783-801, decomp_get_rrdesc; [None]: 0. *)
Fixpoint find_desc (chain : list rrdesc) (num : Z) : option rrdesc :=
  match chain with [] => None | d :: chain => if rr_num d =? num then Some d else find_desc chain num end.
Definition decomp_get_rrdesc (formats : list (list rrdesc)) (num : Z) : res (option rrdesc) :=
  chain <- bucket formats (Z.rem num RR_HASH_SIZE) ;; Ok (find_desc chain num).

(** ** Records *)
(** Decompress.c 847-906, the loop of decomp_get_rddata over the description [desc]: [total] and the
    output. *)
Fixpoint rddata_loop (J : Z -> Z) (desc : list Z) (c out : js) (offset rdlength total : Z) : res (Z * js) :=
  match desc with
  | [] => Bad OutOfBounds
  | subtype :: desc =>
      if subtype =? 0 then Ok (total, out)
      else if (0 <? subtype) && (subtype <? 64) then
        out <- decomp_append_bytes J c out offset subtype ;;
        rddata_loop J desc c out (offset + subtype) rdlength (total + subtype)
      else if subtype =? RRSUB_DLABEL then
        ' (len, out) <- decomp_append_dlabel J c out offset ;;
        rddata_loop J desc c out (offset + len) rdlength (total + len)
      else if subtype =? RRSUB_TEXT then
        len <- rd (j_mem c) offset ;;
        let len := len + 1 in
        if (len <? 0) || (256 <? len) then Fail
        else
          out <- decomp_append_bytes J c out offset len ;;
          rddata_loop J desc c out (offset + len) rdlength (total + len)
      else if subtype =? RRSUB_VARIABLE then
        let len := rdlength - total in
        if len <=? 0 then Ok (total, out)
        else out <- decomp_append_bytes J c out offset len ;; Ok (total + len, out)
      else Fail
  end.

(** Decompress.c 823-915, decomp_get_rddata. *)
Definition decomp_get_rddata (J : Z -> Z) (formats : list (list rrdesc)) (c out : js) (offset type rdlength : Z) : res js :=
  desc <- decomp_get_rrdesc formats type ;;
  match desc with
  | None => if rdlength =? 0 then Ok out else decomp_append_bytes J c out offset rdlength
  | Some d =>
      ' (total, out) <- rddata_loop J (description d) c out offset rdlength 0 ;;
      if negb (rdlength =? total) then Fail else Ok out
  end.

(** Decompress.c 991-1029, the loop over the records. *)
Fixpoint answers_loop (n : nat) (J : Z -> Z) (formats : list (list rrdesc)) (c u rddata : js) (offset : Z) : res js :=
  match n with
  | O => Ok u
  | S n =>
      ' (length, u) <- decomp_append_dlabel J c u offset ;;
      if length <? 1 then Fail
      else
        let offset := offset + length in
        ' (type, u) <- decomp_get_type_etc J c u offset ;;
        let offset := offset + 8 in
        rdlength <- decomp_get_rdlength c offset ;;
        let offset := offset + 2 in
        rddata <- decomp_get_rddata J formats c (set_count rddata 0) offset type rdlength ;;
        r <- js_adduint16 u (j_count rddata) ;; u <- good r ;;
        r <- js_append rddata u ;; u <- good r ;;
        answers_loop n J formats c u rddata (offset + rdlength)
  end.

(** Decompress.c 934-1033, decomp_decompress_packet. *)
Definition decomp_decompress_packet (J : Z -> Z) (formats : list (list rrdesc)) (c u : js) : res js :=
  if negb (js_sane c) then Fail
  else if negb (js_sane u) then Fail
  else if negb (j_size c =? 1) || negb (j_size u =? 1) then Fail
  else if negb (j_count u =? 0) then Fail
  else
    rddata <- create J 4512 1 ;;
    ' (answers, u) <- decomp_get_header J c u ;;
    if answers =? -2 then Ok u
    else if answers =? JS_ERROR then Fail
    else
      ' (answers, length, u) <- (if answers <=? -3 then Ok (-2 - answers, 0, u)
                                 else ' (length, u) <- decomp_get_question J c u ;; if length <? 1 then Fail else Ok (answers, length, u)) ;;
      answers_loop (Z.to_nat answers) J formats c u rddata (12 + length).

(** Decompress.c 1050-1069, decompress_data (after decomp_init). *)
Definition decompress_data (J : Z -> Z) (formats : list (list rrdesc)) (c u : js) : res js :=
  decomp_decompress_packet J formats c (set_count u 0).
