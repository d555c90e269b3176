(** Model of how MaraDNS reads TXT, HINFO and RAW data in zone files (parse/Csv2_rr_txt.c) and of how
    fetchzone and askmara write such data (parse/Csv2_esc_txt.c).
    Left out as in ModelCsv2.v.  [Fail]: the program ends (exit). *)
From Verif Require Import CBase ModelDwStr ModelJsStr ModelQueries ModelIpAcl ModelCsv2.

(** Csv2_rr_txt.c 30-67, the states. *)
Inductive tstate := TGet | TQuote | TBslash1 | TBslash2 | TOctal1 | TOctal2 | THex1 | THex2 | TBetween.

(** Csv2_rr_txt.c 87-98, csv2_is_txt_bchar; 70-84, csv2_is_txtchar. *)
Definition csv2_is_txt_bchar (c : Z) : bool :=
  ((48 <=? c) && (c <=? 57)) || ((97 <=? c) && (c <=? 122)) || ((65 <=? c) && (c <=? 90)) ||
  (c =? 45) || (c =? 95) || (c =? 43) || (c =? 37) || (c =? 33) || (c =? 94) || (c =? 61).
Definition csv2_is_txtchar (c : Z) : bool := csv2_is_txt_bchar c || (c =? 59) || (c =? 92) || (c =? 39).
(** Csv2_rr_txt.c 116-118, csv2_is_0123; 131-133, csv2_is_octal; Csv2_rr_aaaa.c 30-33, csv2_is_hex. *)
Definition csv2_is_0123 (c : Z) : bool := (48 <=? c) && (c <=? 51).
Definition csv2_is_octal (c : Z) : bool := (48 <=? c) && (c <=? 55).
Definition csv2_is_hex (c : Z) : bool := csv2_is_number c || ((97 <=? c) && (c <=? 102)) || ((65 <=? c) && (c <=? 70)).
(** Csv2_rr_txt.c 587-595 and 607-615: the value of a digit (Csv2_parse.c 76-85: csv2_is_upper, csv2_is_lower). *)
Definition hex_digit (c : Z) : Z :=
  if csv2_is_number c then c - 48
  else if (65 <=? c) && (c <=? 90) then c + 10 - 65
  else if (97 <=? c) && (c <=? 122) then c + 10 - 97 else 0.

(** An int that grows. *)
Definition add_int (a b : Z) : res Z := if 2147483647 <? a + b then Bad SignedOverflow else Ok (a + b).

(** The variables of csv2_get_string: state, out_num, txt_len_place, txt_len, chunkcount, out. *)
Record tvars := mktv { t_state : tstate; t_num : Z; t_place : Z; t_len : Z; t_chunks : Z; t_out : js }.
Definition set_state (t : tvars) (s : tstate) : tvars := mktv s (t_num t) (t_place t) (t_len t) (t_chunks t) (t_out t).
Definition set_num (t : tvars) (s : tstate) (n : Z) : tvars := mktv s n (t_place t) (t_len t) (t_chunks t) (t_out t).

(** Csv2_rr_txt.c 166-182, csv2_txt_append ([None]: 0 is returned, and the string is freed). *)
Definition csv2_txt_append (t : tvars) (c : Z) : res (option tvars) :=
  ' (r, o) <- csv2_append_utf8 (t_out t) c ;;
  if r =? JS_ERROR then Ok None
  else if c <? 128 then len <- add_int (t_len t) 1 ;; Ok (Some (mktv (t_state t) (t_num t) (t_place t) len (t_chunks t) o))
  else if c <? 2048 then len <- add_int (t_len t) 2 ;; Ok (Some (mktv (t_state t) (t_num t) (t_place t) len (t_chunks t) o))
  else if c <? 65536 then len <- add_int (t_len t) 3 ;; Ok (Some (mktv (t_state t) (t_num t) (t_place t) len (t_chunks t) o))
  else if c <? 2097152 then len <- add_int (t_len t) 4 ;; Ok (Some (mktv (t_state t) (t_num t) (t_place t) len (t_chunks t) o))
  else Fail.

(** Csv2_rr_txt.c 187-213, csv2_finalize_txt. *)
Definition csv2_finalize_txt (f : csv2) (numchunks : Z) (t : tvars) : res (option js * csv2) :=
  let bad_count chunks := (0 <? numchunks) && negb (chunks =? numchunks) in
  if numchunks =? -1 then Ok (Some (t_out t), f)
  else if (t_place t <? 0) || (j_max (t_out t) <? t_place t) then Ok (None, f)
  else if 255 <? t_len t then Ok (None, csv2_error f)
  else
    mem <- wr (j_mem (t_out t)) (t_place t) (u8 (t_len t)) ;;
    if bad_count (t_chunks t + 1) then Ok (None, csv2_error f) else Ok (Some (set_mem (t_out t) mem), f).

(** Csv2_rr_txt.c 294-313, 365-384 and 641-660: the length of a chunk is written, another chunk begins. *)
Definition new_chunk (f : csv2) (t : tvars) : res (option tvars * csv2) :=
  if (t_place t <? 0) || (j_max (t_out t) <? t_place t) then Ok (None, f)
  else if 255 <? t_len t then Ok (None, csv2_error f)
  else
    mem <- wr (j_mem (t_out t)) (t_place t) (u8 (t_len t)) ;;
    let o := set_mem (t_out t) mem in
    ' (r, o') <- csv2_append_utf8 o 0 ;;
    if r =? JS_ERROR then Ok (None, f) else Ok (Some (mktv TGet (t_num t) (j_count o) 0 (t_chunks t + 1) o'), f).

(** What a round of the loop leads to: another one, or a value returned. *)
Inductive outcome_ := Go (t : tvars) (f : csv2) | Done (o : option js) (f : csv2).
Definition finalize (f : csv2) (numchunks : Z) (t : tvars) : res outcome_ := ' (o, f) <- csv2_finalize_txt f numchunks t ;; Ok (Done o f).
Definition append (f : csv2) (t : tvars) (c : Z) (s : tstate) : res outcome_ :=
  o <- csv2_txt_append t c ;; match o with None => Ok (Done None f) | Some t => Ok (Go (set_state t s) f) end.
Definition chunk (f : csv2) (t : tvars) (s : tstate) : res outcome_ :=
  ' (o, f) <- new_chunk f t ;; match o with None => Ok (Done None f) | Some t => Ok (Go (set_state t s) f) end.
(** Csv2_rr_txt.c 570-576 and 616-622: the octet of an escape sequence.  (out_num is given to an unsigned char.) *)
Definition add_octet (f : csv2) (t : tvars) (v : Z) : res outcome_ :=
  ' (r, o) <- js_addbyte (t_out t) v ;;
  if r =? JS_ERROR then Ok (Done None f)
  else len <- add_int (t_len t) 1 ;; Ok (Go (mktv TGet 0 (t_place t) len (t_chunks t) o) f).

(** Csv2_rr_txt.c 336-418. *)
Definition in_get (numchunks post : Z) (look : Z) (t : tvars) (f : csv2) : res outcome_ :=
  let hand := f_hand f =? 103 in
  if csv2_is_txt_bchar look then append f t look TGet
  else if (csv2_is_delimiter look && negb hand) || ((look =? 126) && hand && (post =? 0)) || (csv2_is_delimiter look && (numchunks =? -1)) ||
          (csv2_is_delimiter look && (post =? 1)) || (look =? -2) then finalize f numchunks t
  else if look =? 92 then Ok (Go (set_state t TBslash1) f)
  else if look =? 39 then Ok (Go (set_state t TQuote) f)
  else if (look =? 59) && negb (numchunks =? -1) then chunk f t TGet
  else if hand && csv2_is_delimiter look && negb (look =? 124) then Ok (Go (set_state t TBetween) f)
  else if look =? 35 then
    let f := process_comment f in
    if negb (f_hand f =? 103) then finalize f numchunks t else Ok (Go t f)
  else Ok (Done None (csv2_error f)).
(** Csv2_rr_txt.c 419-463.  After DEL (443-447) the loop goes on, with a file that is not read any more. *)
Definition in_quote (look : Z) (t : tvars) (f : csv2) : res outcome_ :=
  if look =? 39 then Ok (Go (set_state t TGet) f)
  else if f_hand f =? 103 then
    if (look =? 35) || (look =? 124) || (look =? 126) then Ok (Done None (csv2_error f))
    else if look =? 127 then Ok (Go t (csv2_error f))
    else if look <? 32 then Ok (Done None (csv2_error f))
    else append f t look TQuote
  else append f t look TQuote.
(** Csv2_rr_txt.c 464-507. *)
Definition in_bslash1 (look : Z) (t : tvars) (f : csv2) : res outcome_ :=
  if look =? 39 then append f t look TGet
  else if look =? 124 then Ok (Done None (csv2_error f))
  else if look =? 35 then Ok (Go (set_state t TBslash2) (process_comment f))
  else if csv2_is_delimiter look then Ok (Go (set_state t TBslash2) f)
  else if csv2_is_0123 look then Ok (Go (set_num t TOctal1 (look - 48)) f)
  else if look =? 120 then Ok (Go (set_num t THex1 0) f)
  else Ok (Done None (csv2_error f)).
(** Csv2_rr_txt.c 508-553.  511-514: if csv2_txt_append gives 0 the string was freed by it and is freed again. *)
Definition in_bslash2 (look : Z) (t : tvars) (f : csv2) : res outcome_ :=
  if csv2_is_txt_bchar look then
    o <- csv2_txt_append t look ;; match o with None => Bad UseAfterFree | Some t => Ok (Go (set_state t TGet) f) end
  else if look =? 39 then Ok (Go (set_state t TQuote) f)
  else if look =? 124 then Ok (Done None (csv2_error f))
  else if look =? 35 then Ok (Go t (process_comment f))
  else if csv2_is_delimiter look then Ok (Go (set_state t TBslash2) f)
  else if look =? 92 then Ok (Go (set_state t TBslash1) f)
  else Ok (Done None (csv2_error f)).
(** Csv2_rr_txt.c 554-629. *)
Definition in_octal1 (look : Z) (t : tvars) (f : csv2) : res outcome_ :=
  if csv2_is_octal look then Ok (Go (set_num t TOctal2 (t_num t * 8 + (look - 48))) f) else Ok (Done None (csv2_error f)).
Definition in_octal2 (look : Z) (t : tvars) (f : csv2) : res outcome_ :=
  if csv2_is_octal look then add_octet f t (t_num t * 8 + (look - 48)) else Ok (Done None (csv2_error f)).
Definition in_hex1 (look : Z) (t : tvars) (f : csv2) : res outcome_ :=
  if csv2_is_hex look then Ok (Go (set_num t THex2 (hex_digit look)) f) else Ok (Done None (csv2_error f)).
Definition in_hex2 (look : Z) (t : tvars) (f : csv2) : res outcome_ :=
  if csv2_is_hex look then add_octet f t (t_num t * 16 + hex_digit look) else Ok (Done None (csv2_error f)).
(** Csv2_rr_txt.c 630-681. *)
Definition in_between (numchunks : Z) (look : Z) (t : tvars) (f : csv2) : res outcome_ :=
  if look =? 35 then Ok (Go t (process_comment f))
  else if (look =? 126) || (look =? -2) then finalize f numchunks t
  else if look =? 39 then chunk f t TQuote
  else if look =? 92 then chunk f t TBslash1
  else if look =? 124 then Ok (Done None (csv2_error f))
  else if negb (csv2_is_delimiter look) then Ok (Done None (csv2_error f))
  else Ok (Go t f).

(** Csv2_rr_txt.c 328-682, a round of the loop. *)
Definition txt_round (numchunks post look : Z) (t : tvars) (f : csv2) : res outcome_ :=
  match t_state t with
  | TGet => in_get numchunks post look t f
  | TBetween => in_between numchunks look t f
  | s =>
      if look =? -2 then Ok (Done None (csv2_error f))
      else
        match s with
        | TQuote => in_quote look t f
        | TBslash1 => in_bslash1 look t f
        | TBslash2 => in_bslash2 look t f
        | TOctal1 => in_octal1 look t f
        | TOctal2 => in_octal2 look t f
        | THex1 => in_hex1 look t f
        | _ => in_hex2 look t f
        end
  end.
(** Csv2_rr_txt.c 325-689, the loop. *)
Fixpoint txt_loop (n : nat) (numchunks post : Z) (t : tvars) (f : csv2) : res (option js * csv2) :=
  match n with
  | O => Ok (None, csv2_error f)
  | S n =>
      let '(look, f) := csv2_read_unicode f in
      r <- txt_round numchunks post look t f ;;
      match r with Go t f => txt_loop n numchunks post t f | Done o f => Ok (o, f) end
  end.

(** Csv2_rr_txt.c 273-323: what the first character leads to. *)
Definition txt_first (numchunks look : Z) (t : tvars) (f : csv2) : res outcome_ :=
  if csv2_is_txt_bchar look then o <- csv2_txt_append t look ;; match o with None => Ok (Done None (csv2_error f)) | Some t => Ok (Go (set_state t TGet) f) end
  else if look =? 92 then Ok (Go (set_state t TBslash1) f)
  else if look =? 39 then Ok (Go (set_state t TQuote) f)
  else if (look =? 59) && negb (numchunks =? -1) then chunk f t TGet
  else Ok (Done None (csv2_error f)).
(** Csv2_rr_txt.c 221-689, csv2_get_string.  [U]: what is in txt_len before it is set (for RAW it never is). *)
Definition csv2_get_string (J : Z -> Z) (U : Z) (f : csv2) (numchunks post : Z) : res (option js * csv2) :=
  let f := if f_hand f =? 103 then set_tilde f true else f in
  let '(r, f) := csv2_get_1st f csv2_is_txtchar 0 in
  if negb (r =? JS_SUCCESS) then Ok (None, f)
  else
    let c := csv2_justread f in
    let '(look, f) := (if (192 <=? c) && (c <? 254) then csv2_get_utf8 f else if 128 <=? c then (csv2_get_unicode f, f) else (c, f)) in
    if look =? FATAL then Ok (None, f)
    else
      match js_create J 1513 1 with
      | None => Ok (None, f)
      | Some o =>
          let '(r, o) := js_set_encode o JS_US_ASCII in
          if r =? JS_ERROR then Ok (None, f)
          else
            t <- (if numchunks =? -1 then Ok (Some (mktv TGet 0 (-1) U 0 o))
                  else
                    ' (r, o') <- csv2_append_utf8 o 0 ;;
                    if r =? JS_ERROR then Ok None else Ok (Some (mktv TGet 0 (j_count o) 0 0 o'))) ;;
            match t with
            | None => Ok (None, f)
            | Some t =>
                r <- txt_first numchunks look t f ;;
                match r with Go t f => txt_loop (Z.to_nat 10000) numchunks post t f | Done o f => Ok (o, f) end
            end
      end.
(** Csv2_rr_txt.c 148-157, csv2_get_txt and csv2_get_raw. *)
Definition csv2_get_txt (J : Z -> Z) (U : Z) (f : csv2) (numchunks : Z) : res (option js * csv2) := csv2_get_string J U f numchunks 0.
Definition csv2_get_raw (J : Z -> Z) (U : Z) (f : csv2) : res (option js * csv2) := csv2_get_string J U f (-1) 0.

(** Csv2_esc_txt.c 27-75, escape_stdout_csv2: what is printed for the octets of a string; [q]: inquote. *)
Definition hex_char (v : Z) : Z := if v <? 10 then 48 + v else 87 + v.
Fixpoint escape (q : bool) (l : list Z) : list Z :=
  match l with
  | [] => if q then [39] else []
  | c :: l =>
      if (c <? 32) || (122 <? c) || (c =? 35) then (if q then [39] else []) ++ [92; 120; hex_char (c / 16); hex_char (c mod 16)] ++ escape false l
      else if c =? 39 then (if q then [39; 92; 39; 39] else [92; 39]) ++ escape q l
      else (if q then [] else [39]) ++ [c] ++ escape true l
  end.
Definition escape_stdout_csv2 (l : list Z) : list Z := escape false l.
