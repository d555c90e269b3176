(** Model of how MaraDNS reads IPv6 addresses in zone files (csv2 format): parse/Csv2_rr_aaaa.c and
    parse/Parse_ipv6.c.  [J] and [J2] are the contents of new memory.  Left out: what is printed. *)
From Verif Require Import CBase ModelDwStr ModelJsStr ModelQueries ModelIpAcl ModelCsv2 ModelCsv2Rr.

(** Parse_ipv6.c 35-61, set_nybble: [m] is the memory of istring.  The nybble is unsigned, the other numbers are signed. *)
Definition set_nybble (nybble : Z) (m : list Z) (point length : Z) : res (Z * list Z) :=
  if 15 <? nybble then Ok (JS_ERROR, m)
  else if length <? 0 then Ok (JS_ERROR, m)
  else if length * 2 <? point then Ok (JS_ERROR, m)
  else
    let place := Z.shiftr point 1 in
    temp <- rd m place ;;
    let temp := if Z.land point 1 =? 0 then Z.lor (Z.shiftl nybble 4) (Z.land temp 15) else Z.lor (Z.land temp 240) nybble in
    m <- wr m place temp ;;
    Ok (JS_SUCCESS, m).
(** Parse_ipv6.c 67-77, hchar_to_nybble. *)
Definition hchar_to_nybble (i : Z) : Z :=
  if (48 <=? i) && (i <=? 57) then i - 48
  else if (97 <=? i) && (i <=? 102) then i + 10 - 97
  else if (65 <=? i) && (i <=? 70) then i + 10 - 65
  else if i =? 58 then -2 else -1.
(** Parse_ipv6.c 87-95, set_nybble_char. *)
Definition set_nybble_char (nybble : Z) (m : list Z) (point length : Z) : res (Z * list Z) :=
  let n := hchar_to_nybble nybble in
  if n =? -1 then Ok (-1, m) else if n =? -2 then Ok (-2, m) else set_nybble n m point length.
(** Parse_ipv6.c 102-117, set_nybble_js.  The string [o] has [m] as its memory, 16 units and the unit size 1;
    it is sane.  The offset of the output is compared as an unsigned number. *)
Definition set_nybble_js (i : js) (i_offset : Z) (m : list Z) (o_offset : Z) : res (Z * list Z) :=
  if negb (js_sane i) then Ok (JS_ERROR, m)
  else if negb (j_size i =? 1) then Ok (JS_ERROR, m)
  else if j_count i <? u32 i_offset then Ok (JS_ERROR, m)
  else if 32 <? u32 o_offset then Ok (JS_ERROR, m)
  else c <- rd (j_mem i) i_offset ;; set_nybble_char c m o_offset 16.

(** Parse_ipv6.c 126-129 is_hex_digit, 138-140 is_colon. *)
Definition is_hex_digit (c : Z) : bool := ((48 <=? c) && (c <=? 57)) || ((65 <=? c) && (c <=? 70)) || ((97 <=? c) && (c <=? 102)).
Definition is_colon (c : Z) : bool := c =? 58.
(** Parse_ipv6.c 161-171, the loop of count_thingys. *)
Fixpoint thingys_loop (n : nat) (i : js) (offset count : Z) (p : Z -> bool) : res Z :=
  match n with
  | O => Bad NoFuel
  | S n =>
      c <- rd (j_mem i) offset ;;
      if p c then
        if offset + 1 =? j_count i then Ok (count + 1)
        else if j_count i <? offset + 1 then Ok JS_ERROR
        else thingys_loop n i (offset + 1) (count + 1) p
      else Ok count
  end.
(** Parse_ipv6.c 149-172, count_thingys; 184-192, count_digits and see_double_colon. *)
Definition count_thingys (i : js) (offset : Z) (p : Z -> bool) : res Z :=
  if negb (j_size i =? 1) then Ok JS_ERROR
  else if j_max i <=? j_count i then Ok JS_ERROR
  else if j_count i <? offset then Ok JS_ERROR
  else thingys_loop (S (Z.to_nat (j_count i))) i offset 0 p.
(** Parse_ipv6.c 218-223, the loop of count_thingys_all. *)
Fixpoint all_loop (n : nat) (i : js) (offset count : Z) (p : Z -> bool) : res Z :=
  match n with
  | O => Bad NoFuel
  | S n =>
      if offset <? j_count i then c <- rd (j_mem i) offset ;; all_loop n i (offset + 1) (if p c then count + 1 else count) p
      else Ok count
  end.
(** Parse_ipv6.c 206-225, count_thingys_all; 234-236, count_colons. *)
Definition count_thingys_all (i : js) (offset : Z) (p : Z -> bool) : res Z :=
  if negb (j_size i =? 1) then Ok JS_ERROR
  else if j_max i <=? j_count i then Ok JS_ERROR
  else if j_count i <? offset then Ok JS_ERROR
  else all_loop (S (Z.to_nat (j_count i))) i offset 0 p.

(** Parse_ipv6.c 293-296: the zeros at the beginning of a block. *)
Fixpoint pad_loop (n : nat) (out : Z) (m : list Z) : res (Z * list Z) :=
  match n with
  | O => Ok (out, m)
  | S n => ' (_, m) <- set_nybble 0 m out 16 ;; pad_loop n (out + 1) m
  end.
(** Parse_ipv6.c 297-305: the digits of a block ([None]: error). *)
Fixpoint digit_loop (n : nat) (i : js) (inp out : Z) (m : list Z) : res (option (Z * Z * list Z)) :=
  match n with
  | O => Ok (Some (inp, out, m))
  | S n => ' (r, m) <- set_nybble_js i inp m out ;; if negb (r =? JS_SUCCESS) then Ok None else digit_loop n i (inp + 1) (out + 1) m
  end.
(** Parse_ipv6.c 306-360, what follows a block: an error, the end, or the next block with input_point,
    output_point and skipped. *)
Inductive after_block := Wrong | End_ | Next (inp out : Z) (skipped : bool).
Definition colons_after (i : js) (inp out c : Z) (skipped init : bool) : res after_block :=
  q <- (if inp <? j_count i then count_thingys i inp is_colon else if inp =? j_count i then Ok 0 else Ok JS_ERROR) ;;
  if q =? JS_ERROR then Ok Wrong
  else if q =? 2 then
    if skipped then Ok Wrong
    else
      cc <- count_thingys_all i (inp + 1) is_colon ;;
      if cc =? JS_ERROR then Ok Wrong
      else let cc := if init : bool then cc - 1 else cc in Ok (Next (inp + 2) (out + 4 * (8 - (c + 1) - cc)) true)
  else if q =? 1 then Ok (Next (inp + 1) out skipped)
  else if (q =? 0) && (inp =? j_count i) then Ok End_
  else Ok Wrong.
(** Parse_ipv6.c 277-368, the loop of ip6_to_raw and what follows it: the memory of the result ([None]: error). *)
Fixpoint ip6_loop (n : nat) (i : js) (l inp out c : Z) (skipped init : bool) (m : list Z) : res (option (list Z)) :=
  match n with
  | O => Bad NoFuel
  | S n =>
      if (out <? 32) && (inp <? l) then
        d <- count_thingys i inp is_hex_digit ;;
        b <- (if init && (d =? 0) then Ok (Some (inp, out, m))
              else if (4 <? d) || (d <? 1) then Ok None
              else ' (out, m) <- pad_loop (Z.to_nat (4 - d)) out m ;; digit_loop (Z.to_nat d) i inp out m) ;;
        match b with
        | None => Ok None
        | Some (inp, out, m) =>
            a <- colons_after i inp out c skipped (init && (d =? 0)) ;;
            match a with
            | Wrong => Ok None
            | End_ => Ok (Some m)
            | Next inp out skipped => ip6_loop n i l inp out (c + 1) skipped false m
            end
        end
      else if inp <? l then Ok None
      else Ok (Some m)
  end.
(** Parse_ipv6.c 265-268: the zeros. *)
Fixpoint zero_loop (n : nat) (counter : Z) (m : list Z) : res (list Z) :=
  match n with
  | O => Ok m
  | S n => m <- wr m counter 0 ;; zero_loop n (counter + 1) m
  end.
(** Parse_ipv6.c 245-369, ip6_to_raw. *)
Definition ip6_to_raw (J2 : Z -> Z) (i : js) : res (option js) :=
  if negb (js_sane i) then Ok None
  else if negb (j_size i =? 1) then Ok None
  else
    match js_create J2 16 1 with
    | None => Ok None
    | Some o =>
        m <- zero_loop 16 0 (j_mem o) ;;
        r <- ip6_loop (S (Z.to_nat (js_length i))) i (js_length i) 0 0 0 false true m ;;
        match r with None => Ok None | Some m => Ok (Some (mkjs m (j_size o) 16 (j_max o) (j_enc o))) end
    end.

(** Csv2_rr_aaaa.c 30-37. *)
Definition csv2_is_hex_or_colon (c : Z) : bool := csv2_is_number c || ((97 <=? c) && (c <=? 102)) || ((65 <=? c) && (c <=? 70)) || (c =? 58).
(** Csv2_rr_aaaa.c 42-71, process_aaaa and csv2_get_aaaa. *)
Definition csv2_get_aaaa (J J2 : Z -> Z) (f : csv2) : res (option js * csv2) :=
  let '(r, f) := csv2_get_1st f csv2_is_hex_or_colon 0 in
  if negb (r =? JS_SUCCESS) then Ok (None, f)
  else
    ' (hex, f) <- process_something J f csv2_is_hex_or_colon ;;
    match hex with
    | None => Ok (None, f)
    | Some hex => out <- ip6_to_raw J2 hex ;; match out with None => Ok (None, csv2_error f) | Some out => Ok (Some out, f) end
    end.
