(** Model of how MaraDNS reads zone files (csv2 format): parse/Csv2_read.c, the characters and host
    names of parse/Csv2_parse.c, and the addresses of parse/Csv2_rr_a.c.
    A file is the list of its octets.  Left out: /read (files within files), the line number and the
    context kept for error messages, what is printed, running out of memory, null pointers. *)
From Verif Require Import CBase ModelDwStr ModelJsStr ModelQueries ModelIpAcl.

(** Csv2_read.h 31-48, csv2_read.  [f_rest]: what has not been read of the file; [f_tilde], [f_brace]:
    bits 1 and 2 of chars_allowed; [f_seen]: tilde_seen; [f_hand]: tilde_handling. *)
Record csv2 := mkcsv2 { f_rest : list Z; f_just : Z; f_uni : Z; f_ok : bool; f_tilde : bool; f_brace : bool; f_seen : Z; f_hand : Z }.
Definition FATAL : Z := -164.

(** Csv2_read.c 245-301, csv2_error: the file is not read any more. *)
Definition csv2_error (f : csv2) : csv2 :=
  mkcsv2 (f_rest f) (if f_just f =? 10 then 0 else f_just f) (f_uni f) false (f_tilde f) (f_brace f) (f_seen f) (f_hand f).
Definition set_uni (f : csv2) (u : Z) : csv2 := if f_ok f then mkcsv2 (f_rest f) (f_just f) u (f_ok f) (f_tilde f) (f_brace f) (f_seen f) (f_hand f) else f.
Definition set_tilde (f : csv2) (b : bool) : csv2 := mkcsv2 (f_rest f) (f_just f) (f_uni f) (f_ok f) b (f_brace f) (f_seen f) (f_hand f).
Definition set_seen (f : csv2) (n : Z) : csv2 := mkcsv2 (f_rest f) (f_just f) (f_uni f) (f_ok f) (f_tilde f) (f_brace f) n (f_hand f).
Definition set_hand (f : csv2) (n : Z) : csv2 := mkcsv2 (f_rest f) (f_just f) (f_uni f) (f_ok f) (f_tilde f) (f_brace f) (f_seen f) n.

(** Csv2_read.c 129-229, csv2_readchar. *)
Definition csv2_readchar (f : csv2) : Z * csv2 :=
  if negb (f_ok f) then (-2, f)
  else
    match f_rest f with
    | [] => (-2, f)
    | c :: rest =>
        let seen := if (c =? 126) && (f_seen f <? 10) then f_seen f + 1 else f_seen f in
        let f := mkcsv2 rest (f_just f) (f_uni f) (f_ok f) (f_tilde f) (f_brace f) seen (f_hand f) in
        if (c =? 123) && negb (f_brace f) then (c, csv2_error f)
        else if (c =? 126) && negb (f_tilde f) then (c, csv2_error f)
        else (c, mkcsv2 rest c (f_uni f) (f_ok f) (f_tilde f) (f_brace f) seen (f_hand f))
    end.

(** Csv2_read.c 236-242, csv2_justread; 404-410, csv2_get_unicode. *)
Definition csv2_justread (f : csv2) : Z := if f_ok f then f_just f else -1.
Definition csv2_get_unicode (f : csv2) : Z := if f_ok f then f_uni f else -1.

(** Csv2_parse.c 62-106. *)
Definition csv2_is_number (c : Z) : bool := (48 <=? c) && (c <=? 57).
Definition csv2_is_delimiter (c : Z) : bool := (c =? 13) || (c =? 10) || (c =? 9) || (c =? 32) || (c =? 124).
(** Csv2_parse.c 645-693. *)
Definition csv2_is_alpha (c : Z) : bool := ((97 <=? c) && (c <=? 122)) || ((65 <=? c) && (c <=? 90)).
Definition csv2_is_alphanum (c : Z) : bool := csv2_is_alpha c || csv2_is_number c || (c =? 45) || (c =? 95).
Definition csv2_is_text (c : Z) : bool := csv2_is_alphanum c || (127 <? c).
Definition csv2_is_dname (c : Z) : bool := csv2_is_alphanum c || (c =? 47) || (127 <? c).
Definition csv2_is_dchar (c : Z) : bool := csv2_is_text c || (c =? 37).
Definition csv2_is_starwhitis_ordot (c : Z) : bool := csv2_is_text c || (c =? 42) || (c =? 37) || (c =? 46).

(** Csv2_parse.c 115-144, csv2_utf8_length. *)
Definition csv2_utf8_length (c : Z) : Z :=
  if 254 <=? c then -2
  else if c <? 0 then -1
  else if (c <? 128) && (0 <? c) then 0
  else if (128 <=? c) && (c <? 192) then 1
  else if (192 <=? c) && (c <? 224) then 2
  else if (224 <=? c) && (c <? 240) then 3
  else if (240 <=? c) && (c <? 248) then 4
  else if (248 <=? c) && (c <? 252) then 5
  else if (252 <=? c) && (c <? 254) then 6
  else -1.

(** Csv2_parse.c 187-201, the loop of csv2_get_utf8 ([None]: FATAL_CSV2_READ). *)
Fixpoint utf8_loop (n : nat) (out : Z) (f : csv2) : option Z * csv2 :=
  match n with
  | O => (Some out, f)
  | S n =>
      let '(c, f) := csv2_readchar f in
      if c =? -2 then (None, csv2_error f)
      else if (c <? 128) || (192 <=? c) then (None, csv2_error f)
      else utf8_loop n (Z.lor (Z.shiftl out 6) (Z.land c 63)) f
  end.
(** Csv2_parse.c 155-227, csv2_get_utf8. *)
Definition csv2_get_utf8 (f : csv2) : Z * csv2 :=
  let c := csv2_justread f in
  let len := csv2_utf8_length c in
  if len <? 2 then (FATAL, csv2_error f)
  else
    let out := Z.land c (if len =? 2 then 31 else if len =? 3 then 15 else if len =? 4 then 7 else if len =? 5 then 3 else 1) in
    match utf8_loop (Z.to_nat (len - 1)) out f with
    | (None, f) => (FATAL, f)
    | (Some out, f) =>
        if (out <? 128) || ((out <? 2048) && (2 <? len)) || ((out <? 65536) && (3 <? len)) ||
           ((out <? 2097152) && (4 <? len)) || ((out <? 67108864) && (5 <? len)) then (FATAL, csv2_error f)
        else (out, set_uni f out)
    end.
(** Csv2_parse.c 239-249, csv2_read_unicode. *)
Definition csv2_read_unicode (f : csv2) : Z * csv2 :=
  let '(c, f) := csv2_readchar f in
  if c <? 0 then (c, f) else if 127 <? c then csv2_get_utf8 f else (c, f).

(** Csv2_parse.c 287-291: the six bit groups of a character, the highest first; the array has room
    for six. *)
Fixpoint groups (n : nat) (v : Z) : list Z :=
  match n with
  | O => []
  | S n => if 0 <? v then groups n (Z.shiftr v 6) ++ [Z.land v 63] else []
  end.
(** Csv2_parse.c 294-306: the octets made of them ([None]: JS_ERROR). *)
Definition marked (g : list Z) : option (list Z) :=
  match g with
  | [] => None
  | a :: t =>
      let mark := (if zlen g =? 6 then 252 else if zlen g =? 5 then 248 else if zlen g =? 4 then 240 else if zlen g =? 3 then 224 else 192) in
      if zlen g <? 2 then None else Some (Z.lor a mark :: map (fun b => Z.lor b 128) t)
  end.
(** Csv2_parse.c 307-316: the octets are put at the end of the string. *)
Fixpoint append_octets (l : list Z) (s : js) : res (Z * js) :=
  match l with
  | [] => Ok (JS_SUCCESS, s)
  | b :: l =>
      if j_max s <? j_count s + 1 then Ok (JS_ERROR, s)
      else mem <- wr (j_mem s) (j_count s) (u8 b) ;; append_octets l (set_count (set_mem s mem) (j_count s + 1))
  end.
(** Csv2_parse.c 261-324, csv2_append_utf8. *)
Definition csv2_append_utf8 (s : js) (c : Z) : res (Z * js) :=
  if negb (octet_string s) then Ok (JS_ERROR, s)
  else if c <? 0 then Ok (JS_ERROR, s)
  else if c <? 128 then append_octets [c] s
  else match marked (groups 6 c) with None => Ok (JS_ERROR, s) | Some l => append_octets l s end.

(** Csv2_parse.c 327-346, process_comment: the loop, entered with q = 1 (so 5000 rounds are too many). *)
Fixpoint comment_loop (n : nat) (f : csv2) : bool * csv2 :=
  match n with
  | O => (false, csv2_error f)
  | S n =>
      let '(c, f) := csv2_readchar f in
      let f := if c =? 126 then set_seen f (f_seen f - 1) else f in
      match n with
      | O => (false, csv2_error f)
      | _ => if negb (c =? 10) && negb (c =? 13) && negb (c =? -2) then comment_loop n f else (true, f)
      end
  end.
Definition process_comment (f : csv2) : csv2 :=
  let '(ok, g) := comment_loop (Z.to_nat 5000) (set_tilde f true) in
  if ok : bool then set_tilde g (f_tilde f) else g.

(** Csv2_parse.c 554-599, process_1stchar; [pre]: the string the result begins with.  The new string
    has 256 octets; js_qstr2js gives JS_SUCCESS for the strings used ("Z" and none). *)
Definition process_1stchar (J : Z -> Z) (f : csv2) (is_ok : Z -> bool) (pre : list Z) : res (option js * csv2) :=
  let c := csv2_justread f in
  let '(look, f) := (if (192 <=? c) && (c <? 254) then csv2_get_utf8 f else if 128 <=? c then (csv2_get_unicode f, f) else (c, f)) in
  if look =? FATAL then Ok (None, f)
  else if negb (is_ok look) then Ok (None, csv2_error f)
  else
    match js_create J 256 1 with
    | None => Ok (None, f)
    | Some o =>
        let '(r, o) := js_set_encode o JS_US_ASCII in
        if r =? JS_ERROR then Ok (None, f)
        else
          ' (r, o) <- js_qstr2js o pre ;;
          if negb (r =? JS_SUCCESS) then Ok (None, csv2_error f)
          else
            ' (r, o) <- csv2_append_utf8 o look ;;
            if r <? 0 then Ok (None, csv2_error f) else Ok (Some o, f)
    end.

(** The states of Csv2_parse.c 28-31. *)
Definition DOT : Z := 0.
Definition NON_DOT : Z := 1.
Definition STAR : Z := 2.
Definition STAR_END : Z := 3.

(** Csv2_parse.c 815-936, the loop of js_append_dname ([None]: 0 is returned). *)
Fixpoint dname_loop (n : nat) (x sw state : Z) (o : js) (f : csv2) : res (option js * csv2) :=
  match n with
  | O => Ok (None, f)
  | S n =>
      let '(look, f) := csv2_read_unicode f in
      if look =? FATAL then Ok (None, f)
      else
        let add state' := (' (r, o) <- csv2_append_utf8 o look ;; if r <? 0 then Ok (None, csv2_error f) else dname_loop n (x + 1) sw state' o f) in
        if (look =? 46) && (state =? NON_DOT) then add DOT
        else if (state =? NON_DOT) && csv2_is_dname look then add NON_DOT
        else if (look =? 35) && (state =? DOT) && (0 <? x) then Ok (Some o, process_comment f)
        else if (state =? DOT) && (look =? 37) && negb (sw =? 4) && negb (sw =? 5) then
          ' (r, o) <- csv2_append_utf8 o look ;;
          if r <? 0 then Ok (None, csv2_error f)
          else let '(c, f) := csv2_read_unicode f in Ok (if c =? FATAL then None else Some o, f)
        else if (state =? DOT) && csv2_is_dname look then add NON_DOT
        else if (state =? DOT) && (sw =? 2) && (look =? 42) then add STAR_END
        else if (state =? DOT) && csv2_is_delimiter look then Ok (Some o, f)
        else if (state =? STAR) && (look =? 46) then add DOT
        else if (state =? STAR) && csv2_is_delimiter look && (sw =? 2) then Ok (Some o, f)
        else if (state =? STAR_END) && csv2_is_delimiter look then Ok (Some o, f)
        else if (look =? 35) && (state =? STAR_END) then Ok (Some o, process_comment f)
        else Ok (None, csv2_error f)
  end.

(** Csv2_parse.c 766-940, js_append_dname. *)
Definition js_append_dname (o : js) (f : csv2) (sw : Z) : res (option js * csv2) :=
  let look := csv2_justread f in
  let low := (sw =? 4) || (sw =? 5) in
  if ((look =? 37) && negb low) || (look =? 46) then
    let '(c, f) := csv2_read_unicode f in Ok (if c =? FATAL then None else Some o, f)
  else if (look =? 37) && low then Ok (None, csv2_error f)
  else if negb (sw =? 0) && negb (sw =? 5) then
    if csv2_is_dname look then dname_loop (Z.to_nat 10000) 0 sw NON_DOT o f
    else if look =? 42 then
      if (sw =? 0) || (sw =? 3) || (sw =? 4) || (sw =? 5) then Ok (None, csv2_error f)
      else dname_loop (Z.to_nat 10000) 0 sw STAR o f
    else Ok (None, csv2_error f)
  else dname_loop (Z.to_nat 10000) 0 sw DOT o f.

(** Csv2_parse.c 724-751, process_dname.  js_append_dname gives the string it was given. *)
Definition process_dname (J : Z -> Z) (f : csv2) (sw : Z) : res (option js * csv2) :=
  ' (o, f) <- process_1stchar J f csv2_is_starwhitis_ordot [90] ;;
  match o with
  | None => Ok (None, f)
  | Some o =>
      ' (o, f) <- js_append_dname o f sw ;;
      match o with
      | None => Ok (None, f)
      | Some o =>
          if 1 <? j_count o then
            b <- rd (j_mem o) 1 ;;
            if (b =? 46) && negb (j_count o =? 2) then Ok (None, csv2_error f) else Ok (Some o, f)
          else Ok (Some o, f)
      end
  end.

(** Csv2_parse.c 944-961, csv2_convert_percent. *)
Definition csv2_convert_percent (s psub : js) : res (option js) :=
  if negb (j_size s =? 1) then Ok None
  else if 1 <=? j_count s then
    b <- rd (j_mem s) (j_count s - 1) ;;
    if b =? 37 then
      ' (r, s) <- js_append psub (set_count s (j_count s - 1)) ;;
      Ok (if r =? JS_ERROR then None else Some s)
    else Ok (Some s)
  else Ok (Some s).

(** MaraBigHash.c 97-98, 111-112: octets are moved down by [d]. *)
Fixpoint move_down (n : nat) (mem : list Z) (i d : Z) : res (list Z) :=
  match n with
  | O => Ok mem
  | S n => b <- rd mem (i + d) ;; mem <- wr mem i b ;; move_down n mem (i + 1) d
  end.
(** MaraBigHash.c 80-122, starrecord_to_meta.  92-93 has nothing to do after the test at the top. *)
Definition starrecord_to_meta (s : js) : res (Z * js) :=
  if negb (js_sane s) then Ok (JS_ERROR, s)
  else if negb (j_size s =? 1) then Ok (JS_ERROR, s)
  else if j_count s <? 2 then Ok (JS_SUCCESS, s)
  else
    b0 <- rd (j_mem s) 0 ;; b1 <- rd (j_mem s) 1 ;;
    s <- (if (b0 =? 1) && (b1 =? 42) then
            mem <- wr (j_mem s) 0 95 ;;
            mem <- move_down (Z.to_nat (j_count s - 1)) mem 1 1 ;; Ok (set_count (set_mem s mem) (j_count s - 1))
          else Ok s) ;;
    l <- dlabel_length s 0 ;;
    let counter := l - 3 in
    if counter <? 0 then Ok (JS_SUCCESS, s)
    else
      c0 <- rd (j_mem s) counter ;; c1 <- rd (j_mem s) (counter + 1) ;;
      if (c0 =? 1) && (c1 =? 42) then
        mem <- wr (j_mem s) counter 95 ;;
        mem <- move_down (Z.to_nat (j_count s - (counter + 1))) mem (counter + 1) 2 ;;
        Ok (JS_SUCCESS, set_count (set_mem s mem) (j_count s - 2))
      else Ok (JS_SUCCESS, s).

(** Csv2_parse.c 973-1007, csv2_get_hostname. *)
Definition csv2_get_hostname (J : Z -> Z) (f : csv2) (zone : js) (sw : Z) : res (option js * csv2) :=
  ' (o, f) <- process_dname J f sw ;;
  match o with
  | None => Ok (None, f)
  | Some o =>
      o <- csv2_convert_percent o zone ;;
      match o with
      | None => Ok (None, f)
      | Some o =>
          ' (r, o) <- hname_2rfc1035 (if sw =? 2 then 1 else 0) o ;;
          if r <? 0 then Ok (None, f)
          else ' (r, o) <- starrecord_to_meta o ;; Ok (if r =? JS_ERROR then None else Some o, f)
      end
  end.

(** Csv2_rr_a.c 45-88, the loop of process_ipv4_ddip. *)
Fixpoint ddip_loop (n : nat) (nums : Z) (o : js) (f : csv2) : res (option js * csv2) :=
  match n with
  | O => Ok (None, f)
  | S n =>
      let '(look, f) := csv2_read_unicode f in
      if look =? FATAL then Ok (None, f)
      else
        let add nums := (' (r, o) <- csv2_append_utf8 o look ;; if r <? 0 then Ok (None, csv2_error f) else ddip_loop n nums o f) in
        if (look =? 35) && (nums =? 4) then Ok (Some o, process_comment f)
        else if (look =? 46) && (nums <? 4) then add (nums + 1)
        else if look =? 46 then Ok (None, csv2_error f)
        else if csv2_is_number look then add nums
        else if csv2_is_delimiter look && (nums =? 4) then Ok (Some o, f)
        else Ok (None, csv2_error f)
  end.
(** Csv2_rr_a.c 35-92, process_ipv4_ddip. *)
Definition process_ipv4_ddip (J : Z -> Z) (f : csv2) : res (option js * csv2) :=
  ' (o, f) <- process_1stchar J f csv2_is_number [] ;;
  match o with None => Ok (None, f) | Some o => ddip_loop (Z.to_nat 10000) 1 o f end.

(** ParseCsv1.c 496-514, the loop of ddip_2_ip ([None]: JS_ERROR). *)
Fixpoint four_loop (n : nat) (ddip : js) (offset : Z) (ip : js) : res (option (Z * js)) :=
  match n with
  | O => Ok (Some (offset, ip))
  | S n =>
      if offset =? -2 then Ok None
      else
        qr <- js_atoi ddip offset ;;
        if (qr <? 0) || (255 <? qr) then Ok None
        else
          ' (r, ip) <- js_addbyte ip qr ;;
          if r =? JS_ERROR then Ok None
          else
            offset <- js_match_offset dotq ddip (offset + 1) ;;
            if offset =? JS_ERROR then Ok None else four_loop n ddip (offset + 1) ip
  end.
(** ParseCsv1.c 429-532, ddip_2_ip: the address ([None]: JS_ERROR).  The strings dotq and numdotq are
    those of ParseIpAcl.c. *)
Definition ddip_2_ip (ddip ip : js) (offset : Z) : res (option js) :=
  if negb (js_sane ddip) || negb (j_size ddip =? 1) || negb (js_sane ip) || negb (j_size ip =? 1) then Ok None
  else
    ret <- js_notmatch_offset numdotq ddip offset ;;
    if ret =? JS_ERROR then Ok None
    else
      ' (_, ip) <- js_qstr2js ip [] ;;
      if js_length ddip <? 1 then Ok None
      else
        r <- four_loop 4 ddip offset ip ;;
        match r with
        | None => Ok None
        | Some (offset, ip) => Ok (if (ret <? offset) && negb (offset =? -1) then None else Some ip)
        end.

(** Csv2_parse.c 350-407, csv2_tilde_processing. *)
Definition csv2_tilde_processing (f : csv2) : Z * csv2 :=
  let seen := f_seen f in
  let hand := f_hand f in
  if 100 <? hand then
    if 1 <? seen then (JS_ERROR, csv2_error f)
    else
      let permitted := (if hand =? 102 then -2 else if hand =? 103 then 1 else 0) in
      if negb (permitted =? -2) && negb (seen =? permitted) then (JS_ERROR, csv2_error f)
      else
        let f := (if permitted =? -2 then set_hand f (if seen =? 1 then 103 else 101) else f) in
        (JS_SUCCESS, set_tilde f false)
  else if (0 <? hand) && (hand <? 20) then (JS_SUCCESS, set_hand f (hand + 100))
  else (JS_SUCCESS, f).

(** Csv2_parse.c 481-541, the loop of csv2_get_1st.  [c]: the character before; [pipe]: pipe_already_seen. *)
Fixpoint first_loop (n : nat) (is_ok : Z -> bool) (options c : Z) (pipe : bool) (f : csv2) : Z * csv2 :=
  match n with
  | O => (JS_ERROR, f)
  | S n =>
      let last := c in
      let '(c, f) := csv2_read_unicode f in
      if c =? FATAL then (JS_ERROR, f)
      else if c =? -2 then (-2, f)
      else if c =? 35 then first_loop n is_ok options 10 pipe (process_comment f)
      else if negb (options =? 1) && is_ok c then (JS_SUCCESS, f)
      else if (options =? 1) && ((last =? 13) || (last =? 10) || (last =? -328)) && is_ok c then csv2_tilde_processing f
      else if (options =? 1) && is_ok c then (FATAL, csv2_error f)
      else if (options =? 1) && (c =? 46) then csv2_tilde_processing f
      else if c =? 124 then if pipe then (FATAL, csv2_error f) else first_loop n is_ok options c true f
      else if (c =? 126) && (options =? 1) && (100 <? f_hand f) then first_loop n is_ok options c pipe f
      else if negb (csv2_is_delimiter c) then (FATAL, csv2_error f)
      else first_loop n is_ok options c pipe f
  end.
(** Csv2_parse.c 420-543, csv2_get_1st.  (436-440 and the second 427-429 have nothing to do.) *)
Definition csv2_get_1st (f : csv2) (is_ok : Z -> bool) (options : Z) : Z * csv2 :=
  let c := csv2_justread f in
  let c := if 127 <? c then csv2_get_unicode f else c in
  if negb (options =? 1) && is_ok c then (JS_SUCCESS, f)
  else if (options =? 1) && (c =? -328) && is_ok c then csv2_tilde_processing f
  else if (options =? 1) && (c =? 46) then csv2_tilde_processing f
  else if negb (c =? -328) && negb (csv2_is_delimiter c) && negb ((c =? 126) && (f_hand f =? 103)) then (FATAL, csv2_error f)
  else
    let f := (if options =? 1 then
                let f := (if f_hand f =? 101 then set_tilde f false else if (f_hand f =? 102) || (f_hand f =? 103) then set_tilde f true else f) in
                set_seen f (if c =? 126 then 1 else 0)
              else f) in
    first_loop (Z.to_nat 10000) is_ok options c (c =? 124) f.

(** Csv2_rr_a.c 96-121, csv2_get_a. *)
Definition csv2_get_a (J J2 : Z -> Z) (f : csv2) : res (option js * csv2) :=
  let '(r, f) := csv2_get_1st f csv2_is_number 0 in
  if negb (r =? JS_SUCCESS) then Ok (None, f)
  else
    ' (ddip, f) <- process_ipv4_ddip J f ;;
    match ddip, js_create J2 7 1 with
    | Some ddip, Some out => ip <- ddip_2_ip ddip out 0 ;; Ok (ip, f)
    | _, _ => Ok (None, f)
    end.
