(** Model of how MaraDNS reads the lines of a zone file (csv2 format): csv2_read_rr of
    parse/Csv2_parse.c and the loop over the file of parse/Csv2_main.c.
    [J] are the contents of new memory, [U] as in ModelCsv2Txt.  Not modelled and therefore parameters: [R], the
    file after /read; [O], the data of the types AAAA, SOA, MG, MR, MINFO, RP, WKS, NSAP, LOC, NAPTR and FQDN6.
    csv2_add_rr is modelled by what it is called with.  Otherwise as in ModelCsv2. *)
From Verif Require Import CBase ModelDwStr ModelJsStr ModelQueries ModelIpAcl ModelCsv2 ModelCsv2Rr ModelCsv2Txt.

(** Csv2_database.h, csv2_add_state: origin, ostack, ostack_height and default_ttl. *)
Record zst := mkzst { z_origin : js; z_stack : list js; z_height : Z; z_ttl : Z }.
(** What csv2_add_rr is called with ([None]: a null pointer). *)
Record added := mkadded { a_name : js; a_type : Z; a_ttl : Z; a_data : option js }.

(** Csv2_parse.c 655-657, 685-692. *)
Definition csv2_is_alphanum_orplus (c : Z) : bool := csv2_is_alphanum c || (c =? 43).
Definition csv2_is_starwhitis (c : Z) : bool := csv2_is_text c || (c =? 42) || (c =? 37).
Definition csv2_is_starwhitis_orslash (c : Z) : bool := csv2_is_text c || (c =? 42) || (c =? 37) || (c =? 47).

(** Csv2_read.c 36-93, csv2_open: the file [l] with the value [h] of csv2_tilde_handling. *)
Definition csv2_open (l : list Z) (h : Z) : csv2 := mkcsv2 l (-328) (-1) true (h =? 0) false 0 h.
(** Csv2_database.c 99-145, csv2_init_add_state: [origin] is a copy of the name of the zone. *)
Definition csv2_init_add_state (origin : js) : zst := mkzst origin [] 0 86400.

(** Csv2_parse.c 1472-1495 and 1514-1537: the name after /origin and /opush. *)
Definition new_origin (J : Z -> Z) (f : csv2) (origin : js) : res (option js * csv2) :=
  let '(r, f) := csv2_get_1st f csv2_is_dchar 0 in
  if negb (r =? JS_SUCCESS) then Ok (None, csv2_error f)
  else
    ' (n, f) <- process_1stchar J f csv2_is_starwhitis [] ;;
    match n with
    | None => Ok (None, csv2_error f)
    | Some n =>
        ' (n, f) <- js_append_dname n f 3 ;;
        match n with
        | None => Ok (None, csv2_error f)
        | Some n => n <- csv2_convert_percent n origin ;; Ok (n, match n with None => csv2_error f | Some _ => f end)
        end
    end.

(** Csv2_parse.c 1413-1440: the letters after the slash.  1: ttl; 2: origin; 3: opush; 4: opop; 5: read;
    0: an error.  What was read before is [cmd]. *)
Definition letter1 (look : Z) : Z := if look =? 116 then 1 else if look =? 111 then 2 else if look =? 114 then 5 else 0.
Definition letter2 (cmd look : Z) : Z :=
  if (cmd =? 2) && (look =? 112) then 3
  else if ((cmd =? 1) && negb (look =? 116)) || ((cmd =? 2) && negb (look =? 114)) || ((cmd =? 5) && negb (look =? 101)) then 0
  else cmd.
Definition letter3 (cmd look : Z) : Z :=
  if (cmd =? 3) && (look =? 111) then 4
  else if ((cmd =? 1) && negb (look =? 108)) || ((cmd =? 2) && negb (look =? 105)) || ((cmd =? 3) && negb (look =? 117)) || ((cmd =? 5) && negb (look =? 97)) then 0
  else cmd.
(** Csv2_parse.c 1441-1608: the commands, after three letters.  1578-1583: ostack_height stays as it is.
    [None]: -1 is returned. *)
Definition command (J : Z -> Z) (R : csv2 -> csv2) (cmd : Z) (st : zst) (f : csv2) : res (option zst * csv2) :=
  let '(look, f) := csv2_read_unicode f in
  if (cmd =? 1) && csv2_is_delimiter look then
    ' (v, f) <- csv2_get_num J f ;;
    if v <? 0 then Ok (None, csv2_error f) else Ok (Some (mkzst (z_origin st) (z_stack st) (z_height st) v), f)
  else if (cmd =? 2) && (look =? 103) then
    let '(ok, f) := expect [105; 110] f in
    if negb ok then Ok (None, csv2_error f)
    else
      let '(look, f) := csv2_read_unicode f in
      if negb (csv2_is_delimiter look) then Ok (None, csv2_error f)
      else
        ' (n, f) <- new_origin J f (z_origin st) ;;
        match n with None => Ok (None, f) | Some n => Ok (Some (mkzst n (z_stack st) (z_height st) (z_ttl st)), f) end
  else if (cmd =? 3) && (look =? 115) then
    let '(ok, f) := expect [104] f in
    if negb ok then Ok (None, csv2_error f)
    else
      let '(look, f) := csv2_read_unicode f in
      if negb (csv2_is_delimiter look) then Ok (None, csv2_error f)
      else
        ' (n, f) <- new_origin J f (z_origin st) ;;
        match n with
        | None => Ok (None, f)
        | Some n =>
            if (7 <? z_height st) || (z_height st <? 0) then Ok (None, csv2_error f)
            else Ok (Some (mkzst n (z_origin st :: z_stack st) (z_height st + 1) (z_ttl st)), f)
        end
  else if (cmd =? 4) && (look =? 112) then
    let '(look, f) := csv2_read_unicode f in
    if negb (csv2_is_delimiter look) then Ok (None, csv2_error f)
    else if (z_height st <? 1) || (8 <? z_height st) then Ok (None, csv2_error f)
    else
      match z_stack st with
      | [] => Ok (None, csv2_error f)
      | o :: s => Ok (Some (mkzst o s (z_height st) (z_ttl st)), f)
      end
  else if (cmd =? 5) && (look =? 100) then Ok (Some st, R f)
  else Ok (None, csv2_error f).
Definition slash_command (J : Z -> Z) (R : csv2 -> csv2) (st : zst) (f : csv2) : res (option zst * csv2) :=
  let '(look, f) := csv2_read_unicode f in
  let cmd := letter1 look in
  if cmd =? 0 then Ok (None, csv2_error f)
  else
    let '(look, f) := csv2_read_unicode f in
    let cmd := letter2 cmd look in
    if cmd =? 0 then Ok (None, csv2_error f)
    else
      let '(look, f) := csv2_read_unicode f in
      let cmd := letter3 cmd look in
      if cmd =? 0 then Ok (None, csv2_error f) else command J R cmd st f.

(** Csv2_parse.c 1392-1614: the commands before a record (1: its first character was read).  In the code
    the loop has no bound; each round reads an octet, and at the end of the file it ends. *)
Fixpoint rr_start (n : nat) (J : Z -> Z -> Z) (R : csv2 -> csv2) (st : zst) (f : csv2) : res (Z * zst * csv2) :=
  match n with
  | O => Bad NoFuel
  | S n =>
      let '(q, f) := csv2_get_1st f csv2_is_starwhitis_orslash 1 in
      if q =? -2 then Ok (-2, st, f)
      else if q =? JS_ERROR then Ok (-1, st, f)
      else if csv2_justread f =? 47 then
        ' (s, f) <- slash_command (J (Z.of_nat n)) R st f ;;
        match s with None => Ok (-1, st, f) | Some st => rr_start n J R st f end
      else Ok (1, st, f)
  end.

(** Csv2_parse.c 1653-1671: the time to live, if there is a plus ([None]: -1 is returned). *)
Definition rr_ttl (J : Z -> Z) (st : zst) (f : csv2) : res (option Z * csv2) :=
  if csv2_justread f =? 43 then
    let '(c, f) := csv2_read_unicode f in
    if c <? 0 then Ok (None, csv2_error f)
    else
      ' (v, f) <- csv2_get_num J f ;;
      if v <? 0 then Ok (None, csv2_error f)
      else let '(r, f) := csv2_get_1st f csv2_is_alphanum 0 in Ok (if r <? 0 then (None, csv2_error f) else (Some v, f))
  else Ok (Some (z_ttl st), f).

Definition one_of (t : Z) (l : list Z) : bool := existsb (Z.eqb t) l.
(** Csv2_parse.c 1844-1848: without data there is an error. *)
Definition checked (r : res (option js * csv2)) : res (option js * csv2) := ' (o, f) <- r ;; Ok (o, match o with None => csv2_error f | Some _ => f end).
(** Csv2_parse.c 1699-1842: the data by the type, with the numbers of MaraDns.h 277-383. *)
Definition rr_data (J J2 : Z -> Z) (O : Z -> zst -> csv2 -> res (option js * csv2)) (U : Z) (st : zst) (f : csv2) (t : Z) : res (option js * csv2) :=
  let zone := z_origin st in
  let first := (f_hand f =? 2) || (f_hand f =? 102) in
  if one_of t [1; 65765] then checked (csv2_get_a J J2 f)
  else if one_of t [15; 18; 21] then checked (csv2_get_mx J f zone (-1))
  else if t =? 33 then checked (csv2_get_srv J f zone)
  else if one_of t [16; 19; 20; 99] then checked (if first then Ok (None, csv2_error f) else csv2_get_txt J U f 0)
  else if one_of t [2; 5; 12; 23; 7] then
    let '(r, f) := csv2_get_1st f csv2_is_dchar 0 in if negb (r =? JS_SUCCESS) then Ok (None, f) else checked (csv2_get_hostname J f zone 3)
  else if t =? 13 then checked (csv2_get_txt J U f 2)
  else if t =? 3 then checked (csv2_get_mx J f zone 0)
  else if t =? 4 then checked (csv2_get_mx J f zone 10)
  else if t =? 26 then checked (csv2_get_mx J f zone (-2))
  else if t =? 27 then checked (csv2_get_txt J U f 3)
  else if one_of t [28; 6; 8; 9; 14; 17; 65766; 22; 35] then checked (O t st f)
  else if one_of t [11; 29] then checked (if first then Ok (None, csv2_error f) else O t st f)
  else if (100000 <=? t) && (t <=? 165535) then
    checked (if one_of (t - 100000) [255; 251; 252; 253; 254; 38; 39; 41] then Ok (None, csv2_error f) else csv2_get_raw J U f)
  else checked (Ok (None, csv2_error f)).
(** Csv2_parse.c 1778-1787, 1807-1808: the type that is added. *)
Definition final_type (t : Z) : Z := if one_of t [3; 4] then 15 else if (100000 <=? t) && (t <=? 165535) then t - 100000 else t.

(** Csv2_parse.c 1616-1855: a record, after its first character was read; what is returned, and what is added. *)
Definition rr_rest (J : Z -> Z -> Z) (O : Z -> zst -> csv2 -> res (option js * csv2)) (U sw : Z) (st : zst) (f : csv2) : res (Z * option added * csv2) :=
  if negb ((sw =? 0) || (sw =? 1)) then Ok (-1, None, csv2_error f)
  else
    ' (name, f) <- csv2_get_hostname (J (-1)) f (z_origin st) (sw + 1) ;;
    match name with
    | None => Ok (-1, None, csv2_error f)
    | Some name =>
        let '(r, f) := csv2_get_1st f csv2_is_alphanum_orplus 0 in
        if r <? 0 then Ok (-1, None, csv2_error f)
        else
          ' (ttl, f) <- rr_ttl (J (-2)) st f ;;
          match ttl with
          | None => Ok (-1, None, f)
          | Some ttl =>
              if csv2_is_alpha (csv2_justread f) then
                ' (t, f) <- csv2_get_rtype (J (-3)) f ;;
                if t =? -1 then Ok (-1, None, csv2_error f)
                else
                  ' (d, f) <- rr_data (J (-4)) (J (-5)) O U st f t ;;
                  match d with
                  | None => Ok (-1, None, f)
                  | Some d => Ok (JS_SUCCESS, Some (mkadded name (final_type t) ttl (Some d)), f)
                  end
              else if csv2_is_number (csv2_justread f) then
                ' (d, f) <- csv2_get_a (J (-4)) (J (-5)) f ;; Ok (JS_SUCCESS, Some (mkadded name 1 ttl d), f)
              else Ok (-1, None, csv2_error f)
          end
    end.
(** Csv2_parse.c 1366-1856, csv2_read_rr. *)
Definition csv2_read_rr (J : Z -> Z -> Z) (R : csv2 -> csv2) (O : Z -> zst -> csv2 -> res (option js * csv2)) (U sw : Z) (st : zst) (f : csv2) : res (Z * option added * zst * csv2) :=
  ' (q, st, f) <- rr_start (S (length (f_rest f))) J R st f ;;
  if q <? 0 then Ok (q, None, st, f) else ' (q, a, f) <- rr_rest J O U sw st f ;; Ok (q, a, st, f).

(** Csv2_main.c 645-649, the loop of csv2_parse_zone: what is added.  [J]: the memory of each round. *)
Fixpoint zone_loop (n : nat) (J : nat -> Z -> Z -> Z) (R : csv2 -> csv2) (O : Z -> zst -> csv2 -> res (option js * csv2)) (U : nat -> Z) (sw : Z) (st : zst) (f : csv2) : res (list added) :=
  match n with
  | 0%nat => Ok []
  | S n =>
      ' (q, a, st, f) <- csv2_read_rr (J n) R O (U n) sw st f ;;
      if q <? 0 then Ok []
      else l <- zone_loop n J R O U sw st f ;; Ok (match a with None => l | Some a => a :: l end)
  end.
(** Csv2_main.c 613-660, csv2_parse_zone, after the file was opened. *)
Definition csv2_parse_zone (J : nat -> Z -> Z -> Z) (R : csv2 -> csv2) (O : Z -> zst -> csv2 -> res (option js * csv2)) (U : nat -> Z) (sw : Z) (origin : js) (f : csv2) : res (list added) :=
  zone_loop (Z.to_nat 100000) J R O U sw (csv2_init_add_state origin) f.
