(** Model of how MaraDNS reads mailboxes and SOA data in zone files (csv2 format): parse/Csv2_rr_soa.c and
    csv2_get_mbox in parse/Csv2_rr_wks.c.  [J]: the contents of new memory.  Left out: what is printed, and what is
    not freed (Csv2_rr_soa.c 152-154). *)
From Verif Require Import CBase ModelDwStr ModelJsStr ModelQueries ModelIpAcl ModelCsv2 ModelCsv2Rr.

(** Csv2_rr_wks.c 45-47. *)
Definition csv2_is_alphanum_ordot (c : Z) : bool := csv2_is_alphanum c || (c =? 46).
(** Csv2_rr_soa.c 36-40. *)
Definition csv2_b4_at (c : Z) : bool := csv2_is_alphanum c || (c =? 43) || (c =? 37) || (c =? 33) || (c =? 94) || (c =? 61).
(** Csv2_rr_soa.c 96-111: a backslash and a dot stand for a dot; the character after them is read ([None]: 0 is
    returned). *)
Definition mbox_dot (look : Z) (o : js) (f : csv2) : res (option (Z * js) * csv2) :=
  if look =? 92 then
    let '(look, f) := csv2_read_unicode f in
    if negb (look =? 46) then Ok (None, csv2_error f)
    else
      ' (r, o) <- csv2_append_utf8 o 46 ;;
      if r <? 0 then Ok (None, csv2_error f)
      else let '(look, f) := csv2_read_unicode f in Ok (Some (look, o), f)
  else Ok (Some (look, o), f).
(** Csv2_rr_soa.c 55-133: the loop of process_mbox, and what follows it.  [first]: x is 0. *)
Fixpoint mbox_loop (n : nat) (first : bool) (o : js) (f : csv2) : res (option js * csv2) :=
  match n with
  | O => js_append_dname o f 0
  | S n =>
      let '(look, f) := csv2_read_unicode f in
      b <- (if first && (2 <=? j_count o) then rd (j_mem o) 1 else Ok 0) ;;
      if b =? 46 then if csv2_is_delimiter look then Ok (Some o, f) else Ok (None, csv2_error f)
      else if look =? FATAL then Ok (None, f)
      else if (look =? 64) || (look =? 46) then
        ' (r, o) <- csv2_append_utf8 o look ;;
        if r <? 0 then Ok (None, csv2_error f)
        else if look =? 46 then
          let '(look, f) := csv2_read_unicode f in
          if csv2_is_text look then
            ' (r, o) <- csv2_append_utf8 o look ;;
            if r <? 0 then Ok (None, csv2_error f) else js_append_dname o f 0
          else Ok (None, csv2_error f)
        else js_append_dname o f 0
      else
        ' (p, f) <- mbox_dot look o f ;;
        match p with
        | None => Ok (None, f)
        | Some (look, o) =>
            if csv2_b4_at look then
              ' (r, o) <- csv2_append_utf8 o look ;;
              if r <? 0 then Ok (None, csv2_error f) else mbox_loop n false o f
            else Ok (None, csv2_error f)
        end
  end.
(** Csv2_rr_soa.c 45-135, process_mbox. *)
Definition process_mbox (J : Z -> Z) (f : csv2) : res (option js * csv2) :=
  ' (o, f) <- process_1stchar J f csv2_is_alphanum_ordot [90] ;;
  match o with None => Ok (None, f) | Some o => mbox_loop (Z.to_nat 10000) true o f end.

(** Csv2_rr_wks.c 239-267, the loop of csv2_get_mbox. *)
Fixpoint mbox_names (n : nat) (J : Z -> Z) (out : js) (f : csv2) (zone : js) : res (option js * csv2) :=
  match n with
  | O => Ok (Some out, f)
  | S n =>
      let '(r, f) := csv2_get_1st f csv2_is_alphanum_ordot 0 in
      if negb (r =? JS_SUCCESS) then Ok (None, f)
      else
        ' (name, f) <- process_mbox J f ;;
        match name with
        | None => Ok (None, f)
        | Some name =>
            name <- csv2_convert_percent name zone ;;
            match name with
            | None => Ok (None, f)
            | Some name =>
                ' (r, name) <- email_2rfc1035 name ;;
                if r =? JS_ERROR then Ok (None, f)
                else ' (r, out) <- js_append name out ;; if r =? JS_ERROR then Ok (None, f) else mbox_names n J out f zone
            end
        end
  end.
(** Csv2_rr_wks.c 230-269, csv2_get_mbox. *)
Definition csv2_get_mbox (J : Z -> Z) (f : csv2) (zone : js) (count : nat) : res (option js * csv2) :=
  match js_create J 512 1 with None => Ok (None, f) | Some out => mbox_names count J out f zone end.

(** Csv2_rr_soa.c 173-191: [n] numbers, of which the first may be /serial if [first]. *)
Fixpoint soa_numbers (n : nat) (J : Z -> Z) (first : bool) (serial : Z) (out : js) (f : csv2) : res (option js * csv2) :=
  match n with
  | O => Ok (Some out, f)
  | S n =>
      ' (num, f) <- csv2_get_num J f ;;
      if negb ((num =? -2) && first) && (num <? 0) then Ok (None, f)
      else
        ' (r, out) <- js_adduint32 out (if (num =? -2) && first then serial else num) ;;
        if r =? JS_ERROR then Ok (None, f) else soa_numbers n J false serial out f
  end.
(** Csv2_rr_soa.c 140-193, csv2_get_soa; [serial]: state->soa_serial.  js_append gives JS_ERROR for a null pointer. *)
Definition csv2_get_soa (J : Z -> Z) (f : csv2) (zone : js) (serial : Z) : res (option js * csv2) :=
  match js_create J 512 1 with
  | None => Ok (None, f)
  | Some out =>
      let '(r, f) := csv2_get_1st f csv2_is_dchar 0 in
      if negb (r =? JS_SUCCESS) then Ok (None, f)
      else
        ' (name, f) <- csv2_get_hostname J f zone 3 ;;
        match name with
        | None => Ok (None, f)
        | Some name =>
            ' (r, out) <- js_append name out ;;
            if r =? JS_ERROR then Ok (None, f)
            else
              ' (mbox, f) <- csv2_get_mbox J f zone 1 ;;
              match mbox with
              | None => Ok (None, f)
              | Some mbox => ' (r, out) <- js_append mbox out ;; if r =? JS_ERROR then Ok (None, f) else soa_numbers 5 J true serial out f
              end
        end
  end.
