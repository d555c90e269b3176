(** Model of how MaraDNS reads numbers, the types of records, and the data of MX and SRV records in zone
    files (csv2 format): parse/Csv2_parse.c.  Left out as in ModelCsv2. *)
From Verif Require Import CBase ModelDwStr ModelJsStr ModelQueries ModelIpAcl ModelCsv2.

(** Csv2_parse.c 69-74. *)
Definition csv2_is_number_orslash (c : Z) : bool := csv2_is_number c || (c =? 47).

(** Csv2_parse.c 620-640, the loop of process_something.  In the code it has no bound; each round reads
    an octet, and at the end of the file there is an error. *)
Fixpoint something_loop (n : nat) (is_ok : Z -> bool) (o : js) (f : csv2) : res (option js * csv2) :=
  match n with
  | O => Bad NoFuel
  | S n =>
      let '(look, f) := csv2_read_unicode f in
      if look =? FATAL then Ok (None, f)
      else if look =? 35 then Ok (Some o, process_comment f)
      else if negb (is_ok look) && negb (csv2_is_delimiter look) then Ok (None, csv2_error f)
      else if is_ok look then
        ' (r, o) <- csv2_append_utf8 o look ;;
        if r <? 0 then Ok (None, csv2_error f) else something_loop n is_ok o f
      else Ok (Some o, f)
  end.
(** Csv2_parse.c 608-642, process_something. *)
Definition process_something (J : Z -> Z) (f : csv2) (is_ok : Z -> bool) : res (option js * csv2) :=
  ' (o, f) <- process_1stchar J f is_ok [] ;;
  match o with None => Ok (None, f) | Some o => something_loop (S (length (f_rest f))) is_ok o f end.

(** Csv2_parse.c 1183-1203: the letters after the slash of /serial. *)
Fixpoint expect (l : list Z) (f : csv2) : bool * csv2 :=
  match l with
  | [] => (true, f)
  | c :: l => let '(x, f) := csv2_read_unicode f in if x =? c then expect l f else (false, f)
  end.
(** Csv2_parse.c 1173-1222, csv2_get_num (-1: error; -2: /serial). *)
Definition csv2_get_num (J : Z -> Z) (f : csv2) : res (Z * csv2) :=
  let '(r, f) := csv2_get_1st f csv2_is_number_orslash 0 in
  if negb (r =? JS_SUCCESS) then Ok (-1, f)
  else if csv2_justread f =? 47 then
    let '(ok, f) := expect [115; 101; 114; 105; 97; 108] f in
    if negb ok then Ok (-1, f)
    else let '(c, f) := csv2_read_unicode f in Ok (if csv2_is_delimiter c then -2 else -1, f)
  else
    ' (num, f) <- process_something J f csv2_is_number ;;
    match num with
    | None => Ok (-1, f)
    | Some num =>
        b <- rd (j_mem num) 0 ;;
        if (b =? 48) && (j_count num =? 1) then Ok (0, f)
        else v <- js_atoi num 0 ;; Ok (if v =? 0 then -1 else v, f)
    end.

(** Csv2_parse.c 1022-1129: the names that csv2_numeric_rtype compares with, in this order, with the
    numbers of MaraDns.h 277-362.  WITH_FQDN6 is defined (33). *)
Definition rtypes : list (list Z * Z) := [
  ([105; 110], -2); ([114; 97; 119], -3); ([97], 1); ([110; 115], 2); ([99; 110; 97; 109; 101], 5); ([115; 111; 97], 6);
  ([112; 116; 114], 12); ([109; 120], 15); ([97; 97; 97; 97], 28); ([115; 114; 118], 33); ([116; 120; 116], 16); ([115; 112; 102], 99);
  ([102; 113; 100; 110; 52], 65765); ([102; 113; 100; 110; 54], 65766);
  ([104; 105; 110; 102; 111], 13); ([119; 107; 115], 11); ([109; 98], 7); ([109; 100], 3); ([109; 102], 4); ([109; 103], 8); ([109; 114], 9);
  ([109; 105; 110; 102; 111], 14); ([97; 102; 115; 100; 98], 18); ([114; 112], 17); ([120; 50; 53], 19); ([105; 115; 100; 110], 20); ([114; 116], 21);
  ([110; 115; 97; 112], 22); ([110; 115; 97; 112; 45; 112; 116; 114], 23); ([112; 120], 26); ([103; 112; 111; 115], 27); ([108; 111; 99], 29); ([110; 97; 112; 116; 114], 35)].
Fixpoint same_as (J : Z -> Z) (l : list (list Z * Z)) (s : js) : res Z :=
  match l with
  | [] => Ok (-1)
  | (t, n) :: l => r <- js_qissame J t s ;; if r =? 1 then Ok n else same_as J l s
  end.
(** Csv2_parse.c 1014-1132, csv2_numeric_rtype. *)
Definition csv2_numeric_rtype (J : Z -> Z) (s : js) : res Z :=
  let '(_, s) := js_set_encode s JS_US_ASCII in
  ' (r, s) <- js_tolower s ;;
  if r =? JS_ERROR then Ok (-1) else same_as J rtypes s.

(** Csv2_parse.c 1139-1169, the loop of csv2_get_rtype.  In the code it has no bound; each round reads at
    least one octet, or there is an error.  100000 is added to the numbers of RAW. *)
Fixpoint rtype_loop (n : nat) (J : Z -> Z) (f : csv2) : res (Z * csv2) :=
  match n with
  | O => Bad NoFuel
  | S n =>
      let '(r, f) := csv2_get_1st f csv2_is_alpha 0 in
      if negb (r =? JS_SUCCESS) then Ok (-1, f)
      else
        ' (s, f) <- process_something J f csv2_is_text ;;
        match s with
        | None => Ok (-1, f)
        | Some s =>
            ret <- csv2_numeric_rtype J s ;;
            if ret =? -3 then
              let '(r, f) := csv2_get_1st f csv2_is_number 0 in
              if r <? 0 then Ok (-1, csv2_error f)
              else
                ' (v, f) <- csv2_get_num J f ;;
                if v <? 0 then Ok (-1, f) else if 2147483648 <=? v + 100000 then Bad SignedOverflow else Ok (v + 100000, f)
            else if (ret =? -1) || (ret =? 0) then Ok (-1, f)
            else if (ret <=? -2) && (-11 <=? ret) then rtype_loop n J f
            else Ok (ret, f)
        end
  end.
(** Csv2_parse.c 1135-1171, csv2_get_rtype. *)
Definition csv2_get_rtype (J : Z -> Z) (f : csv2) : res (Z * csv2) := rtype_loop (S (length (f_rest f))) J f.

(** Csv2_parse.c 1292-1310, the loop of csv2_get_mx over the names. *)
Fixpoint mx_names (n : nat) (J : Z -> Z) (out : js) (f : csv2) (zone : js) : res (option js * csv2) :=
  match n with
  | O => Ok (Some out, f)
  | S n =>
      let '(r, f) := csv2_get_1st f csv2_is_dchar 0 in
      if negb (r =? JS_SUCCESS) then Ok (None, f)
      else
        ' (name, f) <- csv2_get_hostname J f zone 3 ;;
        match name with
        | None => Ok (None, f)
        | Some name =>
            ' (r, out) <- js_append name out ;;
            if r =? JS_ERROR then Ok (None, f) else mx_names n J out f zone
        end
  end.
(** Csv2_parse.c 1269-1316, csv2_get_mx. *)
Definition csv2_get_mx (J : Z -> Z) (f : csv2) (zone : js) (pref : Z) : res (option js * csv2) :=
  ' (num, f) <- (if pref <? 0 then csv2_get_num J f else Ok (pref, f)) ;;
  if num <? 0 then Ok (None, f)
  else match js_create J 256 1 with
  | None => Ok (None, f)
  | Some out =>
      ' (r, out) <- js_adduint16 out num ;;
      if r =? JS_ERROR then Ok (None, f) else mx_names (if pref =? -2 then 2 else 1) J out f zone
  end.

(** Csv2_parse.c 1330-1339, the three numbers of csv2_get_srv ([None]: 0 is returned). *)
Fixpoint srv_numbers (n : nat) (J : Z -> Z) (out : js) (f : csv2) : res (option js * csv2) :=
  match n with
  | O => Ok (Some out, f)
  | S n =>
      ' (num, f) <- csv2_get_num J f ;;
      if num <? 0 then Ok (None, f)
      else ' (r, out) <- js_adduint16 out num ;; if r =? JS_ERROR then Ok (None, f) else srv_numbers n J out f
  end.
(** Csv2_parse.c 1320-1359, csv2_get_srv.  1342-1355 does what is done for one name in csv2_get_mx. *)
Definition csv2_get_srv (J : Z -> Z) (f : csv2) (zone : js) : res (option js * csv2) :=
  match js_create J 256 1 with
  | None => Ok (None, f)
  | Some out =>
      ' (out, f) <- srv_numbers 3 J out f ;;
      match out with None => Ok (None, f) | Some out => mx_names 1 J out f zone end
  end.
