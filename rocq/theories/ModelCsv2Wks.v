(** Model of how MaraDNS reads WKS data in zone files (csv2 format): csv2_get_wks in parse/Csv2_rr_wks.c.
    [J], [J2]: the contents of new memory.  Left out: what is freed. *)
From Verif Require Import CBase ModelDwStr ModelJsStr ModelQueries ModelIpAcl ModelCsv2 ModelCsv2Rr.

(** Csv2_rr_wks.c 40-42. *)
Definition csv2_is_wks (c : Z) : bool := (c =? 44) || (c =? 9) || (c =? 32).
(** Csv2_rr_wks.c 93-160: the loop over the characters of the list of ports; [num], [hi] and [ports] are num, hiport
    and the first portindex entries of ports, of which there are at most 10 (CSV2_WKS_PORTS_MAX; the highest port is
    1024, CSV2_WKS_HIGHPORT).  [None]: 0 is returned. *)
Fixpoint port_loop (n : nat) (look num hi : Z) (ports : list Z) (f : csv2) : option (Z * Z * list Z) * csv2 :=
  match n with
  | O => (Some (num, hi, ports), f)
  | S n =>
      let tilde := f_hand f =? 103 in
      if negb tilde && ((look =? -2) || (look =? 10) || (look =? 13)) then (Some (num, hi, ports), f)
      else if negb tilde && (look =? 35) then (Some (num, hi, ports), process_comment f)
      else if tilde && (look =? 126) then (Some (num, hi, ports), f)
      else if tilde && (look =? 35) then let '(look, f) := csv2_read_unicode (process_comment f) in port_loop n look num hi ports f
      else if csv2_is_number look then
        let num := num * 10 + (look - 48) in
        if 100000 <? num then (None, f) else let '(look, f) := csv2_read_unicode f in port_loop n look num hi ports f
      else if csv2_is_wks look || (tilde && ((look =? 13) || (look =? 10))) then
        if 10 <=? zlen ports then (None, f)
        else if 1024 <? num then (None, f)
        else let '(look, f) := csv2_read_unicode f in port_loop n look 0 (if hi <? num then num else hi) (ports ++ [num]) f
      else (None, f)
  end.
(** Csv2_rr_wks.c 184-186: [n] octets from [i] on are zero. *)
Fixpoint zero_loop (n : nat) (i : Z) (mem : list Z) : res (list Z) :=
  match n with O => Ok mem | S n => mem <- wr mem i 0 ;; zero_loop n (i + 1) mem end.
(** Csv2_rr_wks.c 211-222: the bits of the ports ([None]: 0 is returned); [count]: out->unit_count. *)
Fixpoint bits_loop (ports : list Z) (count : Z) (mem : list Z) : res (option (list Z)) :=
  match ports with
  | [] => Ok (Some mem)
  | p :: ports =>
      let q := Z.shiftr p 3 in
      if count <=? q then Ok None
      else b <- rd mem (q + 5) ;; mem <- wr mem (q + 5) (u8 (Z.lor b (Z.shiftr 128 (p mod 8)))) ;; bits_loop ports count mem
  end.
(** Csv2_rr_wks.c 167-226: the last number is not counted among the ports (portindex stays), only hiport takes it
    into account. *)
Definition wks_data (J2 : Z -> Z) (ddip : js) (protocol num hi : Z) (ports : list Z) : res (option js) :=
  let last := (0 <? num) && (num <? 1024) in
  if last && (10 <=? zlen ports) then Ok None
  else
    let hi := if last && (hi <? num) then num else hi in
    match js_create J2 (Z.shiftr hi 3 + 6) 1 with
    | None => Ok None
    | Some out =>
        mem <- zero_loop (Z.to_nat (Z.shiftr hi 3 + 6)) 0 (j_mem out) ;;
        ip <- ddip_2_ip ddip (set_mem out mem) 0 ;;
        match ip with
        | None => Ok None
        | Some out =>
            let count := 6 + Z.shiftr hi 3 in
            if j_max out <? count then Ok None
            else
              mem <- wr (j_mem out) 4 (Z.land protocol 255) ;;
              mem <- bits_loop ports count mem ;;
              Ok (match mem with None => None | Some mem => Some (set_mem (set_count out count) mem) end)
        end
    end.
(** Csv2_rr_wks.c 56-228, csv2_get_wks. *)
Definition csv2_get_wks (J J2 : Z -> Z) (f : csv2) : res (option js * csv2) :=
  let '(r, f) := csv2_get_1st f csv2_is_number 0 in
  if negb (r =? JS_SUCCESS) then Ok (None, f)
  else
    ' (ddip, f) <- process_ipv4_ddip J f ;;
    match ddip with
    | None => Ok (None, f)
    | Some ddip =>
        ' (protocol, f) <- csv2_get_num J f ;;
        if protocol <? 0 then Ok (None, f)
        else
          let '(r, f) := csv2_get_1st f csv2_is_number 0 in
          if negb (r =? JS_SUCCESS) then Ok (None, f)
          else
            let f := if f_hand f =? 103 then set_tilde f true else f in
            let '(p, f) := port_loop (Z.to_nat 1000) (csv2_justread f) 0 0 [] f in
            match p with
            | None => Ok (None, f)
            | Some (num, hi, ports) => o <- wks_data J2 ddip protocol num hi ports ;; Ok (o, f)
            end
    end.
