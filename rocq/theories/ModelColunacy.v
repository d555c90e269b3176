(** Model of the parts of coLunacyDNS/coLunacyDNS.c which handle packets.  Memory that has not been
    written has the values of [J]; the Lua program is not modelled: what it returns is quantified over. *)
From Verif Require Import CBase SpecDwStr ModelDwStr.

(** ** humanDNSname, 936-1000 *)
(** 0-9, a-z, A-Z, - and _ (the same whether [char] is signed or not). *)
Definition is_safe (c : Z) : bool :=
  ((48 <=? c) && (c <=? 57)) || ((97 <=? c) && (c <=? 122)) || ((65 <=? c) && (c <=? 90)) || (c =? 45) || (c =? 95).
Definition hex_char (d : Z) : Z := if d <? 10 then 48 + d else 97 + (d - 10).
(** 941-947, 979-985: at a length octet which is not one. *)
Definition hn_pointer (out : list Z) (max inp outp : Z) : res (Z * list Z) :=
  if max <=? outp + 1 then Ok (-1, out)
  else out <- wr out outp 42 ;; out <- wr out (outp + 1) 0 ;; Ok (inp + 1, out).
(** 955-974: one octet to text; [None]: no room. *)
Definition hn_octet (see : Z) (out : list Z) (max outp : Z) : res (option (list Z * Z)) :=
  if is_safe see then
    if max <=? outp then Ok None else out <- wr out outp see ;; Ok (Some (out, outp + 1))
  else if max <=? outp + 5 then Ok None
  else
    out <- wr out outp 123 ;;
    out <- wr out (outp + 1) (hex_char (Z.land (Z.shiftr see 4) 15)) ;;
    out <- wr out (outp + 2) (hex_char (Z.land see 15)) ;;
    out <- wr out (outp + 3) 125 ;;
    Ok (Some (out, outp + 4)).
(** 950-996 ([in] is [m] from [base]). *)
Fixpoint hn_loop (n : nat) (m : list Z) (base : Z) (out : list Z) (max label inp outp : Z) : res (Z * list Z) :=
  if label <=? 0 then
    if max <=? outp then Ok (-1, out) else out <- wr out outp 0 ;; Ok (inp, out)
  else
    match n with
    | O => Bad NoFuel
    | S n =>
        if (max <=? inp) || (max <=? outp) then Ok (-1, out)
        else
          let inp := inp + 1 in
          see <- rd m (base + inp) ;;
          r <- hn_octet see out max outp ;;
          match r with
          | None => Ok (-1, out)
          | Some (out, outp) =>
              let label := label - 1 in
              if label =? 0 then
                let inp := inp + 1 in
                label <- rd m (base + inp) ;;
                if 64 <=? label then hn_pointer out max inp outp
                else if max <=? outp then Ok (-1, out)
                else out <- wr out outp 46 ;; hn_loop n m base out max label inp (outp + 1)
              else hn_loop n m base out max label inp outp
          end
    end.
Definition humanDNSname (m : list Z) (base : Z) (out : list Z) (max : Z) : res (Z * list Z) :=
  label <- rd m base ;;
  if 64 <=? label then hn_pointer out max 0 0 else hn_loop (Z.to_nat (max + 1)) m base out max label 0 0.

(** ** Queries *)
(** malloc(500) and what recvfrom puts there (2097-2099, 2118-2121): at most 255 octets. *)
Definition received (n size : nat) (J : Z -> Z) (d : list Z) : list Z := firstn n d ++ skipn (length (firstn n d)) (mkjunk J (Z.of_nat size)).

(** What is done with a query: nothing; a reply is sent; or processQuery is called (with the name, the type), [in] being kept. *)
Inductive query_result := Dropped | Answered (reply : list Z) | Script (name : list Z) (qtype : Z) (m : list Z) (qlen : Z).

(** Copy [src] to [m] from [i] on (1898-1900 and the like). *)
Fixpoint put_at (m : list Z) (i : Z) (src : list Z) : res (list Z) :=
  match src with [] => Ok m | c :: src => m <- wr m i c ;; put_at m (i + 1) src end.
(** 545-546: with the final 0 of the string. *)
Definition AnyAnswer : list Z := [192; 12; 0; 13; 0; 1; 0; 0; 0; 0; 0; 9; 7; 82; 70; 67; 56; 52; 56; 50; 0; 0].
(** The string in [query] (a C string, as lua_pushstring takes it). *)
Fixpoint c_string (l : list Z) : list Z := match l with [] => [] | 0 :: _ => [] | c :: l => c :: c_string l end.

(** processQueryC 1866-1956: [in] is [m], [len] the length received; [Jq] is what is in [query]. *)
Definition processQueryC (Jq : Z -> Z) (m : list Z) (len : Z) : res query_result :=
  one <- (if 12 <? len then c <- rd m 5 ;; Ok (c =? 1) else Ok false) ;;
  m <- (if (one : bool) then
          c <- rd m 2 ;; m <- wr m 2 (Z.lor c 128) ;;
          c <- rd m 7 ;; m <- wr m 7 (u8 (c + 1)) ;;
          wr m 11 0
        else Ok m) ;;
  ' (qlen, query) <- humanDNSname m 12 (mkjunk Jq 500) 490 ;;
  if 0 <? qlen then
    hi <- rd m (13 + qlen) ;; lo <- rd m (14 + qlen) ;;
    let qtype := hi * 256 + lo in
    if (qtype =? 255) || (qtype =? 13) then
      m <- put_at m (17 + qlen) AnyAnswer ;;
      if zlen m <? 17 + qlen + 22 then Bad OutOfBounds else Ok (Answered (zslice m 0 (17 + qlen + 22)))
    else Ok (Script (c_string query) qtype m qlen)
  else Ok Dropped.
(** runServer 2096-2134: [d] is the datagram. *)
Definition serve (J Jq : Z -> Z) (d : list Z) : res query_result :=
  let m := received 255 500 J d in
  let len := Z.of_nat (length (firstn 255 d)) in
  if len <? 3 then Ok Dropped
  else c <- rd m 2 ;; if negb (Z.land c 128 =? 0) then Ok Dropped else processQueryC Jq m len.

(** ** Replies to clients: endThread, 1161-1361 *)
(** What the Lua program returned: co1AA, co1RA (is it 1?), co1TTL, co1Type and co1Data; the addresses as inet_addr and ip6Parse
    read them.  Anything else returned: no reply. *)
Inductive script_type := SIgnore | SFail | SNotThere | SA (ip : list Z) | SIp6 (ip : list Z).
Record script := mkscript { s_aa : bool; s_ra : bool; s_ttl : Z; s_type : script_type }.
Definition not_there : list Z :=
  [192; 12; 0; 6; 0; 1; 0; 0; 0; 0; 0; 28; 1; 122; 192; 12; 1; 121; 192; 12; 0; 0; 0; 1; 0; 0; 0; 1; 0; 0; 0; 1; 0; 0; 0; 1; 0; 0; 0; 1; 0].
Definition IPv4answer (ip : list Z) : list Z := [192; 12; 0; 1; 0; 1; 0; 0; 0; 0; 0; 4] ++ ip.
Definition IPv6answer (ip : list Z) : list Z := [192; 12; 0; 28; 0; 1; 0; 0; 0; 0; 0; 16] ++ ip.
(** 1267-1278, 1313-1324, 1336-1347: the record, its TTL, and the reply. *)
Definition send_record (m : list Z) (qlen ttl : Z) (rr : list Z) : res (option (list Z)) :=
  m <- put_at m (17 + qlen) rr ;;
  m <- wr m (qlen + 26) (Z.land ttl 255) ;;
  m <- wr m (qlen + 25) (Z.land (Z.shiftr ttl 8) 255) ;;
  m <- wr m (qlen + 24) (Z.land (Z.shiftr ttl 16) 255) ;;
  if zlen m <? 17 + qlen + zlen rr then Bad OutOfBounds else Ok (Some (zslice m 0 (17 + qlen + zlen rr))).
Definition endThread (m : list Z) (qlen : Z) (s : script) : res (option (list Z)) :=
  c <- rd m 2 ;; m <- wr m 2 (Z.land c 251) ;;
  m <- (if s_aa s then c <- rd m 2 ;; wr m 2 (Z.lor c 4) else Ok m) ;;
  c <- rd m 3 ;; m <- wr m 3 (Z.land c 127) ;;
  m <- (if s_ra s then c <- rd m 3 ;; wr m 3 (Z.lor c 128) else Ok m) ;;
  let ttl := if 7777777 <? s_ttl s then 7777777 else s_ttl s in
  let ttl := if ttl <? 0 then 0 else ttl in
  match s_type s with
  | SIgnore => Ok None
  | SFail =>
      c <- rd m 2 ;; m <- wr m 2 (Z.lor c 128) ;;
      c <- rd m 3 ;; m <- wr m 3 (Z.land c 240) ;;
      c <- rd m 3 ;; m <- wr m 3 (Z.lor c 2) ;;
      m <- wr m 7 0 ;;
      if zlen m <? 17 + qlen then Bad OutOfBounds else Ok (Some (zslice m 0 (17 + qlen)))
  | SNotThere => send_record m qlen ttl not_there
  | SA ip => send_record m qlen ttl (IPv4answer ip)
  | SIp6 ip => send_record m qlen ttl (IPv6answer ip)
  end.

(** ** Names sent upstream: human2DNS, 1442-1504 *)
(** [z] is the text without its final 0; [R] the bits of randBit in turn; strnlen is what Unix has. *)
Definition flip_case (v : Z) (bit : bool) : Z :=
  if (97 <=? v) && (v <=? 122) && bit then v - 32 else if (65 <=? v) && (v <=? 90) && bit then v + 32 else v.
(** A letter uses a bit of randBit, and a capital one which is not changed (the first condition failing) none for the second. *)
Definition uses_bit (v : Z) : bool := ((97 <=? v) && (v <=? 122)) || ((65 <=? v) && (v <=? 90)).
Definition at_z (z : list Z) : Z := match z with c :: _ => c | [] => 0 end.
(** 1461-1486: the octets of a label; [None]: an error is returned. *)
Fixpoint h2d_label (z : list Z) (m : list Z) (p a len : Z) (R : nat -> bool) (r : nat) : res (option (list Z * list Z * Z * Z * nat)) :=
  match z with
  | [] => Ok (Some (z, m, p, len, r))
  | c :: z' =>
      if (p <? a) && negb (c =? 46) && (len <? 64) then
        let v := flip_case c (R r) in
        m <- wr m p v ;;
        let r := if uses_bit c then S r else r in
        if (64 <=? len + 1) || (at_z z' =? 0) || (a <=? p + 1) then Ok None
        else h2d_label z' m (p + 1) a (len + 1) R r
      else Ok (Some (z, m, p, len, r))
  end.
(** 1459-1501. *)
Fixpoint h2d_loop (n : nat) (z : list Z) (m : list Z) (label p a : Z) (R : nat -> bool) (r : nat) : res (option (list Z * Z)) :=
  match n with
  | O => Bad NoFuel
  | S n =>
      x <- h2d_label z m p a 0 R r ;;
      match x with
      | None => Ok None
      | Some (z, m, p, len, r) =>
          m <- wr m label len ;;
          if negb (at_z z =? 46) then Ok None
          else
            let label := p in
            let p := p + 1 in
            match z with
            | [] => Bad OutOfBounds
            | _ :: z =>
                if at_z z =? 0 then m <- wr m label 0 ;; Ok (Some (m, p))
                else if len =? 0 then Ok (Some (m, p))
                else h2d_loop n z m label p a R r
            end
      end
  end.
Definition human2DNS (J : Z -> Z) (R : nat -> bool) (z : list Z) : res (option (list Z)) :=
  let a := Z.min (zlen z) 256 + 1 in
  m <- wr (mkjunk J (a + 2)) a 0 ;;
  x <- h2d_loop (S (length z)) z m 0 1 a R 0 ;;
  match x with
  | None => Ok None
  | Some (m, p) => if zlen m <? p then Bad OutOfBounds else Ok (Some (zslice m 0 p))
  end.
(** sendDNSpacket 1371-1397: [None]: nothing is sent. *)
Definition query_packet (id qtype : Z) (name : list Z) : option (list Z) :=
  if 490 <? zlen name then None
  else Some ([Z.land id 65280 / 256; Z.land id 255; 1; 0; 0; 1; 0; 0; 0; 0; 0; 0] ++ name ++ [qtype / 256; Z.land qtype 255; 0; 1]).

(** ** Replies from upstream: resumeThread, 1626-1708 *)
(** The address found: DNSanswer, and the octets printed for an IPv6 address. *)
Record found := mkfound { fd_answer : Z; fd_ip6 : option (list Z) }.
(** Octet comparison of 1659: [in] is unsigned, [coDNSname] is not if [char] is signed. *)
Fixpoint name_matches (signed : bool) (m : list Z) (i : Z) (name : list Z) : res bool :=
  match name with
  | [] => Ok true
  | c :: name => x <- rd m i ;; if x =? (if signed then i8 c else c) then name_matches signed m (i + 1) name else Ok false
  end.
Fixpoint read_n (m : list Z) (i : Z) (n : nat) : res (list Z) :=
  match n with O => Ok [] | S n => c <- rd m i ;; r <- read_n m (i + 1) n ;; Ok (c :: r) end.
(** 1667-1707; a shift of an octet into the sign of an int is taken for what compilers do. *)
Fixpoint find_answer (n : nat) (Jd : Z -> Z) (m : list Z) (place : Z) (first : bool) : res found :=
  if negb (place <? 450) then Ok (mkfound 0 None)
  else
    match n with
    | O => Bad NoFuel
    | S n =>
        ' (len, _) <- humanDNSname m place (mkjunk Jd 514) (500 - place) ;;
        if len <? 0 then Ok (mkfound 0 None)
        else
          let place := place + len in
          a <- rd m (place + 1) ;; b <- rd m (place + 2) ;;
          let qtype := Z.lor (u16 (Z.shiftl a 8)) b in
          if first then find_answer n Jd m (place + 5) false
          else
            a <- rd m (place + 9) ;; b <- rd m (place + 10) ;;
            let rdlength := Z.lor (u16 (Z.shiftl a 8)) b in
            ip <- (if (qtype =? 1) && (rdlength =? 4) then
                     l <- read_n m (place + 11) 4 ;; Ok (fold_left (fun x c => x * 256 + c) l 0)
                   else Ok 0) ;;
            if (qtype =? 28) && (rdlength =? 16) then
              l <- read_n m (place + 11) 16 ;; Ok (mkfound 28 (Some l))
            else if negb (ip =? 0) then Ok (mkfound ip None)
            else find_answer n Jd m (place + 11 + rdlength) false
    end.
(** 1643-1708: [d] is the datagram, [id] and [name] are of the query sent. *)
Definition upstream_reply (signed : bool) (J Jd : Z -> Z) (id : Z) (name d : list Z) : res found :=
  let m := received 514 514 J d in
  let count := Z.of_nat (length (firstn 514 d)) in
  if count <=? 12 then Ok (mkfound 0 None)
  else
    a <- rd m 0 ;; b <- rd m 1 ;;
    if negb (Z.lor (u16 (Z.shiftl a 8)) b =? id) then Ok (mkfound 0 None)
    else
      ok <- name_matches signed m 12 name ;;
      if negb ok then Ok (mkfound 0 None) else find_answer 100 Jd m 12 true.
