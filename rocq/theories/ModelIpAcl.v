(** Model of parse/ParseIpAcl.c: MaraDNS' lists of addresses that may do something, and of
    check_ipv4_acl in server/MaraDNS.c. *)
From Verif Require Import CBase ModelDwStr ModelJsStr.

(** ParseIpAcl.c 97-137: the strings ".", "0123456789." and "/" made on the first call (js_numbers,
    JsStrCP.c 159-261, gives the ten digits).  What their buffers hold behind the text is never
    read. *)
Definition const_str (l : list Z) (cap enc : Z) : js := mkjs (l ++ repeat 0 (Z.to_nat (cap + 3 - zlen l))) 1 (zlen l) cap enc.
Definition dotq : js := const_str [46] 7 1.
Definition numdotq : js := const_str [48; 49; 50; 51; 52; 53; 54; 55; 56; 57; 46] 211 3.
Definition slashq : js := const_str [47] 7 1.

(** ParseIpAcl.c 52-85. *)
Definition masks : list Z :=
  [0; 2147483648; 3221225472; 3758096384; 4026531840; 4160749568; 4227858432; 4261412864; 4278190080;
   4286578688; 4290772992; 4292870144; 4293918720; 4294443008; 4294705152; 4294836224; 4294901760;
   4294934528; 4294950912; 4294959104; 4294963200; 4294965248; 4294966272; 4294966784; 4294967040;
   4294967168; 4294967232; 4294967264; 4294967280; 4294967288; 4294967292; 4294967294; 4294967295].

(** ParseIpAcl.c 153-178, the loop over the four numbers of the address: the address, [None] on
    error.  A byte shifted into the sign bit of an int is taken to wrap.  Line 170 has no effect. *)
Fixpoint ip_loop (n : nat) (ddip : js) (counter offset ip : Z) : res (option Z) :=
  match n with
  | O => Ok (Some ip)
  | S n =>
      if offset =? -2 then Ok None
      else
        qr <- js_atoi ddip offset ;;
        if (qr <? 0) || (255 <? qr) then Ok None
        else
          offset <- js_match_offset dotq ddip (offset + 1) ;;
          if offset =? JS_ERROR then Ok None
          else ip_loop n ddip (counter + 1) (offset + 1) (u32 (Z.lor ip (qr * 2 ^ (24 - 8 * counter))))
  end.

(** ParseIpAcl.c 208-233, the same for the mask: the mask and the value returned. *)
Fixpoint mask_loop (n : nat) (ddip : js) (counter offset mask : Z) : res (option (Z * Z)) :=
  match n with
  | O => Ok None
  | S n =>
      if offset =? -2 then Ok None
      else
        qr <- js_atoi ddip offset ;;
        if (qr <? 0) || (255 <? qr) then Ok None
        else
          let mask := u32 (Z.lor mask (qr * 2 ^ (24 - 8 * counter))) in
          if negb (counter =? 3) then
            offset <- js_match_offset dotq ddip (offset + 1) ;;
            if offset =? JS_ERROR then Ok None else mask_loop n ddip (counter + 1) (offset + 1) mask
          else
            r <- js_notmatch_offset numdotq ddip (offset + 1) ;;
            Ok (if r =? JS_ERROR then None else Some (mask, r))
  end.

(** ParseIpAcl.c 43-238, ddip_ip_mask: the address, the mask and the value returned ([None] for
    JS_ERROR). *)
Definition ddip_ip_mask (ddip : js) (offset : Z) : res (option (Z * Z * Z)) :=
  if negb (js_sane ddip) || negb (j_size ddip =? 1) then Ok None
  else
    ret <- js_notmatch_offset numdotq ddip offset ;;
    if (ret =? JS_ERROR) || (ret =? offset) then Ok None
    else if js_length ddip <? offset + 1 then Ok None
    else
      ip <- ip_loop 4 ddip 0 offset 0 ;;
      match ip with
      | None => Ok None
      | Some ip =>
          slash <- js_match_offset slashq ddip offset ;;
          if negb (slash =? ret) || (slash =? -2) then Ok (Some (ip, 4294967295, ret))
          else
            let slashp := ret in
            dot <- js_match_offset dotq ddip (slashp + 1) ;;
            if dot =? JS_ERROR then Ok None
            else
              offset <- js_notmatch_offset numdotq ddip (slashp + 1) ;;
              if offset =? JS_ERROR then Ok None
              else if (dot =? -2) || ((offset <? dot) && negb (offset =? -2)) then
                n <- js_atoi ddip (slashp + 1) ;;
                if (n <? 0) || (32 <? n) then Ok None
                else
                  mask <- rd masks n ;;
                  Ok (Some (ip, mask, if u32 (offset + 1) <? j_count ddip then offset + 1 else -2))
              else
                m <- mask_loop 4 ddip 0 (slashp + 1) 0 ;;
                Ok (match m with Some (mask, r) => Some (ip, mask, r) | None => None end)
      end.

(** MaraDns.h 167-170, ipv4pair. *)
Notation ippair := (Z * Z)%type.
Definition END_IP : Z := 4294967295.

(** ParseIpAcl.c 305-307 (only spaces) and 328-331: [start] moves over leading white space. *)
Fixpoint skip_lead (n : nat) (tabs : bool) (mem : list Z) (start nx : Z) : res Z :=
  match n with
  | O => Bad NoFuel
  | S n =>
      if start <? nx then
        b <- rd mem start ;;
        if (b =? 32) || (tabs && (b =? 9)) then skip_lead n tabs mem (start + 1) nx else Ok start
      else Ok start
  end.
(** ParseIpAcl.c 309-318 and 333-343: [nx] moves back over trailing white space (and commas).  The
    test for a tab looks at [start], not at [nx]. *)
Fixpoint skip_trail (n : nat) (comma : bool) (mem : list Z) (start nx : Z) : res Z :=
  match n with
  | O => Bad NoFuel
  | S n =>
      if start <? nx then
        b <- rd mem nx ;; s <- rd mem start ;;
        if (b =? 32) || (s =? 9) || (comma && (b =? 44)) then skip_trail n comma mem start (nx - 1) else Ok nx
      else Ok nx
  end.

(** ParseIpAcl.c 364-371, to the end of the list; [None]: the index is not below [max]. *)
Fixpoint find_end (l : list ippair) (index : nat) (max : Z) : res (option nat) :=
  if Z.of_nat index <? max then
    match l with
    | [] => Bad OutOfBounds
    | (ip, _) :: l => if ip =? END_IP then Ok (Some index) else find_end l (S index) max
    end
  else Ok None.
Fixpoint set_pair (l : list ippair) (i : nat) (p : ippair) : list ippair :=
  match l, i with [], _ => [] | _ :: l, O => p :: l | x :: l, S i => x :: set_pair l i p end.

Section Acl.
(** The aliases of the configuration (read_dvar of "ipv4_alias", ParseMaraRc.c 472-509, a lookup in
    a table of ModelMaraHash), by the octets of the key. *)
Variable alias : list Z -> option js.
Variable J : Z -> Z.

Definition fresh (cap enc : Z) : option js := match js_create J cap 1 with Some s => Some (snd (js_set_encode s enc)) | None => None end.

(** ParseIpAcl.c 350-377: what happens to one item; [rec] is the recursive call.  [None] on error,
    when the callers end the program; the list as it is then is left out.  The index is looked for
    from the beginning of the list each time, which finds the same place. *)
Definition acl_item (rec : js -> list ippair -> res (option (list ippair))) (sub value : js) (max : Z) (out : list ippair) : res (option (list ippair)) :=
  ' (isalias, value) <- (match alias (zslice (j_mem sub) 0 (j_count sub)) with
                         | Some place => ' (r, value) <- js_copy place value ;; Ok (negb (r =? JS_ERROR), value)
                         | None => Ok (false, value)
                         end) ;;
  if isalias : bool then rec value out
  else
    i <- find_end out 0 max ;;
    match i with
    | None => Ok None
    | Some i =>
        o <- ddip_ip_mask sub 0 ;;
        Ok (match o with Some (ip, mask, _) => Some (set_pair out i (ip, mask)) | None => None end)
    end.

(** ParseIpAcl.c 293-378, the loop of make_ip_acl. *)
Fixpoint acl_loop (n : nat) (rec : js -> list ippair -> res (option (list ippair))) (in_ : js) (max next : Z) (out : list ippair) : res (option (list ippair)) :=
  match n with
  | O => Bad NoFuel
  | S n =>
      let start := next + 1 in
      next <- js_match_offset (const_str [44] 7 1) in_ start ;;
      if next =? JS_ERROR then Ok None
      else
        let last := next =? -2 in
        let nx := if last then j_count in_ - 1 else next in
        start <- skip_lead (Z.to_nat (j_count in_ + 2)) (negb last) (j_mem in_) start nx ;;
        nx <- skip_trail (Z.to_nat (j_count in_ + 2)) (negb last) (j_mem in_) start nx ;;
        match fresh 256 3, fresh 512 3 with
        | Some sub, Some value =>
            ' (r, sub) <- js_substr in_ sub start (nx + 1 - start) ;;
            if r =? JS_ERROR then Ok None
            else
              o <- acl_item rec sub value max out ;;
              match o with
              | None => Ok None
              | Some out => if last then Ok (Some out) else acl_loop n rec in_ max next out
              end
        | _, _ => Ok None
        end
  end.

(** ParseIpAcl.c 258-384, make_ip_acl; [n] is 33 - depth.  ([sub] and [value] are made anew for each
    item here; their old contents are overwritten before they are used.) *)
Fixpoint make_ip_acl (n : nat) (in_ : js) (max : Z) (out : list ippair) : res (option (list ippair)) :=
  match n with
  | O => Ok None
  | S n =>
      if negb (js_sane in_) then Ok None
      else if negb (j_size in_ =? 1) then Ok None
      else acl_loop (Z.to_nat (j_count in_ + 2)) (fun v out => make_ip_acl n v max out) in_ max (-1) out
  end.
End Acl.

(** MaraDNS.c 2392-2405, check_ipv4_acl; lists have 512 elements. *)
Fixpoint check_loop (l : list ippair) (counter : Z) (ip : Z) : res Z :=
  if counter <? 500 then
    match l with
    | [] => Bad OutOfBounds
    | (a, m) :: l => if a =? END_IP then Ok 0 else if Z.land ip m =? Z.land a m then Ok 1 else check_loop l (counter + 1) ip
    end
  else Ok 0.
Definition check_ipv4_acl (ip : Z) (l : list ippair) : res Z := check_loop l 0 ip.
