(** Model of ip6Parse, coLunacyDNS/coLunacyDNS.c 241-359, called with a length of -1 (as all of
    its callers do, lines 600, 1303, 2201): [m] is the memory of the string, which ends with
    an octet 0.  What counts as a digit does not depend on whether [char] is signed. *)
From Verif Require Import CBase.

(** Lines 242-251: the variables of the first pass. *)
Record pass1 := mkp1 { p1_after : Z; p1_double : Z; p1_colons : Z; p1_last : Z; p1_index : Z }.
(** The result of a pass: a code returned, or the variables after it. *)
Inductive outcome (A : Type) := Return (code : Z) | Go (st : A).
Arguments Return {A}. Arguments Go {A}.

(** Lines 259-272; [n] is how often it can still go round. *)
Fixpoint first_pass (n : nat) (m : list Z) (st : pass1) : res (outcome pass1) :=
  c <- rd m (p1_index st) ;;
  if negb ((negb (c =? 0)) && (p1_index st <? 100)) then Ok (Go st)
  else
    match n with
    | O => Bad NoFuel
    | S n =>
        let again := (p1_last st =? 58) && (c =? 58) in
        if again && negb (p1_double st =? -1) then Ok (Return (- (p1_index st + 1)))
        else
          let double := if again then p1_index st else p1_double st in
          let after := if negb (p1_last st =? 58) && (c =? 58) && negb (double =? -1) then p1_after st + 1 else p1_after st in
          let colons := if c =? 58 then p1_colons st + 1 else p1_colons st in
          first_pass n m (mkp1 after double colons c (p1_index st + 1))
    end.

(** Lines 290-300: the value of a digit; [None] if there is none but the octet is allowed. *)
Definition hex_digit (c colons : Z) : outcome (option Z) :=
  if (48 <=? c) && (c <=? 57) then Go (Some (c - 48))
  else if (c =? 95) && (colons =? 0) then Go (Some 0)
  else if (97 <=? c) && (c <=? 102) then Go (Some (c + 10 - 97))
  else if (65 <=? c) && (c <=? 70) then Go (Some (c + 10 - 65))
  else if negb (c =? 58) && negb (c =? 45) && negb (c =? 32) then Return 0
  else Go None.

(** The variables of the second pass. *)
Record pass2 := mkp2 { p2_quad : Z; p2_out : Z; p2_current : Z; p2_digits : Z; p2_hex : Z; p2_ip : list Z; p2_index : Z }.

(** Lines 302-354, once round: [c] is the octet, [next] the one after it. *)
Definition second_step (after double colons : Z) (c next : Z) (st : pass2) : res (outcome pass2) :=
  match hex_digit c colons with
  | Return _ => Ok (Return (- (p2_index st + 1)))
  | Go hex =>
      let seen := match hex with Some _ => true | None => false end in
      let quad := match hex with Some h => u16 (u16 (Z.shiftl (p2_quad st) 4) + h) | None => p2_quad st end in
      let digits := if seen then p2_digits st + 1 else p2_digits st in
      if seen && (digits =? 5) && negb (colons =? 0) then Ok (Return (-261))
      else
        let count := if seen then p2_hex st + 1 else p2_hex st in
        let digits := if (c =? 58) && negb (p2_index st =? double) && negb (digits =? 0) && negb (digits =? 4) then 8 else digits in
        let digits := if (c =? 58) && negb (p2_index st =? double) && (digits =? 4) then 0 else digits in
        let here := (c =? 58) && (p2_index st =? double) in
        if here && (negb (quad =? 0) || negb (digits =? 0)) then Ok (Return (-258))
        else if here && (8 <=? p2_current st + after) then Ok (Return (-259))
        else
          let current := if here then 8 - after else p2_current st in
          if here && (current <? 0) then Ok (Return (-259))
          else
            let out := if here then current * 2 else p2_out st in
            let index := p2_index st + 1 in
            if ((digits =? 4) && seen) || (digits =? 8) || (next =? 0) then
              if 16 <=? out + 1 then Ok (Return (-257))
              else
                ip <- wr (p2_ip st) (out + 1) (Z.land quad 255) ;;
                ip <- wr ip out (Z.shiftr quad 8) ;;
                Ok (Go (mkp2 0 (out + 2) (current + 1) (if digits =? 8 then 0 else digits) count ip index))
            else Ok (Go (mkp2 quad out current digits count (p2_ip st) index))
  end.
(** Lines 287-355. *)
Fixpoint second_pass (n : nat) (after double colons : Z) (m : list Z) (st : pass2) : res (outcome pass2) :=
  c <- rd m (p2_index st) ;;
  if negb ((negb (c =? 0)) && (p2_index st <? 100)) then Ok (Go st)
  else
    match n with
    | O => Bad NoFuel
    | S n =>
        next <- rd m (p2_index st + 1) ;;
        r <- second_step after double colons c next st ;;
        match r with Return k => Ok (Return k) | Go st => second_pass n after double colons m st end
    end.

(** Lines 279-282. *)
Fixpoint clear (n : nat) (i : Z) (ip : list Z) : res (list Z) :=
  match n with O => Ok ip | S n => ip <- wr ip i 0 ;; clear n (i + 1) ip end.

(** The whole; [ip6] is the caller's array.  The result: the code and the array. *)
Definition ip6Parse (m : list Z) (ip6 : list Z) : res (Z * list Z) :=
  r <- first_pass 100 m (mkp1 1 (-1) 0 0 0) ;;
  match r with
  | Return k => Ok (k, ip6)
  | Go f =>
      if (p1_last f =? 58) && negb (p1_double f =? p1_index f - 1) then Ok (-263, ip6)
      else if 100 <=? p1_index f then Ok (-256, ip6)
      else
        ip6 <- clear 16 0 ip6 ;;
        r <- second_pass 100 (p1_after f) (p1_double f) (p1_colons f) m (mkp2 0 0 0 0 0 ip6 0) ;;
        match r with
        | Return k => Ok (k, ip6)   (* the array may have changed: not of interest after an error *)
        | Go st =>
            if 100 <=? p2_index st then Ok (-256, p2_ip st)
            else if (p1_colons f =? 0) && negb (p2_hex st =? 32) then Ok (-260, p2_ip st)
            else if negb (p1_colons f =? 0) && negb (p2_current st =? 8) then Ok (-262, p2_ip st)
            else Ok (1, p2_ip st)
        end
  end.
