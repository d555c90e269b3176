(** Model of deadwood-github/src/DwRadioGatun.c, the random number generator, with words of 32
    bits (DwRadioGatun.h 24-34).  Running out of memory is not modelled. *)
From Verif Require Import CBase SpecDwStr ModelDwStr.

Definition DWR_WORDSIZE : Z := 32.
Definition DWR_MILLSIZE : Z := 19.
Definition DWR_BELTROWS : Z := 3.
Definition DWR_BELTCOL : Z := 13.
Definition DWR_BELTFEED : Z := 12.

(** DwRadioGatun.h 37-41, dwr_rg. *)
Record dwr_rg := mkrg { rg_mill : list Z; rg_belt : list Z; rg_index : Z }.

(** [for(i = from; i < from + n; i++)]. *)
Fixpoint loop {S : Type} (n : nat) (i : Z) (body : Z -> S -> res S) (st : S) : res S :=
  match n with O => Ok st | S n => st <- body i st ;; loop n (i + 1) body st end.

(** Operations on uint32_t: [x ^ y]; [x ^ (y | ~z)] (line 60); the rotation of lines 62-66. *)
Definition xor32 (x y : Z) : Z := Z.lxor x y.
Definition gamma32 (x y z : Z) : Z := Z.lxor x (Z.lor y (u32 (Z.lnot z))).
Definition rotate32 (x r : Z) : Z :=
  if (0 <? r) && (r <? DWR_WORDSIZE) then Z.lor (Z.shiftr x r) (u32 (Z.shiftl x (DWR_WORDSIZE - r))) else x.

(** Lines 44-55: the belt is shifted; [q] is what was at the end of each row.  The inner loop
    runs downwards: [v] is never negative, since [i] is positive. *)
Fixpoint shift_row (i : nat) (s : Z) (b : list Z) : res (list Z) :=
  match i with
  | O => Ok b
  | S v => x <- rd b (s * DWR_BELTCOL + Z.of_nat v) ;; b <- wr b (s * DWR_BELTCOL + Z.of_nat i) x ;; shift_row v s b
  end.
Definition shift_belt (s : Z) (st : list Z * list Z) : res (list Z * list Z) :=
  let '(q, b) := st in
  x <- rd b (s * DWR_BELTCOL + DWR_BELTCOL - 1) ;;
  q <- wr q s x ;;
  b <- shift_row 12 s b ;;
  x <- rd q s ;;
  b <- wr b (s * DWR_BELTCOL) x ;;
  Ok (q, b).
(** Lines 56-59. *)
Definition feed_belt (a : list Z) (i : Z) (b : list Z) : res (list Z) :=
  let s := (i + 1) + Z.rem i DWR_BELTROWS * DWR_BELTCOL in
  x <- rd b s ;; y <- rd a (i + 1) ;; wr b s (xor32 x y).
(** Lines 60-70. *)
Definition mill_gamma (a : list Z) (i : Z) (A : list Z) : res (list Z) :=
  let y := Z.rem (i * 7) DWR_MILLSIZE in
  let r := Z.rem (i * (i + 1) / 2) DWR_WORDSIZE in
  x <- rd a y ;; x1 <- rd a (Z.rem (y + 1) DWR_MILLSIZE) ;; x2 <- rd a (Z.rem (y + 2) DWR_MILLSIZE) ;;
  wr A i (rotate32 (gamma32 x x1 x2) r).
(** Lines 71-76. *)
Definition mill_theta (A : list Z) (i : Z) (a : list Z) : res (list Z) :=
  x <- rd A i ;; y <- rd A (Z.rem (i + 1) DWR_MILLSIZE) ;; z <- rd A (Z.rem (i + 4) DWR_MILLSIZE) ;;
  wr a i (xor32 (xor32 x y) z).
(** Lines 78-80. *)
Definition feed_mill (q : list Z) (i : Z) (a : list Z) : res (list Z) :=
  x <- rd a (i + DWR_BELTCOL) ;; y <- rd q i ;; wr a (i + DWR_BELTCOL) (xor32 x y).

(** Lines 34-81, dwr_beltmill.  [J]: what the arrays on the stack hold at first. *)
Definition dwr_beltmill (J : Z -> Z) (a b : list Z) : res (list Z * list Z) :=
  ' (q, b) <- loop 3 0 shift_belt (mkjunk J DWR_BELTROWS, b) ;;
  b <- loop 12 0 (feed_belt a) b ;;
  A <- loop 19 0 (mill_gamma a) (mkjunk J DWR_MILLSIZE) ;;
  a <- loop 19 0 (mill_theta A) a ;;
  x <- rd a 0 ;; a <- wr a 0 (xor32 x 1) ;;
  a <- loop 3 0 (feed_mill q) a ;;
  Ok (a, b).

(** Lines 99-128, dwr_new: room for one word more than is used. *)
Definition dwr_new (J : Z -> Z) : res dwr_rg :=
  a <- loop 19 0 (fun q a => wr a q 0) (mkjunk J (DWR_MILLSIZE + 1)) ;;
  b <- loop 39 0 (fun q b => wr b q 0) (mkjunk J (DWR_BELTROWS * DWR_BELTCOL + 1)) ;;
  Ok (mkrg a b 0).

(** Lines 130-134, dwr_input_map. *)
Definition input_word (p : list Z) (c : Z) (st : list Z * list Z) : res (list Z * list Z) :=
  let '(a, b) := st in
  y <- rd p c ;;
  x <- rd b (c * 13) ;; b <- wr b (c * 13) (xor32 x y) ;;
  x <- rd a (16 + c) ;; a <- wr a (16 + c) (xor32 x y) ;;
  Ok (a, b).
Definition dwr_input_map (J : Z -> Z) (p : list Z) (a b : list Z) : res (list Z * list Z) :=
  ' (a, b) <- loop 3 0 (input_word p) (a, b) ;; dwr_beltmill J a b.

(** Line 171: [p[r] |= x << q], [x] being an int.  Shifting a bit into the sign is undefined;
    [strict] says whether that counts as a fault or as what compilers make of it. *)
Definition or_byte (strict : bool) (p x q : Z) : res Z :=
  if strict && (2147483648 <=? Z.shiftl x q) then Bad SignedOverflow else Ok (Z.lor p (u32 (Z.shiftl x q))).

(** Lines 160-183: the two inner loops take up to twelve octets.  [n] is how many of them are
    left, [12 - n] is 4 * r + q / 8.  The result: [true] if the key has ended. *)
Fixpoint take_block (strict : bool) (n : nat) (obj : dwstr) (p : list Z) (index : Z) : res (bool * list Z * Z) :=
  match n with
  | O => Ok (false, p, index)
  | S n' =>
      let k := 12 - Z.of_nat n in
      x <- rd (d_mem obj) index ;;
      let index := index + 1 in
      let x := Z.land x 255 in
      let ended := d_len obj <? index in
      let x := if ended then 1 else x in
      w <- rd p (k / 4) ;;
      w <- or_byte strict w x (k mod 4 * 8) ;;
      p <- wr p (k / 4) w ;;
      if ended then Ok (true, p, index) else take_block strict n' obj p index
  end.

(** Lines 158-187: [n] is more than the number of blocks of a string that fits in memory;
    [None] is NULL (line 188). *)
Fixpoint absorb (strict : bool) (J : Z -> Z) (n : nat) (counter : Z) (obj : dwstr) (index : Z) (a b : list Z) : res (option dwr_rg) :=
  match n with
  | O => Bad NoFuel
  | S n =>
      if negb (counter <? 16777218) then Ok None
      else
        ' (ended, p, index) <- take_block strict 12 obj [0; 0; 0] index ;;
        ' (a, b) <- dwr_input_map J p a b ;;
        if ended then
          ' (a, b) <- loop 16 0 (fun _ '(a, b) => dwr_beltmill J a b) (a, b) ;;
          Ok (Some (mkrg a b 0))
        else absorb strict J n (counter + 1) obj index a b
  end.
(** Lines 138-189, dwr_init_rg. *)
Definition dwr_init_rg (strict : bool) (J : Z -> Z) (obj : dwstr) : res (option dwr_rg) :=
  if negb (dw_sane obj) then Ok None
  else
    rg <- dwr_new J ;;
    absorb strict J (S (length (d_mem obj))) 0 obj 0 (rg_mill rg) (rg_belt rg).

(** Lines 192-221, dwr_rng, not NULL. *)
Definition dwr_rng (J : Z -> Z) (g : dwr_rg) : res (Z * dwr_rg) :=
  let index := if 100000000 <=? rg_index g then 0 else rg_index g in
  if Z.rem index 4 =? 0 then
    ' (a, b) <- dwr_beltmill J (rg_mill g) (rg_belt g) ;;
    o0 <- rd a 1 ;;
    Ok (u16 (Z.lor (u32 (Z.shiftl (Z.land o0 255) 8)) (Z.shiftr (Z.land o0 65280) 8)), mkrg a b (index + 1))
  else
    let index := index + 1 in
    let g := mkrg (rg_mill g) (rg_belt g) index in
    let c := Z.rem index 4 in
    if c =? 2 then
      o <- rd (rg_mill g) 1 ;; Ok (u16 (Z.lor (Z.shiftr (Z.land o 16711680) 8) (Z.shiftr (Z.land o 4278190080) 24)), g)
    else if c =? 3 then
      o <- rd (rg_mill g) 2 ;; Ok (u16 (Z.lor (u32 (Z.shiftl (Z.land o 255) 8)) (Z.shiftr (Z.land o 65280) 8)), g)
    else if c =? 0 then
      o <- rd (rg_mill g) 2 ;; Ok (u16 (Z.lor (Z.shiftr (Z.land o 16711680) 8) (Z.shiftr (Z.land o 4278190080) 24)), g)
    else Ok (0, g).
(** [n] numbers drawn one after the other. *)
Fixpoint draws (J : Z -> Z) (n : nat) (g : dwr_rg) : res (list Z * dwr_rg) :=
  match n with
  | O => Ok ([], g)
  | S n => ' (x, g) <- dwr_rng J g ;; ' (l, g) <- draws J n g ;; Ok (x :: l, g)
  end.
