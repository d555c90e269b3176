(** Model of Deadwood's block list: the offline compiler
    deadwood-github/tools/blockhash/blockHashMake.c and the reader
    deadwood-github/src/DwBlockHash.c, with the hash of
    deadwood-github/src/DwHalfSipHash.c. *)
From Verif Require Import CBase.

(** ** HalfSip13 : DwHalfSipHash.c 23-85 (and the identical text in
    blockHashMake.c 56-118, where the two keys are globals). *)

(** (v << n) | (v >> (32-n)) on uint32_t. *)
Definition rotl32 (v n : Z) : Z :=
  Z.lor (u32 (Z.shiftl v n)) (Z.shiftr v (32 - n)).

Record sipst := { sv0 : Z; sv1 : Z; sv2 : Z; sv3 : Z }.

(** DwHalfSipHash.c 50-61 (also 71-82): one round. *)
Definition hs_round (s : sipst) : sipst :=
  let v0 := sv0 s in let v1 := sv1 s in let v2 := sv2 s in let v3 := sv3 s in
  let v0 := u32 (v0 + v1) in
  let v1 := rotl32 v1 5 in
  let v1 := Z.lxor v1 v0 in
  let v0 := rotl32 v0 16 in
  let v2 := u32 (v2 + v3) in
  let v3 := rotl32 v3 8 in
  let v3 := Z.lxor v3 v2 in
  let v0 := u32 (v0 + v3) in
  let v3 := rotl32 v3 7 in
  let v3 := Z.lxor v3 v0 in
  let v2 := u32 (v2 + v1) in
  let v1 := rotl32 v1 13 in
  let v1 := Z.lxor v1 v2 in
  let v2 := rotl32 v2 16 in
  {| sv0 := v0; sv1 := v1; sv2 := v2; sv3 := v3 |}.

(** DwHalfSipHash.c 48-63: absorb one word. *)
Definition hs_absorb (s : sipst) (m : Z) : sipst :=
  let s := {| sv0 := sv0 s; sv1 := sv1 s; sv2 := sv2 s; sv3 := Z.lxor (sv3 s) m |} in
  let s := hs_round s in
  {| sv0 := Z.lxor (sv0 s) m; sv1 := sv1 s; sv2 := sv2 s; sv3 := sv3 s |}.

(** DwHalfSipHash.c 37-68: the loop [while(offset <= l)].  [str] is the list of
    the [l] bytes of the argument still to be read, so [offset == l] exactly when
    it is empty; [m], [shift] are the C variables.  The inner [while] runs its body
    at most once per outer iteration: after one run [shift] is 0 and, if
    [offset == l] held, [offset] has become [l+1]. *)
Fixpoint hs_loop (str : list Z) (l : Z) (m shift : Z) (s : sipst) : sipst :=
  match str with
  | b :: rest =>
      let m := Z.lor m (u32 (Z.shiftl (Z.land b 255) shift)) in
      let shift := shift + 8 in
      if 32 <=? shift then hs_loop rest l 0 0 (hs_absorb s m)
      else hs_loop rest l m shift s
  | [] => hs_absorb s (Z.lor m (u32 (Z.shiftl (Z.land l 255) 24)))
  end.

Definition halfsip13 (str : list Z) (k1 k2 : Z) : Z :=
  let s := {| sv0 := k1; sv1 := k2; sv2 := Z.lxor k1 1819895653;
              sv3 := Z.lxor k2 1952801890 |} in
  let s := hs_loop str (zlen str) 0 0 s in
  let s := {| sv0 := sv0 s; sv1 := sv1 s; sv2 := Z.lxor (sv2 s) 255; sv3 := sv3 s |} in
  let s := hs_round (hs_round (hs_round s)) in
  Z.lxor (sv1 s) (sv3 s).

(** ** The reader: DwBlockHash.c *)

(** DwBlockHash.h 20-26.  [bh_block] holds the bytes read from the file; the
    allocation has 3 further bytes (DwBlockHash.c 115) which are uninitialised, so a
    read past [bh_block] is [Bad]. *)
Record blockhash := {
  bh_block : list Z; bh_max : Z; bh_key1 : Z; bh_key2 : Z; bh_size : Z }.

(** DwBlockHash.c 35-45. *)
Definition dbh_read32 (block : list Z) (offset max : Z) : res Z :=
  if max <=? u32 (offset + 3) then Ok 0
  else
    a <- rd block offset ;;
    b <- rd block (offset + 1) ;;
    c <- rd block (offset + 2) ;;
    d <- rd block (offset + 3) ;;
    Ok (Z.lor (Z.lor (Z.lor (u32 (Z.shiftl a 24)) (Z.shiftl (Z.land b 255) 16))
                     (Z.shiftl (Z.land c 255) 8)) d).

(** DwBlockHash.c 86-95: the byte-comparison loop.  [str] is what is left of the
    query string; the result is the [stringLen] left when the loop ends and the
    new [offset]. *)
Fixpoint dbh_cmp (block str : list Z) (offset strend stringLen : Z) : res (Z * Z) :=
  match str with
  | [] => Ok (stringLen, offset)
  | c :: rest =>
      b <- rd block offset ;;
      if negb (b =? c) then Ok (stringLen, strend)
      else dbh_cmp block rest (u32 (offset + 1)) strend (stringLen - 1)
  end.

(** DwBlockHash.c 66-99: the chain walk. *)
Fixpoint dbh_walk (fuel : nat) (block : list Z) (max : Z) (str : list Z) (offset : Z)
  : res Z :=
  match fuel with
  | O => Bad NoFuel
  | S fuel =>
    if negb (offset <? max) then Ok (-1)
    else
      hi <- rd block offset ;;
      if hi =? 255 then Ok 0
      else
        let offset := u32 (offset + 1) in
        if u32 (max - 1) <=? offset then Ok (-1)
        else
          lo <- rd block offset ;;
          let stringLen := Z.lor (Z.shiftl hi 8) lo in
          if (stringLen <? 0) || (65280 <? stringLen) then Ok (-1)
          else
            let offset := u32 (offset + 1) in
            let strend := u32 (offset + stringLen) in
            if max <? strend then Ok (-1)
            else if negb (stringLen =? zlen str) then
              dbh_walk fuel block max str strend
            else
              '(remaining, offset) <- dbh_cmp block str offset strend stringLen ;;
              if remaining =? 0 then Ok 1
              else dbh_walk fuel block max str offset
  end.

(** DwBlockHash.c 51-101.  [str] is the query string ([len] = its length). *)
Definition dbh_has_string (b : blockhash) (str : list Z) : res Z :=
  let len := zlen str in
  if (len <? 0) || (65280 <? len) then Ok (-1)
  else if bh_size b =? 0 then Bad DivZero
  else
    let bucket := halfsip13 str (bh_key1 b) (bh_key2 b) mod bh_size b in
    offset <- dbh_read32 (bh_block b) (u32 (16 + u32 (4 * bucket))) (bh_max b) ;;
    if offset =? 0 then Ok 0
    else if u32 (bh_max b - 1) <=? offset then Ok (-1)
    else dbh_walk (S (length (bh_block b))) (bh_block b) (bh_max b) str offset.

(** DwBlockHash.c 104-137; [file] is the contents of the file.  The error numbers
    of the C code are dropped (all are [Fail]).  [out->max] is the file size
    truncated to 32 bits; read(2) never transfers more than 0x7ffff000 bytes on
    Linux, so line 123 fails for anything longer.  hashSize is an int32_t but is only
    used in unsigned expressions (lines 57-58 and 133). *)
Definition dbh_make_block_hash (file : list Z) : res blockhash :=
  let max := u32 (zlen file) in
  if max <? 16 then Fail
  else if 2147479552 <? max then Fail
  else
    let block := zslice file 0 max in
    b0 <- rd block 0 ;; b1 <- rd block 1 ;; b2 <- rd block 2 ;; b3 <- rd block 3 ;;
    if negb (b0 =? 0) || negb (b1 =? 68) || negb (b2 =? 119) || negb (b3 =? 66)
    then Fail
    else
      k1 <- dbh_read32 block 4 max ;;
      k2 <- dbh_read32 block 8 max ;;
      hs <- dbh_read32 block 12 max ;;
      if max <? hs then Fail
      else Ok {| bh_block := block; bh_max := max; bh_key1 := k1; bh_key2 := k2;
                 bh_size := hs |}.

(** ** Use of the list: DwUdpSocket.c 780-820.
    [query] is the (lower-cased) name followed by the 2-byte type. *)

(** DwUdpSocket.c 789-796: find the start of the last, last-but-one and
    last-but-two labels. *)
Fixpoint bl_labels (fuel : nat) (query : list Z) (point l1 l2 l3 : Z)
  : res (Z * Z * Z) :=
  match fuel with
  | O => Bad NoFuel
  | S fuel =>
    if negb (point <? zlen query - 2) then Ok (l1, l2, l3)
    else
      len <- rd query point ;;
      if (len <? 1) || (63 <? len) then Ok (l1, l2, l3)
      else bl_labels fuel query (point + len + 1) point l1 l2
  end.

Definition bl_try (b : blockhash) (query : list Z) (label : Z) : res bool :=
  if (0 <? label) && (label <? zlen query - 2) then
    r <- dbh_has_string b (zslice query label (zlen query - label - 2)) ;;
    Ok (r =? 1)
  else Ok false.

Definition in_blocked_hosts (b : blockhash) (query : list Z) : res bool :=
  if negb (2 <? zlen query) then Ok false
  else
    r <- dbh_has_string b (zslice query 0 (zlen query - 2)) ;;
    if r =? 1 then Ok true
    else
      '(l1, l2, l3) <- bl_labels (S (length query)) query 0 0 0 0 ;;
      t1 <- bl_try b query l1 ;;
      if t1 then Ok true else
      t2 <- bl_try b query l2 ;;
      if t2 then Ok true else
      bl_try b query l3.

(** ** The compiler: blockHashMake.c *)

(** One fgets(line+1, 1010, inp): at most 1009 bytes, up to and including a newline.
    Returns the bytes stored and the rest of the input. *)
Fixpoint bm_fgets (n : nat) (inp : list Z) : list Z * list Z :=
  match n, inp with
  | O, _ => ([], inp)
  | _, [] => ([], [])
  | S n, c :: rest =>
      if c =? 10 then ([c], rest)
      else let (l, r) := bm_fgets n rest in (c :: l, r)
  end.

(** strlen: up to the first NUL. *)
Fixpoint bm_cstr (l : list Z) : list Z :=
  match l with
  | [] => []
  | c :: rest => if c =? 0 then [] else c :: bm_cstr rest
  end.

(** blockHashMake.c 191-235, readFile.  Each line is kept with one space in front; lines
    whose first character is '#' are dropped; fgets returns NULL at end of input.
    strncpy/strlen stop at an embedded NUL.  Allocation failures not modelled. *)
Fixpoint bm_read_file (fuel : nat) (inp : list Z) : res (list (list Z)) :=
  match fuel with
  | O => Bad NoFuel
  | S fuel =>
    match inp with
    | [] => Ok []
    | _ =>
      let (line, rest) := bm_fgets 1009 inp in
      more <- bm_read_file fuel rest ;;
      if hd 0 line =? 35 then Ok more
      else Ok (bm_cstr (32 :: line) :: more)
    end
  end.

(** blockHashMake.c 128-161, dnsConvertString, which converts in place.
    [dns_convert_loop] is the [for] loop; it returns the buffer and either the early
    return value or the final [dnsPoint]. *)
Fixpoint bm_dns_loop (fuel : nat) (len : Z) (str : list Z) (counter dnsPoint : Z)
  : res (list Z * (Z + Z)) :=
  match fuel with
  | O => Bad NoFuel
  | S fuel =>
    if negb (counter <? len) then Ok (str, inr dnsPoint)
    else if (len <=? dnsPoint) || (len <=? counter) then Ok (str, inl 0)
    else
      c <- rd str counter ;;
      str <- (if (c <=? 90) && (65 <=? c) then wr str counter (c + 32) else Ok str) ;;
      c <- rd str counter ;;
      if (c =? 46) || (c =? 10) || (c =? 32) || (c =? 13) then
        let dnsLength := counter - dnsPoint - 1 in
        if (0 <=? dnsLength) && (dnsLength <? 64) then
          str <- wr str dnsPoint dnsLength ;;
          if dnsLength =? 0 then Ok (str, inl (dnsPoint + 1))
          else bm_dns_loop fuel len str (counter + 1) counter
        else Ok (str, inl 0)
      else bm_dns_loop fuel len str (counter + 1) dnsPoint
  end.

Definition bm_dns_convert_string (str : list Z) : res (list Z * Z) :=
  let len := zlen str in
  if 1040 <? len then Ok (str, 0)
  else
    '(str, r) <- bm_dns_loop (S (length str)) len str 1 0 ;;
    match r with
    | inl ret => Ok (str, ret)
    | inr dnsPoint =>
        let dnsLength := Z.max 1 len - dnsPoint - 1 in
        str <- (if (0 <=? dnsLength) && (dnsLength <? 64)
                then wr str dnsPoint dnsLength else Ok str) ;;
        Ok (str, len)
    end.

(** blockHashMake.c 165-176, dnsConvertChain: a positive return value becomes the new length
    (the element is then the first [len] bytes of the buffer); otherwise the length stays. *)
Fixpoint bm_dns_convert_chain (l : list (list Z)) : res (list (list Z)) :=
  match l with
  | [] => Ok []
  | s :: rest =>
      '(str, n) <- bm_dns_convert_string s ;;
      more <- bm_dns_convert_chain rest ;;
      Ok ((if 0 <? n then zslice str 0 n else str) :: more)
  end.

(** blockHashMake.c 314-352, fillHash.  A bucket is the list of the strings on its
    chain; [bm_chain_insert] is lines 319-348 (isSameString is 295-309): a string
    already on the chain is dropped, otherwise it goes to the end.  Its second
    component is the change to stringsTotalSize. *)
Fixpoint bm_chain_insert (s : list Z) (chain : list (list Z)) : list (list Z) * Z :=
  match chain with
  | [] => ([s], zlen s + 2)
  | p :: rest =>
      if zlist_eqb s p then (chain, 0)
      else let (r, d) := bm_chain_insert s rest in (p :: r, d)
  end.

Fixpoint bm_upd_bucket (b : list (list (list Z))) (i : nat) (c : list (list Z)) :=
  match b, i with
  | [], _ => []
  | _ :: t, O => c :: t
  | h :: t, S j => h :: bm_upd_bucket t j c
  end.

Fixpoint bm_fill_hash (k1 k2 : Z) (buf : list (list Z)) (hashSize : Z)
         (buckets : list (list (list Z))) (total : Z)
  : res (list (list (list Z)) * Z) :=
  match buf with
  | [] => Ok (buckets, total)
  | s :: rest =>
      if hashSize =? 0 then Bad DivZero
      else
        let key := halfsip13 s k1 k2 mod hashSize in
        match nth_error buckets (Z.to_nat key) with
        | None => Bad OutOfBounds
        | Some chain =>
            let (chain', d) := bm_chain_insert s chain in
            bm_fill_hash k1 k2 rest hashSize
              (bm_upd_bucket buckets (Z.to_nat key) chain') (u32 (total + d))
        end
  end.

(** blockHashMake.c 355-365. [Fail] is "return 1". *)
Definition bm_write32 (block : list Z) (number offset max : Z) : res (list Z) :=
  if max <=? u32 (offset + 3) then Fail
  else
    block <- wr block offset (u8 (Z.shiftr number 24)) ;;
    block <- wr block (offset + 1) (Z.land (Z.shiftr number 16) 255) ;;
    block <- wr block (offset + 2) (Z.land (Z.shiftr number 8) 255) ;;
    wr block (offset + 3) (Z.land number 255).

(** blockHashMake.c 368-376. *)
Definition bm_write16 (block : list Z) (number offset max : Z) : res (list Z) :=
  if max <=? u32 (offset + 1) then Fail
  else
    block <- wr block offset (u8 (Z.shiftr number 8)) ;;
    wr block (offset + 1) (Z.land number 255).

(** blockHashMake.c 380-390; returns the block and the new maxOffset. *)
Definition bm_write_term (block : list Z) (offset max maxOffset : Z) : res (list Z * Z) :=
  if max <=? offset then Fail
  else
    block <- wr block offset 255 ;;
    Ok (block, if maxOffset <? offset then offset else maxOffset).

(** blockHashMake.c 392-402. *)
Fixpoint bm_write_bytes (block str : list Z) (offset : Z) : res (list Z) :=
  match str with
  | [] => Ok block
  | c :: rest => block <- wr block offset c ;; bm_write_bytes block rest (offset + 1)
  end.

Definition bm_write_string (block str : list Z) (offset max : Z) : res (list Z) :=
  if max <=? u32 (offset + zlen str) then Fail
  else bm_write_bytes block str offset.

(** blockHashMake.c 405-414. *)
Definition bm_write_header (block : list Z) (k1 k2 hashSize max : Z) : res (list Z) :=
  if max <? 16 then Fail
  else
    block <- wr block 0 0 ;; block <- wr block 1 68 ;;
    block <- wr block 2 119 ;; block <- wr block 3 66 ;;
    block <- bm_write32 block k1 4 max ;;
    block <- bm_write32 block k2 8 max ;;
    bm_write32 block hashSize 12 max.

(** blockHashMake.c 428-437: the loop over one chain. *)
Fixpoint bm_write_chain_loop (block : list Z) (chain : list (list Z)) (off max : Z)
  : res (list Z * Z) :=
  match chain with
  | [] => Ok (block, off)
  | s :: rest =>
      if (zlen s <? 0) || (1040 <? zlen s) then Fail
      else
        block <- bm_write16 block (zlen s) off max ;;
        let off := u32 (off + 2) in
        block <- bm_write_string block s off max ;;
        let off := u32 (off + zlen s) in
        bm_write_chain_loop block rest off max
  end.

(** blockHashMake.c 420-440, writeStringChain, and 444-461, writeOneBucket. *)
Definition bm_write_one_bucket (block : list Z) (bucket : Z) (chain : list (list Z))
           (max maxOffset : Z) : res (list Z * Z) :=
  let thisOffset := u32 (maxOffset + 1) in
  match chain with
  | [] =>
      block <- bm_write32 block 0 (u32 (16 + u32 (4 * bucket))) max ;;
      Ok (block, maxOffset)
  | _ =>
      block <- bm_write32 block thisOffset (u32 (16 + u32 (4 * bucket))) max ;;
      if max <=? thisOffset then Fail
      else
        '(block, off) <- bm_write_chain_loop block chain thisOffset max ;;
        '(block, maxOffset) <- bm_write_term block off max maxOffset ;;
        if off =? 0 then Fail else Ok (block, maxOffset)
  end.

(** blockHashMake.c 464-471. *)
Fixpoint bm_write_buckets (block : list Z) (bucket : Z) (buckets : list (list (list Z)))
         (max maxOffset : Z) : res (list Z * Z) :=
  match buckets with
  | [] => Ok (block, maxOffset)
  | chain :: rest =>
      '(block, maxOffset) <- bm_write_one_bucket block bucket chain max maxOffset ;;
      bm_write_buckets block (bucket + 1) rest max maxOffset
  end.

(** blockHashMake.c 474-491, makeBlock.  [junk] is the uninitialised memory returned by
    malloc: the model uses its first [blockMax] bytes. *)
Definition bm_make_block (buckets : list (list (list Z))) (k1 k2 total : Z)
           (junk : Z -> list Z) : res (list Z * Z) :=
  let hashSize := zlen buckets in
  let max := u32 (16 + 4 * hashSize + total + hashSize) in
  block <- bm_write_header (junk max) k1 k2 hashSize max ;;
  bm_write_buckets block 0 buckets max (u32 (16 + hashSize * 4 - 1)).

(** blockHashMake.c 540-604, main, from the standard input to the bytes of the file
    written.  [nb] is the optional "hash buckets" argument (atoi of argv[3]); [k1], [k2]
    are the keys (random or from the command line). *)
Definition block_hash_make (inp : list Z) (k1 k2 : Z) (nb : option Z)
           (junk : Z -> list Z) : res (list Z) :=
  buf <- bm_read_file (S (length inp)) inp ;;
  let size := zlen buf in
  buf <- bm_dns_convert_chain buf ;;
  let hashSize :=
    match nb with
    | None => size + Z.shiftr size 2
    | Some n => if n <? 1024 then 1024 else n
    end in
  '(buckets, total) <-
     bm_fill_hash k1 k2 buf hashSize (repeat [] (Z.to_nat hashSize)) 0 ;;
  '(block, maxOffset) <- bm_make_block buckets k1 k2 total junk ;;
  Ok (zslice block 0 (u32 (maxOffset + 1))).
