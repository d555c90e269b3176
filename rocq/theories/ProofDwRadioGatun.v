(** DwRadioGatun.c computes the rounds of SpecRadioGatun.v. *)
From Verif Require Import CBase Bits SpecDwStr ModelDwStr ProofDwStr ModelDwRadioGatun SpecRadioGatun.

Definition word (x : Z) : Prop := 0 <= x < words.
Definition wordly (s : rgstate) : Prop := (forall i, word (mill s i)) /\ (forall j r, word (belt s j r)).

(** *** Words *)
Lemma word_lxor x y : word x -> word y -> word (Z.lxor x y).
Proof.
  unfold word, words. intros Hx Hy. assert (0 <= Z.lxor x y) as H0 by (apply Z.lxor_nonneg; lia). split; [exact H0|].
  destruct (Z.eq_dec (Z.lxor x y) 0) as [->|N]; [reflexivity|]. apply Z.log2_lt_pow2; [lia|]. pose proof (Z.log2_lxor x y ltac:(lia) ltac:(lia)).
  assert (forall z, 0 <= z < 2 ^ 32 -> Z.log2 z < 32) as L. { intros z Hz. destruct (Z.eq_dec z 0) as [->|]; [reflexivity|]. apply Z.log2_lt_pow2; lia. }
  pose proof (L x Hx). pose proof (L y Hy). lia.
Qed.
Lemma word_lor x y : word x -> word y -> word (Z.lor x y).
Proof.
  unfold word, words. intros Hx Hy. assert (0 <= Z.lor x y) as H0 by (apply Z.lor_nonneg; lia). split; [exact H0|].
  destruct (Z.eq_dec (Z.lor x y) 0) as [->|N]; [reflexivity|]. apply Z.log2_lt_pow2; [lia|]. pose proof (Z.log2_lor x y ltac:(lia) ltac:(lia)).
  assert (forall z, 0 <= z < 2 ^ 32 -> Z.log2 z < 32) as L. { intros z Hz. destruct (Z.eq_dec z 0) as [->|]; [reflexivity|]. apply Z.log2_lt_pow2; lia. }
  pose proof (L x Hx). pose proof (L y Hy). lia.
Qed.
Lemma word_complement x : word x -> word (complement x).
Proof. unfold word, complement. lia. Qed.
Lemma pow_split r : 0 <= r <= 32 -> 2 ^ r * 2 ^ (32 - r) = words.
Proof. intros H. unfold words. rewrite <- Z.pow_add_r by lia. f_equal. lia. Qed.
Lemma word_rotation x r : word x -> word (rotation x r).
Proof.
  unfold rotation. cbv zeta. intros Hx. assert (0 <= r mod 32 < 32) as Hr by lia. revert Hr. generalize (r mod 32). clear r. intros r Hr. pose proof (pow_split r ltac:(lia)) as P. unfold word in *.
  pose proof (Z.pow_pos_nonneg 2 r ltac:(lia) ltac:(lia)) as P1. pose proof (Z.pow_pos_nonneg 2 (32 - r) ltac:(lia) ltac:(lia)) as P2. pose proof (Z.mod_pos_bound x (2 ^ r) P1).
  assert (x / 2 ^ r < 2 ^ (32 - r)) by (apply Z.div_lt_upper_bound; lia). assert (0 <= x / 2 ^ r) by (apply Z.div_pos; lia). rewrite <- P. nia.
Qed.
Lemma gamma32_eq x y z : word z -> gamma32 x y z = Z.lxor x (Z.lor y (complement z)).
Proof. intros H. unfold gamma32. do 2 f_equal. unfold u32, complement, word, words in *. unfold Z.lnot. lia. Qed.
Lemma rotate32_eq x r : word x -> rotate32 x (r mod 32) = rotation x r.
Proof.
  intros Hx. unfold rotate32, rotation, DWR_WORDSIZE. cbv zeta. assert (0 <= r mod 32 < 32) as Hr by lia. revert Hr. generalize (r mod 32). clear r. intros r Hr.
  destruct (Z.ltb_spec 0 r) as [H0|H0].
  2: { assert (r = 0) as -> by lia. cbn [andb]. change (2 ^ 0) with 1. rewrite Z.div_1_r, Z.mod_1_r. lia. }
  replace (r <? 32) with true by lia. cbn [andb]. pose proof (pow_split r ltac:(lia)) as P. unfold u32. change 4294967296 with words. rewrite <- P, Z.shiftr_div_pow2, Z.shiftl_mul_pow2 by lia.
  rewrite Z.mul_mod_distr_r by (apply Z.pow_nonzero; lia). rewrite Z.lor_comm, lor_add_pow2; [lia|lia|].
  unfold word in Hx. rewrite <- P in Hx. pose proof (Z.pow_pos_nonneg 2 r ltac:(lia) ltac:(lia)) as P1. split; [apply Z.div_pos; lia|apply Z.div_lt_upper_bound; lia].
Qed.

(** *** The round, with the operations of the code *)
Definition pg32 (a : Z -> Z) (i : Z) : Z := let y := (7 * i) mod 19 in rotate32 (gamma32 (a y) (a ((y + 1) mod 19)) (a ((y + 2) mod 19))) ((i * (i + 1) / 2) mod 32).
Definition th32 (a : Z -> Z) (i : Z) : Z := xor32 (xor32 (a i) (a ((i + 1) mod 19))) (a ((i + 4) mod 19)).
Definition mill32 (s : rgstate) (i : Z) : Z :=
  let m := th32 (pg32 (mill s)) i in let m := if i =? 0 then xor32 m 1 else m in if (13 <=? i) && (i <=? 15) then xor32 m (belt s 12 (i - 13)) else m.
Definition belt32 (s : rgstate) (j r : Z) : Z :=
  let b := belt s ((j - 1) mod 13) r in if (1 <=? j) && (j <=? 12) && (r =? (j - 1) mod 3) then xor32 b (mill s j) else b.
Definition tab_mill (m : Z -> Z) (ja : Z) : list Z := map (fun i => m (Z.of_nat i)) (seq 0 19) ++ [ja].
Definition tab_belt (b : Z -> Z -> Z) (jb : Z) : list Z := map (fun k => b (Z.of_nat (k mod 13)) (Z.of_nat (k / 13))) (seq 0 39) ++ [jb].
Lemma beltmill32 J m b ja jb :
  dwr_beltmill J (tab_mill m ja) (tab_belt b jb) = Ok (tab_mill (mill32 (mkst m b)) ja, tab_belt (belt32 (mkst m b)) jb).
Proof. cbv -[xor32 gamma32 rotate32]. reflexivity. Qed.

Lemma round_wordly s : wordly s -> wordly (round s).
Proof.
  intros (HM & HB).
  assert (forall i, word (gamma (mill s) i)) as G by (intros i; apply word_lxor; [apply HM|apply word_lor; [apply HM|apply word_complement, HM]]).
  assert (forall i, word (pi (gamma (mill s)) i)) as P by (intros i; apply word_rotation, G).
  assert (forall i, word (theta (pi (gamma (mill s))) i)) as T by (intros i; apply word_lxor; [apply word_lxor; apply P|apply P]).
  assert (forall i, word (iota (theta (pi (gamma (mill s)))) i)) as I0. { intros i. unfold iota. destruct (i =? 0); [apply word_lxor; [apply T|split; reflexivity || discriminate]|apply T]. }
  split.
  - intros i. cbn [round mill]. cbv zeta. destruct (_ && _); [apply word_lxor; [apply I0|apply HB]|apply I0].
  - intros j r. cbn [round belt]. cbv zeta. destruct (_ && _ && _); [apply word_lxor; [apply HB|apply HM]|apply HB].
Qed.
Lemma mill32_eq s i : wordly s -> mill32 s i = mill (round s) i.
Proof.
  intros (HM & HB). assert (forall k, pg32 (mill s) k = pi (gamma (mill s)) k) as P.
  { intros k. unfold pg32, pi. cbv zeta. rewrite gamma32_eq by apply HM. apply rotate32_eq. apply word_lxor; [apply HM|apply word_lor; [apply HM|apply word_complement, HM]]. }
  unfold mill32. cbn [round mill]. cbv zeta. unfold iota, th32, theta, xor32. rewrite !P. reflexivity.
Qed.
Lemma belt32_eq s j r : belt32 s j r = belt (round s) j r.
Proof. reflexivity. Qed.

(** The words of a state in memory. *)
Definition rep (s : rgstate) (a b : list Z) : Prop := exists ja jb, a = tab_mill (mill s) ja /\ b = tab_belt (belt s) jb.
Lemma tab_mill_ext m m' ja : (forall i, m i = m' i) -> tab_mill m ja = tab_mill m' ja.
Proof. intros H. unfold tab_mill. f_equal. apply map_ext. intros i. apply H. Qed.
Lemma tab_belt_ext b b' jb : (forall j r, b j r = b' j r) -> tab_belt b jb = tab_belt b' jb.
Proof. intros H. unfold tab_belt. f_equal. apply map_ext. intros i. apply H. Qed.
Lemma beltmill_ok J s a b : wordly s -> rep s a b -> exists a' b', dwr_beltmill J a b = Ok (a', b') /\ rep (round s) a' b'.
Proof.
  intros HW (ja & jb & -> & ->). destruct s as (m, bl). cbn [mill belt] in *. rewrite beltmill32. eexists. eexists. split; [reflexivity|]. exists ja, jb. split.
  - apply tab_mill_ext. intros i. apply (mill32_eq (mkst m bl) i HW).
  - apply tab_belt_ext. intros j r. apply belt32_eq.
Qed.
Lemma rounds_S n s : rounds n (round s) = round (rounds n s).
Proof. induction n as [|n IH]; [reflexivity|]. cbn [rounds]. rewrite IH. reflexivity. Qed.
Lemma rounds_wordly n s : wordly s -> wordly (rounds n s).
Proof. intros H. induction n as [|n IH]; [exact H|]. apply round_wordly, IH. Qed.
Lemma rounds_add n k s : rounds n (rounds k s) = rounds (n + k) s.
Proof. induction n as [|n IH]; [reflexivity|]. cbn [rounds Nat.add]. rewrite IH. reflexivity. Qed.
Lemma loop_rounds J n : forall i s a b, wordly s -> rep s a b ->
  exists a' b', loop n i (fun _ '(a, b) => dwr_beltmill J a b) (a, b) = Ok (a', b') /\ rep (rounds n s) a' b'.
Proof.
  induction n as [|n IH]; intros i s a b HW HR; cbn [loop].
  - exists a, b. auto.
  - destruct (beltmill_ok J s a b HW HR) as (a1 & b1 & -> & R1). cbn [bind]. destruct (IH (i + 1) (round s) a1 b1 (round_wordly s HW) R1) as (a2 & b2 & E & R2). exists a2, b2. split; [exact E|]. rewrite rounds_S in R2. exact R2.
Qed.

Lemma new_ok J : exists g, dwr_new J = Ok g /\ rep blank (rg_mill g) (rg_belt g).
Proof.
  assert (dwr_new J = Ok (mkrg (tab_mill (fun _ => 0) (J 19)) (tab_belt (fun _ _ => 0) (J 39)) 0)) as -> by reflexivity. eexists. split; [reflexivity|]. cbn [rg_mill rg_belt]. exists (J 19), (J 39). split; reflexivity.
Qed.
Lemma blank_wordly : wordly blank.
Proof. split; intros; cbn [blank mill belt]; split; reflexivity || discriminate. Qed.
Lemma input_wordly p s : (forall r, word (p r)) -> wordly s -> wordly (input p s).
Proof.
  intros HP (HM & HB). split.
  - intros i. cbn [input mill]. destruct (_ && _); [apply word_lxor; [apply HM|apply HP]|apply HM].
  - intros j r. cbn [input belt]. destruct (_ =? _); [apply word_lxor; [apply HB|apply HP]|apply HB].
Qed.
Lemma input_map32 m b ja jb p :
  loop 3 0 (input_word [p 0; p 1; p 2]) (tab_mill m ja, tab_belt b jb) = Ok (tab_mill (mill (input p (mkst m b))) ja, tab_belt (belt (input p (mkst m b))) jb).
Proof. change Z.lxor with xor32. cbv -[xor32]. reflexivity. Qed.
Lemma input_map_ok J p s a b : (forall r, word (p r)) -> wordly s -> rep s a b ->
  exists a' b', dwr_input_map J [p 0; p 1; p 2] a b = Ok (a', b') /\ rep (round (input p s)) a' b'.
Proof.
  intros HP HW (ja & jb & -> & ->). unfold dwr_input_map. destruct s as (m, bl). rewrite input_map32. cbn [bind]. apply (beltmill_ok J (input p (mkst m bl))); [apply input_wordly; assumption|]. exists ja, jb. auto.
Qed.

(** *** The key *)
Fixpoint pw (o : Z -> Z) (n : nat) : Z := match n with O => 0 | S n => pw o n + o (Z.of_nat n) * 256 ^ Z.of_nat n end.
Lemma octet_byte key i : bytes key -> byte (octet_at key i).
Proof. intros H. unfold octet_at. destruct (_ =? _); [unfold byte; lia|]. destruct (zget key i) as [b|] eqn:E; [eapply zget_bytes; eassumption|unfold byte; lia]. Qed.
Lemma word_at_word key i : bytes key -> word (word_at key i).
Proof. intros H. pose proof (fun k => octet_byte key k H) as O. unfold word, word_at, words. pose proof (O (4 * i)). pose proof (O (4 * i + 1)). pose proof (O (4 * i + 2)). pose proof (O (4 * i + 3)). unfold byte in *. lia. Qed.
Lemma or_octet strict p x k : 0 <= p < 2 ^ (8 * k) -> byte x -> 0 <= k < 4 -> (strict = true -> k = 3 -> x < 128) -> or_byte strict p x (8 * k) = Ok (p + x * 2 ^ (8 * k)).
Proof.
  intros Hp Hx Hk HS. unfold or_byte. rewrite Z.shiftl_mul_pow2 by lia. unfold byte in Hx.
  assert (2 ^ (8 * k) <= 16777216 /\ (k <> 3 -> 2 ^ (8 * k) <= 65536)) as (B1 & B2). { assert (k = 0 \/ k = 1 \/ k = 2 \/ k = 3) as [-> | [-> | [-> | ->]]] by lia; split; intros; vm_compute; congruence. }
  assert (strict && (2147483648 <=? x * 2 ^ (8 * k)) = false) as ->. { destruct strict; [|reflexivity]. cbn [andb]. apply Z.leb_gt. destruct (Z.eq_dec k 3) as [->|N]; [specialize (HS eq_refl eq_refl); change (2 ^ (8 * 3)) with 16777216; lia|specialize (B2 N); nia]. }
  unfold u32. rewrite Z.mod_small by nia. f_equal. rewrite Z.lor_comm, lor_add_pow2 by lia. lia.
Qed.
Lemma pw_bound o n : (forall j, byte (o j)) -> 0 <= pw o n < 256 ^ Z.of_nat n.
Proof.
  intros H. induction n as [|n IH]; [cbn; lia|]. cbn [pw]. rewrite Nat2Z.inj_succ, Z.pow_succ_r by lia. pose proof (H (Z.of_nat n)) as B. unfold byte in B. nia.
Qed.
Section Key.
Variables (strict : bool) (obj : dwstr) (base : Z).
Hypothesis HD : dok obj.
Notation key := (con obj).
Definition oct (r j : Z) : Z := octet_at key (base + 4 * r + j).
Definition part (k : Z) : list Z := [pw (oct 0) (Nat.min 4 (Z.to_nat k)); pw (oct 1) (Nat.min 4 (Z.to_nat (k - 4))); pw (oct 2) (Nat.min 4 (Z.to_nat (k - 8)))].
Lemma zlen_key : zlen key = d_len obj.
Proof. destruct HD as (W & _). apply zlen_con. exact W. Qed.
Lemma key_bytes : bytes key.
Proof. destruct HD as (W & _). apply bytes_zslice. apply dwf_bytes. exact W. Qed.
Lemma part_step k : 0 <= k < 12 -> (strict = true -> k mod 4 = 3 -> octet_at key (base + k) < 128) ->
  exists w w', rd (part k) (k / 4) = Ok w /\ or_byte strict w (octet_at key (base + k)) (k mod 4 * 8) = Ok w' /\ wr (part k) (k / 4) w' = Ok (part (k + 1)).
Proof.
  intros Hk HS. pose proof (fun r j => octet_byte key (base + 4 * r + j) key_bytes : byte (oct r j)) as HB.
  assert (forall r (n : nat), (n < 4)%nat -> (strict = true -> n = 3%nat -> oct r 3 < 128) -> or_byte strict (pw (oct r) n) (oct r (Z.of_nat n)) (Z.of_nat n * 8) = Ok (pw (oct r) (S n))) as K.
  { intros r n Hn HS'. cbn [pw]. replace (256 ^ Z.of_nat n) with (2 ^ (8 * Z.of_nat n)) by (change 256 with (2 ^ 8); rewrite <- Z.pow_mul_r by lia; reflexivity). replace (Z.of_nat n * 8) with (8 * Z.of_nat n) by lia. apply or_octet; [|apply HB|lia|].
    - replace (2 ^ (8 * Z.of_nat n)) with (256 ^ Z.of_nat n) by (change 256 with (2 ^ 8); rewrite <- Z.pow_mul_r by lia; reflexivity). apply pw_bound. intros j. apply HB.
    - intros Es Ek. assert (n = 3%nat) as -> by lia. apply HS'; auto. }
  assert (exists r n, k = 4 * r + Z.of_nat n /\ (n < 4)%nat /\ (r = 0 \/ r = 1 \/ r = 2)) as (r & n & E & Hn & Hr). { exists (k / 4), (Z.to_nat (k mod 4)). lia. }
  assert (or_byte strict (pw (oct r) n) (octet_at key (base + k)) (k mod 4 * 8) = Ok (pw (oct r) (S n))) as KR.
  { replace (octet_at key (base + k)) with (oct r (Z.of_nat n)) by (unfold oct; f_equal; lia). replace (k mod 4 * 8) with (Z.of_nat n * 8) by lia. apply K; [exact Hn|]. intros Es ->. specialize (HS Es). replace (oct r 3) with (octet_at key (base + k)) by (unfold oct; f_equal; lia). apply HS. lia. }
  exists (pw (oct r) n), (pw (oct r) (S n)). split; [|split; [exact KR|]].
  - clear - E Hn Hr. assert (k / 4 = r) as -> by lia. unfold part. assert (n = 0 \/ n = 1 \/ n = 2 \/ n = 3)%nat as [-> | [-> | [-> | ->]]] by lia; destruct Hr as [-> | [-> | ->]]; subst k; reflexivity.
  - clear - E Hn Hr. assert (k / 4 = r) as -> by lia. unfold part. assert (n = 0 \/ n = 1 \/ n = 2 \/ n = 3)%nat as [-> | [-> | [-> | ->]]] by lia; destruct Hr as [-> | [-> | ->]]; subst k; reflexivity.
Qed.
Definition block : list Z := [pw (oct 0) 4; pw (oct 1) 4; pw (oct 2) 4].
Lemma octet_after i : zlen key < i -> octet_at key i = 0.
Proof. intros H. unfold octet_at. replace (i =? zlen key) with false by lia. assert (zget key i = None) as -> by (apply zget_none; lia). reflexivity. Qed.
(** After the end there are only zeros. *)
Lemma pw_zeros o n m : (n <= m)%nat -> (forall j, Z.of_nat n <= j < Z.of_nat m -> o j = 0) -> pw o m = pw o n.
Proof. intros H. induction H as [|m H IH]; intros HZ; [reflexivity|]. cbn [pw]. rewrite IH, (HZ (Z.of_nat m)) by (intros; try apply HZ; lia). lia. Qed.
Lemma part_end k : 0 <= k <= 12 -> zlen key < base + k -> part k = block.
Proof.
  intros Hk HE. assert (forall r, pw (oct r) (Nat.min 4 (Z.to_nat (k - 4 * r))) = pw (oct r) 4) as K. { intros r. symmetry. apply pw_zeros; [lia|]. intros j Hj. unfold oct. apply octet_after. lia. }
  unfold part, block. rewrite <- (K 0), <- (K 1), <- (K 2). replace (k - 4 * 0) with k by lia. reflexivity.
Qed.
Lemma part_12 : part 12 = block.
Proof. reflexivity. Qed.
Lemma block_words : block = [word_at key (base / 4); word_at key (base / 4 + 1); word_at key (base / 4 + 2)] \/ base mod 4 <> 0.
Proof.
  destruct (Z.eq_dec (base mod 4) 0) as [E|E]; [left|right; exact E]. unfold block, word_at, oct. cbn [pw]. change (256 ^ Z.of_nat 0) with 1. change (256 ^ Z.of_nat 1) with 256. change (256 ^ Z.of_nat 2) with 65536. change (256 ^ Z.of_nat 3) with 16777216.
  change (Z.of_nat 0) with 0. change (Z.of_nat 1) with 1. change (Z.of_nat 2) with 2. change (Z.of_nat 3) with 3.
  assert (forall r d, octet_at key (4 * (base / 4 + r) + d) = octet_at key (base + 4 * r + d)) as K by (intros r d; f_equal; lia).
  assert (forall r, octet_at key (4 * (base / 4 + r)) = octet_at key (base + 4 * r + 0)) as K0 by (intros r; f_equal; lia).
  assert (forall d, octet_at key (4 * (base / 4) + d) = octet_at key (base + 4 * 0 + d)) as K1 by (intros d; f_equal; lia).
  assert (octet_at key (4 * (base / 4)) = octet_at key (base + 4 * 0 + 0)) as K2 by (f_equal; lia).
  rewrite ?K, ?K0, ?K1, ?K2. f_equal; [lia|]. f_equal; [lia|]. f_equal. lia.
Qed.
(** Twelve octets, or what is left of the key and its end. *)
Lemma take_block_ok n : forall k, 0 <= base -> k + Z.of_nat n = 12 -> 0 <= k -> base + k <= d_len obj ->
  (strict = true -> forall j, 0 <= j < 12 -> j mod 4 = 3 -> octet_at key (base + j) < 128) ->
  take_block strict n obj (part k) (base + k) = Ok (if d_len obj <? base + 12 then (true, block, d_len obj + 1) else (false, block, base + 12)).
Proof.
  induction n as [|n IH]; intros k H0 HK Hk HL HS; cbn [take_block].
  - assert (k = 12) as -> by lia. replace (d_len obj <? base + 12) with false by lia. reflexivity.
  - replace (12 - Z.of_nat (S n)) with k by lia. destruct HD as (W & HM). destruct (rd_byte (d_mem obj) (base + k) (dwf_bytes obj W)) as (x & RX & GX & BX); [destruct W; lia|]. rewrite RX. cbn [bind]. cbv zeta.
    assert ((if d_len obj <? base + k + 1 then 1 else Z.land x 255) = octet_at key (base + k)) as EX.
    { unfold octet_at. rewrite zlen_key. destruct (Z.ltb_spec (d_len obj) (base + k + 1)) as [C|C]; [replace (base + k =? d_len obj) with true by lia; reflexivity|]. replace (base + k =? d_len obj) with false by lia. rewrite zget_con by (assumption || lia). rewrite GX, land_255. unfold byte in BX. apply Z.mod_small. lia. }
    rewrite EX. destruct (part_step k ltac:(lia)) as (w & w' & -> & E2 & E3). { intros Es Em. apply (HS Es k); lia. } cbn [bind]. rewrite E2. cbn [bind]. rewrite E3. cbn [bind].
    destruct (Z.ltb_spec (d_len obj) (base + k + 1)) as [C|C].
    + replace (d_len obj <? base + 12) with true by lia. rewrite part_end by (rewrite ?zlen_key; lia). do 3 f_equal. lia.
    + replace (base + k + 1) with (base + (k + 1)) by lia. apply IH; auto; lia.
Qed.
End Key.

(** No octet of the key that is the highest of its word is above 127. *)
Definition low_tops (key : list Z) : Prop := forall i b, i mod 4 = 3 -> zget key i = Some b -> b < 128.
Lemma absorb_ok strict J obj : dok obj -> (strict = true -> low_tops (con obj)) -> forall n c a b, zlen (con obj) / 12 + 1 - Z.of_nat c <= Z.of_nat n -> 12 * Z.of_nat c <= zlen (con obj) -> rep (absorbed (con obj) c) a b ->
  exists a' b', absorb strict J n (Z.of_nat c) obj (12 * Z.of_nat c) a b = Ok (Some (mkrg a' b' 0)) /\ rep (keyed (con obj)) a' b'.
Proof.
  intros HD HS. pose proof (zlen_key obj HD) as EL. assert (forall c, wordly (absorbed (con obj) c)) as WA.
  { induction c as [|c IH]; cbn [absorbed]; [exact blank_wordly|]. apply round_wordly, input_wordly; [|exact IH]. intros r. apply word_at_word, key_bytes, HD. }
  induction n as [|n IH]; intros c a b HN HC HR; cbn [absorb]; [lia|].
  assert (d_len obj < 134217728) as LM by (destruct HD as (W & _); destruct W; lia). replace (Z.of_nat c <? 16777218) with true by lia. cbn [negb].
  assert (take_block strict 12 obj [0; 0; 0] (12 * Z.of_nat c) = Ok (if d_len obj <? 12 * Z.of_nat c + 12 then (true, block obj (12 * Z.of_nat c), d_len obj + 1) else (false, block obj (12 * Z.of_nat c), 12 * Z.of_nat c + 12))) as TB.
  { pose proof (take_block_ok strict obj (12 * Z.of_nat c) HD 12 0) as TB. rewrite Z.add_0_r in TB. change (part obj (12 * Z.of_nat c) 0) with [0; 0; 0] in TB. apply TB; try lia. intros Es j Hj Hm.
    specialize (HS Es). unfold octet_at. destruct (_ =? _); [lia|]. destruct (zget (con obj) (12 * Z.of_nat c + j)) as [x|] eqn:EX; [apply (HS (12 * Z.of_nat c + j) x); [lia|exact EX]|lia]. }
  rewrite TB. clear TB.
  destruct (block_words obj (12 * Z.of_nat c)) as [EB|EB]; [|lia].
  destruct (input_map_ok J (fun r => word_at (con obj) (3 * Z.of_nat c + r)) (absorbed (con obj) c) a b) as (a1 & b1 & E1 & R1); [intros r; apply word_at_word, key_bytes, HD|apply WA|exact HR|].
  change (round (input (fun r => word_at (con obj) (3 * Z.of_nat c + r)) (absorbed (con obj) c))) with (absorbed (con obj) (S c)) in R1. cbv beta in E1.
  replace (12 * Z.of_nat c / 4) with (3 * Z.of_nat c) in EB by lia. replace (3 * Z.of_nat c + 0) with (3 * Z.of_nat c) in E1 by lia.
  destruct (Z.ltb_spec (d_len obj) (12 * Z.of_nat c + 12)) as [C|C]; cbn [bind]; rewrite EB, E1; cbn [bind].
  - destruct (loop_rounds J 16 0 (absorbed (con obj) (S c)) a1 b1 (WA (S c)) R1) as (a2 & b2 & E2 & R2). rewrite E2. cbn [bind]. exists a2, b2. split; [reflexivity|]. unfold keyed. replace (Z.to_nat (zlen (con obj) / 12 + 1)) with (S c) by lia. exact R2.
  - replace (Z.of_nat c + 1) with (Z.of_nat (S c)) by lia. replace (12 * Z.of_nat c + 12) with (12 * Z.of_nat (S c)) by lia. apply IH; [lia|lia|exact R1].
Qed.
Lemma init_ok strict J obj : dok obj -> (strict = true -> low_tops (con obj)) -> exists a b, dwr_init_rg strict J obj = Ok (Some (mkrg a b 0)) /\ rep (keyed (con obj)) a b.
Proof.
  intros HD HS. unfold dwr_init_rg. pose proof HD as (W & HM). assert (dw_sane obj = true) as -> by (unfold dw_sane; destruct W; lia). cbn [negb]. destruct (new_ok J) as (g & -> & HR). cbn [bind].
  apply (absorb_ok strict J obj HD HS (S (length (d_mem obj))) 0 (rg_mill g) (rg_belt g)); [|pose proof (zlen_nonneg (con obj)); lia|exact HR].
  rewrite (zlen_key obj HD). destruct W. unfold zlen in *. lia.
Qed.
Lemma keyed_wordly key : bytes key -> wordly (keyed key).
Proof.
  intros HB. unfold keyed. apply rounds_wordly. generalize (Z.to_nat (zlen key / 12 + 1)). induction n as [|n IH]; cbn [absorbed]; [exact blank_wordly|]. apply round_wordly, input_wordly; [|exact IH]. intros r. apply word_at_word, HB.
Qed.

(** *** Drawing numbers *)
Lemma land_octet o k : 0 <= k -> Z.land o (Z.shiftl 255 k) = (o / 2 ^ k mod 256) * 2 ^ k.
Proof.
  intros Hk. assert (Z.land o (Z.shiftl 255 k) = Z.shiftl (Z.land (Z.shiftr o k) 255) k) as ->.
  { apply Z.bits_inj'. intros n Hn. rewrite Z.land_spec. destruct (Z_lt_le_dec n k) as [L|L]; [rewrite !Z.shiftl_spec_low by lia; apply andb_false_r|]. rewrite !Z.shiftl_spec by lia. rewrite Z.land_spec, Z.shiftr_spec by lia. do 2 f_equal. lia. }
  rewrite Z.shiftl_mul_pow2, land_255, Z.shiftr_div_pow2 by lia. reflexivity.
Qed.
Lemma draw_low o : u16 (Z.lor (u32 (Z.shiftl (Z.land o 255) 8)) (Z.shiftr (Z.land o 65280) 8)) = (o mod 256) * 256 + o / 256 mod 256.
Proof.
  change 65280 with (Z.shiftl 255 8). rewrite land_octet, land_255 by lia. change (2 ^ 8) with 256. rewrite (Z.shiftr_div_pow2 _ 8) by lia. change (2 ^ 8) with 256. rewrite Z.div_mul by lia.
  unfold u32. rewrite Z.mod_small; [|rewrite Z.shiftl_mul_pow2 by lia; change (2 ^ 8) with 256; lia]. rewrite lor_shiftl8 by lia. unfold u16. lia.
Qed.
Lemma draw_high o : word o -> u16 (Z.lor (Z.shiftr (Z.land o 16711680) 8) (Z.shiftr (Z.land o 4278190080) 24)) = (o / 65536 mod 256) * 256 + o / 16777216 mod 256.
Proof.
  intros Ho. change 16711680 with (Z.shiftl 255 16). change 4278190080 with (Z.shiftl 255 24). rewrite !land_octet by lia. rewrite !Z.shiftr_div_pow2 by lia. change (2 ^ 16) with (256 * 256). change (2 ^ 8) with 256. change (2 ^ 24) with 16777216.
  rewrite Z.mul_assoc, !Z.div_mul by lia. change (256 * 256) with 65536. pose proof (lor_add_pow2 (o / 65536 mod 256) (o / 16777216 mod 256) 8 ltac:(lia) ltac:(change (2 ^ 8) with 256; lia)) as L. change (2 ^ 8) with 256 in L. rewrite L. unfold u16. lia.
Qed.

Lemma rd_mill m ja k : (k = 1 \/ k = 2) -> rd (tab_mill m ja) k = Ok (m k).
Proof. intros [-> | ->]; reflexivity. Qed.
Definition number (key : list Z) (d : Z) : Z := output_octet key (2 * d) * 256 + output_octet key (2 * d + 1).
(** After [d] draws. *)
Definition drawn (key : list Z) (d : Z) (g : dwr_rg) : Prop :=
  0 <= rg_index g <= 100000000 /\ rg_index g mod 4 = d mod 4 /\ rep (rounds (Z.to_nat ((d + 3) / 4)) (keyed key)) (rg_mill g) (rg_belt g).
Lemma number_parts key d : 0 <= d ->
  number key d = let w := mill (rounds (Z.to_nat (d / 4 + 1)) (keyed key)) (1 + d / 2 mod 2) in if d mod 2 =? 0 then (w mod 256) * 256 + w / 256 mod 256 else (w / 65536 mod 256) * 256 + w / 16777216 mod 256.
Proof.
  intros Hd. unfold number, output_octet, output_word. replace (2 * d / 4) with (d / 2) by lia. replace ((2 * d + 1) / 4) with (d / 2) by lia. replace (d / 2 / 2) with (d / 4) by lia. cbv zeta. generalize (mill (rounds (Z.to_nat (d / 4 + 1)) (keyed key)) (1 + d / 2 mod 2)). intros w.
  destruct (Z.eqb_spec (d mod 2) 0) as [E|E].
  - replace (2 * d mod 4) with 0 by lia. replace ((2 * d + 1) mod 4) with 1 by lia. change (256 ^ 0) with 1. change (256 ^ 1) with 256. rewrite Z.div_1_r. reflexivity.
  - replace (2 * d mod 4) with 2 by lia. replace ((2 * d + 1) mod 4) with 3 by lia. reflexivity.
Qed.
Lemma draw_ok J key d g : bytes key -> 0 <= d -> drawn key d g -> exists g', dwr_rng J g = Ok (number key d, g') /\ drawn key (d + 1) g'.
Proof.
  intros HB Hd (HI & HM & HR). unfold dwr_rng. pose proof (keyed_wordly key HB) as WK.
  set (index := if 100000000 <=? rg_index g then 0 else rg_index g). assert (0 <= index < 100000000 /\ index mod 4 = d mod 4) as (I1 & I2). { unfold index. destruct (Z.leb_spec 100000000 (rg_index g)) as [L|L]; [|lia]. assert (rg_index g = 100000000) as E by lia. rewrite E in HM. lia. }
  clearbody index. clear HI HM. rewrite (number_parts key d Hd). cbv zeta. rewrite Z.rem_mod_nonneg by lia. destruct (Z.eqb_spec (index mod 4) 0) as [E0|E0].
  - destruct (beltmill_ok J _ _ _ (rounds_wordly _ _ WK) HR) as (a & b & -> & R1). cbn [bind]. change (round (rounds (Z.to_nat ((d + 3) / 4)) (keyed key))) with (rounds (S (Z.to_nat ((d + 3) / 4))) (keyed key)) in R1.
    replace (S (Z.to_nat ((d + 3) / 4))) with (Z.to_nat (d / 4 + 1)) in R1 by lia. pose proof R1 as (ja & jb & Ea & Eb). rewrite Ea, rd_mill by auto. cbn [bind]. rewrite draw_low. replace (d mod 2 =? 0) with true by lia. replace (1 + d / 2 mod 2) with 1 by lia.
    eexists. split; [reflexivity|]. split; [cbn [rg_index]; lia|]. split; [cbn [rg_index]; lia|]. cbn [rg_mill rg_belt]. rewrite <- Ea. replace ((d + 1 + 3) / 4) with (d / 4 + 1) by lia. exact R1.
  - rewrite Z.rem_mod_nonneg by lia. cbn [rg_mill]. replace ((d + 3) / 4) with (d / 4 + 1) in HR by lia.
    assert (forall x, (x = 1 \/ x = 2) -> rd (rg_mill g) x = Ok (mill (rounds (Z.to_nat (d / 4 + 1)) (keyed key)) x)) as K by (intros x Hx; destruct HR as (ja & jb & -> & _); apply rd_mill; exact Hx).
    assert (drawn key (d + 1) (mkrg (rg_mill g) (rg_belt g) (index + 1))) as D1 by (split; [cbn [rg_index]; lia|]; split; [cbn [rg_index]; lia|]; cbn [rg_mill rg_belt]; replace ((d + 1 + 3) / 4) with (d / 4 + 1) by lia; exact HR).
    pose proof (rounds_wordly (Z.to_nat (d / 4 + 1)) _ WK) as (WM & _).
    destruct (Z.eqb_spec ((index + 1) mod 4) 2) as [E2|E2]; [|destruct (Z.eqb_spec ((index + 1) mod 4) 3) as [E3|E3]; [|replace ((index + 1) mod 4 =? 0) with true by lia]].
    + rewrite K by auto. cbn [bind]. rewrite draw_high by apply WM. replace (d mod 2 =? 0) with false by lia. replace (1 + d / 2 mod 2) with 1 by lia. eexists. split; [reflexivity|exact D1].
    + rewrite K by auto. cbn [bind]. rewrite draw_low. replace (d mod 2 =? 0) with true by lia. replace (1 + d / 2 mod 2) with 2 by lia. eexists. split; [reflexivity|exact D1].
    + rewrite K by auto. cbn [bind]. rewrite draw_high by apply WM. replace (d mod 2 =? 0) with false by lia. replace (1 + d / 2 mod 2) with 2 by lia. eexists. split; [reflexivity|exact D1].
Qed.
Lemma draws_ok J key n : bytes key -> forall d g, drawn key (Z.of_nat d) g -> exists g', draws J n g = Ok (map (fun k => number key (Z.of_nat k)) (seq d n), g') /\ drawn key (Z.of_nat (d + n)) g'.
Proof.
  intros HB. induction n as [|n IH]; intros d g HD; cbn [draws seq map].
  - exists g. rewrite Nat.add_0_r. auto.
  - destruct (draw_ok J key (Z.of_nat d) g HB ltac:(lia) HD) as (g1 & -> & D1). cbn [bind]. replace (Z.of_nat d + 1) with (Z.of_nat (S d)) in D1 by lia. destruct (IH (S d) g1 D1) as (g2 & -> & D2). cbn [bind]. exists g2. split; [reflexivity|]. replace (d + S n)%nat with (S d + n)%nat by lia. exact D2.
Qed.
