(** Bit-arithmetic lemmas used throughout the proofs. *)
From Verif Require Import CBase.

Lemma land_ones_mod a n : 0 <= n -> Z.land a (2 ^ n - 1) = a mod 2 ^ n.
Proof. intros. rewrite <- Z.land_ones by lia. f_equal. rewrite Z.ones_equiv. lia. Qed.

Lemma land_255 a : Z.land a 255 = a mod 256.
Proof. exact (land_ones_mod a 8 ltac:(lia)). Qed.
Lemma land_65535 a : Z.land a 65535 = a mod 65536.
Proof. exact (land_ones_mod a 16 ltac:(lia)). Qed.
Lemma land_15 a : Z.land a 15 = a mod 16.
Proof. exact (land_ones_mod a 4 ltac:(lia)). Qed.
Lemma land_7 a : Z.land a 7 = a mod 8.
Proof. exact (land_ones_mod a 3 ltac:(lia)). Qed.
Lemma land_1 a : Z.land a 1 = a mod 2.
Proof. exact (land_ones_mod a 1 ltac:(lia)). Qed.
Lemma land_63 a : Z.land a 63 = a mod 64.
Proof. exact (land_ones_mod a 6 ltac:(lia)). Qed.
Lemma land_127 a : Z.land a 127 = a mod 128.
Proof. exact (land_ones_mod a 7 ltac:(lia)). Qed.
Lemma land_3 a : Z.land a 3 = a mod 4.
Proof. exact (land_ones_mod a 2 ltac:(lia)). Qed.
Lemma land_u32max a : Z.land a 4294967295 = a mod 4294967296.
Proof. exact (land_ones_mod a 32 ltac:(lia)). Qed.

Lemma land_mul_pow2_small a b n :
  0 <= n -> 0 <= b < 2 ^ n -> Z.land (a * 2 ^ n) b = 0.
Proof.
  intros Hn Hb. apply Z.bits_inj'. intros k Hk. rewrite Z.land_spec, Z.bits_0.
  destruct (Z_lt_dec k n).
  - rewrite Z.mul_pow2_bits_low by lia. reflexivity.
  - replace b with (b mod 2 ^ n) by (apply Z.mod_small; lia).
    rewrite Z.mod_pow2_bits_high by lia. apply andb_false_r.
Qed.

Lemma lor_add_pow2 a b n :
  0 <= n -> 0 <= b < 2 ^ n -> Z.lor (a * 2 ^ n) b = a * 2 ^ n + b.
Proof.
  intros Hn Hb. pose proof (land_mul_pow2_small a b n Hn Hb) as H0.
  rewrite Z.add_nocarry_lxor by exact H0. symmetry. apply Z.lxor_lor. exact H0.
Qed.

Lemma lor_shiftl_add a b n :
  0 <= n -> 0 <= b < 2 ^ n -> Z.lor (Z.shiftl a n) b = a * 2 ^ n + b.
Proof. intros. rewrite Z.shiftl_mul_pow2 by lia. now apply lor_add_pow2. Qed.

Lemma lor_shiftl8 a b : 0 <= b < 256 -> Z.lor (Z.shiftl a 8) b = a * 256 + b.
Proof. intros. exact (lor_shiftl_add a b 8 ltac:(lia) ltac:(lia)). Qed.

Lemma bits_high_zero a n k : 0 <= a < 2 ^ n -> 0 <= n <= k -> Z.testbit a k = false.
Proof.
  intros Ha Hk. replace a with (a mod 2 ^ n) by (apply Z.mod_small; lia).
  apply Z.mod_pow2_bits_high. lia.
Qed.

Lemma small_of_bits a n : 0 <= n -> 0 <= a ->
  (forall k, n <= k -> Z.testbit a k = false) -> a < 2 ^ n.
Proof.
  intros Hn Ha H. replace a with (a mod 2 ^ n).
  - apply Z.mod_pos_bound. lia.
  - apply Z.bits_inj'. intros k Hk. destruct (Z_lt_dec k n).
    + apply Z.mod_pow2_bits_low. lia.
    + rewrite Z.mod_pow2_bits_high by lia. symmetry. apply H. lia.
Qed.

Lemma lor_bound a b n : 0 <= n -> 0 <= a < 2 ^ n -> 0 <= b < 2 ^ n -> 0 <= Z.lor a b < 2 ^ n.
Proof.
  intros. assert (0 <= Z.lor a b) by (apply Z.lor_nonneg; lia). split; [lia|].
  apply small_of_bits; try lia. intros k Hk. rewrite Z.lor_spec, !(bits_high_zero _ n) by lia. reflexivity.
Qed.
Lemma lxor_bound a b n : 0 <= n -> 0 <= a < 2 ^ n -> 0 <= b < 2 ^ n -> 0 <= Z.lxor a b < 2 ^ n.
Proof.
  intros. assert (0 <= Z.lxor a b) by (apply Z.lxor_nonneg; lia). split; [lia|].
  apply small_of_bits; try lia. intros k Hk. rewrite Z.lxor_spec, !(bits_high_zero _ n) by lia. reflexivity.
Qed.
Lemma land_bound_r a b n : 0 <= n -> 0 <= b < 2 ^ n -> 0 <= Z.land a b < 2 ^ n.
Proof.
  intros. assert (0 <= Z.land a b) by (apply Z.land_nonneg; lia). split; [lia|].
  apply small_of_bits; try lia. intros k Hk. rewrite Z.land_spec, (bits_high_zero b n) by lia. apply andb_false_r.
Qed.

(** Big-endian composition of bytes as the C code writes it. *)
Lemma be32_lor a b c d :
  byte a -> byte b -> byte c -> byte d ->
  Z.lor (Z.lor (Z.lor (u32 (Z.shiftl a 24)) (Z.shiftl (Z.land b 255) 16))
               (Z.shiftl (Z.land c 255) 8)) d
  = a * 16777216 + b * 65536 + c * 256 + d.
Proof.
  unfold byte. intros Ha Hb Hc Hd.
  rewrite !land_255, !Z.shiftl_mul_pow2 by lia.
  unfold u32. rewrite !Z.mod_small by lia.
  rewrite (lor_add_pow2 a (b * 2 ^ 16) 24) by lia.
  replace (a * 2 ^ 24 + b * 2 ^ 16) with ((a * 256 + b) * 2 ^ 16) by lia.
  rewrite (lor_add_pow2 _ (c * 2 ^ 8) 16) by lia.
  replace ((a * 256 + b) * 2 ^ 16 + c * 2 ^ 8) with ((a * 65536 + b * 256 + c) * 2 ^ 8) by lia.
  rewrite (lor_add_pow2 _ d 8) by lia. lia.
Qed.
