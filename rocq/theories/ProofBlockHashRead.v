(** Memory safety and termination of the block-list reader. *)
From Verif Require Import CBase Bits ModelBlockHash.

Lemma read32_spec block off max :
  bytes block -> zlen block = max -> 0 <= off -> off <= max -> max <= 2147479552 ->
  exists v, dbh_read32 block off max = Ok v /\ 0 <= v < 4294967296.
Proof.
  intros Hb Hm H0 H1 H2. unfold dbh_read32.
  assert (u32 (off + 3) = off + 3) as E by (unfold u32; apply Z.mod_small; lia). rewrite E.
  destruct (Z.leb_spec max (off + 3)); [exists 0; split; [reflexivity|lia]|].
  destruct (rd_ok block off) as (a & Ra & Za); [lia|].
  destruct (rd_ok block (off+1)) as (b & Rb & Zb); [lia|].
  destruct (rd_ok block (off+2)) as (c & Rc & Zc); [lia|].
  destruct (rd_ok block (off+3)) as (d & Rd & Zd); [lia|].
  rewrite Ra, Rb, Rc, Rd; cbn [bind].
  pose proof (zget_bytes _ _ _ Hb Za). pose proof (zget_bytes _ _ _ Hb Zb).
  pose proof (zget_bytes _ _ _ Hb Zc). pose proof (zget_bytes _ _ _ Hb Zd).
  eexists; split; [reflexivity|]. rewrite be32_lor by assumption. unfold byte in *. lia.
Qed.

Lemma read32_high block off max :
  0 <= off <= 4294967292 -> max <= off + 3 -> dbh_read32 block off max = Ok 0.
Proof.
  intros H1 H2. unfold dbh_read32, u32. rewrite Z.mod_small by lia.
  destruct (Z.leb_spec max (off + 3)); [reflexivity|lia].
Qed.

Definition valid_image (b : blockhash) : Prop :=
  bytes (bh_block b) /\ zlen (bh_block b) = bh_max b /\ 16 <= bh_max b <= 2147479552 /\
  0 <= bh_size b <= bh_max b.

Lemma make_block_hash_safe file : bytes file -> safe (dbh_make_block_hash file).
Proof.
  intros Hf. unfold dbh_make_block_hash.
  destruct (Z.ltb_spec (u32 (zlen file)) 16); [apply safe_Fail|].
  destruct (Z.ltb_spec 2147479552 (u32 (zlen file))); [apply safe_Fail|].
  set (max := u32 (zlen file)) in *.
  assert (max <= zlen file) by (unfold max, u32; pose proof (zlen_nonneg file); lia).
  assert (zlen (zslice file 0 max) = max) as HL by (apply zlen_zslice; lia).
  pose proof (bytes_zslice file 0 max Hf) as Hb.
  set (block := zslice file 0 max) in *.
  apply safe_bind_rd; [lia|]; intros b0 _. apply safe_bind_rd; [lia|]; intros b1 _.
  apply safe_bind_rd; [lia|]; intros b2 _. apply safe_bind_rd; [lia|]; intros b3 _.
  destruct (_ || _); [apply safe_Fail|].
  destruct (read32_spec block 4 max) as (k1 & -> & _); try lia; auto.
  destruct (read32_spec block 8 max) as (k2 & -> & _); try lia; auto.
  destruct (read32_spec block 12 max) as (hs & -> & _); try lia; auto.
  cbn [bind]. destruct (_ <? _); [apply safe_Fail|apply safe_Ok].
Qed.

Lemma make_block_hash_valid file b :
  bytes file -> dbh_make_block_hash file = Ok b -> valid_image b.
Proof.
  intros Hf. unfold dbh_make_block_hash.
  destruct (Z.ltb_spec (u32 (zlen file)) 16); [discriminate|].
  destruct (Z.ltb_spec 2147479552 (u32 (zlen file))); [discriminate|].
  set (max := u32 (zlen file)) in *.
  assert (max <= zlen file) by (unfold max, u32; pose proof (zlen_nonneg file); lia).
  assert (zlen (zslice file 0 max) = max) as HL by (apply zlen_zslice; lia).
  pose proof (bytes_zslice file 0 max Hf) as Hb.
  set (block := zslice file 0 max) in *.
  destruct (rd_ok block 0) as (? & -> & _); [lia|]. destruct (rd_ok block 1) as (? & -> & _); [lia|].
  destruct (rd_ok block 2) as (? & -> & _); [lia|]. destruct (rd_ok block 3) as (? & -> & _); [lia|].
  cbn [bind]. destruct (_ || _); [discriminate|].
  destruct (read32_spec block 4 max) as (k1 & -> & _); try lia; auto.
  destruct (read32_spec block 8 max) as (k2 & -> & _); try lia; auto.
  destruct (read32_spec block 12 max) as (hs & -> & Hhs); try lia; auto.
  cbn [bind]. destruct (Z.ltb_spec max hs); [discriminate|]. intros E. injection E as <-.
  unfold valid_image. cbn. repeat split; try lia; assumption.
Qed.

Lemma dbh_cmp_ok block str : forall offset strend n,
  0 <= offset -> offset + zlen str <= zlen block -> zlen block <= 2147479552 ->
  n = zlen str ->
  exists m o, dbh_cmp block str offset strend n = Ok (m, o) /\
    (m = 0 /\ zslice block offset (zlen str) = str \/
     0 < m /\ o = strend /\ zslice block offset (zlen str) <> str).
Proof.
  induction str as [|c rest IH]; intros offset strend n H0 H1 H2 Hn; cbn [dbh_cmp].
  - exists n, offset. split; [reflexivity|]. left. rewrite zlen_nil in *. split; [lia|].
    reflexivity.
  - rewrite zlen_cons in *. pose proof (zlen_nonneg rest).
    destruct (rd_ok block offset) as (b & Rb & Zb); [lia|]. rewrite Rb. cbn [bind].
    assert (zslice block offset (zlen rest + 1) = b :: zslice block (offset + 1) (zlen rest)) as ES.
    { replace (zlen rest + 1) with (1 + zlen rest) by lia. rewrite zslice_split by lia.
      change (b :: ?x) with ([b] ++ x). f_equal.
      apply zlist_ext; [rewrite zlen_zslice by lia; reflexivity|].
      intros i Hi. rewrite zlen_zslice in Hi by lia. rewrite zget_zslice by lia.
      replace i with 0 by lia. rewrite Z.add_0_r. exact Zb. }
    destruct (Z.eqb_spec b c) as [->|N]; cbn [negb].
    + unfold u32. rewrite Z.mod_small by lia.
      destruct (IH (offset + 1) strend (n - 1)) as (m & o & -> & Hmo); try lia.
      exists m, o. split; [reflexivity|]. rewrite ES.
      destruct Hmo as [[-> ->]|(Hm & -> & HN)]; [left; auto|right; repeat split; auto; congruence].
    + exists n, strend. split; [reflexivity|]. right. rewrite ES. repeat split; try lia. congruence.
Qed.


Lemma dbh_walk_ok block max str : bytes block -> zlen block = max -> 16 <= max <= 2147479552 ->
  forall fuel offset, 0 <= offset <= max -> max - offset < Z.of_nat fuel ->
  exists r, dbh_walk fuel block max str offset = Ok r /\ (r = -1 \/ r = 0 \/ r = 1).
Proof.
  intros Hb HL Hm. induction fuel as [|fuel IH]; intros offset H0 HF; [lia|]. cbn [dbh_walk].
  destruct (Z.ltb_spec offset max); cbn [negb]; [|eauto].
  destruct (rd_ok block offset) as (hi & -> & Zh); [lia|]. cbn [bind].
  pose proof (zget_bytes _ _ _ Hb Zh) as Bh.
  destruct (hi =? 255); [eauto|].
  unfold u32. rewrite (Z.mod_small (offset + 1)), (Z.mod_small (max - 1)) by lia.
  destruct (Z.leb_spec (max - 1) (offset + 1)); [eauto|].
  destruct (rd_ok block (offset + 1)) as (lo & -> & Zl); [lia|]. cbn [bind].
  pose proof (zget_bytes _ _ _ Hb Zl) as Bl. unfold byte in *.
  rewrite lor_shiftl8 by lia.
  destruct (_ || _); [eauto|].
  rewrite (Z.mod_small (offset + 1 + 1)) by lia.
  rewrite (Z.mod_small (offset + 1 + 1 + (hi * 256 + lo))) by lia.
  destruct (Z.ltb_spec max (offset + 1 + 1 + (hi * 256 + lo))); [eauto|].
  destruct (Z.eqb_spec (hi * 256 + lo) (zlen str)) as [E|N]; cbn [negb].
  - destruct (dbh_cmp_ok block str (offset + 1 + 1) (offset + 1 + 1 + (hi * 256 + lo)) (hi * 256 + lo))
      as (m & o & -> & Hmo); try lia. cbn [bind].
    destruct (Z.eqb_spec m 0); [eauto|]. apply IH; lia.
  - apply IH; lia.
Qed.

Lemma has_string_ok b str : valid_image b -> bh_size b <> 0 ->
  exists r, dbh_has_string b str = Ok r /\ (r = -1 \/ r = 0 \/ r = 1).
Proof.
  intros (Hb & HL & Hm & Hs) Hz. unfold dbh_has_string.
  destruct (_ || _); [eauto|].
  destruct (Z.eqb_spec (bh_size b) 0); [congruence|].
  set (bucket := _ mod bh_size b).
  assert (0 <= bucket < bh_size b) by (unfold bucket; apply Z.mod_pos_bound; lia).
  set (off := u32 (16 + u32 (4 * bucket))).
  assert (exists v, dbh_read32 (bh_block b) off (bh_max b) = Ok v /\ 0 <= v < 4294967296) as (v & -> & Hv).
  { destruct (Z_le_dec off (bh_max b)).
    - apply read32_spec; auto; try lia. unfold off, u32. apply Z.mod_pos_bound. lia.
    - exists 0. split; [|lia]. apply read32_high; [|lia].
      unfold off, u32. lia. }
  cbn [bind]. destruct (Z.eqb_spec v 0); [eauto|].
  unfold u32. rewrite (Z.mod_small (bh_max b - 1)) by lia.
  destruct (Z.leb_spec (bh_max b - 1) v); [eauto|].
  apply dbh_walk_ok; auto; try lia. unfold zlen in HL. lia.
Qed.

Lemma has_string_zero_size b str :
  zlen str <= 65280 -> bh_size b = 0 -> dbh_has_string b str = Bad DivZero.
Proof.
  intros H0 H1. unfold dbh_has_string. pose proof (zlen_nonneg str).
  replace ((zlen str <? 0) || (65280 <? zlen str)) with false by lia. rewrite H1. reflexivity.
Qed.
