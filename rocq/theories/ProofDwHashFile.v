(** The cache file: what is written, and what reading does. *)
From Verif Require Import CBase Bits ModelDwHash ModelDwHashFile SpecCache SpecCacheRun SpecCacheFile ProofRing ProofDwHashFila ProofDwHashChain ProofDwHashInv ProofDwHashRefine ProofCacheSpec.

(** *** Numbers *)
Lemma byte_of_val num sh : 0 <= num -> 0 <= sh -> byte_of num sh = num / 2 ^ sh mod 256.
Proof.
  intros Hn Hs. unfold byte_of, u8. rewrite land_255, Z.shiftr_div_pow2 by lia. rewrite Z.mod_mod by lia. reflexivity.
Qed.
Lemma byte_of_byte num sh : byte (byte_of num sh).
Proof. unfold byte_of, byte. rewrite land_255. pose proof (Z.mod_pos_bound (u8 (Z.shiftr num sh)) 256). lia. Qed.

Lemma lor_byte num sh : 0 <= num -> 0 <= sh ->
  Z.lor (num / 2 ^ (sh + 8) * 2 ^ (sh + 8)) (Z.shiftl (byte_of num sh) sh) = num / 2 ^ sh * 2 ^ sh.
Proof.
  intros Hn Hs. rewrite byte_of_val by lia. rewrite Z.shiftl_mul_pow2 by lia.
  set (q := num / 2 ^ sh).
  assert (num / 2 ^ (sh + 8) = q / 256) as -> by (unfold q; rewrite Z.pow_add_r, <- Z.div_div by lia; reflexivity).
  assert (0 < 2 ^ sh) by lia.
  pose proof (Z.mod_pos_bound q 256).
  rewrite lor_add_pow2; [|lia|rewrite Z.pow_add_r by lia; change (2 ^ 8) with 256; nia].
  rewrite Z.pow_add_r by lia. change (2 ^ 8) with 256. pose proof (Z.div_mod q 256). nia.
Qed.

Lemma lor_byte' num sh t : t = sh + 8 -> 0 <= num -> 0 <= sh ->
  Z.lor (num / 2 ^ t * 2 ^ t) (Z.shiftl (byte_of num sh) sh) = num / 2 ^ sh * 2 ^ sh.
Proof. intros ->. apply lor_byte. Qed.

Lemma getc_byte b r : byte b -> getc (mkhandle (b :: r) false) = (b, mkhandle r false).
Proof. unfold byte, getc. intros Hb. cbn. rewrite land_255, Z.mod_small by lia. reflexivity. Qed.

Lemma get_put32 n r : 0 <= n < 2 ^ 31 ->
  dwh_get_int32 (mkhandle (dwh_put_int32 n ++ r) false) = (n, mkhandle r false).
Proof.
  intros Hn. unfold dwh_put_int32. replace (n <? 0) with false by lia. cbn [map app].
  unfold dwh_get_int32, get_int. cbn [eof]. rewrite (getc_byte _ _ (byte_of_byte _ _)). cbn [eof].
  replace (127 <? byte_of n 24) with false by (rewrite byte_of_val by lia; lia).
  assert (Z.shiftl (byte_of n 24) 24 = n / 2 ^ 24 * 2 ^ 24) as ->.
  { rewrite byte_of_val, Z.shiftl_mul_pow2 by lia. rewrite (Z.mod_small (n / 2 ^ 24)) by lia. reflexivity. }
  cbn [get_bytes]. rewrite (getc_byte _ _ (byte_of_byte _ _)). cbn [eof]. rewrite (lor_byte' n 16 24) by lia.
  cbn [get_bytes]. rewrite (getc_byte _ _ (byte_of_byte _ _)). cbn [eof]. rewrite (lor_byte' n 8 16) by lia.
  cbn [get_bytes]. rewrite (getc_byte _ _ (byte_of_byte _ _)). cbn [eof]. rewrite (lor_byte' n 0 8) by lia.
  f_equal. change (2 ^ 0) with 1. rewrite Z.div_1_r. lia.
Qed.
Lemma get_put64 n r : 0 <= n < 2 ^ 63 ->
  dwh_get_int64 (mkhandle (dwh_put_int64 n ++ r) false) = (n, mkhandle r false).
Proof.
  intros Hn. unfold dwh_put_int64. replace (n <? 0) with false by lia. cbn [map app].
  unfold dwh_get_int64, get_int. cbn [eof]. rewrite (getc_byte _ _ (byte_of_byte _ _)). cbn [eof].
  replace (127 <? byte_of n 56) with false by (rewrite byte_of_val by lia; lia).
  assert (Z.shiftl (byte_of n 56) 56 = n / 2 ^ 56 * 2 ^ 56) as ->.
  { rewrite byte_of_val, Z.shiftl_mul_pow2 by lia. rewrite (Z.mod_small (n / 2 ^ 56)) by lia. reflexivity. }
  cbn [get_bytes]. rewrite (getc_byte _ _ (byte_of_byte _ _)). cbn [eof]. rewrite (lor_byte' n 48 56) by lia.
  cbn [get_bytes]. rewrite (getc_byte _ _ (byte_of_byte _ _)). cbn [eof]. rewrite (lor_byte' n 40 48) by lia.
  cbn [get_bytes]. rewrite (getc_byte _ _ (byte_of_byte _ _)). cbn [eof]. rewrite (lor_byte' n 32 40) by lia.
  cbn [get_bytes]. rewrite (getc_byte _ _ (byte_of_byte _ _)). cbn [eof]. rewrite (lor_byte' n 24 32) by lia.
  cbn [get_bytes]. rewrite (getc_byte _ _ (byte_of_byte _ _)). cbn [eof]. rewrite (lor_byte' n 16 24) by lia.
  cbn [get_bytes]. rewrite (getc_byte _ _ (byte_of_byte _ _)). cbn [eof]. rewrite (lor_byte' n 8 16) by lia.
  cbn [get_bytes]. rewrite (getc_byte _ _ (byte_of_byte _ _)). cbn [eof]. rewrite (lor_byte' n 0 8) by lia.
  f_equal. change (2 ^ 0) with 1. rewrite Z.div_1_r. lia.
Qed.

Lemma read_bytes_app s r : bytes s -> read_bytes (length s) (mkhandle (s ++ r) false) = (s, mkhandle r false).
Proof.
  intros Hs. induction s as [|b s IH]; cbn [length app read_bytes]; [reflexivity|].
  apply Forall_cons_iff in Hs as [Hb Hs]. rewrite (getc_byte _ _ Hb). cbn [eof]. rewrite (IH Hs). reflexivity.
Qed.
Lemma map_land255 s : bytes s -> map (fun b => Z.land b 255) s = s.
Proof.
  intros Hs. induction s as [|b s IH]; cbn [map]; [reflexivity|]. apply Forall_cons_iff in Hs as [Hb Hs].
  rewrite (IH Hs), land_255, Z.mod_small by (unfold byte in Hb; lia). reflexivity.
Qed.

Lemma get_put_dwstr s r : bytes s -> zlen s <= 16777216 ->
  dwh_get_dwstr (mkhandle (dwh_put_dwstr s ++ r) false) = Ok (Some s, mkhandle r false).
Proof.
  intros Hs Hl. unfold dwh_put_dwstr. replace (16777216 <? zlen s) with false by lia. rewrite <- app_assoc.
  pose proof (zlen_nonneg s). unfold dwh_get_dwstr. rewrite get_put32 by lia.
  replace (zlen s =? -2) with false by lia. replace (zlen s <? 0) with false by lia.
  replace (zlen s =? 2147483647) with false by lia. replace (134217728 <=? zlen s + 1) with false by lia.
  rewrite (map_land255 s Hs). unfold zlen. rewrite Nat2Z.id, (read_bytes_app s r Hs). reflexivity.
Qed.

(** *** Entries that can be kept in a file *)
Definition enc_entry (en : centry) : list Z :=
  if (c_exp en =? 0) || (zlen (c_key en) =? 0) || (zlen (c_val en) =? 0) then []
  else dwh_put_dwstr (c_key en) ++ dwh_put_dwstr (c_val en) ++ dwh_put_int64 (c_exp en).

Lemma get_enc_entry en r : storable_entry en ->
  dwh_get_hash_element (mkhandle (enc_entry en ++ r) false) =
    Ok (Some (c_key en, c_val en, c_exp en), mkhandle r false).
Proof.
  intros (Hk & Hv & Lk & Lv & He). unfold enc_entry.
  replace ((c_exp en =? 0) || (zlen (c_key en) =? 0) || (zlen (c_val en) =? 0)) with false by lia.
  rewrite <- !app_assoc. unfold dwh_get_hash_element. rewrite get_put_dwstr by (auto; lia). cbn [bind].
  rewrite get_put_dwstr by (auto; lia). cbn [bind]. rewrite get_put64 by lia.
  replace ((c_exp en <? 2) || (zlen (c_key en) =? 0) || (zlen (c_val en) =? 0)) with false by lia. reflexivity.
Qed.
Lemma put32_len n : zlen (dwh_put_int32 n) = 4.
Proof. unfold dwh_put_int32. destruct (n <? 0); reflexivity. Qed.
Lemma enc_len en : storable_entry en -> (1 <= length (enc_entry en))%nat.
Proof.
  intros (Hk & Hv & Lk & Lv & He). unfold enc_entry.
  replace ((c_exp en =? 0) || (zlen (c_key en) =? 0) || (zlen (c_val en) =? 0)) with false by lia.
  rewrite app_length. unfold dwh_put_dwstr at 1. destruct (16777216 <? zlen (c_key en)).
  - cbn. lia.
  - rewrite app_length. assert (length (dwh_put_int32 (zlen (c_key en))) = 4%nat); [|lia].
    unfold dwh_put_int32. destruct (zlen (c_key en) <? 0); reflexivity.
Qed.

Section File.
Context (H : list Z -> Z) (Hpos : forall k, 0 <= H k).

(** *** Writing *)
Lemma enc_elem h f en a e : ent_at (h_filas h) h f en -> recof (h_filas h) f = Some a -> h_elems h a = Some e ->
  dwh_put_hash_element e = enc_entry en.
Proof.
  intros (a' & Hr & Hd) Hr' He. rewrite Hr' in Hr. injection Hr as <-. rewrite (dat_elem _ _ _ He) in Hd.
  injection Hd as E1 E2 _ _ E3. unfold dwh_put_hash_element, enc_entry. rewrite E1, E2, E3. reflexivity.
Qed.

Lemma write_back x h C F P rc pm (I : Inv H x h C F P rc pm) : forall A RA z en B fuel idx,
  F = A ++ z :: B -> Forall2 (ent_at (h_filas h) h) A RA -> ent_at (h_filas h) h z en ->
  (length A < fuel)%nat -> idx + zlen A < 16777217 ->
  write_loop fuel idx h z = Ok (concat (map enc_entry (rev (RA ++ [en])))).
Proof.
  pose proof (iv_fila _ _ _ _ _ _ _ _ I) as FO.
  intros A. induction A as [|y A IH] using rev_ind; intros RA z en B fuel idx EF HRA Hen Hfu Hidx.
  - inversion HRA; subst RA. cbn [app] in *. destruct fuel as [|fuel]; [cbn in Hfu; lia|]. cbn [write_loop].
    rewrite zlen_nil in Hidx. replace (16777217 <=? idx) with false by lia.
    assert (0 < z) as Hz by (destruct (fo_addr _ _ FO z); [rewrite EF; left; reflexivity|lia]).
    pose proof Hen as (a & Hr & Hd). pose proof Hr as Hr'. unfold recof in Hr'. destruct (h_filas h z) as [fl|] eqn:Ef; [|discriminate]. cbn in Hr'. injection Hr' as Hr'.
    unfold gf. replace (z =? 0) with false by lia. rewrite Ef. cbn [bind].
    apply dat_some in Hd as (e & He & _). assert (0 < a) by (apply (iv_addr _ _ _ _ _ _ _ _ I); congruence).
    rewrite Hr'. replace (a =? 0) with false by lia. rewrite (ge_ok h a e) by (auto; lia). cbn [bind].
    rewrite (enc_elem _ _ _ _ _ Hen Hr He). rewrite (fo_head _ _ FO), EF. cbn [hd]. rewrite Z.eqb_refl.
    cbn. rewrite app_nil_r. reflexivity.
  - apply Forall2_app_inv_l in HRA as (RA' & RY & HRA & HRY & ->).
    inversion HRY as [|? eny ? ? Heny HN]; subst. inversion HN; subst.
    rewrite app_length in Hfu. cbn in Hfu. rewrite zlen_app, zlen_cons, zlen_nil in Hidx.
    destruct fuel as [|fuel]; [lia|]. cbn [write_loop]. pose proof (zlen_nonneg A). replace (16777217 <=? idx) with false by lia.
    assert (0 < z) as Hz by (destruct (fo_addr _ _ FO z); [apply in_app_iff; right; left; reflexivity|lia]).
    pose proof Hen as (a & Hr & Hd). pose proof Hr as Hr'. unfold recof in Hr'. destruct (h_filas h z) as [fl|] eqn:Ef; [|discriminate]. cbn in Hr'. injection Hr' as Hr'.
    unfold gf. replace (z =? 0) with false by lia. rewrite Ef. cbn [bind].
    apply dat_some in Hd as (e & He & _). assert (0 < a) by (apply (iv_addr _ _ _ _ _ _ _ _ I); congruence).
    rewrite Hr'. replace (a =? 0) with false by lia. rewrite (ge_ok h a e) by (auto; lia). cbn [bind].
    rewrite (enc_elem _ _ _ _ _ Hen Hr He).
    assert (z =? h_fila h = false) as ->.
    { rewrite (fo_head _ _ FO). pose proof (fo_nodup _ _ FO) as HN2. apply Z.eqb_neq. intros E.
      rewrite <- app_assoc in HN2, E. destruct A as [|a0 A]; cbn [app hd] in HN2, E; apply NoDup_cons_iff in HN2 as [HN2 _]; apply HN2; subst.
      - left. reflexivity.
      - apply in_app_iff. right. right. left. reflexivity. }
    assert (f_last fl = y) as ->.
    { pose proof (fo_cyc _ _ FO) as HC. assert (path (nxt (h_filas h)) (lst (h_filas h)) ((A ++ [y]) ++ z :: B)) as HP.
      { unfold cyc in HC. destruct ((A ++ [y]) ++ z :: B) as [|g G] eqn:EG; [exact Logic.I|]. rewrite <- EG in *.
        clear - HC. revert HC. generalize ((A ++ [y]) ++ z :: B). intros l. induction l as [|u l IHl]; [intros; exact Logic.I|].
        destruct l as [|w l]; [intros; exact Logic.I|]. cbn [app path] in *. intros (P1 & P2 & P3). split; [exact P1|]. split; [exact P2|]. apply IHl. exact P3. }
      rewrite <- app_assoc in HP. cbn [app] in HP. apply path_app in HP as [_ HP]. cbn [path] in HP.
      destruct HP as (_ & HL & _). unfold lst in HL. rewrite Ef in HL. cbn in HL. congruence. }
    rewrite (IH RA' y eny (z :: B) fuel (idx + 1)); [|rewrite <- app_assoc; reflexivity|exact HRA|exact Heny|lia|lia].
    cbn [bind]. rewrite (rev_app_distr (RA' ++ [eny]) [en]). cbn [rev app map concat]. reflexivity.
Qed.

Lemma write_ok h c : Rel H h c -> zlen (recent c) < 16777217 ->
  dwh_write_hash h = Ok (dwh_put_int32 4478771 ++ dwh_put_int32 0 ++ concat (map enc_entry (rev (recent c)))).
Proof.
  intros (HM & C & F & P & I) HL. unfold dwh_write_hash. pose proof (iv_fila _ _ _ _ _ _ _ _ I) as FO.
  pose proof (iv_absF _ _ _ _ _ _ _ _ I) as HAF.
  destruct F as [|f0 R].
  - rewrite (fo_head _ _ FO). cbn [hd Z.eqb bind]. inversion HAF as [E|]. reflexivity.
  - rewrite (fo_head _ _ FO). cbn [hd].
    assert (0 < f0) as Hf0 by (destruct (fo_addr _ _ FO f0 (or_introl eq_refl)); lia).
    replace (f0 =? 0) with false by lia.
    destruct (cyc_last _ _ _ _ (fo_cyc _ _ FO)) as (A & l & EF & Hl & _).
    unfold lst in Hl. destruct (h_filas h f0) as [top|] eqn:Et; [|discriminate]. cbn in Hl. injection Hl as Hl.
    unfold gf. replace (f0 =? 0) with false by lia. rewrite Et. cbn [bind]. rewrite Hl. clear Hl.
    rewrite EF in HAF. pose proof (Forall2_length _ _ _ HAF) as HLen. apply Forall2_app_inv_l in HAF as (RA & Re & HRA & HRe & ER).
    inversion HRe as [|? en ? ? Hen HN]; subst. inversion HN; subst.
    assert ((length A < Z.to_nat (h_brk h))%nat) as Hfu.
    { assert (length (f0 :: R) <= length (seq 1 (Z.to_nat (h_brk h) - 1)))%nat as HLe.
      { rewrite <- (map_length Z.to_nat). apply NoDup_incl_length.
        - pose proof (fo_nodup _ _ FO) as HND. pose proof (fo_addr _ _ FO) as HAd. clear - HND HAd.
          induction (f0 :: R) as [|q L IHL]; cbn [map]; [constructor|]. apply NoDup_cons_iff in HND as [N1 N2]. constructor.
          + intros C0. apply in_map_iff in C0 as (w & E & Hw). assert (w = q) by (pose proof (HAd q (or_introl eq_refl)); pose proof (HAd w (or_intror Hw)); lia). subst w. contradiction.
          + apply IHL; [exact N2|]. intros w Hw. apply HAd. right. exact Hw.
        - intros n Hn. apply in_map_iff in Hn as (w & <- & Hw). apply in_seq. pose proof (fo_addr _ _ FO w Hw). lia. }
      rewrite seq_length, EF, app_length in HLe. cbn in HLe. lia. }
    rewrite (write_back 0 h C (f0 :: R) P _ _ I A RA l en [] _ 0 EF HRA Hen Hfu); [|pose proof (Forall2_length _ _ _ HRA); rewrite ER in HL; rewrite zlen_app, zlen_cons, zlen_nil in HL; unfold zlen in *; lia].
    rewrite ER. reflexivity.
Qed.

(** *** Reading what was written *)
Lemma uncrowded_app f a b p cap : uncrowded f (mkcache (a ++ b) p cap) -> uncrowded f (mkcache b p cap).
Proof.
  intros HU n. specialize (HU n). cbn [recent perm] in *. rewrite <- app_assoc, filter_app, app_length in HU. lia.
Qed.

Lemma read_back jfila mask : forall es done h cap counter fuel r,
  Rel H h (mkcache done [] cap) -> h_mask h = mask ->
  uncrowded (fun k => Z.land (H k) mask) (mkcache (rev es ++ done) [] cap) ->
  NoDup (map c_key (rev es ++ done)) ->
  Forall storable_entry es ->
  zlen es + zlen done < cap -> counter + zlen es < 16777218 ->
  (length (concat (map enc_entry es)) + length r < fuel)%nat ->
  exists h', read_loop fuel H jfila (fun _ => 0) counter h (mkhandle (concat (map enc_entry es) ++ r) false) =
     read_loop (fuel - length es) H jfila (fun _ => 0) (counter + zlen es) h' (mkhandle r false) /\
    Rel H h' (mkcache (rev es ++ done) [] cap) /\ h_mask h' = mask.
Proof.
  induction es as [|en es IH]; intros done h cap counter fuel r HR HK HU HN HS HL HC HF.
  - cbn [map concat app rev length]. exists h. rewrite Nat.sub_0_r. change (zlen (@nil centry)) with 0. rewrite Z.add_0_r. auto.
  - apply Forall_cons_iff in HS as [Hen HS]. cbn [map concat] in HF |- *. rewrite zlen_cons in HL, HC.
    rewrite app_length in HF. pose proof (enc_len en Hen) as HE. pose proof (zlen_nonneg es). pose proof (zlen_nonneg done).
    destruct fuel as [|fuel]; [lia|]. cbn [read_loop]. cbn [eof orb]. replace (16777218 <=? counter) with false by lia.
    rewrite <- app_assoc, (get_enc_entry en _ Hen). cbn [bind].
    cbn [rev] in HU, HN. rewrite <- app_assoc in HU, HN. cbn [app] in HU, HN.
    destruct HR as (HM & C & F & P & I). cbn [recent perm capacity] in HM, I.
    destruct (place_recent H Hpos h C F P done [] cap (c_key en) (c_val en) (jfila counter) (c_exp en) HM I) as (h1 & E1 & R1 & K1).
    { rewrite HK. apply (uncrowded_app _ (rev es ++ [en])). rewrite <- app_assoc. exact HU. }
    { reflexivity. }
    { destruct Hen as (_ & _ & _ & _ & He). lia. }
    unfold alloc_elem in *. cbn [snd] in E1. rewrite E1. cbn [bind]. change (1 =? -1) with false. cbv iota.
    assert (c_insert (mkcache done [] cap) (mkentry (c_key en) (c_val en) (c_exp en)) = mkcache (en :: done) [] cap) as EI.
    { unfold c_insert. cbn [recent perm capacity c_key]. assert (c_remove (c_key en) done = done) as ->.
      { apply remove_none. intros e' He' Ek. rewrite map_app in HN. apply NoDup_remove_2 in HN. apply HN.
        apply in_app_iff. right. rewrite <- Ek. apply in_map. exact He'. }
      rewrite zlen_cons. change (zlen (@nil centry)) with 0. replace (cap <=? _) with false by lia. destruct en; reflexivity. }
    rewrite EI in R1.
    destruct (IH (en :: done) h1 cap (counter + 1) fuel r R1) as (h' & E' & R' & K').
    { congruence. } { exact HU. } { exact HN. } { exact HS. } { rewrite zlen_cons. lia. } { lia. } { lia. }
    exists h'. rewrite E'. cbn [length rev]. rewrite zlen_cons. split; [|split; [rewrite <- app_assoc; exact R'|exact K']].
    replace (S fuel - S (length es))%nat with (fuel - length es)%nat by lia. f_equal. lia.
Qed.

Lemma read_end fuel jfila jimm counter h : read_loop (S fuel) H jfila jimm counter h (mkhandle [] false) = Ok h.
Proof. cbn [read_loop eof orb]. destruct (16777218 <=? counter); reflexivity. Qed.

Lemma read_max_range cs : 33 <= read_max cs <= 16777217.
Proof. unfold read_max. destruct ((32 <? cs) && (cs <? 16777218)) eqn:E; lia. Qed.
Lemma init_read_max cs : init_elements cs (read_max cs) = read_max cs.
Proof.
  pose proof (read_max_range cs). unfold init_elements. replace (read_max cs =? 0) with false by lia. cbn [andb].
  replace (read_max cs <? 2) with false by lia. replace (134217728 <? read_max cs) with false by lia. reflexivity.
Qed.
End File.

Lemma concat_len_ge es : Forall storable_entry es -> (length es <= length (concat (map enc_entry es)))%nat.
Proof.
  induction 1 as [|en es Hen HS IH]; cbn [map concat length]; [lia|]. rewrite app_length. pose proof (enc_len en Hen). lia.
Qed.

(** Written by a table for hash function [H], read back with hash function [H']. *)
Lemma file_round_trip H H' (Hpos : forall k, 0 <= H k) (Hpos' : forall k, 0 <= H' k) h c cs jfila :
  cs < 2 ^ 31 -> Rel H h c -> NoDup (map c_key (recent c)) -> Forall storable_entry (recent c) -> zlen (recent c) < read_max cs ->
  uncrowded (fun k => Z.land (H' k) (h_mask (dwh_hash_init cs (read_max cs)))) (mkcache (recent c) [] (read_max cs)) ->
  exists file h', dwh_write_hash h = Ok file /\
    dwh_read_hash H' jfila (fun _ => 0) cs file = Ok h' /\
    Rel H' h' (mkcache (recent c) [] (read_max cs)) /\ h_mask h' = h_mask (dwh_hash_init cs (read_max cs)).
Proof.
  intros Hcs HR HN HS HL HU. pose proof (read_max_range cs) as HMx.
  eexists. rewrite (write_ok H Hpos h c HR) by lia.
  assert (Forall storable_entry (rev (recent c))) as HS' by (apply Forall_rev; exact HS).
  destruct (read_back H' Hpos' jfila (h_mask (dwh_hash_init cs (read_max cs))) (rev (recent c)) [] (dwh_hash_init cs (read_max cs)) (read_max cs) 0
             (S (length (dwh_put_int32 4478771 ++ dwh_put_int32 0 ++ concat (map enc_entry (rev (recent c)))))) []) as (h' & E & R & K).
  - pose proof (init_rel H' cs (read_max cs) Hcs) as HI. rewrite init_read_max in HI. exact HI.
  - reflexivity.
  - rewrite rev_involutive, app_nil_r. exact HU.
  - rewrite rev_involutive, app_nil_r. exact HN.
  - exact HS'.
  - unfold zlen in *. rewrite rev_length. cbn [length]. lia.
  - unfold zlen in *. rewrite rev_length. lia.
  - rewrite !app_length. cbn [length]. lia.
  - exists h'. split; [reflexivity|]. rewrite rev_involutive, app_nil_r in R. split; [|split; [exact R|exact K]].
    unfold dwh_read_hash. rewrite get_put32 by lia. change (4478771 =? 4478771) with true. cbn [negb].
    rewrite get_put32 by lia. rewrite app_nil_r in E. rewrite E.
    pose proof (concat_len_ge _ HS') as HCL. rewrite !app_length.
    match goal with |- read_loop ?n _ _ _ _ _ _ = _ => destruct n as [|m] eqn:En end; [exfalso; lia|].
    apply read_end.
Qed.

(** *** Reading anything *)
Lemma getc_len f b f' : getc f = (b, f') -> (length (rest f') <= length (rest f))%nat /\ byte b /\
  (eof f' = false -> eof f = false /\ (length (rest f') < length (rest f))%nat).
Proof.
  unfold getc. destruct (rest f) as [|x r] eqn:E; intros EQ; injection EQ as <- <-; cbn [rest eof length].
  - split; [lia|]. split; [unfold byte; lia|discriminate].
  - split; [lia|]. split; [unfold byte; rewrite land_255; pose proof (Z.mod_pos_bound x 256); lia|]. intros ->. split; [reflexivity|lia].
Qed.
Lemma get_bytes_len sh : forall out f n f', get_bytes sh out f = (n, f') -> (length (rest f') <= length (rest f))%nat /\ (n <> -2 -> eof f' = eof f).
Proof.
  induction sh as [|s sh IH]; intros out f n f'; cbn [get_bytes].
  - intros E. injection E as <- <-. auto.
  - destruct (getc f) as [b f1] eqn:E1. destruct (getc_len _ _ _ E1) as (L1 & _ & L2). destruct (eof f1) eqn:Ee.
    + intros E. injection E as <- <-. split; [exact L1|]. congruence.
    + intros E. destruct (IH _ _ _ _ E) as [L3 L4]. split; [lia|]. intros Hn. rewrite (L4 Hn). destruct (L2 eq_refl). congruence.
Qed.
Lemma get_bytes_nonneg sh : Forall (fun s => 0 <= s) sh -> forall out f n f', 0 <= out -> get_bytes sh out f = (n, f') -> 0 <= n \/ n = -2.
Proof.
  induction 1 as [|s sh Hs HS IH]; intros out f n f' Ho; cbn [get_bytes].
  - intros E. injection E as <- <-. auto.
  - destruct (getc f) as [b f1] eqn:E1. destruct (getc_len _ _ _ E1) as (L1 & Hb & L2). destruct (eof f1) eqn:Ee.
    + intros E. injection E as <- <-. auto.
    + apply IH. apply Z.lor_nonneg. split; [exact Ho|]. apply Z.shiftl_nonneg. apply Hb.
Qed.
Lemma get_int_len top sh f n f' : get_int top sh f = (n, f') -> (length (rest f') <= length (rest f))%nat /\
  (n <> -2 -> eof f = false /\ (length (rest f') < length (rest f))%nat).
Proof.
  unfold get_int. destruct (eof f) eqn:Ef.
  - intros E. injection E as <- <-. split; [lia|congruence].
  - destruct (getc f) as [b f1] eqn:E1. destruct (getc_len _ _ _ E1) as (L1 & Hb & L2). destruct (127 <? b) eqn:Eb.
    + intros E. injection E as <- <-. split; [exact L1|]. destruct (eof f1) eqn:Ee; [congruence|]. intros _. destruct (L2 eq_refl). auto.
    + intros E. destruct (get_bytes_len _ _ _ _ _ E) as [L3 L4]. split; [lia|]. intros Hn. split; [reflexivity|].
      destruct (eof f1) eqn:Ee; [|destruct (L2 eq_refl); lia].
      exfalso. unfold getc in E1. destruct (rest f); injection E1 as <- <-; cbn in *; [lia|congruence].
Qed.
Lemma read_bytes_len n : forall f s f', read_bytes n f = (s, f') -> (length (rest f') <= length (rest f))%nat /\ length s = n /\ bytes s.
Proof.
  induction n as [|n IH]; intros f s f'; cbn [read_bytes].
  - intros E. injection E as <- <-. split; [lia|]. split; [reflexivity|constructor].
  - destruct (getc f) as [b f1] eqn:E1. destruct (getc_len _ _ _ E1) as (L1 & Hb & _). destruct (read_bytes n f1) as [l f2] eqn:E2.
    destruct (IH _ _ _ E2) as (L2 & L3 & L4). intros E. injection E as <- <-. split; [lia|]. cbn [length]. split; [congruence|].
    constructor; [|exact L4]. destruct (eof f1); [unfold byte; lia|exact Hb].
Qed.

Lemma get_dwstr_spec f : dwh_get_dwstr f = Bad SignedOverflow \/
  exists o f', dwh_get_dwstr f = Ok (o, f') /\ (length (rest f') <= length (rest f))%nat /\
    match o with Some s => bytes s /\ zlen s < 134217728 /\ eof f = false /\ (length (rest f') < length (rest f))%nat | None => True end.
Proof.
  unfold dwh_get_dwstr. destruct (dwh_get_int32 f) as [len f1] eqn:E1. destruct (get_int_len _ _ _ _ _ E1) as [L1 L2].
  destruct (len =? -2) eqn:Em; [right; exists None, f1; auto|].
  destruct ((if len <? 0 then 0 else len) =? 2147483647); [left; reflexivity|right].
  destruct (134217728 <=? (if len <? 0 then 0 else len) + 1) eqn:Ec; [exists None, f1; auto|].
  destruct (read_bytes (Z.to_nat (if len <? 0 then 0 else len)) f1) as [s f2] eqn:E2. destruct (read_bytes_len _ _ _ _ E2) as (L3 & L4 & L5).
  exists (Some s), f2. split; [reflexivity|]. destruct (L2 ltac:(lia)) as [L6 L7]. split; [lia|]. split; [exact L5|]. split; [|split; [exact L6|lia]].
  unfold zlen. rewrite L4. destruct (len <? 0); lia.
Qed.

Lemma get_element_spec f : dwh_get_hash_element f = Bad SignedOverflow \/
  exists o f', dwh_get_hash_element f = Ok (o, f') /\
    match o with
    | Some (k, v, ex) => (length (rest f') < length (rest f))%nat /\ bytes k /\ bytes v /\ 0 < zlen k < 134217728 /\ 0 < zlen v < 134217728 /\ 2 <= ex
    | None => True end.
Proof.
  unfold dwh_get_hash_element. destruct (get_dwstr_spec f) as [->|(k & f1 & -> & L1 & K1)]; [left; reflexivity|]. cbn [bind].
  destruct (get_dwstr_spec f1) as [->|(v & f2 & -> & L2 & K2)]; [left; reflexivity|]. cbn [bind]. right.
  destruct (dwh_get_int64 f2) as [ex f3] eqn:E3. destruct (get_int_len _ _ _ _ _ E3) as [L3 _].
  destruct k as [k|]; [|eexists _, _; split; [reflexivity|exact I]]. destruct v as [v|]; [|eexists _, _; split; [reflexivity|exact I]].
  destruct ((ex <? 2) || (zlen k =? 0) || (zlen v =? 0)) eqn:Ec; [eexists _, _; split; [reflexivity|exact I]|].
  eexists _, _; split; [reflexivity|]. destruct K1 as (B1 & Z1 & _ & W1), K2 as (B2 & Z2 & _ & W2).
  pose proof (zlen_nonneg k). pose proof (zlen_nonneg v). split; [lia|]. repeat split; try assumption; lia.
Qed.

Lemma read_any H (Hpos : forall k, 0 <= H k) jfila : forall fuel counter h f c,
  Rel H h c -> perm c = [] -> capacity c <= 32000 -> zlen (recent c) <= Z.max 0 (capacity c - 1) ->
  Forall (fun en => bytes (c_key en) /\ bytes (c_val en) /\ 0 < zlen (c_key en) /\ 0 < zlen (c_val en) /\ 2 <= c_exp en) (recent c) ->
  (length (rest f) < fuel)%nat ->
  read_loop fuel H jfila (fun _ => 0) counter h f = Bad SignedOverflow \/
  exists h' c', read_loop fuel H jfila (fun _ => 0) counter h f = Ok h' /\ Rel H h' c' /\ perm c' = [] /\ capacity c' = capacity c /\
    zlen (recent c') <= Z.max 0 (capacity c - 1) /\
    Forall (fun en => bytes (c_key en) /\ bytes (c_val en) /\ 0 < zlen (c_key en) /\ 0 < zlen (c_val en) /\ 2 <= c_exp en) (recent c').
Proof.
  induction fuel as [|fuel IH]; intros counter h f c HR HP HC HL HFo HF; [lia|]. cbn [read_loop].
  destruct (eof f || (16777218 <=? counter)); [right; exists h, c; auto 10|].
  destruct (get_element_spec f) as [->|(o & f1 & -> & K)]; [left; reflexivity|]. cbn [bind].
  destruct o as [[[k v] ex]|]; [|right; exists h, c; auto 10]. destruct K as (Lf & Bk & Bv & Zk & Zv & He).
  destruct c as [rc pm cap]. cbn [recent perm capacity] in *. subst pm.
  pose proof HR as (HM & C & F & P & I). cbn [recent perm capacity] in *.
  destruct (place_recent H Hpos h C F P rc [] cap k v (jfila counter) ex HM I) as (h1 & E1 & R1 & K1).
  { apply small_uncrowded. cbn [recent perm]. change (zlen (@nil centry)) with 0. lia. }
  { reflexivity. } { lia. }
  unfold alloc_elem in *. cbn [snd] in E1. rewrite E1. cbn [bind]. change (1 =? -1) with false. cbv iota.
  destruct (insert_size (mkcache rc [] cap) (mkentry k v ex)) as (S1 & S2 & S3). cbn [perm capacity recent] in S1, S2, S3.
  destruct (IH (counter + 1) h1 f1 _ R1) as [E|(h2 & c2 & E & R2 & P2 & C2 & L2 & F2)].
  - exact S2.
  - rewrite S3. exact HC.
  - rewrite S3. change (zlen (@nil centry)) with 0 in S1. lia.
  - unfold c_insert. cbn [recent c_key perm capacity].
    assert (Forall (fun en => bytes (c_key en) /\ bytes (c_val en) /\ 0 < zlen (c_key en) /\ 0 < zlen (c_val en) /\ 2 <= c_exp en) (mkentry k v ex :: c_remove k rc)) as HFF.
    { constructor; [cbn; repeat split; auto; lia|]. unfold c_remove. apply Forall_forall. intros e' He'. apply filter_In in He' as [He' _]. rewrite Forall_forall in HFo. auto. }
    destruct (cap <=? _); [|exact HFF]. clear - HFF. revert HFF. generalize (mkentry k v ex :: c_remove k rc). intros l HFF.
    induction HFF as [|a l Ha Hl IHl]; [constructor|]. destruct l; [constructor|]. constructor; assumption.
  - lia.
  - left. exact E.
  - right. exists h2, c2. rewrite S3 in *. auto 10.
Qed.

Lemma read_any_file H (Hpos : forall k, 0 <= H k) jfila cs file :
  cs < 2 ^ 31 -> read_max cs <= 32000 ->
  dwh_read_hash H jfila (fun _ => 0) cs file = Fail \/ dwh_read_hash H jfila (fun _ => 0) cs file = Bad SignedOverflow \/
  exists h c, dwh_read_hash H jfila (fun _ => 0) cs file = Ok h /\ Rel H h c /\ perm c = [] /\ capacity c = read_max cs /\
    zlen (recent c) < read_max cs /\
    Forall (fun en => bytes (c_key en) /\ bytes (c_val en) /\ 0 < zlen (c_key en) /\ 0 < zlen (c_val en) /\ 2 <= c_exp en) (recent c).
Proof.
  intros Hcs Hmx. unfold dwh_read_hash. destruct (dwh_get_int32 (mkhandle file false)) as [magic f1] eqn:E1.
  destruct (get_int_len _ _ _ _ _ E1) as [L1 _]. cbn [rest] in L1.
  destruct (negb (magic =? 4478771)); [auto|]. right. destruct (dwh_get_int32 f1) as [z f2] eqn:E2. destruct (get_int_len _ _ _ _ _ E2) as [L2 _].
  pose proof (init_rel H cs (read_max cs) Hcs) as HI. rewrite init_read_max in HI. pose proof (read_max_range cs).
  destruct (read_any H Hpos jfila (S (length file)) 0 _ f2 _ HI) as [E|(h' & c' & E & R & P & Cc & L & FF)]; try (cbn [perm capacity recent empty_cache]; change (zlen (@nil centry)) with 0).
  - reflexivity.
  - exact Hmx.
  - lia.
  - constructor.
  - lia.
  - auto.
  - right. cbn [capacity empty_cache] in Cc, L. exists h', c'. repeat (split; [assumption|]). split; [lia|exact FF].
Qed.

(** The overflow needs a length field of 0x7fffffff. *)
Definition suffix (l file : list Z) : Prop := exists a, file = a ++ l.
Lemma suffix_refl l : suffix l l.
Proof. exists []. reflexivity. Qed.
Lemma suffix_trans a b c : suffix a b -> suffix b c -> suffix a c.
Proof. intros (x & ->) (y & ->). exists (y ++ x). rewrite app_assoc. reflexivity. Qed.
Lemma getc_suffix f b f' : getc f = (b, f') -> suffix (rest f') (rest f).
Proof.
  unfold getc. destruct (rest f) as [|x r]; intros E; injection E as <- <-; cbn [rest]; [apply suffix_refl|exists [x]; reflexivity].
Qed.
Lemma get_bytes_suffix sh : forall out f n f', get_bytes sh out f = (n, f') -> suffix (rest f') (rest f).
Proof.
  induction sh as [|s sh IH]; intros out f n f'; cbn [get_bytes].
  - intros E. injection E as <- <-. apply suffix_refl.
  - destruct (getc f) as [b f1] eqn:E1. apply getc_suffix in E1. destruct (eof f1).
    + intros E. injection E as <- <-. exact E1.
    + intros E. apply IH in E. eapply suffix_trans; eassumption.
Qed.
Lemma get_int_suffix top sh f n f' : get_int top sh f = (n, f') -> suffix (rest f') (rest f).
Proof.
  unfold get_int. destruct (eof f); [intros E; injection E as <- <-; apply suffix_refl|].
  destruct (getc f) as [b f1] eqn:E1. apply getc_suffix in E1. destruct (127 <? b).
  - intros E. injection E as <- <-. exact E1.
  - intros E. apply get_bytes_suffix in E. eapply suffix_trans; eassumption.
Qed.
Lemma read_bytes_suffix n : forall f s f', read_bytes n f = (s, f') -> suffix (rest f') (rest f).
Proof.
  induction n as [|n IH]; intros f s f'; cbn [read_bytes].
  - intros E. injection E as <- <-. apply suffix_refl.
  - destruct (getc f) as [b f1] eqn:E1. apply getc_suffix in E1. destruct (read_bytes n f1) as [l f2] eqn:E2.
    intros E. injection E as <- <-. apply IH in E2. eapply suffix_trans; eassumption.
Qed.
Lemma bytes_suffix l file : suffix l file -> bytes file -> bytes l.
Proof. intros (a & ->) HB. apply Forall_app in HB. apply HB. Qed.

Lemma max_int32 f f' : bytes (rest f) -> dwh_get_int32 f = (2147483647, f') ->
  exists r, rest f = [127; 255; 255; 255] ++ r.
Proof.
  intros HB. unfold dwh_get_int32, get_int. destruct (eof f) eqn:Ee; [intros E; discriminate E|].
  unfold getc at 1. destruct (rest f) as [|a [|b [|c [|d r]]]]; cbn [rest eof]; try (change (127 <? 255) with true; cbv iota; intros E; discriminate E).
  1-4: apply Forall_cons_iff in HB as [Ha HB]; rewrite land_255, Z.mod_small by (unfold byte in Ha; lia); destruct (127 <? a) eqn:Ea; [destruct (eof f); intros E; discriminate E|].
  1-3: cbn [get_bytes getc rest eof]; rewrite ?Ee; intros E; discriminate E.
  repeat (apply Forall_cons_iff in HB as [?Hb HB]). unfold byte in *.
  cbn [get_bytes getc rest eof]. rewrite Ee. rewrite !land_255, !Z.mod_small by lia. intros E. apply (f_equal fst) in E. cbn [fst] in E.
  exists r. rewrite !Z.shiftl_mul_pow2 in E by lia. change (2 ^ 0) with 1 in E.
  rewrite (lor_add_pow2 a (b * 2 ^ 16) 24) in E by lia.
  rewrite (Z.mul_comm a) in E.
  assert (2 ^ 24 * a + b * 2 ^ 16 = (a * 256 + b) * 2 ^ 16) as E1 by lia.
  replace (2 ^ 24 * a) with (a * 2 ^ 24) in E by lia. replace (a * 2 ^ 24 + b * 2 ^ 16) with ((a * 256 + b) * 2 ^ 16) in E by lia.
  rewrite (lor_add_pow2 (a * 256 + b) (c * 2 ^ 8) 16) in E by lia.
  replace ((a * 256 + b) * 2 ^ 16 + c * 2 ^ 8) with (((a * 256 + b) * 256 + c) * 2 ^ 8) in E by lia.
  rewrite (lor_add_pow2 ((a * 256 + b) * 256 + c) (d * 1) 8) in E by lia.
  cbn [app]. assert (a = 127) by lia. assert (b = 255) by lia. assert (c = 255) by lia. assert (d = 255) by lia. subst. reflexivity.
Qed.

Lemma contains_suffix l file : suffix l file -> contains_max l -> contains_max file.
Proof. intros (x & ->) (a & r & ->). exists (x ++ a), r. rewrite app_assoc. reflexivity. Qed.

Lemma get_dwstr_cases f : bytes (rest f) ->
  (dwh_get_dwstr f = Bad SignedOverflow /\ contains_max (rest f)) \/
  exists o f', dwh_get_dwstr f = Ok (o, f') /\ suffix (rest f') (rest f).
Proof.
  intros HB. unfold dwh_get_dwstr. destruct (dwh_get_int32 f) as [len f1] eqn:E1. pose proof (get_int_suffix _ _ _ _ _ E1) as S1.
  destruct (len =? -2) eqn:Em; [right; eauto|].
  destruct ((if len <? 0 then 0 else len) =? 2147483647) eqn:Eo.
  - left. split; [reflexivity|]. destruct (len <? 0) eqn:El; [lia|]. assert (len = 2147483647) by lia. subst len.
    destruct (max_int32 f f1 HB E1) as (r & ->). exists [], r. reflexivity.
  - right. destruct (134217728 <=? (if len <? 0 then 0 else len) + 1); [eauto|].
    destruct (read_bytes _ f1) as [s f2] eqn:E2. apply read_bytes_suffix in E2. exists (Some s), f2. split; [reflexivity|eapply suffix_trans; eassumption].
Qed.
Lemma get_element_cases f : bytes (rest f) ->
  (dwh_get_hash_element f = Bad SignedOverflow /\ contains_max (rest f)) \/
  exists o f', dwh_get_hash_element f = Ok (o, f') /\ suffix (rest f') (rest f).
Proof.
  intros HB. unfold dwh_get_hash_element. destruct (get_dwstr_cases f HB) as [(-> & HC)|(k & f1 & -> & S1)]; [left; auto|]. cbn [bind].
  destruct (get_dwstr_cases f1 (bytes_suffix _ _ S1 HB)) as [(-> & HC)|(v & f2 & -> & S2)]; [left; split; [reflexivity|eapply contains_suffix; eassumption]|]. cbn [bind].
  right. destruct (dwh_get_int64 f2) as [ex f3] eqn:E3. apply get_int_suffix in E3.
  assert (suffix (rest f3) (rest f)) by (eapply suffix_trans; [|eapply suffix_trans]; eassumption).
  destruct k as [k|], v as [v|]; [|eauto..]. destruct ((ex <? 2) || (zlen k =? 0) || (zlen v =? 0)); eauto.
Qed.
Lemma read_overflow H (Hpos : forall k, 0 <= H k) jfila : forall fuel counter h f c,
  Rel H h c -> perm c = [] -> capacity c <= 32000 -> zlen (recent c) <= Z.max 0 (capacity c - 1) -> bytes (rest f) ->
  read_loop fuel H jfila (fun _ => 0) counter h f = Bad SignedOverflow -> contains_max (rest f).
Proof.
  induction fuel as [|fuel IH]; intros counter h f c HR HP HC HL HB HE; cbn [read_loop] in HE; [discriminate|].
  destruct (eof f || (16777218 <=? counter)); [discriminate|].
  pose proof (get_element_spec f) as HS.
  destruct (get_element_cases f HB) as [(E & HM)|(o & f1 & E & S1)]; [exact HM|]. rewrite E in HE, HS. cbn [bind] in HE.
  destruct o as [[[k v] ex]|]; [|discriminate].
  destruct HS as [HS|(o' & f' & HS & K)]; [discriminate|]. injection HS as <- <-. destruct K as (Lf & Bk & Bv & Zk & Zv & He).
  destruct c as [rc pm cap]. cbn [recent perm capacity] in *. subst pm.
  pose proof HR as (HM & C & F & P & I). cbn [recent perm capacity] in *.
  destruct (place_recent H Hpos h C F P rc [] cap k v (jfila counter) ex HM I) as (h1 & E1 & R1 & K1).
  { apply small_uncrowded. cbn [recent perm]. change (zlen (@nil centry)) with 0. lia. }
  { reflexivity. } { lia. }
  unfold alloc_elem in *. cbn [snd] in E1. rewrite E1 in HE. cbn [bind] in HE. change (1 =? -1) with false in HE. cbv iota in HE.
  destruct (insert_size (mkcache rc [] cap) (mkentry k v ex)) as (S1' & S2 & S3). cbn [perm capacity recent] in S1', S2, S3.
  eapply contains_suffix; [exact S1|]. eapply (IH (counter + 1) h1 f1 _ R1).
  - exact S2.
  - rewrite S3. exact HC.
  - rewrite S3. change (zlen (@nil centry)) with 0 in S1'. lia.
  - eapply bytes_suffix; eassumption.
  - exact HE.
Qed.
Lemma read_overflow_file H (Hpos : forall k, 0 <= H k) jfila cs file :
  cs < 2 ^ 31 -> read_max cs <= 32000 -> bytes file ->
  dwh_read_hash H jfila (fun _ => 0) cs file = Bad SignedOverflow -> contains_max file.
Proof.
  intros Hcs Hmx HB. unfold dwh_read_hash. destruct (dwh_get_int32 (mkhandle file false)) as [magic f1] eqn:E1.
  apply get_int_suffix in E1. cbn [rest] in E1.
  destruct (negb (magic =? 4478771)); [discriminate|]. destruct (dwh_get_int32 f1) as [z f2] eqn:E2. apply get_int_suffix in E2.
  pose proof (init_rel H cs (read_max cs) Hcs) as HI. rewrite init_read_max in HI. pose proof (read_max_range cs).
  assert (suffix (rest f2) file) by (eapply suffix_trans; eassumption).
  intros HE. eapply contains_suffix; [eassumption|]. eapply (read_overflow H Hpos _ _ _ _ _ _ HI); try exact HE; cbn [perm capacity recent empty_cache]; change (zlen (@nil centry)) with 0.
  - reflexivity.
  - exact Hmx.
  - lia.
  - eapply bytes_suffix; eassumption.
Qed.

(** Keys of reachable caches are distinct. *)
Lemma rel_keys H h c : Rel H h c -> NoDup (map c_key (recent c)).
Proof.
  intros (_ & C & F & P & I). pose proof (iv_absF _ _ _ _ _ _ _ _ I) as HAF. pose proof (fo_nodup _ _ (iv_fila _ _ _ _ _ _ _ _ I)) as HN.
  assert (forall f en f' en', ent_at (h_filas h) h f en -> ent_at (h_filas h) h f' en' -> c_key en = c_key en' -> f = f') as HU.
  { intros f en f' en' HE HE' Ek. destruct (recent_live H I _ _ HE) as (a & Ha & _ & Hd). destruct (recent_live H I _ _ HE') as (a' & Ha' & _ & Hd').
    rewrite Ek in Hd. assert (a = a') by (eapply (iv_keys _ _ _ _ _ _ _ _ I); [| |exact Hd|exact Hd']; assumption). subst a'. congruence. }
  revert HN. clear - HAF HU. induction HAF as [|f en F rc HE HF IH]; intros HN; cbn [map]; [constructor|].
  apply NoDup_cons_iff in HN as [N1 N2]. constructor; [|exact (IH N2)].
  intros C0. apply in_map_iff in C0 as (en' & Ek & Hin). destruct (Forall2_In_r _ _ _ _ HF Hin) as (f' & Hf' & HE').
  rewrite (HU _ _ _ _ HE HE' (eq_sym Ek)) in N1. contradiction.
Qed.

(** *** The theorems of PropsCacheFile *)
Lemma C04_round_trip (H H' : list Z -> Z) : (forall k, 0 <= H k) -> (forall k, 0 <= H' k) ->
  forall cache_size elements ops, cache_size < 2 ^ 31 ->
  let h0 := dwh_hash_init cache_size elements in
  let c0 := empty_cache (init_elements cache_size elements) in
  let stored := recent (snd (c_run c0 ops)) in
  let c' := mkcache stored [] (read_max cache_size) in
  let mask' := h_mask (dwh_hash_init cache_size (read_max cache_size)) in
  good_history (fun k => Z.land (H k) (h_mask h0)) c0 ops ->
  Forall storable_entry stored -> zlen stored < read_max cache_size ->
  uncrowded (fun k => Z.land (H' k) mask') c' ->
  exists outs h file, hrun H h0 ops = Ok (outs, h) /\ dwh_write_hash h = Ok file /\
  forall jfila, exists h', dwh_read_hash H' jfila (fun _ => 0) cache_size file = Ok h' /\
  forall later, good_history (fun k => Z.land (H' k) mask') c' later ->
  exists h'', hrun H' h' later = Ok (fst (c_run c' later), h'').
Proof.
  intros Hp Hp' cs el ops Hcs h0 c0 stored c' mask' HG HS HL HU.
  destruct (run_ok H Hp ops h0 c0 (init_rel H cs el Hcs) HG) as (h & E & R & _).
  destruct (file_round_trip H H' Hp Hp' h _ cs (fun _ => 0) Hcs R (rel_keys _ _ _ R) HS HL HU) as (file & _ & W & _).
  exists (fst (c_run c0 ops)), h, file. split; [exact E|]. split; [exact W|]. intros jfila.
  destruct (file_round_trip H H' Hp Hp' h _ cs jfila Hcs R (rel_keys _ _ _ R) HS HL HU) as (file' & h' & W' & Rd & R' & K').
  assert (file' = file) by congruence. subst file'. exists h'. split; [exact Rd|]. intros later HG'.
  destruct (run_ok H' Hp' later h' c' R') as (h'' & E'' & _); [rewrite K'; exact HG'|]. eauto.
Qed.

Lemma C05_any_file (H : list Z -> Z) : (forall k, 0 <= H k) ->
  forall cache_size jfila file, cache_size < 2 ^ 31 -> read_max cache_size <= 32000 -> bytes file ->
  match dwh_read_hash H jfila (fun _ => 0) cache_size file with
  | Ok h => exists stored, zlen stored < read_max cache_size /\
      NoDup (map c_key stored) /\
      Forall sound_entry stored /\
      forall later, allowed_history (mkcache stored [] (read_max cache_size)) later ->
        read_max cache_size + perm_adds later <= 32000 ->
        exists h', hrun H h later = Ok (fst (c_run (mkcache stored [] (read_max cache_size)) later), h')
  | Fail => True
  | Bad e => e = SignedOverflow /\ contains_max file
  end.
Proof.
  intros Hp cs jfila file Hcs Hmx HB. destruct (read_any_file H Hp jfila cs file Hcs Hmx) as [E|[E|(h & c & E & R & P & Cc & L & FF)]].
  - rewrite E. exact Logic.I.
  - rewrite E. split; [reflexivity|]. eapply read_overflow_file; eassumption.
  - rewrite E. destruct c as [rc pm cap]. cbn [perm capacity recent] in *. subst pm cap. exists rc. split; [exact L|]. split; [exact (rel_keys _ _ _ R)|].
    split; [exact FF|]. intros later HA HS. destruct (run_ok H Hp later h _ R) as (h' & E' & _).
    + apply small_good; [|exact HA]. cbn [recent perm capacity]. change (zlen (@nil centry)) with 0. lia.
    + eauto.
Qed.
