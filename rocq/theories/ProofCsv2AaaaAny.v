(** Zone files: IPv6 addresses from any text. *)
From Verif Require Import CBase Bits ModelDwStr SpecDwStr ProofDwStr SpecNames SpecMessage SpecAcl SpecDeadwoodMsg SpecQuery ModelJsStr SpecJsStr ProofJsStr ProofJsSearch ModelQueries SpecQueries ProofQueries ProofDwDnsStr
  ProofJsList ModelServe ProofServe ModelIpAcl ModelCsv2 SpecCsv2 ProofCsv2 ProofCsv2Addr ModelCsv2Rr SpecCsv2Rr ProofCsv2Rr ModelCsv2Aaaa SpecCsv2Aaaa ProofCsv2Aaaa.

Definition mem_ok (m : list Z) : Prop := zlen m = 19 /\ bytes m.
Lemma low_bound x : 0 <= Z.land x 15 < 16. Proof. change 15 with (Z.ones 4). rewrite Z.land_ones by lia. apply Z.mod_pos_bound. lia. Qed.
Lemma set_any v m k : mem_ok m -> 0 <= v -> 0 <= k < 32 -> exists r m', set_nybble v m k 16 = Ok (r, m') /\ mem_ok m'.
Proof.
  intros (L & B) V K. unfold set_nybble. destruct (Z.ltb_spec 15 v); [eexists _, m; split; [reflexivity|split; assumption]|]. change (16 <? 0) with false. cbv iota. replace (16 * 2 <? k) with false by lia. cbv zeta. rewrite Z.shiftr_div_pow2 by lia. change (2 ^ 1) with 2.
  destruct (zget_some m (k / 2) ltac:(lia)) as (x & E). pose proof (zget_bytes _ _ _ B E) as BX. unfold byte in BX. unfold rd. rewrite E. cbn [bind]. rewrite wr_ok by lia. cbn [bind]. eexists _, _. split; [reflexivity|]. split; [rewrite zlen_zupd; exact L|]. apply bytes_zupd; [exact B|]. pose proof (low_bound x).
  destruct (Z.land k 1 =? 0).
  - apply (Bits.lor_bound _ _ 8); [lia| |change (2 ^ 8) with 256; lia]. rewrite Z.shiftl_mul_pow2 by lia. change (2 ^ 4) with 16. change (2 ^ 8) with 256. lia.
  - apply (Bits.lor_bound _ _ 8); [lia| |change (2 ^ 8) with 256; lia]. split; [apply Z.land_nonneg; lia|]. pose proof (Z.land_nonneg x 240). change (2 ^ 8) with 256. apply (Z.le_lt_trans _ x); [|lia]. apply Z.ldiff_le; [lia|]. apply Z.bits_inj'. intros n Hn. rewrite Z.ldiff_spec, Z.land_spec, Z.bits_0. destruct (Z.testbit x n), (Z.testbit 240 n); reflexivity.
Qed.
Lemma pad_any n : forall m k, mem_ok m -> 0 <= k -> k + Z.of_nat n <= 32 -> exists m', pad_loop n k m = Ok (k + Z.of_nat n, m') /\ mem_ok m'.
Proof.
  induction n as [|n IH]; intros m k H K L; cbn [pad_loop]; [exists m; rewrite Z.add_0_r; auto|]. destruct (set_any 0 m k H ltac:(lia) ltac:(lia)) as (r & m1 & -> & H1). cbn [bind]. destruct (IH m1 (k + 1) H1 ltac:(lia) ltac:(lia)) as (m2 & -> & H2). exists m2. split; [f_equal; f_equal; lia|exact H2].
Qed.
Lemma hchar_any c : hchar_to_nybble c = -1 \/ hchar_to_nybble c = -2 \/ 0 <= hchar_to_nybble c.
Proof. unfold hchar_to_nybble. repeat match goal with |- context [if ?b then _ else _] => destruct b eqn:? end; lia. Qed.
Lemma digit_any s T : held 256 s T -> forall g a b m k, T = a ++ g ++ b -> mem_ok m -> 0 <= k -> k + zlen g <= 32 ->
  exists r, digit_loop (length g) s (zlen a) k m = Ok r /\ match r with None => True | Some (i, o, m') => i = zlen (a ++ g) /\ o = k + zlen g /\ mem_ok m' end.
Proof.
  intros HS. destruct (held_mem _ _ _ HS) as (q & EM & LM & C & BT & BR & CT & S1 & M1 & SA & SM). induction g as [|x g IH]; intros a b m k E H K L; cbn [digit_loop length].
  - eexists. split; [reflexivity|]. rewrite app_nil_r. change (zlen (@nil Z)) with 0. split; [reflexivity|]. split; [lia|exact H].
  - rewrite zlen_cons in L. pose proof (zlen_nonneg g) as NG. pose proof (zlen_nonneg a) as NA. assert (zlen a < zlen T) as LA by (rewrite E; cbn [app]; rewrite zlen_app, zlen_cons; pose proof (zlen_nonneg (g ++ b)); lia). unfold set_nybble_js. rewrite SA, S1. cbn [negb Z.eqb Pos.eqb]. unfold u32. rewrite !Z.mod_small by lia. rewrite C. replace (zlen T <? zlen a) with false by lia. replace (32 <? k) with false by lia.
    assert (rd (j_mem s) (zlen a) = Ok x) as -> by (rewrite EM, E; cbn [app]; rewrite <- app_assoc; unfold rd; rewrite zget_app_r by lia; rewrite Z.sub_diag; reflexivity). cbn [bind]. unfold set_nybble_char. cbv zeta.
    assert (exists r m', (if hchar_to_nybble x =? -1 then Ok (-1, m) else if hchar_to_nybble x =? -2 then Ok (-2, m) else set_nybble (hchar_to_nybble x) m k 16) = Ok (r, m') /\ mem_ok m') as (r & m1 & -> & H1).
    { destruct (Z.eqb_spec (hchar_to_nybble x) (-1)); [eexists _, m; auto|]. destruct (Z.eqb_spec (hchar_to_nybble x) (-2)); [eexists _, m; auto|]. apply set_any; [exact H| |lia]. destruct (hchar_any x) as [X|[X|X]]; lia. }
    cbn [bind]. destruct (negb (r =? JS_SUCCESS)); [eexists; split; [reflexivity|exact Logic.I]|]. destruct (IH (a ++ [x]) b m1 (k + 1) ltac:(rewrite <- app_assoc; exact E) H1 ltac:(lia) ltac:(lia)) as (r2 & E2 & H2). rewrite zlen_app in E2. change (zlen [x]) with 1 in E2. rewrite E2. exists r2. split; [reflexivity|]. destruct r2 as [((i & o) & m')|]; [|exact Logic.I]. rewrite <- app_assoc in H2. cbn [app] in H2. rewrite zlen_cons. destruct H2 as (A & B & D). split; [exact A|]. split; [lia|exact D].
Qed.
Lemma thingys_any s T p : held 256 s T -> forall b n a cnt, T = a ++ b -> b <> [] -> (length b <= n)%nat -> exists g b', b = g ++ b' /\ Forall (fun c => p c = true) g /\ thingys_loop n s (zlen a) cnt p = Ok (cnt + zlen g).
Proof.
  intros HS. destruct (held_mem _ _ _ HS) as (q & EM & LM & C & BT & BR & CT & S1 & M1 & SA & SM). induction b as [|x b IH]; intros n a cnt E NE L; [congruence|]. destruct n as [|n]; [cbn [length] in L; lia|]. cbn [thingys_loop].
  assert (rd (j_mem s) (zlen a) = Ok x) as -> by (rewrite EM, E, <- app_assoc; unfold rd; rewrite zget_app_r by lia; rewrite Z.sub_diag; reflexivity). cbn [bind]. destruct (p x) eqn:PX; [|exists [], (x :: b); split; [reflexivity|]; split; [constructor|]; change (zlen (@nil Z)) with 0; rewrite Z.add_0_r; reflexivity].
  assert (zlen T = zlen a + 1 + zlen b) as LT by (rewrite E, zlen_app, zlen_cons; lia). rewrite C. destruct (Z.eqb_spec (zlen a + 1) (zlen T)) as [X|X]; [exists [x], b; split; [reflexivity|]; split; [apply Forall_cons; [exact PX|apply Forall_nil]|reflexivity]|]. pose proof (zlen_nonneg b). replace (zlen T <? zlen a + 1) with false by lia.
  destruct (IH n (a ++ [x]) (cnt + 1)) as (g & b' & EB & F & EL); [rewrite <- app_assoc; exact E|intros ->; apply X; rewrite LT; change (zlen (@nil Z)) with 0; lia|cbn in L; lia|]. exists (x :: g), b'. split; [cbn [app]; congruence|]. split; [apply Forall_cons; assumption|]. rewrite zlen_app in EL. change (zlen [x]) with 1 in EL. rewrite EL, zlen_cons. f_equal. lia.
Qed.
Lemma count_any s T p a b : held 256 s T -> T = a ++ b -> b <> [] -> exists q, count_thingys s (zlen a) p = Ok q /\ (q = -1 \/ exists g b', b = g ++ b' /\ Forall (fun c => p c = true) g /\ q = zlen g).
Proof.
  intros HS E NE. destruct (held_mem _ _ _ HS) as (r & EM & LM & C & BT & BR & CT & S1 & M1 & SA & SM). unfold count_thingys. rewrite S1, M1, C. cbn [negb Z.eqb Pos.eqb]. destruct (256 <=? zlen T); [eexists; split; [reflexivity|left; reflexivity]|]. destruct (zlen T <? zlen a); [eexists; split; [reflexivity|left; reflexivity]|].
  destruct (thingys_any s T p HS b (S (Z.to_nat (zlen T))) a 0 E NE) as (g & b' & EB & F & ->); [rewrite E, zlen_app; unfold zlen; lia|]. eexists. split; [reflexivity|]. right. exists g, b'. split; [exact EB|]. split; [exact F|reflexivity].
Qed.
Lemma all_any s T p : held 256 s T -> forall b n a cnt, T = a ++ b -> (length b < n)%nat -> all_loop n s (zlen a) cnt p = Ok (cnt + zlen (filter p b)).
Proof.
  intros HS. destruct (held_mem _ _ _ HS) as (r & EM & LM & C & BT & BR & CT & S1 & M1 & SA & SM). induction b as [|x b IH]; intros n a cnt E L; (destruct n as [|n]; [cbn [length] in L; lia|]); cbn [all_loop]; rewrite C.
  - rewrite app_nil_r in E. subst T. replace (zlen a <? zlen a) with false by lia. cbn [filter]. change (zlen (@nil Z)) with 0. rewrite Z.add_0_r. reflexivity.
  - assert (zlen T = zlen a + 1 + zlen b) as LT by (rewrite E, zlen_app, zlen_cons; lia). pose proof (zlen_nonneg b). replace (zlen a <? zlen T) with true by lia. assert (rd (j_mem s) (zlen a) = Ok x) as -> by (rewrite EM, E, <- app_assoc; unfold rd; rewrite zget_app_r by lia; rewrite Z.sub_diag; reflexivity). cbn [bind]. replace (zlen a + 1) with (zlen (a ++ [x])) by (rewrite zlen_app; reflexivity). cbn [length] in L.
    rewrite (IH n (a ++ [x])); [|rewrite <- app_assoc; exact E|lia]. cbn [filter]. destruct (p x); [rewrite zlen_cons|]; f_equal; lia.
Qed.
Definition colons (l : list Z) : Z := zlen (filter is_colon l).
Lemma colons_app a b : colons (a ++ b) = colons a + colons b. Proof. unfold colons. rewrite filter_app, zlen_app. reflexivity. Qed.
Lemma colons_nonneg a : 0 <= colons a. Proof. apply zlen_nonneg. Qed.
Lemma colons_hex g : Forall (fun c => is_hex_digit c = true) g -> colons g = 0.
Proof. induction 1 as [|x g H F IH]; [reflexivity|]. unfold colons in *. cbn [filter]. assert (is_colon x = false) as -> by (unfold is_hex_digit in H; unfold is_colon; lia). exact IH. Qed.
Definition inv (T a : list Z) (out c : Z) (sk init : bool) : Prop :=
  0 <= out <= 32 /\ out mod 4 = 0 /\ (sk = false -> colons a = c /\ (out = 4 * c \/ (out = 4 * (c - 1) /\ 1 <= c))) /\ (init = true -> a = [] /\ c = 0 /\ out = 0 /\ sk = false).
Lemma loop_any s T : held 256 s T -> colons T <= 9 -> forall n a b m out c sk init, T = a ++ b -> (length b < n)%nat -> mem_ok m -> inv T a out c sk init ->
  exists r, ip6_loop n s (zlen T) (zlen a) out c sk init m = Ok r /\ match r with None => True | Some m => mem_ok m end.
Proof.
  intros HS LT. destruct (held_mem _ _ _ HS) as (q & EM & LM & C & BT & BR & CT & S1 & M1 & SA & SM). induction n as [|n IH]; intros a b m out c sk init E LN H (IO & I4 & IS & II); [lia|]. cbn [ip6_loop].
  assert (forall m : list Z, mem_ok m -> exists r, Ok (Some m) = Ok r /\ match r with None => True | Some m => mem_ok m end) as YES by (intros m' H'; eexists; split; [reflexivity|exact H']).
  assert (exists r : option (list Z), Ok None = Ok r /\ match r with None => True | Some m => mem_ok m end) as NO by (eexists; split; [reflexivity|exact Logic.I]).
  destruct (Z.ltb_spec out 32); cbn [andb]; [|destruct (zlen a <? zlen T); [exact NO|apply YES, H]]. destruct (Z.ltb_spec (zlen a) (zlen T)) as [LA|LA]; [|apply YES, H].
  assert (b <> []) as NB by (intros ->; rewrite app_nil_r in E; subst; lia). destruct (count_any s T is_hex_digit a b HS E NB) as (d & -> & HD). cbn [bind].
  assert (exists r, (if init && (d =? 0) then Ok (Some (zlen a, out, m)) else if (4 <? d) || (d <? 1) then Ok None else ' (out0, m0) <- pad_loop (Z.to_nat (4 - d)) out m;; digit_loop (Z.to_nat d) s (zlen a) out0 m0) = Ok r /\
    match r with None => True | Some (i, o, m') => exists g b', b = g ++ b' /\ i = zlen (a ++ g) /\ mem_ok m' /\ colons g = 0 /\ (if init && (d =? 0) then g = [] /\ o = out else o = out + 4 /\ g <> []) end) as (r & -> & HR).
  { destruct (init && (d =? 0)); [eexists; split; [reflexivity|]; exists [], b; rewrite app_nil_r; auto 6|]. destruct ((4 <? d) || (d <? 1)) eqn:RG; [eexists; split; [reflexivity|exact Logic.I]|]. destruct HD as [->|(g & b' & EB & F & ->)]; [discriminate|].
    destruct (pad_any (Z.to_nat (4 - zlen g)) m out H ltac:(lia) ltac:(lia)) as (m1 & -> & H1). cbn [bind]. replace (Z.to_nat (zlen g)) with (length g) by (unfold zlen; lia). destruct (digit_any s T HS g a b' m1 (out + Z.of_nat (Z.to_nat (4 - zlen g))) ltac:(rewrite E, EB; reflexivity) H1 ltac:(lia) ltac:(lia)) as (r & -> & HR). exists r. split; [reflexivity|]. destruct r as [((i & o) & m')|]; [|exact Logic.I]. destruct HR as (-> & -> & H2). exists g, b'. split; [exact EB|]. split; [reflexivity|]. split; [exact H2|]. split; [apply colons_hex, F|]. split; [lia|]. intros ->. cbn in RG. discriminate. }
  cbn [bind]. destruct r as [((i & o) & m')|]; [|exact NO]. destruct HR as (g & b' & EB & -> & H' & CG & HG). unfold colons_after. rewrite C.
  assert (T = (a ++ g) ++ b') as E' by (rewrite E, EB, app_assoc; reflexivity). assert (zlen T = zlen (a ++ g) + zlen b') as LT' by (rewrite E' at 1; apply zlen_app). assert (colons T = colons a + colons b') as CT' by (rewrite E', !colons_app, CG; lia).
  assert (colons (a ++ g) = colons a) as CAG by (rewrite colons_app, CG; lia).
  destruct (Z.ltb_spec (zlen (a ++ g)) (zlen T)) as [LG|LG].
  2:{ pose proof (zlen_nonneg b'). replace (zlen (a ++ g) =? zlen T) with true by lia. cbn [bind]. change (0 =? JS_ERROR) with false. cbn [Z.eqb andb bind]. apply YES, H'. }
  assert (b' <> []) as NB' by (intros ->; change (zlen (@nil Z)) with 0 in LT'; lia). destruct (count_any s T is_colon (a ++ g) b' HS E' NB') as (k & -> & HK). cbn [bind]. destruct (Z.eqb_spec k JS_ERROR) as [->|KE]; [exact NO|]. destruct HK as [->|(h & b2 & EH & FH & ->)]; [exfalso; apply KE; reflexivity|].
  assert (forall x, is_colon x = true -> x = 58) as C58 by (intros x X; unfold is_colon in X; lia).
  destruct (Z.eqb_spec (zlen h) 2) as [K2|K2].
  - destruct h as [|x [|y [|w h]]]; try (exfalso; unfold zlen in K2; cbn [length] in K2; lia). apply Forall_cons_iff in FH as (X & FH). apply Forall_cons_iff in FH as (Y & _). apply C58 in X, Y. subst x y b'. destruct sk; [exact NO|].
    unfold count_thingys_all. rewrite S1, M1, C. cbn [negb Z.eqb Pos.eqb]. destruct (256 <=? zlen T); [exact NO|]. rewrite (zlen_app [58; 58] b2) in LT'. change (zlen [58; 58]) with 2 in LT'. pose proof (zlen_nonneg b2). replace (zlen T <? zlen (a ++ g) + 1) with false by lia. replace (zlen (a ++ g) + 1) with (zlen ((a ++ g) ++ [58])) by (rewrite (zlen_app (a ++ g)); reflexivity).
    rewrite (all_any s T is_colon HS (58 :: b2) _ ((a ++ g) ++ [58])) by (try (rewrite <- app_assoc; exact E'); cbn [length]; pose proof (zlen_nonneg (a ++ g)); assert (zlen b2 = Z.of_nat (length b2)) by reflexivity; lia). cbn [bind]. rewrite Z.add_0_l. change (zlen (filter is_colon (58 :: b2))) with (colons ([58] ++ b2)). rewrite colons_app in *. change (colons [58; 58]) with 2 in *. change (colons [58]) with 1 in *. pose proof (colons_nonneg b2). pose proof (colons_nonneg a). replace (1 + colons b2 =? JS_ERROR) with false by (unfold JS_ERROR; lia). cbn [bind].
    destruct (IS eq_refl) as (CA & HO). replace (zlen (a ++ g) + 2) with (zlen ((a ++ g) ++ [58; 58])) by (rewrite (zlen_app (a ++ g)); reflexivity). apply (IH _ b2); [rewrite <- app_assoc; exact E'|rewrite EB in LN; rewrite !app_length in LN; cbn [length] in LN; lia|exact H'|].
    assert ((if init && (d =? 0) then 1 + colons b2 - 1 else 1 + colons b2) = 1 + colons b2 - (if init && (d =? 0) then 1 else 0)) as -> by (destruct (init && (d =? 0)); lia). split; [|split; [|split; [discriminate|discriminate]]].
    + destruct (init && (d =? 0)) eqn:ID; [apply andb_prop in ID as (-> & _); destruct (II eq_refl) as (-> & -> & -> & _); destruct HG as (_ & ->); change (colons []) with 0 in *; lia|]. destruct HG as (-> & _). lia.
    + destruct (init && (d =? 0)) eqn:ID; [apply andb_prop in ID as (-> & _); destruct (II eq_refl) as (-> & -> & -> & _); destruct HG as (_ & ->)|destruct HG as (-> & _)]; lia.
  - destruct (Z.eqb_spec (zlen h) 1) as [K1|K1].
    + destruct h as [|x [|w h]]; try (exfalso; unfold zlen in K1; cbn [length] in K1; lia). apply Forall_cons_iff in FH as (X & _). apply C58 in X. subst x b'. cbn [bind]. replace (zlen (a ++ g) + 1) with (zlen ((a ++ g) ++ [58])) by (rewrite (zlen_app (a ++ g)); reflexivity). apply (IH _ b2); [rewrite <- app_assoc; exact E'|rewrite EB in LN; rewrite !app_length in LN; cbn [length] in LN; lia|exact H'|].
      assert (o = out \/ o = out + 4) as HO by (destruct (init && (d =? 0)); destruct HG; auto). split; [lia|]. split; [lia|]. split; [|discriminate]. intros ->. destruct (IS eq_refl) as (CA & HC). rewrite colons_app, CAG. change (colons [58]) with 1. split; [lia|]. destruct (init && (d =? 0)) eqn:ID; [apply andb_prop in ID as (-> & _); destruct (II eq_refl) as (-> & -> & -> & _); destruct HG as (_ & ->); right; lia|]. destruct HG as (-> & _). lia.
    + destruct ((zlen h =? 0) && (zlen (a ++ g) =? zlen T)); [apply YES, H'|exact NO].
Qed.
Lemma raw_any J2 s t : junk_ok J2 -> held 256 s t -> colons t <= 9 -> exists r, ip6_to_raw J2 s = Ok r /\ match r with None => True | Some o => exists v, held 16 o v /\ zlen v = 16 end.
Proof.
  intros HJ HS LC. destruct (held_mem _ _ _ HS) as (q & EM & LM & C & BT & BR & CT & S1 & M1 & SA & SM). unfold ip6_to_raw. rewrite SA, S1. cbn [negb Z.eqb Pos.eqb]. destruct (js_create_ok J2 16 1 HJ ltac:(lia) ltac:(lia) ltac:(lia)) as (o & -> & W & V & _). pose proof (value_held _ _ _ _ W V) as HO. destruct (held_mem _ _ _ HO) as (r & ER & LR & CO & _ & BO & _ & SO & MO & _ & _). cbn [app] in ER. rewrite ER.
  change (zlen (@nil Z)) with 0 in LR. pose proof (zero_ok r 16 0 r eq_refl ltac:(unfold zlen in LR; lia)) as ZK. change (Z.of_nat 0) with 0 in ZK. rewrite ZK. clear ZK. cbn [bind]. unfold js_length. rewrite SA, C. pose proof (zlen_nonneg t). rewrite i32_small by lia.
  assert (mem_ok (repeat 0 (0 + 16) ++ skipn 16 r)) as HM.
  { split; [rewrite zlen_app; unfold zlen in *; rewrite repeat_length, skipn_length; lia|]. apply bytes_app. split; [apply Forall_forall; intros x X; apply repeat_spec in X; subst; unfold byte; lia|]. rewrite <- (firstn_skipn 16 r) in BO. apply bytes_app in BO. exact (proj2 BO). }
  destruct (loop_any s t HS LC (S (Z.to_nat (zlen t))) [] t _ 0 0 false true eq_refl ltac:(unfold zlen; lia) HM) as (r2 & E2 & H2).
  { split; [lia|]. split; [reflexivity|]. split; [intros _; split; [reflexivity|left; reflexivity]|auto]. }
  change (zlen (@nil Z)) with 0 in E2. rewrite E2. cbn [bind]. destruct r2 as [m'|]; [|eexists; split; [reflexivity|exact Logic.I]]. destruct H2 as (L2 & B2). eexists. split; [reflexivity|]. exists (zslice m' 0 16). rewrite SO, MO. split; [|apply zlen_zslice; lia]. split; [|reflexivity]. split; [|split; [reflexivity|reflexivity]]. constructor; cbn [j_mem j_size j_count j_max]; try lia. exact B2.
Qed.
