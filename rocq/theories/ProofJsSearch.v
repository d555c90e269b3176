(** The functions of JsStr.c that look into strings answer as SpecJsStr says. *)
From Verif Require Import CBase Bits ModelDwStr SpecDwStr ProofDwStr ModelJsStr SpecJsStr ProofJsStr.

(** ** js_issame, js_js2str *)
Lemma same_loop_ok n : forall i a b, 0 <= i -> i + Z.of_nat n <= zlen a -> i + Z.of_nat n <= zlen b ->
  same_loop n i a b = Ok (if zlist_eqb (zslice a i (Z.of_nat n)) (zslice b i (Z.of_nat n)) then 1 else 0).
Proof.
  induction n as [|n IH]; intros i a b Hi Ha Hb; cbn [same_loop].
  - rewrite !zslice_nil. reflexivity.
  - destruct (rd_ok a i ltac:(lia)) as (x & -> & Gx). destruct (rd_ok b i ltac:(lia)) as (y & -> & Gy). cbn [bind].
    replace (Z.of_nat (S n)) with (1 + Z.of_nat n) by lia. rewrite !zslice_split by lia.
    rewrite (zslice_one _ _ _ Gx), (zslice_one _ _ _ Gy). cbn [app zlist_eqb].
    destruct (x =? y); cbn [negb andb]; [|reflexivity]. apply IH; lia.
Qed.
Lemma js_issame_ok a b : j_wf a -> j_wf b -> js_issame a b = Ok (s_issame (value_of a) (value_of b)).
Proof.
  intros Wa Wb. pose proof (j_bound a Wa) as Ba. pose proof (j_bound b Wb) as Bb. unfold js_issame, s_issame.
  rewrite !sane_usable by assumption. rewrite !unit_value, !oct_value.
  destruct (usable (value_of a)); cbn [negb andb]; [|reflexivity].
  destruct (usable (value_of b)); cbn [negb andb]; [|reflexivity].
  destruct (Z.eqb_spec (j_size a) (j_size b)) as [E|]; cbn [negb andb]; [|reflexivity].
  destruct (Z.eqb_spec (j_count a) (j_count b)) as [E2|N]; cbn [negb].
  - rewrite same_loop_ok by (rewrite ?E, ?E2 in *; nia). f_equal. unfold octets_of. rewrite Z2Nat.id by nia.
    rewrite E, E2, (Z.mul_comm (j_count b)). reflexivity.
  - replace (zlist_eqb (octets_of a) (octets_of b)) with false; [reflexivity|]. symmetry. apply zlist_eqb_neq. intros H. apply (f_equal zlen) in H.
    rewrite !zlen_octets in H by assumption. rewrite E in H. apply N. nia.
Qed.

Lemma js_js2str_ok s buf max : j_wf s -> 0 <= max <= zlen buf -> max < 2147483648 ->
  js_js2str s buf max = Ok (if usable (value_of s) && (zlen (octets_of s) <? max) then (1, octets_of s ++ 0 :: zslice buf (zlen (octets_of s) + 1) (zlen buf - zlen (octets_of s) - 1)) else (-1, buf)).
Proof.
  intros W Hm Hb. pose proof (j_bound s W) as B. unfold js_js2str. rewrite sane_usable by exact W. rewrite (zlen_octets s W).
  destruct (usable (value_of s)); cbn [negb andb]; [|reflexivity]. rewrite u32_small by lia.
  destruct (Z.ltb_spec (j_size s * j_count s) max) as [L|L]; [replace (max <=? _) with false by lia|replace (max <=? _) with true by lia; reflexivity].
  rewrite copy_bytes_ok by lia. cbn [bind]. rewrite Z2Nat.id by lia. fold (octets_of s). pose proof (zlen_octets s W) as Lo.
  replace (j_size s * j_count s) with (0 + zlen (octets_of s)) at 1 by lia. rewrite splice_snoc by lia. cbn [bind]. f_equal. f_equal.
  unfold splice. change (Z.to_nat 0) with O. cbn [firstn app Nat.add]. rewrite <- app_assoc. f_equal. cbn [app]. f_equal.
  unfold zslice. rewrite firstn_all2.
  - f_equal. rewrite app_length. cbn [length]. unfold zlen in Lo. lia.
  - rewrite skipn_length. unfold zlen in *. lia.
Qed.

(** ** The first place *)
Lemma first_from_char n : forall k f, 0 <= k ->
  (first_from n k f = -2 /\ forall i, k <= i < k + Z.of_nat n -> f i = false) \/
  (k <= first_from n k f < k + Z.of_nat n /\ f (first_from n k f) = true /\ forall i, k <= i < first_from n k f -> f i = false).
Proof.
  induction n as [|n IH]; intros k f Hk; cbn [first_from].
  - left. split; [reflexivity|]. intros i Hi. lia.
  - destruct (f k) eqn:E.
    + right. split; [lia|]. split; [exact E|]. intros i Hi. lia.
    + destruct (IH (k + 1) f ltac:(lia)) as [(A & B)|(A & B & C)].
      * left. split; [exact A|]. intros i Hi. destruct (Z.eq_dec i k) as [->|]; [exact E|]. apply B. lia.
      * right. split; [lia|]. split; [exact B|]. intros i Hi. destruct (Z.eq_dec i k) as [->|]; [exact E|]. apply C. lia.
Qed.
Lemma first_from_none n k f : 0 <= k -> (forall i, k <= i < k + Z.of_nat n -> f i = false) -> first_from n k f = -2.
Proof.
  intros Hk H. destruct (first_from_char n k f Hk) as [(A & _)|(A & B & _)]; [exact A|]. rewrite H in B by exact A. discriminate.
Qed.
Lemma first_from_at n k f r : 0 <= k -> k <= r < k + Z.of_nat n -> f r = true -> (forall i, k <= i < r -> f i = false) -> first_from n k f = r.
Proof.
  intros Hk Hr Hf H. destruct (first_from_char n k f Hk) as [(A & B)|(A & B & C)].
  - rewrite B in Hf by exact Hr. discriminate.
  - destruct (Z_lt_dec (first_from n k f) r); [rewrite H in B by lia; discriminate|].
    destruct (Z_lt_dec r (first_from n k f)); [rewrite C in Hf by lia; discriminate|]. lia.
Qed.
Lemma first_from_ext n : forall k f g, (forall i, k <= i < k + Z.of_nat n -> f i = g i) -> first_from n k f = first_from n k g.
Proof.
  induction n as [|n IH]; intros k f g H; cbn [first_from]; [reflexivity|]. rewrite (H k) by lia. destruct (g k); [reflexivity|]. apply IH. intros i Hi. apply H. lia.
Qed.

(** ** js_fgrep_offset *)
Lemma fgrep_place_ok n : forall place counter e s mt, 0 <= place -> 0 <= counter -> place + Z.of_nat n <= zlen (j_mem e) ->
  place + counter + Z.of_nat n <= j_count s * j_size s -> j_count s * j_size s <= zlen (j_mem s) ->
  fgrep_place n place counter e s mt = Ok (if zlist_eqb (zslice (j_mem e) place (Z.of_nat n)) (zslice (j_mem s) (place + counter) (Z.of_nat n)) then mt else -2).
Proof.
  induction n as [|n IH]; intros place counter e s mt Hp Hc He Hs Hm; cbn [fgrep_place].
  - rewrite !zslice_nil. reflexivity.
  - replace (j_count s * j_size s <=? place + counter) with false by lia.
    destruct (rd_ok (j_mem e) place ltac:(lia)) as (x & -> & Gx). destruct (rd_ok (j_mem s) (place + counter) ltac:(lia)) as (y & -> & Gy). cbn [bind].
    rewrite IH by lia. f_equal. replace (Z.of_nat (S n)) with (1 + Z.of_nat n) by lia. rewrite !zslice_split by lia.
    rewrite (zslice_one _ _ _ Gx), (zslice_one _ _ _ Gy). cbn [app zlist_eqb]. replace (place + 1 + counter) with (place + counter + 1) by lia.
    destruct (x =? y); cbn [andb]; [reflexivity|]. destruct (zlist_eqb _ _); reflexivity.
Qed.

Definition fhit (e s : js) (off c : Z) : bool :=
  (c mod j_size s =? 0) && (off * j_size s <=? c) && zlist_eqb (octets_of e) (zslice (j_mem s) c (j_size e * j_count e)).
Lemma fgrep_loop_ok e s off n : j_wf e -> j_wf s -> j_size e = j_size s -> 1 <= j_count e -> forall c, 0 <= c -> c + Z.of_nat n + j_size e * j_count e <= j_size s * j_count s + 1 ->
  fgrep_loop n c off e s = Ok (let r := first_from n c (fhit e s off) in if r =? -2 then -2 else r / j_size s).
Proof.
  intros We Ws Es Ce. pose proof (j_bound e We) as Be. pose proof (j_bound s Ws) as Bs.
  induction n as [|n IH]; intros c Hc Hn; cbn [fgrep_loop first_from]; [reflexivity|].
  assert (1 <= j_size e * j_count e) by nia.
  destruct (rd_ok (j_mem e) 0 ltac:(lia)) as (x & Rx & Gx). destruct (rd_ok (j_mem s) c ltac:(lia)) as (y & Ry & Gy). rewrite Rx, Ry. cbn [bind].
  assert (fhit e s off c = ((x =? y) && (c mod j_size s =? 0) && (off * j_size s <=? c) && zlist_eqb (octets_of e) (zslice (j_mem s) c (j_size e * j_count e)))) as Eh.
  { unfold fhit. destruct (c mod j_size s =? 0), (off * j_size s <=? c); cbn [andb]; rewrite ?andb_false_r; try reflexivity. rewrite !andb_true_r.
    unfold octets_of. replace (j_size e * j_count e) with (1 + (j_size e * j_count e - 1)) by lia. rewrite !zslice_split by lia.
    rewrite (zslice_one _ _ _ Gx), (zslice_one _ _ _ Gy). cbn [app zlist_eqb]. destruct (x =? y); reflexivity. }
  rewrite Eh. destruct ((x =? y) && (c mod j_size s =? 0) && (off * j_size s <=? c)); cbn [andb].
  - rewrite fgrep_place_ok by (rewrite ?Z2Nat.id by nia; nia). cbn [bind]. rewrite Z2Nat.id by nia. rewrite Z.add_0_l.
    rewrite (Z.mul_comm (j_count e)). fold (octets_of e).
    destruct (zlist_eqb (octets_of e) _).
    + assert (0 <= c / j_size s) by (apply Z.div_pos; lia). replace (c / j_size s =? -2) with false by lia. replace (c =? -2) with false by lia. reflexivity.
    + change (-2 =? -2) with true. cbn iota. apply IH; lia.
  - cbn [bind]. change (-2 =? -2) with true. cbn iota. apply IH; lia.
Qed.

Lemma js_fgrep_ok e s o : j_wf e -> j_wf s -> -2147483648 <= o < 2147483648 -> js_fgrep_offset e s o = Ok (s_fgrep (value_of e) (value_of s) o).
Proof.
  intros We Ws Ho. pose proof (j_bound e We) as Be. pose proof (j_bound s Ws) as Bs. unfold js_fgrep_offset, s_fgrep.
  rewrite !sane_usable, !s_len_value by assumption. rewrite !unit_value, oct_value. rewrite u32_int_lt by lia.
  destruct (usable (value_of e)); cbn [negb andb]; [|reflexivity].
  destruct (usable (value_of s)); cbn [negb andb]; [|reflexivity].
  destruct (Z.leb_spec 0 o); [replace (o <? 0) with false by lia|replace (o <? 0) with true by lia; reflexivity]. cbn [andb orb].
  destruct (Z.leb_spec o (j_count s)); [replace (j_count s <? o) with false by lia|replace (j_count s <? o) with true by lia; reflexivity]. cbn [negb]. replace (o <? 0) with false by lia.
  destruct (Z.eqb_spec (j_size e) (j_size s)) as [E|]; cbn [negb orb]; [|reflexivity].
  destruct (Z.ltb_spec (j_count s) (j_count e)); [reflexivity|].
  destruct (Z.eqb_spec (j_count e) 0) as [|Ne]; [replace (j_count e <=? 0) with true by lia; reflexivity|]. replace (j_count e <=? 0) with false by lia.
  rewrite fgrep_loop_ok by (try assumption; try lia; nia). f_equal. cbv zeta.
  set (u := j_size s) in *. set (n := j_count s) in *. set (m := j_count e) in *.
  set (N := Z.to_nat ((n - m) * u + 1)).
  assert (1 <= u /\ 0 <= n /\ 1 <= m <= n) as (Hu & Hn & Hm) by lia. clear Be Bs.
  assert (forall a b, a <= b -> a * u <= b * u) as Mono by (intros; apply Z.mul_le_mono_nonneg_r; lia).
  pose proof (Mono 0 (n - m) ltac:(lia)). rewrite Z.mul_0_l in *.
  assert (forall k, o <= k <= n - m -> fhit e s o (k * u) = zlist_eqb (units (value_of s) k m) (octets_of e)) as K.
  { intros k Hk. unfold fhit. fold u. rewrite Z.mod_mul by lia. replace (o * u <=? k * u) with true by (pose proof (Mono o k ltac:(lia)); lia). change (0 =? 0) with true. cbn [andb].
    unfold units. rewrite unit_value, oct_value. fold u. fold m. rewrite E, (Z.mul_comm u m).
    assert (k * u + m * u <= u * n) by (pose proof (Mono (k + m) n ltac:(lia)); lia).
    pose proof (Mono 0 k ltac:(lia)). pose proof (Mono 0 m ltac:(lia)).
    rewrite zslice_octets by (try assumption; fold u n; lia).
    destruct (zlist_eqb (octets_of e) (zslice (j_mem s) (k * u) (m * u))) eqn:Z1.
    - apply zlist_eqb_spec in Z1. rewrite <- Z1. symmetry. apply zlist_eqb_refl.
    - symmetry. apply zlist_eqb_neq. apply zlist_eqb_neq in Z1. congruence. }
  destruct (first_from_char (Z.to_nat (n - m + 1 - o)) o (fun k => zlist_eqb (units (value_of s) k m) (octets_of e)) ltac:(lia)) as [(A & B)|(A & B & C)].
  - rewrite A. rewrite first_from_none; [reflexivity|lia|]. intros i Hi. destruct (fhit e s o i) eqn:F; [|reflexivity]. exfalso.
    pose proof F as F0. unfold fhit in F. fold u in F. apply andb_true_iff in F as (F & _). apply andb_true_iff in F as (F1 & F2).
    assert (i = i / u * u) as Ei by (pose proof (Z.div_mod i u ltac:(lia)); lia).
    rewrite Ei in F0. rewrite K in F0.
    + rewrite B in F0; [discriminate|]. unfold N in Hi. assert (o <= i / u) by (apply Z.div_le_lower_bound; lia). assert (i / u < n - m + 1) by (apply Z.div_lt_upper_bound; lia). lia.
    + unfold N in Hi. assert (o <= i / u) by (apply Z.div_le_lower_bound; lia). assert (i / u < n - m + 1) by (apply Z.div_lt_upper_bound; lia). lia.
  - set (r := first_from _ o _) in *.
    rewrite (first_from_at N 0 _ (r * u)).
    + pose proof (Mono 0 r ltac:(lia)). replace (r * u =? -2) with false by lia. rewrite Z.div_mul by lia. reflexivity.
    + lia.
    + unfold N. pose proof (Mono 0 r ltac:(lia)). pose proof (Mono r (n - m) ltac:(lia)). lia.
    + rewrite K by lia. exact B.
    + intros i Hi. destruct (fhit e s o i) eqn:F; [|reflexivity]. exfalso.
      pose proof F as F0. unfold fhit in F. fold u in F. apply andb_true_iff in F as (F & _). apply andb_true_iff in F as (F1 & F2).
      assert (i = i / u * u) as Ei by (pose proof (Z.div_mod i u ltac:(lia)); lia).
      assert (o <= i / u) by (apply Z.div_le_lower_bound; lia). assert (i / u < r) by (apply Z.div_lt_upper_bound; lia).
      rewrite Ei in F0. rewrite K in F0 by lia. rewrite C in F0 by lia. discriminate.
Qed.

(** ** js_match_offset, js_notmatch_offset *)
Lemma match_exp_ok e s n : j_wf e -> j_size e = 1 -> forall p c y, 0 <= p -> p + Z.of_nat n <= j_count e -> 0 <= c -> rd (j_mem s) c = Ok y ->
  match_exp n p c e s = Ok (if existsb (Z.eqb y) (zslice (j_mem e) p (Z.of_nat n)) then c else -2).
Proof.
  intros We S1. pose proof (j_bound e We) as Be. induction n as [|n IH]; intros p c y Hp Hn Hc Ry; cbn [match_exp].
  - rewrite zslice_nil. reflexivity.
  - destruct (rd_ok (j_mem e) p ltac:(nia)) as (x & -> & Gx). rewrite Ry. cbn [bind]. unfold js_octets. rewrite S1, Z.mod_1_r, Z.div_1_r.
    change (0 =? 0) with true. replace (p <? j_max e * 1) with true by lia. rewrite !andb_true_r. change (Z.to_nat (1 - 1)) with O. cbn [place_loop].
    replace (Z.of_nat (S n)) with (1 + Z.of_nat n) by lia. rewrite zslice_split by lia. rewrite (zslice_one _ _ _ Gx). cbn [app existsb]. rewrite (Z.eqb_sym y x).
    destruct (x =? y); cbn [bind orb].
    + replace (c =? -2) with false by lia. reflexivity.
    + change (-2 =? -2) with true. cbn iota. apply IH; try assumption; lia.
Qed.
Lemma notmatch_exp_ok e s n : j_wf e -> j_size e = 1 -> forall p c y mt, 0 <= p -> p + Z.of_nat n <= j_count e -> 0 <= c -> rd (j_mem s) c = Ok y ->
  notmatch_exp n p c e s mt = Ok (if existsb (Z.eqb y) (zslice (j_mem e) p (Z.of_nat n)) then -2 else match n with O => mt | _ => c end).
Proof.
  intros We S1. pose proof (j_bound e We) as Be. induction n as [|n IH]; intros p c y mt Hp Hn Hc Ry; cbn [notmatch_exp].
  - rewrite zslice_nil. reflexivity.
  - destruct (rd_ok (j_mem e) p ltac:(nia)) as (x & -> & Gx). rewrite Ry. cbn [bind]. unfold js_octets. rewrite S1, Z.mod_1_r, Z.div_1_r.
    change (0 =? 0) with true. replace (p <? j_max e * 1) with true by lia. rewrite !andb_true_r. change (Z.to_nat (1 - 1)) with O. cbn [place_loop].
    replace (Z.of_nat (S n)) with (1 + Z.of_nat n) by lia. rewrite zslice_split by lia. rewrite (zslice_one _ _ _ Gx). cbn [app existsb]. rewrite (Z.eqb_sym y x).
    destruct (x =? y); cbn [bind orb].
    + reflexivity.
    + rewrite (IH (p + 1) c y c) by (try assumption; lia). destruct n; reflexivity.
Qed.

Definition mhit (want : bool) (e s : js) (off c : Z) : bool :=
  (off <=? c) && match zget (octets_of s) c with Some y => Bool.eqb (existsb (Z.eqb y) (octets_of e)) want | None => false end.
Lemma match_loop_ok e s off n : j_wf e -> j_wf s -> j_size e = 1 -> j_size s = 1 -> forall c, 0 <= c -> c + Z.of_nat n <= j_count s ->
  match_loop n c off e s = Ok (first_from n c (mhit true e s off)).
Proof.
  intros We Ws S1 S2. pose proof (j_bound e We) as Be. pose proof (j_bound s Ws) as Bs. induction n as [|n IH]; intros c Hc Hn; cbn [match_loop first_from]; [reflexivity|].
  unfold mhit at 1. rewrite zget_octets by (try assumption; rewrite S2; lia). destruct (rd_ok (j_mem s) c ltac:(nia)) as (y & Ry & Gy). rewrite Gy.
  destruct (off <=? c); cbn [andb bind].
  - rewrite (match_exp_ok e s _ We S1 0 c y) by (try assumption; rewrite ?S1; lia). cbn [bind].
    replace (zslice (j_mem e) 0 (Z.of_nat (Z.to_nat (j_count e * j_size e)))) with (octets_of e) by (unfold octets_of; rewrite S1; f_equal; lia).
    destruct (existsb _ _); cbn [Bool.eqb].
    + replace (c =? -2) with false by lia. reflexivity.
    + change (-2 =? -2) with true. cbn iota. apply IH; lia.
  - change (-2 =? -2) with true. cbn iota. apply IH; lia.
Qed.
Lemma notmatch_loop_ok e s off n : j_wf e -> j_wf s -> j_size e = 1 -> j_size s = 1 -> 1 <= j_count e -> forall c, 0 <= c -> c + Z.of_nat n <= j_count s ->
  notmatch_loop n c off e s = Ok (first_from n c (mhit false e s off)).
Proof.
  intros We Ws S1 S2 C1. pose proof (j_bound e We) as Be. pose proof (j_bound s Ws) as Bs. induction n as [|n IH]; intros c Hc Hn; cbn [notmatch_loop first_from]; [reflexivity|].
  unfold mhit at 1. rewrite zget_octets by (try assumption; rewrite S2; lia). destruct (rd_ok (j_mem s) c ltac:(nia)) as (y & Ry & Gy). rewrite Gy.
  destruct (off <=? c); cbn [andb bind].
  - rewrite (notmatch_exp_ok e s _ We S1 0 c y) by (try assumption; rewrite ?S1; lia). cbn [bind].
    replace (zslice (j_mem e) 0 (Z.of_nat (Z.to_nat (j_count e * j_size e)))) with (octets_of e) by (unfold octets_of; rewrite S1; f_equal; lia).
    destruct (Z.to_nat (j_count e * j_size e)) eqn:EN; [rewrite S1 in EN; lia|].
    destruct (existsb _ _); cbn [Bool.eqb].
    + change (-2 =? -2) with true. cbn iota. apply IH; lia.
    + replace (c =? -2) with false by lia. reflexivity.
  - change (-2 =? -2) with true. cbn iota. apply IH; lia.
Qed.
Lemma search_ok want e s o n : 0 <= o -> n = j_count s -> 0 <= n ->
  first_from (Z.to_nat n) 0 (mhit want e s o) =
  first_from (Z.to_nat (n - o)) o (fun k => match zget (octets_of s) k with Some c => Bool.eqb (existsb (Z.eqb c) (octets_of e)) want | None => false end).
Proof.
  intros Ho En Hn. set (g := fun k => match zget (octets_of s) k with Some c => Bool.eqb (existsb (Z.eqb c) (octets_of e)) want | None => false end).
  assert (forall k, mhit want e s o k = (o <=? k) && g k) as Hg by reflexivity.
  destruct (first_from_char (Z.to_nat (n - o)) o g Ho) as [(A & B)|(A & B & C)].
  - rewrite A. apply first_from_none; [lia|]. intros i Hi. rewrite Hg. destruct (Z.leb_spec o i); [|reflexivity]. cbn [andb]. apply B. lia.
  - apply first_from_at; [lia|lia| |].
    + rewrite Hg, B. replace (o <=? _) with true by lia. reflexivity.
    + intros i Hi. rewrite Hg. destruct (Z.leb_spec o i); [|reflexivity]. cbn [andb]. apply C. lia.
Qed.

Lemma js_match_ok e s o : j_wf e -> j_wf s -> j_size s = 1 -> -2147483648 <= o < 2147483648 ->
  js_match_offset e s o = Ok (s_search true (value_of e) (value_of s) o) /\ js_notmatch_offset e s o = Ok (s_search false (value_of e) (value_of s) o).
Proof.
  intros We Ws S1 Ho. pose proof (j_bound e We) as Be. pose proof (j_bound s Ws) as Bs. unfold js_match_offset, js_notmatch_offset, s_search.
  rewrite !sane_usable, !s_len_value by assumption. rewrite !unit_value, !oct_value.
  replace (if o <? 0 then i32 (j_count s + o) else o) with (if o <? 0 then j_count s + o else o) by (destruct (Z.ltb_spec o 0); [rewrite i32_small by lia|]; reflexivity).
  set (o' := if o <? 0 then j_count s + o else o).
  destruct (usable (value_of e)); cbn [negb andb]; [|split; reflexivity].
  destruct (usable (value_of s)); cbn [negb andb]; [|split; reflexivity].
  destruct (Z.leb_spec 0 o'); [replace (o' <? 0) with false by lia|replace (o' <? 0) with true by lia; split; reflexivity]. cbn [negb].
  destruct (Z.eqb_spec (j_size e) (j_size s)) as [E|]; cbn [negb orb]; [|split; reflexivity].
  destruct (Z.eqb_spec (j_count e) 0); [replace (j_count e <=? 0) with true by lia; split; reflexivity|]. replace (j_count e <=? 0) with false by lia.
  rewrite S1 in E.
  rewrite match_loop_ok, notmatch_loop_ok by (try assumption; rewrite ?S1; lia). rewrite S1, !Z.mul_1_r.
  rewrite !search_ok by (reflexivity || lia). split; reflexivity.
Qed.

(** ** js_val and the readers *)
Lemma val_loop_ok n : forall i mem v, 0 <= i -> i + Z.of_nat n <= zlen mem ->
  val_loop n i mem v = Ok (fold_left (fun v b => v * 256 + b) (zslice mem i (Z.of_nat n)) v).
Proof.
  induction n as [|n IH]; intros i mem v Hi Hn; cbn [val_loop].
  - rewrite zslice_nil. reflexivity.
  - destruct (rd_ok mem i ltac:(lia)) as (b & -> & G). cbn [bind]. rewrite IH by lia.
    replace (Z.of_nat (S n)) with (1 + Z.of_nat n) by lia. rewrite zslice_split by lia. rewrite (zslice_one _ _ _ G). reflexivity.
Qed.
Lemma js_val_ok s o : j_wf s -> -2147483648 <= o < 2147483648 -> js_val s o = Ok (s_val (value_of s) o).
Proof.
  intros W Ho. pose proof (j_bound s W) as B. unfold js_val, s_val. rewrite sane_usable, s_len_value by assumption. rewrite unit_value, u32_int_le by lia.
  destruct (usable (value_of s)); cbn [negb andb]; [|reflexivity].
  destruct (Z.leb_spec 0 o); [replace (o <? 0) with false by lia|replace (o <? 0) with true by lia; reflexivity]. cbn [andb orb].
  destruct (Z.ltb_spec o (j_count s)); [replace (j_count s <=? o) with false by lia|replace (j_count s <=? o) with true by lia; reflexivity].
  destruct (Z.ltb_spec (j_size s) 4); [replace (4 <=? j_size s) with false by lia|replace (4 <=? j_size s) with true by lia; reflexivity].
  assert (o * j_size s + j_size s <= j_size s * j_count s) by nia. assert (0 <= o * j_size s) by nia.
  rewrite val_loop_ok by lia. cbn [andb]. unfold number, units. rewrite unit_value, oct_value, Z2Nat.id, Z.mul_1_l by lia.
  rewrite zslice_octets by (assumption || lia). reflexivity.
Qed.

Lemma rd_octets s i : j_wf s -> j_size s = 1 -> 0 <= i < j_count s -> exists b, rd (j_mem s) i = Ok b /\ zget (octets_of s) i = Some b /\ byte b.
Proof.
  intros W S1 Hi. pose proof (j_bound s W). destruct (rd_byte (j_mem s) i (jw_bytes s W) ltac:(nia)) as (b & R & G & B).
  exists b. split; [exact R|]. split; [|exact B]. rewrite zget_octets by (try assumption; nia). exact G.
Qed.
Lemma slice_next l i b n m : zget l i = Some b -> 0 <= i -> 0 <= m -> n = 1 + m -> zslice l i n = b :: zslice l (i + 1) m.
Proof. intros G Hi Hn ->. rewrite zslice_split by lia. rewrite (zslice_one _ _ _ G). reflexivity. Qed.

(** The readers are right when the string is long enough for at least one value. *)
Lemma js_readbyte_ok s o : j_wf s -> 1 <= j_count s -> 0 <= o < 4294967296 -> js_readbyte s o = Ok (s_readbyte (value_of s) o).
Proof.
  intros W C1 Ho. pose proof (j_bound s W) as B. unfold js_readbyte, s_readbyte. rewrite sane_usable, s_len_value by assumption. rewrite unit_value, oct_value.
  destruct (usable (value_of s)); cbn [negb andb]; [|reflexivity]. destruct (Z.eqb_spec (j_size s) 1) as [S1|]; cbn [negb andb]; [|reflexivity].
  rewrite !u32_small by lia. replace (0 <=? o) with true by lia. cbn [andb].
  destruct (Z.leb_spec (o + 1) (j_count s)); [replace (j_count s - 1 <? o) with false by lia|replace (j_count s - 1 <? o) with true by lia; reflexivity].
  destruct (rd_octets s o W S1 ltac:(lia)) as (b & -> & G & Bb). rewrite (zslice_one _ _ _ G). reflexivity.
Qed.
Lemma js_readuint16_ok s o : j_wf s -> 2 <= j_count s -> 0 <= o < 4294967296 -> js_readuint16 s o = Ok (s_readuint16 (value_of s) o).
Proof.
  intros W C1 Ho. pose proof (j_bound s W) as B. unfold js_readuint16, s_readuint16. rewrite sane_usable, s_len_value by assumption. rewrite unit_value, oct_value.
  destruct (usable (value_of s)); cbn [negb andb]; [|reflexivity]. destruct (Z.eqb_spec (j_size s) 1) as [S1|]; cbn [negb andb]; [|reflexivity].
  rewrite !u32_small by lia. replace (0 <=? o) with true by lia. cbn [andb].
  destruct (Z.leb_spec (o + 2) (j_count s)); [replace (j_count s - 2 <? o) with false by lia|replace (j_count s - 2 <? o) with true by lia; reflexivity].
  destruct (rd_octets s o W S1 ltac:(lia)) as (a & -> & Ga & Ba). destruct (rd_octets s (o + 1) W S1 ltac:(lia)) as (b & -> & Gb & Bb). cbn [bind].
  rewrite (slice_next _ _ _ 2 1 Ga), (zslice_one _ _ _ Gb) by lia. unfold number. cbn [fold_left]. f_equal. unfold byte in *.
  change 65280 with (Z.shiftl 255 8). rewrite <- Z.shiftl_land, !land_255, !Z.mod_small by lia. rewrite lor_shiftl8 by lia. lia.
Qed.
Lemma js_readuint32_ok s o : j_wf s -> 4 <= j_count s -> 0 <= o < 4294967296 -> js_readuint32 s o = Ok (s_readuint32 (value_of s) o).
Proof.
  intros W C1 Ho. pose proof (j_bound s W) as B. unfold js_readuint32, s_readuint32. rewrite sane_usable, s_len_value by assumption. rewrite unit_value, oct_value.
  destruct (usable (value_of s)); cbn [negb andb]; [|reflexivity]. destruct (Z.eqb_spec (j_size s) 1) as [S1|]; cbn [negb andb]; [|reflexivity].
  rewrite !u32_small by lia. replace (0 <=? o) with true by lia. cbn [andb].
  destruct (Z.leb_spec (o + 4) (j_count s)); [replace (j_count s - 4 <? o) with false by lia|replace (j_count s - 4 <? o) with true by lia; reflexivity].
  destruct (rd_octets s o W S1 ltac:(lia)) as (a & -> & Ga & Ba). destruct (rd_octets s (o + 1) W S1 ltac:(lia)) as (b & -> & Gb & Bb).
  destruct (rd_octets s (o + 2) W S1 ltac:(lia)) as (c & -> & Gc & Bc). destruct (rd_octets s (o + 3) W S1 ltac:(lia)) as (d & -> & Gd & Bd). cbn [bind].
  rewrite (slice_next _ _ _ 4 3 Ga) by lia. rewrite (slice_next _ _ _ 3 2 Gb) by lia. replace (o + 1 + 1) with (o + 2) by lia.
  rewrite (slice_next _ _ _ 2 1 Gc) by lia. replace (o + 2 + 1) with (o + 3) by lia. rewrite (zslice_one _ _ _ Gd).
  unfold number. cbn [fold_left]. unfold byte in *.
  assert (Z.lor (Z.lor (Z.lor (Z.land (Z.shiftl a 24) 4278190080) (Z.land (Z.shiftl b 16) 16711680)) (Z.land (Z.shiftl c 8) 65280)) (Z.land d 255)
          = ((a * 256 + b) * 256 + c) * 256 + d) as ->.
  { change 4278190080 with (Z.shiftl 255 24). change 16711680 with (Z.shiftl 255 16). change 65280 with (Z.shiftl 255 8).
    rewrite <- !Z.shiftl_land. rewrite !land_255, !Z.mod_small by lia.
    replace (Z.lor (Z.shiftl a 24) (Z.shiftl b 16)) with (Z.shiftl (a * 256 + b) 16).
    2:{ rewrite <- (lor_shiftl8 a b) by lia. rewrite Z.shiftl_lor, Z.shiftl_shiftl by lia. reflexivity. }
    replace (Z.lor (Z.shiftl (a * 256 + b) 16) (Z.shiftl c 8)) with (Z.shiftl ((a * 256 + b) * 256 + c) 8).
    2:{ rewrite <- (lor_shiftl8 (a * 256 + b) c) by lia. rewrite Z.shiftl_lor, Z.shiftl_shiftl by lia. reflexivity. }
    rewrite lor_shiftl8 by lia. lia. }
  f_equal. replace ((0 * 256 + a) * 256 + b) with (a * 256 + b) by lia. destruct (Z.eqb_spec (((a * 256 + b) * 256 + c) * 256 + d) 4294967295) as [->|N]; lia.
Qed.

(** ** js_atoi *)
Lemma decimal_mono ds : Forall (fun d => 0 <= d) ds -> forall v, 0 <= v -> v <= fold_left (fun v d => v * 10 + d) ds v.
Proof. induction 1 as [|d ds Hd F IH]; intros v Hv; cbn [fold_left]; [lia|]. specialize (IH (v * 10 + d) ltac:(lia)). lia. Qed.
Lemma digits_nonneg l : Forall (fun d => 0 <= d) (digits l).
Proof. induction l as [|b l IH]; cbn [digits]; [constructor|]. destruct ((48 <=? b) && (b <=? 57)) eqn:E; [constructor; [lia|exact IH]|constructor]. Qed.
Lemma atoi_loop_ok n : forall i mem v, 0 <= i -> i + Z.of_nat n <= zlen mem -> 0 <= v ->
  fold_left (fun v d => v * 10 + d) (digits (zslice mem i (Z.of_nat n))) v < 2147483648 ->
  atoi_loop n i mem v = Ok (fold_left (fun v d => v * 10 + d) (digits (zslice mem i (Z.of_nat n))) v).
Proof.
  induction n as [|n IH]; intros i mem v Hi Hn Hv; cbn [atoi_loop].
  - rewrite zslice_nil. reflexivity.
  - destruct (rd_ok mem i ltac:(lia)) as (b & -> & G). cbn [bind].
    rewrite (slice_next _ _ _ (Z.of_nat (S n)) (Z.of_nat n) G) by lia. cbn [digits].
    destruct ((48 <=? b) && (b <=? 57)) eqn:E; cbn [fold_left]; [|reflexivity]. intros Hf.
    pose proof (decimal_mono (digits (zslice mem (i + 1) (Z.of_nat n))) (digits_nonneg _) (v * 10 + (b - 48)) ltac:(lia)).
    replace (2147483648 <=? v * 10 + (b - 48)) with false by lia. apply IH; try lia.
Qed.
Lemma js_atoi_ok s o : j_wf s -> j_size s = 1 -> -2147483648 <= o < 2147483648 -> s_atoi (value_of s) o < 2147483648 -> js_atoi s o = Ok (s_atoi (value_of s) o).
Proof.
  intros W S1 Ho. pose proof (j_bound s W) as B. unfold js_atoi, s_atoi. rewrite sane_usable, s_len_value by assumption. rewrite enc_value, oct_value, u32_int_le by lia.
  destruct (usable (value_of s)); cbn [negb andb]; [|reflexivity]. unfold JS_US_ASCII, JS_ISO_8859_1.
  rewrite <- negb_orb. destruct ((j_enc s =? 2) || (j_enc s =? 3)); cbn [negb andb]; [|reflexivity].
  destruct (Z.leb_spec 0 o); [replace (o <? 0) with false by lia|replace (o <? 0) with true by lia; reflexivity]. cbn [andb orb].
  destruct (Z.ltb_spec o (j_count s)); [replace (j_count s <=? o) with false by lia|replace (j_count s <=? o) with true by lia; reflexivity].
  unfold decimal. rewrite zslice_octets by (try assumption; rewrite ?S1; lia). intros Hf.
  rewrite atoi_loop_ok; rewrite ?Z2Nat.id; try lia; try nia. reflexivity.
Qed.

(** ** js_qissame, js_qfgrep *)
Lemma js_qissame_ok J c t : junk_ok J -> j_wf t -> j_size t = 1 -> bytes c -> zlen c <= 1024 -> js_qissame J c t = Ok (if usable (value_of t) then if zlist_eqb c (octets_of t) then 1 else 0 else -1).
Proof.
  intros HJ Wt S1 Bc Hc. unfold js_qissame. rewrite sane_usable by exact Wt. destruct (usable (value_of t)) eqn:Ut; cbn [negb]; [|reflexivity].
  rewrite S1. destruct (create_qstr J c HJ Bc ltac:(lia)) as (tmp & -> & H1 & _). destruct (H1 Hc) as (tmp' & -> & W' & V'). cbn [bind]. change (1 =? JS_ERROR) with false. cbn iota.
  assert (j_size tmp' = 1) as S' by (rewrite <- unit_value, V'; reflexivity).
  assert (octets_of tmp' = c) as O' by (rewrite <- oct_value, V'; reflexivity).
  replace (mkjs (j_mem tmp') 1 (j_count tmp') (j_max tmp') (j_enc t)) with (mkjs (j_mem tmp') (j_size tmp') (j_count tmp') (j_max tmp') (j_enc t)) by (rewrite S'; reflexivity).
  rewrite js_issame_ok by (try assumption; apply wf_enc, W'). unfold s_issame. rewrite Ut.
  replace (usable (value_of (mkjs (j_mem tmp') (j_size tmp') (j_count tmp') (j_max tmp') (j_enc t)))) with true by (symmetry; apply usable_bytes, S'). cbn [andb]. rewrite !unit_value, !oct_value. cbn [j_size].
  change (octets_of (mkjs (j_mem tmp') (j_size tmp') (j_count tmp') (j_max tmp') (j_enc t))) with (octets_of tmp'). rewrite O', S', S1. reflexivity.
Qed.
Lemma js_qfgrep_ok J c t : junk_ok J -> j_wf t -> j_size t = 1 -> bytes c -> zlen c <= 1024 -> js_qfgrep J c t = Ok (s_fgrep (mkstr 1 1024 1 c) (value_of t) 0).
Proof.
  intros HJ Wt S1 Bc Hc. unfold js_qfgrep. rewrite sane_usable by exact Wt. destruct (usable (value_of t)) eqn:Ut; cbn [negb].
  - rewrite S1. destruct (create_qstr J c HJ Bc ltac:(lia)) as (tmp & -> & H1 & _). destruct (H1 Hc) as (tmp' & -> & W' & V'). cbn [bind]. change (1 =? JS_ERROR) with false. cbn iota.
    rewrite js_fgrep_ok by (assumption || lia). rewrite V'. reflexivity.
  - unfold s_fgrep. rewrite Ut, andb_false_r. reflexivity.
Qed.
