(** Zone files: IPv6 addresses. *)
From Verif Require Import CBase Bits ModelDwStr SpecDwStr ProofDwStr SpecNames SpecMessage SpecQuery ModelJsStr SpecJsStr ProofJsStr ProofJsSearch ModelQueries SpecQueries ProofQueries ProofDwDnsStr
  ProofJsList ModelServe ProofServe ModelIpAcl ModelCsv2 SpecCsv2 ProofCsv2 ProofCsv2Names ProofCsv2Addr ModelCsv2Rr SpecCsv2Rr ProofCsv2Rr ModelCsv2Aaaa SpecCsv2Aaaa.

(** ** Nybbles *)
Fixpoint pairs (ns : list Z) : list Z := match ns with a :: b :: r => a * 16 + b :: pairs r | _ => [] end.
Definition nyb (x : Z) : Prop := 0 <= x < 16.
Lemma even_ind (P : list Z -> Prop) : P [] -> (forall a b l, P l -> P (a :: b :: l)) -> forall k l, length l = (2 * k)%nat -> P l.
Proof. intros P0 PS. induction k as [|k IH]; intros l L; [destruct l; [exact P0|discriminate]|]. destruct l as [|a [|b l]]; cbn [length] in L; try lia. apply PS, IH. lia. Qed.
Lemma pairs_app k d r : length d = (2 * k)%nat -> pairs (d ++ r) = pairs d ++ pairs r.
Proof. intros L. apply (even_ind (fun d => pairs (d ++ r) = pairs d ++ pairs r)) with (k := k); [reflexivity| |exact L]. intros a b l IH. cbn [app pairs]. rewrite IH. reflexivity. Qed.
Lemma pairs_length k d : length d = (2 * k)%nat -> length (pairs d) = k.
Proof. revert d. induction k as [|k IH]; intros d L; [destruct d; [reflexivity|discriminate]|]. destruct d as [|a [|b d]]; cbn [length] in L; try lia. cbn [pairs length]. rewrite IH; lia. Qed.
Lemma pairs_bytes k d : length d = (2 * k)%nat -> Forall nyb d -> bytes (pairs d).
Proof.
  revert d. induction k as [|k IH]; intros d L F; [destruct d; [constructor|discriminate]|]. destruct d as [|a [|b d]]; cbn [length] in L; try lia. apply Forall_cons_iff in F as (A & F). apply Forall_cons_iff in F as (B & F). cbn [pairs]. apply Forall_cons; [unfold byte; unfold nyb in *; lia|]. apply IH; [lia|exact F].
Qed.
Lemma pairs_zeros k : pairs (repeat 0 (2 * k)) = repeat 0 k.
Proof. induction k as [|k IH]; [reflexivity|]. replace (2 * S k)%nat with (S (S (2 * k))) by lia. cbn [repeat pairs]. rewrite IH. reflexivity. Qed.

(** The memory of the result: the nybbles [d], then zeros. *)
Definition zeros (d : list Z) : list Z := repeat 0 (32 - length d).
Definition filled (m d : list Z) : Prop := (length d <= 32)%nat /\ Forall nyb d /\ exists t, zlen t = 3 /\ bytes t /\ m = pairs (d ++ zeros d) ++ t.
Lemma nyb_cases a : nyb a -> In a [0; 1; 2; 3; 4; 5; 6; 7; 8; 9; 10; 11; 12; 13; 14; 15]. Proof. unfold nyb. cbn. lia. Qed.
Lemma high_kept a : nyb a -> Z.land (a * 16 + 0) 240 = a * 16.
Proof. intros H. apply nyb_cases in H. cbn [In] in H. repeat (destruct H as [<-|H]; [reflexivity|]). contradiction. Qed.
Lemma set_ok m d v : filled m d -> (length d < 32)%nat -> nyb v -> exists m', set_nybble v m (zlen d) 16 = Ok (1, m') /\ filled m' (d ++ [v]).
Proof.
  intros (L & F & t & LT & BT & ->) LD V. unfold set_nybble. assert (zlen d = Z.of_nat (length d)) as ZD by reflexivity. unfold nyb in V. replace (15 <? v) with false by lia. change (16 <? 0) with false. cbv iota. replace (16 * 2 <? zlen d) with false by lia.
  assert (filled_next : forall m', (exists t', zlen t' = 3 /\ bytes t' /\ m' = pairs ((d ++ [v]) ++ zeros (d ++ [v])) ++ t') -> filled m' (d ++ [v])).
  { intros m' X. split; [rewrite app_length; cbn [length]; lia|]. split; [|exact X]. apply Forall_app. split; [exact F|]. apply Forall_cons; [exact V|apply Forall_nil]. }
  assert (zeros d = 0 :: zeros (d ++ [v])) as ZZ by (unfold zeros; rewrite app_length; cbn [length]; replace (32 - length d)%nat with (S (32 - (length d + 1))) by lia; reflexivity).
  destruct (Nat.Even_or_Odd (length d)) as [(k & K)|(k & K)].
  - assert (zlen (pairs d) = Z.of_nat k) as ZP by (unfold zlen; rewrite (pairs_length k) by exact K; reflexivity).
    assert (exists r, zeros (d ++ [v]) = 0 :: r) as (r & ER) by (unfold zeros; rewrite app_length; cbn [length]; exists (repeat 0 (32 - (length d + 2))); replace (32 - (length d + 1))%nat with (S (32 - (length d + 2))) by lia; reflexivity).
    rewrite ZZ, ER, (pairs_app k) by exact K. cbn [pairs]. rewrite <- app_assoc. cbn [app]. replace (Z.shiftr (zlen d) 1) with (zlen (pairs d)) by (rewrite Z.shiftr_div_pow2, ZP, ZD, K by lia; change (2 ^ 1) with 2; lia).
    unfold rd. rewrite zget_app_r by lia. rewrite Z.sub_diag, zget_cons_0. cbn [bind]. replace (Z.land (zlen d) 1) with (zlen d mod 2) by (symmetry; apply (Z.land_ones _ 1); lia). replace (zlen d mod 2 =? 0) with true by lia.
    change (Z.land (0 * 16 + 0) 15) with 0. rewrite (Bits.lor_shiftl_add v 0 4) by lia. change (2 ^ 4) with 16. rewrite wr_mid. cbn [bind]. eexists. split; [reflexivity|]. apply filled_next. exists t. split; [exact LT|]. split; [exact BT|]. rewrite <- app_assoc, (pairs_app k) by exact K. rewrite ER. cbn [app pairs]. rewrite <- app_assoc. reflexivity.
  - destruct (exists_last (l := d)) as (e & a & E); [intros ->; cbn in K; lia|]. subst d. rewrite app_length in K. cbn [length] in K. assert (length e = (2 * k)%nat) as KE by lia. assert (zlen (pairs e) = Z.of_nat k) as ZP by (unfold zlen; rewrite (pairs_length k) by exact KE; reflexivity).
    rewrite ZZ, <- app_assoc, (pairs_app k) by exact KE. cbn [pairs app]. rewrite <- app_assoc. cbn [app]. rewrite app_length in ZD. cbn [length] in ZD. replace (Z.shiftr (zlen (e ++ [a])) 1) with (zlen (pairs e)) by (rewrite Z.shiftr_div_pow2, ZP, ZD, KE by lia; change (2 ^ 1) with 2; lia).
    unfold rd. rewrite zget_app_r by lia. rewrite Z.sub_diag, zget_cons_0. cbn [bind]. replace (Z.land (zlen (e ++ [a])) 1) with (zlen (e ++ [a]) mod 2) by (symmetry; apply (Z.land_ones _ 1); lia). replace (zlen (e ++ [a]) mod 2 =? 0) with false by lia.
    apply Forall_app in F as (FE & FA). apply Forall_cons_iff in FA as (A & _). rewrite high_kept by exact A. replace (Z.lor (a * 16) v) with (a * 16 + v) by (symmetry; exact (Bits.lor_add_pow2 a v 4 ltac:(lia) ltac:(lia))). rewrite wr_mid. cbn [bind]. eexists. split; [reflexivity|]. apply filled_next. exists t. split; [exact LT|]. split; [exact BT|]. rewrite <- !app_assoc, (pairs_app k) by exact KE. cbn [app pairs]. rewrite <- app_assoc. reflexivity.
Qed.
Lemma filled_zeros m d k : filled m d -> (length d + k <= 32)%nat -> filled m (d ++ repeat 0 k).
Proof.
  intros (L & F & t & LT & BT & ->) LK. split; [rewrite app_length, repeat_length; lia|]. split; [apply Forall_app; split; [exact F|]; apply Forall_forall; intros x X; apply repeat_spec in X; subst; unfold nyb; lia|]. exists t. split; [exact LT|]. split; [exact BT|].
  rewrite <- app_assoc. unfold zeros. rewrite app_length, repeat_length, <- repeat_app. do 4 f_equal. lia.
Qed.
Lemma pad_ok k : forall m d, filled m d -> (length d + k <= 32)%nat -> exists m', pad_loop k (zlen d) m = Ok (zlen d + Z.of_nat k, m') /\ filled m' (d ++ repeat 0 k).
Proof.
  induction k as [|k IH]; intros m d H L; cbn [pad_loop].
  - exists m. rewrite Z.add_0_r, app_nil_r. auto.
  - destruct (set_ok m d 0 H ltac:(lia) ltac:(unfold nyb; lia)) as (m1 & -> & H1). cbn [bind]. destruct (IH m1 (d ++ [0]) H1 ltac:(rewrite app_length; cbn [length]; lia)) as (m2 & E & H2). rewrite zlen_app in E. change (zlen [0]) with 1 in E. rewrite E. exists m2. split; [f_equal; f_equal; lia|]. rewrite <- app_assoc in H2. exact H2.
Qed.

(** ** Characters of the text *)
Lemma read_text s T a x b : ascii 256 s T -> T = a ++ x :: b -> rd (j_mem s) (zlen a) = Ok x.
Proof. intros (H & _) ->. destruct (held_mem _ _ _ H) as (r & EM & _). rewrite EM, <- app_assoc. unfold rd. rewrite zget_app_r by lia. rewrite Z.sub_diag. reflexivity. Qed.
Lemma hex_plain c : hex_digit c -> hchar_to_nybble c = hex_value c /\ nyb (hex_value c) /\ is_hex_digit c = true /\ is_colon c = false /\ plain_char csv2_is_hex_or_colon c.
Proof. unfold hex_digit, hchar_to_nybble, hex_value, nyb, is_hex_digit, is_colon, plain_char, csv2_is_hex_or_colon, csv2_is_number. intros H. repeat match goal with |- context [if ?b then _ else _] => destruct b eqn:? end; lia. Qed.
Lemma digits_ok s T : ascii 256 s T -> forall g a b m d, T = a ++ g ++ b -> Forall hex_digit g -> filled m d -> (length d + length g <= 32)%nat ->
  exists m', digit_loop (length g) s (zlen a) (zlen d) m = Ok (Some (zlen (a ++ g), zlen d + zlen g, m')) /\ filled m' (d ++ map hex_value g).
Proof.
  intros HS. destruct (held_mem _ _ _ (proj1 HS)) as (r & EM & LM & C & BT & BR & CT & S1 & M1 & SA & SM). induction g as [|x g IH]; intros a b m d E F H L; cbn [digit_loop length].
  - exists m. cbn [map]. rewrite !app_nil_r. change (zlen (@nil Z)) with 0. rewrite Z.add_0_r. auto.
  - apply Forall_cons_iff in F as (FX & F). destruct (hex_plain x FX) as (HX & NX & _ & _ & _). unfold set_nybble_js. rewrite SA, S1. cbn [negb Z.eqb Pos.eqb]. assert (zlen a < zlen T) as LA by (rewrite E; cbn [app]; rewrite zlen_app, zlen_cons; pose proof (zlen_nonneg (g ++ b)); lia). pose proof (zlen_nonneg a) as NA. pose proof (zlen_nonneg d) as ND.
    unfold u32. rewrite !Z.mod_small by (cbn [length] in L; unfold zlen in *; lia). rewrite C. replace (zlen T <? zlen a) with false by lia. cbn [length] in L. replace (32 <? zlen d) with false by (unfold zlen; lia).
    rewrite (read_text s T a x (g ++ b) HS E). cbn [bind]. unfold set_nybble_char. rewrite HX. cbv zeta. unfold nyb in NX. replace (hex_value x =? -1) with false by lia. replace (hex_value x =? -2) with false by lia.
    destruct (set_ok m d (hex_value x) H ltac:(lia) NX) as (m1 & -> & H1). cbn [bind]. change (negb (1 =? JS_SUCCESS)) with false. cbv iota. destruct (IH (a ++ [x]) b m1 (d ++ [hex_value x]) ltac:(rewrite <- app_assoc; exact E) F H1 ltac:(rewrite app_length; cbn [length]; lia)) as (m2 & E2 & H2).
    rewrite !zlen_app in E2. change (zlen [x]) with 1 in E2. change (zlen [hex_value x]) with 1 in E2. rewrite E2. exists m2. cbn [map]. rewrite <- app_assoc in H2. split; [|exact H2]. rewrite !zlen_app, zlen_cons. do 3 f_equal. f_equal; lia.
Qed.
Lemma thingys_ok s T p : ascii 256 s T -> forall g n a b cnt, T = a ++ g ++ b -> Forall (fun c => p c = true) g -> match b with [] => g <> [] | x :: _ => p x = false end -> (length g < n)%nat ->
  thingys_loop n s (zlen a) cnt p = Ok (cnt + zlen g).
Proof.
  intros HS. destruct (held_mem _ _ _ (proj1 HS)) as (r & EM & LM & C & BT & BR & CT & S1 & M1 & SA & SM). induction g as [|x g IH]; intros n a b cnt E F HB L; (destruct n as [|n]; [cbn [length] in L; lia|]); cbn [thingys_loop].
  - destruct b as [|x b]; [congruence|]. rewrite (read_text s T a x b HS E). cbn [bind]. rewrite HB. change (zlen (@nil Z)) with 0. rewrite Z.add_0_r. reflexivity.
  - apply Forall_cons_iff in F as (FX & F). rewrite (read_text s T a x (g ++ b) HS E). cbn [bind]. rewrite FX, C. assert (zlen T = zlen a + 1 + zlen g + zlen b) as LT by (rewrite E; cbn [app]; rewrite zlen_app, zlen_cons, zlen_app; lia). pose proof (zlen_nonneg g). pose proof (zlen_nonneg b). rewrite zlen_cons.
    destruct (Z.eqb_spec (zlen a + 1) (zlen T)) as [X|X]; [f_equal; lia|]. replace (zlen T <? zlen a + 1) with false by lia. replace (zlen a + 1) with (zlen (a ++ [x])) by (rewrite zlen_app; reflexivity). cbn [length] in L.
    rewrite (IH n (a ++ [x]) b (cnt + 1)); [f_equal; lia|rewrite <- app_assoc; exact E|exact F| |lia]. destruct b as [|y b]; [|exact HB]. intros ->. apply X. rewrite LT. change (zlen (@nil Z)) with 0. lia.
Qed.
Lemma count_ok s T p g a b : ascii 256 s T -> zlen T < 256 -> T = a ++ g ++ b -> Forall (fun c => p c = true) g -> match b with [] => g <> [] | x :: _ => p x = false end -> count_thingys s (zlen a) p = Ok (zlen g).
Proof.
  intros HS LT E F HB. destruct (held_mem _ _ _ (proj1 HS)) as (r & EM & LM & C & BT & BR & CT & S1 & M1 & SA & SM). unfold count_thingys. rewrite S1, M1, C. cbn [negb Z.eqb Pos.eqb]. replace (256 <=? zlen T) with false by lia. assert (zlen T = zlen a + zlen g + zlen b) as LL by (rewrite E, !zlen_app; lia). pose proof (zlen_nonneg g). pose proof (zlen_nonneg b). replace (zlen T <? zlen a) with false by lia.
  rewrite (thingys_ok s T p HS g _ a b 0 E F HB); [reflexivity|]. pose proof (zlen_nonneg a). unfold zlen in *. lia.
Qed.
Lemma all_ok s T p : ascii 256 s T -> forall b n a cnt, T = a ++ b -> (length b < n)%nat -> all_loop n s (zlen a) cnt p = Ok (cnt + zlen (filter p b)).
Proof.
  intros HS. destruct (held_mem _ _ _ (proj1 HS)) as (r & EM & LM & C & BT & BR & CT & S1 & M1 & SA & SM). induction b as [|x b IH]; intros n a cnt E L; (destruct n as [|n]; [cbn [length] in L; lia|]); cbn [all_loop]; rewrite C.
  - rewrite app_nil_r in E. subst T. replace (zlen a <? zlen a) with false by lia. cbn [filter]. change (zlen (@nil Z)) with 0. rewrite Z.add_0_r. reflexivity.
  - assert (zlen T = zlen a + 1 + zlen b) as LT by (rewrite E, zlen_app, zlen_cons; lia). pose proof (zlen_nonneg b). replace (zlen a <? zlen T) with true by lia. rewrite (read_text s T a x b HS E). cbn [bind]. replace (zlen a + 1) with (zlen (a ++ [x])) by (rewrite zlen_app; reflexivity). cbn [length] in L.
    rewrite (IH n (a ++ [x])); [|rewrite <- app_assoc; exact E|lia]. cbn [filter]. destruct (p x); [rewrite zlen_cons|]; f_equal; lia.
Qed.
Lemma count_all_ok s T p a b : ascii 256 s T -> zlen T < 256 -> T = a ++ b -> count_thingys_all s (zlen a) p = Ok (zlen (filter p b)).
Proof.
  intros HS LT E. destruct (held_mem _ _ _ (proj1 HS)) as (r & EM & LM & C & BT & BR & CT & S1 & M1 & SA & SM). unfold count_thingys_all. rewrite S1, M1, C. cbn [negb Z.eqb Pos.eqb]. replace (256 <=? zlen T) with false by lia. assert (zlen T = zlen a + zlen b) as LL by (rewrite E, zlen_app; lia). pose proof (zlen_nonneg b). replace (zlen T <? zlen a) with false by lia.
  rewrite (all_ok s T p HS b _ a 0 E); [reflexivity|]. pose proof (zlen_nonneg a). unfold zlen in *. lia.
Qed.

(** ** Groups *)
Definition four (g : list Z) : list Z := repeat 0 (4 - length g) ++ map hex_value g.
Lemma group_len g : group_ok g -> (1 <= length g <= 4)%nat. Proof. intros (L & _). unfold zlen in L. lia. Qed.
Lemma four_len g : group_ok g -> length (four g) = 4%nat. Proof. intros H. apply group_len in H. unfold four. rewrite app_length, repeat_length, map_length. lia. Qed.
Lemma cons2 (a b c d : Z) : a = c -> b = d -> [a; b] = [c; d]. Proof. intros -> ->. reflexivity. Qed.
Lemma four_octets g : group_ok g -> pairs (four g) = group_octets g.
Proof.
  intros H. pose proof (group_len g H) as L. destruct H as (_ & F). assert (forall c, hex_digit c -> nyb (hex_value c)) as N by (intros c X; apply hex_plain in X; tauto).
  destruct g as [|a [|b [|c [|d [|e g]]]]]; cbn [length] in L; try lia; repeat (apply Forall_cons_iff in F as (?X & F)); repeat match goal with X : hex_digit _ |- _ => apply N in X; unfold nyb in X end; unfold four, group_octets, group_value; cbn [length Nat.sub repeat app map pairs fold_left]; (apply cons2; [lia|lia]).
Qed.
Definition fours (gs : list (list Z)) : list Z := flat_map four gs.
Lemma fours_len gs : Forall group_ok gs -> length (fours gs) = (4 * length gs)%nat.
Proof. induction 1 as [|g gs H F IH]; [reflexivity|]. unfold fours in *. cbn [flat_map length]. rewrite app_length, four_len, IH by exact H. lia. Qed.
Lemma fours_octets gs : Forall group_ok gs -> pairs (fours gs) = flat_map group_octets gs.
Proof. induction 1 as [|g gs H F IH]; [reflexivity|]. unfold fours in *. cbn [flat_map]. rewrite (pairs_app 2) by (apply four_len, H). rewrite four_octets, IH by exact H. reflexivity. Qed.
Lemma groups_cons g gs : gs <> [] -> groups (g :: gs) = g ++ 58 :: groups gs. Proof. destruct gs; [congruence|reflexivity]. Qed.
Lemma groups_head gs : gs <> [] -> Forall group_ok gs -> exists x t, groups gs = x :: t /\ hex_digit x.
Proof.
  intros N F. destruct gs as [|g gs]; [congruence|]. apply Forall_cons_iff in F as (G & _). pose proof (group_len g G) as L. destruct g as [|x g]; [cbn in L; lia|]. destruct G as (_ & G). apply Forall_cons_iff in G as (X & _). destruct gs; cbn [groups app]; eauto.
Qed.
Lemma groups_colons gs : Forall group_ok gs -> zlen (filter is_colon (groups gs)) = Z.max 0 (Z.of_nat (length gs) - 1).
Proof.
  assert (forall g, group_ok g -> filter is_colon g = []) as N.
  { intros g (_ & F). induction F as [|x g X F IH]; [reflexivity|]. cbn [filter]. destruct (hex_plain x X) as (_ & _ & _ & -> & _). exact IH. }
  induction 1 as [|g gs H F IH]; [reflexivity|]. destruct gs as [|h gs]; [cbn [groups]; rewrite N by exact H; reflexivity|]. rewrite groups_cons by discriminate. rewrite filter_app, N by exact H. cbn [app filter]. change (is_colon 58) with true. cbv iota. rewrite zlen_cons, IH. cbn [length]. lia.
Qed.
Lemma groups_zlen gs : Forall group_ok gs -> zlen (groups gs) <= 5 * Z.of_nat (length gs).
Proof.
  induction 1 as [|g gs H F IH]; [cbn; lia|]. destruct H as (L & _). destruct gs as [|h gs]; [cbn [groups length]; lia|]. rewrite groups_cons by discriminate. rewrite zlen_app, zlen_cons. cbn [length] in *. lia.
Qed.
(** A group is read. *)
Lemma block_ok s T g a b m d : ascii 256 s T -> zlen T < 256 -> T = a ++ g ++ b -> group_ok g -> match b with [] => True | x :: _ => is_hex_digit x = false end -> filled m d -> (length d + 4 <= 32)%nat ->
  count_thingys s (zlen a) is_hex_digit = Ok (zlen g) /\
  exists m', (' (out, m) <- pad_loop (Z.to_nat (4 - zlen g)) (zlen d) m ;; digit_loop (Z.to_nat (zlen g)) s (zlen a) out m) = Ok (Some (zlen (a ++ g), zlen d + 4, m')) /\ filled m' (d ++ four g).
Proof.
  intros HS LT E G HB H L. pose proof (group_len g G) as LG. destruct G as (ZG & F). split.
  { apply (count_ok s T is_hex_digit g a b HS LT E); [eapply Forall_impl; [|exact F]; intros x X; apply hex_plain in X; tauto|]. destruct b; [destruct g; [cbn in LG; lia|discriminate]|exact HB]. }
  destruct (pad_ok (Z.to_nat (4 - zlen g)) m d H ltac:(lia)) as (m1 & -> & H1). cbn [bind]. destruct (digits_ok s T HS g a b m1 _ E F H1) as (m2 & E2 & H2); [rewrite app_length, repeat_length; unfold zlen; lia|].
  rewrite zlen_app in E2. replace (zlen (repeat 0 (Z.to_nat (4 - zlen g)))) with (Z.of_nat (Z.to_nat (4 - zlen g))) in E2 by (unfold zlen; rewrite repeat_length; reflexivity). replace (Z.to_nat (zlen g)) with (length g) by (unfold zlen; lia). rewrite E2. exists m2. split; [do 3 f_equal; f_equal; lia|].
  unfold four. replace (4 - length g)%nat with (Z.to_nat (4 - zlen g)) by (unfold zlen; lia). rewrite app_assoc. exact H2.
Qed.
(** Groups up to the end of the text. *)
Lemma run_ok s T : ascii 256 s T -> zlen T < 256 -> forall gs n a m d c sk init, T = a ++ groups gs -> gs <> [] -> Forall group_ok gs -> filled m d -> (length d + 4 * length gs <= 32)%nat -> (length gs <= n)%nat ->
  exists m', ip6_loop n s (zlen T) (zlen a) (zlen d) c sk init m = Ok (Some m') /\ filled m' (d ++ fours gs).
Proof.
  intros HS LT. destruct (held_mem _ _ _ (proj1 HS)) as (r & EM & LM & C & BT & BR & CT & S1 & M1 & SA & SM). induction gs as [|g gs IH]; intros n a m d c sk init E NE F H L LN; [congruence|]. destruct n as [|n]; [cbn [length] in LN; lia|]. cbn [ip6_loop length] in *. apply Forall_cons_iff in F as (G & F). pose proof (group_len g G) as LG. pose proof (proj1 G) as ZG.
  assert (exists b, T = a ++ g ++ b /\ match gs with [] => b = [] | _ => b = 58 :: groups gs end) as (b & EB & B) by (destruct gs; [exists []; rewrite app_nil_r; auto|eexists; split; [|reflexivity]; rewrite E, groups_cons by discriminate; reflexivity]).
  assert (zlen T = zlen a + zlen g + zlen b) as ZT by (rewrite EB, !zlen_app; lia). pose proof (zlen_nonneg b) as NB. replace ((zlen d <? 32) && (zlen a <? zlen T)) with true by (unfold zlen in *; lia).
  destruct (block_ok s T g a b m d HS LT EB G) as (-> & m1 & E1 & H1); [destruct gs; subst b; [exact Logic.I|reflexivity]|exact H|lia|]. cbn [bind]. replace (zlen g =? 0) with false by lia. rewrite andb_false_r. replace ((4 <? zlen g) || (zlen g <? 1)) with false by lia. rewrite E1. cbn [bind]. unfold colons_after. rewrite C.
  destruct gs as [|h gs].
  - subst b. rewrite app_nil_r in EB. rewrite <- EB. replace (zlen T <? zlen T) with false by lia. rewrite Z.eqb_refl. cbn [bind]. change (0 =? JS_ERROR) with false. cbn [Z.eqb andb bind]. exists m1. split; [reflexivity|]. unfold fours. cbn [flat_map]. rewrite app_nil_r. exact H1.
  - destruct (groups_head (h :: gs) ltac:(discriminate) F) as (x & t & EH & HX). subst b. assert (zlen (a ++ g) < zlen T) as LA by (rewrite ZT, zlen_app, zlen_cons; pose proof (zlen_nonneg (groups (h :: gs))); lia). replace (zlen (a ++ g) <? zlen T) with true by lia.
    rewrite (count_ok s T is_colon [58] (a ++ g) (groups (h :: gs)) HS LT); [|rewrite <- app_assoc; exact EB|apply Forall_cons; [reflexivity|apply Forall_nil]|rewrite EH; apply hex_plain, HX]. cbn [bind]. change (zlen [58]) with 1. change (1 =? JS_ERROR) with false. cbn [Z.eqb Pos.eqb bind].
    replace (zlen (a ++ g) + 1) with (zlen ((a ++ g) ++ [58])) by (rewrite (zlen_app (a ++ g)); reflexivity). replace (zlen d + 4) with (zlen (d ++ four g)) by (rewrite zlen_app; unfold zlen at 2; rewrite four_len by exact G; lia).
    destruct (IH n ((a ++ g) ++ [58]) m1 (d ++ four g) (c + 1) sk false) as (m2 & -> & H2); [rewrite <- !app_assoc; exact EB|discriminate|exact F|exact H1|rewrite app_length, four_len by exact G; cbn [length] in *; lia|cbn [length] in *; lia|]. exists m2. split; [reflexivity|]. unfold fours in *. cbn [flat_map] in *. rewrite app_assoc. exact H2.
Qed.
(** After two colons: [rg] groups follow. *)
Definition right_ (gs : list (list Z)) : Z := Z.max 1 (Z.of_nat (length gs)).
Lemma finish_ok s T rg n a m d c : ascii 256 s T -> zlen T < 256 -> T = a ++ groups rg -> Forall group_ok rg -> filled m d -> (length d + 4 * length rg <= 28)%nat -> (length rg < n)%nat ->
  exists m', ip6_loop n s (zlen T) (zlen a) (32 - 4 * right_ rg) c true false m = Ok (Some m') /\ filled m' (d ++ repeat 0 (32 - length d - 4 * length rg) ++ fours rg).
Proof.
  intros HS LT E F H L LN. destruct rg as [|g rg].
  - destruct n as [|n]; [cbn in LN; lia|]. cbn [ip6_loop groups] in *. rewrite app_nil_r in E. subst a. replace (zlen T <? zlen T) with false by lia. rewrite andb_false_r. exists m. split; [reflexivity|]. cbn [length fours flat_map] in *. rewrite app_nil_r. apply filled_zeros; [exact H|lia].
  - set (gs := g :: rg) in *. assert (1 <= length gs)%nat as L1 by (cbn; lia). set (k := (32 - length d - 4 * length gs)%nat). pose proof (filled_zeros m d k H ltac:(lia)) as H1. replace (32 - 4 * right_ gs) with (zlen (d ++ repeat 0 k)) by (rewrite zlen_app; unfold zlen, right_; rewrite repeat_length; lia).
    destruct (run_ok s T HS LT gs n a m (d ++ repeat 0 k) c true false E ltac:(discriminate) F H1) as (m' & -> & H2); [rewrite app_length, repeat_length; lia|lia|]. exists m'. split; [reflexivity|]. rewrite <- app_assoc in H2. exact H2.
Qed.
Lemma two_colons s T rg a : ascii 256 s T -> zlen T < 256 -> T = a ++ [58; 58] ++ groups rg -> Forall group_ok rg -> count_thingys s (zlen a) is_colon = Ok 2 /\ count_thingys_all s (zlen a + 1) is_colon = Ok (right_ rg) /\ zlen a < zlen T.
Proof.
  intros HS LT E F. split; [|split].
  - apply (count_ok s T is_colon [58; 58] a (groups rg) HS LT E); [apply Forall_cons; [reflexivity|apply Forall_cons; [reflexivity|apply Forall_nil]]|]. destruct rg as [|g rg]; [discriminate|]. destruct (groups_head (g :: rg) ltac:(discriminate) F) as (x & t & -> & HX). apply hex_plain, HX.
  - replace (zlen a + 1) with (zlen (a ++ [58])) by (rewrite zlen_app; reflexivity). rewrite (count_all_ok s T is_colon (a ++ [58]) (58 :: groups rg) HS LT) by (rewrite <- app_assoc; exact E). cbn [filter]. change (is_colon 58) with true. cbv iota. rewrite zlen_cons, groups_colons by exact F. unfold right_. f_equal. lia.
  - rewrite E, zlen_app. cbn [app]. rewrite !zlen_cons. pose proof (zlen_nonneg (groups rg)). lia.
Qed.
(** Groups up to the two colons. *)
Lemma left_ok s T rg : ascii 256 s T -> zlen T < 256 -> Forall group_ok rg -> forall lg n a m d c init, T = a ++ groups lg ++ [58; 58] ++ groups rg -> lg <> [] -> Forall group_ok lg -> filled m d -> Z.of_nat (length d) = 4 * c -> (length d + 4 * length lg + 4 * length rg <= 28)%nat -> (length lg + length rg < n)%nat ->
  exists m', ip6_loop n s (zlen T) (zlen a) (zlen d) c false init m = Ok (Some m') /\ filled m' (d ++ fours lg ++ repeat 0 (32 - length d - 4 * (length lg + length rg)) ++ fours rg).
Proof.
  intros HS LT FR. destruct (held_mem _ _ _ (proj1 HS)) as (r & EM & LM & C & BT & BR & CT & S1 & M1 & SA & SM). induction lg as [|g gs IH]; intros n a m d c init E NE F H LC L LN; [congruence|]. destruct n as [|n]; [cbn [length] in LN; lia|]. cbn [ip6_loop length] in *. apply Forall_cons_iff in F as (G & F). pose proof (group_len g G) as LG. pose proof (proj1 G) as ZG.
  assert (exists b, T = a ++ g ++ 58 :: b /\ match gs with [] => 58 :: b = [58; 58] ++ groups rg | _ => b = groups gs ++ [58; 58] ++ groups rg end) as (b & EB & B) by (destruct gs; [eexists; split; [exact E|reflexivity]|eexists; split; [|reflexivity]; rewrite E, groups_cons by discriminate; rewrite <- app_assoc; reflexivity]).
  assert (zlen T = zlen a + zlen g + 1 + zlen b) as ZT by (rewrite EB, !zlen_app, zlen_cons; lia). pose proof (zlen_nonneg b) as NB. replace ((zlen d <? 32) && (zlen a <? zlen T)) with true by (unfold zlen in *; lia).
  destruct (block_ok s T g a (58 :: b) m d HS LT EB G eq_refl H ltac:(lia)) as (-> & m1 & E1 & H1). cbn [bind]. replace (zlen g =? 0) with false by lia. rewrite andb_false_r. replace ((4 <? zlen g) || (zlen g <? 1)) with false by lia. rewrite E1. cbn [bind]. unfold colons_after. rewrite C.
  replace (zlen (a ++ g) <? zlen T) with true by (rewrite zlen_app; lia).
  destruct gs as [|h gs].
  - rewrite B in EB. destruct (two_colons s T rg (a ++ g) HS LT ltac:(rewrite <- app_assoc; exact EB) FR) as (-> & -> & _). cbn [bind]. change (2 =? JS_ERROR) with false. cbn [Z.eqb Pos.eqb]. assert (1 <= right_ rg) as R1 by (unfold right_; lia). replace (right_ rg =? JS_ERROR) with false by (unfold JS_ERROR; lia). cbn [bind].
    replace (zlen (a ++ g) + 2) with (zlen ((a ++ g) ++ [58; 58])) by (rewrite (zlen_app (a ++ g)); reflexivity). replace (zlen d + 4 + 4 * (8 - (c + 1) - right_ rg)) with (32 - 4 * right_ rg) by (unfold zlen; lia).
    destruct (finish_ok s T rg n ((a ++ g) ++ [58; 58]) m1 (d ++ four g) (c + 1) HS LT) as (m2 & -> & H2); [rewrite <- !app_assoc; exact EB|exact FR|exact H1|rewrite app_length, four_len by exact G; cbn [length] in *; lia|cbn [length] in *; lia|].
    exists m2. split; [reflexivity|]. unfold fours in *. cbn [flat_map length] in *. rewrite app_nil_r. rewrite app_length, four_len, <- app_assoc in H2 by exact G. replace (32 - length d - 4 * (1 + length rg))%nat with (32 - (length d + 4) - 4 * length rg)%nat by lia. exact H2.
  - subst b. destruct (groups_head (h :: gs) ltac:(discriminate) F) as (x & t & EH & HX).
    rewrite (count_ok s T is_colon [58] (a ++ g) (groups (h :: gs) ++ [58; 58] ++ groups rg) HS LT); [|rewrite <- app_assoc; exact EB|apply Forall_cons; [reflexivity|apply Forall_nil]|rewrite EH; apply hex_plain, HX]. cbn [bind]. change (zlen [58]) with 1. change (1 =? JS_ERROR) with false. cbn [Z.eqb Pos.eqb bind].
    replace (zlen (a ++ g) + 1) with (zlen ((a ++ g) ++ [58])) by (rewrite (zlen_app (a ++ g)); reflexivity). replace (zlen d + 4) with (zlen (d ++ four g)) by (rewrite zlen_app; unfold zlen at 2; rewrite four_len by exact G; lia).
    destruct (IH n ((a ++ g) ++ [58]) m1 (d ++ four g) (c + 1) false) as (m2 & -> & H2); [rewrite <- !app_assoc; exact EB|discriminate|exact F|exact H1|rewrite app_length, four_len by exact G; lia|rewrite app_length, four_len by exact G; cbn [length] in *; lia|cbn [length] in *; lia|].
    exists m2. split; [reflexivity|]. rewrite app_length, four_len in H2 by exact G. unfold fours in *. cbn [flat_map length] in *. rewrite <- !app_assoc in *. replace (32 - length d - 4 * (S (S (length gs)) + length rg))%nat with (32 - (length d + 4) - 4 * (S (length gs) + length rg))%nat by lia. exact H2.
Qed.
(** Whole texts. *)
Lemma text_len t v : ip6_text t v -> zlen t < 256.
Proof.
  intros [gs F L|l r FL FR L].
  - pose proof (groups_zlen gs F). lia.
  - pose proof (groups_zlen l FL). pose proof (groups_zlen r FR). rewrite !zlen_app. change (zlen [58; 58]) with 2. lia.
Qed.
Lemma loop_ok s t v m : ip6_text t v -> ascii 256 s t -> filled m [] -> exists m' d, ip6_loop (S (Z.to_nat (zlen t))) s (zlen t) 0 0 0 false true m = Ok (Some m') /\ filled m' d /\ length d = 32%nat /\ pairs d = v.
Proof.
  intros TX HS H. pose proof (text_len _ _ TX) as LT. assert (forall l, Forall group_ok l -> (length l <= length (groups l))%nat) as GL.
  { intros l F. induction F as [|g l G F IH]; [cbn; lia|]. apply group_len in G. destruct l as [|h l]; [cbn [groups length]; lia|]. rewrite groups_cons by discriminate. rewrite app_length. cbn [length] in *. lia. }
  destruct TX as [gs F L|l r FL FR L].
  - destruct (run_ok s (groups gs) HS LT gs (S (Z.to_nat (zlen (groups gs)))) [] m [] 0 false true eq_refl ltac:(destruct gs; discriminate) F H ltac:(cbn [length]; lia)) as (m' & E & H'); [specialize (GL gs F); unfold zlen; lia|].
    exists m', ([] ++ fours gs). split; [exact E|]. split; [exact H'|]. cbn [app]. split; [rewrite fours_len by exact F; lia|apply fours_octets, F].
  - set (T := groups l ++ [58; 58] ++ groups r) in *. set (Z0 := repeat 0 (32 - 4 * (length l + length r))).
    assert (length (fours l ++ Z0 ++ fours r) = 32%nat /\ pairs (fours l ++ Z0 ++ fours r) = flat_map group_octets l ++ repeat 0 (16 - 2 * (length l + length r)) ++ flat_map group_octets r) as (LD & PD).
    { split; [unfold Z0; rewrite !app_length, repeat_length, !fours_len by assumption; lia|]. rewrite (pairs_app (2 * length l)) by (rewrite fours_len by exact FL; lia). unfold Z0. replace (32 - 4 * (length l + length r))%nat with (2 * (16 - 2 * (length l + length r)))%nat by lia. rewrite (pairs_app (16 - 2 * (length l + length r))) by apply repeat_length. rewrite pairs_zeros, !fours_octets by assumption. reflexivity. }
    assert (exists m', ip6_loop (S (Z.to_nat (zlen T))) s (zlen T) 0 0 0 false true m = Ok (Some m') /\ filled m' (fours l ++ Z0 ++ fours r)) as (m' & E & H').
    { assert (length l + length r + 2 <= Z.to_nat (zlen T))%nat as LN by (unfold T, zlen; rewrite !app_length; cbn [length]; pose proof (GL l FL); pose proof (GL r FR); lia).
      destruct l as [|g l].
      - destruct (held_mem _ _ _ (proj1 HS)) as (q & EM & LM & C & BT & BR & CT & S1 & M1 & SA & SM). cbn [groups app] in T. destruct (two_colons s T r [] HS LT eq_refl FR) as (E2 & E3 & L0). change (zlen (@nil Z)) with 0 in *. cbn [ip6_loop]. replace ((0 <? 32) && (0 <? zlen T)) with true by lia.
        rewrite (count_ok s T is_hex_digit [] [] T HS LT eq_refl (Forall_nil _) eq_refl : count_thingys s 0 is_hex_digit = Ok 0). cbn [bind Z.eqb andb]. unfold colons_after. rewrite C. replace (0 <? zlen T) with true by lia. rewrite E2. cbn [bind]. change (2 =? JS_ERROR) with false. cbn [Z.eqb Pos.eqb]. rewrite E3. cbn [bind]. assert (1 <= right_ r) as R1 by (unfold right_; lia). replace (right_ r =? JS_ERROR) with false by (unfold JS_ERROR; lia). cbn [bind].
        replace (0 + 4 * (8 - (0 + 1) - (right_ r - 1))) with (32 - 4 * right_ r) by lia. cbn [length] in *. destruct (finish_ok s T r (Z.to_nat (zlen T)) [58; 58] m [] (0 + 1) HS LT eq_refl FR H ltac:(cbn [length]; lia) ltac:(lia)) as (m' & E & H'). change (zlen [58; 58]) with (0 + 2) in E. exists m'. split; [exact E|]. cbn [app length fours flat_map] in *. unfold Z0. replace (32 - 4 * (0 + length r))%nat with (32 - 0 - 4 * length r)%nat by lia. exact H'.
      - destruct (left_ok s T r HS LT FR (g :: l) (S (Z.to_nat (zlen T))) [] m [] 0 true eq_refl ltac:(discriminate) FL H eq_refl ltac:(cbn [length] in *; lia) ltac:(lia)) as (m' & E & H'). exists m'. split; [exact E|]. cbn [app length] in H'. rewrite Nat.sub_0_r in H'. exact H'. }
    exists m', (fours l ++ Z0 ++ fours r). auto.
Qed.
Lemma zero_ok m : forall n k t, m = repeat 0 k ++ t -> (n <= length t)%nat -> zero_loop n (Z.of_nat k) m = Ok (repeat 0 (k + n) ++ skipn n t).
Proof.
  intros n. revert m. induction n as [|n IH]; intros m k t E L; cbn [zero_loop]; [rewrite Nat.add_0_r; subst; reflexivity|]. destruct t as [|x t]; [cbn in L; lia|]. subst m. replace (Z.of_nat k) with (zlen (repeat 0 k)) by (unfold zlen; rewrite repeat_length; reflexivity). rewrite wr_mid. cbn [bind]. replace (zlen (repeat 0 k) + 1) with (Z.of_nat (S k)) by (unfold zlen; rewrite repeat_length; lia).
  rewrite (IH _ (S k) t); [|replace (S k) with (k + 1)%nat by lia; rewrite repeat_app, <- app_assoc; reflexivity|cbn in L; lia]. cbn [skipn]. do 3 f_equal. lia.
Qed.
Lemma raw_ok J2 s t v : junk_ok J2 -> ip6_text t v -> ascii 256 s t -> exists o, ip6_to_raw J2 s = Ok (Some o) /\ held 16 o v.
Proof.
  intros HJ TX HS. destruct (held_mem _ _ _ (proj1 HS)) as (q & EM & LM & C & BT & BR & CT & S1 & M1 & SA & SM). pose proof (text_len _ _ TX) as LT. unfold ip6_to_raw. rewrite SA, S1. cbn [negb Z.eqb Pos.eqb]. destruct (js_create_ok J2 16 1 HJ ltac:(lia) ltac:(lia) ltac:(lia)) as (o & -> & W & V & _). pose proof (value_held _ _ _ _ W V) as HO. destruct (held_mem _ _ _ HO) as (r & ER & LR & CO & _ & BO & _ & SO & MO & _ & _). cbn [app] in ER. rewrite ER.
  change (zlen (@nil Z)) with 0 in LR. pose proof (zero_ok r 16 0 r eq_refl ltac:(unfold zlen in LR; lia)) as ZK. change (Z.of_nat 0) with 0 in ZK. rewrite ZK. clear ZK. cbn [bind]. unfold js_length. rewrite SA, C. pose proof (zlen_nonneg t). rewrite i32_small by lia.
  destruct (loop_ok s t v (repeat 0 (0 + 16) ++ skipn 16 r) TX HS) as (m' & d & -> & HM & LD & PD).
  { split; [cbn; lia|]. split; [constructor|]. exists (skipn 16 r). split; [unfold zlen in *; rewrite skipn_length; lia|]. split; [|reflexivity]. rewrite <- (firstn_skipn 16 r) in BO. apply bytes_app in BO. exact (proj2 BO). }
  cbn [bind]. eexists. split; [reflexivity|]. destruct HM as (_ & FN & t3 & L3 & B3 & ->). unfold zeros. rewrite LD. cbn [Nat.sub repeat]. rewrite app_nil_r, PD. assert (zlen v = 16) as LV by (rewrite <- PD; unfold zlen; rewrite (pairs_length 16) by exact LD; reflexivity). assert (bytes v) as BV by (rewrite <- PD; apply (pairs_bytes 16); assumption).
  rewrite SO, MO. split; [|reflexivity]. split; [|split; [reflexivity|]].
  - constructor; cbn [j_mem j_size j_count j_max]; try lia; [rewrite zlen_app; lia|]. apply bytes_app. split; assumption.
  - unfold octets_of. cbn [j_mem j_size j_count]. change (1 * 16) with 16. rewrite <- LV. rewrite zslice_app_l by lia. apply zslice_all.
Qed.
Lemma text_plain t v : ip6_text t v -> Forall (plain_char csv2_is_hex_or_colon) t /\ t <> [].
Proof.
  assert (forall gs, Forall group_ok gs -> Forall (plain_char csv2_is_hex_or_colon) (groups gs)) as GP.
  { intros gs F. induction F as [|g gs (_ & G) F IH]; [constructor|]. assert (Forall (plain_char csv2_is_hex_or_colon) g) as PG by (eapply Forall_impl; [|exact G]; intros c X; apply hex_plain in X; tauto). destruct gs; [exact PG|]. rewrite groups_cons by discriminate. apply Forall_app. split; [exact PG|]. apply Forall_cons; [vm_compute; intuition discriminate|exact IH]. }
  intros [gs F L|l r FL FR L].
  - split; [apply GP, F|]. destruct (groups_head gs ltac:(destruct gs; discriminate) F) as (x & q & -> & _). discriminate.
  - split; [|destruct (groups l); discriminate]. apply Forall_app. split; [apply GP, FL|]. apply Forall_app. split; [repeat (apply Forall_cons; [vm_compute; intuition discriminate|]); apply Forall_nil|apply GP, FR].
Qed.
Lemma aaaa_ok J J2 f sep t v d rest : junk_ok J -> junk_ok J2 -> separators (f_just f :: sep) -> zlen sep < 10000 -> ip6_text t v -> delimiter d -> reading f (sep ++ t ++ d :: rest) ->
  exists o g, csv2_get_aaaa J J2 f = Ok (Some o, g) /\ held 16 o v /\ after_reading f g rest d.
Proof.
  intros HJ HJ2 (SF & SP) LS TX D R. destruct (text_plain _ _ TX) as (FP & NE). pose proof (text_len _ _ TX) as LT. destruct t as [|x l]; [congruence|]. cbn [app] in R. pose proof FP as FP'. apply Forall_cons_iff in FP' as ((X1 & X2 & X3 & X4 & X5) & _).
  assert (forall q, delimiter q -> csv2_is_hex_or_colon q = false) as ND by (intros q Q; unfold delimiter in Q; unfold csv2_is_hex_or_colon, csv2_is_number; lia).
  unfold csv2_get_aaaa. destruct (get_1st csv2_is_hex_or_colon x _ sep f ND X5 X1 X2 X3 X4 SF SP LS R) as (g & -> & G & A). change (negb (1 =? JS_SUCCESS)) with false. cbv iota.
  destruct (something_text J f g csv2_is_hex_or_colon x l d rest HJ G A FP D (ND d D) ltac:(lia)) as (o & h & -> & HO & AH). cbn [bind]. destruct (raw_ok J2 o _ v HJ2 TX HO) as (out & -> & HV). cbn [bind]. exists out, h. auto.
Qed.
