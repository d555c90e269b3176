(** The functions of JsStr.c do what SpecJsStr says. *)
From Verif Require Import CBase Bits ModelDwStr SpecDwStr ProofDwStr ModelJsStr SpecJsStr.

(** ** Valid strings *)
Lemma j_bound s : j_wf s -> 0 <= j_size s * j_count s <= j_size s * j_max s /\ j_size s * j_max s + 3 * j_size s = zlen (j_mem s) /\
  j_size s * j_max s + 3 * j_size s < 2147483648 /\ 1 <= j_size s < 2147483648 /\ 0 <= j_count s <= j_max s /\ j_max s < 2147483648.
Proof. intros [A B C D E]. nia. Qed.
Lemma zlen_octets s : j_wf s -> zlen (octets_of s) = j_size s * j_count s.
Proof. intros W. pose proof (j_bound s W). unfold octets_of. apply zlen_zslice; lia. Qed.
Lemma bytes_octets s : j_wf s -> bytes (octets_of s).
Proof. intros W. unfold octets_of. apply bytes_zslice, jw_bytes, W. Qed.
Lemma s_len_value s : j_wf s -> s_len (value_of s) = j_count s.
Proof.
  intros W. pose proof (j_bound s W). unfold s_len. cbn [value_of s_unit s_oct]. rewrite zlen_octets by exact W.
  rewrite Z.mul_comm. apply Z.div_mul. lia.
Qed.
Lemma sane_usable s : j_wf s -> js_sane s = usable (value_of s).
Proof. intros W. pose proof (jw_count s W). unfold js_sane, usable, value_of, JS_US_ASCII. cbn [s_enc s_unit]. replace (j_max s <? j_count s) with false by lia. reflexivity. Qed.
Lemma unit_value s : s_unit (value_of s) = j_size s. Proof. reflexivity. Qed.
Lemma cap_value s : s_cap (value_of s) = j_max s. Proof. reflexivity. Qed.
Lemma oct_value s : s_oct (value_of s) = octets_of s. Proof. reflexivity. Qed.
Lemma enc_value s : s_enc (value_of s) = j_enc s. Proof. reflexivity. Qed.

Definition refines (r : res (Z * js)) (spec : Z * jstr) : Prop :=
  exists s', r = Ok (fst spec, s') /\ j_wf s' /\ value_of s' = snd spec.

Lemma refines_same c s : j_wf s -> refines (Ok (c, s)) (c, value_of s).
Proof. intros W. exists s. repeat split; try reflexivity; apply W. Qed.

Lemma wf_splice s off d c e : j_wf s -> bytes d -> 0 <= off -> off + zlen d <= zlen (j_mem s) -> 0 <= c <= j_max s ->
  j_wf (mkjs (splice (j_mem s) off d) (j_size s) c (j_max s) e).
Proof.
  intros W Bd Ho Hl Hc. pose proof (j_bound s W). destruct W as [A B C D E]. constructor; cbn [j_mem j_size j_count j_max]; try lia; try assumption.
  - rewrite zlen_splice by lia. exact C.
  - apply bytes_splice; assumption.
Qed.
Lemma refines_set s d c e code : j_wf s -> bytes d -> 0 <= c <= j_max s -> zlen d = j_size s * c ->
  refines (Ok (code, mkjs (splice (j_mem s) 0 d) (j_size s) c (j_max s) e)) (code, mkstr (j_size s) (j_max s) e d).
Proof.
  intros W Bd Hc Hd. pose proof (j_bound s W). assert (j_size s * c <= j_size s * j_max s) by nia.
  eexists. split; [reflexivity|]. split; [apply wf_splice; try assumption; lia|].
  unfold value_of, octets_of. cbn [j_mem j_size j_count j_max j_enc snd]. f_equal. rewrite <- Hd. apply zslice_splice_same; lia.
Qed.
Lemma refines_grow s d c code : j_wf s -> bytes d -> 0 <= c -> j_count s + c <= j_max s -> zlen d = j_size s * c ->
  refines (Ok (code, mkjs (splice (j_mem s) (j_size s * j_count s) d) (j_size s) (j_count s + c) (j_max s) (j_enc s)))
    (code, with_oct (value_of s) (octets_of s ++ d)).
Proof.
  intros W Bd Hc Hm Hd. pose proof (j_bound s W). assert (j_size s * (j_count s + c) <= j_size s * j_max s) by nia.
  assert (0 <= j_size s * c) by nia.
  eexists. split; [reflexivity|]. split; [apply wf_splice; try assumption; lia|].
  unfold value_of, with_oct, octets_of. cbn [j_mem j_size j_count j_max j_enc s_unit s_cap s_enc snd]. f_equal.
  rewrite Z.mul_add_distr_l, zslice_split by lia. f_equal.
  - apply zslice_splice_disj; lia.
  - rewrite Z.add_0_l. rewrite <- Hd. apply zslice_splice_same; lia.
Qed.

(** Reading octets of a valid string. *)
Lemma zget_octets s i : j_wf s -> 0 <= i < j_size s * j_count s -> zget (octets_of s) i = zget (j_mem s) i.
Proof. intros W H. unfold octets_of. rewrite zget_zslice by lia. f_equal. Qed.
Lemma zslice_octets s i n : j_wf s -> 0 <= i -> 0 <= n -> i + n <= j_size s * j_count s -> zslice (octets_of s) i n = zslice (j_mem s) i n.
Proof. intros W H H0 H1. unfold octets_of. rewrite zslice_zslice by lia. f_equal. Qed.

(** ** js_create, js_set_encode, js_length *)
Lemma js_create_ok J max unit : junk_ok J -> 0 <= max -> 1 <= unit -> (max + 3) * unit < 2147483648 ->
  exists s, js_create J max unit = Some s /\ j_wf s /\ value_of s = mkstr unit max 1 [] /\ j_count s = 0.
Proof.
  intros HJ Hm Hu Hs. unfold js_create. replace ((max + 3 =? 0) || (unit =? 0)) with false by lia.
  eexists. split; [reflexivity|]. split; [|split; [|reflexivity]].
  - constructor; cbn [j_mem j_size j_count j_max]; try lia.
    + apply zlen_mkjunk. nia.
    + apply bytes_mkjunk, HJ.
  - unfold value_of, octets_of. cbn [j_mem j_size j_count j_max j_enc]. rewrite Z.mul_0_r, zslice_nil. reflexivity.
Qed.
Lemma wf_enc s e : j_wf s -> j_wf (mkjs (j_mem s) (j_size s) (j_count s) (j_max s) e).
Proof. intros [A B C D E]. constructor; assumption. Qed.
Lemma js_set_encode_ok s e : j_wf s -> refines (Ok (js_set_encode s e)) (s_set_encode (value_of s) e).
Proof.
  intros W. unfold js_set_encode, s_set_encode. rewrite sane_usable by exact W.
  destruct (usable (value_of s)); cbn [negb andb]; [|apply refines_same, W].
  destruct (Z.ltb_spec e 1), (Z.ltb_spec 3 e); cbn [orb]; [lia|..].
  - replace (1 <=? e) with false by lia. apply refines_same, W.
  - replace (1 <=? e) with true by lia. replace (e <=? 3) with false by lia. apply refines_same, W.
  - replace (1 <=? e) with true by lia. replace (e <=? 3) with true by lia. cbn [andb].
    eexists. split; [reflexivity|]. split; [apply wf_enc, W|reflexivity].
Qed.
Lemma js_length_ok s : j_wf s -> js_length s = s_length (value_of s).
Proof.
  intros W. pose proof (j_bound s W). unfold js_length, s_length. rewrite sane_usable, s_len_value by exact W.
  rewrite i32_small by lia. reflexivity.
Qed.

(** ** js_str2js *)
Lemma u32_int_eq a b : -2147483648 <= a < 2147483648 -> 0 <= b < 2147483648 -> (u32 a =? b) = (a =? b).
Proof. intros. unfold u32. lia. Qed.
Lemma u32_int_lt a b : -2147483648 <= a < 2147483648 -> 0 <= b < 2147483648 -> (b <? u32 a) = ((a <? 0) || (b <? a)).
Proof. intros. unfold u32. lia. Qed.
Lemma u32_int_le a b : -2147483648 <= a < 2147483648 -> 0 <= b < 2147483648 -> (b <=? u32 a) = ((a <? 0) || (b <=? a)).
Proof. intros. unfold u32. lia. Qed.

Lemma js_str2js_ok s buf count size : j_wf s -> bytes buf -> -2147483648 <= count < 2147483648 -> -2147483648 <= size < 2147483648 ->
  count * size <= zlen buf -> refines (js_str2js s buf count size) (s_str2js (value_of s) buf count size).
Proof.
  intros W Bb Hc Hs Hb. pose proof (j_bound s W). unfold js_str2js, s_str2js. rewrite sane_usable by exact W.
  rewrite u32_int_lt, u32_int_eq by lia. rewrite unit_value, cap_value.
  destruct (Z.leb_spec 0 count); [replace (count <? 0) with false by lia|replace (count <? 0) with true by lia]; cbn [andb orb]; [|apply refines_same, W].
  destruct (Z.leb_spec count (j_max s)); [replace (j_max s <? count) with false by lia|replace (j_max s <? count) with true by lia]; cbn [andb]; [|apply refines_same, W].
  destruct (usable (value_of s)); cbn [negb andb]; [|apply refines_same, W].
  destruct (Z.eqb_spec size (j_size s)) as [->|]; cbn [negb]; [|apply refines_same, W].
  assert (count * j_size s <= j_size s * j_max s) by nia. assert (0 <= count * j_size s) by nia.
  rewrite copy_bytes_ok by lia. cbn [bind]. rewrite Z2Nat.id by lia.
  apply refines_set; try assumption; try lia; [apply bytes_zslice, Bb|]. rewrite zlen_zslice by lia. lia.
Qed.

(** ** js_append *)
Lemma js_append_ok a t : j_wf a -> j_wf t -> refines (js_append a t) (s_append (value_of a) (value_of t)).
Proof.
  intros Wa Wt. pose proof (j_bound a Wa). pose proof (j_bound t Wt). unfold js_append, s_append.
  rewrite !sane_usable, !s_len_value by assumption. rewrite u32_small by lia. rewrite !unit_value, cap_value, !oct_value.
  destruct (usable (value_of a)); cbn [negb andb]; [|apply refines_same, Wt].
  destruct (usable (value_of t)); cbn [negb andb]; [|apply refines_same, Wt].
  destruct (Z.eqb_spec (j_size a) (j_size t)) as [E|]; cbn [negb andb]; [|apply refines_same, Wt].
  destruct (Z.ltb_spec (j_count a + j_count t) (j_max t)); [replace (j_max t <=? _) with false by lia|replace (j_max t <=? _) with true by lia]; [|apply refines_same, Wt].
  assert (j_size t * (j_count a + j_count t) <= j_size t * j_max t) by nia. rewrite Z.mul_add_distr_l in *. rewrite E in *.
  rewrite copy_bytes_ok by lia. cbn [bind]. rewrite Z2Nat.id by lia.
  replace (zslice (j_mem a) 0 (j_size t * j_count a)) with (octets_of a) by (unfold octets_of; rewrite E; reflexivity).
  apply refines_grow; try assumption; try lia; [apply bytes_octets, Wa|]. rewrite zlen_octets by exact Wa. lia.
Qed.

(** ** js_insert *)
Lemma insert_inner_ok n : forall counter place ins mem lim, 0 <= counter -> 0 <= place -> counter + Z.of_nat n <= zlen ins ->
  place + counter + Z.of_nat n <= lim -> lim <= zlen mem ->
  insert_inner n counter place ins mem lim = Ok (counter + Z.of_nat n, splice mem (place + counter) (zslice ins counter (Z.of_nat n))).
Proof.
  induction n as [|n IH]; intros counter place ins mem lim Hc Hp Hi Hl Hm; cbn [insert_inner].
  - rewrite zslice_nil, splice_nil, Z.add_0_r. reflexivity.
  - replace (place + counter <? lim) with true by lia.
    destruct (rd_ok ins counter ltac:(lia)) as (b & -> & G). cbn [bind]. rewrite wr_ok by lia. cbn [bind].
    rewrite IH by (rewrite ?zlen_zupd; lia). f_equal. f_equal; [lia|].
    rewrite zupd_splice by lia. replace (place + (counter + 1)) with (place + counter + zlen [b]) by (change (zlen [b]) with 1; lia).
    rewrite splice_splice.
    + f_equal. replace (Z.of_nat (S n)) with (1 + Z.of_nat n) by lia. rewrite zslice_split by lia. rewrite (zslice_one _ _ _ G). reflexivity.
    + lia.
    + rewrite zlen_zslice by lia. change (zlen [b]) with 1. lia.
Qed.

(** Before the place of insertion: the octets are written back; after it, moved up. *)
Lemma insert_back n : forall place counter tmp a mem at_ lim, 0 <= place -> 0 <= counter -> place + Z.of_nat n <= zlen tmp ->
  (at_ < place \/ place + Z.of_nat n <= at_) -> place + counter + Z.of_nat n <= lim -> lim <= zlen mem ->
  insert_outer n place counter tmp a mem at_ lim = Ok (splice mem (place + counter) (zslice tmp place (Z.of_nat n))).
Proof.
  induction n as [|n IH]; intros place counter tmp a mem at_ lim Hp Hc Ht Ha Hl Hm; cbn [insert_outer].
  - rewrite zslice_nil, splice_nil. reflexivity.
  - replace (place =? at_) with false by lia. cbn [bind]. replace (place + counter <? lim) with true by lia.
    destruct (rd_ok tmp place ltac:(lia)) as (b & -> & G). cbn [bind]. rewrite wr_ok by lia. cbn [bind].
    rewrite IH by (rewrite ?zlen_zupd; lia). f_equal.
    rewrite zupd_splice by lia. replace (place + 1 + counter) with (place + counter + zlen [b]) by (change (zlen [b]) with 1; lia).
    rewrite splice_splice.
    + f_equal. replace (Z.of_nat (S n)) with (1 + Z.of_nat n) by lia. rewrite zslice_split by lia. rewrite (zslice_one _ _ _ G). reflexivity.
    + lia.
    + rewrite zlen_zslice by lia. change (zlen [b]) with 1. lia.
Qed.
Lemma insert_outer_split n m : forall place tmp a mem at_ lim, (forall i, place <= i < place + Z.of_nat n -> i <> at_) ->
  insert_outer (n + m) place 0 tmp a mem at_ lim =
  (mem <- insert_outer n place 0 tmp a mem at_ lim ;; insert_outer m (place + Z.of_nat n) 0 tmp a mem at_ lim).
Proof.
  induction n as [|n IH]; intros place tmp a mem at_ lim H; cbn [insert_outer Nat.add].
  - cbn [bind]. rewrite Z.add_0_r. reflexivity.
  - replace (place =? at_) with false by (specialize (H place); lia). cbn [bind].
    destruct (if place + 0 <? lim then _ else _) as [mem'| |]; cbn [bind]; [|reflexivity..].
    rewrite IH by (intros i Hi; apply H; lia). replace (place + 1 + Z.of_nat n) with (place + Z.of_nat (S n)) by lia. reflexivity.
Qed.
Lemma splice_self l off n : 0 <= off -> 0 <= n -> off + n <= zlen l -> splice l off (zslice l off n) = l.
Proof.
  intros. apply zlist_ext.
  - apply zlen_splice; rewrite ?zlen_zslice; lia.
  - intros i Hi. rewrite zget_splice by (rewrite ?zlen_zslice; lia). rewrite zlen_zslice by lia.
    destruct ((off <=? i) && (i <? off + n)) eqn:E; [|reflexivity]. rewrite zget_zslice by lia. f_equal. lia.
Qed.
Lemma splice_zeros l n : 0 <= n <= zlen l -> splice (repeat 0 (Z.to_nat n)) 0 (zslice l 0 n) = zslice l 0 n.
Proof.
  intros. unfold splice. change (Z.to_nat 0) with O. cbn [firstn app Nat.add]. rewrite skipn_all2, app_nil_r; [reflexivity|].
  rewrite repeat_length. pose proof (zlen_zslice l 0 n ltac:(lia) ltac:(lia) ltac:(lia)) as L. unfold zlen in L. lia.
Qed.
Lemma zlen_repeat {A} (x : A) n : 0 <= n -> zlen (repeat x (Z.to_nat n)) = n.
Proof. intros. unfold zlen. rewrite repeat_length. lia. Qed.

Lemma js_insert_ok a t w : j_wf a -> j_wf t -> -2147483648 <= w < 2147483648 -> refines (js_insert a t w) (s_insert (value_of a) (value_of t) w).
Proof.
  intros Wa Wt Hw. pose proof (j_bound a Wa) as Ba. pose proof (j_bound t Wt) as Bt. pose proof (js_append_ok a t Wa Wt) as AP.
  unfold js_insert, s_insert. rewrite !sane_usable by assumption.
  rewrite u32_int_lt, u32_int_eq by lia. rewrite (u32_small (j_count a + j_count t)) by lia.
  rewrite !s_len_value by assumption.
  destruct (Z.eqb_spec w (j_count t)) as [->|Nw].
  - replace (j_count t <? 0) with false by lia. replace (j_count t <? j_count t) with false by lia. cbn [orb].
    revert AP. unfold js_append, s_append. rewrite !sane_usable by assumption. rewrite !unit_value, cap_value.
    destruct (usable (value_of a)); cbn [negb andb]; [|intros _; apply refines_same, Wt].
    destruct (usable (value_of t)); cbn [negb andb]; [|intros _; apply refines_same, Wt].
    destruct (Z.eqb_spec (j_size a) (j_size t)) as [E|]; cbn [negb andb]; [|intros _; apply refines_same, Wt].
    intros H. exact H.
  - clear AP. rewrite !unit_value, cap_value, !oct_value.
    destruct (usable (value_of a)); cbn [negb andb]; [|apply refines_same, Wt].
    destruct (usable (value_of t)); cbn [negb andb]; [|apply refines_same, Wt].
    destruct (Z.eqb_spec (j_size a) (j_size t)) as [E|]; cbn [negb andb]; [|apply refines_same, Wt].
    destruct (Z.leb_spec 0 w); [replace (w <? 0) with false by lia|replace (w <? 0) with true by lia]; cbn [andb orb]; [|apply refines_same, Wt].
    destruct (Z.ltb_spec w (j_count t)); [replace (j_count t <? w) with false by lia|replace (j_count t <? w) with true by lia]; cbn [andb orb]; [|apply refines_same, Wt].
    destruct (Z.leb_spec (j_count a + j_count t) (j_max t)); [replace (j_max t <? _) with false by lia|replace (j_max t <? _) with true by lia]; [|apply refines_same, Wt].
    rewrite E in *.
    set (u := j_size t) in *. set (n := j_count t) in *. set (m := j_count a) in *.
    assert (u * (m + n) <= u * j_max t) as Hmax by nia. rewrite Z.mul_add_distr_l in Hmax.
    assert (0 <= u * w < u * n) as Hwn by nia.
    assert (u * n - u * w = u * (n - w)) as Hd by nia.
    rewrite copy_bytes_ok by (rewrite ?zlen_repeat; lia). cbn [bind]. rewrite Z2Nat.id by lia.
    rewrite splice_zeros by lia. change (zslice (j_mem t) 0 (u * n)) with (octets_of t). rewrite (Z.mul_comm w u).
    pose proof (zlen_octets t Wt) as Lt. pose proof (zlen_octets a Wa) as La. fold u n in Lt. fold m in La. rewrite E in La. fold u in La.
    replace (Z.to_nat (u * n)) with (Z.to_nat (u * w) + S (Z.to_nat (u * n - u * w - 1)))%nat by lia.
    rewrite insert_outer_split by (intros i Hi; lia). rewrite insert_back by lia. cbn [bind]. rewrite !Z2Nat.id by lia.
    rewrite (zslice_octets t 0 (u * w)) by (try assumption; fold u n; lia). rewrite Z.add_0_r, splice_self by lia.
    cbn [insert_outer]. rewrite !Z.add_0_l, Z.eqb_refl. replace (w <? 0) with false by lia.
    replace (j_size a * j_count a) with (u * m) by (rewrite E; reflexivity).
    rewrite insert_inner_ok by lia. cbn [bind]. rewrite Z2Nat.id by lia.
    rewrite Z.sub_0_r, !Z.add_0_l, Z.add_0_r.
    replace (zslice (j_mem a) 0 (u * m)) with (octets_of a) by (unfold octets_of; rewrite E; reflexivity).
    replace (u * w + u * m <? u * j_max t) with true by lia.
    destruct (rd_ok (octets_of t) (u * w) ltac:(lia)) as (b & Rb & G). rewrite Rb. cbn [bind].
    rewrite wr_ok by (rewrite zlen_splice by lia; lia). cbn [bind].
    rewrite insert_back by (rewrite ?zlen_zupd; rewrite ?zlen_splice by lia; lia). cbn [bind]. rewrite Z2Nat.id by lia.
    rewrite zupd_splice by (rewrite zlen_splice by lia; lia).
    assert (zlen [b] = 1) as L1 by reflexivity.
    assert (zlen (zslice (octets_of t) (u * w + 1) (u * n - u * w - 1)) = u * n - u * w - 1) as L2 by (apply zlen_zslice; lia).
    replace (u * w + u * m) with (u * w + zlen (octets_of a)) by lia.
    rewrite splice_splice by lia.
    replace (u * w + 1 + u * m) with (u * w + zlen (octets_of a ++ [b])) by (rewrite zlen_app; lia).
    rewrite splice_splice by (rewrite ?zlen_app; lia).
    replace ((octets_of a ++ [b]) ++ zslice (octets_of t) (u * w + 1) (u * n - u * w - 1)) with (octets_of a ++ zslice (octets_of t) (u * w) (u * n - u * w)).
    2:{ rewrite <- app_assoc. f_equal. replace (u * n - u * w) with (1 + (u * n - u * w - 1)) at 1 by lia. rewrite zslice_split by lia. rewrite (zslice_one _ _ _ G). reflexivity. }
    assert (zlen (zslice (octets_of t) (u * w) (u * n - u * w)) = u * n - u * w) as L3 by (apply zlen_zslice; lia).
    eexists. split; [reflexivity|]. split.
    + apply wf_splice; try assumption; try (rewrite ?zlen_app; lia).
      apply bytes_app. split; [apply bytes_octets, Wa|apply bytes_zslice, bytes_octets, Wt].
    + unfold value_of at 1, with_oct, units. cbn [j_mem j_size j_count j_max j_enc snd s_unit s_cap s_enc s_oct value_of]. fold u n m.
      f_equal. unfold octets_of at 1. cbn [j_mem j_size j_count]. replace (u * (n + m)) with (u * w + zlen (octets_of a ++ zslice (octets_of t) (u * w) (u * n - u * w))) by (rewrite zlen_app; nia).
      rewrite zslice_split by (rewrite ?zlen_app; lia). rewrite Z.add_0_l.
      rewrite zslice_splice_same by (rewrite ?zlen_app; lia). rewrite zslice_splice_disj by (rewrite ?zlen_app; lia).
      replace (w * u) with (u * w) by lia. replace ((n - w) * u) with (u * n - u * w) by lia. rewrite Z.mul_0_l.
      rewrite (zslice_octets t 0 (u * w)) by (try assumption; fold u n; lia). reflexivity.
Qed.

(** ** js_substr, js_copy *)
Lemma js_substr_ok s d start count : j_wf s -> j_wf d -> -2147483648 <= start < 2147483648 -> -2147483648 <= count < 2147483648 -> start + count < 2147483648 ->
  refines (js_substr s d start count) (s_substr (value_of s) (value_of d) start count).
Proof.
  intros Ws Wd Hs Hc Hsc. pose proof (j_bound s Ws) as Bs. pose proof (j_bound d Wd) as Bd. unfold js_substr, s_substr.
  rewrite !sane_usable, !s_len_value by assumption. rewrite !unit_value, cap_value.
  destruct (usable (value_of s)); cbn [negb andb]; [|apply refines_same, Wd].
  destruct (usable (value_of d)); cbn [negb andb]; [|apply refines_same, Wd].
  destruct (Z.eqb_spec (j_size s) (j_size d)) as [E|]; cbn [negb andb]; [|apply refines_same, Wd].
  destruct (Z.leb_spec 0 count); [replace (count <? 0) with false by lia|replace (count <? 0) with true by lia]; cbn [andb]; [|apply refines_same, Wd].
  rewrite !u32_int_le by lia.
  destruct (Z.leb_spec 0 start); [replace (start <? 0) with false by lia|replace (start <? 0) with true by lia]; cbn [andb orb]; [|apply refines_same, Wd].
  destruct (Z.ltb_spec start (j_count s)); [replace (j_count s <=? start) with false by lia|replace (j_count s <=? start) with true by lia]; cbn [andb orb]; [|apply refines_same, Wd].
  replace (j_max s <=? start) with false by lia.
  replace (2147483648 <=? start + count) with false by lia.
  rewrite (u32_small (start + count)) by lia.
  destruct (Z.leb_spec (start + count) (j_count s)); [replace (j_count s <? start + count) with false by lia|replace (j_count s <? start + count) with true by lia]; cbn [andb]; [|apply refines_same, Wd].
  replace (j_max s <? start + count) with false by lia.
  destruct (Z.ltb_spec count (j_max d)); [replace (j_max d <=? count) with false by lia|replace (j_max d <=? count) with true by lia]; [|apply refines_same, Wd].
  rewrite E in *. set (u := j_size d) in *. unfold js_octets. rewrite E. fold u.
  assert (count * u <= j_max d * u) by nia. assert (0 <= start * u) by nia.
  assert ((start + count) * u <= j_count s * u) by (apply Z.mul_le_mono_nonneg_r; lia). assert (j_count s * u <= j_max s * u) by (apply Z.mul_le_mono_nonneg_r; lia). assert (0 <= count * u) by (apply Z.mul_nonneg_nonneg; lia).
  replace (Z.min (count * u) (Z.min (j_max d * u) (j_max s * u - start * u))) with (count * u) by lia.
  rewrite copy_bytes_ok by lia. cbn [bind]. rewrite Z2Nat.id by lia.
  unfold JS_SUCCESS, units, with_oct. rewrite !unit_value, cap_value, oct_value, enc_value, E. fold u.
  rewrite zslice_octets by (try assumption; rewrite E; fold u; lia).
  unfold u. apply refines_set; try assumption; try lia; [apply bytes_zslice, jw_bytes, Ws|]. fold u. rewrite zlen_zslice by lia. lia.
Qed.

Lemma js_copy_ok s d : j_wf s -> j_wf d -> refines (js_copy s d) (s_copy (value_of s) (value_of d)).
Proof.
  intros Ws Wd. pose proof (j_bound s Ws) as Bs. pose proof (j_bound d Wd) as Bd. unfold js_copy, s_copy.
  rewrite !sane_usable, !s_len_value by assumption. rewrite !unit_value, cap_value.
  destruct (usable (value_of s)); cbn [negb andb orb]; [|apply refines_same, Wd].
  destruct (usable (value_of d)); cbn [negb andb]; [|apply refines_same, Wd].
  destruct (Z.eqb_spec (j_size s) (j_size d)) as [E|]; cbn [negb andb]; [|apply refines_same, Wd].
  unfold js_octets. rewrite E in *. set (u := j_size d) in *.
  destruct (Z.ltb_spec (j_count s) (j_max d)); [replace (j_max d * u <=? u * j_count s) with false by nia|replace (j_max d * u <=? u * j_count s) with true by nia]; [|apply refines_same, Wd].
  assert (u * j_count s <= u * j_max d) by nia.
  replace (Z.min (u * j_count s) _) with (u * j_count s) by lia.
  rewrite copy_bytes_ok by lia. cbn [bind]. rewrite Z2Nat.id by lia.
  replace (zslice (j_mem s) 0 (u * j_count s)) with (octets_of s) by (unfold octets_of; rewrite E; reflexivity).
  apply refines_set; try assumption; try lia; [apply bytes_octets, Ws|]. rewrite oct_value, zlen_octets by exact Ws. rewrite E. reflexivity.
Qed.

(** ** C strings *)
Lemma bytes_app_zero c : bytes c -> bytes (c ++ [0]).
Proof. intros. apply bytes_app. split; [assumption|]. repeat constructor; unfold byte; lia. Qed.
Lemma js_qstr2js_ok s c : j_wf s -> j_size s = 1 -> bytes c -> zlen c < 2147483648 ->
  refines (js_qstr2js s c) (if (zlen c <=? j_max s) && usable (value_of s) then (1, with_oct (value_of s) c) else (-1, value_of s)).
Proof.
  intros W S1 Bc Hc. pose proof (zlen_nonneg c). pose proof (j_bound s W).
  pose proof (js_str2js_ok s (c ++ [0]) (zlen c) (j_size s) W (bytes_app_zero c Bc) ltac:(lia) ltac:(lia)) as H1.
  rewrite zlen_app in H1. change (zlen [0]) with 1 in H1. specialize (H1 ltac:(nia)). unfold js_qstr2js. revert H1. unfold s_str2js.
  replace (0 <=? zlen c) with true by lia. rewrite cap_value, unit_value, Z.eqb_refl, !andb_true_r. cbn [andb].
  rewrite S1, Z.mul_1_r. rewrite zslice_app_l by lia. rewrite zslice_all. exact (fun x => x).
Qed.
Lemma create_qstr J c : junk_ok J -> bytes c -> zlen c < 2147483648 ->
  exists tmp, js_create J 1024 1 = Some tmp /\
  (zlen c <= 1024 -> exists tmp', js_qstr2js tmp c = Ok (1, tmp') /\ j_wf tmp' /\ value_of tmp' = mkstr 1 1024 1 c) /\
  (1024 < zlen c -> js_qstr2js tmp c = Ok (-1, tmp)).
Proof.
  intros HJ Bc Hc. destruct (js_create_ok J 1024 1 HJ ltac:(lia) ltac:(lia) ltac:(lia)) as (tmp & -> & W & V & C0).
  exists tmp. split; [reflexivity|].
  assert (j_size tmp = 1) as S1 by (rewrite <- unit_value, V; reflexivity).
  assert (j_max tmp = 1024) as M1 by (rewrite <- cap_value, V; reflexivity).
  split.
  - intros Hl. destruct (js_qstr2js_ok tmp c W S1 Bc Hc) as (t' & H1 & H2 & H3). rewrite M1, V in *. replace (zlen c <=? 1024) with true in * by lia.
    cbn in H1, H3. exists t'. split; [exact H1|]. split; assumption.
  - intros Hl. unfold js_qstr2js, js_str2js. rewrite M1. rewrite u32_small by (pose proof (zlen_nonneg c); lia). replace (1024 <? zlen c) with true by lia. reflexivity.
Qed.

Lemma usable_bytes n m e l : n = 1 -> usable (mkstr n m e l) = true.
Proof. intros ->. unfold usable. cbn [s_enc s_unit]. rewrite Z.eqb_refl. cbn. rewrite andb_false_r. reflexivity. Qed.

Lemma js_qappend_ok J c t : junk_ok J -> j_wf t -> j_size t = 1 -> bytes c -> zlen c < 2147483648 -> refines (js_qappend J c t) (s_qappend c (value_of t)).
Proof.
  intros HJ Wt S1 Bc Hc. unfold js_qappend, s_qappend. rewrite sane_usable by exact Wt.
  destruct (usable (value_of t)) eqn:Ut; cbn [negb andb]; [|apply refines_same, Wt]. rewrite S1.
  destruct (create_qstr J c HJ Bc Hc) as (tmp & -> & H1 & H2).
  destruct (Z.leb_spec (zlen c) 1024) as [L|L]; cbn [andb].
  - destruct (H1 L) as (tmp' & -> & W' & V'). cbn [bind]. change (1 =? JS_ERROR) with false.
    pose proof (js_append_ok tmp' t W' Wt) as A. revert A. unfold s_append. rewrite V', Ut, usable_bytes by reflexivity. cbn [andb s_unit s_oct].
    rewrite unit_value, S1. change (1 =? 1) with true. cbn [andb]. unfold s_len at 1. cbn [s_unit s_oct]. rewrite Z.div_1_r. exact (fun x => x).
  - rewrite (H2 L). cbn [bind]. change (-1 =? JS_ERROR) with true. apply refines_same, Wt.
Qed.

Lemma js_qprepend_ok J c t : junk_ok J -> j_wf t -> j_size t = 1 -> bytes c -> zlen c < 2147483648 -> refines (js_qprepend J c t) (s_qprepend c (value_of t)).
Proof.
  intros HJ Wt S1 Bc Hc. unfold js_qprepend, s_qprepend. rewrite sane_usable by exact Wt.
  destruct (usable (value_of t)) eqn:Ut; cbn [negb andb]; [|apply refines_same, Wt]. rewrite S1.
  destruct (create_qstr J c HJ Bc Hc) as (tmp & -> & H1 & H2).
  destruct (Z.leb_spec (zlen c) 1024) as [L|L]; cbn [andb].
  2:{ rewrite (H2 L). cbn [bind]. change (-1 =? JS_ERROR) with true. apply refines_same, Wt. }
  destruct (H1 L) as (tmp1 & -> & W1 & V1). cbn [bind]. change (1 =? JS_ERROR) with false. cbn iota.
  set (tmp2 := mkjs (j_mem tmp1) (j_size tmp1) (j_count tmp1) (j_max tmp1) (j_enc t)).
  assert (j_wf tmp2) as W2 by (apply wf_enc, W1).
  assert (value_of tmp2 = mkstr 1 1024 (j_enc t) c) as V2.
  { pose proof (f_equal s_unit V1) as A1. pose proof (f_equal s_cap V1) as A2. pose proof (f_equal s_oct V1) as A3. cbn in A1, A2, A3.
    unfold value_of, tmp2. cbn [j_mem j_size j_count j_max j_enc]. f_equal; [exact A1|exact A2|exact A3]. }
  destruct (js_append_ok t tmp2 Wt W2) as (tmp3 & E3 & W3 & V3). rewrite E3. cbn [bind].
  revert V3. unfold s_append. rewrite V2, Ut, usable_bytes by reflexivity. cbn [andb s_unit s_cap s_oct]. rewrite unit_value, S1.
  change (1 =? 1) with true. cbn [andb]. rewrite s_len_value by exact Wt.
  unfold s_len at 1 2. cbn [s_unit s_oct]. rewrite Z.div_1_r. rewrite (Z.add_comm (j_count t)).
  destruct (zlen c + j_count t <? 1024); cbn [fst snd andb].
  - intros V3. change (0 =? JS_ERROR) with false. cbn iota.
    pose proof (js_copy_ok tmp3 t W3 Wt) as A. revert A. unfold s_copy. rewrite V3. unfold with_oct. cbn [s_unit s_cap s_enc s_oct].
    rewrite usable_bytes, Ut, unit_value, S1 by reflexivity. change (1 =? 1) with true. cbn [andb].
    unfold s_len at 1. cbn [s_unit s_oct]. rewrite Z.div_1_r, zlen_app, oct_value, zlen_octets, S1, Z.mul_1_l by exact Wt.
    exact (fun x => x).
  - intros _. change (-1 =? JS_ERROR) with true. apply refines_same, Wt.
Qed.

(** ** Octets and numbers *)
Lemma be_1 v : be 1 v = [v mod 256]. Proof. unfold be. cbn [seq rev app map]. change (256 ^ Z.of_nat 0) with 1. rewrite Z.div_1_r. reflexivity. Qed.
Lemma be_2 v : be 2 v = [v / 256 mod 256; v mod 256].
Proof. unfold be. cbn [seq rev app map]. change (256 ^ Z.of_nat 0) with 1. change (256 ^ Z.of_nat 1) with 256. rewrite Z.div_1_r. reflexivity. Qed.
Lemma be_4 v : be 4 v = [v / 16777216 mod 256; v / 65536 mod 256; v / 256 mod 256; v mod 256].
Proof.
  unfold be. cbn [seq rev app map]. change (256 ^ Z.of_nat 0) with 1. change (256 ^ Z.of_nat 1) with 256.
  change (256 ^ Z.of_nat 2) with 65536. change (256 ^ Z.of_nat 3) with 16777216. rewrite Z.div_1_r. reflexivity.
Qed.
Lemma be_bytes n v : bytes (be n v).
Proof. unfold be, bytes. apply Forall_forall. intros x Hx. apply in_map_iff in Hx as (i & <- & _). unfold byte. lia. Qed.
Lemma zlen_be n v : zlen (be n v) = Z.of_nat n.
Proof. unfold be, zlen. rewrite map_length, rev_length, seq_length. reflexivity. Qed.

Lemma wr_splice l i b : 0 <= i < zlen l -> wr l i b = Ok (splice l i [b]).
Proof. intros. rewrite wr_ok, zupd_splice by lia. reflexivity. Qed.
Lemma splice_snoc l i d b : 0 <= i -> i + zlen d + 1 <= zlen l -> wr (splice l i d) (i + zlen d) b = Ok (splice l i (d ++ [b])).
Proof.
  intros. pose proof (zlen_nonneg d). rewrite wr_splice by (rewrite zlen_splice; lia). rewrite splice_splice by (change (zlen [b]) with 1; lia). reflexivity.
Qed.

Lemma grow_one s c d code : j_wf s -> j_size s = 1 -> bytes d -> zlen d = c -> j_count s + c <= j_max s ->
  refines (Ok (code, mkjs (splice (j_mem s) (j_count s) d) (j_size s) (j_count s + c) (j_max s) (j_enc s))) (code, with_oct (value_of s) (octets_of s ++ d)).
Proof.
  intros W S1 Bd L H. pose proof (zlen_nonneg d). pose proof (refines_grow s d c code W Bd ltac:(lia) H) as R.
  rewrite S1, !Z.mul_1_l in R. rewrite S1. apply R. exact L.
Qed.

Lemma js_addbyte_ok s b : j_wf s -> refines (js_addbyte s b) (s_addbyte (value_of s) b).
Proof.
  intros W. pose proof (j_bound s W). unfold js_addbyte, s_addbyte, s_add. rewrite sane_usable, s_len_value, zlen_be by exact W.
  rewrite u32_small by lia. rewrite unit_value, cap_value, oct_value.
  destruct (usable (value_of s)); cbn [negb andb]; [|apply refines_same, W].
  destruct (Z.eqb_spec (j_size s) 1) as [E|]; cbn [negb andb]; [|apply refines_same, W].
  change (Z.of_nat 1) with 1.
  destruct (Z.ltb_spec (j_count s + 1) (j_max s)); [replace (j_max s <=? _) with false by lia|replace (j_max s <=? _) with true by lia]; [|apply refines_same, W].
  rewrite wr_splice by nia. cbn [bind]. unfold u8. rewrite <- be_1. apply grow_one; try assumption; try lia; [apply be_bytes|apply zlen_be].
Qed.

Lemma js_changebyte_ok s b o : j_wf s -> -2147483648 <= o < 2147483648 -> refines (js_changebyte s b o) (s_changebyte (value_of s) b o).
Proof.
  intros W Ho. pose proof (j_bound s W). unfold js_changebyte, s_changebyte. rewrite sane_usable, s_len_value by exact W.
  rewrite u32_int_le by lia. rewrite unit_value, oct_value.
  destruct (usable (value_of s)); cbn [negb andb]; [|apply refines_same, W].
  destruct (Z.eqb_spec (j_size s) 1) as [E|]; cbn [negb andb]; [|apply refines_same, W].
  destruct (Z.leb_spec 0 o); [replace (o <? 0) with false by lia|replace (o <? 0) with true by lia]; cbn [andb orb]; [|apply refines_same, W].
  destruct (Z.ltb_spec o (j_count s)); [replace (j_count s <=? o) with false by lia|replace (j_count s <=? o) with true by lia]; [|apply refines_same, W].
  assert (zlen [u8 b] = 1) as L1 by reflexivity.
  rewrite wr_splice by nia. cbn [bind]. eexists. split; [reflexivity|]. split.
  - apply wf_splice; try assumption; try nia. constructor; [unfold byte, u8; lia|constructor].
  - unfold value_of at 1, with_oct. rewrite unit_value, cap_value, enc_value. cbn [snd j_mem j_size j_count j_max j_enc]. f_equal.
    unfold octets_of at 1. cbn [j_mem j_size j_count]. rewrite E, Z.mul_1_l.
    replace (j_count s) with (o + (1 + (j_count s - o - 1))) at 1 by lia. rewrite !zslice_split by lia. f_equal; [|f_equal].
    + rewrite zslice_splice_disj by nia. symmetry. apply zslice_octets; try assumption; rewrite ?E; lia.
    + rewrite Z.add_0_l. apply (zslice_splice_same (j_mem s) o [u8 b]); rewrite ?L1; nia.
    + rewrite Z.add_0_l. rewrite zslice_splice_disj by nia. symmetry. apply zslice_octets; try assumption; rewrite ?E; lia.
Qed.

Lemma js_adduint16_ok s v : j_wf s -> refines (js_adduint16 s v) (s_adduint16 (value_of s) v).
Proof.
  intros W. pose proof (j_bound s W). unfold js_adduint16, s_adduint16, s_add. rewrite sane_usable, s_len_value, zlen_be by exact W.
  rewrite u32_small by lia. rewrite unit_value, cap_value, oct_value.
  destruct (usable (value_of s)); cbn [negb andb]; [|destruct (_ && _); apply refines_same, W].
  destruct (Z.eqb_spec (j_size s) 1) as [E|]; cbn [negb andb]; [|destruct (_ && _); apply refines_same, W].
  destruct (Z.leb_spec 0 v); [replace (v <? 0) with false by lia|replace (v <? 0) with true by lia]; cbn [andb orb]; [|apply refines_same, W].
  destruct (Z.leb_spec v 65535); [replace (65535 <? v) with false by lia|replace (65535 <? v) with true by lia]; [|apply refines_same, W].
  change (Z.of_nat 2) with 2.
  destruct (Z.ltb_spec (j_count s + 2) (j_max s)); [replace (j_max s <=? _) with false by lia|replace (j_max s <=? _) with true by lia]; [|apply refines_same, W].
  rewrite wr_splice by nia. cbn [bind].
  change (j_count s + 1) with (j_count s + zlen [Z.land (Z.shiftr v 8) 255]). rewrite splice_snoc by (change (zlen [_]) with 1; nia). cbn [bind app].
  rewrite !land_255, Z.shiftr_div_pow2 by lia. change (2 ^ 8) with 256. rewrite <- be_2.
  apply grow_one; try assumption; try lia; [apply be_bytes|apply zlen_be].
Qed.

Lemma js_adduint32_ok s v : j_wf s -> 0 <= v < 4294967296 -> refines (js_adduint32 s v) (s_adduint32 (value_of s) v).
Proof.
  intros W Hv. pose proof (j_bound s W). unfold js_adduint32, s_adduint32, s_add. rewrite sane_usable, s_len_value, zlen_be by exact W.
  rewrite !u32_small by lia. rewrite unit_value, cap_value, oct_value.
  destruct (usable (value_of s)); cbn [negb andb]; [|apply refines_same, W].
  destruct (Z.eqb_spec (j_size s) 1) as [E|]; cbn [negb andb]; [|apply refines_same, W].
  change (Z.of_nat 4) with 4.
  destruct (Z.ltb_spec (j_count s + 4) (j_max s)); [replace (j_max s <=? _) with false by lia|replace (j_max s <=? _) with true by lia]; [|apply refines_same, W].
  rewrite !land_255, !Z.shiftr_div_pow2 by lia. change (2 ^ 8) with 256. change (2 ^ 16) with 65536. change (2 ^ 24) with 16777216.
  rewrite wr_splice by nia. cbn [bind].
  rewrite (splice_snoc (j_mem s) (j_count s) [v / 16777216 mod 256]) by (change (zlen [_]) with 1; nia). cbn [bind app].
  rewrite (splice_snoc (j_mem s) (j_count s) [v / 16777216 mod 256; v / 65536 mod 256]) by (change (zlen [_; _]) with 2; nia). cbn [bind app].
  rewrite (splice_snoc (j_mem s) (j_count s) [v / 16777216 mod 256; v / 65536 mod 256; v / 256 mod 256]) by (change (zlen [_; _; _]) with 3; nia). cbn [bind app].
  rewrite <- be_4. apply grow_one; try assumption; try lia; [apply be_bytes|apply zlen_be].
Qed.

Lemma js_substr_append_ok J s d o l : junk_ok J -> j_wf s -> j_wf d -> -2147483648 <= o < 2147483648 -> 0 <= l < 2147483600 -> o + l < 2147483648 ->
  refines (js_substr_append J s d o l) (s_substr_append (value_of s) (value_of d) o l).
Proof.
  intros HJ Ws Wd Ho Hl Hol. pose proof (j_bound s Ws) as Bs. pose proof (j_bound d Wd) as Bd. unfold js_substr_append.
  destruct (js_create_ok J (l + 2) 1 HJ ltac:(lia) ltac:(lia) ltac:(lia)) as (tmp & -> & W & V & C0).
  replace (2147483648 <=? o + l) with false by lia.
  destruct (js_substr_ok s tmp o l Ws W Ho ltac:(lia) Hol) as (t1 & E1 & W1 & V1).
  unfold s_substr_append, JS_ERROR, JS_SUCCESS. rewrite !s_len_value by assumption. rewrite !unit_value, cap_value, !oct_value.
  replace (0 <=? l) with true by lia.
  destruct (Z.leb_spec (o + l) (j_count s)) as [L|L].
  2:{ assert ((j_count s <? u32 (o + l)) = true) as -> by (unfold u32; lia). rewrite !andb_false_r. cbn [andb]. apply refines_same, Wd. }
  assert (0 <= o -> (j_count s <? u32 (o + l)) = false) as U by (intros; unfold u32; lia).
  revert E1 V1. unfold s_substr. rewrite V, s_len_value, usable_bytes by (assumption || reflexivity). cbn [s_unit s_cap]. rewrite unit_value.
  replace (0 <=? l) with true by lia.
  destruct (Z.leb_spec 0 o) as [O|O]; [rewrite (U O)|]; cbn [andb].
  2:{ rewrite !andb_false_r. cbn [andb]. intros E1 _.
      destruct (j_count s <? u32 (o + l)); [apply refines_same, Wd|]. rewrite E1. cbn [fst bind]. apply refines_same, Wd. }
  destruct (usable (value_of s)); cbn [andb]; [|intros E1 _; rewrite E1; cbn [fst bind]; apply refines_same, Wd].
  destruct (Z.eqb_spec (j_size s) 1) as [S1|]; cbn [andb]; [|rewrite ?andb_false_r; intros E1 _; rewrite E1; cbn [fst bind]; apply refines_same, Wd].
  destruct (Z.ltb_spec o (j_count s)) as [O2|]; cbn [andb]; [|rewrite ?andb_false_r; intros E1 _; rewrite E1; cbn [fst bind]; apply refines_same, Wd].
  replace (o + l <=? j_count s) with true by lia. replace (l <? l + 2) with true by lia. cbn [andb fst snd]. intros E1 V1. rewrite E1. cbn [bind]. change (negb (1 =? 1)) with false. cbn iota.
  assert (value_of t1 = mkstr 1 (l + 2) 1 (zslice (octets_of s) o l)) as V1'.
  { rewrite V1. unfold with_oct, units. cbn [s_unit s_cap s_enc]. rewrite unit_value, oct_value, S1, !Z.mul_1_r. reflexivity. }
  destruct (js_append_ok t1 d W1 Wd) as (t2 & E2 & W2 & V2). rewrite E2. cbn [bind]. revert V2. clear E2. unfold s_append. rewrite V1', !unit_value, cap_value, !oct_value.
  rewrite usable_bytes by reflexivity. cbn [andb s_unit s_cap s_oct].
  destruct (usable (value_of d)); cbn [andb].
  2:{ intros V2. cbn [fst snd] in *. change (-1 =? -1) with true. cbn iota. exists t2. split; [reflexivity|]. split; assumption. }
  rewrite (Z.eqb_sym 1). destruct (j_size d =? 1); cbn [andb].
  2:{ intros V2. cbn [fst snd] in *. change (-1 =? -1) with true. cbn iota. exists t2. split; [reflexivity|]. split; assumption. }
  rewrite s_len_value by assumption. unfold s_len. cbn [s_unit s_oct]. rewrite Z.div_1_r, zlen_zslice by (rewrite ?zlen_octets by assumption; nia).
  rewrite (Z.add_comm l). destruct (j_count d + l <? j_max d); cbn [fst snd]; intros V2.
  - change (0 =? -1) with false. cbn iota. exists t2. split; [reflexivity|]. split; assumption.
  - change (-1 =? -1) with true. cbn iota. exists t2. split; [reflexivity|]. split; assumption.
Qed.

(** ** js_tolower *)
Lemma lower_loop_ok f n : forall i mem, 0 <= i -> i + Z.of_nat n <= zlen mem ->
  lower_loop n f i mem = Ok (splice mem i (map f (zslice mem i (Z.of_nat n)))).
Proof.
  induction n as [|n IH]; intros i mem Hi Hn; cbn [lower_loop].
  - rewrite zslice_nil. cbn [map]. rewrite splice_nil. reflexivity.
  - destruct (rd_ok mem i ltac:(lia)) as (b & -> & G). cbn [bind]. rewrite wr_splice by lia. cbn [bind].
    assert (zlen [f b] = 1) as L1 by reflexivity.
    rewrite IH by (rewrite ?zlen_splice; lia). f_equal.
    rewrite zslice_splice_disj by lia.
    replace (Z.of_nat (S n)) with (1 + Z.of_nat n) by lia. rewrite zslice_split by lia. rewrite (zslice_one _ _ _ G). cbn [app map].
    assert (zlen (map f (zslice mem (i + 1) (Z.of_nat n))) = Z.of_nat n) as L2.
    { unfold zlen. rewrite map_length. fold (zlen (zslice mem (i + 1) (Z.of_nat n))). apply zlen_zslice; lia. }
    replace (i + 1) with (i + zlen [f b]) at 1 by lia. rewrite splice_splice by lia. reflexivity.
Qed.
Lemma lower_latin1_ok b : byte b -> lower_latin1 b = low_latin1 b.
Proof.
  unfold byte, lower_latin1, low_latin1, lower_ascii, u8. intros.
  destruct ((65 <=? b) && (b <=? 90)) eqn:E1; cbn [orb].
  - replace ((192 <=? b + 32) && (b + 32 <=? 214)) with false by lia. replace ((216 <=? b + 32) && (b + 32 <=? 222)) with false by lia. reflexivity.
  - destruct ((192 <=? b) && (b <=? 214)) eqn:E2.
    + replace ((192 <=? b) && (b <=? 222) && negb (b =? 215)) with true by lia. rewrite Z.mod_small by lia.
      replace ((216 <=? b + 32) && (b + 32 <=? 222)) with false by lia. reflexivity.
    + destruct ((216 <=? b) && (b <=? 222)) eqn:E3.
      * replace ((192 <=? b) && (b <=? 222) && negb (b =? 215)) with true by lia. apply Z.mod_small. lia.
      * replace ((192 <=? b) && (b <=? 222) && negb (b =? 215)) with false by lia. reflexivity.
Qed.
Lemma bytes_map f l : bytes l -> (forall b, byte b -> byte (f b)) -> bytes (map f l).
Proof. intros B F. induction B; cbn [map]; constructor; auto. Qed.
Lemma js_tolower_ok s : j_wf s -> refines (js_tolower s) (s_tolower (value_of s)).
Proof.
  intros W. pose proof (j_bound s W). unfold js_tolower, s_tolower. rewrite sane_usable by exact W. rewrite unit_value, enc_value, oct_value.
  destruct (usable (value_of s)); cbn [negb orb]; [|apply refines_same, W].
  destruct (Z.eqb_spec (j_size s) 1) as [E|]; cbn [negb]; [|apply refines_same, W].
  assert (zslice (j_mem s) 0 (j_count s) = octets_of s) as O by (unfold octets_of; rewrite E, Z.mul_1_l; reflexivity).
  assert (forall f, (forall b, byte b -> byte (f b)) ->
     refines (mem <- lower_loop (Z.to_nat (j_count s)) f 0 (j_mem s) ;; Ok (JS_SUCCESS, mkjs mem (j_size s) (j_count s) (j_max s) (j_enc s)))
       (1, with_oct (value_of s) (map f (octets_of s)))) as K.
  { intros f F. rewrite lower_loop_ok by nia. cbn [bind]. rewrite Z2Nat.id, O by lia. unfold with_oct. rewrite unit_value, cap_value, enc_value.
    apply refines_set; try assumption; try lia; [apply bytes_map; [apply bytes_octets, W|exact F]|].
    unfold zlen. rewrite map_length. fold (zlen (octets_of s)). apply zlen_octets, W. }
  unfold JS_US_ASCII, JS_ISO_8859_1. destruct (j_enc s =? 2).
  - apply K. intros b Hb. unfold byte in Hb. unfold byte, low_ascii, lower_ascii. destruct ((65 <=? b) && (b <=? 90)) eqn:F; lia.
  - destruct (j_enc s =? 3); [|apply refines_same, W].
    replace (map low_latin1 (octets_of s)) with (map lower_latin1 (octets_of s)).
    + apply K. intros b Hb. rewrite lower_latin1_ok by exact Hb. unfold byte, low_latin1 in *. destruct (_ || _) eqn:F; lia.
    + apply map_ext_in. intros b Hb. apply lower_latin1_ok. pose proof (bytes_octets s W) as B. eapply Forall_forall in B; eassumption.
Qed.
