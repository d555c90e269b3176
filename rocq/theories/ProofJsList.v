(** Strings of octets as lists: what the string library does to them, in a form that composes. *)
From Verif Require Import CBase Bits ModelDwStr SpecDwStr ProofDwStr SpecNames SpecMessage SpecAcl SpecDeadwoodMsg SpecQuery ModelJsStr SpecJsStr ProofJsStr ProofJsSearch
  ModelQueries SpecQueries ProofQueries ModelDecomp.

(** A run agrees with a partial function on lists: same failures, related results. *)
Definition agree {A B} (R : A -> B -> Prop) (r : res A) (o : option B) : Prop :=
  match o with None => r = Fail | Some b => exists a, r = Ok a /\ R a b end.
Definition obind {A B} (o : option A) (k : A -> option B) : option B := match o with Some a => k a | None => None end.
Lemma agree_bind {A B A' B'} (R : A -> B -> Prop) (Q : A' -> B' -> Prop) r o k k' :
  agree R r o -> (forall a b, R a b -> o = Some b -> agree Q (k a) (k' b)) -> agree Q (bind r k) (obind o k').
Proof. intros H K. destruct o as [b|]; cbn [agree obind] in *; [destruct H as (a & -> & H); apply K; [exact H|reflexivity]|rewrite H; reflexivity]. Qed.
Lemma agree_some {A B} (R : A -> B -> Prop) a b : R a b -> agree R (Ok a) (Some b).
Proof. intros H. exists a. split; [reflexivity|exact H]. Qed.
Lemma agree_none {A B} (R : A -> B -> Prop) : agree R Fail None. Proof. reflexivity. Qed.
Lemma agree_safe {A B} (R : A -> B -> Prop) r o : agree R r o -> safe r.
Proof. destruct o; cbn; [intros (a & -> & _) f; discriminate|intros -> f; discriminate]. Qed.

(** A string of octets with capacity [cap] that holds [l]. *)
Definition held (cap : Z) (s : js) (l : list Z) : Prop := holding s l /\ j_max s = cap.
Definition held2 (cap : Z) (p : Z * js) (q : Z * list Z) : Prop := fst p = fst q /\ held cap (snd p) (snd q).

Record facts (s : js) (m : list Z) : Prop := {
  fa_wf : j_wf s; fa_size : j_size s = 1; fa_len : zlen m = j_count s; fa_cap : 0 <= zlen m <= j_max s; fa_mem : zlen (j_mem s) = j_max s + 3;
  fa_small : j_max s + 3 < 2147483648; fa_bytes : bytes m; fa_sane : js_sane s = true; fa_use : usable (value_of s) = true; fa_oct : octets_of s = m;
  fa_get : forall i, 0 <= i < zlen m -> zget (j_mem s) i = zget m i;
  fa_slice : forall i n, 0 <= i -> 0 <= n -> i + n <= zlen m -> zslice (j_mem s) i n = zslice m i n }.
Lemma hold_facts s m : holding s m -> facts s m.
Proof.
  intros (W & S1 & E). pose proof (j_bound s W) as B. pose proof (zlen_octets s W) as L. rewrite E, S1, Z.mul_1_l in L. pose proof (jw_mem s W) as LM. rewrite S1 in LM. pose proof (jw_count s W).
  assert (usable (value_of s) = true) as U by (unfold usable; rewrite unit_value, S1, Z.eqb_refl; cbn [negb]; rewrite andb_false_r; reflexivity).
  constructor; try assumption; try lia.
  - rewrite <- E. apply bytes_octets, W.
  - rewrite sane_usable by exact W. exact U.
  - intros i Hi. rewrite <- E. symmetry. apply zget_octets; [exact W|]. rewrite S1. lia.
  - intros i n H1 H2 H3. rewrite <- E. symmetry. apply zslice_octets; try assumption. rewrite S1. lia.
Qed.
Lemma value_held s cap enc l : j_wf s -> value_of s = mkstr 1 cap enc l -> held cap s l.
Proof. intros W E. unfold value_of in E. injection E as E1 E2 E3 E4. split; [|exact E2]. split; [exact W|]. split; [exact E1|exact E4]. Qed.
Lemma set_count_0 s l : holding s l -> holding (set_count s 0) [] /\ j_max (set_count s 0) = j_max s.
Proof.
  intros H. destruct (hold_facts s l H) as [[A B C D E] S1 L C2 LM]. split; [|reflexivity]. split; [|split].
  - constructor; cbn [set_count j_mem j_size j_count j_max]; try assumption. lia.
  - exact S1.
  - unfold octets_of. cbn [set_count j_mem j_size j_count]. rewrite Z.mul_0_r. apply zslice_nil.
Qed.

Lemma create_held J max : junk_ok J -> 0 <= max -> max + 3 < 2147483648 -> exists s, create J max 1 = Ok s /\ held max s [].
Proof.
  intros HJ H1 H2. destruct (js_create_ok J max 1 HJ H1 ltac:(lia) ltac:(lia)) as (s & E & W & V & _). exists s. unfold create. rewrite E. split; [reflexivity|]. apply (value_held _ _ _ _ W V).
Qed.

(** ** Growing a string *)
Definition l_add (cap : Z) (out x : list Z) : option (list Z) := if zlen out + zlen x <? cap then Some (out ++ x) else None.
Lemma append_agree cap a x t y : holding a x -> held cap t y -> agree (held cap) (r <- js_append a t ;; good r) (l_add cap y x).
Proof.
  intros HA (HT & <-). pose proof (hold_facts a x HA) as [Wa Sa La Ca Ma Na Ba Xa Ua Oa]. pose proof (hold_facts t y HT) as [Wt St Lt Ct Mt Nt Bt Xt Ut Ot].
  destruct (js_append_ok a t Wa Wt) as (s' & -> & W' & V'). cbn [bind]. unfold good. cbn [fst snd].
  revert V'. unfold s_append, l_add. rewrite Ua, Ut, !s_len_value, !unit_value, cap_value, !oct_value by assumption. rewrite Sa, St, <- La, <- Lt, Oa, Ot. cbn [Z.eqb Pos.eqb andb].
  rewrite (Z.add_comm (zlen y)). destruct (zlen x + zlen y <? j_max t) eqn:G; cbn [fst snd]; intros V'.
  - exists s'. split; [reflexivity|]. unfold with_oct in V'. rewrite unit_value, cap_value, St in V'. apply (value_held _ _ _ _ W' V').
  - reflexivity.
Qed.
Lemma adduint16_agree cap t y v : held cap t y -> 0 <= v <= 65535 -> agree (held cap) (r <- js_adduint16 t v ;; good r) (l_add cap y (be 2 v)).
Proof.
  intros (HT & <-) V. pose proof (hold_facts t y HT) as [Wt St Lt Ct Mt Nt Bt Xt Ut Ot].
  destruct (js_adduint16_ok t v Wt) as (s' & -> & W' & V'). cbn [bind]. unfold good. cbn [fst snd].
  revert V'. unfold s_adduint16, s_add, l_add. replace ((0 <=? v) && (v <=? 65535)) with true by lia. rewrite Ut, !s_len_value, !unit_value, cap_value, !oct_value by assumption. rewrite St, <- Lt, Ot. cbn [Z.eqb Pos.eqb andb].
  destruct (zlen y + zlen (be 2 v) <? j_max t) eqn:G; cbn [fst snd]; intros V'.
  - exists s'. split; [reflexivity|]. unfold with_oct in V'. rewrite unit_value, cap_value, St in V'. apply (value_held _ _ _ _ W' V').
  - reflexivity.
Qed.
Lemma adduint32_agree cap t y v : held cap t y -> 0 <= v < 4294967296 -> agree (held cap) (r <- js_adduint32 t v ;; good r) (l_add cap y (be 4 v)).
Proof.
  intros (HT & <-) V. pose proof (hold_facts t y HT) as [Wt St Lt Ct Mt Nt Bt Xt Ut Ot].
  destruct (js_adduint32_ok t v Wt V) as (s' & -> & W' & V'). cbn [bind]. unfold good. cbn [fst snd].
  revert V'. unfold s_adduint32, s_add, l_add. rewrite Ut, !s_len_value, !unit_value, cap_value, !oct_value by assumption. rewrite St, <- Lt, Ot. cbn [Z.eqb Pos.eqb andb].
  destruct (zlen y + zlen (be 4 v) <? j_max t) eqn:G; cbn [fst snd]; intros V'.
  - exists s'. split; [reflexivity|]. unfold with_oct in V'. rewrite unit_value, cap_value, St in V'. apply (value_held _ _ _ _ W' V').
  - reflexivity.
Qed.
(** [n] octets of [m] from [p] on. *)
Definition l_take (cap : Z) (m out : list Z) (p n : Z) : option (list Z) :=
  if (p <? zlen m) && (p + n <=? zlen m) then l_add cap out (zslice m p n) else None.
Lemma substr_append_agree J cap c m t y p n : junk_ok J -> holding c m -> held cap t y -> 0 <= p -> p + n < 2147483648 -> 0 <= n < 2147483600 ->
  agree (held cap) (r <- js_substr_append J c t p n ;; good r) (l_take cap m y p n).
Proof.
  intros HJ HC (HT & <-) P PN N. pose proof (hold_facts c m HC) as [Wa Sa La Ca Ma Na Ba Xa Ua Oa]. pose proof (hold_facts t y HT) as [Wt St Lt Ct Mt Nt Bt Xt Ut Ot].
  destruct (js_substr_append_ok J c t p n HJ Wa Wt ltac:(lia) N PN) as (s' & -> & W' & V'). cbn [bind]. unfold good. cbn [fst snd].
  revert V'. unfold s_substr_append, l_take, l_add. rewrite Ua, Ut, !s_len_value, !unit_value, cap_value, !oct_value by assumption. rewrite Sa, St, <- La, <- Lt, Oa, Ot. cbn [Z.eqb Pos.eqb andb].
  replace (0 <=? n) with true by lia. replace (0 <=? p) with true by lia. cbn [andb].
  destruct ((p <? zlen m) && (p + n <=? zlen m)) eqn:G; cbn [andb fst snd]; [|intros _; reflexivity]. rewrite zlen_zslice by lia.
  destruct (zlen y + n <? j_max t) eqn:G2; cbn [fst snd]; intros V'.
  - exists s'. split; [reflexivity|]. unfold with_oct in V'. rewrite unit_value, cap_value, St in V'. apply (value_held _ _ _ _ W' V').
  - reflexivity.
Qed.
Lemma append_bytes_agree J cap c m t y p n : junk_ok J -> holding c m -> held cap t y -> 0 <= p -> p <= 4294000000 -> 0 <= n < 100000 ->
  agree (held cap) (decomp_append_bytes J c t p n) (l_take cap m y p n).
Proof.
  intros HJ HC HT P PN N. pose proof (hold_facts c m HC) as [Wa Sa La Ca Ma Na Ba Xa Ua Oa Ga Sla]. unfold decomp_append_bytes.
  destruct (create_held J (n + 2) HJ ltac:(lia) ltac:(lia)) as (tmp & -> & HM). cbn [bind]. unfold l_take.
  destruct (p + n <=? zlen m) eqn:G.
  2:{ rewrite andb_false_r. destruct (j_count c <? u32 (p + n)) eqn:G2; [reflexivity|]. rewrite u32_small in G2 by lia. lia. }
  rewrite u32_small by lia. replace (j_count c <? p + n) with false by lia. rewrite i32_small by lia.
  destruct HM as (HM & EM). pose proof (hold_facts tmp [] HM) as [Wm Sm Lm Cm Mm Nm Bm Xm Um Om].
  destruct (js_substr_ok c tmp p n Wa Wm ltac:(lia) ltac:(lia) ltac:(lia)) as (t1 & -> & W1 & V1). cbn [bind].
  revert V1. unfold s_substr. rewrite Ua, Um, !s_len_value, !unit_value, cap_value by assumption. rewrite Sa, Sm, <- La, EM. cbn [Z.eqb Pos.eqb andb].
  replace (0 <=? n) with true by lia. replace (0 <=? p) with true by lia. cbn [andb]. rewrite G. replace (n <? n + 2) with true by lia. rewrite !andb_true_r.
  destruct (p <? zlen m) eqn:G3; cbn [fst snd]; intros V1; [|reflexivity]. cbn [JS_SUCCESS Z.eqb Pos.eqb negb].
  apply append_agree; [|exact HT]. unfold with_oct, units in V1. rewrite !unit_value, oct_value, Sa, Sm, Oa, !Z.mul_1_r in V1. apply (value_held _ _ _ _ W1 V1).
Qed.

(** ** Reading *)
Lemma readuint16_list c m p : holding c m -> 2 <= zlen m -> 0 <= p < 4294967296 -> js_readuint16 c p = Ok (if p + 2 <=? zlen m then number (zslice m p 2) else -1).
Proof.
  intros HC M P. pose proof (hold_facts c m HC) as [Wa Sa La Ca Ma Na Ba Xa Ua Oa]. rewrite js_readuint16_ok by (try assumption; lia).
  unfold s_readuint16. rewrite Ua, s_len_value, unit_value, oct_value by assumption. rewrite Sa, <- La, Oa. replace (0 <=? p) with true by lia. cbn [Z.eqb Pos.eqb andb]. reflexivity.
Qed.
Lemma readuint32_list c m p : holding c m -> 4 <= zlen m -> 0 <= p < 4294967296 ->
  js_readuint32 c p = Ok (if p + 4 <=? zlen m then Z.min (number (zslice m p 4)) 4294967294 else 4294967295).
Proof.
  intros HC M P. pose proof (hold_facts c m HC) as [Wa Sa La Ca Ma Na Ba Xa Ua Oa]. rewrite js_readuint32_ok by (try assumption; lia).
  unfold s_readuint32. rewrite Ua, s_len_value, unit_value, oct_value by assumption. rewrite Sa, <- La, Oa. replace (0 <=? p) with true by lia. cbn [Z.eqb Pos.eqb andb]. reflexivity.
Qed.
Lemma number_2 m p : bytes m -> 0 <= p -> p + 2 <= zlen m -> exists a b, zget m p = Some a /\ zget m (p + 1) = Some b /\ byte a /\ byte b /\ zslice m p 2 = [a; b] /\ number (zslice m p 2) = a * 256 + b.
Proof.
  intros B P L. destruct (zget_some m p ltac:(lia)) as (a & Ea). destruct (zget_some m (p + 1) ltac:(lia)) as (b & Eb). exists a, b.
  change 2 with (1 + 1). rewrite zslice_split by lia. rewrite (zslice_one _ _ _ Ea), (zslice_one _ _ _ Eb). repeat (split; [first [assumption | apply (zget_bytes _ _ _ B Ea) | apply (zget_bytes _ _ _ B Eb) | reflexivity]|]). reflexivity.
Qed.
