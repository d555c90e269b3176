(** Lemmas about the lists of ParseIpAcl.c. *)
From Verif Require Import CBase Bits ModelDwStr SpecDwStr ProofDwStr ModelJsStr SpecJsStr ProofJsStr ProofJsSearch ModelIpAcl SpecIpAcl ProofIpAcl.

Lemma skip_lead_ok n : forall tabs mem start nx p c, (forall i, start <= i < p -> zget mem i = Some 32) -> start <= p <= nx -> zget mem p = Some c -> visible c -> p - start < Z.of_nat n ->
  skip_lead n tabs mem start nx = Ok p.
Proof.
  induction n as [|n IH]; intros tabs mem start nx p c H Hp G (V1 & V2) Hn; [lia|]. cbn [skip_lead].
  destruct (Z.eq_dec start p) as [->|].
  - destruct (p <? nx); [|reflexivity]. rewrite (rd_of_zget _ _ _ G). cbn [bind]. replace (c =? 32) with false by lia. replace (c =? 9) with false by lia. rewrite andb_false_r. reflexivity.
  - replace (start <? nx) with true by lia. rewrite (rd_of_zget _ _ 32) by (apply H; lia). cbn [bind Z.eqb Pos.eqb orb].
    apply (IH _ _ _ _ _ c); try assumption; try lia; [|split; assumption]. intros i Hi. apply H. lia.
Qed.
Lemma skip_trail_ok n : forall comma mem start nx p c f, (forall i, p < i <= nx -> zget mem i = Some 32 \/ (comma = true /\ zget mem i = Some 44)) -> start <= p <= nx ->
  zget mem p = Some c -> c <> 32 -> c <> 44 -> zget mem start = Some f -> f <> 9 -> nx - p < Z.of_nat n ->
  skip_trail n comma mem start nx = Ok p.
Proof.
  induction n as [|n IH]; intros comma mem start nx p c f H Hp G V1 V2 Gf Vf Hn; [lia|]. cbn [skip_trail].
  destruct (Z.eq_dec nx p) as [->|].
  - destruct (start <? p); [|reflexivity]. rewrite (rd_of_zget _ _ _ G), (rd_of_zget _ _ _ Gf). cbn [bind].
    replace (c =? 32) with false by lia. replace (f =? 9) with false by lia. replace (c =? 44) with false by lia. rewrite andb_false_r. reflexivity.
  - replace (start <? nx) with true by lia. destruct (H nx ltac:(lia)) as [E|(-> & E)]; rewrite (rd_of_zget _ _ _ E), (rd_of_zget _ _ _ Gf); cbn [bind Z.eqb Pos.eqb orb andb].
    + apply (IH _ _ _ _ _ c f); try assumption; try lia. intros i Hi. apply H. lia.
    + rewrite orb_true_r. apply (IH _ _ _ _ _ c f); try assumption; try lia. intros i Hi. apply H. lia.
Qed.

Lemma fresh_ok J cap : junk_ok J -> 0 <= cap < 1000 -> exists s, fresh J cap 3 = Some s /\ j_wf s /\ value_of s = mkstr 1 cap 3 [].
Proof.
  intros HJ Hc. destruct (js_create_ok J cap 1 HJ ltac:(lia) ltac:(lia) ltac:(lia)) as (s & E & W & V & _). unfold fresh. rewrite E.
  destruct (js_set_encode_ok s 3 W) as (s' & E' & W' & V'). exists (snd (js_set_encode s 3)). split; [reflexivity|].
  injection E' as E'. rewrite E'. cbn [snd]. split; [exact W'|]. rewrite V', V. reflexivity.
Qed.

Lemma sub_ok in_ t sub cap start count : plain in_ t -> j_wf sub -> value_of sub = mkstr 1 cap 3 [] -> 0 <= start -> 1 <= count < cap -> start + count <= zlen t ->
  exists sub', js_substr in_ sub start count = Ok (1, sub') /\ text sub' (zslice t start count).
Proof.
  intros P Ws V Hs Hc Hl. pose proof (plain_len _ _ P) as (LN & LT & U & BT). destruct P as [W S1 O].
  destruct (js_substr_ok in_ sub start count W Ws ltac:(lia) ltac:(lia) ltac:(lia)) as (s' & E & W' & V').
  unfold s_substr in E, V'. rewrite U, V in E, V'. rewrite s_len_value, unit_value, S1, LN in E, V' by exact W. cbn [usable s_enc s_unit Z.eqb Pos.eqb andb negb s_cap] in E, V'.
  replace ((0 <=? count) && (0 <=? start) && (start <? zlen t) && (start + count <=? zlen t) && (count <? cap)) with true in E, V' by lia.
  cbn [fst snd] in E, V'. exists s'. split; [exact E|]. unfold with_oct, units in V'. rewrite unit_value, oct_value, S1, O, !Z.mul_1_r in V'. cbn [s_unit s_cap s_enc] in V'.
  constructor; [exact W'| | |].
  - change (j_size s') with (s_unit (value_of s')). rewrite V'. reflexivity.
  - rewrite <- oct_value, V'. reflexivity.
  - rewrite <- enc_value, V'. reflexivity.
Qed.

(** ** The list so far *)
Definition keep (es : list (Z * Z)) : list (Z * Z) := filter (fun p => negb (fst p =? END_IP)) es.
Definition shows (out E : list ippair) : Prop :=
  exists pad, out = E ++ pad /\ Forall (fun p => fst p <> END_IP) E /\ Forall (fun p => fst p = END_IP) pad.
Lemma find_end_ok E : forall k max a m pad, Forall (fun p => fst p <> END_IP) E -> a = END_IP -> Z.of_nat (k + length E) < max ->
  find_end (E ++ (a, m) :: pad) k max = Ok (Some (k + length E)%nat).
Proof.
  induction E as [|(x, y) E IH]; intros k max a m pad H -> Hm; cbn [app find_end length] in *.
  - replace (Z.of_nat k <? max) with true by lia. rewrite Z.eqb_refl. do 2 f_equal. lia.
  - inversion H as [|? ? H1 H2]; subst. cbn [fst] in H1. replace (Z.of_nat k <? max) with true by lia. replace (x =? END_IP) with false by lia.
    rewrite IH by (assumption || reflexivity || lia). do 2 f_equal. lia.
Qed.
Lemma set_pair_mid E : forall x pad p, set_pair (E ++ x :: pad) (length E) p = E ++ p :: pad.
Proof. induction E as [|y E IH]; intros x pad p; [reflexivity|]. cbn [app length set_pair]. rewrite IH. reflexivity. Qed.
Lemma keep_app a b : keep (a ++ b) = keep a ++ keep b.
Proof. unfold keep. apply filter_app. Qed.
Lemma keep_len es : (length (keep es) <= length es)%nat.
Proof. unfold keep. induction es as [|x es IH]; cbn [filter length]; [lia|]. destruct (negb _); cbn [length]; lia. Qed.

Lemma zget_spaces a i : 0 <= i < Z.of_nat a -> zget (spaces a) i = Some 32.
Proof.
  intros H. destruct (zget (spaces a) i) as [c|] eqn:G.
  - apply zget_In, repeat_spec in G. subst c. reflexivity.
  - apply zget_none in G. unfold zlen, spaces in G. rewrite repeat_length in G. lia.
Qed.
Lemma zlen_spaces a : zlen (spaces a) = Z.of_nat a.
Proof. unfold zlen, spaces. rewrite repeat_length. reflexivity. Qed.
Lemma mem_plain s t i : plain s t -> 0 <= i < zlen t -> zget (j_mem s) i = zget t i.
Proof. intros P H. pose proof (plain_len _ _ P) as (LN & _). destruct P as [W S1 O]. rewrite <- O. symmetry. apply zget_octets; [exact W|]. lia. Qed.

Section Lists.
Variable alias : list Z -> option js.
Variable J : Z -> Z.
Hypothesis HA : aliases_ok alias.
Hypothesis HJ : junk_ok J.
Variable max : Z.

Definition list_claim (d : nat) (r : list Z) (es : list (Z * Z)) : Prop :=
  forall k in_ pre out E, plain in_ (pre ++ r) -> zlen r < Z.of_nat k -> shows out E -> Z.of_nat (length E + length es) <= max -> max <= Z.of_nat (length out) ->
  exists out', acl_loop alias J k (fun v out => make_ip_acl alias J d v max out) in_ max (zlen pre - 1) out = Ok (Some out') /\ shows out' (E ++ keep es) /\ length out' = length out.
Definition item_claim (d : nat) (t : list Z) (es : list (Z * Z)) : Prop :=
  forall sub value out E, text sub t -> j_wf value -> value_of value = mkstr 1 512 3 [] -> shows out E -> Z.of_nat (length E + length es) <= max -> max <= Z.of_nat (length out) ->
  exists out', acl_item alias (fun v out => make_ip_acl alias J d v max out) sub value max out = Ok (Some out') /\ shows out' (E ++ keep es) /\ length out' = length out.

Lemma item_entry d t ip mask : alias t = None -> entry_text t ip mask -> item_claim d t [(ip, mask)].
Proof.
  intros A T sub value out E X _ _ S L M. unfold acl_item.
  assert (zslice (j_mem sub) 0 (j_count sub) = t) as ->. { rewrite <- (tx_oct _ _ X). unfold octets_of. rewrite (tx_size _ _ X), Z.mul_1_l. reflexivity. }
  rewrite A. cbn [bind]. destruct S as (pad & -> & S1 & S2). cbn [length] in L. rewrite app_length in M.
  destruct pad as [|(a, m) pad]; [cbn [length] in M; lia|]. inversion S2 as [|? ? P1 P2]; subst. cbn [fst] in P1.
  rewrite find_end_ok by (assumption || lia). cbn [bind]. destruct (ddip_ok sub t ip mask X T) as (r & ->). cbn [bind].
  cbn [Nat.add]. rewrite set_pair_mid. eexists. split; [reflexivity|]. split; [|rewrite !app_length; reflexivity].
  unfold keep. cbn [filter fst]. destruct (Z.eqb_spec ip END_IP) as [->|]; cbn [negb].
  - exists ((END_IP, mask) :: pad). rewrite app_nil_r. split; [reflexivity|]. split; [exact S1|]. constructor; [reflexivity|exact P2].
  - exists pad. rewrite <- app_assoc. split; [reflexivity|]. split; [|exact P2]. apply Forall_app. split; [exact S1|]. constructor; [exact n|constructor].
Qed.
Lemma item_alias d t v es : alias t = Some v -> list_claim d (octets_of v) es -> item_claim (S d) t es.
Proof.
  intros A C sub value out E X Wv V S L M. unfold acl_item.
  assert (zslice (j_mem sub) 0 (j_count sub) = t) as ->. { rewrite <- (tx_oct _ _ X). unfold octets_of. rewrite (tx_size _ _ X), Z.mul_1_l. reflexivity. }
  rewrite A. destruct (HA t v A) as (W & S1 & L1).
  assert (plain v (octets_of v)) as Pv by (constructor; [exact W|exact S1|reflexivity]). pose proof (plain_len _ _ Pv) as (LN & LT & U & _).
  destruct (js_copy_ok v value W Wv) as (v' & E' & W' & V'). unfold s_copy in E', V'. rewrite U, V in E', V'. rewrite s_len_value, unit_value, S1, LN in E', V' by exact W.
  cbn [usable s_enc s_unit Z.eqb Pos.eqb andb negb s_cap] in E', V'. replace (zlen (octets_of v) <? 512) with true in E', V' by lia. cbn [fst snd] in E', V'.
  rewrite E'. cbn [bind]. unfold JS_ERROR. cbn [Z.eqb Pos.eqb negb]. cbn [make_ip_acl].
  assert (plain v' (octets_of v)) as Pv'.
  { constructor; [exact W'| |].
    - change (j_size v') with (s_unit (value_of v')). rewrite V'. reflexivity.
    - rewrite <- (oct_value v'), V'. reflexivity. }
  pose proof (plain_len _ _ Pv') as (LN' & _ & U' & _). rewrite sane_usable by exact W'. rewrite U', (pl_size _ _ Pv'). cbn [negb Z.eqb Pos.eqb].
  apply (C _ v' [] out E); try assumption. pose proof (zlen_nonneg (octets_of v)). lia.
Qed.

(** One turn of the loop, up to its item. *)
Lemma loop_turn k rec in_ pre a t b r out : core_ok t -> plain in_ (pre ++ spaces a ++ t ++ spaces b ++ r) -> (r = [] \/ exists r', r = 44 :: r') ->
  exists sub value, text sub t /\ j_wf value /\ value_of value = mkstr 1 512 3 [] /\
  acl_loop alias J (S k) rec in_ max (zlen pre - 1) out =
    bind (acl_item alias rec sub value max out)
         (fun o => match o with None => Ok None | Some out => match r with [] => Ok (Some out) | _ :: _ => acl_loop alias J k rec in_ max (zlen (pre ++ spaces a ++ t ++ spaces b)) out end end).
Proof.
  intros ((f & t1 & Ef & Vf) & (c & t2 & Ec & Vc) & NC & LC) P Hr.
  pose proof (plain_len _ _ P) as (LN & LT & U & BT). set (T := pre ++ spaces a ++ t ++ spaces b ++ r) in *.
  assert (zlen T = zlen pre + Z.of_nat a + zlen t + Z.of_nat b + zlen r) as LenT by (unfold T; rewrite !zlen_app, !zlen_spaces; lia).
  assert (1 <= zlen t) as Lt by (rewrite Ef, zlen_cons; pose proof (zlen_nonneg t1); lia).
  pose proof (zlen_nonneg pre). pose proof (zlen_nonneg r). cbn [acl_loop]. cbv zeta. replace (zlen pre - 1 + 1) with (zlen pre) by lia.
  rewrite (match_comma in_ T _ P) by lia. cbn [bind].
  assert (Forall (fun x => hit true [44] x = false) (spaces a ++ t ++ spaces b)) as HX.
  { assert (forall n, Forall (fun x => hit true [44] x = false) (spaces n)) as HS.
    { intros n. apply Forall_forall. intros x Hx. apply repeat_spec in Hx. subst x. reflexivity. }
    apply Forall_app. split; [apply HS|]. apply Forall_app. split; [|apply HS].
    apply (Forall_impl _ (P := fun b => b <> 44)); [intros x Hx; rewrite hit_comma; lia|exact NC]. }
  (* what stands where *)
  set (p := zlen pre + Z.of_nat a).
  assert (forall i, zlen pre <= i < p -> zget (j_mem in_) i = Some 32) as G1.
  { intros i Hi. rewrite (mem_plain _ _ _ P) by lia. unfold T. rewrite zget_app_r by lia. rewrite zget_app_l by (rewrite zlen_spaces; lia). apply zget_spaces. lia. }
  assert (zget (j_mem in_) p = Some f) as G2.
  { rewrite (mem_plain _ _ _ P) by lia. unfold T. rewrite zget_app_r by lia. rewrite zget_app_r by (rewrite zlen_spaces; lia). rewrite zget_app_l by (rewrite zlen_spaces; lia).
    rewrite zlen_spaces. replace (p - zlen pre - Z.of_nat a) with 0 by lia. rewrite Ef. apply zget_cons_0. }
  set (q := p + zlen t - 1).
  assert (zget (j_mem in_) q = Some c) as G3.
  { rewrite (mem_plain _ _ _ P) by lia. unfold T. rewrite zget_app_r by lia. rewrite zget_app_r by (rewrite zlen_spaces; lia). rewrite zget_app_l by (rewrite zlen_spaces; lia).
    rewrite zlen_spaces. replace (q - zlen pre - Z.of_nat a) with (zlen t - 1) by lia. rewrite Ec, zlen_app. change (zlen [c]) with 1.
    rewrite zget_app_r by lia. replace (zlen t2 + 1 - 1 - zlen t2) with 0 by lia. reflexivity. }
  assert (forall i, q < i < q + 1 + Z.of_nat b -> zget (j_mem in_) i = Some 32) as G4.
  { intros i Hi. rewrite (mem_plain _ _ _ P) by lia. unfold T. rewrite zget_app_r by lia. rewrite zget_app_r by (rewrite zlen_spaces; lia). rewrite zget_app_r by (rewrite zlen_spaces; lia). rewrite zget_app_l by (rewrite !zlen_spaces; lia).
    apply zget_spaces. rewrite zlen_spaces. lia. }
  assert (In c t) as Ic by (rewrite Ec; apply in_or_app; right; left; reflexivity). rewrite Forall_forall in NC. pose proof (NC c Ic) as Nc.
  destruct Vf as (Vf1 & Vf2). destruct Vc as (Vc1 & Vc2).
  destruct (fresh_ok J 256 HJ ltac:(lia)) as (sub0 & F1 & Ws & Vs). destruct (fresh_ok J 512 HJ ltac:(lia)) as (value & F2 & Wv & Vv).
  destruct (sub_ok in_ T sub0 256 p (zlen t) P Ws Vs ltac:(lia) ltac:(lia) ltac:(lia)) as (sub & ES & TS).
  assert (zslice T p (zlen t) = t) as SL.
  { unfold T. pose proof (zlen_spaces a). pose proof (zlen_spaces b). rewrite zslice_app_r by (rewrite ?zlen_app; lia). rewrite zslice_app_r by (rewrite ?zlen_app; lia). rewrite zslice_app_l by lia.
    replace (p - zlen pre - zlen (spaces a)) with 0 by lia. apply zslice_all. }
  rewrite SL in TS.
  exists sub, value. split; [exact TS|]. split; [exact Wv|]. split; [exact Vv|].
  destruct Hr as [->|(r' & ->)].
  - assert (ff true [44] T (zlen pre) = -2) as ->.
    { unfold T. rewrite app_nil_r. rewrite ff_none; [reflexivity|lia|exact HX]. }
    unfold JS_ERROR. cbn [Z.eqb Pos.eqb negb]. change (zlen (@nil Z)) with 0 in *.
    rewrite (skip_lead_ok _ false (j_mem in_) (zlen pre) (j_count in_ - 1) p f) by (try assumption; try lia; split; assumption). cbn [bind].
    rewrite (skip_trail_ok _ false (j_mem in_) p (j_count in_ - 1) q c f); try assumption; try lia.
    2:{ intros i Hi. left. apply G4. lia. }
    cbn [bind]. rewrite F1, F2. replace (q + 1 - p) with (zlen t) by lia. rewrite ES. cbn [bind Z.eqb Pos.eqb]. reflexivity.
  - assert (ff true [44] T (zlen pre) = q + 1 + Z.of_nat b) as ->.
    { unfold T. rewrite !app_assoc. rewrite <- (app_assoc pre), <- (app_assoc pre). rewrite <- (app_assoc (spaces a)), <- (app_assoc pre).
      rewrite ff_at; [rewrite !zlen_app, !zlen_spaces; lia|rewrite !zlen_app, !zlen_spaces; lia|exact HX|rewrite hit_comma; reflexivity]. }
    rewrite zlen_cons in *. pose proof (zlen_nonneg r').
    replace (q + 1 + Z.of_nat b =? JS_ERROR) with false by (unfold JS_ERROR; lia). replace (q + 1 + Z.of_nat b =? -2) with false by lia. cbn [negb].
    rewrite (skip_lead_ok _ true (j_mem in_) (zlen pre) (q + 1 + Z.of_nat b) p f) by (try assumption; try lia; split; assumption). cbn [bind].
    rewrite (skip_trail_ok _ true (j_mem in_) p (q + 1 + Z.of_nat b) q c f); try assumption; try lia.
    2:{ intros i Hi. destruct (Z.eq_dec i (q + 1 + Z.of_nat b)) as [->|]; [|left; apply G4; lia]. right. split; [reflexivity|].
        rewrite (mem_plain _ _ _ P) by lia. unfold T. rewrite zget_app_r by lia. rewrite !zget_app_r by (rewrite !zlen_spaces; lia). rewrite !zlen_spaces.
        replace (q + 1 + Z.of_nat b - zlen pre - Z.of_nat a - zlen t - Z.of_nat b) with 0 by lia. reflexivity. }
    cbn [bind]. rewrite F1, F2. replace (q + 1 - p) with (zlen t) by lia. rewrite ES. cbn [bind Z.eqb Pos.eqb].
    replace (zlen (pre ++ spaces a ++ t ++ spaces b)) with (q + 1 + Z.of_nat b) by (rewrite !zlen_app, !zlen_spaces; lia). reflexivity.
Qed.

Lemma list_last d a t b es : core_ok t -> item_claim d t es -> list_claim d (spaces a ++ t ++ spaces b) es.
Proof.
  intros C I k in_ pre out E P Hk S L M. destruct k as [|k]; [pose proof (zlen_nonneg (spaces a ++ t ++ spaces b)); lia|].
  destruct (loop_turn k (fun v out => make_ip_acl alias J d v max out) in_ pre a t b [] out C) as (sub & value & TS & Wv & Vv & ->); [rewrite app_nil_r; exact P|left; reflexivity|].
  destruct (I sub value out E TS Wv Vv S L M) as (out' & -> & S' & L'). cbn [bind]. exists out'. split; [reflexivity|]. split; assumption.
Qed.
Lemma list_more d a t b es r es' : core_ok t -> item_claim d t es -> list_claim d r es' -> list_claim d (spaces a ++ t ++ spaces b ++ 44 :: r) (es ++ es').
Proof.
  intros C I R k in_ pre out E P Hk S L M. rewrite app_length in L. destruct k as [|k]; [pose proof (zlen_nonneg (spaces a ++ t ++ spaces b ++ 44 :: r)); lia|].
  destruct (loop_turn k (fun v out => make_ip_acl alias J d v max out) in_ pre a t b (44 :: r) out C P) as (sub & value & TS & Wv & Vv & ->); [right; exists r; reflexivity|].
  destruct (I sub value out E TS Wv Vv S ltac:(lia) M) as (out' & -> & S' & L'). cbn [bind].
  set (pre' := pre ++ spaces a ++ t ++ spaces b ++ [44]).
  replace (zlen (pre ++ spaces a ++ t ++ spaces b)) with (zlen pre' - 1) by (unfold pre'; rewrite !zlen_app; change (zlen [44]) with 1; lia).
  pose proof (keep_len es).
  destruct (R k in_ pre' out' (E ++ keep es)) as (out'' & -> & S'' & L''); try assumption.
  - unfold pre'. repeat (rewrite <- app_assoc; cbn [app]). exact P.
  - rewrite !zlen_app, zlen_cons in Hk. pose proof (zlen_nonneg (spaces a)). pose proof (zlen_nonneg (spaces b)). pose proof (zlen_nonneg t). lia.
  - rewrite app_length. lia.
  - lia.
  - exists out''. split; [reflexivity|]. rewrite keep_app, app_assoc. split; [exact S''|lia].
Qed.
End Lists.

Scheme item_means_ind2 := Induction for item_means Sort Prop
  with list_means_ind2 := Induction for list_means Sort Prop.

Lemma list_ok alias J max : aliases_ok alias -> junk_ok J -> forall d t es, list_means alias d t es -> list_claim alias J max d t es.
Proof.
  intros HA HJ. apply (list_means_ind2 alias (fun d t es _ => item_claim alias J max d t es) (fun d t es _ => list_claim alias J max d t es)).
  - intros. apply item_entry; assumption.
  - intros. eapply item_alias; eassumption.
  - intros. apply list_last; assumption.
  - intros. apply list_more; assumption.
Qed.
Lemma make_ok alias J max d t es in_ out E : aliases_ok alias -> junk_ok J -> list_means alias d t es -> plain in_ t -> shows out E ->
  Z.of_nat (length E + length es) <= max -> max <= Z.of_nat (length out) ->
  exists out', make_ip_acl alias J (S d) in_ max out = Ok (Some out') /\ shows out' (E ++ keep es) /\ length out' = length out.
Proof.
  intros HA HJ LM P S L M. pose proof (plain_len _ _ P) as (LN & _ & U & _). cbn [make_ip_acl]. rewrite sane_usable by apply P. rewrite U, (pl_size _ _ P). cbn [negb Z.eqb Pos.eqb].
  apply (list_ok alias J max HA HJ d t es LM _ in_ [] out E); try assumption. pose proof (zlen_nonneg t). lia.
Qed.

(** ** check_ipv4_acl *)
Lemma check_ok E : forall pad k ip, Forall (fun p => fst p <> END_IP) E -> Forall (fun p => fst p = END_IP) pad -> 0 <= k -> k + Z.of_nat (length E) <= 500 -> (500 < k + Z.of_nat (length E + length pad))->
  exists r, check_loop (E ++ pad) k ip = Ok r /\ (r = 0 \/ r = 1) /\ (r = 1 <-> permits E ip).
Proof.
  induction E as [|(a, m) E IH]; intros pad k ip HE HP Hk Hl Hp; cbn [app check_loop length] in *.
  - exists 0. split.
    + destruct pad as [|(a, m) pad]; [cbn [length] in *; lia|]. inversion HP as [|? ? H1 H2]; subst. cbn [fst] in H1. cbn [check_loop]. rewrite H1, Z.eqb_refl. destruct (k <? 500); reflexivity.
    + split; [left; reflexivity|]. split; [lia|]. intros (a & m & [] & _).
  - inversion HE as [|? ? H1 H2]; subst. cbn [fst] in H1. replace (k <? 500) with true by lia. replace (a =? END_IP) with false by lia.
    destruct (Z.eqb_spec (Z.land ip m) (Z.land a m)) as [e|ne].
    + exists 1. split; [reflexivity|]. split; [right; reflexivity|]. split; [|reflexivity]. intros _. exists a, m. split; [left; reflexivity|exact e].
    + destruct (IH pad (k + 1) ip H2 HP ltac:(lia) ltac:(lia) ltac:(lia)) as (r & -> & R & RI). exists r. split; [reflexivity|]. split; [exact R|].
      rewrite RI. split.
      * intros (x & y & I & e). exists x, y. split; [right; exact I|exact e].
      * intros (x & y & [I|I] & e); [injection I as -> ->; contradiction|]. exists x, y. split; assumption.
Qed.

(** ** Masks *)
Lemma land_prefix x k : 0 <= x < 2 ^ 32 -> 0 <= k <= 32 -> Z.land x (2 ^ 32 - 2 ^ k) = (x / 2 ^ k) * 2 ^ k.
Proof.
  intros Hx Hk. rewrite <- Z.shiftr_div_pow2, <- Z.shiftl_mul_pow2 by lia.
  replace (2 ^ 32 - 2 ^ k) with (Z.shiftl (Z.ones (32 - k)) k).
  2:{ rewrite Z.shiftl_mul_pow2, Z.ones_equiv by lia. rewrite <- Z.sub_1_r, Z.mul_sub_distr_r, <- Z.pow_add_r by lia. replace (32 - k + k) with 32 by lia. lia. }
  apply Z.bits_inj'. intros i Hi. rewrite Z.land_spec. destruct (Z_lt_dec i k).
  - rewrite !Z.shiftl_spec_low by lia. apply andb_false_r.
  - rewrite !Z.shiftl_spec, Z.shiftr_spec by lia. replace (i - k + k) with i by lia. destruct (Z_lt_dec i 32).
    + rewrite Z.ones_spec_low by lia. apply andb_true_r.
    + rewrite Z.ones_spec_high by lia. rewrite (bits_high_zero x 32 i) by lia. reflexivity.
Qed.
Lemma prefix_agree x y k : 0 <= x < 2 ^ 32 -> 0 <= y < 2 ^ 32 -> 0 <= k <= 32 ->
  (Z.land x (2 ^ 32 - 2 ^ k) = Z.land y (2 ^ 32 - 2 ^ k) <-> x / 2 ^ k = y / 2 ^ k).
Proof.
  intros Hx Hy Hk. rewrite !land_prefix by assumption. split; [|intros ->; reflexivity]. intros E. apply Z.mul_reg_r in E; [exact E|]. pose proof (Z.pow_pos_nonneg 2 k). lia.
Qed.
