(** make_ip_acl is safe on every text. *)
From Verif Require Import CBase Bits ModelDwStr SpecDwStr ProofDwStr ModelJsStr SpecJsStr ProofJsStr ProofJsSearch ModelIpAcl SpecIpAcl ProofIpAcl ProofIpAclList.

Lemma digits_get l : forall k, 0 <= k < zlen (digits l) -> digit_at l k.
Proof.
  induction l as [|b l IH]; intros k Hk; cbn [digits] in Hk; [change (zlen (@nil Z)) with 0 in Hk; lia|].
  destruct ((48 <=? b) && (b <=? 57)) eqn:E; [|change (zlen (@nil Z)) with 0 in Hk; lia]. rewrite zlen_cons in Hk.
  destruct (Z.eq_dec k 0) as [->|]; [exists b; rewrite zget_cons_0; split; [reflexivity|lia]|].
  destruct (IH (k - 1) ltac:(lia)) as (c & G & Hc). exists c. split; [|exact Hc]. rewrite zget_cons_S by lia. exact G.
Qed.
Lemma digits_range l : Forall (fun d => 0 <= d <= 9) (digits l).
Proof. induction l as [|b l IH]; cbn [digits]; [constructor|]. destruct ((48 <=? b) && (b <=? 57)) eqn:E; [|constructor]. constructor; [lia|exact IH]. Qed.
Lemma decimal_bound l : Forall (fun d => 0 <= d <= 9) l -> forall v, 0 <= v -> 0 <= fold_left (fun v d => v * 10 + d) l v < (v + 1) * 10 ^ zlen l.
Proof.
  induction 1 as [|d l Hd _ IH]; intros v Hv; cbn [fold_left].
  - change (zlen (@nil Z)) with 0. lia.
  - rewrite zlen_cons. specialize (IH (v * 10 + d) ltac:(lia)). rewrite Z.pow_add_r by (pose proof (zlen_nonneg l); lia). change (10 ^ 1) with 10.
    pose proof (zlen_nonneg l). assert (0 < 10 ^ zlen l) by (apply Z.pow_pos_nonneg; lia). split; [lia|]. apply (Z.lt_le_trans _ ((v * 10 + d + 1) * 10 ^ zlen l)); [lia|].
    replace ((v + 1) * (10 ^ zlen l * 10)) with ((v * 10 + 10) * 10 ^ zlen l) by ring. apply Z.mul_le_mono_nonneg_r; lia.
Qed.
Lemma zget_zslice_some (l : list Z) i n j b : zget (zslice l i n) j = Some b -> 0 <= i -> zget l (i + j) = Some b.
Proof.
  intros G Hi. assert (0 <= j < zlen (zslice l i n)) as Hj by (eapply zget_range; exact G).
  assert (j < n). { destruct (Z_lt_dec j n); [assumption|]. exfalso. destruct (Z_le_dec n 0); [rewrite zslice_neg in Hj by lia; change (zlen (@nil Z)) with 0 in Hj; lia|]. unfold zslice, zlen in Hj. rewrite firstn_length in Hj. lia. }
  rewrite <- G. symmetry. apply zget_zslice; lia.
Qed.
Lemma short_slice t i n : 0 <= i -> short_numbers t -> short_numbers (zslice t i n).
Proof.
  intros Hi H k. destruct (H (i + k)) as (j & Hj & N). exists j. split; [exact Hj|]. intros (b & G & Hb). apply N. exists b. split; [|exact Hb].
  replace (i + k + j) with (i + (k + j)) by lia. eapply zget_zslice_some; eassumption.
Qed.
Lemma atoi_small t : short_numbers t -> decimal (digits t) < 2147483648.
Proof.
  intros H. pose proof (decimal_bound (digits t) (digits_range t) 0 ltac:(lia)) as (B0 & B1).
  assert (zlen (digits t) <= 9) as L. { destruct (Z_le_dec (zlen (digits t)) 9); [assumption|]. exfalso. destruct (H 0) as (k & Hk & N). apply N. apply digits_get. lia. }
  pose proof (zlen_nonneg (digits t)). unfold decimal. apply (Z.lt_le_trans _ (10 ^ 9)); [|vm_compute; discriminate].
  eapply Z.lt_le_trans; [exact B1|]. rewrite Z.add_0_l, Z.mul_1_l. apply Z.pow_le_mono_r; lia.
Qed.
Lemma atoi_safe s t o : text s t -> short_numbers t -> -2147483648 <= o < 2147483648 -> exists n, js_atoi s o = Ok n.
Proof.
  intros T H Ho. pose proof (plain_len _ _ (plain_text _ _ T)) as (LN & LT & U & BT). eexists. apply js_atoi_ok; try apply T; try assumption.
  unfold s_atoi. destruct (_ && _) eqn:G; [|lia]. rewrite oct_value, (tx_oct _ _ T). apply atoi_small, short_slice; [lia|exact H].
Qed.

Lemma ip_safe n : forall s t c o ip, text s t -> short_numbers t -> -1 <= o < 2147483647 -> exists r, ip_loop n s c o ip = Ok r.
Proof.
  induction n as [|n IH]; intros s t c o ip T H Ho; cbn [ip_loop]; [eexists; reflexivity|].
  destruct (o =? -2); [eexists; reflexivity|]. destruct (atoi_safe s t o T H ltac:(lia)) as (q & ->). cbn [bind].
  destruct ((q <? 0) || (255 <? q)); [eexists; reflexivity|]. rewrite (match_dot s t _ (plain_text _ _ T)) by lia. cbn [bind].
  destruct (_ =? JS_ERROR); [eexists; reflexivity|]. apply (IH s t); try assumption.
  pose proof (plain_len _ _ (plain_text _ _ T)) as (_ & LT & _ & _). pose proof (ff_range true [46] t (o + 1) ltac:(lia)). lia.
Qed.
Lemma mask_safe n : forall s t c o m, text s t -> short_numbers t -> -1 <= o < 2147483647 -> exists r, mask_loop n s c o m = Ok r.
Proof.
  induction n as [|n IH]; intros s t c o m T H Ho; cbn [mask_loop]; [eexists; reflexivity|].
  destruct (o =? -2); [eexists; reflexivity|]. destruct (atoi_safe s t o T H ltac:(lia)) as (q & ->). cbn [bind].
  destruct ((q <? 0) || (255 <? q)); [eexists; reflexivity|]. cbv zeta. destruct (negb (c =? 3)).
  - rewrite (match_dot s t _ (plain_text _ _ T)) by lia. cbn [bind]. destruct (_ =? JS_ERROR); [eexists; reflexivity|]. apply (IH s t); try assumption.
    pose proof (plain_len _ _ (plain_text _ _ T)) as (_ & LT & _ & _). pose proof (ff_range true [46] t (o + 1) ltac:(lia)). lia.
  - rewrite (notmatch_nums s t _ (plain_text _ _ T)) by lia. cbn [bind]. eexists. reflexivity.
Qed.
Lemma ddip_safe s t : text s t -> short_numbers t -> exists r, ddip_ip_mask s 0 = Ok r.
Proof.
  intros T H. pose proof (plain_text _ _ T) as P. pose proof (plain_len _ _ P) as (_ & LT & _ & _). unfold ddip_ip_mask. destruct (_ || _); [eexists; reflexivity|].
  rewrite (notmatch_nums s t 0 P) by lia. cbn [bind]. set (ret := ff false nums t 0). pose proof (ff_range false nums t 0 ltac:(lia)) as R. fold ret in R.
  destruct ((ret =? JS_ERROR) || (ret =? 0)); [eexists; reflexivity|]. destruct (js_length s <? 0 + 1); [eexists; reflexivity|].
  destruct (ip_safe 4 s t 0 0 0 T H ltac:(lia)) as (ip & ->). cbn [bind]. destruct ip as [ip|]; [|eexists; reflexivity].
  rewrite (match_slash s t 0 P) by lia. cbn [bind]. destruct (negb (ff true [47] t 0 =? ret) || (ff true [47] t 0 =? -2)) eqn:G; [eexists; reflexivity|]. cbv zeta.
  assert (0 <= ret) by (pose proof (ff_range true [47] t 0 ltac:(lia)); lia).
  rewrite (match_dot s t _ P) by lia. cbn [bind]. destruct (_ =? JS_ERROR); [eexists; reflexivity|].
  rewrite (notmatch_nums s t _ P) by lia. cbn [bind]. destruct (_ =? JS_ERROR); [eexists; reflexivity|].
  match goal with |- exists r, (if ?b then _ else _) = _ => destruct b end.
  - destruct (atoi_safe s t (ret + 1) T H ltac:(lia)) as (q & ->). cbn [bind]. destruct ((q <? 0) || (32 <? q)) eqn:Q; [eexists; reflexivity|].
    rewrite masks_ok by lia. cbn [bind]. eexists. reflexivity.
  - destruct (mask_safe 4 s t 0 (ret + 1) 0 T H ltac:(lia)) as (m & ->). cbn [bind]. eexists. reflexivity.
Qed.

Lemma skip_lead_safe n : forall tabs mem start nx, 0 <= start -> nx <= zlen mem -> 0 < Z.of_nat n -> nx - start < Z.of_nat n ->
  exists p, skip_lead n tabs mem start nx = Ok p /\ start <= p <= Z.max start nx.
Proof.
  induction n as [|n IH]; intros tabs mem start nx H0 H1 Hn H2; cbn [skip_lead]; [lia|].
  destruct (Z.ltb_spec start nx) as [Hlt|]; [|exists start; split; [reflexivity|lia]].
  destruct (rd_ok mem start ltac:(lia)) as (b & -> & _). cbn [bind]. destruct (_ || _); [|exists start; split; [reflexivity|lia]].
  destruct (IH tabs mem (start + 1) nx ltac:(lia) H1 ltac:(lia) ltac:(lia)) as (p & -> & Hp). exists p. split; [reflexivity|lia].
Qed.
Lemma skip_trail_safe n : forall comma mem start nx, 0 <= start -> nx < zlen mem -> 0 < Z.of_nat n -> nx - start < Z.of_nat n ->
  exists p, skip_trail n comma mem start nx = Ok p /\ Z.min start nx <= p <= nx.
Proof.
  induction n as [|n IH]; intros comma mem start nx H0 H1 Hn H2; cbn [skip_trail]; [lia|].
  destruct (Z.ltb_spec start nx) as [Hlt|]; [|exists nx; split; [reflexivity|lia]].
  destruct (rd_ok mem nx ltac:(lia)) as (b & -> & _). destruct (rd_ok mem start ltac:(lia)) as (f & -> & _). cbn [bind]. destruct (_ || _); [|exists nx; split; [reflexivity|lia]].
  destruct (IH comma mem start (nx - 1) H0 ltac:(lia) ltac:(lia) ltac:(lia)) as (p & -> & Hp). exists p. split; [reflexivity|lia].
Qed.
Lemma sub_safe in_ t sub cap start count : plain in_ t -> j_wf sub -> value_of sub = mkstr 1 cap 3 [] -> -1 <= start <= zlen t -> -2147483648 <= count < 2147483648 -> start + count <= zlen t ->
  exists r sub', js_substr in_ sub start count = Ok (r, sub') /\ (r = -1 \/ (0 <= start /\ text sub' (zslice t start count))).
Proof.
  intros P Ws V Hs Hc Hl. pose proof (plain_len _ _ P) as (LN & LT & U & BT). destruct P as [W S1 O].
  destruct (js_substr_ok in_ sub start count W Ws ltac:(lia) ltac:(lia) ltac:(lia)) as (s' & E & W' & V').
  unfold s_substr in E, V'. rewrite U, V in E, V'. rewrite s_len_value, unit_value, S1, LN in E, V' by exact W. cbn [usable s_enc s_unit Z.eqb Pos.eqb andb negb s_cap] in E, V'.
  destruct ((0 <=? count) && (0 <=? start) && (start <? zlen t) && (start + count <=? zlen t) && (count <? cap)) eqn:G.
  - cbn [fst snd] in E, V'. exists 1, s'. split; [exact E|]. right. split; [lia|]. unfold with_oct, units in V'. rewrite unit_value, oct_value, S1, O, !Z.mul_1_r in V'. cbn [s_unit s_cap s_enc] in V'.
    constructor; [exact W'| | |].
    + change (j_size s') with (s_unit (value_of s')). rewrite V'. reflexivity.
    + rewrite <- oct_value, V'. reflexivity.
    + rewrite <- enc_value, V'. reflexivity.
  - cbn [fst snd] in E. exists (-1), s'. split; [exact E|]. left. reflexivity.
Qed.
Lemma find_end_safe l : forall k max, max <= Z.of_nat (k + length l) -> exists o, find_end l k max = Ok o.
Proof.
  induction l as [|(a, m) l IH]; intros k max H; cbn [find_end length] in *.
  - replace (Z.of_nat k <? max) with false by lia. eexists. reflexivity.
  - destruct (Z.of_nat k <? max); [|eexists; reflexivity]. destruct (a =? END_IP); [eexists; reflexivity|]. apply IH. lia.
Qed.
Lemma set_pair_len l : forall i p, length (set_pair l i p) = length l.
Proof. induction l as [|x l IH]; intros [|i] p; cbn [set_pair length]; try reflexivity. rewrite IH. reflexivity. Qed.

Section Safe.
Variable alias : list Z -> option js.
Variable J : Z -> Z.
Hypothesis HJ : junk_ok J.
Hypothesis HA : forall k v, alias k = Some v -> j_wf v /\ short_numbers (octets_of v).
Variable max : Z.

Definition good (out : list ippair) (r : res (option (list ippair))) : Prop := exists o, r = Ok o /\ match o with Some out' => length out' = length out | None => True end.
Lemma item_safe rec sub value t out : text sub t -> short_numbers t -> j_wf value -> value_of value = mkstr 1 512 3 [] -> max <= Z.of_nat (length out) ->
  (forall v t' out, plain v t' -> short_numbers t' -> max <= Z.of_nat (length out) -> good out (rec v out)) -> good out (acl_item alias rec sub value max out).
Proof.
  intros T H Wv Vv M R. unfold acl_item.
  assert (good out (i <- find_end out 0 max ;;
    match i with
    | None => Ok None
    | Some i =>
        o <- ddip_ip_mask sub 0 ;;
        Ok (match o with Some (ip, mask, _) => Some (set_pair out i (ip, mask)) | None => None end)
    end)) as NA.
  { destruct (find_end_safe out 0 max ltac:(lia)) as (i & ->). cbn [bind]. destruct i as [i|]; [|exists None; split; [reflexivity|exact Logic.I]].
    destruct (ddip_safe sub t T H) as (o & ->). cbn [bind]. eexists. split; [reflexivity|]. destruct o as [((ip, mask), r)|]; [apply set_pair_len|exact Logic.I]. }
  destruct (alias _) as [v|] eqn:A; cbn [bind]; [|exact NA].
  destruct (HA _ _ A) as (W & SH). destruct (js_copy_ok v value W Wv) as (v' & E' & W' & V'). rewrite E'. cbn [bind].
  destruct (negb (fst (s_copy (value_of v) (value_of value)) =? JS_ERROR)) eqn:G; [|exact NA].
  unfold s_copy in G, V'. destruct (_ && _) eqn:GG; [|cbn in G; discriminate].
  apply (R v' (octets_of v)); try assumption. constructor; [exact W'| |].
  - change (j_size v') with (s_unit (value_of v')). rewrite V'. cbn [snd s_unit]. rewrite Vv. reflexivity.
  - rewrite <- (oct_value v'), V'. reflexivity.
Qed.
Lemma loop_safe rec in_ t : plain in_ t -> short_numbers t -> (forall v t' out, plain v t' -> short_numbers t' -> max <= Z.of_nat (length out) -> good out (rec v out)) ->
  forall k next out, max <= Z.of_nat (length out) -> -1 <= next < zlen t \/ (next = -1) -> zlen t - next < Z.of_nat k -> good out (acl_loop alias J k rec in_ max next out).
Proof.
  intros P H R. pose proof (plain_len _ _ P) as (LN & LT & U & BT). assert (zlen t + 3 <= zlen (j_mem in_)) as LM. { pose proof (j_bound _ (pl_wf _ _ P)). rewrite (pl_size _ _ P) in *. lia. }
  pose proof (zlen_nonneg t). induction k as [|k IH]; intros next out M Hx Hk; [lia|]. cbn [acl_loop]. cbv zeta.
  rewrite (match_comma in_ t _ P) by lia. cbn [bind]. set (nn := ff true [44] t (next + 1)). pose proof (ff_range true [44] t (next + 1) ltac:(lia)) as F. fold nn in F.
  replace (nn =? JS_ERROR) with false by (unfold JS_ERROR; lia). set (nx := if nn =? -2 then j_count in_ - 1 else nn).
  assert (-1 <= nx < zlen t) as Hnx by (unfold nx; destruct (Z.eqb_spec nn (-2)); lia).
  destruct (skip_lead_safe (Z.to_nat (j_count in_ + 2)) (negb (nn =? -2)) (j_mem in_) (next + 1) nx ltac:(lia) ltac:(lia) ltac:(lia) ltac:(lia)) as (p & -> & Hp). cbn [bind].
  destruct (skip_trail_safe (Z.to_nat (j_count in_ + 2)) (negb (nn =? -2)) (j_mem in_) p nx ltac:(lia) ltac:(lia) ltac:(lia) ltac:(lia)) as (q & -> & Hq). cbn [bind].
  destruct (fresh_ok J 256 HJ ltac:(lia)) as (sub0 & -> & Ws & Vs). destruct (fresh_ok J 512 HJ ltac:(lia)) as (value & -> & Wv & Vv).
  destruct (sub_safe in_ t sub0 256 p (q + 1 - p) P Ws Vs ltac:(lia) ltac:(lia) ltac:(lia)) as (r & sub & -> & TS). cbn [bind].
  destruct (Z.eqb_spec r JS_ERROR); [exists None; split; [reflexivity|exact Logic.I]|]. destruct TS as [->|(Hp0 & TS)]; [unfold JS_ERROR in *; lia|].
  destruct (item_safe rec sub value _ out TS (short_slice t p (q + 1 - p) Hp0 H) Wv Vv M R) as (o & -> & Lo). cbn [bind].
  destruct o as [out'|]; [|exists None; split; [reflexivity|exact Logic.I]].
  destruct (nn =? -2) eqn:E; [exists (Some out'); split; [reflexivity|exact Lo]|].
  destruct (IH nn out' ltac:(lia) ltac:(lia) ltac:(lia)) as (o & -> & L2). exists o. split; [reflexivity|]. destruct o; [lia|exact Logic.I].
Qed.
Lemma make_safe n : forall in_ t out, plain in_ t -> short_numbers t -> max <= Z.of_nat (length out) -> good out (make_ip_acl alias J n in_ max out).
Proof.
  induction n as [|n IH]; intros in_ t out P H M; cbn [make_ip_acl]; [exists None; split; [reflexivity|exact Logic.I]|].
  destruct (negb (js_sane in_)); [exists None; split; [reflexivity|exact Logic.I]|]. destruct (negb _); [exists None; split; [reflexivity|exact Logic.I]|].
  pose proof (plain_len _ _ P) as (LN & _). pose proof (zlen_nonneg t). apply (loop_safe _ in_ t P H); try assumption; try lia.
Qed.
End Safe.
Lemma check_safe l : forall k ip, 500 <= k + Z.of_nat (length l) -> exists r, check_loop l k ip = Ok r /\ (r = 0 \/ r = 1).
Proof.
  induction l as [|(a, m) l IH]; intros k ip H; cbn [check_loop length] in *.
  - replace (k <? 500) with false by lia. exists 0. split; [reflexivity|left; reflexivity].
  - destruct (k <? 500); [|exists 0; split; [reflexivity|left; reflexivity]]. destruct (a =? END_IP); [exists 0; split; [reflexivity|left; reflexivity]|].
    destruct (_ =? _); [exists 1; split; [reflexivity|right; reflexivity]|]. apply IH. lia.
Qed.
