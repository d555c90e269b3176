(** Lemmas about the model of ParseIpAcl.c. *)
From Verif Require Import CBase Bits ModelDwStr SpecDwStr ProofDwStr ModelJsStr SpecJsStr ProofJsStr ProofJsSearch ModelIpAcl SpecIpAcl.

Lemma zget_In (l : list Z) i c : zget l i = Some c -> In c l.
Proof. unfold zget. destruct (i <? 0); [discriminate|]. apply nth_error_In. Qed.

(** ** Constant strings *)
Lemma const_ok l cap enc : bytes l -> 1 <= zlen l <= cap -> cap < 1000 ->
  j_wf (const_str l cap enc) /\ octets_of (const_str l cap enc) = l /\ j_count (const_str l cap enc) = zlen l.
Proof.
  intros B L C. assert (zlen (repeat 0 (Z.to_nat (cap + 3 - zlen l))) = cap + 3 - zlen l) as LR by (unfold zlen at 1; rewrite repeat_length; lia).
  split; [|split; [|reflexivity]].
  - constructor; unfold const_str; cbn [j_mem j_size j_count j_max]; try lia.
    + rewrite zlen_app. lia.
    + apply bytes_app. split; [exact B|]. apply Forall_forall. intros x Hx. apply repeat_spec in Hx. subst x. unfold byte. lia.
  - unfold octets_of, const_str. cbn [j_mem j_size j_count]. rewrite Z.mul_1_l, zslice_app_l by lia. apply zslice_all.
Qed.

(** A string whose text is [t]. *)
Record text (s : js) (t : list Z) : Prop := { tx_wf : j_wf s; tx_size : j_size s = 1; tx_oct : octets_of s = t; tx_enc : j_enc s = 3 }.
Record plain (s : js) (t : list Z) : Prop := { pl_wf : j_wf s; pl_size : j_size s = 1; pl_oct : octets_of s = t }.
Lemma plain_text s t : text s t -> plain s t. Proof. intros [A B C D]. constructor; assumption. Qed.
Lemma plain_len s t : plain s t -> j_count s = zlen t /\ zlen t + 3 < 2147483648 /\ usable (value_of s) = true /\ bytes t.
Proof.
  intros [W S O]. pose proof (zlen_octets s W) as L. rewrite S, O in L. pose proof (j_bound s W). split; [lia|]. split.
  - destruct W as [W1 W2 W3 W4 W5]. rewrite S in *. lia.
  - split; [unfold usable; rewrite unit_value, S; cbn; rewrite andb_false_r; reflexivity|]. rewrite <- O. apply bytes_octets, W.
Qed.

(** ** Looking for characters *)
Definition hit (want : bool) (el : list Z) (c : Z) : bool := Bool.eqb (existsb (Z.eqb c) el) want.
Definition ff (want : bool) (el t : list Z) (o : Z) : Z :=
  first_from (Z.to_nat (zlen t - o)) o (fun k => match zget t k with Some c => hit want el c | None => false end).

Lemma const_usable l cap enc : usable (value_of (const_str l cap enc)) = true.
Proof. unfold usable. rewrite unit_value. cbn [const_str j_size]. rewrite andb_false_r. reflexivity. Qed.
Lemma search_plain (want : bool) el cap enc s t o : bytes el -> 1 <= zlen el <= cap -> cap < 1000 -> plain s t -> 0 <= o < 2147483648 ->
  (if want then js_match_offset else js_notmatch_offset) (const_str el cap enc) s o = Ok (ff want el t o).
Proof.
  intros B L C P Ho. destruct (const_ok el cap enc B L C) as (W & O & N). pose proof (plain_len s t P) as (LN & LT & U & BT). destruct P as [Ws S1 Os].
  pose proof (js_match_ok (const_str el cap enc) s o W Ws S1 ltac:(lia)) as (M1 & M2).
  assert (s_search want (value_of (const_str el cap enc)) (value_of s) o = ff want el t o) as E.
  { unfold s_search. replace (o <? 0) with false by lia. rewrite const_usable, U. replace (0 <=? o) with true by lia. cbn [andb negb].
    rewrite !s_len_value by assumption. rewrite !unit_value, !oct_value, S1, O, Os, N, LN. cbn [const_str j_size].
    replace (zlen el =? 0) with false by lia. cbn [Z.eqb Pos.eqb negb orb]. reflexivity. }
  destruct want; [rewrite M1|rewrite M2]; rewrite E; reflexivity.
Qed.
Lemma ff_range want el t o : 0 <= o -> ff want el t o = -2 \/ o <= ff want el t o < zlen t.
Proof. intros H. unfold ff. destruct (first_from_char (Z.to_nat (zlen t - o)) o (fun k => match zget t k with Some c => hit want el c | None => false end) H) as [(A & _)|(A & _)]; [left; exact A|right; lia]. Qed.
Lemma ff_at want el a x c r o : zlen a <= o <= zlen a + zlen x -> Forall (fun b => hit want el b = false) x -> hit want el c = true ->
  ff want el (a ++ x ++ c :: r) o = zlen a + zlen x.
Proof.
  intros Ho Hx Hc. pose proof (zlen_nonneg a). pose proof (zlen_nonneg x). pose proof (zlen_nonneg r). unfold ff.
  apply first_from_at; try lia.
  - rewrite !zlen_app, zlen_cons. lia.
  - rewrite zget_app_r by lia. rewrite zget_app_r by lia. replace (zlen a + zlen x - zlen a - zlen x) with 0 by lia. rewrite zget_cons_0. exact Hc.
  - intros i Hi. rewrite zget_app_r by lia. rewrite zget_app_l by lia. destruct (zget x (i - zlen a)) eqn:G; [|reflexivity].
    rewrite Forall_forall in Hx. apply Hx. eapply zget_In. exact G.
Qed.
Lemma ff_none want el a x o : zlen a <= o -> Forall (fun b => hit want el b = false) x -> ff want el (a ++ x) o = -2.
Proof.
  intros Ho Hx. pose proof (zlen_nonneg a). unfold ff. apply first_from_none; [lia|]. intros i Hi. rewrite zget_app_r by lia.
  destruct (zget x (i - zlen a)) eqn:G; [|reflexivity]. rewrite Forall_forall in Hx. apply Hx. eapply zget_In. exact G.
Qed.
Lemma match_dot s t o : plain s t -> 0 <= o < 2147483648 -> js_match_offset dotq s o = Ok (ff true [46] t o).
Proof. intros P Ho. apply (search_plain true [46] 7 1 s t o); try assumption; try (change (zlen [46]) with 1); try lia. apply bytesb_spec. reflexivity. Qed.
Lemma match_slash s t o : plain s t -> 0 <= o < 2147483648 -> js_match_offset slashq s o = Ok (ff true [47] t o).
Proof. intros P Ho. apply (search_plain true [47] 7 1 s t o); try assumption; try (change (zlen [47]) with 1); try lia. apply bytesb_spec. reflexivity. Qed.
Lemma match_comma s t o : plain s t -> 0 <= o < 2147483648 -> js_match_offset (const_str [44] 7 1) s o = Ok (ff true [44] t o).
Proof. intros P Ho. apply (search_plain true [44] 7 1 s t o); try assumption; try (change (zlen [44]) with 1); try lia. apply bytesb_spec. reflexivity. Qed.
Definition nums : list Z := [48; 49; 50; 51; 52; 53; 54; 55; 56; 57; 46].
Lemma notmatch_nums s t o : plain s t -> 0 <= o < 2147483648 -> js_notmatch_offset numdotq s o = Ok (ff false nums t o).
Proof. intros P Ho. apply (search_plain false nums 211 3 s t o); try assumption; try (change (zlen nums) with 11); try lia. apply bytesb_spec. reflexivity. Qed.

Lemma hit_nums c : 48 <= c <= 57 \/ c = 46 -> hit false nums c = false.
Proof. intros H. unfold hit, nums. cbn [existsb]. lia. Qed.
Lemma hit_dot c : hit true [46] c = (c =? 46). Proof. unfold hit. cbn [existsb]. destruct (c =? 46); reflexivity. Qed.
Lemma hit_slash c : hit true [47] c = (c =? 47). Proof. unfold hit. cbn [existsb]. destruct (c =? 47); reflexivity. Qed.
Lemma hit_comma c : hit true [44] c = (c =? 44). Proof. unfold hit. cbn [existsb]. destruct (c =? 44); reflexivity. Qed.

(** ** Numbers *)
Lemma digits_app d r : Forall (fun b => 48 <= b <= 57) d -> match r with [] => True | b :: _ => ~ (48 <= b <= 57) end ->
  digits (d ++ r) = map (fun b => b - 48) d.
Proof.
  intros H Hr. induction H as [|b d Hb _ IH]; cbn [app map digits].
  - destruct r as [|b r]; [reflexivity|]. cbn [digits]. replace ((48 <=? b) && (b <=? 57)) with false by lia. reflexivity.
  - replace ((48 <=? b) && (b <=? 57)) with true by lia. f_equal. exact IH.
Qed.
Lemma decimal_map d : forall v, fold_left (fun v x => v * 10 + x) (map (fun b => b - 48) d) v = fold_left (fun v b => v * 10 + (b - 48)) d v.
Proof. induction d as [|b d IH]; intros v; [reflexivity|]. cbn [map fold_left]. apply IH. Qed.
Lemma atoi_at s a d r n : text s (a ++ d ++ r) -> number_text d n -> n < 2147483648 -> match r with [] => True | b :: _ => ~ (48 <= b <= 57) end ->
  js_atoi s (zlen a) = Ok n.
Proof.
  intros T (N0 & ND & NV) Hn Hr. pose proof (plain_len _ _ (plain_text _ _ T)) as (LN & LT & U & BT). destruct T as [W S1 O E].
  pose proof (zlen_nonneg a). assert (1 <= zlen d) as Ld by (destruct d; [contradiction|rewrite zlen_cons; pose proof (zlen_nonneg d); lia]).
  pose proof (zlen_nonneg r). rewrite !zlen_app in *.
  assert (s_atoi (value_of s) (zlen a) = n) as ES.
  { unfold s_atoi. rewrite U, enc_value, E, s_len_value, oct_value, O, LN by exact W. cbn [Z.eqb Pos.eqb orb andb].
    replace ((0 <=? zlen a) && (zlen a <? zlen a + (zlen d + zlen r))) with true by lia.
    replace (zlen a + (zlen d + zlen r) - zlen a) with (zlen (d ++ r)) by (rewrite zlen_app; lia).
    rewrite zslice_app_r by (try lia; apply zlen_nonneg). rewrite Z.sub_diag, zslice_all by lia. rewrite digits_app by assumption.
    unfold decimal. rewrite decimal_map. exact NV. }
  rewrite js_atoi_ok; try assumption; try lia. rewrite ES. reflexivity.
Qed.
Lemma number_nonneg d n : number_text d n -> 0 <= n.
Proof.
  intros (_ & H & <-). assert (forall v, 0 <= v -> 0 <= fold_left (fun v b => v * 10 + (b - 48)) d v) as G.
  { induction H as [|b d Hb _ IH]; intros v Hv; cbn [fold_left]; [exact Hv|]. apply IH. lia. }
  apply G. lia.
Qed.
Lemma number_chars d n : number_text d n -> Forall (fun b => 48 <= b <= 57) d. Proof. intros (_ & H & _). exact H. Qed.
Lemma number_len d n : number_text d n -> 1 <= zlen d.
Proof. intros (H & _). destruct d as [|x d]; [contradiction|]. rewrite zlen_cons. pose proof (zlen_nonneg d). lia. Qed.

Lemma ip_step n s a d r v c ip : text s (a ++ d ++ 46 :: r) -> number_text d v -> v <= 255 ->
  ip_loop (S n) s c (zlen a) ip = ip_loop n s (c + 1) (zlen (a ++ d ++ [46])) (u32 (Z.lor ip (v * 2 ^ (24 - 8 * c)))).
Proof.
  intros T N Hv. cbn [ip_loop]. pose proof (zlen_nonneg a). pose proof (number_len _ _ N). pose proof (number_nonneg _ _ N). pose proof (plain_len _ _ (plain_text _ _ T)) as (_ & LT & _ & _).
  replace (zlen a =? -2) with false by lia.
  rewrite (atoi_at s a d (46 :: r) v T N) by lia. cbn [bind]. replace ((v <? 0) || (255 <? v)) with false by lia.
  rewrite !zlen_app, zlen_cons in LT. pose proof (zlen_nonneg r).
  rewrite (match_dot s _ _ (plain_text _ _ T)) by lia. cbn [bind].
  rewrite ff_at; [|lia| |rewrite hit_dot; reflexivity].
  2:{ apply (Forall_impl _ (P := fun b => 48 <= b <= 57)); [intros b Hb; rewrite hit_dot; lia|exact (number_chars _ _ N)]. }
  replace (zlen a + zlen d =? JS_ERROR) with false by (unfold JS_ERROR; lia).
  replace (zlen a + zlen d + 1) with (zlen (a ++ d ++ [46])) by (rewrite !zlen_app; change (zlen [46]) with 1; lia). reflexivity.
Qed.
Lemma ip_last s a d r v c ip : text s (a ++ d ++ r) -> number_text d v -> v <= 255 -> match r with [] => True | b :: _ => ~ (48 <= b <= 57) end ->
  ip_loop 1 s c (zlen a) ip = Ok (Some (u32 (Z.lor ip (v * 2 ^ (24 - 8 * c))))).
Proof.
  intros T N Hv Hr. cbn [ip_loop]. pose proof (zlen_nonneg a). pose proof (number_len _ _ N). pose proof (number_nonneg _ _ N). pose proof (plain_len _ _ (plain_text _ _ T)) as (_ & LT & _ & _).
  replace (zlen a =? -2) with false by lia.
  rewrite (atoi_at s a d r v T N) by (assumption || lia). cbn [bind]. replace ((v <? 0) || (255 <? v)) with false by lia.
  rewrite !zlen_app in LT. pose proof (zlen_nonneg r).
  rewrite (match_dot s _ _ (plain_text _ _ T)) by lia. cbn [bind].
  pose proof (ff_range true [46] (a ++ d ++ r) (zlen a + 1) ltac:(lia)) as R. replace (ff true [46] (a ++ d ++ r) (zlen a + 1) =? JS_ERROR) with false by (unfold JS_ERROR; lia). reflexivity.
Qed.
Lemma lor_hi x v k : 0 <= k -> 0 <= v < 2 ^ 8 -> Z.lor (x * 2 ^ (k + 8)) (v * 2 ^ k) = (x * 2 ^ 8 + v) * 2 ^ k.
Proof.
  intros Hk Hv. replace (x * 2 ^ (k + 8)) with ((x * 2 ^ 8) * 2 ^ k) by (rewrite Z.pow_add_r by lia; ring).
  rewrite <- !Z.shiftl_mul_pow2 by lia. rewrite <- Z.shiftl_lor. rewrite (Z.shiftl_mul_pow2 x) by lia. rewrite lor_add_pow2 by lia. reflexivity.
Qed.
Lemma quad_lor a b c d : 0 <= a <= 255 -> 0 <= b <= 255 -> 0 <= c <= 255 -> 0 <= d <= 255 ->
  u32 (Z.lor (u32 (Z.lor (u32 (Z.lor (u32 (Z.lor 0 (a * 2 ^ (24 - 8 * 0)))) (b * 2 ^ (24 - 8 * (0 + 1))))) (c * 2 ^ (24 - 8 * (0 + 1 + 1))))) (d * 2 ^ (24 - 8 * (0 + 1 + 1 + 1)))) =
  a * 2 ^ 24 + b * 2 ^ 16 + c * 2 ^ 8 + d.
Proof.
  intros Ha Hb Hc Hd. rewrite Z.lor_0_l. change (24 - 8 * 0) with 24. change (24 - 8 * (0 + 1)) with 16. change (24 - 8 * (0 + 1 + 1)) with 8. change (24 - 8 * (0 + 1 + 1 + 1)) with 0.
  pose proof (lor_hi a b 16 ltac:(lia) ltac:(lia)) as L1. change (16 + 8) with 24 in L1.
  pose proof (lor_hi (a * 2 ^ 8 + b) c 8 ltac:(lia) ltac:(lia)) as L2. change (8 + 8) with 16 in L2.
  pose proof (lor_hi ((a * 2 ^ 8 + b) * 2 ^ 8 + c) d 0 ltac:(lia) ltac:(lia)) as L3. change (0 + 8) with 8 in L3.
  rewrite (u32_small (a * _)) by (change (2 ^ 24) with 16777216; lia). rewrite L1.
  rewrite (u32_small (_ * 2 ^ 16)) by (change (2 ^ 8) with 256; change (2 ^ 16) with 65536; lia). rewrite L2.
  rewrite (u32_small (_ * 2 ^ 8)) by (change (2 ^ 8) with 256; lia). rewrite L3.
  rewrite u32_small by (change (2 ^ 8) with 256; change (2 ^ 0) with 1; lia).
  change (2 ^ 24) with 16777216. change (2 ^ 16) with 65536. change (2 ^ 8) with 256. change (2 ^ 0) with 1. ring.
Qed.

(** ** The four numbers *)
Lemma quad_ip s a q r ip : text s (a ++ q ++ r) -> quad_text q ip -> match r with [] => True | b :: _ => ~ (48 <= b <= 57) end ->
  ip_loop 4 s 0 (zlen a) 0 = Ok (Some ip).
Proof.
  intros T Q Hr. destruct Q as [w x y z nw nx ny nz Nw Nx Ny Nz Bw Bx By Bz].
  rewrite (ip_step 3 s a w (x ++ 46 :: y ++ 46 :: z ++ r) nw); try assumption.
  2:{ replace (a ++ w ++ 46 :: x ++ 46 :: y ++ 46 :: z ++ r) with (a ++ (w ++ 46 :: x ++ 46 :: y ++ 46 :: z) ++ r); [exact T|]. repeat (rewrite <- app_assoc; cbn [app]). reflexivity. }
  rewrite (ip_step 2 s (a ++ w ++ [46]) x (y ++ 46 :: z ++ r) nx); try assumption.
  2:{ replace ((a ++ w ++ [46]) ++ x ++ 46 :: y ++ 46 :: z ++ r) with (a ++ (w ++ 46 :: x ++ 46 :: y ++ 46 :: z) ++ r); [exact T|]. repeat (rewrite <- app_assoc; cbn [app]). reflexivity. }
  rewrite (ip_step 1 s ((a ++ w ++ [46]) ++ x ++ [46]) y (z ++ r) ny); try assumption.
  2:{ replace (((a ++ w ++ [46]) ++ x ++ [46]) ++ y ++ 46 :: z ++ r) with (a ++ (w ++ 46 :: x ++ 46 :: y ++ 46 :: z) ++ r); [exact T|]. repeat (rewrite <- app_assoc; cbn [app]). reflexivity. }
  rewrite (ip_last s (((a ++ w ++ [46]) ++ x ++ [46]) ++ y ++ [46]) z r nz); try assumption.
  2:{ replace ((((a ++ w ++ [46]) ++ x ++ [46]) ++ y ++ [46]) ++ z ++ r) with (a ++ (w ++ 46 :: x ++ 46 :: y ++ 46 :: z) ++ r); [exact T|]. repeat (rewrite <- app_assoc; cbn [app]). reflexivity. }
  rewrite quad_lor by (split; [eapply number_nonneg; eassumption|assumption]). reflexivity.
Qed.
Lemma mask_step n s a d r v c m : text s (a ++ d ++ 46 :: r) -> number_text d v -> v <= 255 -> c <> 3 ->
  mask_loop (S n) s c (zlen a) m = mask_loop n s (c + 1) (zlen (a ++ d ++ [46])) (u32 (Z.lor m (v * 2 ^ (24 - 8 * c)))).
Proof.
  intros T N Hv Hc. cbn [mask_loop]. pose proof (zlen_nonneg a). pose proof (number_len _ _ N). pose proof (number_nonneg _ _ N). pose proof (plain_len _ _ (plain_text _ _ T)) as (_ & LT & _ & _).
  replace (zlen a =? -2) with false by lia.
  rewrite (atoi_at s a d (46 :: r) v T N) by lia. cbn [bind]. replace ((v <? 0) || (255 <? v)) with false by lia.
  rewrite !zlen_app, zlen_cons in LT. pose proof (zlen_nonneg r). replace (c =? 3) with false by lia. cbn [negb].
  rewrite (match_dot s _ _ (plain_text _ _ T)) by lia. cbn [bind].
  rewrite ff_at; [|lia| |rewrite hit_dot; reflexivity].
  2:{ apply (Forall_impl _ (P := fun b => 48 <= b <= 57)); [intros b Hb; rewrite hit_dot; lia|exact (number_chars _ _ N)]. }
  replace (zlen a + zlen d =? JS_ERROR) with false by (unfold JS_ERROR; lia).
  replace (zlen a + zlen d + 1) with (zlen (a ++ d ++ [46])) by (rewrite !zlen_app; change (zlen [46]) with 1; lia). reflexivity.
Qed.
Lemma mask_last s a d v m : text s (a ++ d) -> number_text d v -> v <= 255 ->
  mask_loop 1 s 3 (zlen a) m = Ok (Some (u32 (Z.lor m (v * 2 ^ (24 - 8 * 3))), -2)).
Proof.
  intros T N Hv. cbn [mask_loop]. pose proof (zlen_nonneg a). pose proof (number_len _ _ N). pose proof (number_nonneg _ _ N). pose proof (plain_len _ _ (plain_text _ _ T)) as (_ & LT & _ & _).
  replace (zlen a =? -2) with false by lia.
  rewrite (atoi_at s a d [] v) by (rewrite ?app_nil_r; (assumption || lia || exact Logic.I)). cbn [bind]. replace ((v <? 0) || (255 <? v)) with false by lia.
  rewrite !zlen_app in LT. cbn [Z.eqb Pos.eqb negb].
  rewrite (notmatch_nums s _ _ (plain_text _ _ T)) by lia. cbn [bind].
  rewrite ff_none; [reflexivity|lia|]. apply (Forall_impl _ (P := fun b => 48 <= b <= 57)); [intros b Hb; apply hit_nums; lia|exact (number_chars _ _ N)].
Qed.
Lemma quad_mask s a q ip : text s (a ++ q) -> quad_text q ip -> mask_loop 4 s 0 (zlen a) 0 = Ok (Some (ip, -2)).
Proof.
  intros T Q. destruct Q as [w x y z nw nx ny nz Nw Nx Ny Nz Bw Bx By Bz].
  rewrite (mask_step 3 s a w (x ++ 46 :: y ++ 46 :: z) nw); try assumption; try lia.
  rewrite (mask_step 2 s (a ++ w ++ [46]) x (y ++ 46 :: z) nx); try assumption; try lia.
  2:{ replace ((a ++ w ++ [46]) ++ x ++ 46 :: y ++ 46 :: z) with (a ++ (w ++ 46 :: x ++ 46 :: y ++ 46 :: z)); [exact T|]. repeat (rewrite <- app_assoc; cbn [app]). reflexivity. }
  rewrite (mask_step 1 s ((a ++ w ++ [46]) ++ x ++ [46]) y z ny); try assumption; try lia.
  2:{ replace (((a ++ w ++ [46]) ++ x ++ [46]) ++ y ++ 46 :: z) with (a ++ (w ++ 46 :: x ++ 46 :: y ++ 46 :: z)); [exact T|]. repeat (rewrite <- app_assoc; cbn [app]). reflexivity. }
  change (0 + 1 + 1 + 1) with 3. rewrite (mask_last s (((a ++ w ++ [46]) ++ x ++ [46]) ++ y ++ [46]) z nz); try assumption.
  2:{ replace ((((a ++ w ++ [46]) ++ x ++ [46]) ++ y ++ [46]) ++ z) with (a ++ (w ++ 46 :: x ++ 46 :: y ++ 46 :: z)); [exact T|]. repeat (rewrite <- app_assoc; cbn [app]). reflexivity. }
  change 3 with (0 + 1 + 1 + 1) at 1. rewrite quad_lor by (split; [eapply number_nonneg; eassumption|assumption]). reflexivity.
Qed.
Lemma quad_chars q ip : quad_text q ip -> Forall (fun b => 48 <= b <= 57 \/ b = 46) q /\ (exists a r, q = a ++ 46 :: r /\ Forall (fun b => 48 <= b <= 57) a /\ a <> []) /\ 0 <= ip < 2 ^ 32.
Proof.
  intros [w x y z nw nx ny nz Nw Nx Ny Nz Bw Bx By Bz].
  pose proof (number_nonneg _ _ Nw). pose proof (number_nonneg _ _ Nx). pose proof (number_nonneg _ _ Ny). pose proof (number_nonneg _ _ Nz).
  assert (forall d n, number_text d n -> Forall (fun b => 48 <= b <= 57 \/ b = 46) d) as F.
  { intros d n N. apply (Forall_impl _ (P := fun b => 48 <= b <= 57)); [intros b Hb; left; exact Hb|exact (number_chars _ _ N)]. }
  split; [|split].
  - apply Forall_app. split; [eapply F; eassumption|]. constructor; [right; reflexivity|].
    apply Forall_app. split; [eapply F; eassumption|]. constructor; [right; reflexivity|].
    apply Forall_app. split; [eapply F; eassumption|]. constructor; [right; reflexivity|]. eapply F; eassumption.
  - exists w, (x ++ 46 :: y ++ 46 :: z). split; [reflexivity|]. split; [exact (number_chars _ _ Nw)|apply Nw].
  - change (2 ^ 24) with 16777216. change (2 ^ 16) with 65536. change (2 ^ 8) with 256. change (2 ^ 32) with 4294967296. lia.
Qed.
Lemma masks_ok n : 0 <= n <= 32 -> rd masks n = Ok (2 ^ 32 - 2 ^ (32 - n)).
Proof.
  intros H. apply rd_of_zget. assert (forallb (fun k => match zget masks (Z.of_nat k) with Some m => m =? 2 ^ 32 - 2 ^ (32 - Z.of_nat k) | None => false end) (seq 0 33) = true) as F by (vm_compute; reflexivity).
  rewrite forallb_forall in F. specialize (F (Z.to_nat n)). rewrite Z2Nat.id in F by lia. specialize (F ltac:(apply in_seq; lia)).
  destruct (zget masks n); [|discriminate]. f_equal. lia.
Qed.

(** ** An entry *)
Lemma ddip_ok s t ip mask : text s t -> entry_text t ip mask -> exists r, ddip_ip_mask s 0 = Ok (Some (ip, mask, r)).
Proof.
  intros T E. pose proof (plain_text _ _ T) as P. pose proof (plain_len _ _ P) as (LN & LT & U & BT).
  assert (exists q r, t = q ++ r /\ quad_text q ip /\ match r with [] => True | b :: _ => ~ (48 <= b <= 57) end /\ (r = [] \/ exists r', r = 47 :: r')) as (q & r & -> & Q & Hr & Hr').
  { destruct E as [t ip Q|t ip d n Q N Hn|t ip m mask Q M].
    - exists t, []. rewrite app_nil_r. split; [reflexivity|]. split; [exact Q|]. split; [exact Logic.I|left; reflexivity].
    - exists t, (47 :: d). split; [reflexivity|]. split; [exact Q|]. split; [lia|right; exists d; reflexivity].
    - exists t, (47 :: m). split; [reflexivity|]. split; [exact Q|]. split; [lia|right; exists m; reflexivity]. }
  destruct (quad_chars q ip Q) as (QC & (q1 & q2 & Eq & Q1 & Q1n) & QB).
  assert (1 <= zlen q) as Lq. { rewrite Eq, zlen_app, zlen_cons. pose proof (zlen_nonneg q1). pose proof (zlen_nonneg q2). lia. }
  pose proof (zlen_nonneg r). unfold ddip_ip_mask. destruct (tx_wf _ _ T) as [W1 W2 W3 W4 W5].
  rewrite sane_usable by apply T. rewrite U, (tx_size _ _ T). cbn [negb orb Z.eqb Pos.eqb].
  rewrite (notmatch_nums s _ 0 P) by lia. cbn [bind].
  assert (Forall (fun b => hit false nums b = false) q) as HN by (apply (Forall_impl _ (P := fun b => 48 <= b <= 57 \/ b = 46)); [intros b Hb; apply hit_nums; exact Hb|exact QC]).
  assert (Forall (fun b => hit true [47] b = false) q) as HS by (apply (Forall_impl _ (P := fun b => 48 <= b <= 57 \/ b = 46)); [intros b Hb; rewrite hit_slash; lia|exact QC]).
  assert (js_length s = zlen (q ++ r)) as JL. { unfold js_length. rewrite sane_usable by apply T. rewrite U, LN. apply i32_small. pose proof (zlen_nonneg (q ++ r)). lia. }
  pose proof (quad_ip s [] q r ip T Q Hr) as QI. change (zlen []) with 0 in QI.
  destruct Hr' as [->|(r' & ->)].
  - (* a host *)
    pose proof (ff_none false nums [] (q ++ []) 0) as F0. cbn [app] in F0. rewrite F0; [|cbn; lia|rewrite app_nil_r; exact HN].
    replace ((-2 =? JS_ERROR) || (-2 =? 0)) with false by reflexivity. rewrite JL, zlen_app. change (zlen (@nil Z)) with 0. replace (zlen q + 0 <? 0 + 1) with false by lia.
    rewrite QI. cbn [bind]. rewrite (match_slash s _ 0 P) by lia. cbn [bind].
    pose proof (ff_none true [47] [] (q ++ []) 0) as F1. cbn [app] in F1. rewrite F1; [|cbn; lia|rewrite app_nil_r; exact HS].
    cbn [Z.eqb Pos.eqb negb orb]. exists (-2). do 3 f_equal.
    rewrite app_nil_r in E. inversion E as [t0 ip0 QQ Et|t0 ip0 d n QQ N Hn Et|t0 ip0 m mk QQ M Et]; subst.
    + reflexivity.
    + exfalso. rewrite <- Et in QC. apply Forall_app in QC as (_ & QC). inversion QC as [|? ? Hb ?]; subst. lia.
    + exfalso. rewrite <- Et in QC. apply Forall_app in QC as (_ & QC). inversion QC as [|? ? Hb ?]; subst. lia.
  - assert (hit false nums 47 = true) as H47 by reflexivity.
    pose proof (ff_at false nums [] q 47 r' 0) as F0. cbn [app] in F0. change (zlen []) with 0 in F0. rewrite F0; [|lia|exact HN|exact H47].
    rewrite !Z.add_0_l. replace ((zlen q =? JS_ERROR) || (zlen q =? 0)) with false by (unfold JS_ERROR; lia). rewrite JL, zlen_app, zlen_cons. pose proof (zlen_nonneg r').
    replace (zlen q + (zlen r' + 1) <? 1) with false by lia. rewrite QI. cbn [bind]. rewrite (match_slash s _ 0 P) by lia. cbn [bind].
    pose proof (ff_at true [47] [] q 47 r' 0) as F1. cbn [app] in F1. change (zlen []) with 0 in F1. rewrite F1; [|lia|exact HS|rewrite hit_slash; reflexivity].
    rewrite Z.add_0_l. replace (negb (zlen q =? zlen q) || (zlen q =? -2)) with false by lia. cbv zeta.
    rewrite zlen_app, zlen_cons in LT. rewrite (match_dot s _ _ P) by lia. cbn [bind]. rewrite (notmatch_nums s _ _ P) by lia. cbn [bind].
    assert (forall x, q ++ 47 :: x = (q ++ [47]) ++ x) as RA by (intros x; rewrite <- app_assoc; reflexivity).
    assert (zlen (q ++ [47]) = zlen q + 1) as LQ by (rewrite zlen_app; reflexivity).
    rewrite (RA r'). rewrite (RA r') in T. 
    assert (exists rr, (number_text r' rr /\ rr <= 32 /\ mask = 2 ^ 32 - 2 ^ (32 - rr)) \/ (quad_text r' mask)) as (rr & CASE).
    { assert (forall t0 d, q ++ 47 :: r' = t0 ++ 47 :: d -> quad_text t0 ip -> q = t0 /\ r' = d) as UQ.
      { intros t0 d EE QQ. destruct (quad_chars _ _ QQ) as (QC' & _ & _). clear - EE QC QC'. revert t0 EE QC'. induction QC as [|b q Hb _ IH]; intros t0 EE QC'.
        - destruct t0 as [|b t0]; [injection EE as EE; split; [reflexivity|exact EE]|]. injection EE as <- _. inversion QC'; subst. lia.
        - destruct t0 as [|b' t0]; [injection EE as -> _; lia|]. cbn [app] in EE. injection EE as -> EE. inversion QC'; subst. destruct (IH t0 EE) as (-> & ->); [assumption|]. split; reflexivity. }
      inversion E as [t0 ip0 QQ Et|t0 ip0 d n QQ N Hn Et|t0 ip0 m mk QQ M Et]; subst.
      - exfalso. destruct (quad_chars _ _ QQ) as (QC' & _ & _). apply Forall_app in QC' as (_ & QC'). inversion QC' as [|? ? Hb ?]; subst. lia.
      - symmetry in Et. destruct (UQ _ _ Et QQ) as (_ & ->). exists n. left. split; [exact N|]. split; [exact Hn|reflexivity].
      - symmetry in Et. destruct (UQ _ _ Et QQ) as (_ & ->). exists 0. right. exact M. }
    destruct CASE as [(N & Hn & ->)|M].
    + pose proof (number_chars _ _ N) as NC. pose proof (number_nonneg _ _ N).
      rewrite (ff_none true [46]); [|lia|apply (Forall_impl _ (P := fun b => 48 <= b <= 57)); [intros b Hb; rewrite hit_dot; lia|exact NC]].
      rewrite (ff_none false nums); [|lia|apply (Forall_impl _ (P := fun b => 48 <= b <= 57)); [intros b Hb; apply hit_nums; lia|exact NC]].
      cbn [Z.eqb Pos.eqb JS_ERROR orb]. unfold JS_ERROR. cbn [Z.eqb Pos.eqb].
      rewrite <- LQ. rewrite (atoi_at s (q ++ [47]) r' [] rr) by (rewrite ?app_nil_r; (assumption || lia || exact Logic.I)). cbn [bind].
      replace ((rr <? 0) || (32 <? rr)) with false by lia. rewrite masks_ok by lia. cbn [bind]. eexists. reflexivity.
    + destruct (quad_chars _ _ M) as (MC & (m1 & m2 & Em & M1 & _) & _).
      assert (ff true [46] ((q ++ [47]) ++ r') (zlen q + 1) = zlen q + 1 + zlen m1) as ->.
      { rewrite Em, <- LQ. apply ff_at; [pose proof (zlen_nonneg m1); lia| |rewrite hit_dot; reflexivity].
        apply (Forall_impl _ (P := fun b => 48 <= b <= 57)); [intros b Hb; rewrite hit_dot; lia|exact M1]. }
      rewrite (ff_none false nums); [|lia|apply (Forall_impl _ (P := fun b => 48 <= b <= 57 \/ b = 46)); [intros b Hb; apply hit_nums; lia|exact MC]].
      pose proof (zlen_nonneg m1). replace (zlen q + 1 + zlen m1 =? JS_ERROR) with false by (unfold JS_ERROR; lia). unfold JS_ERROR. cbn [Z.eqb Pos.eqb].
      replace (zlen q + 1 + zlen m1 =? -2) with false by lia. cbn [negb]. rewrite andb_false_r. cbn [orb].
      rewrite <- LQ. rewrite (quad_mask s (q ++ [47]) r' mask T M). cbn [bind]. eexists. reflexivity.
Qed.
