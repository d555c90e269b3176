(** Zone files: host names. *)
From Verif Require Import CBase Bits ModelDwStr SpecDwStr ProofDwStr SpecNames SpecMessage SpecAcl SpecDeadwoodMsg SpecQuery ModelJsStr SpecJsStr ProofJsStr ProofJsSearch
  ModelQueries SpecQueries ProofQueries ProofDwDnsStr ProofQuestion ProofHname ProofSqueeze ModelDecomp SpecDecomp ProofJsList ProofDecompList ModelMaraHash SpecMaraHash ProofMaraHash
  ModelServe ProofServe ProofServeRun ProofServeSafe ModelIpAcl ModelCsv2 SpecCsv2 ProofCsv2.

(** ** Writing characters *)
Lemma octets_on cap l : forall s y, held cap s y -> bytes l -> zlen y + zlen l <= cap -> exists s', append_octets l s = Ok (1, s') /\ held cap s' (y ++ l).
Proof.
  induction l as [|b l IH]; intros s y H B L; cbn [append_octets]; [exists s; rewrite app_nil_r; split; [reflexivity|exact H]|]. apply Forall_cons_iff in B as (BB & B). rewrite zlen_cons in L. pose proof (zlen_nonneg l).
  destruct (held_mem cap s y H) as (r & E & LR & C & BQ & BR & CQ & S1 & M & SA & SM). rewrite M, C. replace (cap <? zlen y + 1) with false by lia.
  rewrite E. destruct r as [|r0 r]; [change (zlen (@nil Z)) with 0 in LR; lia|]. rewrite wr_here. cbn [bind]. rewrite zlen_cons in LR.
  assert (u8 b = b) as UB by (unfold byte in BB; unfold u8; apply Z.mod_small; lia). rewrite UB.
  assert (held cap (set_count (set_mem s (y ++ b :: r)) (zlen y + 1)) (y ++ [b])) as HN.
  { pose proof (held_new cap s y (y ++ b :: r) (zlen y + 1) H) as X. replace (zslice (y ++ b :: r) 0 (zlen y + 1)) with (y ++ [b]) in X.
    - apply X; [|rewrite E, !zlen_app, !zlen_cons; lia|pose proof (zlen_nonneg y); lia]. apply Forall_cons_iff in BR as (_ & BR). apply bytes_app. split; [exact BQ|constructor; assumption].
    - replace (y ++ b :: r) with ((y ++ [b]) ++ r) by (rewrite <- app_assoc; reflexivity). replace (zlen y + 1) with (zlen (y ++ [b])) by (rewrite zlen_app; reflexivity). rewrite zslice_app_l by (pose proof (zlen_nonneg (y ++ [b])); lia). rewrite zslice_all. reflexivity. }
  destruct (IH _ _ HN B ltac:(rewrite zlen_app; change (zlen [b]) with 1; lia)) as (s' & E' & H'). exists s'. split; [exact E'|]. rewrite <- app_assoc in H'. exact H'.
Qed.
Lemma octets_full cap l : forall s y, held cap s y -> bytes l -> cap < zlen y + zlen l -> exists s' z, append_octets l s = Ok (-1, s') /\ held cap s' z.
Proof.
  induction l as [|b l IH]; intros s y H B L; [destruct (held_mem cap s y H) as (r & E & LR & C & BQ & BR & CQ & _); change (zlen (@nil Z)) with 0 in L; lia|]. cbn [append_octets]. 
  destruct (held_mem cap s y H) as (r & E & LR & C & BQ & BR & CQ & S1 & M & SA & SM). rewrite M, C. destruct (Z.ltb_spec cap (zlen y + 1)); [exists s, y; split; [reflexivity|exact H]|]. apply Forall_cons_iff in B as (BB & B).
  destruct (octets_on cap [b] s y H ltac:(constructor; [exact BB|constructor]) ltac:(change (zlen [b]) with 1; lia)) as (s1 & E1 & H1). cbn [append_octets] in E1. rewrite M, C in E1. replace (cap <? zlen y + 1) with false in E1 by lia.
  destruct (wr (j_mem s) (zlen y) (u8 b)) as [m| |]; try discriminate. cbn [bind] in *. injection E1 as <-. apply (IH _ _ H1 B). rewrite zlen_app. change (zlen [b]) with 1. rewrite zlen_cons in L. lia.
Qed.
Lemma lor_mark a k p : 0 <= p -> 0 <= a < 2 ^ p -> Z.lor a (Z.shiftl k p) = Z.shiftl k p + a.
Proof. intros P A. rewrite Z.lor_comm. rewrite lor_shiftl_add by lia. rewrite Z.shiftl_mul_pow2 by lia. reflexivity. Qed.
Lemma groups_pos n v : 0 < v -> groups (S n) v = groups n (v / 64) ++ [v mod 64].
Proof. intros V. cbn [groups]. replace (0 <? v) with true by lia. rewrite land_63, Z.shiftr_div_pow2 by lia. reflexivity. Qed.
Lemma groups_0 n : groups n 0 = []. Proof. destruct n; reflexivity. Qed.
Definition six (c : Z) : list Z := groups 6 c.
Lemma lor_128 b : 0 <= b < 64 -> Z.lor b 128 = 128 + b. Proof. intros H. exact (lor_mark b 1 7 ltac:(lia) ltac:(lia)). Qed.
Lemma mark_192 a : 0 <= a < 64 -> Z.lor a 192 = 192 + a. Proof. intros H. exact (lor_mark a 3 6 ltac:(lia) ltac:(lia)). Qed.
Lemma mark_224 a : 0 <= a < 32 -> Z.lor a 224 = 224 + a. Proof. intros H. exact (lor_mark a 7 5 ltac:(lia) ltac:(lia)). Qed.
Lemma mark_240 a : 0 <= a < 16 -> Z.lor a 240 = 240 + a. Proof. intros H. exact (lor_mark a 15 4 ltac:(lia) ltac:(lia)). Qed.
Lemma mark_248 a : 0 <= a < 8 -> Z.lor a 248 = 248 + a. Proof. intros H. exact (lor_mark a 31 3 ltac:(lia) ltac:(lia)). Qed.
Lemma mark_252 a : 0 <= a < 4 -> Z.lor a 252 = 252 + a. Proof. intros H. exact (lor_mark a 63 2 ltac:(lia) ltac:(lia)). Qed.
Ltac same_octets := apply f_equal; repeat (apply (f_equal2 (@cons Z)); [lia|]); reflexivity.
(** What is written of a character *)
Lemma marked_kept c : wide c -> kept c -> marked (groups 6 c) = Some (utf8 c).
Proof.
  intros W K. unfold wide, kept in *. unfold utf8.
  destruct (Z.ltb_spec c 2048).
  { replace (c <? 128) with false by lia. rewrite !groups_pos by lia. replace (c / 64 / 64) with 0 by lia. rewrite groups_0. cbn [app marked]. change (zlen [c / 64 mod 64; c mod 64]) with 2. cbn [Z.eqb Pos.eqb Z.ltb Z.compare Pos.compare Pos.compare_cont map].
    rewrite lor_128 by lia. rewrite (mark_192 (c / 64 mod 64)) by lia. same_octets. }
  destruct (Z.ltb_spec c 65536).
  { replace (c <? 128) with false by lia. rewrite !groups_pos by lia. replace (c / 64 / 64 / 64) with 0 by lia. rewrite groups_0. cbn [app marked]. change (zlen [c / 64 / 64 mod 64; c / 64 mod 64; c mod 64]) with 3. cbn [Z.eqb Pos.eqb Z.ltb Z.compare Pos.compare Pos.compare_cont map].
    rewrite !lor_128 by lia. rewrite (mark_224 (c / 64 / 64 mod 64)) by lia. same_octets. }
  destruct (Z.ltb_spec c 2097152).
  { replace (c <? 128) with false by lia. rewrite !groups_pos by lia. replace (c / 64 / 64 / 64 / 64) with 0 by lia. rewrite groups_0. cbn [app marked]. change (zlen [c / 64 / 64 / 64 mod 64; c / 64 / 64 mod 64; c / 64 mod 64; c mod 64]) with 4. cbn [Z.eqb Pos.eqb Z.ltb Z.compare Pos.compare Pos.compare_cont map].
    rewrite !lor_128 by lia. rewrite (mark_240 (c / 64 / 64 / 64 mod 64)) by lia. same_octets. }
  destruct (Z.ltb_spec c 67108864).
  { replace (c <? 128) with false by lia. rewrite !groups_pos by lia. replace (c / 64 / 64 / 64 / 64 / 64) with 0 by lia. rewrite groups_0. cbn [app marked]. change (zlen [c / 64 / 64 / 64 / 64 mod 64; c / 64 / 64 / 64 mod 64; c / 64 / 64 mod 64; c / 64 mod 64; c mod 64]) with 5. cbn [Z.eqb Pos.eqb Z.ltb Z.compare Pos.compare Pos.compare_cont map].
    rewrite !lor_128 by lia. rewrite (mark_248 (c / 64 / 64 / 64 / 64 mod 64)) by lia. same_octets. }
  { replace (c <? 128) with false by lia. rewrite !groups_pos by lia. cbn [groups app marked]. change (zlen [c / 64 / 64 / 64 / 64 / 64 mod 64; c / 64 / 64 / 64 / 64 mod 64; c / 64 / 64 / 64 mod 64; c / 64 / 64 mod 64; c / 64 mod 64; c mod 64]) with 6. cbn [Z.eqb Pos.eqb Z.ltb Z.compare Pos.compare Pos.compare_cont map].
    rewrite !lor_128 by lia. rewrite (mark_252 (c / 64 / 64 / 64 / 64 / 64 mod 64)) by lia. same_octets. }
Qed.
Lemma marked_lost c : wide c -> ~ kept c -> exists a l, marked (groups 6 c) = Some (a :: l) /\ zlen (a :: l) < zlen (utf8 c).
Proof.
  intros W K. unfold wide, kept in *. unfold utf8.
  assert (forall g, 2 <= zlen g -> exists a l, marked g = Some (a :: l) /\ zlen (a :: l) = zlen g) as X.
  { intros [|a t] L; [change (zlen (@nil Z)) with 0 in L; lia|]. cbn [marked]. replace (zlen (a :: t) <? 2) with false by lia. eexists _, _. split; [reflexivity|]. rewrite !zlen_cons, ProofServe.zlen_map. reflexivity. }
  destruct (X (groups 6 c)) as (a & l & EM & EL).
  { rewrite !(groups_pos 5), (groups_pos 4) by lia. rewrite !zlen_app. change (zlen [c mod 64]) with 1. change (zlen [c / 64 mod 64]) with 1. pose proof (zlen_nonneg (groups 4 (c / 64 / 64))). lia. }
  exists a, l. split; [exact EM|]. rewrite EL. clear X EM EL a l.
  destruct (Z.ltb_spec c 4096); [|destruct (Z.ltb_spec c 262144); [|destruct (Z.ltb_spec c 16777216)]].
  - rewrite !groups_pos by lia. replace (c / 64 / 64) with 0 by lia. rewrite groups_0. replace (c <? 128) with false by lia. replace (c <? 2048) with false by lia. replace (c <? 65536) with true by lia. reflexivity.
  - rewrite !groups_pos by lia. replace (c / 64 / 64 / 64) with 0 by lia. rewrite groups_0. replace (c <? 128) with false by lia. replace (c <? 2048) with false by lia. replace (c <? 65536) with false by lia. replace (c <? 2097152) with true by lia. reflexivity.
  - rewrite !groups_pos by lia. replace (c / 64 / 64 / 64 / 64) with 0 by lia. rewrite groups_0. replace (c <? 128) with false by lia. replace (c <? 2048) with false by lia. replace (c <? 65536) with false by lia. replace (c <? 2097152) with false by lia. replace (c <? 67108864) with true by lia. reflexivity.
  - rewrite !groups_pos by lia. replace (c / 64 / 64 / 64 / 64 / 64) with 0 by lia. rewrite groups_0. replace (c <? 128) with false by lia. replace (c <? 2048) with false by lia. replace (c <? 65536) with false by lia. replace (c <? 2097152) with false by lia. replace (c <? 67108864) with false by lia. reflexivity.
Qed.
Lemma utf8_bytes c : 0 <= c < 2147483648 -> bytes (utf8 c).
Proof.
  intros H. unfold utf8.
  destruct (Z.ltb_spec c 128); [|destruct (Z.ltb_spec c 2048); [|destruct (Z.ltb_spec c 65536); [|destruct (Z.ltb_spec c 2097152); [|destruct (Z.ltb_spec c 67108864)]]]]; repeat (apply Forall_cons; [unfold byte; lia|]); constructor.
Qed.
Definition ok_char (c : Z) : Prop := 0 <= c < 128 \/ (wide c /\ kept c).
Lemma ok_range c : ok_char c -> 0 <= c < 2147483648. Proof. unfold ok_char, wide. lia. Qed.
Lemma char_on s y c : held 256 s y -> ok_char c -> zlen y + zlen (utf8 c) <= 256 -> exists s', csv2_append_utf8 s c = Ok (1, s') /\ held 256 s' (y ++ utf8 c).
Proof.
  intros H K L. pose proof (ok_range c K) as RG. pose proof (utf8_bytes c RG) as B. unfold csv2_append_utf8. destruct (held_mem 256 s y H) as (r & E & LR & C & BQ & BR & CQ & S1 & M & SA & SM). unfold octet_string. rewrite SA, S1. cbn [Z.eqb Pos.eqb andb negb].
  replace (c <? 0) with false by lia. destruct (Z.ltb_spec c 128).
  - assert (utf8 c = [c]) as U by (unfold utf8; replace (c <? 128) with true by lia; reflexivity). rewrite U in *. apply (octets_on 256 [c] s y H); assumption.
  - destruct K as [K|(W & K)]; [lia|]. rewrite (marked_kept c W K). apply (octets_on 256 _ s y H B L).
Qed.

(** ** Reading names *)
Definition goes (f g : csv2) (rest : list Z) : Prop := reading g rest /\ f_tilde g = f_tilde f /\ f_brace g = f_brace f /\ f_seen g = f_seen f /\ f_hand g = f_hand f.
Lemma goes_trans f g h r r' : goes f g r -> goes g h r' -> goes f h r'.
Proof. intros (_ & A & B & C & D) (R & A' & B' & C' & D'). split; [exact R|]. rewrite A', B', C', D'. auto. Qed.
Lemma name_ok c : name_char c -> ok_char c /\ c <> 123 /\ c <> 126 /\ c <> 46 /\ c <> 42 /\ csv2_is_dname c = true.
Proof.
  intros H. assert (ok_char c /\ c <> 123 /\ c <> 126 /\ c <> 46 /\ c <> 42) as X by (unfold name_char, ok_char, wide in *; intuition lia). destruct X as (A & B & C & D & E). do 5 (split; [assumption|]).
  unfold csv2_is_dname, csv2_is_alphanum, csv2_is_alpha, csv2_is_number. unfold name_char, wide in H. lia.
Qed.
Lemma utf8_small c : c < 128 -> utf8 c = [c]. Proof. intros H. unfold utf8. replace (c <? 128) with true by lia. reflexivity. Qed.
Lemma read_char f c rest : ok_char c -> c <> 123 -> c <> 126 -> reading f (utf8 c ++ rest) ->
  exists g, csv2_read_unicode f = (c, g) /\ goes f g rest /\ f_just g = last (utf8 c) 0 /\ (wide c -> f_uni g = c).
Proof.
  intros K N1 N2 R. destruct (Z_lt_dec c 128) as [L|L].
  - destruct K as [K|(K & _)]; [|unfold wide in K; lia]. rewrite utf8_small in * by lia. exists (step f rest c). split; [apply read_ascii; [exact R|lia|lia|lia]|]. split; [split; [apply step_reading|cbn; auto]|]. split; [reflexivity|]. unfold wide. lia.
  - destruct K as [K|(K & _)]; [lia|]. exists (step_u f rest (last (utf8 c) 0) c). split; [apply read_utf8; assumption|]. split; [split; [split; reflexivity|cbn; auto]|]. split; reflexivity.
Qed.
Lemma dname_nondot n x sw o f l rest y : Forall name_char l -> reading f (written l ++ 46 :: rest) -> held 256 o y -> zlen y + zlen (written l) + 1 <= 256 ->
  exists o' g x', dname_loop (length l + S n) x sw NON_DOT o f = dname_loop n x' sw DOT o' g /\ held 256 o' (y ++ written l ++ [46]) /\ goes f g rest /\ (0 <= x -> 0 < x').
Proof.
  revert x o f y. induction l as [|c l IH]; intros x o f y F R H L.
  - cbn [length Nat.add dname_loop written flat_map app] in *. rewrite (read_ascii f 46 rest R) by lia. change (46 =? FATAL) with false. change (46 =? 46) with true. change (NON_DOT =? NON_DOT) with true. cbv zeta. cbn [andb]. change (zlen (@nil Z)) with 0 in L.
    destruct (char_on o y 46 H ltac:(left; lia) ltac:(rewrite utf8_small by lia; change (zlen [46]) with 1; lia)) as (o' & -> & H'). cbn [bind fst snd]. change (1 <? 0) with false. cbv iota. exists o', (step f rest 46), (x + 1). split; [reflexivity|]. split; [rewrite utf8_small in H' by lia; exact H'|]. split; [split; [apply step_reading|cbn; auto]|lia].
  - apply Forall_cons_iff in F as (FC & F). cbn [written flat_map] in *. fold (written l) in *. rewrite <- app_assoc in R. destruct (name_ok c FC) as (K & N1 & N2 & N3 & N4 & D).
    destruct (read_char f c _ K N1 N2 R) as (g & E & G & _). cbn [length Nat.add dname_loop]. rewrite E. pose proof (ok_range c K). replace (c =? FATAL) with false by (unfold FATAL; lia). replace (c =? 46) with false by lia. change (NON_DOT =? NON_DOT) with true. rewrite D. cbv zeta. cbn [andb].
    rewrite zlen_app in L. pose proof (zlen_nonneg (written l)). destruct (char_on o y c H K ltac:(lia)) as (o1 & -> & HO1). cbn [bind fst snd]. change (1 <? 0) with false. cbv iota.
    destruct (IH (x + 1) o1 g (y ++ utf8 c) F (proj1 G) HO1 ltac:(rewrite zlen_app; lia)) as (o' & g' & x' & -> & H' & G' & X). exists o', g', x'. split; [reflexivity|]. split; [rewrite <- !app_assoc in *; exact H'|]. split; [exact (goes_trans _ _ _ _ _ G G')|lia].
Qed.
Lemma dname_label n x sw o f l rest y : label_chars l -> reading f (written l ++ 46 :: rest) -> held 256 o y -> zlen y + zlen (written l) + 1 <= 256 ->
  exists o' g x', dname_loop (length l + S n) x sw DOT o f = dname_loop n x' sw DOT o' g /\ held 256 o' (y ++ written l ++ [46]) /\ goes f g rest /\ (0 <= x -> 0 < x').
Proof.
  intros (NE & F) R H L. destruct l as [|c l]; [congruence|]. apply Forall_cons_iff in F as (FC & F). cbn [written flat_map] in *. fold (written l) in *. rewrite <- app_assoc in R. destruct (name_ok c FC) as (K & N1 & N2 & N3 & N4 & D).
  destruct (read_char f c _ K N1 N2 R) as (g & E & G & _). cbn [length Nat.add dname_loop]. rewrite E. pose proof (ok_range c K). replace (c =? FATAL) with false by (unfold FATAL; lia). change (DOT =? NON_DOT) with false. change (DOT =? DOT) with true. rewrite andb_false_r. rewrite D. cbv zeta. cbn [andb].
  assert (c <> 35 /\ c <> 37) as (N5 & N6) by (unfold name_char, wide in FC; lia). replace (c =? 35) with false by lia. replace (c =? 37) with false by lia. cbn [andb].
  rewrite zlen_app in L. pose proof (zlen_nonneg (written l)). destruct (char_on o y c H K ltac:(lia)) as (o1 & -> & HO1). cbn [bind fst snd]. change (1 <? 0) with false. cbv iota.
  destruct (dname_nondot n (x + 1) sw o1 g l rest (y ++ utf8 c) F (proj1 G) HO1 ltac:(rewrite zlen_app; lia)) as (o' & g' & x' & -> & H' & G' & X). exists o', g', x'. split; [reflexivity|]. split; [rewrite <- !app_assoc in *; exact H'|]. split; [exact (goes_trans _ _ _ _ _ G G')|lia].
Qed.
Definition label_steps (ns : list (list Z)) : nat := list_sum (map (fun l => S (length l)) ns).
Lemma dname_labels sw ns : forall n x o f rest y, name_chars ns -> reading f (dotted ns ++ rest) -> held 256 o y -> zlen y + zlen (dotted ns) <= 256 ->
  exists o' g x', dname_loop (label_steps ns + n) x sw DOT o f = dname_loop n x' sw DOT o' g /\ held 256 o' (y ++ dotted ns) /\ goes f g rest /\ (0 <= x -> 0 <= x').
Proof.
  induction ns as [|l ns IH]; intros n x o f rest y F R H L.
  - exists o, f, x. cbn [label_steps map list_sum fold_right Nat.add dotted concat app] in *. rewrite app_nil_r. split; [reflexivity|]. split; [exact H|]. split; [split; [exact R|auto]|auto].
  - apply Forall_cons_iff in F as (FL & F). unfold dotted in R, L |- *. cbn [map concat] in R, L |- *. fold (dotted ns) in *. rewrite !zlen_app in L. change (zlen [46]) with 1 in L. pose proof (zlen_nonneg (dotted ns)). rewrite <- !app_assoc in R. cbn [app] in R.
    replace (label_steps (l :: ns) + n)%nat with (length l + S (label_steps ns + n))%nat by (unfold label_steps; cbn [map list_sum fold_right]; fold (list_sum (map (fun l => S (length l)) ns)); lia).
    destruct (dname_label (label_steps ns + n) x sw o f l _ y FL R H ltac:(lia)) as (o1 & g1 & x1 & -> & HO1 & G1 & X1).
    destruct (IH n x1 o1 g1 rest _ F (proj1 G1) HO1 ltac:(rewrite !zlen_app; change (zlen [46]) with 1; lia)) as (o' & g & x' & -> & H' & G & X). exists o', g, x'. split; [reflexivity|]. split; [rewrite <- !app_assoc in *; exact H'|]. split; [exact (goes_trans _ _ _ _ _ G1 G)|lia].
Qed.
Lemma utf8_pos c : 1 <= zlen (utf8 c). Proof. unfold utf8. repeat match goal with |- context [if ?b then _ else _] => destruct b end; vm_compute; discriminate. Qed.
Lemma written_long l : Z.of_nat (length l) <= zlen (written l).
Proof. induction l as [|c l IH]; [reflexivity|]. cbn [written flat_map]. fold (written l). rewrite zlen_app. pose proof (utf8_pos c). cbn [length]. lia. Qed.
Lemma steps_short ns : Z.of_nat (label_steps ns) <= zlen (dotted ns).
Proof.
  induction ns as [|l ns IH]; [reflexivity|]. unfold dotted, label_steps in *. cbn [map concat list_sum fold_right]. fold (list_sum (map (fun l => S (length l)) ns)). rewrite !zlen_app. change (zlen [46]) with 1. pose proof (written_long l). lia.
Qed.
(** After the last dot: a delimiter, or a percent sign and a delimiter *)
Definition tail_of (e : ending_) : list Z := match e with Absolute => [] | Percent => [37] end.
Lemma delim_facts d : delimiter d -> csv2_is_delimiter d = true /\ 0 <= d < 128 /\ d <> 123 /\ d <> 126 /\ d <> 46 /\ d <> 35 /\ d <> 37 /\ d <> 42 /\ csv2_is_dname d = false.
Proof. intros H. unfold delimiter in H. assert (0 <= d < 128) by lia. repeat match goal with |- _ /\ _ => split end; try lia; destruct H as [-> |[-> |[-> |[-> | ->]]]]; reflexivity. Qed.
Lemma dname_end n x sw o f e d rest y : sw <> 4 -> sw <> 5 -> delimiter d -> reading f (tail_of e ++ d :: rest) -> held 256 o y -> zlen y + zlen (tail_of e) <= 256 ->
  exists o', dname_loop (S n) x sw DOT o f = Ok (Some o', step f rest d) /\ held 256 o' (y ++ tail_of e).
Proof.
  intros S4 S5 D R H L. destruct (delim_facts d D) as (D1 & D2 & D3 & D4 & D5 & D6 & D7 & D8 & D9). cbn [dname_loop]. destruct e; cbn [tail_of app] in *.
  - rewrite (read_ascii f d rest R D2 D3 D4). replace (d =? FATAL) with false by (unfold FATAL; lia). change (DOT =? NON_DOT) with false. rewrite andb_false_r. cbn [andb]. change (DOT =? DOT) with true.
    replace (d =? 35) with false by lia. replace (d =? 37) with false by lia. replace (d =? 42) with false by lia. rewrite D9, D1, !andb_false_r. cbn [andb]. exists o. rewrite app_nil_r. split; [reflexivity|exact H].
  - rewrite (read_ascii f 37 (d :: rest) R) by lia. change (37 =? FATAL) with false. change (37 =? 46) with false. change (37 =? 35) with false. change (37 =? 37) with true. change (DOT =? NON_DOT) with false. change (DOT =? DOT) with true. replace (sw =? 4) with false by lia. replace (sw =? 5) with false by lia. cbn [andb negb].
    destruct (char_on o y 37 H ltac:(left; lia) ltac:(rewrite utf8_small by lia; exact L)) as (o' & -> & H'). cbn [bind fst snd]. change (1 <? 0) with false. cbv iota.
    rewrite (read_ascii _ d rest (step_reading f (d :: rest) 37) D2 D3 D4). replace (d =? FATAL) with false by (unfold FATAL; lia). exists o'. rewrite utf8_small in H' by lia. split; [reflexivity|exact H'].
Qed.

(** ** The first character *)
Lemma new_held J pre : junk_ok J -> bytes pre -> zlen pre <= 256 -> exists s o o', js_create J 256 1 = Some s /\ js_set_encode s JS_US_ASCII = (0, o) /\ js_qstr2js o pre = Ok (1, o') /\ held 256 o' pre.
Proof.
  intros HJ B L. destruct (js_create_ok J 256 1 HJ ltac:(lia) ltac:(lia) ltac:(lia)) as (s & E & W & V & _). exists s. pose proof (value_held _ _ _ _ W V) as HS. destruct (held_mem 256 s [] HS) as (r & EM & LR & C & BQ & BR & CQ & S1 & M & SA & SM).
  unfold js_set_encode. rewrite SA. cbn [negb]. change ((JS_US_ASCII <? 1) || (3 <? JS_US_ASCII)) with false. cbv iota.
  set (o := mkjs (j_mem s) (j_size s) (j_count s) (j_max s) JS_US_ASCII).
  assert (held 256 o []) as HO.
  { split; [|exact M]. split; [|split; [exact S1|]].
    - destruct W. constructor; assumption.
    - destruct HS as ((_ & _ & O) & _). exact O. }
  pose proof (hold_facts o [] (proj1 HO)) as [Wo So Lo Co Mo No Bo Xo Uo Oo _ _]. destruct (js_qstr2js_ok o pre Wo So B ltac:(lia)) as (o' & EQ & WQ & VQ). exists o, o'. split; [exact E|]. split; [reflexivity|].
  revert EQ VQ. destruct HO as (_ & MO). rewrite MO, Uo. replace (zlen pre <=? 256) with true by lia. cbn [andb fst snd]. intros EQ VQ. split; [exact EQ|]. unfold with_oct in VQ. rewrite unit_value, cap_value, So, MO in VQ. apply (value_held _ _ _ _ WQ VQ).
Qed.
Lemma last_wide c : wide c -> 128 <= last (utf8 c) 0 < 192.
Proof. intros W. unfold wide, utf8 in *. replace (c <? 128) with false by lia. repeat match goal with |- context [if ?b then _ else _] => destruct b end; cbn [last]; lia. Qed.
(** A file where a character was just read *)
Definition at_char (g : csv2) (c : Z) : Prop := f_ok g = true /\ f_just g = last (utf8 c) 0 /\ (wide c -> f_uni g = c).
Lemma first_on J g c is_ok pre : junk_ok J -> at_char g c -> ok_char c -> is_ok c = true -> bytes pre -> zlen pre <= 250 ->
  exists o, process_1stchar J g is_ok pre = Ok (Some o, g) /\ held 256 o (pre ++ utf8 c).
Proof.
  intros HJ (O & JU & U) K I B L. unfold process_1stchar, csv2_justread, csv2_get_unicode. rewrite O, JU. pose proof (ok_range c K) as RG.
  assert ((if (192 <=? last (utf8 c) 0) && (last (utf8 c) 0 <? 254) then csv2_get_utf8 g else if 128 <=? last (utf8 c) 0 then (f_uni g, g) else (last (utf8 c) 0, g)) = (c, g)) as ->.
  { destruct (Z_lt_dec c 128) as [LC|LC].
    - rewrite utf8_small by lia. cbn [last]. replace ((192 <=? c) && (c <? 254)) with false by lia. replace (128 <=? c) with false by lia. reflexivity.
    - assert (wide c) as W by (unfold wide; lia). pose proof (last_wide c W). replace ((192 <=? last (utf8 c) 0) && (last (utf8 c) 0 <? 254)) with false by lia. replace (128 <=? last (utf8 c) 0) with true by lia. rewrite (U W). reflexivity. }
  replace (c =? FATAL) with false by (unfold FATAL; lia). rewrite I. cbn [negb]. destruct (new_held J pre HJ B ltac:(lia)) as (s & o & o' & -> & -> & E & H). change (0 =? JS_ERROR) with false. cbv iota. rewrite E. cbn [bind]. change (negb (1 =? JS_SUCCESS)) with false. cbv iota.
  destruct (char_on o' pre c H K) as (o2 & -> & H2).
  { assert (zlen (utf8 c) <= 6); [|lia]. unfold utf8. repeat match goal with |- context [if ?b then _ else _] => destruct b end; vm_compute; discriminate. }
  cbn [bind]. change (1 <? 0) with false. cbv iota. exists o2. split; [reflexivity|exact H2].
Qed.
Lemma read_at f c rest : ok_char c -> c <> 123 -> c <> 126 -> reading f (utf8 c ++ rest) -> exists g, csv2_read_unicode f = (c, g) /\ goes f g rest /\ at_char g c.
Proof. intros K N1 N2 R. destruct (read_char f c rest K N1 N2 R) as (g & E & G & JU & U). exists g. split; [exact E|]. split; [exact G|]. split; [exact (proj1 (proj1 G))|]. split; assumption. Qed.

(** ** Names as they are taken from the file *)
Lemma fuel_split k : Z.of_nat k <= 300 -> exists n, Z.to_nat 10000 = (k + S n)%nat.
Proof. intros H. exists (Z.to_nat (10000 - Z.of_nat k - 1)). lia. Qed.
(** The texts: [body], then perhaps a percent sign *)
Definition taken (J : Z -> Z) (f : csv2) (sw : Z) (body : list Z) (e : ending_) (d : Z) (rest : list Z) : Prop :=
  exists o g, process_dname J (snd (csv2_read_unicode f)) sw = Ok (Some o, g) /\ held 256 o (90 :: body ++ tail_of e) /\ after_reading f g rest d.
Lemma step_after f g rest d r : goes f g r -> after_reading f (step g rest d) rest d.
Proof. intros (_ & A & B & C & D). split; [apply step_reading|]. split; [reflexivity|]. cbn. auto. Qed.
Lemma count_held s l : held 256 s l -> j_count s = zlen l. Proof. intros H. destruct (held_mem 256 s l H) as (r & E & LR & C & _). exact C. Qed.
Lemma rd1_held s a b l : held 256 s (a :: b :: l) -> rd (j_mem s) 1 = Ok b.
Proof. intros H. destruct (held_mem 256 s _ H) as (r & E & _). rewrite E. reflexivity. Qed.
Lemma taken_one J f sw c d rest e : junk_ok J -> sw <> 4 -> sw <> 5 -> delimiter d -> c = 46 \/ c = 37 -> reading f (c :: d :: rest) ->
  [c] = (match e with Absolute => [46] | Percent => [] end) ++ tail_of e -> taken J f sw (match e with Absolute => [46] | Percent => [] end) e d rest.
Proof.
  intros HJ S4 S5 D C R EC. destruct (delim_facts d D) as (D1 & D2 & D3 & D4 & _). unfold taken. rewrite <- EC.
  destruct (read_at f c (d :: rest) ltac:(left; lia) ltac:(lia) ltac:(lia)) as (g & E & G & A); [rewrite utf8_small by lia; exact R|]. rewrite E. cbn [snd]. unfold process_dname.
  destruct (first_on J g c csv2_is_starwhitis_ordot [90] HJ A) as (o & -> & H); [left; lia|destruct C as [-> | ->]; reflexivity|constructor; [unfold byte; lia|constructor]|vm_compute; discriminate|]. cbn [bind].
  rewrite utf8_small in H by lia. cbn [app] in H. unfold js_append_dname, csv2_justread. destruct A as (O & JU & _). rewrite O, JU, utf8_small by lia. cbn [last].
  replace (((c =? 37) && negb ((sw =? 4) || (sw =? 5))) || (c =? 46)) with true by lia. rewrite (read_ascii g d rest (proj1 G) D2 D3 D4). replace (d =? FATAL) with false by (unfold FATAL; lia). cbn [bind].
  rewrite (count_held o _ H). change (zlen [90; c]) with 2. change (1 <? 2) with true. rewrite (rd1_held o _ _ _ H). cbn [bind]. change (2 =? 2) with true. cbn [negb]. rewrite andb_false_r. do 2 eexists. split; [reflexivity|]. split; [exact H|]. apply (step_after f g _ _ _ G).
Qed.
Lemma utf8_head c : ok_char c -> c <> 46 -> exists b t, utf8 c = b :: t /\ b <> 46.
Proof.
  intros K N. destruct (Z_lt_dec c 128); [rewrite utf8_small by lia; exists c, []; split; [reflexivity|exact N]|]. destruct K as [K|(K & _)]; [lia|]. unfold wide in K. unfold utf8. replace (c <? 128) with false by lia.
  destruct (Z.ltb_spec c 2048); [|destruct (Z.ltb_spec c 65536); [|destruct (Z.ltb_spec c 2097152); [|destruct (Z.ltb_spec c 67108864)]]]; do 2 eexists; (split; [reflexivity|lia]).
Qed.
Lemma taken_rest J f g sw o c k state0 body e d rest n x : sw <> 4 -> sw <> 5 -> delimiter d -> True -> at_char g c -> ok_char c -> c <> 46 ->
  process_1stchar J g csv2_is_starwhitis_ordot [90] = Ok (Some o, g) ->
  js_append_dname o g sw = dname_loop (Z.to_nat 10000) 0 sw state0 o g -> Z.to_nat 10000 = (k + S n)%nat ->
  (exists o1 g1, dname_loop (k + S n) 0 sw state0 o g = dname_loop (S n) x sw DOT o1 g1 /\ held 256 o1 (90 :: body) /\ goes f g1 (tail_of e ++ d :: rest)) ->
  (exists t, body = utf8 c ++ t) -> zlen body + zlen (tail_of e) <= 255 ->
  csv2_read_unicode f = (c, g) -> taken J f sw body e d rest.
Proof.
  intros S4 S5 D _ A K N F P FU (o1 & g1 & E1 & HO1 & G1) (t & EB) L ER. unfold taken. rewrite ER. cbn [snd]. unfold process_dname. rewrite F. cbn [bind]. rewrite P, FU, E1.
  destruct (dname_end n x sw o1 g1 e d rest _ S4 S5 D (proj1 G1) HO1 ltac:(rewrite zlen_cons; lia)) as (o2 & -> & HO2). cbn [bind]. cbn [app] in HO2.
  rewrite (count_held _ _ HO2). rewrite zlen_cons, zlen_app. destruct (utf8_head c K N) as (b & u & EU & NB). pose proof (utf8_pos c). subst body. rewrite EU in *. cbn [app] in HO2. rewrite (rd1_held _ _ _ _ HO2). rewrite !zlen_app. pose proof (zlen_nonneg t). pose proof (zlen_nonneg (tail_of e)).
  replace (1 <? zlen (b :: u) + zlen t + zlen (tail_of e) + 1) with true by lia. cbn [bind]. replace (b =? 46) with false by lia. cbn [andb]. do 2 eexists. split; [reflexivity|]. split; [exact HO2|]. apply (step_after f g1 _ _ _ G1).
Qed.
Lemma taken_name J f sw ns e d rest : junk_ok J -> sw <> 4 -> sw <> 5 -> sw <> 0 -> delimiter d -> ns <> [] -> name_chars ns -> no_command ns -> zlen (dotted ns) + zlen (tail_of e) <= 255 -> reading f (dotted ns ++ tail_of e ++ d :: rest) ->
  taken J f sw (dotted ns) e d rest.
Proof.
  intros HJ S4 S5 S0 D NE F NC L R. destruct ns as [|l ns]; [congruence|]. apply Forall_cons_iff in F as ((NL & FL) & F). destruct l as [|c l]; [congruence|]. cbn [no_command] in NC. apply Forall_cons_iff in FL as (FC & FL). destruct (name_ok c FC) as (K & N1 & N2 & N3 & N4 & DN).
  assert (dotted ((c :: l) :: ns) = utf8 c ++ written l ++ 46 :: dotted ns) as ED by (unfold dotted; cbn [map concat written flat_map]; rewrite <- !app_assoc; reflexivity). rewrite ED in *. rewrite <- !app_assoc in R. cbn [app] in R.
  destruct (read_at f c _ K N1 N2 R) as (g & E & G & A).
  destruct (first_on J g c csv2_is_starwhitis_ordot [90] HJ A K) as (o & F1 & H).
  { unfold csv2_is_starwhitis_ordot, csv2_is_text. unfold csv2_is_dname in DN. replace (c =? 47) with false in DN by lia. rewrite orb_false_r in DN. rewrite DN. reflexivity. }
  { constructor; [unfold byte; lia|constructor]. } { vm_compute. discriminate. }
  rewrite !zlen_app, zlen_cons in L. pose proof (zlen_nonneg (dotted ns)). pose proof (zlen_nonneg (written l)). pose proof (zlen_nonneg (tail_of e)). pose proof (utf8_pos c).
  destruct (fuel_split (length l + S (label_steps ns))) as (n & FU). { pose proof (written_long l). pose proof (steps_short ns). lia. }
  destruct (dname_nondot (label_steps ns + S n) 0 sw o g l _ _ FL (proj1 G) H ltac:(rewrite zlen_app; change (zlen [90]) with 1; lia)) as (o1 & g1 & x1 & E1 & HO1 & G1 & X1).
  destruct (dname_labels sw ns (S n) x1 o1 g1 _ _ F (proj1 G1) HO1 ltac:(rewrite !zlen_app; change (zlen [90]) with 1; change (zlen [46]) with 1; lia)) as (o2 & g2 & x2 & E2 & HO2 & G2 & X2).
  eapply (taken_rest J f g sw o c (length l + S (label_steps ns)) NON_DOT _ e d rest n x2 S4 S5 D Logic.I A K N3 F1); try exact FU; try exact E.
  - unfold js_append_dname, csv2_justread. destruct A as (O & JU & _). rewrite O, JU. assert (last (utf8 c) 0 <> 37 /\ last (utf8 c) 0 <> 46 /\ csv2_is_dname (last (utf8 c) 0) = true) as (Q1 & Q2 & Q3).
    { destruct (Z_lt_dec c 128); [rewrite utf8_small by lia; cbn [last]; split; [|split; [exact N3|exact DN]]; unfold name_char, wide in FC; lia|]. assert (wide c) as W by (destruct K as [K|(K & _)]; [lia|exact K]). pose proof (last_wide c W). split; [lia|]. split; [lia|]. unfold csv2_is_dname. replace (127 <? last (utf8 c) 0) with true by lia. rewrite !orb_true_r. reflexivity. }
    replace (last (utf8 c) 0 =? 37) with false by lia. replace (last (utf8 c) 0 =? 46) with false by lia. cbn [andb orb]. replace (sw =? 0) with false by lia. replace (sw =? 5) with false by lia. cbn [negb andb]. rewrite Q3. reflexivity.
  - exists o2, g2. split; [|split].
    + replace (length l + S (label_steps ns) + S n)%nat with (length l + S (label_steps ns + S n))%nat by lia. rewrite E1. exact E2.
    + rewrite <- !app_assoc in HO2. cbn [app] in HO2. exact HO2.
    + exact (goes_trans _ _ _ _ _ G (goes_trans _ _ _ _ _ G1 G2)).
  - eexists. reflexivity.
  - rewrite !zlen_app, zlen_cons. lia.
Qed.
Lemma taken_star J f sw ns e d rest : junk_ok J -> sw = 1 \/ sw = 2 -> delimiter d -> name_chars ns -> zlen (dotted ns) + zlen (tail_of e) <= 253 -> reading f (42 :: 46 :: dotted ns ++ tail_of e ++ d :: rest) ->
  taken J f sw (42 :: 46 :: dotted ns) e d rest.
Proof.
  intros HJ SW D F L R.
  destruct (read_at f 42 _ ltac:(left; lia) ltac:(lia) ltac:(lia) R) as (g & E & G & A).
  destruct (first_on J g 42 csv2_is_starwhitis_ordot [90] HJ A ltac:(left; lia) eq_refl) as (o & F1 & H).
  { constructor; [unfold byte; lia|constructor]. } { vm_compute. discriminate. }
  cbn [utf8 Z.ltb Z.compare Pos.compare Pos.compare_cont app] in H. pose proof (zlen_nonneg (dotted ns)). pose proof (zlen_nonneg (tail_of e)).
  destruct (fuel_split (S (label_steps ns))) as (n & FU). { pose proof (steps_short ns). lia. }
  destruct (char_on o _ 46 H ltac:(left; lia) ltac:(vm_compute; discriminate)) as (o1 & E1 & HO1). cbn [utf8 Z.ltb Z.compare Pos.compare Pos.compare_cont app] in HO1.
  destruct (dname_labels sw ns (S n) 1 o1 (step g (dotted ns ++ tail_of e ++ d :: rest) 46) (tail_of e ++ d :: rest) _ F (step_reading g _ 46) HO1 ltac:(change (zlen [90; 42; 46]) with 3; lia)) as (o2 & g2 & x2 & E2 & HO2 & G2 & X2).
  eapply (taken_rest J f g sw o 42 (S (label_steps ns)) STAR _ e d rest n x2 ltac:(lia) ltac:(lia) D Logic.I A ltac:(left; lia) ltac:(lia) F1); try exact FU; try exact E.
  - unfold js_append_dname, csv2_justread. destruct A as (O & JU & _). rewrite O, JU. destruct SW as [-> | ->]; reflexivity.
  - exists o2, g2. split; [|split].
    + cbn [Nat.add dname_loop]. rewrite (read_ascii g 46 _ (proj1 G)) by lia. change (46 =? FATAL) with false. change ((46 =? 46) && (STAR =? NON_DOT)) with false. change (STAR =? NON_DOT) with false. change (STAR =? DOT) with false. change (46 =? 35) with false. change ((STAR =? STAR) && (46 =? 46)) with true. cbv zeta. cbn [andb]. rewrite E1. cbn [bind]. change (1 <? 0) with false. cbv iota. exact E2.
    + exact HO2.
    + refine (goes_trans _ _ _ _ _ G (goes_trans _ _ _ _ _ _ G2)). split; [apply step_reading|cbn; auto].
  - eexists. reflexivity.
  - rewrite !zlen_cons. lia.
Qed.

(** ** From the text to the name *)
Lemma convert_absolute o y psub : held 256 o (y ++ [46]) -> csv2_convert_percent o psub = Ok (Some o).
Proof.
  intros H. destruct (held_mem 256 o _ H) as (r & E & LR & C & BQ & BR & CQ & S1 & M & SA & SM). unfold csv2_convert_percent. rewrite S1, C, zlen_app. change (zlen [46]) with 1. pose proof (zlen_nonneg y). replace (1 <=? zlen y + 1) with true by lia. cbn [Z.eqb Pos.eqb negb].
  rewrite E, <- app_assoc. replace (zlen y + 1 - 1) with (zlen y) by lia. rewrite (rd_here y 46 r : rd (y ++ [46] ++ r) _ = _). reflexivity.
Qed.
Lemma convert_percent o y cz psub z : held 256 o (y ++ [37]) -> held cz psub z -> zlen y + zlen z < 256 -> exists o', csv2_convert_percent o psub = Ok (Some o') /\ held 256 o' (y ++ z).
Proof.
  intros H HZ L. destruct (held_mem 256 o _ H) as (r & E & LR & C & BQ & BR & CQ & S1 & M & SA & SM). unfold csv2_convert_percent. rewrite S1, C, zlen_app. change (zlen [37]) with 1. pose proof (zlen_nonneg y). replace (1 <=? zlen y + 1) with true by lia. cbn [Z.eqb Pos.eqb negb].
  rewrite E, <- app_assoc. replace (zlen y + 1 - 1) with (zlen y) by lia. rewrite (rd_here y 37 r : rd (y ++ [37] ++ r) _ = _). cbn [bind]. change (37 =? 37) with true. cbv iota.
  destruct (append_held cz psub z 256 _ y HZ (held_cut 256 o y [37] H) L) as (o' & -> & H'). cbn [bind]. change (0 =? JS_ERROR) with false. exists o'. split; [reflexivity|exact H'].
Qed.
Lemma move_shift n : forall mem i d, move_down n mem i d = shift_loop n i d mem.
Proof. induction n as [|n IH]; intros mem i d; cbn [move_down shift_loop]; [reflexivity|]. destruct (rd mem (i + d)) as [b| |]; cbn [bind]; [|reflexivity|reflexivity]. destruct (wr mem i b) as [m| |]; cbn [bind]; [apply IH|reflexivity|reflexivity]. Qed.
Lemma wire_end n l : good_label l -> Forall (fun b => b <> 42) l -> exists p a b, labels (n ++ [l]) ++ [0] = p ++ [a; b; 0] /\ b <> 42.
Proof.
  intros (G & _) F. unfold labels. rewrite map_app, concat_app. cbn [map concat]. rewrite app_nil_r. destruct (@exists_last Z l) as (l' & b & ->); [intros ->; change (zlen (@nil Z)) with 0 in G; lia|].
  apply Forall_app in F as (_ & F). apply Forall_cons_iff in F as (NB & _).
  set (Q := concat (map (fun l : list Z => zlen l :: l) n)). replace ((Q ++ zlen (l' ++ [b]) :: l' ++ [b]) ++ [0]) with ((Q ++ zlen (l' ++ [b]) :: l') ++ [b; 0]) by (rewrite <- !app_assoc; cbn [app]; rewrite <- app_assoc; reflexivity).
  destruct (@exists_last Z (Q ++ zlen (l' ++ [b]) :: l')) as (p & a & EP); [destruct Q; discriminate|]. rewrite EP, <- app_assoc. exists p, a, b. split; [reflexivity|exact NB].
Qed.
(** Nothing is changed at the end of a name without stars. *)
Lemma star_tail s pre n : held 256 s (pre ++ wire n) -> n <> [] -> good_name n -> starless n -> exists p a b, wire n = p ++ [a; b; 0] /\ b <> 42.
Proof.
  intros _ NE G F. destruct (@exists_last _ n NE) as (n' & l & ->). apply Forall_app in G as (_ & G). apply Forall_app in F as (_ & F). apply Forall_cons_iff in G as (G & _). apply Forall_cons_iff in F as (F & _). rewrite wire_labels. apply wire_end; assumption.
Qed.
Lemma meta_plain s n : held 256 s (wire n) -> good_name n -> starless n -> zlen (wire n) <= 256 -> starrecord_to_meta s = Ok (1, s).
Proof.
  intros H G F L. destruct (held_mem 256 s _ H) as (r & E & LR & C & BQ & BR & CQ & S1 & M & SA & SM). unfold starrecord_to_meta. rewrite SA, S1, C. cbn [negb Z.eqb Pos.eqb]. destruct n as [|l n]; [reflexivity|].
  destruct (star_tail s [] (l :: n) H ltac:(discriminate) G F) as (p & a & b & EW & NB).
  assert (zlen (wire (l :: n)) = zlen p + 3) as LW by (rewrite EW, zlen_app; reflexivity). pose proof (zlen_nonneg p). replace (zlen (wire (l :: n)) <? 2) with false by lia.
  apply Forall_cons_iff in F as (FL & _). pose proof G as GG. apply Forall_cons_iff in G as ((GL & _) & _). destruct l as [|x l]; [change (zlen (@nil Z)) with 0 in GL; lia|]. apply Forall_cons_iff in FL as (NX & _).
  rewrite E at 1. cbn [wire app]. change (rd (zlen (x :: l) :: x :: (l ++ wire n) ++ r) 0) with (Ok (zlen (x :: l))). cbn [bind]. rewrite E at 1. cbn [wire app]. change (rd (zlen (x :: l) :: x :: (l ++ wire n) ++ r) 1) with (Ok x). cbn [bind]. replace (x =? 42) with false by lia. rewrite andb_false_r. cbn [bind].
  assert (dlabel_length s 0 = Ok (zlen (wire ((x :: l) :: n)))) as ->.
  { rewrite wire_labels in *. apply (dlabel_length_ok s [] ((x :: l) :: n) [0] []); [rewrite app_nil_r; exact (proj1 H)|exact GG|left; reflexivity|]. rewrite zlen_app in L. change (zlen [0]) with 1 in L. lia. }
  cbn [bind]. rewrite LW. replace (zlen p + 3 - 3) with (zlen p) by lia. replace (zlen p <? 0) with false by lia. rewrite E, EW, <- app_assoc. cbn [app]. rewrite rd_here. cbn [bind].
  replace (p ++ a :: b :: 0 :: r) with ((p ++ [a]) ++ b :: 0 :: r) by (rewrite <- app_assoc; reflexivity). replace (zlen p + 1) with (zlen (p ++ [a])) by (rewrite zlen_app; reflexivity). rewrite rd_here. cbn [bind]. replace (b =? 42) with false by lia. rewrite andb_false_r. reflexivity.
Qed.
(** A star as the first label becomes an underscore. *)
Lemma meta_star s n : held 256 s (wire ([42] :: n)) -> exists s', starrecord_to_meta s = Ok (1, s') /\ held 256 s' (95 :: wire n).
Proof.
  intros H. destruct (held_mem 256 s _ H) as (r & E & LR & C & BQ & BR & CQ & S1 & M & SA & SM). unfold starrecord_to_meta. rewrite SA, S1, C. cbn [negb Z.eqb Pos.eqb]. cbn [wire app] in *. change (zlen [42]) with 1 in *. rewrite !zlen_cons in *. pose proof (zlen_nonneg (wire n)).
  replace (zlen (wire n) + 1 + 1 <? 2) with false by lia. rewrite E. change (rd (1 :: 42 :: wire n ++ r) 0) with (Ok 1). change (rd (1 :: 42 :: wire n ++ r) 1) with (Ok 42). cbn [bind]. change ((1 =? 1) && (42 =? 42)) with true. cbv iota. change (wr (1 :: 42 :: wire n ++ r) 0 95) with (Ok (95 :: 42 :: wire n ++ r)). cbn [bind].
  rewrite move_shift. replace (zlen (wire n) + 1 + 1 - 1) with (1 + zlen (wire n)) by lia.
  assert (3 <= zlen r) as LR3 by lia. destruct r as [|r0 r]; [change (zlen (@nil Z)) with 0 in LR3; lia|].
  rewrite shift_loop_ok by (rewrite ?zlen_cons, ?zlen_app, ?zlen_cons; rewrite ?zlen_cons in LR3; lia). cbn [bind]. rewrite Z2Nat.id by lia.
  set (m2 := splice (95 :: 42 :: wire n ++ r0 :: r) 1 (zslice (95 :: 42 :: wire n ++ r0 :: r) (1 + 1) (1 + zlen (wire n)))).
  assert (held 256 (set_count (set_mem s m2) (1 + zlen (wire n))) (95 :: wire n)) as HN.
  { pose proof (held_new 256 s _ m2 (1 + zlen (wire n)) H) as X. replace (zslice m2 0 (1 + zlen (wire n))) with (95 :: wire n) in X.
    - apply X; [|unfold m2; rewrite zlen_splice|lia].
      + apply bytes_shift. apply Forall_cons_iff in BQ as (_ & BQ). constructor; [unfold byte; lia|]. apply Forall_cons_iff in BQ as (B1 & BQ). constructor; [exact B1|]. apply bytes_app. split; [exact BQ|exact BR].
      + rewrite E. rewrite !zlen_cons. reflexivity.
      + lia.
      + rewrite zlen_zslice; rewrite ?zlen_cons, ?zlen_app, ?zlen_cons; rewrite ?zlen_cons in LR3; lia.
    - unfold m2. pose proof (shifted (95 :: 42 :: wire n ++ [r0]) r 1 1 (zlen (wire n) + 1)) as Y. cbn [app] in Y. rewrite <- app_assoc in Y. cbn [app] in Y.
      replace (1 + zlen (wire n)) with (zlen (wire n) + 1) by lia.
      pose proof (f_equal (fun t => zslice t 0 (zlen (wire n) + 1)) (Y ltac:(lia) ltac:(lia) ltac:(lia) ltac:(rewrite !zlen_cons, zlen_app; change (zlen [r0]) with 1; lia))) as Y2. cbv beta in Y2.
      rewrite zslice_zslice in Y2 by lia. rewrite Z.add_0_l in Y2. symmetry. etransitivity; [exact Y2|]. clear.
      change (zslice (95 :: 42 :: wire n ++ [r0]) 0 1) with [95]. change (zslice (95 :: 42 :: wire n ++ [r0]) (1 + 1) (zlen (wire n) + 1)) with (zslice (wire n ++ [r0]) 0 (zlen (wire n) + 1)).
      assert (zslice (wire n ++ [r0]) 0 (zlen (wire n) + 1) = wire n ++ [r0]) as -> by (replace (zlen (wire n) + 1) with (zlen (wire n ++ [r0])) by (rewrite zlen_app; reflexivity); apply zslice_all). replace ([95] ++ wire n ++ [r0]) with ((95 :: wire n) ++ [r0]) by reflexivity. replace (zlen (wire n) + 1) with (zlen (95 :: wire n)) by (rewrite zlen_cons; reflexivity). rewrite zslice_app_l by (pose proof (zlen_nonneg (95 :: wire n)); lia). apply zslice_all. }
  assert (dlabel_length (set_count (set_mem s m2) (1 + zlen (wire n))) 0 = Ok 1) as ->.
  { apply (dlabel_length_ok _ [] [] [95] (wire n) (proj1 HN)); [constructor|right; left; reflexivity|reflexivity]. }
  cbn [bind]. change (1 - 3 <? 0) with true. cbv iota. eexists. split; [reflexivity|exact HN].
Qed.
Lemma dots_written ns : dotted ns = dots (map written ns). Proof. unfold dotted, dots. rewrite map_map. reflexivity. Qed.
Lemma dots_app a b : dots (a ++ b) = dots a ++ dots b. Proof. unfold dots. rewrite map_app, concat_app. reflexivity. Qed.
(** The text between the first octet and its end is that of the name meant. *)
Lemma hostname_of J f cz zone z sw body e d rest m : taken J f sw body e d rest -> held cz zone z -> text_ok m ->
  match e with Absolute => body = text m | Percent => body ++ z = text m /\ zlen (text m) <= 254 end ->
  exists g s', name_at J f zone sw = (' (r, o) <- starrecord_to_meta s' ;; Ok (if r =? JS_ERROR then None else Some o, g)) /\ held 256 s' (wire m) /\ after_reading f g rest d.
Proof.
  intros (o & g & E & H & A) HZ TK EB. unfold name_at, csv2_get_hostname. rewrite E. cbn [bind].
  assert (exists o', csv2_convert_percent o zone = Ok (Some o') /\ held 256 o' (90 :: text m)) as (o' & -> & H').
  { destruct e; cbn [tail_of] in *.
    - rewrite app_nil_r in H. subst body. exists o. split; [|exact H]. assert (exists y, text m = y ++ [46]) as (y & EY).
      { destruct m as [|l m]; [exists []; reflexivity|]. destruct (@exists_last _ (l :: m) ltac:(discriminate)) as (m' & l' & ->). rewrite text_dots by (destruct m'; discriminate). rewrite dots_app. unfold dots at 2. cbn [map concat]. rewrite app_nil_r, app_assoc. eexists. reflexivity. }
      rewrite EY in H. apply (convert_absolute o (90 :: y)). exact H.
    - destruct EB as (EB & LB). rewrite app_comm_cons in H. destruct (convert_percent o (90 :: body) cz zone z H HZ) as (o' & E1 & HO1); [rewrite zlen_cons; rewrite <- EB, zlen_app in LB; lia|]. exists o'. split; [exact E1|]. cbn [app] in HO1. rewrite EB in HO1. exact HO1. }
  cbn [bind]. destruct TK as (G & D & L).
  assert (exists s', hname_2rfc1035 (if sw =? 2 then 1 else 0) o' = Ok (255, s') /\ holding s' (wire m) /\ j_max s' = j_max o') as (s' & -> & HS & MS).
  { destruct m as [|l m]; [exact (hname_root _ o' 90 255 (proj1 H') eq_refl)|]. apply (hname_good _ o' 90 255 (l :: m) (proj1 H') eq_refl ltac:(discriminate) G D L). }
  cbn [bind]. change (255 <? 0) with false. cbv iota. exists g, s'. split; [reflexivity|]. split; [split; [exact HS|rewrite MS; exact (proj2 H')]|exact A].
Qed.

Lemma written_starless ns : name_chars ns -> starless (map written ns).
Proof.
  intros F. unfold starless. apply Forall_map. eapply Forall_impl; [|exact F]. intros l (_ & FL). clear F. induction FL as [|c l FC FL IH]; [constructor|]. cbn [written flat_map]. fold (written l). apply Forall_app. split; [|exact IH].
  destruct (name_ok c FC) as (K & _ & _ & _ & N4 & _). destruct (Z_lt_dec c 128); [rewrite utf8_small by lia; constructor; [exact N4|constructor]|]. destruct K as [K|(K & _)]; [lia|]. unfold wide in K. unfold utf8. replace (c <? 128) with false by lia.
  destruct (Z.ltb_spec c 2048); [|destruct (Z.ltb_spec c 65536); [|destruct (Z.ltb_spec c 2097152); [|destruct (Z.ltb_spec c 67108864)]]]; repeat (apply Forall_cons; [lia|]); constructor.
Qed.
Lemma meant_starless ns e z : name_chars ns -> fits_zone ns e z -> starless (meant ns e z).
Proof. intros F Z. unfold meant, starless. apply Forall_app. split; [apply written_starless, F|]. destruct e; [constructor|]. exact (proj1 (proj2 Z)). Qed.
Lemma wire_short m : text_ok m -> zlen (wire m) <= 256.
Proof. intros (_ & _ & L). rewrite wire_labels, zlen_app. change (zlen [0]) with 1. rewrite <- zlen_dots_labels. destruct m; [vm_compute; discriminate|]. rewrite text_dots in L by discriminate. lia. Qed.
Lemma text_meant ns e z : fits_zone ns e z -> match e with Absolute => spelled ns e = text (meant ns e z) | Percent => dotted ns ++ text z = text (meant ns e z) end.
Proof.
  intros Z. destruct e; unfold spelled, meant.
  - rewrite app_nil_r. destruct ns as [|l ns]; [reflexivity|]. rewrite dots_written, text_dots by discriminate. reflexivity.
  - destruct Z as (NZ & _). rewrite !text_dots; [rewrite dots_app, dots_written; reflexivity|destruct (map written ns); [exact NZ|discriminate]|exact NZ].
Qed.
