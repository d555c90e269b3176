(** Zone files: WKS data. *)
From Verif Require Import CBase Bits ModelDwStr SpecDwStr ProofDwStr ModelJsStr SpecJsStr ProofJsStr ProofJsSearch ModelIpAcl SpecIpAcl ProofIpAcl ModelQueries SpecQueries ProofHname ProofJsList ProofServe ProofServeRun ProofServeSafe
  ModelCsv2 SpecCsv2 ProofCsv2 ProofCsv2Names ProofCsv2Addr ModelCsv2Rr SpecCsv2Rr ProofCsv2Rr ProofCsv2Safe ProofCsv2ZoneAny ModelCsv2Wks SpecCsv2Wks.

(** ** The list of ports *)
Lemma fold_ge l : Forall (fun c => 48 <= c <= 57) l -> forall v, 0 <= v -> v <= fold_left (fun v c => v * 10 + (c - 48)) l v.
Proof. induction 1 as [|c l C F IH]; intros v V; cbn [fold_left]; [lia|]. specialize (IH (v * 10 + (c - 48)) ltac:(lia)). lia. Qed.
Lemma port_digits n hi ports l : forall x num f c rest, Forall (fun c => 48 <= c <= 57) (x :: l) -> reading f (l ++ c :: rest) -> 0 <= num -> fold_left (fun v c => v * 10 + (c - 48)) (x :: l) num <= 1024 -> 0 <= c < 128 -> c <> 123 -> c <> 126 ->
  exists g, port_loop (length (x :: l) + n) x num hi ports f = port_loop n c (fold_left (fun v c => v * 10 + (c - 48)) (x :: l) num) hi ports g /\ goes f g rest.
Proof.
  induction l as [|y l IH]; intros x num f c rest F R N B C1 C2 C3; apply Forall_cons_iff in F as (FX & F); pose proof (fold_ge _ F (num * 10 + (x - 48)) ltac:(lia)) as G; cbn [fold_left] in B, G; cbn [length Nat.add port_loop].
  all: replace (x =? -2) with false by lia; replace (x =? 10) with false by lia; replace (x =? 13) with false by lia; replace (x =? 35) with false by lia; replace (x =? 126) with false by lia; cbn [orb]; rewrite !andb_false_r; replace (csv2_is_number x) with true by (unfold csv2_is_number; lia); cbv zeta; replace (100000 <? num * 10 + (x - 48)) with false by lia.
  - cbn [app] in R. rewrite (read_ascii f c rest R C1 C2 C3). exists (step f rest c). split; [reflexivity|]. split; [apply step_reading|cbn; auto].
  - pose proof F as F'. apply Forall_cons_iff in F' as (FY & _). cbn [app] in R. rewrite (read_ascii f y _ R) by lia. destruct (IH y (num * 10 + (x - 48)) (step f (l ++ c :: rest) y) c rest F (step_reading _ _ _) ltac:(lia) B C1 C2 C3) as (g & E & GG). exists g. split; [exact E|]. refine (goes_trans _ _ _ _ _ _ GG). split; [apply step_reading|cbn; auto].
Qed.
Definition highest (hi : Z) (l : list Z) : Z := fold_left Z.max l hi.
Lemma highest_ge l : forall hi, hi <= highest hi l. Proof. induction l as [|x l IH]; intros hi; cbn; [lia|]. specialize (IH (Z.max hi x)). unfold highest in IH. lia. Qed.
Lemma highest_in l : forall hi p, In p l -> p <= highest hi l.
Proof. induction l as [|x l IH]; intros hi p I; [destruct I|]. cbn. destruct I as [-> |I]; [pose proof (highest_ge l (Z.max hi p)); unfold highest in *; lia|exact (IH _ _ I)]. Qed.
Lemma highest_le b l : forall hi, hi <= b -> Forall (fun p => p <= b) l -> highest hi l <= b.
Proof. induction l as [|x l IH]; intros hi H F; cbn; [exact H|]. apply Forall_cons_iff in F as (FX & F). apply (IH (Z.max hi x)); [lia|exact F]. Qed.
Lemma highest_mem l : forall hi, highest hi l = hi \/ In (highest hi l) l.
Proof. induction l as [|x l IH]; intros hi; cbn; [left; reflexivity|]. destruct (IH (Z.max hi x)) as [E|I]; unfold highest in *; [rewrite E; lia|right; right; exact I]. Qed.
Lemma ports_text_cons d s l : ports_text ((d, s) :: l) = d ++ s :: ports_text l. Proof. unfold ports_text. cbn [map concat fst snd]. rewrite <- app_assoc. reflexivity. Qed.
(** [E f g]: [g] is [f] after the character [e], which follows the list, was read. *)
Lemma port_run tilde b e rest (E : csv2 -> csv2 -> Prop) : (forall f, f_tilde f = b -> reading f (e :: rest) -> exists g, csv2_read_unicode f = (e, g) /\ E f g) ->
  forall l n hi ports x t f, Forall (port_ok tilde) l -> (f_hand f =? 103) = tilde -> f_tilde f = b -> zlen ports + zlen l <= 10 -> ports_text l = x :: t -> reading f (t ++ e :: rest) ->
  exists h g, port_loop (length (ports_text l) + n) x 0 hi ports f = port_loop n e 0 (highest hi (ports_of l)) (ports ++ ports_of l) g /\ goes f h (e :: rest) /\ E h g.
Proof.
  intros HE. induction l as [|(d & s) l IH]; intros n hi ports x t f F HH HB L ET R; [discriminate|].
  apply Forall_cons_iff in F as (((NE & FD) & LD & IS) & F). cbn [fst snd] in *. destruct d as [|y d]; [congruence|]. rewrite zlen_cons in L. pose proof (zlen_nonneg l). rewrite ports_text_cons in *. cbn [app] in ET. injection ET as <- <-. rewrite <- app_assoc in R. cbn [app] in R.
  replace (length ((y :: d) ++ s :: ports_text l) + n)%nat with (length (y :: d) + S (length (ports_text l) + n))%nat by (rewrite app_length; cbn [length]; lia).
  assert (s = 44 \/ s = 9 \/ s = 32 \/ (tilde = true /\ (s = 10 \/ s = 13))) as SS by (destruct tilde; cbn in IS; intuition lia).
  destruct (port_digits (S (length (ports_text l) + n)) hi ports d y 0 f s _ FD R ltac:(lia) LD ltac:(lia) ltac:(lia) ltac:(lia)) as (g & -> & G). fold (decimal_of (y :: d)).
  cbn [port_loop]. pose proof G as (RG & A & B & C & D). rewrite D, HH. replace (negb tilde && ((s =? -2) || (s =? 10) || (s =? 13))) with false by (destruct tilde; cbn [negb andb]; lia). replace (s =? 35) with false by lia. replace (s =? 126) with false by lia. rewrite !andb_false_r. replace (csv2_is_number s) with false by (unfold csv2_is_number; lia).
  replace (csv2_is_wks s || (tilde && ((s =? 13) || (s =? 10)))) with true by (unfold csv2_is_wks; destruct tilde; cbn [andb]; lia).
  replace (10 <=? zlen ports) with false by lia. replace (1024 <? decimal_of (y :: d)) with false by lia.
  assert (forall k, (if hi <? decimal_of (y :: d) then decimal_of (y :: d) else hi) = k -> k = Z.max hi (decimal_of (y :: d))) as MX by (intros k <-; destruct (Z.ltb_spec hi (decimal_of (y :: d))); lia). rewrite (MX _ eq_refl). clear MX.
  destruct l as [|p l].
  - cbn [ports_text map concat app length Nat.add] in RG |- *. destruct (HE g ltac:(congruence) RG) as (g2 & -> & EG). exists g, g2. split; [reflexivity|]. split; assumption.
  - destruct (ports_text (p :: l)) as [|x2 t2] eqn:ET2.
    { destruct p as (d2 & s2). rewrite ports_text_cons in ET2. destruct d2; discriminate. }
    assert (48 <= x2 <= 57) as RX. { pose proof (Forall_inv F) as ((N2 & F2) & _). destruct p as (d2 & s2). rewrite ports_text_cons in ET2. cbn [fst] in *. destruct d2; [congruence|]. injection ET2 as <- _. exact (Forall_inv F2). }
    cbn [app] in RG. rewrite (read_ascii g x2 _ RG) by lia.
    destruct (IH n (Z.max hi (decimal_of (y :: d))) (ports ++ [decimal_of (y :: d)]) x2 t2 (step g (t2 ++ e :: rest) x2) F ltac:(cbn; congruence) ltac:(cbn; congruence) ltac:(rewrite zlen_app; change (zlen [decimal_of (y :: d)]) with 1; lia) eq_refl (step_reading _ _ _)) as (h & g2 & -> & G2 & EG).
    exists h, g2. split; [|split; [|exact EG]]; [|refine (goes_trans _ _ _ _ _ G (goes_trans _ (step g (t2 ++ e :: rest) x2) _ (t2 ++ e :: rest) _ _ G2)); split; [apply step_reading|cbn; auto]]. unfold ports_of. cbn [map fst]. unfold highest. cbn [fold_left]. rewrite <- app_assoc. cbn [app]. reflexivity.
Qed.

(** ** The bits *)
Lemma mask_bit k j : 0 <= k < 8 -> 0 <= j < 8 -> Z.testbit (Z.shiftr 128 k) (7 - j) = (j =? k).
Proof. intros K J. rewrite Z.shiftr_spec by lia. change 128 with (2 ^ 7). rewrite Z.pow2_bits_eqb by lia. lia. Qed.
Definition at_ (mem : list Z) (i : Z) : Z := match zget mem i with Some b => b | None => 0 end.
Lemma bits_ok count : forall ports mem, bytes mem -> Forall (fun p => 0 <= p /\ p / 8 < count /\ p / 8 + 5 < zlen mem) ports ->
  exists mem', bits_loop ports count mem = Ok (Some mem') /\ bytes mem' /\ zlen mem' = zlen mem /\ (forall i, i < 5 -> zget mem' i = zget mem i) /\
    forall q, 0 <= q -> q / 8 + 5 < zlen mem -> Z.testbit (at_ mem' (q / 8 + 5)) (7 - q mod 8) = Z.testbit (at_ mem (q / 8 + 5)) (7 - q mod 8) || existsb (Z.eqb q) ports.
Proof.
  induction ports as [|p ports IH]; intros mem B F; cbn [bits_loop existsb].
  - exists mem. repeat (split; [first [reflexivity|assumption|auto]|]). intros q _ _. rewrite orb_false_r. reflexivity.
  - apply Forall_cons_iff in F as ((P0 & P1 & P2) & F). rewrite Z.shiftr_div_pow2 by lia. change (2 ^ 3) with 8. assert (0 <= p / 8) by (apply Z.div_pos; lia). replace (count <=? p / 8) with false by lia.
    destruct (rd_byte mem (p / 8 + 5) B ltac:(lia)) as (b & -> & EB & BB). cbn [bind]. rewrite wr_ok by lia. cbn [bind]. set (m := zupd mem (p / 8 + 5) _).
    assert (zlen m = zlen mem) as LM by apply zlen_zupd.
    destruct (IH m) as (mem' & E & B' & L' & S' & T'); [apply bytes_zupd; [exact B|unfold u8, byte; apply Z.mod_pos_bound; lia]|rewrite LM; exact F|].
    exists mem'. split; [exact E|]. split; [exact B'|]. split; [congruence|]. split; [intros i I; rewrite (S' i I); apply zget_zupd_neq; lia|]. intros q Q0 Q1. rewrite (T' q Q0) by lia.
    rewrite orb_assoc. f_equal. unfold at_ at 1, m. destruct (Z.eq_dec (p / 8) (q / 8)) as [EQ|NQ].
    + rewrite <- EQ. rewrite zget_zupd_eq by lia. unfold at_. rewrite EB. unfold u8. change 256 with (2 ^ 8). pose proof (Z.mod_pos_bound q 8 ltac:(lia)). pose proof (Z.mod_pos_bound p 8 ltac:(lia)). rewrite Z.mod_pow2_bits_low by lia. rewrite Z.lor_spec. f_equal. rewrite mask_bit by lia. pose proof (Z.div_mod q 8 ltac:(lia)). pose proof (Z.div_mod p 8 ltac:(lia)). lia.
    + rewrite zget_zupd_neq by lia. replace (q =? p) with false; [rewrite orb_false_r; reflexivity|]. symmetry. apply Z.eqb_neq. intros ->. congruence.
Qed.
Lemma zero_ok : forall n i mem, 0 <= i -> i + Z.of_nat n <= zlen mem -> bytes mem -> exists m, zero_loop n i mem = Ok m /\ bytes m /\ zlen m = zlen mem /\ (forall k, k < i -> zget m k = zget mem k) /\ forall k, i <= k < i + Z.of_nat n -> zget m k = Some 0.
Proof.
  induction n as [|n IH]; intros i mem I L B; cbn [zero_loop]; [exists mem; repeat (split; [first [reflexivity|assumption|auto]|]); intros k K; lia|].
  rewrite wr_ok by lia. cbn [bind]. destruct (IH (i + 1) (zupd mem i 0) ltac:(lia) ltac:(rewrite zlen_zupd; lia) (bytes_zupd mem i 0 B ltac:(unfold byte; lia))) as (m & E & BM & LM & S & T). exists m. split; [exact E|]. split; [exact BM|]. split; [rewrite LM; apply zlen_zupd|].
  split; [intros k K; rewrite (S k) by lia; apply zget_zupd_neq; lia|]. intros k K. destruct (Z.eq_dec k i) as [-> |]; [rewrite (S i) by lia; apply zget_zupd_eq; lia|apply T; lia].
Qed.

(** ** The address: the octets after it stay as they are *)
Definition padded (cap : Z) (s : js) (y : list Z) : Prop := held cap s y /\ forall i, zlen y <= i < cap -> zget (j_mem s) i = Some 0.
Lemma byte_padded cap s y v : padded cap s y -> 0 <= v < 256 -> zlen y + 1 < cap -> exists r s', js_addbyte s v = Ok (r, s') /\ (r =? -1) = false /\ padded cap s' (y ++ [v]).
Proof.
  intros (H & P) V L. destruct (byte_held cap s y v H V L) as (r & s' & E & R & H'). exists r, s'. split; [exact E|]. split; [exact R|]. split; [exact H'|]. intros i I. rewrite zlen_app in I. change (zlen [v]) with 1 in I.
  revert E. unfold js_addbyte. destruct (held_mem cap s y H) as (q & EM & LR & C & BQ & BR & CQ & S1 & M & SA & SM). rewrite SA, S1, M, C. cbn [negb Z.eqb Pos.eqb]. destruct (cap <=? _); [intros E; injection E as <- _; discriminate|]. pose proof (zlen_nonneg y). rewrite wr_ok by (rewrite EM, zlen_app; lia). cbn [bind]. intros E. injection E as _ <-. cbn [j_mem]. rewrite zget_zupd_neq by lia. apply P. lia.
Qed.
Lemma pstep cap n s a d r v ip y : ascii 256 s (a ++ d ++ 46 :: r) -> number_text d v -> v <= 255 -> padded cap ip y -> zlen y + 1 < cap ->
  exists ip', four_loop (S n) s (zlen a) ip = four_loop n s (zlen (a ++ d ++ [46])) ip' /\ padded cap ip' (y ++ [v]).
Proof.
  intros T N Hv HI L. cbn [four_loop]. pose proof (zlen_nonneg a). pose proof (number_len _ _ N). pose proof (number_nonneg _ _ N). pose proof (plain_len _ _ (ascii_plain _ _ _ T)) as (_ & LT & _ & _).
  replace (zlen a =? -2) with false by lia. rewrite (atoi_ascii 256 s a d (46 :: r) v T N) by lia. cbn [bind]. replace ((v <? 0) || (255 <? v)) with false by lia.
  destruct (byte_padded cap ip y v HI ltac:(lia) L) as (rr & ip' & -> & NR & HI'). cbn [bind]. change JS_ERROR with (-1). rewrite NR. cbv iota.
  rewrite !zlen_app, zlen_cons in LT. pose proof (zlen_nonneg r).
  rewrite (match_dot s _ _ (ascii_plain _ _ _ T)) by lia. cbn [bind].
  rewrite ff_at; [|lia| |rewrite hit_dot; reflexivity].
  2:{ apply (Forall_impl _ (P := fun b => 48 <= b <= 57)); [intros b Hb; rewrite hit_dot; lia|exact (number_chars _ _ N)]. }
  replace (zlen a + zlen d =? -1) with false by lia.
  replace (zlen a + zlen d + 1) with (zlen (a ++ d ++ [46])) by (rewrite !zlen_app; change (zlen [46]) with 1; lia). exists ip'. split; [reflexivity|exact HI'].
Qed.
Lemma plast cap s a d v ip y : ascii 256 s (a ++ d) -> number_text d v -> v <= 255 -> padded cap ip y -> zlen y + 1 < cap ->
  exists ip', four_loop 1 s (zlen a) ip = Ok (Some (-1, ip')) /\ padded cap ip' (y ++ [v]).
Proof.
  intros T N Hv HI L. cbn [four_loop]. pose proof (zlen_nonneg a). pose proof (number_len _ _ N). pose proof (number_nonneg _ _ N). pose proof (plain_len _ _ (ascii_plain _ _ _ T)) as (_ & LT & _ & _).
  replace (zlen a =? -2) with false by lia. assert (ascii 256 s (a ++ d ++ [])) as T' by (rewrite app_nil_r; exact T). rewrite (atoi_ascii 256 s a d [] v T' N ltac:(lia) Logic.I). cbn [bind]. replace ((v <? 0) || (255 <? v)) with false by lia.
  destruct (byte_padded cap ip y v HI ltac:(lia) L) as (rr & ip' & -> & NR & HI'). cbn [bind]. change JS_ERROR with (-1). rewrite NR. cbv iota. rewrite zlen_app in LT.
  rewrite (match_dot s _ _ (ascii_plain _ _ _ T)) by lia. cbn [bind]. rewrite ff_none; [|lia|]. 2:{ apply (Forall_impl _ (P := fun b => 48 <= b <= 57)); [intros b Hb; rewrite hit_dot; lia|exact (number_chars _ _ N)]. }
  change (-2 =? -1) with false. cbv iota. exists ip'. split; [reflexivity|exact HI'].
Qed.
Lemma qstr_empty cap ip : padded cap ip [] -> js_qstr2js ip [] = Ok (1, ip).
Proof.
  intros (H & _). destruct (held_mem cap ip [] H) as (q & EM & LR & C & BQ & BR & CQ & S1 & M & SA & SM). change (zlen (@nil Z)) with 0 in *. unfold js_qstr2js, js_str2js. change (zlen (@nil Z)) with 0. rewrite SA, M. change (u32 0) with 0. replace (cap <? 0) with false by lia. cbn [negb]. rewrite S1. change (u32 1 =? 1) with true. cbn [negb].
  change (Z.to_nat (0 * 1)) with 0%nat. cbn [copy_bytes bind]. destruct ip as [m s c mx en]. cbn in *. subst. reflexivity.
Qed.
Lemma ddip_padded cap s out a b c d : 6 <= cap -> padded cap out [] -> ascii 256 s (SpecCsv2.quad_text a b c d) -> octet_digits a -> octet_digits b -> octet_digits c -> octet_digits d ->
  exists ip, ddip_2_ip s out 0 = Ok (Some ip) /\ padded cap ip [decimal_of a; decimal_of b; decimal_of c; decimal_of d].
Proof.
  intros CAP HO H DA DB DC DD. destruct (octet_number a DA) as (NA & LA). destruct (octet_number b DB) as (NB & LB). destruct (octet_number c DC) as (NC & LC). destruct (octet_number d DD) as (ND & LD).
  destruct (held_mem cap out [] (proj1 HO)) as (r & EM & LR & C & BQ & BR & CQ & S1 & M & SA & SM).
  destruct (held_mem 256 s _ (proj1 H)) as (r2 & EM2 & LR2 & C2 & BQ2 & BR2 & CQ2 & S12 & M2 & SA2 & SM2).
  unfold ddip_2_ip. rewrite SA, S1, SA2, S12. cbn [negb orb Z.eqb Pos.eqb]. rewrite (notmatch_nums s _ 0 (ascii_plain _ _ _ H)) by lia. cbn [bind].
  assert (ff false nums (SpecCsv2.quad_text a b c d) 0 = -2) as ->.
  { apply (ff_none false nums [] (SpecCsv2.quad_text a b c d) 0); [change (zlen (@nil Z)) with 0; lia|]. apply number_chars in NA, NB, NC, ND. unfold SpecCsv2.quad_text. rewrite !Forall_app. assert (forall l, Forall (fun b => 48 <= b <= 57) l -> Forall (fun b => hit false nums b = false) l) as X by (intros l; apply Forall_impl; intros x Hx; apply hit_nums; left; exact Hx).
    assert (Forall (fun b => hit false nums b = false) [46]) as Y by (constructor; [reflexivity|constructor]). auto 10. }
  change (-2 =? JS_ERROR) with false. cbv iota. rewrite (qstr_empty cap out HO). cbn [bind].
  unfold js_length. rewrite SA2, C2. pose proof (zlen_nonneg (SpecCsv2.quad_text a b c d)) as NQ. rewrite i32_small by lia. clear NQ. unfold SpecCsv2.quad_text in *. pose proof (number_len _ _ NA). rewrite zlen_app in *. match goal with |- context [zlen a + ?t <? 1] => pose proof (zlen_nonneg (([46] ++ b ++ [46] ++ c ++ [46] ++ d))) end. replace (zlen a + zlen ([46] ++ b ++ [46] ++ c ++ [46] ++ d) <? 1) with false by lia.
  destruct (pstep cap 3 s [] a (b ++ [46] ++ c ++ [46] ++ d) _ out [] H NA LA HO ltac:(change (zlen (@nil Z)) with 0; lia)) as (i1 & E1 & HI1). change (zlen (@nil Z)) with 0 in E1. rewrite E1.
  destruct (pstep cap 2 s ([] ++ a ++ [46]) b (c ++ [46] ++ d) (decimal_of b) i1 _ ltac:(rewrite <- !app_assoc; exact H) NB LB HI1 ltac:(cbn; lia)) as (i2 & -> & HI2).
  destruct (pstep cap 1 s (([] ++ a ++ [46]) ++ b ++ [46]) c d (decimal_of c) i2 _ ltac:(rewrite <- !app_assoc; exact H) NC LC HI2 ltac:(cbn; lia)) as (i3 & -> & HI3).
  destruct (plast cap s ((([] ++ a ++ [46]) ++ b ++ [46]) ++ c ++ [46]) d (decimal_of d) i3 _ ltac:(rewrite <- !app_assoc; exact H) ND LD HI3 ltac:(cbn; lia)) as (i4 & -> & HI4).
  cbn [bind]. change ((-2 <? -1) && negb (-1 =? -1)) with false. exists i4. split; [reflexivity|exact HI4].
Qed.

(** ** The data *)
Lemma new_padded J2 n : junk_ok J2 -> 0 <= n < 10000 -> exists out m, js_create J2 n 1 = Some out /\ zero_loop (Z.to_nat n) 0 (j_mem out) = Ok m /\ padded n (set_mem out m) [].
Proof.
  intros HJ N. destruct (js_create_ok J2 n 1 HJ ltac:(lia) ltac:(lia) ltac:(lia)) as (out & E & W & V & C). pose proof (value_held _ _ _ _ W V) as HO. destruct (held_mem n out [] HO) as (r & EM & LR & C2 & BQ & BR & CQ & S1 & M & SA & SM). change (zlen (@nil Z)) with 0 in *. cbn [app] in EM.
  destruct (zero_ok (Z.to_nat n) 0 (j_mem out) ltac:(lia) ltac:(rewrite EM; lia) (jw_bytes _ W)) as (m & EZ & BM & LM & _ & T). exists out, m. split; [exact E|]. split; [exact EZ|]. split; [|intros i I; change (zlen (@nil Z)) with 0 in I; cbn [set_mem j_mem]; apply T; lia].
  split; [|exact M]. split; [|split; [exact S1|unfold octets_of; cbn [set_mem j_mem j_size j_count]; rewrite C, Z.mul_0_r; reflexivity]]. destruct W as [W1 W2 W3 W4 W5]. constructor; cbn [set_mem j_mem j_size j_count j_max]; [assumption|assumption|congruence|assumption|assumption].
Qed.
Lemma nth_at l k : 0 <= k -> nth (Z.to_nat k) l 0 = at_ l k.
Proof. intros K. unfold at_, zget. replace (k <? 0) with false by lia. destruct (nth_error l (Z.to_nat k)) eqn:E; [exact (nth_error_nth _ _ _ E)|apply nth_overflow, nth_error_None, E]. Qed.
Lemma data_ok J2 s a b c d protocol num hi ports : junk_ok J2 -> ascii 256 s (SpecCsv2.quad_text a b c d) -> octet_digits a -> octet_digits b -> octet_digits c -> octet_digits d -> 0 <= hi <= 1024 -> Forall (fun p => 0 <= p <= hi) ports -> zlen ports < 10 \/ num = 0 ->
  exists out m, wks_data J2 s protocol num hi ports = Ok (Some out) /\ holding out ([decimal_of a; decimal_of b; decimal_of c; decimal_of d; protocol mod 256] ++ m) /\
    zlen m = (if (0 <? num) && (num <? 1024) then Z.max hi num else hi) / 8 + 1 /\ forall q, 0 <= q < 8 * zlen m -> port_bit m q = existsb (Z.eqb q) ports.
Proof.
  intros HJ HS DA DB DC DD HI FP LP. unfold wks_data. replace ((0 <? num) && (num <? 1024) && (10 <=? zlen ports)) with false by lia. cbv zeta.
  set (h := if (0 <? num) && (num <? 1024) && (hi <? num) then num else hi). assert ((if (0 <? num) && (num <? 1024) then Z.max hi num else hi) = h) as -> by (unfold h; destruct (0 <? num), (num <? 1024); cbn [andb]; try reflexivity; destruct (Z.ltb_spec hi num); lia).
  assert (hi <= h <= 1024) as HH by (unfold h; destruct ((0 <? num) && (num <? 1024) && (hi <? num)) eqn:E; lia). clearbody h. rewrite Z.shiftr_div_pow2 by lia. change (2 ^ 3) with 8. assert (0 <= h / 8 <= 128) as H8 by (split; [apply Z.div_pos; lia|apply Z.div_le_upper_bound; lia]).
  destruct (new_padded J2 (h / 8 + 6) HJ ltac:(lia)) as (out & m0 & -> & -> & P0). cbn [bind]. destruct (ddip_padded (h / 8 + 6) s _ a b c d ltac:(lia) P0 HS DA DB DC DD) as (ip & -> & (HP & PZ)). cbn [bind].
  destruct (held_mem _ ip _ HP) as (r & EM & LR & C & BQ & BR & CQ & S1 & M & SA & SM). change (zlen [decimal_of a; decimal_of b; decimal_of c; decimal_of d]) with 4 in *. rewrite M. replace (h / 8 + 6 <? 6 + h / 8) with false by lia.
  assert (zlen (j_mem ip) = h / 8 + 9) as LM by (rewrite EM, zlen_app; change (zlen [decimal_of a; decimal_of b; decimal_of c; decimal_of d]) with 4; lia). rewrite wr_ok by lia. cbn [bind]. replace (Z.land protocol 255) with (protocol mod 256) by (change 255 with (Z.ones 8); rewrite Z.land_ones by lia; reflexivity).
  set (m1 := zupd (j_mem ip) 4 (protocol mod 256)). assert (zlen m1 = h / 8 + 9) as L1 by (unfold m1; rewrite zlen_zupd; exact LM). assert (bytes m1) as B1 by (unfold m1; apply bytes_zupd; [exact (jw_bytes _ (proj1 (proj1 HP)))|unfold byte; apply Z.mod_pos_bound; lia]).
  destruct (bits_ok (6 + h / 8) ports m1 B1) as (m2 & -> & B2 & L2 & S2 & T2).
  { eapply Forall_impl; [|exact FP]. intros p HPP. cbv beta in HPP. assert (p / 8 <= h / 8) by (apply Z.div_le_mono; lia). lia. }
  cbn [bind]. rewrite L1 in *.
  assert (exists rest, m2 = [decimal_of a; decimal_of b; decimal_of c; decimal_of d; protocol mod 256] ++ rest) as (rest & ER).
  { assert (forall i, i < 4 -> zget m2 i = zget [decimal_of a; decimal_of b; decimal_of c; decimal_of d] i) as Q by (intros i Hi; rewrite (S2 i) by lia; unfold m1; rewrite zget_zupd_neq by lia; rewrite EM; apply zget_app_l; exact Hi).
    assert (zget m2 4 = Some (protocol mod 256)) as Q4 by (rewrite (S2 4) by lia; unfold m1; apply zget_zupd_eq; lia).
    pose proof (Q 0 ltac:(lia)) as Q0. pose proof (Q 1 ltac:(lia)) as Q1. pose proof (Q 2 ltac:(lia)) as Q2. pose proof (Q 3 ltac:(lia)) as Q3. clear -Q0 Q1 Q2 Q3 Q4. destruct m2 as [|x0 [|x1 [|x2 [|x3 [|x4 rest]]]]]; cbv -[decimal_of Z.modulo] in Q0, Q1, Q2, Q3, Q4; try discriminate. injection Q0 as ->. injection Q1 as ->. injection Q2 as ->. injection Q3 as ->. injection Q4 as ->. exists rest. reflexivity. }
  assert (zlen rest = h / 8 + 4) as LR2 by (rewrite ER, zlen_app in L2; change (zlen [decimal_of a; decimal_of b; decimal_of c; decimal_of d; protocol mod 256]) with 5 in L2; lia).
  assert (zlen (zslice rest 0 (h / 8 + 1)) = h / 8 + 1) as LZ by (unfold zslice, zlen in *; cbn [Z.to_nat skipn]; rewrite firstn_length; lia).
  eexists _, (zslice rest 0 (h / 8 + 1)). split; [reflexivity|]. split; [|split; [exact LZ|]].
  - destruct HP as ((W & _) & _). destruct W as [W1 W2 W3 W4 W5]. rewrite S1, M in *. split; [|split; [exact S1|]].
    + constructor; cbn [set_mem set_count j_mem j_size j_count j_max]; rewrite ?S1, ?M; [lia|lia|rewrite L2; lia|lia|exact B2].
    + unfold octets_of. cbn [set_mem set_count j_mem j_size j_count j_max]. rewrite S1, ER. unfold zslice. cbn [Z.to_nat skipn]. replace (Z.to_nat (1 * (6 + h / 8))) with (S (S (S (S (S (Z.to_nat (h / 8 + 1))))))) by lia. reflexivity.
  - rewrite LZ. intros q Q. assert (0 <= q / 8 < h / 8 + 1) as Q8 by (split; [apply Z.div_pos; lia|apply Z.div_lt_upper_bound; lia]). unfold port_bit.
    assert (nth (Z.to_nat (q / 8)) (zslice rest 0 (h / 8 + 1)) 0 = at_ m2 (q / 8 + 5)) as ->.
    { rewrite <- (nth_at m2) by lia. rewrite ER. replace (Z.to_nat (q / 8 + 5)) with (S (S (S (S (S (Z.to_nat (q / 8))))))) by lia. cbn [app nth]. unfold zslice. cbn [Z.to_nat skipn]. rewrite <- (firstn_skipn (Z.to_nat (h / 8 + 1)) rest) at 2. symmetry. apply app_nth1. unfold zslice, zlen in LZ. cbn [Z.to_nat skipn] in LZ. lia. }
    rewrite T2 by lia. assert (at_ m1 (q / 8 + 5) = 0) as ->; [|rewrite Z.testbit_0_l; reflexivity]. unfold at_, m1. rewrite zget_zupd_neq by lia. rewrite (PZ (q / 8 + 5)) by lia. reflexivity.
Qed.

(** The fields before the list of ports. *)
Lemma wks_prefix J J2 f sep a b c d dl sep1 p v dl1 sep2 x t : junk_ok J -> separators (f_just f :: sep) -> zlen sep < 10000 -> octet_digits a -> octet_digits b -> octet_digits c -> octet_digits d -> zlen (SpecCsv2.quad_text a b c d) <= 256 ->
  separators (dl :: sep1) -> zlen sep1 < 10000 -> number_field p v -> separators (dl1 :: sep2) -> zlen sep2 < 10000 -> 48 <= x <= 57 -> reading f (sep ++ SpecCsv2.quad_text a b c d ++ dl :: sep1 ++ p ++ dl1 :: sep2 ++ x :: t) ->
  exists o g, ascii 256 o (SpecCsv2.quad_text a b c d) /\ goes f g t /\ f_just g = x /\ csv2_get_wks J J2 f =
    let '(p, f) := port_loop (Z.to_nat 1000) x 0 0 [] (if f_hand g =? 103 then set_tilde g true else g) in match p with None => Ok (None, f) | Some (num, hi, ports) => o <- wks_data J2 o v num hi ports ;; Ok (o, f) end.
Proof.
  intros HJ (SF & SP) LS DA DB DC DD LQ S1 L1 NF S2 L2 RP R.
  pose proof (Forall_inv (proj1 S1)) as D1. pose proof (Forall_inv (proj1 S2)) as D2. destruct a as [|y a]; [destruct DA as ((NA & _) & _); congruence|].
  assert (48 <= y <= 57 /\ Forall (fun c => 48 <= c <= 57) a) as (RX & FA) by (destruct DA as ((_ & FA) & _); apply Forall_cons_iff in FA; exact FA).
  assert (forall t, SpecCsv2.quad_text (y :: a) b c d ++ dl :: t = y :: a ++ [46] ++ b ++ [46] ++ c ++ [46] ++ d ++ dl :: t) as EQ by (intros u; unfold SpecCsv2.quad_text; cbn [app]; rewrite <- !app_assoc; cbn [app]; rewrite <- !app_assoc; cbn [app]; rewrite <- !app_assoc; reflexivity). rewrite EQ in R.
  unfold csv2_get_wks. destruct (get_1st csv2_is_number y _ sep f ltac:(intros q Q; unfold delimiter in Q; unfold csv2_is_number; lia) ltac:(unfold csv2_is_number; lia) ltac:(lia) ltac:(lia) ltac:(lia) ltac:(lia) SF SP LS R) as (g & -> & G & A).
  change (negb (1 =? JS_SUCCESS)) with false. cbv iota. destruct (ddip_text J f g y a b c d dl _ HJ G A RX FA (proj2 (proj1 DB)) (proj2 (proj1 DC)) (proj2 (proj1 DD)) D1 LQ) as (o & h & -> & HO & AH). cbn [bind].
  pose proof AH as (RH & JH & _). destruct (get_num J h sep1 p v dl1 _ HJ ltac:(rewrite JH; exact S1) L1 NF D2 RH) as (h2 & -> & A2). cbn [bind]. pose proof (field_nonneg _ _ NF). replace (v <? 0) with false by lia.
  pose proof A2 as (RH2 & JH2 & _).
  destruct (get_1st csv2_is_number x t sep2 h2 ltac:(intros q Q; unfold delimiter in Q; unfold csv2_is_number; lia) ltac:(unfold csv2_is_number; lia) ltac:(lia) ltac:(lia) ltac:(lia) ltac:(lia) ltac:(rewrite JH2; exact (proj1 S2)) ltac:(rewrite JH2; exact (proj2 S2)) L2 RH2) as (h3 & -> & G3 & A3).
  change (negb (1 =? JS_SUCCESS)) with false. cbv iota. exists o, h3. split; [exact HO|]. split; [exact (goes_trans _ _ _ _ _ (after_goes_on _ _ _ _ AH) (goes_trans _ _ _ _ _ (after_goes_on _ _ _ _ A2) G3))|].
  assert (f_just h3 = x) as JX by (destruct A3 as (_ & J3 & _); rewrite J3, utf8_small by lia; reflexivity). split; [exact JX|]. cbv zeta. assert (csv2_justread (if f_hand h3 =? 103 then set_tilde h3 true else h3) = x) as ->; [|reflexivity].
  rewrite <- (at_just h3 x A3) by lia. destruct (f_hand h3 =? 103); reflexivity.
Qed.
Lemma ports_bounds tilde l : Forall (port_ok tilde) l -> Forall (fun p => 0 <= p <= highest 0 (ports_of l)) (ports_of l) /\ 0 <= highest 0 (ports_of l) <= 1024.
Proof.
  intros FL. assert (Forall (fun p => 0 <= p <= 1024) (ports_of l)) as FP. { unfold ports_of. rewrite Forall_map. eapply Forall_impl; [|exact FL]. intros (y & s) ((_ & FY) & LY & _). cbn [fst] in *. split; [exact (fold_ge y FY 0 ltac:(lia))|exact LY]. }
  split; [|split; [apply highest_ge|apply highest_le; [lia|eapply Forall_impl; [|exact FP]; cbv beta; lia]]]. apply Forall_forall. intros q Q. split; [exact (proj1 (proj1 (Forall_forall _ _) FP q Q))|apply highest_in, Q].
Qed.
Lemma ports_head tilde l : l <> [] -> Forall (port_ok tilde) l -> exists x t, ports_text l = x :: t /\ 48 <= x <= 57.
Proof.
  intros NE FL. destruct l as [|(y & s) l]; [congruence|]. apply Forall_inv in FL. destruct FL as ((NY & FY) & _). cbn [fst] in *. rewrite ports_text_cons. destruct y as [|y0 y]; [congruence|]. eexists _, _. split; [reflexivity|exact (Forall_inv FY)].
Qed.
Lemma fuel_ports l : zlen (ports_text l) < 1000 -> exists n, Z.to_nat 1000 = (length (ports_text l) + S n)%nat.
Proof. intros L. exists (Z.to_nat 1000 - length (ports_text l) - 1)%nat. unfold zlen in *. lia. Qed.
Lemma bits_map m ps q : (forall q, 0 <= q < 8 * zlen m -> port_bit m q = existsb (Z.eqb q) ps) -> 0 <= q < 8 * zlen m -> (port_bit m q = true <-> In q ps).
Proof. intros BM Q. rewrite (BM q Q), existsb_exists. split; [intros (y & I & E); apply Z.eqb_eq in E; subst y; exact I|intros I; exists q; split; [exact I|apply Z.eqb_refl]]. Qed.
Lemma map_made tilde l m : l <> [] -> Forall (port_ok tilde) l -> zlen m = highest 0 (ports_of l) / 8 + 1 -> (forall q, 0 <= q < 8 * zlen m -> port_bit m q = existsb (Z.eqb q) (ports_of l)) -> map_of (ports_of l) m.
Proof.
  intros NE FL LM BM. destruct (ports_bounds tilde l FL) as (FH & HI). split; [intros q Q; apply bits_map; assumption|]. split.
  - apply Forall_forall. intros q Q. pose proof (proj1 (Forall_forall _ _) FH q Q) as QQ. cbv beta in QQ. rewrite LM. pose proof (Z.div_mod (highest 0 (ports_of l)) 8 ltac:(lia)). pose proof (Z.mod_pos_bound (highest 0 (ports_of l)) 8 ltac:(lia)). lia.
  - destruct (highest_mem (ports_of l) 0) as [E|I]; [|exists (highest 0 (ports_of l)); split; [exact I|exact LM]]. rewrite E in *. destruct (ports_of l) as [|q r] eqn:EP; [destruct l; [congruence|discriminate]|]. exists q. split; [left; reflexivity|]. apply Forall_inv in FH. replace q with 0 by lia. exact LM.
Qed.

(** ** Any file *)
Definition ports_fine (p : option (Z * Z * list Z)) : Prop := match p with None => True | Some (num, hi, ports) => 0 <= num /\ 0 <= hi <= 1024 /\ Forall (fun p => 0 <= p <= hi) ports end.
Lemma ports_wild : forall n look num hi ports f, ports_fine (Some (num, hi, ports)) -> ports_fine (fst (port_loop n look num hi ports f)).
Proof.
  induction n as [|n IH]; intros look num hi ports f H; cbn [port_loop]; [exact H|]. destruct (negb (f_hand f =? 103) && _); [exact H|]. destruct (negb (f_hand f =? 103) && _); [exact H|]. destruct ((f_hand f =? 103) && (look =? 126)); [exact H|].
  destruct ((f_hand f =? 103) && (look =? 35)); [destruct (csv2_read_unicode (process_comment f)) as [c g]; apply IH, H|]. destruct H as (N & HI & FP). destruct (csv2_is_number look) eqn:D.
  - unfold csv2_is_number in D. cbv zeta. destruct (100000 <? _); [exact Logic.I|]. destruct (csv2_read_unicode f) as [c g]. apply IH. split; [lia|]. split; assumption.
  - destruct (csv2_is_wks look || _); [|exact Logic.I]. destruct (10 <=? zlen ports); [exact Logic.I|]. destruct (Z.ltb_spec 1024 num); [exact Logic.I|]. destruct (csv2_read_unicode f) as [c g]. apply IH. split; [lia|]. destruct (Z.ltb_spec hi num); (split; [lia|]); apply Forall_app; (split; [|constructor; [lia|constructor]]); eapply Forall_impl; try exact FP; intros p HP; cbv beta in HP; lia.
Qed.
Lemma four_any cap s l n : held 256 s l -> forall o ip y, -1 <= o <= 256 -> held cap ip y -> ProofCsv2Safe.ends (fun p => match p with None => True | Some p => exists x, held cap (snd p) x end) (four_loop n s o ip).
Proof.
  intros H. assert (plain s l) as PL by (destruct H as ((W & S1 & O) & _); constructor; assumption). destruct (held_mem 256 s l H) as (r & EM & LR & C & BQ & BR & CQ & S1 & M & SA & SM).
  induction n as [|n IH]; intros o ip y O HI; cbn [four_loop]; [apply ends_ok; exists y; exact HI|]. replace (o =? -2) with false by lia. eapply ends_bind; [apply (atoi_wild s l o H); lia|]. intros q _. destruct ((q <? 0) || (255 <? q)) eqn:Q; [apply ends_ok, Logic.I|].
  destruct (Z_lt_dec (zlen y + 1) cap) as [L|L].
  - destruct (byte_held cap ip y q HI ltac:(lia) L) as (r2 & ip' & -> & R2 & H2). cbn [bind]. unfold JS_ERROR. rewrite R2. rewrite (match_dot s l (o + 1) PL) by lia. cbn [bind]. destruct (ff true [46] l (o + 1) =? -1); [apply ends_ok, Logic.I|].
    apply (IH _ _ (y ++ [q])); [|exact H2]. unfold ff. match goal with |- context [first_from ?a ?b ?c] => pose proof (first_from_range c a b ltac:(lia)) as F end. pose proof (zlen_nonneg l). lia.
  - destruct (held_mem cap ip y HI) as (r3 & EM3 & LR3 & C3 & BQ3 & BR3 & CQ3 & S3 & M3 & SA3 & SM3). pose proof (zlen_nonneg y). unfold js_addbyte. rewrite SA3, S3, M3, C3. cbn [negb Z.eqb Pos.eqb]. replace (cap <=? u32 (zlen y + 1)) with true by (unfold u32; rewrite Z.mod_small; lia). cbn [bind]. change (JS_ERROR =? JS_ERROR) with true. cbv iota. apply ends_ok, Logic.I.
Qed.
Lemma ddip_any cap s l out : held 256 s l -> padded cap out [] -> ProofCsv2Safe.ends (fun o => match o with None => True | Some ip => exists x, held cap ip x end) (ddip_2_ip s out 0).
Proof.
  intros H HO. assert (plain s l) as PL by (destruct H as ((W & S1 & O) & _); constructor; assumption). destruct (held_mem 256 s l H) as (q & EM & LR & C & BQ & BR & CQ & S1 & M & SA & SM). destruct (held_mem cap out [] (proj1 HO)) as (q2 & EM2 & LR2 & C2 & BQ2 & BR2 & CQ2 & S2 & M2 & SA2 & SM2).
  unfold ddip_2_ip. rewrite SA, S1, SA2, S2. cbn [negb orb Z.eqb Pos.eqb]. rewrite (notmatch_nums s l 0 PL) by lia. cbn [bind]. destruct (ff false nums l 0 =? JS_ERROR); [apply ends_ok, Logic.I|]. rewrite (qstr_empty cap out HO). cbn [bind].
  destruct (js_length s <? 1); [apply ends_ok, Logic.I|]. eapply ends_bind; [apply (four_any cap s l 4 H 0 out [] ltac:(lia) (proj1 HO))|]. intros [(o4 & ip)|] D; [|apply ends_ok, Logic.I]. apply ends_ok. destruct ((ff false nums l 0 <? o4) && negb (o4 =? -1)); [exact Logic.I|exact D].
Qed.
Definition some_wks (o : option js) : Prop := match o with None => True | Some s => exists y, holding s y /\ 6 <= zlen y <= 134 end.
Lemma data_wild J2 s l protocol num hi ports : junk_ok J2 -> held 256 s l -> ports_fine (Some (num, hi, ports)) -> ProofCsv2Safe.ends some_wks (wks_data J2 s protocol num hi ports).
Proof.
  intros HJ HS (N & HI & FP). unfold wks_data. destruct ((0 <? num) && (num <? 1024) && (10 <=? zlen ports)); [apply ends_ok, Logic.I|]. cbv zeta. set (h := if (0 <? num) && (num <? 1024) && (hi <? num) then num else hi).
  assert (hi <= h <= 1024) as HH by (unfold h; destruct ((0 <? num) && (num <? 1024) && (hi <? num)) eqn:E; lia). clearbody h. rewrite Z.shiftr_div_pow2 by lia. change (2 ^ 3) with 8. assert (0 <= h / 8 <= 128) as H8 by (split; [apply Z.div_pos; lia|apply Z.div_le_upper_bound; lia]).
  destruct (new_padded J2 (h / 8 + 6) HJ ltac:(lia)) as (out & m0 & -> & -> & P0). cbn [bind]. eapply ends_bind; [apply (ddip_any _ s l _ HS P0)|]. intros [ip|] D; [|apply ends_ok, Logic.I]. destruct D as (x & HP).
  destruct (held_mem _ ip _ HP) as (r & EM & LR & C & BQ & BR & CQ & S1 & M & SA & SM). rewrite M. destruct (h / 8 + 6 <? 6 + h / 8); [apply ends_ok, Logic.I|].
  assert (zlen (j_mem ip) = h / 8 + 9) as LM by (rewrite EM, zlen_app; lia). rewrite wr_ok by lia. cbn [bind]. replace (Z.land protocol 255) with (protocol mod 256) by (change 255 with (Z.ones 8); rewrite Z.land_ones by lia; reflexivity).
  set (m1 := zupd (j_mem ip) 4 (protocol mod 256)). assert (zlen m1 = h / 8 + 9) as L1 by (unfold m1; rewrite zlen_zupd; exact LM). assert (bytes m1) as B1 by (unfold m1; apply bytes_zupd; [exact (jw_bytes _ (proj1 (proj1 HP)))|unfold byte; apply Z.mod_pos_bound; lia]).
  destruct (bits_ok (6 + h / 8) ports m1 B1) as (m2 & -> & B2 & L2 & S2 & T2).
  { eapply Forall_impl; [|exact FP]. intros p HPP. cbv beta in HPP. assert (p / 8 <= h / 8) by (apply Z.div_le_mono; lia). lia. }
  cbn [bind]. apply ends_ok. cbn [some_wks]. destruct HP as ((W & _) & _). destruct W as [W1 W2 W3 W4 W5]. rewrite S1, M in *. assert (j_wf (set_mem (set_count ip (6 + h / 8)) m2)) as W by (constructor; cbn [set_mem set_count j_mem j_size j_count j_max]; rewrite ?S1, ?M; [lia|lia|rewrite L2; lia|lia|exact B2]).
  destruct (wf_holding _ W S1) as (y & HY). exists y. split; [exact HY|]. destruct (holding_mem _ _ HY) as (CY & _). cbn [set_mem set_count j_count] in CY. lia.
Qed.
Lemma get_wks_wild J J2 f : junk_ok J -> junk_ok J2 -> ProofCsv2Safe.ends (fun p => some_wks (fst p)) (csv2_get_wks J J2 f).
Proof.
  intros HJ HJ2. unfold csv2_get_wks. destruct (csv2_get_1st f csv2_is_number 0) as [r g]. destruct (negb (r =? JS_SUCCESS)); [apply ends_ok, Logic.I|]. eapply (ends_fine (fun p => some256 (fst p))).
  - unfold process_ipv4_ddip. eapply fine_bind; [apply (first_some J g _ [] HJ); [constructor|vm_compute; discriminate]|]. intros (o & h) (_ & H). cbn [fst] in H. destruct o as [o|]; [|apply fine_ok, Logic.I]. destruct H as (l & H). eapply ddip_wild; exact H.
  - intros (o & h) H. cbn [fst some256] in H. destruct o as [s|]; [|apply ends_ok, Logic.I]. destruct H as (l & H). eapply ends_bind; [apply (get_num_any J h HJ)|]. intros (v & h2) _. destruct (v <? 0); [apply ends_ok, Logic.I|]. destruct (csv2_get_1st h2 csv2_is_number 0) as [r3 h3]. destruct (negb (r3 =? JS_SUCCESS)); [apply ends_ok, Logic.I|].
    cbv zeta. set (h4 := if f_hand h3 =? 103 then set_tilde h3 true else h3). pose proof (ports_wild (Z.to_nat 1000) (csv2_justread h4) 0 0 [] h4 ltac:(split; [lia|]; split; [lia|constructor])) as PW. destruct (port_loop (Z.to_nat 1000) (csv2_justread h4) 0 0 [] h4) as [p h5]. cbn [fst] in PW. destruct p as [((num & hi) & ports)|]; [|apply ends_ok, Logic.I].
    eapply ends_bind; [apply (data_wild J2 s l v num hi ports HJ2 H PW)|]. intros o D. apply ends_ok. exact D.
Qed.
