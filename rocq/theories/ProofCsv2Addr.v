(** Zone files: addresses. *)
From Verif Require Import CBase Bits ModelDwStr SpecDwStr ProofDwStr ModelJsStr SpecJsStr ProofJsStr ProofJsSearch ModelIpAcl SpecIpAcl ProofIpAcl ModelQueries SpecQueries ProofHname ProofJsList ProofServe ProofServeRun
  ModelCsv2 SpecCsv2 ProofCsv2 ProofCsv2Names.

(** ** The character set of strings *)
Lemma octets_enc l : forall s r s', append_octets l s = Ok (r, s') -> j_enc s' = j_enc s.
Proof.
  induction l as [|b l IH]; intros s r s' E; cbn [append_octets] in E; [injection E as <- <-; reflexivity|]. destruct (j_max s <? j_count s + 1); [injection E as <- <-; reflexivity|].
  destruct (wr (j_mem s) (j_count s) (u8 b)) as [m| |]; try discriminate. cbn [bind] in E. rewrite (IH _ _ _ E). reflexivity.
Qed.
Lemma append_enc c s r s' : csv2_append_utf8 s c = Ok (r, s') -> j_enc s' = j_enc s.
Proof.
  unfold csv2_append_utf8. destruct (octet_string s); cbn [negb]; [|intros E; injection E as <- <-; reflexivity]. destruct (c <? 0); [intros E; injection E as <- <-; reflexivity|]. destruct (c <? 128); [apply octets_enc|].
  destruct (marked (groups 6 c)); [apply octets_enc|intros E; injection E as <- <-; reflexivity].
Qed.
Lemma qstr_enc o pre o' r : held 256 o [] -> bytes pre -> zlen pre <= 256 -> js_qstr2js o pre = Ok (r, o') -> j_enc o' = j_enc o.
Proof.
  intros HO B L E. pose proof (hold_facts o [] (proj1 HO)) as [Wo So Lo Co Mo No Bo Xo Uo Oo _ _]. destruct (js_qstr2js_ok o pre Wo So B ltac:(lia)) as (o2 & EQ & WQ & VQ). rewrite E in EQ. injection EQ as _ <-.
  assert (s_enc (value_of o') = s_enc (value_of o)) as X by (rewrite VQ; destruct ((zlen pre <=? j_max o) && usable (value_of o)); reflexivity). rewrite !enc_value in X. exact X.
Qed.
Definition ascii (cap : Z) (s : js) (l : list Z) : Prop := held cap s l /\ j_enc s = 2.
Lemma first_ascii J g c : junk_ok J -> at_char g c -> csv2_is_number c = true -> exists o, process_1stchar J g csv2_is_number [] = Ok (Some o, g) /\ ascii 256 o [c].
Proof.
  intros HJ A I. assert (48 <= c <= 57) as RC by (unfold csv2_is_number in I; lia).
  destruct (first_on J g c csv2_is_number [] HJ A ltac:(left; lia) I ltac:(constructor) ltac:(vm_compute; discriminate)) as (o & E & H). exists o. split; [exact E|]. rewrite utf8_small in H by lia. split; [exact H|].
  revert E. destruct A as (O & JU & _). unfold process_1stchar, csv2_justread. rewrite O, JU, utf8_small by lia. cbn [last]. replace ((192 <=? c) && (c <? 254)) with false by lia. replace (128 <=? c) with false by lia. replace (c =? FATAL) with false by (unfold FATAL; lia). rewrite I. cbn [negb].
  destruct (js_create_ok J 256 1 HJ ltac:(lia) ltac:(lia) ltac:(lia)) as (s & -> & W & V & _). pose proof (value_held _ _ _ _ W V) as HS. destruct (held_mem 256 s [] HS) as (r & EM & LR & C & BQ & BR & CQ & S1 & M & SA & SM).
  unfold js_set_encode. rewrite SA. cbn [negb]. change ((JS_US_ASCII <? 1) || (3 <? JS_US_ASCII)) with false. cbv iota. change (0 =? JS_ERROR) with false. cbv iota.
  set (o1 := mkjs (j_mem s) (j_size s) (j_count s) (j_max s) JS_US_ASCII).
  assert (held 256 o1 []) as HO. { split; [|exact M]. split; [|split; [exact S1|]]. - destruct W. constructor; assumption. - destruct HS as ((_ & _ & OO) & _). exact OO. }
  destruct (js_qstr2js o1 []) as [[r2 o2]| |] eqn:EQ; cbn [bind]; try discriminate. pose proof (qstr_enc o1 [] o2 r2 HO ltac:(constructor) ltac:(vm_compute; discriminate) EQ) as E2. destruct (negb (r2 =? JS_SUCCESS)); [discriminate|].
  destruct (csv2_append_utf8 o2 c) as [[r3 o3]| |] eqn:EA; cbn [bind]; try discriminate. pose proof (append_enc _ _ _ _ EA) as E3. destruct (r3 <? 0); [discriminate|]. intros E. injection E as <-. rewrite E3, E2. reflexivity.
Qed.
Lemma char_ascii s y c : ascii 256 s y -> 0 <= c < 128 -> zlen y + 1 <= 256 -> exists s', csv2_append_utf8 s c = Ok (1, s') /\ ascii 256 s' (y ++ [c]).
Proof.
  intros (H & E) C L. destruct (char_on s y c H ltac:(left; lia)) as (s' & EA & H'); [rewrite utf8_small by lia; exact L|]. rewrite utf8_small in H' by lia. exists s'. split; [exact EA|]. split; [exact H'|]. rewrite (append_enc _ _ _ _ EA). exact E.
Qed.

(** ** The text of an address is taken from the file *)
Lemma ddip_digits n nums l : forall o f rest y, Forall (fun c => 48 <= c <= 57) l -> reading f (l ++ rest) -> ascii 256 o y -> zlen y + zlen l <= 256 ->
  exists o' g, ddip_loop (length l + n) nums o f = ddip_loop n nums o' g /\ ascii 256 o' (y ++ l) /\ goes f g rest.
Proof.
  induction l as [|c l IH]; intros o f rest y F R H L.
  - exists o, f. rewrite app_nil_r. split; [reflexivity|]. split; [exact H|]. split; [exact R|auto].
  - apply Forall_cons_iff in F as (FC & F). rewrite zlen_cons in L. pose proof (zlen_nonneg l). cbn [length Nat.add ddip_loop]. rewrite (read_ascii f c (l ++ rest) R) by lia. replace (c =? FATAL) with false by (unfold FATAL; lia). replace (c =? 35) with false by lia. replace (c =? 46) with false by lia. cbv zeta. cbn [andb].
    replace (csv2_is_number c) with true by (unfold csv2_is_number; lia). destruct (char_ascii o y c H ltac:(lia) ltac:(lia)) as (o1 & -> & HO1). cbn [bind]. change (1 <? 0) with false. cbv iota.
    destruct (IH o1 (step f (l ++ rest) c) rest _ F (step_reading _ _ _) HO1 ltac:(rewrite zlen_app; change (zlen [c]) with 1; lia)) as (o' & g & -> & H' & G). exists o', g. split; [reflexivity|]. split; [rewrite <- app_assoc in H'; exact H'|]. refine (goes_trans _ _ _ _ _ _ G). split; [apply step_reading|cbn; auto].
Qed.
Lemma ddip_dot n nums o f rest y : nums < 4 -> reading f (46 :: rest) -> ascii 256 o y -> zlen y + 1 <= 256 -> exists o' g, ddip_loop (S n) nums o f = ddip_loop n (nums + 1) o' g /\ ascii 256 o' (y ++ [46]) /\ goes f g rest.
Proof.
  intros N R H L. cbn [ddip_loop]. rewrite (read_ascii f 46 rest R) by lia. change (46 =? FATAL) with false. change (46 =? 35) with false. change (46 =? 46) with true. replace (nums <? 4) with true by lia. cbv zeta. cbn [andb].
  destruct (char_ascii o y 46 H ltac:(lia) ltac:(lia)) as (o1 & -> & HO1). cbn [bind]. change (1 <? 0) with false. cbv iota. do 2 eexists. split; [reflexivity|]. split; [exact HO1|]. split; [apply step_reading|cbn; auto].
Qed.
Lemma ddip_end n o f d rest : delimiter d -> reading f (d :: rest) -> ddip_loop (S n) 4 o f = Ok (Some o, step f rest d).
Proof.
  intros D R. destruct (delim_facts d D) as (D1 & D2 & D3 & D4 & D5 & D6 & D7 & D8 & D9). cbn [ddip_loop]. rewrite (read_ascii f d rest R D2 D3 D4). replace (d =? FATAL) with false by (unfold FATAL; lia). replace (d =? 35) with false by lia. replace (d =? 46) with false by lia. cbn [andb].
  replace (csv2_is_number d) with false by (unfold delimiter in D; unfold csv2_is_number; lia). rewrite D1. reflexivity.
Qed.
Lemma ddip_text J f g x a b c d dl rest : junk_ok J -> goes f g (a ++ [46] ++ b ++ [46] ++ c ++ [46] ++ d ++ dl :: rest) -> at_char g x -> 48 <= x <= 57 ->
  Forall (fun c => 48 <= c <= 57) a -> Forall (fun c => 48 <= c <= 57) b -> Forall (fun c => 48 <= c <= 57) c -> Forall (fun c => 48 <= c <= 57) d -> delimiter dl -> zlen (quad_text (x :: a) b c d) <= 256 ->
  exists o h, process_ipv4_ddip J g = Ok (Some o, h) /\ ascii 256 o (quad_text (x :: a) b c d) /\ after_reading f h rest dl.
Proof.
  intros HJ G A X FA FB FC FD D L. unfold process_ipv4_ddip. destruct (first_ascii J g x HJ A) as (o & -> & H); [unfold csv2_is_number; lia|]. cbn [bind]. unfold quad_text in *. rewrite !zlen_app, zlen_cons in L. change (zlen [46]) with 1 in L.
  pose proof (zlen_nonneg a). pose proof (zlen_nonneg b). pose proof (zlen_nonneg c). pose proof (zlen_nonneg d).
  assert (exists n, Z.to_nat 10000 = (length a + S (length b + S (length c + S (length d + S n))))%nat) as (n & ->) by (exists (Z.to_nat 10000 - (length a + S (length b + S (length c + S (length d + 1)))))%nat; unfold zlen in *; lia).
  destruct (ddip_digits (S (length b + S (length c + S (length d + S n)))) 1 a o g _ _ FA (proj1 G) H ltac:(change (zlen [x]) with 1; lia)) as (o1 & g1 & -> & HA & G1).
  destruct (ddip_dot (length b + S (length c + S (length d + S n))) 1 o1 g1 _ _ ltac:(lia) (proj1 G1) HA ltac:(rewrite zlen_app; change (zlen [x]) with 1; lia)) as (o2 & g2 & -> & HB & G2).
  destruct (ddip_digits (S (length c + S (length d + S n))) (1 + 1) b o2 g2 _ _ FB (proj1 G2) HB ltac:(rewrite !zlen_app; change (zlen [x]) with 1; change (zlen [46]) with 1; lia)) as (o3 & g3 & -> & HC & G3).
  destruct (ddip_dot (length c + S (length d + S n)) (1 + 1) o3 g3 _ _ ltac:(lia) (proj1 G3) HC ltac:(rewrite !zlen_app; change (zlen [x]) with 1; change (zlen [46]) with 1; lia)) as (o4 & g4 & -> & HD & G4).
  destruct (ddip_digits (S (length d + S n)) (1 + 1 + 1) c o4 g4 _ _ FC (proj1 G4) HD ltac:(rewrite !zlen_app; change (zlen [x]) with 1; change (zlen [46]) with 1; lia)) as (o5 & g5 & -> & HE & G5).
  destruct (ddip_dot (length d + S n) (1 + 1 + 1) o5 g5 _ _ ltac:(lia) (proj1 G5) HE ltac:(rewrite !zlen_app; change (zlen [x]) with 1; change (zlen [46]) with 1; lia)) as (o6 & g6 & -> & HF & G6).
  destruct (ddip_digits (S n) (1 + 1 + 1 + 1) d o6 g6 (dl :: rest) _ FD (proj1 G6) HF ltac:(rewrite !zlen_app; change (zlen [x]) with 1; change (zlen [46]) with 1; lia)) as (o7 & g7 & -> & HG & G7).
  change (1 + 1 + 1 + 1) with 4. rewrite (ddip_end n o7 g7 dl rest D (proj1 G7)). do 2 eexists. split; [reflexivity|]. split; [rewrite <- !app_assoc in HG; exact HG|]. apply (step_after f g7 rest dl (dl :: rest)). exact (goes_trans _ _ _ _ _ G (goes_trans _ _ _ _ _ G1 (goes_trans _ _ _ _ _ G2 (goes_trans _ _ _ _ _ G3 (goes_trans _ _ _ _ _ G4 (goes_trans _ _ _ _ _ G5 (goes_trans _ _ _ _ _ G6 G7))))))).
Qed.

(** ** The numbers *)
Lemma ascii_plain cap s t : ascii cap s t -> plain s t. Proof. intros (((W & S1 & O) & _) & _). constructor; assumption. Qed.
Lemma atoi_ascii cap s a d r n : ascii cap s (a ++ d ++ r) -> number_text d n -> n < 2147483648 -> match r with [] => True | b :: _ => ~ (48 <= b <= 57) end -> js_atoi s (zlen a) = Ok n.
Proof.
  intros T (N0 & ND & NV) Hn Hr. pose proof (plain_len _ _ (ascii_plain _ _ _ T)) as (LN & LT & U & BT). destruct T as (((W & S1 & O) & _) & E).
  pose proof (zlen_nonneg a). assert (1 <= zlen d) as Ld by (destruct d; [contradiction|rewrite zlen_cons; pose proof (zlen_nonneg d); lia]).
  pose proof (zlen_nonneg r). rewrite !zlen_app in *.
  assert (s_atoi (value_of s) (zlen a) = n) as ES.
  { unfold s_atoi. rewrite U, enc_value, E, s_len_value, oct_value, O, LN by exact W. cbn [Z.eqb Pos.eqb orb andb].
    replace ((0 <=? zlen a) && (zlen a <? zlen a + (zlen d + zlen r))) with true by lia.
    replace (zlen a + (zlen d + zlen r) - zlen a) with (zlen (d ++ r)) by (rewrite zlen_app; lia).
    rewrite zslice_app_r by (try lia; apply zlen_nonneg). rewrite Z.sub_diag, zslice_all by lia. rewrite digits_app by assumption.
    unfold decimal. rewrite decimal_map. exact NV. }
  rewrite js_atoi_ok; try assumption; try lia. rewrite ES. reflexivity.
Qed.
Lemma four_step n s a d r v ip y : ascii 256 s (a ++ d ++ 46 :: r) -> number_text d v -> v <= 255 -> held 7 ip y -> zlen y + 1 < 7 ->
  exists ip', four_loop (S n) s (zlen a) ip = four_loop n s (zlen (a ++ d ++ [46])) ip' /\ held 7 ip' (y ++ [v]).
Proof.
  intros T N Hv HI L. cbn [four_loop]. pose proof (zlen_nonneg a). pose proof (number_len _ _ N). pose proof (number_nonneg _ _ N). pose proof (plain_len _ _ (ascii_plain _ _ _ T)) as (_ & LT & _ & _).
  replace (zlen a =? -2) with false by lia. rewrite (atoi_ascii 256 s a d (46 :: r) v T N) by lia. cbn [bind]. replace ((v <? 0) || (255 <? v)) with false by lia.
  destruct (byte_held 7 ip y v HI ltac:(lia) L) as (rr & ip' & -> & NR & HI'). cbn [bind]. change JS_ERROR with (-1). rewrite NR. cbv iota.
  rewrite !zlen_app, zlen_cons in LT. pose proof (zlen_nonneg r).
  rewrite (match_dot s _ _ (ascii_plain _ _ _ T)) by lia. cbn [bind].
  rewrite ff_at; [|lia| |rewrite hit_dot; reflexivity].
  2:{ apply (Forall_impl _ (P := fun b => 48 <= b <= 57)); [intros b Hb; rewrite hit_dot; lia|exact (number_chars _ _ N)]. }
  replace (zlen a + zlen d =? -1) with false by lia.
  replace (zlen a + zlen d + 1) with (zlen (a ++ d ++ [46])) by (rewrite !zlen_app; change (zlen [46]) with 1; lia). exists ip'. split; [reflexivity|exact HI'].
Qed.
Lemma four_last s a d v ip y : ascii 256 s (a ++ d) -> number_text d v -> v <= 255 -> held 7 ip y -> zlen y + 1 < 7 ->
  exists ip', four_loop 1 s (zlen a) ip = Ok (Some (-1, ip')) /\ held 7 ip' (y ++ [v]).
Proof.
  intros T N Hv HI L. cbn [four_loop]. pose proof (zlen_nonneg a). pose proof (number_len _ _ N). pose proof (number_nonneg _ _ N). pose proof (plain_len _ _ (ascii_plain _ _ _ T)) as (_ & LT & _ & _).
  replace (zlen a =? -2) with false by lia. assert (ascii 256 s (a ++ d ++ [])) as T' by (rewrite app_nil_r; exact T). rewrite (atoi_ascii 256 s a d [] v T' N ltac:(lia) Logic.I). cbn [bind]. replace ((v <? 0) || (255 <? v)) with false by lia.
  destruct (byte_held 7 ip y v HI ltac:(lia) L) as (rr & ip' & -> & NR & HI'). cbn [bind]. change JS_ERROR with (-1). rewrite NR. cbv iota. rewrite zlen_app in LT.
  rewrite (match_dot s _ _ (ascii_plain _ _ _ T)) by lia. cbn [bind]. rewrite ff_none; [|lia|]. 2:{ apply (Forall_impl _ (P := fun b => 48 <= b <= 57)); [intros b Hb; rewrite hit_dot; lia|exact (number_chars _ _ N)]. }
  change (-2 =? -1) with false. cbv iota. exists ip'. split; [reflexivity|exact HI'].
Qed.
Lemma octet_number d : octet_digits d -> number_text d (decimal_of d) /\ decimal_of d <= 255.
Proof. intros ((NE & F) & L). split; [|exact L]. split; [exact NE|]. split; [exact F|reflexivity]. Qed.
Lemma ddip_2_ip_ok J2 s a b c d : junk_ok J2 -> ascii 256 s (SpecCsv2.quad_text a b c d) -> octet_digits a -> octet_digits b -> octet_digits c -> octet_digits d ->
  exists out ip, js_create J2 7 1 = Some out /\ ddip_2_ip s out 0 = Ok (Some ip) /\ held 7 ip [decimal_of a; decimal_of b; decimal_of c; decimal_of d].
Proof.
  intros HJ H DA DB DC DD. destruct (octet_number a DA) as (NA & LA). destruct (octet_number b DB) as (NB & LB). destruct (octet_number c DC) as (NC & LC). destruct (octet_number d DD) as (ND & LD).
  destruct (js_create_ok J2 7 1 HJ ltac:(lia) ltac:(lia) ltac:(lia)) as (out & E & W & V & _). pose proof (value_held _ _ _ _ W V) as HO. destruct (held_mem 7 out [] HO) as (r & EM & LR & C & BQ & BR & CQ & S1 & M & SA & SM).
  destruct (held_mem 256 s _ (proj1 H)) as (r2 & EM2 & LR2 & C2 & BQ2 & BR2 & CQ2 & S12 & M2 & SA2 & SM2).
  exists out. unfold ddip_2_ip. rewrite SA, S1, SA2, S12. cbn [negb orb Z.eqb Pos.eqb]. rewrite (notmatch_nums s _ 0 (ascii_plain _ _ _ H)) by lia. cbn [bind].
  assert (ff false nums (SpecCsv2.quad_text a b c d) 0 = -2) as ->.
  { apply (ff_none false nums [] (SpecCsv2.quad_text a b c d) 0); [change (zlen (@nil Z)) with 0; lia|]. apply number_chars in NA, NB, NC, ND. unfold SpecCsv2.quad_text. rewrite !Forall_app. assert (forall l, Forall (fun b => 48 <= b <= 57) l -> Forall (fun b => hit false nums b = false) l) as X by (intros l; apply Forall_impl; intros x Hx; apply hit_nums; left; exact Hx).
    assert (Forall (fun b => hit false nums b = false) [46]) as Y by (constructor; [reflexivity|constructor]). auto 10. }
  change (-2 =? JS_ERROR) with false. cbv iota.
  pose proof (hold_facts out [] (proj1 HO)) as [Wo So Lo Co Mo No Bo Xo Uo Oo _ _]. destruct (js_qstr2js_ok out [] Wo So ltac:(constructor) ltac:(vm_compute; reflexivity)) as (ip0 & -> & WQ & VQ). cbn [bind].
  assert (held 7 ip0 []) as H0. { revert VQ. rewrite M, Uo. change (zlen (@nil Z) <=? 7) with true. cbn [andb snd]. intros VQ. unfold with_oct in VQ. rewrite unit_value, cap_value, So, M in VQ. apply (value_held _ _ _ _ WQ VQ). }
  unfold js_length. rewrite SA2, C2. pose proof (zlen_nonneg (SpecCsv2.quad_text a b c d)) as NQ. rewrite i32_small by lia. clear NQ. unfold SpecCsv2.quad_text in *. pose proof (number_len _ _ NA). rewrite zlen_app in *. match goal with |- context [zlen a + ?t <? 1] => pose proof (zlen_nonneg (([46] ++ b ++ [46] ++ c ++ [46] ++ d))) end. replace (zlen a + zlen ([46] ++ b ++ [46] ++ c ++ [46] ++ d) <? 1) with false by lia.
  destruct (four_step 3 s [] a (b ++ [46] ++ c ++ [46] ++ d) _ ip0 [] H NA LA H0 ltac:(vm_compute; reflexivity)) as (i1 & E1 & HI1). change (zlen (@nil Z)) with 0 in E1. rewrite E1.
  destruct (four_step 2 s ([] ++ a ++ [46]) b (c ++ [46] ++ d) (decimal_of b) i1 _ ltac:(rewrite <- !app_assoc; exact H) NB LB HI1 ltac:(vm_compute; reflexivity)) as (i2 & -> & HI2).
  destruct (four_step 1 s (([] ++ a ++ [46]) ++ b ++ [46]) c d (decimal_of c) i2 _ ltac:(rewrite <- !app_assoc; exact H) NC LC HI2 ltac:(vm_compute; reflexivity)) as (i3 & -> & HI3).
  destruct (four_last s ((([] ++ a ++ [46]) ++ b ++ [46]) ++ c ++ [46]) d (decimal_of d) i3 _ ltac:(rewrite <- !app_assoc; exact H) ND LD HI3 ltac:(vm_compute; reflexivity)) as (i4 & -> & HI4).
  cbn [bind]. change ((-2 <? -1) && negb (-1 =? -1)) with false. exists i4. split; [exact E|]. split; [reflexivity|exact HI4].
Qed.

(** ** What is between the fields *)
Definition pipes (l : list Z) : nat := count_occ Z.eq_dec l 124.
Lemma first_seps is_ok x rest sep : forall n c (pipe : bool) f, (forall d, delimiter d -> is_ok d = false) -> is_ok x = true -> 0 <= x < 128 -> x <> 123 -> x <> 126 -> x <> 35 -> Forall delimiter sep -> ((if pipe then 1 else 0) + pipes sep <= 1)%nat -> reading f (sep ++ x :: rest) ->
  exists g, first_loop (length sep + S n) is_ok 0 c pipe f = (1, g) /\ goes f g rest /\ at_char g x.
Proof.
  induction sep as [|d sep IH]; intros n c pipe f ND OX RX X1 X2 X3 F P R.
  - cbn [length Nat.add first_loop app] in *. destruct (read_at f x rest ltac:(left; lia) X1 X2) as (g & -> & G & A); [rewrite utf8_small by lia; exact R|]. replace (x =? FATAL) with false by (unfold FATAL; lia). replace (x =? -2) with false by lia. replace (x =? 35) with false by lia. change (0 =? 1) with false. cbn [negb andb]. rewrite OX. exists g. split; [reflexivity|]. split; [exact G|exact A].
  - apply Forall_cons_iff in F as (FD & F). destruct (delim_facts d FD) as (D1 & D2 & D3 & D4 & D5 & D6 & D7 & D8 & D9). cbn [length Nat.add first_loop app] in *. rewrite (read_ascii f d _ R D2 D3 D4).
    replace (d =? FATAL) with false by (unfold FATAL; lia). replace (d =? -2) with false by lia. replace (d =? 35) with false by lia. change (0 =? 1) with false. cbn [negb andb]. rewrite (ND d FD). replace (d =? 126) with false by lia. rewrite D1. cbn [negb andb].
    assert (pipes (d :: sep) = if d =? 124 then S (pipes sep) else pipes sep) as PE by (unfold pipes; destruct (Z.eqb_spec d 124) as [-> |NE]; [apply count_occ_cons_eq; reflexivity|apply count_occ_cons_neq; exact NE]). rewrite PE in P.
    assert (forall p, ((if p : bool then 1 else 0) + pipes sep <= 1)%nat -> exists g, first_loop (length sep + S n) is_ok 0 d p (step f (sep ++ x :: rest) d) = (1, g) /\ goes f g rest /\ at_char g x) as K.
    { intros p PP. destruct (IH n d p (step f (sep ++ x :: rest) d) ND OX RX X1 X2 X3 F PP (step_reading _ _ _)) as (g & E & G & A). exists g. split; [exact E|]. split; [|exact A]. refine (goes_trans _ _ _ _ _ _ G). split; [apply step_reading|cbn; auto]. }
    destruct (d =? 124); [destruct pipe; [lia|apply K; lia]|apply K, P].
Qed.
Lemma get_1st is_ok x rest sep f : (forall d, delimiter d -> is_ok d = false) -> is_ok x = true -> 0 <= x < 128 -> x <> 123 -> x <> 126 -> x <> 35 -> Forall delimiter (f_just f :: sep) -> (pipes (f_just f :: sep) <= 1)%nat -> zlen sep < 10000 -> reading f (sep ++ x :: rest) ->
  exists g, csv2_get_1st f is_ok 0 = (1, g) /\ goes f g rest /\ at_char g x.
Proof.
  intros ND OX RX X1 X2 X3 F P L R. apply Forall_cons_iff in F as (FD & F). destruct (delim_facts _ FD) as (D1 & D2 & D3 & D4 & D5 & D6 & D7 & D8 & D9). unfold csv2_get_1st, csv2_justread. rewrite (proj1 R). replace (127 <? f_just f) with false by lia. rewrite (ND _ FD). change (0 =? 1) with false. cbn [negb andb]. rewrite D1. cbn [negb]. rewrite andb_false_r. cbn [andb].
  assert (exists n, Z.to_nat 10000 = (length sep + S n)%nat) as (n & ->) by (exists (Z.to_nat 10000 - length sep - 1)%nat; unfold zlen in *; lia).
  apply first_seps; try assumption. unfold pipes in *. destruct (Z.eqb_spec (f_just f) 124) as [EQ|NE].
  - rewrite count_occ_cons_eq in P by exact EQ. lia.
  - rewrite count_occ_cons_neq in P by exact NE. lia.
Qed.
