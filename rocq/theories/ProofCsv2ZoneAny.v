(** Zone files: whatever is in them, reading the whole file stays within memory, apart from known faults. *)
From Verif Require Import CBase Bits ModelDwStr SpecDwStr ProofDwStr SpecNames SpecMessage SpecAcl SpecDeadwoodMsg SpecQuery ModelJsStr SpecJsStr ProofJsStr ProofJsSearch
  ModelQueries SpecQueries ProofQueries ProofDwDnsStr ProofQuestion ProofHname ProofEmail ProofSqueeze ModelDecomp SpecDecomp ProofJsList ProofDecompList ModelMaraHash SpecMaraHash ProofMaraHash
  ModelServe ProofServe ProofServeRun ProofServeSafe ModelIpAcl ProofIpAcl ModelCsv2 SpecCsv2 ProofCsv2 ProofCsv2Names ProofCsv2Any ModelCsv2Rr ProofCsv2Safe ModelCsv2Txt ProofCsv2Txt ProofCsv2TxtAny ModelCsv2Zone.

(** ** Names of any kind *)
Definition some256 (o : option js) : Prop := match o with None => True | Some s => exists y, held 256 s y end.
Lemma dname_wild sw : forall n x state o f y, held 256 o y -> fine (fun p => some256 (fst p)) (dname_loop n x sw state o f).
Proof.
  induction n as [|n IH]; intros x state o f y H; [apply fine_ok, Logic.I|]. cbn [dname_loop]. destruct (csv2_read_unicode f) as [look g]. destruct (look =? FATAL); [apply fine_ok, Logic.I|]. cbv zeta.
  assert (forall st, fine (fun p => some256 (fst p)) (' (r, o) <- csv2_append_utf8 o look ;; if r <? 0 then Ok (None, csv2_error g) else dname_loop n (x + 1) sw st o g)) as ADD.
  { intros st. destruct (append_any o y look H) as (r & s' & -> & X). cbn [bind]. destruct (Z.ltb_spec r 0); [apply fine_ok, Logic.I|]. destruct X as [X|(l & HL & _)]; [lia|]. apply (IH _ _ _ _ _ HL). }
  assert (forall st, fine (fun p => some256 (fst p)) (Ok (Some o, st : csv2))) as SAME by (intros st; apply fine_ok; exists y; assumption).
  destruct ((look =? 46) && (state =? NON_DOT)); [apply ADD|]. destruct ((state =? NON_DOT) && csv2_is_dname look); [apply ADD|]. destruct ((look =? 35) && (state =? DOT) && (0 <? x)); [apply SAME|].
  destruct ((state =? DOT) && (look =? 37) && negb (sw =? 4) && negb (sw =? 5)).
  { destruct (append_any o y look H) as (r & s' & -> & X). cbn [bind]. destruct (Z.ltb_spec r 0); [apply fine_ok, Logic.I|]. destruct X as [X|(l & HL & _)]; [lia|]. destruct (csv2_read_unicode g) as [c h]. apply fine_ok. cbn [fst]. destruct (c =? FATAL); [exact Logic.I|]. exists (y ++ l). exact HL. }
  destruct ((state =? DOT) && csv2_is_dname look); [apply ADD|]. destruct ((state =? DOT) && (sw =? 2) && (look =? 42)); [apply ADD|]. destruct ((state =? DOT) && csv2_is_delimiter look); [apply SAME|].
  destruct ((state =? STAR) && (look =? 46)); [apply ADD|]. destruct ((state =? STAR) && csv2_is_delimiter look && (sw =? 2)); [apply SAME|]. destruct ((state =? STAR_END) && csv2_is_delimiter look); [apply SAME|]. destruct ((look =? 35) && (state =? STAR_END)); [apply SAME|]. apply fine_ok, Logic.I.
Qed.
Lemma append_dname_wild o g sw y : held 256 o y -> fine (fun p => some256 (fst p)) (js_append_dname o g sw).
Proof.
  intros H. unfold js_append_dname. cbv zeta. match goal with |- fine _ (if ?b then _ else _) => destruct b end.
  { destruct (csv2_read_unicode g) as [c h]. apply fine_ok. cbn [fst]. destruct (c =? FATAL); [exact Logic.I|]. exists y. exact H. }
  match goal with |- fine _ (if ?b then _ else _) => destruct b end; [apply fine_ok, Logic.I|]. match goal with |- fine _ (if ?b then _ else _) => destruct b end; [|eapply dname_wild; exact H].
  destruct (csv2_is_dname (csv2_justread g)); [eapply dname_wild; exact H|]. destruct (csv2_justread g =? 42); [|apply fine_ok, Logic.I]. match goal with |- fine _ (if ?b then _ else _) => destruct b end; [apply fine_ok, Logic.I|eapply dname_wild; exact H].
Qed.
Lemma process_dname_wild J g sw : junk_ok J -> fine (fun p => some256 (fst p)) (process_dname J g sw).
Proof.
  intros HJ. unfold process_dname. eapply fine_bind; [apply (first_some J g _ [90] HJ); [constructor; [unfold byte; lia|constructor]|vm_compute; discriminate]|]. intros (o & f) (_ & H). cbn [fst] in H. destruct o as [o|]; [|apply fine_ok, Logic.I]. destruct H as (l & H).
  eapply fine_bind; [apply (append_dname_wild o f sw _ H)|]. intros (o2 & f2) H2. cbn [fst some256] in H2. destruct o2 as [o2|]; [|apply fine_ok, Logic.I]. destruct H2 as (y & H2).
  destruct (Z.ltb_spec 1 (j_count o2)); [|apply fine_ok; exists y; assumption]. pose proof (count_held _ _ H2) as C2. destruct y as [|a [|b y]]; [change (zlen (@nil Z)) with 0 in C2; lia|change (zlen [a]) with 1 in C2; lia|]. rewrite (rd1_held _ _ _ _ H2). cbn [bind].
  destruct ((b =? 46) && negb (j_count o2 =? 2)); apply fine_ok; [exact Logic.I|]. exists (a :: b :: y). assumption.
Qed.
Lemma convert_wild o y cz zone z : held 256 o y -> held cz zone z -> fine some256 (csv2_convert_percent o zone).
Proof.
  intros H HZ. unfold csv2_convert_percent. destruct (held_mem 256 o _ H) as (r & E & LR & C & BQ & BR & CQ & S1 & M & SA & SM). rewrite S1. cbn [Z.eqb Pos.eqb negb]. destruct (Z.leb_spec 1 (j_count o)); [|apply fine_ok; exists y; assumption].
  destruct (list_eq_dec Z.eq_dec y []) as [-> |NE]; [change (zlen (@nil Z)) with 0 in C; lia|]. destruct (@exists_last Z y NE) as (y' & x & ->). rewrite E, C, zlen_app. change (zlen [x]) with 1. replace (zlen y' + 1 - 1) with (zlen y') by lia. rewrite <- app_assoc. cbn [app]. rewrite rd_here. cbn [bind].
  destruct (Z.eqb_spec x 37) as [-> |NX]; [|apply fine_ok; exists (y' ++ [x]); assumption].
  destruct (Z_lt_dec (zlen y' + zlen z) 256) as [L|L].
  - destruct (append_held cz zone z 256 _ y' HZ (held_cut 256 o y' [37] H) L) as (o' & -> & H'). cbn [bind]. apply fine_ok. change (0 =? JS_ERROR) with false. exists (y' ++ z). exact H'.
  - destruct (append_held_not cz zone z 256 _ y' HZ (held_cut 256 o y' [37] H) ltac:(lia)) as (o' & ->). cbn [bind]. apply fine_ok, Logic.I.
Qed.
Lemma move_wild n : forall mem i d, 0 <= i -> 0 <= d -> i + d + Z.of_nat n <= zlen mem -> bytes mem -> fine (fun m => zlen m = zlen mem /\ bytes m) (move_down n mem i d).
Proof.
  induction n as [|n IH]; intros mem i d I D L B; cbn [move_down]; [apply fine_ok; split; [reflexivity|exact B]|]. destruct (rd_ok mem (i + d) ltac:(lia)) as (b & -> & EB). cbn [bind]. rewrite wr_ok by lia. cbn [bind].
  destruct (IH (zupd mem i b) (i + 1) d) as (m & -> & LM & BM); try lia; [rewrite zlen_zupd; lia|apply bytes_zupd; [exact B|]|].
  - refine (proj1 (Forall_forall _ _) B b _); eapply zget_In; exact EB.
  - exists m. split; [reflexivity|]. rewrite zlen_zupd in LM. split; assumption.
Qed.
Lemma meta_wild s : j_wf s -> fine (fun p => j_wf (snd p) /\ (fst p = JS_ERROR \/ j_size (snd p) = 1)) (starrecord_to_meta s).
Proof.
  intros W. unfold starrecord_to_meta. destruct (negb (js_sane s)); [apply fine_ok; split; [exact W|left; reflexivity]|]. destruct (Z.eqb_spec (j_size s) 1) as [S1|S1]; cbn [negb]; [|apply fine_ok; split; [exact W|left; reflexivity]].
  destruct (Z.ltb_spec (j_count s) 2); [apply fine_ok; split; [exact W|right; exact S1]|]. pose proof (jw_mem s W) as LM. rewrite S1 in LM. pose proof (jw_count s W) as CS. pose proof (jw_bytes s W) as BM.
  destruct (rd_ok (j_mem s) 0 ltac:(lia)) as (b0 & -> & _). cbn [bind]. destruct (rd_ok (j_mem s) 1 ltac:(lia)) as (b1 & -> & _). cbn [bind].
  eapply (fine_bind (fun t => j_wf t /\ j_size t = 1)).
  - destruct ((b0 =? 1) && (b1 =? 42)); [|apply fine_ok; split; assumption]. rewrite wr_ok by lia. cbn [bind]. destruct (move_wild (Z.to_nat (j_count s - 1)) (zupd (j_mem s) 0 95) 1 1) as (m & -> & L1 & B1); try lia; [rewrite zlen_zupd; lia|apply bytes_zupd; [exact BM|unfold byte; lia]|]. cbn [bind]. apply fine_ok. split; [|exact S1]. rewrite zlen_zupd in L1. apply wf_set_count; [apply wf_set_mem; assumption|cbn [j_max set_mem]; lia].
  - clear - W. intros t (WT & ST). destruct (dlabel_length_gen t 0 WT ST ltac:(unfold i32_ok; lia)) as (r & -> & R). cbn [bind]. destruct (Z.ltb_spec (r - 3) 0); [apply fine_ok; split; [exact WT|right; exact ST]|]. destruct R as [R|(R1 & _ & R2 & _)]; [lia|].
    pose proof (jw_mem t WT) as LM. rewrite ST in LM. pose proof (jw_count t WT) as CS. pose proof (jw_bytes t WT) as BM. destruct (rd_ok (j_mem t) (r - 3) ltac:(lia)) as (c0 & -> & _). cbn [bind]. destruct (rd_ok (j_mem t) (r - 3 + 1) ltac:(lia)) as (c1 & -> & _). cbn [bind].
    destruct ((c0 =? 1) && (c1 =? 42)); [|apply fine_ok; split; [exact WT|right; exact ST]]. rewrite wr_ok by lia. cbn [bind]. destruct (move_wild (Z.to_nat (j_count t - (r - 3 + 1))) (zupd (j_mem t) (r - 3) 95) (r - 3 + 1) 2) as (m & -> & L1 & B1); try lia; [rewrite zlen_zupd; lia|apply bytes_zupd; [exact BM|unfold byte; lia]|]. cbn [bind]. apply fine_ok. rewrite zlen_zupd in L1. split; [|right; exact ST]. apply wf_set_count; [apply wf_set_mem; assumption|cbn [j_max set_mem]; lia].
Qed.
(** A string that may be read. *)
Definition sound (o : option js) : Prop := match o with None => True | Some s => exists x, holding s x end.
Lemma wf_holding s : j_wf s -> j_size s = 1 -> exists x, holding s x. Proof. intros W S1. exists (octets_of s). split; [exact W|]. split; [exact S1|reflexivity]. Qed.
Lemma hostname_wild J f cz zone z sw : junk_ok J -> held cz zone z -> fine (fun p => sound (fst p)) (csv2_get_hostname J f zone sw).
Proof.
  intros HJ HZ. unfold csv2_get_hostname. eapply fine_bind; [apply process_dname_wild, HJ|]. intros (o & g) H. cbn [fst some256] in H. destruct o as [o|]; [|apply fine_ok, Logic.I]. destruct H as (y & H).
  eapply fine_bind; [apply (convert_wild o y cz zone z H HZ)|]. intros [o2|] H2; [|apply fine_ok, Logic.I]. destruct H2 as (y2 & H2). destruct (hname_safe (if sw =? 2 then 1 else 0) o2 (proj1 (proj1 H2))) as (r & s' & -> & W). cbn [bind]. destruct (r <? 0); [apply fine_ok, Logic.I|].
  destruct (meta_wild s' W) as ((r2 & s2) & -> & W2 & X). cbn [bind fst snd] in *. apply fine_ok. cbn [fst]. destruct (Z.eqb_spec r2 JS_ERROR); [exact Logic.I|]. destruct X as [X|X]; [congruence|]. exact (wf_holding s2 W2 X).
Qed.

(** ** Data *)
Lemma mx_names_wild J cz zone z : junk_ok J -> held cz zone z -> forall n out f y, held 256 out y -> fine data_of (mx_names n J out f zone).
Proof.
  intros HJ HZ. induction n as [|n IH]; intros out f y HO; cbn [mx_names]; [apply fine_ok; exists y; exact HO|]. destruct (csv2_get_1st f csv2_is_dchar 0) as [r g]. destruct (negb (r =? JS_SUCCESS)); [apply fine_ok, Logic.I|].
  eapply fine_bind; [apply (hostname_wild J g cz zone z 3 HJ HZ)|]. intros (o & h) H. cbn [fst sound] in H. destruct o as [s|]; [|apply fine_ok, Logic.I]. destruct H as (x & HX). assert (held (j_max s) s x) as HS by (split; [exact HX|reflexivity]).
  destruct (Z_lt_dec (zlen y + zlen x) 256) as [L|L].
  - destruct (append_held _ s x 256 out y HS HO L) as (s' & -> & H'). cbn [bind]. change (0 =? JS_ERROR) with false. cbv iota. apply (IH s' h (y ++ x)); exact H'.
  - destruct (append_held_not _ s x 256 out y HS HO ltac:(lia)) as (s' & ->). cbn [bind]. apply fine_ok, Logic.I.
Qed.
Lemma mx_wild J f cz zone z pref : junk_ok J -> held cz zone z -> ends data_of (csv2_get_mx J f zone pref).
Proof.
  intros HJ HZ. unfold csv2_get_mx. eapply (ends_bind (fun p => shrinks f (snd p))).
  - destruct (pref <? 0); [apply (get_num_any J f HJ)|apply ends_ok, shr_refl].
  - intros (num & g) SG. destruct (num <? 0); [apply ends_ok, Logic.I|]. destruct (new_data J HJ) as (out & -> & HO). destruct (number_put out [] num HO) as (r & o & -> & X). cbn [bind]. destruct (Z.eqb_spec r JS_ERROR) as [ER|NR]; [apply ends_ok, Logic.I|]. destruct X as [X|(x & HX)]; [unfold JS_ERROR in NR; congruence|].
    left. exact (mx_names_wild J cz zone z HJ HZ _ o g x HX).
Qed.
Lemma srv_wild J f cz zone z : junk_ok J -> held cz zone z -> ends data_of (csv2_get_srv J f zone).
Proof.
  intros HJ HZ. unfold csv2_get_srv. destruct (new_data J HJ) as (out & -> & HO). eapply ends_bind; [apply (srv_numbers_any J 3 HJ out f [] HO)|]. intros (o & g) (SG & D). unfold data_of in D. cbn [fst snd] in *. destruct o as [o|]; [|apply ends_ok, Logic.I]. destruct D as (x & HX).
  left. exact (mx_names_wild J cz zone z HJ HZ _ o g x HX).
Qed.
(** Addresses *)
Lemma ddip_wild n : forall nums o f y, held 256 o y -> fine (fun p => some256 (fst p)) (ddip_loop n nums o f).
Proof.
  induction n as [|n IH]; intros nums o f y H; [apply fine_ok, Logic.I|]. cbn [ddip_loop]. destruct (csv2_read_unicode f) as [look g]. destruct (look =? FATAL); [apply fine_ok, Logic.I|]. cbv zeta.
  assert (forall m, fine (fun p => some256 (fst p)) (' (r, o) <- csv2_append_utf8 o look ;; if r <? 0 then Ok (None, csv2_error g) else ddip_loop n m o g)) as ADD.
  { intros m. destruct (append_any o y look H) as (r & s' & -> & X). cbn [bind]. destruct (Z.ltb_spec r 0); [apply fine_ok, Logic.I|]. destruct X as [X|(l & HL & _)]; [lia|]. apply (IH _ _ _ _ HL). }
  assert (forall st, fine (fun p => some256 (fst p)) (Ok (Some o, st : csv2))) as SAME by (intros st; apply fine_ok; exists y; assumption).
  destruct ((look =? 35) && (nums =? 4)); [apply SAME|]. destruct ((look =? 46) && (nums <? 4)); [apply ADD|]. destruct (look =? 46); [apply fine_ok, Logic.I|]. destruct (csv2_is_number look); [apply ADD|]. destruct (csv2_is_delimiter look && (nums =? 4)); [apply SAME|apply fine_ok, Logic.I].
Qed.
Lemma first_from_range g : forall n k, 0 <= k -> first_from n k g = -2 \/ k <= first_from n k g < k + Z.of_nat n.
Proof. induction n as [|n IH]; intros k K; cbn [first_from]; [left; reflexivity|]. destruct (g k); [right; lia|]. destruct (IH (k + 1) ltac:(lia)) as [E|E]; [left; exact E|right; lia]. Qed.
Lemma atoi_wild s l o : held 256 s l -> -1 <= o < 2147483648 -> ends (fun _ => True) (js_atoi s o).
Proof.
  intros H O. destruct (held_mem 256 s l H) as (r & EM & LR & C & BQ & BR & CQ & S1 & M & SA & SM). unfold js_atoi. rewrite SA. cbn [negb]. destruct (negb (j_enc s =? JS_US_ASCII) && negb (j_enc s =? JS_ISO_8859_1)); [apply ends_ok, Logic.I|]. destruct (Z.leb_spec (j_count s) (u32 o)) as [G|G]; [apply ends_ok, Logic.I|]. pose proof (zlen_nonneg l). pose proof (zlen_nonneg r).
  assert (0 <= o) by (destruct (Z.eq_dec o (-1)) as [-> |]; [change (u32 (-1)) with 4294967295 in G; lia|lia]). assert (u32 o = o) as U by (unfold u32; apply Z.mod_small; lia). rewrite U in G. apply atoi_loop_any; [lia|]. rewrite EM, zlen_app. lia.
Qed.
Lemma four_wild s l n : held 256 s l -> forall o ip y, -1 <= o <= 256 -> held 7 ip y -> ends (fun p => match p with None => True | Some p => exists x, held 7 (snd p) x end) (four_loop n s o ip).
Proof.
  intros H. assert (plain s l) as PL by (destruct H as ((W & S1 & O) & _); constructor; assumption). destruct (held_mem 256 s l H) as (r & EM & LR & C & BQ & BR & CQ & S1 & M & SA & SM).
  induction n as [|n IH]; intros o ip y O HI; cbn [four_loop]; [apply ends_ok; exists y; exact HI|]. replace (o =? -2) with false by lia. eapply ends_bind; [apply (atoi_wild s l o H); lia|]. intros q _. destruct ((q <? 0) || (255 <? q)) eqn:Q; [apply ends_ok, Logic.I|].
  destruct (Z_lt_dec (zlen y + 1) 7) as [L|L].
  - destruct (byte_held 7 ip y q HI ltac:(lia) L) as (r2 & ip' & -> & R2 & H2). cbn [bind]. unfold JS_ERROR. rewrite R2. rewrite (match_dot s l (o + 1) PL) by lia. cbn [bind]. destruct (ff true [46] l (o + 1) =? -1); [apply ends_ok, Logic.I|].
    apply (IH _ _ (y ++ [q])); [|exact H2]. unfold ff. match goal with |- context [first_from ?a ?b ?c] => pose proof (first_from_range c a b ltac:(lia)) as F end. pose proof (zlen_nonneg l). lia.
  - destruct (held_mem 7 ip y HI) as (r3 & EM3 & LR3 & C3 & BQ3 & BR3 & CQ3 & S3 & M3 & SA3 & SM3). unfold js_addbyte. rewrite SA3, S3, M3, C3. cbn [negb Z.eqb Pos.eqb]. replace (7 <=? u32 (zlen y + 1)) with true by (unfold u32; rewrite Z.mod_small; lia). cbn [bind]. change (JS_ERROR =? JS_ERROR) with true. cbv iota. apply ends_ok, Logic.I.
Qed.
Lemma get_a_wild J J2 f : junk_ok J -> junk_ok J2 -> ends (fun p => sound (fst p)) (csv2_get_a J J2 f).
Proof.
  intros HJ HJ2. unfold csv2_get_a. destruct (csv2_get_1st f csv2_is_number 0) as [r g]. destruct (negb (r =? JS_SUCCESS)); [apply ends_ok, Logic.I|]. eapply (ends_fine (fun p => some256 (fst p))).
  - unfold process_ipv4_ddip. eapply fine_bind; [apply (first_some J g _ [] HJ); [constructor|vm_compute; discriminate]|]. intros (o & h) (_ & H). cbn [fst] in H. destruct o as [o|]; [|apply fine_ok, Logic.I]. destruct H as (l & H). eapply ddip_wild; exact H.
  - intros (o & h) H. cbn [fst some256] in H. destruct o as [s|]; [|destruct (js_create J2 7 1); apply ends_ok, Logic.I]. destruct H as (l & H). destruct (js_create J2 7 1) as [out|] eqn:EC; [|apply ends_ok, Logic.I].
    destruct (js_create_ok J2 7 1 HJ2 ltac:(lia) ltac:(lia) ltac:(lia)) as (out2 & EC2 & W2 & V2 & _). rewrite EC in EC2. injection EC2 as <-. pose proof (value_held _ _ _ _ W2 V2) as HO.
    eapply (ends_bind sound); [|intros ip D; apply ends_ok; exact D]. assert (plain s l) as PL by (destruct H as ((W & S1 & O) & _); constructor; assumption). destruct (held_mem 256 s l H) as (q & EM & LR & C & BQ & BR & CQ & S1 & M & SA & SM). destruct (held_mem 7 out [] HO) as (q2 & EM2 & LR2 & C2 & BQ2 & BR2 & CQ2 & S2 & M2 & SA2 & SM2).
    unfold ddip_2_ip. rewrite SA, S1, SA2, S2. cbn [negb orb Z.eqb Pos.eqb]. rewrite (notmatch_nums s l 0 PL) by lia. cbn [bind]. destruct (ff false nums l 0 =? JS_ERROR); [apply ends_ok, Logic.I|].
    pose proof (hold_facts out [] (proj1 HO)) as [Wo So Lo Co Mo No Bo Xo Uo Oo _ _]. destruct (js_qstr2js_ok out [] Wo So ltac:(constructor) ltac:(vm_compute; reflexivity)) as (o3 & -> & WQ & VQ). cbn [bind].
    assert (held 7 o3 []) as H3. { revert VQ. rewrite M2, Uo. change (zlen (@nil Z) <=? 7) with true. cbn [andb snd]. intros VQ. unfold with_oct in VQ. rewrite unit_value, cap_value, So, M2 in VQ. apply (value_held _ _ _ _ WQ VQ). } destruct (js_length s <? 1); [apply ends_ok, Logic.I|]. eapply ends_bind; [apply (four_wild s l 4 H 0 o3 [] ltac:(lia) H3)|]. intros [(o4 & ip)|] D; [|apply ends_ok, Logic.I]. apply ends_ok. destruct ((ff false nums l 0 <? o4) && negb (o4 =? -1)); [exact Logic.I|]. destruct D as (x & D). exists x. exact (proj1 D).
Qed.

(** ** Faults that may occur: the program ends, a string is freed twice, or a number overflows *)
Lemma good_ends {A} (P : A -> Prop) r : ends P r -> good true P r. Proof. intros [(x & -> & H)| ->]; [exact H|reflexivity]. Qed.
Lemma good_fine {A} (P : A -> Prop) r : fine P r -> good true P r. Proof. intros (x & -> & H). exact H. Qed.
Lemma good_weak {A} raw (P Q : A -> Prop) r : (forall x, P x -> Q x) -> good raw P r -> good true Q r.
Proof. intros PQ. destruct r as [x| |[]]; cbn [good]; auto. Qed.
Lemma data_sound p : data_of p -> sound (fst p). Proof. unfold data_of, sound. destruct (fst p); [intros (x & H); exists x; exact (proj1 H)|auto]. Qed.
Lemma kept_sound o : kept_string o -> sound o. Proof. destruct o; [intros (x & H); exists x; exact (proj1 H)|auto]. Qed.
Definition st_ok (st : zst) : Prop := (exists cap z, held cap (z_origin st) z) /\ Forall (fun s => exists cap z, held cap s z) (z_stack st).
Lemma checked_good r : good true (fun p => sound (fst p)) r -> good true (fun p => sound (fst p)) (checked r).
Proof. intros G. unfold checked. eapply good_bind; [exact G|]. intros (o & f) H. exact H. Qed.
Definition other_ok (O : Z -> zst -> csv2 -> res (option js * csv2)) : Prop := forall t st f, st_ok st -> good true (fun p => sound (fst p)) (O t st f).
Lemma data_wild J J2 O U st f t : junk_ok J -> junk_ok J2 -> other_ok O -> st_ok st -> good true (fun p => sound (fst p)) (rr_data J J2 O U st f t).
Proof.
  intros HJ HJ2 HO ST. pose proof ST as ((cap & z & HZ) & _). unfold rr_data. cbv zeta.
  assert (forall pref, good true (fun p => sound (fst p)) (csv2_get_mx J f (z_origin st) pref)) as MX by (intros pref; eapply good_weak; [apply data_sound|apply good_ends, (mx_wild J f cap _ z pref HJ HZ)]).
  assert (forall n, good true (fun p => sound (fst p)) (csv2_get_txt J U f n)) as TX by (intros n; eapply good_weak; [intros p K; apply kept_sound, K|apply (string_good J U f n 0 HJ)]).
  assert (forall g, good true (fun p => sound (fst p)) (Ok (None, g : csv2))) as NO by (intros g; exact Logic.I).
  assert (forall t, good true (fun p => sound (fst p)) (O t st f)) as OO by (intros t'; apply HO, ST).
  destruct (one_of t _); [apply checked_good, good_ends, get_a_wild; assumption|]. destruct (one_of t _); [apply checked_good, MX|]. destruct (t =? 33); [apply checked_good; eapply good_weak; [apply data_sound|apply good_ends, (srv_wild J f cap _ z HJ HZ)]|].
  destruct (one_of t _); [apply checked_good; destruct (_ || _); [apply NO|apply TX]|]. destruct (one_of t _); [destruct (csv2_get_1st f csv2_is_dchar 0) as [r g]; destruct (negb (r =? JS_SUCCESS)); [exact Logic.I|]; apply checked_good, good_fine, (hostname_wild J g cap _ z 3 HJ HZ)|].
  destruct (t =? 13); [apply checked_good, TX|]. destruct (t =? 3); [apply checked_good, MX|]. destruct (t =? 4); [apply checked_good, MX|]. destruct (t =? 26); [apply checked_good, MX|]. destruct (t =? 27); [apply checked_good, TX|].
  destruct (one_of t _); [apply checked_good, OO|]. destruct (one_of t _); [apply checked_good; destruct (_ || _); [apply NO|apply OO]|]. destruct ((100000 <=? t) && (t <=? 165535)); [|apply checked_good, NO]. apply checked_good. destruct (one_of (t - 100000) _); [apply NO|]. eapply good_weak; [intros p K; apply kept_sound, K|apply (string_good J U f (-1) 0 HJ)].
Qed.

(** ** Commands *)
Lemma shr_hand f h : shrinks f (set_hand f h). Proof. split; [auto|apply le_n]. Qed.
Lemma shr_set_tilde f h : shrinks f (set_tilde f h). Proof. split; [auto|apply le_n]. Qed.
Lemma shr_seen f h : shrinks f (set_seen f h). Proof. split; [auto|apply le_n]. Qed.
Lemma shr_tilde f r g : csv2_tilde_processing f = (r, g) -> shrinks f g.
Proof.
  unfold csv2_tilde_processing. cbv zeta. destruct (100 <? f_hand f).
  - destruct (1 <? f_seen f); [intros [= _ <-]; apply shr_error|]. match goal with |- (if ?b then _ else _) = _ -> _ => destruct b end; [intros [= _ <-]; apply shr_error|]. intros [= _ <-]. eapply shr_trans; [|apply shr_set_tilde]. match goal with |- shrinks _ (if ?b then _ else _) => destruct b end; [apply shr_hand|apply shr_refl].
  - destruct ((0 <? f_hand f) && (f_hand f <? 20)); intros [= _ <-]; [apply shr_hand|apply shr_refl].
Qed.
Lemma shr_first_any n is_ok opt : forall c pipe f r g, first_loop n is_ok opt c pipe f = (r, g) -> shrinks f g.
Proof.
  induction n as [|n IH]; intros c pipe f r g E; cbn [first_loop] in E; [injection E as _ <-; apply shr_refl|]. destruct (csv2_read_unicode f) as [x h] eqn:ER. destruct (shr_read f x h ER) as (SH & _).
  destruct (x =? FATAL); [injection E as _ <-; exact SH|]. destruct (x =? -2); [injection E as _ <-; exact SH|]. destruct (x =? 35); [exact (shr_trans _ _ _ SH (shr_trans _ _ _ (shr_comment h) (IH _ _ _ _ _ E)))|]. destruct (negb (opt =? 1) && is_ok x); [injection E as _ <-; exact SH|].
  destruct (_ && is_ok x); [exact (shr_trans _ _ _ SH (shr_tilde _ _ _ E))|]. destruct (_ && is_ok x); [injection E as _ <-; apply shr_err, SH|]. destruct ((opt =? 1) && (x =? 46)); [exact (shr_trans _ _ _ SH (shr_tilde _ _ _ E))|].
  destruct (x =? 124); [destruct pipe; [injection E as _ <-; apply shr_err, SH|exact (shr_trans _ _ _ SH (IH _ _ _ _ _ E))]|]. destruct (_ && (100 <? f_hand h)); [exact (shr_trans _ _ _ SH (IH _ _ _ _ _ E))|]. destruct (negb (csv2_is_delimiter x)); [injection E as _ <-; apply shr_err, SH|]. exact (shr_trans _ _ _ SH (IH _ _ _ _ _ E)).
Qed.
Lemma shr_1st_any is_ok opt f r g : csv2_get_1st f is_ok opt = (r, g) -> shrinks f g.
Proof.
  unfold csv2_get_1st. cbv zeta. match goal with |- (if ?b then _ else _) = _ -> _ => destruct b end; [intros [= _ <-]; apply shr_refl|]. match goal with |- (if ?b then _ else _) = _ -> _ => destruct b end; [apply shr_tilde|]. match goal with |- (if ?b then _ else _) = _ -> _ => destruct b end; [apply shr_tilde|]. match goal with |- (if ?b then _ else _) = _ -> _ => destruct b end; [intros [= _ <-]; apply shr_error|].
  intros E. eapply shr_trans; [|exact (shr_first_any _ _ _ _ _ _ _ _ E)]. destruct (opt =? 1); [|apply shr_refl]. eapply shr_trans; [|apply shr_seen]. destruct (f_hand f =? 101); [apply shr_set_tilde|]. destruct ((f_hand f =? 102) || (f_hand f =? 103)); [apply shr_set_tilde|apply shr_refl].
Qed.
Lemma new_origin_wild J f cz origin z : junk_ok J -> held cz origin z -> fine (fun p => shrinks f (snd p) /\ some256 (fst p)) (new_origin J f origin).
Proof.
  intros HJ HZ. unfold new_origin. destruct (csv2_get_1st f csv2_is_dchar 0) as [r g] eqn:E1. pose proof (shr_1st_any _ _ _ _ _ E1) as SG. destruct (negb (r =? JS_SUCCESS)); [apply fine_ok; split; [apply shr_err, SG|exact Logic.I]|].
  eapply fine_bind; [apply (first_some J g _ [] HJ); [constructor|vm_compute; discriminate]|]. intros (o & h) (SH & H). cbn [fst snd] in *. pose proof (shr_trans _ _ _ SG SH) as S2. destruct o as [o|]; [|apply fine_ok; split; [apply shr_err, S2|exact Logic.I]]. destruct H as (l & H).
  destruct (append_dname_wild o h 3 _ H) as ((o2 & k) & EA & H2). rewrite EA. cbn [bind]. pose proof (shr_trans _ _ _ S2 (shr_append_dname _ _ _ _ _ EA)) as S3. cbn [fst some256] in H2. destruct o2 as [o2|]; [|apply fine_ok; split; [apply shr_err, S3|exact Logic.I]]. destruct H2 as (y & H2).
  destruct (convert_wild o2 y cz origin z H2 HZ) as (n & -> & HN). cbn [bind]. apply fine_ok. cbn [fst snd]. split; [|exact HN]. destruct n; [exact S3|apply shr_err, S3].
Qed.
Definition step_ok (f : csv2) (p : option zst * csv2) : Prop := (left_ (snd p) <= left_ f)%nat /\ match fst p with None => True | Some st => st_ok st end.
Lemma step_none f g : shrinks f g -> step_ok f (None, csv2_error g). Proof. intros H. split; [exact (proj2 (shr_err _ _ H))|exact Logic.I]. Qed.
Lemma command_wild J R cmd st f : junk_ok J -> (forall f, (left_ (R f) <= left_ f)%nat) -> st_ok st -> good true (step_ok f) (command J R cmd st f).
Proof.
  intros HJ HR ST. pose proof ST as ((cap & z & HZ) & HS). unfold command. destruct (csv2_read_unicode f) as [look g] eqn:ER. destruct (shr_read f look g ER) as (SG & _).
  destruct ((cmd =? 1) && csv2_is_delimiter look).
  { eapply good_bind; [apply good_ends, (get_num_any J g HJ)|]. intros (v & h) SH. cbn [snd] in SH. pose proof (shr_trans _ _ _ SG SH) as S2. destruct (v <? 0); [exact (step_none _ _ S2)|]. split; [exact (proj2 S2)|]. split; [exists cap, z; exact HZ|exact HS]. }
  destruct ((cmd =? 2) && (look =? 103)).
  { destruct (expect [105; 110] g) as [ok h] eqn:EX. pose proof (shr_trans _ _ _ SG (shr_expect _ _ _ _ EX)) as S2. destruct ok; cbn [negb]; [|exact (step_none _ _ S2)]. destruct (csv2_read_unicode h) as [l2 k] eqn:ER2. pose proof (shr_trans _ _ _ S2 (proj1 (shr_read _ _ _ ER2))) as S3. destruct (negb (csv2_is_delimiter l2)); [exact (step_none _ _ S3)|].
    eapply good_bind; [apply good_fine, (new_origin_wild J k cap _ z HJ HZ)|]. intros (n & m) (SM & HN). cbn [fst snd] in *. pose proof (shr_trans _ _ _ S3 SM) as S4. destruct n as [n|]; (split; [exact (proj2 S4)|]); [|exact Logic.I]. destruct HN as (y & HN). split; [exists 256, y; exact HN|exact HS]. }
  destruct ((cmd =? 3) && (look =? 115)).
  { destruct (expect [104] g) as [ok h] eqn:EX. pose proof (shr_trans _ _ _ SG (shr_expect _ _ _ _ EX)) as S2. destruct ok; cbn [negb]; [|exact (step_none _ _ S2)]. destruct (csv2_read_unicode h) as [l2 k] eqn:ER2. pose proof (shr_trans _ _ _ S2 (proj1 (shr_read _ _ _ ER2))) as S3. destruct (negb (csv2_is_delimiter l2)); [exact (step_none _ _ S3)|].
    eapply good_bind; [apply good_fine, (new_origin_wild J k cap _ z HJ HZ)|]. intros (n & m) (SM & HN). cbn [fst snd] in *. pose proof (shr_trans _ _ _ S3 SM) as S4. destruct n as [n|]; [|split; [exact (proj2 S4)|exact Logic.I]]. destruct ((7 <? z_height st) || (z_height st <? 0)); [exact (step_none _ _ S4)|]. split; [exact (proj2 S4)|]. destruct HN as (y & HN). split; [exists 256, y; exact HN|]. apply Forall_cons; [exists cap, z; exact HZ|exact HS]. }
  destruct ((cmd =? 4) && (look =? 112)).
  { destruct (csv2_read_unicode g) as [l2 k] eqn:ER2. pose proof (shr_trans _ _ _ SG (proj1 (shr_read _ _ _ ER2))) as S3. destruct (negb (csv2_is_delimiter l2)); [exact (step_none _ _ S3)|]. destruct ((z_height st <? 1) || (8 <? z_height st)); [exact (step_none _ _ S3)|]. destruct (z_stack st) as [|o s]; [exact (step_none _ _ S3)|]. apply Forall_cons_iff in HS as (HO & HS). split; [exact (proj2 S3)|]. split; [exact HO|exact HS]. }
  destruct ((cmd =? 5) && (look =? 100)); [|exact (step_none _ _ SG)]. split; [|exact ST]. cbn [snd]. pose proof (HR g). pose proof (proj2 SG). lia.
Qed.
Lemma slash_wild J R st f : junk_ok J -> (forall f, (left_ (R f) <= left_ f)%nat) -> st_ok st -> good true (fun p => match fst p with None => True | Some st => (left_ (snd p) < left_ f)%nat /\ st_ok st end) (slash_command J R st f).
Proof.
  intros HJ HR ST. unfold slash_command. destruct (csv2_read_unicode f) as [l1 g1] eqn:E1. destruct (shr_read _ _ _ E1) as (S1 & L1). cbv zeta. destruct (Z.eqb_spec (letter1 l1) 0) as [X|X]; [exact Logic.I|]. assert ((left_ g1 < left_ f)%nat) as LT by (destruct L1 as [L1|L1]; [exfalso; apply X; unfold letter1; replace (l1 =? 116) with false by lia; replace (l1 =? 111) with false by lia; replace (l1 =? 114) with false by lia; reflexivity|exact L1]).
  destruct (csv2_read_unicode g1) as [l2 g2] eqn:E2. destruct (shr_read _ _ _ E2) as ((_ & S2) & _). destruct (letter2 _ l2 =? 0); [exact Logic.I|]. destruct (csv2_read_unicode g2) as [l3 g3] eqn:E3. destruct (shr_read _ _ _ E3) as ((_ & S3) & _). destruct (letter3 _ l3 =? 0); [exact Logic.I|].
  eapply good_weak; [|apply (command_wild J R _ st g3 HJ HR ST)]. intros (o & h) (A & B). cbn [fst snd] in *. destruct o; [|exact Logic.I]. split; [lia|exact B].
Qed.
Lemma start_wild J R : (forall k, junk_ok (J k)) -> (forall f, (left_ (R f) <= left_ f)%nat) -> forall n st f, (left_ f < n)%nat -> st_ok st -> good true (fun p => st_ok (snd (fst p))) (rr_start n J R st f).
Proof.
  intros HJ HR. induction n as [|n IH]; intros st f L ST; [lia|]. cbn [rr_start]. destruct (csv2_get_1st f csv2_is_starwhitis_orslash 1) as [q g] eqn:E1. pose proof (proj2 (shr_1st_any _ _ _ _ _ E1)) as LG. destruct (q =? -2); [exact ST|]. destruct (q =? JS_ERROR); [exact ST|]. destruct (csv2_justread g =? 47); [|exact ST].
  eapply good_bind; [apply (slash_wild _ R st g (HJ _) HR ST)|]. intros (s & h) H. cbn [fst snd] in H. destruct s as [s|]; [|exact ST]. apply IH; [lia|exact (proj2 H)].
Qed.

(** ** Records and files *)
Definition add_ok (a : added) : Prop := sound (Some (a_name a)) /\ sound (a_data a).
Lemma ttl_wild J st f : junk_ok J -> good true (fun _ => True) (rr_ttl J st f).
Proof.
  intros HJ. unfold rr_ttl. destruct (csv2_justread f =? 43); [|exact Logic.I]. destruct (csv2_read_unicode f) as [c g]. destruct (c <? 0); [exact Logic.I|]. eapply good_bind; [apply good_ends, (get_num_any J g HJ)|]. intros (v & h) _. destruct (v <? 0); [exact Logic.I|]. destruct (csv2_get_1st h csv2_is_alphanum 0) as [r k]. exact Logic.I.
Qed.
Lemma rest_wild J O U sw st f : (forall k, junk_ok (J k)) -> other_ok O -> st_ok st -> good true (fun p => match snd (fst p) with None => True | Some a => add_ok a end) (rr_rest J O U sw st f).
Proof.
  intros HJ HO ST. pose proof ST as ((cap & z & HZ) & _). unfold rr_rest. match goal with |- good _ _ (if ?b then _ else _) => destruct b end; [exact Logic.I|]. eapply good_bind; [apply good_fine, (hostname_wild _ f cap _ z (sw + 1) (HJ (-1)) HZ)|]. intros (name & g) HN. cbn [fst] in HN. destruct name as [name|]; [|exact Logic.I].
  destruct (csv2_get_1st g csv2_is_alphanum_orplus 0) as [r h]. destruct (r <? 0); [exact Logic.I|]. eapply good_bind; [apply (ttl_wild _ st h (HJ (-2)))|]. intros (ttl & k) _. destruct ttl as [ttl|]; [|exact Logic.I]. destruct (csv2_is_alpha (csv2_justread k)).
  - eapply (good_bind true (fun _ => True)).
    + unfold csv2_get_rtype. eapply good_weak; [|apply good_ends, (rtype_any (J (-3)) _ (HJ (-3)) k (Nat.lt_succ_diag_r _))]. auto.
    + intros (t & m) _. destruct (t =? -1); [exact Logic.I|]. eapply good_bind; [apply (data_wild (J (-4)) (J (-5)) O U st m t (HJ _) (HJ _) HO ST)|]. intros (d & q) HD. cbn [fst] in HD. destruct d as [d|]; [|exact Logic.I]. split; [exact HN|exact HD].
  - destruct (csv2_is_number (csv2_justread k)); [|exact Logic.I]. eapply good_bind; [apply good_ends, (get_a_wild (J (-4)) (J (-5)) k (HJ _) (HJ _))|]. intros (d & q) HD. cbn [fst] in HD. split; [exact HN|exact HD].
Qed.
Lemma loop_wild J R O U sw n : (forall m k, junk_ok (J m k)) -> (forall f, (left_ (R f) <= left_ f)%nat) -> other_ok O -> forall st f, st_ok st -> good true (Forall add_ok) (zone_loop n J R O U sw st f).
Proof.
  intros HJ HR HO. induction n as [|n IH]; intros st f ST; cbn [zone_loop]; [constructor|]. eapply (good_bind true (fun p => st_ok (snd (fst p)) /\ match snd (fst (fst p)) with None => True | Some a => add_ok a end)).
  - unfold csv2_read_rr. eapply good_bind; [apply (start_wild (J n) R (HJ n) HR _ st f (Nat.lt_succ_diag_r _) ST)|]. intros ((q & st') & g) ST'. cbn [fst snd] in ST'. destruct (q <? 0); [split; [exact ST'|exact Logic.I]|]. eapply good_bind; [apply (rest_wild (J n) O (U n) sw st' g (HJ n) HO ST')|]. intros ((q2 & a) & h) HA. split; [exact ST'|exact HA].
  - intros (((q & a) & st') & g) (ST' & HA). cbn [fst snd] in *. destruct (q <? 0); [constructor|]. eapply good_bind; [apply (IH st' g ST')|]. intros l HL. destruct a as [a|]; [|exact HL]. apply Forall_cons; assumption.
Qed.
