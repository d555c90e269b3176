(** Mailboxes and SOA data in zone files: whatever is in the file, reading them stays within memory. *)
From Verif Require Import CBase Bits ModelDwStr SpecDwStr ProofDwStr SpecNames SpecMessage SpecAcl SpecDeadwoodMsg SpecQuery ModelJsStr SpecJsStr ProofJsStr ProofJsSearch
  ModelQueries SpecQueries ProofQueries ProofDwDnsStr ProofQuestion ProofHname ProofEmail ProofSqueeze ModelDecomp SpecDecomp ProofJsList ProofDecompList ModelMaraHash SpecMaraHash ProofMaraHash
  ModelServe ProofServe ProofServeRun ProofServeSafe ModelIpAcl ProofIpAcl ModelCsv2 SpecCsv2 ProofCsv2 ProofCsv2Names ProofCsv2Any ModelCsv2Rr ProofCsv2Safe ModelCsv2Txt ProofCsv2Txt ProofCsv2TxtAny ModelCsv2Zone ProofCsv2ZoneAny
  ModelCsv2Soa SpecCsv2Soa ProofCsv2Soa.

Definition some512 (p : option js * csv2) : Prop := match fst p with None => True | Some s => exists y, held 512 s y end.
Lemma dot_wild look o f y : held 256 o y -> fine (fun p => match fst p with None => True | Some (_, s) => exists x, held 256 s x end) (mbox_dot look o f).
Proof.
  intros H. unfold mbox_dot. destruct (look =? 92); [|apply fine_ok; exists y; exact H]. destruct (csv2_read_unicode f) as [c g]. destruct (negb (c =? 46)); [apply fine_ok, Logic.I|].
  destruct (append_any o y 46 H) as (r & s' & -> & X). cbn [bind]. destruct (Z.ltb_spec r 0); [apply fine_ok, Logic.I|]. destruct X as [X|(l & HL & _)]; [lia|]. destruct (csv2_read_unicode g) as [d h]. apply fine_ok. exists (y ++ l). exact HL.
Qed.
Lemma mbox_wild : forall n first o f y, held 256 o y -> fine (fun p => some256 (fst p)) (mbox_loop n first o f).
Proof.
  induction n as [|n IH]; intros first o f y H; [eapply append_dname_wild; exact H|]. cbn [mbox_loop]. destruct (csv2_read_unicode f) as [look g].
  eapply (fine_bind (fun _ => True)).
  { destruct (first && (2 <=? j_count o)) eqn:E; [|apply fine_ok, Logic.I]. pose proof (count_held _ _ H) as C. destruct y as [|a [|b y]]; [change (zlen (@nil Z)) with 0 in C; lia|change (zlen [a]) with 1 in C; lia|]. rewrite (rd1_held _ _ _ _ H). apply fine_ok, Logic.I. }
  intros b _. destruct (b =? 46); [destruct (csv2_is_delimiter look); apply fine_ok; [exists y; exact H|exact Logic.I]|]. destruct (look =? FATAL); [apply fine_ok, Logic.I|]. destruct ((look =? 64) || (look =? 46)).
  - destruct (append_any o y look H) as (r & s' & -> & X). cbn [bind]. destruct (Z.ltb_spec r 0); [apply fine_ok, Logic.I|]. destruct X as [X|(l & HL & _)]; [lia|]. destruct (look =? 46); [|eapply append_dname_wild; exact HL]. destruct (csv2_read_unicode g) as [c h]. destruct (csv2_is_text c); [|apply fine_ok, Logic.I].
    destruct (append_any s' _ c HL) as (r2 & s2 & -> & X2). cbn [bind]. destruct (Z.ltb_spec r2 0); [apply fine_ok, Logic.I|]. destruct X2 as [X2|(l2 & HL2 & _)]; [lia|]. eapply append_dname_wild; exact HL2.
  - eapply fine_bind; [apply (dot_wild look o g y H)|]. intros (p & h) HP. cbn [fst] in HP. destruct p as [(c & s)|]; [|apply fine_ok, Logic.I]. destruct HP as (x & HX). destruct (csv2_b4_at c); [|apply fine_ok, Logic.I].
    destruct (append_any s x c HX) as (r & s' & -> & X). cbn [bind]. destruct (Z.ltb_spec r 0); [apply fine_ok, Logic.I|]. destruct X as [X|(l & HL & _)]; [lia|]. eapply IH; exact HL.
Qed.
Lemma put_wild ca s x out y (k : js -> csv2 -> res (option js * csv2)) (f : csv2) (P : option js * csv2 -> Prop) : held ca s x -> held 512 out y -> P (None, f) -> (forall o x, held 512 o x -> ends P (k o f)) ->
  ends P (' (r, o) <- js_append s out ;; if r =? JS_ERROR then Ok (None, f) else k o f).
Proof.
  intros HS HO N K. destruct (Z_lt_dec (zlen y + zlen x) 512) as [L|L].
  - destruct (append_held _ s x 512 out y HS HO L) as (s' & -> & H'). cbn [bind]. change (0 =? JS_ERROR) with false. cbv iota. exact (K _ _ H').
  - destruct (append_held_not _ s x 512 out y HS HO ltac:(lia)) as (s' & ->). cbn [bind]. apply ends_ok, N.
Qed.
Lemma names_wild J cz zone z : junk_ok J -> held cz zone z -> forall n out f y, held 512 out y -> ends some512 (mbox_names n J out f zone).
Proof.
  intros HJ HZ. induction n as [|n IH]; intros out f y HO; cbn [mbox_names]; [apply ends_ok; exists y; exact HO|]. destruct (csv2_get_1st f csv2_is_alphanum_ordot 0) as [r g]. destruct (negb (r =? JS_SUCCESS)); [apply ends_ok, Logic.I|].
  eapply (ends_fine (fun p => some256 (fst p))).
  { unfold process_mbox. eapply fine_bind; [apply (first_some J g _ [90] HJ); [constructor; [unfold byte; lia|constructor]|vm_compute; discriminate]|]. intros (o & h) (_ & H). cbn [fst] in H. destruct o as [o|]; [|apply fine_ok, Logic.I]. destruct H as (l & H). eapply mbox_wild; exact H. }
  intros (o & h) H. cbn [fst some256] in H. destruct o as [o|]; [|apply ends_ok, Logic.I]. destruct H as (x & H). eapply ends_fine; [apply (convert_wild o x cz zone z H HZ)|]. intros [o2|] H2; [|apply ends_ok, Logic.I]. destruct H2 as (x2 & H2).
  destruct (email_exact o2 x2 (proj1 H2)) as (r2 & o3 & -> & W3 & S3 & _). cbn [bind]. destruct (r2 =? JS_ERROR); [apply ends_ok, Logic.I|]. destruct (wf_holding o3 W3 S3) as (x3 & H3).
  apply (put_wild (j_max o3) o3 x3 out y (fun o f => mbox_names n J o f zone) h some512 (conj H3 eq_refl) HO Logic.I). intros o4 x4 H4. exact (IH o4 h x4 H4).
Qed.
Lemma create_512 J : junk_ok J -> exists out, js_create J 512 1 = Some out /\ held 512 out [].
Proof. intros HJ. destruct (js_create_ok J 512 1 HJ ltac:(lia) ltac:(lia) ltac:(lia)) as (s & E & W & V & _). exists s. split; [exact E|exact (value_held _ _ _ _ W V)]. Qed.
Lemma get_mbox_wild J f cz zone z count : junk_ok J -> held cz zone z -> ends some512 (csv2_get_mbox J f zone count).
Proof. intros HJ HZ. unfold csv2_get_mbox. destruct (create_512 J HJ) as (out & -> & HO). eapply names_wild; eassumption. Qed.
Lemma quad_wild t y v : held 512 t y -> fine (fun p => (fst p =? JS_ERROR) = true \/ exists x, held 512 (snd p) x) (js_adduint32 t v).
Proof.
  intros H. destruct (Z_lt_dec (zlen y + 4) 512) as [L|L].
  - assert (js_adduint32 t v = js_adduint32 t (u32 v)) as -> by (unfold js_adduint32; cbv zeta; replace (u32 (u32 v)) with (u32 v) by (unfold u32; rewrite Z.mod_mod; [reflexivity|lia]); reflexivity).
    destruct (quad_held 512 t y (u32 v) H) as (r & s' & -> & _ & H'); [unfold u32; apply Z.mod_pos_bound; lia|exact L|]. apply fine_ok. right. exists (y ++ four (u32 v)). exact H'.
  - destruct (held_mem 512 t y H) as (q & EM & LR & C & BQ & BR & CQ & S1 & M & SA & SM). unfold js_adduint32. rewrite SA, S1, M, C. cbn [negb Z.eqb Pos.eqb]. pose proof (zlen_nonneg y). replace (512 <=? u32 (zlen y + 4)) with true by (unfold u32; rewrite Z.mod_small; lia). apply fine_ok. left. reflexivity.
Qed.
Lemma numbers_wild J serial : junk_ok J -> forall n first out f y, held 512 out y -> ends some512 (soa_numbers n J first serial out f).
Proof.
  intros HJ. induction n as [|n IH]; intros first out f y HO; cbn [soa_numbers]; [apply ends_ok; exists y; exact HO|]. eapply ends_bind; [apply (get_num_any J f HJ)|]. intros (num & g) _. match goal with |- ends _ (if ?b then _ else _) => destruct b end; [apply ends_ok, Logic.I|].
  eapply ends_fine; [eapply quad_wild; exact HO|]. intros (r & o) X. cbn [fst snd] in X. destruct (r =? JS_ERROR); [apply ends_ok, Logic.I|]. destruct X as [X|(x & HX)]; [discriminate|]. eapply IH; exact HX.
Qed.
Lemma get_soa_wild J f cz zone z serial : junk_ok J -> held cz zone z -> ends some512 (csv2_get_soa J f zone serial).
Proof.
  intros HJ HZ. unfold csv2_get_soa. destruct (create_512 J HJ) as (out & -> & HO). destruct (csv2_get_1st f csv2_is_dchar 0) as [r g]. destruct (negb (r =? JS_SUCCESS)); [apply ends_ok, Logic.I|].
  eapply ends_fine; [apply (hostname_wild J g cz zone z 3 HJ HZ)|]. intros (o & h) H. cbn [fst sound] in H. destruct o as [s|]; [|apply ends_ok, Logic.I]. destruct H as (x & HX).
  apply (put_wild (j_max s) s x out [] (fun o h => ' (mbox, h) <- csv2_get_mbox J h zone 1 ;; match mbox with None => Ok (None, h) | Some mbox => ' (r, o) <- js_append mbox o ;; if r =? JS_ERROR then Ok (None, h) else soa_numbers 5 J true serial o h end) h some512 (conj HX eq_refl) HO Logic.I).
  intros o1 x1 H1. eapply ends_bind; [apply (get_mbox_wild J h cz zone z 1 HJ HZ)|]. intros (m & k) HM. unfold some512 in HM. cbn [fst] in HM. destruct m as [m|]; [|apply ends_ok, Logic.I]. destruct HM as (xm & HM).
  apply (put_wild 512 m xm o1 x1 (fun o h => soa_numbers 5 J true serial o h) k some512 HM H1 Logic.I). intros o2 x2 H2. eapply numbers_wild; eassumption.
Qed.

(** ** The numbers of accepted SOA data *)
Lemma atoi_range n : forall i mem v w, 0 <= v < 2147483648 -> atoi_loop n i mem v = Ok w -> 0 <= w < 2147483648.
Proof.
  induction n as [|n IH]; intros i mem v w V E; cbn [atoi_loop] in E; [injection E as <-; exact V|]. destruct (rd mem i) as [b| |]; try discriminate. cbn [bind] in E. destruct ((48 <=? b) && (b <=? 57)) eqn:D; [|injection E as <-; exact V]. destruct (Z.leb_spec 2147483648 (v * 10 + (b - 48))); [discriminate|]. refine (IH _ _ _ _ _ E). lia.
Qed.
Lemma num_range J f v g : csv2_get_num J f = Ok (v, g) -> -2 <= v < 2147483648.
Proof.
  unfold csv2_get_num. destruct (csv2_get_1st f csv2_is_number_orslash 0) as [r h]. destruct (negb (r =? JS_SUCCESS)); [intros E; injection E as <- _; lia|]. destruct (csv2_justread h =? 47).
  - destruct (expect _ h) as [ok k]. destruct (negb ok); [intros E; injection E as <- _; lia|]. destruct (csv2_read_unicode k) as [c k2]. intros E. injection E as <- _. destruct (csv2_is_delimiter c); lia.
  - destruct (process_something J h csv2_is_number) as [(o & k)| |]; try discriminate. cbn [bind]. destruct o as [o|]; [|intros E; injection E as <- _; lia]. destruct (rd (j_mem o) 0) as [b| |]; try discriminate. cbn [bind]. destruct ((b =? 48) && (j_count o =? 1)); [intros E; injection E as <- _; lia|].
    destruct (js_atoi o 0) as [w| |] eqn:EA; try discriminate. cbn [bind]. intros E. injection E as <- _. assert (0 <= w < 2147483648); [|destruct (w =? 0); lia]. revert EA. unfold js_atoi. destruct (negb (js_sane o)); [intros E; injection E as <-; lia|]. destruct (_ && _); [intros E; injection E as <-; lia|]. destruct (_ <=? _); [intros E; injection E as <-; lia|]. apply atoi_range. lia.
Qed.
Definition int31 (v : Z) : Prop := 0 <= v < 2147483648.
(** [vs] are numbers, and the first of them may be [serial] if [first]. *)
Definition numbers (first : bool) (serial : Z) (vs : list Z) : Prop := Forall int31 vs \/ (first = true /\ exists t, vs = serial :: t /\ Forall int31 t).
Lemma quad_exact t y v : held 512 t y -> 0 <= v < 4294967296 -> fine (fun p => (fst p =? JS_ERROR) = true \/ held 512 (snd p) (y ++ four v)) (js_adduint32 t v).
Proof.
  intros H V. destruct (Z_lt_dec (zlen y + 4) 512) as [L|L]; [destruct (quad_held 512 t y v H V L) as (r & s' & -> & _ & H'); apply fine_ok; right; exact H'|].
  destruct (held_mem 512 t y H) as (q & EM & LR & C & BQ & BR & CQ & S1 & M & SA & SM). unfold js_adduint32. rewrite SA, S1, M, C. cbn [negb Z.eqb Pos.eqb]. pose proof (zlen_nonneg y). replace (512 <=? u32 (zlen y + 4)) with true by (unfold u32; rewrite Z.mod_small; lia). apply fine_ok. left. reflexivity.
Qed.
Lemma numbers_exact J serial : junk_ok J -> 0 <= serial < 4294967296 -> forall n first out f y, held 512 out y ->
  ends (fun p => match fst p with None => True | Some s => exists vs, length vs = n /\ numbers first serial vs /\ held 512 s (y ++ concat (map four vs)) end) (soa_numbers n J first serial out f).
Proof.
  intros HJ SV. induction n as [|n IH]; intros first out f y HO; cbn [soa_numbers]; [apply ends_ok; exists []; split; [reflexivity|]; split; [left; constructor|]; rewrite app_nil_r; exact HO|].
  destruct (get_num_any J f HJ) as [((num & g) & E & _)|E]; rewrite E; [|right; reflexivity]. cbn [bind]. pose proof (num_range _ _ _ _ E) as RN. destruct (negb ((num =? -2) && first) && (num <? 0)) eqn:NG; [apply ends_ok, Logic.I|].
  set (w := if (num =? -2) && first then serial else num). assert (0 <= w < 4294967296) as W by (unfold w; destruct ((num =? -2) && first) eqn:Q; cbn [negb andb] in NG; lia).
  assert (int31 w \/ (first = true /\ w = serial)) as WW by (unfold w, int31; destruct (num =? -2) eqn:Q; destruct first; cbn [negb andb] in *; try (left; lia); right; auto).
  eapply ends_fine; [apply (quad_exact out y w HO W)|]. intros (r & o) X. cbn [fst snd] in X. destruct (r =? JS_ERROR); [apply ends_ok, Logic.I|]. destruct X as [X|HX]; [discriminate|].
  destruct (IH false o g _ HX) as [((q & g2) & E2 & D)|E2]; rewrite E2; [|right; reflexivity]. apply ends_ok. cbn [fst] in *. destruct q as [s|]; [|exact Logic.I]. destruct D as (vs & LV & NV & HS). exists (w :: vs). split; [cbn; lia|]. destruct NV as [NV|(NV & _)]; [|discriminate]. split.
  - destruct WW as [WW|(F & ->)]; [left; constructor; assumption|right; split; [exact F|]; exists vs; auto].
  - cbn [map concat]. rewrite <- app_assoc in HS. exact HS.
Qed.
Definition soa_made (serial : Z) (p : option js * csv2) : Prop := match fst p with None => True | Some s => exists pre vs, length vs = 5%nat /\ numbers true serial vs /\ holding s (pre ++ concat (map four vs)) end.
Lemma get_soa_made J f cz zone z serial : junk_ok J -> held cz zone z -> 0 <= serial < 4294967296 -> ends (soa_made serial) (csv2_get_soa J f zone serial).
Proof.
  intros HJ HZ SV. unfold csv2_get_soa. destruct (create_512 J HJ) as (out & -> & HO). destruct (csv2_get_1st f csv2_is_dchar 0) as [r g]. destruct (negb (r =? JS_SUCCESS)); [apply ends_ok, Logic.I|].
  eapply ends_fine; [apply (hostname_wild J g cz zone z 3 HJ HZ)|]. intros (o & h) H. cbn [fst sound] in H. destruct o as [s|]; [|apply ends_ok, Logic.I]. destruct H as (x & HX).
  apply (put_wild (j_max s) s x out [] (fun o h => ' (mbox, h) <- csv2_get_mbox J h zone 1 ;; match mbox with None => Ok (None, h) | Some mbox => ' (r, o) <- js_append mbox o ;; if r =? JS_ERROR then Ok (None, h) else soa_numbers 5 J true serial o h end) h (soa_made serial) (conj HX eq_refl) HO Logic.I).
  intros o1 x1 H1. eapply ends_bind; [apply (get_mbox_wild J h cz zone z 1 HJ HZ)|]. intros (m & k) HM. unfold some512 in HM. cbn [fst] in HM. destruct m as [m|]; [|apply ends_ok, Logic.I]. destruct HM as (xm & HM).
  apply (put_wild 512 m xm o1 x1 (fun o h => soa_numbers 5 J true serial o h) k (soa_made serial) HM H1 Logic.I). intros o2 x2 H2. destruct (numbers_exact J serial HJ SV 5 true o2 k x2 H2) as [((q & g2) & E2 & D)|E2]; rewrite E2; [|right; reflexivity]. apply ends_ok. unfold soa_made. cbn [fst] in *. destruct q as [t|]; [|exact Logic.I]. destruct D as (vs & LV & NV & HS). exists x2, vs. split; [exact LV|]. split; [exact NV|exact (proj1 HS)].
Qed.
