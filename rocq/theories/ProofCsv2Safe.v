(** Zone files: whatever is in them, reading numbers, types, MX and SRV records stays within memory and ends. *)
From Verif Require Import CBase Bits ModelDwStr SpecDwStr ProofDwStr SpecNames SpecMessage SpecAcl SpecDeadwoodMsg SpecQuery ModelJsStr SpecJsStr ProofJsStr ProofJsSearch
  ModelQueries SpecQueries ProofQueries ProofDwDnsStr ProofQuestion ProofHname ProofSqueeze ModelDecomp SpecDecomp ProofJsList ProofDecompList ModelMaraHash SpecMaraHash ProofMaraHash
  ModelServe ProofServe ProofServeRun ProofServeSafe ModelIpAcl ModelCsv2 SpecCsv2 ProofCsv2 ProofCsv2Names ProofCsv2Any ModelCsv2Rr.

(** ** What reading does to a file *)
(** The last character outside of ASCII: none so far, or one. *)
Definition uni_ok (f : csv2) : Prop := f_uni f <> 42.
Definition left_ (f : csv2) : nat := length (f_rest f).
Definition shrinks (f g : csv2) : Prop := (uni_ok f -> uni_ok g) /\ (left_ g <= left_ f)%nat.
Lemma shr_refl f : shrinks f f. Proof. split; [auto|lia]. Qed.
Lemma shr_trans f g h : shrinks f g -> shrinks g h -> shrinks f h. Proof. intros (A & B) (C & D). split; [auto|lia]. Qed.
Lemma shr_error f : shrinks f (csv2_error f). Proof. split; [auto|apply le_n]. Qed.
Lemma shr_err f g : shrinks f g -> shrinks f (csv2_error g). Proof. intros H. exact (shr_trans _ _ _ H (shr_error g)). Qed.
Lemma shr_readchar f c g : csv2_readchar f = (c, g) -> shrinks f g /\ (c = -2 \/ (left_ g < left_ f)%nat).
Proof.
  unfold csv2_readchar. destruct (f_ok f); cbn [negb]; [|intros [= <- <-]; split; [apply shr_refl|left; reflexivity]]. destruct (f_rest f) as [|x rest] eqn:R; [intros [= <- <-]; split; [apply shr_refl|left; reflexivity]|]. cbv zeta. cbn [f_brace f_tilde f_uni f_ok].
  unfold shrinks, left_, uni_ok. destruct ((x =? 123) && _); [intros [= <- <-]; cbn; rewrite R; cbn; split; [split; [auto|lia]|right; lia]|]. destruct ((x =? 126) && _); intros [= <- <-]; cbn; rewrite R; cbn; (split; [split; [auto|lia]|right; lia]).
Qed.
Lemma shr_utf8_loop n : forall out f r g, utf8_loop n out f = (r, g) -> shrinks f g.
Proof.
  induction n as [|n IH]; intros out f r g E; cbn [utf8_loop] in E; [injection E as _ <-; apply shr_refl|]. destruct (csv2_readchar f) as [c h] eqn:ER. destruct (shr_readchar f c h ER) as (SH & _).
  destruct (c =? -2); [injection E as _ <-; apply shr_err, SH|]. destruct ((c <? 128) || (192 <=? c)); [injection E as _ <-; apply shr_err, SH|]. exact (shr_trans _ _ _ SH (IH _ _ _ _ E)).
Qed.
Lemma get_utf8_any f c g : csv2_get_utf8 f = (c, g) -> shrinks f g /\ (c = FATAL \/ (128 <= c /\ csv2_justread g <> 42)).
Proof.
  unfold csv2_get_utf8. cbv zeta. destruct (csv2_utf8_length (csv2_justread f) <? 2) eqn:G2; [intros [= <- <-]; split; [apply shr_error|left; reflexivity]|]. destruct (utf8_loop _ _ f) as [[o|] h] eqn:EU; pose proof (shr_utf8_loop _ _ _ _ _ EU) as SH; [|intros [= <- <-]; split; [exact SH|left; reflexivity]].
  match goal with |- (if ?b then _ else _) = _ -> _ => destruct b eqn:G end; [intros [= <- <-]; split; [apply shr_err, SH|left; reflexivity]|]. intros [= <- <-].
  assert (128 <= o) as O128 by (apply orb_false_iff in G as (G & _); apply orb_false_iff in G as (G & _); apply orb_false_iff in G as (G & _); apply orb_false_iff in G as (G & _); lia).
  split; [|right; split; [exact O128|]].
  - refine (shr_trans _ _ _ SH _). unfold set_uni. destruct (f_ok h); [|apply shr_refl]. split; [intros _; unfold uni_ok; cbn [f_uni]; lia|apply le_n].
  - unfold set_uni, csv2_justread. destruct (f_ok h) eqn:OH; cbn [f_ok f_just]; [|rewrite OH; lia]. rewrite ?OH. destruct (utf8_loop_just _ _ _ _ _ EU OH) as [X|X]; lia.
Qed.
Lemma shr_read f c g : csv2_read_unicode f = (c, g) -> shrinks f g /\ (c < 0 \/ (left_ g < left_ f)%nat).
Proof.
  unfold csv2_read_unicode. destruct (csv2_readchar f) as [x h] eqn:ER. destruct (shr_readchar f x h ER) as (SH & LT). destruct (Z.ltb_spec x 0); [intros [= <- <-]; split; [exact SH|left; lia]|]. destruct (Z.ltb_spec 127 x); [|intros [= <- <-]; split; [exact SH|destruct LT; [lia|right; assumption]]].
  intros E. destruct (get_utf8_any h c g E) as (SG & _). split; [exact (shr_trans _ _ _ SH SG)|]. right. destruct SG as (_ & SG). destruct LT; lia.
Qed.
Lemma shr_comment_loop n : forall f b g, comment_loop n f = (b, g) -> shrinks f g.
Proof.
  induction n as [|n IH]; intros f b g E; cbn [comment_loop] in E; [injection E as _ <-; apply shr_error|]. destruct (csv2_readchar f) as [c h] eqn:ER. destruct (shr_readchar f c h ER) as (SH & _). cbv zeta in E.
  set (h' := if c =? 126 then set_seen h (f_seen h - 1) else h) in *. assert (shrinks f h') as SH' by (subst h'; destruct (c =? 126); [|exact SH]; exact SH). clearbody h'.
  destruct n as [|n]; [injection E as _ <-; apply shr_err, SH'|]. destruct (negb (c =? 10) && negb (c =? 13) && negb (c =? -2)); [exact (shr_trans _ _ _ SH' (IH _ _ _ E))|injection E as _ <-; exact SH'].
Qed.
Lemma shr_comment f : shrinks f (process_comment f).
Proof.
  unfold process_comment. destruct (comment_loop (Z.to_nat 5000) (set_tilde f true)) as [ok g] eqn:E. pose proof (shr_comment_loop _ _ _ _ E) as SH. destruct ok; exact SH.
Qed.
Lemma shr_first_loop n is_ok : forall c pipe f r g, first_loop n is_ok 0 c pipe f = (r, g) -> shrinks f g.
Proof.
  induction n as [|n IH]; intros c pipe f r g E; cbn [first_loop] in E; [injection E as _ <-; apply shr_refl|]. destruct (csv2_read_unicode f) as [x h] eqn:ER. destruct (shr_read f x h ER) as (SH & _). change (0 =? 1) with false in E. rewrite ?andb_false_r in E. cbn [negb andb] in E.
  destruct (x =? FATAL); [injection E as _ <-; exact SH|]. destruct (x =? -2); [injection E as _ <-; exact SH|]. destruct (x =? 35); [exact (shr_trans _ _ _ SH (shr_trans _ _ _ (shr_comment h) (IH _ _ _ _ _ E)))|]. destruct (is_ok x); [injection E as _ <-; exact SH|].
  destruct (x =? 124); [destruct pipe; [injection E as _ <-; apply shr_err, SH|exact (shr_trans _ _ _ SH (IH _ _ _ _ _ E))]|]. destruct (negb (csv2_is_delimiter x)); [injection E as _ <-; apply shr_err, SH|]. exact (shr_trans _ _ _ SH (IH _ _ _ _ _ E)).
Qed.
Lemma shr_get_1st is_ok f r g : csv2_get_1st f is_ok 0 = (r, g) -> shrinks f g.
Proof.
  unfold csv2_get_1st. cbv zeta. change (0 =? 1) with false. cbn [negb andb]. destruct (is_ok _); [intros [= _ <-]; apply shr_refl|]. match goal with |- (if ?b then _ else _) = _ -> _ => destruct b end; [intros [= _ <-]; apply shr_error|]. apply shr_first_loop.
Qed.

(** ** Words and numbers *)
(** No fault but the overflow of a number. *)
Definition ends {A} (P : A -> Prop) (r : res A) : Prop := fine P r \/ r = Bad SignedOverflow.
Lemma ends_ok {A} (P : A -> Prop) x : P x -> ends P (Ok x). Proof. intros H. left. apply fine_ok, H. Qed.
Lemma ends_fine {A B} (Q : A -> Prop) (P : B -> Prop) r k : fine Q r -> (forall x, Q x -> ends P (k x)) -> ends P (bind r k).
Proof. intros (x & -> & H) K. cbn [bind]. apply K, H. Qed.
Lemma ends_bind {A B} (Q : A -> Prop) (P : B -> Prop) r k : ends Q r -> (forall x, Q x -> ends P (k x)) -> ends P (bind r k).
Proof. intros [H| ->] K; [exact (ends_fine _ _ _ _ H K)|]. right. reflexivity. Qed.

Lemma first_some J g is_ok pre : junk_ok J -> bytes pre -> zlen pre <= 250 -> fine (fun p => shrinks g (snd p) /\ match fst p with None => True | Some o => exists l, held 256 o (pre ++ l) end) (process_1stchar J g is_ok pre).
Proof.
  intros HJ B L. unfold process_1stchar. destruct (new_held J pre HJ B ltac:(lia)) as (s & o & o' & -> & -> & EQ & H).
  set (p := if (192 <=? csv2_justread g) && (csv2_justread g <? 254) then csv2_get_utf8 g else if 128 <=? csv2_justread g then (csv2_get_unicode g, g) else (csv2_justread g, g)).
  assert (shrinks g (snd p)) as SH. { subst p. destruct ((192 <=? csv2_justread g) && (csv2_justread g <? 254)); [|destruct (128 <=? csv2_justread g); apply shr_refl]. destruct (csv2_get_utf8 g) as [c h] eqn:E. exact (proj1 (get_utf8_any g c h E)). }
  clearbody p. destruct p as [look h]. cbn [snd] in SH. destruct (look =? FATAL); [apply fine_ok; split; [exact SH|exact Logic.I]|]. destruct (negb (is_ok look)); [apply fine_ok; split; [apply shr_err, SH|exact Logic.I]|]. change (0 =? JS_ERROR) with false. cbv iota. rewrite EQ. cbn [bind]. change (negb (1 =? JS_SUCCESS)) with false. cbv iota.
  destruct (append_any o' pre look H) as (r & s' & -> & X). cbn [bind]. destruct (Z.ltb_spec r 0); [apply fine_ok; split; [apply shr_err, SH|exact Logic.I]|]. destruct X as [X|(l & HL & _)]; [lia|]. apply fine_ok. split; [exact SH|]. exists l. exact HL.
Qed.
Definition some_held (f : csv2) (p : option js * csv2) : Prop := shrinks f (snd p) /\ match fst p with None => True | Some o => (left_ (snd p) < left_ f)%nat /\ exists l, held 256 o l end.
Lemma something_any is_ok : (forall c, is_ok c = true -> 0 <= c) -> forall n o f y, held 256 o y -> (left_ f < n)%nat -> fine (some_held f) (something_loop n is_ok o f).
Proof.
  intros POS. induction n as [|n IH]; intros o f y H L; [lia|]. cbn [something_loop]. destruct (csv2_read_unicode f) as [look g] eqn:ER. destruct (shr_read f look g ER) as (SH & LT). unfold some_held.
  destruct (look =? FATAL); [apply fine_ok; split; [exact SH|exact Logic.I]|].
  destruct (Z.eqb_spec look 35) as [-> |N35]; [apply fine_ok; cbn [fst snd]; pose proof (shr_comment g) as SC; split; [exact (shr_trans _ _ _ SH SC)|]; split; [destruct SC; destruct LT; lia|exists y; exact H]|].
  destruct (negb (is_ok look) && negb (csv2_is_delimiter look)) eqn:G; [apply fine_ok; split; [apply shr_err, SH|exact Logic.I]|].
  assert ((left_ g < left_ f)%nat) as LG. { destruct LT as [LT|LT]; [exfalso|exact LT]. destruct (is_ok look) eqn:I; [apply POS in I; lia|]. cbn [negb andb] in G. unfold csv2_is_delimiter in G. lia. }
  destruct (is_ok look); [|apply fine_ok; split; [exact SH|]; split; [exact LG|exists y; exact H]].
  destruct (append_any o y look H) as (r & s' & -> & X). cbn [bind]. destruct (Z.ltb_spec r 0); [apply fine_ok; split; [apply shr_err, SH|exact Logic.I]|]. destruct X as [X|(l & HL & _)]; [lia|].
  eapply fine_weak; [apply (IH s' g _ HL); lia|]. intros (o2 & h) (S2 & X2). split; [exact (shr_trans _ _ _ SH S2)|]. cbn [fst snd] in *. destruct o2; [|exact Logic.I]. destruct X2 as (L2 & H2). split; [lia|exact H2].
Qed.
Lemma process_any J g is_ok : junk_ok J -> (forall c, is_ok c = true -> 0 <= c) -> fine (some_held g) (process_something J g is_ok).
Proof.
  intros HJ POS. unfold process_something. eapply fine_bind; [apply (first_some J g is_ok [] HJ); [constructor|vm_compute; discriminate]|]. intros (o & f) (SH & H). cbn [fst snd] in *. destruct o as [o|]; [|apply fine_ok; split; [exact SH|exact Logic.I]]. destruct H as (l & H).
  eapply fine_weak; [apply (something_any is_ok POS _ o f _ H); unfold left_; lia|]. intros (o2 & h) (S2 & X2). split; [exact (shr_trans _ _ _ SH S2)|]. cbn [fst snd] in *. destruct o2; [|exact Logic.I]. destruct X2 as (L2 & H2). split; [destruct SH; lia|exact H2].
Qed.
Lemma atoi_loop_any n : forall i mem v, 0 <= i -> i + Z.of_nat n <= zlen mem -> ends (fun _ => True) (atoi_loop n i mem v).
Proof.
  induction n as [|n IH]; intros i mem v I L; cbn [atoi_loop]; [apply ends_ok, Logic.I|]. destruct (rd_ok mem i ltac:(lia)) as (b & -> & _). cbn [bind]. destruct ((48 <=? b) && (b <=? 57)); [|apply ends_ok, Logic.I]. destruct (2147483648 <=? v * 10 + (b - 48)); [right; reflexivity|]. apply IH; lia.
Qed.
Lemma atoi_any s l : held 256 s l -> ends (fun _ => True) (js_atoi s 0).
Proof.
  intros H. destruct (held_mem 256 s l H) as (r & EM & LR & C & BQ & BR & CQ & S1 & M & SA & SM). unfold js_atoi. rewrite SA. cbn [negb]. destruct (negb (j_enc s =? JS_US_ASCII) && negb (j_enc s =? JS_ISO_8859_1)); [apply ends_ok, Logic.I|]. destruct (j_count s <=? u32 0); [apply ends_ok, Logic.I|]. pose proof (zlen_nonneg l). apply atoi_loop_any; [lia|]. rewrite EM, zlen_app. lia.
Qed.
Lemma shr_expect l : forall f b g, expect l f = (b, g) -> shrinks f g.
Proof. induction l as [|c l IH]; intros f b g E; cbn [expect] in E; [injection E as _ <-; apply shr_refl|]. destruct (csv2_read_unicode f) as [x h] eqn:ER. destruct (shr_read f x h ER) as (SH & _). destruct (x =? c); [exact (shr_trans _ _ _ SH (IH _ _ _ E))|injection E as _ <-; exact SH]. Qed.
Lemma get_num_any J f : junk_ok J -> ends (fun p => shrinks f (snd p)) (csv2_get_num J f).
Proof.
  intros HJ. unfold csv2_get_num. destruct (csv2_get_1st f csv2_is_number_orslash 0) as [r g] eqn:E1. pose proof (shr_get_1st _ _ _ _ E1) as SG. destruct (negb (r =? JS_SUCCESS)); [apply ends_ok, SG|]. destruct (csv2_justread g =? 47).
  - destruct (expect _ g) as [ok h] eqn:EX. pose proof (shr_trans _ _ _ SG (shr_expect _ _ _ _ EX)) as SH. destruct (negb ok); [apply ends_ok, SH|]. destruct (csv2_read_unicode h) as [c k] eqn:ER. apply ends_ok. exact (shr_trans _ _ _ SH (proj1 (shr_read h c k ER))).
  - eapply ends_fine; [apply (process_any J g csv2_is_number HJ); unfold csv2_is_number; intros c X; lia|]. intros (o & h) (SH & X). cbn [fst snd] in *. pose proof (shr_trans _ _ _ SG SH) as SF. destruct o as [o|]; [|apply ends_ok, SF]. destruct X as (_ & l & H).
    destruct (held_mem 256 o l H) as (q & EM & LR & C & BQ & BR & CQ & S1 & M & SA & SM). pose proof (zlen_nonneg l). pose proof (zlen_nonneg q). destruct (rd_ok (j_mem o) 0 ltac:(rewrite EM, zlen_app; lia)) as (b & -> & _). cbn [bind]. destruct ((b =? 48) && (j_count o =? 1)); [apply ends_ok, SF|].
    eapply ends_bind; [apply (atoi_any o l H)|]. intros v _. apply ends_ok, SF.
Qed.

(** ** Types *)
Lemma same_as_any J s l : junk_ok J -> j_wf s -> j_size s = 1 -> Forall (fun p => bytes (fst p) /\ zlen (fst p) <= 1024) l -> fine (fun _ => True) (same_as J l s).
Proof. intros HJ W S1 F. induction F as [|(k & n) l (BK & LK) F IH]; [apply fine_ok, Logic.I|]. cbn [same_as fst] in *. rewrite (js_qissame_ok J k s HJ W S1 BK LK). cbn [bind]. destruct (_ =? 1); [apply fine_ok, Logic.I|exact IH]. Qed.
Lemma numeric_any J s l : junk_ok J -> held 256 s l -> fine (fun _ => True) (csv2_numeric_rtype J s).
Proof.
  intros HJ H. pose proof (hold_facts s l (proj1 H)) as [W S1 L C M N B X U O _ _]. unfold csv2_numeric_rtype, js_set_encode. rewrite X. cbn [negb]. change ((JS_US_ASCII <? 1) || (3 <? JS_US_ASCII)) with false. cbv iota.
  set (t := mkjs (j_mem s) (j_size s) (j_count s) (j_max s) JS_US_ASCII). assert (held 256 t l) as HT. { split; [|exact (proj2 H)]. split; [destruct W; constructor; assumption|]. split; [exact S1|exact O]. }
  pose proof (hold_facts t l (proj1 HT)) as [Wt St Lt Ct Mt Nt Bt Xt Ut Ot _ _]. destruct (js_tolower_ok t Wt) as (s' & -> & W' & V'). unfold s_tolower in *. revert V'. rewrite Ut, unit_value, enc_value, St, oct_value, Ot. change (j_enc t) with 2. cbn [negb orb Z.eqb Pos.eqb fst snd bind]. intros V'. change (1 =? JS_ERROR) with false. cbv iota.
  unfold with_oct in V'. rewrite unit_value, cap_value, St in V'. destruct (value_held _ _ _ _ W' V') as ((_ & S2 & _) & _).
  apply same_as_any; [exact HJ|exact W'|exact S2|]. assert (forallb (fun p => bytesb (fst p) && (zlen (fst p) <=? 1024)) rtypes = true) as FB by (vm_compute; reflexivity). rewrite forallb_forall in FB. apply Forall_forall. intros p I. specialize (FB p I). apply andb_prop in FB as (F1 & F2). split; [apply bytesb_spec, F1|lia].
Qed.
Lemma rtype_any J n : junk_ok J -> forall f, (left_ f < n)%nat -> ends (fun p => shrinks f (snd p)) (rtype_loop n J f).
Proof.
  intros HJ. induction n as [|n IH]; intros f L; [lia|]. cbn [rtype_loop]. destruct (csv2_get_1st f csv2_is_alpha 0) as [r g] eqn:E1. pose proof (shr_get_1st _ _ _ _ E1) as SG. destruct (negb (r =? JS_SUCCESS)); [apply ends_ok, SG|].
  eapply ends_fine; [apply (process_any J g csv2_is_text HJ); unfold csv2_is_text, csv2_is_alphanum, csv2_is_alpha, csv2_is_number; intros c X; lia|]. intros (o & h) (SH & X). cbn [fst snd] in *. pose proof (shr_trans _ _ _ SG SH) as SF. destruct o as [o|]; [|apply ends_ok, SF]. destruct X as (LT & l & H).
  eapply ends_fine; [apply (numeric_any J o l HJ H)|]. intros ret _. destruct (ret =? -3).
  - destruct (csv2_get_1st h csv2_is_number 0) as [r2 k] eqn:E2. pose proof (shr_trans _ _ _ SF (shr_get_1st _ _ _ _ E2)) as SK. destruct (r2 <? 0); [apply ends_ok; apply shr_err, SK|]. eapply ends_bind; [apply (get_num_any J k HJ)|]. intros (v & m) SM. cbn [snd] in SM. pose proof (shr_trans _ _ _ SK SM). destruct (v <? 0); [apply ends_ok; assumption|]. destruct (2147483648 <=? v + 100000); [right; reflexivity|apply ends_ok; assumption].
  - destruct ((ret =? -1) || (ret =? 0)); [apply ends_ok, SF|]. destruct ((ret <=? -2) && (-11 <=? ret)); [|apply ends_ok, SF]. destruct (IH h ltac:(destruct SG; lia)) as [(p & -> & SP)| ->]; [apply ends_ok, (shr_trans _ _ _ SF SP)|right; reflexivity].
Qed.

(** ** Host names *)
Lemma first_star J g is_ok : junk_ok J -> uni_ok g -> fine (fun p => shrinks g (snd p) /\ match fst p with None => True | Some o => exists l, held 256 o (90 :: l) /\ (csv2_justread (snd p) <> 42 -> ~ In 42 l) /\ (csv2_justread (snd p) = 42 -> l = [42]) end) (process_1stchar J g is_ok [90]).
Proof.
  intros HJ UO. unfold process_1stchar. destruct (new_held J [90] HJ ltac:(constructor; [unfold byte; lia|constructor]) ltac:(vm_compute; discriminate)) as (s & o & o' & -> & -> & EQ & H).
  assert (exists look h, (if (192 <=? csv2_justread g) && (csv2_justread g <? 254) then csv2_get_utf8 g else if 128 <=? csv2_justread g then (csv2_get_unicode g, g) else (csv2_justread g, g)) = (look, h) /\ shrinks g h /\ (look = FATAL \/ (look = 42 <-> csv2_justread h = 42))) as (look & h & -> & SH & LK).
  { destruct ((192 <=? csv2_justread g) && (csv2_justread g <? 254)) eqn:G1.
    - destruct (csv2_get_utf8 g) as [c h] eqn:E. destruct (get_utf8_any g c h E) as (SH & X). exists c, h. split; [reflexivity|]. split; [exact SH|]. destruct X as [X|(X & Y)]; [left; exact X|right; lia].
    - destruct (Z.leb_spec 128 (csv2_justread g)) as [G2|G2].
      + exists (csv2_get_unicode g), g. split; [reflexivity|]. split; [apply shr_refl|]. right. unfold csv2_get_unicode. unfold uni_ok in UO. destruct (f_ok g); lia.
      + exists (csv2_justread g), g. split; [reflexivity|]. split; [apply shr_refl|right; reflexivity]. }
  destruct (Z.eqb_spec look FATAL) as [EF|NF]; [apply fine_ok; split; [exact SH|exact Logic.I]|]. destruct LK as [LK|LK]; [congruence|]. destruct (negb (is_ok look)); [apply fine_ok; split; [apply shr_err, SH|exact Logic.I]|]. change (0 =? JS_ERROR) with false. cbv iota. rewrite EQ. cbn [bind]. change (negb (1 =? JS_SUCCESS)) with false. cbv iota.
  destruct (append_any o' [90] look H) as (r & s' & -> & X). cbn [bind]. destruct (Z.ltb_spec r 0); [apply fine_ok; split; [apply shr_err, SH|exact Logic.I]|]. destruct X as [X|(l & HL & NL & E42 & _)]; [lia|]. apply fine_ok. cbn [fst snd]. split; [exact SH|]. exists l. split; [exact HL|]. split; [intros N; apply NL; intros E; apply N, LK, E|intros E; apply E42, LK, E].
Qed.
Lemma shr_dname sw n : forall x state o f r g, dname_loop n x sw state o f = Ok (r, g) -> shrinks f g.
Proof.
  induction n as [|n IH]; intros x state o f r g E; cbn [dname_loop] in E; [injection E as _ <-; apply shr_refl|]. destruct (csv2_read_unicode f) as [look h] eqn:ER. destruct (shr_read f look h ER) as (SH & _). destruct (look =? FATAL); [injection E as _ <-; exact SH|]. cbv zeta in E.
  assert (forall st, (' (r, o) <- csv2_append_utf8 o look ;; if r <? 0 then Ok (None, csv2_error h) else dname_loop n (x + 1) sw st o h) = Ok (r, g) -> shrinks f g) as ADD.
  { intros st EA. destruct (csv2_append_utf8 o look) as [[q o1]| |]; cbn [bind] in EA; try discriminate. destruct (q <? 0); [injection EA as _ <-; apply shr_err, SH|]. exact (shr_trans _ _ _ SH (IH _ _ _ _ _ _ EA)). }
  destruct ((look =? 46) && (state =? NON_DOT)); [exact (ADD _ E)|]. destruct ((state =? NON_DOT) && csv2_is_dname look); [exact (ADD _ E)|]. destruct ((look =? 35) && (state =? DOT) && (0 <? x)); [injection E as _ <-; exact (shr_trans _ _ _ SH (shr_comment h))|].
  destruct ((state =? DOT) && (look =? 37) && negb (sw =? 4) && negb (sw =? 5)).
  { destruct (csv2_append_utf8 o look) as [[q o1]| |]; cbn [bind] in E; try discriminate. destruct (q <? 0); [injection E as _ <-; apply shr_err, SH|]. destruct (csv2_read_unicode h) as [c k] eqn:EK. injection E as _ <-. exact (shr_trans _ _ _ SH (proj1 (shr_read h c k EK))). }
  destruct ((state =? DOT) && csv2_is_dname look); [exact (ADD _ E)|]. destruct ((state =? DOT) && (sw =? 2) && (look =? 42)); [exact (ADD _ E)|]. destruct ((state =? DOT) && csv2_is_delimiter look); [injection E as _ <-; exact SH|]. destruct ((state =? STAR) && (look =? 46)); [exact (ADD _ E)|].
  destruct ((state =? STAR) && csv2_is_delimiter look && (sw =? 2)); [injection E as _ <-; exact SH|]. destruct ((state =? STAR_END) && csv2_is_delimiter look); [injection E as _ <-; exact SH|]. destruct ((look =? 35) && (state =? STAR_END)); [injection E as _ <-; exact (shr_trans _ _ _ SH (shr_comment h))|]. injection E as _ <-. apply shr_err, SH.
Qed.
Lemma shr_append_dname o f sw r g : js_append_dname o f sw = Ok (r, g) -> shrinks f g.
Proof.
  unfold js_append_dname. cbv zeta. destruct (((csv2_justread f =? 37) && negb ((sw =? 4) || (sw =? 5))) || (csv2_justread f =? 46)); [destruct (csv2_read_unicode f) as [c h] eqn:ER; intros [= _ <-]; exact (proj1 (shr_read f c h ER))|].
  destruct ((csv2_justread f =? 37) && ((sw =? 4) || (sw =? 5))); [intros [= _ <-]; apply shr_error|]. destruct (negb (sw =? 0) && negb (sw =? 5)); [|apply shr_dname]. destruct (csv2_is_dname (csv2_justread f)); [apply shr_dname|]. destruct (csv2_justread f =? 42); [|intros [= _ <-]; apply shr_error].
  destruct ((sw =? 0) || (sw =? 3) || (sw =? 4) || (sw =? 5)); [intros [= _ <-]; apply shr_error|apply shr_dname].
Qed.
Lemma process_dname_star J g sw : junk_ok J -> uni_ok g -> In sw [1; 3; 4] -> fine (fun p => shrinks g (snd p) /\ opt_held shape p) (process_dname J g sw).
Proof.
  intros HJ UO SI. unfold process_dname. eapply fine_bind; [apply first_star; assumption|]. intros (o & f) (SH & H). cbn [fst snd] in *. destruct o as [o|]; [|apply fine_ok; split; [exact SH|exact Logic.I]]. destruct H as (l & H & N & E).
  destruct (append_dname_any o f sw l SI H N E) as ((o2 & f2) & EA & H2). rewrite EA. cbn [bind]. pose proof (shr_trans _ _ _ SH (shr_append_dname _ _ _ _ _ EA)) as S2. unfold opt_held in H2. cbn [fst] in H2. destruct o2 as [o2|]; [|apply fine_ok; split; [exact S2|exact Logic.I]]. destruct H2 as (y & H2 & SHP).
  destruct (Z.ltb_spec 1 (j_count o2)); [|apply fine_ok; split; [exact S2|exists y; split; assumption]]. pose proof (count_held _ _ H2) as C2. destruct y as [|a [|b y]]; [change (zlen (@nil Z)) with 0 in C2; lia|change (zlen [a]) with 1 in C2; lia|]. rewrite (rd1_held _ _ _ _ H2). cbn [bind].
  destruct ((b =? 46) && negb (j_count o2 =? 2)); apply fine_ok; [split; [apply shr_err, S2|exact Logic.I]|]. split; [exact S2|]. exists (a :: b :: y). split; assumption.
Qed.
Lemma hostname_star J f cz zone z sw : junk_ok J -> uni_ok f -> In sw [1; 3; 4] -> held cz zone z -> ~ In 42 z -> fine (fun p => shrinks f (snd p) /\ name_taken (fst p)) (csv2_get_hostname J f zone sw).
Proof.
  intros HJ UO SI HZ NZ. unfold csv2_get_hostname. eapply fine_bind; [apply process_dname_star; [exact HJ|exact UO|exact SI]|]. intros (o & g) (SG & H). unfold opt_held in H. cbn [fst snd] in *. destruct o as [o|]; [|apply fine_ok; split; [exact SG|exact Logic.I]]. destruct H as (y & H & SH).
  eapply fine_bind; [apply (convert_any o y cz zone z); assumption|]. intros [o2|] H2; [|apply fine_ok; split; [exact SG|exact Logic.I]]. clear y H SH. destruct H2 as (y & H & SH). replace (sw =? 2) with false by (cbn [In] in SI; lia).
  destruct (hname_exact o2 y (proj1 H)) as (r & s' & E & W & S1 & M & X). rewrite E. cbn [bind]. destruct (Z.ltb_spec r 0); [apply fine_ok; split; [exact SG|exact Logic.I]|]. destruct (X ltac:(lia) ltac:(lia)) as (c & n & EY & TY & TK).
  assert (holding s' (wire n)) as HW.
  { subst y. destruct n as [|l n]; [destruct (hname_root 0 o2 c r (proj1 H) TY) as (s2 & E2 & HW & _)|destruct TK as (G & D & LT); destruct (hname_good 0 o2 c r (l :: n) (proj1 H) TY ltac:(discriminate) G D LT) as (s2 & E2 & HW & _)]; rewrite E in E2; injection E2 as <-; exact HW. }
  assert (held 256 s' (wire n)) as HH by (split; [exact HW|rewrite M; exact (proj2 H)]).
  destruct SH as [(t & ET & NT)|(t & ET & NT)].
  - rewrite EY in ET. injection ET as _ <-. pose proof (text_starless n NT) as SL. rewrite (meta_plain s' n HH (proj1 TK) SL (wire_short _ TK)). cbn [bind]. apply fine_ok. cbn [fst snd]. split; [exact SG|]. change (1 =? JS_ERROR) with false. exists n. split; [exact TK|]. split; [exact SL|left; exact HW].
  - rewrite EY in ET. injection ET as _ ET. destruct (text_star n t ET (proj1 (proj2 TK))) as (n' & -> & ->). destruct (meta_star s' n' HH) as (s2 & -> & H2). cbn [bind]. apply fine_ok. cbn [fst snd]. split; [exact SG|]. change (1 =? JS_ERROR) with false. exists n'. destruct TK as (G & D & LT). apply Forall_cons_iff in G as (_ & G). apply Forall_cons_iff in D as (_ & D).
    split; [split; [exact G|split; [exact D|]]|]; [|split; [|right; exact (proj1 H2)]].
    + rewrite text_dots, dots_cons, zlen_app, !zlen_cons in LT by discriminate. change (zlen (@nil Z)) with 0 in LT. destruct n'; [vm_compute; discriminate|]. rewrite text_dots by discriminate. lia.
    + apply text_starless. destruct n' as [|a n']; [intros [I|[]]; discriminate|]. rewrite text_dots by discriminate. exact NT.
Qed.

(** ** MX and SRV *)
Lemma name_taken_holding s : name_taken (Some s) -> exists x, holding s x.
Proof. intros (n & _ & _ & [H|H]); eexists; exact H. Qed.
Definition data_of (p : option js * csv2) : Prop := match fst p with None => True | Some s => exists x, held 256 s x end.
Lemma mx_names_any J cz zone z : junk_ok J -> held cz zone z -> ~ In 42 z -> forall n out f y, uni_ok f -> held 256 out y -> fine data_of (mx_names n J out f zone).
Proof.
  intros HJ HZ NZ. induction n as [|n IH]; intros out f y UO HO; cbn [mx_names]; [apply fine_ok; exists y; exact HO|]. destruct (csv2_get_1st f csv2_is_dchar 0) as [r g] eqn:E1. pose proof (shr_get_1st _ _ _ _ E1) as SG. destruct (negb (r =? JS_SUCCESS)); [apply fine_ok, Logic.I|].
  eapply fine_bind; [apply (hostname_star J g cz zone z 3 HJ (proj1 SG UO) ltac:(cbn; auto) HZ NZ)|]. intros (o & h) (SH & H). cbn [fst snd] in *. destruct o as [s|]; [|apply fine_ok, Logic.I]. destruct (name_taken_holding s H) as (x & HX). assert (held (j_max s) s x) as HS by (split; [exact HX|reflexivity]).
  destruct (Z_lt_dec (zlen y + zlen x) 256) as [L|L].
  - destruct (append_held _ s x 256 out y HS HO L) as (s' & -> & H'). cbn [bind]. change (0 =? JS_ERROR) with false. cbv iota. apply (IH s' h (y ++ x)); [exact (proj1 SH (proj1 SG UO))|exact H'].
  - destruct (append_held_not _ s x 256 out y HS HO ltac:(lia)) as (s' & ->). cbn [bind]. apply fine_ok, Logic.I.
Qed.
Lemma number_put out y v : held 256 out y -> exists r s', js_adduint16 out v = Ok (r, s') /\ (r = -1 \/ exists x, held 256 s' x).
Proof.
  intros H. destruct (Z_le_dec 0 v) as [L|L]; [destruct (Z_le_dec v 65535) as [U|U]|].
  - destruct (word_held 256 out y v H ltac:(lia)) as (r & s' & E & X & Y). exists r, s'. split; [exact E|]. destruct (Z_lt_dec (zlen y + 2) 256) as [Q|Q]; [right; exists (y ++ be 2 v); exact (proj2 (X Q))|left; apply Y; lia].
  - destruct (held_mem 256 out y H) as (q & EM & LR & C & BQ & BR & CQ & S1 & M & SA & SM). exists (-1), out. split; [|left; reflexivity]. unfold js_adduint16. rewrite SA, S1. cbn [negb Z.eqb Pos.eqb]. replace ((v <? 0) || (65535 <? v)) with true by lia. reflexivity.
  - destruct (held_mem 256 out y H) as (q & EM & LR & C & BQ & BR & CQ & S1 & M & SA & SM). exists (-1), out. split; [|left; reflexivity]. unfold js_adduint16. rewrite SA, S1. cbn [negb Z.eqb Pos.eqb]. replace ((v <? 0) || (65535 <? v)) with true by lia. reflexivity.
Qed.
Lemma new_data J : junk_ok J -> exists out, js_create J 256 1 = Some out /\ held 256 out [].
Proof. intros HJ. destruct (js_create_ok J 256 1 HJ ltac:(lia) ltac:(lia) ltac:(lia)) as (s & E & W & V & _). exists s. split; [exact E|exact (value_held _ _ _ _ W V)]. Qed.
Lemma mx_any J f cz zone z pref : junk_ok J -> uni_ok f -> held cz zone z -> ~ In 42 z -> ends data_of (csv2_get_mx J f zone pref).
Proof.
  intros HJ UO HZ NZ. unfold csv2_get_mx. eapply (ends_bind (fun p => shrinks f (snd p))).
  - destruct (pref <? 0); [apply (get_num_any J f HJ)|apply ends_ok, shr_refl].
  - intros (num & g) SG. cbn [snd] in SG. destruct (num <? 0); [apply ends_ok, Logic.I|]. destruct (new_data J HJ) as (out & -> & HO). destruct (number_put out [] num HO) as (r & o & -> & X). cbn [bind]. destruct (Z.eqb_spec r JS_ERROR) as [ER|NR]; [apply ends_ok, Logic.I|]. destruct X as [X|(x & HX)]; [unfold JS_ERROR in NR; congruence|].
    left. exact (mx_names_any J cz zone z HJ HZ NZ _ o g x (proj1 SG UO) HX).
Qed.
Lemma srv_numbers_any J n : junk_ok J -> forall out f y, held 256 out y -> ends (fun p => shrinks f (snd p) /\ data_of p) (srv_numbers n J out f).
Proof.
  intros HJ. induction n as [|n IH]; intros out f y HO; cbn [srv_numbers]; [apply ends_ok; split; [apply shr_refl|exists y; exact HO]|]. eapply ends_bind; [apply (get_num_any J f HJ)|]. intros (num & g) SG. cbn [snd] in SG. destruct (num <? 0); [apply ends_ok; split; [exact SG|exact Logic.I]|].
  destruct (number_put out y num HO) as (r & o & -> & X). cbn [bind]. destruct (Z.eqb_spec r JS_ERROR) as [ER|NR]; [apply ends_ok; split; [exact SG|exact Logic.I]|]. destruct X as [X|(x & HX)]; [unfold JS_ERROR in NR; congruence|].
  destruct (IH o g x HX) as [(p & -> & SP & DP)| ->]; [|right; reflexivity]. apply ends_ok. split; [exact (shr_trans _ _ _ SG SP)|exact DP].
Qed.
Lemma srv_any J f cz zone z : junk_ok J -> uni_ok f -> held cz zone z -> ~ In 42 z -> ends data_of (csv2_get_srv J f zone).
Proof.
  intros HJ UO HZ NZ. unfold csv2_get_srv. destruct (new_data J HJ) as (out & -> & HO). eapply ends_bind; [apply (srv_numbers_any J 3 HJ out f [] HO)|]. intros (o & g) (SG & D). unfold data_of in D. cbn [fst snd] in *. destruct o as [o|]; [|apply ends_ok, Logic.I]. destruct D as (x & HX).
  left. exact (mx_names_any J cz zone z HJ HZ NZ _ o g x (proj1 SG UO) HX).
Qed.
