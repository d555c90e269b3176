(** Loading zones: the memory, the strings and the table. *)
From Verif Require Import CBase Bits ModelDwStr SpecDwStr ProofDwStr SpecNames SpecAcl ModelJsStr SpecJsStr ProofJsStr ProofJsSearch ModelQueries SpecQueries SpecMessage ProofMessage ProofHname ProofJsList ModelMaraHash SpecMaraHash ProofMaraHash PropsMaraHash
  ModelServe ProofServe ProofServeRun ProofServeFind ModelBigHash SpecBigHash.

Lemma Ok_inj {A} (x y : A) : Ok x = Ok y -> x = y. Proof. congruence. Qed.

(** ** Cells *)
Section Heap.
Context {A : Type}.
Implicit Types h : list (option A).
Lemma cell_some h p x : nth_error h p = Some (Some x) -> cell h p = Ok x.
Proof. intros E. unfold cell. rewrite E. reflexivity. Qed.
Lemma nth_lt h p x : nth_error h p = Some x -> (p < length h)%nat.
Proof. intros E. apply nth_error_Some. rewrite E. discriminate. Qed.
Lemma nth_upd h p x j : (p < length h)%nat -> nth_error (upd h p x) j = if (j =? p)%nat then Some x else nth_error h j.
Proof.
  intros L. unfold upd. assert (length (firstn p h) = p) as LF by (apply firstn_length_le; lia). destruct (Nat.eqb_spec j p) as [->|N].
  - rewrite nth_error_app2 by lia. rewrite LF, Nat.sub_diag. reflexivity.
  - destruct (Nat.lt_ge_cases j p) as [J|J].
    + rewrite nth_error_app1 by lia. apply nth_error_firstn'. exact J.
    + rewrite nth_error_app2 by lia. rewrite LF. destruct (j - p)%nat as [|k] eqn:E; [lia|]. cbn [nth_error]. rewrite nth_error_skipn'. f_equal. lia.
Qed.
Lemma len_upd h p x : (p < length h)%nat -> length (upd h p x) = length h.
Proof. intros L. unfold upd. rewrite app_length, firstn_length_le by lia. cbn [length]. rewrite skipn_length. lia. Qed.
Lemma set_ok h p x y : nth_error h p = Some (Some y) -> set_cell h p x = Ok (upd h p (Some x)).
Proof. intros E. unfold set_cell. rewrite (cell_some _ _ _ E). reflexivity. Qed.
Lemma free_ok h p y : nth_error h p = Some (Some y) -> free_cell h p = Ok (upd h p None).
Proof. intros E. unfold free_cell. rewrite (cell_some _ _ _ E). reflexivity. Qed.
Lemma nth_new h x : nth_error (h ++ [x]) (length h) = Some x.
Proof. rewrite nth_error_app2, Nat.sub_diag by lia. reflexivity. Qed.
Lemma nth_old h x p : (p < length h)%nat -> nth_error (h ++ [x]) p = nth_error h p.
Proof. intros L. apply nth_error_app1. exact L. Qed.
End Heap.

(** ** The table *)
Definition hg (add : Z) (h : mhash nat) (m : amap nat) (P : Z) : Prop :=
  exists bits os h0 rs, 1 <= bits <= 24 /\ Forall op_ok os /\ forallb (fun o => negb (is_resize o)) os = true /\ zlen (filter is_put os) <= P /\
    mhash_create bits = Ok h0 /\ run add h0 os = Ok (rs, h) /\ m = snd (a_run empty os).
Lemma run_snoc add (o : op nat) : forall os h, run add h (os ++ [o]) = ' (rs, h) <- run add h os ;; ' (r, h) <- step add h o ;; Ok (rs ++ [r], h).
Proof.
  induction os as [|x os IH]; intros h; cbn [app run].
  - cbn [bind]. destruct (step add h o) as [(r & h')| |]; reflexivity.
  - destruct (step add h x) as [(r & h')| |]; cbn [bind]; [|reflexivity|reflexivity]. rewrite IH. destruct (run add h' os) as [(rs & h2)| |]; cbn [bind]; [|reflexivity|reflexivity].
    destruct (step add h2 o) as [(r2 & h3)| |]; reflexivity.
Qed.
Lemma a_run_snoc (o : op nat) : forall os m, a_run m (os ++ [o]) = (fst (a_run m os) ++ [fst (a_step (snd (a_run m os)) o)], snd (a_step (snd (a_run m os)) o)).
Proof.
  induction os as [|x os IH]; intros m; cbn [app a_run].
  - cbn [fst snd app]. destruct (a_step m o). reflexivity.
  - destruct (a_step m x) as [r m1]. rewrite IH. destruct (a_run m1 os) as [rs m2]. reflexivity.
Qed.
Lemma hg_run add bits os h0 : 1 <= bits <= 24 -> Forall op_ok os -> forallb (fun o => negb (is_resize o)) os = true -> zlen (filter is_put os) <= 349525 -> mhash_create bits = Ok h0 ->
  exists h', run (V := nat) add h0 os = Ok (fst (a_run empty os), h') /\ hwf add h' /\ rep h' (snd (a_run empty os)).
Proof.
  intros B OK NR L C. unfold mhash_create in C. rewrite mask_ok in C by lia. cbn [bind] in C. injection C as <-.
  assert (ents (mkmhash (V := nat) bits (repeat [] (Z.to_nat (2 ^ bits - 1 + 1))) 0) = []) as EE by (unfold ents; cbn [h_table]; rewrite concat_repeat_nil; reflexivity).
  destruct (run_below add os _ empty 0 (hwf_empty (V := nat) add bits 0 B)) as (h' & E & W & R); try assumption; try lia.
  - intros k v. rewrite EE. cbn. split; [discriminate|intros []].
  - rewrite EE. change (0 <= 0). lia.
  - rewrite EE. change (0 <= 0 <= 0 * bits). lia.
  - exists h'. split; [exact E|]. split; assumption.
Qed.
Lemma hg_map add h m P : hg add h m P -> P <= 349525 -> hwf add h /\ rep h m.
Proof. intros (bits & os & h0 & rs & B & OK & NR & L & C & E & ->) LP. destruct (hg_run add bits os h0 B OK NR ltac:(lia) C) as (h' & E' & W & R). rewrite E in E'. injection E' as _ <-. split; assumption. Qed.
Lemma hg_weak add h m P P' : hg add h m P -> P <= P' -> hg add h m P'.
Proof. intros (bits & os & h0 & rs & B & OK & NR & L & X) LP. exists bits, os, h0, rs. split; [exact B|]. split; [exact OK|]. split; [exact NR|]. split; [lia|exact X]. Qed.
Lemma hg_step add h m P o : hg add h m P -> op_ok o -> is_resize o = false -> P + (if is_put o then 1 else 0) <= 349525 ->
  exists h', step add h o = Ok (fst (a_step m o), h') /\ hg add h' (snd (a_step m o)) (P + (if is_put o then 1 else 0)).
Proof.
  intros (bits & os & h0 & rs & B & OK & NR & L & C & E & ->) O N LP.
  assert (Forall op_ok (os ++ [o])) as OK' by (apply Forall_app; split; [exact OK|constructor; [exact O|constructor]]).
  assert (forallb (fun o => negb (is_resize o)) (os ++ [o]) = true) as NR' by (rewrite forallb_app, NR; cbn [forallb]; rewrite N; reflexivity).
  assert (zlen (filter is_put (os ++ [o])) <= P + (if is_put o then 1 else 0)) as L'. { rewrite filter_app, zlen_app. cbn [filter]. destruct (is_put o); [change (zlen [o]) with 1|change (zlen (@nil (op nat))) with 0]; lia. }
  destruct (hg_run add bits (os ++ [o]) h0 B OK' NR' ltac:(lia) C) as (h' & E' & _). rewrite run_snoc, E in E'. cbn [bind] in E'. destruct (step add h o) as [(r & h2)| |] eqn:ES; cbn [bind] in E'; try discriminate E'.
  rewrite a_run_snoc in E'. cbn [fst] in E'. apply Ok_inj, pair_equal_spec in E' as (E1 & <-). apply app_inj_tail in E1 as (_ & ->). exists h2. split; [reflexivity|].
  exists bits, (os ++ [o]), h0, (rs ++ [fst (a_step (snd (a_run empty os)) o)]). split; [exact B|]. split; [exact OK'|]. split; [exact NR'|]. split; [exact L'|]. split; [exact C|]. split; [rewrite run_snoc, E; cbn [bind]; rewrite ES; reflexivity|]. rewrite a_run_snoc. reflexivity.
Qed.
(** The operations, for keys that are strings of octets. *)
Lemma key_facts cap s q : held cap s q -> cap < 2000000000 -> str_ok s /\ usable_key s = true /\ kid_of s = (1, q) /\ j_wf s.
Proof.
  intros (H & M) C. pose proof (hold_facts s q H) as [W S1 L CC LM SM B SA U O _ _]. split; [split; [exact W|]|]. { rewrite S1. pose proof (jw_count s W). lia. }
  split; [exact U|]. split; [unfold kid_of; rewrite S1, O; reflexivity|exact W].
Qed.
Lemma get_ok add h m P cap s q : hg add h m P -> P <= 349525 -> held cap s q -> mhash_get add h s = Ok (match m (1, q) with Some (v, dt) => (Some v, dt) | None => (None, 0) end).
Proof. intros G L H. destruct (hg_map _ _ _ _ G L) as (W & R). apply (get_held add h m cap s q W R H). Qed.
Lemma put_ok J add h m P cap s q v dt : hg add h m P -> P + 1 <= 349525 -> junk_ok J -> held cap s q -> cap < 2000000000 -> m (1, q) = None ->
  exists h', mhash_put J add h s v dt = Ok (1, h') /\ hg add h' (a_set m (1, q) (Some (v, dt))) (P + 1).
Proof.
  intros G L HJ H C N. destruct (key_facts _ _ _ H C) as (SO & U & K & W). destruct (hg_step add h m P (Put J s v dt) G) as (h' & E & G'). { split; [exact HJ|exact SO]. } { reflexivity. } { exact L. }
  cbn [step a_step is_put] in E, G'. rewrite U, K, N in E, G'. cbn [fst snd] in E, G'. destruct (mhash_put J add h s v dt) as [(r & h2)| |]; cbn [bind] in E; try discriminate E. injection E as -> ->. exists h'. split; [reflexivity|exact G'].
Qed.
Lemma undef_ok add h m P cap s q : hg add h m P -> P <= 349525 -> held cap s q -> cap < 2000000000 ->
  exists h', mhash_undef add h s = Ok (option_map fst (m (1, q)), h') /\ hg add h' (a_set m (1, q) None) P.
Proof.
  intros G L H C. destruct (key_facts _ _ _ H C) as (SO & U & K & W). destruct (hg_step add h m P (Undef s) G) as (h' & E & G'). { exact W. } { reflexivity. } { cbn [is_put]. lia. }
  cbn [step a_step is_put] in E, G'. rewrite U, K in E, G'. cbn [fst snd] in E, G'. destruct (mhash_undef add h s) as [(r & h2)| |]; cbn [bind] in E; try discriminate E. injection E as -> ->. exists h'. split; [reflexivity|]. rewrite Z.add_0_r in G'. exact G'.
Qed.
Lemma autogrow_ok J add h m P : hg add h m P -> P <= 349525 -> junk_ok J -> exists r h', mhash_autogrow J add h = Ok (r, h') /\ hg add h' m P.
Proof.
  intros G L HJ. destruct (hg_step add h m P (Autogrow J) G) as (h' & E & G'). { exact HJ. } { reflexivity. } { cbn [is_put]. lia. }
  cbn [step a_step is_put] in E, G'. cbn [fst snd] in E, G'. destruct (mhash_autogrow J add h) as [(r & h2)| |]; cbn [bind] in E; try discriminate E. injection E as ->. exists r, h'. split; [reflexivity|]. rewrite Z.add_0_r in G'. exact G'.
Qed.
Lemma imm_key_ok add h m P cap s q : hg add h m P -> P <= 349525 -> held cap s q -> cap < 2000000000 -> exists k, mhash_get_immutable_key add h s = Ok k.
Proof.
  intros G L H C. destruct (key_facts _ _ _ H C) as (SO & U & K & W). destruct (hg_step add h m P (Key s) G) as (h' & E & _). { exact W. } { reflexivity. } { cbn [is_put]. lia. }
  cbn [step] in E. destruct (mhash_get_immutable_key add h s) as [o| |]; cbn [bind] in E; try discriminate E. exists o. reflexivity.
Qed.

(** ** Strings *)
Lemma num2_len t : zlen (num2 t) = 2. Proof. reflexivity. Qed.
Lemma tail2 q t : zslice (q ++ num2 t) 0 (zlen (q ++ num2 t) - 2) = q.
Proof. rewrite zlen_app, num2_len. replace (zlen q + 2 - 2) with (zlen q) by lia. pose proof (zlen_nonneg q). rewrite zslice_app_l, zslice_all by lia. reflexivity. Qed.
Lemma retype_app q t t' : l_retype (q ++ num2 t) t' = q ++ num2 t'.
Proof. unfold l_retype. rewrite tail2. reflexivity. Qed.
Lemma key_inj q q' t t' : 0 <= t <= 65535 -> 0 <= t' <= 65535 -> q ++ num2 t = q' ++ num2 t' -> q = q' /\ t = t'.
Proof.
  intros T T' E. assert (length q = length q') as L. { apply (f_equal (@length Z)) in E. rewrite !app_length in E. cbn [num2 length] in E. lia. }
  apply app_inj_len in E as (-> & E); [|exact L]. split; [reflexivity|]. unfold num2 in E. injection E as E1 E2. lia.
Qed.
Lemma app_type q t : 1 <= zlen q -> 0 <= t <= 65535 -> ProofServe.l_type (q ++ num2 t) = t.
Proof.
  intros L T. unfold ProofServe.l_type. rewrite zlen_app, num2_len. replace (zlen q + 2 <? 3) with false by lia. unfold at_. rewrite !zget_app_r by lia.
  replace (zlen q + 2 - 1 - zlen q) with 1 by lia. replace (zlen q + 2 - 2 - zlen q) with 0 by lia. unfold num2. change (zget [t / 256; t mod 256] 1) with (Some (t mod 256)). change (zget [t / 256; t mod 256] 0) with (Some (t / 256)). lia.
Qed.
Lemma type_ok cap s q t : held cap s (q ++ num2 t) -> 1 <= zlen q -> 0 <= t <= 65535 -> get_rtype s = Ok t.
Proof. intros H L T. rewrite (get_rtype_held _ _ _ H), app_type by assumption. reflexivity. Qed.
Lemma change_ok cap s q t t' : held cap s (q ++ num2 t) -> 1 <= zlen q -> 0 <= t' <= 65535 -> exists s', change_rtype s t' = Ok (1, s') /\ held cap s' (q ++ num2 t').
Proof.
  intros H L T. destruct (retype_held cap s _ t' H) as (s' & E & H'); [rewrite zlen_app, num2_len; lia|lia|]. exists s'. split; [exact E|]. rewrite retype_app in H'. exact H'.
Qed.
Lemma new_held J max : junk_ok J -> 0 <= max -> max + 3 < 2147483648 -> exists s, js_create J max 1 = Some s /\ held max s [].
Proof. intros HJ H1 H2. destruct (create_held J max HJ H1 H2) as (s & E & H). unfold ModelDecomp.create in E. destruct (js_create J max 1) as [s'|]; [|discriminate E]. apply Ok_inj in E as ->. exists s. split; [reflexivity|exact H]. Qed.
Lemma any_query_ok J cap s q t : junk_ok J -> held cap s (q ++ num2 t) -> 1 <= zlen q <= 253 -> exists c, any_query J s = Ok (Some c) /\ held 256 c (q ++ num2 RR_ANY).
Proof.
  intros HJ H L. unfold any_query. destruct (new_held J 256 HJ ltac:(lia) ltac:(lia)) as (c & -> & HC). destruct (copy_held _ _ _ _ _ _ H HC) as (c2 & -> & H2); [rewrite zlen_app, num2_len; lia|]. cbn [bind]. change (1 =? JS_ERROR) with false. cbv iota.
  destruct (change_ok _ _ _ _ RR_ANY H2 ltac:(lia) ltac:(unfold RR_ANY; lia)) as (c3 & -> & H3). cbn [bind]. change (1 =? JS_ERROR) with false. cbv iota. exists c3. split; [reflexivity|exact H3].
Qed.
Lemma copy_value_ok J cap s d : junk_ok J -> held cap s d -> cap < 2000000000 -> exists n, copy_value J s = Ok (Some n) /\ octets_of n = d.
Proof.
  intros HJ H C. pose proof (hold_facts s d (proj1 H)) as [W S1 L CC LM SM B SA U O _ _]. destruct H as (_ & M). unfold copy_value. rewrite S1. destruct (new_held J (j_count s + 1) HJ) as (n & -> & HN); [lia|lia|].
  destruct (copy_held cap s d _ _ _ ltac:(split; [split; [exact W|split; [exact S1|exact O]]|exact M]) HN) as (n2 & -> & H2); [lia|]. cbn [bind]. change (1 =? JS_ERROR) with false. cbv iota. exists n2. split; [reflexivity|]. apply H2.
Qed.
