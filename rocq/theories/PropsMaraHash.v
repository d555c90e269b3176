(** C22: MaraDNS' associative arrays. *)
From Coq Require Import Permutation.
From Verif Require Import CBase Bits ModelDwStr SpecDwStr ProofDwStr ModelJsStr SpecJsStr ProofJsStr ProofJsSearch ModelMaraHash SpecMaraHash ProofMaraHash.

(** Over every history a table does what a finite map does, however often it grows: until a table
    of 2^24 chains with over eight million elements counted is to grow further, see below. *)
Theorem run_ok {V} add : forall os (h : mhash V) m, hwf add h -> rep h m -> spots_ok h -> Forall op_ok os ->
  (exists h', run add h os = Ok (fst (a_run m os), h') /\ hwf add h' /\ rep h' (snd (a_run m os))) \/
  (exists pre J post rs h1, os = pre ++ Autogrow J :: post /\ run add h pre = Ok (rs, h1) /\ h_bits h1 = 24 /\ 8388607 <= h_spots h1).
Proof.
  induction os as [|o os IH]; intros h m W R S OK.
  - left. exists h. split; [reflexivity|]. split; assumption.
  - apply Forall_cons_iff in OK as (O & OK).
    assert (too_big h o \/ ~ too_big h o) as [B|B]. { destruct o; cbn [too_big]; try tauto. destruct (Z.eq_dec (h_bits h) 24), (Z_le_dec 8388607 (h_spots h)); tauto. }
    + right. destruct o as [| | | | |J]; cbn [too_big] in B; try contradiction. exists [], J, os, [], h. split; [reflexivity|]. split; [reflexivity|exact B].
    + destruct (step_ok add h m o W R S O B) as (h1 & E & W1 & R1 & S1 & _). cbn [run a_run]. rewrite E. cbn [bind]. destruct (a_step m o) as [r m1]. cbn [fst snd] in *.
      destruct (IH h1 m1 W1 R1 S1 OK) as [(h' & E' & W' & R')|(pre & J & post & rs & h2 & -> & E2 & B2)].
      * left. exists h'. rewrite E'. cbn [bind]. destruct (a_run m1 os) as [rs m2]. cbn [fst snd] in *. split; [reflexivity|]. split; assumption.
      * right. exists (o :: pre), J, post, (r :: rs), h2. split; [reflexivity|]. split; [|exact B2]. cbn [run]. rewrite E. cbn [bind]. rewrite E2. reflexivity.
Qed.
Theorem C22_is_a_map : forall (V : Type) add bits (os : list (op V)), 1 <= bits <= 24 -> Forall op_ok os ->
  exists h, mhash_create bits = Ok h /\
  ((exists h', run add h os = Ok (fst (a_run empty os), h')) \/
   (exists pre J post rs h1, os = pre ++ Autogrow J :: post /\ run add h pre = Ok (rs, h1) /\ h_bits h1 = 24 /\ 8388607 <= h_spots h1)).
Proof.
  intros V add bits os B OK. unfold mhash_create. rewrite mask_ok by lia. cbn [bind]. eexists. split; [reflexivity|].
  destruct (run_ok add os _ empty (hwf_empty (V := V) add bits 0 B)) as [(h' & E & _)|X]; try assumption.
  - intros k v. unfold ents. cbn [h_table]. rewrite concat_repeat_nil. cbn. split; [discriminate|intros []].
  - unfold spots_ok. cbn [h_spots]. lia.
  - left. exists h'. exact E.
  - right. exact X.
Qed.

(** A history that leaves growing to the table and has at most 349,525 insertions does not get there. *)
Definition is_put {V} (o : op V) : bool := match o with Put _ _ _ _ => true | _ => false end.
Definition is_resize {V} (o : op V) : bool := match o with Resize _ _ => true | _ => false end.
Lemma run_below {V} add : forall os (h : mhash V) m P, hwf add h -> rep h m -> Forall op_ok os -> forallb (fun o => negb (is_resize o)) os = true ->
  0 <= P -> zlen (ents h) <= P -> zlen (ents h) <= h_spots h <= P * h_bits h -> P + zlen (filter is_put os) <= 349525 ->
  exists h', run add h os = Ok (fst (a_run m os), h') /\ hwf add h' /\ rep h' (snd (a_run m os)).
Proof.
  induction os as [|o os IH]; intros h m P W R OK NR P0 LP LS L.
  - exists h. split; [reflexivity|]. split; assumption.
  - apply Forall_cons_iff in OK as (O & OK). cbn [forallb] in NR. apply andb_true_iff in NR as (NO & NR). pose proof (w_bits add h W) as B. pose proof (zlen_nonneg (ents h)) as NN.
    pose proof (zlen_nonneg (filter is_put os)) as NF. assert (zlen (filter is_put (o :: os)) = zlen (filter is_put os) + (if is_put o then 1 else 0)) as LF. { cbn [filter]. destruct (is_put o); [apply zlen_cons|lia]. } rewrite LF in L. clear LF.
    assert (P * h_bits h <= 349525 * 24) as PB by (destruct (is_put o); nia). change (349525 * 24) with 8388600 in PB.
    assert (spots_ok h) as S by (unfold spots_ok; lia). assert (~ too_big h o) as NB by (destruct o; cbn [too_big]; lia).
    destruct (step_ok add h m o W R S O NB) as (h1 & E & W1 & R1 & S1 & X). cbn [run a_run]. rewrite E. cbn [bind]. destruct (a_step m o) as [r m1]. cbn [fst snd] in *.
    pose proof (w_bits add h1 W1) as B1. pose proof (zlen_nonneg (ents h1)) as NN1. unfold u32 in X.
    assert (exists P', 0 <= P' /\ zlen (ents h1) <= P' /\ zlen (ents h1) <= h_spots h1 <= P' * h_bits h1 /\ P' + zlen (filter is_put os) <= 349525) as (P' & A1 & A2 & A3 & A4).
    { destruct o; cbn [is_put is_resize negb] in *; try discriminate.
      - exists (P + 1). destruct X as (-> & [-> |(Y & ->)]); [split; [|split; [|split]]; nia|]. rewrite Z.mod_small by lia. split; [|split; [|split]]; nia.
      - exists P. subst h1. repeat split; lia.
      - exists P. subst h1. repeat split; lia.
      - exists P. destruct X as (-> & [-> |(Y & ->)]); [repeat split; lia|]. rewrite Z.mod_small by lia. repeat split; lia.
      - exists P. destruct X as [-> |(-> & Y & ->)]; [repeat split; lia|]. rewrite Z.mod_small by lia. repeat split; nia. }
    destruct (IH h1 m1 P' W1 R1 OK NR A1 A2 A3 A4) as (h' & E' & W' & R'). exists h'. rewrite E'. cbn [bind]. destruct (a_run m1 os) as [rs m2]. cbn [fst snd] in *. split; [reflexivity|]. split; assumption.
Qed.
Theorem C22_is_a_map_below : forall (V : Type) add bits (os : list (op V)), 1 <= bits <= 24 -> Forall op_ok os -> forallb (fun o => negb (is_resize o)) os = true -> zlen (filter is_put os) <= 349525 ->
  exists h h', mhash_create bits = Ok h /\ run add h os = Ok (fst (a_run empty os), h').
Proof.
  intros V add bits os B OK NR L. unfold mhash_create. rewrite mask_ok by lia. cbn [bind]. eexists. assert (ents (mkmhash (V := V) bits (repeat [] (Z.to_nat (2 ^ bits - 1 + 1))) 0) = []) as EE by (unfold ents; cbn [h_table]; rewrite concat_repeat_nil; reflexivity).
  destruct (run_below add os _ empty 0 (hwf_empty (V := V) add bits 0 B)) as (h' & E & _); try assumption; try lia.
  - intros k v. rewrite EE. cbn. split; [discriminate|intros []].
  - rewrite EE. change (0 <= 0). lia.
  - rewrite EE. change (0 <= 0 <= 0 * bits). lia.
  - exists h'. split; [reflexivity|exact E].
Qed.

Lemma kid_dec (a b : kid) : {a = b} + {a <> b}.
Proof. destruct (kid_eqb a b) eqn:E; [left; apply kid_eqb_spec, E|right; apply kid_eqb_neq, E]. Qed.
(** mhash_firstkey and mhash_nextkey give every key exactly once, if the string passed has room. *)
Theorem C22_iteration : forall (V : Type) add bits (os : list (op V)) h rs h' buf, 1 <= bits <= 24 -> Forall op_ok os -> mhash_create bits = Ok h -> run add h os = Ok (rs, h') ->
  (forall pre J post rs h1, os = pre ++ Autogrow J :: post -> run add h pre = Ok (rs, h1) -> h_bits h1 < 24 \/ h_spots h1 < 8388607) ->
  let m := snd (a_run empty os) in
  j_wf buf -> usable_key buf = true -> (forall k, m k <> None -> fst k = j_size buf /\ zlen (snd k) < j_size buf * j_max buf) ->
  exists ks, NoDup ks /\ (forall k, In k ks <-> m k <> None) /\ forall n, zlen ks <= Z.of_nat n -> all_keys add n h' buf = Ok (ks, true).
Proof.
  intros V add bits os h rs h' buf B OK C E T m WB UB F. unfold mhash_create in C. rewrite mask_ok in C by lia. cbn [bind] in C. injection C as <-.
  destruct (run_ok add os _ empty (hwf_empty (V := V) add bits 0 B)) as [(h2 & E2 & W2 & R2)|X]; try assumption.
  { intros k v. unfold ents. cbn [h_table]. rewrite concat_repeat_nil. cbn. split; [discriminate|intros []]. }
  { unfold spots_ok. cbn [h_spots]. lia. }
  2: { destruct X as (pre & J & post & rs1 & h1 & E1 & E3 & B1 & B2). exfalso. specialize (T pre J post rs1 h1 E1 E3). lia. }
  rewrite E2 in E. injection E as _ <-. fold m in R2. exists (map fst (ents h2)). assert (NoDup (map fst (ents h2))) as D by (rewrite ents_keys; apply W2). split; [exact D|].
  assert (forall k, In k (map fst (ents h2)) <-> m k <> None) as I. { intros k. destruct (rep_none h2 m k R2) as (N1 & N2). split; [intros I E; exact (N1 E I)|]. intros N. destruct (in_dec kid_dec k (map fst (ents h2))) as [X|X]; [exact X|]. contradiction (N (N2 X)). }
  split; [exact I|]. intros n L. apply all_keys_ok; try assumption.
  - apply Forall_forall. intros p IP. destruct (own_chain add h2 p W2 IP) as (c & N & IC). destruct (w_in add h2 W2 _ c p N IC) as (((WP & _) & _) & _).
    assert (m (pkid p) <> None) as NM. { apply I. rewrite ents_keys. apply in_map. exact IP. } apply F in NM as (F1 & F2). unfold pkid, kid_of in F1, F2. cbn [fst snd] in F1, F2. rewrite zlen_octets in F2 by exact WP. pose proof (j_bound _ WP). split; [exact F1|nia].
  - unfold zlen in L. rewrite map_length in L. lia.
Qed.

Definition key (l : list Z) : js := mkjs (l ++ repeat 0 8) 1 (zlen l) (zlen l + 5) 1.
Definition J1 : Z -> Z := fun i => i mod 256.
Lemma key_ok l : bytes l -> zlen l < 1000 -> str_ok (key l).
Proof.
  intros B L. pose proof (zlen_nonneg l). unfold str_ok, key. cbn [j_count j_size]. split; [|lia]. constructor; cbn [j_size j_count j_max j_mem]; try lia.
  - rewrite zlen_app. change (zlen (repeat 0 8)) with 8. lia.
  - apply bytes_app. split; [exact B|]. apply bytesb_spec. reflexivity.
Qed.
Definition history : list (op Z) :=
  [Put J1 (key [97; 98]) 10 3; Autogrow J1; Put J1 (key [97; 99]) 11 3; Autogrow J1; Put J1 (key [97; 98]) 12 3; Put J1 (key [200]) 13 3; Resize J1 9; Get (key [97; 98]); Undef (key [97; 99]); Get (key [97; 99]);
   Put J1 (key [97; 99]) 14 4; Get (key [97; 99]); Key (key [200]); Undef (key [1])].
Example C22_witness : Forall op_ok history /\
  (h <- mhash_create 1 ;; ' (rs, h) <- run 7 h history ;; ' (ks, e) <- all_keys 7 10 h (key [0; 0; 0]) ;; Ok (rs, ks, e)) =
  Ok ([Code 1; Done; Code 1; Done; Code (-1); Code 1; Code 1; Value (Some 10) 3; Old (Some 11); Value None 0; Code 1; Value (Some 14) 4; TheKey (Some (1, [200])); Old None],
      [(1, [97; 99]); (1, [200]); (1, [97; 98])], true).
Proof.
  split; [|vm_compute; reflexivity]. assert (junk_ok J1) as HJ by (intros i; unfold J1, byte; lia).
  assert (forall l, bytesb l = true -> zlen l < 1000 -> str_ok (key l)) as KO by (intros l B L; apply key_ok; [apply bytesb_spec, B|exact L]).
  unfold history. repeat (apply Forall_cons; [cbn [op_ok]; first [exact HJ|split; [exact HJ|first [apply KO; reflexivity|lia]]|apply KO; reflexivity]|]). constructor.
Qed.
Print Assumptions C22_is_a_map.
Print Assumptions C22_is_a_map_below.
Print Assumptions C22_iteration.

(** In larger tables an octet of a key can be shifted into the sign bit of an int. *)
Theorem C22_large_table_refuted : forall add, exists k, str_ok k /\ usable_key k = true /\ mhash_js add k 25 = Bad SignedOverflow.
Proof.
  intros add. exists (key [1; 1; 1; 1; 1; 1; 1; 128]). split; [apply key_ok; [apply bytesb_spec; reflexivity|reflexivity]|]. split; [reflexivity|].
  unfold mhash_js, key. cbn [j_mem j_size j_count j_max j_enc]. change (negb (js_sane _)) with false. change (js_octets _ <? _) with false. cbn [Z.mul].
  change (Z.to_nat (zlen [1; 1; 1; 1; 1; 1; 1; 128] * 1)) with 8%nat. do 8 (cbn [js_hash_loop]; match goal with |- context [rd ?m ?i] => let v := eval vm_compute in (rd m i) in change (rd m i) with v end; cbn [bind];
    match goal with |- context [2147483648 <=? ?a] => let v := eval vm_compute in (2147483648 <=? a) in change (2147483648 <=? a) with v end; cbv iota; try (change (25 =? 0) with false; cbv iota zeta; match goal with |- context [Z.rem ?a ?b] => let v := eval vm_compute in (Z.rem a b) in change (Z.rem a b) with v end)).
  reflexivity.
Qed.
(** A table of 2^0 chains, which mhash_create makes, cannot be used: the first octet divides by zero. *)
Theorem C22_zero_bits_refuted : forall add, exists (h : mhash Z) k, mhash_create 0 = Ok h /\ str_ok k /\ mhash_get add h k = Bad DivZero.
Proof.
  intros add. eexists _, (key [97]). split; [reflexivity|]. split; [apply key_ok; [apply bytesb_spec; reflexivity|reflexivity]|]. reflexivity.
Qed.
(** Growing counts all elements a second time. *)
Theorem C22_count_refuted : exists (h : mhash Z) h' rs, mhash_create 4 = Ok h /\ run 7 h [Put J1 (key [97]) 1 3; Put J1 (key [98]) 2 3; Resize J1 5] = Ok (rs, h') /\ h_spots h' = 4 /\ all_keys 7 9 h' (key [0]) = Ok ([(1, [97]); (1, [98])], true).
Proof. eexists _, _, _. split; [reflexivity|]. split; [vm_compute; reflexivity|]. split; vm_compute; reflexivity. Qed.
Print Assumptions C22_large_table_refuted.
Print Assumptions C22_zero_bits_refuted.
Print Assumptions C22_count_refuted.

(** ** Tables of strings, tuples *)
(** A string put into a table is found there, unchanged, until the key is removed. *)
Theorem C22_strings : forall add (h : mhash js) m J k v, hwf add h -> rep h m -> spots_ok h -> junk_ok J -> str_ok k -> usable_key k = true -> str_ok v -> usable_key v = true -> m (kid_of k) = None ->
  exists h' v', mhash_put_js J add h k v = Ok (1, h') /\ hwf add h' /\ rep h' (a_set m (kid_of k) (Some (v', 1))) /\ mhash_get_js add h' k = Ok (Some v') /\
    octets_of v' = octets_of v /\ j_size v' = j_size v /\ j_enc v' = j_enc v.
Proof.
  intros add h m J k v W R S HJ SK UK SV UV N. destruct (copy_new J v HJ SV UV) as (n & v' & E1 & E2 & SV' & UV' & KV & VV).
  destruct (step_ok add h m (Put J k v' 1) W R S (conj HJ SK) ltac:(cbn; tauto)) as (h' & E & W' & R' & S' & _). cbn [step a_step] in E, R'. rewrite UK, N in E, R'. cbn [fst snd] in E, R'.
  exists h', v'. unfold mhash_put_js. rewrite E1, E2. cbn [bind]. change (1 =? JS_ERROR) with false. cbv iota. apply bind_Ok in E as ([r h1] & E & EE). injection EE as -> <-. split; [exact E|]. split; [exact W'|]. split; [exact R'|].
  destruct (step_ok add h1 _ (Get k) W' R' S' (proj1 SK) ltac:(cbn; tauto)) as (h2 & G & _). cbn [step a_step fst] in G. rewrite UK in G. unfold a_set in G at 1. rewrite kid_eqb_refl in G. apply bind_Ok in G as ([o dt] & G & GG). injection GG as -> -> _.
  unfold mhash_get_js. rewrite G. cbn [bind]. split.
  - change (1 =? MARA_JS) with true. cbn [negb]. rewrite sane_usable by apply SV'. fold (usable_key v'). rewrite UV'. reflexivity.
  - split; [apply (f_equal s_oct) in VV; exact VV|]. split; [apply (f_equal s_unit) in VV; exact VV|apply (f_equal s_enc) in VV; exact VV].
Qed.
(** Every element of a tuple can be set once. *)
Theorem C22_tuples : forall J t v e, junk_ok J -> str_ok v -> usable_key v = true ->
  exists r t', mtuple_put J t v e = Ok (r, t') /\ zlen t' = zlen t /\ (forall d, d <> e -> mtuple_get t' d = mtuple_get t d) /\
  ((r = 1 /\ 0 <= e < zlen t /\ mtuple_get t e = Ok None /\ exists v', mtuple_get t' e = Ok (Some v') /\ octets_of v' = octets_of v /\ j_size v' = j_size v /\ j_enc v' = j_enc v) \/
   (r = -1 /\ t' = t /\ (e < 0 \/ zlen t <= e \/ exists v', mtuple_get t e = Ok (Some v')))).
Proof.
  intros J t v e HJ SV UV. unfold mtuple_put. destruct ((zlen t <=? e) || (e <? 0)) eqn:B.
  { exists (-1), t. split; [reflexivity|]. split; [reflexivity|]. split; [reflexivity|]. right. split; [reflexivity|]. split; [reflexivity|]. lia. }
  assert (0 <= e < zlen t) as R by lia. destruct (nth_error t (Z.to_nat e)) as [[o|]|] eqn:E.
  - exists (-1), t. split; [reflexivity|]. split; [reflexivity|]. split; [reflexivity|]. right. split; [reflexivity|]. split; [reflexivity|]. right. right. exists o. unfold mtuple_get. rewrite B, E. reflexivity.
  - destruct (copy_new J v HJ SV UV) as (n & v' & E1 & E2 & SV' & UV' & KV & VV). rewrite E1, E2. cbn [bind]. change (1 =? JS_ERROR) with false. cbv iota.
    set (t' := firstn (Z.to_nat e) t ++ Some v' :: skipn (Z.to_nat e + 1) t).
    assert (length t' = length t) as LT. { unfold t'. rewrite app_length. cbn [length]. rewrite firstn_length, skipn_length. unfold zlen in R. lia. }
    assert (forall d, nth_error t' d = if (d =? Z.to_nat e)%nat then Some (Some v') else nth_error t d) as NT.
    { intros d. unfold t'. assert (length (firstn (Z.to_nat e) t) = Z.to_nat e) as LF by (rewrite firstn_length; unfold zlen in R; lia). destruct (Nat.ltb_spec d (Z.to_nat e)) as [D|D].
      - rewrite nth_error_app1 by lia. rewrite nth_error_firstn' by exact D. replace (d =? Z.to_nat e)%nat with false by lia. reflexivity.
      - rewrite nth_error_app2 by lia. rewrite LF. destruct (Nat.eqb_spec d (Z.to_nat e)) as [-> |X]; [rewrite Nat.sub_diag; reflexivity|]. replace (d - Z.to_nat e)%nat with (S (d - Z.to_nat e - 1)) by lia. cbn [nth_error]. rewrite nth_error_skipn'. f_equal. lia. }
    exists 1, t'. split; [reflexivity|]. assert (zlen t' = zlen t) as ZT by (unfold zlen; rewrite LT; reflexivity). split; [exact ZT|]. split.
    + intros d D. unfold mtuple_get. rewrite ZT. destruct ((zlen t <=? d) || (d <? 0)) eqn:BD; [reflexivity|]. rewrite NT. replace (Z.to_nat d =? Z.to_nat e)%nat with false by lia. reflexivity.
    + left. split; [reflexivity|]. split; [exact R|]. unfold mtuple_get. rewrite ZT, B, E, NT, Nat.eqb_refl. split; [reflexivity|]. exists v'. split; [reflexivity|].
      split; [apply (f_equal s_oct) in VV; exact VV|]. split; [apply (f_equal s_unit) in VV; exact VV|apply (f_equal s_enc) in VV; exact VV].
  - exfalso. apply nth_error_None in E. unfold zlen in R. lia.
Qed.
Example C22_strings_witness : exists h, mhash_create 8 = Ok h /\ hwf 7 h /\ rep h (@empty js) /\ spots_ok h /\ str_ok (key [97]) /\
  (' (r, h) <- mhash_put_js J1 7 h (key [97]) (key [98; 99]) ;; o <- mhash_get_js 7 h (key [97]) ;; Ok (r, option_map octets_of o)) = Ok (1, Some [98; 99]) /\
  (match mtuple_new 2 with Some t => ' (r1, t) <- mtuple_put J1 t (key [98]) 1 ;; ' (r2, t) <- mtuple_put J1 t (key [99]) 1 ;; o <- mtuple_get t 1 ;; Ok (r1, r2, option_map octets_of o) | None => Fail end) = Ok (1, -1, Some [98]).
Proof.
  eexists. split; [reflexivity|]. split; [exact (hwf_empty 7 8 0 ltac:(lia))|]. split; [intros k v; cbn; split; [discriminate|intros []]|]. split; [unfold spots_ok; cbn [h_spots]; lia|].
  split; [apply key_ok; [apply bytesb_spec; reflexivity|reflexivity]|]. split; vm_compute; reflexivity.
Qed.
Print Assumptions C22_strings.
Print Assumptions C22_tuples.
