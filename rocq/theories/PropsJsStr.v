(** C11, C12: MaraDNS' string library. *)
From Verif Require Import CBase ModelDwStr SpecDwStr ProofDwStr ModelJsStr SpecJsStr ProofJsStr ProofJsSearch.

(** ** Stores *)
Lemma map_setn {A B} (f : A -> B) l i x : map f (setn l i x) = setn (map f l) i (f x).
Proof. unfold setn. rewrite map_app, firstn_map. cbn [map]. rewrite skipn_map. reflexivity. Qed.
Lemma Forall_setn {A} (P : A -> Prop) l i x : Forall P l -> P x -> Forall P (setn l i x).
Proof.
  intros F Px. unfold setn. revert i. induction F as [|y l Hy F IH]; intros [|i]; cbn [firstn skipn app].
  - constructor; [exact Px|constructor].
  - constructor; [exact Px|constructor].
  - constructor; assumption.
  - constructor; [exact Hy|]. apply IH.
Qed.
Lemma octets_bytes l : octets l = true -> bytes l.
Proof. unfold octets, bytes. intros H. apply Forall_forall. intros b Hb. rewrite forallb_forall in H. specialize (H b Hb). unfold byte. lia. Qed.



Ltac contract H G := match type of H with (if ?b then _ else _) = _ => destruct b eqn:G; [|discriminate] end; unfold int in G.
Lemma op_ok J op st c a : junk_ok J -> Forall j_wf st -> a_op op (map value_of st) = Some (c, a) ->
  exists st', c_op J op st = Ok (c, st') /\ map value_of st' = a /\ Forall j_wf st'.
Proof.
  intros HJ F H.
  assert (forall j s, nth_error st j = Some s -> j_wf s) as WF by (intros j s E; apply nth_error_In in E; exact (proj1 (Forall_forall _ _) F _ E)).
  assert (forall j r spec, refines r spec -> a_put (map value_of st) j spec = Some (c, a) -> exists st', c_put st j r = Ok (c, st') /\ map value_of st' = a /\ Forall j_wf st') as PUT.
  { intros j r spec (s' & -> & W & V) HP. unfold a_put in HP. injection HP as <- <-. unfold c_put. cbn [bind].
    eexists. split; [reflexivity|]. rewrite map_setn, V. split; [reflexivity|]. apply Forall_setn; assumption. }
  assert (forall r v, r = Ok v -> Some (v, map value_of st) = Some (c, a) -> exists st', c_get st r = Ok (c, st') /\ map value_of st' = a /\ Forall j_wf st') as GET.
  { intros r v -> HG. injection HG as <- <-. exists st. repeat split; try reflexivity. exact F. }
  assert (forall j k q, a_one (map value_of st) j k = Some (c, a) ->
     (forall s, nth_error st j = Some s -> j_wf s -> k (value_of s) = Some (c, a) -> exists st', q s = Ok (c, st') /\ map value_of st' = a /\ Forall j_wf st') ->
     exists st', c_one st j q = Ok (c, st') /\ map value_of st' = a /\ Forall j_wf st') as ONE.
  { intros j k q HO K. unfold a_one in HO. rewrite nth_error_map in HO. unfold c_one. destruct (nth_error st j) as [s|] eqn:E; [|discriminate].
    apply K; [reflexivity|apply (WF j), E|exact HO]. }
  assert (forall i j k q, a_two (map value_of st) i j k = Some (c, a) ->
     (forall s t, j_wf s -> j_wf t -> k (value_of s) (value_of t) = Some (c, a) -> exists st', q s t = Ok (c, st') /\ map value_of st' = a /\ Forall j_wf st') ->
     exists st', c_two st i j q = Ok (c, st') /\ map value_of st' = a /\ Forall j_wf st') as TWO.
  { intros i j k q HO K. unfold a_two in HO. destruct (Nat.eqb i j); [discriminate|]. unfold c_two. eapply ONE; [exact HO|]. intros s _ Ws H1.
    eapply ONE; [exact H1|]. intros t _ Wt H2. apply K; assumption. }
  destruct op; cbn [a_op c_op] in H |- *; unfold when in H.
  - contract H G. injection H as <- <-.
    destruct (js_create_ok J max unit HJ ltac:(lia) ltac:(lia) ltac:(lia)) as (s & -> & W & V & _). eexists. split; [reflexivity|].
    rewrite map_app. cbn [map]. rewrite V. split; [reflexivity|]. apply Forall_app. split; [exact F|]. constructor; [exact W|constructor].
  - contract H G. eapply ONE; [exact H|]. intros s _ W H1. eapply PUT; [|exact H1]. apply js_set_encode_ok, W.
  - contract H G. eapply ONE; [exact H|]. intros s _ W H1. eapply PUT; [|exact H1].
    destruct (octets buf) eqn:O; [|rewrite !andb_false_r in G; discriminate]. apply octets_bytes in O. apply js_str2js_ok; try assumption; lia.
  - eapply TWO; [exact H|]. intros s t Ws Wt H1. eapply PUT; [|exact H1]. apply js_append_ok; assumption.
  - contract H G. eapply TWO; [exact H|]. intros s t Ws Wt H1. eapply PUT; [|exact H1]. apply js_insert_ok; try assumption; lia.
  - contract H G. eapply TWO; [exact H|]. intros s t Ws Wt H1. eapply PUT; [|exact H1]. apply js_substr_ok; try assumption; lia.
  - eapply TWO; [exact H|]. intros s t Ws Wt H1. eapply PUT; [|exact H1]. apply js_copy_ok; assumption.
  - contract H G. eapply ONE; [exact H|]. intros s _ W H1. cbn beta in H1. rewrite unit_value in H1. destruct (Z.eqb_spec (j_size s) 1) as [S1|]; [|discriminate].
    eapply PUT; [|exact H1]. apply andb_true_iff in G as (G1 & G2). apply octets_bytes in G1. apply js_qappend_ok; try assumption; lia.
  - contract H G. eapply ONE; [exact H|]. intros s _ W H1. cbn beta in H1. rewrite unit_value in H1. destruct (Z.eqb_spec (j_size s) 1) as [S1|]; [|discriminate].
    eapply PUT; [|exact H1]. apply andb_true_iff in G as (G1 & G2). apply octets_bytes in G1. apply js_qprepend_ok; try assumption; lia.
  - contract H G. eapply ONE; [exact H|]. intros s _ W H1. eapply PUT; [|exact H1]. apply js_addbyte_ok, W.
  - contract H G. eapply ONE; [exact H|]. intros s _ W H1. eapply PUT; [|exact H1]. apply js_changebyte_ok; [exact W|lia].
  - contract H G. eapply ONE; [exact H|]. intros s _ W H1. eapply PUT; [|exact H1]. apply js_adduint16_ok, W.
  - contract H G. eapply ONE; [exact H|]. intros s _ W H1. eapply PUT; [|exact H1]. apply js_adduint32_ok; [exact W|lia].
  - contract H G. eapply TWO; [exact H|]. intros s t Ws Wt H1. eapply PUT; [|exact H1]. apply js_substr_append_ok; try assumption; lia.
  - eapply ONE; [exact H|]. intros s _ W H1. eapply PUT; [|exact H1]. apply js_tolower_ok, W.
  - eapply TWO; [exact H|]. intros s t Ws Wt H1. eapply GET; [|exact H1]. apply js_issame_ok; assumption.
  - contract H G. eapply TWO; [exact H|]. intros s t Ws Wt H1. eapply GET; [|exact H1]. apply js_fgrep_ok; try assumption; lia.
  - contract H G. eapply TWO; [exact H|]. intros s t Ws Wt H1. cbn beta in H1. rewrite unit_value in H1. destruct (Z.eqb_spec (j_size t) 1) as [S1|]; [|discriminate].
    eapply GET; [|exact H1]. apply js_match_ok; try assumption; lia.
  - contract H G. eapply TWO; [exact H|]. intros s t Ws Wt H1. cbn beta in H1. rewrite unit_value in H1. destruct (Z.eqb_spec (j_size t) 1) as [S1|]; [|discriminate].
    eapply GET; [|exact H1]. apply js_match_ok; try assumption; lia.
  - eapply ONE; [exact H|]. intros s _ W H1. injection H1 as <- <-. exists st. rewrite js_length_ok by exact W. repeat split; try reflexivity. exact F.
  - contract H G. eapply ONE; [exact H|]. intros s _ W H1. eapply GET; [|exact H1]. apply js_val_ok; [exact W|lia].
Qed.

Lemma run_ok J ops : (forall n, junk_ok (J n)) -> forall n st cs a, Forall j_wf st -> a_run ops (map value_of st) = Some (cs, a) ->
  exists st', c_run J n ops st = Ok (cs, st') /\ map value_of st' = a /\ Forall j_wf st'.
Proof.
  intros HJ. induction ops as [|op ops IH]; intros n st cs a F H; cbn [a_run c_run] in *.
  - injection H as <- <-. exists st. repeat split; try reflexivity. exact F.
  - destruct (a_op op (map value_of st)) as [(c, a1)|] eqn:E; [|discriminate].
    destruct (a_run ops a1) as [(cs1, a2)|] eqn:E2; [|discriminate]. injection H as <- <-.
    destruct (op_ok (J n) op st c a1 (HJ n) F E) as (st1 & -> & V1 & F1). cbn [bind]. rewrite <- V1 in E2.
    destruct (IH (S n) st1 cs1 a2 F1 E2) as (st2 & -> & V2 & F2). cbn [bind]. exists st2. repeat split; assumption.
Qed.

(** ** C11
    Whatever program uses the library within its contract, and whatever malloc finds in memory:
    nothing is accessed outside a buffer; every call returns the code, and leaves the strings, that
    the description on lists says; in particular a call that fails changes nothing; and all the
    strings stay valid, with no more units than they have room for. *)
Theorem C11_programs_do_what_lists_do J ops codes strings : (forall n, junk_ok (J n)) -> a_run ops [] = Some (codes, strings) ->
  exists st, c_run J 0 ops [] = Ok (codes, st) /\ map value_of st = strings /\ Forall j_wf st.
Proof. intros HJ H. exact (run_ok J ops HJ 0 [] codes strings (Forall_nil _) H). Qed.
Print Assumptions C11_programs_do_what_lists_do.

(** A failing call leaves its string as it was: all the descriptions say so. *)
Theorem C11_failure_changes_nothing t : (forall a r, s_append a t = (-1, r) -> r = t) /\ (forall a w r, s_insert a t w = (-1, r) -> r = t) /\
  (forall s i n r, s_substr s t i n = (-1, r) -> r = t) /\ (forall s r, s_copy s t = (-1, r) -> r = t) /\
  (forall b i n r, s_str2js t b i n = (-1, r) -> r = t) /\ (forall c r, s_qappend c t = (-1, r) -> r = t) /\ (forall c r, s_qprepend c t = (-1, r) -> r = t) /\
  (forall b r, s_addbyte t b = (-1, r) -> r = t) /\ (forall b o r, s_changebyte t b o = (-1, r) -> r = t) /\ (forall v r, s_adduint16 t v = (-1, r) -> r = t) /\
  (forall v r, s_adduint32 t v = (-1, r) -> r = t) /\ (forall s o l r, s_substr_append s t o l = (-1, r) -> r = t).
Proof.
  unfold s_append, s_insert, s_substr, s_copy, s_str2js, s_qappend, s_qprepend, s_addbyte, s_changebyte, s_adduint16, s_adduint32, s_substr_append, s_add, s_append.
  repeat match goal with |- _ /\ _ => split end; intros; repeat match goal with H : context [if ?b then _ else _] |- _ => destruct b end; congruence.
Qed.
Print Assumptions C11_failure_changes_nothing.

(** Strings are written to a C buffer, with a NUL, if and only if they fit. *)
Theorem C11_to_c_string s buf max : j_wf s -> 0 <= max <= zlen buf -> max < 2147483648 ->
  js_js2str s buf max = Ok (if usable (value_of s) && (zlen (octets_of s) <? max)
                            then (1, octets_of s ++ 0 :: zslice buf (zlen (octets_of s) + 1) (zlen buf - zlen (octets_of s) - 1)) else (-1, buf)).
Proof. exact (js_js2str_ok s buf max). Qed.
Print Assumptions C11_to_c_string.

(** The arguments cannot be just any numbers: js_substr adds two ints without looking. *)
Definition J7 (i : Z) : Z := (i * 37 + 7) mod 256.
Lemma J7_ok : junk_ok J7. Proof. intros i. unfold J7, byte. lia. Qed.
Definition abc (c : list Z) : js := match js_create J7 20 1 with Some s => match js_qstr2js s c with Ok (_, s) => s | _ => s end | None => mkjs [] 0 0 0 0 end.
Theorem C11_any_int_refuted : exists s d, j_wf s /\ j_wf d /\ octets_of s = [97; 98; 99] /\ js_substr s d 1 2147483647 = Bad SignedOverflow.
Proof.
  exists (abc [97; 98; 99]), (abc []).
  assert (forall c, bytes c -> zlen c <= 20 -> j_wf (abc c)) as W.
  { intros c Bc Hc. unfold abc. destruct (js_create_ok J7 20 1 J7_ok ltac:(lia) ltac:(lia) ltac:(lia)) as (s & -> & W & V & _).
    assert (j_size s = 1) as S1 by (rewrite <- unit_value, V; reflexivity).
    destruct (js_qstr2js_ok s c W S1 Bc ltac:(lia)) as (s' & -> & W' & _). exact W'. }
  repeat split; try (apply W; [apply bytesb_spec|]; vm_compute; congruence || reflexivity); vm_compute; reflexivity.
Qed.
Print Assumptions C11_any_int_refuted.

(** Its comment says that js_insert counts negative places from the end of the string.  It never
    inserts there. *)
Theorem C11_negative_places_are_refused a t w : j_wf a -> j_wf t -> -2147483648 <= w < 0 -> js_insert a t w = Ok (-1, t).
Proof.
  intros Wa Wt Hw. pose proof (j_bound t Wt). unfold js_insert. destruct (js_sane a), (js_sane t); cbn [negb]; try reflexivity.
  destruct (j_size a =? j_size t); cbn [negb]; [|reflexivity]. rewrite u32_int_lt by lia. replace (w <? 0) with true by lia. reflexivity.
Qed.
Print Assumptions C11_negative_places_are_refused.

(** A program with successes and failures. *)
Definition prog : list jsop :=
  [Create 12 1; Create 6 1; Qappend [119; 119; 119] 0; Addbyte 0 46; Append 0 1; Qprepend [72; 73] 1; Qprepend [72] 1; SetEncode 1 2; Tolower 1;
   Insert 1 0 1; Insert 1 0 0; Substr 0 1 2 4; Fgrep 1 0 0; Match 1 0 5; Notmatch 1 0 0; Adduint16 1 513; Issame 0 1; Val 0 3; Length 0;
   Create 3 4; Str2js 2 [1; 2; 3; 4; 5; 6; 7; 8] 2 4; SubstrAppend 0 1 3 1; Changebyte 0 65 1; Copy 1 0; Append 2 0].
Example C11_hypotheses_met : exists codes strings, a_run prog [] = Some (codes, strings) /\
  codes = [1; 1; 0; 1; 0; -1; 1; 0; 1; 0; -1; 1; 2; 5; 1; -1; 0; 119; 9; 1; 1; 1; 1; 1; -1] /\
  exists st, c_run (fun _ => J7) 0 prog [] = Ok (codes, st) /\ map value_of st = strings /\ map s_oct strings = [[119; 119; 119; 46; 119]; [119; 119; 119; 46; 119]; [1; 2; 3; 4; 5; 6; 7; 8]].
Proof.
  eexists. eexists. split; [vm_compute; reflexivity|]. split; [vm_compute; reflexivity|]. eexists. split; [vm_compute; reflexivity|]. split; vm_compute; reflexivity.
Qed.

(** ** C12
    The searching functions, on all strings: they read inside the strings only, and their answers
    depend on nothing but the strings. *)
Theorem C12_searches_are_exact e s o : j_wf e -> j_wf s -> -2147483648 <= o < 2147483648 ->
  js_fgrep_offset e s o = Ok (s_fgrep (value_of e) (value_of s) o) /\
  (j_size s = 1 -> js_match_offset e s o = Ok (s_search true (value_of e) (value_of s) o) /\ js_notmatch_offset e s o = Ok (s_search false (value_of e) (value_of s) o)) /\
  js_issame e s = Ok (s_issame (value_of e) (value_of s)) /\ js_val s o = Ok (s_val (value_of s) o).
Proof.
  intros We Ws Ho. split; [apply js_fgrep_ok; assumption|]. split; [intros S1; apply js_match_ok; assumption|]. split; [apply js_issame_ok; assumption|apply js_val_ok; assumption].
Qed.
Print Assumptions C12_searches_are_exact.

(** The same with C strings of at most 1024 octets. *)
Theorem C12_searches_for_c_strings J c t : junk_ok J -> j_wf t -> j_size t = 1 -> bytes c -> zlen c <= 1024 ->
  js_qissame J c t = Ok (if usable (value_of t) then if zlist_eqb c (octets_of t) then 1 else 0 else -1) /\
  js_qfgrep J c t = Ok (s_fgrep (mkstr 1 1024 1 c) (value_of t) 0).
Proof. intros. split; [apply js_qissame_ok|apply js_qfgrep_ok]; assumption. Qed.
Print Assumptions C12_searches_for_c_strings.

(** The readers read inside the string, and the right number, if the string is long enough for
    one: 1, 2 or 4 octets.  Missing: shorter strings, for which it is false. *)
Theorem C12_readers_partial s o : j_wf s -> 0 <= o < 4294967296 ->
  (1 <= j_count s -> js_readbyte s o = Ok (s_readbyte (value_of s) o)) /\
  (2 <= j_count s -> js_readuint16 s o = Ok (s_readuint16 (value_of s) o)) /\
  (4 <= j_count s -> js_readuint32 s o = Ok (s_readuint32 (value_of s) o)).
Proof. intros W Ho. split; [|split]; intros C; [apply js_readbyte_ok|apply js_readuint16_ok|apply js_readuint32_ok]; assumption. Qed.
Print Assumptions C12_readers_partial.

Lemma abc_wf c : bytes c -> zlen c <= 20 -> j_wf (abc c).
Proof.
  intros Bc Hc. unfold abc. destruct (js_create_ok J7 20 1 J7_ok ltac:(lia) ltac:(lia) ltac:(lia)) as (s & -> & W & V & _).
  assert (j_size s = 1) as S1 by (rewrite <- unit_value, V; reflexivity).
  destruct (js_qstr2js_ok s c W S1 Bc ltac:(lia)) as (s' & -> & W' & _). exact W'.
Qed.

(** On an empty string js_readbyte takes any place for good, since unit_count - 1 wraps around: it
    returns what the memory happens to hold, or reads outside the buffer. *)
Theorem C12_reading_a_byte_refuted : exists s, j_wf s /\ octets_of s = [] /\
  js_readbyte s 5 = Ok (J7 5) /\ s_readbyte (value_of s) 5 = -1 /\ js_readbyte s 23 = Bad OutOfBounds.
Proof. exists (abc []). split; [apply abc_wf; [apply bytesb_spec|]; vm_compute; congruence || reflexivity|]. repeat split; vm_compute; reflexivity. Qed.
Print Assumptions C12_reading_a_byte_refuted.

(** The same happens to numbers in strings that are shorter than one number. *)
Theorem C12_reading_numbers_refuted : exists s, j_wf s /\ octets_of s = [65] /\
  js_readuint16 s 0 = Ok (65 * 256 + J7 1) /\ s_readuint16 (value_of s) 0 = -1 /\ js_readuint16 s 100 = Bad OutOfBounds /\ js_readuint32 s 20 = Bad OutOfBounds.
Proof. exists (abc [65]). split; [apply abc_wf; [apply bytesb_spec|]; vm_compute; congruence || reflexivity|]. repeat split; vm_compute; reflexivity. Qed.
Print Assumptions C12_reading_numbers_refuted.

(** Decimal numbers in configuration files are read exactly if they are below 2^31. *)
Theorem C12_decimal_numbers s o : j_wf s -> j_size s = 1 -> -2147483648 <= o < 2147483648 -> s_atoi (value_of s) o < 2147483648 ->
  js_atoi s o = Ok (s_atoi (value_of s) o).
Proof. exact (js_atoi_ok s o). Qed.
Print Assumptions C12_decimal_numbers.
(** Larger ones overflow an int. *)
Theorem C12_large_decimal_numbers_refuted : exists s, j_wf s /\ octets_of s = [50; 49; 52; 55; 52; 56; 51; 54; 52; 56] /\ js_atoi s 0 = Bad SignedOverflow.
Proof.
  exists (snd (js_set_encode (abc [50; 49; 52; 55; 52; 56; 51; 54; 52; 56]) 2)). split; [|split; vm_compute; reflexivity].
  pose proof (abc_wf [50; 49; 52; 55; 52; 56; 51; 54; 52; 56] ltac:(apply bytesb_spec; reflexivity) ltac:(vm_compute; congruence)) as W.
  destruct (js_set_encode_ok _ 2 W) as (s' & E & W' & _).
  apply (f_equal (fun r => match r with Ok p => snd p | _ => s' end)) in E. cbv beta iota in E. rewrite E. exact W'.
Qed.
Print Assumptions C12_large_decimal_numbers_refuted.

Example C12_concrete : js_fgrep_offset (abc [98; 99]) (abc [98; 97; 98; 99; 98; 99]) 1 = Ok 2 /\ js_match_offset (abc [46; 47]) (abc [97; 47; 98; 46]) 2 = Ok 3 /\
  js_notmatch_offset (abc [97; 98]) (abc [97; 98; 99; 97]) 0 = Ok 2 /\ js_fgrep_offset (abc [98]) (abc []) 0 = Ok (-2) /\
  js_readbyte (abc [1; 2; 3]) 2 = Ok 3 /\ js_readuint16 (abc [1; 2; 3]) 1 = Ok 515 /\ js_readuint16 (abc [1; 2; 3]) 2 = Ok (-1) /\
  js_readuint32 (abc [1; 2; 3; 4]) 0 = Ok 16909060 /\ js_readuint32 (abc [255; 255; 255; 255]) 0 = Ok 4294967294.
Proof. vm_compute. repeat split. Qed.
