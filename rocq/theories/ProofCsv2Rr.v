(** Zone files: numbers, types of records, MX and SRV. *)
From Verif Require Import CBase Bits ModelDwStr SpecDwStr ProofDwStr SpecNames SpecMessage SpecQuery ModelJsStr SpecJsStr ProofJsStr ProofJsSearch ModelIpAcl SpecIpAcl ProofIpAcl ModelQueries SpecQueries ProofHname ProofJsList ProofServe ProofServeRun
  ModelCsv2 SpecCsv2 ProofCsv2 ProofCsv2Names ProofCsv2Addr ModelCsv2Rr SpecCsv2Rr.

(** ** Words and numbers as they are taken from the file *)
Definition plain_char (is_ok : Z -> bool) (c : Z) : Prop := 0 <= c < 128 /\ c <> 123 /\ c <> 126 /\ c <> 35 /\ is_ok c = true.
Lemma first_plain J g c is_ok : junk_ok J -> at_char g c -> 0 <= c < 128 -> is_ok c = true -> exists o, process_1stchar J g is_ok [] = Ok (Some o, g) /\ ascii 256 o [c].
Proof.
  intros HJ A RC I.
  destruct (first_on J g c is_ok [] HJ A ltac:(left; lia) I ltac:(constructor) ltac:(vm_compute; discriminate)) as (o & E & H). exists o. split; [exact E|]. rewrite utf8_small in H by lia. split; [exact H|].
  revert E. destruct A as (O & JU & _). unfold process_1stchar, csv2_justread. rewrite O, JU, utf8_small by lia. cbn [last]. replace ((192 <=? c) && (c <? 254)) with false by lia. replace (128 <=? c) with false by lia. replace (c =? FATAL) with false by (unfold FATAL; lia). rewrite I. cbn [negb].
  destruct (js_create_ok J 256 1 HJ ltac:(lia) ltac:(lia) ltac:(lia)) as (s & -> & W & V & _). pose proof (value_held _ _ _ _ W V) as HS. destruct (held_mem 256 s [] HS) as (r & EM & LR & C & BQ & BR & CQ & S1 & M & SA & SM).
  unfold js_set_encode. rewrite SA. cbn [negb]. change ((JS_US_ASCII <? 1) || (3 <? JS_US_ASCII)) with false. cbv iota. change (0 =? JS_ERROR) with false. cbv iota.
  set (o1 := mkjs (j_mem s) (j_size s) (j_count s) (j_max s) JS_US_ASCII).
  assert (held 256 o1 []) as HO. { split; [|exact M]. split; [|split; [exact S1|]]. - destruct W. constructor; assumption. - destruct HS as ((_ & _ & OO) & _). exact OO. }
  destruct (js_qstr2js o1 []) as [[r2 o2]| |] eqn:EQ; cbn [bind]; try discriminate. pose proof (qstr_enc o1 [] o2 r2 HO ltac:(constructor) ltac:(vm_compute; discriminate) EQ) as E2. destruct (negb (r2 =? JS_SUCCESS)); [discriminate|].
  destruct (csv2_append_utf8 o2 c) as [[r3 o3]| |] eqn:EA; cbn [bind]; try discriminate. pose proof (append_enc _ _ _ _ EA) as E3. destruct (r3 <? 0); [discriminate|]. intros E. injection E as <-. rewrite E3, E2. reflexivity.
Qed.
Lemma something_on is_ok d rest l : delimiter d -> is_ok d = false -> forall n o f y, Forall (plain_char is_ok) l -> reading f (l ++ d :: rest) -> ascii 256 o y -> zlen y + zlen l <= 256 -> (length l < n)%nat ->
  exists o' g, something_loop n is_ok o f = Ok (Some o', g) /\ ascii 256 o' (y ++ l) /\ after_reading f g rest d.
Proof.
  intros D ND. induction l as [|c l IH]; intros n o f y F R H L N; (destruct n as [|n]; [cbn [length] in N; lia|]); cbn [something_loop app] in *.
  - destruct (delim_facts d D) as (D1 & D2 & D3 & D4 & D5 & D6 & D7 & D8 & D9). rewrite (read_ascii f d rest R D2 D3 D4). replace (d =? FATAL) with false by (unfold FATAL; lia). replace (d =? 35) with false by lia. rewrite ND, D1. cbn [negb andb].
    exists o, (step f rest d). split; [reflexivity|]. split; [rewrite app_nil_r; exact H|]. split; [apply step_reading|]. split; [reflexivity|]. cbn. auto.
  - apply Forall_cons_iff in F as ((C1 & C2 & C3 & C4 & C5) & F). rewrite zlen_cons in L. pose proof (zlen_nonneg l). rewrite (read_ascii f c (l ++ d :: rest) R) by lia. replace (c =? FATAL) with false by (unfold FATAL; lia). replace (c =? 35) with false by lia. rewrite C5. cbn [negb andb].
    destruct (char_ascii o y c H ltac:(lia) ltac:(lia)) as (o1 & -> & HO1). cbn [bind]. change (1 <? 0) with false. cbv iota.
    destruct (IH n o1 (step f (l ++ d :: rest) c) (y ++ [c]) F (step_reading _ _ _) HO1 ltac:(rewrite zlen_app; change (zlen [c]) with 1; lia) ltac:(cbn [length] in N; lia)) as (o' & g & -> & H' & A). exists o', g. split; [reflexivity|]. split; [rewrite <- app_assoc in H'; exact H'|].
    destruct A as (A1 & A2 & A3 & A4 & A5 & A6). split; [exact A1|]. split; [exact A2|]. cbn in A3, A4, A5, A6. auto.
Qed.
Lemma after_goes f g h r rest d : goes f g r -> after_reading g h rest d -> after_reading f h rest d.
Proof. intros (_ & A & B & C & D) (R & E & A' & B' & C' & D'). split; [exact R|]. split; [exact E|]. rewrite A', B', C', D'. auto. Qed.
Lemma after_goes_on f g rest d : after_reading f g rest d -> goes f g rest.
Proof. intros (R & E & X). split; [exact R|exact X]. Qed.
Lemma something_text J f g is_ok x l d rest : junk_ok J -> goes f g (l ++ d :: rest) -> at_char g x -> Forall (plain_char is_ok) (x :: l) -> delimiter d -> is_ok d = false -> zlen (x :: l) <= 256 ->
  exists o h, process_something J g is_ok = Ok (Some o, h) /\ ascii 256 o (x :: l) /\ after_reading f h rest d.
Proof.
  intros HJ G A F D ND L. apply Forall_cons_iff in F as ((C1 & C2 & C3 & C4 & C5) & F). unfold process_something. destruct (first_plain J g x is_ok HJ A C1 C5) as (o & -> & H). cbn [bind]. rewrite zlen_cons in L.
  destruct (something_on is_ok d rest l D ND (Datatypes.S (length (f_rest g))) o g [x] F (proj1 G) H ltac:(change (zlen [x]) with 1; lia)) as (o' & h & -> & H' & A').
  { rewrite (proj2 (proj1 G)), app_length. cbn [length]. lia. }
  exists o', h. split; [reflexivity|]. split; [exact H'|]. exact (after_goes _ _ _ _ _ _ G A').
Qed.

(** ** Numbers *)
Lemma number_from J f g x l v d rest : junk_ok J -> goes f g (l ++ d :: rest) -> at_char g x -> number_field (x :: l) v -> delimiter d ->
  exists h, (' (num, f) <- process_something J g csv2_is_number ;;
    match num with
    | None => Ok (-1, f)
    | Some num => b <- rd (j_mem num) 0 ;; if (b =? 48) && (j_count num =? 1) then Ok (0, f) else v <- js_atoi num 0 ;; Ok (if v =? 0 then -1 else v, f)
    end) = Ok (v, h) /\ after_reading f h rest d.
Proof.
  intros HJ G A ((NE & FD) & EV & LV & ZV & LL) D.
  destruct (something_text J f g csv2_is_number x l d rest HJ G A) as (o & h & -> & H & AH); [|exact D|unfold delimiter in D; unfold csv2_is_number; lia|exact LL|].
  { apply (Forall_impl _ (P := fun c => 48 <= c <= 57)); [|exact FD]. intros c RC. unfold plain_char, csv2_is_number. lia. }
  cbn [bind]. destruct (held_mem 256 o _ (proj1 H)) as (r & EM & LR & C & BQ & BR & CQ & S1 & M & SA & SM). rewrite EM. change (rd ((x :: l) ++ r) 0) with (Ok x : res Z). cbn [bind]. rewrite C. pose proof (zlen_nonneg l).
  destruct (Z.eqb_spec v 0) as [EZ|NZ].
  - injection (ZV EZ) as -> ->. cbn [Z.eqb Pos.eqb andb]. change (zlen [48] =? 1) with true. cbv iota. exists h. subst v. split; [rewrite EZ; reflexivity|exact AH].
  - assert ((x =? 48) && (zlen (x :: l) =? 1) = false) as ->.
    { destruct (Z.eqb_spec x 48) as [-> |]; [|reflexivity]. destruct (Z.eqb_spec (zlen (48 :: l)) 1) as [E1|]; [|reflexivity]. rewrite zlen_cons in E1. destruct l; [|rewrite zlen_cons in E1; pose proof (zlen_nonneg l); lia]. exfalso. apply NZ. subst v. reflexivity. }
    assert (number_text (x :: l) v) as NT by (split; [discriminate|split; [exact FD|exact EV]]).
    assert (ascii 256 o ([] ++ (x :: l) ++ [])) as HA by (rewrite app_nil_r; exact H).
    change 0 with (zlen (@nil Z)) at 1. rewrite (atoi_ascii 256 o [] (x :: l) [] v HA NT LV Logic.I). cbn [bind]. replace (v =? 0) with false by lia. exists h. split; [reflexivity|exact AH].
Qed.
Lemma number_head x l v : number_field (x :: l) v -> 48 <= x <= 57.
Proof. intros ((_ & FD) & _). exact (Forall_inv FD). Qed.
Lemma field_nonneg l v : number_field l v -> 0 <= v.
Proof. intros ((NE & FD) & <- & _). apply (number_nonneg l). split; [exact NE|split; [exact FD|reflexivity]]. Qed.
Lemma at_just g x : at_char g x -> 0 <= x < 128 -> csv2_justread g = x.
Proof. intros (O & JU & _) L. unfold csv2_justread. rewrite O, JU, utf8_small by lia. reflexivity. Qed.
Lemma get_num J f sep l v d rest : junk_ok J -> separators (f_just f :: sep) -> zlen sep < 10000 -> number_field l v -> delimiter d -> reading f (sep ++ l ++ d :: rest) ->
  exists g, csv2_get_num J f = Ok (v, g) /\ after_reading f g rest d.
Proof.
  intros HJ (SF & SP) LS NF D R. destruct l as [|x l]; [destruct NF as ((NE & _) & _); congruence|]. pose proof (number_head _ _ _ NF) as RX.
  unfold csv2_get_num. destruct (get_1st csv2_is_number_orslash x (l ++ d :: rest) sep f ltac:(intros q Q; unfold delimiter in Q; unfold csv2_is_number_orslash, csv2_is_number; lia) ltac:(unfold csv2_is_number_orslash, csv2_is_number; lia) ltac:(lia) ltac:(lia) ltac:(lia) ltac:(lia) SF SP LS R) as (g & -> & G & A).
  change (negb (1 =? JS_SUCCESS)) with false. cbv iota. rewrite (at_just g x A) by lia. replace (x =? 47) with false by lia. exact (number_from J f g x l v d rest HJ G A NF D).
Qed.
(** The first digit was read before. *)
Lemma get_num_at J f g x l v d rest : junk_ok J -> goes f g (l ++ d :: rest) -> at_char g x -> number_field (x :: l) v -> delimiter d ->
  exists h, csv2_get_num J g = Ok (v, h) /\ after_reading f h rest d.
Proof.
  intros HJ G A NF D. pose proof (number_head _ _ _ NF) as RX. unfold csv2_get_num, csv2_get_1st. rewrite (at_just g x A) by lia. replace (127 <? x) with false by lia. cbv zeta. replace (csv2_is_number_orslash x) with true by (unfold csv2_is_number_orslash, csv2_is_number; lia).
  change (negb (0 =? 1) && true) with true. cbv iota. change (negb (JS_SUCCESS =? JS_SUCCESS)) with false. cbv iota. rewrite (at_just g x A) by lia. replace (x =? 47) with false by lia. exact (number_from J f g x l v d rest HJ G A NF D).
Qed.

(** ** Types *)
Fixpoint lookup (l : list (list Z * Z)) (t : list Z) : Z := match l with [] => -1 | (k, n) :: l => if zlist_eqb k t then n else lookup l t end.
Lemma same_as_ok J s t l : junk_ok J -> holding s t -> Forall (fun p => bytes (fst p) /\ zlen (fst p) <= 1024) l -> same_as J l s = Ok (lookup l t).
Proof.
  intros HJ H F. pose proof (hold_facts s t H) as [W S1 L C M N B X U O _ _]. induction F as [|(k & n) l (BK & LK) F IH]; [reflexivity|]. cbn [same_as lookup fst] in *. rewrite (js_qissame_ok J k s HJ W S1 BK LK), U, O. cbn [bind]. destruct (zlist_eqb k t); [reflexivity|exact IH].
Qed.
Lemma numeric_ok J s t : junk_ok J -> ascii 256 s t -> csv2_numeric_rtype J s = Ok (lookup rtypes (map low_ascii t)).
Proof.
  intros HJ (H & E). pose proof (hold_facts s t (proj1 H)) as [W S1 L C M N B X U O _ _]. unfold csv2_numeric_rtype, js_set_encode. rewrite X. cbn [negb]. change ((JS_US_ASCII <? 1) || (3 <? JS_US_ASCII)) with false. cbv iota.
  replace (mkjs (j_mem s) (j_size s) (j_count s) (j_max s) JS_US_ASCII) with s by (destruct s; cbn in *; subst; reflexivity).
  destruct (js_tolower_ok s W) as (s' & -> & W' & V'). unfold s_tolower in *. revert V'. rewrite U, unit_value, enc_value, S1, E, oct_value, O. cbn [negb orb Z.eqb Pos.eqb fst snd bind]. intros V'. change (1 =? JS_ERROR) with false. cbv iota.
  apply same_as_ok; [exact HJ| |].
  - unfold with_oct in V'. rewrite unit_value, cap_value, S1 in V'. exact (proj1 (value_held _ _ _ _ W' V')).
  - assert (forallb (fun p => bytesb (fst p) && (zlen (fst p) <=? 1024)) rtypes = true) as FB by (vm_compute; reflexivity). rewrite forallb_forall in FB. apply Forall_forall. intros p I. specialize (FB p I). apply andb_prop in FB as (F1 & F2). split; [apply bytesb_spec, F1|lia].
Qed.
Lemma low_upper c : low_ascii (upper c) = low_ascii c.
Proof. unfold low_ascii, upper. destruct ((97 <=? c) && (c <=? 122)) eqn:A; [|reflexivity]. replace ((65 <=? c - 32) && (c - 32 <=? 90)) with true by lia. replace ((65 <=? c) && (c <=? 90)) with false by lia. lia. Qed.
Lemma upper_low c : upper (low_ascii c) = upper c.
Proof. unfold low_ascii, upper. destruct ((65 <=? c) && (c <=? 90)) eqn:A; [|reflexivity]. replace ((97 <=? c + 32) && (c + 32 <=? 122)) with true by lia. replace ((97 <=? c) && (c <=? 122)) with false by lia. lia. Qed.
Lemma same_low t s : same_word t s -> map low_ascii t = map low_ascii (octets s).
Proof. unfold same_word. intros <-. rewrite map_map. apply map_ext. intros c. symmetry. apply low_upper. Qed.
Lemma type_found t s n : In (s, n) types -> same_word t s -> lookup rtypes (map low_ascii t) = n.
Proof.
  intros I E. rewrite (same_low t s E). assert (forallb (fun p => lookup rtypes (map low_ascii (octets (fst p))) =? snd p) types = true) as FB by (vm_compute; reflexivity). rewrite forallb_forall in FB. specialize (FB _ I). cbn [fst snd] in FB. lia.
Qed.
Lemma type_positive s n : In (s, n) types -> 0 < n.
Proof. intros I. assert (forallb (fun p => 0 <? snd p) types = true) as FB by (vm_compute; reflexivity). rewrite forallb_forall in FB. specialize (FB _ I). cbn [snd] in FB. lia. Qed.
Lemma lookup_in l t : lookup l t = -1 \/ exists n, In (t, n) l.
Proof. induction l as [|(k & n) l IH]; [left; reflexivity|]. cbn [lookup]. destruct (zlist_eqb k t) eqn:E; [apply zlist_eqb_spec in E; subst; right; exists n; left; reflexivity|]. destruct IH as [IH|(m & I)]; [left; exact IH|right; exists m; right; exact I]. Qed.
Lemma type_unknown t : (forall s, In s (map fst types ++ words) -> ~ same_word t s) -> lookup rtypes (map low_ascii t) = -1.
Proof.
  intros N. destruct (lookup_in rtypes (map low_ascii t)) as [E|(n & I)]; [exact E|]. exfalso.
  assert (forallb (fun p => existsb (fun s => zlist_eqb (map upper (fst p)) (octets s)) (map fst types ++ words)) rtypes = true) as FB by (vm_compute; reflexivity). rewrite forallb_forall in FB. specialize (FB _ I). apply existsb_exists in FB as (s & IS & ES). apply zlist_eqb_spec in ES. cbn [fst] in ES.
  apply (N s IS). unfold same_word. rewrite <- ES, map_map. apply map_ext. intros c. symmetry. apply upper_low.
Qed.
Lemma word_plain t : word t -> Forall (plain_char csv2_is_text) t /\ exists x l, t = x :: l /\ letter x.
Proof.
  intros (W & L). destruct t as [|x l]; [contradiction|]. destruct W as (LX & F). split; [|exists x, l; auto]. apply Forall_cons.
  - unfold letter in LX. unfold plain_char, csv2_is_text, csv2_is_alphanum, csv2_is_alpha, csv2_is_number. lia.
  - apply (Forall_impl _ (P := fun c => letter c \/ 48 <= c <= 57 \/ c = 45 \/ c = 95)); [|exact F]. intros c RC. unfold letter in RC. unfold plain_char, csv2_is_text, csv2_is_alphanum, csv2_is_alpha, csv2_is_number. lia.
Qed.
(** One round of the loop: the word is taken. *)
Lemma rtype_round J n f sep t d rest : junk_ok J -> separators (f_just f :: sep) -> zlen sep < 10000 -> word t -> delimiter d -> reading f (sep ++ t ++ d :: rest) ->
  exists g, after_reading f g rest d /\ rtype_loop (S n) J f = (let ret := lookup rtypes (map low_ascii t) in
    if ret =? -3 then
      let '(r, f) := csv2_get_1st g csv2_is_number 0 in
      if r <? 0 then Ok (-1, csv2_error f)
      else ' (v, f) <- csv2_get_num J f ;; if v <? 0 then Ok (-1, f) else if 2147483648 <=? v + 100000 then Bad SignedOverflow else Ok (v + 100000, f)
    else if (ret =? -1) || (ret =? 0) then Ok (-1, g)
    else if (ret <=? -2) && (-11 <=? ret) then rtype_loop n J g
    else Ok (ret, g)).
Proof.
  intros HJ (SF & SP) LS WT D R. destruct (word_plain t WT) as (F & x & l & -> & LX). assert (65 <= x <= 122) as RX by (unfold letter in LX; lia).
  destruct (get_1st csv2_is_alpha x (l ++ d :: rest) sep f ltac:(intros q Q; unfold delimiter in Q; unfold csv2_is_alpha; lia) ltac:(unfold letter in LX; unfold csv2_is_alpha; lia) ltac:(lia) ltac:(lia) ltac:(lia) ltac:(lia) SF SP LS R) as (g & E1 & G & A).
  destruct (something_text J f g csv2_is_text x l d rest HJ G A F D ltac:(unfold delimiter in D; unfold csv2_is_text, csv2_is_alphanum, csv2_is_alpha, csv2_is_number; lia) (proj2 WT)) as (o & h & E2 & H & AH).
  exists h. split; [exact AH|]. cbn [rtype_loop]. rewrite E1. change (negb (1 =? JS_SUCCESS)) with false. cbv iota. rewrite E2. cbn [bind]. rewrite (numeric_ok J o _ HJ H). cbn [bind]. reflexivity.
Qed.

(** ** Names after separators *)
Lemma first_here is_ok x rest sep : forall n c (pipe : bool) f, (forall d, delimiter d -> is_ok d = false) -> is_ok x = true -> ok_char x -> x <> 123 -> x <> 126 -> x <> 35 -> Forall delimiter sep -> ((if pipe then 1 else 0) + pipes sep <= 1)%nat -> reading f (sep ++ utf8 x ++ rest) ->
  exists h, first_loop (length sep + S n) is_ok 0 c pipe f = (1, snd (csv2_read_unicode h)) /\ goes f h (utf8 x ++ rest).
Proof.
  induction sep as [|d sep IH]; intros n c pipe f ND OX RX X1 X2 X3 F P R.
  - cbn [length Nat.add first_loop app] in *. pose proof (ok_range x RX). exists f. destruct (read_at f x rest RX X1 X2 R) as (g & E & G & A). rewrite E. replace (x =? FATAL) with false by (unfold FATAL; lia). replace (x =? -2) with false by lia. replace (x =? 35) with false by lia. change (0 =? 1) with false. cbn [negb andb]. rewrite OX. split; [reflexivity|]. split; [exact R|auto].
  - apply Forall_cons_iff in F as (FD & F). destruct (delim_facts d FD) as (D1 & D2 & D3 & D4 & D5 & D6 & D7 & D8 & D9). cbn [length Nat.add first_loop app] in *. rewrite (read_ascii f d _ R D2 D3 D4).
    replace (d =? FATAL) with false by (unfold FATAL; lia). replace (d =? -2) with false by lia. replace (d =? 35) with false by lia. change (0 =? 1) with false. cbn [negb andb]. rewrite (ND d FD). replace (d =? 126) with false by lia. rewrite D1. cbn [negb andb].
    assert (pipes (d :: sep) = if d =? 124 then S (pipes sep) else pipes sep) as PE by (unfold pipes; destruct (Z.eqb_spec d 124) as [-> |NE]; [apply count_occ_cons_eq; reflexivity|apply count_occ_cons_neq; exact NE]). rewrite PE in P.
    assert (forall p, ((if p : bool then 1 else 0) + pipes sep <= 1)%nat -> exists h, first_loop (length sep + S n) is_ok 0 d p (step f (sep ++ utf8 x ++ rest) d) = (1, snd (csv2_read_unicode h)) /\ goes f h (utf8 x ++ rest)) as K.
    { intros p PP. destruct (IH n d p (step f (sep ++ utf8 x ++ rest) d) ND OX RX X1 X2 X3 F PP (step_reading _ _ _)) as (h & E & G). exists h. split; [exact E|]. refine (goes_trans _ _ _ _ _ _ G). split; [apply step_reading|cbn; auto]. }
    destruct (d =? 124); [destruct pipe; [lia|apply K; lia]|apply K, P].
Qed.
Lemma get_here is_ok x rest sep f : (forall d, delimiter d -> is_ok d = false) -> is_ok x = true -> ok_char x -> x <> 123 -> x <> 126 -> x <> 35 -> separators (f_just f :: sep) -> zlen sep < 10000 -> reading f (sep ++ utf8 x ++ rest) ->
  exists h, csv2_get_1st f is_ok 0 = (1, snd (csv2_read_unicode h)) /\ goes f h (utf8 x ++ rest).
Proof.
  intros ND OX RX X1 X2 X3 (F & P) L R. apply Forall_cons_iff in F as (FD & F). destruct (delim_facts _ FD) as (D1 & D2 & D3 & D4 & D5 & D6 & D7 & D8 & D9). unfold csv2_get_1st, csv2_justread. rewrite (proj1 R). replace (127 <? f_just f) with false by lia. rewrite (ND _ FD), D1. change (0 =? 1) with false. cbn [negb andb]. rewrite andb_false_r. cbn [andb].
  assert (exists n, Z.to_nat 10000 = (length sep + S n)%nat) as (n & ->) by (exists (Z.to_nat 10000 - length sep - 1)%nat; unfold zlen in *; lia).
  apply first_here; try assumption. unfold pipes. destruct (Z.eqb_spec (f_just f) 124) as [EQ|NE].
  - rewrite count_occ_cons_eq in P by exact EQ. lia.
  - rewrite count_occ_cons_neq in P by exact NE. lia.
Qed.
