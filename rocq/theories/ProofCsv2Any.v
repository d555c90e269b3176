(** Zone files: whatever is in them, what is taken as a name is one. *)
From Verif Require Import CBase Bits ModelDwStr SpecDwStr ProofDwStr SpecNames SpecMessage SpecAcl SpecDeadwoodMsg SpecQuery ModelJsStr SpecJsStr ProofJsStr ProofJsSearch
  ModelQueries SpecQueries ProofQueries ProofDwDnsStr ProofQuestion ProofHname ProofSqueeze ModelDecomp SpecDecomp ProofJsList ProofDecompList ModelMaraHash SpecMaraHash ProofMaraHash
  ModelServe ProofServe ProofServeRun ProofServeSafe ModelIpAcl ModelCsv2 SpecCsv2 ProofCsv2 ProofCsv2Names.

Lemma groups_bits n : forall v, 0 <= v -> Forall (fun b => 0 <= b < 64) (groups n v).
Proof. induction n as [|n IH]; intros v V; cbn [groups]; [constructor|]. destruct (0 <? v); [|constructor]. apply Forall_app. split; [apply IH, Z.shiftr_nonneg, V|]. constructor; [rewrite land_63; apply Z.mod_pos_bound; reflexivity|constructor]. Qed.
Lemma lor_byte p q : 0 <= p < 256 -> 0 <= q < 256 -> byte (Z.lor p q).
Proof.
  intros HP HQ. unfold byte. split; [apply Z.lor_nonneg; lia|]. destruct (Z.eq_dec (Z.lor p q) 0) as [-> |NZ]; [lia|]. assert (0 <= Z.lor p q) by (apply Z.lor_nonneg; lia). apply (Z.log2_lt_pow2 _ 8); [lia|]. rewrite Z.log2_lor by lia.
  apply Z.max_lub_lt; [destruct (Z.eq_dec p 0) as [-> |]; [reflexivity|apply Z.log2_lt_pow2; lia]|destruct (Z.eq_dec q 0) as [-> |]; [reflexivity|apply Z.log2_lt_pow2; lia]].
Qed.
Lemma lor_high a m : Z.testbit m 7 = true -> Z.lor a m <> 42.
Proof. intros M E. assert (Z.testbit (Z.lor a m) 7 = true) as X by (rewrite Z.lor_spec, M, orb_true_r; reflexivity). rewrite E in X. discriminate. Qed.
Lemma marked_any c l : 0 <= c -> marked (groups 6 c) = Some l -> bytes l /\ ~ In 42 l.
Proof.
  intros C E. pose proof (groups_bits 6 c C) as GB. destruct (groups 6 c) as [|x t]; [discriminate|]. cbn [marked] in E. destruct (zlen (x :: t) <? 2); [discriminate|]. injection E as <-. apply Forall_cons_iff in GB as (GX & GT). split.
  - constructor; [apply lor_byte; [lia|]; repeat match goal with |- context [if ?b then _ else _] => destruct b end; lia|]. apply Forall_map. eapply Forall_impl; [|exact GT]. intros b Hb. cbv beta in *. apply lor_byte; lia.
  - intros [I|I]; [revert I; apply lor_high; repeat match goal with |- context [if ?b then _ else _] => destruct b end; reflexivity|]. apply in_map_iff in I as (b & I & _). revert I. apply lor_high. reflexivity.
Qed.
Lemma octets_any s y l : held 256 s y -> bytes l -> exists r s', append_octets l s = Ok (r, s') /\ (r < 0 \/ held 256 s' (y ++ l)).
Proof.
  intros H B. destruct (Z_le_dec (zlen y + zlen l) 256) as [L|L].
  - destruct (octets_on 256 l s y H B L) as (s' & E & H'). exists 1, s'. split; [exact E|right; exact H'].
  - destruct (octets_full 256 l s y H B ltac:(lia)) as (s' & z & E & _). exists (-1), s'. split; [exact E|left; lia].
Qed.
Lemma append_any s y c : held 256 s y -> exists r s', csv2_append_utf8 s c = Ok (r, s') /\ (r < 0 \/ exists l, held 256 s' (y ++ l) /\ (c <> 42 -> ~ In 42 l) /\ (c = 42 -> l = [42]) /\ (c = 46 -> l = [46])).
Proof.
  intros H. unfold csv2_append_utf8. destruct (held_mem 256 s y H) as (r & E & LR & C & BQ & BR & CQ & S1 & M & SA & SM). unfold octet_string. rewrite SA, S1. cbn [Z.eqb Pos.eqb andb negb].
  destruct (Z.ltb_spec c 0); [exists (-1), s; split; [reflexivity|left; lia]|]. destruct (Z.ltb_spec c 128).
  - destruct (octets_any s y [c] H ltac:(constructor; [unfold byte; lia|constructor])) as (r1 & s' & -> & X). exists r1, s'. split; [reflexivity|]. destruct X as [X|X]; [left; exact X|right]. exists [c]. split; [exact X|]. split; [intros N [I|[]]; congruence|]. split; intros ->; reflexivity.
  - destruct (marked (groups 6 c)) as [l|] eqn:EM; [|exists (-1), s; split; [reflexivity|left; lia]]. destruct (marked_any c l ltac:(lia) EM) as (B & NI). destruct (octets_any s y l H B) as (r1 & s' & -> & X). exists r1, s'. split; [reflexivity|]. destruct X as [X|X]; [left; exact X|right]. exists l. split; [exact X|]. split; [intros _; exact NI|]. split; lia.
Qed.
(** The texts that are taken: no star, or a star and a dot at the beginning *)
Definition shape (y : list Z) : Prop := (exists t, y = 90 :: t /\ ~ In 42 t) \/ (exists t, y = 90 :: 42 :: 46 :: t /\ ~ In 42 t).
Lemma shape_app y l : shape y -> ~ In 42 l -> shape (y ++ l).
Proof. intros [(t & -> & N)|(t & -> & N)] NL; [left|right]; exists (t ++ l); (split; [reflexivity|]); intros I; apply in_app_or in I as [I|I]; [apply N, I|apply NL, I|apply N, I|apply NL, I]. Qed.
Lemma shape_cut y : shape (y ++ [37]) -> shape y.
Proof.
  intros [(t & E & N)|(t & E & N)]; destruct (list_eq_dec Z.eq_dec t []) as [-> |NE].
  - destruct y as [|a y]; [discriminate|destruct y; discriminate].
  - destruct (@exists_last Z t NE) as (t' & x & ->). rewrite app_comm_cons in E. apply app_inj_tail in E as (-> & <-). left. exists t'. split; [reflexivity|]. intros I. apply N. apply in_or_app. left. exact I.
  - destruct y as [|a [|b [|c y]]]; try discriminate. destruct y; discriminate.
  - destruct (@exists_last Z t NE) as (t' & x & ->). change (90 :: 42 :: 46 :: t' ++ [x]) with ((90 :: 42 :: 46 :: t') ++ [x]) in E. apply app_inj_tail in E as (-> & <-). right. exists t'. split; [reflexivity|]. intros I. apply N. apply in_or_app. left. exact I.
Qed.
Definition opt_held (P : list Z -> Prop) (p : option js * csv2) : Prop := match fst p with None => True | Some o => exists y, held 256 o y /\ P y end.
Lemma dname_any sw : sw <> 2 -> forall n x state o f y, held 256 o y -> shape y -> fine (opt_held shape) (dname_loop n x sw state o f).
Proof.
  intros SW. induction n as [|n IH]; intros x state o f y H SH; [apply fine_ok, Logic.I|]. cbn [dname_loop]. destruct (csv2_read_unicode f) as [look g]. destruct (look =? FATAL); [apply fine_ok, Logic.I|]. cbv zeta.
  assert (forall st, look <> 42 -> fine (opt_held shape) (' (r, o) <- csv2_append_utf8 o look ;; if r <? 0 then Ok (None, csv2_error g) else dname_loop n (x + 1) sw st o g)) as ADD.
  { intros st N. destruct (append_any o y look H) as (r & s' & -> & X). cbn [bind]. destruct (Z.ltb_spec r 0); [apply fine_ok, Logic.I|]. destruct X as [X|(l & HL & NL & _)]; [lia|]. apply (IH _ _ _ _ _ HL). apply shape_app; [exact SH|exact (NL N)]. }
  assert (forall st, fine (opt_held shape) (Ok (Some o, st))) as SAME by (intros st; apply fine_ok; exists y; split; assumption).
  assert (csv2_is_dname 42 = false) as D42 by reflexivity.
  destruct ((look =? 46) && (state =? NON_DOT)) eqn:G1; [apply ADD; lia|]. destruct ((state =? NON_DOT) && csv2_is_dname look) eqn:G2; [apply ADD; intros ->; rewrite D42, andb_false_r in G2; discriminate|].
  destruct ((look =? 35) && (state =? DOT) && (0 <? x)); [apply SAME|].
  destruct ((state =? DOT) && (look =? 37) && negb (sw =? 4) && negb (sw =? 5)) eqn:G3.
  { destruct (append_any o y look H) as (r & s' & -> & X). cbn [bind]. destruct (Z.ltb_spec r 0); [apply fine_ok, Logic.I|]. destruct X as [X|(l & HL & NL & _)]; [lia|]. destruct (csv2_read_unicode g) as [c h]. apply fine_ok. unfold opt_held. cbn [fst]. destruct (c =? FATAL); [exact Logic.I|]. exists (y ++ l). split; [exact HL|]. apply shape_app; [exact SH|apply NL; lia]. }
  destruct ((state =? DOT) && csv2_is_dname look) eqn:G4; [apply ADD; intros ->; rewrite D42, andb_false_r in G4; discriminate|].
  destruct ((state =? DOT) && (sw =? 2) && (look =? 42)) eqn:G5; [lia|]. destruct ((state =? DOT) && csv2_is_delimiter look); [apply SAME|].
  destruct ((state =? STAR) && (look =? 46)) eqn:G6; [apply ADD; lia|]. destruct ((state =? STAR) && csv2_is_delimiter look && (sw =? 2)); [apply SAME|]. destruct ((state =? STAR_END) && csv2_is_delimiter look); [apply SAME|]. destruct ((look =? 35) && (state =? STAR_END)); [apply SAME|]. apply fine_ok, Logic.I.
Qed.
Lemma dname_star_any sw n x o f : sw <> 2 -> held 256 o [90; 42] -> fine (opt_held shape) (dname_loop n x sw STAR o f).
Proof.
  intros SW H. destruct n as [|n]; [apply fine_ok, Logic.I|]. cbn [dname_loop]. destruct (csv2_read_unicode f) as [look g]. destruct (look =? FATAL); [apply fine_ok, Logic.I|]. cbv zeta.
  change (STAR =? NON_DOT) with false. change (STAR =? DOT) with false. change (STAR =? STAR) with true. change (STAR =? STAR_END) with false. rewrite !andb_false_r. cbn [andb]. replace (sw =? 2) with false by lia. rewrite !andb_false_r.
  destruct (Z.eqb_spec look 46) as [-> |N]; [|apply fine_ok, Logic.I]. destruct (append_any o _ 46 H) as (r & s' & -> & X). cbn [bind]. destruct (Z.ltb_spec r 0); [apply fine_ok, Logic.I|]. destruct X as [X|(l & HL & _ & _ & E)]; [lia|]. rewrite (E eq_refl) in HL. apply (dname_any sw SW _ _ _ _ _ _ HL). right. exists []. split; [reflexivity|intros []].
Qed.
Definition steady (g : csv2) : Prop := f_ok g = true -> 128 <= f_just g -> f_just g < 192 /\ 128 <= f_uni g.
Lemma readchar_any f c g : csv2_readchar f = (c, g) -> f_ok g = true -> (c = -2 /\ g = f) \/ f_just g = c.
Proof.
  unfold csv2_readchar. destruct (f_ok f) eqn:O; cbn [negb]; [|intros [= <- <-] _; left; split; reflexivity]. destruct (f_rest f) as [|x rest]; [intros [= <- <-] _; left; split; reflexivity|]. cbv zeta. cbn [f_brace f_tilde f_uni f_ok]. destruct ((x =? 123) && _); [intros [= <- <-] X; discriminate|]. destruct ((x =? 126) && _); [intros [= <- <-] X; discriminate|]. intros [= <- <-] _. right. reflexivity.
Qed.
Lemma readchar_uni f : f_uni (snd (csv2_readchar f)) = f_uni f.
Proof. unfold csv2_readchar. destruct (f_ok f); cbn [negb]; [|reflexivity]. destruct (f_rest f) as [|x rest]; [reflexivity|]. cbv zeta. cbn [f_brace f_tilde]. destruct ((x =? 123) && _); [reflexivity|]. destruct ((x =? 126) && _); reflexivity. Qed.
Lemma utf8_loop_just n : forall out f o g, utf8_loop n out f = (Some o, g) -> f_ok g = true -> n = O \/ 128 <= f_just g < 192.
Proof.
  induction n as [|n IH]; intros out f o g E O; [left; reflexivity|]. right. cbn [utf8_loop] in E. destruct (csv2_readchar f) as [c h] eqn:ER. destruct (Z.eqb_spec c (-2)); [discriminate|]. destruct ((c <? 128) || (192 <=? c)) eqn:G; [discriminate|].
  destruct n as [|n]; [|destruct (IH _ _ _ _ E O) as [X|X]; [discriminate|exact X]]. cbn [utf8_loop] in E. injection E as _ <-. destruct (readchar_any f c h ER O) as [(X & _)|X]; [congruence|]. lia.
Qed.
Lemma read_steady f : f_just f < 128 -> steady (snd (csv2_read_unicode f)).
Proof.
  intros L. unfold csv2_read_unicode. destruct (csv2_readchar f) as [c g] eqn:ER. destruct (Z.ltb_spec c 0).
  { cbn [snd]. intros O J. destruct (readchar_any f c g ER O) as [(_ & ->)|X]; lia. }
  destruct (Z.ltb_spec 127 c); [|cbn [snd]; intros O J; destruct (readchar_any f c g ER O) as [(_ & ->)|X]; lia].
  unfold csv2_get_utf8. cbv zeta. destruct (csv2_utf8_length (csv2_justread g) <? 2) eqn:G2; [cbn [snd]; intros O; discriminate|]. destruct (utf8_loop _ _ g) as [[o|] h] eqn:EU.
  - match goal with |- steady (snd (if ?b then _ else _)) => destruct b eqn:G end; [cbn [snd]; intros O; discriminate|]. cbn [snd]. unfold set_uni. destruct (f_ok h) eqn:OH; [|intros O; rewrite OH in O; discriminate]. intros _ J. cbn [f_just f_uni] in *.
    destruct (utf8_loop_just _ _ _ _ _ EU OH) as [X|X]; [lia|]. split; [lia|]. apply orb_false_iff in G as (G & _). apply orb_false_iff in G as (G & _). apply orb_false_iff in G as (G & _). apply orb_false_iff in G as (G & _). lia.
  - cbn [snd]. intros O. exfalso. revert EU O. generalize (Z.land (csv2_justread g) (if csv2_utf8_length (csv2_justread g) =? 2 then 31 else if csv2_utf8_length (csv2_justread g) =? 3 then 15 else if csv2_utf8_length (csv2_justread g) =? 4 then 7 else if csv2_utf8_length (csv2_justread g) =? 5 then 3 else 1)).
    generalize (Z.to_nat (csv2_utf8_length (csv2_justread g) - 1)). clear. intros n. revert g. induction n as [|n IH]; intros g out EU O; [discriminate|]. cbn [utf8_loop] in EU. destruct (csv2_readchar g) as [c k]. destruct (c =? -2); [injection EU as <-; discriminate|]. destruct ((c <? 128) || (192 <=? c)); [injection EU as <-; discriminate|]. exact (IH _ _ EU O).
Qed.
Lemma first_any J g is_ok : junk_ok J -> steady g -> fine (fun p => match fst p with None => True | Some o => snd p = g /\ exists l, held 256 o (90 :: l) /\ (csv2_justread g <> 42 -> ~ In 42 l) /\ (csv2_justread g = 42 -> l = [42]) end) (process_1stchar J g is_ok [90]).
Proof.
  intros HJ ST. unfold process_1stchar. destruct (new_held J [90] HJ ltac:(constructor; [unfold byte; lia|constructor]) ltac:(vm_compute; discriminate)) as (s & o & o' & -> & -> & EQ & H).
  assert (exists look, (if (192 <=? csv2_justread g) && (csv2_justread g <? 254) then csv2_get_utf8 g else if 128 <=? csv2_justread g then (csv2_get_unicode g, g) else (csv2_justread g, g)) = (look, g) /\ (look = 42 <-> csv2_justread g = 42)) as (look & -> & LK).
  { unfold steady in ST. unfold csv2_justread, csv2_get_unicode. destruct (f_ok g) eqn:O; [|exists (-1); split; reflexivity]. destruct (Z_lt_dec (f_just g) 128).
    - replace (192 <=? f_just g) with false by lia. replace (128 <=? f_just g) with false by lia. cbn [andb]. exists (f_just g). split; reflexivity.
    - destruct (ST eq_refl ltac:(lia)) as (A & B). replace (192 <=? f_just g) with false by lia. replace (128 <=? f_just g) with true by lia. cbn [andb]. exists (f_uni g). split; [reflexivity|lia]. }
  destruct (look =? FATAL); [apply fine_ok, Logic.I|]. destruct (negb (is_ok look)); [apply fine_ok, Logic.I|]. change (0 =? JS_ERROR) with false. cbv iota. rewrite EQ. cbn [bind]. change (negb (1 =? JS_SUCCESS)) with false. cbv iota.
  destruct (append_any o' [90] look H) as (r & s' & -> & X). cbn [bind]. destruct (Z.ltb_spec r 0); [apply fine_ok, Logic.I|]. destruct X as [X|(l & HL & NL & E42 & _)]; [lia|]. apply fine_ok. cbn [fst snd]. split; [reflexivity|]. exists l. split; [exact HL|]. split; [intros N; apply NL; intros E; apply N, LK, E|intros E; apply E42, LK, E].
Qed.
Lemma append_dname_any o g sw l : In sw [1; 3; 4] -> held 256 o (90 :: l) -> (csv2_justread g <> 42 -> ~ In 42 l) -> (csv2_justread g = 42 -> l = [42]) -> fine (opt_held shape) (js_append_dname o g sw).
Proof.
  intros SI H N E. assert (sw <> 2 /\ sw <> 0 /\ sw <> 5) as (SW & S0 & S5) by (cbn [In] in SI; lia). unfold js_append_dname. cbv zeta.
  assert (csv2_justread g <> 42 -> shape (90 :: l)) as SH by (intros X; left; exists l; split; [reflexivity|exact (N X)]).
  destruct (((csv2_justread g =? 37) && negb ((sw =? 4) || (sw =? 5))) || (csv2_justread g =? 46)) eqn:G1.
  { destruct (csv2_read_unicode g) as [c h]. apply fine_ok. unfold opt_held. cbn [fst]. destruct (c =? FATAL); [exact Logic.I|]. exists (90 :: l). split; [exact H|]. apply SH. lia. }
  destruct ((csv2_justread g =? 37) && ((sw =? 4) || (sw =? 5))); [apply fine_ok, Logic.I|].
  destruct (negb (sw =? 0) && negb (sw =? 5)) eqn:G2.
  - destruct (csv2_is_dname (csv2_justread g)) eqn:G3; [apply (dname_any sw SW _ _ _ _ _ _ H), SH; intros X; rewrite X in G3; discriminate|]. destruct (Z.eqb_spec (csv2_justread g) 42) as [X|X]; [|apply fine_ok, Logic.I]. destruct ((sw =? 0) || (sw =? 3) || (sw =? 4) || (sw =? 5)); [apply fine_ok, Logic.I|]. rewrite (E X) in H. apply (dname_star_any sw _ _ _ _ SW H).
  - lia.
Qed.
Lemma process_dname_any J g sw : junk_ok J -> steady g -> In sw [1; 3; 4] -> fine (opt_held shape) (process_dname J g sw).
Proof.
  intros HJ ST SI. unfold process_dname. eapply fine_bind; [apply first_any; assumption|]. intros (o & f) H. cbn [fst] in H. destruct o as [o|]; [|apply fine_ok, Logic.I]. cbn [snd] in H. destruct H as (-> & l & H & N & E).
  eapply fine_bind; [apply (append_dname_any o g sw l SI H); assumption|]. intros (o2 & f2) H2. unfold opt_held in H2. cbn [fst] in H2. destruct o2 as [o2|]; [|apply fine_ok, Logic.I]. destruct H2 as (y & H2 & SH).
  destruct (Z.ltb_spec 1 (j_count o2)); [|apply fine_ok; exists y; split; assumption]. pose proof (count_held _ _ H2) as C2. destruct y as [|a [|b y]]; [change (zlen (@nil Z)) with 0 in C2; lia|change (zlen [a]) with 1 in C2; lia|]. rewrite (rd1_held _ _ _ _ H2). cbn [bind].
  destruct ((b =? 46) && negb (j_count o2 =? 2)); apply fine_ok; [exact Logic.I|]. exists (a :: b :: y). split; assumption.
Qed.

Lemma convert_any o y cz zone z : held 256 o y -> shape y -> held cz zone z -> ~ In 42 z -> fine (fun p => match p with None => True | Some o => exists y, held 256 o y /\ shape y end) (csv2_convert_percent o zone).
Proof.
  intros H SH HZ NZ. unfold csv2_convert_percent. destruct (held_mem 256 o _ H) as (r & E & LR & C & BQ & BR & CQ & S1 & M & SA & SM). rewrite S1. cbn [Z.eqb Pos.eqb negb]. destruct (Z.leb_spec 1 (j_count o)); [|apply fine_ok; exists y; split; assumption].
  destruct (list_eq_dec Z.eq_dec y []) as [-> |NE]; [change (zlen (@nil Z)) with 0 in C; lia|]. destruct (@exists_last Z y NE) as (y' & x & ->). rewrite E, C, zlen_app. change (zlen [x]) with 1. replace (zlen y' + 1 - 1) with (zlen y') by lia. rewrite <- app_assoc. cbn [app]. rewrite rd_here. cbn [bind].
  destruct (Z.eqb_spec x 37) as [-> |NX]; [|apply fine_ok; exists (y' ++ [x]); split; assumption].
  destruct (Z_lt_dec (zlen y' + zlen z) 256) as [L|L].
  - destruct (append_held cz zone z 256 _ y' HZ (held_cut 256 o y' [37] H) L) as (o' & -> & H'). cbn [bind]. apply fine_ok. change (0 =? JS_ERROR) with false. exists (y' ++ z). split; [exact H'|]. apply shape_app; [apply shape_cut, SH|exact NZ].
  - destruct (append_held_not cz zone z 256 _ y' HZ (held_cut 256 o y' [37] H) ltac:(lia)) as (o' & ->). cbn [bind]. apply fine_ok, Logic.I.
Qed.
Lemma text_starless n : ~ In 42 (text n) -> starless n.
Proof.
  intros N. destruct n as [|l n]; [constructor|]. rewrite text_dots in N by discriminate. unfold starless. apply Forall_forall. intros a IA. apply Forall_forall. intros b IB ->. apply N. unfold dots. apply in_concat. exists (a ++ [46]). split; [apply in_map_iff; exists a; split; [reflexivity|exact IA]|]. apply in_or_app. left. exact IB.
Qed.
Lemma text_star n t : text n = 42 :: 46 :: t -> dotless n -> exists n', n = [42] :: n' /\ t = dots n'.
Proof.
  intros E D. destruct n as [|l n]; [discriminate|]. rewrite text_dots, dots_cons in E by discriminate. apply Forall_cons_iff in D as (D & _). destruct l as [|a l]; [discriminate|]. injection E as -> E. destruct l as [|b l].
  - injection E as <-. exists n. split; reflexivity.
  - injection E as -> _. apply Forall_cons_iff in D as (_ & D). apply Forall_cons_iff in D as (D & _). congruence.
Qed.
(** Names in the database: without stars, or with an underscore in front. *)
Definition name_taken (o : option js) : Prop := match o with None => True | Some s => exists n, text_ok n /\ starless n /\ (holding s (wire n) \/ holding s (95 :: wire n)) end.
Lemma hostname_any J f cz zone z sw : junk_ok J -> f_just f < 128 -> In sw [1; 3; 4] -> held cz zone z -> ~ In 42 z -> fine (fun p => name_taken (fst p)) (name_at J f zone sw).
Proof.
  intros HJ L SI HZ NZ. unfold name_at, csv2_get_hostname. eapply fine_bind; [apply process_dname_any; [exact HJ|apply read_steady, L|exact SI]|]. intros (o & g) H. unfold opt_held in H. cbn [fst] in H. destruct o as [o|]; [|apply fine_ok, Logic.I]. destruct H as (y & H & SH).
  eapply fine_bind; [apply (convert_any o y cz zone z); assumption|]. intros [o2|] H2; [|apply fine_ok, Logic.I]. clear y H SH. destruct H2 as (y & H & SH). replace (sw =? 2) with false by (cbn [In] in SI; lia).
  destruct (hname_exact o2 y (proj1 H)) as (r & s' & E & W & S1 & M & X). rewrite E. cbn [bind]. destruct (Z.ltb_spec r 0); [apply fine_ok, Logic.I|]. destruct (X ltac:(lia) ltac:(lia)) as (c & n & EY & TY & TK).
  assert (holding s' (wire n)) as HW.
  { subst y. destruct n as [|l n]; [destruct (hname_root 0 o2 c r (proj1 H) TY) as (s2 & E2 & HW & _)|destruct TK as (G & D & LT); destruct (hname_good 0 o2 c r (l :: n) (proj1 H) TY ltac:(discriminate) G D LT) as (s2 & E2 & HW & _)]; rewrite E in E2; injection E2 as <-; exact HW. }
  assert (held 256 s' (wire n)) as HH by (split; [exact HW|rewrite M; exact (proj2 H)]).
  destruct SH as [(t & ET & NT)|(t & ET & NT)].
  - rewrite EY in ET. injection ET as _ <-. pose proof (text_starless n NT) as SL. rewrite (meta_plain s' n HH (proj1 TK) SL (wire_short _ TK)). cbn [bind]. apply fine_ok. cbn [fst]. change (1 =? JS_ERROR) with false. exists n. split; [exact TK|]. split; [exact SL|left; exact HW].
  - rewrite EY in ET. injection ET as _ ET. destruct (text_star n t ET (proj1 (proj2 TK))) as (n' & -> & ->). destruct (meta_star s' n' HH) as (s2 & -> & H2). cbn [bind]. apply fine_ok. cbn [fst]. change (1 =? JS_ERROR) with false. exists n'. destruct TK as (G & D & LT). apply Forall_cons_iff in G as (_ & G). apply Forall_cons_iff in D as (_ & D).
    split; [split; [exact G|split; [exact D|]]|]; [|split; [|right; exact (proj1 H2)]].
    + rewrite text_dots, dots_cons, zlen_app, !zlen_cons in LT by discriminate. change (zlen (@nil Z)) with 0 in LT. destruct n'; [vm_compute; discriminate|]. rewrite text_dots by discriminate. lia.
    + apply text_starless. destruct n' as [|a n']; [intros [I|[]]; discriminate|]. rewrite text_dots by discriminate. exact NT.
Qed.
