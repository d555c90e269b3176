(** Zone files: TXT and RAW data of any files. *)
From Verif Require Import CBase Bits ModelDwStr SpecDwStr ProofDwStr SpecNames SpecMessage SpecAcl SpecDeadwoodMsg SpecQuery ModelJsStr SpecJsStr ProofJsStr ProofJsSearch
  ModelQueries SpecQueries ProofQueries ProofDwDnsStr ProofQuestion ProofHname ProofSqueeze ModelDecomp SpecDecomp ProofJsList ProofDecompList ModelMaraHash SpecMaraHash ProofMaraHash
  ModelServe ProofServe ProofServeRun ProofServeSafe ModelIpAcl ModelCsv2 SpecCsv2 ProofCsv2 ProofCsv2Names ProofCsv2Addr ProofCsv2Any ModelCsv2Rr SpecCsv2Rr ProofCsv2Rr ModelCsv2Txt SpecCsv2Txt ProofCsv2Txt.

(** ** What fetchzone writes *)
Lemma escape_parts tilde l : bytes l ->
  (exists c, chunk_ok tilde c /\ chunk_text c = escape false l /\ chunk_octets c = l) /\
  (exists q c, Forall (fun x => quotable tilde x /\ 0 <= x < 128) q /\ chunk_ok tilde c /\ escape true l = q ++ 39 :: chunk_text c /\ l = q ++ chunk_octets c).
Proof.
  assert (forall q, Forall (fun x => quotable tilde x /\ 0 <= x < 128) q -> written q = q) as WR.
  { intros q F. induction F as [|x q (_ & X) F IH]; [reflexivity|]. change (written (x :: q)) with (utf8 x ++ written q). rewrite utf8_small, IH by lia. reflexivity. }
  assert (forall p c t o, part_ok tilde p -> chunk_ok tilde c -> chunk_text c = t -> chunk_octets c = o -> exists c', chunk_ok tilde c' /\ chunk_text c' = part_text p ++ t /\ chunk_octets c' = part_octets p ++ o) as ADD.
  { intros p c t o P C <- <-. exists (([], p) :: c). split; [constructor; [split; [constructor|exact P]|exact C]|]. split; reflexivity. }
  assert (forall q, Forall (fun x => quotable tilde x /\ 0 <= x < 128) q -> part_ok tilde (Quoted q)) as QO by (intros q F; cbn; eapply Forall_impl; [|exact F]; intros x (X & _); exact X).
  intros B. induction B as [|x l BX B (IH1 & IH2)].
  - split; [exists []; split; [constructor|]; split; reflexivity|]. exists [], []. split; [constructor|]. split; [constructor|]. split; reflexivity.
  - destruct IH1 as (c1 & C1 & T1 & O1). destruct IH2 as (q2 & c2 & Q2 & C2 & T2 & O2). cbn [escape]. unfold byte in BX. destruct ((x <? 32) || (122 <? x) || (x =? 35)) eqn:G1; [|destruct (Z.eqb_spec x 39) as [-> |N39]].
    + destruct (ADD (Hexa x false false) c1 _ _ ltac:(cbn; lia) C1 T1 O1) as (c & C & T & O). split; [exists c; split; [exact C|]; split; [rewrite T; reflexivity|exact O]|]. exists [], c. split; [constructor|]. split; [exact C|]. split; [rewrite T; reflexivity|symmetry; exact O].
    + split.
      * destruct (ADD Tick c1 _ _ Logic.I C1 T1 O1) as (c & C & T & O). exists c. split; [exact C|]. split; [rewrite T; reflexivity|exact O].
      * destruct (ADD (Quoted q2) c2 _ _ (QO _ Q2) C2 eq_refl eq_refl) as (c3 & C3 & T3 & O3). destruct (ADD Tick c3 _ _ Logic.I C3 T3 O3) as (c & C & T & O). cbn [part_text part_octets] in *. rewrite (WR _ Q2) in *. exists [], c. split; [constructor|]. split; [exact C|]. rewrite T2, T, O. split; [cbn [app]; rewrite <- app_assoc; reflexivity|]. cbn [app]. rewrite O2 at 1. reflexivity.
    + assert (quotable tilde x /\ 0 <= x < 128) as QX. { split; [|lia]. split; [lia|]. split; [left; lia|]. cbn [In]. split; [lia|]. intros _. lia. }
      split.
      * destruct (ADD (Quoted (x :: q2)) c2 _ _ (QO _ (Forall_cons _ QX Q2)) C2 eq_refl eq_refl) as (c & C & T & O). cbn [part_text part_octets] in *. rewrite (WR _ (Forall_cons _ QX Q2)) in *. exists c. split; [exact C|]. rewrite T, T2, O. split; [cbn [app]; rewrite <- app_assoc; reflexivity|]. cbn [app]. rewrite O2 at 1. reflexivity.
      * exists (x :: q2), c2. split; [constructor; assumption|]. split; [exact C2|]. split; [cbn [app]; rewrite T2; reflexivity|cbn [app]; rewrite O2 at 1; reflexivity].
Qed.
Lemma escape_length l : forall q, (length (escape q l) <= 5 * length l + 1)%nat.
Proof. induction l as [|x l IH]; intros q; cbn [escape]; [destruct q; cbn; lia|]. pose proof (IH true). pose proof (IH false). pose proof (IH q). repeat match goal with |- context [if ?b then _ else _] => destruct b end; rewrite ?app_length; cbn [length]; lia. Qed.
Lemma escape_some l : bytes l -> l <> [] -> exists c, c <> [] /\ chunk_ok true c /\ chunk_text c = escape_stdout_csv2 l /\ chunk_octets c = l.
Proof. intros B NE. destruct (escape_parts true l B) as ((c & C & T & O) & _). exists c. split; [intros ->; apply NE; rewrite <- O; reflexivity|]. auto. Qed.

(** ** Any files *)
Definition good {A} (raw : bool) (P : A -> Prop) (r : res A) : Prop :=
  match r with Ok x => P x | Fail => True | Bad UseAfterFree => True | Bad SignedOverflow => raw = true | Bad _ => False end.
Lemma good_bind {A B} raw (P : A -> Prop) (Q : B -> Prop) (r : res A) (k : A -> res B) : good raw P r -> (forall x, P x -> good raw Q (k x)) -> good raw Q (bind r k).
Proof. intros G K. destruct r as [x| |b]; [apply K, G|exact Logic.I|exact G]. Qed.
Definition okt (raw : bool) (t : tvars) : Prop := exists y, held 1513 (t_out t) y /\ (if raw then t_place t = -1 else 0 <= t_place t < zlen y /\ 0 <= t_len t <= 2 * zlen y).
Definition kept_string (o : option js) : Prop := match o with None => True | Some s => exists y, held 1513 s y end.
Definition okr (raw : bool) (r : outcome_) : Prop := match r with Go t _ => okt raw t | Done o _ => kept_string o end.
Lemma okt_state raw t s : okt raw t -> okt raw (set_state t s). Proof. intros (y & H). exists y. exact H. Qed.
Lemma okt_num raw t s n : okt raw t -> okt raw (set_num t s n). Proof. intros (y & H). exists y. exact H. Qed.
Lemma marked_length c l : marked (groups 6 c) = Some l -> 2 <= zlen l.
Proof. destruct (groups 6 c) as [|a g]; [discriminate|]. cbn [marked]. destruct (Z.ltb_spec (zlen (a :: g)) 2) as [L|L]; [discriminate|]. intros [= <-]. rewrite zlen_cons, zlen_map in *. exact L. Qed.
Lemma utf8_any s y c : held 1513 s y -> exists r s', csv2_append_utf8 s c = Ok (r, s') /\ (r = JS_ERROR \/ (r = 1 /\ exists l, held 1513 s' (y ++ l) /\ 1 <= zlen l /\ (128 <= c -> 2 <= zlen l) /\ (0 <= c < 128 -> l = [c]) /\ 0 <= c)).
Proof.
  intros H. assert (forall l, bytes l -> exists r s', append_octets l s = Ok (r, s') /\ (r = JS_ERROR \/ (r = 1 /\ held 1513 s' (y ++ l)))) as OA.
  { intros l B. destruct (Z_le_dec (zlen y + zlen l) 1513) as [L|L]; [destruct (octets_on 1513 l s y H B L) as (s' & E & H'); exists 1, s'; auto|]. destruct (octets_full 1513 l s y H B ltac:(lia)) as (s' & z & E & _). exists (-1), s'. auto. }
  unfold csv2_append_utf8. destruct (held_mem 1513 s y H) as (r & E & LR & C & BQ & BR & CQ & S1 & M & SA & SM). unfold octet_string. rewrite SA, S1. cbn [Z.eqb Pos.eqb andb negb].
  destruct (Z.ltb_spec c 0); [exists (-1), s; auto|]. destruct (Z.ltb_spec c 128).
  - destruct (OA [c] ltac:(constructor; [unfold byte; lia|constructor])) as (r1 & s' & -> & X). exists r1, s'. split; [reflexivity|]. destruct X as [X|(X & HX)]; [auto|]. right. split; [exact X|]. exists [c]. split; [exact HX|]. change (zlen [c]) with 1. split; [lia|]. split; [lia|]. split; [reflexivity|lia].
  - destruct (marked (groups 6 c)) as [l|] eqn:EM; [|exists (-1), s; auto]. destruct (marked_any c l ltac:(lia) EM) as (B & _). pose proof (marked_length c l EM). destruct (OA l B) as (r1 & s' & -> & X). exists r1, s'. split; [reflexivity|]. destruct X as [X|(X & HX)]; [auto|]. right. split; [exact X|]. exists l. split; [exact HX|]. split; [lia|]. split; [lia|]. split; [lia|lia].
Qed.
Lemma held_room s y : held 1513 s y -> zlen y <= 1513. Proof. intros H. destruct (held_mem 1513 s y H) as (r & E & LR & C & BQ & BR & CQ & _). lia. Qed.
Lemma append_good raw t c : okt raw t -> good raw (fun o => match o with None => True | Some t' => okt raw t' end) (csv2_txt_append t c).
Proof.
  intros (y & H & P). unfold csv2_txt_append. destruct (utf8_any _ y c H) as (r & s' & -> & X). cbn [bind]. destruct X as [-> |(-> & l & HL & L1 & L2 & _ & C0)]; [exact Logic.I|]. change (1 =? JS_ERROR) with false. cbv iota. pose proof (held_room _ _ HL) as HR. rewrite zlen_app in HR. pose proof (zlen_nonneg y).
  assert (forall k, 0 <= k <= 4 -> (c < 128 -> k = 1) -> good raw (fun o => match o with None => True | Some t' => okt raw t' end) (len <- add_int (t_len t) k ;; Ok (Some (mktv (t_state t) (t_num t) (t_place t) len (t_chunks t) s')))) as ADD.
  { intros k K K1. unfold add_int. destruct (Z.ltb_spec 2147483647 (t_len t + k)) as [O|O]; cbn [bind good]; [destruct raw; [reflexivity|lia]|]. exists (y ++ l). split; [exact HL|]. cbn [t_place t_len]. rewrite zlen_app. destruct raw; [exact P|]. split; [lia|]. assert (k <= 2 * zlen l) by (destruct (Z_lt_dec c 128); [rewrite K1 by lia; lia|lia]). lia. }
  destruct (Z.ltb_spec c 128); [apply ADD; lia|]. destruct (c <? 2048); [apply ADD; lia|]. destruct (c <? 65536); [apply ADD; lia|]. destruct (c <? 2097152); [apply ADD; lia|exact Logic.I].
Qed.
Lemma put_any s y i v : held 1513 s y -> 0 <= i < zlen y -> exists m z, wr (j_mem s) i (u8 v) = Ok m /\ held 1513 (set_mem s m) z /\ zlen z = zlen y.
Proof.
  intros H R. destruct (nth_split y 0 (n := Z.to_nat i)) as (a & b & E & L); [unfold zlen in R; lia|]. set (x := nth (Z.to_nat i) y 0) in *. clearbody x. assert (zlen a = i) as <- by (unfold zlen; lia). subst y. destruct (put_held _ _ _ _ _ (u8 v) H) as (m & W & H'); [unfold u8; apply Z.mod_pos_bound; reflexivity|]. exists m. eexists. split; [exact W|]. split; [exact H'|]. rewrite !zlen_app, !zlen_cons. reflexivity.
Qed.
Lemma final_good nc t f : okt (nc =? -1) t -> good (nc =? -1) (okr (nc =? -1)) (finalize f nc t).
Proof.
  intros (y & H & P). unfold finalize, csv2_finalize_txt. destruct (nc =? -1); [cbn; exists y; exact H|]. destruct ((t_place t <? 0) || (j_max (t_out t) <? t_place t)); [exact Logic.I|]. destruct (255 <? t_len t); [exact Logic.I|]. destruct (put_any _ _ _ (t_len t) H (proj1 P)) as (m & z & -> & HZ & LZ). cbn [bind]. destruct ((0 <? nc) && _); [exact Logic.I|]. exists z. exact HZ.
Qed.
Lemma chunk_good raw t f s : okt raw t -> good raw (okr raw) (chunk f t s).
Proof.
  intros (y & H & P). unfold chunk, new_chunk. destruct ((t_place t <? 0) || (j_max (t_out t) <? t_place t)) eqn:G; [exact Logic.I|]. destruct raw; [lia|]. destruct (255 <? t_len t); [exact Logic.I|]. destruct (put_any _ _ _ (t_len t) H (proj1 P)) as (m & z & -> & HZ & LZ). cbn [bind]. destruct (utf8_any _ z 0 HZ) as (r & s' & -> & X). cbn [bind]. destruct X as [-> |(-> & l & HL & L1 & L2 & LE & C0)]; [exact Logic.I|]. change (1 =? JS_ERROR) with false. cbn.
  exists (z ++ l). split; [exact HL|]. destruct (held_mem _ _ _ HZ) as (q & E & LR & C & _). cbn [j_count set_mem] in C. rewrite zlen_app. pose proof (zlen_nonneg z). cbn [t_place t_len set_state]. change (j_count (set_mem (t_out t) m)) with (j_count (t_out t)) in *. lia.
Qed.
Lemma append_round raw t f c s : okt raw t -> good raw (okr raw) (append f t c s).
Proof. intros T. unfold append. eapply good_bind; [exact (append_good raw t c T)|]. intros [t'|] X; [exact (okt_state raw t' s X)|exact Logic.I]. Qed.
Lemma byte_any s y v : held 1513 s y -> exists r s', js_addbyte s v = Ok (r, s') /\ ((r =? JS_ERROR) = true \/ ((r =? JS_ERROR) = false /\ held 1513 s' (y ++ [u8 v]))).
Proof.
  intros H. assert (js_addbyte s v = js_addbyte s (u8 v)) as -> by (unfold js_addbyte, u8; rewrite Zmod_mod; reflexivity). destruct (Z_lt_dec (zlen y + 1) 1513) as [L|L].
  - destruct (byte_held _ _ _ (u8 v) H ltac:(unfold u8; apply Z.mod_pos_bound; reflexivity) L) as (r & s' & E & NR & H'). exists r, s'. split; [exact E|right; split; assumption].
  - destruct (held_mem 1513 s y H) as (r & E & LR & C & BQ & BR & CQ & S1 & M & SA & SM). unfold js_addbyte. rewrite SA, S1, M, C. cbn [negb Z.eqb Pos.eqb]. assert (u32 (zlen y + 1) = zlen y + 1) as -> by (unfold u32; apply Z.mod_small; pose proof (zlen_nonneg y); lia). replace (1513 <=? zlen y + 1) with true by lia. exists (-1), s. auto.
Qed.
Lemma octet_good raw t f v : okt raw t -> good raw (okr raw) (add_octet f t v).
Proof.
  intros (y & H & P). unfold add_octet. destruct (byte_any _ y v H) as (r & s' & -> & X). cbn [bind]. destruct X as [-> |(-> & HX)]; [exact Logic.I|]. unfold add_int. pose proof (held_room _ _ H). destruct (Z.ltb_spec 2147483647 (t_len t + 1)) as [O|O]; cbn [bind good]; [destruct raw; [reflexivity|lia]|]. cbn. exists (y ++ [u8 v]). split; [exact HX|]. cbn [t_place t_len]. rewrite zlen_app. change (zlen [u8 v]) with 1. destruct raw; [exact P|lia].
Qed.
Lemma round_good nc post look t f : okt (nc =? -1) t -> good (nc =? -1) (okr (nc =? -1)) (txt_round nc post look t f).
Proof.
  intros T. unfold txt_round.
  assert (good (nc =? -1) (okr (nc =? -1)) (in_get nc post look t f)) as R1.
  { unfold in_get. cbv zeta. repeat match goal with |- context [if ?b then _ else _] => destruct b end; first [apply append_round, T|apply final_good, T|apply chunk_good, T|exact Logic.I|exact (okt_state _ _ _ T)|exact T]. }
  assert (good (nc =? -1) (okr (nc =? -1)) (in_between nc look t f)) as R2.
  { unfold in_between. repeat match goal with |- context [if ?b then _ else _] => destruct b end; first [apply final_good, T|apply chunk_good, T|exact Logic.I|exact T]. }
  assert (good (nc =? -1) (okr (nc =? -1)) (in_quote look t f)) as R3.
  { unfold in_quote. repeat match goal with |- context [if ?b then _ else _] => destruct b end; first [apply append_round, T|exact Logic.I|exact (okt_state _ _ _ T)|exact T]. }
  assert (good (nc =? -1) (okr (nc =? -1)) (in_bslash1 look t f)) as R4.
  { unfold in_bslash1. repeat match goal with |- context [if ?b then _ else _] => destruct b end; first [apply append_round, T|exact Logic.I|exact (okt_state _ _ _ T)|exact (okt_num _ _ _ _ T)]. }
  assert (good (nc =? -1) (okr (nc =? -1)) (in_bslash2 look t f)) as R5.
  { unfold in_bslash2. destruct (csv2_is_txt_bchar look).
    - eapply good_bind; [exact (append_good _ t look T)|]. intros [t'|] X; [exact (okt_state _ t' TGet X)|exact Logic.I].
    - repeat match goal with |- context [if ?b then _ else _] => destruct b end; first [exact Logic.I|exact (okt_state _ _ _ T)|exact T]. }
  destruct (t_state t); try assumption; destruct (look =? -2); try exact Logic.I; try assumption.
  - unfold in_octal1. destruct (csv2_is_octal look); [exact (okt_num _ _ _ _ T)|exact Logic.I].
  - unfold in_octal2. destruct (csv2_is_octal look); [apply octet_good, T|exact Logic.I].
  - unfold in_hex1. destruct (csv2_is_hex look); [exact (okt_num _ _ _ _ T)|exact Logic.I].
  - unfold in_hex2. destruct (csv2_is_hex look); [apply octet_good, T|exact Logic.I].
Qed.
Lemma loop_good n nc post : forall t f, okt (nc =? -1) t -> good (nc =? -1) (fun p => kept_string (fst p)) (txt_loop n nc post t f).
Proof.
  induction n as [|n IH]; intros t f T; cbn [txt_loop]; [exact Logic.I|]. destruct (csv2_read_unicode f) as [look g]. eapply good_bind; [apply round_good, T|]. intros [t' f'|o f'] X; [apply IH, X|exact X].
Qed.
Lemma first_good nc look t f : okt (nc =? -1) t -> good (nc =? -1) (okr (nc =? -1)) (txt_first nc look t f).
Proof.
  intros T. unfold txt_first. destruct (csv2_is_txt_bchar look).
  - eapply good_bind; [exact (append_good _ t look T)|]. intros [t'|] X; [exact (okt_state _ t' TGet X)|exact Logic.I].
  - repeat match goal with |- context [if ?b then _ else _] => destruct b end; first [apply chunk_good, T|exact Logic.I|exact (okt_state _ _ _ T)].
Qed.
Lemma string_good J U f nc post : junk_ok J -> good (nc =? -1) (fun p => kept_string (fst p)) (csv2_get_string J U f nc post).
Proof.
  intros HJ. unfold csv2_get_string. fold (readied f). destruct (csv2_get_1st (readied f) csv2_is_txtchar 0) as [r g]. destruct (negb (r =? JS_SUCCESS)); [exact Logic.I|]. cbv zeta.
  destruct (if (192 <=? csv2_justread g) && (csv2_justread g <? 254) then _ else _) as [look h]. destruct (look =? FATAL); [exact Logic.I|]. destruct (new_string J HJ) as (s & o & -> & -> & H). change (0 =? JS_ERROR) with false. cbv iota beta.
  assert (exists t, (if nc =? -1 then Ok (Some (mktv TGet 0 (-1) U 0 o)) else ' (r, o') <- csv2_append_utf8 o 0 ;; if r =? JS_ERROR then Ok None else Ok (Some (mktv TGet 0 (j_count o) 0 0 o'))) = Ok (Some t) /\ okt (nc =? -1) t) as (t & -> & T).
  { destruct (nc =? -1); [eexists; split; [reflexivity|]; exists []; split; [exact H|reflexivity]|]. destruct (char_to _ _ _ 0 H ltac:(left; lia) ltac:(change (zlen (utf8 0)) with 1; change (zlen (@nil Z)) with 0; lia)) as (o' & -> & H'). cbn [bind]. change (1 =? JS_ERROR) with false. cbv iota. destruct (held_mem _ _ _ H) as (q & E & LR & C & _). eexists. split; [reflexivity|]. exists [0]. split; [exact H'|]. cbn [t_place t_len]. rewrite C. change (zlen [0]) with 1. change (zlen (@nil Z)) with 0. lia. }
  cbn [bind]. eapply good_bind; [apply first_good, T|]. intros [t' f'|o' f'] X; [apply loop_good, X|exact X].
Qed.

(** ** Files without characters above 127 *)
Definition asc (f : csv2) : Prop := Forall (fun b => b < 128) (f_rest f).
Lemma asc_readchar f c g : asc f -> csv2_readchar f = (c, g) -> asc g /\ c < 128.
Proof.
  intros A. unfold csv2_readchar. destruct (f_ok f); cbn [negb]; [|intros [= <- <-]; split; [exact A|lia]]. unfold asc in *. destruct (f_rest f) as [|x rest] eqn:R; [intros [= <- <-]; rewrite R; split; [constructor|lia]|]. apply Forall_cons_iff in A as (AX & A).
  cbv zeta. cbn [f_brace f_tilde]. destruct ((x =? 123) && _); [intros [= <- <-]; split; [exact A|exact AX]|]. destruct ((x =? 126) && _); intros [= <- <-]; (split; [exact A|exact AX]).
Qed.
Lemma asc_utf8_loop n : forall out f r g, asc f -> utf8_loop n out f = (r, g) -> asc g.
Proof.
  induction n as [|n IH]; intros out f r g A; cbn [utf8_loop]; [intros [= <- <-]; exact A|]. destruct (csv2_readchar f) as [c h] eqn:E. destruct (asc_readchar f c h A E) as (AH & _). destruct (c =? -2); [intros [= <- <-]; exact AH|]. destruct ((c <? 128) || (192 <=? c)); [intros [= <- <-]; exact AH|]. apply IH, AH.
Qed.
Lemma asc_utf8 f : asc f -> asc (snd (csv2_get_utf8 f)).
Proof.
  intros A. unfold csv2_get_utf8. repeat match goal with |- context [if ?b then _ else _] => destruct b end; try exact A;
    match goal with |- context [utf8_loop ?n ?o ?f] => destruct (utf8_loop n o f) as [r g] eqn:E; apply (asc_utf8_loop _ _ _ _ _ A) in E end; destruct r; cbn [snd]; try exact E; unfold set_uni; repeat match goal with |- context [if ?b then _ else _] => destruct b end; exact E.
Qed.
Lemma asc_read f c g : asc f -> csv2_read_unicode f = (c, g) -> asc g /\ c < 128.
Proof. intros A. unfold csv2_read_unicode. destruct (csv2_readchar f) as [x h] eqn:E. destruct (asc_readchar f x h A E) as (AH & LX). destruct (x <? 0); [intros [= <- <-]; auto|]. replace (127 <? x) with false by lia. intros [= <- <-]; auto. Qed.
Lemma asc_comment_loop n : forall f b g, asc f -> comment_loop n f = (b, g) -> asc g.
Proof.
  induction n as [|n IH]; intros f b g A; cbn [comment_loop]; [intros [= <- <-]; exact A|]. destruct (csv2_readchar f) as [c h] eqn:E. destruct (asc_readchar f c h A E) as (AH & _). set (h' := if c =? 126 then set_seen h (f_seen h - 1) else h). assert (asc h') as AH' by (subst h'; destruct (c =? 126); exact AH). clearbody h'. destruct n as [|n]; [intros [= <- <-]; exact AH'|].
  destruct (negb (c =? 10) && negb (c =? 13) && negb (c =? -2)); [apply IH, AH'|intros [= <- <-]; exact AH'].
Qed.
Lemma asc_comment f : asc f -> asc (process_comment f).
Proof. intros A. unfold process_comment. destruct (comment_loop _ _) as [b g] eqn:E. apply (asc_comment_loop _ (set_tilde f true) _ _ A) in E. destruct b; exact E. Qed.
Lemma asc_first_loop n is_ok : forall c pipe f r g, asc f -> first_loop n is_ok 0 c pipe f = (r, g) -> asc g.
Proof.
  induction n as [|n IH]; intros c pipe f r g A; cbn [first_loop]; [intros [= <- <-]; exact A|]. destruct (csv2_read_unicode f) as [x h] eqn:E. destruct (asc_read f x h A E) as (AH & _). change (0 =? 1) with false. rewrite ?andb_false_r. cbn [negb andb].
  repeat match goal with |- context [if ?b then _ else _] => destruct b end; try (intros [= <- <-]; exact AH); apply IH; try exact AH; apply asc_comment, AH.
Qed.
Lemma asc_get_1st is_ok f r g : asc f -> csv2_get_1st f is_ok 0 = (r, g) -> asc g.
Proof.
  intros A. unfold csv2_get_1st. cbv zeta. change (0 =? 1) with false. cbn [negb andb]. set (c := if 127 <? csv2_justread f then csv2_get_unicode f else csv2_justread f). clearbody c. destruct (is_ok c); [intros [= <- <-]; exact A|]. destruct (negb (c =? -328) && negb (csv2_is_delimiter c) && negb ((c =? 126) && (f_hand f =? 103))); [intros [= <- <-]; exact A|]. apply asc_first_loop, A.
Qed.
Definition sure {A} (P : A -> Prop) (r : res A) : Prop := forall x, r = Ok x -> P x.
Lemma sure_bind {A B} (P : A -> Prop) (Q : B -> Prop) (r : res A) (k : A -> res B) : sure P r -> (forall x, P x -> sure Q (k x)) -> sure Q (bind r k).
Proof. intros G K. destruct r as [x| |b]; cbn; [apply K, G; reflexivity|intros x E; discriminate|intros x E; discriminate]. Qed.
Lemma sure_ok {A} (P : A -> Prop) x : P x -> sure P (Ok x). Proof. intros H y [= <-]. exact H. Qed.
Definition short (l : list Z) : Prop := zlen l <= 255.
Definition acc (t : tvars) : Prop := exists ds cur, inv t (t_state t) ds cur /\ Forall short ds.
Definition accepted (nc : Z) (o : option js) : Prop := match o with None => True | Some s => exists cs, held 1513 s (strings cs) /\ Forall short cs /\ cs <> [] /\ (0 < nc -> zlen cs = nc) end.
Definition accr (nc : Z) (r : outcome_) : Prop := match r with Go t f => acc t /\ asc f | Done o _ => accepted nc o end.
Lemma acc_state t s : acc t -> acc (set_state t s). Proof. intros (ds & cur & I & S). exists ds, cur. split; [exact (state_inv _ _ s _ _ I)|exact S]. Qed.
Lemma acc_num t s n : acc t -> acc (set_num t s n). Proof. intros (ds & cur & (x & I) & S). exists ds, cur. split; [exists x; exact (num_tv _ _ s _ _ _ _ n I)|exact S]. Qed.
Lemma inv_room t st ds cur : inv t st ds cur -> zlen (strings ds) + zlen cur + 1 <= 1513. Proof. intros (x & _ & _ & _ & _ & H). pose proof (held_room _ _ H) as R. rewrite zlen_app, zlen_cons in R. lia. Qed.
Lemma acc_append t c : acc t -> c < 128 -> sure (fun o => match o with None => True | Some t' => acc t' end) (csv2_txt_append t c).
Proof.
  intros (ds & cur & (x & E1 & E2 & E3 & E4 & H) & S) C. unfold csv2_txt_append. destruct (utf8_any _ _ c H) as (r & s' & -> & X). cbn [bind]. destruct X as [-> |(-> & l & HL & L1 & L2 & LE & C0)]; [apply sure_ok, Logic.I|]. change (1 =? JS_ERROR) with false. cbv iota. rewrite (LE (conj C0 C)) in HL. replace (c <? 128) with true by lia. unfold add_int. destruct (2147483647 <? t_len t + 1); [intros q Q; discriminate|]. cbn [bind]. apply sure_ok.
  exists ds, (cur ++ [c]). split; [|exact S]. exists x. split; [reflexivity|]. split; [exact E2|]. split; [cbn [t_len]; rewrite E3, zlen_app; reflexivity|]. split; [exact E4|]. rewrite <- app_assoc in HL. exact HL.
Qed.
Lemma acc_octet nc t f v : acc t -> asc f -> sure (accr nc) (add_octet f t v).
Proof.
  intros (ds & cur & (x & E1 & E2 & E3 & E4 & H) & S) A. unfold add_octet. destruct (byte_any _ _ v H) as (r & s' & -> & X). cbn [bind]. destruct X as [-> |(-> & HX)]; [apply sure_ok, Logic.I|]. unfold add_int. destruct (2147483647 <? t_len t + 1); [intros q Q; discriminate|]. cbn [bind]. apply sure_ok. split; [|exact A].
  exists ds, (cur ++ [u8 v]). split; [|exact S]. exists x. split; [reflexivity|]. split; [exact E2|]. split; [cbn [t_len]; rewrite E3, zlen_app; reflexivity|]. split; [exact E4|]. rewrite <- app_assoc in HX. exact HX.
Qed.
Lemma acc_chunk nc t f s : acc t -> asc f -> sure (accr nc) (chunk f t s).
Proof.
  intros (ds & cur & I & S) A. pose proof (inv_room _ _ _ _ I) as RM. unfold chunk, new_chunk. destruct ((t_place t <? 0) || (j_max (t_out t) <? t_place t)) eqn:G; [apply sure_ok, Logic.I|]. destruct (Z.ltb_spec 255 (t_len t)) as [L|L]; [apply sure_ok, Logic.I|]. assert (zlen cur <= 255) as LC by (destruct I as (x & E1 & E2 & E3 & _); lia).
  destruct (length_put t _ ds cur I LC RM) as (_ & _ & m & -> & H). cbn [bind]. destruct (utf8_any _ _ 0 H) as (r & s' & -> & X). cbn [bind]. destruct X as [-> |(-> & l & HL & L1 & L2 & LE & C0)]; [apply sure_ok, Logic.I|]. change (1 =? JS_ERROR) with false. cbn [bind]. apply sure_ok. split; [|exact A]. rewrite (LE ltac:(lia)) in HL. destruct (held_mem _ _ _ H) as (q & E & LR & C & _).
  exists (ds ++ [cur]), []. split; [|apply Forall_app; split; [exact S|constructor; [exact LC|constructor]]]. exists 0. split; [reflexivity|]. split; [exact C|]. split; [reflexivity|]. split; [|exact HL]. destruct I as (x & _ & _ & _ & E4 & _). cbn [t_chunks set_state]. rewrite E4, zlen_app. reflexivity.
Qed.
Lemma acc_final nc t f : nc <> -1 -> acc t -> sure (accr nc) (finalize f nc t).
Proof.
  intros N (ds & cur & I & S). pose proof (inv_room _ _ _ _ I) as RM. unfold finalize, csv2_finalize_txt. replace (nc =? -1) with false by lia. destruct ((t_place t <? 0) || (j_max (t_out t) <? t_place t)) eqn:G; [apply sure_ok, Logic.I|]. destruct (Z.ltb_spec 255 (t_len t)) as [L|L]; [apply sure_ok, Logic.I|]. assert (zlen cur <= 255) as LC by (destruct I as (x & E1 & E2 & E3 & _); lia).
  destruct (length_put t _ ds cur I LC RM) as (_ & _ & m & -> & H). cbn [bind]. destruct ((0 <? nc) && negb (t_chunks t + 1 =? nc)) eqn:B; cbn [bind]; apply sure_ok; [exact Logic.I|]. exists (ds ++ [cur]). split; [exact H|]. split; [apply Forall_app; split; [exact S|constructor; [exact LC|constructor]]|]. split; [destruct ds; discriminate|]. intros NC. destruct I as (x & _ & _ & _ & E4 & _). rewrite zlen_app. change (zlen [cur]) with 1. lia.
Qed.
Lemma acc_append_round nc t f c s : acc t -> asc f -> c < 128 -> sure (accr nc) (append f t c s).
Proof. intros T A C. unfold append. eapply sure_bind; [exact (acc_append t c T C)|]. intros [t'|] X; apply sure_ok; [split; [exact (acc_state t' s X)|exact A]|exact Logic.I]. Qed.
Ltac rounds T A C N := repeat match goal with |- context [if ?b then _ else _] => destruct b end;
  first [apply acc_append_round; assumption|apply acc_final; assumption|apply acc_chunk; assumption|apply acc_octet; assumption|apply sure_ok; first [exact Logic.I|split; [first [apply acc_state|apply acc_num|idtac]; exact T|first [exact A|apply asc_comment, A]]]].
Lemma acc_round nc post look t f : nc <> -1 -> look < 128 -> acc t -> asc f -> sure (accr nc) (txt_round nc post look t f).
Proof.
  intros N C T A. unfold txt_round.
  assert (sure (accr nc) (in_get nc post look t f)) as R1.
  { unfold in_get. cbv zeta. rounds T A C N. }
  assert (sure (accr nc) (in_between nc look t f)) as R2 by (unfold in_between; rounds T A C N).
  assert (sure (accr nc) (in_bslash2 look t f)) as R5.
  { unfold in_bslash2. destruct (csv2_is_txt_bchar look).
    - eapply sure_bind; [exact (acc_append t look T C)|]. intros [t'|] X; [apply sure_ok; split; [exact (acc_state t' TGet X)|exact A]|intros q Q; discriminate].
    - rounds T A C N. }
  destruct (t_state t); try assumption; destruct (look =? -2); try (apply sure_ok, Logic.I); try assumption.
  - unfold in_quote. rounds T A C N.
  - unfold in_bslash1. rounds T A C N.
  - unfold in_octal1. rounds T A C N.
  - unfold in_octal2. rounds T A C N.
  - unfold in_hex1. rounds T A C N.
  - unfold in_hex2. rounds T A C N.
Qed.
Lemma acc_loop n nc post : forall t f, nc <> -1 -> acc t -> asc f -> sure (fun p => accepted nc (fst p)) (txt_loop n nc post t f).
Proof.
  induction n as [|n IH]; intros t f N T A; cbn [txt_loop]; [apply sure_ok, Logic.I|]. destruct (csv2_read_unicode f) as [look g] eqn:E. destruct (asc_read f look g A E) as (AG & C). eapply sure_bind; [apply acc_round; eassumption|]. intros [t' f'|o f'] X; [destruct X as (X1 & X2); apply IH; assumption|apply sure_ok; exact X].
Qed.
Lemma acc_string J U f nc post : junk_ok J -> nc <> -1 -> asc f -> sure (fun p => accepted nc (fst p)) (csv2_get_string J U f nc post).
Proof.
  intros HJ N A. unfold csv2_get_string. fold (readied f). assert (asc (readied f)) as AR by (unfold readied; destruct (f_hand f =? 103); exact A). destruct (csv2_get_1st (readied f) csv2_is_txtchar 0) as [r g] eqn:EG. apply (asc_get_1st _ _ _ _ AR) in EG. destruct (negb (r =? JS_SUCCESS)); [apply sure_ok, Logic.I|]. cbv zeta.
  assert (asc (snd (if (192 <=? csv2_justread g) && (csv2_justread g <? 254) then csv2_get_utf8 g else if 128 <=? csv2_justread g then (csv2_get_unicode g, g) else (csv2_justread g, g)))) as AH by (destruct ((192 <=? csv2_justread g) && (csv2_justread g <? 254)); [apply asc_utf8, EG|destruct (128 <=? csv2_justread g); exact EG]).
  destruct (if (192 <=? csv2_justread g) && (csv2_justread g <? 254) then _ else _) as [look h]. cbn [snd] in AH. destruct (look =? FATAL); [apply sure_ok, Logic.I|]. destruct (new_string J HJ) as (s & o & -> & -> & H). change (0 =? JS_ERROR) with false. cbv iota beta. replace (nc =? -1) with false by lia.
  destruct (char_to _ _ _ 0 H ltac:(left; lia) ltac:(change (zlen (utf8 0)) with 1; change (zlen (@nil Z)) with 0; lia)) as (o' & -> & H'). cbn [bind]. change (1 =? JS_ERROR) with false. cbv iota. destruct (held_mem _ _ _ H) as (q & E & LR & C & _).
  assert (acc (mktv TGet 0 (j_count o) 0 0 o')) as T. { exists [], []. split; [|constructor]. exists 0. split; [reflexivity|]. split; [exact C|]. split; [reflexivity|]. split; [reflexivity|exact H']. }
  eapply (sure_bind (accr nc)).
  - unfold txt_first. destruct (csv2_is_txt_bchar look) eqn:TB.
    + eapply sure_bind; [apply (acc_append _ look T); unfold csv2_is_txt_bchar in TB; lia|]. intros [t'|] X; apply sure_ok; [split; [exact (acc_state t' TGet X)|exact AH]|exact Logic.I].
    + rounds T AH C N.
  - intros [t' f'|o2 f'] X; [destruct X as (X1 & X2); apply acc_loop; assumption|apply sure_ok; exact X].
Qed.

(** ** A string that is full *)
Lemma slash_blank nc post t f p len ch y rest : tv t TGet p len ch y -> reading f (92 :: 32 :: rest) -> exists t' g, goes f g rest /\ tv t' TBslash2 p len ch y /\ leads nc post [92; 32] t f t' g.
Proof.
  intros T R. destruct (lead_ascii nc post t (set_state t TBslash1) f 92 _ ltac:(lia) ltac:(lia) ltac:(lia) R) as (g & G & L); [intros g G; unfold txt_round; rewrite (proj1 T); reflexivity|]. pose proof (state_tv _ _ TBslash1 _ _ _ _ T) as T1. set (t1 := set_state t TBslash1) in *. clearbody t1.
  destruct (lead_ascii nc post t1 (set_state t1 TBslash2) g 32 _ ltac:(lia) ltac:(lia) ltac:(lia) (proj1 G)) as (h & H & L2); [intros h H; unfold txt_round; rewrite (proj1 T1); reflexivity|]. exists (set_state t1 TBslash2), h. split; [exact (goes_trans _ _ _ _ _ G H)|]. split; [exact (state_tv _ _ _ _ _ _ _ T1)|exact (leads_app _ _ [92] [32] _ _ _ _ _ _ L L2)].
Qed.
Lemma written_ascii q : Forall (fun x => 0 <= x < 128) q -> written q = q.
Proof. intros F. induction F as [|x q X F IH]; [reflexivity|]. change (written (x :: q)) with (utf8 x ++ written q). rewrite utf8_small, IH by lia. reflexivity. Qed.
Lemma freed_twice J U f sep q rest : junk_ok J -> separators (f_just f :: sep) -> zlen sep < 10000 -> Forall (quotable (f_hand f =? 103)) q -> Forall (fun x => 0 <= x < 128) q -> zlen q = 1511 ->
  reading f (sep ++ 39 :: q ++ [39; 92; 32; 98; 92; 32; 98] ++ rest) -> csv2_get_string J U f 0 0 = Bad UseAfterFree.
Proof.
  intros HJ SS LS Q A LQ R. set (tilde := f_hand f =? 103) in *. destruct (readied_facts f tilde eq_refl) as (HR & TR & HF). pose proof (headed_part 0 0 tilde (Quoted q) Q) as HX. cbn [part_text part_octets] in HX. rewrite (written_ascii q A) in HX. change ([39] ++ q ++ [39]) with (39 :: q ++ [39]) in HX.
  destruct (begins J U f 0 0 sep 39 _ HJ SS LS eq_refl R) as (t0 & g & G & -> & I). change (0 =? -1) with false in I. cbv iota in I. destruct I as (x0 & T0). change (q ++ [39; 92; 32; 98; 92; 32; 98] ++ rest) with (q ++ [39] ++ [92; 32; 98; 92; 32; 98] ++ rest) in G. rewrite app_assoc in G. change (strings []) with (@nil Z) in *. change (zlen (@nil Z)) with 0 in *.
  destruct (first_read 0 0 tilde _ _ 39 (q ++ [39]) t0 g _ _ _ _ _ HX eq_refl T0 (proj1 G) (hand_goes _ _ _ _ G HR) ltac:(cbn [app]; change (zlen [x0]) with 1; lia) ltac:(lia)) as (t1 & t2 & g2 & EF & G2 & T2 & L2). unfold go_on. rewrite EF. cbn [bind]. cbn [app] in G2, T2. pose proof T2 as (_ & _ & _ & _ & H2).
  destruct (slash_blank 0 0 t2 g2 _ _ _ _ _ T2 (proj1 G2)) as (t3 & g3 & G3 & T3 & L3).
  destruct (append_tv t3 TBslash2 _ _ _ _ 98 T3 ltac:(left; lia) ltac:(lia)) as (t4 & E4 & T4); [change (zlen (utf8 98)) with 1; rewrite zlen_cons; lia|change (zlen (utf8 98)) with 1; lia|].
  destruct (lead_ascii 0 0 t3 (set_state t4 TGet) g3 98 _ ltac:(lia) ltac:(lia) ltac:(lia) (proj1 G3)) as (g4 & G4 & L4); [intros k K; unfold txt_round; rewrite (proj1 T3); change (98 =? -2) with false; unfold in_bslash2; change (csv2_is_txt_bchar 98) with true; cbv iota; rewrite E4; reflexivity|].
  destruct (slash_blank 0 0 _ g4 _ _ _ _ _ (state_tv _ _ TGet _ _ _ _ T4) (proj1 G4)) as (t5 & g5 & G5 & T5 & L5).
  pose proof (leads_app _ _ _ _ _ _ _ _ _ _ L2 (leads_app _ _ _ _ _ _ _ _ _ _ L3 (leads_app _ _ _ _ _ _ _ _ _ _ L4 L5))) as LL. destruct (LL (Z.to_nat 10000)) as (n & N & ->); [rewrite !app_length; unfold zlen in LQ; cbn [length]; lia|]. rewrite !app_length in N. cbn [length] in N. unfold zlen in LQ. destruct n as [|n]; [lia|]. cbn [txt_loop]. rewrite (read_ascii g5 98 rest (proj1 G5)) by lia.
  unfold txt_round. rewrite (proj1 T5). change (98 =? -2) with false. unfold in_bslash2. change (csv2_is_txt_bchar 98) with true. cbv iota. unfold csv2_txt_append. destruct T5 as (_ & _ & _ & _ & H5). pose proof (held_room _ _ H5) as R5. change (utf8 98) with [98] in *. cbn [app] in H5. assert (zlen (x0 :: q ++ [98]) = 1513) as Z5 by (unfold zlen; cbn [length]; rewrite app_length; cbn [length]; lia).
  destruct (held_mem _ _ _ H5) as (r & E & LR & C & BQ & BR & CQ & S1 & M & SA & SM). unfold csv2_append_utf8, octet_string. rewrite SA, S1. cbn [Z.eqb Pos.eqb andb negb]. change (98 <? 0) with false. change (98 <? 128) with true. cbv iota. cbn [append_octets]. rewrite M, C, Z5. reflexivity.
Qed.
