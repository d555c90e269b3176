(** Zone files: the text of TXT and RAW data. *)
From Verif Require Import CBase Bits ModelDwStr SpecDwStr ProofDwStr SpecNames SpecMessage SpecAcl SpecDeadwoodMsg SpecQuery ModelJsStr SpecJsStr ProofJsStr ProofJsSearch
  ModelQueries SpecQueries ProofQueries ProofDwDnsStr ProofQuestion ProofHname ProofSqueeze ModelDecomp SpecDecomp ProofJsList ProofDecompList ModelMaraHash SpecMaraHash ProofMaraHash
  ModelServe ProofServe ProofServeRun ProofServeSafe ModelIpAcl ModelCsv2 SpecCsv2 ProofCsv2 ProofCsv2Names ProofCsv2Addr ProofCsv2Any ModelCsv2Rr SpecCsv2Rr ProofCsv2Rr ModelCsv2Txt SpecCsv2Txt.

(** ** The string that is written *)
Lemma char_to cap s y c : held cap s y -> ok_char c -> zlen y + zlen (utf8 c) <= cap -> exists s', csv2_append_utf8 s c = Ok (1, s') /\ held cap s' (y ++ utf8 c).
Proof.
  intros H K L. pose proof (ok_range c K) as RG. pose proof (utf8_bytes c RG) as B. unfold csv2_append_utf8. destruct (held_mem cap s y H) as (r & E & LR & C & BQ & BR & CQ & S1 & M & SA & SM). unfold octet_string. rewrite SA, S1. cbn [Z.eqb Pos.eqb andb negb].
  replace (c <? 0) with false by lia. destruct (Z.ltb_spec c 128).
  - assert (utf8 c = [c]) as U by (unfold utf8; replace (c <? 128) with true by lia; reflexivity). rewrite U in *. apply (octets_on cap [c] s y H); assumption.
  - destruct K as [K|(W & K)]; [lia|]. rewrite (marked_kept c W K). apply (octets_on cap _ s y H B L).
Qed.
Lemma put_held cap s a x b v : held cap s (a ++ x :: b) -> 0 <= v < 256 -> exists m, wr (j_mem s) (zlen a) v = Ok m /\ held cap (set_mem s m) (a ++ v :: b).
Proof.
  intros H V. destruct (held_mem cap s _ H) as (r & E & LR & C & BQ & BR & CQ & S1 & M & SA & SM). pose proof (zlen_nonneg a). pose proof (zlen_nonneg b). pose proof (zlen_nonneg r). rewrite zlen_app, zlen_cons in *.
  exists (zupd (j_mem s) (zlen a) v). split; [unfold wr; rewrite E, !zlen_app, zlen_cons; replace ((0 <=? zlen a) && _) with true by lia; reflexivity|].
  rewrite E, <- app_assoc. change ((x :: b) ++ r) with (x :: (b ++ r)). rewrite zupd_mid. apply bytes_app in BQ as (BA & BB). apply Forall_cons_iff in BB as (_ & BB).
  replace (a ++ v :: b ++ r) with ((a ++ v :: b) ++ r) by (rewrite <- app_assoc; reflexivity).
  pose proof (held_same cap s _ ((a ++ v :: b) ++ r) H ltac:(apply bytes_app; split; [apply bytes_app; split; [exact BA|constructor; [unfold byte; lia|exact BB]]|exact BR]) ltac:(rewrite E, !zlen_app, !zlen_cons; lia)) as X.
  replace (zlen (a ++ x :: b)) with (zlen (a ++ v :: b)) in X by (rewrite !zlen_app, !zlen_cons; lia). rewrite zslice_app_l in X by (pose proof (zlen_nonneg (a ++ v :: b)); lia). rewrite zslice_all in X. exact X.
Qed.

(** ** Variables and rounds *)
Definition tv (t : tvars) (st : tstate) (p len ch : Z) (y : list Z) : Prop := t_state t = st /\ t_place t = p /\ t_len t = len /\ t_chunks t = ch /\ held 1513 (t_out t) y.
Definition leads (nc post : Z) (l : list Z) (t : tvars) (f : csv2) (t' : tvars) (g : csv2) : Prop :=
  forall n, (length l <= n)%nat -> exists m, (n - length l <= m)%nat /\ txt_loop n nc post t f = txt_loop m nc post t' g.
Lemma leads_nil nc post t f : leads nc post [] t f t f. Proof. intros n _. exists n. split; [cbn; lia|reflexivity]. Qed.
Lemma leads_app nc post l l' t f t' g t'' h : leads nc post l t f t' g -> leads nc post l' t' g t'' h -> leads nc post (l ++ l') t f t'' h.
Proof.
  intros A B n N. rewrite app_length in *. destruct (A n ltac:(lia)) as (m & M & ->). destruct (B m ltac:(lia)) as (k & K & ->). exists k. split; [lia|reflexivity].
Qed.
Lemma utf8_some c : exists a l, utf8 c = a :: l.
Proof. unfold utf8. repeat match goal with |- context [if ?b then _ else _] => destruct b end; eexists _, _; reflexivity. Qed.
Lemma lead_char nc post t T f c rest : ok_char c -> c <> 123 -> c <> 126 -> reading f (utf8 c ++ rest) -> (forall g, goes f g rest -> txt_round nc post c t g = Ok (Go T g)) ->
  exists g, goes f g rest /\ leads nc post (utf8 c) t f T g.
Proof.
  intros K N1 N2 R X. destruct (read_char f c rest K N1 N2 R) as (g & E & G & _). exists g. split; [exact G|]. intros n N. destruct (utf8_some c) as (a & l & EU). rewrite EU in *. cbn [length] in *. destruct n as [|n]; [lia|]. exists n. split; [lia|]. cbn [txt_loop]. rewrite E, (X g G). reflexivity.
Qed.
Lemma lead_ascii nc post t T f c rest : 0 <= c < 128 -> c <> 123 -> c <> 126 -> reading f (c :: rest) -> (forall g, goes f g rest -> txt_round nc post c t g = Ok (Go T g)) ->
  exists g, goes f g rest /\ leads nc post [c] t f T g.
Proof. intros K N1 N2 R X. rewrite <- (utf8_small c) by lia. apply lead_char; try assumption; [left; exact K|]. rewrite utf8_small by lia. exact R. Qed.
Lemma append_tv t st p len ch y c : tv t st p len ch y -> ok_char c -> c < 2097152 -> zlen y + zlen (utf8 c) <= 1513 -> len + zlen (utf8 c) <= 2147483647 ->
  exists t', csv2_txt_append t c = Ok (Some t') /\ tv t' st p (len + zlen (utf8 c)) ch (y ++ utf8 c).
Proof.
  intros (E1 & E2 & E3 & E4 & H) K LC LY LL. destruct (char_to _ _ y c H K LY) as (s' & E & H'). unfold csv2_txt_append. rewrite E, E1, E2, E3, E4. cbn [bind]. change (1 =? JS_ERROR) with false. cbv iota. pose proof (ok_range c K). unfold utf8 in LL. unfold add_int.
  destruct (Z.ltb_spec c 128) as [G|G].
  { change (zlen [c]) with 1 in LL. replace (2147483647 <? len + 1) with false by lia. cbn [bind]. eexists. split; [reflexivity|]. split; [reflexivity|]. split; [reflexivity|]. split; [|split; [reflexivity|exact H']]. cbn [t_len]. rewrite utf8_small by lia. reflexivity. }
  destruct (Z.ltb_spec c 2048) as [G2|G2].
  { match type of LL with context [zlen ?l] => change (zlen l) with 2 in LL end. replace (2147483647 <? len + 2) with false by lia. cbn [bind]. eexists. split; [reflexivity|]. split; [reflexivity|]. split; [reflexivity|]. split; [|split; [reflexivity|exact H']]. cbn [t_len]. unfold utf8. replace (c <? 128) with false by lia. replace (c <? 2048) with true by lia. reflexivity. }
  destruct (Z.ltb_spec c 65536) as [G3|G3].
  { match type of LL with context [zlen ?l] => change (zlen l) with 3 in LL end. replace (2147483647 <? len + 3) with false by lia. cbn [bind]. eexists. split; [reflexivity|]. split; [reflexivity|]. split; [reflexivity|]. split; [|split; [reflexivity|exact H']]. cbn [t_len]. unfold utf8. replace (c <? 128) with false by lia. replace (c <? 2048) with false by lia. replace (c <? 65536) with true by lia. reflexivity. }
  replace (c <? 2097152) with true in * by lia. match type of LL with context [zlen ?l] => change (zlen l) with 4 in LL end. replace (2147483647 <? len + 4) with false by lia. cbn [bind]. eexists. split; [reflexivity|]. split; [reflexivity|]. split; [reflexivity|]. split; [|split; [reflexivity|exact H']]. cbn [t_len]. unfold utf8. replace (c <? 128) with false by lia. replace (c <? 2048) with false by lia. replace (c <? 65536) with false by lia. replace (c <? 2097152) with true by lia. reflexivity.
Qed.
Lemma octet_tv t st p len ch y v : tv t st p len ch y -> 0 <= v < 256 -> zlen y + 1 <= 1512 -> len + 1 <= 2147483647 ->
  exists t', (forall g, add_octet g t v = Ok (Go t' g)) /\ tv t' TGet p (len + 1) ch (y ++ [v]).
Proof.
  intros (E1 & E2 & E3 & E4 & H) V LY LL. destruct (byte_held _ _ y v H V ltac:(lia)) as (r & s' & E & NR & H'). exists (mktv TGet 0 p (len + 1) ch s'). split.
  - intros g. unfold add_octet, add_int. rewrite E. cbn [bind]. change JS_ERROR with (-1). rewrite NR, E2, E3, E4. replace (2147483647 <? len + 1) with false by lia. reflexivity.
  - split; [reflexivity|]. split; [reflexivity|]. split; [reflexivity|]. split; [reflexivity|exact H'].
Qed.
Lemma state_tv t st st' p len ch y : tv t st p len ch y -> tv (set_state t st') st' p len ch y. Proof. intros (E1 & E2 & E3 & E4 & H). split; [reflexivity|]. auto. Qed.
Lemma num_tv t st st' p len ch y n : tv t st p len ch y -> tv (set_num t st' n) st' p len ch y. Proof. intros (E1 & E2 & E3 & E4 & H). split; [reflexivity|]. auto. Qed.

(** ** Parts *)
Lemma bare_facts c : bare c -> csv2_is_txt_bchar c = true /\ 0 <= c < 128 /\ c <> 123 /\ c <> 126 /\ c <> 39 /\ c <> 92 /\ c <> 35.
Proof.
  unfold bare, csv2_is_txt_bchar. cbn [In]. intros H. assert (48 <= c <= 57 \/ 65 <= c <= 90 \/ 97 <= c <= 122 \/ c = 45 \/ c = 95 \/ c = 43 \/ c = 37 \/ c = 33 \/ c = 94 \/ c = 61) as X by intuition. clear H. split; [|lia]. lia.
Qed.
Definition tail_leads (nc post : Z) (tilde : bool) (h : Z) (tl octs : list Z) : Prop := forall t f p len ch y rest,
  tv t (if h =? 39 then TQuote else TBslash1) p len ch y -> reading f (tl ++ rest) -> (f_hand f =? 103) = tilde -> zlen y + zlen octs <= 1512 -> len + zlen octs <= 2147483647 ->
  exists t' g, goes f g rest /\ tv t' TGet p (len + zlen octs) ch (y ++ octs) /\ leads nc post tl t f t' g.
Definition headed (nc post : Z) (tilde : bool) (l octs : list Z) : Prop :=
  exists h tl, l = h :: tl /\ ((bare h /\ tl = [] /\ octs = [h]) \/ ((h = 39 \/ h = 92) /\ tail_leads nc post tilde h tl octs)).
Lemma hand_goes f g r tilde : goes f g r -> (f_hand f =? 103) = tilde -> (f_hand g =? 103) = tilde.
Proof. intros (_ & _ & _ & _ & E). rewrite E. auto. Qed.
Lemma headed_leads nc post tilde l octs t s f p len ch y rest : headed nc post tilde l octs -> s = TGet \/ s = TBslash2 -> tv t s p len ch y -> reading f (l ++ rest) -> (f_hand f =? 103) = tilde -> zlen y + zlen octs <= 1512 -> len + zlen octs <= 2147483647 ->
  exists t' g, goes f g rest /\ tv t' TGet p (len + zlen octs) ch (y ++ octs) /\ leads nc post l t f t' g.
Proof.
  intros (h & tl & -> & [(B & -> & ->)|(HH & TL)]) SS T R HD LY LL.
  - destruct (bare_facts h B) as (IB & RG & N1 & N2 & N3 & N4 & N5). change (zlen [h]) with 1 in *. destruct (append_tv t s p len ch y h T (or_introl RG) ltac:(lia)) as (t' & E & T'); [rewrite utf8_small by lia; change (zlen [h]) with 1; lia|rewrite utf8_small by lia; change (zlen [h]) with 1; lia|].
    rewrite utf8_small in T' by lia. destruct (lead_ascii nc post t (set_state t' TGet) f h rest RG N1 N2 R) as (g & G & L).
    { intros g G. unfold txt_round. rewrite (proj1 T). destruct SS as [-> | ->]; [unfold in_get, append; rewrite IB, E; reflexivity|]. replace (h =? -2) with false by lia. unfold in_bslash2. rewrite IB, E. reflexivity. }
    exists (set_state t' TGet), g. split; [exact G|]. split; [exact (state_tv _ _ _ _ _ _ _ T')|exact L].
  - cbn [app] in R. destruct (lead_ascii nc post t (set_state t (if h =? 39 then TQuote else TBslash1)) f h (tl ++ rest) ltac:(lia) ltac:(lia) ltac:(lia) R) as (g & G & L).
    { intros g G. unfold txt_round. rewrite (proj1 T). assert (csv2_is_txt_bchar h = false) as NB by (destruct HH as [-> | ->]; reflexivity). assert (csv2_is_delimiter h = false) as ND by (destruct HH as [-> | ->]; reflexivity). destruct SS as [-> | ->].
      - unfold in_get. rewrite NB, ND. destruct HH as [-> | ->]; reflexivity.
      - unfold in_bslash2. rewrite NB, ND. destruct HH as [-> | ->]; reflexivity. }
    destruct (TL _ g p len ch y rest (state_tv _ _ _ _ _ _ _ T) (proj1 G) (hand_goes _ _ _ _ G HD) LY LL) as (t' & g' & G' & T' & L'). exists t', g'. split; [exact (goes_trans _ _ _ _ _ G G')|]. split; [exact T'|]. exact (leads_app _ _ [h] tl _ _ _ _ _ _ L L').
Qed.
Lemma quoted_leads nc post tilde l : forall t f p len ch y rest, Forall (quotable tilde) l -> tv t TQuote p len ch y -> reading f (written l ++ rest) -> (f_hand f =? 103) = tilde -> zlen y + zlen (written l) <= 1512 -> len + zlen (written l) <= 2147483647 ->
  exists t' g, goes f g rest /\ tv t' TQuote p (len + zlen (written l)) ch (y ++ written l) /\ leads nc post (written l) t f t' g.
Proof.
  induction l as [|c l IH]; intros t f p len ch y rest Q T R HD LY LL.
  - exists t, f. split; [split; [exact R|auto]|]. change (written []) with (@nil Z) in *. change (zlen (@nil Z)) with 0 in *. rewrite app_nil_r, Z.add_0_r. split; [exact T|apply leads_nil].
  - apply Forall_cons_iff in Q as ((RG & K & NI & TD) & Q). change (written (c :: l)) with (utf8 c ++ written l) in *. rewrite <- app_assoc in R. rewrite zlen_app in *. pose proof (zlen_nonneg (written l)).
    assert (ok_char c) as OK by (destruct (Z_lt_dec c 128); [left; lia|right; split; [unfold wide; lia|exact K]]). cbn [In] in NI. assert (c <> 39 /\ c <> 123 /\ c <> 126) as (N1 & N2 & N3) by (repeat split; intros ->; apply NI; auto).
    destruct (append_tv t TQuote p len ch y c T OK ltac:(lia) ltac:(lia) ltac:(lia)) as (t' & E & T').
    destruct (lead_char nc post t (set_state t' TQuote) f c (written l ++ rest) OK N2 N3 R) as (g & G & L).
    { intros g G. unfold txt_round. rewrite (proj1 T). replace (c =? -2) with false by lia. unfold in_quote, append. replace (c =? 39) with false by lia. rewrite (hand_goes _ _ _ _ G HD), E. destruct tilde; [|reflexivity]. destruct (TD eq_refl) as (L32 & NI2). cbn [In] in NI2. assert (c <> 35 /\ c <> 124 /\ c <> 127) as (M1 & M2 & M3) by (repeat split; intros ->; apply NI2; auto).
      replace ((c =? 35) || (c =? 124) || (c =? 126)) with false by lia. replace (c =? 127) with false by lia. replace (c <? 32) with false by lia. reflexivity. }
    destruct (IH (set_state t' TQuote) g p (len + zlen (utf8 c)) ch (y ++ utf8 c) rest Q (state_tv _ _ _ _ _ _ _ T') (proj1 G) (hand_goes _ _ _ _ G HD) ltac:(rewrite zlen_app; lia) ltac:(lia)) as (t2 & g2 & G2 & T2 & L2).
    exists t2, g2. split; [exact (goes_trans _ _ _ _ _ G G2)|]. split; [rewrite app_assoc, Z.add_assoc; exact T2|exact (leads_app _ _ _ _ _ _ _ _ _ _ L L2)].
Qed.
Lemma digit8 v : 0 <= v < 8 -> csv2_is_octal (octal_digit v) = true. Proof. unfold csv2_is_octal, octal_digit. lia. Qed.
Lemma digit16 u v : 0 <= v < 16 -> csv2_is_hex (hexadecimal u v) = true /\ hex_digit (hexadecimal u v) = v /\ 0 <= hexadecimal u v < 123.
Proof.
  intros H. unfold hexadecimal. destruct (Z.ltb_spec v 10).
  - unfold csv2_is_hex, hex_digit, csv2_is_number. replace ((48 <=? 48 + v) && (48 + v <=? 57)) with true by lia. split; [reflexivity|lia].
  - destruct u; unfold csv2_is_hex, hex_digit, csv2_is_number.
    + replace ((48 <=? 55 + v) && (55 + v <=? 57)) with false by lia. replace ((65 <=? 55 + v) && (55 + v <=? 90)) with true by lia. split; [lia|lia].
    + replace ((48 <=? 87 + v) && (87 + v <=? 57)) with false by lia. replace ((65 <=? 87 + v) && (87 + v <=? 90)) with false by lia. replace ((97 <=? 87 + v) && (87 + v <=? 122)) with true by lia. split; [lia|lia].
Qed.
Lemma headed_part nc post tilde p : part_ok tilde p -> headed nc post tilde (part_text p) (part_octets p).
Proof.
  destruct p as [c|l| |v|v u w]; cbn [part_ok part_text part_octets]; intros OK; eexists _, _; (split; [reflexivity|]).
  - left. auto.
  - right. split; [left; reflexivity|]. intros t f p len ch y rest T R HD LY LL. change (39 =? 39) with true in T. cbv iota in T. rewrite <- app_assoc in R. cbn [app] in R. destruct (quoted_leads nc post tilde l t f p len ch y (39 :: rest) OK T R HD LY LL) as (t' & g & G & T' & L).
    destruct (lead_ascii nc post t' (set_state t' TGet) g 39 rest ltac:(lia) ltac:(lia) ltac:(lia) (proj1 G)) as (h & G2 & L2); [intros h G2; unfold txt_round; rewrite (proj1 T'); reflexivity|].
    exists (set_state t' TGet), h. split; [exact (goes_trans _ _ _ _ _ G G2)|]. split; [exact (state_tv _ _ _ _ _ _ _ T')|exact (leads_app _ _ _ _ _ _ _ _ _ _ L L2)].
  - right. split; [right; reflexivity|]. intros t f p len ch y rest T R HD LY LL. change (92 =? 39) with false in T. cbv iota in T. cbn [app] in R. change (zlen [39]) with 1 in *. destruct (append_tv t TBslash1 p len ch y 39 T ltac:(left; lia) ltac:(lia)) as (t' & E & T'); [change (zlen (utf8 39)) with 1; lia|change (zlen (utf8 39)) with 1; lia|].
    destruct (lead_ascii nc post t (set_state t' TGet) f 39 rest ltac:(lia) ltac:(lia) ltac:(lia) R) as (g & G & L); [intros g G; unfold txt_round; rewrite (proj1 T); change (39 =? -2) with false; unfold in_bslash1, append; rewrite E; reflexivity|].
    exists (set_state t' TGet), g. split; [exact G|]. split; [exact (state_tv _ _ _ _ _ _ _ T')|exact L].
  - right. split; [right; reflexivity|]. intros t f p len ch y rest T R HD LY LL. change (92 =? 39) with false in T. cbv iota in T. cbn [app] in R. change (zlen [v]) with 1 in *.
    destruct (lead_ascii nc post t (set_num t TOctal1 (octal_digit (v / 64) - 48)) f (octal_digit (v / 64)) _ ltac:(unfold octal_digit; lia) ltac:(unfold octal_digit; lia) ltac:(unfold octal_digit; lia) R) as (g1 & G1 & L1).
    { intros g G. unfold txt_round. rewrite (proj1 T). assert (48 <= octal_digit (v / 64) <= 51) as RG by (unfold octal_digit; lia). set (d := octal_digit (v / 64)) in *. clearbody d. replace (d =? -2) with false by lia. unfold in_bslash1, csv2_is_delimiter, csv2_is_0123. replace (d =? 39) with false by lia. replace (d =? 124) with false by lia. replace (d =? 35) with false by lia. replace ((d =? 13) || (d =? 10) || (d =? 9) || (d =? 32) || false) with false by lia. replace ((48 <=? d) && (d <=? 51)) with true by lia. reflexivity. }
    pose proof (num_tv _ _ TOctal1 _ _ _ _ (octal_digit (v / 64) - 48) T) as T1. set (t1 := set_num t TOctal1 (octal_digit (v / 64) - 48)) in *. assert (t_num t1 = v / 64) as N1 by (subst t1; unfold set_num, octal_digit; cbn [t_num]; lia). clearbody t1.
    destruct (lead_ascii nc post t1 (set_num t1 TOctal2 (t_num t1 * 8 + (octal_digit (v / 8 mod 8) - 48))) g1 (octal_digit (v / 8 mod 8)) _ ltac:(unfold octal_digit; lia) ltac:(unfold octal_digit; lia) ltac:(unfold octal_digit; lia) (proj1 G1)) as (g2 & G2 & L2).
    { intros g G. unfold txt_round. rewrite (proj1 T1). replace (octal_digit (v / 8 mod 8) =? -2) with false by (unfold octal_digit; lia). unfold in_octal1. rewrite digit8 by lia. reflexivity. }
    pose proof (num_tv _ _ TOctal2 _ _ _ _ (t_num t1 * 8 + (octal_digit (v / 8 mod 8) - 48)) T1) as T2. set (t2 := set_num t1 TOctal2 _) in *. assert (t_num t2 = v / 8) as N2 by (subst t2; unfold set_num, octal_digit; cbn [t_num]; rewrite N1; replace (v / 64) with (v / 8 / 8) by (rewrite Z.div_div by lia; reflexivity); lia). clearbody t2.
    destruct (octet_tv t2 TOctal2 p len ch y v T2 OK ltac:(lia) ltac:(lia)) as (t3 & E3 & T3).
    destruct (lead_ascii nc post t2 t3 g2 (octal_digit (v mod 8)) rest ltac:(unfold octal_digit; lia) ltac:(unfold octal_digit; lia) ltac:(unfold octal_digit; lia) (proj1 G2)) as (g3 & G3 & L3).
    { intros g G. unfold txt_round. rewrite (proj1 T2). replace (octal_digit (v mod 8) =? -2) with false by (unfold octal_digit; lia). unfold in_octal2. rewrite digit8 by lia. rewrite N2. replace (v / 8 * 8 + (octal_digit (v mod 8) - 48)) with v by (unfold octal_digit; lia). apply E3. }
    exists t3, g3. split; [exact (goes_trans _ _ _ _ _ G1 (goes_trans _ _ _ _ _ G2 G3))|]. split; [exact T3|]. exact (leads_app _ _ [_] _ _ _ _ _ _ _ L1 (leads_app _ _ [_] [_] _ _ _ _ _ _ L2 L3)).
  - right. split; [right; reflexivity|]. intros t f p len ch y rest T R HD LY LL. change (92 =? 39) with false in T. cbv iota in T. cbn [app] in R. change (zlen [v]) with 1 in *.
    destruct (lead_ascii nc post t (set_num t THex1 0) f 120 _ ltac:(lia) ltac:(lia) ltac:(lia) R) as (g1 & G1 & L1); [intros g G; unfold txt_round; rewrite (proj1 T); reflexivity|].
    pose proof (num_tv _ _ THex1 _ _ _ _ 0 T) as T1. set (t1 := set_num t THex1 0) in *. clearbody t1.
    destruct (digit16 u (v / 16) ltac:(lia)) as (D1 & V1 & B1). destruct (digit16 w (v mod 16) ltac:(lia)) as (D2 & V2 & B2). set (c1 := hexadecimal u (v / 16)) in *. set (c2 := hexadecimal w (v mod 16)) in *. clearbody c1 c2.
    destruct (lead_ascii nc post t1 (set_num t1 THex2 (hex_digit c1)) g1 c1 _ ltac:(lia) ltac:(lia) ltac:(lia) (proj1 G1)) as (g2 & G2 & L2).
    { intros g G. unfold txt_round. rewrite (proj1 T1). replace (c1 =? -2) with false by lia. unfold in_hex1. rewrite D1. reflexivity. }
    pose proof (num_tv _ _ THex2 _ _ _ _ (hex_digit c1) T1) as T2. set (t2 := set_num t1 THex2 _) in *. assert (t_num t2 = v / 16) as N2 by (subst t2; unfold set_num; cbn [t_num]; exact V1). clearbody t2.
    destruct (octet_tv t2 THex2 p len ch y v T2 OK ltac:(lia) ltac:(lia)) as (t3 & E3 & T3).
    destruct (lead_ascii nc post t2 t3 g2 c2 rest ltac:(lia) ltac:(lia) ltac:(lia) (proj1 G2)) as (g3 & G3 & L3).
    { intros g G. unfold txt_round. rewrite (proj1 T2). replace (c2 =? -2) with false by lia. unfold in_hex2. rewrite D2, N2, V2. replace (v / 16 * 16 + v mod 16) with v by lia. apply E3. }
    exists t3, g3. split; [exact (goes_trans _ _ _ _ _ G1 (goes_trans _ _ _ _ _ G2 G3))|]. split; [exact T3|]. exact (leads_app _ _ [_] _ _ _ _ _ _ _ L1 (leads_app _ _ [_] [_] _ _ _ _ _ _ L2 L3)).
Qed.

(** ** Folded lines and chunks *)
Lemma blank_facts c : blank c -> csv2_is_delimiter c = true /\ csv2_is_txt_bchar c = false /\ 0 <= c < 33 /\ c <> 39.
Proof. unfold blank. cbn [In]. intros H. assert (c = 13 \/ c = 10 \/ c = 9 \/ c = 32) as [-> |[-> |[-> | ->]]] by intuition; (split; [reflexivity|]); (split; [reflexivity|]); lia. Qed.
Lemma blanks_leads nc post b : forall t f p len ch y rest, Forall blank b -> tv t TBslash2 p len ch y -> reading f (b ++ rest) ->
  exists t' g, goes f g rest /\ tv t' TBslash2 p len ch y /\ leads nc post b t f t' g.
Proof.
  induction b as [|c b IH]; intros t f p len ch y rest B T R; [exists t, f; split; [split; [exact R|auto]|]; split; [exact T|apply leads_nil]|]. apply Forall_cons_iff in B as (BC & B). destruct (blank_facts c BC) as (D & NB & RG & N39). cbn [app] in R.
  destruct (lead_ascii nc post t (set_state t TBslash2) f c (b ++ rest) ltac:(lia) ltac:(lia) ltac:(lia) R) as (g & G & L).
  { intros g G. unfold txt_round. rewrite (proj1 T). replace (c =? -2) with false by lia. unfold in_bslash2. rewrite NB, D. replace (c =? 39) with false by lia. replace (c =? 124) with false by lia. replace (c =? 35) with false by lia. reflexivity. }
  destruct (IH _ g p len ch y rest B (state_tv _ _ _ _ _ _ _ T) (proj1 G)) as (t' & h & G2 & T2 & L2). exists t', h. split; [exact (goes_trans _ _ _ _ _ G G2)|]. split; [exact T2|exact (leads_app _ _ [c] b _ _ _ _ _ _ L L2)].
Qed.
Lemma headed_fold nc post tilde b l octs : b <> [] -> Forall blank b -> headed nc post tilde l octs -> headed nc post tilde (92 :: b ++ l) octs.
Proof.
  intros NE B H. exists 92, (b ++ l). split; [reflexivity|]. right. split; [right; reflexivity|]. intros t f p len ch y rest T R HD LY LL. change (92 =? 39) with false in T. cbv iota in T. destruct b as [|c b]; [congruence|]. apply Forall_cons_iff in B as (BC & B). destruct (blank_facts c BC) as (D & NB & RG & N39). rewrite <- app_assoc in R. cbn [app] in R.
  destruct (lead_ascii nc post t (set_state t TBslash2) f c (b ++ l ++ rest) ltac:(lia) ltac:(lia) ltac:(lia) R) as (g & G & L).
  { intros g G. unfold txt_round. rewrite (proj1 T). replace (c =? -2) with false by lia. unfold in_bslash1. rewrite D. replace (c =? 39) with false by lia. replace (c =? 124) with false by lia. replace (c =? 35) with false by lia. reflexivity. }
  destruct (blanks_leads nc post b _ g p len ch y (l ++ rest) B (state_tv _ _ _ _ _ _ _ T) (proj1 G)) as (t2 & g2 & G2 & T2 & L2). pose proof (goes_trans _ _ _ _ _ G G2) as GG.
  destruct (headed_leads nc post tilde l octs t2 TBslash2 g2 p len ch y rest H (or_intror eq_refl) T2 (proj1 GG) (hand_goes _ _ _ _ GG HD) LY LL) as (t3 & g3 & G3 & T3 & L3).
  exists t3, g3. split; [exact (goes_trans _ _ _ _ _ GG G3)|]. split; [exact T3|]. exact (leads_app _ _ (c :: b) l _ _ _ _ _ _ (leads_app _ _ [c] b _ _ _ _ _ _ L L2) L3).
Qed.
Lemma headed_folded nc post tilde x : folded_ok tilde x -> headed nc post tilde (folded_text x) (part_octets (snd x)).
Proof.
  destruct x as [bs p]. intros (B & P). unfold folded_text. cbn [fst snd] in *. induction B as [|b bs (NE & B) BS IH]; [apply headed_part, P|]. cbn [map concat]. change ((92 :: b) ++ ?x) with (92 :: b ++ x). rewrite <- app_comm_cons, <- app_assoc. apply headed_fold; assumption.
Qed.
Lemma chunk_leads nc post tilde c : forall t f p len ch y rest, chunk_ok tilde c -> tv t TGet p len ch y -> reading f (chunk_text c ++ rest) -> (f_hand f =? 103) = tilde -> zlen y + zlen (chunk_octets c) <= 1512 -> len + zlen (chunk_octets c) <= 2147483647 ->
  exists t' g, goes f g rest /\ tv t' TGet p (len + zlen (chunk_octets c)) ch (y ++ chunk_octets c) /\ leads nc post (chunk_text c) t f t' g.
Proof.
  induction c as [|x c IH]; intros t f p len ch y rest OK T R HD LY LL.
  - exists t, f. split; [split; [exact R|auto]|]. change (chunk_octets []) with (@nil Z) in *. change (zlen (@nil Z)) with 0. rewrite app_nil_r, Z.add_0_r. split; [exact T|apply leads_nil].
  - apply Forall_cons_iff in OK as (OX & OK). change (chunk_text (x :: c)) with (folded_text x ++ chunk_text c) in *. change (chunk_octets (x :: c)) with (part_octets (snd x) ++ chunk_octets c) in *. rewrite <- app_assoc in R. rewrite zlen_app in *. pose proof (zlen_nonneg (chunk_octets c)).
    destruct (headed_leads nc post tilde _ _ t TGet f p len ch y _ (headed_folded nc post tilde x OX) (or_introl eq_refl) T R HD ltac:(lia) ltac:(lia)) as (t1 & g1 & G1 & T1 & L1).
    destruct (IH t1 g1 p (len + zlen (part_octets (snd x))) ch _ rest OK T1 (proj1 G1) (hand_goes _ _ _ _ G1 HD) ltac:(rewrite zlen_app; lia) ltac:(lia)) as (t2 & g2 & G2 & T2 & L2).
    exists t2, g2. split; [exact (goes_trans _ _ _ _ _ G1 G2)|]. split; [rewrite app_assoc, Z.add_assoc; exact T2|exact (leads_app _ _ _ _ _ _ _ _ _ _ L1 L2)].
Qed.

(** ** Chunks with their lengths *)
Definition inv (t : tvars) (st : tstate) (ds : list (list Z)) (cur : list Z) : Prop := exists x, tv t st (zlen (strings ds)) (zlen cur) (zlen ds) (strings ds ++ x :: cur).
Lemma strings_app a b : strings (a ++ b) = strings a ++ strings b. Proof. unfold strings. rewrite map_app, concat_app. reflexivity. Qed.
Lemma strings_one l : strings [l] = zlen l :: l. Proof. unfold strings, character_string. cbn [map concat]. rewrite app_nil_r. reflexivity. Qed.
Lemma zlen_strings_snoc ds cur : zlen (strings (ds ++ [cur])) = zlen (strings ds) + zlen cur + 1. Proof. rewrite strings_app, strings_one, zlen_app, zlen_cons. lia. Qed.
Lemma zlen_strings_cons ds cur l : zlen (strings (ds ++ cur :: l)) = zlen (strings ds) + zlen cur + 1 + zlen (strings l).
Proof. change (cur :: l) with ([cur] ++ l). rewrite !strings_app, strings_one, !zlen_app, zlen_cons. lia. Qed.
Lemma state_inv t st st' ds cur : inv t st ds cur -> inv (set_state t st') st' ds cur. Proof. intros (x & T). exists x. exact (state_tv _ _ _ _ _ _ _ T). Qed.
Lemma length_put t st ds cur : inv t st ds cur -> zlen cur <= 255 -> zlen (strings ds) + zlen cur + 1 <= 1513 ->
  ((t_place t <? 0) || (j_max (t_out t) <? t_place t) = false) /\ (255 <? t_len t) = false /\ exists m, wr (j_mem (t_out t)) (t_place t) (u8 (t_len t)) = Ok m /\ held 1513 (set_mem (t_out t) m) (strings (ds ++ [cur])).
Proof.
  intros (x & E1 & E2 & E3 & E4 & H) L LL. destruct (held_mem _ _ _ H) as (r & E & LR & C & BQ & BR & CQ & S1 & M & SA & SM). pose proof (zlen_nonneg (strings ds)). pose proof (zlen_nonneg cur). rewrite E2, E3, M. split; [lia|]. split; [lia|].
  assert (u8 (zlen cur) = zlen cur) as -> by (unfold u8; apply Z.mod_small; lia). destruct (put_held _ _ _ _ _ (zlen cur) H ltac:(lia)) as (m & W & H'). exists m. split; [exact W|]. rewrite strings_app, strings_one. exact H'.
Qed.
Lemma chunk_inv t st ds cur : inv t st ds cur -> zlen cur <= 255 -> zlen (strings ds) + zlen cur + 2 <= 1513 -> exists t', (forall f s, chunk f t s = Ok (Go (set_state t' s) f)) /\ inv t' TGet (ds ++ [cur]) [].
Proof.
  intros I L LL. destruct (length_put t st ds cur I L ltac:(lia)) as (P1 & P2 & m & W & H). pose proof (zlen_strings_snoc ds cur) as ZS. destruct (char_to _ _ _ 0 H ltac:(left; lia) ltac:(change (zlen (utf8 0)) with 1; lia)) as (s' & A & H'). destruct (held_mem _ _ _ H) as (r & E & LR & C & _).
  exists (mktv TGet (t_num t) (j_count (set_mem (t_out t) m)) 0 (t_chunks t + 1) s'). split.
  - intros f s. unfold chunk, new_chunk. rewrite P1, P2, W. cbn [bind]. rewrite A. cbn [bind]. change (1 =? JS_ERROR) with false. reflexivity.
  - exists 0. destruct I as (x & E1 & E2 & E3 & E4 & _). split; [reflexivity|]. split; [exact C|]. split; [reflexivity|]. split; [cbn [t_chunks]; rewrite E4, zlen_app; reflexivity|exact H'].
Qed.
Lemma final_inv nc t st ds cur : inv t st ds cur -> zlen cur <= 255 -> zlen (strings ds) + zlen cur + 1 <= 1513 -> nc = 0 \/ nc = zlen ds + 1 -> exists s, (forall f, finalize f nc t = Ok (Done (Some s) f)) /\ held 1513 s (strings (ds ++ [cur])).
Proof.
  intros I L LL N. destruct (length_put t st ds cur I L LL) as (P1 & P2 & m & W & H). exists (set_mem (t_out t) m). split; [|exact H]. intros f. unfold finalize, csv2_finalize_txt. pose proof (zlen_nonneg ds). replace (nc =? -1) with false by lia. rewrite P1, P2, W. cbn [bind]. destruct I as (x & E1 & E2 & E3 & E4 & _). rewrite E4. replace ((0 <? nc) && negb (zlen ds + 1 =? nc)) with false by lia. reflexivity.
Qed.
Lemma chunk_read nc post tilde c t f ds cur rest : chunk_ok tilde c -> inv t TGet ds cur -> reading f (chunk_text c ++ rest) -> (f_hand f =? 103) = tilde -> zlen (strings ds) + zlen cur + 1 + zlen (chunk_octets c) <= 1512 ->
  exists t' g, goes f g rest /\ inv t' TGet ds (cur ++ chunk_octets c) /\ leads nc post (chunk_text c) t f t' g.
Proof.
  intros OK (x & T) R HD L. pose proof (zlen_nonneg (strings ds)). pose proof (zlen_nonneg cur). destruct (chunk_leads nc post tilde c t f _ _ _ _ rest OK T R HD ltac:(rewrite zlen_app, zlen_cons; lia) ltac:(lia)) as (t' & g & G & T' & LE). exists t', g. split; [exact G|]. split; [|exact LE]. exists x. rewrite zlen_app. rewrite <- app_assoc in T'. exact T'.
Qed.
Lemma gap_on nc b : forall t f ds cur rest, Forall blank b -> inv t TBetween ds cur -> reading f (b ++ rest) -> exists g, goes f g rest /\ leads nc 0 b t f t g.
Proof.
  induction b as [|c b IH]; intros t f ds cur rest B I R; [exists f; split; [split; [exact R|auto]|apply leads_nil]|]. apply Forall_cons_iff in B as (BC & B). destruct (blank_facts c BC) as (D & NB & RG & N39). cbn [app] in R.
  destruct (lead_ascii nc 0 t t f c (b ++ rest) ltac:(lia) ltac:(lia) ltac:(lia) R) as (g & G & L).
  { intros g G. unfold txt_round. destruct I as (x & T). rewrite (proj1 T). unfold in_between. rewrite D. replace (c =? 35) with false by lia. replace ((c =? 126) || (c =? -2)) with false by lia. replace (c =? 39) with false by lia. replace (c =? 92) with false by lia. replace (c =? 124) with false by lia. reflexivity. }
  destruct (IH t g ds cur rest B I (proj1 G)) as (h & G2 & L2). exists h. split; [exact (goes_trans _ _ _ _ _ G G2)|exact (leads_app _ _ [c] b _ _ _ _ _ _ L L2)].
Qed.
Lemma gap_from nc b t f ds cur rest : nc <> -1 -> b <> [] -> Forall blank b -> inv t TGet ds cur -> (f_hand f =? 103) = true -> reading f (b ++ rest) -> exists g, goes f g rest /\ leads nc 0 b t f (set_state t TBetween) g.
Proof.
  intros N NE B I HD R. destruct b as [|c b]; [congruence|]. apply Forall_cons_iff in B as (BC & B). destruct (blank_facts c BC) as (D & NB & RG & N39). cbn [app] in R.
  destruct (lead_ascii nc 0 t (set_state t TBetween) f c (b ++ rest) ltac:(lia) ltac:(lia) ltac:(lia) R) as (g & G & L).
  { intros g G. unfold txt_round. destruct I as (x & T). rewrite (proj1 T). unfold in_get. rewrite NB, D, (hand_goes _ _ _ _ G HD). replace (nc =? -1) with false by lia. replace (c =? 126) with false by lia. replace (c =? -2) with false by lia. replace (c =? 92) with false by lia. replace (c =? 39) with false by lia. replace (c =? 59) with false by lia. replace (c =? 124) with false by lia. reflexivity. }
  destruct (gap_on nc b _ g ds cur rest B (state_inv _ _ TBetween _ _ I) (proj1 G)) as (h & G2 & L2). exists h. split; [exact (goes_trans _ _ _ _ _ G G2)|exact (leads_app _ _ [c] b _ _ _ _ _ _ L L2)].
Qed.
Lemma tail_read nc post tilde h tl octs t f ds cur rest : tail_leads nc post tilde h tl octs -> inv t (if h =? 39 then TQuote else TBslash1) ds cur -> reading f (tl ++ rest) -> (f_hand f =? 103) = tilde -> zlen (strings ds) + zlen cur + 1 + zlen octs <= 1512 ->
  exists t' g, goes f g rest /\ inv t' TGet ds (cur ++ octs) /\ leads nc post tl t f t' g.
Proof.
  intros TL (x & T) R HD L. pose proof (zlen_nonneg (strings ds)). pose proof (zlen_nonneg cur). destruct (TL t f _ _ _ _ rest T R HD ltac:(rewrite zlen_app, zlen_cons; lia) ltac:(lia)) as (t' & g & G & T' & LE). exists t', g. split; [exact G|]. split; [|exact LE]. exists x. rewrite zlen_app. rewrite <- app_assoc in T'. exact T'.
Qed.
Lemma more_read nc tilde m : forall t f ds cur rest, nc <> -1 -> Forall (fun x => chunk_ok tilde (snd x) /\ between_ok tilde (fst x) (snd x)) m -> inv t TGet ds cur -> (f_hand f =? 103) = tilde ->
  Forall (fun l => zlen l <= 255) (cur :: map chunk_octets (map snd m)) -> zlen (strings (ds ++ cur :: map chunk_octets (map snd m))) <= 1512 ->
  reading f (concat (map (fun x => between_text (fst x) ++ chunk_text (snd x)) m) ++ rest) ->
  exists t' g ds' cur', goes f g rest /\ inv t' TGet ds' cur' /\ ds' ++ [cur'] = ds ++ cur :: map chunk_octets (map snd m) /\ leads nc 0 (concat (map (fun x => between_text (fst x) ++ chunk_text (snd x)) m)) t f t' g.
Proof.
  induction m as [|[b c] m IH]; intros t f ds cur rest N OK I HD LE LZ R.
  - exists t, f, ds, cur. split; [split; [exact R|auto]|]. split; [exact I|]. split; [reflexivity|apply leads_nil].
  - apply Forall_cons_iff in OK as ((OC & OB) & OK). cbn [map concat fst snd] in *. apply Forall_cons_iff in LE as (LC & LE). pose proof LE as LE0. apply Forall_cons_iff in LE as (LN & LE).
    replace (ds ++ cur :: chunk_octets c :: map chunk_octets (map snd m)) with ((ds ++ [cur]) ++ chunk_octets c :: map chunk_octets (map snd m)) in * by (rewrite <- app_assoc; reflexivity).
    pose proof LZ as LZ0. rewrite zlen_strings_cons, zlen_strings_snoc in LZ0. pose proof (zlen_nonneg (strings (map chunk_octets (map snd m)))). pose proof (zlen_nonneg (chunk_octets c)). rewrite <- !app_assoc in R.
    set (M := concat (map (fun x => between_text (fst x) ++ chunk_text (snd x)) m)) in *.
    assert (exists t' g, goes f g (M ++ rest) /\ inv t' TGet (ds ++ [cur]) (chunk_octets c) /\ leads nc 0 (between_text b ++ chunk_text c) t f t' g) as (t1 & g1 & G1 & I1 & L1).
    { destruct b as [|b]; cbn [between_ok between_text] in *.
      - destruct (chunk_inv t TGet ds cur I LC ltac:(lia)) as (t1 & C1 & I1). cbn [app] in R.
        destruct (lead_ascii nc 0 t (set_state t1 TGet) f 59 _ ltac:(lia) ltac:(lia) ltac:(lia) R) as (g & G & L).
        { intros g G. unfold txt_round. destruct I as (x & T). rewrite (proj1 T). unfold in_get. change (csv2_is_txt_bchar 59) with false. change (csv2_is_delimiter 59) with false. change (59 =? 126) with false. change (59 =? -2) with false. change (59 =? 92) with false. change (59 =? 39) with false. change (59 =? 59) with true. replace (nc =? -1) with false by lia. cbn [andb orb negb]. apply C1. }
        destruct (chunk_read nc 0 tilde c (set_state t1 TGet) g (ds ++ [cur]) [] (M ++ rest) OC (state_inv _ _ TGet _ _ I1) (proj1 G) (hand_goes _ _ _ _ G HD)) as (t2 & g2 & G2 & I2 & L2); [rewrite zlen_strings_snoc; change (zlen (@nil Z)) with 0; lia|].
        exists t2, g2. split; [exact (goes_trans _ _ _ _ _ G G2)|]. split; [exact I2|exact (leads_app _ _ [59] _ _ _ _ _ _ _ L L2)].
      - destruct OB as (TD & NE & BB & HC). rewrite TD in *. destruct (gap_from nc b t f ds cur (chunk_text c ++ M ++ rest) N NE BB I HD R) as (g & G & L). destruct c as [|x c]; [contradiction HC|]. apply Forall_cons_iff in OC as (OX & OC). change (chunk_text (x :: c)) with (folded_text x ++ chunk_text c) in *. change (chunk_octets (x :: c)) with (part_octets (snd x) ++ chunk_octets c) in *. rewrite zlen_app in *.
        pose proof (zlen_nonneg (chunk_octets c)). pose proof (zlen_nonneg (part_octets (snd x))). destruct (headed_folded nc 0 true x OX) as (h & tl & EH & HH). rewrite EH in *. cbn [app] in HC, G |- *.
        destruct HH as [(BA & _ & _)|(H39 & TL)]; [destruct (bare_facts h BA) as (_ & _ & _ & _ & X1 & X2 & _); lia|].
        destruct (chunk_inv (set_state t TBetween) TBetween ds cur (state_inv _ _ TBetween _ _ I) LC ltac:(lia)) as (t1 & C1 & I1).
        destruct (lead_ascii nc 0 (set_state t TBetween) (set_state t1 (if h =? 39 then TQuote else TBslash1)) g h _ ltac:(lia) ltac:(lia) ltac:(lia) (proj1 G)) as (g2 & G2 & L2).
        { intros g2 G2. unfold txt_round. change (t_state (set_state t TBetween)) with TBetween. cbv iota. unfold in_between. destruct H39 as [-> | ->]; apply C1. }
        rewrite <- app_assoc in G2. pose proof (goes_trans _ _ _ _ _ G G2) as GG.
        destruct (tail_read nc 0 true h tl _ _ g2 (ds ++ [cur]) [] (chunk_text c ++ M ++ rest) TL (state_inv _ _ _ _ _ I1) (proj1 G2) (hand_goes _ _ _ _ GG HD)) as (t3 & g3 & G3 & I3 & L3); [rewrite zlen_strings_snoc; change (zlen (@nil Z)) with 0; lia|]. pose proof (goes_trans _ _ _ _ _ GG G3) as GG3.
        destruct (chunk_read nc 0 true c t3 g3 (ds ++ [cur]) ([] ++ part_octets (snd x)) (M ++ rest) OC I3 (proj1 G3) (hand_goes _ _ _ _ GG3 HD)) as (t4 & g4 & G4 & I4 & L4); [rewrite zlen_strings_snoc; cbn [app]; lia|].
        exists t4, g4. split; [exact (goes_trans _ _ _ _ _ GG3 G4)|]. split; [exact I4|]. exact (leads_app _ _ b _ _ _ _ _ _ _ L (leads_app _ _ [h] _ _ _ _ _ _ _ L2 (leads_app _ _ tl _ _ _ _ _ _ _ L3 L4))). }
    destruct (IH t1 g1 (ds ++ [cur]) (chunk_octets c) rest N OK I1 (hand_goes _ _ _ _ G1 HD) LE0 LZ (proj1 G1)) as (t2 & g2 & ds' & cur' & G2 & I2 & EQ & L2). exists t2, g2, ds', cur'. split; [exact (goes_trans _ _ _ _ _ G1 G2)|]. split; [exact I2|]. split; [exact EQ|exact (leads_app _ _ _ _ _ _ _ _ _ _ L1 L2)].
Qed.

(** ** The end of a record *)
Definition ended (f g : csv2) (rest e : list Z) : Prop := reading g rest /\ f_just g = last e 0 /\ f_hand g = f_hand f.
Lemma read_tilde f rest : reading f (126 :: rest) -> f_tilde f = true -> exists g, csv2_read_unicode f = (126, g) /\ reading g rest /\ f_just g = 126 /\ f_hand g = f_hand f.
Proof.
  intros (O & R) T. unfold csv2_read_unicode, csv2_readchar. rewrite O, R. cbn [negb]. change (126 =? 123) with false. change (126 =? 126) with true. cbn [andb f_tilde]. rewrite T. cbn [negb]. change (126 <? 0) with false. change (127 <? 126) with false. cbv iota.
  eexists. split; [reflexivity|]. split; [split; reflexivity|]. split; reflexivity.
Qed.
Lemma last_snoc (l : list Z) x : last (l ++ [x]) 0 = x. Proof. induction l as [|a l IH]; [reflexivity|]. destruct l; [reflexivity|exact IH]. Qed.
Lemma end_read nc tilde e t f ds cur rest : nc = 0 \/ nc = zlen ds + 1 -> ends_record tilde e -> inv t TGet ds cur -> (f_hand f =? 103) = tilde -> (tilde = true -> f_tilde f = true) -> zlen cur <= 255 -> zlen (strings ds) + zlen cur + 1 <= 1513 -> reading f (e ++ rest) ->
  exists s g, held 1513 s (strings (ds ++ [cur])) /\ ended f g rest e /\ forall n, (length e <= n)%nat -> txt_loop n nc 0 t f = Ok (Some s, g).
Proof.
  intros N E I HD TD LC LZ R. pose proof (zlen_nonneg ds). unfold ends_record in E. destruct tilde.
  - destruct E as (b & -> & B). rewrite <- app_assoc in R. cbn [app] in R.
    assert (exists t' g, (t' = t \/ t' = set_state t TBetween) /\ goes f g (126 :: rest) /\ leads nc 0 b t f t' g) as (t' & g & TT & G & L).
    { destruct b as [|c b]; [exists t, f; split; [left; reflexivity|]; split; [split; [exact R|auto]|apply leads_nil]|]. destruct (gap_from nc (c :: b) t f ds cur (126 :: rest) ltac:(lia) ltac:(discriminate) B I HD R) as (g & G & L). exists (set_state t TBetween), g. auto. }
    destruct (read_tilde g rest (proj1 G)) as (h & EH & RH & JH & HH); [rewrite (proj1 (proj2 G)); auto|].
    assert (exists st, inv t' st ds cur /\ (st = TGet \/ st = TBetween)) as (st & I' & ST) by (destruct TT as [-> | ->]; [exists TGet; auto|exists TBetween; split; [exact (state_inv _ _ _ _ _ I)|auto]]).
    destruct (final_inv nc t' st ds cur I' LC LZ N) as (s & F & HS). exists s, h. split; [exact HS|]. split; [split; [exact RH|]; split; [rewrite JH, last_snoc; reflexivity|rewrite HH; exact (proj2 (proj2 (proj2 (proj2 G))))]|].
    intros n NL. rewrite app_length in NL. cbn [length] in NL. destruct (L n ltac:(lia)) as (m & M & ->). destruct m as [|m]; [lia|]. cbn [txt_loop]. rewrite EH. unfold txt_round. destruct I' as (x & T). rewrite (proj1 T). pose proof (hand_goes _ _ _ _ G HD) as HG. destruct ST as [-> | ->].
    + unfold in_get. rewrite HH, HG. change (csv2_is_txt_bchar 126) with false. change (csv2_is_delimiter 126) with false. change (126 =? 126) with true. change (0 =? 0) with true. cbn [andb orb negb]. rewrite F. reflexivity.
    + unfold in_between. change (126 =? 35) with false. change (126 =? 126) with true. cbn [orb]. rewrite F. reflexivity.
  - destruct E as (d & -> & D). cbn [app] in R. destruct (delim_facts d D) as (D1 & D2 & D3 & D4 & D5 & D6 & D7 & D8 & D9). destruct (final_inv nc t TGet ds cur I LC LZ N) as (s & F & HS). exists s, (step f rest d). split; [exact HS|]. split; [split; [apply step_reading|]; split; reflexivity|].
    intros n NL. cbn [length] in NL. destruct n as [|n]; [lia|]. cbn [txt_loop]. rewrite (read_ascii f d rest R D2 D3 D4). unfold txt_round. destruct I as (x & T). rewrite (proj1 T). unfold in_get. assert (csv2_is_txt_bchar d = false) as -> by (unfold delimiter in D; unfold csv2_is_txt_bchar; lia). rewrite D1. change (f_hand (step f rest d)) with (f_hand f). rewrite HD. cbn [andb orb negb]. rewrite F. reflexivity.
Qed.

(** ** The beginning of a record *)
Definition readied (f : csv2) : csv2 := if f_hand f =? 103 then set_tilde f true else f.
Lemma new_string J : junk_ok J -> exists s o, js_create J 1513 1 = Some s /\ js_set_encode s JS_US_ASCII = (0, o) /\ held 1513 o [].
Proof.
  intros HJ. destruct (js_create_ok J 1513 1 HJ ltac:(lia) ltac:(lia) ltac:(lia)) as (s & E & W & V & _). exists s. pose proof (value_held _ _ _ _ W V) as HS. destruct (held_mem 1513 s [] HS) as (r & EM & LR & C & BQ & BR & CQ & S1 & M & SA & SM).
  unfold js_set_encode. rewrite SA. cbn [negb]. change ((JS_US_ASCII <? 1) || (3 <? JS_US_ASCII)) with false. cbv iota. eexists. split; [exact E|]. split; [reflexivity|].
  split; [|exact M]. split; [|split; [exact S1|]].
  - destruct W. constructor; assumption.
  - destruct HS as ((_ & _ & O) & _). exact O.
Qed.
Lemma txtchar_facts h : csv2_is_txtchar h = true -> ok_char h /\ 0 <= h < 128 /\ h <> 123 /\ h <> 126 /\ h <> 35.
Proof. unfold csv2_is_txtchar, csv2_is_txt_bchar, ok_char. lia. Qed.
Lemma delim_txt d : delimiter d -> csv2_is_txtchar d = false. Proof. unfold delimiter, csv2_is_txtchar, csv2_is_txt_bchar. lia. Qed.
Definition go_on (nc post : Z) (r : res outcome_) : res (option js * csv2) := r <- r ;; match r with Go t f => txt_loop (Z.to_nat 10000) nc post t f | Done o f => Ok (o, f) end.
Lemma begins J U f nc post sep h tl : junk_ok J -> separators (f_just f :: sep) -> zlen sep < 10000 -> csv2_is_txtchar h = true -> reading f (sep ++ h :: tl) ->
  exists t0 g, goes (readied f) g tl /\ csv2_get_string J U f nc post = go_on nc post (txt_first nc h t0 g) /\ (if nc =? -1 then tv t0 TGet (-1) U 0 [] else inv t0 TGet [] []).
Proof.
  intros HJ SS LS TC R. destruct (txtchar_facts h TC) as (OK & RG & N1 & N2 & N3). unfold csv2_get_string. fold (readied f). assert (reading (readied f) (sep ++ utf8 h ++ tl) /\ f_just (readied f) = f_just f) as (R' & JF) by (rewrite utf8_small by lia; unfold readied; destruct (f_hand f =? 103); split; try reflexivity; exact R).
  rewrite <- JF in SS. destruct (get_here csv2_is_txtchar h tl sep (readied f) delim_txt TC OK N1 N2 N3 SS LS R') as (k & -> & GK). destruct (read_at k h tl OK N1 N2 (proj1 GK)) as (g & EG & GG & A). rewrite EG. cbn [snd]. change (negb (1 =? JS_SUCCESS)) with false. cbv iota. rewrite (at_just g h A RG).
  replace ((192 <=? h) && (h <? 254)) with false by lia. replace (128 <=? h) with false by lia. cbv iota beta zeta. replace (h =? FATAL) with false by (unfold FATAL; lia). destruct (new_string J HJ) as (s & o & -> & -> & H). change (0 =? JS_ERROR) with false. cbv iota beta.
  destruct (nc =? -1) eqn:NC.
  - exists (mktv TGet 0 (-1) U 0 o), g. split; [exact (goes_trans _ _ _ _ _ GK GG)|]. split; [reflexivity|]. split; [reflexivity|]. auto.
  - destruct (char_to _ _ _ 0 H ltac:(left; lia) ltac:(change (zlen (utf8 0)) with 1; change (zlen (@nil Z)) with 0; lia)) as (o' & -> & H'). cbn [bind]. change (1 =? JS_ERROR) with false. cbv iota. destruct (held_mem _ _ _ H) as (r & E & LR & C & _).
    exists (mktv TGet 0 (j_count o) 0 0 o'), g. split; [exact (goes_trans _ _ _ _ _ GK GG)|]. split; [reflexivity|]. exists 0. split; [reflexivity|]. split; [exact C|]. split; [reflexivity|]. split; [reflexivity|exact H'].
Qed.
Lemma headed_txtchar nc post tilde h tl octs : headed nc post tilde (h :: tl) octs -> csv2_is_txtchar h = true.
Proof. intros (h' & tl' & EQ & HH). injection EQ as <- <-. destruct HH as [(B & _)|([-> | ->] & _)]; [|reflexivity|reflexivity]. unfold csv2_is_txtchar. rewrite (proj1 (bare_facts h B)). reflexivity. Qed.
Lemma first_read nc post tilde l octs h tl t f p len ch y rest : headed nc post tilde l octs -> l = h :: tl -> tv t TGet p len ch y -> reading f (tl ++ rest) -> (f_hand f =? 103) = tilde -> zlen y + zlen octs <= 1512 -> len + zlen octs <= 2147483647 ->
  exists t1 t2 g, txt_first nc h t f = Ok (Go t1 f) /\ goes f g rest /\ tv t2 TGet p (len + zlen octs) ch (y ++ octs) /\ leads nc post tl t1 f t2 g.
Proof.
  intros (h' & tl' & -> & HH) EQ T R HD LY LL. injection EQ as -> ->. destruct HH as [(B & -> & ->)|(HH & TL)].
  - destruct (bare_facts h B) as (IB & RG & N1 & N2 & N3 & N4 & N5). change (zlen [h]) with 1 in *. destruct (append_tv t TGet p len ch y h T (or_introl RG) ltac:(lia)) as (t' & E & T'); [rewrite utf8_small by lia; change (zlen [h]) with 1; lia|rewrite utf8_small by lia; change (zlen [h]) with 1; lia|].
    rewrite utf8_small in T' by lia. exists (set_state t' TGet), (set_state t' TGet), f. split; [unfold txt_first; rewrite IB, E; reflexivity|]. split; [split; [exact R|auto]|]. split; [exact (state_tv _ _ _ _ _ _ _ T')|apply leads_nil].
  - destruct (TL (set_state t (if h =? 39 then TQuote else TBslash1)) f p len ch y rest (state_tv _ _ _ _ _ _ _ T) R HD LY LL) as (t2 & g & G & T2 & L). exists (set_state t (if h =? 39 then TQuote else TBslash1)), t2, g. split; [destruct HH as [-> | ->]; reflexivity|]. auto.
Qed.
Lemma readied_facts f tilde : (f_hand f =? 103) = tilde -> (f_hand (readied f) =? 103) = tilde /\ (tilde = true -> f_tilde (readied f) = true) /\ f_hand (readied f) = f_hand f.
Proof. intros E. unfold readied. destruct (f_hand f =? 103) eqn:H; subst tilde; cbn; rewrite ?H; auto. split; [reflexivity|]. split; [discriminate|reflexivity]. Qed.

(** A record from its first character on. *)
Lemma record_on J U f nc tilde sep c m e rest : junk_ok J -> separators (f_just f :: sep) -> zlen sep < 10000 -> (f_hand f =? 103) = tilde -> record_ok tilde c m -> ends_record tilde e -> Forall (fun l => zlen l <= 255) (chunks_of c m) -> zlen (strings (chunks_of c m)) <= 1512 ->
  zlen (record_text c m ++ e) <= 10000 -> nc = 0 \/ nc = zlen (chunks_of c m) -> reading f (sep ++ record_text c m ++ e ++ rest) ->
  exists s g, csv2_get_string J U f nc 0 = Ok (Some s, g) /\ held 1513 s (strings (chunks_of c m)) /\ ended f g rest e.
Proof.
  intros HJ SS LS HD (BG & OC & OM) EN LE LZ LT NC R. destruct (readied_facts f tilde HD) as (HR & TR & HF). pose proof (zlen_nonneg (chunks_of c m)). assert (nc =? -1 = false) as NCF by lia. unfold chunks_of in LE, LZ, NC. cbn [map] in LE, LZ, NC.
  assert (forall t1 t2 g1 g2 l cc mm ds cur, (length (l ++ chunk_text cc ++ concat (map (fun x => between_text (fst x) ++ chunk_text (snd x)) mm) ++ e) <= Z.to_nat 10000)%nat -> goes (readied f) g2 (chunk_text cc ++ concat (map (fun x => between_text (fst x) ++ chunk_text (snd x)) mm) ++ e ++ rest) -> leads nc 0 l t1 g1 t2 g2 ->
    inv t2 TGet ds cur -> chunk_ok tilde cc -> Forall (fun x => chunk_ok tilde (snd x) /\ between_ok tilde (fst x) (snd x)) mm -> Forall (fun l => zlen l <= 255) ((cur ++ chunk_octets cc) :: map chunk_octets (map snd mm)) ->
    ds ++ (cur ++ chunk_octets cc) :: map chunk_octets (map snd mm) = chunks_of c m -> exists s g, txt_loop (Z.to_nat 10000) nc 0 t1 g1 = Ok (Some s, g) /\ held 1513 s (strings (chunks_of c m)) /\ ended f g rest e) as FIN.
  { intros t1 t2 g1 g2 l cc mm ds cur LN G L I OCC OMM LEE EQ. unfold chunks_of in EQ. cbn [map] in EQ. rewrite <- EQ in LZ. pose proof LZ as LZ0. rewrite zlen_strings_cons, zlen_app in LZ0. pose proof (zlen_nonneg (strings (map chunk_octets (map snd mm)))).
    destruct (chunk_read nc 0 tilde cc t2 g2 ds cur _ OCC I (proj1 G) (hand_goes _ _ _ _ G HR) ltac:(lia)) as (t3 & g3 & G3 & I3 & L3). pose proof (goes_trans _ _ _ _ _ G G3) as GG3.
    destruct (more_read nc tilde mm t3 g3 ds _ (e ++ rest) ltac:(lia) OMM I3 (hand_goes _ _ _ _ GG3 HR) LEE LZ (proj1 G3)) as (t4 & g4 & ds' & cur' & G4 & I4 & EQ4 & L4). pose proof (goes_trans _ _ _ _ _ GG3 G4) as GG4.
    assert (zlen (ds' ++ [cur']) = zlen ds' + 1) as ZD by (rewrite zlen_app; reflexivity). rewrite EQ4, EQ in ZD. rewrite EQ in EQ4. rewrite EQ, <- EQ4, zlen_strings_snoc in LZ.
    assert (zlen cur' <= 255) as LC'. { rewrite <- EQ4 in LE. apply Forall_app in LE as (_ & LE). exact (Forall_inv LE). }
    destruct (end_read nc tilde e t4 g4 ds' cur' rest ltac:(lia) EN I4 (hand_goes _ _ _ _ GG4 HR) ltac:(intros TT; rewrite (proj1 (proj2 GG4)); auto) LC' ltac:(lia) (proj1 G4)) as (s & g & HS & (E1 & E2 & E3) & EL).
    exists s, g. rewrite EQ4 in HS. split; [|split; [exact HS|split; [exact E1|split; [exact E2|rewrite E3, (proj2 (proj2 (proj2 (proj2 GG4)))); exact HF]]]].
    pose proof (leads_app _ _ _ _ _ _ _ _ _ _ L (leads_app _ _ _ _ _ _ _ _ _ _ L3 L4)) as LL. rewrite !app_length in LN. destruct (LL (Z.to_nat 10000)) as (k & K & ->); [rewrite !app_length; lia|]. apply EL. rewrite !app_length in K. lia. }
  unfold record_text in *. destruct c as [|x c].
  - unfold begun in BG. specialize (BG eq_refl). destruct m as [|[[|b] c'] m]; try contradiction. cbn [map concat fst snd between_text app chunk_text chunk_octets] in *. change (chunk_octets []) with (@nil Z) in *. apply Forall_cons_iff in OM as ((OC' & _) & OM).
    destruct (begins J U f nc 0 sep 59 _ HJ SS LS eq_refl R) as (t0 & g & G & -> & I). rewrite NCF in I. pose proof (zlen_nonneg (strings (map chunk_octets (c' :: map snd m)))). destruct (chunk_inv t0 TGet [] [] I ltac:(cbn; lia) ltac:(cbn; lia)) as (t1 & C1 & I1).
    unfold go_on, txt_first. change (csv2_is_txt_bchar 59) with false. change (59 =? 92) with false. change (59 =? 39) with false. change (59 =? 59) with true. rewrite NCF. cbn [andb negb]. rewrite C1. cbn [bind]. rewrite <- app_assoc in G.
    apply (FIN (set_state t1 TGet) (set_state t1 TGet) g g [] c' m [[]] []); [|exact G|apply leads_nil|exact (state_inv _ _ _ _ _ I1)|exact OC'|exact OM|apply Forall_cons_iff in LE as (_ & LE); exact LE|reflexivity].
    clear - LT. unfold zlen in LT. cbn [length app] in LT |- *. rewrite ?app_length in *. cbn [length app] in LT |- *. rewrite ?app_length in *. change (concat (map folded_text c')) with (chunk_text c') in LT. lia.
  - apply Forall_cons_iff in OC as (OX & OC). change (chunk_text (x :: c)) with (folded_text x ++ chunk_text c) in *. change (chunk_octets (x :: c)) with (part_octets (snd x) ++ chunk_octets c) in *. pose proof (headed_folded nc 0 tilde x OX) as HX. pose proof HX as (h & tl & EH & _).
    pose proof (headed_txtchar nc 0 tilde h tl (part_octets (snd x)) ltac:(rewrite <- EH; exact HX)) as TC. rewrite EH in R, LT. rewrite <- !app_assoc in R. cbn [app] in R. rewrite <- ?app_assoc in R.
    destruct (begins J U f nc 0 sep h _ HJ SS LS TC R) as (t0 & g & G & -> & I). rewrite NCF in I. destruct I as (x0 & T0). pose proof LZ as LZ1. change (?a :: ?b) with ([] ++ a :: b) in LZ1. rewrite zlen_strings_cons, zlen_app in LZ1. change (strings []) with (@nil Z) in *. change (zlen (@nil Z)) with 0 in *. pose proof (zlen_nonneg (strings (map chunk_octets (map snd m)))). pose proof (zlen_nonneg (chunk_octets c)).
    destruct (first_read nc 0 tilde _ _ h tl t0 g _ _ _ _ _ HX EH T0 (proj1 G) (hand_goes _ _ _ _ G HR) ltac:(cbn [app]; change (zlen [x0]) with 1; lia) ltac:(lia)) as (t1 & t2 & g2 & EF & G2 & T2 & L2). unfold go_on. rewrite EF. cbn [bind].
    apply (FIN t1 t2 g g2 tl c m [] (part_octets (snd x))); [|exact (goes_trans _ _ _ _ _ G G2)|exact L2|exists x0; exact T2|exact OC|exact OM|exact LE|reflexivity].
    unfold zlen in LT. cbn [length app] in LT |- *. rewrite !app_length in *. cbn [length] in LT. lia.
Qed.

(** ** RAW data *)
Lemma raw_on J U f tilde sep c d rest : junk_ok J -> separators (f_just f :: sep) -> zlen sep < 10000 -> (f_hand f =? 103) = tilde -> c <> [] -> chunk_ok tilde c -> delimiter d \/ (tilde = true /\ d = 126) -> zlen (chunk_octets c) <= 1512 -> U + zlen (chunk_octets c) <= 2147483647 ->
  zlen (chunk_text c) < 10000 -> reading f (sep ++ chunk_text c ++ d :: rest) ->
  exists s g, csv2_get_string J U f (-1) 0 = Ok (Some s, g) /\ held 1513 s (chunk_octets c) /\ ended f g rest [d].
Proof.
  intros HJ SS LS HD NE OC EN LZ LU LT R. destruct (readied_facts f tilde HD) as (HR & TR & HF). destruct c as [|x c]; [congruence|]. apply Forall_cons_iff in OC as (OX & OC). change (chunk_text (x :: c)) with (folded_text x ++ chunk_text c) in *. change (chunk_octets (x :: c)) with (part_octets (snd x) ++ chunk_octets c) in *. rewrite zlen_app in LZ, LU.
  pose proof (headed_folded (-1) 0 tilde x OX) as HX. pose proof HX as (h & tl & EH & _). pose proof (headed_txtchar (-1) 0 tilde h tl (part_octets (snd x)) ltac:(rewrite <- EH; exact HX)) as TC. rewrite EH in R, LT. rewrite <- !app_assoc in R. cbn [app] in R. rewrite <- ?app_assoc in R. pose proof (zlen_nonneg (chunk_octets c)).
  destruct (begins J U f (-1) 0 sep h _ HJ SS LS TC R) as (t0 & g & G & -> & T0). change (-1 =? -1) with true in T0. cbv iota in T0.
  destruct (first_read (-1) 0 tilde _ _ h tl t0 g _ _ _ _ _ HX EH T0 (proj1 G) (hand_goes _ _ _ _ G HR) ltac:(change (zlen (@nil Z)) with 0; lia) ltac:(lia)) as (t1 & t2 & g2 & EF & G2 & T2 & L2). pose proof (goes_trans _ _ _ _ _ G G2) as GG2. unfold go_on. rewrite EF. cbn [bind].
  destruct (chunk_leads (-1) 0 tilde c t2 g2 _ _ _ _ (d :: rest) OC T2 (proj1 G2) (hand_goes _ _ _ _ GG2 HR) ltac:(cbn [app]; lia) ltac:(lia)) as (t3 & g3 & G3 & T3 & L3). pose proof (goes_trans _ _ _ _ _ GG2 G3) as GG3. pose proof (hand_goes _ _ _ _ GG3 HR) as H3. cbn [app] in T3.
  assert (exists k, csv2_read_unicode g3 = (d, k) /\ reading k rest /\ f_just k = d /\ f_hand k = f_hand g3) as (k & EK & RK & JK & HK).
  { destruct EN as [D|(-> & ->)]; [|apply read_tilde; [exact (proj1 G3)|rewrite (proj1 (proj2 GG3)); auto]]. destruct (delim_facts d D) as (D1 & D2 & D3 & D4 & _). exists (step g3 rest d). split; [apply read_ascii; [exact (proj1 G3)|lia|lia|lia]|]. split; [apply step_reading|]. split; reflexivity. }
  exists (t_out t3), k. destruct T3 as (S3 & _ & _ & _ & HO). split; [|split; [exact HO|split; [exact RK|split; [exact JK|rewrite HK, (proj2 (proj2 (proj2 (proj2 GG3)))); exact HF]]]].
  pose proof (leads_app _ _ _ _ _ _ _ _ _ _ L2 L3) as LL. unfold zlen in LT. cbn [app length] in LT. destruct (LL (Z.to_nat 10000) ltac:(lia)) as (n & N & ->). destruct n as [|n]; [lia|]. cbn [txt_loop]. rewrite EK. unfold txt_round. rewrite S3. unfold in_get. rewrite HK, H3.
  destruct EN as [D|(-> & ->)]; [|reflexivity]. destruct (delim_facts d D) as (D1 & _). assert (csv2_is_txt_bchar d = false) as -> by (unfold delimiter in D; unfold csv2_is_txt_bchar; lia). rewrite D1. change (-1 =? -1) with true. cbn [andb]. rewrite !orb_true_r. reflexivity.
Qed.
