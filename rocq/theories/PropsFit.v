(** C23: replies of MaraDNS that are made to fit (server/udpsuccess.c, the end of udpsuccess; the ends
    of udpstar and udpany in server/MaraDNS.c). *)
From Verif Require Import CBase Bits ModelDwStr SpecDwStr ProofDwStr SpecNames SpecMessage SpecAcl SpecDeadwoodMsg SpecQuery ModelJsStr SpecJsStr ProofJsStr ProofJsSearch
  ModelQueries SpecQueries ProofQueries ProofHname ProofDwPackAll ProofDwNames ProofQuestion ProofSqueeze ModelDecomp SpecDecomp ProofJsList ProofDecompList ProofDecompPacket ProofDecompSpec ProofDecompRec ModelCompress ProofCompList ProofCompPacket
  SpecCompress SpecReply SpecPack ProofCompName ProofCompRec ProofCompMsg PropsQueries PropsDecomp PropsCompress PropsPacket ProofDwDecomp ProofServe ProofServeRun ModelMaraHash ModelServe ModelBigHash ModelSuccess SpecSuccess ProofFit.
From Verif Require Import SpecMessage SpecQueries.

(** The reply before it is made to fit. *)
Definition whole (m : msg) : list Z := concat (map question_bytes (m_qd m)) ++ plain_records (m_an m ++ m_ns m).
Lemma plain_records_app a b : plain_records (a ++ b) = plain_records a ++ plain_records b.
Proof. unfold plain_records. rewrite map_app, concat_app. reflexivity. Qed.
Lemma put_header m most x : zlen x = 12 -> holding most (x ++ whole m) -> 14 <= j_max most ->
  exists s1, make_hdr (m_hdr m) most = Ok (1, s1) /\ held (j_max most) (set_count s1 (j_count most)) (hdr_octets (m_hdr m) ++ whole m).
Proof.
  intros LX HM MM. pose proof (hold_facts _ _ HM) as [WM SM LM CM _ _ BM _ _ _ _ _].
  destruct (make_hdr_ok (m_hdr m) most WM SM MM) as (s1 & E1 & H1 & M1 & _ & EM). exists s1. split; [exact E1|].
  pose proof H1 as (W1 & S1 & O1). pose proof (hold_facts _ _ H1) as [_ _ L1 C1 ML1 _ B1 _ _ _ _ _].
  pose proof (zlen_nonneg (whole m)). destruct (held_mem (j_max most) most _ (conj HM eq_refl)) as (r & ER & LR & _ & BQ & BR & _). rewrite ER in EM. rewrite <- app_assoc in EM.
  pose proof (splice_mid [] x (hdr_octets (m_hdr m)) (whole m ++ r) LX) as SP. cbn [app] in SP. change (zlen (@nil Z)) with 0 in SP. rewrite SP in EM. clear SP.
  assert (bytes (j_mem s1)) as BS by apply (jw_bytes _ W1).
  pose proof (held_new (j_max most) s1 (hdr_octets (m_hdr m)) (j_mem s1) (j_count most) (conj H1 M1) BS eq_refl ltac:(lia)) as X.
  replace (set_mem s1 (j_mem s1)) with s1 in X by (destruct s1; reflexivity). replace (zslice (j_mem s1) 0 (j_count most)) with (hdr_octets (m_hdr m) ++ whole m) in X; [exact X|].
  rewrite EM, app_assoc. rewrite zslice_app_l by (rewrite zlen_app in *; change (zlen (hdr_octets (m_hdr m))) with 12; lia). rewrite <- LM, zlen_app, LX. change 12 with (zlen (hdr_octets (m_hdr m))). rewrite <- zlen_app. symmetry. apply zslice_all.
Qed.
Lemma finish_all J long m most ar x : junk_ok J -> zlen x = 12 -> holding most (x ++ whole m) -> 14 <= j_max most <= 1073741824 -> holding ar (plain_records (m_ar m)) -> 12 < j_max ar -> reply_ok m ->
  exists r, finish J formats0 long (m_hdr m) most ar = Ok r /\
    match r with
    | ServFail => j_max most <= size_of m \/ m_qd (drops 20 m) <> [] /\ ~ easy (j_max most) (j_max ar) (drops 20 m)
    | Sent s => size_of m < j_max most /\ exists k y, (k <= 20)%nat /\ held (j_max ar) s y /\ conveys y (drops k m) /\ (zlen y <= 512 \/ long = true /\ k = O /\ zlen y < 4096 \/ k = 20%nat /\ m_qd (drops 20 m) <> [] /\ zlen y <= size_of (drops 20 m))
    end.
Proof.
  intros HJ LX HM MM HA MA OK. pose proof (hold_facts _ _ HM) as [WM SM LM CM _ _ BM _ _ _ _ _]. unfold finish.
  destruct (put_header m most x LX HM ltac:(lia)) as (s1 & E1 & H2). rewrite E1. cbn [bind].
  assert (size_of m = zlen (x ++ whole m) + zlen (plain_records (m_ar m))) as SZ by (unfold size_of, whole; rewrite !plain_records_app, !zlen_app; lia).
  assert (zlen (hdr_octets (m_hdr m) ++ whole m) = zlen (x ++ whole m)) as LH by (rewrite !zlen_app, LX; reflexivity).
  destruct (Z.ltb_spec (size_of m) (j_max most)) as [B|B].
  - destruct (append_held (j_max ar) ar (plain_records (m_ar m)) (j_max most) _ _ (conj HA eq_refl) H2 ltac:(lia)) as (s2 & -> & H3 & M3). cbn [bind]. change (0 =? JS_ERROR) with false. cbv iota.
    destruct (fit_ok J long s2 ar _ m HJ H3 ltac:(lia) (proj1 HA) (proj1 (proj2 HA)) MA) as (r & E & RR); [|exact OK|].
    + apply (is_msg_intro m _ (hdr_octets (m_hdr m))); [reflexivity|apply hdr_octets_bits; apply OK|]. unfold whole. rewrite <- !app_assoc, !plain_records_app, <- !app_assoc. reflexivity.
    + exists r. split; [exact E|]. destruct r as [s|]; [split; [exact B|exact RR]|right; rewrite M3 in RR; exact RR].
  - destruct (append_held_not (j_max ar) ar (plain_records (m_ar m)) (j_max most) _ _ (conj HA eq_refl) H2 ltac:(lia)) as (s2 & ->). cbn [bind]. change (-1 =? JS_ERROR) with true. cbv iota. exists ServFail. split; [reflexivity|left; exact B].
Qed.

(** ** Answers *)
(** With at most 19 records in the last two sections, the reply has at most 512 octets, or fewer than
    4096 and is complete, if the client may have that many.  It is the message, or what is left of it
    after a few of its last records went ([drop_last] of SpecQueries).  SERVER_FAIL is the reply only
    if the message, not compressed, is longer than the buffer. *)
Theorem C23_fits : forall J F long m most ar x, junk_ok J -> decomp_init J = Ok F -> zlen x = 12 -> holding most (x ++ whole m) -> 14 <= j_max most <= 2 ^ 30 -> holding ar (plain_records (m_ar m)) -> 12 < j_max ar -> reply_ok m ->
  zlen (m_ns m) + zlen (m_ar m) <= 19 ->
  exists r, finish J F long (m_hdr m) most ar = Ok r /\
    match r with
    | ServFail => j_max most <= size_of m
    | Sent s => exists k y, holding s y /\ conveys y (drops k m) /\ (zlen y <= 512 \/ long = true /\ k = O /\ zlen y < 4096)
    end.
Proof.
  intros J F long m most ar x HJ EF LX HM MM HA MA OK N. rewrite init_ok in EF. injection EF as <-. destruct (finish_all J long m most ar x HJ LX HM MM HA MA OK) as (r & E & RR). exists r. split; [exact E|].
  assert (m_qd (drops 20 m) = []) as D by (apply drops_none; unfold zlen in N; lia). destruct r as [s|].
  - destruct RR as (_ & k & y & _ & (H & _) & CV & SZ). exists k, y. split; [exact H|]. split; [exact CV|]. destruct SZ as [SZ|[SZ|(_ & SZ & _)]]; [left; exact SZ|right; exact SZ|destruct (SZ D)].
  - destruct RR as [RR|(RR & _)]; [exact RR|destruct (RR D)].
Qed.
(** Whatever their number, nothing goes wrong, and the reply says what is left of the message, unless
    that is too long for compression. *)
Theorem C23_what_is_left : forall J F long m most ar x, junk_ok J -> decomp_init J = Ok F -> zlen x = 12 -> holding most (x ++ whole m) -> 14 <= j_max most <= 2 ^ 30 -> holding ar (plain_records (m_ar m)) -> 12 < j_max ar -> reply_ok m ->
  exists r, finish J F long (m_hdr m) most ar = Ok r /\ match r with ServFail => j_max most <= size_of m \/ ~ easy (j_max most) (j_max ar) (drops 20 m) | Sent s => exists k y, (k <= 20)%nat /\ holding s y /\ conveys y (drops k m) end.
Proof.
  intros J F long m most ar x HJ EF LX HM MM HA MA OK. rewrite init_ok in EF. injection EF as <-. destruct (finish_all J long m most ar x HJ LX HM MM HA MA OK) as (r & E & RR). exists r. split; [exact E|].
  destruct r as [s|]; [|destruct RR as [RR|(_ & RR)]; [left; exact RR|right; exact RR]]. destruct RR as (_ & k & y & K & (H & _) & CV & SZ). exists k, y. split; [exact K|]. split; [exact H|exact CV].
Qed.

(** ** Cases *)
Definition fit_q : question := mkquestion [[120]] 16 1.
Definition text (n : nat) : rr := mkrr [[120]] 16 [0; 1; 0; 0; 1; 0] (200 :: repeat 97 n) [] [].
Definition server : rr := mkrr [] 2 [0; 1; 0; 0; 1; 0] [] [[]] [].
Definition fit_msg (n k : nat) : msg := mkmsg (mkqh 7 1 0 1 0 0 0 0 0 1 1 (Z.of_nat k) 0) [fit_q] [text n] (repeat server k) [].
Lemma text_ok n : (200 <= n < 1000)%nat -> plain_rr (text n).
Proof.
  intros N. unfold plain_rr, text. cbn [rr_owner rr_type rr_meta rr_lead rr_names rr_tail]. unfold rdata_plain. cbn [rr_lead rr_names rr_tail map concat app]. rewrite app_nil_r.
  assert (zlen (200 :: repeat 97 n) = Z.of_nat n + 1) as L by (rewrite zlen_cons; unfold zlen; rewrite repeat_length; reflexivity).
  split; [name_tac|]. split; [lia|]. split; [reflexivity|]. split; [lia|]. change (layout 16) with (@None (Z * nat * Z)). split; [reflexivity|]. split; [reflexivity|].
  split; [discriminate|]. intros _. exists 200. split; [reflexivity|lia].
Qed.
Lemma server_ok : plain_rr server.
Proof. assert (short_name []) as X by name_tac. split; [exact X|]. split; [cbn; lia|]. split; [reflexivity|]. split; [reflexivity|]. cbn. split; [reflexivity|]. split; [reflexivity|]. split; [constructor; [exact X|constructor]|reflexivity]. Qed.
Lemma fit_msg_ok n k : (200 <= n < 1000)%nat -> (k < 1000)%nat -> reply_ok (fit_msg n k).
Proof.
  intros N K. assert (Forall plain_rr (m_an (fit_msg n k) ++ m_ns (fit_msg n k) ++ m_ar (fit_msg n k))) as P.
  { cbn [fit_msg m_an m_ns m_ar app]. rewrite app_nil_r. constructor; [apply text_ok, N|]. apply Forall_forall. intros r I. apply repeat_spec in I as ->. apply server_ok. }
  split; [|split; [reflexivity|split; [exact P|reflexivity]]]. split; [|split; [reflexivity|split; [reflexivity|split; [|split; [reflexivity|split]]]]].
  - unfold header_fits, header_fields, fit_msg, below. cbn. repeat (apply Forall_cons; [cbn; lia|]). constructor.
  - cbn [fit_msg m_hdr m_ns q_ns]. unfold zlen. rewrite repeat_length. reflexivity.
  - constructor; [|constructor]. split; [apply (text_ok 200 ltac:(lia))|]. split; unfold word; cbn; lia.
  - revert P. apply Forall_impl. intros r (P1 & P2 & P3 & P4 & _). split; [exact P1|]. split; [exact P2|]. split; [exact P3|exact P4].
Qed.
Ltac big_tac := apply str_ok; [apply bytesb_spec; vm_cast_no_check (@eq_refl bool true)|apply Z.leb_le; vm_cast_no_check (@eq_refl bool true)|reflexivity].
Definition most_of (m : msg) : js := str (repeat 0 12 ++ whole m) 1024.
Definition ar_of (m : msg) : js := str (plain_records (m_ar m)) 5000.
(** What is sent. *)
Definition sent (r : res reply) : option (list Z) := match r with Ok (Sent s) => Some (octets_of s) | _ => None end.
(** A question, an answer of 470 octets and a name server, which is dropped. *)
Definition fit_small : msg := fit_msg 470 1.
Example C23_fits_met : reply_ok fit_small /\ holding (most_of fit_small) (repeat 0 12 ++ whole fit_small) /\ holding (ar_of fit_small) (plain_records (m_ar fit_small)) /\
  option_map (fun y => (zlen y, zslice y 0 12)) (sent (finish J0 formats0 false (m_hdr fit_small) (most_of fit_small) (ar_of fit_small))) = Some (502, [0; 7; 132; 0; 0; 1; 0; 1; 0; 0; 0; 0]).
Proof.
  split; [apply fit_msg_ok; lia|]. split; [big_tac|]. split; [big_tac|]. vm_cast_no_check (@eq_refl (option (Z * list Z)) (Some (502, [0; 7; 132; 0; 0; 1; 0; 1; 0; 0; 0; 0]))).
Qed.
Lemma sent_is r y : sent r = Some y -> exists s, r = Ok (Sent s) /\ octets_of s = y.
Proof. destruct r as [[s|]| |]; cbn [sent]; intros E; try discriminate E. injection E as E. exists s. split; [reflexivity|exact E]. Qed.
(** With 21 name servers and an answer of 550 octets the shortening ends too early, and a client that
    may not have long replies gets one of more than 512 octets. *)
Definition fit_many : msg := fit_msg 550 21.
Lemma text_long n y m : conveys y m -> (exists rest, m_an m = text n :: rest) -> Z.of_nat n < zlen y.
Proof.
  intros (x & rs & LX & _ & EX & SR) (rest & EA). rewrite EA in SR. cbn [app map] in SR. inversion SR as [|r b l l' S1 S2]; subst. clear SR S2.
  assert (exists p e, 12 <= p /\ rec_in 256 y p r e) as (p & e & P & RI).
  { destruct EX as [nm q e L12 _ NI Q4 RI _ _|e L12 _ RI _ _]; inversion RI as [|p' r' e' rs' e'' R1 R2]; subst; [exists (q + 4), e'|exists 12, e']; (split; [|exact R1]); [|lia]. pose proof (name_in_range _ _ _ _ _ NI). lia. }
  destruct RI as [o rdl NI _ _ RD _ EE LE DI]. destruct S1 as (_ & ET & _ & EL & _). change (rr_type (capped (text n))) with 16 in ET. change (rr_lead (capped (text n))) with (200 :: repeat 97 n) in EL. rewrite ET in DI. unfold data_in in DI. change (layout 16) with (@None (Z * nat * Z)) in DI. destruct DI as (E1 & _).
  pose proof (name_in_range _ _ _ _ _ NI). rewrite EL in E1. apply (f_equal zlen) in E1. rewrite zlen_zslice, zlen_cons in E1 by lia. assert (zlen (repeat 97 n) = Z.of_nat n) as X by (unfold zlen; rewrite repeat_length; reflexivity). lia.
Qed.
Lemma drop_fit n k : drop_last (fit_msg n (S k)) = fit_msg n k.
Proof.
  unfold drop_last, fit_msg. cbn [m_hdr m_qd m_an m_ns m_ar q_tc q_qd q_an q_ns q_ar]. change (0 =? 1) with false. cbn [orb]. assert (zlen (repeat server (S k)) = Z.of_nat k + 1) as L by (unfold zlen; rewrite repeat_length; lia). rewrite L.
  replace (Z.of_nat k + 1 =? 0) with false by lia. cbn [andb]. change (0 <? zlen (@nil rr)) with false. cbv iota. change (repeat server (S k)) with (server :: repeat server k). rewrite repeat_cons, removelast_app'. unfold set_flags. cbn [q_id q_qr q_opcode q_aa q_tc q_rd q_ra q_z q_rcode q_qd q_an q_ns q_ar]. replace (Z.of_nat (S k) - 1) with (Z.of_nat k) by lia. reflexivity.
Qed.
Lemma drops_fit n j : forall k, drops j (fit_msg n (j + k)) = fit_msg n k.
Proof. induction j as [|j IH]; intros k; [reflexivity|]. cbn [drops Nat.add]. rewrite drop_fit. apply IH. Qed.
Theorem C23_many_name_servers_refuted : exists m most ar x, reply_ok m /\ zlen x = 12 /\ holding most (x ++ whole m) /\ j_max most = 1024 /\ holding ar (plain_records (m_ar m)) /\ j_max ar = 5000 /\
  exists s, finish J0 formats0 false (m_hdr m) most ar = Ok (Sent s) /\ 512 < zlen (octets_of s).
Proof.
  exists fit_many, (most_of fit_many), (ar_of fit_many), (repeat 0 12). assert (reply_ok fit_many) as OK by (apply fit_msg_ok; lia).
  assert (holding (most_of fit_many) (repeat 0 12 ++ whole fit_many)) as HM by big_tac. assert (holding (ar_of fit_many) (plain_records (m_ar fit_many))) as HA by big_tac. assert (j_max (most_of fit_many) = 1024) as MM by reflexivity. assert (j_max (ar_of fit_many) = 5000) as MA by reflexivity.
  split; [exact OK|]. split; [reflexivity|]. split; [exact HM|]. split; [exact MM|]. split; [exact HA|]. split; [exact MA|].
  destruct (finish_all J0 false fit_many (most_of fit_many) (ar_of fit_many) (repeat 0 12) J0_ok eq_refl HM ltac:(lia) HA ltac:(lia) OK) as (r & E & RR). rewrite MM, MA in RR. assert (size_of fit_many < 1024) as SZ by (apply Z.ltb_lt; vm_cast_no_check (@eq_refl bool true)).
  destruct r as [s|].
  - destruct RR as (_ & k & y & K & (H & _) & CV & _). exists s. split; [exact E|]. destruct H as (_ & _ & ->). assert (drops k fit_many = fit_msg 550 (21 - k)) as ED by (rewrite <- (drops_fit 550 k (21 - k)); replace (k + (21 - k))%nat with 21%nat by lia; reflexivity).
    rewrite ED in CV. pose proof (text_long 550 y _ CV (ex_intro _ [] eq_refl)). lia.
  - exfalso. destruct RR as [RR|(_ & RR)]; [lia|]. apply RR. assert (drops 20 fit_many = fit_msg 550 1) as -> by exact (drops_fit 550 20 1). split; [apply Z.ltb_lt; vm_cast_no_check (@eq_refl bool true)|]. split; [apply Z.ltb_lt; vm_cast_no_check (@eq_refl bool true)|]. split; [apply Z.ltb_lt; vm_cast_no_check (@eq_refl bool true)|].
    intros q EQ. change (m_qd (fit_msg 550 1)) with [fit_q] in EQ. injection EQ as <-. apply Z.leb_le. vm_cast_no_check (@eq_refl bool true).
Qed.
Print Assumptions C23_fits.
Print Assumptions C23_what_is_left.
Print Assumptions C23_many_name_servers_refuted.

(** ** Answers to ANY queries *)
(** A reply that is too long is replaced by its header, with the TC bit, and its question. *)
Definition question_only (m : msg) : msg := let h := m_hdr m in mkmsg (mkqh (q_id h) (q_qr h) (q_opcode h) (q_aa h) 1 (q_rd h) (q_ra h) (q_z h) (q_rcode h) 1 0 0 0) (m_qd m) [] [] [].
Theorem C23_any : forall J F long m q query most ns ar x, junk_ok J -> decomp_init J = Ok F -> zlen x = 12 -> reply_ok m -> m_qd m = [q] -> qu_class q = 1 -> m_ns m = [] -> m_ar m = [] ->
  holding most (x ++ whole m) -> 14 <= j_max most <= 2 ^ 30 -> holding query (wire (qu_name q) ++ be 2 (qu_type q)) -> holding ns [] -> holding ar [] -> 300 <= j_max ar ->
  exists r, any_finish J F long (m_hdr m) query most ns ar = Ok r /\
    match r with
    | ServFail => ~ easy (j_max most) (j_max ar) m
    | Sent s => exists y, holding s y /\ (conveys y m /\ (zlen y <= 512 \/ long = true /\ zlen y < 4096) \/ is_msg (question_only m) y /\ zlen y <= 512)
    end.
Proof.
  intros J F long m q query most ns ar x HJ EF LX OK EQ QC EN EA HM MM HQ HN HA MA. rewrite init_ok in EF. injection EF as <-. pose proof (hold_facts _ _ HM) as [WM SM LM CM _ _ BM _ _ _ _ _]. unfold any_finish.
  destruct (put_header m most x LX HM ltac:(lia)) as (s1 & E1 & H2). rewrite E1. cbn [bind]. set (l := hdr_octets (m_hdr m) ++ whole m) in *.
  assert (zlen l = size_of m) as SZ by (unfold l, size_of, whole; rewrite EN, EA, !app_nil_r, zlen_app; reflexivity).
  destruct (Z.ltb_spec (size_of m) (j_max most)) as [B|B].
  2: { destruct (append_held_not (j_max ns) ns [] (j_max most) _ _ (conj HN eq_refl) H2) as (s2 & ->); [change (zlen (@nil Z)) with 0; lia|]. cbn [bind]. change (-1 =? JS_ERROR) with true. cbv iota. exists ServFail. split; [reflexivity|]. intros (_ & X & _). lia. }
  destruct (append_held (j_max ns) ns [] (j_max most) _ _ (conj HN eq_refl) H2) as (s2 & -> & H3); [change (zlen (@nil Z)) with 0; lia|]. rewrite app_nil_r in H3. cbn [bind]. change (0 =? JS_ERROR) with false. cbv iota.
  destruct (append_held (j_max ar) ar [] (j_max most) _ _ (conj HA eq_refl) H3) as (s3 & -> & H4); [change (zlen (@nil Z)) with 0; lia|]. rewrite app_nil_r in H4. cbn [bind]. change (0 =? JS_ERROR) with false. cbv iota.
  pose proof HA as (WA & SA & _). destruct H4 as (H4 & M4). pose proof OK as (MO & _ & PL & _). assert (header_fits (m_hdr m)) as FIT by apply MO.
  assert (is_msg m l) as IM by (apply (is_msg_intro m _ (hdr_octets (m_hdr m))); [reflexivity|apply hdr_octets_bits, FIT|unfold l, whole; rewrite EN, EA, !app_nil_r; reflexivity]).
  destruct (compress_msg J s3 ar m l HJ H4 ltac:(lia) WA SA IM MO (ex_intro _ q EQ) PL) as [(E & NE)|(s & y & E & HS & CV & _)].
  - rewrite E. exists ServFail. split; [reflexivity|]. rewrite M4 in NE. exact NE.
  - rewrite E. pose proof (fa_len _ _ (hold_facts _ _ (proj1 HS))) as LS. rewrite <- LS. destruct ((512 <? zlen y) && negb (long && (zlen y <? 4096))) eqn:G.
    + destruct HS as (HS & MS). pose proof HS as (W & S1 & _). set (h' := mkqh _ _ _ _ _ _ _ _ _ _ _ _ _).
      destruct (make_hdr_ok h' s W S1 ltac:(lia)) as (s5 & -> & H5 & M5 & _). cbn [bind]. assert (zlen (wire (qu_name q)) <= 255) as LN by (destruct MO as (_ & _ & _ & _ & _ & QQ & _); rewrite EQ in QQ; apply Forall_cons_iff in QQ as ((X & _) & _); apply X).
      destruct (append_held (j_max query) query _ (j_max ar) s5 (hdr_octets h') (conj HQ eq_refl)) as (s6 & -> & H6); [split; [exact H5|lia]|rewrite zlen_app, zlen_be; change (zlen (hdr_octets h')) with 12; lia|]. cbn [bind].
      destruct (word_held (j_max ar) s6 _ 1 H6 ltac:(lia)) as (r & s7 & -> & X & _). destruct X as (_ & H7 & _); [rewrite !zlen_app, zlen_be; change (zlen (hdr_octets h')) with 12; lia|]. cbn [bind].
      eexists. split; [reflexivity|]. eexists. split; [exact H7|]. right. split; [|rewrite !zlen_app, !zlen_be; change (zlen (hdr_octets h')) with 12; lia].
      destruct MO as (_ & C1 & C2 & C3 & C4 & _). rewrite EQ in C1. rewrite EN in C3. rewrite EA in C4. change (zlen [q]) with 1 in C1. change (zlen (@nil rr)) with 0 in C3, C4.
      apply (is_msg_intro _ _ (hdr_octets h')); [reflexivity| |].
      * unfold question_only. cbn [m_hdr]. replace (mkqh _ _ _ _ 1 _ _ _ _ 1 0 0 0) with h' by (unfold h'; rewrite C1, C3, C4; reflexivity). apply hdr_octets_bits.
        clear -FIT. revert FIT. unfold header_fits, header_fields, h'. cbn [q_id q_qr q_opcode q_aa q_tc q_rd q_ra q_z q_rcode q_qd q_an q_ns q_ar]. intros FIT.
        repeat (match goal with H : Forall _ (_ :: _) |- _ => apply Forall_cons_iff in H as (? & ?) end).
        repeat (apply Forall_cons; [cbn [fst snd] in *; first [assumption|unfold below; cbn; lia]|]). constructor.
      * unfold question_only. cbn [m_qd m_an m_ns m_ar]. rewrite EQ. cbn [map concat app]. unfold plain_records. cbn [map concat]. rewrite !app_nil_r. unfold question_bytes. rewrite QC, <- !app_assoc. reflexivity.
    + eexists. split; [reflexivity|]. exists y. split; [apply HS|]. left. split; [exact CV|]. destruct (512 <? zlen y) eqn:G1; [right|left; lia]. cbn [andb] in G. apply negb_false_iff, andb_true_iff in G as (G2 & G3). split; [exact G2|lia].
Qed.
(** The reply with the answer of 550 octets: header and question are left. *)
Definition any_msg (n : nat) : msg := fit_msg n 0.
Example C23_any_met : reply_ok (any_msg 550) /\ holding (str (wire [[120]] ++ be 2 16) 256) (wire (qu_name fit_q) ++ be 2 (qu_type fit_q)) /\ holding (str [] 1024) [] /\ holding (most_of (any_msg 550)) (repeat 0 12 ++ whole (any_msg 550)) /\
  sent (any_finish J0 formats0 false (m_hdr (any_msg 550)) (str (wire [[120]] ++ be 2 16) 256) (most_of (any_msg 550)) (str [] 1024) (str [] 1024)) = Some [0; 7; 134; 0; 0; 1; 0; 0; 0; 0; 0; 0; 1; 120; 0; 0; 16; 0; 1].
Proof.
  split; [apply fit_msg_ok; lia|]. split; [str_tac|]. split; [str_tac|]. split; [big_tac|]. vm_cast_no_check (@eq_refl (option (list Z)) (Some [0; 7; 134; 0; 0; 1; 0; 0; 0; 0; 0; 0; 1; 120; 0; 0; 16; 0; 1])).
Qed.
(** ** Answers for names with a wildcard *)
(** A reply to a query that a wildcard record answers, when it is too long, is replaced by its header
    alone, which goes on saying that a question and an answer follow: twelve octets that are not a
    message. *)
Theorem C23_star_refuted : exists m most ar x, reply_ok m /\ zlen x = 12 /\ holding most (x ++ whole m) /\ j_max most = 1024 /\ holding ar (plain_records (m_ar m)) /\ j_max ar = 1024 /\
  exists s, star_finish J0 formats0 (m_hdr m) most ar = Ok (Sent s) /\ octets_of s = [0; 7; 134; 0; 0; 1; 0; 1; 0; 0; 0; 0].
Proof.
  exists (any_msg 550), (most_of (any_msg 550)), (str [] 1024), (repeat 0 12). split; [apply fit_msg_ok; lia|]. split; [reflexivity|]. split; [big_tac|]. split; [reflexivity|]. split; [str_tac|]. split; [reflexivity|].
  apply sent_is. vm_cast_no_check (@eq_refl (option (list Z)) (Some [0; 7; 134; 0; 0; 1; 0; 1; 0; 0; 0; 0])).
Qed.
Print Assumptions C23_any.
Print Assumptions C23_star_refuted.
