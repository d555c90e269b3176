(** C45: the replies MaraDNS makes of the records it found (server/udpsuccess.c). *)
From Coq Require Import Permutation.
From Verif Require Import CBase Bits ModelDwStr SpecDwStr ProofDwStr SpecNames SpecMessage SpecAcl SpecDeadwoodMsg SpecQuery ModelJsStr SpecJsStr ProofJsStr ProofJsSearch
  ModelQueries SpecQueries ProofQueries ProofHname ProofDwPackAll ProofDwNames ProofQuestion ProofSqueeze ModelDecomp SpecDecomp ProofJsList ProofDecompList ProofDecompPacket ProofDecompSpec ProofDecompRec ModelCompress ProofCompList ProofCompPacket
  SpecCompress SpecReply SpecPack ProofCompName ProofCompRec ProofCompMsg PropsQueries PropsDecomp PropsCompress PropsPacket ProofDwDecomp ProofServe ProofServeRun ModelMaraHash ModelServe ModelBigHash ProofBigHash ModelSuccess SpecSuccess ProofFit PropsFit ProofSuccess.
From Verif Require Import SpecMessage SpecQueries SpecSuccess.

Lemma word_num v : word v -> be 2 v = num16 v.
Proof. intros V. unfold word in V. apply be_num16. lia. Qed.
(** Before the loop: twelve octets and the question. *)
Lemma start_ok J id query n ty : junk_ok J -> holding query (wire n ++ num16 ty) -> short_name n -> word ty ->
  exists s0 s1 s x, create J 1024 1 = Ok s0 /\ make_hdr (mkqh id 0 0 0 0 0 0 0 0 0 0 0 0) s0 = Ok (1, s1) /\ (most <- (r <- js_append query s1 ;; good r) ;; r <- js_adduint16 most 1 ;; good r) = Ok s /\ zlen x = 12 /\ held 1024 s (x ++ question_bytes (mkquestion n ty 1)).
Proof.
  intros HJ HQ (_ & LN) W. destruct (create_held J 1024 HJ ltac:(lia) ltac:(lia)) as (s0 & E0 & (H0 & M0)). pose proof (hold_facts _ _ H0) as [W0 S0 _ _ _ _ _ _ _ _ _ _].
  destruct (make_hdr_ok (mkqh id 0 0 0 0 0 0 0 0 0 0 0 0) s0 W0 S0 ltac:(lia)) as (s1 & E1 & H1 & M1 & _). set (x := hdr_octets (mkqh id 0 0 0 0 0 0 0 0 0 0 0 0)) in *.
  assert (held 1024 s1 x) as HS1 by (split; [exact H1|congruence]). pose proof (zlen_hdr (mkqh id 0 0 0 0 0 0 0 0 0 0 0 0)) as LX. fold x in LX. clearbody x.
  assert (zlen (wire n ++ num16 ty) <= 257) as LQ by (rewrite zlen_app; change (zlen (num16 ty)) with 2; lia).
  pose proof (append_agree 1024 query (wire n ++ num16 ty) s1 x HQ HS1) as A1. unfold l_add in A1. replace (zlen x + zlen (wire n ++ num16 ty) <? 1024) with true in A1 by lia. destruct A1 as (s2 & E2 & HS2).
  pose proof (adduint16_agree 1024 s2 _ 1 HS2 ltac:(lia)) as A2. unfold l_add in A2. rewrite zlen_app in A2. replace (zlen x + zlen (wire n ++ num16 ty) + zlen (be 2 1) <? 1024) with true in A2 by (change (zlen (be 2 1)) with 2; lia). destruct A2 as (s3 & E3 & HS3).
  exists s0, s1, s3, x. split; [exact E0|]. split; [exact E1|]. split; [rewrite E2; cbn [bind]; exact E3|]. split; [exact LX|]. unfold question_bytes. cbn [qu_name qu_type qu_class]. rewrite (word_num ty W). rewrite <- !app_assoc in HS3. exact HS3.
Qed.
(** Afterwards the memory is in order again. *)
Lemma order_again h ls G R nx h' : records_ok h ls G R -> links G R nx -> repr h nx [] h' -> records_ok h' ls G R.
Proof.
  intros RO [LN LR] (LE & RP). assert (forall p c, G p -> SpecSuccess.at_ h' p c -> exists c0, SpecSuccess.at_ h p c0 /\ c = now nx [] p c0) as BACK.
  { intros p c P A. destruct (ro_cell _ _ _ _ RO p P) as (c0 & A0 & _). exists c0. split; [exact A0|]. unfold SpecSuccess.at_ in *. rewrite RP, A0 in A. injection A as <-. reflexivity. }
  constructor.
  - intros p P. destruct (ro_cell _ _ _ _ RO p P) as (c & A & B). exists (now nx [] p c). split; [unfold SpecSuccess.at_ in *; rewrite RP, A; reflexivity|]. exact B.
  - intros p c q P A E. destruct (BACK p c P A) as (c0 & _ & ->). apply (LN p q P E).
  - intros p c q P A E. destruct (BACK p c P A) as (c0 & A0 & ->). apply (ro_ip _ _ _ _ RO p c0 q P A0 E).
  - intros p c q P A E. destruct (BACK p c P A) as (c0 & A0 & ->). apply (ro_ip6 _ _ _ _ RO p c0 q P A0 E).
  - intros p c q P A E. destruct (BACK p c P A) as (c0 & A0 & ->). apply (ro_list _ _ _ _ RO p c0 q P A0 E).
  - destruct LR as (rank & RK). exists rank. intros p c q P A E. destruct (BACK p c P A) as (c0 & _ & ->). apply (RK p q P E).
Qed.
Lemma only_next h nx h' (U : nat -> Prop) : repr h nx [] h' -> (forall q, U q -> nx q = nx0 h q) -> length h' = length h /\ forall p c, SpecSuccess.at_ h p c -> exists c', SpecSuccess.at_ h' p c' /\ but_next c c' /\ (U p -> c' = c).
Proof.
  intros (LE & RP) K. split; [exact LE|]. intros p c A. exists (now nx [] p c). split; [unfold SpecSuccess.at_ in *; rewrite RP, A; reflexivity|]. split; [reflexivity|]. intros X. unfold now. rewrite (K p X), (nx0_at h p c A). apply set_seen_same.
Qed.
Lemma G_records h ls G R l : records_ok h ls G R -> Forall G l -> Forall plain_rr (map R l).
Proof. intros RO F. apply Forall_map. revert F. apply Forall_impl. intros p P. destruct (ro_cell _ _ _ _ RO p P) as (c & _ & (X & _) & _). exact X. Qed.
Lemma plain_record r : plain_rr r -> record_ok r.
Proof. intros (A & B & C & D & _). split; [exact A|split; [exact B|split; [exact C|exact D]]]. Qed.
Lemma reply_of_ok h ls G R id aa rd n ty an ns ar : records_ok h ls G R -> short_name n -> word ty -> 0 <= id < 65536 -> (aa = 0 \/ aa = 1) -> (rd = 0 \/ rd = 1) -> Forall G (an ++ ns) -> Forall G ar -> zlen an < 65536 -> zlen ns < 65536 -> zlen ar < 65536 ->
  reply_ok (reply_of id aa rd n ty (map R an) (map R ns) (map R ar)).
Proof.
  intros RO SN W ID AA RD G1 G2 L1 L2 L3. assert (Forall plain_rr (map R an ++ map R ns ++ map R ar)) as FP by (rewrite <- !map_app; apply (G_records h ls G R); [exact RO|]; rewrite app_assoc; apply Forall_app; split; assumption).
  split; [|split; [reflexivity|split; [exact FP|reflexivity]]]. cbn [reply_of]. split.
  - unfold header_fits, header_fields, reply_of. cbn [m_hdr q_id q_qr q_opcode q_aa q_tc q_rd q_ra q_z q_rcode q_qd q_an q_ns q_ar]. assert (forall l : list nat, zlen (map R l) = zlen l) as LM by (intros l; unfold zlen; rewrite map_length; reflexivity). rewrite !LM. pose proof (zlen_nonneg an). pose proof (zlen_nonneg ns). pose proof (zlen_nonneg ar).
    repeat constructor; unfold below; cbn [fst snd Z.pow Z.pow_pos Pos.iter Z.of_nat]; try lia.
  - repeat (split; [reflexivity|]). split; [constructor; [|constructor]; split; [exact SN|]; split; [exact W|]; unfold word; cbn; lia|]. revert FP. apply Forall_impl. apply plain_record.
Qed.

(** Every query is answered, and nothing goes wrong.  What the reply says are records of the chain
    that was found, what their CNAMEs lead to, name servers if there may be some, and addresses of
    records shown; nothing is left out but what the limits forbid, and what does not fit ([drops]).
    The memory is in order afterwards, the records are the same, and the first answer is now the
    last.  A reply that is not sent has 1024 octets or more, or too many records to leave out. *)
Theorem C45_reply : forall J F lim ls force long id rd query h G R where_ ps n ty c,
  (forall i, junk_ok (J i)) -> decomp_init (J 2) = Ok F -> records_ok h ls G R -> G where_ -> SpecSuccess.at_ h where_ c -> chain h (Some where_) ps ->
  holding query (wire n ++ num16 ty) -> short_name n -> word ty -> 0 <= id < 65536 -> (rd = 0 \/ rd = 1) ->
  exists o h' p', udpsuccess J F lim ls force long id rd query h where_ = Ok (o, h', p') /\
    records_ok h' ls G R /\ length h' = length h /\ (forall p c, SpecSuccess.at_ h p c -> exists c', SpecSuccess.at_ h' p c' /\ but_next c c' /\ (~ (In p (answers R ty ps) /\ ty <> 2 /\ max_ar_chain lim = 1) -> c' = c)) /\
    let may := (s_auth c =? 1) || negb (ty =? 2) && (s_type c =? 2) in
    exists fa an ns ar, fair h ls R lim ty may ps fa an ns ar /\
      let m := reply_of id (if force =? 1 then 1 else s_auth c) rd n ty (map R an) (map R ns) (map R ar) in
      match o with
      | Sent s =>
          complete h R lim ty may ps fa ns ar /\ chain h' (Some p') (if (max_ar_chain lim =? 1) && negb (ty =? 2) then turned R ty ps else ps) /\
          exists k y, (k <= 20)%nat /\ holding s y /\ conveys y (drops k m) /\ (zlen y <= 512 \/ long = true /\ k = O /\ zlen y < 4096 \/ k = 20%nat /\ m_qd (drops 20 m) <> [] /\ zlen y <= size_of (drops 20 m))
      | ServFail =>
          (1024 <= size_of m \/ m_qd (drops 20 m) <> [] /\ ~ easy 1024 5000 (drops 20 m)) /\
          (chain h' (Some p') ps \/ chain h' (Some p') (if (max_ar_chain lim =? 1) && negb (ty =? 2) then turned R ty ps else ps))
      end.
Proof.
  intros J F lim ls force long id rd query h G R where_ ps n ty c HJ EF RO GW AW CH HQ SN W ID RD. rewrite init_ok in EF. injection EF as <-.
  destruct (start_ok (J 0) id query n ty (HJ 0) HQ SN W) as (s0 & s1 & s & x & E0 & E1 & E2 & LX & HS). destruct (create_held (J 1) 5000 (HJ 1) ltac:(lia) ltac:(lia)) as (a0 & EA & HA).
  unfold udpsuccess. rewrite E0, EA. cbn [bind]. rewrite E1. cbn [bind]. change (1 =? JS_ERROR) with false. cbv iota.
  destruct (ro_cell _ _ _ _ RO where_ GW) as (c' & AW' & IR & AU & _). pose proof (at_inj _ _ _ _ AW AW') as <-. clear AW'. pose proof IR as (PR & HO1 & HO2 & _ & _ & TY).
  assert (cell h where_ = Ok c) as -> by (unfold cell, SpecSuccess.at_ in *; rewrite AW; reflexivity). cbn [bind].
  pose proof (hold_facts _ _ HO1) as [_ _ _ _ _ _ _ SA1 _ _ _ _]. pose proof (hold_facts _ _ HO2) as [_ _ LD CD _ _ _ SA2 _ _ _ _]. pose proof (hold_facts _ _ HQ) as [_ _ _ _ _ _ _ SA3 _ _ _ _]. rewrite SA1, SA2, SA3. cbn [negb orb].
  rewrite (get_rtype_held (j_max query) query _ (conj HQ eq_refl)). cbn [bind]. change (wire n ++ num16 ty) with (SpecServe.plain n ty). rewrite (ProofServeRun.type_plain n ty W). assert (u16 ty = ty) as -> by (unfold u16; unfold word in W; apply Z.mod_small; lia).
  replace ((j_count (s_data c) <? 0) || (65535 <? j_count (s_data c))) with false by (destruct PR as (_ & _ & _ & PR & _); pose proof (zlen_nonneg (rdata_plain (R where_))); rewrite <- LD; lia).
  rewrite E2. set (deleg := negb (ty =? RR_NS) && (s_type c =? RR_NS)) in *.
  assert (path G (nx0 h) (Some where_) ps) as PS by (apply (chain_path h ls G R RO); [exact CH|intros p X; injection X as <-; exact GW]).
  assert (match s_next c with None => Ok None | Some q => d <- cell h q ;; Ok (if negb (ty =? RR_NS) && (s_type d =? RR_NS) then None else Some q) end = Ok (second0 h R ty where_)) as ->.
  { unfold second0. rewrite (nx0_at h where_ c AW). destruct (s_next c) as [q|] eqn:NE; [|reflexivity]. destruct (ro_next _ _ _ _ RO where_ c q GW AW NE) as (GQ & _). destruct (ro_cell _ _ _ _ RO q GQ) as (d & AD & (_ & _ & _ & _ & _ & TD) & _).
    assert (cell h q = Ok d) as -> by (unfold cell, SpecSuccess.at_ in *; rewrite AD; reflexivity). cbn [bind]. rewrite TD. change RR_NS with 2. rewrite ns_test. destruct (is_answer R ty q); reflexivity. }
  cbn [bind]. set (base := x ++ question_bytes (mkquestion n ty 1)) in *. set (t0 := mkst s a0 0 0 0 0 0 false h [] where_ (second0 h R ty where_) None).
  assert (exists l, ps = where_ :: l) as (l & EP) by (inversion PS; eauto).
  destruct (records_A h ls G R RO lim ty base where_ ps (s_auth c) deleg PS l (S (length h)) where_ t0 [] [] [] []) as (b & t & ER & nx & fa & an & ns & ar & LK & KP & HO & FR & RS).
  { exact EP. } { constructor. } { pose proof (path_short h ls G R RO (nx0 h) _ _ (links0 h ls G R RO) PS). rewrite EP in *. lia. }
  { split; [apply repr0|split; constructor]. } { split; [constructor|]. split; [constructor|]. split; [intros _; constructor|]. change (zlen (@nil nat)) with 0. lia. }
  { split; [split; [cbn [map]; rewrite app_nil_r; exact HS|]; split; [reflexivity|]; split; [reflexivity|constructor]|]. split; [split; [exact HA|]; split; [reflexivity|]; split; [constructor|]; split; [intros q []|reflexivity]|]. split; [reflexivity|]. intros _. right. intros p a []. }
  { left. reflexivity. } { reflexivity. } { reflexivity. } { reflexivity. } { reflexivity. } { reflexivity. }
  change (S (length h)) with (fuel0 h) in *. fold t0. rewrite ER. cbn [bind]. destruct HO as (RP & GS & ND). destruct (unmark_ok h ls G R RO nx _ ND _ RP GS) as (h' & UM & RP').
  pose proof (order_again h ls G R nx h' RO LK RP') as RO'. pose proof (only_next h nx h' (fun p => ~ (In p (answers R ty ps) /\ ty <> 2 /\ max_ar_chain lim = 1)) RP' KP) as (LEN & ON). pose proof (path_chain h ls G R RO nx [] h') as PC.
  assert (forall i j, size_of (reply_of i j rd n ty (map R an) (map R ns) (map R ar)) = zlen (base ++ plain_records (map R (an ++ ns))) + zlen (plain_records (map R ar))) as SZ.
  { intros i j. unfold size_of, reply_of, base. cbn [m_qd m_an m_ns m_ar map concat]. rewrite app_nil_r, map_app, !plain_records_app, !zlen_app. lia. }
  destruct b.
  - destruct RS as ((HM & CA & CN & GA) & (HR & CR & GR & _) & CP & PT). destruct (hold_facts _ _ (proj1 HM)) as [_ _ LM CM _ _ _ _ _ _ _ _]. pose proof (proj2 HM) as XM. pose proof (hold_facts _ _ (proj1 HR)) as [_ _ LR CRR _ _ _ _ _ _ _ _]. pose proof (proj2 HR) as XR.
    pose proof (plain_len h ls G R RO _ GA) as PL1. pose proof (plain_len h ls G R RO _ GR) as PL2. rewrite zlen_app in PL1. rewrite zlen_app in CM. pose proof (zlen_nonneg base). pose proof (zlen_nonneg an). pose proof (zlen_nonneg ns).
    set (aa := if force =? 1 then 1 else s_auth c). set (m := reply_of id aa rd n ty (map R an) (map R ns) (map R ar)).
    assert (reply_ok m) as OK by (apply (reply_of_ok h ls G); try assumption; [unfold aa; destruct (force =? 1); auto|lia..]).
    assert (mkqh id 1 0 aa 0 rd 0 0 0 1 (t_an t) (t_ns t) (t_arc t) = m_hdr m) as EH. { unfold m, reply_of. cbn [m_hdr]. rewrite CA, CN, CR. unfold zlen. rewrite !map_length. reflexivity. }
    rewrite EH. assert (base ++ plain_records (map R (an ++ ns)) = x ++ whole m) as EW. { unfold base, whole, m, reply_of. cbn [m_qd m_an m_ns map concat]. rewrite app_nil_r, map_app, <- app_assoc. reflexivity. }
    rewrite EW in HM. destruct (finish_all (J 2) long m (t_most t) (t_ar t) x (HJ 2) LX (proj1 HM) ltac:(lia) (proj1 HR) ltac:(lia) OK) as (o & EO & RO2). rewrite EO. cbn [bind]. rewrite UM. cbn [bind].
    exists o, h', (t_point t). split; [reflexivity|]. split; [exact RO'|]. split; [exact LEN|]. split; [exact ON|]. exists fa, an, ns, ar. split; [exact FR|]. rewrite XM, XR in RO2. fold aa. fold m. specialize (PC _ _ RP' PT). destruct o as [so|].
    + destruct RO2 as (_ & k & y & K & (HY & _) & CV & SS). split; [exact CP|]. split; [exact PC|]. exists k, y. split; [exact K|]. split; [exact HY|]. split; [exact CV|exact SS].
    + split; [exact RO2|]. right. exact PC.
  - destruct RS as (OV & PT). cbn [bind]. rewrite UM. cbn [bind]. exists ServFail, h', (t_point t). split; [reflexivity|]. split; [exact RO'|]. split; [exact LEN|]. split; [exact ON|]. exists fa, an, ns, ar. split; [exact FR|]. split.
    + left. rewrite SZ. pose proof (zlen_nonneg (plain_records (map R ar))). pose proof (zlen_nonneg (base ++ plain_records (map R (an ++ ns)))). destruct OV as [OV|OV]; lia.
    + destruct PT as [PT|PT]; [left|right]; exact (PC _ _ RP' PT).
Qed.

(** ** Sets of records that are asked for again and again *)
(** While the question stays, so do the answers, and one of the other records goes. *)
Lemma drops_left : forall k m, q_tc (m_hdr m) = 0 -> m_qd (drops k m) <> [] -> m_qd (drops k m) = m_qd m /\ m_an (drops k m) = m_an m /\ (length (m_ns (drops k m)) + length (m_ar (drops k m)) + k <= length (m_ns m) + length (m_ar m))%nat.
Proof.
  induction k as [|k IH]; intros m TC Q; cbn [drops] in *; [split; [reflexivity|split; [reflexivity|lia]]|].
  unfold drop_last in *. rewrite TC in *. change (0 =? 1) with false in *. cbn [orb] in *.
  destruct (m_ar m) as [|r ar] eqn:EA; [destruct (m_ns m) as [|r ns] eqn:EN|].
  - change (zlen (@nil rr) =? 0) with true in *. cbn [andb] in *. exfalso. apply Q. destruct k as [|k]; [reflexivity|]. apply PropsPacket.drops_bare; [left; reflexivity|lia].
  - change (zlen (@nil rr)) with 0 in *. pose proof (zlen_nonneg ns). rewrite (zlen_cons r ns) in *. replace (zlen ns + 1 =? 0) with false in * by lia. cbn [andb] in *. change (0 <? 0) with false in *. cbv iota in *.
    match type of Q with m_qd (drops k ?x) <> [] => destruct (IH x eq_refl Q) as (E1 & E2 & E3) end. cbn [m_qd m_an m_ns m_ar] in E1, E2, E3. rewrite removelast_len in E3. cbn [length] in *. split; [exact E1|]. split; [exact E2|]. lia.
  - pose proof (zlen_nonneg ar). rewrite !(zlen_cons r ar) in *. replace (zlen ar + 1 =? 0) with false in * by lia. rewrite andb_false_r in *. replace (0 <? zlen ar + 1) with true in * by lia. 
    match type of Q with m_qd (drops k ?x) <> [] => destruct (IH x eq_refl Q) as (E1 & E2 & E3) end. cbn [m_qd m_an m_ns m_ar] in E1, E2, E3. rewrite removelast_len in E3. cbn [length] in *. split; [exact E1|]. split; [exact E2|]. lia.
Qed.
Lemma targets_none h ls R ty an : with_targets h ls R ty [] an -> an = [].
Proof. intros T. inversion T as [E|l l' p qs T' L E]; [reflexivity|]. destruct l; discriminate E. Qed.
(** With the limits MaraDNS has unless told otherwise (max_total is 20), a reply always fits, and a
    query is answered unless there are 1024 octets or more. *)
Theorem C45_fits : forall J F lim ls force long id rd query h G R where_ ps n ty c,
  (forall i, junk_ok (J i)) -> decomp_init (J 2) = Ok F -> records_ok h ls G R -> G where_ -> SpecSuccess.at_ h where_ c -> chain h (Some where_) ps ->
  holding query (wire n ++ num16 ty) -> short_name n -> word ty -> 0 <= id < 65536 -> (rd = 0 \/ rd = 1) -> max_total lim <= 20 ->
  exists o h' p', udpsuccess J F lim ls force long id rd query h where_ = Ok (o, h', p') /\
    match o with
    | Sent s => zlen (octets_of s) <= 512 \/ long = true /\ zlen (octets_of s) < 4096
    | ServFail => exists fa an ns ar, fair h ls R lim ty ((s_auth c =? 1) || negb (ty =? 2) && (s_type c =? 2)) ps fa an ns ar /\
        1024 <= size_of (reply_of id (if force =? 1 then 1 else s_auth c) rd n ty (map R an) (map R ns) (map R ar))
    end.
Proof.
  intros J F lim ls force long id rd query h G R where_ ps n ty c HJ EF RO GW AW CH HQ SN W ID RD MT.
  destruct (C45_reply J F lim ls force long id rd query h G R where_ ps n ty c HJ EF RO GW AW CH HQ SN W ID RD) as (o & h' & p' & E & _ & _ & _ & fa & an & ns & ar & FR & X). exists o, h', p'. split; [exact E|]. clear E. cbv zeta in X.
  set (m := reply_of _ _ _ _ _ _ _ _) in *.
  assert (m_qd (drops 20 m) <> [] -> size_of (drops 20 m) <= 271 /\ easy 1024 5000 (drops 20 m)) as K.
  { intros Q. destruct (drops_left 20 m eq_refl Q) as (E1 & E2 & E3). pose proof (fair_total _ _ _ _ _ _ _ _ _ _ _ FR) as FT. pose proof (fair_targets _ _ _ _ _ _ _ _ _ _ _ FR) as TG.
    change (m_ns m) with (map R ns) in E3. change (m_ar m) with (map R ar) in E3. rewrite !map_length in E3. assert (fa = [] /\ length (m_ns (drops 20 m)) = 0%nat /\ length (m_ar (drops 20 m)) = 0%nat) as (-> & N1 & N2).
    { unfold zlen in FT. destruct fa; [split; [reflexivity|]; lia|cbn [length] in FT; lia]. }
    apply targets_none in TG. subst an. apply length_zero_iff_nil in N1, N2. change (m_an m) with (@nil rr) in E2. change (m_qd m) with [mkquestion n ty 1] in E1.
    pose proof (ProofCompName.wire_count n (proj1 SN)) as WC. destruct SN as (_ & LN).
    assert (size_of (drops 20 m) <= 271) as SZ by (unfold size_of; rewrite E1, E2, N1, N2; cbn [map concat app]; unfold plain_records, question_bytes; cbn [map concat qu_name]; rewrite !zlen_app, !zlen_be; change (zlen (@nil Z)) with 0; lia).
    split; [exact SZ|]. split; [lia|]. split; [lia|]. split; [lia|]. intros q EQ. rewrite E1 in EQ. injection EQ as <-. rewrite E2, N1, N2. cbn [app qu_name]. unfold all_labels, SpecCompress.labels. cbn [map total]. lia. }
  destruct o as [s|].
  - destruct X as (_ & _ & k & y & _ & (_ & _ & HS) & _ & SZ). rewrite <- HS in *. destruct SZ as [SZ|[(L & _ & SZ)|(_ & Q & SZ)]]; [left; exact SZ|right; split; assumption|]. left. destruct (K Q). lia.
  - exists fa, an, ns, ar. split; [exact FR|]. destruct X as ([X|(Q & X)] & _); [exact X|]. destruct X. apply (K Q).
Qed.
Lemma turned_perm R ty ps : Permutation ps (turned R ty ps).
Proof.
  assert (ps = answers R ty ps ++ authority R ty ps) as E. { unfold answers, authority. induction ps as [|x l IH]; [reflexivity|]. cbn [take_while drop_while]. destruct (is_answer R ty x); [cbn [app]; f_equal; exact IH|reflexivity]. }
  unfold turned. destruct (answers R ty ps) as [|a [|b l]] eqn:EA; [reflexivity|reflexivity|]. rewrite E at 1. cbn [app]. change (a :: b :: l ++ authority R ty ps) with ([a] ++ (b :: l) ++ authority R ty ps). rewrite Permutation_app_swap_app. reflexivity.
Qed.
Lemma chain_same h h' w l : chain h w l -> (forall p c, In p l -> SpecSuccess.at_ h p c -> SpecSuccess.at_ h' p c) -> chain h' w l.
Proof. induction 1 as [|p c l A H IH]; intros S0; [constructor|]. apply (chain_more h' p c); [apply S0; [left; reflexivity|exact A]|]. apply IH. intros q d I. apply S0. right. exact I. Qed.
Lemma chain_head h w l : chain h w l -> w = hd_error l.
Proof. destruct 1; reflexivity. Qed.
Lemma kin h ls G R p l : records_ok h ls G R -> G p -> chain h (Some p) l -> forall q, In q l -> rr_type (R q) = 2 \/ same_set (R p) (R q).
Proof. intros RO P CH. apply (path_kin G R (nx0 h) p l (links0 h ls G R RO)). apply (chain_path h ls G R RO); [exact CH|]. intros x E. injection E as <-. exact P. Qed.
Lemma chain_G h ls G R p l : records_ok h ls G R -> G p -> chain h (Some p) l -> Forall G l.
Proof. intros RO P CH. apply (path_G G (nx0 h) (Some p)). apply (chain_path h ls G R RO); [exact CH|]. intros x E. injection E as <-. exact P. Qed.
Lemma answer_in R ty ps q : In q (answers R ty ps) -> In q ps /\ (ty <> 2 -> rr_type (R q) <> 2).
Proof.
  unfold answers. induction ps as [|x l IH]; cbn [take_while]; [intros []|]. destruct (is_answer R ty x) eqn:A; [|intros []]. intros [-> |I]; [|destruct (IH I); split; [right; assumption|assumption]]. split; [left; reflexivity|]. intros N E. unfold is_answer in A. rewrite E in A. rewrite (proj2 (Z.eqb_neq ty 2) N) in A. discriminate A.
Qed.
(** The heads of the sets [T] lead to the chains [pss]; no two sets have the same name and type. *)
Definition sets_at (h : heap) (G : nat -> Prop) (R : nat -> rr) (T : nat -> Prop) (heads : nat -> nat) (pss : nat -> list nat) : Prop :=
  (forall i, T i -> G (heads i) /\ chain h (Some (heads i)) (pss i)) /\
  forall i j, T i -> T j -> i <> j -> ~ same_set (R (heads i)) (R (heads j)).
Definition request_ok (T : nat -> Prop) (r : request) : Prop :=
  T (rq_set r) /\ (forall i, junk_ok (rq_junk r i)) /\ 0 <= rq_id r < 65536 /\ (rq_rd r = 0 \/ rq_rd r = 1) /\
  exists n ty, holding (rq_query r) (wire n ++ num16 ty) /\ short_name n /\ word ty.
Lemma one_set F J lim ls force long id rd query h G R T heads pss i : (forall i, junk_ok (J i)) -> decomp_init (J 2) = Ok F -> records_ok h ls G R -> sets_at h G R T heads pss -> T i ->
  0 <= id < 65536 -> (rd = 0 \/ rd = 1) -> (exists n ty, holding query (wire n ++ num16 ty) /\ short_name n /\ word ty) ->
  exists o h' p', udpsuccess J F lim ls force long id rd query h (heads i) = Ok (o, h', p') /\ records_ok h' ls G R /\
    exists pss', sets_at h' G R T (fun j => if (j =? i)%nat then p' else heads j) pss' /\ forall j, T j -> Permutation (pss j) (pss' j).
Proof.
  intros HJ EF RO (S1 & S2) TI ID RD (n & ty & HQ & SN & W). destruct (S1 i TI) as (GP & CH). set (p := heads i) in *. set (ps := pss i) in *.
  destruct (ro_cell _ _ _ _ RO p GP) as (c & A & _). destruct (C45_reply J F lim ls force long id rd query h G R p ps n ty c HJ EF RO GP A CH HQ SN W ID RD) as (o & h' & p' & E & RO' & _ & ON & fa & an & ns & ar & _ & OC).
  exists o, h', p'. split; [exact E|]. split; [exact RO'|].
  assert (exists ps', chain h' (Some p') ps' /\ Permutation ps ps' /\ (rr_type (R p') = 2 -> p' = p)) as (ps' & CH' & PM & T2).
  { assert (forall l, chain h' (Some p') l -> hd_error l = Some p') as HD by (intros l X; inversion X; reflexivity). assert (hd_error ps = Some p) as HP by (inversion CH; reflexivity).
    assert (chain h' (Some p') ps \/ chain h' (Some p') (if (max_ar_chain lim =? 1) && negb (ty =? 2) then turned R ty ps else ps)) as X by (destruct o; [right; apply OC|apply OC]). clear OC.
    assert (chain h' (Some p') ps -> exists ps', chain h' (Some p') ps' /\ Permutation ps ps' /\ (rr_type (R p') = 2 -> p' = p)) as SAME. { intros Y. exists ps. split; [exact Y|]. split; [reflexivity|]. specialize (HD ps Y). intros Z. congruence. }
    destruct X as [X|X]; [apply SAME, X|]. destruct ((max_ar_chain lim =? 1) && negb (ty =? 2)) eqn:M; [|apply SAME, X]. exists (turned R ty ps). split; [exact X|]. split; [apply turned_perm|].
    specialize (HD _ X). unfold turned in HD. destruct (answers R ty ps) as [|a [|b l]] eqn:EA; [congruence|congruence|]. cbn [app hd_error] in HD. injection HD as ->. intros Y. exfalso. destruct (answer_in R ty ps p' ltac:(rewrite EA; right; left; reflexivity)) as (_ & Z). apply Z; [|exact Y]. intros ->. rewrite andb_false_r in M. discriminate M. }
  pose proof (chain_G _ _ _ _ _ _ RO GP CH) as GPS. assert (In p' ps) as IP by (apply (Permutation_in p' (Permutation_sym PM)); destruct ps'; inversion CH'; subst; left; reflexivity). assert (G p') as GP' by (rewrite Forall_forall in GPS; apply GPS; exact IP).
  assert (same_set (R p) (R p')) as SS by (destruct (kin _ _ _ _ _ _ RO GP CH p' IP) as [X|X]; [|exact X]; rewrite (T2 X); split; reflexivity).
  exists (fun j => if (j =? i)%nat then ps' else pss j). split; [split|].
  - intros j TJ. destruct (Nat.eqb_spec j i) as [-> |JI]; [split; assumption|]. destruct (S1 j TJ) as (GQ & CQ). split; [exact GQ|]. apply (chain_same h); [exact CQ|]. intros x d IX AX. destruct (ON x d AX) as (d' & AX' & _ & EQ). rewrite EQ in AX'; [exact AX'|]. intros (IA & N2 & _). destruct (answer_in _ _ _ _ IA) as (IPS & TT). specialize (TT N2).
    destruct (kin _ _ _ _ _ _ RO GP CH x IPS) as [X|X]; [contradiction|]. destruct (kin _ _ _ _ _ _ RO GQ CQ x IX) as [Y|Y]; [contradiction|]. apply (S2 i j TI TJ); [intros X9; apply JI; symmetry; exact X9|]. subst p. destruct X, Y. split; congruence.
  - intros j k TJ TK JK. destruct SS as (SS1 & SS2). destruct (Nat.eqb_spec j i) as [-> |JI], (Nat.eqb_spec k i) as [-> |KI]; [congruence| | |apply S2; assumption]; intros (X1 & X2); [apply (S2 i k TI TK JK)|apply (S2 j i TJ TI JK)]; subst p; split; congruence.
  - intros j TJ. destruct (Nat.eqb_spec j i) as [-> |JI]; [exact PM|reflexivity].
Qed.
(** Whatever queries come, for whatever sets: all are answered, and no set ever loses a record or gets
    one of another set. *)
Theorem C45_sets : forall F lim ls G R T l h heads pss, (exists J, junk_ok J /\ decomp_init J = Ok F) -> records_ok h ls G R -> sets_at h G R T heads pss -> Forall (request_ok T) l ->
  exists os h' heads', serve_sets F lim ls l h heads = Ok (os, h', heads') /\ length os = length l /\ records_ok h' ls G R /\
    exists pss', sets_at h' G R T heads' pss' /\ forall i, T i -> Permutation (pss i) (pss' i).
Proof.
  intros F lim ls G R T l. induction l as [|r l IH]; intros h heads pss EF RO SA RQ; cbn [serve_sets].
  - exists [], h, heads. split; [reflexivity|]. split; [reflexivity|]. split; [exact RO|]. exists pss. split; [exact SA|reflexivity].
  - inversion RQ as [|? ? (Q1 & Q2 & Q3 & Q4 & Q5) RQ']; subst. assert (decomp_init (rq_junk r 2) = Ok F) as EF' by (destruct EF as (J & _ & X); rewrite init_ok in *; exact X).
    destruct (one_set F (rq_junk r) lim ls (rq_force r) (rq_long r) (rq_id r) (rq_rd r) (rq_query r) h G R T heads pss (rq_set r) Q2 EF' RO SA Q1 Q3 Q4 Q5) as (o & h1 & p & E & RO1 & pss1 & SA1 & PM1). rewrite E. cbn [bind].
    destruct (IH h1 _ pss1 EF RO1 SA1 RQ') as (os & h2 & heads2 & E2 & LN & RO2 & pss2 & SA2 & PM2). rewrite E2. cbn [bind]. exists (o :: os), h2, heads2. split; [reflexivity|]. split; [cbn [length]; congruence|]. split; [exact RO2|]. exists pss2. split; [exact SA2|]. intros i TI. transitivity (pss1 i); auto.
Qed.
(** ** A zone in memory *)
(** www.e. has two addresses (cells 0 and 1), c.e. is a CNAME for www.e. (2), and ns.e. (address: 3) serves e. (4). *)
Definition e_ : name := [[101]].
Definition www : name := [119; 119; 119] :: e_.
Definition ns_ : name := [110; 115] :: e_.
Definition cn_ : name := [99] :: e_.
Definition meta0 : list Z := [0; 1; 0; 0; 14; 16].
Definition z_rr (p : nat) : rr :=
  match p with
  | 0%nat => mkrr www 1 meta0 [10; 0; 0; 1] [] []
  | 1%nat => mkrr www 1 meta0 [10; 0; 0; 2] [] []
  | 2%nat => mkrr cn_ 5 meta0 [] [www] []
  | 3%nat => mkrr ns_ 1 meta0 [10; 0; 0; 9] [] []
  | _ => mkrr e_ 2 meta0 [] [ns_] []
  end.
Definition z_cell (p : nat) (next ip list : option nat) : srr :=
  mks (str (wire (rr_owner (z_rr p)) ++ num16 (rr_type (z_rr p))) 256) (str (rdata_plain (z_rr p)) 256) 3600 (rr_type (z_rr p)) 1 next ip None list 0.
Definition z_heap : heap := [Some (z_cell 0 (Some 1%nat) None None); Some (z_cell 1 (Some 4%nat) None None); Some (z_cell 2 (Some 4%nat) None (Some 0%nat)); Some (z_cell 3 (Some 4%nat) None None); Some (z_cell 4 None (Some 3%nat) None)].
Definition z_lists : list (option rr_list) := [Some (mklist 1 0 None)].
Definition z_G (p : nat) : Prop := (p < 5)%nat.
Definition z_lim : limits := mklim 8 1 20 false.
Definition z_query (n : name) : js := str (wire n ++ num16 1) 256.
Definition z_ask (n : name) (i : nat) : request := mkrequest i 0 false 7 0 (z_query n) (fun _ => J0).
Definition z_heads (i : nat) : nat := match i with 0%nat => 0%nat | _ => 2%nat end.
Definition replies (r : res (list reply * heap * (nat -> nat))) : list (option (list Z)) := match r with Ok (os, _, _) => map (fun o => sent (Ok o)) os | _ => [] end.
Lemma z_ok : records_ok z_heap z_lists z_G z_rr.
Proof.
  assert (forall p c, SpecSuccess.at_ z_heap p c -> z_G p -> c = match p with 0%nat => z_cell 0 (Some 1%nat) None None | 1%nat => z_cell 1 (Some 4%nat) None None | 2%nat => z_cell 2 (Some 4%nat) None (Some 0%nat) | 3%nat => z_cell 3 (Some 4%nat) None None | _ => z_cell 4 None (Some 3%nat) None end) as AT.
  { intros p c A P. unfold SpecSuccess.at_ in A. destruct p as [|[|[|[|[|p]]]]]; cbn [z_heap nth_error] in A; try (injection A as <-; reflexivity). unfold z_G in P. lia. }
  assert (short_name e_ /\ short_name www /\ short_name ns_ /\ short_name cn_) as (N1 & N2 & N3 & N4) by (split; [name_tac|]; split; [name_tac|]; split; name_tac).
  constructor.
  - intros p P. destruct p as [|[|[|[|[|p]]]]]; try (unfold z_G in P; lia); eexists; (split; [reflexivity|]); (split; [|split; [right; reflexivity|reflexivity]]); (split; [|split; [apply str_ok; [apply bytesb_spec; vm_compute; reflexivity|vm_compute; discriminate|vm_compute; reflexivity]|split; [apply str_ok; [apply bytesb_spec; vm_compute; reflexivity|vm_compute; discriminate|vm_compute; reflexivity]|split; [reflexivity|split; [cbn [z_cell s_ttl]; lia|reflexivity]]]]]).
    all: split; [cbn [z_rr rr_owner]; assumption|]; split; [cbn [z_rr rr_type]; lia|]; split; [reflexivity|]; split; [vm_compute; reflexivity|].
    + cbn [z_rr rr_type]. change (layout 1) with (@None (Z * nat * Z)). split; [reflexivity|]. split; [reflexivity|]. split; [reflexivity|discriminate].
    + cbn [z_rr rr_type]. change (layout 1) with (@None (Z * nat * Z)). split; [reflexivity|]. split; [reflexivity|]. split; [reflexivity|discriminate].
    + cbn [z_rr rr_type]. change (layout 5) with (Some (0, 1%nat, 0)). split; [reflexivity|]. split; [reflexivity|]. split; [constructor; [exact N2|constructor]|reflexivity].
    + cbn [z_rr rr_type]. change (layout 1) with (@None (Z * nat * Z)). split; [reflexivity|]. split; [reflexivity|]. split; [reflexivity|discriminate].
    + cbn [z_rr rr_type]. change (layout 2) with (Some (0, 1%nat, 0)). split; [reflexivity|]. split; [reflexivity|]. split; [constructor; [exact N3|constructor]|reflexivity].
  - intros p c q P A E. apply AT in A as ->; [|exact P]. destruct p as [|[|[|[|p]]]]; cbn [z_cell s_next] in E; try discriminate E; injection E as <-; (split; [unfold z_G; lia|]); [right; split; reflexivity|left; reflexivity..].
  - intros p c q P A E. apply AT in A as ->; [|exact P]. destruct p as [|[|[|[|p]]]]; cbn [z_cell s_ip] in E; try discriminate E. injection E as <-. unfold z_G. lia.
  - intros p c q P A E. apply AT in A as ->; [|exact P]. destruct p as [|[|[|[|p]]]]; discriminate E.
  - intros p c l P A E. apply AT in A as ->; [|exact P]. destruct p as [|[|[|[|p]]]]; cbn [z_cell s_list] in E; try discriminate E. injection E as <-. exists [mklist 1 0 None]. split; [|constructor; [unfold z_G; cbn [l_data]; lia|constructor]]. apply (list_more z_lists 0 (mklist 1 0 None) []); [reflexivity|constructor].
  - exists (fun p => (10 - p)%nat). intros p c q P A E. apply AT in A as ->; [|exact P]. destruct p as [|[|[|[|p]]]]; cbn [z_cell s_next] in E; try discriminate E; injection E as <-; lia.
Qed.
Lemma z_chain0 : chain z_heap (Some 0%nat) [0%nat; 1%nat; 4%nat].
Proof. do 3 (eapply chain_more; [reflexivity|]; cbn [z_cell s_next]). constructor. Qed.
Lemma z_chain2 : chain z_heap (Some 2%nat) [2%nat; 4%nat].
Proof. do 2 (eapply chain_more; [reflexivity|]; cbn [z_cell s_next]). constructor. Qed.
(** The hypotheses of C45_reply, C45_fits and C45_sets are met by this zone and queries for www.e. and c.e. *)
Example C45_met : records_ok z_heap z_lists z_G z_rr /\ z_G 0 /\ chain z_heap (Some 0%nat) [0%nat; 1%nat; 4%nat] /\ holding (z_query www) (wire www ++ num16 1) /\ short_name www /\
  sets_at z_heap z_G z_rr (fun i => (i < 2)%nat) z_heads (fun i => match i with 0%nat => [0%nat; 1%nat; 4%nat] | _ => [2%nat; 4%nat] end) /\ Forall (request_ok (fun i => (i < 2)%nat)) [z_ask www 0; z_ask cn_ 1].
Proof.
  assert (short_name www /\ short_name cn_) as (N1 & N2) by (split; name_tac). assert (holding (z_query www) (wire www ++ num16 1) /\ holding (z_query cn_) (wire cn_ ++ num16 1)) as (H1 & H2) by (split; str_tac).
  split; [exact z_ok|]. split; [unfold z_G; lia|]. split; [exact z_chain0|]. split; [exact H1|]. split; [exact N1|]. split; [split|].
  - intros [|i] I; (split; [unfold z_G; cbn; lia|]); [exact z_chain0|exact z_chain2].
  - intros [|i] [|j] I1 I2 N; try lia; intros (_ & X); discriminate X.
  - apply Forall_cons; [|apply Forall_cons; [|apply Forall_nil]].
    + split; [cbn; lia|]. split; [intros x; exact J0_ok|]. split; [cbn; lia|]. split; [left; reflexivity|]. exists www, 1. split; [exact H1|]. split; [exact N1|]. unfold word. lia.
    + split; [cbn; lia|]. split; [intros x; exact J0_ok|]. split; [cbn; lia|]. split; [left; reflexivity|]. exists cn_, 1. split; [exact H2|]. split; [exact N2|]. unfold word. lia.
Qed.
(** The CNAME record leads to both addresses of www.e.; after a query for www.e. a reply for c.e. has
    only one of them: round robin makes the second the head of the set, but the CNAME record keeps
    pointing at what was the first. *)
Theorem C45_cname_refuted : leads_to z_heap z_lists z_rr 1 2 [0%nat; 1%nat] /\
  option_map (fun y => (field16 y 6, zslice y 21 50)) (nth 1 (replies (serve_sets formats0 z_lim z_lists [z_ask www 0; z_ask cn_ 1] z_heap z_heads)) None) =
    Some (2, [192; 12; 0; 5; 0; 1; 0; 0; 14; 16; 0; 6; 3; 119; 119; 119; 192; 14; 192; 33; 0; 1; 0; 1; 0; 0; 14; 16; 0; 4; 10; 0; 0; 1; 192; 14; 0; 2; 0; 1; 0; 0; 14; 16; 0; 5; 2; 110; 115; 192]).
Proof.
  split.
  - eexists. split; [reflexivity|]. cbn [z_cell s_list s_type z_rr rr_type]. change (5 =? 5) with true. cbv iota. exists [mklist 1 0 None]. split; [apply (list_more z_lists 0 (mklist 1 0 None) []); [reflexivity|constructor]|]. exists [0%nat; 1%nat; 4%nat]. split; [exact z_chain0|reflexivity].
  - vm_cast_no_check (@eq_refl (option (Z * list Z)) (Some (2, [192; 12; 0; 5; 0; 1; 0; 0; 14; 16; 0; 6; 3; 119; 119; 119; 192; 14; 192; 33; 0; 1; 0; 1; 0; 0; 14; 16; 0; 4; 10; 0; 0; 1; 192; 14; 0; 2; 0; 1; 0; 0; 14; 16; 0; 5; 2; 110; 115; 192]))).
Qed.
Print Assumptions C45_reply.
Print Assumptions C45_fits.
Print Assumptions C45_sets.
Print Assumptions C45_cname_refuted.
