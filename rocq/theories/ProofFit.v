(** Replies made to fit (server/udpsuccess.c, the end of udpsuccess). *)
From Verif Require Import CBase Bits ModelDwStr SpecDwStr ProofDwStr SpecNames SpecMessage SpecAcl SpecDeadwoodMsg SpecQuery ModelJsStr SpecJsStr ProofJsStr ProofJsSearch
  ModelQueries SpecQueries ProofQueries ProofHname ProofDwPackAll ProofDwNames ProofQuestion ProofSqueeze ModelDecomp SpecDecomp ProofJsList ProofDecompList ProofDecompPacket ProofDecompSpec ProofDecompRec ModelCompress ProofCompList ProofCompPacket
  SpecCompress SpecReply SpecPack ProofCompName ProofCompRec ProofCompMsg PropsQueries PropsDecomp PropsPacket ProofServeRun ModelMaraHash ModelServe ModelBigHash ModelSuccess SpecSuccess.
From Verif Require Import SpecMessage SpecQueries.

(** ** Fields of headers *)
Lemma field_pair m p a b : bytes m -> 0 <= p -> zget m p = Some a -> zget m (p + 1) = Some b -> field16 m p = pair16 a b.
Proof.
  intros BM P A B. pose proof (zget_range _ _ _ B) as R. destruct (number_2 m p BM P ltac:(lia)) as (a' & b' & A' & B' & BA & BB & _ & E). rewrite A in A'. rewrite B in B'. injection A' as <-. injection B' as <-.
  unfold field16. rewrite E. symmetry. apply pair16_val; assumption.
Qed.
Lemma header_fields_at x r h : bytes (x ++ r) -> zlen x = 12 -> bits x = header_bits h -> header_fits h ->
  field16 (x ++ r) 4 = q_qd h /\ field16 (x ++ r) 6 = q_an h /\ field16 (x ++ r) 8 = q_ns h /\ field16 (x ++ r) 10 = q_ar h.
Proof.
  intros BM L B F. pose proof (proj1 (bytes_app _ _) BM) as (BX & _). pose proof (bytes_hdr_bits x h BX L B F) as <-.
  destruct (twelve_list x L) as (a0 & a1 & a2 & a3 & a4 & a5 & a6 & a7 & a8 & a9 & a10 & a11 & ->). unfold decode. cbn [q_qd q_an q_ns q_ar nth].
  split; [|split; [|split]]; (apply field_pair; [exact BM|lia|reflexivity|reflexivity]).
Qed.

(** ** One less *)
Definition state_ok (m : msg) : Prop :=
  msg_ok m /\ ((exists q, m_qd m = [q]) /\ Forall plain_rr (m_an m ++ m_ns m ++ m_ar m) \/ m_qd m = [] /\ m_an m = [] /\ m_ns m = [] /\ m_ar m = []).
Lemma one_is {A} (l : list A) : zlen l = 1 -> exists x, l = [x].
Proof. destruct l as [|x [|y l]]; intros H; [discriminate H|exists x; reflexivity|rewrite !zlen_cons in H; pose proof (zlen_nonneg l); lia]. Qed.
Lemma reply_state m : reply_ok m -> state_ok m.
Proof. intros (OK & Q & P & _). split; [exact OK|]. left. split; [apply one_is, Q|exact P]. Qed.
Lemma Forall_removelast {A} (P : A -> Prop) l : Forall P l -> Forall P (removelast l).
Proof. destruct l as [|x l] using rev_ind; [auto|]. rewrite removelast_app'. intros H. apply Forall_app in H. tauto. Qed.
Lemma drop_state m : state_ok m -> msg_ok (drop_last m) -> state_ok (drop_last m).
Proof.
  intros (_ & D) OK. split; [exact OK|]. unfold drop_last in *. destruct ((q_tc (m_hdr m) =? 1) || _) eqn:G; [right; cbn [m_qd m_an m_ns m_ar]; tauto|].
  destruct D as [((q & EQ) & P)|(EQ & E1 & E2 & E3)]; [|exfalso; rewrite E2, E3 in G; change (zlen (@nil rr) =? 0) with true in G; cbn [andb] in G; rewrite orb_true_r in G; discriminate G].
  apply Forall_app in P as (P1 & P). apply Forall_app in P as (P2 & P3). left. destruct (0 <? zlen (m_ar m)); cbn [m_qd m_an m_ns m_ar].
  - split; [exists q; exact EQ|]. apply Forall_app. split; [exact P1|]. apply Forall_app. split; [exact P2|apply Forall_removelast, P3].
  - split; [exists q; exact EQ|]. rewrite app_nil_r. apply Forall_app. split; [exact P1|apply Forall_removelast, P2].
Qed.

(** ** What is compressed *)
Lemma plain_of m l x q : bytes l -> l = x ++ concat (map question_bytes (m_qd m)) ++ plain_records (m_an m ++ m_ns m ++ m_ar m) -> zlen x = 12 -> bits x = header_bits (m_hdr m) -> msg_ok m ->
  m_qd m = [q] -> Forall plain_rr (m_an m ++ m_ns m ++ m_ar m) -> plain_message l x (qu_name q) (be 2 (qu_type q) ++ be 2 (qu_class q)) (m_an m ++ m_ns m ++ m_ar m).
Proof.
  intros BL EL LX BX (HF & Cqd & Can & Cns & Car & Q & R) EQ P. rewrite EQ in *. cbn [map concat] in EL. rewrite app_nil_r in EL.
  assert (bytes (x ++ question_bytes q ++ plain_records (m_an m ++ m_ns m ++ m_ar m))) as BL' by (rewrite <- EL; exact BL). destruct (header_fields_at _ _ _ BL' LX BX HF) as (F4 & F6 & F8 & F10). rewrite <- EL in F4, F6, F8, F10.
  apply Forall_inv in Q as (SN & _). constructor.
  - exact EL.
  - exact LX.
  - rewrite zlen_app, !zlen_be. reflexivity.
  - rewrite F4, Cqd. reflexivity.
  - rewrite F6, F8, F10, Can, Cns, Car, !zlen_app. lia.
  - exact SN.
  - exact P.
Qed.
Lemma conveys_bare m l : is_msg m l -> msg_ok m -> bytes l -> m_qd m = [] /\ m_an m = [] /\ m_ns m = [] /\ m_ar m = [] -> conveys l m /\ zlen l = 12.
Proof.
  intros I (HF & Cqd & Can & Cns & Car & _) BL (E1 & E2 & E3 & E4). destruct (is_msg_elim _ _ I) as (x & LX & BX & EL). rewrite E1, E2, E3, E4 in *. cbn [map concat app] in EL. unfold plain_records in EL. cbn [map concat] in EL. rewrite app_nil_r in EL. subst l.
  assert (bytes (x ++ [])) as BL' by (rewrite app_nil_r; exact BL). destruct (header_fields_at x [] (m_hdr m) BL' LX BX HF) as (F4 & F6 & F8 & F10). rewrite app_nil_r in F4, F6, F8, F10.
  split; [|exact LX]. exists x, []. rewrite E1, E2, E3, E4. split; [exact LX|]. split; [exact BX|]. split; [|constructor]. apply (exp_none 256 x [] _ 12).
  - lia.
  - rewrite F4, Cqd. reflexivity.
  - constructor.
  - rewrite F6, F8, F10, Can, Cns, Car. reflexivity.
  - cbn [map concat app]. f_equal. rewrite <- LX. symmetry. apply zslice_all.
Qed.
Lemma compress_msg J c d m l : junk_ok J -> holding c l -> zlen l <= 1073741824 -> j_wf d -> j_size d = 1 -> is_msg m l -> msg_ok m -> (exists q, m_qd m = [q]) -> Forall plain_rr (m_an m ++ m_ns m ++ m_ar m) ->
  compress_data J formats0 c d = Fail /\ ~ easy (j_max c) (j_max d) m \/ exists s y, compress_data J formats0 c d = Ok s /\ held (j_max d) s y /\ conveys y m /\ zlen y <= size_of m.
Proof.
  intros HJ HC SM W S1 I OK (q & EQ) P. pose proof (holding_bytes _ _ HC) as BL. destruct (is_msg_elim _ _ I) as (x & LX & BX & EL). pose proof (plain_of m l x q BL EL LX BX OK EQ P) as PM.
  pose proof (compress_agree J c l d HJ HC SM W S1) as A. pose proof (compress_says (j_max c) (j_max d) l _ _ _ _ BL PM) as Y.
  assert (zlen l = size_of m) as SZ by (rewrite EL, zlen_app, LX; reflexivity).
  destruct (l_compress (j_max c) (j_max d) l) as [y|]; cbn [agree yields] in *; [right|left].
  2: { split; [exact A|]. intros (A1 & A2 & A3 & A4). apply Y. rewrite SZ. split; [exact A1|]. split; [exact A2|]. split; [exact (A4 q EQ)|exact A3]. }
  destruct A as (s & E & H). destruct Y as (rs & X & SR & _ & LY & _). exists s, y. split; [exact E|]. split; [exact H|]. split; [|lia].
  exists x, rs. split; [exact LX|]. split; [exact BX|]. rewrite EQ. cbn [map concat]. rewrite app_nil_r. split; [exact X|exact SR].
Qed.

(** ** The loop *)
Lemma drops_none m k : (length (m_ns m) + length (m_ar m) < k)%nat -> m_qd (drops k m) = [].
Proof. intros K. exact (proj1 (PropsPacket.drops_end k m K)). Qed.
Lemma squeeze_step most l m : holding most l -> 14 <= j_max most -> is_msg m l -> state_ok m ->
  exists s' l', squeeze_to_fit most = Ok (Some s') /\ held (j_max most) s' l' /\ is_msg (drop_last m) l' /\ state_ok (drop_last m).
Proof.
  intros H M I OK. destruct (squeeze_ok most l m H M I (proj1 OK)) as (s' & l' & E & H' & I' & OK' & M'). exists s', l'. split; [exact E|]. split; [split; assumption|]. split; [exact I'|]. apply drop_state; assumption.
Qed.
Lemma loop_ok J n : forall most ar l m err, junk_ok J -> holding most l -> 14 <= j_max most <= 1073741824 -> j_wf ar -> j_size ar = 1 -> 12 < j_max ar -> is_msg m l -> state_ok m ->
  exists r, squeeze_loop n J formats0 most ar err = Ok r /\
    match r with
    | ServFail => n = O /\ err = true \/ (0 < n)%nat /\ m_qd (drops n m) <> [] /\ ~ easy (j_max most) (j_max ar) (drops n m)
    | Sent s => n = O /\ err = false /\ s = ar \/
        exists k y, (0 < k <= n)%nat /\ held (j_max ar) s y /\ conveys y (drops k m) /\ (zlen y <= 512 \/ k = n /\ m_qd (drops n m) <> [] /\ zlen y <= size_of (drops n m))
    end.
Proof.
  induction n as [|n IH]; intros most ar l m err HJ HM MM W S1 MA I OK.
  - cbn [squeeze_loop]. eexists. split; [reflexivity|]. destruct err; [left; split; reflexivity|left; split; [reflexivity|split; reflexivity]].
  - cbn [squeeze_loop]. destruct (squeeze_step most l m HM ltac:(lia) I OK) as (most' & l' & -> & (HM' & EM) & I' & OK'). cbn [bind].
    pose proof (hold_facts _ _ HM') as FA. destruct FA as [_ _ LL CL _ _ BL _ _ _ _ _]. rewrite <- LL. rewrite <- EM in MM.
    assert (forall ar' y' err', held (j_max ar) ar' y' -> (err' = true -> m_qd (drop_last m) <> [] /\ ~ easy (j_max most) (j_max ar) (drop_last m)) -> (err' = false -> conveys y' (drop_last m) /\ (zlen y' <= 512 \/ m_qd (drop_last m) <> [] /\ zlen y' <= size_of (drop_last m))) ->
      exists r, squeeze_loop n J formats0 most' ar' err' = Ok r /\
        match r with
        | ServFail => S n = O /\ err = true \/ (0 < S n)%nat /\ m_qd (drops (S n) m) <> [] /\ ~ easy (j_max most) (j_max ar) (drops (S n) m)
        | Sent s => S n = O /\ err = false /\ s = ar \/ exists k y, (0 < k <= S n)%nat /\ held (j_max ar) s y /\ conveys y (drops k m) /\ (zlen y <= 512 \/ k = S n /\ m_qd (drops (S n) m) <> [] /\ zlen y <= size_of (drops (S n) m))
        end) as NEXT.
    { intros ar' y' err' HA' T1 T2. pose proof HA' as (HA & CA). pose proof HA as (W' & S' & _). destruct (IH most' ar' l' (drop_last m) err' HJ HM' MM W' S' ltac:(lia) I' OK') as (r & E & R). exists r. split; [exact E|]. clear IH E. destruct r as [s|].
      - right. destruct R as [(-> & -> & ->)|(k & y & K & H1 & H2 & H3)].
        + exists 1%nat, y'. destruct (T2 eq_refl) as (C1 & C2). split; [lia|]. split; [exact HA'|]. split; [exact C1|]. destruct C2 as [C2|C2]; [left; exact C2|right]. split; [reflexivity|exact C2].
        + rewrite CA in H1. exists (S k), y. split; [lia|]. split; [exact H1|]. split; [exact H2|]. destruct H3 as [H3|(H3 & H4)]; [left; exact H3|right]. split; [lia|exact H4].
      - right. split; [lia|]. destruct R as [(-> & ->)|(_ & R)]; [apply T1; reflexivity|rewrite EM, CA in R; exact R]. }
    destruct OK' as (MO & [((q & EQ) & P)|BARE]).
    + assert (12 < zlen l') as L12.
      { destruct (is_msg_elim _ _ I') as (x & LX & _ & ->). rewrite EQ. cbn [map concat]. rewrite !zlen_app, LX. unfold question_bytes. rewrite !zlen_app, !zlen_be. pose proof (zlen_nonneg (wire (qu_name q))). pose proof (zlen_nonneg (plain_records (m_an (drop_last m) ++ m_ns (drop_last m) ++ m_ar (drop_last m)))). change (zlen (@nil Z)) with 0. lia. }
      replace (12 <? zlen l') with true by lia. destruct (compress_msg J most' ar (drop_last m) l' HJ HM' ltac:(lia) W S1 I' MO (ex_intro _ q EQ) P) as [(-> & NE)|(s & y & -> & HS & CV & LY)].
      * apply (NEXT ar (octets_of ar)); [split; [split; [exact W|split; [exact S1|reflexivity]]|reflexivity]|intros _; split; [rewrite EQ; discriminate|rewrite EM in NE; exact NE]|discriminate].
      * pose proof (fa_len _ _ (hold_facts _ _ (proj1 HS))) as LS. rewrite <- LS. destruct (zlen y <=? 512) eqn:G.
        -- eexists. split; [reflexivity|]. right. exists 1%nat, y. split; [lia|]. split; [exact HS|]. split; [exact CV|]. left. lia.
        -- apply (NEXT s y); [exact HS|discriminate|]. intros _. split; [exact CV|]. right. split; [rewrite EQ; discriminate|exact LY].
    + destruct (conveys_bare _ _ I' MO BL BARE) as (CV & L12). rewrite L12. cbn [Z.ltb Z.eqb Z.compare Pos.compare Pos.compare_cont Pos.eqb].
      destruct (copy_held (j_max most') most' l' (j_max ar) ar (octets_of ar)) as (ar' & -> & HA); [split; [exact HM'|reflexivity]|split; [split; [exact W|split; [exact S1|reflexivity]]|reflexivity]|lia|]. cbn [bind]. change (1 =? JS_ERROR) with false. cbv iota.
      apply (NEXT ar' l'); [exact HA|discriminate|]. intros _. split; [exact CV|]. left. lia.
Qed.
Lemma fit_ok J long most ar l m : junk_ok J -> holding most l -> 14 <= j_max most <= 1073741824 -> j_wf ar -> j_size ar = 1 -> 12 < j_max ar -> is_msg m l -> reply_ok m ->
  exists r, fit J formats0 long most ar = Ok r /\
    match r with
    | ServFail => m_qd (drops 20 m) <> [] /\ ~ easy (j_max most) (j_max ar) (drops 20 m)
    | Sent s => exists k y, (k <= 20)%nat /\ held (j_max ar) s y /\ conveys y (drops k m) /\ (zlen y <= 512 \/ long = true /\ k = O /\ zlen y < 4096 \/ k = 20%nat /\ m_qd (drops 20 m) <> [] /\ zlen y <= size_of (drops 20 m))
    end.
Proof.
  intros HJ HM MM W S1 MA I OK. pose proof (reply_state m OK) as ST. destruct OK as (MO & Q & P & TC). unfold fit.
  assert (forall ar', j_wf ar' -> j_size ar' = 1 -> j_max ar' = j_max ar -> forall err, exists r, squeeze_loop 20 J formats0 most ar' err = Ok r /\
    match r with
    | ServFail => m_qd (drops 20 m) <> [] /\ ~ easy (j_max most) (j_max ar) (drops 20 m)
    | Sent s => exists k y, (k <= 20)%nat /\ held (j_max ar) s y /\ conveys y (drops k m) /\ (zlen y <= 512 \/ long = true /\ k = O /\ zlen y < 4096 \/ k = 20%nat /\ m_qd (drops 20 m) <> [] /\ zlen y <= size_of (drops 20 m))
    end) as LOOP.
  { intros ar' W' S' M' err. destruct (loop_ok J 20 most ar' l m err HJ HM MM W' S' ltac:(lia) I ST) as (r & E & R). exists r. split; [exact E|]. destruct r as [s|].
    - destruct R as [(X & _)|(k & y & K & H1 & H2 & H3)]; [discriminate X|]. rewrite M' in H1. exists k, y. split; [lia|]. split; [exact H1|]. split; [exact H2|]. destruct H3 as [H3|H3]; [left; exact H3|right; right; exact H3].
    - destruct R as [(X & _)|(_ & R)]; [discriminate X|rewrite M' in R; exact R]. }
  destruct (hold_facts _ _ HM) as [_ _ LL CL _ _ BL _ _ _ _ _].
  destruct (compress_msg J most ar m l HJ HM ltac:(lia) W S1 I MO (one_is _ Q) P) as [(-> & _)|(s & y & -> & HS & CV & LY)]; [apply LOOP; trivial|].
  pose proof (fa_len _ _ (hold_facts _ _ (proj1 HS))) as LS. rewrite <- LS. destruct ((zlen y <=? 512) || (long && (zlen y <? 4096))) eqn:G.
  - eexists. split; [reflexivity|]. exists 0%nat, y. split; [lia|]. split; [exact HS|]. split; [exact CV|]. destruct (zlen y <=? 512) eqn:G1; [left; lia|right; left]. cbn [orb] in G. apply andb_true_iff in G as (G2 & G3). split; [exact G2|]. split; [reflexivity|lia].
  - apply LOOP; [apply (proj1 HS)|apply (proj1 HS)|apply (proj2 HS)].
Qed.
