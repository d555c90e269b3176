(** What Deadwood takes over from a reply, for replies made of proper records. *)
From Verif Require Import CBase Bits SpecNames SpecMessage SpecDeadwoodMsg SpecDwStr SpecAnswer SpecReply ModelDwStr ModelDwCompress ModelDwDnsStr ModelDwRecurse ProofDwStr ProofDwCompressSafe ProofDwDecomp ProofMessage ProofDwDnsStr ProofDwRotate ProofDwDnsSafe ProofDwRecurseSafe ProofDwNames.

Lemma in_at_fetch s o v Y : dok s -> in_at s o (num16 v ++ Y) -> 0 <= v < 65536 -> dw_fetch_u16 s o = Ok v.
Proof. intros D (A & B & C & ->) Hv. eapply fetch_mid; [exact D|rewrite C, <- app_assoc; reflexivity|exact Hv]. Qed.
Lemma in_at_con s t o l : con s = con t -> in_at s o l -> in_at t o l.
Proof. intros E (A & B & C & H). exists A, B. rewrite <- E. auto. Qed.

(** A record in its place. *)
Definition rec_at (s : dwstr) (o : Z) (r : rr) : Prop := in_at s o (rr_plain r) /\ rr_fits r /\ proper_rr r.
Definition ow (r : rr) : Z := zlen (wire (rr_owner r)).
Lemma rec_owner s o r : rec_at s o r -> named s o (rr_owner r).
Proof. intros (I & F & ((G & _) & _)). split; [exact G|]. unfold rr_plain in I. exact (in_at_app_l _ _ _ _ I). Qed.
Lemma rec_type s o r : dok s -> rec_at s o r -> dw_fetch_u16 s (o + ow r) = Ok (rr_type r).
Proof. intros D (I & (Ht & _) & _). unfold rr_plain in I. apply in_at_app_r in I. eapply in_at_fetch; eauto. Qed.
Lemma rec_class s o r : dok s -> rec_at s o r -> bytes (rr_meta r) -> dw_fetch_u16 s (o + ow r + 2) = Ok (be16 (rr_meta r) 0).
Proof.
  intros D (I & (_ & Hm & _) & _) B. unfold rr_plain in I. apply in_at_app_r in I. apply in_at_app_r in I. change (zlen (num16 (rr_type r))) with 2 in I. fold (ow r) in I.
  destruct (six _ Hm) as (a & b & c & d & e & f & E). rewrite E in *. assert (byte a /\ byte b) as (Ha & Hb) by (inversion B as [|? ? Ba B']; inversion B' as [|? ? Bb _]; auto). unfold byte in *.
  assert ([a; b; c; d; e; f] = num16 (a * 256 + b) ++ [c; d; e; f]) as E2. { unfold num16. cbn [app]. f_equal; [|f_equal]; lia. }
  assert (be16 [a; b; c; d; e; f] 0 = a * 256 + b) as -> by (unfold be16; reflexivity).
  eapply in_at_fetch; [exact D| |lia]. rewrite E2 in I. rewrite <- app_assoc in I. exact I.
Qed.
Lemma rec_rdlen s o r : dok s -> rec_at s o r -> dw_fetch_u16 s (o + ow r + 8) = Ok (zlen (rdata_plain r)).
Proof.
  intros D (I & (_ & Hm & Hl) & _). unfold rr_plain in I. apply in_at_app_r in I. apply in_at_app_r in I. apply in_at_app_r in I. change (zlen (num16 (rr_type r))) with 2 in I. fold (ow r) in I. rewrite Hm in I.
  replace (o + ow r + 8) with (o + ow r + 2 + 6) by lia. eapply in_at_fetch; [exact D|exact I|]. pose proof (zlen_nonneg (rdata_plain r)). lia.
Qed.
Lemma rec_rdata s o r : dok s -> rec_at s o r -> in_at s (o + ow r + 10) (rdata_plain r).
Proof.
  intros D (I & (_ & Hm & Hl) & _). unfold rr_plain in I. apply in_at_app_r in I. apply in_at_app_r in I. apply in_at_app_r in I. apply in_at_app_r in I. change (zlen (num16 _)) with 2 in I. change (zlen (num16 _)) with 2 in I. fold (ow r) in I. rewrite Hm in I.
  replace (o + ow r + 10) with (o + ow r + 2 + 6 + 2) by lia. exact I.
Qed.
Lemma proper_target r : proper_rr r -> rr_type r = 5 \/ rr_type r = 2 -> rdata_plain r = wire (target r) /\ proper_name (target r).
Proof.
  intros (_ & N & L) Ht. unfold rdata_plain, target. assert (layout (rr_type r) = Some (0, 1%nat, 0)) as E by (destruct Ht as [-> | ->]; reflexivity). rewrite E in L. destruct L as (L1 & L2 & L3).
  destruct (rr_lead r); [|rewrite zlen_cons in L1; pose proof (zlen_nonneg l); lia]. destruct (rr_tail r); [|rewrite zlen_cons in L3; pose proof (zlen_nonneg l); lia].
  destruct (rr_names r) as [|n [|]]; try discriminate L2. cbn [map concat app]. rewrite !app_nil_r. inversion N; auto.
Qed.
Lemma rec_target s o r : dok s -> rec_at s o r -> rr_type r = 5 \/ rr_type r = 2 -> named s (o + ow r + 10) (target r).
Proof. intros D R Ht. pose proof (rec_rdata s o r D R) as I. destruct R as (_ & _ & P). destruct (proper_target r P Ht) as (E & (G & _)). rewrite E in I. split; assumption. Qed.
Lemma rec_range s o r : dok s -> rec_at s o r -> 0 <= o /\ o + zlen (rr_plain r) <= d_len s.
Proof. intros D (I & _). exact (in_at_range _ _ _ D I). Qed.

(** The table of offsets of a section. *)
Definition sec (s : dwstr) (L : list Z) (rs : list rr) : Prop :=
  forall i r, nth_error rs i = Some r -> exists o, rd L (Z.of_nat i * 2) = Ok o /\ rd L (Z.of_nat i * 2 + 1) = Ok (o + ow r) /\ rec_at s o r.
Lemma sec_offs s A rs B : con s = A ++ plain_records rs ++ B -> Forall rr_fits rs -> Forall proper_rr rs -> sec s (offs (zlen A) rs) rs.
Proof.
  intros C F P i r E. apply nth_error_split in E as (l1 & l2 & -> & <-). exists (zlen A + zlen (plain_records l1)). rewrite offs_app. cbn [offs].
  apply Forall_app in F as (_ & F). apply Forall_app in P as (_ & P). inversion F; inversion P; subst.
  assert (zlen (offs (zlen A) l1) = Z.of_nat (length l1) * 2) as Lo by (rewrite zlen_offs; unfold zlen; lia).
  split; [eapply rd_at; [reflexivity|lia]|]. split.
  - change (?X ++ ?a :: ?b :: ?Y) with (X ++ [a] ++ b :: Y). rewrite app_assoc. eapply rd_at; [reflexivity|]. rewrite zlen_app. change (zlen [_]) with 1. lia.
  - split; [|auto]. exists (A ++ plain_records l1), (plain_records l2 ++ B). split; [|rewrite zlen_app; reflexivity]. rewrite C, plain_records_app, plain_records_cons. repeat rewrite <- app_assoc. reflexivity.
Qed.

Definition ty (r : rr) : Z := dwx_rrtype_number (rr_type r).
Lemma nth_error_mid {A} (pre : list A) r rs : nth_error (pre ++ r :: rs) (length pre) = Some r.
Proof. rewrite nth_error_app2 by lia. rewrite Nat.sub_diag. reflexivity. Qed.
Lemma snoc_app {A} (l : list A) x r : l ++ x :: r = (l ++ [x]) ++ r. Proof. rewrite <- app_assoc. reflexivity. Qed.
Lemma length_snoc {A} (l : list A) x : length (l ++ [x]) = S (length l). Proof. rewrite app_length; cbn [length]; lia. Qed.
Lemma of_nat_snoc {A} (l : list A) x : Z.of_nat (length (l ++ [x])) = Z.of_nat (length l) + 1. Proof. rewrite length_snoc. lia. Qed.

Lemma types_loop_ok s L rs : forall pre T0 X T1, dok s -> sec s L (pre ++ rs) -> length X = length rs -> length T0 = length pre ->
  types_loop (length rs) s L (Z.of_nat (length pre)) (T0 ++ X ++ T1) = Ok (T0 ++ map ty rs ++ T1).
Proof.
  induction rs as [|r rs IH]; intros pre T0 X T1 D S EX ET; destruct X as [|x X]; try discriminate EX; cbn [types_loop length map app]; [reflexivity|].
  destruct (S (length pre) r (nth_error_mid _ _ _)) as (o & _ & -> & R). cbn [bind]. rewrite (rec_type _ _ _ D R). cbn [bind]. replace (Z.of_nat (length pre)) with (zlen T0) at 1 by (unfold zlen; lia). rewrite wr_mid. cbn [bind].
  replace (Z.of_nat (length pre) + 1) with (Z.of_nat (length (pre ++ [r]))) by apply of_nat_snoc. fold (ty r). rewrite (snoc_app T0 (ty r) (X ++ T1)). rewrite (IH (pre ++ [r]) (T0 ++ [ty r]) X T1); auto.
  - rewrite <- app_assoc. reflexivity.
  - rewrite <- app_assoc. exact S.
  - rewrite !length_snoc. lia.
Qed.
Lemma retype_ok f ts : forall T0 T1, retype (length ts) f (zlen T0) (T0 ++ ts ++ T1) = Ok (T0 ++ map f ts ++ T1).
Proof.
  induction ts as [|t ts IH]; intros T0 T1; cbn [retype length map app]; [reflexivity|]. erewrite rd_at by reflexivity. cbn [bind]. rewrite wr_mid. cbn [bind]. rewrite (snoc_app T0 (f t)). replace (zlen T0 + 1) with (zlen (T0 ++ [f t])) by (rewrite zlen_app; reflexivity). rewrite IH. rewrite <- app_assoc. reflexivity.
Qed.

(** The types of a section: one entry when there is no record. *)
Definition pad (l : list Z) : list Z := match l with [] => [0] | _ => l end.
Lemma init_types_ok s L rs : dok s -> sec s L rs -> types_loop (Z.to_nat (zlen rs)) s L 0 (init_types (zlen rs)) = Ok (pad (map ty rs)).
Proof.
  intros D S. destruct rs as [|r rs]; [reflexivity|]. unfold init_types. pose proof (zlen_nonneg rs). rewrite zlen_cons. replace (zlen rs + 1 =? 0) with false by lia.
  replace (Z.to_nat (zlen rs + 1)) with (length (r :: rs)) by (cbn [length]; unfold zlen; lia).
  pose proof (types_loop_ok s L (r :: rs) [] [] (zeros (zlen rs + 1)) [] D S) as H1. cbn [app length Z.of_nat] in H1. rewrite !app_nil_r in H1. cbn [length]. rewrite H1; [reflexivity| |reflexivity].
  unfold zeros. rewrite repeat_length. unfold zlen. lia.
Qed.

Section REPLY.
  Variables inp query bail : dwstr.
  Variables q z : name.
  Variable qt : Z.
  Hypothesis Di : dok inp.
  Hypothesis Dq : dok query.
  Hypothesis Db : dok bail.
  Hypothesis Nq : named query 0 q.
  Hypothesis Nz : named bail 0 z.
  Hypothesis Cq : comparable q.
  Hypothesis Cz : comparable z.
  Variable L : list Z.

  Lemma step_facts pre r rs : sec inp L (pre ++ r :: rs) -> exists o, rd L (Z.of_nat (length pre) * 2) = Ok o /\ rd L (Z.of_nat (length pre) * 2 + 1) = Ok (o + ow r) /\ rec_at inp o r /\
    dwx_dname_issame_2dw query 0 inp o = Ok (if same_name q (rr_owner r) then 1 else 0) /\ dw_fetch_u16 inp (o + ow r) = Ok (rr_type r).
  Proof.
    intros S. destruct (S (length pre) r (nth_error_mid _ _ _)) as (o & E1 & E2 & R). exists o. split; [exact E1|]. split; [exact E2|]. split; [exact R|]. split; [|exact (rec_type _ _ _ Di R)].
    apply issame_2dw_ok; auto. exact (rec_owner _ _ _ R).
  Qed.

  Lemma check_ignored rs : forall pre T0 ts, sec inp L (pre ++ rs) -> length T0 = length pre -> length ts = length rs ->
    check_loop (length rs) inp query bail L qt (Z.of_nat (length pre)) (T0 ++ ts) (-1) false (-2) = Ok (T0 ++ map (fun _ => 36) rs).
  Proof.
    induction rs as [|r rs IH]; intros pre T0 ts S E1 E2; destruct ts as [|t ts]; try discriminate E2; cbn [length check_loop map]; [reflexivity|].
    destruct (step_facts _ _ _ S) as (o & Eo & Eo1 & R & Es & Ef). rewrite Eo. cbn [bind]. rewrite Eo1. cbn [bind]. rewrite Es. cbn [bind]. rewrite Ef. cbn [bind]. rewrite same_one. change (0 <=? -2) with false. change (-1 =? 0) with false. change (0 <? -1) with false. rewrite andb_false_r. cbn [andb bind].
    replace (Z.of_nat (length pre)) with (zlen T0) at 1 by (unfold zlen; lia). rewrite wr_mid. cbn [bind]. rewrite <- (of_nat_snoc pre r). rewrite (snoc_app T0 36 ts), (IH (pre ++ [r]) (T0 ++ [36]) ts); auto.
    - rewrite <- app_assoc. reflexivity.
    - rewrite <- app_assoc. exact S.
    - rewrite !length_snoc. lia.
  Qed.

  (** The records that answer the question, once the chain has led to [e]. *)
  Local Notation answers := (SpecReply.answers q qt).
  Lemma check_rest ch e rs : qt <> 5 -> cname_chain q ch e -> Forall (fun r => comparable (target r)) ch -> Forall (fun r => rr_type r <> 5) rs -> forall pre T0 uc off,
    sec inp L (ch ++ pre ++ rs) -> length T0 = length (ch ++ pre) -> 0 <= off ->
    check_loop (length rs) inp query bail L qt (Z.of_nat (length (ch ++ pre))) (T0 ++ map ty rs) (zlen ch) uc off = Ok (T0 ++ map (fun r => if answers e r then ty r else 36) rs).
  Proof.
    intros Hqt Ch Cc Hrs. induction Hrs as [|r rs Hr Hrs IH]; intros pre T0 uc off S E1 Hoff; cbn [length check_loop map]; [reflexivity|].
    rewrite app_assoc in S. destruct (step_facts _ _ _ S) as (o & Eo & Eo1 & R & Es & Ef). rewrite Eo. cbn [bind]. rewrite Eo1. cbn [bind]. rewrite Es. cbn [bind]. rewrite Ef. cbn [bind]. rewrite same_one. replace (0 <=? off) with true by lia. rewrite andb_true_r. replace (rr_type r =? 5) with false by lia. rewrite !andb_false_r.
    assert (forall t', length (T0 ++ [t']) = length (ch ++ pre ++ [r])) as EL by (intros t'; rewrite app_assoc, !length_snoc; lia).
    assert (sec inp L (ch ++ (pre ++ [r]) ++ rs)) as S' by (rewrite <- app_assoc in S; rewrite <- app_assoc; exact S).
    assert (Z.of_nat (length (ch ++ pre)) + 1 = Z.of_nat (length (ch ++ pre ++ [r]))) as EN by (rewrite app_assoc, of_nat_snoc; reflexivity).
    unfold SpecReply.answers at 1. rewrite (same_name_sym (rr_owner r) q). destruct (same_name q (rr_owner r)) eqn:Eq; cbn [andb orb].
    { rewrite andb_true_r. destruct (rr_type r =? qt) eqn:Et.
      - rewrite EN, (snoc_app T0 (ty r)), (IH (pre ++ [r]) (T0 ++ [ty r]) false (off + 1)); auto; [|lia]. rewrite <- app_assoc. reflexivity.
      - assert (exists sc, (if 0 <? zlen ch then t <- rd L ((zlen ch - 1) * 2 + 1);; dwx_dname_issame_dw inp (t + 10) o else Ok 0) = Ok sc) as (sc & ->).
        { destruct (Z.ltb_spec 0 (zlen ch)) as [Hc|]; [|eauto]. destruct (exists_last (l := ch)) as (ch' & c & E); [intros ->; change (zlen (@nil rr)) with 0 in Hc; lia|]. subst ch.
          destruct (S (length ch') c) as (oc & _ & Ec & Rc). { repeat rewrite <- app_assoc. apply nth_error_mid. }
          replace ((zlen (ch' ++ [c]) - 1) * 2 + 1) with (Z.of_nat (length ch') * 2 + 1) by (rewrite zlen_app; change (zlen [c]) with 1; unfold zlen; lia). rewrite Ec. cbn [bind].
          apply Forall_app in Cc as (_ & Cc). inversion Cc; subst. assert (rr_type c = 5) as Tc. { clear -Ch. revert Ch. generalize q. induction ch' as [|x ch' IH]; intros q' Ch; inversion Ch; subst; auto. eapply IH; eauto. }
          eexists. apply (issame_2dw_ok _ _ (target c) _ _ (rr_owner r)); auto; [exact (rec_target _ _ _ Di Rc (or_introl Tc))|exact (rec_owner _ _ _ R)]. }
        cbn [bind]. rewrite !andb_false_r. replace (Z.of_nat (length (ch ++ pre))) with (zlen T0) at 1 by (unfold zlen; lia). rewrite wr_mid. cbn [bind].
        rewrite EN, (snoc_app T0 36), (IH (pre ++ [r]) (T0 ++ [36]) uc off); auto. rewrite <- app_assoc. reflexivity. }
    destruct ch as [|c0 ch0].
    { inversion Ch; subst. change (zlen (@nil rr)) with 0. change (0 <? 0) with false. cbn [bind andb]. rewrite (same_name_sym (rr_owner r)), Eq, andb_false_r.
      replace (Z.of_nat (length ([] ++ pre))) with (zlen T0) at 1 by (unfold zlen; lia). rewrite wr_mid. cbn [bind]. rewrite EN, (snoc_app T0 36). change 0 with (zlen (@nil rr)) at 1. rewrite (IH (pre ++ [r]) (T0 ++ [36]) uc off); auto. rewrite <- app_assoc. reflexivity. }
    set (ch := c0 :: ch0) in *. assert (0 < zlen ch) as Hc by (unfold ch; rewrite zlen_cons; pose proof (zlen_nonneg ch0); lia). replace (0 <? zlen ch) with true by lia.
    assert (exists oc c, rd L ((zlen ch - 1) * 2 + 1) = Ok (oc + ow c) /\ rec_at inp oc c /\ rr_type c = 5 /\ comparable (target c) /\ target c = e) as (oc & c & -> & Rc & Tc & Cmp & Te).
    { clear -Ch Cc S Hc. clearbody ch. destruct (exists_last (l := ch)) as (ch' & c & E); [intros ->; change (zlen (@nil rr)) with 0 in Hc; lia|]. subst ch.
      destruct (S (length ch') c) as (oc & _ & Ec & Rc). { repeat rewrite <- app_assoc. apply nth_error_mid. }
      exists oc, c. split; [rewrite <- Ec; f_equal; rewrite zlen_app; change (zlen [c]) with 1; unfold zlen; lia|]. split; [exact Rc|].
      apply Forall_app in Cc as (_ & Cc). inversion Cc; subst. clear -Ch H1. revert Ch. generalize q. induction ch' as [|x ch' IH]; intros q' Ch; inversion Ch; subst; [|eapply IH; eauto]. inversion H6; subst; auto. }
    cbn [bind]. pose proof (rec_target _ _ _ Di Rc (or_introl Tc)) as Nt. pose proof (rec_owner _ _ _ R) as No. unfold dwx_dname_issame_dw. rewrite (issame_2dw_ok _ _ (target c) _ _ (rr_owner r)) by auto. cbn [bind]. rewrite same_one, Te. replace (qt =? 5) with false by lia. cbn [negb andb]. rewrite andb_false_r. rewrite (same_name_sym (rr_owner r) e).
    rewrite (andb_comm (rr_type r =? qt)). destruct (same_name e (rr_owner r) && (rr_type r =? qt)).
    - rewrite EN, (snoc_app T0 (ty r)), (IH (pre ++ [r]) (T0 ++ [ty r]) false (off + 1)); auto; [|lia]. rewrite <- app_assoc. reflexivity.
    - replace (Z.of_nat (length (ch ++ pre))) with (zlen T0) at 1 by (unfold zlen; lia). rewrite wr_mid. cbn [bind]. rewrite EN, (snoc_app T0 36), (IH (pre ++ [r]) (T0 ++ [36]) uc off); auto. rewrite <- app_assoc. reflexivity.
  Qed.
  Lemma chain_last ch' c : forall q' e, cname_chain q' (ch' ++ [c]) e -> rr_type c = 5 /\ target c = e.
  Proof. induction ch' as [|x ch' IH]; intros q' e Ch; inversion Ch as [|? ? ? ? T1 S1 C1]; subst; [|eapply IH; eauto]. inversion C1; subst; auto. Qed.
  Lemma chain_snoc r ch' : forall q' e, cname_chain q' ch' e -> rr_type r = 5 -> same_name (rr_owner r) e = true -> cname_chain q' (ch' ++ [r]) (target r).
  Proof. induction ch' as [|x ch' IH]; intros q' e Ch Ht Hs; inversion Ch; subst; cbn [app]; constructor; auto; [constructor|]. eapply IH; eauto. Qed.

  Lemma chain_step ch1 mid r rest types : qt <> 5 -> cname_chain q ch1 mid -> rr_type r = 5 -> same_name (rr_owner r) mid = true -> Forall (fun r => comparable (target r)) ch1 -> sec inp L (ch1 ++ r :: rest) ->
    check_loop (S (length rest)) inp query bail L qt (zlen ch1) types (zlen ch1) true (zlen ch1) =
    if below z (target r) then check_loop (length rest) inp query bail L qt (zlen ch1 + 1) types (zlen ch1 + 1) true (zlen ch1 + 1)
    else check_loop (length rest) inp query bail L qt (zlen ch1 + 1) types (-1) false (-2).
  Proof.
    intros Hqt Ch Tr Sr Cc S. cbn [check_loop]. destruct (step_facts _ _ _ S) as (o & Eo & Eo1 & R & Es & Ef). fold (zlen ch1) in Eo, Eo1. rewrite Eo. cbn [bind]. rewrite Eo1. cbn [bind]. rewrite Es. cbn [bind]. rewrite Ef. cbn [bind]. rewrite same_one.
    replace (rr_type r =? qt) with false by lia. rewrite andb_false_r. replace (qt =? 5) with false by lia. rewrite Tr. rewrite !Z.eqb_refl. cbn [negb andb]. rewrite !andb_true_r.
    assert (dwx_string_in_bailiwick inp (o + ow r + 10) bail None = Ok (below z (target r))) as Bw.
    { rewrite (in_bailiwick_ok _ _ (target r) _ z None None); auto; [exact (rec_target _ _ _ Di R (or_introl Tr))|]. destruct R as (_ & _ & P). destruct (proper_target r P (or_introl Tr)) as (_ & (_ & Hl)). lia. }
    destruct ch1 as [|c0 ch0].
    - inversion Ch; subst. change (zlen (@nil rr)) with 0 in *. change (0 =? 0) with true. cbn [andb]. rewrite (same_name_sym mid), Sr. cbn [andb]. change (rd L 1) with (rd L (0 * 2 + 1)). rewrite Eo1. cbn [bind]. rewrite Bw. cbn [bind]. destruct (below z (target r)); reflexivity.
    - set (ch1 := c0 :: ch0) in *. assert (0 < zlen ch1) as Hc by (unfold ch1; rewrite zlen_cons; pose proof (zlen_nonneg ch0); lia). replace (zlen ch1 =? 0) with false by lia. cbn [andb]. replace (0 <? zlen ch1) with true by lia.
      assert (exists oc c, rd L ((zlen ch1 - 1) * 2 + 1) = Ok (oc + ow c) /\ rec_at inp oc c /\ rr_type c = 5 /\ comparable (target c) /\ target c = mid) as (oc & c & -> & Rc & Tc & Cmp & Te).
      { clear -Ch Cc S Hc. clearbody ch1. destruct (exists_last (l := ch1)) as (ch' & c & E); [intros ->; change (zlen (@nil rr)) with 0 in Hc; lia|]. subst ch1.
        destruct (S (length ch') c) as (oc & _ & Ec & Rc). { repeat rewrite <- app_assoc. apply nth_error_mid. }
        exists oc, c. split; [rewrite <- Ec; f_equal; rewrite zlen_app; change (zlen [c]) with 1; unfold zlen; lia|]. split; [exact Rc|].
        apply Forall_app in Cc as (_ & Cc). inversion Cc; subst. destruct (chain_last _ _ _ _ Ch). auto. }
      cbn [bind]. pose proof (rec_target _ _ _ Di Rc (or_introl Tc)) as Nt. pose proof (rec_owner _ _ _ R) as No. unfold dwx_dname_issame_dw. rewrite (issame_2dw_ok _ _ (target c) _ _ (rr_owner r)) by auto. cbn [bind]. rewrite same_one, Te, (same_name_sym mid), Sr. cbn [andb].
      rewrite Bw. cbn [bind]. destruct (below z (target r)); reflexivity.
  Qed.
  Lemma check_chain ch2 : qt <> 5 -> forall ch1 mid e rest types, cname_chain q ch1 mid -> cname_chain mid ch2 e -> Forall (fun r => comparable (target r)) (ch1 ++ ch2) -> Forall (fun r => below z (target r) = true) ch2 -> sec inp L (ch1 ++ ch2 ++ rest) ->
    check_loop (length (ch2 ++ rest)) inp query bail L qt (zlen ch1) types (zlen ch1) true (zlen ch1) =
    check_loop (length rest) inp query bail L qt (zlen (ch1 ++ ch2)) types (zlen (ch1 ++ ch2)) true (zlen (ch1 ++ ch2)).
  Proof.
    intros Hqt. induction ch2 as [|r ch2 IH]; intros ch1 mid e rest types C1 C2 Cc Bl S; [rewrite app_nil_r; reflexivity|]. inversion C2 as [|? ? ? ? Tr Sr C2']; subst. inversion Bl as [|? ? Br Bl']; subst.
    cbn [app length]. rewrite (chain_step ch1 mid r (ch2 ++ rest)); auto; [|apply Forall_app in Cc; apply Cc]. rewrite Br. replace (zlen ch1 + 1) with (zlen (ch1 ++ [r])) by (rewrite zlen_app; reflexivity).
    rewrite (IH (ch1 ++ [r]) (target r) e); auto.
    - rewrite <- app_assoc. reflexivity.
    - eapply chain_snoc; eauto.
    - rewrite <- app_assoc. exact Cc.
    - rewrite <- app_assoc. exact S.
  Qed.

  (** The two ways a chain can go. *)
  Lemma check_inside ch e rest : qt <> 5 -> cname_chain q ch e -> Forall (fun r => comparable (target r)) ch -> Forall (fun r => below z (target r) = true) ch -> Forall (fun r => rr_type r <> 5) rest -> sec inp L (ch ++ rest) ->
    check_loop (length (ch ++ rest)) inp query bail L qt 0 (map ty (ch ++ rest)) 0 true 0 = Ok (map ty ch ++ map (fun r => if answers e r then ty r else 36) rest).
  Proof.
    intros Hqt Ch Cc Bl Hr S. pose proof (check_chain ch Hqt [] q e rest (map ty (ch ++ rest)) (chain_nil q) Ch Cc Bl S) as E. change (zlen (@nil rr)) with 0 in E. rewrite E. cbn [app]. rewrite map_app.
    pose proof (check_rest ch e rest Hqt Ch Cc Hr [] (map ty ch) true (zlen ch) S) as E2. rewrite app_nil_r in E2. apply E2; [apply map_length|apply zlen_nonneg].
  Qed.
  Lemma check_outside ch e c rest : qt <> 5 -> cname_chain q ch e -> Forall (fun r => comparable (target r)) ch -> Forall (fun r => below z (target r) = true) ch ->
    rr_type c = 5 -> same_name (rr_owner c) e = true -> below z (target c) = false -> sec inp L (ch ++ c :: rest) ->
    check_loop (length (ch ++ c :: rest)) inp query bail L qt 0 (map ty (ch ++ c :: rest)) 0 true 0 = Ok (map ty (ch ++ [c]) ++ map (fun _ => 36) rest).
  Proof.
    intros Hqt Ch Cc Bl Tc Sc Bc S. pose proof (check_chain ch Hqt [] q e (c :: rest) (map ty (ch ++ c :: rest)) (chain_nil q) Ch Cc Bl S) as E. change (zlen (@nil rr)) with 0 in E. rewrite E. cbn [app length]. rewrite (chain_step ch e c rest); auto. rewrite Bc.
    pose proof (check_ignored rest (ch ++ [c]) (map ty (ch ++ [c])) (map ty rest)) as E2. rewrite <- app_assoc in E2. specialize (E2 S (map_length _ _) (map_length _ _)). rewrite of_nat_snoc in E2. unfold zlen at 1. rewrite <- E2. f_equal. rewrite (snoc_app ch), map_app. reflexivity.
  Qed.
End REPLY.

(** ** Copying records *)
Lemma in_at_slice s o l : in_at s o l -> zslice (con s) o (zlen l) = l.
Proof. intros (A & B & C & ->). rewrite C. rewrite zslice_app_r by (rewrite ?zlen_app; pose proof (zlen_nonneg l); pose proof (zlen_nonneg B); lia). rewrite Z.sub_diag, zslice_app_l by (pose proof (zlen_nonneg l); lia). apply zslice_all. Qed.
Lemma dn_end_named s o n : dok s -> named s o n -> zlen n < 200 -> dw_get_dn_end s o = Ok (o + zlen (wire n)).
Proof.
  intros D (G & I) Hl. unfold dw_get_dn_end. rewrite (dok_sane _ D). cbn [negb]. pose proof (in_at_range _ _ _ D I). apply dn_end_ok; auto; [lia|exact (in_at_slice _ _ _ I)|lia|unfold zlen in Hl; lia].
Qed.
Lemma in_at_bytes s o l : dok s -> in_at s o l -> bytes l.
Proof. intros D (A & B & C & _). pose proof (bytes_con s ltac:(auto)) as Bc. rewrite C in Bc. apply bytes_app in Bc as (_ & Bc). apply bytes_app in Bc as (Bc & _). exact Bc. Qed.
Lemma rec_meta_bytes s o r : dok s -> rec_at s o r -> bytes (rr_meta r).
Proof. intros D (I & _). apply (in_at_bytes _ _ _ D) in I. unfold rr_plain in I. apply bytes_app in I as (_ & I). apply bytes_app in I as (_ & I). apply bytes_app in I as (I & _). exact I. Qed.
Lemma class_in_be r : zlen (rr_meta r) = 6 -> bytes (rr_meta r) -> (be16 (rr_meta r) 0 =? 1) = class_in r.
Proof.
  intros Hm B. unfold class_in, rr_class. destruct (six _ Hm) as (a & b & c & d & e & f & E). rewrite E in *. change (zslice [a; b; c; d; e; f] 0 2) with [a; b]. change (be16 [a; b; c; d; e; f] 0) with (a * 256 + b).
  inversion B as [|? ? Ba B']; inversion B' as [|? ? Bb _]; subst. unfold byte in *. cbn [zlist_eqb]. destruct (Z.eqb_spec a 0), (Z.eqb_spec b 1); cbn [andb]; lia.
Qed.
Lemma get_rr_ok J s o r : junk_ok J -> dok s -> rec_at s o r -> d_len s < 1000000 ->
  exists t, dwx_get_1_dns_rr J s o = Ok (if class_in r then Some t else None) /\ dok t /\ con t = rr_plain r /\ d_len t = zlen (rr_plain r).
Proof.
  intros HJ D R Hs. pose proof (rec_range _ _ _ D R) as Rg. pose proof R as (I & F & P). pose proof (zlen_rr_plain r F) as Lr. pose proof (zlen_wire_pos (rr_owner r)) as Lw. pose proof (zlen_nonneg (rdata_plain r)).
  destruct (dw_substr_ok J s o (zlen (rr_plain r)) 1 HJ D) as (t & E & Dt & Ct & _ & Lt); try lia. exists t. split; [|split; [exact Dt|split; [rewrite Ct; exact (in_at_slice _ _ _ I)|exact Lt]]].
  unfold dwx_get_1_dns_rr. replace ((o <? 0) || (d_len s <? o)) with false by lia. rewrite (dn_end_named _ _ (rr_owner r) D (rec_owner _ _ _ R)) by (destruct P as ((_ & Hl) & _); lia). cbn [bind]. fold (ow r).
  replace ((o + ow r =? -1) || (o + ow r <? o)) with false by (unfold ow; lia). rewrite (rec_class _ _ _ D R (rec_meta_bytes _ _ _ D R)). cbn [bind]. rewrite class_in_be by (try apply F; exact (rec_meta_bytes _ _ _ D R)).
  destruct (class_in r); cbn [negb]; [|reflexivity]. rewrite (rec_rdlen _ _ _ D R). cbn [bind]. cbv zeta. replace (zlen (rdata_plain r) <? 0) with false by lia. replace (o + ow r + (10 + zlen (rdata_plain r)) <=? o) with false by (unfold ow; lia).
  replace (o + ow r + (10 + zlen (rdata_plain r)) - o) with (zlen (rr_plain r)) by (unfold ow; lia). exact E.
Qed.

(** The records whose mark is not "ignore" (36) or "out of bailiwick" (37). *)
Fixpoint kept (ts : list Z) (rs : list rr) : list rr :=
  match ts, rs with t :: ts, r :: rs => if (t =? 36) || (t =? 37) then kept ts rs else r :: kept ts rs | _, _ => [] end.
Lemma kept_len rs : forall ts, zlen (kept ts rs) <= zlen rs /\ zlen (plain_records (kept ts rs)) <= zlen (plain_records rs).
Proof.
  induction rs as [|r rs IH]; intros [|t ts]; cbn [kept]; try (split; [pose proof (zlen_nonneg (r :: rs)); rewrite ?zlen_nil; lia|]); rewrite ?plain_records_cons, ?zlen_app; change (zlen (plain_records [])) with 0; try (pose proof (zlen_nonneg (rr_plain r)); pose proof (zlen_nonneg (plain_records rs)); lia).
  - rewrite zlen_nil. lia.
  - rewrite zlen_nil. lia.
  - destruct (IH ts) as (H1 & H2). pose proof (zlen_nonneg (rr_plain r)). destruct (_ || _); rewrite ?plain_records_cons, ?zlen_cons, ?zlen_app; lia.
Qed.
Lemma kept_forall (P : rr -> Prop) rs : forall ts, Forall P rs -> Forall P (kept ts rs).
Proof. induction rs as [|r rs IH]; intros [|t ts] F; cbn [kept]; try constructor. inversion F; subst. destruct (_ || _); [|constructor]; auto. Qed.

Lemma copy_section_ok J p L mx rs : junk_ok J -> dok p -> d_len p < 1000000 -> forall ts pre T0 T1 out F X oc, sec p L (pre ++ rs) -> length ts = length rs -> length T0 = length pre -> dok out ->
  2 * zlen rs <= zlen X -> zlen F + zlen X <= mx -> d_len out + zlen (plain_records (kept ts rs)) < d_max out -> d_len out + zlen (plain_records (kept ts rs)) < 65536 -> Forall rr_fits rs ->
  if forallb class_in (kept ts rs) then
    exists out' X', copy_section (length rs) J out p (T0 ++ ts ++ T1) L (Z.of_nat (length pre)) (F ++ X) oc (zlen F) mx = Ok (out', (F ++ offs (d_len out) (kept ts rs)) ++ X', oc + zlen (kept ts rs), zlen (F ++ offs (d_len out) (kept ts rs))) /\
      dok out' /\ con out' = con out ++ plain_records (kept ts rs) /\ d_max out' = d_max out /\ zlen X' = zlen X - 2 * zlen (kept ts rs)
  else copy_section (length rs) J out p (T0 ++ ts ++ T1) L (Z.of_nat (length pre)) (F ++ X) oc (zlen F) mx = Fail.
Proof.
  intros HJ D Hs. induction rs as [|r rs IH]; intros ts pre T0 T1 out F X oc S Et E0 Do HX Hmx Hroom H16 Fit; destruct ts as [|t ts]; try discriminate Et; cbn [length copy_section kept forallb].
  - exists out, X. cbn [offs]. rewrite !app_nil_r. change (zlen (@nil rr)) with 0. rewrite !Z.add_0_r. split; [reflexivity|]. split; [exact Do|]. split; [reflexivity|]. split; [reflexivity|lia].
  - injection Et as Et. inversion Fit as [|? ? Fr Fit']; subst. erewrite rd_at; [|reflexivity|unfold zlen; lia]. cbn [bind]. rewrite <- (of_nat_snoc pre r). cbn [kept] in Hroom, H16. rewrite zlen_cons in HX.
    assert (sec p L ((pre ++ [r]) ++ rs)) as S' by (rewrite <- app_assoc; exact S).
    cbn [app]. rewrite (snoc_app T0 t (ts ++ T1)). destruct ((t =? 36) || (t =? 37)) eqn:Ei.
    { specialize (IH ts (pre ++ [r]) (T0 ++ [t]) T1 out F X oc S' Et ltac:(rewrite !length_snoc; lia) Do ltac:(lia) Hmx Hroom H16 Fit'). exact IH. }
    cbn [forallb]. rewrite plain_records_cons, zlen_app in Hroom, H16. pose proof (zlen_nonneg (plain_records (kept ts rs))).
    destruct (S (length pre) r (nth_error_mid _ _ _)) as (o & Eo & Eo1 & R). rewrite Eo. cbn [bind]. destruct (get_rr_ok J p o r HJ D R Hs) as (tmp & Eg & Dt & Ct & Lt). rewrite Eg. cbn [bind]. destruct (class_in r) eqn:Ec; cbn [andb]; [|reflexivity].
    destruct X as [|x1 [|x2 X]]; [change (zlen (@nil Z)) with 0 in HX; pose proof (zlen_nonneg rs); lia|change (zlen [x1]) with 1 in HX; pose proof (zlen_nonneg rs); lia|]. rewrite !zlen_cons in HX, Hmx. pose proof (zlen_nonneg X).
    replace (mx <? zlen F + 1) with false by lia. rewrite Eo1. cbn [bind]. rewrite wr_mid. cbn [bind]. rewrite (snoc_app F _ (x2 :: X)). replace (zlen F + 1) with (zlen (F ++ [u16 (d_len out)])) by (rewrite zlen_app; reflexivity). rewrite wr_mid. cbn [bind].
    destruct (dw_append_ok tmp out Dt Do ltac:(lia)) as (out1 & Ea & D1 & C1 & M1). rewrite Ea. cbn [bind]. change (0 =? -1) with false. cbv iota.
    assert (d_len out1 = d_len out + zlen (rr_plain r)) as L1. { rewrite <- (zlen_con out1) by auto. rewrite C1, zlen_app, Ct, zlen_con by auto. reflexivity. }
    pose proof (zlen_rr_plain r Fr) as Lr. pose proof (zlen_wire_pos (rr_owner r)). pose proof (zlen_nonneg (rdata_plain r)). pose proof Do as [[_ ? _ _] _].
    replace (u16 (d_len out)) with (d_len out) by (unfold u16; lia). replace (o + ow r - o) with (ow r) by lia. replace (u16 (d_len out + ow r)) with (d_len out + ow r) by (unfold u16, ow in *; lia).
    set (F' := F ++ [d_len out; d_len out + ow r]). assert ((F ++ [d_len out]) ++ (d_len out + ow r) :: X = F' ++ X) as -> by (unfold F'; rewrite <- !app_assoc; reflexivity).
    assert (zlen F + 2 = zlen F') as -> by (unfold F'; rewrite zlen_app; reflexivity).
    specialize (IH ts (pre ++ [r]) (T0 ++ [t]) T1 out1 F' X (oc + 1) S' Et ltac:(rewrite !length_snoc; lia) D1 ltac:(lia) ltac:(unfold F'; rewrite zlen_app; change (zlen [d_len out; d_len out + ow r]) with 2; lia) ltac:(lia) ltac:(lia) Fit').
    destruct (forallb class_in (kept ts rs)); [|exact IH]. destruct IH as (out' & X' & E & D' & C' & M' & LX). exists out', X'. cbn [offs]. fold (ow r).
    assert (F ++ d_len out :: d_len out + ow r :: offs (d_len out + zlen (rr_plain r)) (kept ts rs) = F' ++ offs (d_len out1) (kept ts rs)) as -> by (unfold F'; rewrite <- app_assoc, L1; reflexivity).
    split; [rewrite E, zlen_cons; replace (oc + 1 + zlen (kept ts rs)) with (oc + (zlen (kept ts rs) + 1)) by lia; reflexivity|]. split; [exact D'|]. split; [rewrite C', C1, Ct, plain_records_cons, <- app_assoc; reflexivity|]. split; [lia|]. rewrite !zlen_cons. lia.
Qed.

(** ** Putting the answer together *)
Lemma push_num s v : dok s -> 0 <= v < 65536 -> d_len s + 2 < d_max s -> exists s', dw_push_u16 v s = Ok (0, s') /\ dok s' /\ con s' = con s ++ num16 v /\ d_max s' = d_max s /\ d_len s' = d_len s + 2.
Proof.
  intros D Hv Hl. destruct (dw_push_u16_ok s v D Hl) as (s' & E & D' & C & M). exists s'. rewrite <- u16be_num16 by exact Hv. split; [exact E|]. split; [exact D'|]. split; [exact C|]. split; [exact M|].
  rewrite <- (zlen_con s') by auto. rewrite C, zlen_app, zlen_con by auto. reflexivity.
Qed.
Lemma push_char s c : dok s -> byte c -> d_len s + 1 < d_max s -> exists s', dw_addchar c s = Ok (0, s') /\ dok s' /\ con s' = con s ++ [c] /\ d_max s' = d_max s /\ d_len s' = d_len s + 1.
Proof.
  intros D Hv Hl. destruct (dw_addchar_ok s c D Hv Hl) as (s' & E & D' & C & M). exists s'. split; [exact E|]. split; [exact D'|]. split; [exact C|]. split; [exact M|].
  rewrite <- (zlen_con s') by auto. rewrite C, zlen_app, zlen_con by auto. reflexivity.
Qed.
Lemma push_offsets_ok l : forall P Q out, dok out -> Forall (fun v => 0 <= v < 65536) l -> d_len out + 2 * zlen l < d_max out ->
  exists out', push_offsets (length l) (P ++ l ++ Q) (zlen P) out = Ok out' /\ dok out' /\ con out' = con out ++ flat16 l /\ d_max out' = d_max out /\ d_len out' = d_len out + 2 * zlen l.
Proof.
  induction l as [|v l IH]; intros P Q out D F Hl; cbn [length push_offsets].
  - exists out. change (flat16 []) with (@nil Z). change (zlen (@nil Z)) with 0. rewrite app_nil_r. split; [reflexivity|]. split; [exact D|]. split; [reflexivity|]. split; [reflexivity|lia].
  - inversion F as [|? ? Hv F']; subst. rewrite zlen_cons in Hl. pose proof (zlen_nonneg l). erewrite rd_at by reflexivity. cbn [bind]. destruct (push_num out v D Hv ltac:(lia)) as (o1 & -> & D1 & C1 & M1 & L1). cbn [bind]. change (0 =? -1) with false. cbv iota.
    cbn [app]. rewrite (snoc_app P v (l ++ Q)). replace (zlen P + 1) with (zlen (P ++ [v])) by (rewrite zlen_app; reflexivity).
    destruct (IH (P ++ [v]) Q o1 D1 F' ltac:(lia)) as (o2 & -> & D2 & C2 & M2 & L2). exists o2. split; [reflexivity|]. split; [exact D2|]. split; [rewrite C2, C1, <- app_assoc; reflexivity|]. split; [lia|]. rewrite zlen_cons. lia.
Qed.
Lemma footer_ok out l Q a b c t : dok out -> Forall (fun v => 0 <= v < 65536) l -> zlen l = 2 * (a + b + c) -> 0 <= a < 65536 -> 0 <= b < 65536 -> 0 <= c < 65536 -> byte t -> d_len out + 2 * zlen l + 7 < d_max out ->
  exists out', dwx_remake_footer out (l ++ Q) a b c t = Ok out' /\ dok out' /\ con out' = con out ++ flat16 l ++ num16 a ++ num16 b ++ num16 c ++ [t] /\ d_len out' = d_len out + 2 * zlen l + 7.
Proof.
  intros D F Hl Ha Hb Hc Ht Hr. unfold dwx_remake_footer. replace (Z.to_nat ((a + b + c) * 2)) with (length l) by (unfold zlen in Hl; lia).
  destruct (push_offsets_ok l [] Q out D F ltac:(lia)) as (o1 & E1 & D1 & C1 & M1 & L1). cbn [app] in E1. change (zlen (@nil Z)) with 0 in E1. rewrite E1. cbn [bind].
  destruct (push_num o1 a D1 Ha ltac:(lia)) as (o2 & -> & D2 & C2 & M2 & L2). cbn [bind]. change (0 =? -1) with false. cbv iota.
  destruct (push_num o2 b D2 Hb ltac:(lia)) as (o3 & -> & D3 & C3 & M3 & L3). cbn [bind]. change (0 =? -1) with false. cbv iota.
  destruct (push_num o3 c D3 Hc ltac:(lia)) as (o4 & -> & D4 & C4 & M4 & L4). cbn [bind]. change (0 =? -1) with false. cbv iota.
  destruct (push_char o4 t D4 Ht ltac:(lia)) as (o5 & -> & D5 & C5 & M5 & L5). cbn [bind]. change (0 =? -1) with false. cbv iota.
  exists o5. split; [reflexivity|]. split; [exact D5|]. split; [|lia]. rewrite C5, C4, C3, C2, C1. repeat rewrite <- app_assoc. reflexivity.
Qed.

(** The view of a reply, and the answer made from it. *)
Definition look_of (p : dwstr) (an ns ar : list rr) (t : Z) : dnsstr := mkdns (Some p) (offs 0 an) (offs (nsoff an) ns) (offs (aroff an ns) ar) (zlen an) (zlen ns) (zlen ar) t.
Definition view_of (p : dwstr) (an ns ar : list rr) (t : Z) (ta tn tr : list Z) : details := mkdet (look_of p an ns ar t) (pad ta) (pad tn) (pad tr).

Section HOLDS.
  Variables Jo J : Z -> Z.
  Hypothesis HJo : junk_ok Jo.
  Hypothesis HJ : junk_ok J.
  Variables inp : dwstr.
  Variables an ns ar : list rr.
  Variable t : Z.
  Hypothesis H : holds inp an ns ar t.
  Hypothesis Pr : Forall proper_rr (an ++ ns ++ ar).

  Lemma fits3 : Forall rr_fits an /\ Forall rr_fits ns /\ Forall rr_fits ar /\ Forall proper_rr an /\ Forall proper_rr ns /\ Forall proper_rr ar.
  Proof. pose proof (h_fits _ _ _ _ _ H) as F. apply Forall_app in F as (F1 & F). apply Forall_app in F as (F2 & F3). pose proof Pr as P. apply Forall_app in P as (P1 & P). apply Forall_app in P as (P2 & P3). auto 10. Qed.
  Lemma secs p : con p = con inp -> sec p (offs 0 an) an /\ sec p (offs (nsoff an) ns) ns /\ sec p (offs (aroff an ns) ar) ar.
  Proof.
    intros C. destruct fits3 as (F1 & F2 & F3 & P1 & P2 & P3). rewrite (h_con _ _ _ _ _ H) in C. unfold answer in C. rewrite !plain_records_app in C. repeat rewrite <- app_assoc in C. split; [|split].
    - change 0 with (zlen (@nil Z)). eapply sec_offs; auto. rewrite C. reflexivity.
    - unfold nsoff. eapply sec_offs; auto. exact C.
    - unfold aroff. rewrite <- zlen_app. eapply sec_offs; auto. rewrite C, <- app_assoc. reflexivity.
  Qed.
  Lemma create_details_ok : an ++ ns ++ ar <> [] -> exists p, dwx_create_dns_details J inp = Ok (view_of p an ns ar t (map ty an) (map ty ns) (map ty ar)) /\ dok p /\ con p = con inp /\ d_len p = d_len inp.
  Proof.
    intros Hne. destruct (make_dns_str_ok J HJ inp an ns ar t H Hne) as (p & E & Dp & Cp & Lp). exists p. split; [|auto]. unfold dwx_create_dns_details. rewrite E. cbn [bind n_ancount n_nscount n_arcount n_an n_ns n_ar].
    destruct (secs inp eq_refl) as (S1 & S2 & S3). pose proof (h_ok _ _ _ _ _ H) as D. rewrite (init_types_ok _ _ an D S1). cbn [bind]. rewrite (init_types_ok _ _ ns D S2). cbn [bind]. rewrite (init_types_ok _ _ ar D S3). reflexivity.
  Qed.
  Lemma create_details_empty : an ++ ns ++ ar = [] -> dwx_create_dns_details J inp = Fail.
  Proof.
    intros E. apply app_eq_nil in E as (E1 & E). apply app_eq_nil in E as (E2 & E3). unfold dwx_create_dns_details. pose proof H as H'. rewrite E1, E2, E3 in H'. rewrite (make_dns_str_empty J inp t H'). reflexivity.
  Qed.

  Lemma pad_app ts rs : length ts = length (rs : list rr) -> exists T1, pad ts = [] ++ ts ++ T1.
  Proof. intros E. destruct ts as [|x ts]; [exists [0]; reflexivity|exists []; cbn [app pad]; rewrite app_nil_r; reflexivity]. Qed.
  Lemma nat_zlen {A} (l : list A) : Z.to_nat (zlen l) = length l. Proof. unfold zlen. lia. Qed.
  Lemma remake_ok p ta tn tr t' : dok p -> con p = con inp -> d_len p = d_len inp -> length ta = length an -> length tn = length ns -> length tr = length ar -> 0 <= t' <= 2 ->
    let ka := kept ta an in let kn := kept tn ns in let kr := kept tr ar in
    if forallb class_in (ka ++ kn ++ kr) then exists out, dwx_remake_complete_reply Jo J (view_of p an ns ar t ta tn tr) t' = Ok out /\ holds out ka kn kr t'
    else dwx_remake_complete_reply Jo J (view_of p an ns ar t ta tn tr) t' = Fail.
  Proof.
    intros Dp Cp Lp Ea En Er Ht' ka kn kr. destruct fits3 as (F1 & F2 & F3 & P1 & P2 & P3). destruct (secs p Cp) as (S1 & S2 & S3). pose proof (holds_len _ _ _ _ _ H) as Lh. pose proof (h_len _ _ _ _ _ H) as H16. rewrite !plain_records_app, !zlen_app in Lh.
    destruct (kept_len an ta) as (K1 & K1'). destruct (kept_len ns tn) as (K2 & K2'). destruct (kept_len ar tr) as (K3 & K3'). fold ka in K1, K1'. fold kn in K2, K2'. fold kr in K3, K3'.
    pose proof (zlen_nonneg an). pose proof (zlen_nonneg ns). pose proof (zlen_nonneg ar). pose proof (zlen_nonneg ka). pose proof (zlen_nonneg kn). pose proof (zlen_nonneg kr). pose proof (zlen_nonneg (plain_records ka)). pose proof (zlen_nonneg (plain_records kn)). pose proof (zlen_nonneg (plain_records kr)).
    unfold dwx_remake_complete_reply, view_of, look_of. cbn [v_look v_an v_ns v_ar n_packet n_ancount n_nscount n_arcount n_an n_ns n_ar]. cbv zeta.
    destruct (dw_create_ok Jo (d_len p + 1) HJo ltac:(lia)) as (out & -> & Wo & L0 & M0). assert (dok out) as Do by (split; [exact Wo|lia]). assert (con out = []) as C0 by (apply con_nil; assumption).
    set (tot := (zlen an + zlen ns + zlen ar) * 2). assert (zlen (zeros tot) = tot) as Lz by (apply zlen_zeros; lia). rewrite !nat_zlen.
    destruct (pad_app ta an Ea) as (A1 & ->). destruct (pad_app tn ns En) as (N1 & ->). destruct (pad_app tr ar Er) as (R1 & ->).
    rewrite !forallb_app. change (zeros tot) with ([] ++ zeros tot). change 0 with (Z.of_nat (length (@nil rr))) at 1 2 3 4 5 6 7 8.
    pose proof (copy_section_ok J p (offs 0 an) tot an HJ Dp ltac:(lia) ta [] [] A1 out [] (zeros tot) 0 S1 Ea eq_refl Do ltac:(rewrite Lz; lia) ltac:(change (zlen (@nil Z)) with 0; lia)) as Q1. fold ka in Q1. specialize (Q1 ltac:(lia) ltac:(lia) F1). change (zlen (@nil Z)) with 0 in Q1. cbn [app length Z.of_nat] in Q1 |- *.
    destruct (forallb class_in ka); cbn [andb]; [|rewrite Q1; reflexivity]. destruct Q1 as (o1 & X1 & -> & D1 & C1 & M1 & LX1). cbn [bind]. rewrite L0 in *. cbn [app].
    assert (d_len o1 = zlen (plain_records ka)) as L1 by (rewrite <- (zlen_con o1) by auto; rewrite C1, C0; reflexivity).
    pose proof (zlen_offs ka 0) as LF1.
    pose proof (copy_section_ok J p (offs (nsoff an) ns) tot ns HJ Dp ltac:(lia) tn [] [] N1 o1 (offs 0 ka) X1 0 S2 En eq_refl D1 ltac:(lia) ltac:(lia)) as Q2. fold kn in Q2. specialize (Q2 ltac:(lia) ltac:(lia) F2). cbn [app length Z.of_nat] in Q2.
    destruct (forallb class_in kn); cbn [andb]; [|rewrite Q2; reflexivity]. destruct Q2 as (o2 & X2 & -> & D2 & C2 & M2 & LX2). cbn [bind].
    assert (d_len o2 = zlen (plain_records ka) + zlen (plain_records kn)) as L2 by (rewrite <- (zlen_con o2) by auto; rewrite C2, zlen_app, zlen_con by auto; lia).
    pose proof (zlen_offs kn (d_len o1)) as LF2.
    pose proof (copy_section_ok J p (offs (aroff an ns) ar) tot ar HJ Dp ltac:(lia) tr [] [] R1 o2 (offs 0 ka ++ offs (d_len o1) kn) X2 0 S3 Er eq_refl D2 ltac:(lia) ltac:(rewrite zlen_app; lia)) as Q3. fold kr in Q3. specialize (Q3 ltac:(lia) ltac:(lia) F3). cbn [app length Z.of_nat] in Q3.
    destruct (forallb class_in kr); cbn [andb]; [|rewrite Q3; reflexivity]. destruct Q3 as (o3 & X3 & -> & D3 & C3 & M3 & LX3). cbn [bind].
    assert (d_len o3 = zlen (plain_records ka) + zlen (plain_records kn) + zlen (plain_records kr)) as L3 by (rewrite <- (zlen_con o3) by auto; rewrite C3, zlen_app, zlen_con by auto; lia).
    assert ((offs 0 ka ++ offs (d_len o1) kn) ++ offs (d_len o2) kr = offs 0 (ka ++ kn ++ kr)) as Eo. { rewrite !offs_app, !Z.add_0_l, L1, L2, <- app_assoc. reflexivity. }
    rewrite Eo. rewrite !Z.add_0_l. replace (u16 (zlen ka)) with (zlen ka) by (unfold u16; lia). replace (u16 (zlen kn)) with (zlen kn) by (unfold u16; lia). replace (u16 (zlen kr)) with (zlen kr) by (unfold u16; lia).
    assert (Forall rr_fits (ka ++ kn ++ kr)) as Fk by (repeat (apply Forall_app; split); apply kept_forall; assumption).
    destruct (footer_ok o3 (offs 0 (ka ++ kn ++ kr)) X3 (zlen ka) (zlen kn) (zlen kr) t' D3) as (o4 & -> & D4 & C4 & L4); try lia.
    - apply offs_range; [lia|rewrite !plain_records_app, !zlen_app; lia|exact Fk].
    - rewrite zlen_offs, !zlen_app. lia.
    - unfold byte. lia.
    - rewrite zlen_offs, !zlen_app. lia.
    - exists o4. split; [reflexivity|]. rewrite zlen_offs, !zlen_app in L4. constructor; auto; [|lia].
      rewrite C4, C3, C2, C1, C0. unfold answer. rewrite offset_table_offs, !plain_records_app. repeat rewrite <- app_assoc. reflexivity.
  Qed.
End HOLDS.
