(** Proofs about ModelDwTcp: histories. *)
From Verif Require Import CBase Bits SpecNames SpecMessage SpecQuery SpecDwStr SpecAcl ModelDwStr ModelDwSys ModelDwUdp ModelDwTcp SpecTcp ProofDwStr ProofDwDname ProofDwSys ProofDwUdp ProofDwDecomp ProofMessage ProofDwTcp.

(** *** After the query has been read, or the connection closed *)
Lemma over_get cf e w : over w -> tcp_get_wanted cf e w = Ok w.
Proof.
  intros [H| H]; unfold tcp_get_wanted.
  - replace (tc_state (tw_c w) =? 0) with false by lia. rewrite andb_false_r. reflexivity.
  - rewrite H. reflexivity.
Qed.
Lemma over_process J cf e w : over w -> tcp_process_data J cf e w = Ok w.
Proof.
  intros [H| H]; unfold tcp_process_data.
  - replace (tc_state (tw_c w) =? 0) with false by lia. rewrite orb_true_r. reflexivity.
  - rewrite H. reflexivity.
Qed.
Lemma over_tick J cf e w : over w -> tcp_handle_all J cf e w = tcp_rest J cf e w.
Proof. intros H. rewrite handle_all_rest, over_get by exact H. cbn [bind]. rewrite over_process by exact H. reflexivity. Qed.

Definition same_query (w w' : tworld) : Prop := over w' /\ tw_cin w' = tw_cin w /\ tw_query w' = tw_query w.
Lemma same_refl w : over w -> same_query w w.
Proof. unfold same_query. auto. Qed.
Lemma same_trans a b c : same_query a b -> same_query b c -> same_query a c.
Proof. intros (_ & A & B) (C & D & E). split; [exact C|]. split; congruence. Qed.
Lemma same_close w : same_query w (close_local w).
Proof. split; [right; reflexivity|]. split; reflexivity. Qed.
Lemma same_close2 w : same_query w (close_both w).
Proof. split; [right; reflexivity|]. split; reflexivity. Qed.
Lemma Ok_inj {A} (a b : A) : Ok a = Ok b -> a = b.
Proof. intros [=]. assumption. Qed.
Ltac dres := repeat match goal with
  | H : bind ?m _ = Ok _ |- _ => destruct m as [?| |?] eqn:?; cbn [bind] in H; [|discriminate H|discriminate H]
  | H : (if ?b then _ else _) = Ok _ |- _ => destruct b eqn:?
  | H : (let '(_, _) := ?p in _) = Ok _ |- _ => destruct p as [? ?] eqn:?
  | H : match ?o with Some _ => _ | None => _ end = Ok _ |- _ => destruct o as [?|] eqn:?
  | H : match ?o with [] => _ | _ :: _ => _ end = Ok _ |- _ => destruct o as [|? ?] eqn:?
  | H : Bad _ = Ok _ |- _ => discriminate H
  | H : Ok _ = Ok _ |- _ => apply Ok_inj in H; subst
  end.

Lemma over_send cf e w w' : over w -> tcp_send_wanted cf e w = Ok w' -> same_query w w'.
Proof.
  intros HO H. unfold tcp_send_wanted in H. destruct (negb (tc_state (tw_c w) =? 2)) eqn:ES; [apply Ok_inj in H; subst; apply same_refl; exact HO|].
  dres; try (apply same_refl; exact HO); try apply same_close.
  split; [left; cbn [tw_c tc_state]; lia|]. split; reflexivity.
Qed.
Lemma over_up cf e w w' : over w -> tcp_upstream_send cf e w = Ok w' -> same_query w w'.
Proof.
  intros HO H. unfold tcp_upstream_send in H. destruct (negb (tc_state (tw_c w) =? 3)) eqn:ES; [apply Ok_inj in H; subst; apply same_refl; exact HO|].
  destruct (tc_wanted (tw_c w) <? tc_got (tw_c w)) eqn:EW.
  - cbn in H. discriminate.
  - dres; try (apply same_refl; exact HO). split; [left; cbn [tw_c tc_state]; destruct (tc_wanted (tw_c w) <=? _); lia|]. split; reflexivity.
Qed.
Lemma over_prepare J w : over w -> same_query w (tcp_prepare_upstream_len J w).
Proof.
  intros HO. unfold tcp_prepare_upstream_len. destruct (negb (tc_state (tw_c w) =? 4)); [apply same_refl; exact HO|]. split; [left; cbn; lia|]. split; reflexivity.
Qed.
Lemma over_len J cf e w w' : over w -> tcp_get_upstream_len J cf e w = Ok w' -> same_query w w'.
Proof.
  intros HO H. unfold tcp_get_upstream_len in H. destruct (negb (tc_state (tw_c w) =? 5)) eqn:ES; [apply Ok_inj in H; subst; apply same_refl; exact HO|].
  cbv zeta in H. dres; try (apply same_refl; exact HO); (split; [left; cbn [tw_c tc_state set_c]; lia|]; split; reflexivity).
Qed.
Lemma over_forward cf e w w' : over w -> tcp_downstream_forward cf e w = Ok w' -> same_query w w'.
Proof.
  intros HO H. unfold tcp_downstream_forward in H. destruct (negb (tc_state (tw_c w) =? 6)) eqn:ES; [apply Ok_inj in H; subst; apply same_refl; exact HO|].
  cbv zeta in H. dres; try (apply same_refl; exact HO); try apply same_close2; try (split; [left; cbn [tw_c tc_state set_c]; lia|]; split; reflexivity).
  split; [right; reflexivity|]. split; reflexivity.
Qed.
Lemma over_step J cf ev w w' : over w -> tcp_step J cf ev w = Ok w' -> same_query w w'.
Proof.
  intros HO H. destruct ev as [e|now|now p|p up]; cbn [tcp_step] in H.
  - rewrite over_tick in H by exact HO. unfold tcp_rest in H.
    destruct (tcp_send_wanted cf e w) as [w1| |] eqn:E1; cbn [bind] in H; try discriminate. pose proof (over_send cf e w w1 HO E1) as S1.
    destruct (tcp_upstream_send cf e w1) as [w2| |] eqn:E2; cbn [bind] in H; try discriminate. pose proof (over_up cf e w1 w2 (proj1 S1) E2) as S2.
    pose proof (over_prepare J w2 (proj1 S2)) as S3.
    destruct (tcp_get_upstream_len J cf e (tcp_prepare_upstream_len J w2)) as [w4| |] eqn:E4; cbn [bind] in H; try discriminate. pose proof (over_len J cf e _ w4 (proj1 S3) E4) as S4.
    pose proof (over_forward cf e w4 w' (proj1 S4) H) as S5.
    exact (same_trans _ _ _ S1 (same_trans _ _ _ S2 (same_trans _ _ _ S3 (same_trans _ _ _ S4 S5)))).
  - apply Ok_inj in H. subst. unfold kill_tcp_expired. destruct (_ && _); [apply same_close|apply same_refl; exact HO].
  - unfold tcp_return_reply in H. cbv zeta in H. dres. split; [left; cbn; lia|]. split; reflexivity.
  - unfold tcp_truncated_retry in H. cbv zeta in H. dres; [|apply same_close]. split; [left; cbn; lia|]. split; reflexivity.
Qed.

(** *** What can have been handed on *)
Definition told (cf : tconf) (s : list Z) (w : tworld) : Prop :=
  tw_query w = [] \/ exists i ar p, tw_query w = [(udp_id i ar, p)] /\ s = frame p ++ tw_cin w /\ sendable p /\ readable cf p /\ asks p i ar.
Definition hist (cf : tconf) (s : list Z) (w : tworld) : Prop := reading cf s w \/ (over w /\ told cf s w).
Lemma reading_not_over cf s w : reading cf s w -> tw_query w = [] /\ tc_sent (tw_c w) = 0 /\ tc_state (tw_c w) = 0.
Proof.
  intros ((_ & _ & Q) & R & _). split; [exact Q|]. destruct R as [(a & j & die & -> & _)|(h0 & h1 & n & a & j & die & _ & _ & -> & _)]; split; reflexivity.
Qed.
Lemma hist_step J cf s ev w w' : junk_ok J -> bytes s -> hist cf s w -> tcp_step J cf ev w = Ok w' -> hist cf s w'.
Proof.
  intros HJ HB [HR|(HO & HT)] H.
  - destruct (reading_not_over cf s w HR) as (Q & _). destruct ev as [e|now|now p|p up]; cbn [tcp_step] in H.
    + destruct (tick_ok J cf s e w HJ HB HR) as (w1 & _ & _ & M & HD). rewrite H in HD. destruct M as ((_ & _ & F3) & _).
      destruct HD as [w2 R2 _|h0 h1 n r w2 _ _ _ ->|p w2 _ _ _ _ ->|p i ar w2 A1 A2 A3 A4 A5 A6 A7 _ _ _ _].
      * left. exact R2.
      * right. split; [right; reflexivity|]. left. exact F3.
      * right. split; [right; reflexivity|]. left. exact F3.
      * right. split; [left; lia|]. right. exists i, ar, p. rewrite A7. auto.
    + apply Ok_inj in H. subst. unfold kill_tcp_expired. destruct (_ && _); [|left; exact HR]. right. split; [right; reflexivity|]. left. exact Q.
    + unfold tcp_return_reply in H. cbv zeta in H. dres. right. split; [left; cbn; lia|]. left. exact Q.
    + unfold tcp_truncated_retry in H. cbv zeta in H. dres; (right; split; [first [right; reflexivity|left; cbn; lia]|left; exact Q]).
  - destruct (over_step J cf ev w w' HO H) as (HO' & C & Q). right. split; [exact HO'|]. unfold told. rewrite Q, C. exact HT.
Qed.
Lemma hist_run J cf s evs : forall w w', junk_ok J -> bytes s -> hist cf s w -> tcp_run J cf evs w = Ok w' -> hist cf s w'.
Proof.
  induction evs as [|ev evs IH]; intros w w' HJ HB HH H; cbn [tcp_run] in H; [apply Ok_inj in H; subst; exact HH|].
  destruct (tcp_step J cf ev w) as [w1| |] eqn:E; cbn [bind] in H; try discriminate. apply (IH w1 w' HJ HB); [exact (hist_step J cf s ev w w1 HJ HB HH E)|exact H].
Qed.

(** *** All is handed on *)
Lemma idle_run J cf evs : forall w, Forall is_tick evs -> tc_state (tw_c w) = 1 \/ tw_c w = tc_reset -> tcp_run J cf evs w = Ok w.
Proof.
  induction evs as [|ev evs IH]; intros w HT HW; [reflexivity|]. inversion HT as [|? ? (e & ->) HT']; subst. cbn [tcp_run tcp_step].
  rewrite over_tick by (destruct HW; [left; lia|right; assumption]). rewrite rest_idle by (destruct HW as [?|E]; [right; assumption|left; rewrite E; reflexivity]). cbn [bind]. apply IH; assumption.
Qed.
Lemma frame_inj p q x y : zlen p < 65536 -> zlen q < 65536 -> frame p ++ x = frame q ++ y -> p = q /\ x = y.
Proof.
  unfold frame, num2. intros Hp Hq E. cbn [app] in E. injection E as E1 E2 E3. apply app_inj_len in E3; [exact E3|]. pose proof (zlen_nonneg p). pose proof (zlen_nonneg q). unfold zlen in *. lia.
Qed.
Lemma reading_left cf s p rest w : bytes s -> s = frame p ++ rest -> sendable p -> reading cf s w -> zlen rest < zlen (tw_cin w).
Proof.
  intros HB -> HS (_ & R & G). assert (zlen (frame p ++ rest) = zlen p + 2 + zlen rest) as LF. { unfold frame, num2. rewrite !zlen_app. change (zlen [zlen p / 256; zlen p mod 256]) with 2. lia. }
  unfold sendable in HS. destruct R as [(a & j & die & E & L & BJ & S')|(h0 & h1 & n & a & j & die & X1 & X2 & E & L & BJ & S')]; rewrite E in G; cbn [tc_got tc_wanted] in G; rewrite S' in LF.
  - rewrite zlen_app in LF. lia.
  - rewrite !zlen_cons, zlen_app in LF. rewrite S' in HB. inversion HB as [|? ? B0 HB1]; subst. inversion HB1 as [|? ? B1 HB2]; subst.
    pose proof (frame_len_spec cf h0 h1 B0 B1) as HF. rewrite X1 in HF. destruct HF as (_ & HF & _). destruct (HF ltac:(lia)) as (-> & _). unfold frame, num2 in S'. cbn [app] in S'. injection S' as S1 S2 _. lia.
Qed.
Definition finished (cf : tconf) (p rest : list Z) (w : tworld) : Prop :=
  (forall i ar, asks p i ar -> tw_query w = [(udp_id i ar, p)] /\ tc_state (tw_c w) = 1 /\ tw_cin w = rest /\ tw_cout w = [] /\ tc_local (tw_c w) = true /\ tw_copen w = true /\ tc_sent (tw_c w) = 0) /\
  ((forall i ar, ~ asks p i ar) -> tw_query w = [] /\ tw_copen w = false /\ tw_c w = tc_reset).
Lemma asks_fun p i ar i' ar' : asks p i ar -> asks p i' ar' -> i = i' /\ ar = ar'.
Proof.
  intros (h & r & n & t0 & t1 & H1 & E & _ & <- & <- & _) (h' & r' & n' & t0' & t1' & H1' & E' & _ & <- & <- & _). rewrite E in E'. destruct (PropsAcl.C19_header_unique h h' r r' H1 H1' E') as (-> & _). auto.
Qed.
Lemma deliver_run J cf s p rest evs : junk_ok J -> bytes s -> s = frame p ++ rest -> sendable p -> readable cf p -> forall w, reading cf s w -> Forall is_tick evs ->
  zlen (tw_cin w) - zlen rest <= count_ev brings evs -> exists w', tcp_run J cf evs w = Ok w' /\ finished cf p rest w'.
Proof.
  intros HJ HB ES HS HR. induction evs as [|ev evs IH]; intros w HW HT HC.
  - exfalso. pose proof (reading_left cf s p rest w HB ES HS HW). cbn in HC. change (count_ev brings []) with 0 in HC. lia.
  - inversion HT as [|? ? (e & ->) HT']; subst ev evs. rename l into evs. pose proof (reading_left cf s p rest w HB ES HS HW) as HL.
    destruct (tick_ok J cf s e w HJ HB HW) as (w1 & L1 & P1 & M & HD). cbn [tcp_run tcp_step]. pose proof (zlen_nonneg rest).
    destruct (tcp_handle_all J cf e w) as [w2| |f]; [|contradiction|].
    2: { exfalso. destruct HD as (_ & SG & h0 & r & Es & H128). rewrite ES in Es. unfold frame, num2 in Es. cbn [app] in Es. injection Es as Es _. destruct (HR SG). lia. }
    cbn [bind]. destruct HD as [w2 R2 C2|h0 h1 n r w2 A1 A2 A3 _|p' w2 A1 A2 A3 A4 A5|p' i ar w2 A1 A2 A3 A4 A5 A6 A7 A8 A9 A10 A11].
    + apply IH; [exact R2|exact HT'|]. rewrite C2. unfold count_ev in *. cbn [filter brings] in HC. destruct (te_rl e) as [k|] eqn:EK; [|lia].
      destruct (Z.leb_spec 1 k) as [K|K]; [|lia]. rewrite zlen_cons in HC. specialize (P1 k eq_refl K ltac:(lia)). lia.
    + exfalso. rewrite ES in A1, HB. unfold frame, num2 in A1, HB. cbn [app] in A1, HB. injection A1 as <- <- _. inversion HB as [|? ? B0 HB1]; subst. inversion HB1 as [|? ? B1 _]; subst.
      pose proof (frame_len_spec cf _ _ B0 B1) as HF. rewrite A2 in HF. destruct HF as (_ & _ & HF). unfold sendable in HS. specialize (HF (fun X => proj2 (HR X))). lia.
    + rewrite ES in A1. apply frame_inj in A1 as (<- & E2); [|unfold sendable in *; lia|unfold sendable in *; lia]. exists w2. rewrite A5. split; [apply idle_run; [exact HT'|right; reflexivity]|].
      split; [intros i ar HA; exfalso; exact (A4 i ar HA)|]. intros _. destruct M as ((_ & _ & F3) & R & _). split; [exact F3|]. split; [|reflexivity]. cbn [close_local tw_copen].
      replace (tc_local (tw_c w1)) with true; [reflexivity|]. destruct R as [(a & j & die & -> & _)|(h0 & h1 & n & a & j & die & _ & _ & -> & _)]; reflexivity.
    + rewrite ES in A1. apply frame_inj in A1 as (<- & E2); [|unfold sendable in *; lia|unfold sendable in *; lia]. exists w2. split; [apply idle_run; [exact HT'|left; exact A6]|].
      split; [|intros HN; exfalso; exact (HN i ar A4)]. intros i' ar' HA. destruct (asks_fun _ _ _ _ _ A4 HA) as (<- & <-). rewrite A7, <- E2. auto 10.
Qed.
