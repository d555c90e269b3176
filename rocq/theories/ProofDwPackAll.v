(** Compression looks at the query in lower case, the packet has it as the client wrote it. *)
From Verif Require Import CBase SpecNames SpecMessage SpecDeadwoodMsg SpecDwStr SpecAnswer SpecReply SpecPack ModelDwStr ProofDwStr ProofMessage ProofDwDecomp ProofDwNames ProofDwDnsStr ProofDwPack.

Definition same_places (t t' : places) : Prop := Forall2 (fun a b => fst a = fst b /\ same_name (snd a) (snd b) = true) t t'.
Lemma same_name_cong a b n : same_name a b = true -> same_name a n = same_name b n.
Proof.
  intros H. destruct (same_name a n) eqn:E1, (same_name b n) eqn:E2; try reflexivity.
  - rewrite same_name_sym in H. rewrite (same_name_trans b a n H E1) in E2. discriminate.
  - rewrite (same_name_trans a b n H E2) in E1. discriminate.
Qed.
Lemma place_of_same t t' n : same_places t t' -> place_of t n = place_of t' n.
Proof. intros H. induction H as [|(p & x) (p' & x') t t' (E & S) H IH]; cbn [place_of]; [reflexivity|]. cbn [fst snd] in *. subst p'. rewrite (same_name_cong x x' n S), IH. reflexivity. Qed.
Lemma places_refl t : same_places t t. Proof. induction t; constructor; auto. split; [reflexivity|apply same_name_refl]. Qed.
Lemma places_app a b a' b' : same_places a a' -> same_places b b' -> same_places (a ++ b) (a' ++ b').
Proof. intros H1 H2. apply Forall2_app; assumption. Qed.
Lemma pack_name_same n : forall t t' at_, same_places t t' -> fst (pack_name t at_ n) = fst (pack_name t' at_ n) /\ same_places (snd (pack_name t at_ n)) (snd (pack_name t' at_ n)).
Proof.
  induction n as [|l n IH]; intros t t' at_ H; cbn [pack_name]; [split; [reflexivity|exact H]|]. rewrite (place_of_same t t' (l :: n) H). destruct (place_of t' (l :: n)) as [p|]; [split; [reflexivity|exact H]|].
  destruct (IH (t ++ [(at_, l :: n)]) (t' ++ [(at_, l :: n)]) (at_ + 1 + zlen l)) as (E & S); [apply places_app; [exact H|apply places_refl]|].
  unfold places, name in *. destruct (pack_name (t ++ [(at_, l :: n)]) (at_ + 1 + zlen l) n) as [b u]. destruct (pack_name (t' ++ [(at_, l :: n)]) (at_ + 1 + zlen l) n) as [b' u']. cbn [fst snd] in *. subst b'. split; [reflexivity|exact S].
Qed.
Lemma pack_names_same ns : forall t t' at_, same_places t t' -> fst (pack_names t at_ ns) = fst (pack_names t' at_ ns) /\ same_places (snd (pack_names t at_ ns)) (snd (pack_names t' at_ ns)).
Proof.
  induction ns as [|n ns IH]; intros t t' at_ H; cbn [pack_names]; [split; [reflexivity|exact H]|]. destruct (pack_name_same n t t' at_ H) as (E1 & S1). destruct (pack_name t at_ n) as [b u]. destruct (pack_name t' at_ n) as [b' u']. cbn [fst snd] in *. subst b'.
  destruct (IH u u' (at_ + zlen b) S1) as (E2 & S2). destruct (pack_names u (at_ + zlen b) ns) as [c v]. destruct (pack_names u' (at_ + zlen b) ns) as [c' v']. cbn [fst snd] in *. subst c'. split; [reflexivity|exact S2].
Qed.
Lemma pack_rr_same r t t' at_ : same_places t t' -> fst (pack_rr t at_ r) = fst (pack_rr t' at_ r) /\ same_places (snd (pack_rr t at_ r)) (snd (pack_rr t' at_ r)).
Proof.
  intros H. unfold pack_rr. destruct (pack_name_same (rr_owner r) t t' at_ H) as (E1 & S1). destruct (pack_name t at_ (rr_owner r)) as [b u]. destruct (pack_name t' at_ (rr_owner r)) as [b' u']. cbn [fst snd] in *. subst b'.
  destruct (packs (rr_type r)); [|auto]. set (p := at_ + zlen b + 10 + zlen (rr_lead r)). destruct (pack_names_same (rr_names r) u u' p S1) as (E2 & S2). destruct (pack_names u p (rr_names r)) as [c v]. destruct (pack_names u' p (rr_names r)) as [c' v']. cbn [fst snd] in *. subst c'. split; [reflexivity|exact S2].
Qed.
Lemma pack_rrs_same rs : forall t t' at_, same_places t t' -> fst (pack_rrs t at_ rs) = fst (pack_rrs t' at_ rs).
Proof.
  induction rs as [|r rs IH]; intros t t' at_ H; cbn [pack_rrs]; [reflexivity|]. destruct (pack_rr_same r t t' at_ H) as (E1 & S1). destruct (pack_rr t at_ r) as [b u]. destruct (pack_rr t' at_ r) as [b' u']. cbn [fst snd] in *. subst b'.
  pose proof (IH u u' (at_ + zlen b) S1) as E2. destruct (pack_rrs u (at_ + zlen b) rs) as [c v]. destruct (pack_rrs u' (at_ + zlen b) rs) as [c' v']. cbn [fst] in *. subst c'. reflexivity.
Qed.
Lemma lower_name_same n : same_name (lower_name n) n = true.
Proof. unfold same_name. destruct (list_eq_dec zlist_eq_dec (lower_name (lower_name n)) (lower_name n)) as [|X]; [reflexivity|]. exfalso. apply X. unfold lower_name. rewrite map_map. apply map_ext. intros l. unfold lower_label. rewrite map_map. apply map_ext. intros b. unfold lower. destruct ((65 <=? b) && (b <=? 90)) eqn:E; [|rewrite E; reflexivity]. replace ((65 <=? b + 32) && (b + 32 <=? 90)) with false by lia. reflexivity. Qed.
Lemma zlen_wire_lower n : zlen (wire (lower_name n)) = zlen (wire n).
Proof. induction n as [|l n IH]; [reflexivity|]. cbn [lower_name map wire] in *. rewrite !zlen_cons, !zlen_app. unfold lower_name in IH. rewrite IH. unfold lower_label, zlen at 1. rewrite map_length. reflexivity. Qed.
Lemma question_places_lower n : forall at_, same_places (question_places at_ (lower_name n)) (question_places at_ n).
Proof.
  induction n as [|l n IH]; intros at_; [constructor|]. change (lower_name (l :: n)) with (lower_label l :: lower_name n). cbn [question_places]. constructor; [cbn [fst snd]; split; [reflexivity|apply (lower_name_same (l :: n))]|].
  replace (zlen (lower_label l)) with (zlen l) by (unfold zlen, lower_label; rewrite map_length; reflexivity). apply IH.
Qed.
Lemma packed_lower n rs : packed (lower_name n) rs = packed n rs.
Proof. unfold packed. rewrite zlen_wire_lower. apply pack_rrs_same, question_places_lower. Qed.
Lemma good_lower n : good_name n -> good_name (lower_name n).
Proof.
  intros G. induction G as [|l n (H1 & H2) G IH]; constructor; [|exact IH]. split; [unfold zlen, lower_label in *; rewrite map_length; exact H1|]. clear - H2. induction H2 as [|b l Hb H2 IH]; constructor; [|exact IH]. unfold lower, byte in *. destruct ((65 <=? b) && (b <=? 90)) eqn:E; lia.
Qed.
Lemma no_repeat_lower qn n : no_repeat qn n -> no_repeat (lower_name qn) n.
Proof.
  intros (f & b & qf & qb & En & Eq & S & H). exists f, b, (lower_name qf), (lower_name qb). split; [exact En|]. split; [rewrite Eq; apply map_app|]. split; [|exact H]. eapply same_name_trans; [apply lower_name_same|exact S].
Qed.
(** Sizes of records that are the same up to case. *)
Lemma same_wire a b : same_name a b = true -> zlen (wire a) = zlen (wire b).
Proof. intros H. rewrite <- (zlen_wire_lower a), <- (zlen_wire_lower b). unfold same_name in H. destruct (list_eq_dec zlist_eq_dec (lower_name a) (lower_name b)) as [->|]; [reflexivity|discriminate]. Qed.
Lemma same_rr_plain a b : same_rr a b -> zlen (rr_plain a) = zlen (rr_plain b).
Proof.
  intros (H1 & H2 & H3 & H4 & H5 & H6). assert (zlen (rdata_plain a) = zlen (rdata_plain b)) as E.
  { unfold rdata_plain. rewrite !zlen_app, H4, H6. f_equal. f_equal. clear - H5. induction H5 as [|x y l l' S H IH]; cbn; [reflexivity|]. rewrite !zlen_app, IH, (same_wire _ _ S). reflexivity. }
  unfold rr_plain. rewrite !zlen_app, !zlen_num16, E, (same_wire _ _ H1), H3. reflexivity.
Qed.
Lemma same_rrs_plain a b : Forall2 same_rr a b -> zlen (plain_records a) = zlen (plain_records b) /\ length a = length b.
Proof. intros H. induction H as [|x y l l' S H (E & L)]; [split; reflexivity|]. rewrite !plain_records_cons, !zlen_app, E, (same_rr_plain _ _ S). cbn [length]. rewrite L. split; reflexivity. Qed.
