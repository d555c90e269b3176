(** What may come out for a reply of any kind. *)
From Verif Require Import CBase Bits SpecNames SpecMessage SpecDeadwoodMsg SpecDwStr SpecAnswer SpecReply ModelDwStr ModelDwCompress ModelDwDnsStr ModelDwRecurse ProofDwStr ProofDwCompressSafe ProofDwDecomp ProofMessage ProofDwDnsStr ProofDwRotate ProofDwDnsSafe ProofDwRecurseSafe ProofDwNames ProofDwReply ProofDwDissect ProofDwRefer.

Lemma bind_ok {A B} (m : res A) (k : A -> res B) b : bind m k = Ok b -> exists a, m = Ok a /\ k a = Ok b.
Proof. destruct m; cbn; try discriminate. eauto. Qed.
Ltac bok H x E := apply bind_ok in H as (x & E & H); cbn beta in H.

Definition ends (s : dwstr) (b : Z) : Prop := rd (d_mem s) (d_len s - 1) = Ok b.
Lemma addchar_ends c s code s' : byte c -> dw_addchar c s = Ok (code, s') -> code <> -1 -> ends s' c.
Proof.
  intros Hc H N. unfold dw_addchar in H. destruct (negb (dw_sane s)); [congruence|]. destruct (_ <? _); [|congruence]. bok H m E. injection H as <- <-. unfold ends. cbn [d_mem d_len].
  replace (d_len s + 1 - 1) with (d_len s) by lia. unfold byte in Hc. replace (u8 c) with c in E by (unfold u8; lia). unfold wr in E. destruct ((_ <=? _) && (_ <? _)) eqn:Eb; [|discriminate E]. injection E as <-. unfold rd. rewrite zget_zupd_eq by lia. reflexivity.
Qed.
Lemma cname_refer_ends Jo J v out : dwx_make_cname_refer Jo J v = Ok out -> ends out 17.
Proof.
  unfold dwx_make_cname_refer. cbv zeta. intros H. destruct (dw_create _ _) as [o|]; [|discriminate]. destruct (n_packet _) as [p|]; [|discriminate]. bok H x E. destruct x as (o1 & fo). bok H x E1. destruct x as (c1 & o2). destruct (Z.eqb_spec c1 (-1)); [discriminate|]. bok H x E2. destruct x as (c2 & o3). destruct (Z.eqb_spec c2 (-1)); [discriminate|]. injection H as <-. eapply addchar_ends; eauto. unfold byte; lia.
Qed.
Lemma ns_refer_ends Jz Jo J v out : dwx_make_ns_refer Jz Jo J v = Ok out -> ends out 16.
Proof.
  unfold dwx_make_ns_refer. cbv zeta. intros H. destruct (n_packet _) as [p|]; [|discriminate]. bok H l1 E. bok H l2 E0. unfold dwx_make_ns_refer_proc in H. cbv zeta in H. bok H o E1. destruct o as [o|]; [|discriminate]. bok H x E2. destruct x as ((o1 & f1) & n1). bok H x E3. destruct x as ((o2 & f2) & n2). bok H o3 E4. bok H x E5. destruct x as (c1 & o4). destruct (Z.eqb_spec c1 (-1)); [discriminate|].
  bok H x E6. destruct x as (c2 & o5). destruct (Z.eqb_spec c2 (-1)); [discriminate|]. injection H as <-. eapply addchar_ends; eauto. unfold byte; lia.
Qed.

(** *** The marks *)
Definition marked (qt : Z) (r : rr) (m : Z) : Prop := m = 36 \/ (m = ty r /\ (qt = 255 \/ rr_type r = qt \/ rr_type r = 5)).
Lemma check_loop_marks inp query bail L qt rs : dok inp -> forall pre T0 cc uc off ms, sec inp L (pre ++ rs) -> length T0 = length pre ->
  check_loop (length rs) inp query bail L qt (Z.of_nat (length pre)) (T0 ++ map ty rs) cc uc off = Ok ms -> exists ms', ms = T0 ++ ms' /\ Forall2 (marked qt) rs ms'.
Proof.
  intros Di. induction rs as [|r rs IH]; intros pre T0 cc uc off ms S E0 H; cbn [length check_loop map] in H.
  - rewrite app_nil_r in H. injection H as <-. exists []. rewrite app_nil_r. auto.
  - destruct (S (length pre) r (nth_error_mid _ _ _)) as (o & Eo & Eo1 & R). rewrite Eo in H. cbn [bind] in H. rewrite Eo1 in H. cbn [bind] in H. bok H sq Esq. rewrite (rec_type _ _ _ Di R) in H. cbn [bind] in H. rewrite <- (of_nat_snoc pre r) in H.
    assert (sec inp L ((pre ++ [r]) ++ rs)) as S' by (rewrite <- app_assoc; exact S).
    assert (forall cc uc off m, marked qt r m -> check_loop (length rs) inp query bail L qt (Z.of_nat (length (pre ++ [r]))) (T0 ++ m :: map ty rs) cc uc off = Ok ms -> exists ms', ms = T0 ++ ms' /\ Forall2 (marked qt) (r :: rs) ms') as K.
    { intros cc' uc' off' m Hm Hk. rewrite (snoc_app T0 m) in Hk. apply IH in Hk as (ms' & -> & F); [|exact S'|rewrite !length_snoc; lia]. exists (m :: ms'). rewrite <- app_assoc. split; [reflexivity|constructor; auto]. }
    assert (rr_type r = qt \/ rr_type r = 5 -> marked qt r (ty r)) as M1 by (intros; right; auto).
    destruct ((sq =? 1) && (0 <=? off) && (rr_type r =? qt)) eqn:C1. { eapply K; [|exact H]. apply M1. lia. }
    destruct ((cc =? 0) && negb (qt =? 5) && (off =? cc) && uc && (sq =? 1) && (rr_type r =? 5)) eqn:C2.
    { bok H t1 Et. bok H g Eg. destruct (negb g); (eapply K; [|exact H]; apply M1; lia). }
    bok H sc Esc. destruct ((0 <? cc) && negb (qt =? 5) && (off =? cc) && uc && (sc =? 1) && (rr_type r =? 5)) eqn:C3.
    { bok H t1 Et. bok H g Eg. destruct (negb g); (eapply K; [|exact H]; apply M1; lia). }
    destruct ((0 <? cc) && negb (qt =? 5) && (sc =? 1) && (rr_type r =? qt)) eqn:C4. { eapply K; [|exact H]. apply M1. lia. }
    replace (Z.of_nat (length pre)) with (zlen T0) in H by (unfold zlen; lia). rewrite wr_mid in H. cbn [bind] in H. eapply K; [|exact H]. left. reflexivity.
Qed.
Lemma check_any_marks inp query L rs : dok inp -> forall pre T0 cc uc ms, sec inp L (pre ++ rs) -> length T0 = length pre ->
  check_any_loop (length rs) inp query L (Z.of_nat (length pre)) (T0 ++ map ty rs) cc uc = Ok ms -> exists ms', ms = T0 ++ ms' /\ Forall2 (marked 255) rs ms'.
Proof.
  intros Di. induction rs as [|r rs IH]; intros pre T0 cc uc ms S E0 H; cbn [length check_any_loop map] in H.
  - rewrite app_nil_r in H. injection H as <-. exists []. rewrite app_nil_r. auto.
  - destruct (S (length pre) r (nth_error_mid _ _ _)) as (o & Eo & Eo1 & R). rewrite Eo in H. cbn [bind] in H. rewrite Eo1 in H. cbn [bind] in H. bok H sq Esq. rewrite (rec_type _ _ _ Di R) in H. cbn [bind] in H. rewrite <- (of_nat_snoc pre r) in H.
    assert (sec inp L ((pre ++ [r]) ++ rs)) as S' by (rewrite <- app_assoc; exact S).
    assert (forall cc uc m, marked 255 r m -> check_any_loop (length rs) inp query L (Z.of_nat (length (pre ++ [r]))) (T0 ++ m :: map ty rs) cc uc = Ok ms -> exists ms', ms = T0 ++ ms' /\ Forall2 (marked 255) (r :: rs) ms') as K.
    { intros cc' uc' m Hm Hk. rewrite (snoc_app T0 m) in Hk. apply IH in Hk as (ms' & -> & F); [|exact S'|rewrite !length_snoc; lia]. exists (m :: ms'). rewrite <- app_assoc. split; [reflexivity|constructor; auto]. }
    assert (marked 255 r (ty r)) as M1 by (right; auto).
    destruct ((sq =? 1) && negb (rr_type r =? 5)). { eapply K; eauto. } destruct (_ && _). { eapply K; eauto. }
    bok H sc Esc. destruct (_ && _). { eapply K; eauto. } destruct (_ && _). { eapply K; eauto. }
    replace (Z.of_nat (length pre)) with (zlen T0) in H by (unfold zlen; lia). rewrite wr_mid in H. cbn [bind] in H. eapply K; [|exact H]. left. reflexivity.
Qed.
Lemma marked_kept qt rs ms : Forall2 (marked qt) rs ms -> sublist (kept ms rs) rs /\ (qt <> 255 -> Forall (fun r => rr_type r = qt \/ rr_type r = 5) (kept ms rs)).
Proof.
  induction 1 as [|r m rs ms Hm F (I1 & I2)]; cbn [kept]; [split; [constructor|constructor]|]. destruct Hm as [-> | (-> & Hm)].
  - change ((36 =? 36) || (36 =? 37)) with true. cbv iota. split; [apply sub_skip; exact I1|exact I2].
  - rewrite ty_kept. split; [apply sub_keep; exact I1|]. intros Hq. constructor; [tauto|auto].
Qed.
Lemma sublist_filter {A} f (l : list A) : sublist (filter f l) l.
Proof. induction l as [|x l IH]; cbn [filter]; [constructor|]. destruct (f x); constructor; exact IH. Qed.
Lemma sublist_nil {A} (l : list A) : sublist [] l. Proof. induction l; constructor; auto. Qed.
Lemma first_split {A} (f : A -> bool) l : existsb f l = true -> exists a r b, l = a ++ r :: b /\ existsb f a = false /\ f r = true.
Proof.
  induction l as [|x l IH]; cbn [existsb]; [discriminate|]. destruct (f x) eqn:E; [intros _; exists [], x, l; auto|]. cbn [orb]. intros H. destruct (IH H) as (a & r & b & -> & Ea & Er). exists (x :: a), r, b. cbn [app existsb]. rewrite E. auto.
Qed.
Lemma an_type_range n types anc qt : forall i r, an_type_loop n types anc qt i = Ok (Some r) -> r = 0 \/ r = 17 \/ r = 19.
Proof.
  assert (forall m c r, after_cname m types qt c = Ok r -> r = 0 \/ r = 17 \/ r = 19) as A. { induction m as [|m IH]; intros c r H; cbn [after_cname] in H; [injection H; auto|]. bok H x E. destruct (_ || _); [injection H; auto|]. destruct (_ && _); [injection H; auto|]. eauto. }
  induction n as [|n IH]; intros i r H; cbn [an_type_loop] in H; [discriminate|]. bok H x E. destruct (_ || _); [injection H; auto|]. destruct (_ =? 5). { cbv zeta in H. bok H y Ey. injection H as <-. eauto. } destruct (negb _); [injection H; auto|eauto].
Qed.

Section ALL.
  Variables Jz Jo J : Z -> Z.
  Hypothesis HJz : junk_ok Jz.
  Hypothesis HJo : junk_ok Jo.
  Hypothesis HJ : junk_ok J.
  Variables inp query bail : dwstr.
  Variables an ns ar : list rr.
  Variable t : Z.
  Hypothesis H : holds inp an ns ar t.
  Hypothesis Ht : t = 0 \/ t = 1.
  Hypothesis Pr : Forall proper_rr (an ++ ns ++ ar).
  Variable q : name.
  Variable qt : Z.
  Hypothesis Dq : dok query.
  Hypothesis Cq : con query = wire q ++ num16 qt.
  Hypothesis Gq : good_name q.
  Hypothesis Rq : 0 <= qt < 65536.
  Hypothesis Pq : comparable q.

  Lemma any_an out : an <> [] -> dwx_dissect_packet Jz Jo J inp query bail = Ok out ->
    ends out 17 \/ exists an', holds out an' [] [] 0 /\ sublist an' an /\ (qt <> 255 -> Forall (fun r => rr_type r = qt \/ rr_type r = 5) an') /\ forallb class_in an' = true.
  Proof.
    intros Han Hd. pose proof (Eq query q qt Dq Cq Rq) as Eq. pose proof (Di inp an ns ar t H) as Di.
    unfold dwx_dissect_packet in Hd. rewrite Eq in Hd. cbn [bind] in Hd. replace (qt =? -1) with false in Hd by lia.
    destruct (create_details_ok J HJ inp an ns ar t H Pr) as (p & Ed & Dp & Cp & Lp). { destruct an; [congruence|discriminate]. }
    rewrite Ed in Hd. cbn [bind] in Hd. bok Hd v Ev.
    assert (zlen an =? 0 = false) as Z0. { destruct an; [congruence|]. rewrite zlen_cons. pose proof (zlen_nonneg l). lia. }
    assert (exists ms, v = view_of p an ns ar t ms (map ty ns) (map ty ar) /\ Forall2 (marked qt) an ms) as (ms & -> & Fm).
    { unfold dwx_check_answer_section in Ev. rewrite Eq in Ev. cbn [bind] in Ev. replace (qt =? -1) with false in Ev by lia. cbn [v_look view_of look_of n_ancount n_an v_an] in Ev. rewrite nat_zlen in Ev. assert (pad (map ty an) = map ty an) as Ep by (destruct an; [congruence|reflexivity]). rewrite Ep in Ev.
      destruct (secs inp an ns ar t H Pr inp eq_refl) as (S & _ & _).
      assert (exists ms, v = mkdet (look_of p an ns ar t) ms (pad (map ty ns)) (pad (map ty ar)) /\ Forall2 (marked qt) an ms) as (ms & -> & F).
      { destruct (Z.eqb_spec qt 255) as [E255|N255]; bok Ev ms Em; injection Ev as <-; exists ms; (split; [reflexivity|]).
        - pose proof (check_any_marks inp query (offs 0 an) an Di [] [] 0 true ms S eq_refl) as M. cbn [app length Z.of_nat] in M. destruct (M Em) as (ms' & -> & F). rewrite E255. exact F.
        - pose proof (check_loop_marks inp query bail (offs 0 an) qt an Di [] [] 0 true 0 ms S eq_refl) as M. cbn [app length Z.of_nat] in M. destruct (M Em) as (ms' & -> & F). exact F. }
      exists ms. split; [|exact F]. unfold view_of. f_equal. destruct F; [congruence|reflexivity]. }
    assert (length ms = length an) as El. { clear - Fm. induction Fm; cbn [length]; lia. }
    unfold dwx_if_an_then_no_ns_nor_ar, set_an in Hd. cbv zeta in Hd. cbn [v_look view_of look_of n_ancount n_nscount n_arcount v_an v_ns v_ar] in Hd. rewrite Z0 in Hd. rewrite !retype_pad in Hd by (rewrite map_length; reflexivity). cbn [bind] in Hd.
    unfold dwx_cleanup_ns_ar in Hd. cbv zeta in Hd. cbn [v_look view_of look_of n_ancount n_nscount n_arcount v_an v_ns v_ar] in Hd. rewrite !retype_pad in Hd by (rewrite !map_length; reflexivity). cbn [bind] in Hd.
    rewrite !map_map in Hd. cbn beta in Hd. change (negb (36 =? 2) && negb (36 =? 6)) with true in Hd. change (negb (36 =? 1) && negb (36 =? 28)) with true in Hd. cbv iota in Hd.
    change (finish Jz Jo J inp query bail (view_of p an ns ar t ms (blank ns) (blank ar)) = Ok out) in Hd.
    set (v := view_of p an ns ar t ms (blank ns) (blank ar)) in *.
    destruct (dwx_determine_answer_type v query inp) as [(ty' & v')| |] eqn:Edt; [|unfold finish in Hd; rewrite Edt in Hd; discriminate..].
    assert (v' = v /\ (ty' = 0 \/ ty' = 17 \/ ty' = 19)) as (-> & Hty).
    { unfold dwx_determine_answer_type in Edt. rewrite Eq in Edt. cbn [bind] in Edt. replace (qt =? -1) with false in Edt by lia. bok Edt r Er. destruct r as [r|].
      - injection Edt as <- <-. split; [reflexivity|]. destruct (0 <? _); [|discriminate]. eapply an_type_range; exact Er.
      - destruct (blank_head ns) as (x & Ex & Hx). unfold v in Edt at 1. cbn [v_ns view_of] in Edt. rewrite Ex in Edt. cbn [bind] in Edt. replace (x =? 6) with false in Edt by lia. replace (x =? 2) with false in Edt by lia. injection Edt as <- <-. auto. }
    destruct Hty as [-> | [-> | ->]].
    - right. pose proof (finish_answer Jz Jo J HJo HJ inp query bail an ns ar t H Ht Pr p ms Dp Cp Lp El Edt) as FA. fold v in FA. destruct (forallb class_in (kept ms an)) eqn:Ec; [|congruence]. destruct FA as (o & Eo & Ho). rewrite Eo in Hd. injection Hd as <-. exists (kept ms an). destruct (marked_kept qt an ms Fm). auto.
    - left. pose proof (finish_refer Jz Jo J inp query bail an ns ar t H Ht p ms Dp Cp Lp El Edt) as FR. cbv zeta in FR. fold v in FR. rewrite FR in Hd. eapply cname_refer_ends; exact Hd.
    - unfold finish in Hd. rewrite Edt in Hd. cbn [bind] in Hd. change (19 =? 23) with false in Hd. change (19 =? 16) with false in Hd. cbv iota in Hd. cbn [bind] in Hd. unfold v in Hd. rewrite (cache_string Jz Jo J inp an ns ar t H Ht) in Hd by auto. cbv zeta in Hd. change (19 =? 2) with false in Hd. rewrite andb_false_r in Hd. discriminate.
  Qed.

  Variable z : name.
  Hypothesis Db : dok bail.
  Hypothesis Nz : named bail 0 z.
  Hypothesis Pz : comparable z.
  Lemma any_noan out : an = [] -> dwx_dissect_packet Jz Jo J inp query bail = Ok out ->
    ends out 16 \/ (exists s ns', ns = s :: ns' /\ rr_type s = 6 /\ holds out [] (filter ns_or_soa ns) (filter address ar) (if t =? 1 then 1 else 2) /\ forallb class_in (filter ns_or_soa ns ++ filter address ar) = true) \/
    (exists r, In r ar /\ asked_for q qt r = true /\ class_in r = true /\ holds out [r] [] [] 0).
  Proof.
    intros Ea Hd. assert (ns ++ ar = [] \/ ns ++ ar <> []) as [En0|Hne] by (destruct (ns ++ ar); [left; reflexivity|right; discriminate]).
    { exfalso. pose proof (create_details_empty J inp an ns ar t H) as Ce. unfold dwx_dissect_packet in Hd. rewrite (Eq query q qt Dq Cq Rq) in Hd. cbn [bind] in Hd. destruct (qt =? -1); [discriminate|]. rewrite Ce in Hd; [discriminate|auto..]. rewrite Ea. exact En0. }
    assert (ns = [] \/ exists s ns', ns = s :: ns') as [Ens|(s & ns' & Ens)] by (destruct ns; eauto).
    { exfalso. rewrite Ens in H, Pr, Hne. destruct (dissect_noan Jz Jo J HJ inp query bail an [] ar t H Pr q qt Dq Cq Rq Ea Hne) as (p & Dp & Cp & Lp & E). rewrite E in Hd. unfold finish in Hd. rewrite (determine_noan inp query an [] ar t q qt Dq Cq Rq _ _ _ Ea) in Hd. cbn [ns_marks map pad] in Hd. change (rd [0] 0) with (@Ok Z 0) in Hd. cbn [bind] in Hd. change (0 =? 6) with false in Hd. change (0 =? 2) with false in Hd. cbv iota in Hd. cbn [bind] in Hd. change (19 =? 23) with false in Hd. change (19 =? 16) with false in Hd. cbv iota in Hd. cbn [bind] in Hd.
      change [0] with (pad []) in Hd. rewrite (cache_string Jz Jo J inp an [] ar t H Ht) in Hd by auto. cbv zeta in Hd. change (19 =? 2) with false in Hd. rewrite andb_false_r in Hd. discriminate. }
    destruct (Z.eq_dec (rr_type s) 6) as [T6|N6].
    { right. left. pose proof (dissect_negative Jz Jo J HJo HJ inp query bail an ns ar t H Ht Pr q qt Dq Cq Rq s ns' Ea Ens T6) as DN. destruct (forallb class_in _) eqn:Ec; [|congruence]. destruct DN as (o & E & Ho). rewrite E in Hd. injection Hd as <-. exists s, ns'. auto. }
    destruct (Z.eq_dec (rr_type s) 2) as [T2|N2].
    { destruct (existsb (asked_for q qt) ar) eqn:Ex.
      - right. right. destruct (first_split _ _ Ex) as (a & r & b & Er & Exa & Exr). pose proof (dissect_in_ar Jz Jo J HJo HJ inp query bail an ns ar t H Pr q qt Dq Cq Gq Rq Pq s ns' a r b Ea Ens T2 Er Exa Exr) as DA.
        destruct (class_in r) eqn:Ec; [|congruence]. destruct DA as (o & E & Ho). rewrite E in Hd. injection Hd as <-. exists r. split; [rewrite Er; apply in_or_app; right; left; reflexivity|]. auto.
      - left. destruct (dissect_noan Jz Jo J HJ inp query bail an ns ar t H Pr q qt Dq Cq Rq Ea Hne) as (p & Dp & Cp & Lp & E). rewrite E in Hd. unfold finish in Hd. rewrite (determine_noan inp query an ns ar t q qt Dq Cq Rq _ _ _ Ea) in Hd.
        assert (rd (pad (ns_marks ns)) 0 = Ok 2) as E2. { rewrite Ens. unfold ns_marks. cbn [map]. unfold ns_or_soa. rewrite T2. cbn [orb]. unfold ty. rewrite T2. reflexivity. } rewrite E2 in Hd. cbn [bind] in Hd. change (2 =? 6) with false in Hd. change (2 =? 2) with true in Hd. cbv iota in Hd.
        destruct (secs inp an ns ar t H Pr inp eq_refl) as (_ & _ & S). pose proof S as S'. rewrite <- (app_nil_r ar) in S' at 2. pose proof (find_in_ar_ok query inp (offs (aroff an ns) ar) q qt [] ar Dq (Di inp an ns ar t H) (Nq query q qt Cq Gq) Pq Ex [] S') as FA. rewrite app_nil_r in FA. cbn [app length Z.of_nat find_in_ar] in FA. rewrite FA in Hd. cbn [bind] in Hd.
        change (16 =? 23) with false in Hd. change (16 =? 16) with true in Hd. cbv iota in Hd. bok Hd v Ev. unfold dwx_make_cache_string in Hd. destruct (n_packet (v_look v)); [|discriminate]. destruct (_ =? 0); [discriminate|]. bok Hd it Eit. cbv zeta in Hd. change (16 =? 2) with false in Hd. rewrite andb_false_r in Hd. destruct (_ && _); [discriminate|]. change (16 =? 17) with false in Hd. change (16 =? 16) with true in Hd. cbv iota in Hd. eapply ns_refer_ends; exact Hd. }
    exfalso. destruct (dissect_noan Jz Jo J HJ inp query bail an ns ar t H Pr q qt Dq Cq Rq Ea Hne) as (p & Dp & Cp & Lp & E). rewrite E in Hd. unfold finish in Hd. rewrite (determine_noan inp query an ns ar t q qt Dq Cq Rq _ _ _ Ea) in Hd.
    assert (rd (pad (ns_marks ns)) 0 = Ok 36) as E2. { rewrite Ens. unfold ns_marks. cbn [map]. unfold ns_or_soa. replace (rr_type s =? 2) with false by lia. replace (rr_type s =? 6) with false by lia. reflexivity. } rewrite E2 in Hd. cbn [bind] in Hd. change (36 =? 6) with false in Hd. change (36 =? 2) with false in Hd. cbv iota in Hd. cbn [bind] in Hd.
    change (19 =? 23) with false in Hd. change (19 =? 16) with false in Hd. cbv iota in Hd. cbn [bind] in Hd. rewrite (cache_string Jz Jo J inp an ns ar t H Ht) in Hd by auto. cbv zeta in Hd. change (19 =? 2) with false in Hd. rewrite andb_false_r in Hd. discriminate.
  Qed.
End ALL.
