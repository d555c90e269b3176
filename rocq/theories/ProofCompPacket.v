(** MaraDNS' compressor as functions on lists, continued: data, records, packets. *)
From Verif Require Import CBase Bits ModelDwStr SpecDwStr ProofDwStr SpecNames SpecMessage SpecAcl SpecDeadwoodMsg SpecQuery ModelJsStr SpecJsStr ProofJsStr ProofJsSearch
  ModelQueries SpecQueries ProofQueries ProofDwDnsStr ProofQuestion ProofHname ModelDecomp SpecDecomp ProofJsList ProofDecompList ProofDecompPacket ModelCompress ProofCompList.

(** ** Numbers *)
Definition l_u16 (m : list Z) (st : ls) : option (Z * ls) :=
  if l_off st + 2 <=? zlen m then
    let v := number (zslice m (l_off st) 2) in obind (l_add 4100 (l_out st) (be 2 v)) (fun out => Some (v, mkl out (l_off st + 2) (l_pts st)))
  else None.
Lemma u16_agree k c m state st : holding c m -> 2 <= zlen m -> same_state k m state st -> agree (same_state2 (k + 2) m) (compress_get_uint16 c state) (l_u16 m st).
Proof.
  intros HC M [C O PO R H SM]. pose proof (hold_facts c m HC) as [Wa Sa La Ca Ma Na Ba Xa Ua Oa Ga Sla]. unfold compress_get_uint16, l_u16. rewrite O, (readuint16_list c m _ HC M) by lia. cbn [bind]. change JS_ERROR with (-1).
  destruct (l_off st + 2 <=? zlen m) eqn:G; [|apply agree_none]. destruct (number_2 m (l_off st) Ba ltac:(lia) ltac:(lia)) as (x & y & _ & _ & Bx & By & _ & E). unfold byte in *. set (v := number (zslice m (l_off st) 2)) in *. cbv zeta.
  replace (v =? -1) with false by lia. replace ((v <? 0) || (65535 <? v)) with false by lia. eapply then_agree; [apply adduint16_agree; [exact C|lia]|]. intros a b Hab E1. rewrite <- La. replace (zlen m <? l_off st + 2) with false by lia. apply agree_some. split; [reflexivity|].
  unfold l_add in E1. match type of E1 with (if ?b then _ else _) = _ => destruct b; [|discriminate] end. apply some_inj in E1.
  constructor; cbn [snd k_comp k_off k_points l_out l_off l_pts]; try assumption; try lia. rewrite <- E1, zlen_app, zlen_be. lia.
Qed.
Lemma l_u16_range m st v st' : bytes m -> 0 <= l_off st -> l_u16 m st = Some (v, st') -> 0 <= v <= 65535.
Proof.
  intros B P. unfold l_u16. destruct (l_off st + 2 <=? zlen m) eqn:G; [|discriminate]. cbv zeta. destruct (number_2 m (l_off st) B P ltac:(lia)) as (x & y & _ & _ & Bx & By & _ & E). unfold byte in *.
  destruct (l_add 4100 (l_out st) _); [|discriminate]. cbn [obind]. intros X. apply some_inj, pair_equal_spec in X as (<- & _). lia.
Qed.
Lemma same_state_weak k k' m state st : k' <= k -> same_state k m state st -> same_state k' m state st.
Proof. intros L [C O PO R H SM]. constructor; try assumption. lia. Qed.
Lemma same_state2_weak k k' m p q : k' <= k -> same_state2 k m p q -> same_state2 k' m p q.
Proof. intros L (E & S). split; [exact E|apply (same_state_weak k); assumption]. Qed.
Lemma agree_weak {A B} (R R' : A -> B -> Prop) r o : (forall a b, R a b -> R' a b) -> agree R r o -> agree R' r o.
Proof. intros W. destruct o; cbn [agree]; [intros (a & E & H); exists a; auto|auto]. Qed.
Lemma u16_agree12 c m state st : holding c m -> 2 <= zlen m -> same_state 12 m state st -> agree (same_state2 12 m) (compress_get_uint16 c state) (l_u16 m st).
Proof. intros HC M S. eapply agree_weak; [|apply (u16_agree 12); eassumption]. intros a b. apply same_state2_weak. lia. Qed.

Definition l_ttl (m : list Z) (st : ls) : option ls :=
  if l_off st + 4 <? zlen m then obind (l_add 4100 (l_out st) (be 4 (Z.min (number (zslice m (l_off st) 4)) 4294967294))) (fun out => Some (mkl out (l_off st + 4) (l_pts st))) else None.
Definition l_ctype (m : list Z) (st : ls) : option (Z * ls) :=
  obind (l_u16 m st) (fun '(type, st) => obind (l_u16 m st) (fun '(_, st) => obind (l_ttl m st) (fun st => Some (type, st)))).
Lemma number_4 m p : bytes m -> 0 <= p -> p + 4 <= zlen m -> 0 <= number (zslice m p 4) < 4294967296.
Proof.
  intros B P L. change 4 with (2 + 2). rewrite zslice_split by lia. destruct (number_2 m p B P ltac:(lia)) as (a & b & _ & _ & Ba & Bb & -> & _). destruct (number_2 m (p + 2) B ltac:(lia) ltac:(lia)) as (c & d & _ & _ & Bc & Bd & -> & _).
  unfold byte in *. cbn [app]. unfold number. cbn [fold_left]. lia.
Qed.
Lemma ctype_agree c m state st : holding c m -> 12 <= zlen m -> same_state 12 m state st -> agree (same_state2 12 m) (compress_get_type_etc c state) (l_ctype m st).
Proof.
  intros HC M S. pose proof (hold_facts c m HC) as [Wa Sa La Ca Ma Na Ba Xa Ua Oa Ga Sla]. unfold compress_get_type_etc, l_ctype.
  eapply agree_bind; [apply u16_agree12; try eassumption; lia|]. intros (ty & s1) (ty' & t1) (E & S1) _. cbn [fst snd] in E, S1. subst ty'.
  eapply agree_bind; [apply u16_agree12; try eassumption; lia|]. intros (cl & s2) (cl' & t2) (_ & [C O PO R H SM]) _. cbn [fst snd] in *. clear S S1.
  unfold l_ttl. rewrite O, (readuint32_list c m _ HC) by lia. cbn [bind]. destruct (l_off t2 + 4 <=? zlen m) eqn:G.
  - pose proof (number_4 m (l_off t2) Ba ltac:(lia) ltac:(lia)) as NR. set (v := number (zslice m (l_off t2) 4)) in *. clearbody v. replace (Z.min v 4294967294 =? 4294967295) with false by lia.
    destruct (l_off t2 + 4 <? zlen m) eqn:G2; cbn [obind].
    + cbv zeta. set (w := Z.min v 4294967294). assert (0 <= w < 4294967296) as WR by (unfold w; lia). clearbody w.
      pose proof (adduint32_agree 4100 (k_comp s2) (l_out t2) w C WR) as A. destruct (l_add 4100 (l_out t2) (be 4 w)) as [o|] eqn:E1; cbn [agree obind] in *.
      * destruct A as (a & A & HA). destruct (js_adduint32 (k_comp s2) w) as [r| |f]; cbn [bind] in *; try discriminate. rewrite A. cbn [bind]. rewrite <- La. replace (zlen m <=? l_off t2 + 4) with false by lia. apply agree_some. split; [reflexivity|].
        unfold l_add in E1. match type of E1 with (if ?b then _ else _) = _ => destruct b; [|discriminate] end. apply some_inj in E1.
        constructor; cbn [snd k_comp k_off k_points l_out l_off l_pts]; try assumption; try lia. rewrite <- E1, zlen_app, zlen_be. lia.
      * destruct (js_adduint32 (k_comp s2) w) as [r| |f]; cbn [bind] in *; try discriminate; [rewrite A|]; reflexivity.
    + assert (safe (r <- js_adduint32 (k_comp s2) (Z.min v 4294967294) ;; good r)) as SF by (eapply agree_safe, adduint32_agree; [exact C|lia]).
      unfold agree. destruct (js_adduint32 (k_comp s2) (Z.min v 4294967294)) as [r| |f]; cbn [bind] in *; [|reflexivity|destruct (SF f eq_refl)]. destruct (good r) as [r2| |f]; cbn [bind]; [|reflexivity|destruct (SF f eq_refl)].
      rewrite <- La. replace (zlen m <=? l_off t2 + 4) with true by lia. reflexivity.
  - replace (l_off t2 + 4 <? zlen m) with false by lia. reflexivity.
Qed.
Lemma l_ctype_range m st v st' : bytes m -> 0 <= l_off st -> l_ctype m st = Some (v, st') -> 0 <= v <= 65535.
Proof.
  intros B P. unfold l_ctype. destruct (l_u16 m st) as [(t & s1)|] eqn:E; [|discriminate]. cbn [obind]. destruct (l_u16 m s1) as [(t2 & s2)|]; [|discriminate]. cbn [obind]. destruct (l_ttl m s2); [|discriminate]. cbn [obind]. intros X. apply some_inj, pair_equal_spec in X as (<- & _).
  apply (l_u16_range _ _ _ _ B P E).
Qed.

(** ** Data *)
Fixpoint l_cfields (desc : list Z) (tc mx : Z) (m : list Z) (st : ls) (rdlength total ctotal : Z) : option (Z * Z * ls) :=
  match desc with
  | [] => None
  | t :: desc =>
      if t =? 0 then Some (total, ctotal, st)
      else if (0 <? t) && (t <? 64) then obind (l_adv m st t) (fun st => l_cfields desc tc mx m st rdlength (total + t) (ctotal + t))
      else if t =? 64 then
        let len := len_at m (l_off st) in
        if len <? 1 then None
        else if tc =? 0 then
          obind (l_take 4100 m (l_out st) (l_off st) len) (fun out =>
          obind (l_add_points (mkl out (l_off st) (l_pts st)) (zlen (l_out st))) (fun st' =>
          l_cfields desc tc mx m (mkl (l_out st') (l_off st' + len) (l_pts st')) rdlength (total + len) (ctotal + len)))
        else
          obind (l_cname mx m st) (fun st' => l_cfields desc tc mx m st' rdlength (total + len) (ctotal + len_at (l_out st') (zlen (l_out st))))
      else if t =? 65 then
        match zget m (l_off st) with
        | None => None
        | Some len => obind (l_adv m st len) (fun st => l_cfields desc tc mx m st rdlength (total + len) (ctotal + len))
        end
      else if t =? 66 then
        let len := rdlength - total in
        if len =? 0 then Some (total, ctotal, st) else obind (l_adv m st len) (fun st => Some (total + len, ctotal + len, st))
      else None
  end.
Definition same_state3 k m (p : Z * Z * cstate) (q : Z * Z * ls) : Prop := fst p = fst q /\ same_state k m (snd p) (snd q).
Lemma l_len_any m o : 0 <= o -> len_at m o = -1 \/ 1 <= len_at m o /\ o + len_at m o <= zlen m.
Proof. intros O. rewrite len_at_def. destruct (l_len_range 258 m o 0 O ltac:(lia)) as [X|X]; [left; exact X|right; lia]. Qed.
Lemma cfields_agree desc : forall J c m tc state st rdlength total ctotal, junk_ok J -> holding c m -> same_state 12 m state st -> rdlength <= 65535 -> 0 <= total -> In 0 desc ->
  agree (same_state3 12 m) (fields_loop J desc tc c state rdlength total ctotal) (l_cfields desc tc (j_max c) m st rdlength total ctotal).
Proof.
  induction desc as [|t desc IH]; intros J c m tc state st rdlength total ctotal HJ HC S RD TT I0; [destruct I0|]. cbn [fields_loop l_cfields]. unfold RRSUB_DLABEL, RRSUB_TEXT, RRSUB_VARIABLE.
  pose proof (hold_facts c m HC) as [Wc Sc Lc Cc Mc Nc Bc Xc Uc Oc Gc Slc]. pose proof S as [C O PO R H SM]. pose proof (fa_len _ _ (hold_facts _ _ (proj1 C))) as LO.
  destruct (t =? 0) eqn:G0; [apply agree_some; split; [reflexivity|exact S]|]. assert (In 0 desc) as I1 by (destruct I0 as [I0|I0]; [lia|exact I0]).
  destruct ((0 <? t) && (t <? 64)) eqn:G1.
  { eapply agree_bind; [apply take_agree; try eassumption; lia|]. intros a b Hab E. apply IH; try assumption; lia. }
  destruct (t =? 64) eqn:G2.
  { rewrite O, (dlabel_length_list c m _ HC) by lia. cbn [bind]. cbv zeta. destruct (len_at m (l_off st) <? 1) eqn:G3; [apply agree_none|]. destruct (l_len_any m (l_off st) ltac:(lia)) as [X|(_ & LL)]; [lia|]. rewrite <- LO. destruct (tc =? 0).
    - set (len := len_at m (l_off st)) in *. eapply then_agree; [apply substr_append_agree; try eassumption; lia|]. intros a b Hab E. apply l_take_some in E as (E1 & E2 & E3 & E4).
      eapply agree_bind; [apply (add_points_agree 12 m)|].
      + constructor; cbn [k_comp k_off k_points l_out l_off l_pts]; try assumption; try lia. rewrite E3, zlen_app. pose proof (zlen_nonneg (zslice m (l_off st) len)). lia.
      + lia.
      + intros s1 t1 [C1 O1 PO1 R1 H1 SM1] E5. rewrite O1. assert (l_off t1 = l_off st) as EO.
        { unfold l_add_points in E5. destruct (l_points 257 _ _ _); [|discriminate]. cbn [obind] in E5. apply some_inj in E5. rewrite <- E5. reflexivity. }
        rewrite EO in *. apply IH; try assumption; try lia. constructor; cbn [k_comp k_off k_points l_out l_off l_pts]; try assumption; try lia.
    - eapply agree_bind; [apply cname_agree; eassumption|]. intros s1 t1 S1 _. rewrite (dlabel_length_list (k_comp s1) (l_out t1)) by (try apply (proj1 (ss_comp _ _ _ _ S1)); pose proof (hold_facts _ _ (proj1 C)) as FF; destruct FF; lia). cbn [bind].
      apply IH; try assumption; lia. }
  destruct (t =? 65) eqn:G3.
  { rewrite O, <- Lc. destruct (zlen m <=? l_off st) eqn:G4; [rewrite (proj2 (zget_none m (l_off st))) by lia; apply agree_none|].
    destruct (zget_some m (l_off st) ltac:(lia)) as (b & E). pose proof (zget_bytes _ _ _ Bc E) as BL. unfold byte in BL. rewrite (rd_of_zget _ _ b) by (rewrite Gc by lia; exact E). cbn [bind]. rewrite E.
    replace ((b <? 0) || (256 <? b)) with false by lia. eapply agree_bind; [apply take_agree; try eassumption; lia|]. intros a b2 Hab _. apply IH; try assumption; lia. }
  destruct (t =? 66) eqn:G4; [|apply agree_none]. cbv zeta. destruct (rdlength - total =? 0) eqn:G5; [apply agree_some; split; [reflexivity|exact S]|].
  eapply agree_bind; [apply take_agree; try eassumption; lia|]. intros a b Hab _. apply agree_some. split; [reflexivity|exact Hab].
Qed.
Definition l_patch (st : ls) (at_ v : Z) : option ls :=
  if (65535 <? v) || (v <? 2) || (at_ <? 12) || (zlen (l_out st) - 1 <=? at_) then None else Some (mkl (splice (l_out st) at_ (num16 v)) (l_off st) (l_pts st)).
Definition l_cdata (mx : Z) (m : list Z) (st : ls) (at_ type rdlength : Z) : option ls :=
  match find_desc flat0 type with
  | None => if rdlength =? 0 then Some st else l_adv m st rdlength
  | Some d =>
      obind (l_cfields (description d) (tocompress d) mx m st rdlength 0 0) (fun '(total, ctotal, st) =>
        if rdlength =? total then if ctotal =? total then Some st else l_patch st at_ ctotal else None)
  end.
Lemma held_patch cap s l at_ x y mem1 mem2 : held cap s l -> 0 <= at_ -> at_ + 1 < zlen l -> byte x -> byte y -> wr (j_mem s) at_ x = Ok mem1 -> wr mem1 (at_ + 1) y = Ok mem2 ->
  held cap (mkjs mem2 (j_size s) (j_count s) (j_max s) (j_enc s)) (splice l at_ [x; y]).
Proof.
  intros (H & <-) A1 A2 BX BY W1 W2. pose proof (hold_facts s l H) as [W S1 L Ca M N Bm X U O G Sl]. split; [|reflexivity].
  rewrite wr_ok in W1 by lia. injection W1 as <-. rewrite wr_ok in W2 by (rewrite zlen_zupd; lia). injection W2 as <-. split; [|split].
  - change (j_wf (set_mem s (zupd (zupd (j_mem s) at_ x) (at_ + 1) y))). apply wf_set_mem; [exact W| |rewrite !zlen_zupd; reflexivity]. apply bytes_zupd; [|exact BY]. apply bytes_zupd; [apply (jw_bytes s W)|exact BX].
  - exact S1.
  - unfold octets_of. cbn [j_mem j_size j_count]. rewrite S1, Z.mul_1_l, <- L. pose proof (zlen_nonneg l). assert (zlen (splice l at_ [x; y]) = zlen l) as LS by (apply zlen_splice; change (zlen [x; y]) with 2; lia).
    apply zlist_ext; [rewrite LS; apply zlen_zslice; rewrite ?zlen_zupd; lia|]. intros i I. rewrite zlen_zslice in I by (rewrite ?zlen_zupd; lia). rewrite zget_zslice by lia. rewrite Z.add_0_l.
    rewrite zget_splice by (change (zlen [x; y]) with 2; lia). change (zlen [x; y]) with 2. destruct (Z.eq_dec i (at_ + 1)) as [->|N1].
    + rewrite zget_zupd_eq by (rewrite zlen_zupd; lia). replace ((at_ <=? at_ + 1) && (at_ + 1 <? at_ + 2)) with true by lia. replace (at_ + 1 - at_) with 1 by lia. reflexivity.
    + rewrite zget_zupd_neq by lia. destruct (Z.eq_dec i at_) as [->|N2].
      * rewrite zget_zupd_eq by lia. replace ((at_ <=? at_) && (at_ <? at_ + 2)) with true by lia. rewrite Z.sub_diag. reflexivity.
      * rewrite zget_zupd_neq by lia. replace ((at_ <=? i) && (i <? at_ + 2)) with false by lia. apply G. lia.
Qed.
Lemma cdata_agree J c m state st at_ type rdlength : junk_ok J -> holding c m -> same_state 12 m state st -> 0 <= at_ -> 0 <= type -> 0 <= rdlength <= 65535 ->
  agree (same_state 12 m) (compress_rddata J formats0 c state at_ type rdlength) (l_cdata (j_max c) m st at_ type rdlength).
Proof.
  intros HJ HC S A0 T R. pose proof (hold_facts c m HC) as [Wc Sc Lc Cc Mc Nc Bc Xc Uc Oc Gc Slc]. unfold compress_rddata, l_cdata, compress_get_tocomp. rewrite !get_rrdesc_ok by exact T. cbn [bind]. destruct (find_desc flat0 type) as [d|] eqn:E.
  - eapply agree_bind; [apply cfields_agree; try eassumption; try lia; apply (desc_has_end _ _ E)|]. intros ((tt & ct) & a) ((tt' & ct') & b) (E1 & S1) _. cbn [fst snd] in E1, S1. injection E1 as <- <-.
    destruct (rdlength =? tt); cbn [negb]; [|apply agree_none]. destruct (ct =? tt); cbn [negb]; [apply agree_some, S1|]. pose proof S1 as [C O PO RR H SM]. pose proof (hold_facts _ _ (proj1 C)) as [Wk Sk Lk Ck Mk Nk Bk Xk Uk Ok Gk Slk].
    unfold l_patch. rewrite <- Lk. destruct ((65535 <? ct) || (ct <? 2)) eqn:G1; cbn [orb]; [apply agree_none|]. replace (u32 (zlen (l_out b) - 1)) with (zlen (l_out b) - 1) by (unfold u32; lia).
    destruct ((at_ <? 12) || (zlen (l_out b) - 1 <=? at_)) eqn:G2; [apply agree_none|]. cbv zeta.
    destruct (wr (j_mem (k_comp a)) at_ (Z.land (Z.shiftr ct 8) 255)) as [mem1| |f] eqn:W1; [|rewrite wr_ok in W1 by lia; discriminate|rewrite wr_ok in W1 by lia; discriminate]. cbn [bind].
    assert (zlen mem1 = zlen (j_mem (k_comp a))) as L1 by (rewrite wr_ok in W1 by lia; injection W1 as <-; apply zlen_zupd).
    destruct (wr mem1 (at_ + 1) (Z.land ct 255)) as [mem2| |f] eqn:W2; [|rewrite wr_ok in W2 by lia; discriminate|rewrite wr_ok in W2 by lia; discriminate]. cbn [bind]. apply agree_some.
    assert (Z.land (Z.shiftr ct 8) 255 = ct / 256) as E8. { rewrite land_255, Z.shiftr_div_pow2 by lia. change (2 ^ 8) with 256. apply Z.mod_small. lia. }
    rewrite E8 in W1. rewrite land_255 in W2. rewrite Lk. constructor; cbn [k_comp k_off k_points l_out l_off l_pts]; try assumption; try lia.
    + apply (held_patch 4100 (k_comp a) (l_out b) at_ (ct / 256) (ct mod 256) mem1 mem2 C); try assumption; unfold byte; lia.
    + rewrite zlen_splice; [exact H|lia|change (zlen (num16 ct)) with 2; lia].
  - destruct (rdlength =? 0); [apply agree_some, S|]. apply take_agree; try eassumption. lia.
Qed.

(** ** Packets *)
Definition l_chead (m : list Z) : option (Z * ls) :=
  obind (l_take 4100 m [] 0 4) (fun out =>
  if zlen m <=? 4 then None
  else
    obind (l_u16 m (mkl out 4 [])) (fun '(qd, st) => obind (l_u16 m st) (fun '(an, st) => obind (l_u16 m st) (fun '(ns, st) => obind (l_u16 m st) (fun '(ar, st) =>
      if 1 <? qd then None
      else if negb (an + ns + ar =? 0) && negb (qd =? 1) then None
      else Some (if qd =? 0 then -2 else an + ns + ar, st)))))).
Definition l_cquestion (mx : Z) (m : list Z) (st : ls) (answers : Z) : option ls :=
  if answers =? -2 then Some st
  else obind (l_cname mx m st) (fun st => obind (l_u16 m st) (fun '(_, st) => obind (l_u16 m st) (fun '(_, st) => Some st))).
Fixpoint l_canswers (n : nat) (mx : Z) (m : list Z) (st : ls) : option ls :=
  match n with
  | O => Some st
  | S n =>
      obind (l_cname mx m st) (fun st => obind (l_ctype m st) (fun '(type, st) =>
      let at_ := zlen (l_out st) in
      obind (l_u16 m st) (fun '(rdlength, st) => obind (l_cdata mx m st at_ type rdlength) (fun st => l_canswers n mx m st))))
  end.
Definition l_compress (mx cap : Z) (m : list Z) : option (list Z) :=
  obind (l_chead m) (fun '(answers, st) => obind (l_cquestion mx m st answers) (fun st => obind (l_canswers (Z.to_nat answers) mx m st) (fun st =>
    if zlen (l_out st) <? cap then Some (l_out st) else None))).
Lemma l_u16_off m st v st' : l_u16 m st = Some (v, st') -> l_off st' = l_off st + 2 /\ l_off st' <= zlen m.
Proof. unfold l_u16. destruct (l_off st + 2 <=? zlen m) eqn:G; [|discriminate]. cbv zeta. destruct (l_add 4100 (l_out st) _); [|discriminate]. cbn [obind]. intros X. apply some_inj, pair_equal_spec in X as (_ & <-). cbn [l_off]. lia. Qed.
Lemma canswers_agree n : forall J c m state st, junk_ok J -> holding c m -> 12 <= zlen m -> same_state 12 m state st -> agree (same_state 12 m) (compress_answers n J formats0 c state) (l_canswers n (j_max c) m st).
Proof.
  induction n as [|n IH]; intros J c m state st HJ HC M S; cbn [compress_answers l_canswers]; [apply agree_some, S|]. pose proof (fa_bytes _ _ (hold_facts c m HC)) as BM.
  eapply agree_bind; [apply cname_agree; eassumption|]. intros s1 t1 S1 _. eapply agree_bind; [apply ctype_agree; eassumption|]. intros (ty & s2) (ty' & t2) (E & S2) ET. cbn [fst snd] in E, S2. subst ty'. cbv zeta.
  pose proof (l_ctype_range _ _ _ _ BM (proj1 (ss_range _ _ _ _ S1)) ET) as TR. rewrite <- (fa_len _ _ (hold_facts _ _ (proj1 (ss_comp _ _ _ _ S2)))).
  eapply agree_bind; [apply u16_agree12; try eassumption; lia|]. intros (rl & s3) (rl' & t3) (E & S3) ER. cbn [fst snd] in E, S3. subst rl'. pose proof (l_u16_range _ _ _ _ BM (proj1 (ss_range _ _ _ _ S2)) ER) as RR.
  eapply agree_bind; [apply cdata_agree; try eassumption; try lia; apply zlen_nonneg|]. intros s4 t4 S4 _. apply IH; assumption.
Qed.
Theorem compress_agree J c m d : junk_ok J -> holding c m -> zlen m <= 1073741824 -> j_wf d -> j_size d = 1 ->
  agree (held (j_max d)) (compress_data J formats0 c d) (l_compress (j_max c) (j_max d) m).
Proof.
  intros HJ HC SM WD SD. pose proof (hold_facts c m HC) as [Wc Sc Lc Cc Mc Nc Bc Xc Uc Oc Gc Slc]. unfold compress_data, compress_init_state. rewrite Xc. cbn [negb]. unfold MAX_COMPRESSED_LEN, MAX_DLABEL_POINTS. change (4096 + 4) with 4100. change (160 + 3) with 163.
  destruct (create_held J 4100 HJ ltac:(lia) ltac:(lia)) as (k0 & -> & HK). cbn [bind]. rewrite wr_ok by (rewrite zlen_mkjunk; lia). cbn [bind].
  assert (exists rest, zupd (mkjunk J 163) 0 0 = 0 :: rest /\ zlen (0 :: rest) = 163) as (rest & -> & LR).
  { pose proof (zlen_mkjunk J 163 ltac:(lia)) as L. destruct (mkjunk J 163) as [|a l]; [cbv in L; discriminate|]. exists l. split; [reflexivity|]. rewrite zlen_cons in *. exact L. }
  unfold l_compress.
  assert (agree (same_state2 12 m) (compress_get_header J c (mkc k0 0 (0 :: rest))) (l_chead m)) as AH.
  { unfold compress_get_header, l_chead. cbn [k_off k_comp k_points Z.eqb negb]. eapply then_agree; [apply substr_append_agree; try eassumption; lia|]. intros a b Hab E. apply l_take_some in E as (E1 & E2 & E3 & E4).
    rewrite <- Lc. destruct (zlen m <=? 4) eqn:G; [apply agree_none|]. assert (same_state 4 m (mkc a 4 (0 :: rest)) (mkl b 4 [])) as S0.
    { constructor; cbn [k_comp k_off k_points l_out l_off l_pts]; try assumption; try lia. constructor; [exists rest; reflexivity|exact LR|change (zlen (@nil Z)) with 0; lia|constructor]. rewrite E3. cbn [app]. rewrite zlen_zslice by lia. lia. }
    eapply agree_bind; [apply (u16_agree 4); try eassumption; lia|]. intros (qd & s1) (qd' & t1) (E & S1) ER. cbn [fst snd] in E, S1. subst qd'. pose proof (l_u16_range _ _ _ _ Bc (proj1 (ss_range _ _ _ _ S0)) ER) as R0.
    eapply agree_bind; [apply (u16_agree (4 + 2)); try eassumption; lia|]. intros (an & s2) (an' & t2) (E & S2) _. cbn [fst snd] in E, S2. subst an'.
    eapply agree_bind; [apply (u16_agree (4 + 2 + 2)); try eassumption; lia|]. intros (ns & s3) (ns' & t3) (E & S3) _. cbn [fst snd] in E, S3. subst ns'.
    eapply agree_bind; [apply (u16_agree (4 + 2 + 2 + 2)); try eassumption; lia|]. intros (ar & s4) (ar' & t4) (E & S4) _. cbn [fst snd] in E, S4. subst ar'.
    replace (qd <? 0) with false by lia. cbn [orb]. destruct (1 <? qd); [apply agree_none|]. destruct (negb (an + ns + ar =? 0) && negb (qd =? 1)); [apply agree_none|]. apply agree_some. split; [reflexivity|exact S4]. }
  eapply agree_bind; [exact AH|]. intros (na & s1) (na' & t1) (E & S1) EH. cbn [fst snd] in E, S1. subst na'.
  assert (l_off t1 = 12 /\ 12 <= zlen m) as (O12 & M12).
  { unfold l_chead in EH. destruct (l_take 4100 m [] 0 4) as [o|]; [|discriminate]. cbn [obind] in EH. destruct (zlen m <=? 4); [discriminate|].
    destruct (l_u16 m (mkl o 4 [])) as [(qd & u1)|] eqn:E1; [|discriminate]. cbn [obind] in EH. destruct (l_u16 m u1) as [(an & u2)|] eqn:E2; [|discriminate]. cbn [obind] in EH. destruct (l_u16 m u2) as [(ns & u3)|] eqn:E3; [|discriminate]. cbn [obind] in EH. destruct (l_u16 m u3) as [(ar & u4)|] eqn:E4; [|discriminate]. cbn [obind] in EH.
    destruct (1 <? qd); [discriminate|]. destruct (negb (an + ns + ar =? 0) && negb (qd =? 1)); [discriminate|]. apply some_inj, pair_equal_spec in EH as (_ & <-).
    apply l_u16_off in E1 as (E1 & _). apply l_u16_off in E2 as (E2 & _). apply l_u16_off in E3 as (E3 & _). apply l_u16_off in E4 as (E4 & E5). cbn [l_off] in E1. lia. }
  assert (agree (same_state 12 m) (compress_get_question J c s1 na) (l_cquestion (j_max c) m t1 na)) as AQ.
  { unfold compress_get_question, l_cquestion. rewrite (ss_off _ _ _ _ S1), O12. cbn [Z.eqb Pos.eqb negb]. destruct (na =? -2); [apply agree_some, S1|].
    eapply agree_bind; [apply cname_agree; eassumption|]. intros s2 t2 S2 _. eapply agree_bind; [apply u16_agree12; try eassumption; lia|]. intros (x & s3) (x' & t3) (_ & S3) _. cbn [snd] in S3.
    eapply agree_bind; [apply u16_agree12; try eassumption; lia|]. intros (y & s4) (y' & t4) (_ & S4) _. cbn [snd] in S4. apply agree_some, S4. }
  eapply agree_bind; [exact AQ|]. intros s2 t2 S2 _. eapply agree_bind; [apply canswers_agree; eassumption|]. intros s3 t3 S3 _.
  pose proof (hold_facts _ _ (proj1 (ss_comp _ _ _ _ S3))) as [Wk Sk Lk Ck Mk Nk Bk Xk Uk Ok Gk Slk]. assert (holding d (octets_of d)) as HD by (split; [exact WD|split; [exact SD|reflexivity]]). pose proof (hold_facts d _ HD) as [Wd Sd Ld Cd Md Nd Bd Xd Ud Od Gd Sld].
  destruct (js_copy_ok (k_comp s3) d Wk WD) as (s' & -> & W' & V'). cbn [bind]. unfold good. cbn [fst snd]. revert V'. unfold s_copy. rewrite Uk, Ud, !s_len_value, !unit_value, cap_value, !oct_value by assumption. rewrite Sk, SD, <- Lk, Ok. cbn [Z.eqb Pos.eqb andb].
  destruct (zlen (l_out t3) <? j_max d) eqn:G; cbn [fst snd]; intros V'; [|reflexivity]. exists s'. split; [reflexivity|]. apply (value_held _ _ _ _ W' V').
Qed.
