(** Whatever packet arrives, MaraDNS gets through with it (server/MaraDNS.c): the search and the packet. *)
From Verif Require Import CBase Bits ModelDwStr SpecDwStr ProofDwStr SpecNames SpecMessage SpecAcl SpecDeadwoodMsg SpecQuery ModelJsStr SpecJsStr ProofJsStr ProofJsSearch
  ModelQueries SpecQueries ProofQueries ProofDwDnsStr ProofQuestion ProofHname ModelDecomp SpecDecomp ProofJsList ProofSqueeze ProofDecompList ModelMaraHash SpecMaraHash ProofMaraHash PropsMaraHash ModelServe SpecServe ProofServe ProofServeRun ProofServeFind ProofServeAll SpecServeSafe ProofServeSafe.

Definition st (s : js) : Prop := exists q, lk s q.
Definition st_len (n : Z) (s : js) : Prop := exists q, lk s q /\ zlen q <= n.
Lemma st_of n s : st_len n s -> st s. Proof. intros (q & K & _). exists q. exact K. Qed.
Lemma try_fine {A} (P : option A -> Prop) (Q : js -> Prop) m k : P None -> fine (fun rp : Z * js => fst rp = -1 \/ Q (snd rp)) m -> (forall rp, Q (snd rp) -> fine P (k rp)) ->
  fine P (bind m (fun rp => if fst rp =? JS_ERROR then Ok None else k rp)).
Proof. intros PN F K. eapply fine_bind; [exact F|]. intros rp X. change JS_ERROR with (-1). destruct (Z.eqb_spec (fst rp) (-1)); [apply fine_ok; exact PN|]. destruct X as [X|X]; [lia|]. apply K, X. Qed.
Lemma retype_st s t : st s -> fine (fun rp => st (snd rp)) (change_rtype s t).
Proof. intros (q & K). eapply fine_weak; [apply (retype_fine s q t K)|]. intros rp (q' & K' & _). exists q'. exact K'. Qed.
Lemma retype_len n s t : st_len n s -> fine (fun rp => st_len n (snd rp)) (change_rtype s t).
Proof. intros (q & K & L). eapply fine_weak; [apply (retype_fine s q t K)|]. intros rp (q' & K' & L' & _). exists q'. split; [exact K'|lia]. Qed.
Lemma type_st s : st s -> fine (fun _ => True) (get_rtype s). Proof. intros (q & K). apply (type_fine s q K). Qed.
Lemma fold_st s : st s -> fine (fun rp => st (snd rp)) (fold_case s).
Proof. intros (q & K). eapply fine_weak; [apply (fold_fine s q K)|]. intros rp (q' & K' & _). exists q'. exact K'. Qed.
Lemma make_st s : st s -> fine (fun rp => st (snd rp)) (make_starlabel s).
Proof. intros (q & K). eapply fine_weak; [apply (make_fine s q K)|]. intros rp (q' & K' & _). exists q'. exact K'. Qed.
Lemma copy_lk o q s : lk o q -> st s -> fine (fun rp => lk (snd rp) q) (js_copy o s).
Proof. intros K (y & H & _). destruct K as (K & L). destruct (copy_held _ _ _ _ _ _ K H L) as (s' & -> & H'). apply fine_ok. split; [exact H'|exact L]. Qed.
Lemma copy_st o q s : lk o q -> st s -> fine (fun rp => st (snd rp)) (js_copy o s).
Proof. intros K H. eapply fine_weak; [apply (copy_lk o q s K H)|]. intros rp X. exists q. exact X. Qed.
Lemma st_len_255 s : st s -> exists n, n < 256 /\ st_len n s. Proof. intros (q & K). exists (zlen q). destruct K as (K & L). split; [exact L|]. exists q. split; [split; assumption|lia]. Qed.
Lemma mu_same q q' : zlen q' = zlen q -> front q' = front q -> mu q' = mu q. Proof. intros L F. unfold mu. rewrite L, F. reflexivity. Qed.

Section Every.
Context {V : Type} (auth : V -> bool) (add : Z) (h : mhash V) (m : amap V) (c : conf) (J : Z -> Z) (raw : js) (p : list Z).
Hypothesis W : hwf add h.
Hypothesis R : rep h m.
Hypothesis HJ : junk_ok J.
Hypothesis HR : holding raw p.

Lemma raw_facts : bytes p /\ j_count raw = zlen p /\ zlen p <= j_max raw /\ (forall i, 0 <= i < zlen p -> rd (j_mem raw) i = Ok (at_ p i)).
Proof.
  destruct (held_mem (j_max raw) raw p (conj HR eq_refl)) as (r & E & LR & C & BQ & BR & CQ & S1 & M & SA & SM). split; [exact BQ|]. split; [exact C|]. split; [exact CQ|]. intros i I. rewrite E. apply rd_at_, I.
Qed.
Lemma udperror_fine rdv question error : (forall s, question = Some s -> exists cap x, held cap s x) -> fine (own p) (udperror J raw question error rdv).
Proof.
  intros HQ. destruct raw_facts as (BP & C & CM & G). unfold udperror. destruct ((j_count raw <? 2) || (j_max raw <? 3)) eqn:G2; [apply fine_ok; exact Logic.I|]. rewrite C in G2.
  destruct (rs_header p J 96 (mkqh (at_ p 0 * 256 + at_ p 1) 1 0 0 (if error =? TRUNCATED then 1 else 0) rdv 0 0 (if error =? TRUNCATED then 0 else error) (match question with Some _ => 1 | None => 0 end) 0 0 0)) as (s & -> & F); try assumption; try reflexivity; try lia.
  cbn [bind]. rewrite !G by lia. cbn [bind]. eapply try_fine; [exact Logic.I|exact F|]. intros rp HS. destruct question as [q|]; [|apply fine_ok; apply (rs_own _ _ _ _ HS); left; lia].
  destruct (HQ q eq_refl) as (cq & x & HX). eapply try_fine; [exact Logic.I|apply (rs_append _ _ _ _ _ _ _ HS HX)|]. intros rp2 HS2. eapply try_fine; [exact Logic.I|apply (rs_word _ _ _ _ 1 HS2); lia|]. intros rp3 HS3. apply fine_ok. apply (rs_own _ _ _ _ HS3). left. lia.
Qed.
Definition good (o : Z * outcome V) : Prop := about p (snd o).
Lemma sent_good o : own p o -> about p (@sent V o). Proof. destruct o; intros H; exact H. Qed.
Lemma error_fine rdv question error r : (forall s, question = Some s -> st s) -> fine good (bind (udperror J raw question error rdv) (fun o => Ok (r, sent o))).
Proof. intros HQ. eapply fine_bind; [apply udperror_fine|]. { intros s E. destruct (HQ s E) as (x & K & _). exists 256, x. exact K. } intros o X. apply fine_ok. apply sent_good, X. Qed.
Lemma some_st s : st s -> forall s', Some s = Some s' -> st s'. Proof. intros H s' [= <-]. exact H. Qed.
Lemma none_st : forall s', @None js = Some s' -> st s'. Proof. discriminate. Qed.
Lemma fail_fine rdv s : st s -> fine good (@serv_fail V c J raw rdv s).
Proof. intros H. unfold serv_fail. destruct (c_nofp c =? 1); [apply fine_ok; exact Logic.I|]. apply error_fine, some_st, H. Qed.
Lemma find_fine s : st s -> fine (fun _ => True) (find_rr add h s).
Proof. intros (q & K & _). rewrite (find_held add h m _ _ _ W R K). apply fine_ok. exact Logic.I. Qed.
Lemma list_fine s : st s -> fine (fun _ => True) (find_list add h s).
Proof. intros (q & K & _). rewrite (list_held add h m _ _ _ W R K). apply fine_ok. exact Logic.I. Qed.

(** *** The replies made on the spot *)
Section Id.
Variable (rdv id : Z).
Hypothesis L2 : 2 <= zlen p.
Hypothesis ID : id = at_ p 0 * 256 + at_ p 1.

Lemma any_fine o q : lk o q -> fine (own p) (any_hinfo J o id rdv).
Proof.
  intros (K & L). destruct raw_facts as (BP & _). unfold any_hinfo. destruct (rs_header p J 1024 (mkqh id 1 0 1 0 rdv 0 0 0 1 1 0 0)) as (s & -> & F); try assumption; try reflexivity; try lia.
  cbn [bind]. eapply try_fine; [exact Logic.I|exact F|]. intros rp HS. eapply try_fine; [exact Logic.I|apply (rs_append _ _ _ _ _ _ _ HS K)|]. intros rp2 HS2.
  eapply fine_bind; [apply (rs_words p 1024 [1; 49164; 13; 1; 0; 3600; 9; 1874; 17987; 14388; 14386]); [repeat (apply Forall_cons; [unfold word; lia|]); apply Forall_nil|exact HS2]|]. change (2 * zlen [1; 49164; 13; 1; 0; 3600; 9; 1874; 17987; 14388; 14386]) with 22.
  intros [s3|] HS3; [|apply fine_ok; exact Logic.I]. eapply try_fine; [exact Logic.I|apply (rs_byte _ _ _ _ 0 HS3)|]. intros rp4 HS4. apply fine_ok. apply (rs_own _ _ _ _ HS4). right. lia.
Qed.
Lemma digits_fine n : forall mem i v, 0 <= i -> i + Z.of_nat n <= zlen mem -> fine (fun _ => True) (ddip_digits n mem i v).
Proof.
  induction n as [|n IH]; intros mem i v I L; cbn [ddip_digits]; [apply fine_ok; exact Logic.I|]. destruct (zget_some mem i ltac:(lia)) as (b & EB). rewrite (rd_of_zget _ _ _ EB). cbn [bind]. destruct (_ || _); [apply fine_ok; exact Logic.I|]. apply IH; lia.
Qed.
Lemma labels_fine s q : lk s q -> forall n i ip, 0 <= i <= zlen q -> fine (fun e => match e with inl _ => True | inr (i', _) => 0 <= i' <= zlen q end) (ddip_labels n s i ip).
Proof.
  intros K. destruct (lk_mem s q K) as (r & E & LR & C & BQ & BR & CQ & S1 & M & SA). assert (zlen (j_mem s) = 259) as LM by (rewrite E, zlen_app; lia).
  induction n as [|n IH]; intros i ip I; cbn [ddip_labels]; [apply fine_ok; exact I|]. destruct (zget_some (j_mem s) i ltac:(lia)) as (b & EB). rewrite (rd_of_zget _ _ _ EB). cbn [bind].
  destruct ((b <? 1) || (3 <? b)) eqn:G; [apply fine_ok; exact Logic.I|]. cbv zeta. rewrite C. destruct (zlen q <? i + b + 1) eqn:G2; [apply fine_ok; exact Logic.I|].
  eapply fine_bind; [apply digits_fine; lia|]. intros [v|] _; [|apply fine_ok; exact Logic.I]. destruct (255 <? v); [apply fine_ok; exact Logic.I|]. apply IH. lia.
Qed.
Lemma quad_fine s q ip : lk s q -> fine (own p) (ddip_reply J s id ip).
Proof.
  intros K. destruct raw_facts as (BP & _). unfold ddip_reply. destruct (rs_header p J 512 (mkqh id 1 0 0 0 0 0 0 0 1 1 0 0)) as (s0 & -> & F); try assumption; try reflexivity; try lia. cbn [bind].
  destruct (negb ((0 <? id) && (id <? 65535))); [apply fine_ok; exact Logic.I|]. eapply try_fine; [exact Logic.I|exact F|]. intros rp H1. eapply try_fine; [exact Logic.I|apply (rs_append _ _ _ _ _ _ _ H1 (proj1 K))|]. intros rp2 H2. eapply try_fine; [exact Logic.I|apply (rs_word _ _ _ _ 1 H2); lia|]. intros rp3 H3.
  eapply (try_fine _ st); [exact Logic.I|eapply fine_weak; [apply (retype_st s 1); exists q; exact K|]; intros x X; right; exact X|]. intros rp4 (q4 & K4 & _). eapply try_fine; [exact Logic.I|apply (rs_append _ _ _ _ _ _ _ H3 K4)|]. intros rp5 H5. eapply try_fine; [exact Logic.I|apply (rs_word _ _ _ _ 1 H5); lia|]. intros rp6 H6. eapply try_fine; [exact Logic.I|apply (rs_dword _ _ _ _ 19770616 H6); lia|]. intros rp7 H7. eapply try_fine; [exact Logic.I|apply (rs_word _ _ _ _ 4 H7); lia|]. intros rp8 H8.
  eapply fine_bind; [apply (rs_octets p 512 ip _ _ H8)|]. intros [s9|] H9; apply fine_ok; [|exact Logic.I]. apply (rs_own _ _ _ _ H9). left. lia.
Qed.
Lemma ddip_fine s q : lk s q -> fine (fun e => own p (snd e)) (ddip_check J s id).
Proof.
  intros K. destruct (lk_mem s q K) as (r & E & LR & C & BQ & BR & CQ & S1 & M & SA). unfold ddip_check. destruct (negb _); [apply fine_ok; exact Logic.I|]. destruct (_ <=? _); [apply fine_ok; exact Logic.I|]. eapply fine_bind; [apply (type_fine s q K)|]. intros t _. destruct (_ && _); [apply fine_ok; exact Logic.I|]. destruct (_ <? _); [apply fine_ok; exact Logic.I|].
  eapply fine_bind; [apply (labels_fine s q K); pose proof (zlen_nonneg q); lia|]. intros [r0|(i & ip)] I; [apply fine_ok; exact Logic.I|]. destruct (zget_some (j_mem s) i) as (b & EB); [rewrite E, zlen_app; lia|]. rewrite (rd_of_zget _ _ _ EB). cbn [bind]. destruct (negb (b =? 0)); [apply fine_ok; exact Logic.I|].
  eapply fine_bind; [apply (quad_fine s q ip K)|]. intros [l|] X; apply fine_ok; exact X.
Qed.

(** *** The search *)
Section Question.
Variable (o : js) (q : list Z).
Hypothesis KO : lk o q.
Hypothesis QO : question_of p q.
Lemma oct_o : oct o = q. Proof. apply (oct_held 256 o q), KO. Qed.
Lemma st_o : st o. Proof. exists q. exact KO. Qed.
Lemma ok_fine (Q : js -> Prop) mm k : (forall s, Q s -> st s) -> fine (fun rp : Z * js => Q (snd rp)) mm -> (forall rp, Q (snd rp) -> fine good (k rp)) ->
  fine good (bind mm (fun rp => if fst rp =? JS_ERROR then serv_fail c J raw rdv (snd rp) else k rp)).
Proof. intros QS F K. eapply fine_bind; [exact F|]. intros rp X. destruct (fst rp =? JS_ERROR); [apply fail_fine, QS, X|apply K, X]. Qed.
Definition left_good {B} (P : B -> Prop) (e : (Z * outcome V) + B) : Prop := match e with inl o => good o | inr b => P b end.
Lemma failed_fine {B} (P : B -> Prop) s : st s -> fine (left_good P) (bind (serv_fail c J raw rdv s) (fun o => Ok (inl o))).
Proof. intros H. eapply fine_bind; [apply fail_fine, H|]. intros x X. apply fine_ok. exact X. Qed.

Lemma collision_fine s : st s -> fine (fun _ => True) (star_collision add h J s).
Proof.
  intros (x & K). destruct K as (K & L). pose proof (hold_facts s _ (proj1 K)) as [Ws S1 LQ C LM SM B SA U O _ _]. unfold star_collision. assert (js_length s = zlen x) as ->. { unfold js_length. rewrite SA, <- LQ. apply i32_small. lia. }
  destruct (Z.ltb_spec (zlen x) 2) as [G|G]; [apply fine_ok; exact Logic.I|]. destruct (create_held J 257 HJ ltac:(lia) ltac:(lia)) as (b & -> & HB). cbn [bind]. destruct (copy_held _ _ _ _ _ _ K HB ltac:(lia)) as (b' & -> & HB'). cbn [bind]. change (1 =? JS_ERROR) with false. cbv iota zeta.
  destruct x as [|x0 x]; [change (zlen (@nil Z)) with 0 in G; lia|]. rewrite zlen_cons in L. pose proof (tail_held _ _ _ _ HB' ltac:(lia)) as HT. eapply fine_bind; [apply retype_st; exists x; split; [exact HT|lia]|]. intros (r1 & s1) H1. cbn [snd] in H1. destruct (r1 =? JS_ERROR); [apply fine_ok; exact Logic.I|]. eapply fine_bind; [apply list_fine, H1|]. intros bb _. apply fine_ok. exact Logic.I.
Qed.
Lemma recursive_fine have nx ant : fine good (@recursive_call V c J raw rdv o have nx ant).
Proof. unfold recursive_call. destruct (negb have && negb (c_default c =? 1)); [apply error_fine, none_st|]. apply fine_ok. unfold good. cbn [snd about]. rewrite oct_o. exact QO. Qed.
Lemma end_search_fine n : forall s x ant, lk s x -> mu x < Z.of_nat n -> fine (left_good (fun e => st (fst e))) (end_search add h c J raw rdv n s o ant).
Proof.
  induction n as [|n IH]; intros s x ant K F. { pose proof (mu_range x). pose proof (zlen_nonneg x). lia. } cbn [end_search].
  eapply fine_bind; [apply (end_fine s x K)|]. intros (labs & s1) (x1 & K1 & D). cbn [fst snd] in *. assert (st s1) as S1 by (exists x1; exact K1). destruct (labs <=? 0) eqn:G1; [apply fine_ok; exact S1|]. specialize (D ltac:(lia)). destruct (120 <? labs); [apply (IH s1 x1); [exact K1|lia]|].
  eapply fine_bind; [apply find_fine, S1|]. intros [v|] _; [apply fine_ok; unfold left_good, good; cbn [snd about]; rewrite oct_o; exact QO|].
  eapply fine_bind; [apply type_st, S1|]. intros t _. destruct (t =? JS_ERROR); [apply failed_fine, S1|].
  eapply fine_bind; [apply (retype_fine s1 x1 255 K1)|]. intros (r2 & s2) (x2 & K2 & L2' & F2). cbn [snd] in K2. assert (st s2) as S2 by (exists x2; exact K2). destruct (r2 =? JS_ERROR); [apply failed_fine, S2|]. eapply fine_bind; [apply list_fine, S2|]. intros b _.
  eapply fine_bind; [apply (retype_fine s2 x2 t K2)|]. intros (r3 & s3) (x3 & K3 & L3 & F3). cbn [snd] in K3. assert (st s3) as S3 by (exists x3; exact K3). destruct (r3 =? JS_ERROR); [apply failed_fine, S3|]. apply (IH s3 x3); [exact K3|]. rewrite (mu_same x2 x3), (mu_same x1 x2) by assumption. lia.
Qed.
Lemma after_fine s have nx ant : st s -> fine good (after_stars add h c J raw rdv s o have nx ant).
Proof.
  intros H. unfold after_stars. destruct (c_default c =? 1); [|apply recursive_fine]. eapply (ok_fine (fun s => lk s q)); [intros s' K'; exists q; exact K'|apply (copy_lk o q s KO H)|]. intros rp K1. eapply fine_bind; [apply (end_search_fine 600 _ q _ K1)|].
  { pose proof (mu_range q). destruct KO as (_ & LO). change (Z.of_nat 600) with 600. lia. }
  intros [x|(s2 & ant2)] X; [apply fine_ok; exact X|]. cbn [left_good fst] in X. eapply fine_bind; [apply retype_st, X|]. intros (r3 & s3) H3. cbn [snd] in H3. destruct (r3 =? JS_ERROR); [apply fine_ok; exact Logic.I|]. eapply fine_bind; [apply find_fine, H3|]. intros [v|] _; apply fine_ok; [|exact Logic.I]. unfold good. cbn [snd about]. rewrite oct_o. exact QO.
Qed.
Lemma cname_search_fine n : forall s x, lk s x -> zlen x < Z.of_nat n -> fine (left_good (fun e => st (fst e))) (cname_search add h c J raw rdv n s o).
Proof.
  induction n as [|n IH]; intros s x K F. { pose proof (zlen_nonneg x). lia. } cbn [cname_search].
  eapply fine_bind; [apply (star_fine s x K)|]. intros (b & s1) (x1 & K1 & D). cbn [fst snd] in *. assert (st s1) as S1 by (exists x1; exact K1). destruct (b <=? 0) eqn:G1; [apply fine_ok; exact S1|]. replace (0 <? b) with true in D by lia.
  assert (forall s2 v, st_len (zlen x1) s2 -> fine (left_good (fun e => st (fst e))) (match v : option V with
    | Some v => ' (r, lookfor) <- js_copy o s2 ;; if r =? JS_ERROR then o <- serv_fail c J raw rdv lookfor ;; Ok (inl o) else ' (r, lookfor) <- change_rtype lookfor 5 ;; if r =? JS_ERROR then o <- serv_fail c J raw rdv lookfor ;; Ok (inl o) else Ok (inl (JS_SUCCESS, Star v (oct o) (oct lookfor) 0))
    | None => cname_search add h c J raw rdv n s2 o end)) as GO.
  { intros s2 [v|] (x2 & K2 & L2'); [|apply (IH s2 x2); [exact K2|lia]]. eapply fine_bind; [apply (copy_st o q s2 KO); exists x2; exact K2|]. intros (r3 & s3) H3. cbn [snd] in H3. destruct (r3 =? JS_ERROR); [apply failed_fine, H3|]. eapply fine_bind; [apply retype_st, H3|]. intros (r4 & s4) H4. cbn [snd] in H4. destruct (r4 =? JS_ERROR); [apply failed_fine, H4|]. apply fine_ok. unfold left_good, good. cbn [snd about]. rewrite oct_o. exact QO. }
  eapply fine_bind; [apply find_fine, S1|]. intros v _. cbv zeta. destruct (1 <=? c_star c); [|apply GO; exists x1; split; [exact K1|lia]].
  eapply fine_bind; [apply type_st, S1|]. intros t _. eapply fine_bind; [apply (retype_len (zlen x1) s1 255); exists x1; split; [exact K1|lia]|]. intros (r2 & s2) H2. cbn [snd] in H2. destruct (r2 =? JS_ERROR); [apply failed_fine, (st_of _ _ H2)|]. eapply fine_bind; [apply list_fine, (st_of _ _ H2)|]. intros bb _. eapply fine_bind; [apply find_fine, (st_of _ _ H2)|]. intros v2 _. destruct bb; [apply fine_ok; apply (st_of _ _ H2)|].
  eapply fine_bind; [apply (retype_len (zlen x1) s2 t H2)|]. intros (r3 & s3) H3. cbn [snd] in H3. destruct (r3 =? JS_ERROR); [apply failed_fine, (st_of _ _ H3)|]. apply GO, H3.
Qed.
Lemma star_cname_fine s have nx ant : st s -> fine good (star_cname add h c J raw rdv s o have nx ant).
Proof.
  intros H. unfold star_cname. destruct (7 <? c_dos c); [apply after_fine, H|]. eapply (ok_fine st); [auto|apply (copy_st o q s KO H)|]. intros rp1 H1. eapply (ok_fine st); [auto|apply fold_st, H1|]. intros rp2 H2. eapply (ok_fine st); [auto|apply make_st, H2|]. intros rp3 H3. eapply (ok_fine st); [auto|apply retype_st, H3|]. intros rp4 H4.
  eapply fine_bind; [apply find_fine, H4|]. intros [v|] _.
  - eapply (ok_fine st); [auto|apply (copy_st o q _ KO H4)|]. intros rp5 H5. eapply (ok_fine st); [auto|apply retype_st, H5|]. intros rp6 H6. apply fine_ok. unfold good. cbn [snd about]. rewrite oct_o. exact QO.
  - destruct H4 as (x4 & K4). eapply fine_bind; [apply (cname_search_fine 300 _ x4 K4); change (Z.of_nat 300) with 300; destruct K4; lia|]. intros [e|(s5 & b)] X; [apply fine_ok; exact X|]. apply after_fine, X.
Qed.
Lemma star_search_fine nx n : forall s x ant, lk s x -> zlen x < Z.of_nat n -> fine (left_good (fun e => st (fst e))) (star_search add h c J raw rdv n s o nx ant).
Proof.
  induction n as [|n IH]; intros s x ant K F. { pose proof (zlen_nonneg x). lia. } cbn [star_search].
  eapply fine_bind; [apply (star_fine s x K)|]. intros (b & s1) (x1 & K1 & D). cbn [fst snd] in *. assert (st s1) as S1 by (exists x1; exact K1). destruct (b <=? 0) eqn:G1; [apply fine_ok; exact S1|]. replace (0 <? b) with true in D by lia.
  eapply (fine_bind (fun _ => True)); [destruct (1 <=? c_star c); [apply type_st, S1|apply fine_ok; exact Logic.I]|]. intros t _. eapply fine_bind; [apply find_fine, S1|]. intros [v|] _; [apply fine_ok; unfold left_good, good; cbn [snd about]; rewrite oct_o; exact QO|].
  destruct (1 <=? c_star c); [|apply (IH s1 x1); [exact K1|lia]].
  eapply fine_bind; [apply (retype_len (zlen x1) s1 255); exists x1; split; [exact K1|lia]|]. intros (r2 & s2) H2. cbn [snd] in H2. pose proof (st_of _ _ H2) as S2. destruct (r2 =? JS_ERROR); [apply failed_fine, S2|]. eapply fine_bind; [apply list_fine, S2|]. intros bb _.
  eapply (fine_bind (fun _ => True)); [destruct bb; [apply fine_ok; exact Logic.I|]; destruct (c_star c =? 2); [apply collision_fine, S2|apply fine_ok; exact Logic.I]|]. intros k _. cbv zeta. destruct (k =? -1); [apply failed_fine, S2|]. destruct (k =? 1); [apply fine_ok; unfold left_good, good; cbn [snd about]; rewrite oct_o; exact QO|].
  eapply fine_bind; [apply (retype_len (zlen x1) s2 t H2)|]. intros (r3 & s3) H3. cbn [snd] in H3. destruct (r3 =? JS_ERROR); [apply failed_fine, (st_of _ _ H3)|]. destruct H3 as (x3 & K3 & L3). apply (IH s3 x3); [exact K3|lia].
Qed.
Lemma stars_from_fine s have nx : st s -> fine good (stars_from add h c J raw rdv s o have nx).
Proof.
  intros H. unfold stars_from. eapply (ok_fine st); [auto|apply (copy_st o q s KO H)|]. intros rp1 H1. eapply (ok_fine st); [auto|apply fold_st, H1|]. intros rp2 H2. eapply (ok_fine st); [auto|apply make_st, H2|]. intros rp3 H3.
  eapply fine_bind; [apply find_fine, H3|]. intros [v|] _; [apply fine_ok; unfold good; cbn [snd about]; rewrite oct_o; exact QO|].
  assert (forall s ant, st s -> fine good (k <- (if c_star c =? 2 then star_collision add h J s else Ok 0) ;; if k =? -1 then serv_fail c J raw rdv s else if k =? 1 then Ok (JS_SUCCESS, Missing nx (oct o) ant) else
     e <- star_search add h c J raw rdv 300 s o nx ant ;; match e with inl o => Ok o | inr (s, ant) => star_cname add h c J raw rdv s o have nx ant end)) as NEXT.
  { clear - W R HJ HR L2 ID KO QO. intros s ant H. eapply (fine_bind (fun _ => True)); [destruct (c_star c =? 2); [apply collision_fine, H|apply fine_ok; exact Logic.I]|]. intros k _. destruct (k =? -1); [apply fail_fine, H|]. destruct (k =? 1); [apply fine_ok; unfold good; cbn [snd about]; rewrite oct_o; exact QO|].
    destruct H as (x & K). eapply fine_bind; [apply (star_search_fine nx 300 _ x _ K); change (Z.of_nat 300) with 300; destruct K; lia|]. intros [e|(s5 & b)] X; [apply fine_ok; exact X|]. apply star_cname_fine, X. }
  cbv zeta. destruct (1 <=? c_star c); [|apply NEXT, H3]. eapply fine_bind; [apply type_st, H3|]. intros t _. eapply (ok_fine st); [auto|apply retype_st, H3|]. intros rp4 H4. eapply fine_bind; [apply list_fine, H4|]. intros b _. eapply (ok_fine st); [auto|apply retype_st, H4|]. intros rp5 H5. apply NEXT, H5.
Qed.
Lemma stars_fine s have nx : st s -> fine good (stars add h c J raw rdv s o have nx).
Proof.
  intros H. unfold stars. destruct (17 <? c_dos c); [apply after_fine, H|]. destruct (1 <=? c_star c); [|apply stars_from_fine, H]. eapply (ok_fine st); [auto|apply (copy_st o q s KO H)|]. intros rp1 H1. eapply (ok_fine st); [auto|apply fold_st, H1|]. intros rp2 H2. eapply (ok_fine st); [auto|apply retype_st, H2|]. intros rp3 H3.
  eapply fine_bind; [apply list_fine, H3|]. intros [|] _; [apply after_fine, H3|apply stars_from_fine, H3].
Qed.
Lemma ns_search_fine n : forall s x, lk s x -> zlen x < Z.of_nat n -> fine (left_good (fun e => st (fst (fst e)))) (ns_search auth add h c J raw rdv n s o).
Proof.
  induction n as [|n IH]; intros s x K F. { pose proof (zlen_nonneg x). lia. } cbn [ns_search]. assert (st s) as S0 by (exists x; exact K).
  eapply fine_bind; [apply find_fine, S0|]. intros [v|] _.
  - destruct (auth v); [|apply fine_ok; unfold left_good, good; cbn [snd about]; rewrite oct_o; exact QO]. eapply fine_bind; [apply retype_st, S0|]. intros (r2 & s2) H2. cbn [snd] in H2. destruct (r2 =? JS_ERROR); [apply failed_fine, H2|]. eapply fine_bind; [apply find_fine, H2|]. intros nx _. apply fine_ok. exact H2.
  - eapply fine_bind; [apply (label_fine s x K)|]. intros (b & s1) (x1 & K1 & D). cbn [fst snd] in *. destruct (0 <? b); [apply (IH s1 x1); [exact K1|lia]|]. apply fine_ok. exists x1. exact K1.
Qed.
Lemma delegation_fine s : st s -> fine good (delegation auth add h c J raw rdv id s o).
Proof.
  intros H. unfold delegation. destruct (11 <? c_dos c); [apply stars_fine, H|]. eapply (ok_fine st); [auto|apply retype_st, H|]. intros rp1 H1. eapply fine_bind; [apply find_fine, H1|]. intros v _. cbv zeta.
  match goal with |- fine good (match v with Some v => if auth v then ?X else _ | None => _ end) => assert (fine good X) as NEXT end.
  { eapply (fine_bind (fun e => own p (snd e))); [destruct (c_nofp c =? 1); [apply fine_ok; exact Logic.I|apply (ddip_fine o q KO)]|]. intros (r & od) HO. cbn [snd] in HO. destruct (r =? JS_SUCCESS); [apply fine_ok; apply sent_good, HO|]. destruct (r =? JS_ERROR); [apply fail_fine, H1|]. destruct (_ || _); [|apply stars_fine, H1].
    destruct H1 as (x1 & K1). eapply fine_bind; [apply (ns_search_fine 300 _ x1 K1); change (Z.of_nat 300) with 300; destruct K1; lia|]. intros [e|((s5 & b) & nx)] X; [apply fine_ok; exact X|]. apply stars_fine, X. }
  destruct v as [v|]; [|exact NEXT]. destruct (auth v); [exact NEXT|]. apply fine_ok. unfold good. cbn [snd about]. rewrite oct_o. exact QO.
Qed.
Lemma reports_fine s version : st s -> fine good (reports auth add h c J raw rdv id s o version).
Proof.
  intros H. unfold reports. destruct (_ && _); [apply delegation_fine, H|]. cbv zeta. destruct (_ =? JS_SUCCESS); [apply fine_ok; unfold good; cbn [snd about]; rewrite oct_o; exact QO|]. destruct (_ =? JS_ERROR); [apply fail_fine, H|]. destruct (_ && _); [apply recursive_fine|].
  destruct (_ =? JS_SUCCESS); [apply fine_ok; unfold good; cbn [snd about]; rewrite oct_o; exact QO|]. destruct (_ =? JS_ERROR); [apply fail_fine, H|]. apply delegation_fine, H.
Qed.
Lemma hunt_fine s : st s -> fine (fun r => match r with Some o => about p o | None => True end) (hunt_single_query add h s o).
Proof.
  intros H. unfold hunt_single_query. eapply fine_bind; [apply type_st, st_o|]. intros t1 _. eapply fine_bind; [apply type_st, H|]. intros t2 _. destruct (_ || _); [apply fine_ok; exact Logic.I|]. eapply fine_bind; [apply find_fine, H|]. intros [v|] _; apply fine_ok; [|exact Logic.I]. cbn [about]. rewrite oct_o. exact QO.
Qed.
Lemma exact_fine s : st s -> fine good (exact auth add h c J raw rdv id s o).
Proof.
  intros H. unfold exact. eapply fine_bind; [apply hunt_fine, H|]. intros [r|] X; [apply fine_ok; exact X|]. destruct (7 <? c_dos c); [apply reports_fine, H|]. eapply (ok_fine st); [auto|apply retype_st, H|]. intros rp1 H1. eapply fine_bind; [apply hunt_fine, H1|]. intros [r|] Y; [apply fine_ok; exact Y|]. apply reports_fine, H1.
Qed.
End Question.

Lemma with_fine s q o : lk s q -> question_of p q -> st o -> fine good (with_question auth add h c J raw rdv id s o).
Proof.
  intros K QO H. unfold with_question. eapply fine_bind; [apply (copy_lk s q o K H)|]. intros (r1 & o1) KO. cbn [snd] in KO. assert (st s) as S0 by (exists q; exact K). destruct (r1 =? JS_ERROR); [apply fail_fine, S0|].
  eapply fine_bind; [apply fold_st, S0|]. intros (r2 & s2) H2. cbn [snd] in H2. eapply fine_bind; [apply (type_fine o1 q KO)|]. intros t _. cbv zeta. pose proof (oct_o o1 q KO) as EO.
  destruct (t =? JS_ERROR); [apply fail_fine, H2|]. destruct (_ && _); [apply fine_ok; unfold good; cbn [snd about]; rewrite EO; exact QO|]. destruct (_ && _); [apply fine_ok; unfold good; cbn [snd about]; rewrite EO; exact QO|].
  destruct (_ || _); [destruct (c_nofp c =? 1); [apply fine_ok; exact Logic.I|apply error_fine, some_st, H2]|]. destruct (_ || _); [destruct (c_nofp c =? 1); [apply fine_ok; exact Logic.I|apply error_fine, some_st, H2]|].
  destruct (c_dos c =? 78); [apply (recursive_fine o1 q KO QO)|]. destruct (c_dos c =? 79); [apply (reports_fine o1 q KO QO _ _ H2)|]. destruct (_ && _); [|apply (exact_fine o1 q KO QO _ H2)].
  destruct (negb (c_8482 c =? 0)).
  - eapply fine_bind; [apply (any_fine o1 q KO)|]. intros [l|] X; [apply fine_ok; exact X|]. apply fail_fine, H2.
  - destruct (_ =? JS_SUCCESS); [apply fine_ok; unfold good; cbn [snd about]; rewrite EO; exact QO|]. destruct (_ =? JS_ERROR); [apply fail_fine, H2|]. apply (exact_fine o1 q KO QO _ H2).
Qed.
End Id.

Lemma query_fine J1 J2 : junk_ok J1 -> junk_ok J2 -> fine good (proc_query auth add h c J1 J2 J raw).
Proof.
  intros HJ1 HJ2. destruct raw_facts as (BP & C & CM & G). pose proof (hold_facts raw p HR) as [Ws S1 LQ CC LM SM B SA U O _ SL]. unfold proc_query. rewrite SA, S1. change (negb (1 =? 1)) with false. cbn [negb].
  destruct (Z.ltb_spec (j_max raw) 14) as [G1|G1].
  { assert (read_hdr raw = Ok None) as ->. { unfold read_hdr. destruct (negb (octet_string raw)); [reflexivity|]. replace (j_max raw <? 14) with true by lia. reflexivity. } cbn [bind]. apply error_fine, none_st. }
  rewrite read_hdr_ok by assumption. cbn [bind]. set (hd := decode _). cbv zeta.
  assert (forall e, fine good (if c_nofp c =? 1 then Ok (JS_SUCCESS, Quiet) else o <- udperror J raw None e (q_rd hd) ;; Ok (JS_SUCCESS, sent o))) as ERR by (intros e; destruct (c_nofp c =? 1); [apply fine_ok; exact Logic.I|apply error_fine, none_st]).
  destruct (negb (q_qr hd =? 0)); [apply fine_ok; exact Logic.I|]. destruct (negb (q_qd hd =? 1)); [apply ERR|]. rewrite C. destruct (zlen p <? 14) eqn:G2; [apply ERR|]. rewrite (dlabel_length_list raw p 12 HR) by lia. cbn [bind].
  pose proof (l_len_range 258 p 12 0 ltac:(lia) ltac:(lia)) as RG. rewrite <- len_at_def in RG. set (len := len_at p 12) in *. clearbody len. destruct ((len <? 0) || (255 <? len)) eqn:G3; [apply ERR|]. destruct (zlen p <? 16 + len) eqn:G4; [apply ERR|].
  destruct (create_held J1 256 HJ1 ltac:(lia) ltac:(lia)) as (s0 & -> & H0). destruct (create_held J2 256 HJ2 ltac:(lia) ltac:(lia)) as (o0 & -> & HO). cbn [bind].
  assert (q_id hd = at_ p 0 * 256 + at_ p 1) as ID.
  { unfold hd, decode. cbn [q_id]. rewrite SL by lia. destruct p as [|a [|b p']]; try (rewrite ?zlen_cons in G2; change (zlen (@nil Z)) with 0 in G2; lia). apply Forall_cons_iff in BP as (BA & BP). apply Forall_cons_iff in BP as (BB & _). apply (pair16_val a b BA BB). }
  destruct (Z.ltb_spec (len + 2) 256) as [G5|G5].
  - destruct (substr_held (j_max raw) raw p 256 s0 [] 12 (len + 2) (conj HR eq_refl) H0) as (s & -> & HS); try lia. cbn [bind]. change (1 =? JS_ERROR) with false. cbv iota. assert (zlen (zslice p 12 (len + 2)) = len + 2) as LS by (apply zlen_zslice; lia). assert (lk s (zslice p 12 (len + 2))) as K by (split; [exact HS|lia]).
    assert (st s) as S0 by (eexists; exact K). destruct (negb (q_opcode hd =? 0)); [apply error_fine, some_st, S0|]. rewrite !G by lia. cbn [bind]. destruct (_ && _); [destruct (c_nofp c =? 1); [apply fine_ok; exact Logic.I|apply error_fine, some_st, S0]|].
    apply (with_fine (q_rd hd) (q_id hd) ltac:(lia) ID s _ o0 K); [|exists []; split; [exact HO|reflexivity]]. unfold question_of. rewrite LS. split; [lia|]. split; [lia|reflexivity].
  - destruct H0 as (H0 & M0). pose proof (hold_facts s0 [] H0) as [Wt St Lt Ct Mt Nt Bt Xt Ut Ot _ _]. destruct (js_substr_ok raw s0 12 (len + 2) Ws Wt ltac:(lia) ltac:(lia) ltac:(lia)) as (s' & -> & W' & V'). revert V'. unfold s_substr. rewrite cap_value, M0. replace (len + 2 <? 256) with false by lia. rewrite andb_false_r. cbn [fst snd bind]. intros V'. change (-1 =? JS_ERROR) with true. cbv iota.
    apply fail_fine. exists []. split; [|reflexivity]. unfold value_of in V'. apply (value_held _ _ (j_enc s0) _ W'). unfold value_of. rewrite V', St, M0, Ot. reflexivity.
Qed.
End Every.
