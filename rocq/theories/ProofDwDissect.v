(** The whole way from a reply to what is stored. *)
From Verif Require Import CBase Bits SpecNames SpecMessage SpecDeadwoodMsg SpecDwStr SpecAnswer SpecReply ModelDwStr ModelDwCompress ModelDwDnsStr ModelDwRecurse ProofDwStr ProofDwCompressSafe ProofDwDecomp ProofMessage ProofDwDnsStr ProofDwRotate ProofDwDnsSafe ProofDwRecurseSafe ProofDwNames ProofDwReply.

Lemma fetch_last s X v : dok s -> con s = X ++ num16 v -> 0 <= v < 65536 -> dw_fetch_u16 s (-1) = Ok v.
Proof.
  intros D C Hv. pose proof (f_equal zlen C) as Lc. rewrite zlen_app, zlen_con in Lc by auto. change (zlen (num16 v)) with 2 in Lc. pose proof (zlen_nonneg X). rewrite <- (fetch_mid s X v [] D) by (rewrite ?app_nil_r; auto).
  pose proof D as [[_ L M _] _]. unfold dw_fetch_u16. rewrite (dok_sane _ D). cbn [negb]. cbv zeta. change (-1 <? 0) with true. cbv iota. rewrite i32_small by lia. replace (-1 + d_len s - 1) with (zlen X) by lia. destruct (Z.ltb_spec (zlen X) 0); [lia|]. replace (zlen X <? 0) with false by lia. reflexivity.
Qed.

(** *** Looking for the answer among the marks *)
Definition num (qt : Z) : Z := dwx_rrtype_number qt.
Lemma num_range qt : num qt <= 31. Proof. unfold num, dwx_rrtype_number. destruct (_ <? _); [lia|]. destruct (Z.leb_spec 30 qt); lia. Qed.
Lemma num_5 qt : qt <> 5 -> num qt <> 5. Proof. intros H. unfold num, dwx_rrtype_number. destruct (_ <? _); [lia|]. destruct (_ <=? _); lia. Qed.
Lemma an_type_ok qt anc ms : qt <> 5 -> qt <> 255 -> forall n T0 T1, (n <= length ms)%nat -> Forall (fun m => m = 36 \/ m = num qt) ms ->
  an_type_loop n (T0 ++ ms ++ T1) anc qt (zlen T0) = Ok (if existsb (Z.eqb (num qt)) (firstn n ms) then Some 0 else None).
Proof.
  intros H5 H255. pose proof (num_range qt). pose proof (num_5 qt H5). induction ms as [|m ms IH]; intros n T0 T1 Hn F; destruct n as [|n]; cbn [length] in Hn; try lia; cbn [an_type_loop firstn existsb]; try reflexivity.
  inversion F as [|? ? Fm F']; subst. erewrite rd_at by reflexivity. cbn [bind]. replace (qt =? 255) with false by lia. cbn [andb]. rewrite orb_false_r. fold (num qt).
  rewrite (Z.eqb_sym (num qt) m). destruct (Z.eqb_spec m (num qt)); [reflexivity|]. destruct Fm as [-> |]; [|lia]. change (36 =? 5) with false. change (36 =? 36) with true. cbn [negb orb]. cbn [app]. rewrite (snoc_app T0 36). replace (zlen T0 + 1) with (zlen (T0 ++ [36])) by (rewrite zlen_app; reflexivity). apply IH; [lia|assumption].
Qed.
Lemma after_cname_ok qt ms : qt <> 5 -> qt <> 255 -> forall n T0 T1, (n <= length ms)%nat -> Forall (fun m => m = 5 \/ m = 36 \/ m = num qt) ms ->
  after_cname n (T0 ++ ms ++ T1) qt (zlen T0) = Ok (if existsb (Z.eqb (num qt)) (firstn n ms) then 0 else 17).
Proof.
  intros H5 H255. pose proof (num_range qt). pose proof (num_5 qt H5). induction ms as [|m ms IH]; intros n T0 T1 Hn F; destruct n as [|n]; cbn [length] in Hn; try lia; cbn [after_cname firstn existsb]; try reflexivity.
  inversion F as [|? ? Fm F']; subst. erewrite rd_at by reflexivity. cbn [bind]. replace (qt =? 255) with false by lia. cbn [andb]. rewrite orb_false_r. fold (num qt).
  rewrite (Z.eqb_sym (num qt) m). destruct (Z.eqb_spec m (num qt)); [reflexivity|]. replace (negb (m =? 5) && negb (m =? 36)) with false by lia. cbn [app orb]. rewrite (snoc_app T0 m). replace (zlen T0 + 1) with (zlen (T0 ++ [m])) by (rewrite zlen_app; reflexivity). apply IH; [lia|assumption].
Qed.

(** *** CNAME referrals *)
Lemma cname_entries_app a b : cname_entries (a ++ b) = cname_entries a ++ cname_entries b.
Proof. unfold cname_entries. rewrite map_app, concat_app. reflexivity. Qed.
Lemma get_string_ok J s o n : junk_ok J -> dok s -> named s o n -> zlen n < 200 -> d_len s < 1000000 -> exists t, dwx_get_dns_string J s o = Ok (Some t) /\ dok t /\ con t = wire n /\ d_len t = zlen (wire n).
Proof.
  intros HJ D N Hl Hs. pose proof N as (G & I). pose proof (in_at_range _ _ _ D I) as R. pose proof (zlen_wire_pos n). unfold dwx_get_dns_string. replace ((o <? 0) || (d_len s <? o)) with false by lia. rewrite (dn_end_named _ _ _ D N Hl). cbn [bind].
  replace (o + zlen (wire n) <? o) with false by lia. replace (o + zlen (wire n) - o) with (zlen (wire n)) by lia. destruct (dw_substr_ok J s o (zlen (wire n)) 1 HJ D) as (t & E & Dt & Ct & _ & Lt); try lia. exists t. rewrite Ct. rewrite (in_at_slice _ _ _ I). auto.
Qed.
Lemma last_entry_snoc rs r : last_entry (rs ++ [r]) = zlen (cname_entries rs).
Proof. unfold last_entry. rewrite removelast_last. reflexivity. Qed.

Lemma cname_refer_loop_ok J p L rs : junk_ok J -> dok p -> d_len p < 1000000 -> forall ts pre T0 T1 out done, sec p L (pre ++ rs) -> length ts = length rs -> length T0 = length pre -> dok out -> con out = cname_entries done ->
  Forall (fun r => rr_type r = 5 /\ zlen (wire (target r)) <= 251) (kept ts rs) -> Forall (fun t => t = 36 \/ t = 5) ts -> d_len out + zlen (cname_entries (kept ts rs)) < d_max out ->
  exists out', cname_refer_loop (length rs) J p L (T0 ++ ts ++ T1) (Z.of_nat (length pre)) out (last_entry done) = Ok (out', last_entry (done ++ kept ts rs)) /\ dok out' /\ con out' = cname_entries (done ++ kept ts rs) /\ d_max out' = d_max out.
Proof.
  intros HJ D Hs. induction rs as [|r rs IH]; intros ts pre T0 T1 out done S Et E0 Do Co F5 Ft Hroom; destruct ts as [|t ts]; try discriminate Et; cbn [length cname_refer_loop kept].
  - exists out. rewrite app_nil_r. auto.
  - injection Et as Et. inversion Ft as [|? ? Ht Ft']; subst. erewrite rd_at; [|reflexivity|unfold zlen; lia]. cbn [bind]. rewrite <- (of_nat_snoc pre r). cbn [kept] in F5, Hroom.
    assert (sec p L ((pre ++ [r]) ++ rs)) as S' by (rewrite <- app_assoc; exact S). cbn [app]. rewrite (snoc_app T0 t (ts ++ T1)).
    destruct Ht as [-> | ->].
    { change (36 =? 36) with true in *. cbn [orb] in *. apply IH; auto. rewrite !length_snoc. lia. }
    change ((5 =? 36) || (5 =? 37)) with false in *. cbv iota in *. change (5 =? 36) with false. change (5 =? 5) with true. cbn [negb]. cbv iota. inversion F5 as [|? ? (Tr & Wr) F5']; subst.
    destruct (S (length pre) r (nth_error_mid _ _ _)) as (o & _ & Eo1 & R). rewrite Eo1. cbn [bind]. pose proof R as (_ & _ & P). destruct (proper_target r P (or_introl Tr)) as (_ & (_ & Hl)).
    destruct (get_string_ok J p (o + ow r + 10) (target r) HJ D (rec_target _ _ _ D R (or_introl Tr)) Hl Hs) as (tmp & -> & Dt & Ct & Lt). cbn [bind]. replace (256 <? d_len tmp) with false by lia. cbv zeta.
    unfold cname_entries in Hroom. cbn [map concat] in Hroom. rewrite zlen_app in Hroom. fold (cname_entries (kept ts rs)) in Hroom. unfold cname_entry in Hroom. rewrite zlen_app in Hroom. change (zlen (num16 _)) with 2 in Hroom. pose proof (zlen_nonneg (cname_entries (kept ts rs))). pose proof (zlen_wire_pos (target r)).
    rewrite Lt. destruct (push_num out (zlen (wire (target r))) Do ltac:(lia) ltac:(lia)) as (o1 & -> & D1 & C1 & M1 & L1). cbn [bind]. change (0 =? -1) with false. cbv iota.
    destruct (dw_append_ok tmp o1 Dt D1 ltac:(lia)) as (o2 & -> & D2 & C2 & M2). cbn [bind]. change (0 =? -1) with false. cbv iota.
    assert (d_len out = last_entry (done ++ [r])) as Lo. { rewrite last_entry_snoc, <- Co, zlen_con by auto. reflexivity. }
    rewrite Lo. destruct (IH ts (pre ++ [r]) (T0 ++ [5]) T1 o2 (done ++ [r])) as (o3 & E3 & D3 & C3 & M3); auto.
    + rewrite !length_snoc. lia.
    + rewrite C2, C1, Co, Ct, cname_entries_app. unfold cname_entries at 3. cbn [map concat]. rewrite app_nil_r. unfold cname_entry. rewrite <- app_assoc. reflexivity.
    + assert (d_len o2 = d_len o1 + d_len tmp) as -> by (rewrite <- !zlen_con by auto; rewrite C2, zlen_app; reflexivity). lia.
    + exists o3. rewrite <- (app_assoc done) in E3, C3. cbn [app] in E3, C3. split; [exact E3|]. split; [exact D3|]. split; [exact C3|]. lia.
Qed.

(** *** Putting the parts together *)
Lemma retype_pad f (rs : list rr) ts : length ts = length rs -> retype (Z.to_nat (zlen rs)) f 0 (pad ts) = Ok (pad (map f ts)).
Proof.
  intros E. pose proof (retype_ok f ts [] []) as R. cbn [app] in R. rewrite !app_nil_r in R. change (zlen (@nil Z)) with 0 in R. replace (Z.to_nat (zlen rs)) with (length ts) by (unfold zlen; lia). destruct ts as [|x ts]; [reflexivity|]. exact R.
Qed.
Definition finish (Jz Jo J : Z -> Z) (inp query bail : dwstr) (v : details) : res dwstr :=
  '(type, v) <- dwx_determine_answer_type v query inp ;;
  if type =? 23 then dwx_answer_in_ar Jo J v inp
  else
    v <- (if type =? 16 then v <- dwx_check_bailiwick_ns_section v query bail ;; dwx_link_ns_records v else Ok v) ;;
    dwx_make_cache_string Jz Jo J v type.
Definition ns_mark (m : Z) : Z := if negb (m =? 2) && negb (m =? 6) then 36 else m.
Definition ar_mark (m : Z) : Z := if negb (m =? 1) && negb (m =? 28) then 36 else m.
Lemma kept_none {A} (rs : list rr) (l : list A) : kept (map (fun _ => 36) l) rs = [].
Proof. revert rs. induction l as [|x l IH]; intros [|r rs]; cbn [map kept]; auto. change ((36 =? 36) || (36 =? 37)) with true. cbv iota. apply IH. Qed.
Lemma ty_kept r : ((ty r =? 36) || (ty r =? 37)) = false.
Proof. unfold ty. pose proof (num_range (rr_type r)) as N. unfold num in N. lia. Qed.
Lemma kept_all rs rest ts : kept (map ty rs ++ ts) (rs ++ rest) = rs ++ kept ts rest.
Proof. induction rs as [|r rs IH]; cbn [map app kept]; [reflexivity|]. rewrite ty_kept, IH. reflexivity. Qed.
Lemma kept_filter (f : rr -> bool) rs : kept (map (fun r => if f r then ty r else 36) rs) rs = filter f rs.
Proof. induction rs as [|r rs IH]; cbn [map kept filter]; [reflexivity|]. destruct (f r); [rewrite ty_kept, IH; reflexivity|]. change ((36 =? 36) || (36 =? 37)) with true. exact IH. Qed.

Lemma ty_eq r n : 1 <= n < 30 -> (ty r =? n) = (rr_type r =? n).
Proof. intros Hn. unfold ty, dwx_rrtype_number. destruct (Z.ltb_spec (rr_type r) 1); [lia|]. destruct (Z.leb_spec 30 (rr_type r)); lia. Qed.
Lemma ns_mark_eq r : ns_mark (ty r) = if ns_or_soa r then ty r else 36.
Proof. unfold ns_mark, ns_or_soa. rewrite !ty_eq by lia. destruct (rr_type r =? 2), (rr_type r =? 6); reflexivity. Qed.
Lemma ar_mark_eq r : ar_mark (ty r) = if address r then ty r else 36.
Proof. unfold ar_mark, address. rewrite !ty_eq by lia. destruct (rr_type r =? 1), (rr_type r =? 28); reflexivity. Qed.
Definition ns_marks (rs : list rr) : list Z := map (fun r => if ns_or_soa r then ty r else 36) rs.
Definition ar_marks (rs : list rr) : list Z := map (fun r => if address r then ty r else 36) rs.
Lemma find_in_ar_ok query inp L q qt rest a : dok query -> dok inp -> named query 0 q -> comparable q -> existsb (asked_for q qt) a = false -> forall pre, sec inp L (pre ++ a ++ rest) ->
  find_in_ar (length (a ++ rest)) query inp L qt (Z.of_nat (length pre)) = find_in_ar (length rest) query inp L qt (Z.of_nat (length (pre ++ a))).
Proof.
  intros Dq Di Nq Pq. induction a as [|r a IH]; intros Ex pre S. { rewrite app_nil_r. reflexivity. }
  cbn [existsb] in Ex. apply orb_false_iff in Ex as (Er & Ex). cbn [app length find_in_ar]. destruct (step_facts inp query q Di Dq Nq Pq L pre r (a ++ rest) S) as (o & -> & E1 & _ & E2 & E3). cbn [bind]. rewrite E1. cbn [bind]. rewrite E2. cbn [bind]. rewrite E3. cbn [bind].
  unfold asked_for in Er. rewrite (same_name_sym (rr_owner r) q) in Er. replace (((if same_name q (rr_owner r) then 1 else 0) =? 1) && (rr_type r =? qt)) with false by (destruct (same_name q (rr_owner r)); cbn [andb] in *; auto).
  rewrite <- (of_nat_snoc pre r). rewrite IH; auto; rewrite <- app_assoc; [reflexivity|exact S].
Qed.
Lemma find_in_ar_hit query inp L q qt r b : dok query -> dok inp -> named query 0 q -> comparable q -> asked_for q qt r = true -> forall pre, sec inp L (pre ++ r :: b) ->
  find_in_ar (length (r :: b)) query inp L qt (Z.of_nat (length pre)) = Ok (Some (Z.of_nat (length pre))).
Proof.
  intros Dq Di Nq Pq Er pre S. cbn [app length find_in_ar]. destruct (step_facts inp query q Di Dq Nq Pq L pre r b S) as (o & -> & E1 & _ & E2 & E3). cbn [bind]. rewrite E1. cbn [bind]. rewrite E2. cbn [bind]. rewrite E3. cbn [bind].
  unfold asked_for in Er. rewrite (same_name_sym (rr_owner r) q) in Er. apply andb_prop in Er as (-> & ->). reflexivity.
Qed.
Lemma in_ar_loop_skip J p L rs rest : forall pre T0 ts T1 tmp d, length T0 = length pre -> length ts = length rs -> Forall (fun m => m <> 38) ts ->
  answer_in_ar_loop (length (rs ++ rest)) J p L (T0 ++ ts ++ T1) (Z.of_nat (length (pre : list rr))) tmp d = answer_in_ar_loop (length (rest : list rr)) J p L ((T0 ++ ts) ++ T1) (Z.of_nat (length (pre ++ rs))) tmp d.
Proof.
  induction rs as [|r rs IH]; intros pre T0 ts T1 tmp d E0 El F; destruct ts as [|m ts]; try discriminate El. { rewrite !app_nil_r. reflexivity. }
  injection El as El. inversion F as [|? ? Fm F']; subst. cbn [app length answer_in_ar_loop]. erewrite rd_at; [|reflexivity|unfold zlen; lia]. cbn [bind].
  assert (forall tmp d, answer_in_ar_loop (length (rs ++ rest)) J p L (T0 ++ m :: ts ++ T1) (Z.of_nat (length pre) + 1) tmp d = answer_in_ar_loop (length rest) J p L ((T0 ++ m :: ts) ++ T1) (Z.of_nat (length (pre ++ r :: rs))) tmp d) as A.
  { intros tmp' d'. rewrite <- (of_nat_snoc pre r), (snoc_app T0 m (ts ++ T1)), IH; auto; [|rewrite !length_snoc; lia]. rewrite (snoc_app T0 m ts), (snoc_app pre r rs). reflexivity. }
  destruct tmp; [apply A|]. replace (m =? 38) with false by lia. apply A.
Qed.

Section DISSECT.
  Variables Jz Jo J : Z -> Z.
  Hypothesis HJz : junk_ok Jz.
  Hypothesis HJo : junk_ok Jo.
  Hypothesis HJ : junk_ok J.
  Variables inp query bail : dwstr.
  Variables an ns ar : list rr.
  Variable t : Z.
  Hypothesis H : holds inp an ns ar t.
  Hypothesis Ht : t = 0 \/ t = 1.
  Hypothesis Pr : Forall proper_rr (an ++ ns ++ ar).
  Variables q z : name.
  Variable qt : Z.
  Hypothesis Dq : dok query.
  Hypothesis Db : dok bail.
  Hypothesis Cq : con query = wire q ++ num16 qt.
  Hypothesis Gq : good_name q.
  Hypothesis Rq : 0 <= qt < 65536.
  Hypothesis Nz : named bail 0 z.
  Hypothesis Pq : comparable q.
  Hypothesis Pz : comparable z.

  Lemma Nq : named query 0 q.
  Proof. split; [exact Gq|]. exists [], (num16 qt). split; [exact Cq|]. reflexivity. Qed.
  Lemma Eq : dw_fetch_u16 query (-1) = Ok qt. Proof. apply (fetch_last query (wire q)); auto. Qed.
  Lemma Di : dok inp. Proof. exact (h_ok _ _ _ _ _ H). Qed.
  Lemma Ln : d_len inp < 65536. Proof. exact (h_len _ _ _ _ _ H). Qed.

  Lemma cache_string p ta tn tr type : dok p -> con p = con inp -> d_len p = d_len inp ->
    dwx_make_cache_string Jz Jo J (view_of p an ns ar t ta tn tr) type =
    let v := view_of p an ns ar t ta tn tr in
    let type := if (t =? 1) && (type =? 2) then 1 else type in
    if type =? 17 then dwx_make_cname_refer Jo J v
    else if type =? 16 then dwx_make_ns_refer Jz Jo J v
    else if (type =? 0) || (type =? 1) || (type =? 2) then dwx_remake_complete_reply Jo J v type
    else Fail.
  Proof.
    intros Dp Cp Lp. unfold dwx_make_cache_string. cbn [n_packet v_look view_of look_of]. pose proof (h_con _ _ _ _ _ H) as C.
    assert (exists X, con p = X ++ [t]) as (X & Cx). { rewrite Cp, C. unfold answer. eexists. rewrite ?app_assoc. reflexivity. }
    pose proof (f_equal zlen Cx) as Lx. rewrite zlen_app, zlen_con in Lx by auto. change (zlen [t]) with 1 in Lx. pose proof (zlen_nonneg X).
    replace (d_len p =? 0) with false by lia. rewrite rd_con by (first [lia | auto]). rewrite Cx. erewrite rd_at; [|reflexivity|lia]. cbn [bind]. replace (negb (t =? 0) && negb (t =? 1)) with false by lia. reflexivity.
  Qed.

  (** With an answer section: the other two are dropped. *)
  Lemma dissect_an marks : an <> [] -> qt <> 255 -> check_loop (length an) inp query bail (offs 0 an) qt 0 (map ty an) 0 true 0 = Ok marks -> length marks = length an ->
    exists p, dok p /\ con p = con inp /\ d_len p = d_len inp /\
      dwx_dissect_packet Jz Jo J inp query bail = finish Jz Jo J inp query bail (view_of p an ns ar t marks (map (fun _ => 36) ns) (map (fun _ => 36) ar)).
  Proof.
    intros Han H255 Ck Em. destruct (create_details_ok J HJ inp an ns ar t H Pr) as (p & Ed & Dp & Cp & Lp). { destruct an; [congruence|discriminate]. }
    exists p. split; [exact Dp|]. split; [exact Cp|]. split; [exact Lp|]. unfold dwx_dissect_packet, finish. rewrite Eq. cbn [bind]. replace (qt =? -1) with false by lia. rewrite Ed. cbn [bind].
    assert (zlen an =? 0 = false) as Z0. { destruct an; [congruence|]. rewrite zlen_cons. pose proof (zlen_nonneg l). lia. }
    unfold dwx_check_answer_section. rewrite Eq. cbn [bind]. replace (qt =? -1) with false by lia. replace (qt =? 255) with false by lia. cbn [v_look view_of look_of n_ancount n_an v_an].
    replace (Z.to_nat (zlen an)) with (length an) by (unfold zlen; lia). assert (pad (map ty an) = map ty an) as -> by (destruct an; [congruence|reflexivity]). rewrite Ck. cbn [bind].
    unfold dwx_if_an_then_no_ns_nor_ar, set_an. cbn [v_look view_of look_of n_ancount n_nscount n_arcount v_an v_ns v_ar]. rewrite Z0. rewrite !retype_pad by (rewrite map_length; reflexivity). cbn [bind].
    unfold dwx_cleanup_ns_ar. cbn [v_look view_of look_of n_ancount n_nscount n_arcount v_an v_ns v_ar]. rewrite !retype_pad by (rewrite !map_length; reflexivity). cbn [bind].
    rewrite !map_map. cbn beta. change (negb (36 =? 2) && negb (36 =? 6)) with true. change (negb (36 =? 1) && negb (36 =? 28)) with true. cbv iota.
    unfold view_of, look_of. assert (pad marks = marks) as -> by (destruct marks; [destruct an; [congruence|discriminate Em]|reflexivity]). reflexivity.
  Qed.

  Lemma zlen_nat {A} (l : list A) n : 0 <= n -> Z.to_nat (if n <? zlen l then n else zlen l) = Nat.min (Z.to_nat n) (length l).
  Proof. intros Hn. unfold zlen. destruct (Z.ltb_spec n (Z.of_nat (length l))); lia. Qed.
  Lemma firstn_min {A} n (l : list A) : firstn (Nat.min n (length l)) l = firstn n l.
  Proof. destruct (Nat.min_spec n (length l)) as [(L & ->) | (L & ->)]; [reflexivity|]. rewrite !firstn_all2 by lia. reflexivity. Qed.
  Definition an_marks (ch rest : list rr) (e : name) : list Z := map ty ch ++ map (fun r => if answers q qt e r then ty r else 36) rest.
  Lemma marks_found e rest n : existsb (Z.eqb (num qt)) (firstn n (map (fun r => if answers q qt e r then ty r else 36) rest)) = existsb (answers q qt e) (firstn n rest).
  Proof.
    rewrite firstn_map. generalize (firstn n rest) as l. induction l as [|r l IH]; cbn [map existsb]; [reflexivity|]. rewrite IH. f_equal. unfold answers. pose proof (num_range qt). destruct (Z.eqb_spec (rr_type r) qt) as [E|]; cbn [andb]; [|lia].
    destruct (_ || _); [|lia]. unfold ty. rewrite E. fold (num qt). lia.
  Qed.
  Lemma marks_kind e rest : Forall (fun m => m = 36 \/ m = num qt) (map (fun r => if answers q qt e r then ty r else 36) rest).
  Proof. apply Forall_map, Forall_forall. intros r _. unfold answers. destruct (Z.eqb_spec (rr_type r) qt) as [E|]; cbn [andb]; [|auto]. destruct (_ || _); [|auto]. right. unfold ty. rewrite E. reflexivity. Qed.
  Lemma chain_types ch e : forall q', cname_chain q' ch e -> Forall (fun r => rr_type r = 5) ch.
  Proof. induction ch as [|c ch IH]; intros q' Ch; constructor; inversion Ch; subst; eauto. Qed.
  Lemma map_ty5 ch : Forall (fun r => rr_type r = 5) ch -> map ty ch = map (fun _ => 5) ch.
  Proof. intros F. apply map_ext_Forall. revert F. apply Forall_impl. intros r E. unfold ty. rewrite E. reflexivity. Qed.
  Lemma chain_no_answer ch e n : qt <> 5 -> Forall (fun r => rr_type r = 5) ch -> existsb (answers q qt e) (firstn n ch) = false.
  Proof.
    intros H5 F. revert n. induction F as [|r ch E F IH]; intros [|n]; cbn [firstn existsb]; auto. rewrite IH. unfold answers. rewrite E. replace (5 =? qt) with false by lia. reflexivity.
  Qed.
  Definition blank : list rr -> list Z := map (fun _ => 36).
  Lemma blank_head rs : exists x, rd (pad (blank rs)) 0 = Ok x /\ (x = 0 \/ x = 36).
  Proof. destruct rs; cbn; eauto. Qed.
  Lemma determine_direct p ms : qt <> 5 -> qt <> 255 -> an <> [] -> length ms = length an -> Forall (fun m => m = 36 \/ m = num qt) ms ->
    let v := view_of p an ns ar t ms (blank ns) (blank ar) in
    dwx_determine_answer_type v query inp = Ok (if existsb (Z.eqb (num qt)) (firstn 7 ms) then 0 else 19, v).
  Proof.
    intros H5 H255 Han El F v. unfold dwx_determine_answer_type. rewrite Eq. cbn [bind]. replace (qt =? -1) with false by lia. unfold v at 1 2 3 4 5. cbn [v_look view_of look_of n_ancount v_an].
    assert (0 <? zlen an = true) as -> by (destruct an as [|a l]; [congruence|]; rewrite zlen_cons; pose proof (zlen_nonneg l); lia).
    destruct (pad_app ms an El) as (T1 & ->). rewrite zlen_nat by lia. change (Z.to_nat 7) with 7%nat. change 0 with (zlen (@nil Z)) at 1. rewrite an_type_ok by (auto; lia). rewrite <- El, firstn_min. cbn [bind].
    destruct (existsb _ _); [reflexivity|]. destruct (blank_head ns) as (x & E & Hx). unfold v at 1. cbn [v_ns view_of]. rewrite E. cbn [bind]. replace (x =? 6) with false by lia. replace (x =? 2) with false by lia. reflexivity.
  Qed.
  Lemma determine_chain p ms : qt <> 5 -> qt <> 255 -> length (5 :: ms) = length an -> Forall (fun m => m = 5 \/ m = 36 \/ m = num qt) ms ->
    let v := view_of p an ns ar t (5 :: ms) (blank ns) (blank ar) in
    dwx_determine_answer_type v query inp = Ok (if existsb (Z.eqb (num qt)) (firstn 31 ms) then 0 else 17, v).
  Proof.
    intros H5 H255 El F v. pose proof (num_5 qt H5). unfold dwx_determine_answer_type. rewrite Eq. cbn [bind]. replace (qt =? -1) with false by lia. unfold v at 1 2 3 4 5. cbn [v_look view_of look_of n_ancount v_an].
    assert (zlen an = Z.of_nat (length ms) + 1) as Ez by (unfold zlen; rewrite <- El; cbn [length]; lia).
    replace (0 <? zlen an) with true by lia. cbn [pad]. destruct (Z.to_nat (if 7 <? zlen an then 7 else zlen an)) as [|n] eqn:En. { exfalso. destruct (_ <? _); lia. }
    cbn [an_type_loop]. erewrite (rd_at _ [] 5) by reflexivity. cbn [bind]. fold (num qt). replace (5 =? num qt) with false by lia. replace (qt =? 255) with false by lia. cbn [andb orb]. change (5 =? 5) with true. cbv iota zeta.
    pose proof (after_cname_ok qt ms H5 H255 (Z.to_nat ((if zlen an <? 32 then zlen an else 32) - (0 + 1))) [5] []) as A. rewrite app_nil_r in A. cbn [app] in A. change (zlen [5]) with (0 + 1) in A. rewrite A; [|clear - Ez; destruct (Z.ltb_spec (zlen an) 32); lia|assumption]. cbn [bind].
    replace (Z.to_nat ((if zlen an <? 32 then zlen an else 32) - (0 + 1))) with (Nat.min 31 (length ms)) by (destruct (Z.ltb_spec (zlen an) 32); lia). rewrite firstn_min. reflexivity.
  Qed.

  Lemma an_size : zlen (plain_records an) + zlen an < 65536.
  Proof.
    pose proof (holds_len _ _ _ _ _ H) as E. pose proof Ln. rewrite !plain_records_app, !zlen_app in E. pose proof (zlen_nonneg (plain_records ns)). pose proof (zlen_nonneg (plain_records ar)). pose proof (zlen_nonneg an). pose proof (zlen_nonneg ns). pose proof (zlen_nonneg ar). lia.
  Qed.
  Lemma entries_plain ks : Forall proper_rr ks -> Forall rr_fits ks -> Forall (fun r => rr_type r = 5 /\ zlen (wire (target r)) <= 251) ks -> zlen (cname_entries ks) <= zlen (plain_records ks) /\ zlen (cname_entries ks) <= 253 * zlen ks.
  Proof.
    induction ks as [|r ks IH]; intros P F K; [split; cbn; lia|]. inversion P; inversion F; inversion K as [|? ? (K1 & K2)]; subst. destruct IH as (I1 & I2); auto. unfold cname_entries. cbn [map concat]. fold (cname_entries ks). rewrite plain_records_cons, !zlen_app, zlen_cons, zlen_rr_plain by auto.
    unfold cname_entry. rewrite zlen_app. change (zlen (num16 _)) with 2. destruct (proper_target r) as (-> & _); auto. pose proof (zlen_nonneg (wire (rr_owner r))). lia.
  Qed.
  Lemma removelast_entries ks : zlen (cname_entries (removelast ks)) <= zlen (cname_entries ks).
  Proof.
    destruct ks as [|r ks] using rev_ind; [cbn; lia|]. rewrite removelast_last, cname_entries_app, zlen_app. pose proof (zlen_nonneg (cname_entries [r])). lia.
  Qed.
  Lemma cname_refer_ok p ms tn tr : dok p -> con p = con inp -> d_len p = d_len inp -> length ms = length an -> Forall (fun m => m = 36 \/ m = 5) ms -> kept ms an <> [] -> Forall (fun r => rr_type r = 5 /\ zlen (wire (target r)) <= 251) (kept ms an) ->
    exists out, dwx_make_cname_refer Jo J (view_of p an ns ar t ms tn tr) = Ok out /\ dok out /\ con out = cname_referral (kept ms an).
  Proof.
    intros Dp Cp Lp El Fm Hk K. destruct (fits3 inp an ns ar t H Pr) as (F1 & _ & _ & P1 & _ & _). destruct (secs inp an ns ar t H Pr p Cp) as (S1 & _ & _). pose proof an_size as Sz. pose proof Ln.
    pose proof (kept_len an ms) as (KL & KP). destruct (entries_plain (kept ms an) (kept_forall _ an ms P1) (kept_forall _ an ms F1) K) as (E1 & E2). pose proof (removelast_entries (kept ms an)) as E3. fold (last_entry (kept ms an)) in E3.
    assert (1 <= zlen (kept ms an)) as K1. { destruct (kept ms an) as [|r l]; [congruence|]. rewrite zlen_cons. pose proof (zlen_nonneg l). lia. }
    pose proof (zlen_nonneg (plain_records an)). unfold dwx_make_cname_refer. cbv zeta. cbn [v_look view_of look_of n_ancount n_packet n_an v_an]. destruct (dw_create_ok Jo (257 * zlen an) HJo ltac:(lia)) as (out & -> & Wo & Lo & Mo).
    assert (dok out) as Do by (split; [exact Wo|lia]). rewrite nat_zlen. destruct (pad_app ms an El) as (T1 & ->).
    destruct (cname_refer_loop_ok J p (offs 0 an) an HJ Dp ltac:(lia) ms [] [] T1 out []) as (o1 & Eo & D1 & C1 & M1); auto; try reflexivity. { apply con_nil. assumption. } { lia. }
    cbn [length Z.of_nat app] in Eo. change (last_entry []) with 0 in Eo. cbn [app]. rewrite Eo. cbn [bind]. cbn [app] in C1. assert (d_len o1 = zlen (cname_entries (kept ms an))) as L1 by (rewrite <- zlen_con by auto; rewrite C1; reflexivity).
    pose proof (zlen_nonneg (cname_entries (removelast (kept ms an)))) as Np. fold (last_entry (kept ms an)) in Np.
    destruct (push_num o1 (last_entry (kept ms an)) D1 ltac:(lia) ltac:(lia)) as (o2 & -> & D2 & C2 & M2 & L2). cbn [bind]. change (0 =? -1) with false. cbv iota.
    destruct (push_char o2 17 D2 ltac:(unfold byte; lia) ltac:(lia)) as (o3 & -> & D3 & C3 & M3 & L3). cbn [bind]. change (0 =? -1) with false. cbv iota.
    exists o3. split; [reflexivity|]. split; [exact D3|]. unfold cname_referral. rewrite C3, C2, C1, <- app_assoc. reflexivity.
  Qed.

  Section CHAIN.
    Variables ch : list rr.
    Variable e : name.
    Hypothesis H5 : qt <> 5.
    Hypothesis H255 : qt <> 255.
    Hypothesis Ch : cname_chain q ch e.
    Hypothesis Cc : Forall (fun r => comparable (target r)) ch.
    Hypothesis Bc : Forall (fun r => below z (target r) = true) ch.
    Lemma sec_inp : sec inp (offs 0 an) an.
    Proof. exact (proj1 (secs inp an ns ar t H Pr inp eq_refl)). Qed.
    Lemma finish_answer p ms : dok p -> con p = con inp -> d_len p = d_len inp -> length ms = length an ->
      let v := view_of p an ns ar t ms (blank ns) (blank ar) in
      dwx_determine_answer_type v query inp = Ok (0, v) ->
      if forallb class_in (kept ms an) then exists out, finish Jz Jo J inp query bail v = Ok out /\ holds out (kept ms an) [] [] 0 else finish Jz Jo J inp query bail v = Fail.
    Proof.
      intros Dp Cp Lp El v Ed. unfold finish. rewrite Ed. cbn [bind]. change (0 =? 23) with false. change (0 =? 16) with false. cbv iota. cbn [bind]. unfold v. rewrite cache_string by auto. cbv zeta. change (0 =? 2) with false. rewrite andb_false_r. change (0 =? 17) with false. change (0 =? 16) with false. change (0 =? 0) with true. cbn [orb]. cbv iota.
      pose proof (remake_ok Jo J HJo HJ inp an ns ar t H Pr p ms (blank ns) (blank ar) 0 Dp Cp Lp El) as R. cbv zeta in R. unfold blank in R. rewrite !kept_none, !app_nil_r, !map_length in R. apply R; auto; lia.
    Qed.
    Lemma finish_refer p ms : dok p -> con p = con inp -> d_len p = d_len inp -> length ms = length an ->
      let v := view_of p an ns ar t ms (blank ns) (blank ar) in
      dwx_determine_answer_type v query inp = Ok (17, v) ->
      finish Jz Jo J inp query bail v = dwx_make_cname_refer Jo J v.
    Proof.
      intros Dp Cp Lp El v Ed. unfold finish. rewrite Ed. cbn [bind]. change (17 =? 23) with false. change (17 =? 16) with false. cbv iota. cbn [bind]. unfold v. rewrite cache_string by auto. cbv zeta. change (17 =? 2) with false. rewrite andb_false_r. change (17 =? 17) with true. reflexivity.
    Qed.

    Lemma inside_marks rest : an = ch ++ rest -> Forall (fun r => rr_type r <> 5) rest -> an <> [] ->
      length (an_marks ch rest e) = length an /\ kept (an_marks ch rest e) an = ch ++ filter (answers q qt e) rest /\
      exists p, dok p /\ con p = con inp /\ d_len p = d_len inp /\
      dwx_dissect_packet Jz Jo J inp query bail = finish Jz Jo J inp query bail (view_of p an ns ar t (an_marks ch rest e) (blank ns) (blank ar)).
    Proof.
      intros Ea Nr Han. split. { unfold an_marks. rewrite Ea, !app_length, !map_length. reflexivity. }
      split. { unfold an_marks. rewrite Ea, kept_all, kept_filter. reflexivity. }
      apply dissect_an; auto.
      - pose proof sec_inp as S. rewrite Ea at 1 3. rewrite Ea in S at 2. apply (check_inside inp query bail q z qt Di Dq Db Nq Nz Pq Pz (offs 0 an) ch e rest); auto.
      - unfold an_marks. rewrite Ea, !app_length, !map_length. reflexivity.
    Qed.
    Lemma dissect_answer rest : an = ch ++ rest -> Forall (fun r => rr_type r <> 5) rest ->
      existsb (answers q qt e) (firstn (match ch with [] => 7 | _ => 32 end) an) = true ->
      if forallb class_in (ch ++ filter (answers q qt e) rest)
      then exists out, dwx_dissect_packet Jz Jo J inp query bail = Ok out /\ holds out (ch ++ filter (answers q qt e) rest) [] [] 0
      else dwx_dissect_packet Jz Jo J inp query bail = Fail.
    Proof.
      intros Ea Nr Ex. assert (an <> []) as Han. { intros E. rewrite E in Ex. rewrite firstn_nil in Ex. discriminate. }
      destruct (inside_marks rest Ea Nr Han) as (El & Ek & p & Dp & Cp & Lp & ->). rewrite <- Ek. apply finish_answer; auto.
      pose proof (chain_types ch e q Ch) as T5. pose proof Ch as Ch'. destruct ch as [|c ch'].
      - rewrite determine_direct; auto; [|unfold an_marks; cbn [map app]; apply marks_kind]. unfold an_marks. cbn [map app]. rewrite marks_found. cbn [app] in Ea. rewrite <- Ea, Ex. reflexivity.
      - assert (an_marks (c :: ch') rest e = 5 :: an_marks ch' rest e) as Em. { unfold an_marks. cbn [map app]. f_equal. inversion T5 as [|? ? E5 T5']; subst. unfold ty. rewrite E5. reflexivity. }
        inversion T5 as [|? ? E5 T5']; subst x l. rewrite Em in *. rewrite determine_chain; auto.
        + assert (existsb (Z.eqb (num qt)) (firstn 31 (an_marks ch' rest e)) = existsb (answers q qt e) (firstn 32 an)) as E.
          { rewrite Ea. change (firstn 32 ((c :: ch') ++ rest)) with (c :: firstn 31 (ch' ++ rest)). cbn [existsb]. rewrite firstn_app, existsb_app, (chain_no_answer ch' e 31 H5 T5'). unfold answers at 1. rewrite E5. replace (5 =? qt) with false by lia. cbn [andb orb].
            unfold an_marks. rewrite firstn_app, existsb_app, map_length, marks_found. rewrite (map_ty5 ch' T5'). replace (existsb (Z.eqb (num qt)) (firstn 31 (map (fun _ => 5) ch'))) with false; [reflexivity|]. symmetry. pose proof (num_5 qt H5).
            rewrite firstn_map. generalize (firstn 31 ch'). intros l. induction l as [|x l IH]; cbn [map existsb]; [reflexivity|]. rewrite IH. lia. }
          rewrite E, Ex. reflexivity.
        + unfold an_marks. apply Forall_app. split. { rewrite (map_ty5 ch' T5'). apply Forall_map, Forall_forall. auto. } eapply Forall_impl; [|apply marks_kind]. intros m [|]; auto.
    Qed.

    Lemma dissect_refer K rest p : an = K ++ rest -> K <> [] -> Forall (fun r => rr_type r = 5 /\ zlen (wire (target r)) <= 251) K -> dok p -> con p = con inp -> d_len p = d_len inp ->
      dwx_dissect_packet Jz Jo J inp query bail = finish Jz Jo J inp query bail (view_of p an ns ar t (map ty K ++ blank rest) (blank ns) (blank ar)) ->
      exists out, dwx_dissect_packet Jz Jo J inp query bail = Ok out /\ dok out /\ con out = cname_referral K.
    Proof.
      intros Ea HK F Dp Cp Lp ->. assert (length (map ty K ++ blank rest) = length an) as El by (unfold blank; rewrite Ea, !app_length, !map_length; reflexivity).
      assert (Forall (fun r => rr_type r = 5) K) as T5 by (eapply Forall_impl; [|exact F]; intros r (E & _); exact E).
      assert (kept (map ty K ++ blank rest) an = K) as Ek by (unfold blank; rewrite Ea, kept_all, kept_none, app_nil_r; reflexivity).
      assert (forall L, Forall (fun m => m = 36 \/ m = 5) (map (fun _ : rr => 5) L ++ blank rest)) as Fm. { intros L. apply Forall_app. split; apply Forall_map, Forall_forall; auto. }
      rewrite finish_refer; auto.
      - destruct (cname_refer_ok p (map ty K ++ blank rest) (blank ns) (blank ar)) as (out & E & D & C); auto; try (rewrite Ek; auto). { rewrite (map_ty5 K T5). auto. } rewrite Ek in C. eauto.
      - destruct K as [|c K]; [congruence|]. assert (map ty (c :: K) ++ blank rest = 5 :: (map ty K ++ blank rest)) as Em. { cbn [map app]. f_equal. inversion T5 as [|? ? E5]; subst. unfold ty. rewrite E5. reflexivity. }
        rewrite Em in *. inversion T5 as [|? ? E5 T5']; subst x l. rewrite (map_ty5 K T5'). rewrite (map_ty5 K T5') in El. rewrite determine_chain; auto.
        + replace (existsb _ _) with false; [reflexivity|]. symmetry. pose proof (num_range qt). pose proof (num_5 qt H5). specialize (Fm K). generalize 31%nat. revert Fm. generalize (map (fun _ : rr => 5) K ++ blank rest). intros l Fl. induction Fl as [|m l Hm Fl IH]; intros [|n]; cbn [firstn existsb]; auto. rewrite IH. lia.
        + eapply Forall_impl; [|apply Fm]. intros m [|]; auto.
    Qed.
    Lemma marks_none rest : existsb (answers q qt e) rest = false -> map (fun r => if answers q qt e r then ty r else 36) rest = blank rest.
    Proof. induction rest as [|r rest IH]; cbn [existsb map]; [reflexivity|]. intros E. apply orb_false_iff in E as (-> & E). unfold blank. cbn [map]. f_equal. apply IH. exact E. Qed.
    Lemma dissect_incomplete rest : an = ch ++ rest -> ch <> [] -> Forall (fun r => rr_type r <> 5) rest -> existsb (answers q qt e) rest = false -> Forall (fun r => zlen (wire (target r)) <= 251) ch ->
      exists out, dwx_dissect_packet Jz Jo J inp query bail = Ok out /\ dok out /\ con out = cname_referral ch.
    Proof.
      intros Ea Hch Nr En W. assert (an <> []) as Han by (destruct ch; [congruence|rewrite Ea; discriminate]). destruct (inside_marks rest Ea Nr Han) as (El & Ek & p & Dp & Cp & Lp & E).
      apply (dissect_refer ch rest p); auto. { pose proof (chain_types ch e q Ch) as T5. rewrite Forall_forall in *. auto. } unfold an_marks in E. rewrite marks_none in E by auto. exact E.
    Qed.
    Lemma dissect_outside c rest : an = ch ++ c :: rest -> rr_type c = 5 -> same_name (rr_owner c) e = true -> below z (target c) = false -> Forall (fun r => zlen (wire (target r)) <= 251) (ch ++ [c]) ->
      exists out, dwx_dissect_packet Jz Jo J inp query bail = Ok out /\ dok out /\ con out = cname_referral (ch ++ [c]).
    Proof.
      intros Ea Tc Oc Bz W. assert (an <> []) as Han by (rewrite Ea; destruct ch; discriminate).
      destruct (dissect_an (map ty (ch ++ [c]) ++ blank rest)) as (p & Dp & Cp & Lp & E); auto.
      - pose proof sec_inp as S. rewrite Ea at 1 3. rewrite Ea in S at 2. apply (check_outside inp query bail q z qt Di Dq Db Nq Nz Pq Pz (offs 0 an) ch e c rest); auto.
      - unfold blank. rewrite Ea, !app_length, !map_length, !app_length. cbn [length]. lia.
      - apply (dissect_refer (ch ++ [c]) rest p); auto. { rewrite Ea, <- app_assoc. reflexivity. } { destruct ch; discriminate. }
        pose proof (chain_types ch e q Ch) as T5. assert (Forall (fun r => rr_type r = 5) (ch ++ [c])) as T6 by (apply Forall_app; auto). rewrite Forall_forall in *. auto.
    Qed.
  End CHAIN.
  Lemma dissect_useless : qt <> 5 -> qt <> 255 -> an <> [] -> Forall (fun r => rr_type r <> 5) an -> existsb (answers q qt q) (firstn 7 an) = false -> dwx_dissect_packet Jz Jo J inp query bail = Fail.
  Proof.
    intros H5 H255 Han Nr Ex. destruct (inside_marks [] q H5 H255 (chain_nil q) (Forall_nil _) (Forall_nil _) an eq_refl Nr Han) as (El & Ek & p & Dp & Cp & Lp & ->).
    unfold an_marks in *. cbn [map app] in *. unfold finish. rewrite determine_direct; auto; [|apply marks_kind]. rewrite marks_found, Ex. cbn [bind]. change (19 =? 23) with false. change (19 =? 16) with false. cbv iota. cbn [bind]. rewrite cache_string by auto. cbv zeta. change (19 =? 2) with false. rewrite andb_false_r. reflexivity.
  Qed.
  (** Without one. *)
  Lemma dissect_noan : an = [] -> ns ++ ar <> [] ->
    exists p, dok p /\ con p = con inp /\ d_len p = d_len inp /\
      dwx_dissect_packet Jz Jo J inp query bail = finish Jz Jo J inp query bail (view_of p an ns ar t [] (ns_marks ns) (ar_marks ar)).
  Proof.
    intros Ea Hn. destruct (create_details_ok J HJ inp an ns ar t H Pr) as (p & Ed & Dp & Cp & Lp). { rewrite Ea. exact Hn. }
    exists p. split; [exact Dp|]. split; [exact Cp|]. split; [exact Lp|]. unfold dwx_dissect_packet, finish. rewrite Eq. cbn [bind]. replace (qt =? -1) with false by lia. rewrite Ed. cbn [bind].
    unfold dwx_check_answer_section. rewrite Eq. cbn [bind]. replace (qt =? -1) with false by lia. cbn [v_look view_of look_of n_ancount n_an v_an].
    assert (Z.to_nat (zlen an) = 0%nat) as Z0 by (rewrite Ea; reflexivity). rewrite Z0. cbn [check_any_loop check_loop bind].
    assert (zlen an =? 0 = true) as Z1 by (rewrite Ea; reflexivity).
    match goal with |- bind ?m _ = _ => assert (m = Ok (view_of p an ns ar t [] (map ty ns) (map ty ar))) as -> end. { unfold set_an, view_of, look_of. rewrite Ea. destruct (qt =? 255); reflexivity. }
    cbn [bind]. unfold dwx_if_an_then_no_ns_nor_ar. cbn [v_look view_of look_of n_ancount]. rewrite Z1. cbn [bind].
    unfold dwx_cleanup_ns_ar. cbn [v_look view_of look_of n_ancount n_nscount n_arcount v_an v_ns v_ar]. rewrite !retype_pad by (rewrite !map_length; reflexivity). cbn [bind].
    rewrite !map_map. fold ns_mark ar_mark. unfold ns_marks, ar_marks. rewrite (map_ext _ _ ns_mark_eq), (map_ext _ _ ar_mark_eq). reflexivity.
  Qed.
  Lemma determine_noan p tn tr : an = [] ->
    let v := view_of p an ns ar t [] tn tr in
    dwx_determine_answer_type v query inp =
    (m <- rd (pad tn) 0 ;;
     if m =? 6 then Ok (2, v) else if m =? 2 then
       found <- find_in_ar (length ar) query inp (offs (aroff an ns) ar) qt 0 ;;
       match found with Some i => l <- wr (pad tr) i 38 ;; Ok (23, set_ar v l) | None => Ok (16, v) end
     else Ok (19, v)).
  Proof.
    intros Ea v. unfold dwx_determine_answer_type. rewrite Eq. cbn [bind]. replace (qt =? -1) with false by lia. unfold v at 1 2 3 4 5. cbn [v_look view_of look_of n_ancount v_an]. assert (0 <? zlen an = false) as -> by (rewrite Ea; reflexivity). cbn [bind].
    unfold v at 1 3 4 6. cbn [v_look view_of look_of n_ar n_arcount v_ns v_ar]. rewrite nat_zlen. reflexivity.
  Qed.
  Lemma kept_ns : kept (ns_marks ns) ns = filter ns_or_soa ns. Proof. apply kept_filter. Qed.
  Lemma kept_ar : kept (ar_marks ar) ar = filter address ar. Proof. apply kept_filter. Qed.
  Lemma dissect_negative s ns' : an = [] -> ns = s :: ns' -> rr_type s = 6 ->
    if forallb class_in (filter ns_or_soa ns ++ filter address ar)
    then exists out, dwx_dissect_packet Jz Jo J inp query bail = Ok out /\ holds out [] (filter ns_or_soa ns) (filter address ar) (if t =? 1 then 1 else 2)
    else dwx_dissect_packet Jz Jo J inp query bail = Fail.
  Proof.
    intros Ea En Ts. destruct (dissect_noan Ea) as (p & Dp & Cp & Lp & ->). { rewrite En. discriminate. }
    unfold finish. rewrite determine_noan by exact Ea. assert (rd (pad (ns_marks ns)) 0 = Ok 6) as ->. { rewrite En. unfold ns_marks. cbn [map]. unfold ns_or_soa. rewrite Ts. cbn [orb]. unfold ty. rewrite Ts. reflexivity. }
    cbn [bind]. change (6 =? 6) with true. cbv iota. cbn [bind]. change (2 =? 23) with false. change (2 =? 16) with false. cbv iota. cbn [bind]. rewrite cache_string by auto. cbv zeta. change (2 =? 2) with true. rewrite andb_true_r.
    assert (exists t', (if t =? 1 then 1 else 2) = t' /\ (t' = 1 \/ t' = 2)) as (t' & -> & Ht') by (destruct (t =? 1); eauto). replace (t' =? 17) with false by lia. replace (t' =? 16) with false by lia. replace ((t' =? 0) || (t' =? 1) || (t' =? 2)) with true by lia.
    pose proof (remake_ok Jo J HJo HJ inp an ns ar t H Pr p [] (ns_marks ns) (ar_marks ar) t' Dp Cp Lp) as R. cbv zeta in R. rewrite kept_ns, kept_ar in R. cbn [kept app] in R. apply R; unfold ns_marks, ar_marks; rewrite ?map_length, ?Ea; auto. lia.
  Qed.
  Lemma dissect_in_ar s ns' a r b : an = [] -> ns = s :: ns' -> rr_type s = 2 -> ar = a ++ r :: b -> existsb (asked_for q qt) a = false -> asked_for q qt r = true ->
    if class_in r
    then exists out, dwx_dissect_packet Jz Jo J inp query bail = Ok out /\ holds out [r] [] [] 0
    else dwx_dissect_packet Jz Jo J inp query bail = Fail.
  Proof.
    intros Ea En Ts Er Exa Exr. destruct (dissect_noan Ea) as (p & Dp & Cp & Lp & ->). { rewrite En. discriminate. }
    unfold finish. rewrite determine_noan by exact Ea. assert (rd (pad (ns_marks ns)) 0 = Ok 2) as ->. { rewrite En. unfold ns_marks. cbn [map]. unfold ns_or_soa. rewrite Ts. cbn [orb]. unfold ty. rewrite Ts. reflexivity. }
    cbn [bind]. change (2 =? 6) with false. change (2 =? 2) with true. cbv iota. destruct (secs inp an ns ar t H Pr inp eq_refl) as (_ & _ & S). pose proof Di as Di. pose proof Nq as Nq'. rewrite Er in S at 2. pose proof (f_equal (@length rr) Er) as Elr. rewrite Elr.
    pose proof (find_in_ar_ok query inp (offs (aroff an ns) ar) q qt (r :: b) a Dq Di Nq' Pq Exa [] S) as FA. cbn [app] in FA. change (Z.of_nat (length (@nil rr))) with 0 in FA. rewrite FA. rewrite (find_in_ar_hit query inp (offs (aroff an ns) ar) q qt r b Dq Di Nq' Pq Exr a S). cbn [bind].
    assert (pad (ar_marks ar) = ar_marks a ++ (if address r then ty r else 36) :: ar_marks b) as Em. { rewrite Er. unfold ar_marks. rewrite map_app. cbn [map]. destruct (map _ a); reflexivity. }
    rewrite Em. assert (Z.of_nat (length a) = zlen (ar_marks a)) as Za by (unfold ar_marks, zlen; rewrite map_length; reflexivity). rewrite Za, wr_mid. cbn [bind]. change (23 =? 23) with true. cbv iota. unfold dwx_answer_in_ar, set_ar. cbv zeta. cbn [v_look view_of look_of n_arcount n_ar v_ar]. rewrite nat_zlen.
    assert (forall l, Forall (fun m => m <> 38) (ar_marks l)) as F38. { intros l. unfold ar_marks. apply Forall_map, Forall_forall. intros x _. destruct (address x); [|lia]. unfold ty. pose proof (num_range (rr_type x)) as N. unfold num in N. lia. }
    rewrite Elr. pose proof (fun tmp d => in_ar_loop_skip J inp (offs (aroff an ns) ar) a (r :: b) [] [] (ar_marks a) (38 :: ar_marks b) tmp d eq_refl (map_length _ _) (F38 a)) as FB. cbn [app] in FB. change (Z.of_nat (length (@nil rr))) with 0 in FB. rewrite FB.
    cbn [app length answer_in_ar_loop]. erewrite rd_at; [|reflexivity|exact Za]. cbn [bind]. change (38 =? 38) with true. cbv iota. destruct (S (length a) r (nth_error_mid _ _ _)) as (o & -> & E1 & R). cbn [bind]. pose proof Ln.
    destruct (get_rr_ok J inp o r HJ Di R ltac:(lia)) as (x & -> & Dx & Cx & Lx). cbn [bind]. rewrite E1. cbn [bind].
    rewrite (snoc_app (ar_marks a)). rewrite <- (of_nat_snoc a r). replace (length b) with (length (b ++ [])) by (rewrite app_nil_r; reflexivity). rewrite <- (app_nil_r (ar_marks b)).
    rewrite (in_ar_loop_skip J inp (offs (aroff an ns) ar) b [] (a ++ [r]) (ar_marks a ++ [38]) (ar_marks b) []) by (auto; rewrite ?length_snoc; unfold ar_marks; rewrite map_length; reflexivity).
    cbn [length answer_in_ar_loop bind]. destruct (class_in r); [|reflexivity].
    destruct R as (I & Fr & P). pose proof (in_at_range _ _ _ Di I) as Ri. pose proof (zlen_rr_plain r Fr) as Zr. pose proof (zlen_nonneg (rdata_plain r)). fold (ow r) in Zr. assert (0 <= ow r) by apply zlen_nonneg. replace (o + ow r - o) with (ow r) by lia.
    destruct (dw_create_ok Jo (d_len x + 14) HJo ltac:(lia)) as (o0 & -> & W0 & L0 & M0). assert (dok o0) as D0 by (split; [exact W0|lia]).
    destruct (dw_append_ok x o0 Dx D0 ltac:(lia)) as (o1 & -> & D1 & C1 & M1). cbn [bind]. change (0 =? -1) with false. cbv iota. rewrite (con_nil o0 L0) in C1. cbn [app] in C1. assert (d_len o1 = d_len x) as L1 by (rewrite <- !zlen_con by auto; rewrite C1; reflexivity).
    destruct (push_num o1 0 D1 ltac:(lia) ltac:(lia)) as (o2 & -> & D2 & C2 & M2 & L2). cbn [bind]. change (0 =? -1) with false. cbv iota.
    destruct (push_num o2 (ow r) D2 ltac:(lia) ltac:(lia)) as (o3 & -> & D3 & C3 & M3 & L3). cbn [bind]. change (0 =? -1) with false. cbv iota.
    destruct (push_num o3 1 D3 ltac:(lia) ltac:(lia)) as (o4 & -> & D4 & C4 & M4 & L4). cbn [bind]. change (0 =? -1) with false. cbv iota.
    destruct (push_num o4 0 D4 ltac:(lia) ltac:(lia)) as (o5 & -> & D5 & C5 & M5 & L5). cbn [bind]. change (0 =? -1) with false. cbv iota.
    destruct (push_num o5 0 D5 ltac:(lia) ltac:(lia)) as (o6 & -> & D6 & C6 & M6 & L6). cbn [bind]. change (0 =? -1) with false. cbv iota.
    destruct (push_char o6 0 D6 ltac:(unfold byte; lia) ltac:(lia)) as (o7 & -> & D7 & C7 & M7 & L7). cbn [bind]. change (0 =? -1) with false. cbv iota.
    exists o7. split; [reflexivity|]. constructor; auto.
    - rewrite C7, C6, C5, C4, C3, C2, C1, Cx. unfold answer. cbn [app]. rewrite plain_records_cons. change (plain_records []) with (@nil Z). rewrite app_nil_r, <- !app_assoc. unfold offset_table. reflexivity.
    - cbn [app]. constructor; auto.
    - lia.
    - pose proof (holds_len _ _ _ _ _ H) as Hl. assert (zlen (rr_plain r) <= zlen (plain_records (an ++ ns ++ ar))) as Q. { rewrite Er, !plain_records_app, plain_records_cons, !zlen_app. pose proof (zlen_nonneg (plain_records an)). pose proof (zlen_nonneg (plain_records ns)). pose proof (zlen_nonneg (plain_records a)). pose proof (zlen_nonneg (plain_records b)). lia. }
      assert (zlen an + zlen ns + zlen ar >= 2). { rewrite En, Er. rewrite zlen_cons, zlen_app, zlen_cons. pose proof (zlen_nonneg an). pose proof (zlen_nonneg ns'). pose proof (zlen_nonneg a). pose proof (zlen_nonneg b). lia. } lia.
  Qed.
End DISSECT.
