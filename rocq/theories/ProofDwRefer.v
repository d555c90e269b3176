(** Referrals: which zone, which servers. *)
From Verif Require Import CBase Bits SpecNames SpecMessage SpecDeadwoodMsg SpecDwStr SpecAnswer SpecReply ModelDwStr ModelDwCompress ModelDwDnsStr ModelDwRecurse ProofDwStr ProofDwCompressSafe ProofDwDecomp ProofMessage ProofDwDnsStr ProofDwRotate ProofDwDnsSafe ProofDwRecurseSafe ProofDwNames ProofDwReply ProofDwDissect.

Lemma Forall2_impl_in {A B} (P Q : A -> B -> Prop) l m : (forall a b, P a b -> Q a b) -> Forall2 P l m -> Forall2 Q l m.
Proof. intros I F. induction F; constructor; auto. Qed.

(** *** The bailiwick check *)
Definition bmark (q z : name) (r : rr) : Z :=
  if at_or_below (rr_owner r) q && below z (rr_owner r) then (if ns_or_soa r then ty r else 36) else 37.
Lemma check_ns_ok inp query bail q z L : dok inp -> dok query -> dok bail -> named query 0 q -> named bail 0 z -> comparable q -> comparable z -> 2 < d_len query -> forall rs pre T0 T1, sec inp L (pre ++ rs) -> length T0 = length pre ->
  check_ns_loop (length rs) inp L (Z.of_nat (length pre)) bail query (T0 ++ ns_marks rs ++ T1) = Ok (T0 ++ map (bmark q z) rs ++ T1).
Proof.
  intros Di Dq Db Nq Nz Pq Pz Lq. induction rs as [|r rs IH]; intros pre T0 T1 S E0; [reflexivity|]. cbn [length check_ns_loop]. destruct (step_facts inp query q Di Dq Nq Pq L pre r rs S) as (o & -> & _ & R & _ & _). cbn [bind].
  pose proof (rec_owner _ _ _ R) as No. pose proof R as (_ & _ & ((_ & Hl) & _)).
  rewrite (in_bailiwick_ok inp o (rr_owner r) bail z (Some query) (Some q) Di Db No Nz Pz ltac:(lia)).
  2: { exists q. split; [reflexivity|]. split; [exact Dq|]. split; [exact Nq|]. split; [exact Lq|]. split; [right; exact Pq|]. unfold comparable in Pq. pose proof (zlen_wire_pos q). lia. }
  cbn [bind]. unfold ns_marks. cbn [map app]. unfold bmark at 1. destruct (at_or_below (rr_owner r) q && below z (rr_owner r)) eqn:Eb.
  - cbn [bind]. rewrite <- (of_nat_snoc pre r). rewrite (snoc_app T0 (if ns_or_soa r then ty r else 36)). fold (ns_marks rs). rewrite IH; [rewrite <- !app_assoc; reflexivity|rewrite <- app_assoc; exact S|rewrite !length_snoc; lia].
  - replace (Z.of_nat (length pre)) with (zlen T0) at 1 by (unfold zlen; lia). rewrite wr_mid. cbn [bind]. rewrite <- (of_nat_snoc pre r). rewrite (snoc_app T0 37). fold (ns_marks rs). rewrite IH; [rewrite <- !app_assoc; reflexivity|rewrite <- app_assoc; exact S|rewrite !length_snoc; lia].
Qed.

(** *** Matching servers and addresses *)
Definition amark (a : rr) (linked : bool) (m : Z) : Prop :=
  if address a then if linked then (if rr_type a =? 1 then 80 <= m <= 95 else 64 <= m <= 79) else m = rr_type a else m = 36.
Definition linkm (x : Z) : Prop := x = 32 \/ x = 33 \/ x = 34 \/ x = 35.
Lemma linkm_33 x : linkm x -> linkm (Z.lor x 33) /\ Z.lor x 33 <> 32.
Proof. intros [-> | [-> | [-> | ->]]]; vm_compute; split; auto; discriminate. Qed.
Lemma linkm_34 x : linkm x -> linkm (Z.lor x 34) /\ Z.lor x 34 <> 32.
Proof. intros [-> | [-> | [-> | ->]]]; vm_compute; split; auto; discriminate. Qed.
Lemma make_link_ok look tan s a l N0 x N1 A0 m A1 : amark a l m -> linkm x -> zlen N0 <= 14 -> same_name (target s) (rr_owner a) = true ->
  exists x' m', dwx_make_link (mkdet look tan (N0 ++ x :: N1) (A0 ++ m :: A1)) (zlen N0) (zlen A0) = Ok (mkdet look tan (N0 ++ x' :: N1) (A0 ++ m' :: A1)) /\
    amark a (l || address_of s a) m' /\ linkm x' /\ (x' = 32 <-> x = 32 /\ address_of s a = false).
Proof.
  intros Am Lx L0 Sm. pose proof (zlen_nonneg N0). unfold dwx_make_link. replace (15 <? zlen N0) with false by lia. cbn [v_ar]. erewrite rd_at by reflexivity. cbn [bind v_ns]. unfold address_of. rewrite Sm. rewrite andb_true_r. unfold amark in *.
  destruct (address a) eqn:Ad.
  2: { subst m. unfold is_a_glue, is_aaaa_glue. change ((36 =? 1) || ((80 <=? 36) && (36 <=? 95))) with false. change ((36 =? 28) || ((64 <=? 36) && (36 <=? 79))) with false. cbv iota. cbn [bind]. change (36 =? 1) with false. change (36 =? 28) with false. cbv iota. exists x, 36. split; [reflexivity|]. split; [reflexivity|]. split; [exact Lx|]. split; [auto|intros (? & _); auto]. }
  unfold address in Ad. assert (rr_type a = 1 \/ rr_type a = 28) as Ta by lia. destruct (linkm_33 x Lx) as (L33 & N33). destruct (linkm_34 x Lx) as (L34 & N34).
  destruct Ta as [Ta | Ta]; rewrite Ta in *; [change (1 =? 1) with true in *|change (28 =? 1) with false in *]; cbv iota in *.
  - assert ((m =? 1) || is_a_glue m = true) as -> by (unfold is_a_glue; destruct l; lia). erewrite rd_at by reflexivity. cbn [bind]. rewrite wr_mid. cbn [bind set_ns v_ar].
    exists (Z.lor x 33). rewrite orb_true_r. destruct (Z.eqb_spec m 1) as [-> |Nm].
    + unfold set_ns, set_ar. cbn [v_ar v_look v_an v_ns]. rewrite wr_mid. cbn [bind]. exists (80 + zlen N0). split; [reflexivity|]. split; [lia|]. split; [exact L33|]. split; [intros; congruence|intros (_ & ?); discriminate].
    + replace (m =? 28) with false by (destruct l; lia). exists m. split; [reflexivity|]. split; [destruct l; lia|]. split; [exact L33|]. split; [intros; congruence|intros (_ & ?); discriminate].
  - assert ((m =? 1) || is_a_glue m = false) as -> by (unfold is_a_glue; destruct l; lia). assert ((m =? 28) || is_aaaa_glue m = true) as -> by (unfold is_aaaa_glue; destruct l; lia). erewrite rd_at by reflexivity. cbn [bind]. rewrite wr_mid. cbn [bind set_ns v_ar].
    exists (Z.lor x 34). rewrite orb_true_r. replace (m =? 1) with false by (destruct l; lia). destruct (Z.eqb_spec m 28) as [-> |Nm].
    + unfold set_ns, set_ar. cbn [v_ar v_look v_an v_ns]. rewrite wr_mid. cbn [bind]. exists (64 + zlen N0). split; [reflexivity|]. split; [lia|]. split; [exact L34|]. split; [intros; congruence|intros (_ & ?); discriminate].
    + exists m. split; [reflexivity|]. split; [destruct l; lia|]. split; [exact L34|]. split; [intros; congruence|intros (_ & ?); discriminate].
Qed.

Section LINK.
  Variable p : dwstr.
  Hypothesis Dp : dok p.
  Variable look : dnsstr.
  Hypothesis Lp : n_packet look = Some p.
  Variable tan : list Z.
  Variables ns ar : list rr.
  Hypothesis Sn : sec p (n_ns look) ns.
  Hypothesis Sa : sec p (n_ar look) ar.
  Hypothesis Ca : n_arcount look = zlen ar.
  Hypothesis Ct : Forall (fun s => rr_type s = 2 -> comparable (target s)) ns.

  Lemma link_ar_ok s n0 n1 N0 N1 (f : rr -> bool) : ns = n0 ++ s :: n1 -> rr_type s = 2 -> length N0 = length n0 -> zlen N0 <= 14 -> forall a2 a1 A1 A2 T1 x, ar = a1 ++ a2 -> length A1 = length a1 -> Forall2 (fun a m => amark a (f a) m) a2 A2 -> linkm x ->
    exists x' A2', link_ar_loop (length a2) (Some p) (mkdet look tan (N0 ++ x :: N1) (A1 ++ A2 ++ T1)) (Z.of_nat (length n0)) (Z.of_nat (length a1)) = Ok (mkdet look tan (N0 ++ x' :: N1) (A1 ++ A2' ++ T1)) /\
      Forall2 (fun a m => amark a (f a || address_of s a) m) a2 A2' /\ linkm x' /\ (x' = 32 <-> x = 32 /\ existsb (address_of s) a2 = false).
  Proof.
    intros En Ts E0 L0. induction a2 as [|a a2 IH]; intros a1 A1 A2 T1 x Ea E1 F Lx.
    - inversion F; subst. exists x, []. cbn [length link_ar_loop existsb]. split; [reflexivity|]. split; [constructor|]. split; [exact Lx|]. tauto.
    - inversion F as [|? m ? A2r Fm F']; subst A2 x0 l. cbn [length link_ar_loop app v_look]. 
      pose proof Sn as Sn'. rewrite En in Sn' at 1. destruct (Sn' (length n0) s (nth_error_mid _ _ _)) as (o & _ & Eo & R). rewrite Eo. cbn [bind].
      pose proof Sa as Sa'. rewrite Ea in Sa' at 1. destruct (Sa' (length a1) a (nth_error_mid _ _ _)) as (oa & Eoa & _ & Ra). rewrite Eoa. cbn [bind].
      assert (comparable (target s)) as Cs. { rewrite Forall_forall in Ct. apply Ct; auto. rewrite En. apply in_or_app. right. left. reflexivity. }
      unfold dwx_dname_issame_dw. rewrite (issame_2dw_ok p (o + ow s + 10) (target s) p oa (rr_owner a) Dp Dp (rec_target _ _ _ Dp R (or_intror Ts)) (rec_owner _ _ _ Ra) (or_introl Cs)). cbn [bind]. rewrite same_one.
      rewrite <- (of_nat_snoc a1 a). replace (Z.of_nat (length n0)) with (zlen N0) by (unfold zlen; lia).
      assert (exists x' m', (if same_name (target s) (rr_owner a) then dwx_make_link (mkdet look tan (N0 ++ x :: N1) (A1 ++ m :: A2r ++ T1)) (zlen N0) (Z.of_nat (length a1)) else Ok (mkdet look tan (N0 ++ x :: N1) (A1 ++ m :: A2r ++ T1)))
        = Ok (mkdet look tan (N0 ++ x' :: N1) (A1 ++ m' :: A2r ++ T1)) /\ amark a (f a || address_of s a) m' /\ linkm x' /\ (x' = 32 <-> x = 32 /\ address_of s a = false)) as (x1 & m1 & -> & Am & Lx1 & Hx1).
      { replace (Z.of_nat (length a1)) with (zlen A1) by (unfold zlen; lia). destruct (same_name (target s) (rr_owner a)) eqn:Es; [eapply make_link_ok; eauto|]. exists x, m. split; [reflexivity|]. unfold address_of. rewrite Es, andb_false_r, orb_false_r. split; [exact Fm|]. split; [exact Lx|]. tauto. }
      cbn [bind]. rewrite (snoc_app A1 m1). replace (zlen N0) with (Z.of_nat (length n0)) by (unfold zlen; lia).
      destruct (IH (a1 ++ [a]) (A1 ++ [m1]) A2r T1 x1) as (x2 & A2' & -> & F2 & Lx2 & Hx2); auto. { rewrite <- app_assoc. exact Ea. } { rewrite !length_snoc. lia. }
      exists x2, (m1 :: A2'). split; [rewrite <- app_assoc; reflexivity|]. split; [constructor; auto|]. split; [exact Lx2|]. cbn [existsb]. rewrite orb_false_iff. tauto.
  Qed.

  Variables q z : name.
  Definition nmark (s : rr) (m : Z) : Prop :=
    if accepted q z s then (if rr_type s =? 2 then linkm m /\ (m = 32 <-> existsb (address_of s) ar = false) else m = 6) else m = 36 \/ m = 37.
  Definition linked (P : list rr) (a : rr) : bool := existsb (fun s => server q z s && address_of s a) P.
  Lemma bmark_cases s : if accepted q z s then bmark q z s = rr_type s /\ (rr_type s = 2 \/ rr_type s = 6) else bmark q z s = 36 \/ bmark q z s = 37.
  Proof.
    unfold accepted, bmark. rewrite <- andb_assoc. destruct (at_or_below (rr_owner s) q && below z (rr_owner s)); [|rewrite andb_false_r; auto]. rewrite andb_true_r. destruct (ns_or_soa s) eqn:E; [|auto].
    unfold ns_or_soa in E. assert (rr_type s = 2 \/ rr_type s = 6) as T by lia. split; [|exact T]. unfold ty, dwx_rrtype_number. destruct T as [-> | ->]; reflexivity.
  Qed.
  Lemma link_ns_ok n2 : forall n1 N1 A T1 T2, ns = n1 ++ n2 -> zlen ns <= 15 -> length N1 = length n1 -> Forall2 (fun a m => amark a (linked n1 a) m) ar A ->
    exists N2 A', link_ns_loop (length n2) (Some p) (mkdet look tan (N1 ++ map (bmark q z) n2 ++ T1) (A ++ T2)) (Z.of_nat (length n1)) = Ok (mkdet look tan (N1 ++ N2 ++ T1) (A' ++ T2)) /\
      Forall2 nmark n2 N2 /\ Forall2 (fun a m => amark a (linked ns a) m) ar A'.
  Proof.
    induction n2 as [|s n2 IH]; intros n1 N1 A T1 T2 En Hns E1 FA.
    - exists [], A. rewrite app_nil_r in En. subst n1. split; [reflexivity|]. split; [constructor|exact FA].
    - cbn [length link_ns_loop map app v_ns]. erewrite rd_at; [|reflexivity|unfold zlen; lia]. cbn [bind]. rewrite <- (of_nat_snoc n1 s).
      assert (ns = (n1 ++ [s]) ++ n2) as En2 by (rewrite <- app_assoc; exact En).
      assert (zlen N1 <= 14) as L1. { apply (f_equal zlen) in En. rewrite zlen_app, zlen_cons in En. pose proof (zlen_nonneg n2). unfold zlen in *. lia. }
      assert (forall a, linked (n1 ++ [s]) a = linked n1 a || (server q z s && address_of s a)) as Ls. { intros a. unfold linked. rewrite existsb_app. cbn [existsb]. rewrite orb_false_r. reflexivity. }
      assert (exists m A1, (if bmark q z s =? 2 then l <- wr (N1 ++ bmark q z s :: map (bmark q z) n2 ++ T1) (Z.of_nat (length n1)) 32 ;;
           link_ar_loop (Z.to_nat (n_arcount (v_look (mkdet look tan (N1 ++ bmark q z s :: map (bmark q z) n2 ++ T1) (A ++ T2))))) (Some p) (set_ns (mkdet look tan (N1 ++ bmark q z s :: map (bmark q z) n2 ++ T1) (A ++ T2)) l) (Z.of_nat (length n1)) 0
         else Ok (mkdet look tan (N1 ++ bmark q z s :: map (bmark q z) n2 ++ T1) (A ++ T2))) = Ok (mkdet look tan (N1 ++ m :: map (bmark q z) n2 ++ T1) (A1 ++ T2)) /\ nmark s m /\ Forall2 (fun a m => amark a (linked (n1 ++ [s]) a) m) ar A1) as (m & A1 & -> & Nm & F1).
      { pose proof (bmark_cases s) as B. unfold nmark, server in *. destruct (accepted q z s) eqn:Ac; cbn [andb] in *.
        - destruct B as (-> & Ts). destruct (Z.eqb_spec (rr_type s) 2) as [T2' |T2'].
          + assert (Z.of_nat (length n1) = zlen N1) as Zn by (unfold zlen; lia). rewrite Zn. rewrite wr_mid. cbn [bind v_look]. unfold set_ns. cbn [v_look v_an v_ar]. rewrite Ca, nat_zlen.
            destruct (link_ar_ok s n1 n2 N1 (map (bmark q z) n2 ++ T1) (linked n1) En T2' E1 L1 ar [] [] A T2 32 eq_refl eq_refl FA (or_introl eq_refl)) as (x & A1 & E & F1 & Lx & Hx).
            cbn [app length Z.of_nat] in E. rewrite Zn in E. exists x, A1. split; [exact E|]. split; [split; [exact Lx|tauto]|]. eapply Forall2_impl_in; [|exact F1]. intros a m' Hm. rewrite Ls. exact Hm.
          + exists (rr_type s), A. split; [reflexivity|]. split; [lia|]. eapply Forall2_impl_in; [|exact FA]. intros a m' Hm. rewrite Ls, orb_false_r. exact Hm.
        - replace (bmark q z s =? 2) with false by lia. exists (bmark q z s), A. split; [reflexivity|]. split; [exact B|]. eapply Forall2_impl_in; [|exact FA]. intros a m' Hm. rewrite Ls, orb_false_r. exact Hm. }
      cbn [bind]. rewrite (snoc_app N1 m). destruct (IH (n1 ++ [s]) (N1 ++ [m]) A1 T1 T2 En2 Hns ltac:(rewrite !length_snoc; lia) F1) as (N2 & A' & -> & FN & FA').
      exists (m :: N2), A'. split; [rewrite <- app_assoc; reflexivity|]. split; [constructor; auto|exact FA'].
  Qed.

  (** *** The zone *)
  Lemma nmark_kept s m : nmark s m -> (negb (m =? 36) && negb (m =? 37)) = accepted q z s.
  Proof. unfold nmark, linkm. destruct (accepted q z s); [|intros [-> | ->]; reflexivity]. destruct (rr_type s =? 2); [intros ([|[|[|]]] & _)|intros]; subst; reflexivity. Qed.
  Lemma longest_ok n2 : forall n1 N1 N2 T1 best k, ns = n1 ++ n2 -> Forall2 nmark n2 N2 -> length N1 = length n1 -> (exists o, rd (n_ns look) (k * 2) = Ok o /\ in_at p o best) ->
    exists k', longest_loop (length n2) p (n_ns look) (N1 ++ N2 ++ T1) (Z.of_nat (length n1)) (zlen best) k = Ok (zlen (fold_left longer (map rr_owner (filter (accepted q z) n2)) best), k') /\
      exists o, rd (n_ns look) (k' * 2) = Ok o /\ in_at p o (fold_left longer (map rr_owner (filter (accepted q z) n2)) best).
  Proof.
    induction n2 as [|s n2 IH]; intros n1 N1 N2 T1 best k En F E1 Hk; inversion F as [|? m ? N2r Fm F']; subst N2.
    - exists k. split; [reflexivity|exact Hk].
    - subst x l. cbn [length longest_loop app]. erewrite rd_at; [|reflexivity|unfold zlen; lia]. cbn [bind]. rewrite (nmark_kept s m Fm). rewrite <- (of_nat_snoc n1 s).
      assert (ns = (n1 ++ [s]) ++ n2) as En2 by (rewrite <- app_assoc; exact En). rewrite (snoc_app N1 m). assert (length (N1 ++ [m]) = length (n1 ++ [s])) as E2 by (rewrite !length_snoc; lia). cbn [filter].
      destruct (accepted q z s) eqn:Ac; [|apply IH; auto]. cbn [map fold_left].
      pose proof Sn as Sn'. rewrite En in Sn' at 1. destruct (Sn' (length n1) s (nth_error_mid _ _ _)) as (o & Eo & _ & R). rewrite Eo. cbn [bind]. pose proof (rec_owner _ _ _ R) as No. pose proof R as (_ & _ & ((_ & Hl) & _)).
      rewrite (dn_end_named _ _ _ Dp No Hl). cbn [bind]. replace (o + zlen (wire (rr_owner s)) - o) with (zlen (wire (rr_owner s))) by lia. unfold longer at 2 4. destruct (zlen best <? zlen (wire (rr_owner s))); apply IH; auto. exists o. split; [exact Eo|]. exact (proj2 No).
  Qed.

  (** *** The entries *)
  Definition glues (l : list rr) : list (list Z) := map glue_entry (filter (linked ns) l).
  Definition nameless (s : rr) : bool := server q z s && negb (existsb (address_of s) ar).
  Definition names_of (l : list rr) : list (list Z) := map name_entry (filter nameless l).
  Definition room (l : list (list Z)) : Z := zlen (concat l) + 3 * zlen l.
  Lemma room_cons x l : room (x :: l) = zlen x + 3 + room l.
  Proof. unfold room. cbn [concat]. rewrite zlen_app, zlen_cons. lia. Qed.
  Lemma linked_address P a : linked P a = true -> address a = true.
  Proof. unfold linked, address_of. intros E. apply existsb_exists in E as (s & _ & E). apply andb_prop in E as (_ & E). apply andb_prop in E as (E & _). exact E. Qed.
  Lemma amark_kind a m : amark a (linked ns a) m -> ip_size_ok a ->
    if linked ns a then (rr_type a = 1 /\ is_a_glue m = true /\ glue_entry a = 1 :: firstn 4 (rdata_plain a) /\ 4 <= zlen (rdata_plain a)) \/ (rr_type a = 28 /\ is_a_glue m = false /\ is_aaaa_glue m = true /\ glue_entry a = 28 :: firstn 16 (rdata_plain a) /\ 16 <= zlen (rdata_plain a))
    else is_a_glue m = false /\ is_aaaa_glue m = false.
  Proof.
    unfold amark. intros Am (S1 & S2). pose proof (linked_address ns a) as La. unfold is_a_glue, is_aaaa_glue. destruct (address a) eqn:Ad.
    - unfold address in Ad. assert (rr_type a = 1 \/ rr_type a = 28) as T by lia. unfold glue_entry, rr_ip. destruct T as [T|T]; rewrite T in *; [change (1 =? 1) with true in *|change (28 =? 1) with false in *; change (28 =? 28) with true in *]; cbv iota in *; destruct (linked ns a); cbv iota in Am.
      + left. split; [reflexivity|]. split; [lia|]. split; [reflexivity|auto].
      + subst m. split; reflexivity.
      + right. split; [reflexivity|]. split; [lia|]. split; [lia|]. split; [reflexivity|auto].
      + subst m. split; reflexivity.
    - destruct (linked ns a); [discriminate La; reflexivity|]. subst m. split; reflexivity.
  Qed.
  Lemma zlen_firstn (l : list Z) n : Z.of_nat n <= zlen l -> zlen (firstn n l) = Z.of_nat n.
  Proof. unfold zlen. intros. rewrite firstn_length. lia. Qed.
  Lemma glued_len_ok a2 : Forall ip_size_ok a2 -> forall a1 A1 A2 T1 len, length A1 = length (a1 : list rr) -> Forall2 (fun a m => amark a (linked ns a) m) a2 A2 ->
    glued_len (length a2) (A1 ++ A2 ++ T1) (Z.of_nat (length a1)) len = Ok (len + room (glues a2)).
  Proof.
    induction a2 as [|a a2 IH]; intros Sz a1 A1 A2 T1 len E1 F; inversion F as [|? m ? A2r Fm F']; subst A2.
    - cbn [length glued_len]. unfold room, glues. cbn. f_equal. lia.
    - inversion Sz; subst. cbn [length glued_len app]. erewrite rd_at; [|reflexivity|unfold zlen; lia]. cbn [bind]. rewrite <- (of_nat_snoc a1 a), (snoc_app A1 m), IH; auto; [|rewrite !length_snoc; lia]. f_equal.
      pose proof (amark_kind a m Fm ltac:(assumption)) as K. unfold glues. cbn [filter]. destruct (linked ns a); cbn [map]; [rewrite room_cons|].
      + destruct K as [(_ & -> & -> & L) | (_ & -> & -> & -> & L)]; rewrite zlen_cons, zlen_firstn by lia; cbv iota; lia.
      + destruct K as (-> & ->). reflexivity.
  Qed.
  Lemma nmark_nameless s m : nmark s m -> (m =? 32) = nameless s.
  Proof.
    unfold nmark, nameless, server. destruct (accepted q z s); [|intros [-> | ->]; reflexivity]. cbn [andb]. destruct (rr_type s =? 2); [|intros ->; reflexivity]. cbn [andb]. intros (_ & Hm). destruct (existsb (address_of s) ar); cbn [negb]; destruct (Z.eqb_spec m 32); auto.
    - destruct Hm as (Hm & _). discriminate Hm; auto.
    - destruct Hm as (_ & Hm). exfalso; auto.
  Qed.
  Lemma nameless_ns s : nameless s = true -> rr_type s = 2.
  Proof. unfold nameless, server. intros E. apply andb_prop in E as (E & _). apply andb_prop in E as (_ & E). lia. Qed.
  Lemma zlen_name_entry s : zlen (name_entry s) = 3 + zlen (wire (target s)).
  Proof. unfold name_entry. rewrite zlen_cons, zlen_app. change (zlen (num16 _)) with 2. lia. Qed.
  Lemma glueless_len_ok n2 : forall n1 N1 N2 T1 len, ns = n1 ++ n2 -> length N1 = length n1 -> Forall2 nmark n2 N2 ->
    glueless_len (length n2) p (n_ns look) (N1 ++ N2 ++ T1) (Z.of_nat (length n1)) len = Ok (len + room (names_of n2)).
  Proof.
    induction n2 as [|s n2 IH]; intros n1 N1 N2 T1 len En E1 F; inversion F as [|? m ? N2r Fm F']; subst N2.
    - cbn [length glueless_len]. unfold room, names_of. cbn. f_equal. lia.
    - subst x l. assert (ns = (n1 ++ [s]) ++ n2) as En2 by (rewrite <- app_assoc; exact En). assert (length (N1 ++ [m]) = length (n1 ++ [s])) as E2 by (rewrite !length_snoc; lia).
      cbn [length glueless_len app]. erewrite rd_at; [|reflexivity|unfold zlen; lia]. cbn [bind]. rewrite <- (of_nat_snoc n1 s), (snoc_app N1 m), (nmark_nameless s m Fm). unfold names_of. cbn [filter]. destruct (nameless s) eqn:Es; [|apply IH; auto].
      pose proof (nameless_ns s Es) as Ts. pose proof Sn as Sn'. rewrite En in Sn' at 1. destruct (Sn' (length n1) s (nth_error_mid _ _ _)) as (o & _ & Eo & R). rewrite Eo. cbn [bind]. rewrite (rec_rdlen _ _ _ Dp R). cbn [bind].
      pose proof R as (_ & _ & P). destruct (proper_target s P (or_intror Ts)) as (-> & _). pose proof (zlen_wire_pos (target s)). replace (zlen (wire (target s)) <=? 0) with false by lia. rewrite IH by auto. cbn [map]. rewrite room_cons, zlen_name_entry. fold (names_of n2). f_equal. lia.
  Qed.

  Variables Jz Jo J : Z -> Z.
  Hypothesis HJz : junk_ok Jz.
  Hypothesis HJo : junk_ok Jo.
  Hypothesis HJ : junk_ok J.
  Hypothesis Hl : d_len p < 1000000.
  Lemma substr_append_ok o n l out : dok out -> in_at p o l -> zlen l = n -> d_len out + n < d_max out -> exists out', dw_substr_append J p o n out = Ok (0, out') /\ dok out' /\ con out' = con out ++ l /\ d_max out' = d_max out.
  Proof.
    intros Do I El Hr. pose proof (in_at_range _ _ _ Dp I) as R. pose proof (zlen_nonneg l). unfold dw_substr_append. destruct (dw_substr_ok J p o n 1 HJ Dp) as (x & -> & Dx & Cx & _ & Lx); try lia. cbn [bind].
    destruct (dw_append_ok x out Dx Do ltac:(lia)) as (o' & -> & D' & C' & M'). exists o'. rewrite C', Cx, <- El. rewrite (in_at_slice _ _ _ I). auto.
  Qed.
  Lemma in_at_firstn o l n : in_at p o l -> in_at p o (firstn n l).
  Proof. intros (A & B & C & E). exists A, (skipn n l ++ B). split; [|exact E]. rewrite C. rewrite (app_assoc (firstn n l)), firstn_skipn. reflexivity. Qed.
  Lemma len_con s l : dok s -> con s = l -> d_len s = zlen l. Proof. intros D <-. rewrite zlen_con by auto. reflexivity. Qed.
  Lemma nsglue_ok a m o : rec_at p o a -> ip_size_ok a -> amark a (linked ns a) m -> linked ns a = true ->
    exists x, dwx_make_nsglue Jo J p (o + ow a + 10) m = Ok (Some x) /\ dok x /\ con x = glue_entry a.
  Proof.
    intros R Sz Am Li. pose proof (amark_kind a m Am Sz) as K. rewrite Li in K. pose proof (rec_rdata _ _ _ Dp R) as I. unfold dwx_make_nsglue.
    assert (forall c n, byte c -> (Z.of_nat n = 4 \/ Z.of_nat n = 16) -> Z.of_nat n <= zlen (rdata_plain a) -> glue_entry a = c :: firstn n (rdata_plain a) ->
      exists x, (match dw_create Jo (Z.of_nat n + 2) with None => Ok None | Some out => '(code, out) <- dw_addchar c out ;; if code =? -1 then Ok None else '(code, out) <- dw_substr_append J p (o + ow a + 10) (Z.of_nat n) out ;; if code =? -1 then Ok None else Ok (Some out) end) = Ok (Some x) /\ dok x /\ con x = glue_entry a) as G.
    { intros c n Hc Hn Hz ->. destruct (dw_create_ok Jo (Z.of_nat n + 2) HJo ltac:(lia)) as (o0 & -> & W0 & L0 & M0). assert (dok o0) as D0 by (split; [exact W0|lia]). destruct (push_char o0 c D0 Hc ltac:(lia)) as (o1 & -> & D1 & C1 & M1 & L1). cbn [bind]. change (0 =? -1) with false. cbv iota.
      destruct (substr_append_ok (o + ow a + 10) (Z.of_nat n) (firstn n (rdata_plain a)) o1 D1 (in_at_firstn _ _ _ I) (zlen_firstn _ _ Hz) ltac:(lia)) as (o2 & -> & D2 & C2 & M2). cbn [bind]. change (0 =? -1) with false. cbv iota. exists o2. split; [reflexivity|]. split; [exact D2|]. rewrite C2, C1, (con_nil o0 L0). reflexivity. }
    destruct K as [(_ & -> & Eg & L) | (_ & -> & -> & Eg & L)].
    - apply (G 1 4%nat); auto. unfold byte; lia.
    - apply (G 28 16%nat); auto. unfold byte; lia.
  Qed.
  Lemma nsglueless_ok s o : rec_at p o s -> rr_type s = 2 -> exists x, dwx_make_nsglueless Jo J p (o + ow s + 8) = Ok (Some x) /\ dok x /\ con x = name_entry s.
  Proof.
    intros R Ts. unfold dwx_make_nsglueless. rewrite (rec_rdlen _ _ _ Dp R). cbn [bind]. pose proof R as (_ & (_ & _ & Fz) & P). destruct (proper_target s P (or_intror Ts)) as (Er & (_ & Hn)). rewrite Er in *. pose proof (rec_target _ _ _ Dp R (or_intror Ts)) as N.
    replace (o + ow s + 8 + 2) with (o + ow s + 10) by lia. destruct (get_string_ok J p (o + ow s + 10) (target s) HJ Dp N Hn Hl) as (x & -> & Dx & Cx & Lx). cbn [bind]. replace (d_len x =? zlen (wire (target s))) with true by lia. cbn [negb]. pose proof (zlen_wire_pos (target s)).
    destruct (dw_create_ok Jo (zlen (wire (target s)) + 5) HJo ltac:(lia)) as (o0 & -> & W0 & L0 & M0). assert (dok o0) as D0 by (split; [exact W0|lia]).
    destruct (push_char o0 2 D0 ltac:(unfold byte; lia) ltac:(lia)) as (o1 & -> & D1 & C1 & M1 & L1). cbn [bind]. change (0 =? -1) with false. cbv iota.
    destruct (push_num o1 (zlen (wire (target s))) D1 ltac:(lia) ltac:(lia)) as (o2 & -> & D2 & C2 & M2 & L2). cbn [bind]. change (0 =? -1) with false. cbv iota.
    destruct (dw_append_ok x o2 Dx D2 ltac:(lia)) as (o3 & -> & D3 & C3 & M3). cbn [bind]. change (0 =? -1) with false. cbv iota. exists o3. split; [reflexivity|]. split; [exact D3|]. rewrite C3, C2, C1, Cx, (con_nil o0 L0). unfold name_entry. cbn [app]. reflexivity.
  Qed.
  Lemma starts_snoc l x : forall a, starts a (l ++ [x]) = starts a l ++ [a + zlen (concat l)].
  Proof. induction l as [|y l IH]; intros a; cbn [app starts concat]; [change (zlen (@nil Z)) with 0; rewrite Z.add_0_r; reflexivity|]. rewrite IH, zlen_app. cbn [app]. do 2 f_equal. f_equal. lia. Qed.
  Lemma zlen_starts l : forall a, zlen (starts a l) = zlen l.
  Proof. induction l as [|y l IH]; intros a; cbn [starts]; [reflexivity|]. rewrite !zlen_cons, IH. reflexivity. Qed.
  Definition state (zone : list Z) (E : list (list Z)) (out : dwstr) (offset : list Z) (X : list Z) : Prop :=
    dok out /\ con out = zone ++ concat E /\ offset = starts (zlen zone) E ++ X.
  (** One more entry. *)
  Lemma state_step zone E out offset v X x tmp : state zone E out offset (v :: X) -> dok tmp -> con tmp = x -> zlen zone + zlen (concat E) + zlen x < d_max out -> zlen zone + zlen (concat E) < 65536 ->
    exists out' offset', wr offset (zlen E) (u16 (d_len out)) = Ok offset' /\ dw_append (Some tmp) out = Ok (0, out') /\ state zone (E ++ [x]) out' offset' X /\ d_max out' = d_max out.
  Proof.
    intros (Do & Co & Eo) Dt Ct' Hr Hs. pose proof (len_con out _ Do Co) as Lo. rewrite zlen_app in Lo. pose proof (len_con tmp _ Dt Ct') as Lt. pose proof (zlen_nonneg zone). pose proof (zlen_nonneg (concat E)).
    destruct (dw_append_ok tmp out Dt Do ltac:(lia)) as (o' & E' & D' & C' & M'). exists o'. assert (u16 (d_len out) = d_len out) as -> by (unfold u16; lia).
    rewrite Eo. rewrite <- (zlen_starts E (zlen zone)). rewrite wr_mid. eexists. split; [reflexivity|]. split; [exact E'|]. split; [|exact M']. split; [exact D'|]. split.
    - rewrite C', Co, Ct', concat_app. cbn [concat]. rewrite app_nil_r, <- app_assoc. reflexivity.
    - rewrite starts_snoc, <- app_assoc, Lo. reflexivity.
  Qed.
  Lemma glues_cons a l : glues (a :: l) = if linked ns a then glue_entry a :: glues l else glues l.
  Proof. unfold glues. cbn [filter]. destruct (linked ns a); reflexivity. Qed.
  Lemma names_cons a l : names_of (a :: l) = if nameless a then name_entry a :: names_of l else names_of l.
  Proof. unfold names_of. cbn [filter]. destruct (nameless a); reflexivity. Qed.
  Lemma refer_glued_ok zone a2 : Forall ip_size_ok a2 -> forall a1 A1 A2 T1 E X out offset, ar = a1 ++ a2 -> length A1 = length a1 -> Forall2 (fun a m => amark a (linked ns a) m) a2 A2 ->
    state zone E out offset X -> zlen E + zlen (glues a2) <= 31 -> zlen (glues a2) <= zlen X -> zlen zone + zlen (concat E) + zlen (concat (glues a2)) < d_max out -> zlen zone + zlen (concat E) + zlen (concat (glues a2)) < 65536 ->
    exists out' offset' X', refer_glued_loop (length a2) Jo J p (n_ar look) (A1 ++ A2 ++ T1) (Z.of_nat (length a1)) out offset (zlen E) = Ok (out', offset', zlen (E ++ glues a2)) /\ state zone (E ++ glues a2) out' offset' X' /\ d_max out' = d_max out /\ zlen X' = zlen X - zlen (glues a2).
  Proof.
    induction a2 as [|a a2 IH]; intros Sz a1 A1 A2 T1 E X out offset Ea E1 F St Hc HX Hr Hs; inversion F as [|? m ? A2r Fm F']; subst A2.
    - exists out, offset, X. unfold glues. cbn [length refer_glued_loop map filter]. rewrite app_nil_r. change (zlen (@nil (list Z))) with 0. rewrite Z.sub_0_r. auto.
    - subst x l. inversion Sz as [|? ? Sa1 Sz']; subst x l. assert (ar = (a1 ++ [a]) ++ a2) as Ea2 by (rewrite <- app_assoc; exact Ea). cbn [length refer_glued_loop app].
      pose proof Sa as Sa'. rewrite Ea in Sa' at 1. destruct (Sa' (length a1) a (nth_error_mid _ _ _)) as (o & _ & Eo & R). rewrite Eo. cbn [bind]. erewrite rd_at; [|reflexivity|unfold zlen; lia]. cbn [bind].
      rewrite <- (of_nat_snoc a1 a), (snoc_app A1 m). assert (length (A1 ++ [m]) = length (a1 ++ [a])) as E2 by (rewrite !length_snoc; lia). pose proof (amark_kind a m Fm Sa1) as K. rewrite glues_cons in *. destruct (linked ns a) eqn:Li.
      + assert (is_a_glue m || is_aaaa_glue m = true) as ->. { destruct K as [(_ & -> & _) | (_ & _ & -> & _)]; [reflexivity|apply orb_true_r]. }
        rewrite zlen_cons in Hc, HX. cbn [concat] in Hr, Hs. rewrite zlen_app in Hr, Hs. pose proof (zlen_nonneg (glues a2)). pose proof (zlen_nonneg (concat (glues a2))). pose proof (zlen_nonneg (glue_entry a)). destruct X as [|v X]; [change (zlen (@nil Z)) with 0 in HX; lia|]. rewrite zlen_cons in HX.
        assert (amark a (linked ns a) m) as Fm' by (rewrite Li; exact Fm). destruct (nsglue_ok a m o R Sa1 Fm' Li) as (tmp & Et & Dt & Ct'). destruct (state_step zone E out offset v X (glue_entry a) tmp St Dt Ct' ltac:(lia) ltac:(lia)) as (o1 & f1 & -> & Ap & St1 & M1).
        cbn [bind]. cbv zeta. rewrite Et. cbn [bind]. rewrite Ap. cbn [bind]. replace ((0 =? -1) || (31 <? zlen E + 1)) with false by lia. cbv iota.
        replace (zlen E + 1) with (zlen (E ++ [glue_entry a])) by (rewrite zlen_app; reflexivity).
        destruct (IH Sz' (a1 ++ [a]) (A1 ++ [m]) A2r T1 (E ++ [glue_entry a]) X o1 f1 Ea2 E2 F' St1) as (o2 & f2 & X2 & -> & St2 & M2 & LX2).
        { rewrite zlen_app. change (zlen [glue_entry a]) with 1. lia. } { lia. } { rewrite concat_app, zlen_app. cbn [concat]. rewrite app_nil_r. lia. } { rewrite concat_app, zlen_app. cbn [concat]. rewrite app_nil_r. lia. }
        exists o2, f2, X2. rewrite <- app_assoc in St2 |- *. split; [reflexivity|]. split; [exact St2|]. split; [lia|]. rewrite !zlen_cons. lia.
      + destruct K as (-> & ->). cbn [orb]. cbv iota. apply (IH Sz' (a1 ++ [a]) (A1 ++ [m]) A2r T1 E X out offset); auto.
  Qed.
  Lemma refer_glueless_ok zone n2 : forall n1 N1 N2 T1 E X out offset, ns = n1 ++ n2 -> length N1 = length n1 -> Forall2 nmark n2 N2 ->
    state zone E out offset X -> zlen E + zlen (names_of n2) <= 31 -> zlen (names_of n2) <= zlen X -> zlen zone + zlen (concat E) + zlen (concat (names_of n2)) < d_max out -> zlen zone + zlen (concat E) + zlen (concat (names_of n2)) < 65536 ->
    exists out' offset' X', refer_glueless_loop (length n2) Jo J p (n_ns look) (N1 ++ N2 ++ T1) (Z.of_nat (length n1)) out offset (zlen E) = Ok (out', offset', zlen (E ++ names_of n2)) /\ state zone (E ++ names_of n2) out' offset' X' /\ d_max out' = d_max out.
  Proof.
    induction n2 as [|s n2 IH]; intros n1 N1 N2 T1 E X out offset En E1 F St Hc HX Hr Hs; inversion F as [|? m ? N2r Fm F']; subst N2.
    - exists out, offset, X. unfold names_of. cbn [length refer_glueless_loop map filter]. rewrite app_nil_r. auto.
    - subst x l. assert (ns = (n1 ++ [s]) ++ n2) as En2 by (rewrite <- app_assoc; exact En). assert (length (N1 ++ [m]) = length (n1 ++ [s])) as E2 by (rewrite !length_snoc; lia).
      cbn [length refer_glueless_loop app]. erewrite rd_at; [|reflexivity|unfold zlen; lia]. cbn [bind]. rewrite <- (of_nat_snoc n1 s), (snoc_app N1 m), (nmark_nameless s m Fm). rewrite names_cons in *. destruct (nameless s) eqn:Es; [|apply (IH (n1 ++ [s]) (N1 ++ [m]) N2r T1 E X out offset); auto].
      rewrite zlen_cons in Hc, HX. cbn [concat] in Hr, Hs. rewrite zlen_app in Hr, Hs. pose proof (zlen_nonneg (names_of n2)). pose proof (zlen_nonneg (concat (names_of n2))). pose proof (zlen_nonneg (name_entry s)). destruct X as [|v X]; [change (zlen (@nil Z)) with 0 in HX; lia|]. rewrite zlen_cons in HX.
      pose proof (nameless_ns s Es) as Ts. pose proof Sn as Sn'. rewrite En in Sn' at 1. destruct (Sn' (length n1) s (nth_error_mid _ _ _)) as (o & _ & Eo & R).
      destruct (nsglueless_ok s o R Ts) as (tmp & Et & Dt & Ct'). destruct (state_step zone E out offset v X (name_entry s) tmp St Dt Ct' ltac:(lia) ltac:(lia)) as (o1 & f1 & -> & Ap & St1 & M1).
      cbn [bind]. cbv zeta. rewrite Eo. cbn [bind]. rewrite Et. cbn [bind]. rewrite Ap. cbn [bind]. replace ((0 =? -1) || (31 <? zlen E + 1)) with false by lia. cbv iota.
      replace (zlen E + 1) with (zlen (E ++ [name_entry s])) by (rewrite zlen_app; reflexivity).
      destruct (IH (n1 ++ [s]) (N1 ++ [m]) N2r T1 (E ++ [name_entry s]) X o1 f1 En2 E2 F' St1) as (o2 & f2 & X2 & -> & St2 & M2).
      { rewrite zlen_app. change (zlen [name_entry s]) with 1. lia. } { lia. } { rewrite concat_app, zlen_app. cbn [concat]. rewrite app_nil_r. lia. } { rewrite concat_app, zlen_app. cbn [concat]. rewrite app_nil_r. lia. }
      exists o2, f2, X2. rewrite <- app_assoc in St2 |- *. split; [reflexivity|]. split; [exact St2|]. lia.
  Qed.

  (** *** The whole string *)
  Lemma glues_size l : Forall rr_fits l -> Forall ip_size_ok l -> zlen (concat (glues l)) <= zlen (plain_records l).
  Proof.
    induction l as [|a l IH]; intros F Sz; [cbn; lia|]. inversion F; inversion Sz as [|? ? (S1 & S2)]; subst. rewrite glues_cons, plain_records_cons, zlen_app, zlen_rr_plain by auto. pose proof (zlen_nonneg (wire (rr_owner a))). pose proof (zlen_nonneg (rdata_plain a)). specialize (IH ltac:(assumption) ltac:(assumption)). destruct (linked ns a); [|lia].
    cbn [concat]. rewrite zlen_app. assert (zlen (glue_entry a) <= 1 + zlen (rdata_plain a)); [|lia]. unfold glue_entry, rr_ip. destruct (rr_type a =? 1); [|destruct (rr_type a =? 28)]; rewrite zlen_cons; unfold zlen; rewrite ?firstn_length; cbn [length]; lia.
  Qed.
  Lemma name_entry_size s : rr_fits s -> proper_rr s -> nameless s = true -> zlen (name_entry s) + zlen (wire (rr_owner s)) <= zlen (rr_plain s).
  Proof. intros F P Es. destruct (proper_target s P (or_intror (nameless_ns s Es))) as (Er & _). rewrite zlen_rr_plain by auto. rewrite Er, zlen_name_entry. lia. Qed.
  Lemma names_size l : Forall rr_fits l -> Forall proper_rr l -> zlen (concat (names_of l)) <= zlen (plain_records l) /\ forall r, In r l -> zlen (wire (rr_owner r)) + zlen (concat (names_of l)) <= zlen (plain_records l).
  Proof.
    induction l as [|a l IH]; intros F P; [split; [cbn; lia|intros r []]|]. inversion F; inversion P; subst. destruct IH as (I1 & I2); auto. rewrite names_cons, plain_records_cons, zlen_app. pose proof (zlen_nonneg (wire (rr_owner a))). pose proof (zlen_nonneg (rdata_plain a)).
    assert (zlen (concat (if nameless a then name_entry a :: names_of l else names_of l)) + zlen (wire (rr_owner a)) <= zlen (rr_plain a) + zlen (concat (names_of l))) as I.
    { destruct (nameless a) eqn:Ea; [|rewrite zlen_rr_plain by auto; lia]. cbn [concat]. rewrite zlen_app. pose proof (name_entry_size a ltac:(auto) ltac:(auto) Ea). lia. }
    split; [lia|]. intros r [<- |Hr]; [lia|]. specialize (I2 r Hr). lia.
  Qed.
  Lemma longest_in l : forall best, fold_left longer l best = best \/ exists n, In n l /\ fold_left longer l best = wire n.
  Proof.
    induction l as [|n l IH]; intros best; cbn [fold_left]; [auto|]. destruct (IH (longer best n)) as [-> | (m & Hm & ->)]; [|right; exists m; split; [right; exact Hm|reflexivity]]. unfold longer. destruct (_ <? _); [|auto]. right. exists n. split; [left; reflexivity|reflexivity].
  Qed.
  Lemma refer_size : Forall rr_fits ns -> Forall proper_rr ns -> Forall rr_fits ar -> Forall ip_size_ok ar ->
    zlen (referred_zone q z ns) + zlen (concat (server_entries q z ns ar)) <= zlen (plain_records ns) + zlen (plain_records ar).
  Proof.
    intros F1 P1 F2 Sz. change (server_entries q z ns ar) with (glues ar ++ names_of ns). rewrite concat_app, zlen_app. pose proof (glues_size ar F2 Sz). destruct (names_size ns F1 P1) as (I1 & I2).
    unfold referred_zone. destruct (longest_in (map rr_owner (filter (accepted q z) ns)) []) as [-> | (n & Hn & ->)]; [change (zlen (@nil Z)) with 0; lia|]. apply in_map_iff in Hn as (r & <- & Hr). apply filter_In in Hr as (Hr & _). specialize (I2 r Hr). lia.
  Qed.
  Lemma starts_range l : forall a, 0 <= a -> a + zlen (concat l) < 65536 -> Forall (fun v => 0 <= v < 65536) (starts a l).
  Proof. induction l as [|x l IH]; intros a Ha Hs; cbn [starts]; constructor; cbn [concat] in Hs; rewrite zlen_app in Hs; pose proof (zlen_nonneg x); pose proof (zlen_nonneg (concat l)); [lia|]. apply IH; lia. Qed.
  Lemma ns_refer_ok N A T1 T2 : Forall2 nmark ns N -> Forall2 (fun a m => amark a (linked ns a) m) ar A -> n_nscount look = zlen ns -> ns <> [] -> Forall ip_size_ok ar ->
    let zone := referred_zone q z ns in let E := server_entries q z ns ar in
    zlen E <= 31 -> zlen zone + zlen (concat E) < 65536 ->
    exists out, dwx_make_ns_refer Jz Jo J (mkdet look tan (N ++ T1) (A ++ T2)) = Ok out /\ dok out /\ con out = ns_referral zone E.
  Proof.
    intros FN FA Cn Hns Sz zone E HE Hs. unfold dwx_make_ns_refer. cbv zeta. cbn [v_look v_ns v_ar]. rewrite Lp, Ca, Cn, !nat_zlen.
    assert (E = glues ar ++ names_of ns) as EE by reflexivity. pose proof (zlen_nonneg zone). pose proof (zlen_nonneg (concat E)). pose proof (zlen_nonneg E).
    pose proof (glued_len_ok ar Sz [] [] A T2 0 eq_refl FA) as G1. cbn [length Z.of_nat app] in G1. rewrite G1. cbn [bind]. clear G1.
    pose proof (glueless_len_ok ns [] [] N T1 (0 + room (glues ar)) eq_refl eq_refl FN) as G2. cbn [length Z.of_nat app] in G2. rewrite G2. cbn [bind]. clear G2.
    assert (0 + room (glues ar) + room (names_of ns) = room E) as -> by (rewrite EE; unfold room; rewrite concat_app, !zlen_app; lia). unfold room.
    unfold dwx_make_ns_refer_proc, dwx_find_ns_referral. cbv zeta. cbn [v_look v_ns v_ar]. rewrite Ca, Cn, !nat_zlen.
    destruct (longest_ok ns [] [] N T1 [] 0 eq_refl FN eq_refl) as (k & Ek & o & Eo & I). { destruct ns as [|s n'] eqn:En; [congruence|]. destruct (Sn 0%nat s eq_refl) as (o & Eo & _ & ((A0 & B0 & C0 & E0) & _)). exists o. split; [exact Eo|]. exists A0, (rr_plain s ++ B0). auto. }
    cbn [length Z.of_nat app] in Ek. change (zlen (@nil Z)) with 0 in Ek. rewrite Ek. cbn [bind]. rewrite Eo. cbn [bind]. fold (referred_zone q z ns) in I |- *. fold zone in I |- *. pose proof (in_at_range _ _ _ Dp I) as Ri.
    destruct (dw_substr_ok Jz p o (zlen zone) (zlen (concat E) + 3 * zlen E + 3) HJz Dp) as (o0 & -> & D0 & C0 & M0 & L0); try lia. rewrite (in_at_slice _ _ _ I) in C0. cbn [bind].
    assert (state zone [] o0 (zeros 33) (zeros 33)) as S0. { split; [exact D0|]. split; [rewrite C0; cbn [concat]; rewrite app_nil_r; reflexivity|reflexivity]. }
    pose proof (f_equal zlen EE) as E1. rewrite zlen_app in E1. pose proof (f_equal (fun l => zlen (concat l)) EE) as E2. cbn beta in E2. rewrite concat_app, zlen_app in E2. pose proof (zlen_nonneg (glues ar)). pose proof (zlen_nonneg (names_of ns)). pose proof (zlen_nonneg (concat (glues ar))). pose proof (zlen_nonneg (concat (names_of ns))).
    assert (zlen (zeros 33) = 33) as Z33 by reflexivity.
    destruct (refer_glued_ok zone ar Sz [] [] A T2 [] (zeros 33) o0 (zeros 33) eq_refl eq_refl FA S0) as (o1 & f1 & X1 & R1 & S1 & M1 & LX1); cbn [concat]; change (zlen (@nil Z)) with 0; change (zlen (@nil (list Z))) with 0; try lia.
    cbn [length Z.of_nat app] in R1, S1. change (zlen (@nil (list Z))) with 0 in R1. rewrite R1. cbn [bind]. clear R1.
    destruct (refer_glueless_ok zone ns [] [] N T1 (glues ar) X1 o1 f1 eq_refl eq_refl FN S1) as (o2 & f2 & X2 & R2 & S2 & M2); try lia.
    cbn [length Z.of_nat app] in R2. rewrite R2. cbn [bind]. clear R2. rewrite <- EE in *. destruct S2 as (D2 & C2 & F2). pose proof (len_con o2 _ D2 C2) as L2. rewrite zlen_app in L2.
    destruct (push_offsets_ok (starts (zlen zone) E) [] X2 o2 D2 (starts_range E (zlen zone) ltac:(lia) ltac:(lia))) as (o3 & R3 & D3 & C3 & M3 & L3). { rewrite zlen_starts. lia. }
    rewrite zlen_starts in L3. cbn [app] in R3. change (zlen (@nil Z)) with 0 in R3. rewrite <- F2 in R3. replace (length (starts (zlen zone) E)) with (Z.to_nat (zlen E)) in R3 by (rewrite <- (zlen_starts E (zlen zone)); apply nat_zlen). rewrite R3. cbn [bind].
    destruct (push_char o3 (zlen E) D3 ltac:(unfold byte; lia) ltac:(lia)) as (o4 & -> & D4 & C4 & M4 & L4). cbn [bind]. change (0 =? -1) with false. cbv iota.
    destruct (push_char o4 16 D4 ltac:(unfold byte; lia) ltac:(lia)) as (o5 & -> & D5 & C5 & M5 & L5). cbn [bind]. change (0 =? -1) with false. cbv iota.
    exists o5. split; [reflexivity|]. split; [exact D5|]. unfold ns_referral. rewrite C5, C4, C3, C2, <- !app_assoc. cbn [app]. reflexivity.
  Qed.
End LINK.

Section DISSECT.
  Variables Jz Jo J : Z -> Z.
  Hypothesis HJz : junk_ok Jz.
  Hypothesis HJo : junk_ok Jo.
  Hypothesis HJ : junk_ok J.
  Variables inp query bail : dwstr.
  Variables ns ar : list rr.
  Variable t : Z.
  Hypothesis H : holds inp [] ns ar t.
  Hypothesis Ht : t = 0 \/ t = 1.
  Hypothesis Pr : Forall proper_rr ([] ++ ns ++ ar).
  Variables q z : name.
  Variable qt : Z.
  Hypothesis Dq : dok query.
  Hypothesis Db : dok bail.
  Hypothesis Cq : con query = wire q ++ num16 qt.
  Hypothesis Gq : good_name q.
  Hypothesis Rq : 0 <= qt < 65536.
  Hypothesis Nz : named bail 0 z.
  Hypothesis Pq : comparable q.
  Hypothesis Pz : comparable z.
  Lemma ar_marks_start P : linked q z [] = P -> Forall2 (fun a m => amark a (P a) m) ar (ar_marks ar).
  Proof.
    intros <-. clear. unfold ar_marks. induction ar as [|a l IH]; cbn [map]; constructor; auto. unfold amark, linked. cbn [existsb]. destruct (address a) eqn:Ad; [|reflexivity]. unfold address in Ad. unfold ty, dwx_rrtype_number. assert (rr_type a = 1 \/ rr_type a = 28) as [-> | ->] by lia; reflexivity.
  Qed.
  Lemma dissect_referral s ns' : ns = s :: ns' -> rr_type s = 2 -> existsb (asked_for q qt) ar = false -> zlen ns <= 15 -> Forall ip_size_ok ar -> Forall (fun r => rr_type r = 2 -> comparable (target r)) ns -> zlen (server_entries q z ns ar) <= 31 ->
    exists out, dwx_dissect_packet Jz Jo J inp query bail = Ok out /\ dok out /\ con out = ns_referral (referred_zone q z ns) (server_entries q z ns ar).
  Proof.
    intros En Ts Exa Hns Sz Ct HE. pose proof (Nq query q qt Cq Gq) as Nq'. pose proof (h_ok _ _ _ _ _ H) as Di. destruct (fits3 inp [] ns ar t H Pr) as (_ & F2 & F3 & _ & P2 & P3).
    destruct (dissect_noan Jz Jo J HJ inp query bail [] ns ar t H Pr q qt Dq Cq Rq eq_refl) as (p & Dp & Cp & Lp & ->). { rewrite En. discriminate. }
    unfold finish. rewrite (determine_noan inp query [] ns ar t q qt Dq Cq Rq) by reflexivity. assert (rd (pad (ns_marks ns)) 0 = Ok 2) as ->. { rewrite En. unfold ns_marks. cbn [map]. unfold ns_or_soa. rewrite Ts. cbn [orb]. unfold ty. rewrite Ts. reflexivity. }
    cbn [bind]. change (2 =? 6) with false. change (2 =? 2) with true. cbv iota. destruct (secs inp [] ns ar t H Pr inp eq_refl) as (_ & _ & S).
    pose proof S as S'. rewrite <- (app_nil_r ar) in S' at 2. pose proof (find_in_ar_ok query inp (offs (aroff [] ns) ar) q qt [] ar Dq Di Nq' Pq Exa [] S') as FA. rewrite app_nil_r in FA. cbn [app length Z.of_nat find_in_ar] in FA. rewrite FA. cbn [bind]. clear FA.
    change (16 =? 23) with false. change (16 =? 16) with true. cbv iota. unfold dwx_check_bailiwick_ns_section. cbv zeta. cbn [v_look view_of look_of n_nscount n_packet n_ns v_ns].
    assert (1 <= zlen ns) by (rewrite En, zlen_cons; pose proof (zlen_nonneg ns'); lia). replace (zlen ns <=? 0) with false by lia. unfold glue_max at 1. replace (15 <? zlen ns) with false by lia. rewrite nat_zlen.
    destruct (secs inp [] ns ar t H Pr p Cp) as (_ & Sn & Sa). destruct (pad_app (ns_marks ns) ns) as (T1 & ->). { unfold ns_marks. rewrite map_length. reflexivity. }
    assert (2 < d_len query) as Lq. { rewrite <- (zlen_con query) by auto. rewrite Cq, zlen_app. change (zlen (num16 qt)) with 2. pose proof (zlen_wire_pos q). lia. }
    pose proof (check_ns_ok p query bail q z (offs (nsoff []) ns) Dp Dq Db Nq' Nz Pq Pz Lq ns [] [] T1 Sn eq_refl) as CN. cbn [app length Z.of_nat] in CN |- *. rewrite CN. cbn [bind]. clear CN.
    unfold dwx_link_ns_records, set_ns. cbn [v_look view_of look_of n_nscount n_packet v_an v_ar]. unfold glue_max. replace (15 <? zlen ns) with false by lia. rewrite nat_zlen. destruct (pad_app (ar_marks ar) ar) as (T2 & ->). { unfold ar_marks. rewrite map_length. reflexivity. }
    fold (look_of p [] ns ar t). cbn [app].
    destruct (link_ns_ok p Dp (look_of p [] ns ar t) (pad []) ns ar Sn Sa eq_refl Ct q z ns [] [] (ar_marks ar) T1 T2 eq_refl Hns eq_refl (ar_marks_start _ eq_refl)) as (N & A & LK & FN & FA). cbn [app length Z.of_nat] in LK. rewrite LK. cbn [bind]. clear LK.
    pose proof (h_len _ _ _ _ _ H) as Hlen. pose proof (holds_len _ _ _ _ _ H) as Hl. cbn [app] in Hl. rewrite plain_records_app, zlen_app in Hl. pose proof (zlen_nonneg ar).
    pose proof (refer_size ns ar q z F2 P2 F3 Sz) as Rs. change (zlen (@nil rr)) with 0 in Hl.
    assert (exists out, dwx_make_ns_refer Jz Jo J (mkdet (look_of p [] ns ar t) (pad []) (N ++ T1) (A ++ T2)) = Ok out /\ dok out /\ con out = ns_referral (referred_zone q z ns) (server_entries q z ns ar)) as (out & E & D & C).
    { eapply ns_refer_ok; eauto; try reflexivity; try lia. rewrite En. discriminate. }
    exists out. split; [|auto]. rewrite <- E. unfold dwx_make_cache_string. cbn [n_packet v_look look_of].
    pose proof (h_con _ _ _ _ _ H) as C0. assert (exists X, con p = X ++ [t]) as (X & Cx). { rewrite Cp, C0. unfold answer. eexists. rewrite ?app_assoc. reflexivity. }
    pose proof (f_equal zlen Cx) as Lx. rewrite zlen_app, zlen_con in Lx by auto. change (zlen [t]) with 1 in Lx. pose proof (zlen_nonneg X).
    replace (d_len p =? 0) with false by lia. rewrite rd_con by (first [lia | auto]). rewrite Cx. erewrite rd_at; [|reflexivity|lia]. cbn [bind]. cbv zeta. replace (negb (t =? 0) && negb (t =? 1)) with false by lia. change (16 =? 2) with false. rewrite andb_false_r. reflexivity.
  Qed.
End DISSECT.
