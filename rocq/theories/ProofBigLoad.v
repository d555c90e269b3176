(** Loading zones: every record does what it should to the sets, whatever was loaded before. *)
From Verif Require Import CBase Bits ModelDwStr SpecDwStr ProofDwStr SpecNames SpecAcl ModelJsStr SpecJsStr ProofJsStr ProofJsSearch ModelQueries SpecQueries ProofHname ProofJsList ModelMaraHash SpecMaraHash ProofMaraHash
  ModelServe ProofServe ModelBigHash SpecBigHash ProofBigHash ProofBigAuth ProofBigRun ProofBigInv ProofBigStep ProofBigZap.

(** ** One record *)
Definition link_of (A : astate) (e : entry) : option (list Z) := if (e_type e =? RR_NS) || negb (mem_t A (e_zone e)) then None else Some (e_zone e).
Definition a_add (A : astate) (e : entry) : astate :=
  match A (e_owner e) (e_type e) with
  | None => upd2 A (e_owner e) (e_type e) (Some (mkaset (authority e) [item_of e] (link_of A e)))
  | Some s =>
      if Bool.eqb (as_auth s) (authority e) then upd2 A (e_owner e) (e_type e) (Some (mkaset (as_auth s) (put_in (e_type e) (item_of e) (as_items s)) (as_link s)))
      else if authority e then upd2 A (e_owner e) (e_type e) (Some (mkaset (authority e) [item_of e] (link_of A e)))
      else A
  end.

Lemma authority_b e : b2z (authority e) = (if zlist_eqb (e_owner e) (e_zone e) then 1 else if e_type e =? RR_NS then 0 else if zlist_eqb (e_owner e) (label1 (e_owner e) ++ e_zone e) then 1 else 0).
Proof. unfold authority, b2z. destruct (zlist_eqb (e_owner e) (e_zone e)); [reflexivity|]. destruct (e_type e =? RR_NS); [reflexivity|]. cbn [negb andb orb]. reflexivity. Qed.

Section Add.
Context (b : bighash) (m : amap nat) (A : astate) (own : list Z -> Z -> list nat) (ln : list Z -> list nat) (al : list Z -> list (Z * nat)).
Hypothesis I : inv b m A own ln al.
Context (add P : Z) (c : call) (e : entry).
Hypothesis G : hg add (b_hash b) m P.
Hypothesis LP : P + 3 <= 349525.
Hypothesis K : call_of c e.
Hypothesis OK : entry_ok e.
Hypothesis NL : e_type e = RR_NS -> authority e = true -> forall s, A (e_owner e) RR_NS = Some s -> as_auth s = false -> forall q' t' s', A q' t' = Some s' -> as_link s' <> Some (e_owner e).

Lemma add_call_ok : exists b' zone' m' own' ln' al', add_call add b c = Ok (1, b', zone') /\ held (j_max (c_zone c)) zone' (e_zone e ++ num2 RR_NS) /\ hg add (b_hash b') m' (P + 3) /\ inv b' m' (a_add A e) own' ln' al'.
Proof.
  destruct K as [KJ (KQ & MQ) (KD & MD) (KZ & MZ) KT KP]. destruct OK as [OO OF OL OZ OT (OM1 & OM2 & OM3) OS].
  assert (held (j_max (c_query c)) (c_query c) (e_owner e ++ num2 (e_type e))) as HQ by (split; [exact KQ|reflexivity]).
  assert (held (j_max (c_data c)) (c_data c) (e_data e)) as HD by (split; [exact KD|reflexivity]).
  assert (held (j_max (c_zone c)) (c_zone c) (e_zone e ++ num2 RR_NS)) as HZ by (split; [exact KZ|reflexivity]).
  pose proof (clean_len _ OO) as LO. pose proof (clean_len _ OZ) as LZ.
  unfold add_call, add_rr_to_bighash. rewrite KT, KP. pose proof (hold_facts _ _ KQ) as [_ _ LCQ _ _ _ _ SAQ _ _ _ _]. pose proof (hold_facts _ _ KD) as [_ _ _ _ _ _ _ SAD _ _ _ _]. pose proof (hold_facts _ _ KZ) as [_ _ LCZ _ _ _ _ _ _ _ _ _]. rewrite zlen_app, num2_len in LCQ, LCZ.
  rewrite SAQ, SAD. cbn [negb orb]. replace ((j_count (c_query c) <? 3) || (j_count (c_zone c) <? 3)) with false by lia. rewrite (type_ok _ _ _ _ HQ) by lia. cbn [bind]. change JS_ERROR with (-1). replace ((e_type e =? -1) || (e_type e =? RR_ANY) || (e_type e =? 251) || (e_type e =? 252)) with false by lia.
  destruct (change_ok _ _ _ _ (e_type e) HZ) as (z1 & E1 & HZ1); [lia|lia|]. rewrite E1. cbn [bind]. change (1 =? -1) with false. cbv iota. rewrite (same_ok _ _ _ _ _ _ _ HQ HZ1). cbn [bind].
  match goal with |- context [bind ?x _] => assert (x = Ok (Some (b2z (authority e)))) as EA end.
  { rewrite authority_b. destruct (zlist_eqb (e_owner e) (e_zone e)); [reflexivity|]. change (0 =? 0) with true. cbn [negb]. destruct (e_type e =? RR_NS); cbn [negb]; [reflexivity|]. rewrite (first_label_ok _ _ _ _ _ _ _ HQ HZ1) by (try assumption; lia). reflexivity. }
  rewrite EA. clear EA. cbn [bind]. destruct (change_ok _ _ _ _ RR_NS HZ1) as (z2 & E2 & HZ2); [lia|unfold RR_NS; lia|]. rewrite E2. cbn [bind]. rewrite (get_ok _ _ _ _ _ _ _ G ltac:(lia) HQ), (v_key _ _ _ _ _ _ I (e_owner e) (e_type e) ltac:(lia) OM1).
  unfold a_add. destruct (A (e_owner e) (e_type e)) as [s|] eqn:EO; cbn [bind].
  - change (3 =? MARA_DNSRR) with true. cbn [negb]. destruct (head_cell _ _ _ _ _ _ I _ _ _ EO) as (r & ER & _ & EU). rewrite (cell_some _ _ _ ER). cbn [bind]. cbv zeta. rewrite EU. destruct (as_auth s) eqn:AS, (authority e) eqn:AE; cbn [b2z Bool.eqb]; cbv [Z.eqb Pos.eqb andb orb].
    + destruct (add_rr_ok _ _ _ _ _ _ I (c_junk c) add P _ _ _ _ _ _ [] _ (e_ttl e) (e_perms e) KJ G HQ HD MD ltac:(lia) OT OM1 s ltac:(lia) EO) as (b' & own' & E & EH & I'). rewrite AS in E. cbn [b2z] in E. rewrite E. cbn [bind].
      eexists b', z2, m, own', ln, al. split; [reflexivity|]. split; [exact HZ2|]. split; [rewrite EH; apply (hg_weak _ _ _ _ _ G); lia|]. rewrite AS in I'. exact I'.
    + eexists b, z2, m, own, ln, al. split; [reflexivity|]. split; [exact HZ2|]. split; [apply (hg_weak _ _ _ _ _ G); lia|exact I].
    + destruct (zap_ok _ _ _ _ _ _ I (c_junk c) add P _ _ _ _ s KJ G ltac:(lia) HQ MQ ltac:(lia) OT OM1 EO) as (h & b1 & rs & m1 & own1 & ln1 & al1 & U & Z1 & F & G1 & I1). { intros ET. rewrite ET in EO. exact (NL ET eq_refl s EO AS). }
      rewrite U. cbn [bind]. rewrite Z1. cbn [bind]. rewrite F. cbn [bind].
      destruct (put_rr_ok _ _ _ _ _ _ I1 (c_junk c) add (P + 1) _ _ _ _ _ _ _ (e_ttl e) (e_perms e) true KJ G1 ltac:(lia) HQ MQ HD MD ltac:(lia) OT OM1 (upd2_same _ _ _ _)) as (b2 & m2 & E3 & G2 & I2 & _). cbn [b2z] in E3. rewrite E3. cbn [bind].
      destruct (add_ns_ok _ _ _ _ _ _ I2 (c_junk c) add _ _ _ _ _ _ _ _ 0 true KJ G2 HQ HZ2 ltac:(lia) LZ OT OM1 _ _ ltac:(lia) (upd2_same _ _ _ _) (upd2_same _ _ _ _)) as (b3 & E4 & EH & I3). rewrite E4. cbn [bind].
      eexists b3, z2, m2, _, _, _. split; [reflexivity|]. split; [exact HZ2|]. split; [rewrite EH; apply (hg_weak _ _ _ _ _ G2); lia|]. apply (inv_ext _ _ _ _ _ _ _ _ _ _ I3); try reflexivity. intros x y. unfold link_of.
      destruct (pair_dec (e_owner e) x (e_type e) y) as [(<- & <-)|N]; [rewrite !upd2_same|rewrite !upd2_other by exact N; reflexivity]. unfold item_of, mem_t. destruct (Z.eqb_spec (e_type e) RR_NS) as [ET|ET]; [reflexivity|]. cbn [orb]. rewrite !upd2_other by tauto. reflexivity.
    + destruct (add_rr_ok _ _ _ _ _ _ I (c_junk c) add P _ _ _ _ _ _ [] _ (e_ttl e) (e_perms e) KJ G HQ HD MD ltac:(lia) OT OM1 s ltac:(lia) EO) as (b' & own' & E & EH & I'). rewrite AS in E. cbn [b2z] in E. rewrite E. cbn [bind].
      eexists b', z2, m, own', ln, al. split; [reflexivity|]. split; [exact HZ2|]. split; [rewrite EH; apply (hg_weak _ _ _ _ _ G); lia|]. rewrite AS in I'. exact I'.
  - destruct (put_rr_ok _ _ _ _ _ _ I (c_junk c) add P _ _ _ _ _ _ _ (e_ttl e) (e_perms e) (authority e) KJ G ltac:(lia) HQ MQ HD MD ltac:(lia) OT OM1 EO) as (b2 & m2 & E3 & G2 & I2 & _). rewrite E3. cbn [bind]. change (1 =? -1) with false. cbv iota.
    destruct (add_ns_ok _ _ _ _ _ _ I2 (c_junk c) add _ _ _ _ _ _ _ _ 0 (authority e) KJ G2 HQ HZ2 ltac:(lia) LZ OT OM1 _ _ ltac:(lia) (upd2_same _ _ _ _) (upd2_same _ _ _ _)) as (b3 & E4 & EH & I3). rewrite E4. cbn [bind]. change (1 =? -1) with false. cbv iota.
    eexists b3, z2, m2, _, _, _. split; [reflexivity|]. split; [exact HZ2|]. split; [rewrite EH; apply (hg_weak _ _ _ _ _ G2); lia|]. apply (inv_ext _ _ _ _ _ _ _ _ _ _ I3); try reflexivity. intros x y. unfold link_of.
    destruct (pair_dec (e_owner e) x (e_type e) y) as [(<- & <-)|N]; [rewrite !upd2_same|rewrite !upd2_other by exact N; reflexivity]. unfold item_of, mem_t. destruct (Z.eqb_spec (e_type e) RR_NS) as [ET|ET]; [reflexivity|]. cbn [orb]. rewrite !upd2_other by tauto. reflexivity.
Qed.
End Add.
