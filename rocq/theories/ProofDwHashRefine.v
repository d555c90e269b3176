(** The DwHash.c table refines the cache specification. *)
From Coq Require Import Permutation.
From Verif Require Import CBase Bits ModelDwHash SpecCache SpecCacheRun ProofRing ProofDwHashFila ProofDwHashChain ProofDwHashInv.

Section Refine.
Context (H : list Z -> Z) (Hpos : forall k, 0 <= H k).

Definition Rel (h : hash) (c : cache) : Prop :=
  h_max h = capacity c /\ exists C F P, Inv H 0 h C F P (recent c) (perm c).

Lemma chain_len x h C F P rc pm cap (I : Inv H x h C F P rc pm) i :
  uncrowded (fun k => Z.land (H k) (h_mask h)) (mkcache rc pm cap) -> (length (C i) <= GREP_MAX)%nat.
Proof.
  intros HU. etransitivity; [|exact (HU i)]. cbn [recent perm].
  set (kof a := match dat h a with Some (k, _, _, _, _) => k | None => [] end).
  rewrite <- (map_length kof), <- (map_length c_key).
  apply NoDup_incl_length.
  - assert (forall a b, In a (C i) -> In b (C i) -> kof a = kof b -> a = b) as HI.
    { intros a b Ha Hb E. destruct (iv_inC _ _ _ _ _ _ _ _ I _ _ Ha) as (Na & _ & k1 & v1 & f1 & im1 & ex1 & Hd1 & _).
      destruct (iv_inC _ _ _ _ _ _ _ _ I _ _ Hb) as (Nb & _ & k2 & v2 & f2 & im2 & ex2 & Hd2 & _).
      unfold kof in E. rewrite Hd1, Hd2 in E. subst k2. exact (iv_keys _ _ _ _ _ _ _ _ I _ _ _ _ _ _ _ _ _ _ _ Na Nb Hd1 Hd2). }
    pose proof (iv_nodup _ _ _ _ _ _ _ _ I i) as HN. clear HU. induction (C i) as [|a L IH]; cbn [map]; [constructor|].
    apply NoDup_cons_iff in HN as [HN1 HN2]. constructor.
    + intros Hin. apply in_map_iff in Hin as (b & E & Hb). apply HN1.
      rewrite (HI a b); [exact Hb|left; reflexivity|right; exact Hb|congruence].
    + apply IH; [|exact HN2]. intros b d Hb Hd. apply HI; right; assumption.
  - intros k Hk. apply in_map_iff in Hk as (a & E & Ha).
    destruct (iv_inC _ _ _ _ _ _ _ _ I _ _ Ha) as (Na & _ & k1 & v1 & f1 & im1 & ex1 & Hd1 & Hb1).
    unfold kof in E. rewrite Hd1 in E. subst k1. apply in_map_iff.
    assert (forall en l, c_find k l = Some en -> c_key en = k /\ In en l) as HF.
    { intros en l E. apply find_some in E as [E1 E2]. apply zlist_eqb_spec in E2. auto. }
    destruct (locate H I _ _ _ _ _ _ Na Hd1) as [(en & Hf & _)|(A & B & RA & RB & _ & _ & _ & _ & Hf & _)];
      apply HF in Hf as [Hk Hin]; (eexists; split; [exact Hk|]; apply filter_In; split; [apply in_app_iff; auto|]; rewrite Hk; apply Z.eqb_eq; exact Hb1).
Qed.

Lemma get_step now h c k ign : Rel h c -> uncrowded (fun k => Z.land (H k) (h_mask h)) c ->
  exists h', dwh_get H now h k ign 1 = Ok (fst (c_get c now k (ign =? 1)), h') /\
    Rel h' (snd (c_get c now k (ign =? 1))) /\ h_mask h' = h_mask h.
Proof.
  intros (HM & C & F & P & I) HU. destruct c as [rc pm cap]. cbn [recent perm capacity] in *.
  unfold dwh_get, c_get. cbn [recent perm capacity].
  destruct (grep_ok H Hpos I k (chain_len _ _ _ _ _ _ _ _ I _ HU)) as (a & -> & Ha). cbn [bind].
  destruct Ha as [[-> HA]|(Ha0 & _ & v & f & im & ex & Hd)].
  - cbn [Z.eqb]. destruct (absent_find H I k HA) as (-> & -> & _). exists h. cbn [fst snd]. split; [reflexivity|].
    split; [split; [exact HM|exists C, F, P; exact I]|reflexivity].
  - replace (a =? 0) with false by lia. pose proof Hd as Hd'. apply dat_some in Hd' as (e & He & Hed).
    rewrite (ge_ok _ _ _ Ha0 He). cbn [bind]. unfold edata in Hed. injection Hed as Ek Ev Ef Ei Ee.
    destruct (locate H I _ _ _ _ _ _ Ha0 Hd) as [(en & Hf & Hv & -> & -> & -> & _)|(A & B & RA & RB & EF & ER & HRA & HRB & Hf & Hrm & Hp & -> & HR & _)].
    + rewrite Hf. rewrite Ee, Ei. change (0 =? 0) with true. change (1 =? 0) with false. cbn [negb]. rewrite !andb_false_r. cbn [andb bind].
      exists h. rewrite Ev, Hv. split; [reflexivity|]. split; [split; [exact HM|exists C, F, P; exact I]|reflexivity].
    + rewrite Hp, Hf. rewrite Ee, Ei, Ev, Ef. change (1 =? 1) with true. change (0 =? 0) with true. cbn [andb].
      assert (0 < ex) as Hex.
      { pose proof (iv_exp _ _ _ _ _ _ _ _ I) as HE. rewrite ER in HE. apply Forall_app in HE as [_ HE].
        apply Forall_inv in HE. exact HE. }
      replace (negb (ex =? 0)) with true by lia. rewrite andb_true_r.
      assert ((ex <? now) || (now + 24219648000 <? ex) = negb (freshb now (mkentry k v ex))) as ->.
      { unfold freshb. cbn [c_exp]. lia. }
      destruct (ign =? 1) eqn:Ei1; cbn [negb andb orb].
      * destruct (fetch_ok H Hpos I _ _ _ _ _ _ _ _ _ Hd EF ER HRA HRB HR) as (h' & -> & I' & HM' & HK'). cbn [bind fst snd c_val].
        exists h'. split; [reflexivity|]. split; [|exact HK']. rewrite Hrm. split; [cbn; congruence|]. exists C, (f :: A ++ B), P. exact I'.
      * destruct (freshb now (mkentry k v ex)) eqn:Efr; cbn [negb].
        -- destruct (fetch_ok H Hpos I _ _ _ _ _ _ _ _ _ Hd EF ER HRA HRB HR) as (h' & -> & I' & HM' & HK'). cbn [bind fst snd c_val].
           exists h'. split; [reflexivity|]. split; [|exact HK']. rewrite Hrm. split; [cbn; congruence|]. exists C, (f :: A ++ B), P. exact I'.
        -- exists h. cbn [fst snd]. split; [reflexivity|]. split; [split; [exact HM|exists C, F, P; exact I]|reflexivity].
Qed.

Lemma ttl_step now h c k : 0 < now -> Rel h c -> uncrowded (fun k => Z.land (H k) (h_mask h)) c ->
  dwh_get_ttl H now h k = Ok (c_ttl c now k).
Proof.
  intros Hnow (HM & C & F & P & I) HU. destruct c as [rc pm cap]. cbn [recent perm capacity] in *.
  unfold dwh_get_ttl, c_ttl. cbn [recent perm].
  destruct (grep_ok H Hpos I k (chain_len _ _ _ _ _ _ _ _ I _ HU)) as (a & -> & Ha). cbn [bind].
  destruct Ha as [[-> HA]|(Ha0 & _ & v & f & im & ex & Hd)].
  - cbn [Z.eqb]. destruct (absent_find H I k HA) as (-> & -> & _). reflexivity.
  - replace (a =? 0) with false by lia. pose proof Hd as Hd'. apply dat_some in Hd' as (e & He & Hed).
    rewrite (ge_ok _ _ _ Ha0 He). cbn [bind]. unfold edata in Hed. injection Hed as Ek Ev Ef Ei Ee. rewrite Ee.
    rewrite Z.shiftr_div_pow2 by lia. change (2 ^ 8) with 256.
    destruct (locate H I _ _ _ _ _ _ Ha0 Hd) as [(en & Hf & Hv & -> & -> & -> & _)|(A & B & RA & RB & EF & ER & HRA & HRB & Hf & Hrm & Hp & -> & HR & _)].
    + rewrite Hf. replace ((0 - now) / 256 <? 0) with true by (assert ((0 - now) / 256 < 0) by (apply Z.div_lt_upper_bound; lia); lia). reflexivity.
    + rewrite Hp, Hf. cbn [c_exp]. set (s := (ex - now) / 256).
      destruct ((s <? 0) || (31536000 <? s)) eqn:E1, ((0 <=? s) && (s <=? 31536000)) eqn:E2; try reflexivity; lia.
Qed.

(** dwh_zap on a table that may have a floating element. *)
Lemma zap_gen x h C F P rc pm cap k : Inv H x h C F P rc pm ->
  uncrowded (fun k => Z.land (H k) (h_mask h)) (mkcache rc pm cap) ->
  exists h' C' F', dwh_zap H h k 1 = Ok (fst (c_zap (mkcache rc pm cap) k), h') /\
    Inv H x h' C' F' P (c_remove k rc) pm /\
    h_max h' = h_max h /\ h_mask h' = h_mask h /\ h_brk h' = h_brk h /\
    (x <> 0 -> dat h' x = dat h x) /\
    (c_find k pm = None -> @absent x h' k).
Proof.
  intros I HU. unfold dwh_zap, c_zap. cbn [recent perm].
  destruct (grep_ok H Hpos I k (chain_len _ _ _ _ _ _ _ _ I _ HU)) as (a & -> & Ha). cbn [bind].
  destruct Ha as [[-> HA]|(Ha0 & Hax & v & f & im & ex & Hd)].
  - cbn [Z.eqb]. destruct (absent_find H I k HA) as (-> & -> & ->). exists h, C, F. split; [reflexivity|]. auto 10.
  - replace (a =? 0) with false by lia.
    destruct (locate H I _ _ _ _ _ _ Hax Hd) as [(en & Hf & Hv & -> & -> & -> & HaP)|(A & B & RA & RB & EF & ER & HRA & HRB & Hf & Hrm & Hp & -> & HR & HP)].
    + rewrite Hf. pose proof Hd as Hd'. apply dat_some in Hd' as (e & He & Hed).
      unfold zap_elem. rewrite (ge_ok _ _ _ Ha0 He). cbn [bind]. unfold edata in Hed. replace (e_imm e =? 1) with true by (injection Hed; lia).
      assert (c_remove k rc = rc) as ->.
      { apply remove_none. intros e' He' E. destruct (Forall2_In_r _ _ _ _ (iv_absF _ _ _ _ _ _ _ _ I) He') as (g & Hg & HE).
        destruct (recent_live H I g e' HE) as (b & Hbx & _ & Hdb). rewrite E in Hdb.
        assert (b = a) by (eapply (iv_keys _ _ _ _ _ _ _ _ I); [| |exact Hdb|exact Hd]; assumption). subst b. rewrite Hd in Hdb. discriminate. }
      exists h, C, F. split; [reflexivity|]. split; [exact I|]. repeat (split; [reflexivity|]). intros C0; discriminate C0.
    + rewrite Hp, Hf, Hrm. destruct (zap_elem_ok H Hpos I a k v f ex A B RA RB Hax Hd EF ER HRA HRB HR HP) as (h' & C' & -> & I' & H1 & H2 & H3 & HD).
      exists h', C', (A ++ B). split; [reflexivity|]. split; [exact I'|]. repeat (split; [assumption|]).
      split; [intros Hx; rewrite HD; replace (x =? a) with false by lia; reflexivity|].
      intros _ b v1 f1 im1 ex1 Hbx Hdb. rewrite HD in Hdb. destruct (Z.eqb_spec b a) as [|Nb]; [discriminate|]. apply Nb.
      eapply (iv_keys _ _ _ _ _ _ _ _ I); [| |exact Hdb|exact Hd]; assumption.
Qed.

Lemma zap_step h c k : Rel h c -> uncrowded (fun k => Z.land (H k) (h_mask h)) c ->
  exists h', dwh_zap H h k 1 = Ok (fst (c_zap c k), h') /\ Rel h' (snd (c_zap c k)) /\ h_mask h' = h_mask h.
Proof.
  intros (HM & C & F & P & I) HU. destruct c as [rc pm cap]. cbn [recent perm capacity] in *.
  destruct (zap_gen 0 h C F P rc pm cap k I HU) as (h' & C' & F' & -> & I' & H1 & H2 & _ & _ & _).
  exists h'. split; [reflexivity|]. split; [|exact H2].
  unfold c_zap. cbn [recent perm]. destruct (c_find k pm) as [en|] eqn:Ep; cbn [snd].
  - (* permanent: nothing was removed *)
    split; [cbn; congruence|]. exists C', F', P. cbn [recent perm].
    assert (c_remove k rc = rc) as E; [|rewrite E in I'; exact I'].
    apply find_some in Ep as [Hin Hk]. apply zlist_eqb_spec in Hk.
    destruct (perm_live H I en Hin) as (a & _ & Ha & Hd). rewrite <- Hk in Hd.
    apply remove_none. intros e' He' E. destruct (Forall2_In_r _ _ _ _ (iv_absF _ _ _ _ _ _ _ _ I) He') as (g & Hg & HE).
    destruct (recent_live H I g e' HE) as (b & Hbx & _ & Hdb). rewrite E in Hdb.
    assert (b = a) by (eapply (iv_keys _ _ _ _ _ _ _ _ I); [| |exact Hdb|exact Hd]; assumption). subst b. rewrite Hd in Hdb. discriminate.
  - destruct (c_find k rc) as [en|] eqn:Er; cbn [snd].
    + split; [cbn; congruence|]. exists C', F', P. exact I'.
    + split; [cbn; congruence|]. exists C', F', P. cbn [recent perm].
      assert (c_remove k rc = rc) as E; [|rewrite E in I'; exact I'].
      apply remove_none. intros e' He' E. unfold c_find in Er. apply (List.find_none _ _ Er) in He'. rewrite <- E, zlist_eqb_refl in He'. discriminate.
Qed.

Lemma expire_ok now h C F P rc pm cap k ttl : 0 < now -> Inv H 0 h C F P rc pm ->
  uncrowded (fun k => Z.land (H k) (h_mask h)) (mkcache rc pm cap) -> c_find k pm = None ->
  storable ttl = true ->
  init_expire H now h k ttl = Ok (new_expiry (mkcache rc pm cap) now k ttl) /\
  0 < new_expiry (mkcache rc pm cap) now k ttl.
Proof.
  intros Hnow I HU Hp HS. unfold init_expire, new_expiry, storable in *. cbn [recent].
  destruct (ttl =? -2) eqn:Et; cbn [negb].
  - destruct (grep_ok H Hpos I k (chain_len _ _ _ _ _ _ _ _ I _ HU)) as (a & -> & Ha). cbn [bind].
    destruct Ha as [[-> HA]|(Ha0 & _ & v & f & im & ex & Hd)].
    + cbn [Z.eqb]. destruct (absent_find H I k HA) as (-> & _ & _). split; [reflexivity|lia].
    + replace (a =? 0) with false by lia. pose proof Hd as Hd'. apply dat_some in Hd' as (e & He & Hed).
      rewrite (ge_ok _ _ _ Ha0 He). cbn [bind]. unfold edata in Hed. injection Hed as Ek Ev Ef Ei Ee. rewrite Ee.
      destruct (locate H I _ _ _ _ _ _ Ha0 Hd) as [(en & Hf & _)|(A & B & RA & RB & EF & ER & HRA & HRB & Hf & _)]; [congruence|].
      rewrite Hf. cbn [c_exp]. split; [reflexivity|].
      pose proof (iv_exp _ _ _ _ _ _ _ _ I) as HE. rewrite ER in HE. apply Forall_app in HE as [_ HE].
      apply Forall_inv in HE. exact HE.
  - unfold clamp_ttl. set (t := if ttl <? 30 then 30 else if 63072000 <? ttl then 63072000 else ttl).
    assert (t = Z.max 30 (Z.min ttl 63072000)) as <- by (unfold t; destruct (ttl <? 30) eqn:?, (63072000 <? ttl) eqn:?; lia).
    rewrite Z.shiftl_mul_pow2 by lia. change (2 ^ 8) with 256. split; [f_equal; lia|]. unfold t. destruct (ttl <? 30) eqn:?, (63072000 <? ttl) eqn:?; lia.
Qed.

Lemma expire_perm now h C F P rc pm cap k ttl : Inv H 0 h C F P rc pm ->
  uncrowded (fun k => Z.land (H k) (h_mask h)) (mkcache rc pm cap) ->
  exists ex, init_expire H now h k ttl = Ok ex.
Proof.
  intros I HU. unfold init_expire. destruct (negb (ttl =? -2)); [eauto|].
  destruct (grep_ok H Hpos I k (chain_len _ _ _ _ _ _ _ _ I _ HU)) as (a & -> & Ha). cbn [bind].
  destruct Ha as [[-> HA]|(Ha0 & _ & v & f & im & ex & Hd)]; [cbn [Z.eqb]; eauto|].
  replace (a =? 0) with false by lia. apply dat_some in Hd as (e & He & Hed). rewrite (ge_ok _ _ _ Ha0 He). cbn [bind]. eauto.
Qed.

Lemma Forall2_length {A B} (R : A -> B -> Prop) l l' : Forall2 R l l' -> length l = length l'.
Proof. induction 1; cbn; congruence. Qed.

Lemma removelast_app1 {A} (l : list A) a : removelast (l ++ [a]) = l.
Proof. rewrite removelast_app by discriminate. cbn. apply app_nil_r. Qed.

(** Eviction of the least recently used element. *)
Lemma evict_ok h C f0 F P rc pm : Inv H 0 h C (f0 :: F) P rc pm ->
  exists top h' C' F', gf h (h_fila h) = Ok top /\ dwh_fila_zap1 h (f_last top) = Ok h' /\
    Inv H 0 h' C' F' P (removelast rc) pm /\ h_max h' = h_max h /\ h_mask h' = h_mask h.
Proof.
  intros I. pose proof (iv_fila _ _ _ _ _ _ _ _ I) as FO.
  rewrite (fo_head _ _ FO). cbn [hd].
  destruct (cyc_last _ _ _ _ (fo_cyc _ _ FO)) as (A & l & EF & Hl & _).
  assert (0 < f0) as Hf0 by (destruct (fo_addr _ _ FO f0 (or_introl eq_refl)); lia).
  unfold lst in Hl. destruct (h_filas h f0) as [top|] eqn:Et; [|discriminate]. cbn in Hl. injection Hl as Hl.
  exists top. unfold gf. replace (f0 =? 0) with false by lia. rewrite Et, Hl.
  pose proof (iv_absF _ _ _ _ _ _ _ _ I) as HAF. rewrite EF in HAF.
  apply Forall2_app_inv_l in HAF as (RA & R & HRA & HRR & ER).
  inversion HRR as [|? en ? RB Hen HRB E1 E2]; clear HRR; inversion HRB as [E3 E4|]; clear HRB. rewrite <- E2, <- E4 in ER. clear E2 E4.
  destruct (recent_live H I _ _ Hen) as (a & Hax & HR & Hd).
  assert (~ In a P) as HP.
  { intros C0. destruct (Forall2_In_l _ _ _ _ (iv_absP _ _ _ _ _ _ _ _ I) C0) as (en' & _ & HE & _). rewrite Hd in HE. discriminate. }
  destruct en as [k v ex]. cbn [c_key c_val c_exp] in Hd.
  destruct (fila_zap1_ok H Hpos I a k v l ex A [] RA [] Hax Hd EF ER HRA (Forall2_nil _) HR HP) as (h' & C' & -> & I' & H1 & H2 & _).
  exists h', C', (A ++ []). split; [reflexivity|]. split; [reflexivity|]. split; [|auto].
  rewrite ER, removelast_app1, <- (app_nil_r RA). exact I'.
Qed.

Lemma uncrowded_alloc h e c : uncrowded (fun k => Z.land (H k) (h_mask h)) c ->
  uncrowded (fun k => Z.land (H k) (h_mask (snd (alloc_elem h e)))) c.
Proof. intros HU. exact HU. Qed.

Lemma place_recent h C F P rc pm cap k v fj ex : h_max h = cap -> Inv H 0 h C F P rc pm ->
  uncrowded (fun k => Z.land (H k) (h_mask h)) (mkcache rc pm cap) -> c_find k pm = None -> 0 < ex ->
  exists h', dwh_place_new H (snd (alloc_elem h (mkelem k v fj 0 ex 0 PNull))) (h_brk h) 1 = Ok (1, h') /\
    Rel h' (c_insert (mkcache rc pm cap) (mkentry k v ex)) /\ h_mask h' = h_mask h.
Proof.
    intros HM I HU Ep Hex0.
    set (e := mkelem k v fj 0 ex 0 PNull). pose proof (alloc_inv H Hpos h C F P rc pm e I) as I1.
    unfold alloc_elem in *. cbn [snd] in *. set (h1 := put_elem _ _ _) in *. set (x := h_brk h) in *.
    assert (x <> 0) as Hx0 by (pose proof (iv_brk _ _ _ _ _ _ _ _ I); unfold x; lia).
    assert (h_elems h1 x = Some e) as He by (unfold h1; cbn; apply upd_same).
    unfold dwh_place_new. rewrite (ge_ok _ _ _ Hx0 He). cbn [bind]. change (e_key e) with k.
    destruct (zap_gen x h1 C F P rc pm cap k I1 HU) as (h2 & C2 & F2 & E2 & I2 & H21 & H22 & H23 & HD & HAb).
    rewrite E2. cbn [bind].
    replace (fst (c_zap (mkcache rc pm cap) k) =? -1) with false.
    2:{ unfold c_zap. cbn [recent perm]. rewrite Ep. destruct (c_find k rc); reflexivity. }
    assert (dat h2 x = Some (k, v, fj, 0, ex)) as Hdx.
    { rewrite (HD Hx0). unfold dat. rewrite He. reflexivity. }
    destruct (link_recent_ok H Hpos I2 k v fj ex Hx0 Hdx (HAb Ep) Hex0) as (h3 & h4 & C4 & -> & E4 & I4 & H41 & H42).
    cbn [bind]. change (1 =? 1) with true. cbv iota. rewrite E4. cbn [bind].
    assert (h_max h4 = cap) as HMx by (rewrite H41, H21; exact HM).
    assert (h_mask h4 = h_mask h) as HKx by (rewrite H42, H22; reflexivity).
    unfold c_insert. cbn [recent perm capacity c_key].
    assert (h_size h4 + 1 = zlen (mkentry k v ex :: c_remove k rc) + zlen pm) as HSz.
    { pose proof (iv_size _ _ _ _ _ _ _ _ I4) as E. cbn [set_size h_size] in E. rewrite E.
      pose proof (Forall2_length _ _ _ (iv_absF _ _ _ _ _ _ _ _ I4)) as L1. pose proof (Forall2_length _ _ _ (iv_absP _ _ _ _ _ _ _ _ I4)) as L2.
      unfold zlen. lia. }
    cbn [h_max h_size set_size]. rewrite HMx.
    replace (cap <=? h_size h4 + 1) with (cap <=? zlen (mkentry k v ex :: c_remove k rc) + zlen pm) by (rewrite HSz; reflexivity).
    destruct (cap <=? zlen (mkentry k v ex :: c_remove k rc) + zlen pm) eqn:Ecap.
    + destruct (evict_ok _ _ _ _ _ _ _ I4) as (top & h5 & C5 & F5 & E5 & E6 & I5 & H51 & H52).
      rewrite E5. cbn [bind]. rewrite E6. cbn [bind].
      exists h5. split; [reflexivity|]. cbn [h_max h_mask set_size] in H51, H52.
      split; [split; [cbn; congruence|]|congruence]. exists C5, F5, P. exact I5.
    + cbn [bind].
      eexists. split; [reflexivity|]. split; [split; [cbn; congruence|]|cbn; congruence].
      exists C4, (h_brk h2 :: F2), P. exact I4.
Qed.

Lemma add_step now h c k v ttl : 0 < now -> Rel h c -> uncrowded (fun k => Z.land (H k) (h_mask h)) c ->
  exists h', dwh_add H now h k v ttl 1 = Ok (fst (c_add c now k v ttl), h') /\
    Rel h' (snd (c_add c now k v ttl)) /\ h_mask h' = h_mask h.
Proof.
  intros Hnow (HM & C & F & P & I) HU. destruct c as [rc pm cap]. cbn [recent perm capacity] in *.
  unfold dwh_add, c_add. fold (storable ttl). cbn [recent perm capacity].
  destruct (storable ttl) eqn:HS; cbn [negb].
  2:{ exists h. split; [reflexivity|]. split; [split; [exact HM|exists C, F, P; exact I]|reflexivity]. }
  destruct (c_find k pm) as [en|] eqn:Ep; cbn [fst snd].
  - (* a permanent entry is in the way *)
    destruct (expire_perm now h C F P rc pm cap k ttl I HU) as (ex & ->). cbn [bind].
    set (e := mkelem k v 0 0 ex 0 PNull). pose proof (alloc_inv H Hpos h C F P rc pm e I) as I1.
    unfold alloc_elem in *. cbn [snd] in *. set (h1 := put_elem _ _ _) in *. set (x := h_brk h) in *.
    assert (x <> 0) as Hx0 by (pose proof (iv_brk _ _ _ _ _ _ _ _ I); unfold x; lia).
    assert (h_elems h1 x = Some e) as He by (unfold h1; cbn; apply upd_same).
    unfold dwh_place_new. rewrite (ge_ok _ _ _ Hx0 He). cbn [bind]. change (e_key e) with k.
    destruct (zap_gen x h1 C F P rc pm cap k I1 HU) as (h2 & C2 & F2 & E2 & I2 & H21 & H22 & H23 & HD & _).
    rewrite E2. cbn [bind]. unfold c_zap. cbn [perm]. rewrite Ep. cbn [fst]. change (-1 =? -1) with true. cbn [bind]. cbv iota.
    assert (c_remove k rc = rc) as ERc.
    { apply find_some in Ep as [Hin Hk]. apply zlist_eqb_spec in Hk.
      destruct (perm_live H I en Hin) as (a & _ & Ha & Hd). rewrite <- Hk in Hd.
      apply remove_none. intros e' He' E. destruct (Forall2_In_r _ _ _ _ (iv_absF _ _ _ _ _ _ _ _ I) He') as (g & Hg & HE).
      destruct (recent_live H I g e' HE) as (b & Hbx & _ & Hdb). rewrite E in Hdb.
      assert (b = a) by (eapply (iv_keys _ _ _ _ _ _ _ _ I); [| |exact Hdb|exact Hd]; assumption). subst b. rewrite Hd in Hdb. discriminate. }
    rewrite ERc in I2.
    assert (exists e2, h_elems h2 x = Some e2) as (e2 & He2).
    { specialize (HD Hx0). unfold dat in HD. rewrite He in HD. destruct (h_elems h2 x); [eauto|discriminate]. }
    destruct (free_inv H Hpos I2 e2 Hx0 He2) as (h3 & -> & I3 & H31 & H32). cbn [bind].
    exists h3. split; [reflexivity|]. split; [|rewrite H32, H22; reflexivity].
    split; [cbn [capacity]; rewrite H31, H21; exact HM|]. exists C2, F2, P. exact I3.
  - destruct (expire_ok now h C F P rc pm cap k ttl Hnow I HU Ep HS) as [-> Hex0]. cbn [bind].
    set (ex := new_expiry _ now k ttl) in *.
    destruct (place_recent h C F P rc pm cap k v 0 ex HM I HU Ep Hex0) as (h' & E1 & R1 & M1).
    unfold alloc_elem in *. cbn [snd] in *. rewrite E1. cbn [bind]. change (1 =? -1) with false. change (1 =? 2) with false. cbv iota.
    eauto.
Qed.

Lemma zap2_gen x h C F P rc pm cap k : Inv H x h C F P rc pm ->
  uncrowded (fun k => Z.land (H k) (h_mask h)) (mkcache rc pm cap) -> c_find k rc = None ->
  dwh_zap H h k 2 = Ok (match c_find k pm with Some _ => -1 | None => 0 end, h) /\
  (c_find k pm = None -> @absent x h k).
Proof.
  intros I HU Hr. unfold dwh_zap.
  destruct (grep_ok H Hpos I k (chain_len _ _ _ _ _ _ _ _ I _ HU)) as (a & -> & Ha). cbn [bind].
  destruct Ha as [[-> HA]|(Ha0 & Hax & v & f & im & ex & Hd)].
  - cbn [Z.eqb]. destruct (absent_find H I k HA) as (_ & -> & _). auto.
  - replace (a =? 0) with false by lia.
    destruct (locate H I _ _ _ _ _ _ Hax Hd) as [(en & Hf & Hv & -> & -> & -> & HaP)|(A & B & RA & RB & EF & ER & HRA & HRB & Hf & _)]; [|congruence].
    rewrite Hf. pose proof Hd as Hd'. apply dat_some in Hd' as (e & He & Hed).
    unfold zap_elem. rewrite (ge_ok _ _ _ Ha0 He). cbn [bind]. unfold edata in Hed. replace (e_imm e =? 1) with true by (injection Hed; lia).
    split; [reflexivity|discriminate].
Qed.

Lemma add_perm_step now h c k v ttl : Rel h c -> uncrowded (fun k => Z.land (H k) (h_mask h)) c ->
  c_find k (recent c) = None ->
  exists h', dwh_add H now h k v ttl 2 = Ok (fst (c_add_perm c k v ttl), h') /\
    Rel h' (snd (c_add_perm c k v ttl)) /\ h_mask h' = h_mask h.
Proof.
  intros (HM & C & F & P & I) HU Hr. destruct c as [rc pm cap]. cbn [recent perm capacity] in *.
  unfold dwh_add, c_add_perm. fold (storable ttl). cbn [recent perm capacity].
  destruct (storable ttl) eqn:HS; cbn [negb].
  2:{ exists h. split; [reflexivity|]. split; [split; [exact HM|exists C, F, P; exact I]|reflexivity]. }
  destruct (expire_perm now h C F P rc pm cap k ttl I HU) as (ex & ->). cbn [bind].
  set (e := mkelem k v 0 0 ex 0 PNull). pose proof (alloc_inv H Hpos h C F P rc pm e I) as I1.
  unfold alloc_elem in *. cbn [snd] in *. set (h1 := put_elem _ _ _) in *. set (x := h_brk h) in *.
  assert (x <> 0) as Hx0 by (pose proof (iv_brk _ _ _ _ _ _ _ _ I); unfold x; lia).
  assert (h_elems h1 x = Some e) as He by (unfold h1; cbn; apply upd_same).
  unfold dwh_place_new. rewrite (ge_ok _ _ _ Hx0 He). cbn [bind]. change (e_key e) with k.
  destruct (zap2_gen x h1 C F P rc pm cap k I1 HU Hr) as [-> HAb]. cbn [bind].
  destruct (c_find k pm) as [en|] eqn:Ep; cbn [fst snd].
  - change (-1 =? -1) with true. cbn [bind]. cbv iota.
    destruct (free_inv H Hpos I1 e Hx0 He) as (h3 & -> & I3 & H31 & H32). cbn [bind].
    exists h3. split; [reflexivity|]. split; [|rewrite H32; reflexivity].
    split; [cbn [capacity]; rewrite H31; exact HM|]. exists C, F, P. exact I3.
  - change (0 =? -1) with false. change (1 =? -1) with false. change (2 =? 1) with false. change (2 =? 2) with true. cbv iota.
    assert (dat h1 x = Some (k, v, 0, 0, ex)) as Hdx by (unfold dat; rewrite He; reflexivity).
    destruct (link_perm_ok H Hpos I1 k v ex Hx0 Hdx (HAb eq_refl)) as (h3 & h4 & C4 & -> & E4 & I4 & H41 & H42).
    cbn [bind]. change (1 =? -1) with false. cbv iota. rewrite E4. cbn [bind].
    exists h4. split; [reflexivity|]. split; [|rewrite H42; reflexivity].
    split; [cbn [capacity]; rewrite H41; exact HM|]. exists C4, F, (x :: P). exact I4.
Qed.

Lemma step_ok now h c o : Rel h c -> uncrowded (fun k => Z.land (H k) (h_mask h)) c -> allowed now c o ->
  exists h', hstep H now h o = Ok (fst (c_step now c o), h') /\ Rel h' (snd (c_step now c o)) /\ h_mask h' = h_mask h.
Proof.
  intros R HU [Hnow HA]. destruct o as [k v ttl|k v ttl|k ign|k|k]; cbn [hstep c_step].
  - destruct (add_step now h c k v ttl Hnow R HU) as (h' & -> & R' & HK). cbn [bind]. destruct (c_add c now k v ttl). eauto.
  - destruct (add_perm_step now h c k v ttl R HU HA) as (h' & -> & R' & HK). cbn [bind]. destruct (c_add_perm c k v ttl). eauto.
  - destruct (get_step now h c k ign R HU) as (h' & -> & R' & HK). cbn [bind]. destruct (c_get c now k (ign =? 1)). eauto.
  - rewrite (ttl_step now h c k Hnow R HU). cbn [bind]. eauto.
  - destruct (zap_step h c k R HU) as (h' & -> & R' & HK). cbn [bind]. destruct (c_zap c k). eauto.
Qed.

Lemma run_ok ops : forall h c, Rel h c -> good_history (fun k => Z.land (H k) (h_mask h)) c ops ->
  exists h', hrun H h ops = Ok (fst (c_run c ops), h') /\ Rel h' (snd (c_run c ops)) /\ h_mask h' = h_mask h.
Proof.
  induction ops as [|[now o] ops IH]; intros h c R HG; cbn [hrun c_run good_history] in *.
  - exists h. auto.
  - destruct HG as (HA & HU & HG). destruct (step_ok now h c o R HU HA) as (h1 & -> & R1 & HK). cbn [bind].
    destruct (c_step now c o) as [out c1]. cbn [fst snd] in *. rewrite <- HK in HG.
    destruct (IH h1 c1 R1 HG) as (h2 & -> & R2 & HK2). cbn [bind].
    destruct (c_run c1 ops) as [outs c2]. cbn [fst snd] in *. exists h2. split; [reflexivity|]. split; [exact R2|congruence].
Qed.
End Refine.

Lemma power_two_range fuel : forall a p, 1 <= p -> a < 2 ^ 31 ->
  forall n, 0 <= n <= 31 -> a < 2 ^ n -> p * 2 ^ n < 2 ^ 32 -> 1 <= power_two_loop fuel a p < 2 ^ 32.
Proof.
  induction fuel as [|fuel IH]; intros a p Hp Ha n Hn Han Hpn; cbn [power_two_loop].
  - assert (1 <= 2 ^ n) by (apply (Z.pow_le_mono_r 2 0 n); lia). nia.
  - destruct (0 <? a) eqn:E.
    + assert (n <> 0) by (intros ->; cbn in Han; lia).
      assert (2 ^ n = 2 * 2 ^ (n - 1)) as En by (rewrite <- Z.pow_succ_r by lia; f_equal; lia).
      assert (1 <= 2 ^ (n - 1)) by (apply (Z.pow_le_mono_r 2 0 (n - 1)); lia).
      assert (u32 (Z.shiftl p 1) = 2 * p) as ->.
      { rewrite Z.shiftl_mul_pow2 by lia. change (2 ^ 1) with 2. unfold u32. rewrite Z.mod_small; [lia|]. change (2 ^ 32) with 4294967296 in *. nia. }
      rewrite Z.shiftr_div_pow2 by lia. change (2 ^ 1) with 2.
      apply (IH _ _) with (n := n - 1); try lia; nia.
    + assert (1 <= 2 ^ n) by (apply (Z.pow_le_mono_r 2 0 n); lia). nia.
Qed.

Lemma init_rel H cache_size elements : cache_size < 2 ^ 31 ->
  Rel H (dwh_hash_init cache_size elements) (empty_cache (init_elements cache_size elements)).
Proof.
  intros Hc. unfold Rel, dwh_hash_init. set (p := power_two_loop _ _ _).
  assert (1 <= p < 2 ^ 32) as Hp.
  { apply power_two_range with (n := 31); try lia. 
    - unfold init_elements. destruct ((elements =? 0) && (0 <? cache_size)) eqn:?, (elements <? 2) eqn:?, (134217728 <? elements) eqn:?; lia.
    - unfold init_elements. destruct ((elements =? 0) && (0 <? cache_size)) eqn:?, (elements <? 2) eqn:?, (134217728 <? elements) eqn:?; lia. }
  cbn [h_max capacity empty_cache]. split; [reflexivity|]. exists (fun _ => []), [], [].
  constructor; cbn [h_mask h_tab h_elems h_filas h_brk h_size h_fila recent perm empty_cache]; try (intros; first [discriminate|contradiction]).
  - lia.
  - unfold zlen. rewrite repeat_length. lia.
  - intros i Hi. exists 0. split; [|reflexivity]. unfold zget. replace (i <? 0) with false by lia.
    apply nth_error_repeat. lia.
  - constructor.
  - constructor; cbn.
    + constructor.
    + cbn. exact Logic.I.
    + reflexivity.
    + intros f [].
    + cbn. intros f. split; [intros []|congruence].
  - constructor.
  - constructor.
  - constructor.
  - auto.
  - reflexivity.
  - lia.
  - constructor.
Qed.
