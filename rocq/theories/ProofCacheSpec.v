(** Consequences of the cache specification for whole histories. *)
From Verif Require Import CBase ModelDwHash SpecCache SpecCacheRun.

Lemma c_run_app ops1 : forall c ops2,
  c_run c (ops1 ++ ops2) =
  (fst (c_run c ops1) ++ fst (c_run (snd (c_run c ops1)) ops2), snd (c_run (snd (c_run c ops1)) ops2)).
Proof.
  induction ops1 as [|[now o] ops1 IH]; intros c ops2; cbn [app c_run].
  - cbn [fst snd app]. destruct (c_run c ops2); reflexivity.
  - destruct (c_step now c o) as [out c1]. rewrite IH. destruct (c_run c1 ops1) as [outs c2]. cbn [fst snd app].
    reflexivity.
Qed.

Lemma c_run_len ops : forall c, length (fst (c_run c ops)) = length ops.
Proof.
  induction ops as [|[now o] ops IH]; intros c; cbn [c_run]; [reflexivity|].
  destruct (c_step now c o) as [out c1]. specialize (IH c1). destruct (c_run c1 ops). cbn [fst length] in *. congruence.
Qed.

Lemma allowed_app ops1 : forall c ops2,
  allowed_history c (ops1 ++ ops2) <-> allowed_history c ops1 /\ allowed_history (snd (c_run c ops1)) ops2.
Proof.
  induction ops1 as [|[now o] ops1 IH]; intros c ops2; cbn [app c_run allowed_history].
  - cbn [snd]. tauto.
  - rewrite IH. destruct (c_step now c o) as [out c1]. cbn [snd]. destruct (c_run c1 ops1). cbn [snd]. tauto.
Qed.

(** *** Size *)
Lemma filter_length_le {A} (f : A -> bool) l : (length (filter f l) <= length l)%nat.
Proof. induction l as [|a l IH]; cbn; [lia|]. destruct (f a); cbn; lia. Qed.
Lemma c_remove_len k l : zlen (c_remove k l) <= zlen l.
Proof.
  unfold c_remove, zlen. pose proof (filter_length_le (fun e => negb (zlist_eqb k (c_key e))) l). lia.
Qed.
Lemma removelast_len {A} (l : list A) a : zlen (removelast (a :: l)) = zlen l.
Proof.
  revert a. induction l as [|b l IH]; intros a; [reflexivity|]. change (removelast (a :: b :: l)) with (a :: removelast (b :: l)).
  rewrite !zlen_cons, IH. reflexivity.
Qed.
Lemma insert_size c e :
  zlen (recent (c_insert c e)) + zlen (perm c) <= Z.max (zlen (recent c) + zlen (perm c)) (capacity c - 1) /\
  perm (c_insert c e) = perm c /\ capacity (c_insert c e) = capacity c.
Proof.
  unfold c_insert. cbn [recent perm capacity]. pose proof (c_remove_len (c_key e) (recent c)). split; [|auto].
  destruct (capacity c <=? _) eqn:E.
  - rewrite removelast_len. lia.
  - lia.
Qed.
Lemma find_remove_len k l e : c_find k l = Some e -> zlen (c_remove k l) + 1 <= zlen l.
Proof.
  induction l as [|a l IH]; [discriminate|]. unfold c_find, c_remove in *. cbn [find filter].
  destruct (zlist_eqb k (c_key a)) eqn:E; cbn [negb].
  - intros _. rewrite zlen_cons. pose proof (c_remove_len k l). unfold c_remove in *. lia.
  - intros HF. specialize (IH HF). rewrite !zlen_cons. lia.
Qed.

Lemma step_size now c o : 
  zlen (recent (snd (c_step now c o))) + zlen (perm (snd (c_step now c o)))
    <= Z.max (zlen (recent c) + zlen (perm c)) (capacity c - 1) + perm_adds [(now, o)] /\
  capacity (snd (c_step now c o)) = capacity c /\
  zlen (perm (snd (c_step now c o))) <= zlen (perm c) + perm_adds [(now, o)].
Proof.
  destruct o as [k v ttl|k v ttl|k ign|k|k]; cbn [c_step perm_adds].
  - unfold c_add. destruct (negb (storable ttl)); cbn [snd]; [lia|]. destruct (c_find k (perm c)); cbn [snd]; [lia|].
    destruct (insert_size c (mkentry k v (new_expiry c now k ttl))) as (A & B & D). rewrite B, D. lia.
  - unfold c_add_perm. destruct (negb (storable ttl)); cbn [snd]; [lia|]. destruct (c_find k (perm c)); cbn [snd recent perm capacity]; [lia|].
    rewrite zlen_cons. lia.
  - unfold c_get. destruct (c_find k (perm c)); cbn [snd]; [lia|]. destruct (c_find k (recent c)) eqn:E; cbn [snd]; [|lia].
    destruct ((ign =? 1) || freshb now c0); cbn [snd recent perm capacity]; [|lia]. apply find_remove_len in E. rewrite zlen_cons. lia.
  - cbn [snd]. lia.
  - unfold c_zap. destruct (c_find k (perm c)); cbn [snd]; [lia|]. destruct (c_find k (recent c)) eqn:E; cbn [snd recent perm capacity]; [|lia].
    pose proof (c_remove_len k (recent c)). lia.
Qed.

Lemma step_recent now c o :
  zlen (recent (snd (c_step now c o))) <= Z.max (zlen (recent c)) (capacity c - 1) /\
  capacity (snd (c_step now c o)) = capacity c.
Proof.
  split; [|apply step_size]. destruct o as [k v ttl|k v ttl|k ign|k|k]; cbn [c_step].
  - unfold c_add. destruct (negb (storable ttl)); cbn [snd]; [lia|]. destruct (c_find k (perm c)); cbn [snd]; [lia|].
    unfold c_insert. cbn [recent perm capacity c_key]. pose proof (c_remove_len k (recent c)). pose proof (zlen_nonneg (perm c)).
    destruct (capacity c <=? _) eqn:E; [rewrite removelast_len|]; lia.
  - unfold c_add_perm. destruct (negb (storable ttl)); cbn [snd]; [lia|]. destruct (c_find k (perm c)); cbn [snd recent]; lia.
  - unfold c_get. destruct (c_find k (perm c)); cbn [snd]; [lia|]. destruct (c_find k (recent c)) eqn:E; cbn [snd]; [|lia].
    destruct ((ign =? 1) || freshb now c0); cbn [snd recent perm capacity]; [|lia]. apply find_remove_len in E. rewrite zlen_cons. lia.
  - cbn [snd]. lia.
  - unfold c_zap. destruct (c_find k (perm c)); cbn [snd]; [lia|]. destruct (c_find k (recent c)) eqn:E; cbn [snd recent perm capacity]; [|lia].
    pose proof (c_remove_len k (recent c)). lia.
Qed.
Lemma run_recent ops : forall c, zlen (recent (snd (c_run c ops))) <= Z.max (zlen (recent c)) (capacity c - 1).
Proof.
  induction ops as [|[now o] ops IH]; intros c; cbn [c_run]; [cbn [snd]; lia|].
  pose proof (step_recent now c o) as (S1 & S2). destruct (c_step now c o) as [out c1]. cbn [snd] in *.
  specialize (IH c1). destruct (c_run c1 ops) as [outs c2]. cbn [snd] in *. rewrite S2 in *. lia.
Qed.

Lemma perm_adds_app a b : perm_adds (a ++ b) = perm_adds a + perm_adds b.
Proof. induction a as [|[n o] a IH]; cbn [app perm_adds]; [reflexivity|]. destruct o; lia. Qed.
Lemma perm_adds_nonneg a : 0 <= perm_adds a.
Proof. induction a as [|[n o] a IH]; cbn [perm_adds]; [lia|]. destruct o; lia. Qed.

Lemma run_size ops : forall c,
  zlen (recent (snd (c_run c ops))) + zlen (perm (snd (c_run c ops)))
    <= Z.max (zlen (recent c) + zlen (perm c)) (capacity c - 1) + perm_adds ops /\
  capacity (snd (c_run c ops)) = capacity c /\
  zlen (perm (snd (c_run c ops))) <= zlen (perm c) + perm_adds ops.
Proof.
  induction ops as [|[now o] ops IH]; intros c; cbn [c_run].
  - cbn [snd perm_adds]. lia.
  - pose proof (step_size now c o) as (S1 & S2 & S3). destruct (c_step now c o) as [out c1]. cbn [snd] in *.
    specialize (IH c1). destruct (c_run c1 ops) as [outs c2]. cbn [snd] in *. destruct IH as (I1 & I2 & I3).
    change ((now, o) :: ops) with ([(now, o)] ++ ops). rewrite perm_adds_app. rewrite S2 in *. pose proof (perm_adds_nonneg [(now, o)]). lia.
Qed.

Lemma small_uncrowded f c : zlen (recent c) + zlen (perm c) <= 32000 -> uncrowded f c.
Proof.
  intros HS b. pose proof (filter_length_le (fun e => f (c_key e) =? b) (recent c ++ perm c)) as HL. rewrite app_length in HL.
  unfold zlen in HS. lia.
Qed.

Lemma small_good f ops : forall c, 
  Z.max (zlen (recent c) + zlen (perm c)) (capacity c - 1) + perm_adds ops <= 32000 ->
  allowed_history c ops -> good_history f c ops.
Proof.
  induction ops as [|[now o] ops IH]; intros c HS HA; cbn [good_history allowed_history] in *; [exact I|].
  destruct HA as [HA1 HA2]. change ((now, o) :: ops) with ([(now, o)] ++ ops) in HS. rewrite perm_adds_app in HS.
  pose proof (perm_adds_nonneg [(now, o)]). pose proof (perm_adds_nonneg ops).
  split; [exact HA1|]. split; [apply small_uncrowded; lia|]. apply IH; [|exact HA2].
  pose proof (step_size now c o) as (S1 & S2 & S3). rewrite S2. lia.
Qed.

Lemma good_allowed f ops : forall c, good_history f c ops -> allowed_history c ops.
Proof. induction ops as [|[now o] ops IH]; intros c; cbn [good_history allowed_history]; [auto|]. intros (A & _ & B). auto. Qed.
Lemma good_app f ops1 : forall c ops2,
  good_history f c (ops1 ++ ops2) -> good_history f c ops1 /\ good_history f (snd (c_run c ops1)) ops2.
Proof.
  induction ops1 as [|[now o] ops1 IH]; intros c ops2; cbn [app c_run good_history].
  - cbn [snd]. tauto.
  - intros (A & B & D). apply IH in D. destruct (c_step now c o) as [out c1]. cbn [snd] in *. destruct (c_run c1 ops1). cbn [snd] in *. tauto.
Qed.

(** *** The value found is the one last stored *)
Lemma find_remove k k' l : c_find k (c_remove k' l) = if zlist_eqb k k' then None else c_find k l.
Proof.
  induction l as [|e l IH]; [destruct (zlist_eqb k k'); reflexivity|]. unfold c_find, c_remove in *. cbn [filter find].
  destruct (zlist_eqb k' (c_key e)) eqn:E1; cbn [negb].
  - rewrite IH. apply zlist_eqb_spec in E1. subst k'. destruct (zlist_eqb k (c_key e)); reflexivity.
  - cbn [find]. destruct (zlist_eqb k (c_key e)) eqn:E2; [|exact IH].
    apply zlist_eqb_spec in E2. subst k. destruct (zlist_eqb (c_key e) k') eqn:E3; [|reflexivity].
    apply zlist_eqb_spec in E3. subst k'. rewrite zlist_eqb_refl in E1. discriminate.
Qed.
Lemma find_cons k e l : c_find k (e :: l) = if zlist_eqb k (c_key e) then Some e else c_find k l.
Proof. reflexivity. Qed.
Lemma find_removelast k l e : c_find k (removelast l) = Some e -> c_find k l = Some e.
Proof.
  induction l as [|a l IH]; [discriminate|]. destruct l as [|b l]; [discriminate|].
  change (removelast (a :: b :: l)) with (a :: removelast (b :: l)). rewrite !(find_cons k a).
  destruct (zlist_eqb k (c_key a)); auto.
Qed.
Lemma find_key k l e : c_find k l = Some e -> c_key e = k /\ In e l.
Proof. intros HF. apply find_some in HF as [A B]. apply zlist_eqb_spec in B. auto. Qed.
Lemma zlist_eqb_sym a b : zlist_eqb a b = zlist_eqb b a.
Proof.
  destruct (zlist_eqb a b) eqn:E1, (zlist_eqb b a) eqn:E2; try reflexivity.
  - apply zlist_eqb_spec in E1. subst. rewrite zlist_eqb_refl in E2. discriminate.
  - apply zlist_eqb_spec in E2. subst. rewrite zlist_eqb_refl in E1. discriminate.
Qed.

Definition traced (k : list Z) (c : cache) (o : option origin) : Prop :=
  (forall e, c_find k (perm c) = Some e -> o = Some (Permanent (c_val e))) /\
  (forall e, c_find k (recent c) = Some e ->
     exists t ttl, o = Some (Ordinary t (c_val e) ttl) /\ (ttl <> -2 -> c_exp e = t + 256 * clamp_ttl ttl)).

Lemma traced_step k now c o cur : allowed now c o -> traced k c cur ->
  traced k (snd (c_step now c o)) (latest_step k cur ((now, o), fst (c_step now c o))).
Proof.
  intros [_ HA] [T1 T2]. destruct o as [k' v ttl|k' v ttl|k' ign|k'|k']; cbn [c_step].
  - unfold c_add. destruct (storable ttl) eqn:HS; cbn [negb].
    2:{ cbn [fst snd latest_step]. rewrite HS, andb_false_r. split; assumption. }
    destruct (c_find k' (perm c)) eqn:Ep; cbn [fst snd latest_step].
    + change (-1 =? 1) with false. rewrite andb_false_r. cbn [andb]. split; assumption.
    + change (1 =? 1) with true. rewrite HS, !andb_true_r. unfold c_insert. cbn [recent perm c_key].
      destruct (zlist_eqb k k') eqn:Ek.
      * apply zlist_eqb_spec in Ek. subst k'. split; cbn [perm recent]; [intros e He; congruence|].
        intros e He. assert (e = mkentry k v (new_expiry c now k ttl)) as ->.
        { destruct (capacity c <=? _); [apply find_removelast in He|]; rewrite find_cons in He; cbn [c_key] in He; rewrite zlist_eqb_refl in He; congruence. }
        cbn [c_val c_exp]. exists now, ttl. split; [reflexivity|]. intros Ht. unfold new_expiry. replace (ttl =? -2) with false by lia. reflexivity.
      * split; cbn [perm recent]; [exact T1|]. intros e He. apply T2.
        assert (c_find k (mkentry k' v (new_expiry c now k' ttl) :: c_remove k' (recent c)) = Some e) as He'
          by (destruct (capacity c <=? _); [apply find_removelast|]; exact He).
        rewrite find_cons in He'. cbn [c_key] in He'. rewrite Ek, find_remove, Ek in He'. exact He'.
  - unfold c_add_perm. destruct (storable ttl) eqn:HS; cbn [negb].
    2:{ cbn [fst snd latest_step]. rewrite HS, andb_false_r. split; assumption. }
    destruct (c_find k' (perm c)) eqn:Ep; cbn [fst snd latest_step].
    + change (-1 =? 1) with false. rewrite andb_false_r. cbn [andb]. split; assumption.
    + change (1 =? 1) with true. rewrite HS, !andb_true_r.
      destruct (zlist_eqb k k') eqn:Ek; (split; cbn [perm recent]; [intros e He; rewrite find_cons in He; cbn [c_key] in He; rewrite Ek in He|]).
      * injection He as <-. reflexivity.
      * apply zlist_eqb_spec in Ek. subst k'. intros e He. congruence.
      * apply T1. exact He.
      * exact T2.
  - unfold c_get. destruct (c_find k' (perm c)) eqn:Ep; cbn [fst snd latest_step]; [split; assumption|].
    destruct (c_find k' (recent c)) as [e0|] eqn:Er; cbn [fst snd latest_step]; [|split; assumption].
    destruct ((ign =? 1) || freshb now e0); cbn [fst snd latest_step]; [|split; assumption].
    split; cbn [perm recent]; [exact T1|]. intros e He. apply T2. rewrite find_cons in He.
    pose proof (find_key _ _ _ Er) as [Hk _]. rewrite Hk in He. destruct (zlist_eqb k k') eqn:Ek.
    + apply zlist_eqb_spec in Ek. subst k'. congruence.
    + rewrite find_remove, Ek in He. exact He.
  - cbn [fst snd latest_step]. split; assumption.
  - unfold c_zap. destruct (c_find k' (perm c)) eqn:Ep; cbn [fst snd latest_step].
    + change (-1 =? 1) with false. rewrite andb_false_r. split; assumption.
    + destruct (c_find k' (recent c)) as [e0|] eqn:Er; cbn [fst snd latest_step].
      * change (1 =? 1) with true. rewrite andb_true_r.
        destruct (zlist_eqb k k') eqn:Ek; split; cbn [perm recent].
        -- apply zlist_eqb_spec in Ek. subst k'. intros e He. congruence.
        -- intros e He. rewrite find_remove, Ek in He. discriminate.
        -- exact T1.
        -- intros e He. rewrite find_remove, Ek in He. apply T2. exact He.
      * change (0 =? 1) with false. rewrite andb_false_r. split; assumption.
Qed.

Lemma traced_run k ops : forall c cur, allowed_history c ops -> traced k c cur ->
  traced k (snd (c_run c ops)) (fold_left (latest_step k) (combine ops (fst (c_run c ops))) cur).
Proof.
  induction ops as [|[now o] ops IH]; intros c cur HA HT; cbn [c_run allowed_history] in *; [exact HT|].
  destruct HA as [HA1 HA2]. pose proof (traced_step k now c o cur HA1 HT) as HT1.
  destruct (c_step now c o) as [out c1]. cbn [fst snd] in *. specialize (IH c1 _ HA2 HT1).
  destruct (c_run c1 ops) as [outs c2]. cbn [fst snd combine fold_left] in *. exact IH.
Qed.

Lemma traced_empty k cap : traced k (empty_cache cap) None.
Proof. split; intros e He; discriminate. Qed.

Lemma get_latest cap ops now k ign v :
  allowed_history (empty_cache cap) ops ->
  fst (c_get (snd (c_run (empty_cache cap) ops)) now k (ign =? 1)) = Some v ->
  latest k ops (fst (c_run (empty_cache cap) ops)) = Some (Permanent v) \/
  exists t ttl, latest k ops (fst (c_run (empty_cache cap) ops)) = Some (Ordinary t v ttl) /\
    (ign <> 1 -> ttl <> -2 -> now <= t + 256 * clamp_ttl ttl).
Proof.
  intros HA HG. pose proof (traced_run k ops _ None HA (traced_empty k cap)) as [T1 T2].
  fold (latest k ops (fst (c_run (empty_cache cap) ops))) in T1, T2.
  unfold c_get in HG. destruct (c_find k (perm _)) as [e|] eqn:Ep.
  - left. cbn in HG. injection HG as <-. apply T1. reflexivity.
  - destruct (c_find k (recent _)) as [e|] eqn:Er; [|discriminate]. right. specialize (T2 e eq_refl).
    destruct ((ign =? 1) || freshb now e) eqn:Ef; [|discriminate]. cbn [fst] in HG. injection HG as <-.
    destruct T2 as (t & ttl & E & Ex). exists t, ttl. split; [exact E|]. intros Hi Ht. specialize (Ex Ht). unfold freshb in Ef. lia.
Qed.

Lemma ttl_latest cap ops now k s :
  allowed_history (empty_cache cap) ops ->
  c_ttl (snd (c_run (empty_cache cap) ops)) now k = s ->
  s = -1 \/
  exists t v ttl, latest k ops (fst (c_run (empty_cache cap) ops)) = Some (Ordinary t v ttl) /\
    0 <= s <= 31536000 /\ (ttl <> -2 -> s = (t + 256 * clamp_ttl ttl - now) / 256).
Proof.
  intros HA HG. pose proof (traced_run k ops _ None HA (traced_empty k cap)) as [T1 T2].
  fold (latest k ops (fst (c_run (empty_cache cap) ops))) in T1, T2.
  unfold c_ttl in HG. destruct (c_find k (perm _)) as [e|] eqn:Ep; [auto|].
  destruct (c_find k (recent _)) as [e|] eqn:Er; [|auto]. specialize (T2 e eq_refl). destruct T2 as (t & ttl & E & Ex).
  destruct (_ && _) eqn:Ec in HG; [|auto]. right. exists t, (c_val e), ttl. split; [exact E|]. rewrite HG in Ec. split; [lia|].
  intros Ht. rewrite <- (Ex Ht). auto.
Qed.

(** *** The working set stays *)
Definition kset := list (list Z).
(** Everything in front of [k] is in [K]. *)
Definition front (k : list Z) (K : kset) (e : centry) (l : list centry) : Prop :=
  exists U V, l = U ++ e :: V /\ c_key e = k /\ (forall x, In x U -> In (c_key x) K /\ c_key x <> k) /\ NoDup (map c_key U).

Lemma front_find k K e l : front k K e l -> c_find k l = Some e.
Proof.
  intros (U & V & -> & Hk & HU & _). induction U as [|u U IH]; cbn [app]; rewrite find_cons.
  - rewrite Hk, zlist_eqb_refl. reflexivity.
  - destruct (zlist_eqb k (c_key u)) eqn:E; [apply zlist_eqb_spec in E; exfalso; apply (HU u); [left; reflexivity|congruence]|].
    apply IH. intros x Hx. apply HU. right. exact Hx.
Qed.
Lemma remove_app k a b : c_remove k (a ++ b) = c_remove k a ++ c_remove k b.
Proof. apply filter_app. Qed.
Lemma map_remove k U : map c_key (c_remove k U) = filter (fun q => negb (zlist_eqb k q)) (map c_key U).
Proof. induction U as [|u U IH]; cbn; [reflexivity|]. unfold c_remove in IH. destruct (zlist_eqb k (c_key u)); cbn; congruence. Qed.

(** Putting an entry with another key in front. *)
Lemma front_push k K e l x : front k K e l -> c_key x <> k ->
  front k (c_key x :: K) e (x :: c_remove (c_key x) l).
Proof.
  intros (U & V & -> & Hk & HU & HN) Hx. exists (x :: c_remove (c_key x) U), (c_remove (c_key x) V).
  split; [|split; [exact Hk|split]].
  - rewrite remove_app. cbn [app]. f_equal. f_equal. unfold c_remove at 1. cbn [filter].
    destruct (zlist_eqb (c_key x) (c_key e)) eqn:E; [apply zlist_eqb_spec in E; congruence|]. reflexivity.
  - intros y [<-|Hy]; [split; [left; reflexivity|exact Hx]|]. apply filter_In in Hy as [Hy _]. destruct (HU y Hy). split; [right; assumption|assumption].
  - cbn [map]. constructor.
    + rewrite map_remove. intros C. apply filter_In in C as [_ C]. rewrite zlist_eqb_refl in C. discriminate.
    + rewrite map_remove. apply NoDup_filter. exact HN.
Qed.
Lemma front_remove k K e l x : front k K e l -> x <> k -> front k K e (c_remove x l).
Proof.
  intros (U & V & -> & Hk & HU & HN) Hx. exists (c_remove x U), (c_remove x V). split; [|split; [exact Hk|split]].
  - rewrite remove_app. f_equal. unfold c_remove at 1. cbn [filter].
    destruct (zlist_eqb x (c_key e)) eqn:E; [apply zlist_eqb_spec in E; congruence|]. reflexivity.
  - intros y Hy. apply filter_In in Hy as [Hy _]. exact (HU y Hy).
  - rewrite map_remove. apply NoDup_filter. exact HN.
Qed.
Lemma front_mono k K K' e l : incl K K' -> front k K e l -> front k K' e l.
Proof. intros HI (U & V & E & Hk & HU & HN). exists U, V. split; [exact E|]. split; [exact Hk|]. split; [|exact HN]. intros x Hx. destruct (HU x Hx). auto. Qed.
Lemma front_removelast k K e l : front k K e l -> zlen (nodup (list_eq_dec Z.eq_dec) K) + 1 < zlen l -> front k K e (removelast l).
Proof.
  intros (U & V & -> & Hk & HU & HN) HL.
  assert (zlen U <= zlen (nodup (list_eq_dec Z.eq_dec) K)) as HLU.
  { unfold zlen. rewrite <- (map_length c_key U). apply inj_le. apply NoDup_incl_length; [exact HN|].
    intros q Hq. apply in_map_iff in Hq as (u & <- & Hu). apply nodup_In. apply HU. exact Hu. }
  destruct V as [|w V].
  - rewrite zlen_app, zlen_cons, zlen_nil in HL. lia.
  - exists U, (removelast (w :: V)). split; [|auto]. rewrite removelast_app by discriminate. reflexivity.
Qed.
Lemma front_here k e l : c_key e = k -> front k [] e (e :: l).
Proof. intros Hk. exists [], l. split; [reflexivity|]. split; [exact Hk|]. split; [intros x []|constructor]. Qed.

Lemma nodup_len_mono (K K' : kset) : incl K K' ->
  zlen (nodup (list_eq_dec Z.eq_dec) K) <= zlen (nodup (list_eq_dec Z.eq_dec) K').
Proof.
  intros HI. unfold zlen. apply inj_le. apply NoDup_incl_length; [apply NoDup_nodup|].
  intros q Hq. apply nodup_In. apply HI. apply nodup_In in Hq. exact Hq.
Qed.

Lemma touched_app a b : touched (a ++ b) = touched a ++ touched b.
Proof. induction a as [|[n o] a IH]; cbn [app touched]; [reflexivity|]. destruct o; cbn [app]; congruence. Qed.

Lemma front_run k ops : forall c K e,
  leaves_alone k ops -> front k K e (recent c) -> c_find k (perm c) = None ->
  zlen (nodup (list_eq_dec Z.eq_dec) (K ++ touched ops)) + 1 + zlen (perm c) + perm_adds ops < capacity c ->
  exists K', front k K' e (recent (snd (c_run c ops))) /\ c_find k (perm (snd (c_run c ops))) = None.
Proof.
  induction ops as [|[now o] ops IH]; intros c K e HL HF HP HB.
  { cbn [c_run snd]. eauto. }
  cbn [c_run]. change ((now, o) :: ops) with ([(now, o)] ++ ops) in HB. rewrite touched_app, perm_adds_app in HB.
  assert (exists K1, front k K1 e (recent (snd (c_step now c o))) /\ c_find k (perm (snd (c_step now c o))) = None /\
            incl K1 (K ++ touched [(now, o)])) as (K1 & F1 & P1 & HI).
  { pose proof (perm_adds_nonneg ops) as HP0.
    destruct o as [k' v ttl|k' v ttl|k' ign|k'|k']; cbn [c_step leaves_alone touched app perm_adds] in *.
    - destruct HL as [Hk HL]. unfold c_add. destruct (negb (storable ttl)); cbn [snd]; [exists K; split; [exact HF|split; [exact HP|apply incl_appl, incl_refl]]|].
      destruct (c_find k' (perm c)); cbn [snd]; [exists K; split; [exact HF|split; [exact HP|apply incl_appl, incl_refl]]|].
      set (x := mkentry k' v (new_expiry c now k' ttl)).
      assert (front k (k' :: K) e (x :: c_remove k' (recent c))) as HF' by (apply (front_push k K e (recent c) x); assumption).
      exists (k' :: K). unfold c_insert. cbn [recent perm c_key x]. fold x. split; [|split; [exact HP|]].
      + destruct (capacity c <=? _) eqn:Ec; [|exact HF']. apply front_removelast; [exact HF'|].
        assert (zlen (nodup (list_eq_dec Z.eq_dec) (k' :: K)) <= zlen (nodup (list_eq_dec Z.eq_dec) (K ++ k' :: touched ops))).
        { apply nodup_len_mono. intros q [<-|Hq]; apply in_app_iff; [right; left; reflexivity|left; exact Hq]. }
        fold x in Ec. lia.
      + intros q [<-|Hq]; apply in_app_iff; [right; left; reflexivity|left; exact Hq].
    - destruct HL as [Hk HL]. exists K. unfold c_add_perm. destruct (negb (storable ttl)); cbn [snd]; [split; [exact HF|split; [exact HP|apply incl_appl, incl_refl]]|].
      destruct (c_find k' (perm c)); cbn [snd recent perm]; [split; [exact HF|split; [exact HP|apply incl_appl, incl_refl]]|].
      split; [exact HF|split; [|apply incl_appl, incl_refl]]. rewrite find_cons. cbn [c_key].
      destruct (zlist_eqb k k') eqn:E; [apply zlist_eqb_spec in E; congruence|exact HP].
    - unfold c_get. destruct (c_find k' (perm c)); cbn [snd]; [exists K; split; [exact HF|split; [exact HP|apply incl_appl, incl_refl]]|].
      destruct (c_find k' (recent c)) as [e0|] eqn:Er; cbn [snd]; [|exists K; split; [exact HF|split; [exact HP|apply incl_appl, incl_refl]]].
      destruct ((ign =? 1) || freshb now e0); cbn [snd recent perm]; [|exists K; split; [exact HF|split; [exact HP|apply incl_appl, incl_refl]]].
      destruct (find_key _ _ _ Er) as [Hk' _].
      destruct (list_eq_dec Z.eq_dec k' k) as [->|Nk].
      + exists []. pose proof (front_find _ _ _ _ HF) as E. rewrite E in Er. injection Er as <-.
        split; [apply front_here; exact Hk'|]. split; [exact HP|]. intros q [].
      + exists (k' :: K). split; [|split; [exact HP|]].
        * rewrite <- Hk'. apply front_push; [exact HF|congruence].
        * intros q [<-|Hq]; apply in_app_iff; [right; left; reflexivity|left; exact Hq].
    - exists K. cbn [snd]. split; [exact HF|split; [exact HP|apply incl_appl, incl_refl]].
    - destruct HL as [Hk HL]. exists K. unfold c_zap. destruct (c_find k' (perm c)); cbn [snd]; [split; [exact HF|split; [exact HP|apply incl_appl, incl_refl]]|].
      destruct (c_find k' (recent c)); cbn [snd recent perm]; [|split; [exact HF|split; [exact HP|apply incl_appl, incl_refl]]].
      split; [apply front_remove; assumption|split; [exact HP|apply incl_appl, incl_refl]]. }
  assert (leaves_alone k ops) as HL' by (destruct o; cbn [leaves_alone] in HL; tauto).
  pose proof (step_size now c o) as (_ & S2 & S3).
  destruct (c_step now c o) as [out c1]. cbn [fst snd] in *.
  destruct (IH c1 K1 e HL' F1 P1) as (K' & F' & P').
  { rewrite S2. assert (zlen (nodup (list_eq_dec Z.eq_dec) (K1 ++ touched ops)) <= zlen (nodup (list_eq_dec Z.eq_dec) (K ++ touched [(now, o)] ++ touched ops))).
    { apply nodup_len_mono. intros q Hq. rewrite app_assoc. apply in_app_iff. apply in_app_iff in Hq as [Hq|Hq]; [left; apply HI; exact Hq|right; exact Hq]. }
    lia. }
  destruct (c_run c1 ops) as [outs c2]. cbn [snd] in *. eauto.
Qed.

Lemma working_set cap pre now k v ttl mid now' :
  let c0 := empty_cache cap in
  let c1 := snd (c_run c0 pre) in
  fst (c_add c1 now k v ttl) = 1 -> storable ttl = true -> leaves_alone k mid ->
  zlen (nodup (list_eq_dec Z.eq_dec) (touched mid)) + 1 + perm_adds (pre ++ mid) < cap ->
  fst (c_get (snd (c_run c0 (pre ++ (now, OpAdd k v ttl) :: mid))) now' k true) = Some v.
Proof.
  intros c0 c1 HA HS HL HB. rewrite c_run_app. cbn [snd]. fold c1. cbn [c_run].
  pose proof (run_size pre c0) as (_ & Hcap & Hperm). fold c1 in Hcap, Hperm. cbn [capacity perm c0 empty_cache] in Hcap, Hperm. rewrite zlen_nil in Hperm.
  rewrite perm_adds_app in HB. pose proof (perm_adds_nonneg mid).
  cbn [c_step]. unfold c_add in HA |- *. rewrite HS in HA |- *. cbn [negb] in HA |- *.
  destruct (c_find k (perm c1)) eqn:Ep; cbn [fst] in HA; [discriminate|].
  set (e := mkentry k v (new_expiry c1 now k ttl)). set (c2 := c_insert c1 e). cbn [snd].
  assert (front k [] e (recent c2)) as HF.
  { unfold c2, c_insert. cbn [recent c_key e]. fold e.
    assert (front k [] e (e :: c_remove k (recent c1))) as HF' by (apply front_here; reflexivity).
    destruct (capacity c1 <=? _) eqn:Ec; [|exact HF']. apply front_removelast; [exact HF'|].
    fold e in Ec. change (zlen (nodup (list_eq_dec Z.eq_dec) [])) with 0. pose proof (zlen_nonneg (nodup (list_eq_dec Z.eq_dec) (touched mid))). lia. }
  destruct (insert_size c1 e) as (_ & IP & IC). fold c2 in IP, IC.
  destruct (front_run k mid c2 [] e HL HF) as (K' & HF' & HP').
  - rewrite IP. exact Ep.
  - rewrite IP, IC, Hcap. cbn [app]. lia.
  - destruct (c_run c2 mid) as [outs c3]. cbn [snd] in *. unfold c_get. rewrite HP', (front_find _ _ _ _ HF'). reflexivity.
Qed.
