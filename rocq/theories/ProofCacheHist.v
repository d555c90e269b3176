(** From single steps to histories of the cache. *)
From Verif Require Import CBase ModelDwHash SpecCache SpecCacheRun ProofCacheSpec ProofDwHashInv ProofDwHashRefine.

Section Cache.
(** Any hash function with unsigned results. *)
Context (H : list Z -> Z) (Hpos : forall k, 0 <= H k).
(** maximum_cache_elements, and the argument of dwh_hash_init. *)
Context (cache_size elements : Z) (Hsize : cache_size < 2 ^ 31).

Local Notation h0 := (dwh_hash_init cache_size elements).
Local Notation cap := (init_elements cache_size elements).
Local Notation bucket_of := (fun k => Z.land (H k) (h_mask h0)).

Lemma refines ops : good_history bucket_of (empty_cache cap) ops ->
  exists h, hrun H h0 ops = Ok (fst (c_run (empty_cache cap) ops), h) /\
    Rel H h (snd (c_run (empty_cache cap) ops)).
Proof.
  intros HG. destruct (run_ok H Hpos ops h0 (empty_cache cap) (init_rel H cache_size elements Hsize) HG) as (h & E & R & _). eauto.
Qed.

Lemma refines_small ops : allowed_history (empty_cache cap) ops -> cap + perm_adds ops <= 32000 ->
  exists h, hrun H h0 ops = Ok (fst (c_run (empty_cache cap) ops), h).
Proof.
  intros HA HS. destruct (refines ops) as (h & E & _); [|eauto].
  apply small_good; [|exact HA]. cbn [recent perm empty_cache capacity]. change (zlen (@nil centry)) with 0.
  assert (0 <= cap). { unfold init_elements. destruct ((elements =? 0) && (0 <? cache_size)) eqn:?, (elements <? 2) eqn:?, (134217728 <? elements) eqn:?; lia. }
  pose proof (perm_adds_nonneg ops). lia.
Qed.

Lemma get_latest' ops now k ign v outs h :
  good_history bucket_of (empty_cache cap) (ops ++ [(now, OpGet k ign)]) ->
  hrun H h0 (ops ++ [(now, OpGet k ign)]) = Ok (outs ++ [OutVal (Some v)], h) ->
  latest k ops outs = Some (Permanent v) \/
  exists t ttl, latest k ops outs = Some (Ordinary t v ttl) /\
    (ign <> 1 -> ttl <> -2 -> now <= t + 256 * clamp_ttl ttl).
Proof.
  intros HG HR. destruct (refines _ HG) as (h' & E & _). rewrite E in HR. injection HR as HR _.
  rewrite c_run_app in HR. cbn [fst c_run c_step] in HR.
  destruct (c_get (snd (c_run (empty_cache cap) ops)) now k (ign =? 1)) as [r c'] eqn:Eg. cbn [fst] in HR.
  apply app_inj_tail in HR as [<- HR]. injection HR as ->.
  apply (get_latest cap ops now k ign v).
  - apply good_app in HG as [HG _]. eapply good_allowed. exact HG.
  - rewrite Eg. reflexivity.
Qed.

Lemma ttl_latest' ops now k s outs h :
  good_history bucket_of (empty_cache cap) (ops ++ [(now, OpTtl k)]) ->
  hrun H h0 (ops ++ [(now, OpTtl k)]) = Ok (outs ++ [OutTtl s], h) ->
  s = -1 \/
  exists t v ttl, latest k ops outs = Some (Ordinary t v ttl) /\ 0 <= s <= 31536000 /\
    (ttl <> -2 -> s = (t + 256 * clamp_ttl ttl - now) / 256).
Proof.
  intros HG HR. destruct (refines _ HG) as (h' & E & _). rewrite E in HR. injection HR as HR _.
  rewrite c_run_app in HR. cbn [fst c_run c_step] in HR. apply app_inj_tail in HR as [<- HR]. injection HR as HR.
  apply (ttl_latest cap ops now k s); [|exact HR]. apply good_app in HG as [HG _]. eapply good_allowed. exact HG.
Qed.

Lemma size_bound ops outs h :
  good_history bucket_of (empty_cache cap) ops -> hrun H h0 ops = Ok (outs, h) ->
  exists evictable permanent, h_size h = evictable + permanent /\
    0 <= evictable < cap /\ 0 <= permanent <= perm_adds ops.
Proof.
  intros HG HR. destruct (refines _ HG) as (h' & E & HM & C & F & P & I). rewrite E in HR. injection HR as _ <-.
  exists (zlen (recent (snd (c_run (empty_cache cap) ops)))), (zlen (perm (snd (c_run (empty_cache cap) ops)))).
  pose proof (Forall2_length _ _ _ (iv_absF _ _ _ _ _ _ _ _ I)) as L1. pose proof (Forall2_length _ _ _ (iv_absP _ _ _ _ _ _ _ _ I)) as L2.
  split; [rewrite (iv_size _ _ _ _ _ _ _ _ I); unfold zlen; lia|].
  pose proof (run_recent ops (empty_cache cap)) as R1. pose proof (run_size ops (empty_cache cap)) as (_ & _ & R2).
  cbn [recent perm capacity empty_cache] in R1, R2. change (zlen (@nil centry)) with 0 in R1, R2.
  assert (1 <= cap). { unfold init_elements. destruct ((elements =? 0) && (0 <? cache_size)) eqn:?, (elements <? 2) eqn:?, (134217728 <? elements) eqn:?; lia. }
  pose proof (zlen_nonneg (recent (snd (c_run (empty_cache cap) ops)))). pose proof (zlen_nonneg (perm (snd (c_run (empty_cache cap) ops)))). lia.
Qed.

Lemma hrun_app ops1 : forall h ops2 outs1 h1, hrun H h ops1 = Ok (outs1, h1) ->
  hrun H h (ops1 ++ ops2) = '(o2, h2) <- hrun H h1 ops2 ;; Ok (outs1 ++ o2, h2).
Proof.
  induction ops1 as [|[now o] ops1 IH]; intros h ops2 outs1 h1; cbn [hrun app].
  - intros E. injection E as <- <-. destruct (hrun H h ops2) as [[? ?]| |]; reflexivity.
  - destruct (hstep H now h o) as [[out h']| |]; cbn [bind]; try discriminate.
    destruct (hrun H h' ops1) as [[outs h'']| |] eqn:E1; cbn [bind]; try discriminate. intros E. injection E as <- <-.
    rewrite (IH _ ops2 _ _ E1). destruct (hrun H h'' ops2) as [[? ?]| |]; reflexivity.
Qed.

Lemma working_set' pre now k v ttl mid now' :
  let hist := pre ++ (now, OpAdd k v ttl) :: mid ++ [(now', OpGet k 1)] in
  good_history bucket_of (empty_cache cap) hist ->
  storable ttl = true -> leaves_alone k mid ->
  (forall t v' ttl', ~ In (t, OpAddPerm k v' ttl') pre) ->
  zlen (nodup (list_eq_dec Z.eq_dec) (touched mid)) + 1 + perm_adds hist < cap ->
  exists outs h, hrun H h0 hist = Ok (outs ++ [OutVal (Some v)], h).
Proof.
  intros hist HG HS HL HNP HB. destruct (refines hist HG) as (h & E & _).
  assert (hist = (pre ++ (now, OpAdd k v ttl) :: mid) ++ [(now', OpGet k 1)]) as EH by (unfold hist; rewrite <- app_assoc; reflexivity).
  assert (perm_adds hist = perm_adds (pre ++ mid)) as EP.
  { unfold hist. rewrite !perm_adds_app. change ((now, OpAdd k v ttl) :: mid ++ [(now', OpGet k 1)]) with ([(now, OpAdd k v ttl)] ++ mid ++ [(now', OpGet k 1)]).
    rewrite !perm_adds_app. cbn [perm_adds]. lia. }
  assert (c_find k (perm (snd (c_run (empty_cache cap) pre))) = None) as Hp.
  { clear - HNP. assert (forall c, c_find k (perm c) = None -> c_find k (perm (snd (c_run c pre))) = None) as G; [|apply G; reflexivity].
    induction pre as [|[n o] pre IH]; intros c Hc; cbn [c_run]; [exact Hc|].
    assert (c_find k (perm (snd (c_step n c o))) = None) as H1.
    { destruct o as [k' v' ttl'|k' v' ttl'|k' ign|k'|k']; cbn [c_step].
      - unfold c_add. destruct (negb (storable ttl')); [exact Hc|]. destruct (c_find k' (perm c)); exact Hc.
      - unfold c_add_perm. destruct (negb (storable ttl')); [exact Hc|]. destruct (c_find k' (perm c)); [exact Hc|]. cbn [snd perm]. rewrite find_cons. cbn [c_key].
        destruct (zlist_eqb k k') eqn:Ek; [|exact Hc]. apply zlist_eqb_spec in Ek. subst k'. exfalso. apply (HNP n v' ttl'). left. reflexivity.
      - unfold c_get. destruct (c_find k' (perm c)); [exact Hc|]. destruct (c_find k' (recent c)); [|exact Hc]. destruct (_ || _); exact Hc.
      - exact Hc.
      - unfold c_zap. destruct (c_find k' (perm c)); [exact Hc|]. destruct (c_find k' (recent c)); exact Hc. }
    destruct (c_step n c o) as [out c1]. cbn [snd] in *. 
    assert (c_find k (perm (snd (c_run c1 pre))) = None) as H2 by (apply IH; [intros t v' ttl' C; apply (HNP t v' ttl'); right; exact C|exact H1]).
    destruct (c_run c1 pre). exact H2. }
  pose proof (working_set cap pre now k v ttl mid now') as HW. cbn zeta in HW.
  rewrite EH in E. rewrite c_run_app in E. cbn [fst c_run c_step] in E. change (1 =? 1) with true in E.
  destruct (c_get (snd (c_run (empty_cache cap) (pre ++ (now, OpAdd k v ttl) :: mid))) now' k true) as [r c'] eqn:Eg.
  cbn [fst] in *. rewrite <- EH in E. rewrite HW in E; [eauto| |exact HS|exact HL|lia].
  unfold c_add. rewrite HS. cbn [negb]. rewrite Hp. reflexivity.
Qed.
End Cache.

Lemma compress_pos mul add k : 0 <= dwh_hash_compress mul add k.
Proof.
  unfold dwh_hash_compress. set (o := u32 _). apply Z.lor_nonneg. split.
  - apply Z.shiftr_nonneg. unfold o, u32. apply Z.mod_pos_bound. lia.
  - unfold u32. apply Z.mod_pos_bound. lia.
Qed.

Lemma C01_refines (H : list Z -> Z) (Hpos : forall k, 0 <= H k) cache_size elements ops :
  cache_size < 2 ^ 31 ->
  let h0 := dwh_hash_init cache_size elements in
  let c0 := empty_cache (init_elements cache_size elements) in
  good_history (fun k => Z.land (H k) (h_mask h0)) c0 ops ->
  exists h, hrun H h0 ops = Ok (fst (c_run c0 ops), h).
Proof. intros Hs h0 c0 HG. destruct (refines H Hpos cache_size elements Hs ops HG) as (h & E & _). eauto. Qed.

Lemma C01_latest (H : list Z -> Z) (Hpos : forall k, 0 <= H k) cache_size elements (Hs : cache_size < 2 ^ 31) ops now k ign v outs h :
  let h0 := dwh_hash_init cache_size elements in
  good_history (fun k => Z.land (H k) (h_mask h0)) (empty_cache (init_elements cache_size elements)) (ops ++ [(now, OpGet k ign)]) ->
  hrun H h0 (ops ++ [(now, OpGet k ign)]) = Ok (outs ++ [OutVal (Some v)], h) ->
  latest k ops outs = Some (Permanent v) \/ exists t ttl, latest k ops outs = Some (Ordinary t v ttl).
Proof.
  intros h0 HG HR. destruct (get_latest' H Hpos cache_size elements Hs _ _ _ _ _ _ _ HG HR) as [?|(t & ttl & E & _)]; [left; assumption|right; eauto].
Qed.

Lemma C03_fresh (H : list Z -> Z) (Hpos : forall k, 0 <= H k) cache_size elements (Hs : cache_size < 2 ^ 31) ops now k ign v outs h :
  let h0 := dwh_hash_init cache_size elements in
  good_history (fun k => Z.land (H k) (h_mask h0)) (empty_cache (init_elements cache_size elements)) (ops ++ [(now, OpGet k ign)]) ->
  hrun H h0 (ops ++ [(now, OpGet k ign)]) = Ok (outs ++ [OutVal (Some v)], h) ->
  ign <> 1 ->
  latest k ops outs = Some (Permanent v) \/
  exists t ttl, latest k ops outs = Some (Ordinary t v ttl) /\ (ttl <> -2 -> now <= t + 256 * clamp_ttl ttl).
Proof.
  intros h0 HG HR Hi. destruct (get_latest' H Hpos cache_size elements Hs _ _ _ _ _ _ _ HG HR) as [?|(t & ttl & E & HH)]; [left; assumption|right; eauto].
Qed.
