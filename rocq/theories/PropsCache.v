(** C01, C02, C03: Deadwood's in-memory cache (DwHash.c), for every hash function, every
    table size and every history of operations.

    [hrun] runs a history against the pointer-level model of DwHash.c; [c_run] runs it
    against the specification of SpecCache.v.  [Ok] means in particular that no freed or
    NULL pointer was followed and nothing outside the table was touched. *)
From Verif Require Import CBase ModelDwHash SpecCache SpecCacheRun ProofCacheHist.

(** *** C01 *)

(** Every answer of the cache is the one of the specification, for every hash function
    with unsigned values. *)
Theorem C01_cache_refines_spec :
  forall (H : list Z -> Z), (forall k, 0 <= H k) ->
  forall cache_size elements ops, cache_size < 2 ^ 31 ->
  let h0 := dwh_hash_init cache_size elements in
  let c0 := empty_cache (init_elements cache_size elements) in
  good_history (fun k => Z.land (H k) (h_mask h0)) c0 ops ->
  exists h, hrun H h0 ops = Ok (fst (c_run c0 ops), h).
Proof. exact C01_refines. Qed.
Print Assumptions C01_cache_refines_spec.

(** With at most 32000 elements no condition on the hash values is needed: collisions
    can do no harm. *)
Theorem C01_small_cache_refines_spec :
  forall (H : list Z -> Z), (forall k, 0 <= H k) ->
  forall cache_size elements, cache_size < 2 ^ 31 -> forall ops,
  let c0 := empty_cache (init_elements cache_size elements) in
  allowed_history c0 ops -> capacity c0 + perm_adds ops <= 32000 ->
  exists h, hrun H (dwh_hash_init cache_size elements) ops = Ok (fst (c_run c0 ops), h).
Proof. exact refines_small. Qed.
Print Assumptions C01_small_cache_refines_spec.

(** The function DwHash.c uses is one of those. *)
Theorem C01_hash_function_unsigned : forall mul add k, 0 <= dwh_hash_compress mul add k.
Proof. exact compress_pos. Qed.
Print Assumptions C01_hash_function_unsigned.

(** A value found by a lookup is the one of the last accepted store of exactly that key,
    and no deletion succeeded since. *)
Theorem C01_lookup_returns_latest :
  forall (H : list Z -> Z), (forall k, 0 <= H k) ->
  forall cache_size elements, cache_size < 2 ^ 31 ->
  forall ops now k ign v outs h,
  let h0 := dwh_hash_init cache_size elements in
  good_history (fun k => Z.land (H k) (h_mask h0)) (empty_cache (init_elements cache_size elements))
               (ops ++ [(now, OpGet k ign)]) ->
  hrun H h0 (ops ++ [(now, OpGet k ign)]) = Ok (outs ++ [OutVal (Some v)], h) ->
  latest k ops outs = Some (Permanent v) \/
  exists t ttl, latest k ops outs = Some (Ordinary t v ttl).
Proof. exact C01_latest. Qed.
Print Assumptions C01_lookup_returns_latest.

(** The restriction on permanent entries is needed: adding one over an ordinary entry
    (process_ip4_params does so when a cache file holding the name was loaded before)
    leaves a ring node pointing to freed memory, which the next eviction follows. *)
Theorem C01_permanent_over_ordinary_refuted :
  exists ops, hrun (fun _ => 0) (dwh_hash_init 0 3) ops = Bad UseAfterFree.
Proof.
  exists [(1, OpAdd [1] [10] 60); (2, OpAddPerm [1] [11] 60); (3, OpAdd [2] [20] 60); (4, OpAdd [3] [30] 60)].
  vm_compute. reflexivity.
Qed.
Print Assumptions C01_permanent_over_ordinary_refuted.

(** *** C02 *)

(** After every history the table holds fewer than [maximum] evictable elements, and not
    more permanent ones than were added. *)
Theorem C02_size_bound :
  forall (H : list Z -> Z), (forall k, 0 <= H k) ->
  forall cache_size elements, cache_size < 2 ^ 31 ->
  forall ops outs h,
  let h0 := dwh_hash_init cache_size elements in
  good_history (fun k => Z.land (H k) (h_mask h0)) (empty_cache (init_elements cache_size elements)) ops ->
  hrun H h0 ops = Ok (outs, h) ->
  exists evictable permanent, h_size h = evictable + permanent /\
    0 <= evictable < init_elements cache_size elements /\ 0 <= permanent <= perm_adds ops.
Proof. exact size_bound. Qed.
Print Assumptions C02_size_bound.

(** Least recently used goes first: an entry cannot be evicted before so many other
    distinct keys have been stored or looked up that the cache would be full of them. *)
Theorem C02_recently_used_survives :
  forall (H : list Z -> Z), (forall k, 0 <= H k) ->
  forall cache_size elements, cache_size < 2 ^ 31 ->
  forall pre now k v ttl mid now',
  let h0 := dwh_hash_init cache_size elements in
  let hist := pre ++ (now, OpAdd k v ttl) :: mid ++ [(now', OpGet k 1)] in
  good_history (fun k => Z.land (H k) (h_mask h0)) (empty_cache (init_elements cache_size elements)) hist ->
  storable ttl = true -> leaves_alone k mid ->
  (forall t v' ttl', ~ In (t, OpAddPerm k v' ttl') pre) ->
  zlen (nodup (list_eq_dec Z.eq_dec) (touched mid)) + 1 + perm_adds hist < init_elements cache_size elements ->
  exists outs h, hrun H h0 hist = Ok (outs ++ [OutVal (Some v)], h).
Proof. exact working_set'. Qed.
Print Assumptions C02_recently_used_survives.

(** *** C03 *)

(** Unless the caller asks for stale data, what a lookup returns has not expired: the
    time of the lookup is not past the time of the store plus its (clamped) TTL.  Times
    count 1/256 seconds.  (TTL -2 stands for "keep the previous expiry time".) *)
Theorem C03_no_expired_answers :
  forall (H : list Z -> Z), (forall k, 0 <= H k) ->
  forall cache_size elements, cache_size < 2 ^ 31 ->
  forall ops now k ign v outs h,
  let h0 := dwh_hash_init cache_size elements in
  good_history (fun k => Z.land (H k) (h_mask h0)) (empty_cache (init_elements cache_size elements))
               (ops ++ [(now, OpGet k ign)]) ->
  hrun H h0 (ops ++ [(now, OpGet k ign)]) = Ok (outs ++ [OutVal (Some v)], h) ->
  ign <> 1 ->
  latest k ops outs = Some (Permanent v) \/
  exists t ttl, latest k ops outs = Some (Ordinary t v ttl) /\
    (ttl <> -2 -> now <= t + 256 * clamp_ttl ttl).
Proof. exact C03_fresh. Qed.
Print Assumptions C03_no_expired_answers.

(** The reported remaining TTL is exact, in whole seconds, or -1. *)
Theorem C03_remaining_ttl :
  forall (H : list Z -> Z), (forall k, 0 <= H k) ->
  forall cache_size elements, cache_size < 2 ^ 31 ->
  forall ops now k s outs h,
  let h0 := dwh_hash_init cache_size elements in
  good_history (fun k => Z.land (H k) (h_mask h0)) (empty_cache (init_elements cache_size elements))
               (ops ++ [(now, OpTtl k)]) ->
  hrun H h0 (ops ++ [(now, OpTtl k)]) = Ok (outs ++ [OutTtl s], h) ->
  s = -1 \/
  exists t v ttl, latest k ops outs = Some (Ordinary t v ttl) /\ 0 <= s <= 31536000 /\
    (ttl <> -2 -> s = (t + 256 * clamp_ttl ttl - now) / 256).
Proof. exact ttl_latest'. Qed.
Print Assumptions C03_remaining_ttl.

(** *** The hypotheses are met by real histories: all keys in one bucket, replacement,
    eviction, expiry, deletion and a permanent entry. *)
Definition example_history : list (Z * hop) :=
  [(1000, OpAddPerm [9] [90] 60); (1000, OpAdd [1] [10] 60); (1001, OpAdd [2] [20] 60);
   (1002, OpAdd [1] [11] 100); (1003, OpGet [2] 0); (1004, OpAdd [3] [30] 5);
   (1005, OpAdd [4] [40] 60); (1006, OpGet [1] 0); (1007, OpGet [2] 0); (20000, OpGet [2] 0);
   (20000, OpTtl [2]); (1008, OpTtl [2]); (1009, OpZap [2]); (1010, OpGet [2] 1); (1010, OpAdd [9] [91] 60); (1011, OpGet [9] 0)].
Example C01_hypotheses_met :
  allowed_history (empty_cache (init_elements 0 5)) example_history /\
  init_elements 0 5 + perm_adds example_history <= 32000.
Proof.
  split; [|vm_compute; discriminate].
  unfold example_history. cbn [allowed_history]. repeat split; try (vm_compute; reflexivity).
Qed.
Example C01_example_answers :
  exists h, hrun (fun _ => 7) (dwh_hash_init 0 5) example_history =
    Ok ([OutCode 1; OutCode 1; OutCode 1; OutCode 1; OutVal (Some [20]); OutCode 1; OutCode 1;
         OutVal None; OutVal (Some [20]); OutVal None; OutTtl (-1); OutTtl 59; OutCode 1; OutVal None; OutCode (-1); OutVal (Some [90])], h).
Proof.
  destruct (C01_small_cache_refines_spec (fun _ => 7) ltac:(intros; lia) 0 5 ltac:(lia) example_history) as (h & E).
  - apply C01_hypotheses_met.
  - apply C01_hypotheses_met.
  - exists h. rewrite E. vm_compute. reflexivity.
Qed.
Example C02_hypotheses_met :
  let mid := [(3, OpAdd [2] [20] 60); (4, OpGet [3] 0); (5, OpGet [2] 0); (6, OpZap [3])] in
  let hist := [(1, OpAdd [3] [30] 60)] ++ (2, OpAdd [1] [10] 60) :: mid ++ [(7, OpGet [1] 1)] in
  allowed_history (empty_cache (init_elements 0 4)) hist /\ leaves_alone [1] mid /\
  zlen (nodup (list_eq_dec Z.eq_dec) (touched mid)) + 1 + perm_adds hist < init_elements 0 4.
Proof. cbn zeta. split; [|split; [|vm_compute; reflexivity]]; cbn; repeat split; try lia; discriminate. Qed.
