(** What MaraDNS answers (server/MaraDNS.c), in terms of names: the search. *)
From Verif Require Import CBase Bits ModelDwStr SpecDwStr ProofDwStr SpecNames SpecMessage SpecAcl SpecDeadwoodMsg SpecQuery ModelJsStr SpecJsStr ProofJsStr ProofJsSearch
  ModelQueries SpecQueries ProofQueries ProofDwDnsStr ProofQuestion ProofHname ModelDecomp SpecDecomp ProofJsList ProofSqueeze ProofDecompList ModelMaraHash SpecMaraHash ProofMaraHash ModelServe SpecServe ProofServe ProofServeRun.

(** ** Looking up *)
Lemma get_held {V} add (h : mhash V) m cap s q : hwf add h -> rep h m -> held cap s q -> mhash_get add h s = Ok (match m (1, q) with Some (v, dt) => (Some v, dt) | None => (None, 0) end).
Proof.
  intros W R H. pose proof (hold_facts s q (proj1 H)) as [Ws S1 L C LM SM B SA U O _ _]. destruct (find_spot add h s W Ws U) as (i & c & E1 & E2 & E3). assert (kid_of s = (1, q)) as K by (unfold kid_of; rewrite S1, O; reflexivity).
  unfold mhash_get. rewrite SA. cbn [negb]. rewrite E1. cbn [bind]. rewrite E2. cbn [bind]. destruct E3 as [(-> & N)|(p & -> & KP & IP)]; cbn [bind].
  - rewrite K in N. apply (rep_none h m (1, q) R) in N. rewrite N. reflexivity.
  - assert (m (1, q) = Some (sp_value p, sp_type p)) as ->; [|reflexivity]. apply R. unfold ents. apply in_map_iff. exists p. split; [unfold ent; rewrite KP, K; reflexivity|exact IP].
Qed.
Lemma find_held {V} add (h : mhash V) m cap s q : hwf add h -> rep h m -> held cap s q -> find_rr add h s = Ok (records m q).
Proof. intros W R H. unfold find_rr, records. rewrite (get_held add h m cap s q W R H). cbn [bind]. destruct (m (1, q)) as [(v, dt)|]; [destruct (dt =? 3); reflexivity|reflexivity]. Qed.
Lemma list_held {V} add (h : mhash V) m cap s q : hwf add h -> rep h m -> held cap s q -> find_list add h s = Ok (named m q).
Proof. intros W R H. unfold find_list, named. rewrite (get_held add h m cap s q W R H). cbn [bind]. destruct (m (1, q)) as [(v, dt)|]; reflexivity. Qed.
Lemma tail_held cap s x q : held cap s (x :: q) -> 1 <= cap -> held (cap - 1) (mkjs (tl (j_mem s)) (j_size s) (j_count s - 1) (j_max s - 1) (j_enc s)) q.
Proof.
  intros H C1. destruct (held_mem cap s _ H) as (r & E & LR & C & BQ & BR & CQ & S1 & M & SA & SM). rewrite E, C, M. cbn [app tl]. rewrite zlen_cons in *. apply Forall_cons_iff in BQ as (_ & BQ). pose proof (zlen_nonneg q). pose proof (zlen_nonneg r). replace (zlen q + 1 - 1) with (zlen q) by lia.
  split; [|reflexivity]. split; [|split].
  - constructor; cbn [j_mem j_size j_count j_max j_enc]; rewrite ?S1; rewrite ?zlen_app; try lia. apply bytes_app. split; assumption.
  - exact S1.
  - unfold octets_of. cbn [j_mem j_size j_count]. rewrite S1, Z.mul_1_l, zslice_app_l, zslice_all by lia. reflexivity.
Qed.

Lemma ups_cons l n : ups (l :: n) = (l :: n) :: ups n. Proof. reflexivity. Qed.
Lemma ups_nil : ups [] = [[]]. Proof. reflexivity. Qed.
Lemma word_lit t : 0 <= t < 65536 -> word t. Proof. intros H. exact H. Qed.

Section Find.
Context {V : Type} (auth : V -> bool) (add : Z) (h : mhash V) (m : amap V) (c : conf) (J : Z -> Z) (raw : js) (rdv id : Z) (n : name) (t : Z) (capr : Z) (rest : list Z).
Hypothesis W : hwf add h.
Hypothesis R : rep h m.
Hypothesis HJ : junk_ok J.
Hypothesis GN : good_name n.
Hypothesis LN : zlen (wire n) <= 253.
Hypothesis WT : word t.
Hypothesis HR : held capr raw (num2 id ++ rest).
Hypothesis LR : 1 <= zlen rest.
Hypothesis WI : word id.
Hypothesis BR : bit rdv.
Hypothesis NN : n <> [].
Hypothesis NA : no_any m.
Notation q := (plain n t).

Lemma collision_ok cap s u t' : held cap s (star_of u t') -> zlen (star_of u t') < 256 -> star_collision add h J s = Ok (if named m (plain u T_ANY) then 1 else 0).
Proof.
  intros H L. pose proof (hold_facts s _ (proj1 H)) as [Ws S1 LQ C LM SM B SA U O _ _]. pose proof (zlen_wire_pos' u) as P. unfold star_collision. assert (js_length s = zlen (star_of u t')) as ->. { unfold js_length. rewrite SA, <- LQ. apply i32_small. lia. }
  rewrite zlen_star in *. replace (zlen (wire u) + 3 <? 2) with false by lia.
  destruct (create_held J 257 HJ ltac:(lia) ltac:(lia)) as (b & -> & HB). cbn [bind]. destruct (copy_held _ _ _ _ _ _ H HB ltac:(rewrite zlen_star; lia)) as (b' & -> & HB'). cbn [bind]. change (1 =? JS_ERROR) with false. cbv iota zeta.
  pose proof (tail_held _ _ _ _ HB' ltac:(lia)) as HT. change (wire u ++ num2 t') with (plain u t') in HT. destruct (change_plain _ _ _ _ 255 HT ltac:(apply word_lit; lia)) as (s' & -> & HS). cbn [bind]. change (1 =? JS_ERROR) with false. cbv iota.
  rewrite (list_held add h m _ _ _ W R HS). reflexivity.
Qed.

Lemma star_search_ok nx o : held 256 o q -> forall u k s ant, good_name u -> (length u < k)%nat -> held 256 s (star_of u t) -> zlen (star_of u t) < 256 -> (ant = 0 \/ ant = 4) ->
  exists r, star_search add h c J raw rdv k s o nx ant = Ok r /\
    match wild m c n t nx false (tl (ups u)) ant with inl x => r = inl (1, x) | inr a => exists s' y, r = inr (s', a) /\ held 256 s' y /\ (a = 0 \/ a = 4) end.
Proof.
  intros HO. induction u as [|l u IH]; intros k s ant G K H L A; destruct k as [|k]; try (cbn [length] in K; lia); cbn [star_search].
  - destruct (bobbit_star_root _ _ _ H ltac:(lia)) as (s' & -> & H'). cbn [bind]. change (0 <=? 0) with true. cbv iota. eexists. split; [reflexivity|]. cbn [ups tl wild]. eexists _, _. split; [reflexivity|]. split; [exact H'|exact A].
  - apply Forall_cons_iff in G as (GL & G). destruct (bobbit_star_held _ _ _ _ _ H GL L) as (s' & -> & H'). cbn [bind]. change (1 <=? 0) with false. cbv iota. rewrite zlen_star, zlen_wire_tl in L. pose proof (zlen_nonneg l).
    assert (zlen (star_of u t) < 256) as L' by (rewrite zlen_star; lia). cbn [length] in K. rewrite ups_cons. cbn [tl].
    assert (exists t0, (if 1 <=? c_star c then get_rtype s' else Ok 1) = Ok t0 /\ (1 <= c_star c -> t0 = t)) as (t0 & -> & ET). { destruct (1 <=? c_star c) eqn:G1; [|exists 1; split; [reflexivity|lia]]. exists t. rewrite (get_rtype_held _ _ _ H'), type_star by exact WT. split; reflexivity. }
    cbn [bind]. rewrite (find_held add h m _ _ _ W R H'). cbn [bind]. replace (ups u) with (u :: tl (ups u)) by (destruct u; reflexivity). cbn [wild]. destruct (records m (star_of u t)) as [v|] eqn:F.
    + eexists. split; [reflexivity|]. rewrite (oct_held _ _ _ HO). reflexivity.
    + cbv zeta. destruct (1 <=? c_star c) eqn:G1; cbn [andb].
      * rewrite ET by lia. destruct (change_star _ _ _ _ 255 H' ltac:(apply word_lit; lia)) as (s2 & -> & H2). cbn [bind]. change (1 =? JS_ERROR) with false. cbv iota. rewrite (list_held add h m _ _ _ W R H2). cbn [bind]. change 255 with T_ANY in *.
        assert (forall ant', (ant' = 0 \/ ant' = 4) -> exists r,
          (' (r, lookfor) <- change_rtype s2 t ;; if r =? JS_ERROR then o0 <- serv_fail c J raw rdv lookfor ;; Ok (inl o0) else star_search add h c J raw rdv k lookfor o nx ant') = Ok r /\
          match wild m c n t nx false (tl (ups u)) ant' with inl x => r = inl (1, x) | inr a => exists s' y, r = inr (s', a) /\ held 256 s' y /\ (a = 0 \/ a = 4) end) as NEXT.
        { intros ant' A'. destruct (change_star _ _ _ _ t H2 WT) as (s3 & -> & H3). cbn [bind]. change (1 =? JS_ERROR) with false. cbv iota. apply IH; try assumption. lia. }
        destruct (named m (star_of u T_ANY)) eqn:GA; cbn [negb orb].
        -- rewrite andb_false_r. cbn [bind]. change (0 =? -1) with false. change (0 =? 1) with false. cbv iota. apply NEXT. right. reflexivity.
        -- rewrite andb_true_r. destruct (c_star c =? 2); cbn [andb].
           ++ rewrite (collision_ok _ _ _ _ H2) by (rewrite zlen_star in *; lia). cbn [bind]. destruct (named m (plain u T_ANY)).
              ** change (1 =? -1) with false. change (1 =? 1) with true. cbv iota. eexists. split; [reflexivity|]. rewrite (oct_held _ _ _ HO). reflexivity.
              ** change (0 =? -1) with false. change (0 =? 1) with false. cbv iota. apply NEXT, A.
           ++ cbn [bind]. change (0 =? -1) with false. change (0 =? 1) with false. cbv iota. apply NEXT, A.
      * replace (c_star c =? 2) with false by lia. cbn [andb]. apply IH; try assumption. lia.
Qed.

Lemma cname_search_ok o : held 256 o q -> forall u k s, good_name u -> (length u < k)%nat -> held 256 s (star_of u T_CNAME) -> zlen (star_of u t) < 256 ->
  exists r, cname_search add h c J raw rdv k s o = Ok r /\
    match closest (fun s => records m (star_of s T_CNAME)) (if 1 <=? c_star c then [] else tl (ups u)) with Some v => r = inl (1, Star v q (plain n T_CNAME) 0) | None => exists s' y b, r = inr (s', b) /\ held 256 s' y end.
Proof.
  intros HO. induction u as [|l u IH]; intros k s G K H L; destruct k as [|k]; try (cbn [length] in K; lia); cbn [cname_search].
  - destruct (bobbit_star_root _ _ _ H ltac:(lia)) as (s' & -> & H'). cbn [bind]. change (0 <=? 0) with true. cbv iota. eexists. split; [reflexivity|]. cbn [ups tl]. destruct (1 <=? c_star c); cbn [closest]; eexists _, _, _; (split; [reflexivity|exact H']).
  - apply Forall_cons_iff in G as (GL & G). destruct (bobbit_star_held _ _ _ _ _ H GL ltac:(rewrite zlen_star in *; exact L)) as (s' & -> & H'). cbn [bind]. change (1 <=? 0) with false. cbv iota. rewrite zlen_star, zlen_wire_tl in L. pose proof (zlen_nonneg l).
    assert (zlen (star_of u t) < 256) as L' by (rewrite zlen_star; lia). cbn [length] in K. rewrite ups_cons. cbn [tl]. rewrite (find_held add h m _ _ _ W R H'). cbn [bind]. cbv zeta. replace (ups u) with (u :: tl (ups u)) by (destruct u; reflexivity).
    destruct (1 <=? c_star c) eqn:G1.
    + rewrite (get_rtype_held _ _ _ H'), type_star by (apply word_lit; unfold T_CNAME; lia). cbn [bind]. destruct (change_star _ _ _ _ 255 H' ltac:(apply word_lit; lia)) as (s2 & -> & H2). cbn [bind]. change (1 =? JS_ERROR) with false. cbv iota.
      rewrite (list_held add h m _ _ _ W R H2). cbn [bind]. rewrite (find_held add h m _ _ _ W R H2). cbn [bind]. change 255 with T_ANY in *. rewrite NA. destruct (named m (star_of u T_ANY)).
      * eexists. split; [reflexivity|]. cbn [closest]. eexists _, _, _. split; [reflexivity|exact H2].
      * destruct (change_star _ _ _ _ T_CNAME H2 ltac:(apply word_lit; unfold T_CNAME; lia)) as (s3 & -> & H3). cbn [bind]. change (1 =? JS_ERROR) with false. cbv iota. apply IH; try assumption. lia.
    + cbn [closest]. destruct (records m (star_of u T_CNAME)) as [v|].
      * destruct (copy_held _ _ _ _ _ _ HO H' ltac:(rewrite zlen_plain; lia)) as (s2 & -> & H2). cbn [bind]. change (1 =? JS_ERROR) with false. cbv iota. destruct (change_plain _ _ _ _ 5 H2 ltac:(apply word_lit; lia)) as (s3 & -> & H3). cbn [bind]. change (1 =? JS_ERROR) with false. cbv iota.
        eexists. split; [reflexivity|]. rewrite (oct_held _ _ _ HO), (oct_held _ _ _ H3). reflexivity.
      * apply IH; try assumption. lia.
Qed.

Lemma change_ending s u t1 t2 : held 256 s (ending u t1) -> word t2 -> exists s', change_rtype s t2 = Ok (1, s') /\ held 256 s' (ending u t2).
Proof.
  intros H X. unfold word in X. destruct (retype_held 256 s _ t2 H ltac:(rewrite zlen_ending; pose proof (zlen_nonneg (labels u)); lia) ltac:(lia)) as (s' & E & H'). exists s'. split; [exact E|]. unfold ending in H'. change (95 :: num2 t1) with ([95] ++ num2 t1) in H'. rewrite app_assoc, retype_app, <- app_assoc in H'. exact H'.
Qed.
Lemma type_ending u : l_type (ending u t) = t.
Proof. unfold ending. change (95 :: num2 t) with ([95] ++ num2 t). rewrite app_assoc. apply type_app; [rewrite zlen_app; change (zlen [95]) with 1; pose proof (zlen_nonneg (labels u)); lia|exact WT]. Qed.
Definition finish (o : js) (e : Z * outcome V + js * Z) : res (Z * outcome V) :=
  match e with
  | inl o => Ok o
  | inr (lookfor, ant) =>
      ' (r, lookfor) <- change_rtype lookfor 6 ;;
      if r =? JS_ERROR then Ok (JS_ERROR, Quiet)
      else v <- find_rr add h lookfor ;; Ok (match v with Some v => (JS_SUCCESS, Missing (Some v) (oct o) ant) | None => (JS_ERROR, Quiet) end)
  end.
Lemma end_search_ok o : held 256 o q -> forall u k s ant, good_name u -> (length u < k)%nat -> held 256 s (ending u t) -> zlen (labels u) <= 252 ->
  (e <- end_search add h c J raw rdv k s o ant ;; finish o e) = Ok (default_zone m n t (cuts (length u) u) ant).
Proof.
  intros HO. induction u as [|l u IH] using rev_ind; intros k s ant G K H L; destruct k as [|k]; try (rewrite ?app_length in K; cbn [length] in K; lia); cbn [end_search].
  - rewrite (end_root s t H). cbn [bind]. change (0 <=? 0) with true. cbv iota. cbn [bind finish]. destruct (change_ending s [] t 6 H ltac:(apply word_lit; lia)) as (s' & -> & H'). cbn [bind]. change (1 =? JS_ERROR) with false. cbv iota. rewrite (find_held add h m _ _ _ W R H'). cbn [bind length cuts default_zone]. rewrite (oct_held _ _ _ HO). change T_SOA with 6. destruct (records m (ending [] 6)); reflexivity.
  - destruct (end_ending s u l t H G L WT) as (s1 & -> & H1). cbn [bind]. rewrite zlen_app. change (zlen [l]) with 1. pose proof (zlen_nonneg u). replace (zlen u + 1 <=? 0) with false by lia.
    rewrite labels_snoc, zlen_app, zlen_cons in L. pose proof (zlen_nonneg l). apply Forall_app in G as (G & _). rewrite app_length, Nat.add_comm in K |- *. cbn [length Nat.add] in *. cbn [cuts]. rewrite removelast_snoc, zlen_app. change (zlen [l]) with 1. cbn [default_zone].
    destruct (120 <? zlen u + 1); [apply IH; try assumption; lia|].
    rewrite (find_held add h m _ _ _ W R H1). cbn [bind]. destruct (records m (ending u t)) as [v|].
    + cbn [bind finish]. rewrite (oct_held _ _ _ HO). reflexivity.
    + rewrite (get_rtype_held _ _ _ H1), type_ending. cbn [bind]. pose proof WT as WT'. unfold word in WT'. change JS_ERROR with (-1). replace (t =? -1) with false by lia. destruct (change_ending s1 u t 255 H1 ltac:(apply word_lit; lia)) as (s2 & -> & K2). cbn [bind]. change (1 =? -1) with false. cbv iota.
      rewrite (list_held add h m _ _ _ W R K2). cbn [bind]. destruct (change_ending s2 u 255 t K2 WT) as (s3 & -> & K3). cbn [bind]. change (1 =? -1) with false. cbv iota. apply IH; try assumption; lia.
Qed.

(** The zone found on the way up. *)
Definition have_of (zone : option (option V)) : bool := match zone with Some _ => true | None => false end.
Definition soa_of (zone : option (option V)) : option V := match zone with Some soa => soa | None => None end.
Lemma end_first k s o ant s' : bobbit_starlabel_end s = Ok (130, s') -> end_search add h c J raw rdv (S k) s o ant = end_search add h c J raw rdv k s' o ant.
Proof. intros E. cbn [end_search]. rewrite E. reflexivity. Qed.
Lemma after_stars_ok o s y zone ant : held 256 o q -> held 256 s y -> after_stars add h c J raw rdv s o (have_of zone) (soa_of zone) ant = Ok (last_resort m c id rdv n t zone ant).
Proof.
  intros HO H. unfold after_stars, last_resort. destruct (c_default c =? 1) eqn:D.
  - destruct (copy_held _ _ _ _ _ _ HO H ltac:(rewrite zlen_plain; lia)) as (s1 & -> & H1). cbn [bind fst snd]. change (1 =? JS_ERROR) with false. cbv iota zeta.
    assert (exists l n', n = l :: n') as (l & n' & EN) by (destruct n as [|l n']; [contradiction|exists l, n'; reflexivity]). 
    assert (exists s2, bobbit_starlabel_end s1 = Ok (130, s2) /\ held 256 s2 (ending n t)) as (s2 & EB & H2). { rewrite EN in *. apply end_plain; assumption. }
    rewrite (end_first 599 _ _ _ _ EB).
    assert (zlen (labels n) <= 252) as LL. { pose proof LN as X. rewrite wire_labels, zlen_app in X. change (zlen [0]) with 1 in X. lia. }
    pose proof (names_short n GN) as NS. pose proof (end_search_ok o HO n 599 s2 ant GN) as E. rewrite <- E; [reflexivity| |exact H2|exact LL]. unfold zlen in NS at 1. apply Nat2Z.inj_lt. change (Z.of_nat 599) with 599. lia.
  - unfold recursive_call, nothing. rewrite D. cbn [negb]. rewrite andb_true_r. destruct zone as [soa|]; cbn [have_of soa_of negb].
    + rewrite (oct_held _ _ _ HO). reflexivity.
    + rewrite (udperror_ok J capr raw id rest REFUSED rdv None None); [reflexivity|try assumption..|]; [exact Logic.I|right; unfold REFUSED; lia].
Qed.

Notation low := (lower_name n).
Lemma low_cons : exists l, good_label l /\ low = l :: tl low /\ good_name (tl low) /\ zlen (wire (tl low)) <= 251 /\ (length (tl low) < 299)%nat.
Proof.
  pose proof (good_lower n GN) as G. pose proof (zlen_lower_wire n) as LL. destruct n as [|x u]; [contradiction|]. exists (lower_label x). cbn [lower_name map tl] in *. fold (lower_name u) in *. apply Forall_cons_iff in G as (GL & G). split; [exact GL|]. split; [reflexivity|]. split; [exact G|]. rewrite zlen_wire_tl in LL. destruct GL as (GL & _). pose proof LN as X. split; [lia|].
  pose proof (names_short _ G) as NS. rewrite wire_labels, zlen_app in LL. change (zlen [0]) with 1 in LL. unfold zlen in NS at 1. apply Nat2Z.inj_lt. change (Z.of_nat 299) with 299. lia.
Qed.
Lemma ups_split u : ups u = u :: tl (ups u). Proof. destruct u; reflexivity. Qed.

Lemma star_cname_ok o s y zone ant : held 256 o q -> held 256 s y ->
  star_cname add h c J raw rdv s o (have_of zone) (soa_of zone) ant = Ok (match wild_cname m c n with Some v => (1, Star v q (plain n T_CNAME) 0) | None => last_resort m c id rdv n t zone ant end).
Proof.
  intros HO H. unfold star_cname, wild_cname. destruct (7 <? c_dos c); [exact (after_stars_ok o s y zone ant HO H)|].
  destruct (copy_held _ _ _ _ _ _ HO H ltac:(rewrite zlen_plain; lia)) as (s1 & -> & H1). cbn [bind fst snd]. change (1 =? JS_ERROR) with false. cbv iota zeta.
  destruct (fold_held _ _ _ _ H1 GN ltac:(rewrite zlen_plain; lia)) as (r2 & s2 & -> & NR & H2). cbn [bind fst snd]. change JS_ERROR with (-1). rewrite NR. cbv iota zeta.
  destruct low_cons as (l & GL & EL & GT & LT & KT). rewrite EL in H2. destruct (make_star_held _ _ _ _ _ H2 GL ltac:(rewrite <- EL, zlen_plain, zlen_lower_wire; lia)) as (s3 & -> & H3). cbn [bind fst snd]. change (1 =? -1) with false. cbv iota zeta.
  destruct (change_star _ _ _ _ 5 H3 ltac:(apply word_lit; lia)) as (s4 & -> & H4). cbn [bind fst snd]. change (1 =? -1) with false. cbv iota zeta. change 5 with T_CNAME in *. rewrite (find_held add h m _ _ _ W R H4). cbn [bind].
  assert (closest (fun s => records m (star_of s T_CNAME)) (if 1 <=? c_star c then [tl low] else ups (tl low)) =
    match records m (star_of (tl low) T_CNAME) with Some v => Some v | None => closest (fun s => records m (star_of s T_CNAME)) (if 1 <=? c_star c then [] else tl (ups (tl low))) end) as ->.
  { destruct (1 <=? c_star c); [reflexivity|]. rewrite (ups_split (tl low)) at 1. reflexivity. }
  destruct (records m (star_of (tl low) T_CNAME)) as [v|].
  - destruct (copy_held _ _ _ _ _ _ HO H4 ltac:(rewrite zlen_plain; lia)) as (s5 & -> & H5). cbn [bind fst snd]. change (1 =? -1) with false. cbv iota zeta. destruct (change_plain _ _ _ _ T_CNAME H5 ltac:(apply word_lit; unfold T_CNAME; lia)) as (s6 & -> & H6). cbn [bind fst snd]. change (1 =? -1) with false. cbv iota zeta.
    rewrite (oct_held _ _ _ HO), (oct_held _ _ _ H6). reflexivity.
  - destruct (cname_search_ok o HO (tl low) 300 s4 GT ltac:(lia) H4 ltac:(rewrite zlen_star; lia)) as (r & -> & X). cbn [bind]. destruct (closest _ _) as [v|].
    + rewrite X. reflexivity.
    + destruct X as (s' & y' & b & -> & H'). exact (after_stars_ok o s' y' zone ant HO H').
Qed.
Lemma stars_from_ok o s y zone : held 256 o q -> held 256 s y ->
  stars_from add h c J raw rdv s o (have_of zone) (soa_of zone) = Ok (match wild m c n t (soa_of zone) true (ups (tl low)) 0 with
    | inl o => (1, o)
    | inr there => match wild_cname m c n with Some v => (1, Star v q (plain n T_CNAME) 0) | None => last_resort m c id rdv n t zone there end
    end).
Proof.
  intros HO H. unfold stars_from.
  destruct (copy_held _ _ _ _ _ _ HO H ltac:(rewrite zlen_plain; lia)) as (s1 & -> & H1). cbn [bind fst snd]. change (1 =? JS_ERROR) with false. cbv iota zeta.
  destruct (fold_held _ _ _ _ H1 GN ltac:(rewrite zlen_plain; lia)) as (r2 & s2 & -> & NR & H2). cbn [bind fst snd]. change JS_ERROR with (-1). rewrite NR. cbv iota zeta.
  destruct low_cons as (l & GL & EL & GT & LT & KT). rewrite EL in H2. destruct (make_star_held _ _ _ _ _ H2 GL ltac:(rewrite <- EL, zlen_plain, zlen_lower_wire; lia)) as (s3 & -> & H3). cbn [bind fst snd]. change (1 =? -1) with false. cbv iota zeta.
  rewrite (find_held add h m _ _ _ W R H3). cbn [bind]. rewrite (ups_split (tl low)). cbn [wild]. set (u := tl low) in *. destruct (records m (star_of u t)) as [v|]; [rewrite (oct_held _ _ _ HO); reflexivity|]. cbv zeta. cbn [orb]. rewrite andb_true_r.
  assert (zlen (star_of u t) < 256) as LS by (rewrite zlen_star; lia).
  assert (forall ss ant, held 256 ss (star_of u t) -> (ant = 0 \/ ant = 4) ->
    (k <- (if c_star c =? 2 then star_collision add h J ss else Ok 0) ;;
     if k =? -1 then serv_fail c J raw rdv ss else if k =? 1 then Ok (JS_SUCCESS, Missing (soa_of zone) (oct o) ant)
     else e <- star_search add h c J raw rdv 300 ss o (soa_of zone) ant ;; match e with inl o => Ok o | inr (lookfor, ant) => star_cname add h c J raw rdv lookfor o (have_of zone) (soa_of zone) ant end) =
    Ok (match (if (c_star c =? 2) && named m (plain u T_ANY) then inl (Missing (soa_of zone) q ant) else wild m c n t (soa_of zone) false (tl (ups u)) ant) with
        | inl o => (1, o)
        | inr there => match wild_cname m c n with Some v => (1, Star v q (plain n T_CNAME) 0) | None => last_resort m c id rdv n t zone there end
        end)) as NEXT.
  { intros ss ant HS A. assert (exists b : bool, (if c_star c =? 2 then star_collision add h J ss else Ok 0) = Ok (if b then 1 else 0) /\ (c_star c =? 2) && named m (plain u T_ANY) = b) as (b & -> & ->).
    { destruct (c_star c =? 2); cbn [andb]; [rewrite (collision_ok _ _ _ _ HS LS); eexists; split; reflexivity|exists false; split; reflexivity]. }
    cbn [bind]. destruct b; [change (1 =? -1) with false; change (1 =? 1) with true; cbv iota; rewrite (oct_held _ _ _ HO); reflexivity|]. change (0 =? -1) with false. change (0 =? 1) with false. cbv iota.
    destruct (star_search_ok (soa_of zone) o HO u 300 ss ant GT ltac:(lia) HS LS A) as (r & -> & X). cbn [bind]. destruct (wild m c n t (soa_of zone) false (tl (ups u)) ant) as [x|a].
    - rewrite X. reflexivity.
    - destruct X as (s' & y' & -> & H' & _). apply (star_cname_ok o s' y'); assumption. }
  destruct (1 <=? c_star c) eqn:G1; cbn [andb].
  - rewrite (get_rtype_held _ _ _ H3), type_star by exact WT. cbn [bind]. destruct (change_star _ _ _ _ 255 H3 ltac:(apply word_lit; lia)) as (s4 & -> & H4). cbn [bind fst snd]. change (1 =? -1) with false. cbv iota zeta. rewrite (list_held add h m _ _ _ W R H4). cbn [bind].
    destruct (change_star _ _ _ _ t H4 WT) as (s5 & -> & H5). cbn [bind fst snd]. change (1 =? -1) with false. cbv iota zeta. apply NEXT; [exact H5|]. change 255 with T_ANY. destruct (named m (star_of u T_ANY)); lia.
  - apply NEXT; [exact H3|left; reflexivity].
Qed.
Lemma stars_ok o s y zone : held 256 o q -> held 256 s y -> stars add h c J raw rdv s o (have_of zone) (soa_of zone) = Ok (wildcards m c id rdv n t zone).
Proof.
  intros HO H. unfold stars, wildcards. cbv zeta. fold (soa_of zone). destruct (17 <? c_dos c); [exact (after_stars_ok o s y zone 0 HO H)|]. destruct (1 <=? c_star c); cbn [andb]; [|apply (stars_from_ok o s y); assumption].
  destruct (copy_held _ _ _ _ _ _ HO H ltac:(rewrite zlen_plain; lia)) as (s1 & -> & H1). cbn [bind fst snd]. change (1 =? JS_ERROR) with false. cbv iota zeta.
  destruct (fold_held _ _ _ _ H1 GN ltac:(rewrite zlen_plain; lia)) as (r2 & s2 & -> & NR & H2). cbn [bind fst snd]. change JS_ERROR with (-1). rewrite NR. cbv iota zeta.
  destruct (change_plain _ _ _ _ 255 H2 ltac:(apply word_lit; lia)) as (s3 & -> & H3). cbn [bind fst snd]. change (1 =? -1) with false. cbv iota zeta. rewrite (list_held add h m _ _ _ W R H3). cbn [bind]. change 255 with T_ANY.
  destruct (named m (plain low T_ANY)); [exact (after_stars_ok o s3 _ zone 4 HO H3)|]. apply (stars_from_ok o s3 _ zone HO H3).
Qed.

Lemma ns_search_ok o : held 256 o q -> forall u k s, good_name u -> (length u < k)%nat -> held 256 s (plain u T_NS) -> zlen (plain u T_NS) < 256 ->
  exists r, ns_search auth add h c J raw rdv k s o = Ok r /\
    match closest (fun s => option_map (fun v => (v, s)) (records m (plain s T_NS))) (ups u) with
    | Some (v, z) => if auth v then exists s' y, r = inr (s', true, records m (plain z T_SOA)) /\ held 256 s' y else r = inl (1, Refer v q)
    | None => exists s' y, r = inr (s', false, None) /\ held 256 s' y
    end.
Proof.
  intros HO. induction u as [|l u IH]; intros k s G K H L; destruct k as [|k]; try (cbn [length] in K; lia); cbn [ns_search]; rewrite (find_held add h m _ _ _ W R H); cbn [bind]; rewrite ups_split; cbn [closest].
  - destruct (records m (plain [] T_NS)) as [v|]; cbn [option_map].
    + destruct (auth v); [|eexists; split; [reflexivity|]; rewrite (oct_held _ _ _ HO); reflexivity]. destruct (change_plain _ _ _ _ 6 H ltac:(apply word_lit; lia)) as (s1 & -> & H1). cbn [bind]. change (1 =? JS_ERROR) with false. cbv iota. rewrite (find_held add h m _ _ _ W R H1). cbn [bind]. eexists. split; [reflexivity|]. eexists _, _. split; [reflexivity|exact H1].
    + destruct (bobbit_root _ _ _ H ltac:(lia)) as (s1 & -> & H1). cbn [bind]. change (0 <? 0) with false. cbv iota. eexists. split; [reflexivity|]. cbn [ups tl closest]. eexists _, _. split; [reflexivity|exact H1].
  - destruct (records m (plain (l :: u) T_NS)) as [v|]; cbn [option_map].
    + destruct (auth v); [|eexists; split; [reflexivity|]; rewrite (oct_held _ _ _ HO); reflexivity]. destruct (change_plain _ _ _ _ 6 H ltac:(apply word_lit; lia)) as (s1 & -> & H1). cbn [bind]. change (1 =? JS_ERROR) with false. cbv iota. rewrite (find_held add h m _ _ _ W R H1). cbn [bind]. eexists. split; [reflexivity|]. eexists _, _. split; [reflexivity|exact H1].
    + apply Forall_cons_iff in G as (GL & G). destruct (bobbit_held _ _ _ _ _ H GL L) as (s1 & -> & H1). cbn [bind]. change (0 <? 1) with true. cbv iota. rewrite ups_cons. cbn [tl]. cbn [length] in K. apply IH; try assumption; [lia|]. rewrite zlen_plain, zlen_wire_tl in L. rewrite zlen_plain. pose proof (zlen_nonneg l). lia.
Qed.

(** ** Names that are addresses *)
Lemma not_quad o : held 256 o q -> (t <> 1 /\ t <> 255) \/ quad n = None -> ddip_check J o id = Ok (0, None).
Proof.
  intros HO X. destruct (held_mem _ _ _ HO) as (r & E & LE & C & BQ & BQ2 & CQ & S1 & M & SA & SM). unfold ddip_check. rewrite S1, M. cbn [Z.eqb Pos.eqb negb]. rewrite zlen_plain in *. replace (256 <=? j_count o) with false by lia.
  rewrite (get_rtype_held _ _ _ HO), type_plain by exact WT. cbn [bind]. destruct (negb (t =? 1) && negb (t =? 255)) eqn:GT; [reflexivity|]. destruct X as [X|X]; [exfalso; lia|]. destruct (j_count o <? 9); [reflexivity|].
  unfold plain in E. rewrite <- app_assoc in E. pose proof (ddip_labels_ok o 4 n [] (num2 t ++ r) [] E ltac:(cbn [app]; lia) GN) as D. rewrite quad_quads in X. change (zlen (@nil Z)) with 0 in D. destruct (quads 4 n) as [(vs, w)|]; [|rewrite D; reflexivity].
  destruct D as (p & -> & D2 & _ & _ & GW). cbn [bind]. rewrite D2. cbn [bind]. destruct w as [|l w]; [discriminate X|]. apply Forall_cons_iff in GW as ((GL & _) & _). replace (negb (zlen l =? 0)) with true by lia. reflexivity.
Qed.
Lemma quad_short ip : quad n = Some ip -> zlen (wire n) <= 17.
Proof.
  assert (forall l v, number l = Some v -> zlen l <= 3) as X. { intros l v. unfold number. destruct (zlen l <=? 3) eqn:G; cbn [andb]; [lia|discriminate]. }
  destruct n as [|a [|b [|d [|e [|f u]]]]]; cbn [quad]; try (intros Q; discriminate Q). destruct (number a) eqn:A, (number b) eqn:B, (number d) eqn:D, (number e) eqn:E; try (intros Q; discriminate Q). intros _. rewrite !zlen_wire_tl. change (zlen (wire [])) with 1. apply X in A, B, D, E. lia.
Qed.
Lemma is_quad o ip : held 256 o q -> t = 1 \/ t = 255 -> quad n = Some ip -> 0 < id < 65535 -> ddip_check J o id = Ok (1, Some (quad_reply id n t ip)).
Proof.
  intros HO HT X ID. pose proof (quad_short ip X) as QS. destruct (held_mem _ _ _ HO) as (r & E & LE & C & BQ & BQ2 & CQ & S1 & M & SA & SM). unfold ddip_check. rewrite S1, M. cbn [Z.eqb Pos.eqb negb]. rewrite zlen_plain in *. replace (256 <=? j_count o) with false by lia.
  rewrite (get_rtype_held _ _ _ HO), type_plain by exact WT. cbn [bind]. replace (negb (t =? 1) && negb (t =? 255)) with false by lia.
  assert (9 <= j_count o) as C9. { rewrite C. revert X. clear - GN. destruct n as [|a [|b [|d [|e [|f u]]]]]; cbn [quad]; try (intros X; discriminate X). intros _. rewrite !zlen_wire_tl. inversion_clear GN as [|? ? (? & _) GN1]. inversion_clear GN1 as [|? ? (? & _) GN2]. inversion_clear GN2 as [|? ? (? & _) GN3]. change (zlen (wire [])) with 1. pose proof (zlen_nonneg e). lia. }
  replace (j_count o <? 9) with false by lia. pose proof E as E'. unfold plain in E. rewrite <- app_assoc in E. pose proof (ddip_labels_ok o 4 n [] (num2 t ++ r) [] E ltac:(cbn [app]; lia) GN) as D. rewrite quad_quads in X. change (zlen (@nil Z)) with 0 in D. destruct (quads 4 n) as [(vs, w)|]; [|discriminate X].
  destruct w as [|l w]; [|discriminate X]. injection X as ->. destruct D as (p & -> & D2 & BV & LV & _). cbn [bind]. rewrite D2. cbn [bind]. change (negb (0 =? 0)) with false. cbv iota. change (Z.of_nat 4) with 4 in LV.
  unfold ddip_reply. replace (negb ((0 <? id) && (id <? 65535))) with false by lia.
  destruct (made_header J 512 (mkqh id 1 0 0 0 0 0 0 0 1 1 0 0) HJ ltac:(lia) ltac:(lia)) as (s & s' & -> & EH & HH). cbn [bind]. rewrite EH. cbn [bind fst snd]. change (1 =? JS_ERROR) with false. cbv iota zeta.
  rewrite reply_octets in HH; try assumption; try (left; reflexivity); try (apply word_lit; lia); try lia. cbn [app]. unfold quad_reply. set (hb := reply_header id 0 0 0 0 1 1) in *. assert (zlen hb = 12) as LB by reflexivity. clearbody hb. clear D2 EH E E'.
  destruct (append_held _ _ _ _ _ _ HO HH ltac:(rewrite zlen_plain; lia)) as (s2 & -> & H2). cbn [bind fst snd]. change (0 =? JS_ERROR) with false. cbv iota zeta.
  destruct (word_held' _ _ _ 1 H2 ltac:(apply word_lit; lia) ltac:(rewrite zlen_app, zlen_plain; lia)) as (r3 & s3 & -> & N3 & H3). cbn [bind fst snd]. change JS_ERROR with (-1). rewrite N3. cbv iota zeta.
  destruct (change_plain _ _ _ _ 1 HO ltac:(apply word_lit; lia)) as (o2 & -> & HO2). cbn [bind fst snd]. change (1 =? -1) with false. cbv iota zeta.
  destruct (append_held _ _ _ _ _ _ HO2 H3 ltac:(rewrite !zlen_app, !zlen_plain; change (zlen (num2 1)) with 2; lia)) as (s4 & -> & H4). cbn [bind fst snd]. change (0 =? -1) with false. cbv iota zeta.
  destruct (word_held' _ _ _ 1 H4 ltac:(apply word_lit; lia) ltac:(rewrite !zlen_app, !zlen_plain; change (zlen (num2 1)) with 2; lia)) as (r5 & s5 & -> & N5 & H5). cbn [bind fst snd]. rewrite N5. cbv iota zeta.
  destruct (dword_held _ _ _ 19770616 H5 ltac:(lia) ltac:(rewrite !zlen_app, !zlen_plain; change (zlen (num2 1)) with 2; lia)) as (r6 & s6 & -> & N6 & H6). cbn [bind fst snd]. rewrite N6. cbv iota zeta. change (be 4 19770616) with [1; 45; 172; 248] in H6.
  destruct (word_held' _ _ _ 4 H6 ltac:(apply word_lit; lia) ltac:(rewrite !zlen_app, !zlen_plain; change (zlen (num2 1)) with 2; change (zlen [1; 45; 172; 248]) with 4; lia)) as (r7 & s7 & -> & N7 & H7). cbn [bind fst snd]. rewrite N7. cbv iota zeta.
  destruct (octets_held _ ip _ _ H7 BV ltac:(rewrite !zlen_app, !zlen_plain; change (zlen (num2 1)) with 2; change (zlen (num2 4)) with 2; change (zlen [1; 45; 172; 248]) with 4; lia)) as (s8 & -> & H8). cbn [bind]. rewrite (oct_held _ _ _ H8), <- !app_assoc. reflexivity.
Qed.
Lemma bad_quad o ip : held 256 o q -> t = 1 \/ t = 255 -> quad n = Some ip -> ~ (0 < id < 65535) -> ddip_check J o id = Ok (-1, None).
Proof.
  intros HO HT X ID. destruct (held_mem _ _ _ HO) as (r & E & LE & C & BQ & BQ2 & CQ & S1 & M & SA & SM). unfold ddip_check. rewrite S1, M. cbn [Z.eqb Pos.eqb negb]. rewrite zlen_plain in *. replace (256 <=? j_count o) with false by lia.
  rewrite (get_rtype_held _ _ _ HO), type_plain by exact WT. cbn [bind]. replace (negb (t =? 1) && negb (t =? 255)) with false by lia.
  assert (9 <= j_count o) as C9. { rewrite C. revert X. clear - GN. destruct n as [|a [|b [|d [|e [|f u]]]]]; cbn [quad]; try (intros X; discriminate X). intros _. rewrite !zlen_wire_tl. inversion_clear GN as [|? ? (? & _) GN1]. inversion_clear GN1 as [|? ? (? & _) GN2]. inversion_clear GN2 as [|? ? (? & _) GN3]. change (zlen (wire [])) with 1. pose proof (zlen_nonneg e). lia. }
  replace (j_count o <? 9) with false by lia. pose proof E as E'. unfold plain in E. rewrite <- app_assoc in E. pose proof (ddip_labels_ok o 4 n [] (num2 t ++ r) [] E ltac:(cbn [app]; lia) GN) as D. rewrite quad_quads in X. change (zlen (@nil Z)) with 0 in D. destruct (quads 4 n) as [(vs, w)|]; [|discriminate X].
  destruct w as [|l w]; [|discriminate X]. injection X as ->. destruct D as (p & -> & D2 & BV & LV & _). cbn [bind]. rewrite D2. cbn [bind]. change (negb (0 =? 0)) with false. cbv iota. change (Z.of_nat 4) with 4 in LV.
  unfold ddip_reply. destruct (create_held J 512 HJ ltac:(lia) ltac:(lia)) as (s & -> & _). cbn [bind]. replace (negb ((0 <? id) && (id <? 65535))) with true by lia. reflexivity.
Qed.
(** ** All records with a name (RFC 8482) *)
Lemma any_hinfo_ok o : t = 255 -> held 256 o q -> any_hinfo J o id rdv = Ok (Some (any_reply id rdv n)).
Proof.
  intros HT HO. unfold any_hinfo. destruct (made_header J 1024 (mkqh id 1 0 1 0 rdv 0 0 0 1 1 0 0) HJ ltac:(lia) ltac:(lia)) as (s & s' & -> & EH & HH). cbn [bind]. rewrite EH. cbn [bind fst snd]. change (1 =? JS_ERROR) with false. cbv iota zeta.
  rewrite reply_octets in HH; try assumption; try (left; reflexivity); try (right; reflexivity); try (apply word_lit; lia); try lia. unfold any_reply. set (hb := reply_header id 1 0 rdv 0 1 1) in *. assert (zlen hb = 12) as LB by reflexivity. clearbody hb.
  destruct (append_held _ _ _ _ _ _ HO HH ltac:(rewrite zlen_plain; lia)) as (s2 & -> & H2). cbn [bind fst snd]. change (0 =? JS_ERROR) with false. cbv iota zeta.
  destruct (words_held _ [1; 49164; 13; 1; 0; 3600; 9; 1874; 17987; 14388; 14386] _ _ H2 ltac:(repeat (constructor; [apply word_lit; lia|]); constructor) ltac:(rewrite zlen_app, zlen_plain; change (zlen [1; 49164; 13; 1; 0; 3600; 9; 1874; 17987; 14388; 14386]) with 11; lia)) as (s3 & -> & H3). cbn [bind].
  destruct (byte_held _ _ _ 0 H3 ltac:(lia) ltac:(rewrite !zlen_app, zlen_plain; change (zlen (concat (map num2 [1; 49164; 13; 1; 0; 3600; 9; 1874; 17987; 14388; 14386]))) with 22; lia)) as (r4 & s4 & -> & N4 & H4). cbn [bind fst snd]. change JS_ERROR with (-1). rewrite N4. cbv iota zeta.
  rewrite (oct_held _ _ _ H4), <- !app_assoc. rewrite HT. reflexivity.
Qed.

(** ** The search as a whole *)
Lemma sent_send o : @sent V o = send o. Proof. reflexivity. Qed.
Lemma failed cq lookfor x e tc : held cq lookfor x -> ((e = 2 \/ e = 4) /\ tc = 0) \/ (e = 0 /\ tc = 1) ->
  (if c_nofp c =? 1 then Ok (JS_ERROR, Quiet) else o <- udperror J raw (Some lookfor) (if tc =? 1 then TRUNCATED else e) rdv ;; Ok (JS_ERROR, @sent V o)) = Ok (failure c id rdv e tc x).
Proof.
  intros H E. unfold failure. destruct (c_nofp c =? 1); [reflexivity|]. assert (exists cq, held cq lookfor x) as HX by (exists cq; exact H).
  destruct E as [(E & ->)|(-> & ->)].
  - change (if 0 =? 1 then TRUNCATED else e) with e. rewrite (udperror_ok J capr raw id rest e rdv (Some lookfor) (Some x)); try assumption; [|lia]. replace (e =? -111) with false by lia. reflexivity.
  - change (if 1 =? 1 then TRUNCATED else 0) with (-111). rewrite (udperror_ok J capr raw id rest (-111) rdv (Some lookfor) (Some x)); try assumption; [|lia]. reflexivity.
Qed.
Lemma serv_fail_ok cq lookfor x : held cq lookfor x -> serv_fail c J raw rdv lookfor = Ok (@failure V c id rdv 2 0 x).
Proof. intros H. apply (failed cq lookfor x 2 0 H). left. split; [left; reflexivity|reflexivity]. Qed.

Lemma few : (length n < 300)%nat.
Proof. pose proof (names_short n GN) as NS. pose proof LN as X. rewrite wire_labels, zlen_app in X. change (zlen [0]) with 1 in X. unfold zlen at 1 in NS. lia. Qed.
Lemma delegation_ok o s ty : held 256 o q -> held 256 s (plain low ty) -> delegation auth add h c J raw rdv id s o = Ok (up_the_tree auth m c id rdv n t).
Proof.
  intros HO H. unfold delegation, up_the_tree. destruct (11 <? c_dos c); [exact (stars_ok o s _ None HO H)|].
  destruct (change_plain _ _ _ _ 2 H ltac:(apply word_lit; lia)) as (s1 & -> & H1). cbn [bind fst snd]. change (1 =? JS_ERROR) with false. cbv iota zeta. rewrite (find_held add h m _ _ _ W R H1). cbn [bind]. change 2 with T_NS.
  match goal with |- match _ with Some v => if auth v then ?X else _ | None => _ end = _ => assert (X = Ok (no_delegation auth m c id rdv n t)) as NX end.
  { unfold no_delegation, address.
    assert ((if c_nofp c =? 1 then Ok (0, None) else ddip_check J o id) = Ok (match (if negb (c_nofp c =? 1) && ((t =? T_A) || (t =? T_ANY)) then quad n else None) with Some ip => if (0 <? id) && (id <? 65535) then (1, Some (quad_reply id n t ip)) else (-1, None) | None => (0, None) end)) as ->.
    { destruct (c_nofp c =? 1); cbn [negb andb]; [reflexivity|]. change T_A with 1. change T_ANY with 255. destruct ((t =? 1) || (t =? 255)) eqn:GT; [|apply not_quad; [exact HO|left; lia]].
      destruct (quad n) as [ip|] eqn:GQ; [|apply not_quad; [exact HO|right; exact GQ]]. destruct ((0 <? id) && (id <? 65535)) eqn:GI; [apply is_quad; try assumption; lia|]. apply (bad_quad o ip); try assumption; lia. }
    cbn [bind]. destruct (if negb (c_nofp c =? 1) && ((t =? T_A) || (t =? T_ANY)) then quad n else None) as [ip|].
    - destruct ((0 <? id) && (id <? 65535)); [reflexivity|]. change (-1 =? JS_SUCCESS) with false. change (-1 =? JS_ERROR) with true. cbv iota. exact (serv_fail_ok _ _ _ H1).
    - change (0 =? JS_SUCCESS) with false. change (0 =? JS_ERROR) with false. cbv iota. unfold below_zone, closest_servers. replace (negb (rdv =? 1) || negb (c_recdel c =? 1)) with (negb ((rdv =? 1) && (c_recdel c =? 1))) by (destruct (rdv =? 1), (c_recdel c =? 1); reflexivity).
      destruct ((rdv =? 1) && (c_recdel c =? 1)); cbn [negb]; [exact (stars_ok o s1 _ None HO H1)|].
      destruct (ns_search_ok o HO low 300 s1 ltac:(apply good_lower; exact GN) ltac:(unfold lower_name; rewrite map_length; exact few) H1 ltac:(rewrite zlen_plain, zlen_lower_wire; lia)) as (r & -> & X). cbn [bind].
      destruct (closest _ (ups low)) as [(v, z)|].
      + destruct (auth v); [|rewrite X; reflexivity]. destruct X as (s' & y & -> & H'). exact (stars_ok o s' y (Some (records m (plain z T_SOA))) HO H').
      + destruct X as (s' & y & -> & H'). exact (stars_ok o s' y None HO H'). }
  rewrite NX. destruct (records m (plain low T_NS)) as [v|]; [|reflexivity]. destruct (auth v); [reflexivity|]. rewrite (oct_held _ _ _ HO). reflexivity.
Qed.

Lemma reports_ok o s ty : no_reports c n t -> held 256 o q -> held 256 s (plain low ty) -> reports auth add h c J raw rdv id s o false = Ok (up_the_tree auth m c id rdv n t).
Proof.
  intros (N79 & NR) HO H. unfold reports. cbn [negb andb]. destruct (0 <? c_dos c) eqn:G; cbn [orb]; [apply (delegation_ok o s ty); assumption|]. destruct (c_admin c) eqn:GA; cbn [negb]; [|apply (delegation_ok o s ty); assumption].
  specialize (NR ltac:(lia) eq_refl) as (N1 & N2). cbv zeta. rewrite (oct_held _ _ _ HO), N1, N2. change (0 =? JS_SUCCESS) with false. change (0 =? JS_ERROR) with false. cbv iota. replace (c_dos c =? 79) with false by lia. cbn [andb]. apply (delegation_ok o s ty); assumption.
Qed.
Lemma exact_ok o s : no_reports c n t -> held 256 o q -> held 256 s (plain low t) -> exact auth add h c J raw rdv id s o = Ok (respond auth m c id rdv n t).
Proof.
  intros NR HO H. unfold exact, respond, hunt_single_query. pose proof WT as WT'. unfold word in WT'. rewrite (get_rtype_held _ _ _ HO), type_plain by exact WT. cbn [bind]. rewrite (get_rtype_held _ _ _ H), type_plain by exact WT. cbn [bind]. change JS_ERROR with (-1). replace ((t =? -1) || (t =? -1)) with false by lia. cbv iota.
  rewrite (find_held add h m _ _ _ W R H). cbn [bind]. destruct (records m (plain low t)) as [v|]; [rewrite (oct_held _ _ _ HO); reflexivity|]. destruct (7 <? c_dos c); [apply (reports_ok o s t); assumption|].
  destruct (change_plain _ _ _ _ 5 H ltac:(apply word_lit; lia)) as (s1 & -> & H1). cbn [bind fst snd]. change (1 =? -1) with false. cbv iota zeta. rewrite (get_rtype_held _ _ _ H1), type_plain by (apply word_lit; lia). cbn [bind]. replace ((t =? -1) || (5 =? -1)) with false by lia. rewrite (find_held add h m _ _ _ W R H1). cbn [bind]. change 5 with T_CNAME at 1.
  change (records m (plain low 5)) with (records m (plain low T_CNAME)). destruct (records m (plain low T_CNAME)) as [v|]; [|apply (reports_ok o s1 5); assumption]. rewrite (oct_held _ _ _ HO). change (5 =? 5) with true. rewrite orb_true_r. reflexivity.
Qed.
Lemma with_question_ok o y s : no_reports c n t -> held 256 o y -> held 256 s q -> with_question auth add h c J raw rdv id s o = Ok (decision auth m c id rdv n t).
Proof.
  intros NR HO H. unfold with_question, decision. pose proof WT as WT'. unfold word in WT'. destruct (copy_held _ _ _ _ _ _ H HO ltac:(rewrite zlen_plain; lia)) as (o1 & -> & HO1). cbn [bind]. change (1 =? JS_ERROR) with false. cbv iota.
  destruct (fold_held _ _ _ _ H GN ltac:(rewrite zlen_plain; lia)) as (r2 & s2 & -> & N2 & H2). cbn [bind]. rewrite (get_rtype_held _ _ _ HO1), type_plain by exact WT. cbn [bind]. cbv zeta. change JS_ERROR with (-1). replace (t =? -1) with false by lia. rewrite (oct_held _ _ _ HO1), (oct_held _ _ _ H2).
  destruct ((t =? 28) && negb (c_raaaa c =? 0)); cbn [orb]; [reflexivity|]. destruct ((t =? 12) && negb (c_rptr c =? 0)); [reflexivity|].
  replace ((t =? 253) || (t =? 254) || (t =? 250)) with ((t =? 250) || (t =? 253) || (t =? 254)) by lia. destruct ((t =? 250) || (t =? 253) || (t =? 254)); [apply (failed _ _ _ 4 0 H2); left; split; [right; reflexivity|reflexivity]|].
  destruct ((t =? 251) || (t =? 252)); [apply (failed _ _ _ 0 1 H2); right; split; reflexivity|].
  destruct (c_dos c =? 78); [|].
  - unfold recursive_call. cbn [negb andb]. destruct (c_default c =? 1); cbn [negb]; [rewrite (oct_held _ _ _ HO1); reflexivity|]. unfold nothing. change REFUSED with 5. rewrite (udperror_ok J capr raw id rest 5 rdv None None); try assumption; [reflexivity|exact Logic.I|right; lia].
  - replace (c_dos c =? 79) with false by (destruct NR; lia). change T_ANY with 255. destruct (c_dos c <=? 13); cbn [andb]; [|apply (exact_ok o1 s2); assumption]. destruct (t =? 255) eqn:GT; [|apply (exact_ok o1 s2); assumption].
    destruct (negb (c_8482 c =? 0)); [rewrite (any_hinfo_ok o1 ltac:(lia) HO1); reflexivity|]. destruct (c_any c (plain low t) =? JS_SUCCESS) eqn:G1; change JS_SUCCESS with 1 in *; rewrite G1; [reflexivity|]. destruct (c_any c (plain low t) =? -1); [exact (serv_fail_ok _ _ _ H2)|]. apply (exact_ok o1 s2); assumption.
Qed.
End Find.
