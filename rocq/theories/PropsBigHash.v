(** C32: loading zones (server/MaraBigHash.c).

    The theorems are about zones whose own NS records come before their other records if another
    zone has delegated to them before ([orderly]); for other orders see C32_any_order_refuted. *)
From Coq Require Import Permutation.
From Verif Require Import CBase Bits ModelDwStr SpecDwStr ProofDwStr SpecNames SpecAcl ModelJsStr SpecJsStr ProofJsStr ModelQueries SpecQueries ProofJsList ModelMaraHash SpecMaraHash ProofMaraHash PropsMaraHash PropsQueries
  ModelServe ProofServe ModelBigHash SpecBigHash ProofBigHash ProofBigAuth ProofBigRun ProofBigInv ProofBigStep ProofBigZap ProofBigLoad ProofBigAll.

(** ** The whole result *)
(** Every record is taken, and every question is answered as the records loaded say: if any zone has
    authoritative records for the name and type, with these, otherwise with the glue. *)
Theorem C32_loaded_partial : forall add bits b0 cs es, 1 <= bits <= 24 -> start bits = Ok b0 -> Forall2 call_of cs es -> Forall entry_ok es -> orderly es -> zlen es <= 116508 ->
  exists b, load add b0 cs = Ok (map (fun _ => JS_SUCCESS) cs, b) /\
    forall key q t, short key (q ++ num2 t) -> 0 <= t <= 65535 -> t <> RR_ANY -> look_up add b key t = Ok (served es q t).
Proof.
  intros add bits b0 cs es B E F2 F O L. destruct (start_ok add bits b0 B E) as (G & I). destruct (load_good add cs es [] b0 0 F2 F O) as (b & EL & GS); [exists empty, (fun _ _ => []), (fun _ => []), (fun _ => []); split; assumption|lia|].
  exists b. split; [exact EL|]. intros key q t K T TA. apply (look_ok add b es _ key q t GS); [lia|assumption..].
Qed.
Print Assumptions C32_loaded_partial.
Lemma loaded_good add bits cs es b : loaded add bits cs es b -> exists P, good_state add b es P /\ P = 3 * zlen es.
Proof.
  intros (F2 & F & O & L & B & b0 & rs & E & EL). destruct (start_ok add bits b0 B E) as (G & I). destruct (load_good add cs es [] b0 0 F2 F O) as (b' & EL' & GS); [exists empty, (fun _ _ => []), (fun _ => []), (fun _ => []); split; assumption|lia|].
  rewrite EL in EL'. apply Ok_inj, pair_equal_spec in EL' as (_ & <-). exists (3 * zlen es). split; [exact GS|reflexivity].
Qed.
Lemma loaded_look add bits cs es b key q t : loaded add bits cs es b -> short key (q ++ num2 t) -> 0 <= t <= 65535 -> t <> RR_ANY -> look_up add b key t = Ok (served es q t).
Proof. intros H K T TA. destruct (loaded_good _ _ _ _ _ H) as (P & GS & ->). destruct H as (_ & _ & _ & L & _). apply (look_ok add b es _ key q t GS); [lia|assumption..]. Qed.

(** ** Authoritative data and glue *)
Lemma ordered_perm t l : Permutation (ordered t l) l.
Proof. unfold ordered. destruct (t =? RR_NS); [|apply Permutation_refl]. destruct l as [|e r]; [constructor|]. constructor. apply Permutation_sym, Permutation_rev. Qed.
Definition authoritative (es : list entry) (q : list Z) (t : Z) : Prop := exists e, In e es /\ e_owner e = q /\ e_type e = t /\ authority e = true.
Lemma sure_iff es q t : sure es q t = true <-> authoritative es q t.
Proof.
  unfold sure, authoritative. rewrite existsb_exists. split.
  - intros (e & H & V). apply andb_true_iff in V as (V1 & V2). apply about_spec in V1 as (V3 & V4). exists e. split; [exact H|]. split; [exact V3|]. split; [exact V4|exact V2].
  - intros (e & H & E1 & E2 & E3). exists e. split; [exact H|]. apply andb_true_iff. split; [apply about_spec; split; assumption|exact E3].
Qed.
Lemma served_sure es q t : winners es q t <> [] -> served es q t = Some (sure es q t, rrset es q t, nameservers es q t).
Proof. intros N. unfold served. destruct (winners es q t) as [|w l] eqn:E; [contradiction|]. rewrite (winners_sure es q t w) by (rewrite E; left; reflexivity). reflexivity. Qed.

(** If a zone is authoritative for the name and type, exactly the authoritative records are served. *)
Theorem C32_authoritative_partial : forall add bits cs es b key q t, loaded add bits cs es b -> short key (q ++ num2 t) -> 0 <= t <= 65535 -> t <> RR_ANY -> authoritative es q t ->
  exists is ns, look_up add b key t = Ok (Some (true, is, ns)) /\ Permutation is (map item_of (filter (fun e => about q t e && authority e) es)).
Proof.
  intros add bits cs es b key q t H K T TA AU. apply sure_iff in AU. exists (rrset es q t), (nameservers es q t). split; [rewrite (loaded_look _ _ _ _ _ _ _ _ H K T TA), served_sure, AU by (apply sure_winners; exact AU); reflexivity|].
  unfold rrset. apply Permutation_map. eapply Permutation_trans; [apply ordered_perm|]. unfold winners. rewrite (filter_ext (valid es q t) (fun e => about q t e && authority e)) by (intros x; rewrite valid_sure, AU, orb_false_r; reflexivity). apply Permutation_refl.
Qed.
(** If none is, all of the glue is. *)
Theorem C32_glue_partial : forall add bits cs es b key q t, loaded add bits cs es b -> short key (q ++ num2 t) -> 0 <= t <= 65535 -> t <> RR_ANY -> ~ authoritative es q t -> existsb (about q t) es = true ->
  exists is ns, look_up add b key t = Ok (Some (false, is, ns)) /\ Permutation is (map item_of (filter (about q t) es)).
Proof.
  intros add bits cs es b key q t H K T TA AU EX. assert (sure es q t = false) as S0 by (destruct (sure es q t) eqn:E; [apply sure_iff in E; contradiction|reflexivity]). exists (rrset es q t), (nameservers es q t). split; [rewrite (loaded_look _ _ _ _ _ _ _ _ H K T TA), served_sure, S0 by (apply winners_has; exact EX); reflexivity|].
  unfold rrset. apply Permutation_map. eapply Permutation_trans; [apply ordered_perm|]. unfold winners. rewrite (filter_ext (valid es q t) (about q t)) by (intros x; rewrite valid_sure, S0, orb_true_r, andb_true_r; reflexivity). apply Permutation_refl.
Qed.
Print Assumptions C32_authoritative_partial.
Print Assumptions C32_glue_partial.

(** Glue which comes after authoritative data changes no answer at all. *)
Lemma abs_same es es' q t : (forall q t, abs es' q t = abs es q t) -> served es' q t = served es q t.
Proof.
  intros E. assert (forall es, served es q t = match abs es q t with None => None | Some s => Some (as_auth s, as_items s, match as_link s with None => [] | Some z => match abs es z RR_NS with None => [] | Some sz => as_items sz end end) end) as X; [|rewrite !X, E; destruct (abs es q t) as [s|]; [destruct (as_link s); [rewrite E|]|]; reflexivity].
  clear. intros es. unfold abs at 1. destruct (winners es q t) as [|w l] eqn:W; [unfold served; rewrite W; reflexivity|]. rewrite served_sure by (rewrite W; discriminate). cbn [as_auth as_items as_link]. apply f_equal, f_equal2; [reflexivity|]. unfold nameservers, link_spec. destruct (t =? RR_NS); [reflexivity|]. destruct (first_such (valid es q t) [] es) as [(p & x)|]; [|reflexivity]. destruct (has_ns p (e_zone x)); [|reflexivity].
  unfold abs. destruct (winners es (e_zone x) RR_NS) as [|y r] eqn:WZ; [|reflexivity]. unfold rrset. rewrite WZ. reflexivity.
Qed.
Lemma orderly_glue es e : orderly es -> authority e = false -> orderly (es ++ [e]).
Proof.
  intros O AE pre x post E N. destruct (exists_last (l := x :: post) ltac:(discriminate)) as (l' & y & EL). rewrite EL in E. rewrite app_assoc in E. apply app_inj_tail in E as (E & <-). destruct l' as [|x' post'].
  - cbn [app] in EL. injection EL as <- ->. right. right. reflexivity.
  - cbn [app] in EL. injection EL as <- ->. rewrite existsb_app. cbn [existsb]. rewrite orb_false_r. destruct (O pre x post' E N) as [H|[H|H]]; [left; exact H|right; left; exact H|]. right. right. rewrite H. cbn [orb]. destruct (own_ns (e_zone x) e) eqn:EO; [|reflexivity]. exfalso.
    unfold own_ns in EO. apply andb_true_iff in EO as (EO & EZ). apply about_spec in EO as (EO & _). apply zlist_eqb_spec in EZ. unfold authority in AE. rewrite EO, EZ, zlist_eqb_refl in AE. discriminate AE.
Qed.
Theorem C32_kept_partial : forall add bits cs es b c e, loaded add bits cs es b -> call_of c e -> entry_ok e -> zlen es < 116508 -> authoritative es (e_owner e) (e_type e) -> authority e = false ->
  exists b' zone', add_call add b c = Ok (JS_SUCCESS, b', zone') /\ forall key q t, short key (q ++ num2 t) -> 0 <= t <= 65535 -> t <> RR_ANY -> look_up add b' key t = look_up add b key t.
Proof.
  intros add bits cs es b c e H KC OK L AU AE. destruct (loaded_good _ _ _ _ _ H) as (P & GS & ->). pose proof H as (_ & _ & O & _). destruct (add_good add b es c e [] _ GS ltac:(lia) KC OK (orderly_glue es e O AE)) as (b' & zone' & E & _ & GS').
  exists b', zone'. split; [exact E|]. intros key q t K T TA. rewrite (look_ok add b' _ _ key q t GS' ltac:(lia) K T TA), (loaded_look _ _ _ _ _ _ _ _ H K T TA). apply f_equal, abs_same. intros x y. rewrite abs_snoc. unfold a_add. apply sure_iff in AU. unfold abs at 1. destruct (winners es (e_owner e) (e_type e)) eqn:W; [apply sure_winners in AU; contradiction|]. cbn [as_auth]. rewrite AU, AE. reflexivity.
Qed.
(** An authoritative record which comes after glue takes its place. *)
Theorem C32_replaced_partial : forall add bits cs es b c e key, loaded add bits cs es b -> call_of c e -> entry_ok e -> zlen es < 116508 -> orderly (es ++ [e]) -> ~ authoritative es (e_owner e) (e_type e) -> authority e = true ->
  short key (e_owner e ++ num2 (e_type e)) ->
  exists b' zone' ns, add_call add b c = Ok (JS_SUCCESS, b', zone') /\ look_up add b' key (e_type e) = Ok (Some (true, [item_of e], ns)).
Proof.
  intros add bits cs es b c e key H KC OK L O AU AE K. destruct (loaded_good _ _ _ _ _ H) as (P & GS & ->). destruct (add_good add b es c e [] _ GS ltac:(lia) KC OK O) as (b' & zone' & E & _ & GS'). pose proof (o_type e OK) as T. pose proof (o_meta e OK) as (TA & _). set (q := e_owner e) in *. set (t := e_type e) in *.
  assert (sure es q t = false) as S0 by (destruct (sure es q t) eqn:E0; [apply sure_iff in E0; contradiction|reflexivity]). assert (about q t e = true) as AB by (apply about_spec; split; reflexivity). assert (sure (es ++ [e]) q t = true) as S1 by (rewrite sure_snoc, AB, AE; apply orb_true_r).
  exists b', zone', (nameservers (es ++ [e]) q t). split; [exact E|]. rewrite (look_ok add b' _ _ key q t GS' ltac:(lia) K ltac:(lia) TA), served_sure, S1 by (apply sure_winners; exact S1). apply f_equal, f_equal, f_equal2; [|reflexivity]. apply f_equal2; [reflexivity|]. unfold rrset.
  assert (winners (es ++ [e]) q t = [e]) as ->; [|unfold ordered; destruct (t =? RR_NS); reflexivity]. unfold winners. rewrite filter_app. cbn [filter]. rewrite (valid_sure _ _ _ e), AB, AE. cbn [orb andb].
  assert (forall l, sure l q t = false -> filter (valid (es ++ [e]) q t) l = []) as X. { induction l as [|y l IH]; intros HS; [reflexivity|]. unfold sure in HS. cbn [existsb filter] in *. apply orb_false_iff in HS as (H1 & H2). rewrite valid_sure, S1. cbn [negb]. rewrite orb_false_r, H1. apply IH, H2. } rewrite (X es S0). reflexivity.
Qed.
Print Assumptions C32_kept_partial.
Print Assumptions C32_replaced_partial.

(** The order of loading makes no difference to what is served, but for the order in the answer. *)
Theorem C32_order_free_partial : forall add bits bits' cs cs' es es' b b' key q t, loaded add bits cs es b -> loaded add bits' cs' es' b' -> Permutation es es' -> short key (q ++ num2 t) -> 0 <= t <= 65535 -> t <> RR_ANY ->
  (look_up add b key t = Ok None /\ look_up add b' key t = Ok None) \/
  exists au is is' ns ns', look_up add b key t = Ok (Some (au, is, ns)) /\ look_up add b' key t = Ok (Some (au, is', ns')) /\ Permutation is is'.
Proof.
  intros add bits bits' cs cs' es es' b b' key q t H H' PE K T TA. rewrite (loaded_look _ _ _ _ _ _ _ _ H K T TA), (loaded_look _ _ _ _ _ _ _ _ H' K T TA).
  assert (forall f : entry -> bool, existsb f es = existsb f es') as EX. { intros f. destruct (existsb f es) eqn:E; symmetry; [apply existsb_exists in E as (x & X1 & X2); apply existsb_exists; exists x; split; [apply (Permutation_in x PE X1)|exact X2]|]. destruct (existsb f es') eqn:E'; [|reflexivity]. apply existsb_exists in E' as (x & X1 & X2). assert (existsb f es = true) as C by (apply existsb_exists; exists x; split; [apply (Permutation_in x (Permutation_sym PE) X1)|exact X2]). congruence. }
  assert (sure es q t = sure es' q t) as SE by apply EX. assert (forall l l' (f : entry -> bool), Permutation l l' -> Permutation (filter f l) (filter f l')) as PF. { intros l l' f P. induction P; cbn [filter]; [constructor|destruct (f x); [constructor; exact IHP|exact IHP]|destruct (f x), (f y); try apply Permutation_refl; apply perm_swap|eapply Permutation_trans; eassumption]. }
  assert (Permutation (winners es q t) (winners es' q t)) as PW. { unfold winners. rewrite (filter_ext (valid es q t) (valid es' q t)) by (intros x; rewrite !valid_sure, SE; reflexivity). apply PF, PE. }
  destruct (winners es q t) as [|w l] eqn:W.
  - left. apply Permutation_nil in PW. unfold served. rewrite W, PW. split; reflexivity.
  - right. rewrite <- W in PW. assert (winners es q t <> []) as N1 by (rewrite W; discriminate). assert (winners es' q t <> []) as N2 by (intros E; rewrite E in PW; apply Permutation_sym, Permutation_nil in PW; contradiction). rewrite !served_sure by assumption. rewrite SE. exists (sure es' q t), (rrset es q t), (rrset es' q t), (nameservers es q t), (nameservers es' q t). split; [reflexivity|]. split; [reflexivity|].
    unfold rrset. apply Permutation_map. eapply Permutation_trans; [apply ordered_perm|]. eapply Permutation_trans; [exact PW|]. apply Permutation_sym, ordered_perm.
Qed.
Print Assumptions C32_order_free_partial.

(** The caller's zone is given back as it was. *)
Theorem C32_zone_kept_partial : forall add bits cs es b c e, loaded add bits cs es b -> call_of c e -> entry_ok e -> zlen es < 116508 -> orderly (es ++ [e]) ->
  exists b' zone', add_call add b c = Ok (JS_SUCCESS, b', zone') /\ short zone' (e_zone e ++ num2 RR_NS) /\ loaded add bits (cs ++ [c]) (es ++ [e]) b'.
Proof.
  intros add bits cs es b c e H KC OK L O. destruct (loaded_good _ _ _ _ _ H) as (P & GS & ->). destruct (add_good add b es c e [] _ GS ltac:(lia) KC OK O) as (b' & zone' & E & (HZ1 & HZ2) & GS'). exists b', zone'. split; [exact E|]. split; [split; [exact HZ1|]; rewrite HZ2; apply (k_zone c e KC)|].
  destruct H as (F2 & F & _ & _ & B & b0 & rs & ES & EL). split; [apply Forall2_app; [exact F2|]; constructor; [exact KC|constructor]|]. split; [apply Forall_app; split; [exact F|]; constructor; [exact OK|constructor]|]. split; [exact O|]. split; [rewrite zlen_app; change (zlen [e]) with 1; lia|]. split; [exact B|].
  exists b0, (rs ++ [1]). split; [exact ES|]. clear - EL E. revert b0 rs EL. induction cs as [|x cs IH]; intros b0 rs EL; cbn [load app] in *.
  - apply Ok_inj, pair_equal_spec in EL as (<- & ->). rewrite E. reflexivity.
  - destruct (add_call add b0 x) as [((r & b1) & z)| |]; try discriminate EL. cbn [bind] in *. destruct (load add b1 cs) as [(rs1 & b2)| |] eqn:E2; try discriminate EL. cbn [bind] in EL. apply Ok_inj, pair_equal_spec in EL as (<- & ->). rewrite (IH b1 rs1 E2). reflexivity.
Qed.
Print Assumptions C32_zone_kept_partial.

(** The list of a name, from which questions for ANY are answered, has every type there are records
    for, once, with the same records. *)
Theorem C32_any_partial : forall add bits cs es b key q, loaded add bits cs es b -> short key (q ++ num2 RR_ANY) ->
  exists l, look_any add b key = Ok l /\ NoDup (map fst l) /\ forall t x, In (t, x) l <-> served es q t = Some x.
Proof. intros add bits cs es b key q H K. destruct (loaded_good _ _ _ _ _ H) as (P & GS & ->). pose proof H as (_ & _ & _ & L & _). apply (look_any_ok add b es _ key q GS); [lia|exact K]. Qed.
Print Assumptions C32_any_partial.

(** Types that can only be asked for (IXFR, AXFR, ANY) are refused, in whatever state. *)
Theorem C32_meta_types : forall add b c q t, short (c_query c) (q ++ num2 t) -> 1 <= zlen q -> t = 251 \/ t = 252 \/ t = 255 -> add_call add b c = Ok (JS_ERROR, b, c_zone c).
Proof.
  intros add b c q t (H & _) L T. assert (held (j_max (c_query c)) (c_query c) (q ++ num2 t)) as HQ by (split; [exact H|reflexivity]). unfold add_call, add_rr_to_bighash. destruct (negb (js_sane (c_query c)) || negb (js_sane (c_data c))); [reflexivity|]. destruct ((j_count (c_query c) <? 3) || (j_count (c_zone c) <? 3)); [reflexivity|].
  rewrite (type_ok _ _ _ _ HQ) by lia. cbn [bind]. change JS_ERROR with (-1). unfold RR_ANY. replace ((t =? -1) || (t =? 255) || (t =? 251) || (t =? 252)) with true by lia. reflexivity.
Qed.
Print Assumptions C32_meta_types.

(** ** Cases *)
Definition call_for (e : entry) : call := mkcall (fun _ => J1) (str (e_owner e ++ num2 (e_type e)) 300) (str (e_data e) 300) (e_ttl e) (str (e_zone e ++ num2 RR_NS) 300) (e_perms e).
Definition cleanb (q : list Z) : bool := bytesb q && forallb (fun b => negb (b =? 0)) (removelast q) && negb (zlen q =? 0) && ((last q 1 =? 0) || (last q 1 =? 95)).
Definition okb (e : entry) : bool := cleanb (e_owner e) && cleanb (e_zone e) && ((hd 0 (e_owner e) <? 64) || (hd 0 (e_owner e) =? 95)) && (zlen (e_owner e) <=? 253) && (zlen (e_zone e) <=? 253) && (0 <=? e_type e) && (e_type e <? 256) &&
  negb (e_type e =? 255) && negb (e_type e =? 251) && negb (e_type e =? 252) && bytesb (e_data e) && (zlen (e_data e) <=? 300).
Lemma cleanb_ok q : cleanb q = true -> clean q /\ bytes q.
Proof.
  unfold cleanb. rewrite !andb_true_iff. intros (((B & F) & N) & E). apply bytesb_spec in B. split; [|exact B]. assert (q <> []) as NE by (intros ->; discriminate N). pose proof (app_removelast_last 1 NE) as EQ. exists (removelast q), (last q 1). split; [exact EQ|].
  split; [rewrite forallb_forall in F; apply Forall_forall; intros x Hx; specialize (F x Hx); lia|]. split; [|apply orb_true_iff in E as [E|E]; lia]. rewrite EQ in B. apply bytes_app in B. apply B.
Qed.
Lemma okb_ok e : okb e = true -> entry_ok e /\ call_of (call_for e) e.
Proof.
  unfold okb. rewrite !andb_true_iff. intros (((((((((((C1 & C2) & HF) & L1) & L2) & T1) & T2) & M1) & M2) & M3) & BD) & LD). apply cleanb_ok in C1 as (C1 & B1). apply cleanb_ok in C2 as (C2 & B2). apply bytesb_spec in BD. split.
  - constructor; try assumption; unfold RR_ANY; try lia.
  - constructor; try reflexivity; cbn [c_junk c_query c_data c_zone call_for].
    + intros i j. unfold J1, byte. lia.
    + split; [|cbn; lia]. apply str_ok; [apply bytes_app; split; [exact B1|apply bytesb_spec; unfold num2, bytesb, forallb; lia]|rewrite zlen_app, num2_len; lia|lia].
    + split; [|cbn; lia]. apply str_ok; [exact BD|lia|lia].
    + split; [|cbn; lia]. apply str_ok; [apply bytes_app; split; [exact B2|apply bytesb_spec; reflexivity]|rewrite zlen_app, num2_len; lia|lia].
Qed.
Fixpoint orderlyb (pre es : list entry) : bool :=
  match es with
  | [] => true
  | e :: post => ((e_type e =? RR_NS) || existsb (own_ns (e_zone e)) pre || negb (has_ns pre (e_zone e)) || negb (existsb (own_ns (e_zone e)) post)) && orderlyb (pre ++ [e]) post
  end.
Lemma orderlyb_ok : forall es pre0, orderlyb pre0 es = true -> forall pre e post, es = pre ++ e :: post -> e_type e <> RR_NS ->
  existsb (own_ns (e_zone e)) (pre0 ++ pre) = true \/ has_ns (pre0 ++ pre) (e_zone e) = false \/ existsb (own_ns (e_zone e)) post = false.
Proof.
  induction es as [|x es IH]; intros pre0 H pre e post E N; [destruct pre; discriminate E|]. cbn [orderlyb] in H. apply andb_true_iff in H as (H1 & H2). destruct pre as [|y pre]; cbn [app] in E; injection E as -> ->.
  - rewrite app_nil_r. apply orb_true_iff in H1 as [H1|H1]; [apply orb_true_iff in H1 as [H1|H1]; [apply orb_true_iff in H1 as [H1|H1]; [lia|left; exact H1]|right; left; apply negb_true_iff; exact H1]|right; right; apply negb_true_iff; exact H1].
  - specialize (IH (pre0 ++ [y]) H2 pre e post eq_refl N). rewrite <- app_assoc in IH. exact IH.
Qed.
Definition table (es : list entry) : res (list Z * bighash) := b <- start 4 ;; load 7 b (map call_for es).
Lemma table_loaded es b : forallb okb es = true -> orderlyb [] es = true -> zlen es <= 116508 -> (exists rs, table es = Ok (rs, b)) -> loaded 7 4 (map call_for es) es b.
Proof.
  intros F O L (rs & E). assert (Forall (fun e => entry_ok e /\ call_of (call_for e) e) es) as FA by (apply Forall_forall; intros x Hx; apply okb_ok; rewrite forallb_forall in F; apply F, Hx).
  split; [clear - FA; induction FA as [|x l (_ & H) _ IH]; cbn [map]; constructor; assumption|]. split; [apply (Forall_impl _ (fun e (H : entry_ok e /\ call_of (call_for e) e) => proj1 H) FA)|]. split; [intros pre e post; apply (orderlyb_ok es [] O)|]. split; [exact L|]. split; [lia|].
  unfold table in E. destruct (start 4) as [b0| |]; try discriminate E. exists b0, rs. split; [reflexivity|exact E].
Qed.
Definition ask_for (es : list entry) (q : list Z) (t : Z) : res (option (bool * list item * list item)) := ' (_, b) <- table es ;; look_up 7 b (str (q ++ num2 t) 300) t.

(** The zone e. delegates s.e. with glue for the address of n.s.e.; the zone s.e. has its own. *)
Definition z_e : list Z := [1; 101; 0].
Definition z_s : list Z := [1; 115; 1; 101; 0].
Definition n_s : list Z := [1; 110; 1; 115; 1; 101; 0].
Definition parent : list entry := [mkentry z_e 2 9 0 [1] z_e; mkentry z_e 6 9 0 [2] z_e; mkentry z_s 2 9 0 [3] z_e; mkentry n_s 1 9 0 [10; 0; 0; 1] z_e; mkentry n_s 1 9 0 [10; 0; 0; 2] z_e].
Definition child : list entry := [mkentry z_s 2 8 0 [4] z_s; mkentry z_s 2 8 0 [5] z_s; mkentry z_s 2 8 0 [6] z_s; mkentry z_s 6 8 0 [7] z_s; mkentry n_s 1 8 0 [10; 0; 0; 3] z_s; mkentry n_s 1 8 0 [10; 0; 0; 4] z_s].
Example C32_loaded_met : exists b b', loaded 7 4 (map call_for (parent ++ child)) (parent ++ child) b /\ loaded 7 4 (map call_for (child ++ parent)) (child ++ parent) b' /\
  authoritative (parent ++ child) n_s 1 /\ ~ authoritative parent n_s 1 /\
  ask_for parent n_s 1 = Ok (Some (false, [(9, 0, [10; 0; 0; 1]); (9, 0, [10; 0; 0; 2])], [(9, 0, [1])])) /\
  ask_for (parent ++ child) n_s 1 = Ok (Some (true, [(8, 0, [10; 0; 0; 3]); (8, 0, [10; 0; 0; 4])], [(8, 0, [4]); (8, 0, [6]); (8, 0, [5])])) /\
  ask_for (child ++ parent) n_s 1 = ask_for (parent ++ child) n_s 1 /\ ask_for (child ++ parent) n_s 28 = Ok None.
Proof.
  assert (forall es, match table es with Ok _ => true | _ => false end = true -> exists b rs, table es = Ok (rs, b)) as X. { intros es H. destruct (table es) as [(rs & b)| |]; try discriminate H. exists b, rs. reflexivity. }
  destruct (X (parent ++ child)) as (b & H1); [vm_compute; reflexivity|]. destruct (X (child ++ parent)) as (b' & H2); [vm_compute; reflexivity|]. exists b, b'.
  split; [apply table_loaded; [vm_compute; reflexivity|vm_compute; reflexivity|vm_compute; discriminate|exact H1]|]. split; [apply table_loaded; [vm_compute; reflexivity|vm_compute; reflexivity|vm_compute; discriminate|exact H2]|].
  split; [apply sure_iff; vm_compute; reflexivity|]. split; [intros C; apply sure_iff in C; vm_compute in C; discriminate C|]. repeat (split; [vm_compute; reflexivity|]). vm_compute. reflexivity.
Qed.
Example C32_any_met : (' (_, b) <- table (parent ++ child) ;; look_any 7 b (str (z_s ++ num2 RR_ANY) 300)) = Ok [(2, (true, [(8, 0, [4]); (8, 0, [6]); (8, 0, [5])], [])); (6, (true, [(8, 0, [7])], [(8, 0, [4]); (8, 0, [6]); (8, 0, [5])]))].
Proof. vm_compute. reflexivity. Qed.
Example C32_kept_met : let e := mkentry n_s 1 9 0 [10; 0; 0; 9] z_e in exists b, loaded 7 4 (map call_for child) child b /\ call_of (call_for e) e /\ entry_ok e /\ authoritative child n_s 1 /\ authority e = false.
Proof.
  cbv zeta. assert (exists b rs, table child = Ok (rs, b)) as (b & H1). { assert (match table child with Ok _ => true | _ => false end = true) as H by (vm_compute; reflexivity). destruct (table child) as [(rs & b)| |]; try discriminate H. exists b, rs. reflexivity. }
  exists b. split; [apply table_loaded; [vm_compute; reflexivity|vm_compute; reflexivity|vm_compute; discriminate|exact H1]|]. split; [apply okb_ok; vm_compute; reflexivity|]. split; [apply okb_ok; vm_compute; reflexivity|]. split; [apply sure_iff; vm_compute; reflexivity|vm_compute; reflexivity].
Qed.
Example C32_replaced_met : let e := mkentry n_s 1 8 0 [10; 0; 0; 9] z_s in exists b, loaded 7 4 (map call_for parent) parent b /\ call_of (call_for e) e /\ entry_ok e /\ orderly (parent ++ [e]) /\ ~ authoritative parent n_s 1 /\ authority e = true /\ existsb (about n_s 1) parent = true.
Proof.
  cbv zeta. assert (exists b rs, table parent = Ok (rs, b)) as (b & H1). { assert (match table parent with Ok _ => true | _ => false end = true) as H by (vm_compute; reflexivity). destruct (table parent) as [(rs & b)| |]; try discriminate H. exists b, rs. reflexivity. }
  exists b. split; [apply table_loaded; [vm_compute; reflexivity|vm_compute; reflexivity|vm_compute; discriminate|exact H1]|]. split; [apply okb_ok; vm_compute; reflexivity|]. split; [apply okb_ok; vm_compute; reflexivity|]. split; [intros pre x post; apply (orderlyb_ok _ []); vm_compute; reflexivity|]. split; [intros C; apply sure_iff in C; vm_compute in C; discriminate C|]. split; vm_compute; reflexivity.
Qed.
Example C32_meta_types_met : short (c_query (call_for (mkentry z_e 252 9 0 [1] z_e))) (z_e ++ num2 252).
Proof. split; [apply str_ok; [apply bytesb_spec; reflexivity|vm_compute; discriminate|lia]|cbn; lia]. Qed.

(** ** What does not hold *)
(** A zone with a record before its own NS records, loaded after a zone that delegates to it (both are
    possible with csv1 zone files): the NS record of the delegation is freed while the record before
    is still followed by it.  Asking for it reads freed memory, and so does loading another one. *)
Theorem C32_any_order_refuted :
  let es := [mkentry z_s 2 9 0 [3] z_e; mkentry z_s 15 8 0 [7] z_s; mkentry z_s 2 8 0 [4] z_s] in
  forallb okb es = true /\ ask_for es z_s 2 = Ok (Some (true, [(8, 0, [4])], [])) /\ ask_for es z_s 15 = Bad UseAfterFree /\ table (es ++ [mkentry z_s 15 8 0 [8] z_s]) = Bad UseAfterFree.
Proof. cbv zeta. split; [vm_compute; reflexivity|]. split; [vm_compute; reflexivity|]. split; vm_compute; reflexivity. Qed.
(** The first label of a name may have octets with the value 0.  The zone is then found inside of
    it, and its authoritative address is taken for glue: it does not replace the glue of the other. *)
Definition odd_zone : list Z := [1; 101; 0].
Definition odd_name : list Z := [6; 1; 101; 0; 0; 1; 7] ++ odd_zone.
Theorem C32_zero_octets_refuted :
  let e := mkentry odd_name 1 8 0 [10; 0; 0; 3] odd_zone in authority e = true /\ ask_for [e] odd_name 1 = Ok (Some (false, [(8, 0, [10; 0; 0; 3])], [])).
Proof. cbv zeta. split; vm_compute; reflexivity. Qed.
(** Names of 254 and 255 octets, which are allowed, are refused, but the record stays in the table. *)
Definition long_owner : list Z := [63] ++ repeat 97 63 ++ [63] ++ repeat 97 63 ++ [63] ++ repeat 97 63 ++ [60] ++ repeat 97 60 ++ [0].
Theorem C32_long_names_refuted :
  let e := mkentry long_owner 1 8 0 [10; 0; 0; 3] long_owner in zlen long_owner = 254 /\ match table [e] with Ok (rs, _) => rs | _ => [] end = [JS_ERROR] /\ ask_for [e] long_owner 1 = Ok (Some (true, [(8, 0, [10; 0; 0; 3])], [])).
Proof. cbv zeta. split; [reflexivity|]. split; vm_compute; reflexivity. Qed.
Print Assumptions C32_any_order_refuted.
Print Assumptions C32_zero_octets_refuted.
Print Assumptions C32_long_names_refuted.
