(** Loading zones: the sets after any records are those of the specification; looking them up. *)
From Verif Require Import CBase Bits ModelDwStr SpecDwStr ProofDwStr SpecNames SpecAcl ModelJsStr SpecJsStr ProofJsStr ProofJsSearch ModelQueries SpecQueries ProofHname ProofJsList ModelMaraHash SpecMaraHash ProofMaraHash
  ModelServe ProofServe ModelBigHash SpecBigHash ProofBigHash ProofBigAuth ProofBigRun ProofBigInv ProofBigStep ProofBigZap ProofBigLoad.

(** ** The sets of the specification *)
Definition sure (es : list entry) (q : list Z) (t : Z) : bool := existsb (fun x => about q t x && authority x) es.
Definition link_spec (es : list entry) (q : list Z) (t : Z) : option (list Z) :=
  if t =? RR_NS then None
  else match first_such (valid es q t) [] es with
  | Some (pre, e) => if has_ns pre (e_zone e) then Some (e_zone e) else None
  | None => None
  end.
Definition abs (es : list entry) : astate := fun q t =>
  match winners es q t with [] => None | _ => Some (mkaset (sure es q t) (rrset es q t) (link_spec es q t)) end.

Lemma about_spec q t e : about q t e = true <-> e_owner e = q /\ e_type e = t.
Proof. unfold about. rewrite andb_true_iff, zlist_eqb_spec, Z.eqb_eq. reflexivity. Qed.
Lemma valid_sure es q t x : valid es q t x = about q t x && (authority x || negb (sure es q t)). Proof. reflexivity. Qed.
Lemma sure_snoc es e q t : sure (es ++ [e]) q t = sure es q t || about q t e && authority e.
Proof. unfold sure. rewrite existsb_app. cbn [existsb]. rewrite orb_false_r. reflexivity. Qed.
Lemma first_snoc f e : forall es pre, first_such f pre (es ++ [e]) = match first_such f pre es with Some r => Some r | None => if f e then Some (pre ++ es, e) else None end.
Proof.
  induction es as [|x es IH]; intros pre; cbn [app first_such]; [rewrite app_nil_r; reflexivity|]. destruct (f x); [reflexivity|]. rewrite IH, <- app_assoc. reflexivity.
Qed.
Lemma first_ext f g : (forall x, f x = g x) -> forall es pre, first_such f pre es = first_such g pre es.
Proof. intros E. induction es as [|x es IH]; intros pre; cbn [first_such]; [reflexivity|]. rewrite E, IH. reflexivity. Qed.
Lemma first_none f : forall es pre, filter f es = [] -> first_such f pre es = None.
Proof. induction es as [|x es IH]; intros pre E; [reflexivity|]. cbn [filter first_such] in *. destruct (f x); [discriminate|]. apply IH, E. Qed.
Lemma first_some f : forall es pre, filter f es <> [] -> first_such f pre es <> None.
Proof. induction es as [|x es IH]; intros pre E; [contradiction|]. cbn [filter first_such] in *. destruct (f x); [discriminate|]. apply IH, E. Qed.
Lemma first_split f : forall es pre p e, first_such f pre es = Some (p, e) -> exists mid post, es = mid ++ e :: post /\ p = pre ++ mid /\ f e = true.
Proof.
  induction es as [|x es IH]; intros pre p e E; cbn [first_such] in E; [discriminate|]. destruct (f x) eqn:F.
  - injection E as <- <-. exists [], es. split; [reflexivity|]. split; [symmetry; apply app_nil_r|exact F].
  - apply IH in E as (mid & post & -> & -> & FE). exists (x :: mid), post. split; [reflexivity|]. split; [rewrite <- app_assoc; reflexivity|exact FE].
Qed.

Lemma winners_sure es q t x : In x (winners es q t) -> authority x = sure es q t.
Proof.
  unfold winners. rewrite filter_In, valid_sure. intros (H & V). apply andb_true_iff in V as (V1 & V2). destruct (authority x) eqn:EA; [|destruct (sure es q t); [discriminate V2|reflexivity]]. symmetry. unfold sure. apply existsb_exists. exists x. split; [exact H|]. rewrite V1, EA. reflexivity.
Qed.
Lemma sure_winners es q t : sure es q t = true -> winners es q t <> [].
Proof.
  intros H E. pose proof H as H'. unfold sure in H'. apply existsb_exists in H' as (x & HI & V). apply andb_true_iff in V as (V1 & V2). assert (In x (winners es q t)) as HW by (unfold winners; apply filter_In; split; [exact HI|]; rewrite valid_sure, V1, V2; reflexivity). rewrite E in HW. destruct HW.
Qed.
(** Without authority a set is there as soon as a record is. *)
Lemma winners_has es q t : existsb (about q t) es = true <-> winners es q t <> [].
Proof.
  split.
  - intros H. destruct (sure es q t) eqn:ES; [apply sure_winners, ES|]. apply existsb_exists in H as (x & HI & HA). intros E. assert (In x (winners es q t)) as HW by (unfold winners; apply filter_In; split; [exact HI|]; rewrite valid_sure, HA, ES, orb_true_r; reflexivity). rewrite E in HW. destruct HW.
  - intros H. destruct (winners es q t) as [|x l] eqn:E; [contradiction|]. assert (In x (winners es q t)) as HW by (rewrite E; left; reflexivity). unfold winners in HW. apply filter_In in HW as (HI & V). rewrite valid_sure in V. apply andb_true_iff in V as (V & _). apply existsb_exists. exists x. split; assumption.
Qed.
Lemma mem_abs es z : mem_t (abs es) z = has_ns es z.
Proof.
  unfold mem_t, abs, has_ns. destruct (existsb (about z RR_NS) es) eqn:E.
  - apply winners_has in E. destruct (winners es z RR_NS); [contradiction|reflexivity].
  - destruct (winners es z RR_NS) as [|x l] eqn:W; [reflexivity|]. assert (winners es z RR_NS <> []) as N by (rewrite W; discriminate). apply winners_has in N. congruence.
Qed.

Lemma ordered_snoc t l e : ordered t (l ++ [e]) = match l with [] => [e] | _ => if t =? RR_NS then put_after 1 (ordered t l) e else ordered t l ++ [e] end.
Proof.
  unfold ordered. destruct l as [|x l]; cbn [app]; [destruct (t =? RR_NS); reflexivity|]. destruct (t =? RR_NS); [|reflexivity]. rewrite rev_app_distr. reflexivity.
Qed.
Lemma map_put_after k (l : list entry) e : map item_of (put_after k l e) = put_after k (map item_of l) (item_of e).
Proof. unfold put_after. rewrite map_app, firstn_map, skipn_map. reflexivity. Qed.

(** A record more. *)
Lemma abs_snoc es e q t : abs (es ++ [e]) q t = a_add (abs es) e q t.
Proof.
  destruct (about q t e) eqn:AB.
  - apply about_spec in AB as (<- & <-). set (q := e_owner e) in *. set (t := e_type e) in *. assert (about q t e = true) as AB by (apply about_spec; split; reflexivity).
    assert (winners (es ++ [e]) q t = filter (valid (es ++ [e]) q t) es ++ (if valid (es ++ [e]) q t e then [e] else [])) as W by (unfold winners; rewrite filter_app; cbn [filter]; destruct (valid (es ++ [e]) q t e); reflexivity).
    pose proof (sure_snoc es e q t) as SS. rewrite AB in SS. cbn [andb] in SS.
    assert (sure (es ++ [e]) q t = sure es q t -> (forall x, valid (es ++ [e]) q t x = valid es q t x)) as VE by (intros E x; rewrite !valid_sure, E; reflexivity).
    assert (link_of (abs es) e = if t =? RR_NS then None else if has_ns es (e_zone e) then Some (e_zone e) else None) as LE. { unfold link_of. fold t. rewrite mem_abs. destruct (t =? RR_NS); [reflexivity|]. cbn [orb]. destruct (has_ns es (e_zone e)); reflexivity. }
    (* a new set *)
    assert (filter (valid (es ++ [e]) q t) es = [] -> valid (es ++ [e]) q t e = true -> sure (es ++ [e]) q t = authority e -> abs (es ++ [e]) q t = Some (mkaset (authority e) [item_of e] (link_of (abs es) e))) as NEW.
    { intros F V S1. rewrite F, V in W. cbn [app] in W. unfold abs at 1. unfold rrset, link_spec. rewrite W, S1, first_snoc, (first_none _ es [] F), V. cbn [app]. rewrite LE. unfold ordered. destruct (t =? RR_NS); reflexivity. }
    (* a set with one more *)
    assert (winners es q t <> [] -> sure (es ++ [e]) q t = sure es q t -> valid (es ++ [e]) q t e = true -> abs (es ++ [e]) q t = Some (mkaset (sure es q t) (put_in t (item_of e) (rrset es q t)) (link_spec es q t))) as MORE.
    { intros NE S1 V. rewrite V, (filter_ext _ _ (VE S1)) in W. fold (winners es q t) in W. unfold abs. unfold rrset, link_spec. rewrite W, S1, (first_ext _ _ (VE S1)), first_snoc. pose proof (first_some (valid es q t) es [] NE) as FS. destruct (first_such (valid es q t) [] es) as [r|]; [|contradiction].
      rewrite ordered_snoc. destruct (winners es q t) as [|x l]; [contradiction|]. cbn [app]. unfold put_in. destruct (t =? RR_NS); [rewrite map_put_after|rewrite map_app]; reflexivity. }
    unfold a_add. fold q t. unfold abs at 2. destruct (winners es q t) as [|x l] eqn:WE.
    + rewrite upd2_same. assert (sure es q t = false) as S0 by (destruct (sure es q t) eqn:E; [apply sure_winners in E; congruence|reflexivity]). rewrite S0 in SS. cbn [orb] in SS.
      assert (existsb (about q t) es = false) as NA by (destruct (existsb (about q t) es) eqn:E; [apply winners_has in E; congruence|reflexivity]).
      apply NEW; [| |exact SS].
      * assert (forall l, existsb (about q t) l = false -> filter (valid (es ++ [e]) q t) l = []) as X. { induction l as [|y l IH]; intros H; [reflexivity|]. cbn [existsb filter] in *. apply orb_false_iff in H as (H1 & H2). rewrite valid_sure, H1. cbn [andb]. apply IH, H2. } apply X, NA.
      * rewrite valid_sure, AB, SS. destruct (authority e); reflexivity.
    + cbn [as_auth as_items as_link]. destruct (sure es q t) eqn:S0, (authority e) eqn:AE; cbn [Bool.eqb orb] in *.
      * rewrite upd2_same. apply MORE; [discriminate|exact SS|]. rewrite valid_sure, AB, AE. reflexivity.
      * unfold abs. unfold rrset, link_spec. assert (valid (es ++ [e]) q t e = false) as V by (rewrite valid_sure, AB, AE, SS; reflexivity). rewrite V, app_nil_r, (filter_ext _ _ (VE SS)) in W. fold (winners es q t) in W. rewrite WE in W. rewrite W, WE, SS, S0, (first_ext _ _ (VE SS)), first_snoc. rewrite <- (VE SS e), V. pose proof (first_some (valid es q t) es []) as FS. fold (winners es q t) in FS. rewrite WE in FS. specialize (FS ltac:(discriminate)). destruct (first_such (valid es q t) [] es) as [r|]; [reflexivity|contradiction].
      * rewrite upd2_same. rewrite NEW; [reflexivity| |rewrite valid_sure, AB, AE; reflexivity|exact SS].
        assert (forall l, sure l q t = false -> filter (valid (es ++ [e]) q t) l = []) as X. { induction l0 as [|y l0 IH]; intros H; [reflexivity|]. unfold sure in H. cbn [existsb filter] in *. apply orb_false_iff in H as (H1 & H2). rewrite valid_sure, SS. cbn [negb]. rewrite orb_false_r, H1. apply IH, H2. } apply X, S0.
      * rewrite upd2_same. apply MORE; [discriminate|exact SS|]. rewrite valid_sure, AB, SS, orb_true_r. reflexivity.
  - assert (~ (e_owner e = q /\ e_type e = t)) as N by (intros H; apply about_spec in H; congruence).
    assert (a_add (abs es) e q t = abs es q t) as ->. { unfold a_add. destruct (abs es (e_owner e) (e_type e)) as [s|]; [destruct (Bool.eqb (as_auth s) (authority e)); [|destruct (authority e); [|reflexivity]]|]; apply upd2_other; exact N. }
    pose proof (sure_snoc es e q t) as SS. rewrite AB in SS. cbn [andb] in SS. rewrite orb_false_r in SS. assert (forall x, valid (es ++ [e]) q t x = valid es q t x) as VE by (intros x; rewrite !valid_sure, SS; reflexivity).
    assert (valid es q t e = false) as V by (rewrite valid_sure, AB; reflexivity). assert (winners (es ++ [e]) q t = winners es q t) as W. { unfold winners. rewrite (filter_ext _ _ VE), filter_app. cbn [filter]. rewrite V. apply app_nil_r. }
    unfold abs, rrset, link_spec. rewrite W, SS, (first_ext _ _ VE), first_snoc, V. destruct (winners es q t); [reflexivity|]. destruct (first_such (valid es q t) [] es); reflexivity.
Qed.

(** No set is followed by NS records that will be replaced. *)
Lemma link_safe es e rest : orderly (es ++ e :: rest) -> e_type e = RR_NS -> authority e = true -> forall s, abs es (e_owner e) RR_NS = Some s -> as_auth s = false -> forall q' t' s', abs es q' t' = Some s' -> as_link s' <> Some (e_owner e).
Proof.
  intros O T AE s E0 AS q' t' s' E1 EL. unfold abs in E1. destruct (winners es q' t') as [|w l]; [discriminate|]. injection E1 as <-. cbn [as_link] in EL. unfold link_spec in EL. destruct (Z.eqb_spec t' RR_NS) as [|NT]; [discriminate|].
  destruct (first_such (valid es q' t') [] es) as [(p & x)|] eqn:F; [|discriminate]. destruct (has_ns p (e_zone x)) eqn:HN; [|discriminate]. injection EL as EZ. apply first_split in F as (mid & post & -> & -> & V). cbn [app] in HN. rewrite valid_sure in V. apply andb_true_iff in V as (V & _). apply about_spec in V as (_ & VT).
  assert (e_zone e = e_owner e) as ZE. { unfold authority in AE. rewrite T, Z.eqb_refl in AE. cbn [negb andb] in AE. rewrite orb_false_r in AE. apply zlist_eqb_spec in AE. congruence. }
  specialize (O mid x (post ++ e :: rest)). rewrite <- app_assoc in O. cbn [app] in O. specialize (O eq_refl ltac:(congruence)). rewrite EZ in *. destruct O as [O|[O|O]].
  - unfold abs in E0. destruct (winners (mid ++ x :: post) (e_owner e) RR_NS); [discriminate|]. injection E0 as <-. cbn [as_auth] in AS. unfold sure in AS. rewrite existsb_app in AS. apply orb_false_iff in AS as (AS & _). apply existsb_exists in O as (y & YI & YO). unfold own_ns in YO. apply andb_true_iff in YO as (YO & YZ). apply zlist_eqb_spec in YZ.
    assert (existsb (fun x => about (e_owner e) RR_NS x && authority x) mid = true) as C; [|congruence]. apply existsb_exists. exists y. split; [exact YI|]. rewrite YO. apply about_spec in YO as (YO & _). unfold authority. rewrite YO, YZ, zlist_eqb_refl. reflexivity.
  - congruence.
  - rewrite existsb_app in O. apply orb_false_iff in O as (_ & O). cbn [existsb] in O. apply orb_false_iff in O as (O & _). unfold own_ns in O. rewrite ZE, zlist_eqb_refl, andb_true_r in O. assert (about (e_owner e) RR_NS e = true) by (apply about_spec; split; [reflexivity|exact T]). congruence.
Qed.

(** ** The start *)
Lemma start_ok add bits b : 1 <= bits <= 24 -> start bits = Ok b -> hg add (b_hash b) empty 0 /\ inv b empty (abs []) (fun _ _ => []) (fun _ => []) (fun _ => []).
Proof.
  intros B E. unfold start in E. destruct (mhash_create bits) as [h| |] eqn:EC; try discriminate E. cbn [bind] in E. apply Ok_inj in E as <-. split.
  - exists bits, [], h, []. split; [exact B|]. split; [constructor|]. split; [reflexivity|]. split; [cbn [filter]; change (zlen (@nil (op nat))) with 0; lia|]. split; [exact EC|]. split; reflexivity.
  - constructor; cbn [b_rr b_list]; intros; try reflexivity; try discriminate; try contradiction; try constructor; try (intros; contradiction). all: try (match goal with H : abs [] _ _ <> None |- _ => contradiction H; reflexivity end).
    all: try (intros (H & _); apply H; reflexivity).
Qed.

(** ** Any number of records *)
Definition good_state (add : Z) (b : bighash) (es : list entry) (P : Z) : Prop := exists m own ln al, hg add (b_hash b) m P /\ inv b m (abs es) own ln al.
Lemma add_good add b es c e rest P : good_state add b es P -> P + 3 <= 349525 -> call_of c e -> entry_ok e -> orderly (es ++ e :: rest) ->
  exists b' zone', add_call add b c = Ok (1, b', zone') /\ held (j_max (c_zone c)) zone' (e_zone e ++ num2 RR_NS) /\ good_state add b' (es ++ [e]) (P + 3).
Proof.
  intros (m & own & ln & al & G & I) LP K OK O. destruct (add_call_ok _ _ _ _ _ _ I add P c e G LP K OK) as (b' & zone' & m' & own' & ln' & al' & E & HZ & G' & I'). { intros T AE. apply (link_safe es e rest O T AE). }
  exists b', zone'. split; [exact E|]. split; [exact HZ|]. exists m', own', ln', al'. split; [exact G'|]. apply (inv_ext _ _ _ _ _ _ _ _ _ _ I'); try reflexivity. intros q t. apply abs_snoc.
Qed.
Lemma load_good add : forall cs es' es b P, Forall2 call_of cs es' -> Forall entry_ok es' -> orderly (es ++ es') -> good_state add b es P -> P + 3 * zlen es' <= 349525 ->
  exists b', load add b cs = Ok (map (fun _ => 1) cs, b') /\ good_state add b' (es ++ es') (P + 3 * zlen es').
Proof.
  induction cs as [|c cs IH]; intros es' es b P F2 F O GS LP; inversion F2; subst.
  - exists b. split; [reflexivity|]. rewrite app_nil_r. change (zlen (@nil entry)) with 0. replace (P + 3 * 0) with P by lia. exact GS.
  - rename y into e. rename l' into es'. apply Forall_cons_iff in F as (F1 & F). rewrite zlen_cons in LP. pose proof (zlen_nonneg es') as PN. destruct (add_good add b es c e es' P GS ltac:(lia) ltac:(assumption) F1 O) as (b1 & z1 & E1 & _ & GS1).
    destruct (IH es' (es ++ [e]) b1 (P + 3)) as (b2 & E2 & GS2); [assumption|exact F|rewrite <- app_assoc; exact O|exact GS1|lia|]. exists b2. split; [cbn [load]; rewrite E1; cbn [bind]; rewrite E2; reflexivity|]. rewrite <- app_assoc in GS2. rewrite zlen_cons. replace (P + 3 * (zlen es' + 1)) with (P + 3 + 3 * zlen es') by lia. exact GS2.
Qed.

(** ** Looking up *)
Lemma read_own rs t au tail l2 : forall ps is n, chain rs ps is t au tail -> (length ps <= n)%nat -> read_chain (n - length ps) rs tail = Ok l2 ->
  exists l1, read_chain n rs (next_of ps tail) = Ok (l1 ++ l2) /\ map rr_item l1 = is /\ Forall (fun r => rr_type r = t /\ rr_auth r = b2z au) l1.
Proof.
  induction ps as [|p ps IH]; intros [|i is] n C L R; try contradiction C.
  - exists []. cbn [length] in R. rewrite Nat.sub_0_r in R. split; [exact R|]. split; [reflexivity|constructor].
  - destruct C as ((r & E & EI & ET & EA & EN) & C). cbn [length] in L, R. destruct n as [|n]; [lia|]. cbn [Nat.sub] in R. destruct (IH is n C ltac:(lia) R) as (l1 & E1 & M1 & F1). exists (r :: l1). cbn [next_of read_chain]. rewrite (cell_some _ _ _ E). cbn [bind]. rewrite EN, E1. cbn [bind]. split; [reflexivity|]. cbn [map]. rewrite EI, M1. split; [reflexivity|]. constructor; [split; assumption|exact F1].
Qed.
Lemma split_all t l2 : forall l1, Forall (fun r => rr_type r = t) l1 -> match l2 with [] => True | r :: _ => rr_type r <> t end -> split_type t (l1 ++ l2) = (l1, l2).
Proof.
  induction l1 as [|r l1 IH]; intros F H.
  - cbn [app]. destruct l2 as [|x l2]; [reflexivity|]. cbn [split_type]. destruct (Z.eqb_spec (rr_type x) t); [contradiction|reflexivity].
  - apply Forall_cons_iff in F as (F1 & F). cbn [app split_type]. rewrite F1, Z.eqb_refl, (IH F H). reflexivity.
Qed.

Lemma read_served b m es own ln al q t s : inv b m (abs es) own ln al -> abs es q t = Some s ->
  exists r l a n, read_chain (length (b_rr b)) (b_rr b) (Some (hd 0%nat (own q t))) = Ok (r :: l) /\ split_type t (r :: l) = (a, n) /\ served es q t = Some (rr_auth r =? 1, map rr_item a, map rr_item n).
Proof.
  intros I EA. unfold served. pose proof EA as EA'. unfold abs in EA'. destruct (winners es q t) as [|w ws] eqn:EW; [discriminate|]. injection EA' as ES.
  assert (authority w = as_auth s) as AW. { rewrite <- ES. cbn [as_auth]. apply winners_sure. rewrite EW. left. reflexivity. }
  assert (forall z, as_link s = Some z -> t <> RR_NS /\ abs es z RR_NS <> None) as VL by (intros z H; apply (v_link _ _ _ _ _ _ I q t s z EA H)).
  destruct (v_chain _ _ _ _ _ _ I q t s EA) as (NE & C). pose proof (v_dup _ _ _ _ _ _ I q t) as D.
  (* the part behind *)
  assert (exists l2, read_chain (length (b_rr b) - length (own q t)) (b_rr b) (tail_of own s) = Ok l2 /\ map rr_item l2 = nameservers es q t /\ match l2 with [] => True | r :: _ => rr_type r <> t end /\ (length (own q t) <= length (b_rr b))%nat) as (l2 & R2 & M2 & N2 & LB).
  { assert (nameservers es q t = match as_link s with None => [] | Some z => rrset es z RR_NS end) as ->. { rewrite <- ES. cbn [as_link]. unfold nameservers, link_spec. destruct (t =? RR_NS); [reflexivity|]. destruct (first_such (valid es q t) [] es) as [(p & x)|]; [|reflexivity]. destruct (has_ns p (e_zone x)); reflexivity. }
    assert (length (own q t) <= length (b_rr b))%nat as LB by (apply pigeon; [exact D|intros x Hx; apply (chain_in _ _ _ _ _ _ _ C Hx)]).
    unfold tail_of. destruct (as_link s) as [z|] eqn:EL.
    - destruct (VL z eq_refl) as (TN & HZ). destruct (abs es z RR_NS) as [sz|] eqn:EZ; [|contradiction]. destruct (v_chain _ _ _ _ _ _ I z RR_NS sz EZ) as (NZ & CZ). assert (tail_of own sz = None) as TZ. { unfold tail_of. destruct (as_link sz) as [y|] eqn:EY; [|reflexivity]. destruct (v_link _ _ _ _ _ _ I z RR_NS sz y EZ EY) as (X & _). contradiction. } rewrite TZ in CZ.
      assert (length (own q t ++ own z RR_NS) <= length (b_rr b))%nat as LL. { apply pigeon; [|intros x Hx; apply in_app_or in Hx as [Hx|Hx]; apply (own_lt _ _ _ _ _ _ I) in Hx; exact Hx].
        assert (forall (l1 l2 : list nat), NoDup l1 -> NoDup l2 -> (forall x, In x l1 -> ~ In x l2) -> NoDup (l1 ++ l2)) as ND. { induction l1 as [|x l1 IH]; intros l2 D1 D2 DD; [exact D2|]. apply NoDup_cons_iff in D1 as (D0 & D1). cbn [app]. constructor; [|apply IH; [exact D1|exact D2|intros y Hy; apply DD; right; exact Hy]]. intros H. apply in_app_or in H as [H|H]; [contradiction|]. apply (DD x); [left; reflexivity|exact H]. }
        apply ND; [exact D|apply (v_dup _ _ _ _ _ _ I)|]. intros x Hx Hz. destruct (v_disj _ _ _ _ _ _ I _ _ _ _ _ Hx Hz) as (_ & E). contradiction. }
      rewrite app_length in LL. destruct (read_own (b_rr b) RR_NS (as_auth sz) None [] (own z RR_NS) (as_items sz) (length (b_rr b) - length (own q t)) CZ ltac:(lia)) as (l1 & E1 & M1 & F1). { destruct (length (b_rr b) - length (own q t) - length (own z RR_NS))%nat; reflexivity. }
      rewrite app_nil_r in E1. exists l1. split; [destruct (own z RR_NS) as [|h zs]; [contradiction|exact E1]|]. split; [rewrite M1; unfold abs in EZ; destruct (winners es z RR_NS); [discriminate|]; injection EZ as <-; reflexivity|]. split; [|exact LB]. destruct l1 as [|r l1]; [exact Logic.I|]. apply Forall_cons_iff in F1 as ((F1 & _) & _). rewrite F1. congruence.
    - exists []. split; [destruct (length (b_rr b) - length (own q t))%nat; reflexivity|]. split; [reflexivity|]. split; [exact Logic.I|exact LB]. }
  destruct (read_own _ _ _ _ l2 _ _ _ C LB R2) as (l1 & E1 & M1 & F1). assert (next_of (own q t) (tail_of own s) = Some (hd 0%nat (own q t))) as EH by (destruct (own q t); [contradiction|reflexivity]). rewrite EH in E1.
  destruct l1 as [|r l1]. { exfalso. cbn [map] in M1. apply chain_len in C. rewrite <- M1 in C. destruct (own q t); [contradiction|discriminate C]. }
  exists r, (l1 ++ l2), (r :: l1), l2. split; [exact E1|]. split; [change (r :: l1 ++ l2) with ((r :: l1) ++ l2); rewrite split_all; [reflexivity|apply (Forall_impl _ (fun r (H : rr_type r = t /\ rr_auth r = b2z (as_auth s)) => proj1 H) F1)|exact N2]|].
  apply Forall_cons_iff in F1 as ((_ & F1) & _). rewrite F1, M1, M2, AW, <- ES. cbn [as_auth as_items]. destruct (sure es q t); reflexivity.
Qed.
Lemma look_ok add b es P key q t : good_state add b es P -> P <= 349525 -> short key (q ++ num2 t) -> 0 <= t <= 65535 -> t <> RR_ANY -> look_up add b key t = Ok (served es q t).
Proof.
  intros (m & own & ln & al & G & I) LP (HK & _) T TA. assert (held (j_max key) key (q ++ num2 t)) as HQ by (split; [exact HK|reflexivity]). unfold look_up. rewrite (get_ok _ _ _ _ _ _ _ G LP HQ), (v_key _ _ _ _ _ _ I q t T TA). destruct (abs es q t) as [s|] eqn:EA.
  2: { unfold abs in EA. unfold served. destruct (winners es q t); [reflexivity|discriminate]. }
  cbn [bind]. change (3 =? MARA_DNSRR) with true. cbn [negb]. destruct (read_served _ _ _ _ _ _ _ _ _ I EA) as (r & l & a & n & E1 & E2 & ->). rewrite E1. cbn [bind]. rewrite E2. reflexivity.
Qed.

(** All types of a name. *)
Lemma read_links ls : forall ps es n, lchain ls ps es -> (length ps <= n)%nat -> exists l, read_list n ls (next_of ps None) = Ok l /\ map (fun r => (l_type r, l_data r)) l = es.
Proof.
  induction ps as [|p ps IH]; intros [|e es] n C L; try contradiction C; [exists []; destruct n; split; reflexivity|]. destruct C as (E & C). cbn [length] in L. destruct n as [|n]; [lia|]. destruct (IH es n C ltac:(lia)) as (l & E1 & M1). cbn [next_of read_list]. rewrite (cell_some _ _ _ E). cbn [bind l_next]. rewrite E1. cbn [bind].
  eexists. split; [reflexivity|]. cbn [map l_type l_data]. rewrite M1. destruct e. reflexivity.
Qed.
Lemma look_any_ok add b es P key q : good_state add b es P -> P <= 349525 -> short key (q ++ num2 RR_ANY) ->
  exists l, look_any add b key = Ok l /\ NoDup (map fst l) /\ forall t x, In (t, x) l <-> served es q t = Some x.
Proof.
  intros (m & own & ln & al & G & I) LP (HK & _). assert (held (j_max key) key (q ++ num2 RR_ANY)) as HQ by (split; [exact HK|reflexivity]).
  assert (exists l, (match ln q with [] => Ok [] | p :: _ => l <- read_list (length (b_list b)) (b_list b) (Some p) ;; sets_at b l end) = Ok l /\ map fst l = map fst (al q) /\ Forall (fun e => served es q (fst e) = Some (snd e)) l) as (l & E & MF & F).
  { assert (length (ln q) <= length (b_list b))%nat as LB by (apply pigeon; [apply (v_ldup _ _ _ _ _ _ I)|intros p Hp; apply (ln_lt _ _ _ _ _ _ I) in Hp; exact Hp]). destruct (read_links _ _ _ _ (v_lchain _ _ _ _ _ _ I q) LB) as (l & EL & ML).
    assert (forall l, incl (map (fun r => (l_type r, l_data r)) l) (al q) -> exists l', sets_at b l = Ok l' /\ map fst l' = map (fun r => l_type r) l /\ Forall (fun e => served es q (fst e) = Some (snd e)) l') as X.
    { clear l EL ML. induction l as [|r l IH]; intros H; [exists []; split; [reflexivity|]; split; [reflexivity|constructor]|]. cbn [map] in H. destruct IH as (l' & E1 & E2 & E3); [intros x Hx; apply H; right; exact Hx|]. assert (In (l_type r, l_data r) (al q)) as IA by (apply H; left; reflexivity). apply (v_al _ _ _ _ _ _ I) in IA as (IA & ID).
      destruct (abs es q (l_type r)) as [s|] eqn:EA; [|contradiction]. destruct (read_served _ _ _ _ _ _ _ _ _ I EA) as (r0 & l0 & a & n & R1 & R2 & R3). cbn [sets_at]. unfold set_at. rewrite ID, R1. cbn [bind]. rewrite R2. cbn [bind]. rewrite E1. cbn [bind]. eexists. split; [reflexivity|]. cbn [map fst]. rewrite E2. split; [reflexivity|]. constructor; [exact R3|exact E3]. }
    destruct (X l) as (l' & E1 & E2 & E3); [rewrite ML; apply incl_refl|]. assert (map fst (al q) = map (fun r => l_type r) l) as MT by (rewrite <- ML, map_map; reflexivity). destruct (ln q) as [|p ps].
    - cbn [next_of] in EL. exists []. split; [reflexivity|]. assert (l = []) as -> by (destruct (length (b_list b)); cbn [read_list] in EL; congruence). rewrite MT. split; [reflexivity|constructor].
    - cbn [next_of] in EL. rewrite EL. cbn [bind]. exists l'. split; [exact E1|]. rewrite MT. split; [exact E2|exact E3]. }
  exists l. split. { unfold look_any. rewrite (get_ok _ _ _ _ _ _ _ G LP HQ), (v_any _ _ _ _ _ _ I q). destruct (ln q) as [|p ps]; [exact E|]. cbn [bind]. change (6 =? MARA_DNS_LIST) with true. cbn [negb]. exact E. }
  split; [rewrite MF; apply (v_types _ _ _ _ _ _ I)|]. intros t x. rewrite Forall_forall in F. split; [intros H; apply (F _ H)|]. intros H. assert (abs es q t <> None) as NA by (unfold abs; unfold served in H; destruct (winners es q t); discriminate).
  assert (In t (map fst (al q))) as IT by (apply in_map_iff; exists (t, hd 0%nat (own q t)); split; [reflexivity|]; apply (v_al _ _ _ _ _ _ I); split; [exact NA|reflexivity]). rewrite <- MF in IT. apply in_map_iff in IT as ((t' & x') & ET & HI). cbn [fst] in ET. subst t'. pose proof (F _ HI) as H'. cbn [fst snd] in H'. rewrite H in H'. injection H' as ->. exact HI.
Qed.
