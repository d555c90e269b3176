(** Loading zones: the chains in memory, and the four ways a record is added. *)
From Verif Require Import CBase Bits ModelDwStr SpecDwStr ProofDwStr SpecNames SpecAcl ModelJsStr SpecJsStr ProofJsStr ProofJsSearch ModelQueries SpecQueries ProofHname ProofJsList ModelMaraHash SpecMaraHash ProofMaraHash
  ModelServe ProofServe ModelBigHash SpecBigHash ProofBigHash ProofBigAuth.

(** ** Chains of records *)
Definition b2z (b : bool) : Z := if b then 1 else 0.
Definition next_of (ps : list nat) (tail : option nat) : option nat := match ps with [] => tail | p :: _ => Some p end.
Fixpoint chain (rs : list (option rr)) (ps : list nat) (is : list item) (t : Z) (au : bool) (tail : option nat) : Prop :=
  match ps, is with
  | [], [] => True
  | p :: ps, i :: is => (exists r, nth_error rs p = Some (Some r) /\ rr_item r = i /\ rr_type r = t /\ rr_auth r = b2z au /\ rr_next r = next_of ps tail) /\ chain rs ps is t au tail
  | _, _ => False
  end.
Lemma chain_frame rs rs' t au tail : forall ps is, chain rs ps is t au tail -> (forall p, In p ps -> nth_error rs' p = nth_error rs p) -> chain rs' ps is t au tail.
Proof.
  induction ps as [|p ps IH]; intros [|i is] C F; try exact C. destruct C as ((r & E & X) & C). split; [exists r; split; [rewrite F by (left; reflexivity); exact E|exact X]|]. apply IH; [exact C|]. intros x I. apply F. right. exact I.
Qed.
Lemma chain_len rs t au tail : forall ps is, chain rs ps is t au tail -> length ps = length is.
Proof. induction ps as [|p ps IH]; intros [|i is] C; try reflexivity; try contradiction C. destruct C as (_ & C). cbn [length]. f_equal. apply IH, C. Qed.
Lemma chain_in rs t au tail p : forall ps is, chain rs ps is t au tail -> In p ps -> (p < length rs)%nat.
Proof.
  induction ps as [|x ps IH]; intros [|i is] C I; try contradiction. destruct C as ((r & E & _) & C). destruct I as [-> |I]; [apply (nth_lt _ _ _ E)|]. apply (IH is C I).
Qed.
Lemma pigeon (ps : list nat) n : NoDup ps -> (forall p, In p ps -> (p < n)%nat) -> (length ps <= n)%nat.
Proof. intros D B. rewrite <- (seq_length n 0). apply NoDup_incl_length; [exact D|]. intros p I. apply in_seq. specialize (B p I). lia. Qed.

(** The record before the NS records. *)
Lemma before_ns_ok rs au tail t : t <> RR_NS -> match tail with None => True | Some q => exists r, nth_error rs q = Some (Some r) /\ rr_type r = RR_NS end ->
  forall ps p is n, chain rs (p :: ps) is t au tail -> (length (p :: ps) <= n)%nat -> before_ns n rs p = Ok (last (p :: ps) 0%nat).
Proof.
  intros T TL. induction ps as [|q ps IH]; intros p [|i is] n C L; try contradiction C; destruct n as [|n]; cbn [length] in L; try lia; destruct C as ((r & E & EI & ET & EA & EN) & C); cbn [before_ns]; rewrite (cell_some _ _ _ E); cbn [bind]; rewrite EN; cbn [next_of].
  - destruct tail as [q|]; [|reflexivity]. destruct TL as (x & EX & TX). rewrite (cell_some _ _ _ EX). cbn [bind]. rewrite TX. reflexivity.
  - destruct is as [|i2 is]; [contradiction C|]. pose proof C as C'. destruct C' as ((x & EX & _ & TX & _) & _). rewrite (cell_some _ _ _ EX). cbn [bind]. rewrite TX. replace (t =? RR_NS) with false by lia. rewrite (IH q (i2 :: is) n C) by (cbn [length]; lia). reflexivity.
Qed.
Lemma before_ns_first rs au p ps is n : chain rs (p :: ps) is RR_NS au None -> (1 <= n)%nat -> before_ns n rs p = Ok p.
Proof.
  intros C L. destruct is as [|i is]; [contradiction C|]. destruct n as [|n]; [lia|]. destruct C as ((r & E & EI & ET & EA & EN) & C). cbn [before_ns]. rewrite (cell_some _ _ _ E). cbn [bind]. rewrite EN. destruct ps as [|q ps]; cbn [next_of]; [reflexivity|].
  destruct is as [|i2 is]; [contradiction C|]. destruct C as ((x & EX & _ & TX & _) & _). rewrite (cell_some _ _ _ EX). cbn [bind]. rewrite TX. reflexivity.
Qed.
(** Adding a cell behind the [k]-th one. *)
Definition put_after (k : nat) {A} (l : list A) (x : A) : list A := firstn k l ++ x :: skipn k l.
Lemma put_after_in {A} k (l : list A) x y : In y (put_after k l x) <-> y = x \/ In y l.
Proof. unfold put_after. rewrite in_app_iff. cbn [In]. rewrite <- (firstn_skipn k l) at 3. rewrite in_app_iff. firstorder congruence. Qed.
Lemma put_after_nodup {A} k (l : list A) x : NoDup l -> ~ In x l -> NoDup (put_after k l x).
Proof. intros D N. unfold put_after. apply NoDup_Add with (a := x) (l := l); [|split; assumption]. pose proof (Add_app x (firstn k l) (skipn k l)) as X. rewrite firstn_skipn in X. exact X. Qed.
Lemma chain_insert t au tail new i0 : forall k rs ps is p r, chain rs ps is t au tail -> NoDup ps -> (k < length ps)%nat -> nth k ps 0%nat = p -> nth_error rs p = Some (Some r) ->
  new = length rs -> rr_item i0 = rr_item i0 -> rr_type i0 = t -> rr_auth i0 = b2z au -> rr_next i0 = rr_next r ->
  chain (upd (rs ++ [Some i0]) p (Some (set_next r (Some new)))) (put_after (S k) ps new) (put_after (S k) is (rr_item i0)) t au tail.
Proof.
  induction k as [|k IH]; intros rs ps is p r C D L EP E -> _ T A N; destruct ps as [|x ps]; cbn [length] in L; try lia; destruct is as [|i is]; try contradiction C; pose proof C as ((r0 & E0 & EI & ET & EA & EN) & C'); apply NoDup_cons_iff in D as (DX & D); cbn [nth] in EP.
  - subst x. rewrite E in E0. injection E0 as <-. assert (p < length rs)%nat as LP by apply (nth_lt _ _ _ E). unfold put_after. cbn [firstn skipn app chain].
    assert (forall j, nth_error (upd (rs ++ [Some i0]) p (Some (set_next r (Some (length rs))))) j = if (j =? p)%nat then Some (Some (set_next r (Some (length rs)))) else nth_error (rs ++ [Some i0]) j) as U by (intros j; apply nth_upd; rewrite app_length; cbn [length]; lia).
    split; [|split].
    + exists (set_next r (Some (length rs))). rewrite U, Nat.eqb_refl. split; [reflexivity|]. split; [exact EI|]. split; [exact ET|]. split; [exact EA|reflexivity].
    + exists i0. rewrite U. replace (length rs =? p)%nat with false by (symmetry; apply Nat.eqb_neq; lia). rewrite nth_new. split; [reflexivity|]. split; [reflexivity|]. split; [exact T|]. split; [exact A|]. rewrite N, EN. destruct ps; reflexivity.
    + apply (chain_frame rs); [exact C'|]. intros j I. rewrite U. assert (j < length rs)%nat by apply (chain_in _ _ _ _ _ _ _ C' I). replace (j =? p)%nat with false by (symmetry; apply Nat.eqb_neq; congruence). apply nth_old. assumption.
  - specialize (IH rs ps is p r C' D ltac:(lia) EP E eq_refl eq_refl T A N). unfold put_after in *. cbn [firstn skipn app chain]. split; [|exact IH].
    assert (p < length rs)%nat as LP by apply (nth_lt _ _ _ E). assert (x <> p) as NX. { intros ->. apply DX. rewrite <- EP. apply nth_In. lia. } assert (x < length rs)%nat as LX by apply (nth_lt _ _ _ E0).
    exists r0. rewrite nth_upd by (rewrite app_length; cbn [length]; lia). replace (x =? p)%nat with false by (symmetry; apply Nat.eqb_neq; congruence). rewrite nth_old by exact LX. split; [exact E0|]. split; [exact EI|]. split; [exact ET|]. split; [exact EA|].
    rewrite EN. destruct ps as [|y ps]; [cbn [length] in L; lia|]. reflexivity.
Qed.

Lemma last_in (l : list nat) : l <> [] -> In (last l 0%nat) l.
Proof. intros N. pose proof (app_removelast_last 0%nat N) as E. rewrite E at 2. apply in_or_app. right. left. reflexivity. Qed.

(** ** The ANY chains *)
Fixpoint lchain (ls : list (option rr_list)) (ps : list nat) (es : list (Z * nat)) : Prop :=
  match ps, es with
  | [], [] => True
  | p :: ps, e :: es => nth_error ls p = Some (Some (mklist (fst e) (snd e) (next_of ps None))) /\ lchain ls ps es
  | _, _ => False
  end.
Lemma lchain_frame ls ls' : forall ps es, lchain ls ps es -> (forall p, In p ps -> nth_error ls' p = nth_error ls p) -> lchain ls' ps es.
Proof.
  induction ps as [|p ps IH]; intros [|e es] C F; try exact C. destruct C as (E & C). split; [rewrite F by (left; reflexivity); exact E|]. apply IH; [exact C|]. intros x I. apply F. right. exact I.
Qed.
Lemma lchain_len ls : forall ps es, lchain ls ps es -> length ps = length es.
Proof. induction ps as [|p ps IH]; intros [|i is] C; try reflexivity; try contradiction C. destruct C as (_ & C). cbn [length]. f_equal. apply IH, C. Qed.
Lemma lchain_in ls p : forall ps es, lchain ls ps es -> In p ps -> (p < length ls)%nat.
Proof. induction ps as [|x ps IH]; intros [|i is] C I; try contradiction. destruct C as (E & C). destruct I as [-> |I]; [apply (nth_lt _ _ _ E)|]. apply (IH is C I). Qed.
Lemma list_end_ok ls : forall ps p es n, lchain ls (p :: ps) es -> (length ps <= n)%nat -> list_end n ls p = Ok (last (p :: ps) 0%nat).
Proof.
  induction ps as [|q ps IH]; intros p [|e es] n C L; try contradiction C; destruct C as (E & C); cbn [length] in L.
  - destruct n as [|n]; cbn [list_end]; [reflexivity|]. rewrite (cell_some _ _ _ E). reflexivity.
  - destruct n as [|n]; [lia|]. cbn [list_end]. rewrite (cell_some _ _ _ E). cbn [bind l_next next_of]. rewrite (IH q es n C) by lia. reflexivity.
Qed.
Lemma lchain_snoc t d : forall ls ps es p r, lchain ls ps es -> NoDup ps -> ps <> [] -> p = last ps 0%nat -> nth_error ls p = Some (Some r) ->
  lchain (upd (ls ++ [Some (mklist t d None)]) p (Some (set_lnext r (Some (length ls))))) (ps ++ [length ls]) (es ++ [(t, d)]).
Proof.
  intros ls ps. induction ps as [|x ps IH]; intros es p r C D N EP E; [contradiction|]. destruct es as [|e es]; [contradiction C|]. pose proof C as (E0 & C'). apply NoDup_cons_iff in D as (DX & D). assert (p < length ls)%nat as LP by apply (nth_lt _ _ _ E). assert (x < length ls)%nat as LX by apply (nth_lt _ _ _ E0).
  assert (forall j, nth_error (upd (ls ++ [Some (mklist t d None)]) p (Some (set_lnext r (Some (length ls))))) j = if (j =? p)%nat then Some (Some (set_lnext r (Some (length ls)))) else nth_error (ls ++ [Some (mklist t d None)]) j) as U by (intros j; apply nth_upd; rewrite app_length; cbn [length]; lia).
  cbn [app lchain]. destruct ps as [|y ps].
  - cbn [last] in EP. subst x. destruct es as [|e2 es]; [|contradiction C']. rewrite E in E0. injection E0 as ->. split; [rewrite U, Nat.eqb_refl; reflexivity|]. cbn [app lchain]. split; [|exact Logic.I]. rewrite U. replace (length ls =? p)%nat with false by (symmetry; apply Nat.eqb_neq; lia). apply nth_new.
  - assert (p = last (y :: ps) 0%nat) as EP' by exact EP. split.
    + assert (x <> p) as NX. { intros ->. apply DX. rewrite EP'. apply last_in. discriminate. }
      rewrite U. replace (x =? p)%nat with false by (symmetry; apply Nat.eqb_neq; congruence). rewrite nth_old by exact LX. rewrite E0. reflexivity.
    + apply IH; [exact C'|exact D|discriminate|exact EP'|exact E].
Qed.
Lemma lchain_last ls : forall ps es, lchain ls ps es -> ps <> [] -> exists r, nth_error ls (last ps 0%nat) = Some (Some r) /\ l_next r = None.
Proof.
  induction ps as [|p ps IH]; intros [|e es] C N; try contradiction; destruct C as (E & C). destruct ps as [|q ps]; [eexists; split; [exact E|reflexivity]|]. destruct (IH es C ltac:(discriminate)) as (r & E1 & E2). exists r. split; [exact E1|exact E2].
Qed.

(** Taking a link out. *)
Lemma list_zap_ok d t : forall n1 ls p0 x n2 e0 a1 a2 n, lchain ls (p0 :: n1 ++ x :: n2) (e0 :: a1 ++ (t, d) :: a2) -> length n1 = length a1 -> NoDup (p0 :: n1 ++ x :: n2) -> ~ In d (map snd a1) -> (length n1 < n)%nat ->
  exists ls', list_zap n ls p0 d = Ok (1, ls') /\ lchain ls' (p0 :: n1 ++ n2) (e0 :: a1 ++ a2) /\ (forall j, ~ In j (p0 :: n1 ++ x :: n2) -> nth_error ls' j = nth_error ls j) /\ length ls' = length ls.
Proof.
  induction n1 as [|y n1 IH]; intros ls p0 x n2 e0 [|a a1] a2 n C L D NI LN; cbn [length] in L, LN; try lia; destruct n as [|n]; try lia; cbn [app] in *; destruct C as (E0 & C); cbn [next_of app] in E0; cbn [list_zap]; rewrite (cell_some _ _ _ E0); cbn [bind l_next].
  - destruct C as (EX & C). cbn [fst snd] in EX. rewrite (cell_some _ _ _ EX). cbn [bind l_data]. rewrite Nat.eqb_refl. apply NoDup_cons_iff in D as (D0 & D). apply NoDup_cons_iff in D as (DX & D). assert (p0 <> x) as N0 by (intros ->; apply D0; left; reflexivity).
    assert (p0 < length ls)%nat as L0 by apply (nth_lt _ _ _ E0). assert (x < length ls)%nat as LX by apply (nth_lt _ _ _ EX). rewrite (set_ok _ _ _ _ E0). cbn [bind].
    assert (nth_error (upd ls p0 (Some (set_lnext (mklist (fst e0) (snd e0) (Some x)) (l_next (mklist t d (next_of n2 None)))))) x = Some (Some (mklist t d (next_of n2 None)))) as EX' by (rewrite nth_upd by exact L0; replace (x =? p0)%nat with false by (symmetry; apply Nat.eqb_neq; congruence); exact EX).
    rewrite (free_ok _ _ _ EX'). cbn [bind]. eexists. split; [reflexivity|].
    assert (forall j, nth_error (upd (upd ls p0 (Some (set_lnext (mklist (fst e0) (snd e0) (Some x)) (next_of n2 None)))) x None) j = if (j =? x)%nat then Some None else if (j =? p0)%nat then Some (Some (mklist (fst e0) (snd e0) (next_of n2 None))) else nth_error ls j) as U.
    { intros j. rewrite nth_upd by (rewrite len_upd by exact L0; exact LX). destruct (j =? x)%nat; [reflexivity|]. rewrite nth_upd by exact L0. reflexivity. }
    cbn [l_next]. split; [|split].
    + cbn [lchain]. split; [rewrite U; replace (p0 =? x)%nat with false by (symmetry; apply Nat.eqb_neq; congruence); rewrite Nat.eqb_refl; reflexivity|].
      apply (lchain_frame ls); [exact C|]. intros j I. rewrite U. replace (j =? x)%nat with false by (symmetry; apply Nat.eqb_neq; congruence). replace (j =? p0)%nat with false; [reflexivity|]. symmetry. apply Nat.eqb_neq. intros ->. apply D0. right. exact I.
    + intros j NJ. rewrite U. replace (j =? x)%nat with false by (symmetry; apply Nat.eqb_neq; intros ->; apply NJ; right; left; reflexivity). replace (j =? p0)%nat with false by (symmetry; apply Nat.eqb_neq; intros ->; apply NJ; left; reflexivity). reflexivity.
    + rewrite len_upd by (rewrite len_upd by exact L0; exact LX). apply len_upd. exact L0.
  - pose proof C as (EY & _). cbn [map In] in NI. apply NoDup_cons_iff in D as (D0 & D). rewrite (cell_some _ _ _ EY). cbn [bind l_data]. replace (snd a =? d)%nat with false by (symmetry; apply Nat.eqb_neq; tauto).
    destruct (IH ls y x n2 a a1 a2 n C ltac:(lia) D ltac:(tauto) ltac:(lia)) as (ls' & -> & C' & F & LL). exists ls'. split; [reflexivity|]. split; [|split; [|exact LL]].
    + cbn [lchain]. split; [|exact C']. rewrite F by exact D0. exact E0.
    + intros j NJ. apply F. intros I. apply NJ. right. exact I.
Qed.
