(** udpsuccess: the heap, and showing one record. *)
From Verif Require Import CBase Bits ModelDwStr SpecDwStr ProofDwStr SpecNames SpecMessage SpecAcl SpecDeadwoodMsg SpecQuery ModelJsStr SpecJsStr ProofJsStr ProofJsSearch
  ModelQueries SpecQueries ProofQueries ProofHname ModelDecomp SpecDecomp ProofJsList ProofDecompRec ModelCompress SpecCompress ModelMaraHash ModelServe ModelBigHash ProofBigHash ModelSuccess SpecSuccess.
From Verif Require Import SpecMessage SpecQueries.

(** ** Appending a record *)
Lemma l_add_app cap y a b : obind (l_add cap y a) (fun z => l_add cap z b) = l_add cap y (a ++ b).
Proof.
  unfold l_add. rewrite zlen_app. pose proof (zlen_nonneg a). pose proof (zlen_nonneg b). destruct (zlen y + zlen a <? cap) eqn:G; cbn [obind].
  - rewrite zlen_app. replace (zlen y + zlen a + zlen b <? cap) with (zlen y + (zlen a + zlen b) <? cap) by (f_equal; lia). rewrite app_assoc. reflexivity.
  - replace (zlen y + (zlen a + zlen b) <? cap) with false by lia. reflexivity.
Qed.
Lemma put_agree cap c r s y : is_rr c r -> held cap s y -> agree (held cap) (put_rr c s) (l_add cap y (rr_plain r)).
Proof.
  intros (P & HQ & HD & EM & T & ET) H. pose proof P as (_ & TR & _ & LD & _). unfold put_rr.
  assert (rr_plain r = (wire (rr_owner r) ++ num16 (rr_type r)) ++ be 2 1 ++ be 4 (s_ttl c) ++ be 2 (zlen (rdata_plain r)) ++ rdata_plain r) as E.
  { unfold rr_plain. rewrite EM. pose proof (zlen_nonneg (rdata_plain r)). rewrite !be_num16 by lia. change (num16 1) with [0; 1]. rewrite <- !app_assoc. reflexivity. }
  rewrite E. set (q := wire (rr_owner r) ++ num16 (rr_type r)) in *. rewrite <- l_add_app. eapply agree_bind; [apply append_agree; [exact HQ|exact H]|]. intros s1 y1 H1 _.
  rewrite <- l_add_app. eapply agree_bind; [apply adduint16_agree; [exact H1|lia]|]. intros s2 y2 H2 _.
  rewrite <- l_add_app. eapply agree_bind; [apply adduint32_agree; [exact H2|exact T]|]. intros s3 y3 H3 _.
  rewrite <- (fa_len _ _ (hold_facts _ _ HD)). rewrite <- l_add_app. eapply agree_bind; [apply adduint16_agree; [exact H3|pose proof (zlen_nonneg (rdata_plain r)); lia]|]. intros s4 y4 H4 _.
  apply append_agree; [exact HD|exact H4].
Qed.
Lemma rr_plain_pos r : 11 <= zlen (rr_plain r) - zlen (rr_meta r) + 6 .
Proof. unfold rr_plain. rewrite !zlen_app. change (zlen (num16 _)) with 2. change (zlen (num16 (zlen (rdata_plain r)))) with 2. assert (1 <= zlen (wire (rr_owner r))) by (induction (rr_owner r); cbn [wire]; rewrite ?zlen_cons, ?zlen_app; [cbn; lia|pose proof (zlen_nonneg a); lia]). pose proof (zlen_nonneg (rdata_plain r)). lia. Qed.

(** ** The heap *)
Section Run.
Context (h0 : heap) (ls : list (option rr_list)) (G : nat -> Prop) (R : nat -> rr).
Definition nx0 (q : nat) : option nat := match nth_error h0 q with Some (Some c) => s_next c | _ => None end.
Definition marked (seen : list nat) (q : nat) : bool := existsb (Nat.eqb q) seen.
Definition now (nx : nat -> option nat) (seen : list nat) (q : nat) (c : srr) : srr := set_seen (set_snext c (nx q)) (if marked seen q then 1 else s_seen c).
Definition repr (nx : nat -> option nat) (seen : list nat) (h : heap) : Prop :=
  length h = length h0 /\ forall q, nth_error h q = match nth_error h0 q with Some (Some c) => Some (Some (now nx seen q c)) | o => o end.
(** Next pointers that stay in [G], keep to the rules and come to an end. *)
Record links (nx : nat -> option nat) : Prop := {
  li_next : forall p q, G p -> nx p = Some q -> G q /\ (rr_type (R q) = 2 \/ same_set (R p) (R q));
  li_rank : exists rank : nat -> nat, forall p q, G p -> nx p = Some q -> (rank q < rank p)%nat }.
Inductive path (nx : nat -> option nat) : option nat -> list nat -> Prop :=
| path_end : path nx None []
| path_more p l : G p -> path nx (nx p) l -> path nx (Some p) (p :: l).

Context (RO : records_ok h0 ls G R).
Lemma at_inj h p a b : at_ h p a -> at_ h p b -> a = b.
Proof. unfold at_. intros A B. rewrite A in B. injection B as ->. reflexivity. Qed.
Lemma nx0_at p c : at_ h0 p c -> nx0 p = s_next c.
Proof. unfold nx0, at_. intros ->. reflexivity. Qed.
Lemma G_cell p : G p -> exists c, at_ h0 p c /\ is_rr c (R p) /\ (s_auth c = 0 \/ s_auth c = 1) /\ s_seen c = 0.
Proof. apply (ro_cell _ _ _ _ RO). Qed.
Lemma G_below p : G p -> (p < length h0)%nat.
Proof. intros P. destruct (G_cell p P) as (c & A & _). apply nth_error_Some. unfold at_ in A. rewrite A. discriminate. Qed.
Lemma links0 : links nx0.
Proof.
  constructor.
  - intros p q P E. destruct (G_cell p P) as (c & A & _). rewrite (nx0_at p c A) in E. apply (ro_next _ _ _ _ RO p c q P A E).
  - destruct (ro_rank _ _ _ _ RO) as (rank & RK). exists rank. intros p q P E. destruct (G_cell p P) as (c & A & _). rewrite (nx0_at p c A) in E. apply (RK p c q P A E).
Qed.
Lemma set_seen_same r : set_seen (set_snext r (s_next r)) (s_seen r) = r. Proof. destruct r; reflexivity. Qed.
Lemma repr0 : repr nx0 [] h0.
Proof.
  split; [reflexivity|]. intros q. destruct (nth_error h0 q) as [[c|]|] eqn:E; try reflexivity. unfold now, marked. cbn [existsb]. rewrite (nx0_at q c E). rewrite set_seen_same. reflexivity.
Qed.
Lemma path_ex nx w : links nx -> (forall p, w = Some p -> G p) -> exists l, path nx w l.
Proof.
  intros [N (rank & RK)] W. destruct w as [p|]; [|exists []; constructor]. specialize (W p eq_refl). remember (rank p) as k eqn:EK. revert p W EK. induction k as [k IH] using lt_wf_ind. intros p P ->.
  destruct (nx p) as [q|] eqn:E.
  - destruct (N p q P E) as (Q & _). destruct (IH (rank q) (RK p q P E) q Q eq_refl) as (l & L). exists (p :: l). constructor; [exact P|]. rewrite E. exact L.
  - exists [p]. constructor; [exact P|]. rewrite E. constructor.
Qed.
Lemma path_G nx w l : path nx w l -> Forall G l.
Proof. induction 1; constructor; assumption. Qed.
Lemma path_rank nx rank : (forall p q, G p -> nx p = Some q -> (rank q < rank p)%nat) -> forall w l, path nx w l -> match w with Some p => Forall (fun q => rank q <= rank p)%nat l | None => l = [] end.
Proof.
  intros RK w l H. induction H as [|p l P H IH]; [reflexivity|]. constructor; [lia|]. destruct (nx p) as [q|] eqn:E; [|subst l; constructor]. specialize (RK p q P E). revert IH. apply Forall_impl. intros a A. lia.
Qed.
Lemma path_nodup nx w l : links nx -> path nx w l -> NoDup l.
Proof.
  intros [N (rank & RK)] H. induction H as [|p l P H IH]; [constructor|]. constructor; [|exact IH]. intros I. pose proof (path_rank nx rank RK _ _ H) as X. destruct (nx p) as [q|] eqn:E; [|subst l; destruct I].
  rewrite Forall_forall in X. specialize (X p I). specialize (RK p q P E). lia.
Qed.
Lemma path_short nx w l : links nx -> path nx w l -> (length l <= length h0)%nat.
Proof.
  intros L H. pose proof (path_nodup nx w l L H) as N. pose proof (path_G nx w l H) as GL. rewrite <- (seq_length (length h0) 0). apply (NoDup_incl_length N). intros p I. apply in_seq. rewrite Forall_forall in GL. pose proof (G_below p (GL p I)). lia.
Qed.
Lemma path_det nx w l : path nx w l -> forall l', path nx w l' -> l = l'.
Proof. induction 1 as [|p l P H IH]; intros l' H'; inversion H'; subst; [reflexivity|]. f_equal. apply IH. assumption. Qed.
(** All but the name servers at its end have the same name and type. *)
Lemma path_kin nx p l : links nx -> path nx (Some p) l -> forall q, In q l -> rr_type (R q) = 2 \/ same_set (R p) (R q).
Proof.
  intros L. revert p. induction l as [|x l IH]; intros p H q I; [destruct I|]. inversion H as [|p' l' P H']; subst. destruct I as [-> |I]; [right; split; reflexivity|].
  destruct (nx x) as [y|] eqn:E; [|inversion H'; subst; destruct I]. destruct (IH y H' q I) as [X|X]; [left; exact X|]. destruct (li_next nx L x y P E) as (_ & [Y|Y]).
  - left. rewrite <- Y. symmetry. apply X.
  - right. destruct X as (X1 & X2), Y as (Y1 & Y2). split; congruence.
Qed.
Lemma chain_path w l : chain h0 w l -> (forall p, w = Some p -> G p) -> path nx0 w l.
Proof.
  induction 1 as [|p c l A H IH]; intros W; [constructor|]. constructor; [apply W; reflexivity|]. rewrite (nx0_at p c A). apply IH. intros q E. apply (ro_next _ _ _ _ RO p c q (W p eq_refl) A E).
Qed.
Lemma path_chain nx seen h w l : repr nx seen h -> path nx w l -> chain h w l.
Proof.
  intros (_ & RP) H. induction H as [|p l P H IH]; [constructor|]. destruct (G_cell p P) as (c & A & _). apply (chain_more h p (now nx seen p c)); [|exact IH]. unfold at_. rewrite RP. unfold at_ in A. rewrite A. reflexivity.
Qed.

Lemma cell_now nx seen h p : repr nx seen h -> G p -> exists c, at_ h0 p c /\ is_rr c (R p) /\ (s_auth c = 0 \/ s_auth c = 1) /\ s_seen c = 0 /\ cell h p = Ok (now nx seen p c).
Proof.
  intros (_ & RP) P. destruct (G_cell p P) as (c & A & I & B & S0). exists c. split; [exact A|]. split; [exact I|]. split; [exact B|]. split; [exact S0|]. apply cell_some. rewrite RP. unfold at_ in A. rewrite A. reflexivity.
Qed.
Lemma repr_upd nx seen h p x nx' seen' c : repr nx seen h -> at_ h0 p c -> x = now nx' seen' p c -> (forall q, q <> p -> nx' q = nx q /\ marked seen' q = marked seen q) -> repr nx' seen' (upd h p (Some x)).
Proof.
  intros (L & RP) A -> OTHER. assert (p < length h)%nat as B by (rewrite L; apply nth_error_Some; unfold at_ in A; rewrite A; discriminate). split; [rewrite len_upd by exact B; exact L|].
  intros q. rewrite nth_upd by exact B. destruct (Nat.eqb_spec q p) as [-> |D].
  - unfold at_ in A. rewrite A. reflexivity.
  - rewrite RP. destruct (nth_error h0 q) as [[d|]|]; try reflexivity. unfold now. destruct (OTHER q D) as (-> & ->). reflexivity.
Qed.
Lemma put_next_ok nx seen h p n : repr nx seen h -> G p -> exists h', put_next h p n = Ok h' /\ repr (fun q => if (q =? p)%nat then n else nx q) seen h'.
Proof.
  intros RP P. destruct (cell_now nx seen h p RP P) as (c & A & _ & _ & _ & E). unfold put_next. rewrite E. cbn [bind]. unfold set_cell. rewrite E. cbn [bind]. eexists. split; [reflexivity|].
  eapply repr_upd; [exact RP|exact A| |].
  - unfold now. rewrite Nat.eqb_refl. reflexivity.
  - intros q D. destruct (Nat.eqb_spec q p) as [X|_]; [destruct (D X)|]. split; reflexivity.
Qed.
Lemma put_seen_ok nx seen h p : repr nx seen h -> G p -> exists h', put_seen h p 1 = Ok h' /\ repr nx (p :: seen) h'.
Proof.
  intros RP P. destruct (cell_now nx seen h p RP P) as (c & A & _ & _ & _ & E). unfold put_seen. rewrite E. cbn [bind]. unfold set_cell. rewrite E. cbn [bind]. eexists. split; [reflexivity|].
  eapply repr_upd; [exact RP|exact A| |].
  - unfold now, marked. cbn [existsb]. rewrite Nat.eqb_refl. reflexivity.
  - intros q D. split; [reflexivity|]. unfold marked. cbn [existsb]. destruct (Nat.eqb_spec q p) as [X|_]; [destruct (D X)|reflexivity].
Qed.
Lemma marked_in seen q : marked seen q = true <-> In q seen.
Proof. unfold marked. rewrite existsb_exists. split; [intros (x & I & E); apply Nat.eqb_eq in E as ->; exact I|intros I; exists q; split; [exact I|apply Nat.eqb_refl]]. Qed.
Lemma repr_equiv nx seen seen' h : repr nx seen h -> (forall q, marked seen' q = marked seen q) -> repr nx seen' h.
Proof. intros (L & RP) E. split; [exact L|]. intros q. rewrite RP. destruct (nth_error h0 q) as [[c|]|]; try reflexivity. unfold now. rewrite E. reflexivity. Qed.
Lemma unmark_ok nx seen : NoDup seen -> forall h, repr nx seen h -> Forall G seen -> exists h', unmark seen h = Ok h' /\ repr nx [] h'.
Proof.
  induction 1 as [|p seen NI ND IH]; intros h RP F; [exists h; split; [reflexivity|exact RP]|]. apply Forall_cons_iff in F as (P & F). cbn [unmark].
  destruct (cell_now nx (p :: seen) h p RP P) as (c & A & _ & _ & S0 & E). unfold put_seen. rewrite E. cbn [bind]. unfold set_cell. rewrite E. cbn [bind].
  apply IH; [|exact F]. assert (marked seen p = false) as M by (destruct (marked seen p) eqn:M; [apply marked_in in M; destruct (NI M)|reflexivity]). eapply repr_upd; [exact RP|exact A| |].
  - unfold now. rewrite M, S0. reflexivity.
  - intros q D. split; [reflexivity|]. unfold marked. cbn [existsb]. destruct (Nat.eqb_spec q p) as [X|_]; [destruct (D X)|reflexivity].
Qed.

(** ** Lists of records *)
Notation plain l := (plain_records (map R l)).
Lemma plain_app a b : plain (a ++ b) = plain a ++ plain b.
Proof. unfold plain_records. rewrite !map_app, concat_app. reflexivity. Qed.
Lemma plain_one p : plain [p] = rr_plain (R p).
Proof. unfold plain_records. cbn [map concat]. apply app_nil_r. Qed.
Lemma plain_snoc l p : plain (l ++ [p]) = plain l ++ rr_plain (R p).
Proof. rewrite plain_app, plain_one. reflexivity. Qed.
Lemma plain_len l : Forall G l -> 11 * zlen l <= zlen (plain l).
Proof.
  induction 1 as [|p l P _ IH]; [cbn; lia|]. change (p :: l) with ([p] ++ l). rewrite plain_app, plain_one, !zlen_app. change (zlen [p]) with 1. destruct (G_cell p P) as (c & _ & ((_ & _ & LM & _) & _) & _). pose proof (rr_plain_pos (R p)). lia.
Qed.

Context (lim : limits) (asked : Z) (base : list Z).
Definition heapok (nx : nat -> option nat) (t : st) : Prop := repr nx (t_seen t) (t_heap t) /\ Forall G (t_seen t) /\ NoDup (t_seen t).
Definition marks (t : st) (xs : list nat) : Prop := incl (t_seen t) xs /\ (zlen xs <= 250 -> t_seen t = rev xs).
Definition once (xs : list nat) : Prop := zlen xs <= 250 -> NoDup xs.
Definition ars (t : st) (xs : list nat) : Prop := held 5000 (t_ar t) (plain xs) /\ t_arc t = zlen xs /\ Forall G xs /\ marks t xs.
Definition frame (t t' : st) : Prop := t_most t' = t_most t /\ t_an t' = t_an t /\ t_ns t' = t_ns t /\ t_a t' = t_a t /\ t_in t' = t_in t /\ t_point t' = t_point t /\ t_2nd t' = t_2nd t /\ t_last t' = t_last t.
Lemma frame_refl t : frame t t. Proof. repeat split. Qed.
Lemma frame_trans a b c : frame a b -> frame b c -> frame a c.
Proof. unfold frame. intros (A1 & A2 & A3 & A4 & A5 & A6 & A7 & A8) (B1 & B2 & B3 & B4 & B5 & B6 & B7 & B8). repeat split; congruence. Qed.
Lemma marks_once nx t xs : heapok nx t -> marks t xs -> once xs.
Proof. intros (_ & _ & N) (_ & M) L. rewrite (M L) in N. apply NoDup_rev in N. rewrite rev_involutive in N. exact N. Qed.
Lemma seen_now nx t p c : heapok nx t -> s_seen c = 0 -> s_seen (now nx (t_seen t) p c) = if marked (t_seen t) p then 1 else 0.
Proof. intros _ S0. unfold now. cbn [set_seen s_seen]. rewrite S0. reflexivity. Qed.
Lemma got_agree cap (r : res js) o t k : agree (held cap) r o -> match o with Some y => exists s, r = Ok s /\ held cap s y /\ got r t k = Ok (true, k s) | None => got r t k = Ok (false, t) end.
Proof. unfold agree, got. destruct o as [y|]; [intros (s & -> & H); exists s; split; [reflexivity|split; [exact H|reflexivity]]|intros ->; reflexivity]. Qed.

(** ** Additional records *)
Lemma addresses_ok nx : links nx -> forall fuel w l, path nx w l -> (length l < fuel)%nat -> forall n t xs, heapok nx t -> ars t xs ->
  exists b t' new, addresses fuel lim w n t = Ok (b, t') /\ frame t t' /\ heapok nx t' /\ Forall (fun x => In x l /\ rr_type (R x) <> 2) new /\ once (xs ++ new) /\ Forall G new /\
    (new <> [] -> t_total t + zlen new <= max_total lim) /\
    if b then ars t' (xs ++ new) /\ t_total t' = t_total t + zlen new /\ (forall a l', l = a :: l' -> rr_type (R a) <> 2 -> n < max_ar_chain lim -> max_total lim <= t_total t' \/ In a (xs ++ new))
    else 5000 <= zlen (plain (xs ++ new)).
Proof.
  intros LK. induction fuel as [|fuel IH]; intros w l PT FU n t xs HO AR; [lia|].
  assert (once xs) as ON by (destruct AR as (_ & _ & _ & M); exact (marks_once nx t xs HO M)).
  assert (forall (Q : forall a l', l = a :: l' -> rr_type (R a) <> 2 -> n < max_ar_chain lim -> max_total lim <= t_total t \/ In a xs), exists b t' new, Ok (true, t) = Ok (b, t') /\ frame t t' /\ heapok nx t' /\ Forall (fun x => In x l /\ rr_type (R x) <> 2) new /\ once (xs ++ new) /\ Forall G new /\
    (new <> [] -> t_total t + zlen new <= max_total lim) /\
    if b then ars t' (xs ++ new) /\ t_total t' = t_total t + zlen new /\ (forall a l', l = a :: l' -> rr_type (R a) <> 2 -> n < max_ar_chain lim -> max_total lim <= t_total t' \/ In a (xs ++ new))
    else 5000 <= zlen (plain (xs ++ new))) as STOP.
  { intros Q. exists true, t, []. rewrite app_nil_r. split; [reflexivity|]. split; [apply frame_refl|]. split; [exact HO|]. split; [constructor|]. split; [exact ON|]. split; [constructor|]. split; [intros X; destruct (X eq_refl)|]. split; [exact AR|]. split; [change (zlen (@nil nat)) with 0; lia|exact Q]. }
  destruct PT as [|p l P PT]; cbn [addresses]; [apply STOP; intros a l' E; discriminate E|]. cbn [length] in FU.
  destruct (cell_now nx _ _ p (proj1 HO) P) as (c & A & IR & _ & S0 & ->). cbn [bind]. pose proof IR as (_ & _ & _ & _ & _ & ET). change (s_type (now nx (t_seen t) p c)) with (s_type c). rewrite ET. change RR_NS with 2.
  destruct (Z.eqb_spec (rr_type (R p)) 2) as [T|T]; [apply STOP; intros a l' [= <- _] X; destruct (X T)|].
  rewrite (seen_now nx t p c HO S0). change (s_next (now nx (t_seen t) p c)) with (nx p). destruct (marked (t_seen t) p) eqn:MK.
  { change (1 =? 1) with true. cbv iota. apply marked_in in MK. destruct (IH (nx p) l PT ltac:(lia) n t xs HO AR) as (b & t' & new & E & FR & HO' & F1 & F2 & F3 & F4 & F5). exists b, t', new. split; [exact E|]. split; [exact FR|]. split; [exact HO'|].
    split; [revert F1; apply Forall_impl; intros x (X & Y); split; [right; exact X|exact Y]|]. split; [exact F2|]. split; [exact F3|]. split; [exact F4|]. destruct b; [|exact F5]. destruct F5 as (A1 & A2 & _). split; [exact A1|]. split; [exact A2|].
    intros a l' [= <- _] _ _. right. apply in_or_app. left. destruct AR as (_ & _ & _ & (IN & _)). apply IN, MK. }
  change (0 =? 1) with false. cbv iota. destruct ((max_ar_chain lim <=? n) || (max_total lim <=? t_total t)) eqn:GT.
  { apply STOP. intros a l' _ _ N. apply orb_true_iff in GT as [X|X]; [lia|left; lia]. }
  apply orb_false_iff in GT as (G1 & G2). destruct AR as (HA & AC & GX & (IN & MR)).
  assert (once (xs ++ [p])) as ON1.
  { intros L. rewrite zlen_app in L. change (zlen [p]) with 1 in L. assert (~ In p xs) as NI. { rewrite <- (rev_involutive xs), <- MR, <- in_rev by lia. intros I. apply marked_in in I. rewrite I in MK. discriminate MK. }
    apply NoDup_Add with (a := p) (l := xs ++ []); [apply Add_app|]. rewrite app_nil_r. split; [apply ON; lia|exact NI]. }
  pose proof (put_agree 5000 (now nx (t_seen t) p c) (R p) (t_ar t) (plain xs) IR HA) as PA.
  pose proof (got_agree 5000 _ _ t (fun ar => mkst (t_most t) ar (t_an t) (t_ns t) (u16 (t_arc t + 1)) (t_total t + 1) (t_a t) (t_in t) (t_heap t) (t_seen t) (t_point t) (t_2nd t) (t_last t)) PA) as GA. unfold l_add in GA.
  destruct (Z.ltb_spec (zlen (plain xs) + zlen (rr_plain (R p))) 5000) as [LT|GE].
  2: { rewrite GA. cbn [bind fst snd]. exists false, t, [p]. split; [reflexivity|]. split; [apply frame_refl|]. split; [exact HO|]. split; [constructor; [split; [left; reflexivity|exact T]|constructor]|]. split; [exact ON1|]. split; [constructor; [exact P|constructor]|]. split; [intros _; change (zlen [p]) with 1; lia|]. rewrite plain_snoc, zlen_app. lia. }
  destruct GA as (s & _ & HS & ->). cbn [bind fst snd t_seen t_heap t_most t_ar t_an t_ns t_arc t_total t_a t_in t_point t_2nd t_last]. rewrite <- plain_snoc in HS.
  assert (Forall G (xs ++ [p])) as GX' by (apply Forall_app; split; [exact GX|constructor; [exact P|constructor]]).
  assert (u16 (t_arc t + 1) = zlen (xs ++ [p])) as EC.
  { rewrite AC, zlen_app. change (zlen [p]) with 1. pose proof (plain_len xs GX). pose proof (zlen_nonneg xs). pose proof (zlen_nonneg (rr_plain (R p))). unfold u16. apply Z.mod_small. lia. }
  set (t1 := mkst (t_most t) s (t_an t) (t_ns t) (u16 (t_arc t + 1)) (t_total t + 1) (t_a t) (t_in t) (t_heap t) (t_seen t) (t_point t) (t_2nd t) (t_last t)) in *.
  assert (exists t2, (if zlen (t_seen t) <? 250 then h <- put_seen (t_heap t) p 1 ;; Ok (mkst (t_most t) s (t_an t) (t_ns t) (u16 (t_arc t + 1)) (t_total t + 1) (t_a t) (t_in t) h (p :: t_seen t) (t_point t) (t_2nd t) (t_last t)) else Ok t1) = Ok t2 /\ frame t t2 /\ heapok nx t2 /\ ars t2 (xs ++ [p]) /\ t_total t2 = t_total t + 1) as (t2 & -> & FR2 & HO2 & AR2 & TT2).
  { destruct HO as (RP & GS & ND). assert (~ In p (t_seen t)) as NI by (intros I; apply marked_in in I; rewrite I in MK; discriminate MK). assert (incl (t_seen t) (xs ++ [p])) as IN' by (intros q I; apply in_or_app; left; apply IN, I). destruct (Z.ltb_spec (zlen (t_seen t)) 250) as [L|L].
    - destruct (put_seen_ok nx _ _ p RP P) as (h' & -> & RP'). cbn [bind]. eexists. split; [reflexivity|]. split; [repeat split|]. split; [|split; [|reflexivity]].
      + split; [exact RP'|]. split; [constructor; assumption|constructor; assumption].
      + split; [exact HS|]. split; [exact EC|]. split; [exact GX'|]. split; [intros q [<- |I]; [apply in_or_app; right; left; reflexivity|apply IN', I]|]. intros LX. rewrite zlen_app in LX. change (zlen [p]) with 1 in LX. cbn [t_seen]. rewrite rev_app_distr, (MR ltac:(lia)). reflexivity.
    - exists t1. split; [reflexivity|]. split; [repeat split|]. split; [split; [exact RP|split; [exact GS|exact ND]]|]. split; [|reflexivity].
      split; [exact HS|]. split; [exact EC|]. split; [exact GX'|]. split; [exact IN'|]. intros LX. exfalso. rewrite zlen_app in LX. change (zlen [p]) with 1 in LX. pose proof (NoDup_incl_length ND IN) as LE. unfold zlen in *. lia. }
  cbn [bind]. destruct (IH (nx p) l PT ltac:(lia) (n + 1) t2 (xs ++ [p]) HO2 AR2) as (b & t' & new & E & FR & HO' & F1 & F2 & F3 & F4 & F5). rewrite <- app_assoc in *. cbn [app] in *.
  exists b, t', (p :: new). split; [exact E|]. split; [exact (frame_trans _ _ _ FR2 FR)|]. split; [exact HO'|]. split; [constructor; [split; [left; reflexivity|exact T]|]; revert F1; apply Forall_impl; intros x (X & Y); split; [right; exact X|exact Y]|].
  split; [exact F2|]. split; [constructor; assumption|]. rewrite zlen_cons. split; [intros _; destruct new as [|x new']; [change (zlen (@nil nat)) with 0; lia|specialize (F4 ltac:(discriminate)); lia]|].
  destruct b; [|exact F5]. destruct F5 as (A1 & A2 & _). split; [exact A1|]. split; [lia|]. intros a l' [= <- _] _ _. right. apply in_or_app. right. left. reflexivity.
Qed.

(** ** CNAME records *)
Notation leads := (leads_to h0 ls R asked).
Lemma list_at_det w a : list_at ls w a -> forall b, list_at ls w b -> a = b.
Proof. induction 1 as [|p e l E H IH]; intros b B; inversion B as [|p' e' l' E' H']; subst; [reflexivity|]. rewrite E in E'. injection E' as <-. f_equal. apply IH, H'. Qed.
Lemma find_type_ok n : forall p es, list_at ls (Some p) es -> exists q e, find_type n ls p asked = Ok q /\ cell ls q = Ok e /\ In e es /\
  find (fun e => ModelBigHash.l_type e =? asked) (firstn (S n) es) = if ModelBigHash.l_type e =? asked then Some e else None.
Proof.
  induction n as [|n IH]; intros p es H; inversion H as [|p' e l E H']; subst.
  - exists p, e. split; [reflexivity|]. split; [apply cell_some, E|]. split; [left; reflexivity|]. cbn [firstn find]. destruct (ModelBigHash.l_type e =? asked); reflexivity.
  - cbn [find_type]. rewrite (cell_some _ _ _ E). cbn [bind]. destruct (ModelBigHash.l_type e =? asked) eqn:T.
    + exists p, e. split; [reflexivity|]. split; [apply cell_some, E|]. split; [left; reflexivity|]. cbn [firstn find]. rewrite T. reflexivity.
    + destruct (l_next e) as [q|] eqn:N.
      * destruct (IH q l H') as (q' & e' & E1 & E2 & I & E3). exists q', e'. split; [exact E1|]. split; [exact E2|]. split; [right; exact I|]. rewrite <- E3. change (firstn (S (S n)) (e :: l)) with (e :: firstn (S n) l). cbn [find]. rewrite T. reflexivity.
      * inversion H'; subst. exists p, e. split; [reflexivity|]. split; [apply cell_some, E|]. split; [left; reflexivity|]. cbn [firstn find]. rewrite T. reflexivity.
Qed.
Lemma take_while_G f l : Forall G l -> Forall G (take_while f l).
Proof. induction 1 as [|x l X _ IH]; cbn [take_while]; [constructor|]. destruct (f x); [constructor; assumption|constructor]. Qed.
Lemma firstn_G n l : Forall G l -> Forall G (firstn n l).
Proof. revert l. induction n as [|n IH]; intros l F; [constructor|]. destruct F; [constructor|]. cbn [firstn]. constructor; [assumption|apply IH; assumption]. Qed.
Lemma leads_G p qs : G p -> leads p qs -> Forall G qs.
Proof.
  intros P (c & A & L). destruct (s_list c) as [l|] eqn:EL; [|subst qs; constructor]. destruct (s_type c =? 5); [|subst qs; constructor]. destruct L as (es & LA & L). destruct (find _ _) as [e|] eqn:EF; [|subst qs; constructor].
  destruct L as (pth & CH & ->). apply firstn_G, take_while_G. apply (path_G nx0 (Some (l_data e))). apply chain_path; [exact CH|]. intros q [= <-]. destruct (ro_list _ _ _ _ RO p c l P A EL) as (es' & LA' & GE). rewrite (list_at_det _ _ LA _ LA') in *.
  apply find_some in EF as (I & _). rewrite Forall_forall in GE. apply GE. revert I. clear. generalize 1001%nat. intros n. revert n. induction es' as [|x l IH]; intros n I; destruct n; cbn [firstn] in I; try contradiction. destruct I as [<- |I]; [left; reflexivity|right; exact (IH n I)].
Qed.
Lemma firstn_In {A} n : forall (l : list A) x, In x (firstn n l) -> In x l.
Proof. induction n as [|n IH]; intros l x I; [destruct I|]. destruct l as [|y l]; [destruct I|]. cbn [firstn] in I. destruct I as [<- |I]; [left; reflexivity|right; apply IH, I]. Qed.
Lemma leads_ex p : G p -> exists qs, leads p qs.
Proof.
  intros P. destruct (G_cell p P) as (c & A & _). unfold leads_to. destruct (s_list c) as [l|] eqn:EL; [|exists [], c; rewrite EL; split; [exact A|reflexivity]]. destruct (s_type c =? 5) eqn:T; [|exists [], c; rewrite EL, T; split; [exact A|reflexivity]].
  destruct (ro_list _ _ _ _ RO p c l P A EL) as (es & LA & GE). destruct (find (fun e => ModelBigHash.l_type e =? asked) (firstn 1001 es)) as [e|] eqn:EF.
  - apply find_some in EF as EF'. destruct EF' as (I & _). apply firstn_In in I. rewrite Forall_forall in GE. destruct (path_ex nx0 (Some (l_data e)) links0) as (pth & PT); [intros q [= <-]; apply GE, I|].
    exists (firstn 100 (take_while (fun q => rr_type (R q) =? asked) pth)), c. rewrite EL, T. split; [exact A|]. exists es. split; [exact LA|]. rewrite EF. exists pth. split; [apply (path_chain nx0 [] h0 _ _ repr0 PT)|reflexivity].
  - exists [], c. rewrite EL, T. split; [exact A|]. exists es. split; [exact LA|]. rewrite EF. reflexivity.
Qed.

Definition frame2 (t t' : st) : Prop := t_ar t' = t_ar t /\ t_arc t' = t_arc t /\ t_ns t' = t_ns t /\ t_total t' = t_total t /\ t_a t' = t_a t /\ t_in t' = t_in t /\ t_heap t' = t_heap t /\ t_seen t' = t_seen t /\ t_point t' = t_point t /\ t_2nd t' = t_2nd t /\ t_last t' = t_last t.
Lemma frame2_trans a b c : frame2 a b -> frame2 b c -> frame2 a c.
Proof. unfold frame2. intros (A1 & A2 & A3 & A4 & A5 & A6 & A7 & A8 & A9 & A10 & A11) (B1 & B2 & B3 & B4 & B5 & B6 & B7 & B8 & B9 & B10 & B11). repeat split; congruence. Qed.
Lemma count_up l p cap s : cap <= 5000 -> Forall G l -> held cap s (base ++ plain l) -> u16 (zlen l + 1) = zlen (l ++ [p]).
Proof.
  intros C F H. pose proof (hold_facts _ _ (proj1 H)) as [_ _ L CC _ _ _ _ _ _ _ _]. destruct H as (_ & M). rewrite !zlen_app in *. change (zlen [p]) with 1. pose proof (plain_len l F). pose proof (zlen_nonneg base). pose proof (zlen_nonneg l). unfold u16. apply Z.mod_small. lia.
Qed.
Lemma targets_ok n : forall w l an t, path nx0 w l -> heapok nx0 t -> held 1024 (t_most t) (base ++ plain an) -> t_an t = zlen an -> Forall G an ->
  exists b t', targets n w asked t = Ok (b, t') /\ frame2 t t' /\
    let qs := firstn n (take_while (fun q => rr_type (R q) =? asked) l) in
    if b then held 1024 (t_most t') (base ++ plain (an ++ qs)) /\ t_an t' = zlen (an ++ qs) else 1024 <= zlen (base ++ plain (an ++ qs)).
Proof.
  induction n as [|n IH]; intros w l an t PT HO HM CT GA.
  { exists true, t. cbn [targets firstn]. rewrite app_nil_r. split; [reflexivity|]. split; [repeat split|]. split; assumption. }
  destruct PT as [|p l P PT]; cbn [targets].
  { exists true, t. cbn [take_while firstn]. rewrite app_nil_r. split; [reflexivity|]. split; [repeat split|]. split; assumption. }
  destruct (cell_now nx0 _ _ p (proj1 HO) P) as (c & A & IR & _ & S0 & ->). cbn [bind]. pose proof IR as (_ & _ & _ & _ & _ & ET). change (s_type (now nx0 (t_seen t) p c)) with (s_type c). rewrite ET. cbn [take_while].
  destruct (rr_type (R p) =? asked) eqn:T; cbn [negb].
  2: { exists true, t. cbn [firstn]. rewrite app_nil_r. split; [reflexivity|]. split; [repeat split|]. split; assumption. }
  change (s_next (now nx0 (t_seen t) p c)) with (nx0 p). cbn [firstn]. pose proof (put_agree 1024 (now nx0 (t_seen t) p c) (R p) (t_most t) _ IR HM) as PA.
  pose proof (got_agree 1024 _ _ t (fun most => mkst most (t_ar t) (u16 (t_an t + 1)) (t_ns t) (t_arc t) (t_total t) (t_a t) (t_in t) (t_heap t) (t_seen t) (t_point t) (t_2nd t) (t_last t)) PA) as GG. unfold l_add in GG.
  set (qs := firstn n (take_while (fun q => rr_type (R q) =? asked) l)) in *. assert (an ++ p :: qs = (an ++ [p]) ++ qs) as EA by (rewrite <- app_assoc; reflexivity).
  destruct (Z.ltb_spec (zlen (base ++ plain an) + zlen (rr_plain (R p))) 1024) as [LT|GE].
  2: { rewrite GG. cbn [bind fst snd]. exists false, t. split; [reflexivity|]. split; [repeat split|]. cbv zeta. rewrite EA, plain_app, plain_snoc. rewrite !zlen_app in *. pose proof (zlen_nonneg (plain qs)). lia. }
  destruct GG as (s & _ & HS & ->). cbn [bind fst snd].
  set (t1 := mkst s (t_ar t) (u16 (t_an t + 1)) (t_ns t) (t_arc t) (t_total t) (t_a t) (t_in t) (t_heap t) (t_seen t) (t_point t) (t_2nd t) (t_last t)).
  rewrite <- app_assoc, <- plain_snoc in HS.
  destruct (IH (nx0 p) l (an ++ [p]) t1 PT HO HS) as (b & t' & E & FR & RR).
  { cbn [t1 t_an]. rewrite CT. apply (count_up an p 1024 (t_most t)); [lia|exact GA|exact HM]. }
  { apply Forall_app. split; [exact GA|constructor; [exact P|constructor]]. }
  exists b, t'. split; [exact E|]. split; [apply (frame2_trans _ t1); [repeat split|exact FR]|]. cbv zeta in *. rewrite EA. exact RR.
Qed.
Lemma follow_ok p c qs nx seen an t : G p -> at_ h0 p c -> leads p qs -> heapok nx0 t -> held 1024 (t_most t) (base ++ plain an) -> t_an t = zlen an -> Forall G an ->
  exists b t', follow ls (now nx seen p c) asked t = Ok (b, t') /\ frame2 t t' /\
    if b then held 1024 (t_most t') (base ++ plain (an ++ qs)) /\ t_an t' = zlen (an ++ qs) else 1024 <= zlen (base ++ plain (an ++ qs)).
Proof.
  intros P A (c' & A' & L) HO HM CT GA. pose proof (at_inj _ _ _ _ A A') as <-. clear A'. unfold follow. change (s_list (now nx seen p c)) with (s_list c). change (s_type (now nx seen p c)) with (s_type c). change RR_CNAME with 5.
  assert (qs = [] -> exists b t', Ok (true, t) = Ok (b, t') /\ frame2 t t' /\ if b then held 1024 (t_most t') (base ++ plain (an ++ qs)) /\ t_an t' = zlen (an ++ qs) else 1024 <= zlen (base ++ plain (an ++ qs))) as STOP.
  { intros ->. exists true, t. rewrite app_nil_r. split; [reflexivity|]. split; [repeat split|]. split; assumption. }
  destruct (s_list c) as [l|] eqn:EL; [|apply STOP, L]. destruct (s_type c =? 5); [|apply STOP, L]. destruct L as (es & LA & L).
  destruct (find_type_ok 1000 l es LA) as (q & e & -> & EC & I & EF). change (firstn (S 1000) es) with (firstn 1001 es) in EF. cbn [bind]. rewrite EC. cbn [bind]. rewrite EF in L. destruct (ModelBigHash.l_type e =? asked); [|apply STOP, L].
  destruct L as (pth & CH & ->). apply targets_ok; try assumption. apply chain_path; [exact CH|]. intros x [= <-]. destruct (ro_list _ _ _ _ RO p c l P A EL) as (es' & LA' & GE). rewrite (list_at_det _ _ LA _ LA') in *. rewrite Forall_forall in GE. apply GE, I.
Qed.

(** ** Showing a record *)
Notation address_of := (address_of h0 R lim).
Notation points_to := (points_to h0 lim).
Definition strs (t : st) (an ns : list nat) : Prop := held 1024 (t_most t) (base ++ plain (an ++ ns)) /\ t_an t = zlen an /\ t_ns t = zlen ns /\ Forall G (an ++ ns).
Definition over (an ns xs : list nat) : Prop := 1024 <= zlen (base ++ plain (an ++ ns)) \/ 5000 <= zlen (plain xs).
Definition rest (t t' : st) : Prop := t_in t' = t_in t /\ t_point t' = t_point t /\ t_2nd t' = t_2nd t /\ t_last t' = t_last t.
Definition fuel0 : nat := S (length h0).
(** The addresses of one kind, from [w] on. *)
Lemma kind_ok nx t xs w : links nx -> heapok nx t -> ars t xs -> (forall a, w = Some a -> G a) ->
  exists b t' new, addresses fuel0 lim w 0 t = Ok (b, t') /\ frame t t' /\ heapok nx t' /\ Forall (fun x => exists a, w = Some a /\ same_set (R a) (R x) /\ rr_type (R x) <> 2) new /\ once (xs ++ new) /\ Forall G new /\
    (new <> [] -> t_total t + zlen new <= max_total lim) /\
    if b then ars t' (xs ++ new) /\ t_total t' = t_total t + zlen new /\ (1 <= max_ar_chain lim -> forall a, w = Some a -> rr_type (R a) <> 2 -> max_total lim <= t_total t' \/ In a (xs ++ new))
    else 5000 <= zlen (plain (xs ++ new)).
Proof.
  intros LK HO AR W. destruct (path_ex nx w LK W) as (l & PT). pose proof (path_short nx w l LK PT) as SH. destruct (addresses_ok nx LK fuel0 w l PT ltac:(unfold fuel0; lia) 0 t xs HO AR) as (b & t' & new & E & FR & HO' & F1 & F2 & F3 & F4 & F5).
  exists b, t', new. split; [exact E|]. split; [exact FR|]. split; [exact HO'|]. split; [|split; [exact F2|split; [exact F3|split; [exact F4|]]]].
  - destruct w as [a|]; [|inversion PT; subst; revert F1; apply Forall_impl; intros x ([] & _)]. revert F1. apply Forall_impl. intros x (I & T). exists a. split; [reflexivity|]. split; [|exact T]. destruct (path_kin nx a l LK PT x I) as [X|X]; [destruct (T X)|exact X].
  - destruct b; [|exact F5]. destruct F5 as (A1 & A2 & A3). split; [exact A1|]. split; [exact A2|]. intros M a -> T. inversion PT as [|a' l' P' PT']; subst. apply (A3 a l' eq_refl T). lia.
Qed.
Lemma follow_not c asked' t : s_type c <> 5 -> follow ls c asked' t = Ok (true, t).
Proof. intros T. unfold follow. destruct (s_list c); [|reflexivity]. change RR_CNAME with 5. destruct (Z.eqb_spec (s_type c) 5) as [X|_]; [destruct (T X)|reflexivity]. Qed.
Lemma frame2_heap nx t t' : frame2 t t' -> heapok nx t -> heapok nx t'.
Proof. intros (_ & _ & _ & _ & _ & _ & E1 & E2 & _) (A & B & C). unfold heapok. rewrite E1, E2. split; [exact A|split; [exact B|exact C]]. Qed.
Lemma show_ok nx t an ns xs p c qs : links nx -> heapok nx t -> strs t an ns -> ars t xs -> G p -> at_ h0 p c -> leads p qs -> t_total t < max_total lim ->
  (t_in t = true -> rr_type (R p) = 2) -> (t_in t = false -> ns = [] /\ nx = nx0) ->
  let an' := if t_in t then an else an ++ p :: qs in
  let ns' := if t_in t then ns ++ [p] else ns in
  exists b t' new, show lim ls fuel0 asked (now nx (t_seen t) p c) t = Ok (b, t') /\ rest t t' /\ heapok nx t' /\ Forall (address_of p) new /\ once (xs ++ new) /\ t_total t + 1 + zlen new <= max_total lim /\
    if b then strs t' an' ns' /\ ars t' (xs ++ new) /\ t_a t' = t_a t + 1 /\ t_total t' = t_total t + 1 + zlen new /\
      (1 <= max_ar_chain lim -> max_total lim <= t_total t' \/ forall a, points_to p a -> rr_type (R a) <> 2 -> In a (xs ++ new))
    else over an' ns' (xs ++ new).
Proof.
  intros LK HO (HM & CA & CN & GA) AR P A LD TT I1 I2. cbv zeta. assert (once xs) as ON by (destruct AR as (_ & _ & _ & M); exact (marks_once nx t xs HO M)).
  destruct (G_cell p P) as (c' & A' & IR & _ & S0). pose proof (at_inj _ _ _ _ A A') as <-. clear A'. pose proof IR as (_ & _ & _ & _ & _ & ET).
  set (an1 := if t_in t then an else an ++ [p]). set (ns1 := if t_in t then ns ++ [p] else ns). set (an' := if t_in t then an else an ++ p :: qs). fold ns1.
  assert (plain (an ++ ns) ++ rr_plain (R p) = plain (an1 ++ ns1)) as E1.
  { unfold an1, ns1. destruct (t_in t); [rewrite app_assoc, plain_snoc; reflexivity|]. destruct (I2 eq_refl) as (-> & _). rewrite !app_nil_r, plain_snoc. reflexivity. }
  assert (zlen (plain (an1 ++ ns1)) <= zlen (plain (an' ++ ns1))) as MONO.
  { unfold an1, an', ns1. destruct (t_in t); [lia|]. destruct (I2 eq_refl) as (-> & _). rewrite !app_nil_r. change (p :: qs) with ([p] ++ qs). rewrite app_assoc, (plain_app (an ++ [p])), (zlen_app (plain (an ++ [p]))). pose proof (zlen_nonneg (plain qs)). lia. }
  assert (Forall G (an1 ++ ns1)) as GA1.
  { apply Forall_app in GA as (G1 & G2). unfold an1, ns1. destruct (t_in t); rewrite ?Forall_app; repeat split; try assumption; constructor; [exact P|constructor|exact P|constructor]. }
  unfold show. change (s_type (now nx (t_seen t) p c)) with (s_type c). change (s_ip (now nx (t_seen t) p c)) with (s_ip c). change (s_ip6 (now nx (t_seen t) p c)) with (s_ip6 c). change RR_CNAME with 5.
  pose proof (put_agree 1024 (now nx (t_seen t) p c) (R p) (t_most t) _ IR HM) as PA.
  pose proof (got_agree 1024 _ _ t (fun most => mkst most (t_ar t) (if t_in t then t_an t else u16 (t_an t + 1)) (if t_in t then u16 (t_ns t + 1) else t_ns t) (t_arc t) (t_total t + 1) (t_a t + 1) (t_in t) (t_heap t) (t_seen t) (t_point t) (t_2nd t) (t_last t)) PA) as GG. unfold l_add in GG.
  destruct (Z.ltb_spec (zlen (base ++ plain (an ++ ns)) + zlen (rr_plain (R p))) 1024) as [LT|GE].
  2: { rewrite GG. cbn [bind fst snd]. exists false, t, []. split; [reflexivity|]. split; [repeat split|]. split; [exact HO|]. split; [constructor|]. rewrite app_nil_r. split; [exact ON|]. change (zlen (@nil nat)) with 0. split; [lia|]. left.
       apply (f_equal zlen) in E1. rewrite zlen_app in E1. rewrite zlen_app in *. lia. }
  destruct GG as (s & _ & HS & ->). cbn [bind fst snd].
  set (t1 := mkst s (t_ar t) (if t_in t then t_an t else u16 (t_an t + 1)) (if t_in t then u16 (t_ns t + 1) else t_ns t) (t_arc t) (t_total t + 1) (t_a t + 1) (t_in t) (t_heap t) (t_seen t) (t_point t) (t_2nd t) (t_last t)).
  rewrite <- app_assoc, E1 in HS.
  assert (strs t1 an1 ns1) as ST1.
  { split; [exact HS|]. pose proof (hold_facts _ _ (proj1 HM)) as [_ _ _ CC _ _ _ _ _ _ _ _]. pose proof (proj2 HM) as MM. pose proof (plain_len _ GA) as PL. rewrite !zlen_app in *. pose proof (zlen_nonneg base). pose proof (zlen_nonneg an). pose proof (zlen_nonneg ns).
    unfold an1, ns1, t1. cbn [t_an t_ns]. destruct (t_in t); (split; [|split; [|exact GA1]]); rewrite ?zlen_app; change (zlen [p]) with 1; rewrite ?CA, ?CN; unfold u16; rewrite ?Z.mod_small by lia; reflexivity. }
  assert (heapok nx t1) as HO1 by exact HO. assert (ars t1 xs) as AR1 by exact AR. assert (t_total t1 = t_total t + 1) as TT1 by reflexivity. assert (rest t t1 /\ t_a t1 = t_a t + 1) as (RE1 & TA1) by (repeat split). clearbody t1.
  (* A records *)
  assert (exists b t2 new, (if s_type c =? 5 then Ok (true, t1) else addresses fuel0 lim (s_ip c) 0 t1) = Ok (b, t2) /\ frame t1 t2 /\ heapok nx t2 /\ Forall (address_of p) new /\ once (xs ++ new) /\ t_total t1 + zlen new <= max_total lim /\
    if b then ars t2 (xs ++ new) /\ t_total t2 = t_total t1 + zlen new /\ (1 <= max_ar_chain lim -> forall a, s_type c <> 5 -> s_ip c = Some a -> rr_type (R a) <> 2 -> max_total lim <= t_total t2 \/ In a (xs ++ new))
    else 5000 <= zlen (plain (xs ++ new))) as (b2 & t2 & new2 & -> & FR2 & HO2 & AD2 & ON2 & TB2 & RS2).
  { destruct (Z.eqb_spec (s_type c) 5) as [T|T].
    - exists true, t1, []. rewrite app_nil_r. split; [reflexivity|]. split; [apply frame_refl|]. split; [exact HO1|]. split; [constructor|]. split; [exact ON|]. change (zlen (@nil nat)) with 0. split; [lia|]. split; [exact AR1|]. split; [lia|]. intros _ a X. destruct (X T).
    - destruct (kind_ok nx t1 xs (s_ip c) LK HO1 AR1) as (b & t2 & new & E & FR & HO' & F1 & F2 & F3 & F4 & F5); [intros a EA; apply (ro_ip _ _ _ _ RO p c a P A EA)|]. exists b, t2, new. split; [exact E|]. split; [exact FR|]. split; [exact HO'|].
      split; [revert F1; apply Forall_impl; intros x (a & EA & SS & TX); exists a; split; [exists c; split; [exact A|split; [exact T|left; exact EA]]|split; assumption]|]. split; [exact F2|]. split; [destruct new; [change (zlen (@nil nat)) with 0; lia|apply F4; discriminate]|].
      destruct b; [|exact F5]. destruct F5 as (B1 & B2 & B3). split; [exact B1|]. split; [exact B2|]. intros M a _ EA TA. exact (B3 M a EA TA). }
  cbn [bind fst snd]. destruct b2.
  2: { exists false, t2, new2. split; [reflexivity|]. split; [destruct FR2 as (_ & _ & _ & _ & X1 & X2 & X3 & X4), RE1 as (Y1 & Y2 & Y3 & Y4); repeat split; congruence|]. split; [exact HO2|]. split; [exact AD2|]. split; [exact ON2|]. split; [lia|]. right. exact RS2. }
  destruct RS2 as (AR2 & TT2 & CM2). cbv iota.
  (* AAAA records *)
  assert (exists b t3 new, (if (s_type c =? 5) || negb (with_ipv6 lim) then Ok (true, t2) else addresses fuel0 lim (s_ip6 c) 0 t2) = Ok (b, t3) /\ frame t2 t3 /\ heapok nx t3 /\ Forall (address_of p) new /\ once (xs ++ new2 ++ new) /\ t_total t2 + zlen new <= max_total lim /\
    if b then ars t3 (xs ++ new2 ++ new) /\ t_total t3 = t_total t2 + zlen new /\ (1 <= max_ar_chain lim -> forall a, s_type c <> 5 -> with_ipv6 lim = true -> s_ip6 c = Some a -> rr_type (R a) <> 2 -> max_total lim <= t_total t3 \/ In a (xs ++ new2 ++ new))
    else 5000 <= zlen (plain (xs ++ new2 ++ new))) as (b3 & t3 & new3 & -> & FR3 & HO3 & AD3 & ON3 & TB3 & RS3).
  { destruct ((s_type c =? 5) || negb (with_ipv6 lim)) eqn:T.
    - exists true, t2, []. rewrite app_nil_r. split; [reflexivity|]. split; [apply frame_refl|]. split; [exact HO2|]. split; [constructor|]. split; [exact ON2|]. change (zlen (@nil nat)) with 0. split; [lia|]. split; [exact AR2|]. split; [lia|]. intros _ a X Y. apply orb_true_iff in T as [T|T]; [apply Z.eqb_eq in T; destruct (X T)|]. rewrite Y in T. discriminate T.
    - apply orb_false_iff in T as (T1 & T2). apply Z.eqb_neq in T1. apply negb_false_iff in T2. destruct (kind_ok nx t2 (xs ++ new2) (s_ip6 c) LK HO2 AR2) as (b & t3 & new & E & FR & HO' & F1 & F2 & F3 & F4 & F5); [intros a EA; apply (ro_ip6 _ _ _ _ RO p c a P A EA)|]. rewrite <- app_assoc in *. exists b, t3, new. split; [exact E|]. split; [exact FR|]. split; [exact HO'|].
      split; [revert F1; apply Forall_impl; intros x (a & EA & SS & TX); exists a; split; [exists c; split; [exact A|split; [exact T1|right; split; [exact T2|exact EA]]]|split; assumption]|]. split; [exact F2|]. split; [destruct new; [change (zlen (@nil nat)) with 0; lia|apply F4; discriminate]|].
      destruct b; [|exact F5]. destruct F5 as (B1 & B2 & B3). split; [exact B1|]. split; [exact B2|]. intros M a _ _ EA TA. exact (B3 M a EA TA). }
  cbn [bind fst snd]. assert (Forall (address_of p) (new2 ++ new3)) as ADD by (apply Forall_app; split; assumption). assert (rest t t3) as RE3 by (destruct FR3 as (_ & _ & _ & _ & X1 & X2 & X3 & X4), FR2 as (_ & _ & _ & _ & Z1 & Z2 & Z3 & Z4), RE1 as (Y1 & Y2 & Y3 & Y4); repeat split; congruence).
  assert (strs t3 an1 ns1 /\ t_a t3 = t_a t + 1) as (ST3 & TA3). { destruct FR3 as (X1 & X2 & X3 & X4 & _), FR2 as (Z1 & Z2 & Z3 & Z4 & _). destruct ST1 as (Y1 & Y2 & Y3 & Y4). split; [|congruence]. split; [rewrite X1, Z1; exact Y1|]. split; [congruence|]. split; [congruence|exact Y4]. }
  destruct b3.
  2: { exists false, t3, (new2 ++ new3). split; [reflexivity|]. split; [exact RE3|]. split; [exact HO3|]. split; [exact ADD|]. split; [exact ON3|]. rewrite zlen_app. split; [lia|]. right. exact RS3. }
  destruct RS3 as (AR3 & TT3 & CM3). cbv iota.
  assert (1 <= max_ar_chain lim -> max_total lim <= t_total t3 \/ forall a, points_to p a -> rr_type (R a) <> 2 -> In a (xs ++ new2 ++ new3)) as CM.
  { intros M. destruct (Z.leb_spec (max_total lim) (t_total t3)) as [X|X]; [left; exact X|right]. intros a (c' & A' & T5 & [EA|(V6 & EA)]) T; pose proof (at_inj _ _ _ _ A A') as <-.
    - destruct (CM2 M a T5 EA T) as [Y|Y]; [pose proof (zlen_nonneg new3); lia|]. rewrite app_assoc. apply in_or_app. left. exact Y.
    - destruct (CM3 M a T5 V6 EA T) as [Y|Y]; [lia|exact Y]. }
  destruct (t_in t) eqn:TI.
  - (* a name server *)
    rewrite follow_not by (change (s_type (now nx (t_seen t) p c)) with (s_type c); rewrite ET, (I1 eq_refl); discriminate).
    exists true, t3, (new2 ++ new3). split; [reflexivity|]. split; [exact RE3|]. split; [exact HO3|]. split; [exact ADD|]. split; [exact ON3|]. rewrite zlen_app. split; [lia|]. split; [exact ST3|]. split; [exact AR3|]. split; [exact TA3|]. split; [lia|exact CM].
  - destruct (I2 eq_refl) as (N0 & N1). subst ns nx. unfold ns1 in *. clear ns1. destruct ST3 as (HM3 & CA3 & CN3 & _). rewrite app_nil_r in *. unfold an1, an' in *. assert (an ++ p :: qs = (an ++ [p]) ++ qs) as EA by (rewrite <- app_assoc; reflexivity).
    destruct (follow_ok p c qs nx0 (t_seen t) (an ++ [p]) t3 P A LD HO3 HM3 CA3 GA1) as (b4 & t4 & -> & FR4 & RS4). exists b4, t4, (new2 ++ new3). split; [reflexivity|]. split; [destruct FR4 as (_ & _ & _ & _ & _ & Z1 & _ & _ & Z2 & Z3 & Z4), RE3 as (Y1 & Y2 & Y3 & Y4); repeat split; congruence|].
    split; [exact (frame2_heap nx0 t3 t4 FR4 HO3)|]. split; [exact ADD|]. split; [exact ON3|]. rewrite zlen_app. split; [lia|]. rewrite EA. destruct b4.
    + destruct RS4 as (HM4 & CA4). pose proof FR4 as (Y1 & Y2 & Y3 & Y4 & Y5 & _ & _ & Y6 & _). split; [|split; [|split; [congruence|split; [lia|rewrite Y4; exact CM]]]].
      * split; [rewrite app_nil_r; exact HM4|]. split; [exact CA4|]. split; [congruence|]. rewrite app_nil_r. apply Forall_app. split; [exact GA1|exact (leads_G p qs P LD)].
      * destruct AR3 as (B1 & B2 & B3 & B4). split; [rewrite Y1; exact B1|]. split; [congruence|]. split; [exact B3|]. unfold marks. rewrite Y6. exact B4.
    + left. rewrite app_nil_r. exact RS4.
Qed.

(** ** Round robin *)
Lemma path_same nx nx' w l : path nx w l -> (forall q, In q l -> nx' q = nx q) -> path nx' w l.
Proof. induction 1 as [|p l P H IH]; intros E; [constructor|]. constructor; [exact P|]. rewrite (E p (or_introl eq_refl)). apply IH. intros q I. apply E. right. exact I. Qed.
Lemma path_cut nx nx' z tl t' : path nx' (nx' z) t' -> forall u w, path nx w (u ++ z :: tl) -> (forall q, In q u -> nx' q = nx q) -> path nx' w (u ++ z :: t').
Proof.
  intros T u. induction u as [|x u IH]; intros w H E; cbn [app] in *; inversion H as [|p l P H']; subst.
  - constructor; assumption.
  - constructor; [assumption|]. rewrite (E x (or_introl eq_refl)). apply IH; [assumption|]. intros q I. apply E. right. exact I.
Qed.
Lemma path_tail nx u : forall w l, path nx w (u ++ l) -> exists w', path nx w' l.
Proof. induction u as [|x u IH]; intros w l H; [exists w; exact H|]. inversion H; subst. apply (IH (nx x)). assumption. Qed.
Lemma path_head nx w p l : path nx w (p :: l) -> w = Some p /\ G p /\ path nx (nx p) l.
Proof. intros H. inversion H; subst. auto. Qed.
Lemma path_rank_lt nx rank : (forall p q, G p -> nx p = Some q -> (rank q < rank p)%nat) -> forall u w x z tl, path nx w (x :: u ++ z :: tl) -> (rank z < rank x)%nat.
Proof.
  intros RK u w x z tl H. apply path_head in H as (_ & P & H). pose proof (path_rank nx rank RK _ _ H) as X. destruct (nx x) as [y|] eqn:E.
  - rewrite Forall_forall in X. specialize (X z ltac:(apply in_or_app; right; left; reflexivity)). specialize (RK x y P E). lia.
  - destruct u; discriminate X.
Qed.
Definition nx1 (a z : nat) (w : option nat) (q : nat) : option nat := if (q =? z)%nat then Some a else if (q =? a)%nat then w else nx0 q.
Lemma nx1_other a z w q : q <> a -> q <> z -> nx1 a z w q = nx0 q.
Proof. intros A Z. unfold nx1. rewrite (proj2 (Nat.eqb_neq q z) Z), (proj2 (Nat.eqb_neq q a) A). reflexivity. Qed.
Lemma turn_ok a b u z tl w : path nx0 (Some a) (a :: u ++ z :: tl) -> path nx0 w tl -> nx0 a = Some b -> nx0 z = w -> rr_type (R z) <> 2 -> (forall p, w = Some p -> rr_type (R p) = 2) ->
  links (nx1 a z w) /\ path (nx1 a z w) (Some b) ((u ++ [z]) ++ a :: tl) /\ path (nx1 a z w) w tl.
Proof.
  intros PA PW NA NZ TZ TW. pose proof (path_nodup nx0 _ _ links0 PA) as ND. pose proof (path_G nx0 _ _ PA) as GA. pose proof links0 as [LN (rank & RK)].
  assert (G a /\ G z) as (Ga & Gz). { rewrite Forall_forall in GA. split; apply GA; [left; reflexivity|right; apply in_or_app; right; left; reflexivity]. }
  inversion ND as [|? ? NI ND']; subst. assert (z <> a) as ZA by (intros ->; apply NI; apply in_or_app; right; left; reflexivity). pose proof (NoDup_remove_2 _ _ _ ND') as NZ.
  assert (forall q, q <> z -> q <> a -> nx1 a z (nx0 z) q = nx0 q) as SAME. { intros q Q1 Q2. unfold nx1. destruct (Nat.eqb_spec q z); [contradiction|]. destruct (Nat.eqb_spec q a); [contradiction|]. reflexivity. }
  assert (nx1 a z (nx0 z) z = Some a) as EZ by (unfold nx1; rewrite Nat.eqb_refl; reflexivity).
  assert (nx1 a z (nx0 z) a = nx0 z) as EA by (unfold nx1; destruct (Nat.eqb_spec a z); [destruct (ZA (eq_sym e))|]; rewrite Nat.eqb_refl; reflexivity).
  assert (path (nx1 a z (nx0 z)) (nx0 z) tl) as PT. { apply (path_same nx0); [exact PW|]. intros q I. apply SAME; intros ->; [apply NZ|apply NI]; apply in_or_app; right; [exact I|right; exact I]. }
  split; [|split; [|exact PT]].
  - split.
    + intros p q P. destruct (Nat.eq_dec p z) as [-> |N1]; [|destruct (Nat.eq_dec p a) as [-> |N2]].
      * rewrite EZ. intros E. injection E as <-. split; [exact Ga|]. right. destruct (path_kin nx0 a _ links0 PA z) as [X|(X1 & X2)]; [right; apply in_or_app; right; left; reflexivity|contradiction|split; congruence].
      * rewrite EA. intros E. split; [apply (LN z q Gz E)|left; apply TW; exact E].
      * rewrite (SAME p N1 N2). apply LN. exact P.
    + pose proof (path_rank_lt nx0 rank RK u (Some a) a z tl PA) as AZ. exists (fun q => if (q =? a)%nat then match nx0 z with Some p => (2 * rank p + 3)%nat | None => 1%nat end else (2 * rank q + 2)%nat).
      assert (forall p, nx0 z = Some p -> (rank p < rank z)%nat /\ p <> a) as WZ. { intros p E. pose proof (RK z p Gz E). split; [assumption|]. intros ->. lia. }
      intros p q P. destruct (Nat.eq_dec p z) as [-> |N1]; [|destruct (Nat.eq_dec p a) as [-> |N2]].
      * rewrite EZ. intros E. injection E as <-. rewrite Nat.eqb_refl. rewrite (proj2 (Nat.eqb_neq z a) ZA). destruct (nx0 z) as [x|]; [destruct (WZ x eq_refl); lia|lia].
      * rewrite EA. intros E. rewrite Nat.eqb_refl, E. destruct (WZ q E) as (_ & QA). rewrite (proj2 (Nat.eqb_neq q a) QA). lia.
      * rewrite (SAME p N1 N2). intros E. specialize (RK p q P E). rewrite (proj2 (Nat.eqb_neq p a) N2). destruct (Nat.eqb_spec q a) as [-> |]; [|lia]. destruct (nx0 z) as [x|]; [destruct (WZ x eq_refl); lia|lia].
  - rewrite <- app_assoc. cbn [app]. apply path_head in PA as (_ & _ & PA). rewrite NA in PA. apply (path_cut nx0 _ z tl); [|exact PA|].
    + rewrite EZ. constructor; [exact Ga|]. rewrite EA. exact PT.
    + intros q I. apply SAME; intros ->; [apply NZ|apply NI]; apply in_or_app; left; exact I.
Qed.
Lemma rotate_ok a z b w t : heapok nx0 t -> G a -> G z -> exists t', rotate a z b w t = Ok t' /\ heapok (nx1 a z w) t' /\
  t' = mkst (t_most t) (t_ar t) (t_an t) (t_ns t) (t_arc t) (t_total t) (t_a t) (t_in t) (t_heap t') (t_seen t) b None (t_last t).
Proof.
  intros (RP & GS & ND) A Z. unfold rotate. destruct (put_next_ok nx0 _ _ a w RP A) as (h1 & -> & RP1). cbn [bind]. destruct (put_next_ok _ _ _ z (Some a) RP1 Z) as (h2 & -> & RP2). cbn [bind]. eexists. split; [reflexivity|]. split; [|reflexivity]. split; [exact RP2|]. split; assumption.
Qed.

(** ** The loop over the records *)
Notation with_targets := (with_targets h0 ls R asked).
Notation is_answer := (is_answer R asked).
Notation answers := (answers R asked).
Notation authority := (authority R asked).
Notation turned := (turned R asked).
Definition pinv (fa an ns xs : list nat) : Prop :=
  with_targets fa an /\ Forall (fun x => exists p, In p (fa ++ ns) /\ address_of p x) xs /\ once xs /\
  zlen fa <= Z.max 0 (max_chain lim) /\ zlen ns <= Z.max 0 (max_chain lim) /\ zlen fa + zlen ns + zlen xs <= Z.max 0 (max_total lim).
Definition sinv (t : st) (fa an ns xs : list nat) : Prop :=
  strs t an ns /\ ars t xs /\ t_total t = zlen fa + zlen ns + zlen xs /\
  (1 <= max_ar_chain lim -> max_total lim <= t_total t \/ forall p a, In p (fa ++ ns) -> points_to p a -> rr_type (R a) <> 2 -> In a xs).
Lemma step_ok nx t fa an ns xs p c : links nx -> heapok nx t -> pinv fa an ns xs -> sinv t fa an ns xs -> G p -> at_ h0 p c -> t_total t < max_total lim -> t_a t < max_chain lim ->
  t_a t = (if t_in t then zlen ns else zlen fa) -> (t_in t = true -> rr_type (R p) = 2) -> (t_in t = false -> ns = [] /\ nx = nx0) ->
  let fa' := if t_in t then fa else fa ++ [p] in
  let ns' := if t_in t then ns ++ [p] else ns in
  exists b t' an' xs', show lim ls fuel0 asked (now nx (t_seen t) p c) t = Ok (b, t') /\ rest t t' /\ heapok nx t' /\ pinv fa' an' ns' xs' /\
    if b then sinv t' fa' an' ns' xs' /\ t_a t' = t_a t + 1 else over an' ns' xs'.
Proof.
  intros LK HO (P1 & P2 & P3 & P4 & P5 & P6) (S1 & S2 & S3 & S4) P A TT TA TE I1 I2. cbv zeta. destruct (leads_ex p P) as (qs & LD).
  destruct (show_ok nx t an ns xs p c qs LK HO S1 S2 P A LD TT I1 I2) as (b & t' & new & E & RE & HO' & AD & ON & TB & RS).
  set (fa' := if t_in t then fa else fa ++ [p]). set (ns' := if t_in t then ns ++ [p] else ns) in *. set (an' := if t_in t then an else an ++ p :: qs) in *.
  assert (forall x, In x (fa' ++ ns') <-> In x (fa ++ ns) \/ x = p) as IN.
  { intros x. unfold fa', ns'. rewrite !in_app_iff. destruct (t_in t); rewrite ?in_app_iff; cbn [In]; (split; [intros [|]|intros [[|]|]]); intuition. }
  assert (zlen fa' + zlen ns' = zlen fa + zlen ns + 1) as LEN by (unfold fa', ns'; destruct (t_in t); rewrite zlen_app; change (zlen [p]) with 1; lia).
  assert (zlen fa' <= Z.max 0 (max_chain lim) /\ zlen ns' <= Z.max 0 (max_chain lim)) as (L1 & L2) by (unfold fa', ns'; destruct (t_in t); rewrite zlen_app; change (zlen [p]) with 1; lia).
  assert (pinv fa' an' ns' (xs ++ new)) as PV.
  { split; [|split; [|split; [exact ON|split; [exact L1|split; [exact L2|rewrite zlen_app; lia]]]]].
    - unfold fa', an'. destruct (t_in t); [exact P1|]. constructor; assumption.
    - apply Forall_app. split; [revert P2|revert AD]; apply Forall_impl; [intros x (q & I & AQ); exists q|intros x AQ; exists p]; (split; [apply IN; auto|exact AQ]). }
  exists b, t', an', (xs ++ new). split; [exact E|]. split; [exact RE|]. split; [exact HO'|]. split; [exact PV|]. destruct b; [|exact RS]. destruct RS as (R1 & R2 & R3 & R4 & R5). split; [|exact R3]. split; [exact R1|]. split; [exact R2|]. split; [rewrite zlen_app; lia|].
  intros M. destruct (R5 M) as [X|X]; [left; exact X|]. destruct (S4 M) as [Y|Y]; [lia|]. right. intros q a I PT T. apply IN in I as [I| ->]; [|apply X; assumption]. apply in_or_app. left. apply (Y q a); assumption.
Qed.
Context (first : nat) (ps : list nat) (auth : Z) (deleg : bool) (PS : path nx0 (Some first) ps).
Definition may : bool := (auth =? 1) || deleg.
Notation fair := (fair h0 ls R lim asked may ps).
Notation complete := (complete h0 R lim asked may ps).
Definition after : list nat := if (max_ar_chain lim =? 1) && negb (asked =? 2) then turned ps else ps.
Definition keeps (nx : nat -> option nat) : Prop := forall q, ~ (In q (answers ps) /\ asked <> 2 /\ max_ar_chain lim = 1) -> nx q = nx0 q.
Definition outcome (b : bool) (t : st) : Prop :=
  exists nx fa an ns xs, links nx /\ keeps nx /\ heapok nx t /\ fair fa an ns xs /\
    if b then strs t an ns /\ ars t xs /\ complete fa ns xs /\ path nx (Some (t_point t)) after
    else over an ns xs /\ (path nx (Some (t_point t)) ps \/ path nx (Some (t_point t)) after).
Lemma fairly fa an ns xs ra rn : pinv fa an ns xs -> answers ps = fa ++ ra -> authority ps = ns ++ rn -> (may = false -> ns = []) -> fair fa an ns xs.
Proof.
  intros (P1 & P2 & P3 & P4 & P5 & P6) A N M. constructor; [exists ra; exact A|exact P1|exists rn; exact N|exact M|exact P2|exact P3|exact P4|exact P5|exact P6].
Qed.
(** Why records were left out. *)
Definition enough (t : st) (l r : list nat) : Prop := r = [] \/ max_chain lim <= zlen l \/ max_total lim <= t_total t.
Lemma completely t fa an ns xs ra rn : sinv t fa an ns xs -> answers ps = fa ++ ra -> authority ps = ns ++ rn -> enough t fa ra -> enough t ns rn \/ may = false -> complete fa ns xs.
Proof.
  intros (_ & _ & T & S4) A N E1 E2. unfold SpecSuccess.complete. destruct (Z.leb_spec (max_total lim) (zlen fa + zlen ns + zlen xs)) as [X|X]; [left; exact X|right].
  split; [destruct E1 as [-> |[Y|Y]]; [left; rewrite A, app_nil_r; reflexivity|right; exact Y|lia]|]. split; [destruct E2 as [[-> |[Y|Y]]|Y]; [left; rewrite N, app_nil_r; reflexivity|right; left; exact Y|lia|right; right; exact Y]|].
  intros M p a I PT TA. destruct (S4 M) as [Y|Y]; [lia|]. apply (Y p a); assumption.
Qed.
Lemma sinv_last t fa an ns xs p : sinv t fa an ns xs -> sinv (set_last t p) fa an ns xs.
Proof. intros X. exact X. Qed.
Lemma records_B nx : links nx -> keeps nx -> asked <> 2 -> forall l fuel w t fa an ns xs ra rn, path nx w l -> (length l < fuel)%nat -> heapok nx t -> pinv fa an ns xs -> sinv t fa an ns xs -> Forall (fun p => rr_type (R p) = 2) l ->
  t_in t = true -> t_a t = zlen ns -> (t_2nd t = None \/ max_ar_chain lim <> 1) -> path nx (Some (t_point t)) after -> answers ps = fa ++ ra -> authority ps = (ns ++ rn) ++ l -> enough t fa ra -> enough t ns rn \/ may = false -> (may = false -> ns = []) ->
  exists b t', records fuel fuel0 lim ls asked auth deleg first w t = Ok (b, t') /\ outcome b t'.
Proof.
  intros LK KP NQ l. induction l as [|p l IH]; intros fuel w t fa an ns xs ra rn PT FU HO PV SV TY TI TA T2 PP EA EN E1 E2 MN.
  - inversion PT; subst. rewrite app_nil_r in EN. exists true, t. split; [destruct fuel; reflexivity|]. exists nx, fa, an, ns, xs. split; [exact LK|]. split; [exact KP|]. split; [exact HO|]. split; [exact (fairly _ _ _ _ _ _ PV EA EN MN)|]. split; [apply SV|]. split; [apply SV|]. split; [exact (completely t _ _ _ _ _ _ SV EA EN E1 E2)|exact PP].
  - apply path_head in PT as (-> & P & PT). destruct fuel as [|fuel]; [cbn [length] in FU; lia|]. inversion TY as [|? ? TP TY']; subst. cbn [records]. pose proof HO as (RP & _). destruct (cell_now nx _ _ p RP P) as (c & A & IR & _ & _ & ->). cbn [bind]. rewrite TI. cbn [negb]. rewrite andb_false_r. cbn [bind]. rewrite TI. cbn [negb orb]. change ((auth =? 1) || deleg) with may.
    pose proof (path_short nx _ _ LK PT).
    assert (forall t', t_2nd t' = None \/ max_ar_chain lim <> 1 -> forall n : option nat, match n with Some _ => Ok t' | None => match t_2nd t' with Some second => if (max_ar_chain lim =? 1) && negb (asked =? RR_NS) then rotate first p second None t' else Ok t' | None => Ok t' end end = Ok t') as NOR.
    { intros t' [X|X] n; destruct n; try reflexivity; [rewrite X; reflexivity|]. rewrite (proj2 (Z.eqb_neq _ _) X). cbn [andb]. destruct (t_2nd t'); reflexivity. }
    destruct ((t_a t <? max_chain lim) && (t_total t <? max_total lim) && may) eqn:SH.
    + apply andb_true_iff in SH as (SH & MY). apply andb_true_iff in SH as (SH1 & SH2). assert (rn = []) as -> by (destruct E2 as [[E2|[E2|E2]]|E2]; [exact E2|lia|lia|congruence]). rewrite app_nil_r in EN.
      destruct (step_ok nx t fa an ns xs p c LK HO PV SV P A ltac:(lia) ltac:(lia)) as (b & t' & an' & xs' & -> & (RE1 & RE2 & RE3 & RE4) & HO' & PV' & RS); [rewrite TI; exact TA|intros _; exact TP|intros X; congruence|]. rewrite TI in PV', RS. cbn [bind fst snd].
      assert (authority ps = (ns ++ [p]) ++ l) as EN' by (rewrite <- app_assoc; exact EN).
      destruct b.
      2: { exists false, t'. split; [reflexivity|]. exists nx, fa, an', (ns ++ [p]), xs'. split; [exact LK|]. split; [exact KP|]. split; [exact HO'|]. split; [apply (fairly _ _ _ _ ra l PV' EA EN'); intros X; congruence|]. split; [exact RS|]. rewrite RE2. right. exact PP. }
      destruct RS as (SV' & TA'). cbv iota. pose proof HO' as (RP' & _). destruct (cell_now nx _ _ p RP' P) as (c' & A' & _ & _ & _ & ->). pose proof (at_inj _ _ _ _ A A') as <-. cbn [bind].
      change (s_next (now nx (t_seen t') p c)) with (nx p). change (t_2nd (set_last t' p)) with (t_2nd t').
      assert (t_2nd (set_last t' p) = None \/ max_ar_chain lim <> 1) as T2' by (change (t_2nd (set_last t' p)) with (t_2nd t'); rewrite RE3; exact T2).
      pose proof (NOR (set_last t' p) T2' (nx p)) as NR. change (t_2nd (set_last t' p)) with (t_2nd t') in NR. rewrite NR. cbn [bind].
      apply (IH fuel (nx p) (set_last t' p) fa an' (ns ++ [p]) xs' ra [] PT); try assumption.
      * cbn [length] in FU. lia.
      * change (t_in (set_last t' p)) with (t_in t'). congruence.
      * change (t_a (set_last t' p)) with (t_a t'). rewrite TA', zlen_app. change (zlen [p]) with 1. lia.
      * change (t_point (set_last t' p)) with (t_point t'). rewrite RE2. exact PP.
      * rewrite app_nil_r. exact EN'.
      * destruct E1 as [X|[X|X]]; [left; exact X|right; left; exact X|lia].
      * left. left. reflexivity.
      * intros X. congruence.
    + cbn [bind fst snd]. destruct (cell_now nx _ _ p RP P) as (c' & A' & _ & _ & _ & ->). pose proof (at_inj _ _ _ _ A A') as <-. cbn [bind]. change (s_next (now nx (t_seen t) p c)) with (nx p).
      pose proof (NOR (set_last t p) T2 (nx p)) as NR. change (t_2nd (set_last t p)) with (t_2nd t) in *. rewrite NR. cbn [bind].
      apply (IH fuel (nx p) (set_last t p) fa an ns xs ra (rn ++ [p]) PT); try assumption.
      * cbn [length] in FU. lia.
      * rewrite EN. rewrite <- !app_assoc. reflexivity.
      * apply andb_false_iff in SH as [SH|SH]; [left|right; exact SH]. right. apply andb_false_iff in SH as [SH|SH]; [left; lia|right; change (t_total (set_last t p)) with (t_total t); lia].
Qed.

(** The chain and its parts. *)
Lemma answers_app d l : Forall (fun p => is_answer p = true) d -> answers (d ++ l) = d ++ answers l.
Proof. unfold SpecSuccess.answers. induction 1 as [|x d X H IH]; [reflexivity|]. cbn [app take_while]. rewrite X, IH. reflexivity. Qed.
Lemma authority_app d l : Forall (fun p => is_answer p = true) d -> authority (d ++ l) = authority l.
Proof. unfold SpecSuccess.authority. induction 1 as [|x d X H IH]; [reflexivity|]. cbn [app drop_while]. rewrite X, IH. reflexivity. Qed.
Lemma not_answer p : is_answer p = false <-> asked <> 2 /\ rr_type (R p) = 2.
Proof. unfold SpecSuccess.is_answer. destruct (Z.eqb_spec asked 2); destruct (Z.eqb_spec (rr_type (R p)) 2); cbn [orb negb]; intuition congruence. Qed.
Lemma ns_test p : negb (asked =? 2) && (rr_type (R p) =? 2) = negb (is_answer p).
Proof. unfold SpecSuccess.is_answer. destruct (asked =? 2), (rr_type (R p) =? 2); reflexivity. Qed.
Definition second0 : option nat := match nx0 first with Some q => if is_answer q then Some q else None | None => None end.
Definition last_of (d : list nat) : option nat := match rev d with [] => None | z :: _ => Some z end.
Lemma last_of_snoc u z : last_of (u ++ [z]) = Some z.
Proof. unfold last_of. rewrite rev_app_distr. reflexivity. Qed.
Lemma second_spec : match ps with x :: b :: _ => x = first /\ nx0 first = Some b /\ second0 = if is_answer b then Some b else None | _ => second0 = None end.
Proof.
  pose proof PS as H. destruct ps as [|x l]; [inversion H|]. apply path_head in H as (E & _ & H). injection E as <-. unfold second0. destruct l as [|b l]; [inversion H; reflexivity|]. apply path_head in H as (-> & _). repeat split.
Qed.
Lemma records_in fuel p c t t1 : begin_ns lim first p t = Ok t1 -> t_in t1 = true -> cell (t_heap t) p = Ok c -> cell (t_heap t1) p = Ok c -> s_type c = rr_type (R p) -> is_answer p = false -> t_in t = false ->
  records (S fuel) fuel0 lim ls asked auth deleg first (Some p) t = records (S fuel) fuel0 lim ls asked auth deleg first (Some p) t1.
Proof.
  intros B I C C1 TY N I0. cbn [records]. rewrite C, C1. cbn [bind]. rewrite TY. change RR_NS with 2. rewrite ns_test, N, I0, I. cbn [negb andb]. rewrite B. reflexivity.
Qed.
Lemma begin_ok t d p l : ps = d ++ p :: l -> Forall (fun p => is_answer p = true) d -> is_answer p = false -> heapok nx0 t -> t_2nd t = second0 -> t_point t = first -> t_last t = last_of d ->
  exists t1 nx, begin_ns lim first p t = Ok t1 /\ links nx /\ keeps nx /\ heapok nx t1 /\ path nx (Some p) (p :: l) /\ nx p = nx0 p /\ (t_2nd t1 = None \/ max_ar_chain lim <> 1) /\ path nx (Some (t_point t1)) after /\
    t1 = mkst (t_most t) (t_ar t) (t_an t) (t_ns t) (t_arc t) (t_total t) 0 true (t_heap t1) (t_seen t) (t_point t1) (t_2nd t1) (t_last t).
Proof.
  intros EP FD NP HO T2 TP TL. apply not_answer in NP as NP'. destruct NP' as (NQ & TY). assert (answers ps = d) as EA. { rewrite EP, (answers_app d _ FD). unfold SpecSuccess.answers. cbn [take_while]. rewrite NP. apply app_nil_r. }
  assert (authority ps = p :: l) as EN. { rewrite EP, (authority_app d _ FD). unfold SpecSuccess.authority. cbn [drop_while]. rewrite NP. reflexivity. }
  assert (path nx0 (Some p) (p :: l)) as PP. { pose proof PS as H. rewrite EP in H. apply path_tail in H as (w' & H). pose proof (path_head nx0 w' p l H) as (-> & _). exact H. }
  assert (forall t, (t_2nd t = None \/ max_ar_chain lim <> 1 \/ t_last t = None) -> match t_2nd t, t_last t with Some second, Some last => if max_ar_chain lim =? 1 then rotate first last second (Some p) t else Ok t | _, _ => Ok t end = Ok t) as NOR.
  { intros t' [X|[X|X]]; [rewrite X; reflexivity| |rewrite X; destruct (t_2nd t'); reflexivity]. rewrite (proj2 (Z.eqb_neq _ _) X). destruct (t_2nd t'), (t_last t'); reflexivity. }
  assert ((t_2nd t = None /\ turned ps = ps) \/ max_ar_chain lim <> 1 ->
    exists t1 nx, begin_ns lim first p t = Ok t1 /\ links nx /\ keeps nx /\ heapok nx t1 /\ path nx (Some p) (p :: l) /\ nx p = nx0 p /\ (t_2nd t1 = None \/ max_ar_chain lim <> 1) /\ path nx (Some (t_point t1)) after /\
    t1 = mkst (t_most t) (t_ar t) (t_an t) (t_ns t) (t_arc t) (t_total t) 0 true (t_heap t1) (t_seen t) (t_point t1) (t_2nd t1) (t_last t)) as SAME.
  { intros X. unfold begin_ns. rewrite NOR by tauto. cbn [bind]. eexists. exists nx0. split; [reflexivity|]. split; [exact links0|]. split; [intros ? _; reflexivity|]. split; [exact HO|]. split; [exact PP|]. split; [reflexivity|]. cbn [t_2nd t_point t_heap]. split; [tauto|]. split; [|reflexivity]. rewrite TP.
    assert (after = ps) as ->; [|exact PS]. unfold after. destruct X as [(_ & ->)|X]; [destruct (_ && _); reflexivity|]. rewrite (proj2 (Z.eqb_neq _ _) X). reflexivity. }
  destruct (Z.eq_dec (max_ar_chain lim) 1) as [M1|M1]; [|apply SAME; right; exact M1].
  pose proof second_spec as SS. rewrite EP in SS. destruct d as [|x d].
  - apply SAME. left. split; [|unfold SpecSuccess.turned; rewrite EA; reflexivity]. rewrite T2. cbn [app] in SS. destruct l as [|b l]; [exact SS|]. destruct SS as (-> & NB & ->). apply path_head in PP as (_ & P & PB). destruct (li_next _ links0 _ _ P NB) as (_ & [Y|(_ & Y)]).
    + assert (is_answer b = false) as -> by (apply not_answer; auto). reflexivity.
    + assert (is_answer b = false) as -> by (apply not_answer; split; [exact NQ|congruence]). reflexivity.
  - destruct (exists_last (l := x :: d) ltac:(discriminate)) as (u & z & EU). destruct u as [|x' u]; [cbn [app] in EU; injection EU as -> ->|].
    + apply SAME. left. split; [|unfold SpecSuccess.turned; rewrite EA; reflexivity]. rewrite T2. cbn [app] in SS. destruct SS as (_ & _ & ->). rewrite NP. reflexivity.
    + cbn [app] in EU. injection EU as -> EU. subst d. cbn [app] in EP. rewrite <- app_assoc in EP. cbn [app] in EP.
      assert (forall q, In q (x' :: u ++ [z]) -> is_answer q = true) as IA by (intros q I; rewrite Forall_forall in FD; exact (FD q I)).
      assert (exists b r, u ++ [z] = b :: r) as (b & r & EB) by (destruct u as [|y u]; [exists z, []|exists y, (u ++ [z])]; reflexivity).
      assert (u ++ z :: p :: l = b :: r ++ p :: l) as EC by (change (z :: p :: l) with ([z] ++ p :: l); rewrite app_assoc, EB; reflexivity).
      assert (x' :: (u ++ [z]) = (x' :: u) ++ [z]) as ED by reflexivity.
      rewrite ED, last_of_snoc in TL. cbn [app] in SS. rewrite <- app_assoc in SS. cbn [app] in SS. rewrite EC in SS. destruct SS as (-> & NB & S2). rewrite (IA b) in S2 by (right; rewrite EB; left; reflexivity).
      assert (G first) as G1 by (pose proof PS as H; rewrite EP in H; apply path_head in H as (_ & H & _); exact H).
      assert (path nx0 (Some z) (z :: p :: l)) as PZ. { pose proof PS as H. rewrite EP in H. apply (path_tail nx0 (first :: u)) in H as (w' & H). pose proof (path_head nx0 w' z _ H) as (-> & _). exact H. } apply path_head in PZ as (_ & GZ & PZ). apply path_head in PZ as (NZ & _).
      destruct (turn_ok first b u z (p :: l) (Some p)) as (LK & PT & PT2); [rewrite <- EP; exact PS|exact PP|exact NB|exact NZ| |intros q E; injection E as <-; exact TY|].
      { intros X. assert (is_answer z = false) as Y by (apply not_answer; auto). rewrite (IA z) in Y by (right; apply in_or_app; right; left; reflexivity). discriminate Y. }
      destruct (rotate_ok first z b (Some p) t HO G1 GZ) as (t' & RT & HO' & ET). unfold begin_ns. rewrite T2, S2, TL, M1. change (1 =? 1) with true. cbv iota. rewrite RT. cbn [bind]. eexists. exists (nx1 first z (Some p)). split; [reflexivity|]. split; [exact LK|]. split; [intros q NI; rewrite EA in NI; apply nx1_other; intros ->; apply NI; (split; [|auto]); [left; reflexivity|right; apply in_or_app; right; left; reflexivity]|]. split; [exact HO'|]. split; [exact PT2|].
      split; [|split; [left; rewrite ET; reflexivity|split; [|rewrite ET; cbn [t_most t_ar t_an t_ns t_arc t_total t_seen t_heap t_point t_2nd t_last]; rewrite TL; reflexivity]]].
      * apply path_head in PP as (_ & _ & PP). unfold nx1. pose proof PS as H. rewrite EP in H. pose proof (path_nodup nx0 _ _ links0 H) as ND. destruct (Nat.eqb_spec p z) as [-> |_].
        { exfalso. change (first :: u ++ z :: z :: l) with ((first :: u) ++ z :: z :: l) in ND. apply NoDup_remove_2 in ND. apply ND. apply in_or_app. right. left. reflexivity. }
        destruct (Nat.eqb_spec p first) as [-> |_]; [|reflexivity]. inversion ND as [|? ? NI]; subst. exfalso. apply NI. apply in_or_app. right. right. left. reflexivity.
      * rewrite ET. cbn [t_point]. unfold after. rewrite M1, (proj2 (Z.eqb_neq _ _) NQ). change ((1 =? 1) && negb false) with true. cbv iota. unfold SpecSuccess.turned. rewrite EA, EN, EB. cbv iota. rewrite <- EB. exact PT.
Qed.
Definition A_stmt (l : list nat) : Prop := forall fuel p t fa an xs ra, ps = (fa ++ ra) ++ p :: l -> Forall (fun p => is_answer p = true) (fa ++ ra) -> (length (p :: l) < fuel)%nat -> heapok nx0 t -> pinv fa an [] xs -> sinv t fa an [] xs -> enough t fa ra ->
  t_in t = false -> t_a t = zlen fa -> t_2nd t = second0 -> t_point t = first -> t_last t = last_of (fa ++ ra) ->
  exists b t', records fuel fuel0 lim ls asked auth deleg first (Some p) t = Ok (b, t') /\ outcome b t'.
(** What is left to do after the answer [p]. *)
Lemma A_next l : match l with [] => True | _ :: l' => A_stmt l' end -> forall fuel p t fa an xs ra, ps = (fa ++ ra) ++ l -> Forall (fun p => is_answer p = true) (fa ++ ra) -> (length l < fuel)%nat -> heapok nx0 t -> pinv fa an [] xs -> sinv t fa an [] xs -> enough t fa ra ->
  t_in t = false -> t_a t = zlen fa -> t_2nd t = second0 -> t_point t = first -> t_last t = Some p -> last_of (fa ++ ra) = Some p -> path nx0 (nx0 p) l -> G p ->
  exists b t', (t <- match nx0 p, t_2nd t with None, Some second => if (max_ar_chain lim =? 1) && negb (asked =? RR_NS) then rotate first p second None t else Ok t | _, _ => Ok t end ;;
    records fuel fuel0 lim ls asked auth deleg first (nx0 p) t) = Ok (b, t') /\ outcome b t'.
Proof.
  intros IH fuel p t fa an xs ra EP FD FU HO PV SV EN TI TA T2 TP TL LO PL GP. destruct l as [|q l].
  2: { pose proof (path_head nx0 _ _ _ PL) as (E & _). rewrite E. cbn [bind]. rewrite <- LO in TL. exact (IH fuel q t fa an xs ra EP FD FU HO PV SV EN TI TA T2 TP TL). }
  clear IH. assert (nx0 p = None) as E by (inversion PL; reflexivity). rewrite E. rewrite app_nil_r in EP. change RR_NS with 2.
  assert (answers ps = fa ++ ra) as EA. { rewrite <- (app_nil_r ps), EP, (answers_app _ [] FD). apply app_nil_r. }
  assert (authority ps = [] ++ []) as EU. { rewrite <- (app_nil_r ps), EP, (authority_app _ [] FD). reflexivity. }
  pose proof (fairly _ _ _ _ _ _ PV EA EU (fun _ => eq_refl)) as FAIR. pose proof (completely t _ _ _ _ _ _ SV EA EU EN (or_introl (or_introl eq_refl))) as COMP.
  assert (after = ps -> exists b t', (t <- Ok t ;; records fuel fuel0 lim ls asked auth deleg first None t) = Ok (b, t') /\ outcome b t') as STAY.
  { intros AF. exists true, t. split; [destruct fuel; reflexivity|]. exists nx0, fa, an, [], xs. split; [exact links0|]. split; [intros ? _; reflexivity|]. split; [exact HO|]. split; [exact FAIR|]. split; [apply SV|]. split; [apply SV|]. split; [exact COMP|]. rewrite AF, TP. exact PS. }
  destruct ((max_ar_chain lim =? 1) && negb (asked =? 2)) eqn:M.
  2: { assert (after = ps) as AF by (unfold after; rewrite M; reflexivity). destruct (t_2nd t); apply STAY; exact AF. }
  pose proof second_spec as SS. assert (Forall (fun p => is_answer p = true) ps) as FP by (rewrite EP; exact FD).
  assert (last_of ps = Some p) as LP by (rewrite EP; exact LO). assert (forall x b d, ps = x :: b :: d -> exists u, ps = x :: u ++ [p] /\ u ++ [p] = b :: d) as US.
  { intros x b d E1. destruct (exists_last (l := b :: d) ltac:(discriminate)) as (u & z & E2). rewrite E1, E2 in LP. change (x :: u ++ [z]) with ((x :: u) ++ [z]) in LP. rewrite last_of_snoc in LP. injection LP as ->. exists u. split; [rewrite E1, E2; reflexivity|auto]. }
  rewrite <- EP in EA. cbn [app] in EU. assert (turned ps = match ps with a :: b :: as_ => (b :: as_) ++ [a] | _ => ps end) as TU by (unfold SpecSuccess.turned; rewrite EA, EU; reflexivity).
  assert (after = turned ps) as AF by (unfold after; rewrite M; reflexivity). rewrite TU in AF. clear TU.
  assert (match ps with [] | [_] => True | _ => exists x b d, ps = x :: b :: d end) as CS by (destruct ps as [|x [|b d]]; eauto).
  assert ((exists x b d, ps = x :: b :: d) \/ second0 = None /\ after = ps) as [(x & b & d & E1)|(S0 & A0)].
  { destruct ps as [|x [|b d]]; [right; auto|right; auto|left; eauto]. }
  2: { rewrite T2, S0. apply STAY. exact A0. }
  rewrite E1 in SS, AF. destruct (US x b d E1) as (u & E2 & E3). destruct SS as (-> & NB & S2). rewrite E1 in FP. inversion FP as [|? ? _ FP']; subst. inversion FP' as [|? ? IB _]; subst. rewrite IB in S2. rewrite T2, S2.
  assert (G first) as G1 by (pose proof PS as H; rewrite E1 in H; apply path_head in H as (_ & H & _); exact H).
  assert (asked <> 2) as NQ by (intros X; rewrite X in M; rewrite andb_false_r in M; discriminate M).
  destruct (turn_ok first b u p [] None) as (LK & PT & _); [rewrite <- E2; exact PS|constructor|exact NB|exact E| |intros ? X; discriminate X|].
  { intros X. assert (is_answer p = false) as Y by (apply not_answer; auto). rewrite Forall_forall in FP. rewrite (FP p) in Y by (rewrite <- E3; right; apply in_or_app; right; left; reflexivity). discriminate Y. }
  destruct (rotate_ok first p b None t HO G1 GP) as (t' & -> & HO' & ET). cbn [bind]. exists true, t'. split; [destruct fuel; reflexivity|]. exists (nx1 first p None), fa, an, [], xs. split; [exact LK|]. split; [intros q NI; rewrite EA, E2 in NI; apply nx1_other; intros ->; apply NI; (split; [|split; [exact NQ|apply andb_true_iff in M as (M & _); apply Z.eqb_eq, M]]); [left; reflexivity|right; apply in_or_app; right; left; reflexivity]|]. split; [exact HO'|]. split; [exact FAIR|].
  split; [rewrite ET; apply SV|]. split; [rewrite ET; apply SV|]. split; [exact COMP|]. rewrite AF, ET. cbn [t_point]. rewrite <- E3. exact PT.
Qed.
Lemma A_step l : match l with [] => True | _ :: l' => A_stmt l' end -> A_stmt l.
Proof.
  intros IH fuel p t fa an xs ra EP FD FU HO PV SV EN TI TA T2 TP TL.
  assert (path nx0 (Some p) (p :: l)) as PP by (pose proof PS as H; rewrite EP in H; apply path_tail in H as (w' & H); pose proof (path_head nx0 w' p _ H) as (-> & _); exact H).
  pose proof (path_head nx0 _ _ _ PP) as (_ & P & PL). pose proof HO as (RP & _). destruct (cell_now nx0 _ _ p RP P) as (c & A & IR & _ & _ & CE). assert (s_type (now nx0 (t_seen t) p c) = rr_type (R p)) as TY by apply IR. destruct fuel as [|fuel]; [lia|].
  destruct (is_answer p) eqn:IP.
  2: { (* the authority section *)
       destruct (begin_ok t (fa ++ ra) p l EP FD IP HO T2 TP TL) as (t1 & nx & BN & LK & KP & HO1 & PP1 & EX & T21 & PA & ET). apply not_answer in IP as IP'. destruct IP' as (NQ & TP2).
       rewrite (records_in fuel p (now nx0 (t_seen t) p c) t t1 BN); [|rewrite ET; reflexivity|exact CE| |exact TY|exact IP|exact TI].
       2: { pose proof HO1 as (RP1 & _). destruct (cell_now nx _ _ p RP1 P) as (c' & A' & _ & _ & _ & ->). pose proof (at_inj _ _ _ _ A A') as <-. rewrite ET. cbn [t_seen]. unfold now. rewrite EX. reflexivity. }
       apply (records_B nx LK KP NQ (p :: l) (S fuel) (Some p) t1 fa an [] xs ra [] PP1 FU HO1 PV); try assumption.
       - rewrite ET. exact SV.
       - constructor; [exact TP2|]. apply Forall_forall. intros q I. destruct (path_kin nx0 p (p :: l) links0 PP q (or_intror I)) as [X|(_ & X)]; [exact X|congruence].
       - rewrite ET. reflexivity.
       - rewrite ET. reflexivity.
       - rewrite EP, (answers_app _ _ FD). unfold SpecSuccess.answers. cbn [take_while]. rewrite IP. apply app_nil_r.
       - rewrite EP, (authority_app _ _ FD). unfold SpecSuccess.authority. cbn [drop_while]. rewrite IP. reflexivity.
       - destruct EN as [X|[X|X]]; [left; exact X|right; left; exact X|right; right; rewrite ET; exact X].
       - left. left. reflexivity.
       - reflexivity. }
  cbn [records]. rewrite CE. cbn [bind]. rewrite TY. change RR_NS with 2. rewrite ns_test, IP. cbn [negb andb bind]. rewrite TI. cbn [negb orb]. rewrite andb_true_r.
  assert (ps = ((fa ++ ra) ++ [p]) ++ l) as EP' by (rewrite <- app_assoc; exact EP). assert (Forall (fun p => is_answer p = true) ((fa ++ ra) ++ [p])) as FD' by (apply Forall_app; split; [exact FD|constructor; [exact IP|constructor]]).
  destruct ((t_a t <? max_chain lim) && (t_total t <? max_total lim)) eqn:SH.
  - apply andb_true_iff in SH as (SH1 & SH2). assert (ra = []) as -> by (destruct EN as [X|[X|X]]; [exact X|lia|lia]). rewrite app_nil_r in *.
    destruct (step_ok nx0 t fa an [] xs p c links0 HO PV SV P A ltac:(lia) ltac:(lia)) as (b & t' & an' & xs' & -> & (RE1 & RE2 & RE3 & RE4) & HO' & PV' & RS); [rewrite TI; exact TA|intros X; congruence|auto|]. rewrite TI in PV', RS. cbn [bind fst snd]. destruct b.
    2: { exists false, t'. split; [reflexivity|]. exists nx0, (fa ++ [p]), an', [], xs'. split; [exact links0|]. split; [intros ? _; reflexivity|]. split; [exact HO'|]. split; [|split; [exact RS|left; rewrite RE2, TP; exact PS]].
         apply (fairly _ _ _ _ (answers l) (authority ps) PV'); [rewrite EP'; apply answers_app; exact FD'|reflexivity|reflexivity]. }
    destruct RS as (SV' & TA'). cbv iota. pose proof HO' as (RP' & _). destruct (cell_now nx0 _ _ p RP' P) as (c' & A' & _ & _ & _ & ->). pose proof (at_inj _ _ _ _ A A') as <-. cbn [bind]. change (s_next (now nx0 (t_seen t') p c)) with (nx0 p).
    apply (A_next l IH fuel p (set_last t' p) (fa ++ [p]) an' xs' []); rewrite ?app_nil_r; try assumption.
    + cbn [length] in FU. lia.
    + left. reflexivity.
    + change (t_in (set_last t' p)) with (t_in t'). congruence.
    + change (t_a (set_last t' p)) with (t_a t'). rewrite TA', zlen_app. change (zlen [p]) with 1. lia.
    + change (t_2nd (set_last t' p)) with (t_2nd t'). congruence.
    + change (t_point (set_last t' p)) with (t_point t'). congruence.
    + reflexivity.
    + apply last_of_snoc.
  - cbn [bind fst snd]. rewrite CE. cbn [bind]. change (s_next (now nx0 (t_seen t) p c)) with (nx0 p).
    apply (A_next l IH fuel p (set_last t p) fa an xs (ra ++ [p])); rewrite ?app_assoc; try assumption.
    + cbn [length] in FU. lia.
    + right. apply andb_false_iff in SH as [SH|SH]; [left; lia|right; change (t_total (set_last t p)) with (t_total t); lia].
    + reflexivity.
    + apply last_of_snoc.
Qed.
Lemma records_A l : A_stmt l.
Proof. induction l as [|q l IH]; apply A_step; [exact I|exact IH]. Qed.
End Run.
