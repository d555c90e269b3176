(** C33, C44: names in the zone data of MaraDNS, and what the server answers (server/MaraDNS.c). *)
From Verif Require Import CBase Bits ModelDwStr SpecDwStr SpecNames SpecMessage SpecAcl SpecQuery ModelJsStr SpecJsStr ModelQueries SpecQueries ProofJsList ModelMaraHash SpecMaraHash ProofMaraHash
  PropsMaraHash PropsQueries ModelServe SpecServe ProofServe ProofServeRun ProofServeFind ProofServeAll.

(** ** C33: case and labels *)
(** The letters of the name are lowered, and nothing else: the type may have such octets. *)
Theorem C33_fold_case_exact : forall s n t, holding s (plain n t) -> zlen (plain n t) < j_max s -> good_name n ->
  exists r s', fold_case s = Ok (r, s') /\ r <> JS_ERROR /\ holding s' (plain (lower_name n) t).
Proof.
  intros s n t H L G. destruct (fold_held (j_max s) s n t (conj H eq_refl) G L) as (r & s' & E & N & H' & _). exists r, s'. split; [exact E|]. split; [change JS_ERROR with (-1); lia|exact H'].
Qed.
(** Replacing the first label by a star, taking away the next one, and taking away the first label. *)
Theorem C33_star_label_exact : forall s l n t, holding s (plain (l :: n) t) -> zlen (plain (l :: n) t) < j_max s -> good_label l -> exists s', make_starlabel s = Ok (1, s') /\ holding s' (star_of n t).
Proof. intros s l n t H L G. destruct (make_star_held (j_max s) s l n t (conj H eq_refl) G L) as (s' & E & H' & _). exists s'. split; assumption. Qed.
Theorem C33_parent_exact : forall s l n t, holding s (plain (l :: n) t) -> zlen (plain (l :: n) t) < j_max s -> good_label l -> exists s', bobbit_label s = Ok (1, s') /\ holding s' (plain n t).
Proof. intros s l n t H L G. destruct (bobbit_held (j_max s) s l n t (conj H eq_refl) G L) as (s' & E & H' & _). exists s'. split; assumption. Qed.
(** Taking away labels below a star ends at the root, after as many steps as there are labels. *)
Fixpoint star_steps (k : nat) (s : js) : res (nat * js) :=
  match k with
  | O => Bad NoFuel
  | S k => ' (b, s) <- bobbit_starlabel s ;; if b <=? 0 then Ok (O, s) else ' (i, s) <- star_steps k s ;; Ok (S i, s)
  end.
Theorem C33_star_steps_end : forall n s t, holding s (star_of n t) -> zlen (star_of n t) < j_max s -> good_name n ->
  (forall l r, n = l :: r -> exists s', bobbit_starlabel s = Ok (1, s') /\ holding s' (star_of r t)) /\
  forall k, (length n < k)%nat -> exists s', star_steps k s = Ok (length n, s') /\ holding s' (star_of [] t).
Proof.
  intros n s t H L G. split. { intros l r ->. apply Forall_cons_iff in G as (GL & G). destruct (bobbit_star_held (j_max s) s l r t (conj H eq_refl) GL L) as (s' & E & H' & _). exists s'. split; assumption. }
  assert (held (j_max s) s (star_of n t)) as HH by (split; [exact H|reflexivity]). revert HH L G. clear H. generalize (j_max s). intros cap. revert s. induction n as [|l n IH]; intros s H L G k K; destruct k as [|k]; try (cbn [length] in K; lia); cbn [star_steps].
  - destruct (bobbit_star_root _ _ _ H ltac:(change (zlen (star_of [] t)) with 4 in L; lia)) as (s' & -> & H'). cbn [bind]. exists s'. split; [reflexivity|exact (proj1 H')].
  - apply Forall_cons_iff in G as (GL & G). destruct (bobbit_star_held _ _ _ _ _ H GL L) as (s' & -> & H'). cbn [bind]. change (1 <=? 0) with false. cbv iota. destruct (IH s' H' ltac:(rewrite zlen_star, zlen_wire_tl in *; pose proof (zlen_nonneg l); lia) G k ltac:(cbn [length] in K; lia)) as (s'' & -> & H''). cbn [bind]. exists s''. split; [reflexivity|exact H''].
Qed.
Definition abC : name := [[65; 98]; [67]].
Example C33_names_met : holding (str (plain abC 1) 256) (plain abC 1) /\ holding (str (star_of abC 1) 256) (star_of abC 1) /\ zlen (plain abC 1) < 256 /\ good_name abC /\ lower_name abC = [[97; 98]; [99]].
Proof.
  split; [str_tac|]. split; [str_tac|]. split; [reflexivity|]. split; [|reflexivity]. constructor; [split; [vm_compute; split; discriminate|apply bytesb_spec; reflexivity]|]. constructor; [split; [vm_compute; split; discriminate|apply bytesb_spec; reflexivity]|]. constructor.
Qed.
Print Assumptions C33_fold_case_exact.
Print Assumptions C33_star_label_exact.
Print Assumptions C33_parent_exact.
Print Assumptions C33_star_steps_end.

(** ** C44: what is answered *)
(** For every query with one question for a name (up to 253 octets; not the root), whatever is
    in the zone data and whatever memory holds, the outcome is the one that the zone data determine. *)
Theorem C44_answers : forall (V : Type) (auth : V -> bool) add zd m c J1 J2 J raw p h n t class,
  zone_data add zd m -> no_any m -> junk_ok J1 -> junk_ok J2 -> junk_ok J -> holding raw p -> is_query p h n t class -> fitting n -> n <> [] -> word t -> word class ->
  class / 256 = 0 \/ class mod 256 = 1 -> no_reports c n t -> proc_query auth add zd c J1 J2 J raw = Ok (decision auth m c (h_id h) (h_rd h) n t).
Proof.
  intros V auth add zd m c J1 J2 J raw p h n t class Z NA K1 K2 K3 HR (rest & -> & BR & HH & Q0 & OP & Q1) (GN & LN) NN WT WC CL NR. destruct (map_of add zd m Z) as (W & R).
  apply (packet_ok auth add zd m c J1 J2 J raw h n t class rest); assumption.
Qed.

(** *** Consequences *)
Lemma closest_none {A B} (f : A -> option B) l : closest f l = None <-> forall x, In x l -> f x = None.
Proof.
  induction l as [|a l IH]; cbn [closest]; [split; [intros _ x []|reflexivity]|]. destruct (f a) eqn:E.
  - split; [discriminate|]. intros H. rewrite (H a (or_introl eq_refl)) in E. discriminate E.
  - rewrite IH. split; [intros H x [<- | X]; [exact E|apply H, X]|intros H x X; apply H; right; exact X].
Qed.
Lemma in_ups n r : In r (ups n) <-> exists b, n = b ++ r.
Proof.
  induction n as [|l n IH]; [cbn [ups In]|rewrite ups_cons; cbn [In]].
  - split; [intros [<- | []]; exists []; reflexivity|]. intros (b & E). symmetry in E. apply app_eq_nil in E as (_ & ->). left. reflexivity.
  - rewrite IH. split.
    + intros [<- | (b & ->)]; [exists []; reflexivity|exists (l :: b); reflexivity].
    + intros (b & E). destruct b as [|x b]; [left; exact E|]. injection E as _ E. right. exists b. exact E.
Qed.
Lemma closest_nowhere {A} (f : name -> option A) n : closest f (ups n) = None <-> nowhere f n.
Proof. rewrite closest_none. unfold nowhere. split; [intros H b r E; apply H, in_ups; exists b; exact E|intros H x X; apply in_ups in X as (b & X); apply (H b x X)]. Qed.
Lemma closest_nearest {A} (f : name -> option A) n v : closest f (ups n) = Some v <-> exists s, nearest f n s v.
Proof.
  induction n as [|l n IH]; [cbn [ups closest]|rewrite ups_cons; cbn [closest]].
  - destruct (f []) as [x|] eqn:E.
    + split; [intros H; injection H as <-; exists []; split; [exists []; reflexivity|]; split; [exact E|]; intros b r X L; symmetry in X; apply app_eq_nil in X as (_ & ->); cbn in L; lia|]. intros (s & (a & X) & F & _). symmetry in X. apply app_eq_nil in X as (_ & ->). rewrite E in F. exact F.
    + split; [discriminate|]. intros (s & (a & X) & F & _). symmetry in X. apply app_eq_nil in X as (_ & ->). rewrite E in F. discriminate F.
  - destruct (f (l :: n)) as [x|] eqn:E.
    + split.
      * intros H. injection H as <-. exists (l :: n). split; [exists []; reflexivity|]. split; [exact E|]. intros b r X L. apply (f_equal (@length _)) in X. rewrite app_length in X. lia.
      * intros (s & (a & X) & F & N). destruct a as [|y a]; [cbn in X; subst s; rewrite E in F; exact F|]. assert (length s < length (l :: n))%nat as LS by (rewrite X, app_length; cbn [length]; lia). rewrite (N [] (l :: n) eq_refl LS) in E. discriminate E.
    + rewrite IH. split; intros (s & (a & X) & F & N).
      * exists s. split; [exists (l :: a); rewrite X; reflexivity|]. split; [exact F|]. intros b r Y L. destruct b as [|y b]; [cbn in Y; subst r; exact E|]. injection Y as _ Y. apply (N b r Y L).
      * destruct a as [|y a]; [cbn in X; subst s; rewrite E in F; discriminate F|]. injection X as <- X. exists s. split; [exists a; exact X|]. split; [exact F|]. intros b r Y L. apply (N (l :: b) r); [cbn; rewrite Y; reflexivity|exact L].
Qed.

Section Cons.
Context {V : Type} (auth : V -> bool) (add : Z) (zd : mhash V) (m : amap V) (c : conf) (J1 J2 J : Z -> Z) (raw : js) (h : header) (n : name) (t : Z).
Notation low := (lower_name n).
Notation q := (plain n t).
Notation reply := (proc_query auth add zd c J1 J2 J raw).
Lemma answered : asked add zd m c J1 J2 J raw h n t -> reply = Ok (decision auth m c (h_id h) (h_rd h) n t).
Proof. intros (A1 & A2 & A3 & A4 & A5 & p & class & B1 & B2 & B3 & B4 & B5 & B6 & B7 & B8). apply (C44_answers V auth add zd m c J1 J2 J raw p h n t class); assumption. Qed.
Lemma decision_respond id rd : looked_up c t -> decision auth m c id rd n t = respond auth m c id rd n t.
Proof.
  intros (A & B & C & D). unfold decision. replace ((t =? 28) && negb (c_raaaa c =? 0)) with false by (destruct (Z.eqb_spec t 28), (Z.eqb_spec (c_raaaa c) 0); cbn; try reflexivity; exfalso; tauto).
  replace ((t =? 12) && negb (c_rptr c =? 0)) with false by (destruct (Z.eqb_spec t 12), (Z.eqb_spec (c_rptr c) 0); cbn; try reflexivity; exfalso; tauto). cbn [orb].
  replace ((t =? 250) || (t =? 253) || (t =? 254)) with false by lia. replace ((t =? 251) || (t =? 252)) with false by lia. replace (c_dos c =? 78) with false by lia. change T_ANY with 255. replace (t =? 255) with false by lia. rewrite andb_false_r. reflexivity.
Qed.
(** The name and type asked for, in whatever case, get the records that there are. *)
Theorem C44_exact_match : forall v, asked add zd m c J1 J2 J raw h n t -> looked_up c t -> records m (plain low t) = Some v -> reply = Ok (1, Answer v q ((t =? T_A) || (t =? T_CNAME))).
Proof. intros v A L E. rewrite (answered A), decision_respond by exact L. unfold respond. rewrite E. reflexivity. Qed.
(** Otherwise a CNAME record of the name. *)
Theorem C44_cname_match : forall v, asked add zd m c J1 J2 J raw h n t -> looked_up c t -> c_dos c <= 7 -> records m (plain low t) = None -> records m (plain low T_CNAME) = Some v -> reply = Ok (1, Answer v q true).
Proof. intros v A L D E1 E2. rewrite (answered A), decision_respond by exact L. unfold respond. replace (7 <? c_dos c) with false by lia. rewrite E1, E2. reflexivity. Qed.

Definition ns (s : name) : option V := records m (plain s T_NS).
Lemma servers_some rd v s : full_search c rd -> (if (rd =? 1) && (c_recdel c =? 1) then None else closest_servers m n) = Some (v, s) -> nearest ns low s v.
Proof.
  intros (_ & _ & F) E. replace ((rd =? 1) && (c_recdel c =? 1)) with false in E by lia. unfold closest_servers in E. apply closest_nearest in E as (s' & A & F' & N). destruct (records m (plain s' T_NS)) as [v'|] eqn:E'; [|discriminate F']. injection F' as <- <-. split; [exact A|]. split; [exact E'|]. intros b r X L. specialize (N b r X L). unfold ns. destruct (records m (plain r T_NS)); [discriminate N|reflexivity].
Qed.
Lemma servers_is rd v s : full_search c rd -> nearest ns low s v -> (if (rd =? 1) && (c_recdel c =? 1) then None else closest_servers m n) = Some (v, s).
Proof.
  intros (_ & _ & F) (A & E & N). replace ((rd =? 1) && (c_recdel c =? 1)) with false by lia. unfold closest_servers. apply closest_nearest. exists s. split; [exact A|]. split; [unfold ns in E; rewrite E; reflexivity|]. intros b r X L. specialize (N b r X L). unfold ns in N. rewrite N. reflexivity.
Qed.
Lemma servers_none rd : full_search c rd -> (if (rd =? 1) && (c_recdel c =? 1) then None else closest_servers m n) = None <-> nowhere ns low.
Proof.
  intros (_ & _ & F). replace ((rd =? 1) && (c_recdel c =? 1)) with false by lia. unfold closest_servers. rewrite closest_nowhere. unfold nowhere, ns. split; intros N b r X; specialize (N b r X); destruct (records m (plain r T_NS)); try reflexivity; discriminate N.
Qed.
(** Nothing with the name and type, and the closest name servers are not those of this server: a referral. *)
Theorem C44_referral : forall v s, asked add zd m c J1 J2 J raw h n t -> looked_up c t -> full_search c (h_rd h) ->
  records m (plain low t) = None -> records m (plain low T_CNAME) = None -> (address c n t = None \/ s = low) -> nearest ns low s v -> auth v = false -> reply = Ok (1, Refer v q).
Proof.
  intros v s A L F E1 E2 AD N AU. rewrite (answered A), decision_respond by exact L. unfold respond, up_the_tree, no_delegation. pose proof F as (D & _). replace (7 <? c_dos c) with false by lia. replace (11 <? c_dos c) with false by lia. rewrite E1, E2.
  destruct (records m (plain low T_NS)) as [w|] eqn:EN.
  - assert (s = low /\ w = v) as (-> & ->). { destruct N as ((a & X) & E & N). destruct a as [|y a]; [cbn in X; subst s; unfold ns in E; rewrite EN in E; injection E as ->; split; reflexivity|]. assert (length s < length low)%nat as LS by (rewrite X, app_length; cbn [length]; lia). specialize (N [] low eq_refl LS). unfold ns in N. rewrite EN in N. discriminate N. }
    rewrite AU. reflexivity.
  - destruct AD as [AD | ->]; [|destruct N as (_ & E & _); unfold ns in E; rewrite EN in E; discriminate E]. rewrite AD. unfold below_zone. rewrite (servers_is _ _ _ F N), AU. reflexivity.
Qed.
(** No name servers above the name, and nothing that it could be answered with: REFUSED. *)
Theorem C44_refused : asked add zd m c J1 J2 J raw h n t -> looked_up c t -> full_search c (h_rd h) -> c_star c <> 2 ->
  records m (plain low t) = None -> records m (plain low T_CNAME) = None -> address c n t = None -> nowhere ns low ->
  nowhere (fun s => records m (star_of s t)) (tl low) -> nowhere (fun s => records m (star_of s T_CNAME)) (tl low) ->
  reply = Ok (1, Octets (reply_header (h_id h) 0 0 (h_rd h) 5 0 0)).
Proof.
  intros A L F CS E1 E2 AD N S1 S2. rewrite (answered A), decision_respond by exact L. unfold respond, up_the_tree, no_delegation. pose proof F as (D & DF & _). replace (7 <? c_dos c) with false by lia. replace (11 <? c_dos c) with false by lia. rewrite E1, E2.
  assert (records m (plain low T_NS) = None) as -> by apply (N [] low eq_refl). rewrite AD. unfold below_zone. rewrite (proj2 (servers_none _ F) N). unfold wildcards. replace (17 <? c_dos c) with false by lia. unfold last_resort. replace (c_default c =? 1) with false by lia. cbn [nothing refusal].
  destruct ((1 <=? c_star c) && named m (plain low T_ANY)); [reflexivity|].
  assert (forall l f th, (forall s, In s l -> records m (star_of s t) = None) -> exists th', wild m c n t None f l th = inr th') as W.
  { clear - CS. induction l as [|s l IH]; intros f th X; cbn [wild]; [eexists; reflexivity|]. rewrite (X s (or_introl eq_refl)). cbv zeta. replace (c_star c =? 2) with false by lia. cbn [andb]. apply IH. intros r Y. apply X. right. exact Y. }
  destruct (W (ups (tl low)) true 0) as (th & ->). { intros s Y. apply in_ups in Y as (b & Y). apply (S1 b s Y). }
  assert (wild_cname m c n = None) as ->; [|reflexivity]. unfold wild_cname. replace (7 <? c_dos c) with false by lia. destruct (1 <=? c_star c); [cbn [closest]; rewrite (S2 [] _ eq_refl); reflexivity|apply closest_nowhere; exact S2].
Qed.
(** *** What can be told from the answer *)
Lemma wild_star : forall l soa f th v x y k, wild m c n t soa f l th = inl (Star v x y k) -> closest (fun s => records m (star_of s t)) l = Some v /\ x = q /\ y = q /\ k = 0.
Proof.
  induction l as [|s l IH]; intros soa f th v x y k E; cbn [wild] in E; [discriminate E|]. cbn [closest]. destruct (records m (star_of s t)) as [w|]; [injection E as <- <- <- <-; repeat split; reflexivity|]. cbv zeta in E. match type of E with (if ?b then _ else _) = _ => destruct b end; [discriminate E|]. apply (IH _ _ _ _ _ _ _ E).
Qed.
Lemma wild_kinds : forall l soa f th o, wild m c n t soa f l th = inl o -> (exists v, o = Star v q q 0) \/ (c_star c = 2 /\ exists k, o = Missing soa q k).
Proof.
  induction l as [|s l IH]; intros soa f th o E; cbn [wild] in E; [discriminate E|]. destruct (records m (star_of s t)) as [w|]; [injection E as <-; left; eexists; reflexivity|]. cbv zeta in E. match type of E with (if ?b then _ else _) = _ => destruct b eqn:G end; [|apply (IH _ _ _ _ E)]. injection E as <-. right. split; [rewrite !andb_true_iff in G; lia|]. eexists. reflexivity.
Qed.
Lemma wild_none : forall l soa f th a, wild m c n t soa f l th = inr a -> forall s, In s l -> records m (star_of s t) = None.
Proof.
  induction l as [|s l IH]; intros soa f th a E; [intros r []|]. cbn [wild] in E. destruct (records m (star_of s t)) as [w|] eqn:ES; [discriminate E|]. cbv zeta in E. match type of E with (if ?b then _ else _) = _ => destruct b end; [discriminate E|]. intros r [<- | I]; [exact ES|apply (IH _ _ _ _ E r I)].
Qed.
(** What the search below a zone can say. *)
Lemma wildcards_kinds id rd zone r o : full_search c rd -> wildcards m c id rd n t zone = (r, o) ->
  ((1 <=? c_star c) && named m (plain low T_ANY) = false /\ exists v s, o = Star v q q 0 /\ nearest (fun s => records m (star_of s t)) (tl low) s v) \/
  ((1 <=? c_star c) && named m (plain low T_ANY) = false /\ nowhere (fun s => records m (star_of s t)) (tl low) /\ exists v s, o = Star v q (plain n T_CNAME) 0 /\ nearest (fun s => records m (star_of s T_CNAME)) (tl low) s v) \/
  (c_star c = 2 /\ exists k, o = Missing (match zone with Some soa => soa | None => None end) q k) \/
  (exists soa k, zone = Some soa /\ o = Missing soa q k /\ ((1 <=? c_star c) && named m (plain low T_ANY) = true /\ k = 4 \/ nowhere (fun s => records m (star_of s t)) (tl low))) \/
  (zone = None /\ o = Octets (reply_header id 0 0 rd 5 0 0)).
Proof.
  intros (D & DF & _). unfold wildcards. cbv zeta. replace (17 <? c_dos c) with false by lia. unfold last_resort. replace (c_default c =? 1) with false by lia. destruct ((1 <=? c_star c) && named m (plain low T_ANY)) eqn:G.
  - destruct zone as [soa|]; cbn [nothing refusal]; intros E; injection E as <- <-; do 3 right; [left; exists soa, 4; split; [reflexivity|]; split; [reflexivity|]; left; split; reflexivity|right; split; reflexivity].
  - destruct (wild m c n t (match zone with Some soa => soa | None => None end) true (ups (tl low)) 0) as [x|th] eqn:EW.
    + intros E. injection E as <- <-. destruct (wild_kinds _ _ _ _ _ EW) as [(v & ->)|(C2 & k & ->)]; [|right; right; left; split; [exact C2|exists k; reflexivity]]. destruct (wild_star _ _ _ _ _ _ _ _ EW) as (EC & _). apply closest_nearest in EC as (s & EC). left. split; [reflexivity|]. exists v, s. split; [reflexivity|exact EC].
    + assert (nowhere (fun s => records m (star_of s t)) (tl low)) as NW. { intros b r' X. apply (wild_none _ _ _ _ _ EW). apply in_ups. exists b. exact X. }
      destruct (wild_cname m c n) as [v|] eqn:EC.
      * intros E. injection E as <- <-. right. left. split; [reflexivity|]. split; [exact NW|]. unfold wild_cname in EC. replace (7 <? c_dos c) with false in EC by lia. destruct (1 <=? c_star c).
        -- cbn [closest] in EC. destruct (records m (star_of (tl low) T_CNAME)) as [w|] eqn:E2; [|discriminate EC]. injection EC as ->. exists v, (tl low). split; [reflexivity|]. split; [exists []; reflexivity|]. split; [exact E2|]. intros b r' X LL. apply (f_equal (@length _)) in X. rewrite app_length in X. lia.
        -- apply closest_nearest in EC as (s & EC). exists v, s. split; [reflexivity|exact EC].
      * destruct zone as [soa|]; cbn [nothing refusal]; intros E; injection E as <- <-; do 3 right; [left; exists soa, th; split; [reflexivity|]; split; [reflexivity|]; right; exact NW|right; split; reflexivity].
Qed.
(** Everything that can be answered in a full search, and what it means. *)
Theorem C44_sound : forall r o, asked add zd m c J1 J2 J raw h n t -> looked_up c t -> full_search c (h_rd h) -> address c n t = None -> reply = Ok (r, o) ->
  match o with
  | Answer v question _ => question = q /\ (records m (plain low t) = Some v \/ (records m (plain low t) = None /\ records m (plain low T_CNAME) = Some v))
  | Refer v question => question = q /\ records m (plain low t) = None /\ records m (plain low T_CNAME) = None /\ auth v = false /\ exists s, nearest ns low s v
  | Star v question owner _ => question = q /\ records m (plain low t) = None /\ records m (plain low T_CNAME) = None /\ (1 <= c_star c -> named m (plain low T_ANY) = false) /\
      ((owner = q /\ exists s, nearest (fun s => records m (star_of s t)) (tl low) s v) \/
       (owner = plain n T_CNAME /\ nowhere (fun s => records m (star_of s t)) (tl low) /\ exists s, nearest (fun s => records m (star_of s T_CNAME)) (tl low) s v))
  | Missing soa question k => question = q /\ records m (plain low t) = None /\ records m (plain low T_CNAME) = None /\
      (c_star c <> 2 -> (exists v s, nearest ns low s v /\ auth v = true /\ soa = records m (plain s T_SOA)) /\
        ((1 <= c_star c /\ named m (plain low T_ANY) = true /\ k = 4) \/ nowhere (fun s => records m (star_of s t)) (tl low)))
  | Octets l => l = reply_header (h_id h) 0 0 (h_rd h) 5 0 0 /\ records m (plain low t) = None /\ records m (plain low T_CNAME) = None /\ nowhere ns low
  | _ => False
  end.
Proof.
  intros r o A L F AD. rewrite (answered A), decision_respond by exact L. intros E. injection E as E. revert E. unfold respond, up_the_tree, no_delegation. pose proof F as (D & _). replace (7 <? c_dos c) with false by lia. replace (11 <? c_dos c) with false by lia. rewrite AD.
  destruct (records m (plain low t)) as [v|] eqn:E1; [intros E; injection E as <- <-; split; [reflexivity|left; reflexivity]|]. destruct (records m (plain low T_CNAME)) as [v|] eqn:E2; [intros E; injection E as <- <-; split; [reflexivity|right; split; reflexivity]|].
  assert (forall zone, wildcards m c (h_id h) (h_rd h) n t zone = (r, o) -> match zone with Some soa => exists v s, nearest ns low s v /\ auth v = true /\ soa = records m (plain s T_SOA) | None => nowhere ns low end ->
    match o with
    | Answer v question _ => False
    | Refer v question => False
    | Star v question owner _ => question = q /\ (1 <= c_star c -> named m (plain low T_ANY) = false) /\
        ((owner = q /\ exists s, nearest (fun s => records m (star_of s t)) (tl low) s v) \/
         (owner = plain n T_CNAME /\ nowhere (fun s => records m (star_of s t)) (tl low) /\ exists s, nearest (fun s => records m (star_of s T_CNAME)) (tl low) s v))
    | Missing soa question k => question = q /\
      (c_star c <> 2 -> (exists v s, nearest ns low s v /\ auth v = true /\ soa = records m (plain s T_SOA)) /\
        ((1 <= c_star c /\ named m (plain low T_ANY) = true /\ k = 4) \/ nowhere (fun s => records m (star_of s t)) (tl low)))
    | Octets l => l = reply_header (h_id h) 0 0 (h_rd h) 5 0 0 /\ nowhere ns low
    | _ => False
    end) as WK.
  { intros zone E Z. apply (wildcards_kinds _ _ _ _ _ F) in E as [(G & v & s & -> & N)|[(G & NW & v & s & -> & N)|[(C2 & k & ->)|[(soa & k & -> & -> & X)|(-> & ->)]]]].
    - split; [reflexivity|]. split; [intros C1; replace (1 <=? c_star c) with true in G by lia; exact G|]. left. split; [reflexivity|exists s; exact N].
    - split; [reflexivity|]. split; [intros C1; replace (1 <=? c_star c) with true in G by lia; exact G|]. right. split; [reflexivity|]. split; [exact NW|exists s; exact N].
    - split; [reflexivity|]. intros C3. contradiction.
    - split; [reflexivity|]. intros C3. split; [exact Z|]. destruct X as [(G & ->)|X]; [|right; exact X]. left. apply andb_true_iff in G as (G1 & G2). split; [lia|]. split; [exact G2|reflexivity].
    - split; [reflexivity|exact Z]. }
  assert (below_zone auth m c (h_id h) (h_rd h) n t = (r, o) -> match o with Refer v question => question = q /\ auth v = false /\ exists s, nearest ns low s v | _ =>
    match o with
    | Answer v question _ => False
    | Refer v question => False
    | Star v question owner _ => question = q /\ (1 <= c_star c -> named m (plain low T_ANY) = false) /\
        ((owner = q /\ exists s, nearest (fun s => records m (star_of s t)) (tl low) s v) \/
         (owner = plain n T_CNAME /\ nowhere (fun s => records m (star_of s t)) (tl low) /\ exists s, nearest (fun s => records m (star_of s T_CNAME)) (tl low) s v))
    | Missing soa question k => question = q /\
      (c_star c <> 2 -> (exists v s, nearest ns low s v /\ auth v = true /\ soa = records m (plain s T_SOA)) /\
        ((1 <= c_star c /\ named m (plain low T_ANY) = true /\ k = 4) \/ nowhere (fun s => records m (star_of s t)) (tl low)))
    | Octets l => l = reply_header (h_id h) 0 0 (h_rd h) 5 0 0 /\ nowhere ns low
    | _ => False
    end end) as BZ.
  { unfold below_zone. destruct (if (h_rd h =? 1) && (c_recdel c =? 1) then None else closest_servers m n) as [(v, s)|] eqn:ES.
    - pose proof (servers_some _ _ _ F ES) as N. destruct (auth v) eqn:AU.
      + intros E. apply WK in E; [|exists v, s; split; [exact N|split; [exact AU|reflexivity]]]. destruct o; try exact E; contradiction.
      + intros E. injection E as <- <-. split; [reflexivity|]. split; [exact AU|exists s; exact N].
    - intros E. apply WK in E; [|apply (servers_none _ F), ES]. destruct o; try exact E; contradiction. }
  assert (below_zone auth m c (h_id h) (h_rd h) n t = (r, o) -> match o with
    | Answer v question _ => question = q /\ (None = Some v \/ (@None V = None /\ None = Some v))
    | Refer v question => question = q /\ @None V = None /\ @None V = None /\ auth v = false /\ exists s, nearest ns low s v
    | Star v question owner _ => question = q /\ @None V = None /\ @None V = None /\ (1 <= c_star c -> named m (plain low T_ANY) = false) /\
        ((owner = q /\ exists s, nearest (fun s => records m (star_of s t)) (tl low) s v) \/
         (owner = plain n T_CNAME /\ nowhere (fun s => records m (star_of s t)) (tl low) /\ exists s, nearest (fun s => records m (star_of s T_CNAME)) (tl low) s v))
    | Missing soa question k => question = q /\ @None V = None /\ @None V = None /\
      (c_star c <> 2 -> (exists v s, nearest ns low s v /\ auth v = true /\ soa = records m (plain s T_SOA)) /\
        ((1 <= c_star c /\ named m (plain low T_ANY) = true /\ k = 4) \/ nowhere (fun s => records m (star_of s t)) (tl low)))
    | Octets l => l = reply_header (h_id h) 0 0 (h_rd h) 5 0 0 /\ @None V = None /\ @None V = None /\ nowhere ns low
    | _ => False
    end) as BZ'. { intros E. apply BZ in E. destruct o; try contradiction; tauto. }
  destruct (records m (plain low T_NS)) as [v|] eqn:EN; [|exact BZ']. destruct (auth v) eqn:AU; [exact BZ'|]. intros E. injection E as <- <-. split; [reflexivity|]. split; [reflexivity|]. split; [reflexivity|]. split; [exact AU|]. exists low. split; [exists []; reflexivity|]. split; [exact EN|]. intros b r' X LL. apply (f_equal (@length _)) in X. rewrite app_length in X. lia.
Qed.
End Cons.

(** *** Case *)
Lemma number_case a b : map lower a = map lower b -> number a = number b.
Proof.
  intros E. assert (forall a b, map lower a = map lower b -> forallb (fun b => (48 <=? b) && (b <=? 57)) a = true -> a = b) as D.
  { clear. induction a as [|x a IH]; intros [|y b] E; cbn [map forallb] in *; try discriminate E; [reflexivity|]. injection E as EX E. rewrite andb_true_iff. intros (DX & D). f_equal; [|apply IH; assumption]. unfold lower in EX. destruct ((65 <=? x) && (x <=? 90)) eqn:GX, ((65 <=? y) && (y <=? 90)) eqn:GY; lia. }
  unfold number. assert (zlen a = zlen b) as L by (apply (f_equal (@length _)) in E; rewrite !map_length in E; unfold zlen; lia). rewrite L. destruct (zlen b <=? 3); cbn [andb]; [|reflexivity].
  destruct (forallb _ a) eqn:DA; [rewrite <- (D a b E DA), DA; reflexivity|]. destruct (forallb _ b) eqn:DB; [|reflexivity]. rewrite (D b a (eq_sym E) DB) in DB. rewrite DB in DA. discriminate DA.
Qed.
Lemma quad_case n n' : lower_name n = lower_name n' -> quad n = quad n'.
Proof.
  unfold lower_name, lower_label. intros E. destruct n as [|a [|b [|d [|e [|f u]]]]], n' as [|a' [|b' [|d' [|e' [|f' u']]]]]; cbn [map] in E; try discriminate E; try reflexivity. injection E as A B C D. cbn [quad]. rewrite (number_case a a' A), (number_case b b' B), (number_case d d' C), (number_case e e' D). reflexivity.
Qed.
Section Case.
Context {V : Type} (auth : V -> bool) (m : amap V) (c : conf) (id rd : Z) (n n' : name) (t : Z).
Hypothesis E : lower_name n = lower_name n'.
Hypothesis D : c_default c <> 1.
Notation sh p := (fst p, shown (snd p)).
Lemma wild_case soa : forall l f th, match wild m c n t soa f l th, wild m c n' t soa f l th with inl a, inl b => shown a = shown b | inr a, inr b => a = b | _, _ => False end.
Proof. induction l as [|s l IH]; intros f th; cbn [wild]; [reflexivity|]. destruct (records m (star_of s t)); [reflexivity|]. cbv zeta. match goal with |- context [if ?b then inl _ else _] => destruct b end; [reflexivity|apply IH]. Qed.
Lemma wildcards_case zone : sh (wildcards m c id rd n t zone) = sh (wildcards m c id rd n' t zone).
Proof.
  unfold wildcards. cbv zeta. rewrite E. unfold last_resort. replace (c_default c =? 1) with false by lia. destruct (17 <? c_dos c); [destruct zone; reflexivity|]. destruct (_ && _); [destruct zone; reflexivity|].
  pose proof (wild_case (match zone with Some soa => soa | None => None end) (ups (tl (lower_name n'))) true 0) as X. destruct (wild m c n t _ true _ 0), (wild m c n' t _ true _ 0); try contradiction; cbn [fst snd]; [rewrite X; reflexivity|]. rewrite X. unfold wild_cname. rewrite E. destruct (if 7 <? c_dos c then None else _); [reflexivity|]. destruct zone; reflexivity.
Qed.
Lemma decision_case : sh (decision auth m c id rd n t) = sh (decision auth m c id rd n' t).
Proof.
  unfold decision. rewrite E. repeat match goal with |- context [if ?b then (1, Rejected _) else _] => destruct b; [reflexivity|] | |- context [if ?b then failure _ _ _ _ _ _ else _] => destruct b; [reflexivity|] end.
  destruct (c_dos c =? 78); [destruct (c_default c =? 1); reflexivity|].
  assert (sh (below_zone auth m c id rd n t) = sh (below_zone auth m c id rd n' t)) as BZ. { unfold below_zone, closest_servers. rewrite E. destruct (if (rd =? 1) && (c_recdel c =? 1) then None else _) as [(v, s)|]; [destruct (auth v); [apply wildcards_case|reflexivity]|apply wildcards_case]. }
  assert (sh (no_delegation auth m c id rd n t) = sh (no_delegation auth m c id rd n' t)) as ND. { unfold no_delegation, address. rewrite (quad_case n n' E), E. destruct (if _ && _ then quad n' else None); [|exact BZ]. destruct ((0 <? id) && (id <? 65535)); reflexivity. }
  assert (sh (respond auth m c id rd n t) = sh (respond auth m c id rd n' t)) as RE. { unfold respond, up_the_tree. rewrite E. destruct (records m (plain (lower_name n') t)); [reflexivity|]. destruct (if 7 <? c_dos c then None else _); [reflexivity|]. destruct (11 <? c_dos c); [apply wildcards_case|]. destruct (records m (plain (lower_name n') T_NS)) as [v|]; [destruct (auth v); [exact ND|reflexivity]|exact ND]. }
  destruct ((c_dos c <=? 13) && (t =? T_ANY)); [|exact RE]. destruct (negb (c_8482 c =? 0)); [reflexivity|]. cbv zeta. destruct (c_any c (plain (lower_name n') t) =? 1); [reflexivity|]. destruct (c_any c (plain (lower_name n') t) =? -1); [reflexivity|exact RE].
Qed.
End Case.
(** Names that differ only in case get the same answer, but for the echoed question. *)
Theorem C44_case_insensitive : forall (V : Type) (auth : V -> bool) add zd m c J1 J2 J raw h n t J1' J2' J' raw' h' n',
  asked add zd m c J1 J2 J raw h n t -> asked add zd m c J1' J2' J' raw' h' n' t -> c_default c <> 1 -> h_id h = h_id h' -> h_rd h = h_rd h' -> lower_name n = lower_name n' ->
  exists r o o', proc_query auth add zd c J1 J2 J raw = Ok (r, o) /\ proc_query auth add zd c J1' J2' J' raw' = Ok (r, o') /\ shown o = shown o'.
Proof.
  intros V auth add zd m c J1 J2 J raw h n t J1' J2' J' raw' h' n' A A' D I R E. rewrite (answered auth _ _ _ _ _ _ _ _ _ _ _ A), (answered auth _ _ _ _ _ _ _ _ _ _ _ A'), I, R.
  pose proof (decision_case auth m c (h_id h') (h_rd h') n n' t E D) as X. destruct (decision auth m c (h_id h') (h_rd h') n t) as (r, o), (decision auth m c (h_id h') (h_rd h') n' t) as (r', o'). cbn [fst snd] in X. injection X as <- X. exists r, o, o'. repeat split. exact X.
Qed.
Print Assumptions C44_answers.
Print Assumptions C44_exact_match.
Print Assumptions C44_cname_match.
Print Assumptions C44_referral.
Print Assumptions C44_refused.
Print Assumptions C44_sound.
Print Assumptions C44_case_insensitive.

(** *** Zones for examples *)
Definition puts (es : list (list Z * Z * Z)) : list (op Z) := map (fun e => Put J1 (key (fst (fst e))) (snd (fst e)) (snd e)) es.
Definition loaded (es : list (list Z * Z * Z)) : mhash Z := match (h <- mhash_create 4 ;; run 7 h (puts es)) with Ok (_, h) => h | _ => mkmhash 4 [] 0 end.
Definition of_puts (es : list (list Z * Z * Z)) : amap Z := snd (a_run empty (puts es)).
Definition sensible (es : list (list Z * Z * Z)) : bool := forallb (fun e => bytesb (fst (fst e)) && (zlen (fst (fst e)) <? 1000) && (negb (snd e =? 3) || negb (last (fst (fst e)) 0 =? 255))) es.
Lemma J1_ok : junk_ok J1. Proof. intros i. unfold J1, byte. lia. Qed.
Lemma puts_any es : sensible es = true -> no_any (of_puts es).
Proof.
  intros S s. assert (forall es m, sensible es = true -> (forall k v, m k = Some (v, 3) -> last (snd k) 0 <> 255) -> forall k v, snd (a_run m (puts es)) k = Some (v, 3) -> last (snd k) 0 <> 255) as X.
  { clear. unfold sensible. induction es as [|((ek, ev), edt) es IH]; intros m S M k v; cbn [puts map a_run snd fst]; [apply M|]. cbn [forallb fst snd] in S. rewrite !andb_true_iff in S. destruct S as (((B & L) & N) & S). destruct (a_step m _) as (r, m') eqn:ES. specialize (IH m' S). fold (puts es). destruct (a_run m' (puts es)) as (rs, m'') eqn:ER. cbn [snd] in *. apply IH. clear IH ER. intros k' v'.
    cbn [a_step] in ES. destruct (usable_key (key ek)); [|injection ES as _ <-; apply M]. destruct (m (kid_of (key ek))); [injection ES as _ <-; apply M|]. injection ES as _ <-. unfold a_set. destruct (kid_eqb (kid_of (key ek)) k') eqn:EK; [|apply M]. apply kid_eqb_spec in EK as <-. intros E. injection E as -> ->. change (negb (3 =? 3)) with false in N. cbn [orb] in N.
    unfold kid_of, key, octets_of. cbn [j_size j_count j_mem snd]. rewrite Z.mul_1_l, zslice_app_l, zslice_all by (pose proof (zlen_nonneg ek); lia). lia. }
  unfold records. destruct (of_puts es (1, star_of s T_ANY)) as [(v, dt)|] eqn:E; [|reflexivity]. destruct (Z.eqb_spec dt 3) as [->|]; [|reflexivity]. exfalso. unfold of_puts in E. apply (X es empty S) in E; [|intros k v' E'; discriminate E']. apply E. unfold star_of, snd. change (num2 T_ANY) with ([0] ++ [255]). change (95 :: wire s ++ [0] ++ [255]) with ((95 :: wire s) ++ [0] ++ [255]). rewrite app_assoc. apply last_last.
Qed.
Lemma puts_ok es h rs : sensible es = true -> zlen es < 300000 -> (h <- mhash_create 4 ;; run 7 h (puts es)) = Ok (rs, h) -> zone_data 7 h (of_puts es).
Proof.
  intros S L E. destruct (mhash_create 4) as [h0| |] eqn:E0; try discriminate E. cbn [bind] in E. exists 4, (puts es), h0, rs. split; [lia|]. split; [|split; [|split]].
  - unfold sensible in S. rewrite forallb_forall in S. apply Forall_forall. intros o I. apply in_map_iff in I as (e & <- & I). apply S in I. rewrite !andb_true_iff in I. destruct I as ((B & LE) & _). cbn [op_ok]. split; [exact J1_ok|]. apply key_ok; [apply bytesb_spec, B|lia].
  - clear. induction es as [|e es IH]; [reflexivity|exact IH].
  - assert (zlen (filter (fun o => match o with Put _ _ _ _ => true | _ => false end) (puts es)) = zlen es) as ->; [|lia]. clear. induction es as [|e es IH]; [reflexivity|]. cbn [puts map filter]. rewrite !zlen_cons. fold (puts es). rewrite IH. reflexivity.
  - split; [exact E0|]. split; [exact E|reflexivity].
Qed.

(** Settings as without any in the mararc, but for these. *)
Definition settings (star default : Z) : conf := mkconf 0 0 star default 0 0 0 1 1 false (fun _ => 0) (fun _ => 0) (fun _ => 0).
Definition plain_header (id rd : Z) : header := mkheader id 0 0 0 0 rd 0 0 0 0 0 1 0 0 0.
Definition ask (id rd : Z) (n : name) (t class : Z) : js := str (header_bytes (plain_header id rd) ++ plain n t ++ num2 class) 512.
Definition answer_of (c : conf) (es : list (list Z * Z * Z)) (raw : js) : res (Z * outcome Z) := proc_query (fun v => v <? 100) 7 (loaded es) c J1 J1 J1 raw.
(** "e." is a zone of this server with "www.e." (A), "*.w.e." (A) and "*.e." (CNAME); "d.e." is delegated. *)
Definition e_ : name := [[101]].
Definition www : list Z := [119; 119; 119].
Definition zone : list (list Z * Z * Z) :=
  [(plain e_ T_NS, 1, 3); (plain e_ T_SOA, 2, 3); (plain e_ T_ANY, 0, 6); (plain (www :: e_) T_A, 3, 3); (plain (www :: e_) T_ANY, 0, 6); (star_of ([119] :: e_) T_A, 4, 3); (star_of ([119] :: e_) T_ANY, 0, 6);
   (star_of e_ T_CNAME, 5, 3); (star_of e_ T_ANY, 0, 6); (plain ([100] :: e_) T_NS, 106, 3); (plain ([100] :: e_) T_ANY, 0, 6)].
Lemma ask_ok id rd n t class : bytesb (header_bytes (plain_header id rd) ++ plain n t ++ num2 class) = true -> zlen (wire n) <= 253 -> holding (ask id rd n t class) (header_bytes (plain_header id rd) ++ plain n t ++ num2 class).
Proof. intros B L. apply str_ok; [apply bytesb_spec, B| |lia]. rewrite !zlen_app, zlen_plain. change (zlen (header_bytes (plain_header id rd))) with 12. change (zlen (num2 class)) with 2. lia. Qed.
Lemma asked_ok es star default id rd n t : sensible es = true -> zlen es < 300000 -> (exists rs, (h <- mhash_create 4 ;; run 7 h (puts es)) = Ok (rs, loaded es)) -> bytesb (header_bytes (plain_header id rd) ++ plain n t ++ num2 1) = true ->
  0 <= id < 65536 -> bit rd -> good_name n -> zlen (wire n) <= 253 -> n <> [] -> word t -> asked 7 (loaded es) (of_puts es) (settings star default) J1 J1 J1 (ask id rd n t 1) (plain_header id rd) n t.
Proof.
  intros S L (rs & E) B I R G LN NN WT. split; [apply (puts_ok es _ rs S L E)|]. split; [apply puts_any, S|]. do 3 (split; [exact J1_ok|]). exists (header_bytes (plain_header id rd) ++ plain n t ++ num2 1), 1. split; [apply ask_ok; assumption|]. split.
  - exists []. rewrite app_nil_r. split; [reflexivity|]. split; [constructor|]. split; [|split; [reflexivity|split; reflexivity]]. unfold header_ok, plain_header, word, bit in *. cbn [h_id h_qr h_opcode h_aa h_tc h_rd h_ra h_z h_ad h_cd h_rcode h_qdcount h_ancount h_nscount h_arcount]. repeat split; lia.
  - split; [split; assumption|]. split; [exact NN|]. split; [exact WT|]. split; [unfold word; lia|]. split; [left; reflexivity|]. split; [cbn; lia|]. intros _ A. discriminate A.
Qed.
Definition good_nameb (n : name) : bool := forallb (fun l => (1 <=? zlen l) && (zlen l <=? 63) && bytesb l) n.
Lemma good_nameb_ok n : good_nameb n = true -> good_name n.
Proof. intros H. unfold good_nameb in H. rewrite forallb_forall in H. apply Forall_forall. intros l I. apply H in I. rewrite !andb_true_iff in I. destruct I as ((A & B) & C). split; [lia|apply bytesb_spec, C]. Qed.
(** The hypotheses are met, and each outcome occurs: the records of "wWw.e.", the star for
    "x.w.e." and, as a CNAME, for "x.e."; the delegation of "y.d.e."; no type MX for "www.e.";
    a name outside the zone. *)
Ltac asked_tac := apply asked_ok; [reflexivity|reflexivity|eexists; vm_compute; reflexivity|reflexivity|lia|unfold bit; lia|apply good_nameb_ok; reflexivity|vm_compute; discriminate|discriminate|unfold word; lia].
Example C44_asked_met : asked 7 (loaded zone) (of_puts zone) (settings 1 0) J1 J1 J1 (ask 7 1 ([119; 87; 119] :: e_) 1 1) (plain_header 7 1) ([119; 87; 119] :: e_) 1 /\
  asked 7 (loaded zone) (of_puts zone) (settings 1 0) J1 J1 J1 (ask 7 1 (www :: e_) 1 1) (plain_header 7 1) (www :: e_) 1 /\ lower_name ([119; 87; 119] :: e_) = lower_name (www :: e_) /\ looked_up (settings 1 0) 1 /\ full_search (settings 1 0) 1.
Proof. split; [asked_tac|]. split; [asked_tac|]. split; [reflexivity|]. split; [split; [lia|split; [lia|split; [lia|discriminate]]]|]. split; [discriminate|split; [discriminate|right; discriminate]]. Qed.
Example C44_outcomes :
  answer_of (settings 1 0) zone (ask 7 1 ([119; 87; 119] :: e_) 1 1) = Ok (1, Answer 3 (plain ([119; 87; 119] :: e_) 1) true) /\
  answer_of (settings 1 0) zone (ask 7 1 ([120] :: [119] :: e_) 1 1) = Ok (1, Star 4 (plain ([120] :: [119] :: e_) 1) (plain ([120] :: [119] :: e_) 1) 0) /\
  answer_of (settings 1 0) zone (ask 7 1 ([120] :: e_) 1 1) = Ok (1, Star 5 (plain ([120] :: e_) 1) (plain ([120] :: e_) 5) 0) /\
  answer_of (settings 1 0) zone (ask 7 1 ([121] :: [100] :: e_) 1 1) = Ok (1, Refer 106 (plain ([121] :: [100] :: e_) 1)) /\
  answer_of (settings 1 0) zone (ask 7 1 (www :: e_) 15 1) = Ok (1, Missing (Some 2) (plain (www :: e_) 15) 4) /\
  answer_of (settings 1 0) zone (ask 7 1 [www; [102]] 1 1) = Ok (1, Octets (reply_header 7 0 0 1 5 0 0)) /\
  answer_of (settings 1 0) zone (ask 7 1 [[49]; [50]; [51]; [52]] 1 1) = Ok (1, Octets (quad_reply 7 [[49]; [50]; [51]; [52]] 1 [1; 2; 3; 4])) /\
  answer_of (settings 1 0) zone (ask 7 1 (www :: e_) 255 1) = Ok (1, Octets (any_reply 7 1 (www :: e_))).
Proof. repeat split; vm_compute; reflexivity. Qed.

(** *** Packets that are not looked up *)
(** Responses are never answered. *)
Theorem C44_responses_dropped : forall (V : Type) (auth : V -> bool) add zd c J1 J2 J raw h tail, holding raw (header_bytes h ++ tail) -> header_ok h -> 2 <= zlen tail -> h_qr h = 1 ->
  proc_query auth add zd c J1 J2 J raw = Ok (1, Quiet).
Proof.
  intros V auth add zd c J1 J2 J raw h tail HR HH LT Q. destruct (read_header raw h tail HR HH LT) as (hd & E & _ & I2 & _). pose proof (hold_facts raw _ HR) as [Ws S1 LQ C LM SM B SA U O G SL]. unfold proc_query. rewrite SA, S1. change (negb (1 =? 1)) with false. cbn [negb]. rewrite E. cbn [bind]. cbv zeta. rewrite I2, Q. reflexivity.
Qed.
(** Other operations than a query are not implemented; for long names nothing is said. *)
Theorem C44_other_operations : forall (V : Type) (auth : V -> bool) add zd c J1 J2 J raw h n t class rest, holding raw (header_bytes h ++ plain n t ++ num2 class ++ rest) -> junk_ok J1 -> junk_ok J2 -> junk_ok J ->
  header_ok h -> fitting n -> word t -> word class -> h_qr h = 0 -> h_qdcount h = 1 -> h_opcode h <> 0 -> c_nofp c <> 1 ->
  exists r, proc_query auth add zd c J1 J2 J raw = Ok (r, if zlen (wire n) <? 80 then Octets (reply_header (h_id h) 0 0 (h_rd h) 4 1 0 ++ plain n t ++ [0; 1]) else Quiet).
Proof.
  intros V auth add zd c J1 J2 J raw h n t class rest HR K1 K2 K3 HH (GN & LN) WT WC Q0 Q1 OP NF. destruct (packet_notimp auth add zd c J1 J2 J raw h n t class rest) as (r & E); try assumption; [left; exact OP|]. exists r. rewrite E. unfold send, refusal. rewrite zlen_plain. replace (zlen (wire n) + 2 <? 82) with (zlen (wire n) <? 80) by lia. destruct (zlen (wire n) <? 80); reflexivity.
Qed.
(** A question for all records gets one HINFO record (RFC 8482); one for a whole zone the advice to use TCP. *)
Theorem C44_all_records : forall (V : Type) (auth : V -> bool) add zd m c J1 J2 J raw h n, asked add zd m c J1 J2 J raw h n T_ANY -> c_8482 c <> 0 -> c_dos c <= 13 ->
  proc_query auth add zd c J1 J2 J raw = Ok (1, Octets (any_reply (h_id h) (h_rd h) n)).
Proof. intros V auth add zd m c J1 J2 J raw h n A C8 D. rewrite (answered auth _ _ _ _ _ _ _ _ _ _ _ A). unfold decision. change T_ANY with 255. cbn [Z.eqb Pos.eqb andb orb]. replace (c_dos c =? 78) with false by lia. replace (c_dos c <=? 13) with true by lia. cbn [andb]. replace (c_8482 c =? 0) with false by lia. reflexivity. Qed.
Theorem C44_zone_transfer : forall (V : Type) (auth : V -> bool) add zd m c J1 J2 J raw h n t, asked add zd m c J1 J2 J raw h n t -> t = 251 \/ t = 252 -> c_nofp c <> 1 -> zlen (wire n) < 80 ->
  proc_query auth add zd c J1 J2 J raw = Ok (-1, Octets (reply_header (h_id h) 0 1 (h_rd h) 0 1 0 ++ plain (lower_name n) t ++ [0; 1])).
Proof.
  intros V auth add zd m c J1 J2 J raw h n t A T NF L. rewrite (answered auth _ _ _ _ _ _ _ _ _ _ _ A). unfold decision. replace (t =? 28) with false by lia. replace (t =? 12) with false by lia. cbn [andb orb]. replace ((t =? 250) || (t =? 253) || (t =? 254)) with false by lia. replace ((t =? 251) || (t =? 252)) with true by lia.
  unfold failure, send, refusal. replace (c_nofp c =? 1) with false by lia. rewrite zlen_plain, zlen_lower_wire. replace (zlen (wire n) + 2 <? 82) with true by lia. reflexivity.
Qed.
Example C44_packets_met : answer_of (settings 1 0) zone (str (header_bytes (mkheader 7 1 0 0 0 0 0 0 0 0 0 1 0 0 0) ++ plain (www :: e_) 1 ++ num2 1) 512) = Ok (1, Quiet) /\
  answer_of (settings 1 0) zone (str (header_bytes (mkheader 7 0 2 0 0 0 0 0 0 0 0 1 0 0 0) ++ plain (www :: e_) 1 ++ num2 1) 512) = Ok (1, Octets (reply_header 7 0 0 0 4 1 0 ++ plain (www :: e_) 1 ++ [0; 1])) /\
  asked 7 (loaded zone) (of_puts zone) (settings 1 0) J1 J1 J1 (ask 7 0 (www :: e_) 255 1) (plain_header 7 0) (www :: e_) 255 /\
  asked 7 (loaded zone) (of_puts zone) (settings 1 0) J1 J1 J1 (ask 7 0 (www :: e_) 252 1) (plain_header 7 0) (www :: e_) 252.
Proof. split; [vm_compute; reflexivity|]. split; [vm_compute; reflexivity|]. split; asked_tac. Qed.
Print Assumptions C44_responses_dropped.
Print Assumptions C44_other_operations.
Print Assumptions C44_all_records.
Print Assumptions C44_zone_transfer.

(** *** What does not hold *)
(** With bind_star_handling (1 unless set otherwise) a star that is a CNAME is not found for names
    two labels below it, although there is nothing else there; without, it is. *)
Theorem C44_star_cname_refuted : let n := [120] :: [121] :: e_ in exists s v, nearest (fun s => records (of_puts zone) (star_of s T_CNAME)) (tl n) s v /\ nowhere (fun s => records (of_puts zone) (star_of s T_A)) (tl n) /\
  named (of_puts zone) (plain n T_ANY) = false /\
  answer_of (settings 0 0) zone (ask 7 1 n T_A 1) = Ok (1, Star v (plain n T_A) (plain n T_CNAME) 0) /\ answer_of (settings 1 0) zone (ask 7 1 n T_A 1) = Ok (1, Missing (Some 2) (plain n T_A) 4).
Proof.
  cbv zeta. exists e_, 5. split; [|split].
  - split; [exists [[121]]; reflexivity|]. split; [vm_compute; reflexivity|]. intros b r E L. destruct b as [|x b]; [cbn in E; subst r; vm_compute; reflexivity|]. exfalso. injection E as _ E. apply (f_equal (@length _)) in E. rewrite app_length in E. cbn [length e_] in *. lia.
  - intros b r E. destruct b as [|x [|y b]]; [cbn in E; subst r; vm_compute; reflexivity|injection E as _ E; subst r; vm_compute; reflexivity|]. injection E as _ _ E. symmetry in E. apply app_eq_nil in E as (_ & ->). vm_compute. reflexivity.
  - split; [vm_compute; reflexivity|]. split; vm_compute; reflexivity.
Qed.
(** Names in the default zone ("w.*") are found only as they are written there. *)
Theorem C44_default_zone_case_refuted : let es := [(ending [] T_SOA, 1, 3); (ending [[119]] T_A, 2, 3)] in lower_name [[87]; [120]] = lower_name [[119]; [120]] /\
  answer_of (settings 1 1) es (ask 7 1 [[119]; [120]] T_A 1) = Ok (1, Star 2 (plain [[119]; [120]] T_A) (plain [[119]; [120]] T_A) 2) /\
  answer_of (settings 1 1) es (ask 7 1 [[87]; [120]] T_A 1) = Ok (1, Missing (Some 1) (plain [[87]; [120]] T_A) 0).
Proof. cbv zeta. split; [reflexivity|]. split; vm_compute; reflexivity. Qed.
(** Names of 254 and 255 octets, which are allowed, get a server failure whose question is missing,
    although the header announces one. *)
Definition long_name : name := [repeat 97 63; repeat 97 63; repeat 97 63; repeat 97 60].
Theorem C44_long_names_refuted : good_name long_name /\ zlen (wire long_name) = 254 /\ records (of_puts [(plain long_name T_A, 1, 3)]) (plain long_name T_A) = Some 1 /\
  answer_of (settings 1 0) [(plain long_name T_A, 1, 3)] (ask 7 1 long_name T_A 1) = Ok (-1, Octets (reply_header 7 0 0 1 2 1 0 ++ [0; 1])).
Proof. split; [apply good_nameb_ok; vm_compute; reflexivity|]. split; [reflexivity|]. split; vm_compute; reflexivity. Qed.
(** Questions of other classes are answered as of the class IN. *)
Theorem C44_class_refuted : answer_of (settings 1 0) zone (ask 7 1 (www :: e_) 1 3) = Ok (1, Answer 3 (plain (www :: e_) 1) true) /\ answer_of (settings 1 0) zone (ask 7 1 (www :: e_) 255 3) = Ok (1, Octets (any_reply 7 1 (www :: e_))).
Proof. split; vm_compute; reflexivity. Qed.
(** Error replies do not echo the question: "W.e." is answered for "w.e.", and with the query ID 0
    an address is answered with a question for its name servers. *)
Theorem C44_echo_refuted : answer_of (settings 1 0) zone (ask 7 1 ([87] :: e_) 250 1) = Ok (-1, Octets (reply_header 7 0 0 1 4 1 0 ++ plain ([119] :: e_) 250 ++ [0; 1])) /\
  let n := [[49]; [50]; [51]; [52]] in answer_of (settings 1 0) zone (ask 0 1 n 1 1) = Ok (-1, Octets (reply_header 0 0 0 1 2 1 0 ++ plain n T_NS ++ [0; 1])).
Proof. split; vm_compute; reflexivity. Qed.
(** A question for the root with a type from 256 to 511 (as CAA), or any type with
    bind_star_handling 2, is a server failure, although the root is a zone of this server. *)
Theorem C44_root_refuted : let es := [(plain [] T_NS, 1, 3); (plain [] T_SOA, 2, 3)] in
  answer_of (settings 1 0) es (ask 7 1 [] 257 1) = Ok (-1, Octets (reply_header 7 0 0 1 2 1 0 ++ [95; 0; 1])) /\
  answer_of (settings 2 0) es (ask 7 1 [] 15 1) = Ok (-1, Octets (reply_header 7 0 0 1 2 1 0 ++ [95; 0; 15] ++ [0; 1])) /\
  answer_of (settings 1 0) es (ask 7 1 [] 15 1) = Ok (1, Missing (Some 2) (plain [] 15) 0).
Proof. cbv zeta. split; [vm_compute; reflexivity|]. split; vm_compute; reflexivity. Qed.
Print Assumptions C44_star_cname_refuted.
Print Assumptions C44_default_zone_case_refuted.
Print Assumptions C44_long_names_refuted.
Print Assumptions C44_class_refuted.
Print Assumptions C44_echo_refuted.
Print Assumptions C44_root_refuted.
