(** Whatever packet arrives, MaraDNS gets through with it (server/MaraDNS.c). *)
From Verif Require Import CBase Bits ModelDwStr SpecDwStr ProofDwStr SpecNames SpecMessage SpecAcl SpecDeadwoodMsg SpecQuery ModelJsStr SpecJsStr ProofJsStr ProofJsSearch
  ModelQueries SpecQueries ProofQueries ProofDwDnsStr ProofQuestion ProofHname ModelDecomp SpecDecomp ProofJsList ProofSqueeze ProofDecompList ModelMaraHash SpecMaraHash ProofMaraHash PropsMaraHash ModelServe SpecServe ProofServe ProofServeRun ProofServeFind ProofServeAll SpecServeSafe.

Definition fine {A} (P : A -> Prop) (r : res A) : Prop := exists x, r = Ok x /\ P x.
Lemma fine_ok {A} (P : A -> Prop) x : P x -> fine P (Ok x). Proof. intros H. exists x. split; [reflexivity|exact H]. Qed.
Lemma fine_bind {A B} (Q : A -> Prop) (P : B -> Prop) r k : fine Q r -> (forall x, Q x -> fine P (k x)) -> fine P (bind r k).
Proof. intros (x & -> & H) K. cbn [bind]. apply K, H. Qed.
Lemma fine_weak {A} (P Q : A -> Prop) r : fine P r -> (forall x, P x -> Q x) -> fine Q r.
Proof. intros (x & -> & H) K. exists x. split; [reflexivity|apply K, H]. Qed.

(** ** The strings looked up *)
Definition lk (s : js) (q : list Z) : Prop := held 256 s q /\ zlen q < 256.
Definition lks (n : Z) (s : js) : Prop := exists q, lk s q /\ zlen q <= n.
Lemma lk_mem s q : lk s q -> exists r, j_mem s = q ++ r /\ zlen q + zlen r = 259 /\ j_count s = zlen q /\ bytes q /\ bytes r /\ zlen q < 256 /\ j_size s = 1 /\ j_max s = 256 /\ js_sane s = true.
Proof. intros (H & L). destruct (held_mem _ _ _ H) as (r & E & LR & C & BQ & BR & CQ & S1 & M & SA & _). exists r. repeat (split; [assumption || lia|]). exact SA. Qed.
Lemma fold_fine s q : lk s q -> fine (fun p => exists q', lk (snd p) q' /\ zlen q' = zlen q) (fold_case s).
Proof.
  intros K. destruct (Z.ltb_spec (zlen q) 2) as [L|L].
  - destruct (lk_mem s q K) as (r & E & LR & C & BQ & BR & CQ & S1 & M & SA). unfold fold_case. rewrite C, M, S1. replace (256 <=? zlen q) with false by lia. cbn [Z.eqb Pos.eqb negb]. replace (zlen q <? 2) with true by lia. apply fine_ok. exists q. split; [exact K|reflexivity].
  - destruct K as (K & B). destruct (fold_case_held _ _ _ K ltac:(lia)) as (r & s' & -> & _ & H). apply fine_ok. exists (l_fold q). cbn [snd]. unfold lk. rewrite zlen_fold by lia. split; [split; [exact H|lia]|lia].
Qed.
Lemma make_fine s q : lk s q -> fine (fun p => lks (zlen q) (snd p)) (make_starlabel s).
Proof.
  intros K. destruct (Z.ltb_spec (zlen q) 2) as [L|L].
  - destruct (lk_mem s q K) as (r & E & LR & C & BQ & BR & CQ & S1 & M & SA). unfold make_starlabel. rewrite C, M, S1. replace (256 <=? zlen q) with false by lia. cbn [Z.eqb Pos.eqb negb]. replace (zlen q <? 2) with true by lia. apply fine_ok. exists q. split; [exact K|lia].
  - destruct K as (K & B). destruct (make_starlabel_held _ _ _ K ltac:(lia)) as (s' & -> & H). apply fine_ok. exists (snd (l_make_star q)). cbn [snd].
    assert (zlen (snd (l_make_star q)) <= zlen q) as LE; [|split; [split; [exact H|lia]|lia]]. pose proof (at_byte q 0 (held_bytes _ _ _ K) ltac:(lia)) as AB. pose proof (hd_tl q ltac:(lia)) as HT. assert (zlen (95 :: tl q) = zlen q) as LT by (rewrite HT at 2; rewrite !zlen_cons; reflexivity). unfold l_make_star. cbv zeta.
    set (b := at_ q 0) in *. clearbody b. destruct (b =? 95); [cbn [snd]; lia|]. destruct ((zlen q <? b) || (63 <? b)) eqn:G; [cbn [snd]; lia|]. destruct (Z.eqb_spec b 0); [cbn [snd]; lia|]. cbn [snd]. destruct (Z.eqb_spec b (zlen q)); [change (zlen (@nil Z)) with 0; lia|]. rewrite zlen_cons, zlen_zslice by lia. lia.
Qed.
Lemma star_fine s q : lk s q -> fine (fun p => lks (if 0 <? fst p then zlen q - 1 else zlen q) (snd p)) (bobbit_starlabel s).
Proof.
  intros K. destruct (Z.ltb_spec (zlen q) 2) as [L|L].
  - destruct (lk_mem s q K) as (r & E & LR & C & BQ & BR & CQ & S1 & M & SA). unfold bobbit_starlabel. rewrite C, M, S1. replace (256 <=? zlen q) with false by lia. cbn [Z.eqb Pos.eqb negb]. replace (zlen q <? 2) with true by lia. apply fine_ok. exists q. split; [exact K|change (0 <? fst (JS_ERROR, s)) with false; cbv iota; lia].
  - destruct K as (K & B). destruct (bobbit_starlabel_held _ _ _ K ltac:(lia)) as (s' & -> & H). apply fine_ok. exists (snd (l_bobbit_star q)). cbn [fst snd].
    assert (zlen (snd (l_bobbit_star q)) <= (if 0 <? fst (l_bobbit_star q) then zlen q - 1 else zlen q)) as LE; [|split; [split; [exact H|destruct (0 <? fst (l_bobbit_star q)); lia]|exact LE]]. pose proof (at_byte q 1 (held_bytes _ _ _ K) ltac:(lia)) as AB. unfold l_bobbit_star. set (b := at_ q 1) in *. clearbody b.
    destruct (negb (at_ q 0 =? 95)); [cbn; lia|]. destruct ((zlen q <? b + 2) || (63 <? b)) eqn:G; [cbn; lia|]. destruct (Z.eqb_spec b 0); [cbn; lia|]. cbn [fst snd]. change (0 <? 1) with true. cbv iota. rewrite zlen_cons, zlen_zslice by lia. lia.
Qed.
Lemma label_fine s q : lk s q -> fine (fun p => lks (if 0 <? fst p then zlen q - 1 else zlen q) (snd p)) (bobbit_label s).
Proof.
  intros K. destruct (Z.ltb_spec (zlen q) 1) as [L|L].
  - destruct (lk_mem s q K) as (r & E & LR & C & BQ & BR & CQ & S1 & M & SA). unfold bobbit_label. rewrite C, M, S1. replace (256 <=? zlen q) with false by lia. cbn [Z.eqb Pos.eqb negb]. replace (zlen q <? 1) with true by lia. apply fine_ok. exists q. split; [exact K|change (0 <? fst (JS_ERROR, s)) with false; cbv iota; lia].
  - destruct K as (K & B). destruct (bobbit_label_held _ _ _ K ltac:(lia)) as (s' & -> & H). apply fine_ok. exists (snd (l_bobbit q)). cbn [fst snd].
    assert (zlen (snd (l_bobbit q)) <= (if 0 <? fst (l_bobbit q) then zlen q - 1 else zlen q)) as LE; [|split; [split; [exact H|destruct (0 <? fst (l_bobbit q)); lia]|exact LE]]. pose proof (at_byte q 0 (held_bytes _ _ _ K) ltac:(lia)) as AB. unfold l_bobbit. cbv zeta. set (b := at_ q 0) in *. clearbody b.
    destruct (negb (b =? 95) && ((zlen q <? b + 1) || (63 <? b))) eqn:G; [cbn; lia|]. destruct (Z.eqb_spec b 0); [cbn; lia|]. cbn [fst snd]. change (0 <? 1) with true. cbv iota. destruct (Z.eqb_spec b 95); rewrite zlen_zslice; lia.
Qed.
Definition front (q : list Z) : list Z := zslice q 0 (zlen q - 2).
Lemma retype_fine s q t : lk s q -> fine (fun p => exists q', lk (snd p) q' /\ zlen q' = zlen q /\ front q' = front q) (change_rtype s t).
Proof.
  intros K. destruct (lk_mem s q K) as (r & E & LR & C & BQ & BR & CQ & S1 & M & SA). destruct (Z.ltb_spec (zlen q) 3) as [L|L]; [|destruct ((t <? 0) || (65535 <? t)) eqn:G].
  - unfold change_rtype. rewrite SA, C. cbn [negb]. replace (zlen q <? 3) with true by lia. apply fine_ok. exists q. split; [exact K|split; reflexivity].
  - unfold change_rtype. rewrite SA, C, G. cbn [negb]. replace (zlen q <? 3) with false by lia. apply fine_ok. exists q. split; [exact K|split; reflexivity].
  - destruct K as (K & B). destruct (retype_held _ _ _ t K L ltac:(lia)) as (s' & -> & H). apply fine_ok. exists (l_retype q t). cbn [snd]. unfold lk. rewrite zlen_retype by lia. split; [split; [exact H|exact B]|]. split; [reflexivity|]. unfold front. rewrite zlen_retype by lia. unfold l_retype.
    rewrite zslice_app_l by (rewrite ?zlen_zslice; lia). assert (zlen (zslice q 0 (zlen q - 2)) = zlen q - 2) as X by (apply zlen_zslice; lia). set (a := zslice q 0 (zlen q - 2)) in *. clearbody a. rewrite <- X. apply zslice_all.
Qed.
Lemma type_fine s q : lk s q -> fine (fun _ => True) (get_rtype s).
Proof. intros (K & _). rewrite (get_rtype_held _ _ _ K). apply fine_ok. exact Logic.I. Qed.
Lemma copy_fine o q s n : lk o q -> lks n s -> fine (fun p => lk (snd p) q) (js_copy o s).
Proof. intros (K & L) (y & (H & _) & _). destruct (copy_held _ _ _ _ _ _ K H L) as (s' & -> & H'). apply fine_ok. split; [exact H'|exact L]. Qed.

(** ** Names that end in a star *)
Lemma len_stable F : forall m m' k len, 0 <= len -> l_len F m 0 len = k + 1 -> 0 <= k -> zget m k = Some 0 -> zlen m' = zlen m -> (forall i, i <> k -> zget m' i = zget m i) -> zget m' k = Some 95 -> l_len F m' 0 len = k + 1.
Proof.
  induction F as [|F IH]; intros m m' k len L E K Z0 LM O Z1; cbn [l_len] in *; [lia|]. destruct (zget m (0 + len)) as [t|] eqn:EG; [|lia].
  destruct ((len <? 256) && (0 <? t) && negb (t =? 95)) eqn:G.
  - destruct (192 <=? t) eqn:G2.
    + destruct (0 + (len + 2) <=? zlen m) eqn:G3; [|lia]. rewrite O, EG, G, G2, LM, G3 by lia. exact E.
    + destruct (63 <? t) eqn:G3; [lia|]. pose proof (l_len_range F m 0 (len + (t + 1)) ltac:(lia) ltac:(lia)) as RG. rewrite O, EG, G, G2, G3 by lia. apply (IH m); try assumption. lia.
  - replace (0 + len) with k by lia. rewrite Z1. rewrite andb_false_r. exact E.
Qed.
(** What gets less: the length, or an end that is not yet a star. *)
Definition mu (q : list Z) : Z := 2 * zlen q + (if at_ (front q) (len_at (front q) 0 - 1) =? 0 then 1 else 0).
Lemma mu_range q : 2 * zlen q <= mu q <= 2 * zlen q + 1. Proof. unfold mu. destruct (_ =? 0); lia. Qed.
Lemma front_app a t : front (a ++ num2 t) = a.
Proof. unfold front. rewrite zlen_app. change (zlen (num2 t)) with 2. replace (zlen a + 2 - 2) with (zlen a) by lia. rewrite zslice_app_l, zslice_all by (pose proof (zlen_nonneg a); lia). reflexivity. Qed.
Lemma end_loop_fine s q : held 256 s q -> forall n ret length toread counter, 0 <= length <= zlen q -> 0 <= toread < 256 -> 0 <= counter -> 257 - length < Z.of_nat n ->
  fine (fun o => match o with None => True | Some (_, length', counter') => 0 <= counter' end) (end_loop n s ret length toread counter).
Proof.
  intros H. destruct (held_mem _ _ _ H) as (r & E & LR & C & BQ & BR & CQ & S1 & M & SA & _). induction n as [|n IH]; intros ret length toread counter L T CT F; [lia|]. cbn [end_loop].
  destruct ((length <? 256) && (0 <? toread) && negb (toread =? 95)) eqn:G; [|apply fine_ok; exact CT]. destruct (63 <? toread) eqn:G2; [apply fine_ok; exact Logic.I|]. cbv zeta. rewrite C, M.
  destruct ((zlen q <? length + toread + 1) || (256 <=? length + toread + 1)) eqn:G3; [apply fine_ok; exact Logic.I|]. destruct (zget_some (j_mem s) (length + toread + 1)) as (b & EB); [rewrite E, zlen_app; lia|]. rewrite (rd_of_zget _ _ _ EB). cbn [bind].
  assert (byte b) as BB by (apply (zget_bytes (j_mem s) (length + toread + 1)); [rewrite E; apply bytes_app; split; assumption|exact EB]). unfold byte in BB. apply IH; lia.
Qed.
Lemma held_put cap s q k v : held cap s q -> 0 <= k < zlen q -> byte v -> exists mem q', wr (j_mem s) k v = Ok mem /\ held cap (set_mem s mem) q' /\ zlen q' = zlen q /\ (forall i, i <> k -> zget q' i = zget q i) /\ zget q' k = Some v.
Proof.
  intros H K B. destruct (held_mem cap s _ H) as (r & E & LR & C & BQ & BR & CQ & S1 & M & SA & SM). assert (zlen (zslice q 0 k) = k) as L1 by (apply zlen_zslice; lia). assert (zlen (zslice q (k + 1) (zlen q - (k + 1))) = zlen q - (k + 1)) as L2 by (apply zlen_zslice; lia).
  destruct (zget_some q k K) as (x & EX). assert (q = zslice q 0 k ++ x :: zslice q (k + 1) (zlen q - (k + 1))) as EQ.
  { rewrite <- (zslice_all q) at 1. replace (zlen q) with (k + (1 + (zlen q - (k + 1)))) at 1 by lia. rewrite (zslice_split q 0 k), (zslice_split q (0 + k) 1) by lia. rewrite (zslice_one q (0 + k) x) by (rewrite Z.add_0_l; exact EX). rewrite !Z.add_0_l. reflexivity. }
  set (a := zslice q 0 k) in *. set (b := zslice q (k + 1) (zlen q - (k + 1))) in *. exists (a ++ v :: b ++ r), (a ++ v :: b). rewrite E, EQ, <- app_assoc. cbn [app]. split; [rewrite <- L1; apply wr_here|]. assert (zlen (a ++ v :: b) = zlen q) as LQ by (rewrite zlen_app, zlen_cons; lia).
  split; [|split; [rewrite LQ, EQ at 1; reflexivity|split]].
  - pose proof (held_same cap s q ((a ++ v :: b) ++ r) H) as X. rewrite <- LQ in X. rewrite zslice_app_l, zslice_all in X by lia. rewrite <- app_assoc in X. cbn [app] in X. apply X.
    + rewrite EQ in BQ. apply bytes_app in BQ as (B1 & B2). apply Forall_cons_iff in B2 as (_ & B2). apply bytes_app. split; [exact B1|]. constructor; [exact B|]. apply bytes_app. split; assumption.
    + rewrite E, !zlen_app, !zlen_cons, zlen_app. lia.
  - intros i N. destruct (Z.ltb_spec i k) as [I|I].
    + destruct (Z.ltb_spec i 0) as [I0|I0]; [rewrite !(proj2 (zget_none _ i)) by lia; reflexivity|]. rewrite !zget_app_l by lia. reflexivity.
    + rewrite !zget_app_r by lia. rewrite !zget_cons_S by lia. reflexivity.
  - rewrite zget_app_r, L1 by lia. replace (k - k) with 0 by lia. reflexivity.
Qed.
Lemma front_split q : 2 <= zlen q -> bytes q -> exists x y, q = front q ++ [x; y] /\ byte x /\ byte y /\ zlen (front q) = zlen q - 2.
Proof.
  intros L B. pose proof (split2 q L) as E. unfold front. assert (zlen (zslice q (zlen q - 2) 2) = 2) as L2 by (apply zlen_zslice; lia). destruct (zslice q (zlen q - 2) 2) as [|x [|y [|z l]]]; [discriminate L2|discriminate L2| |rewrite !zlen_cons in L2; pose proof (zlen_nonneg l); lia].
  exists x, y. split; [exact E|]. rewrite E in B. apply bytes_app in B as (_ & B). apply Forall_cons_iff in B as (BX & B). apply Forall_cons_iff in B as (BY & _). split; [exact BX|]. split; [exact BY|]. apply zlen_zslice; lia.
Qed.
Lemma front_be a t : front (a ++ be 2 t) = a.
Proof. unfold front. rewrite zlen_app. change (zlen (be 2 t)) with 2. replace (zlen a + 2 - 2) with (zlen a) by lia. rewrite zslice_app_l, zslice_all by (pose proof (zlen_nonneg a); lia). reflexivity. Qed.
Lemma end_fine s q : lk s q -> fine (fun p => exists q', lk (snd p) q' /\ (0 < fst p -> mu q' < mu q)) (bobbit_starlabel_end s).
Proof.
  intros K. destruct (lk_mem s q K) as (r & E & LR & C & BQ & BR & CQ & S1 & M & SA). unfold bobbit_starlabel_end. rewrite C, M, S1. change (negb (1 =? 1)) with false. cbv iota. replace (256 <=? zlen q) with false by lia.
  assert (forall v, v <= 0 -> fine (fun p => exists q', lk (snd p) q' /\ (0 < fst p -> mu q' < mu q)) (Ok (v, s))) as STOP by (intros v NV; apply fine_ok; exists q; cbn [fst snd]; split; [exact K|lia]).
  destruct (Z.ltb_spec (zlen q) 2) as [L|L]; [apply STOP; unfold JS_ERROR; lia|]. destruct (zlen q =? 3) eqn:G3; [apply STOP; lia|].
  destruct (front_split q L BQ) as (x & y & EQ & BX & BY & LF). unfold byte in BX, BY. set (a := front q) in *.
  assert (rd (j_mem s) (zlen q - 1) = Ok y) as ->. { rewrite E, EQ. replace (zlen (a ++ [x; y]) - 1) with (zlen (a ++ [x])) by (rewrite !zlen_app; change (zlen [x; y]) with 2; change (zlen [x]) with 1; lia). replace ((a ++ [x; y]) ++ r) with ((a ++ [x]) ++ y :: r) by (rewrite <- !app_assoc; reflexivity). apply rd_here. }
  assert (rd (j_mem s) (zlen q - 2) = Ok x) as ->. { rewrite E. replace (zlen q - 2) with (zlen a) by lia. rewrite EQ, <- app_assoc. apply rd_here. }
  cbn [bind]. cbv zeta. replace (zlen q - 2) with (zlen a) by lia. destruct K as (K & _). rewrite EQ in K. pose proof (held_cut _ _ _ _ K) as HC. set (s1 := set_count s (zlen a)) in *. rewrite (dlabel_length_list s1 a 0 (proj1 HC)) by lia. cbn [bind]. replace (j_count s1) with (zlen a) by reflexivity.
  assert (lk s1 a) as LA by (split; [exact HC|lia]).
  assert (forall v, v <= 0 -> fine (fun p => exists q', lk (snd p) q' /\ (0 < fst p -> mu q' < mu q)) (Ok (v, s1))) as STOP1 by (intros v NV; apply fine_ok; exists a; cbn [fst snd]; split; [exact LA|lia]).
  pose proof (l_len_range 258 a 0 0 ltac:(lia) ltac:(lia)) as RG. rewrite <- len_at_def in RG. set (k := len_at a 0 - 1). destruct ((k <? 0) || (zlen a <? k)) eqn:G; [apply STOP1; unfold JS_ERROR; lia|]. assert (0 <= k < zlen a) as KK by lia.
  destruct (held_mem _ _ _ HC) as (r1 & E1 & LR1 & C1 & BA & BR1 & _). destruct (rd_at_ a r1 k KK) as (RK & GK). rewrite E1 at 1. rewrite RK. cbn [bind].
  assert (forall s2 a2, held 256 s2 a2 -> zlen a2 <= zlen a -> fine (fun p => lk (snd p) (a2 ++ be 2 (y + x * 256)) /\ fst p <> -1) (js_adduint16 s2 (y + x * 256))) as ADD.
  { intros s2 a2 H2 L2. destruct (word_held _ _ _ (y + x * 256) H2 ltac:(lia)) as (rr & s3 & -> & X & _). destruct (X ltac:(lia)) as (NR & H3). apply fine_ok. cbn [fst snd]. split; [|exact NR]. split; [exact H3|]. rewrite zlen_app. change (zlen (be 2 _)) with 2. lia. }
  destruct (Z.eqb_spec (at_ a k) 0) as [Z0|NZ].
  - destruct (held_put _ _ _ k 95 HC KK ltac:(unfold byte; lia)) as (mem & a2 & -> & H2 & LA2 & OT & HK). cbn [bind]. eapply fine_bind; [apply (ADD _ a2 H2); lia|]. intros (rr & s3) (K3 & NR). cbn [fst snd] in *. change JS_ERROR with (-1). replace (rr =? -1) with false by lia. apply fine_ok. exists (a2 ++ be 2 (y + x * 256)). split; [exact K3|]. intros _.
    unfold mu. rewrite front_be. fold a. assert (len_at a2 0 = k + 1) as ->. { rewrite len_at_def. apply (len_stable 258 a a2 k 0); try assumption; try lia; [rewrite <- len_at_def; unfold k; lia|congruence]. }
    replace (k + 1 - 1) with k by lia. assert (at_ a2 k = 95) as -> by (unfold at_; rewrite HK; reflexivity). fold k. rewrite Z0. change (95 =? 0) with false. change (0 =? 0) with true. cbv iota. rewrite zlen_app. change (zlen (be 2 _)) with 2. lia.
  - destruct (rd_at_ a r1 0 ltac:(lia)) as (R0 & _). rewrite E1 at 1. rewrite R0. cbn [bind]. pose proof (at_byte a 0 BA ltac:(lia)) as B0.
    eapply fine_bind; [apply (end_loop_fine s1 a HC); [lia|exact B0|lia|change (Z.of_nat 258) with 258; lia]|]. intros [[[ret length] counter]|] X; [|apply STOP1; unfold JS_ERROR; lia].
    destruct (256 <=? length); [apply STOP1; unfold JS_ERROR; lia|]. destruct ((zlen a <? counter + 1) || (length <? counter + 1)) eqn:G4; [apply STOP1; unfold JS_ERROR; lia|].
    set (n2 := zlen a - (counter + 1)). assert (zlen (zslice a 0 n2) = n2) as LN by (apply zlen_zslice; lia). assert (held 256 (set_count s1 n2) (zslice a 0 n2)) as H2.
    { rewrite <- LN at 1. apply (held_cut _ _ _ (zslice a n2 (zlen a - n2))). replace (zslice a 0 n2 ++ zslice a n2 (zlen a - n2)) with a; [exact HC|]. rewrite <- (zslice_all a) at 1. replace (zlen a) with (n2 + (zlen a - n2)) at 1 by lia. rewrite zslice_split by lia. reflexivity. }
    set (a2 := zslice a 0 n2) in *. set (s2 := set_count s1 n2) in *. replace (j_count s2) with n2 by reflexivity. destruct (n2 <? 1) eqn:G5; [apply fine_ok; exists a2; cbn [fst snd]; unfold JS_ERROR; split; [split; [exact H2|lia]|lia]|].
    destruct (held_put _ _ _ (n2 - 1) 95 H2 ltac:(lia) ltac:(unfold byte; lia)) as (mem & a3 & -> & H3 & LA3 & _ & _). cbn [bind]. eapply fine_bind; [apply (ADD _ a3 H3); lia|]. intros (rr & s3) (K3 & NR). cbn [fst snd] in *. apply fine_ok. exists (a3 ++ be 2 (y + x * 256)). cbn [fst snd]. split; [exact K3|]. intros _.
    pose proof (mu_range (a3 ++ be 2 (y + x * 256))) as M3. pose proof (mu_range q) as MQ. rewrite zlen_app in M3. change (zlen (be 2 _)) with 2 in M3. lia.
Qed.

(** ** The replies made on the spot *)
Definition starts (p y : list Z) : Prop := 12 <= zlen y /\ zslice y 0 2 = zslice p 0 2 /\ exists b, zget y 2 = Some b /\ 128 <= b.
Definition rs (p : list Z) (cap n : Z) (s : js) : Prop := exists y, held cap s y /\ starts p y /\ zlen y <= n.
Lemma starts_app p y z : starts p y -> starts p (y ++ z).
Proof. intros (L & E & b & G & B). pose proof (zlen_nonneg z). split; [rewrite zlen_app; lia|]. split; [rewrite zslice_app_l by lia; exact E|]. exists b. split; [rewrite zget_app_l by lia; exact G|exact B]. Qed.
Lemma qr_octet op aa tc rd : 128 <= u8 (Z.lor (Z.lor (Z.lor (Z.lor (flag 1 128) (Z.shiftl (Z.land op 15) 3)) (flag aa 4)) (flag tc 2)) (flag rd 1)).
Proof.
  assert (0 <= Z.land op 15 < 16) as O by (change 15 with (Z.ones 4); rewrite Z.land_ones by lia; change (2 ^ 4) with 16; lia). set (x := Z.land op 15) in *. clearbody x. change (flag 1 128) with 128.
  assert (forallb (fun x => forallb (fun a => forallb (fun t => forallb (fun r => 128 <=? u8 (Z.lor (Z.lor (Z.lor (Z.lor 128 (Z.shiftl x 3)) a) t) r)) [0; 1]) [0; 2]) [0; 4]) (map Z.of_nat (seq 0 16)) = true) as F by (vm_compute; reflexivity).
  assert (forall v b, In (flag v b) [0; b]) as FB by (intros v b; unfold flag; match goal with |- In (if ?x then _ else _) _ => destruct x end; cbn [In]; tauto).
  rewrite forallb_forall in F. specialize (F x). assert (In x (map Z.of_nat (seq 0 16))) as I. { apply in_map_iff. exists (Z.to_nat x). split; [lia|]. apply in_seq. lia. } apply F in I.
  rewrite forallb_forall in I. specialize (I _ (FB aa 4)). rewrite forallb_forall in I. specialize (I _ (FB tc 2)). rewrite forallb_forall in I. specialize (I _ (FB rd 1)). apply Z.leb_le. exact I.
Qed.
Lemma two_octets p : 2 <= zlen p -> zslice p 0 2 = [at_ p 0; at_ p 1].
Proof. intros L. destruct p as [|a [|b p]]; try (rewrite ?zlen_cons in L; change (zlen (@nil Z)) with 0 in L; lia). reflexivity. Qed.
Lemma header_starts p hd : bytes p -> 2 <= zlen p -> q_id hd = at_ p 0 * 256 + at_ p 1 -> q_qr hd = 1 -> starts p (hdr_octets hd).
Proof.
  intros B L I Q. pose proof (at_byte p 0 B ltac:(lia)) as B0. pose proof (at_byte p 1 B ltac:(lia)) as B1. split; [unfold hdr_octets, zlen; cbn [length]; lia|]. split.
  - rewrite (two_octets p) by exact L. change (zslice (hdr_octets hd) 0 2) with [hi (q_id hd); lo (q_id hd)]. rewrite I. destruct (hi_div (at_ p 0 * 256 + at_ p 1) ltac:(lia)) as (-> & ->). f_equal; [lia|f_equal; lia].
  - eexists. split; [reflexivity|]. rewrite Q. apply qr_octet.
Qed.
Lemma reply_fine {A} (P : option A -> Prop) (Q : js -> Prop) m k : P None -> fine (fun rp : Z * js => fst rp = -1 \/ Q (snd rp)) m -> (forall s, Q s -> fine P (k s)) ->
  fine P (bind m (fun rp => let p := snd rp in if fst rp =? JS_ERROR then Ok None else k p)).
Proof. intros PN F K. eapply fine_bind; [exact F|]. intros (r & s) X. cbn [fst snd] in *. change JS_ERROR with (-1). destruct (Z.eqb_spec r (-1)); [apply fine_ok; exact PN|]. destruct X as [X|X]; [lia|]. apply K, X. Qed.
Lemma rs_append p cap n s ca a x : rs p cap n s -> held ca a x -> fine (fun rp => fst rp = -1 \/ rs p cap (n + zlen x) (snd rp)) (js_append a s).
Proof.
  intros (y & H & T & L) HA. destruct (Z.ltb_spec (zlen y + zlen x) cap) as [G|G].
  - destruct (append_held _ _ _ _ _ _ HA H G) as (s' & -> & H'). apply fine_ok. right. exists (y ++ x). split; [exact H'|]. split; [apply starts_app, T|rewrite zlen_app; lia].
  - destruct (append_held_not _ _ _ _ _ _ HA H G) as (s' & ->). apply fine_ok. left. reflexivity.
Qed.
Lemma rs_word p cap n s v : rs p cap n s -> 0 <= v <= 65535 -> fine (fun rp => fst rp = -1 \/ rs p cap (n + 2) (snd rp)) (js_adduint16 s v).
Proof.
  intros (y & H & T & L) V. destruct (word_held _ _ _ v H V) as (r & s' & -> & X & Y). apply fine_ok. cbn [fst snd]. destruct (Z.ltb_spec (zlen y + 2) cap) as [G|G]; [|left; apply Y; lia]. right. exists (y ++ be 2 v). split; [apply X; exact G|]. split; [apply starts_app, T|]. rewrite zlen_app. change (zlen (be 2 v)) with 2. lia.
Qed.
Lemma rs_dword p cap n s v : rs p cap n s -> 0 <= v < 4294967296 -> fine (fun rp => fst rp = -1 \/ rs p cap (n + 4) (snd rp)) (js_adduint32 s v).
Proof.
  intros (y & (HT & <-) & T & L) V. pose proof (hold_facts s y HT) as [Wt St Lt Ct Mt Nt Bt Xt Ut Ot _ _].
  destruct (js_adduint32_ok s v Wt V) as (s' & -> & W' & V'). apply fine_ok. cbn [fst snd]. revert V'. unfold s_adduint32, s_add. rewrite Ut, !s_len_value, !unit_value, cap_value, !oct_value by assumption. rewrite St, <- Lt, Ot. cbn [Z.eqb Pos.eqb andb]. change (zlen (be 4 v)) with 4.
  destruct (zlen y + 4 <? j_max s) eqn:G; cbn [fst snd]; intros V'; [right|left; reflexivity]. exists (y ++ be 4 v). unfold with_oct in V'. rewrite unit_value, cap_value, St in V'. split; [apply (value_held _ _ _ _ W' V')|]. split; [apply starts_app, T|]. rewrite zlen_app. change (zlen (be 4 v)) with 4. lia.
Qed.
Lemma rs_byte p cap n s v : rs p cap n s -> fine (fun rp => fst rp = -1 \/ rs p cap (n + 1) (snd rp)) (js_addbyte s v).
Proof.
  intros (y & (HT & <-) & T & L). pose proof (hold_facts s y HT) as [Wt St Lt Ct Mt Nt Bt Xt Ut Ot _ _].
  destruct (js_addbyte_ok s v Wt) as (s' & -> & W' & V'). apply fine_ok. cbn [fst snd]. revert V'. unfold s_addbyte, s_add. rewrite Ut, !s_len_value, !unit_value, cap_value, !oct_value by assumption. rewrite St, <- Lt, Ot. cbn [Z.eqb Pos.eqb andb]. change (zlen (be 1 v)) with 1.
  destruct (zlen y + 1 <? j_max s) eqn:G; cbn [fst snd]; intros V'; [right|left; reflexivity]. exists (y ++ be 1 v). unfold with_oct in V'. rewrite unit_value, cap_value, St in V'. split; [apply (value_held _ _ _ _ W' V')|]. split; [apply starts_app, T|]. rewrite zlen_app. change (zlen (be 1 v)) with 1. lia.
Qed.
Definition some_rs (p : list Z) (cap n : Z) (o : option js) : Prop := match o with Some s => rs p cap n s | None => True end.
Lemma rs_words p cap l : Forall word l -> forall n s, rs p cap n s -> fine (some_rs p cap (n + 2 * zlen l)) (add_words s l).
Proof.
  induction 1 as [|v l WV _ IH]; intros n s H; cbn [add_words]; [apply fine_ok; change (zlen (@nil Z)) with 0; replace (n + 2 * 0) with n by lia; exact H|]. unfold word in WV. apply (reply_fine _ (rs p cap (n + 2)) _ (fun s => add_words s l)); [exact Logic.I|apply rs_word; [exact H|lia]|]. intros s' H'. rewrite zlen_cons. replace (n + 2 * (zlen l + 1)) with (n + 2 + 2 * zlen l) by lia. apply IH, H'.
Qed.
Lemma rs_octets p cap l : forall n s, rs p cap n s -> fine (some_rs p cap (n + zlen l)) (add_octets s l).
Proof.
  induction l as [|v l IH]; intros n s H; cbn [add_octets]; [apply fine_ok; change (zlen (@nil Z)) with 0; rewrite Z.add_0_r; exact H|]. apply (reply_fine _ (rs p cap (n + 1)) _ (fun s => add_octets s l)); [exact Logic.I|apply rs_byte, H|]. intros s' H'. rewrite zlen_cons. replace (n + (zlen l + 1)) with (n + 1 + zlen l) by lia. apply IH, H'.
Qed.
Definition own (p : list Z) (o : option (list Z)) : Prop := match o with Some l => own_reply p l | None => True end.
Lemma rs_own p cap n s : rs p cap n s -> cap <= 512 \/ n <= 512 -> own p (Some (oct s)).
Proof. intros (y & H & (L1 & E & B) & L) X. destruct (held_mem _ _ _ H) as (r & _ & _ & _ & _ & _ & CQ & _). rewrite (oct_held _ _ _ H). cbn. split; [lia|]. split; assumption. Qed.
Lemma rs_header p J cap hd : junk_ok J -> 14 <= cap -> cap + 3 < 2147483648 -> bytes p -> 2 <= zlen p -> q_id hd = at_ p 0 * 256 + at_ p 1 -> q_qr hd = 1 ->
  exists s, create J cap 1 = Ok s /\ fine (fun rp => fst rp = -1 \/ rs p cap 12 (snd rp)) (make_hdr hd s).
Proof. intros HJ C1 C2 B L I Q. destruct (made_header J cap hd HJ C1 C2) as (s & s' & E & E' & H). exists s. split; [exact E|]. rewrite E'. apply fine_ok. right. exists (hdr_octets hd). split; [exact H|]. split; [apply header_starts; assumption|reflexivity]. Qed.
