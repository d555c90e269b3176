(** Proofs about ModelDwPend. *)
From Verif Require Import CBase Bits SpecNames SpecMessage SpecQuery SpecDwStr SpecAcl ModelBlockHash ModelDwStr ModelDwDnsStr ModelDwSys ModelDwUdp ModelDwPend SpecUdp ProofDwStr ProofDwCompressSafe ProofDwDecomp ProofDwDnsSafe ProofDwDnsStr ProofDwDissect ProofDwRecurseSafe ProofDwDname ProofDwSys ProofDwUdp.

(** ** Arrays *)
Lemma zlenA {A} (l : list A) : 0 <= zlen l. Proof. unfold zlen. lia. Qed.
Lemma zlen_appA {A} (l m : list A) : zlen (l ++ m) = zlen l + zlen m. Proof. unfold zlen. rewrite app_length. lia. Qed.
Lemma zlen_mapA {A B} (f : A -> B) l : zlen (map f l) = zlen l. Proof. unfold zlen. rewrite map_length. reflexivity. Qed.
Lemma zlen_consA {A} (x : A) l : zlen (x :: l) = zlen l + 1. Proof. unfold zlen. cbn [length]. lia. Qed.
Lemma aget_app {A} (l : list A) x m i : i = zlen l -> aget (l ++ x :: m) i = Ok x.
Proof. intros ->. unfold aget. pose proof (zlenA l). replace (zlen l <? 0) with false by lia. rewrite nth_error_app2 by (unfold zlen; lia). replace (Z.to_nat (zlen l) - length l)%nat with 0%nat by (unfold zlen; lia). reflexivity. Qed.
Lemma aupd_app {A} (l : list A) x m v : aupd (l ++ x :: m) (length l) v = l ++ v :: m.
Proof. induction l as [|y l IH]; cbn [app length aupd]; [reflexivity|]. rewrite IH. reflexivity. Qed.
Lemma aset_app {A} (l : list A) x m i v : i = zlen l -> aset (l ++ x :: m) i v = Ok (l ++ v :: m).
Proof. intros ->. unfold aset. pose proof (zlenA l). rewrite zlen_appA, zlen_consA. pose proof (zlenA m). replace ((0 <=? zlen l) && (zlen l <? zlen l + (zlen m + 1))) with true by lia. f_equal. unfold zlen. rewrite Nat2Z.id. apply aupd_app. Qed.
Lemma aget_split {A} (l : list A) i x : aget l i = Ok x -> exists u v, l = u ++ x :: v /\ i = zlen u.
Proof.
  unfold aget. destruct (Z.ltb_spec i 0); [discriminate|]. destruct (nth_error l (Z.to_nat i)) eqn:E; [|discriminate]. intros HE. injection HE as ->. apply nth_error_split in E as (u & v & -> & Hu). exists u, v. split; [reflexivity|]. unfold zlen. lia.
Qed.
Lemma aget_ok {A} (l : list A) i : 0 <= i < zlen l -> exists x, aget l i = Ok x.
Proof. intros H. unfold aget. replace (i <? 0) with false by lia. destruct (nth_error l (Z.to_nat i)) as [x|] eqn:E; [eauto|]. apply nth_error_None in E. unfold zlen in H. lia. Qed.

(** ** Histories *)
Lemma asked_mono tr t c id q : has_asked tr c id q -> has_asked (tr ++ t) c id q.
Proof. intros (o & p & l & h & e & HI & HQ). exists o, p, l, h, e. split; [apply in_or_app; auto|exact HQ]. Qed.
Lemma asked_mono_l tr t c id q : has_asked t c id q -> has_asked (tr ++ t) c id q.
Proof. intros (o & p & l & h & e & HI & HQ). exists o, p, l, h, e. split; [apply in_or_app; auto|exact HQ]. Qed.
Lemma sent_mono tr t b up : last_sent tr b up -> (forall p, ~ List.In (Out (Upstream b p)) t) -> last_sent (tr ++ t) b up.
Proof. intros (t1 & t2 & -> & H) HN. exists t1, (t2 ++ t). split; [rewrite <- app_assoc; reflexivity|]. intros p HI. apply in_app_or in HI as [HI|HI]; [exact (H p HI)|exact (HN p HI)]. Qed.
Lemma sent_new tr b up : last_sent (tr ++ [Out (Upstream b up)]) b up.
Proof. exists tr, []. split; [reflexivity|]. intros p []. Qed.

(** ** The invariant of a slot *)
Definition local_ok (tr : list item) (q : option dwstr) (x : local) : Prop :=
  0 <= lo_id x < 65536 /\ lo_open x = true /\ dok (lo_orig x) /\ match q with None => True | Some q => has_asked tr (lo_client x) (lo_id x) (con q) end.
Notation locals_are := waiting (only parsing).
Definition locs_ok (cf : pconf) (tr : list item) (r : remote) : Prop :=
  match re_local r with None => re_open r = false /\ re_timer r = false | Some l => zlen l = num_alloc cf end /\
  re_num r <= Z.max 1 (num_alloc cf - 2) /\ match re_query r with None => True | Some q => qok q end /\
  exists xs, locals_are r xs /\ Forall (local_ok tr (re_query r)) xs.
Definition conn_ok (tr : list item) (b : Z) (r : remote) : Prop :=
  0 <= re_id r < 65536 /\
  (re_open r = true -> match re_query r with None => True | Some q => exists up, last_sent tr b up /\ (glue_sent tr -> id_is up (re_id r)) /\ question up (zlen up) (con q) end).
Definition slot_ok cf tr b r := locs_ok cf tr r /\ conn_ok tr b r.

Lemma num_alloc_range cf : 2 <= num_alloc cf <= 32001.
Proof. unfold num_alloc. destruct (Z.ltb_spec (pc_inflights cf) 1); [lia|]. destruct (Z.ltb_spec 32000 (pc_inflights cf)); lia. Qed.
Lemma locs_mono cf tr t r : locs_ok cf tr r -> locs_ok cf (tr ++ t) r.
Proof.
  intros (H1 & H2 & H3 & xs & H4 & H5). split; [exact H1|]. split; [exact H2|]. split; [exact H3|]. exists xs. split; [exact H4|]. eapply Forall_impl; [|exact H5]. intros x (A & B & C & D). split; [exact A|]. split; [exact B|]. split; [exact C|]. destruct (re_query r); [apply asked_mono; exact D|exact Logic.I].
Qed.
Lemma conn_mono tr t b r : conn_ok tr b r -> (forall p, ~ List.In (Out (Upstream b p)) t) -> conn_ok (tr ++ t) b r.
Proof. intros (H1 & H2) HN. split; [exact H1|]. intros Ho. specialize (H2 Ho). destruct (re_query r); [|exact Logic.I]. destruct H2 as (up & L & I1 & Q1). exists up. split; [apply sent_mono; assumption|]. split; [|exact Q1]. intros HG. apply I1. intros b' e' HI. apply (HG b' e'). apply in_or_app. auto. Qed.
Lemma fresh_ok cf tr b : slot_ok cf tr b (fresh cf).
Proof.
  pose proof (num_alloc_range cf). split; [|split; [cbn; lia|cbn; discriminate]]. split; [split; reflexivity|]. split; [cbn; lia|]. split; [exact Logic.I|]. exists []. split; [split; reflexivity|constructor].
Qed.
Lemma free_ok xs : forall pre rest n, n = length xs -> free_locals n (map At pre ++ map At xs ++ rest) (zlen pre) = Ok tt.
Proof.
  induction xs as [|x xs IH]; intros pre rest n ->; [reflexivity|]. cbn [length free_locals map app]. rewrite aget_app by (rewrite zlen_mapA; reflexivity). cbn [bind].
  specialize (IH (pre ++ [x]) rest (length xs) eq_refl). rewrite map_app, <- app_assoc in IH. cbn [map app] in IH. rewrite zlen_appA in IH. change (zlen [x]) with 1 in IH. exact IH.
Qed.
Lemma reset_ok cf r xs : locals_are r xs -> reset_rem cf r = Ok (fresh cf).
Proof.
  intros (H1 & H2). unfold reset_rem. destruct (re_local r) as [l|]; [|reflexivity]. destruct H1 as (rest & ->). rewrite H2. rewrite (free_ok xs [] rest) by (unfold zlen; lia). reflexivity.
Qed.

(** ** Questions of parts of packets *)
Lemma zlen_zslice_le l i n : 0 <= n -> zlen (zslice l i n) <= n.
Proof. intros H. unfold zslice, zlen. rewrite firstn_length. lia. Qed.
Lemma app_inv_len {A} (a b c d : list A) : length a = length c -> a ++ b = c ++ d -> a = c /\ b = d.
Proof. revert c. induction a as [|x a IH]; intros [|y c] H E; cbn in *; try discriminate; auto. injection E as -> E. destruct (IH c ltac:(lia) E) as (-> & ->). auto. Qed.
Lemma question_agree p len n t0 t1 p' len' : query_name_at p 12 len n -> zslice p (12 + zlen (wire n)) 2 = [t0; t1] -> ~ 65392 <= t0 * 256 + t1 <= 65407 ->
  14 + zlen (wire n) <= len' -> zslice p' 12 (zlen (wire n) + 2) = zslice p 12 (zlen (wire n) + 2) -> question p' len' (wire (lower_name n) ++ [t0; t1]).
Proof.
  intros (G & P & L & E & HZ) Ht Hp Hl HE. pose proof (zlen_wire_pos n). rewrite !zslice_split in HE by lia. rewrite HZ, Ht in HE. exists n, t0, t1.
  assert (zslice p' 12 (zlen (wire n)) = wire n /\ zslice p' (12 + zlen (wire n)) 2 = [t0; t1]) as (E1 & E2).
  { assert (zlen (zslice p' 12 (zlen (wire n))) = zlen (wire n)) as HL.
    { pose proof (f_equal zlen HE) as HL. rewrite !zlen_app in HL. change (zlen [t0; t1]) with 2 in HL. pose proof (zlen_zslice_le p' 12 (zlen (wire n)) ltac:(lia)). pose proof (zlen_zslice_le p' (12 + zlen (wire n)) 2 ltac:(lia)). lia. }
    apply app_inv_len; [apply Nat2Z.inj; exact HL|exact HE]. }
  split; [split; [exact G|]; split; [exact P|]; split; [exact L|]; split; [lia|exact E1]|]. auto.
Qed.
Lemma question_slice p len q : question p len q -> len <= zlen p -> question (zslice p 0 len) len q.
Proof.
  intros (n & t0 & t1 & Hn & Ht & Hp & ->) Hl. pose proof Hn as (_ & _ & _ & E & _). pose proof (zlen_wire_pos n). eapply question_agree; eauto; [lia|]. rewrite zslice_zslice by lia. reflexivity.
Qed.
Lemma question_byte01 p p' len q : (forall j, 12 <= j -> zget p' j = zget p j) -> question p len q -> question p' len q.
Proof. exact (question_ext p p' len q). Qed.

(** ** Sending to an upstream server *)
Lemma set_qid_ok p len id : bytes p -> 12 <= len <= zlen p -> 0 <= id < 65536 -> exists p', set_dns_qid p len id = Ok (id, p') /\ bytes p' /\ zlen p' = zlen p /\ id_is p' id /\ (forall j, 2 <= j -> zget p' j = zget p j).
Proof.
  intros HB Hl Hi. unfold set_dns_qid. replace (len <? 12) with false by lia. rewrite Z.shiftr_div_pow2 by lia. change (2 ^ 8) with 256. replace (u8 (id / 256)) with (id / 256) by (unfold u8; lia). rewrite land_255.
  rewrite wr_ok by lia. cbn [bind]. rewrite wr_ok by (rewrite zlen_zupd; lia). cbn [bind]. eexists. split; [reflexivity|]. split; [repeat apply bytes_zupd; auto; unfold byte; lia|]. split; [rewrite !zlen_zupd; reflexivity|]. split.
  - destruct (twelve p ltac:(lia)) as (a0 & a1 & a2 & a3 & a4 & a5 & a6 & a7 & a8 & a9 & a10 & a11 & rest & ->). exists (id / 256), (id mod 256). split; [reflexivity|lia].
  - intros j Hj. rewrite !zget_zupd_neq by lia. reflexivity.
Qed.
Definition same_slot (r r' : remote) : Prop := re_query r' = re_query r /\ re_local r' = re_local r /\ re_num r' = re_num r.
Lemma u16_range x : 0 <= u16 x < 65536. Proof. unfold u16. lia. Qed.
Lemma connect_ok b r packet len e : bytes packet -> 12 <= len <= zlen packet -> match re_query r with None => True | Some q => question packet len (con q) end ->
  exists z r' p o, make_remote_connection b r packet len e = Ok (z, r', p, o) /\ same_slot r r' /\
    ((z = 1 /\ re_open r' = true /\ exists up, o = [Upstream b up] /\ 0 <= re_id r' < 65536 /\ id_is up (re_id r') /\ match re_query r with None => True | Some q => question up (zlen up) (con q) end) \/
     (z <> 1 /\ re_open r' = re_open r /\ re_id r' = re_id r /\ o = [])).
Proof.
  intros HB Hl HQ. unfold make_remote_connection. destruct (re_open r || (83 <? re_depth r)) eqn:E0.
  { do 4 eexists. split; [reflexivity|]. split; [repeat split|]. right. auto with zarith. }
  destruct (set_qid_ok packet len (u16 (e_rnd e)) HB Hl (u16_range _)) as (p1 & E1 & B1 & L1 & I1 & T1). rewrite E1. cbn [bind]. replace (u16 (e_rnd e) =? -1) with false by (pose proof (u16_range (e_rnd e)); lia).
  destruct (rd_ok p1 2 ltac:(lia)) as (a2 & E2 & Z2). rewrite E2. cbn [bind]. rewrite wr_ok by lia. cbn [bind]. cbn [re_up re_open re_query re_local re_num re_retries re_timer re_id]. set (p2 := zupd p1 2 _).
  destruct (e_addr e =? 0); [do 4 eexists; split; [reflexivity|]; split; [repeat split|]; right; auto with zarith|].
  destruct (e_addr e =? 2); [do 4 eexists; split; [reflexivity|]; split; [repeat split|]; right; auto with zarith|].
  destruct (e_io e); cbn [negb]; [|do 4 eexists; split; [reflexivity|]; split; [repeat split|]; right; auto with zarith].
  do 4 eexists. split; [reflexivity|]. split; [repeat split|]. left. split; [reflexivity|]. split; [reflexivity|]. exists (zslice p2 0 len). split; [reflexivity|]. split; [apply u16_range|]. cbn [re_id].
  assert (zlen p2 = zlen packet) as L2 by (unfold p2; rewrite zlen_zupd; exact L1). assert (forall j, 3 <= j -> zget p2 j = zget packet j) as T2 by (intros j Hj; unfold p2; rewrite zget_zupd_neq by lia; apply T1; lia).
  split.
  - destruct I1 as (x & y & Hs & Hu). exists x, y. split; [|exact Hu]. rewrite zslice_zslice, Z.add_0_l by lia. unfold p2. rewrite zslice_zupd by lia. exact Hs.
  - destruct (re_query r) as [q|]; [|exact Logic.I]. rewrite zlen_zslice by lia. apply question_slice; [|lia]. apply (question_ext packet); [|exact HQ]. intros j Hj. apply T2. lia.
Qed.
(** ... and what that means for the invariant. *)
Lemma same_locs cf tr r r' : same_slot r r' -> re_local r <> None -> locs_ok cf tr r -> locs_ok cf tr r'.
Proof.
  intros (S1 & S2 & S3) HO (H1 & H2 & H3 & xs & (H4 & H4') & H5). unfold locs_ok, waiting. rewrite S1, S2, S3. split.
  - destruct (re_local r); [exact H1|congruence].
  - split; [exact H2|]. split; [exact H3|]. exists xs. auto.
Qed.
Definition upstream_only (b : Z) (o : list out) : Prop := Forall (fun x => exists p, x = Upstream b p) o.
Lemma connect_inv cf tr b r packet len e : bytes packet -> 12 <= len <= zlen packet -> match re_query r with None => True | Some q => question packet len (con q) end ->
  locs_ok cf tr r -> re_local r <> None -> re_open r = false -> 0 <= re_id r < 65536 ->
  exists z r' p o, make_remote_connection b r packet len e = Ok (z, r', p, o) /\ same_slot r r' /\ slot_ok cf (tr ++ map Out o) b r' /\ upstream_only b o /\ (z = 1 -> re_open r' = true).
Proof.
  intros HB Hl HQ HL HN HO HI. destruct (connect_ok b r packet len e HB Hl HQ) as (z & r' & p & o & E & S & H). exists z, r', p, o. split; [exact E|]. split; [exact S|].
  assert (locs_ok cf tr r') as HL' by (eapply same_locs; [exact S| |exact HL]; auto). pose proof S as (S1 & _). destruct H as [(-> & Ho & up & -> & Hr & HU & HQ')|(Hz & Ho & Hi & ->)].
  - split; [split; [apply locs_mono; exact HL'|]|split; [constructor; [eauto|constructor]|auto]]. split; [exact Hr|]. intros _. rewrite S1. destruct (re_query r); [|exact Logic.I]. exists up. split; [apply sent_new|]. split; [auto|]. exact HQ'.
  - cbn [map]. rewrite app_nil_r. split; [split; [exact HL'|]|split; [constructor|intros; contradiction]]. split; [rewrite Hi; exact HI|]. intros Ho'. congruence.
Qed.

(** ** The table *)
Definition Inv (cf : pconf) (tr : list item) (st : list remote) : Prop := forall b r, aget st b = Ok r -> slot_ok cf tr b r.
Definition pend1 (c id : Z) (x : local) : nat := if (lo_client x =? c) && (lo_id x =? id) then 1%nat else O.
Fixpoint sumn (l : list nat) : nat := match l with [] => O | x :: l => (x + sumn l)%nat end.
Lemma sumn_app l m : sumn (l ++ m) = (sumn l + sumn m)%nat.
Proof. induction l; cbn [app sumn]; [reflexivity|]. lia. Qed.
Definition pendp (c id : Z) (p : lptr) : nat := match p with At x => pend1 c id x | _ => O end.
Definition pend (c id : Z) (r : remote) : nat := match re_local r with None => O | Some l => sumn (map (pendp c id) (firstn (Z.to_nat (re_num r)) l)) end.
Definition pends (c id : Z) (st : list remote) : nat := sumn (map (pend c id) st).
Lemma pend_locals c id r xs : locals_are r xs -> pend c id r = sumn (map (pend1 c id) xs).
Proof.
  intros (H1 & H2). unfold pend. destruct (re_local r) as [l|]; [|subst; reflexivity]. destruct H1 as (rest & ->). rewrite H2. rewrite firstn_app. replace (Z.to_nat (zlen xs) - length (map At xs))%nat with 0%nat by (rewrite map_length; unfold zlen; lia).
  rewrite firstn_all2 by (rewrite map_length; unfold zlen; lia). cbn [firstn]. rewrite app_nil_r, map_map. reflexivity.
Qed.
Lemma pend_same c id r r' : same_slot r r' -> pend c id r' = pend c id r.
Proof. intros (_ & H2 & H3). unfold pend. rewrite H2, H3. reflexivity. Qed.
Lemma pend_fresh c id cf : pend c id (fresh cf) = O. Proof. reflexivity. Qed.
Lemma inv_set cf tr t st b r r' : Inv cf tr st -> aget st b = Ok r -> slot_ok cf (tr ++ t) b r' -> (forall b' p, b' <> b -> ~ List.In (Out (Upstream b' p)) t) ->
  exists st', aset st b r' = Ok st' /\ Inv cf (tr ++ t) st' /\ zlen st' = zlen st /\ (forall c id, pends c id st' + pend c id r = pends c id st + pend c id r')%nat /\ aget st' b = Ok r' /\ (forall b', b' <> b -> aget st' b' = aget st b').
Proof.
  intros HI HG HS HN. destruct (aget_split _ _ _ HG) as (u & v & -> & ->). rewrite aset_app by reflexivity. eexists. split; [reflexivity|].
  assert (forall b', b' <> zlen u -> aget (u ++ r' :: v) b' = aget (u ++ r :: v) b') as HD.
  { intros b' Hb'. unfold aget. destruct (Z.ltb_spec b' 0); [reflexivity|]. destruct (Z_lt_dec b' (zlen u)); [rewrite !nth_error_app1 by (unfold zlen in *; lia); reflexivity|]. rewrite !nth_error_app2 by (unfold zlen in *; lia).
    destruct (Z.to_nat b' - length u)%nat as [|k] eqn:Ek; [unfold zlen in *; lia|]. reflexivity. }
  split; [|split; [rewrite !zlen_appA, !zlen_consA; reflexivity|split; [|split; [apply aget_app; reflexivity|exact HD]]]].
  - intros b' r0 H0. destruct (Z.eq_dec b' (zlen u)) as [->|Ne].
    + rewrite aget_app in H0 by reflexivity. injection H0 as <-. exact HS.
    + rewrite HD in H0 by exact Ne. destruct (HI _ _ H0) as (A1 & A2). split; [apply locs_mono; exact A1|apply conn_mono; [exact A2|intros p; apply HN; exact Ne]].
  - intros c id. unfold pends. rewrite !map_app. cbn [map]. rewrite !sumn_app. cbn [sumn]. lia.
Qed.
Lemma inv_mono cf tr t st : Inv cf tr st -> (forall b p, ~ List.In (Out (Upstream b p)) t) -> Inv cf (tr ++ t) st.
Proof. intros HI HN b r H. destruct (HI _ _ H) as (A1 & A2). split; [apply locs_mono; exact A1|apply conn_mono; [exact A2|apply HN]]. Qed.

(** ** Queries of clients *)
Lemma find_free_ok st : forall i b, find_free st i = Some b -> exists r, aget st (b - i) = Ok r /\ re_open r = false /\ re_local r = None /\ i <= b.
Proof.
  induction st as [|r st IH]; intros i b H; cbn [find_free] in H; [discriminate|]. destruct (negb (re_open r) && match re_local r with None => true | Some _ => false end) eqn:E.
  - injection H as <-. exists r. rewrite Z.sub_diag. split; [reflexivity|]. destruct (re_open r), (re_local r); try discriminate. repeat split. lia.
  - destruct (IH (i + 1) b H) as (r' & G & O & L & Hb). exists r'. split; [|repeat split; auto; lia]. unfold aget in *. replace (b - i <? 0) with false by lia. destruct (b - (i + 1) <? 0) eqn:E1; [discriminate|]. replace (Z.to_nat (b - i)) with (S (Z.to_nat (b - (i + 1)))) by lia. exact G.
Qed.
Definition query_fits (packet : list Z) (len : Z) (id : Z) (orig : dwstr) := bytes packet /\ 12 <= len <= zlen packet /\ zlen packet <= 522 /\ 0 <= id < 65536 /\ dok orig.
Lemma find_inflight_ok J cf tr st packet len hint : junk_ok J -> Inv cf tr st -> bytes packet -> 12 <= len <= zlen packet -> zlen packet <= 522 -> match hint with None => True | Some b => 0 <= b < zlen st end ->
  exists j, find_inflight J cf st packet len hint = Ok j /\ match j with None => True | Some b => exists r q, aget st b = Ok r /\ re_open r = true /\ re_query r = Some q /\ question packet len (con q) end.
Proof.
  intros HJ HI HB Hl Hm Hh. unfold find_inflight. destruct ((len <? 12) || (pc_inflights cf <? 2)); [eexists; split; [reflexivity|exact Logic.I]|].
  pose proof (lowered_spec J packet len HJ HB ltac:(lia) ltac:(lia)) as HL. destruct (lowered J packet len) as [[q|]| |f]; try contradiction; cbn [bind]; [|eexists; split; [reflexivity|exact Logic.I]]. destruct HL as (Q & HQ).
  destruct hint as [b|]; [|eexists; split; [reflexivity|exact Logic.I]]. destruct (aget_ok st b Hh) as (r & Er). rewrite Er. cbn [bind]. destruct (re_open r) eqn:Eo; cbn [negb]; [|eexists; split; [reflexivity|exact Logic.I]].
  destruct (HI _ _ Er) as ((_ & _ & HQr & _) & _). destruct (re_query r) as [q'|] eqn:Eq; [|cbn [bind]; eexists; split; [reflexivity|exact Logic.I]].
  rewrite (issame_ok q q' (proj1 Q) (proj1 HQr)). cbn [bind]. destruct (zlist_eqb (con q) (con q')) eqn:E; [|eexists; split; [reflexivity|exact Logic.I]]. apply zlist_eqb_spec in E. eexists. split; [reflexivity|]. exists r, q'. rewrite <- E. auto.
Qed.
Lemma repeat_split {A} (x : A) n : (0 < n)%nat -> exists rest, repeat x n = x :: rest /\ length rest = (n - 1)%nat.
Proof. intros H. destruct n; [lia|]. exists (repeat x n). cbn [repeat]. rewrite repeat_length. split; [reflexivity|lia]. Qed.
Definition asks (c id c' id' : Z) : nat := if (c' =? c) && (id' =? id) then 1%nat else O.
Lemma forward_ok J cf tr st client id orig packet len hint e : junk_ok J -> Inv cf tr st -> query_fits packet len id orig -> match hint with None => True | Some b => 0 <= b < zlen st end ->
  (forall q, question packet len q -> has_asked tr client id q) ->
  exists v st' o, forward J cf st client id orig packet len hint e = Ok (v, st', o) /\ Inv cf (tr ++ map Out o) st' /\ zlen st' = zlen st /\ (exists b, upstream_only b o) /\
    (forall c i, pends c i st' <= pends c i st + asks c i client id)%nat.
Proof.
  intros HJ HI (HB & Hl & Hm & Hid & Dor) Hh HA. unfold forward. cbv zeta. destruct (find_inflight_ok J cf tr st packet len hint HJ HI HB Hl Hm Hh) as (j & -> & Hj). cbn [bind]. pose proof (num_alloc_range cf) as HNA.
  assert (u16 id = id) as Eid by (unfold u16; lia).
  destruct j as [b|].
  - destruct Hj as (r & q & Er & Eo & Eq & HQ). rewrite Er. cbn [bind]. destruct (HI _ _ Er) as ((H1 & H2 & H3 & xs & (H4 & H4') & H5) & HC). destruct (Z.leb_spec (num_alloc cf - 2) (re_num r)) as [Hle|Hgt].
    + do 3 eexists. split; [reflexivity|]. cbn [map]. rewrite app_nil_r. split; [exact HI|]. split; [reflexivity|]. split; [exists 0; constructor|]. intros c i. lia.
    + cbn [re_num re_local re_open re_timer re_id re_query re_retries re_depth re_up]. pose proof (zlenA xs). assert (u16 (re_num r + 1) = re_num r + 1) as E16 by (unfold u16; lia). rewrite !E16. replace (re_num r + 1 =? 0) with false by lia.
      destruct (re_local r) as [l|] eqn:El; [|destruct H1; congruence]. destruct H4 as (rest & ->). destruct rest as [|y rest]; [rewrite zlen_appA, zlen_mapA in H1; change (zlen (@nil lptr)) with 0 in H1; lia|].
      rewrite aset_app by (rewrite zlen_mapA; lia). cbn [bind]. rewrite Eo. cbn [negb]. rewrite Eid.
      match goal with |- context [aset st b ?R] => set (r' := R) end.
      assert (locals_are r' (xs ++ [mklocal client true id orig])) as HL'.
      { split; cbn [re_local re_num r']; [exists rest; rewrite map_app, <- app_assoc; reflexivity|]. rewrite zlen_appA. change (zlen [mklocal client true id orig]) with 1. lia. }
      destruct (inv_set cf tr [] st b r r' HI Er) as (st' & -> & HI' & HZ & HP & _ & _).
      * rewrite app_nil_r. split; [|unfold conn_ok in HC |- *; rewrite Eo in HC; exact HC]. split; [cbn [re_local r']; rewrite zlen_appA, zlen_consA in *; exact H1|]. split; [cbn [re_num r']; lia|]. split; [exact H3|]. exists (xs ++ [mklocal client true id orig]). split; [exact HL'|]. apply Forall_app. split; [exact H5|]. constructor; [|constructor].
        split; [exact Hid|]. split; [reflexivity|]. split; [exact Dor|]. cbn [re_query r']. rewrite Eq. apply HA. exact HQ.
      * intros b' p _ [].
      * cbn [bind]. do 3 eexists. split; [reflexivity|]. split; [exact HI'|]. split; [exact HZ|]. split; [exists 0; constructor|]. intros c i. specialize (HP c i). rewrite (pend_locals c i r xs) in HP by (split; [rewrite El; eauto|lia]). rewrite (pend_locals c i r' _ HL') in HP. rewrite map_app, sumn_app in HP. cbn [map sumn] in HP. unfold pend1 at 3 in HP. cbn [lo_client lo_id] in HP. unfold asks. lia.
  - destruct (find_free st 0) as [b|] eqn:EF.
    2: { do 3 eexists. split; [reflexivity|]. cbn [map]. rewrite app_nil_r. split; [exact HI|]. split; [reflexivity|]. split; [exists 0; constructor|]. intros c i. lia. }
    destruct (find_free_ok st 0 b EF) as (r & Er & Eo & El & _). rewrite Z.sub_0_r in Er. rewrite Er. cbn [bind]. destruct (HI _ _ Er) as ((H1 & H2 & H3 & xs & HLr & H5) & HC). rewrite (reset_ok cf r xs HLr). cbn [bind].
    unfold make_new_udp_connect. change (re_open (fresh cf)) with false. cbv iota. pose proof (lowered_spec J packet len HJ HB ltac:(lia) ltac:(lia)) as HLo. destruct (lowered J packet len) as [q| |f] eqn:Eq; [|contradiction|contradiction]. cbn [bind]. unfold fresh. cbn [re_open re_timer re_id re_num re_retries re_depth re_up].
    set (r1 := mkremote false false 0 q (Some (repeat Unset (Z.to_nat (num_alloc cf)))) 0 (pc_retries cf) 0 false).
    assert (locs_ok cf tr r1) as HL1.
    { split; [cbn [re_local r1]; unfold zlen; rewrite repeat_length; lia|]. split; [cbn [re_num r1]; lia|]. split; [cbn [re_query r1]; destruct q; [exact (proj1 HLo)|exact Logic.I]|]. exists []. split; [split; [exists (repeat Unset (Z.to_nat (num_alloc cf))); reflexivity|reflexivity]|constructor]. }
    assert (match q with None => True | Some q => question packet len (con q) end) as HQ by (destruct q; [exact (proj2 HLo)|exact Logic.I]).
    destruct (connect_inv cf tr b r1 packet len e HB Hl) as (z & r2 & p & o & E2 & S2 & HS2 & HU & Hz1); auto; try (cbn [re_id r1]; lia); [cbn [re_local r1]; discriminate|].
    assert (pend 0 0 r = 0%nat \/ True) as _ by auto.
    assert (forall c i, pend c i r = O) as HPr by (intros c i; unfold pend; rewrite El; reflexivity).
    rewrite E2. cbn [bind]. pose proof S2 as (S21 & S22 & S23). cbn [re_query re_local re_num r1] in S21, S22, S23.
    assert (forall b' p, b' <> b -> ~ List.In (Out (Upstream b' p)) (map Out o)) as HNU.
    { intros b' p' Hb' HIn. apply in_map_iff in HIn as (x & Ex & Hx). injection Ex as ->. unfold upstream_only in HU. rewrite Forall_forall in HU. destruct (HU _ Hx) as (p'' & Ep). congruence. }
    destruct (Z.eqb_spec z 1) as [->|Nz]; cbn [negb bind].
    + change (1 =? 2) with false. cbv iota. cbn [re_num re_local re_open re_timer re_id re_query re_retries re_depth re_up]. change (1 =? 0) with false. cbv iota. specialize (Hz1 eq_refl).
      destruct (repeat_split Null (Z.to_nat (num_alloc cf)) ltac:(lia)) as (rest & ER & LR). rewrite ER. change (1 - 1) with 0. change (Null :: rest) with ([] ++ Null :: rest). rewrite aset_app by reflexivity. cbn [bind app]. rewrite Hz1. cbn [negb]. rewrite Eid.
      match goal with |- context [aset st b ?R] => set (r' := R) end.
      assert (locals_are r' [mklocal client true id orig]) as HL' by (split; cbn [re_local re_num r']; [exists rest; reflexivity|reflexivity]).
      destruct HS2 as (_ & HC2). destruct (inv_set cf tr (map Out o) st b r r' HI Er) as (st' & -> & HI' & HZ & HP & _ & _); auto.
      * split; [|unfold conn_ok in HC2 |- *; rewrite Hz1 in HC2; exact HC2]. split; [cbn [re_local r']; rewrite zlen_consA; unfold zlen; lia|]. split; [cbn [re_num r']; lia|]. split; [cbn [re_query r']; rewrite S21; destruct q; [exact (proj1 HLo)|exact Logic.I]|]. eexists. split; [exact HL'|]. constructor; [|constructor]. split; [exact Hid|]. split; [reflexivity|]. split; [exact Dor|].
        cbn [re_query r']. rewrite S21. destruct q; [|exact Logic.I]. apply asked_mono. apply HA. exact HQ.
      * cbn [bind]. do 3 eexists. split; [reflexivity|]. split; [exact HI'|]. split; [exact HZ|]. split; [exists b; exact HU|]. intros c i. specialize (HP c i). rewrite (HPr c i), (pend_locals c i r' _ HL') in HP. cbn [map sumn] in HP. unfold pend1 in HP. cbn [lo_client lo_id] in HP. unfold asks. lia.
    + destruct (Z.eqb_spec z 2) as [->|N2].
      * destruct (inv_set cf tr (map Out o) st b r r2 HI Er HS2 HNU) as (st' & -> & HI' & HZ & HP & _ & _). cbn [bind]. do 3 eexists. split; [reflexivity|]. split; [exact HI'|]. split; [exact HZ|]. split; [exists b; exact HU|]. intros c i. specialize (HP c i). rewrite (HPr c i), (pend_same c i r1 r2 S2) in HP. cbn in HP. lia.
      * rewrite S23. change (0 =? 0) with true. cbv iota. destruct HS2 as ((_ & _ & _ & ys & HLy & _) & _). rewrite (reset_ok cf r2 ys HLy). cbn [bind].
        destruct (inv_set cf tr (map Out o) st b r (fresh cf) HI Er (fresh_ok cf _ b) HNU) as (st' & -> & HI' & HZ & HP & _ & _). cbn [bind]. do 3 eexists. split; [reflexivity|]. split; [exact HI'|]. split; [exact HZ|]. split; [exists b; exact HU|]. intros c i. specialize (HP c i). rewrite (HPr c i), pend_fresh in HP. lia.
Qed.

(** ** Replies *)
Definition buf (a : list Z) : Prop := bytes a /\ zlen a = 520.
Definition not_tc (a : list Z) : Prop := exists a2, zget a 2 = Some a2 /\ Z.land a2 2 = 0.
Lemma cut_not_tc hack a count : buf a -> not_tc a -> cut_truncated hack a count = Ok (Some (a, count)).
Proof.
  intros (HB & HL) (a2 & E2 & H2). unfold cut_truncated. rewrite (rd_of_zget _ _ _ E2). cbn [bind]. destruct (rd_ok a 7 ltac:(lia)) as (a7 & E7 & _). rewrite E7. cbn [bind]. rewrite H2. reflexivity.
Qed.
Lemma question_12 a c q : question a c q -> 15 <= c.
Proof. intros (n & t0 & t1 & (_ & _ & _ & E & _) & _). pose proof (zlen_wire_pos n). lia. Qed.
Lemma reply_ok J a count x q : junk_ok J -> buf a -> count <= 512 -> question a count q -> exists query, send_reply_from_cache J a count x = Ok [Cached (lo_client x) (lo_id x) query (lo_orig x)] /\ con query = q /\ qok query.
Proof.
  intros HJ (HB & HL) Hc HQ. unfold send_reply_from_cache. pose proof (lowered_spec J a count HJ HB ltac:(lia) ltac:(lia)) as HS. unfold lowered in HS. destruct (dw_get_dname_type J a 12 count) as [s| |f]; [| |contradiction].
  - destruct (dwc_lower_case s) as [(c & s')| |f]; [|contradiction|contradiction]. cbn [bind] in *. destruct HS as (Q & HQ'). exists s'. split; [reflexivity|]. split; [eapply question_unique; eassumption|exact Q].
  - exfalso. exact (HS _ HQ).
Qed.
Definition cached_to (q : list Z) (x : local) (o : out) : Prop := exists query, o = Cached (lo_client x) (lo_id x) query (lo_orig x) /\ con query = q /\ qok query.
Lemma set_qid_buf a count id q : buf a -> 12 <= count <= 512 -> 0 <= id < 65536 -> question a count q -> not_tc a -> exists a', set_dns_qid a count (u16 id) = Ok (u16 id, a') /\ buf a' /\ question a' count q /\ not_tc a' /\ (forall c, question a c q -> question a' c q).
Proof.
  intros (HB & HL) Hc Hi HQ (a2 & E2 & H2). replace (u16 id) with id by (unfold u16; lia). destruct (set_qid_ok a count id HB ltac:(lia) Hi) as (a' & -> & B' & L' & I' & T'). exists a'. split; [reflexivity|]. split; [split; [exact B'|lia]|].
  assert (forall c, question a c q -> question a' c q) as HX by (intros c; apply question_ext; intros j Hj; apply T'; lia). split; [apply HX; exact HQ|]. split; [exists a2; rewrite T' by lia; auto|exact HX].
Qed.
(** A reply that is not truncated and that was kept: every client that waits gets it. *)
Lemma core_cached J cf b r l code count q xs : junk_ok J -> re_local r = Some l -> 0 <= code < 16 -> count <= 512 ->
  forall pre rest a es keep, l = map At pre ++ map At xs ++ rest -> Forall (fun x => 0 <= lo_id x < 65536) xs -> buf a -> not_tc a -> question a count q ->
  exists o, core_loop J cf b (length xs) (zlen pre) r a count code es keep = Ok (false, keep, r, o) /\ Forall2 (cached_to q) xs o.
Proof.
  intros HJ El Hcode Hc. induction xs as [|x xs IH]; intros pre rest a es keep Hl HF Hb Htc HQ.
  - exists []. split; [reflexivity|constructor].
  - cbn [length core_loop]. pose proof (question_12 _ _ _ HQ). inversion HF as [|? ? Hx HF']; subst. unfold rem_core. replace (count <? 12) with false by lia. rewrite El. cbn [map app]. rewrite aget_app by (rewrite zlen_mapA; reflexivity). cbn [bind].
    rewrite (cut_not_tc _ _ _ Hb Htc). cbn [bind]. destruct Htc as (a2 & E2 & H2). rewrite (rd_of_zget _ _ _ E2). cbn [bind]. rewrite H2. change (negb (0 =? 0)) with false. cbv iota. replace (code =? -2) with false by lia. replace (code <? 0) with false by lia. replace (16 <=? code) with false by lia.
    destruct (set_qid_buf a count (lo_id x) q Hb ltac:(lia) Hx HQ ltac:(exists a2; auto)) as (a' & -> & Hb' & HQ' & Htc' & _). cbn [bind].
    destruct (reply_ok J a' count x q HJ Hb' Hc HQ') as (query & -> & Cq & Qq). cbn [bind]. change (1 =? -1) with false. change (1 =? 3) with false. cbv iota. rewrite orb_false_r.
    destruct (IH (pre ++ [x]) rest a' (tl es) keep) as (o & Eo & Ho); auto. { rewrite map_app, <- app_assoc. reflexivity. }
    rewrite zlen_appA in Eo. change (zlen [x]) with 1 in Eo. rewrite Eo. cbn [bind]. eexists. split; [reflexivity|]. cbn [app]. constructor; [exists query; auto|exact Ho].
Qed.
(** In general: all get it, or nothing happens. *)
Lemma core_cached_gen J cf b r l code count q xs rest a es : junk_ok J -> re_local r = Some l -> 0 <= code < 16 -> count <= 512 -> l = map At xs ++ rest -> Forall (fun x => 0 <= lo_id x < 65536) xs -> buf a -> question a count q ->
  (exists o, core_loop J cf b (length xs) 0 r a count code es false = Ok (false, false, r, o) /\ Forall2 (cached_to q) xs o) \/
  core_loop J cf b (length xs) 0 r a count code es false = Ok (true, false, r, []).
Proof.
  intros HJ El Hcode Hc -> HF Hb HQ. destruct xs as [|x xs]; [left; exists []; split; [reflexivity|constructor]|]. pose proof (question_12 _ _ _ HQ). inversion HF as [|? ? Hx HF']; subst. cbn [length core_loop].
  unfold rem_core. replace (count <? 12) with false by lia. rewrite El. cbn [map app]. change (At x :: map At xs ++ rest) with ([] ++ At x :: map At xs ++ rest). rewrite aget_app by reflexivity. cbn [bind].
  destruct (cut_truncated_ok (pc_hack cf) a count q (proj1 Hb) ltac:(destruct Hb; lia) ltac:(destruct Hb; lia) HQ) as (c & -> & Hcut). cbn [bind]. destruct c as [(a' & c)|]; [|right; reflexivity].
  destruct Hcut as (B' & (L' & T') & Hc' & HQ'). assert (buf a') as Hb' by (split; [exact B'|destruct Hb; lia]). destruct (rd_ok a' 2 ltac:(destruct Hb'; lia)) as (a2 & E2 & Z2). rewrite E2. cbn [bind]. destruct (Z.eqb_spec (Z.land a2 2) 0) as [H2|H2]; cbn [negb]; [|right; reflexivity].
  replace (code =? -2) with false by lia. replace (code <? 0) with false by lia. replace (16 <=? code) with false by lia. pose proof (question_12 _ _ _ HQ').
  destruct (set_qid_buf a' c (lo_id x) q Hb' ltac:(lia) Hx HQ' ltac:(exists a2; auto)) as (a'' & -> & Hb'' & HQ'' & Htc'' & HX). cbn [bind].
  destruct (reply_ok J a'' c x q HJ Hb'' ltac:(lia) HQ'') as (query & -> & Cq & Qq). cbn [bind]. change (1 =? -1) with false. change (1 =? 3) with false. cbv iota. cbn [orb].
  destruct (core_cached J cf b r (map At (x :: xs) ++ rest) code count q xs HJ El Hcode Hc [x] rest a'' (tl es) false eq_refl HF' Hb'' Htc'') as (o & Eo & Ho).
  { apply HX. apply (question_ext a); [|exact HQ]. intros j Hj. apply T'. auto. }
  left. change (zlen [x]) with 1 in Eo. change (0 + 1) with 1. rewrite Eo. cbn [bind]. eexists. split; [reflexivity|]. constructor; [exists query; auto|exact Ho].
Qed.

(** The answer that there is no address, for every client. *)
Definition packet_to (q : list Z) (x : local) (o : out) : Prop := exists p, o = Packet (lo_client x) p /\ id_is p (lo_id x) /\ idof p = lo_id x /\ question p (zlen p) q.
Lemma hi_lo id : 0 <= id < 65536 -> Z.land (Z.shiftr id 8) 255 = id / 256 /\ Z.land id 255 = id mod 256.
Proof. intros H. rewrite !land_255, Z.shiftr_div_pow2 by lia. change (2 ^ 8) with 256. split; [apply Z.mod_small; lia|reflexivity]. Qed.
Lemma not_there_loop_ok count q xs : 15 <= count ->
  forall pre rest answer, Forall (fun x => 0 <= lo_id x < 65536 /\ lo_open x = true) xs -> bytes answer -> count + 40 <= zlen answer -> question (zslice answer 0 (count + 40)) (count + 40) q ->
  exists o, not_there_loop (length xs) (zlen pre) answer count (map At pre ++ map At xs ++ rest) = Ok o /\ Forall2 (packet_to q) xs o.
Proof.
  intros Hc. induction xs as [|x xs IH]; intros pre rest answer HF HB Hz HQ; [exists []; split; [reflexivity|constructor]|]. inversion HF as [|? ? (Hx & Hxo) HF']; subst. cbn [length not_there_loop map app]. rewrite aget_app by (rewrite zlen_mapA; reflexivity). cbn [bind].
  destruct (hi_lo (lo_id x) Hx) as (-> & ->). rewrite wr_ok by lia. cbn [bind]. rewrite wr_ok by (rewrite zlen_zupd; lia). cbn [bind]. set (a' := zupd (zupd answer 0 _) 1 _). assert (zlen a' = zlen answer) as La by (unfold a'; rewrite !zlen_zupd; reflexivity).
  unfold sendto. replace (zlen a' <? count + 40) with false by lia. cbn [bind]. unfold forward_remote_reply. rewrite aget_app by (rewrite zlen_mapA; reflexivity). cbn [bind]. rewrite Hxo. cbn [negb]. rewrite aset_app by (rewrite zlen_mapA; reflexivity). cbn [bind].
  assert (question (zslice a' 0 (count + 40)) (count + 40) q) as HQ'.
  { apply (question_ext (zslice answer 0 (count + 40))); [|exact HQ]. intros j Hj. destruct (Z_lt_dec j (count + 40)).
    - rewrite !zget_zslice by lia. unfold a'. rewrite !zget_zupd_neq by lia. reflexivity.
    - rewrite !(proj2 (zget_none _ _)) by (right; rewrite zlen_zslice by lia; lia). reflexivity. }
  destruct (IH (pre ++ [mklocal (lo_client x) false (lo_id x) (lo_orig x)]) rest a' HF') as (o & Eo & Ho); auto.
  { unfold a'. repeat apply bytes_zupd; auto; unfold byte; lia. } { lia. }
  rewrite map_app, <- app_assoc in Eo. cbn [map app] in Eo. rewrite zlen_appA in Eo. change (zlen [mklocal (lo_client x) false (lo_id x) (lo_orig x)]) with 1 in Eo. rewrite Eo. cbn [bind]. eexists. split; [reflexivity|]. cbn [app]. constructor; [|exact Ho].
  exists (zslice a' 0 (count + 40)). split; [reflexivity|]. destruct (twelve answer ltac:(lia)) as (a0 & a1 & a2 & a3 & a4 & a5 & a6 & a7 & a8 & a9 & a10 & a11 & r & Ea).
  assert (zslice a' 0 2 = [lo_id x / 256; lo_id x mod 256]) as E2 by (unfold a'; rewrite Ea; reflexivity).
  assert (exists tl, zslice a' 0 (count + 40) = lo_id x / 256 :: lo_id x mod 256 :: tl) as (tl & Etl). { exists (zslice a' 2 (count + 38)). replace (count + 40) with (2 + (count + 38)) by lia. rewrite zslice_split by lia. rewrite E2. reflexivity. }
  split; [exists (lo_id x / 256), (lo_id x mod 256); split; [rewrite zslice_zslice by lia; exact E2|lia]|]. split; [rewrite Etl; unfold idof; lia|]. rewrite zlen_zslice by lia. exact HQ'.
Qed.
Lemma not_there_ok J cf r l a count q xs rest : junk_ok J -> re_local r = Some l -> l = map At xs ++ rest -> re_num r = zlen xs -> Forall (fun x => 0 <= lo_id x < 65536 /\ lo_open x = true) xs -> buf a -> count <= 512 -> question a count q ->
  (exists o, make_synth_not_there J cf r a count = Ok (fresh cf, o) /\ Forall2 (packet_to q) xs o) \/ make_synth_not_there J cf r a count = Ok (r, []).
Proof.
  intros HJ El -> Hn HF Hb Hc HQ. pose proof (question_12 _ _ _ HQ) as H12. pose proof HQ as (n & t0 & t1 & Hqn & Ht & Hp & Eq). unfold make_synth_not_there. rewrite El. replace (count <? 12) with false by lia. unfold make_synth_not_there_answer.
  pose proof (synth_question J a count not_there 40 n HJ (proj1 Hb) ltac:(apply bytesb_spec; reflexivity) ltac:(destruct Hb; lia) ltac:(vm_compute; intuition congruence) ltac:(lia) Hqn) as HS. destruct (Z.leb_spec (16 + zlen (wire n)) count) as [Hle|Hgt]; [|rewrite HS; right; reflexivity].
  destruct HS as (ans & -> & La & Ba & Ha). cbn [bind]. pose proof (zlen_wire_pos n) as HW. set (cc := 16 + zlen (wire n)) in *. left. unfold or_at.
  destruct (rd_ok ans 2 ltac:(lia)) as (x2 & E2 & Z2). pose proof (zget_bytes _ _ _ Ba Z2) as Hx2. rewrite E2. cbn [bind].
  assert (byte (u8 (Z.lor x2 128))) as Hb2 by (unfold byte, u8; lia).
  destruct (same_wr ans 2 (u8 (Z.lor x2 128)) Ba Hb2 ltac:(lia) ltac:(lia)) as (b1 & -> & S1 & B1). cbn [bind]. assert (zlen b1 = zlen ans) as L1 by apply S1.
  destruct (same_wr b1 9 1 B1 ltac:(apply byte_const; lia) ltac:(lia) ltac:(lia)) as (b2 & -> & S2 & B2). cbn [bind]. assert (zlen b2 = zlen ans) as L2 by (rewrite <- L1; apply S2).
  destruct (same_wr b2 11 0 B2 ltac:(apply byte_const; lia) ltac:(lia) ltac:(lia)) as (b3 & -> & S3 & B3). cbn [bind]. assert (zlen b3 = zlen ans) as L3 by (rewrite <- L2; apply S3).
  destruct (same_wr b3 10 0 B3 ltac:(apply byte_const; lia) ltac:(lia) ltac:(lia)) as (b4 & -> & S4 & B4). cbn [bind]. assert (zlen b4 = zlen ans) as L4 by (rewrite <- L3; apply S4).
  destruct (same_wr b4 8 0 B4 ltac:(apply byte_const; lia) ltac:(lia) ltac:(lia)) as (b5 & -> & S5 & B5). cbn [bind]. assert (zlen b5 = zlen ans) as L5 by (rewrite <- L4; apply S5).
  destruct (same_wr b5 7 0 B5 ltac:(apply byte_const; lia) ltac:(lia) ltac:(lia)) as (b6 & -> & S6 & B6). cbn [bind]. assert (zlen b6 = zlen ans) as L6 by (rewrite <- L5; apply S6).
  destruct (same_wr b6 6 0 B6 ltac:(apply byte_const; lia) ltac:(lia) ltac:(lia)) as (b7 & -> & S7 & B7). cbn [bind]. assert (zlen b7 = zlen ans) as L7 by (rewrite <- L6; apply S7).
  assert (same_tail ans b7) as S by (repeat (eapply same_trans; [eassumption|]); apply same_refl). clear S1 S2 S3 S4 S5 S6 S7 B1 B2 B3 B4 B5 B6 L1 L2 L3 L4 L5 L6.
  assert (question (zslice b7 0 (cc + 40)) (cc + 40) q) as HQ7.
  { rewrite Eq. apply (question_agree a count n t0 t1); auto; [lia|]. rewrite zslice_zslice by lia. rewrite (zslice_ext ans b7) by (try lia; intros j Hj; apply (proj2 S); right; lia).
    apply (f_equal (fun l => zslice l 12 (zlen (wire n) + 2))) in Ha. rewrite zslice_zslice in Ha by lia. rewrite zslice_app_l in Ha by (rewrite ?zlen_zslice; try lia; destruct Hb; lia). rewrite zslice_zslice in Ha by lia. exact Ha. }
  destruct (not_there_loop_ok cc q xs ltac:(lia) [] rest b7 HF B7 ltac:(lia) HQ7) as (o & Eo & Ho). change (zlen (@nil local)) with 0 in Eo. cbn [map app] in Eo.
  replace (Z.to_nat (re_num r)) with (length xs) by (rewrite Hn; unfold zlen; lia). rewrite Eo. cbn [bind]. rewrite (reset_ok cf r xs) by (split; [rewrite El; eauto|exact Hn]). cbn [bind]. exists o. auto.
Qed.

(** ** Referrals *)
Lemma question_unslice p len q : question (zslice p 0 len) len q -> len <= zlen p -> question p len q.
Proof.
  intros (n & t0 & t1 & Hn & Ht & Hp & ->) Hl. pose proof Hn as (_ & _ & _ & E & _). pose proof (zlen_wire_pos n). eapply question_agree; eauto; [lia|]. rewrite zslice_zslice by lia. reflexivity.
Qed.
Lemma ask_mem id flags q p : qok q -> dok p -> con p = ask_bytes id flags (con q) -> question (d_mem p) (d_len p) (con q) /\ bytes (d_mem p) /\ 12 <= d_len p <= zlen (d_mem p).
Proof.
  intros HQ D C. pose proof D as [[B L M Me] K]. pose proof (zlen_con p (dok_dwf p D)) as Lc. pose proof (ask_question id flags q HQ) as HA. rewrite <- C, Lc in HA. split; [apply question_unslice; [exact HA|lia]|]. split; [exact B|]. split; [pose proof (question_12 _ _ _ HA); lia|lia].
Qed.
Lemma refer_ok J cf tr b r q e : junk_ok J -> slot_ok cf tr b r -> re_query r = Some q -> re_local r <> None ->
  exists r' o, refer_connect J b r e = Ok (r', o) /\ slot_ok cf (tr ++ map Out o) b r' /\ same_slot r r' /\ upstream_only b o.
Proof.
  intros HJ HS Eq HN. unfold refer_connect. destruct e as [e|]; [|do 2 eexists; split; [reflexivity|]; cbn [map]; rewrite app_nil_r; split; [exact HS|]; split; [repeat split|constructor]].
  destruct HS as (HL & HC & _). pose proof HL as (_ & _ & HQ & _). rewrite Eq in HQ. destruct (ask_ok J (re_id r) 0 q HJ ltac:(lia) HQ) as (p0 & p1 & p2 & E0 & E1 & E2 & D2 & C2 & L2). rewrite E0, Eq, E1. cbn [bind]. change (0 =? -1) with false. cbv iota. rewrite E2. cbn [bind]. change (0 =? -1) with false. cbv iota.
  destruct (ask_mem _ _ _ _ HQ D2 C2) as (HQ2 & B2 & Hl2). set (r1 := mkremote false true (re_id r) (Some q) (re_local r) (re_num r) (re_retries r) (re_depth r) (re_up r)).
  assert (same_slot r r1) as S1 by (split; [cbn [re_query r1]; auto|split; reflexivity]).
  destruct (connect_inv cf tr b r1 (d_mem p2) (d_len p2) e B2 Hl2) as (z & r' & p & o & E & S & HS' & HU & _); auto. { eapply same_locs; eassumption. }
  rewrite E. cbn [bind]. exists r', o. split; [reflexivity|]. split; [exact HS'|]. split; [|exact HU]. destruct S as (A & B & C), S1 as (A1 & B1 & C1). split; [congruence|]. split; congruence.
Qed.
Lemma same_slot_refl r : same_slot r r. Proof. repeat split. Qed.
Lemma same_slot_trans a b c : same_slot a b -> same_slot b c -> same_slot a c.
Proof. intros (A & B & C) (A1 & B1 & C1). split; [congruence|]. split; congruence. Qed.
Lemma same_locals r r' xs : same_slot r r' -> locals_are r xs -> locals_are r' xs.
Proof. intros (_ & H1 & H2) (H3 & H4). unfold waiting. rewrite H1, H2. auto. Qed.
Lemma map_Out_app o o' : map Out (o ++ o') = map Out o ++ map Out o'. Proof. apply map_app. Qed.
Lemma core_refer J cf b q code count xs : junk_ok J -> 16 <= code \/ (code < 0 /\ code <> -2) -> count <= 512 ->
  forall n tr pre r a es keep, slot_ok cf tr b r -> re_query r = Some q -> re_local r <> None -> locals_are r (pre ++ xs) -> n = length xs -> buf a -> question a count (con q) ->
  exists g k r' o, core_loop J cf b n (zlen pre) r a count code es keep = Ok (g, k, r', o) /\ slot_ok cf (tr ++ map Out o) b r' /\ same_slot r r' /\ upstream_only b o /\ ((0 < n)%nat -> g = false -> k = true) /\ (keep = true -> k = true).
Proof.
  intros HJ Hcode Hc. induction xs as [|x xs IH]; intros n tr pre r a es keep HS Eq HN HL -> Hb HQ.
  - cbn [length core_loop]. do 4 eexists. split; [reflexivity|]. cbn [map]. rewrite app_nil_r. split; [exact HS|]. split; [apply same_slot_refl|]. split; [constructor|]. split; [lia|auto].
  - cbn [length core_loop]. pose proof (question_12 _ _ _ HQ). unfold rem_core. replace (count <? 12) with false by lia. destruct (re_local r) as [l|] eqn:El; [|congruence]. pose proof HL as (HL1 & HL2). rewrite El in HL1. destruct HL1 as (rest & ->). rewrite map_app, <- app_assoc. cbn [map app]. rewrite aget_app by (rewrite zlen_mapA; reflexivity). cbn [bind].
    assert (exists g k r' o, Ok (true, keep, r, []) = Ok (g, k, r', o) /\ slot_ok cf (tr ++ map Out o) b r' /\ same_slot r r' /\ upstream_only b o /\ ((0 < S (length xs))%nat -> g = false -> k = true) /\ (keep = true -> k = true)) as HG'.
    { do 4 eexists. split; [reflexivity|]. cbn [map]. rewrite app_nil_r. split; [exact HS|]. split; [apply same_slot_refl|]. split; [constructor|]. split; [discriminate|auto]. }
    destruct (cut_truncated_ok (pc_hack cf) a count (con q) (proj1 Hb) ltac:(destruct Hb; lia) ltac:(destruct Hb; lia) HQ) as (c & -> & Hcut). cbn [bind]. destruct c as [(a' & c)|]; [|exact HG'].
    destruct Hcut as (B' & (L' & T') & Hc' & HQ'). assert (buf a') as Hb' by (split; [exact B'|destruct Hb; lia]). destruct (rd_ok a' 2 ltac:(destruct Hb'; lia)) as (a2 & E2 & Z2). rewrite E2. cbn [bind]. destruct (Z.eqb_spec (Z.land a2 2) 0) as [H2|H2]; cbn [negb]; [|exact HG'].
    replace (code =? -2) with false by lia. destruct (Z.ltb_spec code 0); [exact HG'|]. replace (16 <=? code) with true by lia.
    destruct (refer_ok J cf tr b r q (hd None es) HJ HS Eq ltac:(rewrite El; discriminate)) as (r1 & o1 & -> & HS1 & S1 & HU1). cbn [bind]. change (3 =? -1) with false. change (3 =? 3) with true. cbv iota. rewrite orb_true_r.
    destruct (IH (length xs) (tr ++ map Out o1) (pre ++ [x]) r1 a' (tl es) true) as (g & k & r' & o & E & HS' & S' & HU' & _ & HK); auto.
    { destruct S1 as (-> & _). exact Eq. } { destruct S1 as (_ & -> & _). rewrite El. discriminate. } { rewrite <- app_assoc. cbn [app]. eapply same_locals; eassumption. }
    { apply (question_ext a); [|exact HQ]. intros j Hj. apply T'. auto. }
    rewrite zlen_appA in E. change (zlen [x]) with 1 in E. rewrite E. cbn [bind]. exists g, k, r', (o1 ++ o). split; [reflexivity|]. rewrite map_Out_app, app_assoc. split; [exact HS'|]. split; [eapply same_slot_trans; eassumption|]. split; [apply Forall_app; auto|]. split; auto.
Qed.

(** ** A packet on the socket of a slot *)
Definition matches (r : remote) (a : list Z) (count : Z) (q : dwstr) : Prop := re_query r = Some q /\ 12 <= count <= 512 /\ id_is a (re_id r) /\ has_sections a /\ question a count (con q).
Lemma or2_ok a : buf a -> exists a', or_at a 2 128 = Ok a' /\ buf a' /\ (forall j, j <> 2 -> zget a' j = zget a j).
Proof.
  intros (HB & HL). unfold or_at. destruct (rd_ok a 2 ltac:(lia)) as (x & -> & Zx). cbn [bind]. rewrite wr_ok by lia. eexists. split; [reflexivity|]. split; [split; [apply bytes_zupd; [exact HB|unfold byte, u8; lia]|rewrite zlen_zupd; exact HL]|]. intros j Hj. apply zget_zupd_neq; lia.
Qed.
Lemma ids_same a a' id : 12 <= zlen a -> zlen a' = zlen a -> (forall j, j <> 2 -> zget a' j = zget a j) -> (id_is a' id <-> id_is a id) /\ (has_sections a' <-> has_sections a).
Proof.
  intros Hz Hz' H. assert (zslice a' 0 2 = zslice a 0 2) as E1.
  { apply zlist_ext; [rewrite !zlen_zslice by lia; reflexivity|]. intros j Hj. rewrite zlen_zslice in Hj by lia. rewrite !zget_zslice by lia. apply H. lia. }
  assert (zslice a' 4 8 = zslice a 4 8) as E2.
  { apply zlist_ext; [rewrite !zlen_zslice by lia; reflexivity|]. intros j Hj. rewrite zlen_zslice in Hj by lia. rewrite !zget_zslice by lia. apply H. lia. }
  unfold id_is, has_sections. rewrite E1, E2. split; reflexivity.
Qed.
Lemma get_remote_ok J cf tr b r a count code es xs : junk_ok J -> slot_ok cf tr b r -> re_open r = true -> locals_are r xs -> Forall (local_ok tr (re_query r)) xs -> buf a ->
  (exists q, matches r a count q /\ exists r' o, get_remote_udp_packet J cf b r a count code es = Ok (r', o) /\
     ((r' = fresh cf /\ Forall2 (cached_to (con q)) xs o) \/ (r' = fresh cf /\ Forall2 (packet_to (con q)) xs o) \/
      (slot_ok cf (tr ++ map Out o) b r' /\ same_slot r r' /\ upstream_only b o))) \/
  ((forall q, ~ matches r a count q) /\ get_remote_udp_packet J cf b r a count code es = Ok (r, [])).
Proof.
  intros HJ HS Ho HLx HFx Hb. assert (re_local r <> None) as HNN by (pose proof HS as ((HLo & _) & _); destruct (re_local r); [discriminate|destruct HLo; congruence]). unfold get_remote_udp_packet. destruct ((count <? 12) || (512 <? count)) eqn:E0.
  { right. split; [|reflexivity]. intros q (_ & H & _). lia. }
  destruct (or2_ok a Hb) as (a' & -> & Hb' & HT). cbn [bind]. pose proof HS as ((HLo & _ & HQr & _) & HI & _). destruct (ids_same a a' (re_id r) ltac:(destruct Hb; lia) ltac:(destruct Hb, Hb'; lia) HT) as (Hid & Hsec).
  destruct (verify_spec J (re_id r) (re_query r) a' count HJ (proj1 Hb') ltac:(destruct Hb'; lia) ltac:(lia) ltac:(lia)) as (v & -> & Hv). { destruct (re_query r); [exact (proj1 HQr)|exact Logic.I]. }
  cbn [bind]. assert (forall q, question a' count q <-> question a count q) as HQQ by (intros q; split; apply question_ext; intros j Hj; [symmetry|]; apply HT; lia).
  destruct v; cbn [negb].
  2: { right. split; [|reflexivity]. intros q (Eq & H & H1 & H2 & H3). assert (false = true) as HX; [|discriminate]. apply Hv. rewrite Eq. split; [apply Hid; exact H1|]. split; [apply Hsec; exact H2|]. apply HQQ. exact H3. }
  left. destruct (proj1 Hv eq_refl) as (H1 & H2 & H3). destruct (re_query r) as [q|] eqn:Eq; [|contradiction]. exists q. split; [split; [exact Eq|]; split; [lia|]; split; [apply Hid; exact H1|]; split; [apply Hsec; exact H2|]; apply HQQ; exact H3|].
  pose proof HLx as (HL1 & HL2). destruct (re_local r) as [l|] eqn:El; [|congruence]. destruct HL1 as (rest & HLl). replace (Z.to_nat (re_num r)) with (length xs) by (rewrite HL2; unfold zlen; lia).
  assert (Forall (fun x => 0 <= lo_id x < 65536) xs) as HF1 by (eapply Forall_impl; [|exact HFx]; intros x (A & _); exact A).
  assert (Forall (fun x => 0 <= lo_id x < 65536 /\ lo_open x = true) xs) as HF2 by (eapply Forall_impl; [|exact HFx]; intros x (A & B & _); auto).
  assert (reset_rem cf r = Ok (fresh cf)) as ER by (eapply reset_ok; exact HLx).
  assert (exists r' o, (exists r' o, Ok (r, []) = Ok (r', o) /\ (r' = fresh cf /\ Forall2 (cached_to (con q)) xs o \/ r' = fresh cf /\ Forall2 (packet_to (con q)) xs o \/ slot_ok cf (tr ++ map Out o) b r' /\ same_slot r r' /\ upstream_only b o)) /\ r' = r /\ o = @nil out) as (_ & _ & HG & _).
  { exists r, []. split; [|auto]. exists r, []. split; [reflexivity|]. right. right. cbn [map]. rewrite app_nil_r. split; [exact HS|]. split; [apply same_slot_refl|constructor]. }
  destruct (Z_lt_dec code 16) as [Hc16|Hc16]; [destruct (Z_lt_dec code 0) as [Hc0|Hc0]|].
  - destruct (Z.eq_dec code (-2)) as [->|Hc2].
    + destruct xs as [|x xs]. { cbn [length core_loop bind orb]. rewrite ER. cbn [bind]. do 2 eexists. split; [reflexivity|]. left. split; [reflexivity|constructor]. }
      cbn [length core_loop]. unfold rem_core. replace (count <? 12) with false by lia. rewrite El, HLl. cbn [map app]. change (At x :: map At xs ++ rest) with ([] ++ At x :: map At xs ++ rest). rewrite aget_app by reflexivity. cbn [bind].
      destruct (cut_truncated_ok (pc_hack cf) a' count (con q) (proj1 Hb') ltac:(destruct Hb'; lia) ltac:(destruct Hb'; lia) H3) as (c & -> & Hcut). cbn [bind]. destruct c as [(a'' & c)|]; [|exact HG].
      destruct Hcut as (B' & (L' & T') & Hc' & HQ'). assert (buf a'') as Hb'' by (split; [exact B'|destruct Hb'; lia]). destruct (rd_ok a'' 2 ltac:(destruct Hb''; lia)) as (a2 & E2 & Z2). rewrite E2. cbn [bind]. destruct (Z.eqb_spec (Z.land a2 2) 0) as [HX2|HX2]; cbn [negb]; [|exact HG].
      change (-2 =? -2) with true. cbv iota. destruct (not_there_ok J cf r l a'' c (con q) (x :: xs) rest HJ El HLl HL2 HF2 Hb'' ltac:(lia) HQ') as [(o & -> & HO)| ->]; cbn [bind]; change (-1 =? -1) with true; cbn [bind orb]; [|exact HG].
      do 2 eexists. split; [reflexivity|]. right. left. auto.
    + destruct (core_refer J cf b q code count xs HJ ltac:(right; auto) ltac:(lia) (length xs) tr [] r a' es false HS Eq ltac:(rewrite El; discriminate) HLx eq_refl Hb' H3) as (g & k & r' & o & E & HS' & S' & HU & HK & _). change (zlen (@nil local)) with 0 in E. rewrite E. cbn [bind].
      destruct (g || k) eqn:Egk; [do 2 eexists; split; [reflexivity|]; right; right; auto|]. destruct xs as [|x xs]; [|exfalso; destruct g; [discriminate|]; rewrite HK in Egk by (auto; cbn [length]; lia); discriminate].
      cbn [length core_loop] in E. injection E as <- <- <- <-. rewrite ER. cbn [bind]. do 2 eexists. split; [reflexivity|]. left. split; [reflexivity|constructor].
  - destruct (core_cached_gen J cf b r l code count (con q) xs rest a' es HJ El ltac:(lia) ltac:(lia) HLl HF1 Hb' H3) as [(o & -> & HO)| ->]; cbn [bind orb]; [|exact HG]. rewrite ER. cbn [bind]. do 2 eexists. split; [reflexivity|]. left. auto.
  - destruct (core_refer J cf b q code count xs HJ ltac:(left; lia) ltac:(lia) (length xs) tr [] r a' es false HS Eq ltac:(rewrite El; discriminate) HLx eq_refl Hb' H3) as (g & k & r' & o & E & HS' & S' & HU & HK & _). change (zlen (@nil local)) with 0 in E. rewrite E. cbn [bind].
    destruct (g || k) eqn:Egk; [do 2 eexists; split; [reflexivity|]; right; right; auto|]. destruct xs as [|x xs]; [|exfalso; destruct g; [discriminate|]; rewrite HK in Egk by (auto; cbn [length]; lia); discriminate].
    cbn [length core_loop] in E. injection E as <- <- <- <-. rewrite ER. cbn [bind]. do 2 eexists. split; [reflexivity|]. left. split; [reflexivity|constructor].
Qed.

(** ** Timeouts *)
Lemma noreply_open J r x xs rest q i : junk_ok J -> re_local r = Some (map At (x :: xs) ++ rest) -> re_query r = Some q -> qok q -> i = 0 -> lo_open x = true -> 0 <= lo_id x < 65536 ->
  exists p, server_fail_noreply J r i = Ok (mkremote (re_open r) (re_timer r) (re_id r) (re_query r) (Some (map At (mklocal (lo_client x) false (lo_id x) (lo_orig x) :: xs) ++ rest)) (re_num r) (re_retries r) (re_depth r) (re_up r), [Packet (lo_client x) p]) /\ p = ask_bytes (lo_id x) 33154 (con q).
Proof.
  intros HJ El Eq HQ -> Ho Hid. unfold server_fail_noreply. rewrite El. cbn [map app]. change (At x :: map At xs ++ rest) with ([] ++ At x :: map At xs ++ rest). rewrite aget_app by reflexivity. cbn [bind].
  destruct (ask_ok J (lo_id x) 33154 q HJ ltac:(lia) HQ) as (p0 & p1 & p2 & E0 & E1 & E2 & D2 & C2 & L2). rewrite E0, Eq, E1. cbn [bind]. change (0 =? -1) with false. cbv iota. rewrite E2. cbn [bind]. change (0 =? -1) with false. cbv iota.
  unfold sendto. pose proof D2 as [[B L M Me] K]. replace (zlen (d_mem p2) <? d_len p2) with false by lia. cbn [bind]. unfold forward_remote_reply. rewrite aget_app by reflexivity. cbn [bind]. rewrite Ho. cbn [negb]. rewrite aset_app by reflexivity. cbn [bind app]. eexists. split; [reflexivity|]. exact C2.
Qed.
Lemma noreply_closed J r x xs y ys rest i : junk_ok J -> re_local r = Some (map At (x :: xs) ++ map At (y :: ys) ++ rest) -> match re_query r with None => True | Some q => qok q end -> i = zlen (x :: xs) -> lo_open x = false -> 0 <= lo_id y ->
  server_fail_noreply J r i = Ok (r, []).
Proof.
  intros HJ El HQ -> Ho Hid. unfold server_fail_noreply. rewrite El. cbn [map app]. change (At x :: map At xs ++ At y :: map At ys ++ rest) with ((At x :: map At xs) ++ At y :: map At ys ++ rest). rewrite aget_app by (rewrite !zlen_consA, zlen_mapA; reflexivity). cbn [bind].
  destruct (make_header_ok J (lo_id y) 33154 0 0 0 HJ Hid ltac:(lia) ltac:(lia) ltac:(lia)) as (p0 & E0 & D0 & _). rewrite E0. destruct (re_query r) as [q|] eqn:Eq; [|unfold dw_append; reflexivity].
  destruct (ask_ok J (lo_id y) 33154 q HJ Hid HQ) as (p0' & p1 & p2 & E0' & E1 & E2 & D2 & C2 & L2). rewrite E0 in E0'. injection E0' as <-. rewrite E1. cbn [bind]. change (0 =? -1) with false. cbv iota. rewrite E2. cbn [bind]. change (0 =? -1) with false. cbv iota.
  unfold sendto. pose proof D2 as [[B L M Me] K]. replace (zlen (d_mem p2) <? d_len p2) with false by lia. cbn [bind]. unfold forward_remote_reply. change ((At x :: map At xs) ++ At y :: map At ys ++ rest) with ([] ++ At x :: map At xs ++ At y :: map At ys ++ rest). rewrite aget_app by reflexivity. cbn [bind]. rewrite Ho. cbn [negb bind app]. destruct r. cbn in *. subst. reflexivity.
Qed.
Lemma fail_closed J r x rest : junk_ok J -> match re_query r with None => True | Some q => qok q end -> lo_open x = false -> forall ys xs, re_local r = Some (map At (x :: xs) ++ map At ys ++ rest) -> Forall (fun y => 0 <= lo_id y) ys ->
  fail_loop J (length ys) (zlen (x :: xs)) r = Ok (r, []).
Proof.
  intros HJ HQ Ho. induction ys as [|y ys IH]; intros xs El HF; [reflexivity|]. apply Forall_cons_iff in HF as (Hy & HF). cbn [length fail_loop]. rewrite (noreply_closed J r x xs y ys rest _ HJ El HQ eq_refl Ho Hy). cbn [bind].
  specialize (IH (xs ++ [y])). replace (zlen (x :: xs) + 1) with (zlen (x :: xs ++ [y])) by (rewrite !zlen_consA, zlen_appA; reflexivity). rewrite IH; [reflexivity| |exact HF]. rewrite El. rewrite app_comm_cons, map_app, <- app_assoc. reflexivity.
Qed.
Lemma fail_none J r rest : junk_ok J -> re_query r = None -> forall ys xs, re_local r = Some (map At xs ++ map At ys ++ rest) -> Forall (fun y => 0 <= lo_id y) ys ->
  fail_loop J (length ys) (zlen xs) r = Ok (r, []).
Proof.
  intros HJ HQ. induction ys as [|y ys IH]; intros xs El HF; [reflexivity|]. apply Forall_cons_iff in HF as (Hy & HF). cbn [length fail_loop]. unfold server_fail_noreply. rewrite El. cbn [map app]. rewrite aget_app by (rewrite zlen_mapA; reflexivity). cbn [bind].
  destruct (make_header_ok J (lo_id y) 33154 0 0 0 HJ Hy ltac:(lia) ltac:(lia) ltac:(lia)) as (p0 & E0 & D0 & _). rewrite E0, HQ. unfold dw_append. cbn [bind]. change (-1 =? -1) with true. cbv iota. cbn [bind].
  specialize (IH (xs ++ [y])). replace (zlen xs + 1) with (zlen (xs ++ [y])) by (rewrite zlen_appA; reflexivity). rewrite IH; [reflexivity| |exact HF]. rewrite El. rewrite map_app, <- app_assoc. reflexivity.
Qed.
(** What is sent when the time is over: SERVER FAIL, to the first client. *)
Definition failed_to (q : list Z) (xs : list local) (o : list out) : Prop :=
  match xs with [] => o = [] | x :: _ => o = [Packet (lo_client x) (ask_bytes (lo_id x) 33154 q)] end.
Lemma fail_loop_ok J cf tr b r xs : junk_ok J -> slot_ok cf tr b r -> locals_are r xs -> Forall (local_ok tr (re_query r)) xs ->
  exists r' o xs', fail_loop J (Z.to_nat (re_num r)) 0 r = Ok (r', o) /\ locals_are r' xs' /\ match re_query r with None => o = [] | Some q => failed_to (con q) xs o end.
Proof.
  intros HJ ((_ & _ & HQ & _) & _) HL HF. pose proof HL as (HL1 & HL2). replace (Z.to_nat (re_num r)) with (length xs) by (rewrite HL2; unfold zlen; lia).
  destruct xs as [|x xs]; [exists r, [], []; split; [reflexivity|]; split; [exact HL|]; destruct (re_query r); reflexivity|].
  destruct (re_local r) as [l|] eqn:El; [|discriminate]. destruct HL1 as (rest & ->). assert (Forall (fun y => 0 <= lo_id y) (x :: xs)) as HF0 by (eapply Forall_impl; [|exact HF]; intros y ((A & _) & _); exact A).
  destruct (re_query r) as [q|] eqn:Eq.
  - apply Forall_cons_iff in HF as ((Hid & Ho & _) & HF). destruct (noreply_open J r x xs rest q 0 HJ El Eq HQ eq_refl Ho Hid) as (p & E & Ep). cbn [length fail_loop]. rewrite E. cbn [bind]. set (x' := mklocal (lo_client x) false (lo_id x) (lo_orig x)). set (r' := mkremote _ _ _ _ _ _ _ _ _).
    apply Forall_cons_iff in HF0 as (_ & HF0). pose proof (fail_closed J r' x' rest HJ ltac:(cbn [re_query r']; rewrite Eq; exact HQ) eq_refl xs [] eq_refl HF0) as EC. change (zlen [x']) with 1 in EC. change (0 + 1) with 1. rewrite EC. cbn [bind]. exists r', [Packet (lo_client x) p], (x' :: xs). split; [reflexivity|]. split; [split; [exists rest; reflexivity|exact HL2]|]. cbn [failed_to]. rewrite Ep. reflexivity.
  - pose proof (fail_none J r rest HJ Eq (x :: xs) [] El HF0) as EC. change (zlen (@nil local)) with 0 in EC. rewrite EC. exists r, [], (x :: xs). split; [reflexivity|]. split; [split; [rewrite El; eauto|exact HL2]|reflexivity].
Qed.
Lemma expired_ok J cf tr b r xs rnd e : junk_ok J -> slot_ok cf tr b r -> locals_are r xs -> Forall (local_ok tr (re_query r)) xs -> re_local r <> None ->
  exists v r' o, handle_expired J cf b r rnd e = Ok (v, r', o) /\
    ((v = 1 /\ slot_ok cf (tr ++ map Out o) b r' /\ same_slot r r' /\ upstream_only b o) \/
     (v = 0 /\ (exists xs', locals_are r' xs') /\ (o = [] \/ exists q, re_query r = Some q /\ failed_to (con q) xs o))).
Proof.
  intros HJ HS HL HF HN. unfold handle_expired. destruct (Z.ltb_spec 0 (re_retries r)).
  - cbn [re_id re_query re_up]. set (r1 := mkremote false _ _ _ _ _ _ _ _). set (fl := if re_up r then 384 else 128). destruct HS as (HLo & HC). pose proof HLo as (_ & _ & HQ & _). pose proof (u16_range rnd).
    destruct (make_header_ok J (u16 rnd) fl 0 0 0 HJ ltac:(lia) ltac:(lia) ltac:(lia) ltac:(lia)) as (p0 & E0 & D0 & _). destruct (re_query r) as [q|] eqn:Eq.
    2: { rewrite E0. unfold dw_append. cbn [bind]. change (-1 =? -1) with true. cbv iota. exists 0, r1, []. split; [reflexivity|]. right. split; [reflexivity|]. split; [exists xs; exact HL|auto]. }
    destruct (ask_ok J (u16 rnd) fl q HJ ltac:(lia) HQ) as (p0' & p1 & p2 & E0' & E1 & E2 & D2 & C2 & L2). rewrite E0', E1. cbn [bind]. change (0 =? -1) with false. cbv iota. rewrite E2. cbn [bind]. change (0 =? -1) with false. cbv iota.
    destruct (ask_mem _ _ _ _ HQ D2 C2) as (HQ2 & B2 & Hl2). assert (same_slot r r1) as S1 by (split; [cbn [re_query r1]; auto|split; reflexivity]).
    destruct (connect_inv cf tr b r1 (d_mem p2) (d_len p2) e B2 Hl2) as (z & r' & p & o & E & S & HS' & HU & _); auto. { eapply same_locs; eassumption. }
    rewrite E. cbn [bind]. do 3 eexists. split; [reflexivity|]. left. split; [reflexivity|]. split; [|split; [pose proof (same_slot_trans _ _ _ S1 S) as S2; exact S2|exact HU]]. destruct HS' as (A1 & A2). split; [|exact A2]. apply (same_locs cf _ r'); [split; [|split]; reflexivity| |exact A1]. pose proof S as (_ & -> & _). exact HN.
  - destruct (pc_noreply cf).
    + destruct (fail_loop_ok J cf tr b r xs HJ HS HL HF) as (r' & o & xs' & -> & HL' & HO). cbn [bind]. do 3 eexists. split; [reflexivity|]. right. split; [reflexivity|]. split; [eauto|]. destruct (re_query r) as [q|]; [right; exists q; auto|auto].
    + do 3 eexists. split; [reflexivity|]. right. split; [reflexivity|]. split; [eauto|auto].
Qed.
(** ** The address of a server is there *)
Lemma glueless_ok J cf tr b r e : junk_ok J -> slot_ok cf tr b r -> re_local r <> None ->
  exists r' o, glueless_done J b r e = Ok (r', o) /\ slot_ok cf ((tr ++ [In (Glue b e)]) ++ map Out o) b r' /\ same_slot r r' /\ upstream_only b o.
Proof.
  intros HJ HS HN. unfold glueless_done. assert (slot_ok cf (tr ++ [In (Glue b e)]) b r) as HS1.
  { destruct HS as (A & B). split; [apply locs_mono; exact A|apply conn_mono; [exact B|]]. intros p [HX|[]]. discriminate. }
  destruct (83 <? re_depth r). { do 2 eexists. split; [reflexivity|]. cbn [map]. rewrite app_nil_r. split; [exact HS1|]. split; [apply same_slot_refl|constructor]. }
  destruct (e_addr e =? 0). { do 2 eexists. split; [reflexivity|]. cbn [map]. rewrite app_nil_r. split; [exact HS1|]. split; [split; [|split]; reflexivity|constructor]. }
  cbv zeta. cbn [re_id re_query]. set (r1 := mkremote _ _ _ _ _ _ _ _ _). pose proof (u16_range (e_rnd e)). assert (same_slot r r1) as S1 by (split; [|split]; reflexivity).
  destruct HS1 as (HLo & HC). pose proof HLo as (_ & _ & HQ & _). assert (locs_ok cf (tr ++ [In (Glue b e)]) r1) as HL1 by (eapply same_locs; [exact S1| |exact HLo]; auto).
  destruct (make_header_ok J (u16 (e_rnd e)) 0 0 0 0 HJ ltac:(lia) ltac:(lia) ltac:(lia) ltac:(lia)) as (p0 & E0 & D0 & _). destruct (re_query r) as [q|] eqn:Eq.
  2: { rewrite E0. unfold dw_append. cbn [bind]. change (-1 =? -1) with true. cbv iota. exists r1, []. split; [reflexivity|]. cbn [map]. rewrite app_nil_r. split; [|split; [exact S1|constructor]]. split; [exact HL1|]. split; [cbn [re_id r1]; lia|]. intros _. cbn [re_query r1]; try rewrite Eq. exact Logic.I. }
  destruct (ask_ok J (u16 (e_rnd e)) 0 q HJ ltac:(lia) HQ) as (p0' & p1 & p2 & E0' & E1 & E2 & D2 & C2 & L2). rewrite E0', E1. cbn [bind]. change (0 =? -1) with false. cbv iota. rewrite E2. cbn [bind]. change (0 =? -1) with false. cbv iota.
  destruct (e_io e) eqn:Eio; cbn [negb].
  - unfold sendto. destruct (ask_mem _ _ _ _ HQ D2 C2) as (_ & _ & Hl2). replace (zlen (d_mem p2) <? d_len p2) with false by lia. cbn [bind]. do 2 eexists. split; [reflexivity|]. split; [|split; [destruct S1 as (A & B & C); split; [exact A|split; [exact B|exact C]]|constructor; [eauto|constructor]]].
    split; [apply locs_mono; eapply (same_locs cf _ r1); [split; [|split]; reflexivity| |exact HL1]; cbn [re_local r1]; auto|]. split; [cbn [re_id r1]; lia|]. intros _. cbn [re_query r1]; try rewrite Eq. eexists. split; [apply sent_new|]. change (zslice (d_mem p2) 0 (d_len p2)) with (con p2). rewrite C2. split; [intros _; apply ask_id; cbn [re_id r1]; lia|]. apply ask_question. exact HQ.
  - do 2 eexists. split; [reflexivity|]. cbn [map]. rewrite app_nil_r. split; [|split; [exact S1|constructor]]. split; [exact HL1|]. split; [cbn [re_id r1]; lia|]. destruct HC as (_ & HC). intros Ho. cbn [re_open re_query r1] in *. specialize (HC Ho). try rewrite Eq in HC; try rewrite Eq. destruct HC as (up & A & B & C). exists up. split; [exact A|]. split; [|exact C]. intros HG. exfalso. specialize (HG b e). rewrite Eio in HG. assert (false = true) as HX by (apply HG; apply in_or_app; right; left; reflexivity). discriminate.
Qed.

(** ** Every step *)
Definition answered (c id : Z) (o : list out) : nat := sumn (map (fun x => answered1 c id (Out x)) o).
Lemma total_app f t1 t2 : total f (t1 ++ t2) = (total f t1 + total f t2)%nat.
Proof. induction t1 as [|x t1 IH]; cbn [app total]; [reflexivity|]. rewrite IH. lia. Qed.
Lemma total_out c id o : total (answered1 c id) (map Out o) = answered c id o.
Proof. unfold answered. induction o as [|x o IH]; cbn [map total sumn]; [reflexivity|]. rewrite IH. reflexivity. Qed.
Lemma total_out_asked c id o : total (asked1 c id) (map Out o) = O.
Proof. induction o as [|x o IH]; cbn [map total asked1]; [reflexivity|]. exact IH. Qed.
Lemma answered_up c id b o : upstream_only b o -> answered c id o = O.
Proof. intros H. unfold answered. induction H as [|x o (p & ->) _ IH]; cbn [map sumn]; [reflexivity|]. rewrite IH. reflexivity. Qed.
Lemma answered_cached c id q xs o : Forall2 (cached_to q) xs o -> answered c id o = sumn (map (pend1 c id) xs).
Proof. intros H. unfold answered. induction H as [|x y xs o (query & -> & _) _ IH]; cbn [map sumn]; [reflexivity|]. rewrite IH. reflexivity. Qed.
Lemma answered_packet c id q xs o : Forall2 (packet_to q) xs o -> answered c id o = sumn (map (pend1 c id) xs).
Proof. intros H. unfold answered. induction H as [|x y xs o (p & -> & _ & Hi & _) _ IH]; cbn [map sumn]; [reflexivity|]. rewrite IH. unfold answered1, pend1. rewrite Hi. reflexivity. Qed.
Lemma no_up_cached q xs o : Forall2 (cached_to q) xs o -> forall b p, ~ List.In (Out (Upstream b p)) (map Out o).
Proof. intros H b p HI. apply in_map_iff in HI as (y & Ey & Hy). injection Ey as ->. induction H as [|x y xs o (query & -> & _) _ IH]; [exact Hy|]. destruct Hy as [Hy|Hy]; [discriminate|auto]. Qed.
Lemma no_up_packet q xs o : Forall2 (packet_to q) xs o -> forall b p, ~ List.In (Out (Upstream b p)) (map Out o).
Proof. intros H b p HI. apply in_map_iff in HI as (y & Ey & Hy). injection Ey as ->. induction H as [|x y xs o (query & -> & _) _ IH]; [exact Hy|]. destruct Hy as [Hy|Hy]; [discriminate|auto]. Qed.
Lemma other_up b o : upstream_only b o -> forall b' p, b' <> b -> ~ List.In (Out (Upstream b' p)) (map Out o).
Proof. intros HU b' p Hb' HIn. apply in_map_iff in HIn as (x & Ex & Hx). injection Ex as ->. unfold upstream_only in HU. rewrite Forall_forall in HU. destruct (HU _ Hx) as (p'' & Ep). congruence. Qed.
(** Where an answer comes from. *)
Definition caused (tr : list item) (ev : event) (q : list Z) : Prop :=
  match ev with
  | Datagram b a count _ _ => question a count q /\ exists up, last_sent tr b up /\ question up (zlen up) q /\ (glue_sent tr -> exists id, id_is up id /\ id_is a id)
  | Timeout _ _ _ => True
  | _ => False
  end.
Definition good_out (tr : list item) (ev : event) (x : out) : Prop :=
  match x with Upstream _ _ => True | _ => exists c id q, answers x c id q /\ has_asked tr c id q /\ caused tr ev q end.
Lemma good_up tr ev b o : upstream_only b o -> Forall (good_out tr ev) o.
Proof. intros H. eapply Forall_impl; [|exact H]. intros x (p & ->). exact Logic.I. Qed.
Lemma good_cached tr ev q xs o : Forall2 (cached_to (con q)) xs o -> Forall (local_ok tr (Some q)) xs -> caused tr ev (con q) -> Forall (good_out tr ev) o.
Proof.
  intros H HF HC. induction H as [|x y xs o (query & -> & Eq & _) _ IH]; constructor; [|apply IH; inversion HF; assumption]. apply Forall_cons_iff in HF as ((_ & _ & _ & HA) & _). exists (lo_client x), (lo_id x), (con q). split; [split; [reflexivity|]; split; [reflexivity|exact Eq]|auto].
Qed.
Lemma good_packet tr ev q xs o : Forall2 (packet_to (con q)) xs o -> Forall (local_ok tr (Some q)) xs -> caused tr ev (con q) -> Forall (good_out tr ev) o.
Proof.
  intros H HF HC. induction H as [|x y xs o (p & -> & Hi & _ & HQ) _ IH]; constructor; [|apply IH; inversion HF; assumption]. apply Forall_cons_iff in HF as ((_ & _ & _ & HA) & _). exists (lo_client x), (lo_id x), (con q). split; [split; [reflexivity|]; split; [exact Hi|exact HQ]|auto].
Qed.
Lemma inv_in cf tr st ev : Inv cf tr st -> Inv cf (tr ++ [In ev]) st.
Proof. intros HI. apply inv_mono; [exact HI|]. intros b p [H|[]]. discriminate. Qed.
Lemma idof_ask id flags q : 0 <= id < 65536 -> idof (ask_bytes id flags q) = id.
Proof. intros H. unfold ask_bytes. rewrite (u16be_small id H). cbn [app idof]. lia. Qed.

Lemma step_ok J cf tr st ev : junk_ok J -> Inv cf tr st -> event_ok (length st) ev ->
  exists st' o, step J cf st ev = Ok (st', o) /\ Inv cf (tr ++ In ev :: map Out o) st' /\ zlen st' = zlen st /\ Forall (good_out tr ev) o /\
    forall c id, (answered c id o + pends c id st' <= pends c id st + asked1 c id (In ev))%nat.
Proof.
  intros HJ HI HE. pose proof (inv_in cf tr st ev HI) as HI1. replace (Z.of_nat (length st)) with (zlen st) in HE by reflexivity.
  assert (forall o : list out, tr ++ In ev :: map Out o = (tr ++ [In ev]) ++ map Out o) as HT by (intros o; rewrite <- app_assoc; reflexivity).
  assert (exists st' o, Ok (st, []) = Ok (st', o) /\ Inv cf (tr ++ In ev :: map Out o) st' /\ zlen st' = zlen st /\ Forall (good_out tr ev) o /\ forall c id, (answered c id o + pends c id st' <= pends c id st + asked1 c id (In ev))%nat) as HNOP.
  { do 2 eexists. split; [reflexivity|]. cbn [map]. split; [exact HI1|]. split; [reflexivity|]. split; [constructor|]. intros c id. unfold answered. cbn [map sumn]. lia. }
  destruct ev as [client id orig packet len hint e|b a count code es|b rnd e|b e]; cbn [step event_ok] in *.
  - destruct HE as (HB & Hl & Hm & Hi & Dor & Hh). destruct (forward_ok J cf (tr ++ [In (Query client id orig packet len hint e)]) st client id orig packet len hint e HJ HI1) as (v & st' & o & -> & HI' & HZ & (b & HU) & HP); [split; [exact HB|]; split; [exact Hl|]; split; [exact Hm|]; split; [exact Hi|exact Dor]|exact Hh| |].
    { intros q HQ. exists orig, packet, len, hint, e. split; [apply in_or_app; right; left; reflexivity|exact HQ]. }
    cbn [bind]. do 2 eexists. split; [reflexivity|]. rewrite HT. split; [exact HI'|]. split; [exact HZ|]. split; [eapply good_up; exact HU|]. intros c i. rewrite (answered_up _ _ _ _ HU). exact (HP c i).
  - destruct HE as (HB & Hc & Hz & Hb). destruct (aget_ok st b Hb) as (r & Er). rewrite Er. cbn [bind]. destruct (re_open r) eqn:Eo; cbn [negb]; [|exact HNOP].
    pose proof (HI _ _ Er) as HS. pose proof HS as ((_ & _ & _ & xs & HLx & HFx) & HC). pose proof (HI1 _ _ Er) as HS1. assert (Forall (local_ok (tr ++ [In (Datagram b a count code es)]) (re_query r)) xs) as HFx1.
    { eapply Forall_impl; [|exact HFx]. intros x (A & B & C & D). split; [exact A|]. split; [exact B|]. split; [exact C|]. destruct (re_query r); [apply asked_mono; exact D|exact Logic.I]. }
    destruct (get_remote_ok J cf _ b r a count code es xs HJ HS1 Eo HLx HFx1 ltac:(split; assumption)) as [(q & HM & r' & o & -> & HO)|(_ & ->)].
    2: { cbn [bind]. destruct (inv_set cf (tr ++ [In (Datagram b a count code es)]) [] st b r r HI1 Er) as (st' & -> & HI' & HZ & HP & _ & _); [rewrite app_nil_r; exact HS1|intros b' p _ []|]. cbn [bind]. do 2 eexists. split; [reflexivity|]. cbn [map]. rewrite app_nil_r in HI'. split; [exact HI'|]. split; [exact HZ|]. split; [constructor|]. intros c i. specialize (HP c i). unfold answered. cbn [map sumn]. lia. }
    cbn [bind]. destruct HM as (Eq & Hcnt & Hid & _ & HQ). rewrite Eq in HFx. assert (caused tr (Datagram b a count code es) (con q)) as HCa.
    { split; [exact HQ|]. destruct HC as (_ & HC). specialize (HC Eo). rewrite Eq in HC. destruct HC as (up & U1 & U2 & U3). exists up. split; [exact U1|]. split; [exact U3|]. intros HG. exists (re_id r). auto. }
    destruct HO as [(-> & HO)|[(-> & HO)|(HS' & SS & HU)]].
    + destruct (inv_set cf (tr ++ [In (Datagram b a count code es)]) (map Out o) st b r (fresh cf) HI1 Er (fresh_ok cf _ b)) as (st' & -> & HI' & HZ & HP & _ & _); [intros b' p _; eapply no_up_cached; exact HO|]. cbn [bind]. do 2 eexists. split; [reflexivity|]. rewrite HT. split; [exact HI'|]. split; [exact HZ|]. split; [eapply good_cached; eassumption|].
      intros c i. specialize (HP c i). rewrite (answered_cached c i _ _ _ HO). rewrite (pend_locals c i r xs HLx), pend_fresh in HP. lia.
    + destruct (inv_set cf (tr ++ [In (Datagram b a count code es)]) (map Out o) st b r (fresh cf) HI1 Er (fresh_ok cf _ b)) as (st' & -> & HI' & HZ & HP & _ & _); [intros b' p _; eapply no_up_packet; exact HO|]. cbn [bind]. do 2 eexists. split; [reflexivity|]. rewrite HT. split; [exact HI'|]. split; [exact HZ|]. split; [eapply good_packet; eassumption|].
      intros c i. specialize (HP c i). rewrite (answered_packet c i _ _ _ HO). rewrite (pend_locals c i r xs HLx), pend_fresh in HP. lia.
    + destruct (inv_set cf (tr ++ [In (Datagram b a count code es)]) (map Out o) st b r r' HI1 Er HS' (other_up b o HU)) as (st' & -> & HI' & HZ & HP & _ & _). cbn [bind]. do 2 eexists. split; [reflexivity|]. rewrite HT. split; [exact HI'|]. split; [exact HZ|]. split; [eapply good_up; exact HU|].
      intros c i. specialize (HP c i). rewrite (answered_up _ _ _ _ HU). rewrite (pend_same c i r r' SS) in HP. lia.
  - destruct (aget_ok st b HE) as (r & Er). rewrite Er. cbn [bind]. destruct (re_timer r) eqn:Et; cbn [negb]; [|exact HNOP].
    pose proof (HI _ _ Er) as HS. pose proof HS as ((HN & _ & _ & xs & HLx & HFx) & HC). pose proof (HI1 _ _ Er) as HS1. assert (re_local r <> None) as HNN by (destruct (re_local r); [discriminate|destruct HN; congruence]).
    assert (Forall (local_ok (tr ++ [In (Timeout b rnd e)]) (re_query r)) xs) as HFx1.
    { eapply Forall_impl; [|exact HFx]. intros x (A & B & C & D). split; [exact A|]. split; [exact B|]. split; [exact C|]. destruct (re_query r); [apply asked_mono; exact D|exact Logic.I]. }
    destruct (expired_ok J cf _ b r xs rnd e HJ HS1 HLx HFx1 HNN) as (v & r' & o & -> & [(-> & HS' & SS & HU)|(-> & (xs' & HL') & HO)]); cbn [bind].
    + change (1 =? 1) with true. cbv iota. destruct (inv_set cf (tr ++ [In (Timeout b rnd e)]) (map Out o) st b r r' HI1 Er HS' (other_up b o HU)) as (st' & -> & HI' & HZ & HP & _ & _). cbn [bind]. do 2 eexists. split; [reflexivity|]. rewrite HT. split; [exact HI'|]. split; [exact HZ|]. split; [eapply good_up; exact HU|].
      intros c i. specialize (HP c i). rewrite (answered_up _ _ _ _ HU). rewrite (pend_same c i r r' SS) in HP. lia.
    + change (0 =? 1) with false. cbv iota. rewrite (reset_ok cf r' xs' HL'). cbn [bind].
      assert (Forall (good_out tr (Timeout b rnd e)) o /\ (forall c i, answered c i o <= sumn (map (pend1 c i) xs))%nat /\ (forall b p, ~ List.In (Out (Upstream b p)) (map Out o))) as (HG1 & HG2 & HG3).
      { destruct HO as [->|(q & Eq & HO)]; [split; [constructor|]; split; [intros c i; unfold answered; cbn [map sumn]; lia|intros b' p []]|]. unfold failed_to in HO. destruct xs as [|x xs]; subst o; [split; [constructor|]; split; [intros c i; unfold answered; cbn [map sumn]; lia|intros b' p []]|].
        rewrite Eq in HFx. apply Forall_cons_iff in HFx as ((Hi & _ & _ & HA) & _). assert (qok q) as HQ by (destruct HS as ((_ & _ & HQ & _) & _); rewrite Eq in HQ; exact HQ). split; [|split].
        - constructor; [|constructor]. exists (lo_client x), (lo_id x), (con q). split; [|split; [exact HA|exact Logic.I]]. split; [reflexivity|]. split; [apply ask_id; exact Hi|apply ask_question; exact HQ].
        - intros c i. unfold answered. cbn [map sumn answered1]. rewrite idof_ask by exact Hi. unfold pend1. lia.
        - intros b' p [HX|[]]. discriminate. }
      destruct (inv_set cf (tr ++ [In (Timeout b rnd e)]) (map Out o) st b r (fresh cf) HI1 Er (fresh_ok cf _ b)) as (st' & -> & HI' & HZ & HP & _ & _); [intros b' p _; apply HG3|]. cbn [bind]. do 2 eexists. split; [reflexivity|]. rewrite HT. split; [exact HI'|]. split; [exact HZ|]. split; [exact HG1|].
      intros c i. specialize (HP c i). specialize (HG2 c i). rewrite (pend_locals c i r xs HLx), pend_fresh in HP. lia.
  - destruct (aget_ok st b HE) as (r & Er). rewrite Er. cbn [bind]. destruct (re_local r) as [l|] eqn:El; [|exact HNOP].
    destruct (glueless_ok J cf tr b r e HJ (HI _ _ Er) ltac:(rewrite El; discriminate)) as (r' & o & -> & HS' & SS & HU). cbn [bind].
    destruct (inv_set cf (tr ++ [In (Glue b e)]) (map Out o) st b r r' HI1 Er HS' (other_up b o HU)) as (st' & -> & HI' & HZ & HP & _ & _). cbn [bind]. do 2 eexists. split; [reflexivity|]. rewrite HT. split; [exact HI'|]. split; [exact HZ|]. split; [eapply good_up; exact HU|].
    intros c i. specialize (HP c i). rewrite (answered_up _ _ _ _ HU). rewrite (pend_same c i r r' SS) in HP. lia.
Qed.

(** ** Every history *)
Lemma zlen_length {A B} (l : list A) (m : list B) : zlen l = zlen m -> length l = length m. Proof. unfold zlen. lia. Qed.
Lemma run_ok J cf n : junk_ok J -> forall evs tr st, length st = n -> Inv cf tr st -> Forall (event_ok n) evs ->
  exists t st', run J cf st evs t st' /\ Inv cf (tr ++ t) st' /\ length st' = n.
Proof.
  intros HJ. induction evs as [|ev evs IH]; intros tr st Hn HI HF.
  - exists [], st. split; [constructor|]. rewrite app_nil_r. auto.
  - apply Forall_cons_iff in HF as (H1 & HF). rewrite <- Hn in H1. destruct (step_ok J cf tr st ev HJ HI H1) as (st1 & o & E & HI1 & HZ & _). apply zlen_length in HZ. destruct (IH _ st1 ltac:(congruence) HI1 HF) as (t & st2 & HR & HI2 & HL).
    exists (In ev :: map Out o ++ t), st2. split; [econstructor; eassumption|]. rewrite <- app_assoc in HI2. split; [exact HI2|exact HL].
Qed.
Lemma run_inv J cf n st evs t st' : junk_ok J -> run J cf st evs t st' -> forall tr, length st = n -> Inv cf tr st -> Forall (event_ok n) evs -> Inv cf (tr ++ t) st' /\ length st' = n /\
  (forall c id, total (answered1 c id) t + pends c id st' <= pends c id st + total (asked1 c id) t)%nat.
Proof.
  intros HJ HR. induction HR as [st|st ev st1 o evs t st2 E HR IH]; intros tr Hn HI HF.
  - rewrite app_nil_r. split; [exact HI|]. split; [exact Hn|]. intros c id. cbn [total]. lia.
  - apply Forall_cons_iff in HF as (H1 & HF). rewrite <- Hn in H1. destruct (step_ok J cf tr st ev HJ HI H1) as (st1' & o' & E' & HI1 & HZ & _ & HC). rewrite E in E'. injection E' as <- <-. apply zlen_length in HZ.
    destruct (IH _ ltac:(congruence) HI1 HF) as (HI2 & HL & HC2). rewrite <- app_assoc in HI2. split; [exact HI2|]. split; [exact HL|]. intros c id. specialize (HC c id). specialize (HC2 c id). change (In ev :: map Out o ++ t) with ([In ev] ++ map Out o ++ t). rewrite !total_app, total_out, total_out_asked. cbn [total]. destruct ev; cbn [answered1 asked1] in *; lia.
Qed.
Lemma init_inv cf n : Inv cf [] (init cf n).
Proof.
  intros b r H. destruct (aget_split _ _ _ H) as (u & v & E & _). assert (List.In r (init cf n)) as HI by (rewrite E; apply in_or_app; right; left; reflexivity). apply repeat_spec in HI as ->. apply fresh_ok.
Qed.
Lemma init_pends c id cf n : pends c id (init cf n) = O.
Proof. unfold pends, init. induction n as [|n IH]; cbn [repeat map sumn]; [reflexivity|]. rewrite IH. reflexivity. Qed.
(** Every output of a run, seen at the step that made it. *)
Lemma run_outs J cf n st evs t st' : junk_ok J -> run J cf st evs t st' -> forall tr, length st = n -> Inv cf tr st -> Forall (event_ok n) evs ->
  forall t1 x t2, t = t1 ++ Out x :: t2 -> exists u ev os, t1 = u ++ In ev :: map Out os /\ good_out (tr ++ u) ev x.
Proof.
  intros HJ HR. induction HR as [st|st ev st1 o evs t st2 E HR IH]; intros tr Hn HI HF t1 x t2 Et; [destruct t1; discriminate|].
  apply Forall_cons_iff in HF as (H1 & HF). rewrite <- Hn in H1. destruct (step_ok J cf tr st ev HJ HI H1) as (st1' & o' & E' & HI1 & HZ & HG & _). rewrite E in E'. injection E' as <- <-. apply zlen_length in HZ.
  destruct t1 as [|y t1]; [discriminate|]. cbn [app] in Et. injection Et as <- Et.
  assert ((exists o1 o2, o = o1 ++ x :: o2 /\ t1 = map Out o1) \/ exists t1', t1 = map Out o ++ t1' /\ t = t1' ++ Out x :: t2) as [(o1 & o2 & -> & ->)|(t1' & -> & Et')].
  { clear - Et. revert t1 Et. induction o as [|y o IHo]; intros t1 Et; [right; exists t1; auto|]. cbn [map app] in Et. destruct t1 as [|z t1].
    - cbn [app] in Et. injection Et as -> _. left. exists [], o. auto.
    - cbn [app] in Et. injection Et as <- Et. destruct (IHo t1 Et) as [(o1 & o2 & -> & ->)|(t1' & -> & E)]; [left; exists (y :: o1), o2; auto|right; exists t1'; auto]. }
  - exists [], ev, o1. split; [reflexivity|]. rewrite app_nil_r. rewrite Forall_forall in HG. apply HG. apply in_or_app. right. left. reflexivity.
  - destruct (IH _ ltac:(congruence) HI1 HF _ _ _ Et') as (u & ev' & os & -> & HGx). exists (In ev :: map Out o ++ u), ev', os. split; [cbn [app]; rewrite <- app_assoc; reflexivity|]. rewrite <- app_assoc in HGx. exact HGx.
Qed.

(** ** What becomes of a query *)
Lemma aset_same {A} (l : list A) i x : aget l i = Ok x -> aset l i x = Ok l.
Proof. intros H. destruct (aget_split _ _ _ H) as (u & v & -> & ->). apply aset_app. reflexivity. Qed.
Lemma join_ok J cf tr st b r q xs client id orig packet len e : junk_ok J -> Inv cf tr st -> query_fits packet len id orig -> aget st b = Ok r -> re_open r = true -> re_query r = Some q -> question packet len (con q) -> waiting r xs -> 2 <= pc_inflights cf -> zlen xs < num_alloc cf - 2 -> 0 <= b < zlen st ->
  exists st' r', step J cf st (Query client id orig packet len (Some b) e) = Ok (st', []) /\ aget st' b = Ok r' /\ waiting r' (xs ++ [mklocal client true id orig]) /\ re_id r' = re_id r /\ re_query r' = re_query r /\ re_open r' = true /\ re_timer r' = true /\ (forall b', b' <> b -> aget st' b' = aget st b').
Proof.
  intros HJ HI (HB & Hl & Hm & Hid & Dor) Er Eo Eq HQ HW Hinf Hroom Hb. cbn [step]. unfold forward. cbv zeta. unfold find_inflight. replace ((len <? 12) || (pc_inflights cf <? 2)) with false by lia.
  pose proof (lowered_spec J packet len HJ HB ltac:(lia) ltac:(lia)) as HL. destruct (lowered J packet len) as [[q'|]| |f]; try contradiction; cbn [bind]; [|exfalso; exact (HL _ HQ)]. destruct HL as (Q & HQ'). rewrite Er. cbn [bind]. rewrite Eo. cbn [negb]. rewrite Eq.
  destruct (HI _ _ Er) as ((H1 & H2 & H3 & _) & HC). rewrite Eq in H3. rewrite (issame_ok q' q (proj1 Q) (proj1 H3)). cbn [bind]. assert (con q' = con q) as -> by (eapply question_unique; eassumption). replace (zlist_eqb (con q) (con q)) with true by (symmetry; apply zlist_eqb_spec; reflexivity). change (1 =? 1) with true. cbv iota. cbn [bind]. rewrite Er. cbn [bind].
  destruct HW as (HW1 & HW2). pose proof (num_alloc_range cf). replace (num_alloc cf - 2 <=? re_num r) with false by lia. cbn [re_num re_local re_open re_timer re_id re_query re_retries re_depth re_up]. pose proof (zlenA xs). assert (u16 (re_num r + 1) = re_num r + 1) as E16 by (unfold u16; lia). rewrite !E16. replace (re_num r + 1 =? 0) with false by lia.
  destruct (re_local r) as [l|] eqn:El; [|destruct H1; congruence]. destruct HW1 as (rest & ->). destruct rest as [|y rest]; [rewrite zlen_appA, zlen_mapA in H1; change (zlen (@nil lptr)) with 0 in H1; lia|].
  rewrite aset_app by (rewrite zlen_mapA; lia). cbn [bind]. rewrite Eo. cbn [negb]. replace (u16 id) with id by (unfold u16; lia). destruct (aget_split _ _ _ Er) as (u & v & -> & ->). rewrite aset_app by reflexivity. cbn [bind]. do 2 eexists. split; [reflexivity|]. split; [apply aget_app; reflexivity|].
  split; [split; cbn [re_local re_num]; [exists rest; rewrite map_app, <- app_assoc; reflexivity|rewrite zlen_appA; change (zlen [mklocal client true id orig]) with 1; lia]|]. split; [reflexivity|]. split; [cbn [re_query]; congruence|]. split; [reflexivity|]. split; [reflexivity|].
  intros b' Hb'. unfold aget. destruct (Z.ltb_spec b' 0); [reflexivity|]. destruct (Z_lt_dec b' (zlen u)); [rewrite !nth_error_app1 by (unfold zlen in *; lia); reflexivity|]. rewrite !nth_error_app2 by (unfold zlen in *; lia).
  destruct (Z.to_nat b' - length u)%nat as [|k] eqn:Ek; [unfold zlen in *; lia|]. reflexivity.
Qed.
Lemma refused_ok J cf tr st b r q xs client id orig packet len e : junk_ok J -> Inv cf tr st -> query_fits packet len id orig -> aget st b = Ok r -> re_open r = true -> re_query r = Some q -> question packet len (con q) -> waiting r xs -> 2 <= pc_inflights cf -> num_alloc cf - 2 <= zlen xs ->
  step J cf st (Query client id orig packet len (Some b) e) = Ok (st, []).
Proof.
  intros HJ HI (HB & Hl & Hm & Hid & Dor) Er Eo Eq HQ HW Hinf Hroom. cbn [step]. unfold forward. cbv zeta. unfold find_inflight. replace ((len <? 12) || (pc_inflights cf <? 2)) with false by lia.
  pose proof (lowered_spec J packet len HJ HB ltac:(lia) ltac:(lia)) as HL. destruct (lowered J packet len) as [[q'|]| |f]; try contradiction; cbn [bind]; [|exfalso; exact (HL _ HQ)]. destruct HL as (Q & HQ'). rewrite Er. cbn [bind]. rewrite Eo. cbn [negb]. rewrite Eq.
  destruct (HI _ _ Er) as ((H1 & H2 & H3 & _) & HC). rewrite Eq in H3. rewrite (issame_ok q' q (proj1 Q) (proj1 H3)). cbn [bind]. assert (con q' = con q) as -> by (eapply question_unique; eassumption). replace (zlist_eqb (con q) (con q)) with true by (symmetry; apply zlist_eqb_spec; reflexivity). change (1 =? 1) with true. cbv iota. cbn [bind]. rewrite Er. cbn [bind].
  destruct HW as (_ & HW2). replace (num_alloc cf - 2 <=? re_num r) with true by lia. reflexivity.
Qed.
Lemma find_free_some st : forall i b r, aget st b = Ok r -> re_open r = false -> re_local r = None -> exists b', find_free st i = Some b'.
Proof.
  induction st as [|r0 st IH]; intros i b r H Ho Hl; [unfold aget in H; destruct (b <? 0); [discriminate|]; destruct (Z.to_nat b); discriminate|]. cbn [find_free]. destruct (negb (re_open r0) && _) eqn:E; [eauto|]. apply (IH (i + 1) (b - 1) r); auto. unfold aget in *. destruct (Z.ltb_spec b 0); [discriminate|]. destruct (Z.to_nat b) as [|k] eqn:Ek.
  - cbn in H. injection H as ->. rewrite Ho, Hl in E. discriminate.
  - cbn [nth_error] in H. replace (b - 1 <? 0) with false by lia. replace (Z.to_nat (b - 1)) with k by lia. exact H.
Qed.
Lemma sent_ok J cf tr st client id orig packet len e q : junk_ok J -> Inv cf tr st -> query_fits packet len id orig -> question packet len q -> (exists b r, aget st b = Ok r /\ re_open r = false /\ re_local r = None) -> e_addr e = 1 -> e_io e = true ->
  exists st' b r r' up, step J cf st (Query client id orig packet len None e) = Ok (st', [Upstream b up]) /\ aget st b = Ok r /\ re_open r = false /\ re_local r = None /\ aget st' b = Ok r' /\ waiting r' [mklocal client true id orig] /\ re_id r' = u16 (e_rnd e) /\ re_open r' = true /\ re_timer r' = true /\
    (exists s, re_query r' = Some s /\ con s = q) /\ id_is up (u16 (e_rnd e)) /\ question up (zlen up) q /\ zlen up = len /\ (forall b', b' <> b -> aget st' b' = aget st b').
Proof.
  intros HJ HI (HB & Hl & Hm & Hid & Dor) HQ (b0 & r0 & Er0 & Eo0 & El0) Hea Hio. cbn [step]. unfold forward. cbv zeta.
  pose proof (lowered_spec J packet len HJ HB ltac:(lia) ltac:(lia)) as HL. assert (find_inflight J cf st packet len None = Ok None) as ->. { unfold find_inflight. destruct ((len <? 12) || (pc_inflights cf <? 2)); [reflexivity|]. destruct (lowered J packet len) as [[q'|]| |f]; try contradiction; reflexivity. }
  cbn [bind]. destruct (find_free_some st 0 b0 r0 Er0 Eo0 El0) as (b & EF). rewrite EF. destruct (find_free_ok st 0 b EF) as (r & Er & Eo & El & _). rewrite Z.sub_0_r in Er. rewrite Er. cbn [bind]. destruct (HI _ _ Er) as ((H1 & H2 & H3 & xs & HLr & H5) & HC). rewrite (reset_ok cf r xs HLr). cbn [bind].
  unfold make_new_udp_connect. change (re_open (fresh cf)) with false. cbv iota. destruct (lowered J packet len) as [[q'|]| |f] eqn:Eq; [|exfalso; exact (HL _ HQ)|contradiction|contradiction]. destruct HL as (Q & HQ'). assert (con q' = q) as Eqq by (eapply question_unique; eassumption). cbn [bind]. unfold fresh. cbn [re_open re_timer re_id re_num re_retries re_depth re_up].
  unfold make_remote_connection. cbn [re_open re_depth orb]. change (83 <? 0) with false. cbv iota. cbn [re_open re_timer re_id re_query re_local re_num re_retries re_depth re_up].
  destruct (set_qid_ok packet len (u16 (e_rnd e)) HB Hl (u16_range _)) as (p1 & E1 & B1 & L1 & I1 & T1). rewrite E1. cbn [bind]. pose proof (u16_range (e_rnd e)). replace (u16 (e_rnd e) =? -1) with false by lia.
  destruct (rd_ok p1 2 ltac:(lia)) as (a2 & E2 & Z2). rewrite E2. cbn [bind]. rewrite wr_ok by lia. cbn [bind]. set (p2 := zupd p1 2 _). rewrite Hea. change (1 =? 0) with false. change (1 =? 2) with false. cbv iota. rewrite Hio. cbn [negb bind]. change (1 =? 1) with true. cbn [negb bind].
  cbn [re_open re_timer re_id re_query re_local re_num re_retries re_depth re_up]. change (1 =? 2) with false. cbv iota. cbn [re_open re_timer re_id re_query re_local re_num re_retries re_depth re_up]. change (1 =? 0) with false. cbv iota.
  pose proof (num_alloc_range cf). destruct (repeat_split Null (Z.to_nat (num_alloc cf)) ltac:(lia)) as (rest & ER & LR). rewrite ER. change (1 - 1) with 0. change (Null :: rest) with ([] ++ Null :: rest). rewrite aset_app by reflexivity. cbn [bind app negb re_open re_timer re_id re_query re_local re_num re_retries re_depth re_up]. replace (u16 id) with id by (unfold u16; lia).
  destruct (aget_split _ _ _ Er) as (u & v & -> & ->). rewrite aset_app by reflexivity. cbn [bind]. do 5 eexists. split; [reflexivity|]. split; [exact Er|]. split; [exact Eo|]. split; [exact El|]. split; [apply aget_app; reflexivity|].
  split; [split; cbn [re_local re_num]; [exists rest; reflexivity|reflexivity]|]. split; [reflexivity|]. split; [reflexivity|]. split; [reflexivity|]. split; [exists q'; split; [reflexivity|exact Eqq]|].
  assert (zlen p2 = zlen packet) as L2 by (unfold p2; rewrite zlen_zupd; exact L1). assert (forall j, 3 <= j -> zget p2 j = zget packet j) as T2 by (intros j Hj; unfold p2; rewrite zget_zupd_neq by lia; apply T1; lia).
  split; [|split; [|split]].
  - destruct I1 as (x & y & Hs & Hu). exists x, y. split; [|exact Hu]. rewrite zslice_zslice, Z.add_0_l by lia. unfold p2. rewrite zslice_zupd by lia. exact Hs.
  - rewrite zlen_zslice by lia. apply question_slice; [|lia]. apply (question_ext packet); [|exact HQ]. intros j Hj. apply T2. lia.
  - apply zlen_zslice; lia.
  - intros b' Hb'. unfold aget. destruct (Z.ltb_spec b' 0); [reflexivity|]. destruct (Z_lt_dec b' (zlen u)); [rewrite !nth_error_app1 by (unfold zlen in *; lia); reflexivity|]. rewrite !nth_error_app2 by (unfold zlen in *; lia).
    destruct (Z.to_nat b' - length u)%nat as [|k] eqn:Ek; [unfold zlen in *; lia|]. reflexivity.
Qed.
(** A reply that can be used reaches every client that waits. *)
Lemma land2_or x : byte x -> Z.land (u8 (Z.lor x 128)) 2 = Z.land x 2.
Proof.
  intros H. unfold u8. rewrite <- land_255, <- Z.land_assoc. change (Z.land 255 2) with 2. rewrite Z.land_lor_distr_l. change (Z.land 128 2) with 0. apply Z.lor_0_r.
Qed.
Lemma delivered_ok J cf tr st b r q xs a count code es : junk_ok J -> Inv cf tr st -> aget st b = Ok r -> re_open r = true -> waiting r xs -> buf a -> count <= 512 -> re_query r = Some q -> id_is a (re_id r) -> has_sections a -> question a count (con q) -> 0 <= code < 16 -> not_tc a ->
  exists st' o, step J cf st (Datagram b a count code es) = Ok (st', o) /\ Forall2 (cached_to (con q)) xs o /\ aget st' b = Ok (fresh cf) /\ (forall b', b' <> b -> aget st' b' = aget st b').
Proof.
  intros HJ HI Er Eo HW Hb Hc Eq Hid Hsec HQ Hcode Htc. cbn [step]. rewrite Er. cbn [bind]. rewrite Eo. cbn [negb]. pose proof (question_12 _ _ _ HQ). unfold get_remote_udp_packet. replace ((count <? 12) || (512 <? count)) with false by lia.
  destruct (or2_ok a Hb) as (a' & E & Hb' & HT). rewrite E. cbn [bind]. destruct (HI _ _ Er) as (HS & HC). pose proof HS as (HLo & _ & HQr & xs' & HLx' & HFx'). assert (xs' = xs) as ->.
  { destruct HW as (W1 & W2), HLx' as (V1 & V2). destruct (re_local r) as [l|]; [|congruence]. destruct W1 as (r1 & ->), V1 as (r2 & E12). apply app_inv_len in E12 as (E12 & _); [|rewrite !map_length; unfold zlen in *; lia]. symmetry. clear - E12. revert xs' E12. induction xs; intros [|y ys] E; try discriminate; [reflexivity|]. injection E as -> E. f_equal. auto. }
  assert (question a' count (con q)) as HQ' by (apply (question_ext a); [intros j Hj; apply HT; lia|exact HQ]).
  destruct (ids_same a a' (re_id r) ltac:(destruct Hb; lia) ltac:(destruct Hb, Hb'; lia) HT) as (Hid' & Hsec'). pose proof HC as (Hrid & _).
  destruct (verify_spec J (re_id r) (re_query r) a' count HJ (proj1 Hb') ltac:(destruct Hb'; lia) ltac:(lia) ltac:(lia)) as (v & -> & Hv). { destruct (re_query r); [exact (proj1 HQr)|exact Logic.I]. }
  assert (v = true) as ->. { apply Hv. rewrite Eq. split; [apply Hid'; exact Hid|]. split; [apply Hsec'; exact Hsec|exact HQ']. }
  cbn [bind negb]. assert (not_tc a') as Htc'.
  { destruct Htc as (a2 & Z2 & L2). unfold or_at in E. rewrite (rd_of_zget _ _ _ Z2) in E. cbn [bind] in E. rewrite wr_ok in E by (destruct Hb; lia). injection E as <-. exists (u8 (Z.lor a2 128)). split; [apply zget_zupd_eq; destruct Hb; lia|]. rewrite land2_or; [exact L2|]. eapply zget_bytes; [exact (proj1 Hb)|exact Z2]. }
  pose proof HW as (W1 & W2). destruct (re_local r) as [l|] eqn:El; [|destruct HLo; congruence]. destruct W1 as (rest & ->). replace (Z.to_nat (re_num r)) with (length xs) by (rewrite W2; unfold zlen; lia).
  destruct (core_cached J cf b r (map At xs ++ rest) code count (con q) xs HJ El Hcode ltac:(lia) [] rest a' es false eq_refl) as (o & E0 & HO); auto. { eapply Forall_impl; [|exact HFx']. intros x (A & _). exact A. }
  change (zlen (@nil local)) with 0 in E0. rewrite E0. cbn [bind orb]. rewrite (reset_ok cf r xs HW). cbn [bind]. destruct (aget_split _ _ _ Er) as (u & v & -> & ->). rewrite aset_app by reflexivity. cbn [bind]. do 2 eexists. split; [reflexivity|]. split; [exact HO|]. split; [apply aget_app; reflexivity|].
  intros b' Hb2. unfold aget. destruct (Z.ltb_spec b' 0); [reflexivity|]. destruct (Z_lt_dec b' (zlen u)); [rewrite !nth_error_app1 by (unfold zlen in *; lia); reflexivity|]. rewrite !nth_error_app2 by (unfold zlen in *; lia).
  destruct (Z.to_nat b' - length u)%nat as [|k] eqn:Ek; [unfold zlen in *; lia|]. reflexivity.
Qed.
(** A packet that is not the reply leaves everything as it is. *)
Lemma other_ok J cf tr st b a count code es : junk_ok J -> Inv cf tr st -> 0 <= b < zlen st -> buf a -> glue_sent tr ->
  (forall up id q, last_sent tr b up -> id_is up id -> question up (zlen up) q -> ~ (12 <= count <= 512 /\ id_is a id /\ has_sections a /\ question a count q)) ->
  step J cf st (Datagram b a count code es) = Ok (st, []).
Proof.
  intros HJ HI Hb Hbuf HG HN. destruct (aget_ok st b Hb) as (r & Er). cbn [step]. rewrite Er. cbn [bind]. destruct (re_open r) eqn:Eo; cbn [negb]; [|reflexivity]. pose proof (HI _ _ Er) as HS. pose proof HS as ((_ & _ & _ & xs & HLx & HFx) & HC).
  destruct (get_remote_ok J cf tr b r a count code es xs HJ HS Eo HLx HFx Hbuf) as [(q & (Eq & Hcnt & Hid & Hsec & HQ) & _)|(_ & ->)].
  - exfalso. destruct HC as (_ & HC). specialize (HC Eo). rewrite Eq in HC. destruct HC as (up & U1 & U2 & U3). apply (HN up (re_id r) (con q)); auto.
  - cbn [bind]. rewrite (aset_same st b r Er). reflexivity.
Qed.
