(** Proofs about ModelDwSys. *)
From Verif Require Import CBase Bits ByteEnum SpecDwStr ModelDwStr ProofDwStr ProofDwDnsStr ProofDwRotate ModelDwSys SpecAcl.

(** ** Items of a list *)
Fixpoint strip (l : list Z) : list Z := match l with [] => [] | b :: r => if (b =? 32) || (b =? 9) then strip r else l end.
Definition nocomma (l : list Z) : Prop := Forall (fun b => b <> 44) l.

Lemma last_comma l : nocomma l \/ exists X Y, l = X ++ 44 :: Y /\ nocomma Y.
Proof.
  induction l as [|b l IH] using rev_ind; [left; constructor|]. destruct (Z.eq_dec b 44) as [->|N].
  - right. exists l, []. split; [reflexivity|constructor].
  - destruct IH as [H|(X & Y & -> & H)]; [left; apply Forall_app; split; [exact H|repeat constructor; exact N]|].
    right. exists X, (Y ++ [b]). split; [rewrite <- app_assoc; reflexivity|]. apply Forall_app; split; [exact H|repeat constructor; exact N].
Qed.
Lemma rfind_none mem n : forall i l, zlen l = Z.of_nat n -> i = Z.of_nat n - 1 -> firstn n mem = l -> nocomma l -> rfind_loop n mem i 44 = Ok (-2).
Proof.
  induction n as [|n IH]; intros i l Hl -> Hf H; cbn [rfind_loop]; [reflexivity|]. destruct l as [|b l _] using rev_ind; [change (zlen (@nil Z)) with 0 in Hl; lia|]. rewrite zlen_app in Hl. change (zlen [b]) with 1 in Hl. apply Forall_app in H as [H Hb].
  assert (rd mem (Z.of_nat (S n) - 1) = Ok b) as ->.
  { apply rd_of_zget. rewrite <- (firstn_skipn (S n) mem), Hf, <- app_assoc. rewrite zget_app_r by lia. replace (Z.of_nat (S n) - 1 - zlen l) with 0 by lia. reflexivity. }
  cbn [bind]. inversion Hb; subst. replace (b =? 44) with false by lia. apply IH with (l := l); [lia|lia| |exact H].
  rewrite <- (firstn_firstn mem n (S n)) at 1 || idtac. replace (firstn n mem) with (firstn n (firstn (S n) mem)) by (rewrite firstn_firstn; f_equal; lia). rewrite Hf. rewrite firstn_app. replace (n - length l)%nat with 0%nat by (unfold zlen in Hl; lia). cbn [firstn]. rewrite app_nil_r. apply firstn_all2. unfold zlen in Hl. lia.
Qed.
Lemma rfind_some mem X Y : forall rest, mem = X ++ 44 :: Y ++ rest -> nocomma Y -> rfind_loop (Z.to_nat (zlen X + 1 + zlen Y)) mem (zlen X + zlen Y) 44 = Ok (zlen X).
Proof.
  induction Y as [|b Y IH] using rev_ind; intros rest -> H.
  - change (zlen (@nil Z)) with 0. replace (Z.to_nat (zlen X + 1 + 0)) with (S (length X)) by (unfold zlen; lia). cbn [rfind_loop]. rewrite (rd_of_zget _ _ 44); [|rewrite zget_app_r by lia; replace (zlen X + 0 - zlen X) with 0 by lia; reflexivity]. cbn [bind]. change (44 =? 44) with true. cbv iota. f_equal. lia.
  - apply Forall_app in H as [H Hb]. inversion Hb; subst. rewrite zlen_app. change (zlen [b]) with 1. replace (Z.to_nat (zlen X + 1 + (zlen Y + 1))) with (S (Z.to_nat (zlen X + 1 + zlen Y))) by (pose proof (zlen_nonneg X); pose proof (zlen_nonneg Y); lia). cbn [rfind_loop]. pose proof (zlen_nonneg Y).
    assert (rd (X ++ 44 :: (Y ++ [b]) ++ rest) (zlen X + (zlen Y + 1)) = Ok b) as ->.
    { apply rd_of_zget. rewrite zget_app_r by lia. rewrite zget_cons_S by lia. rewrite <- app_assoc. rewrite zget_app_r by lia. replace (zlen X + (zlen Y + 1) - zlen X - 1 - zlen Y) with 0 by lia. reflexivity. }
    cbn [bind]. replace (b =? 44) with false by lia. replace (zlen X + (zlen Y + 1) - 1) with (zlen X + zlen Y) by lia. apply (IH ([b] ++ rest)); [rewrite <- app_assoc; reflexivity|exact H].
Qed.
Lemma mem_split s : dwf s -> exists rest, d_mem s = con s ++ rest.
Proof. intros W. exists (skipn (Z.to_nat (d_len s)) (d_mem s)). unfold con, zslice. cbn [skipn Z.to_nat]. symmetry. apply firstn_skipn. Qed.
Lemma qspop_ok J s : junk_ok J -> dok s -> d_len s < 1000000 ->
  exists Y t s', dw_qspop J s = Ok (Some t, s') /\ dok t /\ dok s' /\ con t = Y /\ nocomma Y /\ d_len s' <= d_len s /\ d_len t <= d_len s /\ (con s = con s' ++ 44 :: Y \/ (con s = Y /\ con s' = [])).
Proof.
  intros HJ D Hl. pose proof D as (W & Hlt). pose proof W as [B L M Me]. pose proof (zlen_con s W) as Lc. unfold dw_qspop. rewrite (dok_sane s D). cbn [negb]. unfold dw_rfind. rewrite (dok_sane s D). cbn [negb]. destruct (mem_split s W) as (rest & Em).
  destruct (last_comma (con s)) as [H|(X & Y & E & H)].
  - assert (firstn (Z.to_nat (d_len s)) (d_mem s) = con s) as Ef by reflexivity. rewrite (rfind_none (d_mem s) (Z.to_nat (d_len s)) (d_len s - 1) (con s) ltac:(lia) ltac:(lia) Ef H). cbn [bind]. change (-2 =? -2) with true. cbv iota.
    destruct (dw_copy_ok J s HJ D) as (t & -> & Dt & Ct & Mt & Lt). cbn [bind]. exists (con s), t, (mkdw (d_mem s) 0 (d_max s)). split; [reflexivity|]. split; [exact Dt|]. split; [split; [constructor; cbn [d_mem d_len d_max]; [exact B|lia|lia|lia]|cbn [d_len d_max]; lia]|].
    split; [exact Ct|]. split; [exact H|]. split; [cbn [d_len]; lia|]. split; [lia|]. right. split; reflexivity.
  - assert (d_len s = zlen X + 1 + zlen Y) as Ld by (rewrite <- Lc, E, zlen_app, zlen_cons; lia). pose proof (zlen_nonneg X). pose proof (zlen_nonneg Y).
    rewrite E in Em. rewrite <- app_assoc in Em. cbn [app] in Em. rewrite Ld. replace (zlen X + 1 + zlen Y - 1) with (zlen X + zlen Y) by lia. rewrite (rfind_some (d_mem s) X Y rest Em H). cbn [bind]. replace (zlen X =? -2) with false by lia. replace (zlen X <? 0) with false by lia. cbv zeta. replace (zlen X + 1 + zlen Y - (zlen X + 1)) with (zlen Y) by lia. replace (zlen Y <? 0) with false by lia.
    destruct (dw_substr_ok J s (zlen X + 1) (zlen Y) 1 HJ D ltac:(lia) ltac:(lia) ltac:(lia) ltac:(lia) ltac:(lia)) as (t & -> & Dt & Ct & Mt & Lt). cbn [bind].
    exists Y, t, (mkdw (d_mem s) (zlen X) (d_max s)). split; [do 3 f_equal; lia|]. split; [exact Dt|]. split; [split; [constructor; cbn [d_mem d_len d_max]; [exact B|lia|lia|lia]|cbn [d_len d_max]; lia]|].
    assert (con (mkdw (d_mem s) (zlen X) (d_max s)) = X) as CX by (unfold con; cbn [d_mem d_len]; rewrite Em, zslice_app_l by lia; apply zslice_all).
    split; [rewrite Ct, E; change (X ++ 44 :: Y) with (X ++ [44] ++ Y); rewrite app_assoc; rewrite zslice_app_r by (rewrite ?zlen_app; change (zlen [44]) with 1; lia); rewrite zlen_app; change (zlen [44]) with 1; replace (zlen X + 1 - (zlen X + 1)) with 0 by lia; apply zslice_all|].
    split; [exact H|]. split; [cbn [d_len]; lia|]. split; [lia|]. left. rewrite CX. exact E.
Qed.
Lemma strip_split l : exists w, l = w ++ strip l /\ Forall (fun b => b = 32 \/ b = 9) w /\ (strip l = [] \/ exists b t, strip l = b :: t /\ b <> 32 /\ b <> 9).
Proof.
  induction l as [|b l (w & E & H & N)]; [exists []; cbn; auto|]. cbn [strip]. destruct ((b =? 32) || (b =? 9)) eqn:T.
  - exists (b :: w). split; [cbn [app]; congruence|]. split; [constructor; [lia|exact H]|exact N].
  - exists []. split; [reflexivity|]. split; [constructor|]. right. exists b, l. split; [reflexivity|lia].
Qed.
Lemma lws_loop_ok w : forall n s i, dwf s -> Forall (fun b => b = 32 \/ b = 9) w -> 0 <= i -> Z.of_nat n = d_len s - i -> (exists p r, con s = p ++ w ++ r /\ zlen p = i /\ (r = [] \/ exists b t, r = b :: t /\ b <> 32 /\ b <> 9)) ->
  lws_loop n s i = Ok (i + zlen w).
Proof.
  induction w as [|c w IH]; intros n s i W H Hi Hn (p & r & C & Hp & Hr); pose proof (zlen_con s W) as Lc; rewrite C in Lc; rewrite !zlen_app in Lc; pose proof (zlen_nonneg r).
  - change (zlen (@nil Z)) with 0 in *. destruct n as [|n]; cbn [lws_loop]; [f_equal; lia|]. destruct Hr as [->|(b & t & -> & N1 & N2)]; [change (zlen (@nil Z)) with 0 in *; lia|]. rewrite zlen_cons in Lc. pose proof (zlen_nonneg t).
    rewrite rd_con by (auto; lia). rewrite C. rewrite (rd_of_zget _ _ b); [|rewrite zget_app_r by lia; replace (i - zlen p) with 0 by lia; reflexivity]. cbn [bind]. replace ((b =? 32) || (b =? 9)) with false by lia. f_equal. lia.
  - rewrite zlen_cons in *. pose proof (zlen_nonneg w). inversion H; subst. destruct n as [|n]; [lia|]. cbn [lws_loop]. rewrite rd_con by (auto; lia). rewrite C. rewrite (rd_of_zget _ _ c); [|rewrite zget_app_r by lia; replace (zlen p - zlen p) with 0 by lia; reflexivity]. cbn [bind]. replace ((c =? 32) || (c =? 9)) with true by lia.
    rewrite (IH n s (zlen p + 1)); [f_equal; lia|exact W|assumption|lia|lia|]. exists (p ++ [c]), r. split; [rewrite <- app_assoc; exact C|]. split; [rewrite zlen_app; reflexivity|exact Hr].
Qed.
Lemma zap_lws_ok J s : junk_ok J -> dok s -> d_len s < 1000000 -> exists t, dw_zap_lws J s = Ok (Some t) /\ dok t /\ con t = strip (con s).
Proof.
  intros HJ D Hl. pose proof D as (W & Hlt). pose proof (zlen_con s W) as Lc. unfold dw_zap_lws. rewrite (dok_sane s D). cbn [negb]. destruct (strip_split (con s)) as (w & E & H & N). pose proof (dwf_len s W).
  rewrite (lws_loop_ok w (Z.to_nat (d_len s)) s 0 W H ltac:(lia) ltac:(lia)); [|exists [], (strip (con s)); auto]. cbn [bind]. rewrite Z.add_0_l. assert (d_len s = zlen w + zlen (strip (con s))) as Ld by (rewrite <- Lc, E at 1; apply zlen_app). pose proof (zlen_nonneg w). pose proof (zlen_nonneg (strip (con s))).
  destruct (Z.leb_spec (d_len s) (zlen w)).
  - destruct (dw_create_ok J 1 HJ ltac:(lia)) as (t & -> & Wt & Et & Xt). exists t. split; [reflexivity|]. split; [split; [exact Wt|lia]|]. destruct N as [->|(b & u & Eb & _)]; [unfold con; rewrite Et; apply zslice_nil|]. rewrite Eb, zlen_cons in Ld. pose proof (zlen_nonneg u). lia.
  - rewrite (dw_substr_rest J s (zlen w) 1 D ltac:(lia)). destruct (dw_substr_ok J s (zlen w) (d_len s - zlen w) 1 HJ D ltac:(lia) ltac:(lia) ltac:(lia) ltac:(lia) ltac:(lia)) as (t & -> & Dt & Ct & Mt & Lt). exists t. split; [reflexivity|]. split; [exact Dt|]. rewrite Ct, E at 1. rewrite zslice_app_r by lia. rewrite Z.sub_diag. replace (d_len s - zlen w) with (zlen (strip (con s))) by lia. apply zslice_all.
Qed.
Lemma pop_last_ok J s : junk_ok J -> dok s -> d_len s < 1000000 ->
  exists Y s', pop_last_item J s = Ok (Some (cstring (strip Y)), s') /\ dok s' /\ d_len s' <= d_len s /\ nocomma Y /\ (con s = con s' ++ 44 :: Y \/ (con s = Y /\ con s' = [])).
Proof.
  intros HJ D Hl. unfold pop_last_item. destruct (qspop_ok J s HJ D Hl) as (Y & t & s' & -> & Dt & Ds & Ct & N & L1 & L2 & H). cbn [bind]. destruct (zap_lws_ok J t HJ Dt ltac:(lia)) as (u & -> & Du & Cu). cbn [bind]. unfold dw_to_cstr. rewrite (dok_sane u Du). cbn [negb]. rewrite Cu, Ct.
  exists Y, s'. split; [reflexivity|]. split; [exact Ds|]. split; [exact L1|]. split; [exact N|exact H].
Qed.

(** ** Masks *)
Definition ones (k : Z) : Z := 256 - 2 ^ (8 - k).
(** The [i]-th byte of a mask of [n] bits. *)
Definition mask_byte (n i : Z) : Z := ones (Z.max 0 (Z.min 8 (n - 8 * i))).
Definition mask_bytes (n : Z) (len : nat) : list Z := map (fun i => mask_byte n (Z.of_nat i)) (seq 0 len).
Lemma in_upto n k : 0 <= n <= Z.of_nat k -> In n (map Z.of_nat (seq 0 (S k))).
Proof. intros H. apply in_map_iff. exists (Z.to_nat n). split; [lia|]. apply in_seq. lia. Qed.
Ltac each_num H := match type of H with _ \/ _ => destruct H as [<-|H]; [vm_compute; reflexivity|each_num H] | False => destruct H end.
Lemma seventeen (l : list Z) : zlen l = 17 -> exists a b c d e f g h i j k m n o p q r, l = [a; b; c; d; e; f; g; h; i; j; k; m; n; o; p; q; r].
Proof.
  intros H. unfold zlen in H. assert (length l = 17%nat) as E by lia. clear H. repeat (destruct l as [|? l]; [discriminate|cbn [length] in E; apply eq_add_S in E]). destruct l; [|discriminate]. repeat eexists.
Qed.
Lemma netmask4 n str : zlen str = 17 -> 0 <= n <= 32 -> make_netmask n str 4 = Ok (mask_bytes n 4 ++ skipn 4 str).
Proof.
  intros H Hn. destruct (seventeen str H) as (a & b & c & d & e & f & g & h & i & j & k & m & p & o & q & r & s & ->). pose proof (in_upto n 32 ltac:(lia)) as I. remember (map Z.of_nat (seq 0 33)) as ns eqn:En. vm_compute in En. subst ns. cbn [In] in I. each_num I.
Qed.
Lemma netmask16 n str : zlen str = 17 -> 0 <= n <= 128 -> make_netmask n str 16 = Ok (mask_bytes n 16 ++ skipn 16 str).
Proof.
  intros H Hn. destruct (seventeen str H) as (a & b & c & d & e & f & g & h & i & j & k & m & p & o & q & r & s & ->). pose proof (in_upto n 128 ltac:(lia)) as I. remember (map Z.of_nat (seq 0 129)) as ns eqn:En. vm_compute in En. subst ns. cbn [In] in I. each_num I.
Qed.

(** ** Addresses in networks *)
Definition of_bits (l : list bool) : Z := fold_left (fun v (b : bool) => 2 * v + (if b then 1 else 0)) l 0.
Lemma land_ones k x : 0 <= k <= 8 -> byte x -> Z.land x (ones k) = of_bits (firstn (Z.to_nat k) (bits8 x) ++ repeat false (8 - Z.to_nat k)).
Proof.
  intros Hk. pose proof (in_upto k 8 ltac:(lia)) as I. vm_compute in I.
  repeat (destruct I as [<-|I]; [revert x; apply byte_eqb; vm_compute; reflexivity|]). destruct I.
Qed.
Lemma firstn_land k x : 0 <= k <= 8 -> byte x -> firstn (Z.to_nat k) (bits8 x) = firstn (Z.to_nat k) (bits8 (Z.land x (ones k))).
Proof.
  intros Hk Hx. assert (forall b c : list bool, (if list_eq_dec Bool.bool_dec b c then true else false) = true -> b = c) as HD by (intros b c; destruct (list_eq_dec Bool.bool_dec b c); congruence).
  apply HD. pose proof (in_upto k 8 ltac:(lia)) as I. vm_compute in I. revert x Hx.
  repeat (destruct I as [<-|I]; [apply byte_all with (P := fun x => if list_eq_dec Bool.bool_dec _ (firstn _ (bits8 (Z.land x _))) then true else false); vm_compute; reflexivity|]). destruct I.
Qed.
Lemma land_same k x y : 0 <= k <= 8 -> byte x -> byte y -> (Z.land x (ones k) = Z.land y (ones k) <-> firstn (Z.to_nat k) (bits8 x) = firstn (Z.to_nat k) (bits8 y)).
Proof.
  intros Hk Hx Hy. split; intros H.
  - rewrite (firstn_land k x), (firstn_land k y) by assumption. rewrite H. reflexivity.
  - rewrite !land_ones by assumption. rewrite H. reflexivity.
Qed.
Definition mask_match (n : Z) (i : Z) (net ip : list Z) : Prop := forall j x y, zget net j = Some x -> zget ip j = Some y -> Z.land x (mask_byte n (i + j)) = Z.land y (mask_byte n (i + j)).
Lemma firstn_bits n x l : firstn (Z.to_nat n) (bits8 x ++ l) = firstn (Z.to_nat (Z.max 0 (Z.min 8 n))) (bits8 x) ++ firstn (Z.to_nat (n - 8)) l.
Proof.
  rewrite firstn_app. change (length (bits8 x)) with 8%nat. f_equal; [|f_equal; lia]. destruct (Z_le_dec n 8); [f_equal; lia|]. rewrite !firstn_all2 by (change (length (bits8 x)) with 8%nat; lia). reflexivity.
Qed.
Lemma app_eq_len {A} (a b c d : list A) : length a = length b -> (a ++ c = b ++ d <-> a = b /\ c = d).
Proof.
  intros H. split; [|intros (-> & ->); reflexivity]. revert b H. induction a as [|x a IH]; intros [|y b] H E; try discriminate; [auto|]. cbn [app] in E. injection E as -> E. cbn [length] in H. destruct (IH b ltac:(lia) E) as (-> & ->). auto.
Qed.
Lemma mask_match_bits ip : forall net n i, bytes ip -> bytes net -> zlen ip = zlen net -> 0 <= i ->
  (mask_match n i net ip <-> firstn (Z.to_nat (n - 8 * i)) (bits ip) = firstn (Z.to_nat (n - 8 * i)) (bits net)).
Proof.
  induction ip as [|y ip IH]; intros [|x net] n i By Bx Hl Hi; try (rewrite zlen_cons in Hl; pose proof (zlen_nonneg ip); change (zlen (@nil Z)) with 0 in Hl; lia); try (rewrite zlen_cons in Hl; pose proof (zlen_nonneg net); change (zlen (@nil Z)) with 0 in Hl; lia).
  - split; [reflexivity|]. intros _ j x y Hx. apply zget_range in Hx. change (zlen (@nil Z)) with 0 in Hx. lia.
  - rewrite !zlen_cons in Hl. inversion By; subst. inversion Bx; subst. cbn [bits flat_map]. fold (bits ip) (bits net). rewrite !firstn_bits. rewrite app_eq_len by (rewrite !firstn_length; reflexivity).
    replace (n - 8 * i - 8) with (n - 8 * (i + 1)) by lia. rewrite <- (IH net n (i + 1)) by (auto; lia). fold (mask_byte n i) in *.
    rewrite <- (land_same (Z.max 0 (Z.min 8 (n - 8 * i))) y x) by (auto; lia). fold (mask_byte n i). split.
    + intros M. split; [symmetry; replace i with (i + 0) by lia; apply M; apply zget_cons_0|]. intros j a b Ha Hb. pose proof (zget_range _ _ _ Ha). replace (i + 1 + j) with (i + (j + 1)) by lia. apply M; rewrite zget_cons_S by lia; replace (j + 1 - 1) with j by lia; assumption.
    + intros (M0 & M) j a b Ha Hb. pose proof (zget_range _ _ _ Ha). destruct (Z.eq_dec j 0) as [->|Nj].
      * rewrite zget_cons_0 in Ha, Hb. injection Ha as <-. injection Hb as <-. rewrite Z.add_0_r. symmetry. exact M0.
      * rewrite zget_cons_S in Ha, Hb by lia. replace (i + j) with (i + 1 + (j - 1)) by lia. apply M; assumption.
Qed.
Lemma zget_mask_bytes n len i : 0 <= i < Z.of_nat len -> zget (mask_bytes n len) i = Some (mask_byte n i).
Proof.
  intros H. unfold zget, mask_bytes. replace (i <? 0) with false by lia. rewrite nth_error_map. replace (nth_error (seq 0 len) (Z.to_nat i)) with (Some (Z.to_nat i)); [cbn [option_map]; f_equal; f_equal; lia|].
  symmetry. rewrite (nth_error_nth' (seq 0 len) 0%nat) by (rewrite seq_length; lia). f_equal. rewrite seq_nth by lia. lia.
Qed.
Lemma same_net_ok k : forall b emask eip ip, 0 <= b -> b + Z.of_nat k <= zlen emask -> b + Z.of_nat k <= zlen eip -> b + Z.of_nat k <= zlen ip ->
  exists r, same_net k b eip emask ip = Ok r /\ (r = true <-> forall j x y m, b <= j < b + Z.of_nat k -> zget eip j = Some x -> zget ip j = Some y -> zget emask j = Some m -> Z.land x m = Z.land y m).
Proof.
  induction k as [|k IH]; intros b emask eip ip Hb H1 H2 H3; cbn [same_net]; [exists true; split; [reflexivity|]; split; [intros _ j x y m Hj; lia|reflexivity]|].
  destruct (rd_ok emask b ltac:(lia)) as (m & -> & Gm). destruct (rd_ok eip b ltac:(lia)) as (x & -> & Gx). destruct (rd_ok ip b ltac:(lia)) as (y & -> & Gy). cbn [bind]. destruct (Z.eqb_spec (Z.land x m) (Z.land y m)) as [E|N]; cbn [negb].
  - destruct (IH (b + 1) emask eip ip ltac:(lia) ltac:(lia) ltac:(lia) ltac:(lia)) as (r & -> & Hr). exists r. split; [reflexivity|]. rewrite Hr. split; intros H j x' y' m' Hj G1 G2 G3; [|apply (H j); auto; lia]. destruct (Z.eq_dec j b) as [->|]; [congruence|]. apply (H j); auto; lia.
  - exists false. split; [reflexivity|]. split; [discriminate|]. intros H. exfalso. apply N. apply (H b); auto; lia.
Qed.

(** ** Entries of the table *)
Definition ent_ok (e : ipmask) : Prop := zlen (im_ip e) = 17 /\ bytes (im_ip e) /\ zlen (im_mask e) = 17 /\ (im_len e = 0 \/ im_len e = 4 \/ im_len e = 16).
Definition ent_is (e : ipmask) (net : list Z) (n : Z) : Prop :=
  ent_ok e /\ bytes net /\ im_len e = zlen net /\ (zlen net = 4 \/ zlen net = 16) /\ (forall j, 0 <= j < zlen net -> zget (im_ip e) j = zget net j) /\ (forall j, 0 <= j < zlen net -> zget (im_mask e) j = Some (mask_byte n j)).
Lemma ipm0_ok : ent_ok ipm0.
Proof. unfold ent_ok, ipm0. cbn [im_ip im_mask im_len]. split; [reflexivity|]. split; [apply bytesb_spec; reflexivity|]. split; [reflexivity|auto]. Qed.
Lemma unset_ok e : ent_ok e -> ent_ok (unset e).
Proof. intros (H1 & H2 & H3 & _). unfold unset, ent_ok. cbn [im_ip im_mask im_len]. auto. Qed.
Lemma store_ok new old : zlen new <= zlen old -> bytes new -> bytes old -> zlen (store new old) = zlen old /\ bytes (store new old) /\ forall j, 0 <= j < zlen new -> zget (store new old) j = zget new j.
Proof.
  intros H B1 B2. unfold store. split; [rewrite zlen_app; unfold zlen in *; rewrite skipn_length; lia|]. split; [apply bytes_app; split; [exact B1|apply bytes_skipn; exact B2]|]. intros j Hj. apply zget_app_l. lia.
Qed.
Lemma core_ok L e c : libc_ok L -> ent_ok e -> ent_ok (pop_ip_core L e c) /\ im_mask (pop_ip_core L e c) = im_mask e.
Proof.
  intros (H4 & H6 & _) (L1 & B1 & L2 & _). unfold pop_ip_core. destruct (pton4 L c) as [a|] eqn:E4; [|destruct (pton6 L c) as [a|] eqn:E6].
  - destruct (H4 c a E4) as (Ba & La). destruct (store_ok a (im_ip e) ltac:(lia) Ba B1) as (S1 & S2 & _). split; [|reflexivity]. unfold ent_ok. cbn [im_ip im_mask im_len]. split; [lia|]. auto.
  - destruct (H6 c a E6) as (Ba & La). destruct (store_ok a (im_ip e) ltac:(lia) Ba B1) as (S1 & S2 & _). split; [|reflexivity]. unfold ent_ok. cbn [im_ip im_mask im_len]. split; [lia|]. auto.
  - split; [|reflexivity]. unfold ent_ok. cbn [im_ip im_mask im_len]. auto.
Qed.
Lemma core_is L e c net : libc_ok L -> ent_ok e -> addr_is L c net -> bytes net /\ (zlen net = 4 \/ zlen net = 16) /\ im_len (pop_ip_core L e c) = zlen net /\ forall j, 0 <= j < zlen net -> zget (im_ip (pop_ip_core L e c)) j = zget net j.
Proof.
  intros (H4 & H6 & _) (L1 & B1 & L2 & _) [E|(E & E6)]; unfold pop_ip_core; rewrite E.
  - destruct (H4 c net E) as (Ba & La). destruct (store_ok net (im_ip e) ltac:(lia) Ba B1) as (S1 & S2 & S3). cbn [im_ip im_len]. split; [exact Ba|]. split; [auto|]. split; [lia|exact S3].
  - rewrite E6. destruct (H6 c net E6) as (Ba & La). destruct (store_ok net (im_ip e) ltac:(lia) Ba B1) as (S1 & S2 & S3). cbn [im_ip im_len]. split; [exact Ba|]. split; [auto|]. split; [lia|exact S3].
Qed.
Lemma netmask_ok n str len : zlen str = 17 -> len = 4 \/ len = 16 -> 0 <= n <= 8 * len -> exists m, make_netmask n str len = Ok m /\ zlen m = 17 /\ forall j, 0 <= j < len -> zget m j = Some (mask_byte n j).
Proof.
  intros H [->| ->] Hn; [rewrite netmask4 by (auto; lia)|rewrite netmask16 by (auto; lia)]; eexists; (split; [reflexivity|]; split; [rewrite zlen_app; unfold zlen, mask_bytes in *; rewrite map_length, seq_length, skipn_length; lia|]);
    intros j Hj; rewrite zget_app_l by (unfold zlen, mask_bytes; rewrite map_length, seq_length; lia); apply zget_mask_bytes; lia.
Qed.
Lemma netmask0 n str : make_netmask n str 0 = Ok str.
Proof. reflexivity. Qed.
Lemma atoi_cases q : exists v, atoi q = Ok v \/ atoi q = Bad SignedOverflow.
Proof. unfold atoi. cbv zeta. destruct (_ || _); eauto. Unshelve. exact 0. Qed.
Lemma pop_ip_mask_safe J L s e : junk_ok J -> libc_ok L -> dok s -> d_len s < 1000000 -> ent_ok e ->
  match pop_ip_mask J L s e with Ok (e', s') => ent_ok e' /\ dok s' /\ d_len s' <= d_len s | Fail => False | Bad f => f = SignedOverflow end.
Proof.
  intros HJ HL D Hl He. unfold pop_ip_mask. destruct (pop_last_ok J s HJ D Hl) as (Y & s' & -> & Ds & Hls & _). cbn [bind]. set (c := cstring (strip Y)). destruct (at_slash c) as [(x & q)|].
  - destruct (core_ok L e x HL He) as (Hc & Hm). destruct q as [|q0 q]; [auto|]. destruct (atoi_cases (q0 :: q)) as (v & [-> | ->]); cbn [bind]; [|reflexivity]. set (e1 := pop_ip_core L e x) in *. destruct Hc as (C1 & C2 & C3 & C4).
    destruct (negb (im_len e1 =? 4) && negb (im_len e1 =? 16)) eqn:En; [split; [unfold ent_ok; auto|auto]|]. cbv zeta. assert (im_len e1 = 4 \/ im_len e1 = 16) as Hlen by lia. set (n := if (v <? 0) || (im_len e1 * 8 <? v) then _ else _). assert (0 <= n <= 8 * im_len e1) as Hn by (unfold n; destruct ((v <? 0) || (im_len e1 * 8 <? v)) eqn:Ev; lia). clearbody n.
    destruct (netmask_ok n (im_mask e1) (im_len e1) C3 Hlen Hn) as (m & -> & Lm & _). cbn [bind]. split; [unfold ent_ok; cbn [im_ip im_mask im_len]; auto|auto].
  - destruct (core_ok L e c HL He) as (Hc & Hm). cbv zeta. set (e1 := pop_ip_core L e c) in *. destruct Hc as (C1 & C2 & C3 & [E|C4]).
    + rewrite E. rewrite netmask0. cbn [bind]. split; [unfold ent_ok; cbn [im_ip im_mask im_len]; auto|auto].
    + destruct (netmask_ok (im_len e1 * 8) (im_mask e1) (im_len e1) C3 C4 ltac:(lia)) as (m & -> & Lm & _). cbn [bind]. split; [unfold ent_ok; cbn [im_ip im_mask im_len]; auto|auto].
Qed.
Lemma cstring_id l : Forall (fun b => b <> 0) l -> cstring l = l.
Proof. induction 1 as [|b l H _ IH]; cbn [cstring]; [reflexivity|]. replace (b =? 0) with false by lia. rewrite IH. reflexivity. Qed.
Lemma at_slash_none l : Forall (fun b => b <> 47) l -> at_slash l = None.
Proof. induction 1 as [|b l H _ IH]; cbn [at_slash]; [reflexivity|]. replace (b =? 47) with false by lia. rewrite IH. reflexivity. Qed.
Lemma at_slash_some l q : Forall (fun b => b <> 47) l -> at_slash (l ++ 47 :: q) = Some (l, q).
Proof. induction 1 as [|b l H _ IH]; cbn [at_slash app]; [reflexivity|]. replace (b =? 47) with false by lia. rewrite IH. reflexivity. Qed.
Lemma strip_blanks w l : Forall (fun b => b = 32 \/ b = 9) w -> strip (w ++ l) = strip l.
Proof. induction 1 as [|b w H _ IH]; cbn [strip app]; [reflexivity|]. replace ((b =? 32) || (b =? 9)) with true by lia. exact IH. Qed.
Lemma digits_all d : forall acc, Forall (fun b => 48 <= b <= 57) d -> digits d acc = fold_left (fun v b => v * 10 + (b - 48)) d acc.
Proof. induction d as [|b d IH]; intros acc H; cbn [digits fold_left]; [reflexivity|]. inversion H; subst. replace ((48 <=? b) && (b <=? 57)) with true by lia. apply IH. assumption. Qed.
Lemma decimal_nonneg d : forall acc, 0 <= acc -> Forall (fun b => 48 <= b <= 57) d -> 0 <= fold_left (fun v b => v * 10 + (b - 48)) d acc.
Proof. induction d as [|b d IH]; intros acc Ha H; cbn [fold_left]; [exact Ha|]. inversion H; subst. apply IH; [lia|assumption]. Qed.
Lemma atoi_decimal d : d <> [] -> Forall (fun b => 48 <= b <= 57) d -> decimal d <= 2147483647 -> atoi d = Ok (decimal d).
Proof.
  intros Nd H Hv. destruct d as [|b d]; [congruence|]. pose proof (decimal_nonneg (b :: d) 0 ltac:(lia) H) as Hp. inversion H; subst. unfold atoi. cbn [skip_space]. replace ((b =? 32) || ((9 <=? b) && (b <=? 13))) with false by lia. cbv zeta iota. replace (b =? 45) with false by lia. replace (b =? 43) with false by lia. rewrite digits_all by assumption. fold (decimal (b :: d)) in *.
  replace ((decimal (b :: d) <? -2147483648) || (2147483647 <? decimal (b :: d))) with false by lia. reflexivity.
Qed.
Lemma item_nocomma L e net n : item_is L e net n -> nocomma (item_text e).
Proof.
  intros (H1 & H2 & _ & _ & H3). unfold nocomma, item_text. apply Forall_app. split; [eapply Forall_impl; [|exact H1]; cbn beta; lia|]. apply Forall_app. split; [eapply Forall_impl; [|exact H2]; cbn beta; tauto|].
  destruct (i_num e) as [d|]; [|constructor]. destruct H3 as (_ & H3 & _). constructor; [lia|]. eapply Forall_impl; [|exact H3]; cbn beta; lia.
Qed.
Lemma item_cstring L e net n : item_is L e net n -> cstring (strip (item_text e)) = i_addr e ++ match i_num e with None => [] | Some d => 47 :: d end.
Proof.
  intros (H1 & H2 & (b & t & Ea & N1 & N2) & _ & H3). unfold item_text. rewrite strip_blanks by exact H1. rewrite Ea. cbn [strip app]. replace ((b =? 32) || (b =? 9)) with false by lia. rewrite Ea in H2. inversion H2; subst.
  change (cstring ((b :: t) ++ match i_num e with Some d => 47 :: d | None => [] end) = (b :: t) ++ match i_num e with Some d => 47 :: d | None => [] end). apply cstring_id. apply Forall_app. split; [eapply Forall_impl; [|exact H2]; cbn beta; tauto|].
  destruct (i_num e) as [d|]; [|constructor]. destruct H3 as (_ & H3 & _). constructor; [lia|]. eapply Forall_impl; [|exact H3]; cbn beta; lia.
Qed.
Lemma pop_item J L s e it net n : junk_ok J -> libc_ok L -> dok s -> d_len s < 1000000 -> ent_ok e -> item_is L it net n ->
  forall A, (con s = A ++ 44 :: item_text it \/ (A = [] /\ con s = item_text it)) ->
  exists e' s', pop_ip_mask J L s e = Ok (e', s') /\ ent_is e' net n /\ dok s' /\ d_len s' <= d_len s /\ con s' = A.
Proof.
  intros HJ HL D Hl He Hi A HA. unfold pop_ip_mask. destruct (pop_last_ok J s HJ D Hl) as (Y & s' & -> & Ds & Hls & NY & HY). cbn [bind]. pose proof (item_nocomma _ _ _ _ Hi) as NI.
  assert (forall l, nocomma l -> forall X Z0, l <> X ++ 44 :: Z0) as NC. { intros l H X Z0 ->. apply Forall_app in H as [_ H]. inversion H; congruence. }
  assert (Y = item_text it /\ con s' = A) as (-> & CA).
  { destruct HA as [HA|(-> & HA)], HY as [HY|(HY & HY2)]; rewrite HA in HY.
    - revert HY. assert (forall X X' Z0 Z1 : list Z, nocomma Z0 -> nocomma Z1 -> X ++ 44 :: Z0 = X' ++ 44 :: Z1 -> Z1 = Z0 /\ X' = X) as HU; [|intros E; eapply HU; eassumption].
      clear. induction X as [|x X IH]; intros [|x' X'] Z0 Z1 N0 N1 E; cbn [app] in E.
      + injection E as ->. auto.
      + injection E as <- ->. exfalso. apply Forall_app in N0 as [_ N0]. inversion N0; congruence.
      + injection E as -> <-. exfalso. apply Forall_app in N1 as [_ N1]. inversion N1; congruence.
      + injection E as -> E. destruct (IH X' Z0 Z1 N0 N1 E) as (-> & ->). auto.
    - exfalso. symmetry in HY. exact (NC _ NY _ _ HY).
    - exfalso. exact (NC _ NI _ _ HY).
    - split; [congruence|exact HY2]. }
  rewrite (item_cstring _ _ _ _ Hi). destruct Hi as (H1 & H2 & _ & Ha & H3). assert (Forall (fun b => b <> 47) (i_addr it)) as NS by (eapply Forall_impl; [|exact H2]; cbn beta; tauto). destruct (core_ok L e (i_addr it) HL He) as ((C1 & C2 & C3 & C4) & _). destruct (core_is L e (i_addr it) net HL He Ha) as (B1 & B2 & B3 & B4). pose proof (zlen_nonneg net).
  destruct (i_num it) as [d|].
  - destruct H3 as (Nd & Hd & -> & Hle). rewrite at_slash_some by exact NS. destruct d as [|d0 d]; [congruence|]. rewrite atoi_decimal by (auto; lia). cbn [bind]. rewrite B3. replace (negb (zlen net =? 4) && negb (zlen net =? 16)) with false by lia. cbv zeta. pose proof (decimal_nonneg (d0 :: d) 0 ltac:(lia) Hd) as Hp. fold (decimal (d0 :: d)) in Hp.
    replace ((decimal (d0 :: d) <? 0) || (zlen net * 8 <? decimal (d0 :: d))) with false by lia. destruct (netmask_ok (decimal (d0 :: d)) (im_mask (pop_ip_core L e (i_addr it))) (zlen net) C3 B2 ltac:(lia)) as (m & -> & Lm & Hm). cbn [bind].
    eexists; eexists; split; [reflexivity|]. split; [|auto]. unfold ent_is, ent_ok. cbn [im_ip im_mask im_len]. split; [split; [exact C1|]; split; [exact C2|]; split; [exact Lm|lia]|]. auto.
  - subst n. rewrite app_nil_r. rewrite at_slash_none by exact NS. cbv zeta. rewrite B3. destruct (netmask_ok (zlen net * 8) (im_mask (pop_ip_core L e (i_addr it))) (zlen net) C3 B2 ltac:(lia)) as (m & -> & Lm & Hm). cbn [bind].
    eexists; eexists; split; [reflexivity|]. split; [|auto]. unfold ent_is, ent_ok. cbn [im_ip im_mask im_len]. split; [split; [exact C1|]; split; [exact C2|]; split; [exact Lm|lia]|]. replace (8 * zlen net) with (zlen net * 8) by lia. auto.
Qed.

(** ** The whole list *)
Definition items (L : libc) (es : list item) (nets : list (list Z * Z)) : Prop := Forall2 (fun e p => item_is L e (fst p) (snd p)) es nets.
Lemma commas_snoc l t : commas (l ++ [t]) = match l with [] => t | _ => commas l ++ 44 :: t end.
Proof.
  induction l as [|a l IH]; [reflexivity|]. cbn [app]. destruct l as [|b l]; [reflexivity|]. cbn [app] in *. change (commas (a :: b :: l ++ [t])) with (a ++ 44 :: commas (b :: l ++ [t])). rewrite IH. change (commas (a :: b :: l)) with (a ++ 44 :: commas (b :: l)). rewrite <- app_assoc. reflexivity.
Qed.
Lemma pop_empty J L s e : junk_ok J -> libc_ok L -> dok s -> d_len s < 1000000 -> ent_ok e -> con s = [] -> exists e' s', pop_ip_mask J L s e = Ok (e', s') /\ ent_ok e' /\ im_len e' = 0.
Proof.
  intros HJ HL D Hl He C. unfold pop_ip_mask. destruct (pop_last_ok J s HJ D Hl) as (Y & s' & -> & Ds & Hls & _ & HY). cbn [bind]. assert (Y = []) as -> by (rewrite C in HY; destruct HY as [HY|(HY & _)]; [destruct (con s'); discriminate|auto]).
  cbn [strip cstring at_slash]. destruct (core_ok L e [] HL He) as ((C1 & C2 & C3 & C4) & _). assert (im_len (pop_ip_core L e []) = 0) as E0 by (unfold pop_ip_core; destruct HL as (_ & _ & -> & ->); reflexivity). cbv zeta. rewrite E0. rewrite netmask0. cbn [bind].
  eexists; eexists; split; [reflexivity|]. unfold ent_ok. cbn [im_ip im_mask im_len]. split; [|reflexivity]. split; [exact C1|]. split; [exact C2|]. split; [exact C3|]. left. reflexivity.
Qed.
Lemma unset_forall k l : Forall ent_ok l -> Forall ent_ok (map unset (firstn k l) ++ skipn k l).
Proof.
  intros H. rewrite <- (firstn_skipn k l) in H. apply Forall_app in H as [H1 H2]. apply Forall_app. split; [|exact H2]. apply Forall_map. eapply Forall_impl; [|exact H1]. apply unset_ok.
Qed.
Lemma unset_length k (l : list ipmask) : length (map unset (firstn k l) ++ skipn k l) = length l.
Proof. rewrite app_length, map_length, <- app_length, firstn_skipn. reflexivity. Qed.
Lemma ipmask_loop_safe J L n : forall s tab, junk_ok J -> libc_ok L -> dok s -> d_len s < 1000000 -> Forall ent_ok tab -> (n < length tab)%nat ->
  match ipmask_loop J L n s tab with Ok tab' => Forall ent_ok tab' /\ length tab' = length tab | Fail => False | Bad f => f = SignedOverflow end.
Proof.
  induction n as [|n IH]; intros s tab HJ HL D Hl Ht Hn; destruct tab as [|e tab]; try (cbn [length] in Hn; lia); cbn [ipmask_loop].
  - split; [apply (unset_forall 1); exact Ht|apply (unset_length 1)].
  - inversion Ht; subst. pose proof (pop_ip_mask_safe J L s e HJ HL D Hl ltac:(assumption)) as HP. destruct (pop_ip_mask J L s e) as [(e' & s')| |f]; cbn [bind]; [|contradiction|exact HP]. destruct HP as (He & Ds & Hls).
    destruct (im_len e' =? 0).
    + split; [apply (unset_forall (S (S n)) (e' :: tab)); constructor; assumption|]. pose proof (unset_length (S (S n)) (e' :: tab)) as U. cbn [length] in *. exact U.
    + cbn [length] in Hn. pose proof (IH s' tab HJ HL Ds ltac:(lia) ltac:(assumption) ltac:(lia)) as HI. destruct (ipmask_loop J L n s' tab) as [tab'| |f]; cbn [bind]; [|contradiction|exact HI]. destruct HI as (H1' & H2'). split; [constructor; assumption|cbn [length]; lia].
Qed.
Lemma ipmask_loop_ok J L n : forall ts nets s tab, junk_ok J -> libc_ok L -> dok s -> d_len s < 1000000 -> Forall ent_ok tab -> (n < length tab)%nat ->
  items L ts nets -> (length ts <= n)%nat -> con s = commas (rev (map item_text ts)) ->
  exists ents e0 rest, ipmask_loop J L n s tab = Ok (ents ++ e0 :: rest) /\ im_len e0 = 0 /\ Forall2 (fun e p => ent_is e (fst p) (snd p)) ents nets /\ length (ents ++ e0 :: rest) = length tab.
Proof.
  induction n as [|n IH]; intros ts nets s tab HJ HL D Hl Ht Hn HT Hk C; destruct tab as [|e tab]; try (cbn [length] in Hn; lia); cbn [ipmask_loop].
  - destruct ts; [|cbn [length] in Hk; lia]. inversion HT; subst. exists [], (unset e), tab. split; [reflexivity|]. split; [reflexivity|]. split; [constructor|reflexivity].
  - inversion Ht as [|? ? He Ht']; subst. destruct ts as [|it ts]; inversion HT as [|? (net & m) ? nets' Hit HT']; subst.
    + destruct (pop_empty J L s e HJ HL D Hl He C) as (e' & s' & -> & He' & E0). cbn [bind]. rewrite E0. change (0 =? 0) with true. cbv iota. cbn [firstn map app]. exists [], (unset e'), (map unset (firstn (S n) tab) ++ skipn (S n) tab). split; [reflexivity|]. split; [reflexivity|]. split; [constructor|]. cbn [app length]. rewrite (unset_length (S n)). reflexivity.
    + cbn [fst snd] in Hit. cbn [map rev] in C. rewrite commas_snoc in C.
      destruct (pop_item J L s e it net m HJ HL D Hl He Hit (commas (rev (map item_text ts)))) as (e' & s' & -> & Hent & Ds & Hls & Cs).
      { destruct (rev (map item_text ts)) eqn:Er; [right; split; [reflexivity|exact C]|left; exact C]. }
      cbn [bind]. pose proof Hent as (_ & _ & El & Hz & _). replace (im_len e' =? 0) with false by lia. cbn [length] in Hn, Hk.
      destruct (IH ts nets' s' tab HJ HL Ds ltac:(lia) Ht' ltac:(lia) HT' ltac:(lia) Cs) as (ents & e0 & rest & -> & E0 & F & Len). cbn [bind]. exists (e' :: ents), e0, rest. split; [reflexivity|]. split; [exact E0|]. split; [constructor; [exact Hent|exact F]|]. cbn [app length]. congruence.
Qed.

(** ** The check *)
Lemma acl_loop_safe n : forall tab len ip, Forall ent_ok tab -> (n <= length tab)%nat -> len <= zlen ip -> exists r, acl_loop n tab len ip = Ok r /\ (r = 0 \/ r = 1).
Proof.
  induction n as [|n IH]; intros tab len ip Ht Hn Hi; destruct tab as [|e tab]; cbn [length] in Hn; try lia; cbn [acl_loop]; [eauto|eauto|]. inversion Ht as [|? ? (L1 & B1 & L2 & Hl) Ht']; subst.
  destruct (Z.eqb_spec (im_len e) 0); [eauto|]. destruct (Z.eqb_spec len (im_len e)) as [El|]; cbn [negb]; [|apply IH; auto; lia].
  destruct (same_net_ok (Z.to_nat len) 0 (im_mask e) (im_ip e) ip ltac:(lia) ltac:(lia) ltac:(lia) ltac:(lia)) as (r & -> & _). cbn [bind]. destruct r; [eauto|]. apply IH; auto; lia.
Qed.
Lemma ent_match e net n ip pad : ent_is e net n -> bytes ip -> zlen ip = zlen net -> exists r, same_net (Z.to_nat (zlen ip)) 0 (im_ip e) (im_mask e) (ip ++ pad) = Ok r /\ (r = true <-> in_net net n ip).
Proof.
  intros ((L1 & B1 & L2 & _) & Bn & El & Hz & Hip & Hm) Bi Hl. pose proof (zlen_nonneg pad). destruct (same_net_ok (Z.to_nat (zlen ip)) 0 (im_mask e) (im_ip e) (ip ++ pad) ltac:(lia) ltac:(lia) ltac:(lia) ltac:(rewrite zlen_app; lia)) as (r & -> & Hr). exists r. split; [reflexivity|]. rewrite Hr. unfold in_net.
  pose proof (mask_match_bits ip net n 0 Bi Bn Hl ltac:(lia)) as HM. rewrite Z.mul_0_r, Z.sub_0_r in HM. split.
  - intros H1. split; [exact Hl|]. apply HM. intros j x y Gx Gy. pose proof (zget_range _ _ _ Gx). rewrite Z.add_0_l. apply (H1 j); [lia|rewrite Hip by lia; exact Gx|rewrite zget_app_l by lia; exact Gy|apply Hm; lia].
  - intros (_ & H1). apply HM in H1. intros j x y m Hj Gx Gy Gm. rewrite Hip in Gx by lia. rewrite zget_app_l in Gy by lia. rewrite Hm in Gm by lia. injection Gm as <-. replace j with (0 + j) by lia. apply (H1 j); assumption.
Qed.
Lemma acl_loop_ok ents : forall n nets e0 rest ip pad, Forall2 (fun e p => ent_is e (fst p) (snd p)) ents nets -> im_len e0 = 0 -> (length ents < n)%nat -> bytes ip ->
  (exists net m, In (net, m) nets /\ in_net net m ip) /\ acl_loop n (ents ++ e0 :: rest) (zlen ip) (ip ++ pad) = Ok 1 \/
  ~ (exists net m, In (net, m) nets /\ in_net net m ip) /\ acl_loop n (ents ++ e0 :: rest) (zlen ip) (ip ++ pad) = Ok 0.
Proof.
  induction ents as [|e ents IH]; intros n nets e0 rest ip pad F E0 Hn Bi; destruct n as [|n]; cbn [length] in Hn; try lia; inversion F as [|? (net & m) ? nets' He F']; subst; cbn [acl_loop app].
  - rewrite E0. change (0 =? 0) with true. cbv iota. right. split; [|reflexivity]. intros (net & m & [] & _).
  - cbn [fst snd] in He. pose proof He as (_ & _ & El & Hz & _). replace (im_len e =? 0) with false by lia. destruct (Z.eqb_spec (zlen ip) (im_len e)) as [Ei|Ni]; cbn [negb].
    + destruct (ent_match e net m ip pad He Bi ltac:(lia)) as (r & -> & Hr). cbn [bind]. destruct r.
      * left. split; [|reflexivity]. exists net, m. split; [left; reflexivity|]. apply Hr. reflexivity.
      * destruct (IH n nets' e0 rest ip pad F' E0 ltac:(lia) Bi) as [((net' & m' & I & H) & E)|(H & E)]; [left|right]; (split; [|exact E]).
        -- exists net', m'. split; [right; exact I|exact H].
        -- intros (net' & m' & [I|I] & H'); [injection I as <- <-; apply Hr in H'; discriminate|apply H; eauto].
    + destruct (IH n nets' e0 rest ip pad F' E0 ltac:(lia) Bi) as [((net' & m' & I & H) & E)|(H & E)]; [left|right]; (split; [|exact E]).
      * exists net', m'. split; [right; exact I|exact H].
      * intros (net' & m' & [I|I] & H'); [injection I as <- <-; destruct H' as (H' & _); lia|apply H; eauto].
Qed.

(** ** Headers *)
Lemma byte2_query h : header_ok h -> (Z.land (h_qr h * 128 + h_opcode h * 8 + h_aa h * 4 + h_tc h * 2 + h_rd h) 249 =? 1) = (h_qr h =? 0) && (h_opcode h =? 0) && (h_rd h =? 1).
Proof.
  intros (_ & [-> | ->] & Ho & [-> | ->] & [-> | ->] & [-> | ->] & _); pose proof (in_upto (h_opcode h) 15 ltac:(lia)) as I; remember (map Z.of_nat (seq 0 16)) as ns eqn:En; vm_compute in En; subst ns; cbn [In] in I; each_num I.
Qed.
Lemma byte3_query h : header_ok h -> (Z.land (h_ra h * 128 + h_z h * 64 + h_ad h * 32 + h_cd h * 16 + h_rcode h) 79 =? 0) = (h_z h =? 0) && (h_rcode h =? 0).
Proof.
  intros (_ & _ & _ & _ & _ & _ & [-> | ->] & [-> | ->] & [-> | ->] & [-> | ->] & Ho & _); pose proof (in_upto (h_rcode h) 15 ltac:(lia)) as I; remember (map Z.of_nat (seq 0 16)) as ns eqn:En; vm_compute in En; subst ns; cbn [In] in I; each_num I.
Qed.
Lemma byte2_qr h : header_ok h -> (Z.land (h_qr h * 128 + h_opcode h * 8 + h_aa h * 4 + h_tc h * 2 + h_rd h) 128 =? 0) = (h_qr h =? 0).
Proof.
  intros (_ & [-> | ->] & Ho & [-> | ->] & [-> | ->] & [-> | ->] & _); pose proof (in_upto (h_opcode h) 15 ltac:(lia)) as I; remember (map Z.of_nat (seq 0 16)) as ns eqn:En; vm_compute in En; subst ns; cbn [In] in I; each_num I.
Qed.
Lemma get_qid_list a0 a1 a2 a3 a4 a5 a6 a7 a8 a9 a10 a11 rest len check : 12 <= len ->
  get_dns_qid (a0 :: a1 :: a2 :: a3 :: a4 :: a5 :: a6 :: a7 :: a8 :: a9 :: a10 :: a11 :: rest) len check =
    if (check =? 1) && negb (Z.land a2 128 =? 0) then Ok (-1)
    else if (check =? 2) && (negb (Z.land a2 249 =? 1) || negb (Z.land a3 79 =? 0) || negb (a4 =? 0) || negb (a5 =? 1) ||
              negb (a6 =? 0) || negb (a7 =? 0) || negb (a8 =? 0) || negb (a9 =? 0) || negb (a10 =? 0)) then Ok (-1)
    else if (check =? 2) && (a11 =? 1) then Ok (-2)
    else if (check =? 2) && negb (a11 =? 0) then Ok (-1)
    else if (a5 =? 0) && (a4 =? 0) && (a6 =? 0) && (a7 =? 0) && (a8 =? 0) && (a9 =? 0) && (a10 =? 0) && (a11 =? 0) then Ok (-1)
    else Ok (Z.lor (Z.shiftl a0 8) a1).
Proof. intros H. unfold get_dns_qid. replace (len <? 12) with false by lia. reflexivity. Qed.
Lemma get_qid_bytes (h : header) rest len check : header_ok h -> 12 <= len ->
  get_dns_qid (header_bytes h ++ rest) len check =
  if (check =? 1) && negb (h_qr h =? 0) then Ok (-1)
  else if (check =? 2) && negb ((h_qr h =? 0) && (h_opcode h =? 0) && (h_rd h =? 1) && (h_z h =? 0) && (h_rcode h =? 0) && (h_qdcount h =? 1) && (h_ancount h =? 0) && (h_nscount h =? 0) && (h_arcount h <? 256)) then Ok (-1)
  else if (check =? 2) && (h_arcount h =? 1) then Ok (-2)
  else if (check =? 2) && negb (h_arcount h =? 0) then Ok (-1)
  else if (h_qdcount h =? 0) && (h_ancount h =? 0) && (h_nscount h =? 0) && (h_arcount h =? 0) then Ok (-1)
  else Ok (h_id h).
Proof.
  intros H Hl. unfold header_bytes, num2. cbn [app]. rewrite get_qid_list by exact Hl.
  rewrite byte2_query, byte3_query, byte2_qr by exact H. pose proof H as (Hid & _ & _ & _ & _ & _ & _ & _ & _ & _ & _ & Hq & Ha & Hn & Hr). unfold word in *.
  rewrite lor_shiftl8 by lia. replace (h_id h / 256 * 256 + h_id h mod 256) with (h_id h) by lia.
  assert (forall x, 0 <= x < 65536 -> forall c, 0 <= c < 256 -> (x =? c) = (x / 256 =? 0) && (x mod 256 =? c)) as HC by (intros; lia).
  destruct (check =? 1) eqn:C1; cbn [andb].
  - destruct (h_qr h =? 0); cbn [negb andb]; [|reflexivity]. replace (check =? 2) with false by lia. cbn [andb]. rewrite !(HC _ Hq 0), !(HC _ Ha 0), !(HC _ Hn 0), !(HC _ Hr 0) by lia.
    match goal with |- (if ?x then _ else _) = (if ?y then _ else _) => replace x with y; [reflexivity|] end. destruct (h_qdcount h / 256 =? 0), (h_qdcount h mod 256 =? 0), (h_ancount h / 256 =? 0), (h_ancount h mod 256 =? 0), (h_nscount h / 256 =? 0), (h_nscount h mod 256 =? 0), (h_arcount h / 256 =? 0), (h_arcount h mod 256 =? 0); reflexivity.
  - destruct (check =? 2) eqn:C2; cbn [andb].
    + rewrite (HC _ Hq 1), !(HC _ Ha 0), !(HC _ Hn 0), (HC _ Hr 1) by lia. replace (h_arcount h <? 256) with (h_arcount h / 256 =? 0) by lia. rewrite (HC _ Hq 0), (HC _ Hr 0) by lia.
      destruct (h_qr h =? 0); cbn [negb andb orb]; [|reflexivity].
      destruct (h_opcode h =? 0); cbn [negb andb orb]; [|reflexivity].
      destruct (h_rd h =? 1); cbn [negb andb orb]; [|reflexivity].
      destruct (h_z h =? 0); cbn [negb andb orb]; [|reflexivity].
      destruct (h_rcode h =? 0); cbn [negb andb orb]; [|reflexivity].
      destruct (h_qdcount h / 256 =? 0); cbn [negb andb orb]; [|reflexivity].
      destruct (h_qdcount h mod 256 =? 1) eqn:E1; cbn [negb andb orb]; [|reflexivity]. replace (h_qdcount h mod 256 =? 0) with false by lia.
      destruct (h_ancount h / 256 =? 0); cbn [negb andb orb]; [|reflexivity].
      destruct (h_ancount h mod 256 =? 0); cbn [negb andb orb]; [|reflexivity].
      destruct (h_nscount h / 256 =? 0); cbn [negb andb orb]; [|reflexivity].
      destruct (h_nscount h mod 256 =? 0); cbn [negb andb orb]; [|reflexivity].
      destruct (h_arcount h / 256 =? 0); cbn [negb andb orb]; [|reflexivity].
      reflexivity.
    + rewrite !(HC _ Hq 0), !(HC _ Ha 0), !(HC _ Hn 0), !(HC _ Hr 0) by lia.
      match goal with |- (if ?x then _ else _) = (if ?y then _ else _) => replace x with y; [reflexivity|] end. destruct (h_qdcount h / 256 =? 0), (h_qdcount h mod 256 =? 0), (h_ancount h / 256 =? 0), (h_ancount h mod 256 =? 0), (h_nscount h / 256 =? 0), (h_nscount h mod 256 =? 0), (h_arcount h / 256 =? 0), (h_arcount h mod 256 =? 0); reflexivity.
Qed.
(** Every twelve bytes are a header. *)
Lemma header_of_bytes l : bytes l -> 12 <= zlen l -> exists h rest, header_ok h /\ l = header_bytes h ++ rest.
Proof.
  intros B Hl. do 12 (destruct l as [|? l]; [rewrite ?zlen_cons in Hl; change (zlen (@nil Z)) with 0 in Hl; lia|]). clear Hl.
  unfold bytes in B. do 12 match goal with H : Forall byte (_ :: _) |- _ => inversion H; clear H; subst end. unfold byte in *.
  match goal with |- exists h rest, _ /\ ?a0 :: ?a1 :: ?a2 :: ?a3 :: ?a4 :: ?a5 :: ?a6 :: ?a7 :: ?a8 :: ?a9 :: ?a10 :: ?a11 :: ?r = _ =>
    exists (mkheader (a0 * 256 + a1) (a2 / 128) (a2 / 8 mod 16) (a2 / 4 mod 2) (a2 / 2 mod 2) (a2 mod 2) (a3 / 128) (a3 / 64 mod 2) (a3 / 32 mod 2) (a3 / 16 mod 2) (a3 mod 16) (a4 * 256 + a5) (a6 * 256 + a7) (a8 * 256 + a9) (a10 * 256 + a11)), r end.
  unfold header_ok, header_bytes, num2, bit, word. cbn [h_id h_qr h_opcode h_aa h_tc h_rd h_ra h_z h_ad h_cd h_rcode h_qdcount h_ancount h_nscount h_arcount app]. split; [lia|]. repeat (f_equal; [lia|]). f_equal; lia.
Qed.
