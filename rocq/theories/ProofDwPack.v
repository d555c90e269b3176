(** Proofs about compression (DwCompress.c). *)
From Verif Require Import CBase Bits SpecNames SpecMessage SpecDeadwoodMsg SpecDwStr SpecAnswer SpecReply SpecPack ModelDwStr ModelDwCompress ModelDwDnsStr ModelDwPack ProofDwStr ProofDwCompressSafe ProofMessage ProofDwDecomp ProofDwDnsStr ProofDwNames.

(** *** Labels *)
Lemma zlist_eqb_snoc a x b y : length a = length b -> zlist_eqb (a ++ [x]) (b ++ [y]) = zlist_eqb a b && (x =? y).
Proof.
  revert b. induction a as [|i a IH]; intros [|j b] E; try discriminate E; cbn [app zlist_eqb]; [destruct (x =? y); reflexivity|]. rewrite IH by (injection E; auto). rewrite andb_assoc. reflexivity.
Qed.
Lemma label_bytes_ok n : forall l l' a b a_o b_o, zlen l <= Z.of_nat n -> length l = length l' -> dok a -> dok b -> in_at a (a_o + 1) l -> in_at b (b_o + 1) l' -> bytes l -> bytes l' ->
  label_bytes n (d_mem a) a_o (d_mem b) b_o (zlen l) = Ok (if zlist_eqb (lower_label l) (lower_label l') then 1 else 0).
Proof.
  induction n as [|n IH]; intros l l' a b a_o b_o Hn El Da Db Ia Ib Bl Bl'; cbn [label_bytes].
  - destruct l; [|rewrite zlen_cons in Hn; pose proof (zlen_nonneg l); lia]. destruct l'; [reflexivity|discriminate].
  - destruct l as [|x l _] using rev_ind; [destruct l'; [reflexivity|discriminate]|]. destruct l' as [|y l' _] using rev_ind; [rewrite app_length in El; cbn in El; lia|].
    rewrite !app_length in El. cbn [length] in El. rewrite zlen_app in *. change (zlen [x]) with 1 in *. pose proof (zlen_nonneg l). replace (0 <? zlen l + 1) with true by lia.
    assert (zlen l' = zlen l) as El' by (unfold zlen; lia). pose proof (in_at_app_r _ _ _ _ Ia) as Ix. pose proof (in_at_app_r _ _ _ _ Ib) as Iy. rewrite El' in Iy.
    replace (a_o + (zlen l + 1)) with (a_o + 1 + zlen l) by lia. rewrite (in_at_get _ _ _ _ Da Ix). replace (b_o + (zlen l + 1)) with (b_o + 1 + zlen l) by lia. rewrite (in_at_get _ _ _ _ Db Iy). cbn [bind].
    apply bytes_app in Bl as (Bl & Bx). apply bytes_app in Bl' as (Bl' & By). inversion Bx; inversion By; subst. rewrite !c_lower_lower by assumption. unfold lower_label. rewrite !map_app. cbn [map]. rewrite zlist_eqb_snoc by (rewrite !map_length; lia).
    destruct (lower x =? lower y); cbn [negb]; [|rewrite andb_false_r; reflexivity]. rewrite andb_true_r. replace (zlen l + 1 - 1) with (zlen l) by lia.
    apply IH; auto; try lia; [apply (in_at_app_l _ _ _ _ Ia)|apply (in_at_app_l _ _ _ _ Ib)].
Qed.
Lemma in_at_eq s o o' l : in_at s o l -> o = o' -> in_at s o' l. Proof. intros H <-. exact H. Qed.
Lemma in_at_bytes s o l : dok s -> in_at s o l -> bytes l.
Proof. intros D (A & B & C & _). assert (bytes (con s)) as HB by (apply bytes_con; auto). rewrite C in HB. apply bytes_app in HB as (_ & HB). apply bytes_app in HB as (HB & _). exact HB. Qed.
(** Comparing the label [l] (or the root) with [l']. *)
Lemma label_same_ok u o l c p l' : dok u -> dok c -> d_len u < 1000000 -> d_len c < 1000000 -> zlen l <= 63 -> zlen l' <= 63 -> in_at u o (zlen l :: l) -> in_at c p (zlen l' :: l') ->
  dwc_label_same u o c p = Ok (if zlist_eqb (lower_label l) (lower_label l') then 1 else 0).
Proof.
  intros Du Dc Lu Lc Hl Hl' Iu Ic. unfold dwc_label_same. rewrite (dok_sane u Du), (dok_sane c Dc). cbn [negb orb]. pose proof (in_at_range _ _ _ Du Iu) as Ru. pose proof (in_at_range _ _ _ Dc Ic) as Rc. rewrite zlen_cons in Ru, Rc. pose proof (zlen_nonneg l). pose proof (zlen_nonneg l').
  rewrite !u32_small by lia. replace ((d_len u <? o) || (d_len c <? p) || (o <? 0) || (p <? 0)) with false by lia. rewrite (in_at_get _ _ _ _ Du Iu), (in_at_get _ _ _ _ Dc Ic). cbn [bind]. rewrite !c_lower_small by lia.
  destruct (Z.eqb_spec (zlen l) (zlen l')) as [E|N]; cbn [negb].
  - rewrite !u32_small by lia. replace ((64 <? zlen l) || (d_len u <? o + zlen l) || (d_len c <? p + zlen l)) with false by lia.
    pose proof (in_at_bytes _ _ _ Du Iu) as Bu. pose proof (in_at_bytes _ _ _ Dc Ic) as Bc. inversion Bu; inversion Bc; subst.
    apply label_bytes_ok; auto; [lia|unfold zlen in E; lia|exact (in_at_cons_r _ _ _ _ Iu)|exact (in_at_cons_r _ _ _ _ Ic)].
  - destruct (zlist_eqb _ _) eqn:X; [|reflexivity]. exfalso. apply zlist_eqb_spec in X. apply (f_equal zlen) in X. unfold lower_label, zlen in X. rewrite !map_length in X. unfold zlen in N. lia.
Qed.

Lemma in_at_of_slice s o l : dok s -> 0 <= o -> o + zlen l <= d_len s -> zslice (con s) o (zlen l) = l -> in_at s o l.
Proof.
  intros D Ho He E. pose proof (zlen_con s ltac:(auto)) as Lc. pose proof (zlen_nonneg l). exists (zslice (con s) 0 o), (zslice (con s) (o + zlen l) (d_len s - (o + zlen l))). split; [|rewrite zlen_zslice; lia].
  transitivity (zslice (con s) 0 (o + (zlen l + (d_len s - (o + zlen l))))); [replace (o + _) with (zlen (con s)) by lia; symmetry; apply zslice_all|]. rewrite zslice_split by lia. f_equal. rewrite zslice_split by lia. rewrite Z.add_0_l. rewrite E. reflexivity.
Qed.
Definition hdl (n : name) : list Z := hd [] n.
Lemma wire_hdl n : exists t, wire n = (zlen (hdl n) :: hdl n) ++ t. Proof. destruct n as [|l n]; [exists []; reflexivity|exists (wire n); reflexivity]. Qed.
Lemma hdl_range n : good_name n -> zlen (hdl n) <= 63. Proof. intros G. destruct n as [|l n]; [change (zlen (hdl [])) with 0; lia|]. inversion G as [|? ? (Hl & _) _]; subst. cbn [hdl hd]. lia. Qed.
Lemma good_nz l : good_label l -> (zlen l =? 0) = false. Proof. intros (H & _). lia. Qed.
Lemma lower_len a b : zlist_eqb (lower_label a) (lower_label b) = true -> zlen a = zlen b.
Proof. intros X. apply zlist_eqb_spec in X. apply (f_equal zlen) in X. unfold lower_label, zlen in *. rewrite !map_length in X. exact X. Qed.

(** *** Names *)
(** One step of the comparison, where the label at [place] of [src] is [l']. *)
Lemma hd_cmp x n : good_name x -> good_name n ->
  same_name x n = zlist_eqb (lower_label (hdl n)) (lower_label (hdl x)) && match n, x with [], _ => true | _, [] => false | _ :: n, _ :: x => same_name x n end.
Proof.
  intros Gx Gn. destruct x as [|l x], n as [|l' n].
  - reflexivity.
  - rewrite andb_false_r. reflexivity.
  - inversion Gx as [|? ? (Hl & _) _]; subst. cbn [hdl hd]. destruct (zlist_eqb _ _) eqn:X; [apply lower_len in X; change (zlen []) with 0 in X; lia|reflexivity].
  - rewrite same_name_cons. cbn [hdl hd]. f_equal. destruct (zlist_eqb (lower_label l) (lower_label l')) eqn:E.
    + apply zlist_eqb_spec in E. rewrite E. symmetry. apply zlist_eqb_refl.
    + destruct (zlist_eqb (lower_label l') (lower_label l)) eqn:E'; [|reflexivity]. apply zlist_eqb_spec in E'. rewrite E', zlist_eqb_refl in E. discriminate.
Qed.
(** The rest of an iteration, [src] being where the name goes on. *)
Definition after_label (fuel : nat) (u : dwstr) (u_o : Z) (c : dwstr) (place : Z) (q : option dwstr) (in_q : bool) (src : dwstr) : res Z :=
  same <- dwc_label_same u u_o src place ;;
  if negb (same =? 1) then Ok 0
  else
    len <- rd (d_mem u) u_o ;;
    if len =? 0 then Ok 1
    else if (64 <? len) || (d_len u <=? u32 (u_o + len)) then Ok (-1)
    else if d_len src <=? u32 (place + len) then Ok (-1)
    else dname_same_loop fuel u (u_o + (len + 1)) c (place + (len + 1)) q in_q.
Lemma after_label_ok fuel u u_o c place q in_q src n l' : dok u -> dok src -> d_len u < 1000000 -> d_len src < 1000000 -> good_name n -> in_at u u_o (wire n) -> zlen l' <= 63 -> in_at src place (zlen l' :: l') ->
  (1 <= zlen l' -> place + zlen l' < d_len src) ->
  after_label fuel u u_o c place q in_q src =
    if zlist_eqb (lower_label (hdl n)) (lower_label l') then match n with [] => Ok 1 | l :: _ => dname_same_loop fuel u (u_o + (zlen l + 1)) c (place + (zlen l + 1)) q in_q end else Ok 0.
Proof.
  intros Du Ds Lu Ls G Iu Hl' Is Hnext. unfold after_label. destruct (wire_hdl n) as (t & E). pose proof Iu as Iu0. rewrite E in Iu0. apply in_at_app_l in Iu0. rewrite (label_same_ok u u_o (hdl n) src place l') by (auto using hdl_range). cbn [bind].
  destruct (zlist_eqb _ _) eqn:X; cbn [negb]; [|reflexivity]. change (1 =? 1) with true. cbn [negb]. rewrite (in_at_get _ _ _ _ Du Iu0). cbn [bind]. destruct n as [|l n]; [reflexivity|]. cbn [hdl hd] in *. inversion G as [|? ? Gl G']; subst.
  rewrite (good_nz l Gl). destruct Gl as (Hl & Bl). pose proof (in_at_range _ _ _ Du Iu) as Ru. cbn [wire] in Ru. rewrite zlen_cons, zlen_app in Ru. pose proof (zlen_wire_pos n). pose proof (in_at_range _ _ _ Ds Is) as Rs. rewrite zlen_cons in Rs.
  apply lower_len in X. rewrite !u32_small by lia. replace (64 <? zlen l) with false by lia. replace (d_len u <=? u_o + zlen l) with false by lia. cbn [orb]. replace (d_len src <=? place + zlen l) with false by lia. reflexivity.
Qed.
Lemma loop_in_q fuel u u_o c place q : dname_same_loop (S fuel) u u_o c place (Some q) true = after_label fuel u u_o c place (Some q) true q.
Proof. reflexivity. Qed.
Lemma decomp_offset_label c place x t qlen : dok c -> d_len c < 1000000 -> x < 64 -> in_at c place (x :: t) -> dwc_decomp_offset c place qlen = Ok place.
Proof.
  intros D L Hx I. unfold dwc_decomp_offset. rewrite (dok_sane c D). cbn [negb]. pose proof (in_at_range _ _ _ D I) as R. rewrite zlen_cons in R. pose proof (zlen_nonneg t). rewrite u32_small by lia. replace ((place <? 0) || (d_len c <? place)) with false by lia.
  rewrite (in_at_get _ _ _ _ D I). cbn [bind]. replace (x <? 64) with true by lia. reflexivity.
Qed.
Lemma loop_label fuel u u_o c place q x t : dok c -> d_len c < 1000000 -> x < 64 -> in_at c place (x :: t) -> dname_same_loop (S fuel) u u_o c place q false = after_label fuel u u_o c place q false c.
Proof.
  intros D L Hx I. cbn [dname_same_loop]. pose proof (in_at_range _ _ _ D I) as R. rewrite (decomp_offset_label c place x t) by assumption. cbn [bind]. replace (place =? -1) with false by lia. destruct q; cbn [bind]; [replace (place <? -1) with false by lia|replace (place <? 0) with false by lia]; reflexivity.
Qed.
Lemma in_at_wire_next s o l n : in_at s o (wire (l :: n)) -> in_at s (o + (zlen l + 1)) (wire n).
Proof. intros I. cbn [wire] in I. apply in_at_cons_r in I. apply in_at_app_r in I. eapply in_at_eq; [exact I|lia]. Qed.
Lemma in_at_hdl s o n : in_at s o (wire n) -> in_at s o (zlen (hdl n) :: hdl n).
Proof. intros I. destruct (wire_hdl n) as (t & E). rewrite E in I. exact (in_at_app_l _ _ _ _ I). Qed.
Lemma wire_room s o n : dok s -> in_at s o (wire n) -> 1 <= zlen (hdl n) -> o + zlen (hdl n) < d_len s.
Proof. intros D I H. destruct n as [|l n]; [change (zlen (hdl [])) with 0 in H; lia|]. pose proof (in_at_range _ _ _ D I) as R. cbn [wire] in R. rewrite zlen_cons, zlen_app in R. pose proof (zlen_wire_pos n). cbn [hdl hd]. lia. Qed.
(** In the question: reached by a pointer, or from the stack. *)
Lemma cmp_question x : forall n fuel u u_o c place q mode, dok u -> dok q -> d_len u < 1000000 -> d_len q < 1000000 -> good_name n -> good_name x -> in_at u u_o (wire n) -> in_at q place (wire x) -> (length n < fuel)%nat ->
  exists r, (if mode : bool then dname_same_loop fuel u u_o c place (Some q) true else dname_same_loop fuel u u_o q place None false) = Ok r /\ (r =? 1) = same_name x n.
Proof.
  induction x as [|l x IH]; intros n fuel u u_o c place q mode Du Dq Lu Lq Gn Gx Iu Iq Hf; (destruct fuel as [|fuel]; [lia|]).
  - assert ((if mode then dname_same_loop (S fuel) u u_o c place (Some q) true else dname_same_loop (S fuel) u u_o q place None false) =
      if mode then after_label fuel u u_o c place (Some q) true q else after_label fuel u u_o q place None false q) as -> by (destruct mode; [apply loop_in_q|eapply loop_label with (x := 0); eauto; lia]).
    rewrite hd_cmp by assumption. destruct mode; rewrite (after_label_ok _ _ _ _ _ _ _ _ n []) by (auto; change (zlen []) with 0; try lia; try exact Iq); cbn [hdl hd]; (destruct (zlist_eqb _ _) eqn:X; [|exists 0; auto]); (destruct n as [|l' n]; [exists 1; auto|]);
      inversion Gn as [|? ? (Hl & _) _]; subst; apply lower_len in X; cbn [hdl hd] in X; change (zlen []) with 0 in X; lia.
  - pose proof (in_at_hdl _ _ _ Iq) as Ih. inversion Gx as [|? ? (Hl & Bl) Gx']; subst. cbn [hdl hd] in Ih.
    assert ((if mode then dname_same_loop (S fuel) u u_o c place (Some q) true else dname_same_loop (S fuel) u u_o q place None false) =
      if mode then after_label fuel u u_o c place (Some q) true q else after_label fuel u u_o q place None false q) as -> by (destruct mode; [apply loop_in_q|eapply loop_label with (x := zlen l); eauto; lia]).
    pose proof (wire_room _ _ _ Dq Iq) as Rm. cbn [hdl hd] in Rm. rewrite hd_cmp by assumption. destruct mode; rewrite (after_label_ok _ _ _ _ _ _ _ _ n l) by (auto; lia); cbn [hdl hd]; (destruct (zlist_eqb _ _) eqn:X; [|exists 0; auto]); (destruct n as [|l' n]; [exists 1; auto|]);
      cbn [hdl hd] in X; apply lower_len in X; inversion Gn; subst; apply in_at_wire_next in Iu; apply in_at_wire_next in Iq; rewrite <- X in Iq; cbn [andb length] in *.
    + apply (IH n fuel u _ c _ q true); auto; lia.
    + apply (IH n fuel u _ c _ q false); auto; lia.
Qed.

Lemma wirel_app a b : wirel (a ++ b) = wirel a ++ wirel b.
Proof. induction a as [|l a IH]; cbn [wirel app]; [reflexivity|]. rewrite IH, <- app_assoc. reflexivity. Qed.
Lemma land_16383 x : 0 <= x -> Z.land x 16383 = x mod 16384.
Proof. intros H. change 16383 with (Z.ones 14). rewrite Z.land_ones by lia. reflexivity. Qed.
Lemma lor_49152 p : 0 <= p < 16384 -> Z.lor p 49152 = 49152 + p.
Proof.
  intros H. rewrite Z.add_comm. symmetry. rewrite Z.add_nocarry_lxor; [apply Z.lxor_lor|]; change 49152 with (Z.shiftl 3 14); apply Z.bits_inj'; intros i Hi; rewrite Z.land_spec, Z.bits_0;
  (destruct (Z.ltb_spec i 14); [rewrite Z.shiftl_spec_low by lia; apply andb_false_r|]); rewrite Z.bits_above_log2; try reflexivity; try lia;
  (destruct (Z.eq_dec p 0) as [->|]; [cbn; lia|]); (apply Z.lt_le_trans with 14; [apply Z.log2_lt_pow2; lia|lia]).
Qed.
Lemma name_at_mono (T T' : Z -> Prop) m suf : (forall p, T p -> T' p) -> forall k p n e, name_at T m k p n e -> name_at T' (m ++ suf) k p n e.
Proof.
  intros HT k p n e H. induction H as [p Hp|k p l n e Hl Hp Hs Hn IH|k p hi lo n e Hp Hhi Hlo HTp Hn IH].
  - apply at_root. rewrite zget_app_l; [exact Hp|]. pose proof (zget_range _ _ _ Hp). lia.
  - assert (p + 1 + zlen l < zlen m) as R by (inversion Hn; subst; match goal with X : zget m _ = Some _ |- _ => pose proof (zget_range _ _ _ X); lia end). pose proof (zget_range _ _ _ Hp).
    apply at_label; auto; [rewrite zget_app_l by lia; exact Hp|rewrite zslice_app_l by lia; exact Hs].
  - pose proof (zget_range _ _ _ Hp). pose proof (zget_range _ _ _ Hlo). apply at_pointer with (k := k) (n := n) (hi := hi) (lo := lo) (e := e); auto; rewrite zget_app_l by lia; assumption.
Qed.

Section PACK.
  Variables header class qt : list Z.
  Variable qn : name.
  Variable q : dwstr.
  Hypothesis Dq : dok q.
  Hypothesis Hq : con q = wire qn ++ qt.
  Hypothesis Hqt : zlen qt = 2.
  Hypothesis Gq : good_name qn.
  Hypothesis Lqn : zlen (wire qn) <= 512.
  Hypothesis Hh : zlen header = 12.
  Hypothesis Hc : zlen class = 2.
  Let S0 := 16 + zlen (wire qn).
  Definition msg (body : list Z) : list Z := message header (con q) class body.
  Definition Tm (m : list Z) (t : Z) : Prop := pointer_ok qn S0 t /\ exists b, zget m t = Some b /\ 0 <= b <= 63.

  Lemma q_len : d_len q = zlen (wire qn) + 2. Proof. rewrite <- (zlen_con q) by auto. rewrite Hq, zlen_app. lia. Qed.
  Lemma q_s0 : S0 = 14 + d_len q. Proof. rewrite q_len. subst S0. lia. Qed.
  Lemma q_small : d_len q < 1000000. Proof. rewrite q_len. lia. Qed.
  Lemma S0_pos : 17 <= S0 <= 528. Proof. pose proof (zlen_wire_pos qn). subst S0. lia. Qed.
  Lemma msg_app a b : msg (a ++ b) = msg a ++ b. Proof. unfold msg, message. rewrite <- !app_assoc. reflexivity. Qed.
  Lemma zlen_msg a : zlen (msg a) = S0 + zlen a. Proof. unfold msg, message. rewrite !zlen_app, zlen_con by auto. pose proof q_s0. lia. Qed.
  Lemma msg_get a p : S0 <= p -> zget (msg a) p = zget a (p - S0).
  Proof.
    intros H. replace (msg a) with (msg [] ++ a) by (rewrite <- msg_app; reflexivity). pose proof (zlen_msg []) as L. change (zlen []) with 0 in L. rewrite zget_app_r by lia. f_equal. lia.
  Qed.
  Lemma msg_slice a p n : S0 <= p -> 0 <= n -> p + n <= S0 + zlen a -> zslice (msg a) p n = zslice a (p - S0) n.
  Proof.
    intros H Hn He. replace (msg a) with (msg [] ++ a) by (rewrite <- msg_app; reflexivity). pose proof (zlen_msg []) as L. change (zlen []) with 0 in L. rewrite zslice_app_r by lia. f_equal. lia.
  Qed.
  Lemma Tm_mono a s p : Tm (msg a) p -> Tm (msg (a ++ s)) p.
  Proof. intros (H & b & G & R). split; [exact H|]. exists b. split; [|exact R]. rewrite msg_app. rewrite zget_app_l; [exact G|]. pose proof (zget_range _ _ _ G). lia. Qed.
  Lemma at_mono a s k p n e : name_at (Tm (msg a)) (msg a) k p n e -> name_at (Tm (msg (a ++ s))) (msg (a ++ s)) k p n e.
  Proof. intros H. rewrite msg_app at 2. eapply name_at_mono; [|exact H]. intros t. apply Tm_mono. Qed.

  (** The names of the question. *)
  Lemma q_in before rest : qn = before ++ rest -> in_at q (zlen (wirel before)) (wire rest).
  Proof. intros E. exists (wirel before), qt. split; [|reflexivity]. rewrite Hq, E, wire_app, <- app_assoc. reflexivity. Qed.
  Lemma question_name a : forall rest before, qn = before ++ rest ->
    Tm (msg a) (12 + zlen (wirel before)) /\ 12 + zlen (wirel before) < S0 /\ exists e, name_at (Tm (msg a)) (msg a) (S (length rest)) (12 + zlen (wirel before)) rest e.
  Proof.
    induction rest as [|l rest IH]; intros before E.
    - assert (zget (msg a) (12 + zlen (wirel before)) = Some 0) as G.
      { unfold msg, message. pose proof (zlen_nonneg (wirel before)). rewrite zget_app_r by lia. rewrite Hq, E, app_nil_r, wire_wirel, <- !app_assoc. rewrite zget_app_r by lia. replace (12 + zlen (wirel before) - zlen header - zlen (wirel before)) with 0 by lia. reflexivity. }
      split; [|split].
      + split; [right; exists before, []; split; [exact E|rewrite wire_wirel, zlen_app; change (zlen [0]) with 1; lia]|]. exists 0. split; [exact G|lia].
      + subst S0. rewrite E, app_nil_r, wire_wirel, zlen_app. change (zlen [0]) with 1. lia.
      + eexists. apply at_root. exact G.
    - assert (good_label l) as Gl by (unfold good_name in Gq; rewrite E in Gq; apply Forall_app in Gq as (_ & Hg); inversion Hg; assumption). destruct Gl as (Hl & Bl).
      assert (msg a = (header ++ wirel before) ++ zlen l :: l ++ (wire rest ++ qt ++ class ++ a)) as Em by (unfold msg, message; rewrite Hq, E, wire_app; cbn [wire]; rewrite <- ?app_assoc; cbn [app]; rewrite <- ?app_assoc; reflexivity).
      assert (zlen (header ++ wirel before) = 12 + zlen (wirel before)) as Lh by (rewrite zlen_app; lia).
      assert (zget (msg a) (12 + zlen (wirel before)) = Some (zlen l)) as G by (rewrite Em, <- Lh, zget_app_r by lia; rewrite Z.sub_diag; apply zget_cons_0).
      destruct (IH (before ++ [l])) as (_ & R & e & Hn); [rewrite <- app_assoc; exact E|]. assert (zlen (wirel (before ++ [l])) = zlen (wirel before) + 1 + zlen l) as Lw by (rewrite wirel_app, zlen_app; cbn [wirel]; rewrite zlen_cons, zlen_app; change (zlen []) with 0; lia).
      split; [|split].
      + split; [right; exists before, (l :: rest); split; [exact E|rewrite wire_wirel, zlen_app; change (zlen [0]) with 1; lia]|]. exists (zlen l). split; [exact G|lia].
      + lia.
      + exists e. cbn [length]. apply at_label; auto.
        * rewrite Em. replace (12 + zlen (wirel before) + 1) with (zlen (header ++ wirel before) + 1) by lia. replace (_ ++ zlen l :: l ++ _) with (((header ++ wirel before) ++ [zlen l]) ++ l ++ (wire rest ++ qt ++ class ++ a)) by (rewrite <- !app_assoc; reflexivity).
          generalize (wire rest ++ qt ++ class ++ a) as tl. intros tl. pose proof (zlen_nonneg tl). rewrite zslice_app_r by (repeat rewrite zlen_app; change (zlen [zlen l]) with 1; lia). rewrite (zlen_app _ [zlen l]). change (zlen [zlen l]) with 1. rewrite Z.sub_diag. rewrite zslice_app_l by lia. apply zslice_all.
        * replace (12 + zlen (wirel before) + 1 + zlen l) with (12 + zlen (wirel (before ++ [l]))) by lia. exact Hn.
  Qed.

  (** *** Comparing with what was written before *)
  Section ENTRY.
    Variables u c : dwstr.
    Hypothesis Du : dok u.
    Hypothesis Dc : dok c.
    Hypothesis Lu : d_len u < 1000000.
    Hypothesis Lc : d_len c < 1000000.
    Lemma c_in p l : S0 <= p -> 0 <= zlen l -> zget (msg (con c)) p = Some (zlen l) -> zslice (msg (con c)) (p + 1) (zlen l) = l -> p + 1 + zlen l <= zlen (msg (con c)) -> in_at c (p - S0) (zlen l :: l).
    Proof.
      intros Hp Hl G Hs He. rewrite zlen_msg, zlen_con in He by auto. rewrite msg_slice in Hs by (rewrite ?zlen_con by auto; lia). rewrite msg_get in G by lia.
      apply in_at_of_slice; auto; rewrite ?zlen_cons; try lia. rewrite Z.add_comm, zslice_split by lia. rewrite (zslice_one _ _ _ G). replace (p - S0 + 1) with (p + 1 - S0) by lia. rewrite Hs. reflexivity.
    Qed.
    Lemma cmp_answer k p x e (H : name_at (Tm (msg (con c))) (msg (con c)) k p x e) : S0 <= p ->
      good_name x /\ forall n fuel u_o, good_name n -> in_at u u_o (wire n) -> (length n < fuel)%nat -> exists r, dname_same_loop fuel u u_o c (p - S0) (Some q) false = Ok r /\ (r =? 1) = same_name x n.
    Proof.
      pose proof q_s0 as HS. pose proof S0_pos as HP. pose proof q_small. induction H as [p Hp|k p l x e Hl Hp Hs Hn IH|k p hi lo x e Hp Hhi Hlo (Hok & b & Gb & Rb) Hn IH]; intros HpS.
      - split; [constructor|]. intros n fuel u_o Gn Iu Hf. destruct fuel as [|fuel]; [lia|]. pose proof (zget_range _ _ _ Hp) as R.
        assert (in_at c (p - S0) (zlen (@nil Z) :: [])) as I by (apply c_in; change (zlen []) with 0; auto; try lia).
        rewrite (loop_label _ _ _ _ _ _ 0 []) by (auto; lia). rewrite (after_label_ok _ _ _ _ _ _ _ _ n []) by (auto; change (zlen []) with 0; lia). rewrite hd_cmp by (auto; constructor). change (hdl []) with (@nil Z).
        destruct (zlist_eqb _ _) eqn:X; [|exists 0; auto]. destruct n as [|l n]; [exists 1; auto|]. inversion Gn as [|? ? (Hl & _) _]; subst. apply lower_len in X. cbn [hdl hd] in X. change (zlen []) with 0 in X. lia.
      - destruct (IH ltac:(lia)) as (Gx & IH2). clear IH. assert (p + 1 + zlen l < zlen (msg (con c))) as R by (inversion Hn; subst; match goal with X : zget (msg _) _ = Some _ |- _ => pose proof (zget_range _ _ _ X); lia end).
        assert (in_at c (p - S0) (zlen l :: l)) as I by (apply c_in; auto; lia). pose proof (in_at_bytes _ _ _ Dc I) as Bl. inversion Bl; subst. assert (good_name (l :: x)) as G by (constructor; [split; auto|exact Gx]). split; [exact G|].
        intros n fuel u_o Gn Iu Hf. destruct fuel as [|fuel]; [lia|]. rewrite zlen_msg, zlen_con in R by auto.
        rewrite (loop_label _ _ _ _ _ _ (zlen l) l) by (auto; lia). rewrite (after_label_ok _ _ _ _ _ _ _ _ n l) by (auto; lia). rewrite hd_cmp by auto. cbn [hdl hd].
        destruct (zlist_eqb _ _) eqn:X; [|exists 0; auto]. destruct n as [|l' n]; [exists 1; auto|]. cbn [hdl hd] in X. apply lower_len in X. inversion Gn; subst. apply in_at_wire_next in Iu. cbn [andb length] in *.
        destruct (IH2 n fuel (u_o + (zlen l' + 1))) as (r & E & Er); auto; [lia|]. exists r. split; [|exact Er]. rewrite <- E. f_equal. lia.
      - pose proof (zget_range _ _ _ Hlo) as Rlo. pose proof (zget_range _ _ _ Hp) as Rp. pose proof (zget_range _ _ _ Gb) as Rb2. rewrite zlen_msg, zlen_con in Rp, Rlo, Rb2 by auto. rewrite msg_get in Hp, Hlo by lia.
        assert (0 <= lo < 256) as Blo by (eapply zget_bytes; [|exact Hlo]; apply bytes_con; auto). set (t := (hi - 192) * 256 + lo) in *.
        rewrite zget_con in Hp, Hlo by (auto; lia).
        assert (dwc_decomp_offset c (p - S0) (d_len q) = Ok (if t <? S0 then -2 - (t - 12) else t - S0)) as Eo.
        { unfold dwc_decomp_offset. rewrite (dok_sane c Dc). cbn [negb]. rewrite u32_small by lia. replace ((p - S0 <? 0) || (d_len c <? p - S0)) with false by lia. rewrite (rd_of_zget _ _ _ Hp). cbn [bind]. replace (hi <? 64) with false by lia.
          replace (p - S0 + 1) with (p + 1 - S0) by lia. rewrite (rd_of_zget _ _ _ Hlo). cbn [bind]. cbv zeta.
          assert (Z.shiftl (Z.land hi 63) 8 + lo - 12 = t - 12) as ->. { change 63 with (Z.ones 6). rewrite Z.land_ones by lia. change (2 ^ 6) with 64. rewrite Z.shiftl_mul_pow2 by lia. change (2 ^ 8) with 256. subst t. lia. }
          destruct (Z.ltb_spec t S0) as [Q|A].
          - destruct Hok as [Ha|(before & rest & Eq & Et)]; [lia|]. destruct (question_name [] rest before Eq) as (_ & Rq & _). pose proof (zlen_wirel before). pose proof (in_at_range _ _ _ Dq (q_in _ _ Eq)). pose proof (zlen_wire_pos rest).
            replace ((t - 12 <? d_len q) && (0 <? d_len q)) with true by lia. reflexivity.
          - replace ((t - 12 <? d_len q) && (0 <? d_len q)) with false by lia. rewrite u32_small by lia. replace ((t - 12 - d_len q - 2 <? 0) || (d_len c <? t - 12 - d_len q - 2)) with false by lia. f_equal. lia. }
        destruct (Z_lt_ge_dec t S0) as [Q|A]; [replace (t <? S0) with true in Eo by lia|replace (t <? S0) with false in Eo by lia].
        + destruct Hok as [Ha|(before & rest & Eq & Et)]; [lia|]. destruct (question_name (con c) rest before Eq) as (_ & Rq & e' & Hnq). pose proof (zlen_wirel before) as Zw. pose proof (zlen_nonneg (wirel before)).
          replace (12 + zlen (wirel before)) with t in Hnq by lia. destruct (name_at_det _ _ _ _ _ _ Hnq _ _ _ Hn) as (Ex & _ & _). subst x.
          assert (good_name rest) as Gr by (assert (good_name (before ++ rest)) as Gbr by (rewrite <- Eq; exact Gq); apply Forall_app in Gbr; exact (proj2 Gbr)). split; [exact Gr|].
          intros n fuel u_o Gn Iu Hf. destruct fuel as [|fuel]; [lia|].
          assert (dname_same_loop (S fuel) u u_o c (p - S0) (Some q) false = dname_same_loop (S fuel) u u_o c (t - 12) (Some q) true) as ->.
          { cbn [dname_same_loop]. rewrite Eo. cbn [bind]. replace (-2 - (t - 12) =? -1) with false by lia. replace (-2 - (t - 12) <? -1) with true by lia. cbn [bind]. replace (-2 - (-2 - (t - 12))) with (t - 12) by lia. reflexivity. }
          pose proof (q_in _ _ Eq) as Iq. replace (zlen (wirel before)) with (t - 12) in Iq by lia.
          apply (cmp_question rest n (S fuel) u u_o c (t - 12) q true); auto.
        + destruct (IH ltac:(lia)) as (Gx & IH2). split; [exact Gx|]. intros n fuel u_o Gn Iu Hf. destruct fuel as [|fuel]; [lia|].
          assert (dname_same_loop (S fuel) u u_o c (p - S0) (Some q) false = dname_same_loop (S fuel) u u_o c (t - S0) (Some q) false) as ->; [|apply IH2; auto].
          rewrite msg_get in Gb by lia. assert (in_at c (t - S0) [b]) as I by (apply in_at_of_slice; auto; change (zlen [b]) with 1; try lia; apply zslice_one; exact Gb).
          rewrite (loop_label fuel u u_o c (t - S0) (Some q) b []) by (auto; lia). cbn [dname_same_loop]. rewrite Eo. cbn [bind]. replace (t - S0 =? -1) with false by lia. replace (t - S0 <? -1) with false by lia. reflexivity.
    Qed.
    Lemma cmp_pending w : forall n fuel u_o place, good_name w -> good_name n -> in_at u u_o (wire n) -> in_at c place (wirel w) -> place + zlen (wirel w) = d_len c -> (length w < fuel)%nat ->
      (forall w' b, n = w' ++ b -> same_name w w' = false) -> exists r, dname_same_loop fuel u u_o c place (Some q) false = Ok r /\ (r =? 1) = false.
    Proof.
      induction w as [|l w IH]; intros n fuel u_o place Gw Gn Iu Ic He Hf Hno.
      - specialize (Hno [] n eq_refl). rewrite same_name_refl in Hno. discriminate.
      - destruct fuel as [|fuel]; [lia|]. inversion Gw as [|? ? (Hl & Bl) Gw']; subst. cbn [wirel] in Ic, He. rewrite zlen_cons, zlen_app in He. pose proof (zlen_nonneg (wirel w)).
        assert (in_at c place (zlen l :: l)) as I by (change (zlen l :: l ++ wirel w) with ((zlen l :: l) ++ wirel w) in Ic; apply in_at_app_l in Ic; exact Ic).
        rewrite (loop_label _ _ _ _ _ _ (zlen l) l) by (auto; lia). rewrite (after_label_ok _ _ _ _ _ _ _ _ n l) by (auto; lia).
        destruct (zlist_eqb _ _) eqn:X; [|exists 0; auto]. destruct n as [|l' n]; [apply lower_len in X; change (zlen (hdl [])) with 0 in X; lia|]. cbn [hdl hd] in X. pose proof (lower_len _ _ X) as El.
        inversion Gn; subst. apply in_at_wire_next in Iu. cbn [length] in Hf. apply IH with (n := n); auto; try lia.
        + apply in_at_cons_r in Ic. apply in_at_app_r in Ic. eapply in_at_eq; [exact Ic|lia].
        + intros w' b ->. specialize (Hno (l' :: w') b eq_refl). rewrite same_name_cons in Hno. apply zlist_eqb_spec in X. rewrite X, zlist_eqb_refl in Hno. exact Hno.
    Qed.
  End ENTRY.

  (** *** The stack *)
  Definition code (p : Z) : Z := if p <? S0 then 32768 + (p - 12) else p - S0.
  Definition codes (t : places) : list Z := flat16 (map (fun e => code (fst e)) t).
  Definition entry_ok (body : list Z) (e : Z * name) : Prop :=
    snd e <> [] /\ 12 <= fst e < 16384 /\ Tm (msg body) (fst e) /\ (fst e < S0 -> exists before, qn = before ++ snd e /\ fst e = 12 + zlen (wirel before)) /\
    exists x k e', same_name (snd e) x = true /\ name_at (Tm (msg body)) (msg body) k (fst e) x e' /\ (k <= 2 * length (snd e))%nat.
  Lemma entry_mono a s e : entry_ok a e -> entry_ok (a ++ s) e.
  Proof.
    intros (H1 & H2 & H3 & H4 & x & k & e' & H5 & H6 & H7). split; [exact H1|]. split; [exact H2|]. split; [apply Tm_mono; exact H3|]. split; [exact H4|]. exists x, k, e'. split; [exact H5|]. split; [apply at_mono; exact H6|exact H7].
  Qed.
  Definition compare (u : dwstr) (u_o : Z) (c : dwstr) (p : Z) : res Z := if p <? S0 then dwc_dname_same u u_o q (p - 12) None else dwc_dname_same u u_o c (p - S0) (Some q).
  Definition compares (u : dwstr) (u_o : Z) (c : dwstr) (n : name) (e : Z * name) : Prop :=
    12 <= fst e < 16384 /\ exists r, compare u u_o c (fst e) = Ok r /\ (r =? 1) = same_name (snd e) n.
  Lemma dname_same_ready u u_o c c_o qo n : dok u -> dok c -> d_len u < 1000000 -> d_len c < 1000000 -> in_at u u_o (wire n) -> 0 <= c_o <= d_len c -> dwc_dname_same u u_o c c_o qo = dname_same_loop (Z.to_nat 300) u u_o c c_o qo false.
  Proof.
    intros Du Dc Lu Lc Iu R. unfold dwc_dname_same. rewrite (dok_sane u Du), (dok_sane c Dc). cbn [negb orb]. pose proof (in_at_range _ _ _ Du Iu). pose proof (zlen_wire_pos n). rewrite !u32_small by lia.
    replace ((u_o <? 0) || (d_len u <? u_o) || (c_o <? 0) || (d_len c <? c_o)) with false by lia. reflexivity.
  Qed.
  Lemma entry_compares u u_o c n e : dok u -> dok c -> d_len u < 1000000 -> d_len c < 1000000 -> good_name n -> in_at u u_o (wire n) -> (length n < 300)%nat -> entry_ok (con c) e -> compares u u_o c n e.
  Proof.
    intros Du Dc Lu Lc Gn Iu Hn (H1 & H2 & H3 & H4 & x & k & e' & H5 & H6 & H7). split; [exact H2|]. unfold compare. pose proof q_small. pose proof (q_s0). destruct (Z.ltb_spec (fst e) S0) as [Q|A].
    - destruct (H4 Q) as (before & E & Ep). pose proof (q_in _ _ E) as Iq. pose proof (zlen_wire_pos (snd e)). pose proof (in_at_range _ _ _ Dq Iq). replace (zlen (wirel before)) with (fst e - 12) in * by lia.
      rewrite (dname_same_ready u u_o q (fst e - 12) None n) by (auto; lia).
      assert (good_name (snd e)) as Gx by (assert (good_name (before ++ snd e)) as Gbr by (rewrite <- E; exact Gq); apply Forall_app in Gbr; exact (proj2 Gbr)).
      apply (cmp_question (snd e) n (Z.to_nat 300) u u_o c (fst e - 12) q false); auto.
    - destruct (cmp_answer u c Du Dc Lu Lc _ _ _ _ H6 A) as (Gx & Hcmp). destruct H3 as (_ & b & Gb & _). apply zget_range in Gb. rewrite zlen_msg, zlen_con in Gb by auto.
      rewrite (dname_same_ready u u_o c (fst e - S0) (Some q) n) by (auto; lia). destruct (Hcmp n (Z.to_nat 300) u_o Gn Iu ltac:(lia)) as (r & E & Er). exists r. split; [exact E|]. rewrite Er. symmetry. apply same_name_replace. exact H5.
  Qed.
  Lemma code_range p : 12 <= p < 16384 -> 0 <= code p < 65536.
  Proof. unfold code. intros H. pose proof S0_pos. destruct (Z.ltb_spec p S0); lia. Qed.
  Lemma seek_step u u_o c n : forall t fuel s A R s_o, dok s -> d_len s < 1000000 -> con s = A ++ codes t ++ R -> s_o = zlen A -> Forall (compares u u_o c n) t ->
    seek_loop (length t + fuel) u u_o c q s s_o = match place_of t n with Some p => Ok p | None => seek_loop fuel u u_o c q s (s_o + 2 * zlen t) end.
  Proof.
    induction t as [|e t IH]; intros fuel s A R s_o Ds Ls Cs -> HF; cbn [length Nat.add place_of].
    - change (zlen []) with 0. f_equal. lia.
    - inversion HF as [|? ? (Hr & r & Ec & Er) HF']; subst. cbn [seek_loop]. unfold codes in Cs. cbn [map] in Cs. change (flat16 (?a :: ?b)) with (num16 a ++ flat16 b) in Cs. fold (codes t) in Cs. rewrite <- app_assoc in Cs.
      pose proof (f_equal zlen Cs) as Lz. rewrite zlen_con in Lz by auto. rewrite !zlen_app, zlen_num16 in Lz. pose proof (zlen_nonneg A). pose proof (zlen_nonneg (codes t)). pose proof (zlen_nonneg R). rewrite u32_small by lia. replace (zlen A <? d_len s) with true by lia.
      pose proof (code_range _ Hr) as Rc. rewrite (fetch_mid s A (code (fst e)) _ Ds Cs Rc). cbn [bind]. replace (code (fst e) <? 0) with false by lia. cbv zeta. pose proof S0_pos as HS. pose proof q_s0 as HS2.
      assert (forall b, dwc_dname_same u u_o (if b : bool then q else c) = dwc_dname_same u u_o (if b then q else c)) as _ by reflexivity.
      assert (seek_loop (length t + fuel) u u_o c q s (zlen A + 2) = match place_of t n with Some p => Ok p | None => seek_loop fuel u u_o c q s (zlen A + 2 * zlen (e :: t)) end) as Rest.
      { rewrite (IH fuel s (A ++ num16 (code (fst e))) R (zlen A + 2)); auto; [|rewrite Cs, <- app_assoc; reflexivity|rewrite zlen_app, zlen_num16; reflexivity]. destruct (place_of t n); [reflexivity|]. f_equal. rewrite zlen_cons. lia. }
      unfold compare in Ec. unfold code in *. destruct e as [p x]. cbn [fst snd] in *. destruct (Z.ltb_spec p S0) as [Q|Q].
      + replace (32768 <=? 32768 + (p - 12)) with true by lia. rewrite land_16383 by lia. replace ((32768 + (p - 12)) mod 16384) with (p - 12) by lia. rewrite Ec. cbn [bind]. rewrite Er. destruct (same_name x n); [f_equal; lia|exact Rest].
      + replace (32768 <=? p - S0) with false by lia. rewrite land_16383 by lia. replace ((p - S0) mod 16384) with (p - S0) by lia. rewrite Ec. cbn [bind]. rewrite Er. destruct (same_name x n); [f_equal; lia|exact Rest].
  Qed.

  (** *** One name *)
  Fixpoint pend (at_ : Z) (done n : name) : places := match done with [] => [] | l :: d => (at_, done ++ n) :: pend (at_ + 1 + zlen l) d n end.
  Lemma pend_snoc done : forall at_ l n, pend at_ (done ++ [l]) n = pend at_ done (l :: n) ++ [(at_ + zlen (wirel done), l :: n)].
  Proof.
    induction done as [|x done IH]; intros at_ l n; cbn [app pend wirel].
    - change (zlen []) with 0. rewrite Z.add_0_r. reflexivity.
    - rewrite IH. rewrite <- !app_assoc. cbn [app]. rewrite zlen_cons, zlen_app. replace (at_ + (zlen x + zlen (wirel done) + 1)) with (at_ + 1 + zlen x + zlen (wirel done)) by lia. reflexivity.
  Qed.
  (** No byte that is not there is looked at. *)
  Definition no_run (done n : name) : Prop := forall a w w' b, done = a ++ w -> w <> [] -> n = w' ++ b -> same_name w w' = false.
  Fixpoint clean (t : places) (done n : name) : Prop :=
    match n with [] => True | l :: r => match place_of t n with Some _ => True | None => no_run done n /\ clean t (done ++ [l]) r end end.
  Lemma no_run_nil done : no_run done [].
  Proof. intros a w w' b E Hw Hn. destruct w' as [|y w']; [|discriminate Hn]. destruct w; [congruence|reflexivity]. Qed.
  Lemma pend_compares u u_o c n : dok u -> dok c -> d_len u < 1000000 -> d_len c < 15000 -> good_name n -> in_at u u_o (wire n) ->
    forall done at_ a, good_name done -> (length done < 300)%nat -> in_at c (at_ - S0) (wirel done) -> at_ - S0 + zlen (wirel done) = d_len c -> no_run (a ++ done) n -> Forall (compares u u_o c n) (pend at_ done n).
  Proof.
    intros Du Dc Lu Lc Gn Iu. pose proof S0_pos as HS. induction done as [|l done IH]; intros at_ a Gd Hl Ic He Hno; cbn [pend]; constructor.
    - pose proof (in_at_range _ _ _ Dc Ic) as Rc. pose proof (zlen_nonneg (wirel (l :: done))). split; [cbn [fst]; lia|]. cbn [fst snd]. unfold compare. replace (at_ <? S0) with false by lia. rewrite (dname_same_ready u u_o c (at_ - S0) (Some q) n) by (auto; lia).
      destruct (cmp_pending u c Du Dc Lu ltac:(lia) (l :: done) n (Z.to_nat 300) u_o (at_ - S0)) as (r & E & Er); auto; try lia.
      + intros w' b Eb. apply (Hno a (l :: done) w' b); auto; discriminate.
      + exists r. split; [exact E|]. rewrite Er. symmetry. destruct (same_name ((l :: done) ++ n) n) eqn:X; [|reflexivity]. apply same_name_len in X as (_ & X). unfold zlen in X. rewrite app_length in X. cbn [length] in X. lia.
    - inversion Gd as [|? ? Gl Gd']; subst. cbn [wirel] in *. rewrite zlen_cons, zlen_app in He. cbn [length] in Hl. apply (IH (at_ + 1 + zlen l) (a ++ [l])); auto; try lia.
      + apply in_at_cons_r in Ic. apply in_at_app_r in Ic. eapply in_at_eq; [exact Ic|lia].
      + rewrite <- app_assoc. exact Hno.
  Qed.
  Lemma place_app t p n : place_of (t ++ p) n = match place_of t n with Some x => Some x | None => place_of p n end.
  Proof. induction t as [|[a x] t IH]; cbn [place_of app]; [reflexivity|]. destruct (same_name x n); [reflexivity|exact IH]. Qed.
  Definition longer_than (n : name) (e : Z * name) : Prop := (length n < length (snd e))%nat.
  Lemma place_longer t n : Forall (longer_than n) t -> place_of t n = None.
  Proof. induction t as [|[a x] t IH]; intros H; [reflexivity|]. inversion H as [|? ? Hx Ht]; subst. cbn [place_of]. destruct (same_name x n) eqn:X; [|auto]. apply same_name_len in X as (_ & X). unfold zlen, longer_than in *. cbn [snd] in Hx. lia. Qed.
  Lemma longer_step l n t : Forall (longer_than (l :: n)) t -> Forall (longer_than n) t.
  Proof. intros H. eapply Forall_impl; [|exact H]. unfold longer_than. cbn [length]. intros; lia. Qed.
  Lemma pack_name_ext n : forall t P at_, Forall (longer_than n) P -> exists b E, pack_name t at_ n = (b, t ++ E) /\ pack_name (t ++ P) at_ n = (b, t ++ P ++ E).
  Proof.
    induction n as [|l n IH]; intros t P at_ HP; cbn [pack_name].
    - exists [0], []. rewrite !app_nil_r. auto.
    - rewrite place_app, (place_longer P) by exact HP. destruct (place_of t (l :: n)) as [p|].
      + exists (num16 (49152 + p)), []. rewrite !app_nil_r. auto.
      + destruct (IH t [(at_, l :: n)] (at_ + 1 + zlen l)) as (b & E & E1 & E2); [repeat constructor|].
        destruct (IH t (P ++ [(at_, l :: n)]) (at_ + 1 + zlen l)) as (b' & E' & E1' & E2'); [apply Forall_app; split; [apply (longer_step l); exact HP|repeat constructor]|].
        rewrite E1 in E1'. injection E1' as -> EE. apply app_inv_head in EE. subst E'. exists (zlen l :: l ++ b'), ([(at_, l :: n)] ++ E). unfold places, name in *. rewrite E2. rewrite <- !app_assoc in E2'. rewrite <- app_assoc. rewrite E2'. auto.
  Qed.
  Lemma pend_longer done : forall at_ n, Forall (longer_than n) (pend at_ done n).
  Proof. induction done as [|l done IH]; intros at_ n; cbn [pend]; constructor; [|apply IH]. unfold longer_than. cbn [snd]. rewrite app_length. cbn [length]. lia. Qed.
  Lemma zlen_codes t : zlen (codes t) = 2 * zlen t. Proof. unfold codes. rewrite zlen_flat16. unfold zlen. rewrite map_length. reflexivity. Qed.
  Lemma codes_app a b : codes (a ++ b) = codes a ++ codes b. Proof. unfold codes. rewrite map_app. apply flat16_app. Qed.
  Lemma zlen_pend done : forall at_ n, zlen (pend at_ done n) = zlen done.
  Proof. induction done as [|l done IH]; intros at_ n; cbn [pend]; [reflexivity|]. rewrite !zlen_cons, IH. reflexivity. Qed.
  Lemma seek_ok u u_o c s n t P : dok u -> dok c -> dok s -> d_len u < 1000000 -> d_len s < 2000 -> in_at u u_o (wire n) -> con s = codes (t ++ P) -> Forall (compares u u_o c n) t ->
    (place_of t n = None -> Forall (compares u u_o c n) P) -> Forall (longer_than n) P ->
    dwc_seek_comp_pointer u u_o c q s = Ok (match place_of t n with Some p => p | None => -2 end).
  Proof.
    intros Du Dc Ds Lu Ls Iu Cs Ht HP HL. unfold dwc_seek_comp_pointer. rewrite (dok_sane u Du), (dok_sane c Dc). cbn [negb orb]. pose proof (in_at_range _ _ _ Du Iu). pose proof (zlen_wire_pos n). rewrite u32_small by lia. replace ((u_o <? 0) || (d_len u <? u_o)) with false by lia.
    pose proof (f_equal zlen Cs) as Lz. rewrite zlen_con, zlen_codes, zlen_app in Lz by auto. unfold zlen in Lz.
    rewrite codes_app in Cs.
    destruct (place_of t n) as [p|] eqn:Ep.
    - replace (Z.to_nat 1000) with (length t + (Z.to_nat 1000 - length t))%nat by lia. rewrite (seek_step u u_o c n t _ s [] (codes P) 0) by (auto; lia). rewrite Ep. reflexivity.
    - replace (Z.to_nat 1000) with (length t + (length P + (Z.to_nat 1000 - length t - length P)))%nat by lia. rewrite (seek_step u u_o c n t _ s [] (codes P) 0) by (auto; lia). rewrite Ep. rewrite Z.add_0_l.
      rewrite (seek_step u u_o c n P _ s (codes t) [] (2 * zlen t)) by (auto; try lia; rewrite ?app_nil_r, ?zlen_codes; try exact Cs; lia). rewrite place_longer by exact HL.
      destruct (Z.to_nat 1000 - length t - length P)%nat eqn:F; cbn [seek_loop]; [reflexivity|]. rewrite u32_small by (unfold zlen; lia). replace (2 * zlen t + 2 * zlen P <? d_len s) with false by (unfold zlen; lia). reflexivity.
  Qed.

  Lemma codes_one p x : codes [(p, x)] = num16 (code p). Proof. unfold codes, flat16. cbn [map concat fst]. apply app_nil_r. Qed.
  Lemma place_of_in t n p : place_of t n = Some p -> exists x, In (p, x) t /\ same_name x n = true.
  Proof. induction t as [|[a x] t IH]; cbn [place_of]; [discriminate|]. destruct (same_name x n) eqn:X; [intros [= ->]; exists x; split; [left; reflexivity|exact X]|]. intros H. destruct (IH H) as (y & I & S). exists y. split; [right; exact I|exact S]. Qed.
  Lemma place_range body t n p : Forall (entry_ok body) t -> place_of t n = Some p -> 12 <= p < 16384.
  Proof. intros HF H. destruct (place_of_in _ _ _ H) as (x & I & _). rewrite Forall_forall in HF. destruct (HF _ I) as (_ & R & _). exact R. Qed.
  Lemma dw_get_dn_end_ok u u_o n : dok u -> d_len u < 1000000 -> good_name n -> in_at u u_o (wire n) -> (length n < 200)%nat -> dw_get_dn_end u u_o = Ok (u_o + zlen (wire n)).
  Proof.
    intros D L G I Hn. unfold dw_get_dn_end. rewrite (dok_sane u D). cbn [negb orb]. pose proof (in_at_range _ _ _ D I) as R. rewrite ?u32_small by lia. rewrite ?(dn_end_ok n) by (auto; try lia; destruct I as (A & B & E & ->); rewrite E; rewrite zslice_app_r by (rewrite ?zlen_app; pose proof (zlen_nonneg B); pose proof (zlen_nonneg (wire n)); lia); rewrite Z.sub_diag, zslice_app_l by (pose proof (zlen_nonneg (wire n)); lia); apply zslice_all).
    reflexivity.
  Qed.
  Lemma place_root body t : Forall (entry_ok body) t -> place_of t [] = None.
  Proof. intros H. destruct (place_of t []) as [p|] eqn:E; [|reflexivity]. destruct (place_of_in _ _ _ E) as (x & I & S). rewrite Forall_forall in H. destruct (H _ I) as (Hne & _). cbn [snd] in Hne. apply same_name_len in S as (_ & S). destruct x; [congruence|]. rewrite zlen_cons in S. pose proof (zlen_nonneg x). change (zlen []) with 0 in S. lia. Qed.
  Lemma dlabel_ok J n : junk_ok J -> forall fuel t done B0 c s u u_o b E, dok u -> dok c -> dok s -> d_len u < 1000000 -> d_max c < 15000 -> d_max s < 2000 -> good_name n -> good_name done -> (length done + length n < 200)%nat -> (length n < fuel)%nat ->
    in_at u u_o (wire n) -> con c = B0 ++ wirel done -> Forall (entry_ok B0) t -> con s = codes (t ++ pend (S0 + zlen B0) done n) -> clean t done n ->
    pack_name t (S0 + d_len c) n = (b, t ++ E) -> d_len c + zlen b < d_max c -> d_len s + 2 * zlen E < d_max s ->
    exists c' s', dlabel_loop fuel J u u_o c s q = Ok (u_o + zlen (wire n), c', s') /\ added c b c' /\ dok s' /\ con s' = codes (t ++ pend (S0 + zlen B0) done n ++ E) /\ d_max s' = d_max s.
  Proof.
    intros HJ. pose proof S0_pos as HS. induction n as [|l n IH]; intros fuel t done B0 c s u u_o b E Du Dc Ds Lu Mc Ms Gn Gd Hlen Hfuel Iu Cc Ht Cs Hcl Hp Fc Fs; (destruct fuel as [|fuel]; [lia|]); cbn [dlabel_loop];
      pose proof (dwf_len _ (dok_dwf _ Dc)) as Lc; pose proof (dwf_len _ (dok_dwf _ Ds)) as Ls; pose proof (f_equal zlen Cc) as Lcc; rewrite zlen_con, zlen_app in Lcc by auto; pose proof (zlen_nonneg B0) as LB; pose proof (zlen_nonneg (wirel done)) as LW;
      assert (Forall (entry_ok (con c)) t) as Ht' by (rewrite Cc; eapply Forall_impl; [|exact Ht]; intros e; apply entry_mono);
      assert (in_at c (S0 + zlen B0 - S0) (wirel done)) as Icp by (exists B0, []; split; [rewrite app_nil_r; exact Cc|lia]).
    - assert (place_of t [] = None) as Ep by (eapply place_root; exact Ht).
      rewrite (seek_ok u u_o c s [] t (pend (S0 + zlen B0) done [])); auto; try lia.
      + rewrite Ep. cbn [bind]. change (0 <? -2) with false. change (-2 =? -2) with true. cbv iota. rewrite (in_at_get _ _ _ _ Du Iu). cbn [bind]. change (63 <? 0) with false. change (0 =? 0) with true. cbv iota.
        cbn [pack_name] in Hp. injection Hp as <- HE. rewrite <- (app_nil_r t) in HE at 1. apply app_inv_head in HE. subst E. change (zlen [0]) with 1 in Fc.
        destruct (dw_addchar_ok c 0 Dc ltac:(unfold byte; lia) Fc) as (c' & -> & D' & C' & M'). cbn [bind]. exists c', s. change (zlen (wire [])) with 1. split; [reflexivity|]. split; [split; [exact D'|split; [exact C'|exact M']]|]. rewrite app_nil_r. auto.
      + eapply Forall_impl; [|exact Ht']. intros e. apply entry_compares; auto; try lia.
      + intros _. apply (pend_compares u u_o c []) with (a := []); auto; try lia. apply no_run_nil.
      + apply pend_longer.
    - inversion Gn as [|? ? Gl Gn']; subst. pose proof Gl as (Hl & Bl). pose proof (in_at_range _ _ _ Du Iu) as Ru.
      rewrite (seek_ok u u_o c s (l :: n) t (pend (S0 + zlen B0) done (l :: n))); auto; try lia.
      + cbn [bind]. cbn [pack_name] in Hp. cbn [clean] in Hcl. destruct (place_of t (l :: n)) as [p|] eqn:Ep.
        * pose proof (place_range _ _ _ _ Ht' Ep) as Rp. replace (0 <? p) with true by lia. rewrite land_16383 by lia. rewrite (Z.mod_small p) by lia. rewrite lor_49152 by lia.
          injection Hp as <- HE. rewrite <- (app_nil_r t) in HE at 1. apply app_inv_head in HE. subst E. rewrite zlen_num16 in Fc.
          destruct (dw_push_u16_ok c (49152 + p) Dc Fc) as (c' & -> & D' & C' & M'). cbn [bind]. change (0 =? -1) with false. cbv iota. rewrite (dw_get_dn_end_ok u u_o (l :: n)) by (auto; lia). cbn [bind].
          replace (u_o + zlen (wire (l :: n)) =? -1) with false by (pose proof (zlen_wire_pos (l :: n)); lia). exists c', s. split; [reflexivity|]. split; [split; [exact D'|split; [rewrite C', u16be_num16 by lia; reflexivity|exact M']]|]. rewrite app_nil_r. auto.
        * change (0 <? -2) with false. change (-2 =? -2) with true. cbv iota. destruct Hcl as (_ & Hcl). cbn [wire] in Iu. rewrite (in_at_get _ _ _ _ Du Iu). cbn [bind]. replace (63 <? zlen l) with false by lia. replace (zlen l =? 0) with false by lia.
          destruct (pack_name_ext n t [(S0 + d_len c, l :: n)] (S0 + d_len c + 1 + zlen l)) as (b1 & E1 & P1 & P2); [repeat constructor|]. unfold places, name in *. rewrite P2 in Hp. injection Hp as <- HE. apply app_inv_head in HE. subst E.
          cbn [app] in Fs. rewrite zlen_cons in Fs. pose proof (zlen_nonneg E1). rewrite zlen_cons, zlen_app in Fc. pose proof (zlen_nonneg b1).
          destruct (dw_push_u16_ok s (d_len c) Ds ltac:(lia)) as (s1 & -> & Ds1 & Cs1 & Ms1). cbn [bind]. change (0 =? -1) with false. cbv iota.
          cbn [wire] in Ru. rewrite zlen_cons, zlen_app in Ru. pose proof (zlen_wire_pos n).
          destruct (dw_substr_ok J u u_o (zlen l + 1) 1 HJ Du ltac:(lia) ltac:(lia) ltac:(lia) ltac:(lia) ltac:(lia)) as (tmp & -> & Dt & Ct & _ & Lt). cbn [bind].
          destruct (dw_append_ok tmp c Dt Dc ltac:(lia)) as (c1 & -> & Dc1 & Cc1 & Mc1). cbn [bind].
          assert (con tmp = zlen l :: l) as Ctm.
          { rewrite Ct. destruct Iu as (A & Z0 & Eu & ->). rewrite Eu. cbn [app]. rewrite <- app_assoc. change (zlen l :: l ++ wire n ++ Z0) with ((zlen l :: l) ++ wire n ++ Z0).
            rewrite zslice_app_r by (repeat rewrite ?zlen_app, ?zlen_cons; pose proof (zlen_nonneg Z0); lia). rewrite Z.sub_diag. rewrite zslice_app_l by (rewrite ?zlen_cons; lia). rewrite <- zlen_cons with (x := zlen l). apply zslice_all. }
          rewrite Ctm in Cc1. pose proof (f_equal zlen Cc1) as Lc1. rewrite zlen_app, zlen_cons, !zlen_con in Lc1 by auto. pose proof (f_equal zlen Cs1) as Ls1. rewrite zlen_app, !zlen_con in Ls1 by auto. change (zlen (u16be (d_len c))) with 2 in Ls1.
          destruct (IH fuel t (done ++ [l]) B0 c1 s1 u (u_o + (zlen l + 1)) b1 E1) as (c2 & s2 & -> & A2 & Ds2 & Cs2 & Ms2); auto; try lia.
          -- apply Forall_app. split; [exact Gd|constructor; [exact Gl|constructor]].
          -- rewrite app_length. cbn [length] in *. lia.
          -- cbn [length] in Hfuel. lia.
          -- apply in_at_wire_next. exact Iu.
          -- rewrite Cc1, Cc, wirel_app. cbn [wirel]. rewrite app_nil_r, <- app_assoc. reflexivity.
          -- rewrite Cs1, Cs, pend_snoc, app_assoc, (codes_app _ [(_, l :: n)]). f_equal. rewrite codes_one. rewrite u16be_num16 by lia. f_equal. unfold code. replace (S0 + zlen B0 + zlen (wirel done) <? S0) with false by lia. lia.
          -- replace (S0 + d_len c1) with (S0 + d_len c + 1 + zlen l) by lia. exact P1.
          -- exists c2, s2. split; [|split; [|split; [exact Ds2|split; [|congruence]]]].
             ++ cbn [wire]. rewrite zlen_cons, zlen_app. do 3 f_equal. lia.
             ++ change (zlen l :: l ++ b1) with ((zlen l :: l) ++ b1). eapply added_trans; [|exact A2]. split; [exact Dc1|]. split; [exact Cc1|exact Mc1].
             ++ rewrite Cs2, pend_snoc. rewrite <- !app_assoc. cbn [app]. do 4 f_equal. rewrite Lcc. reflexivity || (f_equal; lia).
      + eapply Forall_impl; [|exact Ht']. intros e. apply entry_compares; auto; try lia.
      + intros Ep. cbn [clean] in Hcl. rewrite Ep in Hcl. destruct Hcl as (Hno & _). apply (pend_compares u u_o c (l :: n)) with (a := []); auto; try lia.
      + apply pend_longer.
  Qed.

  (** *** What is written can be read *)
  Definition shaped (B : list Z -> list Z) (L : Z) : Prop := forall y, zlen y = 2 -> zlen (B y) = L.
  Definition valid (B : list Z -> list Z) (t : places) : Prop := forall y, zlen y = 2 -> Forall (entry_ok (B y)) t.
  Lemma valid_app B t b : valid B t -> valid (fun y => B y ++ b) t.
  Proof. intros H y Hy. eapply Forall_impl; [|exact (H y Hy)]. intros e. apply entry_mono. Qed.
  Lemma shaped_app B L b : shaped B L -> shaped (fun y => B y ++ b) (L + zlen b).
  Proof. intros H y Hy. rewrite zlen_app, (H y Hy). reflexivity. Qed.
  Lemma same_length x n : same_name x n = true -> length x = length n.
  Proof. intros H. apply same_name_len in H as (_ & H). unfold zlen in H. lia. Qed.
  Lemma pack_valid n : forall t B L b E, shaped B L -> 0 <= L -> valid B t -> good_name n -> S0 + L + zlen b <= 16384 -> pack_name t (S0 + L) n = (b, t ++ E) ->
    (forall y, zlen y = 2 -> exists n' k, same_name n n' = true /\ name_at (Tm (msg (B y ++ b))) (msg (B y ++ b)) k (S0 + L) n' (S0 + L + zlen b) /\ (k <= 2 * length n + 1)%nat) /\
    valid (fun y => B y ++ b) (t ++ E) /\ 2 * zlen E <= zlen b /\ zlen b <= zlen (wire n) /\ 1 <= zlen b.
  Proof.
    pose proof S0_pos as HS. induction n as [|l n IH]; intros t B L b E HB HL Hv Gn Hlen Hp; cbn [pack_name] in Hp.
    - injection Hp as <- HE. rewrite <- (app_nil_r t) in HE at 1. apply app_inv_head in HE. subst E. rewrite app_nil_r. change (zlen [0]) with 1. change (zlen []) with 0. change (zlen (wire [])) with 1. split; [|split; [apply valid_app; exact Hv|lia]].
      intros y Hy. exists [], 1%nat. split; [reflexivity|]. split; [|cbn; lia]. apply at_root. rewrite msg_get by lia. rewrite zget_app_r by (rewrite (HB y Hy); lia). rewrite (HB y Hy). replace (S0 + L - S0 - L) with 0 by lia. reflexivity.
    - inversion Gn as [|? ? Gl Gn']; subst. pose proof Gl as (Hl & Bl). destruct (place_of t (l :: n)) as [p|] eqn:Ep.
      + apply pair_equal_spec in Hp as (<- & HE). rewrite <- (app_nil_r t) in HE at 1. apply app_inv_head in HE. subst E. rewrite app_nil_r. rewrite zlen_num16. change (zlen []) with 0. split; [|split; [apply valid_app; exact Hv|cbn [wire]; rewrite zlen_cons, zlen_app; pose proof (zlen_wire_pos n); lia]].
        intros y Hy. destruct (place_of_in _ _ _ Ep) as (x & I & S). pose proof (Hv y Hy) as HF. rewrite Forall_forall in HF. destruct (HF _ I) as (Hne & Rp & HT & _ & x' & k & e' & Sx & Hn & Hk). cbn [fst snd] in *.
        exists x', (Datatypes.S k). split; [|split].
        * apply same_name_trans with x; [rewrite same_name_sym; exact S|exact Sx].
        * assert ((192 + p / 256 - 192) * 256 + p mod 256 = p) as Hpp by (pose proof (Z.div_mod p 256 ltac:(lia)); lia).
          assert (num16 (49152 + p) = [192 + p / 256; p mod 256]) as Hnum by (unfold num16; f_equal; [|f_equal]; lia). rewrite Hnum.
          apply at_pointer with (hi := 192 + p / 256) (lo := p mod 256) (k := k) (e := e').
          -- rewrite msg_get by lia. rewrite zget_app_r by (rewrite (HB y Hy); lia). rewrite (HB y Hy). replace (S0 + L - S0 - L) with 0 by lia. reflexivity.
          -- lia.
          -- rewrite msg_get by lia. rewrite zget_app_r by (rewrite (HB y Hy); lia). rewrite (HB y Hy). replace (S0 + L + 1 - S0 - L) with 1 by lia. reflexivity.
          -- rewrite Hpp. apply Tm_mono. exact HT.
          -- rewrite Hpp. apply at_mono. exact Hn.
        * apply same_length in S. cbn [length] in *. lia.
      + destruct (pack_name_ext n t [(S0 + L, l :: n)] (S0 + L + 1 + zlen l)) as (b1 & E1 & P1 & P2); [repeat constructor|]. unfold places, name in *. rewrite P2 in Hp. injection Hp as <- HE. apply app_inv_head in HE. subst E.
        rewrite zlen_cons, zlen_app in Hlen. rewrite zlen_cons, zlen_app. cbn [app]. rewrite (zlen_cons (S0 + L, l :: n)). cbn [wire]. rewrite zlen_cons, zlen_app.
        destruct (IH t (fun y => B y ++ zlen l :: l) (L + (zlen l + 1)) b1 E1) as (Hat & Hval & Hsz & Hsz2 & Hsz3); auto.
        * rewrite <- zlen_cons with (x := zlen l). apply shaped_app. exact HB.
        * lia.
        * apply valid_app. exact Hv.
        * lia.
        * replace (S0 + (L + (zlen l + 1))) with (S0 + L + 1 + zlen l) by lia. exact P1.
        * assert (forall y, zlen y = 2 -> exists n' k, same_name (l :: n) n' = true /\ name_at (Tm (msg (B y ++ zlen l :: l ++ b1))) (msg (B y ++ zlen l :: l ++ b1)) k (S0 + L) n' (S0 + L + (zlen l + zlen b1 + 1)) /\ (k <= 2 * length (l :: n))%nat) as Hmain.
          { intros y Hy. destruct (Hat y Hy) as (n' & k & Sn & Hn & Hk). exists (l :: n'), (Datatypes.S k). split; [rewrite same_name_cons, zlist_eqb_refl; exact Sn|]. split; [|cbn [length]; lia].
            rewrite <- app_assoc in Hn. cbn [app] in Hn. apply at_label; auto.
            - rewrite msg_get by lia. rewrite zget_app_r by (rewrite (HB y Hy); lia). rewrite (HB y Hy). replace (S0 + L - S0 - L) with 0 by lia. apply zget_cons_0.
            - rewrite msg_slice by (try lia; rewrite zlen_app, (HB y Hy), zlen_cons, zlen_app; lia). rewrite zslice_app_r by (try lia; rewrite (HB y Hy), ?zlen_cons, ?zlen_app; lia). rewrite (HB y Hy). replace (S0 + L + 1 - S0 - L) with 1 by lia.
              change (zlen l :: l ++ b1) with ([zlen l] ++ l ++ b1). rewrite zslice_app_r by (change (zlen [zlen l]) with 1; rewrite ?zlen_app; lia). change (1 - zlen [zlen l]) with 0. rewrite zslice_app_l by lia. apply zslice_all.
            - replace (S0 + L + 1 + zlen l) with (S0 + (L + (zlen l + 1))) by lia. replace (S0 + L + (zlen l + zlen b1 + 1)) with (S0 + (L + (zlen l + 1)) + zlen b1) by lia. exact Hn. }
          split; [|split; [|lia]].
          -- intros y Hy. destruct (Hmain y Hy) as (n' & k & Sn & Hn & Hk). exists n', k. split; [exact Sn|]. split; [exact Hn|lia].
          -- intros y Hy. specialize (Hval y Hy). cbn beta in Hval. rewrite <- app_assoc in Hval. cbn [app] in Hval. apply Forall_app in Hval as (V1 & V2). apply Forall_app. split; [exact V1|]. constructor; [|exact V2].
             destruct (Hmain y Hy) as (n' & k & Sn & Hn & Hk). unfold entry_ok. cbn [fst snd]. split; [discriminate|]. split; [lia|]. split; [split; [left; lia|]|].
             ++ exists (zlen l). split; [|lia]. rewrite msg_get by lia. rewrite zget_app_r by (rewrite (HB y Hy); lia). rewrite (HB y Hy). replace (S0 + L - S0 - L) with 0 by lia. apply zget_cons_0.
             ++ split; [lia|]. eauto 10.
  Qed.

  (** Repeated labels. *)
  Definition covers (t : places) : Prop := forall before x y, qn = before ++ x -> x <> [] -> same_name x y = true -> place_of t y <> None.
  Lemma covers_app t E : covers t -> covers (t ++ E).
  Proof. intros H before x y E1 Hx S. specialize (H before x y E1 Hx S). rewrite place_app. destruct (place_of t y); congruence. Qed.
  Lemma same_suffix a b p r : same_name a b = true -> b = p ++ r -> exists p' x, a = p' ++ x /\ same_name x r = true.
  Proof.
    intros S ->. exists (firstn (length p) a), (skipn (length p) a). split; [symmetry; apply firstn_skipn|]. apply same_name_spec. apply same_name_spec in S. unfold lower_name in *. rewrite map_app in S.
    rewrite <- skipn_map, S. rewrite skipn_app, map_length, Nat.sub_diag. rewrite skipn_all2 by (rewrite map_length; lia). reflexivity.
  Qed.
  Lemma no_repeat_clean t n : covers t -> no_repeat qn n -> clean t [] n.
  Proof.
    intros Ht (front & back & qf & qb & En & Eq & S & Hno).
    assert (forall r done, n = done ++ r -> clean t done r) as X; [|exact (X n [] eq_refl)].
    induction r as [|l r IH]; intros done E; cbn [clean]; [exact Logic.I|]. destruct (place_of t (l :: r)) eqn:Ep; [exact Logic.I|]. split; [|apply IH; rewrite <- app_assoc; exact E].
    intros a w w' b Ed Hw Er. destruct (same_name w w') eqn:Sw; [|reflexivity]. exfalso.
    assert (length front <= length (a ++ w))%nat as Hl by (apply (Hno a w w' b); auto; rewrite E, Ed, Er, <- app_assoc; reflexivity). rewrite <- Ed in Hl.
    assert (exists p, back = p ++ l :: r) as (p & Ep2).
    { exists (skipn (length front) done). rewrite En in E. assert (skipn (length front) (front ++ back) = skipn (length front) (done ++ l :: r)) as Es by (rewrite E; reflexivity). rewrite !skipn_app, skipn_all, Nat.sub_diag in Es.
      replace (length front - length done)%nat with 0%nat in Es by lia. exact Es. }
    destruct (same_suffix qb back p (l :: r) S Ep2) as (p' & x & Ex & Sx). apply (Ht (qf ++ p') x (l :: r)); auto; [rewrite Eq, Ex, app_assoc; reflexivity|]. intros ->. apply same_length in Sx. discriminate Sx.
  Qed.

  (** *** Several names *)
  Lemma names_mono (T T' : Z -> Prop) m suf lim : (forall p, T p -> T' p) -> forall p ns e, names_at T m lim p ns e -> names_at T' (m ++ suf) lim p ns e.
  Proof. intros HT p ns e H. induction H as [p|k p n e ns e' Hk Hn Hns IH]; [constructor|]. econstructor; [exact Hk|eapply name_at_mono; [exact HT|exact Hn]|exact IH]. Qed.
  Lemma pack_names_valid lim ns : forall t B L b t', shaped B L -> 0 <= L -> valid B t -> Forall good_name ns -> Forall (fun n => 2 * length n + 1 <= lim)%nat ns -> S0 + L + zlen b <= 16384 -> pack_names t (S0 + L) ns = (b, t') ->
    exists E, t' = t ++ E /\ (forall y, zlen y = 2 -> exists ns', Forall2 (fun x y => same_name x y = true) ns ns' /\ names_at (Tm (msg (B y ++ b))) (msg (B y ++ b)) lim (S0 + L) ns' (S0 + L + zlen b)) /\
    valid (fun y => B y ++ b) t' /\ 2 * zlen E <= zlen b /\ zlen b <= zlen (concat (map wire ns)).
  Proof.
    induction ns as [|n ns IH]; intros t B L b t' HB HL Hv Gn Hlim Hlen Hp; cbn [pack_names] in Hp.
    - injection Hp as <- <-. exists []. rewrite app_nil_r. change (zlen []) with 0. rewrite Z.add_0_r. split; [reflexivity|]. split; [|split; [apply valid_app; exact Hv|cbn [map concat]; change (zlen []) with 0; lia]].
      intros y Hy. exists []. split; constructor.
    - destruct (pack_name_ext n t [] (S0 + L)) as (b1 & E1 & P1 & _); [constructor|]. rewrite P1 in Hp. destruct (pack_names (t ++ E1) (S0 + L + zlen b1) ns) as [b2 t2] eqn:P2. injection Hp as <- <-. rewrite zlen_app in Hlen. pose proof (zlen_nonneg b1). pose proof (zlen_nonneg b2).
      inversion Gn as [|? ? Gn1 Gns]; subst. inversion Hlim as [|? ? Hl1 Hls]; subst. destruct (pack_valid n t B L b1 E1 HB HL Hv Gn1 ltac:(lia) P1) as (Hat & Hval & Hsz & Hsz2 & Hsz3).
      destruct (IH (t ++ E1) (fun y => B y ++ b1) (L + zlen b1) b2 t2) as (E2 & -> & Hats & Hvals & Hsz4 & Hsz5); auto; try lia; [apply shaped_app; exact HB|rewrite Z.add_assoc; exact P2|].
      exists (E1 ++ E2). rewrite !zlen_app. rewrite app_assoc. split; [reflexivity|]. split; [|split; [|cbn [map concat]; rewrite zlen_app; lia]].
      + intros y Hy. destruct (Hat y Hy) as (n' & k & Sn & Hn & Hk). destruct (Hats y Hy) as (ns' & Sns & Hns). exists (n' :: ns'). split; [constructor; assumption|].
        apply (at_mono _ b2) in Hn. rewrite <- app_assoc in Hn, Hns. eapply names_cons; [|exact Hn|]; [lia|]. replace (S0 + (L + zlen b1)) with (S0 + L + zlen b1) in Hns by lia. replace (S0 + L + (zlen b1 + zlen b2)) with (S0 + L + zlen b1 + zlen b2) by lia. exact Hns.
      + intros y Hy. specialize (Hvals y Hy). cbn beta in Hvals. rewrite <- app_assoc in Hvals. exact Hvals.
  Qed.
  Lemma names_ok J ns : junk_ok J -> forall fuel t B L y0 c s u u_o d b t', dok u -> dok c -> dok s -> d_len u < 1000000 -> d_max c < 15000 -> d_max s < 2000 -> shaped B L -> valid B t -> covers t -> zlen y0 = 2 -> con c = B y0 ->
    Forall proper_name ns -> Forall (no_repeat qn) ns -> in_at u u_o (concat (map wire ns)) -> con s = codes t -> pack_names t (S0 + L) ns = (b, t') -> d_len c + zlen b < d_max c -> 2 * zlen t + zlen b < d_max s -> 0 <= d -> d + zlen ns <= 20 -> (length ns < fuel)%nat ->
    exists c' s', compress_dlabels fuel J u u_o c (zlen ns) s q d = Ok (u_o + zlen (concat (map wire ns)), c', s') /\ added c b c' /\ dok s' /\ con s' = codes t' /\ d_max s' = d_max s.
  Proof.
    intros HJ. pose proof S0_pos as HS. induction ns as [|n ns IH]; intros fuel t B L y0 c s u u_o d b t' Du Dc Ds Lu Mc Ms HB Hv Hcov Hy0 Cc Hpn Hnr Iu Cs Hp Fc Fs Hd Hdn Hfuel; (destruct fuel as [|fuel]; [cbn [length] in Hfuel; lia|]); cbn [compress_dlabels];
      pose proof (in_at_range _ _ _ Du Iu) as Ru; rewrite (dok_sane u Du), (dok_sane c Dc), (dok_sane s Ds); cbn [negb orb].
    - cbn [map concat] in Ru. change (zlen (@nil Z)) with 0 in Ru. rewrite u32_small by lia. replace ((u_o <? 0) || (d_len u <? u_o)) with false by lia. change (zlen (@nil name) <=? 0) with true. rewrite orb_true_r.
      cbn [pack_names] in Hp. injection Hp as <- <-. exists c, s. cbn [map concat]. change (zlen (@nil Z)) with 0. rewrite Z.add_0_r. split; [reflexivity|]. split; [apply added_nil; exact Dc|]. auto.
    - pose proof (zlen_nonneg (concat (map wire ns))). pose proof (zlen_nonneg ns). cbn [map concat] in Ru, Iu |- *. rewrite zlen_app in Ru |- *. pose proof (zlen_wire_pos n). rewrite zlen_cons in Hdn |- *. rewrite u32_small by lia. replace ((u_o <? 0) || (d_len u <? u_o)) with false by lia. replace ((20 <=? d) || (zlen ns + 1 <=? 0)) with false by lia.
      destruct (pack_name_ext n t [] (S0 + L)) as (b1 & E1 & P1 & _); [constructor|]. cbn [pack_names] in Hp. rewrite P1 in Hp. destruct (pack_names (t ++ E1) (S0 + L + zlen b1) ns) as [b2 t2] eqn:P2. injection Hp as <- <-. rewrite zlen_app in Fc, Fs. pose proof (zlen_nonneg b1). pose proof (zlen_nonneg b2).
      inversion Hpn as [|? ? (Gn & Ln) Hpns]; subst. inversion Hnr as [|? ? Hn1 Hnrs]; subst. pose proof (f_equal zlen Cc) as Lc. rewrite zlen_con, (HB y0 Hy0) in Lc by auto. pose proof (dwf_len _ (dok_dwf _ Dc)) as Lcc.
      destruct (pack_valid n t B L b1 E1 HB ltac:(lia) Hv Gn ltac:(lia) P1) as (_ & Hval & Hsz & Hsz2 & Hsz3). pose proof (f_equal zlen Cs) as Lss. rewrite zlen_con, zlen_codes in Lss by auto.
      destruct (dlabel_ok J n HJ (Z.to_nat 300) t [] (con c) c s u u_o b1 E1) as (c1 & s1 & E & A1 & Ds1 & Cs1 & Ms1); auto; try lia.
      + constructor.
      + unfold zlen in Ln. cbn [length]. lia.
      + unfold zlen in Ln. lia.
      + exact (in_at_app_l _ _ _ _ Iu).
      + cbn [wirel]. rewrite app_nil_r. reflexivity.
      + rewrite Cc. exact (Hv y0 Hy0).
      + cbn [pend]. rewrite app_nil_r. exact Cs.
      + apply no_repeat_clean; auto.
      + rewrite Lc. exact P1.
      + rewrite E. cbn [bind]. cbn [pend app] in Cs1. pose proof A1 as (Dc1 & Cc1 & Mc1). pose proof (added_len _ _ _ Dc A1) as Lc1. replace (zlen ns + 1 - 1) with (zlen ns) by lia.
        destruct (IH fuel (t ++ E1) (fun y => B y ++ b1) (L + zlen b1) y0 c1 s1 u (u_o + zlen (wire n)) (d + 1) b2 t2) as (c2 & s2 & -> & A2 & Ds2 & Cs2 & Ms2); auto; try lia.
        * apply shaped_app; exact HB.
        * apply covers_app; exact Hcov.
        * rewrite Cc1, Cc. reflexivity.
        * exact (in_at_app_r _ _ _ _ Iu).
        * rewrite Z.add_assoc. exact P2.
        * rewrite zlen_app. lia.
        * cbn [length] in Hfuel. lia.
        * exists c2, s2. split; [do 3 f_equal; lia|]. split; [eapply added_trans; eassumption|]. split; [exact Ds2|]. split; [exact Cs2|congruence].
  Qed.

  (** *** One record *)
  Lemma sub_at J u o x : junk_ok J -> dok u -> d_len u < 1000000 -> in_at u o x -> exists tmp, dw_substr J (Some u) o (zlen x) 1 = Ok (Some tmp) /\ dok tmp /\ con tmp = x /\ d_len tmp = zlen x.
  Proof.
    intros HJ D L I. pose proof (in_at_range _ _ _ D I) as R. pose proof (zlen_nonneg x). destruct (dw_substr_ok J u o (zlen x) 1 HJ D) as (tmp & E & Dt & Ct & _ & Lt); try lia. exists tmp. split; [exact E|]. split; [exact Dt|]. split; [|exact Lt].
    rewrite Ct. destruct I as (A & B & Eu & ->). rewrite Eu. pose proof (zlen_nonneg B). rewrite zslice_app_r by (rewrite ?zlen_app; lia). rewrite Z.sub_diag, zslice_app_l by lia. apply zslice_all.
  Qed.
  Lemma app_at J u o x c : junk_ok J -> dok u -> d_len u < 1000000 -> in_at u o x -> dok c -> d_len c + zlen x < d_max c ->
    exists tmp c', dw_substr J (Some u) o (zlen x) 1 = Ok (Some tmp) /\ dw_append (Some tmp) c = Ok (0, c') /\ added c x c'.
  Proof.
    intros HJ D L I Dc F. destruct (sub_at J u o x HJ D L I) as (tmp & E & Dt & Ct & Lt). destruct (dw_append_ok tmp c Dt Dc ltac:(lia)) as (c' & E' & D' & C' & M'). exists tmp, c'. split; [exact E|]. split; [exact E'|]. split; [exact D'|]. split; [rewrite C', Ct; reflexivity|exact M'].
  Qed.
  Lemma copy_part_ok J u o x c : junk_ok J -> dok u -> d_len u < 1000000 -> in_at u o x -> dok c -> d_len c + zlen x < d_max c ->
    exists c', copy_part J u o (zlen x) c = Ok (o + zlen x, c') /\ added c x c'.
  Proof.
    intros HJ D L I Dc F. unfold copy_part. destruct (Z.ltb_spec 0 (zlen x)).
    - destruct (app_at J u o x c HJ D L I Dc F) as (tmp & c' & -> & E & A). cbn [bind]. rewrite E. cbn [bind]. exists c'. auto.
    - destruct x as [|z x]; [|rewrite zlen_cons in *; pose proof (zlen_nonneg x); lia]. exists c. change (zlen (@nil Z)) with 0. rewrite Z.add_0_r. split; [reflexivity|]. apply added_nil. exact Dc.
  Qed.
  Lemma packs_desc type : if packs type then exists lead n tail, layout type = Some (lead, n, tail) /\ 0 < dwc_type_desc type /\ desc_lead (dwc_type_desc type) = lead /\ desc_names (dwc_type_desc type) = Z.of_nat n /\ desc_tail (dwc_type_desc type) = tail /\ (n <= 2)%nat /\ (Z.land (dwc_type_desc type) 4096 =? 0) = false
    else (Z.land (dwc_type_desc type) 4096 =? 0) = true.
  Proof.
    unfold packs, layout, dwc_type_desc. cbn [existsb].
    repeat (match goal with |- context [type =? ?c] => destruct (Z.eqb_spec type c) as [->|?] end; [cbn -[Z.land desc_lead desc_names desc_tail]; first [reflexivity | do 3 eexists; split; [reflexivity|]; split; [lia|]; split; [reflexivity|]; split; [reflexivity|]; split; [reflexivity|]; split; [lia|reflexivity]]|]). reflexivity.
  Qed.
  Lemma valid_const body t : Forall (entry_ok body) t -> valid (fun _ => body) t. Proof. intros H y _. exact H. Qed.
  Lemma shaped_const body : shaped (fun _ => body) (zlen body). Proof. intros y _. reflexivity. Qed.
  Lemma rr_pack_ok J r : junk_ok J -> forall t c s u at_ b t', dok u -> dok c -> dok s -> d_len u < 1000000 -> d_max c < 15000 -> d_max s < 2000 -> Forall (entry_ok (con c)) t -> covers t -> con s = codes t ->
    proper_rr r -> rr_fits r -> Forall (no_repeat qn) (rr_all_names r) -> in_at u at_ (rr_plain r) -> pack_rr t (S0 + d_len c) r = (b, t') -> d_len c + zlen b < d_max c -> 2 * zlen t + zlen b < d_max s ->
    exists c' s', dwc_compress_rr J at_ (at_ + zlen (wire (rr_owner r))) u c q s = Ok (c', s') /\ added c b c' /\ dok s' /\ con s' = codes t' /\ d_max s' = d_max s.
  Proof.
    intros HJ t c s u at_ b t' Du Dc Ds Lu Mc Ms Ht Hcov Cs (Hpo & Hpn & Hlay) (Hty & Hmeta & Hrd) Hnr Iu Hp Fc Fs. unfold rr_all_names in Hnr. inversion Hnr as [|? ? Hno Hnn]; subst. pose proof S0_pos as HS. pose proof (dwf_len _ (dok_dwf _ Dc)) as Lc.
    unfold dwc_compress_rr. rewrite (dok_sane u Du), (dok_sane c Dc), (dok_sane q Dq), (dok_sane s Ds). cbn [negb orb]. pose proof (in_at_range _ _ _ Du Iu) as Ru. unfold rr_plain in Ru. repeat rewrite zlen_app in Ru. rewrite !zlen_num16 in Ru. pose proof (zlen_wire_pos (rr_owner r)). pose proof (zlen_nonneg (rdata_plain r)).
    replace ((d_len u <? at_) || (d_len u <? at_ + zlen (wire (rr_owner r))) || (at_ + zlen (wire (rr_owner r)) <? at_)) with false by lia.
    unfold pack_rr in Hp. destruct (pack_name_ext (rr_owner r) t [] (S0 + d_len c)) as (o & E1 & P1 & _); [constructor|]. rewrite P1 in Hp.
    pose proof (pack_valid (rr_owner r) t (fun _ => con c) (zlen (con c)) o E1 (shaped_const _) ltac:(apply zlen_nonneg) (valid_const _ _ Ht) (proj1 Hpo)) as Hval. rewrite zlen_con in Hval by auto.
    (* the fixed part and the data *)
    match type of Hp with context [if packs (rr_type r) then ?X else ?Y] => remember (if packs (rr_type r) then X else Y) as dt eqn:Edt end.
    destruct dt as [dd t2]. symmetry in Edt. apply pair_equal_spec in Hp as (<- & <-). repeat rewrite zlen_app in Fc, Fs. rewrite !zlen_num16 in Fc, Fs. pose proof (zlen_nonneg o). pose proof (zlen_nonneg dd). rewrite Hmeta in *.
    destruct (Hval ltac:(lia) P1) as (_ & Hv1 & Hsz1 & _ & _). clear Hval. specialize (Hv1 [0; 0] eq_refl). cbn beta in Hv1.
    unfold rr_plain in Iu. pose proof (in_at_app_l _ _ _ _ Iu) as Io. apply in_at_app_r in Iu.
    (* the owner *)
    unfold dwc_compress_dlabels. change 1 with (zlen [rr_owner r]) at 1.
    destruct (names_ok J [rr_owner r] HJ 21 t (fun _ => con c) (d_len c) [0; 0] c s u at_ 0 o (t ++ E1)) as (c1 & s1 & -> & A1 & Ds1 & Cs1 & Ms1); auto; try (cbn [length]; lia).
    { intros y _. apply zlen_con. auto. } { apply valid_const. exact Ht. } { cbn [map concat]. rewrite app_nil_r. exact Io. } { cbn [pack_names]. rewrite P1. rewrite app_nil_r. reflexivity. } { change (zlen [rr_owner r]) with 1. lia. }
    cbn [bind]. cbn [map concat]. rewrite app_nil_r. rewrite Z.eqb_refl. cbn [negb]. pose proof A1 as (Dc1 & Cc1 & Mc1). pose proof (added_len _ _ _ Dc A1) as Lc1.
    (* the ten bytes *)
    set (a1 := at_ + zlen (wire (rr_owner r))) in *. set (fix_ := num16 (rr_type r) ++ rr_meta r ++ num16 (zlen (rdata_plain r))).
    assert (zlen fix_ = 10) as Lf by (unfold fix_; rewrite !zlen_app, !zlen_num16; lia).
    assert (in_at u a1 (fix_ ++ rdata_plain r)) as If by (unfold fix_; rewrite <- !app_assoc; exact Iu).
    destruct (app_at J u a1 fix_ c1 HJ Du Lu (in_at_app_l _ _ _ _ If) Dc1 ltac:(lia)) as (tmp & c2 & E2 & E2' & A2). rewrite Lf in E2. rewrite E2. cbn [bind]. rewrite E2'. cbn [bind]. pose proof A2 as (Dc2 & Cc2 & Mc2). pose proof (added_len _ _ _ Dc1 A2) as Lc2.
    assert (dw_fetch_u16 u a1 = Ok (rr_type r)) as -> by (destruct If as (A & Bu & Eu & ->); apply (fetch_mid u A (rr_type r) (rr_meta r ++ num16 (zlen (rdata_plain r)) ++ rdata_plain r ++ Bu)); auto; rewrite Eu; unfold fix_; rewrite <- !app_assoc; reflexivity).
    cbn [bind]. cbv zeta. pose proof (packs_desc (rr_type r)) as HD. apply in_at_app_r in If as Id. rewrite Lf in Id.
    destruct (packs (rr_type r)) eqn:Epk.
    - destruct HD as (lead & nn & tail & El & Hd0 & Hlead & Hnm & Htl & Hn2 & Hfl). rewrite El in Hlay. destruct Hlay as (Ll & Ln & Lt). rewrite Hfl.
      destruct (pack_names (t ++ E1) (S0 + d_len c + zlen o + 10 + zlen (rr_lead r)) (rr_names r)) as [nb t3] eqn:P2. injection Edt as <- <-. repeat rewrite zlen_app in Fc, Fs. pose proof (zlen_nonneg nb). pose proof (zlen_nonneg (rr_lead r)). pose proof (zlen_nonneg (rr_tail r)).
      unfold rdata_plain in Id. pose proof (in_at_app_l _ _ _ _ Id) as Il. apply in_at_app_r in Id. pose proof (in_at_app_l _ _ _ _ Id) as In_. apply in_at_app_r in Id as It.
      unfold dwc_comp_rddata. rewrite (dok_sane u Du), (dok_sane c2 Dc2), (dok_sane s1 Ds1). cbn [negb orb]. rewrite u32_small by lia. replace ((dwc_type_desc (rr_type r) <? 0) || (a1 + 10 <? 0) || (d_len u <? a1 + 10)) with false by lia.
      rewrite Hlead, Hnm, Htl. rewrite <- Ll, <- Lt, <- Ln.
      destruct (copy_part_ok J u (a1 + 10) (rr_lead r) c2 HJ Du Lu Il Dc2 ltac:(lia)) as (c3 & -> & A3). cbn [bind]. pose proof A3 as (Dc3 & Cc3 & Mc3). pose proof (added_len _ _ _ Dc2 A3) as Lc3.
      (* the names: RDLENGTH is not yet known *)
      set (Bf := fun y => ((con c1 ++ num16 (rr_type r) ++ rr_meta r) ++ y) ++ rr_lead r).
      assert (shaped Bf (d_len c + zlen o + 10 + zlen (rr_lead r))) as HBf by (intros y Hy; unfold Bf; rewrite !zlen_app, zlen_num16, zlen_con by auto; lia).
      assert (valid Bf (t ++ E1)) as HvB.
      { intros y Hy. unfold Bf. rewrite <- !app_assoc. rewrite Cc1. eapply Forall_impl; [|exact Hv1]. intros e. apply entry_mono. }
      assert (con c3 = Bf (num16 (zlen (rdata_plain r)))) as Cc3' by (rewrite Cc3, Cc2; unfold Bf, fix_; rewrite <- !app_assoc; reflexivity).
      unfold dwc_compress_dlabels. fold (zlen (rr_names r)).
      destruct (names_ok J (rr_names r) HJ 21 (t ++ E1) Bf (d_len c + zlen o + 10 + zlen (rr_lead r)) (num16 (zlen (rdata_plain r))) c3 s1 u (a1 + 10 + zlen (rr_lead r)) 0 nb t3) as (c4 & s4 & -> & A4 & Ds4 & Cs4 & Ms4); auto; try lia.
      { apply covers_app; exact Hcov. } { rewrite <- P2. f_equal. lia. } { rewrite zlen_app. lia. } { unfold zlen; lia. }
      cbn [bind]. pose proof A4 as (Dc4 & Cc4 & Mc4). pose proof (added_len _ _ _ Dc3 A4) as Lc4.
      destruct (copy_part_ok J u (a1 + 10 + zlen (rr_lead r) + zlen (concat (map wire (rr_names r)))) (rr_tail r) c4 HJ Du Lu It Dc4 ltac:(lia)) as (c5 & -> & A5). cbn [bind]. pose proof A5 as (Dc5 & Cc5 & Mc5). pose proof (added_len _ _ _ Dc4 A5) as Lc5.
      destruct (put_mid c5 (con c1 ++ num16 (rr_type r) ++ rr_meta r) (num16 (zlen (rdata_plain r))) (d_len c5 - d_len c2) (rr_lead r ++ nb ++ rr_tail r)) as (c6 & E6 & Dc6 & Cc6 & Mc6 & Lc6); auto.
      { rewrite Cc5, Cc4, Cc3'. unfold Bf. rewrite <- !app_assoc. reflexivity. } { lia. }
      replace (zlen (con c1 ++ num16 (rr_type r) ++ rr_meta r)) with (d_len c2 - 2) in E6 by (rewrite !zlen_app, zlen_num16, zlen_con by auto; lia). rewrite E6. cbn [bind]. exists c6, s4. split; [reflexivity|].
      split; [|split; [exact Ds4|split; [exact Cs4|congruence]]]. split; [exact Dc6|]. split; [|congruence]. rewrite Cc6, Cc1. rewrite <- !app_assoc. do 4 f_equal. f_equal. rewrite Z.mod_small by lia. f_equal. rewrite !zlen_app. lia.
    - rewrite HD. injection Edt as <- <-.
      assert (dw_fetch_u16 u (a1 + 8) = Ok (zlen (rdata_plain r))) as ->.
      { destruct If as (A & Bu & Eu & Ea). replace (a1 + 8) with (zlen (A ++ num16 (rr_type r) ++ rr_meta r)) by (rewrite !zlen_app, zlen_num16; lia).
        apply (fetch_mid u _ _ (rdata_plain r ++ Bu)); auto. rewrite Eu. unfold fix_. rewrite <- !app_assoc. reflexivity. }
      cbn [bind]. destruct (app_at J u (a1 + 10) (rdata_plain r) c2 HJ Du Lu Id Dc2 ltac:(lia)) as (tmp3 & c3 & -> & E3 & A3). cbn [bind]. rewrite E3. cbn [bind]. change (0 =? -1) with false. cbv iota. exists c3, s1. split; [reflexivity|]. split; [|split; [exact Ds1|split; [exact Cs1|exact Ms1]]].
      replace (num16 (rr_type r) ++ rr_meta r ++ num16 (zlen (rdata_plain r)) ++ rdata_plain r) with (fix_ ++ rdata_plain r) by (unfold fix_; rewrite <- !app_assoc; reflexivity). eapply added_trans; [exact A1|]. eapply added_trans; eassumption.
  Qed.

  Lemma msg_mid X Y W p n : p = S0 + zlen X -> n = zlen Y -> zslice (msg (X ++ Y ++ W)) p n = Y.
  Proof.
    intros -> ->. pose proof (zlen_nonneg X). pose proof (zlen_nonneg Y). pose proof (zlen_nonneg W). rewrite msg_slice by (rewrite ?zlen_app; lia). replace (S0 + zlen X - S0) with (zlen X) by lia. rewrite zslice_app_r by (rewrite ?zlen_app; lia). rewrite Z.sub_diag, zslice_app_l by lia. apply zslice_all.
  Qed.
  Lemma wire_name_at T n : forall X W p, good_name n -> p = S0 + zlen X -> name_at T (msg (X ++ wire n ++ W)) (S (length n)) p n (p + zlen (wire n)).
  Proof.
    induction n as [|l n IH]; intros X W p G ->; pose proof (zlen_nonneg X).
    - cbn [wire length]. change (zlen [0]) with 1. apply at_root. rewrite msg_get by lia. replace (S0 + zlen X - S0) with (zlen X) by lia. rewrite zget_app_r by lia. rewrite Z.sub_diag. reflexivity.
    - inversion G as [|? ? (Hl & Bl) G']; subst. cbn [wire length]. rewrite zlen_cons, zlen_app. apply at_label; auto.
      + rewrite msg_get by lia. replace (S0 + zlen X - S0) with (zlen X) by lia. rewrite zget_app_r by lia. rewrite Z.sub_diag. apply zget_cons_0.
      + replace (X ++ (zlen l :: l ++ wire n) ++ W) with ((X ++ [zlen l]) ++ l ++ (wire n ++ W)) by (rewrite <- !app_assoc; cbn [app]; rewrite <- ?app_assoc; reflexivity). apply msg_mid; [rewrite zlen_app; change (zlen [zlen l]) with 1; lia|reflexivity].
      + replace (X ++ (zlen l :: l ++ wire n) ++ W) with ((X ++ zlen l :: l) ++ wire n ++ W) by (rewrite <- !app_assoc; cbn [app]; rewrite <- ?app_assoc; reflexivity).
        replace (S0 + zlen X + (zlen l + zlen (wire n) + 1)) with (S0 + zlen X + 1 + zlen l + zlen (wire n)) by lia. apply IH; [exact G'|]. rewrite zlen_app, zlen_cons. lia.
  Qed.
  Lemma wire_names_at T lim ns : forall X W p, Forall good_name ns -> Forall (fun n => 2 * length n + 1 <= lim)%nat ns -> p = S0 + zlen X -> names_at T (msg (X ++ concat (map wire ns) ++ W)) lim p ns (p + zlen (concat (map wire ns))).
  Proof.
    induction ns as [|n ns IH]; intros X W p G Hl ->; cbn [map concat].
    - change (zlen (@nil Z)) with 0. rewrite Z.add_0_r. constructor.
    - inversion G; inversion Hl; subst. rewrite <- app_assoc. rewrite zlen_app. eapply names_cons; [|apply wire_name_at; auto|]; [lia|]. rewrite (app_assoc X). rewrite Z.add_assoc. apply IH; auto. rewrite zlen_app. lia.
  Qed.
  Lemma same_refl_all ns : Forall2 (fun x y => same_name x y = true) ns ns. Proof. induction ns; constructor; auto using same_name_refl. Qed.
  Definition short (lim : nat) (n : name) : Prop := (2 * length n + 1 <= lim)%nat.
  Lemma pack_rr_valid lim r t body b t' : Forall (entry_ok body) t -> proper_rr r -> rr_fits r -> Forall (short lim) (rr_all_names r) -> S0 + zlen body + zlen b <= 16384 -> pack_rr t (S0 + zlen body) r = (b, t') ->
    exists E, t' = t ++ E /\ Forall (entry_ok (body ++ b)) t' /\ 2 * zlen E <= zlen b /\ zlen b <= zlen (rr_plain r) /\
      exists r', same_rr r r' /\ rr_at (Tm (msg (body ++ b))) (msg (body ++ b)) lim (S0 + zlen body) r' (S0 + zlen body + zlen b).
  Proof.
    intros Ht (Hpo & Hpn & Hlay) (Hty & Hmeta & Hrd) Hsh Hlen Hp. unfold rr_all_names in Hsh. inversion Hsh as [|? ? Hso Hsn]; subst. pose proof S0_pos as HS. pose proof (zlen_nonneg body).
    unfold pack_rr in Hp. destruct (pack_name_ext (rr_owner r) t [] (S0 + zlen body)) as (o & E1 & P1 & _); [constructor|]. rewrite P1 in Hp.
    match type of Hp with context [if packs (rr_type r) then ?X else ?Y] => remember (if packs (rr_type r) then X else Y) as dt eqn:Edt end. destruct dt as [dd t2]. symmetry in Edt. apply pair_equal_spec in Hp as (<- & <-).
    pose proof (zlen_nonneg o). pose proof (zlen_nonneg dd). repeat rewrite zlen_app in Hlen. rewrite !zlen_num16, Hmeta in Hlen.
    destruct (pack_valid (rr_owner r) t (fun _ => body) (zlen body) o E1 (shaped_const _) ltac:(lia) (valid_const _ _ Ht) (proj1 Hpo) ltac:(lia) P1) as (Hat & Hv1 & Hsz1 & Hsz2 & _). specialize (Hv1 [0; 0] eq_refl). cbn beta in Hv1. destruct (Hat [0; 0] eq_refl) as (o' & k & So & Hno & Hk). clear Hat.
    set (fix_ := num16 (rr_type r) ++ rr_meta r ++ num16 (zlen dd)). assert (zlen fix_ = 10) as Lf by (unfold fix_; rewrite !zlen_app, !zlen_num16; lia).
    assert (o ++ num16 (rr_type r) ++ rr_meta r ++ num16 (zlen dd) ++ dd = o ++ fix_ ++ dd) as -> by (unfold fix_; rewrite <- !app_assoc; reflexivity). rewrite !zlen_app, Lf.
    assert (Forall good_name (rr_names r)) as Gns by (eapply Forall_impl; [|exact Hpn]; intros x (G & _); exact G).
    apply (at_mono _ (fix_ ++ dd)) in Hno. rewrite <- app_assoc in Hno.
    assert (zslice (msg (body ++ o ++ fix_ ++ dd)) (S0 + zlen body + zlen o) 10 = fix_) as Hfix by (rewrite app_assoc; apply msg_mid; [rewrite zlen_app; lia|lia]).
    assert (zlen (msg (body ++ o ++ fix_ ++ dd)) = S0 + zlen body + zlen o + 10 + zlen dd) as Lm by (rewrite zlen_msg, !zlen_app; lia).
    pose proof (packs_desc (rr_type r)) as HD. destruct (packs (rr_type r)).
    - destruct HD as (lead & nn & tail & El & _). rewrite El in Hlay. destruct Hlay as (Ll & Ln & Lt).
      destruct (pack_names (t ++ E1) (S0 + zlen body + zlen o + 10 + zlen (rr_lead r)) (rr_names r)) as [nb t3] eqn:P2. apply pair_equal_spec in Edt as (<- & <-). repeat rewrite zlen_app in Hlen. pose proof (zlen_nonneg nb). pose proof (zlen_nonneg (rr_lead r)). pose proof (zlen_nonneg (rr_tail r)).
      set (Bf := fun y => ((body ++ o) ++ num16 (rr_type r) ++ rr_meta r ++ y) ++ rr_lead r).
      destruct (pack_names_valid lim (rr_names r) (t ++ E1) Bf (zlen body + zlen o + 10 + zlen (rr_lead r)) nb t3) as (E2 & -> & Hats & Hv2 & Hsz3 & Hsz4); auto; try lia.
      { intros y Hy. unfold Bf. rewrite !zlen_app, zlen_num16. lia. } { intros y Hy. unfold Bf. rewrite <- !app_assoc. rewrite (app_assoc body). eapply Forall_impl; [|exact Hv1]. intros e. apply entry_mono. } { rewrite <- P2. f_equal. lia. }
      exists (E1 ++ E2). rewrite zlen_app. split; [rewrite app_assoc; reflexivity|].
      set (dd := rr_lead r ++ nb ++ rr_tail r) in *.
      assert (Bf (num16 (zlen dd)) ++ nb = body ++ o ++ fix_ ++ rr_lead r ++ nb) as EB by (unfold Bf, fix_; rewrite <- !app_assoc; reflexivity).
      assert (body ++ o ++ fix_ ++ dd = (Bf (num16 (zlen dd)) ++ nb) ++ rr_tail r) as EB2 by (rewrite EB; unfold dd; rewrite <- !app_assoc; reflexivity).
      specialize (Hv2 (num16 (zlen dd)) eq_refl). cbn beta in Hv2. destruct (Hats (num16 (zlen dd)) eq_refl) as (ns' & Sns & Hns). apply (names_mono _ (Tm (msg (body ++ o ++ fix_ ++ dd))) _ (rr_tail r)) in Hns; [|intros p Hp; rewrite EB2; apply Tm_mono; exact Hp]. rewrite <- msg_app, <- EB2 in Hns.
      assert (zlen dd = zlen (rr_lead r) + zlen nb + zlen (rr_tail r)) as Ldd by (unfold dd; rewrite !zlen_app; lia).
      split; [rewrite EB2; eapply Forall_impl; [|exact Hv2]; intros e; apply entry_mono|]. split; [lia|]. split; [unfold rr_plain, rdata_plain; rewrite !zlen_app, !zlen_num16; lia|].
      exists (mkrr o' (rr_type r) (rr_meta r) (rr_lead r) ns' (rr_tail r)). split; [split; [exact So|]; cbn; auto|].
      apply rr_at_intro with (k := k) (o := S0 + zlen body + zlen o) (rdlength := zlen dd) (e2 := S0 + (zlen body + zlen o + 10 + zlen (rr_lead r)) + zlen nb); cbn [rr_owner rr_type rr_meta rr_lead rr_names rr_tail]; auto; try (unfold short in *; lia).
      rewrite El. split; [lia|]. split; [|split; [|split; [|split]]].
      + unfold dd. replace (body ++ o ++ fix_ ++ rr_lead r ++ nb ++ rr_tail r) with ((body ++ o ++ fix_) ++ rr_lead r ++ nb ++ rr_tail r) by (rewrite <- !app_assoc; reflexivity). symmetry. apply msg_mid; [rewrite !zlen_app; lia|lia].
      + assert (length (rr_names r) = length ns') as ElF by (clear - Sns; induction Sns; cbn [length]; congruence). congruence.
      + replace (S0 + zlen body + zlen o + 10 + lead) with (S0 + (zlen body + zlen o + 10 + zlen (rr_lead r))) by lia. exact Hns.
      + unfold dd. replace (body ++ o ++ fix_ ++ rr_lead r ++ nb ++ rr_tail r) with ((body ++ o ++ fix_ ++ rr_lead r ++ nb) ++ rr_tail r ++ []) by (rewrite app_nil_r, <- !app_assoc; reflexivity). symmetry. apply msg_mid; [rewrite !zlen_app; lia|lia].
      + lia.
    - apply pair_equal_spec in Edt as (<- & <-). exists E1. split; [reflexivity|]. split; [rewrite app_assoc; eapply Forall_impl; [|exact Hv1]; intros e; apply entry_mono|]. split; [lia|]. split; [unfold rr_plain; rewrite !zlen_app, !zlen_num16; lia|].
      exists (mkrr o' (rr_type r) (rr_meta r) (rr_lead r) (rr_names r) (rr_tail r)). split; [split; [exact So|]; cbn; auto using same_refl_all|].
      assert (match layout (rr_type r) with None => rr_lead r = rdata_plain r | Some (lead, n, tail) => zlen (rr_lead r) = lead /\ length (rr_names r) = n /\ zlen (rr_tail r) = tail end) as Hlay2.
      { destruct (layout (rr_type r)) as [[[? ?] ?]|]; [exact Hlay|]. destruct Hlay as (-> & ->) || (destruct Hlay as (Q1 & Q2); unfold rdata_plain; rewrite Q1, Q2; cbn [map concat app]; rewrite app_nil_r; reflexivity). }
      apply rr_at_intro with (k := k) (o := S0 + zlen body + zlen o) (rdlength := zlen (rdata_plain r)) (e2 := match layout (rr_type r) with None => S0 + zlen body + (zlen o + (10 + zlen (rdata_plain r))) | Some _ => S0 + zlen body + zlen o + 10 + zlen (rr_lead r) + zlen (concat (map wire (rr_names r))) end); cbn [rr_owner rr_type rr_meta rr_lead rr_names rr_tail]; auto; try (unfold short in *; lia).
      assert (zlen (rdata_plain r) = zlen (rr_lead r) + zlen (concat (map wire (rr_names r))) + zlen (rr_tail r)) as Lrd by (unfold rdata_plain; rewrite !zlen_app; lia).
      destruct (layout (rr_type r)) as [[[lead nn] tail]|].
      + destruct Hlay as (Ll & Ln & Lt). pose proof (zlen_nonneg (rr_tail r)). pose proof (zlen_nonneg (concat (map wire (rr_names r)))). pose proof (zlen_nonneg (rr_lead r)). split; [lia|]. unfold rdata_plain. split; [|split; [exact Ln|split; [|split]]].
        * replace (body ++ o ++ fix_ ++ rr_lead r ++ concat (map wire (rr_names r)) ++ rr_tail r) with ((body ++ o ++ fix_) ++ rr_lead r ++ concat (map wire (rr_names r)) ++ rr_tail r) by (rewrite <- !app_assoc; reflexivity). symmetry. apply msg_mid; [rewrite !zlen_app; lia|lia].
        * rewrite <- Ll. replace (body ++ o ++ fix_ ++ rr_lead r ++ concat (map wire (rr_names r)) ++ rr_tail r) with ((body ++ o ++ fix_ ++ rr_lead r) ++ concat (map wire (rr_names r)) ++ rr_tail r) by (rewrite <- !app_assoc; reflexivity). apply wire_names_at; auto. rewrite !zlen_app. lia.
        * replace (body ++ o ++ fix_ ++ rr_lead r ++ concat (map wire (rr_names r)) ++ rr_tail r) with ((body ++ o ++ fix_ ++ rr_lead r ++ concat (map wire (rr_names r))) ++ rr_tail r ++ []) by (rewrite app_nil_r, <- !app_assoc; reflexivity). symmetry. apply msg_mid; [rewrite !zlen_app; lia|lia].
        * rewrite !zlen_app; lia.
      + split; [|split; [|split]]; try (destruct Hlay; auto; fail). rewrite Hlay2 at 1. replace (body ++ o ++ fix_ ++ rdata_plain r) with ((body ++ o ++ fix_) ++ rdata_plain r ++ []) by (rewrite app_nil_r, <- !app_assoc; reflexivity). symmetry. apply msg_mid; [rewrite !zlen_app; lia|lia].
  Qed.

  (** *** All records *)
  Lemma rr_at_mono (T T' : Z -> Prop) m suf lim p r e : (forall p, T p -> T' p) -> rr_at T m lim p r e -> rr_at T' (m ++ suf) lim p r e.
  Proof.
    intros HT [k o rdl e2 Hk Hn Hty Hme Hrd Hfx He Hle HL]. pose proof (zlen_nonneg suf). assert (0 <= o) as Ho.
    { clear - Hn. induction Hn as [p Hp|k p l n e Hl Hp Hs Hn IH|k p hi lo n e Hp Hhi Hlo HTp Hn IH]; [apply zget_range in Hp; lia|exact IH|apply zget_range in Hp; lia]. }
    apply rr_at_intro with (k := k) (o := o) (rdlength := rdl) (e2 := e2); auto.
    - eapply name_at_mono; [exact HT|exact Hn].
    - rewrite zslice_app_l by lia. exact Hfx.
    - rewrite zlen_app. lia.
    - destruct (layout (rr_type r)) as [[[lead nn] tail]|] eqn:EL.
      + destruct HL as (H1 & H2 & H3 & H4 & H5 & H6). pose proof (layout_some _ _ _ _ EL) as (Rl & Rt). split; [rewrite zlen_app; lia|]. split; [rewrite zslice_app_l by lia; exact H2|]. split; [exact H3|]. split; [eapply names_mono; [exact HT|exact H4]|]. split; [|exact H6].
        rewrite H5. assert (0 <= e2) by (clear - H4 Ho Rl; assert (0 <= o + 10 + lead) as X by lia; revert X; induction H4 as [p|k p n e ns e' Hk Hn Hns IH]; intros X; [lia|apply IH]; clear - Hn X; induction Hn; lia). rewrite zslice_app_l by lia. reflexivity.
      + destruct HL as (H1 & H2 & H3 & H4). split; [rewrite zslice_app_l by lia; exact H1|]. auto.
  Qed.
  Lemma pack_rrs_app a : forall t at_ b, pack_rrs t at_ (a ++ b) = let '(x, t1) := pack_rrs t at_ a in let '(y, t2) := pack_rrs t1 (at_ + zlen x) b in (x ++ y, t2).
  Proof.
    induction a as [|r a IH]; intros t at_ b; cbn [app pack_rrs].
    - change (zlen (@nil Z)) with 0. rewrite Z.add_0_r. destruct (pack_rrs t at_ b); reflexivity.
    - destruct (pack_rr t at_ r) as [x t1]. rewrite IH. destruct (pack_rrs t1 (at_ + zlen x) a) as [y t2]. rewrite zlen_app, Z.add_assoc. destruct (pack_rrs t2 (at_ + zlen x + zlen y) b) as [z t3]. rewrite app_assoc. reflexivity.
  Qed.
  Lemma pack_rrs_valid lim rs : forall t body b t', Forall (entry_ok body) t -> Forall proper_rr rs -> Forall rr_fits rs -> Forall (fun r => Forall (short lim) (rr_all_names r)) rs -> S0 + zlen body + zlen b <= 16384 -> pack_rrs t (S0 + zlen body) rs = (b, t') ->
    exists E, t' = t ++ E /\ Forall (entry_ok (body ++ b)) t' /\ 2 * zlen E <= zlen b /\ zlen b <= zlen (plain_records rs) /\
      exists rs', Forall2 same_rr rs rs' /\ rrs_at (Tm (msg (body ++ b))) (msg (body ++ b)) lim (S0 + zlen body) rs' (S0 + zlen body + zlen b).
  Proof.
    induction rs as [|r rs IH]; intros t body b t' Ht Hpr Hf Hs Hlen Hp; cbn [pack_rrs] in Hp.
    - injection Hp as <- <-. exists []. rewrite !app_nil_r. change (zlen (@nil Z)) with 0. change (zlen (@nil (Z * name))) with 0. rewrite Z.add_0_r. split; [reflexivity|]. split; [exact Ht|]. split; [lia|]. split; [apply zlen_nonneg|]. exists []. split; constructor.
    - destruct (pack_rr t (S0 + zlen body) r) as [x t1] eqn:P1. destruct (pack_rrs t1 (S0 + zlen body + zlen x) rs) as [y t2] eqn:P2. apply pair_equal_spec in Hp as (<- & <-). rewrite zlen_app in Hlen. pose proof (zlen_nonneg x). pose proof (zlen_nonneg y).
      inversion Hpr; inversion Hf; inversion Hs; subst. destruct (pack_rr_valid lim r t body x t1) as (E1 & -> & Hv1 & Hz1 & Hy1 & r' & Sr & Hr); auto; try lia.
      destruct (IH (t ++ E1) (body ++ x) y t2) as (E2 & -> & Hv2 & Hz2 & Hy2 & rs' & Srs & Hrs); auto; [rewrite zlen_app; lia|rewrite zlen_app, Z.add_assoc; exact P2|].
      rewrite <- app_assoc in Hv2, Hrs. rewrite zlen_app, Z.add_assoc in Hrs. exists (E1 ++ E2). rewrite !zlen_app. split; [rewrite app_assoc; reflexivity|]. split; [exact Hv2|]. split; [lia|]. split; [rewrite plain_records_cons, zlen_app; lia|].
      exists (r' :: rs'). split; [constructor; assumption|]. replace (S0 + zlen body + (zlen x + zlen y)) with (S0 + zlen body + zlen x + zlen y) by lia. eapply rrs_cons; [|exact Hrs].
      rewrite (app_assoc body x y). pose proof (rr_at_mono (Tm (msg (body ++ x))) (Tm (msg ((body ++ x) ++ y))) (msg (body ++ x)) y lim _ _ _ (fun p => Tm_mono _ _ p) Hr) as Q. rewrite <- msg_app in Q. exact Q.
  Qed.
  Lemma section_ok J rs : junk_ok J -> forall l X Y st t c s u b t', dok u -> dok c -> dok s -> d_len u < 1000000 -> d_max c < 15000 -> d_max s < 2000 -> Forall (entry_ok (con c)) t -> covers t -> con s = codes t ->
    Forall proper_rr rs -> Forall rr_fits rs -> Forall (fun r => Forall (no_repeat qn) (rr_all_names r)) rs -> in_at u st (plain_records rs) -> l = X ++ offs st rs ++ Y -> pack_rrs t (S0 + d_len c) rs = (b, t') -> d_len c + zlen b < d_max c -> 2 * zlen t + zlen b < d_max s ->
    exists c' s', compress_section (length rs) J l (zlen X) u c q s = Ok (c', s') /\ added c b c' /\ dok s' /\ con s' = codes t' /\ d_max s' = d_max s.
  Proof.
    intros HJ. induction rs as [|r rs IH]; intros l X Y st t c s u b t' Du Dc Ds Lu Mc Ms Ht Hcov Cs Hpr Hf Hnr Iu Hl Hp Fc Fs; cbn [compress_section length pack_rrs] in *.
    - injection Hp as <- <-. exists c, s. split; [reflexivity|]. split; [apply added_nil; exact Dc|]. auto.
    - cbn [offs] in Hl. rewrite plain_records_cons in Iu. destruct (pack_rr t (S0 + d_len c) r) as [x t1] eqn:P1. destruct (pack_rrs t1 (S0 + d_len c + zlen x) rs) as [y t2] eqn:P2. apply pair_equal_spec in Hp as (<- & <-). rewrite zlen_app in Fc, Fs. pose proof (zlen_nonneg x). pose proof (zlen_nonneg y).
      inversion Hpr; inversion Hf; inversion Hnr; subst. cbn [app].
      rewrite (rd_at _ X st _ (zlen X) eq_refl eq_refl). cbn [bind]. rewrite (rd_at _ (X ++ [st]) (st + zlen (wire (rr_owner r))) (offs (st + zlen (rr_plain r)) rs ++ Y)) by (rewrite <- ?app_assoc; rewrite ?zlen_app; reflexivity). cbn [bind].
      destruct (rr_pack_ok J r HJ t c s u st x t1) as (c1 & s1 & -> & A1 & Ds1 & Cs1 & Ms1); auto; try lia; [exact (in_at_app_l _ _ _ _ Iu)|]. cbn [bind]. pose proof A1 as (Dc1 & Cc1 & Mc1). pose proof (added_len _ _ _ Dc A1) as Lc1.
      assert (proper_rr r) as Hpr1 by assumption. assert (Forall (short 400) (rr_all_names r)) as Hsh.
      { destruct Hpr1 as ((_ & Q1) & Q2 & _). unfold rr_all_names. constructor; [unfold short, zlen in *; lia|]. eapply Forall_impl; [|exact Q2]. intros z (_ & Q). unfold short, zlen in *. lia. }
      rewrite <- (zlen_con c) in P1 by auto. pose proof S0_pos. pose proof (dwf_len _ (dok_dwf _ Dc)). destruct (pack_rr_valid 400 r t (con c) x t1) as (E1 & -> & Hv1 & Hz1 & _); auto; [rewrite zlen_con by auto; lia|]. rewrite <- Cc1 in Hv1.
      destruct (IH (X ++ st :: st + zlen (wire (rr_owner r)) :: offs (st + zlen (rr_plain r)) rs ++ Y) (X ++ [st; st + zlen (wire (rr_owner r))]) Y (st + zlen (rr_plain r)) (t ++ E1) c1 s1 u y t2) as (c2 & s2 & E & A2 & Ds2 & Cs2 & Ms2); auto; try lia.
      + apply covers_app; exact Hcov.
      + exact (in_at_app_r _ _ _ _ Iu).
      + rewrite <- app_assoc. reflexivity.
      + rewrite Lc1, Z.add_assoc. exact P2.
      + rewrite zlen_app. lia.
      + rewrite zlen_app in E. change (zlen [st; st + zlen (wire (rr_owner r))]) with 2 in E. exists c2, s2. split; [exact E|]. split; [eapply added_trans; eassumption|]. split; [exact Ds2|]. split; [exact Cs2|congruence].
  Qed.
  Lemma question_covers at_ n : forall before x y, n = before ++ x -> x <> [] -> same_name x y = true -> place_of (question_places at_ n) y <> None.
  Proof.
    revert at_. induction n as [|l n IH]; intros at_ before x y E Hx S; [destruct before; destruct x; try discriminate; congruence|]. cbn [question_places place_of]. destruct (same_name (l :: n) y) eqn:X; [discriminate|].
    destruct before as [|l' before]; cbn [app] in E; [subst x; congruence|]. injection E as -> ->. eapply IH; eauto.
  Qed.
  Lemma question_valid body rest : forall before, qn = before ++ rest -> Forall (entry_ok body) (question_places (12 + zlen (wirel before)) rest).
  Proof.
    induction rest as [|l rest IH]; intros before E; cbn [question_places]; constructor.
    - destruct (question_name body (l :: rest) before E) as (HT & Hlt & e & Hn). pose proof S0_pos. pose proof (zlen_nonneg (wirel before)). unfold entry_ok. cbn [fst snd]. split; [discriminate|]. split; [lia|]. split; [exact HT|]. split; [intros _; exists before; auto|].
      exists (l :: rest), (S (length (l :: rest))), e. split; [apply same_name_refl|]. split; [exact Hn|cbn [length]; lia].
    - replace (12 + zlen (wirel before) + 1 + zlen l) with (12 + zlen (wirel (before ++ [l]))) by (rewrite wirel_app, zlen_app; cbn [wirel]; rewrite zlen_cons, zlen_app; change (zlen (@nil Z)) with 0; lia). apply IH. rewrite <- app_assoc. exact E.
  Qed.
  Lemma push_loop_ok rest : forall before fuel s, qn = before ++ rest -> (length rest < fuel)%nat -> dok s -> d_len s + 2 * zlen rest < d_max s ->
    exists s', push_loop fuel q s (zlen (wirel before)) 32768 = Ok s' /\ dok s' /\ con s' = con s ++ codes (question_places (12 + zlen (wirel before)) rest) /\ d_max s' = d_max s.
  Proof.
    pose proof q_small as Lq. pose proof q_len as Lq2. induction rest as [|l rest IH]; intros before fuel s E Hf Ds Fs; (destruct fuel as [|fuel]; [lia|]); cbn [push_loop]; pose proof (q_in _ _ E) as I; pose proof (in_at_range _ _ _ Dq I) as R; pose proof (zlen_nonneg (wirel before)) as Wn.
    - change (zlen (wire [])) with 1 in R. rewrite u32_small by lia. replace ((d_len q <? zlen (wirel before)) || (zlen (wirel before) <? 0)) with false by lia. rewrite (in_at_get _ _ _ _ Dq I). cbn [bind]. change ((192 <=? 0) || (0 =? 0)) with true. cbv iota. exists s. split; [reflexivity|]. split; [exact Ds|]. cbn [question_places]. unfold codes. cbn. rewrite app_nil_r. auto.
    - assert (good_label l) as Gl by (assert (good_name (before ++ l :: rest)) as Gbr by (rewrite <- E; exact Gq); apply Forall_app in Gbr as (_ & Hg); inversion Hg; assumption). destruct Gl as (Hl & Bl). cbn [wire] in R, I. rewrite zlen_cons, zlen_app in R. rewrite zlen_cons in Fs. pose proof (zlen_nonneg rest). pose proof (zlen_wire_pos rest) as Wp.
      rewrite u32_small by lia. replace ((d_len q <? zlen (wirel before)) || (zlen (wirel before) <? 0)) with false by lia. rewrite (in_at_get _ _ _ _ Dq I). cbn [bind]. replace ((192 <=? zlen l) || (zlen l =? 0)) with false by lia. replace (64 <=? zlen l) with false by lia.
      replace ((zlen (wirel before) <? 0) || (16383 <=? zlen (wirel before)) || (zlen (wirel before) + 32768 <? 0) || (65535 <? zlen (wirel before) + 32768)) with false by lia.
      destruct (dw_push_u16_ok s (zlen (wirel before) + 32768) Ds ltac:(lia)) as (s1 & -> & Ds1 & Cs1 & Ms1). cbn [bind]. change (0 =? -1) with false. cbv iota. pose proof (f_equal zlen Cs1) as Ls1. rewrite zlen_app, !zlen_con in Ls1 by auto. change (zlen (u16be _)) with 2 in Ls1.
      assert (zlen (wirel (before ++ [l])) = zlen (wirel before) + (zlen l + 1)) as Lw by (rewrite wirel_app, zlen_app; cbn [wirel]; rewrite zlen_cons, zlen_app; change (zlen (@nil Z)) with 0; lia).
      destruct (IH (before ++ [l]) fuel s1) as (s2 & E2 & Ds2 & Cs2 & Ms2); auto; [rewrite <- app_assoc; exact E|cbn [length] in Hf; lia|lia|]. rewrite Lw in E2, Cs2. exists s2. split; [exact E2|]. split; [exact Ds2|]. split; [|congruence].
      rewrite Cs2, Cs1, <- app_assoc. f_equal. cbn [question_places]. rewrite u16be_num16 by lia. replace (12 + (zlen (wirel before) + (zlen l + 1))) with (12 + zlen (wirel before) + 1 + zlen l) by lia. unfold codes at 2. cbn [map fst]. change (flat16 (?a :: ?b)) with (num16 a ++ flat16 b). unfold codes. f_equal. f_equal. unfold code. unfold S0. replace (12 + zlen (wirel before) <? 16 + zlen (wire qn)) with true by lia. lia.
  Qed.
  Lemma zlen_question n : forall a, zlen (question_places a n) = zlen n.
  Proof. induction n as [|l n IH]; intros a; cbn [question_places]; [reflexivity|]. rewrite !zlen_cons, IH. reflexivity. Qed.
  Lemma labels_half n : good_name n -> 2 * zlen n < zlen (wire n).
  Proof. intros G. induction G as [|l n (Hl & _) G IH]; cbn [wire]; [change (zlen [0]) with 1; change (zlen (@nil (list Z))) with 0; lia|]. rewrite !zlen_cons, zlen_app. lia. Qed.
  Lemma compress_ok Js Jo J inp an ns ar ty : junk_ok Js -> junk_ok Jo -> junk_ok J -> holds inp an ns ar ty -> an ++ ns ++ ar <> [] -> Forall proper_rr (an ++ ns ++ ar) -> Forall (fun r => Forall (no_repeat qn) (rr_all_names r)) (an ++ ns ++ ar) ->
    zlen (packed qn (an ++ ns ++ ar)) + 7 < 515 ->
    exists out, dwc_compress Js Jo J q inp = Ok out /\ dok out /\ con out = packed qn (an ++ ns ++ ar) ++ num16 (zlen an) ++ num16 (zlen ns) ++ num16 (zlen ar) ++ [ty].
  Proof.
    intros HJs HJo HJ H Hne Hpr Hnr Hfit. unfold dwc_compress. pose proof H as [Di Ci Hf Hty Hli]. rewrite (dok_sane q Dq), (dok_sane inp Di). cbn [negb orb].
    destruct (dw_create_ok Js 1024 HJs ltac:(lia)) as (st & -> & Ws & Ls & Ms). destruct (dw_create_ok Jo 515 HJo ltac:(lia)) as (out & -> & Wo & Lo & Mo).
    assert (dok out) as D by (split; [exact Wo|lia]). assert (dok st) as Dst by (split; [exact Ws|lia]). pose proof (labels_half qn Gq) as Hhalf. assert (length qn < 300)%nat as Hq3 by (clear - Hhalf Lqn; unfold zlen in *; lia).
    unfold dwc_push_offsets. rewrite (dok_sane q Dq), (dok_sane st Dst). cbn [negb orb].
    destruct (push_loop_ok qn [] (Z.to_nat 300) st eq_refl) as (s1 & E1 & Ds1 & Cs1 & Ms1); auto; [lia|]. change (zlen (wirel [])) with 0 in E1, Cs1. rewrite E1. cbn [bind]. assert (con st = []) as Cst by (unfold con; rewrite Ls; reflexivity). rewrite Cst in Cs1. cbn [app] in Cs1. change (12 + 0) with 12 in Cs1.
    destruct (make_dns_str_ok J HJ inp an ns ar ty H Hne) as (p & -> & Dp & Cp & Lp). cbn [bind n_ancount n_nscount n_arcount n_type].
    unfold dwc_compress_all_rrs. rewrite (dok_sane inp Di), (dok_sane out D), (dok_sane q Dq), (dok_sane s1 Ds1). cbn [negb orb n_ancount n_nscount n_arcount n_an n_ns n_ar].
    unfold packed in *. fold S0 in Hfit |- *. rewrite pack_rrs_app in Hfit |- *. destruct (pack_rrs (question_places 12 qn) S0 an) as [b1 t1] eqn:P1. rewrite pack_rrs_app in Hfit |- *. destruct (pack_rrs t1 (S0 + zlen b1) ns) as [b2 t2] eqn:P2. destruct (pack_rrs t2 (S0 + zlen b1 + zlen b2) ar) as [b3 t3] eqn:P3. cbn [fst] in *. rewrite !zlen_app in Hfit.
    pose proof (zlen_nonneg b1). pose proof (zlen_nonneg b2). pose proof (zlen_nonneg b3). pose proof S0_pos as HS.
    assert (Forall (fun r => Forall (short 400) (rr_all_names r)) (an ++ ns ++ ar)) as Hsh.
    { eapply Forall_impl; [|exact Hpr]. intros r ((_ & Q1) & Q2 & _). unfold rr_all_names. constructor; [unfold short, zlen in *; lia|]. eapply Forall_impl; [|exact Q2]. intros z (_ & Q). unfold short, zlen in *. lia. }
    apply Forall_app in Hpr as (Hpr1 & Hpr2). apply Forall_app in Hpr2 as (Hpr2 & Hpr3). apply Forall_app in Hnr as (Hnr1 & Hnr2). apply Forall_app in Hnr2 as (Hnr2 & Hnr3). apply Forall_app in Hf as (Hf1 & Hf2). apply Forall_app in Hf2 as (Hf2 & Hf3). apply Forall_app in Hsh as (Hsh1 & Hsh2). apply Forall_app in Hsh2 as (Hsh2 & Hsh3).
    assert (con out = []) as Cout by (unfold con; rewrite Lo; reflexivity).
    unfold answer in Ci. rewrite !plain_records_app, <- !app_assoc in Ci.
    replace (Z.to_nat (zlen an)) with (length an) by (unfold zlen; lia). replace (Z.to_nat (zlen ns)) with (length ns) by (unfold zlen; lia). replace (Z.to_nat (zlen ar)) with (length ar) by (unfold zlen; lia).
    assert (Forall (entry_ok []) (question_places 12 qn)) as V0 by (apply (question_valid [] qn []); reflexivity).
    assert (covers (question_places 12 qn)) as K0 by (intros bf x y; apply question_covers).
    (* answer section *)
    destruct (section_ok J an HJ (offs 0 an) [] [] 0 (question_places 12 qn) out s1 inp b1 t1) as (c1 & s2 & E2 & A1 & Ds2 & Cs2 & Ms2); auto; try lia.
    { rewrite Cout. exact V0. } { exists [], (plain_records ns ++ plain_records ar ++ offset_table 0 (an ++ ns ++ ar) ++ num16 (zlen an) ++ num16 (zlen ns) ++ num16 (zlen ar) ++ [ty]). split; [exact Ci|reflexivity]. }
    { rewrite app_nil_r. reflexivity. } { rewrite Lo, Z.add_0_r. exact P1. } { rewrite zlen_question. lia. }
    change (zlen (@nil Z)) with 0 in E2. rewrite E2. cbn [bind]. pose proof A1 as (Dc1 & Cc1 & Mc1). pose proof (added_len _ _ _ D A1) as Lc1.
    destruct (pack_rrs_valid 400 an (question_places 12 qn) [] b1 t1) as (X1 & -> & V1 & Z1 & _); auto; [change (zlen (@nil Z)) with 0; lia|change (zlen (@nil Z)) with 0; rewrite Z.add_0_r; exact P1|].
    rewrite <- Cout, <- Cc1 in V1.
    (* authority section *)
    destruct (section_ok J ns HJ (offs (nsoff an) ns) [] [] (nsoff an) (question_places 12 qn ++ X1) c1 s2 inp b2 t2) as (c2 & s3 & E3 & A2 & Ds3 & Cs3 & Ms3); auto; try lia.
    { apply covers_app; exact K0. } { exists (plain_records an), (plain_records ar ++ offset_table 0 (an ++ ns ++ ar) ++ num16 (zlen an) ++ num16 (zlen ns) ++ num16 (zlen ar) ++ [ty]). split; [exact Ci|reflexivity]. }
    { rewrite app_nil_r. reflexivity. } { rewrite Lc1, Lo, Z.add_0_l. exact P2. } { rewrite zlen_app, zlen_question. lia. }
    change (zlen (@nil Z)) with 0 in E3. rewrite E3. cbn [bind]. pose proof A2 as (Dc2 & Cc2 & Mc2). pose proof (added_len _ _ _ Dc1 A2) as Lc2.
    destruct (pack_rrs_valid 400 ns (question_places 12 qn ++ X1) (con c1) b2 t2) as (X2 & -> & V2 & Z2 & _); auto; [rewrite zlen_con by auto; lia|rewrite zlen_con, Lc1, Lo, Z.add_0_l by auto; exact P2|].
    rewrite <- Cc2 in V2.
    (* additional section *)
    destruct (section_ok J ar HJ (offs (aroff an ns) ar) [] [] (aroff an ns) ((question_places 12 qn ++ X1) ++ X2) c2 s3 inp b3 t3) as (c3 & s4 & E4 & A3 & Ds4 & Cs4 & Ms4); auto; try lia.
    { apply covers_app, covers_app; exact K0. } { exists (plain_records an ++ plain_records ns), (offset_table 0 (an ++ ns ++ ar) ++ num16 (zlen an) ++ num16 (zlen ns) ++ num16 (zlen ar) ++ [ty]). split; [rewrite Ci, <- !app_assoc; reflexivity|unfold aroff; rewrite zlen_app; reflexivity]. }
    { rewrite app_nil_r. reflexivity. } { rewrite Lc2, Lc1, Lo, Z.add_0_l, Z.add_assoc. exact P3. } { rewrite !zlen_app, zlen_question. lia. }
    change (zlen (@nil Z)) with 0 in E4. rewrite E4. cbn [bind]. pose proof A3 as (Dc3 & Cc3 & Mc3). pose proof (added_len _ _ _ Dc2 A3) as Lc3.
    pose proof (holds_len _ _ _ _ _ H) as HL. rewrite !plain_records_app, !zlen_app in HL. pose proof (zlen_nonneg (plain_records an)). pose proof (zlen_nonneg (plain_records ns)). pose proof (zlen_nonneg (plain_records ar)). pose proof (zlen_nonneg an). pose proof (zlen_nonneg ns). pose proof (zlen_nonneg ar).
    destruct (dw_push_u16_ok c3 (zlen an) Dc3 ltac:(lia)) as (c4 & -> & Dc4 & Cc4 & Mc4). cbn [bind]. pose proof (f_equal zlen Cc4) as Lc4. rewrite zlen_app, !zlen_con in Lc4 by auto. change (zlen (u16be _)) with 2 in Lc4.
    destruct (dw_push_u16_ok c4 (zlen ns) Dc4 ltac:(lia)) as (c5 & -> & Dc5 & Cc5 & Mc5). cbn [bind]. pose proof (f_equal zlen Cc5) as Lc5. rewrite zlen_app, !zlen_con in Lc5 by auto. change (zlen (u16be _)) with 2 in Lc5.
    destruct (dw_push_u16_ok c5 (zlen ar) Dc5 ltac:(lia)) as (c6 & -> & Dc6 & Cc6 & Mc6). cbn [bind]. pose proof (f_equal zlen Cc6) as Lc6. rewrite zlen_app, !zlen_con in Lc6 by auto. change (zlen (u16be _)) with 2 in Lc6.
    destruct (dw_addchar_ok c6 ty Dc6 ltac:(unfold byte; lia) ltac:(lia)) as (c7 & -> & Dc7 & Cc7 & Mc7). cbn [bind]. exists c7. split; [reflexivity|]. split; [exact Dc7|].
    rewrite Cc7, Cc6, Cc5, Cc4, Cc3, Cc2, Cc1, Cout. rewrite !u16be_num16 by lia. rewrite <- !app_assoc. reflexivity.
  Qed.
  Lemma rrs_weaken (T T' : Z -> Prop) m lim p rs e : (forall p, T p -> T' p) -> rrs_at T m lim p rs e -> rrs_at T' m lim p rs e.
  Proof.
    intros HT H. induction H as [p|p r e rs e' Hr Hrs IH]; [constructor|]. econstructor; [|exact IH]. rewrite <- (app_nil_r m). eapply rr_at_mono; [exact HT|exact Hr].
  Qed.
  Lemma packed_reads lim rs : Forall proper_rr rs -> Forall rr_fits rs -> Forall (fun r => Forall (short lim) (rr_all_names r)) rs -> S0 + zlen (packed qn rs) <= 16384 ->
    zlen (packed qn rs) <= zlen (plain_records rs) /\ exists rs', Forall2 same_rr rs rs' /\ rrs_at (pointer_ok qn S0) (message header (con q) class (packed qn rs)) lim S0 rs' (S0 + zlen (packed qn rs)).
  Proof.
    intros Hpr Hf Hs Hlen. unfold packed in *. fold S0 in Hlen |- *. destruct (pack_rrs (question_places 12 qn) S0 rs) as [b t] eqn:P. cbn [fst] in *.
    destruct (pack_rrs_valid lim rs (question_places 12 qn) [] b t) as (E & _ & _ & _ & Hz & rs' & S & R); auto.
    - apply (question_valid [] qn []); reflexivity.
    - change (zlen (@nil Z)) with 0. lia.
    - change (zlen (@nil Z)) with 0. rewrite Z.add_0_r. exact P.
    - split; [exact Hz|]. exists rs'. split; [exact S|]. change (zlen (@nil Z)) with 0 in R. rewrite Z.add_0_r in R. cbn [app] in R. eapply rrs_weaken; [|exact R]. intros p (Hp & _). exact Hp.
  Qed.
End PACK.
