(** Names written by MaraDNS' compressor say what was to be written. *)
From Verif Require Import CBase Bits ModelDwStr SpecDwStr ProofDwStr SpecNames SpecMessage SpecAcl SpecDeadwoodMsg SpecQuery ModelJsStr SpecJsStr ProofJsStr ProofJsSearch
  ModelQueries SpecQueries ProofQueries ProofDwDname ProofDwNames ProofDwDnsStr ProofQuestion ModelDecomp SpecDecomp ProofJsList ProofDecompList ProofDecompPacket ProofDecompSpec ModelCompress ProofCompList ProofCompPacket
  SpecCompress SpecReply.

(** If [P], then [o] has a value; and if it has one then [Q] holds of it. *)
Definition yields {A} (P : Prop) (o : option A) (Q : A -> Prop) : Prop := match o with Some x => Q x | None => ~ P end.
Lemma yields_bind {A B} P o Q (k : A -> option B) R : yields P o Q -> (forall x, Q x -> yields P (k x) R) -> yields P (obind o k) R.
Proof. destruct o; cbn [yields obind]; auto. Qed.
Lemma yields_weak {A} (P P' : Prop) (o : option A) (Q Q' : A -> Prop) : (P -> P') -> (forall x, Q x -> Q' x) -> yields P' o Q -> yields P o Q'.
Proof. destruct o; cbn [yields]; auto. Qed.
Lemma yields_some {A} P (x : A) (Q : A -> Prop) : Q x -> yields P (Some x) Q. Proof. auto. Qed.

(** ** Names in what has been written *)
Section Names.
Context (ok : Z -> Prop).
(** [cname m b p n e]: the name [n] stands at [p] and ends before [e], written with octets at places
    that are [ok]; [b]: it does not begin with a pointer.  Pointers lead to names that do not. *)
Inductive cname (m : list Z) : bool -> Z -> name -> Z -> Prop :=
| cn_root p : ok p -> zget m p = Some 0 -> cname m true p [] (p + 1)
| cn_label b p l n e : good_label l -> ok p -> zget m p = Some (zlen l) -> (forall i, 0 <= i < zlen l -> ok (p + 1 + i) /\ zget m (p + 1 + i) = zget l i) -> cname m b (p + 1 + zlen l) n e -> cname m true p (l :: n) e
| cn_ptr p t n e : ok p -> ok (p + 1) -> zget m p = Some (192 + t / 256) -> zget m (p + 1) = Some (t mod 256) -> 12 <= t < p -> t < 16384 -> n <> [] -> cname m true t n e -> cname m false p n (p + 2).
Lemma cname_range m b p n e : cname m b p n e -> 0 <= p < zlen m /\ p < e <= zlen m.
Proof.
  induction 1 as [p O H|b p l n e L O H SL N IH|p t n e O1 O2 H1 H2 T1 T2 NE N IH].
  - apply zget_range in H. lia.
  - apply zget_range in H. destruct L. lia.
  - apply zget_range in H1. apply zget_range in H2. lia.
Qed.
Lemma cname_good m b p n e : cname m b p n e -> good_name n.
Proof. induction 1 as [|b p l n e L O H SL N IH|]; [constructor|constructor; assumption|assumption]. Qed.
Lemma cname_ext m m' b p n e : (forall i, ok i -> 0 <= i < zlen m -> zget m' i = zget m i) -> cname m b p n e -> cname m' b p n e.
Proof.
  intros X N. induction N as [p O H|b p l n e L O H SL N IH|p t n e O1 O2 H1 H2 T1 T2 NE N IH].
  - apply cn_root; [exact O|]. rewrite X; [exact H|exact O|apply (zget_range _ _ _ H)].
  - pose proof (cname_range _ _ _ _ _ N) as R. pose proof (zget_range _ _ _ H). destruct L as (L & BL). apply (cn_label _ b); [split; assumption|exact O|rewrite X; [exact H|exact O|lia]| |exact IH].
    intros i I. destruct (SL i I) as (O' & E). split; [exact O'|]. rewrite X; [exact E|exact O'|lia].
  - apply (cn_ptr _ p t n e); try assumption; [rewrite X; [exact H1|exact O1|apply (zget_range _ _ _ H1)]|rewrite X; [exact H2|exact O2|apply (zget_range _ _ _ H2)]].
Qed.
Lemma cname_app m x b p n e : cname m b p n e -> cname (m ++ x) b p n e.
Proof. apply cname_ext. intros i _ I. apply zget_app_l. lia. Qed.
Lemma cname_back m b p n e : cname m b p n e -> exists k, name_back m k p n e /\ (k <= 2 * length n + 1)%nat /\ (b = true -> n <> [] -> (k <= 2 * length n)%nat).
Proof.
  induction 1 as [p O H|b p l n e L O H SL N (k & IH & K1 & K2)|p t n e O1 O2 H1 H2 T1 T2 NE N (k & IH & K1 & K2)].
  - exists 1%nat. split; [apply back_root, H|]. split; [cbn; lia|congruence].
  - pose proof (cname_range _ _ _ _ _ N) as R. pose proof (zget_range _ _ _ H). destruct L as (L & BL). exists (S k). cbn [length]. split; [|split; lia]. apply (back_label _ _ _ l); try assumption.
    apply zlist_ext; [apply zlen_zslice; lia|]. rewrite zlen_zslice by lia. intros i I. rewrite zget_zslice by lia. apply (SL i I).
  - exists (S k). specialize (K2 eq_refl NE). split; [|split; [lia|discriminate]]. assert ((192 + t / 256 - 192) * 256 + t mod 256 = t) as E by lia.
    apply (back_pointer _ _ _ (192 + t / 256) (t mod 256) n e); try assumption; [lia|lia|rewrite E; exact IH].
Qed.
Lemma wire_count n : good_name n -> 2 * zlen n + 1 <= zlen (wire n).
Proof. induction 1 as [|l n (L & _) G IH]; [cbv; discriminate|]. rewrite wire_app_len, zlen_cons. lia. Qed.
Lemma cname_in m b p n e : cname m b p n e -> zlen (wire n) <= 255 -> name_in 256 m p n e.
Proof.
  intros N L. destruct (cname_back _ _ _ _ _ N) as (k & B & K & _). exists k. split; [|split; [exact B|lia]]. pose proof (wire_count n (cname_good _ _ _ _ _ N)) as W. unfold zlen at 1 in W. lia.
Qed.
(** Without pointers. *)
Lemma plain_cname m n : good_name n -> forall p, 0 <= p -> zslice m p (zlen (wire n)) = wire n -> p + zlen (wire n) <= zlen m -> (forall i, p <= i < p + zlen (wire n) -> ok i) -> cname m true p n (p + zlen (wire n)).
Proof.
  induction 1 as [|l n (L & BL) G IH]; intros p P E R O.
  - change (zlen (wire [])) with 1 in *. apply cn_root; [apply O; lia|]. destruct (zget_some m p ltac:(lia)) as (b & Eb). rewrite (zslice_one _ _ _ Eb) in E. injection E as ->. exact Eb.
  - rewrite wire_app_len in *. pose proof (wire_pos1 n). assert (forall i, 0 <= i < zlen l + 1 + zlen (wire n) -> zget m (p + i) = zget (wire (l :: n)) i) as X.
    { intros i I. rewrite <- E, zget_zslice by lia. reflexivity. }
    apply (cn_label _ true); [split; assumption|apply O; lia| | |].
    + specialize (X 0 ltac:(lia)). rewrite Z.add_0_r in X. rewrite X. reflexivity.
    + intros i I. split; [apply O; lia|]. specialize (X (1 + i) ltac:(lia)). rewrite Z.add_assoc in X. rewrite X. cbn [wire]. rewrite zget_cons_S by lia. replace (1 + i - 1) with i by lia. apply zget_app_l. lia.
    + replace (p + (zlen l + 1 + zlen (wire n))) with (p + 1 + zlen l + zlen (wire n)) by lia. apply IH; [lia| |lia|intros i I; apply O; lia].
      apply zlist_ext; [apply zlen_zslice; lia|]. rewrite zlen_zslice by lia. intros i I. rewrite zget_zslice by lia. specialize (X (1 + zlen l + i) ltac:(lia)). replace (p + 1 + zlen l + i) with (p + (1 + zlen l + i)) by lia. rewrite X.
      cbn [wire]. rewrite zget_cons_S by lia. rewrite zget_app_r by lia. f_equal. lia.
Qed.

(** The places in the table. *)
Definition place_ok (out : list Z) (p : Z) : Prop := 12 <= p /\ exists n e, cname out true p n e /\ zlen (wire n) <= 255.
Lemma places_app out x pts : Forall (place_ok out) pts -> Forall (place_ok (out ++ x)) pts.
Proof. apply Forall_impl. intros p (P & n & e & N & L). split; [exact P|]. exists n, e. split; [apply cname_app, N|exact L]. Qed.
Lemma places_ext out out' pts : (forall i, ok i -> 0 <= i < zlen out -> zget out' i = zget out i) -> Forall (place_ok out) pts -> Forall (place_ok out') pts.
Proof. intros X. apply Forall_impl. intros p (P & n & e & N & L). split; [exact P|]. exists n, e. split; [apply (cname_ext out); assumption|exact L]. Qed.
Lemma l_points_ok F : forall out b p n e pts, bytes out -> cname out b p n e -> zlen (wire n) <= 255 -> 12 <= p -> Forall (place_ok out) pts -> (length n < F)%nat ->
  yields (zlen pts + labels n <= 150) (l_points F out pts p) (fun pts' => Forall (place_ok out) pts' /\ zlen pts' <= zlen pts + labels n).
Proof.
  induction F as [|F IH]; intros out b p n e pts BO N L P PO FF; [lia|]. cbn [l_points]. unfold labels. pose proof (cname_range _ _ _ _ _ N) as R.
  destruct N as [p O H|b p l n e GL O H SL N|p t n e O1 O2 H1 H2 T1 T2 NE N].
  - rewrite H. replace (192 <=? 0) with false by lia. replace (zlen out <=? p + 0) with false by lia. change (zlen (@nil (list Z))) with 0. destruct (150 <=? zlen pts) eqn:G; [cbn [yields]; lia|]. cbn [Z.eqb orb yields]. split; [|rewrite zlen_app; change (zlen [p]) with 1; lia].
    apply Forall_app. split; [exact PO|]. constructor; [|constructor]. split; [exact P|]. exists [], (p + 1). split; [apply cn_root; assumption|exact L].
  - pose proof (cname_range _ _ _ _ _ N) as R'. destruct GL as (GL & BL). rewrite H. replace (192 <=? zlen l) with false by lia. replace (zlen out <=? p + zlen l) with false by lia. rewrite zlen_cons. pose proof (zlen_nonneg n). destruct (150 <=? zlen pts) eqn:G; [cbn [yields]; lia|].
    replace ((zlen l =? 0) || (63 <? zlen l)) with false by lia. rewrite wire_app_len in L. eapply yields_weak; [| |apply (IH out b (p + zlen l + 1) n e (pts ++ [p]) BO)].
    + rewrite zlen_app. change (zlen [p]) with 1. unfold labels. lia.
    + intros x (X1 & X2). split; [exact X1|]. rewrite zlen_app in X2. change (zlen [p]) with 1 in X2. unfold labels in X2. lia.
    + replace (p + zlen l + 1) with (p + 1 + zlen l) by lia. exact N.
    + lia.
    + lia.
    + apply Forall_app. split; [exact PO|]. constructor; [|constructor]. split; [exact P|]. exists (l :: n), e. split; [apply (cn_label _ b); try assumption; split; assumption|rewrite wire_app_len; exact L].
    + cbn [length] in FF. lia.
  - rewrite H1. replace (192 <=? 192 + t / 256) with true by lia. cbn [yields]. split; [exact PO|]. pose proof (zlen_nonneg n). lia.
Qed.

(** ** Writing a name *)
Lemma fold_is_lower b : fold_case1 b = lower b. Proof. reflexivity. Qed.
Lemma fold_wire n : good_name n -> map fold_case1 (wire n) = wire (lower_name n).
Proof.
  induction 1 as [|l n (L & _) G IH]; [reflexivity|]. cbn [wire lower_name map]. rewrite map_app, IH. unfold lower_label. rewrite (map_ext _ lower fold_is_lower). fold (lower_label l). f_equal.
  unfold fold_case1. replace ((65 <=? zlen l) && (zlen l <=? 90)) with false by lia. unfold lower_label, zlen. rewrite map_length. reflexivity.
Qed.
Lemma good_lower' n : good_name n -> good_name (lower_name n).
Proof.
  intros G. induction G as [|l n (H1 & H2) G IH]; constructor; [|exact IH]. split; [unfold zlen, lower_label in *; rewrite map_length; exact H1|]. clear - H2. induction H2 as [|b l Hb H2 IH]; constructor; [|exact IH]. unfold lower, byte in *. destruct ((65 <=? b) && (b <=? 90)) eqn:E; lia.
Qed.
Lemma same_lower a b : good_name a -> good_name b -> l_same (wire a) (wire b) = true -> lower_name a = lower_name b.
Proof.
  intros GA GB H. unfold l_same in H. apply zlist_eqb_spec in H. rewrite !fold_wire in H by assumption. destruct (wire_inj_prefix (lower_name a) (lower_name b) [] [] (good_lower' a GA) (good_lower' b GB)) as (E & _); [rewrite !app_nil_r; exact H|exact E].
Qed.
Lemma lower_wire_len a b : lower_name a = lower_name b -> zlen (wire a) = zlen (wire b).
Proof.
  revert b. induction a as [|l a IH]; intros [|k b] E; try discriminate; [reflexivity|]. cbn [lower_name map] in E. injection E as E1 E2. rewrite !wire_app_len, (IH b E2). apply (f_equal zlen) in E1. unfold lower_label, zlen in E1. rewrite !map_length in E1. unfold zlen. lia.
Qed.
End Names.
Lemma plain_in m off n : good_name n -> zlen (wire n) <= 255 -> 0 <= off -> zslice m off (zlen (wire n)) = wire n -> off + zlen (wire n) <= zlen m -> name_in 256 m off n (off + zlen (wire n)).
Proof. intros G L O E R. apply (cname_in (fun _ => True) _ true); [|exact L]. apply plain_cname; try assumption. intros; exact Logic.I. Qed.

Lemma l_find_some pts m out off begin p : l_find pts m out off begin = Some p -> In p pts /\ l_eq m off out p = true.
Proof.
  induction pts as [|q pts IH]; cbn [l_find]; [discriminate|]. destruct (begin <=? q); [discriminate|]. destruct (l_eq m off out q) eqn:E; [intros X; injection X as <-; split; [left; reflexivity|exact E]|]. intros X. destruct (IH X). split; [right; assumption|assumption].
Qed.
(** [written ok out off n st']: the name [n], read at [off], has been appended to [out]. *)
Definition written (ok : Z -> Prop) (out : list Z) (off : Z) (n : name) (out' : list Z) (off' : Z) : Prop :=
  exists y b n', out' = out ++ y /\ off' = off + zlen (wire n) /\ lower_name n' = lower_name n /\ cname ok (out ++ y) b (zlen out) n' (zlen out + zlen y) /\ zlen y <= zlen (wire n) /\ bytes y.
Lemma zslice_cons_inv m off c x : 0 <= off -> off + zlen (c :: x) <= zlen m -> zslice m off (zlen (c :: x)) = c :: x -> zget m off = Some c /\ zslice m (off + 1) (zlen x) = x.
Proof.
  intros O R E. rewrite zlen_cons in *. pose proof (zlen_nonneg x). destruct (zget_some m off ltac:(lia)) as (b & Eb). rewrite Z.add_comm, zslice_split, (zslice_one _ _ _ Eb) in E by lia. cbn [app] in E. injection E as -> E. split; assumption.
Qed.
Lemma zslice_app_inv m off x y : 0 <= off -> off + zlen (x ++ y) <= zlen m -> zslice m off (zlen (x ++ y)) = x ++ y -> zslice m off (zlen x) = x /\ zslice m (off + zlen x) (zlen y) = y.
Proof.
  intros O R E. rewrite zlen_app in *. pose proof (zlen_nonneg x). pose proof (zlen_nonneg y). rewrite zslice_split in E by lia. apply app_split; [|exact E]. pose proof (zlen_zslice m off (zlen x) ltac:(lia) ltac:(lia) ltac:(lia)) as L. apply Nat2Z.inj. exact L.
Qed.
Lemma l_comp_ok (ok : Z -> Prop) mx m begin pts n : bytes m -> good_name n -> forall F out off, zlen (wire n) <= 255 -> 0 <= off -> zslice m off (zlen (wire n)) = wire n -> off + zlen (wire n) <= zlen m ->
  bytes out -> 12 <= zlen out -> Forall (place_ok ok out) pts -> (forall i, zlen out <= i -> ok i) -> (length n < F)%nat ->
  yields (zlen out + zlen (wire n) < 4100 /\ off + zlen (wire n) < mx) (l_comp F mx m (mkl out off pts) begin)
    (fun '(ret, st) => exists out', st = mkl out' (off + zlen (wire n)) pts /\ written ok out off n out' (off + zlen (wire n))).
Proof.
  intros BM. induction 1 as [|l n GL G IH]; intros F out off L O E R BO O12 PO OK FF; (destruct F as [|F]; [lia|]); cbn [l_comp].
  - change (zlen (wire [])) with 1 in *. change (wire []) with [0] in *. destruct (zslice_cons_inv m off 0 [] O R E) as (E0 & _). unfold l_sub. rewrite E0. cbn [Z.eqb]. unfold l_take. replace ((off <? zlen m) && (off + 1 <=? zlen m)) with true by lia. rewrite E. unfold l_add. change (zlen [0]) with 1.
    destruct (zlen out + 1 <? 4100) eqn:G1; cbn [obind yields]; [|lia]. destruct (mx <=? off + 1) eqn:G2; cbn [obind yields]; [lia|]. cbn [Z.eqb yields].
    exists (out ++ [0]). split; [reflexivity|]. exists [0], true, []. split; [reflexivity|]. split; [reflexivity|]. split; [reflexivity|]. split; [|split; [cbv; discriminate|apply bytesb_spec; reflexivity]].
    apply cn_root; [apply OK; lia|]. rewrite zget_app_r by lia. rewrite Z.sub_diag. reflexivity.
  - pose proof GL as (L63 & BL). assert (good_name (l :: n)) as GN by (constructor; assumption). pose proof (wire_pos1 n) as W1. rewrite wire_app_len in L, R, E |- *. cbn [wire] in E.
    destruct (zslice_cons_inv m off (zlen l) (l ++ wire n) O) as (E0 & E1).
    { rewrite zlen_cons, zlen_app. lia. }
    { rewrite zlen_cons, zlen_app. replace (zlen l + zlen (wire n) + 1) with (zlen l + 1 + zlen (wire n)) by lia. exact E. }
    destruct (zslice_app_inv m (off + 1) l (wire n)) as (E2 & E3); [lia|rewrite zlen_app; lia|exact E1|].
    unfold l_sub. rewrite E0. replace (zlen l =? 0) with false by lia. replace (63 <? zlen l) with false by lia. replace (zlen m <=? off + zlen l + 1) with false by lia. cbn [orb].
    destruct (mx <=? off + zlen l + 1) eqn:G0; cbn [yields obind]; [lia|].
    assert (name_in 256 m off (l :: n) (off + (zlen l + 1 + zlen (wire n)))) as NI.
    { rewrite <- wire_app_len. apply plain_in; try assumption; rewrite ?wire_app_len; try lia. cbn [wire]. exact E. }
    destruct (l_find pts m out off begin) as [p|] eqn:EF.
    + destruct (l_find_some _ _ _ _ _ _ EF) as (IP & LE). rewrite Forall_forall in PO. destruct (PO p IP) as (P12 & np & ep & NP & LP). pose proof (cname_range _ _ _ _ _ _ NP) as RP.
      unfold l_eq in LE. rewrite (name_text_complete m off _ _ BM (name_in_weak 256 259 _ _ _ _ ltac:(lia) NI)) in LE. rewrite (name_text_complete out p _ _ BO (name_in_weak 256 259 _ _ _ _ ltac:(lia) (cname_in _ _ _ _ _ _ NP LP))) in LE.
      pose proof (same_lower _ _ GN (cname_good _ _ _ _ _ _ NP) LE) as SL.
      destruct ((p <? 12) || (16384 <=? p)) eqn:G1; [cbn [yields obind]; lia|]. unfold l_add. assert (be 2 (49152 + p) = [192 + p / 256; p mod 256]) as EB by (rewrite be_2; apply f_equal2; [lia|apply f_equal2; [lia|reflexivity]]).
      rewrite EB. change (zlen [192 + p / 256; p mod 256]) with 2. destruct (zlen out + 2 <? 4100) eqn:G2; cbn [yields obind]; [|lia]. cbv zeta. rewrite (len_complete m off _ _ BM NI).
      replace (off + (zlen l + 1 + zlen (wire n)) - off) with (zlen l + 1 + zlen (wire n)) by lia. replace (zlen l + 1 + zlen (wire n) =? -1) with false by lia. replace (zlen m <? off + (zlen l + 1 + zlen (wire n))) with false by lia. cbn [orb].
      destruct (mx <=? off + (zlen l + 1 + zlen (wire n))) eqn:G3; cbn [yields obind]; [lia|].
      replace ((if off + (zlen l + 1 + zlen (wire n)) =? zlen m then 3 else 2) =? 1) with false by (destruct (_ =? zlen m); reflexivity). cbn [yields]. eexists. split; [reflexivity|].
      exists [192 + p / 256; p mod 256], false, np. split; [reflexivity|]. split; [rewrite wire_app_len; reflexivity|]. split; [symmetry; exact SL|]. split; [|split; [rewrite wire_app_len; change (zlen [192 + p / 256; p mod 256]) with 2; lia|]].
      * change (zlen [192 + p / 256; p mod 256]) with 2. apply (cn_ptr _ _ _ p np ep); try lia; try (apply OK; lia).
        -- rewrite zget_app_r by lia. rewrite Z.sub_diag. reflexivity.
        -- rewrite zget_app_r by lia. replace (zlen out + 1 - zlen out) with 1 by lia. reflexivity.
        -- intros ->. discriminate.
        -- apply cname_app, NP.
      * constructor; [unfold byte; lia|constructor; [unfold byte; lia|constructor]].
    + unfold l_take. replace ((off <? zlen m) && (off + (zlen l + 1) <=? zlen m)) with true by lia.
      assert (zslice m off (zlen l + 1) = zlen l :: l) as ES by (apply label_slice; try assumption; lia). rewrite ES. unfold l_add. rewrite zlen_cons. destruct (zlen out + (zlen l + 1) <? 4100) eqn:G1; cbn [yields obind]; [|lia]. cbn [Z.eqb Pos.eqb].
      assert (zlen (out ++ zlen l :: l) = zlen out + (zlen l + 1)) as LO by (rewrite zlen_app, zlen_cons; reflexivity).
      eapply yields_weak; [| |apply (IH F (out ++ zlen l :: l) (off + zlen l + 1))].
      * rewrite LO. lia.
      * intros (ret & st) (out' & -> & (y & b & n' & -> & Eoff & SL & CN & LY & BY)). exists ((out ++ zlen l :: l) ++ y). split; [f_equal; lia|]. exists ((zlen l :: l) ++ y), true, (l :: n'). rewrite <- app_assoc in CN |- *.
        split; [reflexivity|]. split; [rewrite wire_app_len; lia|]. split; [cbn [lower_name map]; f_equal; exact SL|]. split; [|split].
        -- rewrite LO in CN. rewrite zlen_app, zlen_cons. replace (zlen out + (zlen l + 1 + zlen y)) with (zlen out + (zlen l + 1) + zlen y) by lia. apply (cn_label _ _ b); [exact GL|apply OK; lia| | |].
           ++ rewrite zget_app_r by lia. rewrite Z.sub_diag. reflexivity.
           ++ intros i I. split; [apply OK; lia|]. rewrite zget_app_r by lia. replace (zlen out + 1 + i - zlen out) with (1 + i) by lia. cbn [app]. rewrite zget_cons_S by lia. replace (1 + i - 1) with i by lia. apply zget_app_l. lia.
           ++ replace (zlen out + 1 + zlen l) with (zlen out + (zlen l + 1)) by lia. exact CN.
        -- rewrite zlen_app, zlen_cons, wire_app_len. lia.
        -- apply bytes_app. split; [constructor; [unfold byte; lia|exact BL]|exact BY].
      * lia.
      * lia.
      * replace (off + zlen l + 1) with (off + 1 + zlen l) by lia. exact E3.
      * lia.
      * apply bytes_app. split; [exact BO|constructor; [unfold byte; lia|exact BL]].
      * lia.
      * apply places_app, PO.
      * intros i I. apply OK. lia.
      * cbn [length] in FF. lia.
Qed.
Lemma l_cname_ok (ok : Z -> Prop) mx m n out off pts : bytes m -> short_name n -> 0 <= off -> zslice m off (zlen (wire n)) = wire n -> off + zlen (wire n) <= zlen m ->
  bytes out -> 12 <= zlen out -> Forall (place_ok ok out) pts -> (forall i, zlen out <= i -> ok i) ->
  yields (zlen out + zlen (wire n) < 4100 /\ off + zlen (wire n) < mx /\ zlen pts + labels n <= 150) (l_cname mx m (mkl out off pts))
    (fun st => written ok out off n (l_out st) (l_off st) /\ Forall (place_ok ok (l_out st)) (l_pts st) /\ zlen (l_pts st) <= zlen pts + labels n).
Proof.
  intros BM (G & L) O E R BO O12 PO OK. unfold l_cname. cbn [l_off l_out]. pose proof (wire_count n G) as WC. pose proof (zlen_nonneg n).
  eapply yields_bind; [eapply yields_weak; [| |apply (l_comp_ok ok mx m off pts n BM G)]; try eassumption|].
  - intros (P1 & P2 & P3). split; assumption.
  - intros x X. exact X.
  - unfold zlen in *. lia.
  - intros (ret & st) (out' & -> & W). destruct (ret =? 3).
    + cbn [yields l_out l_off l_pts]. split; [exact W|]. split; [|unfold labels; lia]. destruct W as (y & b & n' & -> & _). apply places_app, PO.
    + unfold l_add_points. cbn [l_out l_off l_pts]. pose proof W as (y & b & n' & -> & _ & SL & CN & LY & BY). assert (zlen n' = zlen n) as LN. { apply (f_equal (@length _)) in SL. unfold lower_name in SL. rewrite !map_length in SL. unfold zlen. rewrite SL. reflexivity. }
      eapply yields_bind; [eapply yields_weak; [| |apply (l_points_ok ok 257 (out ++ y) b (zlen out) n' (zlen out + zlen y) pts)]; try eassumption|].
      * unfold labels. rewrite LN. tauto.
      * intros x X. exact X.
      * apply bytes_app; split; assumption.
      * rewrite (lower_wire_len _ _ SL). exact L.
      * apply places_app, PO.
      * unfold zlen in *. lia.
      * intros pts' (X1 & X2). cbn [yields l_out l_off l_pts]. split; [exact W|]. split; [exact X1|]. unfold labels in *. lia.
Qed.
