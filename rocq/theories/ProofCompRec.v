(** Records written by MaraDNS' compressor say what was to be written. *)
From Verif Require Import CBase Bits ModelDwStr SpecDwStr ProofDwStr SpecNames SpecMessage SpecAcl SpecDeadwoodMsg SpecQuery ModelJsStr SpecJsStr ProofJsStr ProofJsSearch
  ModelQueries SpecQueries ProofQueries ProofDwDname ProofDwNames ProofDwDnsStr ProofQuestion ModelDecomp SpecDecomp ProofJsList ProofDecompList ProofDecompPacket ProofDecompSpec ProofDecompRec ModelCompress ProofCompList ProofCompPacket
  SpecCompress SpecReply SpecPack ProofCompName.

(** ** More octets at the end change nothing *)
Lemma back_app m x k p n e : name_back m k p n e -> name_back (m ++ x) k p n e.
Proof.
  induction 1 as [p H|k p l n e L H SL N IH|k p hi lo n e H H2 L T N IH].
  - apply back_root. rewrite zget_app_l; [exact H|]. apply zget_range in H. lia.
  - pose proof (back_range _ _ _ _ _ N) as R. pose proof (zget_range _ _ _ H). apply (back_label _ _ _ l); [exact L|rewrite zget_app_l; [exact H|lia]| |exact IH]. rewrite zslice_app_l by lia. exact SL.
  - pose proof (zget_range _ _ _ H). pose proof (zget_range _ _ _ L). apply (back_pointer _ _ _ hi lo n e); try assumption; rewrite zget_app_l by lia; assumption.
Qed.
Lemma name_in_app mx m x p n e : name_in mx m p n e -> name_in mx (m ++ x) p n e.
Proof. intros (k & K & N & L). exists k. split; [exact K|]. split; [apply back_app, N|exact L]. Qed.
Lemma names_in_app mx m x p ns e : names_in mx m p ns e -> names_in mx (m ++ x) p ns e.
Proof. induction 1; [constructor|]. eapply names_more; [apply name_in_app; eassumption|assumption]. Qed.
Lemma names_in_end mx m p ns e : names_in mx m p ns e -> p <= e.
Proof. induction 1 as [|p n e ns e' H H1 IH]; [lia|]. apply name_in_range in H. lia. Qed.
Lemma layout_nonneg type nlead n ntail : layout type = Some (nlead, n, ntail) -> 0 <= nlead <= 6 /\ (n <= 2)%nat /\ 0 <= ntail <= 20.
Proof. unfold layout. repeat match goal with |- context [if ?b then _ else _] => destruct b end; intros E; inversion E; subst; lia. Qed.
Lemma data_in_app mx m x p type rdl lead names tail : 0 <= p -> 0 <= rdl -> p + rdl <= zlen m -> data_in mx m p type rdl lead names tail -> data_in mx (m ++ x) p type rdl lead names tail.
Proof.
  intros P R L. unfold data_in. destruct (layout type) as [((nlead & n) & ntail)|] eqn:EL.
  - pose proof (layout_nonneg _ _ _ _ EL). intros (H1 & H2 & H3 & e & H4 & H5 & H6). rewrite zlen_app. pose proof (zlen_nonneg x). pose proof (names_in_end _ _ _ _ _ H4). split; [lia|]. split; [rewrite zslice_app_l by lia; exact H2|]. split; [exact H3|]. exists e. split; [apply names_in_app, H4|]. split; [rewrite zslice_app_l by lia; exact H5|exact H6].
  - intros (H1 & H2). split; [rewrite zslice_app_l by lia; exact H1|exact H2].
Qed.
Lemma rec_in_app mx m x p r e : rec_in mx m p r e -> rec_in mx (m ++ x) p r e.
Proof.
  intros [o rdl N T M R S E L D]. pose proof (name_in_range _ _ _ _ _ N). apply (rec_in_intro mx (m ++ x) p r e o rdl); try assumption; [apply name_in_app, N|rewrite zslice_app_l by lia; exact S|rewrite zlen_app; pose proof (zlen_nonneg x); lia|].
  apply data_in_app; try assumption; lia.
Qed.

(** ** Names in data *)
Inductive cnames (ok : Z -> Prop) (m : list Z) : Z -> list name -> Z -> Prop :=
| cns_nil p : cnames ok m p [] p
| cns_cons b p n e ns e' : cname ok m b p n e -> zlen (wire n) <= 255 -> cnames ok m e ns e' -> cnames ok m p (n :: ns) e'.
Lemma cnames_ext (ok : Z -> Prop) m m' p ns e : (forall i, ok i -> 0 <= i < zlen m -> zget m' i = zget m i) -> cnames ok m p ns e -> cnames ok m' p ns e.
Proof. intros X. induction 1; [constructor|]. eapply cns_cons; [eapply cname_ext; eassumption|assumption|assumption]. Qed.
Lemma cnames_app ok m x p ns e : cnames ok m p ns e -> cnames ok (m ++ x) p ns e.
Proof. apply cnames_ext. intros i _ I. apply zget_app_l. lia. Qed.
Lemma cnames_in ok m p ns e : cnames ok m p ns e -> names_in 256 m p ns e.
Proof. induction 1; [constructor|]. eapply names_more; [eapply cname_in; eassumption|assumption]. Qed.
Definition same_names (a b : list name) : Prop := Forall2 (fun x y => lower_name x = lower_name y) a b.

Lemma same_length {A B} (R : A -> B -> Prop) l l' : Forall2 R l l' -> length l = length l'.
Proof. induction 1; cbn [length]; congruence. Qed.
Lemma two_short ns : Forall short_name ns -> (length ns <= 2)%nat -> zlen (concat (map wire ns)) <= 510.
Proof. intros F L. destruct F as [|a ? (_ & A) [|b ? (_ & B) [|]]]; cbn [map concat length] in *; rewrite ?zlen_app; change (zlen (@nil Z)) with 0; lia. Qed.
Lemma total_nonneg ns : 0 <= total (map labels ns).
Proof. induction ns as [|x ns IH]; cbn [map total]; [lia|]. unfold labels at 1. pose proof (zlen_nonneg x). lia. Qed.
Lemma one_octet ok m b p n e : cname ok m b p n e -> e = p + 1 -> n = [].
Proof. intros N E. destruct N as [p O H|b p l n e L O H SL N|]; [reflexivity| |lia]. pose proof (cname_range _ _ _ _ _ _ N). destruct L. lia. Qed.
Lemma fields_names ok tc mx m rdl rest R (P : Prop) : bytes m -> tc = 0 \/ tc = 1 -> forall ns out off pts tot ctot, Forall short_name ns -> 0 <= off -> zslice m off (zlen (concat (map wire ns))) = concat (map wire ns) -> off + zlen (concat (map wire ns)) <= zlen m ->
  bytes out -> 12 <= zlen out -> Forall (place_ok ok out) pts -> (forall i, zlen out <= i -> ok i) ->
  (P -> zlen out + zlen (concat (map wire ns)) < 4100 /\ off + zlen (concat (map wire ns)) < mx /\ zlen pts + total (map labels ns) <= 150) ->
  (forall y ns' pts', same_names ns' ns -> cnames ok (out ++ y) (zlen out) ns' (zlen out + zlen y) -> Forall (place_ok ok (out ++ y)) pts' -> zlen pts' <= zlen pts + total (map labels ns) -> zlen y <= zlen (concat (map wire ns)) ->
    (zlen y = zlen (concat (map wire ns)) \/ 2 <= zlen y) -> bytes y ->
    yields P (l_cfields rest tc mx m (mkl (out ++ y) (off + zlen (concat (map wire ns))) pts') rdl (tot + zlen (concat (map wire ns))) (ctot + zlen y)) R) ->
  yields P (l_cfields (repeat 64 (length ns) ++ rest) tc mx m (mkl out off pts) rdl tot ctot) R.
Proof.
  intros BM TC. induction ns as [|n ns IH]; intros out off pts tot ctot SN O E RG BO O12 PO OK HP K.
  - cbn [map concat length repeat app total] in *. change (zlen (@nil Z)) with 0 in *. specialize (K [] [] pts). rewrite app_nil_r in K. change (zlen (@nil Z)) with 0 in K. rewrite !Z.add_0_r in K. apply K; try assumption; try lia; try constructor; try reflexivity.
  - inversion SN as [|? ? (G & L) SN']; subst. cbn [map concat total] in *. rewrite zlen_app in *. pose proof (wire_pos1 n). pose proof (zlen_nonneg (concat (map wire ns))). set (c := concat (map wire ns)) in *.
    destruct (zslice_app_inv m off (wire n) c) as (E1 & E2); [lia|rewrite zlen_app; lia|rewrite zlen_app; exact E|].
    cbn [length repeat app l_cfields]. replace (64 =? 0) with false by lia. replace ((0 <? 64) && (64 <? 64)) with false by reflexivity. change (64 =? 64) with true. cbv zeta. cbn [l_off l_out l_pts].
    assert (name_in 256 m off n (off + zlen (wire n))) as NI by (apply plain_in; try assumption; lia). rewrite (len_complete m off n _ BM NI). replace (off + zlen (wire n) - off) with (zlen (wire n)) by lia. replace (zlen (wire n) <? 1) with false by lia.
    assert (forall y b n' pts1, lower_name n' = lower_name n -> cname ok (out ++ y) b (zlen out) n' (zlen out + zlen y) -> Forall (place_ok ok (out ++ y)) pts1 -> zlen pts1 <= zlen pts + labels n -> zlen y <= zlen (wire n) -> bytes y ->
      yields P (l_cfields (repeat 64 (length ns) ++ rest) tc mx m (mkl (out ++ y) (off + zlen (wire n)) pts1) rdl (tot + zlen (wire n)) (ctot + zlen y)) R) as STEP.
    { intros y b n' pts1 SL CN PO1 BU LY BY. pose proof (cname_range _ _ _ _ _ _ CN) as RC. assert (zlen y = 1 -> zlen (wire n) = 1) as Y1. { intros Y1. pose proof (one_octet _ _ _ _ _ _ CN ltac:(lia)) as ->. apply lower_wire_len in SL. rewrite <- SL. reflexivity. }
      pose proof (zlen_app out y) as LA. apply IH; try assumption; try lia.
      - apply bytes_app; split; assumption.
      - intros i I. apply OK. lia.
      - intros y2 ns2 pts2 S2 C2 PO2 BU2 LY2 LY3 BY2. replace (off + zlen (wire n) + zlen c) with (off + (zlen (wire n) + zlen c)) by lia. replace (tot + zlen (wire n) + zlen c) with (tot + (zlen (wire n) + zlen c)) by lia.
        replace (ctot + zlen y + zlen y2) with (ctot + zlen (y ++ y2)) by (rewrite zlen_app; lia). rewrite <- app_assoc in *. apply (K (y ++ y2) (n' :: ns2) pts2); try assumption; rewrite ?zlen_app; try lia.
        + constructor; assumption.
        + apply (cns_cons _ _ b _ _ (zlen out + zlen y)); [rewrite app_assoc; apply cname_app; exact CN|rewrite (lower_wire_len _ _ SL); exact L|]. rewrite zlen_app in C2. replace (zlen out + (zlen y + zlen y2)) with (zlen out + zlen y + zlen y2) by lia. exact C2.
        + apply bytes_app; split; assumption. }
    destruct (tc =? 0) eqn:GT.
    + unfold l_take. replace ((off <? zlen m) && (off + zlen (wire n) <=? zlen m)) with true by lia. rewrite E1. unfold l_add. destruct (zlen out + zlen (wire n) <? 4100) eqn:G1; cbn [obind yields]; [|intros X; specialize (HP X); lia].
      assert (cname ok (out ++ wire n) true (zlen out) n (zlen out + zlen (wire n))) as CN.
      { apply plain_cname; [exact G|lia| |rewrite zlen_app; lia|intros i I; apply OK; lia]. rewrite zslice_app_r by lia. rewrite Z.sub_diag. apply zslice_all. }
      assert (bytes (wire n)) as BW by (rewrite <- E1; apply bytes_zslice, BM). pose proof (wire_count n G) as WC. pose proof (zlen_nonneg n).
      unfold l_add_points. cbn [l_out l_off l_pts]. pose proof (l_points_ok ok 257 (out ++ wire n) true (zlen out) n (zlen out + zlen (wire n)) pts ltac:(apply bytes_app; split; assumption) CN L O12 (places_app _ _ _ _ PO) ltac:(unfold zlen in *; lia)) as Y.
      destruct (l_points 257 (out ++ wire n) pts (zlen out)) as [pts1|]; cbn [obind yields l_out l_off l_pts] in *.
      * destruct Y as (Y1 & Y2). apply (STEP (wire n) true n pts1 eq_refl CN Y1 Y2 ltac:(lia) BW).
      * intros X. specialize (HP X). apply Y. pose proof (total_nonneg ns). lia.
    + pose proof (l_cname_ok ok mx m n out off pts BM (conj G L) O E1 ltac:(lia) BO O12 PO OK) as Y. destruct (l_cname mx m (mkl out off pts)) as [[out1 off1 pts1]|]; cbn [obind yields l_out l_off l_pts] in *.
      * destruct Y as ((y & b & n' & -> & -> & SL & CN & LY & BY) & Y2 & Y3). assert (bytes (out ++ y)) as BOY by (apply bytes_app; split; assumption).
        rewrite (len_complete (out ++ y) (zlen out) n' (zlen out + zlen y) BOY) by (apply (cname_in ok _ b); [exact CN|rewrite (lower_wire_len _ _ SL); exact L]). replace (zlen out + zlen y - zlen out) with (zlen y) by lia.
        apply (STEP y b n' pts1 SL CN Y2 Y3 LY BY).
      * intros X. specialize (HP X). apply Y. pose proof (total_nonneg ns). lia.
Qed.

(** ** Which octets a name is made of *)
Lemma cname_weak (ok ok' : Z -> Prop) m b p n e : (forall i, ok i -> 0 <= i < zlen m -> ok' i) -> cname ok m b p n e -> cname ok' m b p n e.
Proof.
  intros W. induction 1 as [p O H|b p l n e L O H SL N IH|p t n e O1 O2 H1 H2 T1 T2 NE N IH].
  - apply cn_root; [apply W; [exact O|apply (zget_range _ _ _ H)]|exact H].
  - pose proof (cname_range _ _ _ _ _ _ N) as R. pose proof (zget_range _ _ _ H). pose proof L as (L1 & _). apply (cn_label ok' m b); [exact L|apply W; [exact O|lia]|exact H| |exact IH].
    intros i I. destruct (SL i I) as (O' & E). split; [apply W; [exact O'|lia]|exact E].
  - apply (cn_ptr ok' m p t n e); try assumption; [apply W; [exact O1|apply (zget_range _ _ _ H1)]|apply W; [exact O2|apply (zget_range _ _ _ H2)]].
Qed.
Lemma place_weak (ok ok' : Z -> Prop) m pts : (forall i, ok i -> 0 <= i < zlen m -> ok' i) -> Forall (place_ok ok m) pts -> Forall (place_ok ok' m) pts.
Proof. intros W. apply Forall_impl. intros p (P & n & e & N & L). split; [exact P|]. exists n, e. split; [apply (cname_weak ok); assumption|exact L]. Qed.

(** ** Data *)
Lemma total_pos fs : Forall (fun f => 0 < f < 64) fs -> 0 <= total fs.
Proof. induction 1; cbn [total]; lia. Qed.
Lemma adv_ok (P : Prop) m out off pts n (R : ls -> Prop) : 0 <= off < zlen m -> 0 <= n -> off + n <= zlen m -> (P -> zlen out + n < 4100) -> (zlen out + n < 4100 -> R (mkl (out ++ zslice m off n) (off + n) pts)) -> yields P (l_adv m (mkl out off pts) n) R.
Proof.
  intros O N L HP K. unfold l_adv, l_take, l_add. cbn [l_out l_off l_pts]. replace (n <? 0) with false by lia. replace ((off <? zlen m) && (off + n <=? zlen m)) with true by lia. rewrite zlen_zslice by lia.
  destruct (zlen out + n <? 4100) eqn:G; cbn [obind yields]; [apply K; lia|]. intros X. specialize (HP X). lia.
Qed.
Lemma fields_fixed (P : Prop) tc mx m rdl rest R : forall fs out off pts tot ctot, Forall (fun f => 0 < f < 64) fs -> 0 <= off -> off + total fs <= zlen m -> (P -> zlen out + total fs < 4100) ->
  yields P (l_cfields rest tc mx m (mkl (out ++ zslice m off (total fs)) (off + total fs) pts) rdl (tot + total fs) (ctot + total fs)) R ->
  yields P (l_cfields (fs ++ rest) tc mx m (mkl out off pts) rdl tot ctot) R.
Proof.
  induction fs as [|f fs IH]; intros out off pts tot ctot F O L HP K.
  - cbn [total app] in *. rewrite zslice_nil, app_nil_r, !Z.add_0_r in K. exact K.
  - inversion F as [|? ? F1 F2]; subst. pose proof (total_pos _ F2). cbn [total app l_cfields] in *. replace (f =? 0) with false by lia. replace ((0 <? f) && (f <? 64)) with true by lia.
    eapply yields_bind; [apply (adv_ok P m out off pts f (fun st => st = mkl (out ++ zslice m off f) (off + f) pts)); [lia|lia|lia|intros X; specialize (HP X); lia|intros _; reflexivity]|]. intros st ->.
    apply IH; [exact F2|lia|lia|intros X; specialize (HP X); rewrite zlen_app, zlen_zslice by lia; lia|]. rewrite <- app_assoc, <- zslice_split by lia. rewrite <- !Z.add_assoc. exact K.
Qed.

Lemma desc_cases t : (find_desc flat0 t = None /\ layout t = None /\ t <> 1 /\ t <> 16) \/
  exists d, find_desc flat0 t = Some d /\ (tocompress d = 0 \/ tocompress d = 1) /\
    ((t = 1 /\ exists pad, description d = [4] ++ 0 :: pad) \/ (t = 16 /\ exists pad, description d = 65 :: 66 :: pad) \/
     exists f1 k f2 pad, description d = f1 ++ repeat 64 k ++ f2 ++ 0 :: pad /\ Forall (fun f => 0 < f < 64) f1 /\ Forall (fun f => 0 < f < 64) f2 /\ layout t = Some (total f1, k, total f2)).
Proof.
  assert (Forall (fun f => 0 < f < 64) []) as F0 by constructor. assert (Forall (fun f => 0 < f < 64) [2]) as F2 by (constructor; [lia|constructor]).
  assert (Forall (fun f => 0 < f < 64) [2; 2; 2]) as F6 by (do 3 (constructor; [lia|]); constructor). assert (Forall (fun f => 0 < f < 64) [4; 4; 4; 4; 4]) as F20 by (do 5 (constructor; [lia|]); constructor).
  unfold flat0. cbn [find_desc rr_num].
  do 17 match goal with |- context [if ?n =? t then Some _ else _] => destruct (Z.eqb_spec n t) as [<-|?]; [right; eexists; split; [reflexivity|]; cbn [tocompress description]; split; [first [left; reflexivity|right; reflexivity]|];
    first [ left; split; [reflexivity|]; eexists; reflexivity | right; left; split; [reflexivity|]; eexists; reflexivity
      | right; right; exists [], 1%nat, []; eexists; split; [reflexivity|]; split; [exact F0|]; split; [exact F0|reflexivity]
      | right; right; exists [], 2%nat, []; eexists; split; [reflexivity|]; split; [exact F0|]; split; [exact F0|reflexivity]
      | right; right; exists [], 2%nat, [4; 4; 4; 4; 4]; eexists; split; [reflexivity|]; split; [exact F0|]; split; [exact F20|reflexivity]
      | right; right; exists [2], 1%nat, []; eexists; split; [reflexivity|]; split; [exact F2|]; split; [exact F0|reflexivity]
      | right; right; exists [2; 2; 2], 1%nat, []; eexists; split; [reflexivity|]; split; [exact F6|]; split; [exact F0|reflexivity] ]|] end.
  left. split; [reflexivity|]. split; [|lia]. unfold layout, existsb. repeat match goal with |- context [t =? ?n] => replace (t =? n) with false by lia end. reflexivity.
Qed.

(** What has become of the octets [out], the last two of which are a length. *)
Definition aside (roff i : Z) : Prop := i < roff \/ roff + 2 <= i.
Definition data_done (r : rr) (out : list Z) (off : Z) (np : Z) (st : ls) : Prop :=
  exists (y : list Z) ns', zlen (l_out st) = zlen out + zlen y /\ bytes (l_out st) /\ (forall i, 0 <= i < zlen out - 2 -> zget (l_out st) i = zget out i) /\ zslice (l_out st) (zlen out - 2) 2 = num16 (zlen y) /\
    data_in 256 (l_out st) (zlen out) (rr_type r) (zlen y) (rr_lead r) ns' (rr_tail r) /\ same_names ns' (rr_names r) /\ zlen y <= zlen (rdata_plain r) /\ small_data r /\ l_off st = off + zlen (rdata_plain r) /\
    Forall (place_ok (aside (zlen out - 2)) (l_out st)) (l_pts st) /\ zlen (l_pts st) <= np.
Lemma finish (P : Prop) r out off pts' np y ns' :
  bytes out -> bytes y -> 14 <= zlen out -> zslice out (zlen out - 2) 2 = num16 (zlen (rdata_plain r)) -> zlen (rdata_plain r) < 65536 -> zlen y <= zlen (rdata_plain r) -> small_data r -> (zlen y = zlen (rdata_plain r) \/ 2 <= zlen y) ->
  Forall (place_ok (aside (zlen out - 2)) (out ++ y)) pts' -> zlen pts' <= np -> same_names ns' (rr_names r) ->
  (forall o, zlen o = zlen out + zlen y -> (forall i, aside (zlen out - 2) i -> 0 <= i < zlen (out ++ y) -> zget o i = zget (out ++ y) i) -> data_in 256 o (zlen out) (rr_type r) (zlen y) (rr_lead r) ns' (rr_tail r)) ->
  yields P (if zlen y =? zlen (rdata_plain r) then Some (mkl (out ++ y) (off + zlen (rdata_plain r)) pts') else l_patch (mkl (out ++ y) (off + zlen (rdata_plain r)) pts') (zlen out - 2) (zlen y)) (data_done r out off np).
Proof.
  intros BO BY O14 E RL LY SD Y2 PO NP SN D. pose proof (zlen_nonneg y). pose proof (zlen_app out y) as LA. destruct (zlen y =? zlen (rdata_plain r)) eqn:G.
  - apply yields_some. exists y, ns'. cbn [l_out l_off l_pts]. split; [exact LA|]. split; [apply bytes_app; split; assumption|]. split; [intros i I; apply zget_app_l; lia|]. split; [rewrite zslice_app_l by lia; replace (zlen y) with (zlen (rdata_plain r)) by lia; exact E|].
    split; [apply D; [exact LA|reflexivity]|]. split; [exact SN|]. split; [exact LY|]. split; [exact SD|]. split; [reflexivity|]. split; assumption.
  - unfold l_patch. cbn [l_out l_off l_pts]. replace ((65535 <? zlen y) || (zlen y <? 2) || (zlen out - 2 <? 12) || (zlen (out ++ y) - 1 <=? zlen out - 2)) with false by lia. apply yields_some. exists y, ns'. cbn [l_out l_off l_pts].
    assert (zlen (num16 (zlen y)) = 2) as L2 by reflexivity. assert (zlen (splice (out ++ y) (zlen out - 2) (num16 (zlen y))) = zlen out + zlen y) as LS by (rewrite zlen_splice by lia; lia).
    assert (forall i, aside (zlen out - 2) i -> 0 <= i < zlen (out ++ y) -> zget (splice (out ++ y) (zlen out - 2) (num16 (zlen y))) i = zget (out ++ y) i) as X.
    { intros i A I. unfold aside in A. rewrite zget_splice by lia. rewrite L2. destruct ((zlen out - 2 <=? i) && (i <? zlen out - 2 + 2)) eqn:G2; [lia|reflexivity]. }
    split; [exact LS|]. split; [apply bytes_splice; [apply bytes_app; split; assumption|]|].
    + constructor; [unfold byte; lia|]. constructor; [unfold byte; lia|constructor].
    + split; [intros i I; rewrite X by (unfold aside; lia); apply zget_app_l; lia|]. split; [rewrite <- L2 at 1; apply zslice_splice_same; lia|]. split; [apply D; [exact LS|exact X]|]. split; [exact SN|]. split; [exact LY|]. split; [exact SD|]. split; [reflexivity|].
      split; [apply (places_ext _ (out ++ y)); assumption|exact NP].
Qed.
Lemma plain_cdata (P : Prop) mx m r out off pts :
  bytes m -> plain_rr r -> 0 <= off -> off + zlen (rdata_plain r) <= zlen m -> zslice m off (zlen (rdata_plain r)) = rdata_plain r ->
  bytes out -> 14 <= zlen out -> zslice out (zlen out - 2) 2 = num16 (zlen (rdata_plain r)) -> Forall (place_ok (aside (zlen out - 2)) out) pts ->
  (P -> zlen out + zlen (rdata_plain r) < 4100 /\ off + zlen (rdata_plain r) < mx /\ zlen pts + total (map labels (rr_names r)) <= 150) ->
  yields P (l_cdata mx m (mkl out off pts) (zlen out - 2) (rr_type r) (zlen (rdata_plain r))) (data_done r out off (zlen pts + total (map labels (rr_names r)))).
Proof.
  intros BM (_ & TR & _ & RL & LAY) O RG E BO O14 EL PO HP. pose proof (total_nonneg (rr_names r)) as TN. set (np := zlen pts + total (map labels (rr_names r))) in *. pose proof (zlen_nonneg (rdata_plain r)) as RN.
  assert (bytes (rdata_plain r)) as BR by (rewrite <- E; apply bytes_zslice, BM).
  assert (layout (rr_type r) = None -> small_data r -> yields P (if zlen (rdata_plain r) =? zlen (rdata_plain r) then Some (mkl (out ++ rdata_plain r) (off + zlen (rdata_plain r)) pts) else l_patch (mkl (out ++ rdata_plain r) (off + zlen (rdata_plain r)) pts) (zlen out - 2) (zlen (rdata_plain r))) (data_done r out off np)) as RAW.
  { intros LA SD. rewrite LA in LAY. destruct LAY as (EN & ET & DO). assert (rdata_plain r = rr_lead r) as ER by (unfold rdata_plain; rewrite EN, ET; cbn [map concat app]; apply app_nil_r).
    apply (finish P r out off pts np (rdata_plain r) []); [exact BO|exact BR|exact O14|exact EL|exact RL|lia|exact SD|left; reflexivity|apply places_app, PO|unfold np; lia|rewrite EN; constructor|].
    intros o LO X. unfold data_in. rewrite LA. split; [|split; [reflexivity|split; assumption]]. rewrite <- ER. apply zlist_ext; [rewrite zlen_zslice by lia; reflexivity|]. intros i I. rewrite zget_zslice by lia. rewrite X by (unfold aside; rewrite ?zlen_app; lia). rewrite zget_app_r by lia. apply f_equal. lia. }
  rewrite Z.eqb_refl in RAW. unfold l_cdata. destruct (desc_cases (rr_type r)) as [(-> & LA & _)|(d & -> & TC & C)].
  - specialize (RAW LA). destruct (zlen (rdata_plain r) =? 0) eqn:G.
    + assert (rdata_plain r = []) as ER. { destruct (rdata_plain r); [reflexivity|]. rewrite zlen_cons in G. pose proof (zlen_nonneg l). lia. } specialize (RAW ltac:(unfold small_data; lia)). rewrite ER in RAW. rewrite app_nil_r in RAW. change (zlen (@nil Z)) with 0 in RAW. rewrite Z.add_0_r in RAW. exact RAW.
    + apply adv_ok; [lia|lia|lia|intros X; specialize (HP X); lia|]. intros G4. rewrite E. apply RAW. unfold small_data. lia.
  - destruct C as [(T1 & pad & ->)|[(T1 & pad & ->)|(f1 & k & f2 & pad & -> & F1 & F2 & LA)]].
    + rewrite T1 in LAY. change (layout 1) with (@None (Z * nat * Z)) in LAY. destruct LAY as (EN & ET & DO). assert (rdata_plain r = rr_lead r) as ER by (unfold rdata_plain; rewrite EN, ET; cbn [map concat app]; apply app_nil_r).
      assert (zlen (rdata_plain r) = 4) as L4 by (rewrite ER; apply DO; reflexivity). specialize (RAW ltac:(rewrite T1; reflexivity) ltac:(unfold small_data; lia)). rewrite L4 in *.
      eapply yields_bind; [apply (fields_fixed P (tocompress d) mx m 4 (0 :: pad) (fun x => x = (4, 4, mkl (out ++ rdata_plain r) (off + 4) pts)))|]; cbn [total]; change (4 + 0) with 4.
      * constructor; [lia|constructor].
      * lia.
      * lia.
      * intros X; specialize (HP X); lia.
      * cbn [l_cfields]. rewrite Z.eqb_refl. cbn [yields]. rewrite E. reflexivity.
      * intros x ->. rewrite !Z.eqb_refl. exact RAW.
    + rewrite T1 in LAY. change (layout 16) with (@None (Z * nat * Z)) in LAY. destruct LAY as (EN & ET & DO). assert (rdata_plain r = rr_lead r) as ER by (unfold rdata_plain; rewrite EN, ET; cbn [map concat app]; apply app_nil_r).
      specialize (RAW ltac:(rewrite T1; reflexivity)). destruct DO as (_ & DO). destruct (DO eq_refl) as (b & EB & LB). rewrite <- ER in EB, LB. pose proof (zget_bytes _ _ _ BR EB) as BB. unfold byte in BB.
      assert (zget m off = Some b) as EM. { rewrite <- E, zget_zslice, Z.add_0_r in EB by lia. exact EB. }
      cbn [l_cfields]. change (65 =? 0) with false. change ((0 <? 65) && (65 <? 64)) with false. change (65 =? 64) with false. change (65 =? 65) with true. cbv iota. cbn [l_off]. rewrite EM. set (rdl := zlen (rdata_plain r)) in *.
      eapply yields_bind; [eapply yields_bind; [apply (adv_ok P m out off pts b (fun st => st = mkl (out ++ zslice m off b) (off + b) pts)); [lia|lia|lia|intros X; specialize (HP X); lia|intros _; reflexivity]|]|].
      * intros st ->. change (66 =? 0) with false. change ((0 <? 66) && (66 <? 64)) with false. change (66 =? 64) with false. change (66 =? 65) with false. change (66 =? 66) with true. cbv iota zeta. replace (rdl - (0 + b) =? 0) with false by lia.
        eapply yields_bind; [apply (adv_ok P m _ (off + b) pts (rdl - (0 + b)) (fun st => rdl < 4100 /\ st = mkl (out ++ rdata_plain r) (off + rdl) pts))|].
        -- lia.
        -- lia.
        -- lia.
        -- intros X; specialize (HP X). rewrite zlen_app, zlen_zslice by lia. lia.
        -- rewrite zlen_app, zlen_zslice by lia. intros G4. split; [lia|]. rewrite <- app_assoc, <- zslice_split by lia. replace (b + (rdl - (0 + b))) with rdl by lia. rewrite E. f_equal. lia.
        -- intros st (G4 & ->). cbn [yields]. instantiate (1 := fun x => rdl < 4100 /\ x = (rdl, rdl, mkl (out ++ rdata_plain r) (off + rdl) pts)). cbv beta. split; [exact G4|]. replace (0 + b + (rdl - (0 + b))) with rdl by lia. reflexivity.
      * intros x (G4 & ->). cbv beta. rewrite !Z.eqb_refl. apply RAW. unfold small_data. fold rdl. lia.
    + rewrite LA in LAY. destruct LAY as (LL & LN & SN & LT). pose proof (total_pos _ F1) as P1. pose proof (total_pos _ F2) as P2. set (c := concat (map wire (rr_names r))) in *. pose proof (zlen_nonneg c).
      assert (zlen (rdata_plain r) = total f1 + zlen c + total f2) as LR by (unfold rdata_plain; rewrite !zlen_app; fold c; lia).
      unfold rdata_plain in E at 2. unfold rdata_plain in E. fold c in E. destruct (zslice_app_inv m off (rr_lead r) (c ++ rr_tail r)) as (E1 & E23); [lia|rewrite !zlen_app; lia|exact E|].
      destruct (zslice_app_inv m (off + zlen (rr_lead r)) c (rr_tail r)) as (E2 & E3); [lia|rewrite !zlen_app; lia|exact E23|]. rewrite LL in E1, E2, E3. rewrite LT in E3.
      assert (bytes (rr_lead r)) as BL by (rewrite <- E1; apply bytes_zslice, BM). assert (bytes (rr_tail r)) as BT by (rewrite <- E3; apply bytes_zslice, BM).
      subst k. eapply yields_bind; [apply (fields_fixed P (tocompress d) mx m _ _ (fun x => exists y ns' pts', x = (zlen (rdata_plain r), total f1 + zlen y + total f2, mkl (out ++ rr_lead r ++ y ++ rr_tail r) (off + zlen (rdata_plain r)) pts') /\
          same_names ns' (rr_names r) /\ cnames (aside (zlen out - 2)) (out ++ rr_lead r ++ y ++ rr_tail r) (zlen out + total f1) ns' (zlen out + total f1 + zlen y) /\ Forall (place_ok (aside (zlen out - 2)) (out ++ rr_lead r ++ y ++ rr_tail r)) pts' /\ zlen pts' <= np /\ zlen y <= zlen c /\ (zlen y = zlen c \/ 2 <= zlen y) /\ bytes y))|].
      * exact F1.
      * lia.
      * lia.
      * intros X; specialize (HP X); lia.
      * rewrite E1. apply (fields_names (aside (zlen out - 2))); fold c; try assumption; try lia.
        -- apply bytes_app; split; assumption.
        -- rewrite zlen_app. lia.
        -- apply places_app, PO.
        -- intros i I. rewrite zlen_app in I. unfold aside. lia.
        -- intros X. specialize (HP X). rewrite zlen_app. unfold np in HP. lia.
        -- intros y ns' pts' S1 C1 PO1 NP1 LY Y2 BY. apply fields_fixed; [exact F2|lia|lia|intros X; specialize (HP X); rewrite !zlen_app; lia|]. cbn [l_cfields]. rewrite Z.eqb_refl. cbn [yields]. exists y, ns', pts'. rewrite E3. rewrite <- !app_assoc. rewrite !zlen_app, LL, <- app_assoc in C1.
           split; [apply f_equal2; [apply f_equal2; lia|apply f_equal3; [reflexivity|lia|reflexivity]]|]. split; [exact S1|]. split; [|split; [|split; [exact NP1|split; [exact LY|split; [exact Y2|exact BY]]]]].
           ++ rewrite (app_assoc (rr_lead r)), (app_assoc out). apply cnames_app. rewrite <- Z.add_assoc in *. exact C1.
           ++ rewrite (app_assoc (rr_lead r)), (app_assoc out). apply places_app. rewrite <- app_assoc in PO1. exact PO1.
      * intros x (y & ns' & pts' & -> & S1 & C1 & PO1 & NP1 & LY & Y2 & BY). rewrite Z.eqb_refl. assert (zlen (rr_lead r ++ y ++ rr_tail r) = total f1 + zlen y + total f2) as LA2 by (rewrite !zlen_app; lia). rewrite <- LA2. set (z := rr_lead r ++ y ++ rr_tail r) in *.
        apply (finish P r out off pts' np z ns'); try assumption; try lia; [unfold z; apply bytes_app; split; [exact BL|apply bytes_app; split; assumption]| |].
        { unfold small_data. rewrite LR. pose proof (layout_nonneg _ _ _ _ LA). assert (zlen c <= 510) by (apply two_short; [exact SN|lia]). lia. }
        intros o LO X. unfold data_in. rewrite LA. pose proof (zlen_nonneg y). pose proof (zlen_app out z) as LZ.
        assert (forall a n w, zlen out <= a -> 0 <= n -> a + n <= zlen out + zlen z -> zslice (out ++ z) a n = w -> zslice o a n = w) as XS.
        { intros a n w A N AN <-. apply zlist_ext; [rewrite !zlen_zslice by lia; reflexivity|]. intros i I. rewrite zlen_zslice in I by lia. rewrite !zget_zslice by lia. apply X; [unfold aside; lia|lia]. }
        split; [lia|]. split; [symmetry; apply XS; try lia; rewrite zslice_app_r by lia; rewrite Z.sub_diag; unfold z; rewrite <- LL; rewrite zslice_app_l by lia; apply zslice_all|]. split; [apply (same_length _ _ _ S1)|].
        exists (zlen out + total f1 + zlen y). split; [apply (cnames_in (aside (zlen out - 2))), (cnames_ext _ (out ++ z)); assumption|]. split; [symmetry; apply XS; try lia|lia]. rewrite zslice_app_r by lia. unfold z. pose proof (zlen_app (rr_lead r) (y ++ rr_tail r)). pose proof (zlen_app y (rr_tail r)). rewrite zslice_app_r by lia. rewrite zslice_app_r by lia.
        replace (zlen out + total f1 + zlen y - zlen out - zlen (rr_lead r) - zlen y) with 0 by lia. rewrite <- LT. apply zslice_all.
Qed.

(** ** Records *)
Lemma u16_step (P : Prop) m out off pts x : bytes m -> 0 <= off -> off + 2 <= zlen m -> zlen x = 2 -> zslice m off 2 = x -> (P -> zlen out + 2 < 4100) -> yields P (l_u16 m (mkl out off pts)) (fun p => p = (number x, mkl (out ++ x) (off + 2) pts)).
Proof.
  intros BM O L LX E HP. unfold l_u16. cbn [l_off l_out l_pts]. replace (off + 2 <=? zlen m) with true by lia. cbv zeta. rewrite E. destruct (num16_number m off BM O L) as (E1 & R1). rewrite E in E1, R1.
  rewrite be_num16 by exact R1. rewrite <- E1. unfold l_add. rewrite LX. destruct (zlen out + 2 <? 4100) eqn:G; cbn [obind yields]; [reflexivity|]. intros X. specialize (HP X). lia.
Qed.
Lemma type_step (P : Prop) m out off pts t meta : bytes m -> 0 <= off -> off + 8 < zlen m -> 0 <= t < 65536 -> zlen meta = 6 -> zslice m off 2 = num16 t -> zslice m (off + 2) 6 = meta -> (P -> zlen out + 8 < 4100) ->
  yields P (l_ctype m (mkl out off pts)) (fun p => p = (t, mkl (out ++ num16 t ++ zslice meta 0 2 ++ be 4 (Z.min (number (zslice meta 2 4)) 4294967294)) (off + 8) pts)).
Proof.
  intros BM O L T LM E1 E2 HP. unfold l_ctype. assert (zslice m (off + 2) 2 = zslice meta 0 2) as E3 by (rewrite <- E2, zslice_zslice by lia; apply f_equal2; lia). assert (zslice m (off + 4) 4 = zslice meta 2 4) as E4 by (rewrite <- E2, zslice_zslice by lia; f_equal; lia).
  eapply yields_bind; [apply (u16_step P m out off pts (num16 t)); try assumption; [lia|reflexivity|intros X; specialize (HP X); lia]|]. intros p ->. rewrite number_num16 by exact T.
  eapply yields_bind; [apply (u16_step P m _ (off + 2) pts (zslice meta 0 2)); try assumption; [lia|lia|apply zlen_zslice; lia|intros X; specialize (HP X); rewrite zlen_app; change (zlen (num16 t)) with 2; lia]|]. intros p ->.
  unfold l_ttl. cbn [l_off l_out l_pts]. replace (off + 2 + 2) with (off + 4) by lia. replace (off + 4 + 4 <? zlen m) with true by lia. rewrite E4. unfold l_add. rewrite zlen_be, !zlen_app, zlen_zslice by lia. change (zlen (num16 t)) with 2. change (Z.of_nat 4) with 4.
  destruct (zlen out + 2 + 2 + 4 <? 4100) eqn:G; cbn [obind yields]; [|intros X; specialize (HP X); lia]. rewrite <- !app_assoc. replace (off + 4 + 4) with (off + 8) by lia. reflexivity.
Qed.
Lemma same_prefix out o : (forall i, 0 <= i < zlen out -> zget o i = zget out i) -> zlen out <= zlen o -> exists y, o = out ++ y.
Proof.
  intros X L. exists (zslice o (zlen out) (zlen o - zlen out)). rewrite <- (zslice_all o) at 1. replace (zlen o) with (zlen out + (zlen o - zlen out)) at 1 by lia. pose proof (zlen_nonneg out). rewrite zslice_split by lia. f_equal.
  apply zlist_ext; [apply zlen_zslice; lia|]. intros i I. rewrite zlen_zslice in I by lia. rewrite zget_zslice by lia. apply X. lia.
Qed.
Lemma bytes_be n v : bytes (be n v).
Proof. unfold be. apply Forall_map, Forall_forall. intros i _. unfold byte. lia. Qed.
Definition l_crec (mx : Z) (m : list Z) (st : ls) : option ls :=
  obind (l_cname mx m st) (fun st => obind (l_ctype m st) (fun '(type, st) => obind (l_u16 m st) (fun '(rdlength, st') => l_cdata mx m st' (zlen (l_out st)) type rdlength))).
Definition rr_labels (r : rr) : Z := total (map labels (rr_owner r :: rr_names r)).
Definition yes (i : Z) : Prop := True.
Definition rec_done (r : rr) (out : list Z) (off np : Z) (st : ls) : Prop :=
  exists y r', l_out st = out ++ y /\ bytes y /\ rec_in 256 (out ++ y) (zlen out) r' (zlen out + zlen y) /\ same_rr r' (capped r) /\ zlen y <= zlen (rr_plain r) /\ small_data r /\ l_off st = off + zlen (rr_plain r) /\
    Forall (place_ok yes (l_out st)) (l_pts st) /\ zlen (l_pts st) <= np + rr_labels r.
Lemma plain_crec (P : Prop) mx m r out off pts : bytes m -> plain_rr r -> 0 <= off -> off + zlen (rr_plain r) <= zlen m -> zslice m off (zlen (rr_plain r)) = rr_plain r ->
  bytes out -> 12 <= zlen out -> Forall (place_ok yes out) pts -> (P -> zlen out + zlen (rr_plain r) < 4100 /\ off + zlen (rr_plain r) < mx /\ zlen pts + rr_labels r <= 150) ->
  yields P (l_crec mx m (mkl out off pts)) (rec_done r out off (zlen pts)).
Proof.
  intros BM PR O RG E BO O12 PO HP. pose proof PR as (SN & TR & LM & RL & _). unfold rr_labels in *. cbn [map total] in *. pose proof (total_nonneg (rr_names r)) as TN.
  pose proof (zlen_nonneg (rdata_plain r)) as RN. assert (zlen (rr_plain r) = zlen (wire (rr_owner r)) + 10 + zlen (rdata_plain r)) as LR by (unfold rr_plain; rewrite !zlen_app, LM; change (zlen (num16 (rr_type r))) with 2; change (zlen (num16 (zlen (rdata_plain r)))) with 2; lia).
  pose proof (wire_pos1 (rr_owner r)) as WP. unfold rr_plain in E. set (w := wire (rr_owner r)) in *. set (rd := rdata_plain r) in *.
  assert (zlen (num16 (rr_type r) ++ rr_meta r ++ num16 (zlen rd) ++ rd) = 10 + zlen rd) as L1 by (rewrite !zlen_app, LM; change (zlen (num16 (rr_type r))) with 2; change (zlen (num16 (zlen rd))) with 2; lia).
  destruct (zslice_app_inv m off w (num16 (rr_type r) ++ rr_meta r ++ num16 (zlen rd) ++ rd)) as (E1 & E'); [lia|rewrite zlen_app; lia|exact E|].
  destruct (zslice_app_inv m (off + zlen w) (num16 (rr_type r)) (rr_meta r ++ num16 (zlen rd) ++ rd)) as (E2 & E''); [lia|lia|exact E'|]. change (zlen (num16 (rr_type r))) with 2 in *.
  assert (zlen (rr_meta r ++ num16 (zlen rd) ++ rd) = 8 + zlen rd) as L2 by (rewrite !zlen_app, LM; change (zlen (num16 (zlen rd))) with 2; lia).
  destruct (zslice_app_inv m (off + zlen w + 2) (rr_meta r) (num16 (zlen rd) ++ rd)) as (E3 & E3'); [lia|lia|exact E''|]. rewrite LM in E3, E3'.
  assert (zlen (num16 (zlen rd) ++ rd) = 2 + zlen rd) as L3 by (rewrite zlen_app; reflexivity).
  destruct (zslice_app_inv m (off + zlen w + 2 + 6) (num16 (zlen rd)) rd) as (E4 & E5); [lia|lia|exact E3'|]. change (zlen (num16 (zlen rd))) with 2 in *.
  unfold l_crec. eapply yields_bind; [eapply yields_weak; [|intros x Hx; exact Hx|apply (l_cname_ok yes mx m (rr_owner r) out off pts)]|]; try assumption; fold w; try lia.
  { intros i _. exact Logic.I. }
  intros [out1 off1 pts1] ((y & b & n' & EO & EF & SL & CN & LY & BY) & PO1 & NP1). cbn [l_out l_off l_pts] in *. subst out1 off1. fold w in LY, CN. pose proof (cname_range _ _ _ _ _ _ CN) as CR. pose proof (zlen_app out y) as LO.
  eapply yields_bind; [apply (type_step P m (out ++ y) (off + zlen w) pts1 (rr_type r) (rr_meta r)); try assumption; try lia|].
  intros p ->. set (mid := num16 (rr_type r) ++ rr_meta (capped r)). assert (zlen (rr_meta (capped r)) = 6) as LC by (cbn [capped rr_meta]; rewrite zlen_app, zlen_zslice, zlen_be by lia; reflexivity).
  assert (zlen mid = 8) as LMID by (unfold mid; rewrite zlen_app, LC; reflexivity). change (num16 (rr_type r) ++ zslice (rr_meta r) 0 2 ++ be 4 (Z.min (number (zslice (rr_meta r) 2 4)) 4294967294)) with mid. pose proof (zlen_app (out ++ y) mid) as LO2.
  eapply yields_bind; [apply (u16_step P m _ (off + zlen w + 8) pts1 (num16 (zlen rd))); try assumption; try lia; [reflexivity|]|].
  { rewrite <- E4. f_equal. lia. }
  intros p ->. rewrite number_num16 by lia. cbn [l_out]. set (out2 := ((out ++ y) ++ mid) ++ num16 (zlen rd)). assert (zlen out2 = zlen out + zlen y + 10) as LO3 by (unfold out2; rewrite zlen_app; change (zlen (num16 (zlen rd))) with 2; lia).
  replace (zlen ((out ++ y) ++ mid)) with (zlen out2 - 2) by lia.
  assert (bytes (rr_meta r)) as BMETA by (rewrite <- E3; apply bytes_zslice, BM). assert (forall v, 0 <= v < 65536 -> bytes (num16 v)) as BN by (intros v V; constructor; [unfold byte; lia|constructor; [unfold byte; lia|constructor]]).
  assert (bytes out2) as BO2.
  { unfold out2, mid. apply bytes_app; split; [|apply BN; lia]. apply bytes_app; split; [apply bytes_app; split; assumption|]. apply bytes_app; split; [apply BN; lia|]. cbn [capped rr_meta]. apply bytes_app; split; [apply bytes_zslice, BMETA|apply bytes_be]. }
  assert (Forall (place_ok (aside (zlen out2 - 2)) out2) pts1) as PO2.
  { assert (zlen (out ++ y) <= zlen out2 - 2) as LK by lia. generalize dependent (zlen out2 - 2). intros k LK. unfold out2. rewrite <- (app_assoc (out ++ y)). apply places_app. apply (place_weak yes); [|exact PO1]. intros i _ I. unfold aside. lia. }
  eapply yields_weak; [intros X; exact X| |apply (plain_cdata P mx m r out2 (off + zlen w + 8 + 2) pts1); fold rd; try assumption; try lia].
  - intros st (z & ns' & LZ & BZ & XZ & SZ & DZ & SNZ & LZ2 & SD & OZ & POZ & NPZ). fold rd in LZ2, OZ.
    destruct (same_prefix out (l_out st)) as (yy & EY).
    { intros i I. rewrite XZ by lia. unfold out2. rewrite <- !app_assoc. apply zget_app_l. lia. }
    { pose proof (zlen_nonneg z). lia. }
    pose proof (zlen_nonneg z) as ZN. assert (zlen yy = zlen y + 10 + zlen z) as LYY by (rewrite EY, zlen_app in LZ; lia).
    exists yy, (mkrr n' (rr_type r) (rr_meta (capped r)) (rr_lead r) ns' (rr_tail r)). split; [exact EY|]. split; [rewrite EY in BZ; apply bytes_app in BZ; apply BZ|]. rewrite <- EY.
    split; [apply (rec_in_intro _ _ _ _ _ (zlen out + zlen y) (zlen z)); cbn [rr_owner rr_type rr_meta rr_lead rr_names rr_tail]; try assumption; try lia|].
    + apply (cname_in yes _ b); [|rewrite (lower_wire_len _ _ SL); apply SN]. apply (cname_weak (fun i => i < zlen out + zlen y)); [intros; exact Logic.I|]. apply (cname_ext _ (out ++ y)); [|apply (cname_weak yes); [|exact CN]].
      * intros i I1 I2. rewrite XZ by lia. unfold out2. rewrite <- !app_assoc, app_assoc. apply zget_app_l. lia.
      * intros i _ I. lia.
    + replace 10 with (8 + 2) by lia. rewrite zslice_split by lia. rewrite app_assoc. f_equal; [|rewrite <- SZ; f_equal; lia]. fold mid. apply zlist_ext; [rewrite zlen_zslice by lia; lia|]. intros i I. rewrite zlen_zslice in I by lia. rewrite zget_zslice by lia. rewrite XZ by lia. unfold out2. rewrite zget_app_l by lia. rewrite zget_app_r by lia. f_equal. lia.
    + replace (zlen out + zlen y + 10) with (zlen out2) by lia. exact DZ.
    + split; [|split; [lia|split; [exact SD|split; [lia|split; [apply (place_weak (aside (zlen out2 - 2))); [intros; exact Logic.I|exact POZ]|]]]]].
      * split; [apply same_name_spec; exact SL|]. split; [reflexivity|]. split; [reflexivity|]. split; [reflexivity|]. split; [|reflexivity]. cbn [capped rr_names]. clear -SNZ. induction SNZ; constructor; [apply same_name_spec; assumption|assumption].
      * unfold rr_labels. cbn [map total]. lia.
  - rewrite <- E5 at 2. f_equal. lia.
  - replace (zlen out2 - 2) with (zlen ((out ++ y) ++ mid)) by lia. unfold out2. rewrite zslice_app_r by (rewrite ?zlen_app; try lia; change (zlen (num16 (zlen rd))) with 2; lia). rewrite Z.sub_diag. reflexivity.
Qed.
