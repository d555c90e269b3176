(** MaraDNS' compressor as functions on lists: dns/Compress.c does the same on its strings. *)
From Verif Require Import CBase Bits ModelDwStr SpecDwStr ProofDwStr SpecNames SpecMessage SpecAcl SpecDeadwoodMsg SpecQuery ModelJsStr SpecJsStr ProofJsStr ProofJsSearch
  ModelQueries SpecQueries ProofQueries ProofDwDnsStr ProofQuestion ModelDecomp SpecDecomp ProofJsList ProofDecompList ProofDecompPacket ModelCompress.

(** What has been written, how much has been read, and the places of names in what was written. *)
Record ls := mkl { l_out : list Z; l_off : Z; l_pts : list Z }.
Record points_ok (points pts : list Z) : Prop := {
  po_split : exists rest, points = pts ++ 0 :: rest; po_len : zlen points = 163; po_max : zlen pts <= 150; po_pos : Forall (fun p => 0 < p) pts }.
Record same_state (k : Z) (m : list Z) (state : cstate) (st : ls) : Prop := {
  ss_comp : held 4100 (k_comp state) (l_out st); ss_off : k_off state = l_off st; ss_pts : points_ok (k_points state) (l_pts st);
  ss_range : 0 <= l_off st <= zlen m; ss_head : k <= zlen (l_out st); ss_small : zlen m <= 1073741824 }.

(** ** Comparing names *)
Definition l_same (a b : list Z) : bool := zlist_eqb (map fold_case1 a) (map fold_case1 b).
Lemma issame_loop_ok : forall n a b x y k, 0 <= k -> zlen x = k + Z.of_nat n -> zlen y = k + Z.of_nat n -> (forall i, 0 <= i < zlen x -> zget a i = zget x i) -> (forall i, 0 <= i < zlen y -> zget b i = zget y i) ->
  issame_loop n a b k = Ok (if l_same (zslice x k (Z.of_nat n)) (zslice y k (Z.of_nat n)) then 1 else 0).
Proof.
  induction n as [|n IH]; intros a b x y k K LX LY HA HB.
  - cbn [issame_loop Z.of_nat]. rewrite !zslice_nil. reflexivity.
  - cbn [issame_loop]. destruct (zget_some x k ltac:(lia)) as (u & EU). destruct (zget_some y k ltac:(lia)) as (v & EV).
    rewrite (rd_of_zget a k u) by (rewrite HA by lia; exact EU). cbn [bind]. rewrite (rd_of_zget b k v) by (rewrite HB by lia; exact EV). cbn [bind].
    replace (Z.of_nat (S n)) with (1 + Z.of_nat n) by lia. rewrite !zslice_split by lia. rewrite (zslice_one _ _ _ EU), (zslice_one _ _ _ EV). unfold l_same. cbn [app map zlist_eqb].
    destruct (fold_case1 u =? fold_case1 v) eqn:G; cbn [negb andb]; [|reflexivity]. apply IH; try assumption; lia.
Qed.
Lemma issame_ok a b x y : held 259 a x -> held 259 b y -> compress_issame a b = Ok (if l_same x y then 1 else 0).
Proof.
  intros (HA & _) (HB & _). pose proof (hold_facts a x HA) as [Wa Sa La Ca Ma Na Ba Xa Ua Oa Ga Sla]. pose proof (hold_facts b y HB) as [Wb Sb Lb Cb Mb Nb Bb Xb Ub Ob Gb Slb].
  unfold compress_issame. rewrite Xa, Xb, Sa, Sb. cbn [negb orb Z.eqb Pos.eqb]. rewrite <- La, <- Lb. destruct (Z.eqb_spec (zlen x) (zlen y)) as [E|NE]; cbn [negb].
  - rewrite Z.mul_1_r. pose proof (zlen_nonneg x). rewrite (issame_loop_ok _ _ _ x y 0) by (try assumption; lia). rewrite Z2Nat.id by lia. rewrite E at 2. rewrite !zslice_all. reflexivity.
  - unfold l_same. destruct (zlist_eqb (map fold_case1 x) (map fold_case1 y)) eqn:G; [|reflexivity]. apply zlist_eqb_spec in G. exfalso. revert G. intros X. apply (f_equal zlen) in X. unfold zlen in *. rewrite !map_length in X. lia.
Qed.
Definition l_eq (m : list Z) (off : Z) (out : list Z) (p : Z) : bool :=
  match name_text m off, name_text out p with Some a, Some b => l_same a b | _, _ => false end.
Lemma compare_ok J c m k out off p : junk_ok J -> holding c m -> held 4100 k out -> 0 <= off < 2147483648 -> 0 <= p < 2147483648 ->
  exists v, compress_compare_dlabels J c k off p = Ok v /\ (v =? 1) = l_eq m off out p.
Proof.
  intros HJ HC (HK & _) O P. unfold compress_compare_dlabels, l_eq. pose proof (get_label_agree J c m off HJ HC ltac:(lia)) as A. pose proof (get_label_agree J k out p HJ HK ltac:(lia)) as B.
  destruct (name_text m off) as [a|]; cbn [agree] in A; [destruct A as (s & -> & HA)|rewrite A; exists JS_ERROR; split; reflexivity].
  destruct (name_text out p) as [b|]; cbn [agree] in B; [destruct B as (s' & -> & HB)|rewrite B; exists JS_ERROR; split; reflexivity].
  rewrite (issame_ok s s' a b HA HB). eexists. split; [reflexivity|]. destruct (l_same a b); reflexivity.
Qed.

(** ** The table of places *)
Lemma first_free_ok : forall pts pre rest n, (length pts < n)%nat -> zlen pre + zlen pts <= 150 -> Forall (fun p => 0 < p) pts -> first_free n (pre ++ pts ++ 0 :: rest) (zlen pre) = Ok (zlen pre + zlen pts).
Proof.
  induction pts as [|p pts IH]; intros pre rest n N L F; (destruct n as [|n]; [lia|]); cbn [first_free].
  - rewrite (rd_of_zget _ _ 0) by (rewrite zget_app_r by lia; rewrite Z.sub_diag; apply zget_cons_0). cbn [bind Z.eqb negb andb]. change (zlen (@nil Z)) with 0. f_equal. lia.
  - inversion F as [|? ? F1 F2]; subst. rewrite (rd_of_zget _ _ p) by (rewrite zget_app_r by lia; rewrite Z.sub_diag; apply zget_cons_0). cbn [bind]. rewrite zlen_cons in L. pose proof (zlen_nonneg pts).
    replace (p =? 0) with false by lia. unfold MAX_DLABEL_POINTS. replace (zlen pre <? 160 - 10) with true by lia. cbn [negb andb].
    replace (pre ++ (p :: pts) ++ 0 :: rest) with ((pre ++ [p]) ++ pts ++ 0 :: rest) by (rewrite <- app_assoc; reflexivity).
    replace (zlen pre + 1) with (zlen (pre ++ [p])) by (rewrite zlen_app; reflexivity). rewrite IH; [|cbn [length] in N; lia|rewrite zlen_app; change (zlen [p]) with 1; lia|exact F2].
    apply f_equal. rewrite zlen_app, !zlen_cons. change (zlen (@nil Z)) with 0. lia.
Qed.
Fixpoint l_points (n : nat) (out pts : list Z) (off : Z) : option (list Z) :=
  match n with
  | O => None
  | S n =>
      match zget out off with
      | None => None
      | Some len =>
          if 192 <=? len then Some pts
          else if zlen out <=? off + len then None
          else if 150 <=? zlen pts then None
          else if (len =? 0) || (63 <? len) then Some (pts ++ [off])
          else l_points n out (pts ++ [off]) (off + len + 1)
      end
  end.
Lemma points_loop_ok : forall n c out points pts off, held 4100 c out -> points_ok points pts -> 0 < off ->
  agree points_ok (points_loop n c points (zlen pts) off) (l_points n out pts off).
Proof.
  induction n as [|n IH]; intros c out points pts off HC PO O; cbn [points_loop l_points]; [apply agree_none|].
  pose proof (hold_facts c out (proj1 HC)) as [Wa Sa La Ca Ma Na Ba Xa Ua Oa Ga Sla]. rewrite <- La.
  destruct (zlen out <=? off) eqn:G; [rewrite (proj2 (zget_none out off)) by lia; apply agree_none|].
  destruct (zget_some out off ltac:(lia)) as (len & E). pose proof (zget_bytes _ _ _ Ba E) as BL. unfold byte in BL. rewrite (rd_of_zget _ _ len) by (rewrite Ga by lia; exact E). cbn [bind]. rewrite E.
  destruct (192 <=? len) eqn:G1; [apply agree_some, PO|]. destruct (zlen out <=? off + len) eqn:G2; [apply agree_none|]. unfold MAX_DLABEL_POINTS. change (160 - 10) with 150. destruct (150 <=? zlen pts) eqn:G3; [apply agree_none|].
  destruct PO as [(rest & ->) LP MP FP]. rewrite zlen_app, zlen_cons in LP. pose proof (zlen_nonneg pts). destruct rest as [|r rest]; [change (zlen (@nil Z)) with 0 in LP; lia|]. pose proof (zlen_nonneg rest).
  rewrite wr_ok by (rewrite zlen_app, !zlen_cons; lia). cbn [bind]. rewrite zupd_mid. rewrite wr_ok by (rewrite zlen_app, !zlen_cons; lia). cbn [bind].
  replace (zupd (pts ++ off :: r :: rest) (zlen pts + 1) 0) with ((pts ++ [off]) ++ 0 :: rest).
  2:{ replace (pts ++ off :: r :: rest) with ((pts ++ [off]) ++ r :: rest) by (rewrite <- app_assoc; reflexivity). replace (zlen pts + 1) with (zlen (pts ++ [off])) by (rewrite zlen_app; reflexivity). rewrite zupd_mid. reflexivity. }
  assert (points_ok ((pts ++ [off]) ++ 0 :: rest) (pts ++ [off])) as PO'.
  { constructor; [exists rest; reflexivity| | |].
    - rewrite !zlen_app, !zlen_cons. change (zlen (@nil Z)) with 0. rewrite zlen_cons in LP. lia.
    - rewrite zlen_app. change (zlen [off]) with 1. lia.
    - apply Forall_app. split; [exact FP|constructor; [lia|constructor]]. }
  destruct ((len =? 0) || (63 <? len)); [apply agree_some, PO'|]. replace (zlen pts + 1) with (zlen (pts ++ [off])) by (rewrite zlen_app; reflexivity). apply IH; try assumption. lia.
Qed.
Definition l_add_points (st : ls) (at_ : Z) : option ls := obind (l_points 257 (l_out st) (l_pts st) at_) (fun pts => Some (mkl (l_out st) (l_off st) pts)).
Lemma add_points_agree k m state st at_ : same_state k m state st -> 0 < at_ -> agree (same_state k m) (compress_add_dlabel_points state at_) (l_add_points st at_).
Proof.
  intros [C O PO R H SM] A. unfold compress_add_dlabel_points, l_add_points. destruct (po_split _ _ PO) as (rest & EP).
  assert (first_free 151 (k_points state) 0 = Ok (zlen (l_pts st))) as ->.
  { rewrite EP. pose proof (first_free_ok (l_pts st) [] rest 151) as X. cbn [app] in X. change (zlen (@nil Z)) with 0 in X. rewrite Z.add_0_l in X. apply X; [pose proof (po_max _ _ PO) as Y; unfold zlen in Y; lia|apply (po_max _ _ PO)|apply (po_pos _ _ PO)]. }
  cbn [bind]. eapply agree_bind; [apply points_loop_ok; eassumption|]. intros p p' P _. apply agree_some. constructor; assumption.
Qed.
Fixpoint l_find (pts : list Z) (m : list Z) (out : list Z) (off begin : Z) : option Z :=
  match pts with
  | [] => None
  | p :: pts => if begin <=? p then None else if l_eq m off out p then Some p else l_find pts m out off begin
  end.
Lemma find_point_ok J c m state out off begin rest : junk_ok J -> holding c m -> held 4100 (k_comp state) out -> k_off state = off -> 0 <= off < 2147483648 -> begin < 2147483648 ->
  forall pts pre n, k_points state = pre ++ pts ++ 0 :: rest -> (length pts < n)%nat -> Forall (fun p => 0 < p) pts -> find_point n J c state begin (zlen pre) = Ok (l_find pts m out off begin).
Proof.
  intros HJ HC HK EO O B. induction pts as [|p pts IH]; intros pre n EP N F; (destruct n as [|n]; [lia|]); cbn [find_point l_find]; rewrite EP.
  - rewrite (rd_of_zget _ _ 0) by (rewrite zget_app_r by lia; rewrite Z.sub_diag; apply zget_cons_0). reflexivity.
  - inversion F as [|? ? F1 F2]; subst. rewrite (rd_of_zget _ _ p) by (rewrite zget_app_r by lia; rewrite Z.sub_diag; apply zget_cons_0). cbn [bind]. replace (p =? 0) with false by lia.
    destruct (begin <=? p) eqn:G; [reflexivity|]. destruct (compare_ok J c m (k_comp state) out (k_off state) p HJ HC HK O ltac:(lia)) as (v & -> & <-). cbn [bind]. destruct (v =? 1); [reflexivity|].
    replace (zlen pre + 1) with (zlen (pre ++ [p])) by (rewrite zlen_app; reflexivity). apply IH; [rewrite EP, <- app_assoc; reflexivity|cbn [length] in N; lia|exact F2].
Qed.

(** ** Names *)
Lemma substr_append_neg J c t p n : n < 0 -> p < 2147483648 -> js_substr_append J c t p n = Ok (JS_ERROR, t).
Proof.
  intros N P. unfold js_substr_append, js_create. destruct ((n + 2 + 3 =? 0) || (1 =? 0)); [reflexivity|]. replace (2147483648 <=? p + n) with false by lia. destruct (j_count c <? u32 (p + n)); [reflexivity|].
  assert (forall tmp, js_substr c tmp p n = Ok (-1, tmp)) as E.
  { intros tmp. unfold js_substr. destruct (negb (js_sane c)); [reflexivity|]. destruct (negb (js_sane tmp)); [reflexivity|]. destruct (negb (j_size c =? j_size tmp)); [reflexivity|]. replace (n <? 0) with true by lia. reflexivity. }
  rewrite E. reflexivity.
Qed.
Definition l_adv (m : list Z) (st : ls) (n : Z) : option ls :=
  if n <? 0 then None else obind (l_take 4100 m (l_out st) (l_off st) n) (fun out => Some (mkl out (l_off st + n) (l_pts st))).
Lemma take_agree J k c m state st n : junk_ok J -> holding c m -> same_state k m state st -> n < 100000 -> agree (same_state k m) (take J c state n) (l_adv m st n).
Proof.
  intros HJ HC [C O PO R H SM] N. pose proof (hold_facts c m HC) as [Wa Sa La Ca Ma Na Ba Xa Ua Oa Ga Sla]. unfold take, l_adv. destruct (n <? 0) eqn:G.
  - rewrite substr_append_neg by lia. reflexivity.
  - rewrite O.
    eapply then_agree; [apply substr_append_agree; try eassumption; lia|]. intros a b Hab E. apply l_take_some in E as (E1 & E2 & E3 & E4). apply agree_some. constructor; cbn [k_comp k_off k_points l_out l_off l_pts]; try assumption; try lia.
      rewrite E3, zlen_app. pose proof (zlen_nonneg (zslice m (l_off st) n)). lia.
Qed.
Definition l_sub (mx : Z) (m : list Z) (st : ls) (begin : Z) : option (Z * ls) :=
  let '(mkl out off pts) := st in
  match zget m off with
  | None => None
  | Some len =>
      if len =? 0 then obind (l_take 4100 m out off 1) (fun out => if mx <=? off + 1 then None else Some (0, mkl out (off + 1) pts))
      else if 63 <? len then None
      else if (zlen m <=? off + len + 1) || (mx <=? off + len + 1) then None
      else
        match l_find pts m out off begin with
        | Some p =>
            if (p <? 12) || (16384 <=? p) then None
            else obind (l_add 4100 out (be 2 (49152 + p))) (fun out =>
                   let len := len_at m off in
                   if len =? -1 then None
                   else if (zlen m <? off + len) || (mx <=? off + len) then None
                   else Some (if off + len =? zlen m then 3 else 2, mkl out (off + len) pts))
        | None => obind (l_take 4100 m out off (len + 1)) (fun out => Some (1, mkl out (off + len + 1) pts))
        end
  end.
Definition same_state2 k m (p : Z * cstate) (q : Z * ls) : Prop := fst p = fst q /\ same_state k m (snd p) (snd q).
Lemma pointer_word p : 0 <= p < 16384 -> Z.lor (u16 p) 49152 = 49152 + p.
Proof.
  intros P. replace (u16 p) with p by (unfold u16; lia). rewrite Z.lor_comm. change 49152 with (3 * 2 ^ 14) at 1. rewrite lor_add_pow2 by (try lia; change (2 ^ 14) with 16384; lia). reflexivity.
Qed.
Lemma sub_agree J k c m state st begin : junk_ok J -> holding c m -> same_state k m state st -> begin < 2147483648 -> agree (same_state2 k m) (compress_sub_dlabel J c state begin) (l_sub (j_max c) m st begin).
Proof.
  intros HJ HC [C O PO R H SM] B. destruct st as [out off pts]. cbn [l_out l_off l_pts] in *. pose proof (hold_facts c m HC) as [Wa Sa La Ca Ma Na Ba Xa Ua Oa Ga Sla]. unfold compress_sub_dlabel, l_sub. cbv zeta. rewrite O, <- La.
  destruct (zlen m <=? off) eqn:G; [rewrite (proj2 (zget_none m off)) by lia; apply agree_none|].
  destruct (zget_some m off ltac:(lia)) as (len & E). pose proof (zget_bytes _ _ _ Ba E) as BL. unfold byte in BL. rewrite (rd_of_zget _ _ len) by (rewrite Ga by lia; exact E). cbn [bind]. rewrite E.
  destruct (len =? 0) eqn:G0.
  { eapply then_agree; [apply substr_append_agree; try eassumption; lia|]. intros a b Hab E1. apply l_take_some in E1 as (E1 & E2 & E3 & E4). replace (zlen m <? off + 1) with false by lia. cbn [orb].
    destruct (j_max c <=? off + 1); [apply agree_none|]. replace (off =? zlen m) with false by lia. apply agree_some. split; [reflexivity|]. constructor; cbn [snd k_comp k_off k_points l_out l_off l_pts]; try assumption; try lia.
    rewrite E3, zlen_app. pose proof (zlen_nonneg (zslice m off 1)). lia. }
  destruct (63 <? len) eqn:G1; [apply agree_none|]. destruct ((zlen m <=? off + len + 1) || (j_max c <=? off + len + 1)) eqn:G2; [apply agree_none|].
  destruct (po_split _ _ PO) as (rest & EP).
  assert (find_point 155 J c state begin 0 = Ok (l_find pts m out off begin)) as ->.
  { refine (find_point_ok J c m state out off begin rest HJ HC C O _ B pts [] 155 EP _ (po_pos _ _ PO)); [lia|]. pose proof (po_max _ _ PO) as Y. unfold zlen in Y. lia. }
  cbn [bind]. destruct (l_find pts m out off begin) as [p|].
  - destruct ((p <? 12) || (16384 <=? p)) eqn:G3; [apply agree_none|]. rewrite pointer_word by lia.
    eapply then_agree; [apply adduint16_agree; [eassumption|lia]|]. intros a b Hab E1. rewrite (dlabel_length_list c m off HC) by lia. cbn [bind]. change JS_ERROR with (-1).
    destruct (len_at m off =? -1) eqn:G4; [apply agree_none|]. destruct (l_len_some m off _ ltac:(lia) eq_refl ltac:(lia) ltac:(lia)). destruct ((zlen m <? off + len_at m off) || (j_max c <=? off + len_at m off)) eqn:G5; [apply agree_none|].
    unfold l_add in E1. match type of E1 with (if ?b then _ else _) = _ => destruct b; [|discriminate] end. apply some_inj in E1. apply agree_some. split; [reflexivity|].
    constructor; cbn [snd k_comp k_off k_points l_out l_off l_pts]; try assumption; try lia. rewrite <- E1, zlen_app, zlen_be. lia.
  - eapply then_agree; [apply substr_append_agree; try eassumption; lia|]. intros a b Hab E1. apply l_take_some in E1 as (E1 & E2 & E3 & E4). apply agree_some. split; [reflexivity|].
    constructor; cbn [snd k_comp k_off k_points l_out l_off l_pts]; try assumption; try lia. rewrite E3, zlen_app. pose proof (zlen_nonneg (zslice m off (len + 1))). lia.
Qed.
Fixpoint l_comp (n : nat) (mx : Z) (m : list Z) (st : ls) (begin : Z) : option (Z * ls) :=
  match n with
  | O => None
  | S n => obind (l_sub mx m st begin) (fun '(ret, st) => if ret =? 1 then l_comp n mx m st begin else Some (ret, st))
  end.
Lemma l_sub_one mx m st begin st' : l_sub mx m st begin = Some (1, st') -> bytes m -> l_off st < l_off st' < zlen m.
Proof.
  destruct st as [out off pts]. cbn [l_off]. unfold l_sub. destruct (zget m off) as [len|] eqn:E; [|discriminate]. intros X BM. pose proof (zget_bytes _ _ _ BM E) as BL. unfold byte in BL. revert X.
  destruct (len =? 0) eqn:G0. { destruct (l_take 4100 m out off 1); [|discriminate]. cbn [obind]. destruct (mx <=? off + 1); discriminate. }
  destruct (63 <? len); [discriminate|]. destruct ((zlen m <=? off + len + 1) || (mx <=? off + len + 1)) eqn:G2; [discriminate|]. destruct (l_find pts m out off begin).
  - destruct ((z <? 12) || (16384 <=? z)); [discriminate|]. destruct (l_add 4100 out (be 2 (49152 + z))); [|discriminate]. cbn [obind]. cbv zeta. destruct (len_at m off =? -1); [discriminate|]. destruct ((zlen m <? off + len_at m off) || (mx <=? off + len_at m off)); [discriminate|].
    destruct (off + len_at m off =? zlen m); discriminate.
  - destruct (l_take 4100 m out off (len + 1)); [|discriminate]. cbn [obind]. intros X. injection X as <-. cbn [l_off]. lia.
Qed.
Lemma comp_agree : forall n J k c m state st begin, junk_ok J -> holding c m -> same_state k m state st -> begin < 2147483648 -> zlen m - l_off st < Z.of_nat n ->
  agree (same_state2 k m) (sub_loop n J c state begin) (l_comp n (j_max c) m st begin).
Proof.
  induction n as [|n IH]; intros J k c m state st begin HJ HC S B N; [pose proof (ss_range _ _ _ _ S); lia|]. cbn [sub_loop l_comp].
  eapply agree_bind; [apply sub_agree; eassumption|]. intros (r & s1) (r' & t1) (E & S1) E1. cbn [fst snd] in E, S1. subst r'. destruct (Z.eqb_spec r 1) as [->|NE].
  - apply IH; try assumption. apply l_sub_one in E1; [lia|]. apply (fa_bytes _ _ (hold_facts _ _ HC)).
  - apply agree_some. split; [reflexivity|exact S1].
Qed.
Definition l_cname (mx : Z) (m : list Z) (st : ls) : option ls :=
  obind (l_comp (S (Z.to_nat (zlen m))) mx m st (l_off st)) (fun '(ret, st') => if ret =? 3 then Some st' else l_add_points st' (zlen (l_out st))).
Lemma cname_agree J c m state st : junk_ok J -> holding c m -> same_state 12 m state st -> agree (same_state 12 m) (compress_dlabel J c state) (l_cname (j_max c) m st).
Proof.
  intros HJ HC S. pose proof (hold_facts c m HC) as [Wa Sa La Ca Ma Na Ba Xa Ua Oa Ga Sla]. pose proof (ss_range _ _ _ _ S) as R. pose proof (ss_head _ _ _ _ S) as H. unfold compress_dlabel, l_cname. cbv zeta. rewrite <- La, (ss_off _ _ _ _ S).
  rewrite <- (fa_len _ _ (hold_facts _ _ (proj1 (ss_comp _ _ _ _ S)))).
  eapply agree_bind; [apply comp_agree; try eassumption; lia|]. intros (r & s1) (r' & t1) (E & S1) _. cbn [fst snd] in E, S1. subst r'. destruct (r =? 3); [apply agree_some, S1|]. apply add_points_agree; [exact S1|lia].
Qed.
