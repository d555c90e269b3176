(** Names in text form (dns/Queries.c hname_2rfc1035, email_2rfc1035, hname_translate, email_translate). *)
From Verif Require Import CBase Bits ModelDwStr SpecDwStr ProofDwStr SpecNames SpecMessage SpecAcl SpecQuery ModelJsStr SpecJsStr ProofJsStr ProofJsSearch
  ModelQueries SpecQueries ProofQueries.

(** ** Strings of octets *)
Lemma wr_here pre x post v : wr (pre ++ x :: post) (zlen pre) v = Ok (pre ++ v :: post).
Proof.
  pose proof (zlen_nonneg pre). pose proof (zlen_nonneg post). rewrite wr_ok by (rewrite zlen_app, zlen_cons; lia).
  f_equal. unfold zupd. replace (zlen pre <? 0) with false by lia.
  unfold zlen. rewrite Nat2Z.id. clear. induction pre as [|a pre IH]; cbn; [reflexivity|]. f_equal. apply IH.
Qed.
Lemma rd_here pre x post : rd (pre ++ x :: post) (zlen pre) = Ok x.
Proof. apply rd_of_zget. rewrite zget_app_r by lia. rewrite Z.sub_diag. reflexivity. Qed.
Lemma holding_mem s l : holding s l -> j_count s = zlen l /\ exists r, j_mem s = l ++ r /\ zlen l + zlen r = j_max s + 3.
Proof.
  intros (W & S1 & O). pose proof (zlen_octets s W) as L. rewrite O, S1 in L. split; [lia|].
  exists (skipn (Z.to_nat (j_count s)) (j_mem s)). pose proof (jw_mem s W) as LM. rewrite S1 in LM.
  assert (l ++ skipn (Z.to_nat (j_count s)) (j_mem s) = j_mem s) as E.
  { rewrite <- O. unfold octets_of, zslice. rewrite S1, Z.mul_1_l. change (Z.to_nat 0) with 0%nat. cbn [skipn]. apply firstn_skipn. }
  split; [symmetry; exact E|]. rewrite <- zlen_app, E. lia.
Qed.
Lemma hold_new s m n l r : j_wf s -> j_size s = 1 -> m = l ++ r -> bytes m -> zlen m = zlen (j_mem s) -> n = zlen l -> n <= j_max s ->
  holding (set_count (set_mem s m) n) l.
Proof.
  intros W S1 -> B L -> N. unfold set_count, set_mem. cbn [j_mem j_size j_count j_max j_enc]. pose proof (jw_mem s W) as LM. pose proof (jw_small s W) as SM.
  rewrite S1 in *. pose proof (zlen_nonneg l). split; [|split].
  - constructor; cbn [j_mem j_size j_count j_max j_enc]; try lia. exact B.
  - reflexivity.
  - unfold octets_of. cbn [j_mem j_size j_count]. rewrite Z.mul_1_l, zslice_app_l by lia. apply zslice_all; lia.
Qed.
Lemma set_count_id s : set_count s (j_count s) = s. Proof. destruct s; reflexivity. Qed.
Lemma set_count_set_mem s m : set_count (set_mem s m) (j_count s) = set_mem s m. Proof. reflexivity. Qed.
Lemma wf_set_mem s m : j_wf s -> bytes m -> zlen m = zlen (j_mem s) -> j_wf (set_mem s m).
Proof. intros W B L. destruct W. constructor; cbn [set_mem j_mem j_size j_count j_max j_enc]; try assumption. congruence. Qed.
Lemma wf_set_count s n : j_wf s -> 0 <= n <= j_max s -> j_wf (set_count s n).
Proof. intros W N. destruct W. constructor; cbn [set_count j_mem j_size j_count j_max j_enc]; assumption. Qed.

(** ** Splitting at dots *)
Lemma split_dots b : exists n t, b = dots n ++ t /\ dotless n /\ ~ In 46 t.
Proof.
  induction b as [|x b (n & t & -> & D & T)].
  - exists [], []. repeat split; [constructor|intros []].
  - destruct (Z.eq_dec x 46) as [-> |X].
    + exists ([] :: n), t. repeat split; [|exact T]. constructor; [constructor|exact D].
    + destruct n as [|l n].
      * exists [], (x :: t). repeat split; [constructor|]. intros [H|H]; [congruence|contradiction].
      * exists ((x :: l) :: n), t. repeat split; [|exact T]. apply Forall_cons_iff in D as (D1 & D2). constructor; [constructor; assumption|exact D2].
Qed.
Lemma dots_cons l n : dots (l :: n) = l ++ 46 :: dots n.
Proof. unfold dots. cbn [map concat]. rewrite <- app_assoc. reflexivity. Qed.
Lemma labels_cons l n : labels (l :: n) = zlen l :: l ++ labels n.
Proof. reflexivity. Qed.
Lemma wire_labels n : wire n = labels n ++ [0].
Proof. induction n as [|l n IH]; [reflexivity|]. cbn [wire]. rewrite labels_cons, IH. cbn [app]. rewrite <- app_assoc. reflexivity. Qed.
Lemma zlen_dots_labels n : zlen (dots n) = zlen (labels n).
Proof. induction n as [|l n IH]; [reflexivity|]. rewrite dots_cons, labels_cons, zlen_app, !zlen_cons, zlen_app, IH. lia. Qed.
Lemma text_dots n : n <> [] -> text n = dots n.
Proof. destruct n; [congruence|reflexivity]. Qed.

(** ** The loop that turns dots into lengths *)
Definition sep (fa : bool) : Z := if fa then 64 else 46.
Lemma ll_chunk l : forall F count fa mem counter seen tw, ~ In (sep fa) l -> 0 <= counter ->
  (forall i, 0 <= i < zlen l -> zget mem (counter + 1 + i) = zget l i) -> counter + zlen l < count - 1 -> counter + zlen l <= 256 ->
  lengths_loop (length l + F) count fa mem counter seen tw = lengths_loop F count fa mem (counter + zlen l) (seen + zlen l) tw.
Proof.
  induction l as [|x l IH]; intros F count fa mem counter seen tw NI C G CC C2.
  - change (zlen (@nil Z)) with 0. rewrite !Z.add_0_r. reflexivity.
  - rewrite zlen_cons in *. pose proof (zlen_nonneg l). cbn [length Nat.add lengths_loop]. replace ((counter <? 256) && (counter <? count)) with true by lia. cbv zeta.
    assert (zget mem (counter + 1) = Some x) as G0 by (specialize (G 0 ltac:(lia)); rewrite Z.add_0_r in G; exact G).
    rewrite (rd_of_zget _ _ _ G0). cbn [bind]. change (if fa then 64 else 46) with (sep fa).
    destruct (Z.eqb_spec x (sep fa)) as [-> |_]; [exfalso; apply NI; left; reflexivity|].
    replace (counter + 1 =? count - 1) with false by lia. rewrite IH.
    + f_equal; lia.
    + intros I. apply NI. right. exact I.
    + lia.
    + intros i Hi. specialize (G (1 + i) ltac:(lia)). replace (counter + 1 + 1 + i) with (counter + 1 + (1 + i)) by lia. rewrite G. rewrite zget_cons_S by lia. f_equal. lia.
    + lia.
    + lia.
Qed.
(** the last octets *)
Lemma ll_end l : forall F count fa mem counter seen tw, ~ In (sep fa) l -> l <> [] -> 0 <= counter -> (length l <= F)%nat ->
  (forall i, 0 <= i < zlen l -> zget mem (counter + 1 + i) = zget l i) -> counter + zlen l = count - 1 -> counter + zlen l <= 256 ->
  lengths_loop F count fa mem counter seen tw = Ok (true, fa, count - 1, mem).
Proof.
  induction l as [|x l IH]; intros F count fa mem counter seen tw NI NE C FF G CC C2; [congruence|].
  rewrite zlen_cons in *. pose proof (zlen_nonneg l). destruct F as [|F]; [cbn in FF; lia|]. cbn [lengths_loop].
  replace ((counter <? 256) && (counter <? count)) with true by lia. cbv zeta.
  assert (zget mem (counter + 1) = Some x) as G0 by (specialize (G 0 ltac:(lia)); rewrite Z.add_0_r in G; exact G).
  rewrite (rd_of_zget _ _ _ G0). cbn [bind]. change (if fa then 64 else 46) with (sep fa).
  destruct (Z.eqb_spec x (sep fa)) as [-> |_]; [exfalso; apply NI; left; reflexivity|].
  destruct l as [|y l].
  - replace (counter + 1 =? count - 1) with true by (change (zlen (@nil Z)) with 0 in *; lia). change (zlen (@nil Z)) with 0 in *. do 3 f_equal. lia.
  - rewrite zlen_cons in *. pose proof (zlen_nonneg l). replace (counter + 1 =? count - 1) with false by lia. apply IH.
    + intros I. apply NI. right. exact I.
    + discriminate.
    + lia.
    + cbn [length] in FF |- *. lia.
    + intros i Hi. specialize (G (1 + i) ltac:(lia)). replace (counter + 1 + 1 + i) with (counter + 1 + (1 + i)) by lia. rewrite G. rewrite zget_cons_S by lia. f_equal. lia.
    + lia.
    + lia.
Qed.

Lemma zget_mid pre l post i : 0 <= i < zlen l -> zget (pre ++ l ++ post) (zlen pre + i) = zget l i.
Proof. intros H. pose proof (zlen_nonneg pre). rewrite zget_app_r by lia. replace (zlen pre + i - zlen pre) with i by lia. apply zget_app_l. lia. Qed.
Definition after (x : Z) (n : name) : list Z := match n with [] => [x] | _ => labels n ++ [46] end.
Definition label_len (l : list Z) : bool := (1 <=? zlen l) && (zlen l <=? 63).
Lemma ll_labels n : forall F count pre x t rest, dotless n -> ~ In 46 t -> (dots n ++ t) <> [] ->
  count - 1 = zlen pre + zlen (dots n) + zlen t -> count <= 257 -> (length (dots n ++ t) <= F)%nat ->
  exists ok c m, lengths_loop F count false (pre ++ x :: dots n ++ t ++ rest) (zlen pre) 0 (zlen pre) = Ok (ok, false, c, m) /\
    (if forallb label_len n then ok = true /\ c = count - 1 /\ m = pre ++ after x n ++ t ++ rest else ok = false).
Proof.
  induction n as [|l n IH]; intros F count pre x t rest D T NE CC C2 FF.
  - cbn [dots concat map app] in *. change (dots []) with (@nil Z) in *. change (zlen (@nil Z)) with 0 in *. cbn [app] in NE, FF.
    exists true, (count - 1), (pre ++ x :: t ++ rest). split; [|cbn [forallb after app]; split; [reflexivity|split; reflexivity]].
    pose proof (zlen_nonneg pre). apply (ll_end t); try assumption; try lia.
    intros i Hi. change (x :: t ++ rest) with ([x] ++ (t ++ rest)). rewrite app_assoc.
    replace (zlen pre + 1 + i) with (zlen (pre ++ [x]) + i) by (rewrite zlen_app; change (zlen [x]) with 1; lia). apply zget_mid, Hi.
  - apply Forall_cons_iff in D as (D1 & D2). rewrite dots_cons, zlen_app, zlen_cons in *. pose proof (zlen_nonneg pre). pose proof (zlen_nonneg l). pose proof (zlen_nonneg (dots n)). pose proof (zlen_nonneg t).
    assert (F = (length l + (1 + (F - length l - 1)))%nat) as EF.
    { rewrite app_length, app_length in FF. cbn [length] in FF. lia. }
    rewrite EF, (ll_chunk l) by (try (intros I; cbn [sep] in I; exact (proj1 (Forall_forall _ _) D1 _ I eq_refl)); try lia;
      intros i Hi; rewrite <- app_assoc; change (x :: l ++ (46 :: dots n) ++ t ++ rest) with ([x] ++ l ++ ((46 :: dots n) ++ t ++ rest)); rewrite app_assoc;
      replace (zlen pre + 1 + i) with (zlen (pre ++ [x]) + i) by (rewrite zlen_app; change (zlen [x]) with 1; lia); apply zget_mid, Hi).
    rewrite Z.add_0_l. cbn [Nat.add lengths_loop]. replace ((zlen pre + zlen l <? 256) && (zlen pre + zlen l <? count)) with true by lia. cbv zeta.
    set (mem := pre ++ x :: (l ++ 46 :: dots n) ++ t ++ rest).
    assert (mem = (pre ++ x :: l) ++ 46 :: (dots n ++ t ++ rest)) as EM by (unfold mem; rewrite <- ?app_assoc; cbn [app]; rewrite <- ?app_assoc; reflexivity).
    assert (zget mem (zlen pre + zlen l + 1) = Some 46) as G.
    { rewrite EM. replace (zlen pre + zlen l + 1) with (zlen (pre ++ x :: l) + 0) by (rewrite zlen_app, zlen_cons; lia). rewrite zget_app_r by (rewrite zlen_app, zlen_cons; lia).
      rewrite Z.add_0_r, Z.sub_diag. reflexivity. }
    rewrite (rd_of_zget _ _ _ G). cbn [bind]. change (46 =? 46) with true. cbv match.
    cbn [forallb]. unfold label_len at 1. destruct ((zlen l <? 1) || (63 <? zlen l)) eqn:LL.
    { replace ((1 <=? zlen l) && (zlen l <=? 63)) with false by lia. cbn [andb]. do 3 eexists. split; reflexivity. }
    replace ((1 <=? zlen l) && (zlen l <=? 63)) with true by lia. cbn [andb].
    unfold mem. rewrite wr_here. cbn [bind].
    assert (pre ++ zlen l :: (l ++ 46 :: dots n) ++ t ++ rest = (pre ++ zlen l :: l) ++ 46 :: dots n ++ t ++ rest) as EM2 by (rewrite <- ?app_assoc; cbn [app]; rewrite <- ?app_assoc; reflexivity).
    assert (zlen (pre ++ zlen l :: l) = zlen pre + zlen l + 1) as LP by (rewrite zlen_app, zlen_cons; lia).
    destruct (Z.eqb_spec (zlen pre + zlen l + 1) (count - 1)) as [E|NE2].
    + assert (dots n = [] /\ t = []) as (E1 & E2).
      { assert (zlen (dots n) = 0 /\ zlen t = 0) as (Z1 & Z2) by lia. unfold zlen in Z1, Z2. split; apply length_zero_iff_nil; lia. }
      assert (n = []) as -> by (destruct n as [|l' n']; [reflexivity|rewrite dots_cons in E1; destruct l'; discriminate]).
      subst t. do 3 eexists. split; [reflexivity|]. cbn [forallb after]. split; [reflexivity|]. split; [lia|]. rewrite labels_cons.
      change (labels []) with (@nil Z). rewrite app_nil_r. cbn [app]. change (dots []) with (@nil Z). rewrite <- app_assoc. reflexivity.
    + rewrite EM2. rewrite <- LP.
      destruct (IH (F - length l - 1)%nat count (pre ++ zlen l :: l) 46 t rest) as (ok & c & m & -> & R); try assumption.
      * intros E. apply app_eq_nil in E as (E1 & E2). rewrite E1, E2 in *. change (zlen (@nil Z)) with 0 in *. lia.
      * rewrite LP. lia.
      * rewrite app_length in FF |- *. rewrite app_length in FF. cbn [length] in FF. lia.
      * do 3 eexists. split; [reflexivity|]. destruct (forallb label_len n); [|exact R]. destruct R as (R1 & R2 & ->). split; [exact R1|]. split; [exact R2|].
        rewrite <- app_assoc. f_equal. cbn [after]. rewrite labels_cons. cbn [app]. f_equal. rewrite <- !app_assoc. f_equal.
        destruct n as [|l' n']; [reflexivity|]. cbn [after]. rewrite <- app_assoc. reflexivity.
Qed.

(** Nothing goes wrong on any string *)
Lemma ll_safe F : forall count fa mem counter seen tw, bytes mem -> count < zlen mem -> 0 <= counter <= 256 -> 0 <= tw <= counter -> 0 <= seen -> 256 - counter < Z.of_nat F -> counter <= count ->
  exists ok fa' c m, lengths_loop F count fa mem counter seen tw = Ok (ok, fa', c, m) /\ bytes m /\ zlen m = zlen mem /\ counter <= c <= 256 /\ c <= count /\
    (ok = true -> counter < count - 1 -> c = Z.min 256 (count - 1)) /\ (fa = false -> fa' = false) /\ (fa' = true -> m = mem).
Proof.
  induction F as [|F IH]; intros count fa mem counter seen tw B L C TW S FF CC; [lia|]. cbn [lengths_loop].
  destruct ((counter <? 256) && (counter <? count)) eqn:G.
  2:{ do 4 eexists. split; [reflexivity|]. repeat split; try assumption; try lia; tauto. }
  cbv zeta. destruct (zget_some mem (counter + 1) ltac:(lia)) as (b & E). rewrite (rd_of_zget _ _ _ E). cbn [bind].
  destruct (b =? (if fa then 64 else 46)) eqn:EB.
  - destruct ((seen <? 1) || (63 <? seen)) eqn:ES.
    { do 4 eexists. split; [reflexivity|]. repeat split; try assumption; try lia; try discriminate; try tauto. }
    rewrite wr_ok by lia. cbn [bind].
    assert (bytes (zupd mem tw seen)) as B2 by (apply bytes_zupd; [exact B|unfold byte; lia]).
    assert (zlen (zupd mem tw seen) = zlen mem) as L2 by apply zlen_zupd.
    destruct (Z.eqb_spec (counter + 1) (count - 1)) as [EC|NC].
    { do 4 eexists. split; [reflexivity|]. repeat split; try assumption; try lia; try discriminate; try tauto. }
    destruct (IH count false (zupd mem tw seen) (counter + 1) 0 (counter + 1)) as (ok & fa' & c & m & -> & R1 & R2 & R3 & R4 & R5 & R6 & R7); try assumption; try lia.
    do 4 eexists. split; [reflexivity|]. repeat split; try assumption; try lia; try tauto. intros X. rewrite R6 in X by reflexivity. discriminate.
  - destruct (Z.eqb_spec (counter + 1) (count - 1)) as [EC|NC].
    { do 4 eexists. split; [reflexivity|]. repeat split; try assumption; try lia; try discriminate; try tauto. }
    destruct (IH count fa mem (counter + 1) (seen + 1) tw) as (ok & fa' & c & m & -> & R1 & R2 & R3 & R4 & R5 & R6 & R7); try assumption; try lia.
    do 4 eexists. split; [reflexivity|]. repeat split; try assumption; try lia; try tauto.
Qed.

(** ** hname_2rfc1035 *)
Lemma type_letters c ty : type_of c = Some ty <-> In (c, ty) letters.
Proof.
  unfold type_of, letters. split.
  - intros H. repeat match type of H with (if ?a =? ?b then _ else _) = _ => destruct (Z.eqb_spec a b) as [-> |]; [injection H as <-; cbn [In]; tauto|] end. discriminate.
  - intros H. cbn [In] in H. repeat destruct H as [H|H]; try contradiction; injection H as <- <-; reflexivity.
Qed.
Lemma good_lens n : good_name n -> forallb label_len n = true.
Proof. intros G. apply forallb_forall. intros l I. destruct (proj1 (Forall_forall _ _) G l I) as (H & _). unfold label_len. lia. Qed.
Lemma bytes_dots n : bytes (dots n) -> Forall bytes n.
Proof.
  induction n as [|l n IH]; intros B; [constructor|]. rewrite dots_cons in B. apply bytes_app in B as (B1 & B2). apply Forall_cons_iff in B2 as (_ & B2).
  constructor; [exact B1|apply IH, B2].
Qed.
Lemma lens_good n : forallb label_len n = true -> Forall bytes n -> good_name n.
Proof.
  intros L B. unfold good_name. apply Forall_forall. intros l I. rewrite forallb_forall in L. specialize (L l I). unfold label_len in L. split; [lia|].
  exact (proj1 (Forall_forall _ _) B l I).
Qed.
Lemma bytes_labels n : good_name n -> bytes (labels n).
Proof.
  induction n as [|l n IH]; intros G; [constructor|]. apply Forall_cons_iff in G as ((G1 & G2) & G). rewrite labels_cons.
  constructor; [unfold byte; lia|]. apply bytes_app. split; [exact G2|apply IH, G].
Qed.

Section Start.
Variables (s : js) (c : Z) (b : list Z).
Hypothesis H : holding s (c :: b).
Lemma st_mem : exists r, j_mem s = c :: b ++ r /\ bytes r /\ bytes b /\ byte c /\ j_count s = 1 + zlen b /\ zlen b + zlen r + 1 = j_max s + 3 /\ zlen b + 1 <= j_max s.
Proof.
  destruct (holding_mem s _ H) as (C & r & E & L). destruct H as (W & S1 & _). exists r. pose proof (jw_bytes s W) as B. rewrite E in B.
  cbn [app] in B. apply Forall_cons_iff in B as (B1 & B2). apply bytes_app in B2 as (B2 & B3). rewrite zlen_cons in *. pose proof (jw_count s W).
  split; [exact E|]. split; [exact B3|]. split; [exact B2|]. split; [exact B1|]. split; [lia|]. split; lia.
Qed.
End Start.

Lemma hname_good star s c ty n : holding s (c :: dots n) -> type_of c = Some ty -> n <> [] -> good_name n -> dotless n -> zlen (dots n) <= 255 ->
  exists s', hname_2rfc1035 star s = Ok (ty, s') /\ holding s' (wire n) /\ j_max s' = j_max s.
Proof.
  intros H T NE G D L. destruct (st_mem s c (dots n) H) as (r & EM & BR & BB & BC & EC & LL & LM). destruct H as (W & S1 & _).
  unfold hname_2rfc1035. rewrite octet_ok by assumption. cbn [negb]. pose proof (zlen_nonneg (dots n)). replace (j_count s <? 1) with false by lia.
  rewrite EM. change (rd (c :: dots n ++ r) 0) with (Ok c). cbn [bind]. rewrite T.
  destruct n as [|l n]; [congruence|]. pose proof (good_lens _ G) as GL.
  assert (2 <= zlen (dots (l :: n))) as L2.
  { rewrite dots_cons, zlen_app, zlen_cons. cbn [forallb] in GL. unfold label_len in GL. pose proof (zlen_nonneg (dots n)). lia. }
  destruct (zget_some (c :: dots (l :: n) ++ r) 1) as (b1 & E1).
  { rewrite zlen_cons, zlen_app. pose proof (zlen_nonneg r). lia. }
  rewrite (rd_of_zget _ _ _ E1). cbn [bind]. replace (j_count s =? 2) with false by lia. rewrite !andb_false_r. cbn [andb].
  destruct (ll_labels (l :: n) 258 (j_count s) [] c [] r) as (ok & cc & m & R & RR); try assumption.
  { intros []. }
  { rewrite app_nil_r. destruct (dots (l :: n)); [cbn in L2; lia|discriminate]. }
  { change (zlen (@nil Z)) with 0. lia. }
  { lia. }
  { rewrite app_nil_r. unfold zlen in L. lia. }
  cbn [app] in R. change (zlen (@nil Z)) with 0 in R. rewrite R. cbn [bind]. rewrite GL in RR. destruct RR as (-> & -> & ->). cbn [negb].
  replace (j_count s - 1 <? 256) with true by lia. cbn [negb app after].
  assert ((labels (l :: n) ++ [46]) ++ r = labels (l :: n) ++ 46 :: r) as EA by (rewrite <- app_assoc; reflexivity). rewrite EA.
  replace (j_count s - 1) with (zlen (labels (l :: n))) by (rewrite <- zlen_dots_labels; lia).
  rewrite rd_here. cbn [bind]. change (46 =? 46) with true. cbv match. rewrite wr_here. cbn [bind].
  eexists. split; [reflexivity|]. split; [|reflexivity]. rewrite <- set_count_set_mem. apply (hold_new s _ _ _ r); try assumption.
  - rewrite wire_labels, <- app_assoc. reflexivity.
  - apply bytes_app. split; [apply bytes_labels, G|]. constructor; [unfold byte; lia|exact BR].
  - rewrite EM, zlen_cons, !zlen_app, zlen_cons, zlen_dots_labels. lia.
  - rewrite wire_labels, zlen_app. change (zlen [0]) with 1. rewrite <- zlen_dots_labels. lia.
  - lia.
Qed.
Lemma hname_root star s c ty : holding s [c; 46] -> type_of c = Some ty -> exists s', hname_2rfc1035 star s = Ok (ty, s') /\ holding s' (wire []) /\ j_max s' = j_max s.
Proof.
  intros H T. destruct (st_mem s c [46] H) as (r & EM & BR & BB & BC & EC & LL & LM). destruct H as (W & S1 & _). change (zlen [46]) with 1 in *.
  unfold hname_2rfc1035. rewrite octet_ok by assumption. cbn [negb]. replace (j_count s <? 1) with false by lia.
  rewrite EM. cbn [app]. change (rd (c :: 46 :: r) 0) with (Ok c). cbn [bind]. rewrite T. change (rd (c :: 46 :: r) 1) with (Ok 46). cbn [bind].
  replace (j_count s =? 2) with true by lia. change (46 =? 46) with true. cbn [andb]. rewrite (wr_here [] c (46 :: r) 0 : wr (c :: 46 :: r) 0 0 = _). cbn [bind app].
  eexists. split; [reflexivity|]. split; [|reflexivity]. apply (hold_new s _ _ _ (46 :: r)); try assumption; try reflexivity.
  - constructor; [unfold byte; lia|]. constructor; [unfold byte; lia|exact BR].
  - rewrite EM. rewrite !zlen_cons. rewrite zlen_app. change (zlen [46]) with 1. lia.
  - lia.
Qed.
(** The names with a star at the end *)
Lemma hname_star s c ty n : holding s (c :: dots n ++ [42]) -> type_of c = Some ty -> good_name n -> dotless n -> zlen (dots n) <= 254 ->
  exists s', hname_2rfc1035 1 s = Ok (ty, s') /\ holding s' (labels n ++ [95]) /\ j_max s' = j_max s.
Proof.
  intros H T G D L. destruct (st_mem s c _ H) as (r & EM & BR & BB & BC & EC & LL & LM). destruct H as (W & S1 & _).
  rewrite zlen_app in *. change (zlen [42]) with 1 in *.
  unfold hname_2rfc1035. rewrite octet_ok by assumption. cbn [negb]. pose proof (zlen_nonneg (dots n)). replace (j_count s <? 1) with false by lia.
  rewrite EM. change (rd (c :: (dots n ++ [42]) ++ r) 0) with (Ok c). cbn [bind]. rewrite T. pose proof (good_lens _ G) as GL.
  destruct n as [|l n].
  { change (dots []) with (@nil Z) in *. cbn [app] in *. change (rd (c :: 42 :: r) 1) with (Ok 42). cbn [bind]. change (zlen (@nil Z)) with 0 in *.
    replace (j_count s =? 2) with true by lia. change (42 =? 46) with false. change (42 =? 42) with true. change (1 =? 1) with true. cbn [andb].
    rewrite (wr_here [] c (42 :: r) 95 : wr (c :: 42 :: r) 0 95 = _). cbn [bind app].
    eexists. split; [reflexivity|]. split; [|reflexivity]. apply (hold_new s _ _ _ (42 :: r)); try assumption; try reflexivity.
    - constructor; [unfold byte; lia|]. constructor; [unfold byte; lia|exact BR].
    - rewrite EM. rewrite !zlen_cons. lia.
    - lia. }
  assert (2 <= zlen (dots (l :: n))) as L2.
  { rewrite dots_cons, zlen_app, zlen_cons. cbn [forallb] in GL. unfold label_len in GL. pose proof (zlen_nonneg (dots n)). lia. }
  destruct (zget_some (c :: (dots (l :: n) ++ [42]) ++ r) 1) as (b1 & E1).
  { rewrite zlen_cons, !zlen_app. pose proof (zlen_nonneg r). change (zlen [42]) with 1. lia. }
  rewrite (rd_of_zget _ _ _ E1). cbn [bind]. replace (j_count s =? 2) with false by lia. rewrite !andb_false_r. cbn [andb].
  destruct (ll_labels (l :: n) 258 (j_count s) [] c [42] r) as (ok & cc & m & R & RR); try assumption.
  { intros [X|[]]. discriminate. }
  { intros X. apply app_eq_nil in X as (_ & X). discriminate. }
  { change (zlen (@nil Z)) with 0. change (zlen [42]) with 1. lia. }
  { lia. }
  { rewrite app_length. cbn [length]. unfold zlen in L. lia. }
  cbn [app] in R. change (zlen (@nil Z)) with 0 in R. rewrite <- app_assoc. cbn [app]. rewrite R. cbn [bind]. rewrite GL in RR. destruct RR as (-> & -> & ->). cbn [negb].
  replace (j_count s - 1 <? 256) with true by lia. cbn [negb app after].
  assert (zlen (labels (l :: n) ++ [46]) = j_count s - 1) as LA by (rewrite zlen_app, <- zlen_dots_labels; change (zlen [46]) with 1; lia). 
  assert (rd ((labels (l :: n) ++ [46]) ++ 42 :: r) (j_count s - 1) = Ok 42) as RX by (rewrite <- LA; apply rd_here).
  rewrite RX. cbn [bind]. change (42 =? 46) with false. change (42 =? 42) with true. change (1 =? 1) with true.
  replace (1 <? j_count s - 1) with true by lia. replace (1 <? j_count s) with true by lia. cbn [andb].
  assert ((labels (l :: n) ++ [46]) ++ 42 :: r = labels (l :: n) ++ 46 :: 42 :: r) as EA2 by (rewrite <- app_assoc; reflexivity). rewrite EA2.
  replace (j_count s - 1 - 1) with (zlen (labels (l :: n))) by (rewrite <- zlen_dots_labels; lia).
  rewrite wr_here. cbn [bind]. eexists. split; [reflexivity|]. split; [|reflexivity]. apply (hold_new s _ _ _ (42 :: r)); try assumption.
  - rewrite <- app_assoc. reflexivity.
  - apply bytes_app. split; [apply bytes_labels, G|]. constructor; [unfold byte; lia|]. constructor; [unfold byte; lia|exact BR].
  - rewrite EM, zlen_cons, !zlen_app, !zlen_cons, zlen_dots_labels. change (zlen (@nil Z)) with 0. lia.
  - rewrite zlen_app. change (zlen [95]) with 1. rewrite <- zlen_dots_labels. lia.
  - lia.
Qed.

Lemma ll_one F c x r : lengths_loop (S (S F)) 1 false (c :: x :: r) 0 0 0 = if x =? 46 then Ok (false, false, 1, c :: x :: r) else Ok (true, false, 1, c :: x :: r).
Proof. cbn [lengths_loop]. change (rd (c :: x :: r) (0 + 1)) with (Ok x). cbn -[Z.eqb]. destruct (x =? 46); reflexivity. Qed.
Lemma hname_exact s t : holding s t ->
  exists r s', hname_2rfc1035 0 s = Ok (r, s') /\ j_wf s' /\ j_size s' = 1 /\ j_max s' = j_max s /\
    (r <> -1 -> r <> -2 -> exists c n, t = c :: text n /\ type_of c = Some r /\ text_ok n).
Proof.
  intros H. assert (j_wf s /\ j_size s = 1) as (W & S1) by (destruct H as (? & ? & _); tauto).
  destruct t as [|c b].
  { destruct (holding_mem s _ H) as (C & _). change (zlen (@nil Z)) with 0 in C. unfold hname_2rfc1035. rewrite octet_ok by assumption. cbn [negb].
    replace (j_count s <? 1) with true by lia. do 2 eexists. split; [reflexivity|]. split; [exact W|]. split; [exact S1|]. split; [reflexivity|]. unfold JS_ERROR. congruence. }
  destruct (zlist_eq_dec b [46]) as [-> |NR].
  { destruct (type_of c) as [ty|] eqn:T.
    - destruct (hname_root 0 s c ty H T) as (s' & -> & (W' & S' & _) & M). do 2 eexists. split; [reflexivity|]. split; [exact W'|]. split; [exact S'|]. split; [exact M|].
      intros _ _. exists c, []. split; [reflexivity|]. split; [exact T|]. split; [constructor|]. split; [constructor|]. vm_compute. discriminate.
    - destruct (st_mem s c _ H) as (r & EM & BR & BB & BC & EC & LL & LM). change (zlen [46]) with 1 in *. unfold hname_2rfc1035. rewrite octet_ok by assumption. cbn [negb].
      replace (j_count s <? 1) with false by lia. rewrite EM. change (rd (c :: [46] ++ r) 0) with (Ok c). cbn [bind]. rewrite T.
      do 2 eexists. split; [reflexivity|]. split; [exact W|]. split; [exact S1|]. split; [reflexivity|]. congruence. }
  destruct (st_mem s c b H) as (r & EM & BR & BB & BC & EC & LL & LM). pose proof (zlen_nonneg b).
  destruct (type_of c) as [ty|] eqn:T.
  2:{ unfold hname_2rfc1035. rewrite octet_ok by assumption. cbn [negb]. replace (j_count s <? 1) with false by lia. rewrite EM. change (rd (c :: b ++ r) 0) with (Ok c). cbn [bind]. rewrite T.
      do 2 eexists. split; [reflexivity|]. split; [exact W|]. split; [exact S1|]. split; [reflexivity|]. congruence. }
  destruct (split_dots b) as (n & t & -> & D & NT).
  destruct (Z.leb_spec (zlen (dots n ++ t)) 255) as [L|L].
  - destruct (list_eq_dec Z.eq_dec t []) as [-> |NET].
    + rewrite app_nil_r in *. destruct (forallb label_len n) eqn:GL; [destruct n as [|l n]|].
      * (* the empty text *) change (dots []) with (@nil Z) in *. cbn [app] in *. change (zlen (@nil Z)) with 0 in *.
        unfold hname_2rfc1035. rewrite octet_ok by assumption. cbn [negb]. replace (j_count s <? 1) with false by lia. rewrite EM.
        change (rd (c :: r) 0) with (Ok c). cbn [bind]. rewrite T. destruct r as [|x r]; [change (zlen (@nil Z)) with 0 in LL; lia|].
        change (rd (c :: x :: r) 1) with (Ok x). cbn [bind]. replace (j_count s =? 2) with false by lia. rewrite !andb_false_r. cbn [andb].
        replace (j_count s) with 1 by lia. change 258%nat with (S (S 256)). rewrite ll_one.
        destruct (Z.eqb_spec x 46) as [-> |NX]; cbn [bind negb].
        -- do 2 eexists. split; [reflexivity|].
           split; [rewrite <- EM; destruct s; exact W|]. split; [exact S1|]. split; [reflexivity|]. unfold JS_ERROR. congruence.
        -- change (1 <? 256) with true. cbn [negb]. change (rd (c :: x :: r) 1) with (Ok x). cbn [bind]. replace (x =? 46) with false by lia.
           change (1 <? 1) with false. cbn [andb].
           do 2 eexists. split; [reflexivity|]. split; [rewrite <- EM; destruct s; exact W|]. split; [exact S1|]. split; [reflexivity|]. unfold JS_ERROR. congruence.
      * assert (good_name (l :: n)) as G by (apply lens_good; [exact GL|apply bytes_dots, BB]).
        destruct (hname_good 0 s c ty (l :: n) H T ltac:(discriminate) G D L) as (s' & -> & (W' & S' & _) & M).
        do 2 eexists. split; [reflexivity|]. split; [exact W'|]. split; [exact S'|]. split; [exact M|]. intros _ _. exists c, (l :: n). split; [reflexivity|]. split; [exact T|].
        split; [exact G|]. split; [exact D|exact L].
      * (* a label of a wrong length *)
        unfold hname_2rfc1035. rewrite octet_ok by assumption. cbn [negb]. replace (j_count s <? 1) with false by lia. rewrite EM.
        change (rd (c :: dots n ++ r) 0) with (Ok c). cbn [bind]. rewrite T.
        destruct (zget_some (c :: dots n ++ r) 1) as (b1 & E1). { rewrite zlen_cons, zlen_app. lia. }
        rewrite (rd_of_zget _ _ _ E1). cbn [bind].
        assert ((b1 =? 46) && (j_count s =? 2) = false) as C1.
        { destruct (Z.eqb_spec b1 46) as [-> |]; [|reflexivity]. destruct (Z.eqb_spec (j_count s) 2) as [E|]; [|reflexivity]. exfalso. apply NR.
          assert (zlen (dots n) = 1) as L1 by lia. destruct (dots n) as [|x [|y d]]; [discriminate| |rewrite !zlen_cons in L1; pose proof (zlen_nonneg d); lia].
          cbn in E1. injection E1 as ->. reflexivity. }
        rewrite C1. change (0 =? 1) with false. rewrite !andb_false_r.
        destruct (ll_labels n 258 (j_count s) [] c [] r) as (ok & cc & m & R & RR); try assumption.
        { rewrite app_nil_r. intros X. destruct n as [|l n]; [discriminate|]. rewrite dots_cons in X. destruct l; discriminate. }
        { change (zlen (@nil Z)) with 0. lia. }
        { lia. }
        { rewrite app_nil_r. unfold zlen in L. lia. }
        destruct (ll_safe 258 (j_count s) false (j_mem s) 0 0 0) as (ok' & fa' & c' & m' & R' & B1 & B2 & _); try lia.
        { apply (jw_bytes s W). } { rewrite (jw_mem s W), S1. lia. }
        rewrite EM in R'. cbn [app] in R. change (zlen (@nil Z)) with 0 in R. rewrite R in R'. injection R' as <- <- <- <-. rewrite R. cbn [bind]. rewrite GL in RR. subst ok. cbn [negb].
        do 2 eexists. split; [reflexivity|]. split; [apply wf_set_mem; assumption|]. split; [exact S1|]. split; [reflexivity|]. unfold JS_ERROR. congruence.
    + (* no dot at the end *)
      assert (j_count s =? 2 = false \/ (zlen (dots n ++ t) = 1)) as C2 by lia.
      unfold hname_2rfc1035. rewrite octet_ok by assumption. cbn [negb]. replace (j_count s <? 1) with false by lia. rewrite EM.
      change (rd (c :: (dots n ++ t) ++ r) 0) with (Ok c). cbn [bind]. rewrite T.
      destruct (zget_some (c :: (dots n ++ t) ++ r) 1) as (b1 & E1). { rewrite zlen_cons, zlen_app. lia. }
      rewrite (rd_of_zget _ _ _ E1). cbn [bind].
      assert ((b1 =? 46) && (j_count s =? 2) = false) as C1.
      { destruct (Z.eqb_spec b1 46) as [-> |]; [|reflexivity]. destruct (Z.eqb_spec (j_count s) 2) as [E|]; [|reflexivity]. exfalso. apply NR.
        assert (zlen (dots n ++ t) = 1) as L1 by lia. destruct (dots n ++ t) as [|x [|y d]]; [discriminate| |rewrite !zlen_cons in L1; pose proof (zlen_nonneg d); lia].
        cbn in E1. injection E1 as ->. reflexivity. }
      rewrite C1. change (0 =? 1) with false. rewrite !andb_false_r.
      rewrite zlen_app in *. pose proof (zlen_nonneg (dots n)). pose proof (zlen_nonneg t).
      destruct (ll_labels n 258 (j_count s) [] c t r) as (ok & cc & m & R & RR); try assumption.
      { intros X. apply app_eq_nil in X as (_ & X). congruence. }
      { change (zlen (@nil Z)) with 0. lia. }
      { lia. }
      { rewrite app_length. unfold zlen in L. lia. }
      destruct (ll_safe 258 (j_count s) false (j_mem s) 0 0 0) as (ok' & fa' & c' & m' & R' & B1 & B2 & _); try lia.
      { apply (jw_bytes s W). } { rewrite (jw_mem s W), S1. lia. }
      rewrite EM in R'. rewrite <- app_assoc in R' |- *. cbn [app] in R. change (zlen (@nil Z)) with 0 in R. rewrite R in R'. injection R' as <- <- <- <-. rewrite R. cbn [bind].
      destruct (forallb label_len n) eqn:GL.
      2:{ subst ok. cbn [negb]. do 2 eexists. split; [reflexivity|]. split; [apply wf_set_mem; assumption|]. split; [exact S1|]. split; [reflexivity|]. unfold JS_ERROR. congruence. }
      destruct RR as (-> & -> & ->). cbn [negb]. replace (j_count s - 1 <? 256) with true by lia. cbn [negb app].
      destruct (exists_last NET) as (t0 & y & ->).
      assert (zlen (after c n) = 1 + zlen (dots n)) as LA.
      { destruct n as [|l n]; [reflexivity|]. cbn [after]. rewrite zlen_app, zlen_dots_labels. change (zlen [46]) with 1. lia. }
      assert (after c n ++ (t0 ++ [y]) ++ r = (after c n ++ t0) ++ y :: r) as EA by (rewrite <- !app_assoc; reflexivity).
      rewrite EA. rewrite zlen_app in *. change (zlen [y]) with 1 in *.
      replace (j_count s - 1) with (zlen (after c n ++ t0)) by (rewrite zlen_app; lia). rewrite rd_here. cbn [bind].
      destruct (Z.eqb_spec y 46) as [-> |NY]; [exfalso; apply NT, in_or_app; right; left; reflexivity|].
      rewrite <- EA, !andb_false_r. do 2 eexists. split; [reflexivity|]. split; [apply wf_set_mem; assumption|]. split; [exact S1|]. split; [reflexivity|]. unfold JS_ERROR. congruence.
  - (* too long *)
    unfold hname_2rfc1035. rewrite octet_ok by assumption. cbn [negb]. replace (j_count s <? 1) with false by lia. rewrite EM.
    change (rd (c :: (dots n ++ t) ++ r) 0) with (Ok c). cbn [bind]. rewrite T.
    destruct (zget_some (c :: (dots n ++ t) ++ r) 1) as (b1 & E1). { rewrite zlen_cons, zlen_app. lia. }
    rewrite (rd_of_zget _ _ _ E1). cbn [bind]. replace (j_count s =? 2) with false by lia. rewrite !andb_false_r. cbn [andb]. rewrite <- EM.
    destruct (ll_safe 258 (j_count s) false (j_mem s) 0 0 0) as (ok & fa' & c' & m' & R & B1 & B2 & B3 & B4 & B5 & _); try lia.
    { apply (jw_bytes s W). } { rewrite (jw_mem s W), S1. lia. }
    rewrite R. cbn [bind]. destruct ok; cbn [negb].
    + rewrite B5 by (reflexivity || lia). replace (Z.min 256 (j_count s - 1)) with 256 by lia. change (256 <? 256) with false. cbn [negb].
      do 2 eexists. split; [reflexivity|]. split; [apply wf_set_mem; assumption|]. split; [exact S1|]. split; [reflexivity|]. unfold JS_ERROR. congruence.
    + do 2 eexists. split; [reflexivity|]. split; [apply wf_set_mem; assumption|]. split; [exact S1|]. split; [reflexivity|]. unfold JS_ERROR. congruence.
Qed.

(** ** hname_translate and email_translate *)
Definition spoken (at_ : bool) (n : name) : list Z := match n with [] => [] | l :: n => l ++ (if at_ then 64 else 46) :: dots n end.
Lemma spoken_dots n : spoken false n = dots n.
Proof. destruct n as [|l n]; [reflexivity|]. rewrite dots_cons. reflexivity. Qed.
Lemma wire_pos n : 1 <= zlen (wire n).
Proof. rewrite wire_labels, zlen_app. change (zlen [0]) with 1. pose proof (zlen_nonneg (labels n)). lia. Qed.
Lemma wire_hd n : good_name n -> exists b w, wire n = b :: w /\ b = match n with [] => 0 | l :: _ => zlen l end.
Proof. destruct n as [|l n]; intros G; [exists 0, []|exists (zlen l), (l ++ wire n)]; split; reflexivity. Qed.
Lemma dots_loop_ok n : forall F count at_ pre y rest, good_name n -> zlen pre + zlen (wire n) <= count -> zlen pre + zlen (wire n) <= 257 -> (length n < F)%nat ->
  dots_loop F count at_ (pre ++ y :: tl (wire n) ++ rest) (zlen pre) (hd 0 (wire n)) = Ok (1, pre ++ y :: spoken at_ n ++ rest).
Proof.
  induction n as [|l n IH]; intros F count at_ pre y rest G C1 C2 FF; (destruct F as [|F]; [cbn in FF; lia|]); cbn [dots_loop].
  - cbn [wire hd tl]. replace ((zlen pre <? 256) && (0 <? 0)) with false by lia. reflexivity.
  - apply Forall_cons_iff in G as ((G1 & G2) & G). cbn [wire hd tl] in *. rewrite zlen_cons, zlen_app in *. pose proof (wire_pos n). pose proof (zlen_nonneg pre).
    replace ((zlen pre <? 256) && (0 <? zlen l)) with true by lia. replace (63 <? zlen l) with false by lia. cbv zeta. replace (count <? zlen pre + (zlen l + 1)) with false by lia.
    destruct (wire_hd n G) as (b & w & E & _). rewrite E.
    assert (pre ++ y :: (l ++ b :: w) ++ rest = (pre ++ y :: l) ++ b :: w ++ rest) as EM by (rewrite <- ?app_assoc; cbn [app]; rewrite <- ?app_assoc; reflexivity).
    rewrite EM. replace (zlen pre + (zlen l + 1)) with (zlen (pre ++ y :: l)) by (rewrite zlen_app, zlen_cons; lia). rewrite rd_here. cbn [bind]. rewrite wr_here. cbn [bind].
    specialize (IH F count false (pre ++ y :: l) (if at_ then 64 else 46) rest G). rewrite E in IH. cbn [hd tl] in IH. rewrite IH.
    + rewrite spoken_dots. cbn [spoken]. do 2 f_equal. rewrite <- ?app_assoc; cbn [app]; rewrite <- ?app_assoc; reflexivity.
    + rewrite <- E. rewrite zlen_app, zlen_cons. lia.
    + rewrite <- E. rewrite zlen_app, zlen_cons. lia.
    + cbn in FF. lia.
Qed.
Lemma dots_loop_safe F : forall count at_ mem counter toread, bytes mem -> count < zlen mem -> 0 <= counter <= count -> byte toread -> 257 - counter < 2 * Z.of_nat F -> (0 < F)%nat ->
  exists r m, dots_loop F count at_ mem counter toread = Ok (r, m) /\ bytes m /\ zlen m = zlen mem /\ (r = 1 \/ r = -1).
Proof.
  induction F as [|F IH]; intros count at_ mem counter toread B L C T FF F0; [lia|]. cbn [dots_loop]. unfold byte in T.
  destruct ((counter <? 256) && (0 <? toread)) eqn:G; [|do 2 eexists; split; [reflexivity|]; unfold JS_SUCCESS; tauto].
  destruct (63 <? toread) eqn:G2; [do 2 eexists; split; [reflexivity|]; unfold JS_ERROR; tauto|]. cbv zeta.
  destruct (count <? counter + (toread + 1)) eqn:G3; [do 2 eexists; split; [reflexivity|]; unfold JS_ERROR; tauto|].
  destruct (zget_some mem (counter + (toread + 1)) ltac:(lia)) as (b & E). rewrite (rd_of_zget _ _ _ E). cbn [bind]. rewrite wr_ok by lia. cbn [bind].
  destruct (IH count false (zupd mem (counter + (toread + 1)) (if at_ then 64 else 46)) (counter + (toread + 1)) b) as (r & m & -> & B2 & L2 & R).
  - apply bytes_zupd; [exact B|]. unfold byte. destruct at_; lia.
  - rewrite zlen_zupd. lia.
  - lia.
  - exact (zget_bytes _ _ _ B E).
  - lia.
  - lia.
  - do 2 eexists. split; [reflexivity|]. split; [exact B2|]. split; [rewrite L2; apply zlen_zupd|exact R].
Qed.

Lemma letter_byte q : byte (letter_of q).
Proof. unfold letter_of, byte. repeat match goal with |- context [if ?b then _ else _] => destruct b end; lia. Qed.
Lemma holding_bytes s l : holding s l -> bytes l.
Proof. intros (W & _ & <-). apply bytes_octets, W. Qed.
Lemma bytes_spoken at_ n : good_name n -> bytes (spoken at_ n).
Proof.
  destruct n as [|l n]; intros G; [constructor|]. apply Forall_cons_iff in G as ((_ & B) & G). cbn [spoken]. apply bytes_app. split; [exact B|].
  constructor; [unfold byte; destruct at_; lia|]. clear l B. induction n as [|l n IH]; [constructor|]. apply Forall_cons_iff in G as ((_ & B) & G).
  rewrite dots_cons. apply bytes_app. split; [exact B|]. constructor; [unfold byte; lia|apply IH, G].
Qed.
Lemma zlen_spoken at_ n : zlen (spoken at_ n) + 1 = zlen (wire n).
Proof.
  rewrite wire_labels, zlen_app, <- zlen_dots_labels. change (zlen [0]) with 1. destruct n as [|l n]; [reflexivity|]. rewrite dots_cons. cbn [spoken].
  rewrite !zlen_app, !zlen_cons. lia.
Qed.
Lemma few_labels n : good_name n -> zlen (wire n) <= 256 -> (length n < 258)%nat.
Proof.
  intros G L. enough (Z.of_nat (length n) < zlen (wire n)) by lia. clear L. induction n as [|l n IH]; [reflexivity|]. apply Forall_cons_iff in G as ((G1 & _) & G). specialize (IH G).
  cbn [wire length]. rewrite zlen_cons, zlen_app. lia.
Qed.

(** What both of them do after the first octet. *)
Lemma translate_ok s n at_ y : holding s (wire n) -> good_name n -> zlen (wire n) <= 256 -> byte y ->
  exists m, rd (j_mem s) 0 = Ok (hd 0 (wire n)) /\ wr (j_mem s) 0 y = Ok m /\ zlen m = zlen (j_mem s) /\
  exists m', dots_loop 258 (j_count s) at_ m 0 (hd 0 (wire n)) = Ok (1, m') /\ holding (set_mem s m') (y :: spoken at_ n).
Proof.
  intros H G L Y. destruct (holding_mem s _ H) as (C & r & EM & LM). destruct H as (W & S1 & _).
  destruct (wire_hd n G) as (b & w & E & _). exists (y :: tl (wire n) ++ r). rewrite EM. rewrite E. cbn [hd tl app].
  split; [reflexivity|]. split; [exact (wr_here [] b (w ++ r) y)|]. split; [rewrite !zlen_cons; reflexivity|].
  pose proof (dots_loop_ok n 258 (j_count s) at_ [] y r G) as D. cbn [app] in D. change (zlen (@nil Z)) with 0 in D. rewrite E in D. cbn [hd tl] in D. rewrite D.
  - eexists. split; [reflexivity|]. rewrite <- set_count_set_mem. apply (hold_new s _ _ _ r); try assumption.
    + reflexivity.
    + pose proof (jw_bytes s W) as BM. rewrite EM in BM. apply bytes_app in BM as (_ & BM). constructor; [exact Y|]. apply bytes_app. split; [apply bytes_spoken, G|exact BM].
    + rewrite EM, zlen_cons, !zlen_app. rewrite <- (zlen_spoken at_ n). lia.
    + rewrite zlen_cons, zlen_spoken. exact C.
    + apply (jw_count s W).
  - rewrite <- E. lia.
  - rewrite <- E. lia.
  - apply few_labels; assumption.
Qed.
Lemma hname_translate_ok s n q : holding s (wire n) -> good_name n -> zlen (wire n) <= 256 -> (n = [] -> 2 <= j_max s) ->
  exists s', hname_translate s q = Ok (1, s') /\ holding s' (letter_of q :: match n with [] => [46] | _ => spoken (q =? -301) n end).
Proof.
  intros H G L R. pose proof (holding_mem s _ H) as (C & r & EM & LM). pose proof H as (W & S1 & _). unfold hname_translate. rewrite octet_ok by assumption. cbn [negb].
  pose proof (wire_pos n). replace (j_count s <? 1) with false by lia.
  destruct (translate_ok s n (q =? -301) (letter_of q) H G L (letter_byte q)) as (m & -> & E2 & LM2 & m' & E3 & HH). cbn [bind]. rewrite E2. cbn [bind].
  destruct n as [|l n].
  - cbn [wire hd] in *. change (zlen [0]) with 1 in *. rewrite C. change ((1 =? 1) && (0 =? 0)) with true. cbv match. specialize (R eq_refl). replace (j_max s <? 2) with false by lia.
    rewrite EM in E2. rewrite (wr_here [] 0 r (letter_of q) : wr ([0] ++ r) 0 (letter_of q) = _) in E2. injection E2 as <-. cbn [app].
    destruct r as [|x r]; [change (zlen (@nil Z)) with 0 in *; lia|]. rewrite (wr_here [letter_of q] x r 46 : wr (letter_of q :: x :: r) 1 46 = _). cbn [bind app].
    eexists. split; [reflexivity|]. pose proof (jw_bytes s W) as BM. rewrite EM in BM. cbn [app] in BM. apply Forall_cons_iff in BM as (_ & BM). apply Forall_cons_iff in BM as (_ & BM).
    apply (hold_new s (letter_of q :: 46 :: r) 2 [letter_of q; 46] r W S1 eq_refl).
    + constructor; [apply letter_byte|]. constructor; [unfold byte; lia|exact BM].
    + rewrite EM. cbn [app]. rewrite !zlen_cons. lia.
    + reflexivity.
    + exact R.
  - assert ((j_count s =? 1) && (hd 0 (wire (l :: n)) =? 0) = false) as X.
    { apply Forall_cons_iff in G as ((G1 & _) & _). cbn [wire hd]. lia. }
    rewrite X, E3. cbn [bind]. eexists. split; [reflexivity|]. exact HH.
Qed.
Lemma email_translate_ok s l n : holding s (wire (l :: n)) -> good_name (l :: n) -> zlen (wire (l :: n)) <= 256 ->
  exists s', email_translate s = Ok (1, s') /\ holding s' (124 :: email_text l n).
Proof.
  intros H G L. pose proof (holding_mem s _ H) as (C & r & EM & LM). pose proof H as (W & S1 & _). unfold email_translate. rewrite octet_ok by assumption. cbn [negb].
  pose proof (wire_pos (l :: n)). replace (j_count s <? 1) with false by lia.
  destruct (translate_ok s (l :: n) true 124 H G L ltac:(unfold byte; lia)) as (m & -> & E2 & LM2 & m' & E3 & HH). cbn [bind]. rewrite E2. cbn [bind]. rewrite E3. cbn [bind].
  eexists. split; [reflexivity|]. exact HH.
Qed.
Lemma translate_safe s q : j_wf s -> exists r s', hname_translate s q = Ok (r, s') /\ j_wf s' /\ (r = 1 \/ r = -1).
Proof.
  intros W. unfold hname_translate. destruct (octet_string s) eqn:O; cbn [negb]; [|do 2 eexists; split; [reflexivity|]; unfold JS_ERROR; tauto].
  assert (j_size s = 1) as S1 by (unfold octet_string in O; lia).
  destruct (j_count s <? 1) eqn:C; [do 2 eexists; split; [reflexivity|]; unfold JS_ERROR; tauto|].
  pose proof (jw_mem s W) as LM. rewrite S1 in LM. pose proof (jw_count s W). pose proof (jw_bytes s W) as BM.
  destruct (zget_some (j_mem s) 0 ltac:(lia)) as (b & E). rewrite (rd_of_zget _ _ _ E). cbn [bind]. rewrite wr_ok by lia. cbn [bind].
  assert (bytes (zupd (j_mem s) 0 (letter_of q))) as B2 by (apply bytes_zupd; [exact BM|apply letter_byte]).
  destruct ((j_count s =? 1) && (b =? 0)).
  - destruct (j_max s <? 2) eqn:M.
    + do 2 eexists. split; [reflexivity|]. split; [apply wf_set_mem; [exact W|exact B2|apply zlen_zupd]|unfold JS_ERROR; tauto].
    + rewrite wr_ok by (rewrite zlen_zupd; lia). cbn [bind]. do 2 eexists. split; [reflexivity|]. split; [|unfold JS_SUCCESS; tauto].
      apply wf_set_count; [|cbn [set_mem j_max]; lia]. apply wf_set_mem; [exact W| |rewrite !zlen_zupd; reflexivity]. apply bytes_zupd; [exact B2|unfold byte; lia].
  - destruct (dots_loop_safe 258 (j_count s) (q =? -301) (zupd (j_mem s) 0 (letter_of q)) 0 b) as (r & m & -> & B3 & L3 & R); try lia; try assumption.
    + rewrite zlen_zupd. lia.
    + exact (zget_bytes _ _ _ BM E).
    + cbn [bind]. do 2 eexists. split; [reflexivity|]. split; [apply wf_set_mem; [exact W|exact B3|rewrite L3; apply zlen_zupd]|exact R].
Qed.
Lemma email_translate_safe s : j_wf s -> exists r s', email_translate s = Ok (r, s') /\ j_wf s' /\ (r = 1 \/ r = -1).
Proof.
  intros W. unfold email_translate. destruct (octet_string s) eqn:O; cbn [negb]; [|do 2 eexists; split; [reflexivity|]; unfold JS_ERROR; tauto].
  assert (j_size s = 1) as S1 by (unfold octet_string in O; lia).
  destruct (j_count s <? 1) eqn:C; [do 2 eexists; split; [reflexivity|]; unfold JS_ERROR; tauto|].
  pose proof (jw_mem s W) as LM. rewrite S1 in LM. pose proof (jw_count s W). pose proof (jw_bytes s W) as BM.
  destruct (zget_some (j_mem s) 0 ltac:(lia)) as (b & E). rewrite (rd_of_zget _ _ _ E). cbn [bind]. rewrite wr_ok by lia. cbn [bind].
  destruct (dots_loop_safe 258 (j_count s) true (zupd (j_mem s) 0 124) 0 b) as (r & m & -> & B3 & L3 & R); try lia.
  - apply bytes_zupd; [exact BM|unfold byte; lia].
  - rewrite zlen_zupd. lia.
  - exact (zget_bytes _ _ _ BM E).
  - cbn [bind]. do 2 eexists. split; [reflexivity|]. split; [apply wf_set_mem; [exact W|exact B3|rewrite L3; apply zlen_zupd]|exact R].
Qed.
