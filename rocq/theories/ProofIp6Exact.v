(** Proofs about ModelIp6: what strings with colons and without blanks are accepted. *)
From Verif Require Import CBase Bits ModelIp6 SpecIp6 ProofIp6 ProofIp6Safe ProofIp6Colon ProofIp6Quad.
From Verif Require ProofDwDnsStr.
Notation zupd_mid := ProofDwDnsStr.zupd_mid (only parsing).

Lemma group_full g : group g -> full g.
Proof.
  intros (L & H). split; [|intros ->; change (zlen (@nil Z)) with 0 in L; lia].
  intro I. rewrite Forall_forall in H. exact (H _ I eq_refl).
Qed.
Lemma group_plain g : group g -> Forall plain g.
Proof.
  intros (_ & H). eapply Forall_impl; [|exact H]. intros c HC. cbv beta in HC. destruct (hex c) eqn:E; [|congruence].
  apply hex_char in E. unfold plain. tauto.
Qed.
Lemma number_range g : group g -> 0 <= number g < 65536.
Proof.
  intro G. destruct (group_cases g G) as (a & v & EA & [-> | (b & w & EB & [-> | (e & x & EE & [-> | (k & y & EK & ->)])])]);
  unfold number, hex_val; cbn [fold_left];
  repeat match goal with H : hex _ = Some _ |- _ => rewrite H; apply hex_range in H end; lia.
Qed.
Lemma zlen_octets : forall gs, zlen (octets gs) = 2 * zlen gs.
Proof. induction gs as [|g gs IH]; [reflexivity|]. cbn [octets flat_map app]. fold (octets gs). rewrite !zlen_cons, IH. lia. Qed.
Lemma octets_app a b : octets (a ++ b) = octets a ++ octets b.
Proof. apply flat_map_app. Qed.

Lemma put_mid pre a b post q : put (pre ++ a :: b :: post) (zlen pre) q = pre ++ q / 256 :: q mod 256 :: post.
Proof.
  unfold put. change (pre ++ a :: b :: post) with (pre ++ [a] ++ b :: post). rewrite app_assoc.
  replace (zlen pre + 1) with (zlen (pre ++ [a])) by (rewrite zlen_app, zlen_cons; change (zlen (@nil Z)) with 0; lia).
  rewrite zupd_mid, <- app_assoc. cbn [app]. rewrite zupd_mid. reflexivity.
Qed.
Lemma two_first (A : list Z) n : zlen A = 2 * (n + 1) -> 0 <= n -> exists a b A', A = a :: b :: A' /\ zlen A' = 2 * n.
Proof.
  intros E N. destruct A as [|a [|b A]]; [change (zlen (@nil Z)) with 0 in E; lia|rewrite zlen_cons in E; change (zlen (@nil Z)) with 0 in E; lia|].
  rewrite !zlen_cons in E. exists a, b, A. split; [reflexivity|lia].
Qed.
Lemma zlen_cat_cons f F : zlen (cat (f :: F)) = zlen f + 1 + zlen (cat F).
Proof. rewrite <- (app_nil_r (cat (f :: F))), cat_cons, app_nil_r, zlen_app, zlen_cons. lia. Qed.
Lemma hd_ok t : t <> [] -> ~ In 0 t -> hd 0 t <> 0.
Proof. intros T N. destruct t; [contradiction|]. cbn [hd]. intros ->. apply N. left. reflexivity. Qed.
Lemma cat_plain F : Forall (Forall plain) F -> ~ In 0 (cat F).
Proof.
  induction 1 as [|f F H _ IH]; [intros []|]. rewrite <- (app_nil_r (cat (f :: F))), cat_cons, app_nil_r. rewrite in_app_iff. intros [I|[I|I]]; [|lia|contradiction].
  rewrite Forall_forall in H. apply H in I. destruct I as (A & _). auto.
Qed.
Lemma plain_0 f : Forall plain f -> ~ In 0 f.
Proof. intros H I. rewrite Forall_forall in H. apply H in I. destruct I as (A & _). auto. Qed.
Lemma app_neq_nil {A} (a b : list A) : b <> [] -> a ++ b <> [].
Proof. intros H E. apply app_eq_nil in E as (_ & E). contradiction. Qed.

Lemma hex_all : forall f, Forall (fun c => hex c <> None) f \/ ~ Forall (fun c => hex c <> None) f.
Proof.
  induction f as [|c f [IH|IH]]; [left; constructor| |right; intro H; inversion H; contradiction].
  destruct (hex c) eqn:E; [left; constructor; [congruence|exact IH]|right; intro H; inversion H; contradiction].
Qed.

Section Runs.
Variables (af db cl : Z) (CL : cl <> 0).

Lemma run_groups : forall F t c h pre mid post i, Forall group F -> t <> [] -> ~ In 0 t ->
  db < i \/ i + zlen (cat F) <= db -> 0 <= c -> zlen pre = 2 * c -> zlen mid = 2 * zlen F -> zlen (pre ++ mid ++ post) = 16 ->
  exists h', lpass2 af db cl (cat F ++ t) (mkp2 0 (2 * c) c 0 h (pre ++ mid ++ post) i) =
    lpass2 af db cl t (mkp2 0 (2 * (c + zlen F)) (c + zlen F) 0 h' (pre ++ octets F ++ post) (i + zlen (cat F))).
Proof.
  induction F as [|f F IH]; intros t c h pre mid post i HF T HT D C P M L.
  - exists h. change (zlen (@nil (list Z))) with 0 in *. assert (mid = []) as -> by (destruct mid; [reflexivity|rewrite zlen_cons in M; pose proof (zlen_nonneg mid); lia]).
    cbn [cat flat_map app octets]. change (zlen (@nil Z)) with 0. rewrite !Z.add_0_r. reflexivity.
  - inversion_clear HF as [|? ? G HF']. rewrite zlen_cons in M. pose proof (zlen_nonneg F).
    destruct (two_first mid (zlen F) M H) as (a & b & mid' & -> & M'). rewrite zlen_cat_cons in D. pose proof (zlen_nonneg f). pose proof (zlen_nonneg (cat F)).
    rewrite cat_cons. cbn [app] in L |- *.
    assert (HN : ~ In 0 (cat F ++ t)).
    { rewrite in_app_iff. intros [I|I]; [|auto]. revert I. apply cat_plain. eapply Forall_impl; [|exact HF']. intro; apply group_plain. }
    rewrite (lpass2_group af db cl) by (first [exact G | apply app_neq_nil, T | apply hd_ok; [apply app_neq_nil, T|exact HN] | lia]).
    assert (16 <=? 2 * c + 1 = false) as ->.
    { rewrite zlen_app, !zlen_cons, zlen_app in L. pose proof (zlen_nonneg post). pose proof (zlen_nonneg mid'). lia. }
    rewrite <- P, put_mid, P. replace (2 * c + 2) with (2 * (c + 1)) by lia.
    change (pre ++ number f / 256 :: number f mod 256 :: mid' ++ post) with (pre ++ [number f / 256; number f mod 256] ++ mid' ++ post). rewrite app_assoc.
    destruct (IH t (c + 1) (h + zlen f) (pre ++ [number f / 256; number f mod 256]) mid' post (i + zlen f + 1)) as (h' & E);
      [exact HF'|exact T|exact HT|lia|lia|rewrite zlen_app, P, !zlen_cons; change (zlen (@nil Z)) with 0; lia|exact M'| |].
    { rewrite <- L, <- app_assoc, !zlen_app, !zlen_cons, !zlen_app. change (zlen (@nil Z)) with 0. lia. }
    exists h'. rewrite E, zlen_cons, zlen_cat_cons. f_equal. cbn [octets flat_map app]. fold (octets F).
    replace (c + 1 + zlen F) with (c + (zlen F + 1)) by lia. rewrite <- app_assoc. cbn [app]. f_equal. lia.
Qed.

Lemma run_bad : forall F t c h ip i, Forall full F -> Forall (Forall plain) F -> t <> [] -> ~ In 0 t ->
  db < i \/ i + zlen (cat F) <= db -> 0 <= c <= 8 -> zlen ip = 16 -> 0 <= i ->
  ~ (Forall group F /\ c + zlen F <= 8) ->
  exists k, lpass2 af db cl (cat F ++ t) (mkp2 0 (2 * c) c 0 h ip i) = Ok (Return k) /\ k < 0.
Proof.
  induction F as [|f F IH]; intros t c h ip i HF HP T HT D C L HI N.
  - exfalso; apply N; split; [constructor|change (zlen (@nil (list Z))) with 0; lia].
  - inversion_clear HF as [|? ? F1 HF']. inversion_clear HP as [|? ? P1 HP']. rewrite cat_cons. rewrite zlen_cat_cons in D. pose proof (zlen_nonneg f). pose proof (zlen_nonneg (cat F)).
    assert (HN : ~ In 0 (cat F ++ t)) by (rewrite in_app_iff; intros [I|I]; [exact (cat_plain _ HP' I)|auto]).
    destruct (Z.le_gt_cases (zlen f) 4) as [L4|L4].
    2:{ apply (lpass2_not_group af db cl CL); try assumption; try lia. intros (X & _). lia. }
    destruct (hex_all f) as [HX|HX].
    2:{ apply (lpass2_not_group af db cl CL); try assumption; try lia. intros (_ & X). contradiction. }
    assert (G : group f) by (split; [destruct F1 as (_ & F1); destruct f; [contradiction|rewrite zlen_cons in *; pose proof (zlen_nonneg f); lia]|exact HX]).
    rewrite (lpass2_group af db cl) by (first [exact G | apply app_neq_nil, T | apply hd_ok; [apply app_neq_nil, T|exact HN] | lia]).
    destruct (16 <=? 2 * c + 1) eqn:E; [eexists; split; [reflexivity|lia]|].
    replace (2 * c + 2) with (2 * (c + 1)) by lia.
    apply IH; try assumption; try lia; [rewrite zlen_put; exact L|].
    intros (A & B). apply N. split; [constructor; assumption|rewrite zlen_cons; lia].
Qed.
End Runs.
