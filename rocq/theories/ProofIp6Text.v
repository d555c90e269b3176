(** Proofs about ModelIp6: strings with colons and without blanks, in the terms of the specification. *)
From Verif Require Import CBase Bits ModelIp6 SpecIp6 ProofIp6 ProofIp6Safe ProofIp6Colon ProofIp6Quad ProofIp6Exact ProofIp6All.

Lemma cat_with_colons L : L <> [] -> cat L = with_colons L ++ [58].
Proof. intro N. destruct (exists_last N) as (L' & l & ->). rewrite with_colons_cat, cat_app. cbn [cat flat_map]. fold (cat L'). rewrite app_nil_r, app_assoc. reflexivity. Qed.
Lemma with_colons_rest R f : (f = [] -> R = []) -> with_colons (rest R f) = cat R ++ f.
Proof. intro H. destruct f as [|x f]; [rewrite (H eq_refl); reflexivity|]. apply with_colons_cat. Qed.
Lemma groups_plain F : Forall group F -> Forall (Forall plain) F.
Proof. apply Forall_impl. intro; apply group_plain. Qed.
Lemma groups_full F : Forall group F -> Forall full F.
Proof. apply Forall_impl. intro; apply group_full. Qed.
Lemma zlen_cat_groups F : Forall group F -> zlen (cat F) <= 5 * zlen F.
Proof. induction 1 as [|f F (G & _) _ IH]; [reflexivity|]. rewrite zlen_cat_cons, zlen_cons. lia. Qed.
Lemma zlen_lead b : 0 <= zlen (lead b) <= 1.
Proof. destruct b; cbn; lia. Qed.
Lemma with_colons_hd L t : Forall full L -> L <> [] -> hd 0 (with_colons L ++ t) <> 58.
Proof.
  intros H N. destruct L as [|l L]; [contradiction|]. inversion_clear H as [|? ? (H1 & H2) _]. destruct l as [|x l]; [contradiction|].
  assert (hd 0 (with_colons ((x :: l) :: L) ++ t) = x) as -> by (destruct L; reflexivity). intros ->. apply H1. left. reflexivity.
Qed.

(** The strings [s], and with a colon before. *)
Definition said (b : bool) (s : list Z) (v : list Z) : Prop :=
  exists t, s = lead b ++ t /\ In 58 t /\ (b = true -> hd 0 t <> 58) /\ ip6_text t v /\ ~ seven_doubled t.

Lemma said_accepted b s v j ip : said b s v -> zlen ip = 16 -> ip6Parse (s ++ 0 :: j) ip = Ok (1, v).
Proof.
  intros (t & -> & I58 & HB & HT & HS) HI. pose proof (zlen_lead b). destruct HT as [gs HG HL|l r Hl Hr HL].
  - assert (N : gs <> []) by (intros ->; discriminate). destruct (exists_last N) as (G & f & ->). rewrite with_colons_cat.
    rewrite app_length in HL. cbn [length] in HL. apply Forall_app in HG as (HG & Hf). inversion_clear Hf as [|? ? Gf _].
    assert (L7 : zlen G = 7) by (unfold zlen; lia).
    assert (NG : G <> []) by (intros ->; discriminate).
    pose proof (zlen_cat_groups G HG). pose proof Gf as (Lf & _).
    apply exact_A; [apply groups_full, HG|apply group_full, Gf|apply groups_plain, HG|apply group_plain, Gf|intros _; exact NG|rewrite !zlen_app; lia|exact HI|].
    split; [apply Forall_app; split; [exact HG|constructor; [exact Gf|constructor]]|]. split; [exact L7|reflexivity].
  - assert (HRR : exists R f, r = rest R f /\ (f = [] /\ R = [] \/ full f) /\ Forall group R /\ Forall plain f /\ zlen f <= 4 /\ zlen l + zlen R + 1 <= 7 /\ zlen R <= 6).
    { destruct r as [|r0 r'].
      - exists [], []. split; [reflexivity|]. split; [left; split; reflexivity|]. split; [constructor|]. split; [constructor|]. change (zlen (@nil Z)) with 0. change (zlen (@nil (list Z))) with 0 in *.
        split; [lia|]. assert (zlen l <> 7) by (intro E7; apply HS; exists l; split; [exact Hl|]; split; [exact E7|reflexivity]). lia.
      - destruct (@exists_last _ (r0 :: r') ltac:(discriminate)) as (R & f & E). rewrite E in *. clear r0 r' E.
        apply Forall_app in Hr as (HR & Hf). inversion_clear Hf as [|? ? Gf _]. pose proof (group_full _ Gf) as F1. pose proof Gf as (Lf & _).
        exists R, f. split; [destruct f; [change (zlen (@nil Z)) with 0 in Lf; lia|reflexivity]|]. split; [right; exact F1|]. split; [exact HR|]. split; [apply group_plain, Gf|].
        rewrite zlen_app, zlen_cons in HL. change (zlen (@nil (list Z))) with 0 in HL. pose proof (zlen_nonneg l). lia. }
    destruct HRR as (R & f & -> & Hf & GR & Pf & Lf & L7 & L6).
    assert (W : with_colons (rest R f) = cat R ++ f) by (apply with_colons_rest; intros ->; destruct Hf as [(_ & X)|(_ & X)]; [exact X|contradiction]).
    rewrite W. pose proof (zlen_cat_groups R GR). pose proof (zlen_cat_groups l Hl).
    destruct l as [|l0 l'].
    + destruct b; [exfalso; apply (HB eq_refl); reflexivity|]. apply (exact_B true [] R f); [constructor|apply groups_full, GR|exact Hf|constructor|apply groups_plain, GR|exact Pf|discriminate| |exact HI|].
      { change (zlen (lead true ++ cat [] ++ [58] ++ cat R ++ f)) with (zlen ([58;58] ++ cat R ++ f)). rewrite !zlen_app, !zlen_cons. change (zlen (@nil Z)) with 0. lia. }
      split; [constructor|]. split; [exact Hr|]. split; [exact L7|]. reflexivity.
    + set (l := l0 :: l') in *.
      assert (EL : with_colons l ++ [58; 58] ++ cat R ++ f = cat l ++ [58] ++ cat R ++ f) by (rewrite (cat_with_colons l) by discriminate; rewrite <- app_assoc; reflexivity).
      rewrite EL.
      apply exact_B; [apply groups_full, Hl|apply groups_full, GR|exact Hf|apply groups_plain, Hl|apply groups_plain, GR|exact Pf|discriminate| |exact HI|].
      { rewrite !zlen_app, zlen_cons. change (zlen (@nil Z)) with 0. pose proof (zlen_nonneg R). pose proof (zlen_nonneg l). lia. }
      split; [exact Hl|]. split; [exact Hr|]. split; [exact L7|]. reflexivity.
Qed.

Lemma seven_rejected b t v j ip : seven_doubled t -> zlen ip = 16 -> ip6Parse ((lead b ++ t) ++ 0 :: j) ip <> Ok (1, v).
Proof.
  intros (l & Hl & L7 & ->) HI. assert (N : l <> []) by (intros ->; discriminate).
  replace (with_colons l ++ [58; 58]) with (cat l ++ [58] ++ cat [] ++ []) by (rewrite (cat_with_colons l N), <- app_assoc; reflexivity).
  pose proof (zlen_cat_groups l Hl). pose proof (zlen_lead b).
  intro E. apply exact_B in E; [|apply groups_full, Hl|constructor|left; split; reflexivity|apply groups_plain, Hl|constructor|constructor|intros _; exact N| |exact HI].
  - destruct E as (_ & _ & E & _). change (zlen (@nil (list Z))) with 0 in E. lia.
  - rewrite !zlen_app, zlen_cons. change (zlen (cat [])) with 0. change (zlen (@nil Z)) with 0. lia.
Qed.

Lemma accepted_said s v j ip : ~ In 0 s -> In 58 s -> Forall (fun c => blank c = false) s -> zlen ip = 16 ->
  ip6Parse (s ++ 0 :: j) ip = Ok (1, v) -> said false s v \/ said true s v.
Proof.
  intros N0 I58 NB HI E.
  assert (L100 : zlen s < 100).
  { destruct (Z.lt_ge_cases (zlen s) 100) as [|C]; [assumption|]. destruct (ip6Parse_long s j ip N0 C) as (k & E' & K). rewrite E' in E. injection E as E _. lia. }
  assert (PL : Forall plain s).
  { rewrite Forall_forall in NB |- *. intros c I. pose proof (NB c I) as B. unfold blank in B. split; [intros ->; contradiction|]. lia. }
  destruct (split_fields s) as (F & f & ES & HF & Hf).
  destruct F as [|f0 F]. { subst s. contradiction. }
  inversion_clear HF as [|? ? H0 HF'].
  assert (ES' : s = f0 ++ 58 :: (cat F ++ f)) by (rewrite ES; apply cat_cons).
  assert (PP : Forall plain f0 /\ Forall (Forall plain) F /\ Forall plain f).
  { rewrite ES' in PL. apply Forall_app in PL as (P0 & PL). inversion_clear PL as [|? ? _ PL']. apply Forall_app in PL' as (PL & Pf). split; [exact P0|]. split; [|exact Pf].
    clear - PL. induction F as [|g F IH]; [constructor|]. rewrite <- (app_nil_r (cat (g :: F))), cat_cons, app_nil_r in PL. apply Forall_app in PL as (A & B). inversion_clear B. constructor; auto. }
  destruct PP as (P0 & PF & Pf).
  (* the shape *)
  assert (SH : (Forall full F /\ f <> []) \/ exists L R, F = L ++ [] :: R /\ Forall full L /\ Forall full R /\ (f = [] -> R = [])).
  { pose proof E as E1. rewrite (ip6Parse_list s j ip N0 L100 HI) in E1. rewrite ES' in E1 at 1.
    assert (X : exists i, 1 <= i /\ lpass1 (f0 ++ 58 :: cat F ++ f) (mkp1 1 (-1) 0 0 0) = lpass1 (cat F ++ f) (mkp1 1 (-1) 1 58 i)).
    { destruct f0 as [|x f0]; [exists 1; split; [lia|reflexivity]|]. rewrite (lpass1_field (x :: f0) 1 (-1) 0 0 0 (cat F ++ f) H0) by discriminate.
      exists (0 + zlen (x :: f0) + 1). split; [rewrite zlen_cons; pose proof (zlen_nonneg f0); lia|reflexivity]. }
    destruct X as (i & I1 & X). rewrite X in E1. pose proof (first_ends F f 1 1 i HF' Hf) as FE.
    destruct (lpass1 (cat F ++ f) (mkp1 1 (-1) 1 58 i)) as [k|g].
    - exfalso. injection E1 as K _. lia.
    - destruct FE as [FE|[FE|[(A & B & _)|(L & R & A & B & C & D & _)]]]; [|lia|left; split; assumption|right; exists L, R; repeat split; assumption].
      exfalso. rewrite FE in E1. injection E1 as K _. lia. }
  (* seven groups and a double colon are excluded *)
  assert (NS : forall b t, s = lead b ++ t -> ~ seven_doubled t).
  { intros b t -> H. exact (seven_rejected b t v j ip H HI E). }
  assert (FF : f <> [] -> full f) by (intro; split; assumption).
  destruct SH as [(A & B)|(L & R & -> & HL & HR & HfR)].
  - destruct f0 as [|x f0].
    + change s with s in *. assert (ET : s = lead true ++ cat F ++ f) by exact ES'.
      rewrite ET in E. apply exact_A in E; [|exact A|exact (FF B)|exact PF|exact Pf|discriminate|rewrite <- ET; exact L100|exact HI].
      destruct E as (G & L7 & ->). right. exists (cat F ++ f). split; [exact ET|].
      assert (NF : F <> []) by (intros ->; discriminate).
      split; [rewrite (cat_with_colons F NF), !in_app_iff; left; right; left; reflexivity|].
      split; [intros _; rewrite (cat_with_colons F NF), <- app_assoc; apply with_colons_hd; assumption|].
      split; [rewrite <- with_colons_cat; apply eight; [exact G|rewrite app_length; cbn [length]; unfold zlen in L7; lia]|]. exact (NS true _ ET).
    + assert (ET : s = lead false ++ cat ((x :: f0) :: F) ++ f) by exact ES.
      assert (F0 : full (x :: f0)) by (split; [exact H0|discriminate]).
      rewrite ET in E. apply exact_A in E; [|constructor; assumption|exact (FF B)|constructor; assumption|exact Pf|discriminate|rewrite <- ET; exact L100|exact HI].
      destruct E as (G & L7 & ->). left. exists (cat ((x :: f0) :: F) ++ f). split; [exact ET|].
      split; [rewrite (cat_with_colons ((x :: f0) :: F)) by discriminate; rewrite !in_app_iff; left; right; left; reflexivity|].
      split; [discriminate|].
      split; [rewrite <- with_colons_cat; apply eight; [exact G|rewrite app_length; cbn [length]; unfold zlen in L7; cbn [length] in L7; lia]|]. exact (NS false _ ET).
  - apply Forall_app in PF as (PL2 & PR). inversion_clear PR as [|? ? _ PR'].
    assert (Hf' : f = [] /\ R = [] \/ full f) by (destruct f; [left; split; auto|right; apply FF; discriminate]).
    pose proof (with_colons_rest R f HfR) as W.
    assert (LR : zlen (rest R f) <= zlen R + 1) by (destruct f; cbn [rest]; [change (zlen (@nil (list Z))) with 0; pose proof (zlen_nonneg R); lia|rewrite zlen_app, zlen_cons; change (zlen (@nil (list Z))) with 0; lia]).
    destruct f0 as [|x f0].
    + assert (ET : s = lead true ++ cat L ++ [58] ++ cat R ++ f) by (rewrite ES'; rewrite cat_app, <- app_assoc, cat_cons; reflexivity).
      rewrite ET in E. apply exact_B in E; [|exact HL|exact HR|exact Hf'|exact PL2|exact PR'|exact Pf|discriminate|rewrite <- ET; exact L100|exact HI].
      destruct E as (G & GR & L7 & ->).
      destruct L as [|l0 L].
      * left. exists s. split; [reflexivity|]. split; [exact I58|]. split; [discriminate|]. split; [|exact (NS false s eq_refl)].
        rewrite ET. change (lead true ++ cat [] ++ [58] ++ cat R ++ f) with (with_colons [] ++ [58; 58] ++ cat R ++ f). rewrite <- W.
        apply doubled; [constructor|exact GR|]. change (zlen (@nil (list Z))) with 0 in *. lia.
      * right. set (L0 := l0 :: L) in *. exists (cat L0 ++ [58] ++ cat R ++ f). split; [exact ET|].
        assert (EL : cat L0 ++ [58] ++ cat R ++ f = with_colons L0 ++ [58; 58] ++ cat R ++ f) by (rewrite (cat_with_colons L0) by discriminate; rewrite <- app_assoc; reflexivity).
        split; [rewrite in_app_iff; right; left; reflexivity|].
        split; [intros _; rewrite EL; apply with_colons_hd; [exact HL|discriminate]|]. split; [|exact (NS true _ ET)].
        rewrite EL, <- W. apply doubled; [exact G|exact GR|lia].
    + assert (ET : s = lead false ++ cat ((x :: f0) :: L) ++ [58] ++ cat R ++ f) by (rewrite ES'; rewrite cat_app, <- app_assoc, !cat_cons; reflexivity).
      assert (F0 : full (x :: f0)) by (split; [exact H0|discriminate]).
      rewrite ET in E. apply exact_B in E; [|constructor; assumption|exact HR|exact Hf'|constructor; assumption|exact PR'|exact Pf|discriminate|rewrite <- ET; exact L100|exact HI].
      destruct E as (G & GR & L7 & ->). left. set (L0 := (x :: f0) :: L) in *. exists (cat L0 ++ [58] ++ cat R ++ f). split; [exact ET|].
      assert (EL : cat L0 ++ [58] ++ cat R ++ f = with_colons L0 ++ [58; 58] ++ cat R ++ f) by (rewrite (cat_with_colons L0) by discriminate; rewrite <- app_assoc; reflexivity).
      split; [rewrite in_app_iff; right; left; reflexivity|].
      split; [discriminate|]. split; [|exact (NS false _ ET)].
      rewrite EL, <- W. apply doubled; [exact G|exact GR|lia].
Qed.
