(** Doubly linked rings, seen through their "next" and "last" functions. *)
From Verif Require Import CBase.

Section Ring.

(** Consecutive members of [L] point at each other. *)
Fixpoint path (nx ls : Z -> option Z) (L : list Z) : Prop :=
  match L with
  | a :: ((b :: _) as r) => nx a = Some b /\ ls b = Some a /\ path nx ls r
  | _ => True
  end.

Definition cyc (nx ls : Z -> option Z) (F : list Z) : Prop :=
  match F with [] => True | a :: _ => path nx ls (F ++ [a]) end.

Lemma path_app nx ls A x B :
  path nx ls (A ++ x :: B) <-> path nx ls (A ++ [x]) /\ path nx ls (x :: B).
Proof.
  induction A as [|a A IH]; cbn [app].
  - cbn [path]. tauto.
  - destruct A as [|a' A]; cbn [app] in *.
    + cbn [path]. tauto.
    + cbn [path] in *. tauto.
Qed.

Lemma path_frame nx ls nx' ls' L :
  path nx ls L ->
  (forall a, In a (removelast L) -> nx' a = nx a) ->
  (forall b, In b (tl L) -> ls' b = ls b) -> path nx' ls' L.
Proof.
  induction L as [|a L IH]; [auto|]. destruct L as [|b L]; [auto|].
  intros (H1 & H2 & H3) HN HL. cbn [path]. split; [|split].
  - rewrite HN; [exact H1|]. left; reflexivity.
  - rewrite HL; [exact H2|]. left; reflexivity.
  - apply IH; [exact H3| |].
    + intros x Hx. apply HN. right. exact Hx.
    + intros x Hx. apply HL. right. exact Hx.
Qed.

Lemma cyc_rot1 nx ls a R : cyc nx ls (a :: R) -> cyc nx ls (R ++ [a]).
Proof.
  destruct R as [|r R]; [cbn; auto|]. cbn [cyc app]. intros H.
  change (a :: r :: R ++ [a]) with ([a] ++ r :: (R ++ [a])) in H.
  apply path_app in H as [H1 H2].
  change (path nx ls (((r :: R) ++ [a]) ++ [r])). rewrite <- app_assoc. 
  change ((r :: R) ++ [a; r]) with ((r :: R) ++ a :: [r]).
  apply path_app. split; [exact H2|exact H1].
Qed.

Lemma cyc_rot nx ls A : forall B, cyc nx ls (A ++ B) -> cyc nx ls (B ++ A).
Proof.
  induction A as [|a A IH]; intros B H; cbn [app] in *.
  - rewrite app_nil_r. exact H.
  - apply cyc_rot1 in H. rewrite <- app_assoc in H. apply IH in H. rewrite <- app_assoc in H. exact H.
Qed.

Lemma NoDup_snoc_notin (A : list Z) x : NoDup (A ++ [x]) -> ~ In x A.
Proof. intros H. apply NoDup_remove_2 in H. rewrite app_nil_r in H. exact H. Qed.

(** Facts about a ring seen from one of its members. *)
Lemma cyc_view nx ls z R : cyc nx ls (z :: R) ->
  (R = [] /\ nx z = Some z /\ ls z = Some z) \/
  (exists r l R1 R0, R = r :: R1 /\ R = R0 ++ [l] /\ nx z = Some r /\ ls z = Some l /\
     nx l = Some z /\ ls r = Some z /\ path nx ls R).
Proof.
  intros H. destruct R as [|r R1].
  - left. cbn in H. tauto.
  - right. destruct (@exists_last _ (r :: R1)) as (R0 & l & E); [discriminate|].
    exists r, l, R1, R0. split; [reflexivity|]. split; [exact E|].
    cbn [cyc] in H. cbn [app] in H.
    change (z :: r :: R1 ++ [z]) with ([z] ++ r :: (R1 ++ [z])) in H.
    apply path_app in H as [H1 H2]. cbn [app path] in H1.
    change (r :: R1 ++ [z]) with ((r :: R1) ++ [z]) in H2. rewrite E in H2.
    rewrite <- app_assoc in H2. cbn [app] in H2. apply path_app in H2 as [H2 H3]. cbn [path] in H3.
    rewrite E. tauto.
Qed.

(** Unlinking [z]. *)
Lemma cyc_unlink nx ls nx' ls' z R r l :
  NoDup (z :: R) -> cyc nx ls (z :: R) -> R <> [] ->
  nx z = Some r -> ls z = Some l ->
  (forall a, a <> l -> a <> z -> nx' a = nx a) -> nx' l = Some r ->
  (forall a, a <> r -> a <> z -> ls' a = ls a) -> ls' r = Some l ->
  cyc nx' ls' R /\ In r R /\ In l R.
Proof.
  intros HN HC HR Hr Hl Hn1 Hn2 Hl1 Hl2.
  destruct (cyc_view _ _ _ _ HC) as [[? _]|(r' & l' & R1 & R0 & E1 & E2 & P1 & P2 & P3 & P4 & P5)]; [congruence|].
  assert (r' = r) by congruence. assert (l' = l) by congruence. subst r' l'.
  inversion HN as [|? ? Hz HN']; subst x l0.
  split; [|split; [rewrite E1; left; reflexivity|rewrite E2; apply in_app_iff; right; left; reflexivity]].
  assert (path nx' ls' (R ++ [r])) as G.
  2:{ unfold cyc. clear - G E1. subst R. exact G. }
  replace (R ++ [r]) with (R0 ++ l :: [r]) by (rewrite E2, <- app_assoc; reflexivity).
  apply path_app. rewrite <- E2. split.
  - apply (path_frame nx ls); [exact P5| |].
    + intros a Ha. rewrite E2, removelast_last in Ha. apply Hn1.
      * intros ->. rewrite E2 in HN'. apply NoDup_snoc_notin in HN'. contradiction.
      * intros ->. apply Hz. rewrite E2. apply in_app_iff. left. exact Ha.
    + intros b Hb. rewrite E1 in Hb. cbn [tl] in Hb. apply Hl1.
      * intros ->. rewrite E1 in HN'. inversion HN'. contradiction.
      * intros ->. apply Hz. rewrite E1. right. exact Hb.
  - cbn [path]. tauto.
Qed.

(** Linking [n] in front of [f], the head of the ring [f :: R]. *)
Lemma cyc_link nx ls nx' ls' n f R l :
  NoDup (n :: f :: R) -> cyc nx ls (f :: R) -> ls f = Some l ->
  (forall a, a <> l -> a <> n -> nx' a = nx a) -> nx' l = Some n -> nx' n = Some f ->
  (forall a, a <> f -> a <> n -> ls' a = ls a) -> ls' f = Some n -> ls' n = Some l ->
  cyc nx' ls' (n :: f :: R).
Proof.
  intros HN HC Hl Hn1 Hn2 Hn3 Hl1 Hl2 Hl3.
  inversion HN as [|? ? Hn HN']; subst x l0.
  destruct (@exists_last _ (f :: R)) as (R0 & l' & E); [discriminate|].
  assert (path nx ls (f :: R) /\ l' = l) as [HP ->].
  { unfold cyc in HC. replace ((f :: R) ++ [f]) with (R0 ++ l' :: [f]) in HC by (rewrite E, <- app_assoc; reflexivity).
    apply path_app in HC as [HC1 HC2]. cbn [path] in HC2. rewrite <- E in HC1. split; [exact HC1|].
    destruct HC2 as (_ & H & _). congruence. }
  unfold cyc. cbn [app].
  change (n :: f :: R ++ [n]) with ([n] ++ f :: (R ++ [n])). apply path_app. split.
  - cbn [app path]. tauto.
  - change (f :: R ++ [n]) with ((f :: R) ++ [n]). rewrite E, <- app_assoc. cbn [app]. apply path_app.
    rewrite <- E. split.
    + apply (path_frame nx ls); [exact HP| |].
      * intros a Ha. rewrite E, removelast_last in Ha. apply Hn1.
        -- intros ->. rewrite E in HN'. apply NoDup_snoc_notin in HN'. contradiction.
        -- intros ->. apply Hn. rewrite E. apply in_app_iff. left. exact Ha.
      * intros b Hb. cbn [tl] in Hb. apply Hl1.
        -- intros ->. inversion HN'. contradiction.
        -- intros ->. apply Hn. right. exact Hb.
    + cbn [path]. tauto.
Qed.

Lemma cyc_last nx ls f R : cyc nx ls (f :: R) -> exists R0 l, f :: R = R0 ++ [l] /\ ls f = Some l /\ nx l = Some f.
Proof.
  intros H. destruct (@exists_last _ (f :: R)) as (R0 & l & E); [discriminate|].
  exists R0, l. split; [exact E|]. unfold cyc in H.
  replace ((f :: R) ++ [f]) with (R0 ++ l :: [f]) in H by (rewrite E, <- app_assoc; reflexivity).
  apply path_app in H as [_ H]. cbn [path] in H. tauto.
Qed.

End Ring.
