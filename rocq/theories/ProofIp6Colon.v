(** Proofs about ModelIp6: strings with colons and without blanks. *)
From Verif Require Import CBase Bits ModelIp6 SpecIp6 ProofIp6 ProofIp6Safe.

(** ** Fields *)
(** Fields, each followed by a colon. *)
Definition cat (F : list (list Z)) : list Z := flat_map (fun f => f ++ [58]) F.
Definition field (f : list Z) : Prop := ~ In 58 f.
Lemma split_fields : forall s, exists F f, s = cat F ++ f /\ Forall field F /\ field f.
Proof.
  induction s as [|c s (F & f & -> & HF & Hf)]; [exists [], []; repeat split; [constructor|intros []]|].
  destruct (Z.eq_dec c 58) as [->|N].
  - exists ([] :: F), f. repeat split; [|exact Hf]. constructor; [intros []|exact HF].
  - destruct F as [|g F].
    + exists [], (c :: f). repeat split; [constructor|]. intros [E|E]; [lia|exact (Hf E)].
    + exists ((c :: g) :: F), f. repeat split; [|exact Hf]. inversion HF; subst. constructor; [|assumption]. intros [E|E]; [lia|auto].
Qed.
Lemma cat_app F G : cat (F ++ G) = cat F ++ cat G.
Proof. apply flat_map_app. Qed.
Lemma cat_cons f F t : cat (f :: F) ++ t = f ++ 58 :: (cat F ++ t).
Proof. cbn [cat flat_map]. fold (cat F). rewrite <- !app_assoc. reflexivity. Qed.
Lemma with_colons_cat : forall F f, with_colons (F ++ [f]) = cat F ++ f.
Proof.
  induction F as [|g F IH]; intro f; [reflexivity|]. rewrite cat_cons, <- IH. cbn [app with_colons].
  destruct F; reflexivity.
Qed.

(** ** The first pass *)
Lemma lpass1_plain : forall f a d c l i t, field f -> f <> [] ->
  exists l', l' <> 58 /\ lpass1 (f ++ t) (mkp1 a d c l i) = lpass1 t (mkp1 a d c l' (i + zlen f)).
Proof.
  induction f as [|x f IH]; intros a d c l i t Hf N; [contradiction|].
  assert (x <> 58) by (intro; apply Hf; left; auto).
  cbn [app lpass1]. cbv zeta. cbn [p1_last p1_double p1_after p1_colons p1_index].
  replace (x =? 58) with false by lia. rewrite !andb_false_r. cbn [andb].
  destruct f as [|y f].
  - exists x. split; [assumption|]. reflexivity.
  - destruct (IH a d c x (i + 1) t) as (l' & L & E); [intro; apply Hf; right; auto|discriminate|].
    exists l'. split; [exact L|]. rewrite E. rewrite (zlen_cons x). f_equal. f_equal. lia.
Qed.
(** A field that is not empty and its colon. *)
Lemma lpass1_field f a d c l i t : field f -> f <> [] ->
  lpass1 (f ++ 58 :: t) (mkp1 a d c l i) = lpass1 t (mkp1 (if d =? -1 then a else a + 1) d (c + 1) 58 (i + zlen f + 1)).
Proof.
  intros Hf N. destruct (lpass1_plain f a d c l i (58 :: t) Hf N) as (l' & L & ->).
  cbn [lpass1]. cbv zeta. cbn [p1_last p1_double p1_after p1_colons p1_index].
  replace (l' =? 58) with false by lia. change (58 =? 58) with true. cbn [andb negb]. destruct (d =? -1); reflexivity.
Qed.
(** An empty field and its colon, after a colon. *)
Lemma lpass1_empty a d c i t :
  lpass1 (58 :: t) (mkp1 a d c 58 i) = if d =? -1 then lpass1 t (mkp1 a i (c + 1) 58 (i + 1)) else Return (- (i + 1)).
Proof.
  cbn [lpass1]. cbv zeta. cbn [p1_last p1_double p1_after p1_colons p1_index]. change (58 =? 58) with true. cbn [andb negb].
  destruct (d =? -1); reflexivity.
Qed.
(** All fields not empty. *)
Definition full (f : list Z) : Prop := field f /\ f <> [].
Lemma lpass1_full : forall F a d c i t, Forall full F ->
  lpass1 (cat F ++ t) (mkp1 a d c 58 i) = lpass1 t (mkp1 (if d =? -1 then a else a + zlen F) d (c + zlen F) 58 (i + zlen (cat F))).
Proof.
  induction F as [|f F IH]; intros a d c i t H.
  - cbn [cat flat_map app]. change (zlen (@nil Z)) with 0. change (zlen (@nil (list Z))) with 0. rewrite !Z.add_0_r. destruct (d =? -1); reflexivity.
  - inversion_clear H as [|? ? (H1 & H2) H3]. rewrite cat_cons, (lpass1_field f _ _ _ _ _ _ H1 H2), (IH _ _ _ _ _ H3).
    rewrite zlen_cons. assert (zlen (cat (f :: F)) = zlen f + 1 + zlen (cat F)) as ->.
    { rewrite <- (app_nil_r (cat (f :: F))), cat_cons, app_nil_r, zlen_app, zlen_cons. lia. }
    f_equal. destruct (d =? -1); f_equal; lia.
Qed.
(** Every list of fields is one of these. *)
Lemma fields_split : forall F, Forall field F -> Forall full F \/ exists L R, F = L ++ [] :: R /\ Forall full L.
Proof.
  induction F as [|f F IH]; intro H; [left; constructor|]. inversion_clear H.
  destruct f as [|x f]; [right; exists [], F; split; [reflexivity|constructor]|].
  destruct (IH H1) as [A|(L & R & -> & HL)]; [left; constructor; [split; [assumption|discriminate]|assumption]|].
  right. exists ((x :: f) :: L), R. split; [reflexivity|constructor; [split; [assumption|discriminate]|assumption]].
Qed.

(** The end of the first pass. *)
Definition ends (s : list Z) : option (Z * Z * Z) :=
  match lpass1 s (mkp1 1 (-1) 0 0 0) with
  | Return _ => None
  | Go f => if (p1_last f =? 58) && negb (p1_double f =? p1_index f - 1) then None else Some (p1_after f, p1_double f, p1_colons f)
  end.

Lemma lpass1_last : forall f a d c l i, field f -> f <> [] -> exists l', l' <> 58 /\ lpass1 f (mkp1 a d c l i) = Go (mkp1 a d c l' (i + zlen f)).
Proof. intros f a d c l i Hf N. destruct (lpass1_plain f a d c l i [] Hf N) as (l' & L & E). rewrite app_nil_r in E. exists l'. split; [exact L|]. exact E. Qed.

(** After the first colon: there is no empty field (and the last one is not empty), or just one, at [L] (and the
    last field may be empty if it is just after it). *)
Lemma first_ends F f a c i : Forall field F -> field f ->
  match lpass1 (cat F ++ f) (mkp1 a (-1) c 58 i) with
  | Return k => k < 0 \/ i < 1
  | Go g => (p1_last g =? 58) && negb (p1_double g =? p1_index g - 1) = true \/ i < 1 \/
      (Forall full F /\ f <> [] /\ p1_after g = a /\ p1_double g = -1 /\ p1_colons g = c + zlen F) \/
      (exists L R, F = L ++ [] :: R /\ Forall full L /\ Forall full R /\ (f = [] -> R = []) /\ p1_after g = a + zlen R /\ p1_double g = i + zlen (cat L) /\ p1_colons g = c + zlen F)
  end.
Proof.
  intros HF Hf. destruct (Z.lt_ge_cases i 1) as [I|I]; [destruct (lpass1 _ _); auto|].
  destruct (fields_split F HF) as [A|(L & R & -> & HL)].
  - rewrite (lpass1_full F _ _ _ _ _ A). change (-1 =? -1) with true. cbv iota.
    destruct f as [|x f].
    + cbn [lpass1 p1_last p1_double p1_index]. left. pose proof (zlen_nonneg (cat F)). change (58 =? 58) with true. cbn [andb]. lia.
    + destruct (lpass1_last (x :: f) a (-1) (c + zlen F) 58 (i + zlen (cat F)) Hf ltac:(discriminate)) as (l & Hl & ->).
      right; right; left. cbn [p1_after p1_double p1_colons]. split; [exact A|]. split; [discriminate|]. repeat split; reflexivity.
  - rewrite cat_app, <- app_assoc, (lpass1_full L _ _ _ _ _ HL). change (-1 =? -1) with true. cbv iota.
    rewrite cat_cons. cbn [app]. rewrite lpass1_empty. change (-1 =? -1) with true. cbv iota.
    apply Forall_app in HF as (_ & HF). inversion_clear HF as [|? ? _ HR].
    assert (D : i + zlen (cat L) =? -1 = false) by (pose proof (zlen_nonneg (cat L)); lia).
    destruct (fields_split R HR) as [B|(L2 & R2 & -> & HL2)].
    + rewrite (lpass1_full R _ _ _ _ _ B), D. cbv iota.
      destruct f as [|x f].
      * cbn [lpass1 p1_last p1_double p1_index p1_after p1_colons]. change (58 =? 58) with true. cbn [andb].
        destruct R as [|r R].
        -- right; right; right. exists L, []. rewrite zlen_app, zlen_cons. repeat split; try assumption; try lia.
        -- left. pose proof (zlen_nonneg (cat (r :: R))). rewrite <- (app_nil_r (cat (r :: R))), cat_cons, app_nil_r, zlen_app, zlen_cons.
           pose proof (zlen_nonneg r). pose proof (zlen_nonneg (cat R)). lia.
      * destruct (lpass1_last (x :: f) (a + zlen R) (i + zlen (cat L)) (c + zlen L + 1 + zlen R) 58 (i + zlen (cat L) + 1 + zlen (cat R)) Hf ltac:(discriminate)) as (l & Hl & ->).
        right; right; right. exists L, R. cbn [p1_after p1_double p1_colons]. rewrite zlen_app, zlen_cons. repeat split; try assumption; try lia. discriminate.
    + rewrite cat_app, <- app_assoc, (lpass1_full L2 _ _ _ _ _ HL2), D. cbv iota. rewrite cat_cons. cbn [app]. rewrite lpass1_empty, D.
      left. pose proof (zlen_nonneg (cat L)). pose proof (zlen_nonneg (cat L2)). lia.
Qed.
