(** Shared C-semantics base of the model.

    - [res A] is the outcome of a modelled C function:
        [Ok a]   normal return of value [a] (including "data" error codes),
        [Fail]   the function returned its documented failure value (NULL, -1,
                 JS_ERROR ... by the [goto catch] convention of the code),
        [Bad f]  the C program would perform an undefined or unintended memory
                 access / operation of kind [f].  Theorems show it unreachable or
                 exhibit a witness.
    - C integers are [Z]; wrap-around is written explicitly with [u8 u16 u32 ...]. *)
From Coq Require Export ZArith List Bool Lia.
From Coq Require Export ZifyBool ZifyNat.
Export ListNotations.
Open Scope Z_scope.
Ltac Zify.zify_post_hook ::= Z.div_mod_to_equations.

Inductive fault :=
| OutOfBounds     (* access outside the allocated object *)
| Uninit          (* read of allocated but never written / stale bytes *)
| NullDeref       (* NULL pointer dereference *)
| DivZero         (* division or modulo by zero *)
| UseAfterFree    (* access through a dangling pointer *)
| SignedOverflow  (* signed integer overflow *)
| NoFuel.         (* the model's loop bound was exhausted: loop may not terminate *)

Inductive res (A : Type) :=
| Ok (a : A)
| Fail
| Bad (f : fault).
Arguments Ok {A} _.
Arguments Fail {A}.
Arguments Bad {A} _.

Definition bind {A B} (m : res A) (k : A -> res B) : res B :=
  match m with Ok a => k a | Fail => Fail | Bad f => Bad f end.

Notation "x <- m ;; k" := (bind m (fun x => k))
  (at level 100, m at next level, right associativity).
Notation "' pat <- m ;; k" := (bind m (fun x => match x with pat => k end))
  (at level 100, pat pattern, m at next level, right associativity).

(** [safe r]: the run never reaches a [Bad] outcome. *)
Definition safe {A} (r : res A) : Prop := forall f, r <> Bad f.

Lemma bind_Ok {A B} (m : res A) (k : A -> res B) b :
  bind m k = Ok b -> exists a, m = Ok a /\ k a = Ok b.
Proof. destruct m; cbn; intros; try discriminate; eauto. Qed.

Lemma bind_Bad {A B} (m : res A) (k : A -> res B) f :
  bind m k = Bad f -> m = Bad f \/ exists a, m = Ok a /\ k a = Bad f.
Proof. destruct m; cbn; intros; try discriminate; eauto. left; congruence. Qed.

Lemma safe_bind {A B} (m : res A) (k : A -> res B) :
  safe m -> (forall a, m = Ok a -> safe (k a)) -> safe (bind m k).
Proof.
  intros Hm Hk f Hb. apply bind_Bad in Hb as [Hb|(a&Ha&Hb)].
  - exact (Hm f Hb).
  - exact (Hk a Ha f Hb).
Qed.

Lemma safe_Ok {A} (a : A) : safe (Ok a).
Proof. intros f; discriminate. Qed.
Lemma safe_Fail {A} : safe (@Fail A).
Proof. intros f; discriminate. Qed.

(** Truncations to C unsigned types and reinterpretation as signed char. *)
Definition u8 (z : Z) : Z := z mod 256.
Definition u16 (z : Z) : Z := z mod 65536.
Definition u32 (z : Z) : Z := z mod 4294967296.
Definition i8 (z : Z) : Z := let b := z mod 256 in if b <? 128 then b else b - 256.
Definition i16 (z : Z) : Z :=
  let b := z mod 65536 in if b <? 32768 then b else b - 65536.
Definition i32 (z : Z) : Z :=
  let b := z mod 4294967296 in if b <? 2147483648 then b else b - 4294967296.

Definition byte (b : Z) : Prop := 0 <= b < 256.
Definition bytes (l : list Z) : Prop := Forall byte l.

(** Length and (guarded) indexing with [Z] indices. *)
Definition zlen {A} (l : list A) : Z := Z.of_nat (length l).

Definition zget (l : list Z) (i : Z) : option Z :=
  if i <? 0 then None else nth_error l (Z.to_nat i).

(** Read of element [i] of an object whose contents are exactly [l]. *)
Definition rd (l : list Z) (i : Z) : res Z :=
  match zget l i with Some b => Ok b | None => Bad OutOfBounds end.

(** Functional update in place; [None] when out of range. *)
Fixpoint upd_nat (l : list Z) (i : nat) (v : Z) : list Z :=
  match l, i with
  | [], _ => []
  | _ :: t, O => v :: t
  | h :: t, S j => h :: upd_nat t j v
  end.

Definition zupd (l : list Z) (i : Z) (v : Z) : list Z :=
  if i <? 0 then l else upd_nat l (Z.to_nat i) v.

(** Write of element [i]. *)
Definition wr (l : list Z) (i v : Z) : res (list Z) :=
  if (0 <=? i) && (i <? zlen l) then Ok (zupd l i v) else Bad OutOfBounds.

(** The sub-list [l[i .. i+n)] (clipped). *)
Definition zslice (l : list Z) (i n : Z) : list Z :=
  firstn (Z.to_nat n) (skipn (Z.to_nat i) l).

(** Decidable equality of byte strings. *)
Fixpoint zlist_eqb (a b : list Z) : bool :=
  match a, b with
  | [], [] => true
  | x :: a', y :: b' => (x =? y) && zlist_eqb a' b'
  | _, _ => false
  end.

(** ** Basic facts *)
Lemma zlist_eqb_spec a b : zlist_eqb a b = true <-> a = b.
Proof.
  revert b; induction a as [|x a IH]; intros [|y b]; cbn; split; intros H;
    try reflexivity; try discriminate.
  - apply andb_true_iff in H as [H1 H2]. apply Z.eqb_eq in H1. apply IH in H2. congruence.
  - injection H as -> ->. rewrite Z.eqb_refl. cbn. apply IH; reflexivity.
Qed.

Lemma zlist_eqb_refl a : zlist_eqb a a = true.
Proof. apply zlist_eqb_spec; reflexivity. Qed.

Lemma zlist_eqb_neq a b : zlist_eqb a b = false <-> a <> b.
Proof.
  split; intros H.
  - intros E. apply zlist_eqb_spec in E. congruence.
  - destruct (zlist_eqb a b) eqn:E; [apply zlist_eqb_spec in E; congruence|reflexivity].
Qed.

Lemma zlist_eq_dec (a b : list Z) : {a = b} + {a <> b}.
Proof. apply list_eq_dec, Z.eq_dec. Defined.

Lemma zlen_nonneg {A} (l : list A) : 0 <= zlen l.
Proof. unfold zlen; lia. Qed.

Lemma zlen_app {A} (l m : list A) : zlen (l ++ m) = zlen l + zlen m.
Proof. unfold zlen; rewrite app_length; lia. Qed.

Lemma zlen_cons {A} (x : A) l : zlen (x :: l) = zlen l + 1.
Proof. unfold zlen; cbn [length]; lia. Qed.

Lemma zlen_nil {A} : zlen (@nil A) = 0.
Proof. reflexivity. Qed.

Lemma zget_some l i : 0 <= i < zlen l -> exists b, zget l i = Some b.
Proof.
  intros H. unfold zget, zlen in *. destruct (Z.ltb_spec i 0); [lia|].
  destruct (nth_error l (Z.to_nat i)) eqn:E; [eauto|].
  apply nth_error_None in E. lia.
Qed.

Lemma zget_range l i b : zget l i = Some b -> 0 <= i < zlen l.
Proof.
  unfold zget, zlen. destruct (Z.ltb_spec i 0); [discriminate|].
  intros E. assert (Z.to_nat i < length l)%nat by (apply nth_error_Some; congruence). lia.
Qed.

Lemma zget_none l i : zget l i = None <-> (i < 0 \/ zlen l <= i).
Proof.
  split.
  - intros H. destruct (Z_lt_dec i 0); [lia|]. destruct (Z_lt_dec i (zlen l)); [|lia].
    destruct (zget_some l i) as [b Hb]; [lia|congruence].
  - intros H. destruct (zget l i) eqn:E; [|reflexivity]. apply zget_range in E. lia.
Qed.

Lemma zget_bytes l i b : bytes l -> zget l i = Some b -> byte b.
Proof.
  unfold zget. intros Hl. destruct (i <? 0); [discriminate|].
  intros E. apply nth_error_In in E. revert b E. apply Forall_forall. exact Hl.
Qed.

Lemma zget_app_l l m i : i < zlen l -> zget (l ++ m) i = zget l i.
Proof.
  unfold zget, zlen. intros H. destruct (Z.ltb_spec i 0); [reflexivity|].
  apply nth_error_app1. lia.
Qed.

Lemma zget_app_r l m i : zlen l <= i -> zget (l ++ m) i = zget m (i - zlen l).
Proof.
  unfold zget, zlen. intros H.
  destruct (Z.ltb_spec i 0); [lia|]. destruct (Z.ltb_spec (i - Z.of_nat (length l)) 0); [lia|].
  rewrite nth_error_app2 by lia. f_equal. lia.
Qed.

Lemma zget_cons_0 x l : zget (x :: l) 0 = Some x.
Proof. reflexivity. Qed.

Lemma zget_cons_S x l i : 0 < i -> zget (x :: l) i = zget l (i - 1).
Proof.
  intros H. unfold zget. destruct (Z.ltb_spec i 0); [lia|]. destruct (Z.ltb_spec (i-1) 0); [lia|].
  replace (Z.to_nat i) with (S (Z.to_nat (i - 1))) by lia. reflexivity.
Qed.

Lemma rd_ok l i : 0 <= i < zlen l -> exists b, rd l i = Ok b /\ zget l i = Some b.
Proof. intros H. destruct (zget_some l i H) as [b Hb]. exists b. unfold rd. rewrite Hb. auto. Qed.

Lemma rd_Ok_inv l i b : rd l i = Ok b -> zget l i = Some b.
Proof. unfold rd. destruct (zget l i); congruence. Qed.

Lemma rd_not_Fail l i : rd l i <> Fail.
Proof. unfold rd. destruct (zget l i); discriminate. Qed.

Lemma rd_of_zget l i b : zget l i = Some b -> rd l i = Ok b.
Proof. unfold rd. intros ->. reflexivity. Qed.

Lemma safe_rd l i : 0 <= i < zlen l -> safe (rd l i).
Proof. intros H. destruct (rd_ok l i H) as (b&Hb&_). rewrite Hb. apply safe_Ok. Qed.

Lemma length_upd_nat l i v : length (upd_nat l i v) = length l.
Proof. revert i; induction l; intros [|i]; cbn; auto. Qed.

Lemma zlen_zupd l i v : zlen (zupd l i v) = zlen l.
Proof. unfold zupd, zlen. destruct (i <? 0); [reflexivity|]. now rewrite length_upd_nat. Qed.

Lemma nth_error_upd_nat_eq l i v : (i < length l)%nat -> nth_error (upd_nat l i v) i = Some v.
Proof. revert i; induction l; intros [|i]; cbn; intros; try lia; auto. apply IHl; lia. Qed.

Lemma nth_error_upd_nat_neq l i j v : i <> j -> nth_error (upd_nat l i v) j = nth_error l j.
Proof. revert i j; induction l; intros [|i] [|j]; cbn; intros; try congruence; auto. Qed.

Lemma zget_zupd_eq l i v : 0 <= i < zlen l -> zget (zupd l i v) i = Some v.
Proof.
  unfold zget, zupd, zlen. intros H. destruct (Z.ltb_spec i 0); [lia|].
  apply nth_error_upd_nat_eq. lia.
Qed.

Lemma zget_zupd_neq l i j v : i <> j -> zget (zupd l i v) j = zget l j.
Proof.
  unfold zget, zupd. intros H. destruct (Z.ltb_spec i 0); [reflexivity|].
  destruct (Z.ltb_spec j 0); [reflexivity|]. apply nth_error_upd_nat_neq. lia.
Qed.

Lemma wr_ok l i v : 0 <= i < zlen l -> wr l i v = Ok (zupd l i v).
Proof. intros H. unfold wr. replace ((0 <=? i) && (i <? zlen l)) with true; [reflexivity|]. lia. Qed.

Lemma zlen_zslice l i n : 0 <= i -> 0 <= n -> i + n <= zlen l -> zlen (zslice l i n) = n.
Proof. unfold zslice, zlen. intros. rewrite firstn_length, skipn_length. lia. Qed.

Lemma nth_error_skipn' {A} (l : list A) n m : nth_error (skipn n l) m = nth_error l (n + m).
Proof. revert l; induction n; intros [|x l]; cbn; auto. now destruct m. Qed.

Lemma nth_error_firstn' {A} (l : list A) n m : (m < n)%nat -> nth_error (firstn n l) m = nth_error l m.
Proof. revert l m; induction n; intros [|x l] [|m]; cbn; intros; try lia; auto. apply IHn; lia. Qed.

Lemma zget_zslice l i n j : 0 <= i -> 0 <= j < n -> zget (zslice l i n) j = zget l (i + j).
Proof.
  unfold zget, zslice. intros. destruct (Z.ltb_spec j 0); [lia|]. destruct (Z.ltb_spec (i+j) 0); [lia|].
  rewrite nth_error_firstn' by lia. rewrite nth_error_skipn'. f_equal. lia.
Qed.

Lemma bytes_app l m : bytes (l ++ m) <-> bytes l /\ bytes m.
Proof. apply Forall_app. Qed.

Lemma bytes_zslice l i n : bytes l -> bytes (zslice l i n).
Proof.
  intros H. apply Forall_forall. intros x Hx. unfold bytes in H. rewrite Forall_forall in H.
  apply H. unfold zslice in Hx.
  apply In_nth_error in Hx as [k Hk].
  assert (k < Z.to_nat n)%nat.
  { assert (k < length (firstn (Z.to_nat n) (skipn (Z.to_nat i) l)))%nat
      by (apply nth_error_Some; congruence).
    rewrite firstn_length in *. lia. }
  rewrite nth_error_firstn' in Hk by lia. rewrite nth_error_skipn' in Hk.
  eapply nth_error_In; eauto.
Qed.

Lemma zlist_ext (l m : list Z) :
  zlen l = zlen m -> (forall i, 0 <= i < zlen l -> zget l i = zget m i) -> l = m.
Proof.
  revert m; induction l as [|x l IH]; intros [|y m] HL H.
  - reflexivity.
  - rewrite zlen_cons, zlen_nil in HL. pose proof (zlen_nonneg m). lia.
  - rewrite zlen_cons, zlen_nil in HL. pose proof (zlen_nonneg l). lia.
  - pose proof (zlen_nonneg l). rewrite !zlen_cons in HL.
    assert (Some x = Some y) as E.
    { rewrite <- (zget_cons_0 x l), <- (zget_cons_0 y m). apply H. rewrite zlen_cons. lia. }
    injection E as ->. f_equal. apply IH; [lia|].
    intros i Hi. assert (0 <= i + 1 < zlen (y :: l)) as Hi' by (rewrite zlen_cons; lia).
    specialize (H (i + 1) Hi'). rewrite !zget_cons_S in H by lia.
    replace (i + 1 - 1) with i in H by lia. exact H.
Qed.

Lemma skipn_skipn' {A} n m (l : list A) : skipn n (skipn m l) = skipn (m + n) l.
Proof. revert l; induction m; intros [|x l]; cbn; auto. now destruct n. Qed.

Lemma zslice_app_l l m i n : 0 <= i -> 0 <= n -> i + n <= zlen l ->
  zslice (l ++ m) i n = zslice l i n.
Proof.
  intros. pose proof (zlen_nonneg m). apply zlist_ext.
  - rewrite !zlen_zslice; rewrite ?zlen_app; lia.
  - intros j Hj. rewrite zlen_zslice in Hj; rewrite ?zlen_app; try lia.
    rewrite !zget_zslice by lia. apply zget_app_l. lia.
Qed.

Lemma zslice_app_r l m i n : zlen l <= i -> 0 <= n -> i + n <= zlen l + zlen m ->
  zslice (l ++ m) i n = zslice m (i - zlen l) n.
Proof.
  intros. pose proof (zlen_nonneg l). apply zlist_ext.
  - rewrite !zlen_zslice; rewrite ?zlen_app; lia.
  - intros j Hj. rewrite zlen_zslice in Hj; rewrite ?zlen_app; try lia.
    rewrite !zget_zslice by lia. rewrite zget_app_r by lia. f_equal. lia.
Qed.

Lemma zslice_all l : zslice l 0 (zlen l) = l.
Proof. unfold zslice, zlen. rewrite Nat2Z.id. cbn. apply firstn_all. Qed.

Lemma safe_bind_rd {B} l i (k : Z -> res B) :
  0 <= i < zlen l -> (forall b, zget l i = Some b -> safe (k b)) -> safe (bind (rd l i) k).
Proof.
  intros Hi Hk. destruct (rd_ok l i Hi) as (b & Hb & Hz). rewrite Hb. cbn. apply Hk, Hz.
Qed.

(** Writing a run of bytes, and its effect on reads. *)
Definition splice (l : list Z) (off : Z) (d : list Z) : list Z :=
  firstn (Z.to_nat off) l ++ d ++ skipn (Z.to_nat off + length d) l.

Lemma zlen_splice l off d :
  0 <= off -> off + zlen d <= zlen l -> zlen (splice l off d) = zlen l.
Proof.
  intros. unfold splice. unfold zlen in *. rewrite !app_length, firstn_length, skipn_length. lia.
Qed.

Lemma zget_splice l off d i :
  0 <= off -> off + zlen d <= zlen l ->
  zget (splice l off d) i =
  if (off <=? i) && (i <? off + zlen d) then zget d (i - off) else zget l i.
Proof.
  intros Ho Hl. pose proof (zlen_nonneg d).
  destruct (Z_lt_dec i 0).
  { replace ((off <=? i) && _) with false by lia. unfold zget.
    replace (i <? 0) with true by lia. reflexivity. }
  assert (length (firstn (Z.to_nat off) l) = Z.to_nat off) as HF.
  { rewrite firstn_length. unfold zlen in *. lia. }
  unfold splice, zget, zlen in *. replace (i <? 0) with false by lia.
  destruct (Z.leb_spec off i); cbn [andb].
  - rewrite nth_error_app2 by lia. rewrite HF.
    destruct (Z.ltb_spec i (off + Z.of_nat (length d))).
    + rewrite nth_error_app1 by lia. replace (i - off <? 0) with false by lia. f_equal. lia.
    + rewrite nth_error_app2 by lia. rewrite nth_error_skipn'. f_equal. lia.
  - rewrite nth_error_app1 by lia. apply nth_error_firstn'. lia.
Qed.

Lemma zupd_splice l i v : 0 <= i < zlen l -> zupd l i v = splice l i [v].
Proof.
  intros H. apply zlist_ext.
  - rewrite zlen_zupd, zlen_splice; change (zlen [v]) with 1; lia.
  - intros j Hj. rewrite zget_splice by (change (zlen [v]) with 1; lia). change (zlen [v]) with 1.
    destruct (Z.eq_dec i j) as [->|N].
    + rewrite zget_zupd_eq by lia. replace ((j <=? j) && (j <? j + 1)) with true by lia.
      rewrite Z.sub_diag. reflexivity.
    + rewrite zget_zupd_neq by lia. replace ((i <=? j) && (j <? i + 1)) with false by lia. reflexivity.
Qed.

Lemma splice_splice l off d e :
  0 <= off -> off + zlen d + zlen e <= zlen l ->
  splice (splice l off d) (off + zlen d) e = splice l off (d ++ e).
Proof.
  intros. pose proof (zlen_nonneg d). pose proof (zlen_nonneg e).
  assert (zlen (splice l off d) = zlen l) as L1 by (apply zlen_splice; lia).
  apply zlist_ext.
  - rewrite !zlen_splice; rewrite ?L1, ?zlen_app; lia.
  - intros i Hi. rewrite !zget_splice by (rewrite ?L1, ?zlen_app; lia). rewrite zlen_app.
    destruct (Z.leb_spec (off + zlen d) i); cbn [andb].
    + destruct (Z.ltb_spec i (off + zlen d + zlen e)).
      * replace ((off <=? i) && (i <? off + (zlen d + zlen e))) with true by lia.
        rewrite zget_app_r by lia. f_equal. lia.
      * replace ((off <=? i) && (i <? off + zlen d)) with false by lia.
        replace ((off <=? i) && (i <? off + (zlen d + zlen e))) with false by lia. reflexivity.
    + destruct (Z.leb_spec off i); cbn [andb]; [|reflexivity].
      replace (i <? off + zlen d) with true by lia.
      replace (i <? off + (zlen d + zlen e)) with true by lia.
      rewrite zget_app_l by lia. reflexivity.
Qed.

Lemma zslice_splice_same l off d :
  0 <= off -> off + zlen d <= zlen l -> zslice (splice l off d) off (zlen d) = d.
Proof.
  intros. pose proof (zlen_nonneg d). apply zlist_ext.
  - rewrite zlen_zslice; rewrite ?zlen_splice; lia.
  - intros i Hi. rewrite zlen_zslice in Hi by (rewrite ?zlen_splice; lia).
    rewrite zget_zslice, zget_splice by lia.
    replace ((off <=? off + i) && (off + i <? off + zlen d)) with true by lia. f_equal. lia.
Qed.

Lemma zslice_splice_disj l off d i n :
  0 <= off -> off + zlen d <= zlen l -> 0 <= i -> 0 <= n -> i + n <= zlen l ->
  (i + n <= off \/ off + zlen d <= i) ->
  zslice (splice l off d) i n = zslice l i n.
Proof.
  intros. apply zlist_ext.
  - rewrite !zlen_zslice; rewrite ?zlen_splice; lia.
  - intros j Hj. rewrite zlen_zslice in Hj by (rewrite ?zlen_splice; lia).
    rewrite !zget_zslice, zget_splice by lia.
    replace ((off <=? i + j) && (i + j <? off + zlen d)) with false by lia. reflexivity.
Qed.

Lemma zslice_zslice l i n j m :
  0 <= i -> 0 <= j -> 0 <= m -> j + m <= n -> zslice (zslice l i n) j m = zslice l (i + j) m.
Proof.
  intros. unfold zslice. rewrite skipn_firstn_comm, firstn_firstn, skipn_skipn'.
  f_equal; [lia|f_equal; lia].
Qed.

Lemma zslice_split l i n m : 0 <= i -> 0 <= n -> 0 <= m ->
  zslice l i (n + m) = zslice l i n ++ zslice l (i + n) m.
Proof.
  intros. unfold zslice.
  rewrite <- (firstn_skipn (Z.to_nat n) (skipn (Z.to_nat i) l)) at 1.
  rewrite firstn_app. f_equal.
  - rewrite firstn_firstn. f_equal. lia.
  - rewrite skipn_skipn'. rewrite firstn_length, skipn_length.
    replace (Z.to_nat (i + n)) with (Z.to_nat i + Z.to_nat n)%nat by lia.
    destruct (le_lt_dec (Z.to_nat n) (length l - Z.to_nat i)).
    + f_equal. lia.
    + rewrite !(skipn_all2 l) by lia. now rewrite !firstn_nil.
Qed.

Lemma bytes_firstn n l : bytes l -> bytes (firstn n l).
Proof. intros H. rewrite <- (firstn_skipn n l) in H. now apply Forall_app in H. Qed.
Lemma bytes_skipn n l : bytes l -> bytes (skipn n l).
Proof. intros H. rewrite <- (firstn_skipn n l) in H. now apply Forall_app in H. Qed.

(** Deciding [bytes], for examples. *)
Definition bytesb (l : list Z) : bool := forallb (fun b => (0 <=? b) && (b <? 256)) l.
Lemma bytesb_spec l : bytesb l = true -> bytes l.
Proof.
  unfold bytesb, bytes. rewrite forallb_forall, Forall_forall. intros Hb x Hx. specialize (Hb x Hx). unfold byte. lia.
Qed.
