(** A statement about one byte can be checked for all 256 of them. *)
From Verif Require Import CBase.
Definition all_bytes : list Z := map Z.of_nat (seq 0 256).
Lemma byte_all (P : Z -> bool) : forallb P all_bytes = true -> forall b, byte b -> P b = true.
Proof.
  intros H b Hb. rewrite forallb_forall in H. apply H. unfold all_bytes. apply in_map_iff. exists (Z.to_nat b). unfold byte in Hb. split; [lia|]. apply in_seq. lia.
Qed.
Lemma byte_eqb (f g : Z -> Z) : forallb (fun b => f b =? g b) all_bytes = true -> forall b, byte b -> f b = g b.
Proof. intros H b Hb. pose proof (byte_all _ H b Hb) as E. cbn beta in E. lia. Qed.
Lemma byte_bool (f g : Z -> bool) : forallb (fun b => Bool.eqb (f b) (g b)) all_bytes = true -> forall b, byte b -> f b = g b.
Proof. intros H b Hb. pose proof (byte_all _ H b Hb) as E. cbn beta in E. apply Bool.eqb_prop in E. exact E. Qed.
