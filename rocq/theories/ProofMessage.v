(** The message specification is a partial function of the message. *)
From Verif Require Import CBase SpecNames SpecMessage.

Lemma name_at_det T m k p n e (H : name_at T m k p n e) : forall k' n' e', name_at T m k' p n' e' -> n' = n /\ e' = e /\ k' = k.
Proof.
  induction H as [p Hp|k p l n e Hl Hp Hs Hn IH|k p hi lo n e Hp Hhi Hlo HT Hn IH]; intros k' n' e' H';
    inversion H' as [p1 Hp1|k1 p1 l1 n1 e1 Hl1 Hp1 Hs1 Hn1|k1 p1 hi1 lo1 n1 e1 Hp1 Hhi1 Hlo1 HT1 Hn1]; subst; rewrite Hp in Hp1; apply (f_equal (fun o => match o with Some x => x | None => 0 end)) in Hp1; cbv beta iota in Hp1; try (exfalso; lia); auto.
  - rewrite <- Hp1 in Hs1, Hn1. destruct (IH _ _ _ Hn1) as (-> & -> & ->). split; [f_equal; congruence|auto].
  - subst hi1. rewrite Hlo in Hlo1. injection Hlo1 as ->. destruct (IH _ _ _ Hn1) as (-> & _ & ->). auto.
Qed.
Lemma names_at_det T m lim ns : forall p e ns' e', names_at T m lim p ns e -> names_at T m lim p ns' e' -> length ns' = length ns -> ns' = ns /\ e' = e.
Proof.
  induction ns as [|n ns IH]; intros p e [|n' ns'] e' H H' HL; cbn [length] in HL; try discriminate; inversion H; inversion H'; subst; [auto|].
  match goal with A : name_at _ _ _ _ _ _, B : name_at _ _ _ _ _ _ |- _ => destruct (name_at_det _ _ _ _ _ _ A _ _ _ B) as (-> & -> & ->) end.
  match goal with A : names_at _ _ _ _ ns _, B : names_at _ _ _ _ ns' _ |- _ => destruct (IH _ _ _ _ A B ltac:(lia)) as (-> & ->) end. auto.
Qed.
Lemma num16_inj a b x y : 0 <= a < 65536 -> 0 <= b < 65536 -> num16 a ++ x = num16 b ++ y -> a = b /\ x = y.
Proof. intros Ha Hb E. unfold num16 in E. cbn [app] in E. injection E as E1 E2 E3. split; [lia|exact E3]. Qed.
Lemma app_inj_len {A} (a b x y : list A) : length a = length b -> a ++ x = b ++ y -> a = b /\ x = y.
Proof.
  revert b. induction a as [|h a IH]; intros [|h' b] HL E; cbn [length] in HL; try discriminate; [auto|]. cbn [app] in E. injection E as -> E. destruct (IH b ltac:(lia) E) as (-> & ->). auto.
Qed.
Lemma rr_at_det T m lim p r e r' e' : rr_at T m lim p r e -> rr_at T m lim p r' e' -> r' = r /\ e' = e.
Proof.
  intros [k o rdl e2 Hk Hn Hty Hme Hrd Hfix He Hem Hlay] [k' o' rdl' e2' Hk' Hn' Hty' Hme' Hrd' Hfix' He' Hem' Hlay'].
  destruct (name_at_det _ _ _ _ _ _ Hn _ _ _ Hn') as (Eo & -> & _). rewrite Hfix in Hfix'. apply num16_inj in Hfix'; [|lia|lia]. destruct Hfix' as (Ety & Hfix').
  apply app_inj_len in Hfix'; [|unfold zlen in *; lia]. destruct Hfix' as (Eme & Hfix'). rewrite <- (app_nil_r (num16 rdl)), <- (app_nil_r (num16 rdl')) in Hfix'. apply num16_inj in Hfix'; [|lia|lia]. destruct Hfix' as (<- & _).
  subst e e'. split; [|reflexivity]. destruct r as [ow ty me le na ta], r' as [ow' ty' me' le' na' ta']. cbn [rr_owner rr_type rr_meta rr_lead rr_names rr_tail] in *. subst ow' ty' me'.
  destruct (layout ty) as [((lead & n) & tail)|].
  - destruct Hlay as (_ & -> & HL & Hns & -> & Hen). destruct Hlay' as (_ & -> & HL' & Hns' & -> & Hen'). destruct (names_at_det _ _ _ _ _ _ _ _ Hns Hns' ltac:(lia)) as (-> & ->). reflexivity.
  - destruct Hlay as (-> & -> & -> & _). destruct Hlay' as (-> & -> & -> & _). reflexivity.
Qed.
Lemma rr_at_pos T m lim p r e : rr_at T m lim p r e -> p < e.
Proof.
  intros [k o rdl e2 Hk Hn Hty Hme Hrd Hfix He Hem Hlay]. assert (p < o) by (clear -Hn; induction Hn; lia). lia.
Qed.
Lemma rrs_at_det T m lim rs : forall p e rs', rrs_at T m lim p rs e -> rrs_at T m lim p rs' e -> rs' = rs.
Proof.
  assert (forall rs p e, rrs_at T m lim p rs e -> p <= e) as Hle by (intros rs0 p e H; induction H as [|p r e rs0 e' Hr H IH]; [lia|pose proof (rr_at_pos _ _ _ _ _ _ Hr); lia]).
  induction rs as [|r rs IH]; intros p e [|r' rs'] H H'; auto; inversion H; inversion H'; subst;
    repeat match goal with A : rr_at _ _ _ _ _ _ |- _ => pose proof (rr_at_pos _ _ _ _ _ _ A); revert A end; intros;
    repeat match goal with A : rrs_at _ _ _ _ _ _ |- _ => pose proof (Hle _ _ _ A); revert A end; intros; try (exfalso; lia).
  match goal with A : rr_at _ _ _ _ r _, B : rr_at _ _ _ _ r' _ |- _ => destruct (rr_at_det _ _ _ _ _ _ _ _ A B) as (-> & ->) end. f_equal. eapply IH; eassumption.
Qed.
(** A pointer to itself is no name. *)
Lemma self_pointer T m p lo hi : zget m p = Some hi -> 192 <= hi -> zget m (p + 1) = Some lo -> (hi - 192) * 256 + lo = p -> forall k n e, ~ name_at T m k p n e.
Proof.
  intros Hp Hhi Hlo E k. induction k as [|k IH]; intros n e H; inversion H as [p1 Hp1|k1 p1 l1 n1 e1 Hl1 Hp1 Hs1 Hn1|k1 p1 hi1 lo1 n1 e1 Hp1 Hhi1 Hlo1 HT1 Hn1]; subst.
  - rewrite Hp in Hp1. injection Hp1 as ->. lia.
  - rewrite Hp in Hp1. injection Hp1 as ->. lia.
  - rewrite Hp in Hp1. injection Hp1 as ->. rewrite Hlo in Hlo1. injection Hlo1 as ->. exact (IH _ _ Hn1).
Qed.
