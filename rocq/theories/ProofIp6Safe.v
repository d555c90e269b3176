(** Proofs about ModelIp6: ip6Parse is safe. *)
From Verif Require Import CBase Bits ModelIp6 SpecIp6 ProofIp6.

Definition inv2 (st : pass2) : Prop := 0 <= p2_out st /\ zlen (p2_ip st) = 16 /\ 0 <= p2_index st.

Lemma second_step_ok af db cl c x st : inv2 st ->
  (exists k, second_step af db cl c x st = Ok (Return k) /\ k < 0) \/ (exists st', second_step af db cl c x st = Ok (Go st') /\ inv2 st').
Proof.
  intros (HO & HL & HI). unfold second_step. destruct (hex_digit c cl) as [k|h]; [left; eexists; split; [reflexivity|lia]|]. cbv zeta.
  match goal with |- context [if ?a && (?b =? 5) && ?d then _ else _] => destruct (a && (b =? 5) && d) end; [left; eexists; split; [reflexivity|lia]|].
  set (q := match h with Some _ => _ | None => _ end). clearbody q.
  set (d2 := if (c =? 58) && negb (p2_index st =? db) && _ then 0 else _). clearbody d2.
  set (here := (c =? 58) && (p2_index st =? db)). clearbody here.
  destruct (here && (_ || _)); [left; eexists; split; [reflexivity|lia]|].
  destruct (here && (8 <=? _)) eqn:G1; [left; eexists; split; [reflexivity|lia]|].
  set (cur := if here then 8 - af else p2_current st).
  destruct (here && (cur <? 0)) eqn:G2; [left; eexists; split; [reflexivity|lia]|].
  assert (Hout : 0 <= (if here then cur * 2 else p2_out st)) by (destruct here; [cbn [andb] in G2; lia|lia]).
  set (out := if here then cur * 2 else p2_out st) in *. clearbody out cur.
  match goal with |- context [if ?b then (if 16 <=? _ then _ else _) else _] => destruct b end; [|right; eexists; split; [reflexivity|split; [|split]; cbn [p2_out p2_ip p2_index]; first [assumption|lia]]].
  destruct (16 <=? out + 1) eqn:G3; [left; eexists; split; [reflexivity|lia]|].
  rewrite wr_ok by lia. cbn [bind]. rewrite wr_ok by (rewrite zlen_zupd; lia). cbn [bind].
  right. eexists. split; [reflexivity|]. split; [|split]; cbn [p2_out p2_ip p2_index]; [lia|rewrite !zlen_zupd; exact HL|lia].
Qed.
Lemma lpass2_ok af db cl : forall s st, inv2 st ->
  (exists k, lpass2 af db cl s st = Ok (Return k) /\ k < 0) \/ (exists st', lpass2 af db cl s st = Ok (Go st') /\ inv2 st').
Proof.
  induction s as [|c s IH]; intros st H; cbn [lpass2]; [right; eauto|].
  destruct (second_step_ok af db cl c (hd 0 s) st H) as [(k & -> & K)|(st' & -> & H')]; cbn [bind]; [left; eauto|apply IH, H'].
Qed.
Lemma inv2_start : inv2 (mkp2 0 0 0 0 0 (repeat 0 16) 0).
Proof. repeat split; cbn; lia. Qed.

Theorem ip6Parse_safe s j ip : ~ In 0 s -> zlen ip = 16 -> exists k v, ip6Parse (s ++ 0 :: j) ip = Ok (k, v) /\ zlen v = 16.
Proof.
  intros HN HL. destruct (Z.lt_ge_cases (zlen s) 100) as [C|C].
  - rewrite (ip6Parse_list s j ip HN C HL). destruct (lpass1 s _) as [k|f]; [eauto|]. destruct (_ && _); [eauto|].
    destruct (lpass2_ok (p1_after f) (p1_double f) (p1_colons f) s _ inv2_start) as [(k & -> & K)|(st' & -> & H')]; cbn [bind].
    + do 2 eexists; split; reflexivity.
    + do 2 eexists; split; [reflexivity|apply H'].
  - destruct (ip6Parse_long s j ip HN C) as (k & E & K). eauto.
Qed.
