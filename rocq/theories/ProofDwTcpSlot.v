(** One slot and the clients which use it: when a query is due. *)
From Verif Require Import CBase SpecDwStr ModelDwStr ModelDwTcp SpecTcp ProofDwTcp ProofDwTcpRun ProofDwTcpSafe ProofDwTcpSend.

Definition slot_inv (cf : tconf) (sl : tworld * nat) : Prop :=
  let '(w, due) := sl in
  (due = 0%nat /\ ((exists s, bytes s /\ reading cf s w) \/ (tw_c w = tc_reset /\ tw_query w = [] /\ tw_cout w = []))) \/
  (tw_query w <> [] /\ ((due = 1%nat /\ tc_state (tw_c w) = 1 /\ tc_local (tw_c w) = true) \/ (due = 0%nat /\ (tc_state (tw_c w) = 2 \/ tw_c w = tc_reset)))).
Lemma idle_tick J cf e w : tc_state (tw_c w) = 1 \/ tw_c w = tc_reset -> tcp_handle_all J cf e w = Ok w.
Proof. intros H. assert (tcp_run J cf [Tick e] w = Ok w) as K by (apply idle_run; [constructor; [exists e; reflexivity|constructor]|exact H]). cbn [tcp_run tcp_step] in K. destruct (tcp_handle_all J cf e w); cbn [bind] in K; congruence. Qed.
Lemma slot_inv_step J cf ev sl sl' : junk_ok J -> opens_well ev -> slot_inv cf sl -> match ev with SExpire now => tc_state (tw_c (fst sl)) = 1 -> now <= tc_die (tw_c (fst sl)) | _ => True end -> slot_step J cf ev sl = Ok sl' -> slot_inv cf sl'.
Proof.
  intros HJ HE HI HP H. destruct sl as (w, due). destruct ev as [now s|e|now|now p]; cbn [slot_step fst] in *.
  - apply Ok_inj in H. subst sl'. destruct (tc_local (tw_c w)) eqn:EL; [exact HI|]. left. destruct HI as [(-> & HI)|(_ & [(_ & _ & HL)|(-> & _)])]; [| congruence|];
      (split; [reflexivity|]; left; exists s; split; [exact HE|apply accept_reading; exact HJ]).
  - destruct (tcp_handle_all J cf e w) as [w1| |] eqn:E; cbn [bind] in H; try discriminate. apply Ok_inj in H. subst sl'. destruct HI as [(-> & [(s & HB & HR)|(HC & HQ & HO)])|(HQ & [(-> & HS & HL)|(-> & HS)])].
    + destruct (tick_ok J cf s e w HJ HB HR) as (w2 & _ & _ & ((F1 & F2 & F3) & R2 & _) & HT). rewrite E in HT. destruct (reading_not_over cf s w HR) as (Q0 & _). rewrite Q0. cbn [length]. rewrite Nat.sub_0_r.
      destruct HT as [w3 HR3 _|h0 h1 n r w3 _ _ _ ->|p w3 _ _ _ _ ->|p i ar w3 _ _ _ _ HQ HS _ _ HL _ _].
      * left. rewrite (proj1 (reading_not_over cf s w3 HR3)). split; [reflexivity|]. left. exists s. auto.
      * left. cbn [close_local tw_query tw_c tw_cout]. rewrite F3. split; [reflexivity|]. right. auto.
      * left. cbn [close_local tw_query tw_c tw_cout]. rewrite F3. split; [reflexivity|]. right. auto.
      * right. rewrite HQ. split; [discriminate|]. left. auto.
    + rewrite idle_tick in E by auto. apply Ok_inj in E. subst w1. left. rewrite HQ. split; [reflexivity|]. right. auto.
    + rewrite idle_tick in E by auto. apply Ok_inj in E. subst w1. right. split; [exact HQ|]. left. split; [lia|]. auto.
    + assert (over w) as OV by (destruct HS as [HS|HS]; [left; lia|right; exact HS]). pose proof (over_step J cf (Tick e) w w1 OV E) as (_ & _ & Q1). right. rewrite Q1. split; [exact HQ|]. right. split; [lia|].
      destruct HS as [HS|HS]; [|rewrite idle_tick in E by auto; apply Ok_inj in E; subst w1; auto].
      rewrite over_tick in E by exact OV. assert (forall w', tcp_send_wanted cf e w = Ok w' -> tc_state (tw_c w') = 2 \/ tw_c w' = tc_reset) as KS.
      { intros w' E'. unfold tcp_send_wanted in E'. rewrite HS in E'. change (2 =? 2) with true in E'. cbn [negb] in E'. cbv zeta in E'. destruct (0 <? _); [|apply Ok_inj in E'; subst; right; reflexivity]. destruct (buf_of (tw_c w)) as [m| |]; cbn [bind] in E'; try discriminate.
        destruct (net_send (tc_local (tw_c w)) (te_sl e) m (tc_got (tw_c w)) (tc_wanted (tw_c w) - tc_got (tw_c w))) as [[l|]| |]; cbn [bind] in E'; try discriminate; apply Ok_inj in E'; subst w'; [left; reflexivity|left; exact HS]. }
      rewrite (rest_of J cf e w OV KS) in E. apply KS. exact E.
  - apply Ok_inj in H. subst sl'. unfold kill_tcp_expired. destruct ((0 <? tc_die (tw_c w)) && (tc_die (tw_c w) <? now)) eqn:EK; [|exact HI]. destruct HI as [(-> & [(s & HB & HR)|(HC & HQ & HO)])|(HQ & [(-> & HS & HL)|(-> & HS)])].
    + left. split; [reflexivity|]. right. destruct HR as ((F1 & F2 & F3) & _). cbn [close_local tw_c tw_query tw_cout]. auto.
    + left. split; [reflexivity|]. right. cbn [close_local tw_c tw_query tw_cout]. auto.
    + specialize (HP HS). lia.
    + right. cbn [close_local tw_query]. split; [exact HQ|]. right. split; [reflexivity|]. right. reflexivity.
  - destruct due as [|due]; [apply Ok_inj in H; subst sl'; exact HI|]. destruct HI as [(? & _)|(HQ & [(ED & HS & HL)|(? & _)])]; [discriminate| |discriminate]. injection ED as ->.
    destruct (return_ok J cf now p w) as (m & _ & _ & E). rewrite E in H. cbn [bind] in H. apply Ok_inj in H. subst sl'. right. cbn [set_c tw_query]. split; [exact HQ|]. right. split; [reflexivity|]. left. reflexivity.
Qed.
