(** C50: reading any zone file (parse/Csv2_parse.c, parse/Csv2_main.c). *)
From Coq Require Import String.
From Verif Require Import CBase Bits ModelDwStr SpecDwStr ProofDwStr SpecNames SpecMessage SpecQuery ModelJsStr SpecJsStr ProofJsStr ModelQueries SpecQueries ProofQueries ProofJsList ModelServe ProofServe
  ModelCsv2 SpecCsv2 ModelCsv2Rr ProofCsv2Safe ModelCsv2Txt ProofCsv2TxtAny ModelCsv2Zone SpecCsv2Zone SpecCsv2ZoneAny ProofCsv2ZoneAny PropsCsv2 PropsCsv2Rr PropsCsv2Txt PropsCsv2Zone ModelCsv2Soa ProofServeSafe ProofCsv2SoaAny.
Local Open Scope Z_scope.
Local Open Scope string_scope.
Local Open Scope list_scope.

Lemma good_otherwise {A} (P Q : A -> Prop) r : (forall x, P x -> Q x) -> otherwise_known P r -> good true Q r.
Proof. intros PQ [(x & -> & H)|[->|[->| ->]]]; cbn [good]; auto. Qed.
Lemma otherwise_good {A} (P : A -> Prop) r : good true P r -> otherwise_known P r.
Proof. destruct r as [x| |[]]; cbn [good]; intros H; try contradiction; [left; exists x; auto|right; left; reflexivity|right; right; left; reflexivity|right; right; right; reflexivity]. Qed.
Lemma origins_st st : st_ok st -> origins_readable st.
Proof.
  intros ((c & z & H) & S). apply Forall_cons; [exists z; exact (proj1 H)|]. eapply Forall_impl; [|exact S]. intros s (c' & z' & H'). exists z'. exact (proj1 H').
Qed.
(** Whatever is in the file, in new memory and in the name of the zone, and for each value of
    csv2_tilde_handling: memory is not left, and the names and data that are added can be read. *)
Theorem C50_any : forall J R O U sw origin x l h, (forall m k, junk_ok (J m k)) -> gives_no_more R -> others_keep_to_memory O -> holding origin x ->
  otherwise_known (Forall (fun a => readable (Some (a_name a)) /\ readable (a_data a))) (csv2_parse_zone J R O U sw origin (csv2_open l h)).
Proof.
  intros J R O U sw origin x l h HJ HR HO HX. apply otherwise_good. unfold csv2_parse_zone. apply loop_wild; [exact HJ|exact HR| |].
  - intros t st f ST. apply (good_otherwise (fun p => readable (fst p))); [auto|]. apply HO, origins_st, ST.
  - split; [exists (j_max origin), x; split; [exact HX|reflexivity]|constructor].
Qed.

(** SOA data and mailboxes need not be supposed to keep to memory (C52). *)
Lemma mail_known r : ends some512 r -> otherwise_known (fun p => readable (fst p)) r.
Proof.
  intros [((o & g) & -> & D)| ->]; [|right; right; right; reflexivity]. left. eexists. split; [reflexivity|]. unfold some512 in D. cbn [fst] in *. destruct o as [s|]; [|exact Logic.I]. destruct D as (x & H). exists x. exact (proj1 H).
Qed.
Theorem C50_any_mail : forall sn J R O U sw origin x l h, (forall m k, junk_ok (J m k)) -> gives_no_more R -> reads_soa sn O -> reads_mbox O ->
  (forall t st f, ~ In t [6; 8; 9; 14; 17] -> origins_readable st -> otherwise_known (fun p => readable (fst p)) (O t st f)) -> holding origin x ->
  otherwise_known (Forall (fun a => readable (Some (a_name a)) /\ readable (a_data a))) (csv2_parse_zone J R O U sw origin (csv2_open l h)).
Proof.
  intros sn J R O U sw origin x l h HJ HR (_ & HS) HM HO HX. apply (C50_any J R O U sw origin x l h HJ HR); [|exact HX]. intros t st f OR. destruct (in_dec Z.eq_dec t [6; 8; 9; 14; 17]) as [I|I]; [|apply HO; assumption].
  pose proof OR as OR2. inversion OR2 as [|q qs (z & HZ) _]; subst. destruct (HS st f) as (J3 & HJ3 & ES). destruct (HM st f) as (J4 & HJ4 & E1 & E2). assert (held (j_max (z_origin st)) (z_origin st) z) as HH by (split; [exact HZ|reflexivity]). cbn [In] in I.
  destruct I as [<- |[<- |[<- |[<- |[<- |[]]]]]]; apply mail_known; [rewrite ES; eapply get_soa_wild; eassumption|rewrite E1 by (cbn; auto)|rewrite E1 by (cbn; auto)|rewrite E2 by (cbn; auto)|rewrite E2 by (cbn; auto)]; eapply get_mbox_wild; eassumption.
Qed.

(** ** Examples *)
Lemma ex_origin : holding (str (text ex_z) 256) (text ex_z).
Proof. apply (proj1 (str_held (text ex_z) 256 ltac:(apply bytesb_spec; reflexivity) ltac:(vm_compute; intuition discriminate) ltac:(vm_compute; reflexivity))). Qed.
Lemma ex_R : gives_no_more (fun f => f). Proof. intros f. apply le_n. Qed.
Lemma ex_O : others_keep_to_memory (fun _ _ f => Ok (None, csv2_error f)). Proof. intros t st f _. left. eexists. split; [reflexivity|exact Logic.I]. Qed.
(** A file of octets without sense: it is read without a fault *)
Definition ex_wild : list Z := lines ["/opush b.%"; "/ttl 60"; "% 1.2.3.4"; "/bogus"] ++ [255; 0; 126; 123; 200] ++ lines ["%%%"].
Example ex_any : otherwise_known (Forall (fun a => readable (Some (a_name a)) /\ readable (a_data a))) (csv2_parse_zone (fun _ _ => K) (fun f => f) (fun _ _ f => Ok (None, csv2_error f)) (fun _ => 5) 0 (str (text ex_z) 256) (csv2_open ex_wild 2)).
Proof. apply (C50_any _ _ _ _ _ _ (text ex_z) _ _ (fun _ _ => K_ok) ex_R ex_O ex_origin). Qed.
Definition mail_types : Z -> zst -> csv2 -> res (option js * csv2) := fun t st f => if (t =? 28)%Z then Ok (None, csv2_error f) else some_types 258 t st f.
Example ex_any_mail : otherwise_known (Forall (fun a => readable (Some (a_name a)) /\ readable (a_data a))) (csv2_parse_zone (fun _ _ => K) (fun f => f) mail_types (fun _ => 5) 0 (str (text ex_z) 256) (csv2_open (lines ["% SOA a.% b@% /serial x"; "% MR @"]) 2)).
Proof.
  apply (C50_any_mail 258 _ _ _ _ _ _ (text ex_z) _ _ (fun _ _ => K_ok) ex_R); [split; [lia|exact (proj2 (soa_read 258 ltac:(lia)))]| | |exact ex_origin].
  { intros st f. exists K. split; [exact K_ok|]. split; intros t I; cbn [In] in I; repeat (destruct I as [<- |I]; [reflexivity|]); contradiction. }
  intros t st f NI _. unfold mail_types, some_types. destruct (Z.eqb_spec t 28); [left; eexists; split; [reflexivity|exact Logic.I]|].
  cbn [In] in NI. replace (t =? 6)%Z with false by lia. unfold one_of. cbn [existsb]. replace ((t =? 8) || ((t =? 9) || false))%Z with false by lia. replace ((t =? 14) || ((t =? 17) || false))%Z with false by lia. left. eexists. split; [reflexivity|exact Logic.I].
Qed.
Example ex_any_result : number_added (parsed ex_wild 2) = 1. Proof. vm_compute. reflexivity. Qed.
(** The levels of csv2_tilde_handling: at 0 a tilde is a character as others; at 1 it is refused; at 2 it may
    stand between records, and then stands between all of them; at 3 it stands between all records. *)
Definition with_tilde : list Z := lines ["b.% 1.2.3.4"; "a.% TXT 'x~y'"].
Definition between : list Z := lines ["b.% 1.2.3.4 ~"; "a.% TXT 'xy' ~"; "c.% 1.2.3.4 ~"].
Definition first_only : list Z := lines ["b.% 1.2.3.4 ~"; "a.% TXT 'xy'"; "c.% 1.2.3.4"].
Definition without : list Z := lines ["b.% 1.2.3.4"; "a.% TXT 'xy'"; "c.% 1.2.3.4"].
Definition counts (l : list Z) : list Z := map (fun h => number_added (parsed l h)) [0; 1; 2; 3].
Example ex_levels : (counts with_tilde, counts between, counts first_only, counts without) = ([2; 1; 1; 1], [1; 1; 3; 3], [1; 1; 1; 1], [3; 3; 3; 1]).
Proof. vm_compute. reflexivity. Qed.

Print Assumptions C50_any.
Print Assumptions C50_any_mail.
