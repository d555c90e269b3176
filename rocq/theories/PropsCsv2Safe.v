(** C48: whatever is in a zone file, reading numbers, types, and MX and SRV data stays within memory
    (parse/Csv2_parse.c). *)
From Verif Require Import CBase Bits ModelDwStr SpecDwStr ProofDwStr SpecNames SpecMessage SpecQuery ModelJsStr SpecJsStr ProofJsStr ModelQueries SpecQueries ProofQueries ProofHname ProofJsList ModelServe ProofServe ProofServeRun
  ProofServeSafe ModelIpAcl ModelCsv2 SpecCsv2 ProofCsv2 ProofCsv2Names ProofCsv2Addr PropsCsv2 ModelCsv2Rr SpecCsv2Rr ProofCsv2Rr ProofCsv2Any PropsCsv2Rr ProofCsv2Safe.
Local Open Scope Z_scope.
Local Open Scope list_scope.

(** The only thing that may go wrong is that a number is too large for an int (C48_overflow_refuted). *)
Definition no_fault {A} (r : res A) : Prop := (exists x, r = Ok x) \/ r = Bad SignedOverflow.
(** The data of a record, if it is accepted, are in a string of at most 256 octets. *)
Definition data_safe (r : res (option js * csv2)) : Prop :=
  (exists g, r = Ok (None, g)) \/ (exists s x g, r = Ok (Some s, g) /\ holding s x /\ zlen x <= 256) \/ r = Bad SignedOverflow.

Theorem C48_any_number : forall J f, junk_ok J -> no_fault (csv2_get_num J f).
Proof. intros J f HJ. destruct (get_num_any J f HJ) as [(x & E & _)|E]; [left; exists x; exact E|right; exact E]. Qed.

Theorem C48_any_type : forall J f, junk_ok J -> no_fault (csv2_get_rtype J f).
Proof. intros J f HJ. unfold csv2_get_rtype. destruct (rtype_any J _ HJ f (Nat.lt_succ_diag_r _)) as [(x & E & _)|E]; [left; exists x; exact E|right; exact E]. Qed.

Lemma ends_safe r : ends data_of r -> data_safe r.
Proof.
  intros [((o & g) & E & D)|E]; [|right; right; exact E]. unfold data_of in D. cbn [fst] in D. destruct o as [s|]; [|left; exists g; exact E]. destruct D as (x & H). right; left. exists s, x, g. split; [exact E|]. split; [exact (proj1 H)|]. destruct (held_mem 256 s x H) as (q & EM & LR & C & BQ & BR & CQ & S1 & M & SA & SM). lia.
Qed.

(** The character last decoded is not a star: at the beginning of a file it is -1 (Csv2_read.c 81),
    and afterwards none below 128 is kept. *)
Theorem C48_any_mx : forall J f zone cap z pref, junk_ok J -> f_uni f <> 42 -> held cap zone z -> ~ In 42 z -> data_safe (csv2_get_mx J f zone pref).
Proof. intros. eapply ends_safe, mx_any; eassumption. Qed.

Theorem C48_any_srv : forall J f zone cap z, junk_ok J -> f_uni f <> 42 -> held cap zone z -> ~ In 42 z -> data_safe (csv2_get_srv J f zone).
Proof. intros. eapply ends_safe, srv_any; eassumption. Qed.

(** A file just opened. *)
Definition opened (l : list Z) : csv2 := mkcsv2 l (-328) (-1) true false false 0 0.
(** Ill-formed files, just opened: a number cut short by the end of the file; a preference of five
    digits that does not fit into two octets; no host after the preference; a host that begins with a star. *)
Lemma ex_zone : held 256 (str (text ex_z) 256) (text ex_z) /\ ~ In 42 (text ex_z).
Proof. split; [apply (proj1 ex_host)|vm_compute; intuition discriminate]. Qed.
Example C48_any_number_ex : no_fault (csv2_get_num K (opened [32; 49; 50])) /\ exists g, csv2_get_num K (opened [32; 49; 50]) = Ok (-1, g).
Proof. split; [apply C48_any_number, K_ok|vm_compute; eexists; reflexivity]. Qed.
Example C48_any_type_ex : no_fault (csv2_get_rtype K (opened [73; 78; 32; 255; 65])) /\ exists g, csv2_get_rtype K (opened [73; 78; 32; 255; 65]) = Ok (-1, g).
Proof. split; [apply C48_any_type, K_ok|vm_compute; eexists; reflexivity]. Qed.
Example C48_any_mx_ex : data_safe (csv2_get_mx K (opened [32; 55; 48; 48; 48; 48; 32; 97; 46; 10]) (str (text ex_z) 256) (-1)) /\ exists g, csv2_get_mx K (opened [32; 55; 48; 48; 48; 48; 32; 97; 46; 10]) (str (text ex_z) 256) (-1) = Ok (None, g) /\ f_rest g = [97; 46; 10].
Proof. split; [apply (C48_any_mx _ _ _ 256 (text ex_z) _ K_ok); [discriminate|exact (proj1 ex_zone)|exact (proj2 ex_zone)]|vm_compute; eexists; split; reflexivity]. Qed.
Example C48_any_srv_ex : data_safe (csv2_get_srv K (opened [32; 49; 32; 50; 32; 51; 32; 42; 46; 97; 46; 10]) (str (text ex_z) 256)) /\ exists g, csv2_get_srv K (opened [32; 49; 32; 50; 32; 51; 32; 42; 46; 97; 46; 10]) (str (text ex_z) 256) = Ok (None, g) /\ f_rest g = [46; 97; 46; 10].
Proof. split; [apply (C48_any_srv _ _ _ 256 (text ex_z) K_ok); [discriminate|exact (proj1 ex_zone)|exact (proj2 ex_zone)]|vm_compute; eexists; split; reflexivity]. Qed.

Print Assumptions C48_any_number.
Print Assumptions C48_any_type.
Print Assumptions C48_any_mx.
Print Assumptions C48_any_srv.
