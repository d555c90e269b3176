(** C51: IPv6 addresses in zone files (parse/Csv2_rr_aaaa.c, parse/Parse_ipv6.c). *)
From Coq Require Import String.
From Verif Require Import CBase Bits ModelDwStr SpecDwStr ProofDwStr SpecNames ModelJsStr SpecJsStr ProofJsStr ModelQueries SpecQueries ProofJsList ModelCsv2 SpecCsv2 ModelCsv2Rr SpecCsv2Rr ModelCsv2Aaaa SpecCsv2Aaaa ProofCsv2Aaaa ProofCsv2AaaaAny PropsCsv2.
Local Open Scope Z_scope.
Local Open Scope string_scope.
Local Open Scope list_scope.

(** An address gives its sixteen octets, whatever is in new memory; the file is read up to the delimiter after it. *)
Theorem C51_address6 : forall J J2 f sep t v d rest, junk_ok J -> junk_ok J2 -> separators (f_just f :: sep) -> zlen sep < 10000 -> ip6_text t v -> delimiter d ->
  reading f (sep ++ t ++ d :: rest) -> exists ip g, csv2_get_aaaa J J2 f = Ok (Some ip, g) /\ holding ip v /\ after_reading f g rest d.
Proof. intros J J2 f sep t v d rest HJ HJ2 S L TX D R. destruct (aaaa_ok J J2 f sep t v d rest HJ HJ2 S L TX D R) as (ip & g & E & H & A). exists ip, g. split; [exact E|]. split; [exact (proj1 H)|exact A]. Qed.
(** So a text has one meaning. *)
Theorem C51_one_meaning : forall t v w, ip6_text t v -> ip6_text t w -> v = w.
Proof.
  intros t v w V W. assert (reading (file (t ++ [10])) ([] ++ t ++ [10])) as R by (split; reflexivity). assert (separators [10]) as S by (split; [apply Forall_cons; [unfold delimiter; lia|apply Forall_nil]|vm_compute; lia]).
  destruct (C51_address6 K K (file (t ++ [10])) [] t v 10 [] K_ok K_ok S ltac:(vm_compute; reflexivity) V ltac:(unfold delimiter; lia) R) as (ip & g & E & (_ & _ & <-) & _). destruct (C51_address6 K K (file (t ++ [10])) [] t w 10 [] K_ok K_ok S ltac:(vm_compute; reflexivity) W ltac:(unfold delimiter; lia) R) as (ip' & g' & E' & (_ & _ & <-) & _). rewrite E in E'. injection E' as <- _. reflexivity.
Qed.

(** Whatever the text is, memory is not left if it has at most nine colons (with ten it may be: C51_outside_refuted). *)
Lemma colons_count l : colons l = Z.of_nat (count_occ Z.eq_dec l 58).
Proof. unfold colons, is_colon. induction l as [|x l IH]; [reflexivity|]. cbn [filter count_occ]. destruct (Z.eq_dec x 58) as [->|NE]; [rewrite Z.eqb_refl, zlen_cons, IH; lia|]. replace (x =? 58)%Z with false by lia. exact IH. Qed.
Theorem C51_any_text : forall J2 s t, junk_ok J2 -> holding s t -> j_max s = 256 -> (count_occ Z.eq_dec t 58%Z <= 9)%nat ->
  exists r, ip6_to_raw J2 s = Ok r /\ match r with None => True | Some ip => exists v, holding ip v /\ zlen v = 16 end.
Proof.
  intros J2 s t HJ H M L. destruct (raw_any J2 s t HJ (conj H M)) as (r & E & HR); [rewrite colons_count; lia|]. exists r. split; [exact E|]. destruct r as [ip|]; [|exact HR]. destruct HR as (v & HV & LV). exists v. split; [exact (proj1 HV)|exact LV].
Qed.

(** ** Examples *)
Example ex_any_text : exists r, ip6_to_raw K (str (octets "1:::2::x") 256) = Ok r /\ match r with None => True | Some ip => exists v, holding ip v /\ zlen v = 16 end.
Proof. apply (C51_any_text K _ (octets "1:::2::x") K_ok); [apply (proj1 (str_held (octets "1:::2::x") 256 ltac:(apply bytesb_spec; reflexivity) ltac:(vm_compute; discriminate) ltac:(vm_compute; reflexivity)))|reflexivity|vm_compute; lia]. Qed.
Lemma hexes l : forallb is_hex_digit l = true -> Forall hex_digit l.
Proof. rewrite forallb_forall, Forall_forall. intros H x X. specialize (H x X). unfold is_hex_digit in H. unfold hex_digit. lia. Qed.
Ltac grp := split; [vm_compute; split; discriminate|apply hexes; vm_compute; reflexivity].
Ltac grps := repeat (apply Forall_cons; [grp|]); apply Forall_nil.
Example ex_short : ip6_text (octets "fE80::aB:12") [254; 128; 0; 0; 0; 0; 0; 0; 0; 0; 0; 0; 0; 171; 0; 18].
Proof. apply (Shortened [octets "fE80"] [octets "aB"; octets "12"]); [grps|grps|cbn; lia]. Qed.
Example ex_whole : ip6_text (octets "2001:db8:0:0:8:800:200C:417A") [32; 1; 13; 184; 0; 0; 0; 0; 0; 8; 8; 0; 32; 12; 65; 122].
Proof. apply (Whole (map octets ["2001"; "db8"; "0"; "0"; "8"; "800"; "200C"; "417A"])); [grps|reflexivity]. Qed.
Example ex_none : ip6_text (octets "::") (repeat 0 16). Proof. apply (Shortened [] []); [constructor|constructor|cbn; lia]. Qed.
Example ex_read : exists ip g, csv2_get_aaaa K K (file (octets "  fE80::aB:12" ++ [10])) = Ok (Some ip, g) /\ holding ip [254; 128; 0; 0; 0; 0; 0; 0; 0; 0; 0; 0; 0; 171; 0; 18] /\ after_reading (file (octets "  fE80::aB:12" ++ [10])) g [] 10.
Proof.
  apply (C51_address6 K K _ [32; 32] (octets "fE80::aB:12") _ 10 [] K_ok K_ok); [split; [repeat (apply Forall_cons; [cbn; unfold delimiter; lia|]); apply Forall_nil|vm_compute; lia]|vm_compute; reflexivity|exact ex_short|unfold delimiter; lia|split; reflexivity].
Qed.

(** ** What is not so *)
Definition outcome (s : string) : option (list Z) := match csv2_get_aaaa K K (file (octets s ++ [10])) with Ok (Some ip, _) => Some (octets_of ip) | _ => None end.
(** Ten groups with two colons: a part of the memory before the result is set to zero. *)
Theorem C51_outside_refuted : csv2_get_aaaa K K (file (octets "1::2:3:4:5:6:7:8:9:a" ++ [10])) = Bad OutOfBounds.
Proof. vm_compute. reflexivity. Qed.
(** Nine groups with two colons are accepted, and the first is lost; so are eight groups and two colons. *)
Theorem C51_too_many_refuted : outcome "1::2:3:4:5:6:7:8:9" = Some [0; 2; 0; 3; 0; 4; 0; 5; 0; 6; 0; 7; 0; 8; 0; 9] /\ outcome "1:2:3:4:5:6:7:8::" = Some [0; 1; 0; 2; 0; 3; 0; 4; 0; 5; 0; 6; 0; 7; 0; 8].
Proof. split; vm_compute; reflexivity. Qed.
(** Fewer than eight groups are accepted without two colons, and a colon alone at either end is ignored. *)
Theorem C51_too_few_refuted : outcome "1:2" = Some [0; 1; 0; 2; 0; 0; 0; 0; 0; 0; 0; 0; 0; 0; 0; 0] /\ outcome ":1" = Some [0; 1; 0; 0; 0; 0; 0; 0; 0; 0; 0; 0; 0; 0; 0; 0] /\ outcome "1:" = outcome ":1".
Proof. split; [|split]; vm_compute; reflexivity. Qed.

Print Assumptions C51_address6.
Print Assumptions C51_one_meaning.
Print Assumptions C51_any_text.
Print Assumptions C51_outside_refuted.
Print Assumptions C51_too_many_refuted.
Print Assumptions C51_too_few_refuted.
