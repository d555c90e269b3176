(** C52: mailboxes and SOA data in zone files mean what is written (parse/Csv2_rr_soa.c, parse/Csv2_rr_wks.c). *)
From Coq Require Import String.
From Verif Require Import CBase Bits ModelDwStr SpecDwStr ProofDwStr SpecNames SpecMessage SpecQuery ModelJsStr SpecJsStr ProofJsStr ModelQueries SpecQueries ProofQueries ProofHname ProofEmail ProofJsList ModelServe ProofServe ProofServeRun
  ModelIpAcl ModelCsv2 SpecCsv2 ProofCsv2 ProofCsv2Names ProofCsv2Addr PropsCsv2 ModelCsv2Rr SpecCsv2Rr ProofCsv2Rr PropsCsv2Rr ModelCsv2Soa SpecCsv2Soa ProofCsv2Soa ProofServeSafe ProofCsv2Safe ProofCsv2SoaAny.
Local Open Scope Z_scope.
Local Open Scope list_scope.

Lemma new_512 J : junk_ok J -> exists out, js_create J 512 1 = Some out /\ held 512 out [].
Proof. intros HJ. destruct (js_create_ok J 512 1 HJ ltac:(lia) ltac:(lia) ltac:(lia)) as (s & E & W & V & _). exists s. split; [exact E|exact (value_held _ _ _ _ W V)]. Qed.
Lemma labels_dots n : zlen (wire n) = zlen (dots n) + 1.
Proof. rewrite wire_labels, zlen_app. change (zlen [0]) with 1. rewrite <- zlen_dots_labels. reflexivity. Qed.
Lemma mailbox_short m z : mailbox_ok m z -> zlen (wire (mailbox_name m z)) <= 256.
Proof. intros (_ & _ & _ & (_ & _ & _ & _ & L) & _). rewrite labels_dots. unfold mailbox_name, email_text in *. unfold dots in *. cbn [map concat]. rewrite !zlen_app in *. change (zlen [64]) with 1 in L. change (zlen [46]) with 1. lia. Qed.

(** A mailbox (MG, MR) is stored as the name whose first label is the part before the at sign. *)
Theorem C52_mailbox : forall J f zone cap z sep m d rest, junk_ok J -> held cap zone (text z) -> separators (f_just f :: sep) -> zlen sep < 10000 -> mailbox_ok m z -> delimiter d ->
  reading f (sep ++ mailbox_text m ++ d :: rest) ->
  exists s g, csv2_get_mbox J f zone 1 = Ok (Some s, g) /\ holding s (wire (mailbox_name m z)) /\ after_reading f g rest d.
Proof.
  intros J f zone cap z sep m d rest HJ HZ SE LE MK D R. unfold csv2_get_mbox. destruct (new_512 J HJ) as (out & -> & HO). pose proof (mailbox_short m z MK) as LM.
  destruct (mailbox_on J f zone cap z m d sep rest out [] HJ HZ MK SE LE D R HO ltac:(change (zlen (@nil Z)) with 0; lia)) as (s & g & -> & H & AG). exists s, g. split; [reflexivity|]. split; [exact (proj1 H)|exact AG].
Qed.

(** A dot alone is the root. *)
Theorem C52_root : forall J f zone cap z sep d rest, junk_ok J -> held cap zone z -> separators (f_just f :: sep) -> zlen sep < 10000 -> delimiter d -> reading f (sep ++ 46 :: d :: rest) ->
  exists s g, csv2_get_mbox J f zone 1 = Ok (Some s, g) /\ holding s (wire []) /\ after_reading f g rest d.
Proof.
  intros J f zone cap z sep d rest HJ HZ (SF & SP) LE D R. unfold csv2_get_mbox. destruct (new_512 J HJ) as (out & -> & HO). cbn [mbox_names].
  destruct (get_1st csv2_is_alphanum_ordot 46 _ sep f ltac:(intros q Q; unfold delimiter in Q; unfold csv2_is_alphanum_ordot, csv2_is_alphanum, csv2_is_alpha, csv2_is_number; lia) eq_refl ltac:(lia) ltac:(lia) ltac:(lia) ltac:(lia) SF SP LE R) as (g & -> & G & A). change (negb (1 =? JS_SUCCESS)) with false. cbv iota.
  unfold process_mbox. destruct (first_on J g 46 csv2_is_alphanum_ordot [90] HJ A ltac:(left; lia) eq_refl ltac:(apply Forall_cons; [unfold byte; lia|constructor]) ltac:(vm_compute; discriminate)) as (o & -> & HH). cbn [bind]. rewrite utf8_small in HH by lia. cbn [app] in HH.
  destruct (fuel_split 0 ltac:(lia)) as (k & ->). cbn [Nat.add mbox_loop andb]. destruct (delim_facts d D) as (D1 & D2 & D3 & D4 & _). rewrite (read_ascii g _ _ (proj1 G)) by (unfold delimiter in D; lia). rewrite (count_held _ _ HH), (rd1_held _ _ _ _ HH). change (2 <=? zlen [90; 46]) with true. cbn [bind]. change (46 =? 46) with true. cbv iota. rewrite D1. cbn [bind].
  assert (csv2_convert_percent o zone = Ok (Some o)) as -> by (apply (convert_absolute o [90]); exact HH). cbn [bind]. destruct (email_root o 90 (proj1 HH)) as (o4 & -> & H4 & M4). cbn [bind]. change (1 =? JS_ERROR) with false. cbv iota.
  destruct (append_held (j_max o4) o4 _ 512 out [] (conj H4 eq_refl) HO ltac:(vm_compute; reflexivity)) as (o5 & -> & H5). cbn [bind]. change (0 =? JS_ERROR) with false. cbv iota. exists o5. eexists. split; [reflexivity|]. split; [exact (proj1 H5)|]. exact (step_after f g rest d _ G).
Qed.

(** Two of them (MINFO, RP) are stored one after the other. *)
Theorem C52_mailboxes : forall J f zone cap z sep m d1 sep1 m2 d rest, junk_ok J -> held cap zone (text z) -> separators (f_just f :: sep) -> zlen sep < 10000 -> mailbox_ok m z -> separators (d1 :: sep1) -> zlen sep1 < 10000 -> mailbox_ok m2 z -> delimiter d ->
  zlen (wire (mailbox_name m z)) + zlen (wire (mailbox_name m2 z)) < 512 -> reading f (sep ++ mailbox_text m ++ d1 :: sep1 ++ mailbox_text m2 ++ d :: rest) ->
  exists s g, csv2_get_mbox J f zone 2 = Ok (Some s, g) /\ holding s (wire (mailbox_name m z) ++ wire (mailbox_name m2 z)) /\ after_reading f g rest d.
Proof.
  intros J f zone cap z sep m d1 sep1 m2 d rest HJ HZ SE LE MK S1 L1 MK2 D LT R. unfold csv2_get_mbox. destruct (new_512 J HJ) as (out & -> & HO). pose proof (mailbox_short m z MK) as LM.
  destruct (mailbox_on J f zone cap z m d1 sep _ out [] HJ HZ MK SE LE (sep_delim _ _ S1) R HO ltac:(change (zlen (@nil Z)) with 0; lia)) as (s & g & E & H & AG). rewrite (names_more _ _ _ _ _ _ _ E). cbn [app] in H.
  destruct (mailbox_on J g zone cap z m2 d sep1 rest s _ HJ HZ MK2 ltac:(rewrite (proj1 (proj2 AG)); exact S1) L1 D (proj1 AG) H LT) as (s2 & g2 & -> & H2 & AG2). exists s2, g2. split; [reflexivity|]. split; [exact (proj1 H2)|]. exact (after_goes _ _ _ _ _ _ (after_goes_on _ _ _ _ AG) AG2).
Qed.

(** An SOA record: the host, the mailbox, and five numbers of four octets each, of which the first may be /serial. *)
Theorem C52_soa : forall J f zone cap z serial sep n e d0 sep0 m d1 sep1 p1 v1 d2 sep2 p2 v2 d3 sep3 p3 v3 d4 sep4 p4 v4 d5 sep5 p5 v5 d rest,
  junk_ok J -> host_ok zone cap z n e -> mailbox_ok m z -> 0 <= serial < 4294967296 ->
  separators (f_just f :: sep) -> zlen sep < 10000 -> separators (d0 :: sep0) -> zlen sep0 < 10000 -> separators (d1 :: sep1) -> zlen sep1 < 10000 ->
  separators (d2 :: sep2) -> zlen sep2 < 10000 -> separators (d3 :: sep3) -> zlen sep3 < 10000 -> separators (d4 :: sep4) -> zlen sep4 < 10000 -> separators (d5 :: sep5) -> zlen sep5 < 10000 ->
  serial_field serial p1 v1 -> number_field p2 v2 -> number_field p3 v3 -> number_field p4 v4 -> number_field p5 v5 -> delimiter d ->
  zlen (wire (meant n e z)) + zlen (wire (mailbox_name m z)) + 20 < 512 ->
  reading f (sep ++ spelled n e ++ d0 :: sep0 ++ mailbox_text m ++ d1 :: sep1 ++ p1 ++ d2 :: sep2 ++ p2 ++ d3 :: sep3 ++ p3 ++ d4 :: sep4 ++ p4 ++ d5 :: sep5 ++ p5 ++ d :: rest) ->
  exists s g, csv2_get_soa J f zone serial = Ok (Some s, g) /\ holding s (wire (meant n e z) ++ wire (mailbox_name m z) ++ four v1 ++ four v2 ++ four v3 ++ four v4 ++ four v5) /\ after_reading f g rest d.
Proof.
  intros J f zone cap z serial sep n e d0 sep0 m d1 sep1 p1 v1 d2 sep2 p2 v2 d3 sep3 p3 v3 d4 sep4 p4 v4 d5 sep5 p5 v5 d rest HJ (HZ & NC & CM & TK & FZ & NE) MK SV SE LE S0 L0 S1 L1 S2 L2 S3 L3 S4 L4 S5 L5 N1 N2 N3 N4 N5 D LT R.
  unfold csv2_get_soa. destruct (new_512 J HJ) as (out & -> & HO). destruct (spelled_first n e NC CM NE) as (x & t & E & K & X1 & X2 & X3 & OX). rewrite E, <- app_assoc in R.
  destruct (get_here csv2_is_dchar x _ sep f ltac:(intros q Q; unfold delimiter in Q; unfold csv2_is_dchar, csv2_is_text, csv2_is_alphanum, csv2_is_alpha, csv2_is_number; lia) OX K X1 X2 X3 SE LE R) as (h & E1 & G). rewrite E1. change (negb (1 =? JS_SUCCESS)) with false. cbv iota.
  pose proof (proj1 G) as RH. rewrite (app_assoc (utf8 x)), <- E in RH.
  destruct (C47_name J h zone cap z 3 n e d0 _ HJ HZ ltac:(cbn; auto) (sep_delim _ _ S0) NC CM TK FZ RH) as (s & g & E2 & H & A0). unfold name_at in E2. rewrite E2. cbn [bind].
  pose proof (zlen_nonneg (wire (meant n e z))) as W1. pose proof (zlen_nonneg (wire (mailbox_name m z))) as W2.
  destruct (append_held (j_max s) s _ 512 out [] (conj H eq_refl) HO ltac:(change (zlen (@nil Z)) with 0; lia)) as (o1 & -> & K1). cbn [bind]. change (0 =? JS_ERROR) with false. cbv iota. cbn [app] in K1.
  destruct (C52_mailbox J g zone cap z sep0 m d1 _ HJ HZ ltac:(rewrite (proj1 (proj2 A0)); exact S0) L0 MK (sep_delim _ _ S1) (proj1 A0)) as (b & g1 & -> & HB & A1). cbn [bind].
  destruct (append_held (j_max b) b _ 512 o1 _ (conj HB eq_refl) K1 ltac:(lia)) as (o2 & -> & K2). cbn [bind]. change (0 =? JS_ERROR) with false. cbv iota.
  assert (zlen (wire (meant n e z) ++ wire (mailbox_name m z)) = zlen (wire (meant n e z)) + zlen (wire (mailbox_name m z))) as LW by apply zlen_app.
  assert (forall v, zlen (four v) = 4) as L4' by reflexivity.
  destruct (number_32 J g1 sep1 p1 v1 d2 _ serial true 4 o2 _ HJ ltac:(rewrite (proj1 (proj2 A1)); exact S1) L1 ltac:(destruct N1 as [N1|(A & B)]; [left; exact N1|right; auto]) SV (sep_delim _ _ S2) (proj1 A1) K2 ltac:(lia)) as (o3 & g2 & -> & K3 & A2).
  destruct (number_32 J g2 sep2 p2 v2 d3 _ serial false 3 o3 _ HJ ltac:(rewrite (proj1 (proj2 A2)); exact S2) L2 (or_introl N2) SV (sep_delim _ _ S3) (proj1 A2) K3 ltac:(rewrite zlen_app, L4'; lia)) as (o4 & g3 & -> & K4 & A3).
  destruct (number_32 J g3 sep3 p3 v3 d4 _ serial false 2 o4 _ HJ ltac:(rewrite (proj1 (proj2 A3)); exact S3) L3 (or_introl N3) SV (sep_delim _ _ S4) (proj1 A3) K4 ltac:(do 2 rewrite zlen_app, L4'; lia)) as (o5 & g4 & -> & K5 & A4).
  destruct (number_32 J g4 sep4 p4 v4 d5 _ serial false 1 o5 _ HJ ltac:(rewrite (proj1 (proj2 A4)); exact S4) L4 (or_introl N4) SV (sep_delim _ _ S5) (proj1 A4) K5 ltac:(do 3 rewrite zlen_app, L4'; lia)) as (o6 & g5 & -> & K6 & A5).
  destruct (number_32 J g5 sep5 p5 v5 d _ serial false 0 o6 _ HJ ltac:(rewrite (proj1 (proj2 A5)); exact S5) L5 (or_introl N5) SV D (proj1 A5) K6 ltac:(do 4 rewrite zlen_app, L4'; lia)) as (o7 & g6 & -> & K7 & A6).
  cbn [soa_numbers]. exists o7, g6. split; [reflexivity|]. split; [rewrite <- !app_assoc in K7; exact (proj1 K7)|].
  pose proof (after_goes_on _ _ _ _ A0) as G0. pose proof (after_goes_on _ _ _ _ A1) as G1. pose proof (after_goes_on _ _ _ _ A2) as G2. pose proof (after_goes_on _ _ _ _ A3) as G3. pose proof (after_goes_on _ _ _ _ A4) as G4. pose proof (after_goes_on _ _ _ _ A5) as G5.
  exact (after_goes _ _ _ _ _ _ (goes_trans _ _ _ _ _ G (goes_trans _ _ _ _ _ G0 (goes_trans _ _ _ _ _ G1 (goes_trans _ _ _ _ _ G2 (goes_trans _ _ _ _ _ G3 (goes_trans _ _ _ _ _ G4 G5)))))) A6).
Qed.

(** Whatever is in the file, and whatever the zone is called, memory is not left: a record is refused, or its data are in
    a string of at most 512 octets, or a number is too large for an int (C48_overflow_refuted). *)
Definition within_512 (r : res (option js * csv2)) : Prop :=
  (exists g, r = Ok (None, g)) \/ (exists s x g, r = Ok (Some s, g) /\ holding s x /\ zlen x <= 512) \/ r = Bad SignedOverflow.
Lemma ends_512 r : ends some512 r -> within_512 r.
Proof.
  intros [((o & g) & E & D)|E]; [|right; right; exact E]. unfold some512 in D. cbn [fst] in D. destruct o as [s|]; [|left; exists g; exact E]. destruct D as (x & H). right; left. exists s, x, g. split; [exact E|]. split; [exact (proj1 H)|]. destruct (held_mem 512 s x H) as (q & EM & LR & C & BQ & BR & CQ & S1 & M & SA & SM). lia.
Qed.
Theorem C52_any_mailbox : forall J f zone cap z count, junk_ok J -> held cap zone z -> within_512 (csv2_get_mbox J f zone count).
Proof. intros. eapply ends_512, get_mbox_wild; eassumption. Qed.
Theorem C52_any_soa : forall J f zone cap z serial, junk_ok J -> held cap zone z -> within_512 (csv2_get_soa J f zone serial).
Proof. intros. eapply ends_512, get_soa_wild; eassumption. Qed.

(** SOA data that is accepted ends with five numbers below 2^31, of which the first may be the serial number: nothing else is
    taken for a number, whatever is in the file. *)
Theorem C52_accepted : forall J f zone cap z serial s g, junk_ok J -> held cap zone z -> 0 <= serial < 4294967296 -> csv2_get_soa J f zone serial = Ok (Some s, g) ->
  exists pre v1 v2 v3 v4 v5, holding s (pre ++ four v1 ++ four v2 ++ four v3 ++ four v4 ++ four v5) /\ (v1 = serial \/ 0 <= v1 < 2147483648) /\ Forall (fun v => 0 <= v < 2147483648) [v2; v3; v4; v5].
Proof.
  intros J f zone cap z serial s g HJ HZ SV E. destruct (get_soa_made J f cap zone z serial HJ HZ SV) as [((o & g') & E' & D)|E']; rewrite E in E'; [|discriminate]. injection E' as <- <-. destruct D as (pre & vs & LV & NV & HS). destruct vs as [|v1 [|v2 [|v3 [|v4 [|v5 [|]]]]]]; try discriminate.
  exists pre, v1, v2, v3, v4, v5. split; [cbn [map concat] in HS; rewrite app_nil_r in HS; exact HS|]. destruct NV as [NV|(_ & t & T & NV)].
  - apply Forall_cons_iff in NV as (N1 & NV). split; [right; exact N1|exact NV].
  - injection T as -> <-. split; [left; reflexivity|exact NV].
Qed.

(** ** Examples *)
Local Open Scope string_scope.
Local Open Scope list_scope.
(** a\.b@% in the zone ex. *)
Definition ex_mail : mailbox := mkmailbox 97 [mkpart true 98] [] Percent.
Lemma ex_mail_ok : mailbox_ok ex_mail ex_z.
Proof.
  split; [unfold mail_first; cbn; lia|]. split; [repeat (apply Forall_cons; [unfold mail_char, mail_first; cbn; lia|]); constructor|]. split; [constructor|]. split.
  - split; [repeat (apply Forall_cons; [split; [split; vm_compute; discriminate|apply bytesb_spec; reflexivity]|]); constructor|]. split; [discriminate|]. split; [cbn; lia|]. split; [repeat (apply Forall_cons; [repeat (apply Forall_cons; [discriminate|]); constructor|]); constructor|vm_compute; discriminate].
  - intros _. split; [discriminate|vm_compute; discriminate].
Qed.
Definition ex_soa : list Z := spelled ex_n Percent ++ octets " a\.b@% /serial 7200 3600 604800 1800" ++ [10].
Example C52_soa_ex : exists s g, csv2_get_soa K (file ex_soa) (str (text ex_z) 256) 12345678 = Ok (Some s, g) /\
  holding s ([2; 195; 188; 2; 97; 98; 2; 101; 120; 0] ++ [3; 97; 46; 98; 2; 101; 120; 0] ++ [0; 188; 97; 78; 0; 0; 28; 32; 0; 0; 14; 16; 0; 9; 58; 128; 0; 0; 7; 8]) /\ reading g [].
Proof.
  destruct (C52_soa K (file ex_soa) (str (text ex_z) 256) 256 ex_z 12345678 [] ex_n Percent 32 [] ex_mail 32 [] (octets "/serial") 12345678 32 [] (octets "7200") 7200 32 [] (octets "3600") 3600 32 [] (octets "604800") 604800 32 [] (octets "1800") 1800 10 []) as (s & g & E & H & A);
    try exact K_ok; try exact ex_host; try exact ex_mail_ok; try lia; try (split; [chars|vm_compute; lia]); try (vm_compute; reflexivity); try (apply ex_field; [reflexivity|discriminate|reflexivity|lia|vm_compute; discriminate]); try (unfold delimiter; lia).
  - right. split; reflexivity.
  - split; [reflexivity|vm_compute; reflexivity].
  - exists s, g. split; [exact E|]. split; [exact H|exact (proj1 A)].
Qed.
(** Two zeros are no number, and /serial stands for the first number only. *)
Example C52_accepted_ex : (exists g, csv2_get_soa K (file (octets "a.% a@% 1 00 3 4 5 ")) (str (text ex_z) 256) 7 = Ok (None, g)) /\ exists g, csv2_get_soa K (file (octets "a.% a@% 1 /serial 3 4 5 ")) (str (text ex_z) 256) 7 = Ok (None, g).
Proof. split; eexists; vm_compute; reflexivity. Qed.

Example C52_root_ex : exists s g, csv2_get_mbox K (file (octets " ." ++ [10])) (str (text ex_z) 256) 1 = Ok (Some s, g) /\ holding s [0] /\ reading g [].
Proof.
  destruct (C52_root K (file (octets " ." ++ [10])) (str (text ex_z) 256) 256 (text ex_z) [32] 10 [] K_ok (proj1 ex_host)) as (s & g & E & H & A); try (split; [chars|vm_compute; lia]); try (vm_compute; reflexivity); try (unfold delimiter; lia).
  - split; [reflexivity|vm_compute; reflexivity].
  - exists s, g. split; [exact E|]. split; [exact H|exact (proj1 A)].
Qed.
Example C52_mailboxes_ex : exists s g, csv2_get_mbox K (file (octets "a\.b@% | a\.b@%" ++ [10])) (str (text ex_z) 256) 2 = Ok (Some s, g) /\ holding s ([3; 97; 46; 98; 2; 101; 120; 0] ++ [3; 97; 46; 98; 2; 101; 120; 0]) /\ reading g [].
Proof.
  destruct (C52_mailboxes K (file (octets "a\.b@% | a\.b@%" ++ [10])) (str (text ex_z) 256) 256 ex_z [] ex_mail 32 [124; 32] ex_mail 10 [] K_ok (proj1 ex_host)) as (s & g & E & H & A); try exact ex_mail_ok; try (split; [chars|vm_compute; lia]); try (vm_compute; reflexivity); try (unfold delimiter; lia).
  - split; [reflexivity|vm_compute; reflexivity].
  - exists s, g. split; [exact E|]. split; [exact H|exact (proj1 A)].
Qed.
(** Ill-formed files: a mailbox cut short by the end of the file, and data that end after the host. *)
Example C52_any_ex : within_512 (csv2_get_mbox K (file (octets "a\.")) (str (text ex_z) 256) 2) /\ (exists g, csv2_get_mbox K (file (octets "a\.")) (str (text ex_z) 256) 2 = Ok (None, g)) /\
  within_512 (csv2_get_soa K (file (octets "a.% ")) (str (text ex_z) 256) 1) /\ exists g, csv2_get_soa K (file (octets "a.% ")) (str (text ex_z) 256) 1 = Ok (None, g).
Proof.
  split; [apply (C52_any_mailbox K _ _ 256 (text ex_z) _ K_ok (proj1 ex_host))|]. split; [vm_compute; eexists; reflexivity|]. split; [apply (C52_any_soa K _ _ 256 (text ex_z) _ K_ok (proj1 ex_host))|]. vm_compute. eexists. reflexivity.
Qed.

(** ** What is not so *)
Definition mbox_of (s : string) : option (list Z) := match csv2_get_mbox K (file (octets s ++ [10])) (str (text ex_z) 256) 1 with Ok (Some o, _) => Some (octets_of o) | _ => None end.
(** With a dot instead of the at sign, a label of one character or a percent sign after it is refused. *)
Theorem C52_dot_refuted : mbox_of "a@b.c." = Some [1; 97; 1; 98; 1; 99; 0] /\ mbox_of "a.b.c." = None /\ mbox_of "a@%" = Some [1; 97; 2; 101; 120; 0] /\ mbox_of "a.%" = None /\ mbox_of "a.bb.c." = Some [1; 97; 2; 98; 98; 1; 99; 0].
Proof. split; [|split; [|split; [|split]]]; vm_compute; reflexivity. Qed.

Print Assumptions C52_mailbox.
Print Assumptions C52_root.
Print Assumptions C52_mailboxes.
Print Assumptions C52_soa.
Print Assumptions C52_any_mailbox.
Print Assumptions C52_any_soa.
Print Assumptions C52_accepted.
Print Assumptions C52_dot_refuted.
