(** C53: WKS data in zone files. *)
From Coq Require Import String.
From Verif Require Import CBase ModelDwStr SpecDwStr ModelJsStr SpecJsStr SpecQueries ProofJsStr ModelCsv2 SpecCsv2 ProofCsv2 ProofCsv2Names ProofCsv2Addr SpecCsv2Rr ProofCsv2Rr ProofCsv2Safe PropsCsv2 PropsCsv2Rr ModelCsv2Wks SpecCsv2Wks ProofCsv2Wks.
Local Open Scope list_scope.
Local Open Scope Z_scope.

(** An address, a protocol and a list of ports, each with a blank or a comma after it, up to the end of the line: the data are
    the address, the protocol, and the map of these ports. *)
Theorem C53_ports : forall J J2 f sep a b c d dl sep1 p v dl1 sep2 l e rest, junk_ok J -> junk_ok J2 -> f_hand f <> 103 ->
  separators (f_just f :: sep) -> zlen sep < 10000 -> octet_digits a -> octet_digits b -> octet_digits c -> octet_digits d -> zlen (quad_text a b c d) <= 256 ->
  separators (dl :: sep1) -> zlen sep1 < 10000 -> number_field p v -> v <= 255 -> separators (dl1 :: sep2) -> zlen sep2 < 10000 -> ports_ok false l -> e = 10 \/ e = 13 ->
  reading f (sep ++ quad_text a b c d ++ dl :: sep1 ++ p ++ dl1 :: sep2 ++ ports_text l ++ e :: rest) ->
  exists o m g, csv2_get_wks J J2 f = Ok (Some o, g) /\ holding o ([decimal_of a; decimal_of b; decimal_of c; decimal_of d; v] ++ m) /\ map_of (ports_of l) m /\ after_reading f g rest e.
Proof.
  intros J J2 f sep a b c d dl sep1 p v dl1 sep2 l e rest HJ HJ2 HH SF LS DA DB DC DD LQ S1 L1 NF V S2 L2 (NE & FL & LL & LT) HE R. destruct (ports_head false l NE FL) as (x & t & ET & RX). rewrite ET in R. cbn [app] in R.
  destruct (wks_prefix J J2 f sep a b c d dl sep1 p v dl1 sep2 x _ HJ SF LS DA DB DC DD LQ S1 L1 NF S2 L2 RX R) as (o & g & HO & G & JG & ->). assert (f_hand g = f_hand f) as EH by apply G. rewrite EH. replace (f_hand f =? 103) with false by lia. destruct (fuel_ports l LT) as (n & ->).
  destruct (port_run false (f_tilde g) e rest (fun f g => g = step f rest e) ltac:(intros f0 _ R0; exists (step f0 rest e); split; [apply read_ascii; [exact R0|lia|lia|lia]|reflexivity]) l (S n) 0 [] x t g FL ltac:(rewrite EH; lia) eq_refl ltac:(change (zlen (@nil Z)) with 0; lia) ET (proj1 G)) as (h & g2 & -> & G2 & ->).
  cbn [port_loop f_hand step app]. assert (f_hand h = f_hand f) as E2 by (rewrite <- EH; apply G2). rewrite E2. replace (f_hand f =? 103) with false by lia. replace ((e =? -2) || (e =? 10) || (e =? 13)) with true by lia. cbn [negb andb].
  destruct (ports_bounds false l FL) as (FH & HI). pose proof (field_nonneg _ _ NF).
  destruct (data_ok J2 o a b c d v 0 (highest 0 (ports_of l)) (ports_of l) HJ2 HO DA DB DC DD HI FH (or_intror eq_refl)) as (out & m & -> & HM & LM & BM). cbn [bind]. change ((0 <? 0) && (0 <? 1024)) with false in LM. cbv iota in LM. rewrite Z.mod_small in HM by lia.
  exists out, m, (step h rest e). split; [reflexivity|]. split; [exact HM|]. split; [exact (map_made false l m NE FL LM BM)|]. exact (step_after f h rest e _ (goes_trans _ _ _ _ _ G G2)).
Qed.
(** Where records end with a tilde, the list may go over several lines. *)
Theorem C53_tilde : forall J J2 f sep a b c d dl sep1 p v dl1 sep2 l rest, junk_ok J -> junk_ok J2 -> f_hand f = 103 ->
  separators (f_just f :: sep) -> zlen sep < 10000 -> octet_digits a -> octet_digits b -> octet_digits c -> octet_digits d -> zlen (quad_text a b c d) <= 256 ->
  separators (dl :: sep1) -> zlen sep1 < 10000 -> number_field p v -> v <= 255 -> separators (dl1 :: sep2) -> zlen sep2 < 10000 -> ports_ok true l ->
  reading f (sep ++ quad_text a b c d ++ dl :: sep1 ++ p ++ dl1 :: sep2 ++ ports_text l ++ 126 :: rest) ->
  exists o m g, csv2_get_wks J J2 f = Ok (Some o, g) /\ holding o ([decimal_of a; decimal_of b; decimal_of c; decimal_of d; v] ++ m) /\ map_of (ports_of l) m /\ reading g rest /\ f_just g = 126 /\ f_hand g = f_hand f.
Proof.
  intros J J2 f sep a b c d dl sep1 p v dl1 sep2 l rest HJ HJ2 HH SF LS DA DB DC DD LQ S1 L1 NF V S2 L2 (NE & FL & LL & LT) R. destruct (ports_head true l NE FL) as (x & t & ET & RX). rewrite ET in R. cbn [app] in R.
  destruct (wks_prefix J J2 f sep a b c d dl sep1 p v dl1 sep2 x _ HJ SF LS DA DB DC DD LQ S1 L1 NF S2 L2 RX R) as (o & g & HO & G & JG & ->). assert (f_hand g = 103) as EH by (rewrite <- HH; apply G). rewrite EH. change (103 =? 103) with true. cbv iota. destruct (fuel_ports l LT) as (n & ->).
  destruct (port_run true true 126 rest (fun f g => reading g rest /\ f_just g = 126 /\ f_hand g = f_hand f) ltac:(intros f0 T0 R0; exact (ProofCsv2Txt.read_tilde f0 rest R0 T0)) l (S n) 0 [] x t (set_tilde g true) FL ltac:(cbn; lia) eq_refl ltac:(change (zlen (@nil Z)) with 0; lia) ET (proj1 G)) as (h & g2 & -> & G2 & RG & JG2 & HG).
  assert (f_hand g2 = 103) as E2 by (rewrite HG, <- EH; apply G2). cbn [port_loop app]. rewrite E2. change (103 =? 103) with true. change (126 =? 126) with true. cbn [negb andb].
  destruct (ports_bounds true l FL) as (FH & HI). pose proof (field_nonneg _ _ NF).
  destruct (data_ok J2 o a b c d v 0 (highest 0 (ports_of l)) (ports_of l) HJ2 HO DA DB DC DD HI FH (or_intror eq_refl)) as (out & m & -> & HM & LM & BM). cbn [bind]. change ((0 <? 0) && (0 <? 1024)) with false in LM. cbv iota in LM. rewrite Z.mod_small in HM by lia.
  exists out, m, g2. split; [reflexivity|]. split; [exact HM|]. split; [exact (map_made true l m NE FL LM BM)|]. split; [exact RG|]. split; [exact JG2|congruence].
Qed.
(** A port right before the end of the line is always lost: the bits are those of the ports before it. *)
Theorem C53_last : forall J J2 f sep a b c d dl sep1 p v dl1 sep2 l y e rest, junk_ok J -> junk_ok J2 -> f_hand f <> 103 ->
  separators (f_just f :: sep) -> zlen sep < 10000 -> octet_digits a -> octet_digits b -> octet_digits c -> octet_digits d -> zlen (quad_text a b c d) <= 256 ->
  separators (dl :: sep1) -> zlen sep1 < 10000 -> number_field p v -> v <= 255 -> separators (dl1 :: sep2) -> zlen sep2 < 10000 -> ports_ok false l -> zlen l < 10 ->
  digits y -> decimal_of y < 1024 -> zlen (ports_text l) + zlen y < 1000 -> e = 10 \/ e = 13 ->
  reading f (sep ++ quad_text a b c d ++ dl :: sep1 ++ p ++ dl1 :: sep2 ++ ports_text l ++ y ++ e :: rest) ->
  exists o m g, csv2_get_wks J J2 f = Ok (Some o, g) /\ holding o ([decimal_of a; decimal_of b; decimal_of c; decimal_of d; v] ++ m) /\
    decimal_of y < 8 * zlen m /\ (forall q, 0 <= q < 8 * zlen m -> (port_bit m q = true <-> In q (ports_of l))).
Proof.
  intros J J2 f sep a b c d dl sep1 p v dl1 sep2 l y e rest HJ HJ2 HH SF LS DA DB DC DD LQ S1 L1 NF V S2 L2 (NE & FL & LL & _) L9 DY LY LT HE R. destruct (ports_head false l NE FL) as (x & t & ET & RX). rewrite ET in R. cbn [app] in R.
  destruct y as [|y0 y]; [destruct DY; congruence|]. destruct DY as (_ & FY). pose proof (Forall_inv FY) as RY. cbv beta in RY.
  destruct (wks_prefix J J2 f sep a b c d dl sep1 p v dl1 sep2 x _ HJ SF LS DA DB DC DD LQ S1 L1 NF S2 L2 RX R) as (o & g & HO & G & JG & ->). assert (f_hand g = f_hand f) as EH by apply G. rewrite EH. replace (f_hand f =? 103) with false by lia.
  assert (exists n, Z.to_nat 1000 = (length (ports_text l) + (length (y0 :: y) + S n))%nat) as (n & ->) by (exists (Z.to_nat 1000 - length (ports_text l) - length (y0 :: y) - 1)%nat; unfold zlen in *; lia).
  destruct (port_run false (f_tilde g) y0 (y ++ e :: rest) (fun f g => g = step f (y ++ e :: rest) y0) ltac:(intros f0 _ R0; eexists; split; [apply read_ascii; [exact R0|lia|lia|lia]|reflexivity]) l (length (y0 :: y) + S n) 0 [] x t g FL ltac:(rewrite EH; lia) eq_refl ltac:(change (zlen (@nil Z)) with 0; lia) ET (proj1 G)) as (h & g2 & -> & G2 & ->).
  cbn [app]. destruct (port_digits (S n) (highest 0 (ports_of l)) (ports_of l) y y0 0 (step h (y ++ e :: rest) y0) e rest FY (step_reading _ _ _) ltac:(lia) ltac:(fold (decimal_of (y0 :: y)); lia) ltac:(lia) ltac:(lia) ltac:(lia)) as (g3 & -> & G3). fold (decimal_of (y0 :: y)).
  assert (f_hand g3 = f_hand f) as E3 by (transitivity (f_hand h); [apply G3|rewrite <- EH; apply G2]). cbn [port_loop]. rewrite E3. replace (f_hand f =? 103) with false by lia. replace ((e =? -2) || (e =? 10) || (e =? 13)) with true by lia. cbn [negb andb].
  destruct (ports_bounds false l FL) as (FH & HI). pose proof (field_nonneg _ _ NF). pose proof (fold_ge _ FY 0 ltac:(lia)) as Y0. fold (decimal_of (y0 :: y)) in Y0.
  destruct (data_ok J2 o a b c d v (decimal_of (y0 :: y)) (highest 0 (ports_of l)) (ports_of l) HJ2 HO DA DB DC DD HI FH ltac:(left; unfold ports_of, zlen in *; rewrite map_length; lia)) as (out & m & -> & HM & LM & BM). cbn [bind]. rewrite Z.mod_small in HM by lia.
  exists out, m, g3. split; [reflexivity|]. split; [exact HM|]. split; [|intros q Q; apply bits_map; assumption].
  set (top := if (0 <? decimal_of (y0 :: y)) && (decimal_of (y0 :: y) <? 1024) then Z.max (highest 0 (ports_of l)) (decimal_of (y0 :: y)) else highest 0 (ports_of l)) in LM. assert (decimal_of (y0 :: y) <= top) as TOP by (unfold top; destruct (Z.ltb_spec 0 (decimal_of (y0 :: y))); cbn [andb]; [replace (decimal_of (y0 :: y) <? 1024) with true by lia|]; lia).
  pose proof (Z.div_mod top 8 ltac:(lia)). pose proof (Z.mod_pos_bound top 8 ltac:(lia)). lia.
Qed.

(** Whatever is in the file, memory is not left: the record is refused, or its data have from 6 to 134 octets, or a number is too
    large for an int (C48_overflow_refuted). *)
Theorem C53_any : forall J J2 f, junk_ok J -> junk_ok J2 ->
  (exists g, csv2_get_wks J J2 f = Ok (None, g)) \/ (exists s x g, csv2_get_wks J J2 f = Ok (Some s, g) /\ holding s x /\ 6 <= zlen x <= 134) \/ csv2_get_wks J J2 f = Bad SignedOverflow.
Proof.
  intros J J2 f HJ HJ2. destruct (get_wks_wild J J2 f HJ HJ2) as [((o & g) & E & D)|E]; [|right; right; exact E]. cbn [fst some_wks] in D. destruct o as [s|]; [|left; exists g; exact E]. destruct D as (x & H & L). right; left. exists s, x, g. auto.
Qed.

(** ** Cases *)
Local Open Scope string_scope.
Local Open Scope list_scope.
Definition wks_of (s : list Z) : option (list Z) := match csv2_get_wks K K (file s) with Ok (Some o, _) => Some (octets_of o) | _ => None end.
(** 25,53 and a blank. *)
Definition ex_ports : list (list Z * Z) := [([50; 53], 44); ([53; 51], 32)].
Lemma ex_ports_ok tilde : ports_ok tilde ex_ports.
Proof.
  split; [discriminate|]. split; [|split; vm_compute; congruence]. repeat (apply Forall_cons; [split; [split; [discriminate|repeat (apply Forall_cons; [lia|]); constructor]|split; [vm_compute; discriminate|destruct tilde; cbn; auto]]|]). constructor.
Qed.
Example C53_ports_ex : octets "25,53 " = ports_text ex_ports /\ ports_of ex_ports = [25; 53] /\ wks_of (octets "1.2.3.4 6 25,53 " ++ [10]) = Some [1; 2; 3; 4; 6; 0; 0; 0; 64; 0; 0; 4].
Proof. vm_compute. auto. Qed.
(** The theorem itself on this file. *)
Example C53_ports_used : exists o m g, csv2_get_wks K K (file (octets "1.2.3.4 6 25,53 " ++ [10])) = Ok (Some o, g) /\ holding o ([1; 2; 3; 4; 6] ++ m) /\
  map_of [25; 53] m.
Proof.
  assert (forall d, 48 <= d <= 57 -> octet_digits [d]) as OD by (intros d D; split; [split; [discriminate|constructor; [exact D|constructor]]|unfold decimal_of; cbn [fold_left]; lia]).
  assert (separators [32]) as S1 by (split; [repeat constructor; unfold delimiter; lia|vm_compute; auto]).
  destruct (C53_ports K K (file (octets "1.2.3.4 6 25,53 " ++ [10])) [] [49] [50] [51] [52] 32 [] [54] 6 32 [] ex_ports 10 [] K_ok K_ok ltac:(discriminate) ltac:(split; [repeat constructor; unfold delimiter; cbn; lia|vm_compute; auto]) ltac:(reflexivity)
    (OD 49 ltac:(lia)) (OD 50 ltac:(lia)) (OD 51 ltac:(lia)) (OD 52 ltac:(lia)) ltac:(vm_compute; discriminate) S1 ltac:(reflexivity)) as (o & m & g & E & H & B & _).
  - split; [split; [discriminate|constructor; [lia|constructor]]|]. split; [reflexivity|]. split; [lia|]. split; [discriminate|vm_compute; discriminate].
  - lia.
  - exact S1.
  - reflexivity.
  - exact (ex_ports_ok false).
  - auto.
  - split; reflexivity.
  - exists o, m, g. split; [exact E|]. split; [exact H|exact B].
Qed.
(** 25, the end of a line, 53, a blank and a tilde, in a file whose records end with tildes; and 25,53 and 8 right before the end of the line. *)
Example C53_tilde_ex : ports_ok true [([50; 53], 10); ([53; 51], 32)] /\ match csv2_get_wks K K (set_hand (file (octets "1.2.3.4 6 25" ++ [10] ++ octets "53 ~x")) 103) with Ok (Some o, g) => octets_of o = [1; 2; 3; 4; 6; 0; 0; 0; 64; 0; 0; 4] /\ f_rest g = octets "x" | _ => False end.
Proof.
  split; [|vm_compute; auto]. split; [discriminate|]. split; [|split; vm_compute; congruence]. repeat (apply Forall_cons; [split; [split; [discriminate|repeat (apply Forall_cons; [lia|]); constructor]|split; [vm_compute; discriminate|cbn; auto]]|]). constructor.
Qed.
Example C53_last_ex : ports_ok false ex_ports /\ digits [56] /\ decimal_of [56] = 8 /\ wks_of (octets "1.2.3.4 6 25,53 8" ++ [10]) = Some [1; 2; 3; 4; 6; 0; 0; 0; 64; 0; 0; 4].
Proof. split; [exact (ex_ports_ok false)|]. split; [split; [discriminate|constructor; [lia|constructor]]|]. split; vm_compute; reflexivity. Qed.
(** The last port is lost if the line ends right after it: its bit is not set, although the map is long enough for it. *)
Theorem C53_last_refuted : exists m, wks_of (octets "1.2.3.4 6 25 53" ++ [10]) = Some ([1; 2; 3; 4; 6] ++ m) /\ 53 < 8 * zlen m /\ port_bit m 25 = true /\ port_bit m 53 = false.
Proof. exists [0; 0; 0; 64; 0; 0; 0]. vm_compute. auto. Qed.
(** A comma and a blank after a port add port 0. *)
Theorem C53_zero_refuted : exists m, wks_of (octets "1.2.3.4 6 25, 53 " ++ [10]) = Some ([1; 2; 3; 4; 6] ++ m) /\ port_bit m 25 = true /\ port_bit m 53 = true /\ port_bit m 0 = true.
Proof. exists [128; 0; 0; 64; 0; 0; 4]. vm_compute. auto. Qed.
Example C53_any_ex : (exists g, csv2_get_wks K K (file (octets "1.2.3.4 6 25,2000 ")) = Ok (None, g)) /\ csv2_get_wks K K (file (octets "1.2.3.4 2147483648 25 ")) = Bad SignedOverflow.
Proof. split; [eexists; vm_compute; reflexivity|vm_compute; reflexivity]. Qed.

Print Assumptions C53_ports.
Print Assumptions C53_tilde.
Print Assumptions C53_last.
Print Assumptions C53_any.
Print Assumptions C53_last_refuted.
Print Assumptions C53_zero_refuted.
