(** C08, C30: names from packets and from the configuration (Deadwood). *)
From Verif Require Import CBase SpecNames SpecMessage SpecDwStr SpecQuery ModelDwStr ProofDwStr ProofDwCompressSafe ProofDwDecomp ProofDwRecurseSafe ProofDwDname PropsDecompress.

(** *** C08: names in packets *)
(** [max]: how much was received; the buffer is as long as that, less the two bytes of the
    type.  Whatever is in the packet, nothing outside it is read. *)
Theorem C08_name_safe :
  forall J raw offset max, junk_ok J -> bytes raw -> 0 <= offset -> max < 134217728 -> max - 2 <= zlen raw -> safe (dw_get_dname J raw offset max).
Proof.
  intros J raw offset max HJ HB Ho Hm Hr. pose proof (get_dname_sound J raw offset max HJ HB Ho Hm) as HS. destruct (dw_get_dname J raw offset max) as [(s & k)| |f]; [apply safe_Ok|apply safe_Fail|lia].
Qed.
Print Assumptions C08_name_safe.
(** What is accepted is what is there; and it is counted. *)
Theorem C08_accepted_name_is_well_formed :
  forall J raw offset max s k, junk_ok J -> bytes raw -> 0 <= offset -> max < 134217728 -> dw_get_dname J raw offset max = Ok (s, k) ->
  dok s /\ exists n, query_name_at raw offset max n /\ con s = wire n /\ k = zlen n.
Proof. intros J raw offset max s k HJ HB Ho Hm E. pose proof (get_dname_sound J raw offset max HJ HB Ho Hm) as HS. rewrite E in HS. destruct HS as (D & _ & _ & H). auto. Qed.
Print Assumptions C08_accepted_name_is_well_formed.
Theorem C08_well_formed_name_is_accepted :
  forall J raw offset max n, junk_ok J -> bytes raw -> 0 <= offset -> max < 134217728 -> query_name_at raw offset max n ->
  exists s, dw_get_dname J raw offset max = Ok (s, zlen n) /\ con s = wire n.
Proof.
  intros J raw offset max n HJ HB Ho Hm Hn. destruct (get_dname_complete J raw offset max n HJ HB Ho Hm Hn) as (s & E). exists s. split; [exact E|]. destruct (C08_accepted_name_is_well_formed J raw offset max s _ HJ HB Ho Hm E) as (_ & n' & Hn' & C & _).
  rewrite (query_name_unique _ _ _ _ _ Hn Hn'). exact C.
Qed.
Print Assumptions C08_well_formed_name_is_accepted.
(** There is one name at most at an offset. *)
Theorem C08_name_unique : forall raw offset max n n', query_name_at raw offset max n -> query_name_at raw offset max n' -> n = n'.
Proof. intros. eapply query_name_unique; eassumption. Qed.
Print Assumptions C08_name_unique.
(** With the type: accepted exactly if the name is well-formed and the type is none of those
    Deadwood uses itself. *)
Theorem C08_question_exact :
  forall J raw offset max, junk_ok J -> bytes raw -> 0 <= offset -> max < 134217728 -> max <= zlen raw ->
  (forall s, dw_get_dname_type J raw offset max = Ok s ->
     dok s /\ exists n b0 b1, query_name_at raw offset max n /\ zslice raw (offset + zlen (wire n)) 2 = [b0; b1] /\ con s = wire n ++ [b0; b1] /\ ~ 65392 <= b0 * 256 + b1 <= 65407) /\
  (forall n b0 b1, query_name_at raw offset max n -> zslice raw (offset + zlen (wire n)) 2 = [b0; b1] -> ~ 65392 <= b0 * 256 + b1 <= 65407 ->
     exists s, dw_get_dname_type J raw offset max = Ok s /\ con s = wire n ++ [b0; b1]) /\
  safe (dw_get_dname_type J raw offset max).
Proof.
  intros J raw offset max HJ HB Ho Hm Hr. pose proof (get_dname_type_spec J raw offset max HJ HB Ho Hm) as HS. destruct (dw_get_dname_type J raw offset max) as [s| |f] eqn:E; [| |lia].
  - destruct HS as (D & _ & n & b0 & b1 & Hn & Hs & C & Hp). split; [intros s' Es; injection Es as <-; split; [exact D|]; exists n, b0, b1; auto|]. split; [|apply safe_Ok].
    intros n' c0 c1 Hn' Hs' Hp'. exists s. split; [reflexivity|]. pose proof (query_name_unique _ _ _ _ _ Hn Hn') as <-. rewrite Hs in Hs'. injection Hs' as <- <-. exact C.
  - split; [discriminate|]. split; [|apply safe_Fail]. intros n b0 b1 Hn Hs Hp. exfalso. apply Hp. exact (HS n b0 b1 Hn Hs).
Qed.
Print Assumptions C08_question_exact.

(** Finding the end of a name: exact on names of less than 200 labels (an uncompressed name
    of up to 255 bytes has 127 at most), safe on everything. *)
Theorem C08_name_end_exact :
  forall s offset n, dok s -> good_name n -> 0 <= offset -> offset + zlen (wire n) <= d_len s -> zslice (con s) offset (zlen (wire n)) = wire n -> zlen n < 200 ->
  dw_get_dn_end s offset = Ok (offset + zlen (wire n)).
Proof. intros s offset n D G Ho He Hs Hl. unfold dw_get_dn_end. rewrite (dok_sane s D). cbn [negb]. apply dn_end_ok; auto. unfold zlen in Hl. lia. Qed.
Print Assumptions C08_name_end_exact.
(** The same for names that may be compressed: the end is that of the bytes at [offset], after
    the pointer if there is one. *)
Theorem C08_compressed_name_end_exact :
  forall s offset T k n e, dok s -> name_at T (con s) k offset n e -> (k <= 200)%nat -> 0 <= offset -> d_len s < 1000000000 ->
  dw_get_dn_end s offset = Ok e.
Proof.
  intros s offset T k n e D Hn Hk Ho Hl. unfold dw_get_dn_end. rewrite (dok_sane s D). cbn [negb]. pose proof D as [[B L M Me] K]. pose proof (zlen_con s ltac:(auto)) as Lc.
  revert Hk Ho. generalize 200%nat as rest. induction Hn as [p Hp|k p l n e Hl1 Hp Hs Hn IH|k p hi lo n e Hp Hh Hp' HT Hn IH]; intros rest Hk Ho; (destruct rest as [|rest]; [lia|]); cbn [dn_end_loop];
    pose proof (zget_range _ _ _ Hp); rewrite u32_small by lia; replace (d_len s <? p + 1) with false by lia; rewrite rd_con by (auto; lia); rewrite (rd_of_zget _ _ _ Hp); cbn [bind].
  - reflexivity.
  - replace (192 <=? zlen l) with false by lia. replace (63 <? zlen l) with false by lia. replace (zlen l =? 0) with false by lia. replace (p + zlen l + 1) with (p + 1 + zlen l) by lia. apply IH; lia.
  - replace (192 <=? hi) with true by lia. reflexivity.
Qed.
Print Assumptions C08_compressed_name_end_exact.
Example compressed_name_concrete : name_at (fun q => q = 0) (con (str_of [1; 97; 0; 1; 98; 192; 0; 7])) 4 3 [[98]; [97]] 7.
Proof.
  apply (at_label _ _ 3 3 [98] [[97]] 7); [vm_compute; intuition congruence|reflexivity|reflexivity|]. apply (at_pointer _ _ 2 5 192 0 [[97]] 3); [reflexivity|lia|reflexivity|reflexivity|].
  apply (at_label _ _ 1 0 [97] [] 3); [vm_compute; intuition congruence|reflexivity|reflexivity|]. apply (at_root _ _ 2). reflexivity.
Qed.
Theorem C08_name_end_safe : forall s offset, dwf s -> 0 <= offset <= 1000000000 -> safe (dw_get_dn_end s offset).
Proof. intros s offset W Ho. exact (post_safe _ _ (get_dn_end_safe s offset W Ho)). Qed.
Print Assumptions C08_name_end_safe.

(** A query for example.com, IN A; after it, garbage. *)
Definition ex_packet : list Z := [18; 52; 1; 0; 0; 1; 0; 0; 0; 0; 0; 0] ++ wire [[101; 120; 97; 109; 112; 108; 101]; [99; 111; 109]] ++ [0; 1; 0; 1; 255].
Example query_name_concrete : query_name_at ex_packet 12 (zlen ex_packet) [[101; 120; 97; 109; 112; 108; 101]; [99; 111; 109]] /\ bytes ex_packet.
Proof.
  split; [|apply bytesb_spec; reflexivity]. split; [repeat constructor; vm_compute; intuition congruence|]. split; [repeat constructor; vm_compute; congruence|]. split; [vm_compute; congruence|]. split; [vm_compute; congruence|]. vm_compute. reflexivity.
Qed.
Example question_concrete :
  match dw_get_dname_type J0 ex_packet 12 (zlen ex_packet) with Ok s => con s = wire [[101; 120; 97; 109; 112; 108; 101]; [99; 111; 109]] ++ [0; 1] | _ => False end /\
  dw_get_dname_type J0 ([1; 97; 0; 255; 112; 0; 1]) 0 7 = Fail /\ dw_get_dname_type J0 ([1; 9; 0; 0; 1; 0; 1]) 0 7 = Fail /\ dw_get_dname_type J0 ([192; 0; 0; 0; 1; 0; 1]) 0 7 = Fail.
Proof. vm_compute. repeat split; reflexivity. Qed.

Example name_end_concrete : dw_get_dn_end (str_of ex_packet) 12 = Ok 25 /\ dw_get_dn_end (str_of [1; 97; 192; 0; 5]) 0 = Ok 4 /\ dw_get_dn_end (str_of [1; 97; 64; 0; 5]) 0 = Ok (-1).
Proof. vm_compute. repeat split; reflexivity. Qed.

(** *** C30: names in the configuration *)
Theorem C30_conversion_exact :
  forall J inp, junk_ok J -> dok inp -> d_len inp < 134217000 ->
  (forall s, dw_dnsname_convert J inp = Ok s -> dok s /\ exists n, good_name n /\ dotless n /\ con inp = text n /\ con s = wire n) /\
  (forall n, good_name n -> dotless n -> con inp = text n -> exists s, dw_dnsname_convert J inp = Ok s /\ con s = wire n) /\
  safe (dw_dnsname_convert J inp).
Proof.
  intros J inp HJ D Hl. pose proof (convert_ok J inp HJ D Hl) as H. destruct (dw_dnsname_convert J inp) as [s| |f] eqn:E; [| |contradiction].
  - destruct H as (Ds & n & G & Dn & T & C). split; [intros s' Es; injection Es as <-; split; [exact Ds|]; exists n; auto|]. split; [|apply safe_Ok].
    intros n' G' Dn' T'. exists s. split; [reflexivity|]. rewrite T in T'. rewrite C. f_equal.
    destruct n as [|l n], n' as [|l' n']; [reflexivity| | |].
    + exfalso. cbn [text map concat] in T'. inversion G' as [|? ? (H1 & _) _]; subst. destruct l' as [|b l']; [change (zlen (@nil Z)) with 0 in H1; lia|]. cbn [app] in T'. injection T' as <- _. inversion Dn' as [|? ? Hd _]; subst. inversion Hd; congruence.
    + exfalso. cbn [text map concat] in T'. inversion G as [|? ? (H1 & _) _]; subst. destruct l as [|b l]; [change (zlen (@nil Z)) with 0 in H1; lia|]. cbn [app] in T'. injection T' as -> _. inversion Dn as [|? ? Hd _]; subst. inversion Hd; congruence.
    + unfold text in T'. pose proof (cut_complete _ G Dn) as E1. pose proof (cut_complete _ G' Dn') as E2. rewrite T' in E1. congruence.
  - split; [discriminate|]. split; [|apply safe_Fail]. intros n G Dn T. exfalso. exact (H n G Dn T).
Qed.
Print Assumptions C30_conversion_exact.
Example conversion_concrete :
  match dw_dnsname_convert J0 (str_of [119; 46; 97; 98; 46]) with Ok s => con s = wire [[119]; [97; 98]] | _ => False end /\ [119; 46; 97; 98; 46] = text [[119]; [97; 98]] /\
  match dw_dnsname_convert J0 (str_of [46]) with Ok s => con s = wire [] | _ => False end /\
  dw_dnsname_convert J0 (str_of [119; 46; 46]) = Fail /\ dw_dnsname_convert J0 (str_of [119; 46; 97]) = Fail /\ dw_dnsname_convert J0 (str_of (repeat 97 64 ++ [46])) = Fail.
Proof. vm_compute. repeat split; reflexivity. Qed.
(** There is no check of the length of the whole name. *)
Theorem C30_name_length_checked_refuted :
  exists inp s, dok inp /\ dw_dnsname_convert J0 inp = Ok s /\ 255 < zlen (con s).
Proof.
  exists (str_of (concat (repeat [97; 46] 200))), (match dw_dnsname_convert J0 (str_of (concat (repeat [97; 46] 200))) with Ok s => s | _ => str_of [] end).
  split; [split; [constructor; [apply bytesb_spec; reflexivity| | |]|]; vm_compute; intuition congruence|]. split; vm_compute; reflexivity.
Qed.
Print Assumptions C30_name_length_checked_refuted.

(** *** Chopping off the first label (the search for the servers of a name) *)
Theorem C30_chop_exact :
  forall J inp l n rest, junk_ok J -> dok inp -> good_label l -> con inp = wire (l :: n) ++ rest ->
  exists s, dw_dnslabel_chop J inp = Ok s /\ dok s /\ con s = wire n ++ rest.
Proof. intros. eapply chop_ok; eassumption. Qed.
Print Assumptions C30_chop_exact.
Theorem C30_chop_safe : forall J inp, junk_ok J -> dwf inp -> safe (dw_dnslabel_chop J inp) /\ forall s, dw_dnslabel_chop J inp = Ok s -> dwf s.
Proof. intros J inp HJ W. pose proof (chop_safe J inp HJ W) as HP. split; [exact (post_safe _ _ HP)|]. intros s E. rewrite E in HP. exact HP. Qed.
Print Assumptions C30_chop_safe.
Example chop_concrete : match dw_dnslabel_chop J0 (str_of [1; 119; 2; 97; 98; 0; 255; 115]) with Ok s => con s = [2; 97; 98; 0; 255; 115] | _ => False end.
Proof. vm_compute. reflexivity. Qed.
