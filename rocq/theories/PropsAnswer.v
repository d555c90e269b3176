(** C17, C26, C27: what Deadwood does with stored answers: the filter for unwanted
    addresses, rotation and ageing of TTLs. *)
From Coq Require Import Permutation.
From Verif Require Import CBase SpecNames SpecMessage SpecDeadwoodMsg SpecDwStr SpecAnswer ModelDwStr ModelDwCompress ModelDwDnsStr ProofDwStr ProofDwCompressSafe ProofDwDecomp ProofMessage ProofDwDnsStr ProofDwRotate ProofDwDnsSafe PropsDecompress.

(** *** Safety of all of it, for any valid string *)
Theorem C26_C27_process_safe :
  forall J age rotate action ttl s, junk_ok J -> dwf s ->
  safe (dwc_process J age rotate action ttl s) /\ forall s', dwc_process J age rotate action ttl s = Ok s' -> dwf s' /\ d_max s' = d_max s.
Proof.
  intros J age rotate action ttl s HJ W. pose proof (process_safe J HJ age rotate action ttl s W) as HP. split; [exact (post_safe _ _ HP)|]. intros s' E. rewrite E in HP. exact HP.
Qed.
Print Assumptions C26_C27_process_safe.
Theorem C17_filter_safe :
  forall J filter blocked s, junk_ok J -> dwf s -> safe (dwc_has_bad_ip J filter blocked s).
Proof. intros J filter blocked s HJ W. exact (post_safe _ _ (has_bad_ip_safe J HJ filter blocked s W)). Qed.
Print Assumptions C17_filter_safe.

(** *** C17 *)
(** The ranges as ranges of 32-bit numbers. *)
Theorem C17_ranges :
  forall a b c d, byte a -> byte b -> byte c -> byte d ->
  let ip := ((a * 256 + b) * 256 + c) * 256 + d in
  private_ip [a; b; c; d] = true <->
    3232235520 <= ip <= 3232301055 (* 192.168.0.0 - 192.168.255.255 *) \/
    2886729728 <= ip <= 2887778303 (* 172.16.0.0 - 172.31.255.255 *) \/
    167772160 <= ip <= 184549375 (* 10.0.0.0 - 10.255.255.255 *) \/
    2130706432 <= ip <= 2147483647 (* 127.0.0.0 - 127.255.255.255 *) \/
    2851995648 <= ip <= 2852061183 (* 169.254.0.0 - 169.254.255.255 *) \/
    3758096384 <= ip <= 3774873599 (* 224.0.0.0 - 224.255.255.255 *) \/
    0 <= ip <= 65535 (* 0.0.0.0 - 0.0.255.255 *).
Proof. intros a b c d Ha Hb Hc Hd ip. subst ip. unfold byte in *. unfold private_ip. lia. Qed.
Print Assumptions C17_ranges.

(** An answer is refused exactly if a record of its answer section holds an unwanted
    address. *)
Theorem C17_filter_exact :
  forall J filter blocked s an ns ar t, junk_ok J -> holds s an ns ar t -> Forall ip_size_ok an ->
  dwc_has_bad_ip J filter blocked s = Ok (existsb (unwanted filter blocked) an).
Proof. intros. eapply has_bad_ip_ok; eassumption. Qed.
Print Assumptions C17_filter_exact.

(** From the packet on: a packet which says the records [an], [ns] and [ar], see C06. *)
Lemma rrs_fits T m limit p rs e : rrs_at T m limit p rs e -> Forall (fun r => 0 <= rr_type r < 65536 /\ zlen (rr_meta r) = 6) rs.
Proof. induction 1 as [|p r e rs e' H _ IH]; constructor; auto. destruct H; auto. Qed.
Lemma plain_fits rs : Forall (fun r => 0 <= rr_type r < 65536 /\ zlen (rr_meta r) = 6) rs -> zlen (plain_records rs) < 65536 -> Forall rr_fits rs.
Proof.
  induction 1 as [|r rs (Ht & Hm) H IH]; intros L; constructor.
  - rewrite plain_records_cons, zlen_app in L. pose proof (zlen_nonneg (plain_records rs)). unfold rr_plain in L. repeat rewrite zlen_app in L. rewrite !zlen_num16 in L.
    pose proof (zlen_nonneg (wire (rr_owner r))). pose proof (zlen_nonneg (rr_meta r)). split; [exact Ht|]. split; [exact Hm|lia].
  - apply IH. rewrite plain_records_cons, zlen_app in L. pose proof (zlen_nonneg (rr_plain r)). lia.
Qed.
Theorem C17_packet_filter_exact :
  forall filter blocked Jp Jo Js J raw len t q header qn qt class body an ns ar,
  junk_ok Jp -> junk_ok Jo -> junk_ok Js -> junk_ok J ->
  bytes raw -> 0 <= len < 1000000 -> len + 2 <= zlen raw -> 0 <= t <= 2 -> dok q ->
  zlen header = 12 -> good_name qn -> (length qn < 200)%nat -> zlen qt = 2 -> zlen class = 2 ->
  con q = wire qn ++ qt ->
  zslice raw 0 len = message header (con q) class body ->
  rrs_at (pointer_ok qn (14 + zlen (con q))) (zslice raw 0 len) 200 (14 + zlen (con q)) (an ++ ns ++ ar) len ->
  zslice header 6 6 = num16 (zlen an) ++ num16 (zlen ns) ++ num16 (zlen ar) ->
  (length (an ++ ns ++ ar) <= 511)%nat -> zlen (plain_records (an ++ ns ++ ar)) + 4 * Z.of_nat (length (an ++ ns ++ ar)) + 7 < 2048 ->
  Forall ip_size_ok an ->
  exists out, packet_decompressed Jp Jo Js J raw len t q = Ok out /\ holds out an ns ar t /\
    dwc_has_bad_ip J filter blocked out = Ok (existsb (unwanted filter blocked) an).
Proof.
  intros filter blocked Jp Jo Js J raw len t q header qn qt class body an ns ar HJp HJo HJs HJ HB Hl Hr Ht Dq Hh Hg Hn Hqt Hc Hq Hm Hrs Hcnt Hlen Hfit Hip.
  destruct (C06_decompression_exact Jp Jo Js J raw len t q header qn qt class body (an ++ ns ++ ar) HJp HJo HJs HJ HB Hl Hr ltac:(unfold byte; lia) Dq Hh Hg Hn Hqt Hc Hq Hm Hrs Hlen Hfit) as (out & E & D & C).
  exists out. split; [exact E|]. assert (holds out an ns ar t) as H.
  { constructor; auto.
    - rewrite C, Hcnt. unfold answer. repeat rewrite <- app_assoc. reflexivity.
    - apply plain_fits; [exact (rrs_fits _ _ _ _ _ _ Hrs)|lia].
    - destruct (C06_decompression_safe Jp Jo Js J raw len t q HJp HJo HJs HJ HB Hl Hr ltac:(auto)) as (_ & H). destruct (H out E) as (_ & H'). lia. }
  split; [exact H|]. exact (has_bad_ip_ok J HJ filter blocked out an ns ar t H Hip).
Qed.
Print Assumptions C17_packet_filter_exact.

(** *** C26 and C27 *)
(** What a query does to the stored answer ([action] 3 in get_reply_from_cache: both). *)
Theorem C26_C27_process_exact :
  forall J age rotate action ttl s an ns ar t, junk_ok J -> holds s an ns ar t -> 0 <= ttl < 2147483648 ->
  let an1 := if age && (Z.land action 2 =? 2) then map (set_ttl (Z.max 5 ttl)) an else an in
  let an2 := if rotate && (Z.land action 1 =? 1) && rotates an ns ar then rotated an1 else an1 in
  exists s', dwc_process J age rotate action ttl s = Ok s' /\ holds s' an2 ns ar t.
Proof.
  intros J age rotate action ttl s an ns ar t HJ H Httl an1 an2. unfold dwc_process.
  assert (dw_fetch_u8 s (-1) = Ok t) as ->.
  { pose proof H as [D C F Ht Hl]. pose proof D as [[B L M Me] K]. pose proof (holds_len _ _ _ _ _ H) as Ll. pose proof (zlen_nonneg (plain_records (an ++ ns ++ ar))). pose proof (zlen_nonneg an). pose proof (zlen_nonneg ns). pose proof (zlen_nonneg ar).
    unfold dw_fetch_u8. rewrite (dok_sane s D). cbn [negb]. change (-1 <? 0) with true. cbv iota zeta. rewrite i32_small by lia. rewrite u32_small by lia.
    replace ((d_len s <? d_len s + -1) || (d_len s + -1 <? 0)) with false by lia. apply rd_of_zget. rewrite <- zget_con by (auto; lia). rewrite C. unfold answer.
    pose proof (f_equal zlen C) as L1. rewrite zlen_con in L1 by auto. unfold answer in L1. repeat rewrite app_assoc in L1. rewrite zlen_app in L1. change (zlen [t]) with 1 in L1. repeat rewrite app_assoc.
    rewrite zget_app_r by lia. match goal with |- zget _ ?e = _ => replace e with 0 by lia end. reflexivity. }
  cbn [bind]. replace (t =? 24) with false by (destruct H; lia).
  match goal with |- context [bind ?m _] => assert (exists v, m = Ok v /\ ((v = None /\ an1 = an /\ rotates an ns ar = false) \/ exists s1, v = Some s1 /\ holds s1 an1 ns ar t)) as (v & -> & Hv) end.
  { subst an1. destruct (age && (Z.land action 2 =? 2)); [|exists (Some s); split; [reflexivity|right; exists s; auto]]. replace (ttl =? -1) with false by lia.
    destruct (ttl_age_ok J HJ s an ns ar t ttl H Httl) as (code & s1 & -> & H1 & [->|(-> & E)]); cbn [bind].
    - change (1 =? -1) with false. cbv iota. exists (Some s1). split; [reflexivity|right; exists s1; auto].
    - change (-1 =? -1) with true. cbv iota. exists None. split; [reflexivity|left]. apply app_eq_nil in E as [-> E]. apply app_eq_nil in E as [-> ->]. repeat split; reflexivity. }
  cbn [bind]. destruct Hv as [(-> & E1 & E2)|(s1 & -> & H1)].
  - exists s. split; [reflexivity|]. subst an2. rewrite E2, andb_false_r, E1. exact H.
  - subst an2. destruct (rotate && (Z.land action 1 =? 1)); cbn [andb]; [|exists s1; auto].
    assert (rotates an1 ns ar = rotates an ns ar) as Er.
    { subst an1. destruct (age && (Z.land action 2 =? 2)); [|reflexivity]. unfold rotates. assert (others (map (set_ttl (Z.max 5 ttl)) an) = map (set_ttl (Z.max 5 ttl)) (others an)) as ->.
      { clear. induction an as [|r an IH]; [reflexivity|]. cbn [map others]. change (rr_type (set_ttl (Z.max 5 ttl) r)) with (rr_type r). destruct (rr_type r =? 5); [exact IH|reflexivity]. }
      destruct (others an) as [|r [|r' rest]]; reflexivity. }
    destruct (rr_rotate_ok J HJ s1 an1 ns ar t H1) as (code & s2 & -> & Hs). cbn [bind]. rewrite Er in Hs. replace (ttl =? -1) with false by lia. rewrite orb_false_r. destruct (rotates an ns ar).
    + destruct Hs as (-> & H2). exists s2. auto.
    + subst code. exists s1. auto.
Qed.
Print Assumptions C26_C27_process_exact.

(** Rotation loses, doubles and changes nothing and leaves the CNAME chain in front. *)
Theorem C26_rotation_is_permutation :
  forall an, Permutation an (rotated an) /\ exists rest, rotated an = cnames an ++ rest.
Proof.
  intros an. split; [|exists (match others an with [] => [] | r :: rest => rest ++ [r] end); apply rotated_split].
  rewrite rotated_split. rewrite (cnames_others an) at 1. apply Permutation_app_head. destruct (others an); [constructor|]. apply Permutation_cons_append.
Qed.
Print Assumptions C26_rotation_is_permutation.

(** Query after query, each record takes its turn: after [k] queries the records after the
    CNAME chain are the same list begun [k] places further on. *)
Fixpoint queries (k : nat) (J : Z -> Z) (age : bool) (ttls : nat -> Z) (s : dwstr) : res dwstr :=
  match k with
  | O => Ok s
  | S k => s <- queries k J age ttls s ;; dwc_process J age true 3 (ttls k) s
  end.
Lemma rotated_front cn l : Forall (fun r => rr_type r = 5) cn -> Forall (fun r => rr_type r <> 5) l ->
  cnames (cn ++ l) = cn /\ others (cn ++ l) = l.
Proof.
  intros Hc Hl. induction Hc as [|r cn Hr _ IH]; cbn [app cnames others].
  - destruct Hl as [|r l Hr _]; [split; reflexivity|]. cbn [cnames others]. replace (rr_type r =? 5) with false by lia. split; reflexivity.
  - replace (rr_type r =? 5) with true by lia. destruct IH as (-> & ->). split; reflexivity.
Qed.
Theorem C26_every_record_takes_its_turn :
  forall J k ttls s cn first last t, junk_ok J -> holds s (cn ++ first ++ last) [] [] t ->
  (forall i, 0 <= ttls i < 2147483648) ->
  Forall (fun r => rr_type r = 5) cn -> Forall (fun r => rr_type r <> 5 /\ reserved (rr_type r) = false) (first ++ last) ->
  (2 <= length (first ++ last))%nat -> k = length first ->
  exists s', queries k J false ttls s = Ok s' /\ holds s' (cn ++ last ++ first) [] [] t.
Proof.
  intros J k ttls s cn first last t HJ H Httl Hc Hl Hlen ->. revert last H Hl Hlen.
  induction first as [|r first IH] using rev_ind; intros last H Hl Hlen.
  - cbn [length queries app] in *. rewrite app_nil_r. exists s. auto.
  - rewrite app_length. cbn [length]. replace (length first + 1)%nat with (S (length first)) by lia. cbn [queries]. rewrite <- app_assoc in H, Hl, Hlen.
    destruct (IH ([r] ++ last) H Hl Hlen) as (s1 & -> & H1). cbn [bind].
    destruct (C26_C27_process_exact J false true 3 (ttls (length first)) s1 _ [] [] t HJ H1 (Httl _)) as (s2 & E & H2). cbn [andb] in H2. change (Z.land 3 1 =? 1) with true in H2. cbn [andb] in H2.
    exists s2. split; [exact E|].
    assert (Forall (fun x => rr_type x <> 5) (([r] ++ last) ++ first)) as Hn.
    { eapply Forall_impl; [|apply Forall_app; apply Forall_app in Hl as [Hl1 Hl2]; split; [exact Hl2|exact Hl1]]. cbn beta. intros a Ha. apply Ha. }
    destruct (rotated_front cn (([r] ++ last) ++ first) Hc Hn) as (Ec & Eo).
    assert (rotates (cn ++ ([r] ++ last) ++ first) [] [] = true) as Er.
    { unfold rotates. rewrite Eo. cbn [app]. apply Forall_app in Hl as [_ Hl]. apply Forall_app in Hl as [Hl _]. inversion Hl as [|x0 l0 (_ & Hres)]; subst. destruct (last ++ first) eqn:El; [|rewrite Hres; reflexivity].
      exfalso. apply app_eq_nil in El as [-> ->]. cbn [app length] in Hlen. lia. }
    rewrite Er in H2. rewrite rotated_split, Ec, Eo in H2. cbn [app] in H2. rewrite <- app_assoc in H2. exact H2.
Qed.
Print Assumptions C26_every_record_takes_its_turn.

(** Ageing changes nothing but the TTLs: every answer record gets the time the entry has
    still to live, at least 5; the other sections keep theirs. *)
Theorem C27_ageing_exact :
  forall J ttl s an ns ar t, junk_ok J -> holds s an ns ar t -> 0 <= ttl < 2147483648 ->
  exists s', dwc_process J true false 3 ttl s = Ok s' /\ holds s' (map (set_ttl (Z.max 5 ttl)) an) ns ar t.
Proof. intros J ttl s an ns ar t HJ H Httl. exact (C26_C27_process_exact J true false 3 ttl s an ns ar t HJ H Httl). Qed.
Print Assumptions C27_ageing_exact.

(** *** A concrete answer: a CNAME, two addresses, the second of them private. *)
Definition ans_an : list rr :=
  [mkrr [[119]; [97]] 5 [0; 1; 0; 0; 14; 16] [] [[[97]]] [];
   mkrr [[97]] 1 [0; 1; 0; 0; 14; 16] [9; 9; 9; 9] [] [];
   mkrr [[97]] 1 [0; 1; 0; 0; 14; 16] [192; 168; 1; 1] [] []].
Definition ans_str : dwstr := str_of (answer ans_an [] [] 0).
Example answer_holds : holds ans_str ans_an [] [] 0.
Proof.
  constructor.
  - split; [constructor|]; try (vm_compute; intuition congruence). apply bytesb_spec. reflexivity.
  - vm_compute. reflexivity.
  - repeat constructor; vm_compute; intuition congruence.
  - lia.
  - vm_compute. reflexivity.
Qed.
Example answer_filtered :
  dwc_has_bad_ip J0 true None ans_str = Ok true /\ dwc_has_bad_ip J0 false None ans_str = Ok false /\
  dwc_has_bad_ip J0 false (Some (fun ip => match ip with [9; 9; 9; 9] => true | _ => false end)) ans_str = Ok true /\ Forall ip_size_ok ans_an.
Proof. repeat split; try (vm_compute; reflexivity). repeat constructor; vm_compute; intuition congruence. Qed.
Example answer_rotated_and_aged :
  match dwc_process J0 true true 3 70000 ans_str with
  | Ok s => con s = answer (rotated (map (set_ttl 70000) ans_an)) [] [] 0
  | _ => False
  end /\ rotated ans_an = [nth 0 ans_an (mkrr [] 0 [] [] [] []); nth 2 ans_an (mkrr [] 0 [] [] [] []); nth 1 ans_an (mkrr [] 0 [] [] [] [])].
Proof. split; vm_compute; reflexivity. Qed.
Example turn_hypotheses_met :
  Forall (fun r => rr_type r = 5) (firstn 1 ans_an) /\ Forall (fun r => rr_type r <> 5 /\ reserved (rr_type r) = false) (skipn 1 ans_an) /\
  match queries 2 J0 false (fun _ => 100) ans_str with Ok s => con s = con ans_str | _ => False end.
Proof.
  split; [constructor; [reflexivity|constructor]|]. split; [constructor; [|constructor; [|constructor]]; split; vm_compute; congruence|]. vm_compute. reflexivity.
Qed.

(** *** Lower-casing of the question (get_reply_from_cache, cache_dns_reply): letters of
    the name only; the lengths and what follows the name stay.  Cf. C33. *)
Theorem C33_deadwood_lower_case_exact :
  forall s nm rest, dwf s -> good_name nm -> con s = wire nm ++ rest ->
  exists s', dwc_lower_case s = Ok (1, s') /\ dwf s' /\ con s' = wire (lower_name nm) ++ rest.
Proof. intros s nm rest W Hg C. destruct (lower_case_ok s nm rest W Hg C) as (s' & E & W' & C' & _). exists s'. auto. Qed.
Print Assumptions C33_deadwood_lower_case_exact.
Example lower_case_concrete :
  match dwc_lower_case (str_of [3; 87; 119; 90; 2; 65; 64; 0; 65; 66]) with
  | Ok (c, s) => c = 1 /\ con s = [3; 119; 119; 122; 2; 97; 64; 0; 65; 66]
  | _ => False
  end.
Proof. vm_compute. split; reflexivity. Qed.
Theorem C33_deadwood_lower_case_safe : forall s, dwf s -> safe (dwc_lower_case s).
Proof. intros s W. exact (post_safe _ _ (lower_case_safe s W)). Qed.
Print Assumptions C33_deadwood_lower_case_safe.
