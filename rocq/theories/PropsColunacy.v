(** C34, C41, C42, C43: packets of coLunacyDNS. *)
From Verif Require Import CBase SpecNames SpecAcl SpecDwStr ModelDwStr ModelColunacy SpecColunacy.
From Verif Require Import Bits ProofDwStr ProofDwDnsStr ProofColunacy ProofColunacyServe ProofColunacySafe ProofColunacyUp ProofColunacySend.

(** ** What happens to a complete query *)
Lemma octets3 x : 0 <= x <= 7777777 -> [0; Z.land (Z.shiftr x 16) 255; Z.land (Z.shiftr x 8) 255; Z.land x 255] = num4 x.
Proof.
  intros H. rewrite !Z.shiftr_div_pow2 by lia. change (2 ^ 16) with 65536. change (2 ^ 8) with 256. rewrite !land_255. unfold num4, num2, u8. cbn [app].
  apply f_equal2; [lia|]. apply f_equal2; [lia|]. apply f_equal2; [lia|]. apply f_equal2; [lia|reflexivity].
Qed.
Lemma clamp_range x : 0 <= clamp x <= 7777777. Proof. unfold clamp. lia. Qed.

Definition not_there_data : list Z := [1; 122; 192; 12; 1; 121; 192; 12] ++ num4 1 ++ num4 1 ++ num4 1 ++ num4 1 ++ num4 1.
(** The octets of the reply, for all the program may return. *)
Definition reply (h : header) (n : list (list Z)) (ty cl : Z) (s : script) : option (list Z) :=
  if (ty =? 255) || (ty =? 13) then Some (header_bytes (reply_header h (h_aa h) (h_ra h) (h_rcode h) 1) ++ question n ty cl ++ record 13 0 [7; 82; 70; 67; 56; 52; 56; 50; 0] ++ [0])
  else
    let front := header_bytes (reply_header h (flag (s_aa s)) (flag (s_ra s)) (h_rcode h) 1) ++ question n ty cl in
    match s_type s with
    | SIgnore => None
    | SFail => Some (header_bytes (reply_header h (flag (s_aa s)) (flag (s_ra s)) 2 0) ++ question n ty cl)
    | SNotThere => Some (front ++ record 6 (clamp (s_ttl s)) not_there_data ++ [0])
    | SA ip => Some (front ++ record 1 (clamp (s_ttl s)) ip)
    | SIp6 ip => Some (front ++ record 28 (clamp (s_ttl s)) ip)
    end.
Lemma exchange_reply h n ty cl extra t J Jq s : good_query h n ty cl extra t -> script_ok s -> exchange J Jq (query h n ty cl extra) s = Ok (reply h n ty cl s).
Proof.
  intros GQ SO. destruct (serve_query h n ty cl extra t J Jq GQ) as (Y & LY & E). unfold exchange. rewrite E. clear E. cbv zeta.
  pose proof GQ as ((H & _) & _ & _ & _ & _ & _ & L & _). assert (zlen (labels n) <= 238) as Ln.
  { unfold query in L. rewrite !zlen_app, zlen_header, zlen_q in L. pose proof (zlen_nonneg extra). lia. }
  unfold reply. destruct ((ty =? 255) || (ty =? 13)).
  - unfold kept. rewrite app_assoc.
    assert (17 + zlen (labels n) = zlen (header_bytes (reply_header h (h_aa h) (h_ra h) (h_rcode h) 1) ++ question n ty cl)) as LX by (rewrite zlen_app, zlen_header, zlen_q; lia).
    rewrite LX. rewrite put_at_mid by (change (zlen AnyAnswer) with 22; lia). cbn [bind].
    match goal with |- context [if ?b then _ else _] => replace b with false by (rewrite (zlen_app _ (AnyAnswer ++ _)), (zlen_app AnyAnswer); change (zlen AnyAnswer) with 22; pose proof (zlen_nonneg (skipn (length AnyAnswer) Y)); lia) end.
    cbn [bind]. rewrite (app_assoc _ AnyAnswer), zslice_front by (rewrite (zlen_app _ AnyAnswer); reflexivity). rewrite <- app_assoc. reflexivity.
  - cbn [bind]. rewrite endThread_kept by exact H. cbv zeta.
    assert (17 + zlen (labels n) = zlen (header_bytes (reply_header h (flag (s_aa s)) (flag (s_ra s)) (h_rcode h) 1) ++ question n ty cl)) as LX by (rewrite zlen_app, zlen_header, zlen_q; lia).
    pose proof (octets3 (clamp (s_ttl s)) (clamp_range _)) as O3. unfold script_ok in SO. unfold record. rewrite <- O3. rewrite app_assoc. destruct (s_type s) as [| | |ip|ip].
    + reflexivity.
    + reflexivity.
    + unfold not_there. rewrite send_record_ok by (try (symmetry; exact LX); match goal with |- zlen ?l <= _ => change (zlen l) with 41 end; lia). reflexivity.
    + destruct SO as (_ & SO). unfold IPv4answer. cbn [app]. rewrite send_record_ok by (try (symmetry; exact LX); rewrite !zlen_cons; lia). rewrite SO. reflexivity.
    + destruct SO as (_ & SO). unfold IPv6answer. cbn [app]. rewrite send_record_ok by (try (symmetry; exact LX); rewrite !zlen_cons; lia). rewrite SO. reflexivity.
Qed.

(** ** C34: only octets of the datagram are read *)
(** Reading a name stays within two octets more than the length it is given, and writing within
    the buffer, whatever the octets are. *)
Theorem C34_name_safe m base out max : 0 <= base -> 0 <= max -> base + max + 2 <= zlen m -> max <= zlen out ->
  exists r out', humanDNSname m base out max = Ok (r, out') /\ zlen out' = zlen out /\ -1 <= r <= max + 2.
Proof. apply humanDNSname_safe. Qed.
Print Assumptions C34_name_safe.
Example C34_name_safe_ex : humanDNSname (repeat 255 20 ++ [3; 97; 42; 98; 0] ++ repeat 255 20) 20 (repeat 0 20) 20 = Ok (4, [97; 123; 50; 97; 125; 98; 46] ++ repeat 0 13).
Proof. reflexivity. Qed.

(** A query which has arrived whole: the reply does not depend on memory which has not been
    written ([J] is what is after the datagram, [Jq] what is where the name is put). *)
Theorem C34_query_partial h n ty cl extra t J J' Jq Jq' s : good_query h n ty cl extra t -> script_ok s ->
  exists r, exchange J Jq (query h n ty cl extra) s = Ok r /\ exchange J' Jq' (query h n ty cl extra) s = Ok r.
Proof. intros GQ SO. exists (reply h n ty cl s). split; eapply exchange_reply; eassumption. Qed.
Print Assumptions C34_query_partial.

Definition hdr : header := mkheader 4660 0 0 0 0 1 0 0 0 0 0 1 0 0 0.
Lemma hdr_asks : asks_one hdr.
Proof. unfold asks_one, header_ok, word, bit, hdr. cbn [h_id h_qr h_opcode h_aa h_tc h_rd h_ra h_z h_ad h_cd h_rcode h_qdcount h_ancount h_nscount h_arcount]. lia. Qed.
Lemma plain_is c : plain_char c -> char_is c [c]. Proof. left. auto. Qed.
(** a*.b *)
Example good_query_ex : good_query hdr [[97; 42]; [98]] 1 1 [] [97; 123; 50; 97; 125; 46; 98; 46].
Proof.
  split; [exact hdr_asks|]. split; [discriminate|]. split.
  { constructor; [split; [change (zlen [97; 42]) with 2; lia|apply bytesb_spec; reflexivity]|]. constructor; [split; [change (zlen [98]) with 1; lia|apply bytesb_spec; reflexivity]|constructor]. }
  split; [unfold word; lia|]. split; [unfold word; lia|]. split; [constructor|]. split; [vm_compute; discriminate|]. split; [|vm_compute; discriminate].
  exists [[97; 123; 50; 97; 125; 46]; [98; 46]]. split; [|reflexivity]. constructor; [|constructor; [|constructor]].
  - exists [[97]; [123; 50; 97; 125]]. split; [|reflexivity]. constructor; [apply plain_is; unfold plain_char; lia|]. constructor; [|constructor]. right. split; [unfold plain_char; lia|reflexivity].
  - exists [[98]]. split; [|reflexivity]. constructor; [apply plain_is; unfold plain_char; lia|constructor].
Qed.

(** If the memory after the datagram were zero, nothing would be read or written outside the
    buffers, whatever the datagram is. *)
Theorem C34_zeroed_partial J Jq d s : script_ok s -> (forall i, Z.min 255 (zlen d) <= i < 500 -> J i = 0) -> exists r, exchange J Jq d s = Ok r.
Proof. apply exchange_zero. Qed.
Print Assumptions C34_zeroed_partial.
Example C34_zeroed_ex : exchange (fun _ => 0) (fun _ => 255) (header_bytes hdr ++ [63; 97]) (mkscript true true 0 (SA [1; 2; 3; 4])) <> Ok None.
Proof. vm_compute. discriminate. Qed.

(** A query cut short is answered with what was in memory after it: here a datagram of 13 octets,
    which promises a label of 17, gets 17 octets of other memory in the reply. *)
Definition cut : list Z := header_bytes hdr ++ [17].
Definition secret (b : Z) (i : Z) : Z := if (13 <=? i) && (i <? 30) then b else if i =? 32 then 1 else if i =? 34 then 1 else 0.
Theorem C34_leak_refuted : exists d s, zlen d = 13 /\ forall b, 0 <= b < 256 -> exists p,
  exchange (secret b) (fun _ => 0) d s = Ok (Some p) /\ zslice p 13 17 = repeat b 17.
Proof.
  exists cut, (mkscript false false 0 (SA [1; 2; 3; 4])). split; [reflexivity|]. intros b Hb.
  assert (forallb (fun b => match exchange (secret b) (fun _ => 0) cut (mkscript false false 0 (SA [1; 2; 3; 4])) with Ok (Some p) => zlist_eqb (zslice p 13 17) (repeat b 17) | _ => false end) (map Z.of_nat (seq 0 256)) = true) as A by (vm_compute; reflexivity).
  rewrite forallb_forall in A. specialize (A b). destruct (exchange (secret b) (fun _ => 0) cut (mkscript false false 0 (SA [1; 2; 3; 4]))) as [[p|]| |]; [|exfalso..].
  - exists p. split; [reflexivity|]. apply zlist_eqb_spec. apply A. apply in_map_iff. exists (Z.to_nat b). split; [lia|]. apply in_seq. lia.
  - discriminate A. apply in_map_iff. exists (Z.to_nat b). split; [lia|]. apply in_seq. lia.
  - discriminate A. apply in_map_iff. exists (Z.to_nat b). split; [lia|]. apply in_seq. lia.
  - discriminate A. apply in_map_iff. exists (Z.to_nat b). split; [lia|]. apply in_seq. lia.
Qed.
Print Assumptions C34_leak_refuted.

(** ... and may be read past the end of the buffer, all 500 octets of it. *)
Definition lengths (i : Z) : Z := if (i - 12) mod 64 =? 0 then 63 else 65.
Theorem C34_overrun_refuted : exists J Jq d, junk_ok J /\ bytes d /\ zlen d = 13 /\ serve J Jq d = Bad OutOfBounds.
Proof. exists lengths, (fun _ => 0), (header_bytes hdr ++ [63]). split; [intros i; unfold lengths, byte; destruct ((i - 12) mod 64 =? 0); lia|]. split; [apply bytesb_spec; reflexivity|]. split; [reflexivity|]. vm_compute. reflexivity. Qed.
Print Assumptions C34_overrun_refuted.

(** Replies from upstream: the first address in the reply is found, and no memory but the
    datagram's decides it, if there is one and it begins before octet 450. *)
Theorem C34_upstream_partial signed J Jd id n t flags counts ty cl pre r post f :
  word id -> zlen flags = 2 -> zlen counts = 8 -> good_name n -> human n t -> zlen t <= 480 -> (signed = true -> Forall (fun c => c < 128) (wire n)) -> word ty ->
  Forall rr_ok (pre ++ r :: post) -> zlen (reply_from id n flags counts ty cl (pre ++ r :: post)) <= 514 ->
  zlen (reply_from id n flags counts ty cl pre) < 450 -> Forall (fun q => forall g, ~ address q g) pre -> address r f ->
  upstream_reply signed J Jd id (wire n) (reply_from id n flags counts ty cl (pre ++ r :: post)) = Ok f.
Proof.
  intros Wi Lf Lc GN HH Lt Sg Wt RO L1 L2 NA A. unfold upstream_reply.
  assert (length (reply_from id n flags counts ty cl (pre ++ r :: post)) <= 514)%nat as LL by (unfold zlen in L1; lia).
  rewrite firstn_all2 by exact LL. rewrite (received_all 514 514 J _ LL). remember (skipn _ (mkjunk J (Z.of_nat 514))) as R eqn:ER. clear ER.
  set (P := num2 id ++ flags ++ counts). assert (zlen P = 12) as LP by (unfold P; rewrite !zlen_app, Lf, Lc; reflexivity).
  assert (forall l, reply_from id n flags counts ty cl l = P ++ question n ty cl ++ concat (map rr_bytes l)) as ER by (intros l; unfold reply_from, P; rewrite <- !app_assoc; reflexivity).
  fold (zlen (reply_from id n flags counts ty cl (pre ++ r :: post))). rewrite !ER in *. pose proof (zlen_q n ty cl) as LQ. pose proof (zlen_nonneg (labels n)).
  pose proof (zlen_nonneg (concat (map rr_bytes (pre ++ r :: post)))). replace (zlen (P ++ question n ty cl ++ concat (map rr_bytes (pre ++ r :: post))) <=? 12) with false by (rewrite !zlen_app; lia).
  set (M := (P ++ question n ty cl ++ concat (map rr_bytes (pre ++ r :: post))) ++ R). cbv zeta.
  assert (M = [id / 256] ++ id mod 256 :: ((flags ++ counts) ++ question n ty cl ++ concat (map rr_bytes (pre ++ r :: post)) ++ R)) as E01 by (unfold M, P, num2; rewrite <- !app_assoc; reflexivity).
  rewrite (rd_at M [] (id / 256) (id mod 256 :: ((flags ++ counts) ++ question n ty cl ++ concat (map rr_bytes (pre ++ r :: post)) ++ R))); [|exact E01|reflexivity]. cbn [bind].
  rewrite (rd_at M [id / 256] (id mod 256) ((flags ++ counts) ++ question n ty cl ++ concat (map rr_bytes (pre ++ r :: post)) ++ R)); [|exact E01|reflexivity]. cbn [bind].
  rewrite be16 by (apply byte_lo || (apply byte_hi; assumption)). replace (id / 256 * 256 + id mod 256 =? id) with true by (unfold word in Wi; lia). cbn [negb].
  assert (bytes (wire n)) as BW.
  { clear - GN. induction GN as [|l n (G1 & G2) GN IH]; [apply bytesb_spec; reflexivity|]. cbn [wire]. constructor; [unfold byte; lia|]. apply bytes_app. split; assumption. }
  assert (M = P ++ wire n ++ (num2 ty ++ num2 cl ++ concat (map rr_bytes (pre ++ r :: post)) ++ R)) as E2 by (unfold M, question; rewrite <- !app_assoc; reflexivity).
  pose proof (name_matches_ok signed (wire n) BW Sg P (num2 ty ++ num2 cl ++ concat (map rr_bytes (pre ++ r :: post)) ++ R)) as NM. rewrite <- E2, LP in NM. rewrite NM. cbn [bind negb].
  assert (M = P ++ question n ty cl ++ (concat (map rr_bytes (pre ++ r :: post)) ++ R)) as E3 by (unfold M; rewrite <- !app_assoc; reflexivity).
  change 100%nat with (S 99). rewrite E3. rewrite (find_question 99 Jd P n t) by assumption.
  rewrite map_app. cbn [map]. rewrite concat_app. cbn [concat]. rewrite <- !app_assoc. rewrite (app_assoc P).
  replace (12 + zlen (question n ty cl)) with (zlen (P ++ question n ty cl)) by (rewrite zlen_app; lia).
  apply Forall_app in RO as (RO1 & RO2). inversion RO2; subst. rewrite !zlen_app in L2.
  apply find_first; try assumption; [rewrite zlen_app; lia|].
  assert (11 * Z.of_nat (length pre) <= zlen (concat (map rr_bytes pre))) as LPre.
  { clear - RO1. induction RO1 as [|q pre Q RO1 IH]; [reflexivity|]. cbn [map concat length]. rewrite zlen_app, zlen_rr by exact Q. pose proof (rr_tail q Q) as (EN & HT). assert (1 <= zlen (rr_name q)) as LN.
    { rewrite EN, zlen_app. pose proof (zlen_nonneg (labels (r_labels q))). destruct (r_pointer q) as [(a, b)|]; unfold zlen at 2; cbn [length]; lia. }
    pose proof (zlen_nonneg (r_data q)). lia. }
  pose proof (zlen_nonneg (question n ty cl)). lia.
Qed.
Print Assumptions C34_upstream_partial.

Definition a_name : list (list Z) := [[97]].
Lemma a_human : human a_name [97; 46].
Proof. exists [[97; 46]]. split; [|reflexivity]. constructor; [|constructor]. exists [[97]]. split; [|reflexivity]. constructor; [apply plain_is; unfold plain_char; lia|constructor]. Qed.
Lemma a_good : good_name a_name.
Proof. constructor; [split; [change (zlen [97]) with 1; lia|apply bytesb_spec; reflexivity]|constructor]. Qed.
Definition cname_rr : rr := mkrr [] (Some (192, 12)) 5 1 [0; 0; 0; 9] [1; 98; 0].
Definition a_rr : rr := mkrr [[97]] None 1 1 [0; 0; 0; 9] [10; 1; 2; 3].
Lemma cname_ok : rr_ok cname_rr.
Proof. unfold rr_ok, cname_rr. cbn [r_labels r_pointer r_type r_class r_ttl r_data]. split; [constructor|]. split; [exists []; split; [exists []; split; [constructor|reflexivity]|vm_compute; discriminate]|]. split; [split; [lia|unfold byte; lia]|]. split; [unfold word; lia|]. split; [unfold word; lia|]. split; [reflexivity|]. split; [apply bytesb_spec; reflexivity|]. split; [apply bytesb_spec; reflexivity|]. unfold word. vm_compute. split; [discriminate|reflexivity]. Qed.
Lemma a_rr_ok : rr_ok a_rr.
Proof. unfold rr_ok, a_rr. cbn [r_labels r_pointer r_type r_class r_ttl r_data]. split; [exact a_good|]. split; [exists [97; 46]; split; [exact a_human|vm_compute; discriminate]|]. split; [exact Logic.I|]. split; [unfold word; lia|]. split; [unfold word; lia|]. split; [reflexivity|]. split; [apply bytesb_spec; reflexivity|]. split; [apply bytesb_spec; reflexivity|]. unfold word. vm_compute. split; [discriminate|reflexivity]. Qed.
Example C34_upstream_ex : upstream_reply true (fun _ => 77) (fun _ => 88) 4660 (wire a_name) (reply_from 4660 a_name [129; 128] (num2 1 ++ num2 2 ++ num2 0 ++ num2 0) 1 1 [cname_rr; a_rr]) = Ok (mkfound 167838211 None).
Proof.
  apply (C34_upstream_partial true (fun _ => 77) (fun _ => 88) 4660 a_name [97; 46] [129; 128] (num2 1 ++ num2 2 ++ num2 0 ++ num2 0) 1 1 [cname_rr] a_rr []).
  - unfold word; lia.
  - reflexivity.
  - reflexivity.
  - exact a_good.
  - exact a_human.
  - vm_compute. discriminate.
  - intros _. change (Forall (fun c => c < 128) [1; 97; 0]). constructor; [lia|]. constructor; [lia|]. constructor; [lia|constructor].
  - unfold word; lia.
  - constructor; [exact cname_ok|]. constructor; [exact a_rr_ok|constructor].
  - vm_compute. discriminate.
  - vm_compute. reflexivity.
  - constructor; [|constructor]. intros g [(A & _)|(A & _)]; discriminate A.
  - left. repeat split. vm_compute. discriminate.
Qed.

(** A reply with no address in it: an address is taken from memory after the datagram. *)
Definition stale (i : Z) : Z := nth (Z.to_nat (i - 19)) (rr_bytes (mkrr [] (Some (192, 12)) 1 1 [0; 0; 0; 9] [6; 6; 6; 6])) 0.
Theorem C34_stale_refuted : exists d, d = reply_from 4660 a_name [129; 128] (num2 1 ++ num2 0 ++ num2 0 ++ num2 0) 1 1 [] /\
  upstream_reply true (fun _ => 0) (fun _ => 0) 4660 (wire a_name) d = Ok (mkfound 0 None) /\
  upstream_reply true stale (fun _ => 0) 4660 (wire a_name) d = Ok (mkfound 101058054 None).
Proof. eexists. split; [reflexivity|]. split; vm_compute; reflexivity. Qed.
Print Assumptions C34_stale_refuted.

(** A reply which makes the program read past the end of the buffer, all 514 octets of which
    are the datagram's. *)
Definition far : list Z :=
  reply_from 4660 a_name [129; 128] (num2 1 ++ num2 2 ++ num2 0 ++ num2 0) 1 1 [mkrr [] (Some (192, 12)) 16 1 [0; 0; 0; 9] (repeat 65 418%nat)] ++
  [40] ++ repeat 97 40%nat ++ [0] ++ num2 28 ++ num2 1 ++ [0; 0; 0; 9] ++ num2 16 ++ repeat 1 13%nat.
Theorem C34_upstream_overrun_refuted : exists d, bytes d /\ zlen d = 514 /\ forall J, upstream_reply true J (fun _ => 0) 4660 (wire a_name) d = Bad OutOfBounds.
Proof. exists far. split; [apply bytesb_spec; vm_compute; reflexivity|]. split; [vm_compute; reflexivity|]. intros J. vm_compute. reflexivity. Qed.
Print Assumptions C34_upstream_overrun_refuted.

(** ** C41: replies to clients *)
(** The program is given the name and the type of the query. *)
Theorem C41_script h n ty cl extra t J Jq : good_query h n ty cl extra t -> ty <> 255 -> ty <> 13 ->
  exists m q, serve J Jq (query h n ty cl extra) = Ok (Script t ty m q).
Proof.
  intros GQ N1 N2. destruct (serve_query h n ty cl extra t J Jq GQ) as (Y & _ & ->). cbv zeta. replace ((ty =? 255) || (ty =? 13)) with false by lia. eauto.
Qed.
Print Assumptions C41_script.
Example C41_script_ex : exists m q, serve (fun _ => 255) (fun _ => 255) (query hdr [[97; 42]; [98]] 1 1 []) = Ok (Script [97; 123; 50; 97; 125; 46; 98; 46] 1 m q).
Proof. apply (C41_script hdr [[97; 42]; [98]] 1 1 [] _ _ _ good_query_ex); lia. Qed.
(** An address it returns: the reply has the ID and the question of the query, it is a response,
    and has one record, of the name that was asked for, with the address and the TTL. *)
Theorem C41_address h n ty cl extra t J Jq aa ra ttl ip v6 : good_query h n ty cl extra t -> ty <> 255 -> ty <> 13 -> bytes ip -> zlen ip = (if v6 : bool then 16 else 4) ->
  exchange J Jq (query h n ty cl extra) (mkscript aa ra ttl (if v6 then SIp6 ip else SA ip)) =
  Ok (Some (header_bytes (reply_header h (flag aa) (flag ra) (h_rcode h) 1) ++ question n ty cl ++ record (if v6 then 28 else 1) (clamp ttl) ip)).
Proof.
  intros GQ N1 N2 B L. rewrite (exchange_reply h n ty cl extra t) by (try assumption; unfold script_ok; destruct v6; split; assumption).
  unfold reply. replace ((ty =? 255) || (ty =? 13)) with false by lia. destruct v6; cbn [s_type s_aa s_ra s_ttl]; rewrite <- app_assoc; reflexivity.
Qed.
Print Assumptions C41_address.
Example C41_address_ex : exchange (fun _ => 255) (fun _ => 255) (query hdr [[97; 42]; [98]] 1 1 []) (mkscript false true 8000000 (SA [10; 1; 2; 3])) =
  Ok (Some ([18; 52; 129; 128; 0; 1; 0; 1; 0; 0; 0; 0] ++ [2; 97; 42; 1; 98; 0; 0; 1; 0; 1] ++ [192; 12; 0; 1; 0; 1; 0; 118; 173; 241; 0; 4; 10; 1; 2; 3])).
Proof. rewrite (C41_address hdr [[97; 42]; [98]] 1 1 [] [97; 123; 50; 97; 125; 46; 98; 46] (fun _ => 255) (fun _ => 255) false true 8000000 [10; 1; 2; 3] false); [vm_compute; reflexivity|exact good_query_ex|lia|lia|apply bytesb_spec; reflexivity|reflexivity]. Qed.
(** Server failure; no reply at all. *)
Theorem C41_fail h n ty cl extra t J Jq aa ra ttl : good_query h n ty cl extra t -> ty <> 255 -> ty <> 13 ->
  exchange J Jq (query h n ty cl extra) (mkscript aa ra ttl SFail) = Ok (Some (header_bytes (reply_header h (flag aa) (flag ra) 2 0) ++ question n ty cl)) /\
  exchange J Jq (query h n ty cl extra) (mkscript aa ra ttl SIgnore) = Ok None.
Proof.
  intros GQ N1 N2. split; rewrite (exchange_reply h n ty cl extra t) by (assumption || exact Logic.I); unfold reply; replace ((ty =? 255) || (ty =? 13)) with false by lia; reflexivity.
Qed.
Print Assumptions C41_fail.
Example C41_fail_ex : exchange (fun _ => 255) (fun _ => 255) (query hdr [[97; 42]; [98]] 1 1 []) (mkscript false true 5 SFail) = Ok (Some ([18; 52; 129; 130; 0; 1; 0; 0; 0; 0; 0; 0] ++ [2; 97; 42; 1; 98; 0; 0; 1; 0; 1])).
Proof. vm_compute. reflexivity. Qed.
(** "Not there": a record of type SOA in the answer section, and an octet after it which belongs
    to nothing; such a reply is not a message. *)
Theorem C41_not_there_refuted h n ty cl extra t J Jq aa ra ttl : good_query h n ty cl extra t -> ty <> 255 -> ty <> 13 ->
  exchange J Jq (query h n ty cl extra) (mkscript aa ra ttl SNotThere) =
  Ok (Some (header_bytes (reply_header h (flag aa) (flag ra) (h_rcode h) 1) ++ question n ty cl ++ record 6 (clamp ttl) not_there_data ++ [0])).
Proof.
  intros GQ N1 N2. rewrite (exchange_reply h n ty cl extra t) by (assumption || exact Logic.I). unfold reply. replace ((ty =? 255) || (ty =? 13)) with false by lia. cbn [s_type s_aa s_ra s_ttl]. rewrite <- app_assoc. reflexivity.
Qed.
Print Assumptions C41_not_there_refuted.
(** The same of the reply to a query for ANY or HINFO, which has the client's AA and RA flags. *)
Theorem C41_any_refuted h n ty cl extra t J Jq s : good_query h n ty cl extra t -> ty = 255 \/ ty = 13 ->
  exists p, exchange J Jq (query h n ty cl extra) s = Ok (Some p) /\
  p = header_bytes (reply_header h (h_aa h) (h_ra h) (h_rcode h) 1) ++ question n ty cl ++ record 13 0 [7; 82; 70; 67; 56; 52; 56; 50; 0] ++ [0].
Proof.
  intros GQ T. eexists. split; [|reflexivity]. destruct (serve_query h n ty cl extra t J Jq GQ) as (Y & LY & E).
  assert (exchange J Jq (query h n ty cl extra) s = exchange J Jq (query h n ty cl extra) (mkscript false false 0 SIgnore)) as ->.
  { unfold exchange. rewrite E. cbv zeta. replace ((ty =? 255) || (ty =? 13)) with true by lia. destruct (put_at (kept h n ty cl Y) (17 + zlen (labels n)) AnyAnswer); cbn [bind]; [|reflexivity|reflexivity]. destruct (zlen a <? 17 + zlen (labels n) + 22); reflexivity. }
  rewrite (exchange_reply h n ty cl extra t) by (assumption || exact Logic.I). unfold reply. replace ((ty =? 255) || (ty =? 13)) with true by lia. reflexivity.
Qed.
Print Assumptions C41_any_refuted.
(** A query whose number of questions is not 1 is answered by a message which is not a response. *)
Theorem C41_count_refuted : exists d s p, bytes d /\ exchange (fun _ => 0) (fun _ => 0) d s = Ok (Some p) /\ exists c, zget p 2 = Some c /\ c < 128.
Proof.
  exists (header_bytes (mkheader 4660 0 0 0 0 1 0 0 0 0 0 2 0 0 0) ++ question a_name 1 1), (mkscript false false 0 (SA [1; 2; 3; 4])). eexists.
  split; [apply bytesb_spec; reflexivity|]. split; [vm_compute; reflexivity|]. exists 1. split; [vm_compute; reflexivity|lia].
Qed.
Print Assumptions C41_count_refuted.
(** A query for the root is never answered. *)
Theorem C41_root_refuted J Jq ty : word ty -> exists d, d = header_bytes hdr ++ question [] ty 1 /\ serve J Jq d = Ok Dropped.
Proof.
  intros W. eexists. split; [reflexivity|]. set (x := ty / 256). set (y := ty mod 256). change (header_bytes hdr ++ question [] ty 1) with ([18; 52; 1; 0; 0; 1; 0; 0; 0; 0; 0; 0; 0; x; y; 0; 1]). clearbody x y. clear. vm_compute. reflexivity.
Qed.
Print Assumptions C41_root_refuted.

(** ** C42: which replies from upstream are used *)
(** Only those with the ID of the query, and its name. *)
Theorem C42_match signed J Jd id name d f : word id -> bytes name -> bytes d -> junk_ok J -> zlen d <= 514 -> 12 + zlen name <= zlen d ->
  upstream_reply signed J Jd id name d = Ok f -> f <> mkfound 0 None ->
  12 < zlen d /\ zslice d 0 2 = num2 id /\ zslice d 12 (zlen name) = name.
Proof.
  intros Wi Bn Bd HJ L1 L2 E NF. unfold upstream_reply in E. assert (length d <= 514)%nat as LL by (unfold zlen in L1; lia). rewrite firstn_all2 in E by exact LL.
  assert (bytes (received 514 514 J d)) as BM.
  { rewrite received_all by exact LL. apply bytes_app. split; [exact Bd|]. rewrite <- (firstn_skipn (length d) (mkjunk J (Z.of_nat 514))) in *. pose proof (bytes_mkjunk J (Z.of_nat 514) HJ) as BJ. rewrite <- (firstn_skipn (length d)) in BJ. apply bytes_app in BJ as (_ & BJ). rewrite firstn_skipn. exact BJ. }
  cbv zeta in E. fold (zlen d) in E. destruct (zlen d <=? 12) eqn:E12; [injection E as <-; contradiction|].
  set (m := received 514 514 J d) in *. pose proof (zlen_nonneg name).
  assert (exists Y, m = d ++ Y) as (Y & EM) by (eexists; unfold m; rewrite received_all by exact LL; reflexivity).
  destruct d as [|d0 [|d1 d2]]; [change (zlen (@nil Z)) with 0 in E12; lia|change (zlen [d0]) with 1 in E12; lia|]. inversion Bd as [|? ? B0 Bd1]; subst. inversion Bd1 as [|? ? B1 Bd2]; subst.
  rewrite (rd_at m [] d0 (d1 :: d2 ++ Y)) in E; [|exact EM|reflexivity]. cbn [bind] in E. rewrite (rd_at m [d0] d1 (d2 ++ Y)) in E; [|exact EM|reflexivity]. cbn [bind] in E. rewrite be16 in E by assumption.
  destruct (d0 * 256 + d1 =? id) eqn:EI; cbn [negb] in E; [|injection E as <-; contradiction].
  destruct (name_matches signed m 12 name) as [[|]| |] eqn:EN; cbn [bind negb] in E; [|injection E as <-; contradiction|discriminate E|discriminate E].
  apply name_matches_inv in EN; [|exact Bn|exact BM|lia]. split; [lia|]. split.
  - change (zslice (d0 :: d1 :: d2) 0 2) with [d0; d1]. unfold num2, byte in *. f_equal; [lia|]. f_equal. lia.
  - rewrite EM, zslice_app_l in EN by lia. exact EN.
Qed.
Print Assumptions C42_match.
Example C42_match_ex : upstream_reply true (fun _ => 0) (fun _ => 0) 4660 (wire a_name) (reply_from 4660 a_name [129; 128] (num2 1 ++ num2 2 ++ num2 0 ++ num2 0) 1 1 [cname_rr; a_rr]) <> Ok (mkfound 0 None) /\
  upstream_reply true (fun _ => 0) (fun _ => 0) 4661 (wire a_name) (reply_from 4660 a_name [129; 128] (num2 1 ++ num2 2 ++ num2 0 ++ num2 0) 1 1 [cname_rr; a_rr]) = Ok (mkfound 0 None).
Proof. split; [vm_compute; discriminate|vm_compute; reflexivity]. Qed.
(** Shorter ones may be used although they have no question: memory is compared. *)
Theorem C42_short_refuted : exists J d, junk_ok J /\ zlen d = 13 /\ upstream_reply true J (fun _ => 0) 4660 (wire a_name) d = Ok (mkfound 101058054 None).
Proof.
  exists (fun i => nth (Z.to_nat i) (reply_from 4660 a_name [129; 128] (num2 1 ++ num2 2 ++ num2 0 ++ num2 0) 1 1 [mkrr [] (Some (192, 12)) 1 1 [0; 0; 0; 9] [6; 6; 6; 6]]) 0), ([18; 52] ++ repeat 0 10%nat ++ [1]).
  split; [|split; [reflexivity|vm_compute; reflexivity]]. intros i. set (l := reply_from _ _ _ _ _ _ _). assert (bytes l) as B by (apply bytesb_spec; vm_compute; reflexivity).
  clearbody l. destruct (nth_in_or_default (Z.to_nat i) l 0) as [H| ->]; [|unfold byte; lia]. unfold bytes in B. rewrite Forall_forall in B. apply B. exact H.
Qed.
Print Assumptions C42_short_refuted.
(** If [char] is signed, no reply for a name with an octet of 128 or more is ever used. *)
Lemma name_matches_high name : forall m i, bytes m -> bytes name -> (exists c, In c name /\ 128 <= c) -> name_matches true m i name <> Ok true.
Proof.
  induction name as [|c name IH]; intros m i BM BN (x & Hx & Hx2); [destruct Hx|]. inversion BN; subst. cbn [name_matches]. destruct (rd m i) as [y| |] eqn:E; cbn [bind]; try discriminate. apply rd_Ok_inv in E. pose proof (zget_bytes _ _ _ BM E) as By.
  destruct (y =? i8 c) eqn:E2; [|discriminate]. apply IH; [assumption|assumption|]. destruct Hx as [-> |Hx]; [|eauto]. exfalso. unfold i8, byte in *. rewrite Z.mod_small in E2 by lia. cbv zeta in E2. replace (x <? 128) with false in E2 by lia. lia.
Qed.
Theorem C42_signed_refuted J Jd id name d : junk_ok J -> bytes d -> bytes name -> (exists c, In c name /\ 128 <= c) ->
  forall f, upstream_reply true J Jd id name d = Ok f -> f = mkfound 0 None.
Proof.
  intros HJ Bd Bn Hc f E. unfold upstream_reply in E. cbv zeta in E.
  assert (bytes (received 514 514 J d)) as BM.
  { unfold received. apply bytes_app. split; [unfold bytes in *; rewrite <- (firstn_skipn 514 d) in Bd; apply Forall_app in Bd as (Bd & _); exact Bd|]. pose proof (bytes_mkjunk J (Z.of_nat 514) HJ) as BJ. rewrite <- (firstn_skipn (length (firstn 514 d))) in BJ. apply bytes_app in BJ as (_ & BJ). exact BJ. }
  destruct (Z.of_nat (length (firstn 514 d)) <=? 12); [injection E as <-; reflexivity|]. set (m := received 514 514 J d) in *.
  destruct (rd m 0) as [a| |]; cbn [bind] in E; [|discriminate E|discriminate E]. destruct (rd m 1) as [b| |]; cbn [bind] in E; [|discriminate E|discriminate E].
  destruct (negb (Z.lor (u16 (Z.shiftl a 8)) b =? id)); [injection E as <-; reflexivity|].
  pose proof (name_matches_high name m 12 BM Bn Hc) as N. destruct (name_matches true m 12 name) as [[|]| |]; cbn [bind negb] in E; [contradiction|injection E as <-; reflexivity|discriminate E|discriminate E].
Qed.
Print Assumptions C42_signed_refuted.
Example C42_signed_ex : upstream_reply true (fun _ => 0) (fun _ => 0) 4660 (wire [[200]]) (reply_from 4660 [[200]] [129; 128] (num2 1 ++ num2 1 ++ num2 0 ++ num2 0) 1 1 [a_rr]) = Ok (mkfound 0 None) /\
  upstream_reply false (fun _ => 0) (fun _ => 0) 4660 (wire [[200]]) (reply_from 4660 [[200]] [129; 128] (num2 1 ++ num2 1 ++ num2 0 ++ num2 0) 1 1 [a_rr]) = Ok (mkfound 167838211 None).
Proof. split; vm_compute; reflexivity. Qed.

(** ** C43: names sent upstream *)
(** The text of a name, every label with its dot, is sent in wire form, up to case. *)
Theorem C43_wire J R n : n <> [] -> Forall text_label n -> zlen (dots n) <= 256 -> exists n', human2DNS J R (dots n) = Ok (Some (wire n')) /\ lower_name n' = lower_name n.
Proof. apply human2DNS_ok. Qed.
Print Assumptions C43_wire.
Example C43_wire_ex : human2DNS (fun _ => 255) (fun i => Nat.even i) (dots [[87; 119; 119]; [97; 45; 49]]) = Ok (Some (wire [[119; 119; 87]; [97; 45; 49]])).
Proof. vm_compute. reflexivity. Qed.
(** The packet. *)
Theorem C43_packet id qtype n : word id -> word qtype -> zlen (wire n) <= 490 ->
  query_packet id qtype (wire n) = Some (header_bytes (mkheader id 0 0 0 0 1 0 0 0 0 0 1 0 0 0) ++ question n qtype 1).
Proof.
  intros W1 W2 L. unfold query_packet. replace (490 <? zlen (wire n)) with false by lia. unfold question, header_bytes, num2. cbn [h_id h_qr h_opcode h_aa h_tc h_rd h_ra h_z h_ad h_cd h_rcode h_qdcount h_ancount h_nscount h_arcount].
  rewrite !land_255. unfold u8. assert (Z.land id 65280 / 256 = id / 256) as ->; [|reflexivity].
  change 256 with (2 ^ 8). rewrite <- (Z.shiftr_div_pow2 (Z.land id 65280) 8), <- (Z.shiftr_div_pow2 id 8) by lia. rewrite Z.shiftr_land. change (Z.shiftr 65280 8) with (Z.ones 8). rewrite Z.land_ones by lia. rewrite Z.shiftr_div_pow2 by lia. unfold word in W1. apply Z.mod_small. change (2 ^ 8) with 256. lia.
Qed.
Print Assumptions C43_packet.
Example C43_packet_ex : query_packet 4660 28 (wire a_name) = Some [18; 52; 1; 0; 0; 1; 0; 0; 0; 0; 0; 0; 1; 97; 0; 0; 28; 0; 1].
Proof. vm_compute. reflexivity. Qed.
(** Nothing else is accepted, and no buffer overrun: no text without a dot at the end, or with a label of 64 or more, or
    over 256 octets, is, unless it has an empty label. *)
Theorem C43_accepts J R z : bytes z -> Forall (fun c => c <> 0) z -> exists o, human2DNS J R z = Ok o /\
  (o <> None -> exists n rest, z = dots n ++ rest /\ Forall text_label n /\ (rest = [] /\ n <> [] \/ exists t, rest = 46 :: t)).
Proof.
  intros B H. unfold human2DNS. pose proof (zlen_nonneg z). set (a := Z.min (zlen z) 256 + 1). cbv zeta. assert (1 <= a) as Ha by lia.
  destruct (wr_len (mkjunk J (a + 2)) a 0) as (m & E & Lm); [rewrite zlen_mkjunk by lia; lia|]. rewrite E. cbn [bind]. rewrite zlen_mkjunk in Lm by lia.
  destruct (h2d_loop_all R a (S (length z)) z m 0 0%nat B H) as (o & E2 & X); [exact Lm|lia|lia|]. change (0 + 1) with 1 in E2. rewrite E2. cbn [bind]. destruct o as [(m', p')|]; [|exists None; split; [reflexivity|]; intros N; contradiction].
  destruct X as (X1 & X2 & X3). replace (zlen m' <? p') with false by lia. eexists. split; [reflexivity|]. intros _. exact X3.
Qed.
Print Assumptions C43_accepts.
Example C43_accepts_ex : human2DNS (fun _ => 0) (fun _ => false) [97; 46; 98] = Ok None /\ human2DNS (fun _ => 0) (fun _ => false) (repeat 97 64%nat ++ [46]) = Ok None.
Proof. split; vm_compute; reflexivity. Qed.
(** Texts with an empty label are accepted: "a..b." is sent as a. and an octet of memory. *)
Theorem C43_empty_label_refuted : forall J R, 
  human2DNS J R [46] = Ok (Some [0; 0]) /\ exists c, lower c = 97 /\ human2DNS J R [97; 46; 46; 98; 46] = Ok (Some [1; c; 0; J 3]).
Proof.
  intros J R. split; [reflexivity|]. exists (flip_case 97 (R 0%nat)). split; [apply lower_flip|]. reflexivity.
Qed.
Print Assumptions C43_empty_label_refuted.
(** Names longer than names may be are sent. *)
Theorem C43_long_refuted : exists n, Forall text_label n /\ forall J R, exists n', human2DNS J R (dots n) = Ok (Some (wire n')) /\ zlen (wire n') = 257.
Proof.
  exists (repeat (repeat 97 63%nat) 4%nat). assert (text_label (repeat 97 63%nat)) as TL.
  { split; [split; [vm_compute; split; discriminate|apply bytesb_spec; reflexivity]|]. apply Forall_forall. intros x Hx. apply repeat_spec in Hx. lia. }
  assert (Forall text_label (repeat (repeat 97 63%nat) 4%nat)) as F by (constructor; [exact TL|]; constructor; [exact TL|]; constructor; [exact TL|]; constructor; [exact TL|constructor]).
  split; [exact F|]. intros J R. destruct (human2DNS_ok J R (repeat (repeat 97 63%nat) 4%nat)) as (n' & E & M); [discriminate|exact F|vm_compute; discriminate|]. exists n'. split; [exact E|].
  assert (forall a b : list (list Z), lower_name a = lower_name b -> zlen (wire a) = zlen (wire b)) as W.
  { clear. induction a as [|x a IH]; intros [|y b] H; try discriminate H; [reflexivity|]. unfold lower_name in H. cbn [map] in H. injection H as H1 H2. cbn [wire]. rewrite !zlen_cons, !zlen_app. rewrite (IH b H2). apply zlen_lower_map in H1. lia. }
  rewrite (W _ _ M). vm_compute. reflexivity.
Qed.
Print Assumptions C43_long_refuted.
