(** What MaraDNS answers (server/MaraDNS.c): from the packet to the search. *)
From Verif Require Import CBase Bits ModelDwStr SpecDwStr ProofDwStr SpecNames SpecMessage SpecAcl SpecDeadwoodMsg SpecQuery ModelJsStr SpecJsStr ProofJsStr ProofJsSearch
  ModelQueries SpecQueries ProofQueries ProofDwDnsStr ProofQuestion ProofHname ModelDecomp SpecDecomp ProofJsList ProofSqueeze ProofDecompList ModelMaraHash SpecMaraHash ProofMaraHash PropsMaraHash ModelServe SpecServe ProofServe ProofServeRun ProofServeFind.

(** ** The header *)
Lemma flag_octet x : 0 <= x < 256 -> tst x 128 = x / 128 /\ Z.shiftr (Z.land x 120) 3 = x / 8 mod 16 /\ tst x 1 = x mod 2.
Proof.
  intros H. assert (forallb (fun x => (tst x 128 =? x / 128) && (Z.shiftr (Z.land x 120) 3 =? x / 8 mod 16) && (tst x 1 =? x mod 2)) (map Z.of_nat (seq 0 256)) = true) as F by (vm_compute; reflexivity).
  rewrite forallb_forall in F. assert (In x (map Z.of_nat (seq 0 256))) as I. { apply in_map_iff. exists (Z.to_nat x). split; [lia|]. apply in_seq. lia. }
  apply F in I. rewrite !andb_true_iff, !Z.eqb_eq in I. tauto.
Qed.
Lemma zlen_header h : zlen (header_bytes h) = 12. Proof. reflexivity. Qed.
Lemma word_pair v : word v -> pair16 (v / 256) (v mod 256) = v.
Proof. intros W. unfold word in W. rewrite pair16_val by (unfold byte; lia). lia. Qed.
Lemma read_header raw h tail : holding raw (header_bytes h ++ tail) -> header_ok h -> 2 <= zlen tail ->
  exists hd, read_hdr raw = Ok (Some hd) /\ q_id hd = h_id h /\ q_qr hd = h_qr h /\ q_opcode hd = h_opcode h /\ q_rd hd = h_rd h /\ q_qd hd = h_qdcount h.
Proof.
  intros H K L. pose proof (hold_facts raw _ H) as [Ws S1 LQ C LM SM B SA U O G SL]. rewrite zlen_app, zlen_header in *. pose proof (zlen_nonneg tail). eexists. split; [apply read_hdr_ok; [exact Ws|exact S1|lia]|]. rewrite SL, zslice_app_l by (rewrite ?zlen_header; lia).
  assert (zslice (header_bytes h) 0 12 = header_bytes h) as -> by apply (zslice_all (header_bytes h)).
  destruct K as (K1 & K2 & K3 & K4 & K5 & K6 & K7 & K8 & K9 & K10 & K11 & K12 & _). unfold bit in K2, K4, K5, K6. unfold decode, header_bytes, num2. cbn [app nth q_id q_qr q_opcode q_rd q_qd].
  rewrite !word_pair by assumption. assert (0 <= h_qr h < 2) by lia. assert (0 <= h_aa h < 2) by lia. assert (0 <= h_tc h < 2) by lia. assert (0 <= h_rd h < 2) by lia. clear K2 K4 K5 K6.
  destruct (flag_octet (h_qr h * 128 + h_opcode h * 8 + h_aa h * 4 + h_tc h * 2 + h_rd h)) as (-> & -> & ->); [lia|]. split; [reflexivity|]. split; [lia|]. split; [lia|]. split; [lia|reflexivity].
Qed.

(** ** The packet *)
Lemma map_of {V} add (h : mhash V) m : zone_data add h m -> hwf add h /\ rep h m.
Proof.
  intros (bits & os & h0 & rs & B & OK & NR & L & E0 & E & ->). unfold mhash_create in E0. rewrite mask_ok in E0 by lia. cbn [bind] in E0. injection E0 as <-. assert (ents (mkmhash (V := V) bits (repeat [] (Z.to_nat (2 ^ bits - 1 + 1))) 0) = []) as EE by (unfold ents; cbn [h_table]; rewrite concat_repeat_nil; reflexivity).
  destruct (run_below add os _ empty 0 (hwf_empty (V := V) add bits 0 B)) as (h' & E' & W' & R'); try assumption; try lia.
  - intros k v. rewrite EE. cbn. split; [discriminate|intros []].
  - rewrite <- NR. clear. induction os as [|o os IH]; cbn [forallb]; [reflexivity|]. rewrite IH. destruct o; reflexivity.
  - rewrite EE. change (0 <= 0). lia.
  - rewrite EE. change (0 <= 0 <= 0 * bits). lia.
  - rewrite E' in E. injection E as _ <-. split; assumption.
Qed.

Section Packet.
Context {V : Type} (auth : V -> bool) (add : Z) (zd : mhash V) (m : amap V) (c : conf) (J1 J2 J : Z -> Z) (raw : js) (h : header) (n : name) (t class : Z) (rest : list Z).
Hypothesis K1 : junk_ok J1.
Hypothesis K2 : junk_ok J2.
Hypothesis K3 : junk_ok J.
Hypothesis HR : holding raw (header_bytes h ++ plain n t ++ num2 class ++ rest).
Hypothesis HH : header_ok h.
Hypothesis GN : good_name n.
Hypothesis LN : zlen (wire n) <= 253.
Hypothesis WT : word t.
Hypothesis WC : word class.
Hypothesis Q0 : h_qr h = 0.
Hypothesis Q1 : h_qdcount h = 1.

Lemma with_id : exists tail, header_bytes h ++ plain n t ++ num2 class ++ rest = num2 (h_id h) ++ tail /\ 1 <= zlen tail.
Proof. unfold header_bytes. eexists. rewrite <- app_assoc. split; [reflexivity|]. rewrite !zlen_app. change (zlen (num2 _)) with 2. pose proof (zlen_nonneg rest). rewrite zlen_plain. pose proof (zlen_wire_pos' n). repeat rewrite zlen_cons. change (zlen (@nil Z)) with 0. lia. Qed.
Lemma packet_start : exists s o hd, held 256 s (plain n t) /\ held 256 o [] /\ q_id hd = h_id h /\ q_rd hd = h_rd h /\
  proc_query auth add zd c J1 J2 J raw =
    if negb (h_opcode h =? 0) then o <- udperror J raw (Some s) NOT_IMPLEMENTED (h_rd h) ;; Ok (JS_SUCCESS, sent o)
    else if negb (class / 256 =? 0) && negb (class mod 256 =? 1) then if c_nofp c =? 1 then Ok (JS_ERROR, Quiet) else o <- udperror J raw (Some s) NOT_IMPLEMENTED (h_rd h) ;; Ok (JS_ERROR, sent o)
    else with_question auth add zd c J raw (h_rd h) (h_id h) s o.
Proof.
  pose proof (hold_facts raw _ HR) as [Ws S1 LQ C LM SM B SA U O G SL]. pose proof (zlen_nonneg rest) as NR. pose proof (zlen_wire_pos' n) as PW.
  destruct (read_header raw h _ HR HH) as (hd & E & I1 & I2 & I3 & I4 & I5). { rewrite !zlen_app, zlen_plain. change (zlen (num2 class)) with 2. lia. }
  assert (zlen (header_bytes h ++ plain n t ++ num2 class ++ rest) = zlen (wire n) + 16 + zlen rest) as LP by (rewrite !zlen_app, zlen_plain, zlen_header; change (zlen (num2 class)) with 2; lia). rewrite LP in LQ, C, G, SL.
  destruct (create_held J1 256 K1 ltac:(lia) ltac:(lia)) as (s0 & ES & H0). destruct (create_held J2 256 K2 ltac:(lia) ltac:(lia)) as (o & EO & HO).
  destruct (substr_held (j_max raw) raw (header_bytes h ++ plain n t ++ num2 class ++ rest) 256 s0 [] 12 (zlen (wire n) + 2) (conj HR eq_refl) H0) as (s & ESS & HS); [lia|lia|lia|lia|lia|].
  assert (zslice (header_bytes h ++ plain n t ++ num2 class ++ rest) 12 (zlen (wire n) + 2) = plain n t) as EP. { rewrite zslice_app_r by (rewrite ?zlen_app, ?zlen_plain, ?zlen_header; change (zlen (num2 class)) with 2; lia). rewrite zlen_header. replace (12 - 12) with 0 by lia. rewrite zslice_app_l by (rewrite ?zlen_app, ?zlen_plain; change (zlen (num2 class)) with 2; lia). rewrite <- (zlen_plain n t). apply zslice_all. }
  rewrite EP in HS. exists s, o, hd. split; [exact HS|]. split; [exact HO|]. split; [exact I1|]. split; [exact I4|].
  assert (dlabel_length raw 12 = Ok (zlen (wire n))) as ED. { apply (dlabel_wire raw (header_bytes h) n (num2 t ++ num2 class ++ rest)); [|split; [exact GN|lia]]. unfold plain in HR. rewrite <- app_assoc in HR. exact HR. }
  assert (forall i x, (i = 0 /\ x = class / 256 \/ i = 1 /\ x = class mod 256) -> rd (j_mem raw) (zlen (wire n) + 14 + i) = Ok x) as EC.
  { intros i x X. apply rd_of_zget. rewrite G by lia. rewrite zget_app_r by (rewrite zlen_header; lia). rewrite zlen_header, zget_app_r by (rewrite zlen_plain; lia). rewrite zlen_plain. replace (zlen (wire n) + 14 + i - 12 - (zlen (wire n) + 2)) with i by lia. destruct X as [(-> & ->)|(-> & ->)]; reflexivity. }
  unfold proc_query. rewrite SA, S1. change (negb (1 =? 1)) with false. cbn [negb]. rewrite E. cbn [bind]. cbv zeta. rewrite I1, I2, I3, I4, I5, Q0, Q1. change (negb (0 =? 0)) with false. change (negb (1 =? 1)) with false. cbv iota. rewrite <- LQ. replace (zlen (wire n) + 16 + zlen rest <? 14) with false by lia. rewrite ED. cbn [bind].
  replace ((zlen (wire n) <? 0) || (255 <? zlen (wire n))) with false by lia. replace (zlen (wire n) + 16 + zlen rest <? 16 + zlen (wire n)) with false by lia. rewrite ES. cbn [bind]. rewrite EO. cbn [bind]. rewrite ESS. cbn [bind]. change (1 =? JS_ERROR) with false. cbv iota.
  destruct (negb (h_opcode h =? 0)); [reflexivity|]. pose proof (EC 0 _ (or_introl (conj eq_refl eq_refl))) as EC0. rewrite Z.add_0_r in EC0. rewrite EC0. cbn [bind]. pose proof (EC 1 _ (or_intror (conj eq_refl eq_refl))) as EC1. replace (zlen (wire n) + 14 + 1) with (zlen (wire n) + 15) in EC1 by lia. rewrite EC1. cbn [bind]. reflexivity.
Qed.

Lemma packet_ok : hwf add zd -> rep zd m -> no_any m -> n <> [] -> h_opcode h = 0 -> class / 256 = 0 \/ class mod 256 = 1 -> no_reports c n t ->
  proc_query auth add zd c J1 J2 J raw = Ok (decision auth m c (h_id h) (h_rd h) n t).
Proof.
  intros W R NA NN OP CL NR. destruct packet_start as (s & o & hd & HS & HO & _ & _ & ->). rewrite OP. change (negb (0 =? 0)) with false. cbv iota. replace (negb (class / 256 =? 0) && negb (class mod 256 =? 1)) with false by lia.
  destruct with_id as (tail & ET & LT). pose proof HR as HR'. rewrite ET in HR'. pose proof HH as (KI & _ & _ & _ & _ & KR & _).
  apply (with_question_ok auth add zd m c J raw (h_rd h) (h_id h) n t (j_max raw) tail W R K3 GN LN WT (conj HR' eq_refl) LT KI KR NN NA o [] s NR HO HS).
Qed.
(** Operations other than queries, and classes that are refused. *)
Lemma packet_notimp : h_opcode h <> 0 \/ (class / 256 <> 0 /\ class mod 256 <> 1) -> c_nofp c <> 1 ->
  exists r, proc_query auth add zd c J1 J2 J raw = Ok (r, @send V (refusal (h_id h) (h_rd h) 4 0 (Some (plain n t)))).
Proof.
  intros X NF. destruct packet_start as (s & o & hd & HS & HO & _ & _ & ->). destruct with_id as (tail & ET & LT). pose proof HR as HR'. rewrite ET in HR'. pose proof HH as (KI & _ & _ & _ & _ & KR & _). assert (opt_held (Some s) (Some (plain n t))) as HX by (exists 256; exact HS).
  rewrite (udperror_ok J (j_max raw) raw (h_id h) tail NOT_IMPLEMENTED (h_rd h) (Some s) (Some (plain n t)) K3 (conj HR' eq_refl) LT KI KR HX) by (right; unfold NOT_IMPLEMENTED; lia). replace (c_nofp c =? 1) with false by lia.
  destruct (negb (h_opcode h =? 0)) eqn:G; [eexists; reflexivity|]. replace (negb (class / 256 =? 0) && negb (class mod 256 =? 1)) with true by lia. eexists. reflexivity.
Qed.
End Packet.
