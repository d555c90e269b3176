(** MaraDNS' decompressor finds what the packet says. *)
From Verif Require Import CBase Bits ModelDwStr SpecDwStr ProofDwStr SpecNames SpecMessage SpecAcl SpecDeadwoodMsg SpecQuery ModelJsStr SpecJsStr ProofJsStr ProofJsSearch
  ModelQueries SpecQueries ProofQueries ProofQuestion ModelDecomp SpecDecomp ProofJsList ProofDecompList ProofDecompPacket.

(** ** Names *)
Lemma back_range m k p n e : name_back m k p n e -> 0 <= p < zlen m /\ p < e <= zlen m.
Proof.
  induction 1 as [p H|k p l n e L H S N IH|k p hi lo n e H H2 L T N IH].
  - pose proof (zget_range _ _ _ H). lia.
  - pose proof (zget_range _ _ _ H). lia.
  - pose proof (zget_range _ _ _ H). pose proof (zget_range _ _ _ L). lia.
Qed.
Lemma back_good m k p n e : bytes m -> name_back m k p n e -> good_name n.
Proof.
  intros B. induction 1 as [p H|k p l n e L H S N IH|k p hi lo n e H H2 L T N IH]; [constructor| |exact IH]. constructor; [|exact IH]. split; [exact L|]. rewrite <- S. apply bytes_zslice, B.
Qed.
Lemma wire_app_len l n : zlen (wire (l :: n)) = zlen l + 1 + zlen (wire n).
Proof. cbn [wire]. rewrite zlen_cons, zlen_app. lia. Qed.
Lemma wire_pos1 n : 1 <= zlen (wire n).
Proof. destruct n as [|l n]; [cbv; discriminate|]. rewrite wire_app_len. pose proof (zlen_nonneg l). pose proof (zlen_nonneg (wire n)). lia. Qed.
Lemma label_slice m p l : 0 <= p -> zget m p = Some (zlen l) -> zslice m (p + 1) (zlen l) = l -> p + 1 + zlen l <= zlen m -> zslice m p (zlen l + 1) = zlen l :: l.
Proof. intros P H S L. pose proof (zlen_nonneg l). rewrite (Z.add_comm (zlen l)). rewrite zslice_split by lia. rewrite (zslice_one _ _ _ H), S. reflexivity. Qed.

Lemma l_name_complete m k p n e : bytes m -> name_back m k p n e -> forall N acc, (k <= N)%nat -> zlen acc + zlen (wire n) <= 259 -> l_name N m p acc = Some (acc ++ wire n).
Proof.
  intros B. induction 1 as [p H|k p l n e L H S N IH|k p hi lo n e H H2 L T N IH]; intros F acc FK A; (destruct F as [|F]; [lia|]); cbn [l_name]; rewrite H.
  - cbn [Z.ltb Z.compare andb Z.leb wire] in *. change (zlen [0]) with 1 in A. replace (259 <=? zlen acc) with false by lia. reflexivity.
  - pose proof (back_range _ _ _ _ _ N) as R. pose proof (zget_range _ _ _ H). replace ((63 <? zlen l) && (zlen l <? 192)) with false by lia. replace (192 <=? zlen l) with false by lia. replace (0 <? zlen l) with true by lia.
    rewrite wire_app_len in A. pose proof (wire_pos1 n). replace ((259 <=? zlen acc + (zlen l + 1)) || (zlen m <=? p + (zlen l + 1))) with false by lia.
    rewrite label_slice by (try assumption; lia). replace (p + (zlen l + 1)) with (p + 1 + zlen l) by lia. rewrite IH by (try lia; rewrite zlen_app, zlen_cons; lia). cbn [wire]. rewrite <- app_assoc. reflexivity.
  - pose proof (zget_range _ _ _ H). replace ((63 <? hi) && (hi <? 192)) with false by lia. replace (192 <=? hi) with true by lia. rewrite L. cbv zeta.
    replace ((p <=? (hi - 192) * 256 + lo) || ((hi - 192) * 256 + lo <? 12)) with false by lia. apply IH; [lia|exact A].
Qed.
Lemma l_name_sound m : bytes m -> forall N p acc x, 0 <= p -> zlen acc <= 258 -> l_name N m p acc = Some x -> exists k n e, (k <= N)%nat /\ name_back m k p n e /\ x = acc ++ wire n /\ zlen x <= 259.
Proof.
  intros B. induction N as [|N IH]; intros p acc x P A; cbn [l_name]; [discriminate|]. destruct (zget m p) as [c|] eqn:E; [|discriminate]. pose proof (zget_bytes _ _ _ B E) as Bc. pose proof (zget_range _ _ _ E) as RE. unfold byte in Bc.
  destruct ((63 <? c) && (c <? 192)) eqn:G1; [discriminate|]. destruct (192 <=? c) eqn:G2.
  - destruct (zget m (p + 1)) as [lo|] eqn:E2; [|discriminate]. cbv zeta. destruct ((p <=? (c - 192) * 256 + lo) || ((c - 192) * 256 + lo <? 12)) eqn:G3; [discriminate|]. intros H. pose proof (zget_bytes _ _ _ B E2) as Bl. unfold byte in Bl.
    apply IH in H as (k & n & e & K & NB & -> & LX); [|lia|exact A]. exists (S k), n, (p + 2). split; [lia|]. split; [|split; [reflexivity|exact LX]]. apply back_pointer with (hi := c) (lo := lo) (e := e); try assumption; lia.
  - destruct (0 <? c) eqn:G3.
    + destruct ((259 <=? zlen acc + (c + 1)) || (zlen m <=? p + (c + 1))) eqn:G4; [discriminate|]. assert (zlen (zslice m (p + 1) c) = c) as LS by (apply zlen_zslice; lia).
      assert (zslice m p (c + 1) = c :: zslice m (p + 1) c) as SP by (rewrite (Z.add_comm c); rewrite zslice_split by lia; rewrite (zslice_one _ _ _ E); reflexivity).
      rewrite SP. intros H. apply IH in H as (k & n & e & K & NB & -> & LX); [|lia|rewrite zlen_app, zlen_cons; lia]. exists (S k), (zslice m (p + 1) c :: n), e. split; [lia|]. split; [|split].
      * apply back_label; rewrite ?LS; try reflexivity; try lia; [exact E|]. replace (p + 1 + c) with (p + (c + 1)) by lia. exact NB.
      * cbn [wire]. rewrite LS, <- app_assoc. reflexivity.
      * exact LX.
    + replace (259 <=? zlen acc) with false by lia. intros H. injection H as <-. exists 1%nat, [], (p + 1). split; [lia|]. split; [apply back_root; replace c with 0 in E by lia; exact E|]. split; [reflexivity|]. rewrite zlen_app. change (zlen [0]) with 1. lia.
Qed.
Lemma name_text_complete m p n e : bytes m -> name_in 259 m p n e -> name_text m p = Some (wire n).
Proof. intros B (k & K & N & L). rewrite name_text_def. apply (l_name_complete m k p n e B N); [exact K|exact L]. Qed.
Lemma name_text_sound m p x : bytes m -> 0 <= p -> name_text m p = Some x -> exists n e, name_in 259 m p n e /\ x = wire n.
Proof.
  intros B P H. rewrite name_text_def in H. apply l_name_sound in H; [|exact B|exact P|vm_compute; discriminate]. destruct H as (k & n & e & K & N & -> & L). exists n, e. split; [|reflexivity]. exists k. split; [exact K|]. split; [exact N|exact L].
Qed.
Lemma l_len_complete m k q n e : bytes m -> name_back m k q n e -> forall F o len, q = o + len -> 0 <= o -> 0 <= len -> len + zlen (wire n) <= 256 -> 257 - len < 2 * Z.of_nat F -> l_len F m o len = e - o.
Proof.
  intros B. induction 1 as [p H|k p l n e L H S N IH|k p hi lo n e H H2 L T N IH]; intros F o len Q O LE A FF; match type of A with _ + zlen (wire ?x) <= _ => pose proof (wire_pos1 x) as WP end; (destruct F as [|F]; [lia|]); cbn [l_len]; rewrite <- Q, H.
  - cbn [Z.ltb Z.compare andb]. rewrite andb_false_r. cbn [andb]. lia.
  - pose proof (back_range _ _ _ _ _ N) as R. rewrite wire_app_len in A. pose proof (wire_pos1 n). replace ((len <? 256) && (0 <? zlen l) && negb (zlen l =? 95)) with true by lia. replace (192 <=? zlen l) with false by lia. replace (63 <? zlen l) with false by lia.
    apply IH; lia.
  - pose proof (zget_range _ _ _ L). pose proof (wire_pos1 n). replace ((len <? 256) && (0 <? hi) && negb (hi =? 95)) with true by lia. replace (192 <=? hi) with true by lia. replace (o + (len + 2) <=? zlen m) with true by lia. lia.
Qed.
Lemma len_complete m p n e : bytes m -> name_in 256 m p n e -> len_at m p = e - p.
Proof. intros B (k & K & N & L). pose proof (back_range _ _ _ _ _ N) as R. rewrite len_at_def. apply (l_len_complete m k p n e B N); [lia|lia|lia|exact L|vm_compute; reflexivity]. Qed.

Definition long (m : list Z) : Prop := exists p n e, name_in 259 m p n e /\ 256 < zlen (wire n).
Lemma name_in_weak a b m p n e : a <= b -> name_in a m p n e -> name_in b m p n e.
Proof. intros H (k & K & N & L). exists k. split; [exact K|]. split; [exact N|lia]. Qed.
Lemma name_in_range a m p n e : name_in a m p n e -> 0 <= p < zlen m /\ p < e <= zlen m.
Proof. intros (k & _ & N & _). apply (back_range _ _ _ _ _ N). Qed.

Lemma dlabel_complete cap m out p n e : bytes m -> name_in 256 m p n e -> zlen out + zlen (wire n) < cap -> l_dlabel cap m out p = Some (e - p, out ++ wire n).
Proof.
  intros B N C. pose proof (name_in_range _ _ _ _ _ N) as R. unfold l_dlabel. replace (zlen m <=? p) with false by lia. rewrite (name_text_complete m p n e B (name_in_weak 256 259 _ _ _ _ ltac:(lia) N)). cbn [obind]. cbv zeta.
  rewrite (len_complete m p n e B N). replace (e - p =? -1) with false by lia. unfold l_add. replace (zlen out + zlen (wire n) <? cap) with true by lia. reflexivity.
Qed.
Lemma dlabel_sound cap m out p len o : bytes m -> 0 <= p -> l_dlabel cap m out p = Some (len, o) -> long m \/ exists n, name_in 256 m p n (p + len) /\ o = out ++ wire n /\ zlen o < cap.
Proof.
  intros B P H. apply l_dlabel_some in H as (x & E & L & NL & L1 & L2 & -> & C); [|exact P]. destruct (name_text_sound m p x B P E) as (n & e & N & ->).
  destruct (Z_le_gt_dec (zlen (wire n)) 256) as [S|S]; [right|left; exists p, n, e; split; [exact N|lia]]. assert (name_in 256 m p n e) as N2 by (destruct N as (k & K & N & _); exists k; split; [exact K|split; [exact N|exact S]]).
  pose proof (len_complete m p n e B N2). exists n. replace (p + len) with e by lia. split; [exact N2|]. split; [reflexivity|]. rewrite zlen_app. exact C.
Qed.
Lemma take_complete cap m out p n : 0 <= p -> 1 <= n -> p + n <= zlen m -> zlen out + n < cap -> l_take cap m out p n = Some (out ++ zslice m p n).
Proof. intros P N L C. unfold l_take, l_add. replace ((p <? zlen m) && (p + n <=? zlen m)) with true by lia. rewrite zlen_zslice by lia. replace (zlen out + n <? cap) with true by lia. reflexivity. Qed.

(** ** The fields of the data *)
Lemma obind_some {A B} (o : option A) (k : A -> option B) y : obind o k = Some y -> exists a, o = Some a /\ k a = Some y.
Proof. destruct o as [a|]; cbn [obind]; [intros H; exists a; split; [reflexivity|exact H]|discriminate]. Qed.
Lemma fD_s rest m out p rdl tot r : bytes m -> 0 <= p -> l_fields (64 :: rest) m out p rdl tot = Some r ->
  long m \/ exists n e, name_in 256 m p n e /\ l_fields rest m (out ++ wire n) e rdl (tot + (e - p)) = Some r.
Proof.
  intros B P H. cbn [l_fields Z.eqb Pos.eqb Z.ltb Z.compare Pos.compare Pos.compare_cont andb] in H. apply obind_some in H as ((len & o) & E & H). destruct (dlabel_sound _ _ _ _ _ _ B P E) as [L|(n & N & -> & _)]; [left; exact L|right].
  exists n, (p + len). split; [exact N|]. replace (p + len - p) with len by lia. exact H.
Qed.
Lemma fD_c rest m out p rdl tot n e : bytes m -> name_in 256 m p n e -> zlen out + zlen (wire n) < 4512 -> l_fields (64 :: rest) m out p rdl tot = l_fields rest m (out ++ wire n) e rdl (tot + (e - p)).
Proof.
  intros B N L. cbn [l_fields Z.eqb Pos.eqb Z.ltb Z.compare Pos.compare Pos.compare_cont andb]. rewrite (dlabel_complete 4512 m out p n e B N L). cbn [obind]. replace (p + (e - p)) with e by lia. reflexivity.
Qed.
Lemma fN_s k rest m out p rdl tot r : 0 < k < 64 -> l_fields (k :: rest) m out p rdl tot = Some r -> p + k <= zlen m /\ l_fields rest m (out ++ zslice m p k) (p + k) rdl (tot + k) = Some r.
Proof.
  intros K H. cbn [l_fields] in H. replace (k =? 0) with false in H by lia. replace ((0 <? k) && (k <? 64)) with true in H by lia. apply obind_some in H as (o & E & H). apply l_take_some in E as (_ & E & -> & _). split; [exact E|exact H].
Qed.
Lemma fN_c k rest m out p rdl tot : 0 < k < 64 -> 0 <= p -> p + k <= zlen m -> zlen out + k < 4512 -> l_fields (k :: rest) m out p rdl tot = l_fields rest m (out ++ zslice m p k) (p + k) rdl (tot + k).
Proof.
  intros K P L C. cbn [l_fields]. replace (k =? 0) with false by lia. replace ((0 <? k) && (k <? 64)) with true by lia. rewrite take_complete by lia. reflexivity.
Qed.
Lemma fE rest m out p rdl tot : l_fields (0 :: rest) m out p rdl tot = Some (tot, out). Proof. reflexivity. Qed.

Definition made (m : list Z) (p type rdl : Z) (x : list Z) : Prop :=
  exists lead names tail, data_in 256 m p type rdl lead names tail /\ x = lead ++ concat (map wire names) ++ tail /\ p + rdl <= zlen m.
Ltac names := repeat first [eassumption | apply names_none | eapply names_more].

(** One name, two names, octets before, octets after. *)
Lemma one_name_s rest m p type rdl x : layout type = Some (0, 1%nat, 0) -> bytes m -> 0 <= p <= zlen m ->
  obind (l_fields (64 :: 0 :: rest) m [] p rdl 0) (fun '(total, out) => if rdl =? total then Some out else None) = Some x -> long m \/ made m p type rdl x.
Proof.
  intros LA B P H. apply obind_some in H as ((t & o) & H & HX). apply fD_s in H as [L|(n & e & N & H)]; [left; exact L| |exact B|lia]. rewrite fE in H. apply some_inj, pair_equal_spec in H as (<- & <-).
  destruct (rdl =? 0 + (e - p)) eqn:G; [|discriminate]. apply some_inj in HX as <-. pose proof (name_in_range _ _ _ _ _ N). right. exists [], [n], []. unfold data_in. rewrite LA, !Z.add_0_r, zslice_nil. split; [|split; [cbn [map concat app]; rewrite !app_nil_r; reflexivity|lia]].
  split; [lia|]. split; [reflexivity|]. split; [reflexivity|]. exists e. split; [names|]. rewrite zslice_nil. split; [reflexivity|lia].
Qed.
Lemma two_names_s rest m p type rdl x : layout type = Some (0, 2%nat, 0) -> bytes m -> 0 <= p <= zlen m ->
  obind (l_fields (64 :: 64 :: 0 :: rest) m [] p rdl 0) (fun '(total, out) => if rdl =? total then Some out else None) = Some x -> long m \/ made m p type rdl x.
Proof.
  intros LA B P H. apply obind_some in H as ((t & o) & H & HX). apply fD_s in H as [L|(n & e & N & H)]; [left; exact L| |exact B|lia]. pose proof (name_in_range _ _ _ _ _ N).
  apply fD_s in H as [L|(n2 & e2 & N2 & H)]; [left; exact L| |exact B|lia]. pose proof (name_in_range _ _ _ _ _ N2).
  rewrite fE in H. apply some_inj, pair_equal_spec in H as (<- & <-).
  destruct (rdl =? 0 + (e - p) + (e2 - e)) eqn:G; [|discriminate]. apply some_inj in HX as <-. right. exists [], [n; n2], []. unfold data_in. rewrite LA, !Z.add_0_r, zslice_nil. split; [|split; [cbn [map concat app]; rewrite !app_nil_r; reflexivity|lia]].
  split; [lia|]. split; [reflexivity|]. split; [reflexivity|]. exists e2. split; [names|]. rewrite zslice_nil. split; [reflexivity|lia].
Qed.
Lemma soa_s rest m p type rdl x : layout type = Some (0, 2%nat, 20) -> bytes m -> 0 <= p <= zlen m ->
  obind (l_fields (64 :: 64 :: 4 :: 4 :: 4 :: 4 :: 4 :: 0 :: rest) m [] p rdl 0) (fun '(total, out) => if rdl =? total then Some out else None) = Some x -> long m \/ made m p type rdl x.
Proof.
  intros LA B P H. apply obind_some in H as ((t & o) & H & HX). apply fD_s in H as [L|(n & e & N & H)]; [left; exact L| |exact B|lia]. pose proof (name_in_range _ _ _ _ _ N).
  apply fD_s in H as [L|(n2 & e2 & N2 & H)]; [left; exact L| |exact B|lia]. pose proof (name_in_range _ _ _ _ _ N2).
  apply fN_s in H as (L1 & H); [|lia]. apply fN_s in H as (L2 & H); [|lia]. apply fN_s in H as (L3 & H); [|lia]. apply fN_s in H as (L4 & H); [|lia]. apply fN_s in H as (L5 & H); [|lia].
  rewrite fE in H. apply some_inj, pair_equal_spec in H as (<- & <-).
  destruct (rdl =? _) eqn:G in HX; [|discriminate]. apply some_inj in HX as <-. right. exists [], [n; n2], (zslice m e2 20). unfold data_in. rewrite LA, !Z.add_0_r, zslice_nil. split; [|split; [|lia]].
  - split; [lia|]. split; [reflexivity|]. split; [reflexivity|]. exists e2. split; [names|]. split; [reflexivity|lia].
  - cbn [map concat app]. rewrite app_nil_r, <- !app_assoc. change 20 with (4 + (4 + (4 + (4 + 4)))). rewrite !(zslice_split m) by lia. replace (e2 + 4 + 4 + 4 + 4) with (e2 + 4 + 4 + 4 + 4) by lia. reflexivity.
Qed.
Lemma lead2_s rest m p type rdl x : layout type = Some (2, 1%nat, 0) -> bytes m -> 0 <= p <= zlen m ->
  obind (l_fields (2 :: 64 :: 0 :: rest) m [] p rdl 0) (fun '(total, out) => if rdl =? total then Some out else None) = Some x -> long m \/ made m p type rdl x.
Proof.
  intros LA B P H. apply obind_some in H as ((t & o) & H & HX). apply fN_s in H as (L1 & H); [|lia]. apply fD_s in H as [L|(n & e & N & H)]; [left; exact L| |exact B|lia]. pose proof (name_in_range _ _ _ _ _ N).
  rewrite fE in H. apply some_inj, pair_equal_spec in H as (<- & <-).
  destruct (rdl =? _) eqn:G in HX; [|discriminate]. apply some_inj in HX as <-. right. exists (zslice m p 2), [n], []. unfold data_in. rewrite LA. split; [|split; [|lia]].
  - split; [lia|]. split; [reflexivity|]. split; [reflexivity|]. exists e. split; [names|]. rewrite zslice_nil. split; [reflexivity|lia].
  - cbn [map concat app]. rewrite !app_nil_r. reflexivity.
Qed.
Lemma lead6_s rest m p type rdl x : layout type = Some (6, 1%nat, 0) -> bytes m -> 0 <= p <= zlen m ->
  obind (l_fields (2 :: 2 :: 2 :: 64 :: 0 :: rest) m [] p rdl 0) (fun '(total, out) => if rdl =? total then Some out else None) = Some x -> long m \/ made m p type rdl x.
Proof.
  intros LA B P H. apply obind_some in H as ((t & o) & H & HX). apply fN_s in H as (L1 & H); [|lia]. apply fN_s in H as (L2 & H); [|lia]. apply fN_s in H as (L3 & H); [|lia].
  apply fD_s in H as [L|(n & e & N & H)]; [left; exact L| |exact B|lia]. pose proof (name_in_range _ _ _ _ _ N).
  rewrite fE in H. apply some_inj, pair_equal_spec in H as (<- & <-).
  destruct (rdl =? _) eqn:G in HX; [|discriminate]. apply some_inj in HX as <-. right. exists (zslice m p 6), [n], []. unfold data_in. rewrite LA. split; [|split; [|lia]].
  - split; [lia|]. split; [reflexivity|]. split; [reflexivity|]. exists e. replace (p + 2 + 2 + 2) with (p + 6) in * by lia. split; [names|]. rewrite zslice_nil. split; [reflexivity|lia].
  - cbn [map concat app]. rewrite !app_nil_r. change 6 with (2 + (2 + 2)). rewrite !(zslice_split m) by lia. rewrite <- !app_assoc. reflexivity.
Qed.
Lemma addr_s rest m p type rdl x : layout type = None -> type <> 16 -> bytes m -> 0 <= p <= zlen m ->
  obind (l_fields (4 :: 0 :: rest) m [] p rdl 0) (fun '(total, out) => if rdl =? total then Some out else None) = Some x -> long m \/ made m p type rdl x.
Proof.
  intros LA NT B P H. apply obind_some in H as ((t & o) & H & HX). apply fN_s in H as (L1 & H); [|lia]. rewrite fE in H. apply some_inj, pair_equal_spec in H as (<- & <-).
  destruct (rdl =? _) eqn:G in HX; [|discriminate]. apply some_inj in HX as <-. assert (rdl = 4) as -> by lia. right. exists (zslice m p 4), [], []. unfold data_in. rewrite LA. cbn [map concat app]. rewrite !app_nil_r.
  split; [|split; [reflexivity|lia]]. split; [reflexivity|]. split; [reflexivity|]. split; [reflexivity|]. split; [intros _; apply zlen_zslice; lia|intros X; contradiction].
Qed.
Lemma text_s rest m p type rdl x : layout type = None -> type <> 1 -> bytes m -> 0 <= p <= zlen m -> 0 <= rdl ->
  obind (l_fields (65 :: 66 :: rest) m [] p rdl 0) (fun '(total, out) => if rdl =? total then Some out else None) = Some x -> long m \/ made m p type rdl x.
Proof.
  intros LA NT B P R H. apply obind_some in H as ((t & o) & H & HX). cbn [l_fields Z.eqb Pos.eqb Z.ltb Z.compare Pos.compare Pos.compare_cont andb] in H.
  destruct (zget m p) as [b|] eqn:EB; [|discriminate]. pose proof (zget_bytes _ _ _ B EB) as Bb. unfold byte in Bb. apply obind_some in H as (o1 & E & H). apply l_take_some in E as (_ & E & -> & _). right.
  exists (zslice m p rdl), [], []. unfold data_in. rewrite LA. cbn [map concat app] in *. rewrite !app_nil_r.
  assert (p + rdl <= zlen m /\ b + 1 <= rdl /\ x = zslice m p rdl) as (A1 & A2 & ->).
  { destruct (rdl - (0 + (b + 1)) <=? 0) eqn:G.
    - apply some_inj, pair_equal_spec in H as (<- & <-). destruct (rdl =? 0 + (b + 1)) eqn:G2; [|discriminate]. apply some_inj in HX as <-. assert (rdl = b + 1) as -> by lia. split; [lia|]. split; [lia|reflexivity].
    - apply obind_some in H as (o2 & E2 & H). apply l_take_some in E2 as (_ & E2 & -> & _). apply some_inj, pair_equal_spec in H as (<- & <-).
      destruct (rdl =? 0 + (b + 1) + (rdl - (0 + (b + 1)))) eqn:G2; [|discriminate]. apply some_inj in HX as <-. split; [lia|]. split; [lia|].
      replace (0 + (b + 1)) with (b + 1) by lia. rewrite <- (zslice_split m p (b + 1) (rdl - (b + 1))) by lia. replace (b + 1 + (rdl - (b + 1))) with rdl by lia. reflexivity. }
  split; [|split; [reflexivity|exact A1]]. split; [reflexivity|]. split; [reflexivity|]. split; [reflexivity|]. split; [intros X; contradiction|]. intros _. exists b. rewrite zget_zslice by lia. rewrite Z.add_0_r. rewrite zlen_zslice by lia. split; [exact EB|exact A2].
Qed.
