(** MaraDNS' decompressor as functions on lists, continued: questions, records, packets. *)
From Verif Require Import CBase Bits ModelDwStr SpecDwStr ProofDwStr SpecNames SpecMessage SpecAcl SpecDeadwoodMsg SpecQuery ModelJsStr SpecJsStr ProofJsStr ProofJsSearch
  ModelQueries SpecQueries ProofQueries ProofQuestion ModelDecomp SpecDecomp ProofJsList ProofDecompList.

Lemma some_inj {A} (a b : A) : Some a = Some b -> a = b. Proof. congruence. Qed.

(** ** The question *)
Definition l_question (cap : Z) (m out : list Z) : option (Z * list Z) :=
  obind (l_dlabel cap m out 12) (fun '(len, out) => obind (l_take cap m out (12 + len) 4) (fun out => Some (len + 4, out))).
Lemma question_agree J cap c m u out : junk_ok J -> holding c m -> held cap u out -> 12 <= zlen m -> zlen out = 12 -> agree (held2 cap) (decomp_get_question J c u) (l_question cap m out).
Proof.
  intros HJ HC HU M O. pose proof (hold_facts c m HC) as [Wc Sc Lc Cc Mc Nc Bc Xc Uc Oc Gc Slc]. pose proof (hold_facts u out (proj1 HU)) as [Wu Su Lu Cu Mu Nu Bu Xu Uu Ou Gu Slu].
  unfold decomp_get_question, l_question. rewrite <- Lc, <- Lu, O. replace (zlen m <? 12) with false by lia. cbn [Z.eqb Pos.eqb negb].
  eapply agree_bind; [apply append_dlabel_agree; try eassumption; lia|]. intros (len & u1) (len' & o1) (E & H1) ED. cbn [fst snd] in E, H1. subst len'.
  apply l_dlabel_some in ED as (x & _ & _ & _ & L1 & L2 & _); [|lia]. replace (len <? 1) with false by lia.
  eapply agree_bind; [apply append_bytes_agree; try eassumption; lia|]. intros a b Hab _. apply agree_some. split; [reflexivity|exact Hab].
Qed.

(** ** The descriptions *)
Definition formats0 : list (list rrdesc) := Eval vm_compute in match decomp_init (fun _ => 0) with Ok f => f | _ => [] end.
Lemma init_ok J : decomp_init J = Ok formats0.
Proof. vm_compute. reflexivity. Qed.
Definition flat0 : list rrdesc := Eval vm_compute in concat formats0.
Lemma get_rrdesc_ok t : 0 <= t -> decomp_get_rrdesc formats0 t = Ok (find_desc flat0 t).
Proof.
  intros T. unfold decomp_get_rrdesc, bucket, RR_HASH_SIZE. rewrite Z.rem_mod_nonneg by lia. pose proof (Z.mod_pos_bound t 7 ltac:(lia)) as R. replace (t mod 7 <? 0) with false by lia.
  assert (t mod 7 = 0 \/ t mod 7 = 1 \/ t mod 7 = 2 \/ t mod 7 = 3 \/ t mod 7 = 4 \/ t mod 7 = 5 \/ t mod 7 = 6) as C by lia.
  unfold flat0, formats0. cbn [find_desc rr_num].
  repeat match goal with |- context [if ?n =? t then Some _ else _] => destruct (Z.eqb_spec n t) as [<-|?]; [vm_compute; reflexivity|] end.
  destruct C as [-> | [-> | [-> | [-> | [-> | [-> | ->]]]]]];
    match goal with |- context [Z.to_nat ?k] => let n := eval vm_compute in (Z.to_nat k) in change (Z.to_nat k) with n end; cbn [nth_error bind find_desc rr_num];
    repeat match goal with |- context [?n =? t] => replace (n =? t) with false by lia end; reflexivity.
Qed.

(** ** The data of a record *)
Fixpoint l_fields (desc : list Z) (m out : list Z) (p rdlength total : Z) : option (Z * list Z) :=
  match desc with
  | [] => None
  | t :: desc =>
      if t =? 0 then Some (total, out)
      else if (0 <? t) && (t <? 64) then obind (l_take 4512 m out p t) (fun out => l_fields desc m out (p + t) rdlength (total + t))
      else if t =? 64 then obind (l_dlabel 4512 m out p) (fun '(len, out) => l_fields desc m out (p + len) rdlength (total + len))
      else if t =? 65 then
        match zget m p with
        | None => None
        | Some b => obind (l_take 4512 m out p (b + 1)) (fun out => l_fields desc m out (p + (b + 1)) rdlength (total + (b + 1)))
        end
      else if t =? 66 then
        if rdlength - total <=? 0 then Some (total, out)
        else obind (l_take 4512 m out p (rdlength - total)) (fun out => Some (total + (rdlength - total), out))
      else None
  end.
Lemma fields_agree desc : forall J c m u out p rdlength total, junk_ok J -> holding c m -> held 4512 u out -> 0 <= p <= zlen m -> rdlength <= 65535 -> 0 <= total -> In 0 desc ->
  agree (held2 4512) (rddata_loop J desc c u p rdlength total) (l_fields desc m out p rdlength total).
Proof.
  induction desc as [|t desc IH]; intros J c m u out p rdlength total HJ HC HU P RD TT I0; [destruct I0|]. cbn [rddata_loop l_fields]. unfold RRSUB_DLABEL, RRSUB_TEXT, RRSUB_VARIABLE.
  pose proof (hold_facts c m HC) as [Wc Sc Lc Cc Mc Nc Bc Xc Uc Oc Gc Slc].
  destruct (t =? 0) eqn:G0; [apply agree_some; split; [reflexivity|exact HU]|]. assert (In 0 desc) as I1 by (destruct I0 as [I0|I0]; [lia|exact I0]).
  destruct ((0 <? t) && (t <? 64)) eqn:G1.
  { eapply agree_bind; [apply append_bytes_agree; try eassumption; lia|]. intros a b Hab E. apply l_take_some in E as (E1 & E2 & _). apply IH; try assumption; lia. }
  destruct (t =? 64) eqn:G2.
  { eapply agree_bind; [apply append_dlabel_agree; try eassumption; lia|]. intros (len & u1) (len' & o1) (E & H1) ED. cbn [fst snd] in E, H1. subst len'.
    apply l_dlabel_some in ED as (x & _ & _ & _ & L1 & L2 & _); [|lia]. apply IH; try assumption; lia. }
  destruct (t =? 65) eqn:G3.
  { destruct (zget_some (j_mem c) p ltac:(lia)) as (b & Eb). rewrite (rd_of_zget _ _ _ Eb). cbn [bind]. cbv zeta. pose proof (zget_bytes _ _ _ (jw_bytes c Wc) Eb) as Bb. unfold byte in Bb.
    replace ((b + 1 <? 0) || (256 <? b + 1)) with false by lia. assert (p < zlen m \/ p = zlen m) as [X|X] by lia.
    - rewrite Gc in Eb by lia. rewrite Eb. eapply agree_bind; [apply append_bytes_agree; try eassumption; lia|]. intros a o Hab E. apply l_take_some in E as (E1 & E2 & _). apply IH; try assumption; lia.
    - rewrite (proj2 (zget_none m p)) by lia. pose proof (append_bytes_agree J 4512 c m u out p (b + 1) HJ HC HU ltac:(lia) ltac:(lia) ltac:(lia)) as A. unfold l_take in A.
      replace ((p <? zlen m) && (p + (b + 1) <=? zlen m)) with false in A by lia. cbn [agree] in A. rewrite A. reflexivity. }
  destruct (t =? 66) eqn:G4; [|apply agree_none]. cbv zeta. destruct (rdlength - total <=? 0) eqn:G5; [apply agree_some; split; [reflexivity|exact HU]|].
  eapply agree_bind; [apply append_bytes_agree; try eassumption; lia|]. intros a b Hab _. apply agree_some. split; [reflexivity|exact Hab].
Qed.
Definition l_data (m : list Z) (p type rdlength : Z) : option (list Z) :=
  match find_desc flat0 type with
  | None => if rdlength =? 0 then Some [] else l_take 4512 m [] p rdlength
  | Some d => obind (l_fields (description d) m [] p rdlength 0) (fun '(total, out) => if rdlength =? total then Some out else None)
  end.
Lemma desc_has_end t d : find_desc flat0 t = Some d -> In 0 (description d).
Proof.
  unfold flat0. cbn [find_desc rr_num]. repeat match goal with |- context [if ?n =? t then Some _ else _] => destruct (n =? t); [intros E; injection E as <-; cbn; tauto|] end. discriminate.
Qed.
Lemma data_agree J c m u p type rdlength : junk_ok J -> holding c m -> held 4512 u [] -> 0 <= p <= zlen m -> 0 <= type -> 0 <= rdlength <= 65535 ->
  agree (held 4512) (decomp_get_rddata J formats0 c u p type rdlength) (l_data m p type rdlength).
Proof.
  intros HJ HC HU P T R. pose proof (hold_facts c m HC) as [Wc Sc Lc Cc Mc Nc Bc Xc Uc Oc Gc Slc]. unfold decomp_get_rddata, l_data. rewrite get_rrdesc_ok by exact T. cbn [bind]. destruct (find_desc flat0 type) as [d|] eqn:E.
  - eapply agree_bind; [apply fields_agree; try eassumption; try lia; apply (desc_has_end _ _ E)|]. intros (tt & a) (tt' & b) (E1 & H1) _. cbn [fst snd] in E1, H1. subst tt'.
    destruct (rdlength =? tt); cbn [negb]; [apply agree_some, H1|apply agree_none].
  - destruct (rdlength =? 0); [apply agree_some, HU|]. apply append_bytes_agree; try eassumption; lia.
Qed.
Lemma l_data_len m p type rdlength x : bytes m -> 0 <= p -> l_data m p type rdlength = Some x -> zlen x < 4512 /\ bytes x.
Proof.
  intros BM P0.
  assert (forall p x, name_text m p = Some x -> bytes x) as BN.
  { intros q y. apply name_text_bytes, BM. }
  assert (forall desc out p total tt y, zlen out < 4512 -> bytes out -> 0 <= p -> l_fields desc m out p rdlength total = Some (tt, y) -> zlen y < 4512 /\ bytes y) as F.
  { clear -BM BN. induction desc as [|t desc IH]; intros out p total tt y L BO P; cbn [l_fields]; [discriminate|].
    destruct (t =? 0); [intros E; injection E as _ <-; split; assumption|]. destruct ((0 <? t) && (t <? 64)) eqn:G1.
    { destruct (l_take 4512 m out p t) as [o|] eqn:E; cbn [obind]; [|discriminate]. apply l_take_some in E as (_ & _ & -> & E). rewrite <- zlen_app in E. apply IH; [exact E| |lia]. apply bytes_app; split; [exact BO|apply bytes_zslice, BM]. }
    destruct (t =? 64).
    { destruct (l_dlabel 4512 m out p) as [(len & o)|] eqn:E; cbn [obind]; [|discriminate]. apply l_dlabel_some in E as (x & EX & _ & _ & L1 & _ & -> & E); [|exact P]. rewrite <- zlen_app in E. apply IH; [exact E| |lia].
      apply bytes_app; split; [exact BO|apply (BN _ _ EX)]. }
    destruct (t =? 65).
    { destruct (zget m p) as [b|] eqn:EB; [|discriminate]. pose proof (zget_bytes _ _ _ BM EB) as BB. unfold byte in BB. destruct (l_take 4512 m out p (b + 1)) as [o|] eqn:E; cbn [obind]; [|discriminate]. apply l_take_some in E as (_ & _ & -> & E).
      rewrite <- zlen_app in E. apply IH; [exact E| |lia]. apply bytes_app; split; [exact BO|apply bytes_zslice, BM]. }
    destruct (t =? 66); [|discriminate]. destruct (rdlength - total <=? 0); [intros E; injection E as _ <-; split; assumption|].
    destruct (l_take 4512 m out p (rdlength - total)) as [o|] eqn:E; cbn [obind]; [|discriminate]. apply l_take_some in E as (_ & _ & -> & E). rewrite <- zlen_app in E. intros X. injection X as _ <-. split; [exact E|].
    apply bytes_app; split; [exact BO|apply bytes_zslice, BM]. }
  unfold l_data. destruct (find_desc flat0 type) as [d|].
  - destruct (l_fields (description d) m [] p rdlength 0) as [(tt & o)|] eqn:E; cbn [obind]; [|discriminate]. destruct (rdlength =? tt); [|discriminate]. intros X. injection X as <-. apply (F (description d) [] p 0 tt o); [reflexivity|constructor|exact P0|exact E].
  - destruct (rdlength =? 0); [intros X; injection X as <-; split; [change (zlen (@nil Z)) with 0; lia|constructor]|]. intros E. apply l_take_some in E as (_ & _ & -> & E). rewrite <- zlen_app in E. split; [exact E|]. cbn [app]. apply bytes_zslice, BM.
Qed.

(** ** Records and packets *)
Fixpoint l_answers (n : nat) (cap : Z) (m out : list Z) (p : Z) : option (list Z) :=
  match n with
  | O => Some out
  | S n =>
      obind (l_dlabel cap m out p) (fun '(len, out) =>
      obind (l_type cap m out (p + len)) (fun '(type, out) =>
      obind (l_word m (p + len + 8)) (fun rdlength =>
      obind (l_data m (p + len + 8 + 2) type rdlength) (fun rd =>
      obind (l_add cap out (be 2 (zlen rd))) (fun out =>
      obind (l_add cap out rd) (fun out => l_answers n cap m out (p + len + 8 + 2 + rdlength)))))))
  end.
Lemma then_agree {B A' B'} (R : js -> B -> Prop) (Q : A' -> B' -> Prop) (x : res (Z * js)) (k : js -> res A') (o : option B) (k' : B -> option B') :
  agree R (r <- x ;; good r) o -> (forall a b, R a b -> o = Some b -> agree Q (k a) (k' b)) -> agree Q (r <- x ;; u <- good r ;; k u) (obind o k').
Proof.
  intros H K. pose proof (agree_bind R Q _ o k k' H K) as X. destruct x; exact X.
Qed.
Lemma answers_agree n : forall J cap c m u rddata rl out p, junk_ok J -> holding c m -> 12 <= zlen m -> held cap u out -> held 4512 rddata rl -> 0 <= p <= zlen m + 65535 ->
  agree (held cap) (answers_loop n J formats0 c u rddata p) (l_answers n cap m out p).
Proof.
  induction n as [|n IH]; intros J cap c m u rddata rl out p HJ HC M HU HR P; cbn [answers_loop l_answers]; [apply agree_some, HU|].
  pose proof (hold_facts c m HC) as [Wc Sc Lc Cc Mc Nc Bc Xc Uc Oc Gc Slc].
  eapply agree_bind; [apply append_dlabel_agree; try eassumption; lia|]. intros (len & u1) (len' & o1) (E & H1) ED. cbn [fst snd] in E, H1. subst len'.
  apply l_dlabel_some in ED as (x & _ & _ & _ & L1 & L2 & _); [|lia]. replace (len <? 1) with false by lia. cbv zeta.
  eapply agree_bind; [apply type_agree; try eassumption; lia|]. intros (ty & u2) (ty' & o2) (E & H2) ET. cbn [fst snd] in E, H2. subst ty'.
  assert (p + len + 8 <= zlen m /\ 0 <= ty) as (L3 & T0).
  { unfold l_type in ET. destruct (l_take cap m o1 (p + len) 8) as [oo|] eqn:E; [|discriminate]. apply l_take_some in E as (_ & E & _). cbn [obind] in ET. injection ET as <- _. split; [lia|].
    destruct (number_2 m (p + len) Bc ltac:(lia) ltac:(lia)) as (y & z & _ & _ & By & Bz & _ & ->). unfold byte in *. lia. }
  eapply agree_bind; [apply rdlength_agree; try eassumption; lia|]. intros rdl rdl' <- EW.
  assert (p + len + 8 + 2 <= zlen m /\ 0 <= rdl <= 65535) as (L4 & R0).
  { unfold l_word in EW. destruct (p + len + 8 + 2 <=? zlen m) eqn:G; [|discriminate]. injection EW as <-. split; [lia|]. destruct (number_2 m (p + len + 8) Bc ltac:(lia) ltac:(lia)) as (y & z & _ & _ & By & Bz & _ & ->). unfold byte in *. lia. }
  destruct (set_count_0 rddata rl (proj1 HR)) as (Z1 & Z2). rewrite (proj2 HR) in Z2.
  eapply agree_bind; [apply data_agree; try eassumption; try lia; split; assumption|]. intros rd' rl' HR' ER. apply l_data_len in ER as (ER & _); [|exact Bc|lia].
  pose proof (hold_facts rd' rl' (proj1 HR')) as FR. pose proof (fa_len _ _ FR) as LR. rewrite <- LR. pose proof (zlen_nonneg rl').
  eapply then_agree; [apply adduint16_agree; try eassumption; lia|]. intros u3 o3 H3 _.
  eapply then_agree; [apply append_agree; [apply (proj1 HR')|exact H3]|]. intros u4 o4 H4 _.
  eapply IH; try eassumption. lia.
Qed.
Definition l_packet (cap : Z) (m : list Z) : option (list Z) :=
  obind (l_header cap m) (fun '(answers, out) =>
    if answers =? -2 then Some out
    else if answers <=? -3 then l_answers (Z.to_nat (-2 - answers)) cap m out 12
    else obind (l_question cap m out) (fun '(len, out) => l_answers (Z.to_nat answers) cap m out (12 + len))).
Lemma totals_range m : bytes m -> 12 <= zlen m -> 0 <= totals m.
Proof. intros B M. unfold totals. pose proof (field16_range m 6 B ltac:(lia) ltac:(lia)). pose proof (field16_range m 8 B ltac:(lia) ltac:(lia)). pose proof (field16_range m 10 B ltac:(lia) ltac:(lia)). lia. Qed.
Lemma decompress_agree J cap c m u : junk_ok J -> holding c m -> j_wf u -> j_size u = 1 -> j_max u = cap -> agree (held cap) (decompress_data J formats0 c u) (l_packet cap m).
Proof.
  intros HJ HC WU SU CU. pose proof (hold_facts c m HC) as [Wc Sc Lc Cc Mc Nc Bc Xc Uc Oc Gc Slc].
  assert (holding u (octets_of u)) as HU0 by (split; [exact WU|split; [exact SU|reflexivity]]). destruct (set_count_0 u _ HU0) as (HU & CU'). rewrite CU in CU'.
  unfold decompress_data. set (u0 := set_count u 0) in *. assert (held cap u0 []) as HU1 by (split; assumption). pose proof (hold_facts u0 [] HU) as [Wu Su Lu Cu Mu Nu Bu Xu Uu Ou Gu Slu].
  unfold decomp_decompress_packet. rewrite Xc, Xu, Sc, Su, <- Lu. change (zlen (@nil Z) =? 0) with true. cbn [negb Z.eqb Pos.eqb orb].
  destruct (create_held J 4512 HJ ltac:(lia) ltac:(lia)) as (rd0 & -> & HR). cbn [bind]. unfold l_packet.
  eapply agree_bind; [apply header_agree; eassumption|]. intros (an & u1) (an' & o1) (E & H1) EH. cbn [fst snd] in E, H1. subst an'.
  assert (12 <= zlen m /\ zlen o1 = 12 /\ (an = -2 \/ an <= -3 \/ 0 <= an)) as (M & O1 & AN).
  { unfold l_header in EH. destruct (zlen m <? 12) eqn:G; [discriminate|]. destruct (field16 m 4 <=? 1); [|discriminate]. destruct (l_take cap m [] 0 12) as [o|] eqn:E; [|discriminate]. cbn [obind] in EH. apply some_inj, pair_equal_spec in EH as (EA & <-).
    apply l_take_some in E as (_ & _ & -> & _). split; [lia|]. split; [cbn [app]; apply zlen_zslice; lia|]. pose proof (totals_range m Bc ltac:(lia)). revert EA. destruct ((field16 m 4 =? 0) && (1 <=? totals m)) eqn:G2; [intros <-; apply andb_prop in G2 as (_ & G2); apply Z.leb_le in G2; lia|]. destruct (field16 m 4 =? 0); intros <-; lia. }
  destruct (an =? -2) eqn:G1; [apply agree_some, H1|]. change JS_ERROR with (-1). replace (an =? -1) with false by lia. destruct (an <=? -3) eqn:G2.
  - cbn [bind]. rewrite Z.add_0_r. eapply answers_agree; try eassumption. lia.
  - pose proof (question_agree J cap c m u1 o1 HJ HC H1 M O1) as A. destruct (l_question cap m o1) as [(len & o2)|] eqn:EQ; cbn [agree obind] in *; [|rewrite A; reflexivity].
    destruct A as ((len' & u2) & -> & E & H2). cbn [fst snd] in E, H2. subst len'. cbn [bind].
    assert (1 <= len /\ 12 + len <= zlen m) as (L1 & L2).
    { unfold l_question in EQ. destruct (l_dlabel cap m o1 12) as [(l1 & o3)|] eqn:ED; [|discriminate]. cbn [obind] in EQ. destruct (l_take cap m o3 (12 + l1) 4) as [o4|] eqn:ET; [|discriminate]. cbn [obind] in EQ. injection EQ as <- _.
      apply l_dlabel_some in ED as (x & _ & _ & _ & L1 & L2 & _); [|lia]. apply l_take_some in ET as (_ & ET & _). lia. }
    replace (len <? 1) with false by lia. cbn [bind]. eapply answers_agree; try eassumption. lia.
Qed.
