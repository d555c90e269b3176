(** Zone files: characters, host names. *)
From Verif Require Import CBase Bits ModelDwStr SpecDwStr ProofDwStr SpecNames SpecMessage SpecAcl SpecDeadwoodMsg SpecQuery ModelJsStr SpecJsStr ProofJsStr ProofJsSearch
  ModelQueries SpecQueries ProofQueries ProofDwDnsStr ProofQuestion ProofHname ProofSqueeze ModelDecomp SpecDecomp ProofJsList ProofDecompList ModelMaraHash SpecMaraHash ProofMaraHash
  ModelServe ProofServe ProofServeRun ProofServeSafe ModelIpAcl ModelCsv2 SpecCsv2.

(** ** Reading characters *)
Definition step (f : csv2) (rest : list Z) (c : Z) : csv2 := mkcsv2 rest c (f_uni f) true (f_tilde f) (f_brace f) (f_seen f) (f_hand f).
Definition step_u (f : csv2) (rest : list Z) (b u : Z) : csv2 := mkcsv2 rest b u true (f_tilde f) (f_brace f) (f_seen f) (f_hand f).
Lemma readchar_plain f c rest : reading f (c :: rest) -> c <> 123 -> c <> 126 -> csv2_readchar f = (c, step f rest c).
Proof.
  intros (O & R) N1 N2. unfold csv2_readchar. rewrite O, R. cbn [negb]. apply Z.eqb_neq in N1, N2. rewrite N1, N2. cbn [andb]. reflexivity.
Qed.
Lemma step_reading f rest c : reading (step f rest c) rest. Proof. split; reflexivity. Qed.
Lemma lor6 out b : 128 <= b < 192 -> Z.lor (Z.shiftl out 6) (Z.land b 63) = out * 64 + (b - 128).
Proof.
  intros H. rewrite land_63, lor_shiftl_add by (try lia; apply Z.mod_pos_bound; reflexivity). change (2 ^ 6) with 64. f_equal. lia.
Qed.
Lemma utf8_step n out f b rest : reading f (b :: rest) -> 128 <= b < 192 -> utf8_loop (S n) out f = utf8_loop n (out * 64 + (b - 128)) (step f rest b).
Proof.
  intros R H. cbn [utf8_loop]. rewrite (readchar_plain f b rest R) by lia. replace (b =? -2) with false by lia. replace ((b <? 128) || (192 <=? b)) with false by lia. rewrite lor6 by exact H. reflexivity.
Qed.
Lemma utf8_loop_all l : forall f rest out, reading f (l ++ rest) -> Forall (fun b => 128 <= b < 192) l ->
  utf8_loop (length l) out f = (Some (fold_left (fun v b => v * 64 + (b - 128)) l out), match l with [] => f | _ => step f rest (last l 0) end).
Proof.
  induction l as [|b l IH]; intros f rest out R F; [reflexivity|]. apply Forall_cons_iff in F as (F1 & F2). cbn [length app] in *. rewrite (utf8_step _ _ f b (l ++ rest) R F1), (IH _ rest) by (try exact F2; apply step_reading).
  cbn [fold_left]. f_equal. destruct l as [|x l]; [reflexivity|]. reflexivity.
Qed.
Definition lead_mask (len : Z) : Z := if len =? 2 then 31 else if len =? 3 then 15 else if len =? 4 then 7 else if len =? 5 then 3 else 1.
Lemma land_31 a : Z.land a 31 = a mod 32. Proof. exact (land_ones_mod a 5 ltac:(lia)). Qed.
Lemma utf8_len c : 192 <= c < 254 -> csv2_utf8_length c = if c <? 224 then 2 else if c <? 240 then 3 else if c <? 248 then 4 else if c <? 252 then 5 else 6.
Proof.
  intros H. unfold csv2_utf8_length. replace (254 <=? c) with false by lia. replace (c <? 0) with false by lia. replace ((c <? 128) && (0 <? c)) with false by lia. replace ((128 <=? c) && (c <? 192)) with false by lia.
  destruct (Z.ltb_spec c 224); [replace ((192 <=? c) && true) with true by lia; reflexivity|]. rewrite andb_false_r. destruct (Z.ltb_spec c 240); [replace ((224 <=? c) && true) with true by lia; reflexivity|]. rewrite andb_false_r.
  destruct (Z.ltb_spec c 248); [replace ((240 <=? c) && true) with true by lia; reflexivity|]. rewrite andb_false_r. destruct (Z.ltb_spec c 252); [replace ((248 <=? c) && true) with true by lia; reflexivity|]. rewrite andb_false_r.
  replace ((252 <=? c) && (c <? 254)) with true by lia. reflexivity.
Qed.
Lemma read_utf8 f c rest : wide c -> reading f (utf8 c ++ rest) -> csv2_read_unicode f = (c, step_u f rest (last (utf8 c) 0) c).
Proof.
  intros W R. unfold wide in W. unfold utf8 in *. replace (c <? 128) with false in * by lia.
  unfold csv2_read_unicode.
  assert (forall a t, reading f (a :: t ++ rest) -> 192 <= a < 254 -> csv2_readchar f = (a, step f (t ++ rest) a)) as RC by (intros a t H HA; apply readchar_plain; [exact H|lia|lia]).
  assert (forall a t len v, reading f (a :: t ++ rest) -> 192 <= a < 254 -> csv2_utf8_length a = len -> zlen t = len - 1 -> 2 <= len -> Forall (fun b => 128 <= b < 192) t -> t <> [] ->
    fold_left (fun v b => v * 64 + (b - 128)) t (Z.land a (lead_mask len)) = v -> v = c ->
    ((v <? 128) || ((v <? 2048) && (2 <? len)) || ((v <? 65536) && (3 <? len)) || ((v <? 2097152) && (4 <? len)) || ((v <? 67108864) && (5 <? len))) = false ->
    (let '(c0, f0) := csv2_readchar f in if c0 <? 0 then (c0, f0) else if 127 <? c0 then csv2_get_utf8 f0 else (c0, f0)) = (c, step_u f rest (last (a :: t) 0) c)) as MAIN.
  { intros a t len v H HA HL HT H2 FT NE EV EC EB. subst c. rewrite (RC a t H HA). replace (a <? 0) with false by lia. replace (127 <? a) with true by lia.
    unfold csv2_get_utf8. change (csv2_justread (step f (t ++ rest) a)) with a. rewrite HL. replace (len <? 2) with false by lia. cbv zeta. fold (lead_mask len).
    replace (Z.to_nat (len - 1)) with (length t) by (unfold zlen in HT; lia).
    rewrite (utf8_loop_all t _ rest) by (try exact FT; apply step_reading). rewrite EV. destruct t as [|b t]; [congruence|]. cbv match. rewrite EB.
    change (last (a :: b :: t) 0) with (last (b :: t) 0). reflexivity. }
  destruct (Z.ltb_spec c 2048).
  { apply (MAIN _ [128 + c mod 64] 2 c); [exact R|lia| | | | |discriminate| |reflexivity|lia].
    - rewrite utf8_len by lia. repeat match goal with |- (if ?a <? ?b then _ else _) = _ => destruct (Z.ltb_spec a b) end; lia.
    - reflexivity.
    - lia.
    - constructor; [lia|constructor].
    - cbn [fold_left]. unfold lead_mask. cbn [Z.eqb Pos.eqb]. rewrite land_31. lia. }
  destruct (Z.ltb_spec c 65536).
  { apply (MAIN _ [128 + c / 64 mod 64; 128 + c mod 64] 3 c); [exact R|lia| | | | |discriminate| |reflexivity|lia].
    - rewrite utf8_len by lia. repeat match goal with |- (if ?a <? ?b then _ else _) = _ => destruct (Z.ltb_spec a b) end; lia.
    - reflexivity.
    - lia.
    - repeat (apply Forall_cons; [lia|]). constructor.
    - cbn [fold_left]. unfold lead_mask. cbn [Z.eqb Pos.eqb]. rewrite land_15. lia. }
  destruct (Z.ltb_spec c 2097152).
  { apply (MAIN _ [128 + c / 4096 mod 64; 128 + c / 64 mod 64; 128 + c mod 64] 4 c); [exact R|lia| | | | |discriminate| |reflexivity|lia].
    - rewrite utf8_len by lia. repeat match goal with |- (if ?a <? ?b then _ else _) = _ => destruct (Z.ltb_spec a b) end; lia.
    - reflexivity.
    - lia.
    - repeat (apply Forall_cons; [lia|]). constructor.
    - cbn [fold_left]. unfold lead_mask. cbn [Z.eqb Pos.eqb]. rewrite land_7. lia. }
  destruct (Z.ltb_spec c 67108864).
  { apply (MAIN _ [128 + c / 262144 mod 64; 128 + c / 4096 mod 64; 128 + c / 64 mod 64; 128 + c mod 64] 5 c); [exact R|lia| | | | |discriminate| |reflexivity|lia].
    - rewrite utf8_len by lia. repeat match goal with |- (if ?a <? ?b then _ else _) = _ => destruct (Z.ltb_spec a b) end; lia.
    - reflexivity.
    - lia.
    - repeat (apply Forall_cons; [lia|]). constructor.
    - cbn [fold_left]. unfold lead_mask. cbn [Z.eqb Pos.eqb]. rewrite land_3. lia. }
  { apply (MAIN _ [128 + c / 16777216 mod 64; 128 + c / 262144 mod 64; 128 + c / 4096 mod 64; 128 + c / 64 mod 64; 128 + c mod 64] 6 c); [exact R|lia| | | | |discriminate| |reflexivity|lia].
    - rewrite utf8_len by lia. repeat match goal with |- (if ?a <? ?b then _ else _) = _ => destruct (Z.ltb_spec a b) end; lia.
    - reflexivity.
    - lia.
    - repeat (apply Forall_cons; [lia|]). constructor.
    - cbn [fold_left]. unfold lead_mask. cbn [Z.eqb Pos.eqb]. rewrite land_1. lia. }
Qed.
Lemma read_ascii f c rest : reading f (c :: rest) -> 0 <= c < 128 -> c <> 123 -> c <> 126 -> csv2_read_unicode f = (c, step f rest c).
Proof. intros R H N1 N2. unfold csv2_read_unicode. rewrite (readchar_plain f c rest R N1 N2). replace (c <? 0) with false by lia. replace (127 <? c) with false by lia. reflexivity. Qed.
