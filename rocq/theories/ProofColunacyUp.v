(** Proofs about replies from upstream in coLunacyDNS. *)
From Verif Require Import CBase SpecNames SpecAcl SpecDwStr ModelDwStr ModelColunacy SpecColunacy.
From Verif Require Import Bits ProofDwStr ProofDwDnsStr ProofColunacy ProofColunacyServe ProofColunacySafe.

Lemma be16 a b : byte a -> byte b -> Z.lor (u16 (Z.shiftl a 8)) b = a * 256 + b.
Proof. unfold byte. intros A B. unfold u16. rewrite Z.mod_small by (rewrite Z.shiftl_mul_pow2 by lia; change (2 ^ 8) with 256; lia). rewrite lor_shiftl8 by lia. lia. Qed.
Lemma byte_hi x : word x -> byte (x / 256). Proof. unfold word, byte. lia. Qed.
Lemma byte_lo x : byte (x mod 256). Proof. unfold byte. lia. Qed.

Lemma char_is_len c t : char_is c t -> 1 <= zlen t.
Proof. intros [(_ & ->)|(_ & ->)]; unfold zlen; cbn [length]; lia. Qed.
Lemma human_len n t : human n t -> zlen (labels n) <= zlen t.
Proof.
  intros (ts & H & ->). induction H as [|l tl n ts (tc & H & ->) Hn IH]; [reflexivity|]. rewrite labels_cons. cbn [concat]. rewrite zlen_cons, !zlen_app. change (zlen [46]) with 1.
  assert (zlen l <= zlen (concat tc)); [|lia]. clear - H. induction H as [|c t l tc Hc H IH]; [reflexivity|]. cbn [concat]. rewrite zlen_cons, zlen_app. apply char_is_len in Hc. lia.
Qed.

Lemma read_n_mid l : forall P R, read_n (P ++ l ++ R) (zlen P) (length l) = Ok l.
Proof.
  induction l as [|c l IH]; intros P R; [reflexivity|]. cbn [length read_n app]. erewrite rd_at; [|reflexivity|reflexivity]. cbn [bind].
  replace (P ++ c :: l ++ R) with ((P ++ [c]) ++ l ++ R) by (rewrite <- app_assoc; reflexivity). replace (zlen P + 1) with (zlen (P ++ [c])) by (rewrite zlen_app; reflexivity). rewrite IH. reflexivity.
Qed.
Lemma read_n_at m P l R i k : m = P ++ l ++ R -> i = zlen P -> k = length l -> read_n m i k = Ok l.
Proof. intros -> -> ->. apply read_n_mid. Qed.

Lemma rr_tail r : rr_ok r -> rr_name r = labels (r_labels r) ++ match r_pointer r with None => [0] | Some (a, b) => [a; b] end /\ name_tail (match r_pointer r with None => [0] | Some (a, b) => [a; b] end).
Proof. intros (_ & _ & H & _). split; [reflexivity|]. unfold name_tail. destruct (r_pointer r) as [(a, b)|]; [right; exists a, b; split; [reflexivity|lia]|left; reflexivity]. Qed.
Lemma zlen_rr r : rr_ok r -> zlen (rr_bytes r) = zlen (rr_name r) + 10 + zlen (r_data r).
Proof. intros (_ & _ & _ & _ & _ & H & _). unfold rr_bytes. rewrite !zlen_app, H. change (zlen (num2 (r_type r))) with 2. change (zlen (num2 (r_class r))) with 2. change (zlen (num2 (zlen (r_data r)))) with 2. lia. Qed.

(** One record. *)
Lemma find_step fuel Jd P r R : rr_ok r -> zlen P < 450 ->
  find_answer (S fuel) Jd (P ++ rr_bytes r ++ R) (zlen P) false =
  (if (r_type r =? 28) && (zlen (r_data r) =? 16) then Ok (mkfound 28 (Some (r_data r)))
   else if (r_type r =? 1) && (zlen (r_data r) =? 4) && negb (number (r_data r) =? 0) then Ok (mkfound (number (r_data r)) None)
   else find_answer fuel Jd (P ++ rr_bytes r ++ R) (zlen P + zlen (rr_bytes r)) false).
Proof.
  intros RO LP. pose proof (rr_tail r RO) as (EN & HT). pose proof (zlen_rr r RO) as LR. pose proof RO as (G & (t & HH & Lt) & _ & W1 & W2 & L4 & B4 & BD & WD). pose proof (zlen_nonneg P). pose proof (zlen_nonneg (rr_name r)).
  remember (find_answer fuel Jd (P ++ rr_bytes r ++ R) (zlen P + zlen (rr_bytes r)) false) as K eqn:EK.
  set (TL := match r_pointer r with None => [0] | Some (a, b) => [a; b] end) in *. clearbody TL.
  cbn [find_answer]. replace (zlen P <? 450) with true by lia. cbn [negb].
  pose proof (human_len _ _ HH). pose proof (zlen_nonneg (labels (r_labels r))).
  set (B := num2 (r_type r) ++ num2 (r_class r) ++ r_ttl r ++ num2 (zlen (r_data r)) ++ r_data r ++ R).
  assert (P ++ rr_bytes r ++ R = P ++ labels (r_labels r) ++ TL ++ B) as E0 by (unfold rr_bytes, B; rewrite EN, <- !app_assoc; reflexivity).
  destruct (human_name (r_labels r) t TL P B (mkjunk Jd 514) (500 - zlen P) G HH HT) as (out' & E1 & _); [lia|rewrite zlen_mkjunk by lia; lia|lia|].
  rewrite <- E0 in E1. rewrite E1. cbn [bind]. assert (zlen (rr_name r) = zlen (labels (r_labels r)) + zlen TL) as LN by (rewrite EN, zlen_app; reflexivity).
  assert (1 <= zlen TL) as LT1 by (destruct HT as [-> |(a & b & -> & _)]; unfold zlen; cbn [length]; lia).
  replace (zlen (labels (r_labels r)) + zlen TL - 1 <? 0) with false by lia.
  destruct (r_ttl r) as [|q0 [|q1 [|q2 [|q3 [|? ?]]]]] eqn:ET; try (exfalso; unfold zlen in L4; cbn [length] in L4; lia).
  set (M := P ++ rr_bytes r ++ R) in *.
  assert (M = (P ++ rr_name r) ++ [r_type r / 256; r_type r mod 256; r_class r / 256; r_class r mod 256; q0; q1; q2; q3; zlen (r_data r) / 256; zlen (r_data r) mod 256] ++ r_data r ++ R) as EM.
  { unfold M, rr_bytes. rewrite ET. unfold num2. rewrite <- !app_assoc. reflexivity. }
  clearbody M. set (X := P ++ rr_name r) in *. assert (zlen X = zlen P + zlen (rr_name r)) as LX by (unfold X; apply zlen_app).
  rewrite (rd_at M X (r_type r / 256) ([r_type r mod 256; r_class r / 256; r_class r mod 256; q0; q1; q2; q3; zlen (r_data r) / 256; zlen (r_data r) mod 256] ++ r_data r ++ R)); [|exact EM|lia]. cbn [bind].
  rewrite (rd_at M (X ++ [r_type r / 256]) (r_type r mod 256) ([r_class r / 256; r_class r mod 256; q0; q1; q2; q3; zlen (r_data r) / 256; zlen (r_data r) mod 256] ++ r_data r ++ R)); [|rewrite <- app_assoc; exact EM|rewrite zlen_app; change (zlen [r_type r / 256]) with 1; lia]. cbn [bind].
  cbv zeta. 
  rewrite (rd_at M (X ++ [r_type r / 256; r_type r mod 256; r_class r / 256; r_class r mod 256; q0; q1; q2; q3]) (zlen (r_data r) / 256) ([zlen (r_data r) mod 256] ++ r_data r ++ R)); [|rewrite <- app_assoc; exact EM|rewrite zlen_app; match goal with |- context [zlen (?a :: ?b)] => change (zlen (a :: b)) with 8 end; lia]. cbn [bind].
  rewrite (rd_at M (X ++ [r_type r / 256; r_type r mod 256; r_class r / 256; r_class r mod 256; q0; q1; q2; q3; zlen (r_data r) / 256]) (zlen (r_data r) mod 256) (r_data r ++ R)); [|rewrite <- app_assoc; exact EM|rewrite zlen_app; match goal with |- context [zlen (?a :: ?b)] => change (zlen (a :: b)) with 9 end; lia]. cbn [bind].
  rewrite !be16 by (apply byte_lo || (apply byte_hi; assumption)).
  replace (r_type r / 256 * 256 + r_type r mod 256) with (r_type r) by lia. replace (zlen (r_data r) / 256 * 256 + zlen (r_data r) mod 256) with (zlen (r_data r)) by lia.
  set (X10 := X ++ [r_type r / 256; r_type r mod 256; r_class r / 256; r_class r mod 256; q0; q1; q2; q3; zlen (r_data r) / 256; zlen (r_data r) mod 256]).
  assert (M = X10 ++ r_data r ++ R) as EM2 by (unfold X10; rewrite <- app_assoc; exact EM).
  assert (zlen P + (zlen (labels (r_labels r)) + zlen TL - 1) + 11 = zlen X10) as L10 by (unfold X10; rewrite zlen_app; match goal with |- context [zlen (?a :: ?b)] => change (zlen (a :: b)) with 10 end; lia).
  replace (zlen P + (zlen (labels (r_labels r)) + zlen TL - 1) + 11 + zlen (r_data r)) with (zlen P + zlen (rr_bytes r)) by lia. rewrite <- EK.
  destruct ((r_type r =? 28) && (zlen (r_data r) =? 16)) eqn:C28.
  - apply andb_true_iff in C28 as (C1 & C2). replace (r_type r =? 1) with false by lia. cbn [andb bind]. rewrite (read_n_at M X10 (r_data r) R) by (assumption || (unfold zlen in C2; lia)). reflexivity.
  - destruct ((r_type r =? 1) && (zlen (r_data r) =? 4)) eqn:C1.
    + apply andb_true_iff in C1 as (C1 & C2). rewrite (read_n_at M X10 (r_data r) R) by (assumption || (unfold zlen in C2; lia)). cbn [bind andb]. fold (number (r_data r)). reflexivity.
    + cbn [bind andb]. reflexivity.
Qed.

Lemma address_test r f : address r f -> forall K : res found,
  (if (r_type r =? 28) && (zlen (r_data r) =? 16) then Ok (mkfound 28 (Some (r_data r)))
   else if (r_type r =? 1) && (zlen (r_data r) =? 4) && negb (number (r_data r) =? 0) then Ok (mkfound (number (r_data r)) None) else K) = Ok f.
Proof.
  intros [(A & B & C & ->)|(A & B & ->)] K; rewrite A, B.
  - change (1 =? 28) with false. change (1 =? 1) with true. change (4 =? 4) with true. cbn [andb]. replace (number (r_data r) =? 0) with false by lia. reflexivity.
  - reflexivity.
Qed.
Lemma no_address_test r : (forall f, ~ address r f) -> forall K : res found,
  (if (r_type r =? 28) && (zlen (r_data r) =? 16) then Ok (mkfound 28 (Some (r_data r)))
   else if (r_type r =? 1) && (zlen (r_data r) =? 4) && negb (number (r_data r) =? 0) then Ok (mkfound (number (r_data r)) None) else K) = K.
Proof.
  intros N K. destruct ((r_type r =? 28) && (zlen (r_data r) =? 16)) eqn:E1.
  - apply andb_true_iff in E1 as (A & B). exfalso. apply (N (mkfound 28 (Some (r_data r)))). right. repeat split; lia.
  - destruct ((r_type r =? 1) && (zlen (r_data r) =? 4) && negb (number (r_data r) =? 0)) eqn:E2; [|reflexivity]. apply andb_true_iff in E2 as (E2 & C). apply andb_true_iff in E2 as (A & B). exfalso. apply (N (mkfound (number (r_data r)) None)). left. split; [lia|]. split; [lia|]. split; [|reflexivity]. destruct (Z.eqb_spec (number (r_data r)) 0); [discriminate C|assumption].
Qed.

Lemma find_first : forall pre fuel Jd P r f R, Forall rr_ok pre -> rr_ok r -> Forall (fun q => forall g, ~ address q g) pre -> address r f ->
  zlen P + zlen (concat (map rr_bytes pre)) < 450 -> (length pre < fuel)%nat ->
  find_answer fuel Jd (P ++ concat (map rr_bytes pre) ++ rr_bytes r ++ R) (zlen P) false = Ok f.
Proof.
  induction pre as [|q pre IH]; intros fuel Jd P r f R RO1 RO2 N A L F; (destruct fuel as [|fuel]; [cbn [length] in F; lia|]).
  - cbn [map concat app]. change (zlen (concat (map rr_bytes []))) with 0 in L. rewrite find_step by (assumption || lia). apply address_test. exact A.
  - inversion RO1; subst. inversion N; subst. cbn [map concat]. cbn [map concat] in L. rewrite zlen_app in L. pose proof (zlen_nonneg (rr_bytes q)). pose proof (zlen_nonneg (concat (map rr_bytes pre))). rewrite <- app_assoc.
    rewrite find_step by (assumption || lia). rewrite no_address_test by assumption.
    rewrite app_assoc, <- zlen_app. apply IH; try assumption; [rewrite zlen_app; lia|cbn [length] in F; lia].
Qed.

Lemma find_question fuel Jd P n t ty cl R : good_name n -> human n t -> zlen t <= 480 -> word ty -> zlen P = 12 ->
  find_answer (S fuel) Jd (P ++ question n ty cl ++ R) 12 true = find_answer fuel Jd (P ++ question n ty cl ++ R) (12 + zlen (question n ty cl)) false.
Proof.
  intros G HH Lt W LP. remember (find_answer fuel Jd (P ++ question n ty cl ++ R) (12 + zlen (question n ty cl)) false) as K eqn:EK. cbn [find_answer]. change (12 <? 450) with true. cbn [negb].
  pose proof (human_len _ _ HH). pose proof (zlen_nonneg (labels n)).
  assert (P ++ question n ty cl ++ R = P ++ labels n ++ [0] ++ num2 ty ++ num2 cl ++ R) as E0 by (unfold question; rewrite wire_labels0, <- !app_assoc; reflexivity).
  destruct (human_name n t [0] P (num2 ty ++ num2 cl ++ R) (mkjunk Jd 514) (500 - 12) G HH (or_introl eq_refl)) as (out' & E1 & _); [lia|rewrite zlen_mkjunk by lia; lia|lia|].
  rewrite <- E0, LP in E1. rewrite E1. cbn [bind]. change (zlen [0]) with 1. replace (zlen (labels n) + 1 - 1 <? 0) with false by lia.
  rewrite (rd_at _ (P ++ labels n ++ [0]) (ty / 256) ([ty mod 256] ++ num2 cl ++ R)); [|rewrite E0; unfold num2 at 1; rewrite <- !app_assoc; reflexivity|rewrite !zlen_app; change (zlen [0]) with 1; lia]. cbn [bind].
  rewrite (rd_at _ (P ++ labels n ++ [0] ++ [ty / 256]) (ty mod 256) (num2 cl ++ R)); [|rewrite E0; unfold num2 at 1; rewrite <- !app_assoc; reflexivity|rewrite !zlen_app; change (zlen [0]) with 1; change (zlen [ty / 256]) with 1; lia]. cbn [bind].
  cbv zeta. replace (12 + (zlen (labels n) + 1 - 1) + 5) with (12 + zlen (question n ty cl)) by (rewrite zlen_q; lia). symmetry. exact EK.
Qed.

Lemma i8_small c : 0 <= c < 128 -> i8 c = c.
Proof. intros H. unfold i8. rewrite Z.mod_small by lia. cbv zeta. replace (c <? 128) with true by lia. reflexivity. Qed.
Lemma i8_eq x c : 0 <= x < 256 -> 0 <= c < 256 -> x = i8 c -> x = c.
Proof. intros Hx Hc. unfold i8. rewrite Z.mod_small by lia. cbv zeta. destruct (c <? 128) eqn:E; lia. Qed.
Lemma name_matches_ok signed name : bytes name -> (signed = true -> Forall (fun c => c < 128) name) -> forall P R, name_matches signed (P ++ name ++ R) (zlen P) name = Ok true.
Proof.
  intros B S0. induction name as [|c name IH]; intros P R; [reflexivity|]. inversion B as [|? ? Bc B']; subst. cbn [name_matches app]. erewrite rd_at; [|reflexivity|reflexivity]. cbn [bind].
  replace (c =? (if signed then i8 c else c)) with true.
  - replace (P ++ c :: name ++ R) with ((P ++ [c]) ++ name ++ R) by (rewrite <- app_assoc; reflexivity). replace (zlen P + 1) with (zlen (P ++ [c])) by (rewrite zlen_app; reflexivity). apply IH; [exact B'|]. intros s. specialize (S0 s). inversion S0; subst. assumption.
  - destruct signed; [|lia]. specialize (S0 eq_refl). inversion S0; subst. unfold byte in Bc. rewrite i8_small by lia. lia.
Qed.
Lemma name_matches_inv signed : forall name m i, bytes name -> bytes m -> 0 <= i -> name_matches signed m i name = Ok true -> zslice m i (zlen name) = name.
Proof.
  induction name as [|c name IH]; intros m i B BM Hi H; [apply zslice_nil|]. inversion B as [|? ? Bc B']; subst. cbn [name_matches] in H.
  destruct (rd m i) as [x| |] eqn:E; cbn [bind] in H; [|discriminate H|discriminate H]. destruct (x =? (if signed then i8 c else c)) eqn:E2; [|discriminate H].
  apply rd_Ok_inv in E. pose proof (zget_bytes _ _ _ BM E) as Bx. pose proof (zget_range _ _ _ E) as Rx. assert (x = c) as -> by (unfold byte in *; destruct signed; [apply i8_eq; lia|lia]).
  specialize (IH m (i + 1) B' BM ltac:(lia) H). rewrite zlen_cons. pose proof (zlen_nonneg name).
  assert (i + 1 + zlen name <= zlen m) as LL.
  { destruct name as [|c2 name2]; [change (zlen (@nil Z)) with 0; lia|]. assert (zlen (zslice m (i + 1) (zlen (c2 :: name2))) = zlen (c2 :: name2)) as LS by (rewrite IH; reflexivity).
    unfold zslice in LS. unfold zlen in *. rewrite firstn_length, skipn_length in LS. cbn [length] in *. lia. }
  replace (zlen name + 1) with (1 + zlen name) by lia. rewrite (zslice_split m i 1 (zlen name)) by lia. rewrite IH. rewrite (zslice_one m i c) by exact E. reflexivity.
Qed.
