(** MaraDNS' decompressor as functions on lists: dns/Decompress.c does the same on its strings. *)
From Verif Require Import CBase Bits ModelDwStr SpecDwStr ProofDwStr SpecNames SpecMessage SpecAcl SpecDeadwoodMsg SpecQuery ModelJsStr SpecJsStr ProofJsStr ProofJsSearch
  ModelQueries SpecQueries ProofQueries ProofQuestion ModelDecomp SpecDecomp ProofJsList.

(** ** Names *)
Fixpoint l_name (n : nat) (m : list Z) (p : Z) (acc : list Z) : option (list Z) :=
  match n with
  | O => None
  | S n =>
      match zget m p with
      | None => None
      | Some c =>
          if (63 <? c) && (c <? 192) then None
          else if 192 <=? c then
            match zget m (p + 1) with
            | None => None
            | Some lo => let t := (c - 192) * 256 + lo in if (p <=? t) || (t <? 12) then None else l_name n m t acc
            end
          else if 0 <? c then
            if (259 <=? zlen acc + (c + 1)) || (zlen m <=? p + (c + 1)) then None
            else l_name n m (p + (c + 1)) (acc ++ zslice m p (c + 1))
          else if 259 <=? zlen acc then None else Some (acc ++ [0])
      end
  end.

Lemma pointer_value c lo : 192 <= c < 256 -> byte lo -> Z.lor (Z.shiftl (Z.land c 63) 8) lo = (c - 192) * 256 + lo.
Proof.
  intros C L. unfold byte in L. change 63 with (Z.ones 6). rewrite Z.land_ones by lia. change (2 ^ 6) with 64. rewrite Z.shiftl_mul_pow2 by lia.
  rewrite lor_add_pow2 by (try lia; change (2 ^ 8) with 256; lia). change (2 ^ 8) with 256. lia.
Qed.

Lemma held_splice cap s l x cnt e : held cap s l -> bytes x -> cnt = zlen l + zlen x -> cnt <= cap -> held cap (mkjs (splice (j_mem s) (zlen l) x) (j_size s) cnt cap e) (l ++ x).
Proof.
  intros (H & <-) B -> C. pose proof (hold_facts s l H) as [W S1 L Ca M N Bm X U O G Sl]. pose proof (zlen_nonneg x). split; [|reflexivity]. split; [|split].
  - apply wf_splice; try assumption; lia.
  - exact S1.
  - unfold octets_of. cbn [j_mem j_size j_count]. rewrite S1, Z.mul_1_l.
    rewrite zslice_split by lia. rewrite Z.add_0_l, zslice_splice_disj by lia. rewrite zslice_splice_same by lia. f_equal. rewrite Sl by lia. apply zslice_all.
Qed.

Lemma label_loop_ok F : forall c m ret acc p limit, holding c m -> held 259 ret acc -> 0 <= p < 2147483648 -> 0 <= limit < 256 -> Z.of_nat F + limit = 256 ->
  agree (held 259) (label_loop F c ret p (zlen acc) limit) (l_name (Z.to_nat (255 - limit)) m p acc).
Proof.
  induction F as [|F IH]; intros c m ret acc p limit HC HR P LI FF; [lia|]. cbn [label_loop]. cbv zeta.
  pose proof (hold_facts c m HC) as [Wc Sc Lc Cc Mc Nc Bc Xc Uc Oc Gc Slc]. pose proof HR as (HR1 & HR2). pose proof (hold_facts ret acc HR1) as [Wr Sr Lr Cr Mr Nr Br Xr Ur Or Gr Slr]. rewrite HR2 in *.
  rewrite (u32_small p) by lia.
  assert (forall X, limit = 255 -> agree (held 259) X (l_name (Z.to_nat (255 - limit)) m p acc) <-> X = Fail) as LAST.
  { intros X ->. cbn [Z.sub Z.to_nat Z.add Z.opp l_name agree]. reflexivity. }
  destruct (j_count c <=? p) eqn:G0.
  { destruct (Z.eq_dec limit 255) as [E|NE]; [apply LAST; [exact E|reflexivity]|]. replace (Z.to_nat (255 - limit)) with (S (Z.to_nat (254 - limit))) by lia. cbn [l_name].
    rewrite (proj2 (zget_none m p)) by lia. reflexivity. }
  destruct (zget_some m p ltac:(lia)) as (b & E). pose proof (zget_bytes _ _ _ Bc E) as Bb. unfold byte in Bb. rewrite (rd_of_zget _ _ b) by (rewrite Gc by lia; exact E). cbn [bind].
  destruct (Z.eq_dec limit 255) as [EL|NE].
  { apply LAST; [exact EL|]. subst limit. change (255 + 1 <? 256) with false. change (256 <=? 255 + 1) with true. destruct ((63 <? b) && (b <? 192)) eqn:G1; [reflexivity|].
    destruct (192 <=? b) eqn:G2.
    - destruct (j_count c <=? u32 (p + 1)) eqn:G3; [reflexivity|]. rewrite u32_small in G3 by lia. destruct (zget_some m (p + 1) ltac:(lia)) as (lo & El). rewrite (rd_of_zget _ _ lo) by (rewrite Gc by lia; exact El). cbn [bind].
      repeat match goal with |- context [if ?b then _ else _] => destruct b end; reflexivity.
    - destruct (0 <? b) eqn:G3.
      + destruct (259 <=? u32 (zlen acc + (b + 1))) eqn:G4; [reflexivity|]. destruct (j_count c <=? u32 (p + (b + 1))) eqn:G5; [reflexivity|]. rewrite u32_small in G4 by lia. rewrite u32_small in G5 by lia.
        rewrite copy_bytes_ok by lia. reflexivity.
      + destruct (259 <=? u32 (zlen acc)); [reflexivity|]. rewrite wr_ok by lia. reflexivity. }
  replace (Z.to_nat (255 - limit)) with (S (Z.to_nat (254 - limit))) by lia. cbn [l_name]. rewrite E. replace (limit + 1 <? 256) with true by lia. replace (256 <=? limit + 1) with false by lia.
  assert (254 - limit = 255 - (limit + 1)) as NL by lia. rewrite NL.
  destruct ((63 <? b) && (b <? 192)) eqn:G1; [apply agree_none|]. destruct (192 <=? b) eqn:G2.
  - rewrite u32_small by lia. destruct (j_count c <=? p + 1) eqn:G3.
    + rewrite (proj2 (zget_none m (p + 1))) by lia. apply agree_none.
    + destruct (zget_some m (p + 1) ltac:(lia)) as (lo & El). pose proof (zget_bytes _ _ _ Bc El) as Bl. rewrite (rd_of_zget _ _ lo) by (rewrite Gc by lia; exact El). cbn [bind]. rewrite El.
      rewrite pointer_value by (try assumption; lia). cbv zeta. destruct (p <=? (b - 192) * 256 + lo) eqn:G4; cbn [orb]; [apply agree_none|]. destruct ((b - 192) * 256 + lo <? 12) eqn:G5; [apply agree_none|].
      apply IH; try assumption; lia.
  - destruct (0 <? b) eqn:G3.
    + rewrite u32_small by lia. destruct (259 <=? zlen acc + (b + 1)) eqn:G4; cbn [orb]; [apply agree_none|].
      rewrite u32_small by lia. destruct (j_count c <=? p + (b + 1)) eqn:G5; [replace (zlen m <=? p + (b + 1)) with true by lia; apply agree_none|]. replace (zlen m <=? p + (b + 1)) with false by lia.
      rewrite copy_bytes_ok by lia. cbn [bind]. rewrite Z2Nat.id by lia.
      rewrite Slc by lia. assert (zlen (zslice m p (b + 1)) = b + 1) as LZ by (apply zlen_zslice; lia).
      replace (zlen acc + (b + 1)) with (zlen (acc ++ zslice m p (b + 1))) by (rewrite zlen_app, LZ; reflexivity).
      apply IH; try assumption; try lia. apply (held_splice 259); try assumption; try lia.
      apply bytes_zslice, Bc.
    + rewrite u32_small by lia. destruct (259 <=? zlen acc) eqn:G4; [apply agree_none|]. rewrite wr_splice by lia. cbn [bind]. apply agree_some.
      apply (held_splice 259); try assumption; try lia; [apply bytesb_spec; reflexivity|change (zlen [0]) with 1; lia].
Qed.
Definition name_text (m : list Z) (p : Z) : option (list Z) := l_name 255 m p [].
Lemma l_name_bytes m x : bytes m -> forall n p acc, bytes acc -> l_name n m p acc = Some x -> bytes x.
Proof.
  intros BM. induction n as [|n IH]; intros p acc BA; cbn [l_name]; [discriminate|]. destruct (zget m p) as [c|]; [|discriminate]. destruct ((63 <? c) && (c <? 192)); [discriminate|]. destruct (192 <=? c).
  - destruct (zget m (p + 1)) as [lo|]; [|discriminate]. cbv zeta. destruct ((p <=? _) || _); [discriminate|]. apply IH, BA.
  - destruct (0 <? c); [destruct ((259 <=? _) || _); [discriminate|]; apply IH; apply bytes_app; split; [exact BA|apply bytes_zslice, BM]|].
    destruct (259 <=? zlen acc); [discriminate|]. intros E. injection E as <-. apply bytes_app. split; [exact BA|apply bytesb_spec; reflexivity].
Qed.
Lemma name_text_bytes m p x : bytes m -> name_text m p = Some x -> bytes x.
Proof. intros B. apply (l_name_bytes m x B 255 p []). constructor. Qed.
Lemma get_label_agree J c m p : junk_ok J -> holding c m -> 0 <= p < 4294967296 -> agree (held 259) (decomp_get_label J c p) (name_text m p).
Proof.
  unfold name_text.
  intros HJ HC P. pose proof (hold_facts c m HC) as [Wc Sc Lc Cc Mc Nc Bc Xc Uc Oc Gc Slc]. unfold decomp_get_label. rewrite Sc. cbn [Z.eqb Pos.eqb negb]. replace (j_max c <? j_count c) with false by lia.
  rewrite u32_small by lia. destruct (j_count c <? p) eqn:G.
  - assert (l_name 255 m p [] = None) as ->; [|apply agree_none].
    assert (forall n, l_name n m p [] = None) as X; [|apply X]. intros [|n]; [reflexivity|]. cbn [l_name]. rewrite (proj2 (zget_none m p)) by lia. reflexivity.
  - destruct (create_held J 259 HJ ltac:(lia) ltac:(lia)) as (ret & -> & HR). cbn [bind]. rewrite i32_small by lia.
    apply (label_loop_ok 256 c m ret [] p 0); try assumption; lia.
Qed.

(** ** The place a name takes *)
Fixpoint l_len (n : nat) (m : list Z) (o len : Z) : Z :=
  match n with
  | O => -1
  | S n =>
      match zget m (o + len) with
      | None => -1
      | Some t =>
          if (len <? 256) && (0 <? t) && negb (t =? 95) then
            if 192 <=? t then if o + (len + 2) <=? zlen m then len + 2 else -1
            else if 63 <? t then -1
            else l_len n m o (len + (t + 1))
          else len + 1
      end
  end.
Lemma dlabel_loop_list F : forall c m o len t, holding c m -> 0 <= o -> 0 <= len -> o + len <= zlen m -> zget (j_mem c) (o + len) = Some t -> 257 - len < 2 * Z.of_nat F -> (0 < F)%nat ->
  dlabel_loop F c o len t = Ok (l_len F m o len).
Proof.
  induction F as [|F IH]; intros c m o len t HC O L C E FF F0; [lia|]. cbn [dlabel_loop l_len]. pose proof (hold_facts c m HC) as [Wc Sc Lc Cc Mc Nc Bc Xc Uc Oc Gc Slc].
  pose proof (zget_bytes _ _ _ (jw_bytes c Wc) E) as Bt. unfold byte in Bt. unfold JS_ERROR.
  assert (o + len < zlen m \/ o + len = zlen m) as [X|X] by lia.
  - rewrite Gc in E by lia. rewrite E. destruct ((len <? 256) && (0 <? t) && negb (t =? 95)) eqn:G.
    + destruct (192 <=? t) eqn:G2; [rewrite <- Lc; replace (len + 2 + o) with (o + (len + 2)) by lia; reflexivity|]. destruct (63 <? t) eqn:G3; [reflexivity|]. cbv zeta.
      destruct (j_count c <? len + (t + 1) + o) eqn:G4.
      * destruct F as [|F]; [reflexivity|]. cbn [l_len]. rewrite (proj2 (zget_none m (o + (len + (t + 1))))) by lia. reflexivity.
      * destruct (zget_some (j_mem c) (o + (len + (t + 1))) ltac:(lia)) as (t' & E'). replace (len + (t + 1) + o) with (o + (len + (t + 1))) by lia. rewrite (rd_of_zget _ _ _ E'). cbn [bind].
        apply IH; try assumption; lia.
    + replace (len + 1 + o <=? j_count c) with true by lia. reflexivity.
  - rewrite (proj2 (zget_none m (o + len))) by lia. destruct ((len <? 256) && (0 <? t) && negb (t =? 95)) eqn:G.
    + destruct (192 <=? t) eqn:G2; [replace (len + 2 + o <=? j_count c) with false by lia; reflexivity|]. destruct (63 <? t) eqn:G3; [reflexivity|]. cbv zeta.
      replace (j_count c <? len + (t + 1) + o) with true by lia. reflexivity.
    + replace (len + 1 + o <=? j_count c) with false by lia. reflexivity.
Qed.
Definition len_at (m : list Z) (o : Z) : Z := l_len 258 m o 0.
Lemma dlabel_length_list c m o : holding c m -> 0 <= o < 4294967296 -> dlabel_length c o = Ok (len_at m o).
Proof.
  unfold len_at.
  intros HC O. pose proof (hold_facts c m HC) as [Wc Sc Lc Cc Mc Nc Bc Xc Uc Oc Gc Slc]. unfold dlabel_length. cbv zeta. rewrite octet_ok by assumption. cbn [negb]. rewrite u32_small by lia.
  destruct (j_count c <? o) eqn:G.
  - assert (l_len 258 m o 0 = -1) as ->; [|reflexivity]. assert (forall n, l_len n m o 0 = -1) as X; [|apply X]. intros [|n]; [reflexivity|]. cbn [l_len]. rewrite (proj2 (zget_none m (o + 0))) by lia. reflexivity.
  - destruct (zget_some (j_mem c) o ltac:(lia)) as (t & E). rewrite (rd_of_zget _ _ _ E). cbn [bind]. apply dlabel_loop_list; try assumption; try lia. rewrite Z.add_0_r. exact E.
Qed.
Lemma l_len_range n : forall m o len, 0 <= o -> 0 <= len -> l_len n m o len = -1 \/ (len + 1 <= l_len n m o len /\ o + l_len n m o len <= zlen m).
Proof.
  induction n as [|n IH]; intros m o len O L; cbn [l_len]; [left; reflexivity|]. destruct (zget m (o + len)) as [t|] eqn:E; [|left; reflexivity]. pose proof (zget_range _ _ _ E).
  destruct ((len <? 256) && (0 <? t) && negb (t =? 95)) eqn:G; [|right; lia]. destruct (192 <=? t) eqn:G2; [destruct (o + (len + 2) <=? zlen m) eqn:G4; [right; lia|left; reflexivity]|]. destruct (63 <? t) eqn:G3; [left; reflexivity|].
  destruct (IH m o (len + (t + 1)) O ltac:(lia)) as [X|X]; [left; exact X|right; lia].
Qed.
Lemma l_len_some m o len : o < zlen m -> len_at m o = len -> 0 <= o -> len <> -1 -> 1 <= len /\ o + len <= zlen m.
Proof. unfold len_at. intros H <- O N. destruct (l_len_range 258 m o 0 O ltac:(lia)) as [X|X]; lia. Qed.

Lemma name_text_def m p : name_text m p = l_name 255 m p []. Proof. reflexivity. Qed.
Lemma len_at_def m p : len_at m p = l_len 258 m p 0. Proof. reflexivity. Qed.
Global Opaque len_at name_text.
(** ** Pieces of messages *)
Definition l_dlabel (cap : Z) (m out : list Z) (p : Z) : option (Z * list Z) :=
  if zlen m <=? p then None
  else obind (name_text m p) (fun x =>
         let len := len_at m p in if len =? -1 then None else obind (l_add cap out x) (fun out => Some (len, out))).
Lemma append_dlabel_agree J cap c m u out p : junk_ok J -> holding c m -> held cap u out -> 0 <= p < 4294967296 ->
  agree (held2 cap) (decomp_append_dlabel J c u p) (l_dlabel cap m out p).
Proof.
  intros HJ HC HU P. pose proof (hold_facts c m HC) as [Wc Sc Lc Cc Mc Nc Bc Xc Uc Oc Gc Slc]. pose proof (hold_facts u out (proj1 HU)) as [Wu Su Lu Cu Mu Nu Bu Xu Uu Ou Gu Slu].
  unfold decomp_append_dlabel, l_dlabel. rewrite Xc, Xu, Sc, Su. cbn [negb Z.eqb Pos.eqb]. rewrite u32_small by lia. rewrite <- Lc. destruct (zlen m <=? p) eqn:G; [apply agree_none|].
  eapply agree_bind; [apply get_label_agree; eassumption|]. intros d x (HD & _) _. rewrite (dlabel_length_list c m p HC P). cbn [bind]. cbv zeta. change JS_ERROR with (-1).
  destruct (len_at m p =? -1); [apply agree_none|].
  pose proof (append_agree cap d x u out HD HU) as A. destruct (js_append d u) as [r| |f]; cbn [bind] in *.
  - eapply agree_bind; [exact A|]. intros a b Hab _. apply agree_some. split; [reflexivity|exact Hab].
  - destruct (l_add cap out x); cbn [agree obind] in *; [destruct A as (a & A & _); discriminate|reflexivity].
  - destruct (l_add cap out x); cbn [agree obind] in *; [destruct A as (a & A & _); discriminate|discriminate].
Qed.
Lemma l_dlabel_some cap m out p len out' : 0 <= p -> l_dlabel cap m out p = Some (len, out') -> exists x, name_text m p = Some x /\ len = len_at m p /\ len <> -1 /\ 1 <= len /\ p + len <= zlen m /\ out' = out ++ x /\ zlen out + zlen x < cap.
Proof.
  intros P. unfold l_dlabel. destruct (zlen m <=? p) eqn:G; [discriminate|]. destruct (name_text m p) as [x|]; [|discriminate]. cbn [obind]. cbv zeta. destruct (len_at m p =? -1) eqn:G2; [discriminate|].
  unfold l_add. destruct (zlen out + zlen x <? cap) eqn:G3; [|discriminate]. cbn [obind]. intros E. injection E as <- <-. destruct (l_len_some m p _ ltac:(lia) eq_refl P ltac:(lia)). exists x. repeat (split; [first [reflexivity | lia]|]). lia.
Qed.
Lemma l_take_some cap m out p n out' : l_take cap m out p n = Some out' -> p < zlen m /\ p + n <= zlen m /\ out' = out ++ zslice m p n /\ zlen out + zlen (zslice m p n) < cap.
Proof. unfold l_take, l_add. destruct ((p <? zlen m) && (p + n <=? zlen m)) eqn:G; [|discriminate]. destruct (_ <? cap) eqn:G2; [|discriminate]. intros E. injection E as <-. repeat (split; [first [reflexivity | lia]|]). lia. Qed.
Lemma agree_get {A B} (R : A -> B -> Prop) r o a : agree R r o -> r = Ok a -> exists b, o = Some b /\ R a b.
Proof. destruct o as [b|]; cbn; [intros (a' & -> & H) E; injection E as ->; exists b; auto|intros -> E; discriminate]. Qed.

(** decomp_get_type_etc *)
Definition l_type (cap : Z) (m out : list Z) (p : Z) : option (Z * list Z) := obind (l_take cap m out p 8) (fun out => Some (number (zslice m p 2), out)).
Lemma type_agree J cap c m u out p : junk_ok J -> holding c m -> held cap u out -> 2 <= zlen m -> 0 <= p <= 4294000000 -> agree (held2 cap) (decomp_get_type_etc J c u p) (l_type cap m out p).
Proof.
  intros HJ HC HU M P. unfold decomp_get_type_etc, l_type. rewrite (readuint16_list c m p HC M) by lia. cbn [bind].
  eapply agree_bind; [apply append_bytes_agree; try eassumption; lia|]. intros a b Hab E. apply l_take_some in E as (E1 & E2 & _). replace (p + 2 <=? zlen m) with true by lia.
  destruct (number_2 m p (fa_bytes _ _ (hold_facts _ _ HC)) ltac:(lia) ltac:(lia)) as (x & y & _ & _ & Bx & By & _ & ->). unfold byte in *. change JS_ERROR with (-1). replace (x * 256 + y =? -1) with false by lia. apply agree_some. split; [reflexivity|exact Hab].
Qed.
Definition l_word (m : list Z) (p : Z) : option Z := if p + 2 <=? zlen m then Some (number (zslice m p 2)) else None.
Lemma rdlength_agree c m p : holding c m -> 2 <= zlen m -> 0 <= p < 4294967296 -> agree eq (decomp_get_rdlength c p) (l_word m p).
Proof.
  intros HC M P. unfold decomp_get_rdlength, l_word. rewrite (readuint16_list c m p HC M) by lia. cbn [bind]. destruct (p + 2 <=? zlen m) eqn:G; [|apply agree_none].
  destruct (number_2 m p (fa_bytes _ _ (hold_facts _ _ HC)) ltac:(lia) ltac:(lia)) as (x & y & _ & _ & Bx & By & _ & ->). unfold byte in *. change JS_ERROR with (-1). replace (x * 256 + y =? -1) with false by lia. apply agree_some. reflexivity.
Qed.
Lemma count_agree c m p max : holding c m -> 0 <= p -> p + 2 <= zlen m -> agree eq (count16 c p max) (if field16 m p <=? max then Some (field16 m p) else None).
Proof.
  intros HC P M. pose proof (hold_facts c m HC) as [Wc Sc Lc Cc Mc Nc Bc Xc Uc Oc Gc Slc]. unfold count16. rewrite (readuint16_list c m p HC) by lia. cbn [bind]. replace (p + 2 <=? zlen m) with true by lia. fold (field16 m p). unfold field16.
  destruct (number_2 m p Bc ltac:(lia) ltac:(lia)) as (x & y & _ & _ & Bx & By & _ & ->). unfold byte in *. replace (x * 256 + y <? 0) with false by lia. cbn [orb].
  destruct (x * 256 + y <=? max) eqn:G; [replace (max <? x * 256 + y) with false by lia; apply agree_some; reflexivity|replace (max <? x * 256 + y) with true by lia; apply agree_none].
Qed.
Lemma field16_range m p : bytes m -> 0 <= p -> p + 2 <= zlen m -> 0 <= field16 m p <= 65535.
Proof. intros B P L. unfold field16. destruct (number_2 m p B P L) as (x & y & _ & _ & Bx & By & _ & ->). unfold byte in *. lia. Qed.

Definition totals (m : list Z) : Z := field16 m 6 + field16 m 8 + field16 m 10.
Definition l_header (cap : Z) (m : list Z) : option (Z * list Z) :=
  if zlen m <? 12 then None
  else if field16 m 4 <=? 1 then
    obind (l_take cap m [] 0 12) (fun out =>
      Some (if (field16 m 4 =? 0) && (1 <=? totals m) then -2 - totals m else if field16 m 4 =? 0 then -2 else totals m, out))
  else None.
Lemma header_agree J cap c m u : junk_ok J -> holding c m -> held cap u [] -> agree (held2 cap) (decomp_get_header J c u) (l_header cap m).
Proof.
  intros HJ HC HU. pose proof (hold_facts c m HC) as [Wc Sc Lc Cc Mc Nc Bc Xc Uc Oc Gc Slc]. pose proof (hold_facts u [] (proj1 HU)) as [Wu Su Lu Cu Mu Nu Bu Xu Uu Ou Gu Slu].
  unfold decomp_get_header, l_header. rewrite Xc, Xu. cbn [negb]. rewrite <- Lc, <- Lu. change (zlen (@nil Z) =? 0) with true. cbn [negb]. destruct (zlen m <? 12) eqn:G; [apply agree_none|].
  assert (forall p, 0 <= p -> p + 2 <= 12 -> count16 c p 65535 = Ok (field16 m p)) as CO.
  { intros p P1 P2. pose proof (count_agree c m p 65535 HC P1 ltac:(lia)) as A. replace (field16 m p <=? 65535) with true in A by (pose proof (field16_range m p Bc P1 ltac:(lia)); lia).
    destruct A as (a & A & ->). exact A. }
  pose proof (count_agree c m 4 1 HC ltac:(lia) ltac:(lia)) as A4. destruct (field16 m 4 <=? 1) eqn:G4; [|rewrite A4; reflexivity]. destruct A4 as (a & -> & ->). cbn [bind].
  rewrite !CO by lia. cbn [bind]. cbv zeta. fold (totals m). eapply agree_bind; [apply append_bytes_agree; try eassumption; lia|]. intros a b Hab _.
  destruct ((field16 m 4 =? 0) && (1 <=? totals m)); [apply agree_some; split; [reflexivity|exact Hab]|]. destruct (field16 m 4 =? 0); apply agree_some; (split; [reflexivity|exact Hab]).
Qed.
