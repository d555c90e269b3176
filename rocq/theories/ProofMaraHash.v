(** Proofs about the model of MaraHash.c: the invariant of the table. *)
From Coq Require Import Permutation.
From Verif Require Import CBase Bits ModelDwStr SpecDwStr ProofDwStr ModelJsStr SpecJsStr ProofJsStr ProofJsSearch ModelMaraHash SpecMaraHash.

Lemma mask_ok b : 1 <= b <= 30 -> rd mhash_mask b = Ok (2 ^ b - 1).
Proof.
  intros H. assert (forallb (fun i => match rd mhash_mask i with Ok m => m =? 2 ^ i - 1 | _ => false end) (map Z.of_nat (seq 1 30)) = true) as F by (vm_compute; reflexivity).
  rewrite forallb_forall in F. specialize (F b). assert (In b (map Z.of_nat (seq 1 30))) as I by (apply in_map_iff; exists (Z.to_nat b); split; [lia|apply in_seq; lia]).
  specialize (F I). destruct (rd mhash_mask b); try discriminate. f_equal. lia.
Qed.

Lemma kid_eqb_spec a b : kid_eqb a b = true <-> a = b.
Proof.
  destruct a as [a x], b as [b y]. unfold kid_eqb. cbn [fst snd]. rewrite andb_true_iff, Z.eqb_eq, zlist_eqb_spec. split; [intros (-> & ->); reflexivity|intros E; injection E as -> ->; tauto].
Qed.
Lemma kid_eqb_refl a : kid_eqb a a = true. Proof. apply kid_eqb_spec. reflexivity. Qed.
Lemma kid_eqb_neq a b : kid_eqb a b = false <-> a <> b.
Proof. split; [intros E F; apply kid_eqb_spec in F; congruence|]. intros N. destruct (kid_eqb a b) eqn:E; [|reflexivity]. apply kid_eqb_spec in E. contradiction. Qed.

(** ** The hash function *)
Fixpoint hloop (l : list Z) (ret shift add bits : Z) : Z :=
  match l with
  | [] => ret
  | x :: l => hloop l (u32 (u32 (u32 (ret + x * 2 ^ shift) + add) * 45737)) (Z.rem (shift + 7) bits) add bits
  end.
Definition bucket (add bits : Z) (l : list Z) : Z :=
  let ret := hloop l 0 0 add bits in
  let ret := Z.land (Z.lxor ret (Z.shiftr ret 7)) (2 ^ bits - 1) in if ret =? 0 then 1 else ret.

Lemma js_hash_loop_ok add bits l : forall i mem ret shift, 1 <= bits <= 24 -> 0 <= shift < bits -> 0 <= i -> bytes l -> zslice mem i (zlen l) = l -> i + zlen l <= zlen mem ->
  js_hash_loop (length l) i mem ret shift add bits = Ok (hloop l ret shift add bits).
Proof.
  induction l as [|x l IH]; intros i mem ret shift B S I BY E L; [reflexivity|]. rewrite zlen_cons in *. pose proof (zlen_nonneg l).
  apply Forall_cons_iff in BY as (Bx & BY). cbn [length js_hash_loop hloop].
  assert (zget mem i = Some x) as G. { rewrite <- (Z.add_0_r i). rewrite <- (zget_zslice mem i (zlen l + 1) 0) by lia. rewrite E. apply zget_cons_0. }
  rewrite (rd_of_zget _ _ _ G). cbn [bind].
  assert (2 ^ shift <= 2 ^ 23) by (apply Z.pow_le_mono_r; lia). assert (0 < 2 ^ shift) by (apply Z.pow_pos_nonneg; lia). change (2 ^ 23) with 8388608 in *.
  assert (x * 2 ^ shift < 2147483648) by (unfold byte in Bx; nia). replace (2147483648 <=? x * 2 ^ shift) with false by lia. replace (bits =? 0) with false by lia.
  apply IH; try assumption; [rewrite Z.rem_mod_nonneg by lia; apply Z.mod_pos_bound; lia|lia| |lia].
  - apply (f_equal (fun z => zslice z 1 (zlen l))) in E. rewrite zslice_zslice in E by lia. rewrite E. change (x :: l) with ([x] ++ l). rewrite zslice_app_r by (change (zlen [x]) with 1; lia).
    change (1 - zlen [x]) with 0. apply zslice_all.
Qed.

Lemma bucket_range add bits l : 1 <= bits <= 24 -> 1 <= bucket add bits l < 2 ^ bits.
Proof.
  intros B. unfold bucket. assert (2 <= 2 ^ bits) by (change 2 with (2 ^ 1) at 1; apply Z.pow_le_mono_r; lia).
  set (z := Z.lxor _ _). replace (2 ^ bits - 1) with (Z.ones bits) by (rewrite Z.ones_equiv; lia). rewrite Z.land_ones by lia. pose proof (Z.mod_pos_bound z (2 ^ bits) ltac:(lia)).
  destruct (z mod 2 ^ bits =? 0) eqn:E; lia.
Qed.

Lemma mhash_js_ok add bits k : 1 <= bits <= 24 -> j_wf k -> usable_key k = true -> mhash_js add k bits = Ok (bucket add bits (octets_of k)).
Proof.
  intros B W U. unfold mhash_js. rewrite sane_usable by exact W. fold (usable_key k). rewrite U. cbn [negb]. pose proof (j_bound k W) as BK.
  unfold js_octets. replace (j_max k * j_size k <? j_count k * j_size k) with false by nia.
  assert (zlen (octets_of k) = j_count k * j_size k) as L by (rewrite zlen_octets by exact W; lia).
  rewrite <- L. unfold zlen at 1. rewrite Nat2Z.id. rewrite js_hash_loop_ok; try lia.
  - cbn [bind]. rewrite mask_ok by lia. cbn [bind]. reflexivity.
  - apply bytes_octets, W.
  - rewrite L. unfold octets_of. f_equal. lia.
Qed.
Lemma mhash_js_insane add bits k : j_wf k -> usable_key k = false -> mhash_js add k bits = Ok 0.
Proof. intros W U. unfold mhash_js. rewrite sane_usable by exact W. fold (usable_key k). rewrite U. reflexivity. Qed.

Lemma same_kid a b : j_wf a -> j_wf b -> usable_key a = true -> usable_key b = true -> js_issame a b = Ok (if kid_eqb (kid_of a) (kid_of b) then 1 else 0).
Proof.
  intros Wa Wb Ua Ub. rewrite js_issame_ok by assumption. unfold s_issame. fold (usable_key a). fold (usable_key b). rewrite Ua, Ub. reflexivity.
Qed.

(** ** Copies *)
Lemma copy_into k b : j_wf k -> j_wf b -> usable_key k = true -> usable_key b = true -> j_size k = j_size b -> j_count k < j_max b ->
  exists b', js_copy k b = Ok (1, b') /\ j_wf b' /\ usable_key b' = true /\ kid_of b' = kid_of k /\ j_max b' = j_max b /\ j_count b' = j_count k /\ value_of b' = mkstr (j_size k) (j_max b) (j_enc k) (octets_of k).
Proof.
  intros Wk Wb Uk Ub ES EC. destruct (js_copy_ok k b Wk Wb) as (b' & E & W' & V). unfold s_copy in E, V. fold (usable_key k) in E, V. fold (usable_key b) in E, V. rewrite Uk, Ub in E, V. cbn [andb] in E, V.
  rewrite !unit_value, cap_value, s_len_value in E, V by assumption. replace (j_size k =? j_size b) with true in E, V by lia. replace (j_count k <? j_max b) with true in E, V by lia. cbn [andb fst snd] in E, V.
  rewrite enc_value, oct_value in V. exists b'. split; [exact E|]. split; [exact W'|].
  assert (j_size b' = j_size k) as S' by (apply (f_equal s_unit) in V; cbn [s_unit] in V; rewrite unit_value in V; lia).
  assert (octets_of b' = octets_of k) as O' by (apply (f_equal s_oct) in V; exact V).
  split; [|split; [|split; [|split]]].
  - unfold usable_key in *. rewrite V. unfold usable in *. cbn [s_enc s_unit]. rewrite enc_value, unit_value in Uk. rewrite <- ES. exact Uk.
  - unfold kid_of. rewrite S', O'. reflexivity.
  - apply (f_equal s_cap) in V. exact V.
  - pose proof (zlen_octets b' W') as L1. pose proof (zlen_octets k Wk) as L2. rewrite O', L2, S' in L1. pose proof (j_bound k Wk). nia.
  - rewrite V, ES. reflexivity.
Qed.

Lemma copy_new J k : junk_ok J -> str_ok k -> usable_key k = true ->
  exists n n', js_create J (j_count k + 1) (j_size k) = Some n /\ js_copy k n = Ok (1, n') /\ str_ok n' /\ usable_key n' = true /\ kid_of n' = kid_of k /\
    value_of n' = mkstr (j_size k) (j_count k + 1) (j_enc k) (octets_of k).
Proof.
  intros HJ (W & L) U. pose proof (j_bound k W). destruct (js_create_ok J (j_count k + 1) (j_size k) HJ) as (n & E & Wn & Vn & Cn); try lia.
  assert (j_size n = j_size k) by (apply (f_equal s_unit) in Vn; exact Vn). assert (j_max n = j_count k + 1) as M by (apply (f_equal s_cap) in Vn; exact Vn).
  destruct (copy_into k n) as (n' & E' & W' & U' & K' & M' & C' & V'); try assumption; try lia.
  { unfold usable_key. rewrite Vn. reflexivity. }
  exists n, n'. split; [exact E|]. split; [exact E'|]. split; [split; [exact W'|]|]. { apply (f_equal fst) in K'. cbn in K'. rewrite C', K'. exact L. }
  split; [exact U'|]. split; [exact K'|]. rewrite V', M. reflexivity.
Qed.

Section Table.
Context {V : Type}.
Notation spot := (spot V).
Notation mhash := (mhash V).
Variable add : Z.

Definition pkid (p : spot) : kid := kid_of (sp_key p).
Definition ent (p : spot) : kid * (V * Z) := (pkid p, (sp_value p, sp_type p)).
Definition ents (h : mhash) : list (kid * (V * Z)) := map ent (concat (h_table h)).
Definition good (p : spot) : Prop := str_ok (sp_key p) /\ usable_key (sp_key p) = true.

(** ** Chains *)
Lemma chain_find_ok key l : j_wf key -> usable_key key = true -> Forall good l -> chain_find key l = Ok (find (fun p => kid_eqb (kid_of key) (pkid p)) l).
Proof.
  intros W U. induction l as [|p l IH]; intros G; [reflexivity|]. apply Forall_cons_iff in G as (((Wp & _) & Up) & G). cbn [chain_find find]. rewrite same_kid by assumption. cbn [bind]. fold (pkid p).
  destruct (kid_eqb (kid_of key) (pkid p)); [reflexivity|]. cbn [Z.eqb]. exact (IH G).
Qed.
Lemma chain_put_ok l p : good p -> Forall good l -> chain_put l p = Ok (if existsb (fun q => kid_eqb (pkid q) (pkid p)) l then None else Some (l ++ [p])).
Proof.
  intros ((W & _) & U). induction l as [|q l IH]; intros G; [reflexivity|]. apply Forall_cons_iff in G as (((Wq & _) & Uq) & G). cbn [chain_put existsb]. rewrite same_kid by assumption. cbn [bind]. fold (pkid q) (pkid p).
  destruct (kid_eqb (pkid q) (pkid p)); cbn [orb]; [reflexivity|]. cbn [Z.eqb negb]. rewrite (IH G). cbn [bind]. destruct (existsb _ l); reflexivity.
Qed.
Lemma chain_undef_ok key l : j_wf key -> usable_key key = true -> Forall good l ->
  (chain_undef key l = Ok None /\ ~ In (kid_of key) (map pkid l)) \/ exists a p b, l = a ++ p :: b /\ pkid p = kid_of key /\ chain_undef key l = Ok (Some (p, a ++ b)).
Proof.
  intros W U. induction l as [|p l IH]; intros G; [left; split; [reflexivity|intros []]|]. apply Forall_cons_iff in G as (((Wp & _) & Up) & G). cbn [chain_undef]. rewrite same_kid by assumption. cbn [bind]. fold (pkid p).
  destruct (kid_eqb (kid_of key) (pkid p)) eqn:E.
  - right. exists [], p, l. apply kid_eqb_spec in E. split; [reflexivity|]. split; [symmetry; exact E|reflexivity].
  - cbn [Z.eqb]. apply kid_eqb_neq in E. destruct (IH G) as [(-> & N)|(a & q & b & -> & K & ->)]; cbn [bind].
    + left. split; [reflexivity|]. intros [I|I]; [congruence|contradiction].
    + right. exists (p :: a), q, b. split; [reflexivity|]. split; [exact K|reflexivity].
Qed.
Lemma chain_next_ok key l : j_wf key -> usable_key key = true -> Forall good l -> forall a p b, l = a ++ p :: b -> pkid p = kid_of key -> ~ In (kid_of key) (map pkid a) ->
  chain_next key l = Ok (Some (hd_error b)).
Proof.
  intros W U G a. revert l G. induction a as [|q a IH]; intros l G p b -> K N; cbn [app] in *; apply Forall_cons_iff in G as (((Wq & _) & Uq) & G); cbn [chain_next]; rewrite same_kid by assumption; cbn [bind].
  - fold (pkid p). rewrite K, kid_eqb_refl. destruct b; reflexivity.
  - fold (pkid q). replace (kid_eqb (kid_of key) (pkid q)) with false by (symmetry; apply kid_eqb_neq; intros E; apply N; left; congruence). cbn [Z.eqb].
    apply (IH _ G p b eq_refl K). intros I. apply N. right. exact I.
Qed.

(** ** Tables *)
Lemma chain_at_ok (t : list (list spot)) i : 0 <= i < zlen t -> exists c, chain_at t i = Ok c /\ nth_error t (Z.to_nat i) = Some c.
Proof.
  intros H. unfold chain_at. replace (i <? 0) with false by lia. destruct (nth_error t (Z.to_nat i)) as [c|] eqn:E; [exists c; tauto|]. apply nth_error_None in E. unfold zlen in H. lia.
Qed.
Lemma set_nat_split (t : list (list spot)) i c d : nth_error t i = Some c -> set_nat t i d = firstn i t ++ d :: skipn (S i) t /\ t = firstn i t ++ c :: skipn (S i) t.
Proof.
  revert i. induction t as [|x t IH]; intros [|i] E; cbn in E; try discriminate.
  - injection E as ->. split; reflexivity.
  - destruct (IH i E) as (E1 & E2). cbn [set_nat firstn skipn app]. split; f_equal; [exact E1|exact E2].
Qed.
Lemma nth_set_nat (t : list (list spot)) i j d : nth_error (set_nat t i d) j = if (i =? j)%nat then (if (j <? length t)%nat then Some d else None) else nth_error t j.
Proof.
  revert i j. induction t as [|x t IH]; intros i j; [destruct j; cbn; destruct (i =? _)%nat; try reflexivity; destruct i; reflexivity|].
  destruct i, j; try reflexivity. cbn [set_nat nth_error length]. rewrite IH. reflexivity.
Qed.
Lemma zlen_set_nat (t : list (list spot)) i d : zlen (set_nat t i d) = zlen t.
Proof. unfold zlen. f_equal. revert i. induction t as [|x t IH]; intros [|i]; cbn; try reflexivity. f_equal. apply IH. Qed.

Record hwf (h : mhash) : Prop := {
  w_bits : 1 <= h_bits h <= 24;
  w_len : zlen (h_table h) = 2 ^ h_bits h;
  w_in : forall i c p, nth_error (h_table h) i = Some c -> In p c -> good p /\ bucket add (h_bits h) (snd (pkid p)) = Z.of_nat i;
  w_dup : NoDup (map pkid (concat (h_table h))) }.

Lemma chain_good h i c : hwf h -> nth_error (h_table h) i = Some c -> Forall good c.
Proof. intros W E. apply Forall_forall. intros p I. apply (w_in h W i c p E I). Qed.
Lemma ents_keys h : map fst (ents h) = map pkid (concat (h_table h)).
Proof. unfold ents. rewrite map_map. reflexivity. Qed.

(** The chain an element is in. *)
Lemma own_chain h p : hwf h -> In p (concat (h_table h)) -> exists c, nth_error (h_table h) (Z.to_nat (bucket add (h_bits h) (snd (pkid p)))) = Some c /\ In p c.
Proof.
  intros W I. apply in_concat in I as (c & I & J). apply In_nth_error in I as (i & I). exists c. destruct (w_in h W i c p I J) as (_ & ->). rewrite Nat2Z.id. split; assumption.
Qed.
Lemma key_chain h key : hwf h -> j_wf key -> usable_key key = true ->
  exists c, mhash_js add key (h_bits h) = Ok (bucket add (h_bits h) (snd (kid_of key))) /\ chain_at (h_table h) (bucket add (h_bits h) (snd (kid_of key))) = Ok c /\
    nth_error (h_table h) (Z.to_nat (bucket add (h_bits h) (snd (kid_of key)))) = Some c /\ Forall good c /\
    (forall p, In p (concat (h_table h)) -> pkid p = kid_of key -> In p c) /\ (forall p, In p c -> In p (concat (h_table h))) /\ bucket add (h_bits h) (snd (kid_of key)) <> 0.
Proof.
  intros W K U. pose proof (w_bits h W) as B. rewrite mhash_js_ok by assumption. cbn [kid_of snd]. pose proof (bucket_range add (h_bits h) (octets_of key) B) as R.
  destruct (chain_at_ok (h_table h) (bucket add (h_bits h) (octets_of key))) as (c & E & N). { rewrite (w_len h W). lia. }
  exists c. split; [reflexivity|]. split; [exact E|]. split; [exact N|]. split; [exact (chain_good h _ c W N)|]. split; [|split].
  - intros p I EK. destruct (own_chain h p W I) as (d & D & ID). rewrite EK in D. cbn [kid_of snd] in D. congruence.
  - intros p I. apply in_concat. exists c. split; [exact (nth_error_In _ _ N)|exact I].
  - lia.
Qed.

(** ** Putting *)
Lemma mhash_put_ok J h key v dt : junk_ok J -> hwf h -> str_ok key -> usable_key key = true ->
  (In (kid_of key) (map fst (ents h)) /\ mhash_put J add h key v dt = Ok (-1, h)) \/
  (~ In (kid_of key) (map fst (ents h)) /\ exists h', mhash_put J add h key v dt = Ok (1, h') /\ hwf h' /\ Permutation (ents h') ((kid_of key, (v, dt)) :: ents h) /\ h_bits h' = h_bits h /\ h_spots h' = u32 (h_spots h + 1)).
Proof.
  intros HJ W (WK & LK) U. destruct (key_chain h key W WK U) as (c & E1 & E2 & N & G & IN1 & IN2 & NZ). rewrite ents_keys.
  destruct (copy_new J key HJ (conj WK LK) U) as (n & k & C1 & C2 & SK & UK & KK & _). set (new := mkspot k v dt) in *. assert (good new) as GN by (split; assumption). assert (pkid new = kid_of key) as KN by exact KK.
  assert (mhash_put J add h key v dt = Ok (if existsb (fun q => kid_eqb (pkid q) (pkid new)) c then (-1, h) else (1, mkmhash (h_bits h) (set_chain (h_table h) (bucket add (h_bits h) (snd (kid_of key))) (c ++ [new])) (u32 (h_spots h + 1))))) as E.
  { unfold mhash_put. rewrite sane_usable by exact WK. fold (usable_key key). rewrite U. cbn [negb]. rewrite E1. cbn [bind]. replace (bucket add (h_bits h) (snd (kid_of key)) =? 0) with false by lia.
    rewrite C1, C2. cbn [bind]. change (1 =? JS_ERROR) with false. rewrite E2. cbn [bind]. fold new. rewrite chain_put_ok by assumption. cbn [bind]. destruct (existsb _ c); reflexivity. }
  rewrite E. destruct (existsb (fun q => kid_eqb (pkid q) (pkid new)) c) eqn:X.
  - left. split; [|reflexivity]. apply existsb_exists in X as (q & IQ & KQ). apply kid_eqb_spec in KQ. apply in_map_iff. exists q. split; [congruence|exact (IN2 q IQ)].
  - right. assert (~ In (kid_of key) (map pkid (concat (h_table h)))) as NI.
    { intros I. apply in_map_iff in I as (q & KQ & IQ). enough (existsb (fun q => kid_eqb (pkid q) (pkid new)) c = true) by congruence. apply existsb_exists. exists q. split; [exact (IN1 q IQ KQ)|apply kid_eqb_spec; congruence]. }
    split; [exact NI|]. eexists. split; [reflexivity|]. set (i := Z.to_nat (bucket add (h_bits h) (snd (kid_of key)))) in *. unfold set_chain. fold i.
    destruct (set_nat_split (h_table h) i c (c ++ [new]) N) as (S1 & S2).
    assert (Permutation (concat (set_nat (h_table h) i (c ++ [new]))) (new :: concat (h_table h))) as P.
    { rewrite S1. rewrite S2 at 3. rewrite !concat_app. cbn [concat]. rewrite <- !app_assoc. cbn [app]. rewrite !app_assoc. symmetry. apply Permutation_middle. }
    split; [|split; [|split; reflexivity]].
    + constructor; cbn [h_bits h_table].
      * apply W.
      * rewrite zlen_set_nat. apply W.
      * intros j d p Ej Ip. rewrite nth_set_nat in Ej. destruct (Nat.eqb_spec i j) as [<-|]; [|exact (w_in h W j d p Ej Ip)]. destruct (i <? length (h_table h))%nat; [|discriminate]. injection Ej as <-.
        apply in_app_iff in Ip as [Ip|[<-|[]]]; [exact (w_in h W i c p N Ip)|]. split; [exact GN|]. rewrite KN. subst i. rewrite Z2Nat.id; [reflexivity|]. pose proof (bucket_range add (h_bits h) (snd (kid_of key)) (w_bits h W)). lia.
      * eapply Permutation_NoDup; [apply Permutation_map; symmetry; exact P|]. cbn [map]. constructor; [rewrite KN; exact NI|apply W].
    + unfold ents. cbn [h_table]. transitivity (map ent (new :: concat (h_table h))); [apply Permutation_map; exact P|]. cbn [map]. unfold ent at 1. rewrite KN. reflexivity.
Qed.
Lemma mhash_put_insane J (h : mhash) key v dt : j_wf key -> usable_key key = false -> mhash_put J add h key v dt = Ok (-1, h).
Proof. intros W U. unfold mhash_put. rewrite sane_usable by exact W. fold (usable_key key). rewrite U. reflexivity. Qed.

(** ** Looking up *)
Lemma find_spot h key : hwf h -> j_wf key -> usable_key key = true ->
  exists i c, mhash_js add key (h_bits h) = Ok i /\ chain_at (h_table h) i = Ok c /\
  ((chain_find key c = Ok None /\ ~ In (kid_of key) (map fst (ents h))) \/ exists p, chain_find key c = Ok (Some p) /\ pkid p = kid_of key /\ In p (concat (h_table h))).
Proof.
  intros W K U. destruct (key_chain h key W K U) as (c & E1 & E2 & N & G & IN1 & IN2 & NZ). exists (bucket add (h_bits h) (snd (kid_of key))), c. split; [exact E1|]. split; [exact E2|].
  rewrite chain_find_ok by assumption. destruct (find (fun p => kid_eqb (kid_of key) (pkid p)) c) as [p|] eqn:F.
  - right. apply find_some in F as (I & EK). apply kid_eqb_spec in EK. exists p. split; [reflexivity|]. split; [symmetry; exact EK|exact (IN2 p I)].
  - left. split; [reflexivity|]. rewrite ents_keys. intros I. apply in_map_iff in I as (q & KQ & IQ). pose proof (find_none _ _ F q (IN1 q IQ KQ)) as X. cbn in X. rewrite KQ, kid_eqb_refl in X. discriminate.
Qed.

(** ** Removing *)
Lemma mhash_undef_ok h key : hwf h -> j_wf key -> usable_key key = true ->
  (~ In (kid_of key) (map fst (ents h)) /\ mhash_undef add h key = Ok (None, h)) \/
  exists v dt h', mhash_undef add h key = Ok (Some v, h') /\ hwf h' /\ Permutation (ents h) ((kid_of key, (v, dt)) :: ents h') /\ h_bits h' = h_bits h /\ h_spots h' = u32 (h_spots h - 1).
Proof.
  intros W K U. destruct (key_chain h key W K U) as (c & E1 & E2 & N & G & IN1 & IN2 & NZ). unfold mhash_undef. rewrite E1. cbn [bind]. replace (bucket add (h_bits h) (snd (kid_of key)) =? 0) with false by lia. rewrite E2. cbn [bind].
  destruct (chain_undef_ok key c K U G) as [(-> & NI)|(a & p & b & -> & KP & ->)]; cbn [bind].
  - left. split; [|reflexivity]. rewrite ents_keys. intros I. apply in_map_iff in I as (q & KQ & IQ). apply NI. apply in_map_iff. exists q. split; [exact KQ|exact (IN1 q IQ KQ)].
  - right. eexists _, (sp_type p), _. split; [reflexivity|]. set (i := Z.to_nat (bucket add (h_bits h) (snd (kid_of key)))) in *. unfold set_chain. fold i.
    destruct (set_nat_split (h_table h) i _ (a ++ b) N) as (S1 & S2).
    assert (Permutation (concat (h_table h)) (p :: concat (set_nat (h_table h) i (a ++ b)))) as P.
    { rewrite S1. rewrite S2 at 1. rewrite !concat_app. cbn [concat]. rewrite <- !app_assoc. cbn [app]. rewrite !(app_assoc (concat (firstn i (h_table h))) a). symmetry. apply Permutation_middle. }
    split; [|split; [|split; reflexivity]].
    + constructor; cbn [h_bits h_table].
      * apply W.
      * rewrite zlen_set_nat. apply W.
      * intros j d q Ej Iq. rewrite nth_set_nat in Ej. destruct (Nat.eqb_spec i j) as [<-|]; [|exact (w_in h W j d q Ej Iq)]. destruct (i <? length (h_table h))%nat; [|discriminate]. injection Ej as <-.
        apply (w_in h W i _ q N). apply in_app_iff in Iq. apply in_app_iff. cbn. tauto.
      * pose proof (w_dup h W) as D. eapply Permutation_NoDup in D; [|apply Permutation_map; exact P]. cbn [map] in D. apply NoDup_cons_iff in D. apply D.
    + unfold ents. cbn [h_table]. transitivity (map ent (p :: concat (set_nat (h_table h) i (a ++ b)))); [apply Permutation_map; exact P|]. cbn [map]. unfold ent at 1. rewrite KP. reflexivity.
Qed.

(** ** Growing *)
Lemma concat_repeat_nil n : concat (repeat (@nil spot) n) = []. Proof. induction n; [reflexivity|exact IHn]. Qed.
Lemma hwf_empty b s : 1 <= b <= 24 -> hwf (mkmhash b (repeat [] (Z.to_nat (2 ^ b - 1 + 1))) s).
Proof.
  intros B. assert (0 < 2 ^ b) by (apply Z.pow_pos_nonneg; lia). constructor; cbn [h_bits h_table].
  - exact B.
  - unfold zlen. rewrite repeat_length. lia.
  - intros i c p N I. apply nth_error_In in N. apply repeat_spec in N. subst c. destruct I.
  - rewrite concat_repeat_nil. constructor.
Qed.
Lemma rehash_ok J : junk_ok J -> forall l h, hwf h -> Forall good l -> NoDup (map pkid l ++ map fst (ents h)) ->
  exists h', rehash J add l h = Ok h' /\ hwf h' /\ Permutation (ents h') (map ent l ++ ents h) /\ h_bits h' = h_bits h /\ u32 (h_spots h') = u32 (h_spots h + zlen l).
Proof.
  intros HJ. induction l as [|p l IH]; intros h W G D.
  - exists h. split; [reflexivity|]. split; [exact W|]. split; [reflexivity|]. split; [reflexivity|]. f_equal. change (zlen (@nil spot)) with 0. lia.
  - apply Forall_cons_iff in G as (((Wp & Sp) & Up) & G). cbn [rehash]. rewrite sane_usable by exact Wp. fold (usable_key (sp_key p)). rewrite Up. cbn [negb]. cbn [map app] in D. apply NoDup_cons_iff in D as (ND & D).
    destruct (mhash_put_ok J h (sp_key p) (sp_value p) (sp_type p) HJ W (conj Wp Sp) Up) as [(I & _)|(_ & h1 & E & W1 & P1 & B1 & S1)].
    { exfalso. apply ND. apply in_app_iff. right. exact I. }
    rewrite E. cbn [bind]. destruct (IH h1 W1 G) as (h' & E' & W' & P' & B' & S').
    { apply (Permutation_NoDup (l := pkid p :: map pkid l ++ map fst (ents h))); [|constructor; assumption]. rewrite (Permutation_middle (map pkid l) _ (pkid p)). apply Permutation_app_head. symmetry. apply (Permutation_map fst) in P1. exact P1. }
    exists h'. split; [exact E'|]. split; [exact W'|]. split; [|split; [congruence|]].
    + rewrite P', P1. cbn [map app]. symmetry. apply (Permutation_middle (map ent l) (ents h) (ent p)).
    + rewrite S', S1, zlen_cons. unfold u32. rewrite <- Z.add_mod_idemp_l by lia. rewrite Z.mod_mod by lia. rewrite Z.add_mod_idemp_l by lia. f_equal. lia.
Qed.
Lemma tail_table h : hwf h -> concat (tl (h_table h)) = concat (h_table h).
Proof.
  intros W. destruct (h_table h) as [|c t] eqn:E; [reflexivity|]. cbn [tl concat]. destruct c as [|p c]; [reflexivity|]. exfalso.
  destruct (w_in h W 0 (p :: c) p) as (_ & B); [rewrite E; reflexivity|left; reflexivity|]. pose proof (bucket_range add (h_bits h) (snd (pkid p)) (w_bits h W)). lia.
Qed.
Lemma rehash_spots J : forall l (h h' : mhash), rehash J add l h = Ok h' -> 0 <= h_spots h < 4294967296 -> 0 <= h_spots h' < 4294967296.
Proof.
  induction l as [|p l IH]; intros h h' E S; cbn [rehash] in E; [injection E as <-; exact S|]. destruct (negb (js_sane (sp_key p))); [discriminate|]. apply bind_Ok in E as ([r h1] & E1 & E2). apply (IH _ _ E2).
  unfold mhash_put in E1. destruct (negb (js_sane (sp_key p))); [injection E1 as _ <-; exact S|]. apply bind_Ok in E1 as (i & _ & E1). destruct (i =? 0); [injection E1 as _ <-; exact S|].
  destruct (js_create _ _ _); [|discriminate]. apply bind_Ok in E1 as ([r1 k] & _ & E1). destruct (r1 =? JS_ERROR); [discriminate|]. apply bind_Ok in E1 as (c & _ & E1). apply bind_Ok in E1 as ([o|] & _ & E1); injection E1 as _ <-; [|exact S].
  cbn [h_spots]. unfold u32. lia.
Qed.
Lemma mhash_resize_ok J h b : junk_ok J -> hwf h -> 1 <= b <= 24 -> 0 <= h_spots h < 4294967296 ->
  exists h', mhash_resize J add h b = Ok (1, h') /\ hwf h' /\ Permutation (ents h') (ents h) /\ h_bits h' = b /\ h_spots h' = u32 (h_spots h + zlen (ents h)).
Proof.
  intros HJ W B S. unfold mhash_resize. replace ((b <? 1) || (29 <? b)) with false by lia. rewrite mask_ok by lia. cbn [bind]. rewrite tail_table by exact W.
  destruct (rehash_ok J HJ (concat (h_table h)) (mkmhash b (repeat [] (Z.to_nat (2 ^ b - 1 + 1))) (h_spots h))) as (h' & E & W' & P & B' & S').
  - apply hwf_empty, B.
  - apply Forall_forall. intros p I. destruct (own_chain h p W I) as (c & N & IC). apply (w_in h W _ c p N IC).
  - unfold ents. cbn [h_table]. rewrite concat_repeat_nil. cbn [map]. rewrite app_nil_r. apply W.
  - rewrite E. cbn [bind]. exists h'. split; [reflexivity|]. split; [exact W'|]. unfold ents at 2 in P. cbn [h_table] in P. rewrite concat_repeat_nil in P. cbn [map] in P. rewrite app_nil_r in P. split; [exact P|]. split; [exact B'|].
    pose proof (rehash_spots J _ _ _ E S) as R. cbn [h_spots] in S'. unfold ents. unfold zlen in *. rewrite map_length. unfold u32 in *. rewrite <- S'. rewrite Z.mod_small by exact R. reflexivity.
Qed.
Lemma mhash_autogrow_ok J h : junk_ok J -> hwf h -> 0 <= h_spots h < 4294967296 -> ~ (h_bits h = 24 /\ 8388607 <= h_spots h) ->
  mhash_autogrow J add h = Ok (1, h) \/
  exists h', mhash_autogrow J add h = Ok (2, h') /\ hwf h' /\ Permutation (ents h') (ents h) /\ h_bits h' = h_bits h + 1 /\ h_spots h' = u32 (h_spots h + zlen (ents h)).
Proof.
  intros HJ W S NB. pose proof (w_bits h W) as B. unfold mhash_autogrow. replace ((h_bits h <? 1) || (29 <? h_bits h)) with false by lia.
  assert (h_bits h < 24 -> exists h', (' (r, h0) <- mhash_resize J add h (h_bits h + 1) ;; Ok (if r =? JS_ERROR then JS_ERROR else 2, h0)) = Ok (2, h') /\ hwf h' /\ Permutation (ents h') (ents h) /\ h_bits h' = h_bits h + 1 /\ h_spots h' = u32 (h_spots h + zlen (ents h))) as GR.
  { intros L. destruct (mhash_resize_ok J h (h_bits h + 1) HJ W) as (h' & -> & R); [lia|exact S|]. exists h'. split; [reflexivity|exact R]. }
  destruct (h_bits h <? 4) eqn:E4; [right; apply GR; lia|]. rewrite mask_ok by lia. cbn [bind]. destruct (2 ^ (h_bits h - 1) - 1 <=? h_spots h) eqn:EM; [|left; reflexivity].
  right. apply GR. destruct (Z.eq_dec (h_bits h) 24) as [E24|]; [|lia]. exfalso. apply NB. split; [exact E24|]. rewrite E24 in EM. change (2 ^ (24 - 1) - 1) with 8388607 in EM. lia.
Qed.

(** ** Going through the keys *)
Lemma first_spot_ok (t : list (list spot)) : first_spot t = hd_error (concat t).
Proof. induction t as [|[|p c] t IH]; [reflexivity|exact IH|reflexivity]. Qed.
Lemma place_unique (a b a' b' : list spot) p p' : NoDup (map pkid (a ++ p :: b)) -> a ++ p :: b = a' ++ p' :: b' -> pkid p = pkid p' -> a = a' /\ b = b'.
Proof.
  revert a'. induction a as [|x a IH]; intros [|x' a'] D E K; cbn [app] in E.
  - injection E as _ ->. tauto.
  - exfalso. injection E as -> ->. cbn [app map] in D. apply NoDup_cons_iff in D as (D & _). apply D. rewrite map_app. apply in_app_iff. right. left. symmetry. exact K.
  - exfalso. injection E as -> <-. cbn [app map] in D. apply NoDup_cons_iff in D as (D & _). apply D. rewrite map_app. apply in_app_iff. right. left. exact K.
  - injection E as -> E. cbn [app map] in D. apply NoDup_cons_iff in D as (_ & D). destruct (IH a' D E K) as (-> & ->). tauto.
Qed.
Lemma nextkey_ok h buf a p b : hwf h -> j_wf buf -> usable_key buf = true -> concat (h_table h) = a ++ p :: b -> pkid p = kid_of buf ->
  mhash_nextkey add h buf = match b with [] => Ok (0, buf) | q :: _ => js_copy (sp_key q) buf end.
Proof.
  intros W WB UB EC KP. destruct (key_chain h buf W WB UB) as (c & E1 & E2 & N & G & IN1 & IN2 & NZ). unfold mhash_nextkey. rewrite E1. cbn [bind]. pose proof (w_bits h W) as B. rewrite mask_ok by lia. cbn [bind].
  pose proof (bucket_range add (h_bits h) (snd (kid_of buf)) B) as R. replace (2 ^ h_bits h - 1 <? bucket add (h_bits h) (snd (kid_of buf))) with false by lia. rewrite E2. cbn [bind].
  assert (In p c) as IP. { apply IN1; [|exact KP]. rewrite EC. apply in_app_iff. right. left. reflexivity. }
  apply in_split in IP as (c1 & c2 & ->). set (i := Z.to_nat (bucket add (h_bits h) (snd (kid_of buf)))) in *.
  destruct (set_nat_split (h_table h) i _ [] N) as (_ & S2).
  assert (concat (h_table h) = (concat (firstn i (h_table h)) ++ c1) ++ p :: (c2 ++ concat (skipn (S i) (h_table h)))) as EC2.
  { rewrite S2 at 1. rewrite concat_app. cbn [concat]. rewrite <- !app_assoc. cbn [app]. reflexivity. }
  pose proof (w_dup h W) as D. assert (NoDup (map pkid (a ++ p :: b))) as DA by (rewrite <- EC; exact D).
  destruct (place_unique a b _ _ p p DA (eq_trans (eq_sym EC) EC2) eq_refl) as (Ea & Eb).
  assert (~ In (kid_of buf) (map pkid c1)) as NI.
  { intros I. rewrite map_app in DA. apply NoDup_remove_2 in DA. apply DA. apply in_app_iff. left. rewrite Ea, map_app. apply in_app_iff. right. rewrite KP. exact I. }
  rewrite (chain_next_ok buf _ WB UB G c1 p c2 eq_refl KP NI). cbn [bind]. rewrite Eb. destruct c2 as [|q c2]; cbn [hd_error]; [|reflexivity].
  cbn [app]. replace (Z.to_nat (bucket add (h_bits h) (snd (kid_of buf)) + 1)) with (S i) by (subst i; lia). rewrite first_spot_ok. destruct (concat (skipn (S i) (h_table h))); reflexivity.
Qed.
Definition fits_buf (buf : js) (p : spot) : Prop := j_size (sp_key p) = j_size buf /\ j_count (sp_key p) < j_max buf.
Lemma walk_ok h : hwf h -> forall b n buf a p, j_wf buf -> usable_key buf = true -> concat (h_table h) = a ++ p :: b -> pkid p = kid_of buf -> Forall (fits_buf buf) b -> (length b < n)%nat ->
  walk add n h buf = Ok (map pkid b, true).
Proof.
  intros W. induction b as [|q b IH]; intros n buf a p WB UB EC KP F L; destruct n as [|n]; try (cbn in L; lia); cbn [walk]; rewrite (nextkey_ok h buf a p _ W WB UB EC KP); [reflexivity|].
  apply Forall_cons_iff in F as ((F1 & F2) & F).
  assert (good q) as ((WQ & _) & UQ). { assert (In q (concat (h_table h))) as I by (rewrite EC; apply in_app_iff; right; right; left; reflexivity). destruct (own_chain h q W I) as (c & N & IC). apply (w_in h W _ c q N IC). }
  destruct (copy_into (sp_key q) buf WQ WB UQ UB F1 F2) as (buf' & -> & W' & U' & K' & M' & C' & _). cbn [bind]. change (1 =? 0) with false. change (1 =? 1) with true. cbn [negb].
  rewrite (IH n buf' (a ++ [p]) q W' U').
  - cbn [bind map]. rewrite K'. reflexivity.
  - rewrite EC, <- app_assoc. reflexivity.
  - symmetry. exact K'.
  - eapply Forall_impl; [|exact F]. intros r (R1 & R2). split; [apply (f_equal fst) in K'; cbn in K'; lia|lia].
  - cbn in L. lia.
Qed.
Lemma all_keys_ok h buf n : hwf h -> j_wf buf -> usable_key buf = true -> Forall (fits_buf buf) (concat (h_table h)) -> (length (ents h) <= n)%nat ->
  all_keys add n h buf = Ok (map fst (ents h), true).
Proof.
  intros W WB UB F L. rewrite ents_keys. unfold all_keys, mhash_firstkey. rewrite first_spot_ok. unfold ents in L. rewrite map_length in L. destruct (concat (h_table h)) as [|q b] eqn:EC; cbn [hd_error]; [reflexivity|].
  assert (good q) as ((WQ & _) & UQ). { assert (In q (concat (h_table h))) as I by (rewrite EC; left; reflexivity). destruct (own_chain h q W I) as (c & N & IC). apply (w_in h W _ c q N IC). }
  apply Forall_cons_iff in F as ((F1 & F2) & F).
  destruct (copy_into (sp_key q) buf WQ WB UQ UB F1 F2) as (buf' & -> & W' & U' & K' & M' & C' & _). cbn [bind]. change (1 =? 0) with false. change (1 =? 1) with true. cbn [negb].
  rewrite (walk_ok h W b n buf' [] q W' U' EC (eq_sym K')).
  - cbn [bind map]. rewrite K'. reflexivity.
  - eapply Forall_impl; [|exact F]. intros r (R1 & R2). split; [apply (f_equal fst) in K'; cbn in K'; lia|lia].
  - cbn in L. lia.
Qed.

(** ** The map *)
Definition rep (h : mhash) (m : amap V) : Prop := forall k v, m k = Some v <-> In (k, v) (ents h).
Lemma rep_none h m k : rep h m -> (m k = None <-> ~ In k (map fst (ents h))).
Proof.
  intros R. split.
  - intros E I. apply in_map_iff in I as ([k' v] & <- & I). apply R in I. cbn [fst] in *. rewrite E in I. discriminate.
  - intros N. destruct (m k) as [v|] eqn:E; [|reflexivity]. exfalso. apply R in E. apply N. apply in_map_iff. exists (k, v). split; [reflexivity|exact E].
Qed.
Lemma rep_same h h' m : Permutation (ents h') (ents h) -> rep h m -> rep h' m.
Proof. intros P R k v. rewrite (R k v). split; apply Permutation_in; [symmetry|]; exact P. Qed.

Definition spots_ok (h : mhash) : Prop := 0 <= h_spots h < 4294967296.
Definition too_big (h : mhash) (o : op V) : Prop := match o with Autogrow _ => h_bits h = 24 /\ 8388607 <= h_spots h | _ => False end.

Lemma step_ok h m o : hwf h -> rep h m -> spots_ok h -> op_ok o -> ~ too_big h o ->
  exists h', step add h o = Ok (fst (a_step m o), h') /\ hwf h' /\ rep h' (snd (a_step m o)) /\ spots_ok h' /\
    match o with
    | Put _ _ _ _ => h_bits h' = h_bits h /\ (h' = h \/ zlen (ents h') = zlen (ents h) + 1 /\ h_spots h' = u32 (h_spots h + 1))
    | Get _ | Key _ => h' = h
    | Undef _ => h_bits h' = h_bits h /\ (h' = h \/ zlen (ents h') = zlen (ents h) - 1 /\ h_spots h' = u32 (h_spots h - 1))
    | Resize _ _ => True
    | Autogrow _ => h' = h \/ h_bits h' = h_bits h + 1 /\ zlen (ents h') = zlen (ents h) /\ h_spots h' = u32 (h_spots h + zlen (ents h))
    end.
Proof.
  intros W R S OK NB. pose proof (w_dup h W) as D. rewrite <- ents_keys in D. assert (forall k v w, In (k, v) (ents h) -> In (k, w) (ents h) -> v = w) as FUN. { intros k v w I1 I2. apply R in I1, I2. congruence. }
  destruct o as [J k v dt|k|k|k|J b|J]; cbn [op_ok step a_step] in *.
  - destruct OK as (HJ & SK). destruct (usable_key k) eqn:U.
    + destruct (mhash_put_ok J h k v dt HJ W SK U) as [(I & ->)|(NI & h' & -> & W' & P & B & SP)]; cbn [bind].
      * destruct (m (kid_of k)) eqn:EM; [|apply (rep_none h m _ R) in EM; contradiction]. exists h. split; [reflexivity|]. split; [exact W|]. split; [exact R|]. split; [exact S|]. split; [reflexivity|left; reflexivity].
      * rewrite (proj2 (rep_none h m _ R) NI). exists h'. split; [reflexivity|]. split; [exact W'|]. split; [|split].
        -- cbn [snd]. intros x w. unfold a_set. rewrite (Permutation_in' (eq_refl (x, w)) P). cbn [In]. destruct (kid_eqb (kid_of k) x) eqn:EX.
           ++ apply kid_eqb_spec in EX. subst x. split; [intros EE; injection EE as <-; left; reflexivity|]. intros [EE|I]; [injection EE as <-; reflexivity|]. exfalso. apply NI. apply in_map_iff. exists (kid_of k, w). tauto.
           ++ apply kid_eqb_neq in EX. rewrite (R x w). split; [tauto|]. intros [EE|I]; [|exact I]. apply (f_equal fst) in EE. cbn [fst] in EE. congruence.
        -- unfold spots_ok. rewrite SP. unfold u32. lia.
        -- split; [exact B|]. right. split; [|exact SP]. unfold zlen. apply Permutation_length in P. cbn [length] in P. lia.
    + rewrite (mhash_put_insane J h k v dt (proj1 SK) U). cbn [bind]. exists h. split; [reflexivity|]. split; [exact W|]. split; [exact R|]. split; [exact S|]. split; [reflexivity|left; reflexivity].
  - exists h. split; [|split; [exact W|split; [exact R|split; [exact S|reflexivity]]]]. unfold mhash_get. rewrite sane_usable by exact OK. fold (usable_key k). destruct (usable_key k) eqn:U; cbn [negb]; [|reflexivity].
    destruct (find_spot h k W OK U) as (i & c & -> & E2 & F). cbn [bind]. rewrite E2. cbn [bind]. destruct F as [(-> & NI)|(p & -> & KP & IP)]; cbn [bind].
    + rewrite (proj2 (rep_none h m _ R) NI). reflexivity.
    + assert (m (kid_of k) = Some (sp_value p, sp_type p)) as ->. { apply R. unfold ents. apply in_map_iff. exists p. split; [unfold ent; rewrite KP; reflexivity|exact IP]. } reflexivity.
  - exists h. split; [|split; [exact W|split; [exact R|split; [exact S|reflexivity]]]]. unfold mhash_get_immutable_key. rewrite sane_usable by exact OK. fold (usable_key k). destruct (usable_key k) eqn:U; cbn [negb]; [|reflexivity].
    destruct (find_spot h k W OK U) as (i & c & -> & E2 & F). cbn [bind]. rewrite E2. cbn [bind]. destruct F as [(-> & NI)|(p & -> & KP & IP)]; cbn [bind].
    + rewrite (proj2 (rep_none h m _ R) NI). reflexivity.
    + assert (m (kid_of k) = Some (sp_value p, sp_type p)) as ->. { apply R. unfold ents. apply in_map_iff. exists p. split; [unfold ent; rewrite KP; reflexivity|exact IP]. } cbn [option_map]. fold (pkid p). rewrite KP. reflexivity.
  - destruct (usable_key k) eqn:U.
    + destruct (mhash_undef_ok h k W OK U) as [(NI & ->)|(v & dt & h' & -> & W' & P & B & SP)]; cbn [bind].
      * rewrite (proj2 (rep_none h m _ R) NI). exists h. split; [reflexivity|]. split; [exact W|]. split; [|split; [exact S|split; [reflexivity|left; reflexivity]]].
        cbn [snd]. intros x w. unfold a_set. destruct (kid_eqb (kid_of k) x) eqn:EX; [|apply R]. apply kid_eqb_spec in EX. subst x. split; [discriminate|]. intros I. exfalso. apply NI. apply in_map_iff. exists (kid_of k, w). tauto.
      * assert (m (kid_of k) = Some (v, dt)) as ->. { apply R. apply (Permutation_in (l := (kid_of k, (v, dt)) :: ents h')); [symmetry; exact P|left; reflexivity]. }
        exists h'. split; [reflexivity|]. split; [exact W'|].
        assert (NoDup (kid_of k :: map fst (ents h'))) as D2. { eapply Permutation_NoDup; [|exact D]. apply (Permutation_map fst) in P. exact P. } apply NoDup_cons_iff in D2 as (D2 & _).
        split; [|split].
        -- cbn [snd]. intros x w. unfold a_set. destruct (kid_eqb (kid_of k) x) eqn:EX.
           ++ apply kid_eqb_spec in EX. subst x. split; [discriminate|]. intros I. exfalso. apply D2. apply in_map_iff. exists (kid_of k, w). tauto.
           ++ apply kid_eqb_neq in EX. rewrite (R x w), (Permutation_in' (eq_refl (x, w)) P). cbn [In]. split; [|tauto]. intros [EE|I]; [|exact I]. apply (f_equal fst) in EE. cbn [fst] in EE. congruence.
        -- unfold spots_ok. rewrite SP. unfold u32. lia.
        -- split; [exact B|]. right. split; [|exact SP]. unfold zlen. apply Permutation_length in P. cbn [length] in P. lia.
    + unfold mhash_undef. rewrite (mhash_js_insane add _ k OK U). cbn [bind Z.eqb]. exists h. split; [reflexivity|]. split; [exact W|]. split; [exact R|]. split; [exact S|]. split; [reflexivity|left; reflexivity].
  - destruct OK as (HJ & LB). destruct ((1 <=? b) && (b <=? 29)) eqn:EB.
    + destruct (mhash_resize_ok J h b HJ W) as (h' & -> & W' & P & B' & S'); [lia|exact S|]. cbn [bind]. exists h'. split; [reflexivity|]. split; [exact W'|]. split; [exact (rep_same h h' m P R)|]. split; [|exact Logic.I].
      unfold spots_ok. rewrite S'. unfold u32. lia.
    + unfold mhash_resize. replace ((b <? 1) || (29 <? b)) with true by lia. cbn [bind]. exists h. split; [reflexivity|]. split; [exact W|]. split; [exact R|]. split; [exact S|exact Logic.I].
  - destruct (mhash_autogrow_ok J h OK W S NB) as [-> |(h' & -> & W' & P & B' & S')]; cbn [bind].
    + exists h. split; [reflexivity|]. split; [exact W|]. split; [exact R|]. split; [exact S|]. left. reflexivity.
    + exists h'. split; [reflexivity|]. split; [exact W'|]. split; [exact (rep_same h h' m P R)|]. split; [unfold spots_ok; rewrite S'; unfold u32; lia|]. right. split; [exact B'|]. split; [|exact S'].
      unfold zlen. rewrite (Permutation_length P). reflexivity.
Qed.
End Table.
