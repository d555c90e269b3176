(** The recency ring of DwHash.c: linking, unlinking, moving to the front. *)
From Coq Require Import Permutation.
From Verif Require Import CBase ModelDwHash ProofRing.

Definition nxt (m : Z -> option fila) (q : Z) : option Z := option_map f_next (m q).
Definition lst (m : Z -> option fila) (q : Z) : option Z := option_map f_last (m q).
Definition recof (m : Z -> option fila) (q : Z) : option Z := option_map f_rec (m q).

Record FilaOK (h : hash) (F : list Z) : Prop := {
  fo_nodup : NoDup F;
  fo_cyc : cyc (nxt (h_filas h)) (lst (h_filas h)) F;
  fo_head : h_fila h = hd 0 F;
  fo_addr : forall f, In f F -> 0 < f < h_brk h;
  fo_dom : forall f, In f F <-> h_filas h f <> None }.

Lemma set_f_next_ok h p v : p <> 0 -> h_filas h p <> None ->
  exists m, set_f_next h p v = Ok (set_filas h m) /\
    (forall q, nxt m q = if q =? p then Some v else nxt (h_filas h) q) /\
    (forall q, lst m q = lst (h_filas h) q) /\ (forall q, recof m q = recof (h_filas h) q).
Proof.
  intros H0 HS. unfold set_f_next, gf. replace (p =? 0) with false by lia.
  destruct (h_filas h p) as [f|] eqn:E; [|congruence]. cbn [bind].
  eexists. split; [reflexivity|]. unfold nxt, lst, recof, upd.
  split; [|split]; intros q; destruct (Z.eqb_spec q p); subst; try rewrite E; reflexivity.
Qed.

Lemma set_f_last_ok h p v : p <> 0 -> h_filas h p <> None ->
  exists m, set_f_last h p v = Ok (set_filas h m) /\
    (forall q, nxt m q = nxt (h_filas h) q) /\
    (forall q, lst m q = if q =? p then Some v else lst (h_filas h) q) /\
    (forall q, recof m q = recof (h_filas h) q).
Proof.
  intros H0 HS. unfold set_f_last, gf. replace (p =? 0) with false by lia.
  destruct (h_filas h p) as [f|] eqn:E; [|congruence]. cbn [bind].
  eexists. split; [reflexivity|]. unfold nxt, lst, recof, upd.
  split; [|split]; intros q; destruct (Z.eqb_spec q p); subst; try rewrite E; reflexivity.
Qed.

Lemma gf_obs h p a b : p <> 0 -> nxt (h_filas h) p = Some a -> lst (h_filas h) p = Some b ->
  exists f, gf h p = Ok f /\ f_next f = a /\ f_last f = b /\ h_filas h p = Some f.
Proof.
  unfold nxt, lst, gf. intros H0. replace (p =? 0) with false by lia.
  destruct (h_filas h p) as [f|]; cbn; [|discriminate]. intros E1 E2. exists f.
  injection E1 as <-. injection E2 as <-. auto.
Qed.

Lemma nxt_some m p a : nxt m p = Some a -> m p <> None.
Proof. unfold nxt. destruct (m p); cbn; congruence. Qed.
Lemma lst_some m p a : lst m p = Some a -> m p <> None.
Proof. unfold lst. destruct (m p); cbn; congruence. Qed.
Lemma rec_none m m' p : recof m p = recof m' p -> (m p <> None <-> m' p <> None).
Proof. unfold recof. destruct (m p), (m' p); cbn; split; congruence. Qed.

(** The two assignments that take [z] out of the ring. *)
Lemma unlink2 h F A z B : FilaOK h F -> F = A ++ z :: B ->
  exists r l m1 m2,
    z <> 0 /\ l <> 0 /\ r <> 0 /\
    nxt (h_filas h) z = Some r /\ lst (h_filas h) z = Some l /\
    set_f_next h l r = Ok (set_filas h m1) /\
    nxt m1 z = Some r /\ lst m1 z = Some l /\
    set_f_last (set_filas h m1) r l = Ok (set_filas h m2) /\
    (forall q, recof m2 q = recof (h_filas h) q) /\
    cyc (nxt m2) (lst m2) (A ++ B) /\
    (A ++ B <> [] -> r <> z /\ l <> z /\ In r (A ++ B) /\ In l (A ++ B) /\ r = hd 0 (B ++ A)) /\
    (A ++ B = [] -> r = z).
Proof.
  intros [HN HC HH HA HD] ->.
  assert (cyc (nxt (h_filas h)) (lst (h_filas h)) (z :: B ++ A)) as HC'.
  { apply cyc_rot in HC. cbn [app] in HC. exact HC. }
  assert (NoDup (z :: B ++ A)) as HN'.
  { eapply Permutation_NoDup; [|exact HN].
    etransitivity; [apply Permutation_app_comm|]. reflexivity. }
  assert (forall f, In f (z :: B ++ A) -> f <> 0) as HNZ.
  { intros f Hf. assert (In f (A ++ z :: B)) as Hf'.
    { rewrite in_app_iff. cbn in Hf. rewrite in_app_iff in Hf. cbn. tauto. }
    specialize (HA f Hf'). lia. }
  destruct (cyc_view _ _ _ _ HC') as [(E & Hn & Hl)|(r & l & R1 & R0 & E1 & E2 & P1 & P2 & P3 & P4 & P5)].
  - apply app_eq_nil in E as [-> ->]. cbn [app] in *.
    assert (z <> 0) as Hz by (apply HNZ; left; reflexivity).
    destruct (set_f_next_ok h z z Hz (nxt_some _ _ _ Hn)) as (m1 & S1 & N1 & L1 & R1).
    destruct (set_f_last_ok (set_filas h m1) z z Hz) as (m2 & S2 & N2 & L2 & R2).
    { cbn. apply (nxt_some _ _ z). rewrite N1, Z.eqb_refl. reflexivity. }
    exists z, z, m1, m2. cbn [h_filas set_filas] in *.
    repeat (split; [first [assumption|reflexivity]|]).
    split; [rewrite N1, Z.eqb_refl; reflexivity|]. split; [rewrite L1; exact Hl|].
    split; [exact S2|]. split; [intros q; rewrite R2, R1; reflexivity|].
    split; [exact I|]. split; [congruence|reflexivity].
  - assert (In r (B ++ A)) as Ir by (rewrite E1; left; reflexivity).
    assert (In l (B ++ A)) as Il by (rewrite E2; apply in_app_iff; right; left; reflexivity).
    assert (z <> 0) as Hz by (apply HNZ; left; reflexivity).
    assert (r <> 0) as Hr by (apply HNZ; right; exact Ir).
    assert (l <> 0) as Hl by (apply HNZ; right; exact Il).
    inversion HN' as [|? ? Hzn HN'']; subst x l0.
    assert (r <> z) as Hrz by congruence. assert (l <> z) as Hlz by congruence.
    destruct (set_f_next_ok h l r Hl (nxt_some _ _ _ P3)) as (m1 & S1 & N1 & L1 & Rc1).
    destruct (set_f_last_ok (set_filas h m1) r l Hr) as (m2 & S2 & N2 & L2 & Rc2).
    { cbn. apply (lst_some _ _ z). rewrite L1. exact P4. }
    exists r, l, m1, m2. cbn [h_filas set_filas] in *.
    repeat (split; [first [assumption|reflexivity]|]).
    split; [rewrite N1; replace (z =? l) with false by lia; exact P1|].
    split; [rewrite L1; exact P2|]. split; [exact S2|].
    split; [intros q; rewrite Rc2, Rc1; reflexivity|].
    assert (cyc (nxt m2) (lst m2) (B ++ A) /\ In r (B ++ A) /\ In l (B ++ A)) as [G _].
    { apply (cyc_unlink (nxt (h_filas h)) (lst (h_filas h)) (nxt m2) (lst m2) z (B ++ A) r l); try assumption.
      - rewrite E1. discriminate.
      - intros a Ha1 Ha2. rewrite N2, N1. replace (a =? l) with false by lia. reflexivity.
      - rewrite N2, N1, Z.eqb_refl. reflexivity.
      - intros a Ha1 Ha2. rewrite L2, L1. replace (a =? r) with false by lia. reflexivity.
      - rewrite L2, Z.eqb_refl. reflexivity. }
    split; [apply cyc_rot; exact G|].
    split.
    + intros _. split; [exact Hrz|]. split; [exact Hlz|].
      split; [apply in_app_iff; apply in_app_iff in Ir; tauto|].
      split; [apply in_app_iff; apply in_app_iff in Il; tauto|]. rewrite E1. reflexivity.
    + intros E. exfalso. apply app_eq_nil in E as [-> ->]. discriminate.
Qed.

Lemma fila_unlink_ok h F A z B : FilaOK h F -> F = A ++ z :: B ->
  exists m hf, fila_unlink h z = Ok (set_fila (set_filas h m) hf) /\
    FilaOK (set_fila (set_filas h m) hf) (A ++ B) /\
    (forall f, f <> z -> recof m f = recof (h_filas h) f) /\ m z = None.
Proof.
  intros HF EF.
  destruct (unlink2 h F A z B HF EF) as (r & l & m1 & m2 & Z0 & L0 & R0 & Nz & Lz & S1 & N1 & L1 & S2 & RC & CY & NE & EE).
  destruct HF as [HN HC HH HA HD]. subst F.
  unfold fila_unlink.
  destruct (gf_obs h z r l Z0 Nz Lz) as (f & -> & <- & <- & Ef). cbn [bind]. rewrite S1. cbn [bind].
  destruct (gf_obs (set_filas h m1) z (f_next f) (f_last f) Z0 N1 L1) as (f' & -> & _ & El & _). cbn [bind]. rewrite El, S2. cbn [bind].
  assert (recof m2 z <> None) as Rz by (rewrite RC; unfold recof; rewrite Ef; discriminate).
  assert (~ In z (A ++ B)) as Hzn by (apply NoDup_remove_2; exact HN).
  set (m3 := upd m2 z None).
  assert (forall hf, free_fila (set_fila (set_filas h m2) hf) z = Ok (set_fila (set_filas h m3) hf)) as FR.
  { intros hf. unfold free_fila, gf. replace (z =? 0) with false by lia. cbn [h_filas set_fila set_filas].
    unfold recof in Rz. destruct (m2 z); [reflexivity|cbn in Rz; congruence]. }
  assert (set_filas h m2 = set_fila (set_filas h m2) (h_fila h)) as ES by (destruct h; reflexivity).
  assert (forall q, q <> z -> nxt m3 q = nxt m2 q /\ lst m3 q = lst m2 q /\ recof m3 q = recof m2 q) as M3.
  { intros q Hq. unfold nxt, lst, recof, m3, upd. replace (q =? z) with false by lia. auto. }
  assert (m3 z = None) as M3z by (unfold m3, upd; rewrite Z.eqb_refl; reflexivity).
  assert (forall hf, hf = hd 0 (A ++ B) -> FilaOK (set_fila (set_filas h m3) hf) (A ++ B)) as OK.
  { intros hf Ehf. constructor; cbn [h_filas set_fila set_filas h_fila h_brk].
    - eapply NoDup_remove_1; exact HN.
    - clear - CY M3 Hzn. unfold cyc in *. destruct (A ++ B) as [|x L]; [exact I|].
      apply (path_frame (nxt m2) (lst m2)); [exact CY| |].
      + intros a Ha. apply M3. intros ->. apply Hzn. apply (In_nth _ _ 0) in Ha as (i & Hi & Ei).
        assert (In z ((x :: L) ++ [x])) as HI.
        { rewrite removelast_last in Ei. rewrite removelast_last in Hi. apply in_app_iff. left. rewrite <- Ei. apply nth_In. exact Hi. }
        apply in_app_iff in HI as [?|[->|[]]]; [assumption|left; reflexivity].
      + intros b Hb. apply M3. intros ->. apply Hzn. cbn [tl app] in Hb. apply in_app_iff in Hb as [?|[->|[]]]; [right; assumption|left; reflexivity].
    - exact Ehf.
    - intros f0 Hf0. apply HA. apply in_app_iff in Hf0. apply in_app_iff. cbn. tauto.
    - intros f0. destruct (Z.eq_dec f0 z) as [->|N].
      + rewrite M3z. split; [contradiction|congruence].
      + destruct (M3 f0 N) as (_ & _ & E). rewrite (rec_none m3 (h_filas h)) by (rewrite E, RC; reflexivity).
        rewrite <- HD. rewrite !in_app_iff. cbn. split; [tauto|]. intros [?|[?|?]]; [tauto|congruence|tauto]. }
  assert (forall f0, f0 <> z -> recof m3 f0 = recof (h_filas h) f0) as RR by (intros f0 N; destruct (M3 f0 N) as (_ & _ & ->); apply RC).
  destruct A as [|a A]; cbn [app hd] in *.
  - cbn [h_fila set_filas]. rewrite HH, Z.eqb_refl. cbn [h_fila set_fila].
    destruct B as [|b B].
    + rewrite (EE eq_refl), Z.eqb_refl.
      assert (set_fila (set_fila (set_filas h m2) z) 0 = set_fila (set_filas h m2) 0) as -> by reflexivity.
      rewrite FR. exists m3, 0. split; [reflexivity|]. split; [apply OK; reflexivity|auto].
    + destruct (NE ltac:(discriminate)) as (Nrz & _ & _ & _ & Er).
      replace (z =? f_next f) with false by lia. rewrite FR. exists m3, (f_next f).
      split; [reflexivity|]. split; [apply OK; rewrite Er, app_nil_r; reflexivity|auto].
  - assert (z <> a) as Nza by (intros ->; apply Hzn; left; reflexivity).
    cbn [h_fila set_filas]. rewrite HH. replace (z =? a) with false by lia. cbn [h_fila set_filas]. rewrite HH.
    replace (z =? a) with false by lia. rewrite ES, FR. exists m3, (h_fila h).
    split; [reflexivity|]. split; [apply OK; exact HH|auto].
Qed.

Lemma fila_fetch_ok h F A z B : FilaOK h F -> F = A ++ z :: B ->
  exists m, dwh_fila_fetch h z = Ok (set_fila (set_filas h m) z) /\
    FilaOK (set_fila (set_filas h m) z) (z :: A ++ B) /\
    (forall f, recof m f = recof (h_filas h) f).
Proof.
  intros HF EF. pose proof HF as HF0.
  destruct (unlink2 h F A z B HF EF) as (r & l & m1 & m2 & Z0 & L0 & R0 & Nz & Lz & S1 & N1 & L1 & S2 & RC & CY & NE & EE).
  destruct HF as [HN HC HH HA HD]. unfold dwh_fila_fetch.
  replace (z =? 0) with false by lia. cbn [orb].
  destruct A as [|a A].
  - cbn [app] in EF. subst F. cbn [hd] in HH.
    replace (h_fila h =? 0) with false by lia. rewrite HH, Z.eqb_refl.
    assert (h = set_fila (set_filas h (h_filas h)) z) as E by (rewrite <- HH; destruct h; reflexivity).
    exists (h_filas h). cbn [app]. rewrite <- E. auto.
  - subst F. cbn [app hd] in *.
    assert (0 < a < h_brk h) as Ha by (apply HA; left; reflexivity).
    rewrite HH. replace (a =? 0) with false by lia.
    assert (~ In z (a :: A ++ B)) as Hzn by (apply (NoDup_remove_2 (a :: A)); exact HN).
    assert (z <> a) as Nza by (intros ->; apply Hzn; left; reflexivity).
    replace (z =? a) with false by lia.
    destruct (gf_obs h z r l Z0 Nz Lz) as (f & -> & <- & <- & Ef). cbn [bind]. rewrite S1. cbn [bind].
    destruct (gf_obs (set_filas h m1) z (f_next f) (f_last f) Z0 N1 L1) as (f' & -> & _ & El & _). cbn [bind].
    rewrite El, S2. cbn [bind]. cbn [h_fila set_filas]. rewrite HH.
    destruct (cyc_last _ _ _ _ CY) as (Q & x & EQ & Lx & Nx).
    assert (In x (a :: A ++ B)) as Ix by (rewrite EQ; apply in_app_iff; right; left; reflexivity).
    assert (x <> z) as Nxz by congruence.
    assert (x <> 0) as X0.
    { assert (0 < x < h_brk h); [|lia]. apply HA. destruct Ix as [->|Ix]; [left; reflexivity|right].
      apply in_app_iff. apply in_app_iff in Ix. cbn. tauto. }
    assert (exists y, nxt m2 a = Some y) as (y & Ny).
    { destruct (A ++ B); [|]; cbn in CY; destruct CY as (? & _); eauto. }
    destruct (gf_obs (set_filas h m2) a y x) as (fa & -> & _ & Ela & _); [lia|exact Ny|exact Lx|]. cbn [bind]. rewrite Ela.
    destruct (set_f_last_ok (set_filas h m2) z x Z0) as (m3 & S3 & N3 & L3 & RC3).
    { cbn. apply (rec_none m2 (h_filas h)); [apply RC|]. rewrite Ef. discriminate. }
    rewrite S3. cbn [bind]. cbn [h_filas set_filas] in N3, L3, RC3.
    cbn [h_fila set_filas]. rewrite HH.
    destruct (set_f_next_ok (set_filas h m3) z a Z0) as (m4 & S4 & N4 & L4 & RC4).
    { cbn. apply (rec_none m3 (h_filas h)); [rewrite RC3; apply RC|]. rewrite Ef. discriminate. }
    assert (forall m m' : Z -> option fila, set_filas (set_filas h m) m' = set_filas h m') as SF by reflexivity.
    rewrite SF in *. rewrite S4. cbn [bind]. rewrite ?SF. cbn [h_filas set_filas] in N4, L4, RC4.
    cbn [h_fila set_filas]. rewrite HH.
    destruct (gf_obs (set_filas h m4) a y x) as (fa' & -> & _ & Ela' & _); [lia| | |].
    { cbn. rewrite N4. replace (a =? z) with false by lia. rewrite N3. exact Ny. }
    { cbn. rewrite L4, L3. replace (a =? z) with false by lia. exact Lx. }
    cbn [bind]. rewrite Ela'.
    destruct (set_f_next_ok (set_filas h m4) x z X0) as (m5 & S5 & N5 & L5 & RC5).
    { cbn. apply (nxt_some _ _ a). rewrite N4. replace (x =? z) with false by lia. rewrite N3. exact Nx. }
    rewrite S5. cbn [bind]. rewrite ?SF. cbn [h_filas set_filas] in N5, L5, RC5. cbn [h_fila set_filas]. rewrite HH.
    destruct (set_f_last_ok (set_filas h m5) a z) as (m6 & S6 & N6 & L6 & RC6); [lia| |].
    { cbn. apply (lst_some _ _ x). rewrite L5, L4, L3. replace (a =? z) with false by lia. exact Lx. }
    rewrite S6. cbn [bind]. rewrite ?SF. cbn [h_filas set_filas] in N6, L6, RC6.
    assert (forall q, recof m6 q = recof (h_filas h) q) as RR by (intros q; rewrite RC6, RC5, RC4, RC3; apply RC).
    exists m6. split; [reflexivity|]. split; [|exact RR].
    assert (forall q, In q (z :: a :: A ++ B) <-> In q (a :: A ++ z :: B)) as HIN.
    { intros q. cbn. rewrite !in_app_iff. cbn. tauto. }
    constructor; cbn [h_filas set_fila set_filas h_fila h_brk].
    + constructor; [exact Hzn|]. exact (NoDup_remove_1 (a :: A) _ _ HN).
    + apply (cyc_link (nxt m2) (lst m2) _ _ z a (A ++ B) x).
      * constructor; [exact Hzn|]. exact (NoDup_remove_1 (a :: A) _ _ HN).
      * exact CY.
      * exact Lx.
      * intros q Q1 Q2. rewrite N6, N5, N4, N3. replace (q =? x) with false by lia. replace (q =? z) with false by lia. reflexivity.
      * rewrite N6, N5, Z.eqb_refl. reflexivity.
      * rewrite N6, N5, N4. replace (z =? x) with false by lia. rewrite Z.eqb_refl. reflexivity.
      * intros q Q1 Q2. rewrite L6, L5, L4, L3. replace (q =? a) with false by lia. replace (q =? z) with false by lia. reflexivity.
      * rewrite L6, Z.eqb_refl. reflexivity.
      * rewrite L6, L5, L4, L3. replace (z =? a) with false by lia. rewrite Z.eqb_refl. reflexivity.
    + reflexivity.
    + intros q Hq. apply HA. apply HIN. exact Hq.
    + intros q. rewrite HIN, HD. symmetry. apply rec_none, RR.
Qed.

Lemma fila_new_ok h F val e : FilaOK h F -> 0 < h_brk h -> val <> 0 -> h_elems h val = Some e ->
  exists m, dwh_fila_new h val =
      Ok (mkhash (upd (h_elems h) val (Some (mkelem (e_key e) (e_val e) (h_brk h) (e_imm e) (e_exp e) (e_next e) (e_prev e))))
                 m (h_brk h + 1) (h_brk h) (h_tab h) (h_mask h) (h_size h) (h_max h)) /\
    FilaOK (mkhash (upd (h_elems h) val (Some (mkelem (e_key e) (e_val e) (h_brk h) (e_imm e) (e_exp e) (e_next e) (e_prev e))))
                 m (h_brk h + 1) (h_brk h) (h_tab h) (h_mask h) (h_size h) (h_max h)) (h_brk h :: F) /\
    recof m (h_brk h) = Some val /\
    (forall f, f <> h_brk h -> recof m f = recof (h_filas h) f).
Proof.
  intros [HN HC HH HA HD] HB Hv0 Hv. unfold dwh_fila_new. set (new := h_brk h) in *.
  assert (~ In new F) as Hnew by (intros C; specialize (HA _ C); lia).
  assert (forall h', h_elems h' val = Some e -> set_e_fila h' val new = Ok (put_elem h' val (mkelem (e_key e) (e_val e) new (e_imm e) (e_exp e) (e_next e) (e_prev e)))) as SE.
  { intros h' E. unfold set_e_fila, ge. replace (val =? 0) with false by lia. rewrite E. reflexivity. }
  destruct F as [|f R].
  - cbn [hd] in HH. cbn [h_fila set_brk]. rewrite HH. cbn [Z.eqb].
    rewrite SE by exact Hv. cbn [bind].
    exists (upd (h_filas h) new (Some (mkfila new new val))).
    split; [reflexivity|].
    split; [|split].
    + constructor; cbn [h_filas h_fila h_brk].
      * constructor; [exact (fun x => x)|constructor].
      * cbn [cyc app path]. unfold nxt, lst, upd. rewrite Z.eqb_refl. cbn. auto.
      * reflexivity.
      * intros f [<-|[]]. lia.
      * intros f. unfold upd. destruct (Z.eqb_spec f new); [subst; split; [congruence|intros _; left; reflexivity]|].
        rewrite <- HD. cbn. split; [intros [?|[]]; congruence|intros []].
    + unfold recof, upd. rewrite Z.eqb_refl. reflexivity.
    + intros f N. unfold recof, upd. replace (f =? new) with false by lia. reflexivity.
  - cbn [hd] in HH. assert (0 < f < new) as Hf by (apply HA; left; reflexivity).
    cbn [h_fila set_brk]. rewrite HH. replace (f =? 0) with false by lia.
    destruct (cyc_last _ _ _ _ HC) as (Q & x & EQ & Lx & Nx).
    assert (In x (f :: R)) as Ix by (rewrite EQ; apply in_app_iff; right; left; reflexivity).
    assert (0 < x < new) as Hx by (apply HA; exact Ix).
    assert (exists y, nxt (h_filas h) f = Some y) as (y & Ny).
    { destruct R; cbn in HC; destruct HC as (? & _); eauto. }
    destruct (gf_obs (set_brk h (new + 1)) f y x) as (fa & -> & _ & Ela & _); [lia|exact Ny|exact Lx|]. cbn [bind]. rewrite Ela.
    rewrite SE by exact Hv. cbn [bind].
    set (m0 := upd (h_filas h) new (Some (mkfila x f val))).
    set (e' := mkelem _ _ _ _ _ _ _).
    set (h1 := put_elem _ _ _).
    assert (forall q, q <> new -> nxt m0 q = nxt (h_filas h) q /\ lst m0 q = lst (h_filas h) q /\ recof m0 q = recof (h_filas h) q) as M0.
    { intros q Hq. unfold nxt, lst, recof, m0, upd. replace (q =? new) with false by lia. auto. }
    assert (nxt m0 new = Some f /\ lst m0 new = Some x /\ recof m0 new = Some val) as (M0n & M0l & M0r).
    { unfold nxt, lst, recof, m0, upd. rewrite Z.eqb_refl. auto. }
    destruct (set_f_next_ok h1 x new) as (m1 & S1 & N1 & L1 & R1); [lia| |].
    { change (m0 x <> None). apply (nxt_some _ _ f). destruct (M0 x) as (-> & _); [lia|exact Nx]. }
    rewrite S1. cbn [bind]. change (h_filas h1) with m0 in *.
    change (h_fila (set_filas h1 m1)) with (h_fila h). rewrite HH.
    destruct (set_f_last_ok (set_filas h1 m1) f new) as (m2 & S2 & N2 & L2 & R2); [lia| |].
    { cbn. apply (lst_some _ _ x). rewrite L1. destruct (M0 f) as (_ & -> & _); [lia|exact Lx]. }
    rewrite S2. cbn [bind]. cbn [h_filas set_filas] in N2, L2, R2.
    exists m2. split; [reflexivity|]. split; [|split].
    + constructor; cbn [h_filas h_fila h_brk].
      * constructor; assumption.
      * apply (cyc_link (nxt (h_filas h)) (lst (h_filas h)) _ _ new f R x).
        -- constructor; assumption.
        -- exact HC.
        -- exact Lx.
        -- intros q Q1 Q2. rewrite N2, N1. replace (q =? x) with false by lia. apply M0. exact Q2.
        -- rewrite N2, N1, Z.eqb_refl. reflexivity.
        -- rewrite N2, N1. replace (new =? x) with false by lia. exact M0n.
        -- intros q Q1 Q2. rewrite L2, L1. replace (q =? f) with false by lia. apply M0. exact Q2.
        -- rewrite L2, Z.eqb_refl. reflexivity.
        -- rewrite L2, L1. replace (new =? f) with false by lia. exact M0l.
      * reflexivity.
      * intros q [<-|Hq]; [lia|]. specialize (HA q Hq). lia.
      * intros q. destruct (Z.eq_dec q new) as [->|N].
        -- split; [intros _|left; reflexivity]. apply (rec_none m2 m0); [rewrite R2; apply R1|].
           apply (nxt_some _ _ f). exact M0n.
        -- rewrite (rec_none m2 (h_filas h)).
           2:{ rewrite R2, R1. apply M0. exact N. }
           rewrite <- HD. cbn. split; [intros [?|?]; [congruence|assumption]|tauto].
    + rewrite R2, R1. exact M0r.
    + intros q Hq. rewrite R2, R1. apply M0. exact Hq.
Qed.
