(** Compression never leaves its buffers and always ends. *)
From Verif Require Import CBase Bits SpecDwStr ModelDwStr ModelDwCompress ModelDwDnsStr ModelDwPack ProofDwStr ProofDwCompressSafe ProofDwDnsSafe ProofDwRecurseSafe.

Lemma rd_byte_post {A} s i (k : Z -> res A) (Q : A -> Prop) : dok s -> 0 <= i <= d_len s + 1 -> (forall v, 0 <= v < 256 -> post Q (k v)) -> post Q (bind (rd (d_mem s) i) k).
Proof. intros ([B L M Me] & K) Hi H. destruct (rd_byte (d_mem s) i B ltac:(lia)) as (v & -> & _ & Hv). apply H. exact Hv. Qed.
Lemma label_bytes_safe n : forall a b a_o b_o c, dok a -> dok b -> 0 <= a_o -> 0 <= b_o -> a_o + c <= d_len a -> b_o + c <= d_len b -> post (fun r => 0 <= r <= 1) (label_bytes n (d_mem a) a_o (d_mem b) b_o c).
Proof.
  induction n as [|n IH]; intros a b a_o b_o c Da Db Ha Hb La Lb; cbn [label_bytes]; [cbn [post]; lia|]. destruct (Z.ltb_spec 0 c); [|cbn [post]; lia].
  apply rd_byte_post; [exact Da|lia|]. intros x Hx. apply rd_byte_post; [exact Db|lia|]. intros y Hy. destruct (negb _); [cbn [post]; lia|]. apply IH; auto; lia.
Qed.
Lemma label_same_safe a a_o b b_o : dok a -> dok b -> -1000000000 <= a_o <= 1000000000 -> -1000000000 <= b_o <= 1000000000 -> post (fun r => -1 <= r <= 1 /\ (r = 1 -> 0 <= a_o <= d_len a /\ 0 <= b_o <= d_len b)) (dwc_label_same a a_o b b_o).
Proof.
  intros Da Db Ha Hb. unfold dwc_label_same. rewrite (dok_sane a Da), (dok_sane b Db). cbn [negb orb]. destruct ((d_len a <? u32 a_o) || (d_len b <? u32 b_o) || (a_o <? 0) || (b_o <? 0)) eqn:E; [cbn [post]; lia|].
  destruct (Z.ltb_spec a_o 0); [rewrite !orb_true_r in E; discriminate|]. destruct (Z.ltb_spec b_o 0); [rewrite !orb_true_r in E; discriminate|]. rewrite !u32_small in E by lia.
  apply rd_byte_post; [exact Da|lia|]. intros x Hx. apply rd_byte_post; [exact Db|lia|]. intros y Hy. destruct (negb _); [cbn [post]; lia|].
  destruct ((64 <? x) || (d_len a <? u32 (a_o + x)) || (d_len b <? u32 (b_o + x))) eqn:E2; [cbn [post]; lia|]. rewrite !u32_small in E2 by lia.
  eapply post_weak; [|apply label_bytes_safe; auto; lia]. cbn beta. lia.
Qed.
Lemma dname_loop_safe n : forall u u_o c place q in_q, dok u -> dok c -> (forall s, q = Some s -> dok s) -> (q = None -> in_q = false) -> -1000000 <= u_o <= d_len u + 200000 -> -1000000 <= place <= 999999999 -> post (fun r => -1 <= r <= 1) (dname_same_loop n u u_o c place q in_q).
Proof.
  induction n as [|n IH]; intros u u_o c place q in_q Du Dc Dq Hq Hu Hp; cbn [dname_same_loop]; [cbn [post]; lia|]. pose proof Du as ([Bu Lu Mu Meu] & Ku). pose proof Dc as ([Bc Lc Mc Mec] & Kc).
  eapply (post_bind (fun r => match r with None => True | Some (p, i) => -1000000 <= p <= 999999999 /\ (q = None -> i = false) end)).
  { destruct in_q; [cbn [post]; split; [lia|exact Hq]|]. eapply post_bind; [apply decomp_offset_safe; [exact Dc|lia|destruct q as [q'|]; [pose proof (Dq q' eq_refl) as ([? ? ? ?] & ?); lia|lia]]|].
    intros p Hpp; cbn beta in Hpp. destruct (p =? -1); [exact Logic.I|]. destruct q as [q'|].
    - destruct (p <? -1) eqn:E; cbn [post]; (split; [lia|discriminate]).
    - destruct (p <? 0) eqn:E; cbn [post]; [exact Logic.I|]. split; [lia|reflexivity]. }
  intros [(p & i)|] H; [|cbn [post]; lia]. destruct H as (Hpr & Hi).
  assert (exists src, (if i then q else Some c) = Some src /\ dok src) as (src & -> & Ds).
  { destruct i; [|eauto]. destruct q as [q'|]; [eauto|]. discriminate (Hi eq_refl). }
  pose proof Ds as ([Bs Ls Ms Mes] & Ks). eapply post_bind; [apply label_same_safe; [exact Du|exact Ds|lia|lia]|]. intros same (Hs1 & Hs2). destruct (Z.eqb_spec same 1) as [E|E]; cbn [negb]; [|cbn [post]; lia]. specialize (Hs2 E).
  apply rd_byte_post; [exact Du|lia|]. intros len Hlen. destruct (len =? 0); [cbn [post]; lia|]. destruct ((64 <? len) || (d_len u <=? u32 (u_o + len))) eqn:E1; [cbn [post]; lia|]. destruct (d_len src <=? u32 (p + len)) eqn:E2; [cbn [post]; lia|].
  rewrite !u32_small in E1, E2 by lia. apply IH; auto; lia.
Qed.
Lemma dname_same_safe u u_o c c_o q : dok u -> dok c -> (forall s, q = Some s -> dok s) -> -1000000 <= u_o <= d_len u + 200000 -> -1000000 <= c_o <= 999999999 -> post (fun r => -1 <= r <= 1) (dwc_dname_same u u_o c c_o q).
Proof. intros Du Dc Dq Hu Hc. unfold dwc_dname_same. destruct (_ || _ || _ || _ || _ || _) eqn:E; [cbn [post]; lia|]. apply dname_loop_safe; auto. Qed.

Lemma push_loop_safe n : forall q s place, dok q -> dok s -> 0 <= place <= d_len q + 1000 -> post (fun s' => grown s s') (push_loop n q s place 32768).
Proof.
  induction n as [|n IH]; intros q s place Dq Ds Hp; cbn [push_loop]; [apply grown_refl; exact Ds|]. pose proof Dq as ([Bq Lq Mq Meq] & Kq). rewrite u32_small by lia.
  destruct ((d_len q <? place) || (place <? 0)) eqn:E; [exact Logic.I|]. apply rd_byte_post; [exact Dq|lia|]. intros len Hlen. destruct ((192 <=? len) || (len =? 0)); [apply grown_refl; exact Ds|]. destruct (64 <=? len) eqn:E64; [exact Logic.I|].
  destruct (_ || _ || _ || _); [exact Logic.I|]. eapply post_bind; [apply push_grown; exact Ds|]. intros (code & s1) G1. destruct (code =? -1); [exact Logic.I|].
  eapply post_weak; [|apply IH; [exact Dq|exact (proj1 G1)|lia]]. cbn beta. intros s2 G2. eapply grown_trans; eassumption.
Qed.

Section SAFE.
  Variable J : Z -> Z.
  Hypothesis HJ : junk_ok J.
  Variables u q : dwstr.
  Hypothesis Du : dok u.
  Hypothesis Dq : dok q.

  Lemma seek_loop_safe n : forall u_o c s s_o, dok c -> dok s -> -1000000 <= u_o <= d_len u + 200000 -> 0 <= s_o <= d_len s + 2 -> post (fun r => -2 <= r) (seek_loop n u u_o c q s s_o).
  Proof.
    pose proof Dq as ([Bq Lq Mq Meq] & Kq). induction n as [|n IH]; intros u_o c s s_o Dc Ds Hu Hs; cbn [seek_loop]; [cbn [post]; lia|]. pose proof Ds as ([Bs Ls Ms Mes] & Ks). pose proof Dc as ([Bc Lc Mc Mec] & Kc). rewrite u32_small by lia.
    destruct (Z.ltb_spec s_o (d_len s)); [|cbn [post]; lia]. apply fetch_post; [auto|lia|]. intros v Hv. destruct (Z.ltb_spec v 0); [cbn [post]; lia|].
    assert (0 <= Z.land v 16383 < 16384) as Hl by (change 16384 with (2 ^ 14); apply land_bound_r; lia). cbv zeta.
    destruct (32768 <=? v).
    - eapply post_bind; [apply dname_same_safe; auto; try lia; discriminate|]. intros same _. destruct (same =? 1); [cbn [post]; lia|]. apply IH; auto; lia.
    - eapply post_bind; [apply dname_same_safe; auto; try lia; intros x E; injection E as <-; exact Dq|]. intros same _. destruct (same =? 1); [cbn [post]; lia|]. apply IH; auto; lia.
  Qed.
  Lemma seek_safe u_o c s : dok c -> dok s -> -1000000 <= u_o <= d_len u + 200000 -> post (fun r => -2 <= r /\ (r <> -1 -> 0 <= u_o <= d_len u)) (dwc_seek_comp_pointer u u_o c q s).
  Proof.
    intros Dc Ds Hu. pose proof Du as ([Bu Lu Mu Meu] & Ku). unfold dwc_seek_comp_pointer. rewrite (dok_sane u Du), (dok_sane c Dc). cbn [negb orb]. destruct (Z.ltb_spec u_o 0); cbn [orb]; [cbn [post]; lia|]. rewrite u32_small by lia. destruct (Z.ltb_spec (d_len u) u_o); [cbn [post]; lia|].
    pose proof Ds as ([Bs Ls Ms Mes] & Ks). eapply post_weak; [|apply seek_loop_safe; auto; lia]. cbn beta. lia.
  Qed.
  Definition grows (c s : dwstr) (r : Z * dwstr * dwstr) : Prop := let '(o, c', s') := r in grown c c' /\ grown s s' /\ -1000000 <= o <= d_len u + 100000.
  Lemma grows_trans c s c1 s1 r : grown c c1 -> grown s s1 -> grows c1 s1 r -> grows c s r.
  Proof. destruct r as ((o & c') & s'). intros G1 G2 (G3 & G4 & H). split; [eapply grown_trans; eassumption|]. split; [eapply grown_trans; eassumption|exact H]. Qed.
  Lemma dlabel_safe n : forall u_o c s, dok c -> dok s -> -1000000 <= u_o <= d_len u + 100000 -> post (grows c s) (dlabel_loop n J u u_o c s q).
  Proof.
    pose proof Du as ([Bu Lu Mu Meu] & Ku). induction n as [|n IH]; intros u_o c s Dc Ds Hu; cbn [dlabel_loop]; [exact Logic.I|]. eapply post_bind; [apply seek_safe; [exact Dc|exact Ds|lia]|]. intros p (Hp1 & Hp2).
    destruct (Z.ltb_spec 0 p).
    - eapply post_bind; [apply push_grown; exact Dc|]. intros (code & c1) G1. destruct (code =? -1); [exact Logic.I|]. specialize (Hp2 ltac:(lia)). eapply post_bind; [apply get_dn_end_safe; [auto|lia]|]. intros e He; cbn beta in He. destruct (e =? -1); [exact Logic.I|].
      cbn [post grows]. split; [exact G1|]. split; [apply grown_refl; exact Ds|lia].
    - destruct (Z.eqb_spec p (-2)) as [E|E]; [|exact Logic.I]. specialize (Hp2 ltac:(lia)). apply rd_byte_post; [exact Du|lia|]. intros len Hlen. destruct (Z.ltb_spec 63 len); [exact Logic.I|]. destruct (len =? 0).
      + eapply post_bind; [apply addchar_grown; exact Dc|]. intros (code & c1) G1. cbn [post grows]. split; [exact G1|]. split; [apply grown_refl; exact Ds|lia].
      + eapply post_bind; [apply push_grown; exact Ds|]. intros (code & s1) G1. destruct (code =? -1); [exact Logic.I|]. eapply post_bind; [apply substr_post; auto; lia|]. intros [tmp|] Ht; [|exact Logic.I].
        eapply post_bind; [apply append_grown; [intros x [= <-]; apply Ht; reflexivity|exact Dc]|]. intros (code2 & c1) G2. eapply post_weak; [|apply IH; [exact (proj1 G2)|exact (proj1 G1)|lia]]. intros r. apply grows_trans; assumption.
  Qed.
  Lemma dlabels_safe fuel : forall u_o c num s d, dok c -> dok s -> -1000000 <= u_o <= d_len u + 100000 -> 0 <= d <= 20 -> 20 - d < Z.of_nat fuel -> post (grows c s) (compress_dlabels fuel J u u_o c num s q d).
  Proof.
    induction fuel as [|fuel IH]; intros u_o c num s d Dc Ds Hu Hd Hf; cbn [compress_dlabels].
    { lia. }
    destruct (_ || _ || _ || _ || _) eqn:E; [exact Logic.I|]. destruct ((20 <=? d) || (num <=? 0)) eqn:E2; [cbn [post grows]; split; [apply grown_refl; exact Dc|]; split; [apply grown_refl; exact Ds|lia]|].
    eapply post_bind; [apply dlabel_safe; auto|]. intros ((o & c1) & s1) (G1 & G2 & Ho). eapply post_weak; [|apply IH; [exact (proj1 G1)|exact (proj1 G2)|lia|lia|lia]]. intros r. apply grows_trans; assumption.
  Qed.
  Lemma copy_part_safe o n c : dok c -> -1000000 <= o <= d_len u + 100000 -> 0 <= n <= 100 -> post (fun '(o', c') => grown c c' /\ -1000000 <= o' <= o + n) (copy_part J u o n c).
  Proof.
    intros Dc Ho Hn. pose proof Du as ([Bu Lu Mu Meu] & Ku). unfold copy_part. destruct (Z.ltb_spec 0 n); [|cbn [post]; split; [apply grown_refl; exact Dc|lia]]. eapply post_bind; [apply substr_post; auto; lia|]. intros tmp Ht.
    eapply post_bind; [apply append_grown; [exact Ht|exact Dc]|]. intros (code & c1) G1. destruct (code =? -1); [exact Logic.I|]. cbn [post]. split; [exact G1|lia].
  Qed.
  Lemma comp_rddata_safe t o c s : dok c -> dok s -> -1000000 <= o <= d_len u + 90000 -> post (fun r => let '(_, c', s') := r in grown c c' /\ grown s s') (dwc_comp_rddata J (dwc_type_desc t) u o c s q).
  Proof.
    intros Dc Ds Ho. pose proof (desc_bounds t) as (Hl & Ht). unfold dwc_comp_rddata. destruct (_ || _ || _ || _ || _ || _) eqn:E; [exact Logic.I|].
    eapply post_bind; [apply copy_part_safe; [exact Dc|lia|lia]|]. intros (o1 & c1) (G1 & Ho1). eapply post_bind; [apply dlabels_safe; [exact (proj1 G1)|exact Ds|lia|lia|lia]|]. intros ((o2 & c2) & s2) (G2 & G3 & Ho2).
    eapply post_bind; [apply copy_part_safe; [exact (proj1 G2)|lia|lia]|]. intros (o3 & c3) (G4 & _). cbn [post]. split; [|exact G3]. eapply grown_trans; [exact G1|]. eapply grown_trans; eassumption.
  Qed.
  Lemma compress_rr_safe name data c s : dok c -> dok s -> 0 <= name < 65536 -> 0 <= data < 65536 -> post (fun '(c', s') => grown c c' /\ grown s s') (dwc_compress_rr J name data u c q s).
  Proof.
    intros Dc Ds Hn Hd. pose proof Du as ([Bu Lu Mu Meu] & Ku). unfold dwc_compress_rr. destruct (_ || _ || _ || _); [exact Logic.I|]. destruct ((d_len u <? name) || (d_len u <? data) || (data <? name)) eqn:E; [exact Logic.I|].
    eapply post_bind; [apply dlabels_safe; [exact Dc|exact Ds|lia|lia|lia]|]. intros ((o & c1) & s1) (G1 & G2 & Ho). destruct (Z.eqb_spec o data) as [->|X]; cbn [negb]; [|exact Logic.I].
    eapply post_bind; [apply substr_post; auto; lia|]. intros [tmp|] Ht; [|exact Logic.I]. eapply post_bind; [apply append_grown; [intros x [= <-]; apply Ht; reflexivity|exact (proj1 G1)]|]. intros (code & c2) G3.
    apply fetch_post; [auto|lia|]. intros ty Hty. cbv zeta. pose proof (grown_trans _ _ _ G1 G3) as G13. destruct (Z.land (dwc_type_desc ty) 4096 =? 0).
    - apply fetch_post; [auto|lia|]. intros len Hlen. eapply post_bind; [apply substr_post; auto; lia|]. intros tmp2 Ht2. eapply post_bind; [apply append_grown; [exact Ht2|exact (proj1 G13)]|]. intros (code2 & c3) G4. destruct (code2 =? -1); [exact Logic.I|]. cbn [post]. split; [eapply grown_trans; eassumption|exact G2].
    - eapply post_bind; [apply comp_rddata_safe; [exact (proj1 G13)|exact (proj1 G2)|lia]|]. intros ((o3 & c3) & s3) (G4 & G5). pose proof (proj1 G13) as ([B2 L2 M2 Me2] & K2). eapply post_bind; [apply put_grown; [exact (proj1 G4)|lia]|]. intros (code3 & c4) G6. cbn [post].
      split; [|eapply grown_trans; eassumption]. eapply grown_trans; [exact G13|]. eapply grown_trans; eassumption.
  Qed.
  Lemma section_safe n : forall l seek c s, u16s l -> 0 <= seek -> seek + 2 * Z.of_nat n <= zlen l -> dok c -> dok s -> post (fun '(c', s') => grown c c' /\ grown s s') (compress_section n J l seek u c q s).
  Proof.
    induction n as [|n IH]; intros l seek c s U Hs Hl Dc Ds; cbn [compress_section]; [cbn [post]; split; apply grown_refl; assumption|].
    apply rd16_post; [exact U|lia|]. intros name Hn. apply rd16_post; [exact U|lia|]. intros data Hd. eapply post_bind; [apply compress_rr_safe; assumption|]. intros (c1 & s1) (G1 & G2).
    eapply post_weak; [|apply IH; [exact U|lia|lia|exact (proj1 G1)|exact (proj1 G2)]]. intros (c2 & s2) (G3 & G4). split; eapply grown_trans; eassumption.
  Qed.
End SAFE.

Lemma compress_safe Js Jo J q inp : junk_ok Js -> junk_ok Jo -> junk_ok J -> dwf q -> dwf inp -> post (fun out => dok out /\ d_max out = 515) (dwc_compress Js Jo J q inp).
Proof.
  intros HJs HJo HJ Wq Wi. unfold dwc_compress. destruct (dw_sane q) eqn:Sq; cbn [negb orb]; [|exact Logic.I]. destruct (dw_sane inp) eqn:Si; cbn [negb]; [|exact Logic.I].
  pose proof (dwf_sane q Wq Sq) as Dq. pose proof (dwf_sane inp Wi Si) as Di. pose proof Dq as ([Bq Lq Mq Meq] & Kq).
  destruct (dw_create_ok Js 1024 HJs ltac:(lia)) as (st & -> & Ws & Ls & Ms). destruct (dw_create_ok Jo 515 HJo ltac:(lia)) as (out & -> & Wo & Lo & Mo).
  assert (dok out) as D by (split; [exact Wo|lia]). assert (dok st) as Dst by (split; [exact Ws|lia]).
  unfold dwc_push_offsets. rewrite Sq, (dok_sane st Dst). cbn [negb orb]. eapply post_bind; [apply push_loop_safe; [exact Dq|exact Dst|lia]|]. intros s1 G1.
  eapply post_bind; [apply make_dns_str_safe; assumption|]. intros look [Hp (Ua & La) (Un & Ln) (Ur & Lr) (Hc1 & Hc2 & Hc3) _].
  eapply (post_bind (fun '(c', s') => grown out c' /\ grown s1 s')).
  { unfold dwc_compress_all_rrs. destruct (_ || _ || _ || _); [exact Logic.I|]. eapply post_bind; [apply section_safe; auto; [lia|lia|exact (proj1 G1)]|]. intros (c1 & s2) (A1 & A2). eapply post_bind; [apply section_safe; auto; [lia|lia|exact (proj1 A1)|exact (proj1 A2)]|]. intros (c2 & s3) (B1 & B2).
    eapply post_weak; [|apply section_safe; auto; [lia|lia|exact (proj1 B1)|exact (proj1 B2)]]. intros (c3 & s4) (C1 & C2). split; (eapply grown_trans; [eassumption|eapply grown_trans; eassumption]). }
  intros (c & s) (G2 & _). eapply post_bind; [apply push_grown; exact (proj1 G2)|]. intros (x1 & c1) H1. eapply post_bind; [apply push_grown; exact (proj1 H1)|]. intros (x2 & c2) H2. eapply post_bind; [apply push_grown; exact (proj1 H2)|]. intros (x3 & c3) H3.
  eapply post_bind; [apply addchar_grown; exact (proj1 H3)|]. intros (x4 & c4) H4. cbn [post]. destruct G2 as (_ & M2 & _), H1 as (_ & N1 & _), H2 as (_ & N2 & _), H3 as (_ & N3 & _), H4 as (D4 & N4 & _). split; [exact D4|lia].
Qed.
