(** Taking an upstream reply apart is safe whatever the strings contain. *)
From Verif Require Import CBase Bits SpecDwStr ModelDwStr ModelDwCompress ModelDwDnsStr ModelDwRecurse ProofDwStr ProofDwCompressSafe ProofDwDnsStr ProofDwDnsSafe.

Lemma issame_inner_safe n : forall m1 m2 p1 p2 x1 x2 c, bytes m1 -> bytes m2 -> 0 <= p1 <= x1 -> 0 <= p2 <= x2 -> x1 < zlen m1 -> x2 < zlen m2 ->
  post (fun r => match r with inl code => -1 <= code <= 0 | inr (p1', p2', c') => 0 <= p1' <= x1 /\ 0 <= p2' <= x2 /\ c <= c' end) (issame_inner n m1 m2 p1 p2 x1 x2 c).
Proof.
  induction n as [|n IH]; intros m1 m2 p1 p2 x1 x2 c B1 B2 H1 H2 L1 L2; cbn [issame_inner]; [cbn [post]; lia|].
  destruct (c <? 260); [|cbn [post]; lia]. cbv zeta. destruct ((x1 <? p1 + 1) || (x2 <? p2 + 1)) eqn:E; [cbn [post]; lia|].
  destruct (rd_byte m1 (p1 + 1) B1 ltac:(lia)) as (a & -> & _). destruct (rd_byte m2 (p2 + 1) B2 ltac:(lia)) as (b & -> & _). cbn [bind].
  destruct (negb _); [cbn [post]; lia|]. eapply post_weak; [|apply IH; auto; lia]. intros [code|((p1' & p2') & c')]; lia.
Qed.
Lemma issame_outer_safe n : forall m1 m2 p1 p2 x1 x2 c, bytes m1 -> bytes m2 -> 0 <= p1 <= x1 -> 0 <= p2 <= x2 -> x1 < zlen m1 -> x2 < zlen m2 ->
  post (fun r => -1 <= r <= 1) (issame_outer n m1 m2 p1 p2 x1 x2 c).
Proof.
  induction n as [|n IH]; intros m1 m2 p1 p2 x1 x2 c B1 B2 H1 H2 L1 L2; cbn [issame_outer]; [cbn [post]; lia|].
  destruct (c <? 260); [|cbn [post]; lia]. destruct (rd_byte m1 p1 B1 ltac:(lia)) as (a & -> & _). destruct (rd_byte m2 p2 B2 ltac:(lia)) as (b & -> & _). cbn [bind].
  destruct (negb _); [cbn [post]; lia|]. destruct (63 <? a); [cbn [post]; lia|]. destruct (a =? 0); [cbn [post]; lia|].
  eapply post_bind; [apply issame_inner_safe; auto|]. intros [code|((p1' & p2') & c')] H; cbn beta iota in H; [cbn [post]; lia|]. apply IH; auto; lia.
Qed.
Lemma issame_2dw_safe a oa b ob : dwf a -> dwf b -> post (fun r => -1 <= r <= 1) (dwx_dname_issame_2dw a oa b ob).
Proof.
  intros Wa Wb. unfold dwx_dname_issame_2dw. destruct (negb _ || negb _ || _ || _) eqn:E; [cbn [post]; lia|]. pose proof Wa as [Ba La Ma Mea]. pose proof Wb as [Bb Lb Mb Meb].
  assert (0 <= u32 oa) by (unfold u32; lia). assert (0 <= u32 ob) by (unfold u32; lia). apply issame_outer_safe; auto; lia.
Qed.
Lemma issame_dw_safe a oa ob : dwf a -> post (fun r => -1 <= r <= 1) (dwx_dname_issame_dw a oa ob).
Proof. intros Wa. apply issame_2dw_safe; exact Wa. Qed.

Lemma dn_end_loop_safe n : forall s off, dwf s -> 0 <= off <= 1000000000 -> post (fun r => -1 <= r <= Z.max (off + 1) (d_len s + 66)) (dn_end_loop n s off).
Proof.
  induction n as [|n IH]; intros s off W Ho; cbn [dn_end_loop]; [cbn [post]; lia|]. pose proof W as [B L M Me]. rewrite u32_small by lia.
  destruct (Z.ltb_spec (d_len s) (off + 1)); [cbn [post]; lia|]. destruct (rd_byte (d_mem s) off B ltac:(lia)) as (len & -> & _ & Hb). unfold byte in Hb. cbn [bind].
  destruct (192 <=? len); [cbn [post]; lia|]. destruct (Z.ltb_spec 63 len); [cbn [post]; lia|]. destruct (len =? 0); [cbn [post]; lia|].
  eapply post_weak; [|apply IH; [exact W|lia]]. cbn beta. lia.
Qed.
Lemma get_dn_end_safe s off : dwf s -> 0 <= off <= 1000000000 -> post (fun r => -1 <= r <= Z.max (off + 1) (d_len s + 66)) (dw_get_dn_end s off).
Proof. intros W Ho. unfold dw_get_dn_end. pose proof (dwf_len s W). destruct (negb _); [cbn [post]; lia|]. apply dn_end_loop_safe; assumption. Qed.

Lemma bailiwick_query_safe n : forall inp o q qo, dwf inp -> dwf q -> 0 <= qo < d_len q -> post (fun _ => True) (bailiwick_query_loop n inp o q qo).
Proof.
  induction n as [|n IH]; intros inp o q qo Wi Wq Hq; cbn [bailiwick_query_loop]; [exact Logic.I|]. pose proof Wq as [B L M Me].
  destruct (rd_byte (d_mem q) qo B ltac:(lia)) as (len & -> & _ & Hb). unfold byte in Hb. cbn [bind]. destruct (len =? 0); [exact Logic.I|]. destruct (63 <? len); [exact Logic.I|]. cbv zeta.
  destruct (Z.leb_spec (d_len q) (qo + len + 1)); [exact Logic.I|]. eapply post_bind; [apply issame_2dw_safe; assumption|]. intros r _. destruct (r =? 1); [exact Logic.I|]. apply IH; auto; lia.
Qed.
Lemma bailiwick_top_safe n : forall inp o b, dwf inp -> dwf b -> 0 <= o < d_len inp -> post (fun _ => True) (bailiwick_top_loop n inp o b).
Proof.
  induction n as [|n IH]; intros inp o b Wi Wb Ho; cbn [bailiwick_top_loop]; [exact Logic.I|]. pose proof Wi as [B L M Me].
  destruct (rd_byte (d_mem inp) o B ltac:(lia)) as (len & -> & _ & Hb). unfold byte in Hb. cbn [bind]. destruct (len =? 0); [exact Logic.I|]. destruct (63 <? len); [exact Logic.I|]. cbv zeta.
  destruct (Z.leb_spec (d_len inp) (o + len + 1)); [exact Logic.I|]. eapply post_bind; [apply issame_2dw_safe; assumption|]. intros r _. destruct (r =? 1); [exact Logic.I|]. apply IH; auto; lia.
Qed.
Lemma in_bailiwick_safe inp o b q : dwf inp -> dwf b -> (forall s, q = Some s -> dwf s) -> post (fun _ => True) (dwx_string_in_bailiwick inp o b q).
Proof.
  intros Wi Wb Wq. unfold dwx_string_in_bailiwick. eapply (post_bind (fun _ => True)).
  - destruct q as [q|]; [|exact Logic.I]. specialize (Wq q eq_refl). unfold dwx_string_bailiwick_query. pose proof Wq as [B L M Me]. destruct (Z.leb_spec (d_len q) 2); [exact Logic.I|].
    eapply post_bind; [apply issame_2dw_safe; assumption|]. intros r _. destruct (r =? 1); [exact Logic.I|]. apply bailiwick_query_safe; auto; lia.
  - intros g _. destruct g; [|exact Logic.I]. unfold dwx_string_bailiwick_top. destruct (_ || _) eqn:E; [exact Logic.I|]. apply bailiwick_top_safe; auto; lia.
Qed.

Ltac ifc := match goal with |- post _ (if ?b then _ else _) => destruct b eqn:? end.

(** A view: one type per record, at least one. *)
Definition tylen (c : Z) : Z := if c =? 0 then 1 else c.
Record det_ok (v : details) (s : dwstr) : Prop := {
  dt_look : dns_ok (v_look v) s;
  dt_an : zlen (v_an v) = tylen (n_ancount (v_look v));
  dt_ns : zlen (v_ns v) = tylen (n_nscount (v_look v));
  dt_ar : zlen (v_ar v) = tylen (n_arcount (v_look v));
  dt_ns0 : n_nscount (v_look v) = 0 -> v_ns v = [0] }.
Definition no32 (v : details) : Prop := forall j, 15 <= j -> zget (v_ns v) j <> Some 32.

Lemma rd_post {A} l i (k : Z -> res A) (Q : A -> Prop) : 0 <= i < zlen l -> (forall v, post Q (k v)) -> post Q (bind (rd l i) k).
Proof. intros Hi H. destruct (rd_ok l i Hi) as (v & -> & _). apply H. Qed.
Lemma wr_post {A} l i x (k : list Z -> res A) (Q : A -> Prop) : 0 <= i < zlen l -> (forall l', zlen l' = zlen l -> post Q (k l')) -> post Q (bind (wr l i x) k).
Proof. intros Hi H. rewrite wr_ok by exact Hi. apply H. apply zlen_zupd. Qed.
Lemma rd16_post {A} l i (k : Z -> res A) (Q : A -> Prop) : u16s l -> 0 <= i < zlen l -> (forall v, 0 <= v < 65536 -> post Q (k v)) -> post Q (bind (rd l i) k).
Proof. intros U Hi H. eapply post_bind; [apply u16s_rd; eassumption|]. exact H. Qed.
Lemma fetch_post {A} s o (k : Z -> res A) (Q : A -> Prop) : dwf s -> -1000000000 <= o <= 1000000000 -> (forall v, -1 <= v < 65536 -> post Q (k v)) -> post Q (bind (dw_fetch_u16 s o) k).
Proof. intros W Ho H. destruct (dw_fetch_u16_safe s o W Ho) as (v & -> & Hv). apply H. lia. Qed.

Lemma types_loop_safe n : forall inp offs i types, dwf inp -> u16s offs -> 0 <= i -> 2 * (i + Z.of_nat n) <= zlen offs -> i + Z.of_nat n <= zlen types ->
  post (fun t => zlen t = zlen types) (types_loop n inp offs i types).
Proof.
  induction n as [|n IH]; intros inp offs i types W U Hi Hl Ht; cbn [types_loop]; [reflexivity|].
  apply rd16_post; [exact U|lia|]. intros o Ho. apply fetch_post; [exact W|lia|]. intros t Hty. apply wr_post; [lia|]. intros l' El. rewrite <- El. apply IH; auto; lia.
Qed.
Lemma retype_safe n : forall f i types, 0 <= i -> i + Z.of_nat n <= zlen types -> post (fun t => zlen t = zlen types) (retype n f i types).
Proof.
  induction n as [|n IH]; intros f i types Hi Ht; cbn [retype]; [reflexivity|].
  apply rd_post; [lia|]. intros t. apply wr_post; [lia|]. intros l' El. rewrite <- El. apply IH; auto; lia.
Qed.
Lemma retype_no x n : forall f i types, (forall t, f t <> x) -> 0 <= i -> i + Z.of_nat n <= zlen types ->
  post (fun t => forall j, (i <= j < i + Z.of_nat n -> zget t j <> Some x) /\ (j < i -> zget t j = zget types j)) (retype n f i types).
Proof.
  induction n as [|n IH]; intros f i types Hf Hi Ht; cbn [retype]; [intros j; split; [lia|reflexivity]|].
  apply rd_post; [lia|]. intros t. rewrite wr_ok by lia. cbn [bind]. pose proof (zlen_zupd types i (f t)).
  eapply post_weak; [|apply IH; [exact Hf|lia|lia]]. intros t' H1 j. destruct (H1 j) as (Ha & Hb). split.
  - intros Hj. destruct (Z.eq_dec j i) as [->|]; [|apply Ha; lia]. rewrite Hb by lia. rewrite zget_zupd_eq by lia. intros [= E]. exact (Hf t E).
  - intros Hj. rewrite Hb by lia. apply zget_zupd_neq. lia.
Qed.

Section SAFE.
  Variables Jz Jo J : Z -> Z.
  Hypothesis HJz : junk_ok Jz.
  Hypothesis HJo : junk_ok Jo.
  Hypothesis HJ : junk_ok J.
  Variables inp query bailiwick : dwstr.
  Hypothesis Wi : dwf inp.
  Hypothesis Wq : dwf query.
  Hypothesis Wb : dwf bailiwick.

  Lemma zlen_init c : 0 <= c -> zlen (init_types c) = tylen c.
  Proof. intros H. unfold init_types, tylen. destruct (c =? 0); apply zlen_zeros; lia. Qed.
  Lemma tylen_le c : 0 <= c -> c <= tylen c /\ 1 <= tylen c.
  Proof. intros. unfold tylen. destruct (Z.eqb_spec c 0); lia. Qed.

  Lemma create_details_safe : post (fun v => det_ok v inp) (dwx_create_dns_details J inp).
  Proof.
    unfold dwx_create_dns_details. eapply post_bind; [apply make_dns_str_safe; [exact HJ|exact Wi]|]. intros look HL. pose proof HL as [Hp (Ua & La) (Un & Ln) (Ur & Lr) (Hc1 & Hc2 & Hc3) D].
    pose proof (tylen_le (n_ancount look)). pose proof (tylen_le (n_nscount look)). pose proof (tylen_le (n_arcount look)).
    eapply post_bind; [apply types_loop_safe; auto; rewrite ?zlen_init; lia|]. intros an Han; cbn beta in Han.
    eapply (post_bind (fun ns => zlen ns = tylen (n_nscount look) /\ (n_nscount look = 0 -> ns = [0]))).
    { destruct (Z.eq_dec (n_nscount look) 0) as [->|N]; [split; auto|]. eapply post_weak; [|apply types_loop_safe; auto; rewrite ?zlen_init; lia]. cbn beta. intros ns ->. rewrite zlen_init by lia. split; [reflexivity|lia]. }
    intros ns (Hns & Hns0).
    eapply post_bind; [apply types_loop_safe; auto; rewrite ?zlen_init; lia|]. intros ar Har; cbn beta in Har. rewrite zlen_init in * by lia. constructor; cbn [v_look v_an v_ns v_ar]; auto; lia.
  Qed.

  Lemma check_any_safe n : forall an i types cc uc, u16s an -> 0 <= i -> 2 * (i + Z.of_nat n) <= zlen an -> i + Z.of_nat n <= zlen types -> 0 <= cc <= i ->
    post (fun t => zlen t = zlen types) (check_any_loop n inp query an i types cc uc).
  Proof.
    induction n as [|n IH]; intros an i types cc uc U Hi Hl Ht Hcc; cbn [check_any_loop]; [reflexivity|].
    apply rd16_post; [exact U|lia|]. intros o Ho. apply rd16_post; [exact U|lia|]. intros o1 Ho1.
    eapply post_bind; [apply issame_2dw_safe; assumption|]. intros sq _. apply fetch_post; [exact Wi|lia|]. intros ty Hty.
    ifc; [apply IH; auto; lia|]. ifc; [apply IH; auto; lia|].
    eapply (post_bind (fun _ => True)).
    { destruct (Z.ltb_spec 0 cc); [|exact Logic.I]. apply rd16_post; [exact U|lia|]. intros t Ht'. eapply post_weak; [|apply issame_dw_safe; exact Wi]. auto. }
    intros sc _. ifc; [apply IH; auto; lia|]. ifc; [apply IH; auto; lia|]. apply wr_post; [lia|]. intros l' El. rewrite <- El. apply IH; auto; lia.
  Qed.
  Lemma check_safe n : forall an qt i types cc uc off, u16s an -> 0 <= i -> 2 * (i + Z.of_nat n) <= zlen an -> i + Z.of_nat n <= zlen types -> -1 <= cc <= i ->
    post (fun t => zlen t = zlen types) (check_loop n inp query bailiwick an qt i types cc uc off).
  Proof.
    induction n as [|n IH]; intros an qt i types cc uc off U Hi Hl Ht Hcc; cbn [check_loop]; [reflexivity|].
    apply rd16_post; [exact U|lia|]. intros o Ho. apply rd16_post; [exact U|lia|]. intros o1 Ho1.
    eapply post_bind; [apply issame_2dw_safe; assumption|]. intros sq _. apply fetch_post; [exact Wi|lia|]. intros ty Hty.
    ifc; [apply IH; auto; lia|]. ifc.
    { apply rd16_post; [exact U|lia|]. intros t _. eapply post_bind; [apply in_bailiwick_safe; auto; discriminate|]. intros g _. destruct (negb g); apply IH; auto; lia. }
    eapply (post_bind (fun _ => True)).
    { destruct (Z.ltb_spec 0 cc); [|exact Logic.I]. apply rd16_post; [exact U|lia|]. intros t Ht'. eapply post_weak; [|apply issame_dw_safe; exact Wi]. auto. }
    intros sc _. ifc.
    { apply rd16_post; [exact U|lia|]. intros t _. eapply post_bind; [apply in_bailiwick_safe; auto; discriminate|]. intros g _. destruct (negb g); apply IH; auto; lia. }
    ifc; [apply IH; auto; lia|]. apply wr_post; [lia|]. intros l' El. rewrite <- El. apply IH; auto; lia.
  Qed.
  Lemma check_answer_safe v : det_ok v inp -> post (fun v' => det_ok v' inp) (dwx_check_answer_section inp query v bailiwick).
  Proof.
    intros [HL Han Hns Har H0]. pose proof HL as [Hp (Ua & La) (Un & Ln) (Ur & Lr) (Hc1 & Hc2 & Hc3) D]. unfold dwx_check_answer_section. cbv zeta. pose proof (tylen_le (n_ancount (v_look v))).
    apply fetch_post; [exact Wq|lia|]. intros qt _. destruct (qt =? -1); [exact Logic.I|]. destruct (qt =? 255).
    - eapply post_bind; [apply check_any_safe; auto; lia|]. intros an E; cbn beta in E. constructor; cbn [v_look v_an v_ns v_ar set_an]; auto; lia.
    - eapply post_bind; [apply check_safe; auto; lia|]. intros an E; cbn beta in E. constructor; cbn [v_look v_an v_ns v_ar set_an]; auto; lia.
  Qed.
  Lemma retype_ns f v : det_ok v inp -> post (fun ns => zlen ns = tylen (n_nscount (v_look v)) /\ (n_nscount (v_look v) = 0 -> ns = [0])) (retype (Z.to_nat (n_nscount (v_look v))) f 0 (v_ns v)).
  Proof.
    intros [HL Han Hns Har H0]. pose proof HL as [_ _ _ _ (Hc1 & Hc2 & Hc3) _]. pose proof (tylen_le (n_nscount (v_look v))). destruct (Z.eq_dec (n_nscount (v_look v)) 0) as [E|N].
    - replace (Z.to_nat (n_nscount (v_look v))) with O by lia. cbn [retype post]. auto.
    - eapply post_weak; [|apply retype_safe; lia]. cbn beta. intros ns ->. split; [assumption|lia].
  Qed.
  Lemma no_ns_ar_safe v : det_ok v inp -> post (fun v' => det_ok v' inp) (dwx_if_an_then_no_ns_nor_ar v).
  Proof.
    intros Hv. pose proof Hv as [HL Han Hns Har H0]. pose proof HL as [Hp (Ua & La) (Un & Ln) (Ur & Lr) (Hc1 & Hc2 & Hc3) D]. unfold dwx_if_an_then_no_ns_nor_ar. cbv zeta. destruct (_ =? 0); [constructor; assumption|].
    pose proof (tylen_le (n_arcount (v_look v))).
    eapply post_bind; [apply retype_ns; assumption|]. intros ns (E1 & E3). eapply post_bind; [apply retype_safe; lia|]. intros ar E2; cbn beta in E2. constructor; cbn [v_look v_an v_ns v_ar]; auto; lia.
  Qed.
  Lemma post_and {A} (P Q : A -> Prop) r : post P r -> post Q r -> post (fun x => P x /\ Q x) r.
  Proof. destruct r; cbn [post]; auto. Qed.
  Lemma cleanup_safe v : det_ok v inp -> post (fun v' => det_ok v' inp /\ no32 v') (dwx_cleanup_ns_ar v).
  Proof.
    intros Hv. pose proof Hv as [HL Han Hns Har H0]. pose proof HL as [Hp (Ua & La) (Un & Ln) (Ur & Lr) (Hc1 & Hc2 & Hc3) D]. unfold dwx_cleanup_ns_ar. cbv zeta.
    pose proof (tylen_le (n_nscount (v_look v))). pose proof (tylen_le (n_arcount (v_look v))).
    eapply post_bind; [apply post_and; [apply retype_ns; assumption|apply (retype_no 32)]|].
    - intros t. destruct (Z.eqb_spec t 2) as [->|]; cbn [negb andb]; [lia|]. destruct (Z.eqb_spec t 6) as [->|]; cbn [negb]; lia.
    - lia.
    - lia.
    - intros ns ((E1 & E3) & E4). eapply post_bind; [apply retype_safe; lia|]. intros ar E2; cbn beta in E2. split; [constructor; cbn [v_look v_an v_ns v_ar]; auto; lia|].
      intros j Hj. cbn [v_ns]. destruct (Z_lt_dec j (n_nscount (v_look v))); [apply (proj1 (E4 j)); lia|]. rewrite (proj2 (zget_none _ _)); [discriminate|]. rewrite E1. right. unfold tylen. destruct (Z.eqb_spec (n_nscount (v_look v)) 0); lia.
  Qed.

  Lemma glue_max_le c : 0 <= c -> 0 <= glue_max c <= c /\ glue_max c <= 15.
  Proof. intros. unfold glue_max. destruct (Z.ltb_spec 15 c); lia. Qed.
  Lemma check_ns_safe n : forall p ns i types, dwf p -> u16s ns -> 0 <= i -> 2 * (i + Z.of_nat n) <= zlen ns -> i + Z.of_nat n <= zlen types ->
    post (fun t => zlen t = zlen types /\ forall j, zget t j = Some 32 -> zget types j = Some 32) (check_ns_loop n p ns i bailiwick query types).
  Proof.
    induction n as [|n IH]; intros p ns i types W U Hi Hl Ht; cbn [check_ns_loop]; [split; auto|].
    apply rd16_post; [exact U|lia|]. intros o Ho. eapply post_bind; [apply in_bailiwick_safe; auto; intros s [= <-]; assumption|]. intros g _.
    eapply (post_bind (fun t => zlen t = zlen types /\ forall j, zget t j = Some 32 -> zget types j = Some 32)).
    { destruct g; [split; auto|]. rewrite wr_ok by lia. split; [apply zlen_zupd|]. intros j. destruct (Z.eq_dec i j) as [->|N]; [rewrite zget_zupd_eq by lia; discriminate|rewrite zget_zupd_neq by exact N; auto]. }
    intros l' (El & E32). eapply post_weak; [|apply IH; auto; lia]. cbn beta. intros t (E1 & E2). split; [lia|]. auto.
  Qed.
  Lemma check_ns_section_safe v : det_ok v inp -> no32 v -> post (fun v' => det_ok v' inp /\ no32 v' /\ v_look v' = v_look v) (dwx_check_bailiwick_ns_section v query bailiwick).
  Proof.
    intros Hv N. pose proof Hv as [HL Han Hns Har H0]. pose proof HL as [Hp (Ua & La) (Un & Ln) (Ur & Lr) (Hc1 & Hc2 & Hc3) D]. unfold dwx_check_bailiwick_ns_section. cbv zeta. destruct (Z.leb_spec (n_nscount (v_look v)) 0); [cbn [post]; auto|].
    destruct (n_packet (v_look v)) as [p|] eqn:Ep; [|exact Logic.I]. pose proof (tylen_le (n_nscount (v_look v))). pose proof (glue_max_le (n_nscount (v_look v))).
    eapply post_bind; [apply check_ns_safe; auto; lia|]. intros ns (E1 & E2). split; [constructor; cbn [v_look v_an v_ns v_ar set_ns]; auto; lia|]. split; [|reflexivity].
    intros j Hj E. cbn [v_ns set_ns] in E. exact (N j Hj (E2 j E)).
  Qed.
  (** Nothing but the first fifteen NS entries changes. *)
  Definition linked (v v' : details) : Prop := det_ok v' inp /\ v_look v' = v_look v /\ (no32 v -> no32 v').
  Lemma no32_upd v i x : i < 15 -> no32 v -> no32 (set_ns v (zupd (v_ns v) i x)).
  Proof. intros Hi N j Hj. cbn [v_ns set_ns]. rewrite zget_zupd_neq by lia. apply N. exact Hj. Qed.
  Lemma make_link_safe v ns ar : det_ok v inp -> 0 <= ns < n_nscount (v_look v) -> ns < 15 -> 0 <= ar < zlen (v_ar v) -> post (linked v) (dwx_make_link v ns ar).
  Proof.
    intros Hv H1 H15 H2. pose proof Hv as [HL Han Hns Har H0]. unfold dwx_make_link. replace (15 <? ns) with false by lia. pose proof (tylen_le (n_nscount (v_look v))). apply rd_post; [exact H2|]. intros t.
    eapply (post_bind (fun v' => linked v v' /\ v_ar v' = v_ar v)).
    { destruct (_ || _); [|destruct (_ || _)].
      - apply rd_post; [lia|]. intros x. rewrite wr_ok by lia. cbn [bind post]. split; [|reflexivity]. split; [constructor; cbn [v_look v_an v_ns v_ar set_ns]; rewrite ?zlen_zupd; auto; lia|]. split; [reflexivity|apply no32_upd; lia].
      - apply rd_post; [lia|]. intros x. rewrite wr_ok by lia. cbn [bind post]. split; [|reflexivity]. split; [constructor; cbn [v_look v_an v_ns v_ar set_ns]; rewrite ?zlen_zupd; auto; lia|]. split; [reflexivity|apply no32_upd; lia].
      - split; [|reflexivity]. split; auto. }
    intros v' (([HL' Han' Hns' Har' H0'] & E1 & E3) & E2). destruct (t =? 1); [|destruct (t =? 28)].
    - apply wr_post; [rewrite E2; lia|]. intros l El. split; [constructor; cbn [v_look v_an v_ns v_ar set_ar]; auto; congruence|]. split; [exact E1|exact E3].
    - apply wr_post; [rewrite E2; lia|]. intros l El. split; [constructor; cbn [v_look v_an v_ns v_ar set_ar]; auto; congruence|]. split; [exact E1|exact E3].
    - split; [constructor; assumption|]. split; assumption.
  Qed.
  Lemma linked_trans a b c : linked a b -> linked b c -> linked a c.
  Proof. intros (A1 & A2 & A3) (B1 & B2 & B3). split; [exact B1|]. split; [congruence|auto]. Qed.
  Lemma link_ar_safe n : forall p v ns ar, (forall s, p = Some s -> dwf s) -> det_ok v inp -> 0 <= ns < n_nscount (v_look v) -> ns < 15 -> 0 <= ar -> ar + Z.of_nat n <= n_arcount (v_look v) ->
    post (linked v) (link_ar_loop n p v ns ar).
  Proof.
    induction n as [|n IH]; intros p v ns ar Wp Hv H1 H15 H2 H3; cbn [link_ar_loop]; [split; auto|]. pose proof Hv as [HL Han Hns Har H0]. pose proof HL as [Hp (Ua & La) (Un & Ln) (Ur & Lr) (Hc1 & Hc2 & Hc3) D].
    pose proof (tylen_le (n_nscount (v_look v))). pose proof (tylen_le (n_arcount (v_look v))).
    apply rd16_post; [exact Un|lia|]. intros o Ho. apply rd16_post; [exact Ur|lia|]. intros a Ha.
    eapply (post_bind (fun _ => True)). { destruct p as [p|]; [|exact Logic.I]. eapply post_weak; [|apply issame_dw_safe; apply Wp; reflexivity]. auto. }
    intros same _. eapply (post_bind (linked v)). { destruct (same =? 1); [apply make_link_safe; auto; lia|split; auto]. }
    intros v' Hl. pose proof Hl as (Hv' & El & _). eapply post_weak; [|apply IH; auto; try rewrite El; lia]. intros v''. apply linked_trans. exact Hl.
  Qed.
  Lemma link_ns_safe n : forall p v ns, (forall s, p = Some s -> dwf s) -> det_ok v inp -> 0 <= ns -> ns + Z.of_nat n <= glue_max (n_nscount (v_look v)) ->
    post (linked v) (link_ns_loop n p v ns).
  Proof.
    induction n as [|n IH]; intros p v ns Wp Hv H1 H2; cbn [link_ns_loop]; [split; auto|]. pose proof Hv as [HL Han Hns Har H0]. pose proof HL as [Hp (Ua & La) (Un & Ln) (Ur & Lr) (Hc1 & Hc2 & Hc3) D].
    pose proof (glue_max_le (n_nscount (v_look v)) ltac:(lia)). pose proof (tylen_le (n_nscount (v_look v))). apply rd_post; [lia|]. intros t.
    eapply (post_bind (linked v)).
    { destruct (t =? 2); [|split; auto]. rewrite wr_ok by lia. cbn [bind]. eapply post_weak; [|apply link_ar_safe; auto; cbn [v_look set_ns]; try lia].
      - intros v'. apply linked_trans. split; [|split; [reflexivity|apply no32_upd; lia]]. constructor; cbn [v_look v_an v_ns v_ar set_ns]; rewrite ?zlen_zupd; auto; lia.
      - constructor; cbn [v_look v_an v_ns v_ar set_ns]; rewrite ?zlen_zupd; auto; lia. }
    intros v' Hl. pose proof Hl as (Hv' & El & _). eapply post_weak; [|apply IH; auto; try rewrite El; lia]. intros v''. apply linked_trans. exact Hl.
  Qed.
  Lemma link_safe v : det_ok v inp -> post (linked v) (dwx_link_ns_records v).
  Proof.
    intros Hv. pose proof Hv as [HL Han Hns Har H0]. pose proof HL as [Hp _ _ _ (Hc1 & Hc2 & Hc3) _]. pose proof (glue_max_le (n_nscount (v_look v)) ltac:(lia)).
    unfold dwx_link_ns_records. apply link_ns_safe; auto; lia.
  Qed.

  Lemma get_rr_safe p o : dwf p -> 0 <= o <= 1000000 -> post (fun r => forall t, r = Some t -> dwf t) (dwx_get_1_dns_rr J p o).
  Proof.
    intros W Ho. pose proof W as [B L M Me]. unfold dwx_get_1_dns_rr. destruct ((o <? 0) || _) eqn:E; [cbn [post]; discriminate|]. eapply post_bind; [apply get_dn_end_safe; [exact W|lia]|]. intros fin Hf; cbn beta in Hf.
    destruct ((fin =? -1) || _) eqn:Ef; [cbn [post]; discriminate|]. apply fetch_post; [exact W|lia|]. intros cl _. destruct (negb _); [cbn [post]; discriminate|]. apply fetch_post; [exact W|lia|]. intros rl Hrl.
    destruct (rl <? 0) eqn:El; [cbn [post]; discriminate|]. cbv zeta. destruct (_ <=? o) eqn:Eo; [cbn [post]; discriminate|].
    destruct (dw_sane p) eqn:S; [|unfold dw_substr; rewrite S; cbn [negb post]; discriminate]. apply substr_post; [exact HJ|apply dwf_sane; assumption|lia|lia|lia].
  Qed.
  Lemma get_string_safe p o : dwf p -> 0 <= o <= 1000000 -> post (fun r => forall t, r = Some t -> dwf t) (dwx_get_dns_string J p o).
  Proof.
    intros W Ho. pose proof W as [B L M Me]. unfold dwx_get_dns_string. destruct ((o <? 0) || _) eqn:E; [cbn [post]; discriminate|]. eapply post_bind; [apply get_dn_end_safe; [exact W|lia]|]. intros fin Hf; cbn beta in Hf.
    destruct (fin <? o) eqn:Ef; [cbn [post]; discriminate|].
    destruct (dw_sane p) eqn:S; [|unfold dw_substr; rewrite S; cbn [negb post]; discriminate]. apply substr_post; [exact HJ|apply dwf_sane; assumption|lia|lia|lia].
  Qed.
  Lemma push_dwf v s : dwf s -> post (fun '(_, s') => dwf s' /\ d_max s' = d_max s) (dw_push_u16 v s).
  Proof. intros W. destruct (dw_push_u16_gen s v W) as (code & t' & -> & W' & M & L & K). cbn [post]. auto. Qed.
  Lemma addchar_dwf v s : dwf s -> post (fun '(_, s') => dwf s' /\ d_max s' = d_max s) (dw_addchar v s).
  Proof. intros W. destruct (dw_addchar_gen s v W) as (code & t' & -> & W' & M & L & K). cbn [post]. auto. Qed.
  Lemma append_dwf a s : (forall t, a = Some t -> dwf t) -> dwf s -> post (fun '(_, s') => dwf s' /\ d_max s' = d_max s) (dw_append a s).
  Proof. intros Wa W. destruct (dw_append_gen a s Wa W) as (code & t' & -> & W' & M & L & K). cbn [post]. auto. Qed.

  Lemma cname_refer_loop_safe n : forall p an types i out fo, dwf p -> u16s an -> dwf out -> 0 <= i -> 2 * (i + Z.of_nat n) <= zlen an -> i + Z.of_nat n <= zlen types ->
    post (fun '(out', _) => dwf out') (cname_refer_loop n J p an types i out fo).
  Proof.
    induction n as [|n IH]; intros p an types i out fo W U Wo Hi Hl Ht; cbn [cname_refer_loop]; [exact Wo|]. apply rd_post; [lia|]. intros t. destruct (t =? 36); [apply IH; auto; lia|].
    destruct (negb _); [exact Logic.I|]. apply rd16_post; [exact U|lia|]. intros o Ho. eapply post_bind; [apply get_string_safe; [exact W|lia]|]. intros [tmp|] Htmp; [|exact Logic.I]. destruct (256 <? d_len tmp); [exact Logic.I|]. cbv zeta.
    eapply post_bind; [apply push_dwf; exact Wo|]. intros (c1 & o1) (W1 & _). destruct (c1 =? -1); [exact Logic.I|]. eapply post_bind; [apply append_dwf; [exact Htmp|exact W1]|]. intros (c2 & o2) (W2 & _).
    destruct (c2 =? -1); [exact Logic.I|]. apply IH; auto; lia.
  Qed.
  Lemma cname_refer_safe v : det_ok v inp -> post dwf (dwx_make_cname_refer Jo J v).
  Proof.
    intros [HL Han Hns Har H0]. pose proof HL as [Hp (Ua & La) (Un & Ln) (Ur & Lr) (Hc1 & Hc2 & Hc3) D]. unfold dwx_make_cname_refer. cbv zeta. pose proof (tylen_le (n_ancount (v_look v))).
    destruct (dw_create_ok Jo (257 * n_ancount (v_look v)) HJo ltac:(lia)) as (out & -> & Wo & _). destruct (n_packet (v_look v)) as [p|]; [|exact Logic.I].
    eapply post_bind; [apply cname_refer_loop_safe; auto; lia|]. intros (o1 & fo) W1. eapply post_bind; [apply push_dwf; exact W1|]. intros (c1 & o2) (W2 & _). destruct (c1 =? -1); [exact Logic.I|].
    eapply post_bind; [apply addchar_dwf; exact W2|]. intros (c2 & o3) (W3 & _). destruct (c2 =? -1); [exact Logic.I|exact W3].
  Qed.

  Lemma nsglue_safe p o ty : dwf p -> 0 <= o <= 1000000 -> post (fun r => forall t, r = Some t -> dwf t) (dwx_make_nsglue Jo J p o ty).
  Proof.
    intros W Ho. unfold dwx_make_nsglue. assert (forall ot len, 0 <= len <= 16 -> post (fun r => forall t, r = Some t -> dwf t) (match dw_create Jo (len + 2) with None => Ok None | Some out => '(code, out) <- dw_addchar ot out ;; if code =? -1 then Ok None else '(code, out) <- dw_substr_append J p o len out ;; if code =? -1 then Ok None else Ok (Some out) end)) as H.
    { intros ot len Hl. destruct (dw_create_ok Jo (len + 2) HJo ltac:(lia)) as (out & -> & Wo & _). eapply post_bind; [apply addchar_dwf; exact Wo|]. intros (c1 & o1) (W1 & _). destruct (c1 =? -1); [cbn [post]; discriminate|].
      unfold dw_substr_append. destruct (dw_substr_gen J p o len 1 HJ W ltac:(lia) ltac:(lia) ltac:(lia)) as (r & -> & Hr). cbn [bind]. destruct r as [r|]; [|cbn [bind]; rewrite Z.eqb_refl; cbn [post]; discriminate].
      eapply post_bind; [apply append_dwf; [intros t [= <-]; exact (proj1 (Hr r eq_refl))|exact W1]|]. intros (c2 & o2) (W2 & _). destruct (c2 =? -1); cbn [post]; [discriminate|]. intros t [= <-]. exact W2. }
    destruct (is_a_glue ty); [apply (H 1 4); lia|]. destruct (is_aaaa_glue ty); [apply (H 28 16); lia|]. cbn [post]. discriminate.
  Qed.
  Lemma nsglueless_safe p o : dwf p -> 0 <= o <= 900000 -> post (fun r => forall t, r = Some t -> dwf t) (dwx_make_nsglueless Jo J p o).
  Proof.
    intros W Ho. unfold dwx_make_nsglueless. apply fetch_post; [exact W|lia|]. intros rl Hrl. eapply post_bind; [apply get_string_safe; [exact W|lia]|]. intros [tmp|] Htmp; [|cbn [post]; discriminate].
    destruct (Z.eqb_spec (d_len tmp) rl) as [E|]; cbn [negb]; [|cbn [post]; discriminate]. pose proof (dwf_len tmp (Htmp tmp eq_refl)). destruct (dw_create_ok Jo (rl + 5) HJo ltac:(lia)) as (out & -> & Wo & _).
    eapply post_bind; [apply addchar_dwf; exact Wo|]. intros (c1 & o1) (W1 & _). destruct (c1 =? -1); [cbn [post]; discriminate|]. eapply post_bind; [apply push_dwf; exact W1|]. intros (c2 & o2) (W2 & _). destruct (c2 =? -1); [cbn [post]; discriminate|].
    eapply post_bind; [apply append_dwf; [exact Htmp|exact W2]|]. intros (c3 & o3) (W3 & _). destruct (c3 =? -1); cbn [post]; [discriminate|]. intros t [= <-]. exact W3.
  Qed.
  Lemma glued_loop_safe n : forall p ar types i out offset on, dwf p -> u16s ar -> dwf out -> 0 <= i -> 2 * (i + Z.of_nat n) <= zlen ar -> i + Z.of_nat n <= zlen types -> zlen offset = 33 -> 0 <= on <= 31 ->
    post (fun '(out', off', on') => dwf out' /\ zlen off' = 33 /\ 0 <= on' <= 31) (refer_glued_loop n Jo J p ar types i out offset on).
  Proof.
    induction n as [|n IH]; intros p ar types i out offset on W U Wo Hi Hl Ht Ho Hn; cbn [refer_glued_loop]; [split; auto|]. apply rd16_post; [exact U|lia|]. intros o Hoo. apply rd_post; [lia|]. intros t.
    destruct (_ || _); [|apply IH; auto; lia]. apply wr_post; [lia|]. intros off' El. cbv zeta. eapply post_bind; [apply nsglue_safe; [exact W|lia]|]. intros tmp Htmp. eapply post_bind; [apply append_dwf; [exact Htmp|exact Wo]|]. intros (c & o1) (W1 & _).
    destruct ((c =? -1) || _) eqn:E; [exact Logic.I|]. apply IH; auto; lia.
  Qed.
  Lemma glueless_loop_safe n : forall p ns types i out offset on, dwf p -> u16s ns -> dwf out -> 0 <= i -> 2 * (i + Z.of_nat n) <= zlen ns -> i + Z.of_nat n <= zlen types -> zlen offset = 33 -> 0 <= on <= 31 ->
    post (fun '(out', off', on') => dwf out' /\ zlen off' = 33 /\ 0 <= on' <= 31) (refer_glueless_loop n Jo J p ns types i out offset on).
  Proof.
    induction n as [|n IH]; intros p ns types i out offset on W U Wo Hi Hl Ht Ho Hn; cbn [refer_glueless_loop]; [split; auto|]. apply rd_post; [lia|]. intros t.
    destruct (t =? 32); [|apply IH; auto; lia]. apply wr_post; [lia|]. intros off' El. cbv zeta. apply rd16_post; [exact U|lia|]. intros o Hoo. eapply post_bind; [apply nsglueless_safe; [exact W|lia]|]. intros tmp Htmp. eapply post_bind; [apply append_dwf; [exact Htmp|exact Wo]|]. intros (c & o1) (W1 & _).
    destruct ((c =? -1) || _) eqn:E; [exact Logic.I|]. apply IH; auto; lia.
  Qed.
  Lemma push_offsets_safe n : forall offset i out, dwf out -> 0 <= i -> i + Z.of_nat n <= zlen offset -> post dwf (push_offsets n offset i out).
  Proof.
    induction n as [|n IH]; intros offset i out W Hi Hl; cbn [push_offsets]; [exact W|]. apply rd_post; [lia|]. intros v. eapply post_bind; [apply push_dwf; exact W|]. intros (c & o1) (W1 & _). destruct (c =? -1); [exact Logic.I|]. apply IH; auto; lia.
  Qed.
  Lemma longest_safe n : forall p ns types i mx mn, dwf p -> u16s ns -> 0 <= i -> 2 * (i + Z.of_nat n) <= zlen ns -> i + Z.of_nat n <= zlen types -> 0 <= mx <= 200000000 -> 0 <= mn <= i ->
    post (fun '(mx', mn') => 0 <= mx' <= 200000000 /\ 0 <= mn' < Z.max 1 (i + Z.of_nat n)) (longest_loop n p ns types i mx mn) \/ mn = i /\ 0 < i.
  Proof.
    induction n as [|n IH]; intros p ns types i mx mn W U Hi Hl Ht Hm Hmn; cbn [longest_loop].
    - destruct (Z.eq_dec mn i); [|left; cbn [post]; lia]. destruct (Z.eq_dec i 0); [left; cbn [post]; lia|right; lia].
    - destruct (Z.eq_dec mn i) as [->|N]; [destruct (Z.eq_dec i 0) as [->|]; [|right; lia]|]; left.
      + apply rd_post; [lia|]. intros t. assert (forall m, 0 <= m <= 200000000 -> post (fun '(mx', mn') => 0 <= mx' <= 200000000 /\ 0 <= mn' < Z.max 1 (0 + Z.of_nat (S n))) (longest_loop n p ns types (0 + 1) m 0)) as H.
        { intros m Hmm. destruct (IH p ns types (0 + 1) m 0) as [H|H]; auto; try lia. eapply post_weak; [|exact H]. intros (a & b); lia. }
        destruct (_ && _); [|apply H; lia]. apply rd16_post; [exact U|lia|]. intros o Ho. eapply post_bind; [apply get_dn_end_safe; [exact W|lia]|]. intros fin Hf; cbn beta in Hf. pose proof W as [B L M Me].
        destruct (Z.ltb_spec mx (fin - o)); apply H; lia.
      + apply rd_post; [lia|]. intros t. assert (forall m k, 0 <= m <= 200000000 -> 0 <= k <= i -> post (fun '(mx', mn') => 0 <= mx' <= 200000000 /\ 0 <= mn' < Z.max 1 (i + Z.of_nat (S n))) (longest_loop n p ns types (i + 1) m k)) as H.
        { intros m k Hmm Hk. destruct (IH p ns types (i + 1) m k) as [H|H]; auto; try lia. eapply post_weak; [|exact H]. intros (a & b); lia. }
        destruct (_ && _); [|apply H; lia]. apply rd16_post; [exact U|lia|]. intros o Ho. eapply post_bind; [apply get_dn_end_safe; [exact W|lia]|]. intros fin Hf; cbn beta in Hf. pose proof W as [B L M Me].
        destruct (Z.ltb_spec mx (fin - o)); apply H; lia.
  Qed.
  Lemma glued_len_safe n : forall types i len, 0 <= i -> i + Z.of_nat n <= zlen types -> post (fun r => len <= r <= len + 20 * Z.of_nat n) (glued_len n types i len).
  Proof.
    induction n as [|n IH]; intros types i len Hi Hl; cbn [glued_len]; [cbn [post]; lia|]. apply rd_post; [lia|]. intros t.
    eapply post_weak; [|apply IH; lia]. cbn beta. intros a Ha. destruct (is_a_glue t); [lia|]. destruct (is_aaaa_glue t); lia.
  Qed.
  Lemma glueless_len_safe n : forall p ns types i len, dwf p -> u16s ns -> 0 <= i -> 2 * (i + Z.of_nat n) <= zlen ns -> i + Z.of_nat n <= zlen types ->
    (forall j, i <= j -> 15 <= j -> zget types j <> Some 32) -> post (fun r => len <= r <= len + 65541 * Z.max 0 (15 - i)) (glueless_len n p ns types i len).
  Proof.
    induction n as [|n IH]; intros p ns types i len W U Hi Hl Ht Hg; cbn [glueless_len]; [cbn [post]; lia|]. destruct (rd_ok types i ltac:(lia)) as (t & -> & Et). cbn [bind].
    destruct (Z.eqb_spec t 32) as [->|].
    - assert (i < 15) by (destruct (Z_lt_dec i 15); [assumption|exfalso; apply (Hg i); [lia|lia|assumption]]).
      apply rd16_post; [exact U|lia|]. intros o Ho. apply fetch_post; [exact W|lia|]. intros rl Hrl. destruct (Z.leb_spec rl 0); [exact Logic.I|].
      eapply post_weak; [|apply IH; auto; try lia; intros j Hj; apply Hg; lia]. cbn beta. lia.
    - eapply post_weak; [|apply IH; auto; try lia; intros j Hj; apply Hg; lia]. cbn beta. lia.
  Qed.
  Lemma ns_refer_safe v : det_ok v inp -> no32 v -> 0 < n_nscount (v_look v) -> post dwf (dwx_make_ns_refer Jz Jo J v).
  Proof.
    intros Hv N Hn. pose proof Hv as [HL Han Hns Har H0]. pose proof HL as [Hp (Ua & La) (Un & Ln) (Ur & Lr) (Hc1 & Hc2 & Hc3) D]. unfold dwx_make_ns_refer. cbv zeta. destruct (n_packet (v_look v)) as [p|] eqn:Ep; [|exact Logic.I]. specialize (Hp p eq_refl).
    pose proof (tylen_le (n_nscount (v_look v))). pose proof (tylen_le (n_arcount (v_look v))).
    eapply post_bind; [apply glued_len_safe; lia|]. intros l1 K1; cbn beta in K1. eapply post_bind; [apply glueless_len_safe; auto; try lia|]. intros l2 K2; cbn beta in K2.
    unfold dwx_make_ns_refer_proc. cbv zeta. eapply (post_bind (fun r => forall t, r = Some t -> dwf t)).
    { unfold dwx_find_ns_referral. cbv zeta. destruct (longest_safe (Z.to_nat (n_nscount (v_look v))) p (n_ns (v_look v)) (v_ns v) 0 0 0) as [H3|H3]; auto; try lia.
      eapply post_bind; [exact H3|]. intros (mx & mn) (Hm1 & Hm2). apply rd16_post; [exact Un|lia|]. intros o Ho. destruct (dw_substr_gen Jz p o mx (l2 + 3) HJz Hp ltac:(lia) ltac:(lia) ltac:(lia)) as (r & -> & Hr). cbn [post]. intros t E. exact (proj1 (Hr t E)). }
    intros [out|] Wo; [|exact Logic.I]. specialize (Wo out eq_refl).
    eapply post_bind; [apply glued_loop_safe; auto; try lia; try apply zlen_zeros; lia|]. intros ((o1 & of1) & on1) (W1 & L1 & N1).
    eapply post_bind; [apply glueless_loop_safe; auto; try lia|]. intros ((o2 & of2) & on2) (W2 & L2 & N2).
    eapply post_bind; [apply push_offsets_safe; auto; lia|]. intros o3 W3. eapply post_bind; [apply addchar_dwf; exact W3|]. intros (c1 & o4) (W4 & _). destruct (c1 =? -1); [exact Logic.I|].
    eapply post_bind; [apply addchar_dwf; exact W4|]. intros (c2 & o5) (W5 & _). destruct (c2 =? -1); [exact Logic.I|exact W5].
  Qed.

  Lemma copy_section_safe n : forall out p types sec i offsets oc to mx, dwf out -> dwf p -> u16s sec -> 0 <= i -> 2 * (i + Z.of_nat n) <= zlen sec -> i + Z.of_nat n <= zlen types -> 0 <= to -> to + 2 * Z.of_nat n <= zlen offsets -> 0 <= oc ->
    post (fun '(out', offsets', oc', to') => dwf out' /\ zlen offsets' = zlen offsets /\ oc <= oc' /\ to' = to + 2 * (oc' - oc) /\ oc' <= oc + Z.of_nat n) (copy_section n J out p types sec i offsets oc to mx).
  Proof.
    induction n as [|n IH]; intros out p types sec i offsets oc to mx Wo W U Hi Hl Ht Hto Hoff Hoc; cbn [copy_section]; [cbn [post]; split; [exact Wo|]; lia|].
    apply rd_post; [lia|]. intros t. destruct (_ || _).
    { eapply post_weak; [|apply IH; auto; lia]. intros (((a & b) & c) & d). intros (Q1 & Q2 & Q3). split; [assumption|]; lia. }
    apply rd16_post; [exact U|lia|]. intros o Ho. eapply post_bind; [apply get_rr_safe; [exact W|lia]|]. intros [tmp|] Wt; [|exact Logic.I]. destruct (mx <? to + 1); [exact Logic.I|].
    apply rd16_post; [exact U|lia|]. intros o1 Ho1. apply wr_post; [lia|]. intros f1 E1. apply wr_post; [lia|]. intros f2 E2. eapply post_bind; [apply append_dwf; [exact Wt|exact Wo]|]. intros (c & out') (Wo' & _). destruct (c =? -1); [exact Logic.I|].
    eapply post_weak; [|apply IH; auto; lia]. intros (((x & b) & c') & d). intros (Q1 & Q2 & Q3). split; [assumption|]; lia.
  Qed.
  Lemma footer_safe out offsets an ns ar ty : dwf out -> 0 <= an -> 0 <= ns -> 0 <= ar -> (an + ns + ar) * 2 <= zlen offsets -> post dwf (dwx_remake_footer out offsets an ns ar ty).
  Proof.
    intros W H1 H2 H3 Hl. unfold dwx_remake_footer. eapply post_bind; [apply push_offsets_safe; auto; lia|]. intros o0 W0.
    eapply post_bind; [apply push_dwf; exact W0|]. intros (c1 & o1) (W1 & _). destruct (c1 =? -1); [exact Logic.I|].
    eapply post_bind; [apply push_dwf; exact W1|]. intros (c2 & o2) (W2 & _). destruct (c2 =? -1); [exact Logic.I|].
    eapply post_bind; [apply push_dwf; exact W2|]. intros (c3 & o3) (W3 & _). destruct (c3 =? -1); [exact Logic.I|].
    eapply post_bind; [apply addchar_dwf; exact W3|]. intros (c4 & o4) (W4 & _). destruct (c4 =? -1); [exact Logic.I|exact W4].
  Qed.
  Lemma remake_safe v ty : det_ok v inp -> post dwf (dwx_remake_complete_reply Jo J v ty).
  Proof.
    intros Hv. pose proof Hv as [HL Han Hns Har H0]. pose proof HL as [Hp (Ua & La) (Un & Ln) (Ur & Lr) (Hc1 & Hc2 & Hc3) D]. unfold dwx_remake_complete_reply. cbv zeta. destruct (n_packet (v_look v)) as [p|] eqn:Ep; [|exact Logic.I]. specialize (Hp p eq_refl).
    pose proof (tylen_le (n_ancount (v_look v))). pose proof (tylen_le (n_nscount (v_look v))). pose proof (tylen_le (n_arcount (v_look v))).
    destruct (dw_create_gen Jo (d_len p + 1) HJo) as [->|(out & -> & Wo & _)]; [exact Logic.I|]. set (tot := (n_ancount (v_look v) + n_nscount (v_look v) + n_arcount (v_look v)) * 2). assert (zlen (zeros tot) = tot) as Hz by (apply zlen_zeros; lia).
    eapply post_bind; [apply copy_section_safe; auto; lia|]. intros (((o1 & f1) & a) & t1) (W1 & E1 & A1 & A2 & A3).
    eapply post_bind; [apply copy_section_safe; auto; lia|]. intros (((o2 & f2) & b) & t2) (W2 & E2 & B1 & B2 & B3).
    eapply post_bind; [apply copy_section_safe; auto; lia|]. intros (((o3 & f3) & c) & t3) (W3 & E3 & C1 & C2 & C3).
    apply footer_safe; auto; unfold u16; lia.
  Qed.

  Lemma after_cname_safe n : forall types qt i, 0 <= i -> i + Z.of_nat n <= zlen types -> post (fun r => r = 0 \/ r = 17 \/ r = 19) (after_cname n types qt i).
  Proof.
    induction n as [|n IH]; intros types qt i Hi Hl; cbn [after_cname]; [cbn [post]; auto|]. apply rd_post; [lia|]. intros t. destruct (_ || _); [cbn [post]; auto|]. destruct (_ && _); [cbn [post]; auto|]. apply IH; lia.
  Qed.
  Lemma an_type_safe n : forall types anc qt i, 0 <= i -> i + Z.of_nat n <= zlen types -> anc <= zlen types -> post (fun r => forall t, r = Some t -> t = 0 \/ t = 17 \/ t = 19) (an_type_loop n types anc qt i).
  Proof.
    induction n as [|n IH]; intros types anc qt i Hi Hl Ha; cbn [an_type_loop]; [cbn [post]; discriminate|]. apply rd_post; [lia|]. intros t. destruct (_ || _); [cbn [post]; intros ? [= <-]; auto|]. destruct (t =? 5).
    - cbv zeta. destruct (Z.ltb_spec anc 32); (eapply post_bind; [apply after_cname_safe; lia|]; intros r Hr; cbn [post]; intros ? [= <-]; exact Hr).
    - destruct (negb _); [cbn [post]; intros ? [= <-]; auto|]. apply IH; lia.
  Qed.
  Lemma find_in_ar_safe n : forall ar qt i, u16s ar -> 0 <= i -> 2 * (i + Z.of_nat n) <= zlen ar -> post (fun r => forall j, r = Some j -> i <= j < i + Z.of_nat n) (find_in_ar n query inp ar qt i).
  Proof.
    induction n as [|n IH]; intros ar qt i U Hi Hl; cbn [find_in_ar]; [cbn [post]; discriminate|]. apply rd16_post; [exact U|lia|]. intros o Ho. apply rd16_post; [exact U|lia|]. intros o1 Ho1.
    eapply post_bind; [apply issame_2dw_safe; assumption|]. intros s _. apply fetch_post; [exact Wi|lia|]. intros ty _. destruct (_ && _); [cbn [post]; intros j [= <-]; lia|]. eapply post_weak; [|apply IH; auto; lia]. cbn beta. intros r Hr j E. specialize (Hr j E). lia.
  Qed.
  Lemma determine_safe v : det_ok v inp -> no32 v -> post (fun '(t, v') => det_ok v' inp /\ no32 v' /\ (t = 16 -> 0 < n_nscount (v_look v'))) (dwx_determine_answer_type v query inp).
  Proof.
    intros Hv N. pose proof Hv as [HL Han Hns Har H0]. pose proof HL as [Hp (Ua & La) (Un & Ln) (Ur & Lr) (Hc1 & Hc2 & Hc3) D]. unfold dwx_determine_answer_type. cbv zeta.
    pose proof (tylen_le (n_ancount (v_look v))). pose proof (tylen_le (n_nscount (v_look v))). pose proof (tylen_le (n_arcount (v_look v))).
    apply fetch_post; [exact Wq|lia|]. intros qt _. destruct (qt =? -1); [cbn [post]; split; [assumption|]; split; [assumption|]; lia|].
    eapply (post_bind (fun r => forall t, r = Some t -> t = 0 \/ t = 17 \/ t = 19)).
    { destruct (Z.ltb_spec 0 (n_ancount (v_look v))); [|cbn [post]; discriminate]. destruct (Z.ltb_spec 7 (n_ancount (v_look v))); apply an_type_safe; lia. }
    intros [t|] Ht; [specialize (Ht t eq_refl); cbn [post]; split; [assumption|]; split; [assumption|]; lia|]. destruct (rd_ok (v_ns v) 0 ltac:(lia)) as (t & -> & Et). cbn [bind].
    destruct (t =? 6); [cbn [post]; split; [assumption|]; split; [assumption|]; lia|]. destruct (Z.eqb_spec t 2) as [->|]; [|cbn [post]; split; [assumption|]; split; [assumption|]; lia].
    assert (0 < n_nscount (v_look v)). { destruct (Z.eq_dec (n_nscount (v_look v)) 0) as [E|]; [|lia]. rewrite (H0 E) in Et. discriminate Et. }
    eapply post_bind; [apply find_in_ar_safe; auto; lia|]. intros [j|] Hj; [|cbn [post]; auto]. specialize (Hj j eq_refl). apply wr_post; [lia|]. intros l El. split; [constructor; cbn [v_look v_an v_ns v_ar set_ar]; auto; lia|]. split; [exact N|]. auto.
  Qed.
  Lemma in_ar_loop_safe n : forall ar types i tmp dl, u16s ar -> 0 <= i -> 2 * (i + Z.of_nat n) <= zlen ar -> i + Z.of_nat n <= zlen types -> (forall t, tmp = Some t -> dwf t) ->
    post (fun '(tmp', _) => forall t, tmp' = Some t -> dwf t) (answer_in_ar_loop n J inp ar types i tmp dl).
  Proof.
    induction n as [|n IH]; intros ar types i tmp dl U Hi Hl Ht Wt; cbn [answer_in_ar_loop]; [exact Wt|]. apply rd_post; [lia|]. intros t. destruct tmp as [tmp|]; [apply IH; auto; lia|]. destruct (t =? 38); [|apply IH; auto; lia].
    apply rd16_post; [exact U|lia|]. intros o Ho. eapply post_bind; [apply get_rr_safe; [exact Wi|lia]|]. intros tmp Wtmp. apply rd16_post; [exact U|lia|]. intros o1 Ho1. apply IH; auto; lia.
  Qed.
  Lemma in_ar_safe v : det_ok v inp -> post dwf (dwx_answer_in_ar Jo J v inp).
  Proof.
    intros Hv. pose proof Hv as [HL Han Hns Har H0]. pose proof HL as [Hp (Ua & La) (Un & Ln) (Ur & Lr) (Hc1 & Hc2 & Hc3) D]. unfold dwx_answer_in_ar. cbv zeta. pose proof (tylen_le (n_arcount (v_look v))).
    eapply post_bind; [apply in_ar_loop_safe; auto; try lia; discriminate|]. intros ([tmp|] & dl) Wt; [|exact Logic.I].
    destruct (dw_create_gen Jo (d_len tmp + 14) HJo) as [->|(out & -> & Wo & _)]; [exact Logic.I|].
    eapply post_bind; [apply append_dwf; [exact Wt|exact Wo]|]. intros (c0 & o0) (W0 & _). destruct (c0 =? -1); [exact Logic.I|].
    eapply post_bind; [apply push_dwf; exact W0|]. intros (c1 & o1) (W1 & _). destruct (c1 =? -1); [exact Logic.I|].
    eapply post_bind; [apply push_dwf; exact W1|]. intros (c2 & o2) (W2 & _). destruct (c2 =? -1); [exact Logic.I|].
    eapply post_bind; [apply push_dwf; exact W2|]. intros (c3 & o3) (W3 & _). destruct (c3 =? -1); [exact Logic.I|].
    eapply post_bind; [apply push_dwf; exact W3|]. intros (c4 & o4) (W4 & _). destruct (c4 =? -1); [exact Logic.I|].
    eapply post_bind; [apply push_dwf; exact W4|]. intros (c5 & o5) (W5 & _). destruct (c5 =? -1); [exact Logic.I|].
    eapply post_bind; [apply addchar_dwf; exact W5|]. intros (c6 & o6) (W6 & _). destruct (c6 =? -1); [exact Logic.I|exact W6].
  Qed.
  Lemma cache_string_safe v t : det_ok v inp -> no32 v -> (t = 16 -> 0 < n_nscount (v_look v)) -> post dwf (dwx_make_cache_string Jz Jo J v t).
  Proof.
    intros Hv N Ht. pose proof Hv as [HL Han Hns Har H0]. pose proof HL as [Hp _ _ _ _ _]. unfold dwx_make_cache_string. destruct (n_packet (v_look v)) as [p|] eqn:Ep; [|exact Logic.I]. specialize (Hp p eq_refl). pose proof Hp as [B L M Me].
    destruct (Z.eqb_spec (d_len p) 0); [exact Logic.I|]. apply rd_post; [lia|]. intros it. cbv zeta. destruct (negb _ && negb _); [exact Logic.I|]. set (t' := if (it =? 1) && (t =? 2) then 1 else t). assert (t' = 16 -> t = 16) as Ht' by (unfold t'; destruct ((it =? 1) && (t =? 2)); lia). clearbody t'.
    destruct (t' =? 17); [apply cname_refer_safe; exact Hv|]. destruct (Z.eqb_spec t' 16); [apply ns_refer_safe; auto|]. destruct (_ || _); [apply remake_safe; exact Hv|exact Logic.I].
  Qed.
  Theorem dissect_safe : post dwf (dwx_dissect_packet Jz Jo J inp query bailiwick).
  Proof.
    unfold dwx_dissect_packet. apply fetch_post; [exact Wq|lia|]. intros qt _. destruct (qt =? -1); [exact Logic.I|].
    eapply post_bind; [apply create_details_safe|]. intros v1 H1; cbn beta in H1. eapply post_bind; [apply check_answer_safe; exact H1|]. intros v2 H2; cbn beta in H2.
    eapply post_bind; [apply no_ns_ar_safe; exact H2|]. intros v3 H3; cbn beta in H3. eapply post_bind; [apply cleanup_safe; exact H3|]. intros v4 (H4 & N4).
    eapply post_bind; [apply determine_safe; assumption|]. intros (t & v5) (H5 & N5 & T5). destruct (t =? 23); [apply in_ar_safe; exact H5|].
    eapply (post_bind (fun v' => det_ok v' inp /\ no32 v' /\ (t = 16 -> 0 < n_nscount (v_look v')))).
    - destruct (t =? 16); [|cbn [post]; auto]. eapply post_bind; [apply check_ns_section_safe; assumption|]. intros v6 (H6 & N6 & L6). eapply post_weak; [|apply link_safe; exact H6]. intros v7 (H7 & L7 & N7). split; [exact H7|]. split; [auto|]. rewrite L7, L6. exact T5.
    - intros v6 (H6 & N6 & T6). apply cache_string_safe; assumption.
  Qed.
End SAFE.
