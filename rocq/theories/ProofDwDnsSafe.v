(** The functions on stored answers are safe whatever the string contains; lower-casing. *)
From Verif Require Import CBase Bits SpecNames SpecDwStr ModelDwStr ModelDwDnsStr ProofDwStr ProofDwCompressSafe ProofDwDecomp ProofDwDnsStr.

Definition u16s (l : list Z) : Prop := forall i v, zget l i = Some v -> 0 <= v < 65536.
Lemma u16s_rd l i : u16s l -> 0 <= i < zlen l -> post (fun v => 0 <= v < 65536) (rd l i).
Proof. intros H Hi. destruct (rd_ok l i Hi) as (v & -> & E). exact (H i v E). Qed.
Lemma u16s_wr l i v : u16s l -> 0 <= i < zlen l -> 0 <= v < 65536 -> post (fun l' => u16s l' /\ zlen l' = zlen l) (wr l i v).
Proof.
  intros H Hi Hv. rewrite wr_ok by exact Hi. split; [|apply zlen_zupd]. intros j w E. destruct (Z.eq_dec i j) as [<-|N].
  - rewrite zget_zupd_eq in E by exact Hi. injection E as <-. exact Hv.
  - rewrite zget_zupd_neq in E by exact N. exact (H j w E).
Qed.
Lemma u16s_zeros n : u16s (zeros n).
Proof.
  intros i v E. unfold zget, zeros in E. destruct (i <? 0); [discriminate|]. apply nth_error_In in E. apply repeat_spec in E. lia.
Qed.
Lemma zlen_zeros n : 0 <= n -> zlen (zeros n) = n.
Proof. intros H. unfold zlen, zeros. rewrite repeat_length. lia. Qed.

Lemma place_offsets_safe n : forall inp offset array, dwf inp -> offset <= 134217728 -> u16s array -> 2 * Z.of_nat n <= zlen array ->
  post (fun '(o, a) => o <= 134217728 /\ u16s a /\ zlen a = zlen array) (dwc_place_offsets n inp offset array).
Proof.
  induction n as [|n IH]; intros inp offset array W Ho Ha Hl; cbn [dwc_place_offsets]; (destruct (negb (dw_sane inp)); [split; [lia|auto]|]); [split; [lia|auto]|].
  cbv zeta. destruct (Z.ltb_spec (offset - 2) 0); [split; [lia|auto]|].
  destruct (dw_fetch_u16_safe inp (offset - 2) W ltac:(lia)) as (v & -> & Hv). cbn [bind].
  eapply post_bind; [apply u16s_wr; [exact Ha|lia|unfold u16; lia]|]. intros a1 (Ha1 & L1). destruct (Z.ltb_spec (offset - 2 - 2) 0); [split; [lia|auto]|].
  destruct (dw_fetch_u16_safe inp (offset - 2 - 2) W ltac:(lia)) as (v2 & -> & Hv2). cbn [bind].
  eapply post_bind; [apply u16s_wr; [exact Ha1|lia|unfold u16; lia]|]. intros a2 (Ha2 & L2).
  eapply post_weak; [|apply IH; auto; lia]. intros (o & a) (H1 & H2 & H3). split; [exact H1|]. split; [exact H2|lia].
Qed.

Record dns_ok (look : dnsstr) (s : dwstr) : Prop := {
  dn_packet : forall p, n_packet look = Some p -> dwf p;
  dn_an : u16s (n_an look) /\ zlen (n_an look) = n_ancount look * 2;
  dn_ns : u16s (n_ns look) /\ zlen (n_ns look) = n_nscount look * 2;
  dn_ar : u16s (n_ar look) /\ zlen (n_ar look) = n_arcount look * 2;
  dn_counts : 0 <= n_ancount look < 65536 /\ 0 <= n_nscount look < 65536 /\ 0 <= n_arcount look < 65536;
  dn_sane : dok s }.

Section SAFE.
  Variable J : Z -> Z.
  Hypothesis HJ : junk_ok J.

  Lemma make_dns_str_safe s : dwf s -> post (fun look => dns_ok look s) (dwc_make_dns_str J s).
  Proof.
    intros W. pose proof W as [B L M Me]. unfold dwc_make_dns_str. destruct (dw_sane s) eqn:S; cbn [negb]; [|exact Logic.I]. pose proof (dwf_sane s W S) as D.
    cbv zeta. destruct (Z.ltb_spec (d_len s - 1) 7); [exact Logic.I|]. destruct (rd_byte (d_mem s) (d_len s - 1) B ltac:(lia)) as (ty & -> & _ & Hb). cbn [bind]. destruct (negb _ && negb _ && negb _); [exact Logic.I|].
    destruct (dw_fetch_u16_safe s (d_len s - 1 - 2) W ltac:(lia)) as (ar & -> & Har). cbn [bind]. destruct (dw_fetch_u16_safe s (d_len s - 1 - 2 - 2) W ltac:(lia)) as (ns & -> & Hns). cbn [bind].
    destruct (dw_fetch_u16_safe s (d_len s - 1 - 2 - 2 - 2) W ltac:(lia)) as (an & -> & Han). cbn [bind]. unfold dwc_init_dns_str.
    destruct ((an <? 0) || (ns <? 0) || (ar <? 0)) eqn:E; [exact Logic.I|]. cbn [bind n_an n_ns n_ar]. destruct (dw_copy_ok J s HJ D) as (t & -> & Dt & _). cbn [bind].
    eapply post_bind; [apply place_offsets_safe; [exact W|lia|apply u16s_zeros|rewrite zlen_zeros; lia]|]. intros (o1 & ar') (H1 & U1 & L1). destruct (o1 <? 0); [exact Logic.I|].
    eapply post_bind; [apply place_offsets_safe; [exact W|lia|apply u16s_zeros|rewrite zlen_zeros; lia]|]. intros (o2 & ns') (H2 & U2 & L2). destruct (o2 <? 0); [exact Logic.I|].
    eapply post_bind; [apply place_offsets_safe; [exact W|lia|apply u16s_zeros|rewrite zlen_zeros; lia]|]. intros (o3 & an') (H3 & U3 & L3). destruct (o3 <? 0); [exact Logic.I|].
    rewrite zlen_zeros in * by lia. constructor; cbn [n_packet n_an n_ns n_ar n_ancount n_nscount n_arcount]; auto; try lia. intros p [= <-]. auto.
  Qed.

  Lemma get_type_safe look s rr : dns_ok look s -> 0 <= rr < n_ancount look -> post (fun _ => True) (dwc_get_type (n_packet look) (n_an look) (n_ancount look) rr).
  Proof.
    intros [Hp (Ua & La) _ _ (Hc & _) _] Hr. unfold dwc_get_type. destruct (n_packet look) as [p|]; [|exact Logic.I]. destruct (_ || _); [exact Logic.I|].
    eapply post_bind; [apply u16s_rd; [exact Ua|lia]|]. intros w Hw; cbn beta in Hw. destruct (_ || _); [exact Logic.I|]. destruct (dw_fetch_u16_safe p w (Hp p eq_refl) ltac:(lia)) as (v & -> & _). cbn [bind]. destruct (_ || _); exact Logic.I.
  Qed.
  Lemma rr_find_loop_safe n : forall look s rr ty, dns_ok look s -> 0 <= rr <= n_ancount look -> (rr = 0 -> ty = 5 /\ (0 < n)%nat) -> 1 <= n_ancount look -> post (fun r => -1 <= r < n_ancount look) (rr_find_loop n look rr ty).
  Proof.
    induction n as [|n IH]; intros look s rr ty H Hr H0 Hc; cbn [rr_find_loop].
    - destruct (n_ancount look <? rr); cbn [post]; [lia|]. destruct (Z.eq_dec rr 0) as [->|]; [destruct H0; lia|lia].
    - destruct (Z.ltb_spec rr (n_ancount look)); cbn [andb].
      + destruct (Z.eqb_spec ty 5).
        * eapply post_bind; [eapply get_type_safe; [exact H|lia]|]. intros ty' _. destruct (ty' =? 65393); [cbn [post]; lia|]. eapply IH; [exact H|lia|lia|exact Hc].
        * destruct (n_ancount look <? rr); cbn [post]; [lia|]. destruct (Z.eq_dec rr 0) as [->|]; [destruct H0; lia|lia].
      + destruct (n_ancount look <? rr); cbn [post]; lia.
  Qed.

  Lemma rotate_safe s st pv fn : dok s -> 0 <= st < 1000000000 -> 0 <= pv < 1000000000 -> 0 <= fn < 1000000000 -> post (fun '(_, s') => dok s' /\ d_max s' = d_max s) (dw_rotate J s st pv fn).
  Proof.
    intros D Hs Hp Hf. pose proof D as [[B L M Me] K]. unfold dw_rotate. rewrite u32_small by lia. destruct ((pv <=? st) || (fn <=? pv) || (d_len s <=? fn)) eqn:E; [split; [exact D|reflexivity]|].
    eapply post_bind; [apply (substr_post J); auto; lia|]. intros [p1|] H1; [|split; [exact D|reflexivity]].
    eapply post_bind; [apply (substr_post J); auto; lia|]. intros [p2|] H2; [|split; [exact D|reflexivity]].
    eapply post_bind; [apply (substr_post J); auto; lia|]. intros [p3|] H3; [|split; [exact D|reflexivity]]. cbv zeta.
    assert (dok (mkdw (d_mem s) st (d_max s))) as D0 by (split; [constructor|]; cbn [d_mem d_len d_max]; auto; lia).
    eapply post_bind; [apply append_grown; [exact H2|exact D0]|]. intros (c1 & s1) G1. eapply post_bind; [apply append_grown; [exact H1|exact (proj1 G1)]|]. intros (c2 & s2) G2.
    eapply post_bind; [apply append_grown; [exact H3|exact (proj1 G2)]|]. intros (c3 & s3) G3. destruct G1 as (_ & M1 & _), G2 as (_ & M2 & _), G3 as (D3 & M3 & _). split; [exact D3|]. cbn [d_max] in M1. congruence.
  Qed.
  Lemma rotate_loop_safe n : forall s fin this first start sl, dok s -> -1000000 <= fin < 140000000 -> 0 <= this -> this + Z.of_nat n < 100000 ->
    post (fun '(s', _) => grown s s') (rotate_loop n s fin this first start sl).
  Proof.
    induction n as [|n IH]; intros s fin this first start sl D Hf Ht Hn; cbn [rotate_loop]; [apply grown_refl; exact D|].
    destruct (dw_fetch_u16_safe s (fin + (this + 1) * 4) ltac:(auto) ltac:(lia)) as (v1 & -> & _). cbn [bind]. destruct (dw_fetch_u16_safe s (fin + 2 + (this + 1) * 4) ltac:(auto) ltac:(lia)) as (v2 & -> & _). cbn [bind]. cbv zeta.
    eapply post_bind; [apply put_grown; [exact D|lia]|]. intros (c1 & s1) G1. eapply post_bind; [apply put_grown; [exact (proj1 G1)|lia]|]. intros (c2 & s2) G2.
    eapply post_weak; [|apply IH; [exact (proj1 G2)|lia|lia|lia]]. intros (s' & x) G3. eapply grown_trans; [exact G1|]. eapply grown_trans; eassumption.
  Qed.
  Lemma rotate_offsets_safe s fin first last : dok s -> -1000000 <= fin < 140000000 -> last < 70000 -> post (fun '(_, s') => grown s s') (dwc_rotate_offsets s fin first last).
  Proof.
    intros D Hf Hl. unfold dwc_rotate_offsets. destruct (_ || _) eqn:E; [apply grown_refl; exact D|]. destruct (first =? last - 1); [apply grown_refl; exact D|]. destruct (negb _); [apply grown_refl; exact D|].
    destruct (dw_fetch_u16_safe s (fin + first * 4) ltac:(auto) ltac:(lia)) as (v1 & -> & _). cbn [bind]. destruct (dw_fetch_u16_safe s (fin + 2 + first * 4) ltac:(auto) ltac:(lia)) as (v2 & -> & _). cbn [bind].
    eapply post_bind; [apply rotate_loop_safe; [exact D|lia|lia|lia]|]. intros (s1 & sl) G1. eapply post_bind; [apply put_grown; [exact (proj1 G1)|lia]|]. intros (c1 & s2) G2.
    eapply post_bind; [apply put_grown; [exact (proj1 G2)|lia]|]. intros (c2 & s3) G3. eapply grown_trans; [exact G1|]. eapply grown_trans; eassumption.
  Qed.

  Lemma rr_rotate_safe s : dwf s -> post (fun '(_, s') => dwf s' /\ d_max s' = d_max s) (dwc_rr_rotate J s).
  Proof.
    intros W. unfold dwc_rr_rotate. pose proof (make_dns_str_safe s W) as HP. destruct (dwc_make_dns_str J s) as [look| |f]; [|split; [exact W|reflexivity]|exact HP].
    destruct (Z.eqb_spec (n_ancount look) 0); [split; [exact W|reflexivity]|]. pose proof HP as HP0. destruct HP as [Hp (Ua & La) (Un & Ln) (Ur & Lr) (Hc1 & Hc2 & Hc3) D]. cbn [post] in HP0.
    pose proof D as [[B L M Me] K]. eapply post_bind; [unfold dwc_rr_find; eapply rr_find_loop_safe; [exact HP0|lia|lia|lia]|]. intros rr Hrr; cbn beta in Hrr.
    destruct ((rr =? -1) || (n_ancount look <=? rr + 1)) eqn:E; [split; [exact W|reflexivity]|].
    eapply post_bind; [apply u16s_rd; [exact Ua|lia]|]. intros st Hst; cbn beta in Hst. eapply post_bind; [apply u16s_rd; [exact Ua|lia]|]. intros pv Hpv; cbn beta in Hpv.
    eapply (post_bind (fun fin => fin < 134217728 /\ ((n_nscount look =? 0) && (n_arcount look =? 0) && (fin <? 0) = false -> 0 <= fin))).
    { destruct ((n_nscount look =? 0) && (n_arcount look =? 0)) eqn:Ec; cbn [post].
      - split; [lia|]. intros E2. cbn [andb] in E2. lia.
      - destruct (Z.ltb_spec 0 (n_nscount look)); (eapply post_weak; [|apply u16s_rd; [assumption|lia]]); cbn beta; intros a Ha; split; lia. }
    intros fin (Hf1 & Hf2). destruct ((n_nscount look =? 0) && (n_arcount look =? 0) && (fin <? 0)); [split; [exact W|reflexivity]|]. specialize (Hf2 eq_refl).
    eapply post_bind; [apply rotate_safe; [exact D|lia|lia|lia]|]. intros (code & s1) (D1 & M1). destruct (code =? -1); [split; [auto|exact M1]|]. pose proof D1 as [[B1 L1 M1' Me1] K1].
    eapply post_weak; [|apply rotate_offsets_safe; [exact D1|lia|lia]]. intros (c & s') (D' & M' & _). split; [auto|congruence].
  Qed.
  Lemma rr_extent_safe s : dwf s -> post (fun r => forall a b, r = Some (a, b) -> 0 <= a < 65536 /\ 0 <= b < 134217728) (dwc_rr_extent J s).
  Proof.
    intros W. unfold dwc_rr_extent. pose proof (make_dns_str_safe s W) as HP. destruct (dwc_make_dns_str J s) as [look| |f]; [|cbn [post]; discriminate|exact HP].
    destruct (Z.eqb_spec (n_ancount look) 0); [cbn [post]; discriminate|]. destruct HP as [Hp (Ua & La) (Un & Ln) (Ur & Lr) (Hc1 & Hc2 & Hc3) D]. pose proof D as [[B L M Me] K].
    eapply post_bind; [apply u16s_rd; [exact Ua|lia]|]. intros st Hst; cbn beta in Hst.
    eapply (post_bind (fun fin => fin < 134217728 /\ ((n_nscount look =? 0) && (n_arcount look =? 0) && (fin <? 0) = false -> 0 <= fin))).
    { destruct ((n_nscount look =? 0) && (n_arcount look =? 0)) eqn:Ec; cbn [post].
      - split; [lia|]. intros E2. cbn [andb] in E2. lia.
      - destruct (Z.ltb_spec 0 (n_nscount look)); (eapply post_weak; [|apply u16s_rd; [assumption|lia]]); cbn beta; intros a Ha; split; lia. }
    intros fin (Hf1 & Hf2). destruct ((n_nscount look =? 0) && (n_arcount look =? 0) && (fin <? 0)); [cbn [post]; discriminate|]. specialize (Hf2 eq_refl). cbn [post]. intros a b [= <- <-]. split; lia.
  Qed.

  Lemma ttl_loop_safe n : forall s an counter l r, dok s -> u16s an -> 0 <= counter -> 2 * (counter + Z.of_nat n) <= zlen an -> post (fun s' => grown s s') (ttl_loop n s an counter l r).
  Proof.
    induction n as [|n IH]; intros s an counter l r D U Hc Hn; cbn [ttl_loop]; [apply grown_refl; exact D|].
    eapply post_bind; [apply u16s_rd; [exact U|lia]|]. intros o Ho; cbn beta in Ho. eapply post_bind; [apply put_grown; [exact D|lia]|]. intros (c1 & s1) G1. eapply post_bind; [apply put_grown; [exact (proj1 G1)|lia]|]. intros (c2 & s2) G2.
    eapply post_weak; [|apply IH; [exact (proj1 G2)|exact U|lia|lia]]. intros s' G3. eapply grown_trans; [exact G1|]. eapply grown_trans; eassumption.
  Qed.
  Lemma ttl_age_safe s ttl : dwf s -> post (fun '(_, s') => dwf s' /\ d_max s' = d_max s) (dwc_ttl_age J s ttl).
  Proof.
    intros W. unfold dwc_ttl_age. destruct (ttl =? -1); [split; [exact W|reflexivity]|]. pose proof (make_dns_str_safe s W) as HP. destruct (dwc_make_dns_str J s) as [look| |f]; [|split; [exact W|reflexivity]|exact HP].
    cbv zeta. destruct HP as [Hp (Ua & La) _ _ (Hc1 & _) D]. eapply post_bind; [apply ttl_loop_safe; [exact D|exact Ua|lia|lia]|]. intros s' (D' & M' & _). split; [auto|exact M'].
  Qed.

  Lemma check_ip_safe filter blocked ip : (forall s, ip = Some s -> dwf s) -> post (fun _ => True) (dwc_check_ip filter blocked ip).
  Proof.
    intros W. unfold dwc_check_ip. destruct ip as [s|]; [|exact Logic.I]. specialize (W s eq_refl). destruct W as [B L M Me].
    eapply (post_bind (fun _ => True)); [|intros [] _; [exact Logic.I|]; destruct blocked; exact Logic.I].
    destruct ((d_len s =? 4) && filter) eqn:E; [|exact Logic.I].
    destruct (rd_byte (d_mem s) 0 B ltac:(lia)) as (b0 & -> & _). destruct (rd_byte (d_mem s) 1 B ltac:(lia)) as (b1 & -> & _).
    destruct (rd_byte (d_mem s) 2 B ltac:(lia)) as (b2 & -> & _). destruct (rd_byte (d_mem s) 3 B ltac:(lia)) as (b3 & -> & _). exact Logic.I.
  Qed.
  Lemma bad_ip_loop_safe filter blocked n : forall s an counter, dok s -> u16s an -> 0 <= counter -> 2 * (counter + Z.of_nat n) <= zlen an -> post (fun _ => True) (bad_ip_loop n J filter blocked s an counter).
  Proof.
    induction n as [|n IH]; intros s an counter D U Hc Hn; cbn [bad_ip_loop]; [exact Logic.I|].
    eapply post_bind; [apply u16s_rd; [exact U|lia]|]. intros o Ho; cbn beta in Ho. destruct (dw_fetch_u16_safe s o ltac:(auto) ltac:(lia)) as (ty & -> & _). cbn [bind].
    destruct (ty =? 1); [|destruct (ty =? 28)]; try (eapply post_bind; [apply (substr_post J); auto; lia|]; intros ip Hip; eapply post_bind; [apply check_ip_safe; exact Hip|]; intros [] _; [exact Logic.I|]); apply IH; auto; lia.
  Qed.
  Lemma has_bad_ip_safe filter blocked s : dwf s -> post (fun _ => True) (dwc_has_bad_ip J filter blocked s).
  Proof.
    intros W. unfold dwc_has_bad_ip. pose proof (make_dns_str_safe s W) as HP. destruct (dwc_make_dns_str J s) as [look| |f]; [|exact Logic.I|exact HP].
    destruct HP as [Hp (Ua & La) _ _ (Hc1 & _) D]. apply bad_ip_loop_safe; [exact D|exact Ua|lia|lia].
  Qed.
  Lemma process_safe age rotate action ttl s : dwf s -> post (fun s' => dwf s' /\ d_max s' = d_max s) (dwc_process J age rotate action ttl s).
  Proof.
    intros W. unfold dwc_process. destruct (dw_fetch_u8_safe s (-1) W ltac:(lia)) as (ct & -> & _). cbn [bind]. destruct (ct =? 24); [split; [exact W|reflexivity]|].
    eapply (post_bind (fun r => forall s', r = Some s' -> dwf s' /\ d_max s' = d_max s)).
    { destruct (_ && _); [|cbn [post]; intros s' [= <-]; split; [exact W|reflexivity]]. destruct (ttl =? -1); [cbn [post]; discriminate|].
      eapply post_bind; [apply ttl_age_safe; exact W|]. intros (code & s') Hs. destruct (code =? -1); cbn [post]; [discriminate|]. intros s'' [= <-]. exact Hs. }
    intros [s1|] H1; [|split; [exact W|reflexivity]]. specialize (H1 s1 eq_refl). destruct H1 as (W1 & M1). destruct (_ && _); [|split; assumption].
    eapply post_bind; [apply rr_rotate_safe; exact W1|]. intros (code & s2) (W2 & M2). destruct (_ || _); cbn [post]; [split; assumption|]. split; [exact W2|congruence].
  Qed.
End SAFE.

(** *** Lower case *)
Lemma lower_loop_safe n : forall mem counter place, bytes mem -> 0 <= counter -> counter + Z.of_nat n <= zlen mem -> post (fun m => bytes m /\ zlen m = zlen mem) (lower_loop n mem counter place).
Proof.
  induction n as [|n IH]; intros mem counter place B Hc Hn; cbn [lower_loop]; [split; [exact B|reflexivity]|].
  destruct (rd_byte mem counter B ltac:(lia)) as (c & -> & _ & Hb). cbn [bind]. destruct (counter =? place); [destruct (c =? 0); [split; [exact B|reflexivity]|apply IH; auto; lia]|].
  destruct (_ && _) eqn:E; [|apply IH; auto; lia]. rewrite wr_ok by lia. cbn [bind]. eapply post_weak; [|apply IH; rewrite ?zlen_zupd; [apply bytes_zupd; [exact B|unfold byte, u8; lia]|lia|lia]].
  cbn beta. intros m (Bm & Lm). rewrite zlen_zupd in Lm. auto.
Qed.
Lemma lower_case_safe s : dwf s -> post (fun '(_, s') => dwf s' /\ d_len s' = d_len s /\ d_max s' = d_max s) (dwc_lower_case s).
Proof.
  intros W. pose proof W as [B L M Me]. unfold dwc_lower_case. destruct (d_len s =? 0); [split; [exact W|split; reflexivity]|].
  eapply post_bind; [apply lower_loop_safe; [exact B|lia|lia]|]. intros m (Bm & Lm). split; [|split; reflexivity]. constructor; cbn [d_mem d_len d_max]; auto; lia.
Qed.
Lemma zlen_lower l : zlen (map lower l) = zlen l.
Proof. unfold zlen. rewrite map_length. reflexivity. Qed.
Lemma lower_bytes_ok l : forall n A B, bytes l -> lower_loop (length l + n) (A ++ l ++ B) (zlen A) (zlen A + zlen l) = lower_loop n (A ++ map lower l ++ B) (zlen A + zlen l) (zlen A + zlen l).
Proof.
  induction l as [|c l IH]; intros n A B Hb.
  - change (zlen (@nil Z)) with 0. rewrite Z.add_0_r. reflexivity.
  - inversion Hb as [|c0 l0 Hc Hl]; subst c0 l0. cbn [length map]. change (S (length l) + n)%nat with (S (length l + n)). cbn [lower_loop app]. rewrite (rd_at (A ++ c :: l ++ B) A c (l ++ B)) by reflexivity. cbn [bind].
    rewrite zlen_cons. pose proof (zlen_nonneg l). replace (zlen A =? zlen A + (zlen l + 1)) with false by lia.
    specialize (IH n (A ++ [lower c]) B Hl). rewrite zlen_app in IH. change (zlen [lower c]) with 1 in IH. repeat rewrite <- app_assoc in IH. cbn [app] in IH.
    replace (zlen A + (zlen l + 1)) with (zlen A + 1 + zlen l) by lia. unfold lower at 1. unfold lower at 1 in IH. fold (lower c) in IH |- *.
    destruct ((65 <=? c) && (c <=? 90)) eqn:E.
    + rewrite (wr_mid A c (l ++ B) (u8 (c + 32))) by reflexivity. cbn [bind]. replace (u8 (c + 32)) with (lower c) by (unfold lower, u8; rewrite E; lia). rewrite IH. unfold lower. rewrite E. reflexivity.
    + assert (lower c = c) as El by (unfold lower; rewrite E; reflexivity). rewrite El in IH. rewrite IH, El. reflexivity.
Qed.
Lemma lower_name_ok nm : forall n A B, good_name nm -> (length (wire nm) <= n)%nat -> lower_loop n (A ++ wire nm ++ B) (zlen A) (zlen A) = Ok (A ++ wire (lower_name nm) ++ B).
Proof.
  induction nm as [|l nm IH]; intros n A B Hg Hn.
  - destruct n as [|n]; [cbn [wire length] in Hn; lia|]. cbn [lower_loop wire app]. rewrite (rd_at (A ++ 0 :: B) A 0 B) by reflexivity. cbn [bind]. rewrite Z.eqb_refl. reflexivity.
  - inversion Hg as [|l0 n0 (Hl & Hb) Hg']; subst l0 n0. destruct n as [|n]; [cbn [wire length] in Hn; lia|]. cbn [wire length] in Hn. rewrite app_length in Hn. cbn [lower_loop wire app].
    rewrite (rd_at (A ++ zlen l :: (l ++ wire nm) ++ B) A (zlen l) ((l ++ wire nm) ++ B)) by reflexivity. cbn [bind]. rewrite Z.eqb_refl. replace (zlen l =? 0) with false by lia.
    replace n with (length l + (n - length l))%nat by lia. pose proof (lower_bytes_ok l (n - length l) (A ++ [zlen l]) (wire nm ++ B) Hb) as E.
    rewrite zlen_app in E. change (zlen [zlen l]) with 1 in E. repeat rewrite <- app_assoc in E. cbn [app] in E. rewrite <- app_assoc. replace (zlen A + (zlen l + 1)) with (zlen A + 1 + zlen l) by lia. rewrite E. clear E.
    specialize (IH (n - length l)%nat (A ++ zlen l :: map lower l) B Hg' ltac:(lia)). rewrite zlen_app, zlen_cons, zlen_lower in IH.
    replace (zlen A + (zlen l + 1)) with (zlen A + 1 + zlen l) in IH by lia. repeat rewrite <- app_assoc in IH. cbn [app] in IH. rewrite IH. cbn [lower_name map wire]. unfold lower_label at 1 2. rewrite zlen_lower. cbn [app]. rewrite <- app_assoc. reflexivity.
Qed.
Lemma lower_case_ok s nm rest : dwf s -> good_name nm -> con s = wire nm ++ rest -> exists s', dwc_lower_case s = Ok (1, s') /\ dwf s' /\ con s' = wire (lower_name nm) ++ rest /\ d_len s' = d_len s /\ d_max s' = d_max s.
Proof.
  intros W Hg C. pose proof (lower_case_safe s W) as HP. pose proof W as [B L M Me]. pose proof (f_equal zlen C) as Lc. rewrite zlen_con, zlen_app in Lc by exact W. pose proof (zlen_wire_pos nm). pose proof (zlen_nonneg rest).
  assert (d_mem s = [] ++ wire nm ++ rest ++ zslice (d_mem s) (d_len s) (zlen (d_mem s) - d_len s)) as Em.
  { cbn [app]. rewrite app_assoc, <- C. unfold con. rewrite <- (zslice_all (d_mem s)) at 1. replace (zlen (d_mem s)) with (d_len s + (zlen (d_mem s) - d_len s)) at 1 by lia. rewrite (zslice_split (d_mem s) 0 (d_len s) (zlen (d_mem s) - d_len s)) by lia. reflexivity. }
  unfold dwc_lower_case in *. replace (d_len s =? 0) with false in * by lia.
  assert (lower_loop (Z.to_nat (d_len s)) (d_mem s) 0 0 = Ok (wire (lower_name nm) ++ rest ++ zslice (d_mem s) (d_len s) (zlen (d_mem s) - d_len s))) as E.
  { rewrite Em at 1. apply (lower_name_ok nm _ [] (rest ++ zslice (d_mem s) (d_len s) (zlen (d_mem s) - d_len s)) Hg). unfold zlen in *. lia. }
  rewrite E in *. cbn [bind] in *. destruct HP as (W' & _). eexists. split; [reflexivity|]. split; [exact W'|]. split; [|split; reflexivity].
  unfold con. cbn [d_mem d_len]. rewrite app_assoc. assert (zlen (wire (lower_name nm) ++ rest) = d_len s) as <-.
  { rewrite zlen_app, Lc. f_equal. clear. induction nm as [|l nm IH]; [reflexivity|]. cbn [lower_name map wire]. fold (lower_name nm). rewrite !zlen_cons, !zlen_app, IH. unfold lower_label, zlen. rewrite map_length. reflexivity. }
  rewrite zslice_app_l by (pose proof (zlen_nonneg (wire (lower_name nm) ++ rest)); lia). apply zslice_all.
Qed.
