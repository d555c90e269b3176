(** Decompression never leaves its buffers and always ends. *)
From Verif Require Import CBase Bits SpecDwStr ModelDwStr ModelDwCompress ProofDwStr.

Definition post {A} (P : A -> Prop) (r : res A) : Prop := match r with Ok a => P a | Fail => True | Bad _ => False end.
Lemma post_bind {A B} (P : A -> Prop) (Q : B -> Prop) m k : post P m -> (forall a, P a -> post Q (k a)) -> post Q (bind m k).
Proof. destruct m; cbn [post bind]; auto. Qed.
Lemma post_safe {A} (P : A -> Prop) (r : res A) : post P r -> safe r.
Proof. intros H f E. rewrite E in H. exact H. Qed.
Lemma post_weak {A} (P Q : A -> Prop) (r : res A) : (forall a, P a -> Q a) -> post P r -> post Q r.
Proof. destruct r; cbn [post]; auto. Qed.

(** What an output string [out'] has to do with the one it was made from. *)
Definition grown (out out' : dwstr) : Prop := dok out' /\ d_max out' = d_max out /\ d_len out <= d_len out'.
Lemma grown_refl s : dok s -> grown s s. Proof. intros D. split; [exact D|]. split; [reflexivity|lia]. Qed.
Lemma grown_trans a b c : grown a b -> grown b c -> grown a c.
Proof. intros (D1 & M1 & L1) (D2 & M2 & L2). split; [exact D2|]. split; lia. Qed.

Lemma addchar_grown c s : dok s -> post (fun '(_, s') => grown s s') (dw_addchar c s).
Proof. intros D. destruct (dw_addchar_gen s c ltac:(auto)) as (code & s' & -> & W & M & L & K & _). split; [auto|]. split; lia. Qed.
Lemma append_grown a t : (forall s, a = Some s -> dwf s) -> dok t -> post (fun '(_, t') => grown t t') (dw_append a t).
Proof. intros Wa D. destruct (dw_append_gen a t Wa ltac:(auto)) as (code & t' & -> & W & M & L & K & _). split; [auto|]. split; lia. Qed.
Lemma push_grown v s : dok s -> post (fun '(_, s') => grown s s') (dw_push_u16 v s).
Proof. intros D. destruct (dw_push_u16_gen s v ltac:(auto)) as (code & t' & -> & W & M & L & K). split; [auto|]. split; lia. Qed.
Lemma put_grown s v off : dok s -> -1000000000 <= off <= 1000000000 -> post (fun '(_, s') => grown s s') (dw_put_u16 s v off).
Proof. intros D Ho. destruct (dw_put_u16_gen s v off ltac:(auto) Ho) as (code & t' & -> & W & M & L & K). split; [auto|]. split; lia. Qed.
Lemma substr_post J s b a m : junk_ok J -> dok s -> -1000000000 <= b <= 1000000000 -> -1000000000 <= a <= 1000000000 -> -1 <= m <= 100000000 ->
  post (fun r => forall t, r = Some t -> dwf t) (dw_substr J (Some s) b a m).
Proof. intros HJ D Hb Ha Hm. destruct (dw_substr_gen J s b a m HJ ltac:(auto) Hb Ha Hm) as (r & -> & H). intros t E. destruct (H t E). assumption. Qed.

Lemma decomp_offset_safe inp offset qlen : dok inp -> -1000000000 <= offset <= 1000000000 -> 0 <= qlen ->
  post (fun o => -20000 <= o <= d_len inp + 10) (dwc_decomp_offset inp offset qlen).
Proof.
  intros D Ho Hq. pose proof D as [[B L M Me] K]. unfold dwc_decomp_offset. rewrite (dok_sane inp D). cbn [negb].
  destruct (Z.ltb_spec offset 0) as [H0|H0]; cbn [orb]; [cbn [post]; lia|]. rewrite u32_small by lia. destruct (Z.ltb_spec (d_len inp) offset); [cbn [post]; lia|].
  destruct (rd_byte (d_mem inp) offset B ltac:(lia)) as (b & -> & _ & Hb). cbn [bind]. destruct (b <? 64); [cbn [post]; lia|].
  destruct (rd_byte (d_mem inp) (offset + 1) B ltac:(lia)) as (lo & -> & _ & Hlo). cbn [bind]. cbv zeta. unfold byte in *.
  rewrite land_63, Z.shiftl_mul_pow2 by lia. change (2 ^ 8) with 256. destruct ((_ <? qlen) && _); [cbn [post]; lia|].
  destruct (Z.ltb_spec (b mod 64 * 256 + lo - 12 - qlen - 2) 0); cbn [orb]; [cbn [post]; lia|]. destruct (d_len inp <? _) eqn:E; [cbn [post]; lia|].
  cbn [post]. rewrite u32_small in E by lia. lia.
Qed.

Section SAFE.
  Variable J : Z -> Z.
  Hypothesis HJ : junk_ok J.
  Variables inp q : dwstr.
  Hypothesis Di : dok inp.
  Hypothesis Dq : dok q.

  Lemma decomp_loop_safe n : forall out delta offset t followed useq, dok out -> 0 <= offset <= d_len inp + d_len q + 200000 -> 0 <= t <= d_len inp + 1 -> (followed = false -> useq = false) ->
    post (fun '(t', out', _) => grown out out' /\ 0 <= t' <= d_len inp + 1) (decomp_loop n J inp q out delta offset t followed useq).
  Proof.
    pose proof Di as [[Bi Li Mi Mei] Ki]. pose proof Dq as [[Bq Lq Mq Meq] Kq].
    induction n as [|n IH]; intros out delta offset t followed useq D Ho Ht Hf; cbn [decomp_loop]; [split; [apply grown_refl; exact D|lia]|].
    set (src := if useq then q else inp). assert (dok src) as Ds by (subst src; destruct useq; assumption). pose proof Ds as [[Bs Ls Ms Mes] Ks].
    assert (d_len src <= d_len inp + d_len q) by (subst src; destruct useq; lia).
    rewrite u32_small by lia. destruct (Z.ltb_spec (d_len src) (offset + 1)); [exact Logic.I|].
    destruct (rd_byte (d_mem src) offset Bs ltac:(lia)) as (len & -> & _ & Hlen). unfold byte in Hlen. cbn [bind].
    assert (followed = false -> offset + 1 <= d_len inp) as Hti by (intros F; specialize (Hf F); subst useq; assumption).
    destruct (192 <=? len).
    - destruct useq; [exact Logic.I|]. cbv zeta. subst src.
      eapply post_bind; [apply decomp_offset_safe; [exact Di|lia|lia]|]. intros o (Ho1 & Ho2). destruct (Z.eqb_spec o (-1)); [exact Logic.I|].
      destruct (o <? 0) eqn:E; apply IH; try exact D; try discriminate; try (destruct followed; lia); lia.
    - destruct (Z.ltb_spec 63 len); [exact Logic.I|]. destruct (Z.eqb_spec len 0).
      + unfold dwc_finish_name. rewrite (dok_sane out D). cbn [negb orb]. destruct (offset <? 0); [exact Logic.I|].
        eapply post_bind; [apply addchar_grown; exact D|]. intros (code & out') G. split; [exact G|]. destruct followed; [lia|]. specialize (Hti eq_refl). lia.
      + eapply post_bind; [apply substr_post; auto; lia|]. intros tmp Htmp. eapply post_bind; [apply append_grown; [exact Htmp|exact D]|]. intros (code & out') G.
        eapply post_weak; [|apply IH; auto; [exact (proj1 G)|lia]]. intros ((t' & o') & d') (G' & T'). split; [eapply grown_trans; eassumption|exact T'].
  Qed.
  Lemma decomp_dname_safe out delta w : dok out -> w <= d_len inp + 100000 ->
    post (fun '(t', out', _) => grown out out' /\ 0 <= t' <= d_len inp + 1) (dwc_decomp_dname J inp out q delta w).
  Proof.
    intros D Hw. unfold dwc_decomp_dname. destruct (negb _ || negb _ || negb _ || (w <? 0)) eqn:E; [exact Logic.I|].
    pose proof Di as [[Bi Li Mi Mei] Ki]. pose proof Dq as [[Bq Lq Mq Meq] Kq].
    apply decomp_loop_safe; auto; lia.
  Qed.
  Lemma decomp_names_safe n : forall out rdo offset, dok out -> -1000000000 <= rdo <= 1000000000 -> 0 <= offset <= d_len inp + 10000 ->
    post (fun '(t', out') => grown out out' /\ 0 <= t' <= d_len inp + 10000) (decomp_names n J inp out q rdo offset).
  Proof.
    induction n as [|n IH]; intros out rdo offset D Hr Ho; cbn [decomp_names]; [split; [apply grown_refl; exact D|lia]|].
    eapply post_bind; [apply decomp_dname_safe; [exact D|lia]|]. intros ((o & out1) & delta) (G1 & Ho1). destruct (o <? 0); [exact Logic.I|].
    destruct (dw_fetch_u16_safe out1 rdo ltac:(destruct G1; auto) Hr) as (v & -> & _). cbn [bind].
    eapply post_bind; [apply put_grown; [exact (proj1 G1)|exact Hr]|]. intros (c & out2) G2.
    eapply post_weak; [|apply IH; [exact (proj1 G2)|exact Hr|lia]]. intros (t' & o') (G' & T'). split; [|exact T']. eapply grown_trans; [exact G1|]. eapply grown_trans; eassumption.
  Qed.
  Lemma desc_bounds t : 0 <= desc_lead (dwc_type_desc t) <= 6 /\ 0 <= desc_tail (dwc_type_desc t) <= 20.
  Proof. unfold dwc_type_desc. repeat match goal with |- context [if ?b then _ else _] => destruct b end; vm_compute; split; split; discriminate. Qed.
  Lemma decomp_rddata_safe type offset out : dok out -> 0 <= offset <= d_len inp + 100 ->
    post (fun '(t', out') => grown out out' /\ 0 <= t' <= d_len inp + 70000) (dwc_decomp_rddata J (dwc_type_desc type) offset inp out q).
  Proof.
    intros D Ho. unfold dwc_decomp_rddata. destruct (negb _ || negb _ || negb _ || _ || _); [exact Logic.I|]. cbv zeta.
    pose proof (desc_bounds type) as (Hl & Ht). set (desc := dwc_type_desc type) in *. pose proof Di as [[Bi Li Mi Mei] Ki]. pose proof D as [[Bo Lo Mo Meo] Ko].
    eapply (post_bind (fun '(o, out') => grown out out' /\ 0 <= o <= d_len inp + 1000)).
    { destruct (0 <? desc_lead desc); [|split; [apply grown_refl; exact D|lia]]. destruct (_ <? _); [exact Logic.I|].
      eapply post_bind; [apply substr_post; auto; lia|]. intros tmp Htmp. eapply post_bind; [apply append_grown; [exact Htmp|exact D]|]. intros (code & out') G.
      destruct (code =? -1); [exact Logic.I|]. split; [exact G|lia]. }
    intros (o1 & out1) (G1 & Ho1). eapply post_bind; [apply decomp_names_safe; [exact (proj1 G1)| |lia]|].
    { rewrite i32_small by lia. lia. }
    intros (o2 & out2) (G2 & Ho2). assert (grown out out2) as G12 by (eapply grown_trans; eassumption).
    destruct (0 <? desc_tail desc); [|split; [exact G12|lia]]. destruct (_ <? _); [exact Logic.I|].
    eapply post_bind; [apply substr_post; auto; lia|]. intros tmp Htmp. eapply post_bind; [apply append_grown; [exact Htmp|exact (proj1 G2)]|]. intros (code & out3) G3.
    split; [eapply grown_trans; eassumption|lia].
  Qed.
  Lemma decomp_rr_safe out stack offset : dok out -> dok stack -> offset <= d_len inp + 70000 ->
    post (fun '(t', out', stack') => t' <= d_len inp + 70000 /\ grown out out' /\ grown stack stack') (dwc_decomp_rr J inp out q stack offset).
  Proof.
    intros D Dst Ho. unfold dwc_decomp_rr. destruct (negb _ || negb _ || negb _ || negb _ || _); [exact Logic.I|]. pose proof Di as [[Bi Li Mi Mei] Ki].
    eapply post_bind; [apply push_grown; exact Dst|]. intros (c1 & st1) Gs1.
    eapply post_bind; [apply decomp_dname_safe; [exact D|lia]|]. intros ((o1 & out1) & delta) (G1 & Ho1). destruct ((o1 <? 0) || _); [exact Logic.I|].
    eapply post_bind; [apply push_grown; exact (proj1 Gs1)|]. intros (c2 & st2) Gs2. assert (grown stack st2) as Gs by (eapply grown_trans; eassumption).
    destruct (dw_fetch_u16_safe inp o1 ltac:(auto) ltac:(lia)) as (type & -> & _). cbn [bind]. destruct (type =? -1); [exact Logic.I|]. cbv zeta.
    eapply post_bind; [apply substr_post; auto; lia|]. intros tmp Htmp. eapply post_bind; [apply append_grown; [exact Htmp|exact (proj1 G1)]|]. intros (c3 & out2) G2.
    assert (grown out out2) as G12 by (eapply grown_trans; eassumption).
    destruct (dw_fetch_u16_safe inp (o1 + 8) ltac:(auto) ltac:(lia)) as (val & -> & Hv). cbn [bind]. destruct (dwc_type_desc type =? 0).
    - destruct (_ <? _); [exact Logic.I|]. eapply post_bind; [apply substr_post; auto; lia|]. intros tmp2 Htmp2. eapply post_bind; [apply append_grown; [exact Htmp2|exact (proj1 G2)]|]. intros (c4 & out3) G3.
      split; [lia|]. split; [eapply grown_trans; eassumption|exact Gs].
    - eapply post_bind; [apply decomp_rddata_safe; [exact (proj1 G2)|lia]|]. intros (o3 & out3) (G3 & Ho3). split; [lia|]. split; [eapply grown_trans; eassumption|exact Gs].
  Qed.
  Lemma decompress_loop_safe n : forall out stack offset, dok out -> dok stack -> 0 <= offset <= d_len inp + 70000 ->
    post (fun '(out', stack') => grown out out' /\ grown stack stack') (decompress_loop n J inp out q stack offset).
  Proof.
    pose proof Di as [[Bi Li Mi Mei] Ki].
    induction n as [|n IH]; intros out stack offset D Dst Ho; cbn [decompress_loop]; [split; apply grown_refl; assumption|].
    destruct (_ <? _); [|split; apply grown_refl; assumption].
    eapply post_bind; [apply decomp_rr_safe; auto; lia|]. intros ((o & out1) & st1) (Ho1 & G1 & Gs1). destruct (Z.ltb_spec o 0); cbn [orb]; [exact Logic.I|].
    destruct (_ <? _) eqn:E; [exact Logic.I|]. eapply post_weak; [|apply IH; [exact (proj1 G1)|exact (proj1 Gs1)|lia]].
    intros (o2 & s2) (G2 & Gs2). split; eapply grown_trans; eassumption.
  Qed.
End SAFE.

Lemma decompress_safe Jo Js J q inp : junk_ok Jo -> junk_ok Js -> junk_ok J -> dok q -> dok inp ->
  post (fun out => dok out /\ d_max out = 2048) (dwc_decompress Jo Js J q inp).
Proof.
  intros HJo HJs HJ Dq Di. unfold dwc_decompress. rewrite (dok_sane inp Di), (dok_sane q Dq). cbn [negb orb].
  destruct (dw_create_ok Jo 2048 HJo ltac:(lia)) as (out & -> & Wo & Lo & Mo). destruct (dw_create_ok Js 2048 HJs ltac:(lia)) as (st & -> & Ws & Ls & Ms).
  assert (dok out) as D by (split; [exact Wo|lia]). assert (dok st) as Dst by (split; [exact Ws|lia]). pose proof Di as [[Bi Li Mi Mei] Ki].
  eapply post_bind; [apply decompress_loop_safe; auto; lia|]. intros (out1 & st1) (G1 & Gs1).
  eapply post_bind; [apply append_grown; [|exact (proj1 G1)]|]. { intros s E. injection E as <-. destruct Gs1. auto. }
  intros (c & out2) G2. eapply post_bind; [apply substr_post; auto; lia|]. intros tmp Htmp. eapply post_bind; [apply append_grown; [exact Htmp|exact (proj1 G2)]|].
  intros (c3 & out3) G3. destruct G1 as (_ & M1 & _). destruct G2 as (_ & M2 & _). destruct G3 as (D3 & M3 & _). split; [exact D3|lia].
Qed.

(** dw_packet_to_cache *)
Lemma dn_end_safe n : forall s off, dwf s -> 0 <= off <= d_len s + 100 -> post (fun r => -1 <= r <= d_len s + 102) (dn_end_loop n s off).
Proof.
  induction n as [|n IH]; intros s off W Ho; cbn [dn_end_loop]; [cbn [post]; lia|]. pose proof W as [B L M Me]. rewrite u32_small by lia.
  destruct (Z.ltb_spec (d_len s) (off + 1)); [cbn [post]; lia|]. destruct (rd_byte (d_mem s) off B ltac:(lia)) as (len & -> & _ & Hb). unfold byte in Hb. cbn [bind].
  destruct (192 <=? len); [cbn [post]; lia|]. destruct (Z.ltb_spec 63 len); [cbn [post]; lia|]. destruct (len =? 0); [cbn [post]; lia|]. apply IH; [exact W|lia].
Qed.
Lemma put_dwf s v off : dwf s -> -1000000000 <= off <= 1000000000 -> post (fun '(_, s') => dwf s' /\ d_max s' = d_max s /\ (dok s -> dok s')) (dw_put_u16 s v off).
Proof. intros W Ho. destruct (dw_put_u16_gen s v off W Ho) as (code & t' & -> & W' & M & L & K). cbn [post]. auto. Qed.
Lemma packet_to_cache_safe J raw len type : junk_ok J -> bytes raw -> 0 <= len -> len + 2 <= zlen raw -> len < 1000000 ->
  post (fun r => forall s, r = Some s -> dwf s) (dw_packet_to_cache J raw len type).
Proof.
  intros HJ HB Hl Hr Hlm. unfold dw_packet_to_cache. set (hack := mkdw raw len (len + 1)). cbv zeta.
  assert (dok hack) as D by (split; [constructor|]; cbn [hack d_mem d_len d_max]; try assumption; lia). assert (d_len hack = len) as EL by reflexivity. clearbody hack.
  destruct (dw_fetch_u16_safe hack 6 ltac:(auto) ltac:(lia)) as (an & -> & Han). cbn [bind]. destruct (dw_fetch_u16_safe hack 8 ltac:(auto) ltac:(lia)) as (ns & -> & Hns). cbn [bind].
  destruct (dw_fetch_u16_safe hack 10 ltac:(auto) ltac:(lia)) as (ar & -> & Har). cbn [bind]. destruct ((an <? 0) || _ || _); [cbn [post]; discriminate|].
  unfold dw_get_dn_end. rewrite (dok_sane hack D). cbn [negb].
  eapply (post_bind (fun r => -1 <= r <= 1000000 + 102)); [|intros o Ho].
  { destruct (Z_le_dec 12 (d_len hack + 100)); [eapply post_weak; [|apply dn_end_safe; [auto|lia]]; cbn beta; lia|lia]. }
  destruct (o <? 0); [cbn [post]; discriminate|]. eapply post_bind; [apply substr_post; auto; lia|]. intros [out|] Hout; [|cbn [post]; discriminate]. specialize (Hout out eq_refl).
  eapply post_bind; [apply put_dwf; [exact Hout|lia]|]. intros (c1 & o1) (W1 & _). eapply post_bind; [apply put_dwf; [exact W1|lia]|]. intros (c2 & o2) (W2 & _).
  eapply post_bind; [apply put_dwf; [exact W2|lia]|]. intros (c3 & o3) (W3 & _). destruct (dw_addchar_gen o3 type W3) as (c4 & o4 & -> & W4 & _). cbn [bind post]. intros s E. injection E as <-. exact W4.
Qed.
(** A string that fails the sanity check is refused. *)
Lemma decompress_safe_dwf Jo Js J q inp : junk_ok Jo -> junk_ok Js -> junk_ok J -> dwf q -> dwf inp ->
  post (fun out => dok out /\ d_max out = 2048) (dwc_decompress Jo Js J q inp).
Proof.
  intros HJo HJs HJ Wq Wi. destruct (dw_sane inp) eqn:Si; [|unfold dwc_decompress; rewrite Si; exact Logic.I]. destruct (dw_sane q) eqn:Sq; [|unfold dwc_decompress; rewrite Si, Sq; exact Logic.I].
  apply decompress_safe; auto; apply dwf_sane; assumption.
Qed.
