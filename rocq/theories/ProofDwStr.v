(** Lemmas about Deadwood's strings. *)
From Verif Require Import CBase Bits SpecDwStr ModelDwStr.

Lemma i32_small x : -2147483648 <= x < 2147483648 -> i32 x = x.
Proof. unfold i32. intros. cbv zeta. destruct (Z.ltb_spec (x mod 4294967296) 2147483648); lia. Qed.
Lemma u32_small x : 0 <= x < 4294967296 -> u32 x = x.
Proof. unfold u32. intros. apply Z.mod_small. lia. Qed.
Lemma u32_neg x : -2147483648 <= x < 0 -> 2147483648 <= u32 x.
Proof. unfold u32. lia. Qed.

Lemma dok_sane s : dok s -> dw_sane s = true.
Proof. intros [[_ L M _] K]. unfold dw_sane. lia. Qed.
Lemma dwf_sane s : dwf s -> dw_sane s = true -> dok s.
Proof. intros W S. split; [exact W|]. unfold dw_sane in S. lia. Qed.
Lemma zlen_con s : dwf s -> zlen (con s) = d_len s.
Proof. intros [_ L M Me]. unfold con. apply zlen_zslice; lia. Qed.
Lemma bytes_con s : dwf s -> bytes (con s).
Proof. intros W. apply bytes_zslice. apply W. Qed.
Lemma dok_dwf s : dok s -> dwf s. Proof. intros H. exact (proj1 H). Qed.
#[global] Hint Resolve dok_dwf : core.

Lemma zget_con s i : dwf s -> 0 <= i < d_len s -> zget (con s) i = zget (d_mem s) i.
Proof. intros W Hi. unfold con. rewrite zget_zslice by lia. reflexivity. Qed.
Lemma rd_con s i : dwf s -> 0 <= i < d_len s -> rd (d_mem s) i = rd (con s) i.
Proof. intros W Hi. unfold rd. rewrite zget_con by assumption. reflexivity. Qed.
Lemma zslice_con s i n : dwf s -> 0 <= i -> 0 <= n -> i + n <= d_len s -> zslice (d_mem s) i n = zslice (con s) i n.
Proof. intros W Hi Hn Hin. unfold con. rewrite zslice_zslice by lia. f_equal; lia. Qed.

Lemma rd_byte l i : bytes l -> 0 <= i < zlen l -> exists b, rd l i = Ok b /\ zget l i = Some b /\ byte b.
Proof. intros HB Hi. destruct (rd_ok l i Hi) as (b & R & G). exists b. split; [exact R|]. split; [exact G|]. eapply zget_bytes; eassumption. Qed.
Lemma bytes_zupd l i v : bytes l -> byte v -> bytes (zupd l i v).
Proof.
  intros HB Hv. unfold zupd. destruct (i <? 0); [exact HB|]. generalize (Z.to_nat i). clear i. induction HB as [|x l Hx HB IH]; intros [|n]; cbn [upd_nat]; constructor; try assumption.
  apply IH.
Qed.
Lemma bytes_splice l off d : bytes l -> bytes d -> bytes (splice l off d).
Proof. intros HB Hd. unfold splice. apply bytes_app. split; [apply bytes_firstn; exact HB|]. apply bytes_app. split; [exact Hd|apply bytes_skipn; exact HB]. Qed.
Lemma zslice_one l i b : zget l i = Some b -> zslice l i 1 = [b].
Proof.
  intros E. pose proof (zget_range _ _ _ E). apply zlist_ext.
  - rewrite zlen_zslice by lia. reflexivity.
  - rewrite zlen_zslice by lia. intros j Hj. rewrite zget_zslice by lia. replace j with 0 by lia. rewrite Z.add_0_r, E. reflexivity.
Qed.
Lemma zslice_nil l i : zslice l i 0 = [].
Proof. reflexivity. Qed.
Lemma zslice_neg l i n : n <= 0 -> zslice l i n = [].
Proof. intros. unfold zslice. replace (Z.to_nat n) with 0%nat by lia. reflexivity. Qed.
Lemma splice_nil l i : splice l i [] = l.
Proof. unfold splice. cbn [app length]. rewrite Nat.add_0_r. apply firstn_skipn. Qed.

Lemma copy_bytes_ok n : forall src i dst j, 0 <= i -> i + Z.of_nat n <= zlen src -> 0 <= j -> j + Z.of_nat n <= zlen dst ->
  copy_bytes n src i dst j = Ok (splice dst j (zslice src i (Z.of_nat n))).
Proof.
  induction n as [|n IH]; intros src i dst j Hi Hi2 Hj Hj2; cbn [copy_bytes].
  - rewrite zslice_nil, splice_nil. reflexivity.
  - destruct (rd_ok src i ltac:(lia)) as (b & -> & G). cbn [bind]. rewrite wr_ok by lia. cbn [bind].
    rewrite IH by (rewrite ?zlen_zupd; lia). f_equal. rewrite zupd_splice by lia.
    replace (j + 1) with (j + zlen [b]) by reflexivity.
    assert (zlen (zslice src (i + 1) (Z.of_nat n)) = Z.of_nat n) as L by (apply zlen_zslice; lia).
    rewrite splice_splice by (rewrite ?L; change (zlen [b]) with 1; lia). f_equal.
    replace (Z.of_nat (S n)) with (1 + Z.of_nat n) by lia. rewrite zslice_split by lia. rewrite (zslice_one _ _ _ G). reflexivity.
Qed.

Lemma zlen_mkjunk J n : 0 <= n -> zlen (mkjunk J n) = n.
Proof. intros. unfold mkjunk, zlen. rewrite map_length, seq_length. lia. Qed.
Lemma bytes_mkjunk J n : junk_ok J -> bytes (mkjunk J n).
Proof. intros HJ. unfold mkjunk, bytes. apply Forall_forall. intros x Hx. apply in_map_iff in Hx as (i & <- & _). apply HJ. Qed.

Ltac same_tac := repeat (match goal with |- _ /\ _ => split | |- ?a = ?a => reflexivity | |- dwf _ => assumption | |- dok _ -> dok _ => exact (fun x => x) | _ => assumption | _ => lia end).

(** *** dw_create *)
Lemma dw_create_ok J size : junk_ok J -> 0 <= size < 134217728 ->
  exists s, dw_create J size = Some s /\ dwf s /\ d_len s = 0 /\ d_max s = size.
Proof.
  intros HJ Hs. unfold dw_create. rewrite u32_small by lia. replace (134217728 <=? size) with false by lia.
  eexists. split; [reflexivity|]. cbn [d_len d_max]. split; [|split; reflexivity]. constructor; cbn [d_mem d_len d_max]; try lia.
  - apply bytes_mkjunk. exact HJ.
  - rewrite zlen_mkjunk; lia.
Qed.
Lemma dw_create_gen J size : junk_ok J ->
  dw_create J size = None \/ exists s, dw_create J size = Some s /\ dwf s /\ d_len s = 0 /\ d_max s = u32 size.
Proof.
  intros HJ. assert (0 <= u32 size < 4294967296) by (unfold u32; lia).
  destruct (Z_lt_dec (u32 size) 134217728) as [L|G].
  - right. destruct (dw_create_ok J (u32 size) HJ ltac:(lia)) as (s & E & W & L0 & M). exists s. split; [|auto]. rewrite <- E. unfold dw_create. rewrite (u32_small (u32 size)) by lia. reflexivity.
  - left. unfold dw_create. replace (134217728 <=? u32 size) with true by lia. reflexivity.
Qed.
Lemma con_nil s : d_len s = 0 -> con s = [].
Proof. intros E. unfold con. rewrite E. reflexivity. Qed.

(** *** Replacing bytes *)
Lemma dwf_zupd s i v len : dwf s -> byte v -> 0 <= len <= d_max s -> dwf (mkdw (zupd (d_mem s) i v) len (d_max s)).
Proof. intros [B L M Me] Hv Hl. constructor; cbn [d_mem d_len d_max]; try assumption; [apply bytes_zupd; assumption|rewrite zlen_zupd; exact Me]. Qed.

(** *** dw_addchar *)
Lemma dw_addchar_gen s c : dwf s -> exists code s', dw_addchar c s = Ok (code, s') /\ dwf s' /\ d_max s' = d_max s /\ d_len s <= d_len s' /\ (dok s -> dok s') /\
  zslice (con s') 0 (d_len s) = con s.
Proof.
  intros W. pose proof W as [B L M Me]. unfold dw_addchar.
  assert (zslice (con s) 0 (d_len s) = con s) as Hs by (rewrite <- (zlen_con s W), zslice_all; reflexivity).
  destruct (dw_sane s) eqn:S; cbn [negb]; [|exists (-1), s; same_tac].
  apply dwf_sane in S; [|exact W]. destruct S as [_ S].
  destruct (Z.ltb_spec (d_len s + 1) (d_max s)); [|exists (-1), s; same_tac].
  rewrite wr_ok by lia. cbn [bind]. eexists 0, _. split; [reflexivity|]. assert (byte (u8 c)) by (unfold byte, u8; lia).
  split; [apply dwf_zupd; auto; lia|]. cbn [d_max d_len]. split; [reflexivity|]. split; [lia|]. split.
  - intros _. split; [apply dwf_zupd; auto; lia|cbn [d_len d_max]; lia].
  - unfold con. cbn [d_len d_mem]. rewrite zslice_zslice by lia. rewrite zupd_splice by lia. rewrite zslice_splice_disj; change (zlen [u8 c]) with 1; try lia. f_equal; lia.
Qed.
Lemma dw_addchar_ok s c : dok s -> byte c -> d_len s + 1 < d_max s ->
  exists s', dw_addchar c s = Ok (0, s') /\ dok s' /\ con s' = con s ++ [c] /\ d_max s' = d_max s.
Proof.
  intros D Hc HL. pose proof D as [W K]. pose proof W as [B L M Me]. unfold dw_addchar. rewrite (dok_sane s D). cbn [negb].
  replace (d_len s + 1 <? d_max s) with true by lia. rewrite wr_ok by lia. cbn [bind]. unfold u8. unfold byte in Hc. rewrite Z.mod_small by lia.
  eexists. split; [reflexivity|]. split; [split; [apply dwf_zupd; auto; lia|cbn [d_len d_max]; lia]|]. split; [|reflexivity].
  unfold con. cbn [d_len d_mem]. rewrite zslice_split by lia. rewrite zupd_splice by lia. f_equal.
  - rewrite zslice_splice_disj; change (zlen [c]) with 1; try lia. reflexivity.
  - rewrite Z.add_0_l. change 1 with (zlen [c]). rewrite zslice_splice_same; change (zlen [c]) with 1; try lia. reflexivity.
Qed.

(** *** dw_append *)
Lemma dw_append_ok a t : dok a -> dok t -> d_len t + d_len a < d_max t ->
  exists t', dw_append (Some a) t = Ok (0, t') /\ dok t' /\ con t' = con t ++ con a /\ d_max t' = d_max t.
Proof.
  intros Da Dt HL. pose proof Da as [Wa Ka]. pose proof Dt as [Wt Kt]. pose proof Wa as [Ba La Ma Mea]. pose proof Wt as [Bt Lt Mt Met].
  unfold dw_append. rewrite (dok_sane a Da), (dok_sane t Dt). cbn [negb]. replace (d_max t <=? d_len t + d_len a) with false by lia.
  rewrite copy_bytes_ok by lia. cbn [bind]. rewrite Z2Nat.id by lia. fold (con a).
  assert (zlen (con a) = d_len a) as Lc by (apply zlen_con; exact Wa).
  eexists. split; [reflexivity|]. split; [|split; [|reflexivity]].
  - split; [constructor|]; cbn [d_mem d_len d_max]; try lia; [|rewrite zlen_splice by lia; lia]. apply bytes_splice; [exact Bt|apply bytes_con; exact Wa].
  - unfold con at 1. cbn [d_mem d_len]. rewrite zslice_split by lia. f_equal.
    + rewrite zslice_splice_disj by lia. reflexivity.
    + rewrite Z.add_0_l. rewrite <- Lc. apply zslice_splice_same; lia.
Qed.
Lemma dw_append_full a t : dok a -> dok t -> d_max t <= d_len t + d_len a -> dw_append (Some a) t = Ok (-1, t).
Proof.
  intros Da Dt HL. unfold dw_append. rewrite (dok_sane a Da), (dok_sane t Dt). cbn [negb]. replace (d_max t <=? d_len t + d_len a) with true by lia. reflexivity.
Qed.
Lemma dw_append_gen a t : (forall s, a = Some s -> dwf s) -> dwf t ->
  exists code t', dw_append a t = Ok (code, t') /\ dwf t' /\ d_max t' = d_max t /\ d_len t <= d_len t' /\ (dok t -> dok t') /\ zslice (con t') 0 (d_len t) = con t.
Proof.
  intros Wa Wt. assert (zslice (con t) 0 (d_len t) = con t) as Hs by (rewrite <- (zlen_con t Wt), zslice_all; reflexivity).
  assert (forall c, dw_append a t = Ok (c, t) -> exists code t', dw_append a t = Ok (code, t') /\ dwf t' /\ d_max t' = d_max t /\ d_len t <= d_len t' /\ (dok t -> dok t') /\ zslice (con t') 0 (d_len t) = con t) as Hsame.
  { intros c E. exists c, t. same_tac. }
  destruct a as [a|]; [|exact (Hsame _ eq_refl)]. specialize (Wa a eq_refl).
  destruct (dw_sane a) eqn:Sa; [|apply (Hsame (-1)); unfold dw_append; rewrite Sa; reflexivity].
  destruct (dw_sane t) eqn:St; [|apply (Hsame (-1)); unfold dw_append; rewrite Sa, St; reflexivity].
  apply dwf_sane in Sa; [|exact Wa]. apply dwf_sane in St; [|exact Wt].
  destruct (Z_lt_dec (d_len t + d_len a) (d_max t)) as [L|G]; [|apply (Hsame (-1)); apply dw_append_full; auto; lia].
  destruct (dw_append_ok a t Sa St L) as (t' & E & D' & C' & M'). exists 0, t'. split; [exact E|]. split; [apply D'|]. split; [exact M'|].
  pose proof (f_equal zlen C') as Lc. rewrite zlen_app, !zlen_con in Lc by auto. pose proof (dwf_len _ Wa). split; [lia|]. split; [intros _; exact D'|].
  rewrite C'. rewrite zslice_app_l by (rewrite ?zlen_con by exact Wt; pose proof (dwf_len _ Wt); lia). exact Hs.
Qed.

(** *** dw_fetch_u16, dw_fetch_u8 *)
Lemma dw_fetch_u16_safe s off : dwf s -> -1000000000 <= off <= 1000000000 -> exists v, dw_fetch_u16 s off = Ok v /\ -1 <= v < 65536.
Proof.
  intros W Ho. pose proof W as [B L M Me]. unfold dw_fetch_u16. destruct (dw_sane s) eqn:S; cbn [negb]; [|exists (-1); split; [reflexivity|lia]].
  apply dwf_sane in S; [|exact W]. destruct S as [_ S].
  assert (exists o, (if off <? 0 then i32 (off + d_len s - 1) else off) = o /\ -1000000001 <= o <= 1000000000) as (o & -> & Hoo).
  { destruct (Z.ltb_spec off 0); [rewrite i32_small by lia|]; eexists; split; try reflexivity; lia. }
  destruct (d_len s <? u32 (o + 1)) eqn:E1; cbn [orb]; [exists (-1); split; [reflexivity|lia]|]. destruct (Z.ltb_spec o 0); [exists (-1); split; [reflexivity|lia]|].
  rewrite u32_small in E1 by lia. destruct (rd_byte (d_mem s) o B ltac:(lia)) as (hi & -> & _ & Hh). destruct (rd_byte (d_mem s) (o + 1) B ltac:(lia)) as (lo & -> & _ & Hl).
  cbn [bind]. unfold byte in *. rewrite lor_shiftl8 by lia. eexists. split; [reflexivity|lia].
Qed.
Definition be16 (l : list Z) (i : Z) : Z := match zget l i, zget l (i + 1) with Some a, Some b => a * 256 + b | _, _ => -1 end.
Lemma dw_fetch_u16_ok s off : dok s -> 0 <= off -> off + 2 <= d_len s -> dw_fetch_u16 s off = Ok (be16 (con s) off) /\ 0 <= be16 (con s) off < 65536.
Proof.
  intros [W K] Ho Hl. pose proof W as [B L M Me]. unfold dw_fetch_u16. rewrite (dok_sane s (conj W K)). cbn [negb]. replace (off <? 0) with false by lia. cbv zeta. replace (off <? 0) with false by lia.
  rewrite u32_small by lia. replace (d_len s <? off + 1) with false by lia. cbn [orb]. rewrite !(rd_con s) by (auto; lia).
  assert (zlen (con s) = d_len s) as Lc by (apply zlen_con; exact W). pose proof (bytes_con s W) as Bc.
  destruct (rd_byte (con s) off Bc ltac:(lia)) as (hi & -> & G1 & Hh). destruct (rd_byte (con s) (off + 1) Bc ltac:(lia)) as (lo & -> & G2 & Hlo).
  cbn [bind]. unfold byte in *. rewrite lor_shiftl8 by lia. unfold be16. rewrite G1, G2. split; [reflexivity|lia].
Qed.
Lemma dw_fetch_u8_safe s off : dwf s -> -1000000000 <= off <= 1000000000 -> exists v, dw_fetch_u8 s off = Ok v /\ -1 <= v < 256.
Proof.
  intros W Ho. pose proof W as [B L M Me]. unfold dw_fetch_u8. destruct (dw_sane s) eqn:S; cbn [negb]; [|exists (-1); split; [reflexivity|lia]].
  assert (exists o, (if off <? 0 then i32 (d_len s + off) else off) = o /\ -1000000001 <= o <= 1000000000) as (o & -> & Hoo).
  { destruct (Z.ltb_spec off 0); [rewrite i32_small by lia|]; eexists; split; try reflexivity; lia. }
  destruct (d_len s <? u32 o) eqn:E1; cbn [orb]; [exists (-1); split; [reflexivity|lia]|]. destruct (Z.ltb_spec o 0); [exists (-1); split; [reflexivity|lia]|].
  rewrite u32_small in E1 by lia. destruct (rd_byte (d_mem s) o B ltac:(lia)) as (b & -> & _ & Hb). unfold byte in Hb. eexists. split; [reflexivity|lia].
Qed.

(** *** dw_put_u16 *)
Definition put16 (l : list Z) (v off : Z) : list Z := splice l off [Z.land (Z.shiftr (u16 v) 8) 255; Z.land (u16 v) 255].
Lemma byte_land255 v : byte (Z.land v 255).
Proof. unfold byte. rewrite land_255. lia. Qed.
#[global] Hint Resolve byte_land255 : core.
Lemma two_writes (l : list Z) off a b (k : list Z -> res (Z * dwstr)) : 0 <= off -> off + 2 <= zlen l ->
  (mem <- wr l off a ;; mem <- wr mem (off + 1) b ;; k mem) = k (splice l off [a; b]).
Proof.
  intros Ho Hl. rewrite wr_ok by lia. cbn [bind]. rewrite wr_ok by (rewrite zlen_zupd; lia). cbn [bind]. f_equal.
  rewrite (zupd_splice l) by lia. rewrite zupd_splice by (rewrite zlen_splice; change (zlen [a]) with 1; lia).
  change (off + 1) with (off + zlen [a]). rewrite splice_splice by (change (zlen [a]) with 1; change (zlen [b]) with 1; lia). reflexivity.
Qed.
Lemma dw_put_u16_gen s v off : dwf s -> -1000000000 <= off <= 1000000000 ->
  exists code s', dw_put_u16 s v off = Ok (code, s') /\ dwf s' /\ d_max s' = d_max s /\ d_len s <= d_len s' <= d_len s + 1000000000 /\ (dok s -> dok s').
Proof.
  intros W Ho. pose proof W as [B L M Me]. unfold dw_put_u16. destruct (dw_sane s) eqn:S; cbn [negb]; [|exists (-1), s; same_tac].
  apply dwf_sane in S; [|exact W]. destruct S as [_ S]. cbv zeta.
  assert (exists o, (if off <? 0 then i32 (d_len s + off + 1) else off) = o /\ -1000000001 <= o <= 1000000000) as (o & -> & Hoo).
  { destruct (Z.ltb_spec off 0); [rewrite i32_small by lia|]; eexists; split; try reflexivity; lia. }
  destruct ((d_len s <? u32 o) || (268435455 <? d_len s)) eqn:E1; [exists (-1), s; repeat split; auto; lia|].
  assert (0 <= o <= d_len s) as Hor by (destruct (Z_lt_dec o 0); [pose proof (u32_neg o ltac:(lia)); lia|rewrite u32_small in E1 by lia; lia]).
  assert (forall len, 0 <= len < d_max s -> d_len s <= len <= d_len s + 1000000000 -> o + 2 <= zlen (d_mem s) -> exists code s',
    (mem <- wr (d_mem s) o (Z.land (Z.shiftr (u16 v) 8) 255) ;; mem <- wr mem (o + 1) (Z.land (u16 v) 255) ;; Ok (0, mkdw mem len (d_max s))) = Ok (code, s') /\
    dwf s' /\ d_max s' = d_max s /\ d_len s <= d_len s' <= d_len s + 1000000000 /\ (dok s -> dok s')) as HP.
  { intros len Hlen Hlen2 Hmem. rewrite two_writes by lia. eexists 0, _. split; [reflexivity|].
    assert (dwf (mkdw (splice (d_mem s) o [Z.land (Z.shiftr (u16 v) 8) 255; Z.land (u16 v) 255]) len (d_max s))) as W'.
    { constructor; cbn [d_mem d_len d_max]; try lia; [apply bytes_splice; [exact B|repeat constructor; apply byte_land255]|].
      rewrite zlen_splice; [exact Me|lia|]. rewrite !zlen_cons, zlen_nil. lia. }
    split; [exact W'|]. cbn [d_max d_len]. split; [reflexivity|]. split; [lia|]. intros _. split; [exact W'|cbn [d_len d_max]; lia]. }
  destruct (Z.land (d_len s) 16777215 - 1 <=? o) eqn:E2.
  - destruct (Z.leb_spec (d_max s) (d_len s + (d_len s - o + 2))); [exists (-1), s; repeat split; auto; lia|]. apply HP; lia.
  - change 16777215 with (2 ^ 24 - 1) in E2. rewrite land_ones_mod in E2 by lia. apply HP; lia.
Qed.
Lemma dw_push_u16_gen s v : dwf s ->
  exists code s', dw_push_u16 v s = Ok (code, s') /\ dwf s' /\ d_max s' = d_max s /\ d_len s <= d_len s' /\ (dok s -> dok s').
Proof. intros W. destruct (dw_put_u16_gen s v (-1) W ltac:(lia)) as (c & s' & E & W' & M & L & D). exists c, s'. same_tac. Qed.
Definition u16be (v : Z) : list Z := [Z.land (Z.shiftr (u16 v) 8) 255; Z.land (u16 v) 255].
Lemma u16be_small v : 0 <= v < 65536 -> u16be v = [v / 256; v mod 256].
Proof.
  intros Hv. unfold u16be, u16. rewrite Z.mod_small by lia. rewrite !land_255, Z.shiftr_div_pow2 by lia. change (2 ^ 8) with 256.
  rewrite (Z.mod_small (v / 256)) by lia. reflexivity.
Qed.
Lemma be16_u16be v : 0 <= v < 65536 -> be16 (u16be v) 0 = v.
Proof. intros Hv. rewrite u16be_small by exact Hv. unfold be16. cbn [zget]. change (v / 256 * 256 + v mod 256 = v). lia. Qed.
Lemma dw_push_u16_ok s v : dok s -> d_len s + 2 < d_max s ->
  exists s', dw_push_u16 v s = Ok (0, s') /\ dok s' /\ con s' = con s ++ u16be v /\ d_max s' = d_max s.
Proof.
  intros D HL. pose proof D as [W K]. pose proof W as [B L M Me]. unfold dw_push_u16, dw_put_u16. rewrite (dok_sane s D). cbn [negb]. cbv zeta.
  change (-1 <? 0) with true. cbv iota. rewrite i32_small by lia. replace (d_len s + -1 + 1) with (d_len s) by lia.
  rewrite u32_small by lia. rewrite Z.ltb_irrefl. replace (268435455 <? d_len s) with false by lia. cbn [orb].
  change 16777215 with (2 ^ 24 - 1). rewrite land_ones_mod by lia. replace (d_len s mod 2 ^ 24 - 1 <=? d_len s) with true by (change (2 ^ 24) with 16777216; lia).
  rewrite Z.sub_diag, Z.add_0_l. replace (d_max s <=? d_len s + 2) with false by lia. rewrite two_writes by lia. fold (u16be v).
  eexists. split; [reflexivity|]. split; [|split; [|reflexivity]].
  - split; [constructor|]; cbn [d_mem d_len d_max]; try lia; [apply bytes_splice; [exact B|repeat constructor; apply byte_land255]|].
    rewrite zlen_splice; change (zlen (u16be v)) with 2; lia.
  - unfold con at 1. cbn [d_mem d_len]. rewrite zslice_split by lia. f_equal.
    + rewrite zslice_splice_disj; change (zlen (u16be v)) with 2; try lia. reflexivity.
    + rewrite Z.add_0_l. change 2 with (zlen (u16be v)). apply zslice_splice_same; change (zlen (u16be v)) with 2; lia.
Qed.
Lemma dw_push_u16_full s v : dok s -> d_max s <= d_len s + 2 -> dw_push_u16 v s = Ok (-1, s).
Proof.
  intros D HL. pose proof D as [W K]. pose proof W as [B L M Me]. unfold dw_push_u16, dw_put_u16. rewrite (dok_sane s D). cbn [negb]. cbv zeta.
  change (-1 <? 0) with true. cbv iota. rewrite i32_small by lia. replace (d_len s + -1 + 1) with (d_len s) by lia.
  rewrite u32_small by lia. rewrite Z.ltb_irrefl. replace (268435455 <? d_len s) with false by lia. cbn [orb].
  change 16777215 with (2 ^ 24 - 1). rewrite land_ones_mod by lia. replace (d_len s mod 2 ^ 24 - 1 <=? d_len s) with true by (change (2 ^ 24) with 16777216; lia).
  rewrite Z.sub_diag, Z.add_0_l. replace (d_max s <=? d_len s + 2) with true by lia. reflexivity.
Qed.
(** In the middle of a string (the mask in the code limits this to 2^24). *)
Lemma dw_put_u16_ok s v off : dok s -> 0 <= off -> off + 2 <= d_len s -> d_len s < 16777216 ->
  exists s', dw_put_u16 s v off = Ok (0, s') /\ dok s' /\ con s' = splice (con s) off (u16be v) /\ d_max s' = d_max s /\ d_len s' = d_len s.
Proof.
  intros D Ho HL H24. pose proof D as [W K]. pose proof W as [B L M Me]. unfold dw_put_u16. rewrite (dok_sane s D). cbn [negb]. cbv zeta.
  replace (off <? 0) with false by lia. rewrite u32_small by lia. replace (d_len s <? off) with false by lia. replace (268435455 <? d_len s) with false by lia. cbn [orb].
  change 16777215 with (2 ^ 24 - 1). rewrite land_ones_mod by lia. change (2 ^ 24) with 16777216. rewrite Z.mod_small by lia. replace (d_len s - 1 <=? off) with false by lia.
  rewrite two_writes by lia. fold (u16be v). assert (zlen (u16be v) = 2) as L2 by reflexivity.
  eexists. split; [reflexivity|]. split; [|split; [|split; reflexivity]].
  - split; [constructor|]; cbn [d_mem d_len d_max]; try lia; [apply bytes_splice; [exact B|repeat constructor; apply byte_land255]|]. rewrite zlen_splice; lia.
  - apply zlist_ext.
    + unfold con. cbn [d_mem d_len]. rewrite zlen_zslice by (rewrite ?zlen_splice; lia). rewrite zlen_splice; [|lia|]; fold (con s); rewrite zlen_con by exact W; lia.
    + intros i Hi. unfold con at 1 in Hi. cbn [d_mem d_len] in Hi. rewrite zlen_zslice in Hi by (rewrite ?zlen_splice; lia).
      unfold con at 1. cbn [d_mem d_len]. rewrite zget_zslice, Z.add_0_l by lia. rewrite !zget_splice by (rewrite ?zlen_con by exact W; lia). rewrite L2.
      destruct ((off <=? i) && (i <? off + 2)); [reflexivity|]. symmetry. apply zget_con; [exact W|lia].
Qed.

(** *** dw_substr *)
Lemma substr_loop_ok obj begin n : forall c mem max, dwf obj -> 0 <= begin -> 0 <= c -> begin + c + Z.of_nat n < 4294967295 -> max <= zlen mem ->
  let k := Z.max 0 (Z.min (Z.of_nat n) (Z.min (d_len obj + 1 - begin - c) (max - c))) in
  substr_loop n c obj begin mem max = Ok (c + k, splice mem c (zslice (d_mem obj) (begin + c) k)).
Proof.
  induction n as [|n IH]; intros c mem max W Hb Hc Hn Hm; cbv zeta; cbn [substr_loop].
  - replace (Z.max _ _) with 0 by lia. rewrite zslice_nil, splice_nil, Z.add_0_r. reflexivity.
  - pose proof W as [B L M Me]. rewrite u32_small by lia. destruct ((d_len obj <? c + begin) || (max <=? c)) eqn:E.
    + replace (Z.max _ _) with 0 by lia. rewrite zslice_nil, splice_nil, Z.add_0_r. reflexivity.
    + destruct (rd_ok (d_mem obj) (begin + c) ltac:(lia)) as (b & -> & G). cbn [bind]. rewrite wr_ok by lia. cbn [bind].
      rewrite IH by (try rewrite zlen_zupd; auto; lia). set (k1 := Z.max 0 _). set (k := Z.max 0 _). assert (k = 1 + k1) as Ek by lia. f_equal. f_equal; [lia|].
      rewrite zupd_splice by lia. change (c + 1) with (c + zlen [b]).
      assert (zlen (zslice (d_mem obj) (begin + (c + zlen [b])) k1) = k1) as L1 by (apply zlen_zslice; change (zlen [b]) with 1; lia).
      rewrite splice_splice by (rewrite ?L1; change (zlen [b]) with 1; lia). f_equal. rewrite Ek, zslice_split by lia. rewrite (zslice_one _ _ _ G). cbn [app]. f_equal. f_equal. change (zlen [b]) with 1. lia.
Qed.
Lemma dw_substr_gen J s begin amount mx : junk_ok J -> dwf s -> -1000000000 <= begin <= 1000000000 -> -1000000000 <= amount <= 1000000000 -> -1 <= mx <= 100000000 ->
  exists r, dw_substr J (Some s) begin amount mx = Ok r /\ forall t, r = Some t -> dwf t /\
    (0 <= amount -> 0 <= mx -> dok t /\ d_max t = amount + mx + 1 /\ d_len t <= amount).
Proof.
  intros HJ W Hb Ha Hm. pose proof W as [B L M Me]. unfold dw_substr. destruct (dw_sane s) eqn:S; cbn [negb]; [|exists None; split; [reflexivity|discriminate]].
  apply dwf_sane in S; [|exact W]. destruct S as [_ S]. cbv zeta.
  assert (exists o, (if begin <? 0 then i32 (d_len s + begin) else begin) = o /\ -1000000001 <= o <= 1000000000) as (o & -> & Hoo).
  { destruct (Z.ltb_spec begin 0); [rewrite i32_small by lia|]; eexists; split; try reflexivity; lia. }
  assert (exists a, (if amount <? 0 then i32 (d_len s - o + amount + 1) else amount) = a /\ -2147483648 <= a < 2147483648 /\ (0 <= amount -> a = amount)) as (a & -> & Har & Hae).
  { destruct (Z.ltb_spec amount 0); [|exists amount; repeat split; lia]. eexists. split; [reflexivity|]. split; [|lia]. unfold i32. cbv zeta. destruct (Z.ltb_spec ((d_len s - o + amount + 1) mod 4294967296) 2147483648); lia. }
  assert (forall copy, (if 0 <=? mx then dw_create J (a + mx + 1) else if mx =? -1 then dw_create J (d_max s) else None) = Some copy ->
            dwf copy /\ d_len copy = 0 /\ (0 <= mx -> d_max copy = u32 (a + mx + 1))) as HC.
  { intros copy. destruct (Z.leb_spec 0 mx).
    - destruct (dw_create_gen J (a + mx + 1) HJ) as [->|(s0 & -> & W0 & L0 & M0)]; [discriminate|]. intros E. injection E as <-. auto.
    - destruct (mx =? -1); [|discriminate]. destruct (dw_create_gen J (d_max s) HJ) as [->|(s0 & -> & W0 & L0 & M0)]; [discriminate|]. intros E. injection E as <-. split; [exact W0|]. split; [exact L0|lia]. }
  destruct (if 0 <=? mx then _ else _) as [copy|] eqn:EC; [|exists None; split; [reflexivity|discriminate]]. destruct (HC copy eq_refl) as (Wc & Lc & Mc). pose proof Wc as [Bc Lcc Mcc Mec].
  assert (exists k mem, substr_loop (Z.to_nat a) 0 s o (d_mem copy) (d_max copy) = Ok (k, mem) /\ 0 <= k <= d_max copy /\ k <= Z.max 0 a /\ bytes mem /\ zlen mem = zlen (d_mem copy)) as (k & mem & -> & Hk & Hka & Hbm & Hlm).
  { destruct (Z_lt_dec o 0) as [Hneg|Hpos].
    - exists 0, (d_mem copy). split; [|same_tac]. destruct (Z.to_nat a); cbn [substr_loop]; [reflexivity|]. pose proof (u32_neg (0 + o) ltac:(lia)).
      replace (d_len s <? u32 (0 + o)) with true by lia. reflexivity.
    - pose proof (substr_loop_ok s o (Z.to_nat a) 0 (d_mem copy) (d_max copy) W ltac:(lia) ltac:(lia) ltac:(lia) ltac:(lia)) as HS. cbv zeta in HS. rewrite Z.add_0_l, Z.add_0_r, !Z.sub_0_r in HS.
      set (k := Z.max 0 _) in *. exists k, (splice (d_mem copy) 0 (zslice (d_mem s) o k)). split; [exact HS|]. split; [lia|]. split; [lia|]. split; [apply bytes_splice; [exact Bc|apply bytes_zslice; exact B]|].
      destruct (Z.eq_dec k 0) as [->|N]; [rewrite zslice_nil, splice_nil; reflexivity|]. apply zlen_splice; [lia|]. rewrite zlen_zslice by lia. lia. }
  cbn [bind]. eexists. split; [reflexivity|]. intros t E. injection E as <-.
  assert (dwf (mkdw mem k (d_max copy))) as Wt by (constructor; cbn [d_mem d_len d_max]; auto; lia). split; [exact Wt|].
  intros H0 H1. rewrite Hae in * by exact H0. specialize (Mc H1). rewrite u32_small in Mc by lia. split; [|cbn [d_len d_max]; lia]. split; [exact Wt|cbn [d_len d_max]; lia].
Qed.
Lemma dw_substr_ok J s begin amount mx : junk_ok J -> dok s -> 0 <= begin -> 0 <= amount -> begin + amount <= d_len s -> 0 <= mx -> amount + mx + 1 < 134217728 ->
  exists t, dw_substr J (Some s) begin amount mx = Ok (Some t) /\ dok t /\ con t = zslice (con s) begin amount /\ d_max t = amount + mx + 1 /\ d_len t = amount.
Proof.
  intros HJ D Hb Ha Hba Hm Hsz. pose proof D as [W K]. pose proof W as [B L M Me]. unfold dw_substr. rewrite (dok_sane s D). cbn [negb]. cbv zeta.
  replace (begin <? 0) with false by lia. replace (amount <? 0) with false by lia. replace (0 <=? mx) with true by lia.
  destruct (dw_create_ok J (amount + mx + 1) HJ ltac:(lia)) as (cp & -> & Wc & Lc & Mc). pose proof Wc as [Bc Lcc Mcc Mec].
  pose proof (substr_loop_ok s begin (Z.to_nat amount) 0 (d_mem cp) (d_max cp) W ltac:(lia) ltac:(lia) ltac:(lia) ltac:(lia)) as HS. cbv zeta in HS.
  replace (Z.max 0 _) with amount in HS by lia. rewrite Z.add_0_l, Z.add_0_r in HS. rewrite HS. cbn [bind]. eexists. split; [reflexivity|].
  assert (zlen (zslice (d_mem s) begin amount) = amount) as Lz by (apply zlen_zslice; lia).
  split; [|split; [|cbn [d_max d_len]; split; [exact Mc|reflexivity]]].
  - split; [constructor|]; cbn [d_mem d_len d_max]; try lia; [apply bytes_splice; [exact Bc|apply bytes_zslice; exact B]|]. rewrite zlen_splice by lia. lia.
  - unfold con at 1. cbn [d_mem d_len]. rewrite <- Lz at 2. rewrite zslice_splice_same by lia. apply zslice_con; auto; lia.
Qed.
