(** Proofs about the server part of coLunacyDNS: complete queries. *)
From Verif Require Import CBase SpecNames SpecAcl SpecDwStr ModelDwStr ModelColunacy SpecColunacy.
From Verif Require Import Bits ProofDwStr ProofDwDnsStr ProofColunacy.

Lemma received_all n size J d : (length d <= n)%nat -> received n size J d = d ++ skipn (length d) (mkjunk J (Z.of_nat size)).
Proof. intros H. unfold received. rewrite firstn_all2 by assumption. reflexivity. Qed.
Lemma zlen_received n size J d : (n <= size)%nat -> zlen (received n size J d) = Z.of_nat size.
Proof. intros H. unfold received. unfold zlen. rewrite app_length, skipn_length. pose proof (zlen_mkjunk J (Z.of_nat size) ltac:(lia)) as L. unfold zlen in L. pose proof (firstn_le_length n d). lia. Qed.
Lemma wr2 a0 a1 a2 Y v : wr (a0 :: a1 :: a2 :: Y) 2 v = Ok (a0 :: a1 :: v :: Y).
Proof. exact (wr_next [a0; a1] a2 Y v 2 eq_refl). Qed.
Lemma wr3 a0 a1 a2 a3 Y v : wr (a0 :: a1 :: a2 :: a3 :: Y) 3 v = Ok (a0 :: a1 :: a2 :: v :: Y).
Proof. exact (wr_next [a0; a1; a2] a3 Y v 3 eq_refl). Qed.
Lemma wr7 a0 a1 a2 a3 a4 a5 a6 a7 Y v : wr (a0 :: a1 :: a2 :: a3 :: a4 :: a5 :: a6 :: a7 :: Y) 7 v = Ok (a0 :: a1 :: a2 :: a3 :: a4 :: a5 :: a6 :: v :: Y).
Proof. exact (wr_next [a0; a1; a2; a3; a4; a5; a6] a7 Y v 7 eq_refl). Qed.
Lemma wr11 a0 a1 a2 a3 a4 a5 a6 a7 a8 a9 a10 a11 Y v : wr (a0 :: a1 :: a2 :: a3 :: a4 :: a5 :: a6 :: a7 :: a8 :: a9 :: a10 :: a11 :: Y) 11 v = Ok (a0 :: a1 :: a2 :: a3 :: a4 :: a5 :: a6 :: a7 :: a8 :: a9 :: a10 :: v :: Y).
Proof. exact (wr_next [a0; a1; a2; a3; a4; a5; a6; a7; a8; a9; a10] a11 Y v 11 eq_refl). Qed.

Lemma nib o : 0 <= o < 16 -> o = 0 \/ o = 1 \/ o = 2 \/ o = 3 \/ o = 4 \/ o = 5 \/ o = 6 \/ o = 7 \/ o = 8 \/ o = 9 \/ o = 10 \/ o = 11 \/ o = 12 \/ o = 13 \/ o = 14 \/ o = 15.
Proof. lia. Qed.
Ltac nibs H := apply nib in H; repeat (destruct H as [-> |H]); try subst.
Lemma octet2 op aa tc rd : 0 <= op < 16 -> bit aa -> bit tc -> bit rd ->
  Z.land (0 * 128 + op * 8 + aa * 4 + tc * 2 + rd) 128 = 0 /\ Z.lor (0 * 128 + op * 8 + aa * 4 + tc * 2 + rd) 128 = 1 * 128 + op * 8 + aa * 4 + tc * 2 + rd /\
  Z.land (1 * 128 + op * 8 + aa * 4 + tc * 2 + rd) 251 = 1 * 128 + op * 8 + 0 * 4 + tc * 2 + rd /\ Z.lor (1 * 128 + op * 8 + 0 * 4 + tc * 2 + rd) 4 = 1 * 128 + op * 8 + 1 * 4 + tc * 2 + rd /\
  Z.lor (1 * 128 + op * 8 + aa * 4 + tc * 2 + rd) 128 = 1 * 128 + op * 8 + aa * 4 + tc * 2 + rd.
Proof. intros H [-> | ->] [-> | ->] [-> | ->]; nibs H; repeat split. Qed.
Lemma octet3 ra z ad cd rc : bit ra -> bit z -> bit ad -> bit cd -> 0 <= rc < 16 ->
  Z.land (ra * 128 + z * 64 + ad * 32 + cd * 16 + rc) 127 = 0 * 128 + z * 64 + ad * 32 + cd * 16 + rc /\ Z.lor (0 * 128 + z * 64 + ad * 32 + cd * 16 + rc) 128 = 1 * 128 + z * 64 + ad * 32 + cd * 16 + rc /\
  Z.land (ra * 128 + z * 64 + ad * 32 + cd * 16 + rc) 240 = ra * 128 + z * 64 + ad * 32 + cd * 16 + 0 /\ Z.lor (ra * 128 + z * 64 + ad * 32 + cd * 16 + 0) 2 = ra * 128 + z * 64 + ad * 32 + cd * 16 + 2.
Proof. intros [-> | ->] [-> | ->] [-> | ->] [-> | ->] H; nibs H; repeat split. Qed.

(** The octets a reply is put into. *)
Definition kept (h : header) (n : list (list Z)) (ty cl : Z) (Y : list Z) : list Z := header_bytes (reply_header h (h_aa h) (h_ra h) (h_rcode h) 1) ++ question n ty cl ++ Y.

Lemma c_string_zero t G : Forall (fun c => c <> 0) t -> c_string (t ++ 0 :: G) = t.
Proof. induction t as [|c t IH]; intros H; [reflexivity|]. inversion H; subst. cbn [app c_string]. destruct c; [contradiction| |]; rewrite IH; auto. Qed.
Lemma digits_nonzero k : nth k digits 0 <> 0 \/ (16 <= k)%nat.
Proof. do 16 (destruct k as [|k]; [left; discriminate|]). right. lia. Qed.
Lemma char_is_nonzero c t : byte c -> char_is c t -> Forall (fun c => c <> 0) t.
Proof.
  unfold byte. intros B [(P & ->)|(_ & ->)].
  - constructor; [unfold plain_char in P; lia|constructor].
  - pose proof (digits_nonzero (Z.to_nat (c / 16))). pose proof (digits_nonzero (Z.to_nat (c mod 16))). constructor; [lia|]. constructor; [lia|]. constructor; [lia|]. constructor; [lia|constructor].
Qed.
Lemma human_nonzero n t : good_name n -> human n t -> Forall (fun c => c <> 0) t.
Proof.
  intros HN (ts & H & ->). apply Forall_concat. revert ts H. induction HN as [|l n (_ & B) HN IH]; intros ts H; inversion H as [|? tl ? ts' (tc & H1 & ->) H2]; subst; [constructor|]. constructor; [|apply IH; assumption].
  apply Forall_app. split; [|constructor; [lia|constructor]]. apply Forall_concat. clear - B H1. revert tc H1. induction B as [|c l Bc B IH]; intros tc H1; inversion H1; subst; constructor; [eapply char_is_nonzero; eassumption|apply IH; assumption].
Qed.

Lemma zlen_header h : zlen (header_bytes h) = 12. Proof. reflexivity. Qed.
Lemma zlen_q n ty cl : zlen (question n ty cl) = zlen (labels n) + 5.
Proof. unfold question. rewrite wire_labels0, !zlen_app. change (zlen (num2 ty)) with 2. change (zlen (num2 cl)) with 2. change (zlen [0]) with 1. lia. Qed.

Section Query.
  Context (h : header) (n : list (list Z)) (ty cl : Z) (extra t : list Z) (J Jq : Z -> Z).
  Hypothesis GQ : good_query h n ty cl extra t.

  Lemma rest_of : exists Y, received 255 500 J (query h n ty cl extra) = header_bytes h ++ question n ty cl ++ Y /\ zlen Y = 500 - 17 - zlen (labels n).
  Proof.
    destruct GQ as (A & HN & GN & W1 & W2 & BE & L & HT & LT).
    assert (length (query h n ty cl extra) <= 255)%nat as LL by (unfold zlen in L; lia). pose proof (received_all 255 500 J _ LL) as R.
    pose proof (zlen_received 255 500 J (query h n ty cl extra) ltac:(lia)) as LR. change (Z.of_nat 500) with 500 in *.
    exists (extra ++ skipn (length (query h n ty cl extra)) (mkjunk J 500)). rewrite R in *. unfold query in *. rewrite <- !app_assoc in *. split; [reflexivity|]. rewrite !(zlen_app (header_bytes h)), (zlen_app (question n ty cl)), zlen_header, zlen_q in LR. lia.
  Qed.

  Lemma serve_query : exists Y, zlen Y = 500 - 17 - zlen (labels n) /\
    serve J Jq (query h n ty cl extra) =
      (let m := kept h n ty cl Y in let qlen := zlen (labels n) in
       if (ty =? 255) || (ty =? 13) then
         m <- put_at m (17 + qlen) AnyAnswer ;; if zlen m <? 17 + qlen + 22 then Bad OutOfBounds else Ok (Answered (zslice m 0 (17 + qlen + 22)))
       else Ok (Script t ty m qlen)).
  Proof.
    destruct rest_of as (Y & R & LY). exists Y. split; [exact LY|]. destruct GQ as (((H1 & H2 & H3 & H4 & H5 & H6 & H7 & H8 & H9 & H10 & H11 & H12 & H13 & H14 & H15) & Q0 & Q1 & Q2 & Q3 & Q4) & HN & GN & W1 & W2 & BE & L & HT & LT).
    assert (length (query h n ty cl extra) <= 255)%nat as LL by (unfold zlen in L; lia).
    unfold serve. rewrite R, firstn_all2 by exact LL.
    assert (17 < Z.of_nat (length (query h n ty cl extra))) as L17.
    { unfold query. fold (zlen (header_bytes h ++ question n ty cl ++ extra)). rewrite !zlen_app, zlen_header, zlen_q. destruct n as [|l n']; [contradiction|]. rewrite labels_cons, zlen_cons. pose proof (zlen_nonneg (l ++ labels n')). pose proof (zlen_nonneg extra). lia. }
    cbv zeta. replace (Z.of_nat (length (query h n ty cl extra)) <? 3) with false by lia.
    remember (Z.of_nat (length (query h n ty cl extra))) as len eqn:El. clear El.
    assert (header_bytes h = [h_id h / 256; h_id h mod 256; 0 * 128 + h_opcode h * 8 + h_aa h * 4 + h_tc h * 2 + h_rd h; h_ra h * 128 + h_z h * 64 + h_ad h * 32 + h_cd h * 16 + h_rcode h; 0; 1; 0; 0; 0; 0; 0; h_arcount h]) as EH.
    { unfold header_bytes. rewrite Q0, Q1, Q2, Q3. unfold num2, word in *. rewrite (Z.div_small (h_arcount h)), (Z.mod_small (h_arcount h)) by lia. reflexivity. }
    destruct (octet2 (h_opcode h) (h_aa h) (h_tc h) (h_rd h) H3 H4 H5 H6) as (O1 & O2 & _).
    rewrite EH. remember (question n ty cl ++ Y) as rest eqn:Er. cbn [app].
    match goal with |- context [rd ?l 2] => change (rd l 2) with (@Ok Z (0 * 128 + h_opcode h * 8 + h_aa h * 4 + h_tc h * 2 + h_rd h)) end. cbn [bind]. rewrite O1. change (negb (0 =? 0)) with false. cbv iota.
    unfold processQueryC. replace (12 <? len) with true by lia.
    match goal with |- context [rd ?l 5] => change (rd l 5) with (@Ok Z 1) end. cbn [bind]. change (1 =? 1) with true. cbv iota.
    match goal with |- context [rd ?l 2] => change (rd l 2) with (@Ok Z (0 * 128 + h_opcode h * 8 + h_aa h * 4 + h_tc h * 2 + h_rd h)) end. cbn [bind]. rewrite wr2. cbn [bind]. rewrite O2.
    match goal with |- context [rd ?l 7] => change (rd l 7) with (@Ok Z 0) end. cbn [bind]. rewrite wr7. cbn [bind]. rewrite wr11. cbn [bind]. change (u8 (0 + 1)) with 1.
    match goal with |- context [humanDNSname ?l 12] => replace l with (kept h n ty cl Y) by (unfold kept, header_bytes, reply_header, num2; cbn [h_id h_qr h_opcode h_aa h_tc h_rd h_ra h_z h_ad h_cd h_rcode h_qdcount h_ancount h_nscount h_arcount app]; rewrite Er; reflexivity) end.
    clear R EH O1 O2 Er rest L17.
    assert (kept h n ty cl Y = header_bytes (reply_header h (h_aa h) (h_ra h) (h_rcode h) 1) ++ labels n ++ [0] ++ (num2 ty ++ num2 cl ++ Y)) as EK.
    { unfold kept, question. rewrite wire_labels0, <- !app_assoc. reflexivity. }
    assert (zlen (labels n) <= 255) as LL2 by (unfold query in L; rewrite !zlen_app, zlen_header, zlen_q in L; pose proof (zlen_nonneg extra); lia).
    destruct (human_name n t [0] (header_bytes (reply_header h (h_aa h) (h_ra h) (h_rcode h) 1)) (num2 ty ++ num2 cl ++ Y) (mkjunk Jq 500) 490 GN HT (or_introl eq_refl)) as (out' & E1 & E2); [lia|rewrite zlen_mkjunk by lia; lia|lia|].
    rewrite zlen_header in E1. rewrite <- EK in E1. rewrite E1. cbn [bind]. destruct (E2 eq_refl) as (G & ->). rewrite c_string_zero by (eapply human_nonzero; eassumption).
    change (zlen [0]) with 1. replace (zlen (labels n) + 1 - 1) with (zlen (labels n)) by lia.
    assert (0 < zlen (labels n)) as LP by (destruct n as [|l n']; [contradiction|]; rewrite labels_cons, zlen_cons; pose proof (zlen_nonneg (l ++ labels n')); lia).
    replace (0 <? zlen (labels n)) with true by lia.
    rewrite (rd_at (kept h n ty cl Y) (header_bytes (reply_header h (h_aa h) (h_ra h) (h_rcode h) 1) ++ labels n ++ [0]) (ty / 256) ([ty mod 256] ++ num2 cl ++ Y));
      [|rewrite EK; unfold num2 at 1; rewrite <- !app_assoc; reflexivity|rewrite !zlen_app, zlen_header; change (zlen [0]) with 1; lia]. cbn [bind].
    rewrite (rd_at (kept h n ty cl Y) (header_bytes (reply_header h (h_aa h) (h_ra h) (h_rcode h) 1) ++ labels n ++ [0] ++ [ty / 256]) (ty mod 256) (num2 cl ++ Y));
      [|rewrite EK; unfold num2 at 1; rewrite <- !app_assoc; reflexivity|rewrite !zlen_app, zlen_header; change (zlen [0]) with 1; change (zlen [ty / 256]) with 1; lia]. cbn [bind].
    replace (ty / 256 * 256 + ty mod 256) with ty by lia. reflexivity.
  Qed.
End Query.

(** A record put after the question. *)
Lemma zslice_front (A B : list Z) k : k = zlen A -> zslice (A ++ B) 0 k = A.
Proof. intros ->. rewrite zslice_app_l by (pose proof (zlen_nonneg A); lia). apply zslice_all. Qed.
Lemma send_record_ok X Y qlen ttl r0 r1 r2 r3 r4 r5 r6 r7 r8 r9 D :
  zlen X = 17 + qlen -> zlen (r0 :: r1 :: r2 :: r3 :: r4 :: r5 :: r6 :: r7 :: r8 :: r9 :: D) <= zlen Y ->
  send_record (X ++ Y) qlen ttl (r0 :: r1 :: r2 :: r3 :: r4 :: r5 :: r6 :: r7 :: r8 :: r9 :: D) =
  Ok (Some (X ++ [r0; r1; r2; r3; r4; r5; r6; Z.land (Z.shiftr ttl 16) 255; Z.land (Z.shiftr ttl 8) 255; Z.land ttl 255] ++ D)).
Proof.
  intros LX LY. unfold send_record. rewrite <- LX, put_at_mid by exact LY. cbn [bind]. remember (skipn _ Y) as Y' eqn:EY. clear EY LY.
  assert (forall a b c d e f g A v w x, 
    (m <- wr (X ++ (a :: b :: c :: d :: e :: f :: g :: r7 :: r8 :: r9 :: D) ++ A) (qlen + 26) v ;;
     m <- wr m (qlen + 25) w ;; wr m (qlen + 24) x) = Ok (X ++ (a :: b :: c :: d :: e :: f :: g :: x :: w :: v :: D) ++ A)) as HH.
  { intros. change (X ++ (a :: b :: c :: d :: e :: f :: g :: r7 :: r8 :: r9 :: D) ++ A) with (X ++ [a; b; c; d; e; f; g; r7; r8] ++ r9 :: D ++ A). rewrite app_assoc, wr_next by (rewrite zlen_app; change (zlen [a; b; c; d; e; f; g; r7; r8]) with 9; lia). cbn [bind].
    rewrite <- app_assoc. change (X ++ [a; b; c; d; e; f; g; r7; r8] ++ v :: D ++ A) with (X ++ [a; b; c; d; e; f; g; r7] ++ r8 :: v :: D ++ A). rewrite app_assoc, wr_next by (rewrite zlen_app; change (zlen [a; b; c; d; e; f; g; r7]) with 8; lia). cbn [bind].
    rewrite <- app_assoc. change (X ++ [a; b; c; d; e; f; g; r7] ++ w :: v :: D ++ A) with (X ++ [a; b; c; d; e; f; g] ++ r7 :: w :: v :: D ++ A). rewrite app_assoc, wr_next by (rewrite zlen_app; change (zlen [a; b; c; d; e; f; g]) with 7; lia).
    rewrite <- app_assoc. reflexivity. }
  specialize (HH r0 r1 r2 r3 r4 r5 r6 Y' (Z.land ttl 255) (Z.land (Z.shiftr ttl 8) 255) (Z.land (Z.shiftr ttl 16) 255)).
  destruct (wr (X ++ (r0 :: r1 :: r2 :: r3 :: r4 :: r5 :: r6 :: r7 :: r8 :: r9 :: D) ++ Y') (qlen + 26) (Z.land ttl 255)) as [m1| |] eqn:E1; cbn [bind] in *; try discriminate HH.
  destruct (wr m1 (qlen + 25) (Z.land (Z.shiftr ttl 8) 255)) as [m2| |] eqn:E2; cbn [bind] in *; try discriminate HH.
  rewrite HH. cbn [bind].
  match goal with |- context [if ?b then _ else _] => replace b with false by (rewrite !zlen_app, !zlen_cons; pose proof (zlen_nonneg Y'); lia) end.
  f_equal. f_equal. rewrite app_assoc, zslice_front by (rewrite zlen_app, !zlen_cons; lia). reflexivity.
Qed.

Lemma endThread_kept h n ty cl Y s : header_ok h ->
  let ttl := clamp (s_ttl s) in let q := zlen (labels n) in
  let m := header_bytes (reply_header h (flag (s_aa s)) (flag (s_ra s)) (h_rcode h) 1) ++ question n ty cl ++ Y in
  endThread (kept h n ty cl Y) q s =
    match s_type s with
    | SIgnore => Ok None
    | SFail => Ok (Some (header_bytes (reply_header h (flag (s_aa s)) (flag (s_ra s)) 2 0) ++ question n ty cl))
    | SNotThere => send_record m q ttl not_there
    | SA ip => send_record m q ttl (IPv4answer ip)
    | SIp6 ip => send_record m q ttl (IPv6answer ip)
    end.
Proof.
  intros (H1 & H2 & H3 & H4 & H5 & H6 & H7 & H8 & H9 & H10 & H11 & H12 & H13 & H14 & H15). cbv zeta.
  assert (forall a r rc an, header_bytes (reply_header h a r rc an) = [h_id h / 256; h_id h mod 256; 1 * 128 + h_opcode h * 8 + a * 4 + h_tc h * 2 + h_rd h; r * 128 + h_z h * 64 + h_ad h * 32 + h_cd h * 16 + rc; 0; 1; an / 256; an mod 256; 0; 0; 0; 0]) as EH by reflexivity.
  destruct (octet2 (h_opcode h) (h_aa h) (h_tc h) (h_rd h) H3 H4 H5 H6) as (_ & _ & O3 & O4 & _).
  destruct (octet2 (h_opcode h) (flag (s_aa s)) (h_tc h) (h_rd h) H3 ltac:(unfold bit, flag; destruct (s_aa s); auto) H5 H6) as (_ & _ & _ & _ & O5).
  destruct (octet3 (h_ra h) (h_z h) (h_ad h) (h_cd h) (h_rcode h) H7 H8 H9 H10 H11) as (P1 & P2 & _).
  destruct (octet3 (flag (s_ra s)) (h_z h) (h_ad h) (h_cd h) (h_rcode h) ltac:(unfold bit, flag; destruct (s_ra s); auto) H8 H9 H10 H11) as (_ & _ & P3 & P4).
  assert (zlen (question n ty cl) = zlen (labels n) + 5) as LQ by apply zlen_q.
  unfold kept, endThread. rewrite !EH. remember (question n ty cl ++ Y) as rest eqn:Er. cbn [app].
  match goal with |- context [rd ?l 2] => change (rd l 2) with (@Ok Z (1 * 128 + h_opcode h * 8 + h_aa h * 4 + h_tc h * 2 + h_rd h)) end. cbn [bind]. rewrite wr2. cbn [bind]. rewrite O3.
  match goal with |- context [if s_aa s then ?A else ?B] => replace (if s_aa s then A else B) with (@Ok (list Z) (h_id h / 256 :: h_id h mod 256 :: (1 * 128 + h_opcode h * 8 + flag (s_aa s) * 4 + h_tc h * 2 + h_rd h) :: (h_ra h * 128 + h_z h * 64 + h_ad h * 32 + h_cd h * 16 + h_rcode h) :: 0 :: 1 :: 1 / 256 :: 1 mod 256 :: 0 :: 0 :: 0 :: 0 :: rest)) end.
  2: { destruct (s_aa s); [|reflexivity]. match goal with |- context [rd ?l 2] => change (rd l 2) with (@Ok Z (1 * 128 + h_opcode h * 8 + 0 * 4 + h_tc h * 2 + h_rd h)) end. cbn [bind]. rewrite wr2, O4. reflexivity. }
  cbn [bind].
  match goal with |- context [rd ?l 3] => change (rd l 3) with (@Ok Z (h_ra h * 128 + h_z h * 64 + h_ad h * 32 + h_cd h * 16 + h_rcode h)) end. cbn [bind]. rewrite wr3. cbn [bind]. rewrite P1.
  match goal with |- context [if s_ra s then ?A else ?B] => replace (if s_ra s then A else B) with (@Ok (list Z) (h_id h / 256 :: h_id h mod 256 :: (1 * 128 + h_opcode h * 8 + flag (s_aa s) * 4 + h_tc h * 2 + h_rd h) :: (flag (s_ra s) * 128 + h_z h * 64 + h_ad h * 32 + h_cd h * 16 + h_rcode h) :: 0 :: 1 :: 1 / 256 :: 1 mod 256 :: 0 :: 0 :: 0 :: 0 :: rest)) end.
  2: { destruct (s_ra s); [|reflexivity]. match goal with |- context [rd ?l 3] => change (rd l 3) with (@Ok Z (0 * 128 + h_z h * 64 + h_ad h * 32 + h_cd h * 16 + h_rcode h)) end. cbn [bind]. rewrite wr3, P2. reflexivity. }
  cbn [bind].
  assert ((if (if 7777777 <? s_ttl s then 7777777 else s_ttl s) <? 0 then 0 else if 7777777 <? s_ttl s then 7777777 else s_ttl s) = clamp (s_ttl s)) as -> by (unfold clamp; destruct (7777777 <? s_ttl s) eqn:T1; [change (7777777 <? 0) with false; cbv iota; lia|destruct (s_ttl s <? 0) eqn:T2; lia]).
  destruct (s_type s); try reflexivity.
  match goal with |- context [rd ?l 2] => change (rd l 2) with (@Ok Z (1 * 128 + h_opcode h * 8 + flag (s_aa s) * 4 + h_tc h * 2 + h_rd h)) end. cbn [bind]. rewrite wr2, O5. cbn [bind].
  match goal with |- context [rd ?l 3] => change (rd l 3) with (@Ok Z (flag (s_ra s) * 128 + h_z h * 64 + h_ad h * 32 + h_cd h * 16 + h_rcode h)) end. cbn [bind]. rewrite wr3, P3. cbn [bind].
  match goal with |- context [rd ?l 3] => change (rd l 3) with (@Ok Z (flag (s_ra s) * 128 + h_z h * 64 + h_ad h * 32 + h_cd h * 16 + 0)) end. cbn [bind]. rewrite wr3, P4. cbn [bind]. rewrite wr7. cbn [bind].
  rewrite Er. pose proof (zlen_nonneg Y). change (0 / 256) with 0. change (0 mod 256) with 0. change (1 / 256) with 0.
  match goal with |- context [zlen ?l <? 17 + zlen (labels n)] => change l with (header_bytes (reply_header h (flag (s_aa s)) (flag (s_ra s)) 2 0) ++ (question n ty cl ++ Y)) end. 
  replace (zlen (header_bytes (reply_header h (flag (s_aa s)) (flag (s_ra s)) 2 0) ++ question n ty cl ++ Y) <? 17 + zlen (labels n)) with false by (rewrite !zlen_app, zlen_header, LQ; lia).
  rewrite app_assoc, zslice_front by (rewrite zlen_app, zlen_header, LQ; lia). reflexivity.
Qed.
