(** C15, C19: who may ask, and what is taken for a query (Deadwood). *)
From Verif Require Import CBase Bits SpecDwStr ModelDwStr ModelDwSys SpecAcl ProofDwStr ProofDwSys PropsDecompress.

(** *** C19 *)
(** Any twelve bytes are the bytes of one header. *)
Theorem C19_every_packet_has_a_header :
  forall packet, bytes packet -> 12 <= zlen packet -> exists h rest, header_ok h /\ packet = header_bytes h ++ rest.
Proof. exact header_of_bytes. Qed.
Print Assumptions C19_every_packet_has_a_header.
Lemma num2_inj a b : word a -> word b -> a / 256 = b / 256 -> a mod 256 = b mod 256 -> a = b.
Proof. unfold word. lia. Qed.
Lemma peel m x r x' r' : 0 <= r < m -> 0 <= r' < m -> x * m + r = x' * m + r' -> x = x' /\ r = r'.
Proof. intros H H' E. assert (x = x') as ->; [|split; [reflexivity|]; nia]. rewrite (Z.div_unique (x * m + r) m x r) by nia. rewrite (Z.div_unique (x' * m + r') m x' r') by nia. rewrite E. reflexivity. Qed.
Lemma bit_range x : bit x -> 0 <= x < 2.
Proof. intros [-> | ->]; lia. Qed.
Lemma flags2_inj a b c d e a' b' c' d' e' : bit a -> 0 <= b < 16 -> bit c -> bit d -> bit e -> bit a' -> 0 <= b' < 16 -> bit c' -> bit d' -> bit e' ->
  a * 128 + b * 8 + c * 4 + d * 2 + e = a' * 128 + b' * 8 + c' * 4 + d' * 2 + e' -> a = a' /\ b = b' /\ c = c' /\ d = d' /\ e = e'.
Proof.
  intros A B C D E A' B' C' D' E' H. apply bit_range in A, C, D, E, A', C', D', E'. rewrite <- !Z.add_assoc in H. apply peel in H as (Ha & H); [|clear H; lia|clear H; lia]. apply peel in H as (Hb & H); [|clear H; lia|clear H; lia]. apply peel in H as (Hc & H); [|clear H; lia|clear H; lia]. apply peel in H as (Hd & H); [|clear H; lia|clear H; lia]. auto.
Qed.
Lemma flags3_inj a b c d e a' b' c' d' e' : bit a -> bit b -> bit c -> bit d -> 0 <= e < 16 -> bit a' -> bit b' -> bit c' -> bit d' -> 0 <= e' < 16 ->
  a * 128 + b * 64 + c * 32 + d * 16 + e = a' * 128 + b' * 64 + c' * 32 + d' * 16 + e' -> a = a' /\ b = b' /\ c = c' /\ d = d' /\ e = e'.
Proof.
  intros A B C D E A' B' C' D' E' H. apply bit_range in A, B, C, D, A', B', C', D'. rewrite <- !Z.add_assoc in H. apply peel in H as (Ha & H); [|clear H; lia|clear H; lia]. apply peel in H as (Hb & H); [|clear H; lia|clear H; lia]. apply peel in H as (Hc & H); [|clear H; lia|clear H; lia]. apply peel in H as (Hd & H); [|clear H; lia|clear H; lia]. auto.
Qed.
Theorem C19_header_unique : forall h h' rest rest', header_ok h -> header_ok h' -> header_bytes h ++ rest = header_bytes h' ++ rest' -> h = h' /\ rest = rest'.
Proof.
  intros h h' rest rest' H H' E. 
  destruct H as (A1 & A2 & A3 & A4 & A5 & A6 & A7 & A8 & A9 & A10 & A11 & A12 & A13 & A14 & A15), H' as (B1 & B2 & B3 & B4 & B5 & B6 & B7 & B8 & B9 & B10 & B11 & B12 & B13 & B14 & B15).
  unfold header_bytes, num2 in E. cbn [app] in E. injection E as E0 E1 E2 E3 E4 E5 E6 E7 E8 E9 E10 E11 E12. split; [|exact E12].
  destruct (flags2_inj _ _ _ _ _ _ _ _ _ _ A2 A3 A4 A5 A6 B2 B3 B4 B5 B6 E2) as (F1 & F2 & F3 & F4 & F5). destruct (flags3_inj _ _ _ _ _ _ _ _ _ _ A7 A8 A9 A10 A11 B7 B8 B9 B10 B11 E3) as (G1 & G2 & G3 & G4 & G5).
  pose proof (num2_inj _ _ A1 B1 E0 E1) as N1. pose proof (num2_inj _ _ A12 B12 E4 E5) as N2. pose proof (num2_inj _ _ A13 B13 E6 E7) as N3. pose proof (num2_inj _ _ A14 B14 E8 E9) as N4. pose proof (num2_inj _ _ A15 B15 E10 E11) as N5. clear - F1 F2 F3 F4 F5 G1 G2 G3 G4 G5 N1 N2 N3 N4 N5.
  destruct h as [a b c d e f g i j k l m n o p], h' as [a' b' c' d' e' f' g' i' j' k' l' m' n' o' p']; cbn [h_id h_qr h_opcode h_aa h_tc h_rd h_ra h_z h_ad h_cd h_rcode h_qdcount h_ancount h_nscount h_arcount] in *. subst. reflexivity.
Qed.
Print Assumptions C19_header_unique.
(** The number of the query is returned exactly for a query with one question and nothing
    else; -2 exactly for such a query with one additional record; -1 otherwise. *)
Theorem C19_query_check_exact :
  forall h rest len, header_ok h -> 12 <= len ->
  (plain_query h /\ h_arcount h = 0 -> get_dns_qid (header_bytes h ++ rest) len 2 = Ok (h_id h)) /\
  (plain_query h /\ h_arcount h = 1 -> get_dns_qid (header_bytes h ++ rest) len 2 = Ok (-2)) /\
  (~ (plain_query h /\ (h_arcount h = 0 \/ h_arcount h = 1)) -> get_dns_qid (header_bytes h ++ rest) len 2 = Ok (-1)).
Proof.
  intros h rest len H Hl. rewrite get_qid_bytes by assumption. change (2 =? 1) with false. change (2 =? 2) with true. cbn [andb]. pose proof H as (_ & _ & _ & _ & _ & _ & _ & _ & _ & _ & _ & Hq & Ha & Hn & Hr). unfold word, plain_query in *.
  destruct (negb ((h_qr h =? 0) && (h_opcode h =? 0) && (h_rd h =? 1) && (h_z h =? 0) && (h_rcode h =? 0) && (h_qdcount h =? 1) && (h_ancount h =? 0) && (h_nscount h =? 0) && (h_arcount h <? 256))) eqn:E.
  - split; [intros; lia|]. split; [intros; lia|]. reflexivity.
  - destruct (h_arcount h =? 1) eqn:E1; [split; [intros; lia|]; split; [reflexivity|]; intros N; exfalso; apply N; lia|]. destruct (h_arcount h =? 0) eqn:E0; cbn [negb].
    + replace (h_qdcount h =? 0) with false by lia. cbn [andb]. split; [reflexivity|]. split; [intros; lia|]. intros N. exfalso. apply N. lia.
    + split; [intros; lia|]. split; [intros; lia|]. reflexivity.
Qed.
Print Assumptions C19_query_check_exact.
Theorem C19_short_packet : forall a len check, len < 12 -> get_dns_qid a len check = Ok (-1).
Proof. intros. unfold get_dns_qid. replace (len <? 12) with true by lia. reflexivity. Qed.
Print Assumptions C19_short_packet.
Theorem C19_safe : forall a len check, bytes a -> len <= zlen a -> safe (get_dns_qid a len check).
Proof.
  intros a len check B Hl. destruct (Z_lt_dec len 12); [rewrite C19_short_packet by lia; apply safe_Ok|]. destruct (header_of_bytes a B ltac:(lia)) as (h & rest & H & ->). rewrite get_qid_bytes by (auto; lia).
  repeat match goal with |- context [if ?c then _ else _] => destruct c end; apply safe_Ok.
Qed.
Print Assumptions C19_safe.
(** For a reply (no check), it is the number unless all four counts are 0. *)
Theorem C19_reply_number :
  forall h rest len, header_ok h -> 12 <= len ->
  get_dns_qid (header_bytes h ++ rest) len 0 = Ok (if (h_qdcount h =? 0) && (h_ancount h =? 0) && (h_nscount h =? 0) && (h_arcount h =? 0) then -1 else h_id h).
Proof. intros h rest len H Hl. rewrite get_qid_bytes by assumption. change (0 =? 1) with false. change (0 =? 2) with false. cbn [andb]. destruct (_ && _); reflexivity. Qed.
Print Assumptions C19_reply_number.
(** Writing a number changes the number only. *)
Definition with_id (h : header) (id : Z) : header :=
  mkheader id (h_qr h) (h_opcode h) (h_aa h) (h_tc h) (h_rd h) (h_ra h) (h_z h) (h_ad h) (h_cd h) (h_rcode h) (h_qdcount h) (h_ancount h) (h_nscount h) (h_arcount h).
Theorem C19_set_number_exact :
  forall h rest len id, header_ok h -> 12 <= len -> word id -> set_dns_qid (header_bytes h ++ rest) len id = Ok (id, header_bytes (with_id h id) ++ rest).
Proof.
  intros h rest len id H Hl Hi. unfold word in Hi. unfold set_dns_qid. replace (len <? 12) with false by lia. rewrite Z.shiftr_div_pow2 by lia. change (2 ^ 8) with 256. replace (u8 (id / 256)) with (id / 256) by (unfold u8; lia). replace (Z.land id 255) with (id mod 256) by (symmetry; change 255 with (Z.ones 8); apply Z.land_ones; lia). unfold header_bytes at 1. unfold num2. cbn [app]. pose proof (zlen_nonneg rest).
  rewrite wr_ok by (rewrite !zlen_cons; lia). cbn [bind]. rewrite wr_ok by (rewrite zlen_zupd, !zlen_cons; lia). cbn [bind]. reflexivity.
Qed.
Print Assumptions C19_set_number_exact.
Definition h_query : header := mkheader 4660 0 0 0 0 1 0 0 0 0 0 1 0 0 0.
Example header_concrete : header_ok h_query /\ plain_query h_query /\ header_bytes h_query = [18; 52; 1; 0; 0; 1; 0; 0; 0; 0; 0; 0] /\ get_dns_qid (header_bytes h_query ++ [1; 97; 0; 0; 1; 0; 1]) 19 2 = Ok 4660.
Proof. unfold header_ok, bit, word, plain_query, h_query. cbn [h_id h_qr h_opcode h_aa h_tc h_rd h_ra h_z h_ad h_cd h_rcode h_qdcount h_ancount h_nscount h_arcount]. split; [lia|]. split; [lia|]. split; vm_compute; reflexivity. Qed.

(** *** C15 *)
Lemma F2_length {A B} (P : A -> B -> Prop) l m : Forall2 P l m -> length l = length m.
Proof. induction 1; cbn [length]; congruence. Qed.
(** A list of up to 127 networks: an address may ask exactly if it is in one of them. *)
Theorem C15_acl_exact :
  forall J L es nets s, junk_ok J -> libc_ok L -> dok s -> d_len s < 1000000 ->
  Forall2 (fun e p => item_is L e (fst p) (snd p)) es nets -> zlen es <= 127 -> con s = commas (map item_text es) ->
  exists tab, set_ipmask_list J L acl0 s = Ok tab /\
  forall ip pad, bytes ip ->
    ((exists net n, In (net, n) nets /\ in_net net n ip) -> check_ip_acl tab (zlen ip) (ip ++ pad) = Ok 1) /\
    (~ (exists net n, In (net, n) nets /\ in_net net n ip) -> check_ip_acl tab (zlen ip) (ip ++ pad) = Ok 0).
Proof.
  intros J L es nets s HJ HL D Hl F Hk C. unfold zlen in Hk. assert (Forall ent_ok acl0) as F0 by (unfold acl0; apply Forall_forall; intros e He; apply repeat_spec in He; subst; exact ipm0_ok).
  assert (items L (rev es) (rev nets)) as FR by (unfold items; clear - F; induction F; cbn [rev]; [constructor|apply Forall2_app; [assumption|constructor; [assumption|constructor]]]).
  destruct (ipmask_loop_ok J L 127 (rev es) (rev nets) s acl0 HJ HL D Hl F0 ltac:(unfold acl0; rewrite repeat_length; lia) FR ltac:(rewrite rev_length; lia) ltac:(rewrite map_rev, rev_involutive; exact C)) as (ents & e0 & rest & E & E0 & FE & Len).
  exists (ents ++ e0 :: rest). split; [exact E|]. intros ip pad Bi. unfold check_ip_acl. pose proof (F2_length _ _ _ FE) as Le. pose proof (F2_length _ _ _ FR) as Lr. rewrite rev_length in Lr.
  destruct (acl_loop_ok ents 128 (rev nets) e0 rest ip pad FE E0 ltac:(rewrite ?rev_length in *; lia) Bi) as [(H & E1)|(H & E1)]; split; intros H'; auto.
  - exfalso. apply H'. destruct H as (net & n & I & H). exists net, n. split; [apply in_rev; exact I|exact H].
  - exfalso. apply H. destruct H' as (net & n & I & H'). exists net, n. split; [apply in_rev in I; exact I|exact H'].
Qed.
Print Assumptions C15_acl_exact.

(** Any text: the table can be used, unless a number is too large for the C library. *)
Theorem C15_any_text_safe :
  forall J L s, junk_ok J -> libc_ok L -> dok s -> d_len s < 1000000 ->
  match set_ipmask_list J L acl0 s with
  | Ok tab => forall len ip, len <= zlen ip -> exists r, check_ip_acl tab len ip = Ok r /\ (r = 0 \/ r = 1)
  | Fail => False
  | Bad f => f = SignedOverflow
  end.
Proof.
  intros J L s HJ HL D Hl. assert (Forall ent_ok acl0) as F0 by (unfold acl0; apply Forall_forall; intros e He; apply repeat_spec in He; subst; exact ipm0_ok).
  pose proof (ipmask_loop_safe J L 127 s acl0 HJ HL D Hl F0 ltac:(unfold acl0; rewrite repeat_length; lia)) as H. unfold set_ipmask_list. destruct (ipmask_loop J L 127 s acl0) as [tab| |f]; [|exact H|exact H]. destruct H as (H1 & H2). intros len ip Hi. unfold check_ip_acl. apply acl_loop_safe; auto. rewrite H2. unfold acl0. rewrite repeat_length. lia.
Qed.
Print Assumptions C15_any_text_safe.

(** A C library that knows the texts 10.0.0.0 and ::1. *)
Definition t10 : list Z := [49; 48; 46; 48; 46; 48; 46; 48].
Definition t_one : list Z := [58; 58; 49].
Definition one6 : list Z := repeat 0 15 ++ [1].
Definition lib : libc := mklibc (fun t => if zlist_eqb t t10 then Some [10; 0; 0; 0] else None) (fun t => if zlist_eqb t t_one then Some one6 else None).
Lemma lib_ok : libc_ok lib.
Proof.
  unfold libc_ok, lib. cbn [pton4 pton6]. split; [intros t a H; destruct (zlist_eqb t t10); [injection H as <-; split; [apply bytesb_spec; reflexivity|reflexivity]|discriminate]|].
  split; [intros t a H; destruct (zlist_eqb t t_one); [injection H as <-; split; [apply bytesb_spec; reflexivity|reflexivity]|discriminate]|]. split; reflexivity.
Qed.
Ltac is_item := unfold item_is; cbn [i_blanks i_addr i_num fst snd]; split; [repeat constructor|]; split; [repeat constructor; lia|]; split; [eexists; eexists; split; [reflexivity|lia]|]; split; [first [left; reflexivity|right; split; reflexivity]|].
(** 10.0.0.0/8, ::1 *)
Definition ex_items : list item := [mkitem [] t10 (Some [56]); mkitem [32; 9] t_one None].
Definition ex_nets : list (list Z * Z) := [([10; 0; 0; 0], 8); (one6, 128)].
Example acl_concrete :
  Forall2 (fun e p => item_is lib e (fst p) (snd p)) ex_items ex_nets /\ commas (map item_text ex_items) = t10 ++ [47; 56; 44; 32; 9] ++ t_one /\
  match set_ipmask_list J0 lib acl0 (str_of (commas (map item_text ex_items))) with
  | Ok tab => check_ip_acl tab 4 [10; 200; 3; 4] = Ok 1 /\ check_ip_acl tab 4 [11; 0; 0; 0] = Ok 0 /\ check_ip_acl tab 16 one6 = Ok 1 /\ check_ip_acl tab 16 (repeat 0 16) = Ok 0
  | _ => False
  end.
Proof.
  split; [constructor; [is_item; split; [discriminate|]; split; [repeat constructor; lia|]; split; [reflexivity|vm_compute; discriminate]|constructor; [is_item; reflexivity|constructor]]|]. split; [reflexivity|]. vm_compute. repeat split; reflexivity.
Qed.

(** A slash without a number: the mask stays 0, and every IPv4 address may ask. *)
Theorem C15_slash_without_number_refuted :
  exists tab, set_ipmask_list J0 lib acl0 (str_of (t10 ++ [47])) = Ok tab /\ forall ip, bytes ip -> zlen ip = 4 -> check_ip_acl tab 4 ip = Ok 1.
Proof.
  exists (mkipm 4 ([10; 0; 0; 0] ++ repeat 0 13) (repeat 0 17) :: repeat ipm0 128). split; [vm_compute; reflexivity|]. intros ip B Hl.
  assert (ent_is (mkipm 4 ([10; 0; 0; 0] ++ repeat 0 13) (repeat 0 17)) [10; 0; 0; 0] 0) as He.
  { unfold ent_is, ent_ok. cbn [im_len im_ip im_mask]. split; [split; [reflexivity|]; split; [apply bytesb_spec; reflexivity|]; split; [reflexivity|auto]|]. split; [apply bytesb_spec; reflexivity|]. split; [reflexivity|]. split; [auto|].
    split; intros j Hj; change (zlen [10; 0; 0; 0]) with 4 in Hj; (assert (j = 0 \/ j = 1 \/ j = 2 \/ j = 3) as [-> | [-> | [-> | ->]]] by lia); reflexivity. }
  destruct (acl_loop_ok [mkipm 4 ([10; 0; 0; 0] ++ repeat 0 13) (repeat 0 17)] 128 [([10; 0; 0; 0], 0)] ipm0 (repeat ipm0 127) ip [] ltac:(constructor; [exact He|constructor]) eq_refl ltac:(cbn [length]; lia) B) as [(_ & E)|(H & _)].
  - rewrite app_nil_r, Hl in E. exact E.
  - exfalso. apply H. exists [10; 0; 0; 0], 0. split; [left; reflexivity|]. split; [exact Hl|reflexivity].
Qed.
Print Assumptions C15_slash_without_number_refuted.
(** The same list with a number that is none lets everybody in as well. *)
Theorem C15_bad_number_refuted :
  match set_ipmask_list J0 lib acl0 (str_of (t10 ++ [47; 120])) with Ok tab => check_ip_acl tab 4 [8; 8; 8; 8] = Ok 1 | _ => False end.
Proof. vm_compute. reflexivity. Qed.
Print Assumptions C15_bad_number_refuted.
(** The 128th network counted from the end is ignored, and so is all before an item that is
    no address. *)
Theorem C15_long_list_refuted :
  match set_ipmask_list J0 lib acl0 (str_of (commas (t10 :: repeat t_one 127))) with Ok tab => check_ip_acl tab 4 [10; 0; 0; 0] = Ok 0 | _ => False end.
Proof. vm_compute. reflexivity. Qed.
Print Assumptions C15_long_list_refuted.
(** A number the C library cannot represent: undefined. *)
Theorem C15_huge_number_refuted : set_ipmask_list J0 lib acl0 (str_of (t10 ++ 47 :: repeat 57 10)) = Bad SignedOverflow.
Proof. vm_compute. reflexivity. Qed.
Print Assumptions C15_huge_number_refuted.
