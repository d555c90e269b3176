(** C16: MaraDNS' lists of networks. *)
From Verif Require Import CBase Bits ModelDwStr SpecDwStr ProofDwStr ModelJsStr SpecJsStr ProofJsStr ModelIpAcl SpecIpAcl ProofIpAcl ProofIpAclList ProofIpAclSafe.

(** A list as MaraDNS.c 4132-4133 (and 4148, 4276) makes it: 512 pairs, the address of each the
    end marker (of the last of them 0; it is never read). *)
Definition empty_acl : list (Z * Z) := repeat (4294967295, 0) 512.
(** The string in the configuration. *)
Definition is_text (s : js) (t : list Z) : Prop := j_wf s /\ j_size s = 1 /\ octets_of s = t.
Definition J0 : Z -> Z := fun _ => 0.
Definition no_alias (k : list Z) : option js := None.
Definition conf (l : list Z) : js := const_str l 900 3.
Lemma conf_ok l : bytes l -> 1 <= zlen l <= 900 -> is_text (conf l) l.
Proof. intros B L. destruct (const_ok l 900 3 B L ltac:(lia)) as (W & O & _). split; [exact W|]. split; [reflexivity|exact O]. Qed.

(** Every entry of the three forms is read as just that address and that mask. *)
Theorem C16_entries s t ip mask : is_text s t -> j_enc s = 3 -> entry_text t ip mask -> exists r, ddip_ip_mask s 0 = Ok (Some (ip, mask, r)).
Proof. intros (W & S & O) E T. apply (ddip_ok s t); [constructor; assumption|exact T]. Qed.
Print Assumptions C16_entries.
(** A prefix length selects the addresses with the same first bits. *)
Theorem C16_prefix a b n : 0 <= a < 2 ^ 32 -> 0 <= b < 2 ^ 32 -> 0 <= n <= 32 ->
  (Z.land a (2 ^ 32 - 2 ^ (32 - n)) = Z.land b (2 ^ 32 - 2 ^ (32 - n)) <-> a / 2 ^ (32 - n) = b / 2 ^ (32 - n)).
Proof. intros. apply prefix_agree; lia. Qed.
Print Assumptions C16_prefix.

(** A list of entries and aliases, read into an empty list, permits just the addresses that match an
    entry; entries 255.255.255.255 are excluded here (see below). *)
Theorem C16_lists alias J s t es ip : aliases_ok alias -> junk_ok J -> is_text s t -> list_means alias 32 t es -> Z.of_nat (length es) <= 500 ->
  Forall (fun e => fst e <> 2 ^ 32 - 1) es ->
  exists l, make_ip_acl alias J 33 s 500 empty_acl = Ok (Some l) /\
  exists r, check_ipv4_acl ip l = Ok r /\ (r = 1 <-> permits es ip).
Proof.
  intros HA HJ (W & S & O) LM L F.
  assert (shows empty_acl []) as S0.
  { exists empty_acl. split; [reflexivity|]. split; [constructor|]. apply Forall_forall. intros p Hp. apply repeat_spec in Hp. subst p. reflexivity. }
  destruct (make_ok alias J 500 32 t es s empty_acl [] HA HJ LM ltac:(constructor; assumption) S0 ltac:(cbn [length]; lia) ltac:(vm_compute; discriminate)) as (l & E & (pad & El & K1 & K2) & Ll).
  exists l. split; [exact E|]. cbn [app] in *.
  assert (keep es = es) as KE.
  { clear - F. unfold keep. induction F as [|e es He _ IH]; [reflexivity|]. cbn [filter]. replace (fst e =? END_IP) with false by (unfold END_IP; change (2 ^ 32 - 1) with 4294967295 in He; lia). cbn [negb]. rewrite IH. reflexivity. }
  rewrite KE in *. subst l. rewrite app_length in Ll. change (length empty_acl) with 512%nat in Ll.
  destruct (check_ok es pad 0 ip K1 K2 ltac:(lia) ltac:(lia) ltac:(lia)) as (r & R & _ & RI). exists r. split; [exact R|exact RI].
Qed.
Print Assumptions C16_lists.
(** With entries 255.255.255.255 in the list, the others count. *)
Theorem C16_others alias J s t es ip : aliases_ok alias -> junk_ok J -> is_text s t -> list_means alias 32 t es -> Z.of_nat (length es) <= 500 ->
  exists l, make_ip_acl alias J 33 s 500 empty_acl = Ok (Some l) /\
  exists r, check_ipv4_acl ip l = Ok r /\ (r = 1 <-> permits (filter (fun e => negb (fst e =? 2 ^ 32 - 1)) es) ip).
Proof.
  intros HA HJ (W & S & O) LM L.
  assert (shows empty_acl []) as S0.
  { exists empty_acl. split; [reflexivity|]. split; [constructor|]. apply Forall_forall. intros p Hp. apply repeat_spec in Hp. subst p. reflexivity. }
  destruct (make_ok alias J 500 32 t es s empty_acl [] HA HJ LM ltac:(constructor; assumption) S0 ltac:(cbn [length]; lia) ltac:(vm_compute; discriminate)) as (l & E & (pad & El & K1 & K2) & Ll).
  exists l. split; [exact E|]. cbn [app] in *. subst l. rewrite app_length in Ll. change (length empty_acl) with 512%nat in Ll. pose proof (keep_len es).
  destruct (check_ok (keep es) pad 0 ip K1 K2 ltac:(lia) ltac:(lia) ltac:(lia)) as (r & R & _ & RI). exists r. split; [exact R|exact RI].
Qed.
Print Assumptions C16_others.

(** The list "10.1.2.3/8 , office" with the alias office = "192.168.5.1, 172.16.0.0/255.240.0.0". *)
Definition office : list Z := [111; 102; 102; 105; 99; 101].
Definition net10 : list Z := [49; 48; 46; 49; 46; 50; 46; 51; 47; 56].
Definition host : list Z := [49; 57; 50; 46; 49; 54; 56; 46; 53; 46; 49].
Definition net172 : list Z := [49; 55; 50; 46; 49; 54; 46; 48; 46; 48; 47; 50; 53; 53; 46; 50; 52; 48; 46; 48; 46; 48].
Definition offices : list Z := host ++ 44 :: 32 :: net172.
Definition allowed : list Z := net10 ++ 32 :: 44 :: 32 :: office.
Definition an_alias (k : list Z) : option js := if zlist_eqb k office then Some (conf offices) else None.
Lemma num d n : d <> [] -> Forall (fun b => 48 <= b <= 57) d -> fold_left (fun v b => v * 10 + (b - 48)) d 0 = n -> number_text d n.
Proof. intros. split; [assumption|]. split; assumption. Qed.
Ltac num_tac := apply num; [discriminate|repeat constructor; lia|reflexivity].
Lemma allowed_means : list_means an_alias 32 allowed [(10 * 2 ^ 24 + 1 * 2 ^ 16 + 2 * 2 ^ 8 + 3, 2 ^ 32 - 2 ^ (32 - 8));
   (192 * 2 ^ 24 + 168 * 2 ^ 16 + 5 * 2 ^ 8 + 1, 2 ^ 32 - 1); (172 * 2 ^ 24 + 16 * 2 ^ 16 + 0 * 2 ^ 8 + 0, 255 * 2 ^ 24 + 240 * 2 ^ 16 + 0 * 2 ^ 8 + 0)].
Proof.
  assert (forall t, t = office \/ t = net10 \/ t = host \/ t = net172 -> core_ok t) as CO.
  { intros t H. assert (exists b r b' r', t = b :: r /\ b <> 32 /\ b <> 9 /\ t = r' ++ [b'] /\ b' <> 32 /\ b' <> 9) as (b & r & b' & r' & E1 & V1 & V2 & E2 & V3 & V4).
    { destruct H as [-> | [-> | [-> | ->]]].
      - exists 111, [102; 102; 105; 99; 101], 101, [111; 102; 102; 105; 99]. repeat split; try reflexivity; lia.
      - exists 49, (tl net10), 56, (removelast net10). repeat split; try reflexivity; lia.
      - exists 49, (tl host), 49, (removelast host). repeat split; try reflexivity; lia.
      - exists 49, (tl net172), 48, (removelast net172). repeat split; try reflexivity; lia. }
    split; [exists b, r; split; [exact E1|split; assumption]|]. split; [exists b', r'; split; [exact E2|split; assumption]|].
    destruct H as [-> | [-> | [-> | ->]]]; (split; [repeat constructor; lia|reflexivity]). }
  apply (l_more an_alias 32 0 net10 1 [(10 * 2 ^ 24 + 1 * 2 ^ 16 + 2 * 2 ^ 8 + 3, 2 ^ 32 - 2 ^ (32 - 8))] (32 :: office)).
  - apply CO. right. left. reflexivity.
  - apply it_entry; [reflexivity|]. apply (e_prefix [49; 48; 46; 49; 46; 50; 46; 51] _ [56] 8); [|num_tac|lia].
    apply (quad [49; 48] [49] [50] [51]); try lia; num_tac.
  - apply (l_last an_alias 32 1 office 0); [apply CO; left; reflexivity|].
    apply (it_alias an_alias 31 office (conf offices)); [reflexivity|]. replace (octets_of (conf offices)) with offices by (vm_compute; reflexivity).
    apply (l_more an_alias 31 0 host 0 [(192 * 2 ^ 24 + 168 * 2 ^ 16 + 5 * 2 ^ 8 + 1, 2 ^ 32 - 1)] (32 :: net172)).
    + apply CO. right. right. left. reflexivity.
    + apply it_entry; [reflexivity|]. apply e_host. apply (quad [49; 57; 50] [49; 54; 56] [53] [49]); try lia; num_tac.
    + apply (l_last an_alias 31 1 net172 0); [apply CO; right; right; right; reflexivity|].
      apply it_entry; [reflexivity|]. apply (e_mask [49; 55; 50; 46; 49; 54; 46; 48; 46; 48] _ [50; 53; 53; 46; 50; 52; 48; 46; 48; 46; 48]).
      * apply (quad [49; 55; 50] [49; 54] [48] [48]); try lia; num_tac.
      * apply (quad [50; 53; 53] [50; 52; 48] [48] [48]); try lia; num_tac.
Qed.
Lemma an_alias_ok : aliases_ok an_alias.
Proof.
  intros k v. unfold an_alias. destruct (zlist_eqb k office); [|discriminate]. intros E. injection E as <-.
  destruct (conf_ok offices) as (W & S & O); [apply bytesb_spec; reflexivity|vm_compute; split; discriminate|]. rewrite O. split; [exact W|]. split; [exact S|reflexivity].
Qed.
Example C16_lists_example : aliases_ok an_alias /\ junk_ok J0 /\ is_text (conf allowed) allowed /\ (exists es, list_means an_alias 32 allowed es /\ length es = 3%nat) /\
  match make_ip_acl an_alias J0 33 (conf allowed) 500 empty_acl with
  | Ok (Some l) => map (fun ip => check_ipv4_acl ip l) [10 * 2 ^ 24 + 77; 192 * 2 ^ 24 + 168 * 2 ^ 16 + 5 * 2 ^ 8 + 1; 192 * 2 ^ 24 + 168 * 2 ^ 16 + 5 * 2 ^ 8 + 2; 172 * 2 ^ 24 + 31 * 2 ^ 16; 172 * 2 ^ 24 + 32 * 2 ^ 16] =
                   [Ok 1; Ok 1; Ok 0; Ok 1; Ok 0]
  | _ => False
  end.
Proof.
  split; [exact an_alias_ok|]. split; [intros i; unfold J0, byte; lia|]. split; [apply conf_ok; [apply bytesb_spec; reflexivity|vm_compute; split; discriminate]|].
  split; [eexists; split; [exact allowed_means|reflexivity]|vm_compute; reflexivity].
Qed.

(** Any text is read without a fault, unless ten digits stand in a row in it or in an alias. *)
Theorem C16_safe alias J s t : junk_ok J -> (forall k v, alias k = Some v -> j_wf v /\ short_numbers (octets_of v)) -> is_text s t -> short_numbers t ->
  exists o, make_ip_acl alias J 33 s 500 empty_acl = Ok o /\
  match o with Some l => length l = 512%nat /\ forall ip, exists r, check_ipv4_acl ip l = Ok r /\ (r = 0 \/ r = 1) | None => True end.
Proof.
  intros HJ HA (W & S & O) H. destruct (make_safe alias J HJ HA 500 33 s t empty_acl ltac:(constructor; assumption) H ltac:(vm_compute; discriminate)) as (o & E & L).
  exists o. split; [exact E|]. destruct o as [l|]; [|exact Logic.I]. split; [exact L|]. intros ip. apply check_safe. rewrite L. vm_compute. discriminate.
Qed.
Print Assumptions C16_safe.
(** A malformed text, "a,,1.2.3.4.5/ 33": read safely (and rejected). *)
Definition bad_text : list Z := [97; 44; 44; 49; 46; 50; 46; 51; 46; 52; 46; 53; 47; 32; 51; 51].
Lemma short_numbers_check t : forallb (fun i => existsb (fun k => match zget t (Z.of_nat (i + k)) with Some b => negb ((48 <=? b) && (b <=? 57)) | None => true end) (seq 0 10)) (seq 0 (length t)) = true -> short_numbers t.
Proof.
  intros F i. destruct (Z_lt_dec i 0) as [Hi|Hi]; [exists 0; split; [lia|]; intros (b & G & _); apply zget_range in G; lia|].
  destruct (Z_le_dec (zlen t) i) as [Hj|Hj]; [exists 0; split; [lia|]; intros (b & G & _); apply zget_range in G; lia|].
  rewrite forallb_forall in F. specialize (F (Z.to_nat i)). assert (In (Z.to_nat i) (seq 0 (length t))) as I by (apply in_seq; unfold zlen in Hj; lia).
  apply F, existsb_exists in I as (k & Ik & Hk). apply in_seq in Ik. exists (Z.of_nat k). split; [lia|]. intros (b & G & Hb).
  replace (Z.of_nat (Z.to_nat i + k)) with (i + Z.of_nat k) in Hk by lia. rewrite G in Hk. lia.
Qed.
Example C16_safe_example : short_numbers bad_text /\ is_text (conf bad_text) bad_text /\ make_ip_acl no_alias J0 33 (conf bad_text) 500 empty_acl = Ok None.
Proof.
  split; [apply short_numbers_check; reflexivity|]. split; [|vm_compute; reflexivity]. apply conf_ok; [apply bytesb_spec; reflexivity|vm_compute; split; discriminate].
Qed.

(** "Malformed text is rejected" is not what the code does.  For each of these texts no address and
    mask is its meaning, and yet it is accepted. *)
Definition no_entry (t : list Z) : Prop := forall ip mask, ~ entry_text t ip mask.
Definition read_as (t : list Z) (ip mask : Z) : Prop := exists r, ddip_ip_mask (conf t) 0 = Ok (Some (ip, mask, r)).
Definition ip4 (a b c d : Z) : Z := a * 2 ^ 24 + b * 2 ^ 16 + c * 2 ^ 8 + d.
(** What every entry has: three dots before the slash; after it none or three, and something. *)
Fixpoint cut (t : list Z) : list Z * option (list Z) :=
  match t with [] => ([], None) | b :: t => if b =? 47 then ([], Some t) else let (x, y) := cut t in (b :: x, y) end.
Definition chars (t : list Z) : bool := forallb (fun b => ((48 <=? b) && (b <=? 57)) || (b =? 46)) t.
Definition dots (t : list Z) : nat := length (filter (Z.eqb 46) t).
Definition looks_right (t : list Z) : bool :=
  let (x, y) := cut t in
  chars x && Nat.eqb (dots x) 3 && match y with None => true | Some y => chars y && (Nat.eqb (dots y) 0 || Nat.eqb (dots y) 3) && negb (Nat.eqb (length y) 0) end.
Lemma cut_none t : Forall (fun b => b <> 47) t -> cut t = (t, None).
Proof. induction 1 as [|b t Hb _ IH]; [reflexivity|]. cbn [cut]. replace (b =? 47) with false by lia. rewrite IH. reflexivity. Qed.
Lemma cut_some t d : Forall (fun b => b <> 47) t -> cut (t ++ 47 :: d) = (t, Some d).
Proof. induction 1 as [|b t Hb _ IH]; [reflexivity|]. cbn [app cut]. replace (b =? 47) with false by lia. rewrite IH. reflexivity. Qed.
Lemma dots_app a b : dots (a ++ b) = (dots a + dots b)%nat.
Proof. unfold dots. rewrite filter_app, app_length. reflexivity. Qed.
Lemma dots_num d n : number_text d n -> dots d = 0%nat.
Proof. intros (_ & H & _). induction H as [|b d Hb _ IH]; [reflexivity|]. unfold dots in *. cbn [filter]. replace (46 =? b) with false by lia. exact IH. Qed.
Lemma dots_quad q ip : quad_text q ip -> dots q = 3%nat.
Proof.
  intros [w x y z nw nx ny nz Nw Nx Ny Nz _ _ _ _].
  rewrite dots_app, (dots_num _ _ Nw). change (46 :: x ++ 46 :: y ++ 46 :: z) with ([46] ++ x ++ [46] ++ y ++ [46] ++ z). rewrite !dots_app, (dots_num _ _ Nx), (dots_num _ _ Ny), (dots_num _ _ Nz). reflexivity.
Qed.
Lemma chars_ok q : Forall (fun b => 48 <= b <= 57 \/ b = 46) q -> chars q = true /\ Forall (fun b => b <> 47) q.
Proof.
  intros H. split.
  - apply forallb_forall. rewrite Forall_forall in H. intros b Hb. specialize (H b Hb). lia.
  - apply (Forall_impl _ (P := fun b => 48 <= b <= 57 \/ b = 46)); [intros b Hb; lia|exact H].
Qed.
Lemma entry_looks t ip mask : entry_text t ip mask -> looks_right t = true.
Proof.
  intros [t' ip' Q|t' ip' d n Q N Hn|t' ip' m mk Q M]; pose proof (dots_quad _ _ Q) as D; destruct (quad_chars _ _ Q) as (C & _ & _); destruct (chars_ok _ C) as (C1 & C2); unfold looks_right.
  - rewrite cut_none by exact C2. rewrite C1, D. reflexivity.
  - rewrite cut_some by exact C2. rewrite C1, D, (dots_num _ _ N).
    destruct (chars_ok d) as (-> & _); [apply (Forall_impl _ (P := fun b => 48 <= b <= 57)); [intros b Hb; left; exact Hb|exact (number_chars _ _ N)]|].
    destruct N as (N & _). destruct d; [contradiction|]. reflexivity.
  - rewrite cut_some by exact C2. rewrite C1, D, (dots_quad _ _ M). destruct (quad_chars _ _ M) as (CM & (a & r & -> & _ & Na) & _). destruct (chars_ok _ CM) as (-> & _).
    rewrite app_length. destruct a; [contradiction|]. reflexivity.
Qed.
Lemma no_entry_check t : looks_right t = false -> no_entry t.
Proof. intros H ip mask E. apply entry_looks in E. congruence. Qed.
Ltac bad_tac := split; [apply no_entry_check; reflexivity|eexists; vm_compute; reflexivity].

(** Addresses with too few numbers are made up to four, from the beginning of the text: "10.1" is read
    as 10.1.0.1, "10.1.2" as 10.1.2.0 and "10/8" as 10.0.0.0/8. *)
Theorem C16_short_address_refuted :
  (no_entry [49; 48; 46; 49] /\ read_as [49; 48; 46; 49] (ip4 10 1 0 1) (2 ^ 32 - 1)) /\
  (no_entry [49; 48; 46; 49; 46; 50] /\ read_as [49; 48; 46; 49; 46; 50] (ip4 10 1 2 0) (2 ^ 32 - 1)) /\
  (no_entry [49; 48; 47; 56] /\ read_as [49; 48; 47; 56] (ip4 10 0 0 0) (2 ^ 32 - 2 ^ 24)).
Proof. split; [|split]; bad_tac. Qed.
Print Assumptions C16_short_address_refuted.
(** What follows an address is not looked at: "1.2.3.4.5", "1.2.3.4foo", "1.2.3.4 /24" (a mask of 32
    bits) are accepted. *)
Theorem C16_trailing_text_refuted :
  (no_entry [49; 46; 50; 46; 51; 46; 52; 46; 53] /\ read_as [49; 46; 50; 46; 51; 46; 52; 46; 53] (ip4 1 2 3 4) (2 ^ 32 - 1)) /\
  (no_entry [49; 46; 50; 46; 51; 46; 52; 102; 111; 111] /\ read_as [49; 46; 50; 46; 51; 46; 52; 102; 111; 111] (ip4 1 2 3 4) (2 ^ 32 - 1)) /\
  (no_entry [49; 46; 50; 46; 51; 46; 52; 32; 47; 50; 52] /\ read_as [49; 46; 50; 46; 51; 46; 52; 32; 47; 50; 52] (ip4 1 2 3 4) (2 ^ 32 - 1)).
Proof. split; [|split]; bad_tac. Qed.
Print Assumptions C16_trailing_text_refuted.
(** An address with a slash and no number, "10.1.2.3/", or "10.1.2.3/x", permits every address. *)
Theorem C16_empty_mask_refuted :
  (no_entry [49; 48; 46; 49; 46; 50; 46; 51; 47] /\ read_as [49; 48; 46; 49; 46; 50; 46; 51; 47] (ip4 10 1 2 3) 0) /\
  (no_entry [49; 48; 46; 49; 46; 50; 46; 51; 47; 120] /\ read_as [49; 48; 46; 49; 46; 50; 46; 51; 47; 120] (ip4 10 1 2 3) 0) /\
  forall ip, exists l, make_ip_acl no_alias J0 33 (conf [49; 48; 46; 49; 46; 50; 46; 51; 47]) 500 empty_acl = Ok (Some l) /\ check_ipv4_acl ip l = Ok 1.
Proof.
  split; [bad_tac|]. split; [bad_tac|]. intros ip. exists ((ip4 10 1 2 3, 0) :: repeat (4294967295, 0) 511). split; [vm_compute; reflexivity|].
  unfold check_ipv4_acl. cbn [check_loop]. rewrite !Z.land_0_r. reflexivity.
Qed.
Print Assumptions C16_empty_mask_refuted.
(** The entry 255.255.255.255 is well formed, but is taken for the end of the list: with the text
    "255.255.255.255" nobody is permitted, not even that address. *)
Theorem C16_broadcast_refuted : let t := [50; 53; 53; 46; 50; 53; 53; 46; 50; 53; 53; 46; 50; 53; 53] in
  list_means no_alias 32 t [(255 * 2 ^ 24 + 255 * 2 ^ 16 + 255 * 2 ^ 8 + 255, 2 ^ 32 - 1)] /\
  permits [(255 * 2 ^ 24 + 255 * 2 ^ 16 + 255 * 2 ^ 8 + 255, 2 ^ 32 - 1)] (ip4 255 255 255 255) /\
  exists l, make_ip_acl no_alias J0 33 (conf t) 500 empty_acl = Ok (Some l) /\ check_ipv4_acl (ip4 255 255 255 255) l = Ok 0.
Proof.
  intros t. split; [|split].
  - apply (l_last no_alias 32 0 t 0).
    + split; [exists 50, (tl t); split; [reflexivity|split; lia]|]. split; [exists 53, (removelast t); split; [reflexivity|split; lia]|]. split; [repeat constructor; lia|reflexivity].
    + apply it_entry; [reflexivity|]. apply e_host. apply (quad [50; 53; 53] [50; 53; 53] [50; 53; 53] [50; 53; 53]); try lia; num_tac.
  - eexists _, _. split; [left; reflexivity|reflexivity].
  - exists ((4294967295, 4294967295) :: repeat (4294967295, 0) 511). split; vm_compute; reflexivity.
Qed.
Print Assumptions C16_broadcast_refuted.
(** A number of ten digits is undefined behaviour. *)
Theorem C16_long_number_refuted : exists t, is_text (conf t) t /\ make_ip_acl no_alias J0 33 (conf t) 500 empty_acl = Bad SignedOverflow.
Proof.
  exists [49; 46; 50; 46; 51; 46; 57; 57; 57; 57; 57; 57; 57; 57; 57; 57]. split; [|vm_compute; reflexivity]. apply conf_ok; [apply bytesb_spec; reflexivity|vm_compute; split; discriminate].
Qed.
Print Assumptions C16_long_number_refuted.
