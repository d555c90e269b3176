(** C23, C38: questions and records in packets, and answers that are too long (dns/Queries.c). *)
From Verif Require Import CBase Bits ModelDwStr SpecDwStr ProofDwStr SpecNames SpecMessage SpecAcl SpecDeadwoodMsg SpecQuery ModelJsStr SpecJsStr ProofJsStr ProofJsSearch
  ModelQueries SpecQueries ProofQueries ProofHname ProofEmail ProofQuestion ProofSqueeze PropsQueries.

(** ** C38: questions, record headers, names in packets *)
(** A question is put at the end of a packet if there is room. *)
Theorem C38_question_is_written : forall s l qn q, holding s l -> holding qn (wire (qu_name q)) -> question_ok q -> zlen l + zlen (question_bytes q) < j_max s ->
  exists s', make_question qn (qu_type q) (qu_class q) s = Ok (1, s') /\ holding s' (l ++ question_bytes q).
Proof. intros s l qn q H HQ OK R. destruct (make_question_ok s qn l q H HQ OK R) as (s' & E & HH & _). exists s'. split; assumption. Qed.
(** A question that stands in a packet is read. *)
Theorem C38_question_is_read : forall s qn a q b ty cl, holding s (a ++ question_bytes q ++ b) -> j_wf qn -> j_size qn = 1 -> question_ok q -> zlen (wire (qu_name q)) < j_max qn ->
  exists qn', read_question s qn ty cl (zlen a) = Ok (zlen (question_bytes q), (qn', qu_type q, qu_class q)) /\ holding qn' (wire (qu_name q)).
Proof. intros s qn a q b ty cl H W S1 OK R. destruct (read_question_ok s qn a q b ty cl H W S1 OK R) as (s' & E & HH & _). exists s'. split; assumption. Qed.
(** Anything else is rejected, as long as names of more than 256 octets are left aside (see below);
    no packet and no offset make the function leave its buffers. *)
Theorem C38_question_exact : forall s qn l ty cl o, holding s l -> j_wf qn -> j_size qn = 1 -> i32_ok o ->
  exists r qn' ty' cl', read_question s qn ty cl o = Ok (r, (qn', ty', cl')) /\ j_wf qn' /\
    (r = -1 \/ 260 < r <= zlen l - o \/ exists q, good_name (qu_name q) /\ word (qu_type q) /\ word (qu_class q) /\ 0 <= o /\ o + r <= zlen l /\ zslice l o r = question_bytes q /\
       holding qn' (wire (qu_name q)) /\ ty' = qu_type q /\ cl' = qu_class q).
Proof.
  intros s qn l ty cl o H W S1 IO. destruct (read_question_gen s qn l ty cl o H W S1 IO) as (r & qn' & ty' & cl' & E & W' & _ & _ & R). exists r, qn', ty', cl'. split; [exact E|]. split; [exact W'|].
  destruct R as [R|(R1 & R2 & R3 & R4)]; [left; exact R|right]. destruct (Z.leb_spec r 260) as [L|L]; [right|left; lia].
  destruct (R4 L) as (q & G & WT & WC & EQ & HQ & ET & EC). exists q. split; [exact G|]. split; [exact WT|]. split; [exact WC|]. split; [exact R1|]. split; [exact R3|]. split; [exact EQ|]. split; [exact HQ|]. split; assumption.
Qed.
(** The beginning of a record *)
Theorem C38_record_is_read : forall s nm a h b, holding s (a ++ head_bytes h ++ b) -> j_wf nm -> j_size nm = 1 -> head_ok h -> hd_ttl h < 2147483648 -> zlen (wire (hd_name h)) < j_max nm ->
  exists nm', read_rr_h s nm (zlen a) = Ok (Some (zlen (head_bytes h), (nm', hd_type h, hd_class h, hd_ttl h, hd_len h))) /\ holding nm' (wire (hd_name h)).
Proof. intros s nm a h b H W S1 OK T R. destruct (read_rr_h_ok s nm a h b H W S1 OK T R) as (s' & E & HH & _). exists s'. split; assumption. Qed.
(** .. is exact in the same way; the only thing that can go wrong is a TTL of 2^31 or more. *)
Theorem C38_record_exact : forall s nm l o, holding s l -> j_wf nm -> j_size nm = 1 -> i32_ok o ->
  (exists c b, read_rr_h s nm o = Bad SignedOverflow /\ 0 <= o /\ 0 <= c /\ o + c + 11 <= zlen l /\ zget l (o + c + 1 + 4) = Some b /\ 128 <= b) \/
  read_rr_h s nm o = Ok None \/
  exists r nm' ty cl ttl len, read_rr_h s nm o = Ok (Some (r, (nm', ty, cl, ttl, len))) /\ j_wf nm' /\
    (266 < r <= zlen l - o \/ exists h, good_name (hd_name h) /\ word ty /\ word cl /\ 0 <= ttl < 2147483648 /\ word len /\ 0 <= o /\ o + r <= zlen l /\ zslice l o r = head_bytes h /\
       holding nm' (wire (hd_name h)) /\ ty = hd_type h /\ cl = hd_class h /\ ttl = hd_ttl h /\ len = hd_len h).
Proof.
  intros s nm l o H W S1 IO. destruct (read_rr_h_gen s nm l o H W S1 IO) as [E|[(E & O & c & b & C1 & C2 & C3 & C4 & _)|(r & nm' & ty & cl & ttl & len & E & W' & _ & _ & R1 & R2 & R3 & R4)]].
  - right. left. exact E.
  - left. exists c, b. split; [exact E|]. split; [exact O|]. split; [exact C1|]. split; [exact C2|]. split; [rewrite <- C3; f_equal; lia|exact C4].
  - right. right. exists r, nm', ty, cl, ttl, len. split; [exact E|]. split; [exact W'|]. destruct (Z.leb_spec r 266) as [L|L]; [right|left; lia].
    destruct (R4 L) as (h & G & EQ & HQ & E1 & E2 & E3 & E4 & W1 & W2 & W3 & W4). exists h. tauto.
Qed.
(** The number of octets of a name at an offset. *)
Theorem C38_name_length : forall s a n e b, holding s (a ++ (labels n ++ e) ++ b) -> good_name n -> (e = [0] \/ e = [95] \/ exists x y, 192 <= x /\ e = [x; y]) -> zlen (labels n) < 256 ->
  dlabel_length s (zlen a) = Ok (zlen (labels n ++ e)).
Proof. intros s a n e b H G E L. exact (dlabel_length_ok s a n e b H G E L). Qed.
Theorem C38_name_length_exact : forall s l o, holding s l -> i32_ok o ->
  exists r, dlabel_length s o = Ok r /\ (r = -1 \/ 256 < r <= zlen l - o \/ (0 <= o /\ 1 <= r /\ o + r <= zlen l /\ name_form (zslice l o r))).
Proof.
  intros s l o H IO. destruct (holding_slice s l H) as (E1 & C1 & M1 & N1 & B1 & Z1). destruct H as (W & S1 & _). destruct (dlabel_length_gen s o W S1 IO) as (r & E & R). exists r. split; [exact E|].
  destruct R as [R|(R1 & R2 & R3 & R4)]; [left; exact R|right]. destruct (Z.leb_spec r 256) as [L|L]; [right|left; lia]. split; [exact R2|]. split; [exact R1|]. split; [lia|].
  replace (zslice l o r) with (zslice (j_mem s) o r); [exact (R4 L)|]. rewrite <- E1. rewrite zslice_zslice by lia. rewrite Z.add_0_l. reflexivity.
Qed.
Theorem C38_make_question_safe : forall s qn ty cl, j_wf s -> j_wf qn -> exists r s', make_question qn ty cl s = Ok (r, s') /\ j_wf s' /\ (r = 1 \/ r = -1).
Proof. intros s qn ty cl W WQ. destruct (make_question_safe s qn ty cl W WQ) as (r & s' & E & W' & _ & R). exists r, s'. split; [exact E|]. split; assumption. Qed.

Definition q1 : question := mkquestion www 28 1.
Definition h1 : rr_head := mkhead www 16 1 86400 7.
Lemma www_short : short_name www. Proof. destruct C21_witness as ((G & _) & _). split; [exact G|vm_compute; discriminate]. Qed.
Example C38_witness : question_ok q1 /\ head_ok h1 /\ hd_ttl h1 < 2147483648 /\ holding (str (wire www) 20) (wire www) /\ holding (str [1; 2; 3] 40) [1; 2; 3] /\
  holding (str ([9; 9] ++ question_bytes q1 ++ [1; 2; 3]) 40) ([9; 9] ++ question_bytes q1 ++ [1; 2; 3]) /\
  holding (str ([9; 9] ++ head_bytes h1 ++ [1; 2; 3]) 40) ([9; 9] ++ head_bytes h1 ++ [1; 2; 3]) /\ zlen (wire www) < 20 /\
  holding (str ([9] ++ (labels www ++ [192; 12]) ++ [5]) 40) ([9] ++ (labels www ++ [192; 12]) ++ [5]) /\
  (' (r, (_, t, c)) <- read_question (str ([9; 9] ++ question_bytes q1 ++ [1; 2; 3]) 40) (str [] 20) 0 0 2 ;; Ok (r, t, c)) = Ok (11, 28, 1).
Proof.
  split; [|split; [|split; [|split; [|split; [|split; [|split; [|split; [|split]]]]]]]].
  - split; [exact www_short|]. split; (vm_compute; split; (discriminate || reflexivity)).
  - split; [exact www_short|]. repeat split; vm_compute; (discriminate || reflexivity).
  - reflexivity.
  - str_tac.
  - str_tac.
  - str_tac.
  - str_tac.
  - reflexivity.
  - str_tac.
  - vm_compute. reflexivity.
Qed.
(** A TTL whose highest bit is set is shifted into the sign bit of an int: undefined behaviour. *)
Definition h2 : rr_head := mkhead www 1 1 2147483648 4.
Theorem C38_high_ttl_refuted : exists s nm h, head_ok h /\ holding s (head_bytes h) /\ j_wf nm /\ j_size nm = 1 /\ zlen (wire (hd_name h)) < j_max nm /\ read_rr_h s nm 0 = Bad SignedOverflow.
Proof.
  exists (str (head_bytes h2) 40), (str [] 20), h2. split; [|split; [|split; [|split; [|split]]]].
  - split; [exact www_short|]. repeat split; vm_compute; (discriminate || reflexivity).
  - str_tac.
  - assert (holding (str [] 20) []) as (W & _) by str_tac. exact W.
  - reflexivity.
  - reflexivity.
  - vm_compute. reflexivity.
Qed.
(** A name of more than 256 octets is cut after the label that passes this limit: the octet after
    the label, whatever it is, is taken for the end of the name. *)
Definition big : list Z := 63 :: repeat 97 63.
Definition cut : list Z := big ++ big ++ big ++ big ++ [7; 0; 1; 0; 1].
Lemma one_big n x y : good_name n -> wire n ++ x = big ++ y -> exists n', good_name n' /\ wire n' ++ x = y.
Proof.
  intros G E. destruct n as [|l n]; [discriminate|]. apply Forall_cons_iff in G as (_ & G). exists n. split; [exact G|]. cbn [wire] in E. unfold big in E. cbn [app] in E. injection E as E1 E2.
  rewrite <- app_assoc in E2. change (97 :: repeat 97 62) with (repeat 97 63) in E2. apply (app_split l (wire n ++ x) (repeat 97 63) y); [|exact E2]. unfold zlen in E1. rewrite repeat_length. lia.
Qed.
Theorem C38_long_name_refuted : exists s qn qn', holding s cut /\ j_wf qn /\ read_question s qn 0 0 0 = Ok (261, (qn', 1, 1)) /\ ~ exists q, good_name (qu_name q) /\ cut = question_bytes q.
Proof.
  exists (str cut 400), (str [] 300). eexists. split; [str_tac|]. split; [assert (holding (str [] 300) []) as (W & _) by str_tac; exact W|]. split; [vm_compute; reflexivity|].
  intros (q & G & E). symmetry in E. unfold question_bytes, cut in E.
  assert (zlen (be 2 (qu_type q) ++ be 2 (qu_class q)) = 4) as L4 by (rewrite zlen_app, !zlen_be; reflexivity). set (x := be 2 (qu_type q) ++ be 2 (qu_class q)) in *.
  destruct (one_big _ _ _ G E) as (n1 & G1 & E1). destruct (one_big _ _ _ G1 E1) as (n2 & G2 & E2). destruct (one_big _ _ _ G2 E2) as (n3 & G3 & E3). destruct (one_big _ _ _ G3 E3) as (n4 & G4 & E4).
  destruct n4 as [|l n]; [discriminate|]. cbn [wire app] in E4. injection E4 as E5 E6. apply (f_equal zlen) in E6. rewrite !zlen_app, L4 in E6. change (zlen [0; 1; 0; 1]) with 4 in E6. pose proof (zlen_nonneg (wire n)). lia.
Qed.
Print Assumptions C38_question_is_written.
Print Assumptions C38_question_is_read.
Print Assumptions C38_question_exact.
Print Assumptions C38_record_is_read.
Print Assumptions C38_record_exact.
Print Assumptions C38_name_length.
Print Assumptions C38_name_length_exact.
Print Assumptions C38_make_question_safe.
Print Assumptions C38_high_ttl_refuted.
Print Assumptions C38_long_name_refuted.

(** ** C23: answers that are too long *)
(** Shortening a message once, twice, .. *)
Fixpoint squeezes (k : nat) (s : js) : res (option js) :=
  match k with
  | O => Ok (Some s)
  | S k => o <- squeeze_to_fit s ;; match o with Some s => squeezes k s | None => Ok None end
  end.
Fixpoint drops (k : nat) (m : msg) : msg := match k with O => m | S k => drops k (drop_last m) end.
(** Whole records are dropped from the end, and the counts of the header follow. *)
Theorem C23_whole_records_go : forall k s l m, holding s l -> 14 <= j_max s -> is_msg m l -> msg_ok m ->
  exists s' l', squeezes k s = Ok (Some s') /\ holding s' l' /\ is_msg (drops k m) l' /\ msg_ok (drops k m).
Proof.
  induction k as [|k IH]; intros s l m H M I OK.
  - exists s, l. split; [reflexivity|]. split; [exact H|]. split; [exact I|exact OK].
  - cbn [squeezes drops]. destruct (squeeze_ok s l m H M I OK) as (s' & l' & -> & H' & I' & OK' & M'). cbn [bind]. apply (IH s' l'); try assumption. lia.
Qed.
(** At the end there is the header alone, twelve octets. *)
Lemma drops_bare k : forall m, q_tc (m_hdr m) = 1 \/ m_ns m = [] /\ m_ar m = [] -> (0 < k)%nat -> m_qd (drops k m) = [] /\ m_an (drops k m) = [] /\ m_ns (drops k m) = [] /\ m_ar (drops k m) = [].
Proof.
  induction k as [|k IH]; intros m B K; [lia|]. cbn [drops].
  assert (drop_last m = mkmsg (set_flags (m_hdr m) 1 0 0 0 0) [] [] [] []) as ->.
  { unfold drop_last. destruct B as [-> |(-> & ->)]; [reflexivity|]. change (zlen (@nil rr) =? 0) with true. rewrite orb_true_r. reflexivity. }
  destruct k as [|k]; [cbn; tauto|]. apply IH; [left; reflexivity|lia].
Qed.
Lemma removelast_len {A} (l : list A) : length (removelast l) = (length l - 1)%nat.
Proof. destruct l as [|x l] using rev_ind; [reflexivity|]. rewrite removelast_app', app_length. cbn. lia. Qed.
Lemma drops_end : forall k m, (length (m_ns m) + length (m_ar m) < k)%nat -> m_qd (drops k m) = [] /\ m_an (drops k m) = [] /\ m_ns (drops k m) = [] /\ m_ar (drops k m) = [].
Proof.
  induction k as [|k IH]; intros m K; [lia|].
  destruct (Z.eqb_spec (q_tc (m_hdr m)) 1) as [T|T]; [apply drops_bare; [left; exact T|lia]|].
  destruct (m_ar m) as [|r ar] eqn:EA; [destruct (m_ns m) as [|r ns] eqn:EN; [apply drops_bare; [right; split; assumption|lia]|]|]; cbn [drops]; apply IH; unfold drop_last; rewrite ?EN, EA;
    replace (q_tc (m_hdr m) =? 1) with false by lia; cbn [orb].
  - change (zlen (@nil rr)) with 0. rewrite zlen_cons. pose proof (zlen_nonneg ns). replace (zlen ns + 1 =? 0) with false by lia. cbn [andb]. change (0 <? 0) with false. cbn [m_ns m_ar].
    rewrite removelast_len. cbn [length] in *. lia.
  - rewrite !(zlen_cons r ar). pose proof (zlen_nonneg ar). replace (zlen ar + 1 =? 0) with false by lia. rewrite andb_false_r. replace (0 <? zlen ar + 1) with true by lia. cbn [m_ns m_ar].
    rewrite removelast_len. cbn [length] in *. lia.
Qed.
Theorem C23_ends_with_the_header : forall k s l m, holding s l -> 14 <= j_max s -> is_msg m l -> msg_ok m -> (length (m_ns m) + length (m_ar m) < k)%nat ->
  exists s' l', squeezes k s = Ok (Some s') /\ holding s' l' /\ zlen l' = 12 /\ bits l' = header_bits (m_hdr (drops k m)).
Proof.
  intros k s l m H M I OK K. destruct (C23_whole_records_go k s l m H M I OK) as (s' & l' & E & H' & I' & OK'). exists s', l'. split; [exact E|]. split; [exact H'|].
  destruct (is_msg_elim _ _ I') as (x & LX & BX & EL). destruct (drops_end k m K) as (E1 & E2 & E3 & E4). rewrite E1, E2, E3, E4 in EL. cbn [map concat app] in EL. unfold plain_records in EL. cbn [map concat] in EL.
  rewrite app_nil_r in EL. subst l'. split; [exact LX|exact BX].
Qed.
(** Whatever the packet is, nothing goes wrong, and each time it gets shorter, but never shorter
    than a header. *)
Theorem C23_safe : forall s l, holding s l -> 14 <= j_max s ->
  exists s' l', squeeze_to_fit s = Ok (Some s') /\ holding s' l' /\ 12 <= zlen l' /\ (12 < zlen l -> zlen l' < zlen l) /\ (zlen l <= 12 -> zlen l' = 12).
Proof.
  intros s l H M. destruct (holding_slice s l H) as (_ & C & _). destruct H as (W & S1 & _). destruct (squeeze_safe s W) as (o & E & R). destruct o as [s'|].
  - destruct R as (W' & S' & M' & R1 & R2 & R3). assert (holding s' (octets_of s')) as H' by (split; [exact W'|split; [exact S'|reflexivity]]). exists s', (octets_of s'). split; [exact E|]. split; [exact H'|].
    destruct (holding_slice s' _ H') as (_ & C' & _). rewrite <- C', <- C. split; [exact R1|]. split; assumption.
  - destruct R as [R|R]; [|lia]. rewrite octet_ok in R by assumption. discriminate.
Qed.
Definition rec1 (x : Z) : rr := mkrr www 16 [0; 1; 0; 0; 1; 0] [4; x; x; x; x] [] [].
Definition msg1 : msg := mkmsg (mkqh 7 1 0 1 0 0 0 0 0 1 1 2 1) [q1] [rec1 1] [rec1 2; rec1 3] [rec1 4].
Definition bytes_of (m : msg) : list Z := hdr_octets (m_hdr m) ++ concat (map question_bytes (m_qd m)) ++ plain_records (m_an m ++ m_ns m ++ m_ar m).
Example C23_witness : msg_ok msg1 /\ is_msg msg1 (bytes_of msg1) /\ holding (str (bytes_of msg1) 200) (bytes_of msg1) /\
  (o <- squeezes 2 (str (bytes_of msg1) 200) ;; Ok (option_map octets_of o)) = Ok (Some (bytes_of (mkmsg (mkqh 7 1 0 1 0 0 0 0 0 1 1 1 0) [q1] [rec1 1] [rec1 2] []))).
Proof.
  split; [|split; [|split]].
  - split; [|split; [reflexivity|split; [reflexivity|split; [reflexivity|split; [reflexivity|split]]]]].
    + unfold header_fits, header_fields, msg1, below. cbn. repeat (apply Forall_cons; [cbn; lia|]). constructor.
    + destruct C38_witness as (Q & _). constructor; [exact Q|constructor].
    + cbn [msg1 m_an m_ns m_ar app]. repeat (apply Forall_cons; [split; [exact www_short|repeat split; vm_compute; (discriminate || reflexivity)]|]). constructor.
  - split; [reflexivity|]. split; vm_compute; reflexivity.
  - str_tac.
  - vm_compute. reflexivity.
Qed.
Print Assumptions C23_whole_records_go.
Print Assumptions C23_ends_with_the_header.
Print Assumptions C23_safe.
