(** C29: coLunacyDNS reads IPv6 addresses.  The grammar is SpecIp6.v's; [ip6Parse] is the model of
    coLunacyDNS/coLunacyDNS.c 241-359; a result of 1 is "accepted". *)
From Coq Require Import String Ascii.
From Verif Require Import CBase ModelIp6 SpecIp6 ProofIp6 ProofIp6Safe ProofIp6All ProofIp6Text ProofIp6Digits.

(** It reads nothing but the string and its final octet 0, writes nothing but the 16 octets, and ends. *)
Theorem C29_safe s m ip6 : in_memory s m -> zlen ip6 = 16 -> exists k v, ip6Parse m ip6 = Ok (k, v) /\ zlen v = 16.
Proof. intros (N & j & ->) L. exact (ip6Parse_safe s j ip6 N L). Qed.
Print Assumptions C29_safe.

(** With colons and without blanks, just the addresses of RFC 4291 are accepted, for what they are, but: seven groups and
    [::] are not, and one colon before an address that does not start with one does not matter. *)
Theorem C29_colons s m ip6 v : in_memory s m -> zlen ip6 = 16 -> In 58 s -> (forall c, In c s -> blank c = false) ->
  (ip6Parse m ip6 = Ok (1, v) <->
   (ip6_text s v /\ ~ seven_doubled s) \/
   (exists t, s = 58 :: t /\ hd 0 t <> 58 /\ In 58 t /\ ip6_text t v /\ ~ seven_doubled t)).
Proof.
  intros (N & j & ->) L I NB. rewrite <- Forall_forall in NB. split.
  - intro E. destruct (accepted_said s v j ip6 N I NB L E) as [(t & -> & _ & _ & T & S7)|(t & -> & I' & H & T & S7)].
    + left. split; assumption.
    + right. exists t. repeat split; auto.
  - intros [(T & S7)|(t & -> & H & I' & T & S7)].
    + apply (said_accepted false); [|exact L]. exists s. repeat split; auto; discriminate.
    + apply (said_accepted true); [|exact L]. exists t. repeat split; auto.
Qed.
Print Assumptions C29_colons.

(** Without colons, just the strings of 32 digits are accepted, for what they are, if they have less than 100 characters and do not
    end with a blank. *)
Theorem C29_digits s m ip6 v : in_memory s m -> zlen ip6 = 16 -> ~ In 58 s ->
  (ip6Parse m ip6 = Ok (1, v) <-> zlen s < 100 /\ ip6_digits s v /\ blank (last s 0) = false).
Proof. intros (N & j & ->) L I. exact (digits_iff s j ip6 v N I L). Qed.
Print Assumptions C29_digits.

(** *** Concrete cases *)
Definition chars (s : string) : list Z := map (fun c => Z.of_nat (nat_of_ascii c)) (list_ascii_of_string s).
Definition text (s : string) : list Z := chars s ++ [0].
Definition array : list Z := repeat 170 16.
Lemma text_in_memory s : forallb (fun c => negb (c =? 0)) (chars s) = true -> in_memory (chars s) (text s).
Proof. intro H. split; [|exists []; reflexivity]. intro I. rewrite forallb_forall in H. apply H in I. discriminate I. Qed.

Example C29_colons_met :
  let s := chars "2001:db8:1234::5678" in let v := [32; 1; 13; 184; 18; 52; 0; 0; 0; 0; 0; 0; 0; 0; 86; 120] in
  in_memory s (text "2001:db8:1234::5678") /\ In 58 s /\ (forall c, In c s -> blank c = false) /\ ip6_text s v /\ ~ seven_doubled s /\
  ip6Parse (text "2001:db8:1234::5678") array = Ok (1, v).
Proof.
  cbv zeta. split; [apply text_in_memory; reflexivity|]. split; [vm_compute; tauto|].
  split; [apply Forall_forall; vm_compute; repeat constructor|].
  split.
  { exact (doubled [chars "2001"; chars "db8"; chars "1234"] [chars "5678"] ltac:(repeat constructor; discriminate) ltac:(repeat constructor; discriminate) ltac:(discriminate)). }
  split; [|reflexivity]. intros (l & _ & _ & E). apply (f_equal (@rev Z)) in E. rewrite rev_app_distr in E. vm_compute in E. discriminate E.
Qed.
Example C29_eight_met : ip6_text (chars "1:22:333:4444:AbCd:0:0000:8") [0; 1; 0; 34; 3; 51; 68; 68; 171; 205; 0; 0; 0; 0; 0; 8] /\
  ip6Parse (text "1:22:333:4444:AbCd:0:0000:8") array = Ok (1, [0; 1; 0; 34; 3; 51; 68; 68; 171; 205; 0; 0; 0; 0; 0; 8]).
Proof.
  split; [|reflexivity].
  exact (eight [chars "1"; chars "22"; chars "333"; chars "4444"; chars "AbCd"; chars "0"; chars "0000"; chars "8"] ltac:(repeat constructor; discriminate) eq_refl).
Qed.
Example C29_digits_met :
  let s := chars "2001-0db8-4d61-7261 444e-5300-0000-__01" in
  in_memory s (text "2001-0db8-4d61-7261 444e-5300-0000-__01") /\ ~ In 58 s /\ ip6_digits s [32; 1; 13; 184; 77; 97; 114; 97; 68; 78; 83; 0; 0; 0; 0; 1] /\
  ip6Parse (text "2001-0db8-4d61-7261 444e-5300-0000-__01") array = Ok (1, [32; 1; 13; 184; 77; 97; 114; 97; 68; 78; 83; 0; 0; 0; 0; 1]).
Proof.
  cbv zeta. split; [apply text_in_memory; reflexivity|]. split; [vm_compute; intuition discriminate|].
  split; [|reflexivity]. split; [reflexivity|]. split; [|reflexivity].
  vm_compute. repeat (constructor; [first [left; discriminate | right; reflexivity]|]). constructor.
Qed.
(** Strings which are no addresses. *)
Example C29_rejects : map (fun s => match ip6Parse (text s) array with Ok (k, _) => k =? 1 | _ => true end)
  ["1:2:3:4:5:6:7"; "1:2:3:4:5:6:7:8:9"; "1::2::3"; "12345::"; "1:::2"; "1:2:3:4:5:6:7:8:"; "g::"; "_::1"; "1::2:3:4:5:6:7:8"; ""; "20010db8"; ":"]%string = repeat false 12.
Proof. reflexivity. Qed.

(** *** Where the property fails *)
(** A string is accepted which is not an address: one colon before the groups. *)
Lemma text_colon s v : ip6_text s v -> hd 0 s = 58 -> hd 0 (tl s) = 58.
Proof.
  intros [gs HG HL|l r Hl Hr HL] H.
  - exfalso. assert (N : gs <> []) by (intros ->; discriminate). apply (with_colons_hd gs [] (groups_full gs HG) N). rewrite app_nil_r. exact H.
  - destruct l as [|l0 l]; [reflexivity|]. exfalso. apply (with_colons_hd (l0 :: l) ([58; 58] ++ with_colons r) (groups_full _ Hl)); [discriminate|exact H].
Qed.
Theorem C29_leading_colon_refuted : exists s v, in_memory (chars s) (text s) /\ ip6Parse (text s) array = Ok (1, v) /\ forall w, ~ ip6_text (chars s) w.
Proof.
  exists ":1:2:3:4:5:6:7:8"%string, [0; 1; 0; 2; 0; 3; 0; 4; 0; 5; 0; 6; 0; 7; 0; 8]. split; [apply text_in_memory; reflexivity|]. split; [reflexivity|].
  intros w H. apply text_colon in H; [discriminate H|reflexivity].
Qed.
Print Assumptions C29_leading_colon_refuted.

(** Blanks do not count, says the documentation; but a string is accepted which is not an address without them. *)
Theorem C29_blanks_refuted : exists s v, in_memory (chars s) (text s) /\ In 58 (chars s) /\ ip6Parse (text s) array = Ok (1, v) /\ forall w, ~ ip6_text (digits_of (chars s)) w.
Proof.
  exists "1: :2:3:4:5:6:7:8"%string, [0; 1; 0; 2; 0; 3; 0; 4; 0; 5; 0; 6; 0; 7; 0; 8]. split; [apply text_in_memory; reflexivity|]. split; [vm_compute; tauto|]. split; [reflexivity|].
  intros w H. assert (S : said false (digits_of (chars "1: :2:3:4:5:6:7:8")) w).
  { exists (digits_of (chars "1: :2:3:4:5:6:7:8")). split; [reflexivity|]. split; [vm_compute; tauto|]. split; [discriminate|]. split; [exact H|].
    intros (l & _ & _ & E). apply (f_equal (@rev Z)) in E. rewrite rev_app_distr in E. vm_compute in E. discriminate E. }
  apply (said_accepted false _ _ [] array) in S; [|reflexivity]. vm_compute in S. discriminate S.
Qed.
Print Assumptions C29_blanks_refuted.
(** The same: the last group is missing. *)
Theorem C29_last_group_missing_refuted : exists s v, in_memory (chars s) (text s) /\ In 58 (chars s) /\ ip6Parse (text s) array = Ok (1, v) /\ forall w, ~ ip6_text (digits_of (chars s)) w.
Proof.
  exists "1:2:3:4:5:6:7: "%string, [0; 1; 0; 2; 0; 3; 0; 4; 0; 5; 0; 6; 0; 7; 0; 0]. split; [apply text_in_memory; reflexivity|]. split; [vm_compute; tauto|]. split; [reflexivity|].
  intros w H. assert (S : said false (digits_of (chars "1:2:3:4:5:6:7: ")) w).
  { exists (digits_of (chars "1:2:3:4:5:6:7: ")). split; [reflexivity|]. split; [vm_compute; tauto|]. split; [discriminate|]. split; [exact H|].
    intros (l & _ & _ & E). apply (f_equal (@rev Z)) in E. rewrite rev_app_distr in E. vm_compute in E. discriminate E. }
  apply (said_accepted false _ _ [] array) in S; [|reflexivity]. vm_compute in S. discriminate S.
Qed.
Print Assumptions C29_last_group_missing_refuted.

(** Addresses are not accepted: seven groups and [::]; 32 digits and a blank. *)
Theorem C29_seven_groups_refuted : exists s v k w, in_memory (chars s) (text s) /\ ip6_text (chars s) v /\ ip6Parse (text s) array = Ok (k, w) /\ k <> 1.
Proof.
  exists "1:2:3:4:5:6:7::"%string, [0; 1; 0; 2; 0; 3; 0; 4; 0; 5; 0; 6; 0; 7; 0; 0], (-259), (repeat 0 16). split; [apply text_in_memory; reflexivity|]. split; [|split; [reflexivity|discriminate]].
  exact (doubled [chars "1"; chars "2"; chars "3"; chars "4"; chars "5"; chars "6"; chars "7"] [] ltac:(repeat constructor; discriminate) ltac:(constructor) ltac:(discriminate)).
Qed.
Print Assumptions C29_seven_groups_refuted.
Theorem C29_blank_at_end_refuted : exists s v k w, in_memory (chars s) (text s) /\ ip6_digits (chars s) v /\ ip6Parse (text s) array = Ok (k, w) /\ k <> 1.
Proof.
  exists "20010db800000000 0000000000000001 "%string, [32; 1; 13; 184; 0; 0; 0; 0; 0; 0; 0; 0; 0; 0; 0; 1], (-257), (repeat 0 16). split; [apply text_in_memory; reflexivity|]. split; [|split; [reflexivity|discriminate]].
  split; [reflexivity|]. split; [|reflexivity]. vm_compute. repeat (constructor; [left; discriminate|]). constructor.
Qed.
Print Assumptions C29_blank_at_end_refuted.
