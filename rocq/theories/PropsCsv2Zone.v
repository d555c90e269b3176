(** C50: a whole zone file means the records that are written in it (parse/Csv2_parse.c, parse/Csv2_main.c). *)
From Coq Require Import String.
From Verif Require Import CBase Bits ModelDwStr SpecDwStr ProofDwStr SpecNames SpecMessage SpecQuery ModelJsStr SpecJsStr ProofJsStr ModelQueries SpecQueries ProofQueries ProofHname ProofJsList ModelServe ProofServe ProofServeRun
  ModelIpAcl ModelCsv2 SpecCsv2 ProofCsv2 ProofCsv2Names ProofCsv2Addr PropsCsv2 ModelCsv2Rr SpecCsv2Rr ProofCsv2Rr PropsCsv2Rr ModelCsv2Txt SpecCsv2Txt ProofCsv2Txt PropsCsv2Txt ModelCsv2Zone SpecCsv2Zone ProofCsv2Zone ProofCsv2Lines ModelCsv2Aaaa SpecCsv2Aaaa PropsCsv2Aaaa ModelCsv2Soa SpecCsv2Soa PropsCsv2Soa.
Local Open Scope Z_scope.
Local Open Scope string_scope.
Local Open Scope list_scope.

(** The server is given the records of the file, in their order, up to 100000 records: whatever is in new memory,
    and whatever the parts that are not modelled do. *)
Theorem C50_zone : forall sn J R O U sw origin cap z h l rs, reads_aaaa O -> reads_soa sn O -> reads_mbox O -> (forall m k, junk_ok (J m k)) -> (forall m, U m + 1512 <= 2147483647) -> sw = 0 \/ sw = 1 ->
  held cap origin (text z) -> zone_file sn (-328) h (at_first z) l rs ->
  exists adds, csv2_parse_zone J R O U sw origin (csv2_open l h) = Ok adds /\ Forall2 is_added (firstn (Z.to_nat 100000) rs) adds.
Proof.
  intros sn J R O U sw origin cap z h l rs HA HS HM HJ HU SW HZ ZF. unfold csv2_parse_zone. assert (exists m, Z.to_nat 100000 = S m) as (m & ->) by (exists (Z.to_nat 99999); lia). rewrite loop_split.
  apply (file_on sn J R O U sw HA HS HM HJ HU SW (-328) h (at_first z) l rs ZF); try reflexivity; [discriminate| |split; reflexivity|cbn; lia].
  split; [exists cap; exact HZ|]. split; [constructor|]. split; [reflexivity|]. split; [cbn; lia|reflexivity].
Qed.
(** Other types are errors. *)
Definition some_types (sn : Z) : Z -> zst -> csv2 -> res (option js * csv2) :=
  fun t st f => if (t =? 28)%Z then csv2_get_aaaa K K f else if (t =? 6)%Z then csv2_get_soa K f (z_origin st) sn
    else if one_of t [8; 9] then csv2_get_mbox K f (z_origin st) 1 else if one_of t [14; 17] then csv2_get_mbox K f (z_origin st) 2 else Ok (None, csv2_error f).
Lemma aaaa_read sn : reads_aaaa (some_types sn). Proof. intros st f. exists K, K. split; [exact K_ok|]. split; [exact K_ok|reflexivity]. Qed.
Lemma mbox_read sn : reads_mbox (some_types sn).
Proof. intros st f. exists K. split; [exact K_ok|]. split; intros t I; cbn [In] in I; repeat (destruct I as [<- |I]; [reflexivity|]); contradiction. Qed.
Lemma soa_read sn : 0 <= sn < 4294967296 -> reads_soa sn (some_types sn). Proof. intros S. split; [exact S|]. intros st f. exists K. split; [exact K_ok|reflexivity]. Qed.
(** So a file has one meaning. *)
Lemma holding_same s x y : holding s x -> holding s y -> x = y. Proof. intros (_ & _ & <-) (_ & _ & <-). reflexivity. Qed.
Lemma added_same r r' a : is_added r a -> is_added r' a -> r = r'.
Proof.
  destruct r as [n t ttl d], r' as [n' t' ttl' d']. intros (N & T & L & q & E & D) (N' & T' & L' & q' & E' & D'). cbn in *. rewrite E in E'. injection E' as <-. pose proof (holding_same _ _ _ N N'). pose proof (holding_same _ _ _ D D'). congruence.
Qed.
Theorem C50_one_meaning : forall sn z h l rs rs', 0 <= sn < 4294967296 -> text_ok z -> zone_file sn (-328) h (at_first z) l rs -> zone_file sn (-328) h (at_first z) l rs' -> zlen rs <= 100000 -> zlen rs' <= 100000 -> rs = rs'.
Proof.
  intros sn z h l rs rs' SN (G & _ & LZ) F F' L L'. assert (bytes (text z)) as BT.
  { destruct z as [|a z]; [repeat (apply Forall_cons; [unfold byte; lia|]); constructor|]. rewrite text_dots by discriminate. clear - G. revert G. generalize (a :: z). intros n. induction 1 as [|x n (_ & B) G IH]; [constructor|]. rewrite dots_cons. apply bytes_app. split; [exact B|]. apply Forall_cons; [unfold byte; lia|exact IH]. }
  pose proof (str_held (text z) 256 BT ltac:(lia) ltac:(lia)) as HZ.
  destruct (C50_zone sn (fun _ _ => K) (fun f => f) (some_types sn) (fun _ => 0) 0 _ 256 z h l rs (aaaa_read sn) (soa_read sn SN) (mbox_read sn) ltac:(intros; exact K_ok) ltac:(intros; lia) ltac:(left; reflexivity) HZ F) as (adds & E & FA).
  destruct (C50_zone sn (fun _ _ => K) (fun f => f) (some_types sn) (fun _ => 0) 0 _ 256 z h l rs' (aaaa_read sn) (soa_read sn SN) (mbox_read sn) ltac:(intros; exact K_ok) ltac:(intros; lia) ltac:(left; reflexivity) HZ F') as (adds' & E' & FA').
  rewrite E in E'. injection E' as <-. rewrite firstn_all2 in FA by (unfold zlen in L; lia). rewrite firstn_all2 in FA' by (unfold zlen in L'; lia). clear - FA FA'. revert rs' FA'. induction FA as [|r a rs adds H FA IH]; intros rs' FA'; inversion FA' as [|r' a' rs2 adds2 H' FA2]; subst; [reflexivity|]. f_equal; [exact (added_same _ _ _ H H')|apply IH, FA2].
Qed.

(** ** Examples *)
Ltac nchars := repeat (apply Forall_cons; [split; [discriminate|repeat (apply Forall_cons; [unfold name_char; lia|]); constructor]|]); constructor.
Ltac tok := split; [repeat (apply Forall_cons; [split; [split; vm_compute; discriminate|apply bytesb_spec; reflexivity]|]); constructor|split; [repeat (apply Forall_cons; [repeat (apply Forall_cons; [discriminate|]); constructor|]); constructor|vm_compute; discriminate]].
Ltac fits := split; [discriminate|split; [repeat (apply Forall_cons; [repeat (apply Forall_cons; [discriminate|]); constructor|]); constructor|vm_compute; discriminate]].
Ltac hst := split; [nchars|split; [cbn; lia|split; [tok|split; [fits|right; reflexivity]]]].
Ltac ap := split; [split; [repeat (apply Forall_cons; [unfold delimiter; lia|]); constructor|vm_compute; lia]|vm_compute; reflexivity].
Ltac num := apply ex_field; [reflexivity|discriminate|reflexivity|lia|vm_compute; discriminate].
Ltac dig := split; [split; [discriminate|repeat (apply Forall_cons; [lia|]); constructor]|vm_compute; discriminate].
Ltac gap := split; [unfold delimiter; lia|split; [repeat (apply Forall_cons; [cbn [filler_ok]; try exact Logic.I; try (unfold delimiter; lia)|]); try apply Forall_nil|split; [vm_compute; discriminate|vm_compute; reflexivity]]].
Definition lines (l : list string) : list Z := concat (map (fun s => octets s ++ [10]) l).
(** The zone ex. with most kinds of lines *)
Definition ex_file : list Z := lines [
  "# The zone ex.";
  "/ttl 3600";
  "% SOA ns.% a\.b@% /serial 7200 3600 604800 1800";
  "%  NS ns.%";
  "ns.% 1.2.3.4";
  "/opush s.%";
  "*.% +60 in MX 300 m.%";
  "/opop";
  "";
  "t.% | TXT 'x'";
  "ns.% AAAA fE80::aB:12";
  "t.% MR a\.b@%";
  "t.% MINFO a\.b@% a\.b@%"].
Definition ex_records : list record := [
  mkrecord [2; 101; 120; 0] 6 3600 ([2; 110; 115; 2; 101; 120; 0] ++ [3; 97; 46; 98; 2; 101; 120; 0] ++ [0; 0; 1; 2; 0; 0; 28; 32; 0; 0; 14; 16; 0; 9; 58; 128; 0; 0; 7; 8]);
  mkrecord [2; 101; 120; 0] 2 3600 [2; 110; 115; 2; 101; 120; 0];
  mkrecord [2; 110; 115; 2; 101; 120; 0] 1 3600 [1; 2; 3; 4];
  mkrecord [95; 1; 115; 2; 101; 120; 0] 15 60 [1; 44; 1; 109; 1; 115; 2; 101; 120; 0];
  mkrecord [1; 116; 2; 101; 120; 0] 16 3600 [1; 120];
  mkrecord [2; 110; 115; 2; 101; 120; 0] 28 3600 [254; 128; 0; 0; 0; 0; 0; 0; 0; 0; 0; 0; 0; 171; 0; 18];
  mkrecord [1; 116; 2; 101; 120; 0] 9 3600 [3; 97; 46; 98; 2; 101; 120; 0];
  mkrecord [1; 116; 2; 101; 120; 0] 14 3600 ([3; 97; 46; 98; 2; 101; 120; 0] ++ [3; 97; 46; 98; 2; 101; 120; 0])].
Lemma rr_as sn b h s g h' c r d l rs t r' : t = gap_text g ++ c ++ l -> r' = r -> gap_ok b g -> line_start b g -> tilde_rule h (tildes_in b g) = Some h' -> record_line sn h' s c r d -> zone_file sn d h' s l rs -> zone_file sn b h s t (r' :: rs).
Proof. intros -> ->. apply Rr. Qed.
Lemma line_as sn b h s g h' c s' d l rs t : t = gap_text g ++ c ++ l -> gap_ok b g -> line_start b g -> tilde_rule h (tildes_in b g) = Some h' -> command_line s c s' d -> zone_file sn d h' s' l rs -> zone_file sn b h s t rs.
Proof. intros ->. apply Line. Qed.
Lemma end_as sn b h s g h' t : t = gap_text g -> gap_ok b g -> tilde_rule h (tildes_in b g) = Some h' -> zone_file sn b h s t [].
Proof. intros ->. apply End. Qed.
Lemma short_as sn h s o x d0 sep0 l t y d c r : c = o ++ d0 :: sep0 ++ l -> r = mkrecord x t (s_ttl s) y -> owner (s_origin s) o x -> apart d0 sep0 -> typed sn h (s_origin s) l t y d -> record_line sn h s c r d.
Proof. intros -> ->. apply Short. Qed.
Lemma long_as sn h s o x d0 sep0 p v d1 sep1 l t y d c r : c = o ++ d0 :: sep0 ++ 43 :: p ++ d1 :: sep1 ++ l -> r = mkrecord x t v y -> owner (s_origin s) o x -> apart d0 sep0 -> number_field p v -> apart d1 sep1 -> typed sn h (s_origin s) l t y d -> record_line sn h s c r d.
Proof. intros -> ->. apply Long. Qed.
Lemma name_as z n e o x : o = spelled n e -> x = wire (meant n e z) -> name_chars n -> no_command n -> text_ok (meant n e z) -> fits_zone n e z -> owner z o x.
Proof. intros -> ->. apply Plain. Qed.
Lemma star_as z n (e : ending_) o x : o = 42 :: 46 :: dotted n ++ (if e then [] else [37]) -> x = 95 :: wire (meant n e z) -> name_chars n -> text_ok ([42] :: meant n e z) -> (e = Percent -> z <> [] /\ zlen (text ([42] :: meant n e z)) <= 254) -> owner z o x.
Proof. intros -> ->. apply Star. Qed.
Lemma address_alone sn h z a b c d dl t x : t = quad_text a b c d ++ [dl] -> x = [decimal_of a; decimal_of b; decimal_of c; decimal_of d] -> octet_digits a -> octet_digits b -> octet_digits c -> octet_digits d -> delimiter dl -> zlen (quad_text a b c d) <= 256 -> typed sn h z t 1 x dl.
Proof. intros -> ->. apply Alone. Qed.
Lemma mx_as sn h z d1 t sep p v d2 sep2 n e d l x : l = sep ++ p ++ d2 :: sep2 ++ spelled n e ++ [d] -> x = two v ++ wire (meant n e z) -> In t [15; 18; 21] -> apart d1 sep -> number_field p v -> v <= 65535 -> apart d2 sep2 -> host z n e -> zlen (wire (meant n e z)) <= 253 -> delimiter d -> field sn h z d1 t l x d.
Proof. intros -> ->. apply FMx. Qed.
Lemma txt_as sn h z d1 t sep c m e l x d : l = sep ++ record_text c m ++ e -> x = strings (chunks_of c m) -> d = last e 0 -> In t [16; 19; 20; 99] /\ h <> 102 \/ t = 13 /\ zlen (chunks_of c m) = 2 \/ t = 27 /\ zlen (chunks_of c m) = 3 ->
  apart d1 sep -> record_ok (h =? 103)%Z c m -> ends_record (h =? 103)%Z e -> Forall (fun l => zlen l <= 255) (chunks_of c m) ->
  zlen (strings (chunks_of c m)) <= 1512 -> zlen (record_text c m ++ e) <= 10000 -> field sn h z d1 t l x d.
Proof. intros -> -> ->. apply FTxt. Qed.
Lemma ex_file_ok : zone_file 258 (-328) 2 (at_first ex_z) ex_file ex_records.
Proof.
  eapply (line_as 258 _ _ _ [Comment (octets " The zone ex.") 10] 102 (octets "/ttl 3600" ++ [10]) _ 10); [reflexivity| |right; left; reflexivity|reflexivity| |].
  { gap. split; [left; reflexivity|]. split; [repeat (apply Forall_cons; [vm_compute; intuition discriminate|]); constructor|vm_compute; discriminate]. }
  { apply (Ttl _ 32 [] (octets "3600") 3600 10); [ap|num|unfold delimiter; lia]. }
  eapply (rr_as 258 _ _ _ [] 101 (octets "% SOA ns.% a\.b@% /serial 7200 3600 604800 1800" ++ [10]) _ 10); [reflexivity|reflexivity|gap|right; left; reflexivity|reflexivity| |].
  { apply (short_as 258 101 _ [37] [2; 101; 120; 0] 32 [] (octets "SOA ns.% a\.b@% /serial 7200 3600 604800 1800" ++ [10]) 6 ([2; 110; 115; 2; 101; 120; 0] ++ [3; 97; 46; 98; 2; 101; 120; 0] ++ [0; 0; 1; 2; 0; 0; 28; 32; 0; 0; 14; 16; 0; 9; 58; 128; 0; 0; 7; 8]) 10); [reflexivity|reflexivity| |ap|].
    - apply (name_as _ [] Percent); [reflexivity|reflexivity|constructor|exact Logic.I|tok|fits].
    - apply (Named 101 ex_z [] (octets "SOA") "SOA" 6 32 (octets "ns.% a\.b@% /serial 7200 3600 604800 1800" ++ [10])); [constructor|vm_compute; tauto|reflexivity|unfold delimiter; lia|].
      apply (FSoa 101 ex_z 32 [] [[110; 115]] Percent 32 [] ex_mail 32 [] (octets "/serial") 258 32 [] (octets "7200") 7200 32 [] (octets "3600") 3600 32 [] (octets "604800") 604800 32 [] (octets "1800") 1800 10); [ap|hst|ap|exact ex_mail_ok|ap|right; split; reflexivity|ap|num|ap|num|ap|num|ap|num|unfold delimiter; lia|vm_compute; reflexivity]. }
  eapply (rr_as 258 _ _ _ [] 101 (octets "%  NS ns.%" ++ [10]) _ 10); [reflexivity|reflexivity|gap|right; left; reflexivity|reflexivity| |].
  { apply (short_as 258 101 _ [37] [2; 101; 120; 0] 32 [32] (octets "NS ns.%" ++ [10]) 2 [2; 110; 115; 2; 101; 120; 0] 10); [reflexivity|reflexivity| |ap|].
    - apply (name_as _ [] Percent); [reflexivity|reflexivity|constructor|exact Logic.I|tok|fits].
    - apply (Named 101 ex_z [] (octets "NS") "NS" 2 32 (octets "ns.%" ++ [10])); [constructor|vm_compute; tauto|reflexivity|unfold delimiter; lia|]. apply (FHost 101 ex_z 32 2 [] [[110; 115]] Percent 10); [vm_compute; tauto|ap|hst|unfold delimiter; lia]. }
  eapply (rr_as 258 _ _ _ [] 101 (octets "ns.% 1.2.3.4" ++ [10]) _ 10); [reflexivity|reflexivity|gap|right; left; reflexivity|reflexivity| |].
  { apply (short_as 258 101 _ (octets "ns.%") [2; 110; 115; 2; 101; 120; 0] 32 [] (octets "1.2.3.4" ++ [10]) 1 [1; 2; 3; 4] 10); [reflexivity|reflexivity| |ap|].
    - apply (name_as _ [[110; 115]] Percent); [reflexivity|reflexivity|nchars|cbn; lia|tok|fits].
    - apply (address_alone 258 101 ex_z [49] [50] [51] [52] 10); [reflexivity|reflexivity|dig|dig|dig|dig|unfold delimiter; lia|vm_compute; discriminate]. }
  eapply (line_as 258 _ _ _ [] 101 (octets "/opush s.%" ++ [10]) _ 10); [reflexivity|gap|right; left; reflexivity|reflexivity| |].
  { apply (Push _ 32 [] [[115]] Percent 10); [ap|hst|unfold delimiter; lia|vm_compute; reflexivity]. }
  eapply (rr_as 258 _ _ _ [] 101 (octets "*.% +60 in MX 300 m.%" ++ [10]) _ 10); [reflexivity|reflexivity|gap|right; left; reflexivity|reflexivity| |].
  { apply (long_as 258 101 _ (octets "*.%") [95; 1; 115; 2; 101; 120; 0] 32 [] (octets "60") 60 32 [] (octets "in MX 300 m.%" ++ [10]) 15 [1; 44; 1; 109; 1; 115; 2; 101; 120; 0] 10); [reflexivity|reflexivity| |ap|num|ap|].
    - apply (star_as _ [] Percent); [reflexivity|reflexivity|constructor|tok|intros _; split; [discriminate|vm_compute; discriminate]].
    - apply (Named 101 [[115]; [101; 120]] [(octets "in", 32, [])] (octets "MX") "MX" 15 32 (octets "300 m.%" ++ [10])); [|vm_compute; tauto|reflexivity|unfold delimiter; lia|].
      + apply Forall_cons; [|constructor]. split; [reflexivity|ap].
      + apply (mx_as 258 101 [[115]; [101; 120]] 32 15 [] (octets "300") 300 32 [] [[109]] Percent 10); [vm_compute; reflexivity|vm_compute; reflexivity|vm_compute; tauto|ap|num|lia|ap|hst|vm_compute; discriminate|unfold delimiter; lia]. }
  eapply (line_as 258 _ _ _ [] 101 (octets "/opop" ++ [10]) _ 10); [reflexivity|gap|right; left; reflexivity|reflexivity|apply Pop; [reflexivity|unfold delimiter; lia]|].
  eapply (rr_as 258 _ _ _ [Blank 10] 101 (octets "t.% | TXT 'x'" ++ [10]) _ 10); [reflexivity|reflexivity|gap|right; left; reflexivity|reflexivity| |].
  { apply (short_as 258 101 _ (octets "t.%") [1; 116; 2; 101; 120; 0] 32 [124; 32] (octets "TXT 'x'" ++ [10]) 16 [1; 120] 10); [reflexivity|reflexivity| |ap|].
    - apply (name_as _ [[116]] Percent); [reflexivity|reflexivity|nchars|cbn; lia|tok|fits].
    - apply (Named 101 ex_z [] (octets "TXT") "TXT" 16 32 (octets "'x'" ++ [10])); [constructor|vm_compute; tauto|reflexivity|unfold delimiter; lia|].
      apply (txt_as 258 101 ex_z 32 16 [] [([], Quoted [120])] [] [10]); [vm_compute; reflexivity|vm_compute; reflexivity|reflexivity|left; split; [vm_compute; tauto|lia]|ap| |exists 10; split; [reflexivity|unfold delimiter; lia]|repeat (apply Forall_cons; [vm_compute; discriminate|]); constructor|vm_compute; discriminate|vm_compute; discriminate].
      split; [discriminate|]. split; [|constructor]. apply Forall_cons; [|constructor]. split; [constructor|]. apply Forall_cons; [|constructor]. split; [lia|]. split; [unfold kept; lia|]. split; [cbn [In]; lia|discriminate]. }
  eapply (rr_as 258 _ _ _ [] 101 (octets "ns.% AAAA fE80::aB:12" ++ [10]) _ 10); [reflexivity|reflexivity|gap|right; left; reflexivity|reflexivity| |].
  { apply (short_as 258 101 _ (octets "ns.%") [2; 110; 115; 2; 101; 120; 0] 32 [] (octets "AAAA fE80::aB:12" ++ [10]) 28 [254; 128; 0; 0; 0; 0; 0; 0; 0; 0; 0; 0; 0; 171; 0; 18] 10); [reflexivity|reflexivity| |ap|].
    - apply (name_as _ [[110; 115]] Percent); [reflexivity|reflexivity|nchars|cbn; lia|tok|fits].
    - apply (Named 101 ex_z [] (octets "AAAA") "AAAA" 28 32 (octets "fE80::aB:12" ++ [10])); [constructor|vm_compute; tauto|reflexivity|unfold delimiter; lia|]. apply (FAddress6 101 ex_z 32 [] (octets "fE80::aB:12") _ 10); [ap|exact ex_short|unfold delimiter; lia]. }
  eapply (rr_as 258 _ _ _ [] 101 (octets "t.% MR a\.b@%" ++ [10]) _ 10); [reflexivity|reflexivity|gap|right; left; reflexivity|reflexivity| |].
  { apply (short_as 258 101 _ (octets "t.%") [1; 116; 2; 101; 120; 0] 32 [] (octets "MR a\.b@%" ++ [10]) 9 [3; 97; 46; 98; 2; 101; 120; 0] 10); [reflexivity|reflexivity| |ap|].
    - apply (name_as _ [[116]] Percent); [reflexivity|reflexivity|nchars|cbn; lia|tok|fits].
    - apply (Named 101 ex_z [] (octets "MR") "MR" 9 32 (octets "a\.b@%" ++ [10])); [constructor|vm_compute; tauto|reflexivity|unfold delimiter; lia|]. apply (FMailbox 101 ex_z 32 9 [] ex_mail 10); [cbn; tauto|ap|exact ex_mail_ok|unfold delimiter; lia]. }
  eapply (rr_as 258 _ _ _ [] 101 (octets "t.% MINFO a\.b@% a\.b@%" ++ [10]) _ 10); [reflexivity|reflexivity|gap|right; left; reflexivity|reflexivity| |].
  { apply (short_as 258 101 _ (octets "t.%") [1; 116; 2; 101; 120; 0] 32 [] (octets "MINFO a\.b@% a\.b@%" ++ [10]) 14 ([3; 97; 46; 98; 2; 101; 120; 0] ++ [3; 97; 46; 98; 2; 101; 120; 0]) 10); [reflexivity|reflexivity| |ap|].
    - apply (name_as _ [[116]] Percent); [reflexivity|reflexivity|nchars|cbn; lia|tok|fits].
    - apply (Named 101 ex_z [] (octets "MINFO") "MINFO" 14 32 (octets "a\.b@% a\.b@%" ++ [10])); [constructor|vm_compute; tauto|reflexivity|unfold delimiter; lia|]. apply (FMailboxes 101 ex_z 32 14 [] ex_mail 32 [] ex_mail 10); [cbn; tauto|ap|exact ex_mail_ok|ap|exact ex_mail_ok|unfold delimiter; lia|vm_compute; reflexivity]. }
  apply (end_as 258 _ _ _ [] 101); [reflexivity|gap|reflexivity].
Qed.
Definition ex_J : nat -> Z -> Z -> Z := fun _ _ => K.
Definition parsed (l : list Z) (h : Z) : res (list added) := csv2_parse_zone ex_J (fun f => f) (some_types 258) (fun _ => 0) 0 (str (text ex_z) 256) (csv2_open l h).
Lemma ex_z_held : held 256 (str (text ex_z) 256) (text ex_z). Proof. apply str_held; [apply bytesb_spec; reflexivity|vm_compute; discriminate|lia]. Qed.
Lemma parsed_ok l h rs : zone_file 258 (-328) h (at_first ex_z) l rs -> exists adds, parsed l h = Ok adds /\ Forall2 is_added (firstn (Z.to_nat 100000) rs) adds.
Proof. intros F. unfold parsed. eapply (C50_zone 258 ex_J (fun f => f) (some_types 258) (fun _ => 0) 0 (str (text ex_z) 256) 256 ex_z h l rs); [exact (aaaa_read 258)|apply soa_read; lia|exact (mbox_read 258)|intros; exact K_ok|intros; lia|left; reflexivity|exact ex_z_held|exact F]. Qed.
Example C50_zone_ex : exists adds, parsed ex_file 2 = Ok adds /\ Forall2 is_added ex_records adds.
Proof. destruct (parsed_ok _ _ _ ex_file_ok) as (adds & E & F). exists adds. split; [exact E|]. rewrite firstn_all2 in F by (cbn [length ex_records]; lia). exact F. Qed.
(** Tildes before each line: the first place where one may be decides. *)
Definition ex_tildes : list Z := lines ["a.% 1.2.3.4 ~"; "b.% TXT 'x' ~"].
Lemma ex_tildes_ok : zone_file 258 (-328) 2 (at_first ex_z) ex_tildes [mkrecord [1; 97; 2; 101; 120; 0] 1 86400 [1; 2; 3; 4]; mkrecord [1; 98; 2; 101; 120; 0] 16 86400 [1; 120]].
Proof.
  eapply (rr_as 258 _ _ _ [] 102 (octets "a.% 1.2.3.4 ") _ 32); [reflexivity|reflexivity|gap|right; right; reflexivity|reflexivity| |].
  { apply (short_as 258 102 _ (octets "a.%") [1; 97; 2; 101; 120; 0] 32 [] (octets "1.2.3.4 ") 1 [1; 2; 3; 4] 32); [reflexivity|reflexivity| |ap|].
    - apply (name_as _ [[97]] Percent); [reflexivity|reflexivity|nchars|cbn; lia|tok|fits].
    - apply (address_alone 258 102 ex_z [49] [50] [51] [52] 32); [reflexivity|reflexivity|dig|dig|dig|dig|unfold delimiter; lia|vm_compute; discriminate]. }
  eapply (rr_as 258 _ _ _ [Tilde; Blank 10] 103 (octets "b.% TXT 'x' ~") _ 126); [reflexivity|reflexivity|gap|right; left; reflexivity|reflexivity| |].
  { apply (short_as 258 103 _ (octets "b.%") [1; 98; 2; 101; 120; 0] 32 [] (octets "TXT 'x' ~") 16 [1; 120] 126); [reflexivity|reflexivity| |ap|].
    - apply (name_as _ [[98]] Percent); [reflexivity|reflexivity|nchars|cbn; lia|tok|fits].
    - apply (Named 103 ex_z [] (octets "TXT") "TXT" 16 32 (octets "'x' ~")); [constructor|vm_compute; tauto|reflexivity|unfold delimiter; lia|].
      apply (txt_as 258 103 ex_z 32 16 [] [([], Quoted [120])] [] [32; 126]); [vm_compute; reflexivity|vm_compute; reflexivity|reflexivity|left; split; [vm_compute; tauto|lia]|ap| |exists [32]; split; [reflexivity|apply Forall_cons; [vm_compute; tauto|constructor]]|repeat (apply Forall_cons; [vm_compute; discriminate|]); constructor|vm_compute; discriminate|vm_compute; discriminate].
      split; [discriminate|]. split; [|constructor]. apply Forall_cons; [|constructor]. split; [constructor|]. apply Forall_cons; [|constructor]. split; [lia|]. split; [unfold kept; lia|]. split; [cbn [In]; lia|]. intros _. split; [lia|cbn [In]; lia]. }
  apply (end_as 258 _ _ _ [Blank 10] 103); [reflexivity|gap|reflexivity].
Qed.
Example C50_tildes_ex : exists a b, parsed ex_tildes 2 = Ok [a; b] /\ a_type a = 1 /\ a_type b = 16.
Proof.
  destruct (parsed_ok _ _ _ ex_tildes_ok) as (adds & E & F). rewrite firstn_all2 in F by (cbn [length]; lia). inversion F as [|r a rs2 adds2 (_ & TA & _) F2]; subst. inversion F2 as [|r2 b rs3 adds3 (_ & TB & _) F3]; subst. inversion F3; subst. exists a, b. split; [exact E|]. split; [exact TA|exact TB].
Qed.
Example C50_one_meaning_ex : forall rs, zone_file 258 (-328) 2 (at_first ex_z) ex_file rs -> zlen rs <= 100000 -> rs = ex_records.
Proof. intros rs F L. apply (C50_one_meaning 258 ex_z 2 ex_file); [lia|tok|exact F|exact ex_file_ok|exact L|vm_compute; discriminate]. Qed.

(** ** What goes wrong *)
(** After 100000 records the rest of a file is ignored. *)
Definition many (n : nat) : list Z := concat (repeat (octets "a.% 1.2.3.4" ++ [10]) n).
Definition one : record := mkrecord [1; 97; 2; 101; 120; 0] 1 86400 [1; 2; 3; 4].
Lemma many_ok n : forall b h, (b = -328 \/ b = 10) -> h = 0 -> zone_file 258 b h (at_first ex_z) (many n) (repeat one n).
Proof.
  induction n as [|n IH]; intros b h B ->; cbn [repeat].
  - apply (end_as 258 _ _ _ [] 0); [reflexivity| |]; destruct B as [-> | ->]; [gap|gap|reflexivity|reflexivity].
  - eapply (rr_as 258 _ _ _ [] 0 (octets "a.%" ++ 32 :: [] ++ octets "1.2.3.4" ++ [10]) _ 10 (many n)).
    + reflexivity.
    + reflexivity.
    + destruct B as [-> | ->]; gap.
    + cbn [line_start]. lia.
    + destruct B as [-> | ->]; reflexivity.
    + apply (short_as 258 0 _ (octets "a.%") [1; 97; 2; 101; 120; 0] 32 [] (octets "1.2.3.4" ++ [10]) 1 [1; 2; 3; 4] 10); [reflexivity|reflexivity| |ap|].
      * apply (name_as _ [[97]] Percent); [reflexivity|reflexivity|nchars|cbn; lia|tok|fits].
      * apply (address_alone 258 0 ex_z [49] [50] [51] [52] 10); [reflexivity|reflexivity|dig|dig|dig|dig|unfold delimiter; lia|vm_compute; discriminate].
    + apply IH; [right; reflexivity|reflexivity].
Qed.
Theorem C50_many_refuted : exists l rs adds, zone_file 258 (-328) 0 (at_first ex_z) l rs /\ zlen rs = 100001 /\ parsed l 0 = Ok adds /\ zlen adds = 100000.
Proof.
  exists (many (Z.to_nat 100001)), (repeat one (Z.to_nat 100001)). pose proof (many_ok (Z.to_nat 100001) (-328) 0 (or_introl eq_refl) eq_refl) as F. destruct (parsed_ok _ _ _ F) as (adds & E & FA). exists adds. split; [exact F|]. split; [unfold zlen; rewrite repeat_length; lia|]. split; [exact E|].
  unfold zlen. assert (forall A B (P : A -> B -> Prop) x y, Forall2 P x y -> length x = length y) as FL by (clear; induction 1; cbn; congruence). rewrite <- (FL _ _ _ _ _ FA), firstn_length, repeat_length. lia.
Qed.
(** Nine times /opush, each with its /opop: the ninth is an error, and the record after it is lost. *)
Definition in_turn (n : nat) : list Z := concat (repeat (lines ["/opush b.%"; "/opop"]) n) ++ lines ["a.% 1.2.3.4"].
Definition number_added (r : res (list added)) : Z := match r with Ok l => zlen l | _ => -1 end.
Definition first_null (r : res (list added)) : bool := match r with Ok (mkadded _ _ _ None :: _) => true | _ => false end.
Theorem C50_opush_refuted : number_added (parsed (in_turn 8) 0) = 1 /\ number_added (parsed (in_turn 9) 0) = 0.
Proof. split; vm_compute; reflexivity. Qed.
(** An address alone that is not one: the record is added with a null pointer for its data, which csv2_add_rr
    reads from. *)
Theorem C50_null_refuted : first_null (parsed (lines ["a.% 1.2.3"]) 0) = true.
Proof. vm_compute. reflexivity. Qed.
(** By default (csv2_tilde_handling 2) a file cannot begin with a TXT record (as man mararc says). *)
Theorem C50_txt_first : number_added (parsed (lines ["a.% TXT 'x'"; "b.% 1.2.3.4"]) 2) = 0 /\ number_added (parsed (lines ["b.% 1.2.3.4"; "a.% TXT 'x'"]) 2) = 2.
Proof. split; vm_compute; reflexivity. Qed.
(** The root cannot be the origin. *)
Theorem C50_root_refuted : number_added (parsed (lines ["/origin ."; "a. 1.2.3.4"]) 0) = 0 /\ number_added (parsed (lines ["/origin b."; "a. 1.2.3.4"]) 0) = 1.
Proof. split; vm_compute; reflexivity. Qed.

Print Assumptions C50_zone.
Print Assumptions C50_one_meaning.
Print Assumptions C50_many_refuted.
Print Assumptions C50_opush_refuted.
Print Assumptions C50_null_refuted.
Print Assumptions C50_txt_first.
Print Assumptions C50_root_refuted.
