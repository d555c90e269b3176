(** C49: TXT, HINFO and RAW data in zone files mean what is written (parse/Csv2_rr_txt.c), and what
    fetchzone writes (parse/Csv2_esc_txt.c) means what was received. *)
From Verif Require Import CBase Bits ModelDwStr SpecDwStr ProofDwStr SpecNames SpecMessage SpecQuery ModelJsStr SpecJsStr ProofJsStr ModelQueries SpecQueries ProofQueries ProofHname ProofJsList ModelServe ProofServe ProofServeRun
  ModelIpAcl ModelCsv2 SpecCsv2 ProofCsv2 ProofCsv2Names ProofCsv2Addr PropsCsv2 ModelCsv2Rr SpecCsv2Rr ProofCsv2Rr ModelCsv2Txt SpecCsv2Txt ProofCsv2Txt ProofCsv2TxtAny.
Local Open Scope Z_scope.
Local Open Scope list_scope.

(** Whether tildes end the records of the file (Csv2_parse.c: tilde_handling is 103). *)
Definition tildes (f : csv2) : bool := f_hand f =? 103.

(** ** What is written is what is meant *)
(** TXT ([n] is 0: any number of chunks) and HINFO ([n] is 2).  After it, what follows the record is read on. *)
Theorem C49_txt : forall J U f n sep c m e rest, junk_ok J -> separators (f_just f :: sep) -> zlen sep < 10000 -> record_ok (tildes f) c m -> ends_record (tildes f) e ->
  Forall (fun l => zlen l <= 255) (chunks_of c m) -> zlen (strings (chunks_of c m)) <= 1512 -> zlen (record_text c m ++ e) <= 10000 -> n = 0 \/ n = zlen (chunks_of c m) ->
  reading f (sep ++ record_text c m ++ e ++ rest) ->
  exists s g, csv2_get_txt J U f n = Ok (Some s, g) /\ holding s (strings (chunks_of c m)) /\ reading g rest /\ f_just g = last e 0 /\ f_hand g = f_hand f.
Proof.
  intros. destruct (record_on J U f n (tildes f) sep c m e rest) as (s & g & E & HS & EN); try assumption; [reflexivity|]. exists s, g. split; [exact E|]. split; [exact (proj1 HS)|exact EN].
Qed.

(** RAW: the octets alone.  [U] is what was in memory; a sum that is too large is C49_raw_refuted. *)
Theorem C49_raw : forall J U f sep c d rest, junk_ok J -> separators (f_just f :: sep) -> zlen sep < 10000 -> c <> [] -> chunk_ok (tildes f) c -> delimiter d \/ (tildes f = true /\ d = 126) ->
  zlen (chunk_octets c) <= 1512 -> U + zlen (chunk_octets c) <= 2147483647 -> zlen (chunk_text c) < 10000 -> reading f (sep ++ chunk_text c ++ d :: rest) ->
  exists s g, csv2_get_raw J U f = Ok (Some s, g) /\ holding s (chunk_octets c) /\ reading g rest /\ f_just g = d /\ f_hand g = f_hand f.
Proof.
  intros. destruct (raw_on J U f (tildes f) sep c d rest) as (s & g & E & HS & EN); try assumption; [reflexivity|]. exists s, g. split; [exact E|]. split; [exact (proj1 HS)|exact EN].
Qed.

(** ** What fetchzone writes can be read *)
(** tcp/fetchzone.c 393-399: what follows " txt " and stands before " ~". *)
Theorem C49_fetched_txt : forall J U f sep l rest, junk_ok J -> separators (f_just f :: sep) -> zlen sep < 10000 -> tildes f = true -> bytes l -> l <> [] -> zlen l <= 255 ->
  reading f (sep ++ escape_stdout_csv2 l ++ [32; 126] ++ rest) -> exists s g, csv2_get_txt J U f 0 = Ok (Some s, g) /\ holding s (character_string l) /\ reading g rest /\ f_just g = 126.
Proof.
  intros J U f sep l rest HJ SS LS TD B NE L R. destruct (escape_some l B NE) as (c & NC & C & T & O). pose proof (escape_length l false) as EL.
  assert (chunks_of c [] = [l]) as CH by (unfold chunks_of; cbn; rewrite O; reflexivity). assert (strings [l] = character_string l) as ST by (unfold strings; cbn [map concat]; apply app_nil_r). assert (record_text c [] = escape_stdout_csv2 l) as RT by (unfold record_text; cbn [map concat]; rewrite app_nil_r; exact T).
  destruct (C49_txt J U f 0 sep c [] [32; 126] rest HJ SS LS) as (s & g & E & HS & RG & JG & _).
  - rewrite TD. split; [intros X; congruence|]. split; [exact C|constructor].
  - rewrite TD. exists [32]. split; [reflexivity|]. constructor; [right; right; right; left; reflexivity|constructor].
  - rewrite CH. constructor; [exact L|constructor].
  - rewrite CH, ST. unfold character_string. rewrite zlen_cons. lia.
  - rewrite RT, zlen_app. change (zlen [32; 126]) with 2. unfold escape_stdout_csv2, zlen in *. lia.
  - left. reflexivity.
  - rewrite RT. exact R.
  - exists s, g. rewrite CH, ST in HS. split; [exact E|]. split; [exact HS|]. split; [exact RG|exact JG].
Qed.
(** tcp/fetchzone.c 443-445: data of other types. *)
Theorem C49_fetched_raw : forall J U f sep l rest, junk_ok J -> separators (f_just f :: sep) -> zlen sep < 10000 -> tildes f = true -> bytes l -> l <> [] -> zlen l <= 1512 -> U + zlen l <= 2147483647 ->
  reading f (sep ++ escape_stdout_csv2 l ++ [32; 126] ++ rest) -> exists s g, csv2_get_raw J U f = Ok (Some s, g) /\ holding s l /\ reading g (126 :: rest) /\ f_just g = 32.
Proof.
  intros J U f sep l rest HJ SS LS TD B NE L LU R. destruct (escape_some l B NE) as (c & NC & C & T & O). pose proof (escape_length l false) as EL.
  destruct (C49_raw J U f sep c 32 (126 :: rest) HJ SS LS NC) as (s & g & E & HS & RG & JG & _).
  - rewrite TD. exact C.
  - left. right; right; right; left. reflexivity.
  - rewrite O. exact L.
  - rewrite O. exact LU.
  - rewrite T. unfold escape_stdout_csv2, zlen in *. lia.
  - rewrite T. exact R.
  - exists s, g. rewrite O in HS. auto.
Qed.

(** ** Any files *)
(** Whatever the file is: memory is not left, but the string may be freed twice (C49_freed_twice_refuted),
    the program may end (C49_exit_refuted), and for RAW a sum may be too large (C49_raw_refuted). *)
Definition data_kept (p : option js * csv2) : Prop := match fst p with None => True | Some s => exists x, holding s x /\ zlen x <= 1513 end.
Definition only_known_faults (raw : bool) (r : res (option js * csv2)) : Prop :=
  (exists p, r = Ok p /\ data_kept p) \/ r = Fail \/ r = Bad UseAfterFree \/ (raw = true /\ r = Bad SignedOverflow).
Lemma good_known raw r : good raw (fun p => kept_string (fst p)) r -> only_known_faults raw r.
Proof.
  destruct r as [p| |b]; cbn [good].
  - intros H. left. exists p. split; [reflexivity|]. unfold data_kept. unfold kept_string in H. destruct (fst p) as [s|]; [|exact H]. destruct H as (y & H). exists y. split; [exact (proj1 H)|exact (held_room _ _ H)].
  - intros _. right. left. reflexivity.
  - destruct b; try contradiction; intros H; [right; right; left; reflexivity|]. right; right; right. split; [exact H|reflexivity].
Qed.
Theorem C49_any_txt : forall J U f n, junk_ok J -> n <> -1 -> only_known_faults false (csv2_get_txt J U f n).
Proof. intros J U f n HJ N. apply good_known. unfold csv2_get_txt. replace false with (n =? -1) by lia. apply string_good, HJ. Qed.
Theorem C49_any_raw : forall J U f, junk_ok J -> only_known_faults true (csv2_get_raw J U f).
Proof. intros J U f HJ. apply good_known. exact (string_good J U f (-1) 0 HJ). Qed.

(** What is accepted from a file without characters above 127 is a list of character strings of at
    most 255 octets each, of the number that is demanded. *)
Theorem C49_accepted : forall J U f n s g, junk_ok J -> n <> -1 -> Forall (fun b => b < 128) (f_rest f) -> csv2_get_txt J U f n = Ok (Some s, g) ->
  exists cs, holding s (strings cs) /\ Forall (fun l => zlen l <= 255) cs /\ cs <> [] /\ (0 < n -> zlen cs = n).
Proof. intros J U f n s g HJ N A E. destruct (acc_string J U f n 0 HJ N A _ E) as (cs & H & X). exists cs. split; [exact (proj1 H)|exact X]. Qed.

(** ** Examples *)
(** A file where tildes end records, after " txt". *)
Definition tfile (l : list Z) : csv2 := mkcsv2 l 32 0 true true false 0 103.
Definition octets_of (r : res (option js * csv2)) : option (list Z) := match r with Ok (Some s, _) => Some (zslice (j_mem s) 0 (j_count s)) | _ => None end.
Definition refused (r : res (option js * csv2)) : Prop := match r with Ok (None, g) => f_ok g = false | _ => False end.
(** v='a ü'\' and, in another line, \303; then '\x7E' in another chunk; then c in a third. *)
Definition ex_c : list folded := [([], Bare 118); ([], Bare 61); ([], Quoted [97; 32; 252]); ([], Tick); ([[32; 10; 9]], Octal 195)].
Definition ex_m : more := [(Blanks [32; 32], [([], Quoted []); ([], Hexa 126 false true)]); (Semicolon, [([], Bare 99)])].
Example C49_record_ex : record_text ex_c ex_m = [118; 61; 39; 97; 32; 195; 188; 39; 92; 39; 92; 32; 10; 9; 92; 51; 48; 51; 32; 32; 39; 39; 92; 120; 55; 69; 59; 99] /\
  chunks_of ex_c ex_m = [[118; 61; 97; 32; 195; 188; 39; 195]; [126]; [99]] /\ record_ok true ex_c ex_m.
Proof.
  split; [reflexivity|]. split; [reflexivity|]. split; [discriminate|]. split.
  - unfold ex_c. repeat apply Forall_cons; [| | | | |constructor]; (split; [cbn [fst]; repeat apply Forall_cons; try constructor; try discriminate; repeat apply Forall_cons; unfold blank; cbn [In]; auto|cbn [snd part_ok]; unfold bare; cbn [In]; try lia; auto]).
    repeat apply Forall_cons; [| | |constructor]; (split; [lia|]; split; [unfold kept; lia|]; split; [cbn [In]; lia|]; intros _; split; [lia|cbn [In]; lia]).
  - unfold ex_m. repeat apply Forall_cons; [| |constructor]; cbn [fst snd]; split; try exact Logic.I.
    + repeat apply Forall_cons; [| |constructor]; (split; [constructor|cbn [snd part_ok]; try constructor; lia]).
    + split; [reflexivity|]. split; [discriminate|]. split; [repeat apply Forall_cons; unfold blank; cbn [In]; auto|left; reflexivity].
    + repeat apply Forall_cons; [|constructor]; (split; [constructor|cbn [snd part_ok]; unfold bare; lia]).
Qed.
Lemma tfile_sep l : separators (f_just (tfile l) :: [9]). Proof. split; [repeat apply Forall_cons; unfold delimiter; cbn; auto|cbn; lia]. Qed.
Example C49_txt_ex : forall n, n = 0 \/ n = 3 -> exists s g, csv2_get_txt K 5 (tfile ([9] ++ record_text ex_c ex_m ++ [32; 126] ++ [10; 97])) n = Ok (Some s, g) /\
  holding s [8; 118; 61; 97; 32; 195; 188; 39; 195; 1; 126; 1; 99] /\ reading g [10; 97].
Proof.
  intros n N. destruct (C49_txt K 5 (tfile ([9] ++ record_text ex_c ex_m ++ [32; 126] ++ [10; 97])) n [9] ex_c ex_m [32; 126] [10; 97] K_ok (tfile_sep _) ltac:(cbn; lia)) as (s & g & E & H & R & _).
  - exact (proj2 (proj2 C49_record_ex)).
  - exists [32]. split; [reflexivity|]. constructor; [unfold blank; cbn; auto|constructor].
  - rewrite (proj1 (proj2 C49_record_ex)). repeat apply Forall_cons; [cbn; lia|cbn; lia|cbn; lia|constructor].
  - rewrite (proj1 (proj2 C49_record_ex)). cbn. lia.
  - rewrite (proj1 C49_record_ex). cbn. lia.
  - rewrite (proj1 (proj2 C49_record_ex)). exact N.
  - split; reflexivity.
  - exists s, g. auto.
Qed.
(** Another number of chunks is refused. *)
Example C49_number_ex : refused (csv2_get_txt K 5 (tfile ([9] ++ record_text ex_c ex_m ++ [32; 126] ++ [10; 97])) 2).
Proof. vm_compute. reflexivity. Qed.
Example C49_raw_ex : exists s g, csv2_get_raw K 5 (tfile ([9] ++ chunk_text ex_c ++ 32 :: [126; 10])) = Ok (Some s, g) /\ holding s [118; 61; 97; 32; 195; 188; 39; 195] /\ reading g [126; 10].
Proof.
  destruct (C49_raw K 5 (tfile ([9] ++ chunk_text ex_c ++ 32 :: [126; 10])) [9] ex_c 32 [126; 10] K_ok (tfile_sep _) ltac:(cbn; lia)) as (s & g & E & H & R & _).
  - discriminate.
  - exact (proj1 (proj2 (proj2 (proj2 C49_record_ex)))).
  - left. unfold delimiter. lia.
  - cbn. lia.
  - cbn. lia.
  - cbn. lia.
  - split; reflexivity.
  - exists s, g. auto.
Qed.
(** a'b, an octet above 127, ~, # and an octet zero, as fetchzone writes them *)
Definition ex_l : list Z := [97; 39; 98; 200; 126; 35; 0].
Lemma ex_l_bytes : bytes ex_l. Proof. repeat apply Forall_cons; try (unfold byte; lia). constructor. Qed.
Example C49_fetched_ex : escape_stdout_csv2 ex_l = [39; 97; 39; 92; 39; 39; 98; 39; 92; 120; 99; 56; 92; 120; 55; 101; 92; 120; 50; 51; 92; 120; 48; 48] /\
  (exists s g, csv2_get_txt K 5 (tfile ([9] ++ escape_stdout_csv2 ex_l ++ [32; 126] ++ [10])) 0 = Ok (Some s, g) /\ holding s (7 :: ex_l) /\ reading g [10]) /\
  (exists s g, csv2_get_raw K 5 (tfile ([9] ++ escape_stdout_csv2 ex_l ++ [32; 126] ++ [10])) = Ok (Some s, g) /\ holding s ex_l).
Proof.
  split; [reflexivity|]. split.
  - destruct (C49_fetched_txt K 5 (tfile ([9] ++ escape_stdout_csv2 ex_l ++ [32; 126] ++ [10])) [9] ex_l [10] K_ok (tfile_sep _) ltac:(cbn; lia) eq_refl ex_l_bytes ltac:(discriminate) ltac:(cbn; lia) (conj eq_refl eq_refl)) as (s & g & E & H & R & _). exists s, g. auto.
  - destruct (C49_fetched_raw K 5 (tfile ([9] ++ escape_stdout_csv2 ex_l ++ [32; 126] ++ [10])) [9] ex_l [10] K_ok (tfile_sep _) ltac:(cbn; lia) eq_refl ex_l_bytes ltac:(discriminate) ltac:(cbn; lia) ltac:(cbn; lia) (conj eq_refl eq_refl)) as (s & g & E & H & _). exists s, g. auto.
Qed.
(** A quote that is not closed; a file with a character above 127 where none may be. *)
Example C49_any_ex : only_known_faults false (csv2_get_txt K 5 (file [39; 97; 10]) 0) /\ refused (csv2_get_txt K 5 (file [39; 97; 10]) 0) /\ only_known_faults true (csv2_get_raw K 5 (file [97; 195; 188; 10])) /\ refused (csv2_get_raw K 5 (file [97; 195; 188; 10])).
Proof. split; [apply C49_any_txt; [exact K_ok|lia]|]. split; [vm_compute; reflexivity|]. split; [apply C49_any_raw, K_ok|vm_compute; reflexivity]. Qed.
Example C49_accepted_ex : exists s g, csv2_get_txt K 5 (file [97; 59; 59; 98; 10]) 3 = Ok (Some s, g) /\ octets_of (csv2_get_txt K 5 (file [97; 59; 59; 98; 10]) 3) = Some (strings [[97]; []; [98]]).
Proof. vm_compute. eexists _, _. split; reflexivity. Qed.

(** ** What does not hold *)
(** Characters from 2048 to 4095 and from 65536 to 262143 are written with one octet less than is
    counted (U+0E01 and U+1F600): the length of the chunk is wrong. *)
Lemma not_strings n l : zlen l < n -> forall cs, n :: l <> strings cs.
Proof. intros L [|c cs] E; [discriminate|]. unfold strings in E. cbn [map concat character_string app] in E. injection E as -> E. rewrite E, zlen_app in L. pose proof (zlen_nonneg (concat (map character_string cs))). lia. Qed.
Theorem C49_accepted_refuted :
  octets_of (csv2_get_txt K 5 (file [39; 224; 184; 129; 39; 10]) 0) = Some [3; 248; 129] /\ (forall cs, [3; 248; 129] <> strings cs) /\
  octets_of (csv2_get_txt K 5 (file [39; 240; 159; 152; 128; 39; 10]) 0) = Some [4; 255; 152; 128] /\ (forall cs, [4; 255; 152; 128] <> strings cs).
Proof. split; [vm_compute; reflexivity|]. split; [apply not_strings; cbn; lia|]. split; [vm_compute; reflexivity|apply not_strings; cbn; lia]. Qed.
(** 511-514: if the string is full after a backslash and a blank it is freed twice. *)
Theorem C49_freed_twice_refuted : forall J U f sep rest, junk_ok J -> separators (f_just f :: sep) -> zlen sep < 10000 ->
  reading f (sep ++ 39 :: repeat 97 (Z.to_nat 1511) ++ [39; 92; 32; 98; 92; 32; 98] ++ rest) -> csv2_get_txt J U f 0 = Bad UseAfterFree.
Proof.
  intros J U f sep rest HJ SS LS R. apply (freed_twice J U f sep (repeat 97 (Z.to_nat 1511)) rest HJ SS LS); [| | |exact R].
  - apply Forall_forall. intros x I. apply repeat_spec in I as ->. split; [lia|]. split; [unfold kept; lia|]. split; [cbn [In]; lia|]. intros _. split; [lia|cbn [In]; lia].
  - apply Forall_forall. intros x I. apply repeat_spec in I as ->. lia.
  - unfold zlen. rewrite repeat_length. lia.
Qed.
Example C49_freed_twice_ex : csv2_get_txt K 5 (tfile ([9] ++ 39 :: repeat 97 (Z.to_nat 1511) ++ [39; 92; 32; 98; 92; 32; 98] ++ [32; 126; 10])) 0 = Bad UseAfterFree.
Proof. apply (C49_freed_twice_refuted K 5 _ [9] [32; 126; 10] K_ok (tfile_sep _)); [cbn; lia|split; reflexivity]. Qed.
(** RAW: the length that is never set may become too large. *)
Theorem C49_raw_refuted : csv2_get_raw K 2147483647 (file [97; 10]) = Bad SignedOverflow.
Proof. vm_compute. reflexivity. Qed.
(** Characters from 2097152 on end the program. *)
Theorem C49_exit_refuted : csv2_get_txt K 5 (file [39; 248; 136; 128; 128; 128; 39; 10]) 0 = Fail.
Proof. vm_compute. reflexivity. Qed.
(** Empty strings and empty data are written by fetchzone in a way that cannot be read. *)
Theorem C49_fetched_empty_refuted : refused (csv2_get_txt K 5 (tfile (escape_stdout_csv2 [] ++ [32; 126] ++ [10])) 0) /\ refused (csv2_get_raw K 5 (tfile (escape_stdout_csv2 [] ++ [32; 126] ++ [10]))).
Proof. split; vm_compute; reflexivity. Qed.

Print Assumptions C49_txt.
Print Assumptions C49_raw.
Print Assumptions C49_fetched_txt.
Print Assumptions C49_fetched_raw.
Print Assumptions C49_any_txt.
Print Assumptions C49_any_raw.
Print Assumptions C49_accepted.
Print Assumptions C49_accepted_refuted.
Print Assumptions C49_freed_twice_refuted.
Print Assumptions C49_raw_refuted.
Print Assumptions C49_exit_refuted.
Print Assumptions C49_fetched_empty_refuted.
