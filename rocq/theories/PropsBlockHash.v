(** C13, C14: Deadwood's block list (DwBlockHash.c, blockHashMake.c and its use in
    DwUdpSocket.c).  Statements only; proofs are in ProofBlockHash*.v. *)
From Verif Require Import CBase SpecNames SpecBlockHash ModelBlockHash
  ProofBlockHashRead ProofBlockHashMake ProofBlockHashWild.

(** C13.  Compile any source file whose lines are comments or host names ended by a
    newline, load the result, and look names up: exactly the listed names are found,
    and a query is blocked exactly when the name or one of its parents of one to
    three labels is listed.  [junk] is the uninitialised memory malloc returns. *)
Theorem C13_blocklist_exact : forall f k1 k2 nb junk,
  Forall bl_line_ok f -> bl_names f <> [] ->
  0 <= k1 < 4294967296 -> 0 <= k2 < 4294967296 ->
  (forall n, 0 <= n -> zlen (junk n) = n) ->
  bl_size nb f <= 2147479552 ->
  exists file b,
    block_hash_make (bl_text f) k1 k2 nb junk = Ok file /\
    dbh_make_block_hash file = Ok b /\
    (forall q, zlen q <= 65280 ->
      exists r, dbh_has_string b q = Ok r /\
        (r = 1 <-> In q (bl_names f)) /\ (r = 0 <-> ~ In q (bl_names f))) /\
    (forall n t1 t2, good_name n -> zlen (wire n) <= 255 ->
      exists r, in_blocked_hosts b (wire n ++ [t1; t2]) = Ok r /\
        (r = true <-> bl_blocks (bl_names f) n)).
Proof. exact blocklist_exact. Qed.
Print Assumptions C13_blocklist_exact.

(** The hypotheses are met by: "# ads", "Ads.Example.COM", "tracker.net." and the
    duplicate "ads.example.com" with CR LF. *)
Definition ex_list : list bl_line :=
  [ BLComment [32; 97; 100; 115];
    BLName [[65;100;115]; [69;120;97;109;112;108;101]; [67;79;77]] Eol_nl;
    BLName [[116;114;97;99;107;101;114]; [110;101;116]] Eol_dot_nl;
    BLName [[97;100;115]; [101;120;97;109;112;108;101]; [99;111;109]] Eol_cr_nl ].
Definition ex_junk (n : Z) : list Z := repeat 170 (Z.to_nat n).
Definition ok_of {A} (d : A) (r : res A) : A := match r with Ok a => a | _ => d end.
Definition no_image : blockhash :=
  {| bh_block := []; bh_max := 0; bh_key1 := 0; bh_key2 := 0; bh_size := 0 |}.
Example C13_hypotheses :
  Forall bl_line_ok ex_list /\ bl_names ex_list <> [] /\
  (forall n, 0 <= n -> zlen (ex_junk n) = n) /\ bl_size None ex_list <= 2147479552.
Proof.
  split; [|split; [discriminate|split]].
  - repeat (apply Forall_cons || apply Forall_nil); (split; [vm_compute; discriminate|]);
      [intros [H|[H|[H|[H|[]]]]]; discriminate| | |];
      (split; [discriminate|split; [|vm_compute; discriminate]]);
      repeat (apply Forall_cons || apply Forall_nil);
      (split; [split; vm_compute; discriminate|]);
      repeat (apply Forall_cons || apply Forall_nil); unfold bl_char; lia.
  - intros n Hn. unfold ex_junk, zlen. rewrite repeat_length. lia.
  - vm_compute. discriminate.
Qed.
Example C13_run :
  match block_hash_make (bl_text ex_list) 1 2 None ex_junk with
  | Ok file =>
      match dbh_make_block_hash file with
      | Ok b =>
          in_blocked_hosts b (wire [[120]; [116;114;97;99;107;101;114]; [110;101;116]] ++ [0;1]) = Ok true /\
          in_blocked_hosts b (wire [[110;101;116]] ++ [0;1]) = Ok false
      | _ => False
      end
  | _ => False
  end.
Proof. vm_compute. split; reflexivity. Qed.

(** C13 as the English says it, for "any list of host names", fails for a file whose
    last line has no newline: "a.b" alone is compiled without the root label and the
    query for a.b is not blocked. *)
Theorem C13_last_line_refuted : exists labels file b,
  block_hash_make (dotted labels) 1 2 None ex_junk = Ok file /\
  dbh_make_block_hash file = Ok b /\
  in_blocked_hosts b (wire labels ++ [0; 1]) = Ok false.
Proof.
  exists [[97]; [98]], (ok_of [] (block_hash_make [97; 46; 98] 1 2 None ex_junk)),
    (ok_of no_image (dbh_make_block_hash (ok_of [] (block_hash_make [97; 46; 98] 1 2 None ex_junk)))).
  repeat split; vm_compute; reflexivity.
Qed.
Print Assumptions C13_last_line_refuted.

(** C14.  Loading is safe for every file; once loaded, and unless the file declares
    zero buckets, every lookup ends in "yes", "no" or "error" and never reads outside
    the image. *)
Theorem C14_load_safe : forall file, bytes file -> safe (dbh_make_block_hash file).
Proof. exact make_block_hash_safe. Qed.
Print Assumptions C14_load_safe.

Theorem C14_lookup_safe_partial : forall file b q,
  bytes file -> dbh_make_block_hash file = Ok b -> bh_size b <> 0 ->
  exists r, dbh_has_string b q = Ok r /\ (r = -1 \/ r = 0 \/ r = 1).
Proof. exact load_lookup_safe. Qed.
Print Assumptions C14_lookup_safe_partial.

Theorem C14_query_safe_partial : forall file b query,
  bytes file -> bytes query -> dbh_make_block_hash file = Ok b -> bh_size b <> 0 ->
  safe (in_blocked_hosts b query).
Proof. exact in_blocked_hosts_safe. Qed.
Print Assumptions C14_query_safe_partial.

(** A corrupt image that loads: bucket 0 points past the last string. *)
Example C14_hypotheses :
  let file := [0;68;119;66] ++ repeat 0 8 ++ [0;0;0;1] ++ [0;0;0;20] ++ [3;3;9;9] in
  exists b, dbh_make_block_hash file = Ok b
    /\ bh_size b <> 0 /\ dbh_has_string b [1;97;0] = Ok (-1).
Proof.
  intros file. exists (ok_of no_image (dbh_make_block_hash file)).
  split; [vm_compute; reflexivity|]. split; [vm_compute; discriminate|]. vm_compute. reflexivity.
Qed.

(** What is missing: a file that declares zero buckets is accepted, and then every
    lookup divides by zero.  The compiler itself writes such a file for a list with no
    host name in it. *)
Theorem C14_zero_buckets_refuted : exists file b,
  block_hash_make [35; 10] 1 2 None ex_junk = Ok file /\
  dbh_make_block_hash file = Ok b /\
  forall q, zlen q <= 65280 -> dbh_has_string b q = Bad DivZero.
Proof.
  exists (ok_of [] (block_hash_make [35; 10] 1 2 None ex_junk)),
    (ok_of no_image (dbh_make_block_hash (ok_of [] (block_hash_make [35; 10] 1 2 None ex_junk)))).
  split; [vm_compute; reflexivity|]. split; [vm_compute; reflexivity|].
  intros q Hq. apply has_string_zero_size; [exact Hq|reflexivity].
Qed.
Print Assumptions C14_zero_buckets_refuted.
