(** C04, C05: the cache file of Deadwood. *)
From Verif Require Import CBase ModelDwHash ModelDwHashFile SpecCache SpecCacheRun SpecCacheFile ProofDwHashFile.

(** *** C04 *)

(** After any history the ordinary entries are written, and reading the file gives a
    cache that answers every later history as a cache holding exactly these entries, in
    the same order of use, would.  Writer and reader may use different hash functions
    (the hash is keyed anew in every process).

    Partial: the reader leaves the field [immutable] of each element as malloc returned
    it; this is the case that it returned zeros there ([fun _ => 0]).  See
    [C04_uninitialised_flag_refuted] for the other case. *)
Theorem C04_cache_file_round_trip_partial :
  forall H H' : list Z -> Z, (forall k, 0 <= H k) -> (forall k, 0 <= H' k) ->
  forall cache_size elements ops, cache_size < 2 ^ 31 ->
  let h0 := dwh_hash_init cache_size elements in
  let c0 := empty_cache (init_elements cache_size elements) in
  let stored := recent (snd (c_run c0 ops)) in
  let c' := mkcache stored [] (read_max cache_size) in
  let mask' := h_mask (dwh_hash_init cache_size (read_max cache_size)) in
  good_history (fun k => Z.land (H k) (h_mask h0)) c0 ops ->
  Forall storable_entry stored -> zlen stored < read_max cache_size ->
  uncrowded (fun k => Z.land (H' k) mask') c' ->
  exists outs h file, hrun H h0 ops = Ok (outs, h) /\ dwh_write_hash h = Ok file /\
  forall jfila, exists h', dwh_read_hash H' jfila (fun _ => 0) cache_size file = Ok h' /\
  forall later, good_history (fun k => Z.land (H' k) mask') c' later ->
  exists h'', hrun H' h' later = Ok (fst (c_run c' later), h'').
Proof. exact C04_round_trip. Qed.
Print Assumptions C04_cache_file_round_trip_partial.

(** If malloc returns memory with other contents, an entry read from the file can never
    be replaced: the store of a new value for the key fails and the lookup goes on
    returning the old value. *)
Theorem C04_uninitialised_flag_refuted :
  exists ops outs h file h' h'',
    hrun (fun _ => 0) (dwh_hash_init 40 0) ops = Ok (outs, h) /\ dwh_write_hash h = Ok file /\
    dwh_read_hash (fun _ => 0) (fun _ => 0) (fun _ => 1) 40 file = Ok h' /\
    hrun (fun _ => 0) h' [(2, OpAdd [1] [20] 60); (3, OpGet [1] 0)] = Ok ([OutCode (-1); OutVal (Some [10])], h'').
Proof.
  exists [(1, OpAdd [1] [10] 60)].
  destruct (hrun (fun _ => 0) (dwh_hash_init 40 0) [(1, OpAdd [1] [10] 60)]) as [[outs h]| |] eqn:E; [|exfalso; vm_compute in E; discriminate E..].
  exists outs, h.
  assert (dwh_write_hash h = Ok [0; 68; 87; 51; 0; 0; 0; 0; 0; 0; 0; 1; 1; 0; 0; 0; 1; 10; 0; 0; 0; 0; 0; 0; 60; 1]) as W.
  { assert (match hrun (fun _ => 0) (dwh_hash_init 40 0) [(1, OpAdd [1] [10] 60)] with Ok (_, h) => dwh_write_hash h | _ => Fail end
            = Ok [0; 68; 87; 51; 0; 0; 0; 0; 0; 0; 0; 1; 1; 0; 0; 0; 1; 10; 0; 0; 0; 0; 0; 0; 60; 1]) as W by (vm_compute; reflexivity).
    rewrite E in W. exact W. }
  eexists. destruct (dwh_read_hash (fun _ => 0) (fun _ => 0) (fun _ => 1) 40
      [0; 68; 87; 51; 0; 0; 0; 0; 0; 0; 0; 1; 1; 0; 0; 0; 1; 10; 0; 0; 0; 0; 0; 0; 60; 1]) as [h'| |] eqn:Rd; [|exfalso; vm_compute in Rd; discriminate Rd..].
  exists h'.
  assert (match dwh_read_hash (fun _ => 0) (fun _ => 0) (fun _ => 1) 40
      [0; 68; 87; 51; 0; 0; 0; 0; 0; 0; 0; 1; 1; 0; 0; 0; 1; 10; 0; 0; 0; 0; 0; 0; 60; 1] with
      Ok h' => match hrun (fun _ => 0) h' [(2, OpAdd [1] [20] 60); (3, OpGet [1] 0)] with Ok (o, _) => Some o | _ => None end | _ => None end
      = Some [OutCode (-1); OutVal (Some [10])]) as Hr by (vm_compute; reflexivity).
  rewrite Rd in Hr. destruct (hrun (fun _ => 0) h' [(2, OpAdd [1] [20] 60); (3, OpGet [1] 0)]) as [[o h'']| |] eqn:E2; [|discriminate..].
  injection Hr as Hr. exists h''. split; [reflexivity|]. split; [exact W|]. split; [exact Rd|]. rewrite <- Hr. reflexivity.
Qed.
Print Assumptions C04_uninitialised_flag_refuted.

(** *** C05 *)

(** Any file at all is either rejected or read into a sound cache that answers every
    later history as the specification says; nothing else can happen unless the bytes
    7f ff ff ff occur in it.  (A file has at least the entries read before its first
    defect.)

    Partial: as in C04 the uninitialised flag is taken as zero, and the table is taken to
    be small enough (32000) for no bucket to be crowded. *)
Theorem C05_reader_total_partial :
  forall H : list Z -> Z, (forall k, 0 <= H k) ->
  forall cache_size jfila file, cache_size < 2 ^ 31 -> read_max cache_size <= 32000 -> bytes file ->
  match dwh_read_hash H jfila (fun _ => 0) cache_size file with
  | Ok h => exists stored, zlen stored < read_max cache_size /\
      NoDup (map c_key stored) /\ Forall sound_entry stored /\
      forall later, allowed_history (mkcache stored [] (read_max cache_size)) later ->
        read_max cache_size + perm_adds later <= 32000 ->
        exists h', hrun H h later = Ok (fst (c_run (mkcache stored [] (read_max cache_size)) later), h')
  | Fail => True
  | Bad e => e = SignedOverflow /\ contains_max file
  end.
Proof. exact C05_any_file. Qed.
Print Assumptions C05_reader_total_partial.

(** A length field of 7f ff ff ff makes the reader overflow a signed integer. *)
Theorem C05_length_overflow_refuted :
  exists file, bytes file /\
    forall H jfila jimm, dwh_read_hash H jfila jimm 40 file = Bad SignedOverflow.
Proof.
  exists [0; 68; 87; 51; 0; 0; 0; 0; 127; 255; 255; 255]. split.
  - unfold bytes, byte. repeat (constructor; [lia|]). constructor.
  - intros. vm_compute. reflexivity.
Qed.
Print Assumptions C05_length_overflow_refuted.

(** *** The hypotheses are met *)
Definition file_example : list (Z * hop) :=
  [(1000, OpAdd [1; 2] [10] 60); (1001, OpAdd [2] [20; 255; 0] 600); (1002, OpAdd [3] [30] 60); (1003, OpGet [1; 2] 0)].
Example C04_hypotheses_met :
  let stored := recent (snd (c_run (empty_cache (init_elements 40 0)) file_example)) in
  allowed_history (empty_cache (init_elements 40 0)) file_example /\
  map c_key stored = [[1; 2]; [3]; [2]] /\ Forall storable_entry stored /\ zlen stored < read_max 40.
Proof.
  cbn zeta. split; [cbn; repeat split; lia|]. split; [vm_compute; reflexivity|].
  replace (recent (snd (c_run (empty_cache (init_elements 40 0)) file_example)))
    with [mkentry [1; 2] [10] 16360; mkentry [3] [30] 16362; mkentry [2] [20; 255; 0] 154601] by (vm_compute; reflexivity).
  split; [|vm_compute; reflexivity].
  repeat (constructor; [unfold storable_entry; cbn [c_key c_val c_exp]; (split; [apply bytesb_spec; reflexivity|]); (split; [apply bytesb_spec; reflexivity|]); vm_compute; intuition congruence|]). constructor.
Qed.
(** A damaged file: two good entries, then an element cut off. *)
Example C05_damaged_file :
  match dwh_read_hash (fun _ => 0) (fun _ => 5) (fun _ => 0) 40
    [0; 68; 87; 51; 9; 9; 9; 9;
     0; 0; 0; 1; 7; 0; 0; 0; 1; 70; 0; 0; 0; 0; 0; 0; 60; 1;
     0; 0; 0; 1; 8; 0; 0; 0; 1; 80; 0; 0; 0; 0; 0; 0; 60; 1;
     0; 0; 0; 200; 8; 0; 0] with
  | Ok h => match hrun (fun _ => 0) h [(1, OpGet [7] 0); (1, OpGet [8] 0); (1, OpGet [9] 0)] with
            | Ok (o, _) => Some o | _ => None end
  | _ => None end = Some [OutVal (Some [70]); OutVal (Some [80]); OutVal None].
Proof. vm_compute. reflexivity. Qed.
