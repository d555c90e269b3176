(** C31: the dictionary variables of dwood3rc. *)
From Coq Require Import Permutation.
From Verif Require Import CBase ModelDwHash SpecDict ModelDwDict ProofDwDict.

(** After any history of insertions each lookup returns the value last inserted for its
    key ([d_run]), through all growths of the table, and walking with [dwd_nextkey] visits
    every key exactly once.  The keyed hash is any function to non-negative numbers; the
    hypothesis is the implementation's limit of 10000 elements in one chain. *)
Theorem C31_dictionary :
  forall H : list Z -> Z, (forall k, 0 <= H k) ->
  forall ops : list (Z * dop),
  spread H (h_mask dwd_init) [] (map snd ops) ->
  let '(outs, m) := d_run [] (map snd ops) in
  exists h, drun H dwd_init ops = Ok (outs, h) /\
    (exists keys, Permutation keys (map fst m) /\ walks (dwd_nextkey H h) None keys) /\
    (forall k, ~ In k (map fst m) -> dwd_nextkey H h (Some k) = Ok None).
Proof. intros H Hpos ops HS. destruct (d_run [] (map snd ops)) as [outs m] eqn:E. pose proof (dict_refines H Hpos ops HS) as HR. rewrite E in HR. exact HR. Qed.
Print Assumptions C31_dictionary.

(** With at most 10000 insertions this holds for every hash function, however bad. *)
Theorem C31_dictionary_any_hash :
  forall H : list Z -> Z, (forall k, 0 <= H k) ->
  forall ops : list (Z * dop),
  zlen (filter (fun o => match o with DAdd _ _ => true | _ => false end) (map snd ops)) <= 10000 ->
  let '(outs, m) := d_run [] (map snd ops) in
  exists h, drun H dwd_init ops = Ok (outs, h) /\
    (exists keys, Permutation keys (map fst m) /\ walks (dwd_nextkey H h) None keys).
Proof.
  intros H Hpos ops HL. destruct (d_run [] (map snd ops)) as [outs m] eqn:E.
  destruct (dict_refines H Hpos ops (spread_short H Hpos (map snd ops) (h_mask dwd_init) [] HL)) as (h & E1 & E2 & _). rewrite E in E1, E2. exists h. split; [exact E1|exact E2].
Qed.
Print Assumptions C31_dictionary_any_hash.

(** The specification is a map: each key once, a lookup after an insertion. *)
Theorem C31_spec_is_a_map :
  forall ops, NoDup (map fst (snd (d_run [] ops))) /\
  forall m k v k', d_fetch k' (d_add k v m) = if zlist_eqb k' k then Some v else d_fetch k' m.
Proof. intros ops. split; [apply d_run_keys; constructor|intros m k v k'; apply d_fetch_add]. Qed.
Print Assumptions C31_spec_is_a_map.

(** Five keys, all in one bucket; the table grows twice, one key is overwritten. *)
Definition C31_ops : list (Z * dop) :=
  [(10, DAdd [97] [1]); (11, DAdd [98] [2]); (12, DAdd [99] [3]); (13, DAdd [97] [4]); (14, DAdd [100] [5]);
   (15, DAdd [101] [6]); (16, DAdd [102] [7]); (17, DAdd [103] [8]); (18, DFetch [97]); (19, DFetch [104]); (20, DSize)].
Example C31_hypotheses_met : spread (fun _ => 0) (h_mask dwd_init) [] (map snd C31_ops).
Proof. apply spread_short; [intros; lia|]. vm_compute. discriminate. Qed.
Example C31_concrete :
  match drun (fun _ => 0) dwd_init C31_ops with
  | Ok (outs, h) => outs = [DDone; DDone; DDone; DDone; DDone; DDone; DDone; DDone; DVal (Some [4]); DVal None; DNum 7] /\ h_mask h = 15
  | _ => False
  end.
Proof. vm_compute. split; reflexivity. Qed.
