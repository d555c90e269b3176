(** C24: the random numbers are those of RadioGatun[32]. *)
From Verif Require Import CBase Bits SpecDwStr ModelDwStr ProofDwStr ModelDwRadioGatun SpecRadioGatun ProofDwRadioGatun.

(** For every key and every count, the numbers drawn are the octets of the output of
    RadioGatun[32], two at a time; there is always a generator, no access is outside an object,
    and what the arrays hold at first does not matter.  ([strict]: as the C standard has it, a
    shift into the sign is undefined; then the fourth octets of words must be below 128.) *)
Theorem C24_stream :
  forall strict J obj, dok obj -> (strict = true -> forall i b, i mod 4 = 3 -> zget (con obj) i = Some b -> b < 128) ->
  exists g, dwr_init_rg strict J obj = Ok (Some g) /\
    forall J' n, exists g', draws J' n g = Ok (map (fun k => let d := Z.of_nat k in output_octet (con obj) (2 * d) * 256 + output_octet (con obj) (2 * d + 1)) (seq 0 n), g').
Proof.
  intros strict J obj HD HS. destruct (init_ok strict J obj HD HS) as (a & b & E & HR). exists (mkrg a b 0). split; [exact E|]. intros J' n.
  destruct (draws_ok J' (con obj) n (key_bytes obj HD) 0 (mkrg a b 0)) as (g' & E' & _); [|exists g'; exact E']. split; [cbn; lia|]. split; [reflexivity|exact HR].
Qed.
Print Assumptions C24_stream.
(** Each of them is between 0 and 65535. *)
Theorem C24_range :
  forall strict J obj n g l g', dwr_init_rg strict J obj = Ok (Some g) -> draws J n g = Ok (l, g') -> Forall (fun x => 0 <= x < 65536) l.
Proof.
  intros strict J obj n g l g' _. revert g l g'. induction n as [|n IH]; intros g l g' H; cbn [draws] in H.
  - injection H as <- _. constructor.
  - destruct (dwr_rng J g) as [(x, g1)| |] eqn:E1; cbn [bind] in H; try discriminate. destruct (draws J n g1) as [(l1, g2)| |] eqn:E2; cbn [bind] in H; try discriminate. injection H as <- _. constructor; [|exact (IH g1 l1 g2 E2)].
    assert (forall z, 0 <= u16 z < 65536) as K by (intros z; unfold u16; lia). unfold dwr_rng in E1. cbv zeta in E1.
    repeat match type of E1 with
    | (if ?c then _ else _) = _ => destruct c
    | (_ <- ?m ;; _) = _ => destruct m as [?| |]; cbn [bind] in E1; try discriminate
    | (let '(_, _) := ?p in _) = _ => destruct p
    end; injection E1 as <- _; try apply K; lia.
Qed.
Print Assumptions C24_range.
(** On machines where shifting into the sign is not what one expects, keys with a high octet
    would be a problem: the standard does not define it. *)
Theorem C24_shift_refuted : exists J obj, dok obj /\ dwr_init_rg true J obj = Bad SignedOverflow.
Proof.
  exists (fun _ => 0), (mkdw [0; 0; 0; 200; 0; 0; 0] 4 5). split; [|vm_compute; reflexivity]. split; [|vm_compute; reflexivity].
  constructor; cbn [d_mem d_len d_max]; [apply bytesb_spec; reflexivity|lia|lia|vm_compute; congruence].
Qed.
Print Assumptions C24_shift_refuted.

(** The published test vectors: the hash of the empty string and of a sentence. *)
Definition test_key (l : list Z) : dwstr := mkdw (l ++ [9; 9; 9]) (zlen l) (zlen l + 1).
Example C24_case : dok (test_key []) /\ dok (test_key [97]) /\ forall i b, i mod 4 = 3 -> zget (con (test_key [97])) i = Some b -> b < 128.
Proof.
  split; [|split].
  - split; [constructor; cbn; try lia; apply bytesb_spec; reflexivity|cbn; lia].
  - split; [constructor; cbn; try lia; apply bytesb_spec; reflexivity|cbn; lia].
  - intros i b _ H. change (con (test_key [97])) with [97] in H. destruct (Z.eq_dec i 0) as [->|N]; [injection H as <-; lia|]. exfalso. apply zget_range in H. change (zlen [97]) with 1 in H. lia.
Qed.
Definition fox : list Z := [84; 104; 101; 32; 113; 117; 105; 99; 107; 32; 98; 114; 111; 119; 110; 32; 102; 111; 120; 32; 106; 117; 109; 112; 115; 32; 111; 118; 101; 114; 32; 116; 104; 101; 32; 108; 97; 122; 121; 32; 100; 111; 103].
Definition hash (key : list Z) : list Z :=
  match dwr_init_rg true (fun i => i) (test_key key) with Ok (Some g) => match draws (fun i => i) 16 g with Ok (l, _) => l | _ => [] end | _ => [] end.
Example C24_vectors :
  hash [] = [62208; 10421; 19194; 46771; 58707; 21970; 30577; 4361; 41371; 60839; 2320; 26601; 42130; 64350; 55794; 279] /\
  hash fox = [6421; 35072; 24556; 7978; 9359; 38561; 28309; 21439; 14544; 44769; 25743; 64003; 26197; 52777; 49890; 10670].
Proof. split; vm_compute; reflexivity. Qed.
