(** RadioGatun[32] (Bertoni, Daemen, Peeters, Van Assche, 2006), written from its definition:
    the belt has 13 stages of 3 words, the mill 19 words. *)
From Verif Require Import CBase.

Record rgstate := mkst { mill : Z -> Z; belt : Z -> Z -> Z }.   (* belt: stage, row *)

Definition words : Z := 2 ^ 32.
Definition complement (x : Z) : Z := words - 1 - x.
(** Cyclic shift to the right. *)
Definition rotation (x r : Z) : Z := let r := r mod 32 in x / 2 ^ r + (x mod 2 ^ r) * 2 ^ (32 - r).

(** The mill function: gamma, pi, theta and iota. *)
Definition gamma (a : Z -> Z) (i : Z) : Z := Z.lxor (a i) (Z.lor (a ((i + 1) mod 19)) (complement (a ((i + 2) mod 19)))).
Definition pi (a : Z -> Z) (i : Z) : Z := rotation (a ((7 * i) mod 19)) (i * (i + 1) / 2).
Definition theta (a : Z -> Z) (i : Z) : Z := Z.lxor (Z.lxor (a i) (a ((i + 1) mod 19))) (a ((i + 4) mod 19)).
Definition iota (a : Z -> Z) (i : Z) : Z := if i =? 0 then Z.lxor (a i) 1 else a i.
(** A round: the belt goes on by one stage; words 1 to 12 of the mill go to the belt, word i + 1
    to stage i + 1, row i mod 3; the mill function; the last stage goes to words 13 to 15 of the mill. *)
Definition round (s : rgstate) : rgstate :=
  mkst
    (fun i => let m := iota (theta (pi (gamma (mill s)))) i in if (13 <=? i) && (i <=? 15) then Z.lxor m (belt s 12 (i - 13)) else m)
    (fun j r => let b := belt s ((j - 1) mod 13) r in if (1 <=? j) && (j <=? 12) && (r =? (j - 1) mod 3) then Z.lxor b (mill s j) else b).
Definition blank : rgstate := mkst (fun _ => 0) (fun _ _ => 0).
(** A block of three words goes to stage 0 of the belt and to words 16 to 18 of the mill. *)
Definition input (p : Z -> Z) (s : rgstate) : rgstate :=
  mkst (fun i => if (16 <=? i) && (i <=? 18) then Z.lxor (mill s i) (p (i - 16)) else mill s i)
       (fun j r => if j =? 0 then Z.lxor (belt s j r) (p r) else belt s j r).

(** The key is padded with an octet 1 and octets 0 to whole blocks of 12 octets, the words of
    which are little-endian. *)
Definition octet_at (key : list Z) (i : Z) : Z := if i =? zlen key then 1 else match zget key i with Some b => b | None => 0 end.
Definition word_at (key : list Z) (i : Z) : Z := octet_at key (4 * i) + 256 * octet_at key (4 * i + 1) + 65536 * octet_at key (4 * i + 2) + 16777216 * octet_at key (4 * i + 3).
Fixpoint absorbed (key : list Z) (blocks : nat) : rgstate :=
  match blocks with O => blank | S k => round (input (fun r => word_at key (3 * Z.of_nat k + r)) (absorbed key k)) end.
Fixpoint rounds (n : nat) (s : rgstate) : rgstate := match n with O => s | S n => round (rounds n s) end.
(** All blocks, then 16 rounds without input. *)
Definition keyed (key : list Z) : rgstate := rounds 16 (absorbed key (Z.to_nat (zlen key / 12 + 1))).
(** The output: words 1 and 2 of the mill after each further round, little-endian. *)
Definition output_word (key : list Z) (k : Z) : Z := mill (rounds (Z.to_nat (k / 2 + 1)) (keyed key)) (1 + k mod 2).
Definition output_octet (key : list Z) (k : Z) : Z := output_word key (k / 4) / 256 ^ (k mod 4) mod 256.
