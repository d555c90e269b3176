(** Specification for C50: what may happen when any zone file is read. *)
From Verif Require Import CBase ModelDwStr SpecDwStr ModelJsStr SpecJsStr ModelQueries SpecQueries ModelCsv2 ModelCsv2Zone.

(** A string that can be read, or a null pointer. *)
Definition readable (o : option js) : Prop := match o with None => True | Some s => exists x, holding s x end.
(** A result with the property [P], or the program ends, or one of two faults: a string is freed twice
    (C49_freed_twice_refuted), or a number is too large (C48_overflow_refuted). *)
Definition otherwise_known {A} (P : A -> Prop) (r : res A) : Prop :=
  (exists x, r = Ok x /\ P x) \/ r = Fail \/ r = Bad UseAfterFree \/ r = Bad SignedOverflow.
(** The origin and the origins put aside can be read. *)
Definition origins_readable (st : zst) : Prop := Forall (fun s => exists x, holding s x) (z_origin st :: z_stack st).
(** The parts that are not modelled: /read gives no more than what was left (as when it is refused), and
    the data of other types are strings that can be read. *)
Definition gives_no_more (R : csv2 -> csv2) : Prop := forall f, (length (f_rest (R f)) <= length (f_rest f))%nat.
Definition others_keep_to_memory (O : Z -> zst -> csv2 -> res (option js * csv2)) : Prop :=
  forall t st f, origins_readable st -> otherwise_known (fun p => readable (fst p)) (O t st f).
