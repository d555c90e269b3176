(** What MaraDNS' lists of networks mean.  Nothing here depends on the model, but for the aliases,
    whose texts are strings of JsStr. *)
From Verif Require Import CBase ModelDwStr ModelJsStr SpecJsStr.

(** A number in decimal: one digit or more. *)
Definition number_text (d : list Z) (n : Z) : Prop :=
  d <> [] /\ Forall (fun b => 48 <= b <= 57) d /\ fold_left (fun v b => v * 10 + (b - 48)) d 0 = n.
(** Four numbers up to 255 with dots between them. *)
Inductive quad_text : list Z -> Z -> Prop :=
| quad a b c d na nb nc nd : number_text a na -> number_text b nb -> number_text c nc -> number_text d nd ->
    na <= 255 -> nb <= 255 -> nc <= 255 -> nd <= 255 ->
    quad_text (a ++ 46 :: b ++ 46 :: c ++ 46 :: d) (na * 2 ^ 24 + nb * 2 ^ 16 + nc * 2 ^ 8 + nd).
(** The three forms of an entry, its address and its mask. *)
Inductive entry_text : list Z -> Z -> Z -> Prop :=
| e_host t ip : quad_text t ip -> entry_text t ip (2 ^ 32 - 1)
| e_prefix t ip d n : quad_text t ip -> number_text d n -> n <= 32 -> entry_text (t ++ 47 :: d) ip (2 ^ 32 - 2 ^ (32 - n))
| e_mask t ip m mask : quad_text t ip -> quad_text m mask -> entry_text (t ++ 47 :: m) ip mask.

(** A list: items with commas between them, and spaces around them.  An item is the name of an alias
    for another list, or an entry.  [d]: how many aliases may stand for one another. *)
Definition spaces (n : nat) : list Z := repeat 32 n.
Definition visible (b : Z) : Prop := b <> 32 /\ b <> 9.
Definition core_ok (t : list Z) : Prop :=
  (exists b r, t = b :: r /\ visible b) /\ (exists b r, t = r ++ [b] /\ visible b) /\ Forall (fun b => b <> 44) t /\ zlen t < 256.

Section Lists.
Variable alias : list Z -> option js.
Inductive item_means : nat -> list Z -> list (Z * Z) -> Prop :=
| it_entry d t ip mask : alias t = None -> entry_text t ip mask -> item_means d t [(ip, mask)]
| it_alias d t v es : alias t = Some v -> list_means d (octets_of v) es -> item_means (S d) t es
with list_means : nat -> list Z -> list (Z * Z) -> Prop :=
| l_last d a t b es : core_ok t -> item_means d t es -> list_means d (spaces a ++ t ++ spaces b) es
| l_more d a t b es r es' : core_ok t -> item_means d t es -> list_means d r es' -> list_means d (spaces a ++ t ++ spaces b ++ 44 :: r) (es ++ es').
End Lists.

(** Texts of aliases are shorter than 512 octets. *)
Definition aliases_ok (alias : list Z -> option js) : Prop :=
  forall k v, alias k = Some v -> j_wf v /\ j_size v = 1 /\ zlen (octets_of v) < 512.

(** An address is permitted by an entry that agrees with it in the bits of the mask. *)
Definition permits (es : list (Z * Z)) (ip : Z) : Prop := exists a m, In (a, m) es /\ Z.land ip m = Z.land a m.

(** Ten digits never stand in a row. *)
Definition digit_at (t : list Z) (i : Z) : Prop := exists b, zget t i = Some b /\ 48 <= b <= 57.
Definition short_numbers (t : list Z) : Prop := forall i, exists k, 0 <= k < 10 /\ ~ digit_at t (i + k).
