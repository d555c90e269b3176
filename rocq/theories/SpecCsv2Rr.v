(** What numbers, types of records and the data of MX and SRV records in a zone file mean. *)
From Coq Require Import String Ascii.
From Verif Require Import CBase SpecCsv2.
Local Open Scope string_scope.
Local Open Scope list_scope.
Local Open Scope Z_scope.

(** ** Numbers: in decimal, up to 2^31 - 1; zero is one digit *)
Definition number_field (d : list Z) (v : Z) : Prop :=
  digits d /\ decimal_of d = v /\ v < 2147483648 /\ (v = 0 -> d = [48]) /\ zlen d <= 256.

(** ** Types of records: the names and numbers of RFC 1035 and the RFCs after it *)
Fixpoint octets (s : string) : list Z := match s with EmptyString => [] | String a s => Z.of_N (N_of_ascii a) :: octets s end.
Definition types : list (string * Z) := [
  ("A", 1); ("NS", 2); ("MD", 3); ("MF", 4); ("CNAME", 5); ("SOA", 6); ("MB", 7); ("MG", 8); ("MR", 9); ("WKS", 11); ("PTR", 12); ("HINFO", 13);
  ("MINFO", 14); ("MX", 15); ("TXT", 16); ("RP", 17); ("AFSDB", 18); ("X25", 19); ("ISDN", 20); ("RT", 21); ("NSAP", 22); ("NSAP-PTR", 23); ("PX", 26);
  ("GPOS", 27); ("AAAA", 28); ("LOC", 29); ("SRV", 33); ("NAPTR", 35); ("SPF", 99)].
(** Words with a meaning of their own: the class, types by number, and addresses with a PTR record. *)
Definition words : list string := ["IN"; "RAW"; "FQDN4"; "FQDN6"].
(** The same but for the case of letters. *)
Definition upper (c : Z) : Z := if (97 <=? c) && (c <=? 122) then c - 32 else c.
Definition same_word (t : list Z) (s : string) : Prop := map upper t = octets s.
(** A word begins with a letter; letters, digits, hyphens and underscores follow. *)
Definition letter (c : Z) : Prop := 65 <= c <= 90 \/ 97 <= c <= 122.
Definition word (t : list Z) : Prop :=
  match t with [] => False | c :: t => letter c /\ Forall (fun c => letter c \/ 48 <= c <= 57 \/ c = 45 \/ c = 95) t end /\ zlen t <= 256.
(** A number in two octets. *)
Definition two (v : Z) : list Z := [v / 256; v mod 256].
(** The class, which may stand before the type, any number of times: a word, a delimiter and further separators. *)
Definition class_text (c : list Z * Z * list Z) : list Z := let '(w, d, s) := c in w ++ d :: s.
Definition class_ok (c : list Z * Z * list Z) : Prop := let '(w, d, s) := c in same_word w "IN" /\ separators (d :: s) /\ zlen s < 10000.
