(** What coLunacyDNS makes of packets: names as the Lua program sees them, queries, replies. *)
From Verif Require Import CBase SpecNames SpecAcl ModelColunacy.

(** ** Names as text: octets other than letters, digits, - and _ in braces, in hexadecimal *)
Definition digits : list Z := [48; 49; 50; 51; 52; 53; 54; 55; 56; 57; 97; 98; 99; 100; 101; 102].
Definition plain_char (c : Z) : Prop := 48 <= c <= 57 \/ 97 <= c <= 122 \/ 65 <= c <= 90 \/ c = 45 \/ c = 95.
Definition char_is (c : Z) (t : list Z) : Prop :=
  (plain_char c /\ t = [c]) \/ (~ plain_char c /\ t = [123; nth (Z.to_nat (c / 16)) digits 0; nth (Z.to_nat (c mod 16)) digits 0; 125]).
(** [t] is the text of the name [n], every label of which has a dot after it. *)
Definition label_is (l t : list Z) : Prop := exists ts, Forall2 char_is l ts /\ t = concat ts ++ [46].
Definition human (n : list (list Z)) (t : list Z) : Prop := exists ts, Forall2 label_is n ts /\ t = concat ts.

(** ** Messages *)
Definition num4 (x : Z) : list Z := num2 (x / 65536) ++ num2 (x mod 65536).
Definition question (n : list (list Z)) (ty cl : Z) : list Z := wire n ++ num2 ty ++ num2 cl.
(** A record of class IN whose name is that of the question. *)
Definition record (ty ttl : Z) (data : list Z) : list Z := [192; 12] ++ num2 ty ++ num2 1 ++ num4 ttl ++ num2 (zlen data) ++ data.
(** A query: one question, nothing in the answer and authority sections; [extra] may follow. *)
Definition asks_one (h : header) : Prop :=
  header_ok h /\ h_qr h = 0 /\ h_qdcount h = 1 /\ h_ancount h = 0 /\ h_nscount h = 0 /\ h_arcount h < 256.
Definition query (h : header) (n : list (list Z)) (ty cl : Z) (extra : list Z) : list Z := header_bytes h ++ question n ty cl ++ extra.
(** A query which has been received whole, and the name of which fits. *)
Definition good_query (h : header) (n : list (list Z)) (ty cl : Z) (extra t : list Z) : Prop :=
  asks_one h /\ n <> [] /\ good_name n /\ word ty /\ word cl /\ bytes extra /\ zlen (query h n ty cl extra) <= 255 /\ human n t /\ zlen t <= 484.
(** The header of its reply. *)
Definition reply_header (h : header) (aa ra rcode ancount : Z) : header :=
  mkheader (h_id h) 1 (h_opcode h) aa (h_tc h) (h_rd h) ra (h_z h) (h_ad h) (h_cd h) rcode 1 ancount 0 0.
Definition flag (b : bool) : Z := if b then 1 else 0.
Definition clamp (ttl : Z) : Z := Z.max 0 (Z.min 7777777 ttl).

(** ** The server: a datagram in, the program's answer, a datagram out *)
Definition exchange (J Jq : Z -> Z) (d : list Z) (s : script) : res (option (list Z)) :=
  r <- serve J Jq d ;;
  match r with Dropped => Ok None | Answered p => Ok (Some p) | Script _ _ m q => endThread m q s end.
Definition script_ok (s : script) : Prop :=
  match s_type s with SA ip => bytes ip /\ zlen ip = 4 | SIp6 ip => bytes ip /\ zlen ip = 16 | _ => True end.

(** ** Replies from upstream *)
(** The name of a record: labels, and the root or a pointer after them. *)
Record rr := mkrr { r_labels : list (list Z); r_pointer : option (Z * Z); r_type : Z; r_class : Z; r_ttl : list Z; r_data : list Z }.
Definition labels (n : list (list Z)) : list Z := concat (map (fun l => zlen l :: l) n).
Definition rr_name (r : rr) : list Z := labels (r_labels r) ++ match r_pointer r with None => [0] | Some (a, b) => [a; b] end.
Definition rr_bytes (r : rr) : list Z := rr_name r ++ num2 (r_type r) ++ num2 (r_class r) ++ r_ttl r ++ num2 (zlen (r_data r)) ++ r_data r.
Definition rr_ok (r : rr) : Prop :=
  good_name (r_labels r) /\ (exists t, human (r_labels r) t /\ zlen t <= 44) /\
  match r_pointer r with None => True | Some (a, b) => 192 <= a < 256 /\ byte b end /\
  word (r_type r) /\ word (r_class r) /\ zlen (r_ttl r) = 4 /\ bytes (r_ttl r) /\ bytes (r_data r) /\ word (zlen (r_data r)).
Definition number (l : list Z) : Z := fold_left (fun x c => x * 256 + c) l 0.
(** An address: an A record other than 0.0.0.0, or an AAAA record. *)
Definition address (r : rr) (f : found) : Prop :=
  (r_type r = 1 /\ zlen (r_data r) = 4 /\ number (r_data r) <> 0 /\ f = mkfound (number (r_data r)) None) \/
  (r_type r = 28 /\ zlen (r_data r) = 16 /\ f = mkfound 28 (Some (r_data r))).
(** A reply to the query with this ID and name. *)
Definition reply_from (id : Z) (n : list (list Z)) (flags counts : list Z) (ty cl : Z) (rrs : list rr) : list Z :=
  num2 id ++ flags ++ counts ++ question n ty cl ++ concat (map rr_bytes rrs).

(** ** Names given to coDNS.solve *)
(** Every label with a dot after it. *)
Definition dots (n : list (list Z)) : list Z := concat (map (fun l => l ++ [46]) n).
(** A label as text: no dots in it, and no octet that is 0. *)
Definition text_label (l : list Z) : Prop := good_label l /\ Forall (fun c => c <> 46 /\ c <> 0) l.
