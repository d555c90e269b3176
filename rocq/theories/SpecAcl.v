(** What the header of a query and a list of networks mean.  Nothing here depends on the
    model, but for the two functions of the C library that read addresses. *)
From Verif Require Import CBase ModelDwSys.

(** ** Headers (RFC 1035 4.1.1) *)
Record header := mkheader { h_id : Z; h_qr : Z; h_opcode : Z; h_aa : Z; h_tc : Z; h_rd : Z; h_ra : Z; h_z : Z; h_ad : Z; h_cd : Z; h_rcode : Z;
                            h_qdcount : Z; h_ancount : Z; h_nscount : Z; h_arcount : Z }.
Definition bit (x : Z) : Prop := x = 0 \/ x = 1.
Definition word (x : Z) : Prop := 0 <= x < 65536.
Definition header_ok (h : header) : Prop :=
  word (h_id h) /\ bit (h_qr h) /\ 0 <= h_opcode h < 16 /\ bit (h_aa h) /\ bit (h_tc h) /\ bit (h_rd h) /\ bit (h_ra h) /\ bit (h_z h) /\ bit (h_ad h) /\ bit (h_cd h) /\
  0 <= h_rcode h < 16 /\ word (h_qdcount h) /\ word (h_ancount h) /\ word (h_nscount h) /\ word (h_arcount h).
Definition num2 (x : Z) : list Z := [x / 256; x mod 256].
Definition header_bytes (h : header) : list Z :=
  num2 (h_id h) ++
  [h_qr h * 128 + h_opcode h * 8 + h_aa h * 4 + h_tc h * 2 + h_rd h; h_ra h * 128 + h_z h * 64 + h_ad h * 32 + h_cd h * 16 + h_rcode h] ++
  num2 (h_qdcount h) ++ num2 (h_ancount h) ++ num2 (h_nscount h) ++ num2 (h_arcount h).
(** A query that is answered: a question and nothing else (but one additional record). *)
Definition plain_query (h : header) : Prop :=
  h_qr h = 0 /\ h_opcode h = 0 /\ h_rd h = 1 /\ h_z h = 0 /\ h_rcode h = 0 /\ h_qdcount h = 1 /\ h_ancount h = 0 /\ h_nscount h = 0.

(** ** Networks *)
Definition bits8 (b : Z) : list bool := map (Z.testbit b) [7; 6; 5; 4; 3; 2; 1; 0].
Definition bits (l : list Z) : list bool := flat_map bits8 l.
(** The address has the first [n] bits of the network's. *)
Definition in_net (net : list Z) (n : Z) (ip : list Z) : Prop :=
  zlen ip = zlen net /\ firstn (Z.to_nat n) (bits ip) = firstn (Z.to_nat n) (bits net).

(** An item of the list: blanks, an address, and a slash with a decimal number or not. *)
Record item := mkitem { i_blanks : list Z; i_addr : list Z; i_num : option (list Z) }.
Definition item_text (e : item) : list Z := i_blanks e ++ i_addr e ++ match i_num e with None => [] | Some d => 47 :: d end.
Definition decimal (d : list Z) : Z := fold_left (fun v b => v * 10 + (b - 48)) d 0.
(** The C library takes the text for this address. *)
Definition addr_is (L : libc) (t net : list Z) : Prop := pton4 L t = Some net \/ (pton4 L t = None /\ pton6 L t = Some net).
Definition libc_ok (L : libc) : Prop :=
  (forall t a, pton4 L t = Some a -> bytes a /\ zlen a = 4) /\ (forall t a, pton6 L t = Some a -> bytes a /\ zlen a = 16) /\
  pton4 L [] = None /\ pton6 L [] = None.
Definition item_is (L : libc) (e : item) (net : list Z) (n : Z) : Prop :=
  Forall (fun b => b = 32 \/ b = 9) (i_blanks e) /\
  Forall (fun b => b <> 0 /\ b <> 44 /\ b <> 47) (i_addr e) /\ (exists b t, i_addr e = b :: t /\ b <> 32 /\ b <> 9) /\
  addr_is L (i_addr e) net /\
  match i_num e with
  | None => n = 8 * zlen net
  | Some d => d <> [] /\ Forall (fun b => 48 <= b <= 57) d /\ n = decimal d /\ n <= 8 * zlen net
  end.
(** Items with commas in between. *)
Fixpoint commas (l : list (list Z)) : list Z :=
  match l with [] => [] | [t] => t | t :: l => t ++ 44 :: commas l end.
