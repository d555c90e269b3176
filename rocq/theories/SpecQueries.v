(** What MaraDNS' headers, questions and names in text form should look like. *)
From Verif Require Import CBase SpecNames SpecMessage SpecAcl SpecDeadwoodMsg SpecQuery ModelJsStr SpecJsStr ModelQueries.

(** A valid string of octets that holds [l]. *)
Definition holding (s : js) (l : list Z) : Prop := j_wf s /\ j_size s = 1 /\ octets_of s = l.

(** ** Headers, bit by bit (RFC 1035 4.1.1) *)
Definition nbits (n : nat) (v : Z) : list bool := map (fun i => Z.testbit v (Z.of_nat i)) (rev (seq 0 n)).
Definition below (n : nat) (v : Z) : Prop := 0 <= v < 2 ^ Z.of_nat n.
Definition header_fields (h : q_header) : list (nat * Z) :=
  [(16%nat, q_id h); (1%nat, q_qr h); (4%nat, q_opcode h); (1%nat, q_aa h); (1%nat, q_tc h); (1%nat, q_rd h);
   (1%nat, q_ra h); (3%nat, q_z h); (4%nat, q_rcode h); (16%nat, q_qd h); (16%nat, q_an h); (16%nat, q_ns h); (16%nat, q_ar h)].
Definition header_fits (h : q_header) : Prop := Forall (fun f => below (fst f) (snd f)) (header_fields h).
Definition header_bits (h : q_header) : list bool := flat_map (fun f => nbits (fst f) (snd f)) (header_fields h).

(** ** Names in text form: a letter for the type, then the labels, each with a dot *)
Definition letters : list (Z * Z) := [(65, 1); (78, 2); (67, 5); (83, 6); (80, 12); (64, 15); (84, 16); (85, -3); (90, 255)].
Definition labels (n : name) : list Z := concat (map (fun l => zlen l :: l) n).
Definition dots (n : name) : list Z := concat (map (fun l => l ++ [46]) n).
(** The name [n] as text, and whether it fits. *)
Definition text_ok (n : name) : Prop := good_name n /\ dotless n /\ zlen (text n) <= 255.
(** An e-mail address as text: a label without an at sign, and a name *)
Definition email_text (l : list Z) (n : name) : list Z := l ++ [64] ++ dots n.
Definition email_ok (l : list Z) (n : name) : Prop := good_name (l :: n) /\ n <> [] /\ ~ In 64 l /\ dotless n /\ zlen (email_text l n) <= 255.

(** A name in a packet or in the database: labels, then a zero octet, an underscore (the end of a
    name that stands for all names) or two octets that refer to another name. *)
Definition name_form (l : list Z) : Prop :=
  exists n e, good_name n /\ l = labels n ++ e /\ (e = [0] \/ e = [95] \/ exists a b, 192 <= a /\ e = [a; b]).

(** ** Questions and whole messages *)
Record question := mkquestion { qu_name : name; qu_type : Z; qu_class : Z }.
Definition question_bytes (q : question) : list Z := wire (qu_name q) ++ be 2 (qu_type q) ++ be 2 (qu_class q).
Definition short_name (n : name) : Prop := good_name n /\ zlen (wire n) <= 255.
Definition question_ok (q : question) : Prop := short_name (qu_name q) /\ word (qu_type q) /\ word (qu_class q).
(** The beginning of a record: name, type, class, TTL, RDLENGTH. *)
Record rr_head := mkhead { hd_name : name; hd_type : Z; hd_class : Z; hd_ttl : Z; hd_len : Z }.
Definition head_bytes (h : rr_head) : list Z := wire (hd_name h) ++ be 2 (hd_type h) ++ be 2 (hd_class h) ++ be 4 (hd_ttl h) ++ be 2 (hd_len h).
Definition head_ok (h : rr_head) : Prop := short_name (hd_name h) /\ word (hd_type h) /\ word (hd_class h) /\ 0 <= hd_ttl h < 4294967296 /\ word (hd_len h).
Definition record_ok (r : rr) : Prop := short_name (rr_owner r) /\ 0 <= rr_type r < 65536 /\ zlen (rr_meta r) = 6 /\ zlen (rdata_plain r) < 65536.
(** A message without compression; the counts of the header are those of the sections. *)
Record msg := mkmsg { m_hdr : q_header; m_qd : list question; m_an : list rr; m_ns : list rr; m_ar : list rr }.
Definition msg_ok (m : msg) : Prop :=
  header_fits (m_hdr m) /\ q_qd (m_hdr m) = zlen (m_qd m) /\ q_an (m_hdr m) = zlen (m_an m) /\ q_ns (m_hdr m) = zlen (m_ns m) /\ q_ar (m_hdr m) = zlen (m_ar m) /\
  Forall question_ok (m_qd m) /\ Forall record_ok (m_an m ++ m_ns m ++ m_ar m).
(** Its octets: twelve with the bits of the header, then the questions and records. *)
Definition is_msg (m : msg) (l : list Z) : Prop :=
  zlen (zslice l 0 12) = 12 /\ bits (zslice l 0 12) = header_bits (m_hdr m) /\
  zslice l 12 (zlen l - 12) = concat (map question_bytes (m_qd m)) ++ plain_records (m_an m ++ m_ns m ++ m_ar m).
(** What is left when it is too long: the last record of the last two sections goes; if they are
    empty, or if the message is truncated already, everything but the header goes and it is
    marked as truncated. *)
Definition set_flags (h : q_header) (tc qd an ns ar : Z) : q_header :=
  mkqh (q_id h) (q_qr h) (q_opcode h) (q_aa h) tc (q_rd h) (q_ra h) (q_z h) (q_rcode h) qd an ns ar.
Definition drop_last (m : msg) : msg :=
  let h := m_hdr m in
  if (q_tc h =? 1) || ((zlen (m_ns m) =? 0) && (zlen (m_ar m) =? 0)) then mkmsg (set_flags h 1 0 0 0 0) [] [] [] []
  else if 0 <? zlen (m_ar m)
  then mkmsg (set_flags h 0 (q_qd h) (q_an h) (q_ns h) (q_ar h - 1)) (m_qd m) (m_an m) (m_ns m) (removelast (m_ar m))
  else mkmsg (set_flags h 0 (q_qd h) (q_an h) (q_ns h - 1) (q_ar h)) (m_qd m) (m_an m) (removelast (m_ns m)) [].
