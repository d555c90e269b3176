(** What mailboxes and SOA data in a zone file mean (man csv2). *)
From Coq Require Import String.
From Verif Require Import CBase SpecNames SpecMessage SpecQuery SpecQueries SpecCsv2 SpecCsv2Rr ModelQueries.

(** The part before the at sign: letters, digits and some signs; before each of them but the first there may be a dot,
    which is written after a backslash. *)
Definition mail_first (c : Z) : Prop := 48 <= c <= 57 \/ 65 <= c <= 90 \/ 97 <= c <= 122 \/ c = 45 \/ c = 95.
Definition mail_char (c : Z) : Prop := mail_first c \/ c = 33 \/ c = 37 \/ c = 43 \/ c = 61 \/ c = 94.
Record part := mkpart { p_dot : bool; p_char : Z }.
Definition part_text (p : part) : list Z := if p_dot p then [92; 46; p_char p] else [p_char p].
Definition part_octets (p : part) : list Z := if p_dot p then [46; p_char p] else [p_char p].
Record mailbox := mkmailbox { m_first : Z; m_parts : list part; m_host : list (list Z); m_end : ending_ }.
Definition local_text (m : mailbox) : list Z := m_first m :: flat_map part_text (m_parts m).
Definition local_octets (m : mailbox) : list Z := m_first m :: flat_map part_octets (m_parts m).
Definition mailbox_text (m : mailbox) : list Z := local_text m ++ 64 :: dotted (m_host m) ++ match m_end m with Absolute => [] | Percent => [37] end.
(** The first label of its name may have dots. *)
Definition mailbox_name (m : mailbox) (z : name) : name := local_octets m :: meant (m_host m) (m_end m) z.
Definition mailbox_ok (m : mailbox) (z : name) : Prop :=
  mail_first (m_first m) /\ Forall (fun p => mail_char (p_char p)) (m_parts m) /\ name_chars (m_host m) /\
  email_ok (local_octets m) (meant (m_host m) (m_end m) z) /\
  (m_end m = Percent -> z <> [] /\ zlen (email_text (local_octets m) (meant (m_host m) (m_end m) z)) <= 254).
(** A serial number, or the time at which the file was changed ([serial]). *)
Definition serial_field (serial : Z) (l : list Z) (v : Z) : Prop := number_field l v \/ l = octets "/serial" /\ v = serial.
Definition four (v : Z) : list Z := [v / 16777216; v / 65536 mod 256; v / 256 mod 256; v mod 256].
