(** * What base64 characters mean to a lenient decoder.  No import of any model. *)
From Verif Require Import CSem Spec_Base64.

(** the character stands for [v]: as in RFC 4648 table 1 (+ and /), as in table 2 (- and _) or
    as in the modified form of IMAP mailbox names (comma); the full stop is accepted for 62 *)
Definition means (c v : Z) : Prop :=
  (is_sextet v /\ c = alphabet v) \/
  ((c = 45 \/ c = 46) /\ v = 62) \/ ((c = 44 \/ c = 95) /\ v = 63).
(** every other character is taken for an A *)
Definition taken_for (c v : Z) : Prop := means c v \/ v = 0 /\ forall u, ~ means c u.
