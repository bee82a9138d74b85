(** * Specifications used by the properties C70-C73.  No import of any model. *)
From Verif Require Import CSem Spec_Base64.

(** the characters of base64 text *)
Definition in_alphabet (c : Z) : Prop := exists v, is_sextet v /\ c = alphabet v.

(** the bits of a text (given by its values) that belong to no whole byte are zero *)
Definition canonical (vs : list Z) : Prop :=
  let bs := mjoin (map (bits 6) vs) in
  Forall (fun b => b = false) (drop (8 * (length bs / 8)) bs).
