(** * Specification of base64 (RFC 4648), used by C09-C14.  No import of any model. *)
From Verif Require Import CSem.

(** RFC 4648, table 1 *)
Definition alphabet (v : Z) : Z :=
  if v <=? 25 then 65 + v            (* A-Z *)
  else if v <=? 51 then 97 + (v - 26) (* a-z *)
  else if v <=? 61 then 48 + (v - 52) (* 0-9 *)
  else if v =? 62 then 43 else 47.    (* + / *)

(** the bits of a number of width [n], most significant first; and back *)
Definition bits (n : nat) (v : Z) : list bool :=
  map (fun k => Z.testbit v (Z.of_nat k)) (rev (seq 0 n)).
Definition of_bits (bs : list bool) : Z := fold_left (fun a (b : bool) => 2 * a + Z.b2z b) bs 0.

(** a bit string cut in groups of six; the last group is filled with zero bits *)
Fixpoint sextets (bs : list bool) : list Z :=
  match bs with
  | [] => []
  | a :: b :: c :: d :: e :: f :: bs' => of_bits [a; b; c; d; e; f] :: sextets bs'
  | _ => [of_bits (take 6 (bs ++ [false; false; false; false; false]))]
  end.
(** a bit string cut in bytes; an incomplete last byte is dropped *)
Fixpoint octets (bs : list bool) : list Z :=
  match bs with
  | a :: b :: c :: d :: e :: f :: g :: h :: bs' =>
      of_bits [a; b; c; d; e; f; g; h] :: octets bs'
  | _ => []
  end.

(** RFC 4648 section 4: the encoding without and with the padding *)
Definition base64_unpadded (data : list Z) : list Z :=
  map alphabet (sextets (mjoin (map (bits 8) data))).
Definition pad (text : list Z) : list Z :=
  text ++ replicate (Z.to_nat ((- len text) mod 4)) 61.
Definition base64 (data : list Z) : list Z := pad (base64_unpadded data).

(** a text over the alphabet is given by its values (0..63); what it decodes to *)
Definition is_sextet (v : Z) : Prop := 0 <= v < 64.
Definition base64_decoded (vs : list Z) : list Z := octets (mjoin (map (bits 6) vs)).
