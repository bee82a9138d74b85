(** * Specification of the Caesar and Vernam ciphers *)
From Coq Require Import ZArith.
From stdpp Require Import list numbers.
Open Scope Z_scope.

(** ASCII letters *)
Definition upper (c : Z) : bool := (65 <=? c) && (c <=? 90).
Definition lower (c : Z) : bool := (97 <=? c) && (c <=? 122).
Definition letter (c : Z) : bool := upper c || lower c.

(** the place 0..25 of a letter in the alphabet *)
Definition place (c : Z) : Z := if lower c then c - 97 else c - 65.

(** the letter [k] places further in the cyclic alphabet, of the same case; other
    characters stay *)
Definition move (k c : Z) : Z :=
  if upper c then 65 + (c - 65 + k) mod 26
  else if lower c then 97 + (c - 97 + k) mod 26
  else c.

(** characters of a C string: bytes other than NUL *)
Definition text (s : list Z) : Prop := Forall (fun c => 0 < c < 256) s.
