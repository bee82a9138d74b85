(** * Specifications used by the properties C01-C08.  No import of any model. *)
From Verif Require Import CSem.

(** ** Decimal numbers *)

(** an ASCII decimal digit, and the number a string of digits denotes *)
Definition is_digit (c : Z) : Prop := 48 <= c <= 57.
Definition decimal (s : list Z) : Z := fold_left (fun acc c => 10 * acc + (c - 48)) s 0.

(** ** Byte order *)

(** the [n] low-order bytes of [v], least (most) significant first *)
Fixpoint le_bytes (n : nat) (v : Z) : list Z :=
  match n with O => [] | S n' => v mod 256 :: le_bytes n' (v / 256) end.
Definition be_bytes (n : nat) (v : Z) : list Z := reverse (le_bytes n v).

(** the number a byte string denotes, least (most) significant byte first *)
Fixpoint le_value (bs : list Z) : Z :=
  match bs with [] => 0 | b :: bs' => b + 256 * le_value bs' end.
Definition be_value (bs : list Z) : Z := le_value (reverse bs).

(** ** Character classes *)

Definition is_upper (c : Z) : Prop := 65 <= c <= 90.
Definition is_lower (c : Z) : Prop := 97 <= c <= 122.

(** ** Bits *)

(** bit [k] of the mirror image of the low [n] bits of [x] *)
Definition mirror_bit (n x k : Z) : bool := (k <? n) && Z.testbit x (n - 1 - k).
(** bit [k] of [x] rotated left by [n] in a 32-bit word *)
Definition rotl_bit (n x k : Z) : bool := (k <? 32) && Z.testbit x ((k - n) mod 32).
