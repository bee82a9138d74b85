(** * Specification of what cyclic redundancy checks detect *)
From Coq Require Import ZArith.
From stdpp Require Import list numbers.
From Verif Require Import Spec_Crc.
Open Scope Z_scope.

(** the polynomial [g] divides [a] *)
Definition divides (g a : Z) : Prop := exists q, 0 <= q /\ a = mul q g.

(** the number of set bits in a list *)
Definition ones (bits : list bool) : nat := count_occ Bool.bool_dec bits true.

(** the number of places at which two lists of bits differ *)
Definition differences (a b : list bool) : nat := ones (zip_with xorb a b).

(** the number of terms of the generator *)
Definition terms (P : crc_params) : nat := ones (bits_of (Z.to_nat (width P + 1)) (generator P)).

(** [n] is the least positive number for which [g] divides x^n + 1 *)
Definition is_order (g n : Z) : Prop :=
  0 < n /\ divides g (2 ^ n + 1) /\ forall d, 0 < d < n -> ~ divides g (2 ^ d + 1).

(** the same parameters with another final value *)
Definition with_xorout (P : crc_params) (x : Z) : crc_params :=
  Crc_params (width P) (poly P) (init P) (refin P) (refout P) x.

(** a number of [w] bits with its bits in the opposite order *)
Definition reversed (w x : Z) : Z := value (rev (bits_of (Z.to_nat w) x)).

(** the parameters of the CRC that takes and gives all bits in the opposite order *)
Definition mirrored (P : crc_params) : crc_params :=
  Crc_params (width P) (poly P) (init P) (negb (refin P)) (negb (refout P))
    (reversed (width P) (xorout P)).
