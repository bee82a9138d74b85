(** * Specification of sorting *)
From Coq Require Import ZArith.
From stdpp Require Import list numbers.
Open Scope Z_scope.

Section spec.
  Context {A : Type} (gt : A -> A -> bool).

  (** on the elements of [xs], [gt] is a strict weak order: asymmetric, and "not greater" is
      transitive *)
  Definition strict_weak_order (xs : list A) : Prop :=
    (forall x y, x ∈ xs -> y ∈ xs -> gt x y = true -> gt y x = false) /\
    (forall x y z, x ∈ xs -> y ∈ xs -> z ∈ xs ->
       gt x y = false -> gt y z = false -> gt x z = false).

  (** no element is greater than a later one *)
  Definition ascending (ys : list A) : Prop :=
    forall i j x y, (i < j)%nat -> ys !! i = Some x -> ys !! j = Some y -> gt x y = false.

  (** neither is greater than the other *)
  Definition equivalent (x y : A) : Prop := gt x y = false /\ gt y x = false.
  Global Instance equivalent_dec x y : Decision (equivalent x y).
  Proof. unfold equivalent. apply _. Defined.

  (** in [ys] the elements equivalent to any given one come in the order of [xs] *)
  Definition stable (xs ys : list A) : Prop :=
    forall x, x ∈ xs -> filter (equivalent x) ys = filter (equivalent x) xs.
End spec.

(** numbers of 32 bits, stored least significant byte first, and the comparator that the
    library's tests use (test helper CompareInt32, for non-negative numbers) *)
Definition value_le (x : list Z) : Z := fold_right (fun b v => b + 256 * v) 0 x.
Definition greater (x y : list Z) : bool := value_le y <? value_le x.

(** [gt] puts the element at [i] below every element before it *)
Definition new_low {A} (gt : A -> A -> bool) (xs : list A) (i : nat) : Prop :=
  (0 < i)%nat /\ exists x, xs !! i = Some x /\ forall y, y ∈ take i xs -> gt y x = true.

(** elements of [es] bytes each, small enough for offsets that fit [int32_t] *)
Definition elements_of (es : Z) (xs : list (list Z)) : Prop :=
  0 <= es /\ Forall (fun x => Z.of_nat (length x) = es) xs /\
  Z.of_nat (length xs) < 2 ^ 31 /\ Z.of_nat (length xs) * es < 2 ^ 31.
