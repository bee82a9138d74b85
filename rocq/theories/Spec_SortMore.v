(** * Specifications used by C74-C75.  No import of any model. *)
From Coq Require Import ZArith.
From stdpp Require Import list numbers.
From Verif Require Import Spec_Sort.

(** no element is greater than the next one *)
Definition neighbours_ordered {A} (gt : A -> A -> bool) (xs : list A) : Prop :=
  forall i x y, xs !! i = Some x -> xs !! S i = Some y -> gt x y = false.

(** the order tells all different elements apart *)
Definition distinguishes {A} (gt : A -> A -> bool) (xs : list A) : Prop :=
  forall x y, x ∈ xs -> y ∈ xs -> equivalent gt x y -> x = y.

(** a comparator with a state of its own, and a counter of its calls added to that state *)
Definition counting {T} (cmp : T -> list Z -> list Z -> T * bool)
  : T * Z -> list Z -> list Z -> (T * Z) * bool :=
  fun '(t, n) x y => ((fst (cmp t x y), (n + 1)%Z), snd (cmp t x y)).
(** a comparator without state *)
Definition stateless (gt : list Z -> list Z -> bool) : unit -> list Z -> list Z -> unit * bool :=
  fun _ x y => (tt, gt x y).
