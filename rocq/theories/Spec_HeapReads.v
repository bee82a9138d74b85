(** * How far heap sort looks

    The textbook heap sort on a list: sift down [k] in the heap of the first [n] elements,
    for the parents from the last to the first; then exchange the first element with the
    last one and sift down the first, for ever smaller heaps.  The relations also give the
    extent of a run: how many elements, counted from the first one, it looks at when it looks
    at both children of every index it visits, also where these lie outside the heap. *)
From Coq Require Import ZArith.
From stdpp Require Import list numbers.

Section spec.
  Context {A : Type} (gt : A -> A -> bool).

  (** the element at [i] is greater than the one at [j] *)
  Definition above (xs : list A) (i j : nat) : bool :=
    match xs !! i, xs !! j with Some x, Some y => gt x y | _, _ => false end.
  Definition exchange (xs : list A) (i j : nat) : list A :=
    match xs !! i, xs !! j with Some x, Some y => <[j := x]> (<[i := y]> xs) | _, _ => xs end.

  (** of [k] and its children in the heap, the place of the greatest element *)
  Definition pick (n : nat) (xs : list A) (k : nat) : nat :=
    let l := (2 * k + 1)%nat in
    let r := (2 * k + 2)%nat in
    let g := if (l <? n)%nat && above xs l k then l else k in
    if (r <? n)%nat && above xs r g then r else g.

  (** sifting down the element at [k] gives [ys]; the last place it visits is [last] *)
  Inductive sifts (n : nat) : list A -> nat -> list A -> nat -> Prop :=
    | sifts_stop xs k : pick n xs k = k -> sifts n xs k xs k
    | sifts_down xs k ys last :
        pick n xs k <> k -> sifts n (exchange xs k (pick n xs k)) (pick n xs k) ys last ->
        sifts n xs k ys last.

  (** sifting down [i - 1], ..., 0 in the whole list *)
  Inductive builds : nat -> list A -> list A -> nat -> Prop :=
    | builds_end xs : builds 0 xs xs 0
    | builds_step i xs ys zs last e :
        sifts (length xs) xs i ys last -> builds i ys zs e ->
        builds (S i) xs zs (Nat.max (2 * last + 3) e).

  (** taking the greatest element out, for the heaps of size [i], ..., 1 *)
  Inductive drains : nat -> list A -> list A -> nat -> Prop :=
    | drains_end xs : drains 0 xs xs 0
    | drains_step i xs ys zs last e :
        sifts i (exchange xs 0 i) 0 ys last -> drains i ys zs e ->
        drains (S i) xs zs (Nat.max (2 * last + 3) e).

  (** heap sort of [xs] gives [ys], looking at the first [extent] elements *)
  Definition heap_run (xs ys : list A) (extent : nat) : Prop :=
    exists hs e1 e2,
      builds (length xs / 2) xs hs e1 /\ drains (length xs) hs ys e2 /\ extent = Nat.max e1 e2.
End spec.
