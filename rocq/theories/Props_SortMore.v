(** * Properties C74-C77: more about sorting

    As in [Props_Sort], [xs] are the elements of the buffer, [pre] and [post] the memory
    before and after it, and [cmp] the comparator. *)
From Verif Require Import CSem Lib Model_Sort Model_SortState Spec_Sort Spec_SortMore Proof_SortAll
  Proof_SortProps Proof_SortMore Proof_SortErase.
From stdpp Require Import list numbers.
Open Scope Z_scope.

(** ** C74 Sorted elements stay as they are, with every sort but heap sort *)

(** for any comparator, if no element is greater than the next one *)
Theorem C74_bubble : forall cmp es xs pre post, elements_of es xs -> neighbours_ordered cmp xs ->
  BubbleSort_sort cmp (pre ++ concat xs ++ post) (len pre) (len xs) es = Ok (pre ++ concat xs ++ post).
Proof. exact bubble_sorted. Qed.
Print Assumptions C74_bubble.
Theorem C74_insertion : forall cmp es xs pre post static, elements_of es xs -> es <= 64 -> len static = 64 ->
  neighbours_ordered cmp xs ->
  exists static', len static' = 64 /\
    InsertionSort_sort cmp (pre ++ concat xs ++ post) static (len pre) (len xs) es
    = Ok (pre ++ concat xs ++ post, static').
Proof. exact insertion_sorted. Qed.
Print Assumptions C74_insertion.
(** for any comparator, if no element is greater than any later one *)
Theorem C74_selection : forall cmp es xs pre post, elements_of es xs -> ascending cmp xs ->
  SelectionSort_sort cmp (pre ++ concat xs ++ post) (len pre) (len xs) es
  = Ok (pre ++ concat xs ++ post).
Proof. exact selection_sorted. Qed.
Print Assumptions C74_selection.
(** only sorted elements stay as they are *)
Theorem C74_bubble_only : forall cmp es xs pre post, elements_of es xs -> 0 < es -> strict_weak_order cmp xs ->
  BubbleSort_sort cmp (pre ++ concat xs ++ post) (len pre) (len xs) es = Ok (pre ++ concat xs ++ post)
  <-> ascending cmp xs.
Proof. exact bubble_unchanged. Qed.
Print Assumptions C74_bubble_only.
Theorem C74_selection_only : forall cmp es xs pre post, elements_of es xs -> 0 < es -> strict_weak_order cmp xs ->
  SelectionSort_sort cmp (pre ++ concat xs ++ post) (len pre) (len xs) es = Ok (pre ++ concat xs ++ post)
  <-> ascending cmp xs.
Proof. exact selection_unchanged. Qed.
Print Assumptions C74_selection_only.
(** heap sort permutes equal elements, also of a sorted buffer *)
Theorem C74_heap_refuted : exists cmp es xs post ys,
  elements_of es xs /\ strict_weak_order cmp xs /\ ascending cmp xs /\
  HeapSort_sort cmp (concat xs ++ post) 0 (len xs) es = Ok (concat ys ++ post) /\
  Forall (fun y => len y = es) ys /\ ys <> xs.
Proof. exact heap_sorted_refuted. Qed.
Print Assumptions C74_heap_refuted.
(** a comparator that is no order: rock, paper, scissors *)
Example C74_ex :
  let beats x y := bool_decide ((value_le x - value_le y) `mod` 3 = 1) in
  let xs := [[0]; [1]; [1]; [2]; [0]] in
  elements_of 1 xs /\ neighbours_ordered beats xs /\
  BubbleSort_sort beats (concat xs) 0 5 1 = Ok (concat xs).
Proof.
  split; [repeat split; try done; by repeat constructor|]. split; [|by vm_compute].
  intros i x y Hx Hy. do 4 (destruct i as [|i]; [cbn in *; simplify_eq; done|]). cbn in *. by destruct i.
Qed.
Example C74_selection_ex : ascending greater [[1]; [2]; [2]; [7]] /\
  SelectionSort_sort greater [9;1;2;2;7;9] 1 4 1 = Ok [9;1;2;2;7;9].
Proof.
  split; [|by vm_compute]. intros i j x y Hij Hx Hy.
  do 4 (destruct i as [|i]; [do 5 (destruct j as [|j]; [cbn in *; simplify_eq; (done || lia)|]); by destruct j|]).
  by destruct i.
Qed.

(** ** C75 The sorts agree *)

(** bubble sort and insertion sort always do *)
Theorem C75_stable : forall cmp es xs, elements_of es xs -> es <= 64 -> strict_weak_order cmp xs ->
  exists ys, Permutation ys xs /\ ascending cmp ys /\ (forall pre post,
      BubbleSort_sort cmp (pre ++ concat xs ++ post) (len pre) (len xs) es
      = Ok (pre ++ concat ys ++ post)) /\
    forall pre post static, len static = 64 -> es <= len pre \/ (forall i, ~ new_low cmp xs i) ->
      exists static', InsertionSort_sort cmp (pre ++ concat xs ++ post) static (len pre) (len xs) es
      = Ok (pre ++ concat ys ++ post, static').
Proof. exact stable_agree. Qed.
Print Assumptions C75_stable.
(** all four do, if the comparator tells different elements apart *)
Theorem C75_all : forall cmp es xs, elements_of es xs -> es <= 64 -> 2 * len xs < 2 ^ 31 ->
  2 * len xs * es < 2 ^ 31 -> strict_weak_order cmp xs -> distinguishes cmp xs ->
  exists ys, (forall pre post,
      BubbleSort_sort cmp (pre ++ concat xs ++ post) (len pre) (len xs) es
      = Ok (pre ++ concat ys ++ post) /\
      SelectionSort_sort cmp (pre ++ concat xs ++ post) (len pre) (len xs) es
      = Ok (pre ++ concat ys ++ post)) /\
    (forall pre post static, len static = 64 -> es <= len pre \/ (forall i, ~ new_low cmp xs i) ->
      exists static', InsertionSort_sort cmp (pre ++ concat xs ++ post) static (len pre) (len xs) es
      = Ok (pre ++ concat ys ++ post, static')) /\
    (forall pre post, (len xs + 1) * es <= len post ->
      HeapSort_sort cmp (pre ++ concat xs ++ post) (len pre) (len xs) es
      = Ok (pre ++ concat ys ++ post)).
Proof. exact all_agree. Qed.
Print Assumptions C75_all.
Example C75_ex :
  let xs := [[2]; [1]; [2]; [0]] in
  strict_weak_order greater xs /\ distinguishes greater xs /\
  BubbleSort_sort greater ([9] ++ concat xs ++ repeat 8 5) 1 4 1 = Ok ([9] ++ [0;1;2;2] ++ repeat 8 5) /\
  SelectionSort_sort greater ([9] ++ concat xs ++ repeat 8 5) 1 4 1 = Ok ([9] ++ [0;1;2;2] ++ repeat 8 5) /\
  HeapSort_sort greater ([9] ++ concat xs ++ repeat 8 5) 1 4 1 = Ok ([9] ++ [0;1;2;2] ++ repeat 8 5).
Proof.
  split; [apply swo_by|]. split; [|repeat split; by vm_compute].
  intros x y Hx Hy [H1 H2]. unfold greater in *. apply Z.ltb_ge in H1, H2.
  assert (E : value_le x = value_le y) by lia. clear H1 H2.
  repeat (apply elem_of_cons in Hx as [->|Hx]; [repeat (apply elem_of_cons in Hy as [->|Hy]; [done|]); by apply elem_of_nil in Hy|]).
  by apply elem_of_nil in Hx.
Qed.

(** ** C76 Comparators with a state *)

(** whatever the comparator answers, and even if it answers differently each time, the
    sorts end, stay in memory, and permute the elements *)
Theorem C76_bubble : forall T (cmp : T -> list Z -> list Z -> T * bool) t es xs pre post, elements_of es xs ->
  exists t' ys, BubbleSort_state cmp t (pre ++ concat xs ++ post) (len pre) (len xs) es
    = Ok (t', pre ++ concat ys ++ post) /\ Forall (fun y => len y = es) ys /\ Permutation ys xs.
Proof. exact @bubble_any. Qed.
Print Assumptions C76_bubble.
Theorem C76_selection : forall T (cmp : T -> list Z -> list Z -> T * bool) t es xs pre post, elements_of es xs ->
  exists t' ys, SelectionSort_state cmp t (pre ++ concat xs ++ post) (len pre) (len xs) es
    = Ok (t', pre ++ concat ys ++ post) /\ Forall (fun y => len y = es) ys /\ Permutation ys xs.
Proof. exact @selection_any. Qed.
Print Assumptions C76_selection.
Theorem C76_insertion : forall T (cmp : T -> list Z -> list Z -> T * bool) t es xs pre post static,
  elements_of es xs -> es <= 64 -> es <= len pre -> len static = 64 ->
  exists t' ys static',
    InsertionSort_state cmp t (pre ++ concat xs ++ post) static (len pre) (len xs) es
    = Ok (t', pre ++ concat ys ++ post, static') /\ len static' = 64 /\
    Forall (fun y => len y = es) ys /\ Permutation ys xs.
Proof. exact @insertion_any. Qed.
Print Assumptions C76_insertion.
Theorem C76_heap : forall T (cmp : T -> list Z -> list Z -> T * bool) t es xs pre post,
  elements_of es xs -> 2 * len xs < 2 ^ 31 -> 2 * len xs * es < 2 ^ 31 ->
  (len xs + 1) * es <= len post ->
  exists t' ys, HeapSort_state cmp t (pre ++ concat xs ++ post) (len pre) (len xs) es
    = Ok (t', pre ++ concat ys ++ post) /\ Forall (fun y => len y = es) ys /\ Permutation ys xs.
Proof. exact @heap_any. Qed.
Print Assumptions C76_heap.
(** a comparator whose state does not influence its answers sorts like one without: in every
    memory, valid or not *)
Theorem C76_bubble_state : forall T (f : T -> list Z -> list Z -> T) cmp t m base n es,
  (let! '(_, m) := BubbleSort_state (fun t x y => (f t x y, cmp x y)) t m base n es in Ok m)
  = BubbleSort_sort cmp m base n es.
Proof. exact @bubble_erase. Qed.
Print Assumptions C76_bubble_state.
Theorem C76_selection_state : forall T (f : T -> list Z -> list Z -> T) cmp t m base n es,
  (let! '(_, m) := SelectionSort_state (fun t x y => (f t x y, cmp x y)) t m base n es in Ok m)
  = SelectionSort_sort cmp m base n es.
Proof. exact @selection_erase. Qed.
Print Assumptions C76_selection_state.
Theorem C76_insertion_state : forall T (f : T -> list Z -> list Z -> T) cmp t m static base n es,
  (let! '(_, m, static) := InsertionSort_state (fun t x y => (f t x y, cmp x y)) t m static base n es in
   Ok (m, static)) = InsertionSort_sort cmp m static base n es.
Proof. exact @insertion_erase. Qed.
Print Assumptions C76_insertion_state.
Theorem C76_heap_state : forall T (f : T -> list Z -> list Z -> T) cmp t m base n es,
  (let! '(_, m) := HeapSort_state (fun t x y => (f t x y, cmp x y)) t m base n es in Ok m)
  = HeapSort_sort cmp m base n es.
Proof. exact @heap_erase. Qed.
Print Assumptions C76_heap_state.
(** a comparator that answers from a linear congruential generator *)
Example C76_ex :
  let random t (_ _ : list Z) := let t := (t * 1103515245 + 12345) `mod` 2 ^ 31 in (t, Z.testbit t 16) in
  elements_of 1 [[1]; [2]; [3]; [4]; [5]] /\
  BubbleSort_state random 1 [1;2;3;4;5] 0 5 1 = Ok (267834847, [4;2;1;5;3]) /\
  (let! '(_, m) := HeapSort_state random 1 ([1;2;3;4;5] ++ repeat 0 6) 0 5 1 in Ok m)
  = Ok ([4;2;5;1;3] ++ repeat 0 6).
Proof. split; [repeat split; try done; by repeat constructor|]. split; by vm_compute. Qed.

(** ** C77 How often the comparator is called *)

(** from any comparator with state; [counting] adds a counter of the calls *)
Theorem C77_bubble : forall T (cmp : T -> list Z -> list Z -> T * bool) t es xs pre post, elements_of es xs ->
  exists t' calls m, BubbleSort_state (counting cmp) (t, 0) (pre ++ concat xs ++ post) (len pre) (len xs) es
    = Ok (t', calls, m) /\ len xs - 1 <= calls /\ 0 <= calls <= len xs * (len xs - 1) / 2.
Proof. exact @bubble_calls. Qed.
Print Assumptions C77_bubble.
Theorem C77_selection : forall T (cmp : T -> list Z -> list Z -> T * bool) t es xs pre post, elements_of es xs ->
  exists t' m, SelectionSort_state (counting cmp) (t, 0) (pre ++ concat xs ++ post) (len pre) (len xs) es
    = Ok (t', len xs * (len xs - 1) / 2, m).
Proof. exact @selection_calls. Qed.
Print Assumptions C77_selection.
Theorem C77_insertion : forall T (cmp : T -> list Z -> list Z -> T * bool) t es xs pre post static,
  elements_of es xs -> es <= 64 -> es <= len pre -> len static = 64 -> xs <> [] ->
  exists t' calls m static',
    InsertionSort_state (counting cmp) (t, 0) (pre ++ concat xs ++ post) static (len pre) (len xs) es
    = Ok (t', calls, m, static') /\ len xs - 1 <= calls <= (len xs - 1) * (len xs + 2) / 2.
Proof. exact @insertion_calls. Qed.
Print Assumptions C77_insertion.
Theorem C77_heap : forall T (cmp : T -> list Z -> list Z -> T * bool) t es xs pre post,
  elements_of es xs -> 2 * len xs < 2 ^ 31 -> 2 * len xs * es < 2 ^ 31 ->
  (len xs + 1) * es <= len post ->
  exists t' calls m, HeapSort_state (counting cmp) (t, 0) (pre ++ concat xs ++ post) (len pre) (len xs) es
    = Ok (t', calls, m) /\ 2 * (len xs + len xs / 2) <= calls /\
      calls <= 2 * (len xs + len xs / 2) * (Z.log2 (len xs) + 1).
Proof. exact @heap_calls. Qed.
Print Assumptions C77_heap.
(** on ordered elements bubble sort and insertion sort need the least possible *)
Theorem C77_bubble_ordered : forall cmp es xs pre post, elements_of es xs -> xs <> [] ->
  neighbours_ordered cmp xs ->
  BubbleSort_state (counting (stateless cmp)) (tt, 0) (pre ++ concat xs ++ post) (len pre) (len xs) es
  = Ok (tt, len xs - 1, pre ++ concat xs ++ post).
Proof. exact bubble_calls_ordered. Qed.
Print Assumptions C77_bubble_ordered.
Theorem C77_insertion_ordered : forall cmp es xs pre post static, elements_of es xs -> es <= 64 ->
  len static = 64 -> xs <> [] -> neighbours_ordered cmp xs ->
  exists static',
  InsertionSort_state (counting (stateless cmp)) (tt, 0) (pre ++ concat xs ++ post) static (len pre)
    (len xs) es = Ok (tt, len xs - 1, pre ++ concat xs ++ post, static').
Proof. exact insertion_calls_ordered. Qed.
Print Assumptions C77_insertion_ordered.
(** the upper bounds of bubble sort and insertion sort are reached *)
Example C77_ex :
  BubbleSort_state (counting (stateless greater)) (tt, 0) [5;4;3;2;1] 0 5 1 = Ok (tt, 10, [1;2;3;4;5]) /\
  (let! '(t, m, _) := InsertionSort_state (counting (stateless greater)) (tt, 0) [0;5;4;3;2;1] (repeat 0 64) 1 5 1 in
   Ok (t, m)) = Ok (tt, 14, [0;1;2;3;4;5]) /\
  (let! '(t, _) := HeapSort_state (counting (stateless greater)) (tt, 0) ([5;4;3;2;1] ++ repeat 0 6) 0 5 1 in Ok t)
  = Ok (tt, 22).
Proof. repeat split; by vm_compute. Qed.
