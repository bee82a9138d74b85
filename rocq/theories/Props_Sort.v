(** * Properties C32-C37: sorting

    Throughout, [xs] are the elements of the buffer, [pre] and [post] the memory before and
    after it, and [cmp] the comparator. *)
From Verif Require Import CSem Lib Model_Sort Spec_Sort Proof_SortInsert Proof_SortEnd Proof_SortAll Proof_SortProps.
From stdpp Require Import list numbers.
Open Scope Z_scope.

(** ** C32 The result is a permutation of the elements, for any comparator *)

Theorem C32_bubble : forall cmp es xs,
  elements_of es xs ->
  exists ys, (forall pre post,
      BubbleSort_sort cmp (pre ++ concat xs ++ post) (len pre) (len xs) es
      = Ok (pre ++ concat ys ++ post)) /\
    Forall (fun y => len y = es) ys /\ Permutation ys xs.
Proof. exact bubble_c32. Qed.
Print Assumptions C32_bubble.
(** a comparator that is always true *)
Example C32_bubble_ex :
  elements_of 2 [[1;2]; [3;4]; [5;6]] /\
  BubbleSort_sort (fun _ _ => true) ([9] ++ concat [[1;2]; [3;4]; [5;6]] ++ [8]) 1 3 2
  = Ok ([9] ++ concat [[5;6]; [3;4]; [1;2]] ++ [8]).
Proof. split; [repeat split; try done; by repeat constructor|ex]. Qed.
Theorem C32_selection : forall cmp es xs,
  elements_of es xs ->
  exists ys, (forall pre post,
      SelectionSort_sort cmp (pre ++ concat xs ++ post) (len pre) (len xs) es
      = Ok (pre ++ concat ys ++ post)) /\
    Forall (fun y => len y = es) ys /\ Permutation ys xs.
Proof. exact selection_c32. Qed.
Print Assumptions C32_selection.
Example C32_selection_ex :
  SelectionSort_sort (fun _ _ => true) ([9] ++ concat [[1;2]; [3;4]; [5;6]] ++ [8]) 1 3 2
  = Ok ([9] ++ concat [[5;6]; [1;2]; [3;4]] ++ [8]).
Proof. ex. Qed.
Theorem C32_insertion : forall cmp es xs,
  elements_of es xs -> es <= 64 ->
  exists ys, (forall pre post static, len static = 64 ->
      es <= len pre \/ (forall i, ~ new_low cmp xs i) ->
      exists static', len static' = 64 /\
      InsertionSort_sort cmp (pre ++ concat xs ++ post) static (len pre) (len xs) es
      = Ok (pre ++ concat ys ++ post, static')) /\
    Forall (fun y => len y = es) ys /\ Permutation ys xs.
Proof. exact insertion_c32. Qed.
Print Assumptions C32_insertion.
Example C32_insertion_ex :
  (let! '(m, _) := InsertionSort_sort (fun _ _ => true)
     ([7;9] ++ concat [[1;2]; [3;4]; [5;6]] ++ [8]) (repeat 0 64) 2 3 2 in Ok m)
  = Ok ([7;9] ++ concat [[5;6]; [3;4]; [1;2]] ++ [8]).
Proof. ex. Qed.
Theorem C32_heap : forall cmp es xs,
  elements_of es xs -> 2 * len xs < 2 ^ 31 -> 2 * len xs * es < 2 ^ 31 ->
  exists ys, (forall pre post, (len xs + 1) * es <= len post ->
      HeapSort_sort cmp (pre ++ concat xs ++ post) (len pre) (len xs) es
      = Ok (pre ++ concat ys ++ post)) /\
    Forall (fun y => len y = es) ys /\ Permutation ys xs.
Proof. exact heap_c32. Qed.
Print Assumptions C32_heap.
Example C32_heap_ex :
  HeapSort_sort (fun x y => greater y x)
     ([9] ++ concat [[1;2]; [3;4]; [5;6]] ++ [8;8;8;8;8;8;8;8]) 1 3 2
  = Ok ([9] ++ concat [[5;6]; [3;4]; [1;2]] ++ [8;8;8;8;8;8;8;8]).
Proof. ex. Qed.

(** ** C33 The result is in order, if the comparator orders the elements *)

Theorem C33_bubble : forall cmp es xs,
  elements_of es xs -> strict_weak_order cmp xs ->
  exists ys, (forall pre post,
      BubbleSort_sort cmp (pre ++ concat xs ++ post) (len pre) (len xs) es
      = Ok (pre ++ concat ys ++ post)) /\
    Permutation ys xs /\ ascending cmp ys.
Proof. exact bubble_c33. Qed.
Print Assumptions C33_bubble.
Example C33_bubble_ex :
  let xs := [[3;1]; [1;1]; [2;0]; [1;1]] in
  elements_of 2 xs /\ strict_weak_order greater xs /\
  BubbleSort_sort greater (concat xs) 0 4 2 = Ok (concat [[2;0]; [1;1]; [1;1]; [3;1]]).
Proof.
  split; [repeat split; try done; by repeat constructor|].
  split; [apply swo_by|ex].
Qed.
Theorem C33_selection : forall cmp es xs,
  elements_of es xs -> strict_weak_order cmp xs ->
  exists ys, (forall pre post,
      SelectionSort_sort cmp (pre ++ concat xs ++ post) (len pre) (len xs) es
      = Ok (pre ++ concat ys ++ post)) /\
    Permutation ys xs /\ ascending cmp ys.
Proof. exact selection_c33. Qed.
Print Assumptions C33_selection.
Example C33_selection_ex :
  SelectionSort_sort greater [3;1;1;1;2;0;1;1] 0 4 2 = Ok [2;0;1;1;1;1;3;1].
Proof. ex. Qed.
Theorem C33_insertion : forall cmp es xs,
  elements_of es xs -> es <= 64 -> strict_weak_order cmp xs ->
  exists ys, (forall pre post static, len static = 64 ->
      es <= len pre \/ (forall i, ~ new_low cmp xs i) ->
      exists static', len static' = 64 /\
      InsertionSort_sort cmp (pre ++ concat xs ++ post) static (len pre) (len xs) es
      = Ok (pre ++ concat ys ++ post, static')) /\
    Permutation ys xs /\ ascending cmp ys.
Proof. exact insertion_c33. Qed.
Print Assumptions C33_insertion.
Example C33_insertion_ex :
  (let! '(m, _) := InsertionSort_sort greater [7;9;3;1;1;1;2;0;1;1] (repeat 0 64) 2 4 2 in Ok m)
  = Ok [7;9;2;0;1;1;1;1;3;1].
Proof. ex. Qed.
Theorem C33_heap : forall cmp es xs,
  elements_of es xs -> 2 * len xs < 2 ^ 31 -> 2 * len xs * es < 2 ^ 31 -> strict_weak_order cmp xs ->
  exists ys, (forall pre post, (len xs + 1) * es <= len post ->
      HeapSort_sort cmp (pre ++ concat xs ++ post) (len pre) (len xs) es
      = Ok (pre ++ concat ys ++ post)) /\
    Permutation ys xs /\ ascending cmp ys.
Proof. exact heap_c33. Qed.
Print Assumptions C33_heap.
Example C33_heap_ex :
  HeapSort_sort greater ([3;1;1;1;2;0;1;1] ++ repeat 255 10) 0 4 2
  = Ok ([2;0;1;1;1;1;3;1] ++ repeat 255 10).
Proof. ex. Qed.
(** comparing by a numerical key, as the library's tests do, is such a comparator *)
Theorem C33_by_key : forall (f : list Z -> Z) xs,
  strict_weak_order (fun x y => f y <? f x) xs.
Proof. exact swo_by. Qed.
Print Assumptions C33_by_key.

(** ** C34 Stability *)

Theorem C34_bubble : forall cmp es xs,
  elements_of es xs -> strict_weak_order cmp xs ->
  exists ys, (forall pre post,
      BubbleSort_sort cmp (pre ++ concat xs ++ post) (len pre) (len xs) es
      = Ok (pre ++ concat ys ++ post)) /\
    stable cmp xs ys.
Proof. exact bubble_c34. Qed.
Print Assumptions C34_bubble.
Theorem C34_insertion : forall cmp es xs,
  elements_of es xs -> es <= 64 -> strict_weak_order cmp xs ->
  exists ys, (forall pre post static, len static = 64 ->
      es <= len pre \/ (forall i, ~ new_low cmp xs i) ->
      exists static', len static' = 64 /\
      InsertionSort_sort cmp (pre ++ concat xs ++ post) static (len pre) (len xs) es
      = Ok (pre ++ concat ys ++ post, static')) /\
    stable cmp xs ys.
Proof. exact insertion_c34. Qed.
Print Assumptions C34_insertion.
(** keys 2, 2, 1, 2 with tags *)
Example C34_ex :
  let xs := [[2;0]; [2;1]; [1;0]; [2;2]] in
  strict_weak_order by_key xs /\
  BubbleSort_sort by_key (concat xs) 0 4 2 = Ok (concat [[1;0]; [2;0]; [2;1]; [2;2]]) /\
  (let! '(m, _) := InsertionSort_sort by_key ([0;0] ++ concat xs) (repeat 0 64) 2 4 2 in Ok m)
  = Ok ([0;0] ++ concat [[1;0]; [2;0]; [2;1]; [2;2]]).
Proof. split; [apply swo_by|split; ex]. Qed.
Theorem C34_selection_refuted : exists cmp es xs ys,
  elements_of es xs /\ strict_weak_order cmp xs /\
  SelectionSort_sort cmp (concat xs) 0 (len xs) es = Ok (concat ys) /\
  Forall (fun x => len x = es) ys /\ ~ stable cmp xs ys.
Proof. exact selection_stable_refuted. Qed.
Print Assumptions C34_selection_refuted.
Theorem C34_heap_refuted : exists cmp es xs ys post,
  elements_of es xs /\ strict_weak_order cmp xs /\
  HeapSort_sort cmp (concat xs ++ post) 0 (len xs) es = Ok (concat ys ++ post) /\
  Forall (fun x => len x = es) ys /\ ~ stable cmp xs ys.
Proof. exact heap_stable_refuted. Qed.
Print Assumptions C34_heap_refuted.

(** ** C35 Termination, for any comparator and any arguments whatever *)

Theorem C35_bubble : forall cmp m base n es,
  BubbleSort_sort cmp m base n es <> Diverge.
Proof. exact bubble_nd. Qed.
Print Assumptions C35_bubble.
Theorem C35_selection : forall cmp m base n es,
  SelectionSort_sort cmp m base n es <> Diverge.
Proof. exact selection_nd. Qed.
Print Assumptions C35_selection.
Theorem C35_heap : forall cmp m base n es,
  HeapSort_sort cmp m base n es <> Diverge.
Proof. exact heap_nd. Qed.
Print Assumptions C35_heap.
Theorem C35_insertion : forall cmp m static base n es,
  InsertionSort_sort cmp m static base n es <> Diverge.
Proof. exact insertion_nd. Qed.
Print Assumptions C35_insertion.
Example C35_ex :
  BubbleSort_sort (fun _ _ => true) [1;2;3;4;5] 0 5 1 = Ok [5;4;3;2;1] /\
  HeapSort_sort (fun _ _ => true) [1;2;3;4;5;0;0;0;0;0;0] 0 5 1 <> Diverge.
Proof. split; [ex|by vm_compute]. Qed.

(** ** C36 Memory safety

    In C32 the sorts are free of undefined behaviour and [ys] does not depend on [pre] and
    [post]; here the memory ends where the buffer does. *)

Theorem C36_bubble : forall cmp es xs, elements_of es xs ->
  exists ys, BubbleSort_sort cmp (concat xs) 0 (len xs) es = Ok (concat ys).
Proof. exact bubble_c36. Qed.
Print Assumptions C36_bubble.
Theorem C36_selection : forall cmp es xs, elements_of es xs ->
  exists ys, SelectionSort_sort cmp (concat xs) 0 (len xs) es = Ok (concat ys).
Proof. exact selection_c36. Qed.
Print Assumptions C36_selection.
Example C36_ex : elements_of 2 [[1;2]; [3;4]; [5;6]].
Proof. repeat split; try done. by repeat constructor. Qed.
(** insertion sort stays inside exactly when no element is below all elements before it *)
Theorem C36_insertion_inside : forall cmp es xs static post,
  elements_of es xs -> es <= 64 -> len static = 64 -> (forall i, ~ new_low cmp xs i) ->
  exists ys static', InsertionSort_sort cmp (concat xs ++ post) static 0 (len xs) es
    = Ok (concat ys ++ post, static').
Proof. exact insertion_inside_c36. Qed.
Print Assumptions C36_insertion_inside.
Example C36_insertion_inside_ex :
  let xs := [[1]; [3]; [2]; [1]] in
  (forall i, ~ new_low greater xs i) /\
  (let! '(m, _) := InsertionSort_sort greater (concat xs) (repeat 0 64) 0 4 1 in Ok m)
  = Ok [1;1;2;3].
Proof.
  split; [|ex]. intros i [Hi [x [Hx HL]]].
  assert (gt_1 : greater [1] x = true) by (apply HL; destruct i; [lia|left]).
  do 4 (destruct i as [|i]; [first [lia | injection Hx as <-; by vm_compute in gt_1]|]). done.
Qed.
Theorem C36_insertion_outside : forall cmp es xs pre post static,
  elements_of es xs -> es <= 64 -> len static = 64 -> len pre < es ->
  (exists i, new_low cmp xs i) ->
  InsertionSort_sort cmp (pre ++ concat xs ++ post) static (len pre) (len xs) es = UB OutOfBounds.
Proof. exact insertion_low_ub. Qed.
Print Assumptions C36_insertion_outside.
Example C36_insertion_outside_ex :
  let xs := [[1]; [3]; [2]; [0]] in
  (exists i, new_low greater xs i) /\
  InsertionSort_sort greater (concat xs) (repeat 0 64) 0 4 1 = UB OutOfBounds.
Proof.
  split; [|by vm_compute]. exists 3%nat. split; [lia|]. exists [0]. split; [done|].
  intros y Hy. simpl in Hy. rewrite !elem_of_cons in Hy.
  destruct Hy as [->|[->|[->|Hy]]]; try done. by apply elem_of_nil in Hy.
Qed.
Theorem C36_insertion_stays_inside_refuted : exists cmp es xs static,
  elements_of es xs /\ es <= 64 /\ strict_weak_order cmp xs /\ len static = 64 /\
  InsertionSort_sort cmp (concat xs) static 0 (len xs) es = UB OutOfBounds.
Proof. exact insertion_stays_inside_refuted. Qed.
Print Assumptions C36_insertion_stays_inside_refuted.
(** heap sort reads beyond the buffer for one element and for every even number of them,
    whatever they are *)
Theorem C36_heap_outside : forall cmp es xs pre post, elements_of es xs -> 0 < es ->
  (len xs + 1) * es < 2 ^ 31 -> len post < es ->
  len xs = 1 \/ (0 < len xs /\ Z.even (len xs) = true) ->
  HeapSort_sort cmp (pre ++ concat xs ++ post) (len pre) (len xs) es = UB OutOfBounds.
Proof. exact heap_reads_beyond. Qed.
Print Assumptions C36_heap_outside.
Example C36_heap_outside_ex :
  HeapSort_sort greater [4;3;2;1] 0 4 1 = UB OutOfBounds /\
  HeapSort_sort greater [4] 0 1 1 = UB OutOfBounds /\
  HeapSort_sort greater [1;2;3] 0 3 1 = UB OutOfBounds /\
  HeapSort_sort greater [4;4;4] 0 3 1 = Ok [4;4;4].
Proof. repeat split; by vm_compute. Qed.
Theorem C36_heap_stays_inside_refuted : exists cmp es xs,
  elements_of es xs /\ strict_weak_order cmp xs /\
  HeapSort_sort cmp (concat xs) 0 (len xs) es = UB OutOfBounds.
Proof. exact heap_stays_inside_refuted. Qed.
Print Assumptions C36_heap_stays_inside_refuted.

(** ** C37 Nothing outside the elements changes

    C32 gives the whole memory after sorting; here for an arbitrary byte position. *)

Theorem C37_bubble : forall cmp es xs pre post, elements_of es xs ->
  exists m, BubbleSort_sort cmp (pre ++ concat xs ++ post) (len pre) (len xs) es = Ok m /\
    len m = len (pre ++ concat xs ++ post) /\
    forall i, (i < length pre \/ length pre + length (concat xs) <= i)%nat ->
      m !! i = (pre ++ concat xs ++ post) !! i.
Proof. exact bubble_frame. Qed.
Print Assumptions C37_bubble.
Theorem C37_selection : forall cmp es xs pre post, elements_of es xs ->
  exists m, SelectionSort_sort cmp (pre ++ concat xs ++ post) (len pre) (len xs) es = Ok m /\
    len m = len (pre ++ concat xs ++ post) /\
    forall i, (i < length pre \/ length pre + length (concat xs) <= i)%nat ->
      m !! i = (pre ++ concat xs ++ post) !! i.
Proof. exact selection_frame. Qed.
Print Assumptions C37_selection.
Theorem C37_heap : forall cmp es xs pre post, elements_of es xs -> 2 * len xs < 2 ^ 31 -> 2 * len xs * es < 2 ^ 31 ->
  (len xs + 1) * es <= len post ->
  exists m, HeapSort_sort cmp (pre ++ concat xs ++ post) (len pre) (len xs) es = Ok m /\
    len m = len (pre ++ concat xs ++ post) /\
    forall i, (i < length pre \/ length pre + length (concat xs) <= i)%nat ->
      m !! i = (pre ++ concat xs ++ post) !! i.
Proof. exact heap_frame. Qed.
Print Assumptions C37_heap.
Theorem C37_insertion : forall cmp es xs pre post static, elements_of es xs -> es <= 64 ->
  len static = 64 -> es <= len pre \/ (forall i, ~ new_low cmp xs i) ->
  exists m static',
    InsertionSort_sort cmp (pre ++ concat xs ++ post) static (len pre) (len xs) es
    = Ok (m, static') /\
    len m = len (pre ++ concat xs ++ post) /\
    forall i, (i < length pre \/ length pre + length (concat xs) <= i)%nat ->
      m !! i = (pre ++ concat xs ++ post) !! i.
Proof. exact insertion_frame. Qed.
Print Assumptions C37_insertion.
Theorem C37_insertion_large_elements : forall cmp m static base n es,
  64 < es < 2 ^ 31 -> 2 <= n -> len static = 64 ->
  InsertionSort_sort cmp m static base n es = UB OutOfBounds.
Proof. exact insertion_big. Qed.
Print Assumptions C37_insertion_large_elements.
Example C37_insertion_large_elements_ex :
  InsertionSort_sort greater (repeat 1 130) (repeat 0 64) 0 2 65 = UB OutOfBounds /\
  (let! '(m, _) := InsertionSort_sort greater (repeat 1 128) (repeat 0 64) 0 2 64 in Ok m)
  = Ok (repeat 1 128).
Proof. split; by vm_compute. Qed.
