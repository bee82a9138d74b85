(** * C98: the C text of the sorts

    Composition of the theorems about the model (C32-C37, C76) with C88.  [answering] is a
    comparison function that answers as [cmp] does and may change its own state; [bytes_at b p] is
    a pointer to byte [p] of object [b]. *)
From Verif Require Import CSem Lib CLang C_Sort Spec_Sort Drive_SortText Refine Proof_TextSort.

Local Notation bytes_at b p := (VPtr (TInt U8) (BObj b) p).
Local Notation answering f cmp es := (byte_cmp (fun t x y => (f t x y, cmp x y)) es).
(** for the examples: two-byte elements, compared by their first byte; the state counts *)
Local Notation by_first := (fun x y => default 0 (head y) <? default 0 (head x)).
Local Notation count := (fun (t : Z) (_ _ : list Z) => t + 1).

(** ** Bubble sort *)
Theorem C98_bubble : forall (T : Type) (f : T -> list Z -> list Z -> T) cmp sc fuel es xs,
  elements_of es xs -> es < 2 ^ 31 -> len xs + 1 < Z.of_nat fuel -> es < Z.of_nat fuel ->
  exists ys, Permutation ys xs /\
  (strict_weak_order cmp xs -> ascending cmp ys /\ stable cmp xs ys) /\
  forall m t b pre post g, m !! b = Some (ints 8 (pre ++ concat xs ++ post)) ->
  exists t', call sc (answering f cmp es) fuel c_BubbleSort_sort
               [bytes_at b (len pre); VInt I32 (len xs); VInt I32 es; VFun g] m t
    = Ok (VUndef, <[b := ints 8 (pre ++ concat ys ++ post)]> m, t').
Proof. exact @text_bubble. Qed.
Print Assumptions C98_bubble.
Example C98_bubble_ex :
  call true (answering count by_first 2) 50 c_BubbleSort_sort
    [bytes_at 0 1; VInt I32 4; VInt I32 2; VFun 0] [ints 8 [99; 3; 1; 1; 2; 3; 3; 1; 4; 98]] 0
  = Ok (VUndef, [ints 8 [99; 1; 2; 1; 4; 3; 1; 3; 3; 98]], 6).
Proof. vm_compute. reflexivity. Qed.

(** ** Selection sort *)
Theorem C98_selection : forall (T : Type) (f : T -> list Z -> list Z -> T) cmp sc fuel es xs,
  elements_of es xs -> es < 2 ^ 31 -> len xs + 1 < Z.of_nat fuel -> es < Z.of_nat fuel ->
  exists ys, Permutation ys xs /\
  (strict_weak_order cmp xs -> ascending cmp ys) /\
  forall m t b pre post g, m !! b = Some (ints 8 (pre ++ concat xs ++ post)) ->
  exists t', call sc (answering f cmp es) fuel c_SelectionSort_sort
               [bytes_at b (len pre); VInt I32 (len xs); VInt I32 es; VFun g] m t
    = Ok (VUndef, <[b := ints 8 (pre ++ concat ys ++ post)]> m, t').
Proof. exact @text_selection. Qed.
Print Assumptions C98_selection.
Example C98_selection_ex :
  call true (answering count by_first 2) 50 c_SelectionSort_sort
    [bytes_at 0 1; VInt I32 4; VInt I32 2; VFun 0] [ints 8 [99; 3; 1; 1; 2; 3; 3; 1; 4; 98]] 0
  = Ok (VUndef, [ints 8 [99; 1; 2; 1; 4; 3; 3; 3; 1; 98]], 6).
Proof. vm_compute. reflexivity. Qed.

(** ** Heap sort, with as many bytes behind the elements as it may read *)
Theorem C98_heap : forall (T : Type) (f : T -> list Z -> list Z -> T) cmp sc fuel es xs,
  elements_of es xs -> es < 2 ^ 31 -> len xs + 1 < Z.of_nat fuel -> es < Z.of_nat fuel ->
  2 * len xs < 2 ^ 31 -> 2 * len xs * es < 2 ^ 31 ->
  exists ys, Permutation ys xs /\
  (strict_weak_order cmp xs -> ascending cmp ys) /\
  forall m t b pre post g, m !! b = Some (ints 8 (pre ++ concat xs ++ post)) ->
  (len xs + 1) * es <= len post ->
  exists t', call sc (answering f cmp es) fuel c_HeapSort_sort
               [bytes_at b (len pre); VInt I32 (len xs); VInt I32 es; VFun g] m t
    = Ok (VUndef, <[b := ints 8 (pre ++ concat ys ++ post)]> m, t').
Proof. exact @text_heap. Qed.
Print Assumptions C98_heap.
Example C98_heap_ex :
  (let! '(_, m, _) := call true (answering count by_first 2) 50 c_HeapSort_sort
     [bytes_at 0 1; VInt I32 4; VInt I32 2; VFun 0]
     [ints 8 ([99; 3; 1; 1; 2; 3; 3; 1; 4] ++ replicate 10 200)] 0 in Ok m)
  = Ok [ints 8 ([99; 1; 2; 1; 4; 3; 3; 3; 1] ++ replicate 10 200)].
Proof. vm_compute. reflexivity. Qed.

(** without those bytes it reads outside, for one element and for any even number of elements *)
Theorem C98_heap_outside : forall (T : Type) (f : T -> list Z -> list Z -> T) cmp sc fuel es xs,
  elements_of es xs -> es < 2 ^ 31 -> len xs + 1 < Z.of_nat fuel -> es < Z.of_nat fuel ->
  forall m t b pre post g, m !! b = Some (ints 8 (pre ++ concat xs ++ post)) ->
  0 < es -> (len xs + 1) * es < 2 ^ 31 -> len post < es ->
  len xs = 1 \/ (0 < len xs /\ Z.even (len xs) = true) ->
  exists k, call sc (answering f cmp es) fuel c_HeapSort_sort
              [bytes_at b (len pre); VInt I32 (len xs); VInt I32 es; VFun g] m t = UB k.
Proof. exact @text_heap_outside. Qed.
Print Assumptions C98_heap_outside.
Example C98_heap_outside_ex :
  call true (answering count by_first 2) 50 c_HeapSort_sort
    [bytes_at 0 0; VInt I32 2; VInt I32 2; VFun 0] [ints 8 [3; 1; 1; 2; 9]] 0 = UB OutOfBounds.
Proof. vm_compute. reflexivity. Qed.

(** ** Insertion sort, with an element in front that can be read *)
Theorem C98_insertion : forall (T : Type) (f : T -> list Z -> list Z -> T) cmp sc fuel es xs,
  elements_of es xs -> es < 2 ^ 31 -> len xs + 1 < Z.of_nat fuel ->
  es <= 64 -> exists ys, Permutation ys xs /\
  (strict_weak_order cmp xs -> ascending cmp ys /\ stable cmp xs ys) /\
  forall m t b b' static pre post g, m !! b = Some (ints 8 (pre ++ concat xs ++ post)) ->
  m !! b' = Some (ints 8 static) -> len static = 64 -> b <> b' ->
  es <= len pre \/ (forall i, ~ new_low cmp xs i) ->
  exists t' static', len static' = 64 /\
    call sc (answering f cmp es) fuel c_InsertionSort_sort
      [bytes_at b' 0; bytes_at b (len pre); VInt I32 (len xs); VInt I32 es; VFun g] m t
    = Ok (VUndef, <[b' := ints 8 static']> (<[b := ints 8 (pre ++ concat ys ++ post)]> m), t').
Proof. exact @text_insertion. Qed.
Print Assumptions C98_insertion.
Example C98_insertion_ex :
  (let! '(_, m, _) := call true (answering count by_first 2) 50 c_InsertionSort_sort
     [bytes_at 1 0; bytes_at 0 2; VInt I32 4; VInt I32 2; VFun 0]
     [ints 8 [99; 99; 3; 1; 1; 2; 3; 3; 1; 4; 98]; ints 8 (replicate 64 0)] 0 in Ok (take 1 m))
  = Ok [ints 8 [99; 99; 1; 2; 1; 4; 3; 1; 3; 3; 98]].
Proof. vm_compute. reflexivity. Qed.

(** without one it reads outside exactly if some element is below all those before it *)
Theorem C98_insertion_outside : forall (T : Type) (f : T -> list Z -> list Z -> T) cmp sc fuel es xs,
  elements_of es xs -> es < 2 ^ 31 -> len xs + 1 < Z.of_nat fuel ->
  forall m t b b' static pre post g, es <= 64 ->
  m !! b = Some (ints 8 (pre ++ concat xs ++ post)) ->
  m !! b' = Some (ints 8 static) -> len static = 64 -> b <> b' -> len pre < es ->
  (exists i, new_low cmp xs i) ->
  exists k, call sc (answering f cmp es) fuel c_InsertionSort_sort
      [bytes_at b' 0; bytes_at b (len pre); VInt I32 (len xs); VInt I32 es; VFun g] m t = UB k.
Proof. exact @text_insertion_outside. Qed.
Print Assumptions C98_insertion_outside.
Example C98_insertion_outside_ex :
  call true (answering count by_first 2) 50 c_InsertionSort_sort
    [bytes_at 1 0; bytes_at 0 1; VInt I32 2; VInt I32 2; VFun 0]
    [ints 8 [99; 3; 1; 1; 2; 9]; ints 8 (replicate 64 0)] 0 = UB OutOfBounds.
Proof. vm_compute. reflexivity. Qed.
