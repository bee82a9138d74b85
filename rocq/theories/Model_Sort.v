(** * Model of [/repo/Src/sort/*.c]

    [buffer] points at offset [base] of the memory [m]; what lies around the elements is
    part of [m] so that theorems can speak about it.  [compareFun] is a pure function
    [cmp] of the bytes of the two elements it is given; calling it with a pointer whose
    [element_size] bytes are not all inside [m] is [UB OutOfBounds] (the callee would read
    them, and already forming such a pointer is undefined, C99 6.5.6p8).
    A comparator that has side effects or compares addresses is not modelled.
    All index arithmetic is [int32_t] and goes through [ck32]. *)
From Verif Require Import CSem Model_Utils.

(** [compareFun(&a[i], &b[j])] *)
Definition call_cmp (cmp : list Z -> list Z -> bool) (element_size : Z)
    (a : list Z) (i : Z) (b : list Z) (j : Z) : outcome bool :=
  if in_range a i element_size && in_range b j element_size
  then Ok (cmp (slice a i element_size) (slice b j element_size)) else UB OutOfBounds.

(** bubble_sort.c:39-55; state ([m], [swapped], [i]).  The inner loop
    (bubble_sort.c:47-52) runs over j = 0 .. number_of_elements - i - 2. *)
Definition BubbleSort_sort (cmp : list Z -> list Z -> bool) (m : list Z)
    (base number_of_elements element_size : Z) : outcome (list Z) :=
  let! '(m, _, _) :=
    cwhile (S (S (Z.to_nat number_of_elements)))
      (fun '(m, swapped, i) => swapped)
      (fun '(m, swapped, i) =>
         let! bound := ck32 (number_of_elements - i) in
         let! bound := ck32 (bound - 1) in
         let! '(m, swapped) :=
           cfor 0 bound
             (fun j '(m, swapped) =>
                let! o1 := ck32 (j * element_size) in
                let! o2 := ck32 ((j + 1) * element_size) in
                let! c := call_cmp cmp element_size m (base + o1) m (base + o2) in
                if (c : bool) then
                  let! m := Utils_swapElements m (base + o1) (base + o2)
                              (u32 element_size) in
                  Ok (m, true)
                else Ok (m, swapped))
             (m, false) in
         let! i := ck32 (i + 1) in
         Ok (Next (m, swapped, i)))
      (m, true, 0) in
  Ok m.

(** insertion_sort.h:40 *)
Definition MAX_ELEMENT_SIZE : Z := 64.

(** insertion_sort.c:39-70.  [max_element] is the static array of insertion_sort.c:43: its
    contents survive from call to call, so they are an argument and a result.  Inner loop
    state: ([m], [j], [compare]). *)
Definition InsertionSort_sort (cmp : list Z -> list Z -> bool) (m max_element : list Z)
    (base number_of_elements element_size : Z) : outcome (list Z * list Z) :=
  cfor 1 number_of_elements
    (fun i '(m, element) =>
       let! o := ck32 (i * element_size) in
       let! element := memcpy element 0 m (base + o) (u64 element_size) in
       let j := i - 1 in
       let! o := ck32 (j * element_size) in
       let! compare := call_cmp cmp element_size m (base + o) element 0 in
       let! '(m, j, _) :=
         cwhile (S (Z.to_nat i))
           (fun '(m, j, compare) => (0 <=? j) && compare)
           (fun '(m, j, compare) =>
              let! o1 := ck32 ((j + 1) * element_size) in
              let! o := ck32 (j * element_size) in
              let! m := memcpy_within m (base + o1) (base + o) (u64 element_size) in
              let j := j - 1 in
              let! o := ck32 (j * element_size) in
              let! compare := call_cmp cmp element_size m (base + o) element 0 in
              Ok (Next (m, j, compare)))
           (m, j, compare) in
       let! o1 := ck32 ((j + 1) * element_size) in
       let! m := memcpy m (base + o1) element 0 (u64 element_size) in
       Ok (m, element))
    (m, max_element).

(** selection_sort.c:39-57; inner loop state: [min_index] *)
Definition SelectionSort_sort (cmp : list Z -> list Z -> bool) (m : list Z)
    (base number_of_elements element_size : Z) : outcome (list Z) :=
  let! bound := ck32 (number_of_elements - 1) in
  cfor 0 bound
    (fun i m =>
       let! min_index :=
         cfor (i + 1) number_of_elements
           (fun j min_index =>
              let! o1 := ck32 (min_index * element_size) in
              let! o2 := ck32 (j * element_size) in
              let! c := call_cmp cmp element_size m (base + o1) m (base + o2) in
              Ok (if (c : bool) then j else min_index)) i in
       if negb (min_index =? i) then
         let! o1 := ck32 (min_index * element_size) in
         let! o2 := ck32 (i * element_size) in
         Utils_swapElements m (base + o1) (base + o2) (u32 element_size)
       else Ok m) m.

(** heap_sort.c:39-71, the static function [Heapify]; state ([m], [index],
    [continue_iterating]).  The fuel covers every run: [index] grows and stays below [n]. *)
Definition Heapify (cmp : list Z -> list Z -> bool) (m : list Z)
    (base n i element_size : Z) : outcome (list Z) :=
  let! '(m, _, _) :=
    cwhile (S (S (Z.to_nat n)))
      (fun '(m, index, continue_iterating) => continue_iterating)
      (fun '(m, index, continue_iterating) =>
         let largest := index in
         let! left := ck32 (2 * index) in
         let! left := ck32 (left + 1) in
         let! right := ck32 (2 * index) in
         let! right := ck32 (right + 2) in
         let! ol := ck32 (left * element_size) in
         let! og := ck32 (largest * element_size) in
         let! c := call_cmp cmp element_size m (base + ol) m (base + og) in
         let largest := if (left <? n) && c then left else largest in
         let! or := ck32 (right * element_size) in
         let! og := ck32 (largest * element_size) in
         let! c := call_cmp cmp element_size m (base + or) m (base + og) in
         let largest := if (right <? n) && c then right else largest in
         if negb (largest =? index) then
           let! oi := ck32 (index * element_size) in
           let! og := ck32 (largest * element_size) in
           let! m := Utils_swapElements m (base + oi) (base + og) (u32 element_size) in
           Ok (Next (m, largest, continue_iterating))
         else Ok (Next (m, index, false)))
      (m, i, true) in
  Ok m.

(** heap_sort.c:73-86; [number_of_elements / 2] truncates toward zero *)
Definition HeapSort_sort (cmp : list Z -> list Z -> bool) (m : list Z)
    (base number_of_elements element_size : Z) : outcome (list Z) :=
  let! top := ck32 (Z.quot number_of_elements 2 - 1) in
  let! m := cford top 0 (fun i m => Heapify cmp m base number_of_elements i element_size) m in
  let! top := ck32 (number_of_elements - 1) in
  cford top 0
    (fun i m =>
       let! o := ck32 (i * element_size) in
       let! m := Utils_swapElements m base (base + o) (u32 element_size) in
       Heapify cmp m base i 0 element_size) m.
