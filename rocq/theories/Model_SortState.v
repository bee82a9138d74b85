(** * Model of [/repo/Src/sort/*.c] with comparators that have a state

    As [Model_Sort], but [compareFun] may depend on and change a state [T] of its own (a
    counter, a log, a random number generator): called in state [t] with the bytes of two
    elements it gives a new state and an answer.  It does not change the elements. *)
From Verif Require Import CSem Model_Utils Model_Sort.

Section sort.
  Context {T : Type} (cmp : T -> list Z -> list Z -> T * bool).

  (** [compareFun(&a[i], &b[j])]; as [call_cmp] in [Model_Sort] *)
  Definition call_cmp_state (element_size : Z) (t : T) (a : list Z) (i : Z) (b : list Z) (j : Z)
    : outcome (T * bool) :=
    if in_range a i element_size && in_range b j element_size
    then Ok (cmp t (slice a i element_size) (slice b j element_size)) else UB OutOfBounds.

  (** bubble_sort.c:39-55; state ([t], [m], [swapped], [i]) *)
  Definition BubbleSort_state (t : T) (m : list Z) (base number_of_elements element_size : Z)
    : outcome (T * list Z) :=
    let! '(t, m, _, _) :=
      cwhile (S (S (Z.to_nat number_of_elements)))
        (fun '(t, m, swapped, i) => swapped)
        (fun '(t, m, swapped, i) =>
           let! bound := ck32 (number_of_elements - i) in
           let! bound := ck32 (bound - 1) in
           let! '(t, m, swapped) :=
             cfor 0 bound
               (fun j '(t, m, swapped) =>
                  let! o1 := ck32 (j * element_size) in
                  let! o2 := ck32 ((j + 1) * element_size) in
                  let! '(t, c) := call_cmp_state element_size t m (base + o1) m (base + o2) in
                  if (c : bool) then
                    let! m := Utils_swapElements m (base + o1) (base + o2)
                                (u32 element_size) in
                    Ok (t, m, true)
                  else Ok (t, m, swapped))
               (t, m, false) in
           let! i := ck32 (i + 1) in
           Ok (Next (t, m, swapped, i)))
        (t, m, true, 0) in
    Ok (t, m).

  (** insertion_sort.c:39-70; inner loop state: ([t], [m], [j], [compare]) *)
  Definition InsertionSort_state (t : T) (m max_element : list Z)
      (base number_of_elements element_size : Z) : outcome (T * list Z * list Z) :=
    cfor 1 number_of_elements
      (fun i '(t, m, element) =>
         let! o := ck32 (i * element_size) in
         let! element := memcpy element 0 m (base + o) (u64 element_size) in
         let j := i - 1 in
         let! o := ck32 (j * element_size) in
         let! '(t, compare) := call_cmp_state element_size t m (base + o) element 0 in
         let! '(t, m, j, _) :=
           cwhile (S (Z.to_nat i))
             (fun '(t, m, j, compare) => (0 <=? j) && compare)
             (fun '(t, m, j, compare) =>
                let! o1 := ck32 ((j + 1) * element_size) in
                let! o := ck32 (j * element_size) in
                let! m := memcpy_within m (base + o1) (base + o) (u64 element_size) in
                let j := j - 1 in
                let! o := ck32 (j * element_size) in
                let! '(t, compare) := call_cmp_state element_size t m (base + o) element 0 in
                Ok (Next (t, m, j, compare)))
             (t, m, j, compare) in
         let! o1 := ck32 ((j + 1) * element_size) in
         let! m := memcpy m (base + o1) element 0 (u64 element_size) in
         Ok (t, m, element))
      (t, m, max_element).

  (** selection_sort.c:39-57; inner loop state: ([t], [min_index]) *)
  Definition SelectionSort_state (t : T) (m : list Z) (base number_of_elements element_size : Z)
    : outcome (T * list Z) :=
    let! bound := ck32 (number_of_elements - 1) in
    cfor 0 bound
      (fun i '(t, m) =>
         let! '(t, min_index) :=
           cfor (i + 1) number_of_elements
             (fun j '(t, min_index) =>
                let! o1 := ck32 (min_index * element_size) in
                let! o2 := ck32 (j * element_size) in
                let! '(t, c) := call_cmp_state element_size t m (base + o1) m (base + o2) in
                Ok (t, if (c : bool) then j else min_index)) (t, i) in
         if negb (min_index =? i) then
           let! o1 := ck32 (min_index * element_size) in
           let! o2 := ck32 (i * element_size) in
           let! m := Utils_swapElements m (base + o1) (base + o2) (u32 element_size) in
           Ok (t, m)
         else Ok (t, m)) (t, m).

  (** heap_sort.c:39-71, [Heapify]; state ([t], [m], [index], [continue_iterating]) *)
  Definition Heapify_state (t : T) (m : list Z) (base n i element_size : Z)
    : outcome (T * list Z) :=
    let! '(t, m, _, _) :=
      cwhile (S (S (Z.to_nat n)))
        (fun '(t, m, index, continue_iterating) => continue_iterating)
        (fun '(t, m, index, continue_iterating) =>
           let largest := index in
           let! left := ck32 (2 * index) in
           let! left := ck32 (left + 1) in
           let! right := ck32 (2 * index) in
           let! right := ck32 (right + 2) in
           let! ol := ck32 (left * element_size) in
           let! og := ck32 (largest * element_size) in
           let! '(t, c) := call_cmp_state element_size t m (base + ol) m (base + og) in
           let largest := if (left <? n) && c then left else largest in
           let! or := ck32 (right * element_size) in
           let! og := ck32 (largest * element_size) in
           let! '(t, c) := call_cmp_state element_size t m (base + or) m (base + og) in
           let largest := if (right <? n) && c then right else largest in
           if negb (largest =? index) then
             let! oi := ck32 (index * element_size) in
             let! og := ck32 (largest * element_size) in
             let! m := Utils_swapElements m (base + oi) (base + og) (u32 element_size) in
             Ok (Next (t, m, largest, continue_iterating))
           else Ok (Next (t, m, index, false)))
        (t, m, i, true) in
    Ok (t, m).

  (** heap_sort.c:73-86 *)
  Definition HeapSort_state (t : T) (m : list Z) (base number_of_elements element_size : Z)
    : outcome (T * list Z) :=
    let! top := ck32 (Z.quot number_of_elements 2 - 1) in
    let! '(t, m) :=
      cford top 0
        (fun i '(t, m) => Heapify_state t m base number_of_elements i element_size) (t, m) in
    let! top := ck32 (number_of_elements - 1) in
    cford top 0
      (fun i '(t, m) =>
         let! o := ck32 (i * element_size) in
         let! m := Utils_swapElements m base (base + o) (u32 element_size) in
         Heapify_state t m base i 0 element_size) (t, m).
End sort.
