(** * C36, heap sort: exactly how much memory after the buffer it reads *)
From Verif Require Import CSem Model_Sort Spec_Sort Spec_HeapReads Proof_HeapReads.

(** Heap sort is the textbook heap sort [heap_run]; it needs [extent] readable elements,
    counted from the start of the buffer, and with fewer its behaviour is undefined. *)
Theorem C36_heap_exact : forall cmp es xs ys extent,
  elements_of es xs -> 2 * len xs < 2 ^ 31 -> 2 * len xs * es < 2 ^ 31 ->
  heap_run cmp xs ys extent ->
  forall pre post, HeapSort_sort cmp (pre ++ concat xs ++ post) (len pre) (len xs) es
    = if Z.of_nat extent * es <=? len xs * es + len post then Ok (pre ++ concat ys ++ post)
      else UB OutOfBounds.
Proof. exact heap_exact. Qed.
Print Assumptions C36_heap_exact.
(** There is such a run, and it lies between these bounds: every even number of elements
    leaves the buffer, and one more than the number of elements after it is always enough. *)
Theorem C36_heap_extent : forall A (cmp : A -> A -> bool) xs, exists ys extent,
  heap_run cmp xs ys extent /\
  (xs = [] -> extent = 0%nat) /\ (extent <= 2 * length xs + 1)%nat /\
  ((0 < length xs)%nat -> (3 <= extent /\ length xs <= extent)%nat) /\
  ((0 < length xs)%nat -> Nat.even (length xs) = true -> (length xs + 1 <= extent)%nat).
Proof. exact @heap_run_exists. Qed.
Print Assumptions C36_heap_extent.
(** [heap_run] is a function *)
Theorem C36_heap_run_unique : forall A (cmp : A -> A -> bool) xs ys e ys' e',
  heap_run cmp xs ys e -> heap_run cmp xs ys' e' -> ys = ys' /\ e = e'.
Proof. exact @heap_run_det. Qed.
Print Assumptions C36_heap_run_unique.
(** Elements already in strictly ascending order are the worst case. *)
Theorem C36_heap_ascending : forall A (cmp : A -> A -> bool) xs ys e,
  heap_run cmp xs ys e -> (0 < length xs)%nat ->
  (forall i j x y, (i < j)%nat -> xs !! i = Some x -> xs !! j = Some y -> cmp y x = true) ->
  e = (2 * length xs + 1)%nat.
Proof. exact @heap_run_ascending. Qed.
Print Assumptions C36_heap_ascending.
(** An odd number of elements, at least three, none greater than another, is the best case:
    heap sort stays inside the buffer. *)
Theorem C36_heap_flat : forall A (cmp : A -> A -> bool) xs ys e,
  heap_run cmp xs ys e -> (forall x y, x ∈ xs -> y ∈ xs -> cmp x y = false) ->
  (3 <= length xs)%nat -> Nat.odd (length xs) = true -> e = length xs.
Proof. exact @heap_run_flat. Qed.
Print Assumptions C36_heap_flat.
(** Whatever surrounds the buffer: if the run is defined, it sorts. *)
Theorem C33_heap_whenever : forall cmp es xs pre post m,
  elements_of es xs -> 2 * len xs < 2 ^ 31 -> 2 * len xs * es < 2 ^ 31 ->
  HeapSort_sort cmp (pre ++ concat xs ++ post) (len pre) (len xs) es = Ok m ->
  exists ys, m = pre ++ concat ys ++ post /\ Forall (fun y => len y = es) ys /\
    Permutation ys xs /\ (strict_weak_order cmp xs -> ascending cmp ys).
Proof. exact heap_whenever. Qed.
Print Assumptions C33_heap_whenever.

(** a strictly ascending array needs 2 n + 1 = 7 elements, an all-equal one 3 *)
Example C36_heap_exact_ex :
  heap_run greater [[1]; [2]; [3]] [[1]; [2]; [3]] 7 /\
  heap_run greater [[4]; [4]; [4]] [[4]; [4]; [4]] 3 /\
  HeapSort_sort greater [1;2;3; 0;0;0] 0 3 1 = UB OutOfBounds /\
  HeapSort_sort greater [1;2;3; 0;0;0;0] 0 3 1 = Ok [1;2;3; 0;0;0;0] /\
  HeapSort_sort greater [4;4;4] 0 3 1 = Ok [4;4;4].
Proof.
  split; [|split; [|split; [|split]]]; try by vm_compute.
  - exists [[3];[2];[1]], 7%nat, 5%nat. split; [|split; [|done]].
    + eapply (builds_step _ 0 _ _ _ 2 0); [|constructor].
      eapply sifts_down; [done|]. by apply sifts_stop.
    + eapply (drains_step _ 2 _ _ _ 1 3).
      { eapply sifts_down; [done|]. by apply sifts_stop. }
      eapply (drains_step _ 1 _ _ _ 0 3).
      { by apply sifts_stop. }
      eapply (drains_step _ 0 _ _ _ 0 0); [|constructor]. by apply sifts_stop.
  - exists [[4];[4];[4]], 3%nat, 3%nat. split; [|split; [|done]].
    + eapply (builds_step _ 0 _ _ _ 0 0); [|constructor]. by apply sifts_stop.
    + eapply (drains_step _ 2 _ _ _ 0 3); [by apply sifts_stop|].
      eapply (drains_step _ 1 _ _ _ 0 3); [by apply sifts_stop|].
      eapply (drains_step _ 0 _ _ _ 0 0); [by apply sifts_stop|constructor].
Qed.
(** seven different elements that heap sort sorts without leaving the buffer *)
Example C33_heap_whenever_ex :
  HeapSort_sort greater [10;9;8;1;2;6;7] 0 7 1 = Ok [1;2;6;7;8;9;10].
Proof. by vm_compute. Qed.
