(** * C88: the hand-written model of sort/*.c against the C text

    [c_F] is the function [F] as produced from its C text by [tools/c2coq.py]; [call] runs it
    (CLang.v).  [byte_cmp cmp es] is the comparison function: it reads [es] bytes at each of its
    arguments, answers by [cmp] and may have a state (Drive_SortText.v).  [agree] means: the same
    result, or undefined behaviour on both sides (the text forms an address before it computes
    the next offset, so the kinds of undefined behaviour may differ).  [el] is the static array of
    insertion sort. *)
From Verif Require Import CSem Lib CLang C_Utils C_Sort Model_Utils Model_Sort Model_SortState
  Drive_SortText Refine Refine_SortAgree.

Local Notation bytes_at b p := (VPtr (TInt U8) (BObj b) p).

Theorem C88_BubbleSort_sort : forall (T : Type) (cmp : T -> list Z -> list Z -> T * bool) sc fuel es
    m t b o p n f,
  m !! b = Some (ints 8 o) -> is_s32 n -> is_s32 es ->
  (S (Z.to_nat n) < fuel)%nat -> (Z.to_nat (u32 es) < fuel)%nat ->
  agree (call sc (byte_cmp cmp es) fuel c_BubbleSort_sort [bytes_at b p; VInt I32 n; VInt I32 es; VFun f] m t)
    (let! '(t, o) := BubbleSort_state cmp t o p n es in Ok (VUndef, <[b := ints 8 o]> m, t)).
Proof. exact @ref_BubbleSort_sort. Qed.
Print Assumptions C88_BubbleSort_sort.
Example C88_BubbleSort_sort_ex :
  (let! r := call true (byte_cmp first_byte 2) 100 c_BubbleSort_sort [bytes_at 0 1; VInt I32 4; VInt I32 2; VFun 7] [ints 8 [9;3;0;1;1;2;2;1;3;7;7;7;7;7;7;7;7]; ints 8 (replicate 64 0)] 0%nat in Ok (take 1 (snd (fst r)), snd r))
  = Ok
    ([[CI 8 9; CI 8 1; CI 8 1; CI 8 1; CI 8 3; CI 8 2; CI 8 2; 
    CI 8 3; CI 8 0; CI 8 7; CI 8 7; CI 8 7; CI 8 7; CI 8 7; 
    CI 8 7; CI 8 7; CI 8 7]], 6%nat) /\
  (let! r := call true (byte_cmp first_byte 2) 100 c_BubbleSort_sort [bytes_at 0 1; VInt I32 9; VInt I32 2; VFun 7] [ints 8 [9;3;0;1;1;2;2;1;3;7;7;7;7;7;7;7;7]; ints 8 (replicate 64 0)] 0%nat in Ok (take 1 (snd (fst r)), snd r))
  = UB OutOfBounds /\
  (let! r := call true (byte_cmp first_byte 2) 100 c_BubbleSort_sort [bytes_at 0 1; VInt I32 (-3); VInt I32 2; VFun 7] [ints 8 [9;3;0;1;1;2;2;1;3;7;7;7;7;7;7;7;7]; ints 8 (replicate 64 0)] 0%nat in Ok (take 1 (snd (fst r)), snd r))
  = Ok
    ([[CI 8 9; CI 8 3; CI 8 0; CI 8 1; CI 8 1; CI 8 2; CI 8 2; 
    CI 8 1; CI 8 3; CI 8 7; CI 8 7; CI 8 7; CI 8 7; CI 8 7; 
    CI 8 7; CI 8 7; CI 8 7]], 0%nat).
Proof. repeat split; vm_compute; reflexivity. Qed.

Theorem C88_SelectionSort_sort : forall (T : Type) (cmp : T -> list Z -> list Z -> T * bool) sc fuel es
    m t b o p n f,
  m !! b = Some (ints 8 o) -> 0 <= p <= len o -> is_s32 n -> is_s32 es ->
  (Z.to_nat n < fuel)%nat -> (Z.to_nat (u32 es) < fuel)%nat ->
  agree (call sc (byte_cmp cmp es) fuel c_SelectionSort_sort [bytes_at b p; VInt I32 n; VInt I32 es; VFun f] m t)
    (let! '(t, o) := SelectionSort_state cmp t o p n es in Ok (VUndef, <[b := ints 8 o]> m, t)).
Proof. exact @ref_SelectionSort_sort. Qed.
Print Assumptions C88_SelectionSort_sort.
Example C88_SelectionSort_sort_ex :
  (let! r := call true (byte_cmp first_byte 2) 100 c_SelectionSort_sort [bytes_at 0 1; VInt I32 4; VInt I32 2; VFun 7] [ints 8 [9;3;0;1;1;2;2;1;3;7;7;7;7;7;7;7;7]; ints 8 (replicate 64 0)] 0%nat in Ok (take 1 (snd (fst r)), snd r))
  = Ok
    ([[CI 8 9; CI 8 1; CI 8 1; CI 8 1; CI 8 3; CI 8 2; CI 8 2; 
    CI 8 3; CI 8 0; CI 8 7; CI 8 7; CI 8 7; CI 8 7; CI 8 7; 
    CI 8 7; CI 8 7; CI 8 7]], 6%nat) /\
  (let! r := call true (byte_cmp first_byte 2) 100 c_SelectionSort_sort [bytes_at 0 1; VInt I32 9; VInt I32 2; VFun 7] [ints 8 [9;3;0;1;1;2;2;1;3;7;7;7;7;7;7;7;7]; ints 8 (replicate 64 0)] 0%nat in Ok (take 1 (snd (fst r)), snd r))
  = UB OutOfBounds.
Proof. repeat split; vm_compute; reflexivity. Qed.

Theorem C88_InsertionSort_sort : forall (T : Type) (cmp : T -> list Z -> list Z -> T * bool) sc fuel es
    m t b o b' el p n f,
  m !! b = Some (ints 8 o) -> m !! b' = Some (ints 8 el) -> b <> b' -> is_s32 n -> is_s32 es ->
  (Z.to_nat n < fuel)%nat ->
  agree (call sc (byte_cmp cmp es) fuel c_InsertionSort_sort [bytes_at b' 0; bytes_at b p; VInt I32 n; VInt I32 es; VFun f] m t)
    (let! '(t, o, el) := InsertionSort_state cmp t o el p n es in
     Ok (VUndef, <[b' := ints 8 el]> (<[b := ints 8 o]> m), t)).
Proof. exact @ref_InsertionSort_sort. Qed.
Print Assumptions C88_InsertionSort_sort.
Example C88_InsertionSort_sort_ex :
  (let! r := call true (byte_cmp first_byte 2) 100 c_InsertionSort_sort [bytes_at 1 0; bytes_at 0 2; VInt I32 4; VInt I32 2; VFun 7] [ints 8 [9;9;3;0;1;1;2;2;1;3;7]; ints 8 (replicate 64 0)] 0%nat in Ok (take 1 (snd (fst r)), snd r))
  = Ok
    ([[CI 8 9; CI 8 9; CI 8 1; CI 8 1; CI 8 1; CI 8 3; CI 8 2; 
    CI 8 2; CI 8 3; CI 8 0; CI 8 7]], 7%nat) /\
  call true (byte_cmp first_byte 2) 100 c_InsertionSort_sort [bytes_at 1 0; bytes_at 0 0; VInt I32 4; VInt I32 2; VFun 7] [ints 8 [3;0;1;1;2;2;1;3;7]; ints 8 (replicate 64 0)] 0%nat
  = UB OutOfBounds.
Proof. repeat split; vm_compute; reflexivity. Qed.

Theorem C88_Heapify : forall (T : Type) (cmp : T -> list Z -> list Z -> T * bool) sc fuel es
    m t b o p n i f,
  m !! b = Some (ints 8 o) -> 0 <= p <= len o -> is_s32 n -> is_s32 i -> 0 <= i -> is_s32 es ->
  (S (Z.to_nat n) < fuel)%nat -> (Z.to_nat (u32 es) < fuel)%nat ->
  agree (call sc (byte_cmp cmp es) fuel c_Heapify [bytes_at b p; VInt I32 n; VInt I32 i; VInt I32 es; VFun f] m t)
    (let! '(t, o) := Heapify_state cmp t o p n i es in Ok (VUndef, <[b := ints 8 o]> m, t)).
Proof. exact @ref_Heapify. Qed.
Print Assumptions C88_Heapify.
Example C88_Heapify_ex :
  (let! r := call true (byte_cmp first_byte 2) 100 c_Heapify [bytes_at 0 1; VInt I32 4; VInt I32 0; VInt I32 2; VFun 7] [ints 8 [9;1;1;3;0;2;2;1;3;7;7;7;7;7;7;7;7]; ints 8 (replicate 64 0)] 0%nat in Ok (take 1 (snd (fst r)), snd r))
  = Ok
    ([[CI 8 9; CI 8 3; CI 8 0; CI 8 1; CI 8 1; CI 8 2; CI 8 2; 
    CI 8 1; CI 8 3; CI 8 7; CI 8 7; CI 8 7; CI 8 7; CI 8 7; 
    CI 8 7; CI 8 7; CI 8 7]], 4%nat) /\
  (let! r := call true (byte_cmp first_byte 2) 100 c_Heapify [bytes_at 0 1; VInt I32 3; VInt I32 1; VInt I32 2; VFun 7] [ints 8 [9;5;0;1;1;2;2;3;3;0;7;7;7;7;7;7;7]; ints 8 (replicate 64 0)] 0%nat in Ok (take 1 (snd (fst r)), snd r))
  = Ok
    ([[CI 8 9; CI 8 5; CI 8 0; CI 8 1; CI 8 1; CI 8 2; CI 8 2; 
    CI 8 3; CI 8 3; CI 8 0; CI 8 7; CI 8 7; CI 8 7; CI 8 7; 
    CI 8 7; CI 8 7; CI 8 7]], 2%nat).
Proof. repeat split; vm_compute; reflexivity. Qed.

Theorem C88_HeapSort_sort : forall (T : Type) (cmp : T -> list Z -> list Z -> T * bool) sc fuel es
    m t b o p n f,
  m !! b = Some (ints 8 o) -> 0 <= p <= len o -> is_s32 n -> is_s32 es ->
  (S (Z.to_nat n) < fuel)%nat -> (Z.to_nat (u32 es) < fuel)%nat ->
  agree (call sc (byte_cmp cmp es) fuel c_HeapSort_sort [bytes_at b p; VInt I32 n; VInt I32 es; VFun f] m t)
    (let! '(t, o) := HeapSort_state cmp t o p n es in Ok (VUndef, <[b := ints 8 o]> m, t)).
Proof. exact @ref_HeapSort_sort. Qed.
Print Assumptions C88_HeapSort_sort.
Example C88_HeapSort_sort_ex :
  (let! r := call true (byte_cmp first_byte 2) 100 c_HeapSort_sort [bytes_at 0 1; VInt I32 4; VInt I32 2; VFun 7] [ints 8 [9;3;0;1;1;2;2;1;3;7;7;7;7;7;7;7;7]; ints 8 (replicate 64 0)] 0%nat in Ok (take 1 (snd (fst r)), snd r))
  = Ok
    ([[CI 8 9; CI 8 1; CI 8 1; CI 8 1; CI 8 3; CI 8 2; CI 8 2; 
    CI 8 3; CI 8 0; CI 8 7; CI 8 7; CI 8 7; CI 8 7; CI 8 7; 
    CI 8 7; CI 8 7; CI 8 7]], 14%nat) /\
  (let! r := call true (byte_cmp first_byte 2) 100 c_HeapSort_sort [bytes_at 0 1; VInt I32 4; VInt I32 2; VFun 7] [ints 8 [9;3;0;1;1;2;2;1;3]; ints 8 (replicate 64 0)] 0%nat in Ok (take 1 (snd (fst r)), snd r))
  = UB OutOfBounds.
Proof. repeat split; vm_compute; reflexivity. Qed.
