(** * C91: the hand-written model of priority_queue.c against the C text

    [c_F] is the function [F] as produced from its C text by [tools/c2coq.py]; [call] runs it
    (CLang.v).  The structure is object [s], its priorities are object [p] and its buffer is
    object [b]; [opt_ptr None] is the pointer [NULL].  An item is object [i] with its priority and
    its element in the objects [ip] and [ie].  With a [NULL] item or element both sides are
    undefined whenever it would be used ([agree]: not always for the same reason). *)
From Verif Require Import CSem Lib CLang C_Containers Model_Containers Drive_ContText Drive_SortText
  Refine Refine_PQ Refine_PQEnq.

Local Notation pq q := [pq_cells q 1 2; ints 32 (pq_priority_array q); ints 8 (pq_buffer q)].

Theorem C91_PQ_Full : forall (W : Type) sc
    (ext : Z -> list val -> mem -> W -> outcome (val * mem * W)) fuel
    m w s p b q,
  pq_at m s p b q ->
  call sc ext fuel c_PQ_Full [struct_ptr 5 s] m w = Ok (VInt IBool (b2z (PQ_Full q)), m, w).
Proof. exact @ref_PQ_Full. Qed.
Print Assumptions C91_PQ_Full.
Example C91_PQ_Full_ex :
  call true no_ext 100 c_PQ_Full [struct_ptr 5 0] (pq (mkPQ 3 3 1 [5; 9; 5] [50; 90; 51])) tt
  = Ok
    (VInt IBool 1,
    [[CI 32 3; CI 32 3; CI 32 1; CV (VPtr (TInt U32) (BObj 1) 0);
    CV (VPtr (TInt U8) (BObj 2) 0)]; [CI 32 5; CI 32 9; CI 32 5];
    [CI 8 50; CI 8 90; CI 8 51]], ()) /\
  call true no_ext 100 c_PQ_Full [struct_ptr 5 0] (pq (mkPQ 2 3 1 [5; 9; 0] [50; 90; 0])) tt
  = Ok
    (VInt IBool 0,
    [[CI 32 2; CI 32 3; CI 32 1; CV (VPtr (TInt U32) (BObj 1) 0);
    CV (VPtr (TInt U8) (BObj 2) 0)]; [CI 32 5; CI 32 9; CI 32 0];
    [CI 8 50; CI 8 90; CI 8 0]], ()) /\
  call true no_ext 100 c_PQ_Full [struct_ptr 5 0] (pq (mkPQ 4 3 1 [5; 9; 5] [])) tt
  = Ok
    (VInt IBool 0,
    [[CI 32 4; CI 32 3; CI 32 1; CV (VPtr (TInt U32) (BObj 1) 0);
    CV (VPtr (TInt U8) (BObj 2) 0)]; [CI 32 5; CI 32 9; CI 32 5]; []], ()).
Proof. repeat split; vm_compute; reflexivity. Qed.

Theorem C91_PriorityQueue_empty : forall (W : Type) sc
    (ext : Z -> list val -> mem -> W -> outcome (val * mem * W)) fuel
    m w s p b queue,
  opt_at queue (pq_at m s p b) ->
  call sc ext fuel c_PriorityQueue_empty [opt_ptr queue (struct_ptr 5 s)] m w
  = let! r := PriorityQueue_empty queue in Ok (VInt IBool (b2z r), m, w).
Proof. exact @ref_PriorityQueue_empty. Qed.
Print Assumptions C91_PriorityQueue_empty.
Example C91_PriorityQueue_empty_ex :
  call true no_ext 100 c_PriorityQueue_empty [struct_ptr 5 0] (pq (mkPQ 0 3 1 [5; 9; 5] [50; 90; 51])) tt
  = Ok
    (VInt IBool 1,
    [[CI 32 0; CI 32 3; CI 32 1; CV (VPtr (TInt U32) (BObj 1) 0);
    CV (VPtr (TInt U8) (BObj 2) 0)]; [CI 32 5; CI 32 9; CI 32 5];
    [CI 8 50; CI 8 90; CI 8 51]], ()) /\
  call true no_ext 100 c_PriorityQueue_empty [struct_ptr 5 0] (pq (mkPQ 2 3 1 [5; 9; 0] [50; 90; 0])) tt
  = Ok
    (VInt IBool 0,
    [[CI 32 2; CI 32 3; CI 32 1; CV (VPtr (TInt U32) (BObj 1) 0);
    CV (VPtr (TInt U8) (BObj 2) 0)]; [CI 32 5; CI 32 9; CI 32 0];
    [CI 8 50; CI 8 90; CI 8 0]], ()) /\
  call true no_ext 100 c_PriorityQueue_empty [VNull] ([]) tt
  = UB NullDeref.
Proof. repeat split; vm_compute; reflexivity. Qed.

Theorem C91_GetHighestPriorityIndex : forall (W : Type) sc
    (ext : Z -> list val -> mem -> W -> outcome (val * mem * W)) fuel
    m w s p b q,
  pq_at m s p b q -> pq_u32 q -> pq_size q < Z.of_nat fuel ->
  call sc ext fuel c_PQ_GetHighestPriorityIndex [struct_ptr 5 s] m w
  = let! r := GetHighestPriorityIndex q in Ok (VInt U32 r, m, w).
Proof. exact @ref_GetHighestPriorityIndex. Qed.
Print Assumptions C91_GetHighestPriorityIndex.
Example C91_GetHighestPriorityIndex_ex :
  call true no_ext 100 c_PQ_GetHighestPriorityIndex [struct_ptr 5 0] (pq (mkPQ 3 3 1 [5; 9; 5] [50; 90; 51])) tt
  = Ok
    (VInt U32 1,
    [[CI 32 3; CI 32 3; CI 32 1; CV (VPtr (TInt U32) (BObj 1) 0);
    CV (VPtr (TInt U8) (BObj 2) 0)]; [CI 32 5; CI 32 9; CI 32 5];
    [CI 8 50; CI 8 90; CI 8 51]], ()) /\
  call true no_ext 100 c_PQ_GetHighestPriorityIndex [struct_ptr 5 0] (pq (mkPQ 2 3 1 [9; 9; 10] [])) tt
  = Ok
    (VInt U32 0,
    [[CI 32 2; CI 32 3; CI 32 1; CV (VPtr (TInt U32) (BObj 1) 0);
    CV (VPtr (TInt U8) (BObj 2) 0)]; [CI 32 9; CI 32 9; CI 32 10]; []], ()) /\
  call true no_ext 100 c_PQ_GetHighestPriorityIndex [struct_ptr 5 0] (pq (mkPQ 3 3 1 [5; 9] [])) tt
  = UB OutOfBounds.
Proof. repeat split; vm_compute; reflexivity. Qed.

Theorem C91_GetLowestPriorityIndex : forall (W : Type) sc
    (ext : Z -> list val -> mem -> W -> outcome (val * mem * W)) fuel
    m w s p b q,
  pq_at m s p b q -> pq_u32 q -> pq_size q < Z.of_nat fuel ->
  call sc ext fuel c_PQ_GetLowestPriorityIndex [struct_ptr 5 s] m w
  = let! r := GetLowestPriorityIndex q in Ok (VInt U32 r, m, w).
Proof. exact @ref_GetLowestPriorityIndex. Qed.
Print Assumptions C91_GetLowestPriorityIndex.
Example C91_GetLowestPriorityIndex_ex :
  call true no_ext 100 c_PQ_GetLowestPriorityIndex [struct_ptr 5 0] (pq (mkPQ 3 3 1 [5; 9; 5] [50; 90; 51])) tt
  = Ok
    (VInt U32 0,
    [[CI 32 3; CI 32 3; CI 32 1; CV (VPtr (TInt U32) (BObj 1) 0);
    CV (VPtr (TInt U8) (BObj 2) 0)]; [CI 32 5; CI 32 9; CI 32 5];
    [CI 8 50; CI 8 90; CI 8 51]], ()) /\
  call true no_ext 100 c_PQ_GetLowestPriorityIndex [struct_ptr 5 0] (pq (mkPQ 2 3 1 [9; 9; 7] [])) tt
  = Ok
    (VInt U32 0,
    [[CI 32 2; CI 32 3; CI 32 1; CV (VPtr (TInt U32) (BObj 1) 0);
    CV (VPtr (TInt U8) (BObj 2) 0)]; [CI 32 9; CI 32 9; CI 32 7]; []], ()) /\
  call true no_ext 100 c_PQ_GetLowestPriorityIndex [struct_ptr 5 0] (pq (mkPQ 3 3 1 [9; 7; 8] [])) tt
  = Ok
    (VInt U32 1,
    [[CI 32 3; CI 32 3; CI 32 1; CV (VPtr (TInt U32) (BObj 1) 0);
    CV (VPtr (TInt U8) (BObj 2) 0)]; [CI 32 9; CI 32 7; CI 32 8]; []], ()).
Proof. repeat split; vm_compute; reflexivity. Qed.

Theorem C91_PriorityQueue_init : forall (W : Type) sc
    (ext : Z -> list val -> mem -> W -> outcome (val * mem * W)) fuel
    m w s p b i queue old capacity element_size items,
  opt_at queue (fun _ => m !! s = Some old /\ pq_shape old) ->
  opt_at items (item_at m i p b) -> is_u32 capacity -> is_u32 element_size ->
  call sc ext fuel c_PriorityQueue_init [opt_ptr queue (struct_ptr 5 s); VInt U32 capacity;
                            VInt U32 element_size; opt_ptr items (struct_ptr 2 i)] m w
  = let! '(r, queue) := PriorityQueue_init queue capacity element_size items in
    Ok (VInt IBool (b2z r), if r then opt_put queue (put_pq s p b) m else m, w).
Proof. exact @ref_PriorityQueue_init. Qed.
Print Assumptions C91_PriorityQueue_init.
Example C91_PriorityQueue_init_ex :
  call true no_ext 100 c_PriorityQueue_init [struct_ptr 5 0; VInt U32 2; VInt U32 1; struct_ptr 2 1] ([replicate 5 (CV VUndef); item_cells 2 3; ints 32 [7; 7]; ints 8 [1; 2]]) tt
  = Ok
    (VInt IBool 1,
    [[CI 32 0; CI 32 2; CI 32 1; CV (VPtr (TInt U32) (BObj 2) 0);
    CV (VPtr (TInt U8) (BObj 3) 0)];
    [CV (VPtr (TInt U32) (BObj 2) 0); CV (VPtr (TInt U8) (BObj 3) 0)];
    [CI 32 7; CI 32 7]; [CI 8 1; CI 8 2]], ()) /\
  call true no_ext 100 c_PriorityQueue_init [struct_ptr 5 0; VInt U32 2; VInt U32 0; struct_ptr 2 1] ([replicate 5 (CV VUndef); item_cells 2 3; ints 32 [7; 7]; ints 8 [1; 2]]) tt
  = Ok
    (VInt IBool 0,
    [[CV VUndef; CV VUndef; CV VUndef; CV VUndef; CV VUndef];
    [CV (VPtr (TInt U32) (BObj 2) 0); CV (VPtr (TInt U8) (BObj 3) 0)];
    [CI 32 7; CI 32 7]; [CI 8 1; CI 8 2]], ()) /\
  call true no_ext 100 c_PriorityQueue_init [struct_ptr 5 0; VInt U32 2; VInt U32 1; VNull] ([replicate 5 (CV VUndef)]) tt
  = Ok (VInt IBool 0, [[CV VUndef; CV VUndef; CV VUndef; CV VUndef; CV VUndef]], ()).
Proof. repeat split; vm_compute; reflexivity. Qed.

Theorem C91_PriorityQueue_enqueue : forall (W : Type) sc
    (ext : Z -> list val -> mem -> W -> outcome (val * mem * W)) fuel
    m w s p b queue i ip ie item,
  opt_at queue (pq_at m s p b) -> opt_at queue pq_u32 ->
  item_at m i ip ie item -> Forall is_u32 (it_priority item) ->
  ip <> p -> ip <> b -> ie <> p -> ie <> b ->
  opt_at queue (fun q => pq_size q < Z.of_nat fuel /\
    (pq_size q = pq_capacity q -> u32 (pq_size q - 1) < Z.of_nat fuel)) ->
  call sc ext fuel c_PriorityQueue_enqueue [opt_ptr queue (struct_ptr 5 s); struct_ptr 2 i] m w
  = let! '(r, queue) := PriorityQueue_enqueue queue (Some item) in
    Ok (VInt IBool (b2z r), opt_put queue (put_pq s p b) m, w).
Proof. exact @ref_PriorityQueue_enqueue. Qed.
Print Assumptions C91_PriorityQueue_enqueue.
Example C91_PriorityQueue_enqueue_ex :
  call true no_ext 100 c_PriorityQueue_enqueue [struct_ptr 5 0; struct_ptr 2 3] (pq (mkPQ 2 3 1 [5; 9; 0] [50; 90; 0]) ++ [item_cells 4 5; ints 32 [7]; ints 8 [70]]) tt
  = Ok
    (VInt IBool 1,
    [[CI 32 3; CI 32 3; CI 32 1; CV (VPtr (TInt U32) (BObj 1) 0);
    CV (VPtr (TInt U8) (BObj 2) 0)]; [CI 32 5; CI 32 9; CI 32 7];
    [CI 8 50; CI 8 90; CI 8 70];
    [CV (VPtr (TInt U32) (BObj 4) 0); CV (VPtr (TInt U8) (BObj 5) 0)]; [
    CI 32 7]; [CI 8 70]], ()) /\
  call true no_ext 100 c_PriorityQueue_enqueue [struct_ptr 5 0; struct_ptr 2 3] (pq (mkPQ 3 3 1 [5; 9; 5] [50; 90; 51]) ++ [item_cells 4 5; ints 32 [7]; ints 8 [70]]) tt
  = Ok
    (VInt IBool 1,
    [[CI 32 3; CI 32 3; CI 32 1; CV (VPtr (TInt U32) (BObj 1) 0);
    CV (VPtr (TInt U8) (BObj 2) 0)]; [CI 32 9; CI 32 5; CI 32 7];
    [CI 8 90; CI 8 51; CI 8 70];
    [CV (VPtr (TInt U32) (BObj 4) 0); CV (VPtr (TInt U8) (BObj 5) 0)]; [
    CI 32 7]; [CI 8 70]], ()) /\
  call true no_ext 100 c_PriorityQueue_enqueue [struct_ptr 5 0; struct_ptr 2 3] (pq (mkPQ 3 3 1 [5; 9; 5] [50; 90; 51]) ++ [item_cells 4 5; ints 32 [5]; ints 8 [70]]) tt
  = Ok
    (VInt IBool 0,
    [[CI 32 3; CI 32 3; CI 32 1; CV (VPtr (TInt U32) (BObj 1) 0);
    CV (VPtr (TInt U8) (BObj 2) 0)]; [CI 32 5; CI 32 9; CI 32 5];
    [CI 8 50; CI 8 90; CI 8 51];
    [CV (VPtr (TInt U32) (BObj 4) 0); CV (VPtr (TInt U8) (BObj 5) 0)]; [
    CI 32 5]; [CI 8 70]], ()) /\
  call true no_ext 100 c_PriorityQueue_enqueue [struct_ptr 5 0; struct_ptr 2 3] (pq (mkPQ 3 3 1 [9; 5; 7] [90; 50; 70]) ++ [item_cells 4 5; ints 32 [8]; ints 8 [80]]) tt
  = Ok
    (VInt IBool 1,
    [[CI 32 3; CI 32 3; CI 32 1; CV (VPtr (TInt U32) (BObj 1) 0);
    CV (VPtr (TInt U8) (BObj 2) 0)]; [CI 32 9; CI 32 7; CI 32 8];
    [CI 8 90; CI 8 70; CI 8 80];
    [CV (VPtr (TInt U32) (BObj 4) 0); CV (VPtr (TInt U8) (BObj 5) 0)]; [
    CI 32 8]; [CI 8 80]], ()).
Proof. repeat split; vm_compute; reflexivity. Qed.

Theorem C91_PriorityQueue_dequeue : forall (W : Type) sc
    (ext : Z -> list val -> mem -> W -> outcome (val * mem * W)) fuel
    m w s p b queue e el,
  opt_at queue (pq_at m s p b) -> opt_at queue pq_u32 -> bytes_at m e el -> e <> p -> e <> b ->
  opt_at queue (fun q => pq_size q < Z.of_nat fuel) ->
  call sc ext fuel c_PriorityQueue_dequeue [opt_ptr queue (struct_ptr 5 s); byte_ptr e] m w
  = let! '(r, queue, element) := PriorityQueue_dequeue queue (Some el) in
    Ok (VInt IBool (b2z r),
        opt_put queue (put_pq s p b) (opt_put element (put_bytes e) m), w).
Proof. exact @ref_PriorityQueue_dequeue. Qed.
Print Assumptions C91_PriorityQueue_dequeue.
Example C91_PriorityQueue_dequeue_ex :
  call true no_ext 100 c_PriorityQueue_dequeue [struct_ptr 5 0; byte_ptr 3] (pq (mkPQ 3 3 1 [5; 9; 5] [50; 90; 51]) ++ [ints 8 [0]]) tt
  = Ok
    (VInt IBool 1,
    [[CI 32 2; CI 32 3; CI 32 1; CV (VPtr (TInt U32) (BObj 1) 0);
    CV (VPtr (TInt U8) (BObj 2) 0)]; [CI 32 5; CI 32 5; CI 32 5];
    [CI 8 50; CI 8 51; CI 8 51]; [CI 8 90]], ()) /\
  call true no_ext 100 c_PriorityQueue_dequeue [struct_ptr 5 0; byte_ptr 3] (pq (mkPQ 0 3 1 [5; 9; 5] [50; 90; 51]) ++ [ints 8 [0]]) tt
  = Ok
    (VInt IBool 0,
    [[CI 32 0; CI 32 3; CI 32 1; CV (VPtr (TInt U32) (BObj 1) 0);
    CV (VPtr (TInt U8) (BObj 2) 0)]; [CI 32 5; CI 32 9; CI 32 5];
    [CI 8 50; CI 8 90; CI 8 51]; [CI 8 0]], ()).
Proof. repeat split; vm_compute; reflexivity. Qed.

Theorem C91_PriorityQueue_enqueue_null : forall (W : Type) sc
    (ext : Z -> list val -> mem -> W -> outcome (val * mem * W)) fuel
    m w s p b queue,
  opt_at queue (pq_at m s p b) -> opt_at queue pq_u32 ->
  opt_at queue (fun q => pq_size q < Z.of_nat fuel) ->
  agree (call sc ext fuel c_PriorityQueue_enqueue [opt_ptr queue (struct_ptr 5 s); VNull] m w)
    (let! '(r, queue) := PriorityQueue_enqueue queue None in
     Ok (VInt IBool (b2z r), opt_put queue (put_pq s p b) m, w)).
Proof. exact @ref_PriorityQueue_enqueue_null. Qed.
Print Assumptions C91_PriorityQueue_enqueue_null.
Example C91_PriorityQueue_enqueue_null_ex :
  call true no_ext 100 c_PriorityQueue_enqueue [struct_ptr 5 0; VNull] (pq (mkPQ 3 3 1 [5; 9; 5] [50; 90; 51])) tt
  = UB NullDeref.
Proof. repeat split; vm_compute; reflexivity. Qed.

Theorem C91_PriorityQueue_dequeue_null : forall (W : Type) sc
    (ext : Z -> list val -> mem -> W -> outcome (val * mem * W)) fuel
    m w s p b queue,
  opt_at queue (pq_at m s p b) -> opt_at queue pq_u32 ->
  opt_at queue (fun q => pq_size q < Z.of_nat fuel) ->
  agree (call sc ext fuel c_PriorityQueue_dequeue [opt_ptr queue (struct_ptr 5 s); VNull] m w)
    (let! '(r, queue, _) := PriorityQueue_dequeue queue None in
     Ok (VInt IBool (b2z r), opt_put queue (put_pq s p b) m, w)).
Proof. exact @ref_PriorityQueue_dequeue_null. Qed.
Print Assumptions C91_PriorityQueue_dequeue_null.
Example C91_PriorityQueue_dequeue_null_ex :
  call true no_ext 100 c_PriorityQueue_dequeue [struct_ptr 5 0; VNull] (pq (mkPQ 3 3 1 [5; 9; 5] [50; 90; 51])) tt
  = UB NullDeref /\
  call true no_ext 100 c_PriorityQueue_dequeue [struct_ptr 5 0; VNull] (pq (mkPQ 0 3 1 [5; 9; 5] [50; 90; 51])) tt
  = Ok
    (VInt IBool 0,
    [[CI 32 0; CI 32 3; CI 32 1; CV (VPtr (TInt U32) (BObj 1) 0);
    CV (VPtr (TInt U8) (BObj 2) 0)]; [CI 32 5; CI 32 9; CI 32 5];
    [CI 8 50; CI 8 90; CI 8 51]], ()).
Proof. repeat split; vm_compute; reflexivity. Qed.
