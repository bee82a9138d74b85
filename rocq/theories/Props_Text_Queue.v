(** * C90: the hand-written model of queue.c against the C text

    [c_F] is the function [F] as produced from its C text by [tools/c2coq.py]; [call] runs it
    (CLang.v).  The structure is object [s], the buffer of the queue is object [b] and the
    caller's element is object [e]; [opt_ptr None] is the pointer [NULL]. *)
From Verif Require Import CSem Lib CLang C_Containers Model_Containers Drive_ContText Refine Refine_Queue.

Local Notation queue q := [queue_cells q 1; ints 8 (q_buffer q)].

Theorem C90_Queue_full : forall (W : Type) sc
    (ext : Z -> list val -> mem -> W -> outcome (val * mem * W)) fuel
    m w s b queue,
  opt_at queue (queue_at m s b) ->
  call sc ext fuel c_Queue_full [opt_ptr queue (struct_ptr 6 s)] m w
  = let! r := Queue_full queue in Ok (VInt IBool (b2z r), m, w).
Proof. exact @ref_Queue_full. Qed.
Print Assumptions C90_Queue_full.
Example C90_Queue_full_ex :
  call true no_ext 100 c_Queue_full [struct_ptr 6 0] (queue (mkQueue 1 2 2 3 2 [10; 11; 20; 21; 30; 31])) tt
  = Ok
    (VInt IBool 0,
    [[CI 32 1; CI 32 2; CI 32 2; CI 32 3; CI 32 2; CV (VPtr (TInt U8) (BObj 1) 0)];
    [CI 8 10; CI 8 11; CI 8 20; CI 8 21; CI 8 30; CI 8 31]], ()) /\
  call true no_ext 100 c_Queue_full [struct_ptr 6 0] (queue (mkQueue 1 0 3 3 2 [10; 11; 20; 21; 30; 31])) tt
  = Ok
    (VInt IBool 1,
    [[CI 32 1; CI 32 0; CI 32 3; CI 32 3; CI 32 2; CV (VPtr (TInt U8) (BObj 1) 0)];
    [CI 8 10; CI 8 11; CI 8 20; CI 8 21; CI 8 30; CI 8 31]], ()) /\
  call true no_ext 100 c_Queue_full [VNull] ([]) tt
  = UB NullDeref.
Proof. repeat split; vm_compute; reflexivity. Qed.

Theorem C90_Queue_empty : forall (W : Type) sc
    (ext : Z -> list val -> mem -> W -> outcome (val * mem * W)) fuel
    m w s b queue,
  opt_at queue (queue_at m s b) ->
  call sc ext fuel c_Queue_empty [opt_ptr queue (struct_ptr 6 s)] m w
  = let! r := Queue_empty queue in Ok (VInt IBool (b2z r), m, w).
Proof. exact @ref_Queue_empty. Qed.
Print Assumptions C90_Queue_empty.
Example C90_Queue_empty_ex :
  call true no_ext 100 c_Queue_empty [struct_ptr 6 0] (queue (mkQueue 1 2 2 3 2 [10; 11; 20; 21; 30; 31])) tt
  = Ok
    (VInt IBool 0,
    [[CI 32 1; CI 32 2; CI 32 2; CI 32 3; CI 32 2; CV (VPtr (TInt U8) (BObj 1) 0)];
    [CI 8 10; CI 8 11; CI 8 20; CI 8 21; CI 8 30; CI 8 31]], ()) /\
  call true no_ext 100 c_Queue_empty [struct_ptr 6 0] (queue (mkQueue 1 0 0 3 2 [10; 11; 20; 21; 30; 31])) tt
  = Ok
    (VInt IBool 1,
    [[CI 32 1; CI 32 0; CI 32 0; CI 32 3; CI 32 2; CV (VPtr (TInt U8) (BObj 1) 0)];
    [CI 8 10; CI 8 11; CI 8 20; CI 8 21; CI 8 30; CI 8 31]], ()) /\
  call true no_ext 100 c_Queue_empty [VNull] ([]) tt
  = UB NullDeref.
Proof. repeat split; vm_compute; reflexivity. Qed.

Theorem C90_Queue_enqueue : forall (W : Type) sc
    (ext : Z -> list val -> mem -> W -> outcome (val * mem * W)) fuel
    m w s b queue e element,
  opt_at queue (queue_at m s b) -> opt_at queue queue_u32 -> opt_at element (bytes_at m e) ->
  e <> b ->
  call sc ext fuel c_Queue_enqueue [opt_ptr queue (struct_ptr 6 s); opt_ptr element (byte_ptr e)] m w
  = let! '(r, queue) := Queue_enqueue queue element in
    Ok (VInt IBool (b2z r), opt_put queue (put_queue s b) m, w).
Proof. exact @ref_Queue_enqueue. Qed.
Print Assumptions C90_Queue_enqueue.
Example C90_Queue_enqueue_ex :
  call true no_ext 100 c_Queue_enqueue [struct_ptr 6 0; byte_ptr 2] (queue (mkQueue 1 2 2 3 2 [10; 11; 20; 21; 30; 31]) ++ [ints 8 [7; 8]]) tt
  = Ok
    (VInt IBool 1,
    [[CI 32 1; CI 32 0; CI 32 3; CI 32 3; CI 32 2; CV (VPtr (TInt U8) (BObj 1) 0)];
    [CI 8 7; CI 8 8; CI 8 20; CI 8 21; CI 8 30; CI 8 31]; [
    CI 8 7; CI 8 8]], ()) /\
  call true no_ext 100 c_Queue_enqueue [struct_ptr 6 0; byte_ptr 2] (queue (mkQueue 1 0 3 3 2 [10; 11; 20; 21; 30; 31]) ++ [ints 8 [7; 8]]) tt
  = Ok
    (VInt IBool 0,
    [[CI 32 1; CI 32 0; CI 32 3; CI 32 3; CI 32 2; CV (VPtr (TInt U8) (BObj 1) 0)];
    [CI 8 10; CI 8 11; CI 8 20; CI 8 21; CI 8 30; CI 8 31]; [
    CI 8 7; CI 8 8]], ()) /\
  call true no_ext 100 c_Queue_enqueue [struct_ptr 6 0; byte_ptr 2] (queue (mkQueue 1 2 2 3 2 [10; 11; 20; 21; 30; 31]) ++ [ints 8 [7]]) tt
  = UB OutOfBounds /\
  call true no_ext 100 c_Queue_enqueue [VNull; byte_ptr 2] (queue (mkQueue 1 2 2 3 2 [10; 11; 20; 21; 30; 31]) ++ [ints 8 [7; 8]]) tt
  = Ok
    (VInt IBool 0,
    [[CI 32 1; CI 32 2; CI 32 2; CI 32 3; CI 32 2; CV (VPtr (TInt U8) (BObj 1) 0)];
    [CI 8 10; CI 8 11; CI 8 20; CI 8 21; CI 8 30; CI 8 31]; [
    CI 8 7; CI 8 8]], ()).
Proof. repeat split; vm_compute; reflexivity. Qed.

Theorem C90_Queue_dequeue : forall (W : Type) sc
    (ext : Z -> list val -> mem -> W -> outcome (val * mem * W)) fuel
    m w s b queue e element,
  opt_at queue (queue_at m s b) -> opt_at queue queue_u32 -> opt_at element (bytes_at m e) ->
  e <> b ->
  call sc ext fuel c_Queue_dequeue [opt_ptr queue (struct_ptr 6 s); opt_ptr element (byte_ptr e)] m w
  = let! '(r, queue, element) := Queue_dequeue queue element in
    Ok (VInt IBool (b2z r),
        opt_put queue (put_queue s b) (opt_put element (put_bytes e) m), w).
Proof. exact @ref_Queue_dequeue. Qed.
Print Assumptions C90_Queue_dequeue.
Example C90_Queue_dequeue_ex :
  call true no_ext 100 c_Queue_dequeue [struct_ptr 6 0; byte_ptr 2] (queue (mkQueue 1 0 3 3 2 [10; 11; 20; 21; 30; 31]) ++ [ints 8 [7; 8]]) tt
  = Ok
    (VInt IBool 1,
    [[CI 32 2; CI 32 0; CI 32 2; CI 32 3; CI 32 2; CV (VPtr (TInt U8) (BObj 1) 0)];
    [CI 8 10; CI 8 11; CI 8 20; CI 8 21; CI 8 30; CI 8 31]; [
    CI 8 20; CI 8 21]], ()) /\
  call true no_ext 100 c_Queue_dequeue [struct_ptr 6 0; byte_ptr 2] (queue (mkQueue 1 0 0 3 2 [10; 11; 20; 21; 30; 31]) ++ [ints 8 [7; 8]]) tt
  = Ok
    (VInt IBool 0,
    [[CI 32 1; CI 32 0; CI 32 0; CI 32 3; CI 32 2; CV (VPtr (TInt U8) (BObj 1) 0)];
    [CI 8 10; CI 8 11; CI 8 20; CI 8 21; CI 8 30; CI 8 31]; [
    CI 8 7; CI 8 8]], ()).
Proof. repeat split; vm_compute; reflexivity. Qed.

Theorem C90_Queue_front : forall (W : Type) sc
    (ext : Z -> list val -> mem -> W -> outcome (val * mem * W)) fuel
    m w s b queue e element,
  opt_at queue (queue_at m s b) -> opt_at queue queue_u32 -> opt_at element (bytes_at m e) ->
  e <> b ->
  call sc ext fuel c_Queue_front [opt_ptr queue (struct_ptr 6 s); opt_ptr element (byte_ptr e)] m w
  = let! '(r, element) := Queue_front queue element in
    Ok (VInt IBool (b2z r), opt_put element (put_bytes e) m, w).
Proof. exact @ref_Queue_front. Qed.
Print Assumptions C90_Queue_front.
Example C90_Queue_front_ex :
  call true no_ext 100 c_Queue_front [struct_ptr 6 0; byte_ptr 2] (queue (mkQueue 1 0 3 3 2 [10; 11; 20; 21; 30; 31]) ++ [ints 8 [7; 8]]) tt
  = Ok
    (VInt IBool 1,
    [[CI 32 1; CI 32 0; CI 32 3; CI 32 3; CI 32 2; CV (VPtr (TInt U8) (BObj 1) 0)];
    [CI 8 10; CI 8 11; CI 8 20; CI 8 21; CI 8 30; CI 8 31]; [
    CI 8 20; CI 8 21]], ()) /\
  call true no_ext 100 c_Queue_front [struct_ptr 6 0; byte_ptr 2] (queue (mkQueue 1 0 0 3 2 [10; 11; 20; 21; 30; 31]) ++ [ints 8 [7; 8]]) tt
  = Ok
    (VInt IBool 0,
    [[CI 32 1; CI 32 0; CI 32 0; CI 32 3; CI 32 2; CV (VPtr (TInt U8) (BObj 1) 0)];
    [CI 8 10; CI 8 11; CI 8 20; CI 8 21; CI 8 30; CI 8 31]; [
    CI 8 7; CI 8 8]], ()).
Proof. repeat split; vm_compute; reflexivity. Qed.

Theorem C90_Queue_rear : forall (W : Type) sc
    (ext : Z -> list val -> mem -> W -> outcome (val * mem * W)) fuel
    m w s b queue e element,
  opt_at queue (queue_at m s b) -> opt_at queue queue_u32 -> opt_at element (bytes_at m e) ->
  e <> b ->
  call sc ext fuel c_Queue_rear [opt_ptr queue (struct_ptr 6 s); opt_ptr element (byte_ptr e)] m w
  = let! '(r, element) := Queue_rear queue element in
    Ok (VInt IBool (b2z r), opt_put element (put_bytes e) m, w).
Proof. exact @ref_Queue_rear. Qed.
Print Assumptions C90_Queue_rear.
Example C90_Queue_rear_ex :
  call true no_ext 100 c_Queue_rear [struct_ptr 6 0; byte_ptr 2] (queue (mkQueue 1 0 3 3 2 [10; 11; 20; 21; 30; 31]) ++ [ints 8 [7; 8]]) tt
  = Ok
    (VInt IBool 1,
    [[CI 32 1; CI 32 0; CI 32 3; CI 32 3; CI 32 2; CV (VPtr (TInt U8) (BObj 1) 0)];
    [CI 8 10; CI 8 11; CI 8 20; CI 8 21; CI 8 30; CI 8 31]; [
    CI 8 10; CI 8 11]], ()) /\
  call true no_ext 100 c_Queue_rear [struct_ptr 6 0; byte_ptr 2] (queue (mkQueue 1 0 0 3 2 [10; 11; 20; 21; 30; 31]) ++ [ints 8 [7; 8]]) tt
  = Ok
    (VInt IBool 0,
    [[CI 32 1; CI 32 0; CI 32 0; CI 32 3; CI 32 2; CV (VPtr (TInt U8) (BObj 1) 0)];
    [CI 8 10; CI 8 11; CI 8 20; CI 8 21; CI 8 30; CI 8 31]; [
    CI 8 7; CI 8 8]], ()).
Proof. repeat split; vm_compute; reflexivity. Qed.

Theorem C90_Queue_init : forall (W : Type) sc
    (ext : Z -> list val -> mem -> W -> outcome (val * mem * W)) fuel
    m w s b queue old capacity element_size buffer,
  opt_at queue (fun _ => m !! s = Some old /\ queue_shape old) ->
  opt_at buffer (bytes_at m b) -> is_u32 capacity -> is_u32 element_size ->
  call sc ext fuel c_Queue_init [opt_ptr queue (struct_ptr 6 s); VInt U32 capacity; VInt U32 element_size;
                    opt_ptr buffer (byte_ptr b)] m w
  = let! '(r, queue) := Queue_init queue capacity element_size buffer in
    Ok (VInt IBool (b2z r), if r then opt_put queue (put_queue s b) m else m, w).
Proof. exact @ref_Queue_init. Qed.
Print Assumptions C90_Queue_init.
Example C90_Queue_init_ex :
  call true no_ext 100 c_Queue_init [struct_ptr 6 0; VInt U32 2; VInt U32 3; byte_ptr 1] ([replicate 6 (CV VUndef); ints 8 [1; 2; 3; 4; 5; 6]]) tt
  = Ok
    (VInt IBool 1,
    [[CI 32 0; CI 32 1; CI 32 0; CI 32 2; CI 32 3; CV (VPtr (TInt U8) (BObj 1) 0)];
    [CI 8 1; CI 8 2; CI 8 3; CI 8 4; CI 8 5; CI 8 6]], ()) /\
  call true no_ext 100 c_Queue_init [struct_ptr 6 0; VInt U32 0; VInt U32 3; byte_ptr 1] ([replicate 6 (CV VUndef); ints 8 [1; 2]]) tt
  = Ok
    (VInt IBool 0,
    [[CV VUndef; CV VUndef; CV VUndef; CV VUndef; CV VUndef; CV VUndef];
    [CI 8 1; CI 8 2]], ()) /\
  call true no_ext 100 c_Queue_init [VNull; VInt U32 2; VInt U32 1; byte_ptr 1] ([replicate 6 (CV VUndef); ints 8 [1; 2]]) tt
  = UB NullDeref.
Proof. repeat split; vm_compute; reflexivity. Qed.
