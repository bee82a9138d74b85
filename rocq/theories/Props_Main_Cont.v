(** * C94-C97: clients of the C text of the containers and of the scheduler

    Composition of the theorems about the models (C15, C20, C25, C30, C31) with those that equate the
    models and the C text (C90-C93): nothing below mentions a hand-written model of the code.
    [c_F] is the function [F] produced from its C text, [call] runs it (CLang.v), and
    [queue_call], [pq_call], [map_call], [schedule] make one call after the other
    (Drive_TextRun.v). *)
From stdpp Require Import gmap.
From Verif Require Import CSem Lib CLang C_Containers Model_Containers Drive_ContText Drive_TextRun Refine
  Spec_Queue Drive_Queue Proof_TextQueue
  Spec_PriorityQueue Drive_PriorityQueue Proof_TextPQ Spec_Map Drive_Map Proof_TextMap
  Spec_Scheduler Drive_Scheduler Proof_TextSched.

(** ** C94 The text of queue.c is a bounded queue *)

Theorem C94_queue : forall sc fuel m s b old cap es buf ops,
  m !! s = Some old -> queue_shape old -> m !! b = Some (ints 8 buf) ->
  queue_sizes cap es buf -> Forall (qop_ok es) ops ->
  exists m1 m2,
    call sc no_ext fuel c_Queue_init [struct_ptr 6 s; VInt U32 cap; VInt U32 es; byte_ptr b] m tt
    = Ok (VInt IBool 1, m1, tt) /\
    calls (queue_call sc fuel s) ops m1 = Ok ((fifo cap es ops []).1, m2) /\
    same_but [s; b] m m1 /\ same_but [s; b] m1 m2.
Proof. exact text_queue_fifo. Qed.
Print Assumptions C94_queue.
(** two elements of two bytes, in a structure that was not written before *)
Example C94_queue_ex :
  let m := [replicate 6 (CV VUndef); ints 8 [1; 2; 3; 4]] in
  (let! '(r, m1, _) :=
    call true no_ext 50 c_Queue_init [struct_ptr 6 0; VInt U32 2; VInt U32 2; byte_ptr 1] m tt in
  let! '(rs, m2) := calls (queue_call true 50 0)
    [IsEmpty; Enqueue [10; 11]; Enqueue [20; 21; 22]; IsFull; Enqueue [30; 31]; Front [0; 0; 9];
     Rear [0; 0]; Dequeue [0; 0]; Enqueue [40; 41]; Dequeue [0; 0]; Dequeue [0; 0]; Dequeue [5; 6]] m1 in
  Ok (r, rs, m2))
  = Ok (VInt IBool 1,
        [(true, []); (true, [10; 11]); (true, [20; 21; 22]); (true, []); (false, [30; 31]);
         (true, [10; 11; 9]); (true, [20; 21]); (true, [10; 11]); (true, [40; 41]);
         (true, [20; 21]); (true, [40; 41]); (false, [5; 6])],
        [ints 32 [1; 0; 0; 2; 2] ++ [CV (byte_ptr 1)]; ints 8 [40; 41; 20; 21]]).
Proof. vm_compute. reflexivity. Qed.

(** ** C95 The text of priority_queue.c is a bounded priority queue *)

Theorem C95_priority_queue : forall sc fuel m s p b i old cap es prios buf ops,
  m !! s = Some old -> pq_shape old -> m !! i = Some (item_cells p b) ->
  m !! p = Some (ints 32 prios) -> m !! b = Some (ints 8 buf) -> p <> b -> Forall is_u32 prios ->
  pq_sizes cap es (mkItem prios buf) -> cap < Z.of_nat fuel ->
  Forall (pqop_ok es) ops -> Forall op_u32 ops ->
  exists m1 m2,
    call sc no_ext fuel c_PriorityQueue_init
      [struct_ptr 5 s; VInt U32 cap; VInt U32 es; struct_ptr 2 i] m tt
    = Ok (VInt IBool 1, m1, tt) /\
    calls (pq_call sc fuel s) ops m1 = Ok ((prio cap es ops []).1, m2) /\
    same_but [s; p; b] m m1 /\ same_but [s; p; b] m1 m2.
Proof. exact text_pq_behaves. Qed.
Print Assumptions C95_priority_queue.
(** the fourth element replaces the one of the lowest priority, the last one is refused *)
Example C95_priority_queue_ex :
  let m := [replicate 5 (CV VUndef); ints 32 [0; 0; 0]; ints 8 [0; 0; 0];
            item_cells 1 2] in
  (let! '(r, m1, _) :=
    call true no_ext 50 c_PriorityQueue_init [struct_ptr 5 0; VInt U32 3; VInt U32 1; struct_ptr 2 3] m tt in
  let! '(rs, _) := calls (pq_call true 50 0)
    [PIsEmpty; PEnqueue 5 [50]; PEnqueue 2 [20]; PEnqueue 5 [51]; PEnqueue 3 [30]; PEnqueue 3 [31];
     PDequeue [0]; PDequeue [0]; PDequeue [0]; PDequeue [7]] m1 in
  Ok (r, rs))
  = Ok (VInt IBool 1,
        [(true, []); (true, [50]); (true, [20]); (true, [51]); (true, [30]); (false, [31]);
         (true, [50]); (true, [51]); (true, [30]); (false, [7])]).
Proof. vm_compute. reflexivity. Qed.

(** ** C96 The text of map.c is a bounded map *)

Theorem C96_map : forall sc fuel m s kb vb old mx ks vs keys vals ops,
  m !! s = Some old -> map_shape old ->
  m !! kb = Some (ints 8 keys) -> m !! vb = Some (ints 8 vals) -> kb <> vb ->
  map_sizes mx ks vs keys vals -> mx < Z.of_nat fuel -> Forall (mop_ok ks vs) ops ->
  exists m1 m2,
    call sc no_ext fuel c_Map_init
      [struct_ptr 6 s; byte_ptr kb; byte_ptr vb; VInt I32 ks; VInt I32 vs; VInt I32 mx] m tt
    = Ok (VInt IBool 1, m1, tt) /\
    calls (map_call sc fuel s) ops m1 = Ok ((map_ops mx ks vs ops ∅).1, m2) /\
    same_but [s; kb; vb] m m1 /\ same_but [s; kb; vb] m1 m2.
Proof. exact text_map_behaves. Qed.
Print Assumptions C96_map.
Example C96_map_ex :
  let m := [replicate 6 (CV VUndef); ints 8 [0; 0; 0; 0]; ints 8 [0; 0]] in
  (let! '(r, m1, _) := call true no_ext 50 c_Map_init
    [struct_ptr 6 0; byte_ptr 1; byte_ptr 2; VInt I32 2; VInt I32 1; VInt I32 2] m tt in
  let! '(rs, _) := calls (map_call true 50 0)
    [GetValue [1; 2] [9]; Insert [1; 2] [30]; Insert [1; 3] [31]; Insert [1; 4] [32];
     Insert [1; 2] [33]; GetValue [1; 3; 7] [0; 8]; GetValue [1; 2] [0]; GetValue [1; 4] [9]] m1 in
  Ok (r, rs))
  = Ok (VInt IBool 1,
        [(false, [9]); (true, [30]); (true, [31]); (false, [32]); (true, [33]);
         (true, [31; 8]); (true, [33]); (false, [9])]).
Proof. vm_compute. reflexivity. Qed.

(** ** C97 The text of scheduler.c runs the added tasks in order *)

(** a table that nothing was written to: the first [n] new tasks are taken and the others are
    refused; then each of [k] passes calls the active ones of those taken, in their order *)
Theorem C97_schedule : forall (W : Type) sc
    (ext : Z -> list val -> mem -> W -> outcome (val * mem * W)) fuel (ef : Z -> W -> W),
  (forall f m w, ext f [] m w = Ok (VUndef, m, ef f w)) ->
  forall b slots n new k m w,
  m !! b = Some (flat (slot_cells <$> slots)) -> length slots = Z.to_nat n ->
  is_u32 n -> n + 1 < Z.of_nat fuel -> Forall (fun t => t_function t <> None) new ->
  exists m',
    schedule sc ext fuel b n new k m w
    = Ok (replicate (Nat.min (Z.to_nat n) (length new)) true
            ++ replicate (length new - Z.to_nat n) false,
          m',
          Nat.iter k (fold_left (fun w f => ef f w) (omap runnable (take (Z.to_nat n) new))) w) /\
    same_but [b] m m'.
Proof. exact @text_schedule. Qed.
Print Assumptions C97_schedule.
Example C97_schedule_ex :
  (let! '(rs, _, w) :=
    schedule true (fun f _ m (w : list Z) => Ok (VUndef, m, w ++ [f])) 50 0 3
      [mkTask (Some 5) true; mkTask (Some 6) false; mkTask (Some 7) true; mkTask (Some 8) true] 2
      [flat (slot_cells <$> [None; None; None])] [] in
  Ok (rs, w))
  = Ok ([true; true; true; false], [5; 7; 5; 7]).
Proof. vm_compute. reflexivity. Qed.

(** tasks that change the table: each slot is served as the earlier slots of the pass left it *)
Theorem C97_pass : forall (W : Type) sc
    (ext : Z -> list val -> mem -> W -> outcome (val * mem * W)) fuel m w b tasks n
    (exec : Z -> mem * W * list SchedulerTask_t -> mem * W * list SchedulerTask_t),
  tasks_at m b tasks -> is_u32 n -> n <= Z.of_nat (length tasks) -> n < Z.of_nat fuel ->
  (forall f m w ts, (b < length m)%nat ->
     let '(m', w', ts') := exec f (m, w, ts) in
     ext f [] (put_tasks b ts m) w = Ok (VUndef, put_tasks b ts' m', w') /\
     (b < length m')%nat) ->
  (forall f s, length (exec f s).2 = length s.2) ->
  exists calls,
    (let '(m', w', ts') := after exec calls (m, w, tasks) in
     call sc ext fuel c_Scheduler_run [struct_ptr 2 b; VInt U32 n] m w
     = Ok (VUndef, put_tasks b ts' m', w')) /\
    pass exec runs_slot n (m, w, tasks) calls.
Proof. exact @pass_dynamic. Qed.
Print Assumptions C97_pass.
(** function 5 switches off the second and switches on the third task *)
Example C97_pass_ex :
  let off := [mkTask (Some 5) true; mkTask (Some 6) false; mkTask (Some 7) true] in
  call true (fun f _ m (w : list Z) =>
               Ok (VUndef, if f =? 5 then put_tasks 0 off m else m, w ++ [f])) 50
    c_Scheduler_run [struct_ptr 2 0; VInt U32 3]
    [flat (task_cells <$> [mkTask (Some 5) true; mkTask (Some 6) true; mkTask (Some 7) false])] []
  = Ok (VUndef, [flat (task_cells <$> off)], [5; 7]).
Proof. vm_compute. reflexivity. Qed.
