(** * C20-C24: priority_queue.c *)
From Coq Require Import Sorted.
From Verif Require Import Lib Model_Containers Spec_Queue Spec_PriorityQueue
  Drive_PriorityQueue Proof_PriorityQueue.

(** ** C20 The highest priority first, first-in first-out among equals *)

Theorem C20_behaves : forall cap es it q0 ops,
  pq_sizes cap es it -> Forall (pqop_ok es) ops ->
  exists q1 q2, PriorityQueue_init (Some q0) cap es (Some it) = Ok (true, Some q1) /\
    pq_run ops (Some q1) = Ok ((prio cap es ops []).1, Some q2).
Proof. exact pq_behaves. Qed.
Print Assumptions C20_behaves.
Example C20_behaves_ex :
  let it := mkItem [0; 0; 0] [0; 0; 0] in
  let ops := [PEnqueue 5 [1]; PEnqueue 7 [2]; PEnqueue 7 [3]; PEnqueue 5 [4]; PEnqueue 6 [4];
              PDequeue [0]; PDequeue [0; 9]; PIsEmpty; PDequeue [0]; PDequeue [0]] in
  pq_sizes 3 1 it /\ Forall (pqop_ok 1) ops /\
  (let! '(rs, _) := pq_run ops (Some (mkPQ 0 3 1 [0; 0; 0] [0; 0; 0])) in Ok rs)
  = Ok [(true, [1]); (true, [2]); (true, [3]); (false, [4]); (true, [4]);
        (true, [2]); (true, [3; 9]); (false, []); (true, [4]); (false, [0])].
Proof. unfold pq_sizes, pqop_ok. ex. Qed.
(** stated without the functional specification of dequeue *)
Theorem C20_dequeue : forall cap es it ops q,
  pq_sizes cap es it -> Forall (pqop_ok es) ops -> pq_after cap es it ops q ->
  let c := (prio cap es ops []).2 in
  forall d, es <= len d -> c <> [] ->
  exists l x r q', c = l ++ x :: r /\
    (forall y, y ∈ l -> y.1 < x.1) /\ (forall y, y ∈ r -> y.1 <= x.1) /\
    PriorityQueue_dequeue (Some q) (Some d) = Ok (true, Some q', Some (copied x.2 d)) /\
    pq_after cap es it (ops ++ [PDequeue d]) q' /\
    (prio cap es (ops ++ [PDequeue d]) []).2 = l ++ r.
Proof. exact preach_dequeue. Qed.
Print Assumptions C20_dequeue.
Theorem C20_dequeue_empty : forall cap es it ops q,
  pq_sizes cap es it -> Forall (pqop_ok es) ops -> pq_after cap es it ops q ->
  let c := (prio cap es ops []).2 in
  forall d, c = [] -> PriorityQueue_dequeue (Some q) (Some d) = Ok (false, Some q, Some d).
Proof. exact preach_dequeue_empty. Qed.
Print Assumptions C20_dequeue_empty.
Theorem C20_empty : forall cap es it ops q,
  pq_sizes cap es it -> Forall (pqop_ok es) ops -> pq_after cap es it ops q ->
  PriorityQueue_empty (Some q) = Ok (len (prio cap es ops []).2 =? 0).
Proof. exact preach_empty. Qed.
Print Assumptions C20_empty.
(* a reachable queue with two elements of the highest priority *)
Example C20_dequeue_ex :
  pq_after 3 1 (mkItem [0; 0; 0] [0; 0; 0]) [PEnqueue 5 [1]; PEnqueue 7 [2]; PEnqueue 7 [3]]
    (mkPQ 3 3 1 [5; 7; 7] [1; 2; 3]) /\
  (prio 3 1 [PEnqueue 5 [1]; PEnqueue 7 [2]; PEnqueue 7 [3]] []).2
  = [(5, [1]); (7, [2]); (7, [3])] /\
  PriorityQueue_dequeue (Some (mkPQ 3 3 1 [5; 7; 7] [1; 2; 3])) (Some [0])
  = Ok (true, Some (mkPQ 2 3 1 [5; 7; 7] [1; 3; 3]), Some [2]).
Proof.
  split; [|ex]. exists (mkPQ 9 9 9 [] []). eexists _, _. split; [reflexivity|].
  vm_compute. reflexivity.
Qed.

(** ** C21 Overflow *)

Theorem C21_enqueue_room : forall cap es it ops q,
  pq_sizes cap es it -> Forall (pqop_ok es) ops -> pq_after cap es it ops q ->
  let c := (prio cap es ops []).2 in
  forall p e, es <= len e -> len c < cap ->
  exists q', PriorityQueue_enqueue (Some q) (Some (mkItem [p] e)) = Ok (true, Some q') /\
    pq_after cap es it (ops ++ [PEnqueue p e]) q' /\
    (prio cap es (ops ++ [PEnqueue p e]) []).2 = c ++ [(p, take (Z.to_nat es) e)].
Proof. exact preach_enqueue_room. Qed.
Print Assumptions C21_enqueue_room.
(** [x] is the first of the lowest priority *)
Theorem C21_enqueue_full : forall cap es it ops q,
  pq_sizes cap es it -> Forall (pqop_ok es) ops -> pq_after cap es it ops q ->
  let c := (prio cap es ops []).2 in
  forall p e, es <= len e -> len c = cap ->
  exists l x r, c = l ++ x :: r /\
    (forall y, y ∈ l -> x.1 < y.1) /\ (forall y, y ∈ r -> x.1 <= y.1) /\
    (p <= x.1 ->
       PriorityQueue_enqueue (Some q) (Some (mkItem [p] e)) = Ok (false, Some q)) /\
    (x.1 < p -> exists q',
       PriorityQueue_enqueue (Some q) (Some (mkItem [p] e)) = Ok (true, Some q') /\
       pq_after cap es it (ops ++ [PEnqueue p e]) q' /\
       (prio cap es (ops ++ [PEnqueue p e]) []).2 = l ++ r ++ [(p, take (Z.to_nat es) e)]).
Proof. exact preach_enqueue_full. Qed.
Print Assumptions C21_enqueue_full.
Example C21_ex :
  PriorityQueue_enqueue (Some (mkPQ 3 3 1 [5; 4; 4] [1; 2; 3])) (Some (mkItem [5] [9]))
  = Ok (true, Some (mkPQ 3 3 1 [5; 4; 5] [1; 3; 9])) /\
  PriorityQueue_enqueue (Some (mkPQ 3 3 1 [5; 4; 4] [1; 2; 3])) (Some (mkItem [4] [9]))
  = Ok (false, Some (mkPQ 3 3 1 [5; 4; 4] [1; 2; 3])) /\
  PriorityQueue_enqueue (Some (mkPQ 2 3 1 [5; 4; 4] [1; 2; 3])) (Some (mkItem [0] [9]))
  = Ok (true, Some (mkPQ 3 3 1 [5; 4; 0] [1; 2; 9])).
Proof. ex. Qed.

(** ** C22 Draining sorts, stably *)

Theorem C22_drain : forall cap es it ops q d,
  pq_sizes cap es it -> Forall (pqop_ok es) ops -> pq_after cap es it ops q ->
  es <= len d ->
  let c := (prio cap es ops []).2 in
  exists out q', pq_run (replicate (length c) (PDequeue d)) (Some q)
              = Ok (map (fun x => (true, copied x.2 d)) out, Some q') /\
    PriorityQueue_empty (Some q') = Ok true /\
    Permutation out c /\ StronglySorted (fun x y => y.1 <= x.1) out /\
    forall p, filter (fun x => x.1 = p) out = filter (fun x => x.1 = p) c.
Proof. exact preach_drain. Qed.
Print Assumptions C22_drain.
Example C22_drain_ex :
  (let! '(rs, _) := pq_run (replicate 4 (PDequeue [0]))
                      (Some (mkPQ 4 4 1 [5; 7; 5; 7] [1; 2; 3; 4])) in Ok rs)
  = Ok [(true, [2]); (true, [4]); (true, [1]); (true, [3])].
Proof. ex. Qed.

(** ** C23 Memory *)

(** no operation of any sequence is undefined (C20_behaves), and outside the first [cap]
    priorities and [cap * es] bytes nothing ever changes *)
Theorem C23_memory : forall cap es it ops q,
  pq_sizes cap es it -> Forall (pqop_ok es) ops -> pq_after cap es it ops q ->
  pq_capacity q = cap /\ pq_element_size q = es /\
  pq_size q = len (prio cap es ops []).2 /\ len (prio cap es ops []).2 <= cap /\
  len (pq_buffer q) = len (it_element it) /\
  len (pq_priority_array q) = len (it_priority it) /\
  drop (Z.to_nat (cap * es)) (pq_buffer q) = drop (Z.to_nat (cap * es)) (it_element it) /\
  drop (Z.to_nat cap) (pq_priority_array q) = drop (Z.to_nat cap) (it_priority it).
Proof. exact preach_memory. Qed.
Print Assumptions C23_memory.
(** the same runs succeed in storage of exactly the stated sizes *)
Theorem C23_safe : forall cap es it q0 ops,
  pq_sizes cap es it -> Forall (pqop_ok es) ops ->
  exists q1 q2, PriorityQueue_init (Some q0) cap es (Some it) = Ok (true, Some q1) /\
    pq_run ops (Some q1) = Ok ((prio cap es ops []).1, Some q2).
Proof. exact pq_behaves. Qed.
Print Assumptions C23_safe.
Example C23_ex :
  pq_sizes 2 2 (mkItem [0; 0; 8] [0; 0; 0; 0; 8]) /\
  pq_run [PEnqueue 1 [1; 2]; PEnqueue 2 [3; 4]; PEnqueue 3 [5; 6]; PDequeue [0; 0]]
    (Some (mkPQ 0 2 2 [0; 0; 8] [0; 0; 0; 0; 8]))
  = Ok ([(true, [1; 2]); (true, [3; 4]); (true, [5; 6]); (true, [5; 6])],
        Some (mkPQ 1 2 2 [2; 3; 8] [3; 4; 5; 6; 8])).
Proof. unfold pq_sizes. ex. Qed.

(** ** C24 Arguments *)

Theorem C24_init_rejects : forall queue cap es items,
  queue = None \/ items = None \/ cap = 0 \/ es = 0 ->
  PriorityQueue_init queue cap es items = Ok (false, queue).
Proof. exact pinit_rejects. Qed.
Print Assumptions C24_init_rejects.
Theorem C24_init_accepts : forall q0 cap es it,
  cap <> 0 -> es <> 0 ->
  PriorityQueue_init (Some q0) cap es (Some it)
  = Ok (true, Some (mkPQ 0 cap es (it_priority it) (it_element it))).
Proof. exact pinit_accepts. Qed.
Print Assumptions C24_init_accepts.
Theorem C24_null_queue : forall item element,
  PriorityQueue_empty None = UB NullDeref /\
  PriorityQueue_enqueue None item = UB NullDeref /\
  PriorityQueue_dequeue None element = UB NullDeref.
Proof. exact pnull. Qed.
Print Assumptions C24_null_queue.
Theorem C24_null_item : forall cap es it ops q,
  pq_sizes cap es it -> Forall (pqop_ok es) ops -> pq_after cap es it ops q ->
  PriorityQueue_enqueue (Some q) None = UB NullDeref /\
  PriorityQueue_dequeue (Some q) None
  = if len (prio cap es ops []).2 =? 0 then Ok (false, Some q, None) else UB NullDeref.
Proof. exact pnull_item. Qed.
Print Assumptions C24_null_item.
Example C24_ex :
  PriorityQueue_init (Some (mkPQ 1 1 1 [1] [1])) 0 4 (Some (mkItem [1] [1; 2; 3; 4]))
  = Ok (false, Some (mkPQ 1 1 1 [1] [1])) /\
  PriorityQueue_enqueue (Some (mkPQ 0 1 1 [1] [1])) None = UB NullDeref.
Proof. ex. Qed.
