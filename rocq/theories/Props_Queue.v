(** * C15-C19: queue.c *)
From Verif Require Import Lib Model_Containers Spec_Queue Drive_Queue Proof_Queue.

(** ** C15 FIFO *)

Theorem C15_fifo : forall cap es buf q0 ops,
  queue_sizes cap es buf -> Forall (qop_ok es) ops ->
  exists q1 q2, Queue_init (Some q0) cap es (Some buf) = Ok (true, Some q1) /\
    queue_run ops (Some q1) = Ok ((fifo cap es ops []).1, Some q2).
Proof. exact queue_fifo. Qed.
Print Assumptions C15_fifo.
(* two slots of two bytes, used round: the sizes fit and the results are those of a FIFO *)
Example C15_fifo_ex :
  queue_sizes 2 2 [0; 0; 0; 0; 9] /\
  let ops := [Enqueue [1; 2]; Enqueue [3; 4]; Enqueue [5; 6]; Dequeue [7; 7; 7];
              Enqueue [5; 6; 8]; Rear [0; 0]; Dequeue [0; 0]; Front [0; 0]; IsEmpty; IsFull] in
  Forall (qop_ok 2) ops /\
  (let! '(rs, _) := queue_run ops (Some (mkQueue 0 1 0 2 2 [0; 0; 0; 0; 9])) in Ok rs)
  = Ok [(true, [1; 2]); (true, [3; 4]); (false, [5; 6]); (true, [1; 2; 7]);
        (true, [5; 6; 8]); (true, [5; 6]); (true, [3; 4]); (true, [5; 6]); (false, []);
        (false, [])].
Proof. unfold queue_sizes, qop_ok. ex. Qed.

(** ** C16 Capacity is exact; a failed operation changes nothing *)

(** [c] is the contents of the queue according to the specification *)
Theorem C16_capacity : forall cap es buf ops q,
  queue_sizes cap es buf -> Forall (qop_ok es) ops -> queue_after cap es buf ops q ->
  0 <= len (fifo cap es ops []).2 <= cap.
Proof. exact reach_len. Qed.
Print Assumptions C16_capacity.
Theorem C16_enqueue : forall cap es buf ops q,
  queue_sizes cap es buf -> Forall (qop_ok es) ops -> queue_after cap es buf ops q ->
  let c := (fifo cap es ops []).2 in
  forall e, es <= len e ->
  exists q', Queue_enqueue (Some q) (Some e) = Ok (len c <? cap, Some q') /\
    (cap <= len c -> q' = q).
Proof. exact reach_enqueue. Qed.
Print Assumptions C16_enqueue.
Theorem C16_dequeue : forall cap es buf ops q,
  queue_sizes cap es buf -> Forall (qop_ok es) ops -> queue_after cap es buf ops q ->
  let c := (fifo cap es ops []).2 in
  forall d, es <= len d ->
  exists q' d', Queue_dequeue (Some q) (Some d) = Ok (0 <? len c, Some q', Some d') /\
    (len c = 0 -> q' = q /\ d' = d).
Proof. exact reach_dequeue. Qed.
Print Assumptions C16_dequeue.
Theorem C16_front : forall cap es buf ops q,
  queue_sizes cap es buf -> Forall (qop_ok es) ops -> queue_after cap es buf ops q ->
  let c := (fifo cap es ops []).2 in
  forall d, es <= len d ->
  exists d', Queue_front (Some q) (Some d) = Ok (0 <? len c, Some d') /\ (len c = 0 -> d' = d).
Proof. exact reach_front. Qed.
Print Assumptions C16_front.
Theorem C16_rear : forall cap es buf ops q,
  queue_sizes cap es buf -> Forall (qop_ok es) ops -> queue_after cap es buf ops q ->
  let c := (fifo cap es ops []).2 in
  forall d, es <= len d ->
  exists d', Queue_rear (Some q) (Some d) = Ok (0 <? len c, Some d') /\ (len c = 0 -> d' = d).
Proof. exact reach_rear. Qed.
Print Assumptions C16_rear.
Theorem C16_full : forall cap es buf ops q,
  queue_sizes cap es buf -> Forall (qop_ok es) ops -> queue_after cap es buf ops q ->
  Queue_full (Some q) = Ok (len (fifo cap es ops []).2 =? cap).
Proof. exact reach_full. Qed.
Print Assumptions C16_full.
Theorem C16_empty : forall cap es buf ops q,
  queue_sizes cap es buf -> Forall (qop_ok es) ops -> queue_after cap es buf ops q ->
  Queue_empty (Some q) = Ok (len (fifo cap es ops []).2 =? 0).
Proof. exact reach_empty. Qed.
Print Assumptions C16_empty.
(* a full queue reached by three operations; both kinds of failure *)
Example C16_ex :
  queue_after 2 1 [0; 0] [Enqueue [5]; Dequeue [0]; Enqueue [6]; Enqueue [7]]
    (mkQueue 1 0 2 2 1 [7; 6]) /\
  Queue_enqueue (Some (mkQueue 1 0 2 2 1 [7; 6])) (Some [8])
  = Ok (false, Some (mkQueue 1 0 2 2 1 [7; 6])) /\
  Queue_dequeue (Some (mkQueue 1 0 0 2 1 [7; 6])) (Some [8])
  = Ok (false, Some (mkQueue 1 0 0 2 1 [7; 6]), Some [8]).
Proof.
  split; [|ex]. exists (mkQueue 3 3 3 3 3 []). eexists _, _. split; [reflexivity|].
  vm_compute. reflexivity.
Qed.

(** ** C17 Memory *)

(** the slot written is one of the [cap] slots and holds no stored element *)
Theorem C17_enqueue : forall cap es buf ops q,
  queue_sizes cap es buf -> Forall (qop_ok es) ops -> queue_after cap es buf ops q ->
  let c := (fifo cap es ops []).2 in
  forall e, es <= len e -> len c < cap ->
  exists q' i, Queue_enqueue (Some q) (Some e) = Ok (true, Some q') /\
    0 <= i < cap /\ (forall k, 0 <= k < len c -> i <> (q_front q + k) mod cap) /\
    q_buffer q' = write (q_buffer q) (i * es) (take (Z.to_nat es) e).
Proof. exact reach_enqueue_frame. Qed.
Print Assumptions C17_enqueue.
Theorem C17_dequeue : forall cap es buf ops q,
  queue_sizes cap es buf -> Forall (qop_ok es) ops -> queue_after cap es buf ops q ->
  let c := (fifo cap es ops []).2 in
  forall d, es <= len d -> 0 < len c ->
  exists q' x, Queue_dequeue (Some q) (Some d)
               = Ok (true, Some q', Some (x ++ drop (Z.to_nat es) d)) /\
    len x = es /\ q_buffer q' = q_buffer q.
Proof. exact reach_dequeue_frame. Qed.
Print Assumptions C17_dequeue.
Theorem C17_peek : forall cap es buf ops q,
  queue_sizes cap es buf -> Forall (qop_ok es) ops -> queue_after cap es buf ops q ->
  let c := (fifo cap es ops []).2 in
  forall d, es <= len d -> 0 < len c ->
  (exists x, Queue_front (Some q) (Some d) = Ok (true, Some (x ++ drop (Z.to_nat es) d)) /\
     len x = es) /\
  (exists x, Queue_rear (Some q) (Some d) = Ok (true, Some (x ++ drop (Z.to_nat es) d)) /\
     len x = es).
Proof. exact reach_peek_frame. Qed.
Print Assumptions C17_peek.
Theorem C17_config : forall cap es buf ops q,
  queue_sizes cap es buf -> Forall (qop_ok es) ops -> queue_after cap es buf ops q ->
  q_capacity q = cap /\ q_element_size q = es /\ len (q_buffer q) = len buf.
Proof. exact reach_config. Qed.
Print Assumptions C17_config.
(* the bytes 9 after the two slots, and 8 after the element, are left alone *)
Example C17_ex :
  Queue_enqueue (Some (mkQueue 1 1 1 2 2 [1; 2; 3; 4; 9])) (Some [5; 6; 7])
  = Ok (true, Some (mkQueue 1 0 2 2 2 [5; 6; 3; 4; 9])) /\
  Queue_dequeue (Some (mkQueue 1 1 1 2 2 [1; 2; 3; 4; 9])) (Some [7; 7; 8])
  = Ok (true, Some (mkQueue 0 1 0 2 2 [1; 2; 3; 4; 9]), Some [3; 4; 8]).
Proof. ex. Qed.

(** ** C18 Arguments *)

Theorem C18_init_rejects : forall queue cap es buf,
  cap = 0 \/ es = 0 \/ buf = None -> Queue_init queue cap es buf = Ok (false, queue).
Proof. exact init_rejects. Qed.
Print Assumptions C18_init_rejects.
Theorem C18_init_accepts : forall q0 cap es buf,
  cap <> 0 -> es <> 0 ->
  exists q, Queue_init (Some q0) cap es (Some buf) = Ok (true, Some q) /\
    q_capacity q = cap /\ q_element_size q = es /\ q_buffer q = buf /\ q_size q = 0.
Proof. exact init_accepts. Qed.
Print Assumptions C18_init_accepts.
Theorem C18_init_null : forall cap es buf,
  cap <> 0 -> es <> 0 -> Queue_init None cap es (Some buf) = UB NullDeref.
Proof. exact init_null. Qed.
Print Assumptions C18_init_null.
Theorem C18_null_arguments : forall queue element,
  queue = None \/ element = None ->
  Queue_enqueue queue element = Ok (false, queue) /\
  Queue_dequeue queue element = Ok (false, queue, element) /\
  Queue_front queue element = Ok (false, element) /\
  Queue_rear queue element = Ok (false, element).
Proof. exact null_args. Qed.
Print Assumptions C18_null_arguments.
Theorem C18_predicates_of_null : Queue_full None = UB NullDeref /\ Queue_empty None = UB NullDeref.
Proof. exact null_queue. Qed.
Print Assumptions C18_predicates_of_null.
Example C18_ex :
  Queue_init (Some (mkQueue 1 1 1 1 1 [1])) 0 4 (Some [1; 2; 3; 4])
  = Ok (false, Some (mkQueue 1 1 1 1 1 [1])) /\
  Queue_enqueue (Some (mkQueue 0 1 0 2 1 [0; 0])) None
  = Ok (false, Some (mkQueue 0 1 0 2 1 [0; 0])) /\
  Queue_init None 2 1 (Some [0; 0]) = UB NullDeref.
Proof. ex. Qed.

(** ** C19 More than 4 GiB *)

(** with three slots of 2^31 bytes the third element overwrites the first, whatever they are *)
Theorem C19_wrap_overwrites : forall buf q0 a b e d,
  3 * 2 ^ 31 <= len buf -> len a = 2 ^ 31 -> len b = 2 ^ 31 -> len e = 2 ^ 31 ->
  len d = 2 ^ 31 ->
  exists q1 q2, Queue_init (Some q0) 3 (2 ^ 31) (Some buf) = Ok (true, Some q1) /\
    queue_run [Enqueue a; Enqueue b; Enqueue e; Dequeue d] (Some q1)
    = Ok ([(true, a); (true, b); (true, e); (true, e)], Some q2).
Proof. exact wrap_overwrites. Qed.
Print Assumptions C19_wrap_overwrites.
Theorem C19_any_size_refuted :
  exists cap es buf q0 q1 q2 ops rs,
    0 < cap < 2 ^ 32 /\ 0 < es < 2 ^ 32 /\ cap * es <= len buf /\ Forall (qop_ok es) ops /\
    Queue_init (Some q0) cap es (Some buf) = Ok (true, Some q1) /\
    queue_run ops (Some q1) = Ok (rs, Some q2) /\ rs <> (fifo cap es ops []).1.
Proof. exact wrap_refuted. Qed.
Print Assumptions C19_any_size_refuted.
