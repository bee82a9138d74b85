(** * Running a sequence of priority queue operations on the model *)
From Verif Require Import Lib Model_Containers Spec_Queue Spec_PriorityQueue.

Definition pq_step (op : pqop) (q : option PriorityQueue_t)
  : outcome (qres * option PriorityQueue_t) :=
  match op with
  | PEnqueue p e =>
      let! '(s, q) := PriorityQueue_enqueue q (Some (mkItem [p] e)) in Ok ((s, e), q)
  | PDequeue d =>
      let! '(s, q, d') := PriorityQueue_dequeue q (Some d) in
      let! d' := deref d' in Ok ((s, d'), q)
  | PIsEmpty => let! s := PriorityQueue_empty q in Ok ((s, []), q)
  end.

Fixpoint pq_run (ops : list pqop) (q : option PriorityQueue_t)
  : outcome (list qres * option PriorityQueue_t) :=
  match ops with
  | [] => Ok ([], q)
  | op :: ops' =>
      let! '(r, q1) := pq_step op q in
      let! '(rs, q2) := pq_run ops' q1 in Ok (r :: rs, q2)
  end.

(** [q] is the queue after PriorityQueue_init of any structure [q0] and then [ops] *)
Definition pq_after (cap es : Z) (it : PriorityQueueItem_t) (ops : list pqop)
    (q : PriorityQueue_t) : Prop :=
  exists q0 q1 rs, PriorityQueue_init (Some q0) cap es (Some it) = Ok (true, Some q1) /\
    pq_run ops (Some q1) = Ok (rs, Some q).

(** sizes for which the index arithmetic does not wrap; the storage is large enough *)
Definition pq_sizes (cap es : Z) (it : PriorityQueueItem_t) : Prop :=
  0 < cap < 2 ^ 32 /\ 0 < es < 2 ^ 32 /\ (cap - 1) * es < 2 ^ 32 /\
  cap <= len (it_priority it) /\ cap * es <= len (it_element it).
