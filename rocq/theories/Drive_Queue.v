(** * Running a sequence of queue operations on the model *)
From Verif Require Import Lib Model_Containers Spec_Queue.

Definition queue_step (op : qop) (q : option Queue_t) : outcome (qres * option Queue_t) :=
  match op with
  | Enqueue e => let! '(s, q) := Queue_enqueue q (Some e) in Ok ((s, e), q)
  | Dequeue d =>
      let! '(s, q, d') := Queue_dequeue q (Some d) in
      let! d' := deref d' in Ok ((s, d'), q)
  | Front d =>
      let! '(s, d') := Queue_front q (Some d) in let! d' := deref d' in Ok ((s, d'), q)
  | Rear d =>
      let! '(s, d') := Queue_rear q (Some d) in let! d' := deref d' in Ok ((s, d'), q)
  | IsFull => let! s := Queue_full q in Ok ((s, []), q)
  | IsEmpty => let! s := Queue_empty q in Ok ((s, []), q)
  end.

Fixpoint queue_run (ops : list qop) (q : option Queue_t)
  : outcome (list qres * option Queue_t) :=
  match ops with
  | [] => Ok ([], q)
  | op :: ops' =>
      let! '(r, q1) := queue_step op q in
      let! '(rs, q2) := queue_run ops' q1 in Ok (r :: rs, q2)
  end.

(** [q] is the queue after Queue_init of any structure [q0] and then [ops] *)
Definition queue_after (cap es : Z) (buf : list Z) (ops : list qop) (q : Queue_t) : Prop :=
  exists q0 q1 rs, Queue_init (Some q0) cap es (Some buf) = Ok (true, Some q1) /\
    queue_run ops (Some q1) = Ok (rs, Some q).

(** sizes for which the index arithmetic does not wrap; the buffer is large enough *)
Definition queue_sizes (cap es : Z) (buf : list Z) : Prop :=
  0 < cap < 2 ^ 32 /\ 0 < es < 2 ^ 32 /\ (cap - 1) * es < 2 ^ 32 /\ cap * es <= len buf.
