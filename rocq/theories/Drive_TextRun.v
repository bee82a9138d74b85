(** * Sequences of calls of the C text, as a client makes them

    The caller's own objects (the element given to a queue, the key and the value given to a map)
    are placed after the memory for the time of the call. *)
From Verif Require Import CSem CLang C_Containers Model_Containers Refine Drive_ContText Spec_Queue Spec_PriorityQueue Spec_Map.

Definition answer (v : val) : bool := match v with VInt _ z => negb (z =? 0) | _ => false end.
Definition byte_of (c : cell) : Z := match c with CI _ z => z | CV _ => 0 end.

Section client.
  Context (sc : bool) (fuel : nat).

  (** the objects [os] get the numbers [length m], [length m + 1] and so on; the answer, the
      caller's objects and the memory after the call *)
  Definition call_with_objs (f : fundef) (args : list val) (os : list (list cell)) (m : mem)
    : outcome (bool * list (list cell) * mem) :=
    let! '(v, m', _) := call sc no_ext fuel f args (m ++ os) tt in
    Ok (answer v, drop (length m) m', take (length m) m').

  Definition first_bytes (os : list (list cell)) : list Z := byte_of <$> default [] (head os).

  (** ** Queue: the structure is object [s] *)
  Definition queue_call (s : nat) (op : qop) (m : mem) : outcome (qres * mem) :=
    let n := length m in
    let with_element f o :=
      let! '(r, os, m) := call_with_objs f [struct_ptr 6 s; byte_ptr n] [ints 8 o] m in
      Ok ((r, first_bytes os), m) in
    let ask f :=
      let! '(r, _, m) := call_with_objs f [struct_ptr 6 s] [] m in Ok ((r, []), m) in
    match op with
    | Enqueue e => with_element c_Queue_enqueue e
    | Dequeue d => with_element c_Queue_dequeue d
    | Front d => with_element c_Queue_front d
    | Rear d => with_element c_Queue_rear d
    | IsFull => ask c_Queue_full
    | IsEmpty => ask c_Queue_empty
    end.

  (** ** Priority queue *)
  Definition pq_call (s : nat) (op : pqop) (m : mem) : outcome (qres * mem) :=
    let n := length m in
    match op with
    | PEnqueue p e =>
        let! '(r, os, m) :=
          call_with_objs c_PriorityQueue_enqueue [struct_ptr 5 s; struct_ptr 2 (n + 2)]
            [ints 8 e; ints 32 [p]; item_cells (n + 1) n] m in
        Ok ((r, first_bytes os), m)
    | PDequeue d =>
        let! '(r, os, m) :=
          call_with_objs c_PriorityQueue_dequeue [struct_ptr 5 s; byte_ptr n] [ints 8 d] m in
        Ok ((r, first_bytes os), m)
    | PIsEmpty =>
        let! '(r, _, m) := call_with_objs c_PriorityQueue_empty [struct_ptr 5 s] [] m in
        Ok ((r, []), m)
    end.

  (** ** Map *)
  Definition map_call (s : nat) (op : mop) (m : mem) : outcome (qres * mem) :=
    let n := length m in
    let with_key_value f k v :=
      let! '(r, os, m) :=
        call_with_objs f [struct_ptr 6 s; byte_ptr (n + 1); byte_ptr n] [ints 8 v; ints 8 k] m in
      Ok ((r, first_bytes os), m) in
    match op with
    | Insert k v => with_key_value c_Map_insert k v
    | GetValue k d => with_key_value c_Map_getValue k d
    end.

  (** ** One call after the other *)
  Fixpoint calls {O} (one : O -> mem -> outcome (qres * mem)) (ops : list O) (m : mem)
    : outcome (list qres * mem) :=
    match ops with
    | [] => Ok ([], m)
    | op :: ops =>
        let! '(r, m) := one op m in let! '(rs, m) := calls one ops m in Ok (r :: rs, m)
    end.
End client.

(** the priority is a [uint32_t] *)
Definition op_u32 (op : pqop) : Prop := match op with PEnqueue p _ => is_u32 p | _ => True end.

(** nothing but the objects [bs] is different *)
Definition same_but (bs : list nat) (m m' : mem) : Prop :=
  length m' = length m /\ forall b, b ∉ bs -> m' !! b = m !! b.

(** ** Scheduler: the table is object [b] *)
Section scheduler.
  Context {W : Type} (sc : bool)
          (ext : Z -> list val -> mem -> W -> outcome (val * mem * W)) (fuel : nat).

  (** the new task is an object of the caller *)
  Fixpoint add_calls (b : nat) (n : Z) (new : list SchedulerTask_t) (m : mem) (w : W)
    : outcome (list bool * mem * W) :=
    match new with
    | [] => Ok ([], m, w)
    | t :: new =>
        let! '(r, m', w) :=
          call sc ext fuel c_Scheduler_addTask [struct_ptr 2 b; VInt U32 n; struct_ptr 2 (length m)]
            (m ++ [flat [task_cells t]]) w in
        let! '(rs, m, w) := add_calls b n new (take (length m) m') w in
        Ok (answer r :: rs, m, w)
    end.
  Fixpoint passes (b : nat) (n : Z) (k : nat) (m : mem) (w : W) : outcome (mem * W) :=
    match k with
    | O => Ok (m, w)
    | S k =>
        let! '(_, m, w) := call sc ext fuel c_Scheduler_run [struct_ptr 2 b; VInt U32 n] m w in
        passes b n k m w
    end.
  (** initialise, add, run [k] times *)
  Definition schedule (b : nat) (n : Z) (new : list SchedulerTask_t) (k : nat) (m : mem) (w : W)
    : outcome (list bool * mem * W) :=
    let! '(_, m, w) := call sc ext fuel c_Scheduler_init [struct_ptr 2 b; VInt U32 n] m w in
    let! '(rs, m, w) := add_calls b n new m w in
    let! '(m, w) := passes b n k m w in
    Ok (rs, m, w).
End scheduler.
