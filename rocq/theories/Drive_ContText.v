(** * The containers as objects in the memory of the interpreter of the C text *)
From Verif Require Import CSem CLang Model_Containers Refine.

(** a pointer to object [b], and a pointer that is [NULL] when the model's is *)
Definition byte_ptr (b : nat) : val := VPtr (TInt U8) (BObj b) 0.
Definition word_ptr (b : nat) : val := VPtr (TInt U32) (BObj b) 0.
Definition struct_ptr (n : Z) (s : nat) : val := VPtr (TStruct n) (BObj s) 0.
Definition opt_ptr {A} (p : option A) (v : val) : val :=
  match p with Some _ => v | None => VNull end.
(** what [p] points to is in memory *)
Definition opt_at {A} (p : option A) (H : A -> Prop) : Prop :=
  match p with Some a => H a | None => True end.
(** the memory after a call: [NULL] points to nothing *)
Definition opt_put {A} (p : option A) (put : A -> mem -> mem) (m : mem) : mem :=
  match p with Some a => put a m | None => m end.

Definition bytes_at (m : mem) (b : nat) (o : list Z) : Prop := m !! b = Some (ints 8 o).
Definition put_bytes (b : nat) (o : list Z) (m : mem) : mem := <[b := ints 8 o]> m.
Definition words_at (m : mem) (b : nat) (o : list Z) : Prop := m !! b = Some (ints 32 o).

(** ** queue.h:40-47: the structure is object [s], its buffer is object [b] *)
Definition queue_cells (q : Queue_t) (b : nat) : list cell :=
  [CI 32 (q_front q); CI 32 (q_rear q); CI 32 (q_size q); CI 32 (q_capacity q);
   CI 32 (q_element_size q); CV (byte_ptr b)].
Definition queue_at (m : mem) (s b : nat) (q : Queue_t) : Prop :=
  m !! s = Some (queue_cells q b) /\ bytes_at m b (q_buffer q).
Definition put_queue (s b : nat) (q : Queue_t) (m : mem) : mem :=
  <[s := queue_cells q b]> (put_bytes b (q_buffer q) m).
(** the members are [uint32_t] *)
Definition queue_u32 (q : Queue_t) : Prop :=
  is_u32 (q_front q) /\ is_u32 (q_rear q) /\ is_u32 (q_size q) /\ is_u32 (q_capacity q) /\
  is_u32 (q_element_size q).
(** the structure before [Queue_init]: not yet written to, or a queue set up before *)
Definition queue_shape (cs : list cell) : Prop :=
  cs = replicate 6 (CV VUndef) \/
  exists q v, cs = take 5 (queue_cells q 0) ++ [CV v].

(** ** priority_queue.h:40-51: the structure is object [s], its priorities are object [p], its
    buffer is object [b] *)
Definition pq_cells (q : PriorityQueue_t) (p b : nat) : list cell :=
  [CI 32 (pq_size q); CI 32 (pq_capacity q); CI 32 (pq_element_size q); CV (word_ptr p);
   CV (byte_ptr b)].
Definition pq_at (m : mem) (s p b : nat) (q : PriorityQueue_t) : Prop :=
  m !! s = Some (pq_cells q p b) /\ words_at m p (pq_priority_array q) /\
  bytes_at m b (pq_buffer q) /\ p <> b.
Definition put_pq (s p b : nat) (q : PriorityQueue_t) (m : mem) : mem :=
  <[s := pq_cells q p b]> (<[p := ints 32 (pq_priority_array q)]> (put_bytes b (pq_buffer q) m)).
Definition pq_u32 (q : PriorityQueue_t) : Prop :=
  is_u32 (pq_size q) /\ is_u32 (pq_capacity q) /\ is_u32 (pq_element_size q) /\
  Forall is_u32 (pq_priority_array q).
(** an item: structure [i], priority [ip], element [ie] *)
Definition item_cells (ip ie : nat) : list cell := [CV (word_ptr ip); CV (byte_ptr ie)].
Definition item_at (m : mem) (i ip ie : nat) (it : PriorityQueueItem_t) : Prop :=
  m !! i = Some (item_cells ip ie) /\ words_at m ip (it_priority it) /\
  bytes_at m ie (it_element it).
(** the structure before [PriorityQueue_init] *)
Definition pq_shape (cs : list cell) : Prop :=
  cs = replicate 5 (CV VUndef) \/
  exists q v v', cs = take 3 (pq_cells q 0 0) ++ [CV v; CV v'].

(** ** map.h:40-47: the structure is object [s], its keys are object [kb], its values are object
    [vb]; the sizes are [int32_t], held in memory as 32-bit patterns *)
Definition map_cells (mp : Map_t) (kb vb : nat) : list cell :=
  [CV (byte_ptr kb); CV (byte_ptr vb); CI 32 (u32 (m_key_size mp)); CI 32 (u32 (m_value_size mp));
   CI 32 (u32 (m_max_map_size mp)); CI 32 (u32 (m_current_size mp))].
Definition map_at (m : mem) (s kb vb : nat) (mp : Map_t) : Prop :=
  m !! s = Some (map_cells mp kb vb) /\ bytes_at m kb (m_keys mp) /\ bytes_at m vb (m_values mp) /\
  kb <> vb.
Definition put_map (s kb vb : nat) (mp : Map_t) (m : mem) : mem :=
  <[s := map_cells mp kb vb]> (put_bytes kb (m_keys mp) (put_bytes vb (m_values mp) m)).
Definition map_s32 (mp : Map_t) : Prop :=
  is_s32 (m_key_size mp) /\ is_s32 (m_value_size mp) /\ is_s32 (m_max_map_size mp) /\
  is_s32 (m_current_size mp).
(** the structure before [Map_init] *)
Definition map_shape (cs : list cell) : Prop :=
  cs = replicate 6 (CV VUndef) \/
  exists mp v v', cs = CV v :: CV v' :: drop 2 (map_cells mp 0 0).

(** ** scheduler.h:40-43: an array of structures, each two cells: the function and whether the
    task is active *)
Fixpoint flat (bs : list (cell * cell)) : list cell :=
  match bs with [] => [] | (x, y) :: bs => x :: y :: flat bs end.
Definition task_cells (t : SchedulerTask_t) : cell * cell :=
  (CV (match t_function t with Some f => VFun f | None => VNull end), CI 8 (b2z (t_active t))).
(** [None]: not yet written to *)
Definition slot_cells (s : option SchedulerTask_t) : cell * cell :=
  match s with Some t => task_cells t | None => (CV VUndef, CV VUndef) end.
Definition slots_at (m : mem) (b : nat) (ss : list (option SchedulerTask_t)) : Prop :=
  m !! b = Some (flat (slot_cells <$> ss)).
Definition put_slots (b : nat) (ss : list (option SchedulerTask_t)) (m : mem) : mem :=
  <[b := flat (slot_cells <$> ss)]> m.
Definition tasks_at (m : mem) (b : nat) (ts : list SchedulerTask_t) : Prop :=
  m !! b = Some (flat (task_cells <$> ts)).
Definition put_tasks (b : nat) (ts : list SchedulerTask_t) (m : mem) : mem :=
  <[b := flat (task_cells <$> ts)]> m.
