(** * Model of [/repo/Src/queue.c], [/repo/Src/priority_queue.c], [/repo/Src/map.c]
      and [/repo/Src/scheduler.c]

    A pointer that the code compares with [NULL_PTR] is an [option]; [None] is
    [NULL_PTR].  A structure reached through a pointer is passed in and its final value
    returned.  The storage a structure points to (a buffer, an array) is a field of the
    record: it is an object of its own, as the caller of the library provides it. *)
From Verif Require Import CSem.

(** ** queue.c *)

(** queue.h:40-47 *)
Record Queue_t := mkQueue {
  q_front : Z; q_rear : Z; q_size : Z; q_capacity : Z; q_element_size : Z;
  q_buffer : list Z }.

(** the pointee of [queue]; reading through [NULL_PTR] is undefined *)
Definition deref {A} (p : option A) : outcome A :=
  match p with Some a => Ok a | None => UB NullDeref end.

(** queue.c:39-52.  [queue] is dereferenced only in the successful case. *)
Definition Queue_init (queue : option Queue_t) (capacity element_size : Z)
    (buffer : option (list Z)) : outcome (bool * option Queue_t) :=
  match buffer with
  | Some buf =>
      if negb (element_size =? 0) && negb (capacity =? 0) then
        let! _ := deref queue in
        Ok (true, Some (mkQueue 0 (u32 (capacity - 1)) 0 capacity element_size buf))
      else Ok (false, queue)
  | None => Ok (false, queue)
  end.

(** queue.c:54-57 *)
Definition Queue_full (queue : option Queue_t) : outcome bool :=
  let! q := deref queue in Ok (q_size q =? q_capacity q).

(** queue.c:59-62 *)
Definition Queue_empty (queue : option Queue_t) : outcome bool :=
  let! q := deref queue in Ok (q_size q =? 0).

(** queue.c:64-81; all index arithmetic is [uint32_t] *)
Definition Queue_enqueue (queue : option Queue_t) (element : option (list Z))
  : outcome (bool * option Queue_t) :=
  match queue, element with
  | Some q, Some el =>
      let! full := Queue_full queue in
      if negb full then
        let! slot := umod (u32 (q_rear q + 1)) (q_capacity q) in
        let! buffer := memcpy (q_buffer q) (u32 (slot * q_element_size q)) el 0
                              (q_element_size q) in
        Ok (true, Some (mkQueue (q_front q) slot (u32 (q_size q + 1)) (q_capacity q)
                                (q_element_size q) buffer))
      else Ok (false, queue)
  | _, _ => Ok (false, queue)
  end.

(** queue.c:83-99; the pointee of [element] is passed in and returned *)
Definition Queue_dequeue (queue : option Queue_t) (element : option (list Z))
  : outcome (bool * option Queue_t * option (list Z)) :=
  match queue, element with
  | Some q, Some el =>
      let! empty := Queue_empty queue in
      if negb empty then
        let! el := memcpy el 0 (q_buffer q) (u32 (q_front q * q_element_size q))
                          (q_element_size q) in
        let! front := umod (u32 (q_front q + 1)) (q_capacity q) in
        Ok (true, Some (mkQueue front (q_rear q) (u32 (q_size q - 1)) (q_capacity q)
                                (q_element_size q) (q_buffer q)), Some el)
      else Ok (false, queue, element)
  | _, _ => Ok (false, queue, element)
  end.

(** queue.c:101-115; [queue] is [const] *)
Definition Queue_front (queue : option Queue_t) (element : option (list Z))
  : outcome (bool * option (list Z)) :=
  match queue, element with
  | Some q, Some el =>
      let! empty := Queue_empty queue in
      if negb empty then
        let! el := memcpy el 0 (q_buffer q) (u32 (q_front q * q_element_size q))
                          (q_element_size q) in
        Ok (true, Some el)
      else Ok (false, element)
  | _, _ => Ok (false, element)
  end.

(** queue.c:117-131 *)
Definition Queue_rear (queue : option Queue_t) (element : option (list Z))
  : outcome (bool * option (list Z)) :=
  match queue, element with
  | Some q, Some el =>
      let! empty := Queue_empty queue in
      if negb empty then
        let! el := memcpy el 0 (q_buffer q) (u32 (q_rear q * q_element_size q))
                          (q_element_size q) in
        Ok (true, Some el)
      else Ok (false, element)
  | _, _ => Ok (false, element)
  end.

(** ** priority_queue.c *)

(** priority_queue.h:40-43; [priority] and [element] are the objects pointed to *)
Record PriorityQueueItem_t := mkItem { it_priority : list Z; it_element : list Z }.

(** priority_queue.h:45-51 *)
Record PriorityQueue_t := mkPQ {
  pq_size : Z; pq_capacity : Z; pq_element_size : Z;
  pq_priority_array : list Z; pq_buffer : list Z }.

(** priority_queue.c:39-42 *)
Definition PQ_Full (q : PriorityQueue_t) : bool := pq_size q =? pq_capacity q.

(** priority_queue.c:44-57; state ([highest_priority], [index]) *)
Definition GetHighestPriorityIndex (q : PriorityQueue_t) : outcome Z :=
  let! h0 := load (pq_priority_array q) 0 in
  let! '(_, index) :=
    cfor 0 (pq_size q)
      (fun i '(highest_priority, index) =>
         let! p := load (pq_priority_array q) i in
         if highest_priority <? p then Ok (p, i) else Ok (highest_priority, index))
      (h0, 0) in
  Ok index.

(** priority_queue.c:59-72 *)
Definition GetLowestPriorityIndex (q : PriorityQueue_t) : outcome Z :=
  let! l0 := load (pq_priority_array q) 0 in
  let! '(_, index) :=
    cfor 0 (pq_size q)
      (fun i '(lowest_priority, index) =>
         let! p := load (pq_priority_array q) i in
         if p <? lowest_priority then Ok (p, i) else Ok (lowest_priority, index))
      (l0, 0) in
  Ok index.

(** priority_queue.c:74-87; [items] gives the storage *)
Definition PriorityQueue_init (queue : option PriorityQueue_t) (capacity element_size : Z)
    (items : option PriorityQueueItem_t) : outcome (bool * option PriorityQueue_t) :=
  match queue, items with
  | Some _, Some it =>
      if negb (capacity =? 0) && negb (element_size =? 0) then
        Ok (true, Some (mkPQ 0 capacity element_size (it_priority it) (it_element it)))
      else Ok (false, queue)
  | _, _ => Ok (false, queue)
  end.

(** priority_queue.c:89-92 *)
Definition PriorityQueue_empty (queue : option PriorityQueue_t) : outcome bool :=
  let! q := deref queue in Ok (pq_size q =? 0).

(** the shifting loops, priority_queue.c:113-121 and 147-155 (the same text twice):
    for (i = from; i < current_size; ++i) move cell i+1 to cell i;
    state ([buffer], [priority_array]) *)
Definition PQ_shift (element_size from current_size : Z) (buffer prio : list Z)
  : outcome (list Z * list Z) :=
  cfor from current_size
    (fun i '(buffer, prio) =>
       let! buffer := memcpy_within buffer (u32 (i * element_size))
                        (u32 (u32 (i * element_size) + element_size)) element_size in
       let! p := load prio (u32 (i + 1)) in
       let! prio := store prio i p in
       Ok (buffer, prio))
    (buffer, prio).

(** priority_queue.c:94-132 *)
Definition PriorityQueue_enqueue (queue : option PriorityQueue_t)
    (item : option PriorityQueueItem_t) : outcome (bool * option PriorityQueue_t) :=
  let! q := deref queue in
  if negb (PQ_Full q) then
    let! it := deref item in
    let! buffer := memcpy (pq_buffer q) (u32 (pq_size q * pq_element_size q))
                          (it_element it) 0 (pq_element_size q) in
    let! p := load (it_priority it) 0 in
    let! prio := store (pq_priority_array q) (pq_size q) p in
    Ok (true, Some (mkPQ (u32 (pq_size q + 1)) (pq_capacity q) (pq_element_size q)
                         prio buffer))
  else
    let! lowest := GetLowestPriorityIndex q in
    let! pl := load (pq_priority_array q) lowest in
    let! it := deref item in
    let! p := load (it_priority it) 0 in
    if pl <? p then
      let current_size := u32 (pq_size q - 1) in
      let! '(buffer, prio) := PQ_shift (pq_element_size q) lowest current_size
                                (pq_buffer q) (pq_priority_array q) in
      let! buffer := memcpy buffer (u32 (current_size * pq_element_size q))
                            (it_element it) 0 (pq_element_size q) in
      let! prio := store prio current_size p in
      Ok (true, Some (mkPQ (u32 (current_size + 1)) (pq_capacity q) (pq_element_size q)
                           prio buffer))
    else Ok (false, queue).

(** priority_queue.c:134-158 *)
Definition PriorityQueue_dequeue (queue : option PriorityQueue_t)
    (element : option (list Z))
  : outcome (bool * option PriorityQueue_t * option (list Z)) :=
  let! q := deref queue in
  if negb (pq_size q =? 0) then
    let! highest := GetHighestPriorityIndex q in
    let! el := deref element in
    let! el := memcpy el 0 (pq_buffer q) (u32 (highest * pq_element_size q))
                      (pq_element_size q) in
    let current_size := u32 (pq_size q - 1) in
    let! '(buffer, prio) := PQ_shift (pq_element_size q) highest current_size
                              (pq_buffer q) (pq_priority_array q) in
    Ok (true, Some (mkPQ current_size (pq_capacity q) (pq_element_size q) prio buffer),
        Some el)
  else Ok (false, queue, element).

(** ** map.c *)

(** map.h:40-47 *)
Record Map_t := mkMap {
  m_keys : list Z; m_values : list Z; m_key_size : Z; m_value_size : Z;
  m_max_map_size : Z; m_current_size : Z }.

(** map.c:39 *)
Definition INDEX_NOT_FOUND : Z := -1.

(** map.c:41-52; state ([i], [index]); index arithmetic is [int32_t] *)
Definition Map_GetIndex (map : Map_t) (key : list Z) (size : Z) : outcome Z :=
  let! '(_, index) :=
    cwhile (S (Z.to_nat size))
      (fun '(i, index) => i <? size)
      (fun '(i, index) =>
         let! off := ck32 (i * m_key_size map) in
         let! eq := memcmp_eq (m_keys map) off key 0 (u64 (m_key_size map)) in
         if (eq : bool) then Ok (Break (i, i)) else Ok (Next (i + 1, index)))
      (0, INDEX_NOT_FOUND) in
  Ok index.

(** map.c:54-68; [map] is dereferenced only in the successful case *)
Definition Map_init (map : option Map_t) (keys values : option (list Z))
    (key_size value_size max_map_size : Z) : outcome (bool * option Map_t) :=
  match keys, values with
  | Some k, Some v =>
      if negb (key_size =? 0) && negb (value_size =? 0) && negb (max_map_size =? 0) then
        let! _ := deref map in
        Ok (true, Some (mkMap k v key_size value_size max_map_size 0))
      else Ok (false, map)
  | _, _ => Ok (false, map)
  end.

(** map.c:70-100 *)
Definition Map_insert (map : option Map_t) (key value : list Z)
  : outcome (bool * option Map_t) :=
  match map with
  | Some m =>
      let! index := Map_GetIndex m key (m_current_size m) in
      if index =? INDEX_NOT_FOUND then
        if negb (m_current_size m =? m_max_map_size m) then
          let! koff := ck32 (m_current_size m * m_key_size m) in
          let! keys := memcpy (m_keys m) koff key 0 (u64 (m_key_size m)) in
          let! voff := ck32 (m_current_size m * m_value_size m) in
          let! values := memcpy (m_values m) voff value 0 (u64 (m_value_size m)) in
          let! cs := ck32 (m_current_size m + 1) in
          Ok (true, Some (mkMap keys values (m_key_size m) (m_value_size m)
                                (m_max_map_size m) cs))
        else Ok (false, map)
      else
        let! voff := ck32 (index * m_value_size m) in
        let! values := memcpy (m_values m) voff value 0 (u64 (m_value_size m)) in
        Ok (true, Some (mkMap (m_keys m) values (m_key_size m) (m_value_size m)
                              (m_max_map_size m) (m_current_size m)))
  | None => Ok (false, map)
  end.

(** map.c:102-117; [map] is [const]; the pointee of [value] is passed in and returned *)
Definition Map_getValue (map : option Map_t) (key value : list Z)
  : outcome (bool * list Z) :=
  match map with
  | Some m =>
      let! index := Map_GetIndex m key (m_current_size m) in
      if negb (index =? INDEX_NOT_FOUND) then
        let! voff := ck32 (index * m_value_size m) in
        let! value := memcpy value 0 (m_values m) voff (u64 (m_value_size m)) in
        Ok (true, value)
      else Ok (false, value)
  | None => Ok (false, value)
  end.

(** ** scheduler.c *)

(** scheduler.h:40-43; a function pointer is an identifier, [None] is [NULL_PTR] *)
Record SchedulerTask_t := mkTask { t_function : option Z; t_active : bool }.

(** scheduler.c:37-43 *)
Definition Scheduler_init (tasks : list SchedulerTask_t) (num_of_tasks : Z)
  : outcome (list SchedulerTask_t) :=
  cfor 0 num_of_tasks (fun i tasks => store tasks i (mkTask None false)) tasks.

(** scheduler.c:45-57; state ([i], [tasks], [status]) *)
Definition Scheduler_addTask (tasks : list SchedulerTask_t) (max_num_tasks : Z)
    (new_task : SchedulerTask_t) : outcome (bool * list SchedulerTask_t) :=
  let! '(_, tasks, status) :=
    cwhile (S (S (length tasks)))
      (fun '(i, tasks, status) => i <? max_num_tasks)
      (fun '(i, tasks, status) =>
         let! t := load tasks i in
         match t_function t with
         | None =>
             let! tasks := store tasks i (mkTask (t_function new_task) (t_active new_task)) in
             Ok (Break (i, tasks, true))
         | Some _ => Ok (Next (u32 (i + 1), tasks, status))
         end)
      (0, tasks, false) in
  Ok (status, tasks).

(** scheduler.c:59-66.  Calling the function with identifier [f] is [exec f]: an arbitrary
    effect on the program state [W] and on the task array itself (a task may add or
    deactivate tasks while the scheduler runs). *)
Definition Scheduler_run {W} (exec : Z -> W * list SchedulerTask_t -> W * list SchedulerTask_t)
    (world : W) (task : list SchedulerTask_t) (num_of_tasks : Z)
  : outcome (W * list SchedulerTask_t) :=
  cfor 0 num_of_tasks
    (fun i '(world, task) =>
       let! t := load task i in
       match t_function t with
       | Some f => if t_active t then Ok (exec f (world, task)) else Ok (world, task)
       | None => Ok (world, task)
       end) (world, task).
