(** * C93: the hand-written model of scheduler.c against the C text

    [c_F] is the function [F] as produced from its C text by [tools/c2coq.py]; [call] runs it
    (CLang.v).  The array of tasks is object [b].  Before [Scheduler_init] any of its slots may be
    unwritten ([None]).  In [Scheduler_run] a task may do anything to the rest of the memory, to
    the world [W] and to the array of tasks ([exec] in the model, [ext] for the C text). *)
From Verif Require Import CSem Lib CLang C_Containers Model_Containers Drive_ContText Refine Refine_Sched.

Local Notation tasks ts := (flat (task_cells <$> ts)).

Theorem C93_Scheduler_addTask : forall (W : Type) sc
    (ext : Z -> list val -> mem -> W -> outcome (val * mem * W)) fuel
    m w b tasks max nb new,
  tasks_at m b tasks -> m !! nb = Some (flat [task_cells new]) -> b <> nb -> is_u32 max ->
  (S (length tasks) < fuel)%nat ->
  call sc ext fuel c_Scheduler_addTask [struct_ptr 2 b; VInt U32 max; struct_ptr 2 nb] m w
  = let! '(r, tasks) := Scheduler_addTask tasks max new in
    Ok (VInt IBool (b2z r), put_tasks b tasks m, w).
Proof. exact @ref_Scheduler_addTask. Qed.
Print Assumptions C93_Scheduler_addTask.
Example C93_Scheduler_addTask_ex :
  call true no_ext 100 c_Scheduler_addTask [struct_ptr 2 0; VInt U32 2; struct_ptr 2 1] [tasks [mkTask (Some 4) false; mkTask None true]; tasks [mkTask (Some 5) false]] tt
  = Ok
    (VInt IBool 1,
    [[CV (VFun 4); CI 8 0; CV (VFun 5); CI 8 0]; [CV (VFun 5); CI 8 0]], ()) /\
  call true no_ext 100 c_Scheduler_addTask [struct_ptr 2 0; VInt U32 1; struct_ptr 2 1] [tasks [mkTask (Some 4) false; mkTask None true]; tasks [mkTask (Some 5) false]] tt
  = Ok
    (VInt IBool 0, [[CV (VFun 4); CI 8 0; CV VNull; CI 8 1]; [CV (VFun 5); CI 8 0]],
    ()) /\
  call true no_ext 100 c_Scheduler_addTask [struct_ptr 2 0; VInt U32 2; struct_ptr 2 1] [tasks [mkTask (Some 4) false]; tasks [mkTask (Some 5) false]] tt
  = UB OutOfBounds.
Proof. repeat split; vm_compute; reflexivity. Qed.

Theorem C93_Scheduler_init : forall (W : Type) sc
    (ext : Z -> list val -> mem -> W -> outcome (val * mem * W)) fuel
    m w b slots n (t0 : SchedulerTask_t),
  slots_at m b slots -> is_u32 n -> (Z.to_nat n < fuel)%nat ->
  call sc ext fuel c_Scheduler_init [struct_ptr 2 b; VInt U32 n] m w
  = let! ts := Scheduler_init (default t0 <$> slots) n in
    Ok (VUndef, put_slots b ((Some <$> take (Z.to_nat n) ts) ++ drop (Z.to_nat n) slots) m, w).
Proof. exact @ref_Scheduler_init. Qed.
Print Assumptions C93_Scheduler_init.
Example C93_Scheduler_init_ex :
  call true no_ext 100 c_Scheduler_init [struct_ptr 2 0; VInt U32 2] [flat (slot_cells <$> [None; Some (mkTask (Some 3) true); Some (mkTask (Some 4) true); None])] tt
  = Ok
    (VUndef,
    [[CV VNull; CI 8 0; CV VNull; CI 8 0; CV (VFun 4); CI 8 1; CV VUndef; CV VUndef]],
    ()) /\
  call true no_ext 100 c_Scheduler_init [struct_ptr 2 0; VInt U32 2] [flat (slot_cells <$> [None])] tt
  = UB OutOfBounds.
Proof. repeat split; vm_compute; reflexivity. Qed.

Theorem C93_Scheduler_run : forall (W : Type) sc
    (ext : Z -> list val -> mem -> W -> outcome (val * mem * W)) fuel
    m w b tasks n (exec : Z -> mem * W * list SchedulerTask_t -> mem * W * list SchedulerTask_t),
  tasks_at m b tasks -> is_u32 n -> (Z.to_nat n < fuel)%nat ->
  (forall f m w ts, (b < length m)%nat ->
     let '(m', w', ts') := exec f (m, w, ts) in
     ext f [] (put_tasks b ts m) w = Ok (VUndef, put_tasks b ts' m', w') /\ (b < length m')%nat) ->
  call sc ext fuel c_Scheduler_run [struct_ptr 2 b; VInt U32 n] m w
  = let! '(m, w, ts) := Scheduler_run exec (m, w) tasks n in Ok (VUndef, put_tasks b ts m, w).
Proof. exact @ref_Scheduler_run. Qed.
Print Assumptions C93_Scheduler_run.
Example C93_Scheduler_run_ex :
  call true (fun f _ m w => Ok (VUndef, if f =? 4 then <[0%nat := <[5%nat := CI 8 1]> (default [] (m !! 0%nat))]> m else m, w ++ [f])) 100 c_Scheduler_run [struct_ptr 2 0; VInt U32 4] [tasks [mkTask (Some 3) false; mkTask (Some 4) true; mkTask (Some 5) false; mkTask None true]] []
  = Ok
    (VUndef,
    [[CV (VFun 3); CI 8 0; CV (VFun 4); CI 8 1; CV (VFun 5); 
    CI 8 1; CV VNull; CI 8 1]], [4; 5]).
Proof. repeat split; vm_compute; reflexivity. Qed.
(** tasks that only record that they ran meet the hypothesis of [C93_Scheduler_run] *)
Example C93_Scheduler_run_tasks : forall b f (m : mem) (w : list Z) ts, (b < length m)%nat ->
  let '(m', w', ts') := (fun f '(m, w, ts) => (m, w ++ [f], ts) : mem * list Z * list SchedulerTask_t) f (m, w, ts) in
  (fun f (_ : list val) m w => Ok (VUndef, m, w ++ [f])) f [] (put_tasks b ts m) w
  = Ok (VUndef, put_tasks b ts' m', w') /\ (b < length m')%nat.
Proof. intros b f m w ts H. split; [reflexivity|exact H]. Qed.
