(** * Running and filling the scheduler's table *)
From Verif Require Import Lib Model_Containers.

Global Instance task_inhabited : Inhabited SchedulerTask_t := populate (mkTask None false).

(** the function of a task that is to be run *)
Definition runnable (t : SchedulerTask_t) : option Z :=
  if t_active t then t_function t else None.
Definition runs_slot {W} (s : W * list SchedulerTask_t) (i : Z) : option Z :=
  match s.2 !! Z.to_nat i with Some t => runnable t | None => None end.

(** adding one after the other *)
Fixpoint add_all (tasks : list SchedulerTask_t) (n : Z) (new : list SchedulerTask_t)
  : outcome (list bool * list SchedulerTask_t) :=
  match new with
  | [] => Ok ([], tasks)
  | t :: new' =>
      let! '(s, tasks1) := Scheduler_addTask tasks n t in
      let! '(ss, tasks2) := add_all tasks1 n new' in Ok (s :: ss, tasks2)
  end.
