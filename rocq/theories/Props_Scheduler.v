(** * C29-C31: scheduler.c *)
From Verif Require Import Lib Model_Containers Spec_Scheduler Drive_Scheduler Proof_Scheduler.

(** ** C29 Each active task once, in array order *)

(** [ef f] is the effect of function [f] on the rest of the program *)
Theorem C29_run : forall {W} (ef : Z -> W -> W) w t n,
  0 <= n <= len t ->
  Scheduler_run (fun f '(w, t) => (ef f w, t)) w t n
  = Ok (fold_left (fun w f => ef f w) (omap runnable (take (Z.to_nat n) t)) w, t).
Proof. intros W. exact run_static. Qed.
Print Assumptions C29_run.
(** the world as a log of calls: inactive and free slots are skipped *)
Example C29_run_ex :
  let t := [mkTask (Some 4) true; mkTask (Some 5) false; mkTask None true; mkTask (Some 6) true;
            mkTask (Some 7) true] in
  0 <= 4 <= len t /\
  Scheduler_run (fun f '(w, t) => (w ++ [f], t)) [] t 4 = Ok ([4; 6], t).
Proof. ex. Qed.

(** ** C30 Adding tasks *)

Theorem C30_add_first_free : forall l x r n new,
  0 <= n < 2 ^ 32 -> len l < n -> n <= len (l ++ x :: r) ->
  Forall (fun t => t_function t <> None) l -> t_function x = None ->
  Scheduler_addTask (l ++ x :: r) n new = Ok (true, l ++ new :: r).
Proof. exact add_first_free. Qed.
Print Assumptions C30_add_first_free.
Theorem C30_add_full : forall l r n new,
  len l = n -> n < 2 ^ 32 -> Forall (fun t => t_function t <> None) l ->
  Scheduler_addTask (l ++ r) n new = Ok (false, l ++ r).
Proof. exact add_full. Qed.
Print Assumptions C30_add_full.
Theorem C30_init : forall t n,
  0 <= n <= len t ->
  Scheduler_init t n = Ok (replicate (Z.to_nat n) (mkTask None false) ++ drop (Z.to_nat n) t).
Proof. exact init_table. Qed.
Print Assumptions C30_init.
(** after initialisation the first [n] additions succeed and the rest fail *)
Theorem C30_init_add : forall tasks n new,
  0 <= n < 2 ^ 32 -> n <= len tasks -> Forall (fun t => t_function t <> None) new ->
  (let! t := Scheduler_init tasks n in add_all t n new)
  = Ok (replicate (Nat.min (Z.to_nat n) (length new)) true
          ++ replicate (length new - Z.to_nat n) false,
        take (Z.to_nat n) new ++ replicate (Z.to_nat n - length new) (mkTask None false)
          ++ drop (Z.to_nat n) tasks).
Proof. exact add_all_after_init. Qed.
Print Assumptions C30_init_add.
Example C30_init_add_ex :
  let old := [mkTask (Some 9) true; mkTask None true; mkTask (Some 8) true] in
  let new := [mkTask (Some 1) true; mkTask (Some 2) false; mkTask (Some 3) true] in
  Forall (fun t => t_function t <> None) new /\
  (let! t := Scheduler_init old 2 in add_all t 2 new)
  = Ok ([true; true; false],
        [mkTask (Some 1) true; mkTask (Some 2) false; mkTask (Some 8) true]).
Proof. split; [by repeat constructor|ex]. Qed.
(** a task without function is reported as added, but the next addition takes its slot *)
Theorem C30_null_function : forall l x r n a,
  0 <= n < 2 ^ 32 -> len l < n -> n <= len (l ++ x :: r) ->
  Forall (fun t => t_function t <> None) l -> t_function x = None ->
  Scheduler_addTask (l ++ x :: r) n (mkTask None a) = Ok (true, l ++ mkTask None a :: r) /\
  forall new, Scheduler_addTask (l ++ mkTask None a :: r) n new = Ok (true, l ++ new :: r).
Proof. exact add_null_function. Qed.
Print Assumptions C30_null_function.
Theorem C30_added_occupies_refuted :
  exists tasks n t tasks', Scheduler_addTask tasks n t = Ok (true, tasks') /\
    forall i x, tasks' !! i = Some x -> t_function x = None.
Proof. exact added_task_occupies_refuted. Qed.
Print Assumptions C30_added_occupies_refuted.

(** ** C31 Tasks that modify the table *)

(** for tasks with any effect on the program and on the table: the pass of the specification
    (each slot judged by the contents the earlier slots left, in increasing order) *)
Theorem C31_run : forall {W} (exec : Z -> W * list SchedulerTask_t -> W * list SchedulerTask_t) w t n,
  0 <= n <= len t -> (forall f s, len (exec f s).2 = len s.2) ->
  exists calls, Scheduler_run exec w t n = Ok (after exec calls (w, t)) /\
    pass exec runs_slot n (w, t) calls.
Proof. intros W. exact run_dynamic. Qed.
Print Assumptions C31_run.
Theorem C31_at_most_n : forall {S} (exec : Z -> S -> S) runs n s calls,
  0 <= n -> pass exec runs n s calls -> len calls <= n.
Proof. intros S. exact pass_length. Qed.
Print Assumptions C31_at_most_n.
(** task 1 deactivates slot 1 and activates slot 2; task 3 (slot 2) re-activates slot 1, which
    is not run in this pass *)
Example C31_run_ex :
  let exec f '(w, t) :=
    (w ++ [f],
     if f =? 1 then [mkTask (Some 1) true; mkTask (Some 2) false; mkTask (Some 3) true]
     else [mkTask (Some 1) true; mkTask (Some 2) true; mkTask (Some 3) true]) in
  Scheduler_run exec [] [mkTask (Some 1) true; mkTask (Some 2) true; mkTask (Some 3) false] 3
  = Ok ([1; 3], [mkTask (Some 1) true; mkTask (Some 2) true; mkTask (Some 3) true]).
Proof. ex. Qed.
