(** * Spec_Reach: what memory a call can get at

    Objects in memory are numbered ([CLang]).  [R] is a set of objects; a value is [inside] it if
    it is no pointer to an object outside, and a memory is [closed] if the cells of the objects of
    [R] are. *)
From Verif Require Import CSem CLang.

Definition inside (R : nat -> Prop) (v : val) : Prop :=
  match v with VPtr _ (BObj n) _ => R n | _ => True end.
Definition inside_cell (R : nat -> Prop) (c : cell) : Prop :=
  match c with CV v => inside R v | CI _ _ => True end.
Definition closed (R : nat -> Prop) (m : mem) : Prop :=
  forall n cs, R n -> m !! n = Some cs -> Forall (inside_cell R) cs.
(** the two memories have the same objects in [R], and equally many outside *)
Definition same_in (R : nat -> Prop) (m1 m2 : mem) : Prop :=
  length m1 = length m2 /\ forall n, R n -> m1 !! n = m2 !! n.
(** nothing outside [R] has changed from [m] to [m'] *)
Definition same_out (R : nat -> Prop) (m m' : mem) : Prop :=
  forall n, ~ R n -> m' !! n = m !! n.

(** the called function pointers get at [R] only: the same arguments and objects in [R] give the
    same result, which is inside; nothing outside changes and no object disappears *)
Definition confined {W} (R : nat -> Prop)
    (ext : Z -> list val -> mem -> W -> outcome (val * mem * W)) : Prop :=
  forall f vs m1 m2 w, Forall (inside R) vs -> closed R m1 -> same_in R m1 m2 ->
    match ext f vs m1 w, ext f vs m2 w with
    | Ok (v1, m1', w1), Ok (v2, m2', w2) =>
        v1 = v2 /\ w1 = w2 /\ inside R v1 /\ closed R m1' /\ same_in R m1' m2' /\
        same_out R m1 m1' /\ same_out R m2 m2' /\ length m1' = length m1
    | UB k1, UB k2 => k1 = k2
    | Diverge, Diverge => True
    | _, _ => False
    end.
