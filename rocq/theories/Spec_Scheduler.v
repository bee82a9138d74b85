(** * Specification of a pass of the scheduler *)
From Coq Require Import ZArith.
From stdpp Require Import list numbers.
Open Scope Z_scope.

(** a pass over the slots [0 .. n-1] of a table: the calls made, as pairs (slot, function).
    [runs s i] is the function to be called in state [s] for slot [i], if any. *)
Section pass.
  Context {S : Type} (exec : Z -> S -> S) (runs : S -> Z -> option Z).

  (** the state after some calls *)
  Definition after (calls : list (Z * Z)) (s : S) : S :=
    fold_left (fun s c => exec c.2 s) calls s.

  (** the calls to slots before [i] *)
  Definition before (i : Z) (calls : list (Z * Z)) : list (Z * Z) :=
    filter (fun c => c.1 < i) calls.

  (** slots are served in increasing order (so each at most once), all below [n], and slot
      [i] is served exactly according to the state that the earlier slots left *)
  Record pass (n : Z) (s : S) (calls : list (Z * Z)) : Prop := {
    in_order : forall i j c d, (i < j)%nat -> calls !! i = Some c -> calls !! j = Some d ->
                 c.1 < d.1;
    in_range : forall c, c ∈ calls -> 0 <= c.1 < n;
    by_state : forall i f, 0 <= i < n ->
                 ((i, f) ∈ calls <-> runs (after (before i calls) s) i = Some f) }.
End pass.
