(** * Comparison functions as the interpreter of the C text calls them *)
From Verif Require Import CSem CLang.

(** the [n] bytes at [b], offset [o] *)
Fixpoint cells_bytes (cs : list cell) : outcome (list Z) :=
  match cs with
  | [] => Ok []
  | c :: cs => let! z := cell_byte c in let! l := cells_bytes cs in Ok (z :: l)
  end.
Definition read_bytes (m : mem) (b : blk) (o n : Z) : outcome (list Z) :=
  let! cs := block m b in
  if in_range cs o n then cells_bytes (slice cs o n) else UB OutOfBounds.

(** a comparison function of two [void] pointers that reads [n] bytes at each of its two
    arguments, answers by [cmp], keeps a state [T] of its own and changes nothing else *)
Definition byte_cmp {T} (cmp : T -> list Z -> list Z -> T * bool) (n : Z)
    (f : Z) (args : list val) (m : mem) (t : T) : outcome (val * mem * T) :=
  match args with
  | [VPtr _ a i; VPtr _ b j] =>
      let! x := read_bytes m a i n in
      let! y := read_bytes m b j n in
      let '(t, c) := cmp t x y in Ok (VInt IBool (b2z c), m, t)
  | _ => UB BadType
  end.

(** the two computations end alike: with the same result, or both with undefined behaviour (C
    does not tell one kind from another), or neither ends *)
Definition agree {A} (o o' : outcome A) : Prop :=
  match o, o' with
  | Ok a, Ok b => a = b
  | UB _, UB _ => True
  | Diverge, Diverge => True
  | _, _ => False
  end.

(** for examples: compares the first bytes and counts its calls *)
Definition first_byte (t : nat) (x y : list Z) : nat * bool := (S t, (nth 0 y 0 <? nth 0 x 0)%Z).
