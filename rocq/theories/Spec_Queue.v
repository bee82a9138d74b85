(** * Specification: a bounded first-in first-out queue of byte strings *)
From Coq Require Import ZArith.
From stdpp Require Import list numbers.
Open Scope Z_scope.

(** the operations; [e] is the object given to enqueue, [d] the destination object *)
Inductive qop :=
  | Enqueue (e : list Z)
  | Dequeue (d : list Z)
  | Front (d : list Z)
  | Rear (d : list Z)
  | IsFull
  | IsEmpty.

(** the returned status and the caller's object afterwards (nothing for the predicates) *)
Definition qres : Type := bool * list Z.

(** [x] copied over the beginning of the object [d] *)
Definition copied (x d : list Z) : list Z := x ++ drop (length x) d.

(** one operation on the contents (oldest first) of a queue for at most [cap] elements of
    [es] bytes *)
Definition fifo_step (cap es : Z) (op : qop) (c : list (list Z)) : qres * list (list Z) :=
  match op with
  | Enqueue e =>
      if Z.of_nat (length c) <? cap then ((true, e), c ++ [take (Z.to_nat es) e])
      else ((false, e), c)
  | Dequeue d => match c with x :: c' => ((true, copied x d), c') | [] => ((false, d), c) end
  | Front d => match head c with Some x => ((true, copied x d), c) | None => ((false, d), c) end
  | Rear d => match list.last c with Some x => ((true, copied x d), c) | None => ((false, d), c) end
  | IsFull => ((Z.of_nat (length c) =? cap, []), c)
  | IsEmpty => ((Z.of_nat (length c) =? 0, []), c)
  end.

Fixpoint fifo (cap es : Z) (ops : list qop) (c : list (list Z)) : list qres * list (list Z) :=
  match ops with
  | [] => ([], c)
  | op :: ops' =>
      let '(r, c1) := fifo_step cap es op c in
      let '(rs, c2) := fifo cap es ops' c1 in (r :: rs, c2)
  end.

(** the caller's objects hold (at least) one element *)
Definition qop_ok (es : Z) (op : qop) : Prop :=
  match op with
  | Enqueue o | Dequeue o | Front o | Rear o => es <= Z.of_nat (length o)
  | _ => True
  end.
