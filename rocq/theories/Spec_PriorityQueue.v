(** * Specification: a bounded priority queue of byte strings, as a list *)
From Coq Require Import ZArith.
From stdpp Require Import list numbers.
From Verif Require Import Spec_Queue.
Open Scope Z_scope.

(** an entry: priority and bytes; the contents are listed in the order of insertion *)
Notation entry := (Z * list Z)%type.

Inductive pqop :=
  | PEnqueue (p : Z) (e : list Z)
  | PDequeue (d : list Z)
  | PIsEmpty.

(** the first entry satisfying [f], and the others in their order *)
Fixpoint remove_first (f : entry -> bool) (c : list entry) : option (entry * list entry) :=
  match c with
  | [] => None
  | x :: c' =>
      if f x then Some (x, c')
      else match remove_first f c' with Some (y, r) => Some (y, x :: r) | None => None end
  end.
(** no entry of [c] has a greater (smaller) priority than [x] *)
Definition is_highest (c : list entry) (x : entry) : bool := forallb (fun y => y.1 <=? x.1) c.
Definition is_lowest (c : list entry) (x : entry) : bool := forallb (fun y => x.1 <=? y.1) c.

Definition prio_step (cap es : Z) (op : pqop) (c : list entry) : qres * list entry :=
  match op with
  | PEnqueue p e =>
      let new := (p, take (Z.to_nat es) e) in
      if Z.of_nat (length c) <? cap then ((true, e), c ++ [new])
      else match remove_first (is_lowest c) c with
           | Some (x, rest) => if x.1 <? p then ((true, e), rest ++ [new]) else ((false, e), c)
           | None => ((false, e), c)
           end
  | PDequeue d =>
      match remove_first (is_highest c) c with
      | Some (x, rest) => ((true, copied x.2 d), rest)
      | None => ((false, d), c)
      end
  | PIsEmpty => ((Z.of_nat (length c) =? 0, []), c)
  end.

Fixpoint prio (cap es : Z) (ops : list pqop) (c : list entry) : list qres * list entry :=
  match ops with
  | [] => ([], c)
  | op :: ops' =>
      let '(r, c1) := prio_step cap es op c in
      let '(rs, c2) := prio cap es ops' c1 in (r :: rs, c2)
  end.

(** the caller's objects hold (at least) one element *)
Definition pqop_ok (es : Z) (op : pqop) : Prop :=
  match op with
  | PEnqueue _ o | PDequeue o => es <= Z.of_nat (length o)
  | PIsEmpty => True
  end.
