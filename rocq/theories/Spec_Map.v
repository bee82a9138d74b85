(** * Specification: a finite map from byte strings to byte strings, of bounded size *)
From Coq Require Import ZArith.
From stdpp Require Import list numbers gmap.
From Verif Require Import Spec_Queue.
Open Scope Z_scope.

Inductive mop :=
  | Insert (key value : list Z)
  | GetValue (key d : list Z).

(** [mx] entries of [ks] key bytes and [vs] value bytes; keys and values are taken from the
    beginning of the caller's objects *)
Definition map_step (mx ks vs : Z) (op : mop) (m : gmap (list Z) (list Z))
  : qres * gmap (list Z) (list Z) :=
  match op with
  | Insert key value =>
      let k := take (Z.to_nat ks) key in
      let v := take (Z.to_nat vs) value in
      match m !! k with
      | Some _ => ((true, value), <[k := v]> m)
      | None => if Z.of_nat (size m) <? mx then ((true, value), <[k := v]> m)
                else ((false, value), m)
      end
  | GetValue key d =>
      match m !! take (Z.to_nat ks) key with
      | Some v => ((true, copied v d), m)
      | None => ((false, d), m)
      end
  end.

Fixpoint map_ops (mx ks vs : Z) (ops : list mop) (m : gmap (list Z) (list Z))
  : list qres * gmap (list Z) (list Z) :=
  match ops with
  | [] => ([], m)
  | op :: ops' =>
      let '(r, m1) := map_step mx ks vs op m in
      let '(rs, m2) := map_ops mx ks vs ops' m1 in (r :: rs, m2)
  end.

(** the caller's objects hold (at least) one key and one value *)
Definition mop_ok (ks vs : Z) (op : mop) : Prop :=
  match op with
  | Insert k v | GetValue k v => ks <= Z.of_nat (length k) /\ vs <= Z.of_nat (length v)
  end.
