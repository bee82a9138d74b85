(** * Running a sequence of map operations on the model *)
From Verif Require Import Lib Model_Containers Spec_Queue Spec_Map.

Definition map_model_step (op : mop) (m : option Map_t) : outcome (qres * option Map_t) :=
  match op with
  | Insert k v => let! '(s, m) := Map_insert m k v in Ok ((s, v), m)
  | GetValue k d => let! '(s, d') := Map_getValue m k d in Ok ((s, d'), m)
  end.

Fixpoint map_run (ops : list mop) (m : option Map_t) : outcome (list qres * option Map_t) :=
  match ops with
  | [] => Ok ([], m)
  | op :: ops' =>
      let! '(r, m1) := map_model_step op m in
      let! '(rs, m2) := map_run ops' m1 in Ok (r :: rs, m2)
  end.

(** [m] is the map after Map_init of any structure [m0] and then [ops] *)
Definition map_after (mx ks vs : Z) (keys vals : list Z) (ops : list mop) (m : Map_t) : Prop :=
  exists m0 m1 rs, Map_init (Some m0) (Some keys) (Some vals) ks vs mx = Ok (true, Some m1) /\
    map_run ops (Some m1) = Ok (rs, Some m).

(** positive sizes for which the index arithmetic does not overflow; storage large enough *)
Definition map_sizes (mx ks vs : Z) (keys vals : list Z) : Prop :=
  0 < mx < 2 ^ 31 /\ 0 < ks < 2 ^ 31 /\ 0 < vs < 2 ^ 31 /\
  (mx - 1) * ks < 2 ^ 31 /\ (mx - 1) * vs < 2 ^ 31 /\ mx * ks <= len keys /\ mx * vs <= len vals.
