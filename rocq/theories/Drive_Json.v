(** * Clients of json.c: sequences of calls on one buffer *)
From Verif Require Import CSem Model_Json Spec_Json.

(** the keys and values are passed as their own string objects *)
Definition json_step (n : Z) (op : json_op) (buffer : list Z) : outcome (bool * list Z) :=
  match op with
  | Start => Json_startString buffer n
  | Add k v => Json_addData buffer n (k ++ [0]) (v ++ [0])
  | End => Json_endString buffer n
  end.
Fixpoint json_run (n : Z) (ops : list json_op) (buffer : list Z)
  : outcome (list bool * list Z) :=
  match ops with
  | [] => Ok ([], buffer)
  | op :: ops' =>
      let! '(r, buffer) := json_step n op buffer in
      let! '(rs, buffer) := json_run n ops' buffer in
      Ok (r :: rs, buffer)
  end.
(** the strings given to an operation: no NUL inside, and total length below 2^63 *)
Definition no_nul (s : list Z) : Prop := Forall (fun c => c <> 0) s.
Definition op_ok (op : json_op) : Prop :=
  match op with Add k v => no_nul k /\ no_nul v /\ len k + len v + 8 < 2 ^ 63 | _ => True end.

(** start, one addData for each pair, end *)
Definition build (kvs : list (list Z * list Z)) : list json_op :=
  [Start] ++ map (fun kv => Add (fst kv) (snd kv)) kvs ++ [End].
