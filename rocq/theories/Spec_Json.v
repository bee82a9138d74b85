(** * Specification: the JSON texts of json.h

    Characters are bytes: 34 is the double quote, 44 the comma, 58 the colon, 123 and 125 the
    braces. *)
From Coq Require Import ZArith.
From stdpp Require Import list numbers.
Open Scope Z_scope.

(** ** Texts *)

(** ["k":"v"] *)
Definition pair_text (kv : list Z * list Z) : list Z :=
  [34] ++ fst kv ++ [34; 58; 34] ++ snd kv ++ [34].
Fixpoint members (kvs : list (list Z * list Z)) : list Z :=
  match kvs with
  | [] => []
  | [kv] => pair_text kv
  | kv :: kvs' => pair_text kv ++ [44] ++ members kvs'
  end.
Definition json_text (kvs : list (list Z * list Z)) : list Z := [123] ++ members kvs ++ [125].

(** the object [o] after the string [s] has been written to its beginning *)
Definition put (s o : list Z) : list Z := s ++ [0] ++ drop (S (length s)) o.

(** ** The builder *)

Inductive json_op := Start | Add (k v : list Z) | End.

Definition ends_in_quote (s : list Z) : bool :=
  match list.last s with Some c => c =? 34 | None => false end.
(** what comes between the text so far and a new pair *)
Definition separator (s : list Z) : list Z := if ends_in_quote s then [44] else [].

(** whether [s] with its NUL fits in [n] bytes *)
Definition fits (n : Z) (s : list Z) : bool := Z.of_nat (length s) + 1 <=? n.

(** one call on a buffer of [n] bytes holding the text [s]: the returned status and the text
    afterwards; [None] when the call would write beyond the [n] bytes *)
Definition text_step (n : Z) (op : json_op) (s : list Z) : option (bool * list Z) :=
  match op with
  | Start => Some (if fits n [123] then (true, [123]) else (false, s))
  | Add k v =>
      if fits n (s ++ separator s ++ pair_text (k, v))
      then Some (true, s ++ separator s ++ pair_text (k, v))
      else if fits n (s ++ separator s) then Some (false, s ++ separator s) else None
  | End => Some (if fits n (s ++ [125]) then (true, s ++ [125]) else (false, s))
  end.
Fixpoint text_run (n : Z) (ops : list json_op) (s : list Z) : option (list bool * list Z) :=
  match ops with
  | [] => Some ([], s)
  | op :: ops' =>
      match text_step n op s with
      | None => None
      | Some (r, s') =>
          match text_run n ops' s' with None => None | Some (rs, s'') => Some (r :: rs, s'') end
      end
  end.

(** ** The search *)

Definition occurs (k b : list Z) : Prop := exists p q, b = p ++ k ++ q.
(** in [p ++ k ++ q] the string [k] does not occur before the end of [p] *)
Definition first_occurrence (p k q : list Z) : Prop :=
  forall p' q', p ++ k ++ q = p' ++ k ++ q' -> (length p <= length p')%nat.

(** what the search takes to be the value of [k] in [b]: the first occurrence of [k] is
    followed by a quote, and the value is what lies between the next two quotes *)
Definition has_value (b k v : list Z) : Prop :=
  exists p mid post, b = p ++ k ++ [34] ++ mid ++ [34] ++ v ++ [34] ++ post /\
    first_occurrence p k ([34] ++ mid ++ [34] ++ v ++ [34] ++ post) /\
    ~ In 34 mid /\ ~ In 34 v.
(** the first occurrence of [k] is followed by a quote and [w] is all that follows the next *)
Definition has_tail (b k w : list Z) : Prop :=
  exists p mid, b = p ++ k ++ [34] ++ mid ++ [34] ++ w /\
    first_occurrence p k ([34] ++ mid ++ [34] ++ w) /\ ~ In 34 mid.
