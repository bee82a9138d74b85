(** * A client of the C text of json.c: sequences of calls on one buffer *)
From Verif Require Import CSem CLang C_Json Refine Spec_Json Drive_TextRun.

Section client.
  Context {W : Type} (sc : bool)
          (ext : Z -> list val -> mem -> W -> outcome (val * mem * W)) (fuel : nat).
  Local Notation chars b := (VPtr (TInt IChar) (BObj b) 0).

  (** the buffer is object [b]; the keys and the values are string objects of the caller's, which
      get the numbers [length m] and [length m + 1] for the time of the call *)
  Definition json_call (b : nat) (n : Z) (op : json_op) (m : mem) (w : W)
    : outcome (bool * mem * W) :=
    let! '(v, m', w) :=
      match op with
      | Start => call sc ext fuel c_Json_startString [chars b; VInt U64 n] m w
      | Add k v =>
          call sc ext fuel c_Json_addData
            [chars b; VInt U64 n; chars (length m); chars (length m + 1)]
            (m ++ [ints 8 (k ++ [0]); ints 8 (v ++ [0])]) w
      | End => call sc ext fuel c_Json_endString [chars b; VInt U64 n] m w
      end in
    Ok (answer v, take (length m) m', w).
  Fixpoint json_calls (b : nat) (n : Z) (ops : list json_op) (m : mem) (w : W)
    : outcome (list bool * mem * W) :=
    match ops with
    | [] => Ok ([], m, w)
    | op :: ops =>
        let! '(r, m, w) := json_call b n op m w in
        let! '(rs, m, w) := json_calls b n ops m w in Ok (r :: rs, m, w)
    end.
End client.
