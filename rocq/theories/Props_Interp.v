(** * C106, C107, C108: every call of the C text, whatever the function does

    Statements about the interpreter of [CLang] itself, so about every function of [/repo/Src] at
    once ([c_program] is the text, C104). *)
From Coq Require Import String.
From Verif Require Import Drive_Front C_Utils C_Crypto.
From Verif Require Import CSem Lib CLang Spec_Reach Proof_Fuel Proof_Reach.
Local Open Scope Z_scope.

(** ** C106: the fuel of the interpreter only decides whether there is a result *)
Theorem C106_more_fuel : forall (W : Type) sc
    (ext : Z -> list val -> mem -> W -> outcome (val * mem * W)) n n' d args m w,
  (n <= n')%nat -> call sc ext n d args m w <> Diverge ->
  call sc ext n' d args m w = call sc ext n d args m w.
Proof. exact @more_fuel. Qed.
Print Assumptions C106_more_fuel.
Theorem C106_one_result : forall (W : Type) sc
    (ext : Z -> list val -> mem -> W -> outcome (val * mem * W)) n n' d args m w,
  call sc ext n d args m w <> Diverge -> call sc ext n' d args m w <> Diverge ->
  call sc ext n d args m w = call sc ext n' d args m w.
Proof. exact @same_result. Qed.
Print Assumptions C106_one_result.
(** the loop over 8 bits needs 9 rounds *)
Example C106_ex :
  call true (fun _ _ _ _ => UB BadType) 8 c_BitManipulation_reflect [VInt U32 6; VInt U8 8] [] tt
  = Diverge /\
  call true (fun _ _ _ _ => UB BadType) 9 c_BitManipulation_reflect [VInt U32 6; VInt U8 8] [] tt
  = Ok (VInt U32 96, [], tt) /\
  call true (fun _ _ _ _ => UB BadType) 70 c_BitManipulation_reflect [VInt U32 6; VInt U8 8] [] tt
  = Ok (VInt U32 96, [], tt).
Proof. vm_compute. auto. Qed.

(** ** C107: no call leaves an object behind, and no object changes its size *)
Theorem C107_sizes : forall (W : Type) sc
    (ext : Z -> list val -> mem -> W -> outcome (val * mem * W)) fuel f l x st d args m w v m' w',
  (forall f vs m w v m' w', ext f vs m w = Ok (v, m', w') ->
     map (@length cell) m' = map (@length cell) m) ->
  In (f, l) c_program -> In (x, st, d) l ->
  call sc ext fuel d args m w = Ok (v, m', w') ->
  map (@length cell) m' = map (@length cell) m.
Proof. exact @sizes_program. Qed.
Print Assumptions C107_sizes.
(** ChaCha20 uses seventeen objects of its own *)
Example C107_sizes_ex :
  match call true (fun _ _ _ _ => UB BadType) 100 c_Chacha20_crypt
          [VPtr (TInt U8) (BObj 0) 0; VInt U32 3; VPtr (TInt U8) (BObj 1) 0;
           VPtr (TInt U8) (BObj 2) 0; VInt U32 1; VPtr (TInt U8) (BObj 3) 0]
          [repeat (CI 8 7) 3; repeat (CI 8 1) 32; repeat (CI 8 2) 12; repeat (CV VUndef) 5] tt with
  | Ok (_, m', _) => map (@length cell) m' = [3; 32; 12; 5]%nat
  | _ => False
  end.
Proof. vm_compute. reflexivity. Qed.
(** a block that does not say that it declares objects would leave one behind *)
Example C107_left_behind_ex :
  call true (fun _ _ _ _ => UB BadType) 9
    (FDef [] TVoid (SBlock false (SSeq (SArr U8 [1; 2]) SSkip))) [] [] tt
  = Ok (VUndef, [[CI 8 1; CI 8 2]], tt).
Proof. vm_compute. reflexivity. Qed.

(** ** C108: a call gets only at the objects its arguments reach

    [R] is a set of objects that contains what the arguments point to and what the objects in it
    point to (and the numbers of objects not yet there).  Two memories that agree on [R] give the
    same outcome, whatever else they hold, and what is outside [R] is as before.  So the library
    has no hidden state, and calls on separate data do not disturb each other. *)
Theorem C108_reach : forall (W : Type) R sc
    (ext : Z -> list val -> mem -> W -> outcome (val * mem * W)) fuel d args m1 m2 w,
  confined R ext -> Forall (inside R) args -> closed R m1 -> same_in R m1 m2 ->
  (forall n, (length m1 <= n)%nat -> R n) ->
  match call sc ext fuel d args m1 w, call sc ext fuel d args m2 w with
  | Ok (v1, m1', w1), Ok (v2, m2', w2) =>
      v1 = v2 /\ w1 = w2 /\ inside R v1 /\ closed R m1' /\ same_in R m1' m2' /\
      same_out R m1 m1' /\ same_out R m2 m2'
  | UB k1, UB k2 => k1 = k2
  | Diverge, Diverge => True
  | _, _ => False
  end.
Proof. exact @call_reach. Qed.
Print Assumptions C108_reach.
Theorem C108_frame : forall (W : Type) R sc
    (ext : Z -> list val -> mem -> W -> outcome (val * mem * W)) fuel d args m w v m' w',
  confined R ext -> Forall (inside R) args -> closed R m ->
  (forall n, (length m <= n)%nat -> R n) ->
  call sc ext fuel d args m w = Ok (v, m', w') ->
  inside R v /\ closed R m' /\ same_out R m m'.
Proof. exact @call_frame. Qed.
Print Assumptions C108_frame.
(** the second object is out of reach *)
Example C108_ex :
  let R := fun n => n <> 1%nat in
  let m z := [[CI 8 1; CI 8 2; CI 8 3; CI 8 4]; [z]] in
  let args := [VPtr (TInt U8) (BObj 0) 0; VPtr (TInt U8) (BObj 0) 2; VInt U32 2] in
  confined (W := unit) R (fun _ _ _ _ => UB BadType) /\ Forall (inside R) args /\
  closed R (m (CI 32 5)) /\ same_in R (m (CI 32 5)) (m (CV VNull)) /\
  (forall n, (2 <= n)%nat -> R n) /\
  call true (fun _ _ _ _ => UB BadType) 9 c_Utils_swapElements args (m (CI 32 5)) tt
  = Ok (VUndef, [[CI 8 3; CI 8 4; CI 8 1; CI 8 2]; [CI 32 5]], tt) /\
  call true (fun _ _ _ _ => UB BadType) 9 c_Utils_swapElements args (m (CV VNull)) tt
  = Ok (VUndef, [[CI 8 3; CI 8 4; CI 8 1; CI 8 2]; [CV VNull]], tt).
Proof.
  cbv zeta. split; [intros ? ? ? ? ? _ _ _; reflexivity|].
  split; [repeat constructor; discriminate|].
  split. { intros [|[|n]] cs Hn H; [|congruence|discriminate]. injection H as <-. repeat constructor. }
  split. { split; [reflexivity|]. intros [|[|n]] Hn; [reflexivity|congruence|reflexivity]. }
  split; [intros; lia|]. split; vm_compute; reflexivity.
Qed.
