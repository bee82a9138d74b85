(** * C105: the result does not depend on the order of evaluation

    C leaves open in which order operands and arguments are evaluated, and [CLang] goes from left
    to right.  [call_any] is the same interpreter with the order chosen, each time operands are
    met, by an arbitrary function [ord] of the operands and the state.  A call of any function of
    [/repo/Src] has the same result, memory and world in every such order, and has one in some
    order only if it has it in all. *)
From Coq Require Import String.
From Verif Require Import Drive_Front C_Utils C_Sort.
From Verif Require Import CSem Lib CLang CLangOrder Proof_EvalOrder.
Local Open Scope Z_scope.

Theorem C105_order : forall (W : Type) sc
    (ext : Z -> list val -> mem -> W -> outcome (val * mem * W)) fuel ord f l x st d args m w r,
  In (f, l) c_program -> In (x, st, d) l ->
  call sc ext fuel d args m w = Ok r <-> call_any sc ext fuel ord d args m w = Ok r.
Proof. exact @order_program. Qed.
Print Assumptions C105_order.

(** from right to left; the comparator counts its calls *)
Example C105_order_ex :
  call_any true
    (fun _ vs m n =>
       match vs with
       | [VPtr _ (BObj a) i; VPtr _ (BObj b) j] =>
           match m !! a, m !! b with
           | Some x, Some y =>
               match x !! Z.to_nat i, y !! Z.to_nat j with
               | Some (CI _ u), Some (CI _ v) => Ok (VInt IBool (b2z (u <? v)), m, n + 1)
               | _, _ => UB BadType
               end
           | _, _ => UB BadType
           end
       | _ => UB BadType
       end)
    50 (fun _ _ => false) c_BubbleSort_sort
    [VPtr TVoid (BObj 0) 0; VInt U64 4; VInt U64 1; VFun 0] [[CI 8 3; CI 8 1; CI 8 2; CI 8 0]] 0
  = Ok (VUndef, [[CI 8 3; CI 8 2; CI 8 1; CI 8 0]], 5).
Proof. vm_compute. reflexivity. Qed.

(** the orders do differ: [i++ + i] is 11 from left to right and 10 from right to left *)
Example C105_conflict_ex :
  let d := FDef [TInt U32] (TInt U32)
             (SReturn (EBin Add (EInc false 1 (LVar 0 (TInt U32))) (ELv (LVar 0 (TInt U32))))) in
  call_any true (fun _ _ _ _ => UB BadType) 9 (fun _ _ => true) d [VInt U32 5] [] tt
  = Ok (VInt U32 11, [], tt) /\
  call true (fun _ _ _ _ => UB BadType) 9 d [VInt U32 5] [] tt = Ok (VInt U32 11, [], tt) /\
  call_any true (fun _ _ _ _ => UB BadType) 9 (fun _ _ => false) d [VInt U32 5] [] tt
  = Ok (VInt U32 10, [], tt).
Proof. vm_compute. auto. Qed.
