(** * The text of [/repo/Src/queue.c], [/repo/Src/priority_queue.c], [/repo/Src/map.c], [/repo/Src/scheduler.c] as terms of [CLang]

    Generated by [/verif/tools/c2coq.py] from the C text; not edited by hand. *)
From Verif Require Import CSem CLang.


(** queue.c:39-52; parameters: queue, capacity, element_size, buffer. *)
Definition c_Queue_init : fundef :=
  FDef [TPtr (TStruct 6); TInt U32; TInt U32; TPtr (TInt U8)] (TInt IBool)
    (SSeq (SInit (TInt IBool) (ECst I32 0))
    (SSeq (SIf (EAnd (EAnd (EBin Ne (ELv (LVar 2 (TInt U32))) (ECst U32 0)) (EBin Ne (ELv (LVar 1 (TInt U32))) (ECst U32 0))) (EBin Ne (ELv (LVar 3 (TPtr (TInt U8)))) (ECast (TPtr TVoid) (ECst I32 0))))
     (SSeq (SSet (LField (LDeref (ELv (LVar 0 (TPtr (TStruct 6))))) 3 (TInt U32)) (ELv (LVar 1 (TInt U32))))
     (SSeq (SSet (LField (LDeref (ELv (LVar 0 (TPtr (TStruct 6))))) 0 (TInt U32)) (ECst U32 0))
     (SSeq (SSet (LField (LDeref (ELv (LVar 0 (TPtr (TStruct 6))))) 2 (TInt U32)) (ECst U32 0))
     (SSeq (SSet (LField (LDeref (ELv (LVar 0 (TPtr (TStruct 6))))) 1 (TInt U32)) (EBin Sub (ELv (LVar 1 (TInt U32))) (ECst U32 1)))
     (SSeq (SSet (LField (LDeref (ELv (LVar 0 (TPtr (TStruct 6))))) 4 (TInt U32)) (ELv (LVar 2 (TInt U32))))
     (SSeq (SSet (LField (LDeref (ELv (LVar 0 (TPtr (TStruct 6))))) 5 (TPtr (TInt U8))) (ELv (LVar 3 (TPtr (TInt U8)))))
     (SSet (LVar 4 (TInt IBool)) (ECst I32 1))))))))
     SSkip)
    (SReturn (ELv (LVar 4 (TInt IBool)))))).

(** queue.c:54-57; parameters: queue. *)
Definition c_Queue_full : fundef :=
  FDef [TPtr (TStruct 6)] (TInt IBool)
    (SReturn (EBin Eq (ELv (LField (LDeref (ELv (LVar 0 (TPtr (TStruct 6))))) 2 (TInt U32))) (ELv (LField (LDeref (ELv (LVar 0 (TPtr (TStruct 6))))) 3 (TInt U32))))).

(** queue.c:59-62; parameters: queue. *)
Definition c_Queue_empty : fundef :=
  FDef [TPtr (TStruct 6)] (TInt IBool)
    (SReturn (EBin Eq (ELv (LField (LDeref (ELv (LVar 0 (TPtr (TStruct 6))))) 2 (TInt U32))) (ECst U32 0))).

(** queue.c:64-81; parameters: queue, element. *)
Definition c_Queue_enqueue : fundef :=
  FDef [TPtr (TStruct 6); TPtr (TInt U8)] (TInt IBool)
    (SSeq (SInit (TInt IBool) (ECst I32 0))
    (SSeq (SIf (EAnd (EBin Ne (ELv (LVar 0 (TPtr (TStruct 6)))) (ECast (TPtr TVoid) (ECst I32 0))) (EBin Ne (ELv (LVar 1 (TPtr (TInt U8)))) (ECast (TPtr TVoid) (ECst I32 0))))
     (SIf (EUn LNot (ECall c_Queue_full (ECons (ELv (LVar 0 (TPtr (TStruct 6)))) ENil)))
       (SBlock false
        (SSeq (SInit (TPtr (TInt U8)) (ELv (LField (LDeref (ELv (LVar 0 (TPtr (TStruct 6))))) 5 (TPtr (TInt U8)))))
        (SSeq (SExpr (ELib LMemcpy (ECons (EAddr (LIndex (ELv (LVar 3 (TPtr (TInt U8)))) (EBin Mul (EBin Mod (EBin Add (ELv (LField (LDeref (ELv (LVar 0 (TPtr (TStruct 6))))) 1 (TInt U32))) (ECst U32 1)) (ELv (LField (LDeref (ELv (LVar 0 (TPtr (TStruct 6))))) 3 (TInt U32)))) (ELv (LField (LDeref (ELv (LVar 0 (TPtr (TStruct 6))))) 4 (TInt U32)))))) (ECons (ELv (LVar 1 (TPtr (TInt U8)))) (ECons (ELv (LField (LDeref (ELv (LVar 0 (TPtr (TStruct 6))))) 4 (TInt U32))) ENil)))))
        (SSeq (SSet (LField (LDeref (ELv (LVar 0 (TPtr (TStruct 6))))) 1 (TInt U32)) (EBin Mod (EBin Add (ELv (LField (LDeref (ELv (LVar 0 (TPtr (TStruct 6))))) 1 (TInt U32))) (ECst U32 1)) (ELv (LField (LDeref (ELv (LVar 0 (TPtr (TStruct 6))))) 3 (TInt U32)))))
        (SSeq (SSet (LField (LDeref (ELv (LVar 0 (TPtr (TStruct 6))))) 2 (TInt U32)) (EBin Add (ELv (LField (LDeref (ELv (LVar 0 (TPtr (TStruct 6))))) 2 (TInt U32))) (ECst U32 1)))
        (SSet (LVar 2 (TInt IBool)) (ECst I32 1)))))))
       SSkip)
     SSkip)
    (SReturn (ELv (LVar 2 (TInt IBool)))))).

(** queue.c:83-99; parameters: queue, element. *)
Definition c_Queue_dequeue : fundef :=
  FDef [TPtr (TStruct 6); TPtr (TInt U8)] (TInt IBool)
    (SSeq (SInit (TInt IBool) (ECst I32 0))
    (SSeq (SIf (EAnd (EBin Ne (ELv (LVar 0 (TPtr (TStruct 6)))) (ECast (TPtr TVoid) (ECst I32 0))) (EBin Ne (ELv (LVar 1 (TPtr (TInt U8)))) (ECast (TPtr TVoid) (ECst I32 0))))
     (SIf (EUn LNot (ECall c_Queue_empty (ECons (ELv (LVar 0 (TPtr (TStruct 6)))) ENil)))
       (SBlock false
        (SSeq (SInit (TPtr (TInt U8)) (ECast (TPtr (TInt U8)) (ELv (LField (LDeref (ELv (LVar 0 (TPtr (TStruct 6))))) 5 (TPtr (TInt U8))))))
        (SSeq (SExpr (ELib LMemcpy (ECons (ELv (LVar 1 (TPtr (TInt U8)))) (ECons (EAddr (LIndex (ELv (LVar 3 (TPtr (TInt U8)))) (EBin Mul (ELv (LField (LDeref (ELv (LVar 0 (TPtr (TStruct 6))))) 0 (TInt U32))) (ELv (LField (LDeref (ELv (LVar 0 (TPtr (TStruct 6))))) 4 (TInt U32)))))) (ECons (ELv (LField (LDeref (ELv (LVar 0 (TPtr (TStruct 6))))) 4 (TInt U32))) ENil)))))
        (SSeq (SSet (LField (LDeref (ELv (LVar 0 (TPtr (TStruct 6))))) 0 (TInt U32)) (EBin Mod (EBin Add (ELv (LField (LDeref (ELv (LVar 0 (TPtr (TStruct 6))))) 0 (TInt U32))) (ECst U32 1)) (ELv (LField (LDeref (ELv (LVar 0 (TPtr (TStruct 6))))) 3 (TInt U32)))))
        (SSeq (SSet (LField (LDeref (ELv (LVar 0 (TPtr (TStruct 6))))) 2 (TInt U32)) (EBin Sub (ELv (LField (LDeref (ELv (LVar 0 (TPtr (TStruct 6))))) 2 (TInt U32))) (ECst U32 1)))
        (SSet (LVar 2 (TInt IBool)) (ECst I32 1)))))))
       SSkip)
     SSkip)
    (SReturn (ELv (LVar 2 (TInt IBool)))))).

(** queue.c:101-115; parameters: queue, element. *)
Definition c_Queue_front : fundef :=
  FDef [TPtr (TStruct 6); TPtr (TInt U8)] (TInt IBool)
    (SSeq (SInit (TInt IBool) (ECst I32 0))
    (SSeq (SIf (EAnd (EBin Ne (ELv (LVar 0 (TPtr (TStruct 6)))) (ECast (TPtr TVoid) (ECst I32 0))) (EBin Ne (ELv (LVar 1 (TPtr (TInt U8)))) (ECast (TPtr TVoid) (ECst I32 0))))
     (SIf (EUn LNot (ECall c_Queue_empty (ECons (ELv (LVar 0 (TPtr (TStruct 6)))) ENil)))
       (SBlock false
        (SSeq (SInit (TPtr (TInt U8)) (ECast (TPtr (TInt U8)) (ELv (LField (LDeref (ELv (LVar 0 (TPtr (TStruct 6))))) 5 (TPtr (TInt U8))))))
        (SSeq (SExpr (ELib LMemcpy (ECons (ELv (LVar 1 (TPtr (TInt U8)))) (ECons (EAddr (LIndex (ELv (LVar 3 (TPtr (TInt U8)))) (EBin Mul (ELv (LField (LDeref (ELv (LVar 0 (TPtr (TStruct 6))))) 0 (TInt U32))) (ELv (LField (LDeref (ELv (LVar 0 (TPtr (TStruct 6))))) 4 (TInt U32)))))) (ECons (ELv (LField (LDeref (ELv (LVar 0 (TPtr (TStruct 6))))) 4 (TInt U32))) ENil)))))
        (SSet (LVar 2 (TInt IBool)) (ECst I32 1)))))
       SSkip)
     SSkip)
    (SReturn (ELv (LVar 2 (TInt IBool)))))).

(** queue.c:117-131; parameters: queue, element. *)
Definition c_Queue_rear : fundef :=
  FDef [TPtr (TStruct 6); TPtr (TInt U8)] (TInt IBool)
    (SSeq (SInit (TInt IBool) (ECst I32 0))
    (SSeq (SIf (EAnd (EBin Ne (ELv (LVar 0 (TPtr (TStruct 6)))) (ECast (TPtr TVoid) (ECst I32 0))) (EBin Ne (ELv (LVar 1 (TPtr (TInt U8)))) (ECast (TPtr TVoid) (ECst I32 0))))
     (SIf (EUn LNot (ECall c_Queue_empty (ECons (ELv (LVar 0 (TPtr (TStruct 6)))) ENil)))
       (SBlock false
        (SSeq (SInit (TPtr (TInt U8)) (ECast (TPtr (TInt U8)) (ELv (LField (LDeref (ELv (LVar 0 (TPtr (TStruct 6))))) 5 (TPtr (TInt U8))))))
        (SSeq (SExpr (ELib LMemcpy (ECons (ELv (LVar 1 (TPtr (TInt U8)))) (ECons (EAddr (LIndex (ELv (LVar 3 (TPtr (TInt U8)))) (EBin Mul (ELv (LField (LDeref (ELv (LVar 0 (TPtr (TStruct 6))))) 1 (TInt U32))) (ELv (LField (LDeref (ELv (LVar 0 (TPtr (TStruct 6))))) 4 (TInt U32)))))) (ECons (ELv (LField (LDeref (ELv (LVar 0 (TPtr (TStruct 6))))) 4 (TInt U32))) ENil)))))
        (SSet (LVar 2 (TInt IBool)) (ECst I32 1)))))
       SSkip)
     SSkip)
    (SReturn (ELv (LVar 2 (TInt IBool)))))).

(** priority_queue.c:39-42; parameters: queue. *)
Definition c_PQ_Full : fundef :=
  FDef [TPtr (TStruct 5)] (TInt IBool)
    (SReturn (EBin Eq (ELv (LField (LDeref (ELv (LVar 0 (TPtr (TStruct 5))))) 0 (TInt U32))) (ELv (LField (LDeref (ELv (LVar 0 (TPtr (TStruct 5))))) 1 (TInt U32))))).

(** priority_queue.c:44-57; parameters: queue. *)
Definition c_PQ_GetHighestPriorityIndex : fundef :=
  FDef [TPtr (TStruct 5)] (TInt U32)
    (SSeq (SInit (TInt U32) (ELv (LIndex (ELv (LField (LDeref (ELv (LVar 0 (TPtr (TStruct 5))))) 3 (TPtr (TInt U32)))) (ECst I32 0))))
    (SSeq (SInit (TInt U32) (ECst U32 0))
    (SSeq (SBlock false (SSeq (SInit (TInt U32) (ECst U32 0))
    (SLoop (EBin Lt (ELv (LVar 3 (TInt U32))) (ELv (LField (LDeref (ELv (LVar 0 (TPtr (TStruct 5))))) 0 (TInt U32)))) (SExpr (EInc true 1 (LVar 3 (TInt U32))))
     (SIf (EBin Lt (ELv (LVar 1 (TInt U32))) (ELv (LIndex (ELv (LField (LDeref (ELv (LVar 0 (TPtr (TStruct 5))))) 3 (TPtr (TInt U32)))) (ELv (LVar 3 (TInt U32))))))
       (SSeq (SSet (LVar 1 (TInt U32)) (ELv (LIndex (ELv (LField (LDeref (ELv (LVar 0 (TPtr (TStruct 5))))) 3 (TPtr (TInt U32)))) (ELv (LVar 3 (TInt U32))))))
       (SSet (LVar 2 (TInt U32)) (ELv (LVar 3 (TInt U32)))))
       SSkip))))
    (SReturn (ELv (LVar 2 (TInt U32))))))).

(** priority_queue.c:59-72; parameters: queue. *)
Definition c_PQ_GetLowestPriorityIndex : fundef :=
  FDef [TPtr (TStruct 5)] (TInt U32)
    (SSeq (SInit (TInt U32) (ELv (LIndex (ELv (LField (LDeref (ELv (LVar 0 (TPtr (TStruct 5))))) 3 (TPtr (TInt U32)))) (ECst I32 0))))
    (SSeq (SInit (TInt U32) (ECst U32 0))
    (SSeq (SBlock false (SSeq (SInit (TInt U32) (ECst U32 0))
    (SLoop (EBin Lt (ELv (LVar 3 (TInt U32))) (ELv (LField (LDeref (ELv (LVar 0 (TPtr (TStruct 5))))) 0 (TInt U32)))) (SExpr (EInc true 1 (LVar 3 (TInt U32))))
     (SIf (EBin Gt (ELv (LVar 1 (TInt U32))) (ELv (LIndex (ELv (LField (LDeref (ELv (LVar 0 (TPtr (TStruct 5))))) 3 (TPtr (TInt U32)))) (ELv (LVar 3 (TInt U32))))))
       (SSeq (SSet (LVar 1 (TInt U32)) (ELv (LIndex (ELv (LField (LDeref (ELv (LVar 0 (TPtr (TStruct 5))))) 3 (TPtr (TInt U32)))) (ELv (LVar 3 (TInt U32))))))
       (SSet (LVar 2 (TInt U32)) (ELv (LVar 3 (TInt U32)))))
       SSkip))))
    (SReturn (ELv (LVar 2 (TInt U32))))))).

(** priority_queue.c:74-87; parameters: queue, capacity, element_size, items. *)
Definition c_PriorityQueue_init : fundef :=
  FDef [TPtr (TStruct 5); TInt U32; TInt U32; TPtr (TStruct 2)] (TInt IBool)
    (SSeq (SInit (TInt IBool) (ECst I32 0))
    (SSeq (SIf (EAnd (EAnd (EAnd (EBin Ne (ELv (LVar 0 (TPtr (TStruct 5)))) (ECast (TPtr TVoid) (ECst I32 0))) (EBin Ne (ELv (LVar 1 (TInt U32))) (ECst U32 0))) (EBin Ne (ELv (LVar 2 (TInt U32))) (ECst U32 0))) (EBin Ne (ELv (LVar 3 (TPtr (TStruct 2)))) (ECast (TPtr TVoid) (ECst I32 0))))
     (SSeq (SSet (LField (LDeref (ELv (LVar 0 (TPtr (TStruct 5))))) 1 (TInt U32)) (ELv (LVar 1 (TInt U32))))
     (SSeq (SSet (LField (LDeref (ELv (LVar 0 (TPtr (TStruct 5))))) 0 (TInt U32)) (ECst U32 0))
     (SSeq (SSet (LField (LDeref (ELv (LVar 0 (TPtr (TStruct 5))))) 2 (TInt U32)) (ELv (LVar 2 (TInt U32))))
     (SSeq (SSet (LField (LDeref (ELv (LVar 0 (TPtr (TStruct 5))))) 3 (TPtr (TInt U32))) (ELv (LField (LDeref (ELv (LVar 3 (TPtr (TStruct 2))))) 0 (TPtr (TInt U32)))))
     (SSeq (SSet (LField (LDeref (ELv (LVar 0 (TPtr (TStruct 5))))) 4 (TPtr (TInt U8))) (ELv (LField (LDeref (ELv (LVar 3 (TPtr (TStruct 2))))) 1 (TPtr (TInt U8)))))
     (SSet (LVar 4 (TInt IBool)) (ECst I32 1)))))))
     SSkip)
    (SReturn (ELv (LVar 4 (TInt IBool)))))).

(** priority_queue.c:89-92; parameters: queue. *)
Definition c_PriorityQueue_empty : fundef :=
  FDef [TPtr (TStruct 5)] (TInt IBool)
    (SReturn (EBin Eq (ELv (LField (LDeref (ELv (LVar 0 (TPtr (TStruct 5))))) 0 (TInt U32))) (ECst U32 0))).

(** priority_queue.c:94-132; parameters: queue, item. *)
Definition c_PriorityQueue_enqueue : fundef :=
  FDef [TPtr (TStruct 5); TPtr (TStruct 2)] (TInt IBool)
    (SSeq (SInit (TInt IBool) (ECst I32 0))
    (SSeq (SIf (EUn LNot (ECall c_PQ_Full (ECons (ELv (LVar 0 (TPtr (TStruct 5)))) ENil)))
     (SBlock false
      (SSeq (SInit (TPtr (TInt U8)) (ELv (LField (LDeref (ELv (LVar 0 (TPtr (TStruct 5))))) 4 (TPtr (TInt U8)))))
      (SSeq (SExpr (ELib LMemcpy (ECons (EAddr (LIndex (ELv (LVar 3 (TPtr (TInt U8)))) (EBin Mul (ELv (LField (LDeref (ELv (LVar 0 (TPtr (TStruct 5))))) 0 (TInt U32))) (ELv (LField (LDeref (ELv (LVar 0 (TPtr (TStruct 5))))) 2 (TInt U32)))))) (ECons (ELv (LField (LDeref (ELv (LVar 1 (TPtr (TStruct 2))))) 1 (TPtr (TInt U8)))) (ECons (ELv (LField (LDeref (ELv (LVar 0 (TPtr (TStruct 5))))) 2 (TInt U32))) ENil)))))
      (SSeq (SSet (LIndex (ELv (LField (LDeref (ELv (LVar 0 (TPtr (TStruct 5))))) 3 (TPtr (TInt U32)))) (ELv (LField (LDeref (ELv (LVar 0 (TPtr (TStruct 5))))) 0 (TInt U32)))) (ELv (LDeref (ELv (LField (LDeref (ELv (LVar 1 (TPtr (TStruct 2))))) 0 (TPtr (TInt U32)))))))
      (SSeq (SSet (LField (LDeref (ELv (LVar 0 (TPtr (TStruct 5))))) 0 (TInt U32)) (EBin Add (ELv (LField (LDeref (ELv (LVar 0 (TPtr (TStruct 5))))) 0 (TInt U32))) (ECst U32 1)))
      (SSet (LVar 2 (TInt IBool)) (ECst I32 1)))))))
     (SBlock false
      (SSeq (SInit (TInt U32) (ECall c_PQ_GetLowestPriorityIndex (ECons (ELv (LVar 0 (TPtr (TStruct 5)))) ENil)))
      (SIf (EBin Lt (ELv (LIndex (ELv (LField (LDeref (ELv (LVar 0 (TPtr (TStruct 5))))) 3 (TPtr (TInt U32)))) (ELv (LVar 3 (TInt U32))))) (ELv (LDeref (ELv (LField (LDeref (ELv (LVar 1 (TPtr (TStruct 2))))) 0 (TPtr (TInt U32)))))))
       (SBlock false
        (SSeq (SSet (LVar 2 (TInt IBool)) (ECst I32 1))
        (SSeq (SInit (TPtr (TInt U8)) (ELv (LField (LDeref (ELv (LVar 0 (TPtr (TStruct 5))))) 4 (TPtr (TInt U8)))))
        (SSeq (SSet (LField (LDeref (ELv (LVar 0 (TPtr (TStruct 5))))) 0 (TInt U32)) (EBin Sub (ELv (LField (LDeref (ELv (LVar 0 (TPtr (TStruct 5))))) 0 (TInt U32))) (ECst U32 1)))
        (SSeq (SInit (TInt U32) (ELv (LField (LDeref (ELv (LVar 0 (TPtr (TStruct 5))))) 0 (TInt U32))))
        (SSeq (SBlock false (SSeq (SInit (TInt U32) (ELv (LVar 3 (TInt U32))))
        (SLoop (EBin Lt (ELv (LVar 6 (TInt U32))) (ELv (LVar 5 (TInt U32)))) (SExpr (EInc true 1 (LVar 6 (TInt U32))))
         (SSeq (SExpr (ELib LMemcpy (ECons (EAddr (LIndex (ELv (LVar 4 (TPtr (TInt U8)))) (EBin Mul (ELv (LVar 6 (TInt U32))) (ELv (LField (LDeref (ELv (LVar 0 (TPtr (TStruct 5))))) 2 (TInt U32)))))) (ECons (EAddr (LIndex (ELv (LVar 4 (TPtr (TInt U8)))) (EBin Add (EBin Mul (ELv (LVar 6 (TInt U32))) (ELv (LField (LDeref (ELv (LVar 0 (TPtr (TStruct 5))))) 2 (TInt U32)))) (ELv (LField (LDeref (ELv (LVar 0 (TPtr (TStruct 5))))) 2 (TInt U32)))))) (ECons (ELv (LField (LDeref (ELv (LVar 0 (TPtr (TStruct 5))))) 2 (TInt U32))) ENil)))))
         (SSet (LIndex (ELv (LField (LDeref (ELv (LVar 0 (TPtr (TStruct 5))))) 3 (TPtr (TInt U32)))) (ELv (LVar 6 (TInt U32)))) (ELv (LIndex (ELv (LField (LDeref (ELv (LVar 0 (TPtr (TStruct 5))))) 3 (TPtr (TInt U32)))) (EBin Add (ELv (LVar 6 (TInt U32))) (ECst U32 1)))))))))
        (SSeq (SExpr (ELib LMemcpy (ECons (EAddr (LIndex (ELv (LVar 4 (TPtr (TInt U8)))) (EBin Mul (ELv (LField (LDeref (ELv (LVar 0 (TPtr (TStruct 5))))) 0 (TInt U32))) (ELv (LField (LDeref (ELv (LVar 0 (TPtr (TStruct 5))))) 2 (TInt U32)))))) (ECons (ELv (LField (LDeref (ELv (LVar 1 (TPtr (TStruct 2))))) 1 (TPtr (TInt U8)))) (ECons (ELv (LField (LDeref (ELv (LVar 0 (TPtr (TStruct 5))))) 2 (TInt U32))) ENil)))))
        (SSeq (SSet (LIndex (ELv (LField (LDeref (ELv (LVar 0 (TPtr (TStruct 5))))) 3 (TPtr (TInt U32)))) (ELv (LField (LDeref (ELv (LVar 0 (TPtr (TStruct 5))))) 0 (TInt U32)))) (ELv (LDeref (ELv (LField (LDeref (ELv (LVar 1 (TPtr (TStruct 2))))) 0 (TPtr (TInt U32)))))))
        (SSet (LField (LDeref (ELv (LVar 0 (TPtr (TStruct 5))))) 0 (TInt U32)) (EBin Add (ELv (LField (LDeref (ELv (LVar 0 (TPtr (TStruct 5))))) 0 (TInt U32))) (ECst U32 1)))))))))))
       SSkip))))
    (SReturn (ELv (LVar 2 (TInt IBool)))))).

(** priority_queue.c:134-158; parameters: queue, element. *)
Definition c_PriorityQueue_dequeue : fundef :=
  FDef [TPtr (TStruct 5); TPtr (TInt U8)] (TInt IBool)
    (SSeq (SInit (TInt IBool) (ECst I32 0))
    (SSeq (SIf (EUn LNot (ECall c_PriorityQueue_empty (ECons (ELv (LVar 0 (TPtr (TStruct 5)))) ENil)))
     (SBlock false
      (SSeq (SSet (LVar 2 (TInt IBool)) (ECst I32 1))
      (SSeq (SInit (TInt U32) (ECall c_PQ_GetHighestPriorityIndex (ECons (ELv (LVar 0 (TPtr (TStruct 5)))) ENil)))
      (SSeq (SInit (TPtr (TInt U8)) (ELv (LField (LDeref (ELv (LVar 0 (TPtr (TStruct 5))))) 4 (TPtr (TInt U8)))))
      (SSeq (SExpr (ELib LMemcpy (ECons (ELv (LVar 1 (TPtr (TInt U8)))) (ECons (EAddr (LIndex (ELv (LVar 4 (TPtr (TInt U8)))) (EBin Mul (ELv (LVar 3 (TInt U32))) (ELv (LField (LDeref (ELv (LVar 0 (TPtr (TStruct 5))))) 2 (TInt U32)))))) (ECons (ELv (LField (LDeref (ELv (LVar 0 (TPtr (TStruct 5))))) 2 (TInt U32))) ENil)))))
      (SSeq (SSet (LField (LDeref (ELv (LVar 0 (TPtr (TStruct 5))))) 0 (TInt U32)) (EBin Sub (ELv (LField (LDeref (ELv (LVar 0 (TPtr (TStruct 5))))) 0 (TInt U32))) (ECst U32 1)))
      (SSeq (SInit (TInt U32) (ELv (LField (LDeref (ELv (LVar 0 (TPtr (TStruct 5))))) 0 (TInt U32))))
      (SBlock false (SSeq (SInit (TInt U32) (ELv (LVar 3 (TInt U32))))
      (SLoop (EBin Lt (ELv (LVar 6 (TInt U32))) (ELv (LVar 5 (TInt U32)))) (SExpr (EInc true 1 (LVar 6 (TInt U32))))
       (SSeq (SExpr (ELib LMemcpy (ECons (EAddr (LIndex (ELv (LVar 4 (TPtr (TInt U8)))) (EBin Mul (ELv (LVar 6 (TInt U32))) (ELv (LField (LDeref (ELv (LVar 0 (TPtr (TStruct 5))))) 2 (TInt U32)))))) (ECons (EAddr (LIndex (ELv (LVar 4 (TPtr (TInt U8)))) (EBin Add (EBin Mul (ELv (LVar 6 (TInt U32))) (ELv (LField (LDeref (ELv (LVar 0 (TPtr (TStruct 5))))) 2 (TInt U32)))) (ELv (LField (LDeref (ELv (LVar 0 (TPtr (TStruct 5))))) 2 (TInt U32)))))) (ECons (ELv (LField (LDeref (ELv (LVar 0 (TPtr (TStruct 5))))) 2 (TInt U32))) ENil)))))
       (SSet (LIndex (ELv (LField (LDeref (ELv (LVar 0 (TPtr (TStruct 5))))) 3 (TPtr (TInt U32)))) (ELv (LVar 6 (TInt U32)))) (ELv (LIndex (ELv (LField (LDeref (ELv (LVar 0 (TPtr (TStruct 5))))) 3 (TPtr (TInt U32)))) (EBin Add (ELv (LVar 6 (TInt U32))) (ECst U32 1))))))))))))))))
     SSkip)
    (SReturn (ELv (LVar 2 (TInt IBool)))))).

(** map.c:41-52; parameters: map, key, size. *)
Definition c_Map_GetIndex : fundef :=
  FDef [TPtr (TStruct 6); TPtr (TInt U8); TInt I32] (TInt I32)
    (SSeq (SInit (TInt I32) (EUn Neg (ECst I32 1)))
    (SSeq (SBlock false (SSeq (SInit (TInt I32) (ECst I32 0))
    (SLoop (EBin Lt (ELv (LVar 4 (TInt I32))) (ELv (LVar 2 (TInt I32)))) (SExpr (EInc true 1 (LVar 4 (TInt I32))))
     (SIf (EBin Eq (ELib LMemcmp (ECons (EAddr (LIndex (ELv (LField (LDeref (ELv (LVar 0 (TPtr (TStruct 6))))) 0 (TPtr (TInt U8)))) (EBin Mul (ELv (LVar 4 (TInt I32))) (ELv (LField (LDeref (ELv (LVar 0 (TPtr (TStruct 6))))) 2 (TInt I32)))))) (ECons (ELv (LVar 1 (TPtr (TInt U8)))) (ECons (ECast (TInt U64) (ELv (LField (LDeref (ELv (LVar 0 (TPtr (TStruct 6))))) 2 (TInt I32)))) ENil)))) (ECst I32 0))
       (SSeq (SSet (LVar 3 (TInt I32)) (ELv (LVar 4 (TInt I32))))
       SBreak)
       SSkip))))
    (SReturn (ELv (LVar 3 (TInt I32)))))).

(** map.c:54-68; parameters: map, keys, values, key_size, value_size, max_map_size. *)
Definition c_Map_init : fundef :=
  FDef [TPtr (TStruct 6); TPtr (TInt U8); TPtr (TInt U8); TInt I32; TInt I32; TInt I32] (TInt IBool)
    (SSeq (SInit (TInt IBool) (ECst I32 0))
    (SSeq (SIf (EAnd (EAnd (EAnd (EAnd (EBin Ne (ELv (LVar 3 (TInt I32))) (ECst I32 0)) (EBin Ne (ELv (LVar 4 (TInt I32))) (ECst I32 0))) (EBin Ne (ELv (LVar 5 (TInt I32))) (ECst I32 0))) (EBin Ne (ELv (LVar 1 (TPtr (TInt U8)))) (ECast (TPtr TVoid) (ECst I32 0)))) (EBin Ne (ELv (LVar 2 (TPtr (TInt U8)))) (ECast (TPtr TVoid) (ECst I32 0))))
     (SSeq (SSet (LField (LDeref (ELv (LVar 0 (TPtr (TStruct 6))))) 0 (TPtr (TInt U8))) (ELv (LVar 1 (TPtr (TInt U8)))))
     (SSeq (SSet (LField (LDeref (ELv (LVar 0 (TPtr (TStruct 6))))) 1 (TPtr (TInt U8))) (ELv (LVar 2 (TPtr (TInt U8)))))
     (SSeq (SSet (LField (LDeref (ELv (LVar 0 (TPtr (TStruct 6))))) 2 (TInt I32)) (ELv (LVar 3 (TInt I32))))
     (SSeq (SSet (LField (LDeref (ELv (LVar 0 (TPtr (TStruct 6))))) 3 (TInt I32)) (ELv (LVar 4 (TInt I32))))
     (SSeq (SSet (LField (LDeref (ELv (LVar 0 (TPtr (TStruct 6))))) 4 (TInt I32)) (ELv (LVar 5 (TInt I32))))
     (SSeq (SSet (LField (LDeref (ELv (LVar 0 (TPtr (TStruct 6))))) 5 (TInt I32)) (ECst I32 0))
     (SSet (LVar 6 (TInt IBool)) (ECst I32 1))))))))
     SSkip)
    (SReturn (ELv (LVar 6 (TInt IBool)))))).

(** map.c:70-100; parameters: map, key, value. *)
Definition c_Map_insert : fundef :=
  FDef [TPtr (TStruct 6); TPtr (TInt U8); TPtr (TInt U8)] (TInt IBool)
    (SSeq (SInit (TInt IBool) (ECst I32 0))
    (SSeq (SIf (EBin Ne (ELv (LVar 0 (TPtr (TStruct 6)))) (ECast (TPtr TVoid) (ECst I32 0)))
     (SBlock false
      (SSeq (SInit (TInt I32) (ECall c_Map_GetIndex (ECons (ELv (LVar 0 (TPtr (TStruct 6)))) (ECons (ELv (LVar 1 (TPtr (TInt U8)))) (ECons (ELv (LField (LDeref (ELv (LVar 0 (TPtr (TStruct 6))))) 5 (TInt I32))) ENil)))))
      (SIf (EBin Eq (ELv (LVar 4 (TInt I32))) (EUn Neg (ECst I32 1)))
       (SIf (EBin Ne (ELv (LField (LDeref (ELv (LVar 0 (TPtr (TStruct 6))))) 5 (TInt I32))) (ELv (LField (LDeref (ELv (LVar 0 (TPtr (TStruct 6))))) 4 (TInt I32))))
         (SSeq (SExpr (ELib LMemcpy (ECons (EAddr (LIndex (ELv (LField (LDeref (ELv (LVar 0 (TPtr (TStruct 6))))) 0 (TPtr (TInt U8)))) (EBin Mul (ELv (LField (LDeref (ELv (LVar 0 (TPtr (TStruct 6))))) 5 (TInt I32))) (ELv (LField (LDeref (ELv (LVar 0 (TPtr (TStruct 6))))) 2 (TInt I32)))))) (ECons (ELv (LVar 1 (TPtr (TInt U8)))) (ECons (ECast (TInt U64) (ELv (LField (LDeref (ELv (LVar 0 (TPtr (TStruct 6))))) 2 (TInt I32)))) ENil)))))
         (SSeq (SExpr (ELib LMemcpy (ECons (EAddr (LIndex (ELv (LField (LDeref (ELv (LVar 0 (TPtr (TStruct 6))))) 1 (TPtr (TInt U8)))) (EBin Mul (ELv (LField (LDeref (ELv (LVar 0 (TPtr (TStruct 6))))) 5 (TInt I32))) (ELv (LField (LDeref (ELv (LVar 0 (TPtr (TStruct 6))))) 3 (TInt I32)))))) (ECons (ELv (LVar 2 (TPtr (TInt U8)))) (ECons (ECast (TInt U64) (ELv (LField (LDeref (ELv (LVar 0 (TPtr (TStruct 6))))) 3 (TInt I32)))) ENil)))))
         (SSeq (SExpr (EInc true 1 (LField (LDeref (ELv (LVar 0 (TPtr (TStruct 6))))) 5 (TInt I32))))
         (SSet (LVar 3 (TInt IBool)) (ECst I32 1)))))
         SSkip)
       (SSeq (SExpr (ELib LMemcpy (ECons (EAddr (LIndex (ELv (LField (LDeref (ELv (LVar 0 (TPtr (TStruct 6))))) 1 (TPtr (TInt U8)))) (EBin Mul (ELv (LVar 4 (TInt I32))) (ELv (LField (LDeref (ELv (LVar 0 (TPtr (TStruct 6))))) 3 (TInt I32)))))) (ECons (ELv (LVar 2 (TPtr (TInt U8)))) (ECons (ECast (TInt U64) (ELv (LField (LDeref (ELv (LVar 0 (TPtr (TStruct 6))))) 3 (TInt I32)))) ENil)))))
       (SSet (LVar 3 (TInt IBool)) (ECst I32 1))))))
     SSkip)
    (SReturn (ELv (LVar 3 (TInt IBool)))))).

(** map.c:102-117; parameters: map, key, value. *)
Definition c_Map_getValue : fundef :=
  FDef [TPtr (TStruct 6); TPtr (TInt U8); TPtr (TInt U8)] (TInt IBool)
    (SSeq (SInit (TInt IBool) (ECst I32 0))
    (SSeq (SIf (EBin Ne (ELv (LVar 0 (TPtr (TStruct 6)))) (ECast (TPtr TVoid) (ECst I32 0)))
     (SBlock false
      (SSeq (SInit (TInt I32) (ECall c_Map_GetIndex (ECons (ELv (LVar 0 (TPtr (TStruct 6)))) (ECons (ELv (LVar 1 (TPtr (TInt U8)))) (ECons (ELv (LField (LDeref (ELv (LVar 0 (TPtr (TStruct 6))))) 5 (TInt I32))) ENil)))))
      (SIf (EBin Ne (ELv (LVar 4 (TInt I32))) (EUn Neg (ECst I32 1)))
       (SSeq (SExpr (ELib LMemcpy (ECons (ELv (LVar 2 (TPtr (TInt U8)))) (ECons (EAddr (LIndex (ELv (LField (LDeref (ELv (LVar 0 (TPtr (TStruct 6))))) 1 (TPtr (TInt U8)))) (EBin Mul (ELv (LVar 4 (TInt I32))) (ELv (LField (LDeref (ELv (LVar 0 (TPtr (TStruct 6))))) 3 (TInt I32)))))) (ECons (ECast (TInt U64) (ELv (LField (LDeref (ELv (LVar 0 (TPtr (TStruct 6))))) 3 (TInt I32)))) ENil)))))
       (SSet (LVar 3 (TInt IBool)) (ECst I32 1)))
       SSkip)))
     SSkip)
    (SReturn (ELv (LVar 3 (TInt IBool)))))).

(** scheduler.c:37-43; parameters: tasks, num_of_tasks. *)
Definition c_Scheduler_init : fundef :=
  FDef [TPtr (TStruct 2); TInt U32] TVoid
    (SBlock false (SSeq (SInit (TInt U32) (ECst U32 0))
    (SLoop (EBin Lt (ELv (LVar 2 (TInt U32))) (ELv (LVar 1 (TInt U32)))) (SExpr (EInc true 1 (LVar 2 (TInt U32))))
     (SSeq (SSet (LField (LIndex (ELv (LVar 0 (TPtr (TStruct 2)))) (ELv (LVar 2 (TInt U32)))) 0 (TPtr TFun)) (ECast (TPtr TVoid) (ECst I32 0)))
     (SSet (LField (LIndex (ELv (LVar 0 (TPtr (TStruct 2)))) (ELv (LVar 2 (TInt U32)))) 1 (TInt IBool)) (ECst I32 0)))))).

(** scheduler.c:45-57; parameters: tasks, max_num_tasks, new_task. *)
Definition c_Scheduler_addTask : fundef :=
  FDef [TPtr (TStruct 2); TInt U32; TPtr (TStruct 2)] (TInt IBool)
    (SSeq (SInit (TInt IBool) (ECst I32 0))
    (SSeq (SBlock false (SSeq (SInit (TInt U32) (ECst U32 0))
    (SLoop (EBin Lt (ELv (LVar 4 (TInt U32))) (ELv (LVar 1 (TInt U32)))) (SExpr (EInc true 1 (LVar 4 (TInt U32))))
     (SIf (EBin Eq (ELv (LField (LIndex (ELv (LVar 0 (TPtr (TStruct 2)))) (ELv (LVar 4 (TInt U32)))) 0 (TPtr TFun))) (ECast (TPtr TVoid) (ECst I32 0)))
       (SSeq (SSet (LField (LIndex (ELv (LVar 0 (TPtr (TStruct 2)))) (ELv (LVar 4 (TInt U32)))) 0 (TPtr TFun)) (ELv (LField (LDeref (ELv (LVar 2 (TPtr (TStruct 2))))) 0 (TPtr TFun))))
       (SSeq (SSet (LField (LIndex (ELv (LVar 0 (TPtr (TStruct 2)))) (ELv (LVar 4 (TInt U32)))) 1 (TInt IBool)) (ELv (LField (LDeref (ELv (LVar 2 (TPtr (TStruct 2))))) 1 (TInt IBool))))
       (SSeq (SSet (LVar 3 (TInt IBool)) (ECst I32 1))
       SBreak)))
       SSkip))))
    (SReturn (ELv (LVar 3 (TInt IBool)))))).

(** scheduler.c:59-66; parameters: task, num_of_tasks. *)
Definition c_Scheduler_run : fundef :=
  FDef [TPtr (TStruct 2); TInt U32] TVoid
    (SBlock false (SSeq (SInit (TInt U32) (ECst U32 0))
    (SLoop (EBin Lt (ELv (LVar 2 (TInt U32))) (ELv (LVar 1 (TInt U32)))) (SExpr (EInc true 1 (LVar 2 (TInt U32))))
     (SIf (EAnd (EBin Ne (ELv (LField (LIndex (ELv (LVar 0 (TPtr (TStruct 2)))) (ELv (LVar 2 (TInt U32)))) 0 (TPtr TFun))) (ECast (TPtr TVoid) (ECst I32 0))) (ELv (LField (LIndex (ELv (LVar 0 (TPtr (TStruct 2)))) (ELv (LVar 2 (TInt U32)))) 1 (TInt IBool))))
       (SExpr (ECallPtr (ELv (LField (LIndex (ELv (LVar 0 (TPtr (TStruct 2)))) (ELv (LVar 2 (TInt U32)))) 0 (TPtr TFun))) ENil))
       SSkip)))).
