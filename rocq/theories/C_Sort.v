(** * The text of [/repo/Src/sort/bubble_sort.c], [/repo/Src/sort/insertion_sort.c], [/repo/Src/sort/selection_sort.c], [/repo/Src/sort/heap_sort.c] as terms of [CLang]

    Generated by [/verif/tools/c2coq.py] from the C text; not edited by hand. *)
From Verif Require Import CSem CLang C_Utils.


(** sort/bubble_sort.c:39-55; parameters: buffer, number_of_elements, element_size, compareFun. *)
Definition c_BubbleSort_sort : fundef :=
  FDef [TPtr (TInt U8); TInt I32; TInt I32; TPtr TFun] TVoid
    (SSeq (SInit (TPtr (TInt U8)) (ELv (LVar 0 (TPtr (TInt U8)))))
    (SSeq (SInit (TInt IBool) (ECst I32 1))
    (SSeq (SInit (TInt I32) (ECst I32 0))
    (SLoop (ELv (LVar 5 (TInt IBool))) SSkip
     (SSeq (SSet (LVar 5 (TInt IBool)) (ECst I32 0))
     (SSeq (SBlock false (SSeq (SInit (TInt I32) (ECst I32 0))
      (SLoop (EBin Lt (ELv (LVar 7 (TInt I32))) (EBin Sub (EBin Sub (ELv (LVar 1 (TInt I32))) (ELv (LVar 6 (TInt I32)))) (ECst I32 1))) (SExpr (EInc true 1 (LVar 7 (TInt I32))))
       (SIf (ECallPtr (ELv (LVar 3 (TPtr TFun))) (ECons (EAddr (LIndex (ELv (LVar 4 (TPtr (TInt U8)))) (EBin Mul (ELv (LVar 7 (TInt I32))) (ELv (LVar 2 (TInt I32)))))) (ECons (EAddr (LIndex (ELv (LVar 4 (TPtr (TInt U8)))) (EBin Mul (EBin Add (ELv (LVar 7 (TInt I32))) (ECst I32 1)) (ELv (LVar 2 (TInt I32)))))) ENil)))
         (SSeq (SExpr (ECall c_Utils_swapElements (ECons (EAddr (LIndex (ELv (LVar 4 (TPtr (TInt U8)))) (EBin Mul (ELv (LVar 7 (TInt I32))) (ELv (LVar 2 (TInt I32)))))) (ECons (EAddr (LIndex (ELv (LVar 4 (TPtr (TInt U8)))) (EBin Mul (EBin Add (ELv (LVar 7 (TInt I32))) (ECst I32 1)) (ELv (LVar 2 (TInt I32)))))) (ECons (ECast (TInt U32) (ELv (LVar 2 (TInt I32)))) ENil)))))
         (SSet (LVar 5 (TInt IBool)) (ECst I32 1)))
         SSkip))))
     (SExpr (EInc true 1 (LVar 6 (TInt I32)))))))))).

(** sort/insertion_sort.c:39-70; parameters: max_element, buffer, number_of_elements, element_size, compareFun.
    The static array [max_element] is an object of its own, passed as the first argument. *)
Definition c_InsertionSort_sort : fundef :=
  FDef [TPtr (TInt U8); TPtr (TInt U8); TInt I32; TInt I32; TPtr TFun] TVoid
    (SSeq (SInit (TPtr (TInt U8)) (ELv (LVar 1 (TPtr (TInt U8)))))
    (SSeq (SInit (TPtr (TInt U8)) (EAddr (LIndex (ELv (LVar 0 (TPtr (TInt U8)))) (ECst I32 0))))
    (SBlock false (SSeq (SInit (TInt I32) (ECst I32 1))
    (SLoop (EBin Lt (ELv (LVar 7 (TInt I32))) (ELv (LVar 2 (TInt I32)))) (SExpr (EInc true 1 (LVar 7 (TInt I32))))
     (SBlock false
      (SSeq (SExpr (ELib LMemcpy (ECons (ELv (LVar 6 (TPtr (TInt U8)))) (ECons (EAddr (LIndex (ELv (LVar 5 (TPtr (TInt U8)))) (EBin Mul (ELv (LVar 7 (TInt I32))) (ELv (LVar 3 (TInt I32)))))) (ECons (ECast (TInt U64) (ELv (LVar 3 (TInt I32)))) ENil)))))
      (SSeq (SInit (TInt I32) (EBin Sub (ELv (LVar 7 (TInt I32))) (ECst I32 1)))
      (SSeq (SInit (TInt IBool) (ECallPtr (ELv (LVar 4 (TPtr TFun))) (ECons (EAddr (LIndex (ELv (LVar 5 (TPtr (TInt U8)))) (EBin Mul (ELv (LVar 8 (TInt I32))) (ELv (LVar 3 (TInt I32)))))) (ECons (ELv (LVar 6 (TPtr (TInt U8)))) ENil))))
      (SSeq (SLoop (EAnd (EBin Ge (ELv (LVar 8 (TInt I32))) (ECst I32 0)) (ELv (LVar 9 (TInt IBool)))) SSkip
       (SSeq (SExpr (ELib LMemcpy (ECons (EAddr (LIndex (ELv (LVar 5 (TPtr (TInt U8)))) (EBin Mul (EBin Add (ELv (LVar 8 (TInt I32))) (ECst I32 1)) (ELv (LVar 3 (TInt I32)))))) (ECons (EAddr (LIndex (ELv (LVar 5 (TPtr (TInt U8)))) (EBin Mul (ELv (LVar 8 (TInt I32))) (ELv (LVar 3 (TInt I32)))))) (ECons (ECast (TInt U64) (ELv (LVar 3 (TInt I32)))) ENil)))))
       (SSeq (SExpr (EInc true (-1) (LVar 8 (TInt I32))))
       (SSet (LVar 9 (TInt IBool)) (ECallPtr (ELv (LVar 4 (TPtr TFun))) (ECons (EAddr (LIndex (ELv (LVar 5 (TPtr (TInt U8)))) (EBin Mul (ELv (LVar 8 (TInt I32))) (ELv (LVar 3 (TInt I32)))))) (ECons (ELv (LVar 6 (TPtr (TInt U8)))) ENil)))))))
      (SExpr (ELib LMemcpy (ECons (EAddr (LIndex (ELv (LVar 5 (TPtr (TInt U8)))) (EBin Mul (EBin Add (ELv (LVar 8 (TInt I32))) (ECst I32 1)) (ELv (LVar 3 (TInt I32)))))) (ECons (ELv (LVar 6 (TPtr (TInt U8)))) (ECons (ECast (TInt U64) (ELv (LVar 3 (TInt I32)))) ENil))))))))))))))).

(** sort/selection_sort.c:39-57; parameters: buffer, number_of_elements, element_size, compareFun. *)
Definition c_SelectionSort_sort : fundef :=
  FDef [TPtr (TInt U8); TInt I32; TInt I32; TPtr TFun] TVoid
    (SSeq (SInit (TPtr (TInt U8)) (ELv (LVar 0 (TPtr (TInt U8)))))
    (SSeq (SVar (TInt I32))
    (SBlock false (SSeq (SInit (TInt I32) (ECst I32 0))
    (SLoop (EBin Lt (ELv (LVar 6 (TInt I32))) (EBin Sub (ELv (LVar 1 (TInt I32))) (ECst I32 1))) (SExpr (EInc true 1 (LVar 6 (TInt I32))))
     (SBlock false
      (SSeq (SInit (TInt I32) (ELv (LVar 6 (TInt I32))))
      (SSeq (SSeq (SSet (LVar 5 (TInt I32)) (EBin Add (ELv (LVar 6 (TInt I32))) (ECst I32 1)))
      (SLoop (EBin Lt (ELv (LVar 5 (TInt I32))) (ELv (LVar 1 (TInt I32)))) (SExpr (EInc true 1 (LVar 5 (TInt I32))))
       (SIf (ECallPtr (ELv (LVar 3 (TPtr TFun))) (ECons (EAddr (LIndex (ELv (LVar 4 (TPtr (TInt U8)))) (EBin Mul (ELv (LVar 7 (TInt I32))) (ELv (LVar 2 (TInt I32)))))) (ECons (EAddr (LIndex (ELv (LVar 4 (TPtr (TInt U8)))) (EBin Mul (ELv (LVar 5 (TInt I32))) (ELv (LVar 2 (TInt I32)))))) ENil)))
         (SSet (LVar 7 (TInt I32)) (ELv (LVar 5 (TInt I32))))
         SSkip)))
      (SIf (EBin Ne (ELv (LVar 7 (TInt I32))) (ELv (LVar 6 (TInt I32))))
       (SExpr (ECall c_Utils_swapElements (ECons (EAddr (LIndex (ELv (LVar 4 (TPtr (TInt U8)))) (EBin Mul (ELv (LVar 7 (TInt I32))) (ELv (LVar 2 (TInt I32)))))) (ECons (EAddr (LIndex (ELv (LVar 4 (TPtr (TInt U8)))) (EBin Mul (ELv (LVar 6 (TInt I32))) (ELv (LVar 2 (TInt I32)))))) (ECons (ECast (TInt U32) (ELv (LVar 2 (TInt I32)))) ENil)))))
       SSkip))))))))).

(** sort/heap_sort.c:39-71; parameters: buffer, n, i, element_size, compareFun. *)
Definition c_Heapify : fundef :=
  FDef [TPtr (TInt U8); TInt I32; TInt I32; TInt I32; TPtr TFun] TVoid
    (SSeq (SInit (TInt IBool) (ECst I32 1))
    (SSeq (SInit (TInt I32) (ELv (LVar 2 (TInt I32))))
    (SSeq (SInit (TPtr (TInt U8)) (ELv (LVar 0 (TPtr (TInt U8)))))
    (SLoop (ELv (LVar 5 (TInt IBool))) SSkip
     (SBlock false
      (SSeq (SInit (TInt I32) (ELv (LVar 6 (TInt I32))))
      (SSeq (SInit (TInt I32) (EBin Add (EBin Mul (ECst I32 2) (ELv (LVar 6 (TInt I32)))) (ECst I32 1)))
      (SSeq (SInit (TInt I32) (EBin Add (EBin Mul (ECst I32 2) (ELv (LVar 6 (TInt I32)))) (ECst I32 2)))
      (SSeq (SInit (TInt IBool) (ECallPtr (ELv (LVar 4 (TPtr TFun))) (ECons (EAddr (LIndex (ELv (LVar 7 (TPtr (TInt U8)))) (EBin Mul (ELv (LVar 9 (TInt I32))) (ELv (LVar 3 (TInt I32)))))) (ECons (EAddr (LIndex (ELv (LVar 7 (TPtr (TInt U8)))) (EBin Mul (ELv (LVar 8 (TInt I32))) (ELv (LVar 3 (TInt I32)))))) ENil))))
      (SSeq (SIf (EAnd (EBin Lt (ELv (LVar 9 (TInt I32))) (ELv (LVar 1 (TInt I32)))) (ELv (LVar 11 (TInt IBool))))
       (SSet (LVar 8 (TInt I32)) (ELv (LVar 9 (TInt I32))))
       SSkip)
      (SSeq (SSet (LVar 11 (TInt IBool)) (ECallPtr (ELv (LVar 4 (TPtr TFun))) (ECons (EAddr (LIndex (ELv (LVar 7 (TPtr (TInt U8)))) (EBin Mul (ELv (LVar 10 (TInt I32))) (ELv (LVar 3 (TInt I32)))))) (ECons (EAddr (LIndex (ELv (LVar 7 (TPtr (TInt U8)))) (EBin Mul (ELv (LVar 8 (TInt I32))) (ELv (LVar 3 (TInt I32)))))) ENil))))
      (SSeq (SIf (EAnd (EBin Lt (ELv (LVar 10 (TInt I32))) (ELv (LVar 1 (TInt I32)))) (ELv (LVar 11 (TInt IBool))))
       (SSet (LVar 8 (TInt I32)) (ELv (LVar 10 (TInt I32))))
       SSkip)
      (SIf (EBin Ne (ELv (LVar 8 (TInt I32))) (ELv (LVar 6 (TInt I32))))
       (SSeq (SExpr (ECall c_Utils_swapElements (ECons (EAddr (LIndex (ELv (LVar 7 (TPtr (TInt U8)))) (EBin Mul (ELv (LVar 6 (TInt I32))) (ELv (LVar 3 (TInt I32)))))) (ECons (EAddr (LIndex (ELv (LVar 7 (TPtr (TInt U8)))) (EBin Mul (ELv (LVar 8 (TInt I32))) (ELv (LVar 3 (TInt I32)))))) (ECons (ECast (TInt U32) (ELv (LVar 3 (TInt I32)))) ENil)))))
       (SSet (LVar 6 (TInt I32)) (ELv (LVar 8 (TInt I32)))))
       (SSet (LVar 5 (TInt IBool)) (ECst I32 0))))))))))))))).

(** sort/heap_sort.c:73-86; parameters: buffer, number_of_elements, element_size, compareFun. *)
Definition c_HeapSort_sort : fundef :=
  FDef [TPtr (TInt U8); TInt I32; TInt I32; TPtr TFun] TVoid
    (SSeq (SVar (TInt I32))
    (SSeq (SInit (TPtr (TInt U8)) (ELv (LVar 0 (TPtr (TInt U8)))))
    (SSeq (SSeq (SSet (LVar 4 (TInt I32)) (EBin Sub (EBin Div (ELv (LVar 1 (TInt I32))) (ECst I32 2)) (ECst I32 1)))
    (SLoop (EBin Ge (ELv (LVar 4 (TInt I32))) (ECst I32 0)) (SExpr (EInc true (-1) (LVar 4 (TInt I32))))
     (SExpr (ECall c_Heapify (ECons (ELv (LVar 5 (TPtr (TInt U8)))) (ECons (ELv (LVar 1 (TInt I32))) (ECons (ELv (LVar 4 (TInt I32))) (ECons (ELv (LVar 2 (TInt I32))) (ECons (ELv (LVar 3 (TPtr TFun))) ENil)))))))))
    (SSeq (SSet (LVar 4 (TInt I32)) (EBin Sub (ELv (LVar 1 (TInt I32))) (ECst I32 1)))
    (SLoop (EBin Ge (ELv (LVar 4 (TInt I32))) (ECst I32 0)) (SExpr (EInc true (-1) (LVar 4 (TInt I32))))
     (SSeq (SExpr (ECall c_Utils_swapElements (ECons (EAddr (LIndex (ELv (LVar 5 (TPtr (TInt U8)))) (ECst I32 0))) (ECons (EAddr (LIndex (ELv (LVar 5 (TPtr (TInt U8)))) (EBin Mul (ELv (LVar 4 (TInt I32))) (ELv (LVar 2 (TInt I32)))))) (ECons (ECast (TInt U32) (ELv (LVar 2 (TInt I32)))) ENil)))))
     (SExpr (ECall c_Heapify (ECons (ELv (LVar 5 (TPtr (TInt U8)))) (ECons (ELv (LVar 4 (TInt I32))) (ECons (ECst I32 0) (ECons (ELv (LVar 2 (TInt I32))) (ECons (ELv (LVar 3 (TPtr TFun))) ENil))))))))))))).
