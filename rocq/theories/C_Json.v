(** * The text of [/repo/Src/json.c] as terms of [CLang]

    Generated by [/verif/tools/c2coq.py] from the C text; not edited by hand. *)
From Verif Require Import CSem CLang.


(** json.c:41-52; parameters: buffer, buffer_size. *)
Definition c_Json_startString : fundef :=
  FDef [TPtr (TInt IChar); TInt U64] (TInt IBool)
    (SSeq (SInit (TInt IBool) (ECst I32 0))
    (SSeq (SIf (EBin Ge (ELv (LVar 1 (TInt U64))) (ECst U32 2))
     (SSeq (SExpr (ELib LStrcpy (ECons (EAddr (LIndex (ELv (LVar 0 (TPtr (TInt IChar)))) (ECst I32 0))) (ECons (EData IChar [123; 0]) ENil))))
     (SSet (LVar 2 (TInt IBool)) (ECst I32 1)))
     SSkip)
    (SReturn (ELv (LVar 2 (TInt IBool)))))).

(** json.c:54-89; parameters: buffer, buffer_size, key, value. *)
Definition c_Json_addData : fundef :=
  FDef [TPtr (TInt IChar); TInt U64; TPtr (TInt IChar); TPtr (TInt IChar)] (TInt IBool)
    (SSeq (SInit (TInt IBool) (ECst I32 0))
    (SSeq (SInit (TInt U64) (ELib LStrlen (ECons (ELv (LVar 0 (TPtr (TInt IChar)))) ENil)))
    (SSeq (SInit (TInt U64) (EBin Add (EBin Add (EBin Add (ELib LStrlen (ECons (EData IChar [34; 34; 58; 34; 34; 0]) ENil)) (ELib LStrlen (ECons (ELv (LVar 2 (TPtr (TInt IChar)))) ENil))) (ELib LStrlen (ECons (ELv (LVar 3 (TPtr (TInt IChar)))) ENil))) (ECst U32 1)))
    (SSeq (SIf (EBin Eq (ECst I32 0) (ELib LStrcmp (ECons (EAddr (LIndex (ELv (LVar 0 (TPtr (TInt IChar)))) (EBin Sub (ELv (LVar 5 (TInt U64))) (ECst U32 1)))) (ECons (EData IChar [34; 0]) ENil))))
     (SSeq (SExpr (ELib LStrcpy (ECons (EAddr (LIndex (ELv (LVar 0 (TPtr (TInt IChar)))) (ELv (LVar 5 (TInt U64))))) (ECons (EData IChar [44; 0]) ENil))))
     (SExpr (EInc true 1 (LVar 5 (TInt U64)))))
     SSkip)
    (SSeq (SIf (EBin Le (EBin Add (ELv (LVar 6 (TInt U64))) (ELv (LVar 5 (TInt U64)))) (ELv (LVar 1 (TInt U64))))
     (SSeq (SExpr (ELib LStrcpy (ECons (EAddr (LIndex (ELv (LVar 0 (TPtr (TInt IChar)))) (ELv (LVar 5 (TInt U64))))) (ECons (EData IChar [34; 0]) ENil))))
     (SSeq (SOp Add (LVar 5 (TInt U64)) (ELib LStrlen (ECons (EData IChar [34; 0]) ENil)))
     (SSeq (SExpr (ELib LStrcpy (ECons (EAddr (LIndex (ELv (LVar 0 (TPtr (TInt IChar)))) (ELv (LVar 5 (TInt U64))))) (ECons (ELv (LVar 2 (TPtr (TInt IChar)))) ENil))))
     (SSeq (SOp Add (LVar 5 (TInt U64)) (ELib LStrlen (ECons (ELv (LVar 2 (TPtr (TInt IChar)))) ENil)))
     (SSeq (SExpr (ELib LStrcpy (ECons (EAddr (LIndex (ELv (LVar 0 (TPtr (TInt IChar)))) (ELv (LVar 5 (TInt U64))))) (ECons (EData IChar [34; 58; 34; 0]) ENil))))
     (SSeq (SOp Add (LVar 5 (TInt U64)) (ELib LStrlen (ECons (EData IChar [34; 58; 34; 0]) ENil)))
     (SSeq (SExpr (ELib LStrcpy (ECons (EAddr (LIndex (ELv (LVar 0 (TPtr (TInt IChar)))) (ELv (LVar 5 (TInt U64))))) (ECons (ELv (LVar 3 (TPtr (TInt IChar)))) ENil))))
     (SSeq (SOp Add (LVar 5 (TInt U64)) (ELib LStrlen (ECons (ELv (LVar 3 (TPtr (TInt IChar)))) ENil)))
     (SSeq (SExpr (ELib LStrcpy (ECons (EAddr (LIndex (ELv (LVar 0 (TPtr (TInt IChar)))) (ELv (LVar 5 (TInt U64))))) (ECons (EData IChar [34; 0]) ENil))))
     (SSet (LVar 4 (TInt IBool)) (ECst I32 1)))))))))))
     SSkip)
    (SReturn (ELv (LVar 4 (TInt IBool))))))))).

(** json.c:91-103; parameters: buffer, buffer_size. *)
Definition c_Json_endString : fundef :=
  FDef [TPtr (TInt IChar); TInt U64] (TInt IBool)
    (SSeq (SInit (TInt IBool) (ECst I32 0))
    (SSeq (SInit (TInt U64) (ELib LStrlen (ECons (ELv (LVar 0 (TPtr (TInt IChar)))) ENil)))
    (SSeq (SIf (EBin Ge (ELv (LVar 1 (TInt U64))) (EBin Add (ECst U32 2) (ELv (LVar 3 (TInt U64)))))
     (SSeq (SExpr (ELib LStrcpy (ECons (EAddr (LIndex (ELv (LVar 0 (TPtr (TInt IChar)))) (ELv (LVar 3 (TInt U64))))) (ECons (EData IChar [125; 0]) ENil))))
     (SSet (LVar 2 (TInt IBool)) (ECst I32 1)))
     SSkip)
    (SReturn (ELv (LVar 2 (TInt IBool))))))).

(** json.c:105-159; parameters: buffer, buffer_size, key, value, max_value_size. *)
Definition c_Json_findByKey : fundef :=
  FDef [TPtr (TInt IChar); TInt U64; TPtr (TInt IChar); TPtr (TInt IChar); TInt U64] (TInt IBool)
    (SSeq (SInit (TInt IBool) (ECst I32 0))
    (SSeq (SInit (TInt U64) (ELib LStrlen (ECons (ELv (LVar 2 (TPtr (TInt IChar)))) ENil)))
    (SSeq (SInit (TInt U32) (ECst U32 0))
    (SSeq (SVar (TInt U32))
    (SSeq (SIf (EBin Gt (ELv (LVar 1 (TInt U64))) (ELv (LVar 6 (TInt U64))))
     (SSet (LVar 7 (TInt U32)) (ECast (TInt U32) (EBin Sub (ELv (LVar 1 (TInt U64))) (ELv (LVar 6 (TInt U64))))))
     SSkip)
    (SSeq (SSeq (SSet (LVar 8 (TInt U32)) (ECst U32 0))
    (SLoop (EBin Lt (ELv (LVar 8 (TInt U32))) (ELv (LVar 7 (TInt U32)))) (SExpr (EInc true 1 (LVar 8 (TInt U32))))
     (SIf (EBin Eq (ECst I32 0) (ELib LStrncmp (ECons (EAddr (LIndex (ELv (LVar 0 (TPtr (TInt IChar)))) (ELv (LVar 8 (TInt U32))))) (ECons (ELv (LVar 2 (TPtr (TInt IChar)))) (ECons (ELv (LVar 6 (TInt U64))) ENil)))))
       (SSeq (SIf (EBin Eq (ELv (LIndex (ELv (LVar 0 (TPtr (TInt IChar)))) (EBin Add (ELv (LVar 8 (TInt U32))) (ELv (LVar 6 (TInt U64)))))) (ECst I32 34))
         (SSet (LVar 5 (TInt IBool)) (ECst I32 1))
         SSkip)
       SBreak)
       SSkip)))
    (SSeq (SIf (ELv (LVar 5 (TInt IBool)))
     (SBlock false
      (SSeq (SSet (LVar 5 (TInt IBool)) (ECst I32 0))
      (SSeq (SSeq (SOp Add (LVar 8 (TInt U32)) (ECast (TInt U32) (EBin Add (ELv (LVar 6 (TInt U64))) (ECst U32 1))))
      (SLoop (EBin Lt (ELv (LVar 8 (TInt U32))) (ELv (LVar 1 (TInt U64)))) (SExpr (EInc true 1 (LVar 8 (TInt U32))))
       (SIf (EBin Eq (ELv (LIndex (ELv (LVar 0 (TPtr (TInt IChar)))) (ELv (LVar 8 (TInt U32))))) (ECst I32 34))
         SBreak
         SSkip)))
      (SSeq (SInit (TInt U64) (ECst I32 0))
      (SSeq (SExpr (EInc true 1 (LVar 8 (TInt U32))))
      (SLoop (EAnd (EBin Lt (ELv (LVar 8 (TInt U32))) (ELv (LVar 1 (TInt U64)))) (EBin Lt (ELv (LVar 9 (TInt U64))) (ELv (LVar 4 (TInt U64))))) SSkip
       (SSeq (SSet (LIndex (ELv (LVar 3 (TPtr (TInt IChar)))) (ELv (LVar 9 (TInt U64)))) (ELv (LIndex (ELv (LVar 0 (TPtr (TInt IChar)))) (ELv (LVar 8 (TInt U32))))))
       (SSeq (SIf (EBin Eq (ELv (LIndex (ELv (LVar 0 (TPtr (TInt IChar)))) (ELv (LVar 8 (TInt U32))))) (ECst I32 34))
         (SSeq (SSet (LIndex (ELv (LVar 3 (TPtr (TInt IChar)))) (ELv (LVar 9 (TInt U64)))) (ECst I32 0))
         (SSeq (SSet (LVar 5 (TInt IBool)) (ECst I32 1))
         SBreak))
         SSkip)
       (SSeq (SExpr (EInc true 1 (LVar 9 (TInt U64))))
       (SExpr (EInc true 1 (LVar 8 (TInt U32)))))))))))))
     SSkip)
    (SReturn (ELv (LVar 5 (TInt IBool))))))))))).
