(** * The text of [/repo/Src/utils.c], [/repo/Src/bit_manipulation.c] as terms of [CLang]

    Generated by [/verif/tools/c2coq.py] from the C text; not edited by hand. *)
From Verif Require Import CSem CLang.


(** utils.c:95-105; parameters: first, second, size. *)
Definition c_Utils_swapElements : fundef :=
  FDef [TPtr (TInt U8); TPtr (TInt U8); TInt U32] TVoid
    (SSeq (SInit (TPtr (TInt U8)) (ELv (LVar 0 (TPtr (TInt U8)))))
    (SSeq (SInit (TPtr (TInt U8)) (ELv (LVar 1 (TPtr (TInt U8)))))
    (SSeq (SInit (TInt U32) (ELv (LVar 2 (TInt U32))))
    (SLoop (EBin Ne (EInc false (-1) (LVar 5 (TInt U32))) (ECst U32 0)) SSkip
     (SBlock false
      (SSeq (SInit (TInt U8) (ELv (LIndex (ELv (LVar 3 (TPtr (TInt U8)))) (ELv (LVar 5 (TInt U32))))))
      (SSeq (SSet (LIndex (ELv (LVar 3 (TPtr (TInt U8)))) (ELv (LVar 5 (TInt U32)))) (ELv (LIndex (ELv (LVar 4 (TPtr (TInt U8)))) (ELv (LVar 5 (TInt U32))))))
      (SSet (LIndex (ELv (LVar 4 (TPtr (TInt U8)))) (ELv (LVar 5 (TInt U32)))) (ELv (LVar 6 (TInt U8))))))))))).

(** utils.c:111, a constant array *)
Definition c_Utils_quickUint32Pow10_pow10 : list Z :=
  [1; 10; 100; 1000; 10000; 100000; 1000000; 10000000; 100000000; 1000000000].

(** utils.c:107-122; parameters: exponent, result. *)
Definition c_Utils_quickUint32Pow10 : fundef :=
  FDef [TInt U8; TPtr (TInt U32)] (TInt IBool)
    (SSeq (SInit (TInt IBool) (ECst I32 0))
    (SSeq (SIf (EBin Lt (ELv (LVar 0 (TInt U8))) (ECst U32 10))
     (SSeq (SSet (LDeref (ELv (LVar 1 (TPtr (TInt U32))))) (ELv (LIndex (EData U32 c_Utils_quickUint32Pow10_pow10) (ELv (LVar 0 (TInt U8))))))
     (SSet (LVar 2 (TInt IBool)) (ECst I32 1)))
     SSkip)
    (SReturn (ELv (LVar 2 (TInt IBool)))))).

(** utils.c:43-93; parameters: str, str_length, integer. *)
Definition c_Utils_stringToUint32 : fundef :=
  FDef [TPtr (TInt IChar); TInt U8; TPtr (TInt U32)] (TInt IBool)
    (SSeq (SInit (TInt IBool) (ECst I32 1))
    (SSeq (SInit (TInt IBool) (ECst I32 0))
    (SSeq (SInit (TInt U8) (ECst U32 0))
    (SSeq (SSet (LDeref (ELv (LVar 2 (TPtr (TInt U32))))) (ECst U32 0))
    (SSeq (SInit (TInt U8) (ELv (LVar 1 (TInt U8))))
    (SSeq (SIf (EBin Eq (ELv (LVar 1 (TInt U8))) (ECst U32 10))
     (SSeq (SSet (LVar 4 (TInt IBool)) (ECst I32 1))
     (SSet (LVar 6 (TInt U8)) (EBin Sub (ELv (LVar 1 (TInt U8))) (ECst U32 1))))
     SSkip)
    (SSeq (SLoop (EAnd (EBin Gt (ELv (LVar 6 (TInt U8))) (ELv (LVar 5 (TInt U8)))) (ELv (LVar 3 (TInt IBool)))) SSkip
     (SIf (EAnd (EBin Ge (ELv (LIndex (ELv (LVar 0 (TPtr (TInt IChar)))) (ELv (LVar 5 (TInt U8))))) (ECst I32 48)) (EBin Le (ELv (LIndex (ELv (LVar 0 (TPtr (TInt IChar)))) (ELv (LVar 5 (TInt U8))))) (ECst I32 57)))
       (SBlock true
        (SSeq (SInit (TInt I8) (ECast (TInt I8) (EBin Sub (ECast (TInt I8) (ELv (LIndex (ELv (LVar 0 (TPtr (TInt IChar)))) (ELv (LVar 5 (TInt U8)))))) (ECast (TInt I8) (ECst I32 48)))))
        (SSeq (SInit (TInt U8) (EBin Sub (ELv (LVar 6 (TInt U8))) (EBin Add (ELv (LVar 5 (TInt U8))) (ECst U32 1))))
        (SSeq (SMem U32 (ECst U32 0))
        (SSeq (SSet (LVar 3 (TInt IBool)) (ECall c_Utils_quickUint32Pow10 (ECons (ELv (LVar 8 (TInt U8))) (ECons (ELv (LVar 9 (TPtr (TInt U32)))) ENil))))
        (SSeq (SOp Add (LDeref (ELv (LVar 2 (TPtr (TInt U32))))) (EBin Mul (ECast (TInt U32) (ELv (LVar 7 (TInt I8)))) (ELv (LDeref (ELv (LVar 9 (TPtr (TInt U32))))))))
        (SExpr (EInc true 1 (LVar 5 (TInt U8))))))))))
       (SSet (LVar 3 (TInt IBool)) (ECst I32 0))))
    (SSeq (SIf (EAnd (ELv (LVar 4 (TInt IBool))) (ELv (LVar 3 (TInt IBool))))
     (SBlock false
      (SSeq (SInit (TInt U8) (EBin Sub (ECst U32 10) (ECst U32 1)))
      (SIf (EAnd (EBin Ge (ELv (LIndex (ELv (LVar 0 (TPtr (TInt IChar)))) (ELv (LVar 7 (TInt U8))))) (ECst I32 48)) (EBin Le (ELv (LIndex (ELv (LVar 0 (TPtr (TInt IChar)))) (ELv (LVar 7 (TInt U8))))) (ECst I32 57)))
       (SBlock false
        (SSeq (SInit (TInt I8) (ECast (TInt I8) (EBin Sub (ECast (TInt I8) (ELv (LIndex (ELv (LVar 0 (TPtr (TInt IChar)))) (ELv (LVar 7 (TInt U8)))))) (ECast (TInt I8) (ECst I32 48)))))
        (SIf (EOr (EBin Gt (ELv (LDeref (ELv (LVar 2 (TPtr (TInt U32)))))) (EBin Div (ECst U32 4294967295) (ECst U32 10))) (EAnd (EBin Eq (ELv (LDeref (ELv (LVar 2 (TPtr (TInt U32)))))) (EBin Div (ECst U32 4294967295) (ECst U32 10))) (EBin Gt (ECast (TInt U32) (ELv (LVar 8 (TInt I8)))) (EBin Mod (ECst U32 4294967295) (ECst U32 10)))))
         (SSet (LVar 3 (TInt IBool)) (ECst I32 0))
         (SSeq (SOp Mul (LDeref (ELv (LVar 2 (TPtr (TInt U32))))) (ECst U32 10))
         (SOp Add (LDeref (ELv (LVar 2 (TPtr (TInt U32))))) (ECast (TInt U32) (ELv (LVar 8 (TInt I8)))))))))
       (SSet (LVar 3 (TInt IBool)) (ECst I32 0)))))
     SSkip)
    (SReturn (ELv (LVar 3 (TInt IBool)))))))))))).

(** utils.c:124-127; parameters: buf, value. *)
Definition c_Utils_serialize8 : fundef :=
  FDef [TPtr (TInt U8); TInt U8] TVoid
    (SSet (LIndex (ELv (LVar 0 (TPtr (TInt U8)))) (ECst I32 0)) (EBin And (ECast (TInt U8) (ELv (LVar 1 (TInt U8)))) (ECst U32 255))).

(** utils.c:129-133; parameters: buf. *)
Definition c_Utils_deserialize8 : fundef :=
  FDef [TPtr (TInt U8)] (TInt U8)
    (SSeq (SInit (TInt U8) (ELv (LIndex (ELv (LVar 0 (TPtr (TInt U8)))) (ECst I32 0))))
    (SReturn (ELv (LVar 1 (TInt U8))))).

(** utils.c:135-139; parameters: buf, value. *)
Definition c_Utils_serialize16BE : fundef :=
  FDef [TPtr (TInt U8); TInt U16] TVoid
    (SSeq (SSet (LIndex (ELv (LVar 0 (TPtr (TInt U8)))) (ECst I32 0)) (EBin And (ECast (TInt U8) (EBin Shr (ELv (LVar 1 (TInt U16))) (ECst U32 8))) (ECst U32 255)))
    (SSet (LIndex (ELv (LVar 0 (TPtr (TInt U8)))) (ECst I32 1)) (EBin And (ECast (TInt U8) (ELv (LVar 1 (TInt U16)))) (ECst U32 255)))).

(** utils.c:141-146; parameters: buf, value. *)
Definition c_Utils_serialize24BE : fundef :=
  FDef [TPtr (TInt U8); TInt U32] TVoid
    (SSeq (SSet (LIndex (ELv (LVar 0 (TPtr (TInt U8)))) (ECst I32 0)) (EBin And (ECast (TInt U8) (EBin Shr (ELv (LVar 1 (TInt U32))) (ECst U32 16))) (ECst U32 255)))
    (SSeq (SSet (LIndex (ELv (LVar 0 (TPtr (TInt U8)))) (ECst I32 1)) (EBin And (ECast (TInt U8) (EBin Shr (ELv (LVar 1 (TInt U32))) (ECst U32 8))) (ECst U32 255)))
    (SSet (LIndex (ELv (LVar 0 (TPtr (TInt U8)))) (ECst I32 2)) (EBin And (ECast (TInt U8) (ELv (LVar 1 (TInt U32)))) (ECst U32 255))))).

(** utils.c:148-154; parameters: buf, value. *)
Definition c_Utils_serialize32BE : fundef :=
  FDef [TPtr (TInt U8); TInt U32] TVoid
    (SSeq (SSet (LIndex (ELv (LVar 0 (TPtr (TInt U8)))) (ECst I32 0)) (EBin And (ECast (TInt U8) (EBin Shr (ELv (LVar 1 (TInt U32))) (ECst U32 24))) (ECst U32 255)))
    (SSeq (SSet (LIndex (ELv (LVar 0 (TPtr (TInt U8)))) (ECst I32 1)) (EBin And (ECast (TInt U8) (EBin Shr (ELv (LVar 1 (TInt U32))) (ECst U32 16))) (ECst U32 255)))
    (SSeq (SSet (LIndex (ELv (LVar 0 (TPtr (TInt U8)))) (ECst I32 2)) (EBin And (ECast (TInt U8) (EBin Shr (ELv (LVar 1 (TInt U32))) (ECst U32 8))) (ECst U32 255)))
    (SSet (LIndex (ELv (LVar 0 (TPtr (TInt U8)))) (ECst I32 3)) (EBin And (ECast (TInt U8) (ELv (LVar 1 (TInt U32)))) (ECst U32 255)))))).

(** utils.c:156-161; parameters: buf, src, size. *)
Definition c_Utils_serializeBlobBE : fundef :=
  FDef [TPtr (TInt U8); TPtr (TInt U8); TInt U32] TVoid
    (SBlock false (SSeq (SInit (TInt U32) (ECst I32 0))
    (SLoop (EBin Lt (ELv (LVar 3 (TInt U32))) (ELv (LVar 2 (TInt U32)))) (SExpr (EInc false 1 (LVar 3 (TInt U32))))
     (SSet (LIndex (ELv (LVar 0 (TPtr (TInt U8)))) (ELv (LVar 3 (TInt U32)))) (ELv (LIndex (ELv (LVar 1 (TPtr (TInt U8)))) (ELv (LVar 3 (TInt U32))))))))).

(** utils.c:163-169; parameters: buf. *)
Definition c_Utils_deserialize16BE : fundef :=
  FDef [TPtr (TInt U8)] (TInt U16)
    (SSeq (SVar (TInt U16))
    (SSeq (SSet (LVar 1 (TInt U16)) (EBin Shl (ECast (TInt U16) (ELv (LIndex (ELv (LVar 0 (TPtr (TInt U8)))) (ECst I32 0)))) (ECst U32 8)))
    (SSeq (SOp Or (LVar 1 (TInt U16)) (ECast (TInt U16) (ELv (LIndex (ELv (LVar 0 (TPtr (TInt U8)))) (ECst I32 1)))))
    (SReturn (ELv (LVar 1 (TInt U16))))))).

(** utils.c:171-178; parameters: buf. *)
Definition c_Utils_deserialize24BE : fundef :=
  FDef [TPtr (TInt U8)] (TInt U32)
    (SSeq (SVar (TInt U32))
    (SSeq (SSet (LVar 1 (TInt U32)) (EBin Shl (ECast (TInt U32) (ELv (LIndex (ELv (LVar 0 (TPtr (TInt U8)))) (ECst I32 0)))) (ECst U32 16)))
    (SSeq (SOp Or (LVar 1 (TInt U32)) (EBin Shl (ECast (TInt U32) (ELv (LIndex (ELv (LVar 0 (TPtr (TInt U8)))) (ECst I32 1)))) (ECst U32 8)))
    (SSeq (SOp Or (LVar 1 (TInt U32)) (ECast (TInt U32) (ELv (LIndex (ELv (LVar 0 (TPtr (TInt U8)))) (ECst I32 2)))))
    (SReturn (ELv (LVar 1 (TInt U32)))))))).

(** utils.c:180-188; parameters: buf. *)
Definition c_Utils_deserialize32BE : fundef :=
  FDef [TPtr (TInt U8)] (TInt U32)
    (SSeq (SVar (TInt U32))
    (SSeq (SSet (LVar 1 (TInt U32)) (EBin Shl (ECast (TInt U32) (ELv (LIndex (ELv (LVar 0 (TPtr (TInt U8)))) (ECst I32 0)))) (ECst U32 24)))
    (SSeq (SOp Or (LVar 1 (TInt U32)) (EBin Shl (ECast (TInt U32) (ELv (LIndex (ELv (LVar 0 (TPtr (TInt U8)))) (ECst I32 1)))) (ECst U32 16)))
    (SSeq (SOp Or (LVar 1 (TInt U32)) (EBin Shl (ECast (TInt U32) (ELv (LIndex (ELv (LVar 0 (TPtr (TInt U8)))) (ECst I32 2)))) (ECst U32 8)))
    (SSeq (SOp Or (LVar 1 (TInt U32)) (ECast (TInt U32) (ELv (LIndex (ELv (LVar 0 (TPtr (TInt U8)))) (ECst I32 3)))))
    (SReturn (ELv (LVar 1 (TInt U32))))))))).

(** utils.c:190-195; parameters: buf, dst, size. *)
Definition c_Utils_deserializeBlobBE : fundef :=
  FDef [TPtr (TInt U8); TPtr (TInt U8); TInt U32] TVoid
    (SBlock false (SSeq (SInit (TInt U32) (ECst I32 0))
    (SLoop (EBin Lt (ELv (LVar 3 (TInt U32))) (ELv (LVar 2 (TInt U32)))) (SExpr (EInc false 1 (LVar 3 (TInt U32))))
     (SSet (LIndex (ELv (LVar 1 (TPtr (TInt U8)))) (ELv (LVar 3 (TInt U32)))) (ELv (LIndex (ELv (LVar 0 (TPtr (TInt U8)))) (ELv (LVar 3 (TInt U32))))))))).

(** utils.c:197-201; parameters: buf, value. *)
Definition c_Utils_serialize16LE : fundef :=
  FDef [TPtr (TInt U8); TInt U16] TVoid
    (SSeq (SSet (LIndex (ELv (LVar 0 (TPtr (TInt U8)))) (ECst I32 1)) (EBin And (ECast (TInt U8) (EBin Shr (ELv (LVar 1 (TInt U16))) (ECst U32 8))) (ECst U32 255)))
    (SSet (LIndex (ELv (LVar 0 (TPtr (TInt U8)))) (ECst I32 0)) (EBin And (ECast (TInt U8) (ELv (LVar 1 (TInt U16)))) (ECst U32 255)))).

(** utils.c:203-208; parameters: buf, value. *)
Definition c_Utils_serialize24LE : fundef :=
  FDef [TPtr (TInt U8); TInt U32] TVoid
    (SSeq (SSet (LIndex (ELv (LVar 0 (TPtr (TInt U8)))) (ECst I32 2)) (EBin And (ECast (TInt U8) (EBin Shr (ELv (LVar 1 (TInt U32))) (ECst U32 16))) (ECst U32 255)))
    (SSeq (SSet (LIndex (ELv (LVar 0 (TPtr (TInt U8)))) (ECst I32 1)) (EBin And (ECast (TInt U8) (EBin Shr (ELv (LVar 1 (TInt U32))) (ECst U32 8))) (ECst U32 255)))
    (SSet (LIndex (ELv (LVar 0 (TPtr (TInt U8)))) (ECst I32 0)) (EBin And (ECast (TInt U8) (ELv (LVar 1 (TInt U32)))) (ECst U32 255))))).

(** utils.c:210-216; parameters: buf, value. *)
Definition c_Utils_serialize32LE : fundef :=
  FDef [TPtr (TInt U8); TInt U32] TVoid
    (SSeq (SSet (LIndex (ELv (LVar 0 (TPtr (TInt U8)))) (ECst I32 3)) (EBin And (ECast (TInt U8) (EBin Shr (ELv (LVar 1 (TInt U32))) (ECst U32 24))) (ECst U32 255)))
    (SSeq (SSet (LIndex (ELv (LVar 0 (TPtr (TInt U8)))) (ECst I32 2)) (EBin And (ECast (TInt U8) (EBin Shr (ELv (LVar 1 (TInt U32))) (ECst U32 16))) (ECst U32 255)))
    (SSeq (SSet (LIndex (ELv (LVar 0 (TPtr (TInt U8)))) (ECst I32 1)) (EBin And (ECast (TInt U8) (EBin Shr (ELv (LVar 1 (TInt U32))) (ECst U32 8))) (ECst U32 255)))
    (SSet (LIndex (ELv (LVar 0 (TPtr (TInt U8)))) (ECst I32 0)) (EBin And (ECast (TInt U8) (ELv (LVar 1 (TInt U32)))) (ECst U32 255)))))).

(** utils.c:218-225; parameters: buf, src, size. *)
Definition c_Utils_serializeBlobLE : fundef :=
  FDef [TPtr (TInt U8); TPtr (TInt U8); TInt U32] TVoid
    (SSeq (SInit (TInt I32) (ECst I32 0))
    (SBlock false (SSeq (SInit (TInt I32) (EBin Sub (ECast (TInt I32) (ELv (LVar 2 (TInt U32)))) (ECst I32 1)))
    (SLoop (EBin Ge (ELv (LVar 4 (TInt I32))) (ECst I32 0)) (SExpr (EInc true (-1) (LVar 4 (TInt I32))))
     (SSeq (SSet (LIndex (ELv (LVar 0 (TPtr (TInt U8)))) (ELv (LVar 3 (TInt I32)))) (ELv (LIndex (ELv (LVar 1 (TPtr (TInt U8)))) (ELv (LVar 4 (TInt I32))))))
     (SExpr (EInc true 1 (LVar 3 (TInt I32))))))))).

(** utils.c:227-233; parameters: buf. *)
Definition c_Utils_deserialize16LE : fundef :=
  FDef [TPtr (TInt U8)] (TInt U16)
    (SSeq (SVar (TInt U16))
    (SSeq (SSet (LVar 1 (TInt U16)) (EBin Shl (ECast (TInt U16) (ELv (LIndex (ELv (LVar 0 (TPtr (TInt U8)))) (ECst I32 1)))) (ECst U32 8)))
    (SSeq (SOp Or (LVar 1 (TInt U16)) (ECast (TInt U16) (ELv (LIndex (ELv (LVar 0 (TPtr (TInt U8)))) (ECst I32 0)))))
    (SReturn (ELv (LVar 1 (TInt U16))))))).

(** utils.c:235-242; parameters: buf. *)
Definition c_Utils_deserialize24LE : fundef :=
  FDef [TPtr (TInt U8)] (TInt U32)
    (SSeq (SVar (TInt U32))
    (SSeq (SSet (LVar 1 (TInt U32)) (EBin Shl (ECast (TInt U32) (ELv (LIndex (ELv (LVar 0 (TPtr (TInt U8)))) (ECst I32 2)))) (ECst U32 16)))
    (SSeq (SOp Or (LVar 1 (TInt U32)) (EBin Shl (ECast (TInt U32) (ELv (LIndex (ELv (LVar 0 (TPtr (TInt U8)))) (ECst I32 1)))) (ECst U32 8)))
    (SSeq (SOp Or (LVar 1 (TInt U32)) (ECast (TInt U32) (ELv (LIndex (ELv (LVar 0 (TPtr (TInt U8)))) (ECst I32 0)))))
    (SReturn (ELv (LVar 1 (TInt U32)))))))).

(** utils.c:244-252; parameters: buf. *)
Definition c_Utils_deserialize32LE : fundef :=
  FDef [TPtr (TInt U8)] (TInt U32)
    (SSeq (SVar (TInt U32))
    (SSeq (SSet (LVar 1 (TInt U32)) (EBin Shl (ECast (TInt U32) (ELv (LIndex (ELv (LVar 0 (TPtr (TInt U8)))) (ECst I32 3)))) (ECst U32 24)))
    (SSeq (SOp Or (LVar 1 (TInt U32)) (EBin Shl (ECast (TInt U32) (ELv (LIndex (ELv (LVar 0 (TPtr (TInt U8)))) (ECst I32 2)))) (ECst U32 16)))
    (SSeq (SOp Or (LVar 1 (TInt U32)) (EBin Shl (ECast (TInt U32) (ELv (LIndex (ELv (LVar 0 (TPtr (TInt U8)))) (ECst I32 1)))) (ECst U32 8)))
    (SSeq (SOp Or (LVar 1 (TInt U32)) (ECast (TInt U32) (ELv (LIndex (ELv (LVar 0 (TPtr (TInt U8)))) (ECst I32 0)))))
    (SReturn (ELv (LVar 1 (TInt U32))))))))).

(** utils.c:254-261; parameters: buf, dst, size. *)
Definition c_Utils_deserializeBlobLE : fundef :=
  FDef [TPtr (TInt U8); TPtr (TInt U8); TInt U32] TVoid
    (SSeq (SInit (TInt I32) (ECst I32 0))
    (SBlock false (SSeq (SInit (TInt I32) (EBin Sub (ECast (TInt I32) (ELv (LVar 2 (TInt U32)))) (ECst I32 1)))
    (SLoop (EBin Ge (ELv (LVar 4 (TInt I32))) (ECst I32 0)) (SExpr (EInc true (-1) (LVar 4 (TInt I32))))
     (SSeq (SSet (LIndex (ELv (LVar 1 (TPtr (TInt U8)))) (ELv (LVar 3 (TInt I32)))) (ELv (LIndex (ELv (LVar 0 (TPtr (TInt U8)))) (ELv (LVar 4 (TInt I32))))))
     (SExpr (EInc true 1 (LVar 3 (TInt I32))))))))).

(** utils.c:263-271; parameters: input. *)
Definition c_Utils_isUpperChar : fundef :=
  FDef [TInt IChar] (TInt IBool)
    (SSeq (SInit (TInt IBool) (ECst I32 0))
    (SSeq (SInit (TInt U8) (ECast (TInt U8) (ELv (LVar 0 (TInt IChar)))))
    (SSeq (SIf (EAnd (EBin Ge (ELv (LVar 2 (TInt U8))) (ECst U32 65)) (EBin Le (ELv (LVar 2 (TInt U8))) (ECst U32 90)))
     (SSet (LVar 1 (TInt IBool)) (ECst I32 1))
     SSkip)
    (SReturn (ELv (LVar 1 (TInt IBool))))))).

(** utils.c:273-281; parameters: input. *)
Definition c_Utils_isLowerChar : fundef :=
  FDef [TInt IChar] (TInt IBool)
    (SSeq (SInit (TInt IBool) (ECst I32 0))
    (SSeq (SInit (TInt U8) (ECast (TInt U8) (ELv (LVar 0 (TInt IChar)))))
    (SSeq (SIf (EAnd (EBin Ge (ELv (LVar 2 (TInt U8))) (ECst U32 97)) (EBin Le (ELv (LVar 2 (TInt U8))) (ECst U32 122)))
     (SSet (LVar 1 (TInt IBool)) (ECst I32 1))
     SSkip)
    (SReturn (ELv (LVar 1 (TInt IBool))))))).

(** utils.c:283-289; parameters: input. *)
Definition c_Utils_isAlpha : fundef :=
  FDef [TInt IChar] (TInt IBool)
    (SSeq (SInit (TInt IBool) (ECall c_Utils_isUpperChar (ECons (ELv (LVar 0 (TInt IChar))) ENil)))
    (SSeq (SInit (TInt IBool) (ECall c_Utils_isLowerChar (ECons (ELv (LVar 0 (TInt IChar))) ENil)))
    (SReturn (EOr (ELv (LVar 1 (TInt IBool))) (ELv (LVar 2 (TInt IBool))))))).

(** bit_manipulation.c:39-60; parameters: data, n_bits. *)
Definition c_BitManipulation_reflect : fundef :=
  FDef [TInt U32; TInt U8] (TInt U32)
    (SSeq (SInit (TInt U32) (ECst U32 0))
    (SSeq (SInit (TInt U32) (ELv (LVar 0 (TInt U32))))
    (SSeq (SBlock false (SSeq (SInit (TInt U8) (ECst U32 0))
    (SLoop (EBin Lt (ELv (LVar 4 (TInt U8))) (ELv (LVar 1 (TInt U8)))) (SExpr (EInc true 1 (LVar 4 (TInt U8))))
     (SSeq (SIf (EBin Eq (ECst U32 1) (EBin And (ELv (LVar 3 (TInt U32))) (ECst U32 1)))
       (SOp Or (LVar 2 (TInt U32)) (ECast (TInt U32) (EBin Shl (ECast (TInt U32) (ECst U32 1)) (EBin And (ECst U32 31) (EBin Sub (EBin Sub (ELv (LVar 1 (TInt U8))) (ECst U32 1)) (ELv (LVar 4 (TInt U8))))))))
       SSkip)
     (SSet (LVar 3 (TInt U32)) (EBin Shr (ELv (LVar 3 (TInt U32))) (ECst U32 1)))))))
    (SReturn (ELv (LVar 2 (TInt U32))))))).

(** bit_manipulation.c:62-72; parameters: data, n, bit_set. *)
Definition c_BitManipulation_bitSet : fundef :=
  FDef [TInt U32; TInt U8; TPtr (TInt IBool)] (TInt IBool)
    (SSeq (SInit (TInt IBool) (ECst I32 0))
    (SSeq (SIf (EBin Le (ELv (LVar 1 (TInt U8))) (ECst U32 31))
     (SBlock false
      (SSeq (SInit (TInt U32) (EBin Shl (ECast (TInt U32) (ECst U32 1)) (ELv (LVar 1 (TInt U8)))))
      (SSeq (SSet (LDeref (ELv (LVar 2 (TPtr (TInt IBool))))) (EBin Ne (EBin And (ELv (LVar 0 (TInt U32))) (ELv (LVar 4 (TInt U32)))) (ECst U32 0)))
      (SSet (LVar 3 (TInt IBool)) (ECst I32 1)))))
     SSkip)
    (SReturn (ELv (LVar 3 (TInt IBool)))))).

(** bit_manipulation.c:74-83; parameters: data, n, out. *)
Definition c_BitManipulation_setBit : fundef :=
  FDef [TInt U32; TInt U8; TPtr (TInt U32)] (TInt IBool)
    (SSeq (SInit (TInt IBool) (ECst I32 0))
    (SSeq (SIf (EBin Le (ELv (LVar 1 (TInt U8))) (ECst U32 31))
     (SSeq (SSet (LDeref (ELv (LVar 2 (TPtr (TInt U32))))) (EBin Or (ELv (LVar 0 (TInt U32))) (EBin Shl (ECast (TInt U32) (ECst U32 1)) (ELv (LVar 1 (TInt U8))))))
     (SSet (LVar 3 (TInt IBool)) (ECst I32 1)))
     SSkip)
    (SReturn (ELv (LVar 3 (TInt IBool)))))).

(** bit_manipulation.c:85-94; parameters: data, n, out. *)
Definition c_BitManipulation_clearBit : fundef :=
  FDef [TInt U32; TInt U8; TPtr (TInt U32)] (TInt IBool)
    (SSeq (SInit (TInt IBool) (ECst I32 0))
    (SSeq (SIf (EBin Le (ELv (LVar 1 (TInt U8))) (ECst U32 31))
     (SSeq (SSet (LDeref (ELv (LVar 2 (TPtr (TInt U32))))) (EBin And (ELv (LVar 0 (TInt U32))) (EUn BNot (EBin Shl (ECast (TInt U32) (ECst U32 1)) (ELv (LVar 1 (TInt U8)))))))
     (SSet (LVar 3 (TInt IBool)) (ECst I32 1)))
     SSkip)
    (SReturn (ELv (LVar 3 (TInt IBool)))))).

(** bit_manipulation.c:96-105; parameters: data, n, out. *)
Definition c_BitManipulation_toggleBit : fundef :=
  FDef [TInt U32; TInt U8; TPtr (TInt U32)] (TInt IBool)
    (SSeq (SInit (TInt IBool) (ECst I32 0))
    (SSeq (SIf (EBin Le (ELv (LVar 1 (TInt U8))) (ECst U32 31))
     (SSeq (SSet (LDeref (ELv (LVar 2 (TPtr (TInt U32))))) (EBin Xor (ELv (LVar 0 (TInt U32))) (EBin Shl (ECast (TInt U32) (ECst U32 1)) (ELv (LVar 1 (TInt U8))))))
     (SSet (LVar 3 (TInt IBool)) (ECst I32 1)))
     SSkip)
    (SReturn (ELv (LVar 3 (TInt IBool)))))).

(** bit_manipulation.c:107-112; parameters: data, n_bits. *)
Definition c_BitManipulation_rotl32 : fundef :=
  FDef [TInt U32; TInt U32] (TInt U32)
    (SReturn (EBin Xor (EBin Shl (ELv (LVar 0 (TInt U32))) (ELv (LVar 1 (TInt U32)))) (EBin Shr (ELv (LVar 0 (TInt U32))) (EBin Sub (ECst U32 32) (ELv (LVar 1 (TInt U32))))))).
