(** * The text of [/repo/Src/crc/crc8_base.c], [/repo/Src/crc/crc16_base.c], [/repo/Src/crc/crc32_base.c] as terms of [CLang]

    Generated by [/verif/tools/c2coq.py] from the C text; not edited by hand. *)
From Verif Require Import CSem CLang C_Utils.


(** crc/crc8_base.c:42-60; parameters: polynomial, crc_table. *)
Definition c_Crc8Base_tableCalculator : fundef :=
  FDef [TInt U8; TPtr (TInt U8)] TVoid
    (SSeq (SInit (TInt U8) (ECst U32 128))
    (SBlock false (SSeq (SInit (TInt U32) (ECst U32 0))
    (SLoop (EBin Lt (ELv (LVar 3 (TInt U32))) (ECst U32 256)) (SExpr (EInc true 1 (LVar 3 (TInt U32))))
     (SBlock false
      (SSeq (SInit (TInt U8) (ECast (TInt U8) (ELv (LVar 3 (TInt U32)))))
      (SSeq (SBlock false (SSeq (SInit (TInt U8) (ECst U32 0))
      (SLoop (EBin Lt (ELv (LVar 5 (TInt U8))) (ECst U32 8)) (SExpr (EInc true 1 (LVar 5 (TInt U8))))
       (SIf (EBin Eq (ECst U32 0) (EBin And (ELv (LVar 4 (TInt U8))) (ELv (LVar 2 (TInt U8)))))
         (SOp Shl (LVar 4 (TInt U8)) (ECst U32 1))
         (SSet (LVar 4 (TInt U8)) (EBin Xor (EBin Shl (ELv (LVar 4 (TInt U8))) (ECst U32 1)) (ELv (LVar 0 (TInt U8)))))))))
      (SSet (LIndex (ELv (LVar 1 (TPtr (TInt U8)))) (ELv (LVar 3 (TInt U32)))) (ELv (LVar 4 (TInt U8))))))))))).

(** crc/crc8_base.c:62-98; parameters: crc_table, crc_data_ptr, crc_length, crc_initial_value, final_xor_value, reflected_output, reflected_input, final_xor. *)
Definition c_Crc8Base : fundef :=
  FDef [TPtr (TInt U8); TPtr (TInt U8); TInt U32; TInt U8; TInt U8; TInt IBool; TInt IBool; TInt IBool] (TInt U8)
    (SSeq (SInit (TInt U8) (ELv (LVar 3 (TInt U8))))
    (SSeq (SInit (TPtr (TInt U8)) (ELv (LVar 1 (TPtr (TInt U8)))))
    (SSeq (SBlock false (SSeq (SInit (TInt U32) (ECst U32 0))
    (SLoop (EBin Lt (ELv (LVar 10 (TInt U32))) (ELv (LVar 2 (TInt U32)))) (SExpr (EInc true 1 (LVar 10 (TInt U32))))
     (SBlock false
      (SSeq (SVar (TInt U8))
      (SSeq (SIf (ELv (LVar 6 (TInt IBool)))
       (SSet (LVar 11 (TInt U8)) (ECast (TInt U8) (ECall c_BitManipulation_reflect (ECons (ELv (LDeref (ELv (LVar 9 (TPtr (TInt U8)))))) (ECons (ECst U32 8) ENil)))))
       (SSet (LVar 11 (TInt U8)) (ELv (LDeref (ELv (LVar 9 (TPtr (TInt U8))))))))
      (SSeq (SSet (LVar 8 (TInt U8)) (EBin Xor (ELv (LVar 8 (TInt U8))) (ELv (LVar 11 (TInt U8)))))
      (SSeq (SSet (LVar 8 (TInt U8)) (ELv (LIndex (ELv (LVar 0 (TPtr (TInt U8)))) (ELv (LVar 8 (TInt U8))))))
      (SExpr (EInc true 1 (LVar 9 (TPtr (TInt U8)))))))))))))
    (SSeq (SIf (ELv (LVar 5 (TInt IBool)))
     (SSet (LVar 8 (TInt U8)) (ECast (TInt U8) (ECall c_BitManipulation_reflect (ECons (ECast (TInt U32) (ELv (LVar 8 (TInt U8)))) (ECons (ECst U32 8) ENil)))))
     SSkip)
    (SSeq (SIf (ELv (LVar 7 (TInt IBool)))
     (SOp Xor (LVar 8 (TInt U8)) (ELv (LVar 4 (TInt U8))))
     SSkip)
    (SReturn (ELv (LVar 8 (TInt U8))))))))).

(** crc/crc16_base.c:42-60; parameters: polynomial, crc_table. *)
Definition c_Crc16Base_tableCalculator : fundef :=
  FDef [TInt U16; TPtr (TInt U16)] TVoid
    (SSeq (SInit (TInt U16) (ECst U32 32768))
    (SBlock false (SSeq (SInit (TInt U32) (ECst U32 0))
    (SLoop (EBin Lt (ELv (LVar 3 (TInt U32))) (ECst U32 256)) (SExpr (EInc true 1 (LVar 3 (TInt U32))))
     (SBlock false
      (SSeq (SInit (TInt U16) (ECast (TInt U16) (EBin Shl (ELv (LVar 3 (TInt U32))) (ECst U32 8))))
      (SSeq (SBlock false (SSeq (SInit (TInt U8) (ECst U32 0))
      (SLoop (EBin Lt (ELv (LVar 5 (TInt U8))) (ECst U32 8)) (SExpr (EInc true 1 (LVar 5 (TInt U8))))
       (SIf (EBin Eq (ECst U32 0) (EBin And (ELv (LVar 4 (TInt U16))) (ELv (LVar 2 (TInt U16)))))
         (SOp Shl (LVar 4 (TInt U16)) (ECst U32 1))
         (SSet (LVar 4 (TInt U16)) (EBin Xor (EBin Shl (ELv (LVar 4 (TInt U16))) (ECst U32 1)) (ELv (LVar 0 (TInt U16)))))))))
      (SSet (LIndex (ELv (LVar 1 (TPtr (TInt U16)))) (ELv (LVar 3 (TInt U32)))) (ELv (LVar 4 (TInt U16))))))))))).

(** crc/crc16_base.c:62-97; parameters: crc_table, crc_data_ptr, crc_length, crc_initial_value, final_xor_value, reflected_output, reflected_input, final_xor. *)
Definition c_Crc16Base : fundef :=
  FDef [TPtr (TInt U16); TPtr (TInt U8); TInt U32; TInt U16; TInt U16; TInt IBool; TInt IBool; TInt IBool] (TInt U16)
    (SSeq (SInit (TInt U16) (ELv (LVar 3 (TInt U16))))
    (SSeq (SInit (TPtr (TInt U8)) (ELv (LVar 1 (TPtr (TInt U8)))))
    (SSeq (SBlock false (SSeq (SInit (TInt U32) (ECst U32 0))
    (SLoop (EBin Lt (ELv (LVar 10 (TInt U32))) (ELv (LVar 2 (TInt U32)))) (SExpr (EInc true 1 (LVar 10 (TInt U32))))
     (SBlock false
      (SSeq (SVar (TInt U8))
      (SSeq (SIf (ELv (LVar 6 (TInt IBool)))
       (SSet (LVar 11 (TInt U8)) (ECast (TInt U8) (ECall c_BitManipulation_reflect (ECons (ELv (LDeref (ELv (LVar 9 (TPtr (TInt U8)))))) (ECons (ECst U32 8) ENil)))))
       (SSet (LVar 11 (TInt U8)) (ELv (LDeref (ELv (LVar 9 (TPtr (TInt U8))))))))
      (SSeq (SSet (LVar 8 (TInt U16)) (EBin Xor (EBin Shl (ELv (LVar 8 (TInt U16))) (ECst U32 8)) (ELv (LIndex (ELv (LVar 0 (TPtr (TInt U16)))) (ECast (TInt U8) (EBin Xor (EBin Shr (ELv (LVar 8 (TInt U16))) (ECst U32 8)) (ELv (LVar 11 (TInt U8)))))))))
      (SExpr (EInc false 1 (LVar 9 (TPtr (TInt U8))))))))))))
    (SSeq (SIf (ELv (LVar 5 (TInt IBool)))
     (SSet (LVar 8 (TInt U16)) (ECast (TInt U16) (ECall c_BitManipulation_reflect (ECons (ELv (LVar 8 (TInt U16))) (ECons (ECst U32 16) ENil)))))
     SSkip)
    (SSeq (SIf (ELv (LVar 7 (TInt IBool)))
     (SOp Xor (LVar 8 (TInt U16)) (ELv (LVar 4 (TInt U16))))
     SSkip)
    (SReturn (ELv (LVar 8 (TInt U16))))))))).

(** crc/crc32_base.c:42-60; parameters: polynomial, crc_table. *)
Definition c_Crc32Base_tableCalculator : fundef :=
  FDef [TInt U32; TPtr (TInt U32)] TVoid
    (SSeq (SInit (TInt U32) (ECst U32 2147483648))
    (SBlock false (SSeq (SInit (TInt U32) (ECst U32 0))
    (SLoop (EBin Lt (ELv (LVar 3 (TInt U32))) (ECst U32 256)) (SExpr (EInc true 1 (LVar 3 (TInt U32))))
     (SBlock false
      (SSeq (SInit (TInt U32) (EBin Shl (ELv (LVar 3 (TInt U32))) (ECst U32 24)))
      (SSeq (SBlock false (SSeq (SInit (TInt U8) (ECst U32 0))
      (SLoop (EBin Lt (ELv (LVar 5 (TInt U8))) (ECst U32 8)) (SExpr (EInc false 1 (LVar 5 (TInt U8))))
       (SIf (EBin Eq (ECst U32 0) (EBin And (ELv (LVar 4 (TInt U32))) (ELv (LVar 2 (TInt U32)))))
         (SOp Shl (LVar 4 (TInt U32)) (ECst U32 1))
         (SSet (LVar 4 (TInt U32)) (EBin Xor (EBin Shl (ELv (LVar 4 (TInt U32))) (ECst U32 1)) (ELv (LVar 0 (TInt U32)))))))))
      (SSet (LIndex (ELv (LVar 1 (TPtr (TInt U32)))) (ELv (LVar 3 (TInt U32)))) (ELv (LVar 4 (TInt U32))))))))))).

(** crc/crc32_base.c:62-98; parameters: crc_table, crc_data_ptr, crc_length, crc_initial_value, final_xor_value, reflected_output, reflected_input, final_xor. *)
Definition c_Crc32Base : fundef :=
  FDef [TPtr (TInt U32); TPtr (TInt U8); TInt U32; TInt U32; TInt U32; TInt IBool; TInt IBool; TInt IBool] (TInt U32)
    (SSeq (SInit (TInt U32) (ELv (LVar 3 (TInt U32))))
    (SSeq (SInit (TPtr (TInt U8)) (ELv (LVar 1 (TPtr (TInt U8)))))
    (SSeq (SBlock false (SSeq (SInit (TInt U32) (ECst U32 0))
    (SLoop (EBin Lt (ELv (LVar 10 (TInt U32))) (ELv (LVar 2 (TInt U32)))) (SExpr (EInc true 1 (LVar 10 (TInt U32))))
     (SBlock false
      (SSeq (SVar (TInt U8))
      (SSeq (SIf (ELv (LVar 6 (TInt IBool)))
       (SSet (LVar 11 (TInt U8)) (ECast (TInt U8) (ECall c_BitManipulation_reflect (ECons (ELv (LDeref (ELv (LVar 9 (TPtr (TInt U8)))))) (ECons (ECst U32 8) ENil)))))
       (SSet (LVar 11 (TInt U8)) (ELv (LDeref (ELv (LVar 9 (TPtr (TInt U8))))))))
      (SSeq (SSet (LVar 8 (TInt U32)) (EBin Xor (EBin Shl (ELv (LVar 8 (TInt U32))) (ECst U32 8)) (ELv (LIndex (ELv (LVar 0 (TPtr (TInt U32)))) (ECast (TInt U8) (EBin Xor (EBin Shr (ELv (LVar 8 (TInt U32))) (ECst U32 24)) (ELv (LVar 11 (TInt U8)))))))))
      (SExpr (EInc true 1 (LVar 9 (TPtr (TInt U8))))))))))))
    (SSeq (SIf (ELv (LVar 5 (TInt IBool)))
     (SSet (LVar 8 (TInt U32)) (ECall c_BitManipulation_reflect (ECons (ELv (LVar 8 (TInt U32))) (ECons (ECst U32 32) ENil))))
     SSkip)
    (SSeq (SIf (ELv (LVar 7 (TInt IBool)))
     (SOp Xor (LVar 8 (TInt U32)) (ELv (LVar 4 (TInt U32))))
     SSkip)
    (SReturn (ELv (LVar 8 (TInt U32))))))))).
