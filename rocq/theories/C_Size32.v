(** * The functions of [/repo/Src] that use [size_t], if it is [unsigned int]

    Written by tools/size32.py from C_*.v: [U64] is [U32], and the result of [strlen] is
    converted.  Lines of [/repo] as there. *)
From Verif Require Import CSem CLang C_Utils C_Base64 C_Containers C_Sort C_Crypto C_Json.
Local Open Scope list_scope.

(** base64.c:21-106; parameters: data, data_length, result, max_result_length. *)
Definition c32_Base64_encode : fundef :=
  FDef [TPtr (TInt IChar); TInt U32; TPtr (TInt IChar); TInt U32] (TInt I32)
    (SSeq (SInit (TInt I32) (ECst I32 0))
    (SSeq (SVar (TPtr (TInt U8)))
    (SSeq (SInit (TPtr (TInt U8)) (ECast (TPtr (TInt U8)) (ELv (LVar 0 (TPtr (TInt IChar))))))
    (SSeq (SInit (TInt U32) (EBin Mul (ECst U32 4) (EBin Div (EBin Add (ELv (LVar 1 (TInt U32))) (ECst U32 2)) (ECst U32 3))))
    (SSeq (SIf (EBin Lt (ELv (LVar 7 (TInt U32))) (ELv (LVar 1 (TInt U32))))
     (SSet (LVar 4 (TInt I32)) (ECst I32 1))
     SSkip)
    (SSeq (SIf (EBin Eq (ELv (LVar 4 (TInt I32))) (ECst I32 0))
     (SBlock false
      (SSeq (SInit (TInt U32) (ECst U32 0))
      (SSeq (SInit (TInt U32) (ECst U32 0))
      (SSeq (SSet (LVar 5 (TPtr (TInt U8))) (ECast (TPtr (TInt U8)) (EAddr (LIndex (ELv (LVar 2 (TPtr (TInt IChar)))) (ECst I32 0)))))
      (SSeq (SInit (TPtr (TInt U8)) (ELv (LVar 5 (TPtr (TInt U8)))))
      (SSeq (SLoop (EBin Ge (EBin Sub (ELv (LVar 1 (TInt U32))) (ELv (LVar 9 (TInt U32)))) (ECst U32 3)) SSkip
       (SSeq (SOp Add (LVar 8 (TInt U32)) (ECst U32 4))
       (SSeq (SIf (EBin Gt (ELv (LVar 8 (TInt U32))) (ELv (LVar 3 (TInt U32))))
         (SSeq (SSet (LVar 4 (TInt I32)) (ECst I32 1))
         SBreak)
         SSkip)
       (SSeq (SSet (LDeref (ELv (LVar 10 (TPtr (TInt U8))))) (ELv (LIndex (EData U8 c_Base64_encode_base64_table) (EBin Shr (ELv (LIndex (ELv (LVar 6 (TPtr (TInt U8)))) (ECst I32 0))) (ECst I32 2)))))
       (SSeq (SExpr (EInc true 1 (LVar 10 (TPtr (TInt U8)))))
       (SSeq (SSet (LDeref (ELv (LVar 10 (TPtr (TInt U8))))) (ELv (LIndex (EData U8 c_Base64_encode_base64_table) (EBin Or (EBin Shl (EBin And (ELv (LIndex (ELv (LVar 6 (TPtr (TInt U8)))) (ECst I32 0))) (ECst U32 3)) (ECst I32 4)) (EBin Shr (ELv (LIndex (ELv (LVar 6 (TPtr (TInt U8)))) (ECst I32 1))) (ECst I32 4))))))
       (SSeq (SExpr (EInc true 1 (LVar 10 (TPtr (TInt U8)))))
       (SSeq (SSet (LDeref (ELv (LVar 10 (TPtr (TInt U8))))) (ELv (LIndex (EData U8 c_Base64_encode_base64_table) (EBin Or (EBin Shl (EBin And (ELv (LIndex (ELv (LVar 6 (TPtr (TInt U8)))) (ECst I32 1))) (ECst U32 15)) (ECst I32 2)) (EBin Shr (ELv (LIndex (ELv (LVar 6 (TPtr (TInt U8)))) (ECst I32 2))) (ECst I32 6))))))
       (SSeq (SExpr (EInc true 1 (LVar 10 (TPtr (TInt U8)))))
       (SSeq (SSet (LDeref (ELv (LVar 10 (TPtr (TInt U8))))) (ELv (LIndex (EData U8 c_Base64_encode_base64_table) (EBin And (ELv (LIndex (ELv (LVar 6 (TPtr (TInt U8)))) (ECst I32 2))) (ECst U32 63)))))
       (SSeq (SExpr (EInc true 1 (LVar 10 (TPtr (TInt U8)))))
       (SSeq (SExpr (EInc true 1 (LVar 6 (TPtr (TInt U8)))))
       (SSeq (SExpr (EInc true 1 (LVar 6 (TPtr (TInt U8)))))
       (SSeq (SExpr (EInc true 1 (LVar 6 (TPtr (TInt U8)))))
       (SOp Add (LVar 9 (TInt U32)) (ECst U32 3))))))))))))))))
      (SSeq (SIf (EAnd (EBin Eq (ELv (LVar 4 (TInt I32))) (ECst I32 0)) (EBin Ne (EBin Sub (ELv (LVar 1 (TInt U32))) (ELv (LVar 9 (TInt U32)))) (ECst U32 0)))
       (SSeq (SOp Add (LVar 8 (TInt U32)) (ECst U32 4))
       (SSeq (SIf (EBin Gt (ELv (LVar 8 (TInt U32))) (ELv (LVar 3 (TInt U32))))
         (SSet (LVar 4 (TInt I32)) (ECst I32 1))
         SSkip)
       (SIf (EBin Eq (ELv (LVar 4 (TInt I32))) (ECst I32 0))
         (SSeq (SSet (LDeref (ELv (LVar 10 (TPtr (TInt U8))))) (ELv (LIndex (EData U8 c_Base64_encode_base64_table) (EBin Shr (ELv (LIndex (ELv (LVar 6 (TPtr (TInt U8)))) (ECst I32 0))) (ECst I32 2)))))
         (SSeq (SExpr (EInc true 1 (LVar 10 (TPtr (TInt U8)))))
         (SSeq (SIf (EBin Eq (EBin Sub (ELv (LVar 1 (TInt U32))) (ELv (LVar 9 (TInt U32)))) (ECst U32 1))
           (SSeq (SSet (LDeref (ELv (LVar 10 (TPtr (TInt U8))))) (ELv (LIndex (EData U8 c_Base64_encode_base64_table) (EBin Shl (EBin And (ELv (LIndex (ELv (LVar 6 (TPtr (TInt U8)))) (ECst I32 0))) (ECst U32 3)) (ECst I32 4)))))
           (SSeq (SExpr (EInc true 1 (LVar 10 (TPtr (TInt U8)))))
           (SSeq (SSet (LDeref (ELv (LVar 10 (TPtr (TInt U8))))) (ECast (TInt U8) (ECst I32 61)))
           (SExpr (EInc true 1 (LVar 10 (TPtr (TInt U8))))))))
           (SSeq (SSet (LDeref (ELv (LVar 10 (TPtr (TInt U8))))) (ELv (LIndex (EData U8 c_Base64_encode_base64_table) (EBin Or (EBin Shl (EBin And (ELv (LIndex (ELv (LVar 6 (TPtr (TInt U8)))) (ECst I32 0))) (ECst U32 3)) (ECst I32 4)) (EBin Shr (ELv (LIndex (ELv (LVar 6 (TPtr (TInt U8)))) (ECst I32 1))) (ECst I32 4))))))
           (SSeq (SExpr (EInc true 1 (LVar 10 (TPtr (TInt U8)))))
           (SSeq (SSet (LDeref (ELv (LVar 10 (TPtr (TInt U8))))) (ELv (LIndex (EData U8 c_Base64_encode_base64_table) (EBin Shl (EBin And (ELv (LIndex (ELv (LVar 6 (TPtr (TInt U8)))) (ECst I32 1))) (ECst U32 15)) (ECst I32 2)))))
           (SExpr (EInc true 1 (LVar 10 (TPtr (TInt U8)))))))))
         (SSeq (SSet (LDeref (ELv (LVar 10 (TPtr (TInt U8))))) (ECast (TInt U8) (ECst I32 61)))
         (SExpr (EInc true 1 (LVar 10 (TPtr (TInt U8)))))))))
         SSkip)))
       SSkip)
      (SSet (LDeref (ELv (LVar 10 (TPtr (TInt U8))))) (ECast (TInt U8) (ECst I32 0))))))))))
     SSkip)
    (SReturn (ELv (LVar 4 (TInt I32)))))))))).

(** base64.c:108-172; parameters: in, in_len, out, max_out_len. *)
Definition c32_Base64_decode : fundef :=
  FDef [TPtr (TInt IChar); TInt U32; TPtr (TInt U8); TInt U32] (TInt I32)
    (SSeq (SInit (TInt I32) (ECst I32 0))
    (SSeq (SInit (TPtr (TInt U8)) (ECast (TPtr (TInt U8)) (ELv (LVar 0 (TPtr (TInt IChar))))))
    (SSeq (SInit (TInt IBool) (EAnd (EBin Gt (ELv (LVar 1 (TInt U32))) (ECst U32 0)) (EOr (EBin Ne (EBin Mod (ELv (LVar 1 (TInt U32))) (ECst U32 4)) (ECst U32 0)) (EBin Eq (ELv (LIndex (ELv (LVar 5 (TPtr (TInt U8)))) (EBin Sub (ELv (LVar 1 (TInt U32))) (ECst U32 1)))) (ECast (TInt U8) (ECst I32 61))))))
    (SSeq (SInit (TInt U32) (ECst U32 0))
    (SSeq (SIf (ELv (LVar 6 (TInt IBool)))
     (SSet (LVar 7 (TInt U32)) (ECst U32 1))
     SSkip)
    (SSeq (SInit (TInt U32) (EBin Mul (EBin Sub (EBin Div (EBin Add (ELv (LVar 1 (TInt U32))) (ECst U32 3)) (ECst U32 4)) (ELv (LVar 7 (TInt U32)))) (ECst U32 4)))
    (SSeq (SInit (TInt U32) (EBin Add (EBin Mul (EBin Div (ELv (LVar 8 (TInt U32))) (ECst U32 4)) (ECst U32 3)) (ELv (LVar 7 (TInt U32)))))
    (SSeq (SIf (EBin Gt (ELv (LVar 9 (TInt U32))) (ELv (LVar 3 (TInt U32))))
     (SSet (LVar 4 (TInt I32)) (ECst I32 1))
     SSkip)
    (SSeq (SIf (EBin Eq (ELv (LVar 8 (TInt U32))) (ECst U32 0))
     (SSet (LVar 4 (TInt I32)) (ECst I32 1))
     SSkip)
    (SSeq (SIf (EBin Eq (ELv (LVar 4 (TInt I32))) (ECst I32 0))
     (SBlock false
      (SSeq (SInit (TInt U32) (ECst U32 0))
      (SSeq (SBlock false (SSeq (SInit (TInt U32) (ECst U32 0))
      (SLoop (EBin Lt (ELv (LVar 11 (TInt U32))) (ELv (LVar 8 (TInt U32)))) (SOp Add (LVar 11 (TInt U32)) (ECst U32 4))
       (SBlock false
        (SSeq (SInit (TInt U32) (EBin Or (EBin Or (EBin Or (EBin Shl (ELv (LIndex (EData U32 c_Base64_decode_base64_index) (ELv (LIndex (ELv (LVar 5 (TPtr (TInt U8)))) (ELv (LVar 11 (TInt U32))))))) (ECst U32 18)) (EBin Shl (ELv (LIndex (EData U32 c_Base64_decode_base64_index) (ELv (LIndex (ELv (LVar 5 (TPtr (TInt U8)))) (EBin Add (ELv (LVar 11 (TInt U32))) (ECst U32 1)))))) (ECst U32 12))) (EBin Shl (ELv (LIndex (EData U32 c_Base64_decode_base64_index) (ELv (LIndex (ELv (LVar 5 (TPtr (TInt U8)))) (EBin Add (ELv (LVar 11 (TInt U32))) (ECst U32 2)))))) (ECst U32 6))) (ELv (LIndex (EData U32 c_Base64_decode_base64_index) (ELv (LIndex (ELv (LVar 5 (TPtr (TInt U8)))) (EBin Add (ELv (LVar 11 (TInt U32))) (ECst U32 3))))))))
        (SSeq (SSet (LIndex (ELv (LVar 2 (TPtr (TInt U8)))) (ELv (LVar 10 (TInt U32)))) (ECast (TInt U8) (EBin Shr (ELv (LVar 12 (TInt U32))) (ECst U32 16))))
        (SSeq (SExpr (EInc true 1 (LVar 10 (TInt U32))))
        (SSeq (SSet (LIndex (ELv (LVar 2 (TPtr (TInt U8)))) (ELv (LVar 10 (TInt U32)))) (ECast (TInt U8) (EBin And (EBin Shr (ELv (LVar 12 (TInt U32))) (ECst U32 8)) (ECst U32 255))))
        (SSeq (SExpr (EInc true 1 (LVar 10 (TInt U32))))
        (SSeq (SSet (LIndex (ELv (LVar 2 (TPtr (TInt U8)))) (ELv (LVar 10 (TInt U32)))) (ECast (TInt U8) (EBin And (ELv (LVar 12 (TInt U32))) (ECst U32 255))))
        (SExpr (EInc true 1 (LVar 10 (TInt U32))))))))))))))
      (SIf (ELv (LVar 6 (TInt IBool)))
       (SBlock false
        (SSeq (SInit (TInt U32) (EBin Or (EBin Shl (ELv (LIndex (EData U32 c_Base64_decode_base64_index) (ELv (LIndex (ELv (LVar 5 (TPtr (TInt U8)))) (ELv (LVar 8 (TInt U32))))))) (ECst U32 18)) (EBin Shl (ELv (LIndex (EData U32 c_Base64_decode_base64_index) (ELv (LIndex (ELv (LVar 5 (TPtr (TInt U8)))) (EBin Add (ELv (LVar 8 (TInt U32))) (ECst U32 1)))))) (ECst U32 12))))
        (SSeq (SSet (LIndex (ELv (LVar 2 (TPtr (TInt U8)))) (EBin Sub (ELv (LVar 9 (TInt U32))) (ECst U32 1))) (ECast (TInt U8) (EBin Shr (ELv (LVar 11 (TInt U32))) (ECst U32 16))))
        (SIf (EAnd (EBin Gt (ELv (LVar 1 (TInt U32))) (EBin Add (ELv (LVar 8 (TInt U32))) (ECst U32 2))) (EBin Ne (ELv (LIndex (ELv (LVar 5 (TPtr (TInt U8)))) (EBin Add (ELv (LVar 8 (TInt U32))) (ECst U32 2)))) (ECast (TInt U8) (ECst I32 61))))
         (SIf (EBin Gt (EBin Add (ELv (LVar 9 (TInt U32))) (ECst U32 1)) (ELv (LVar 3 (TInt U32))))
           (SSet (LVar 4 (TInt I32)) (ECst I32 1))
           (SSeq (SOp Or (LVar 11 (TInt U32)) (EBin Shl (ELv (LIndex (EData U32 c_Base64_decode_base64_index) (ELv (LIndex (ELv (LVar 5 (TPtr (TInt U8)))) (EBin Add (ELv (LVar 8 (TInt U32))) (ECst U32 2)))))) (ECst U32 6)))
           (SSet (LIndex (ELv (LVar 2 (TPtr (TInt U8)))) (ELv (LVar 9 (TInt U32)))) (ECast (TInt U8) (EBin And (EBin Shr (ELv (LVar 11 (TInt U32))) (ECst U32 8)) (ECst U32 255))))))
         SSkip))))
       SSkip))))
     SSkip)
    (SReturn (ELv (LVar 4 (TInt I32)))))))))))))).

(** map.c:41-52; parameters: map, key, size. *)
Definition c32_Map_GetIndex : fundef :=
  FDef [TPtr (TStruct 6); TPtr (TInt U8); TInt I32] (TInt I32)
    (SSeq (SInit (TInt I32) (EUn Neg (ECst I32 1)))
    (SSeq (SBlock false (SSeq (SInit (TInt I32) (ECst I32 0))
    (SLoop (EBin Lt (ELv (LVar 4 (TInt I32))) (ELv (LVar 2 (TInt I32)))) (SExpr (EInc true 1 (LVar 4 (TInt I32))))
     (SIf (EBin Eq (ELib LMemcmp (ECons (EAddr (LIndex (ELv (LField (LDeref (ELv (LVar 0 (TPtr (TStruct 6))))) 0 (TPtr (TInt U8)))) (EBin Mul (ELv (LVar 4 (TInt I32))) (ELv (LField (LDeref (ELv (LVar 0 (TPtr (TStruct 6))))) 2 (TInt I32)))))) (ECons (ELv (LVar 1 (TPtr (TInt U8)))) (ECons (ECast (TInt U32) (ELv (LField (LDeref (ELv (LVar 0 (TPtr (TStruct 6))))) 2 (TInt I32)))) ENil)))) (ECst I32 0))
       (SSeq (SSet (LVar 3 (TInt I32)) (ELv (LVar 4 (TInt I32))))
       SBreak)
       SSkip))))
    (SReturn (ELv (LVar 3 (TInt I32)))))).

(** map.c:70-100; parameters: map, key, value. *)
Definition c32_Map_insert : fundef :=
  FDef [TPtr (TStruct 6); TPtr (TInt U8); TPtr (TInt U8)] (TInt IBool)
    (SSeq (SInit (TInt IBool) (ECst I32 0))
    (SSeq (SIf (EBin Ne (ELv (LVar 0 (TPtr (TStruct 6)))) (ECast (TPtr TVoid) (ECst I32 0)))
     (SBlock false
      (SSeq (SInit (TInt I32) (ECall c32_Map_GetIndex (ECons (ELv (LVar 0 (TPtr (TStruct 6)))) (ECons (ELv (LVar 1 (TPtr (TInt U8)))) (ECons (ELv (LField (LDeref (ELv (LVar 0 (TPtr (TStruct 6))))) 5 (TInt I32))) ENil)))))
      (SIf (EBin Eq (ELv (LVar 4 (TInt I32))) (EUn Neg (ECst I32 1)))
       (SIf (EBin Ne (ELv (LField (LDeref (ELv (LVar 0 (TPtr (TStruct 6))))) 5 (TInt I32))) (ELv (LField (LDeref (ELv (LVar 0 (TPtr (TStruct 6))))) 4 (TInt I32))))
         (SSeq (SExpr (ELib LMemcpy (ECons (EAddr (LIndex (ELv (LField (LDeref (ELv (LVar 0 (TPtr (TStruct 6))))) 0 (TPtr (TInt U8)))) (EBin Mul (ELv (LField (LDeref (ELv (LVar 0 (TPtr (TStruct 6))))) 5 (TInt I32))) (ELv (LField (LDeref (ELv (LVar 0 (TPtr (TStruct 6))))) 2 (TInt I32)))))) (ECons (ELv (LVar 1 (TPtr (TInt U8)))) (ECons (ECast (TInt U32) (ELv (LField (LDeref (ELv (LVar 0 (TPtr (TStruct 6))))) 2 (TInt I32)))) ENil)))))
         (SSeq (SExpr (ELib LMemcpy (ECons (EAddr (LIndex (ELv (LField (LDeref (ELv (LVar 0 (TPtr (TStruct 6))))) 1 (TPtr (TInt U8)))) (EBin Mul (ELv (LField (LDeref (ELv (LVar 0 (TPtr (TStruct 6))))) 5 (TInt I32))) (ELv (LField (LDeref (ELv (LVar 0 (TPtr (TStruct 6))))) 3 (TInt I32)))))) (ECons (ELv (LVar 2 (TPtr (TInt U8)))) (ECons (ECast (TInt U32) (ELv (LField (LDeref (ELv (LVar 0 (TPtr (TStruct 6))))) 3 (TInt I32)))) ENil)))))
         (SSeq (SExpr (EInc true 1 (LField (LDeref (ELv (LVar 0 (TPtr (TStruct 6))))) 5 (TInt I32))))
         (SSet (LVar 3 (TInt IBool)) (ECst I32 1)))))
         SSkip)
       (SSeq (SExpr (ELib LMemcpy (ECons (EAddr (LIndex (ELv (LField (LDeref (ELv (LVar 0 (TPtr (TStruct 6))))) 1 (TPtr (TInt U8)))) (EBin Mul (ELv (LVar 4 (TInt I32))) (ELv (LField (LDeref (ELv (LVar 0 (TPtr (TStruct 6))))) 3 (TInt I32)))))) (ECons (ELv (LVar 2 (TPtr (TInt U8)))) (ECons (ECast (TInt U32) (ELv (LField (LDeref (ELv (LVar 0 (TPtr (TStruct 6))))) 3 (TInt I32)))) ENil)))))
       (SSet (LVar 3 (TInt IBool)) (ECst I32 1))))))
     SSkip)
    (SReturn (ELv (LVar 3 (TInt IBool)))))).

(** map.c:102-117; parameters: map, key, value. *)
Definition c32_Map_getValue : fundef :=
  FDef [TPtr (TStruct 6); TPtr (TInt U8); TPtr (TInt U8)] (TInt IBool)
    (SSeq (SInit (TInt IBool) (ECst I32 0))
    (SSeq (SIf (EBin Ne (ELv (LVar 0 (TPtr (TStruct 6)))) (ECast (TPtr TVoid) (ECst I32 0)))
     (SBlock false
      (SSeq (SInit (TInt I32) (ECall c32_Map_GetIndex (ECons (ELv (LVar 0 (TPtr (TStruct 6)))) (ECons (ELv (LVar 1 (TPtr (TInt U8)))) (ECons (ELv (LField (LDeref (ELv (LVar 0 (TPtr (TStruct 6))))) 5 (TInt I32))) ENil)))))
      (SIf (EBin Ne (ELv (LVar 4 (TInt I32))) (EUn Neg (ECst I32 1)))
       (SSeq (SExpr (ELib LMemcpy (ECons (ELv (LVar 2 (TPtr (TInt U8)))) (ECons (EAddr (LIndex (ELv (LField (LDeref (ELv (LVar 0 (TPtr (TStruct 6))))) 1 (TPtr (TInt U8)))) (EBin Mul (ELv (LVar 4 (TInt I32))) (ELv (LField (LDeref (ELv (LVar 0 (TPtr (TStruct 6))))) 3 (TInt I32)))))) (ECons (ECast (TInt U32) (ELv (LField (LDeref (ELv (LVar 0 (TPtr (TStruct 6))))) 3 (TInt I32)))) ENil)))))
       (SSet (LVar 3 (TInt IBool)) (ECst I32 1)))
       SSkip)))
     SSkip)
    (SReturn (ELv (LVar 3 (TInt IBool)))))).

(** crypto/caesar_cipher.c:45-58; parameters: msg, shift. *)
Definition c32_CaesarCipher_encrypt : fundef :=
  FDef [TPtr (TInt IChar); TInt U8] TVoid
    (SSeq (SInit (TInt U32) (ECast (TInt U32) (ELib LStrlen (ECons (ELv (LVar 0 (TPtr (TInt IChar)))) ENil))))
    (SBlock false (SSeq (SInit (TInt U32) (ECst U32 0))
    (SLoop (EBin Lt (ELv (LVar 3 (TInt U32))) (ELv (LVar 2 (TInt U32)))) (SExpr (EInc true 1 (LVar 3 (TInt U32))))
     (SIf (ECall c_Utils_isAlpha (ECons (ELv (LIndex (ELv (LVar 0 (TPtr (TInt IChar)))) (ELv (LVar 3 (TInt U32))))) ENil))
       (SBlock false
        (SSeq (SInit (TInt U8) (ECst U32 97))
        (SSeq (SIf (ECall c_Utils_isUpperChar (ECons (ELv (LIndex (ELv (LVar 0 (TPtr (TInt IChar)))) (ELv (LVar 3 (TInt U32))))) ENil))
         (SSet (LVar 4 (TInt U8)) (ECst U32 65))
         SSkip)
        (SSeq (SInit (TInt U8) (EBin Add (EBin Mod (EBin Sub (EBin Add (ECast (TInt U8) (ELv (LIndex (ELv (LVar 0 (TPtr (TInt IChar)))) (ELv (LVar 3 (TInt U32)))))) (ELv (LVar 1 (TInt U8)))) (ELv (LVar 4 (TInt U8)))) (ECst U32 26)) (ELv (LVar 4 (TInt U8)))))
        (SSet (LIndex (ELv (LVar 0 (TPtr (TInt IChar)))) (ELv (LVar 3 (TInt U32)))) (ECast (TInt IChar) (ELv (LVar 5 (TInt U8)))))))))
       SSkip))))).

(** crypto/caesar_cipher.c:60-73; parameters: msg, shift. *)
Definition c32_CaesarCipher_decrypt : fundef :=
  FDef [TPtr (TInt IChar); TInt U8] TVoid
    (SSeq (SInit (TInt U32) (ECast (TInt U32) (ELib LStrlen (ECons (ELv (LVar 0 (TPtr (TInt IChar)))) ENil))))
    (SBlock false (SSeq (SInit (TInt U32) (ECst U32 0))
    (SLoop (EBin Lt (ELv (LVar 3 (TInt U32))) (ELv (LVar 2 (TInt U32)))) (SExpr (EInc true 1 (LVar 3 (TInt U32))))
     (SIf (ECall c_Utils_isAlpha (ECons (ELv (LIndex (ELv (LVar 0 (TPtr (TInt IChar)))) (ELv (LVar 3 (TInt U32))))) ENil))
       (SBlock false
        (SSeq (SInit (TInt U8) (ECst U32 97))
        (SSeq (SIf (ECall c_Utils_isUpperChar (ECons (ELv (LIndex (ELv (LVar 0 (TPtr (TInt IChar)))) (ELv (LVar 3 (TInt U32))))) ENil))
         (SSet (LVar 4 (TInt U8)) (ECst U32 65))
         SSkip)
        (SSeq (SInit (TInt U8) (EBin Add (EBin Mod (EBin Sub (EBin Sub (ECast (TInt U8) (ELv (LIndex (ELv (LVar 0 (TPtr (TInt IChar)))) (ELv (LVar 3 (TInt U32)))))) (ELv (LVar 1 (TInt U8)))) (ELv (LVar 4 (TInt U8)))) (ECst U32 26)) (ELv (LVar 4 (TInt U8)))))
        (SSet (LIndex (ELv (LVar 0 (TPtr (TInt IChar)))) (ELv (LVar 3 (TInt U32)))) (ECast (TInt IChar) (ELv (LVar 5 (TInt U8)))))))))
       SSkip))))).

(** crypto/vernam_cipher.c:45-70; parameters: msg, key, key_length. *)
Definition c32_VernamCipher_encrypt : fundef :=
  FDef [TPtr (TInt IChar); TPtr (TInt IChar); TInt I32] (TInt IBool)
    (SSeq (SInit (TInt IBool) (ECst I32 0))
    (SSeq (SInit (TInt U32) (ECast (TInt U32) (ELib LStrlen (ECons (ELv (LVar 0 (TPtr (TInt IChar)))) ENil))))
    (SSeq (SIf (EBin Eq (ECast (TInt I32) (ELv (LVar 4 (TInt U32)))) (ELv (LVar 2 (TInt I32))))
     (SSeq (SBlock false (SSeq (SInit (TInt I32) (ECst I32 0))
      (SLoop (EBin Lt (ELv (LVar 5 (TInt I32))) (ELv (LVar 2 (TInt I32)))) (SExpr (EInc true 1 (LVar 5 (TInt I32))))
       (SIf (ECall c_Utils_isAlpha (ECons (ELv (LIndex (ELv (LVar 0 (TPtr (TInt IChar)))) (ELv (LVar 5 (TInt I32))))) ENil))
         (SBlock false
          (SSeq (SInit (TInt I8) (ECst I32 65))
          (SSeq (SIf (ECall c_Utils_isLowerChar (ECons (ELv (LIndex (ELv (LVar 1 (TPtr (TInt IChar)))) (ELv (LVar 5 (TInt I32))))) ENil))
           (SSet (LVar 6 (TInt I8)) (ECst I32 97))
           SSkip)
          (SSeq (SInit (TInt I32) (ECst I32 97))
          (SSeq (SIf (ECall c_Utils_isUpperChar (ECons (ELv (LIndex (ELv (LVar 0 (TPtr (TInt IChar)))) (ELv (LVar 5 (TInt I32))))) ENil))
           (SSet (LVar 7 (TInt I32)) (ECst I32 65))
           SSkip)
          (SSeq (SInit (TInt I32) (EBin Mod (EBin Sub (EBin Add (EBin Sub (ECast (TInt I8) (ELv (LIndex (ELv (LVar 0 (TPtr (TInt IChar)))) (ELv (LVar 5 (TInt I32)))))) (ELv (LVar 7 (TInt I32)))) (ECast (TInt I8) (ELv (LIndex (ELv (LVar 1 (TPtr (TInt IChar)))) (ELv (LVar 5 (TInt I32))))))) (ELv (LVar 6 (TInt I8)))) (ECst I32 26)))
          (SSeq (SInit (TInt I32) (EBin Add (ELv (LVar 8 (TInt I32))) (ELv (LVar 7 (TInt I32)))))
          (SSet (LIndex (ELv (LVar 0 (TPtr (TInt IChar)))) (ELv (LVar 5 (TInt I32)))) (ECast (TInt IChar) (ELv (LVar 9 (TInt I32))))))))))))
         SSkip))))
     (SSet (LVar 3 (TInt IBool)) (ECst I32 1)))
     SSkip)
    (SReturn (ELv (LVar 3 (TInt IBool))))))).

(** crypto/vernam_cipher.c:72-97; parameters: msg, key, key_length. *)
Definition c32_VernamCipher_decrypt : fundef :=
  FDef [TPtr (TInt IChar); TPtr (TInt IChar); TInt I32] (TInt IBool)
    (SSeq (SInit (TInt IBool) (ECst I32 0))
    (SSeq (SInit (TInt U32) (ECast (TInt U32) (ELib LStrlen (ECons (ELv (LVar 0 (TPtr (TInt IChar)))) ENil))))
    (SSeq (SIf (EBin Eq (ECast (TInt I32) (ELv (LVar 4 (TInt U32)))) (ELv (LVar 2 (TInt I32))))
     (SSeq (SBlock false (SSeq (SInit (TInt I32) (ECst I32 0))
      (SLoop (EBin Lt (ELv (LVar 5 (TInt I32))) (ELv (LVar 2 (TInt I32)))) (SExpr (EInc true 1 (LVar 5 (TInt I32))))
       (SIf (ECall c_Utils_isAlpha (ECons (ELv (LIndex (ELv (LVar 0 (TPtr (TInt IChar)))) (ELv (LVar 5 (TInt I32))))) ENil))
         (SBlock false
          (SSeq (SInit (TInt I8) (ECst I32 65))
          (SSeq (SIf (ECall c_Utils_isLowerChar (ECons (ELv (LIndex (ELv (LVar 1 (TPtr (TInt IChar)))) (ELv (LVar 5 (TInt I32))))) ENil))
           (SSet (LVar 6 (TInt I8)) (ECst I32 97))
           SSkip)
          (SSeq (SInit (TInt I32) (ECst I32 97))
          (SSeq (SIf (ECall c_Utils_isUpperChar (ECons (ELv (LIndex (ELv (LVar 0 (TPtr (TInt IChar)))) (ELv (LVar 5 (TInt I32))))) ENil))
           (SSet (LVar 7 (TInt I32)) (ECst I32 65))
           SSkip)
          (SSeq (SInit (TInt I32) (EBin Sub (EBin Sub (ELv (LIndex (ELv (LVar 0 (TPtr (TInt IChar)))) (ELv (LVar 5 (TInt I32))))) (ELv (LVar 7 (TInt I32)))) (EBin Sub (ELv (LIndex (ELv (LVar 1 (TPtr (TInt IChar)))) (ELv (LVar 5 (TInt I32))))) (ELv (LVar 6 (TInt I8))))))
          (SSeq (SSet (LVar 8 (TInt I32)) (ECond (EBin Lt (ELv (LVar 8 (TInt I32))) (ECst I32 0)) (EBin Add (EBin Add (ELv (LVar 8 (TInt I32))) (ECst I32 26)) (ELv (LVar 7 (TInt I32)))) (EBin Add (ELv (LVar 8 (TInt I32))) (ELv (LVar 7 (TInt I32))))))
          (SSet (LIndex (ELv (LVar 0 (TPtr (TInt IChar)))) (ELv (LVar 5 (TInt I32)))) (ECast (TInt IChar) (ELv (LVar 8 (TInt I32))))))))))))
         SSkip))))
     (SSet (LVar 3 (TInt IBool)) (ECst I32 1)))
     SSkip)
    (SReturn (ELv (LVar 3 (TInt IBool))))))).

(** json.c:41-52; parameters: buffer, buffer_size. *)
Definition c32_Json_startString : fundef :=
  FDef [TPtr (TInt IChar); TInt U32] (TInt IBool)
    (SSeq (SInit (TInt IBool) (ECst I32 0))
    (SSeq (SIf (EBin Ge (ELv (LVar 1 (TInt U32))) (ECst U32 2))
     (SSeq (SExpr (ELib LStrcpy (ECons (EAddr (LIndex (ELv (LVar 0 (TPtr (TInt IChar)))) (ECst I32 0))) (ECons (EData IChar [123; 0]) ENil))))
     (SSet (LVar 2 (TInt IBool)) (ECst I32 1)))
     SSkip)
    (SReturn (ELv (LVar 2 (TInt IBool)))))).

(** json.c:54-89; parameters: buffer, buffer_size, key, value. *)
Definition c32_Json_addData : fundef :=
  FDef [TPtr (TInt IChar); TInt U32; TPtr (TInt IChar); TPtr (TInt IChar)] (TInt IBool)
    (SSeq (SInit (TInt IBool) (ECst I32 0))
    (SSeq (SInit (TInt U32) (ECast (TInt U32) (ELib LStrlen (ECons (ELv (LVar 0 (TPtr (TInt IChar)))) ENil))))
    (SSeq (SInit (TInt U32) (EBin Add (EBin Add (EBin Add (ECast (TInt U32) (ELib LStrlen (ECons (EData IChar [34; 34; 58; 34; 34; 0]) ENil))) (ECast (TInt U32) (ELib LStrlen (ECons (ELv (LVar 2 (TPtr (TInt IChar)))) ENil)))) (ECast (TInt U32) (ELib LStrlen (ECons (ELv (LVar 3 (TPtr (TInt IChar)))) ENil)))) (ECst U32 1)))
    (SSeq (SIf (EBin Eq (ECst I32 0) (ELib LStrcmp (ECons (EAddr (LIndex (ELv (LVar 0 (TPtr (TInt IChar)))) (EBin Sub (ELv (LVar 5 (TInt U32))) (ECst U32 1)))) (ECons (EData IChar [34; 0]) ENil))))
     (SSeq (SExpr (ELib LStrcpy (ECons (EAddr (LIndex (ELv (LVar 0 (TPtr (TInt IChar)))) (ELv (LVar 5 (TInt U32))))) (ECons (EData IChar [44; 0]) ENil))))
     (SExpr (EInc true 1 (LVar 5 (TInt U32)))))
     SSkip)
    (SSeq (SIf (EBin Le (EBin Add (ELv (LVar 6 (TInt U32))) (ELv (LVar 5 (TInt U32)))) (ELv (LVar 1 (TInt U32))))
     (SSeq (SExpr (ELib LStrcpy (ECons (EAddr (LIndex (ELv (LVar 0 (TPtr (TInt IChar)))) (ELv (LVar 5 (TInt U32))))) (ECons (EData IChar [34; 0]) ENil))))
     (SSeq (SOp Add (LVar 5 (TInt U32)) (ECast (TInt U32) (ELib LStrlen (ECons (EData IChar [34; 0]) ENil))))
     (SSeq (SExpr (ELib LStrcpy (ECons (EAddr (LIndex (ELv (LVar 0 (TPtr (TInt IChar)))) (ELv (LVar 5 (TInt U32))))) (ECons (ELv (LVar 2 (TPtr (TInt IChar)))) ENil))))
     (SSeq (SOp Add (LVar 5 (TInt U32)) (ECast (TInt U32) (ELib LStrlen (ECons (ELv (LVar 2 (TPtr (TInt IChar)))) ENil))))
     (SSeq (SExpr (ELib LStrcpy (ECons (EAddr (LIndex (ELv (LVar 0 (TPtr (TInt IChar)))) (ELv (LVar 5 (TInt U32))))) (ECons (EData IChar [34; 58; 34; 0]) ENil))))
     (SSeq (SOp Add (LVar 5 (TInt U32)) (ECast (TInt U32) (ELib LStrlen (ECons (EData IChar [34; 58; 34; 0]) ENil))))
     (SSeq (SExpr (ELib LStrcpy (ECons (EAddr (LIndex (ELv (LVar 0 (TPtr (TInt IChar)))) (ELv (LVar 5 (TInt U32))))) (ECons (ELv (LVar 3 (TPtr (TInt IChar)))) ENil))))
     (SSeq (SOp Add (LVar 5 (TInt U32)) (ECast (TInt U32) (ELib LStrlen (ECons (ELv (LVar 3 (TPtr (TInt IChar)))) ENil))))
     (SSeq (SExpr (ELib LStrcpy (ECons (EAddr (LIndex (ELv (LVar 0 (TPtr (TInt IChar)))) (ELv (LVar 5 (TInt U32))))) (ECons (EData IChar [34; 0]) ENil))))
     (SSet (LVar 4 (TInt IBool)) (ECst I32 1)))))))))))
     SSkip)
    (SReturn (ELv (LVar 4 (TInt IBool))))))))).

(** json.c:91-103; parameters: buffer, buffer_size. *)
Definition c32_Json_endString : fundef :=
  FDef [TPtr (TInt IChar); TInt U32] (TInt IBool)
    (SSeq (SInit (TInt IBool) (ECst I32 0))
    (SSeq (SInit (TInt U32) (ECast (TInt U32) (ELib LStrlen (ECons (ELv (LVar 0 (TPtr (TInt IChar)))) ENil))))
    (SSeq (SIf (EBin Ge (ELv (LVar 1 (TInt U32))) (EBin Add (ECst U32 2) (ELv (LVar 3 (TInt U32)))))
     (SSeq (SExpr (ELib LStrcpy (ECons (EAddr (LIndex (ELv (LVar 0 (TPtr (TInt IChar)))) (ELv (LVar 3 (TInt U32))))) (ECons (EData IChar [125; 0]) ENil))))
     (SSet (LVar 2 (TInt IBool)) (ECst I32 1)))
     SSkip)
    (SReturn (ELv (LVar 2 (TInt IBool))))))).

(** json.c:105-159; parameters: buffer, buffer_size, key, value, max_value_size. *)
Definition c32_Json_findByKey : fundef :=
  FDef [TPtr (TInt IChar); TInt U32; TPtr (TInt IChar); TPtr (TInt IChar); TInt U32] (TInt IBool)
    (SSeq (SInit (TInt IBool) (ECst I32 0))
    (SSeq (SInit (TInt U32) (ECast (TInt U32) (ELib LStrlen (ECons (ELv (LVar 2 (TPtr (TInt IChar)))) ENil))))
    (SSeq (SInit (TInt U32) (ECst U32 0))
    (SSeq (SVar (TInt U32))
    (SSeq (SIf (EBin Gt (ELv (LVar 1 (TInt U32))) (ELv (LVar 6 (TInt U32))))
     (SSet (LVar 7 (TInt U32)) (ECast (TInt U32) (EBin Sub (ELv (LVar 1 (TInt U32))) (ELv (LVar 6 (TInt U32))))))
     SSkip)
    (SSeq (SSeq (SSet (LVar 8 (TInt U32)) (ECst U32 0))
    (SLoop (EBin Lt (ELv (LVar 8 (TInt U32))) (ELv (LVar 7 (TInt U32)))) (SExpr (EInc true 1 (LVar 8 (TInt U32))))
     (SIf (EBin Eq (ECst I32 0) (ELib LStrncmp (ECons (EAddr (LIndex (ELv (LVar 0 (TPtr (TInt IChar)))) (ELv (LVar 8 (TInt U32))))) (ECons (ELv (LVar 2 (TPtr (TInt IChar)))) (ECons (ELv (LVar 6 (TInt U32))) ENil)))))
       (SSeq (SIf (EBin Eq (ELv (LIndex (ELv (LVar 0 (TPtr (TInt IChar)))) (EBin Add (ELv (LVar 8 (TInt U32))) (ELv (LVar 6 (TInt U32)))))) (ECst I32 34))
         (SSet (LVar 5 (TInt IBool)) (ECst I32 1))
         SSkip)
       SBreak)
       SSkip)))
    (SSeq (SIf (ELv (LVar 5 (TInt IBool)))
     (SBlock false
      (SSeq (SSet (LVar 5 (TInt IBool)) (ECst I32 0))
      (SSeq (SSeq (SOp Add (LVar 8 (TInt U32)) (ECast (TInt U32) (EBin Add (ELv (LVar 6 (TInt U32))) (ECst U32 1))))
      (SLoop (EBin Lt (ELv (LVar 8 (TInt U32))) (ELv (LVar 1 (TInt U32)))) (SExpr (EInc true 1 (LVar 8 (TInt U32))))
       (SIf (EBin Eq (ELv (LIndex (ELv (LVar 0 (TPtr (TInt IChar)))) (ELv (LVar 8 (TInt U32))))) (ECst I32 34))
         SBreak
         SSkip)))
      (SSeq (SInit (TInt U32) (ECst I32 0))
      (SSeq (SExpr (EInc true 1 (LVar 8 (TInt U32))))
      (SLoop (EAnd (EBin Lt (ELv (LVar 8 (TInt U32))) (ELv (LVar 1 (TInt U32)))) (EBin Lt (ELv (LVar 9 (TInt U32))) (ELv (LVar 4 (TInt U32))))) SSkip
       (SSeq (SSet (LIndex (ELv (LVar 3 (TPtr (TInt IChar)))) (ELv (LVar 9 (TInt U32)))) (ELv (LIndex (ELv (LVar 0 (TPtr (TInt IChar)))) (ELv (LVar 8 (TInt U32))))))
       (SSeq (SIf (EBin Eq (ELv (LIndex (ELv (LVar 0 (TPtr (TInt IChar)))) (ELv (LVar 8 (TInt U32))))) (ECst I32 34))
         (SSeq (SSet (LIndex (ELv (LVar 3 (TPtr (TInt IChar)))) (ELv (LVar 9 (TInt U32)))) (ECst I32 0))
         (SSeq (SSet (LVar 5 (TInt IBool)) (ECst I32 1))
         SBreak))
         SSkip)
       (SSeq (SExpr (EInc true 1 (LVar 9 (TInt U32))))
       (SExpr (EInc true 1 (LVar 8 (TInt U32)))))))))))))
     SSkip)
    (SReturn (ELv (LVar 5 (TInt IBool))))))))))).

(** sort/insertion_sort.c:39-70; parameters: max_element, buffer, number_of_elements, element_size, compareFun.
    The static array [max_element] is an object of its own, passed as the first argument. *)
Definition c32_InsertionSort_sort : fundef :=
  FDef [TPtr (TInt U8); TPtr (TInt U8); TInt I32; TInt I32; TPtr TFun] TVoid
    (SSeq (SInit (TPtr (TInt U8)) (ELv (LVar 1 (TPtr (TInt U8)))))
    (SSeq (SInit (TPtr (TInt U8)) (EAddr (LIndex (ELv (LVar 0 (TPtr (TInt U8)))) (ECst I32 0))))
    (SBlock false (SSeq (SInit (TInt I32) (ECst I32 1))
    (SLoop (EBin Lt (ELv (LVar 7 (TInt I32))) (ELv (LVar 2 (TInt I32)))) (SExpr (EInc true 1 (LVar 7 (TInt I32))))
     (SBlock false
      (SSeq (SExpr (ELib LMemcpy (ECons (ELv (LVar 6 (TPtr (TInt U8)))) (ECons (EAddr (LIndex (ELv (LVar 5 (TPtr (TInt U8)))) (EBin Mul (ELv (LVar 7 (TInt I32))) (ELv (LVar 3 (TInt I32)))))) (ECons (ECast (TInt U32) (ELv (LVar 3 (TInt I32)))) ENil)))))
      (SSeq (SInit (TInt I32) (EBin Sub (ELv (LVar 7 (TInt I32))) (ECst I32 1)))
      (SSeq (SInit (TInt IBool) (ECallPtr (ELv (LVar 4 (TPtr TFun))) (ECons (EAddr (LIndex (ELv (LVar 5 (TPtr (TInt U8)))) (EBin Mul (ELv (LVar 8 (TInt I32))) (ELv (LVar 3 (TInt I32)))))) (ECons (ELv (LVar 6 (TPtr (TInt U8)))) ENil))))
      (SSeq (SLoop (EAnd (EBin Ge (ELv (LVar 8 (TInt I32))) (ECst I32 0)) (ELv (LVar 9 (TInt IBool)))) SSkip
       (SSeq (SExpr (ELib LMemcpy (ECons (EAddr (LIndex (ELv (LVar 5 (TPtr (TInt U8)))) (EBin Mul (EBin Add (ELv (LVar 8 (TInt I32))) (ECst I32 1)) (ELv (LVar 3 (TInt I32)))))) (ECons (EAddr (LIndex (ELv (LVar 5 (TPtr (TInt U8)))) (EBin Mul (ELv (LVar 8 (TInt I32))) (ELv (LVar 3 (TInt I32)))))) (ECons (ECast (TInt U32) (ELv (LVar 3 (TInt I32)))) ENil)))))
       (SSeq (SExpr (EInc true (-1) (LVar 8 (TInt I32))))
       (SSet (LVar 9 (TInt IBool)) (ECallPtr (ELv (LVar 4 (TPtr TFun))) (ECons (EAddr (LIndex (ELv (LVar 5 (TPtr (TInt U8)))) (EBin Mul (ELv (LVar 8 (TInt I32))) (ELv (LVar 3 (TInt I32)))))) (ECons (ELv (LVar 6 (TPtr (TInt U8)))) ENil)))))))
      (SExpr (ELib LMemcpy (ECons (EAddr (LIndex (ELv (LVar 5 (TPtr (TInt U8)))) (EBin Mul (EBin Add (ELv (LVar 8 (TInt I32))) (ECst I32 1)) (ELv (LVar 3 (TInt I32)))))) (ECons (ELv (LVar 6 (TPtr (TInt U8)))) (ECons (ECast (TInt U32) (ELv (LVar 3 (TInt I32)))) ENil))))))))))))))).
