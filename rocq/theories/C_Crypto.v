(** * The text of [/repo/Src/crypto/caesar_cipher.c], [/repo/Src/crypto/vernam_cipher.c], [/repo/Src/crypto/chacha20.c] as terms of [CLang]

    Generated by [/verif/tools/c2coq.py] from the C text; not edited by hand. *)
From Verif Require Import CSem CLang C_Utils.


(** crypto/caesar_cipher.c:45-58; parameters: msg, shift. *)
Definition c_CaesarCipher_encrypt : fundef :=
  FDef [TPtr (TInt IChar); TInt U8] TVoid
    (SSeq (SInit (TInt U64) (ELib LStrlen (ECons (ELv (LVar 0 (TPtr (TInt IChar)))) ENil)))
    (SBlock false (SSeq (SInit (TInt U64) (ECst U32 0))
    (SLoop (EBin Lt (ELv (LVar 3 (TInt U64))) (ELv (LVar 2 (TInt U64)))) (SExpr (EInc true 1 (LVar 3 (TInt U64))))
     (SIf (ECall c_Utils_isAlpha (ECons (ELv (LIndex (ELv (LVar 0 (TPtr (TInt IChar)))) (ELv (LVar 3 (TInt U64))))) ENil))
       (SBlock false
        (SSeq (SInit (TInt U8) (ECst U32 97))
        (SSeq (SIf (ECall c_Utils_isUpperChar (ECons (ELv (LIndex (ELv (LVar 0 (TPtr (TInt IChar)))) (ELv (LVar 3 (TInt U64))))) ENil))
         (SSet (LVar 4 (TInt U8)) (ECst U32 65))
         SSkip)
        (SSeq (SInit (TInt U8) (EBin Add (EBin Mod (EBin Sub (EBin Add (ECast (TInt U8) (ELv (LIndex (ELv (LVar 0 (TPtr (TInt IChar)))) (ELv (LVar 3 (TInt U64)))))) (ELv (LVar 1 (TInt U8)))) (ELv (LVar 4 (TInt U8)))) (ECst U32 26)) (ELv (LVar 4 (TInt U8)))))
        (SSet (LIndex (ELv (LVar 0 (TPtr (TInt IChar)))) (ELv (LVar 3 (TInt U64)))) (ECast (TInt IChar) (ELv (LVar 5 (TInt U8)))))))))
       SSkip))))).

(** crypto/caesar_cipher.c:60-73; parameters: msg, shift. *)
Definition c_CaesarCipher_decrypt : fundef :=
  FDef [TPtr (TInt IChar); TInt U8] TVoid
    (SSeq (SInit (TInt U64) (ELib LStrlen (ECons (ELv (LVar 0 (TPtr (TInt IChar)))) ENil)))
    (SBlock false (SSeq (SInit (TInt U64) (ECst U32 0))
    (SLoop (EBin Lt (ELv (LVar 3 (TInt U64))) (ELv (LVar 2 (TInt U64)))) (SExpr (EInc true 1 (LVar 3 (TInt U64))))
     (SIf (ECall c_Utils_isAlpha (ECons (ELv (LIndex (ELv (LVar 0 (TPtr (TInt IChar)))) (ELv (LVar 3 (TInt U64))))) ENil))
       (SBlock false
        (SSeq (SInit (TInt U8) (ECst U32 97))
        (SSeq (SIf (ECall c_Utils_isUpperChar (ECons (ELv (LIndex (ELv (LVar 0 (TPtr (TInt IChar)))) (ELv (LVar 3 (TInt U64))))) ENil))
         (SSet (LVar 4 (TInt U8)) (ECst U32 65))
         SSkip)
        (SSeq (SInit (TInt U8) (EBin Add (EBin Mod (EBin Sub (EBin Sub (ECast (TInt U8) (ELv (LIndex (ELv (LVar 0 (TPtr (TInt IChar)))) (ELv (LVar 3 (TInt U64)))))) (ELv (LVar 1 (TInt U8)))) (ELv (LVar 4 (TInt U8)))) (ECst U32 26)) (ELv (LVar 4 (TInt U8)))))
        (SSet (LIndex (ELv (LVar 0 (TPtr (TInt IChar)))) (ELv (LVar 3 (TInt U64)))) (ECast (TInt IChar) (ELv (LVar 5 (TInt U8)))))))))
       SSkip))))).

(** crypto/vernam_cipher.c:45-70; parameters: msg, key, key_length. *)
Definition c_VernamCipher_encrypt : fundef :=
  FDef [TPtr (TInt IChar); TPtr (TInt IChar); TInt I32] (TInt IBool)
    (SSeq (SInit (TInt IBool) (ECst I32 0))
    (SSeq (SInit (TInt U64) (ELib LStrlen (ECons (ELv (LVar 0 (TPtr (TInt IChar)))) ENil)))
    (SSeq (SIf (EBin Eq (ECast (TInt I32) (ELv (LVar 4 (TInt U64)))) (ELv (LVar 2 (TInt I32))))
     (SSeq (SBlock false (SSeq (SInit (TInt I32) (ECst I32 0))
      (SLoop (EBin Lt (ELv (LVar 5 (TInt I32))) (ELv (LVar 2 (TInt I32)))) (SExpr (EInc true 1 (LVar 5 (TInt I32))))
       (SIf (ECall c_Utils_isAlpha (ECons (ELv (LIndex (ELv (LVar 0 (TPtr (TInt IChar)))) (ELv (LVar 5 (TInt I32))))) ENil))
         (SBlock false
          (SSeq (SInit (TInt I8) (ECst I32 65))
          (SSeq (SIf (ECall c_Utils_isLowerChar (ECons (ELv (LIndex (ELv (LVar 1 (TPtr (TInt IChar)))) (ELv (LVar 5 (TInt I32))))) ENil))
           (SSet (LVar 6 (TInt I8)) (ECst I32 97))
           SSkip)
          (SSeq (SInit (TInt I32) (ECst I32 97))
          (SSeq (SIf (ECall c_Utils_isUpperChar (ECons (ELv (LIndex (ELv (LVar 0 (TPtr (TInt IChar)))) (ELv (LVar 5 (TInt I32))))) ENil))
           (SSet (LVar 7 (TInt I32)) (ECst I32 65))
           SSkip)
          (SSeq (SInit (TInt I32) (EBin Mod (EBin Sub (EBin Add (EBin Sub (ECast (TInt I8) (ELv (LIndex (ELv (LVar 0 (TPtr (TInt IChar)))) (ELv (LVar 5 (TInt I32)))))) (ELv (LVar 7 (TInt I32)))) (ECast (TInt I8) (ELv (LIndex (ELv (LVar 1 (TPtr (TInt IChar)))) (ELv (LVar 5 (TInt I32))))))) (ELv (LVar 6 (TInt I8)))) (ECst I32 26)))
          (SSeq (SInit (TInt I32) (EBin Add (ELv (LVar 8 (TInt I32))) (ELv (LVar 7 (TInt I32)))))
          (SSet (LIndex (ELv (LVar 0 (TPtr (TInt IChar)))) (ELv (LVar 5 (TInt I32)))) (ECast (TInt IChar) (ELv (LVar 9 (TInt I32))))))))))))
         SSkip))))
     (SSet (LVar 3 (TInt IBool)) (ECst I32 1)))
     SSkip)
    (SReturn (ELv (LVar 3 (TInt IBool))))))).

(** crypto/vernam_cipher.c:72-97; parameters: msg, key, key_length. *)
Definition c_VernamCipher_decrypt : fundef :=
  FDef [TPtr (TInt IChar); TPtr (TInt IChar); TInt I32] (TInt IBool)
    (SSeq (SInit (TInt IBool) (ECst I32 0))
    (SSeq (SInit (TInt U64) (ELib LStrlen (ECons (ELv (LVar 0 (TPtr (TInt IChar)))) ENil)))
    (SSeq (SIf (EBin Eq (ECast (TInt I32) (ELv (LVar 4 (TInt U64)))) (ELv (LVar 2 (TInt I32))))
     (SSeq (SBlock false (SSeq (SInit (TInt I32) (ECst I32 0))
      (SLoop (EBin Lt (ELv (LVar 5 (TInt I32))) (ELv (LVar 2 (TInt I32)))) (SExpr (EInc true 1 (LVar 5 (TInt I32))))
       (SIf (ECall c_Utils_isAlpha (ECons (ELv (LIndex (ELv (LVar 0 (TPtr (TInt IChar)))) (ELv (LVar 5 (TInt I32))))) ENil))
         (SBlock false
          (SSeq (SInit (TInt I8) (ECst I32 65))
          (SSeq (SIf (ECall c_Utils_isLowerChar (ECons (ELv (LIndex (ELv (LVar 1 (TPtr (TInt IChar)))) (ELv (LVar 5 (TInt I32))))) ENil))
           (SSet (LVar 6 (TInt I8)) (ECst I32 97))
           SSkip)
          (SSeq (SInit (TInt I32) (ECst I32 97))
          (SSeq (SIf (ECall c_Utils_isUpperChar (ECons (ELv (LIndex (ELv (LVar 0 (TPtr (TInt IChar)))) (ELv (LVar 5 (TInt I32))))) ENil))
           (SSet (LVar 7 (TInt I32)) (ECst I32 65))
           SSkip)
          (SSeq (SInit (TInt I32) (EBin Sub (EBin Sub (ELv (LIndex (ELv (LVar 0 (TPtr (TInt IChar)))) (ELv (LVar 5 (TInt I32))))) (ELv (LVar 7 (TInt I32)))) (EBin Sub (ELv (LIndex (ELv (LVar 1 (TPtr (TInt IChar)))) (ELv (LVar 5 (TInt I32))))) (ELv (LVar 6 (TInt I8))))))
          (SSeq (SSet (LVar 8 (TInt I32)) (ECond (EBin Lt (ELv (LVar 8 (TInt I32))) (ECst I32 0)) (EBin Add (EBin Add (ELv (LVar 8 (TInt I32))) (ECst I32 26)) (ELv (LVar 7 (TInt I32)))) (EBin Add (ELv (LVar 8 (TInt I32))) (ELv (LVar 7 (TInt I32))))))
          (SSet (LIndex (ELv (LVar 0 (TPtr (TInt IChar)))) (ELv (LVar 5 (TInt I32)))) (ECast (TInt IChar) (ELv (LVar 8 (TInt I32))))))))))))
         SSkip))))
     (SSet (LVar 3 (TInt IBool)) (ECst I32 1)))
     SSkip)
    (SReturn (ELv (LVar 3 (TInt IBool))))))).

(** crypto/chacha20.c:64-74; parameters: a, b, c, d. *)
Definition c_QuarterRound : fundef :=
  FDef [TPtr (TInt U32); TPtr (TInt U32); TPtr (TInt U32); TPtr (TInt U32)] TVoid
    (SSeq (SOp Add (LDeref (ELv (LVar 0 (TPtr (TInt U32))))) (ELv (LDeref (ELv (LVar 1 (TPtr (TInt U32)))))))
    (SSeq (SSet (LDeref (ELv (LVar 3 (TPtr (TInt U32))))) (ECall c_BitManipulation_rotl32 (ECons (EBin Xor (ELv (LDeref (ELv (LVar 3 (TPtr (TInt U32)))))) (ELv (LDeref (ELv (LVar 0 (TPtr (TInt U32))))))) (ECons (ECst I32 16) ENil))))
    (SSeq (SOp Add (LDeref (ELv (LVar 2 (TPtr (TInt U32))))) (ELv (LDeref (ELv (LVar 3 (TPtr (TInt U32)))))))
    (SSeq (SSet (LDeref (ELv (LVar 1 (TPtr (TInt U32))))) (ECall c_BitManipulation_rotl32 (ECons (EBin Xor (ELv (LDeref (ELv (LVar 1 (TPtr (TInt U32)))))) (ELv (LDeref (ELv (LVar 2 (TPtr (TInt U32))))))) (ECons (ECst I32 12) ENil))))
    (SSeq (SOp Add (LDeref (ELv (LVar 0 (TPtr (TInt U32))))) (ELv (LDeref (ELv (LVar 1 (TPtr (TInt U32)))))))
    (SSeq (SSet (LDeref (ELv (LVar 3 (TPtr (TInt U32))))) (ECall c_BitManipulation_rotl32 (ECons (EBin Xor (ELv (LDeref (ELv (LVar 3 (TPtr (TInt U32)))))) (ELv (LDeref (ELv (LVar 0 (TPtr (TInt U32))))))) (ECons (ECst I32 8) ENil))))
    (SSeq (SOp Add (LDeref (ELv (LVar 2 (TPtr (TInt U32))))) (ELv (LDeref (ELv (LVar 3 (TPtr (TInt U32)))))))
    (SSet (LDeref (ELv (LVar 1 (TPtr (TInt U32))))) (ECall c_BitManipulation_rotl32 (ECons (EBin Xor (ELv (LDeref (ELv (LVar 1 (TPtr (TInt U32)))))) (ELv (LDeref (ELv (LVar 2 (TPtr (TInt U32))))))) (ECons (ECst I32 7) ENil))))))))))).

(** crypto/chacha20.c:76-142; parameters: key, counter, nonce, out. *)
Definition c_Block : fundef :=
  FDef [TPtr (TInt U8); TInt U32; TPtr (TInt U8); TPtr (TInt U8)] TVoid
    (SBlock true
    (SSeq (SMem U32 (ECst U32 1634760805))
    (SSeq (SMem U32 (ECst U32 857760878))
    (SSeq (SMem U32 (ECst U32 2036477234))
    (SSeq (SMem U32 (ECst U32 1797285236))
    (SSeq (SMem U32 (ECall c_Utils_deserialize32LE (ECons (EAddr (LIndex (ELv (LVar 0 (TPtr (TInt U8)))) (ECst I32 0))) ENil)))
    (SSeq (SMem U32 (ECall c_Utils_deserialize32LE (ECons (EAddr (LIndex (ELv (LVar 0 (TPtr (TInt U8)))) (ECst I32 4))) ENil)))
    (SSeq (SMem U32 (ECall c_Utils_deserialize32LE (ECons (EAddr (LIndex (ELv (LVar 0 (TPtr (TInt U8)))) (ECst I32 8))) ENil)))
    (SSeq (SMem U32 (ECall c_Utils_deserialize32LE (ECons (EAddr (LIndex (ELv (LVar 0 (TPtr (TInt U8)))) (ECst I32 12))) ENil)))
    (SSeq (SMem U32 (ECall c_Utils_deserialize32LE (ECons (EAddr (LIndex (ELv (LVar 0 (TPtr (TInt U8)))) (ECst I32 16))) ENil)))
    (SSeq (SMem U32 (ECall c_Utils_deserialize32LE (ECons (EAddr (LIndex (ELv (LVar 0 (TPtr (TInt U8)))) (ECst I32 20))) ENil)))
    (SSeq (SMem U32 (ECall c_Utils_deserialize32LE (ECons (EAddr (LIndex (ELv (LVar 0 (TPtr (TInt U8)))) (ECst I32 24))) ENil)))
    (SSeq (SMem U32 (ECall c_Utils_deserialize32LE (ECons (EAddr (LIndex (ELv (LVar 0 (TPtr (TInt U8)))) (ECst I32 28))) ENil)))
    (SSeq (SMem U32 (ELv (LVar 1 (TInt U32))))
    (SSeq (SMem U32 (ECall c_Utils_deserialize32LE (ECons (EAddr (LIndex (ELv (LVar 2 (TPtr (TInt U8)))) (ECst I32 0))) ENil)))
    (SSeq (SMem U32 (ECall c_Utils_deserialize32LE (ECons (EAddr (LIndex (ELv (LVar 2 (TPtr (TInt U8)))) (ECst I32 4))) ENil)))
    (SSeq (SMem U32 (ECall c_Utils_deserialize32LE (ECons (EAddr (LIndex (ELv (LVar 2 (TPtr (TInt U8)))) (ECst I32 8))) ENil)))
    (SSeq (SBlock false (SSeq (SInit (TInt U8) (ECst U32 0))
    (SLoop (EBin Lt (ELv (LVar 20 (TInt U8))) (ECst U32 10)) (SExpr (EInc true 1 (LVar 20 (TInt U8))))
     (SSeq (SExpr (ECall c_QuarterRound (ECons (ELv (LVar 4 (TPtr (TInt U32)))) (ECons (ELv (LVar 8 (TPtr (TInt U32)))) (ECons (ELv (LVar 12 (TPtr (TInt U32)))) (ECons (ELv (LVar 16 (TPtr (TInt U32)))) ENil))))))
     (SSeq (SExpr (ECall c_QuarterRound (ECons (ELv (LVar 5 (TPtr (TInt U32)))) (ECons (ELv (LVar 9 (TPtr (TInt U32)))) (ECons (ELv (LVar 13 (TPtr (TInt U32)))) (ECons (ELv (LVar 17 (TPtr (TInt U32)))) ENil))))))
     (SSeq (SExpr (ECall c_QuarterRound (ECons (ELv (LVar 6 (TPtr (TInt U32)))) (ECons (ELv (LVar 10 (TPtr (TInt U32)))) (ECons (ELv (LVar 14 (TPtr (TInt U32)))) (ECons (ELv (LVar 18 (TPtr (TInt U32)))) ENil))))))
     (SSeq (SExpr (ECall c_QuarterRound (ECons (ELv (LVar 7 (TPtr (TInt U32)))) (ECons (ELv (LVar 11 (TPtr (TInt U32)))) (ECons (ELv (LVar 15 (TPtr (TInt U32)))) (ECons (ELv (LVar 19 (TPtr (TInt U32)))) ENil))))))
     (SSeq (SExpr (ECall c_QuarterRound (ECons (ELv (LVar 4 (TPtr (TInt U32)))) (ECons (ELv (LVar 9 (TPtr (TInt U32)))) (ECons (ELv (LVar 14 (TPtr (TInt U32)))) (ECons (ELv (LVar 19 (TPtr (TInt U32)))) ENil))))))
     (SSeq (SExpr (ECall c_QuarterRound (ECons (ELv (LVar 5 (TPtr (TInt U32)))) (ECons (ELv (LVar 10 (TPtr (TInt U32)))) (ECons (ELv (LVar 15 (TPtr (TInt U32)))) (ECons (ELv (LVar 16 (TPtr (TInt U32)))) ENil))))))
     (SSeq (SExpr (ECall c_QuarterRound (ECons (ELv (LVar 6 (TPtr (TInt U32)))) (ECons (ELv (LVar 11 (TPtr (TInt U32)))) (ECons (ELv (LVar 12 (TPtr (TInt U32)))) (ECons (ELv (LVar 17 (TPtr (TInt U32)))) ENil))))))
     (SExpr (ECall c_QuarterRound (ECons (ELv (LVar 7 (TPtr (TInt U32)))) (ECons (ELv (LVar 8 (TPtr (TInt U32)))) (ECons (ELv (LVar 13 (TPtr (TInt U32)))) (ECons (ELv (LVar 18 (TPtr (TInt U32)))) ENil))))))))))))))))
    (SSeq (SOp Add (LDeref (ELv (LVar 4 (TPtr (TInt U32))))) (ECst U32 1634760805))
    (SSeq (SOp Add (LDeref (ELv (LVar 5 (TPtr (TInt U32))))) (ECst U32 857760878))
    (SSeq (SOp Add (LDeref (ELv (LVar 6 (TPtr (TInt U32))))) (ECst U32 2036477234))
    (SSeq (SOp Add (LDeref (ELv (LVar 7 (TPtr (TInt U32))))) (ECst U32 1797285236))
    (SSeq (SOp Add (LDeref (ELv (LVar 8 (TPtr (TInt U32))))) (ECall c_Utils_deserialize32LE (ECons (EAddr (LIndex (ELv (LVar 0 (TPtr (TInt U8)))) (ECst I32 0))) ENil)))
    (SSeq (SOp Add (LDeref (ELv (LVar 9 (TPtr (TInt U32))))) (ECall c_Utils_deserialize32LE (ECons (EAddr (LIndex (ELv (LVar 0 (TPtr (TInt U8)))) (ECst I32 4))) ENil)))
    (SSeq (SOp Add (LDeref (ELv (LVar 10 (TPtr (TInt U32))))) (ECall c_Utils_deserialize32LE (ECons (EAddr (LIndex (ELv (LVar 0 (TPtr (TInt U8)))) (ECst I32 8))) ENil)))
    (SSeq (SOp Add (LDeref (ELv (LVar 11 (TPtr (TInt U32))))) (ECall c_Utils_deserialize32LE (ECons (EAddr (LIndex (ELv (LVar 0 (TPtr (TInt U8)))) (ECst I32 12))) ENil)))
    (SSeq (SOp Add (LDeref (ELv (LVar 12 (TPtr (TInt U32))))) (ECall c_Utils_deserialize32LE (ECons (EAddr (LIndex (ELv (LVar 0 (TPtr (TInt U8)))) (ECst I32 16))) ENil)))
    (SSeq (SOp Add (LDeref (ELv (LVar 13 (TPtr (TInt U32))))) (ECall c_Utils_deserialize32LE (ECons (EAddr (LIndex (ELv (LVar 0 (TPtr (TInt U8)))) (ECst I32 20))) ENil)))
    (SSeq (SOp Add (LDeref (ELv (LVar 14 (TPtr (TInt U32))))) (ECall c_Utils_deserialize32LE (ECons (EAddr (LIndex (ELv (LVar 0 (TPtr (TInt U8)))) (ECst I32 24))) ENil)))
    (SSeq (SOp Add (LDeref (ELv (LVar 15 (TPtr (TInt U32))))) (ECall c_Utils_deserialize32LE (ECons (EAddr (LIndex (ELv (LVar 0 (TPtr (TInt U8)))) (ECst I32 28))) ENil)))
    (SSeq (SOp Add (LDeref (ELv (LVar 16 (TPtr (TInt U32))))) (ELv (LVar 1 (TInt U32))))
    (SSeq (SOp Add (LDeref (ELv (LVar 17 (TPtr (TInt U32))))) (ECall c_Utils_deserialize32LE (ECons (EAddr (LIndex (ELv (LVar 2 (TPtr (TInt U8)))) (ECst I32 0))) ENil)))
    (SSeq (SOp Add (LDeref (ELv (LVar 18 (TPtr (TInt U32))))) (ECall c_Utils_deserialize32LE (ECons (EAddr (LIndex (ELv (LVar 2 (TPtr (TInt U8)))) (ECst I32 4))) ENil)))
    (SSeq (SOp Add (LDeref (ELv (LVar 19 (TPtr (TInt U32))))) (ECall c_Utils_deserialize32LE (ECons (EAddr (LIndex (ELv (LVar 2 (TPtr (TInt U8)))) (ECst I32 8))) ENil)))
    (SSeq (SExpr (ECall c_Utils_serialize32LE (ECons (EAddr (LIndex (ELv (LVar 3 (TPtr (TInt U8)))) (ECst I32 0))) (ECons (ELv (LDeref (ELv (LVar 4 (TPtr (TInt U32)))))) ENil))))
    (SSeq (SExpr (ECall c_Utils_serialize32LE (ECons (EAddr (LIndex (ELv (LVar 3 (TPtr (TInt U8)))) (ECst I32 4))) (ECons (ELv (LDeref (ELv (LVar 5 (TPtr (TInt U32)))))) ENil))))
    (SSeq (SExpr (ECall c_Utils_serialize32LE (ECons (EAddr (LIndex (ELv (LVar 3 (TPtr (TInt U8)))) (ECst I32 8))) (ECons (ELv (LDeref (ELv (LVar 6 (TPtr (TInt U32)))))) ENil))))
    (SSeq (SExpr (ECall c_Utils_serialize32LE (ECons (EAddr (LIndex (ELv (LVar 3 (TPtr (TInt U8)))) (ECst I32 12))) (ECons (ELv (LDeref (ELv (LVar 7 (TPtr (TInt U32)))))) ENil))))
    (SSeq (SExpr (ECall c_Utils_serialize32LE (ECons (EAddr (LIndex (ELv (LVar 3 (TPtr (TInt U8)))) (ECst I32 16))) (ECons (ELv (LDeref (ELv (LVar 8 (TPtr (TInt U32)))))) ENil))))
    (SSeq (SExpr (ECall c_Utils_serialize32LE (ECons (EAddr (LIndex (ELv (LVar 3 (TPtr (TInt U8)))) (ECst I32 20))) (ECons (ELv (LDeref (ELv (LVar 9 (TPtr (TInt U32)))))) ENil))))
    (SSeq (SExpr (ECall c_Utils_serialize32LE (ECons (EAddr (LIndex (ELv (LVar 3 (TPtr (TInt U8)))) (ECst I32 24))) (ECons (ELv (LDeref (ELv (LVar 10 (TPtr (TInt U32)))))) ENil))))
    (SSeq (SExpr (ECall c_Utils_serialize32LE (ECons (EAddr (LIndex (ELv (LVar 3 (TPtr (TInt U8)))) (ECst I32 28))) (ECons (ELv (LDeref (ELv (LVar 11 (TPtr (TInt U32)))))) ENil))))
    (SSeq (SExpr (ECall c_Utils_serialize32LE (ECons (EAddr (LIndex (ELv (LVar 3 (TPtr (TInt U8)))) (ECst I32 32))) (ECons (ELv (LDeref (ELv (LVar 12 (TPtr (TInt U32)))))) ENil))))
    (SSeq (SExpr (ECall c_Utils_serialize32LE (ECons (EAddr (LIndex (ELv (LVar 3 (TPtr (TInt U8)))) (ECst I32 36))) (ECons (ELv (LDeref (ELv (LVar 13 (TPtr (TInt U32)))))) ENil))))
    (SSeq (SExpr (ECall c_Utils_serialize32LE (ECons (EAddr (LIndex (ELv (LVar 3 (TPtr (TInt U8)))) (ECst I32 40))) (ECons (ELv (LDeref (ELv (LVar 14 (TPtr (TInt U32)))))) ENil))))
    (SSeq (SExpr (ECall c_Utils_serialize32LE (ECons (EAddr (LIndex (ELv (LVar 3 (TPtr (TInt U8)))) (ECst I32 44))) (ECons (ELv (LDeref (ELv (LVar 15 (TPtr (TInt U32)))))) ENil))))
    (SSeq (SExpr (ECall c_Utils_serialize32LE (ECons (EAddr (LIndex (ELv (LVar 3 (TPtr (TInt U8)))) (ECst I32 48))) (ECons (ELv (LDeref (ELv (LVar 16 (TPtr (TInt U32)))))) ENil))))
    (SSeq (SExpr (ECall c_Utils_serialize32LE (ECons (EAddr (LIndex (ELv (LVar 3 (TPtr (TInt U8)))) (ECst I32 52))) (ECons (ELv (LDeref (ELv (LVar 17 (TPtr (TInt U32)))))) ENil))))
    (SSeq (SExpr (ECall c_Utils_serialize32LE (ECons (EAddr (LIndex (ELv (LVar 3 (TPtr (TInt U8)))) (ECst I32 56))) (ECons (ELv (LDeref (ELv (LVar 18 (TPtr (TInt U32)))))) ENil))))
    (SExpr (ECall c_Utils_serialize32LE (ECons (EAddr (LIndex (ELv (LVar 3 (TPtr (TInt U8)))) (ECst I32 60))) (ECons (ELv (LDeref (ELv (LVar 19 (TPtr (TInt U32)))))) ENil))))))))))))))))))))))))))))))))))))))))))))))))))))).

(** crypto/chacha20.c:144-172; parameters: plaintext, plaintext_len, key, nonce, inc, result. *)
Definition c_Chacha20_crypt : fundef :=
  FDef [TPtr (TInt U8); TInt U32; TPtr (TInt U8); TPtr (TInt U8); TInt U32; TPtr (TInt U8)] TVoid
    (SSeq (SInit (TInt U32) (EBin Div (ELv (LVar 1 (TInt U32))) (ECst U32 64)))
    (SSeq (SInit (TInt U32) (EBin Mod (ELv (LVar 1 (TInt U32))) (ECst U32 64)))
    (SSeq (SBlock false (SSeq (SInit (TInt U32) (ECst I32 0))
    (SLoop (EBin Lt (ELv (LVar 8 (TInt U32))) (ELv (LVar 6 (TInt U32)))) (SExpr (EInc true 1 (LVar 8 (TInt U32))))
     (SBlock true
      (SSeq (SArr U8 [0; 0; 0; 0; 0; 0; 0; 0; 0; 0; 0; 0; 0; 0; 0; 0; 0; 0; 0; 0; 0; 0; 0; 0; 0; 0; 0; 0; 
       0; 0; 0; 0; 0; 0; 0; 0; 0; 0; 0; 0; 0; 0; 0; 0; 0; 0; 0; 0; 0; 0; 0; 0; 0; 0; 0; 0; 
       0; 0; 0; 0; 0; 0; 0; 0])
      (SSeq (SExpr (ECall c_Block (ECons (ELv (LVar 2 (TPtr (TInt U8)))) (ECons (EBin Add (ELv (LVar 8 (TInt U32))) (ELv (LVar 4 (TInt U32)))) (ECons (ELv (LVar 3 (TPtr (TInt U8)))) (ECons (ELv (LVar 9 (TPtr (TInt U8)))) ENil))))))
      (SBlock false (SSeq (SInit (TInt U8) (ECst I32 0))
      (SLoop (EBin Lt (ELv (LVar 10 (TInt U8))) (ECst U32 64)) (SExpr (EInc true 1 (LVar 10 (TInt U8))))
       (SSet (LIndex (ELv (LVar 5 (TPtr (TInt U8)))) (EBin Add (EBin Mul (ELv (LVar 8 (TInt U32))) (ECst U32 64)) (ELv (LVar 10 (TInt U8))))) (EBin Xor (ELv (LIndex (ELv (LVar 0 (TPtr (TInt U8)))) (EBin Add (EBin Mul (ELv (LVar 8 (TInt U32))) (ECst U32 64)) (ELv (LVar 10 (TInt U8)))))) (ELv (LIndex (ELv (LVar 9 (TPtr (TInt U8)))) (ELv (LVar 10 (TInt U8))))))))))))))))
    (SIf (EBin Ne (ECst U32 0) (ELv (LVar 7 (TInt U32))))
     (SBlock true
      (SSeq (SArr U8 [0; 0; 0; 0; 0; 0; 0; 0; 0; 0; 0; 0; 0; 0; 0; 0; 0; 0; 0; 0; 0; 0; 0; 0; 0; 0; 0; 0; 
       0; 0; 0; 0; 0; 0; 0; 0; 0; 0; 0; 0; 0; 0; 0; 0; 0; 0; 0; 0; 0; 0; 0; 0; 0; 0; 0; 0; 
       0; 0; 0; 0; 0; 0; 0; 0])
      (SSeq (SExpr (ECall c_Block (ECons (ELv (LVar 2 (TPtr (TInt U8)))) (ECons (EBin Add (ELv (LVar 6 (TInt U32))) (ELv (LVar 4 (TInt U32)))) (ECons (ELv (LVar 3 (TPtr (TInt U8)))) (ECons (ELv (LVar 8 (TPtr (TInt U8)))) ENil))))))
      (SBlock false (SSeq (SInit (TInt U32) (ECst I32 0))
      (SLoop (EBin Lt (ELv (LVar 9 (TInt U32))) (ELv (LVar 7 (TInt U32)))) (SExpr (EInc true 1 (LVar 9 (TInt U32))))
       (SSet (LIndex (ELv (LVar 5 (TPtr (TInt U8)))) (EBin Add (EBin Mul (ELv (LVar 6 (TInt U32))) (ECst U32 64)) (ELv (LVar 9 (TInt U32))))) (EBin Xor (ELv (LIndex (ELv (LVar 0 (TPtr (TInt U8)))) (EBin Add (EBin Mul (ELv (LVar 6 (TInt U32))) (ECst U32 64)) (ELv (LVar 9 (TInt U32)))))) (ELv (LIndex (ELv (LVar 8 (TPtr (TInt U8)))) (ELv (LVar 9 (TInt U32)))))))))))))
     SSkip)))).
