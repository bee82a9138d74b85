(** * The text of [/repo/Src/base64.c] as terms of [CLang]

    Generated by [/verif/tools/c2coq.py] from the C text; not edited by hand. *)
From Verif Require Import CSem CLang.


(** base64.c:24, a constant array *)
Definition c_Base64_encode_base64_table : list Z :=
  [65; 66; 67; 68; 69; 70; 71; 72; 73; 74; 75; 76; 77; 78; 79; 80; 81; 82; 83; 84; 85; 
       86; 87; 88; 89; 90; 97; 98; 99; 100; 101; 102; 103; 104; 105; 106; 107; 108; 109; 
       110; 111; 112; 113; 114; 115; 116; 117; 118; 119; 120; 121; 122; 48; 49; 50; 51; 
       52; 53; 54; 55; 56; 57; 43; 47; 0].

(** base64.c:21-106; parameters: data, data_length, result, max_result_length. *)
Definition c_Base64_encode : fundef :=
  FDef [TPtr (TInt IChar); TInt U64; TPtr (TInt IChar); TInt U64] (TInt I32)
    (SSeq (SInit (TInt I32) (ECst I32 0))
    (SSeq (SVar (TPtr (TInt U8)))
    (SSeq (SInit (TPtr (TInt U8)) (ECast (TPtr (TInt U8)) (ELv (LVar 0 (TPtr (TInt IChar))))))
    (SSeq (SInit (TInt U64) (EBin Mul (ECst U32 4) (EBin Div (EBin Add (ELv (LVar 1 (TInt U64))) (ECst U32 2)) (ECst U32 3))))
    (SSeq (SIf (EBin Lt (ELv (LVar 7 (TInt U64))) (ELv (LVar 1 (TInt U64))))
     (SSet (LVar 4 (TInt I32)) (ECst I32 1))
     SSkip)
    (SSeq (SIf (EBin Eq (ELv (LVar 4 (TInt I32))) (ECst I32 0))
     (SBlock false
      (SSeq (SInit (TInt U64) (ECst U32 0))
      (SSeq (SInit (TInt U64) (ECst U32 0))
      (SSeq (SSet (LVar 5 (TPtr (TInt U8))) (ECast (TPtr (TInt U8)) (EAddr (LIndex (ELv (LVar 2 (TPtr (TInt IChar)))) (ECst I32 0)))))
      (SSeq (SInit (TPtr (TInt U8)) (ELv (LVar 5 (TPtr (TInt U8)))))
      (SSeq (SLoop (EBin Ge (EBin Sub (ELv (LVar 1 (TInt U64))) (ELv (LVar 9 (TInt U64)))) (ECst U32 3)) SSkip
       (SSeq (SOp Add (LVar 8 (TInt U64)) (ECst U32 4))
       (SSeq (SIf (EBin Gt (ELv (LVar 8 (TInt U64))) (ELv (LVar 3 (TInt U64))))
         (SSeq (SSet (LVar 4 (TInt I32)) (ECst I32 1))
         SBreak)
         SSkip)
       (SSeq (SSet (LDeref (ELv (LVar 10 (TPtr (TInt U8))))) (ELv (LIndex (EData U8 c_Base64_encode_base64_table) (EBin Shr (ELv (LIndex (ELv (LVar 6 (TPtr (TInt U8)))) (ECst I32 0))) (ECst I32 2)))))
       (SSeq (SExpr (EInc true 1 (LVar 10 (TPtr (TInt U8)))))
       (SSeq (SSet (LDeref (ELv (LVar 10 (TPtr (TInt U8))))) (ELv (LIndex (EData U8 c_Base64_encode_base64_table) (EBin Or (EBin Shl (EBin And (ELv (LIndex (ELv (LVar 6 (TPtr (TInt U8)))) (ECst I32 0))) (ECst U32 3)) (ECst I32 4)) (EBin Shr (ELv (LIndex (ELv (LVar 6 (TPtr (TInt U8)))) (ECst I32 1))) (ECst I32 4))))))
       (SSeq (SExpr (EInc true 1 (LVar 10 (TPtr (TInt U8)))))
       (SSeq (SSet (LDeref (ELv (LVar 10 (TPtr (TInt U8))))) (ELv (LIndex (EData U8 c_Base64_encode_base64_table) (EBin Or (EBin Shl (EBin And (ELv (LIndex (ELv (LVar 6 (TPtr (TInt U8)))) (ECst I32 1))) (ECst U32 15)) (ECst I32 2)) (EBin Shr (ELv (LIndex (ELv (LVar 6 (TPtr (TInt U8)))) (ECst I32 2))) (ECst I32 6))))))
       (SSeq (SExpr (EInc true 1 (LVar 10 (TPtr (TInt U8)))))
       (SSeq (SSet (LDeref (ELv (LVar 10 (TPtr (TInt U8))))) (ELv (LIndex (EData U8 c_Base64_encode_base64_table) (EBin And (ELv (LIndex (ELv (LVar 6 (TPtr (TInt U8)))) (ECst I32 2))) (ECst U32 63)))))
       (SSeq (SExpr (EInc true 1 (LVar 10 (TPtr (TInt U8)))))
       (SSeq (SExpr (EInc true 1 (LVar 6 (TPtr (TInt U8)))))
       (SSeq (SExpr (EInc true 1 (LVar 6 (TPtr (TInt U8)))))
       (SSeq (SExpr (EInc true 1 (LVar 6 (TPtr (TInt U8)))))
       (SOp Add (LVar 9 (TInt U64)) (ECst U32 3))))))))))))))))
      (SSeq (SIf (EAnd (EBin Eq (ELv (LVar 4 (TInt I32))) (ECst I32 0)) (EBin Ne (EBin Sub (ELv (LVar 1 (TInt U64))) (ELv (LVar 9 (TInt U64)))) (ECst U32 0)))
       (SSeq (SOp Add (LVar 8 (TInt U64)) (ECst U32 4))
       (SSeq (SIf (EBin Gt (ELv (LVar 8 (TInt U64))) (ELv (LVar 3 (TInt U64))))
         (SSet (LVar 4 (TInt I32)) (ECst I32 1))
         SSkip)
       (SIf (EBin Eq (ELv (LVar 4 (TInt I32))) (ECst I32 0))
         (SSeq (SSet (LDeref (ELv (LVar 10 (TPtr (TInt U8))))) (ELv (LIndex (EData U8 c_Base64_encode_base64_table) (EBin Shr (ELv (LIndex (ELv (LVar 6 (TPtr (TInt U8)))) (ECst I32 0))) (ECst I32 2)))))
         (SSeq (SExpr (EInc true 1 (LVar 10 (TPtr (TInt U8)))))
         (SSeq (SIf (EBin Eq (EBin Sub (ELv (LVar 1 (TInt U64))) (ELv (LVar 9 (TInt U64)))) (ECst U32 1))
           (SSeq (SSet (LDeref (ELv (LVar 10 (TPtr (TInt U8))))) (ELv (LIndex (EData U8 c_Base64_encode_base64_table) (EBin Shl (EBin And (ELv (LIndex (ELv (LVar 6 (TPtr (TInt U8)))) (ECst I32 0))) (ECst U32 3)) (ECst I32 4)))))
           (SSeq (SExpr (EInc true 1 (LVar 10 (TPtr (TInt U8)))))
           (SSeq (SSet (LDeref (ELv (LVar 10 (TPtr (TInt U8))))) (ECast (TInt U8) (ECst I32 61)))
           (SExpr (EInc true 1 (LVar 10 (TPtr (TInt U8))))))))
           (SSeq (SSet (LDeref (ELv (LVar 10 (TPtr (TInt U8))))) (ELv (LIndex (EData U8 c_Base64_encode_base64_table) (EBin Or (EBin Shl (EBin And (ELv (LIndex (ELv (LVar 6 (TPtr (TInt U8)))) (ECst I32 0))) (ECst U32 3)) (ECst I32 4)) (EBin Shr (ELv (LIndex (ELv (LVar 6 (TPtr (TInt U8)))) (ECst I32 1))) (ECst I32 4))))))
           (SSeq (SExpr (EInc true 1 (LVar 10 (TPtr (TInt U8)))))
           (SSeq (SSet (LDeref (ELv (LVar 10 (TPtr (TInt U8))))) (ELv (LIndex (EData U8 c_Base64_encode_base64_table) (EBin Shl (EBin And (ELv (LIndex (ELv (LVar 6 (TPtr (TInt U8)))) (ECst I32 1))) (ECst U32 15)) (ECst I32 2)))))
           (SExpr (EInc true 1 (LVar 10 (TPtr (TInt U8)))))))))
         (SSeq (SSet (LDeref (ELv (LVar 10 (TPtr (TInt U8))))) (ECast (TInt U8) (ECst I32 61)))
         (SExpr (EInc true 1 (LVar 10 (TPtr (TInt U8)))))))))
         SSkip)))
       SSkip)
      (SSet (LDeref (ELv (LVar 10 (TPtr (TInt U8))))) (ECast (TInt U8) (ECst I32 0))))))))))
     SSkip)
    (SReturn (ELv (LVar 4 (TInt I32)))))))))).

(** base64.c:111, a constant array *)
Definition c_Base64_decode_base64_index : list Z :=
  [0; 0; 0; 0; 0; 0; 0; 0; 0; 0; 0; 0; 0; 0; 0; 0; 0; 0; 0; 0; 0; 0; 0; 0; 0; 0; 0; 0; 
       0; 0; 0; 0; 0; 0; 0; 0; 0; 0; 0; 0; 0; 0; 0; 62; 63; 62; 62; 63; 52; 53; 54; 55; 
       56; 57; 58; 59; 60; 61; 0; 0; 0; 0; 0; 0; 0; 0; 1; 2; 3; 4; 5; 6; 7; 8; 9; 10; 11; 
       12; 13; 14; 15; 16; 17; 18; 19; 20; 21; 22; 23; 24; 25; 0; 0; 0; 0; 63; 0; 26; 27; 
       28; 29; 30; 31; 32; 33; 34; 35; 36; 37; 38; 39; 40; 41; 42; 43; 44; 45; 46; 47; 48; 
       49; 50; 51; 0; 0; 0; 0; 0; 0; 0; 0; 0; 0; 0; 0; 0; 0; 0; 0; 0; 0; 0; 0; 0; 0; 0; 0; 
       0; 0; 0; 0; 0; 0; 0; 0; 0; 0; 0; 0; 0; 0; 0; 0; 0; 0; 0; 0; 0; 0; 0; 0; 0; 0; 0; 0; 
       0; 0; 0; 0; 0; 0; 0; 0; 0; 0; 0; 0; 0; 0; 0; 0; 0; 0; 0; 0; 0; 0; 0; 0; 0; 0; 0; 0; 
       0; 0; 0; 0; 0; 0; 0; 0; 0; 0; 0; 0; 0; 0; 0; 0; 0; 0; 0; 0; 0; 0; 0; 0; 0; 0; 0; 0; 
       0; 0; 0; 0; 0; 0; 0; 0; 0; 0; 0; 0; 0; 0; 0; 0; 0; 0; 0; 0; 0; 0; 0; 0; 0].

(** base64.c:108-172; parameters: in, in_len, out, max_out_len. *)
Definition c_Base64_decode : fundef :=
  FDef [TPtr (TInt IChar); TInt U64; TPtr (TInt U8); TInt U64] (TInt I32)
    (SSeq (SInit (TInt I32) (ECst I32 0))
    (SSeq (SInit (TPtr (TInt U8)) (ECast (TPtr (TInt U8)) (ELv (LVar 0 (TPtr (TInt IChar))))))
    (SSeq (SInit (TInt IBool) (EAnd (EBin Gt (ELv (LVar 1 (TInt U64))) (ECst U32 0)) (EOr (EBin Ne (EBin Mod (ELv (LVar 1 (TInt U64))) (ECst U32 4)) (ECst U32 0)) (EBin Eq (ELv (LIndex (ELv (LVar 5 (TPtr (TInt U8)))) (EBin Sub (ELv (LVar 1 (TInt U64))) (ECst U32 1)))) (ECast (TInt U8) (ECst I32 61))))))
    (SSeq (SInit (TInt U32) (ECst U32 0))
    (SSeq (SIf (ELv (LVar 6 (TInt IBool)))
     (SSet (LVar 7 (TInt U32)) (ECst U32 1))
     SSkip)
    (SSeq (SInit (TInt U64) (EBin Mul (EBin Sub (EBin Div (EBin Add (ELv (LVar 1 (TInt U64))) (ECst U32 3)) (ECst U32 4)) (ELv (LVar 7 (TInt U32)))) (ECst U32 4)))
    (SSeq (SInit (TInt U64) (EBin Add (EBin Mul (EBin Div (ELv (LVar 8 (TInt U64))) (ECst U32 4)) (ECst U32 3)) (ELv (LVar 7 (TInt U32)))))
    (SSeq (SIf (EBin Gt (ELv (LVar 9 (TInt U64))) (ELv (LVar 3 (TInt U64))))
     (SSet (LVar 4 (TInt I32)) (ECst I32 1))
     SSkip)
    (SSeq (SIf (EBin Eq (ELv (LVar 8 (TInt U64))) (ECst U32 0))
     (SSet (LVar 4 (TInt I32)) (ECst I32 1))
     SSkip)
    (SSeq (SIf (EBin Eq (ELv (LVar 4 (TInt I32))) (ECst I32 0))
     (SBlock false
      (SSeq (SInit (TInt U64) (ECst U32 0))
      (SSeq (SBlock false (SSeq (SInit (TInt U64) (ECst U32 0))
      (SLoop (EBin Lt (ELv (LVar 11 (TInt U64))) (ELv (LVar 8 (TInt U64)))) (SOp Add (LVar 11 (TInt U64)) (ECst U32 4))
       (SBlock false
        (SSeq (SInit (TInt U32) (EBin Or (EBin Or (EBin Or (EBin Shl (ELv (LIndex (EData U32 c_Base64_decode_base64_index) (ELv (LIndex (ELv (LVar 5 (TPtr (TInt U8)))) (ELv (LVar 11 (TInt U64))))))) (ECst U32 18)) (EBin Shl (ELv (LIndex (EData U32 c_Base64_decode_base64_index) (ELv (LIndex (ELv (LVar 5 (TPtr (TInt U8)))) (EBin Add (ELv (LVar 11 (TInt U64))) (ECst U32 1)))))) (ECst U32 12))) (EBin Shl (ELv (LIndex (EData U32 c_Base64_decode_base64_index) (ELv (LIndex (ELv (LVar 5 (TPtr (TInt U8)))) (EBin Add (ELv (LVar 11 (TInt U64))) (ECst U32 2)))))) (ECst U32 6))) (ELv (LIndex (EData U32 c_Base64_decode_base64_index) (ELv (LIndex (ELv (LVar 5 (TPtr (TInt U8)))) (EBin Add (ELv (LVar 11 (TInt U64))) (ECst U32 3))))))))
        (SSeq (SSet (LIndex (ELv (LVar 2 (TPtr (TInt U8)))) (ELv (LVar 10 (TInt U64)))) (ECast (TInt U8) (EBin Shr (ELv (LVar 12 (TInt U32))) (ECst U32 16))))
        (SSeq (SExpr (EInc true 1 (LVar 10 (TInt U64))))
        (SSeq (SSet (LIndex (ELv (LVar 2 (TPtr (TInt U8)))) (ELv (LVar 10 (TInt U64)))) (ECast (TInt U8) (EBin And (EBin Shr (ELv (LVar 12 (TInt U32))) (ECst U32 8)) (ECst U32 255))))
        (SSeq (SExpr (EInc true 1 (LVar 10 (TInt U64))))
        (SSeq (SSet (LIndex (ELv (LVar 2 (TPtr (TInt U8)))) (ELv (LVar 10 (TInt U64)))) (ECast (TInt U8) (EBin And (ELv (LVar 12 (TInt U32))) (ECst U32 255))))
        (SExpr (EInc true 1 (LVar 10 (TInt U64))))))))))))))
      (SIf (ELv (LVar 6 (TInt IBool)))
       (SBlock false
        (SSeq (SInit (TInt U32) (EBin Or (EBin Shl (ELv (LIndex (EData U32 c_Base64_decode_base64_index) (ELv (LIndex (ELv (LVar 5 (TPtr (TInt U8)))) (ELv (LVar 8 (TInt U64))))))) (ECst U32 18)) (EBin Shl (ELv (LIndex (EData U32 c_Base64_decode_base64_index) (ELv (LIndex (ELv (LVar 5 (TPtr (TInt U8)))) (EBin Add (ELv (LVar 8 (TInt U64))) (ECst U32 1)))))) (ECst U32 12))))
        (SSeq (SSet (LIndex (ELv (LVar 2 (TPtr (TInt U8)))) (EBin Sub (ELv (LVar 9 (TInt U64))) (ECst U32 1))) (ECast (TInt U8) (EBin Shr (ELv (LVar 11 (TInt U32))) (ECst U32 16))))
        (SIf (EAnd (EBin Gt (ELv (LVar 1 (TInt U64))) (EBin Add (ELv (LVar 8 (TInt U64))) (ECst U32 2))) (EBin Ne (ELv (LIndex (ELv (LVar 5 (TPtr (TInt U8)))) (EBin Add (ELv (LVar 8 (TInt U64))) (ECst U32 2)))) (ECast (TInt U8) (ECst I32 61))))
         (SIf (EBin Gt (EBin Add (ELv (LVar 9 (TInt U64))) (ECst U32 1)) (ELv (LVar 3 (TInt U64))))
           (SSet (LVar 4 (TInt I32)) (ECst I32 1))
           (SSeq (SOp Or (LVar 11 (TInt U32)) (EBin Shl (ELv (LIndex (EData U32 c_Base64_decode_base64_index) (ELv (LIndex (ELv (LVar 5 (TPtr (TInt U8)))) (EBin Add (ELv (LVar 8 (TInt U64))) (ECst U32 2)))))) (ECst U32 6)))
           (SSet (LIndex (ELv (LVar 2 (TPtr (TInt U8)))) (ELv (LVar 9 (TInt U64)))) (ECast (TInt U8) (EBin And (EBin Shr (ELv (LVar 11 (TInt U32))) (ECst U32 8)) (ECst U32 255))))))
         SSkip))))
       SSkip))))
     SSkip)
    (SReturn (ELv (LVar 4 (TInt I32)))))))))))))).
