(** * C86: the hand-written model of base64.c against the C text

    [c_F] is the function [F] as produced from its C text by [tools/c2coq.py]; [call] runs it
    (CLang.v).  Input and output are different objects, except for [C86_decode_in_place], where
    the decoder writes into the object it reads, and [C86_encode_in_place_refuted]. *)
From Verif Require Import CSem Lib CLang C_Base64 Model_Base64 Refine Refine_Base64 Refine_Base64Dec
  Refine_Base64Place.

Local Notation chars b := (VPtr (TInt IChar) (BObj b) 0).
Local Notation bytes_at b := (VPtr (TInt U8) (BObj b) 0).

Theorem C86_encode : forall (W : Type) sc
    (ext : Z -> list val -> mem -> W -> outcome (val * mem * W)) fuel
    m w bd d n br r mx,
  m !! bd = Some (ints 8 d) -> m !! br = Some (ints 8 r) -> bd <> br -> bytes d ->
  is_u64 n -> is_u64 mx -> (length d < fuel)%nat ->
  call sc ext fuel c_Base64_encode [VPtr (TInt IChar) (BObj bd) 0; VInt U64 n; VPtr (TInt IChar) (BObj br) 0;
                       VInt U64 mx] m w
  = let! '(s, r) := Base64_encode d n r mx in Ok (VInt I32 s, <[br := ints 8 r]> m, w).
Proof. exact @ref_encode. Qed.
Print Assumptions C86_encode.
Example C86_encode_ex :
  call true no_ext 100 c_Base64_encode [chars 0; VInt U64 1; chars 1; VInt U64 4] [ints 8 [203]; ints 8 (replicate 5 1)] tt
  = Ok (VInt I32 0, [[CI 8 203]; [CI 8 121; CI 8 119; CI 8 61; CI 8 61; CI 8 0]], ()) /\
  call true no_ext 100 c_Base64_encode [chars 0; VInt U64 2; chars 1; VInt U64 4] [ints 8 [203;171]; ints 8 (replicate 5 1)] tt
  = Ok
    (VInt I32 0,
    [[CI 8 203; CI 8 171]; [CI 8 121; CI 8 54; CI 8 115; CI 8 61; CI 8 0]], ()) /\
  call true no_ext 100 c_Base64_encode [chars 0; VInt U64 4; chars 1; VInt U64 8] [ints 8 [77;97;110;200]; ints 8 (replicate 9 1)] tt
  = Ok
    (VInt I32 0,
    [[CI 8 77; CI 8 97; CI 8 110; CI 8 200];
    [CI 8 84; CI 8 87; CI 8 70; CI 8 117; CI 8 121; CI 8 65; 
    CI 8 61; CI 8 61; CI 8 0]], ()) /\
  call true no_ext 100 c_Base64_encode [chars 0; VInt U64 4; chars 1; VInt U64 8] [ints 8 [77;97;110;200]; ints 8 (replicate 8 1)] tt
  = UB OutOfBounds /\
  call true no_ext 100 c_Base64_encode [chars 0; VInt U64 4; chars 1; VInt U64 7] [ints 8 [77;97;110;200]; ints 8 (replicate 9 1)] tt
  = Ok
    (VInt I32 1,
    [[CI 8 77; CI 8 97; CI 8 110; CI 8 200];
    [CI 8 84; CI 8 87; CI 8 70; CI 8 117; CI 8 0; CI 8 1; CI 8 1; CI 8 1; CI 8 1]],
    ()) /\
  call true no_ext 100 c_Base64_encode [chars 0; VInt U64 (3 * 2 ^ 62 - 3); chars 1; VInt U64 0] [ints 8 [1]; ints 8 [7]] tt
  = Ok (VInt I32 1, [[CI 8 1]; [CI 8 0]], ()) /\
  call true no_ext 100 c_Base64_encode [chars 0; VInt U64 (3 * 2 ^ 62 - 2); chars 1; VInt U64 0] [ints 8 [1]; ints 8 [7]] tt
  = Ok (VInt I32 1, [[CI 8 1]; [CI 8 7]], ()).
Proof. repeat split; vm_compute; reflexivity. Qed.

Theorem C86_decode : forall (W : Type) sc
    (ext : Z -> list val -> mem -> W -> outcome (val * mem * W)) fuel
    m w bi d n bo o mx,
  m !! bi = Some (ints 8 d) -> m !! bo = Some (ints 8 o) -> bi <> bo -> bytes d ->
  is_u64 n -> is_u64 mx -> (length d < fuel)%nat ->
  call sc ext fuel c_Base64_decode [VPtr (TInt IChar) (BObj bi) 0; VInt U64 n; VPtr (TInt U8) (BObj bo) 0;
                       VInt U64 mx] m w
  = let! '(s, o) := Base64_decode d n o mx in Ok (VInt I32 s, <[bo := ints 8 o]> m, w).
Proof. exact @ref_decode. Qed.
Print Assumptions C86_decode.
Example C86_decode_ex :
  call true no_ext 300 c_Base64_decode [chars 0; VInt U64 256; bytes_at 1; VInt U64 192] [ints 8 (Z.of_nat <$> seq 0 256); ints 8 (replicate 192 9)] tt
  = Ok
    (VInt I32 0,
    [[CI 8 0; CI 8 1; CI 8 2; CI 8 3; CI 8 4; CI 8 5; CI 8 6; 
    CI 8 7; CI 8 8; CI 8 9; CI 8 10; CI 8 11; CI 8 12; 
    CI 8 13; CI 8 14; CI 8 15; CI 8 16; CI 8 17; CI 8 18; 
    CI 8 19; CI 8 20; CI 8 21; CI 8 22; CI 8 23; CI 8 24; 
    CI 8 25; CI 8 26; CI 8 27; CI 8 28; CI 8 29; CI 8 30; 
    CI 8 31; CI 8 32; CI 8 33; CI 8 34; CI 8 35; CI 8 36; 
    CI 8 37; CI 8 38; CI 8 39; CI 8 40; CI 8 41; CI 8 42; 
    CI 8 43; CI 8 44; CI 8 45; CI 8 46; CI 8 47; CI 8 48; 
    CI 8 49; CI 8 50; CI 8 51; CI 8 52; CI 8 53; CI 8 54; 
    CI 8 55; CI 8 56; CI 8 57; CI 8 58; CI 8 59; CI 8 60; 
    CI 8 61; CI 8 62; CI 8 63; CI 8 64; CI 8 65; CI 8 66; 
    CI 8 67; CI 8 68; CI 8 69; CI 8 70; CI 8 71; CI 8 72; 
    CI 8 73; CI 8 74; CI 8 75; CI 8 76; CI 8 77; CI 8 78; 
    CI 8 79; CI 8 80; CI 8 81; CI 8 82; CI 8 83; CI 8 84; 
    CI 8 85; CI 8 86; CI 8 87; CI 8 88; CI 8 89; CI 8 90; 
    CI 8 91; CI 8 92; CI 8 93; CI 8 94; CI 8 95; CI 8 96; 
    CI 8 97; CI 8 98; CI 8 99; CI 8 100; CI 8 101; CI 8 102; 
    CI 8 103; CI 8 104; CI 8 105; CI 8 106; CI 8 107; 
    CI 8 108; CI 8 109; CI 8 110; CI 8 111; CI 8 112; 
    CI 8 113; CI 8 114; CI 8 115; CI 8 116; CI 8 117; 
    CI 8 118; CI 8 119; CI 8 120; CI 8 121; CI 8 122; 
    CI 8 123; CI 8 124; CI 8 125; CI 8 126; CI 8 127; 
    CI 8 128; CI 8 129; CI 8 130; CI 8 131; CI 8 132; 
    CI 8 133; CI 8 134; CI 8 135; CI 8 136; CI 8 137; 
    CI 8 138; CI 8 139; CI 8 140; CI 8 141; CI 8 142; 
    CI 8 143; CI 8 144; CI 8 145; CI 8 146; CI 8 147; 
    CI 8 148; CI 8 149; CI 8 150; CI 8 151; CI 8 152; 
    CI 8 153; CI 8 154; CI 8 155; CI 8 156; CI 8 157; 
    CI 8 158; CI 8 159; CI 8 160; CI 8 161; CI 8 162; 
    CI 8 163; CI 8 164; CI 8 165; CI 8 166; CI 8 167; 
    CI 8 168; CI 8 169; CI 8 170; CI 8 171; CI 8 172; 
    CI 8 173; CI 8 174; CI 8 175; CI 8 176; CI 8 177; 
    CI 8 178; CI 8 179; CI 8 180; CI 8 181; CI 8 182; 
    CI 8 183; CI 8 184; CI 8 185; CI 8 186; CI 8 187; 
    CI 8 188; CI 8 189; CI 8 190; CI 8 191; CI 8 192; 
    CI 8 193; CI 8 194; CI 8 195; CI 8 196; CI 8 197; 
    CI 8 198; CI 8 199; CI 8 200; CI 8 201; CI 8 202; 
    CI 8 203; CI 8 204; CI 8 205; CI 8 206; CI 8 207; 
    CI 8 208; CI 8 209; CI 8 210; CI 8 211; CI 8 212; 
    CI 8 213; CI 8 214; CI 8 215; CI 8 216; CI 8 217; 
    CI 8 218; CI 8 219; CI 8 220; CI 8 221; CI 8 222; 
    CI 8 223; CI 8 224; CI 8 225; CI 8 226; CI 8 227; 
    CI 8 228; CI 8 229; CI 8 230; CI 8 231; CI 8 232; 
    CI 8 233; CI 8 234; CI 8 235; CI 8 236; CI 8 237; 
    CI 8 238; CI 8 239; CI 8 240; CI 8 241; CI 8 242; 
    CI 8 243; CI 8 244; CI 8 245; CI 8 246; CI 8 247; 
    CI 8 248; CI 8 249; CI 8 250; CI 8 251; CI 8 252; 
    CI 8 253; CI 8 254; CI 8 255];
    [CI 8 0; CI 8 0; CI 8 0; CI 8 0; CI 8 0; CI 8 0; CI 8 0; 
    CI 8 0; CI 8 0; CI 8 0; CI 8 0; CI 8 0; CI 8 0; CI 8 0; 
    CI 8 0; CI 8 0; CI 8 0; CI 8 0; CI 8 0; CI 8 0; CI 8 0; 
    CI 8 0; CI 8 0; CI 8 0; CI 8 0; CI 8 0; CI 8 0; CI 8 0; 
    CI 8 0; CI 8 0; CI 8 0; CI 8 0; CI 8 62; CI 8 255; 
    CI 8 239; CI 8 191; CI 8 211; CI 8 93; CI 8 183; 
    CI 8 227; CI 8 158; CI 8 187; CI 8 243; CI 8 208; 
    CI 8 0; CI 8 0; CI 8 0; CI 8 0; CI 8 0; CI 8 0; CI 8 66; 
    CI 8 12; CI 8 65; CI 8 70; CI 8 28; CI 8 130; CI 8 74; 
    CI 8 44; CI 8 195; CI 8 78; CI 8 61; CI 8 4; CI 8 82; 
    CI 8 77; CI 8 69; CI 8 86; CI 8 93; CI 8 134; CI 8 64; 
    CI 8 0; CI 8 0; CI 8 63; CI 8 1; CI 8 166; CI 8 220; 
    CI 8 117; CI 8 231; CI 8 224; CI 8 134; CI 8 40; 
    CI 8 228; CI 8 150; CI 8 105; CI 8 232; CI 8 166; 
    CI 8 170; CI 8 236; CI 8 182; CI 8 235; CI 8 240; 
    CI 8 199; CI 8 44; CI 8 192; CI 8 0; CI 8 0; CI 8 0; 
    CI 8 0; CI 8 0; CI 8 0; CI 8 0; CI 8 0; CI 8 0; CI 8 0; 
    CI 8 0; CI 8 0; CI 8 0; CI 8 0; CI 8 0; CI 8 0; CI 8 0; 
    CI 8 0; CI 8 0; CI 8 0; CI 8 0; CI 8 0; CI 8 0; CI 8 0; 
    CI 8 0; CI 8 0; CI 8 0; CI 8 0; CI 8 0; CI 8 0; CI 8 0; 
    CI 8 0; CI 8 0; CI 8 0; CI 8 0; CI 8 0; CI 8 0; CI 8 0; 
    CI 8 0; CI 8 0; CI 8 0; CI 8 0; CI 8 0; CI 8 0; CI 8 0; 
    CI 8 0; CI 8 0; CI 8 0; CI 8 0; CI 8 0; CI 8 0; CI 8 0; 
    CI 8 0; CI 8 0; CI 8 0; CI 8 0; CI 8 0; CI 8 0; CI 8 0; 
    CI 8 0; CI 8 0; CI 8 0; CI 8 0; CI 8 0; CI 8 0; CI 8 0; 
    CI 8 0; CI 8 0; CI 8 0; CI 8 0; CI 8 0; CI 8 0; CI 8 0; 
    CI 8 0; CI 8 0; CI 8 0; CI 8 0; CI 8 0; CI 8 0; CI 8 0; 
    CI 8 0; CI 8 0; CI 8 0; CI 8 0; CI 8 0; CI 8 0; CI 8 0; 
    CI 8 0; CI 8 0; CI 8 0; CI 8 0; CI 8 0; CI 8 0; CI 8 0; 
    CI 8 0; CI 8 0; CI 8 0; CI 8 0; CI 8 0]], ()) /\
  call true no_ext 100 c_Base64_decode [chars 0; VInt U64 4; bytes_at 1; VInt U64 2] [ints 8 [84;87;69;61]; ints 8 (replicate 2 9)] tt
  = Ok (VInt I32 1, [[CI 8 84; CI 8 87; CI 8 69; CI 8 61]; [CI 8 9; CI 8 9]], ()) /\
  call true no_ext 100 c_Base64_decode [chars 0; VInt U64 4; bytes_at 1; VInt U64 1] [ints 8 [84;87;69;61]; ints 8 (replicate 2 9)] tt
  = Ok (VInt I32 1, [[CI 8 84; CI 8 87; CI 8 69; CI 8 61]; [CI 8 9; CI 8 9]], ()) /\
  call true no_ext 100 c_Base64_decode [chars 0; VInt U64 8; bytes_at 1; VInt U64 5] [ints 8 [84;87;70;117;121;65;61;61]; ints 8 (replicate 5 9)] tt
  = Ok
    (VInt I32 0,
    [[CI 8 84; CI 8 87; CI 8 70; CI 8 117; CI 8 121; CI 8 65; CI 8 61; CI 8 61];
    [CI 8 77; CI 8 97; CI 8 110; CI 8 200; CI 8 9]], ()) /\
  call true no_ext 100 c_Base64_decode [chars 0; VInt U64 8; bytes_at 1; VInt U64 3] [ints 8 [84;87;70;117;121;65;61;61]; ints 8 (replicate 5 9)] tt
  = Ok
    (VInt I32 1,
    [[CI 8 84; CI 8 87; CI 8 70; CI 8 117; CI 8 121; CI 8 65; CI 8 61; CI 8 61];
    [CI 8 9; CI 8 9; CI 8 9; CI 8 9; CI 8 9]], ()) /\
  call true no_ext 100 c_Base64_decode [chars 0; VInt U64 8; bytes_at 1; VInt U64 5] [ints 8 [84;87;70;117;121;65;61]; ints 8 (replicate 5 9)] tt
  = UB OutOfBounds /\
  call true no_ext 100 c_Base64_decode [chars 0; VInt U64 8; bytes_at 1; VInt U64 5] [ints 8 [84;87;70;117;121;81;61;61]; ints 8 (replicate 5 9)] tt
  = Ok
    (VInt I32 0,
    [[CI 8 84; CI 8 87; CI 8 70; CI 8 117; CI 8 121; CI 8 81; CI 8 61; CI 8 61];
    [CI 8 77; CI 8 97; CI 8 110; CI 8 201; CI 8 9]], ()).
Proof. repeat split; vm_compute; reflexivity. Qed.

Theorem C86_decode_in_place : forall (W : Type) sc
    (ext : Z -> list val -> mem -> W -> outcome (val * mem * W)) fuel
    m w b d n mx,
  m !! b = Some (ints 8 d) -> bytes d ->
  is_u64 n -> is_u64 mx -> (length d < fuel)%nat ->
  call sc ext fuel c_Base64_decode [VPtr (TInt IChar) (BObj b) 0; VInt U64 n; VPtr (TInt U8) (BObj b) 0;
                       VInt U64 mx] m w
  = let! '(s, o) := Base64_decode d n d mx in Ok (VInt I32 s, <[b := ints 8 o]> m, w).
Proof. exact @ref_decode_in_place. Qed.
Print Assumptions C86_decode_in_place.
Example C86_decode_in_place_ex :
  call true no_ext 100 c_Base64_decode [chars 0; VInt U64 8; bytes_at 0; VInt U64 5] [ints 8 [84;87;70;117;121;65;65;61]] tt
  = Ok
    (VInt I32 0,
    [[CI 8 77; CI 8 97; CI 8 110; CI 8 200; CI 8 0; CI 8 65; CI 8 65; CI 8 61]], ()) /\
  call true no_ext 100 c_Base64_decode [chars 0; VInt U64 8; bytes_at 0; VInt U64 5] [ints 8 [84;87;70;117;121;65;65]] tt
  = UB OutOfBounds.
Proof. repeat split; vm_compute; reflexivity. Qed.

(** the encoder cannot be used in place, not even into a large object: it reads bytes it has
    already overwritten *)
Theorem C86_encode_in_place_refuted : exists d n mx s r,
  bytes d /\ is_u64 n /\ is_u64 mx /\
  Base64_encode d n d mx = Ok (s, r) /\
  call true no_ext 100 c_Base64_encode [chars 0; VInt U64 n; chars 0; VInt U64 mx] [ints 8 d] tt
  <> Ok (VInt I32 s, [ints 8 r], tt).
Proof. exact encode_in_place_refuted. Qed.
Print Assumptions C86_encode_in_place_refuted.
