(** * C87: the hand-written model of caesar_cipher.c, vernam_cipher.c and chacha20.c against the C text

    [c_F] is the function [F] as produced from its C text by [tools/c2coq.py]; [call] runs it
    (CLang.v).  [cells xs] are the objects of the local variables [x0] to [x15] of [Block].
    [Chacha20_crypt] is stated twice: plaintext and result in one object, at any two offsets,
    overlapping or not; and in two objects large enough for the text. *)
From Verif Require Import CSem Lib CLang C_Utils C_Crypto Model_Utils Model_Crypto Refine Refine_Cipher
  Refine_Chacha Refine_ChachaBlock Refine_ChachaCrypt.

Local Notation chars b := (VPtr (TInt IChar) (BObj b) 0).
Local Notation bytes_at b p := (VPtr (TInt U8) (BObj b) p).
Local Notation word b := (VPtr (TInt U32) (BObj b) 0).

Theorem C87_caesar_encrypt : forall (W : Type) sc
    (ext : Z -> list val -> mem -> W -> outcome (val * mem * W)) fuel
    m w b o k,
  m !! b = Some (ints 8 o) -> bytes o -> is_byte k -> len o < 2 ^ 64 -> (length o < fuel)%nat ->
  call sc ext fuel c_CaesarCipher_encrypt [VPtr (TInt IChar) (BObj b) 0; VInt U8 k] m w
  = let! o := CaesarCipher_encrypt o k in Ok (VUndef, <[b := ints 8 o]> m, w).
Proof. exact @ref_caesar_encrypt. Qed.
Print Assumptions C87_caesar_encrypt.
Example C87_caesar_encrypt_ex :
  call true no_ext 100 c_CaesarCipher_encrypt [chars 0; VInt U8 3] [ints 8 [88;121;46;65;0;90]] tt
  = Ok (VUndef, [[CI 8 65; CI 8 98; CI 8 46; CI 8 68; CI 8 0; CI 8 90]], ()) /\
  call true no_ext 100 c_CaesarCipher_encrypt [chars 0; VInt U8 3] [ints 8 [88;121]] tt
  = UB OutOfBounds.
Proof. repeat split; vm_compute; reflexivity. Qed.

Theorem C87_caesar_decrypt : forall (W : Type) sc
    (ext : Z -> list val -> mem -> W -> outcome (val * mem * W)) fuel
    m w b o k,
  m !! b = Some (ints 8 o) -> bytes o -> is_byte k -> len o < 2 ^ 64 -> (length o < fuel)%nat ->
  call sc ext fuel c_CaesarCipher_decrypt [VPtr (TInt IChar) (BObj b) 0; VInt U8 k] m w
  = let! o := CaesarCipher_decrypt o k in Ok (VUndef, <[b := ints 8 o]> m, w).
Proof. exact @ref_caesar_decrypt. Qed.
Print Assumptions C87_caesar_decrypt.
Example C87_caesar_decrypt_ex :
  call true no_ext 100 c_CaesarCipher_decrypt [chars 0; VInt U8 3] [ints 8 [65;98;46;68;0;90]] tt
  = Ok (VUndef, [[CI 8 84; CI 8 117; CI 8 46; CI 8 65; CI 8 0; CI 8 90]], ()) /\
  call true no_ext 100 c_CaesarCipher_decrypt [chars 0; VInt U8 200] [ints 8 [65;98]] tt
  = UB OutOfBounds.
Proof. repeat split; vm_compute; reflexivity. Qed.

Theorem C87_vernam_encrypt : forall (W : Type) sc
    (ext : Z -> list val -> mem -> W -> outcome (val * mem * W)) fuel
    m w b o b' o' k,
  m !! b = Some (ints 8 o) -> m !! b' = Some (ints 8 o') -> b <> b' -> bytes o -> bytes o' ->
  is_s32 k -> len o < 2 ^ 64 -> (length o < fuel)%nat ->
  call sc ext fuel c_VernamCipher_encrypt [VPtr (TInt IChar) (BObj b) 0; VPtr (TInt IChar) (BObj b') 0;
                              VInt I32 k] m w
  = let! '(r, o) := VernamCipher_encrypt o o' k in Ok (VInt IBool (b2z r), <[b := ints 8 o]> m, w).
Proof. exact @ref_vernam_encrypt. Qed.
Print Assumptions C87_vernam_encrypt.
Example C87_vernam_encrypt_ex :
  call true no_ext 100 c_VernamCipher_encrypt [chars 0; chars 1; VInt I32 3] [ints 8 [72;105;33;0]; ints 8 [107;69;89]] tt
  = Ok
    (VInt IBool 1,
    [[CI 8 82; CI 8 109; CI 8 33; CI 8 0]; [CI 8 107; CI 8 69; CI 8 89]], ()) /\
  call true no_ext 100 c_VernamCipher_encrypt [chars 0; chars 1; VInt I32 2] [ints 8 [72;105;33;0]; ints 8 [107;69;89]] tt
  = Ok
    (VInt IBool 0,
    [[CI 8 72; CI 8 105; CI 8 33; CI 8 0]; [CI 8 107; CI 8 69; CI 8 89]], ()) /\
  call true no_ext 100 c_VernamCipher_encrypt [chars 0; chars 1; VInt I32 3] [ints 8 [72;105;33;0]; ints 8 [107]] tt
  = UB OutOfBounds.
Proof. repeat split; vm_compute; reflexivity. Qed.

Theorem C87_vernam_decrypt : forall (W : Type) sc
    (ext : Z -> list val -> mem -> W -> outcome (val * mem * W)) fuel
    m w b o b' o' k,
  m !! b = Some (ints 8 o) -> m !! b' = Some (ints 8 o') -> b <> b' -> bytes o -> bytes o' ->
  is_s32 k -> len o < 2 ^ 64 -> (length o < fuel)%nat ->
  call sc ext fuel c_VernamCipher_decrypt [VPtr (TInt IChar) (BObj b) 0; VPtr (TInt IChar) (BObj b') 0;
                              VInt I32 k] m w
  = let! '(r, o) := VernamCipher_decrypt sc o o' k in Ok (VInt IBool (b2z r), <[b := ints 8 o]> m, w).
Proof. exact @ref_vernam_decrypt. Qed.
Print Assumptions C87_vernam_decrypt.
Example C87_vernam_decrypt_ex :
  call true no_ext 100 c_VernamCipher_decrypt [chars 0; chars 1; VInt I32 3] [ints 8 [82;109;33;0]; ints 8 [107;69;89]] tt
  = Ok
    (VInt IBool 1,
    [[CI 8 72; CI 8 105; CI 8 33; CI 8 0]; [CI 8 107; CI 8 69; CI 8 89]], ()) /\
  call true no_ext 100 c_VernamCipher_decrypt [chars 0; chars 1; VInt I32 3] [ints 8 [82;109;33;0]; ints 8 [107;200;89]] tt
  = Ok
    (VInt IBool 1,
    [[CI 8 72; CI 8 230; CI 8 33; CI 8 0]; [CI 8 107; CI 8 200; CI 8 89]], ()) /\
  call false no_ext 100 c_VernamCipher_decrypt [chars 0; chars 1; VInt I32 3] [ints 8 [82;109;33;0]; ints 8 [107;200;89]] tt
  = Ok
    (VInt IBool 1,
    [[CI 8 72; CI 8 0; CI 8 33; CI 8 0]; [CI 8 107; CI 8 200; CI 8 89]], ()).
Proof. repeat split; vm_compute; reflexivity. Qed.

Theorem C87_QuarterRound_list : forall (W : Type) sc
    (ext : Z -> list val -> mem -> W -> outcome (val * mem * W)) fuel
    m w xs (a b c d : nat) n,
  n = length m -> (a < length xs)%nat -> (b < length xs)%nat -> (c < length xs)%nat ->
  (d < length xs)%nat ->
  a <> b -> a <> c -> a <> d -> b <> c -> b <> d -> c <> d ->
  call sc ext fuel c_QuarterRound [word (n + a)%nat; word (n + b)%nat; word (n + c)%nat; word (n + d)%nat]
      (m ++ cells xs) w
  = let! xs := QuarterRound xs (Z.of_nat a) (Z.of_nat b) (Z.of_nat c) (Z.of_nat d) in Ok (VUndef, m ++ cells xs, w).
Proof. exact @ref_QuarterRound_list. Qed.
Print Assumptions C87_QuarterRound_list.
Example C87_QuarterRound_list_ex :
  call true no_ext 100 c_QuarterRound [word 1; word 2; word 3; word 4] ([[]] ++ cells [286331153; 16909060; 2609737539; 19088743]) tt
  = Ok
    (VUndef,
    [[]; [CI 32 3928658676]; [CI 32 3407673550]; [CI 32 1166100270];
    [CI 32 1484899515]], ()).
Proof. repeat split; vm_compute; reflexivity. Qed.

Theorem C87_Block : forall (W : Type) sc
    (ext : Z -> list val -> mem -> W -> outcome (val * mem * W)) fuel
    m w bk key bn nonce bo out counter,
  m !! bk = Some (ints 8 key) -> m !! bn = Some (ints 8 nonce) -> m !! bo = Some (ints 8 out) ->
  bytes key -> bytes nonce -> (10 < fuel)%nat ->
  call sc ext fuel c_Block [bytes_at bk 0; VInt U32 counter; bytes_at bn 0; bytes_at bo 0] m w
  = let! out := Block key counter nonce out in Ok (VUndef, <[bo := ints 8 out]> m, w).
Proof. exact @ref_Block. Qed.
Print Assumptions C87_Block.
Example C87_Block_ex :
  call true no_ext 100 c_Block [bytes_at 0 0; VInt U32 1; bytes_at 1 0; bytes_at 2 0] [ints 8 ((fun k => Z.of_nat k) <$> seq 0 32); ints 8 [0;0;0;9;0;0;0;74;0;0;0;0]; ints 8 (replicate 64 0)] tt
  = Ok
    (VUndef,
    [[CI 8 0; CI 8 1; CI 8 2; CI 8 3; CI 8 4; CI 8 5; CI 8 6; 
    CI 8 7; CI 8 8; CI 8 9; CI 8 10; CI 8 11; CI 8 12; 
    CI 8 13; CI 8 14; CI 8 15; CI 8 16; CI 8 17; CI 8 18; 
    CI 8 19; CI 8 20; CI 8 21; CI 8 22; CI 8 23; CI 8 24; 
    CI 8 25; CI 8 26; CI 8 27; CI 8 28; CI 8 29; CI 8 30; 
    CI 8 31];
    [CI 8 0; CI 8 0; CI 8 0; CI 8 9; CI 8 0; CI 8 0; CI 8 0; 
    CI 8 74; CI 8 0; CI 8 0; CI 8 0; CI 8 0];
    [CI 8 16; CI 8 241; CI 8 231; CI 8 228; CI 8 209; 
    CI 8 59; CI 8 89; CI 8 21; CI 8 80; CI 8 15; CI 8 221; 
    CI 8 31; CI 8 163; CI 8 32; CI 8 113; CI 8 196; CI 8 199; 
    CI 8 209; CI 8 244; CI 8 199; CI 8 51; CI 8 192; 
    CI 8 104; CI 8 3; CI 8 4; CI 8 34; CI 8 170; CI 8 154; 
    CI 8 195; CI 8 212; CI 8 108; CI 8 78; CI 8 210; 
    CI 8 130; CI 8 100; CI 8 70; CI 8 7; CI 8 159; CI 8 170; 
    CI 8 9; CI 8 20; CI 8 194; CI 8 215; CI 8 5; CI 8 217; 
    CI 8 139; CI 8 2; CI 8 162; CI 8 181; CI 8 18; CI 8 156; 
    CI 8 209; CI 8 222; CI 8 22; CI 8 78; CI 8 185; CI 8 203; 
    CI 8 208; CI 8 131; CI 8 232; CI 8 162; CI 8 80; 
    CI 8 60; CI 8 78]], ()).
Proof. repeat split; vm_compute; reflexivity. Qed.

Theorem C87_Chacha20_crypt : forall (W : Type) sc
    (ext : Z -> list val -> mem -> W -> outcome (val * mem * W)) fuel
    m w b o p r bk key bn nonce n inc,
  m !! b = Some (ints 8 o) -> m !! bk = Some (ints 8 key) -> m !! bn = Some (ints 8 nonce) ->
  b <> bk -> b <> bn -> bytes key -> bytes nonce -> is_u32 n -> is_u32 inc ->
  (64 < fuel)%nat -> (Z.to_nat (n / 64) < fuel)%nat ->
  call sc ext fuel c_Chacha20_crypt [bytes_at b p; VInt U32 n; bytes_at bk 0; bytes_at bn 0; VInt U32 inc; bytes_at b r] m w
  = let! o := Chacha20_crypt o p n key nonce inc r in Ok (VUndef, <[b := ints 8 o]> m, w).
Proof. exact @ref_Chacha20_crypt. Qed.
Print Assumptions C87_Chacha20_crypt.
Example C87_Chacha20_crypt_ex :
  call true no_ext 100 c_Chacha20_crypt [bytes_at 2 0; VInt U32 66; bytes_at 0 0; bytes_at 1 0; VInt U32 1; bytes_at 2 0] [ints 8 ((fun k => Z.of_nat k) <$> seq 0 32); ints 8 [0;0;0;9;0;0;0;74;0;0;0;0]; ints 8 (replicate 66 0)] tt
  = Ok
    (VUndef,
    [[CI 8 0; CI 8 1; CI 8 2; CI 8 3; CI 8 4; CI 8 5; CI 8 6; 
    CI 8 7; CI 8 8; CI 8 9; CI 8 10; CI 8 11; CI 8 12; 
    CI 8 13; CI 8 14; CI 8 15; CI 8 16; CI 8 17; CI 8 18; 
    CI 8 19; CI 8 20; CI 8 21; CI 8 22; CI 8 23; CI 8 24; 
    CI 8 25; CI 8 26; CI 8 27; CI 8 28; CI 8 29; CI 8 30; 
    CI 8 31];
    [CI 8 0; CI 8 0; CI 8 0; CI 8 9; CI 8 0; CI 8 0; CI 8 0; 
    CI 8 74; CI 8 0; CI 8 0; CI 8 0; CI 8 0];
    [CI 8 16; CI 8 241; CI 8 231; CI 8 228; CI 8 209; 
    CI 8 59; CI 8 89; CI 8 21; CI 8 80; CI 8 15; CI 8 221; 
    CI 8 31; CI 8 163; CI 8 32; CI 8 113; CI 8 196; CI 8 199; 
    CI 8 209; CI 8 244; CI 8 199; CI 8 51; CI 8 192; 
    CI 8 104; CI 8 3; CI 8 4; CI 8 34; CI 8 170; CI 8 154; 
    CI 8 195; CI 8 212; CI 8 108; CI 8 78; CI 8 210; 
    CI 8 130; CI 8 100; CI 8 70; CI 8 7; CI 8 159; CI 8 170; 
    CI 8 9; CI 8 20; CI 8 194; CI 8 215; CI 8 5; CI 8 217; 
    CI 8 139; CI 8 2; CI 8 162; CI 8 181; CI 8 18; CI 8 156; 
    CI 8 209; CI 8 222; CI 8 22; CI 8 78; CI 8 185; CI 8 203; 
    CI 8 208; CI 8 131; CI 8 232; CI 8 162; CI 8 80; 
    CI 8 60; CI 8 78; CI 8 10; CI 8 136]], ()) /\
  call true no_ext 100 c_Chacha20_crypt [bytes_at 2 0; VInt U32 66; bytes_at 0 0; bytes_at 1 0; VInt U32 1; bytes_at 2 1] [ints 8 ((fun k => Z.of_nat k) <$> seq 0 32); ints 8 [0;0;0;9;0;0;0;74;0;0;0;0]; ints 8 (replicate 66 0)] tt
  = UB OutOfBounds.
Proof. repeat split; vm_compute; reflexivity. Qed.

Theorem C87_Chacha20_crypt_apart : forall (W : Type) sc
    (ext : Z -> list val -> mem -> W -> outcome (val * mem * W)) fuel
    m w bp po br ro p r bk key bn nonce n inc,
  m !! bp = Some (ints 8 po) -> m !! br = Some (ints 8 ro) ->
  m !! bk = Some (ints 8 key) -> m !! bn = Some (ints 8 nonce) ->
  bp <> br -> br <> bk -> br <> bn -> bytes key -> bytes nonce -> is_u32 n -> is_u32 inc ->
  0 <= p -> p + n <= len po -> 0 <= r -> r + n <= len ro ->
  (64 < fuel)%nat -> (Z.to_nat (n / 64) < fuel)%nat ->
  call sc ext fuel c_Chacha20_crypt [bytes_at bp p; VInt U32 n; bytes_at bk 0; bytes_at bn 0; VInt U32 inc; bytes_at br r] m w
  = let! o := Chacha20_crypt (po ++ ro) p n key nonce inc (len po + r) in
    Ok (VUndef, <[br := ints 8 (drop (length po) o)]> m, w).
Proof. exact @ref_Chacha20_crypt_apart. Qed.
Print Assumptions C87_Chacha20_crypt_apart.
Example C87_Chacha20_crypt_apart_ex :
  call true no_ext 100 c_Chacha20_crypt [bytes_at 2 1; VInt U32 5; bytes_at 0 0; bytes_at 1 0; VInt U32 1; bytes_at 3 2] [ints 8 ((fun k => Z.of_nat k) <$> seq 0 32); ints 8 [0;0;0;9;0;0;0;74;0;0;0;0]; ints 8 [9;1;2;3;4;5]; ints 8 (replicate 7 8)] tt
  = Ok
    (VUndef,
    [[CI 8 0; CI 8 1; CI 8 2; CI 8 3; CI 8 4; CI 8 5; CI 8 6; 
    CI 8 7; CI 8 8; CI 8 9; CI 8 10; CI 8 11; CI 8 12; 
    CI 8 13; CI 8 14; CI 8 15; CI 8 16; CI 8 17; CI 8 18; 
    CI 8 19; CI 8 20; CI 8 21; CI 8 22; CI 8 23; CI 8 24; 
    CI 8 25; CI 8 26; CI 8 27; CI 8 28; CI 8 29; CI 8 30; 
    CI 8 31];
    [CI 8 0; CI 8 0; CI 8 0; CI 8 9; CI 8 0; CI 8 0; CI 8 0; 
    CI 8 74; CI 8 0; CI 8 0; CI 8 0; CI 8 0];
    [CI 8 9; CI 8 1; CI 8 2; CI 8 3; CI 8 4; CI 8 5];
    [CI 8 8; CI 8 8; CI 8 17; CI 8 243; CI 8 228; CI 8 224; CI 8 212]], ()).
Proof. repeat split; vm_compute; reflexivity. Qed.
