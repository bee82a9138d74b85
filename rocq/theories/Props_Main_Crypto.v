(** * C100: the C text of the ciphers

    Composition of the theorems about the models (C38-C46) with C87.  [chars b] points to the
    first byte of object [b], [bytes_at b p] to byte [p].  [s] is the message without its NUL,
    [rest] what follows the NUL in its object. *)
From Coq Require Import String.
From Verif Require Import CSem Lib CLang C_Crypto Spec_Cipher Spec_ChaCha Refine Drive_TextRun Proof_TextCrypto.

Local Notation chars b := (VPtr (TInt IChar) (BObj b) 0).
Local Notation bytes_at b p := (VPtr (TInt U8) (BObj b) p).

(** ** Caesar *)
Theorem C100_caesar_encrypt : forall (W : Type) sc
    (ext : Z -> list val -> mem -> W -> outcome (val * mem * W)) fuel m w b s rest,
  m !! b = Some (ints 8 (s ++ 0 :: rest)) -> text s -> bytes rest ->
  len (s ++ 0 :: rest) < 2 ^ 64 -> len (s ++ 0 :: rest) < Z.of_nat fuel ->
  forall k, 0 <= k < 256 ->
  call sc ext fuel c_CaesarCipher_encrypt [chars b; VInt U8 k] m w
  = Ok (VUndef, <[b := ints 8 (map (move k) s ++ 0 :: rest)]> m, w).
Proof. exact @text_caesar_encrypt. Qed.
Print Assumptions C100_caesar_encrypt.
Example C100_caesar_encrypt_ex :
  call true no_ext 50 c_CaesarCipher_encrypt [chars 0; VInt U8 3] [ints 8 (str "Zebra, x!" ++ [0; 90])] tt
  = Ok (VUndef, [ints 8 (str "Cheud, a!" ++ [0; 90])], tt).
Proof. vm_compute. reflexivity. Qed.

(** not the inverse: a letter less than [k] places into the alphabet goes back from the 22nd *)
Theorem C100_caesar_decrypt : forall (W : Type) sc
    (ext : Z -> list val -> mem -> W -> outcome (val * mem * W)) fuel m w b s rest,
  m !! b = Some (ints 8 (s ++ 0 :: rest)) -> text s -> bytes rest ->
  len (s ++ 0 :: rest) < 2 ^ 64 -> len (s ++ 0 :: rest) < Z.of_nat fuel ->
  forall k, 0 <= k < 256 ->
  call sc ext fuel c_CaesarCipher_decrypt [chars b; VInt U8 k] m w
  = Ok (VUndef, <[b := ints 8 (map (fun c => if k <=? place c then move (- k) c
                                             else move (22 - k) c) s ++ 0 :: rest)]> m, w).
Proof. exact @text_caesar_decrypt. Qed.
Print Assumptions C100_caesar_decrypt.
Example C100_caesar_decrypt_ex :
  call true no_ext 50 c_CaesarCipher_decrypt [chars 0; VInt U8 3] [ints 8 (str "Cheud, a!" ++ [0; 90])] tt
  = Ok (VUndef, [ints 8 (str "Vebra, t!" ++ [0; 90])], tt).
Proof. vm_compute. reflexivity. Qed.

Theorem C100_caesar_round : forall (W : Type) sc
    (ext : Z -> list val -> mem -> W -> outcome (val * mem * W)) fuel m w b s rest k,
  m !! b = Some (ints 8 (s ++ 0 :: rest)) -> text s -> bytes rest ->
  len (s ++ 0 :: rest) < 2 ^ 64 -> len (s ++ 0 :: rest) < Z.of_nat fuel -> 0 <= k < 256 ->
  (let! '(_, m, w) := call sc ext fuel c_CaesarCipher_encrypt [chars b; VInt U8 k] m w in
   call sc ext fuel c_CaesarCipher_decrypt [chars b; VInt U8 k] m w) = Ok (VUndef, m, w)
  <-> Forall (fun c => letter c = true -> place c + k < 26) s.
Proof. exact @text_caesar_round. Qed.
Print Assumptions C100_caesar_round.
Example C100_caesar_round_ex :
  (let! '(_, m, w) := call true no_ext 50 c_CaesarCipher_encrypt [chars 0; VInt U8 3] [ints 8 (str "Web!" ++ [0])] tt in
   call true no_ext 50 c_CaesarCipher_decrypt [chars 0; VInt U8 3] m w)
  = Ok (VUndef, [ints 8 (str "Web!" ++ [0])], tt).
Proof. vm_compute. reflexivity. Qed.

Theorem C100_caesar_undo : forall (W : Type) sc
    (ext : Z -> list val -> mem -> W -> outcome (val * mem * W)) fuel m w b s rest k j,
  m !! b = Some (ints 8 (s ++ 0 :: rest)) -> text s -> bytes rest ->
  len (s ++ 0 :: rest) < 2 ^ 64 -> len (s ++ 0 :: rest) < Z.of_nat fuel ->
  0 <= k < 256 -> 0 <= j < 256 -> (k + j) mod 26 = 0 ->
  (let! '(_, m, w) := call sc ext fuel c_CaesarCipher_encrypt [chars b; VInt U8 k] m w in
   call sc ext fuel c_CaesarCipher_encrypt [chars b; VInt U8 j] m w) = Ok (VUndef, m, w).
Proof. exact @text_caesar_undo. Qed.
Print Assumptions C100_caesar_undo.
Example C100_caesar_undo_ex :
  (let! '(_, m, w) := call true no_ext 50 c_CaesarCipher_encrypt [chars 0; VInt U8 3] [ints 8 (str "Zebra" ++ [0])] tt in
   call true no_ext 50 c_CaesarCipher_encrypt [chars 0; VInt U8 23] m w)
  = Ok (VUndef, [ints 8 (str "Zebra" ++ [0])], tt).
Proof. vm_compute. reflexivity. Qed.

(** ** Vernam *)
Theorem C100_vernam_encrypt : forall (W : Type) sc
    (ext : Z -> list val -> mem -> W -> outcome (val * mem * W)) fuel m w b b' s rest key krest,
  m !! b = Some (ints 8 (s ++ 0 :: rest)) -> m !! b' = Some (ints 8 (key ++ krest)) ->
  b <> b' -> text s -> bytes rest -> bytes krest -> len s < 2 ^ 31 ->
  len (s ++ 0 :: rest) < 2 ^ 64 -> len (s ++ 0 :: rest) < Z.of_nat fuel ->
  len key = len s -> Forall (fun k => letter k = true) key ->
  call sc ext fuel c_VernamCipher_encrypt [chars b; chars b'; VInt I32 (len s)] m w
  = Ok (VInt IBool 1,
        <[b := ints 8 (zip_with (fun c k => move (place k) c) s key ++ 0 :: rest)]> m, w).
Proof. exact @text_vernam_encrypt. Qed.
Print Assumptions C100_vernam_encrypt.
Example C100_vernam_encrypt_ex :
  call true no_ext 50 c_VernamCipher_encrypt [chars 0; chars 1; VInt I32 8]
    [ints 8 (str "Zebra, x" ++ [0; 7]); ints 8 (str "KeyABCdz" ++ [0])] tt
  = Ok (VInt IBool 1, [ints 8 (str "Jizrb, w" ++ [0; 7]); ints 8 (str "KeyABCdz" ++ [0])], tt).
Proof. vm_compute. reflexivity. Qed.

Theorem C100_vernam_round : forall (W : Type) sc
    (ext : Z -> list val -> mem -> W -> outcome (val * mem * W)) fuel m w b b' s rest key krest,
  m !! b = Some (ints 8 (s ++ 0 :: rest)) -> m !! b' = Some (ints 8 (key ++ krest)) ->
  b <> b' -> text s -> bytes rest -> bytes krest -> len s < 2 ^ 31 ->
  len (s ++ 0 :: rest) < 2 ^ 64 -> len (s ++ 0 :: rest) < Z.of_nat fuel ->
  len key = len s -> Forall (fun k => letter k = true) key ->
  (let! '(_, m, w) :=
     call sc ext fuel c_VernamCipher_encrypt [chars b; chars b'; VInt I32 (len s)] m w in
   call sc ext fuel c_VernamCipher_decrypt [chars b; chars b'; VInt I32 (len s)] m w)
  = Ok (VInt IBool 1, m, w).
Proof. exact @text_vernam_round. Qed.
Print Assumptions C100_vernam_round.
Example C100_vernam_round_ex :
  call false no_ext 50 c_VernamCipher_decrypt [chars 0; chars 1; VInt I32 8]
    [ints 8 (str "Jizrb, w" ++ [0; 7]); ints 8 (str "KeyABCdz" ++ [0])] tt
  = Ok (VInt IBool 1, [ints 8 (str "Zebra, x" ++ [0; 7]); ints 8 (str "KeyABCdz" ++ [0])], tt).
Proof. vm_compute. reflexivity. Qed.

(** a key length that is not that of the message *)
Theorem C100_vernam_refuse : forall (W : Type) sc
    (ext : Z -> list val -> mem -> W -> outcome (val * mem * W)) fuel m w b b' s rest key krest,
  m !! b = Some (ints 8 (s ++ 0 :: rest)) -> m !! b' = Some (ints 8 (key ++ krest)) ->
  b <> b' -> text s -> bytes rest -> bytes krest -> len s < 2 ^ 31 ->
  len (s ++ 0 :: rest) < 2 ^ 64 -> len (s ++ 0 :: rest) < Z.of_nat fuel ->
  forall f n, f = c_VernamCipher_encrypt \/ f = c_VernamCipher_decrypt ->
  bytes key -> is_s32 n -> n <> len s ->
  call sc ext fuel f [chars b; chars b'; VInt I32 n] m w = Ok (VInt IBool 0, m, w).
Proof. exact @text_vernam_refuse. Qed.
Print Assumptions C100_vernam_refuse.
Example C100_vernam_refuse_ex :
  call true no_ext 50 c_VernamCipher_encrypt [chars 0; chars 1; VInt I32 2]
    [ints 8 (str "abc" ++ [0]); ints 8 (str "bcd" ++ [0])] tt
  = Ok (VInt IBool 0, [ints 8 (str "abc" ++ [0]); ints 8 (str "bcd" ++ [0])], tt).
Proof. vm_compute. reflexivity. Qed.

(** ** ChaCha20 (RFC 8439), from any object to any other or to the same one *)
Theorem C100_chacha20 : forall (W : Type) sc
    (ext : Z -> list val -> mem -> W -> outcome (val * mem * W)) fuel
    m w bp po p br ro r bk key bn nonce n inc,
  m !! bp = Some (ints 8 po) -> m !! br = Some (ints 8 ro) ->
  m !! bk = Some (ints 8 key) -> m !! bn = Some (ints 8 nonce) ->
  br <> bk -> br <> bn -> parameters key nonce -> bytes po -> bytes ro -> is_u32 n -> is_u32 inc ->
  0 <= p -> p + n <= len po -> 0 <= r -> r + n <= len ro ->
  (bp = br -> r <= p \/ p + n <= r) ->
  64 < Z.of_nat fuel -> n / 64 < Z.of_nat fuel ->
  call sc ext fuel c_Chacha20_crypt
    [bytes_at bp p; VInt U32 n; bytes_at bk 0; bytes_at bn 0; VInt U32 inc; bytes_at br r] m w
  = Ok (VUndef, <[br := ints 8 (write ro r (chacha20 key nonce inc (slice po p n)))]> m, w).
Proof. exact @text_chacha20. Qed.
Print Assumptions C100_chacha20.
(** RFC 8439, 2.4.2: the beginning of the ciphertext *)
Example C100_chacha20_ex :
  let key := map Z.of_nat (seq 0 32) in
  let nonce := [0; 0; 0; 0; 0; 0; 0; 0x4a; 0; 0; 0; 0] in
  call true no_ext 70 c_Chacha20_crypt
    [bytes_at 2 1; VInt U32 13; bytes_at 0 0; bytes_at 1 0; VInt U32 1; bytes_at 3 2]
    [ints 8 key; ints 8 nonce; ints 8 (9 :: str "Ladies and Gentlemen"); ints 8 (replicate 16 7)] tt
  = Ok (VUndef,
        [ints 8 key; ints 8 nonce; ints 8 (9 :: str "Ladies and Gentlemen");
         ints 8 [7; 7; 0x6e; 0x2e; 0x35; 0x9a; 0x25; 0x68; 0xf9; 0x80; 0x41; 0xba; 0x07; 0x28; 0xdd; 7]], tt).
Proof. vm_compute. reflexivity. Qed.

Theorem C100_chacha20_back : forall (W : Type) sc
    (ext : Z -> list val -> mem -> W -> outcome (val * mem * W)) fuel
    m w bp po p br ro r bq qo q bk key bn nonce n inc,
  m !! bp = Some (ints 8 po) -> m !! br = Some (ints 8 ro) -> m !! bq = Some (ints 8 qo) ->
  m !! bk = Some (ints 8 key) -> m !! bn = Some (ints 8 nonce) ->
  br <> bk -> br <> bn -> bq <> bk -> bq <> bn -> parameters key nonce ->
  bytes po -> bytes ro -> bytes qo -> is_u32 n -> is_u32 inc ->
  0 <= p -> p + n <= len po -> 0 <= r -> r + n <= len ro -> 0 <= q -> q + n <= len qo ->
  (bp = br -> r <= p \/ p + n <= r) -> (br = bq -> q <= r \/ r + n <= q) ->
  64 < Z.of_nat fuel -> n / 64 < Z.of_nat fuel ->
  exists m' qo',
    (let! '(_, m, w) := call sc ext fuel c_Chacha20_crypt
       [bytes_at bp p; VInt U32 n; bytes_at bk 0; bytes_at bn 0; VInt U32 inc; bytes_at br r] m w in
     call sc ext fuel c_Chacha20_crypt
       [bytes_at br r; VInt U32 n; bytes_at bk 0; bytes_at bn 0; VInt U32 inc; bytes_at bq q] m w)
    = Ok (VUndef, m', w) /\
    m' !! bq = Some (ints 8 qo') /\ slice qo' q n = slice po p n /\ same_but [br; bq] m m'.
Proof. exact @text_chacha20_back. Qed.
Print Assumptions C100_chacha20_back.
Example C100_chacha20_back_ex :
  let key := map Z.of_nat (seq 0 32) in
  (let! '(_, m, w) := call true no_ext 70 c_Chacha20_crypt
     [bytes_at 2 1; VInt U32 3; bytes_at 0 0; bytes_at 1 0; VInt U32 1; bytes_at 3 0]
     [ints 8 key; ints 8 (replicate 12 1); ints 8 [1; 2; 3; 4; 5]; ints 8 [6; 6; 6; 6]] tt in
   let! '(_, m, w) := call true no_ext 70 c_Chacha20_crypt
     [bytes_at 3 0; VInt U32 3; bytes_at 0 0; bytes_at 1 0; VInt U32 1; bytes_at 2 0] m w in
   Ok (m !! 2%nat)) = Ok (Some (ints 8 [2; 3; 4; 4; 5])).
Proof. vm_compute. reflexivity. Qed.
