(** * Model of [/repo/Src/crypto/*.c] *)
From Verif Require Import CSem Model_Utils.

(** ** caesar_cipher.c *)

(** caesar_cipher.c:41 *)
Definition MAX_SHIFT : Z := 26.

(** caesar_cipher.c:50-53 and 65-68 *)
Definition caesar_ascii_val (c : Z) : Z :=
  if Utils_isUpperChar c then UPPER_A_ASCII else LOWER_A_ASCII.

(** caesar_cipher.c:45-58.  [%] has an unsigned operand ([26U]), so the [int] on its left
    is converted to [unsigned int] first. *)
Definition CaesarCipher_encrypt (msg : list Z) (shift : Z) : outcome (list Z) :=
  let! length := strlen msg in
  cfor 0 length
    (fun i msg =>
       let! c := load msg i in
       if Utils_isAlpha c then
         let ascii_val := caesar_ascii_val c in
         let encrypted_char :=
           u8 (u32 (u32 (u8 c + shift - ascii_val) mod MAX_SHIFT + ascii_val)) in
         store msg i encrypted_char
       else Ok msg) msg.

(** caesar_cipher.c:60-73 *)
Definition CaesarCipher_decrypt (msg : list Z) (shift : Z) : outcome (list Z) :=
  let! length := strlen msg in
  cfor 0 length
    (fun i msg =>
       let! c := load msg i in
       if Utils_isAlpha c then
         let ascii_val := caesar_ascii_val c in
         let decrypted_char :=
           u8 (u32 (u32 (u8 c - shift - ascii_val) mod MAX_SHIFT + ascii_val)) in
         store msg i decrypted_char
       else Ok msg) msg.

(** ** vernam_cipher.c *)

(** vernam_cipher.c:43 *)
Definition NUM_OF_ALPHA : Z := 26.

(** vernam_cipher.c:52-55 and 79-82 *)
Definition vernam_c (k : Z) : Z :=
  if Utils_isLowerChar k then LOWER_A_ASCII else UPPER_A_ASCII.

(** vernam_cipher.c:45-70.  No [int] operation below can overflow (all operands are
    characters), so none is checked.  Storing an [int] into a [char] keeps its low 8 bits. *)
Definition VernamCipher_encrypt (msg key : list Z) (key_length : Z)
  : outcome (bool * list Z) :=
  let! msg_length := strlen msg in
  if s32 msg_length =? key_length then
    let! msg :=
      cfor 0 key_length
        (fun i msg =>
           let! m := load msg i in
           if Utils_isAlpha m then
             let! k := load key i in
             let c := vernam_c k in
             let ascii_val := caesar_ascii_val m in
             let temp := crem (s8 m - ascii_val + s8 k - c) NUM_OF_ALPHA in
             store msg i (u8 (temp + ascii_val))
           else Ok msg) msg in
    Ok (true, msg)
  else Ok (false, msg).

(** vernam_cipher.c:72-97; here the characters are used as plain [char] values *)
Definition VernamCipher_decrypt (signed_char : bool) (msg key : list Z) (key_length : Z)
  : outcome (bool * list Z) :=
  let! msg_length := strlen msg in
  if s32 msg_length =? key_length then
    let! msg :=
      cfor 0 key_length
        (fun i msg =>
           let! m := load msg i in
           if Utils_isAlpha m then
             let! k := load key i in
             let c := vernam_c k in
             let ascii_val := caesar_ascii_val m in
             let cipher := (char_val signed_char m - ascii_val)
                           - (char_val signed_char k - c) in
             let cipher := if cipher <? 0 then cipher + NUM_OF_ALPHA + ascii_val
                           else cipher + ascii_val in
             store msg i (u8 cipher)
           else Ok msg) msg in
    Ok (true, msg)
  else Ok (false, msg).

(** ** chacha20.c *)

(** chacha20.c:42-43, 46-49, 62; chacha20.h sizes *)
Definition KEY_STREAM_SIZE : Z := 64.
Definition BLOCK_SIZE : Z := 64.
Definition CHACHA_MAGIC_NUMBER_PART_1 : Z := 1634760805. (* 0x61707865 *)
Definition CHACHA_MAGIC_NUMBER_PART_2 : Z := 857760878.  (* 0x3320646e *)
Definition CHACHA_MAGIC_NUMBER_PART_3 : Z := 2036477234. (* 0x79622d32 *)
Definition CHACHA_MAGIC_NUMBER_PART_4 : Z := 1797285236. (* 0x6b206574 *)
Definition CHACHA20_ROUNDS : Z := 10.

(** chacha20.c:64-74.  The sixteen local variables x0..x15 of [Block] are a list [x]; the
    four pointers are the indices of four different ones. *)
Definition QuarterRound (x : list Z) (a b c d : Z) : outcome (list Z) :=
  let! xa := load x a in
  let! xb := load x b in
  let! xc := load x c in
  let! xd := load x d in
  let xa := u32 (xa + xb) in
  let! xd := BitManipulation_rotl32 (Z.lxor xd xa) 16 in
  let xc := u32 (xc + xd) in
  let! xb := BitManipulation_rotl32 (Z.lxor xb xc) 12 in
  let xa := u32 (xa + xb) in
  let! xd := BitManipulation_rotl32 (Z.lxor xd xa) 8 in
  let xc := u32 (xc + xd) in
  let! xb := BitManipulation_rotl32 (Z.lxor xb xc) 7 in
  let! x := store x a xa in
  let! x := store x b xb in
  let! x := store x c xc in
  store x d xd.

(** chacha20.c:80-95 (and again 108-123): the initial value of x0..x15 *)
Definition chacha_init (key nonce : list Z) (counter : Z) : outcome (list Z) :=
  let! x4 := Utils_deserialize32LE key 0 in
  let! x5 := Utils_deserialize32LE key 4 in
  let! x6 := Utils_deserialize32LE key 8 in
  let! x7 := Utils_deserialize32LE key 12 in
  let! x8 := Utils_deserialize32LE key 16 in
  let! x9 := Utils_deserialize32LE key 20 in
  let! x10 := Utils_deserialize32LE key 24 in
  let! x11 := Utils_deserialize32LE key 28 in
  let! x13 := Utils_deserialize32LE nonce 0 in
  let! x14 := Utils_deserialize32LE nonce 4 in
  let! x15 := Utils_deserialize32LE nonce 8 in
  Ok [CHACHA_MAGIC_NUMBER_PART_1; CHACHA_MAGIC_NUMBER_PART_2;
      CHACHA_MAGIC_NUMBER_PART_3; CHACHA_MAGIC_NUMBER_PART_4;
      x4; x5; x6; x7; x8; x9; x10; x11; counter; x13; x14; x15].

(** chacha20.c:98-105 *)
Definition chacha_double_round (x : list Z) : outcome (list Z) :=
  let! x := QuarterRound x 0 4 8 12 in
  let! x := QuarterRound x 1 5 9 13 in
  let! x := QuarterRound x 2 6 10 14 in
  let! x := QuarterRound x 3 7 11 15 in
  let! x := QuarterRound x 0 5 10 15 in
  let! x := QuarterRound x 1 6 11 12 in
  let! x := QuarterRound x 2 7 8 13 in
  QuarterRound x 3 4 9 14.

(** chacha20.c:76-142, the static function [Block]; [out] is the key-stream array *)
Definition Block (key : list Z) (counter : Z) (nonce : list Z) (out : list Z)
  : outcome (list Z) :=
  let! init := chacha_init key nonce counter in
  let! x := cfor 0 CHACHA20_ROUNDS (fun _ x => chacha_double_round x) init in
  (* chacha20.c:108-123 *)
  let! x := cfor 0 16
              (fun i x =>
                 let! xi := load x i in
                 let! yi := load init i in
                 store x i (u32 (xi + yi))) x in
  (* chacha20.c:126-141 *)
  cfor 0 16
    (fun i out => let! xi := load x i in Utils_serialize32LE out (4 * i) xi) out.

(** chacha20.c:144-172.  [plaintext] and [result] point at offsets [p] and [r] of the same
    memory [m] (in-place use is [p = r]); [key] and [nonce] are other objects. *)
Definition Chacha20_crypt (m : list Z) (p plaintext_len : Z) (key nonce : list Z)
    (inc r : Z) : outcome (list Z) :=
  let blocks := plaintext_len / BLOCK_SIZE in
  let remaining_bytes := plaintext_len mod BLOCK_SIZE in
  (* chacha20.c:155-162 *)
  let! m :=
    cfor 0 blocks
      (fun j m =>
         let! key_stream := Block key (u32 (j + inc)) nonce (replicate 64 0) in
         cfor 0 BLOCK_SIZE
           (fun i m =>
              let k := u32 (u32 (j * BLOCK_SIZE) + i) in
              let! a := load m (p + k) in
              let! b := load key_stream i in
              store m (r + k) (u8 (Z.lxor a b))) m) m in
  (* chacha20.c:164-171 *)
  if negb (remaining_bytes =? 0) then
    let! key_stream := Block key (u32 (blocks + inc)) nonce (replicate 64 0) in
    cfor 0 remaining_bytes
      (fun i m =>
         let k := u32 (u32 (blocks * BLOCK_SIZE) + i) in
         let! a := load m (p + k) in
         let! b := load key_stream i in
         store m (r + k) (u8 (Z.lxor a b))) m
  else Ok m.
