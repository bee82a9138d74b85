(** * C115: what the C text gives away besides its results

    [lcall] runs a function of the C text and lists what an observer may see: every branch, every
    address, the operands of multiplications, divisions and remainders, the amounts of shifts
    ([CLeak.v]).  Two memories of [same_shape] differ at most in the numbers they hold.  ChaCha20,
    the byte-order functions, the bit functions and the copying functions show the same events
    whatever the data; the table-driven and the letter-by-letter functions do not. *)
From Coq Require Import String.
From Verif Require Import CSem Lib CLang CLeak C_Utils C_Crypto C_Base64 C_CrcVariants C_Json.
From Verif Require Import Spec_ChaCha Refine Drive_TextRun Proof_LeakSame Proof_LeakFuns.

Local Notation chars b := (VPtr (TInt IChar) (BObj b) 0).
Local Notation bytes_at b p := (VPtr (TInt U8) (BObj b) p).

(** ** The events are only added: the results are those of [call] *)
Theorem C115_same : forall (W : Type) sc
    (ext : Z -> list val -> mem -> W -> outcome (val * mem * W)) fuel f vs m w t,
  call sc ext fuel f vs m w = let! '(v, m, (w, _)) := lcall sc ext fuel f vs m (w, t) in Ok (v, m, w).
Proof. exact @call_same. Qed.
Print Assumptions C115_same.
(** the events of a small call, newest first: the branch not taken at the end of the loop, the
    test and the shift of the last bit, ... *)
Example C115_same_ex :
  lcall true no_ext 9 c_BitManipulation_reflect [VInt U32 1; VInt U8 2] [] (tt, [])
  = Ok (VInt U32 2, [],
        (tt, [EvBranch false; EvShift (VInt U32 1); EvBranch false; EvBranch true;
              EvShift (VInt U32 1); EvShift (VInt U32 1); EvBranch true; EvBranch true])) /\
  lcall true no_ext 9 c_Utils_deserialize16LE [bytes_at 0 1] [ints 8 [7; 2; 1]] (tt, [])
  = Ok (VInt U16 258, [ints 8 [7; 2; 1]],
        (tt, [EvAddr (BObj 0) 1; EvShift (VInt U32 8); EvAddr (BObj 0) 2])) /\
  lcall true no_ext 9 c_Utils_serialize16LE [bytes_at 0 1; VInt U16 258] [ints 8 [7; 8; 9]] (tt, [])
  = Ok (VUndef, [ints 8 [7; 2; 1]],
        (tt, [EvAddr (BObj 0) 1; EvAddr (BObj 0) 2; EvShift (VInt U32 8)])) /\
  lcall true no_ext 9 c_Json_startString [chars 0; VInt U64 3] [ints 8 [7; 8; 9]] (tt, [])
  = Ok (VInt IBool 1, [ints 8 [123; 0; 9]],
        (tt, [EvLib LStrcpy [chars 0; VPtr (TInt IChar) (BData 8 [123; 0]) 0] [ints 8 [7; 8; 9]]; EvBranch true])) /\
  lcall true no_ext 9 c_Utils_isAlpha [VInt IChar 65] [] (tt, [])
  = Ok (VInt IBool 1, [],
        (tt, [EvBranch true; EvBranch false; EvBranch false; EvBranch true; EvBranch true])) /\
  lcall true no_ext 9 c_VernamCipher_decrypt [chars 0; chars 1; VInt I32 1] [ints 8 [66; 0]; ints 8 [65]] (tt, [])
  = Ok (VInt IBool 1, [ints 8 [66; 0]; ints 8 [65]],
        (tt, [EvBranch false; EvAddr (BObj 0) 0; EvBranch false; EvAddr (BObj 1) 0; EvAddr (BObj 0) 0;
              EvBranch true; EvBranch true; EvBranch true; EvAddr (BObj 0) 0; EvBranch false; EvBranch false;
              EvBranch false; EvAddr (BObj 1) 0; EvBranch true; EvBranch true; EvBranch false;
              EvBranch false; EvBranch true; EvBranch true; EvAddr (BObj 0) 0; EvBranch true; EvBranch true;
              EvLib LStrlen [chars 0] [ints 8 [66; 0]; ints 8 [65]]])).
Proof. repeat split; vm_compute; reflexivity. Qed.

(** ** ChaCha20: any two keys, nonces, counters and messages of one length *)
Theorem C115_Chacha20_crypt : forall (W : Type) sc
    (ext : Z -> list val -> mem -> W -> outcome (val * mem * W)) fuel
    m m' w w' bp p br r bk bn n po ro key nonce inc po' ro' key' nonce' inc',
  same_shape m m' ->
  m !! bp = Some (ints 8 po) -> m !! br = Some (ints 8 ro) ->
  m !! bk = Some (ints 8 key) -> m !! bn = Some (ints 8 nonce) ->
  m' !! bp = Some (ints 8 po') -> m' !! br = Some (ints 8 ro') ->
  m' !! bk = Some (ints 8 key') -> m' !! bn = Some (ints 8 nonce') ->
  br <> bk -> br <> bn -> parameters key nonce -> parameters key' nonce' ->
  bytes po -> bytes ro -> bytes po' -> bytes ro' -> is_u32 n -> is_u32 inc -> is_u32 inc' ->
  0 <= p -> p + n <= len po -> 0 <= r -> r + n <= len ro ->
  (bp = br -> r <= p \/ p + n <= r) ->
  64 < Z.of_nat fuel -> n / 64 < Z.of_nat fuel ->
  exists t,
    lcall sc ext fuel c_Chacha20_crypt
      [bytes_at bp p; VInt U32 n; bytes_at bk 0; bytes_at bn 0; VInt U32 inc; bytes_at br r] m (w, [])
    = Ok (VUndef, <[br := ints 8 (write ro r (chacha20 key nonce inc (slice po p n)))]> m, (w, t)) /\
    lcall sc ext fuel c_Chacha20_crypt
      [bytes_at bp p; VInt U32 n; bytes_at bk 0; bytes_at bn 0; VInt U32 inc'; bytes_at br r] m' (w', [])
    = Ok (VUndef, <[br := ints 8 (write ro' r (chacha20 key' nonce' inc' (slice po' p n)))]> m', (w', t)).
Proof. exact @leak_chacha. Qed.
Print Assumptions C115_Chacha20_crypt.
(** two runs that have nothing in common but the lengths: thousands of equal events, different
    results *)
Example C115_Chacha20_crypt_ex :
  let run key nonce text inc :=
    lcall true no_ext 70 c_Chacha20_crypt
      [bytes_at 2 0; VInt U32 66; bytes_at 0 0; bytes_at 1 0; VInt U32 inc; bytes_at 2 0]
      [ints 8 key; ints 8 nonce; ints 8 text] (tt, []) in
  let a := run (map Z.of_nat (seq 0 32)) (replicate 12 0) (replicate 66 1) 0 in
  let b := run (map Z.of_nat (seq 99 32)) (replicate 12 200) (map Z.of_nat (seq 0 66)) 4294967295 in
  (let! x := a in Ok (snd (snd x))) = (let! x := b in Ok (snd (snd x))) /\
  (let! x := a in Ok (5000 <? len (snd (snd x)))) = Ok true /\
  (let! x := a in Ok (snd (fst x))) <> (let! x := b in Ok (snd (fst x))).
Proof. vm_compute. repeat split; try reflexivity. discriminate. Qed.

Theorem C115_Block : forall (W : Type) sc
    (ext : Z -> list val -> mem -> W -> outcome (val * mem * W)) fuel
    key n n' nonce out m m' w w' v v' m1 m1' w1 w1',
  same_shape m m' ->
  call sc ext fuel c_Block [key; VInt U32 n; nonce; out] m w = Ok (v, m1, w1) ->
  call sc ext fuel c_Block [key; VInt U32 n'; nonce; out] m' w' = Ok (v', m1', w1') ->
  exists t, lcall sc ext fuel c_Block [key; VInt U32 n; nonce; out] m (w, []) = Ok (v, m1, (w1, t)) /\
            lcall sc ext fuel c_Block [key; VInt U32 n'; nonce; out] m' (w', []) = Ok (v', m1', (w1', t)).
Proof. exact @leak_block. Qed.
Print Assumptions C115_Block.
Example C115_Block_ex :
  let run n key :=
    lcall true no_ext 20 c_Block [bytes_at 0 0; VInt U32 n; bytes_at 1 0; bytes_at 2 0]
      [ints 8 key; ints 8 (replicate 12 5); ints 8 (replicate 64 0)] (tt, []) in
  (let! x := run 1 (replicate 32 7) in Ok (snd (snd x))) = (let! x := run 2 (replicate 32 0) in Ok (snd (snd x))).
Proof. vm_compute. reflexivity. Qed.

(** ** Functions whose arguments are pointers and lengths: the contents are not given away *)
Theorem C115_memory : forall (W : Type) sc
    (ext : Z -> list val -> mem -> W -> outcome (val * mem * W)) fuel
    f vs m m' w w' v v' m1 m1' w1 w1',
  f ∈ [c_QuarterRound; c_Utils_swapElements; c_Utils_deserialize8;
       c_Utils_deserialize16BE; c_Utils_deserialize24BE; c_Utils_deserialize32BE;
       c_Utils_deserialize16LE; c_Utils_deserialize24LE; c_Utils_deserialize32LE;
       c_Utils_serializeBlobBE; c_Utils_serializeBlobLE;
       c_Utils_deserializeBlobBE; c_Utils_deserializeBlobLE] ->
  same_shape m m' ->
  call sc ext fuel f vs m w = Ok (v, m1, w1) -> call sc ext fuel f vs m' w' = Ok (v', m1', w1') ->
  exists t, lcall sc ext fuel f vs m (w, []) = Ok (v, m1, (w1, t)) /\
            lcall sc ext fuel f vs m' (w', []) = Ok (v', m1', (w1', t)).
Proof. exact @leak_memory. Qed.
Print Assumptions C115_memory.
Example C115_memory_ex :
  let run l := lcall true no_ext 9 c_Utils_swapElements [bytes_at 0 0; bytes_at 0 2; VInt U32 2] [ints 8 l] (tt, []) in
  (let! x := run [1; 2; 3; 4] in Ok (snd (snd x))) = (let! x := run [200; 0; 9; 9] in Ok (snd (snd x))) /\
  (let! x := run [1; 2; 3; 4] in Ok (snd (snd x))) = (let! x := run [9; 0; 9; 9] in Ok (snd (snd x))) /\
  (let! x := run [1; 2; 3; 4] in Ok (snd (fst x))) = Ok [ints 8 [3; 4; 1; 2]] /\
  (let read f l := lcall true no_ext 9 f [bytes_at 0 0] [ints 8 l] (tt, []) in
   Forall (fun f => (let! x := read f [1; 2; 3; 4] in Ok (snd (snd x))) = (let! x := read f [0; 255; 0; 0] in Ok (snd (snd x))))
     [c_Utils_deserialize8; c_Utils_deserialize16BE; c_Utils_deserialize24BE; c_Utils_deserialize32BE;
      c_Utils_deserialize16LE; c_Utils_deserialize24LE; c_Utils_deserialize32LE]).
Proof. repeat split; repeat constructor; vm_compute; reflexivity. Qed.

(** ** Numbers passed as arguments that are not given away *)
Theorem C115_serialize : forall (W : Type) sc
    (ext : Z -> list val -> mem -> W -> outcome (val * mem * W)) fuel
    f p ty d d' m m' w w' v v' m1 m1' w1 w1',
  f ∈ [c_Utils_serialize8; c_Utils_serialize16BE; c_Utils_serialize24BE; c_Utils_serialize32BE;
       c_Utils_serialize16LE; c_Utils_serialize24LE; c_Utils_serialize32LE] ->
  same_shape m m' ->
  call sc ext fuel f [p; VInt ty d] m w = Ok (v, m1, w1) ->
  call sc ext fuel f [p; VInt ty d'] m' w' = Ok (v', m1', w1') ->
  exists t, lcall sc ext fuel f [p; VInt ty d] m (w, []) = Ok (v, m1, (w1, t)) /\
            lcall sc ext fuel f [p; VInt ty d'] m' (w', []) = Ok (v', m1', (w1', t)).
Proof. exact @leak_serialize. Qed.
Print Assumptions C115_serialize.
Example C115_serialize_ex :
  let run d := lcall true no_ext 9 c_Utils_serialize24BE [bytes_at 0 1; VInt U32 d] [ints 8 [1; 2; 3; 4]] (tt, []) in
  (let! x := run 0 in Ok (snd (snd x))) = (let! x := run 3808044 in Ok (snd (snd x))) /\
  (let! x := run 3808044 in Ok (snd (fst x))) = Ok [ints 8 [1; 58; 27; 44]] /\
  (let write f d := lcall true no_ext 9 f [bytes_at 0 1; VInt U16 d] [ints 8 [1; 2; 3; 4]] (tt, []) in
   Forall (fun f => (let! x := write f 0 in Ok (snd (snd x))) = (let! x := write f 65535 in Ok (snd (snd x))))
     [c_Utils_serialize16BE; c_Utils_serialize16LE]).
Proof. repeat split; repeat constructor; vm_compute; reflexivity. Qed.

Theorem C115_bits : forall (W : Type) sc
    (ext : Z -> list val -> mem -> W -> outcome (val * mem * W)) fuel
    f d d' n p m m' w w' v v' m1 m1' w1 w1',
  f ∈ [c_BitManipulation_bitSet; c_BitManipulation_setBit; c_BitManipulation_clearBit;
       c_BitManipulation_toggleBit] ->
  same_shape m m' ->
  call sc ext fuel f [VInt U32 d; n; p] m w = Ok (v, m1, w1) ->
  call sc ext fuel f [VInt U32 d'; n; p] m' w' = Ok (v', m1', w1') ->
  exists t, lcall sc ext fuel f [VInt U32 d; n; p] m (w, []) = Ok (v, m1, (w1, t)) /\
            lcall sc ext fuel f [VInt U32 d'; n; p] m' (w', []) = Ok (v', m1', (w1', t)).
Proof. exact @leak_bits. Qed.
Print Assumptions C115_bits.
Example C115_bits_ex :
  let run f d t := lcall true no_ext 9 f [VInt U32 d; VInt U8 31; VPtr (TInt t) (BObj 0) 0] [ints (width t) [0]] (tt, []) in
  (let! x := run c_BitManipulation_toggleBit 5 U32 in Ok (snd (fst x))) = Ok [ints 32 [2147483653]] /\
  Forall (fun f => (let! x := run f 5 U32 in Ok (snd (snd x))) = (let! x := run f 4294967295 U32 in Ok (snd (snd x))))
    [c_BitManipulation_setBit; c_BitManipulation_clearBit; c_BitManipulation_toggleBit] /\
  (let! x := run c_BitManipulation_bitSet 5 IBool in Ok (snd (snd x)))
  = (let! x := run c_BitManipulation_bitSet 4294967295 IBool in Ok (snd (snd x))).
Proof. repeat split; repeat constructor; vm_compute; reflexivity. Qed.

Theorem C115_rotl32 : forall (W : Type) sc
    (ext : Z -> list val -> mem -> W -> outcome (val * mem * W)) fuel
    d d' n m m' w w' v v' m1 m1' w1 w1',
  same_shape m m' ->
  call sc ext fuel c_BitManipulation_rotl32 [VInt U32 d; n] m w = Ok (v, m1, w1) ->
  call sc ext fuel c_BitManipulation_rotl32 [VInt U32 d'; n] m' w' = Ok (v', m1', w1') ->
  exists t,
    lcall sc ext fuel c_BitManipulation_rotl32 [VInt U32 d; n] m (w, []) = Ok (v, m1, (w1, t)) /\
    lcall sc ext fuel c_BitManipulation_rotl32 [VInt U32 d'; n] m' (w', []) = Ok (v', m1', (w1', t)).
Proof. exact @leak_rotl32. Qed.
Print Assumptions C115_rotl32.
Example C115_rotl32_ex :
  let run d := lcall true no_ext 9 c_BitManipulation_rotl32 [VInt U32 d; VInt U32 3] [] (tt, []) in
  (let! x := run 5 in Ok (snd (snd x))) = (let! x := run 4294967295 in Ok (snd (snd x))) /\
  (let! x := run 5 in Ok (snd (snd x))) = (let! x := run 0 in Ok (snd (snd x))) /\
  (let! x := run 5 in Ok (fst x)) = Ok (VInt U32 40, []).
Proof. repeat split; vm_compute; reflexivity. Qed.

(** ** Functions that do give their data away: two runs on the same positions and lengths whose
    events differ *)
(** the message: which characters are letters, and of which case *)
Theorem C115_caesar_refuted : exists v v' m1 m1' t t',
  lcall true no_ext 300 c_CaesarCipher_encrypt [chars 0; VInt U8 3]
    [ints 8 [65; 66; 0]] (tt, []) = Ok (v, m1, (tt, t)) /\
  lcall true no_ext 300 c_CaesarCipher_encrypt [chars 0; VInt U8 3]
    [ints 8 [65; 98; 0]] (tt, []) = Ok (v', m1', (tt, t')) /\
  t <> t'.
Proof. do 6 eexists. split; [vm_compute; reflexivity|]. split; [vm_compute; reflexivity|]. discriminate. Qed.
Print Assumptions C115_caesar_refuted.

(** the key: one of the operands of a remainder *)
Theorem C115_caesar_key_refuted : exists v v' m1 m1' t t',
  lcall true no_ext 300 c_CaesarCipher_encrypt [chars 0; VInt U8 3]
    [ints 8 [65; 66; 0]] (tt, []) = Ok (v, m1, (tt, t)) /\
  lcall true no_ext 300 c_CaesarCipher_encrypt [chars 0; VInt U8 4]
    [ints 8 [65; 66; 0]] (tt, []) = Ok (v', m1', (tt, t')) /\
  t <> t'.
Proof. do 6 eexists. split; [vm_compute; reflexivity|]. split; [vm_compute; reflexivity|]. discriminate. Qed.
Print Assumptions C115_caesar_key_refuted.

(** the key, with the same message *)
Theorem C115_vernam_refuted : exists v v' m1 m1' t t',
  lcall true no_ext 300 c_VernamCipher_encrypt [chars 0; chars 1; VInt I32 2]
    [ints 8 [65; 66; 0]; ints 8 [65; 66]] (tt, []) = Ok (v, m1, (tt, t)) /\
  lcall true no_ext 300 c_VernamCipher_encrypt [chars 0; chars 1; VInt I32 2]
    [ints 8 [65; 66; 0]; ints 8 [65; 67]] (tt, []) = Ok (v', m1', (tt, t')) /\
  t <> t'.
Proof. do 6 eexists. split; [vm_compute; reflexivity|]. split; [vm_compute; reflexivity|]. discriminate. Qed.
Print Assumptions C115_vernam_refuted.

(** the data: it is the index into the table *)
Theorem C115_encode_refuted : exists v v' m1 m1' t t',
  lcall true no_ext 300 c_Base64_encode [chars 0; VInt U64 1; chars 1; VInt U64 4]
    [ints 8 [203]; ints 8 (replicate 5 1)] (tt, []) = Ok (v, m1, (tt, t)) /\
  lcall true no_ext 300 c_Base64_encode [chars 0; VInt U64 1; chars 1; VInt U64 4]
    [ints 8 [7]; ints 8 (replicate 5 1)] (tt, []) = Ok (v', m1', (tt, t')) /\
  t <> t'.
Proof. do 6 eexists. split; [vm_compute; reflexivity|]. split; [vm_compute; reflexivity|]. discriminate. Qed.
Print Assumptions C115_encode_refuted.

(** the text: it is the index into the table *)
Theorem C115_decode_refuted : exists v v' m1 m1' t t',
  lcall true no_ext 300 c_Base64_decode [chars 0; VInt U64 4; bytes_at 1 0; VInt U64 3]
    [ints 8 [84; 87; 70; 117]; ints 8 (replicate 3 9)] (tt, []) = Ok (v, m1, (tt, t)) /\
  lcall true no_ext 300 c_Base64_decode [chars 0; VInt U64 4; bytes_at 1 0; VInt U64 3]
    [ints 8 [84; 87; 70; 118]; ints 8 (replicate 3 9)] (tt, []) = Ok (v', m1', (tt, t')) /\
  t <> t'.
Proof. do 6 eexists. split; [vm_compute; reflexivity|]. split; [vm_compute; reflexivity|]. discriminate. Qed.
Print Assumptions C115_decode_refuted.

(** the data of a checksum: it is the index into the table *)
Theorem C115_Crc8_refuted : exists v v' m1 m1' t t',
  lcall true no_ext 300 c_Crc8 [bytes_at 0 0; VInt U32 1; VNull]
    [ints 8 [1]] (tt, []) = Ok (v, m1, (tt, t)) /\
  lcall true no_ext 300 c_Crc8 [bytes_at 0 0; VInt U32 1; VNull]
    [ints 8 [2]] (tt, []) = Ok (v', m1', (tt, t')) /\
  t <> t'.
Proof. do 6 eexists. split; [vm_compute; reflexivity|]. split; [vm_compute; reflexivity|]. discriminate. Qed.
Print Assumptions C115_Crc8_refuted.

Theorem C115_Crc16_refuted : exists v v' m1 m1' t t',
  lcall true no_ext 300 c_Crc16_ccitFalse [bytes_at 0 0; VInt U32 1; VNull]
    [ints 8 [1]] (tt, []) = Ok (v, m1, (tt, t)) /\
  lcall true no_ext 300 c_Crc16_ccitFalse [bytes_at 0 0; VInt U32 1; VNull]
    [ints 8 [2]] (tt, []) = Ok (v', m1', (tt, t')) /\
  t <> t'.
Proof. do 6 eexists. split; [vm_compute; reflexivity|]. split; [vm_compute; reflexivity|]. discriminate. Qed.
Print Assumptions C115_Crc16_refuted.

Theorem C115_Crc32_refuted : exists v v' m1 m1' t t',
  lcall true no_ext 300 c_Crc32 [bytes_at 0 0; VInt U32 1; VInt IBool 1; VNull]
    [ints 8 [1]] (tt, []) = Ok (v, m1, (tt, t)) /\
  lcall true no_ext 300 c_Crc32 [bytes_at 0 0; VInt U32 1; VInt IBool 1; VNull]
    [ints 8 [2]] (tt, []) = Ok (v', m1', (tt, t')) /\
  t <> t'.
Proof. do 6 eexists. split; [vm_compute; reflexivity|]. split; [vm_compute; reflexivity|]. discriminate. Qed.
Print Assumptions C115_Crc32_refuted.

(** every bit of the number: it is the condition of a branch *)
Theorem C115_reflect_refuted : exists v v' m1 m1' t t',
  lcall true no_ext 300 c_BitManipulation_reflect [VInt U32 1; VInt U8 8]
    [] (tt, []) = Ok (v, m1, (tt, t)) /\
  lcall true no_ext 300 c_BitManipulation_reflect [VInt U32 2; VInt U8 8]
    [] (tt, []) = Ok (v', m1', (tt, t')) /\
  t <> t'.
Proof. do 6 eexists. split; [vm_compute; reflexivity|]. split; [vm_compute; reflexivity|]. discriminate. Qed.
Print Assumptions C115_reflect_refuted.

(** whether a character that is not a letter comes before or after the letters *)
Theorem C115_isUpperChar_refuted : exists v v' m1 m1' t t',
  lcall true no_ext 300 c_Utils_isUpperChar [VInt IChar 32]
    [] (tt, []) = Ok (v, m1, (tt, t)) /\
  lcall true no_ext 300 c_Utils_isUpperChar [VInt IChar 120]
    [] (tt, []) = Ok (v', m1', (tt, t')) /\
  t <> t'.
Proof. do 6 eexists. split; [vm_compute; reflexivity|]. split; [vm_compute; reflexivity|]. discriminate. Qed.
Print Assumptions C115_isUpperChar_refuted.

(** the amount of a rotation *)
Theorem C115_rotl32_amount_refuted : exists v v' m1 m1' t t',
  lcall true no_ext 300 c_BitManipulation_rotl32 [VInt U32 5; VInt U32 3]
    [] (tt, []) = Ok (v, m1, (tt, t)) /\
  lcall true no_ext 300 c_BitManipulation_rotl32 [VInt U32 5; VInt U32 4]
    [] (tt, []) = Ok (v', m1', (tt, t')) /\
  t <> t'.
Proof. do 6 eexists. split; [vm_compute; reflexivity|]. split; [vm_compute; reflexivity|]. discriminate. Qed.
Print Assumptions C115_rotl32_amount_refuted.
