(** * C01-C08: utils.c and bit_manipulation.c *)
From Verif Require Import Lib Model_Utils Spec_Utils Proof_Utils.

(** ** C01 Decimal string parsing is exact *)

(** [rest] is whatever follows the given characters in memory, possibly nothing: the
    outcome is not [UB], so nothing outside [s] is needed. *)
Theorem C01_parse_exact : forall sc s rest,
  bytes s -> len s <= 10 ->
  exists ok v,
    Utils_stringToUint32 sc (s ++ rest) (len s) = Ok (ok, v) /\
    (ok = true <-> Forall is_digit s /\ decimal s <= 2 ^ 32 - 1) /\
    (ok = true -> v = decimal s).
Proof. exact parse_ok. Qed.
Print Assumptions C01_parse_exact.
(* 4294967295, then 4294967296, then 0000000042 *)
Example C01_parse_exact_ex :
  bytes [52;50;57;52;57;54;55;50;57;53] /\
  Utils_stringToUint32 true [52;50;57;52;57;54;55;50;57;53] 10 = Ok (true, 4294967295) /\
  Utils_stringToUint32 true [52;50;57;52;57;54;55;50;57;54] 10 = Ok (false, 429496729) /\
  Utils_stringToUint32 false [48;48;48;48;48;48;48;48;52;50] 10 = Ok (true, 42) /\
  Utils_stringToUint32 true [] 0 = Ok (true, 0).
Proof. ex. Qed.

(** a failed call leaves the digits before the first bad character, scaled as if zeros
    followed up to the length (of ten characters, only the first nine count) *)
Theorem C01_failure_value : forall sc s rest v,
  bytes s -> len s <= 10 -> Utils_stringToUint32 sc (s ++ rest) (len s) = Ok (false, v) ->
  exists d t, s = d ++ t /\ Forall is_digit d /\ len d <= Z.min (len s) 9 /\
    (len d < Z.min (len s) 9 -> ~ is_digit (get t 0)) /\
    v = decimal d * 10 ^ (Z.min (len s) 9 - len d).
Proof. exact parse_fail. Qed.
Print Assumptions C01_failure_value.
(* 12x4, then 4294967296 *)
Example C01_failure_value_ex :
  Utils_stringToUint32 true [49;50;120;52] 4 = Ok (false, 1200) /\
  Utils_stringToUint32 true [52;50;57;52;57;54;55;50;57;54] 10 = Ok (false, 429496729).
Proof. ex. Qed.

(** longer than ten: fails, reading only the first character, and leaves 0 *)
Theorem C01_parse_long : forall sc c rest n,
  is_byte c -> 10 < n <= 255 ->
  Utils_stringToUint32 sc (c :: rest) n = Ok (false, 0).
Proof. exact parse_long. Qed.
Print Assumptions C01_parse_long.
Example C01_parse_long_ex : Utils_stringToUint32 true [48] 11 = Ok (false, 0).
Proof. ex. Qed.

(** ** C02 Fixed-width (de)serializers *)

Theorem C02_serialize : forall pre post o1 o2 o3 o4 v,
  len o1 = 1 -> len o2 = 2 -> len o3 = 3 -> len o4 = 4 ->
  Utils_serialize8 (pre ++ o1 ++ post) (len pre) v = Ok (pre ++ be_bytes 1 v ++ post) /\
  Utils_serialize16BE (pre ++ o2 ++ post) (len pre) v = Ok (pre ++ be_bytes 2 v ++ post) /\
  Utils_serialize24BE (pre ++ o3 ++ post) (len pre) v = Ok (pre ++ be_bytes 3 v ++ post) /\
  Utils_serialize32BE (pre ++ o4 ++ post) (len pre) v = Ok (pre ++ be_bytes 4 v ++ post) /\
  Utils_serialize16LE (pre ++ o2 ++ post) (len pre) v = Ok (pre ++ le_bytes 2 v ++ post) /\
  Utils_serialize24LE (pre ++ o3 ++ post) (len pre) v = Ok (pre ++ le_bytes 3 v ++ post) /\
  Utils_serialize32LE (pre ++ o4 ++ post) (len pre) v = Ok (pre ++ le_bytes 4 v ++ post).
Proof. exact serialize_all. Qed.
Print Assumptions C02_serialize.
Example C02_serialize_ex :
  Utils_serialize32BE [9; 0; 0; 0; 0; 7] 1 0x12345678 = Ok [9; 0x12; 0x34; 0x56; 0x78; 7] /\
  Utils_serialize24LE [9; 0; 0; 0; 0; 7] 1 0x12345678 = Ok [9; 0x78; 0x56; 0x34; 0; 7] /\
  be_bytes 4 0x12345678 = [0x12; 0x34; 0x56; 0x78].
Proof. ex. Qed.

Theorem C02_deserialize : forall pre post b1 b2 b3 b4,
  bytes (b1 ++ b2 ++ b3 ++ b4) ->
  len b1 = 1 -> len b2 = 2 -> len b3 = 3 -> len b4 = 4 ->
  Utils_deserialize8 (pre ++ b1 ++ post) (len pre) = Ok (be_value b1) /\
  Utils_deserialize16BE (pre ++ b2 ++ post) (len pre) = Ok (be_value b2) /\
  Utils_deserialize24BE (pre ++ b3 ++ post) (len pre) = Ok (be_value b3) /\
  Utils_deserialize32BE (pre ++ b4 ++ post) (len pre) = Ok (be_value b4) /\
  Utils_deserialize16LE (pre ++ b2 ++ post) (len pre) = Ok (le_value b2) /\
  Utils_deserialize24LE (pre ++ b3 ++ post) (len pre) = Ok (le_value b3) /\
  Utils_deserialize32LE (pre ++ b4 ++ post) (len pre) = Ok (le_value b4).
Proof. exact deserialize_all. Qed.
Print Assumptions C02_deserialize.
Example C02_deserialize_ex :
  bytes [0xde; 0xad; 0xbe; 0xef] /\
  Utils_deserialize32BE [1; 0xde; 0xad; 0xbe; 0xef] 1 = Ok 0xdeadbeef /\
  Utils_deserialize32LE [1; 0xde; 0xad; 0xbe; 0xef] 1 = Ok 0xefbeadde /\
  be_value [0xde; 0xad; 0xbe; 0xef] = 0xdeadbeef.
Proof. ex. Qed.

Theorem C02_roundtrip_value : forall pre post o1 o2 o3 o4 v,
  len o1 = 1 -> len o2 = 2 -> len o3 = 3 -> len o4 = 4 ->
  (exists m, Utils_serialize8 (pre ++ o1 ++ post) (len pre) v = Ok m /\
             Utils_deserialize8 m (len pre) = Ok (v mod 2 ^ 8)) /\
  (exists m, Utils_serialize16BE (pre ++ o2 ++ post) (len pre) v = Ok m /\
             Utils_deserialize16BE m (len pre) = Ok (v mod 2 ^ 16)) /\
  (exists m, Utils_serialize24BE (pre ++ o3 ++ post) (len pre) v = Ok m /\
             Utils_deserialize24BE m (len pre) = Ok (v mod 2 ^ 24)) /\
  (exists m, Utils_serialize32BE (pre ++ o4 ++ post) (len pre) v = Ok m /\
             Utils_deserialize32BE m (len pre) = Ok (v mod 2 ^ 32)) /\
  (exists m, Utils_serialize16LE (pre ++ o2 ++ post) (len pre) v = Ok m /\
             Utils_deserialize16LE m (len pre) = Ok (v mod 2 ^ 16)) /\
  (exists m, Utils_serialize24LE (pre ++ o3 ++ post) (len pre) v = Ok m /\
             Utils_deserialize24LE m (len pre) = Ok (v mod 2 ^ 24)) /\
  (exists m, Utils_serialize32LE (pre ++ o4 ++ post) (len pre) v = Ok m /\
             Utils_deserialize32LE m (len pre) = Ok (v mod 2 ^ 32)).
Proof. exact roundtrip_value. Qed.
Print Assumptions C02_roundtrip_value.
Example C02_roundtrip_value_ex :
  (let! m := Utils_serialize24BE [9; 0; 0; 0; 7] 1 0xaabbccdd in Utils_deserialize24BE m 1)
  = Ok 0xbbccdd.
Proof. ex. Qed.

Theorem C02_roundtrip_buffer : forall pre post b1 b2 b3 b4,
  bytes (b1 ++ b2 ++ b3 ++ b4) ->
  len b1 = 1 -> len b2 = 2 -> len b3 = 3 -> len b4 = 4 ->
  (exists v, Utils_deserialize8 (pre ++ b1 ++ post) (len pre) = Ok v /\
     Utils_serialize8 (pre ++ b1 ++ post) (len pre) v = Ok (pre ++ b1 ++ post)) /\
  (exists v, Utils_deserialize16BE (pre ++ b2 ++ post) (len pre) = Ok v /\
     Utils_serialize16BE (pre ++ b2 ++ post) (len pre) v = Ok (pre ++ b2 ++ post)) /\
  (exists v, Utils_deserialize24BE (pre ++ b3 ++ post) (len pre) = Ok v /\
     Utils_serialize24BE (pre ++ b3 ++ post) (len pre) v = Ok (pre ++ b3 ++ post)) /\
  (exists v, Utils_deserialize32BE (pre ++ b4 ++ post) (len pre) = Ok v /\
     Utils_serialize32BE (pre ++ b4 ++ post) (len pre) v = Ok (pre ++ b4 ++ post)) /\
  (exists v, Utils_deserialize16LE (pre ++ b2 ++ post) (len pre) = Ok v /\
     Utils_serialize16LE (pre ++ b2 ++ post) (len pre) v = Ok (pre ++ b2 ++ post)) /\
  (exists v, Utils_deserialize24LE (pre ++ b3 ++ post) (len pre) = Ok v /\
     Utils_serialize24LE (pre ++ b3 ++ post) (len pre) v = Ok (pre ++ b3 ++ post)) /\
  (exists v, Utils_deserialize32LE (pre ++ b4 ++ post) (len pre) = Ok v /\
     Utils_serialize32LE (pre ++ b4 ++ post) (len pre) v = Ok (pre ++ b4 ++ post)).
Proof. exact roundtrip_buffer. Qed.
Print Assumptions C02_roundtrip_buffer.
Example C02_roundtrip_buffer_ex :
  bytes [0xff; 2; 3; 4] /\
  (let! v := Utils_deserialize32LE [9; 0xff; 2; 3; 4; 8] 1 in
   Utils_serialize32LE [9; 0xff; 2; 3; 4; 8] 1 v) = Ok [9; 0xff; 2; 3; 4; 8].
Proof. ex. Qed.

(** ** C03 Blobs *)

Theorem C03_serializeBlobBE : forall pre old post spre s spost,
  len old = len s ->
  Utils_serializeBlobBE (pre ++ old ++ post) (len pre) (spre ++ s ++ spost) (len spre) (len s)
  = Ok (pre ++ s ++ post).
Proof. exact serializeBlobBE_ok. Qed.
Print Assumptions C03_serializeBlobBE.
Example C03_serializeBlobBE_ex :
  Utils_serializeBlobBE [9; 0; 0; 0; 8] 1 [7; 1; 2; 3] 1 3 = Ok [9; 1; 2; 3; 8].
Proof. ex. Qed.

Theorem C03_deserializeBlobBE : forall pre old post spre s spost,
  len old = len s ->
  Utils_deserializeBlobBE (spre ++ s ++ spost) (len spre) (pre ++ old ++ post) (len pre) (len s)
  = Ok (pre ++ s ++ post).
Proof. exact deserializeBlobBE_ok. Qed.
Print Assumptions C03_deserializeBlobBE.
Example C03_deserializeBlobBE_ex :
  Utils_deserializeBlobBE [7; 1; 2; 3] 1 [9; 0; 0; 0; 8] 1 3 = Ok [9; 1; 2; 3; 8].
Proof. ex. Qed.

Theorem C03_serializeBlobLE : forall pre old post spre s spost,
  len old = len s -> len s < 2 ^ 31 ->
  Utils_serializeBlobLE (pre ++ old ++ post) (len pre) (spre ++ s ++ spost) (len spre) (len s)
  = Ok (pre ++ reverse s ++ post).
Proof. exact serializeBlobLE_ok. Qed.
Print Assumptions C03_serializeBlobLE.
Example C03_serializeBlobLE_ex :
  Utils_serializeBlobLE [9; 0; 0; 0; 8] 1 [7; 1; 2; 3] 1 3 = Ok [9; 3; 2; 1; 8].
Proof. ex. Qed.

Theorem C03_deserializeBlobLE : forall pre old post spre s spost,
  len old = len s -> len s < 2 ^ 31 ->
  Utils_deserializeBlobLE (spre ++ s ++ spost) (len spre) (pre ++ old ++ post) (len pre) (len s)
  = Ok (pre ++ reverse s ++ post).
Proof. exact deserializeBlobLE_ok. Qed.
Print Assumptions C03_deserializeBlobLE.
Example C03_deserializeBlobLE_ex :
  Utils_deserializeBlobLE [7; 1; 2; 3] 1 [9; 0; 0; 0; 8] 1 3 = Ok [9; 3; 2; 1; 8].
Proof. ex. Qed.

Theorem C03_roundtrip : forall pre old post spre s spost dpre dold dpost,
  len old = len s -> len dold = len s -> len s < 2 ^ 31 ->
  (exists m, Utils_serializeBlobBE (pre ++ old ++ post) (len pre)
               (spre ++ s ++ spost) (len spre) (len s) = Ok m /\
     Utils_deserializeBlobBE m (len pre) (dpre ++ dold ++ dpost) (len dpre) (len s)
       = Ok (dpre ++ s ++ dpost)) /\
  (exists m, Utils_serializeBlobLE (pre ++ old ++ post) (len pre)
               (spre ++ s ++ spost) (len spre) (len s) = Ok m /\
     Utils_deserializeBlobLE m (len pre) (dpre ++ dold ++ dpost) (len dpre) (len s)
       = Ok (dpre ++ s ++ dpost)).
Proof. exact blob_roundtrip. Qed.
Print Assumptions C03_roundtrip.
Example C03_roundtrip_ex :
  (let! m := Utils_serializeBlobLE [9; 0; 0; 0; 8] 1 [7; 1; 2; 3] 1 3 in
   Utils_deserializeBlobLE m 1 [0; 0; 0] 0 3) = Ok [1; 2; 3].
Proof. ex. Qed.

(** the LE variants at sizes of 2 GiB and more, whatever the buffers *)
Theorem C03_LE_size_2_31_undefined : forall buf p src q,
  Utils_serializeBlobLE buf p src q (2 ^ 31) = UB SignedOverflow /\
  Utils_deserializeBlobLE buf p src q (2 ^ 31) = UB SignedOverflow.
Proof. exact serializeBlobLE_2_31. Qed.
Print Assumptions C03_LE_size_2_31_undefined.
Example C03_LE_size_2_31_undefined_ex :
  Utils_serializeBlobLE [0] 0 [1] 0 2147483648 = UB SignedOverflow.
Proof. ex. Qed.

Theorem C03_LE_larger_copies_nothing : forall buf p src q size,
  2 ^ 31 < size < 2 ^ 32 ->
  Utils_serializeBlobLE buf p src q size = Ok buf /\
  Utils_deserializeBlobLE src q buf p size = Ok buf.
Proof. exact serializeBlobLE_big. Qed.
Print Assumptions C03_LE_larger_copies_nothing.
Example C03_LE_larger_copies_nothing_ex :
  Utils_serializeBlobLE [0; 0] 0 [1; 1] 0 2147483649 = Ok [0; 0].
Proof. ex. Qed.

(** ** C04 swapElements *)

(** two disjoint ranges, in either argument order; everything around is unchanged *)
Theorem C04_swap_disjoint : forall a x b y c,
  len x = len y ->
  Utils_swapElements (a ++ x ++ b ++ y ++ c) (len a) (len a + len x + len b) (len x)
    = Ok (a ++ y ++ b ++ x ++ c) /\
  Utils_swapElements (a ++ x ++ b ++ y ++ c) (len a + len x + len b) (len a) (len x)
    = Ok (a ++ y ++ b ++ x ++ c).
Proof. exact swap_disjoint. Qed.
Print Assumptions C04_swap_disjoint.
Example C04_swap_disjoint_ex :
  Utils_swapElements [9; 1; 2; 8; 3; 4; 7] 1 4 2 = Ok [9; 3; 4; 8; 1; 2; 7].
Proof. ex. Qed.

Theorem C04_swap_same_range : forall a x c,
  Utils_swapElements (a ++ x ++ c) (len a) (len a) (len x) = Ok (a ++ x ++ c).
Proof. exact swap_same. Qed.
Print Assumptions C04_swap_same_range.
Example C04_swap_same_range_ex : Utils_swapElements [9; 1; 2; 8] 1 1 2 = Ok [9; 1; 2; 8].
Proof. ex. Qed.

Theorem C04_swap_twice : forall a x b y c,
  len x = len y ->
  exists m,
    Utils_swapElements (a ++ x ++ b ++ y ++ c) (len a) (len a + len x + len b) (len x) = Ok m /\
    Utils_swapElements m (len a) (len a + len x + len b) (len x) = Ok (a ++ x ++ b ++ y ++ c).
Proof. exact swap_twice. Qed.
Print Assumptions C04_swap_twice.
Example C04_swap_twice_ex :
  (let! m := Utils_swapElements [1; 2; 3; 4] 0 2 2 in Utils_swapElements m 0 2 2)
  = Ok [1; 2; 3; 4].
Proof. ex. Qed.

(** ** C05 Powers of ten and character classes *)

Theorem C05_pow10 : forall e r, 0 <= e <= 9 -> Utils_quickUint32Pow10 e r = Ok (true, 10 ^ e).
Proof. exact pow10_ok. Qed.
Print Assumptions C05_pow10.
Example C05_pow10_ex : Utils_quickUint32Pow10 9 5 = Ok (true, 1000000000).
Proof. ex. Qed.

Theorem C05_pow10_out_of_range : forall e r,
  10 <= e -> Utils_quickUint32Pow10 e r = Ok (false, r).
Proof. exact pow10_fail. Qed.
Print Assumptions C05_pow10_out_of_range.
Example C05_pow10_out_of_range_ex : Utils_quickUint32Pow10 10 5 = Ok (false, 5).
Proof. ex. Qed.

Theorem C05_isUpperChar : forall c, is_byte c -> Utils_isUpperChar c = true <-> is_upper c.
Proof. exact isUpper_ok. Qed.
Print Assumptions C05_isUpperChar.
Theorem C05_isLowerChar : forall c, is_byte c -> Utils_isLowerChar c = true <-> is_lower c.
Proof. exact isLower_ok. Qed.
Print Assumptions C05_isLowerChar.
Theorem C05_isAlpha : forall c, is_byte c -> Utils_isAlpha c = true <-> is_upper c \/ is_lower c.
Proof. exact isAlpha_ok. Qed.
Print Assumptions C05_isAlpha.
(** with a signed [char] the same byte is the value [s8 c] *)
Theorem C05_char_sign_irrelevant : forall c,
  is_byte c ->
  Utils_isUpperChar (s8 c) = Utils_isUpperChar c /\
  Utils_isLowerChar (s8 c) = Utils_isLowerChar c /\
  Utils_isAlpha (s8 c) = Utils_isAlpha c.
Proof. exact char_class_signed. Qed.
Print Assumptions C05_char_sign_irrelevant.
Example C05_char_classes_ex :
  is_byte 90 /\ Utils_isUpperChar 90 = true /\ Utils_isLowerChar 90 = false /\
  Utils_isAlpha 122 = true /\ Utils_isAlpha 91 = false /\ Utils_isAlpha (s8 225) = false.
Proof. ex. Qed.

(** ** C06 Reflection *)

Theorem C06_reflect_mirrors : forall data n,
  is_u32 data -> 0 <= n <= 32 ->
  exists r, BitManipulation_reflect data n = Ok r /\ 0 <= r < 2 ^ n /\
    forall k, 0 <= k -> Z.testbit r k = mirror_bit n data k.
Proof. exact reflect_ok. Qed.
Print Assumptions C06_reflect_mirrors.
Example C06_reflect_mirrors_ex :
  is_u32 0x12345678 /\ BitManipulation_reflect 0x12345678 8 = Ok 0x1e /\
  BitManipulation_reflect 0x12345678 32 = Ok 0x1e6a2c48.
Proof. ex. Qed.

Theorem C06_reflect_twice : forall data n r,
  is_u32 data -> 0 <= n <= 32 ->
  BitManipulation_reflect data n = Ok r ->
  BitManipulation_reflect r n = Ok (data mod 2 ^ n).
Proof. exact reflect_involutive. Qed.
Print Assumptions C06_reflect_twice.
Example C06_reflect_twice_ex :
  (let! r := BitManipulation_reflect 0x12345678 16 in BitManipulation_reflect r 16) = Ok 0x5678.
Proof. ex. Qed.

Theorem C06_reflect_wide : forall data n,
  is_u32 data -> 32 <= n <= 255 ->
  exists r, BitManipulation_reflect data n = Ok r /\ is_u32 r /\
    forall k, 0 <= k < 32 -> Z.testbit r k = Z.testbit data ((n - 1 - k) mod 32).
Proof. exact reflect_wide. Qed.
Print Assumptions C06_reflect_wide.
Example C06_reflect_wide_ex : BitManipulation_reflect 1 40 = Ok 0x80.
Proof. ex. Qed.

(** ** C07 Single-bit operations *)

Theorem C07_bitSet : forall data n old,
  0 <= n <= 31 -> BitManipulation_bitSet data n old = Ok (true, Z.testbit data n).
Proof. exact bitSet_ok. Qed.
Print Assumptions C07_bitSet.
Theorem C07_setBit : forall data n old,
  is_u32 data -> 0 <= n <= 31 ->
  exists r, BitManipulation_setBit data n old = Ok (true, r) /\ is_u32 r /\
    forall k, 0 <= k -> Z.testbit r k = if k =? n then true else Z.testbit data k.
Proof. exact setBit_ok. Qed.
Print Assumptions C07_setBit.
Theorem C07_clearBit : forall data n old,
  is_u32 data -> 0 <= n <= 31 ->
  exists r, BitManipulation_clearBit data n old = Ok (true, r) /\ is_u32 r /\
    forall k, 0 <= k -> Z.testbit r k = if k =? n then false else Z.testbit data k.
Proof. exact clearBit_ok. Qed.
Print Assumptions C07_clearBit.
Theorem C07_toggleBit : forall data n old,
  is_u32 data -> 0 <= n <= 31 ->
  exists r, BitManipulation_toggleBit data n old = Ok (true, r) /\ is_u32 r /\
    forall k, 0 <= k ->
      Z.testbit r k = if k =? n then negb (Z.testbit data k) else Z.testbit data k.
Proof. exact toggleBit_ok. Qed.
Print Assumptions C07_toggleBit.
Example C07_ex :
  is_u32 0xf0 /\
  BitManipulation_bitSet 0xf0 4 false = Ok (true, true) /\
  BitManipulation_setBit 0xf0 31 0 = Ok (true, 0x800000f0) /\
  BitManipulation_clearBit 0xf0 7 0 = Ok (true, 0x70) /\
  BitManipulation_toggleBit 0xf0 0 0 = Ok (true, 0xf1).
Proof. ex. Qed.

Theorem C07_out_of_range : forall data n oldb old,
  31 < n ->
  BitManipulation_bitSet data n oldb = Ok (false, oldb) /\
  BitManipulation_setBit data n old = Ok (false, old) /\
  BitManipulation_clearBit data n old = Ok (false, old) /\
  BitManipulation_toggleBit data n old = Ok (false, old).
Proof. exact bit_ops_fail. Qed.
Print Assumptions C07_out_of_range.
Example C07_out_of_range_ex : BitManipulation_setBit 0xf0 32 77 = Ok (false, 77).
Proof. ex. Qed.

(** ** C08 rotl32 *)

Theorem C08_rotl32 : forall data n,
  is_u32 data -> 1 <= n <= 31 ->
  exists r, BitManipulation_rotl32 data n = Ok r /\ is_u32 r /\
    forall k, 0 <= k -> Z.testbit r k = rotl_bit n data k.
Proof. exact rotl32_ok. Qed.
Print Assumptions C08_rotl32.
Example C08_rotl32_ex : BitManipulation_rotl32 0x12345678 8 = Ok 0x34567812.
Proof. ex. Qed.

Theorem C08_inverse : forall data n r,
  is_u32 data -> 1 <= n <= 31 ->
  BitManipulation_rotl32 data n = Ok r -> BitManipulation_rotl32 r (32 - n) = Ok data.
Proof. exact rotl32_inverse. Qed.
Print Assumptions C08_inverse.
Example C08_inverse_ex :
  BitManipulation_rotl32 0x34567812 (32 - 8) = Ok 0x12345678.
Proof. ex. Qed.

Theorem C08_compose : forall data m n r1 r2,
  is_u32 data -> 1 <= m <= 31 -> 1 <= n <= 31 ->
  BitManipulation_rotl32 data m = Ok r1 -> BitManipulation_rotl32 r1 n = Ok r2 ->
  if (m + n =? 32) then r2 = data
  else BitManipulation_rotl32 data ((m + n) mod 32) = Ok r2.
Proof. exact rotl32_compose. Qed.
Print Assumptions C08_compose.
Example C08_compose_ex :
  (let! r := BitManipulation_rotl32 0x12345678 20 in BitManipulation_rotl32 r 20)
  = BitManipulation_rotl32 0x12345678 8.
Proof. ex. Qed.

Theorem C08_zero_undefined : forall data, BitManipulation_rotl32 data 0 = UB BadShift.
Proof. exact rotl32_zero. Qed.
Print Assumptions C08_zero_undefined.
Theorem C08_wide_undefined : forall data n,
  32 <= n -> BitManipulation_rotl32 data n = UB BadShift.
Proof. exact rotl32_wide. Qed.
Print Assumptions C08_wide_undefined.
Example C08_undefined_ex : BitManipulation_rotl32 1 32 = UB BadShift.
Proof. ex. Qed.
