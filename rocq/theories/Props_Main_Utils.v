(** * C103: the C text of utils.c and bit_manipulation.c

    Composition of the theorems about the models (C01-C08) with C84.  [at8 b p] and [at32 b p]
    point to entry [p] of object [b]. *)
From Coq Require Import String.
From Verif Require Import CSem Lib CLang C_Utils Spec_Utils Refine Drive_UtilsText Proof_TextUtils.

Local Notation at8 b p := (VPtr (TInt U8) (BObj b) p).
Local Notation at32 b p := (VPtr (TInt U32) (BObj b) p).

(** the [codecs] are the serializers for 8, 16, 24 and 32 bits, in both byte orders *)
Theorem C103_serialize : forall (W : Type) sc
    (ext : Z -> list val -> mem -> W -> outcome (val * mem * W)) fuel
    n big t ser des m w b pre old post v,
  In (n, big, t, ser, des) codecs -> m !! b = Some (ints 8 (pre ++ old ++ post)) ->
  length old = n -> 0 <= v < 2 ^ CLang.width t ->
  call sc ext fuel ser [at8 b (len pre); VInt t v] m w
  = Ok (VUndef, <[b := ints 8 (pre ++ in_order big n v ++ post)]> m, w).
Proof. exact @text_serialize. Qed.
Print Assumptions C103_serialize.
Example C103_serialize_ex :
  call true no_ext 9 c_Utils_serialize24LE [at8 1 2; VInt U32 0x12345678] [ints 8 [5]; ints 8 [1; 2; 3; 4; 5; 6]] tt
  = Ok (VUndef, [ints 8 [5]; ints 8 [1; 2; 0x78; 0x56; 0x34; 6]], tt) /\
  in_order false 3 0x12345678 = [0x78; 0x56; 0x34].
Proof. repeat split; vm_compute; reflexivity. Qed.

Theorem C103_deserialize : forall (W : Type) sc
    (ext : Z -> list val -> mem -> W -> outcome (val * mem * W)) fuel
    n big t ser des m w b pre x post,
  In (n, big, t, ser, des) codecs -> m !! b = Some (ints 8 (pre ++ x ++ post)) ->
  length x = n -> bytes (pre ++ x ++ post) ->
  call sc ext fuel des [at8 b (len pre)] m w = Ok (VInt t (value_of big x), m, w).
Proof. exact @text_deserialize. Qed.
Print Assumptions C103_deserialize.
Example C103_deserialize_ex :
  call true no_ext 9 c_Utils_deserialize32BE [at8 0 1] [ints 8 [1; 0xde; 0xad; 0xbe; 0xef; 6]] tt
  = Ok (VInt U32 0xdeadbeef, [ints 8 [1; 0xde; 0xad; 0xbe; 0xef; 6]], tt) /\
  value_of true [0xde; 0xad; 0xbe; 0xef] = 0xdeadbeef.
Proof. repeat split; vm_compute; reflexivity. Qed.

Theorem C103_codec_round : forall (W : Type) sc
    (ext : Z -> list val -> mem -> W -> outcome (val * mem * W)) fuel
    n big t ser des m w b pre old post v,
  In (n, big, t, ser, des) codecs -> m !! b = Some (ints 8 (pre ++ old ++ post)) ->
  length old = n -> bytes (pre ++ old ++ post) -> 0 <= v < 2 ^ CLang.width t ->
  (let! '(_, m, w) := call sc ext fuel ser [at8 b (len pre); VInt t v] m w in
   call sc ext fuel des [at8 b (len pre)] m w)
  = Ok (VInt t (v mod 256 ^ Z.of_nat n), <[b := ints 8 (pre ++ in_order big n v ++ post)]> m, w).
Proof. exact @text_codec_round. Qed.
Print Assumptions C103_codec_round.
Example C103_codec_round_ex :
  (let! '(_, m, w) := call true no_ext 9 c_Utils_serialize24BE [at8 0 1; VInt U32 0x12345678] [ints 8 [1; 2; 3; 4; 5]] tt in
   call true no_ext 9 c_Utils_deserialize24BE [at8 0 1] m w)
  = Ok (VInt U32 0x345678, [ints 8 [1; 0x34; 0x56; 0x78; 5]], tt).
Proof. vm_compute; reflexivity. Qed.

(** reading and writing back changes nothing *)
Theorem C103_codec_back : forall (W : Type) sc
    (ext : Z -> list val -> mem -> W -> outcome (val * mem * W)) fuel
    n big t ser des m w b pre x post,
  In (n, big, t, ser, des) codecs -> m !! b = Some (ints 8 (pre ++ x ++ post)) ->
  length x = n -> bytes (pre ++ x ++ post) ->
  (let! '(v, m, w) := call sc ext fuel des [at8 b (len pre)] m w in
   call sc ext fuel ser [at8 b (len pre); v] m w) = Ok (VUndef, m, w).
Proof. exact @text_codec_back. Qed.
Print Assumptions C103_codec_back.
Example C103_codec_back_ex :
  (let! '(v, m, w) := call true no_ext 9 c_Utils_deserialize16LE [at8 0 1] [ints 8 [1; 2; 3; 4; 5]] tt in
   call true no_ext 9 c_Utils_serialize16LE [at8 0 1; v] m w) = Ok (VUndef, [ints 8 [1; 2; 3; 4; 5]], tt).
Proof. vm_compute; reflexivity. Qed.

(** the blob functions copy in order ([BE]) or in reverse ([LE]) *)
Theorem C103_blob : forall (W : Type) sc
    (ext : Z -> list val -> mem -> W -> outcome (val * mem * W)) fuel
    keep ser des m w b pre old post b' spre s spost,
  In (keep, ser, des) blob_functions ->
  m !! b = Some (ints 8 (pre ++ old ++ post)) -> m !! b' = Some (ints 8 (spre ++ s ++ spost)) ->
  b <> b' -> len old = len s -> len s < 2 ^ 31 -> len s < Z.of_nat fuel ->
  call sc ext fuel ser [at8 b (len pre); at8 b' (len spre); VInt U32 (len s)] m w
  = Ok (VUndef, <[b := ints 8 (pre ++ (if keep then s else reverse s) ++ post)]> m, w) /\
  call sc ext fuel des [at8 b' (len spre); at8 b (len pre); VInt U32 (len s)] m w
  = Ok (VUndef, <[b := ints 8 (pre ++ (if keep then s else reverse s) ++ post)]> m, w).
Proof. exact @text_blob. Qed.
Print Assumptions C103_blob.
Example C103_blob_ex :
  call true no_ext 9 c_Utils_serializeBlobLE [at8 0 1; at8 1 1; VInt U32 3] [ints 8 [9; 0; 0; 0; 8]; ints 8 [7; 1; 2; 3]] tt
  = Ok (VUndef, [ints 8 [9; 3; 2; 1; 8]; ints 8 [7; 1; 2; 3]], tt).
Proof. vm_compute; reflexivity. Qed.

Theorem C103_swap : forall (W : Type) sc
    (ext : Z -> list val -> mem -> W -> outcome (val * mem * W)) fuel
    m w b a x c y d,
  m !! b = Some (ints 8 (a ++ x ++ c ++ y ++ d)) -> len x = len y -> len x < 2 ^ 32 ->
  len x < Z.of_nat fuel ->
  call sc ext fuel c_Utils_swapElements
    [at8 b (len a); at8 b (len a + len x + len c); VInt U32 (len x)] m w
  = Ok (VUndef, <[b := ints 8 (a ++ y ++ c ++ x ++ d)]> m, w).
Proof. exact @text_swap. Qed.
Print Assumptions C103_swap.
Example C103_swap_ex :
  call true no_ext 9 c_Utils_swapElements [at8 0 1; at8 0 4; VInt U32 2] [ints 8 [9; 1; 2; 8; 3; 4; 7]] tt
  = Ok (VUndef, [ints 8 [9; 3; 4; 8; 1; 2; 7]], tt).
Proof. vm_compute; reflexivity. Qed.

Theorem C103_swap_same : forall (W : Type) sc
    (ext : Z -> list val -> mem -> W -> outcome (val * mem * W)) fuel
    m w b a x c,
  m !! b = Some (ints 8 (a ++ x ++ c)) -> len x < 2 ^ 32 -> len x < Z.of_nat fuel ->
  call sc ext fuel c_Utils_swapElements [at8 b (len a); at8 b (len a); VInt U32 (len x)] m w
  = Ok (VUndef, m, w).
Proof. exact @text_swap_same. Qed.
Print Assumptions C103_swap_same.
Example C103_swap_same_ex :
  call true no_ext 9 c_Utils_swapElements [at8 0 1; at8 0 1; VInt U32 2] [ints 8 [9; 1; 2; 8]] tt
  = Ok (VUndef, [ints 8 [9; 1; 2; 8]], tt).
Proof. vm_compute; reflexivity. Qed.

Theorem C103_parse : forall (W : Type) sc
    (ext : Z -> list val -> mem -> W -> outcome (val * mem * W)) fuel
    m w b s rest b' pre old post,
  m !! b = Some (ints 8 (s ++ rest)) -> m !! b' = Some (ints 32 (pre ++ old :: post)) ->
  bytes (s ++ rest) -> len s <= 10 -> (10 < fuel)%nat ->
  exists ok v,
    call sc ext fuel c_Utils_stringToUint32
      [VPtr (TInt IChar) (BObj b) 0; VInt U8 (len s); at32 b' (len pre)] m w
    = Ok (VInt IBool (b2z ok), <[b' := ints 32 (pre ++ v :: post)]> m, w) /\
    (ok = true <-> Forall is_digit s /\ decimal s <= 2 ^ 32 - 1) /\
    (ok = true -> v = decimal s).
Proof. exact @text_parse. Qed.
Print Assumptions C103_parse.
Example C103_parse_ex :
  call true no_ext 20 c_Utils_stringToUint32 [VPtr (TInt IChar) (BObj 0) 0; VInt U8 10; at32 1 1]
    [ints 8 (str "4294967295,"); ints 32 [1; 2; 3]] tt
  = Ok (VInt IBool 1, [ints 8 (str "4294967295,"); ints 32 [1; 4294967295; 3]], tt) /\
  call true no_ext 20 c_Utils_stringToUint32 [VPtr (TInt IChar) (BObj 0) 0; VInt U8 10; at32 1 1]
    [ints 8 (str "4294967296,"); ints 32 [1; 2; 3]] tt
  = Ok (VInt IBool 0, [ints 8 (str "4294967296,"); ints 32 [1; 429496729; 3]], tt).
Proof. repeat split; vm_compute; reflexivity. Qed.

Theorem C103_pow10 : forall (W : Type) sc
    (ext : Z -> list val -> mem -> W -> outcome (val * mem * W)) fuel
    m w b pre old post e,
  m !! b = Some (ints 32 (pre ++ old :: post)) -> 0 <= e < 256 ->
  call sc ext fuel c_Utils_quickUint32Pow10 [VInt U8 e; at32 b (len pre)] m w
  = if e <? 10 then Ok (VInt IBool 1, <[b := ints 32 (pre ++ 10 ^ e :: post)]> m, w)
    else Ok (VInt IBool 0, m, w).
Proof. exact @text_pow10. Qed.
Print Assumptions C103_pow10.
Example C103_pow10_ex :
  call true no_ext 20 c_Utils_quickUint32Pow10 [VInt U8 9; at32 0 1] [ints 32 [1; 2; 3]] tt
  = Ok (VInt IBool 1, [ints 32 [1; 1000000000; 3]], tt) /\
  call true no_ext 20 c_Utils_quickUint32Pow10 [VInt U8 10; at32 0 1] [ints 32 [1; 2; 3]] tt
  = Ok (VInt IBool 0, [ints 32 [1; 2; 3]], tt).
Proof. repeat split; vm_compute; reflexivity. Qed.

(** [char_val sc c] is the value of the byte [c] as a [char], signed or not *)
Theorem C103_char_classes : forall (W : Type) sc
    (ext : Z -> list val -> mem -> W -> outcome (val * mem * W)) fuel
    m w c,
  is_byte c ->
  exists u l a, call sc ext fuel c_Utils_isUpperChar [VInt IChar (char_val sc c)] m w = Ok (VInt IBool (b2z u), m, w) /\
    call sc ext fuel c_Utils_isLowerChar [VInt IChar (char_val sc c)] m w = Ok (VInt IBool (b2z l), m, w) /\
    call sc ext fuel c_Utils_isAlpha [VInt IChar (char_val sc c)] m w = Ok (VInt IBool (b2z a), m, w) /\
    (u = true <-> is_upper c) /\ (l = true <-> is_lower c) /\ (a = true <-> is_upper c \/ is_lower c).
Proof. exact @text_char_classes. Qed.
Print Assumptions C103_char_classes.
Example C103_char_classes_ex :
  call true no_ext 20 c_Utils_isAlpha [VInt IChar (char_val true 90)] [] tt = Ok (VInt IBool 1, [], tt) /\
  call true no_ext 20 c_Utils_isAlpha [VInt IChar (char_val true 218)] [] tt = Ok (VInt IBool 0, [], tt).
Proof. repeat split; vm_compute; reflexivity. Qed.

Theorem C103_reflect : forall (W : Type) sc
    (ext : Z -> list val -> mem -> W -> outcome (val * mem * W)) fuel
    m w d n,
  is_u32 d -> 0 <= n <= 32 -> n < Z.of_nat fuel ->
  exists r, call sc ext fuel c_BitManipulation_reflect [VInt U32 d; VInt U8 n] m w
            = Ok (VInt U32 r, m, w) /\ 0 <= r < 2 ^ n /\
    forall k, 0 <= k -> Z.testbit r k = mirror_bit n d k.
Proof. exact @text_reflect. Qed.
Print Assumptions C103_reflect.
Example C103_reflect_ex :
  call true no_ext 40 c_BitManipulation_reflect [VInt U32 0x12345678; VInt U8 8] [] tt
  = Ok (VInt U32 0x1e, [], tt).
Proof. vm_compute; reflexivity. Qed.

Theorem C103_rotl32 : forall (W : Type) sc
    (ext : Z -> list val -> mem -> W -> outcome (val * mem * W)) fuel
    m w d n,
  is_u32 d -> is_u32 n ->
  if (1 <=? n) && (n <=? 31) then
    exists r, call sc ext fuel c_BitManipulation_rotl32 [VInt U32 d; VInt U32 n] m w
              = Ok (VInt U32 r, m, w) /\ is_u32 r /\
      forall k, 0 <= k -> Z.testbit r k = rotl_bit n d k
  else call sc ext fuel c_BitManipulation_rotl32 [VInt U32 d; VInt U32 n] m w = UB BadShift.
Proof. exact @text_rotl32. Qed.
Print Assumptions C103_rotl32.
Example C103_rotl32_ex :
  call true no_ext 40 c_BitManipulation_rotl32 [VInt U32 0x12345678; VInt U32 8] [] tt
  = Ok (VInt U32 0x34567812, [], tt) /\
  call true no_ext 40 c_BitManipulation_rotl32 [VInt U32 0x12345678; VInt U32 0] [] tt = UB BadShift.
Proof. repeat split; vm_compute; reflexivity. Qed.

(** [bit_functions]: setBit, clearBit and toggleBit *)
Theorem C103_bit : forall (W : Type) sc
    (ext : Z -> list val -> mem -> W -> outcome (val * mem * W)) fuel
    f change m w b pre old post d n,
  In (f, change) bit_functions -> m !! b = Some (ints 32 (pre ++ old :: post)) ->
  is_u32 d -> 0 <= n < 256 ->
  if n <? 32 then
    exists r, call sc ext fuel f [VInt U32 d; VInt U8 n; at32 b (len pre)] m w
              = Ok (VInt IBool 1, <[b := ints 32 (pre ++ r :: post)]> m, w) /\ is_u32 r /\
      forall k, 0 <= k -> Z.testbit r k = if k =? n then change (Z.testbit d k) else Z.testbit d k
  else call sc ext fuel f [VInt U32 d; VInt U8 n; at32 b (len pre)] m w = Ok (VInt IBool 0, m, w).
Proof. exact @text_bit. Qed.
Print Assumptions C103_bit.
Example C103_bit_ex :
  call true no_ext 40 c_BitManipulation_toggleBit [VInt U32 0xf0; VInt U8 31; at32 0 1] [ints 32 [1; 2; 3]] tt
  = Ok (VInt IBool 1, [ints 32 [1; 0x800000f0; 3]], tt) /\
  call true no_ext 40 c_BitManipulation_toggleBit [VInt U32 0xf0; VInt U8 32; at32 0 1] [ints 32 [1; 2; 3]] tt
  = Ok (VInt IBool 0, [ints 32 [1; 2; 3]], tt).
Proof. repeat split; vm_compute; reflexivity. Qed.

Theorem C103_bitSet : forall (W : Type) sc
    (ext : Z -> list val -> mem -> W -> outcome (val * mem * W)) fuel
    m w b pre old post d n,
  m !! b = Some (ints 8 (pre ++ b2z old :: post)) -> 0 <= n < 256 ->
  call sc ext fuel c_BitManipulation_bitSet [VInt U32 d; VInt U8 n; VPtr (TInt IBool) (BObj b) (len pre)] m w
  = if n <? 32 then Ok (VInt IBool 1, <[b := ints 8 (pre ++ b2z (Z.testbit d n) :: post)]> m, w)
    else Ok (VInt IBool 0, m, w).
Proof. exact @text_bitSet. Qed.
Print Assumptions C103_bitSet.
Example C103_bitSet_ex :
  call true no_ext 40 c_BitManipulation_bitSet [VInt U32 0xf0; VInt U8 4; VPtr (TInt IBool) (BObj 0) 1] [ints 8 [1; 0; 0]] tt
  = Ok (VInt IBool 1, [ints 8 [1; 1; 0]], tt).
Proof. vm_compute; reflexivity. Qed.
