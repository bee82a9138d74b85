(** * Model of [/repo/Src/utils.c] and [/repo/Src/bit_manipulation.c] *)
From Verif Require Import CSem.

(** ** utils.c *)

(** utils.c:37-41 *)
Definition MAX_UINT32_POW_10_EXPONENT : Z := 10.
Definition UPPER_A_ASCII : Z := 65.
Definition UPPER_Z_ASCII : Z := 90.
Definition LOWER_A_ASCII : Z := 97.
Definition LOWER_Z_ASCII : Z := 122.
Definition UINT32_MAX : Z := 2 ^ 32 - 1.

(** utils.c:111-114, the array [pow10] *)
Definition pow10_table : list Z :=
  [1; 10; 100; 1000; 10000; 100000; 1000000; 10000000; 100000000; 1000000000].

(** utils.c:107-122.  The pointer [result] is modelled by the value it holds: passed in,
    and returned beside the status. *)
Definition Utils_quickUint32Pow10 (exponent : Z) (result : Z) : outcome (bool * Z) :=
  if exponent <? MAX_UINT32_POW_10_EXPONENT then
    let! r := load pow10_table exponent in Ok (true, r)
  else Ok (false, result).

(** utils.c:43-93.  [str] is the object the string pointer designates, [str_length] a
    [uint8_t].  The result is the returned status and the final [*integer] (which the C
    code first sets to 0, so its previous value does not matter). *)
Definition Utils_stringToUint32 (signed_char : bool) (str : list Z) (str_length : Z)
  : outcome (bool * Z) :=
  (* utils.c:51-54 *)
  let check_overflow := str_length =? MAX_UINT32_POW_10_EXPONENT in
  let length := if check_overflow then u8 (str_length - 1) else str_length in
  (* utils.c:56-70; state (i, *integer, success) *)
  let! '(_, integer, success) :=
    cwhile (S (Z.to_nat length))
      (fun '(i, integer, success) => (i <? length) && success)
      (fun '(i, integer, success) =>
         let! c := load str i in
         let ch := char_val signed_char c in
         if (48 <=? ch) && (ch <=? 57) then
           let digit := s8 (s8 ch - s8 48) in
           let unsigned_power := u8 (u32 (length - u32 (i + 1))) in
           let! '(success, result) := Utils_quickUint32Pow10 unsigned_power 0 in
           Ok (Next (u8 (i + 1), u32 (integer + u32 (u32 digit * result)), success))
         else Ok (Next (i, integer, false)))
      (0, 0, true) in
  (* utils.c:72-90 *)
  if check_overflow && success then
    let! c := load str (MAX_UINT32_POW_10_EXPONENT - 1) in
    let ch := char_val signed_char c in
    if (48 <=? ch) && (ch <=? 57) then
      let digit := s8 (s8 ch - s8 48) in
      if (UINT32_MAX / 10 <? integer)
         || ((integer =? UINT32_MAX / 10) && (UINT32_MAX mod 10 <? u32 digit))
      then Ok (false, integer)
      else Ok (true, u32 (u32 (integer * 10) + u32 digit))
    else Ok (false, integer)
  else Ok (success, integer).

(** utils.c:95-105.  Both pointers point into the memory [m], at offsets [first] and
    [second] (two disjoint objects are two disjoint parts of [m]). *)
Definition Utils_swapElements (m : list Z) (first second size : Z) : outcome (list Z) :=
  cford (size - 1) 0
    (fun index m =>
       let! temp := load m (first + index) in
       let! v := load m (second + index) in
       let! m := store m (first + index) v in
       store m (second + index) temp) m.

(** [(uint8_t)(value >> k) & 0xFFu], utils.c:126-215 *)
Definition byte_of (value k : Z) : Z := Z.land (u8 (Z.shiftr value k)) 255.

(** utils.c:124-127.  [buf] points at offset [p] of the object [o]; so in all the
    (de)serializers below. *)
Definition Utils_serialize8 (o : list Z) (p value : Z) : outcome (list Z) :=
  store o p (byte_of value 0).

(** utils.c:129-133 *)
Definition Utils_deserialize8 (o : list Z) (p : Z) : outcome Z := load o p.

(** utils.c:135-139 *)
Definition Utils_serialize16BE (o : list Z) (p value : Z) : outcome (list Z) :=
  let! o := store o p (byte_of value 8) in
  store o (p + 1) (byte_of value 0).

(** utils.c:141-146 *)
Definition Utils_serialize24BE (o : list Z) (p value : Z) : outcome (list Z) :=
  let! o := store o p (byte_of value 16) in
  let! o := store o (p + 1) (byte_of value 8) in
  store o (p + 2) (byte_of value 0).

(** utils.c:148-154 *)
Definition Utils_serialize32BE (o : list Z) (p value : Z) : outcome (list Z) :=
  let! o := store o p (byte_of value 24) in
  let! o := store o (p + 1) (byte_of value 16) in
  let! o := store o (p + 2) (byte_of value 8) in
  store o (p + 3) (byte_of value 0).

(** utils.c:156-161.  [buf] and [src] are different objects; offsets [p] and [q]. *)
Definition Utils_serializeBlobBE (buf : list Z) (p : Z) (src : list Z) (q size : Z)
  : outcome (list Z) :=
  cfor 0 size (fun i buf => let! v := load src (q + i) in store buf (p + i) v) buf.

(** utils.c:163-169 *)
Definition Utils_deserialize16BE (o : list Z) (p : Z) : outcome Z :=
  let! b0 := load o p in
  let value := u16 (Z.shiftl (u16 b0) 8) in
  let! b1 := load o (p + 1) in
  Ok (u16 (Z.lor value (u16 b1))).

(** utils.c:171-178 *)
Definition Utils_deserialize24BE (o : list Z) (p : Z) : outcome Z :=
  let! b0 := load o p in
  let value := u32 (Z.shiftl (u32 b0) 16) in
  let! b1 := load o (p + 1) in
  let value := Z.lor value (u32 (Z.shiftl (u32 b1) 8)) in
  let! b2 := load o (p + 2) in
  Ok (Z.lor value (u32 b2)).

(** utils.c:180-188 *)
Definition Utils_deserialize32BE (o : list Z) (p : Z) : outcome Z :=
  let! b0 := load o p in
  let value := u32 (Z.shiftl (u32 b0) 24) in
  let! b1 := load o (p + 1) in
  let value := Z.lor value (u32 (Z.shiftl (u32 b1) 16)) in
  let! b2 := load o (p + 2) in
  let value := Z.lor value (u32 (Z.shiftl (u32 b2) 8)) in
  let! b3 := load o (p + 3) in
  Ok (Z.lor value (u32 b3)).

(** utils.c:190-195.  Different objects [buf] (read at [p]) and [dst] (written at [q]). *)
Definition Utils_deserializeBlobBE (buf : list Z) (p : Z) (dst : list Z) (q size : Z)
  : outcome (list Z) :=
  cfor 0 size (fun i dst => let! v := load buf (p + i) in store dst (q + i) v) dst.

(** utils.c:197-201 *)
Definition Utils_serialize16LE (o : list Z) (p value : Z) : outcome (list Z) :=
  let! o := store o (p + 1) (byte_of value 8) in
  store o p (byte_of value 0).

(** utils.c:203-208 *)
Definition Utils_serialize24LE (o : list Z) (p value : Z) : outcome (list Z) :=
  let! o := store o (p + 2) (byte_of value 16) in
  let! o := store o (p + 1) (byte_of value 8) in
  store o p (byte_of value 0).

(** utils.c:210-216 *)
Definition Utils_serialize32LE (o : list Z) (p value : Z) : outcome (list Z) :=
  let! o := store o (p + 3) (byte_of value 24) in
  let! o := store o (p + 2) (byte_of value 16) in
  let! o := store o (p + 1) (byte_of value 8) in
  store o p (byte_of value 0).

(** utils.c:218-225.  The counter is [int32_t]: [(int32_t)size - 1] wraps the size and
    then may overflow.  State ([buf], [j]). *)
Definition Utils_serializeBlobLE (buf : list Z) (p : Z) (src : list Z) (q size : Z)
  : outcome (list Z) :=
  let! top := ck32 (s32 size - 1) in
  let! '(buf, _) :=
    cford top 0
      (fun i '(buf, j) =>
         let! v := load src (q + i) in
         let! buf := store buf (p + j) v in
         let! j := ck32 (j + 1) in Ok (buf, j)) (buf, 0) in
  Ok buf.

(** utils.c:227-233 *)
Definition Utils_deserialize16LE (o : list Z) (p : Z) : outcome Z :=
  let! b1 := load o (p + 1) in
  let value := u16 (Z.shiftl (u16 b1) 8) in
  let! b0 := load o p in
  Ok (u16 (Z.lor value (u16 b0))).

(** utils.c:235-242 *)
Definition Utils_deserialize24LE (o : list Z) (p : Z) : outcome Z :=
  let! b2 := load o (p + 2) in
  let value := u32 (Z.shiftl (u32 b2) 16) in
  let! b1 := load o (p + 1) in
  let value := Z.lor value (u32 (Z.shiftl (u32 b1) 8)) in
  let! b0 := load o p in
  Ok (Z.lor value (u32 b0)).

(** utils.c:244-252 *)
Definition Utils_deserialize32LE (o : list Z) (p : Z) : outcome Z :=
  let! b3 := load o (p + 3) in
  let value := u32 (Z.shiftl (u32 b3) 24) in
  let! b2 := load o (p + 2) in
  let value := Z.lor value (u32 (Z.shiftl (u32 b2) 16)) in
  let! b1 := load o (p + 1) in
  let value := Z.lor value (u32 (Z.shiftl (u32 b1) 8)) in
  let! b0 := load o p in
  Ok (Z.lor value (u32 b0)).

(** utils.c:254-261 *)
Definition Utils_deserializeBlobLE (buf : list Z) (p : Z) (dst : list Z) (q size : Z)
  : outcome (list Z) :=
  let! top := ck32 (s32 size - 1) in
  let! '(dst, _) :=
    cford top 0
      (fun i '(dst, j) =>
         let! v := load buf (p + i) in
         let! dst := store dst (q + j) v in
         let! j := ck32 (j + 1) in Ok (dst, j)) (dst, 0) in
  Ok dst.

(** utils.c:263-271.  [input] is the byte of a [char]; [(uint8_t)input] is that byte. *)
Definition Utils_isUpperChar (input : Z) : bool :=
  (UPPER_A_ASCII <=? u8 input) && (u8 input <=? UPPER_Z_ASCII).

(** utils.c:273-281 *)
Definition Utils_isLowerChar (input : Z) : bool :=
  (LOWER_A_ASCII <=? u8 input) && (u8 input <=? LOWER_Z_ASCII).

(** utils.c:283-289 *)
Definition Utils_isAlpha (input : Z) : bool :=
  Utils_isUpperChar input || Utils_isLowerChar input.

(** ** bit_manipulation.c *)

(** bit_manipulation.c:37 *)
Definition MAX_BIT_SHIFT : Z := 31.

(** bit_manipulation.c:39-60; state ([reflection], [temp_data]) *)
Definition BitManipulation_reflect (data n_bits : Z) : outcome Z :=
  let! '(reflection, _) :=
    cfor 0 n_bits
      (fun bit '(reflection, temp_data) =>
         let! reflection :=
           if Z.land temp_data 1 =? 1 then
             let! one := shl32 1 (Z.land 31 (u32 (u32 (n_bits - 1) - bit))) in
             Ok (Z.lor reflection one)
           else Ok reflection in
         Ok (reflection, Z.shiftr temp_data 1)) (0, data) in
  Ok reflection.

(** bit_manipulation.c:62-72.  The out-pointer is modelled by the value it holds. *)
Definition BitManipulation_bitSet (data n : Z) (bit_set : bool) : outcome (bool * bool) :=
  if n <=? MAX_BIT_SHIFT then
    let! temp := shl32 1 n in Ok (true, negb (Z.land data temp =? 0))
  else Ok (false, bit_set).

(** bit_manipulation.c:74-83 *)
Definition BitManipulation_setBit (data n out : Z) : outcome (bool * Z) :=
  if n <=? MAX_BIT_SHIFT then
    let! b := shl32 1 n in Ok (true, Z.lor data b)
  else Ok (false, out).

(** bit_manipulation.c:85-94; [~x] at type [uint32_t] is [2^32 - 1 - x] *)
Definition BitManipulation_clearBit (data n out : Z) : outcome (bool * Z) :=
  if n <=? MAX_BIT_SHIFT then
    let! b := shl32 1 n in Ok (true, Z.land data (u32 (Z.lnot b)))
  else Ok (false, out).

(** bit_manipulation.c:96-105 *)
Definition BitManipulation_toggleBit (data n out : Z) : outcome (bool * Z) :=
  if n <=? MAX_BIT_SHIFT then
    let! b := shl32 1 n in Ok (true, Z.lxor data b)
  else Ok (false, out).

(** bit_manipulation.c:107-112; [32U - n_bits] is computed in [uint32_t] *)
Definition BitManipulation_rotl32 (data n_bits : Z) : outcome Z :=
  let! hi := shl32 data n_bits in
  let! lo := shr32 data (u32 (32 - n_bits)) in
  Ok (Z.lxor hi lo).
