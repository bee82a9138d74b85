(** * The other unit tests of [/repo/Tests] run on the model

    One [Example] per test case, with the inputs and the expected values of the C file.
    These are tests of the model, not proofs of a property.  Memory that the C test leaves
    uninitialised is filled with 170 ([junk]).  Numbers wider than a byte are given as
    their little-endian bytes, floating point numbers as their IEEE 754 bytes.

    Ten of the C test cases do what is undefined behaviour in C99; the model says [UB] where
    the C test expects a value.  They are marked "undefined" below:
    - BitManipulation_rotl32 shifts a [uint32_t] by 32;
    - Base64_encode writes a NUL one byte after a [char base64[4]];
    - Json_addData reads [buffer[-1]], as the buffer holds the empty string;
    - Map_uint32_key_char_value copies 50 bytes out of a 7-byte array;
    - the three InsertionSort tests read one element before the array;
    - the three HeapSort tests read one element after the array. *)
From Coq Require Import String.
From Verif Require Import CSem Model_Utils Model_Base64 Model_Containers Model_Json
  Model_Crypto Model_Sort Spec_Json Proof_Json.

Definition junk (n : Z) : list Z := repeat 170 (Z.to_nat n).
(** the [n] little-endian bytes of a number, and the number of such bytes *)
Fixpoint lebytes (n : nat) (v : Z) : list Z :=
  match n with O => [] | S n => v mod 256 :: lebytes n (v / 256) end.
Fixpoint levalue (b : list Z) : Z :=
  match b with [] => 0 | x :: b => x + 256 * levalue b end.
Fixpoint list_eqb (a b : list Z) : bool :=
  match a, b with
  | [], [] => true
  | x :: a, y :: b => (x =? y) && list_eqb a b
  | _, _ => false
  end.
Definition zlen (l : list Z) : Z := Z.of_nat (length l).

(** ** test_utils.c *)
(** test_utils.c:8-14 *)
Definition test_data_1 : list Z := [
   0x00; 0x01; 0x02; 0x03; 0x04; 0x05; 0x06; 0x07; 0x08; 0x09;
   0x10; 0x11; 0x12; 0x13; 0x14; 0x15; 0x16; 0x17; 0x18; 0x19;
   0x20; 0x21; 0x22; 0x23; 0x24; 0x25; 0x26; 0x27; 0x28; 0x29;
   0x30; 0x31; 0x32; 0x33; 0x34; 0x35; 0x36; 0x37; 0x38; 0x39;
   0x40; 0x41; 0x42; 0x43; 0x44; 0x45; 0x46; 0x47; 0x48; 0x49].

(** [Some value] when it returns [true], [None] when it returns [false] *)
Definition to_uint32 (sc : bool) (s : String.string) (n : Z) : outcome (option Z) :=
  let! '(ok, v) := Utils_stringToUint32 sc (cstr s ++ repeat 0 10) n in
  Ok (if (ok : bool) then Some v else None).

(** test_utils.c:57-113, with [char] signed and unsigned *)
Example test_Utils_stringToUint32 : forall sc,
  to_uint32 sc "39" 2 = Ok (Some 39) /\
  to_uint32 sc "0" 1 = Ok (Some 0) /\
  to_uint32 sc "2165217" 7 = Ok (Some 2165217) /\
  to_uint32 sc "1234567890" 10 = Ok (Some 1234567890) /\
  to_uint32 sc "4294967295" 10 = Ok (Some 4294967295) /\
  to_uint32 sc "4294967296" 10 = Ok None /\
  to_uint32 sc "5294967295" 10 = Ok None /\
  to_uint32 sc "A" 1 = Ok None /\
  to_uint32 sc "1A1" 3 = Ok None /\
  to_uint32 sc "123456789A" 10 = Ok None /\
  to_uint32 sc "429496729A" 10 = Ok None /\
  to_uint32 sc "/" 1 = Ok None /\
  to_uint32 sc ":" 1 = Ok None /\
  to_uint32 sc "12345A" 10 = Ok None /\
  to_uint32 sc "123456789/" 10 = Ok None /\
  to_uint32 sc "123456789:" 10 = Ok None.
Proof. intros []; by vm_compute. Qed.

(** test_utils.c:115-139 *)
Example test_Utils_swapElements :
  Utils_swapElements ([3] ++ [4]) 0 1 1 = Ok ([4] ++ [3]) /\
  Utils_swapElements ([205; 204; 204; 204; 204; 204; 8; 64] ++ [205; 204; 204; 204; 204; 204; 16; 64]) 0 8 8 = Ok ([205; 204; 204; 204; 204; 204; 16; 64] ++ [205; 204; 204; 204; 204; 204; 8; 64]) /\
  Utils_swapElements (([154; 153; 153; 153; 153; 153; 9; 64] ++ [205; 204; 204; 204; 204; 204; 32; 64]) ++ [205; 204; 204; 204; 204; 204; 16; 64] ++ [205; 204; 204; 204; 204; 204; 34; 64]) 0 16 16 =
    Ok (([205; 204; 204; 204; 204; 204; 16; 64] ++ [205; 204; 204; 204; 204; 204; 34; 64]) ++ [154; 153; 153; 153; 153; 153; 9; 64] ++ [205; 204; 204; 204; 204; 204; 32; 64]).
Proof. by vm_compute. Qed.

(** test_utils.c:141-152 *)
Example test_Utils_quickUint32Pow10 :
  map (fun i => Utils_quickUint32Pow10 i 0) [0; 1; 2; 3; 4; 5; 6; 7; 8; 9] =
  map (fun e => Ok (true, e))
    [1; 10; 100; 1000; 10000; 100000; 1000000; 10000000; 100000000; 1000000000] /\
  Utils_quickUint32Pow10 10 1000000000 = Ok (false, 1000000000).
Proof. by vm_compute. Qed.

(** test_utils.c:155-225 and 285-325, the serializers *)
Definition twice (f : list Z -> Z -> Z -> outcome (list Z)) (w v1 v2 : Z) : outcome (list Z) :=
  let! o := f (junk 10) 0 v1 in let! o := f o w v2 in Ok (take (Z.to_nat (2 * w)) o).
Example test_Utils_serialize :
  (let! o := Utils_serialize8 (junk 10) 0 0x11 in
   let! o := Utils_serialize8 o 1 0x22 in
   let! o := Utils_serialize8 o 2 0x33 in Utils_serialize8 o 3 0x44) =
    Ok ([0x11; 0x22; 0x33; 0x44] ++ junk 6) /\
  twice Utils_serialize16BE 2 0x1122 0x3344 = Ok [0x11; 0x22; 0x33; 0x44] /\
  twice Utils_serialize24BE 3 (Z.land 0x00FFFFFF 0x112233) (Z.land 0x00FFFFFF 0x445566) =
    Ok [0x11; 0x22; 0x33; 0x44; 0x55; 0x66] /\
  twice Utils_serialize32BE 4 0x11223344 0x55667788 =
    Ok [0x11; 0x22; 0x33; 0x44; 0x55; 0x66; 0x77; 0x88] /\
  twice Utils_serialize16LE 2 0x1122 0x3344 = Ok [0x22; 0x11; 0x44; 0x33] /\
  twice Utils_serialize24LE 3 (Z.land 0x00FFFFFF 0x112233) (Z.land 0x00FFFFFF 0x445566) =
    Ok [0x33; 0x22; 0x11; 0x66; 0x55; 0x44] /\
  twice Utils_serialize32LE 4 0x11223344 0x55667788 =
    Ok [0x44; 0x33; 0x22; 0x11; 0x88; 0x77; 0x66; 0x55].
Proof. by vm_compute. Qed.

(** test_utils.c:172-188, 244-273 and 338-367, the deserializers *)
Example test_Utils_deserialize :
  map (Utils_deserialize8 test_data_1) [0; 1; 2; 3] = map Ok [0x00; 0x01; 0x02; 0x03] /\
  map (Utils_deserialize16BE test_data_1) [0; 2] = map Ok [0x0001; 0x0203] /\
  map (Utils_deserialize24BE test_data_1) [0; 3] = map Ok [0x000102; 0x030405] /\
  map (Utils_deserialize32BE test_data_1) [0; 4] = map Ok [0x00010203; 0x04050607] /\
  map (Utils_deserialize16LE test_data_1) [0; 2] = map Ok [0x0100; 0x0302] /\
  map (Utils_deserialize24LE test_data_1) [0; 3] = map Ok [0x020100; 0x050403] /\
  map (Utils_deserialize32LE test_data_1) [0; 4] = map Ok [0x03020100; 0x07060504].
Proof. by vm_compute. Qed.

(** test_utils.c:234-242, 275-283, 328-336, 369-401, the blobs *)
Example test_Utils_blobs :
  Utils_serializeBlobBE (junk 50) 0 test_data_1 0 50 = Ok test_data_1 /\
  Utils_deserializeBlobBE test_data_1 0 (junk 50) 0 50 = Ok test_data_1 /\
  Utils_serializeBlobLE (junk 50) 0 test_data_1 0 50 = Ok (rev test_data_1) /\
  Utils_deserializeBlobLE test_data_1 0 (junk 50) 0 50 = Ok (rev test_data_1) /\
  (let! s := Utils_serializeBlobBE (junk 50) 0 test_data_1 0 50 in
   Utils_deserializeBlobBE s 0 (junk 50) 0 50) = Ok test_data_1 /\
  (let! s := Utils_serializeBlobLE (junk 50) 0 test_data_1 0 50 in
   Utils_deserializeBlobLE s 0 (junk 50) 0 50) = Ok test_data_1.
Proof. by vm_compute. Qed.

(** test_utils.c:403-416 *)
Example test_Utils_characters :
  map Utils_isLowerChar (str "aB ") = [true; false; false] /\
  map Utils_isUpperChar (str "Dc,") = [true; false; false] /\
  map Utils_isAlpha (str "ze*?") = [true; true; false; false].
Proof. by vm_compute. Qed.

(** ** test_bit_manipulation.c; [0b10110011] is 179 *)
(** test_bit_manipulation.c:23-34 *)
Example test_BitManipulation_reflect :
  map (BitManipulation_reflect 179) [4; 2; 3] = map Ok [12; 3; 6].
Proof. by vm_compute. Qed.

(** test_bit_manipulation.c:36-86 *)
Example test_BitManipulation_bits : forall b out,
  map (fun n => BitManipulation_bitSet 179 n b) [32; 100; 0; 3; 4] =
    map Ok [(false, b); (false, b); (true, true); (true, false); (true, true)] /\
  map (fun n => BitManipulation_setBit 179 n out) [32; 90; 0; 2; 3] =
    map Ok [(false, out); (false, out); (true, 179); (true, 183); (true, 187)] /\
  map (fun n => BitManipulation_clearBit 179 n out) [32; 80; 0; 2; 4] =
    map Ok [(false, out); (false, out); (true, 178); (true, 179); (true, 163)] /\
  map (fun n => BitManipulation_toggleBit 179 n out) [32; 128; 0; 2; 4] =
    map Ok [(false, out); (false, out); (true, 178); (true, 183); (true, 163)].
Proof. by vm_compute. Qed.

(** test_bit_manipulation.c:88-105; the last of its five calls, with [n_bits = 32], is
    undefined (C99 6.5.7p3); the test expects 179 *)
Example test_BitManipulation_rotl32 :
  map (BitManipulation_rotl32 179) [2; 3; 4; 16; 32] =
    map Ok [716; 1432; 2864; 11730944] ++ [UB BadShift].
Proof. by vm_compute. Qed.

(** ** test_base64.c *)
Definition encode (s : String.string) (n max : Z) := Base64_encode (cstr s) n (junk max) max.
Definition decode (s : String.string) (n max : Z) := Base64_decode (cstr s) n (junk max) max.

(** test_base64.c:19-67.  The fifth call is undefined: it has a result array of 4 bytes and
    the function writes a NUL after it.  With one byte more it returns what the test
    expects. *)
Example test_Base64_encode :
  encode "IMProject is a very cool project!" 33 200 =
    Ok (0, cstr "SU1Qcm9qZWN0IGlzIGEgdmVyeSBjb29sIHByb2plY3Qh" ++ junk 155) /\
  encode "IMProject is a very cool project!" 33 10 = Ok (1, cstr "SU1Qcm9q" ++ junk 1) /\
  encode "Hehe" 4 200 = Ok (0, cstr "SGVoZQ==" ++ junk 191) /\
  encode "jc" 2 200 = Ok (0, cstr "amM=" ++ junk 195) /\
  encode "Hehe" 4 4 = UB OutOfBounds /\
  Base64_encode (cstr "Hehe") 4 (junk 5) 4 = Ok (1, cstr "SGVo") /\
  encode "Hehe" 18446744073709551610 4 = Ok (1, junk 4).
Proof. by vm_compute. Qed.

(** the success code and the first bytes of the output *)
Definition decoded (s : String.string) (n max k : Z) : outcome (Z * list Z) :=
  let! '(r, out) := decode s n max in Ok (r, take (Z.to_nat k) out).
(** test_base64.c:69-125 *)
Example test_Base64_decode :
  decoded "SU1Qcm9qZWN0IGlzIGEgdmVyeSBjb29sIHByb2plY3Qh" 44 200 33 =
    Ok (0, str "IMProject is a very cool project!") /\
  decode "SU1Qcm9qZWN0IGlzIGEgdmVyeSBjb29sIHByb2plY3Qh" 44 10 = Ok (1, junk 10) /\
  decoded "Qj9FKEgrTWJRZVRoV21acTR0N3cheiVDKkYpSkBOY1I=" 44 200 32 =
    Ok (0, str "B?E(H+MbQeThWmZq4t7w!z%C*F)J@NcR") /\
  decoded "SGVoZQ==" 8 200 4 = Ok (0, str "Hehe") /\
  decoded "SGVoZQ1==" 9 200 4 = Ok (0, str "Hehe") /\
  decode "Qj9FKEgrTWJRZVRoV21acTR0N3cheiVDKkYpSkBOY1I=" 44 31 =
    Ok (1, str "B?E(H+MbQeThWmZq4t7w!z%C*F)J@Nc") /\
  decode "SGVoZQ==" 0 200 = Ok (1, junk 200).
Proof. by vm_compute. Qed.

(** ** test_json.c *)
(** test_json.c:20-26 *)
Example test_Json_startString :
  Json_startString (repeat 0 10) 2 = Ok (true, cstr "{" ++ repeat 0 8) /\
  Json_startString (cstr "{" ++ repeat 0 8) 1 = Ok (false, cstr "{" ++ repeat 0 8).
Proof. by vm_compute. Qed.

(** test_json.c:28-37: undefined, as [buffer] is the empty string and json.c looks at the
    character before its end.  With a readable byte in front of the buffer that is not a
    quotation mark, the result is the expected one: after "{" the same member is written.
    The second call returns [false], after it has appended a comma. *)
Definition pk : String.string := "public_key".
Definition pv : String.string := "u1zeY+TBbtYlDIzZsLH16RJ9aIBmxTINpLXSkTpaikQ=".
Definition dq : list Z := [34].
Definition member : list Z := dq ++ str pk ++ dq ++ str ":" ++ dq ++ str pv ++ dq.
Example test_Json_addData_empty :
  Json_addData (repeat 0 100) 100 (cstr pk) (cstr pv) = UB OutOfBounds.
Proof.
  apply (add_empty (repeat 0 100) 100 (cstr pk) (cstr pv) (str pk) (str pv)).
  - by exists (repeat 0 99).
  - exists []. split; [done|]. by repeat constructor.
  - exists []. split; [done|]. by repeat constructor.
  - done.
Qed.
Example test_Json_addData :
  (let! '(ok, b) := Json_addData (str "{" ++ repeat 0 100) 101 (cstr pk) (cstr pv) in
   Ok (ok, take 61 b)) = Ok (true, str "{" ++ member ++ [0]) /\
  Json_addData (member ++ repeat 0 41) 10 (cstr pk) (cstr pv) =
    Ok (false, member ++ str "," ++ repeat 0 40).
Proof. by vm_compute. Qed.

(** test_json.c:39-47 *)
Example test_Json_endString :
  Json_endString (cstr "{ABCD" ++ repeat 0 4) 10 = Ok (true, cstr "{ABCD}" ++ repeat 0 3) /\
  Json_endString (cstr "{ABCD" ++ repeat 0 4) 6 = Ok (false, cstr "{ABCD" ++ repeat 0 4).
Proof. by vm_compute. Qed.

(** test_json.c:49-99 *)
Definition sk : String.string := "public_key_signature".
Definition sv : String.string :=
  "sQjximnEuRAsf+mAuTURcXASUS5vkl5xU0SNvvAcX+Mfc7es+xXw/Lgo0bfMNY+ShKe5VjbIg3DaSxJvLbhX+w==".
Definition json_string : list Z :=
  str "{" ++ member ++ str "," ++ dq ++ str sk ++ dq ++ str ":" ++ dq ++ str sv ++ dq ++ str "}".
Definition broken_json_string_1 : list Z := str "{" ++ dq ++ str pk ++ dq ++ str ": blabla }".
Definition broken_json_string_2 : list Z :=
  str "{" ++ dq ++ str pk ++ dq ++ str ": " ++ dq ++ str "blabla }".
Definition json_string_with_space : list Z :=
  str "{  " ++ dq ++ str pk ++ dq ++ str "   :     " ++ dq ++ str pv ++ dq ++ str "   }".
Definition find (j k value : list Z) (size : Z) : outcome (bool * list Z) :=
  Json_findByKey (j ++ [0]) (zlen j) (k ++ [0]) value size.
(** the flag, and the string in [value] afterwards *)
Definition found (r : outcome (bool * list Z)) (n : Z) : outcome (bool * list Z) :=
  let! '(ok, v) := r in Ok (ok, take (Z.to_nat n) v).
Definition fails (r : outcome (bool * list Z)) : Prop :=
  match r with Ok (false, _) => True | _ => False end.
Example test_Json_findByKey :
  found (find json_string (str pk) (junk 200) 200) 45 = Ok (true, cstr pv) /\
  found (find json_string (str sk) (junk 200) 200) 89 = Ok (true, cstr sv) /\
  fails (find json_string (str "public") (junk 200) 200) /\
  fails (find json_string (dq ++ str pk ++ dq) (junk 200) 200) /\
  found (find json_string (str pk) (junk 200) 45) 45 = Ok (true, cstr pv) /\
  found (find json_string (str pk) (cstr pv ++ junk 155) 44) 45 = Ok (false, cstr pv) /\
  fails (find json_string (repeat 65 (length json_string)) (junk 200) 44) /\
  fails (find json_string (str "non_existing_key") (junk 200) 200) /\
  fails (find broken_json_string_1 (str pk) (junk 200) 200) /\
  fails (find broken_json_string_2 (str pk) (junk 200) 200) /\
  found (find json_string_with_space (str pk) (junk 200) 200) 45 = Ok (true, cstr pv).
Proof. by vm_compute. Qed.

(** ** test_map.c *)
Definition some_map : option Map_t := Some (mkMap [] [] 0 0 0 0).

(** test_map.c:22-41.  [value1] has 7 bytes and [value_size] is 50: undefined.  [pad] is
    the number of readable bytes after the 7 in the array [value1]. *)
Definition map_uint32 (pad : nat) : outcome (bool * bool * bool * bool * list Z) :=
  let! '(r1, m) := Map_init some_map (Some (junk 400)) (Some (junk 5000)) 4 50 100 in
  let! '(r2, m) := Map_insert m (lebytes 4 2) (cstr "Value1" ++ repeat 1 pad) in
  let! '(r3, m) := Map_insert m (lebytes 4 3) (cstr "Value2" ++ repeat 1 pad) in
  let! '(r4, v) := Map_getValue m (lebytes 4 2) (junk 50) in
  Ok (r1, r2, r3, r4, take 7 v).
Example test_Map_uint32_key_char_value :
  map_uint32 0 = UB OutOfBounds /\
  map_uint32 43 = Ok (true, true, true, true, cstr "Value1").
Proof. by vm_compute. Qed.

(** test_map.c:43-70 *)
Example test_Map_int32_key_fp32_value :
  (let! '(r1, m) := Map_init some_map (Some (junk 8)) (Some (junk 8)) 4 4 2 in
   let! '(r2, m) := Map_insert m (lebytes 4 1) [0; 0; 40; 65] in
   let! '(r3, m) := Map_insert m (lebytes 4 2) [102; 102; 118; 65] in
   let! '(r4, v1) := Map_getValue m (lebytes 4 2) (junk 4) in
   let! '(r5, m) := Map_insert m (lebytes 4 2) [205; 12; 150; 67] in
   let! '(r6, v2) := Map_getValue m (lebytes 4 2) v1 in
   let! '(r7, _) := Map_getValue m (lebytes 4 10) v2 in
   let! '(r8, _) := Map_insert m (lebytes 4 10) [205; 12; 150; 67] in
   Ok ([r1; r2; r3; r4; r5; r6; r7; r8], v1, v2)) =
  Ok ([true; true; true; true; true; true; false; false], [102; 102; 118; 65], [205; 12; 150; 67]).
Proof. by vm_compute. Qed.

(** test_map.c:72-92 *)
Example test_Map_negative_cases :
  map (fun '(k, v, ks, vs, n) => let! '(r, _) := Map_init some_map k v ks vs n in Ok r)
    [(Some (junk 20), Some (junk 20), 0, 4, 5); (Some (junk 20), Some (junk 20), 4, 0, 5);
     (Some (junk 20), Some (junk 20), 4, 4, 0); (None, Some (junk 20), 4, 4, 5);
     (Some (junk 20), None, 4, 4, 5)] = repeat (Ok false) 5 /\
  Map_insert None (lebytes 4 1) [0; 0; 40; 65] = Ok (false, None) /\
  Map_getValue None (lebytes 4 1) [0; 0; 40; 65] = Ok (false, [0; 0; 40; 65]).
Proof. by vm_compute. Qed.

(** ** test_queue.c *)
Definition some_queue : option Queue_t := Some (mkQueue 0 0 0 0 0 []).
(** enqueue the elements in turn; the results *)
Fixpoint enqueue_all (q : option Queue_t) (es : list (list Z)) : outcome (list bool * option Queue_t) :=
  match es with
  | [] => Ok ([], q)
  | e :: es =>
      let! '(r, q) := Queue_enqueue q (Some e) in
      let! '(rs, q) := enqueue_all q es in Ok (r :: rs, q)
  end.

(** test_queue.c:21-91 *)
Definition uint32s : list (list Z) := map (fun i => lebytes 4 (Z.of_nat i)) (seq 0 100).
Example test_Queue_enqueue_dequeue_uint32 :
  (let e := Some (junk 4) in
   let! '(a1, q) := Queue_init some_queue 100 4 (Some (junk 400)) in
   let! a2 := Queue_full q in
   let! a3 := Queue_empty q in
   let! '(a4, _) := Queue_front q e in
   let! '(a5, _) := Queue_rear q e in
   let! '(a6, _, _) := Queue_dequeue q e in
   let! '(fill, q) := enqueue_all q uint32s in
   let! b1 := Queue_full q in
   let! '(b2, _) := Queue_enqueue q (Some (lebytes 4 100)) in
   let! '(b3, _) := Queue_front None e in
   let! '(b4, _) := Queue_front q None in
   let! '(b5, e1) := Queue_front q e in
   let! '(b6, _) := Queue_rear None e in
   let! '(b7, _) := Queue_rear q None in
   let! '(b8, e2) := Queue_rear q e in
   let! '(c1, _, _) := Queue_dequeue None e in
   let! '(c2, q, _) := Queue_dequeue q None in
   let! '(c3, q, e3) := Queue_dequeue q e in
   let! '(c4, _) := Queue_enqueue None (Some (lebytes 4 100)) in
   let! '(c5, q) := Queue_enqueue q None in
   let! '(c6, q) := Queue_enqueue q (Some (lebytes 4 100)) in
   let! '(c7, e4) := Queue_rear q e in
   Ok ([a1; a2; a3; a4; a5; a6], forallb id fill, [b1; b2; b3; b4; b5; b6; b7; b8],
       [c1; c2; c3; c4; c5; c6; c7], map (fun e => option_map levalue e) [e1; e2; e3; e4])) =
  Ok ([true; false; true; false; false; false], true,
      [true; false; false; false; true; false; false; true],
      [false; false; true; false; false; true; true], map Some [0; 99; 0; 100]).
Proof. by vm_compute. Qed.

(** test_queue.c:93-133; the elements are the floats i + 1.1 *)
Definition float32s : list (list Z) := map (lebytes 4) [
   0x3f8ccccd; 0x40066666; 0x40466666; 0x40833333; 0x40a33333; 0x40c33333; 0x40e33333;
   0x4101999a; 0x4111999a; 0x4121999a; 0x4131999a; 0x4141999a; 0x4151999a; 0x4161999a;
   0x4171999a; 0x4180cccd; 0x4188cccd; 0x4190cccd; 0x4198cccd; 0x41a0cccd; 0x41a8cccd;
   0x41b0cccd; 0x41b8cccd; 0x41c0cccd; 0x41c8cccd; 0x41d0cccd; 0x41d8cccd; 0x41e0cccd;
   0x41e8cccd; 0x41f0cccd; 0x41f8cccd; 0x42006666; 0x42046666; 0x42086666; 0x420c6666;
   0x42106666; 0x42146666; 0x42186666; 0x421c6666; 0x42206666; 0x42246666; 0x42286666;
   0x422c6666; 0x42306666; 0x42346666; 0x42386666; 0x423c6666; 0x42406666; 0x42446666;
   0x42486666; 0x424c6666; 0x42506666; 0x42546666; 0x42586666; 0x425c6666; 0x42606666;
   0x42646666; 0x42686666; 0x426c6666; 0x42706666; 0x42746666; 0x42786666; 0x427c6666;
   0x42803333; 0x42823333; 0x42843333; 0x42863333; 0x42883333; 0x428a3333; 0x428c3333;
   0x428e3333; 0x42903333; 0x42923333; 0x42943333; 0x42963333; 0x42983333; 0x429a3333;
   0x429c3333; 0x429e3333; 0x42a03333; 0x42a23333; 0x42a43333; 0x42a63333; 0x42a83333;
   0x42aa3333; 0x42ac3333; 0x42ae3333; 0x42b03333; 0x42b23333; 0x42b43333; 0x42b63333;
   0x42b83333; 0x42ba3333; 0x42bc3333; 0x42be3333; 0x42c03333; 0x42c23333; 0x42c43333;
   0x42c63333; 0x42c83333].
Example test_Queue_enqueue_dequeue_float32_t :
  (let e := Some [0; 0; 128; 63] in
   let! '(a1, q) := Queue_init some_queue 100 4 (Some (junk 400)) in
   let! a2 := Queue_full q in
   let! a3 := Queue_empty q in
   let! '(a4, _, _) := Queue_dequeue q e in
   let! '(fill, q) := enqueue_all q float32s in
   let! b1 := Queue_full q in
   let! '(b2, _) := Queue_enqueue q e in
   let! '(b3, e1) := Queue_front q e in
   let! '(b4, e2) := Queue_rear q e in
   let! '(b5, q, e3) := Queue_dequeue q e in
   let! '(b6, q) := Queue_enqueue q (Some [51; 51; 163; 64]) in
   let! '(b7, e4) := Queue_rear q e in
   Ok ([a1; a2; a3; a4], forallb id fill, [b1; b2; b3; b4; b5; b6; b7], [e1; e2; e3; e4])) =
  Ok ([true; false; true; false], true, [true; false; true; true; true; true; true],
      map Some [[205; 204; 140; 63]; [51; 51; 200; 66]; [205; 204; 140; 63]; [51; 51; 163; 64]]).
Proof. by vm_compute. Qed.

(** test_queue.c:135-153 *)
Example test_Queue_init :
  map (fun '(c, s, b) => let! '(r, _) := Queue_init some_queue c s b in Ok r)
    [(0, 16, Some (junk 1600)); (100, 0, Some (junk 1600)); (100, 16, None)] =
  repeat (Ok false) 3.
Proof. by vm_compute. Qed.

(** ** test_priority_queue.c *)
Definition some_pq : option PriorityQueue_t := Some (mkPQ 0 0 0 [] []).
Fixpoint pq_enqueue_all (q : option PriorityQueue_t) (es : list (Z * list Z))
  : outcome (list bool * option PriorityQueue_t) :=
  match es with
  | [] => Ok ([], q)
  | (p, e) :: es =>
      let! '(r, q) := PriorityQueue_enqueue q (Some (mkItem [p] e)) in
      let! '(rs, q) := pq_enqueue_all q es in Ok (r :: rs, q)
  end.
(** the shape shared by the two tests: fill with 100 elements, one of them of another
    priority; a rejected element, an accepted one, two dequeues *)
Definition pq_test (p q50 : Z) (elements : list (list Z)) (last : list Z) (reject : Z)
  : outcome (list bool * bool * list bool * list (option (list Z))) :=
  let items := mkItem (junk 100) (junk 400) in
  let! '(a1, q) := PriorityQueue_init some_pq 100 4 (Some items) in
  let! a2 := PriorityQueue_empty q in
  let! '(a3, q, _) := PriorityQueue_dequeue q (Some (junk 4)) in
  let! '(fill, q) := pq_enqueue_all q
    (imap (fun i e => (if (i =? 50)%nat then q50 else p, e)) elements) in
  let! '(b1, q) := PriorityQueue_enqueue q (Some (mkItem [reject] last)) in
  let! '(b2, q) := PriorityQueue_enqueue q (Some (mkItem [9] last)) in
  let! '(b3, q, e1) := PriorityQueue_dequeue q (Some (junk 4)) in
  let! '(b4, q, e2) := PriorityQueue_dequeue q (Some (junk 4)) in
  Ok ([a1; a2; a3], forallb id fill, [b1; b2; b3; b4], [e1; e2]).

(** test_priority_queue.c:22-66 *)
Example test_PriorityQueue_enqueue_dequeue_uint32 :
  pq_test 2 1 uint32s (lebytes 4 100) 1 =
  Ok ([true; true; false], true, [false; true; true; true],
      [Some (lebytes 4 100); Some (lebytes 4 0)]).
Proof. by vm_compute. Qed.

(** test_priority_queue.c:68-110: the floats 0.0 to 99.0; the rejected and the accepted
    element is 100.0 *)
Definition whole_float32s : list (list Z) := map (lebytes 4) [
   0x0; 0x3f800000; 0x40000000; 0x40400000; 0x40800000; 0x40a00000; 0x40c00000;
   0x40e00000; 0x41000000; 0x41100000; 0x41200000; 0x41300000; 0x41400000; 0x41500000;
   0x41600000; 0x41700000; 0x41800000; 0x41880000; 0x41900000; 0x41980000; 0x41a00000;
   0x41a80000; 0x41b00000; 0x41b80000; 0x41c00000; 0x41c80000; 0x41d00000; 0x41d80000;
   0x41e00000; 0x41e80000; 0x41f00000; 0x41f80000; 0x42000000; 0x42040000; 0x42080000;
   0x420c0000; 0x42100000; 0x42140000; 0x42180000; 0x421c0000; 0x42200000; 0x42240000;
   0x42280000; 0x422c0000; 0x42300000; 0x42340000; 0x42380000; 0x423c0000; 0x42400000;
   0x42440000; 0x42480000; 0x424c0000; 0x42500000; 0x42540000; 0x42580000; 0x425c0000;
   0x42600000; 0x42640000; 0x42680000; 0x426c0000; 0x42700000; 0x42740000; 0x42780000;
   0x427c0000; 0x42800000; 0x42820000; 0x42840000; 0x42860000; 0x42880000; 0x428a0000;
   0x428c0000; 0x428e0000; 0x42900000; 0x42920000; 0x42940000; 0x42960000; 0x42980000;
   0x429a0000; 0x429c0000; 0x429e0000; 0x42a00000; 0x42a20000; 0x42a40000; 0x42a60000;
   0x42a80000; 0x42aa0000; 0x42ac0000; 0x42ae0000; 0x42b00000; 0x42b20000; 0x42b40000;
   0x42b60000; 0x42b80000; 0x42ba0000; 0x42bc0000; 0x42be0000; 0x42c00000; 0x42c20000;
   0x42c40000; 0x42c60000].
Example test_PriorityQueue_enqueue_dequeue_float32_t :
  pq_test 1 2 whole_float32s [0; 0; 200; 66] 1 =
  Ok ([true; true; false], true, [false; true; true; true],
      [Some [0; 0; 200; 66]; Some [0; 0; 72; 66]]).
Proof. by vm_compute. Qed.

(** test_priority_queue.c:112-136 *)
Example test_PriorityQueue_init :
  let items := mkItem [] [] in
  map (fun '(q, c, s, it) => let! '(r, _) := PriorityQueue_init q c s it in Ok r)
    [(None, 100, 8, Some items); (some_pq, 0, 8, Some items);
     (some_pq, 100, 0, Some items); (some_pq, 100, 8, None)] = repeat (Ok false) 4.
Proof. by vm_compute. Qed.

(** ** test_scheduler.c:30-51.  The world is the list of the functions called so far; the
    C test prints a line in each.  Function1 is called, Function2 is not: one of its tasks
    is not active and the other one has lost its function. *)
Example test_Scheduler_run :
  let exec (f : Z) '(calls, tasks) := (calls ++ [f], tasks) in
  (let! t := Scheduler_init (repeat (mkTask (Some 7) true) 3) 3 in
   let! '(a1, t) := Scheduler_addTask t 3 (mkTask (Some 1) true) in
   let! '(a2, t) := Scheduler_addTask t 3 (mkTask (Some 2) false) in
   let! '(a3, t) := Scheduler_addTask t 3 (mkTask (Some 2) true) in
   let! '(a4, t) := Scheduler_addTask t 3 (mkTask (Some 2) true) in
   let! t2 := load t 2 in
   let! t := store t 2 (mkTask None (t_active t2)) in
   let! '(calls, _) := Scheduler_run exec ([] : list Z) t 3 in
   Ok ([a1; a2; a3; a4], calls)) = Ok ([true; true; true; false], [1]).
Proof. by vm_compute. Qed.

(** ** test_caesar_cipher.c:18-24 *)
Example test_CaesarCipher_encryptDecrypt :
  (let! m := CaesarCipher_encrypt (cstr "|Caesar Cipher Test|") 6 in
   CaesarCipher_decrypt m 6) = Ok (cstr "|Caesar Cipher Test|").
Proof. by vm_compute. Qed.

(** ** test_vernam_cipher.c:20-35, with [char] signed and unsigned *)
Example test_VernamCipher_encryptDecrypt : forall sc,
  (let key1 := cstr "OSIJEK11" in
   let key2 := cstr "OSijek!/" in
   let! '(r1, m) := VernamCipher_encrypt (cstr "ReSuLt1a") key1 8 in
   let! '(r2, m1) := VernamCipher_decrypt sc m key1 8 in
   let! '(r3, m) := VernamCipher_encrypt m1 key2 8 in
   let! '(r4, m2) := VernamCipher_decrypt sc m key2 8 in
   let! '(r5, m) := VernamCipher_encrypt m2 key1 3 in
   let! '(r6, m) := VernamCipher_decrypt sc m key1 100 in
   Ok ([r1; r2; r3; r4; r5; r6], [m1; m2])) =
  Ok ([true; true; true; true; false; false], repeat (cstr "ReSuLt1a") 2).
Proof. intros []; by vm_compute. Qed.

(** ** test_*_sort.c *)
(** helper/sort_functions.c:3-33; for doubles that are not NaN, not negative and not zero,
    the order of the numbers is the order of their bytes read as a number, so one function
    serves for [uint64_t] and these [float64_t]; the [int32_t] here are positive too *)
Definition Compare (first second : list Z) : bool := levalue second <? levalue first.

Definition int32_unsorted : list Z :=
  concat (map (lebytes 4) [5; 2; 3; 1000000; 9; 10; 11; 8; 9; 100]).
Definition int32_sorted : list Z :=
  concat (map (lebytes 4) [2; 3; 5; 8; 9; 9; 10; 11; 100; 1000000]).
Definition float64_unsorted : list Z := [
   51; 51; 51; 51; 51; 51; 23; 64; 154; 153; 153; 153; 153; 153; 1; 64; 205; 204; 204;
   204; 204; 204; 8; 64; 154; 153; 153; 153; 153; 153; 241; 63; 51; 51; 51; 51; 51; 51;
   34; 64; 154; 153; 153; 153; 153; 153; 36; 64; 102; 102; 102; 102; 102; 102; 38; 64;
   205; 204; 204; 204; 204; 204; 32; 64; 102; 102; 102; 102; 102; 102; 34; 64; 154; 153;
   153; 153; 153; 57; 89; 64].
Definition float64_sorted : list Z := [
   154; 153; 153; 153; 153; 153; 241; 63; 154; 153; 153; 153; 153; 153; 1; 64; 205; 204;
   204; 204; 204; 204; 8; 64; 51; 51; 51; 51; 51; 51; 23; 64; 205; 204; 204; 204; 204;
   204; 32; 64; 51; 51; 51; 51; 51; 51; 34; 64; 102; 102; 102; 102; 102; 102; 34; 64;
   154; 153; 153; 153; 153; 153; 36; 64; 102; 102; 102; 102; 102; 102; 38; 64; 154; 153;
   153; 153; 153; 57; 89; 64].
Definition uint64_unsorted : list Z :=
  concat (map (lebytes 8) [1111111; 55555555; 44444; 10000000000000; 212121; 1111; 1; 2; 5; 3]).
Definition uint64_sorted : list Z :=
  concat (map (lebytes 8) [1; 2; 3; 5; 1111; 44444; 212121; 1111111; 55555555; 10000000000000]).

(** test_bubble_sort.c:20-53 *)
Example test_BubbleSort :
  BubbleSort_sort Compare int32_unsorted 0 10 4 = Ok int32_sorted /\
  BubbleSort_sort Compare float64_unsorted 0 10 8 = Ok float64_sorted /\
  BubbleSort_sort Compare uint64_unsorted 0 10 8 = Ok uint64_sorted.
Proof. by vm_compute. Qed.

(** test_selection_sort.c:20-56 *)
Example test_SelectionSort :
  SelectionSort_sort Compare int32_unsorted 0 10 4 = Ok int32_sorted /\
  SelectionSort_sort Compare float64_unsorted 0 10 8 = Ok float64_sorted /\
  SelectionSort_sort Compare uint64_unsorted 0 10 8 = Ok uint64_sorted.
Proof. by vm_compute. Qed.

(** test_insertion_sort.c:20-56: undefined; with one readable element before the array the
    results are the expected ones *)
Definition insertion (m : list Z) (base n size : Z) : outcome (list Z) :=
  let! '(m, _) := InsertionSort_sort Compare m (repeat 0 64) base n size in Ok m.
Example test_InsertionSort :
  insertion int32_unsorted 0 10 4 = UB OutOfBounds /\
  insertion float64_unsorted 0 10 8 = UB OutOfBounds /\
  insertion uint64_unsorted 0 10 8 = UB OutOfBounds /\
  insertion (junk 4 ++ int32_unsorted) 4 10 4 = Ok (junk 4 ++ int32_sorted) /\
  insertion (junk 8 ++ float64_unsorted) 8 10 8 = Ok (junk 8 ++ float64_sorted) /\
  insertion (junk 8 ++ uint64_unsorted) 8 10 8 = Ok (junk 8 ++ uint64_sorted).
Proof. by vm_compute. Qed.

(** test_heap_sort.c:20-53: undefined; with eleven readable elements after the array the
    results are the expected ones *)
Definition heap := HeapSort_sort Compare.
Example test_HeapSort :
  heap int32_unsorted 0 10 4 = UB OutOfBounds /\
  heap float64_unsorted 0 10 8 = UB OutOfBounds /\
  heap uint64_unsorted 0 10 8 = UB OutOfBounds /\
  heap (int32_unsorted ++ junk 44) 0 10 4 = Ok (int32_sorted ++ junk 44) /\
  heap (float64_unsorted ++ junk 88) 0 10 8 = Ok (float64_sorted ++ junk 88) /\
  heap (uint64_unsorted ++ junk 88) 0 10 8 = Ok (uint64_sorted ++ junk 88).
Proof. by vm_compute. Qed.
