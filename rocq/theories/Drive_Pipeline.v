(** * Clients that combine several modules of the model *)
From Verif Require Import CSem Model_Utils Model_Base64 Model_Crypto Model_Json Model_Crc
  Model_CrcVariants Spec_Crc Drive_Crc Spec_Json Drive_Json.

(** ** Encrypted text *)

(** encrypts [data] in place and writes it to [text] in base64 *)
Definition seal (data key nonce : list Z) (counter : Z) (text : list Z) (max_text : Z)
  : outcome (Z * list Z) :=
  let! c := Chacha20_crypt data 0 (len data) key nonce counter 0 in
  Base64_encode c (len c) text max_text.
(** the way back: decodes [n] characters of [text] to [out] and decrypts the first [m] bytes
    of it in place *)
Definition unseal (text : list Z) (n : Z) (key nonce : list Z) (counter : Z) (out : list Z)
  (max_out m : Z) : outcome (Z * list Z) :=
  let! '(st, out) := Base64_decode text n out max_out in
  if st =? 0
  then let! out := Chacha20_crypt out 0 m key nonce counter 0 in Ok (st, out)
  else Ok (st, out).

(** ** Bytes in JSON *)

(** encodes [data] in [text], builds the JSON text with the pairs [pre], the encoded data
    under the key [k], and the pairs [post] *)
Definition put_data (n : Z) (buffer data text : list Z) (max_text : Z)
  (pre : list (list Z * list Z)) (k : list Z) (post : list (list Z * list Z))
  : outcome (list bool * list Z) :=
  let! '(st, text) := Base64_encode data (len data) text max_text in
  let! m := strlen text in
  json_run n (build (pre ++ (k, take (Z.to_nat m) text) :: post)) buffer.
(** finds the value of the key and decodes it *)
Definition get_data (n : Z) (buffer key value out : list Z) (max_out : Z)
  : outcome (bool * Z * list Z) :=
  let! '(found, value) := Json_findByKey buffer n key value (len value) in
  let! m := strlen value in
  let! '(st, out) := Base64_decode value m out max_out in
  Ok (found, st, out).

(** ** Frames *)

(** writes a CRC of the parameters [P] at [p], least significant byte first if its bits are
    reversed *)
Definition put_crc (P : crc_params) (buf : list Z) (p c : Z) : outcome (list Z) :=
  if width P =? 8 then Utils_serialize8 buf p c
  else if width P =? 16
  then (if refout P then Utils_serialize16LE buf p c else Utils_serialize16BE buf p c)
  else (if refout P then Utils_serialize32LE buf p c else Utils_serialize32BE buf p c).
Definition get_crc (P : crc_params) (buf : list Z) (p : Z) : outcome Z :=
  if width P =? 8 then Utils_deserialize8 buf p
  else if width P =? 16
  then (if refout P then Utils_deserialize16LE buf p else Utils_deserialize16BE buf p)
  else (if refout P then Utils_deserialize32LE buf p else Utils_deserialize32BE buf p).

(** appends the CRC to the [n] bytes at the beginning of [buf] *)
Definition send (V : crc_variant) (buf : list Z) (n : Z) : outcome (list Z) :=
  let! c := run V buf n true None in put_crc (params V) buf n c.
(** checks a frame of [n] bytes, the CRC included *)
Definition receive (V : crc_variant) (buf : list Z) (n : Z) : outcome bool :=
  let m := n - width (params V) / 8 in
  let! c := run V buf m true None in
  let! d := get_crc (params V) buf m in
  Ok (c =? d).
(** another way to check: the CRC of the whole frame *)
Definition receive_residue (V : crc_variant) (res : Z) (buf : list Z) (n : Z) : outcome bool :=
  let! c := run V buf n true None in Ok (c =? res).
