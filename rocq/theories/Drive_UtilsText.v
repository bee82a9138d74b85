(** * The serializers of utils.c, for statements about all of them *)
From Verif Require Import CSem CLang C_Utils Spec_Utils.

(** number of bytes, most significant byte first, type of the value, and the pair of functions *)
Definition codecs : list (nat * bool * ity * fundef * fundef) :=
  [(1%nat, true, U8, c_Utils_serialize8, c_Utils_deserialize8);
   (2%nat, true, U16, c_Utils_serialize16BE, c_Utils_deserialize16BE);
   (3%nat, true, U32, c_Utils_serialize24BE, c_Utils_deserialize24BE);
   (4%nat, true, U32, c_Utils_serialize32BE, c_Utils_deserialize32BE);
   (2%nat, false, U16, c_Utils_serialize16LE, c_Utils_deserialize16LE);
   (3%nat, false, U32, c_Utils_serialize24LE, c_Utils_deserialize24LE);
   (4%nat, false, U32, c_Utils_serialize32LE, c_Utils_deserialize32LE)].

(** the copies of a blob: in order, or in reverse *)
Definition blob_functions : list (bool * fundef * fundef) :=
  [(true, c_Utils_serializeBlobBE, c_Utils_deserializeBlobBE);
   (false, c_Utils_serializeBlobLE, c_Utils_deserializeBlobLE)].

(** the functions that change one bit, and what it becomes *)
Definition bit_functions : list (fundef * (bool -> bool)) :=
  [(c_BitManipulation_setBit, fun _ => true);
   (c_BitManipulation_clearBit, fun _ => false);
   (c_BitManipulation_toggleBit, negb)].

Definition in_order (big : bool) (n : nat) (v : Z) : list Z :=
  if big then be_bytes n v else le_bytes n v.
Definition value_of (big : bool) (bs : list Z) : Z := if big then be_value bs else le_value bs.
