(** * Properties C67-C69: records, byte orders, decimal text *)
From Verif Require Import CSem Lib Model_Utils Spec_Utils Spec_Record Drive_Record Proof_Record.

(** ** C67 Records written field by field are read back *)

Theorem C67_write : forall fs pre old post, Forall wf_field fs -> len old = len (layout fs) ->
  write_fields (pre ++ old ++ post) (len pre) fs = Ok (pre ++ layout fs ++ post).
Proof. exact write_fields_ok. Qed.
Print Assumptions C67_write.
Theorem C67_read : forall fs pre post, Forall wf_field fs ->
  read_fields (pre ++ layout fs ++ post) (len pre) (map kind_of fs) = Ok (map truncated fs).
Proof. exact read_fields_ok. Qed.
Print Assumptions C67_read.
Theorem C67_roundtrip : forall fs pre old post, Forall wf_field fs -> len old = len (layout fs) ->
  exists m, write_fields (pre ++ old ++ post) (len pre) fs = Ok m /\
    read_fields m (len pre) (map kind_of fs) = Ok (map truncated fs).
Proof. exact record_roundtrip. Qed.
Print Assumptions C67_roundtrip.
(** one field changed in place *)
Theorem C67_update : forall fs f g fs' pre post, Forall wf_field (fs ++ f :: fs') -> wf_field g ->
  size_of (kind_of g) = size_of (kind_of f) ->
  write_field (pre ++ layout (fs ++ f :: fs') ++ post) (len pre + len (layout fs)) g
  = Ok (pre ++ layout (fs ++ g :: fs') ++ post).
Proof. exact record_update. Qed.
Print Assumptions C67_update.
Theorem C67_layout_faithful : forall fs gs, Forall wf_field fs -> Forall wf_field gs ->
  map kind_of fs = map kind_of gs -> layout fs = layout gs -> map truncated fs = map truncated gs.
Proof. exact layout_inj. Qed.
Print Assumptions C67_layout_faithful.
Example C67_ex :
  let fs := [Num K8 7; Num K16BE 0x1234; Num K24LE 0x1abcdef; Blob (KBlobLE 3) [1; 2; 3]; Num K32BE (-1)] in
  Forall wf_field fs /\
  layout fs = [7; 0x12; 0x34; 0xef; 0xcd; 0xab; 3; 2; 1; 255; 255; 255; 255] /\
  write_fields (replicate 15 9) 1 fs = Ok ([9] ++ layout fs ++ [9]) /\
  read_fields ([9] ++ layout fs ++ [9]) 1 [K8; K16BE; K24LE; KBlobLE 3; K32BE]
  = Ok [Num K8 7; Num K16BE 0x1234; Num K24LE 0xabcdef; Blob (KBlobLE 3) [1; 2; 3]; Num K32BE 0xffffffff].
Proof. split; [|split; [|split]]; [|by vm_compute..]. repeat constructor; cbn; lia. Qed.
Example C67_update_ex :
  write_field (layout [Num K8 7; Num K16BE 0x1234; Num K8 8]) 1 (Num K16LE 0x5678)
  = Ok (layout [Num K8 7; Num K16LE 0x5678; Num K8 8]).
Proof. by vm_compute. Qed.

(** ** C68 Reading in the other byte order swaps the bytes *)

Theorem C68_other_order : forall pre post o2 o3 o4 v, len o2 = 2 -> len o3 = 3 -> len o4 = 4 ->
  (exists m, Utils_serialize16LE (pre ++ o2 ++ post) (len pre) v = Ok m /\
     Utils_deserialize16BE m (len pre) = Ok (be_value (le_bytes 2 v))) /\
  (exists m, Utils_serialize24LE (pre ++ o3 ++ post) (len pre) v = Ok m /\
     Utils_deserialize24BE m (len pre) = Ok (be_value (le_bytes 3 v))) /\
  (exists m, Utils_serialize32LE (pre ++ o4 ++ post) (len pre) v = Ok m /\
     Utils_deserialize32BE m (len pre) = Ok (be_value (le_bytes 4 v))) /\
  (exists m, Utils_serialize16BE (pre ++ o2 ++ post) (len pre) v = Ok m /\
     Utils_deserialize16LE m (len pre) = Ok (be_value (le_bytes 2 v))) /\
  (exists m, Utils_serialize24BE (pre ++ o3 ++ post) (len pre) v = Ok m /\
     Utils_deserialize24LE m (len pre) = Ok (be_value (le_bytes 3 v))) /\
  (exists m, Utils_serialize32BE (pre ++ o4 ++ post) (len pre) v = Ok m /\
     Utils_deserialize32LE m (len pre) = Ok (be_value (le_bytes 4 v))).
Proof. exact other_order. Qed.
Print Assumptions C68_other_order.
(** a number is the blob of its bytes, most significant first *)
Theorem C68_number_as_blob : forall pre post old v, len old = 4 ->
  Utils_serialize32BE (pre ++ old ++ post) (len pre) v
  = Utils_serializeBlobBE (pre ++ old ++ post) (len pre) (be_bytes 4 v) 0 4 /\
  Utils_serialize32LE (pre ++ old ++ post) (len pre) v
  = Utils_serializeBlobLE (pre ++ old ++ post) (len pre) (be_bytes 4 v) 0 4.
Proof. exact number_as_blob. Qed.
Print Assumptions C68_number_as_blob.
Example C68_ex :
  (let! m := Utils_serialize24LE [0; 0; 0; 0] 1 0x123456 in Utils_deserialize24BE m 1) = Ok 0x563412.
Proof. by vm_compute. Qed.

(** ** C69 Decimal text of every 32-bit number is read back *)

Theorem C69_print_parse : forall sc n rest, 0 <= n < 2 ^ 32 ->
  Utils_stringToUint32 sc (decimal_text n ++ rest) (len (decimal_text n)) = Ok (true, n).
Proof. exact print_parse. Qed.
Print Assumptions C69_print_parse.
Theorem C69_leading_zeros : forall sc n k rest, 0 <= n < 2 ^ 32 ->
  let t := replicate k 48 ++ decimal_text n in
  len t <= 10 -> Utils_stringToUint32 sc (t ++ rest) (len t) = Ok (true, n).
Proof. exact leading_zeros_parse. Qed.
Print Assumptions C69_leading_zeros.
Example C69_ex : decimal_text 4294967295 = [52; 50; 57; 52; 57; 54; 55; 50; 57; 53] /\
  decimal_text 70 = [55; 48] /\ decimal_text 0 = [48] /\
  Utils_stringToUint32 true [48; 48; 55; 48; 65] 4 = Ok (true, 70).
Proof. repeat split; by vm_compute. Qed.
