(** * Properties C61-C66: what the CRC functions detect

    [crc_variants] lists the 45 functions with the catalogued parameters of each. *)
From Coq Require Import String.
From Verif Require Import CSem Lib Model_Crc Model_CrcVariants Spec_Crc Spec_CrcErr Drive_Crc
  Proof_CrcErr.

(** ** C61 An error is missed exactly when the generator divides it *)

Theorem C61_undetected : forall V m1 m2, In V crc_variants -> bytes m1 -> bytes m2 -> len m1 = len m2 ->
  run V m1 (len m1) true None = run V m2 (len m2) true None <->
  divides (generator (params V))
    (Z.lxor (value (message_bits (params V) m1)) (value (message_bits (params V) m2))).
Proof. exact same_crc. Qed.
Print Assumptions C61_undetected.
Example C61_detected_ex : Crc8 (str "ab") 2 None <> Crc8 (str "ac") 2 None.
Proof. by vm_compute. Qed.
(** the difference is the generator itself *)
Example C61_undetected_ex : Crc8 [0x12; 0x34] 2 None = Crc8 [0x13; 0x33] 2 None /\
  divides (generator crc8)
    (Z.lxor (value (message_bits crc8 [0x12; 0x34])) (value (message_bits crc8 [0x13; 0x33]))).
Proof. split; [by vm_compute|]. exists 1. split; [lia|by vm_compute]. Qed.

(** ** C62 Which CRCs detect every odd number of wrong bits *)

Theorem C62_odd_errors : forall V, In V crc_variants ->
  Nat.even (terms (params V)) = true <->
  (forall m1 m2, bytes m1 -> bytes m2 -> len m1 = len m2 ->
    Nat.odd (differences (message_bits (params V) m1) (message_bits (params V) m2)) = true ->
    run V m1 (len m1) true None <> run V m2 (len m2) true None).
Proof. exact odd_iff. Qed.
Print Assumptions C62_odd_errors.
Theorem C62_which : map (fun V => Nat.even (terms (params V))) crc_variants
  = [true; true; true; false; true; false; false; true; true; true; false; false; true; true;
     true; true; true; true; true; false; true; true; true; true; true; true; true; true; true;
     true; true; false; true; true; true; true; false; false; true; false; false; false; false;
     true; false].
Proof. exact which_even. Qed.
Print Assumptions C62_which.
(** three wrong bits in two bytes *)
Example C62_ex : differences (message_bits crc16_modbus [0x01; 0x02]) (message_bits crc16_modbus [0x81; 0x32])
    = 3%nat /\
  exists c1 c2, Crc16_modbus [0x01; 0x02] 2 true None = Ok c1 /\
    Crc16_modbus [0x81; 0x32] 2 true None = Ok c2 /\ c1 <> c2.
Proof.
  split; [by vm_compute|]. eexists _, _. split; [by vm_compute|]. split; [by vm_compute|done].
Qed.
(** CRC-32 does not detect all odd numbers of wrong bits *)
Theorem C62_crc32_refuted : exists m1 m2, bytes m1 /\ bytes m2 /\ len m1 = len m2 /\
  Nat.odd (differences (message_bits crc32 m1) (message_bits crc32 m2)) = true /\
  Crc32 m1 (len m1) true None = Crc32 m2 (len m2) true None.
Proof. exact crc32_odd_missed. Qed.
Print Assumptions C62_crc32_refuted.

(** ** C63 Which two wrong bits a CRC detects *)

Theorem C63_two_errors : forall V n m1 m2 pre b mid c post, In V crc_variants ->
  is_order (generator (params V)) n -> bytes m1 -> bytes m2 ->
  message_bits (params V) m1 = pre ++ b :: mid ++ c :: post ->
  message_bits (params V) m2 = pre ++ negb b :: mid ++ negb c :: post ->
  run V m1 (len m1) true None = run V m2 (len m2) true None <-> (n | 1 + Z.of_nat (length mid)).
Proof. exact two_errors. Qed.
Print Assumptions C63_two_errors.
Theorem C63_orders : Forall2 (fun V n => is_order (generator (params V)) n) crc_variants
  [127; 127; 127; 17; 93; 255; 255; 127; 127; 127; 255; 255; 127; 32767; 32767; 32767; 32767;
   32767; 32767; 65535; 32767; 254; 254; 151; 151; 32767; 32767; 32767; 32767; 32767; 32767;
   65535; 32766; 32767; 32767; 32767; 4294967295; 4294967295; 2147483647; 65537; 4294967295;
   4294967295; 4294967295; 2147483647; 4294967295].
Proof. exact orders_ok. Qed.
Print Assumptions C63_orders.
Theorem C63_short_messages : forall V n m1 m2 pre b mid c post, In V crc_variants ->
  is_order (generator (params V)) n -> bytes m1 -> bytes m2 -> 8 * len m1 <= n ->
  message_bits (params V) m1 = pre ++ b :: mid ++ c :: post ->
  message_bits (params V) m2 = pre ++ negb b :: mid ++ negb c :: post ->
  run V m1 (len m1) true None <> run V m2 (len m2) true None.
Proof. exact two_errors_near. Qed.
Print Assumptions C63_short_messages.
(** bits 17 places apart under CRC-8/DARC *)
Example C63_ex :
  let m1 := [0x00; 0x00; 0x00] in let m2 := [0x01; 0x00; 0x02] in
  message_bits crc8_darc m1 = [] ++ false :: replicate 16 false ++ false :: replicate 6 false /\
  message_bits crc8_darc m2
    = [] ++ negb false :: replicate 16 false ++ negb false :: replicate 6 false /\
  Crc8_darc m1 3 true None = Crc8_darc m2 3 true None /\
  Crc8_darc m1 3 true None <> Crc8_darc [0x01; 0x00; 0x04] 3 true None.
Proof. repeat split; by vm_compute. Qed.

(** ** C64 Any CRC can be forced by a suffix, and in one way only *)

Theorem C64_forge : forall V msg c, In V crc_variants -> bytes msg -> 0 <= c < 2 ^ width (params V) ->
  exists! s, bytes s /\ 8 * len s = width (params V) /\
    run V (msg ++ s) (len (msg ++ s)) true None = Ok c.
Proof. exact forge. Qed.
Print Assumptions C64_forge.
Example C64_ex : Crc32 (str "hello" ++ [0x45; 0x7e; 0x34; 0x30]) 9 true None = Ok 0xdeadbeef.
Proof. by vm_compute. Qed.

(** ** C65 Leading zero bytes are missed exactly by the CRCs with initial value 0 *)

Theorem C65_leading_zero : forall V msg, In V crc_variants -> bytes msg ->
  run V (0 :: msg) (1 + len msg) true None = run V msg (len msg) true None <->
  init (params V) = 0.
Proof. exact leading_zero. Qed.
Print Assumptions C65_leading_zero.
Theorem C65_leading_zeros : forall V k msg, In V crc_variants -> bytes msg -> init (params V) = 0 ->
  run V (replicate k 0 ++ msg) (len (replicate k 0 ++ msg)) true None
  = run V msg (len msg) true None.
Proof. exact leading_zeros. Qed.
Print Assumptions C65_leading_zeros.
Example C65_missed_ex : Crc16_arc ([0; 0; 0] ++ str "abc") 6 true None = Crc16_arc (str "abc") 3 true None.
Proof. by vm_compute. Qed.
Example C65_detected_ex : Crc16_modbus (0 :: str "abc") 4 true None <> Crc16_modbus (str "abc") 3 true None.
Proof. by vm_compute. Qed.

(** ** C66 CRC functions with related parameters give related results *)

Theorem C66_final_value : forall V1 V2 msg c, In V1 crc_variants -> In V2 crc_variants -> bytes msg ->
  params V2 = with_xorout (params V1) (xorout (params V2)) ->
  run V1 msg (len msg) true None = Ok c ->
  run V2 msg (len msg) true None
  = Ok (Z.lxor c (Z.lxor (xorout (params V1)) (xorout (params V2)))).
Proof. exact other_xorout. Qed.
Print Assumptions C66_final_value.
Theorem C66_mirrored : forall V1 V2 msg c, In V1 crc_variants -> In V2 crc_variants -> bytes msg ->
  params V2 = mirrored (params V1) ->
  run V1 msg (len msg) true None = Ok c ->
  run V2 (map (reversed 8) msg) (len msg) true None = Ok (reversed (width (params V1)) c).
Proof. exact mirror. Qed.
Print Assumptions C66_mirrored.
Example C66_final_value_ex : crc32_jamcrc = with_xorout crc32 0 /\
  Crc32_jamcrc (str "hello") 5 true None = Ok (Z.lxor 0x3610a686 0xffffffff).
Proof. split; by vm_compute. Qed.
Example C66_mirrored_ex : crc32_bzip2 = mirrored crc32 /\
  map (reversed 8) (str "hello") = [0x16; 0xa6; 0x36; 0x36; 0xf6] /\
  Crc32_bzip2 [0x16; 0xa6; 0x36; 0x36; 0xf6] 5 true None = Ok (reversed 32 0x3610a686).
Proof. repeat split; by vm_compute. Qed.
