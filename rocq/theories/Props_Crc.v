(** * Properties C47-C53: the CRC functions

    [crc_variants] lists the 45 functions with the catalogued parameters of each.  [msg] is
    the data, [rest] what follows it in memory. *)
From Coq Require Import String.
From Verif Require Import CSem Lib Model_Crc Model_CrcVariants Spec_Crc Drive_Crc
  Proof_CrcProps Proof_CrcEnd.

Example number_of_variants : length crc_variants = 45%nat.
Proof. ex. Qed.

(** ** C47 Every CRC table is the one its polynomial generates *)

Theorem C47_calculator8 : forall p old rest, 0 <= p < 2 ^ 8 -> len old = 256 ->
  exists t, Crc8Base_tableCalculator p (old ++ rest) = Ok (t ++ rest) /\ is_table 8 (2 ^ 8 + p) t.
Proof. exact calc8. Qed.
Print Assumptions C47_calculator8.
Theorem C47_calculator16 : forall p old rest, 0 <= p < 2 ^ 16 -> len old = 256 ->
  exists t, Crc16Base_tableCalculator p (old ++ rest) = Ok (t ++ rest) /\ is_table 16 (2 ^ 16 + p) t.
Proof. exact calc16. Qed.
Print Assumptions C47_calculator16.
Theorem C47_calculator32 : forall p old rest, 0 <= p < 2 ^ 32 -> len old = 256 ->
  exists t, Crc32Base_tableCalculator p (old ++ rest) = Ok (t ++ rest) /\ is_table 32 (2 ^ 32 + p) t.
Proof. exact calc32. Qed.
Print Assumptions C47_calculator32.
Theorem C47_tables : forall V, In V crc_variants ->
  is_table (width (params V)) (generator (params V)) (table_of V).
Proof. exact variant_table. Qed.
Print Assumptions C47_tables.
Theorem C47_tables_calculated8 : forall V old, In V crc_variants -> width (params V) = 8 ->
  len old = 256 -> Crc8Base_tableCalculator (poly (params V)) old = Ok (table_of V).
Proof. exact variant_calc8. Qed.
Print Assumptions C47_tables_calculated8.
Theorem C47_tables_calculated16 : forall V old, In V crc_variants -> width (params V) = 16 ->
  len old = 256 -> Crc16Base_tableCalculator (poly (params V)) old = Ok (table_of V).
Proof. exact variant_calc16. Qed.
Print Assumptions C47_tables_calculated16.
Theorem C47_tables_calculated32 : forall V old, In V crc_variants -> width (params V) = 32 ->
  len old = 256 -> Crc32Base_tableCalculator (poly (params V)) old = Ok (table_of V).
Proof. exact variant_calc32. Qed.
Print Assumptions C47_tables_calculated32.
(** a polynomial that no variant uses *)
Example C47_calculator_ex :
  exists t, Crc8Base_tableCalculator 0xa7 (replicate 256 0 ++ [9]) = Ok (t ++ [9]) /\
    take 4 t = [0; 0xa7; 0xe9; 0x4e].
Proof.
  exists (match Crc8Base_tableCalculator 0xa7 (replicate 256 0) with Ok t => t | _ => [] end).
  split; by vm_compute.
Qed.
(** the comments of crc32_d.h, crc32_posix.h, crc32_q.h, crc32_q.c and crc32_xfer.h name
    polynomials that are not those of the tables *)
Theorem C47_documented_refuted : ~ is_table 32 (2 ^ 32 + 0x4C11DB7) Crc32_d_table /\
  ~ is_table 32 (2 ^ 32 + 0xA833982B) Crc32_posix_table /\
  ~ is_table 32 (2 ^ 32 + 0x4C11DB7) Crc32_q_table /\
  ~ is_table 32 (2 ^ 32 + 0xAF) Crc32_q_table /\
  ~ is_table 32 (2 ^ 32 + 0x4C11DB7) Crc32_xfer_table.
Proof. exact documented_wrong. Qed.
Print Assumptions C47_documented_refuted.

(** ** C48 Every CRC function computes its catalogued CRC *)

Theorem C48_crc : forall V msg rest c, In V crc_variants -> bytes msg ->
  run V (msg ++ rest) (len msg) true None = Ok c <-> is_crc (params V) msg c.
Proof. exact run_crc. Qed.
Print Assumptions C48_crc.
Theorem C48_crc_exists : forall V msg rest, In V crc_variants -> bytes msg ->
  exists c, run V (msg ++ rest) (len msg) true None = Ok c /\ is_crc (params V) msg c.
Proof. exact run_crc_exists. Qed.
Print Assumptions C48_crc_exists.
(** the specification on one byte: x^8 (x^7 + x^6 + x) divided by x^8 + x^2 + x + 1 *)
Example C48_spec_ex : is_crc crc8 [0xc2] 0x40.
Proof.
  exists 0x40. split; [|by vm_compute]. split; [cbn; lia|].
  exists 0xc0. split; [lia|by vm_compute].
Qed.
(** the check values of the catalogue *)
Example C48_check_values :
  map (fun V => run V (str "123456789" ++ [7]) 9 true None) crc_variants
  = map Ok
      [0xf4; 0xdf; 0xda; 0x15; 0xbc; 0x97; 0x7e; 0xa1; 0xa1; 0xd0; 0x4b; 0x37; 0x25;
       0xbf05; 0xbb3d; 0xe5cc; 0xfee8; 0x29b1; 0x31c3; 0x4c06; 0x9ecf; 0x007e; 0x007f; 0xea82;
       0xc2b7; 0xd64e; 0x2189; 0x44c2; 0x6f91; 0x4b37; 0x63d0; 0xd0db; 0x0fb3; 0x26b1; 0xb4c8;
       0x906e; 0xcbf43926; 0xfc891918; 0xe3069283; 0x87315576; 0x340bc6d9; 0x0376e6e7; 0x765e7680;
       0x3010bf7f; 0xbd0be338].
Proof. by vm_compute. Qed.

(** ** C49 CRCs can be computed in pieces *)

Theorem C49_pieces : forall V pieces rest, In V crc_variants -> pieces <> [] ->
  Forall (fun p => bytes (fst p)) pieces ->
  run_pieces V pieces None
  = run V (concat (map fst pieces) ++ rest) (len (concat (map fst pieces))) true None.
Proof. exact pieces_ok. Qed.
Print Assumptions C49_pieces.
Example C49_pieces_ex :
  map (fun V => run_pieces V [(str "1234", [1]); ([], [2]); (str "56789", [])] None) crc_variants
  = map (fun V => run V (str "123456789") 9 true None) crc_variants.
Proof. by vm_compute. Qed.
(** not with [final_crc] set before the last piece *)
Theorem C49_final_passed_on_refuted : exists V a b c, In V crc_variants /\ bytes a /\ bytes b /\
  run V a (len a) true None = Ok c /\
  run V b (len b) true (Some c) <> run V (a ++ b) (len (a ++ b)) true None.
Proof. exact final_passed_on_wrong. Qed.
Print Assumptions C49_final_passed_on_refuted.

(** ** C50 CRCs detect all burst errors up to their width *)

Theorem C50_burst : forall V m1 m2 pre e1 e2 post c1 c2, In V crc_variants -> bytes m1 -> bytes m2 ->
  message_bits (params V) m1 = pre ++ e1 ++ post ->
  message_bits (params V) m2 = pre ++ e2 ++ post ->
  length e1 = length e2 -> Z.of_nat (length e1) <= width (params V) -> e1 <> e2 ->
  run V m1 (len m1) true None = Ok c1 -> run V m2 (len m2) true None = Ok c2 -> c1 <> c2.
Proof. exact burst. Qed.
Print Assumptions C50_burst.
Theorem C50_burst_bytes : forall V pre x y post c1 c2, In V crc_variants ->
  bytes (pre ++ x ++ post) -> bytes (pre ++ y ++ post) ->
  len x = len y -> 8 * len x <= width (params V) -> x <> y ->
  run V (pre ++ x ++ post) (len (pre ++ x ++ post)) true None = Ok c1 ->
  run V (pre ++ y ++ post) (len (pre ++ y ++ post)) true None = Ok c2 -> c1 <> c2.
Proof. exact burst_bytes. Qed.
Print Assumptions C50_burst_bytes.
Theorem C50_single_bit : forall V pre b post k c1 c2, In V crc_variants -> bytes (pre ++ b :: post) ->
  0 <= k < 8 ->
  run V (pre ++ b :: post) (len (pre ++ b :: post)) true None = Ok c1 ->
  run V (pre ++ Z.lxor b (2 ^ k) :: post) (len (pre ++ b :: post)) true None = Ok c2 -> c1 <> c2.
Proof. exact single_bit. Qed.
Print Assumptions C50_single_bit.
Example C50_ex :
  exists c, Crc32 (str "hello") 5 true None = Ok 0x3610a686 /\
    Crc32 (str "helln") 5 true None = Ok c /\ c <> 0x3610a686.
Proof. eexists. split; [by vm_compute|]. split; [by vm_compute|done]. Qed.
(** one bit more may go unnoticed *)
Theorem C50_longer_burst_refuted : exists V pre e1 e2 post m1 m2, In V crc_variants /\
  bytes m1 /\ bytes m2 /\
  message_bits (params V) m1 = pre ++ e1 ++ post /\ message_bits (params V) m2 = pre ++ e2 ++ post /\
  length e1 = length e2 /\ Z.of_nat (length e1) = width (params V) + 1 /\ e1 <> e2 /\
  run V m1 (len m1) true None = run V m2 (len m2) true None.
Proof. exact longer_burst_missed. Qed.
Print Assumptions C50_longer_burst_refuted.

(** ** C51 CRCs are affine *)

Theorem C51_affine : forall V a b c ca cb cc, In V crc_variants -> bytes a -> bytes b -> bytes c ->
  len a = len b -> len b = len c ->
  run V a (len a) true None = Ok ca -> run V b (len b) true None = Ok cb ->
  run V c (len c) true None = Ok cc ->
  run V (zip_with Z.lxor (zip_with Z.lxor a b) c) (len a) true None
  = Ok (Z.lxor (Z.lxor ca cb) cc).
Proof. exact affine. Qed.
Print Assumptions C51_affine.
Example C51_affine_ex :
  let f m := match Crc32 m (len m) true None with Ok c => c | _ => 0 end in
  f (zip_with Z.lxor (zip_with Z.lxor (str "hello") (str "world")) (str "CRC32"))
  = Z.lxor (Z.lxor (f (str "hello")) (f (str "world"))) (f (str "CRC32")).
Proof. by vm_compute. Qed.

(** ** C52 Appending the CRC gives a constant residue *)

Theorem C52_residue : forall V, In V crc_variants -> exists res, is_residue (params V) res /\
  forall msg rest c, bytes msg -> 0 <= c < 2 ^ width (params V) ->
    run V ((msg ++ crc_bytes (params V) c) ++ rest) (len (msg ++ crc_bytes (params V) c)) true None
      = Ok res <->
    run V msg (len msg) true None = Ok c.
Proof. exact residue. Qed.
Print Assumptions C52_residue.
Theorem C52_residue_zero : forall V, In V crc_variants -> xorout (params V) = 0 ->
  forall msg rest c, bytes msg -> 0 <= c < 2 ^ width (params V) ->
    run V ((msg ++ crc_bytes (params V) c) ++ rest) (len (msg ++ crc_bytes (params V) c)) true None
      = Ok 0 <->
    run V msg (len msg) true None = Ok c.
Proof. exact residue_zero. Qed.
Print Assumptions C52_residue_zero.
(** 2144df1c for the Ethernet CRC *)
Example C52_residue_ex :
  Crc32 (str "123456789" ++ crc_bytes crc32 0xcbf43926) 13 true None = Ok 0x2144df1c /\
  Crc32 (crc_bytes crc32 0) 4 true None = Ok 0x2144df1c /\
  Crc16_ccitFalse (str "123456789" ++ crc_bytes crc16_ccitFalse 0x29b1) 11 None = Ok 0.
Proof. split; [by vm_compute|]. split; by vm_compute. Qed.

(** ** C53 CRC memory safety *)

(** any table of 256 entries, any data: defined, and independent of what follows the data *)
Theorem C53_safe8 : forall t msg crc v ro ri fx, len t = 256 -> Forall (fun x => 0 <= x < 2 ^ 8) t ->
  bytes msg -> 0 <= crc < 2 ^ 8 -> 0 <= v < 2 ^ 8 ->
  exists r, 0 <= r < 2 ^ 8 /\
    forall rest, Crc8Base t (msg ++ rest) (len msg) crc v ro ri fx = Ok r.
Proof. exact base8. Qed.
Print Assumptions C53_safe8.
Theorem C53_safe16 : forall t msg crc v ro ri fx, len t = 256 -> Forall (fun x => 0 <= x < 2 ^ 16) t ->
  bytes msg -> 0 <= crc < 2 ^ 16 -> 0 <= v < 2 ^ 16 ->
  exists r, 0 <= r < 2 ^ 16 /\
    forall rest, Crc16Base t (msg ++ rest) (len msg) crc v ro ri fx = Ok r.
Proof. exact base16. Qed.
Print Assumptions C53_safe16.
Theorem C53_safe32 : forall t msg crc v ro ri fx, len t = 256 -> Forall (fun x => 0 <= x < 2 ^ 32) t ->
  bytes msg -> 0 <= crc < 2 ^ 32 -> 0 <= v < 2 ^ 32 ->
  exists r, 0 <= r < 2 ^ 32 /\
    forall rest, Crc32Base t (msg ++ rest) (len msg) crc v ro ri fx = Ok r.
Proof. exact base32. Qed.
Print Assumptions C53_safe32.
Theorem C53_variants : forall V msg rest fin last, In V crc_variants -> bytes msg ->
  (forall c, last = Some c -> 0 <= c < 2 ^ width (params V)) ->
  exists r, run V (msg ++ rest) (len msg) fin last = Ok r /\ 0 <= r < 2 ^ width (params V) /\
    run V msg (len msg) fin last = Ok r.
Proof. exact run_range. Qed.
Print Assumptions C53_variants.
(** data shorter than [crc_length] is read beyond its end *)
Theorem C53_short8 : forall t data n crc v ro ri fx, len t = 256 -> Forall (fun x => 0 <= x < 2 ^ 8) t ->
  bytes data -> 0 <= crc < 2 ^ 8 -> 0 <= v < 2 ^ 8 -> len data < n ->
  Crc8Base t data n crc v ro ri fx = UB OutOfBounds.
Proof. exact short8. Qed.
Print Assumptions C53_short8.
Theorem C53_short16 : forall t data n crc v ro ri fx, len t = 256 -> Forall (fun x => 0 <= x < 2 ^ 16) t ->
  bytes data -> 0 <= crc < 2 ^ 16 -> 0 <= v < 2 ^ 16 -> len data < n ->
  Crc16Base t data n crc v ro ri fx = UB OutOfBounds.
Proof. exact short16. Qed.
Print Assumptions C53_short16.
Theorem C53_short32 : forall t data n crc v ro ri fx, len t = 256 -> Forall (fun x => 0 <= x < 2 ^ 32) t ->
  bytes data -> 0 <= crc < 2 ^ 32 -> 0 <= v < 2 ^ 32 -> len data < n ->
  Crc32Base t data n crc v ro ri fx = UB OutOfBounds.
Proof. exact short32. Qed.
Print Assumptions C53_short32.
Example C53_ex :
  Crc8Base (replicate 256 255) [1; 2] 2 0 0 true true false = Ok 255 /\
  Crc8Base (replicate 256 255) [1; 2] 3 0 0 true true false = UB OutOfBounds.
Proof. split; ex. Qed.
