(** * C09-C14: base64.c *)
From Verif Require Import Lib Model_Base64 Spec_Base64 Spec_Base64Any Proof_Base64 Proof_Base64Any.

(** ** C09 The encoder is RFC 4648 *)

(** [rest] is whatever follows the data in memory *)
Theorem C09_encode_success : forall data rest result max_len,
  bytes data -> len data < 2 ^ 62 -> 0 <= max_len ->
  len (base64 data) <= max_len -> len (base64 data) < len result ->
  Base64_encode (data ++ rest) (len data) result max_len
  = Ok (0, base64 data ++ 0 :: drop (S (length (base64 data))) result).
Proof. exact encode_success. Qed.
Print Assumptions C09_encode_success.
(* the example of RFC 4648: fooba -> Zm9vYmE= *)
Example C09_encode_success_ex :
  bytes [102; 111; 111; 98; 97] /\
  base64 [102; 111; 111; 98; 97] = [90; 109; 57; 118; 89; 109; 69; 61] /\
  Base64_encode [102; 111; 111; 98; 97] 5 [1; 1; 1; 1; 1; 1; 1; 1; 1; 7] 8
  = Ok (0, [90; 109; 57; 118; 89; 109; 69; 61; 0; 7]).
Proof. ex. Qed.
Theorem C09_length : forall data,
  bytes data -> len (base64 data) = 4 * ((len data + 2) / 3).
Proof. exact len_base64. Qed.
Print Assumptions C09_length.
Example C09_length_ex : len (base64 [1; 2; 3; 4]) = 8.
Proof. ex. Qed.

(** ** C10 Where the encoder writes *)

(** [max_len + 1] bytes are enough for any data and any [max_len] *)
Theorem C10_encode_safe : forall data rest result max_len,
  bytes data -> len data < 2 ^ 62 -> 0 <= max_len -> max_len < len result ->
  exists st result',
    Base64_encode (data ++ rest) (len data) result max_len = Ok (st, result') /\
    (st = 0 <-> len (base64 data) <= max_len) /\ (st = 0 \/ st = 1) /\
    len result' = len result /\
    drop (Z.to_nat (max_len + 1)) result' = drop (Z.to_nat (max_len + 1)) result.
Proof. exact encode_safe. Qed.
Print Assumptions C10_encode_safe.
Example C10_encode_safe_ex :
  Base64_encode [1; 2; 3; 4] 4 [9; 9; 9; 9; 9; 9; 9; 8] 6 = Ok (1, [65; 81; 73; 68; 0; 9; 9; 8]).
Proof. ex. Qed.
(** [max_len] bytes are not: whenever the text fills the buffer exactly *)
Theorem C10_exact_buffer_overrun : forall data rest result,
  bytes data -> len data < 2 ^ 62 -> len result = len (base64 data) ->
  Base64_encode (data ++ rest) (len data) result (len result) = UB OutOfBounds.
Proof. exact encode_exact_buffer. Qed.
Print Assumptions C10_exact_buffer_overrun.
Theorem C10_within_limit_refuted :
  exists data result, bytes data /\
    Base64_encode data (len data) result (len result) = UB OutOfBounds.
Proof. exact encode_within_limit_refuted. Qed.
Print Assumptions C10_within_limit_refuted.
Example C10_exact_buffer_overrun_ex :
  len [0; 0; 0; 0] = len (base64 [77; 97; 110]) /\
  Base64_encode [77; 97; 110] 3 [0; 0; 0; 0] 4 = UB OutOfBounds.
Proof. ex. Qed.

(** ** C11 Success condition, and what a failure leaves behind *)

Theorem C11_encode_failure : forall data rest result max_len,
  bytes data -> len data < 2 ^ 62 -> 0 <= max_len ->
  max_len < len (base64 data) -> 4 * (max_len / 4) < len result ->
  Base64_encode (data ++ rest) (len data) result max_len
  = Ok (1, take (Z.to_nat (4 * (max_len / 4))) (base64 data)
           ++ 0 :: drop (S (Z.to_nat (4 * (max_len / 4)))) result).
Proof. exact encode_failure. Qed.
Print Assumptions C11_encode_failure.
Example C11_encode_failure_ex :
  Base64_encode [1; 2; 3; 4; 5; 6] 6 [9; 9; 9; 9; 9; 9; 9; 8] 7
  = Ok (1, [65; 81; 73; 68; 0; 9; 9; 8]).
Proof. ex. Qed.
Theorem C11_encode_success : forall data rest result max_len,
  bytes data -> len data < 2 ^ 62 -> 0 <= max_len ->
  len (base64 data) <= max_len -> len (base64 data) < len result ->
  Base64_encode (data ++ rest) (len data) result max_len
  = Ok (0, base64 data ++ 0 :: drop (S (length (base64 data))) result).
Proof. exact encode_success. Qed.
Print Assumptions C11_encode_success.
Example C11_encode_success_ex :
  Base64_encode [1; 2; 3] 3 [9; 9; 9; 9; 9; 8] 4 = Ok (0, [65; 81; 73; 68; 0; 8]).
Proof. ex. Qed.

(** ** C12 Round trip *)

Theorem C12_roundtrip : forall data result out max_res max_out,
  bytes data -> 3 <= len data < 2 ^ 59 ->
  len (base64 data) <= max_res < len result -> bytes result ->
  len data <= max_out <= len out ->
  exists result', Base64_encode data (len data) result max_res = Ok (0, result') /\
    Base64_decode result' (len (base64 data)) out max_out
    = Ok (0, data ++ drop (length data) out).
Proof. exact roundtrip. Qed.
Print Assumptions C12_roundtrip.
Example C12_roundtrip_ex :
  (let! '(_, r) := Base64_encode [1; 2; 3; 250] 4 [0; 0; 0; 0; 0; 0; 0; 0; 0] 8 in
   Base64_decode r 8 [9; 9; 9; 9; 9] 5) = Ok (0, [1; 2; 3; 250; 9]).
Proof. ex. Qed.
Theorem C12_roundtrip_short_fails : forall data result out max_res max_out,
  bytes data -> len data < 3 ->
  len (base64 data) <= max_res < len result ->
  exists result', Base64_encode data (len data) result max_res = Ok (0, result') /\
    Base64_decode result' (len (base64 data)) out max_out = Ok (1, out).
Proof. exact roundtrip_short. Qed.
Print Assumptions C12_roundtrip_short_fails.
Example C12_roundtrip_short_fails_ex :
  (let! '(_, r) := Base64_encode [1] 1 [0; 0; 0; 0; 0] 4 in
   Base64_decode r 4 [9; 9; 9; 9; 9] 5) = Ok (1, [9; 9; 9; 9; 9]).
Proof. ex. Qed.
Theorem C12_roundtrip_any_length_refuted :
  exists data result out r', bytes data /\
    Base64_encode data (len data) result 8 = Ok (0, r') /\
    Base64_decode r' (len (base64 data)) out (len out) = Ok (1, out).
Proof. exact roundtrip_refuted. Qed.
Print Assumptions C12_roundtrip_any_length_refuted.

(** ** C13 Decoder memory safety *)

(** [n] is the claimed input length; [inb] may be exactly that long unless [n mod 4 = 1] *)
Theorem C13_decode_safe : forall inb n out max_len,
  bytes inb -> 0 <= n <= len inb -> n < 2 ^ 61 -> 0 <= max_len <= len out ->
  (n mod 4 = 1 -> 5 <= n -> n + 1 <= len inb) ->
  exists st out', Base64_decode inb n out max_len = Ok (st, out') /\
    (st = 0 \/ st = 1) /\ len out' = len out /\
    drop (Z.to_nat max_len) out' = drop (Z.to_nat max_len) out.
Proof. exact decode_safe. Qed.
Print Assumptions C13_decode_safe.
Example C13_decode_safe_ex :
  bytes [255; 0; 61; 33; 7; 8; 61] /\
  Base64_decode [255; 0; 61; 33; 7; 8; 61] 7 [9; 9; 9; 9; 9] 4 = Ok (0, [0; 0; 0; 0; 9]).
Proof. ex. Qed.
Theorem C13_overread : forall inb out max_len,
  bytes inb -> len inb < 2 ^ 61 -> len inb mod 4 = 1 -> 5 <= len inb ->
  3 * (len inb / 4) + 1 <= max_len <= len out ->
  Base64_decode inb (len inb) out max_len = UB OutOfBounds.
Proof. exact decode_overread_gen. Qed.
Print Assumptions C13_overread.
Theorem C13_reads_inside_refuted :
  exists inb out, bytes inb /\
    Base64_decode inb (len inb) out (len out) = UB OutOfBounds.
Proof. exact decode_reads_inside_refuted. Qed.
Print Assumptions C13_reads_inside_refuted.
Example C13_overread_ex :
  Base64_decode [77; 97; 110; 77; 97] 5 [0; 0; 0; 0] 4 = UB OutOfBounds.
Proof. ex. Qed.

(** ** C14 Valid and malformed texts *)

(** [vs] are the values (0..63) of the characters, [p] the padding or nothing *)
Theorem C14_decode_valid : forall vs p rest out max_len,
  Forall is_sextet vs -> 4 <= len vs < 2 ^ 60 -> len vs mod 4 <> 1 ->
  p = [] \/ p = replicate (Z.to_nat ((- len vs) mod 4)) 61 ->
  bytes rest -> 0 <= max_len <= len out ->
  Base64_decode (map alphabet vs ++ p ++ rest) (len vs + len p) out max_len =
    let d := base64_decoded vs in
    if len d <=? max_len then Ok (0, d ++ drop (length d) out)
    else Ok (1, if (len d =? max_len + 1) && (len vs mod 4 =? 3)
                then take (length d - 1) d ++ drop (length d - 1) out else out).
Proof. exact decode_valid. Qed.
Print Assumptions C14_decode_valid.
Example C14_decode_valid_ex :
  Base64_decode (map alphabet [25; 38; 61; 47; 24; 38; 4] ++ [61]) 8 [9; 9; 9; 9; 9; 9] 6
  = Ok (0, [102; 111; 111; 98; 97; 9]).
Proof. ex. Qed.
Theorem C14_no_validation : forall text rest o1 o2 max_len,
  bytes text -> 4 <= len text < 2 ^ 62 -> len text mod 4 = 0 ->
  get text (len text - 1) <> 61 ->
  len o1 = 3 * (len text / 4) -> len o1 <= max_len ->
  exists d, Base64_decode (text ++ rest) (len text) (o1 ++ o2) max_len = Ok (0, d ++ o2).
Proof. exact decode_no_validation. Qed.
Print Assumptions C14_no_validation.
Example C14_no_validation_ex :
  Base64_decode [33; 200; 61; 0] 4 [9; 9; 9] 3 = Ok (0, [0; 0; 0]).
Proof. ex. Qed.
(** what any text without = is decoded to: each character is taken for a value of its own *)
Theorem C14_any_text : forall text vs p rest out max_len,
  bytes text -> ~ In 61 text -> Forall2 taken_for text vs ->
  4 <= len text < 2 ^ 60 -> len text mod 4 <> 1 ->
  p = [] \/ p = replicate (Z.to_nat ((- len text) mod 4)) 61 ->
  bytes rest -> 0 <= max_len <= len out ->
  Base64_decode (text ++ p ++ rest) (len text + len p) out max_len =
    let d := base64_decoded vs in
    if len d <=? max_len then Ok (0, d ++ drop (length d) out)
    else Ok (1, if (len d =? max_len + 1) && (len vs mod 4 =? 3)
                then take (length d - 1) d ++ drop (length d - 1) out else out).
Proof. exact decode_any. Qed.
Print Assumptions C14_any_text.
Theorem C14_taken_for : forall c, is_byte c ->
  exists v, taken_for c v /\ forall u, taken_for c u -> u = v.
Proof. exact taken_for_total. Qed.
Print Assumptions C14_taken_for.
(* +,-./_ and a letter *)
Example C14_any_text_ex :
  Base64_decode [43; 44; 45; 46; 47; 95; 81; 33] 8 (replicate 6 9) 6
  = Ok (0, base64_decoded [62; 63; 62; 62; 63; 63; 16; 0]) /\
  means 43 62 /\ means 44 63 /\ means 45 62 /\ means 46 62 /\ means 47 63 /\ means 95 63 /\ means 81 16.
Proof.
  split; [by vm_compute|]. unfold means, is_sextet. repeat split;
    solve [right; lia|left; split; [lia|by vm_compute]].
Qed.
Theorem C14_malformed_rejected_refuted :
  exists text out out',
    bytes text /\ ~ Forall (fun c => exists v, is_sextet v /\ c = alphabet v) text /\
    ~ In 61 text /\ Base64_decode text (len text) out (len out) = Ok (0, out').
Proof. exact decode_malformed_refuted. Qed.
Print Assumptions C14_malformed_rejected_refuted.
