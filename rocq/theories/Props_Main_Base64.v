(** * C99: the C text of base64.c

    Composition of the theorems about the model (C09-C14) with C86.  [chars b] and [octets b] are
    pointers to the first byte of object [b]. *)
From Coq Require Import String.
From Verif Require Import CSem Lib CLang C_Base64 Spec_Base64 Refine Drive_TextRun Proof_TextBase64.

Local Notation chars b := (VPtr (TInt IChar) (BObj b) 0).
Local Notation octets b := (VPtr (TInt U8) (BObj b) 0).

(** ** Encoding: the base64 text with a 0 behind it *)
Theorem C99_encode : forall (W : Type) sc
    (ext : Z -> list val -> mem -> W -> outcome (val * mem * W)) fuel
    m w bd br data rest result max_len,
  m !! bd = Some (ints 8 (data ++ rest)) -> m !! br = Some (ints 8 result) -> bd <> br ->
  bytes data -> bytes rest -> len data < 2 ^ 62 -> is_u64 max_len ->
  len (data ++ rest) < Z.of_nat fuel ->
  len (base64 data) <= max_len -> len (base64 data) < len result ->
  call sc ext fuel c_Base64_encode [chars bd; VInt U64 (len data); chars br; VInt U64 max_len] m w
  = Ok (VInt I32 0, <[br := ints 8 (base64 data ++ 0 :: drop (S (length (base64 data))) result)]> m, w).
Proof. exact @text_encode. Qed.
Print Assumptions C99_encode.
Example C99_encode_ex :
  call true no_ext 50 c_Base64_encode [chars 0; VInt U64 4; chars 1; VInt U64 8]
    [ints 8 [77; 97; 110; 33; 9]; ints 8 (replicate 10 7)] tt
  = Ok (VInt I32 0, [ints 8 [77; 97; 110; 33; 9]; ints 8 (str "TWFuIQ==" ++ [0; 7])], tt).
Proof. vm_compute. reflexivity. Qed.

(** ** Encoding into a buffer that may be too small: no byte from position [max_len + 1] on *)
Theorem C99_encode_safe : forall (W : Type) sc
    (ext : Z -> list val -> mem -> W -> outcome (val * mem * W)) fuel
    m w bd br data rest result max_len,
  m !! bd = Some (ints 8 (data ++ rest)) -> m !! br = Some (ints 8 result) -> bd <> br ->
  bytes data -> bytes rest -> len data < 2 ^ 62 -> is_u64 max_len ->
  len (data ++ rest) < Z.of_nat fuel -> max_len < len result ->
  exists st result',
    call sc ext fuel c_Base64_encode [chars bd; VInt U64 (len data); chars br; VInt U64 max_len] m w
    = Ok (VInt I32 st, <[br := ints 8 result']> m, w) /\
    (st = 0 <-> len (base64 data) <= max_len) /\ (st = 0 \/ st = 1) /\
    len result' = len result /\
    drop (Z.to_nat (max_len + 1)) result' = drop (Z.to_nat (max_len + 1)) result.
Proof. exact @text_encode_safe. Qed.
Print Assumptions C99_encode_safe.
Example C99_encode_safe_ex :
  call true no_ext 50 c_Base64_encode [chars 0; VInt U64 4; chars 1; VInt U64 7]
    [ints 8 [77; 97; 110; 33; 9]; ints 8 (replicate 10 7)] tt
  = Ok (VInt I32 1, [ints 8 [77; 97; 110; 33; 9]; ints 8 (str "TWFu" ++ [0; 7; 7; 7; 7; 7])], tt).
Proof. vm_compute. reflexivity. Qed.

(** ** Decoding any bytes, also in place: no byte from position [max_len] on

    (For a length of 1 modulo 4 the decoder reads one byte behind the text.) *)
Theorem C99_decode_safe : forall (W : Type) sc
    (ext : Z -> list val -> mem -> W -> outcome (val * mem * W)) fuel
    m w bi bo inb n out max_len,
  m !! bi = Some (ints 8 inb) -> m !! bo = Some (ints 8 out) ->
  bytes inb -> 0 <= n <= len inb -> n < 2 ^ 61 -> 0 <= max_len <= len out -> max_len < 2 ^ 64 ->
  (n mod 4 = 1 -> 5 <= n -> n + 1 <= len inb) -> len inb < Z.of_nat fuel ->
  exists st out',
    call sc ext fuel c_Base64_decode [chars bi; VInt U64 n; octets bo; VInt U64 max_len] m w
    = Ok (VInt I32 st, <[bo := ints 8 out']> m, w) /\
    (st = 0 \/ st = 1) /\ len out' = len out /\
    drop (Z.to_nat max_len) out' = drop (Z.to_nat max_len) out.
Proof. exact @text_decode_safe. Qed.
Print Assumptions C99_decode_safe.
Example C99_decode_safe_ex :
  call true no_ext 50 c_Base64_decode [chars 0; VInt U64 8; octets 1; VInt U64 3]
    [ints 8 [255; 0; 7; 61; 61; 33; 200; 10]; ints 8 [9; 9; 9; 9; 9]] tt
  = Ok (VInt I32 1, [ints 8 [255; 0; 7; 61; 61; 33; 200; 10]; ints 8 [9; 9; 9; 9; 9]], tt) /\
  call true no_ext 50 c_Base64_decode [chars 0; VInt U64 4; octets 0; VInt U64 4]
    [ints 8 [255; 0; 7; 33; 9]] tt
  = Ok (VInt I32 0, [ints 8 [0; 0; 0; 33; 9]], tt).
Proof. split; vm_compute; reflexivity. Qed.

(** ** Decoding what was encoded: the data again.  The output may be the text itself
    ([bo = br]) or the data ([bo = bd]). *)
Theorem C99_roundtrip : forall (W : Type) sc
    (ext : Z -> list val -> mem -> W -> outcome (val * mem * W)) fuel
    m w bd br bo data result out max_res max_out,
  m !! bd = Some (ints 8 data) -> m !! br = Some (ints 8 result) -> m !! bo = Some (ints 8 out) ->
  bd <> br -> bytes data -> bytes result -> 3 <= len data < 2 ^ 59 ->
  len (base64 data) <= max_res < len result -> max_res < 2 ^ 64 ->
  len data <= max_out <= len out -> max_out < 2 ^ 64 -> len result < Z.of_nat fuel ->
  exists m1 m2 tail,
    call sc ext fuel c_Base64_encode [chars bd; VInt U64 (len data); chars br; VInt U64 max_res] m w
    = Ok (VInt I32 0, m1, w) /\
    call sc ext fuel c_Base64_decode [chars br; VInt U64 (len (base64 data)); octets bo; VInt U64 max_out] m1 w
    = Ok (VInt I32 0, m2, w) /\
    m2 !! bo = Some (ints 8 (data ++ tail)) /\
    same_but [br; bo] m m2.
Proof. exact @text_roundtrip. Qed.
Print Assumptions C99_roundtrip.
(** four bytes, decoded in place *)
Example C99_roundtrip_ex :
  (let! '(v, m, w) := call true no_ext 50 c_Base64_encode [chars 0; VInt U64 4; chars 1; VInt U64 8]
                        [ints 8 [77; 0; 255; 33]; ints 8 (replicate 9 7)] tt in
   call true no_ext 50 c_Base64_decode [chars 1; VInt U64 8; octets 1; VInt U64 9] m w)
  = Ok (VInt I32 0, [ints 8 [77; 0; 255; 33]; ints 8 ([77; 0; 255; 33] ++ str "IQ==" ++ [0])], tt).
Proof. vm_compute. reflexivity. Qed.
