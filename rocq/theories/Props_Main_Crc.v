(** * C101: the C text of the CRC functions

    Composition of the theorems about the model (C47-C49) with C85.  [crc_functions] lists the 45
    functions of the text with the catalogued parameters of each (Drive_CrcText.v); [msg] is the
    data and [rest] what follows it in its object. *)
From Coq Require Import String.
From Verif Require Import CSem Lib CLang C_Crc C_CrcVariants Spec_Crc Refine Drive_CrcText Proof_TextCrc.

Example number_of_functions : length crc_functions = 45%nat.
Proof. vm_compute. reflexivity. Qed.

Theorem C101_crc : forall (W : Type) sc
    (ext : Z -> list val -> mem -> W -> outcome (val * mem * W)) fuel P f h m w b msg rest c,
  In (P, f, h) crc_functions -> m !! b = Some (ints 8 (msg ++ rest)) ->
  bytes msg -> bytes rest -> len msg < 2 ^ 32 -> len msg < Z.of_nat fuel -> 32 < Z.of_nat fuel ->
  call sc ext fuel f (crc_args h b (len msg) true VNull) m w = Ok (VInt (crc_type P) c, m, w)
  <-> is_crc P msg c.
Proof. exact @text_crc. Qed.
Print Assumptions C101_crc.
Theorem C101_crc_exists : forall (W : Type) sc
    (ext : Z -> list val -> mem -> W -> outcome (val * mem * W)) fuel P f h m w b msg rest,
  In (P, f, h) crc_functions -> m !! b = Some (ints 8 (msg ++ rest)) ->
  bytes msg -> bytes rest -> len msg < 2 ^ 32 -> len msg < Z.of_nat fuel -> 32 < Z.of_nat fuel ->
  exists c, is_crc P msg c /\
    call sc ext fuel f (crc_args h b (len msg) true VNull) m w = Ok (VInt (crc_type P) c, m, w).
Proof. exact @text_crc_exists. Qed.
Print Assumptions C101_crc_exists.
(** the check values of the catalogue *)
Example C101_crc_ex :
  map (fun '(P, f, h) =>
         let! '(v, _, _) := call true no_ext 50 f (crc_args h 0 9 true VNull) [ints 8 (str "123456789" ++ [7])] tt in
         Ok v) crc_functions
  = map (fun '(t, c) => Ok (VInt t c))
      (map (fun c => (U8, c)) [0xf4; 0xdf; 0xda; 0x15; 0xbc; 0x97; 0x7e; 0xa1; 0xa1; 0xd0; 0x4b; 0x37; 0x25]
       ++ map (fun c => (U16, c))
           [0xbf05; 0xbb3d; 0xe5cc; 0xfee8; 0x29b1; 0x31c3; 0x4c06; 0x9ecf; 0x007e; 0x007f; 0xea82;
            0xc2b7; 0xd64e; 0x2189; 0x44c2; 0x6f91; 0x4b37; 0x63d0; 0xd0db; 0x0fb3; 0x26b1; 0xb4c8; 0x906e]
       ++ map (fun c => (U32, c))
           [0xcbf43926; 0xfc891918; 0xe3069283; 0x87315576; 0x340bc6d9; 0x0376e6e7; 0x765e7680;
            0x3010bf7f; 0xbd0be338]).
Proof. vm_compute. reflexivity. Qed.

(** ** In pieces, the value so far handed on by pointer *)
Theorem C101_pieces : forall (W : Type) sc
    (ext : Z -> list val -> mem -> W -> outcome (val * mem * W)) fuel P f h m w pieces msgs c,
  In (P, f, h) crc_functions -> Forall2 (piece_at fuel m) pieces msgs -> pieces <> [] ->
  32 < Z.of_nat fuel ->
  crc_pieces sc ext fuel P f h pieces None m w = Ok (c, m, w) <-> is_crc P (concat msgs) c.
Proof. exact @text_pieces. Qed.
Print Assumptions C101_pieces.
Example C101_pieces_ex :
  let m := [ints 8 (str "1234" ++ [1]); ints 8 [2]; ints 8 (str "56789")] in
  map (fun '(P, f, h) =>
         let! '(c, _, _) := crc_pieces true no_ext 50 P f h [(0%nat, 4); (1%nat, 0); (2%nat, 5)] None m tt in
         Ok (VInt (crc_type P) c)) crc_functions
  = map (fun '(P, f, h) =>
           let! '(v, _, _) := call true no_ext 50 f (crc_args h 0 9 true VNull) [ints 8 (str "123456789")] tt in
           Ok v) crc_functions.
Proof. vm_compute. reflexivity. Qed.

(** ** The table generators *)
Theorem C101_calculator8 : forall (W : Type) sc
    (ext : Z -> list val -> mem -> W -> outcome (val * mem * W)) fuel m w b old rest p,
  m !! b = Some (ints 8 (old ++ rest)) -> len old = 256 -> 0 <= p < 2 ^ 8 -> 256 < Z.of_nat fuel ->
  exists t, is_table 8 (2 ^ 8 + p) t /\
    call sc ext fuel c_Crc8Base_tableCalculator [VInt U8 p; VPtr (TInt U8) (BObj b) 0] m w
    = Ok (VUndef, <[b := ints 8 (t ++ rest)]> m, w).
Proof. exact @text_calc8. Qed.
Print Assumptions C101_calculator8.
Theorem C101_calculator16 : forall (W : Type) sc
    (ext : Z -> list val -> mem -> W -> outcome (val * mem * W)) fuel m w b old rest p,
  m !! b = Some (ints 16 (old ++ rest)) -> len old = 256 -> 0 <= p < 2 ^ 16 -> 256 < Z.of_nat fuel ->
  exists t, is_table 16 (2 ^ 16 + p) t /\
    call sc ext fuel c_Crc16Base_tableCalculator [VInt U16 p; VPtr (TInt U16) (BObj b) 0] m w
    = Ok (VUndef, <[b := ints 16 (t ++ rest)]> m, w).
Proof. exact @text_calc16. Qed.
Print Assumptions C101_calculator16.
Theorem C101_calculator32 : forall (W : Type) sc
    (ext : Z -> list val -> mem -> W -> outcome (val * mem * W)) fuel m w b old rest p,
  m !! b = Some (ints 32 (old ++ rest)) -> len old = 256 -> 0 <= p < 2 ^ 32 -> 256 < Z.of_nat fuel ->
  exists t, is_table 32 (2 ^ 32 + p) t /\
    call sc ext fuel c_Crc32Base_tableCalculator [VInt U32 p; VPtr (TInt U32) (BObj b) 0] m w
    = Ok (VUndef, <[b := ints 32 (t ++ rest)]> m, w).
Proof. exact @text_calc32. Qed.
Print Assumptions C101_calculator32.
Example C101_calculator_ex :
  (let! '(_, m, _) := call true no_ext 300 c_Crc8Base_tableCalculator [VInt U8 0xa7; VPtr (TInt U8) (BObj 0) 0]
     [ints 8 (replicate 256 5 ++ [9])] tt in
   Ok (take 4 (nth 0 m []), drop 256 (nth 0 m [])))
  = Ok (ints 8 [0; 0xa7; 0xe9; 0x4e], ints 8 [9]).
Proof. vm_compute. reflexivity. Qed.
