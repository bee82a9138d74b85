(** * C85: the hand-written model of the CRC calculators against the C text

    [c_F] is the function [F] as produced from its C text by [tools/c2coq.py]; [call] runs it
    (CLang.v).  The table of the calculators may be a constant array or an object in memory. *)
From Verif Require Import CSem Lib CLang C_Utils C_Crc C_CrcVariants Model_Utils Model_Crc
  Model_CrcVariants Refine Refine_Utils Refine_Crc.

Local Notation check := (ints 8 [49;50;51;52;53;54;55;56;57]).

Theorem C85_Crc8Base_tableCalculator : forall (W : Type) sc
    (ext : Z -> list val -> mem -> W -> outcome (val * mem * W)) fuel
    m w b o poly,
  m !! b = Some (ints 8 o) -> is_byte poly -> (256 < fuel)%nat ->
  call sc ext fuel c_Crc8Base_tableCalculator [VInt U8 poly; VPtr (TInt U8) (BObj b) 0] m w
  = let! o := Crc8Base_tableCalculator poly o in Ok (VUndef, <[b := ints 8 o]> m, w).
Proof. exact @ref_Crc8Base_tableCalculator. Qed.
Print Assumptions C85_Crc8Base_tableCalculator.
Example C85_Crc8Base_tableCalculator_ex :
  (let! r := call true no_ext 300 c_Crc8Base_tableCalculator [VInt U8 7; VPtr (TInt U8) (BObj 0) 0] [ints 8 (replicate 256 9)] tt in Ok (take 4 (nth 0 (snd (fst r)) [])))
  = Ok [CI 8 0; CI 8 7; CI 8 14; CI 8 9] /\
  call true no_ext 300 c_Crc8Base_tableCalculator [VInt U8 7; VPtr (TInt U8) (BObj 0) 0] [ints 8 (replicate 255 9)] tt
  = UB OutOfBounds.
Proof. repeat split; vm_compute; reflexivity. Qed.

Theorem C85_Crc16Base_tableCalculator : forall (W : Type) sc
    (ext : Z -> list val -> mem -> W -> outcome (val * mem * W)) fuel
    m w b o poly,
  m !! b = Some (ints 16 o) -> is_u16 poly -> (256 < fuel)%nat ->
  call sc ext fuel c_Crc16Base_tableCalculator [VInt U16 poly; VPtr (TInt U16) (BObj b) 0] m w
  = let! o := Crc16Base_tableCalculator poly o in Ok (VUndef, <[b := ints 16 o]> m, w).
Proof. exact @ref_Crc16Base_tableCalculator. Qed.
Print Assumptions C85_Crc16Base_tableCalculator.
Example C85_Crc16Base_tableCalculator_ex :
  (let! r := call true no_ext 300 c_Crc16Base_tableCalculator [VInt U16 4129; VPtr (TInt U16) (BObj 0) 0] [ints 16 (replicate 256 9)] tt in Ok (take 4 (nth 0 (snd (fst r)) [])))
  = Ok [CI 16 0; CI 16 4129; CI 16 8258; CI 16 12387] /\
  call true no_ext 300 c_Crc16Base_tableCalculator [VInt U16 4129; VPtr (TInt U16) (BObj 0) 0] [ints 16 (replicate 255 9)] tt
  = UB OutOfBounds.
Proof. repeat split; vm_compute; reflexivity. Qed.

Theorem C85_Crc32Base_tableCalculator : forall (W : Type) sc
    (ext : Z -> list val -> mem -> W -> outcome (val * mem * W)) fuel
    m w b o poly,
  m !! b = Some (ints 32 o) -> is_u32 poly -> (256 < fuel)%nat ->
  call sc ext fuel c_Crc32Base_tableCalculator [VInt U32 poly; VPtr (TInt U32) (BObj b) 0] m w
  = let! o := Crc32Base_tableCalculator poly o in Ok (VUndef, <[b := ints 32 o]> m, w).
Proof. exact @ref_Crc32Base_tableCalculator. Qed.
Print Assumptions C85_Crc32Base_tableCalculator.
Example C85_Crc32Base_tableCalculator_ex :
  (let! r := call true no_ext 300 c_Crc32Base_tableCalculator [VInt U32 79764919; VPtr (TInt U32) (BObj 0) 0] [ints 32 (replicate 256 9)] tt in Ok (take 4 (nth 0 (snd (fst r)) [])))
  = Ok [CI 32 0; CI 32 79764919; CI 32 159529838; CI 32 222504665] /\
  call true no_ext 300 c_Crc32Base_tableCalculator [VInt U32 79764919; VPtr (TInt U32) (BObj 0) 0] [ints 32 (replicate 255 9)] tt
  = UB OutOfBounds.
Proof. repeat split; vm_compute; reflexivity. Qed.

Theorem C85_Crc8Base : forall (W : Type) sc
    (ext : Z -> list val -> mem -> W -> outcome (val * mem * W)) fuel
    m w tb t b o n iv fx ro ri fxb,
  block m tb = Ok (ints 8 t) -> m !! b = Some (ints 8 o) -> bytes t -> bytes o ->
  is_u32 n -> is_byte iv -> is_byte fx -> (Z.to_nat n < fuel)%nat -> (32 < fuel)%nat -> 
  call sc ext fuel c_Crc8Base [VPtr (TInt U8) tb 0; VPtr (TInt U8) (BObj b) 0; VInt U32 n; VInt U8 iv;
    VInt U8 fx; VInt IBool (b2z ro); VInt IBool (b2z ri); VInt IBool (b2z fxb)] m w
  = let! z := Crc8Base t o n iv fx ro ri fxb in Ok (VInt U8 z, m, w).
Proof. exact @ref_Crc8Base. Qed.
Print Assumptions C85_Crc8Base.
Example C85_Crc8Base_ex :
  call true no_ext 300 c_Crc8Base [VPtr (TInt U8) (BData 8 c_Crc8_itu_crc_table) 0; VPtr (TInt U8) (BObj 0) 0; VInt U32 9; VInt U8 3; VInt U8 77; VInt IBool 1; VInt IBool 1; VInt IBool 1] [check] tt
  = Ok
    (VInt U8 188,
    [[CI 8 49; CI 8 50; CI 8 51; CI 8 52; CI 8 53; CI 8 54; 
    CI 8 55; CI 8 56; CI 8 57]], ()) /\
  call true no_ext 300 c_Crc8Base [VPtr (TInt U8) (BData 8 c_Crc8_itu_crc_table) 0; VPtr (TInt U8) (BObj 0) 0; VInt U32 9; VInt U8 3; VInt U8 77; VInt IBool 1; VInt IBool 0; VInt IBool 1] [check] tt
  = Ok
    (VInt U8 179,
    [[CI 8 49; CI 8 50; CI 8 51; CI 8 52; CI 8 53; CI 8 54; 
    CI 8 55; CI 8 56; CI 8 57]], ()) /\
  call true no_ext 300 c_Crc8Base [VPtr (TInt U8) (BData 8 c_Crc8_itu_crc_table) 0; VPtr (TInt U8) (BObj 0) 0; VInt U32 10; VInt U8 3; VInt U8 77; VInt IBool 1; VInt IBool 1; VInt IBool 1] [check] tt
  = UB OutOfBounds.
Proof. repeat split; vm_compute; reflexivity. Qed.

Theorem C85_Crc16Base : forall (W : Type) sc
    (ext : Z -> list val -> mem -> W -> outcome (val * mem * W)) fuel
    m w tb t b o n iv fx ro ri fxb,
  block m tb = Ok (ints 16 t) -> m !! b = Some (ints 8 o) -> bytes o ->
  is_u32 n -> is_u16 iv -> is_u16 fx -> (Z.to_nat n < fuel)%nat -> (32 < fuel)%nat -> 
  call sc ext fuel c_Crc16Base [VPtr (TInt U16) tb 0; VPtr (TInt U8) (BObj b) 0; VInt U32 n; VInt U16 iv;
    VInt U16 fx; VInt IBool (b2z ro); VInt IBool (b2z ri); VInt IBool (b2z fxb)] m w
  = let! z := Crc16Base t o n iv fx ro ri fxb in Ok (VInt U16 z, m, w).
Proof. exact @ref_Crc16Base. Qed.
Print Assumptions C85_Crc16Base.
Example C85_Crc16Base_ex :
  call true no_ext 300 c_Crc16Base [VPtr (TInt U16) (BData 16 c_Crc16_x25_crc_table) 0; VPtr (TInt U8) (BObj 0) 0; VInt U32 9; VInt U16 3; VInt U16 77; VInt IBool 1; VInt IBool 1; VInt IBool 1] [check] tt
  = Ok
    (VInt U16 36823,
    [[CI 8 49; CI 8 50; CI 8 51; CI 8 52; CI 8 53; CI 8 54; 
    CI 8 55; CI 8 56; CI 8 57]], ()) /\
  call true no_ext 300 c_Crc16Base [VPtr (TInt U16) (BData 16 c_Crc16_x25_crc_table) 0; VPtr (TInt U8) (BObj 0) 0; VInt U32 9; VInt U16 3; VInt U16 77; VInt IBool 1; VInt IBool 0; VInt IBool 1] [check] tt
  = Ok
    (VInt U16 28114,
    [[CI 8 49; CI 8 50; CI 8 51; CI 8 52; CI 8 53; CI 8 54; 
    CI 8 55; CI 8 56; CI 8 57]], ()) /\
  call true no_ext 300 c_Crc16Base [VPtr (TInt U16) (BData 16 c_Crc16_x25_crc_table) 0; VPtr (TInt U8) (BObj 0) 0; VInt U32 10; VInt U16 3; VInt U16 77; VInt IBool 1; VInt IBool 1; VInt IBool 1] [check] tt
  = UB OutOfBounds.
Proof. repeat split; vm_compute; reflexivity. Qed.

Theorem C85_Crc32Base : forall (W : Type) sc
    (ext : Z -> list val -> mem -> W -> outcome (val * mem * W)) fuel
    m w tb t b o n iv fx ro ri fxb,
  block m tb = Ok (ints 32 t) -> m !! b = Some (ints 8 o) -> Forall is_u32 t -> bytes o ->
  is_u32 n -> is_u32 iv -> is_u32 fx -> (Z.to_nat n < fuel)%nat -> (32 < fuel)%nat -> 
  call sc ext fuel c_Crc32Base [VPtr (TInt U32) tb 0; VPtr (TInt U8) (BObj b) 0; VInt U32 n; VInt U32 iv;
    VInt U32 fx; VInt IBool (b2z ro); VInt IBool (b2z ri); VInt IBool (b2z fxb)] m w
  = let! z := Crc32Base t o n iv fx ro ri fxb in Ok (VInt U32 z, m, w).
Proof. exact @ref_Crc32Base. Qed.
Print Assumptions C85_Crc32Base.
Example C85_Crc32Base_ex :
  call true no_ext 300 c_Crc32Base [VPtr (TInt U32) (BData 32 c_Crc32_bzip2_crc_table) 0; VPtr (TInt U8) (BObj 0) 0; VInt U32 9; VInt U32 3; VInt U32 77; VInt IBool 1; VInt IBool 1; VInt IBool 1] [check] tt
  = Ok
    (VInt U32 1008022385,
    [[CI 8 49; CI 8 50; CI 8 51; CI 8 52; CI 8 53; CI 8 54; 
    CI 8 55; CI 8 56; CI 8 57]], ()) /\
  call true no_ext 300 c_Crc32Base [VPtr (TInt U32) (BData 32 c_Crc32_bzip2_crc_table) 0; VPtr (TInt U8) (BObj 0) 0; VInt U32 9; VInt U32 3; VInt U32 77; VInt IBool 1; VInt IBool 0; VInt IBool 1] [check] tt
  = Ok
    (VInt U32 4017724264,
    [[CI 8 49; CI 8 50; CI 8 51; CI 8 52; CI 8 53; CI 8 54; 
    CI 8 55; CI 8 56; CI 8 57]], ()) /\
  call true no_ext 300 c_Crc32Base [VPtr (TInt U32) (BData 32 c_Crc32_bzip2_crc_table) 0; VPtr (TInt U8) (BObj 0) 0; VInt U32 10; VInt U32 3; VInt U32 77; VInt IBool 1; VInt IBool 1; VInt IBool 1] [check] tt
  = UB OutOfBounds.
Proof. repeat split; vm_compute; reflexivity. Qed.
