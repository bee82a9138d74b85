(** * C85: the hand-written model of the 45 CRC variants against the C text

    [last_ptr m t v l]: the argument [v] for [last_crc] is null ([l = None]) or points to an
    element of type [t] of an object of [m] holding [c] ([l = Some c]). *)
From Verif Require Import CSem Lib CLang C_Utils C_Crc C_CrcVariants Model_Utils Model_Crc
  Model_CrcVariants Refine Refine_Utils Refine_Crc Refine_CrcVariants.

Local Notation check := (ints 8 [49;50;51;52;53;54;55;56;57]).

Theorem C85_Crc8 : forall (W : Type) sc
    (ext : Z -> list val -> mem -> W -> outcome (val * mem * W)) fuel
    m w b o n v l,
  m !! b = Some (ints 8 o) -> bytes o -> is_u32 n -> last_ptr m U8 v l ->
  (Z.to_nat n < fuel)%nat -> (32 < fuel)%nat ->
  call sc ext fuel c_Crc8 [VPtr (TInt U8) (BObj b) 0; VInt U32 n; v] m w
  = let! z := Crc8 o n l in Ok (VInt U8 z, m, w).
Proof. exact @ref_Crc8. Qed.
Print Assumptions C85_Crc8.
Example C85_Crc8_ex :
  call true no_ext 300 c_Crc8 [VPtr (TInt U8) (BObj 0) 0; VInt U32 9; VNull] [check] tt
  = Ok
    (VInt U8 244,
    [[CI 8 49; CI 8 50; CI 8 51; CI 8 52; CI 8 53; CI 8 54; 
    CI 8 55; CI 8 56; CI 8 57]], ()) /\
  call true no_ext 300 c_Crc8 [VPtr (TInt U8) (BObj 0) 0; VInt U32 4; VPtr (TInt U8) (BObj 1) 1] [check; ints 8 [1; 77; 3]] tt
  = Ok
    (VInt U8 167,
    [[CI 8 49; CI 8 50; CI 8 51; CI 8 52; CI 8 53; CI 8 54; 
    CI 8 55; CI 8 56; CI 8 57]; [CI 8 1; CI 8 77; CI 8 3]], ()).
Proof. repeat split; vm_compute; reflexivity. Qed.

Theorem C85_Crc8_8h2f : forall (W : Type) sc
    (ext : Z -> list val -> mem -> W -> outcome (val * mem * W)) fuel
    m w b o n fc v l,
  m !! b = Some (ints 8 o) -> bytes o -> is_u32 n -> last_ptr m U8 v l ->
  (Z.to_nat n < fuel)%nat -> (32 < fuel)%nat ->
  call sc ext fuel c_Crc8_8h2f [VPtr (TInt U8) (BObj b) 0; VInt U32 n;
    VInt IBool (b2z fc); v] m w
  = let! z := Crc8_8h2f o n fc l in Ok (VInt U8 z, m, w).
Proof. exact @ref_Crc8_8h2f. Qed.
Print Assumptions C85_Crc8_8h2f.
Example C85_Crc8_8h2f_ex :
  call true no_ext 300 c_Crc8_8h2f [VPtr (TInt U8) (BObj 0) 0; VInt U32 9; VInt IBool 1; VNull] [check] tt
  = Ok
    (VInt U8 223,
    [[CI 8 49; CI 8 50; CI 8 51; CI 8 52; CI 8 53; CI 8 54; 
    CI 8 55; CI 8 56; CI 8 57]], ()) /\
  call true no_ext 300 c_Crc8_8h2f [VPtr (TInt U8) (BObj 0) 0; VInt U32 4; VInt IBool 0; VPtr (TInt U8) (BObj 1) 1] [check; ints 8 [1; 77; 3]] tt
  = Ok
    (VInt U8 213,
    [[CI 8 49; CI 8 50; CI 8 51; CI 8 52; CI 8 53; CI 8 54; 
    CI 8 55; CI 8 56; CI 8 57]; [CI 8 1; CI 8 77; CI 8 3]], ()).
Proof. repeat split; vm_compute; reflexivity. Qed.

Theorem C85_Crc8_cdma2000 : forall (W : Type) sc
    (ext : Z -> list val -> mem -> W -> outcome (val * mem * W)) fuel
    m w b o n v l,
  m !! b = Some (ints 8 o) -> bytes o -> is_u32 n -> last_ptr m U8 v l ->
  (Z.to_nat n < fuel)%nat -> (32 < fuel)%nat ->
  call sc ext fuel c_Crc8_cdma2000 [VPtr (TInt U8) (BObj b) 0; VInt U32 n; v] m w
  = let! z := Crc8_cdma2000 o n l in Ok (VInt U8 z, m, w).
Proof. exact @ref_Crc8_cdma2000. Qed.
Print Assumptions C85_Crc8_cdma2000.
Example C85_Crc8_cdma2000_ex :
  call true no_ext 300 c_Crc8_cdma2000 [VPtr (TInt U8) (BObj 0) 0; VInt U32 9; VNull] [check] tt
  = Ok
    (VInt U8 218,
    [[CI 8 49; CI 8 50; CI 8 51; CI 8 52; CI 8 53; CI 8 54; 
    CI 8 55; CI 8 56; CI 8 57]], ()) /\
  call true no_ext 300 c_Crc8_cdma2000 [VPtr (TInt U8) (BObj 0) 0; VInt U32 4; VPtr (TInt U8) (BObj 1) 1] [check; ints 8 [1; 77; 3]] tt
  = Ok
    (VInt U8 200,
    [[CI 8 49; CI 8 50; CI 8 51; CI 8 52; CI 8 53; CI 8 54; 
    CI 8 55; CI 8 56; CI 8 57]; [CI 8 1; CI 8 77; CI 8 3]], ()).
Proof. repeat split; vm_compute; reflexivity. Qed.

Theorem C85_Crc8_darc : forall (W : Type) sc
    (ext : Z -> list val -> mem -> W -> outcome (val * mem * W)) fuel
    m w b o n fc v l,
  m !! b = Some (ints 8 o) -> bytes o -> is_u32 n -> last_ptr m U8 v l ->
  (Z.to_nat n < fuel)%nat -> (32 < fuel)%nat ->
  call sc ext fuel c_Crc8_darc [VPtr (TInt U8) (BObj b) 0; VInt U32 n;
    VInt IBool (b2z fc); v] m w
  = let! z := Crc8_darc o n fc l in Ok (VInt U8 z, m, w).
Proof. exact @ref_Crc8_darc. Qed.
Print Assumptions C85_Crc8_darc.
Example C85_Crc8_darc_ex :
  call true no_ext 300 c_Crc8_darc [VPtr (TInt U8) (BObj 0) 0; VInt U32 9; VInt IBool 1; VNull] [check] tt
  = Ok
    (VInt U8 21,
    [[CI 8 49; CI 8 50; CI 8 51; CI 8 52; CI 8 53; CI 8 54; 
    CI 8 55; CI 8 56; CI 8 57]], ()) /\
  call true no_ext 300 c_Crc8_darc [VPtr (TInt U8) (BObj 0) 0; VInt U32 4; VInt IBool 0; VPtr (TInt U8) (BObj 1) 1] [check; ints 8 [1; 77; 3]] tt
  = Ok
    (VInt U8 155,
    [[CI 8 49; CI 8 50; CI 8 51; CI 8 52; CI 8 53; CI 8 54; 
    CI 8 55; CI 8 56; CI 8 57]; [CI 8 1; CI 8 77; CI 8 3]], ()).
Proof. repeat split; vm_compute; reflexivity. Qed.

Theorem C85_Crc8_dvbS2 : forall (W : Type) sc
    (ext : Z -> list val -> mem -> W -> outcome (val * mem * W)) fuel
    m w b o n v l,
  m !! b = Some (ints 8 o) -> bytes o -> is_u32 n -> last_ptr m U8 v l ->
  (Z.to_nat n < fuel)%nat -> (32 < fuel)%nat ->
  call sc ext fuel c_Crc8_dvbS2 [VPtr (TInt U8) (BObj b) 0; VInt U32 n; v] m w
  = let! z := Crc8_dvbS2 o n l in Ok (VInt U8 z, m, w).
Proof. exact @ref_Crc8_dvbS2. Qed.
Print Assumptions C85_Crc8_dvbS2.
Example C85_Crc8_dvbS2_ex :
  call true no_ext 300 c_Crc8_dvbS2 [VPtr (TInt U8) (BObj 0) 0; VInt U32 9; VNull] [check] tt
  = Ok
    (VInt U8 188,
    [[CI 8 49; CI 8 50; CI 8 51; CI 8 52; CI 8 53; CI 8 54; 
    CI 8 55; CI 8 56; CI 8 57]], ()) /\
  call true no_ext 300 c_Crc8_dvbS2 [VPtr (TInt U8) (BObj 0) 0; VInt U32 4; VPtr (TInt U8) (BObj 1) 1] [check; ints 8 [1; 77; 3]] tt
  = Ok
    (VInt U8 158,
    [[CI 8 49; CI 8 50; CI 8 51; CI 8 52; CI 8 53; CI 8 54; 
    CI 8 55; CI 8 56; CI 8 57]; [CI 8 1; CI 8 77; CI 8 3]], ()).
Proof. repeat split; vm_compute; reflexivity. Qed.

Theorem C85_Crc8_ebu : forall (W : Type) sc
    (ext : Z -> list val -> mem -> W -> outcome (val * mem * W)) fuel
    m w b o n fc v l,
  m !! b = Some (ints 8 o) -> bytes o -> is_u32 n -> last_ptr m U8 v l ->
  (Z.to_nat n < fuel)%nat -> (32 < fuel)%nat ->
  call sc ext fuel c_Crc8_ebu [VPtr (TInt U8) (BObj b) 0; VInt U32 n;
    VInt IBool (b2z fc); v] m w
  = let! z := Crc8_ebu o n fc l in Ok (VInt U8 z, m, w).
Proof. exact @ref_Crc8_ebu. Qed.
Print Assumptions C85_Crc8_ebu.
Example C85_Crc8_ebu_ex :
  call true no_ext 300 c_Crc8_ebu [VPtr (TInt U8) (BObj 0) 0; VInt U32 9; VInt IBool 1; VNull] [check] tt
  = Ok
    (VInt U8 151,
    [[CI 8 49; CI 8 50; CI 8 51; CI 8 52; CI 8 53; CI 8 54; 
    CI 8 55; CI 8 56; CI 8 57]], ()) /\
  call true no_ext 300 c_Crc8_ebu [VPtr (TInt U8) (BObj 0) 0; VInt U32 4; VInt IBool 0; VPtr (TInt U8) (BObj 1) 1] [check; ints 8 [1; 77; 3]] tt
  = Ok
    (VInt U8 25,
    [[CI 8 49; CI 8 50; CI 8 51; CI 8 52; CI 8 53; CI 8 54; 
    CI 8 55; CI 8 56; CI 8 57]; [CI 8 1; CI 8 77; CI 8 3]], ()).
Proof. repeat split; vm_compute; reflexivity. Qed.

Theorem C85_Crc8_icode : forall (W : Type) sc
    (ext : Z -> list val -> mem -> W -> outcome (val * mem * W)) fuel
    m w b o n v l,
  m !! b = Some (ints 8 o) -> bytes o -> is_u32 n -> last_ptr m U8 v l ->
  (Z.to_nat n < fuel)%nat -> (32 < fuel)%nat ->
  call sc ext fuel c_Crc8_icode [VPtr (TInt U8) (BObj b) 0; VInt U32 n; v] m w
  = let! z := Crc8_icode o n l in Ok (VInt U8 z, m, w).
Proof. exact @ref_Crc8_icode. Qed.
Print Assumptions C85_Crc8_icode.
Example C85_Crc8_icode_ex :
  call true no_ext 300 c_Crc8_icode [VPtr (TInt U8) (BObj 0) 0; VInt U32 9; VNull] [check] tt
  = Ok
    (VInt U8 126,
    [[CI 8 49; CI 8 50; CI 8 51; CI 8 52; CI 8 53; CI 8 54; 
    CI 8 55; CI 8 56; CI 8 57]], ()) /\
  call true no_ext 300 c_Crc8_icode [VPtr (TInt U8) (BObj 0) 0; VInt U32 4; VPtr (TInt U8) (BObj 1) 1] [check; ints 8 [1; 77; 3]] tt
  = Ok
    (VInt U8 41,
    [[CI 8 49; CI 8 50; CI 8 51; CI 8 52; CI 8 53; CI 8 54; 
    CI 8 55; CI 8 56; CI 8 57]; [CI 8 1; CI 8 77; CI 8 3]], ()).
Proof. repeat split; vm_compute; reflexivity. Qed.

Theorem C85_Crc8_itu : forall (W : Type) sc
    (ext : Z -> list val -> mem -> W -> outcome (val * mem * W)) fuel
    m w b o n fc v l,
  m !! b = Some (ints 8 o) -> bytes o -> is_u32 n -> last_ptr m U8 v l ->
  (Z.to_nat n < fuel)%nat -> (32 < fuel)%nat ->
  call sc ext fuel c_Crc8_itu [VPtr (TInt U8) (BObj b) 0; VInt U32 n;
    VInt IBool (b2z fc); v] m w
  = let! z := Crc8_itu o n fc l in Ok (VInt U8 z, m, w).
Proof. exact @ref_Crc8_itu. Qed.
Print Assumptions C85_Crc8_itu.
Example C85_Crc8_itu_ex :
  call true no_ext 300 c_Crc8_itu [VPtr (TInt U8) (BObj 0) 0; VInt U32 9; VInt IBool 1; VNull] [check] tt
  = Ok
    (VInt U8 161,
    [[CI 8 49; CI 8 50; CI 8 51; CI 8 52; CI 8 53; CI 8 54; 
    CI 8 55; CI 8 56; CI 8 57]], ()) /\
  call true no_ext 300 c_Crc8_itu [VPtr (TInt U8) (BObj 0) 0; VInt U32 4; VInt IBool 0; VPtr (TInt U8) (BObj 1) 1] [check; ints 8 [1; 77; 3]] tt
  = Ok
    (VInt U8 167,
    [[CI 8 49; CI 8 50; CI 8 51; CI 8 52; CI 8 53; CI 8 54; 
    CI 8 55; CI 8 56; CI 8 57]; [CI 8 1; CI 8 77; CI 8 3]], ()).
Proof. repeat split; vm_compute; reflexivity. Qed.

Theorem C85_Crc8_maxim : forall (W : Type) sc
    (ext : Z -> list val -> mem -> W -> outcome (val * mem * W)) fuel
    m w b o n fc v l,
  m !! b = Some (ints 8 o) -> bytes o -> is_u32 n -> last_ptr m U8 v l ->
  (Z.to_nat n < fuel)%nat -> (32 < fuel)%nat ->
  call sc ext fuel c_Crc8_maxim [VPtr (TInt U8) (BObj b) 0; VInt U32 n;
    VInt IBool (b2z fc); v] m w
  = let! z := Crc8_maxim o n fc l in Ok (VInt U8 z, m, w).
Proof. exact @ref_Crc8_maxim. Qed.
Print Assumptions C85_Crc8_maxim.
Example C85_Crc8_maxim_ex :
  call true no_ext 300 c_Crc8_maxim [VPtr (TInt U8) (BObj 0) 0; VInt U32 9; VInt IBool 1; VNull] [check] tt
  = Ok
    (VInt U8 161,
    [[CI 8 49; CI 8 50; CI 8 51; CI 8 52; CI 8 53; CI 8 54; 
    CI 8 55; CI 8 56; CI 8 57]], ()) /\
  call true no_ext 300 c_Crc8_maxim [VPtr (TInt U8) (BObj 0) 0; VInt U32 4; VInt IBool 0; VPtr (TInt U8) (BObj 1) 1] [check; ints 8 [1; 77; 3]] tt
  = Ok
    (VInt U8 230,
    [[CI 8 49; CI 8 50; CI 8 51; CI 8 52; CI 8 53; CI 8 54; 
    CI 8 55; CI 8 56; CI 8 57]; [CI 8 1; CI 8 77; CI 8 3]], ()).
Proof. repeat split; vm_compute; reflexivity. Qed.

Theorem C85_Crc8_rohc : forall (W : Type) sc
    (ext : Z -> list val -> mem -> W -> outcome (val * mem * W)) fuel
    m w b o n fc v l,
  m !! b = Some (ints 8 o) -> bytes o -> is_u32 n -> last_ptr m U8 v l ->
  (Z.to_nat n < fuel)%nat -> (32 < fuel)%nat ->
  call sc ext fuel c_Crc8_rohc [VPtr (TInt U8) (BObj b) 0; VInt U32 n;
    VInt IBool (b2z fc); v] m w
  = let! z := Crc8_rohc o n fc l in Ok (VInt U8 z, m, w).
Proof. exact @ref_Crc8_rohc. Qed.
Print Assumptions C85_Crc8_rohc.
Example C85_Crc8_rohc_ex :
  call true no_ext 300 c_Crc8_rohc [VPtr (TInt U8) (BObj 0) 0; VInt U32 9; VInt IBool 1; VNull] [check] tt
  = Ok
    (VInt U8 208,
    [[CI 8 49; CI 8 50; CI 8 51; CI 8 52; CI 8 53; CI 8 54; 
    CI 8 55; CI 8 56; CI 8 57]], ()) /\
  call true no_ext 300 c_Crc8_rohc [VPtr (TInt U8) (BObj 0) 0; VInt U32 4; VInt IBool 0; VPtr (TInt U8) (BObj 1) 1] [check; ints 8 [1; 77; 3]] tt
  = Ok
    (VInt U8 21,
    [[CI 8 49; CI 8 50; CI 8 51; CI 8 52; CI 8 53; CI 8 54; 
    CI 8 55; CI 8 56; CI 8 57]; [CI 8 1; CI 8 77; CI 8 3]], ()).
Proof. repeat split; vm_compute; reflexivity. Qed.

Theorem C85_Crc8_saeJ1850 : forall (W : Type) sc
    (ext : Z -> list val -> mem -> W -> outcome (val * mem * W)) fuel
    m w b o n fc v l,
  m !! b = Some (ints 8 o) -> bytes o -> is_u32 n -> last_ptr m U8 v l ->
  (Z.to_nat n < fuel)%nat -> (32 < fuel)%nat ->
  call sc ext fuel c_Crc8_saeJ1850 [VPtr (TInt U8) (BObj b) 0; VInt U32 n;
    VInt IBool (b2z fc); v] m w
  = let! z := Crc8_saeJ1850 o n fc l in Ok (VInt U8 z, m, w).
Proof. exact @ref_Crc8_saeJ1850. Qed.
Print Assumptions C85_Crc8_saeJ1850.
Example C85_Crc8_saeJ1850_ex :
  call true no_ext 300 c_Crc8_saeJ1850 [VPtr (TInt U8) (BObj 0) 0; VInt U32 9; VInt IBool 1; VNull] [check] tt
  = Ok
    (VInt U8 75,
    [[CI 8 49; CI 8 50; CI 8 51; CI 8 52; CI 8 53; CI 8 54; 
    CI 8 55; CI 8 56; CI 8 57]], ()) /\
  call true no_ext 300 c_Crc8_saeJ1850 [VPtr (TInt U8) (BObj 0) 0; VInt U32 4; VInt IBool 0; VPtr (TInt U8) (BObj 1) 1] [check; ints 8 [1; 77; 3]] tt
  = Ok
    (VInt U8 41,
    [[CI 8 49; CI 8 50; CI 8 51; CI 8 52; CI 8 53; CI 8 54; 
    CI 8 55; CI 8 56; CI 8 57]; [CI 8 1; CI 8 77; CI 8 3]], ()).
Proof. repeat split; vm_compute; reflexivity. Qed.

Theorem C85_Crc8_saeJ1850Zero : forall (W : Type) sc
    (ext : Z -> list val -> mem -> W -> outcome (val * mem * W)) fuel
    m w b o n v l,
  m !! b = Some (ints 8 o) -> bytes o -> is_u32 n -> last_ptr m U8 v l ->
  (Z.to_nat n < fuel)%nat -> (32 < fuel)%nat ->
  call sc ext fuel c_Crc8_saeJ1850Zero [VPtr (TInt U8) (BObj b) 0; VInt U32 n; v] m w
  = let! z := Crc8_saeJ1850Zero o n l in Ok (VInt U8 z, m, w).
Proof. exact @ref_Crc8_saeJ1850Zero. Qed.
Print Assumptions C85_Crc8_saeJ1850Zero.
Example C85_Crc8_saeJ1850Zero_ex :
  call true no_ext 300 c_Crc8_saeJ1850Zero [VPtr (TInt U8) (BObj 0) 0; VInt U32 9; VNull] [check] tt
  = Ok
    (VInt U8 55,
    [[CI 8 49; CI 8 50; CI 8 51; CI 8 52; CI 8 53; CI 8 54; 
    CI 8 55; CI 8 56; CI 8 57]], ()) /\
  call true no_ext 300 c_Crc8_saeJ1850Zero [VPtr (TInt U8) (BObj 0) 0; VInt U32 4; VPtr (TInt U8) (BObj 1) 1] [check; ints 8 [1; 77; 3]] tt
  = Ok
    (VInt U8 41,
    [[CI 8 49; CI 8 50; CI 8 51; CI 8 52; CI 8 53; CI 8 54; 
    CI 8 55; CI 8 56; CI 8 57]; [CI 8 1; CI 8 77; CI 8 3]], ()).
Proof. repeat split; vm_compute; reflexivity. Qed.

Theorem C85_Crc8_wcdma : forall (W : Type) sc
    (ext : Z -> list val -> mem -> W -> outcome (val * mem * W)) fuel
    m w b o n fc v l,
  m !! b = Some (ints 8 o) -> bytes o -> is_u32 n -> last_ptr m U8 v l ->
  (Z.to_nat n < fuel)%nat -> (32 < fuel)%nat ->
  call sc ext fuel c_Crc8_wcdma [VPtr (TInt U8) (BObj b) 0; VInt U32 n;
    VInt IBool (b2z fc); v] m w
  = let! z := Crc8_wcdma o n fc l in Ok (VInt U8 z, m, w).
Proof. exact @ref_Crc8_wcdma. Qed.
Print Assumptions C85_Crc8_wcdma.
Example C85_Crc8_wcdma_ex :
  call true no_ext 300 c_Crc8_wcdma [VPtr (TInt U8) (BObj 0) 0; VInt U32 9; VInt IBool 1; VNull] [check] tt
  = Ok
    (VInt U8 37,
    [[CI 8 49; CI 8 50; CI 8 51; CI 8 52; CI 8 53; CI 8 54; 
    CI 8 55; CI 8 56; CI 8 57]], ()) /\
  call true no_ext 300 c_Crc8_wcdma [VPtr (TInt U8) (BObj 0) 0; VInt U32 4; VInt IBool 0; VPtr (TInt U8) (BObj 1) 1] [check; ints 8 [1; 77; 3]] tt
  = Ok
    (VInt U8 248,
    [[CI 8 49; CI 8 50; CI 8 51; CI 8 52; CI 8 53; CI 8 54; 
    CI 8 55; CI 8 56; CI 8 57]; [CI 8 1; CI 8 77; CI 8 3]], ()).
Proof. repeat split; vm_compute; reflexivity. Qed.

Theorem C85_Crc16_a : forall (W : Type) sc
    (ext : Z -> list val -> mem -> W -> outcome (val * mem * W)) fuel
    m w b o n fc v l,
  m !! b = Some (ints 8 o) -> bytes o -> is_u32 n -> last_ptr m U16 v l ->
  (Z.to_nat n < fuel)%nat -> (32 < fuel)%nat ->
  call sc ext fuel c_Crc16_a [VPtr (TInt U8) (BObj b) 0; VInt U32 n;
    VInt IBool (b2z fc); v] m w
  = let! z := Crc16_a o n fc l in Ok (VInt U16 z, m, w).
Proof. exact @ref_Crc16_a. Qed.
Print Assumptions C85_Crc16_a.
Example C85_Crc16_a_ex :
  call true no_ext 300 c_Crc16_a [VPtr (TInt U8) (BObj 0) 0; VInt U32 9; VInt IBool 1; VNull] [check] tt
  = Ok
    (VInt U16 48901,
    [[CI 8 49; CI 8 50; CI 8 51; CI 8 52; CI 8 53; CI 8 54; 
    CI 8 55; CI 8 56; CI 8 57]], ()) /\
  call true no_ext 300 c_Crc16_a [VPtr (TInt U8) (BObj 0) 0; VInt U32 4; VInt IBool 0; VPtr (TInt U16) (BObj 1) 1] [check; ints 16 [1; 77; 3]] tt
  = Ok
    (VInt U16 5101,
    [[CI 8 49; CI 8 50; CI 8 51; CI 8 52; CI 8 53; CI 8 54; 
    CI 8 55; CI 8 56; CI 8 57]; [CI 16 1; CI 16 77; CI 16 3]], ()).
Proof. repeat split; vm_compute; reflexivity. Qed.

Theorem C85_Crc16_arc : forall (W : Type) sc
    (ext : Z -> list val -> mem -> W -> outcome (val * mem * W)) fuel
    m w b o n fc v l,
  m !! b = Some (ints 8 o) -> bytes o -> is_u32 n -> last_ptr m U16 v l ->
  (Z.to_nat n < fuel)%nat -> (32 < fuel)%nat ->
  call sc ext fuel c_Crc16_arc [VPtr (TInt U8) (BObj b) 0; VInt U32 n;
    VInt IBool (b2z fc); v] m w
  = let! z := Crc16_arc o n fc l in Ok (VInt U16 z, m, w).
Proof. exact @ref_Crc16_arc. Qed.
Print Assumptions C85_Crc16_arc.
Example C85_Crc16_arc_ex :
  call true no_ext 300 c_Crc16_arc [VPtr (TInt U8) (BObj 0) 0; VInt U32 9; VInt IBool 1; VNull] [check] tt
  = Ok
    (VInt U16 47933,
    [[CI 8 49; CI 8 50; CI 8 51; CI 8 52; CI 8 53; CI 8 54; 
    CI 8 55; CI 8 56; CI 8 57]], ()) /\
  call true no_ext 300 c_Crc16_arc [VPtr (TInt U8) (BObj 0) 0; VInt U32 4; VInt IBool 0; VPtr (TInt U16) (BObj 1) 1] [check; ints 16 [1; 77; 3]] tt
  = Ok
    (VInt U16 22732,
    [[CI 8 49; CI 8 50; CI 8 51; CI 8 52; CI 8 53; CI 8 54; 
    CI 8 55; CI 8 56; CI 8 57]; [CI 16 1; CI 16 77; CI 16 3]], ()).
Proof. repeat split; vm_compute; reflexivity. Qed.

Theorem C85_Crc16_augCcit : forall (W : Type) sc
    (ext : Z -> list val -> mem -> W -> outcome (val * mem * W)) fuel
    m w b o n v l,
  m !! b = Some (ints 8 o) -> bytes o -> is_u32 n -> last_ptr m U16 v l ->
  (Z.to_nat n < fuel)%nat -> (32 < fuel)%nat ->
  call sc ext fuel c_Crc16_augCcit [VPtr (TInt U8) (BObj b) 0; VInt U32 n; v] m w
  = let! z := Crc16_augCcit o n l in Ok (VInt U16 z, m, w).
Proof. exact @ref_Crc16_augCcit. Qed.
Print Assumptions C85_Crc16_augCcit.
Example C85_Crc16_augCcit_ex :
  call true no_ext 300 c_Crc16_augCcit [VPtr (TInt U8) (BObj 0) 0; VInt U32 9; VNull] [check] tt
  = Ok
    (VInt U16 58828,
    [[CI 8 49; CI 8 50; CI 8 51; CI 8 52; CI 8 53; CI 8 54; 
    CI 8 55; CI 8 56; CI 8 57]], ()) /\
  call true no_ext 300 c_Crc16_augCcit [VPtr (TInt U8) (BObj 0) 0; VInt U32 4; VPtr (TInt U16) (BObj 1) 1] [check; ints 16 [1; 77; 3]] tt
  = Ok
    (VInt U16 34933,
    [[CI 8 49; CI 8 50; CI 8 51; CI 8 52; CI 8 53; CI 8 54; 
    CI 8 55; CI 8 56; CI 8 57]; [CI 16 1; CI 16 77; CI 16 3]], ()).
Proof. repeat split; vm_compute; reflexivity. Qed.

Theorem C85_Crc16_buypass : forall (W : Type) sc
    (ext : Z -> list val -> mem -> W -> outcome (val * mem * W)) fuel
    m w b o n v l,
  m !! b = Some (ints 8 o) -> bytes o -> is_u32 n -> last_ptr m U16 v l ->
  (Z.to_nat n < fuel)%nat -> (32 < fuel)%nat ->
  call sc ext fuel c_Crc16_buypass [VPtr (TInt U8) (BObj b) 0; VInt U32 n; v] m w
  = let! z := Crc16_buypass o n l in Ok (VInt U16 z, m, w).
Proof. exact @ref_Crc16_buypass. Qed.
Print Assumptions C85_Crc16_buypass.
Example C85_Crc16_buypass_ex :
  call true no_ext 300 c_Crc16_buypass [VPtr (TInt U8) (BObj 0) 0; VInt U32 9; VNull] [check] tt
  = Ok
    (VInt U16 65256,
    [[CI 8 49; CI 8 50; CI 8 51; CI 8 52; CI 8 53; CI 8 54; 
    CI 8 55; CI 8 56; CI 8 57]], ()) /\
  call true no_ext 300 c_Crc16_buypass [VPtr (TInt U8) (BObj 0) 0; VInt U32 4; VPtr (TInt U16) (BObj 1) 1] [check; ints 16 [1; 77; 3]] tt
  = Ok
    (VInt U16 63677,
    [[CI 8 49; CI 8 50; CI 8 51; CI 8 52; CI 8 53; CI 8 54; 
    CI 8 55; CI 8 56; CI 8 57]; [CI 16 1; CI 16 77; CI 16 3]], ()).
Proof. repeat split; vm_compute; reflexivity. Qed.

Theorem C85_Crc16_ccitFalse : forall (W : Type) sc
    (ext : Z -> list val -> mem -> W -> outcome (val * mem * W)) fuel
    m w b o n v l,
  m !! b = Some (ints 8 o) -> bytes o -> is_u32 n -> last_ptr m U16 v l ->
  (Z.to_nat n < fuel)%nat -> (32 < fuel)%nat ->
  call sc ext fuel c_Crc16_ccitFalse [VPtr (TInt U8) (BObj b) 0; VInt U32 n; v] m w
  = let! z := Crc16_ccitFalse o n l in Ok (VInt U16 z, m, w).
Proof. exact @ref_Crc16_ccitFalse. Qed.
Print Assumptions C85_Crc16_ccitFalse.
Example C85_Crc16_ccitFalse_ex :
  call true no_ext 300 c_Crc16_ccitFalse [VPtr (TInt U8) (BObj 0) 0; VInt U32 9; VNull] [check] tt
  = Ok
    (VInt U16 10673,
    [[CI 8 49; CI 8 50; CI 8 51; CI 8 52; CI 8 53; CI 8 54; 
    CI 8 55; CI 8 56; CI 8 57]], ()) /\
  call true no_ext 300 c_Crc16_ccitFalse [VPtr (TInt U8) (BObj 0) 0; VInt U32 4; VPtr (TInt U16) (BObj 1) 1] [check; ints 16 [1; 77; 3]] tt
  = Ok
    (VInt U16 34933,
    [[CI 8 49; CI 8 50; CI 8 51; CI 8 52; CI 8 53; CI 8 54; 
    CI 8 55; CI 8 56; CI 8 57]; [CI 16 1; CI 16 77; CI 16 3]], ()).
Proof. repeat split; vm_compute; reflexivity. Qed.

Theorem C85_Crc16_ccitZero : forall (W : Type) sc
    (ext : Z -> list val -> mem -> W -> outcome (val * mem * W)) fuel
    m w b o n v l,
  m !! b = Some (ints 8 o) -> bytes o -> is_u32 n -> last_ptr m U16 v l ->
  (Z.to_nat n < fuel)%nat -> (32 < fuel)%nat ->
  call sc ext fuel c_Crc16_ccitZero [VPtr (TInt U8) (BObj b) 0; VInt U32 n; v] m w
  = let! z := Crc16_ccitZero o n l in Ok (VInt U16 z, m, w).
Proof. exact @ref_Crc16_ccitZero. Qed.
Print Assumptions C85_Crc16_ccitZero.
Example C85_Crc16_ccitZero_ex :
  call true no_ext 300 c_Crc16_ccitZero [VPtr (TInt U8) (BObj 0) 0; VInt U32 9; VNull] [check] tt
  = Ok
    (VInt U16 12739,
    [[CI 8 49; CI 8 50; CI 8 51; CI 8 52; CI 8 53; CI 8 54; 
    CI 8 55; CI 8 56; CI 8 57]], ()) /\
  call true no_ext 300 c_Crc16_ccitZero [VPtr (TInt U8) (BObj 0) 0; VInt U32 4; VPtr (TInt U16) (BObj 1) 1] [check; ints 16 [1; 77; 3]] tt
  = Ok
    (VInt U16 34933,
    [[CI 8 49; CI 8 50; CI 8 51; CI 8 52; CI 8 53; CI 8 54; 
    CI 8 55; CI 8 56; CI 8 57]; [CI 16 1; CI 16 77; CI 16 3]], ()).
Proof. repeat split; vm_compute; reflexivity. Qed.

Theorem C85_Crc16_cdma2000 : forall (W : Type) sc
    (ext : Z -> list val -> mem -> W -> outcome (val * mem * W)) fuel
    m w b o n v l,
  m !! b = Some (ints 8 o) -> bytes o -> is_u32 n -> last_ptr m U16 v l ->
  (Z.to_nat n < fuel)%nat -> (32 < fuel)%nat ->
  call sc ext fuel c_Crc16_cdma2000 [VPtr (TInt U8) (BObj b) 0; VInt U32 n; v] m w
  = let! z := Crc16_cdma2000 o n l in Ok (VInt U16 z, m, w).
Proof. exact @ref_Crc16_cdma2000. Qed.
Print Assumptions C85_Crc16_cdma2000.
Example C85_Crc16_cdma2000_ex :
  call true no_ext 300 c_Crc16_cdma2000 [VPtr (TInt U8) (BObj 0) 0; VInt U32 9; VNull] [check] tt
  = Ok
    (VInt U16 19462,
    [[CI 8 49; CI 8 50; CI 8 51; CI 8 52; CI 8 53; CI 8 54; 
    CI 8 55; CI 8 56; CI 8 57]], ()) /\
  call true no_ext 300 c_Crc16_cdma2000 [VPtr (TInt U8) (BObj 0) 0; VInt U32 4; VPtr (TInt U16) (BObj 1) 1] [check; ints 16 [1; 77; 3]] tt
  = Ok
    (VInt U16 13473,
    [[CI 8 49; CI 8 50; CI 8 51; CI 8 52; CI 8 53; CI 8 54; 
    CI 8 55; CI 8 56; CI 8 57]; [CI 16 1; CI 16 77; CI 16 3]], ()).
Proof. repeat split; vm_compute; reflexivity. Qed.

Theorem C85_Crc16_dds110 : forall (W : Type) sc
    (ext : Z -> list val -> mem -> W -> outcome (val * mem * W)) fuel
    m w b o n v l,
  m !! b = Some (ints 8 o) -> bytes o -> is_u32 n -> last_ptr m U16 v l ->
  (Z.to_nat n < fuel)%nat -> (32 < fuel)%nat ->
  call sc ext fuel c_Crc16_dds110 [VPtr (TInt U8) (BObj b) 0; VInt U32 n; v] m w
  = let! z := Crc16_dds110 o n l in Ok (VInt U16 z, m, w).
Proof. exact @ref_Crc16_dds110. Qed.
Print Assumptions C85_Crc16_dds110.
Example C85_Crc16_dds110_ex :
  call true no_ext 300 c_Crc16_dds110 [VPtr (TInt U8) (BObj 0) 0; VInt U32 9; VNull] [check] tt
  = Ok
    (VInt U16 40655,
    [[CI 8 49; CI 8 50; CI 8 51; CI 8 52; CI 8 53; CI 8 54; 
    CI 8 55; CI 8 56; CI 8 57]], ()) /\
  call true no_ext 300 c_Crc16_dds110 [VPtr (TInt U8) (BObj 0) 0; VInt U32 4; VPtr (TInt U16) (BObj 1) 1] [check; ints 16 [1; 77; 3]] tt
  = Ok
    (VInt U16 63677,
    [[CI 8 49; CI 8 50; CI 8 51; CI 8 52; CI 8 53; CI 8 54; 
    CI 8 55; CI 8 56; CI 8 57]; [CI 16 1; CI 16 77; CI 16 3]], ()).
Proof. repeat split; vm_compute; reflexivity. Qed.

Theorem C85_Crc16_dectR : forall (W : Type) sc
    (ext : Z -> list val -> mem -> W -> outcome (val * mem * W)) fuel
    m w b o n fc v l,
  m !! b = Some (ints 8 o) -> bytes o -> is_u32 n -> last_ptr m U16 v l ->
  (Z.to_nat n < fuel)%nat -> (32 < fuel)%nat ->
  call sc ext fuel c_Crc16_dectR [VPtr (TInt U8) (BObj b) 0; VInt U32 n;
    VInt IBool (b2z fc); v] m w
  = let! z := Crc16_dectR o n fc l in Ok (VInt U16 z, m, w).
Proof. exact @ref_Crc16_dectR. Qed.
Print Assumptions C85_Crc16_dectR.
Example C85_Crc16_dectR_ex :
  call true no_ext 300 c_Crc16_dectR [VPtr (TInt U8) (BObj 0) 0; VInt U32 9; VInt IBool 1; VNull] [check] tt
  = Ok
    (VInt U16 126,
    [[CI 8 49; CI 8 50; CI 8 51; CI 8 52; CI 8 53; CI 8 54; 
    CI 8 55; CI 8 56; CI 8 57]], ()) /\
  call true no_ext 300 c_Crc16_dectR [VPtr (TInt U8) (BObj 0) 0; VInt U32 4; VInt IBool 0; VPtr (TInt U16) (BObj 1) 1] [check; ints 16 [1; 77; 3]] tt
  = Ok
    (VInt U16 26260,
    [[CI 8 49; CI 8 50; CI 8 51; CI 8 52; CI 8 53; CI 8 54; 
    CI 8 55; CI 8 56; CI 8 57]; [CI 16 1; CI 16 77; CI 16 3]], ()).
Proof. repeat split; vm_compute; reflexivity. Qed.

Theorem C85_Crc16_dectX : forall (W : Type) sc
    (ext : Z -> list val -> mem -> W -> outcome (val * mem * W)) fuel
    m w b o n v l,
  m !! b = Some (ints 8 o) -> bytes o -> is_u32 n -> last_ptr m U16 v l ->
  (Z.to_nat n < fuel)%nat -> (32 < fuel)%nat ->
  call sc ext fuel c_Crc16_dectX [VPtr (TInt U8) (BObj b) 0; VInt U32 n; v] m w
  = let! z := Crc16_dectX o n l in Ok (VInt U16 z, m, w).
Proof. exact @ref_Crc16_dectX. Qed.
Print Assumptions C85_Crc16_dectX.
Example C85_Crc16_dectX_ex :
  call true no_ext 300 c_Crc16_dectX [VPtr (TInt U8) (BObj 0) 0; VInt U32 9; VNull] [check] tt
  = Ok
    (VInt U16 127,
    [[CI 8 49; CI 8 50; CI 8 51; CI 8 52; CI 8 53; CI 8 54; 
    CI 8 55; CI 8 56; CI 8 57]], ()) /\
  call true no_ext 300 c_Crc16_dectX [VPtr (TInt U8) (BObj 0) 0; VInt U32 4; VPtr (TInt U16) (BObj 1) 1] [check; ints 16 [1; 77; 3]] tt
  = Ok
    (VInt U16 26260,
    [[CI 8 49; CI 8 50; CI 8 51; CI 8 52; CI 8 53; CI 8 54; 
    CI 8 55; CI 8 56; CI 8 57]; [CI 16 1; CI 16 77; CI 16 3]], ()).
Proof. repeat split; vm_compute; reflexivity. Qed.

Theorem C85_Crc16_dnp : forall (W : Type) sc
    (ext : Z -> list val -> mem -> W -> outcome (val * mem * W)) fuel
    m w b o n fc v l,
  m !! b = Some (ints 8 o) -> bytes o -> is_u32 n -> last_ptr m U16 v l ->
  (Z.to_nat n < fuel)%nat -> (32 < fuel)%nat ->
  call sc ext fuel c_Crc16_dnp [VPtr (TInt U8) (BObj b) 0; VInt U32 n;
    VInt IBool (b2z fc); v] m w
  = let! z := Crc16_dnp o n fc l in Ok (VInt U16 z, m, w).
Proof. exact @ref_Crc16_dnp. Qed.
Print Assumptions C85_Crc16_dnp.
Example C85_Crc16_dnp_ex :
  call true no_ext 300 c_Crc16_dnp [VPtr (TInt U8) (BObj 0) 0; VInt U32 9; VInt IBool 1; VNull] [check] tt
  = Ok
    (VInt U16 60034,
    [[CI 8 49; CI 8 50; CI 8 51; CI 8 52; CI 8 53; CI 8 54; 
    CI 8 55; CI 8 56; CI 8 57]], ()) /\
  call true no_ext 300 c_Crc16_dnp [VPtr (TInt U8) (BObj 0) 0; VInt U32 4; VInt IBool 0; VPtr (TInt U16) (BObj 1) 1] [check; ints 16 [1; 77; 3]] tt
  = Ok
    (VInt U16 37559,
    [[CI 8 49; CI 8 50; CI 8 51; CI 8 52; CI 8 53; CI 8 54; 
    CI 8 55; CI 8 56; CI 8 57]; [CI 16 1; CI 16 77; CI 16 3]], ()).
Proof. repeat split; vm_compute; reflexivity. Qed.

Theorem C85_Crc16_en13757 : forall (W : Type) sc
    (ext : Z -> list val -> mem -> W -> outcome (val * mem * W)) fuel
    m w b o n fc v l,
  m !! b = Some (ints 8 o) -> bytes o -> is_u32 n -> last_ptr m U16 v l ->
  (Z.to_nat n < fuel)%nat -> (32 < fuel)%nat ->
  call sc ext fuel c_Crc16_en13757 [VPtr (TInt U8) (BObj b) 0; VInt U32 n;
    VInt IBool (b2z fc); v] m w
  = let! z := Crc16_en13757 o n fc l in Ok (VInt U16 z, m, w).
Proof. exact @ref_Crc16_en13757. Qed.
Print Assumptions C85_Crc16_en13757.
Example C85_Crc16_en13757_ex :
  call true no_ext 300 c_Crc16_en13757 [VPtr (TInt U8) (BObj 0) 0; VInt U32 9; VInt IBool 1; VNull] [check] tt
  = Ok
    (VInt U16 49847,
    [[CI 8 49; CI 8 50; CI 8 51; CI 8 52; CI 8 53; CI 8 54; 
    CI 8 55; CI 8 56; CI 8 57]], ()) /\
  call true no_ext 300 c_Crc16_en13757 [VPtr (TInt U8) (BObj 0) 0; VInt U32 4; VInt IBool 0; VPtr (TInt U16) (BObj 1) 1] [check; ints 16 [1; 77; 3]] tt
  = Ok
    (VInt U16 27821,
    [[CI 8 49; CI 8 50; CI 8 51; CI 8 52; CI 8 53; CI 8 54; 
    CI 8 55; CI 8 56; CI 8 57]; [CI 16 1; CI 16 77; CI 16 3]], ()).
Proof. repeat split; vm_compute; reflexivity. Qed.

Theorem C85_Crc16_genibus : forall (W : Type) sc
    (ext : Z -> list val -> mem -> W -> outcome (val * mem * W)) fuel
    m w b o n fc v l,
  m !! b = Some (ints 8 o) -> bytes o -> is_u32 n -> last_ptr m U16 v l ->
  (Z.to_nat n < fuel)%nat -> (32 < fuel)%nat ->
  call sc ext fuel c_Crc16_genibus [VPtr (TInt U8) (BObj b) 0; VInt U32 n;
    VInt IBool (b2z fc); v] m w
  = let! z := Crc16_genibus o n fc l in Ok (VInt U16 z, m, w).
Proof. exact @ref_Crc16_genibus. Qed.
Print Assumptions C85_Crc16_genibus.
Example C85_Crc16_genibus_ex :
  call true no_ext 300 c_Crc16_genibus [VPtr (TInt U8) (BObj 0) 0; VInt U32 9; VInt IBool 1; VNull] [check] tt
  = Ok
    (VInt U16 54862,
    [[CI 8 49; CI 8 50; CI 8 51; CI 8 52; CI 8 53; CI 8 54; 
    CI 8 55; CI 8 56; CI 8 57]], ()) /\
  call true no_ext 300 c_Crc16_genibus [VPtr (TInt U8) (BObj 0) 0; VInt U32 4; VInt IBool 0; VPtr (TInt U16) (BObj 1) 1] [check; ints 16 [1; 77; 3]] tt
  = Ok
    (VInt U16 34933,
    [[CI 8 49; CI 8 50; CI 8 51; CI 8 52; CI 8 53; CI 8 54; 
    CI 8 55; CI 8 56; CI 8 57]; [CI 16 1; CI 16 77; CI 16 3]], ()).
Proof. repeat split; vm_compute; reflexivity. Qed.

Theorem C85_Crc16_kermit : forall (W : Type) sc
    (ext : Z -> list val -> mem -> W -> outcome (val * mem * W)) fuel
    m w b o n fc v l,
  m !! b = Some (ints 8 o) -> bytes o -> is_u32 n -> last_ptr m U16 v l ->
  (Z.to_nat n < fuel)%nat -> (32 < fuel)%nat ->
  call sc ext fuel c_Crc16_kermit [VPtr (TInt U8) (BObj b) 0; VInt U32 n;
    VInt IBool (b2z fc); v] m w
  = let! z := Crc16_kermit o n fc l in Ok (VInt U16 z, m, w).
Proof. exact @ref_Crc16_kermit. Qed.
Print Assumptions C85_Crc16_kermit.
Example C85_Crc16_kermit_ex :
  call true no_ext 300 c_Crc16_kermit [VPtr (TInt U8) (BObj 0) 0; VInt U32 9; VInt IBool 1; VNull] [check] tt
  = Ok
    (VInt U16 8585,
    [[CI 8 49; CI 8 50; CI 8 51; CI 8 52; CI 8 53; CI 8 54; 
    CI 8 55; CI 8 56; CI 8 57]], ()) /\
  call true no_ext 300 c_Crc16_kermit [VPtr (TInt U8) (BObj 0) 0; VInt U32 4; VInt IBool 0; VPtr (TInt U16) (BObj 1) 1] [check; ints 16 [1; 77; 3]] tt
  = Ok
    (VInt U16 5101,
    [[CI 8 49; CI 8 50; CI 8 51; CI 8 52; CI 8 53; CI 8 54; 
    CI 8 55; CI 8 56; CI 8 57]; [CI 16 1; CI 16 77; CI 16 3]], ()).
Proof. repeat split; vm_compute; reflexivity. Qed.

Theorem C85_Crc16_maxim : forall (W : Type) sc
    (ext : Z -> list val -> mem -> W -> outcome (val * mem * W)) fuel
    m w b o n fc v l,
  m !! b = Some (ints 8 o) -> bytes o -> is_u32 n -> last_ptr m U16 v l ->
  (Z.to_nat n < fuel)%nat -> (32 < fuel)%nat ->
  call sc ext fuel c_Crc16_maxim [VPtr (TInt U8) (BObj b) 0; VInt U32 n;
    VInt IBool (b2z fc); v] m w
  = let! z := Crc16_maxim o n fc l in Ok (VInt U16 z, m, w).
Proof. exact @ref_Crc16_maxim. Qed.
Print Assumptions C85_Crc16_maxim.
Example C85_Crc16_maxim_ex :
  call true no_ext 300 c_Crc16_maxim [VPtr (TInt U8) (BObj 0) 0; VInt U32 9; VInt IBool 1; VNull] [check] tt
  = Ok
    (VInt U16 17602,
    [[CI 8 49; CI 8 50; CI 8 51; CI 8 52; CI 8 53; CI 8 54; 
    CI 8 55; CI 8 56; CI 8 57]], ()) /\
  call true no_ext 300 c_Crc16_maxim [VPtr (TInt U8) (BObj 0) 0; VInt U32 4; VInt IBool 0; VPtr (TInt U16) (BObj 1) 1] [check; ints 16 [1; 77; 3]] tt
  = Ok
    (VInt U16 22732,
    [[CI 8 49; CI 8 50; CI 8 51; CI 8 52; CI 8 53; CI 8 54; 
    CI 8 55; CI 8 56; CI 8 57]; [CI 16 1; CI 16 77; CI 16 3]], ()).
Proof. repeat split; vm_compute; reflexivity. Qed.

Theorem C85_Crc16_mcrf4xx : forall (W : Type) sc
    (ext : Z -> list val -> mem -> W -> outcome (val * mem * W)) fuel
    m w b o n fc v l,
  m !! b = Some (ints 8 o) -> bytes o -> is_u32 n -> last_ptr m U16 v l ->
  (Z.to_nat n < fuel)%nat -> (32 < fuel)%nat ->
  call sc ext fuel c_Crc16_mcrf4xx [VPtr (TInt U8) (BObj b) 0; VInt U32 n;
    VInt IBool (b2z fc); v] m w
  = let! z := Crc16_mcrf4xx o n fc l in Ok (VInt U16 z, m, w).
Proof. exact @ref_Crc16_mcrf4xx. Qed.
Print Assumptions C85_Crc16_mcrf4xx.
Example C85_Crc16_mcrf4xx_ex :
  call true no_ext 300 c_Crc16_mcrf4xx [VPtr (TInt U8) (BObj 0) 0; VInt U32 9; VInt IBool 1; VNull] [check] tt
  = Ok
    (VInt U16 28561,
    [[CI 8 49; CI 8 50; CI 8 51; CI 8 52; CI 8 53; CI 8 54; 
    CI 8 55; CI 8 56; CI 8 57]], ()) /\
  call true no_ext 300 c_Crc16_mcrf4xx [VPtr (TInt U8) (BObj 0) 0; VInt U32 4; VInt IBool 0; VPtr (TInt U16) (BObj 1) 1] [check; ints 16 [1; 77; 3]] tt
  = Ok
    (VInt U16 5101,
    [[CI 8 49; CI 8 50; CI 8 51; CI 8 52; CI 8 53; CI 8 54; 
    CI 8 55; CI 8 56; CI 8 57]; [CI 16 1; CI 16 77; CI 16 3]], ()).
Proof. repeat split; vm_compute; reflexivity. Qed.

Theorem C85_Crc16_modbus : forall (W : Type) sc
    (ext : Z -> list val -> mem -> W -> outcome (val * mem * W)) fuel
    m w b o n fc v l,
  m !! b = Some (ints 8 o) -> bytes o -> is_u32 n -> last_ptr m U16 v l ->
  (Z.to_nat n < fuel)%nat -> (32 < fuel)%nat ->
  call sc ext fuel c_Crc16_modbus [VPtr (TInt U8) (BObj b) 0; VInt U32 n;
    VInt IBool (b2z fc); v] m w
  = let! z := Crc16_modbus o n fc l in Ok (VInt U16 z, m, w).
Proof. exact @ref_Crc16_modbus. Qed.
Print Assumptions C85_Crc16_modbus.
Example C85_Crc16_modbus_ex :
  call true no_ext 300 c_Crc16_modbus [VPtr (TInt U8) (BObj 0) 0; VInt U32 9; VInt IBool 1; VNull] [check] tt
  = Ok
    (VInt U16 19255,
    [[CI 8 49; CI 8 50; CI 8 51; CI 8 52; CI 8 53; CI 8 54; 
    CI 8 55; CI 8 56; CI 8 57]], ()) /\
  call true no_ext 300 c_Crc16_modbus [VPtr (TInt U8) (BObj 0) 0; VInt U32 4; VInt IBool 0; VPtr (TInt U16) (BObj 1) 1] [check; ints 16 [1; 77; 3]] tt
  = Ok
    (VInt U16 22732,
    [[CI 8 49; CI 8 50; CI 8 51; CI 8 52; CI 8 53; CI 8 54; 
    CI 8 55; CI 8 56; CI 8 57]; [CI 16 1; CI 16 77; CI 16 3]], ()).
Proof. repeat split; vm_compute; reflexivity. Qed.

Theorem C85_Crc16_riello : forall (W : Type) sc
    (ext : Z -> list val -> mem -> W -> outcome (val * mem * W)) fuel
    m w b o n fc v l,
  m !! b = Some (ints 8 o) -> bytes o -> is_u32 n -> last_ptr m U16 v l ->
  (Z.to_nat n < fuel)%nat -> (32 < fuel)%nat ->
  call sc ext fuel c_Crc16_riello [VPtr (TInt U8) (BObj b) 0; VInt U32 n;
    VInt IBool (b2z fc); v] m w
  = let! z := Crc16_riello o n fc l in Ok (VInt U16 z, m, w).
Proof. exact @ref_Crc16_riello. Qed.
Print Assumptions C85_Crc16_riello.
Example C85_Crc16_riello_ex :
  call true no_ext 300 c_Crc16_riello [VPtr (TInt U8) (BObj 0) 0; VInt U32 9; VInt IBool 1; VNull] [check] tt
  = Ok
    (VInt U16 25552,
    [[CI 8 49; CI 8 50; CI 8 51; CI 8 52; CI 8 53; CI 8 54; 
    CI 8 55; CI 8 56; CI 8 57]], ()) /\
  call true no_ext 300 c_Crc16_riello [VPtr (TInt U8) (BObj 0) 0; VInt U32 4; VInt IBool 0; VPtr (TInt U16) (BObj 1) 1] [check; ints 16 [1; 77; 3]] tt
  = Ok
    (VInt U16 5101,
    [[CI 8 49; CI 8 50; CI 8 51; CI 8 52; CI 8 53; CI 8 54; 
    CI 8 55; CI 8 56; CI 8 57]; [CI 16 1; CI 16 77; CI 16 3]], ()).
Proof. repeat split; vm_compute; reflexivity. Qed.

Theorem C85_Crc16_t10Dif : forall (W : Type) sc
    (ext : Z -> list val -> mem -> W -> outcome (val * mem * W)) fuel
    m w b o n v l,
  m !! b = Some (ints 8 o) -> bytes o -> is_u32 n -> last_ptr m U16 v l ->
  (Z.to_nat n < fuel)%nat -> (32 < fuel)%nat ->
  call sc ext fuel c_Crc16_t10Dif [VPtr (TInt U8) (BObj b) 0; VInt U32 n; v] m w
  = let! z := Crc16_t10Dif o n l in Ok (VInt U16 z, m, w).
Proof. exact @ref_Crc16_t10Dif. Qed.
Print Assumptions C85_Crc16_t10Dif.
Example C85_Crc16_t10Dif_ex :
  call true no_ext 300 c_Crc16_t10Dif [VPtr (TInt U8) (BObj 0) 0; VInt U32 9; VNull] [check] tt
  = Ok
    (VInt U16 53467,
    [[CI 8 49; CI 8 50; CI 8 51; CI 8 52; CI 8 53; CI 8 54; 
    CI 8 55; CI 8 56; CI 8 57]], ()) /\
  call true no_ext 300 c_Crc16_t10Dif [VPtr (TInt U8) (BObj 0) 0; VInt U32 4; VPtr (TInt U16) (BObj 1) 1] [check; ints 16 [1; 77; 3]] tt
  = Ok
    (VInt U16 23798,
    [[CI 8 49; CI 8 50; CI 8 51; CI 8 52; CI 8 53; CI 8 54; 
    CI 8 55; CI 8 56; CI 8 57]; [CI 16 1; CI 16 77; CI 16 3]], ()).
Proof. repeat split; vm_compute; reflexivity. Qed.

Theorem C85_Crc16_teledisk : forall (W : Type) sc
    (ext : Z -> list val -> mem -> W -> outcome (val * mem * W)) fuel
    m w b o n v l,
  m !! b = Some (ints 8 o) -> bytes o -> is_u32 n -> last_ptr m U16 v l ->
  (Z.to_nat n < fuel)%nat -> (32 < fuel)%nat ->
  call sc ext fuel c_Crc16_teledisk [VPtr (TInt U8) (BObj b) 0; VInt U32 n; v] m w
  = let! z := Crc16_teledisk o n l in Ok (VInt U16 z, m, w).
Proof. exact @ref_Crc16_teledisk. Qed.
Print Assumptions C85_Crc16_teledisk.
Example C85_Crc16_teledisk_ex :
  call true no_ext 300 c_Crc16_teledisk [VPtr (TInt U8) (BObj 0) 0; VInt U32 9; VNull] [check] tt
  = Ok
    (VInt U16 4019,
    [[CI 8 49; CI 8 50; CI 8 51; CI 8 52; CI 8 53; CI 8 54; 
    CI 8 55; CI 8 56; CI 8 57]], ()) /\
  call true no_ext 300 c_Crc16_teledisk [VPtr (TInt U8) (BObj 0) 0; VInt U32 4; VPtr (TInt U16) (BObj 1) 1] [check; ints 16 [1; 77; 3]] tt
  = Ok
    (VInt U16 10956,
    [[CI 8 49; CI 8 50; CI 8 51; CI 8 52; CI 8 53; CI 8 54; 
    CI 8 55; CI 8 56; CI 8 57]; [CI 16 1; CI 16 77; CI 16 3]], ()).
Proof. repeat split; vm_compute; reflexivity. Qed.

Theorem C85_Crc16_tms37157 : forall (W : Type) sc
    (ext : Z -> list val -> mem -> W -> outcome (val * mem * W)) fuel
    m w b o n fc v l,
  m !! b = Some (ints 8 o) -> bytes o -> is_u32 n -> last_ptr m U16 v l ->
  (Z.to_nat n < fuel)%nat -> (32 < fuel)%nat ->
  call sc ext fuel c_Crc16_tms37157 [VPtr (TInt U8) (BObj b) 0; VInt U32 n;
    VInt IBool (b2z fc); v] m w
  = let! z := Crc16_tms37157 o n fc l in Ok (VInt U16 z, m, w).
Proof. exact @ref_Crc16_tms37157. Qed.
Print Assumptions C85_Crc16_tms37157.
Example C85_Crc16_tms37157_ex :
  call true no_ext 300 c_Crc16_tms37157 [VPtr (TInt U8) (BObj 0) 0; VInt U32 9; VInt IBool 1; VNull] [check] tt
  = Ok
    (VInt U16 9905,
    [[CI 8 49; CI 8 50; CI 8 51; CI 8 52; CI 8 53; CI 8 54; 
    CI 8 55; CI 8 56; CI 8 57]], ()) /\
  call true no_ext 300 c_Crc16_tms37157 [VPtr (TInt U8) (BObj 0) 0; VInt U32 4; VInt IBool 0; VPtr (TInt U16) (BObj 1) 1] [check; ints 16 [1; 77; 3]] tt
  = Ok
    (VInt U16 5101,
    [[CI 8 49; CI 8 50; CI 8 51; CI 8 52; CI 8 53; CI 8 54; 
    CI 8 55; CI 8 56; CI 8 57]; [CI 16 1; CI 16 77; CI 16 3]], ()).
Proof. repeat split; vm_compute; reflexivity. Qed.

Theorem C85_Crc16_usb : forall (W : Type) sc
    (ext : Z -> list val -> mem -> W -> outcome (val * mem * W)) fuel
    m w b o n fc v l,
  m !! b = Some (ints 8 o) -> bytes o -> is_u32 n -> last_ptr m U16 v l ->
  (Z.to_nat n < fuel)%nat -> (32 < fuel)%nat ->
  call sc ext fuel c_Crc16_usb [VPtr (TInt U8) (BObj b) 0; VInt U32 n;
    VInt IBool (b2z fc); v] m w
  = let! z := Crc16_usb o n fc l in Ok (VInt U16 z, m, w).
Proof. exact @ref_Crc16_usb. Qed.
Print Assumptions C85_Crc16_usb.
Example C85_Crc16_usb_ex :
  call true no_ext 300 c_Crc16_usb [VPtr (TInt U8) (BObj 0) 0; VInt U32 9; VInt IBool 1; VNull] [check] tt
  = Ok
    (VInt U16 46280,
    [[CI 8 49; CI 8 50; CI 8 51; CI 8 52; CI 8 53; CI 8 54; 
    CI 8 55; CI 8 56; CI 8 57]], ()) /\
  call true no_ext 300 c_Crc16_usb [VPtr (TInt U8) (BObj 0) 0; VInt U32 4; VInt IBool 0; VPtr (TInt U16) (BObj 1) 1] [check; ints 16 [1; 77; 3]] tt
  = Ok
    (VInt U16 22732,
    [[CI 8 49; CI 8 50; CI 8 51; CI 8 52; CI 8 53; CI 8 54; 
    CI 8 55; CI 8 56; CI 8 57]; [CI 16 1; CI 16 77; CI 16 3]], ()).
Proof. repeat split; vm_compute; reflexivity. Qed.

Theorem C85_Crc16_x25 : forall (W : Type) sc
    (ext : Z -> list val -> mem -> W -> outcome (val * mem * W)) fuel
    m w b o n fc v l,
  m !! b = Some (ints 8 o) -> bytes o -> is_u32 n -> last_ptr m U16 v l ->
  (Z.to_nat n < fuel)%nat -> (32 < fuel)%nat ->
  call sc ext fuel c_Crc16_x25 [VPtr (TInt U8) (BObj b) 0; VInt U32 n;
    VInt IBool (b2z fc); v] m w
  = let! z := Crc16_x25 o n fc l in Ok (VInt U16 z, m, w).
Proof. exact @ref_Crc16_x25. Qed.
Print Assumptions C85_Crc16_x25.
Example C85_Crc16_x25_ex :
  call true no_ext 300 c_Crc16_x25 [VPtr (TInt U8) (BObj 0) 0; VInt U32 9; VInt IBool 1; VNull] [check] tt
  = Ok
    (VInt U16 36974,
    [[CI 8 49; CI 8 50; CI 8 51; CI 8 52; CI 8 53; CI 8 54; 
    CI 8 55; CI 8 56; CI 8 57]], ()) /\
  call true no_ext 300 c_Crc16_x25 [VPtr (TInt U8) (BObj 0) 0; VInt U32 4; VInt IBool 0; VPtr (TInt U16) (BObj 1) 1] [check; ints 16 [1; 77; 3]] tt
  = Ok
    (VInt U16 5101,
    [[CI 8 49; CI 8 50; CI 8 51; CI 8 52; CI 8 53; CI 8 54; 
    CI 8 55; CI 8 56; CI 8 57]; [CI 16 1; CI 16 77; CI 16 3]], ()).
Proof. repeat split; vm_compute; reflexivity. Qed.

Theorem C85_Crc32 : forall (W : Type) sc
    (ext : Z -> list val -> mem -> W -> outcome (val * mem * W)) fuel
    m w b o n fc v l,
  m !! b = Some (ints 8 o) -> bytes o -> is_u32 n -> last_ptr m U32 v l ->
  (Z.to_nat n < fuel)%nat -> (32 < fuel)%nat ->
  call sc ext fuel c_Crc32 [VPtr (TInt U8) (BObj b) 0; VInt U32 n;
    VInt IBool (b2z fc); v] m w
  = let! z := Crc32 o n fc l in Ok (VInt U32 z, m, w).
Proof. exact @ref_Crc32. Qed.
Print Assumptions C85_Crc32.
Example C85_Crc32_ex :
  call true no_ext 300 c_Crc32 [VPtr (TInt U8) (BObj 0) 0; VInt U32 9; VInt IBool 1; VNull] [check] tt
  = Ok
    (VInt U32 3421780262,
    [[CI 8 49; CI 8 50; CI 8 51; CI 8 52; CI 8 53; CI 8 54; 
    CI 8 55; CI 8 56; CI 8 57]], ()) /\
  call true no_ext 300 c_Crc32 [VPtr (TInt U8) (BObj 0) 0; VInt U32 4; VInt IBool 0; VPtr (TInt U32) (BObj 1) 1] [check; ints 32 [1; 77; 3]] tt
  = Ok
    (VInt U32 4172747769,
    [[CI 8 49; CI 8 50; CI 8 51; CI 8 52; CI 8 53; CI 8 54; 
    CI 8 55; CI 8 56; CI 8 57]; [CI 32 1; CI 32 77; CI 32 3]], ()).
Proof. repeat split; vm_compute; reflexivity. Qed.

Theorem C85_Crc32_bzip2 : forall (W : Type) sc
    (ext : Z -> list val -> mem -> W -> outcome (val * mem * W)) fuel
    m w b o n fc v l,
  m !! b = Some (ints 8 o) -> bytes o -> is_u32 n -> last_ptr m U32 v l ->
  (Z.to_nat n < fuel)%nat -> (32 < fuel)%nat ->
  call sc ext fuel c_Crc32_bzip2 [VPtr (TInt U8) (BObj b) 0; VInt U32 n;
    VInt IBool (b2z fc); v] m w
  = let! z := Crc32_bzip2 o n fc l in Ok (VInt U32 z, m, w).
Proof. exact @ref_Crc32_bzip2. Qed.
Print Assumptions C85_Crc32_bzip2.
Example C85_Crc32_bzip2_ex :
  call true no_ext 300 c_Crc32_bzip2 [VPtr (TInt U8) (BObj 0) 0; VInt U32 9; VInt IBool 1; VNull] [check] tt
  = Ok
    (VInt U32 4236843288,
    [[CI 8 49; CI 8 50; CI 8 51; CI 8 52; CI 8 53; CI 8 54; 
    CI 8 55; CI 8 56; CI 8 57]], ()) /\
  call true no_ext 300 c_Crc32_bzip2 [VPtr (TInt U8) (BObj 0) 0; VInt U32 4; VInt IBool 0; VPtr (TInt U32) (BObj 1) 1] [check; ints 32 [1; 77; 3]] tt
  = Ok
    (VInt U32 1692069749,
    [[CI 8 49; CI 8 50; CI 8 51; CI 8 52; CI 8 53; CI 8 54; 
    CI 8 55; CI 8 56; CI 8 57]; [CI 32 1; CI 32 77; CI 32 3]], ()).
Proof. repeat split; vm_compute; reflexivity. Qed.

Theorem C85_Crc32_c : forall (W : Type) sc
    (ext : Z -> list val -> mem -> W -> outcome (val * mem * W)) fuel
    m w b o n fc v l,
  m !! b = Some (ints 8 o) -> bytes o -> is_u32 n -> last_ptr m U32 v l ->
  (Z.to_nat n < fuel)%nat -> (32 < fuel)%nat ->
  call sc ext fuel c_Crc32_c [VPtr (TInt U8) (BObj b) 0; VInt U32 n;
    VInt IBool (b2z fc); v] m w
  = let! z := Crc32_c o n fc l in Ok (VInt U32 z, m, w).
Proof. exact @ref_Crc32_c. Qed.
Print Assumptions C85_Crc32_c.
Example C85_Crc32_c_ex :
  call true no_ext 300 c_Crc32_c [VPtr (TInt U8) (BObj 0) 0; VInt U32 9; VInt IBool 1; VNull] [check] tt
  = Ok
    (VInt U32 3808858755,
    [[CI 8 49; CI 8 50; CI 8 51; CI 8 52; CI 8 53; CI 8 54; 
    CI 8 55; CI 8 56; CI 8 57]], ()) /\
  call true no_ext 300 c_Crc32_c [VPtr (TInt U8) (BObj 0) 0; VInt U32 4; VInt IBool 0; VPtr (TInt U32) (BObj 1) 1] [check; ints 32 [1; 77; 3]] tt
  = Ok
    (VInt U32 3904753335,
    [[CI 8 49; CI 8 50; CI 8 51; CI 8 52; CI 8 53; CI 8 54; 
    CI 8 55; CI 8 56; CI 8 57]; [CI 32 1; CI 32 77; CI 32 3]], ()).
Proof. repeat split; vm_compute; reflexivity. Qed.

Theorem C85_Crc32_d : forall (W : Type) sc
    (ext : Z -> list val -> mem -> W -> outcome (val * mem * W)) fuel
    m w b o n fc v l,
  m !! b = Some (ints 8 o) -> bytes o -> is_u32 n -> last_ptr m U32 v l ->
  (Z.to_nat n < fuel)%nat -> (32 < fuel)%nat ->
  call sc ext fuel c_Crc32_d [VPtr (TInt U8) (BObj b) 0; VInt U32 n;
    VInt IBool (b2z fc); v] m w
  = let! z := Crc32_d o n fc l in Ok (VInt U32 z, m, w).
Proof. exact @ref_Crc32_d. Qed.
Print Assumptions C85_Crc32_d.
Example C85_Crc32_d_ex :
  call true no_ext 300 c_Crc32_d [VPtr (TInt U8) (BObj 0) 0; VInt U32 9; VInt IBool 1; VNull] [check] tt
  = Ok
    (VInt U32 2268157302,
    [[CI 8 49; CI 8 50; CI 8 51; CI 8 52; CI 8 53; CI 8 54; 
    CI 8 55; CI 8 56; CI 8 57]], ()) /\
  call true no_ext 300 c_Crc32_d [VPtr (TInt U8) (BObj 0) 0; VInt U32 4; VInt IBool 0; VPtr (TInt U32) (BObj 1) 1] [check; ints 32 [1; 77; 3]] tt
  = Ok
    (VInt U32 107084519,
    [[CI 8 49; CI 8 50; CI 8 51; CI 8 52; CI 8 53; CI 8 54; 
    CI 8 55; CI 8 56; CI 8 57]; [CI 32 1; CI 32 77; CI 32 3]], ()).
Proof. repeat split; vm_compute; reflexivity. Qed.

Theorem C85_Crc32_jamcrc : forall (W : Type) sc
    (ext : Z -> list val -> mem -> W -> outcome (val * mem * W)) fuel
    m w b o n fc v l,
  m !! b = Some (ints 8 o) -> bytes o -> is_u32 n -> last_ptr m U32 v l ->
  (Z.to_nat n < fuel)%nat -> (32 < fuel)%nat ->
  call sc ext fuel c_Crc32_jamcrc [VPtr (TInt U8) (BObj b) 0; VInt U32 n;
    VInt IBool (b2z fc); v] m w
  = let! z := Crc32_jamcrc o n fc l in Ok (VInt U32 z, m, w).
Proof. exact @ref_Crc32_jamcrc. Qed.
Print Assumptions C85_Crc32_jamcrc.
Example C85_Crc32_jamcrc_ex :
  call true no_ext 300 c_Crc32_jamcrc [VPtr (TInt U8) (BObj 0) 0; VInt U32 9; VInt IBool 1; VNull] [check] tt
  = Ok
    (VInt U32 873187033,
    [[CI 8 49; CI 8 50; CI 8 51; CI 8 52; CI 8 53; CI 8 54; 
    CI 8 55; CI 8 56; CI 8 57]], ()) /\
  call true no_ext 300 c_Crc32_jamcrc [VPtr (TInt U8) (BObj 0) 0; VInt U32 4; VInt IBool 0; VPtr (TInt U32) (BObj 1) 1] [check; ints 32 [1; 77; 3]] tt
  = Ok
    (VInt U32 4172747769,
    [[CI 8 49; CI 8 50; CI 8 51; CI 8 52; CI 8 53; CI 8 54; 
    CI 8 55; CI 8 56; CI 8 57]; [CI 32 1; CI 32 77; CI 32 3]], ()).
Proof. repeat split; vm_compute; reflexivity. Qed.

Theorem C85_Crc32_mpeg2 : forall (W : Type) sc
    (ext : Z -> list val -> mem -> W -> outcome (val * mem * W)) fuel
    m w b o n v l,
  m !! b = Some (ints 8 o) -> bytes o -> is_u32 n -> last_ptr m U32 v l ->
  (Z.to_nat n < fuel)%nat -> (32 < fuel)%nat ->
  call sc ext fuel c_Crc32_mpeg2 [VPtr (TInt U8) (BObj b) 0; VInt U32 n; v] m w
  = let! z := Crc32_mpeg2 o n l in Ok (VInt U32 z, m, w).
Proof. exact @ref_Crc32_mpeg2. Qed.
Print Assumptions C85_Crc32_mpeg2.
Example C85_Crc32_mpeg2_ex :
  call true no_ext 300 c_Crc32_mpeg2 [VPtr (TInt U8) (BObj 0) 0; VInt U32 9; VNull] [check] tt
  = Ok
    (VInt U32 58124007,
    [[CI 8 49; CI 8 50; CI 8 51; CI 8 52; CI 8 53; CI 8 54; 
    CI 8 55; CI 8 56; CI 8 57]], ()) /\
  call true no_ext 300 c_Crc32_mpeg2 [VPtr (TInt U8) (BObj 0) 0; VInt U32 4; VPtr (TInt U32) (BObj 1) 1] [check; ints 32 [1; 77; 3]] tt
  = Ok
    (VInt U32 1692069749,
    [[CI 8 49; CI 8 50; CI 8 51; CI 8 52; CI 8 53; CI 8 54; 
    CI 8 55; CI 8 56; CI 8 57]; [CI 32 1; CI 32 77; CI 32 3]], ()).
Proof. repeat split; vm_compute; reflexivity. Qed.

Theorem C85_Crc32_posix : forall (W : Type) sc
    (ext : Z -> list val -> mem -> W -> outcome (val * mem * W)) fuel
    m w b o n fc v l,
  m !! b = Some (ints 8 o) -> bytes o -> is_u32 n -> last_ptr m U32 v l ->
  (Z.to_nat n < fuel)%nat -> (32 < fuel)%nat ->
  call sc ext fuel c_Crc32_posix [VPtr (TInt U8) (BObj b) 0; VInt U32 n;
    VInt IBool (b2z fc); v] m w
  = let! z := Crc32_posix o n fc l in Ok (VInt U32 z, m, w).
Proof. exact @ref_Crc32_posix. Qed.
Print Assumptions C85_Crc32_posix.
Example C85_Crc32_posix_ex :
  call true no_ext 300 c_Crc32_posix [VPtr (TInt U8) (BObj 0) 0; VInt U32 9; VInt IBool 1; VNull] [check] tt
  = Ok
    (VInt U32 1985902208,
    [[CI 8 49; CI 8 50; CI 8 51; CI 8 52; CI 8 53; CI 8 54; 
    CI 8 55; CI 8 56; CI 8 57]], ()) /\
  call true no_ext 300 c_Crc32_posix [VPtr (TInt U8) (BObj 0) 0; VInt U32 4; VInt IBool 0; VPtr (TInt U32) (BObj 1) 1] [check; ints 32 [1; 77; 3]] tt
  = Ok
    (VInt U32 1692069749,
    [[CI 8 49; CI 8 50; CI 8 51; CI 8 52; CI 8 53; CI 8 54; 
    CI 8 55; CI 8 56; CI 8 57]; [CI 32 1; CI 32 77; CI 32 3]], ()).
Proof. repeat split; vm_compute; reflexivity. Qed.

Theorem C85_Crc32_q : forall (W : Type) sc
    (ext : Z -> list val -> mem -> W -> outcome (val * mem * W)) fuel
    m w b o n v l,
  m !! b = Some (ints 8 o) -> bytes o -> is_u32 n -> last_ptr m U32 v l ->
  (Z.to_nat n < fuel)%nat -> (32 < fuel)%nat ->
  call sc ext fuel c_Crc32_q [VPtr (TInt U8) (BObj b) 0; VInt U32 n; v] m w
  = let! z := Crc32_q o n l in Ok (VInt U32 z, m, w).
Proof. exact @ref_Crc32_q. Qed.
Print Assumptions C85_Crc32_q.
Example C85_Crc32_q_ex :
  call true no_ext 300 c_Crc32_q [VPtr (TInt U8) (BObj 0) 0; VInt U32 9; VNull] [check] tt
  = Ok
    (VInt U32 806403967,
    [[CI 8 49; CI 8 50; CI 8 51; CI 8 52; CI 8 53; CI 8 54; 
    CI 8 55; CI 8 56; CI 8 57]], ()) /\
  call true no_ext 300 c_Crc32_q [VPtr (TInt U8) (BObj 0) 0; VInt U32 4; VPtr (TInt U32) (BObj 1) 1] [check; ints 32 [1; 77; 3]] tt
  = Ok
    (VInt U32 1491833739,
    [[CI 8 49; CI 8 50; CI 8 51; CI 8 52; CI 8 53; CI 8 54; 
    CI 8 55; CI 8 56; CI 8 57]; [CI 32 1; CI 32 77; CI 32 3]], ()).
Proof. repeat split; vm_compute; reflexivity. Qed.

Theorem C85_Crc32_xfer : forall (W : Type) sc
    (ext : Z -> list val -> mem -> W -> outcome (val * mem * W)) fuel
    m w b o n v l,
  m !! b = Some (ints 8 o) -> bytes o -> is_u32 n -> last_ptr m U32 v l ->
  (Z.to_nat n < fuel)%nat -> (32 < fuel)%nat ->
  call sc ext fuel c_Crc32_xfer [VPtr (TInt U8) (BObj b) 0; VInt U32 n; v] m w
  = let! z := Crc32_xfer o n l in Ok (VInt U32 z, m, w).
Proof. exact @ref_Crc32_xfer. Qed.
Print Assumptions C85_Crc32_xfer.
Example C85_Crc32_xfer_ex :
  call true no_ext 300 c_Crc32_xfer [VPtr (TInt U8) (BObj 0) 0; VInt U32 9; VNull] [check] tt
  = Ok
    (VInt U32 3171672888,
    [[CI 8 49; CI 8 50; CI 8 51; CI 8 52; CI 8 53; CI 8 54; 
    CI 8 55; CI 8 56; CI 8 57]], ()) /\
  call true no_ext 300 c_Crc32_xfer [VPtr (TInt U8) (BObj 0) 0; VInt U32 4; VPtr (TInt U32) (BObj 1) 1] [check; ints 32 [1; 77; 3]] tt
  = Ok
    (VInt U32 2706431170,
    [[CI 8 49; CI 8 50; CI 8 51; CI 8 52; CI 8 53; CI 8 54; 
    CI 8 55; CI 8 56; CI 8 57]; [CI 32 1; CI 32 77; CI 32 3]], ()).
Proof. repeat split; vm_compute; reflexivity. Qed.
