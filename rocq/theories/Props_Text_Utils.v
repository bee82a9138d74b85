(** * C84: the hand-written model of utils.c and bit_manipulation.c against the C text

    [c_F] is the function [F] as produced from its C text by [tools/c2coq.py]; [call] runs it
    (CLang.v).  Each theorem says that the run, with every memory, gives exactly the outcome
    of the hand-written model [F], undefined behaviour included: what the model returns, the
    object it changes, and nothing else. *)
From Verif Require Import CSem Lib CLang C_Utils Model_Utils Refine Refine_Utils.

Local Notation at8 b p := (VPtr (TInt U8) (BObj b) p).

Theorem C84_serialize8 : forall (W : Type) sc
    (ext : Z -> list val -> mem -> W -> outcome (val * mem * W)) fuel
    m w b o p v,
  m !! b = Some (ints 8 o) -> is_byte v ->
  call sc ext fuel c_Utils_serialize8 [at8 b p; VInt U8 v] m w
  = let! o' := Utils_serialize8 o p v in Ok (VUndef, <[b := ints 8 o']> m, w).
Proof. exact @ref_serialize8. Qed.
Print Assumptions C84_serialize8.
Example C84_serialize8_ex :
  call true no_ext 100 c_Utils_serialize8 [at8 1 1; VInt U8 167] [ints 8 [9]; ints 8 [1;2;3;4;5;6]] tt
  = Ok (VUndef, [[CI 8 9]; [CI 8 1; CI 8 167; CI 8 3; CI 8 4; CI 8 5; CI 8 6]], ()) /\
  call true no_ext 100 c_Utils_serialize8 [at8 1 6; VInt U8 167] [ints 8 [9]; ints 8 [1;2;3;4;5;6]] tt
  = UB OutOfBounds.
Proof. repeat split; vm_compute; reflexivity. Qed.

Theorem C84_serialize16BE : forall (W : Type) sc
    (ext : Z -> list val -> mem -> W -> outcome (val * mem * W)) fuel
    m w b o p v,
  m !! b = Some (ints 8 o) ->
  call sc ext fuel c_Utils_serialize16BE [at8 b p; VInt U16 v] m w
  = let! o' := Utils_serialize16BE o p v in Ok (VUndef, <[b := ints 8 o']> m, w).
Proof. exact @ref_serialize16BE. Qed.
Print Assumptions C84_serialize16BE.
Example C84_serialize16BE_ex :
  call true no_ext 100 c_Utils_serialize16BE [at8 1 1; VInt U16 41394] [ints 8 [9]; ints 8 [1;2;3;4;5;6]] tt
  = Ok (VUndef, [[CI 8 9]; [CI 8 1; CI 8 161; CI 8 178; CI 8 4; CI 8 5; CI 8 6]], ()) /\
  call true no_ext 100 c_Utils_serialize16BE [at8 1 6; VInt U16 41394] [ints 8 [9]; ints 8 [1;2;3;4;5;6]] tt
  = UB OutOfBounds.
Proof. repeat split; vm_compute; reflexivity. Qed.

Theorem C84_serialize24BE : forall (W : Type) sc
    (ext : Z -> list val -> mem -> W -> outcome (val * mem * W)) fuel
    m w b o p v,
  m !! b = Some (ints 8 o) ->
  call sc ext fuel c_Utils_serialize24BE [at8 b p; VInt U32 v] m w
  = let! o' := Utils_serialize24BE o p v in Ok (VUndef, <[b := ints 8 o']> m, w).
Proof. exact @ref_serialize24BE. Qed.
Print Assumptions C84_serialize24BE.
Example C84_serialize24BE_ex :
  call true no_ext 100 c_Utils_serialize24BE [at8 1 1; VInt U32 3808044] [ints 8 [9]; ints 8 [1;2;3;4;5;6]] tt
  = Ok (VUndef, [[CI 8 9]; [CI 8 1; CI 8 58; CI 8 27; CI 8 44; CI 8 5; CI 8 6]], ()) /\
  call true no_ext 100 c_Utils_serialize24BE [at8 1 6; VInt U32 3808044] [ints 8 [9]; ints 8 [1;2;3;4;5;6]] tt
  = UB OutOfBounds.
Proof. repeat split; vm_compute; reflexivity. Qed.

Theorem C84_serialize32BE : forall (W : Type) sc
    (ext : Z -> list val -> mem -> W -> outcome (val * mem * W)) fuel
    m w b o p v,
  m !! b = Some (ints 8 o) ->
  call sc ext fuel c_Utils_serialize32BE [at8 b p; VInt U32 v] m w
  = let! o' := Utils_serialize32BE o p v in Ok (VUndef, <[b := ints 8 o']> m, w).
Proof. exact @ref_serialize32BE. Qed.
Print Assumptions C84_serialize32BE.
Example C84_serialize32BE_ex :
  call true no_ext 100 c_Utils_serialize32BE [at8 1 1; VInt U32 4275878552] [ints 8 [9]; ints 8 [1;2;3;4;5;6]] tt
  = Ok
    (VUndef, [[CI 8 9]; [CI 8 1; CI 8 254; CI 8 220; CI 8 186; CI 8 152; CI 8 6]],
    ()) /\
  call true no_ext 100 c_Utils_serialize32BE [at8 1 6; VInt U32 4275878552] [ints 8 [9]; ints 8 [1;2;3;4;5;6]] tt
  = UB OutOfBounds.
Proof. repeat split; vm_compute; reflexivity. Qed.

Theorem C84_serialize16LE : forall (W : Type) sc
    (ext : Z -> list val -> mem -> W -> outcome (val * mem * W)) fuel
    m w b o p v,
  m !! b = Some (ints 8 o) ->
  call sc ext fuel c_Utils_serialize16LE [at8 b p; VInt U16 v] m w
  = let! o' := Utils_serialize16LE o p v in Ok (VUndef, <[b := ints 8 o']> m, w).
Proof. exact @ref_serialize16LE. Qed.
Print Assumptions C84_serialize16LE.
Example C84_serialize16LE_ex :
  call true no_ext 100 c_Utils_serialize16LE [at8 1 1; VInt U16 41394] [ints 8 [9]; ints 8 [1;2;3;4;5;6]] tt
  = Ok (VUndef, [[CI 8 9]; [CI 8 1; CI 8 178; CI 8 161; CI 8 4; CI 8 5; CI 8 6]], ()) /\
  call true no_ext 100 c_Utils_serialize16LE [at8 1 6; VInt U16 41394] [ints 8 [9]; ints 8 [1;2;3;4;5;6]] tt
  = UB OutOfBounds.
Proof. repeat split; vm_compute; reflexivity. Qed.

Theorem C84_serialize24LE : forall (W : Type) sc
    (ext : Z -> list val -> mem -> W -> outcome (val * mem * W)) fuel
    m w b o p v,
  m !! b = Some (ints 8 o) ->
  call sc ext fuel c_Utils_serialize24LE [at8 b p; VInt U32 v] m w
  = let! o' := Utils_serialize24LE o p v in Ok (VUndef, <[b := ints 8 o']> m, w).
Proof. exact @ref_serialize24LE. Qed.
Print Assumptions C84_serialize24LE.
Example C84_serialize24LE_ex :
  call true no_ext 100 c_Utils_serialize24LE [at8 1 1; VInt U32 3808044] [ints 8 [9]; ints 8 [1;2;3;4;5;6]] tt
  = Ok (VUndef, [[CI 8 9]; [CI 8 1; CI 8 44; CI 8 27; CI 8 58; CI 8 5; CI 8 6]], ()) /\
  call true no_ext 100 c_Utils_serialize24LE [at8 1 6; VInt U32 3808044] [ints 8 [9]; ints 8 [1;2;3;4;5;6]] tt
  = UB OutOfBounds.
Proof. repeat split; vm_compute; reflexivity. Qed.

Theorem C84_serialize32LE : forall (W : Type) sc
    (ext : Z -> list val -> mem -> W -> outcome (val * mem * W)) fuel
    m w b o p v,
  m !! b = Some (ints 8 o) ->
  call sc ext fuel c_Utils_serialize32LE [at8 b p; VInt U32 v] m w
  = let! o' := Utils_serialize32LE o p v in Ok (VUndef, <[b := ints 8 o']> m, w).
Proof. exact @ref_serialize32LE. Qed.
Print Assumptions C84_serialize32LE.
Example C84_serialize32LE_ex :
  call true no_ext 100 c_Utils_serialize32LE [at8 1 1; VInt U32 4275878552] [ints 8 [9]; ints 8 [1;2;3;4;5;6]] tt
  = Ok
    (VUndef, [[CI 8 9]; [CI 8 1; CI 8 152; CI 8 186; CI 8 220; CI 8 254; CI 8 6]],
    ()) /\
  call true no_ext 100 c_Utils_serialize32LE [at8 1 6; VInt U32 4275878552] [ints 8 [9]; ints 8 [1;2;3;4;5;6]] tt
  = UB OutOfBounds.
Proof. repeat split; vm_compute; reflexivity. Qed.

Theorem C84_deserialize8 : forall (W : Type) sc
    (ext : Z -> list val -> mem -> W -> outcome (val * mem * W)) fuel
    m w b o p,
  m !! b = Some (ints 8 o) ->
  call sc ext fuel c_Utils_deserialize8 [at8 b p] m w
  = let! v := Utils_deserialize8 o p in Ok (VInt U8 v, m, w).
Proof. exact @ref_deserialize8. Qed.
Print Assumptions C84_deserialize8.
Example C84_deserialize8_ex :
  call true no_ext 100 c_Utils_deserialize8 [at8 0 1] [ints 8 [1;200;3;4;250;6]] tt
  = Ok (VInt U8 200, [[CI 8 1; CI 8 200; CI 8 3; CI 8 4; CI 8 250; CI 8 6]], ()) /\
  call true no_ext 100 c_Utils_deserialize8 [at8 0 6] [ints 8 [1;200;3;4;250;6]] tt
  = UB OutOfBounds.
Proof. repeat split; vm_compute; reflexivity. Qed.

Theorem C84_deserialize16BE : forall (W : Type) sc
    (ext : Z -> list val -> mem -> W -> outcome (val * mem * W)) fuel
    m w b o p,
  m !! b = Some (ints 8 o) -> bytes o ->
  call sc ext fuel c_Utils_deserialize16BE [at8 b p] m w
  = let! v := Utils_deserialize16BE o p in Ok (VInt U16 v, m, w).
Proof. exact @ref_deserialize16BE. Qed.
Print Assumptions C84_deserialize16BE.
Example C84_deserialize16BE_ex :
  call true no_ext 100 c_Utils_deserialize16BE [at8 0 1] [ints 8 [1;200;3;4;250;6]] tt
  = Ok (VInt U16 51203, [[CI 8 1; CI 8 200; CI 8 3; CI 8 4; CI 8 250; CI 8 6]], ()) /\
  call true no_ext 100 c_Utils_deserialize16BE [at8 0 6] [ints 8 [1;200;3;4;250;6]] tt
  = UB OutOfBounds.
Proof. repeat split; vm_compute; reflexivity. Qed.

Theorem C84_deserialize24BE : forall (W : Type) sc
    (ext : Z -> list val -> mem -> W -> outcome (val * mem * W)) fuel
    m w b o p,
  m !! b = Some (ints 8 o) -> bytes o ->
  call sc ext fuel c_Utils_deserialize24BE [at8 b p] m w
  = let! v := Utils_deserialize24BE o p in Ok (VInt U32 v, m, w).
Proof. exact @ref_deserialize24BE. Qed.
Print Assumptions C84_deserialize24BE.
Example C84_deserialize24BE_ex :
  call true no_ext 100 c_Utils_deserialize24BE [at8 0 1] [ints 8 [1;200;3;4;250;6]] tt
  = Ok (VInt U32 13107972, [[CI 8 1; CI 8 200; CI 8 3; CI 8 4; CI 8 250; CI 8 6]], ()) /\
  call true no_ext 100 c_Utils_deserialize24BE [at8 0 6] [ints 8 [1;200;3;4;250;6]] tt
  = UB OutOfBounds.
Proof. repeat split; vm_compute; reflexivity. Qed.

Theorem C84_deserialize32BE : forall (W : Type) sc
    (ext : Z -> list val -> mem -> W -> outcome (val * mem * W)) fuel
    m w b o p,
  m !! b = Some (ints 8 o) -> bytes o ->
  call sc ext fuel c_Utils_deserialize32BE [at8 b p] m w
  = let! v := Utils_deserialize32BE o p in Ok (VInt U32 v, m, w).
Proof. exact @ref_deserialize32BE. Qed.
Print Assumptions C84_deserialize32BE.
Example C84_deserialize32BE_ex :
  call true no_ext 100 c_Utils_deserialize32BE [at8 0 1] [ints 8 [1;200;3;4;250;6]] tt
  = Ok
    (VInt U32 3355641082, [[CI 8 1; CI 8 200; CI 8 3; CI 8 4; CI 8 250; CI 8 6]], ()) /\
  call true no_ext 100 c_Utils_deserialize32BE [at8 0 6] [ints 8 [1;200;3;4;250;6]] tt
  = UB OutOfBounds.
Proof. repeat split; vm_compute; reflexivity. Qed.

Theorem C84_deserialize16LE : forall (W : Type) sc
    (ext : Z -> list val -> mem -> W -> outcome (val * mem * W)) fuel
    m w b o p,
  m !! b = Some (ints 8 o) -> bytes o ->
  call sc ext fuel c_Utils_deserialize16LE [at8 b p] m w
  = let! v := Utils_deserialize16LE o p in Ok (VInt U16 v, m, w).
Proof. exact @ref_deserialize16LE. Qed.
Print Assumptions C84_deserialize16LE.
Example C84_deserialize16LE_ex :
  call true no_ext 100 c_Utils_deserialize16LE [at8 0 1] [ints 8 [1;200;3;4;250;6]] tt
  = Ok (VInt U16 968, [[CI 8 1; CI 8 200; CI 8 3; CI 8 4; CI 8 250; CI 8 6]], ()) /\
  call true no_ext 100 c_Utils_deserialize16LE [at8 0 6] [ints 8 [1;200;3;4;250;6]] tt
  = UB OutOfBounds.
Proof. repeat split; vm_compute; reflexivity. Qed.

Theorem C84_deserialize24LE : forall (W : Type) sc
    (ext : Z -> list val -> mem -> W -> outcome (val * mem * W)) fuel
    m w b o p,
  m !! b = Some (ints 8 o) -> bytes o ->
  call sc ext fuel c_Utils_deserialize24LE [at8 b p] m w
  = let! v := Utils_deserialize24LE o p in Ok (VInt U32 v, m, w).
Proof. exact @ref_deserialize24LE. Qed.
Print Assumptions C84_deserialize24LE.
Example C84_deserialize24LE_ex :
  call true no_ext 100 c_Utils_deserialize24LE [at8 0 1] [ints 8 [1;200;3;4;250;6]] tt
  = Ok (VInt U32 263112, [[CI 8 1; CI 8 200; CI 8 3; CI 8 4; CI 8 250; CI 8 6]], ()) /\
  call true no_ext 100 c_Utils_deserialize24LE [at8 0 6] [ints 8 [1;200;3;4;250;6]] tt
  = UB OutOfBounds.
Proof. repeat split; vm_compute; reflexivity. Qed.

Theorem C84_deserialize32LE : forall (W : Type) sc
    (ext : Z -> list val -> mem -> W -> outcome (val * mem * W)) fuel
    m w b o p,
  m !! b = Some (ints 8 o) -> bytes o ->
  call sc ext fuel c_Utils_deserialize32LE [at8 b p] m w
  = let! v := Utils_deserialize32LE o p in Ok (VInt U32 v, m, w).
Proof. exact @ref_deserialize32LE. Qed.
Print Assumptions C84_deserialize32LE.
Example C84_deserialize32LE_ex :
  call true no_ext 100 c_Utils_deserialize32LE [at8 0 1] [ints 8 [1;200;3;4;250;6]] tt
  = Ok
    (VInt U32 4194567112, [[CI 8 1; CI 8 200; CI 8 3; CI 8 4; CI 8 250; CI 8 6]], ()) /\
  call true no_ext 100 c_Utils_deserialize32LE [at8 0 6] [ints 8 [1;200;3;4;250;6]] tt
  = UB OutOfBounds.
Proof. repeat split; vm_compute; reflexivity. Qed.

Theorem C84_isUpperChar : forall (W : Type) sc
    (ext : Z -> list val -> mem -> W -> outcome (val * mem * W)) fuel
    m w c,
  is_byte c ->
  call sc ext fuel c_Utils_isUpperChar [VInt IChar (char_val sc c)] m w
  = Ok (VInt IBool (b2z (Utils_isUpperChar c)), m, w).
Proof. exact @ref_isUpperChar. Qed.
Print Assumptions C84_isUpperChar.
Example C84_isUpperChar_ex :
  call true no_ext 100 c_Utils_isUpperChar [VInt IChar 81] [] tt
  = Ok (VInt IBool 1, [], ()) /\
  call true no_ext 100 c_Utils_isUpperChar [VInt IChar 113] [] tt
  = Ok (VInt IBool 0, [], ()) /\
  call true no_ext 100 c_Utils_isUpperChar [VInt IChar (-31)] [] tt
  = Ok (VInt IBool 0, [], ()).
Proof. repeat split; vm_compute; reflexivity. Qed.

Theorem C84_isLowerChar : forall (W : Type) sc
    (ext : Z -> list val -> mem -> W -> outcome (val * mem * W)) fuel
    m w c,
  is_byte c ->
  call sc ext fuel c_Utils_isLowerChar [VInt IChar (char_val sc c)] m w
  = Ok (VInt IBool (b2z (Utils_isLowerChar c)), m, w).
Proof. exact @ref_isLowerChar. Qed.
Print Assumptions C84_isLowerChar.
Example C84_isLowerChar_ex :
  call true no_ext 100 c_Utils_isLowerChar [VInt IChar 81] [] tt
  = Ok (VInt IBool 0, [], ()) /\
  call true no_ext 100 c_Utils_isLowerChar [VInt IChar 113] [] tt
  = Ok (VInt IBool 1, [], ()) /\
  call true no_ext 100 c_Utils_isLowerChar [VInt IChar (-31)] [] tt
  = Ok (VInt IBool 0, [], ()).
Proof. repeat split; vm_compute; reflexivity. Qed.

Theorem C84_isAlpha : forall (W : Type) sc
    (ext : Z -> list val -> mem -> W -> outcome (val * mem * W)) fuel
    m w c,
  is_byte c ->
  call sc ext fuel c_Utils_isAlpha [VInt IChar (char_val sc c)] m w
  = Ok (VInt IBool (b2z (Utils_isAlpha c)), m, w).
Proof. exact @ref_isAlpha. Qed.
Print Assumptions C84_isAlpha.
Example C84_isAlpha_ex :
  call true no_ext 100 c_Utils_isAlpha [VInt IChar 81] [] tt
  = Ok (VInt IBool 1, [], ()) /\
  call true no_ext 100 c_Utils_isAlpha [VInt IChar 113] [] tt
  = Ok (VInt IBool 1, [], ()) /\
  call true no_ext 100 c_Utils_isAlpha [VInt IChar (-31)] [] tt
  = Ok (VInt IBool 0, [], ()).
Proof. repeat split; vm_compute; reflexivity. Qed.

Theorem C84_bitSet : forall (W : Type) sc
    (ext : Z -> list val -> mem -> W -> outcome (val * mem * W)) fuel
    m w b o p x d n,
  m !! b = Some (ints 8 o) -> load o p = Ok (b2z x) -> is_byte n ->
  call sc ext fuel c_BitManipulation_bitSet [VInt U32 d; VInt U8 n; VPtr (TInt IBool) (BObj b) p] m w
  = let! '(r, x') := BitManipulation_bitSet d n x in
    let! o' := store o p (b2z x') in Ok (VInt IBool (b2z r), <[b := ints 8 o']> m, w).
Proof. exact @ref_bitSet. Qed.
Print Assumptions C84_bitSet.
Example C84_bitSet_ex :
  call true no_ext 100 c_BitManipulation_bitSet [VInt U32 5; VInt U8 2; VPtr (TInt IBool) (BObj 0) 0] [ints 8 [0]] tt
  = Ok (VInt IBool 1, [[CI 8 1]], ()) /\
  call true no_ext 100 c_BitManipulation_bitSet [VInt U32 5; VInt U8 1; VPtr (TInt IBool) (BObj 0) 0] [ints 8 [1]] tt
  = Ok (VInt IBool 1, [[CI 8 0]], ()) /\
  call true no_ext 100 c_BitManipulation_bitSet [VInt U32 4294967295; VInt U8 31; VPtr (TInt IBool) (BObj 0) 0] [ints 8 [0]] tt
  = Ok (VInt IBool 1, [[CI 8 1]], ()) /\
  call true no_ext 100 c_BitManipulation_bitSet [VInt U32 5; VInt U8 32; VPtr (TInt IBool) (BObj 0) 0] [ints 8 [0]] tt
  = Ok (VInt IBool 0, [[CI 8 0]], ()).
Proof. repeat split; vm_compute; reflexivity. Qed.

Theorem C84_setBit : forall (W : Type) sc
    (ext : Z -> list val -> mem -> W -> outcome (val * mem * W)) fuel
    m w b o p x d n,
  m !! b = Some (ints 32 o) -> load o p = Ok x -> is_byte n ->
  call sc ext fuel c_BitManipulation_setBit [VInt U32 d; VInt U8 n; VPtr (TInt U32) (BObj b) p] m w
  = let! '(r, x') := BitManipulation_setBit d n x in
    let! o' := store o p x' in Ok (VInt IBool (b2z r), <[b := ints 32 o']> m, w).
Proof. exact @ref_setBit. Qed.
Print Assumptions C84_setBit.
Example C84_setBit_ex :
  call true no_ext 100 c_BitManipulation_setBit [VInt U32 5; VInt U8 1; VPtr (TInt U32) (BObj 0) 0] [ints 32 [77]] tt
  = Ok (VInt IBool 1, [[CI 32 7]], ()) /\
  call true no_ext 100 c_BitManipulation_setBit [VInt U32 5; VInt U8 2; VPtr (TInt U32) (BObj 0) 0] [ints 32 [77]] tt
  = Ok (VInt IBool 1, [[CI 32 5]], ()) /\
  call true no_ext 100 c_BitManipulation_setBit [VInt U32 5; VInt U8 31; VPtr (TInt U32) (BObj 0) 0] [ints 32 [77]] tt
  = Ok (VInt IBool 1, [[CI 32 2147483653]], ()) /\
  call true no_ext 100 c_BitManipulation_setBit [VInt U32 5; VInt U8 32; VPtr (TInt U32) (BObj 0) 0] [ints 32 [77]] tt
  = Ok (VInt IBool 0, [[CI 32 77]], ()).
Proof. repeat split; vm_compute; reflexivity. Qed.

Theorem C84_clearBit : forall (W : Type) sc
    (ext : Z -> list val -> mem -> W -> outcome (val * mem * W)) fuel
    m w b o p x d n,
  m !! b = Some (ints 32 o) -> load o p = Ok x -> is_byte n ->
  call sc ext fuel c_BitManipulation_clearBit [VInt U32 d; VInt U8 n; VPtr (TInt U32) (BObj b) p] m w
  = let! '(r, x') := BitManipulation_clearBit d n x in
    let! o' := store o p x' in Ok (VInt IBool (b2z r), <[b := ints 32 o']> m, w).
Proof. exact @ref_clearBit. Qed.
Print Assumptions C84_clearBit.
Example C84_clearBit_ex :
  call true no_ext 100 c_BitManipulation_clearBit [VInt U32 5; VInt U8 1; VPtr (TInt U32) (BObj 0) 0] [ints 32 [77]] tt
  = Ok (VInt IBool 1, [[CI 32 5]], ()) /\
  call true no_ext 100 c_BitManipulation_clearBit [VInt U32 5; VInt U8 2; VPtr (TInt U32) (BObj 0) 0] [ints 32 [77]] tt
  = Ok (VInt IBool 1, [[CI 32 1]], ()) /\
  call true no_ext 100 c_BitManipulation_clearBit [VInt U32 5; VInt U8 31; VPtr (TInt U32) (BObj 0) 0] [ints 32 [77]] tt
  = Ok (VInt IBool 1, [[CI 32 5]], ()) /\
  call true no_ext 100 c_BitManipulation_clearBit [VInt U32 5; VInt U8 32; VPtr (TInt U32) (BObj 0) 0] [ints 32 [77]] tt
  = Ok (VInt IBool 0, [[CI 32 77]], ()).
Proof. repeat split; vm_compute; reflexivity. Qed.

Theorem C84_toggleBit : forall (W : Type) sc
    (ext : Z -> list val -> mem -> W -> outcome (val * mem * W)) fuel
    m w b o p x d n,
  m !! b = Some (ints 32 o) -> load o p = Ok x -> is_byte n ->
  call sc ext fuel c_BitManipulation_toggleBit [VInt U32 d; VInt U8 n; VPtr (TInt U32) (BObj b) p] m w
  = let! '(r, x') := BitManipulation_toggleBit d n x in
    let! o' := store o p x' in Ok (VInt IBool (b2z r), <[b := ints 32 o']> m, w).
Proof. exact @ref_toggleBit. Qed.
Print Assumptions C84_toggleBit.
Example C84_toggleBit_ex :
  call true no_ext 100 c_BitManipulation_toggleBit [VInt U32 5; VInt U8 1; VPtr (TInt U32) (BObj 0) 0] [ints 32 [77]] tt
  = Ok (VInt IBool 1, [[CI 32 7]], ()) /\
  call true no_ext 100 c_BitManipulation_toggleBit [VInt U32 5; VInt U8 2; VPtr (TInt U32) (BObj 0) 0] [ints 32 [77]] tt
  = Ok (VInt IBool 1, [[CI 32 1]], ()) /\
  call true no_ext 100 c_BitManipulation_toggleBit [VInt U32 5; VInt U8 31; VPtr (TInt U32) (BObj 0) 0] [ints 32 [77]] tt
  = Ok (VInt IBool 1, [[CI 32 2147483653]], ()) /\
  call true no_ext 100 c_BitManipulation_toggleBit [VInt U32 5; VInt U8 32; VPtr (TInt U32) (BObj 0) 0] [ints 32 [77]] tt
  = Ok (VInt IBool 0, [[CI 32 77]], ()).
Proof. repeat split; vm_compute; reflexivity. Qed.

Theorem C84_rotl32 : forall (W : Type) sc
    (ext : Z -> list val -> mem -> W -> outcome (val * mem * W)) fuel
    m w d n,
  call sc ext fuel c_BitManipulation_rotl32 [VInt U32 d; VInt U32 n] m w
  = let! z := BitManipulation_rotl32 d n in Ok (VInt U32 z, m, w).
Proof. exact @ref_rotl32. Qed.
Print Assumptions C84_rotl32.
Example C84_rotl32_ex :
  call true no_ext 100 c_BitManipulation_rotl32 [VInt U32 2147483653; VInt U32 3] [] tt
  = Ok (VInt U32 44, [], ()) /\
  call true no_ext 100 c_BitManipulation_rotl32 [VInt U32 2147483653; VInt U32 31] [] tt
  = Ok (VInt U32 3221225474, [], ()) /\
  call true no_ext 100 c_BitManipulation_rotl32 [VInt U32 2147483653; VInt U32 0] [] tt
  = UB BadShift.
Proof. repeat split; vm_compute; reflexivity. Qed.

(** source and destination in different objects, at any offsets *)
Theorem C84_serializeBlobBE : forall (W : Type) sc
    (ext : Z -> list val -> mem -> W -> outcome (val * mem * W)) fuel
    m w b o p b' o' p' n,
  m !! b = Some (ints 8 o) -> m !! b' = Some (ints 8 o') -> b <> b' ->
  is_u32 n -> (Z.to_nat n < fuel)%nat ->
  call sc ext fuel c_Utils_serializeBlobBE [at8 b p; at8 b' p'; VInt U32 n] m w
  = let! o := Utils_serializeBlobBE o p o' p' n in Ok (VUndef, <[b := ints 8 o]> m, w).
Proof. exact @ref_serializeBlobBE. Qed.
Print Assumptions C84_serializeBlobBE.
Example C84_serializeBlobBE_ex :
  call true no_ext 100 c_Utils_serializeBlobBE [at8 0 1; at8 1 0; VInt U32 3] [ints 8 [1;2;3;4]; ints 8 [5;6;7;8]] tt
  = Ok
    (VUndef, [[CI 8 1; CI 8 5; CI 8 6; CI 8 7]; [CI 8 5; CI 8 6; CI 8 7; CI 8 8]],
    ()) /\
  call true no_ext 100 c_Utils_serializeBlobBE [at8 0 1; at8 1 0; VInt U32 4] [ints 8 [1;2;3;4]; ints 8 [5;6;7;8]] tt
  = UB OutOfBounds.
Proof. repeat split; vm_compute; reflexivity. Qed.

Theorem C84_deserializeBlobBE : forall (W : Type) sc
    (ext : Z -> list val -> mem -> W -> outcome (val * mem * W)) fuel
    m w b o p b' o' p' n,
  m !! b = Some (ints 8 o) -> m !! b' = Some (ints 8 o') -> b <> b' ->
  is_u32 n -> (Z.to_nat n < fuel)%nat ->
  call sc ext fuel c_Utils_deserializeBlobBE [at8 b p; at8 b' p'; VInt U32 n] m w
  = let! o' := Utils_deserializeBlobBE o p o' p' n in Ok (VUndef, <[b' := ints 8 o']> m, w).
Proof. exact @ref_deserializeBlobBE. Qed.
Print Assumptions C84_deserializeBlobBE.
Example C84_deserializeBlobBE_ex :
  call true no_ext 100 c_Utils_deserializeBlobBE [at8 0 1; at8 1 0; VInt U32 3] [ints 8 [1;2;3;4]; ints 8 [5;6;7;8]] tt
  = Ok
    (VUndef, [[CI 8 1; CI 8 2; CI 8 3; CI 8 4]; [CI 8 2; CI 8 3; CI 8 4; CI 8 8]],
    ()) /\
  call true no_ext 100 c_Utils_deserializeBlobBE [at8 0 1; at8 1 0; VInt U32 4] [ints 8 [1;2;3;4]; ints 8 [5;6;7;8]] tt
  = UB OutOfBounds.
Proof. repeat split; vm_compute; reflexivity. Qed.

Theorem C84_serializeBlobLE : forall (W : Type) sc
    (ext : Z -> list val -> mem -> W -> outcome (val * mem * W)) fuel
    m w b o p b' o' p' n,
  m !! b = Some (ints 8 o) -> m !! b' = Some (ints 8 o') -> b <> b' ->
  is_u32 n -> (Z.to_nat n < fuel)%nat ->
  call sc ext fuel c_Utils_serializeBlobLE [at8 b p; at8 b' p'; VInt U32 n] m w
  = let! o := Utils_serializeBlobLE o p o' p' n in Ok (VUndef, <[b := ints 8 o]> m, w).
Proof. exact @ref_serializeBlobLE. Qed.
Print Assumptions C84_serializeBlobLE.
Example C84_serializeBlobLE_ex :
  call true no_ext 100 c_Utils_serializeBlobLE [at8 0 1; at8 1 0; VInt U32 3] [ints 8 [1;2;3;4]; ints 8 [5;6;7;8]] tt
  = Ok
    (VUndef, [[CI 8 1; CI 8 7; CI 8 6; CI 8 5]; [CI 8 5; CI 8 6; CI 8 7; CI 8 8]],
    ()) /\
  call true no_ext 100 c_Utils_serializeBlobLE [at8 0 1; at8 1 0; VInt U32 4] [ints 8 [1;2;3;4]; ints 8 [5;6;7;8]] tt
  = UB OutOfBounds.
Proof. repeat split; vm_compute; reflexivity. Qed.

Theorem C84_deserializeBlobLE : forall (W : Type) sc
    (ext : Z -> list val -> mem -> W -> outcome (val * mem * W)) fuel
    m w b o p b' o' p' n,
  m !! b = Some (ints 8 o) -> m !! b' = Some (ints 8 o') -> b <> b' ->
  is_u32 n -> (Z.to_nat n < fuel)%nat ->
  call sc ext fuel c_Utils_deserializeBlobLE [at8 b p; at8 b' p'; VInt U32 n] m w
  = let! o' := Utils_deserializeBlobLE o p o' p' n in Ok (VUndef, <[b' := ints 8 o']> m, w).
Proof. exact @ref_deserializeBlobLE. Qed.
Print Assumptions C84_deserializeBlobLE.
Example C84_deserializeBlobLE_ex :
  call true no_ext 100 c_Utils_deserializeBlobLE [at8 0 1; at8 1 0; VInt U32 3] [ints 8 [1;2;3;4]; ints 8 [5;6;7;8]] tt
  = Ok
    (VUndef, [[CI 8 1; CI 8 2; CI 8 3; CI 8 4]; [CI 8 4; CI 8 3; CI 8 2; CI 8 8]],
    ()) /\
  call true no_ext 100 c_Utils_deserializeBlobLE [at8 0 1; at8 1 0; VInt U32 4] [ints 8 [1;2;3;4]; ints 8 [5;6;7;8]] tt
  = UB OutOfBounds.
Proof. repeat split; vm_compute; reflexivity. Qed.

Theorem C84_reflect : forall (W : Type) sc
    (ext : Z -> list val -> mem -> W -> outcome (val * mem * W)) fuel
    m w d n,
  is_byte n -> (Z.to_nat n < fuel)%nat ->
  call sc ext fuel c_BitManipulation_reflect [VInt U32 d; VInt U8 n] m w
  = let! z := BitManipulation_reflect d n in Ok (VInt U32 z, m, w).
Proof. exact @ref_reflect. Qed.
Print Assumptions C84_reflect.
Example C84_reflect_ex :
  call true no_ext 100 c_BitManipulation_reflect [VInt U32 13; VInt U8 8] [] tt
  = Ok (VInt U32 176, [], ()) /\
  call true no_ext 100 c_BitManipulation_reflect [VInt U32 13; VInt U8 32] [] tt
  = Ok (VInt U32 2952790016, [], ()) /\
  call true no_ext 100 c_BitManipulation_reflect [VInt U32 13; VInt U8 40] [] tt
  = Ok (VInt U32 176, [], ()).
Proof. repeat split; vm_compute; reflexivity. Qed.

(** both elements in one object *)
Theorem C84_swapElements : forall (W : Type) sc
    (ext : Z -> list val -> mem -> W -> outcome (val * mem * W)) fuel
    m w b o p q n,
  m !! b = Some (ints 8 o) -> is_u32 n -> (Z.to_nat n < fuel)%nat ->
  call sc ext fuel c_Utils_swapElements [at8 b p; at8 b q; VInt U32 n] m w
  = let! o := Utils_swapElements o p q n in Ok (VUndef, <[b := ints 8 o]> m, w).
Proof. exact @ref_swapElements. Qed.
Print Assumptions C84_swapElements.
Example C84_swapElements_ex :
  call true no_ext 100 c_Utils_swapElements [at8 0 0; at8 0 2; VInt U32 2] [ints 8 [1;2;3;4]] tt
  = Ok (VUndef, [[CI 8 3; CI 8 4; CI 8 1; CI 8 2]], ()) /\
  call true no_ext 100 c_Utils_swapElements [at8 0 0; at8 0 3; VInt U32 2] [ints 8 [1;2;3;4]] tt
  = UB OutOfBounds.
Proof. repeat split; vm_compute; reflexivity. Qed.

Theorem C84_quickUint32Pow10 : forall (W : Type) sc
    (ext : Z -> list val -> mem -> W -> outcome (val * mem * W)) fuel
    m w b o p e x,
  m !! b = Some (ints 32 o) -> load o p = Ok x -> is_byte e ->
  call sc ext fuel c_Utils_quickUint32Pow10 [VInt U8 e; VPtr (TInt U32) (BObj b) p] m w
  = let! '(r, x) := Utils_quickUint32Pow10 e x in
    let! o := store o p x in Ok (VInt IBool (b2z r), <[b := ints 32 o]> m, w).
Proof. exact @ref_quickUint32Pow10. Qed.
Print Assumptions C84_quickUint32Pow10.
Example C84_quickUint32Pow10_ex :
  call true no_ext 100 c_Utils_quickUint32Pow10 [VInt U8 9; VPtr (TInt U32) (BObj 0) 0] [ints 32 [7]] tt
  = Ok (VInt IBool 1, [[CI 32 1000000000]], ()) /\
  call true no_ext 100 c_Utils_quickUint32Pow10 [VInt U8 10; VPtr (TInt U32) (BObj 0) 0] [ints 32 [7]] tt
  = Ok (VInt IBool 0, [[CI 32 7]], ()).
Proof. repeat split; vm_compute; reflexivity. Qed.

Theorem C84_stringToUint32 : forall (W : Type) sc
    (ext : Z -> list val -> mem -> W -> outcome (val * mem * W)) fuel
    m w b o b' o' p' n,
  m !! b = Some (ints 8 o) -> m !! b' = Some (ints 32 o') -> 0 <= p' < len o' ->
  bytes o -> is_byte n -> (Z.to_nat n < fuel)%nat ->
  call sc ext fuel c_Utils_stringToUint32
    [VPtr (TInt IChar) (BObj b) 0; VInt U8 n; VPtr (TInt U32) (BObj b') p'] m w
  = let! '(r, x) := Utils_stringToUint32 sc o n in
    Ok (VInt IBool (b2z r), <[b' := ints 32 (<[Z.to_nat p' := x]> o')]> m, w).
Proof. exact @ref_stringToUint32. Qed.
Print Assumptions C84_stringToUint32.
Example C84_stringToUint32_ex :
  call true no_ext 100 c_Utils_stringToUint32 [VPtr (TInt IChar) (BObj 0) 0; VInt U8 10; VPtr (TInt U32) (BObj 1) 0] [ints 8 [52;50;57;52;57;54;55;50;57;53]; ints 32 [7]] tt
  = Ok
    (VInt IBool 1,
    [[CI 8 52; CI 8 50; CI 8 57; CI 8 52; CI 8 57; CI 8 54; 
    CI 8 55; CI 8 50; CI 8 57; CI 8 53]; [CI 32 4294967295]], ()) /\
  call true no_ext 100 c_Utils_stringToUint32 [VPtr (TInt IChar) (BObj 0) 0; VInt U8 3; VPtr (TInt U32) (BObj 1) 0] [ints 8 [52;50;57;52;57;54;55;50;57;53]; ints 32 [7]] tt
  = Ok
    (VInt IBool 1,
    [[CI 8 52; CI 8 50; CI 8 57; CI 8 52; CI 8 57; CI 8 54; 
    CI 8 55; CI 8 50; CI 8 57; CI 8 53]; [CI 32 429]], ()) /\
  call true no_ext 100 c_Utils_stringToUint32 [VPtr (TInt IChar) (BObj 0) 0; VInt U8 11; VPtr (TInt U32) (BObj 1) 0] [ints 8 [52;50;57;52;57;54;55;50;57;53]; ints 32 [7]] tt
  = Ok
    (VInt IBool 0,
    [[CI 8 52; CI 8 50; CI 8 57; CI 8 52; CI 8 57; CI 8 54; 
    CI 8 55; CI 8 50; CI 8 57; CI 8 53]; [CI 32 0]], ()) /\
  call true no_ext 100 c_Utils_stringToUint32 [VPtr (TInt IChar) (BObj 0) 0; VInt U8 2; VPtr (TInt U32) (BObj 1) 0] [ints 8 [49; 47]; ints 32 [7]] tt
  = Ok (VInt IBool 0, [[CI 8 49; CI 8 47]; [CI 32 10]], ()) /\
  call true no_ext 100 c_Utils_stringToUint32 [VPtr (TInt IChar) (BObj 0) 0; VInt U8 2; VPtr (TInt U32) (BObj 1) 0] [ints 8 [49; 58]; ints 32 [7]] tt
  = Ok (VInt IBool 0, [[CI 8 49; CI 8 58]; [CI 32 10]], ()) /\
  call true no_ext 100 c_Utils_stringToUint32 [VPtr (TInt IChar) (BObj 0) 0; VInt U8 10; VPtr (TInt U32) (BObj 1) 0] [ints 8 [49; 50; 51; 52; 53; 54; 55; 56; 48; 57]; ints 32 [7]] tt
  = Ok
    (VInt IBool 1,
    [[CI 8 49; CI 8 50; CI 8 51; CI 8 52; CI 8 53; CI 8 54; 
    CI 8 55; CI 8 56; CI 8 48; CI 8 57]; [CI 32 1234567809]], ()) /\
  call true no_ext 100 c_Utils_stringToUint32 [VPtr (TInt IChar) (BObj 0) 0; VInt U8 10; VPtr (TInt U32) (BObj 1) 0] [ints 8 [57; 57; 57; 57; 57; 57; 57; 57; 57; 57]; ints 32 [7]] tt
  = Ok
    (VInt IBool 0,
    [[CI 8 57; CI 8 57; CI 8 57; CI 8 57; CI 8 57; CI 8 57; 
    CI 8 57; CI 8 57; CI 8 57; CI 8 57]; [CI 32 999999999]], ()) /\
  call true no_ext 100 c_Utils_stringToUint32 [VPtr (TInt IChar) (BObj 0) 0; VInt U8 10; VPtr (TInt U32) (BObj 1) 0] [ints 8 [52; 50; 57; 52; 57; 54; 55; 50; 57; 54]; ints 32 [7]] tt
  = Ok
    (VInt IBool 0,
    [[CI 8 52; CI 8 50; CI 8 57; CI 8 52; CI 8 57; CI 8 54; 
    CI 8 55; CI 8 50; CI 8 57; CI 8 54]; [CI 32 429496729]], ()) /\
  call true no_ext 100 c_Utils_stringToUint32 [VPtr (TInt IChar) (BObj 0) 0; VInt U8 10; VPtr (TInt U32) (BObj 1) 0] [ints 8 [49; 50; 51; 52; 53; 54; 55; 56; 57; 120]; ints 32 [7]] tt
  = Ok
    (VInt IBool 0,
    [[CI 8 49; CI 8 50; CI 8 51; CI 8 52; CI 8 53; CI 8 54; 
    CI 8 55; CI 8 56; CI 8 57; CI 8 120]; [CI 32 123456789]], ()) /\
  call true no_ext 100 c_Utils_stringToUint32 [VPtr (TInt IChar) (BObj 0) 0; VInt U8 10; VPtr (TInt U32) (BObj 1) 0] [ints 8 [49; 50; 51; 52; 53; 54; 55; 56; 57; 47]; ints 32 [7]] tt
  = Ok
    (VInt IBool 0,
    [[CI 8 49; CI 8 50; CI 8 51; CI 8 52; CI 8 53; CI 8 54; 
    CI 8 55; CI 8 56; CI 8 57; CI 8 47]; [CI 32 123456789]], ()).
Proof. repeat split; vm_compute; reflexivity. Qed.
