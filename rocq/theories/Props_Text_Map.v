(** * C92: the hand-written model of map.c against the C text

    [c_F] is the function [F] as produced from its C text by [tools/c2coq.py]; [call] runs it
    (CLang.v).  The structure is object [s], its keys are object [kb] and its values are object
    [vb]; the caller's key and value are the objects [k] and [v]; [opt_ptr None] is the pointer
    [NULL]. *)
From Verif Require Import CSem Lib CLang C_Containers Model_Containers Drive_ContText
  Refine Refine_Map Refine_MapInit Refine_MapOps.

Local Notation map_of q := [map_cells q 1 2; ints 8 (m_keys q); ints 8 (m_values q)].

Theorem C92_Map_GetIndex : forall (W : Type) sc
    (ext : Z -> list val -> mem -> W -> outcome (val * mem * W)) fuel
    m w s kb vb mp k key size,
  map_at m s kb vb mp -> map_s32 mp -> bytes_at m k key -> is_s32 size ->
  (Z.to_nat size < fuel)%nat ->
  call sc ext fuel c_Map_GetIndex [struct_ptr 6 s; byte_ptr k; VInt I32 size] m w
  = let! r := Map_GetIndex mp key size in Ok (VInt I32 r, m, w).
Proof. exact @ref_Map_GetIndex. Qed.
Print Assumptions C92_Map_GetIndex.
Example C92_Map_GetIndex_ex :
  call true no_ext 100 c_Map_GetIndex [struct_ptr 6 0; byte_ptr 3; VInt I32 2] (map_of (mkMap [1; 2; 3; 4; 0; 0] [10; 20; 0] 2 1 3 2) ++ [ints 8 [1; 2]; ints 8 []]) tt
  = Ok
    (VInt I32 0,
    [[CV (VPtr (TInt U8) (BObj 1) 0); CV (VPtr (TInt U8) (BObj 2) 0); 
    CI 32 2; CI 32 1; CI 32 3; CI 32 2];
    [CI 8 1; CI 8 2; CI 8 3; CI 8 4; CI 8 0; CI 8 0]; [
    CI 8 10; CI 8 20; CI 8 0]; [CI 8 1; CI 8 2]; []], ()) /\
  call true no_ext 100 c_Map_GetIndex [struct_ptr 6 0; byte_ptr 3; VInt I32 1] (map_of (mkMap [1; 2; 3; 4; 0; 0] [10; 20; 0] 2 1 3 2) ++ [ints 8 [3; 4]; ints 8 []]) tt
  = Ok
    (VInt I32 (-1),
    [[CV (VPtr (TInt U8) (BObj 1) 0); CV (VPtr (TInt U8) (BObj 2) 0); 
    CI 32 2; CI 32 1; CI 32 3; CI 32 2];
    [CI 8 1; CI 8 2; CI 8 3; CI 8 4; CI 8 0; CI 8 0]; [
    CI 8 10; CI 8 20; CI 8 0]; [CI 8 3; CI 8 4]; []], ()) /\
  call true no_ext 100 c_Map_GetIndex [struct_ptr 6 0; byte_ptr 3; VInt I32 2] (map_of (mkMap [1; 2; 3; 4; 0; 0] [10; 20; 0] 2 1 3 2) ++ [ints 8 [3; 4]; ints 8 []]) tt
  = Ok
    (VInt I32 1,
    [[CV (VPtr (TInt U8) (BObj 1) 0); CV (VPtr (TInt U8) (BObj 2) 0); 
    CI 32 2; CI 32 1; CI 32 3; CI 32 2];
    [CI 8 1; CI 8 2; CI 8 3; CI 8 4; CI 8 0; CI 8 0]; [
    CI 8 10; CI 8 20; CI 8 0]; [CI 8 3; CI 8 4]; []], ()) /\
  call true no_ext 100 c_Map_GetIndex [struct_ptr 6 0; byte_ptr 3; VInt I32 2] (map_of (mkMap [1; 2; 3; 4; 0; 0] [10; 20; 0] 2 1 3 2) ++ [ints 8 [2; 3]; ints 8 []]) tt
  = Ok
    (VInt I32 (-1),
    [[CV (VPtr (TInt U8) (BObj 1) 0); CV (VPtr (TInt U8) (BObj 2) 0); 
    CI 32 2; CI 32 1; CI 32 3; CI 32 2];
    [CI 8 1; CI 8 2; CI 8 3; CI 8 4; CI 8 0; CI 8 0]; [
    CI 8 10; CI 8 20; CI 8 0]; [CI 8 2; CI 8 3]; []], ()) /\
  call true no_ext 100 c_Map_GetIndex [struct_ptr 6 0; byte_ptr 3; VInt I32 2] (map_of (mkMap [1; 2; 3; 4; 0; 0] [10; 20; 0] 2 1 3 2) ++ [ints 8 [3]; ints 8 []]) tt
  = UB OutOfBounds.
Proof. repeat split; vm_compute; reflexivity. Qed.

Theorem C92_Map_init : forall (W : Type) sc
    (ext : Z -> list val -> mem -> W -> outcome (val * mem * W)) fuel
    m w s kb vb map old keys values key_size value_size max_map_size,
  opt_at map (fun _ => m !! s = Some old /\ map_shape old) ->
  opt_at keys (bytes_at m kb) -> opt_at values (bytes_at m vb) ->
  is_s32 key_size -> is_s32 value_size -> is_s32 max_map_size ->
  call sc ext fuel c_Map_init [opt_ptr map (struct_ptr 6 s); opt_ptr keys (byte_ptr kb);
                  opt_ptr values (byte_ptr vb); VInt I32 key_size; VInt I32 value_size;
                  VInt I32 max_map_size] m w
  = let! '(r, map) := Map_init map keys values key_size value_size max_map_size in
    Ok (VInt IBool (b2z r), if r then opt_put map (put_map s kb vb) m else m, w).
Proof. exact @ref_Map_init. Qed.
Print Assumptions C92_Map_init.
Example C92_Map_init_ex :
  call true no_ext 100 c_Map_init [struct_ptr 6 0; byte_ptr 1; byte_ptr 2; VInt I32 2; VInt I32 1; VInt I32 (-1)] ([replicate 6 (CV VUndef); ints 8 [1; 2]; ints 8 [5]]) tt
  = Ok
    (VInt IBool 1,
    [[CV (VPtr (TInt U8) (BObj 1) 0); CV (VPtr (TInt U8) (BObj 2) 0); 
    CI 32 2; CI 32 1; CI 32 4294967295; CI 32 0]; [CI 8 1; CI 8 2]; [
    CI 8 5]], ()) /\
  call true no_ext 100 c_Map_init [struct_ptr 6 0; byte_ptr 1; VNull; VInt I32 2; VInt I32 1; VInt I32 1] ([replicate 6 (CV VUndef); ints 8 [1; 2]; ints 8 [5]]) tt
  = Ok
    (VInt IBool 0,
    [[CV VUndef; CV VUndef; CV VUndef; CV VUndef; CV VUndef; CV VUndef];
    [CI 8 1; CI 8 2]; [CI 8 5]], ()) /\
  call true no_ext 100 c_Map_init [VNull; byte_ptr 1; byte_ptr 2; VInt I32 2; VInt I32 1; VInt I32 1] ([replicate 6 (CV VUndef); ints 8 [1; 2]; ints 8 [5]]) tt
  = UB NullDeref.
Proof. repeat split; vm_compute; reflexivity. Qed.

Theorem C92_Map_insert : forall (W : Type) sc
    (ext : Z -> list val -> mem -> W -> outcome (val * mem * W)) fuel
    m w s kb vb map k key v value,
  opt_at map (map_at m s kb vb) -> opt_at map map_s32 -> bytes_at m k key -> bytes_at m v value ->
  k <> kb -> v <> kb -> v <> vb ->
  opt_at map (fun mp => (Z.to_nat (m_current_size mp) < fuel)%nat) ->
  call sc ext fuel c_Map_insert [opt_ptr map (struct_ptr 6 s); byte_ptr k; byte_ptr v] m w
  = let! '(r, map) := Map_insert map key value in
    Ok (VInt IBool (b2z r), opt_put map (put_map s kb vb) m, w).
Proof. exact @ref_Map_insert. Qed.
Print Assumptions C92_Map_insert.
Example C92_Map_insert_ex :
  call true no_ext 100 c_Map_insert [struct_ptr 6 0; byte_ptr 3; byte_ptr 4] (map_of (mkMap [1; 2; 3; 4; 0; 0] [10; 20; 0] 2 1 3 2) ++ [ints 8 [5; 6]; ints 8 [30]]) tt
  = Ok
    (VInt IBool 1,
    [[CV (VPtr (TInt U8) (BObj 1) 0); CV (VPtr (TInt U8) (BObj 2) 0); 
    CI 32 2; CI 32 1; CI 32 3; CI 32 3];
    [CI 8 1; CI 8 2; CI 8 3; CI 8 4; CI 8 5; CI 8 6]; [
    CI 8 10; CI 8 20; CI 8 30]; [CI 8 5; CI 8 6]; [CI 8 30]], ()) /\
  call true no_ext 100 c_Map_insert [struct_ptr 6 0; byte_ptr 3; byte_ptr 4] (map_of (mkMap [1; 2; 3; 4; 0; 0] [10; 20; 0] 2 1 3 2) ++ [ints 8 [3; 4]; ints 8 [30]]) tt
  = Ok
    (VInt IBool 1,
    [[CV (VPtr (TInt U8) (BObj 1) 0); CV (VPtr (TInt U8) (BObj 2) 0); 
    CI 32 2; CI 32 1; CI 32 3; CI 32 2];
    [CI 8 1; CI 8 2; CI 8 3; CI 8 4; CI 8 0; CI 8 0]; [
    CI 8 10; CI 8 30; CI 8 0]; [CI 8 3; CI 8 4]; [CI 8 30]], ()) /\
  call true no_ext 100 c_Map_insert [struct_ptr 6 0; byte_ptr 3; byte_ptr 4] (map_of (mkMap [1; 2; 3; 4] [10; 20] 2 1 2 2) ++ [ints 8 [5; 6]; ints 8 [30]]) tt
  = Ok
    (VInt IBool 0,
    [[CV (VPtr (TInt U8) (BObj 1) 0); CV (VPtr (TInt U8) (BObj 2) 0); 
    CI 32 2; CI 32 1; CI 32 2; CI 32 2]; [CI 8 1; CI 8 2; CI 8 3; CI 8 4];
    [CI 8 10; CI 8 20]; [CI 8 5; CI 8 6]; [CI 8 30]], ()) /\
  call true no_ext 100 c_Map_insert [struct_ptr 6 0; byte_ptr 3; byte_ptr 4] (map_of (mkMap [1; 2; 3; 4] [10; 20] (-2) 1 2 2) ++ [ints 8 [5; 6]; ints 8 [30]]) tt
  = UB OutOfBounds /\
  call true no_ext 100 c_Map_insert [struct_ptr 6 0; byte_ptr 3; byte_ptr 4] (map_of (mkMap [1; 2; 7; 7; 3; 4] [10; 20; 0] 2 1 3 1) ++ [ints 8 [3; 4]; ints 8 [30]]) tt
  = Ok
    (VInt IBool 1,
    [[CV (VPtr (TInt U8) (BObj 1) 0); CV (VPtr (TInt U8) (BObj 2) 0); 
    CI 32 2; CI 32 1; CI 32 3; CI 32 2];
    [CI 8 1; CI 8 2; CI 8 3; CI 8 4; CI 8 3; CI 8 4]; [
    CI 8 10; CI 8 30; CI 8 0]; [CI 8 3; CI 8 4]; [CI 8 30]], ()).
Proof. repeat split; vm_compute; reflexivity. Qed.

Theorem C92_Map_getValue : forall (W : Type) sc
    (ext : Z -> list val -> mem -> W -> outcome (val * mem * W)) fuel
    m w s kb vb map k key v value,
  opt_at map (map_at m s kb vb) -> opt_at map map_s32 -> bytes_at m k key -> bytes_at m v value ->
  v <> vb ->
  opt_at map (fun mp => (Z.to_nat (m_current_size mp) < fuel)%nat) ->
  call sc ext fuel c_Map_getValue [opt_ptr map (struct_ptr 6 s); byte_ptr k; byte_ptr v] m w
  = let! '(r, value) := Map_getValue map key value in
    Ok (VInt IBool (b2z r), put_bytes v value m, w).
Proof. exact @ref_Map_getValue. Qed.
Print Assumptions C92_Map_getValue.
Example C92_Map_getValue_ex :
  call true no_ext 100 c_Map_getValue [struct_ptr 6 0; byte_ptr 3; byte_ptr 4] (map_of (mkMap [1; 2; 3; 4; 0; 0] [10; 20; 0] 2 1 3 2) ++ [ints 8 [3; 4]; ints 8 [30]]) tt
  = Ok
    (VInt IBool 1,
    [[CV (VPtr (TInt U8) (BObj 1) 0); CV (VPtr (TInt U8) (BObj 2) 0); 
    CI 32 2; CI 32 1; CI 32 3; CI 32 2];
    [CI 8 1; CI 8 2; CI 8 3; CI 8 4; CI 8 0; CI 8 0]; [
    CI 8 10; CI 8 20; CI 8 0]; [CI 8 3; CI 8 4]; [CI 8 20]], ()) /\
  call true no_ext 100 c_Map_getValue [struct_ptr 6 0; byte_ptr 3; byte_ptr 4] (map_of (mkMap [1; 2; 3; 4; 0; 0] [10; 20; 0] 2 1 3 2) ++ [ints 8 [5; 6]; ints 8 [30]]) tt
  = Ok
    (VInt IBool 0,
    [[CV (VPtr (TInt U8) (BObj 1) 0); CV (VPtr (TInt U8) (BObj 2) 0); 
    CI 32 2; CI 32 1; CI 32 3; CI 32 2];
    [CI 8 1; CI 8 2; CI 8 3; CI 8 4; CI 8 0; CI 8 0]; [
    CI 8 10; CI 8 20; CI 8 0]; [CI 8 5; CI 8 6]; [CI 8 30]], ()) /\
  call true no_ext 100 c_Map_getValue [struct_ptr 6 0; byte_ptr 3; byte_ptr 4] (map_of (mkMap [1; 2; 3; 4; 0; 0] [10; 20; 0] 2 1 3 2) ++ [ints 8 [0; 0]; ints 8 [30]]) tt
  = Ok
    (VInt IBool 0,
    [[CV (VPtr (TInt U8) (BObj 1) 0); CV (VPtr (TInt U8) (BObj 2) 0); 
    CI 32 2; CI 32 1; CI 32 3; CI 32 2];
    [CI 8 1; CI 8 2; CI 8 3; CI 8 4; CI 8 0; CI 8 0]; [
    CI 8 10; CI 8 20; CI 8 0]; [CI 8 0; CI 8 0]; [CI 8 30]], ()) /\
  call true no_ext 100 c_Map_getValue [VNull; byte_ptr 3; byte_ptr 4] (map_of (mkMap [1; 2; 3; 4; 0; 0] [10; 20; 0] 2 1 3 2) ++ [ints 8 [3; 4]; ints 8 [30]]) tt
  = Ok
    (VInt IBool 0,
    [[CV (VPtr (TInt U8) (BObj 1) 0); CV (VPtr (TInt U8) (BObj 2) 0); 
    CI 32 2; CI 32 1; CI 32 3; CI 32 2];
    [CI 8 1; CI 8 2; CI 8 3; CI 8 4; CI 8 0; CI 8 0]; [
    CI 8 10; CI 8 20; CI 8 0]; [CI 8 3; CI 8 4]; [CI 8 30]], ()).
Proof. repeat split; vm_compute; reflexivity. Qed.
