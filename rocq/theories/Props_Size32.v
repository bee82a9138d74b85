(** * C114: targets with a 32-bit [size_t]

    The rest of the theorems take [size_t] as [unsigned long] of 64 bits (CSystem.v).  Here the
    same C text is read with a [<string.h>] that has [typedef unsigned int size_t], and compared
    with the 64-bit reading.  106 of the 120 functions have the same terms.  For the other 14
    the two readings agree below the bounds given; that of [Json_addData] is needed (last theorem). *)
From Coq Require Import String.
From Verif Require Import CSem Lib CFront CSystem Drive_Front CLang C_Utils C_Base64
  C_Containers C_Sort C_Crypto C_Json CSize32 C_Size32 Drive_Size32 Drive_ContText Drive_SortText.
From Verif Require Import Model_Containers Refine Proof_Size32.
Local Open Scope string_scope.
Local Open Scope list_scope.
Local Open Scope Z_scope.
Local Notation run64 sc ext fuel x := (run_text sc ext fuel repo sources x).
Local Notation run32 sc ext fuel x := (run_text32 sc ext fuel repo sources x).
Local Notation chars b := (VPtr (TInt IChar) (BObj b) 0).
(** the two readings of a function give the same on a concrete input *)
Local Notation agree d32 args32 d args m r :=
  (call true no_ext 100 d32 args32 m tt = r /\ call true no_ext 100 d args m tt = r).
Local Notation hooks W := (Z -> list val -> mem -> W -> outcome (val * mem * W)).

(** the text read with the 32-bit header, function by function *)
Theorem C114_program : program32 repo sources = Some c_program32.
Proof. exact program32_ok. Qed.
Print Assumptions C114_program.
(** all functions without [size_t]: no bounds *)
Theorem C114_other : forall (W : Type) sc (ext : hooks W) fuel x args m w,
  assoc x size32_functions = None ->
  run32 sc ext fuel x args m w = run64 sc ext fuel x args m w.
Proof. exact @run_other. Qed.
Print Assumptions C114_other.
Example C114_other_ex :
  length (functions c_program) = 113%nat /\
  length (List.filter (fun '(x, _) => match assoc x size32_functions with None => true | _ => false end)
            (functions c_program)) = 100%nat /\
  assoc "Queue_enqueue" size32_functions = None /\ assoc "Chacha20_crypt" size32_functions = None.
Proof. repeat split; vm_compute; reflexivity. Qed.

Theorem C114_CaesarCipher_encrypt : forall (W : Type) sc (ext : hooks W) fuel m w b o k,
  m !! b = Some (ints 8 o) -> bytes o -> is_byte k -> len o < 2 ^ 32 -> (length o < fuel)%nat ->
  run32 sc ext fuel "CaesarCipher_encrypt" [chars b; VInt U8 k] m w
  = run64 sc ext fuel "CaesarCipher_encrypt" [chars b; VInt U8 k] m w.
Proof. exact @caesar_encrypt32. Qed.
Print Assumptions C114_CaesarCipher_encrypt.
Example C114_CaesarCipher_encrypt_ex :
  agree c32_CaesarCipher_encrypt [chars 0; VInt U8 3]
    c_CaesarCipher_encrypt [chars 0; VInt U8 3]
    [ints 8 [97; 120; 0; 5]]
    (Ok (VUndef, [ints 8 [100; 97; 0; 5]], tt)).
Proof. split; vm_compute; reflexivity. Qed.

Theorem C114_VernamCipher_encrypt : forall (W : Type) sc (ext : hooks W) fuel m w b o b' o' k,
  m !! b = Some (ints 8 o) -> m !! b' = Some (ints 8 o') -> b <> b' -> bytes o -> bytes o' ->
  is_s32 k -> len o < 2 ^ 32 -> (length o < fuel)%nat ->
  run32 sc ext fuel "VernamCipher_encrypt" [chars b; chars b'; VInt I32 k] m w
  = run64 sc ext fuel "VernamCipher_encrypt" [chars b; chars b'; VInt I32 k] m w.
Proof. exact @vernam_encrypt32. Qed.
Print Assumptions C114_VernamCipher_encrypt.
Example C114_VernamCipher_encrypt_ex :
  agree c32_VernamCipher_encrypt [chars 0; chars 1; VInt I32 3]
    c_VernamCipher_encrypt [chars 0; chars 1; VInt I32 3]
    [ints 8 [72; 105; 33; 0]; ints 8 [107; 69; 89]]
    (Ok (VInt IBool 1, [ints 8 [82; 109; 33; 0]; ints 8 [107; 69; 89]], tt)).
Proof. split; vm_compute; reflexivity. Qed.

Theorem C114_CaesarCipher_decrypt : forall (W : Type) sc (ext : hooks W) fuel m w b o k,
  m !! b = Some (ints 8 o) -> bytes o -> is_byte k -> len o < 2 ^ 32 -> (length o < fuel)%nat ->
  run32 sc ext fuel "CaesarCipher_decrypt" [chars b; VInt U8 k] m w
  = run64 sc ext fuel "CaesarCipher_decrypt" [chars b; VInt U8 k] m w.
Proof. exact @caesar_decrypt32. Qed.
Print Assumptions C114_CaesarCipher_decrypt.
Example C114_CaesarCipher_decrypt_ex :
  agree c32_CaesarCipher_decrypt [chars 0; VInt U8 3]
    c_CaesarCipher_decrypt [chars 0; VInt U8 3]
    [ints 8 [97; 120; 0; 5]]
    (Ok (VUndef, [ints 8 [116; 117; 0; 5]], tt)).
Proof. split; vm_compute; reflexivity. Qed.

Theorem C114_VernamCipher_decrypt : forall (W : Type) sc (ext : hooks W) fuel m w b o b' o' k,
  m !! b = Some (ints 8 o) -> m !! b' = Some (ints 8 o') -> b <> b' -> bytes o -> bytes o' ->
  is_s32 k -> len o < 2 ^ 32 -> (length o < fuel)%nat ->
  run32 sc ext fuel "VernamCipher_decrypt" [chars b; chars b'; VInt I32 k] m w
  = run64 sc ext fuel "VernamCipher_decrypt" [chars b; chars b'; VInt I32 k] m w.
Proof. exact @vernam_decrypt32. Qed.
Print Assumptions C114_VernamCipher_decrypt.
Example C114_VernamCipher_decrypt_ex :
  agree c32_VernamCipher_decrypt [chars 0; chars 1; VInt I32 3]
    c_VernamCipher_decrypt [chars 0; chars 1; VInt I32 3]
    [ints 8 [82; 109; 33; 0]; ints 8 [107; 69; 89]]
    (Ok (VInt IBool 1, [ints 8 [72; 105; 33; 0]; ints 8 [107; 69; 89]], tt)).
Proof. split; vm_compute; reflexivity. Qed.

Theorem C114_Json_startString : forall (W : Type) sc (ext : hooks W) fuel m w b o n,
  m !! b = Some (ints 8 o) -> is_u32 n ->
  run32 sc ext fuel "Json_startString" [chars b; VInt U32 n] m w
  = run64 sc ext fuel "Json_startString" [chars b; VInt U64 n] m w.
Proof. exact @start32. Qed.
Print Assumptions C114_Json_startString.
Example C114_Json_startString_ex :
  agree c32_Json_startString [chars 0; VInt U32 4]
    c_Json_startString [chars 0; VInt U64 4]
    [ints 8 [7; 7; 7; 7]]
    (Ok (VInt IBool 1, [ints 8 [123; 0; 7; 7]], tt)).
Proof. split; vm_compute; reflexivity. Qed.

Theorem C114_Json_endString : forall (W : Type) sc (ext : hooks W) fuel m w b o n,
  m !! b = Some (ints 8 o) -> is_u32 n -> len o < 2 ^ 32 - 1 ->
  run32 sc ext fuel "Json_endString" [chars b; VInt U32 n] m w
  = run64 sc ext fuel "Json_endString" [chars b; VInt U64 n] m w.
Proof. exact @end32. Qed.
Print Assumptions C114_Json_endString.
Example C114_Json_endString_ex :
  agree c32_Json_endString [chars 0; VInt U32 6]
    c_Json_endString [chars 0; VInt U64 6]
    [ints 8 [123; 34; 0; 7; 7; 7]]
    (Ok (VInt IBool 1, [ints 8 [123; 34; 125; 0; 7; 7]], tt)).
Proof. split; vm_compute; reflexivity. Qed.

Theorem C114_Json_addData : forall (W : Type) sc (ext : hooks W) fuel m w b o n b1 k b2 v,
  m !! b = Some (ints 8 o) -> m !! b1 = Some (ints 8 k) -> m !! b2 = Some (ints 8 v) ->
  b <> b1 -> b <> b2 -> is_u32 n -> len o + len k + len v < 2 ^ 32 - 16 ->
  run32 sc ext fuel "Json_addData" [chars b; VInt U32 n; chars b1; chars b2] m w
  = run64 sc ext fuel "Json_addData" [chars b; VInt U64 n; chars b1; chars b2] m w.
Proof. exact @add32. Qed.
Print Assumptions C114_Json_addData.
Example C114_Json_addData_ex :
  agree c32_Json_addData [chars 0; VInt U32 20; chars 1; chars 2]
    c_Json_addData [chars 0; VInt U64 20; chars 1; chars 2]
    [ints 8 ([123; 0] ++ replicate 18 7); ints 8 [97; 0]; ints 8 [98; 99; 0]]
    (Ok (VInt IBool 1, [ints 8 ([123; 34; 97; 34; 58; 34; 98; 99; 34; 0] ++ replicate 10 7); ints 8 [97; 0]; ints 8 [98; 99; 0]], tt)).
Proof. split; vm_compute; reflexivity. Qed.

Theorem C114_Json_findByKey : forall (W : Type) sc (ext : hooks W) fuel m w b o n b1 k b2 v mx,
  m !! b = Some (ints 8 o) -> m !! b1 = Some (ints 8 k) -> m !! b2 = Some (ints 8 v) ->
  b <> b1 -> b <> b2 -> b1 <> b2 -> is_u32 n -> is_u32 mx -> bytes o -> len k < 2 ^ 32 -> len v < 2 ^ 64 ->
  (S (length o) < fuel)%nat ->
  run32 sc ext fuel "Json_findByKey" [chars b; VInt U32 n; chars b1; chars b2; VInt U32 mx] m w
  = run64 sc ext fuel "Json_findByKey" [chars b; VInt U64 n; chars b1; chars b2; VInt U64 mx] m w.
Proof. exact @find32. Qed.
Print Assumptions C114_Json_findByKey.
Example C114_Json_findByKey_ex :
  agree c32_Json_findByKey [chars 0; VInt U32 12; chars 1; chars 2; VInt U32 4]
    c_Json_findByKey [chars 0; VInt U64 12; chars 1; chars 2; VInt U64 4]
    [ints 8 [123; 34; 97; 34; 58; 34; 98; 99; 34; 125; 0; 0]; ints 8 [97; 0]; ints 8 [7; 7; 7; 7]]
    (Ok (VInt IBool 1, [ints 8 [123; 34; 97; 34; 58; 34; 98; 99; 34; 125; 0; 0]; ints 8 [97; 0]; ints 8 [98; 99; 0; 7]], tt)).
Proof. split; vm_compute; reflexivity. Qed.

Theorem C114_Base64_encode : forall (W : Type) sc (ext : hooks W) fuel m w bd d n br r mx,
  m !! bd = Some (ints 8 d) -> m !! br = Some (ints 8 r) -> bd <> br -> bytes d ->
  0 <= n < 3 * 2 ^ 30 - 2 -> is_u32 mx -> (length d < fuel)%nat ->
  run32 sc ext fuel "Base64_encode" [chars bd; VInt U32 n; chars br; VInt U32 mx] m w
  = run64 sc ext fuel "Base64_encode" [chars bd; VInt U64 n; chars br; VInt U64 mx] m w.
Proof. exact @encode32. Qed.
Print Assumptions C114_Base64_encode.
Example C114_Base64_encode_ex :
  agree c32_Base64_encode [chars 0; VInt U32 4; chars 1; VInt U32 9]
    c_Base64_encode [chars 0; VInt U64 4; chars 1; VInt U64 9]
    [ints 8 [77; 97; 110; 33]; ints 8 (replicate 9 0)]
    (Ok (VInt I32 0, [ints 8 [77; 97; 110; 33]; ints 8 [84; 87; 70; 117; 73; 81; 61; 61; 0]], tt)).
Proof. split; vm_compute; reflexivity. Qed.

(** longer texts need more than [2 ^ 32] characters; the 32-bit function refuses them *)
Theorem C114_Base64_encode_long : forall (W : Type) sc (ext : hooks W) fuel m w bd d n br r mx,
  m !! bd = Some (ints 8 d) -> m !! br = Some (ints 8 r) ->
  3 * 2 ^ 30 - 2 <= n < 2 ^ 32 -> is_u32 mx ->
  run32 sc ext fuel "Base64_encode" [chars bd; VInt U32 n; chars br; VInt U32 mx] m w = Ok (VInt I32 1, m, w).
Proof. exact @encode_long32. Qed.
Print Assumptions C114_Base64_encode_long.
Example C114_Base64_encode_long_ex :
  call true no_ext 100 c32_Base64_encode [chars 0; VInt U32 (3 * 2 ^ 30 - 2); chars 1; VInt U32 9]
    [ints 8 [1]; ints 8 [2]] tt
  = Ok (VInt I32 1, [ints 8 [1]; ints 8 [2]], tt).
Proof. vm_compute. reflexivity. Qed.

Theorem C114_Base64_decode : forall (W : Type) sc (ext : hooks W) fuel m w bi d n bo o mx,
  m !! bi = Some (ints 8 d) -> m !! bo = Some (ints 8 o) -> bi <> bo -> bytes d ->
  is_u32 n -> is_u32 mx -> (length d < fuel)%nat ->
  run32 sc ext fuel "Base64_decode" [chars bi; VInt U32 n; byte_ptr bo; VInt U32 mx] m w
  = run64 sc ext fuel "Base64_decode" [chars bi; VInt U64 n; byte_ptr bo; VInt U64 mx] m w.
Proof. exact @decode32. Qed.
Print Assumptions C114_Base64_decode.
Example C114_Base64_decode_ex :
  agree c32_Base64_decode [chars 0; VInt U32 8; byte_ptr 1; VInt U32 6]
    c_Base64_decode [chars 0; VInt U64 8; byte_ptr 1; VInt U64 6]
    [ints 8 [84; 87; 70; 117; 73; 81; 61; 61]; ints 8 (replicate 6 0)]
    (Ok (VInt I32 0, [ints 8 [84; 87; 70; 117; 73; 81; 61; 61]; ints 8 [77; 97; 110; 33; 0; 0]], tt)).
Proof. split; vm_compute; reflexivity. Qed.

Theorem C114_Map_insert : forall (W : Type) sc (ext : hooks W) fuel m w s kb vb map k key v value,
  opt_at map (map_at m s kb vb) -> opt_at map map_s32 ->
  opt_at map (fun mp => 0 <= m_key_size mp /\ 0 <= m_value_size mp) ->
  bytes_at m k key -> bytes_at m v value -> k <> kb -> v <> kb -> v <> vb ->
  opt_at map (fun mp => (Z.to_nat (m_current_size mp) < fuel)%nat) ->
  run32 sc ext fuel "Map_insert" [opt_ptr map (struct_ptr 6 s); byte_ptr k; byte_ptr v] m w
  = run64 sc ext fuel "Map_insert" [opt_ptr map (struct_ptr 6 s); byte_ptr k; byte_ptr v] m w.
Proof. exact @insert32. Qed.
Print Assumptions C114_Map_insert.
Example C114_Map_insert_ex :
  agree c32_Map_insert [struct_ptr 6 0; byte_ptr 3; byte_ptr 4]
    c_Map_insert [struct_ptr 6 0; byte_ptr 3; byte_ptr 4]
    [map_cells (mkMap [1; 2; 3; 4; 0; 0] [10; 20; 0] 2 1 3 2) 1 2; ints 8 [1; 2; 3; 4; 0; 0]; ints 8 [10; 20; 0]; ints 8 [5; 6]; ints 8 [30]]
    (Ok (VInt IBool 1, [map_cells (mkMap [] [] 2 1 3 3) 1 2; ints 8 [1; 2; 3; 4; 5; 6]; ints 8 [10; 20; 30]; ints 8 [5; 6]; ints 8 [30]], tt)).
Proof. split; vm_compute; reflexivity. Qed.

Theorem C114_Map_getValue : forall (W : Type) sc (ext : hooks W) fuel m w s kb vb map k key v value,
  opt_at map (map_at m s kb vb) -> opt_at map map_s32 ->
  opt_at map (fun mp => 0 <= m_key_size mp /\ 0 <= m_value_size mp) ->
  bytes_at m k key -> bytes_at m v value -> v <> vb ->
  opt_at map (fun mp => (Z.to_nat (m_current_size mp) < fuel)%nat) ->
  run32 sc ext fuel "Map_getValue" [opt_ptr map (struct_ptr 6 s); byte_ptr k; byte_ptr v] m w
  = run64 sc ext fuel "Map_getValue" [opt_ptr map (struct_ptr 6 s); byte_ptr k; byte_ptr v] m w.
Proof. exact @get32. Qed.
Print Assumptions C114_Map_getValue.
Example C114_Map_getValue_ex :
  agree c32_Map_getValue [struct_ptr 6 0; byte_ptr 3; byte_ptr 4]
    c_Map_getValue [struct_ptr 6 0; byte_ptr 3; byte_ptr 4]
    [map_cells (mkMap [1; 2; 3; 4; 0; 0] [10; 20; 0] 2 1 3 2) 1 2; ints 8 [1; 2; 3; 4; 0; 0]; ints 8 [10; 20; 0]; ints 8 [3; 4]; ints 8 [30]]
    (Ok (VInt IBool 1, [map_cells (mkMap [] [] 2 1 3 2) 1 2; ints 8 [1; 2; 3; 4; 0; 0]; ints 8 [10; 20; 0]; ints 8 [3; 4]; ints 8 [20]], tt)).
Proof. split; vm_compute; reflexivity. Qed.

(** with any comparison function *)
Theorem C114_InsertionSort_sort : forall (T : Type) (cmp : T -> list Z -> list Z -> T * bool) sc fuel es m t b o b' el p n f,
  m !! b = Some (ints 8 o) -> m !! b' = Some (ints 8 el) -> b <> b' -> is_s32 n -> is_s32 es -> 0 <= es ->
  (Z.to_nat n < fuel)%nat ->
  run_text32 sc (byte_cmp cmp es) fuel repo sources "InsertionSort_sort"
    [VPtr (TInt U8) (BObj b') 0; VPtr (TInt U8) (BObj b) p; VInt I32 n; VInt I32 es; VFun f] m t
  = run_text sc (byte_cmp cmp es) fuel repo sources "InsertionSort_sort"
    [VPtr (TInt U8) (BObj b') 0; VPtr (TInt U8) (BObj b) p; VInt I32 n; VInt I32 es; VFun f] m t.
Proof. exact @insertion32. Qed.
Print Assumptions C114_InsertionSort_sort.
Example C114_InsertionSort_sort_ex :
  let args := [VPtr (TInt U8) (BObj 1) 0; VPtr (TInt U8) (BObj 0) 2; VInt I32 4; VInt I32 2; VFun 7] in
  let m := [ints 8 [9; 9; 3; 0; 1; 1; 2; 2; 1; 3; 7]; ints 8 [0; 0]] in
  let r := Ok (VUndef, [ints 8 [9; 9; 1; 1; 1; 3; 2; 2; 3; 0; 7]; ints 8 [1; 3]], 7%nat) in
  call true (byte_cmp first_byte 2) 100 c32_InsertionSort_sort args m 0%nat = r /\
  call true (byte_cmp first_byte 2) 100 c_InsertionSort_sort args m 0%nat = r.
Proof. split; vm_compute; reflexivity. Qed.

(** Without the bound on the lengths [Json_addData] is not the same: the 64-bit one refuses, the
    32-bit one computes a length that wraps around and writes past the end of the string.  Key and
    value are here the same string of [2 ^ 31 - 3] characters. *)
Theorem C114_Json_addData_same_refuted : exists o k n m,
  m !! 0%nat = Some (ints 8 o) /\ m !! 1%nat = Some (ints 8 k) /\ is_u32 n /\ n = len o /\ len k < 2 ^ 31 /\
  (forall fuel, run_text true (@no_ext Datatypes.unit) fuel repo sources "Json_addData"
     [VPtr (TInt IChar) (BObj 0) 0; VInt U64 n; VPtr (TInt IChar) (BObj 1) 0; VPtr (TInt IChar) (BObj 1) 0] m tt
   = Ok (VInt IBool 0, m, tt)) /\
  (forall fuel, run_text32 true (@no_ext Datatypes.unit) fuel repo sources "Json_addData"
     [VPtr (TInt IChar) (BObj 0) 0; VInt U32 n; VPtr (TInt IChar) (BObj 1) 0; VPtr (TInt IChar) (BObj 1) 0] m tt
   = UB OutOfBounds).
Proof. exact add_wrap32. Qed.
Print Assumptions C114_Json_addData_same_refuted.

(** The bound of [C114_Json_endString] is the best possible: with one more byte the 64-bit one
    refuses, the 32-bit one writes past the end of the string. *)
Theorem C114_Json_endString_same_refuted : exists o n m,
  m !! 0%nat = Some (ints 8 o) /\ is_u32 n /\ n = len o /\ len o = 2 ^ 32 - 1 /\
  (forall fuel, run_text true (@no_ext Datatypes.unit) fuel repo sources "Json_endString"
     [VPtr (TInt IChar) (BObj 0) 0; VInt U64 n] m tt = Ok (VInt IBool 0, m, tt)) /\
  (forall fuel, run_text32 true (@no_ext Datatypes.unit) fuel repo sources "Json_endString"
     [VPtr (TInt IChar) (BObj 0) 0; VInt U32 n] m tt = UB OutOfBounds).
Proof. exact end_wrap32. Qed.
Print Assumptions C114_Json_endString_same_refuted.
