(** * C111: where the objects lie does not matter

    The statements about the C text (C84 to C103) have every array, structure and string in an
    object of its own.  Here the objects may be parts of larger ones: members of one structure,
    pieces of one buffer, elements of one array, next to each other and in any order. *)
From Verif Require Import Drive_Front C_Base64 C_Containers C_Crypto C_Sort.
From Verif Require Import CSem Lib CLang Spec_Layout Spec_Base64 Spec_ChaCha Model_Containers
  Drive_SortText Drive_ContText Refine Proof_Layout Proof_LayoutUse.
Local Open Scope Z_scope.

(** [lay] says where the objects of [m1] lie in [m2].  What is defined for the separate objects is
    defined there, with the same result, and the cells that belong to no object stay as they
    were. *)
Theorem C111_layout : forall (W : Type) sc
    (ext1 ext2 : Z -> list val -> mem -> W -> outcome (val * mem * W)) fuel d args lay m1 m2 w v m1' w',
  length lay = length m1 -> holds (placed lay (length m2)) m1 m2 ->
  apart (placed lay (length m2)) m1 -> follows (placed lay (length m2)) ext1 ext2 ->
  call sc ext1 fuel d args m1 w = Ok (v, m1', w') ->
  exists m2',
    call sc ext2 fuel d (map (moved (placed lay (length m2))) args) m2 w
    = Ok (moved (placed lay (length m2)) v, m2', w') /\
    holds (placed lay (length m2)) m1' m2' /\ untouched (placed lay (length m2)) m1 m2 m2' /\
    (length m2' + length m1 = length m1' + length m2)%nat.
Proof. exact @call_layout. Qed.
Print Assumptions C111_layout.
(** the functions of the library leave no object behind, so the next call can follow *)
Theorem C111_library : forall (W : Type) sc
    (ext1 ext2 : Z -> list val -> mem -> W -> outcome (val * mem * W)) fuel f l x st d
    args lay m1 m2 w v m1' w',
  (forall f vs m w v m' w', ext1 f vs m w = Ok (v, m', w') ->
     map (@length cell) m' = map (@length cell) m) ->
  In (f, l) c_program -> In (x, st, d) l ->
  length lay = length m1 -> holds (placed lay (length m2)) m1 m2 ->
  apart (placed lay (length m2)) m1 -> follows (placed lay (length m2)) ext1 ext2 ->
  call sc ext1 fuel d args m1 w = Ok (v, m1', w') ->
  exists m2',
    call sc ext2 fuel d (map (moved (placed lay (length m2))) args) m2 w
    = Ok (moved (placed lay (length m2)) v, m2', w') /\
    length m1' = length m1 /\ length m2' = length m2 /\
    holds (placed lay (length m2')) m1' m2' /\ apart (placed lay (length m2')) m1' /\
    untouched (placed lay (length m2)) m1 m2 m2'.
Proof. exact @program_layout. Qed.
Print Assumptions C111_library.
(** functions without function pointers, and the comparison functions of the sorts *)
Theorem C111_no_callback : forall (W : Type) j
    (ext : Z -> list val -> mem -> W -> outcome (val * mem * W)), follows j no_ext ext.
Proof. exact @follows_none. Qed.
Print Assumptions C111_no_callback.
Theorem C111_comparison : forall (T : Type) j (cmp : T -> list Z -> list Z -> T * bool) n,
  follows j (byte_cmp cmp n) (byte_cmp cmp n).
Proof. exact @follows_bytes. Qed.
Print Assumptions C111_comparison.

(** a structure that holds a byte, a queue, a byte, the buffer of the queue and an element *)
Local Notation big q buf el :=
  ([CI 8 7] ++ take 5 (queue_cells q 0) ++ [CV (VPtr (TInt U8) (BObj 1) 8); CI 8 77]
   ++ ints 8 buf ++ ints 8 el).
Example C111_layout_ex :
  let q f s buf := mkQueue f 0 s 2 2 buf in
  let lay := [(1, 1); (1, 8); (1, 12)]%nat in
  let m1 := [queue_cells (q 1 1 []) 1; ints 8 [1; 2; 3; 4]; ints 8 [5; 6]] in
  let m2 := [[CI 32 1]; big (q 1 1 []) [1; 2; 3; 4] [5; 6]] in
  let args := [struct_ptr 6 0; byte_ptr 2] in
  holds (placed lay 2) m1 m2 /\ apart (placed lay 2) m1 /\
  call true no_ext 9 c_Queue_enqueue args m1 tt
  = Ok (VInt IBool 1, [queue_cells (mkQueue 1 1 2 2 2 []) 1; ints 8 [1; 2; 5; 6]; ints 8 [5; 6]], tt) /\
  map (moved (placed lay 2)) args = [VPtr (TStruct 6) (BObj 1) 1; VPtr (TInt U8) (BObj 1) 12] /\
  call true no_ext 9 c_Queue_enqueue (map (moved (placed lay 2)) args) m2 tt
  = Ok (VInt IBool 1, [[CI 32 1]; big (mkQueue 1 1 2 2 2 []) [1; 2; 5; 6] [5; 6]], tt).
Proof.
  cbv zeta. split.
  { intros [|[|[|n]]] cs H; [| | |discriminate]; injection H as <-; eexists; (split; [reflexivity|]).
    - exists [CI 8 7]. eexists. split; reflexivity.
    - eexists (CI 8 7 :: _ :: _ :: _ :: _ :: _ :: _ :: [_]). eexists. split; reflexivity.
    - eexists (CI 8 7 :: _ :: _ :: _ :: _ :: _ :: _ :: _ :: _ :: _ :: _ :: [_]). exists [].
      split; reflexivity. }
  split.
  { intros n k b x (cs & Hn & _ & Hx) (ds & Hk & _ & Hy).
    destruct n as [|[|[|n]]]; [| | |discriminate]; injection Hn as <-;
      destruct k as [|[|[|k]]]; try discriminate; injection Hk as <-; cbn in *; lia. }
  split; [vm_compute; reflexivity|]. split; vm_compute; reflexivity.
Qed.
(** both arrays of the comparison lie in one, and the comparison counts its calls *)
Example C111_comparison_ex :
  byte_cmp first_byte 1 0 [byte_ptr 0; byte_ptr 1] [ints 8 [1]; ints 8 [2]] 4%nat
  = Ok (VInt IBool 0, [ints 8 [1]; ints 8 [2]], 5%nat) /\
  byte_cmp first_byte 1 0 (map (moved (placed [(0, 2); (0, 0)]%nat 1)) [byte_ptr 0; byte_ptr 1])
    [ints 8 [2; 9; 1]] 4%nat
  = Ok (VInt IBool 0, [ints 8 [2; 9; 1]], 5%nat).
Proof. vm_compute. auto. Qed.

(** ** All arguments in one array of bytes *)
Theorem C111_one_array : forall (W : Type) sc
    (ext1 ext2 : Z -> list val -> mem -> W -> outcome (val * mem * W)) fuel f l x st d
    args b a ps qs m w v w',
  (forall f vs m w v m' w', ext1 f vs m w = Ok (v, m', w') ->
     map (@length cell) m' = map (@length cell) m) ->
  In (f, l) c_program -> In (x, st, d) l ->
  m !! b = Some (ints 8 a) -> parts ps a -> separate ps -> map fst qs = map fst ps ->
  follows (in_array b ps m) ext1 ext2 ->
  call sc ext1 fuel d args (map (fun p => ints 8 (snd p)) ps) w
  = Ok (v, map (fun p => ints 8 (snd p)) qs, w') ->
  call sc ext2 fuel d (map (moved (in_array b ps m)) args) m w
  = Ok (moved (in_array b ps m) v, <[b := ints 8 (writes qs a)]> m, w').
Proof. exact @array_layout. Qed.
Print Assumptions C111_one_array.
(** selection sort of the four bytes in the middle *)
Example C111_one_array_ex :
  let ps := [(2%nat, [4; 1; 3; 2])] in
  parts ps [9; 8; 4; 1; 3; 2; 7] /\ separate ps /\
  call true (byte_cmp first_byte 1) 9 c_SelectionSort_sort [byte_ptr 0; VInt U32 4; VInt U8 1; VFun 0]
    [ints 8 [4; 1; 3; 2]] 0%nat
  = Ok (VUndef, [ints 8 [1; 2; 3; 4]], 6%nat) /\
  writes [(2%nat, [1; 2; 3; 4])] [9; 8; 4; 1; 3; 2; 7] = [9; 8; 1; 2; 3; 4; 7] /\
  call true (byte_cmp first_byte 1) 9 c_SelectionSort_sort
    [VPtr (TInt U8) (BObj 0) 2; VInt U32 4; VInt U8 1; VFun 0] [ints 8 [9; 8; 4; 1; 3; 2; 7]] 0%nat
  = Ok (VUndef, [ints 8 [9; 8; 1; 2; 3; 4; 7]], 6%nat).
Proof.
  cbv zeta. split.
  { intros [|n] o x H; [|discriminate]. injection H as <- <-. exists [9; 8], [7]. split; reflexivity. }
  split. { intros [|n] [|k] o o' x y i H H'; try discriminate. reflexivity. }
  split; [vm_compute; reflexivity|]. split; vm_compute; reflexivity.
Qed.

(** base64: the data and the result *)
Theorem C111_encode : forall (W : Type) sc
    (ext : Z -> list val -> mem -> W -> outcome (val * mem * W)) fuel m w b a o data p result max_len,
  m !! b = Some (ints 8 a) -> parts [(o, data); (p, result)] a ->
  separate [(o, data); (p, result)] ->
  bytes data -> len data < 2 ^ 62 -> is_u64 max_len -> len data < Z.of_nat fuel ->
  len (base64 data) <= max_len -> len (base64 data) < len result ->
  call sc ext fuel c_Base64_encode
    [VPtr (TInt IChar) (BObj b) (Z.of_nat o); VInt U64 (len data);
     VPtr (TInt IChar) (BObj b) (Z.of_nat p); VInt U64 max_len] m w
  = Ok (VInt I32 0, <[b := ints 8 (write a (Z.of_nat p)
          (base64 data ++ 0 :: drop (S (length (base64 data))) result))]> m, w).
Proof. exact @encode_array. Qed.
Print Assumptions C111_encode.
(** "Man" behind the place for its encoding *)
Example C111_encode_ex :
  parts [(6%nat, [77; 97; 110]); (0%nat, replicate 6 5)] (replicate 6 5 ++ [77; 97; 110; 1]) /\
  separate [(6%nat, [77; 97; 110]); (0%nat, replicate 6 5)] /\
  call true no_ext 9 c_Base64_encode
    [VPtr (TInt IChar) (BObj 0) 6; VInt U64 3; VPtr (TInt IChar) (BObj 0) 0; VInt U64 5]
    [ints 8 (replicate 6 5 ++ [77; 97; 110; 1])] tt
  = Ok (VInt I32 0, [ints 8 [84; 87; 70; 117; 0; 5; 77; 97; 110; 1]], tt).
Proof.
  split.
  { intros [|[|n]] o x H; [| |discriminate]; injection H as <- <-.
    - exists (replicate 6 5), [1]. split; reflexivity.
    - exists [], [77; 97; 110; 1]. split; reflexivity. }
  split; [|vm_compute; reflexivity].
  intros [|[|n]] [|[|k]] o o' x y i H H' Hi Hi'; try discriminate; try reflexivity;
    injection H as <- <-; injection H' as <- <-; cbn in *; lia.
Qed.

(** ChaCha20: the message, the key, the nonce and the result *)
Theorem C111_chacha20 : forall (W : Type) sc
    (ext : Z -> list val -> mem -> W -> outcome (val * mem * W)) fuel
    m w b a o data k key i nonce p result inc,
  m !! b = Some (ints 8 a) ->
  parts [(o, data); (k, key); (i, nonce); (p, result)] a ->
  separate [(o, data); (k, key); (i, nonce); (p, result)] ->
  parameters key nonce -> bytes data -> bytes result -> length result = length data ->
  is_u32 (len data) -> is_u32 inc -> 64 < Z.of_nat fuel -> len data / 64 < Z.of_nat fuel ->
  call sc ext fuel c_Chacha20_crypt
    [VPtr (TInt U8) (BObj b) (Z.of_nat o); VInt U32 (len data); VPtr (TInt U8) (BObj b) (Z.of_nat k);
     VPtr (TInt U8) (BObj b) (Z.of_nat i); VInt U32 inc; VPtr (TInt U8) (BObj b) (Z.of_nat p)] m w
  = Ok (VUndef, <[b := ints 8 (write a (Z.of_nat p) (chacha20 key nonce inc data))]> m, w).
Proof. exact @chacha20_array. Qed.
Print Assumptions C111_chacha20.
Example C111_chacha20_ex :
  let key := map Z.of_nat (seq 0 32) in
  let nonce := [0; 0; 0; 0; 0; 0; 0; 0x4a; 0; 0; 0; 0] in
  let data := [76; 97; 100; 105] in
  let result := [9; 9; 9; 9] in
  let ps := [(0%nat, data); (5%nat, key); (37%nat, nonce); (49%nat, result)] in
  parts ps (data ++ 1 :: key ++ nonce ++ result ++ [2]) /\ separate ps /\
  call true no_ext 70 c_Chacha20_crypt
    [VPtr (TInt U8) (BObj 0) 0; VInt U32 4; VPtr (TInt U8) (BObj 0) 5;
     VPtr (TInt U8) (BObj 0) 37; VInt U32 1; VPtr (TInt U8) (BObj 0) 49]
    [ints 8 (data ++ 1 :: key ++ nonce ++ result ++ [2])] tt
  = Ok (VUndef, [ints 8 (data ++ 1 :: key ++ nonce ++ [0x6e; 0x2e; 0x35; 0x9a] ++ [2])], tt).
Proof.
  cbv zeta. split.
  { intros [|[|[|[|n]]]] o x H; [| | | |discriminate]; injection H as <- <-.
    - eexists [], _. split; reflexivity.
    - eexists [_; _; _; _; _], _. split; reflexivity.
    - exists ([76; 97; 100; 105; 1] ++ map Z.of_nat (seq 0 32)). eexists. split; reflexivity.
    - exists ([76; 97; 100; 105; 1] ++ map Z.of_nat (seq 0 32) ++ [0; 0; 0; 0; 0; 0; 0; 0x4a; 0; 0; 0; 0]).
      eexists. split; reflexivity. }
  split; [|vm_compute; reflexivity].
  intros [|[|[|[|n]]]] [|[|[|[|k]]]] o o' x y i H H' Hi Hi'; try discriminate; try reflexivity;
    injection H as <- <-; injection H' as <- <-; cbn in *; lia.
Qed.
