(** * C89: the hand-written model of json.c against the C text

    [c_F] is the function [F] as produced from its C text by [tools/c2coq.py]; [call] runs it
    (CLang.v).  [buffer], [key] and [value] are different objects.  The search for a key is assumed
    to end; it does whenever the buffer is smaller than 4 GiB (C78). *)
From Coq Require Import String.
From Verif Require Import CSem Lib CLang C_Json Model_Json Refine Refine_Json Refine_JsonFind.

Local Notation chars b := (VPtr (TInt IChar) (BObj b) 0).

Theorem C89_Json_startString : forall (W : Type) sc
    (ext : Z -> list val -> mem -> W -> outcome (val * mem * W)) fuel
    m w b o n,
  m !! b = Some (ints 8 o) -> is_u64 n ->
  call sc ext fuel c_Json_startString [chars b; VInt U64 n] m w
  = let! '(r, o) := Json_startString o n in Ok (VInt IBool (b2z r), <[b := ints 8 o]> m, w).
Proof. exact @ref_Json_startString. Qed.
Print Assumptions C89_Json_startString.
Example C89_Json_startString_ex :
  call true no_ext 100 c_Json_startString [chars 0; VInt U64 2] [ints 8 [7;7;7]] tt
  = Ok (VInt IBool 1, [[CI 8 123; CI 8 0; CI 8 7]], ()) /\
  call true no_ext 100 c_Json_startString [chars 0; VInt U64 1] [ints 8 [7;7;7]] tt
  = Ok (VInt IBool 0, [[CI 8 7; CI 8 7; CI 8 7]], ()) /\
  call true no_ext 100 c_Json_startString [chars 0; VInt U64 2] [ints 8 [7]] tt
  = UB OutOfBounds.
Proof. repeat split; vm_compute; reflexivity. Qed.

Theorem C89_Json_endString : forall (W : Type) sc
    (ext : Z -> list val -> mem -> W -> outcome (val * mem * W)) fuel
    m w b o n,
  m !! b = Some (ints 8 o) -> is_u64 n -> len o < 2 ^ 64 ->
  call sc ext fuel c_Json_endString [chars b; VInt U64 n] m w
  = let! '(r, o) := Json_endString o n in Ok (VInt IBool (b2z r), <[b := ints 8 o]> m, w).
Proof. exact @ref_Json_endString. Qed.
Print Assumptions C89_Json_endString.
Example C89_Json_endString_ex :
  call true no_ext 100 c_Json_endString [chars 0; VInt U64 3] [ints 8 (cstr "{" ++ replicate 2 255)] tt
  = Ok (VInt IBool 1, [[CI 8 123; CI 8 125; CI 8 0; CI 8 255]], ()) /\
  call true no_ext 100 c_Json_endString [chars 0; VInt U64 2] [ints 8 (cstr "{" ++ replicate 2 255)] tt
  = Ok (VInt IBool 0, [[CI 8 123; CI 8 0; CI 8 255; CI 8 255]], ()) /\
  call true no_ext 100 c_Json_endString [chars 0; VInt U64 2] [ints 8 [7;7]] tt
  = UB OutOfBounds.
Proof. repeat split; vm_compute; reflexivity. Qed.

Theorem C89_Json_addData : forall (W : Type) sc
    (ext : Z -> list val -> mem -> W -> outcome (val * mem * W)) fuel
    m w b o n b1 k b2 v,
  m !! b = Some (ints 8 o) -> m !! b1 = Some (ints 8 k) -> m !! b2 = Some (ints 8 v) ->
  b <> b1 -> b <> b2 -> is_u64 n -> len o < 2 ^ 64 ->
  call sc ext fuel c_Json_addData [chars b; VInt U64 n; chars b1; chars b2] m w
  = let! '(r, o) := Json_addData o n k v in Ok (VInt IBool (b2z r), <[b := ints 8 o]> m, w).
Proof. exact @ref_Json_addData. Qed.
Print Assumptions C89_Json_addData.
Example C89_Json_addData_ex :
  call true no_ext 100 c_Json_addData [chars 0; VInt U64 9; chars 1; chars 2] [ints 8 (cstr "{" ++ replicate 9 255); ints 8 (cstr "a"); ints 8 (cstr "b")] tt
  = Ok
    (VInt IBool 1,
    [[CI 8 123; CI 8 34; CI 8 97; CI 8 34; CI 8 58; CI 8 34; 
    CI 8 98; CI 8 34; CI 8 0; CI 8 255; CI 8 255]; [CI 8 97; CI 8 0];
    [CI 8 98; CI 8 0]], ()) /\
  call true no_ext 100 c_Json_addData [chars 0; VInt U64 30; chars 1; chars 2] [ints 8 (cstr "{""" ++ replicate 9 255); ints 8 (cstr "a"); ints 8 (cstr "b")] tt
  = Ok
    (VInt IBool 1,
    [[CI 8 123; CI 8 34; CI 8 44; CI 8 34; CI 8 97; CI 8 34; 
    CI 8 58; CI 8 34; CI 8 98; CI 8 34; CI 8 0; CI 8 255]; [
    CI 8 97; CI 8 0]; [CI 8 98; CI 8 0]], ()) /\
  call true no_ext 100 c_Json_addData [chars 0; VInt U64 9; chars 1; chars 2] [ints 8 (cstr "" ++ replicate 9 255); ints 8 (cstr "a"); ints 8 (cstr "b")] tt
  = UB OutOfBounds /\
  call true no_ext 100 c_Json_addData [chars 0; VInt U64 3; chars 1; chars 2] [ints 8 (cstr "{" ++ replicate 3 255); ints 8 (cstr "a"); ints 8 (cstr "b")] tt
  = Ok
    (VInt IBool 0,
    [[CI 8 123; CI 8 0; CI 8 255; CI 8 255; CI 8 255]; [
    CI 8 97; CI 8 0]; [CI 8 98; CI 8 0]], ()) /\
  call true no_ext 100 c_Json_addData [chars 0; VInt U64 8; chars 1; chars 2] [ints 8 (cstr "{" ++ replicate 9 255); ints 8 (cstr "a"); ints 8 (cstr "b")] tt
  = Ok
    (VInt IBool 0,
    [[CI 8 123; CI 8 0; CI 8 255; CI 8 255; CI 8 255; CI 8 255; 
    CI 8 255; CI 8 255; CI 8 255; CI 8 255; CI 8 255]; [
    CI 8 97; CI 8 0]; [CI 8 98; CI 8 0]], ()).
Proof. repeat split; vm_compute; reflexivity. Qed.

Theorem C89_Json_findByKey : forall (W : Type) sc
    (ext : Z -> list val -> mem -> W -> outcome (val * mem * W)) fuel
    m w b o n b1 k b2 v mx,
  m !! b = Some (ints 8 o) -> m !! b1 = Some (ints 8 k) -> m !! b2 = Some (ints 8 v) ->
  b <> b1 -> b <> b2 -> b1 <> b2 -> is_u64 n -> is_u64 mx ->
  bytes o -> len k < 2 ^ 64 -> len v < 2 ^ 64 ->
  Json_findByKey o n k v mx <> Diverge -> (S (length o) < fuel)%nat ->
  call sc ext fuel c_Json_findByKey [chars b; VInt U64 n; chars b1; chars b2; VInt U64 mx] m w
  = let! '(r, v) := Json_findByKey o n k v mx in Ok (VInt IBool (b2z r), <[b2 := ints 8 v]> m, w).
Proof. exact @ref_Json_findByKey. Qed.
Print Assumptions C89_Json_findByKey.
Example C89_Json_findByKey_ex :
  call true no_ext 100 c_Json_findByKey [chars 0; VInt U64 12; chars 1; chars 2; VInt U64 4] [ints 8 (cstr "{""a"":""bcd""}"); ints 8 (cstr "a"); ints 8 [1;2;3;4]] tt
  = Ok
    (VInt IBool 1,
    [[CI 8 123; CI 8 34; CI 8 97; CI 8 34; CI 8 58; CI 8 34; 
    CI 8 98; CI 8 99; CI 8 100; CI 8 34; CI 8 125; CI 8 0]; [
    CI 8 97; CI 8 0]; [CI 8 98; CI 8 99; CI 8 100; CI 8 0]], ()) /\
  call true no_ext 100 c_Json_findByKey [chars 0; VInt U64 12; chars 1; chars 2; VInt U64 3] [ints 8 (cstr "{""a"":""bcd""}"); ints 8 (cstr "a"); ints 8 [1;2;3]] tt
  = Ok
    (VInt IBool 0,
    [[CI 8 123; CI 8 34; CI 8 97; CI 8 34; CI 8 58; CI 8 34; 
    CI 8 98; CI 8 99; CI 8 100; CI 8 34; CI 8 125; CI 8 0]; [
    CI 8 97; CI 8 0]; [CI 8 98; CI 8 99; CI 8 100]], ()) /\
  call true no_ext 100 c_Json_findByKey [chars 0; VInt U64 12; chars 1; chars 2; VInt U64 3] [ints 8 (cstr "{""a"":""bcd""}"); ints 8 (cstr "x"); ints 8 [1;2;3]] tt
  = Ok
    (VInt IBool 0,
    [[CI 8 123; CI 8 34; CI 8 97; CI 8 34; CI 8 58; CI 8 34; 
    CI 8 98; CI 8 99; CI 8 100; CI 8 34; CI 8 125; CI 8 0]; [
    CI 8 120; CI 8 0]; [CI 8 1; CI 8 2; CI 8 3]], ()) /\
  call true no_ext 100 c_Json_findByKey [chars 0; VInt U64 9; chars 1; chars 2; VInt U64 3] [ints 8 (str "{""a"""); ints 8 (cstr "a"); ints 8 [1;2;3]] tt
  = UB OutOfBounds /\
  call true no_ext 100 c_Json_findByKey [chars 0; VInt U64 10; chars 1; chars 2; VInt U64 3] [ints 8 (cstr "{""ab"":""c""}"); ints 8 (cstr "a"); ints 8 [1;2;3]] tt
  = Ok
    (VInt IBool 0,
    [[CI 8 123; CI 8 34; CI 8 97; CI 8 98; CI 8 34; CI 8 58; 
    CI 8 34; CI 8 99; CI 8 34; CI 8 125; CI 8 0]; [CI 8 97; CI 8 0];
    [CI 8 1; CI 8 2; CI 8 3]], ()) /\
  call true no_ext 100 c_Json_findByKey [chars 0; VInt U64 10; chars 1; chars 2; VInt U64 3] [ints 8 (cstr "{""a"": ""b""}"); ints 8 (cstr "a"); ints 8 [1;2;3]] tt
  = Ok
    (VInt IBool 1,
    [[CI 8 123; CI 8 34; CI 8 97; CI 8 34; CI 8 58; CI 8 32; 
    CI 8 34; CI 8 98; CI 8 34; CI 8 125; CI 8 0]; [CI 8 97; CI 8 0];
    [CI 8 98; CI 8 0; CI 8 3]], ()).
Proof. repeat split; vm_compute; reflexivity. Qed.
