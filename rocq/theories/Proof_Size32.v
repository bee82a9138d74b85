(** * Proofs for [Props_Size32.v] *)
From Coq Require Import String.
From Verif Require Import CSem Lib CFront CSystem Drive_Front Proof_Front CLang C_Utils C_Base64
  C_Containers C_Sort C_Crypto C_Json CSize32 C_Size32 Drive_Size32 Drive_ContText Drive_SortText.
From Verif Require Import Drive_Json Model_Containers Model_Json Proof_Json Proof_Term Refine Refine_Cipher Refine_Base64
  Refine_Base64Dec Refine_Json Refine_JsonFind Refine_Map Refine_MapOps Refine_SortInsert
  Refine32_Cipher Refine32_Json Refine32_JsonFind Refine32_Base64 Refine32_Base64Dec
  Refine32_Map Refine32_Sort.

Lemma program32_ok : program32 repo sources = Some c_program32.
Proof. vm_compute. reflexivity. Qed.

(** ** Names *)
Definition here (x : string) (d : fundef) : fundef :=
  match assoc x size32_functions with Some d32 => d32 | None => d end.
Lemma assoc_externs x ds r r' :
  assoc x r' = option_map (here x) (assoc x r) ->
  assoc x (externs (map (fun '(y, static, d) => (y, static, here y d)) ds) ++ r')
  = option_map (here x) (assoc x (externs ds ++ r)).
Proof.
  intros Hr. induction ds as [|[[y st] d] ds IH]; cbn; [exact Hr|].
  destruct st; cbn; [exact IH|].
  destruct (String.eqb_spec x y) as [->|]; [reflexivity|exact IH].
Qed.
Lemma assoc_functions x p :
  assoc x (functions (map (fun '(f, ds) =>
      (f, map (fun '(y, static, d) => (y, static, here y d)) ds)) p))
  = option_map (here x) (assoc x (functions p)).
Proof.
  induction p as [|[f ds] p IH]; cbn; [reflexivity|]. apply assoc_externs. exact IH.
Qed.
Lemma functions32 x : assoc x (functions c_program32) = option_map (here x) (assoc x (functions c_program)).
Proof. apply assoc_functions. Qed.

Section run.
  Context {W : Type} (sc : bool)
          (ext : Z -> list val -> mem -> W -> outcome (val * mem * W)) (fuel : nat).
  Local Notation run64 x := (run_text sc ext fuel repo sources x).
  Local Notation run32 x := (run_text32 sc ext fuel repo sources x).
  Local Notation chars b := (VPtr (TInt IChar) (BObj b) 0).

  Lemma run_other x args (m : mem) (w : W) :
    assoc x size32_functions = None -> run32 x args m w = run64 x args m w.
  Proof.
    intros Hx. unfold run_text32, run_text. rewrite program32_ok, program_ok.
    change (match assoc x (functions c_program32) with
            | Some d => call sc ext fuel d args m w | None => UB BadType end
            = match assoc x (functions c_program) with
            | Some d => call sc ext fuel d args m w | None => UB BadType end).
    rewrite functions32. unfold here. rewrite Hx.
    destruct (assoc x (functions c_program)); reflexivity.
  Qed.
  Lemma run32_ok x d args m w :
    assoc x (functions c_program32) = Some d -> run32 x args m w = call sc ext fuel d args m w.
  Proof.
    intros H. unfold run_text32. rewrite program32_ok.
    change (match assoc x (functions c_program32) with
            | Some d => call sc ext fuel d args m w | None => UB BadType end
            = call sc ext fuel d args m w).
    rewrite H. reflexivity.
  Qed.
  Lemma run_pair x d32 d args32 args m w :
    assoc x (functions c_program32) = Some d32 -> assoc x (functions c_program) = Some d ->
    call sc ext fuel d32 args32 m w = call sc ext fuel d args m w ->
    run32 x args32 m w = run64 x args m w.
  Proof.
    intros H32 H E. rewrite (run32_ok x d32) by exact H32. rewrite (run_text_ok sc ext fuel x d) by exact H.
    exact E.
  Qed.

  Lemma caesar_encrypt32 m w b o k :
    m !! b = Some (ints 8 o) -> bytes o -> is_byte k -> len o < 2 ^ 32 -> (length o < fuel)%nat ->
    run32 "CaesarCipher_encrypt" [chars b; VInt U8 k] m w
    = run64 "CaesarCipher_encrypt" [chars b; VInt U8 k] m w.
  Proof.
    intros. apply (run_pair _ c32_CaesarCipher_encrypt c_CaesarCipher_encrypt); [vm_compute; reflexivity..|].
    rewrite (ref32_caesar_encrypt sc ext fuel m w b o k), (ref_caesar_encrypt sc ext fuel m w b o k) by (first [done|lia]). reflexivity.
  Qed.
  Lemma vernam_encrypt32 m w b o b' o' k :
    m !! b = Some (ints 8 o) -> m !! b' = Some (ints 8 o') -> b <> b' -> bytes o -> bytes o' ->
    is_s32 k -> len o < 2 ^ 32 -> (length o < fuel)%nat ->
    run32 "VernamCipher_encrypt" [chars b; chars b'; VInt I32 k] m w
    = run64 "VernamCipher_encrypt" [chars b; chars b'; VInt I32 k] m w.
  Proof.
    intros. apply (run_pair _ c32_VernamCipher_encrypt c_VernamCipher_encrypt); [vm_compute; reflexivity..|].
    rewrite (ref32_vernam_encrypt sc ext fuel m w b o b' o' k), (ref_vernam_encrypt sc ext fuel m w b o b' o' k)
      by (first [done|lia]). reflexivity.
  Qed.
  Lemma caesar_decrypt32 m w b o k :
    m !! b = Some (ints 8 o) -> bytes o -> is_byte k -> len o < 2 ^ 32 -> (length o < fuel)%nat ->
    run32 "CaesarCipher_decrypt" [chars b; VInt U8 k] m w
    = run64 "CaesarCipher_decrypt" [chars b; VInt U8 k] m w.
  Proof.
    intros. apply (run_pair _ c32_CaesarCipher_decrypt c_CaesarCipher_decrypt); [vm_compute; reflexivity..|].
    rewrite (ref32_caesar_decrypt sc ext fuel m w b o k), (ref_caesar_decrypt sc ext fuel m w b o k) by (first [done|lia]). reflexivity.
  Qed.
  Lemma vernam_decrypt32 m w b o b' o' k :
    m !! b = Some (ints 8 o) -> m !! b' = Some (ints 8 o') -> b <> b' -> bytes o -> bytes o' ->
    is_s32 k -> len o < 2 ^ 32 -> (length o < fuel)%nat ->
    run32 "VernamCipher_decrypt" [chars b; chars b'; VInt I32 k] m w
    = run64 "VernamCipher_decrypt" [chars b; chars b'; VInt I32 k] m w.
  Proof.
    intros. apply (run_pair _ c32_VernamCipher_decrypt c_VernamCipher_decrypt); [vm_compute; reflexivity..|].
    rewrite (ref32_vernam_decrypt sc ext fuel m w b o b' o' k), (ref_vernam_decrypt sc ext fuel m w b o b' o' k)
      by (first [done|lia]). reflexivity.
  Qed.
  Lemma start32 m w b o n :
    m !! b = Some (ints 8 o) -> is_u32 n ->
    run32 "Json_startString" [chars b; VInt U32 n] m w
    = run64 "Json_startString" [chars b; VInt U64 n] m w.
  Proof.
    intros. apply (run_pair _ c32_Json_startString c_Json_startString); [vm_compute; reflexivity..|].
    rewrite (ref32_Json_startString sc ext fuel m w b o n), (ref_Json_startString sc ext fuel m w b o n)
      by (first [done|unfold is_u32, is_u64 in *; lia]). reflexivity.
  Qed.
  Lemma end32 m w b o n :
    m !! b = Some (ints 8 o) -> is_u32 n -> len o < 2 ^ 32 - 1 ->
    run32 "Json_endString" [chars b; VInt U32 n] m w
    = run64 "Json_endString" [chars b; VInt U64 n] m w.
  Proof.
    intros. apply (run_pair _ c32_Json_endString c_Json_endString); [vm_compute; reflexivity..|].
    rewrite (ref32_Json_endString sc ext fuel m w b o n), (ref_Json_endString sc ext fuel m w b o n)
      by (first [done|unfold is_u32, is_u64 in *; lia]). reflexivity.
  Qed.
  Lemma add32 m w b o n b1 k b2 v :
    m !! b = Some (ints 8 o) -> m !! b1 = Some (ints 8 k) -> m !! b2 = Some (ints 8 v) ->
    b <> b1 -> b <> b2 -> is_u32 n -> len o + len k + len v < 2 ^ 32 - 16 ->
    run32 "Json_addData" [chars b; VInt U32 n; chars b1; chars b2] m w
    = run64 "Json_addData" [chars b; VInt U64 n; chars b1; chars b2] m w.
  Proof.
    intros. apply (run_pair _ c32_Json_addData c_Json_addData); [vm_compute; reflexivity..|].
    pose proof (len_nonneg o). pose proof (len_nonneg k). pose proof (len_nonneg v).
    rewrite (ref32_Json_addData sc ext fuel m w b o n b1 k b2 v), (ref_Json_addData sc ext fuel m w b o n b1 k b2 v)
      by (first [done|unfold is_u32, is_u64 in *; lia]). reflexivity.
  Qed.
  Lemma find32 m w b o n b1 k b2 v mx :
    m !! b = Some (ints 8 o) -> m !! b1 = Some (ints 8 k) -> m !! b2 = Some (ints 8 v) ->
    b <> b1 -> b <> b2 -> b1 <> b2 -> is_u32 n -> is_u32 mx -> bytes o -> len k < 2 ^ 32 -> len v < 2 ^ 64 ->
    (S (length o) < fuel)%nat ->
    run32 "Json_findByKey" [chars b; VInt U32 n; chars b1; chars b2; VInt U32 mx] m w
    = run64 "Json_findByKey" [chars b; VInt U64 n; chars b1; chars b2; VInt U64 mx] m w.
  Proof.
    intros. apply (run_pair _ c32_Json_findByKey c_Json_findByKey); [vm_compute; reflexivity..|].
    assert (is_u64 n /\ is_u64 mx) as [? ?] by (unfold is_u32, is_u64 in *; lia).
    pose proof (find_nd o n k v mx ltac:(unfold is_u32 in *; lia) ltac:(done) ltac:(done)).
    rewrite (ref32_Json_findByKey sc ext fuel m w b o n b1 k b2 v mx), (ref_Json_findByKey sc ext fuel m w b o n b1 k b2 v mx)
      by (first [done|lia]). reflexivity.
  Qed.
  Lemma encode32 m w bd d n br r mx :
    m !! bd = Some (ints 8 d) -> m !! br = Some (ints 8 r) -> bd <> br -> bytes d ->
    0 <= n < 3 * 2 ^ 30 - 2 -> is_u32 mx -> (length d < fuel)%nat ->
    run32 "Base64_encode" [chars bd; VInt U32 n; chars br; VInt U32 mx] m w
    = run64 "Base64_encode" [chars bd; VInt U64 n; chars br; VInt U64 mx] m w.
  Proof.
    intros. apply (run_pair _ c32_Base64_encode c_Base64_encode); [vm_compute; reflexivity..|].
    rewrite (ref32_encode sc ext fuel m w bd d n br r mx), (ref_encode sc ext fuel m w bd d n br r mx)
      by (first [done|unfold is_u32, is_u64 in *; lia]). reflexivity.
  Qed.
  Lemma encode_long32 m w bd d n br r mx :
    m !! bd = Some (ints 8 d) -> m !! br = Some (ints 8 r) ->
    3 * 2 ^ 30 - 2 <= n < 2 ^ 32 -> is_u32 mx ->
    run32 "Base64_encode" [chars bd; VInt U32 n; chars br; VInt U32 mx] m w = Ok (VInt I32 1, m, w).
  Proof.
    intros. rewrite (run32_ok "Base64_encode" c32_Base64_encode) by (vm_compute; reflexivity).
    apply (ref32_encode_long sc ext fuel m w bd d n br r mx); done.
  Qed.
  Lemma decode32 m w bi d n bo o mx :
    m !! bi = Some (ints 8 d) -> m !! bo = Some (ints 8 o) -> bi <> bo -> bytes d ->
    is_u32 n -> is_u32 mx -> (length d < fuel)%nat ->
    run32 "Base64_decode" [chars bi; VInt U32 n; byte_ptr bo; VInt U32 mx] m w
    = run64 "Base64_decode" [chars bi; VInt U64 n; byte_ptr bo; VInt U64 mx] m w.
  Proof.
    intros. apply (run_pair _ c32_Base64_decode c_Base64_decode); [vm_compute; reflexivity..|].
    unfold byte_ptr. rewrite (ref32_decode sc ext fuel m w bi d n bo o mx), (ref_decode sc ext fuel m w bi d n bo o mx)
      by (first [done|unfold is_u32, is_u64 in *; lia]). reflexivity.
  Qed.
  Lemma insert32 m w s kb vb map k key v value :
    opt_at map (map_at m s kb vb) -> opt_at map map_s32 ->
    opt_at map (fun mp => 0 <= m_key_size mp /\ 0 <= m_value_size mp) ->
    bytes_at m k key -> bytes_at m v value -> k <> kb -> v <> kb -> v <> vb ->
    opt_at map (fun mp => (Z.to_nat (m_current_size mp) < fuel)%nat) ->
    run32 "Map_insert" [opt_ptr map (struct_ptr 6 s); byte_ptr k; byte_ptr v] m w
    = run64 "Map_insert" [opt_ptr map (struct_ptr 6 s); byte_ptr k; byte_ptr v] m w.
  Proof.
    intros. apply (run_pair _ c32_Map_insert c_Map_insert); [vm_compute; reflexivity..|].
    rewrite (ref32_Map_insert sc ext fuel m w s kb vb map k key v value), (ref_Map_insert sc ext fuel m w s kb vb map k key v value)
      by done. reflexivity.
  Qed.
  Lemma get32 m w s kb vb map k key v value :
    opt_at map (map_at m s kb vb) -> opt_at map map_s32 ->
    opt_at map (fun mp => 0 <= m_key_size mp /\ 0 <= m_value_size mp) ->
    bytes_at m k key -> bytes_at m v value -> v <> vb ->
    opt_at map (fun mp => (Z.to_nat (m_current_size mp) < fuel)%nat) ->
    run32 "Map_getValue" [opt_ptr map (struct_ptr 6 s); byte_ptr k; byte_ptr v] m w
    = run64 "Map_getValue" [opt_ptr map (struct_ptr 6 s); byte_ptr k; byte_ptr v] m w.
  Proof.
    intros. apply (run_pair _ c32_Map_getValue c_Map_getValue); [vm_compute; reflexivity..|].
    rewrite (ref32_Map_getValue sc ext fuel m w s kb vb map k key v value), (ref_Map_getValue sc ext fuel m w s kb vb map k key v value)
      by done. reflexivity.
  Qed.

  Lemma add_run64 args m w : run64 "Json_addData" args m w = call sc ext fuel c_Json_addData args m w.
  Proof. apply (run_text_ok sc ext fuel "Json_addData" c_Json_addData). vm_compute. reflexivity. Qed.
  Lemma end_run64 args m w : run64 "Json_endString" args m w = call sc ext fuel c_Json_endString args m w.
  Proof. apply (run_text_ok sc ext fuel "Json_endString" c_Json_endString). vm_compute. reflexivity. Qed.
  Lemma end_run32 args m w : run32 "Json_endString" args m w = call sc ext fuel c32_Json_endString args m w.
  Proof. apply (run32_ok "Json_endString" c32_Json_endString). vm_compute. reflexivity. Qed.
  Lemma add_run32 args m w : run32 "Json_addData" args m w = call sc ext fuel c32_Json_addData args m w.
  Proof. apply (run32_ok "Json_addData" c32_Json_addData). vm_compute. reflexivity. Qed.
End run.

Lemma insertion32 {T} (cmp : T -> list Z -> list Z -> T * bool) sc fuel es m t b o b' el p n f :
  m !! b = Some (ints 8 o) -> m !! b' = Some (ints 8 el) -> b <> b' -> is_s32 n -> is_s32 es -> 0 <= es ->
  (Z.to_nat n < fuel)%nat ->
  run_text32 sc (byte_cmp cmp es) fuel repo sources "InsertionSort_sort"
    [VPtr (TInt U8) (BObj b') 0; VPtr (TInt U8) (BObj b) p; VInt I32 n; VInt I32 es; VFun f] m t
  = run_text sc (byte_cmp cmp es) fuel repo sources "InsertionSort_sort"
    [VPtr (TInt U8) (BObj b') 0; VPtr (TInt U8) (BObj b) p; VInt I32 n; VInt I32 es; VFun f] m t.
Proof.
  intros. apply (run_pair _ _ _ _ c32_InsertionSort_sort c_InsertionSort_sort); [vm_compute; reflexivity..|].
  rewrite (text32_insertion cmp sc fuel es m t b o b' el p n f), (text_insertion cmp sc fuel es m t b o b' el p n f)
    by done. reflexivity.
Qed.

(** three strings whose lengths add up to [2 ^ 32] *)
Lemma wrap_bytes n : 0 <= n -> exists s, no_nul s /\ len s = n.
Proof.
  intros Hn.
  assert (forall k : nat, exists s, no_nul s /\ length s = k) as H.
  { intros k. exists (replicate k 97). split; [apply Forall_replicate; lia|apply replicate_length]. }
  destruct (H (Z.to_nat n)) as [s [Hs Hl]]. exists s. split; [exact Hs|].
  unfold len. rewrite Hl. apply Z2Nat.id. exact Hn.
Qed.
Lemma add_wrap64 s fuel : no_nul s -> len s = 2 ^ 31 - 3 ->
  call true (@no_ext Datatypes.unit) fuel c_Json_addData
    [VPtr (TInt IChar) (BObj 0) 0; VInt U64 4; VPtr (TInt IChar) (BObj 1) 0; VPtr (TInt IChar) (BObj 1) 0]
    [ints 8 [123; 0; 0; 0]; ints 8 (s ++ [0])] tt
  = Ok (VInt IBool 0, [ints 8 [123; 0; 0; 0]; ints 8 (s ++ [0])], tt).
Proof.
  intros Hn Hs.
  assert (len (s ++ [0]) = 2 ^ 31 - 2) as Hk. { rewrite len_app, Hs. done. }
  assert (strlen (s ++ [0]) = Ok (2 ^ 31 - 3)) as El.
  { rewrite strlen_app by done. by rewrite Hs. }
  rewrite (ref_Json_addData true no_ext fuel _ tt 0 [123; 0; 0; 0] 4 1 (s ++ [0]) 1 (s ++ [0]))
    by (first [done|unfold is_u64; lia]).
  unfold Json_addData. change (strlen [123; 0; 0; 0]) with (@Ok Z 1). rewrite El. cbn [bind].
  reflexivity.
Qed.
Lemma add_wrap_ub s fuel : no_nul s -> len s = 2 ^ 31 - 3 ->
  call true (@no_ext Datatypes.unit) fuel c32_Json_addData
    [VPtr (TInt IChar) (BObj 0) 0; VInt U32 4; VPtr (TInt IChar) (BObj 1) 0; VPtr (TInt IChar) (BObj 1) 0]
    [ints 8 [123; 0; 0; 0]; ints 8 (s ++ [0])] tt
  = UB OutOfBounds.
Proof.
  intros Hn Hs.
  assert (len (s ++ [0]) = 2 ^ 31 - 2) as Hk. { rewrite len_app, Hs. done. }
  assert (strlen (s ++ [0]) = Ok (2 ^ 31 - 3)) as El.
  { rewrite strlen_app by done. by rewrite Hs. }
  rewrite (ref32_addData true no_ext fuel _ tt 0 [123; 0; 0; 0] 4 1 (s ++ [0]) 1 (s ++ [0]))
    by (first [done|unfold is_u32; lia]).
  unfold addData32. change (strlen [123; 0; 0; 0]) with (@Ok Z 1). rewrite El. cbn [bind].
  change (strcmp_eq [123; 0; 0; 0] (u32 (1 - 1)) lit_quote) with (@Ok bool false). cbn [bind].
  change (u32 (u32 (u32 (u32 (5 + (2 ^ 31 - 3)) + (2 ^ 31 - 3)) + 1) + 1) <=? 4) with true. cbv iota.
  change (strcpy [123; 0; 0; 0] 1 lit_quote) with (@Ok (list Z) [123; 34; 0; 0]). cbn [bind].
  change (u32 (1 + 1)) with 2.
  rewrite (Proof_Json.strcpy_oob [123; 34] [0; 0] s [] 2) by (first [done|unfold len in *; cbn; lia]). reflexivity.
Qed.
Lemma add_wrap32 : exists o k n m,
  m !! 0%nat = Some (ints 8 o) /\ m !! 1%nat = Some (ints 8 k) /\ is_u32 n /\ n = len o /\ len k < 2 ^ 31 /\
  (forall fuel, run_text true (@no_ext Datatypes.unit) fuel repo sources "Json_addData"
     [VPtr (TInt IChar) (BObj 0) 0; VInt U64 n; VPtr (TInt IChar) (BObj 1) 0; VPtr (TInt IChar) (BObj 1) 0] m tt
   = Ok (VInt IBool 0, m, tt)) /\
  (forall fuel, run_text32 true (@no_ext Datatypes.unit) fuel repo sources "Json_addData"
     [VPtr (TInt IChar) (BObj 0) 0; VInt U32 n; VPtr (TInt IChar) (BObj 1) 0; VPtr (TInt IChar) (BObj 1) 0] m tt
   = UB OutOfBounds).
Proof.
  destruct (wrap_bytes (2 ^ 31 - 3)) as [s [Hn Hs]]; [lia|].
  assert (len (s ++ [0]) = 2 ^ 31 - 2) as Hk. { rewrite len_app, Hs. done. }
  exists [123; 0; 0; 0], (s ++ [0]), 4, [ints 8 [123; 0; 0; 0]; ints 8 (s ++ [0])].
  split; [reflexivity|]. split; [reflexivity|]. split; [unfold is_u32; lia|]. split; [reflexivity|].
  split; [lia|].
  split; intros fuel.
  - rewrite add_run64. exact (add_wrap64 s fuel Hn Hs).
  - rewrite add_run32. exact (add_wrap_ub s fuel Hn Hs).
Qed.

Lemma end_wrap64 s fuel n : no_nul s -> len s = 2 ^ 32 - 2 -> n = 2 ^ 32 - 1 ->
  call true (@no_ext Datatypes.unit) fuel c_Json_endString
    [VPtr (TInt IChar) (BObj 0) 0; VInt U64 n] [ints 8 (s ++ [0])] tt
  = Ok (VInt IBool 0, [ints 8 (s ++ [0])], tt).
Proof.
  intros Hn Hs ->.
  assert (len (s ++ [0]) = 2 ^ 32 - 1) as Hk. { rewrite len_app, Hs. done. }
  assert (strlen (s ++ [0]) = Ok (2 ^ 32 - 2)) as El.
  { rewrite strlen_app by done. by rewrite Hs. }
  rewrite (ref_Json_endString true no_ext fuel _ tt 0 (s ++ [0]) (2 ^ 32 - 1))
    by (first [done|unfold is_u64; lia]).
  unfold Json_endString. rewrite El. cbn [bind].
  change (u64 (MINIMAL_SIZE + (2 ^ 32 - 2)) <=? 2 ^ 32 - 1) with false. cbv iota. reflexivity.
Qed.
Lemma end_wrap_ub s fuel n : no_nul s -> len s = 2 ^ 32 - 2 -> n = 2 ^ 32 - 1 ->
  call true (@no_ext Datatypes.unit) fuel c32_Json_endString
    [VPtr (TInt IChar) (BObj 0) 0; VInt U32 n] [ints 8 (s ++ [0])] tt
  = UB OutOfBounds.
Proof.
  intros Hn Hs ->.
  assert (len (s ++ [0]) = 2 ^ 32 - 1) as Hk. { rewrite len_app, Hs. done. }
  assert (strlen (s ++ [0]) = Ok (2 ^ 32 - 2)) as El.
  { rewrite strlen_app by done. by rewrite Hs. }
  rewrite (ref32_endString true no_ext fuel _ tt 0 (s ++ [0]) (2 ^ 32 - 1))
    by (first [done|unfold is_u32; lia]).
  unfold endString32. rewrite El. cbn [bind].
  change (u32 (MINIMAL_SIZE + (2 ^ 32 - 2)) <=? 2 ^ 32 - 1) with true. cbv iota.
  rewrite (Proof_Json.strcpy_oob s [0] [125] [] (2 ^ 32 - 2)) by (first [done|repeat constructor; lia]).
  reflexivity.
Qed.
Lemma end_wrap32 : exists o n m,
  m !! 0%nat = Some (ints 8 o) /\ is_u32 n /\ n = len o /\ len o = 2 ^ 32 - 1 /\
  (forall fuel, run_text true (@no_ext Datatypes.unit) fuel repo sources "Json_endString"
     [VPtr (TInt IChar) (BObj 0) 0; VInt U64 n] m tt = Ok (VInt IBool 0, m, tt)) /\
  (forall fuel, run_text32 true (@no_ext Datatypes.unit) fuel repo sources "Json_endString"
     [VPtr (TInt IChar) (BObj 0) 0; VInt U32 n] m tt = UB OutOfBounds).
Proof.
  destruct (wrap_bytes (2 ^ 32 - 2)) as [s [Hn Hs]]; [lia|].
  assert (len (s ++ [0]) = 2 ^ 32 - 1) as Hk. { rewrite len_app, Hs. done. }
  exists (s ++ [0]), (len (s ++ [0])), [ints 8 (s ++ [0])].
  split; [reflexivity|]. split; [unfold is_u32; lia|]. split; [reflexivity|]. split; [exact Hk|].
  split; intros fuel.
  - rewrite end_run64. exact (end_wrap64 s fuel _ Hn Hs Hk).
  - rewrite end_run32. exact (end_wrap_ub s fuel _ Hn Hs Hk).
Qed.
