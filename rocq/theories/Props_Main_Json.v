(** * C102: the C text of json.c

    Composition of the theorems about the model (C54-C60) with C89.  The buffer is object [b], of
    which the functions are told the first [n] bytes; [beyond] is the rest of it.  The key searched
    for is the string [k] in object [bk], the value is written to the [len val] first bytes of
    object [bv]. *)
From Coq Require Import String.
From Verif Require Import CSem Lib CLang C_Json Spec_Json Drive_Json Refine Drive_TextRun Drive_JsonText
  Proof_TextJson.

Local Notation chars b := (VPtr (TInt IChar) (BObj b) 0).
Local Notation strings kvs := (Forall (fun kv => (no_nul (fst kv) /\ bytes (fst kv)) /\
                                                 (no_nul (snd kv) /\ bytes (snd kv))) kvs).

(** ** Building *)

Theorem C102_build : forall (W : Type) sc
    (ext : Z -> list val -> mem -> W -> outcome (val * mem * W)) fuel m w b n buffer beyond,
  m !! b = Some (ints 8 (buffer ++ beyond)) -> n = len buffer -> len (buffer ++ beyond) < 2 ^ 64 ->
  forall kvs, n < 2 ^ 63 ->
  Forall (fun kv => no_nul (fst kv) /\ no_nul (snd kv)) kvs -> len (json_text kvs) + 1 <= n ->
  json_calls sc ext fuel b n (build kvs) m w
  = Ok (replicate (length kvs + 2) true, <[b := ints 8 (put (json_text kvs) buffer ++ beyond)]> m, w).
Proof. exact @text_build. Qed.
Print Assumptions C102_build.
Example C102_build_ex :
  json_calls true no_ext 50 0 18 (build [(str "k", str "v"); ([], str "x")]) [ints 8 (replicate 20 9)] tt
  = Ok ([true; true; true; true], [ints 8 (cstr "{""k"":""v"","""":""x""}" ++ replicate 3 9)], tt)
  /\ json_calls true no_ext 50 0 15 (build [(str "k", str "v"); ([], str "x")]) [ints 8 (replicate 20 9)] tt
  = Ok ([true; true; false; true], [ints 8 (cstr "{""k"":""v"",}" ++ replicate 9 9)], tt).
Proof. split; vm_compute; reflexivity. Qed.

(** every sequence of calls after a successful start; [None]: the calls overrun the buffer *)
Theorem C102_sequence : forall (W : Type) sc
    (ext : Z -> list val -> mem -> W -> outcome (val * mem * W)) fuel m w b n buffer beyond,
  m !! b = Some (ints 8 (buffer ++ beyond)) -> n = len buffer -> len (buffer ++ beyond) < 2 ^ 64 ->
  forall ops, 2 <= n -> n < 2 ^ 63 -> Forall op_ok ops ->
  match text_run n (Start :: ops) [] with
  | Some (rs, s) => exists buffer',
      json_calls sc ext fuel b n (Start :: ops) m w
      = Ok (rs, <[b := ints 8 (buffer' ++ beyond)]> m, w) /\
      is_cstring buffer' s /\ len buffer' = n
  | None => beyond = [] -> json_calls sc ext fuel b n (Start :: ops) m w = UB OutOfBounds
  end.
Proof. exact @text_sequence. Qed.
Print Assumptions C102_sequence.
Example C102_sequence_ex :
  json_calls true no_ext 50 0 16 [Start; Add (str "a") (str "b"); Add (str "a") (str "bc"); Add [] []; End]
    [ints 8 (replicate 16 9)] tt
  = Ok ([true; true; false; true; true], [ints 8 (cstr "{""a"":""b"","""":""""}")], tt)
  /\ json_calls true no_ext 50 0 9 [Start; Add (str "a") (str "b"); Add [] []] [ints 8 (replicate 9 9)] tt
  = UB OutOfBounds.
Proof. split; vm_compute; reflexivity. Qed.

(** ** Searching *)

(** on arbitrary bytes: no undefined behaviour, and only the value object is written *)
Theorem C102_find_safe : forall (W : Type) sc
    (ext : Z -> list val -> mem -> W -> outcome (val * mem * W)) fuel m w b bk bv o bb key k val vb,
  m !! b = Some (ints 8 (o ++ bb)) -> m !! bk = Some (ints 8 key) ->
  m !! bv = Some (ints 8 (val ++ vb)) -> b <> bk -> b <> bv -> bk <> bv ->
  bytes (o ++ bb) -> is_cstring key k -> len o < 2 ^ 32 -> len key < 2 ^ 64 ->
  len (val ++ vb) < 2 ^ 64 -> len (o ++ bb) + 1 < Z.of_nat fuel ->
  exists r val', len val' = len val /\
    call sc ext fuel c_Json_findByKey
      [chars b; VInt U64 (len o); chars bk; chars bv; VInt U64 (len val)] m w
    = Ok (VInt IBool (b2z r), <[bv := ints 8 (val' ++ vb)]> m, w).
Proof. exact @text_find_safe. Qed.
Print Assumptions C102_find_safe.
Example C102_find_safe_ex :
  call true no_ext 50 c_Json_findByKey [chars 0; VInt U64 5; chars 1; chars 2; VInt U64 3]
    [ints 8 [97; 34; 34; 0; 255]; ints 8 (cstr "a"); ints 8 [1; 2; 3; 4]] tt
  = Ok (VInt IBool 0, [ints 8 [97; 34; 34; 0; 255]; ints 8 (cstr "a"); ints 8 [0; 255; 3; 4]], tt).
Proof. vm_compute. reflexivity. Qed.

(** when the search succeeds, and with what *)
Theorem C102_find : forall (W : Type) sc
    (ext : Z -> list val -> mem -> W -> outcome (val * mem * W)) fuel m w b bk bv o bb key k val vb,
  m !! b = Some (ints 8 (o ++ bb)) -> m !! bk = Some (ints 8 key) ->
  m !! bv = Some (ints 8 (val ++ vb)) -> b <> bk -> b <> bv -> bk <> bv ->
  bytes (o ++ bb) -> is_cstring key k -> len o < 2 ^ 32 -> len key < 2 ^ 64 ->
  len (val ++ vb) < 2 ^ 64 -> len (o ++ bb) + 1 < Z.of_nat fuel ->
  forall m', len o < 2 ^ 32 - 1 ->
  call sc ext fuel c_Json_findByKey
    [chars b; VInt U64 (len o); chars bk; chars bv; VInt U64 (len val)] m w
  = Ok (VInt IBool 1, m', w) <->
  exists v, has_value o k v /\ len v < len val /\ m' = <[bv := ints 8 (put v val ++ vb)]> m.
Proof. exact @text_find. Qed.
Print Assumptions C102_find.
Example C102_find_ex :
  call true no_ext 50 c_Json_findByKey [chars 0; VInt U64 16; chars 1; chars 2; VInt U64 4]
    [ints 8 (cstr "{""id"": ""x:y""  }"); ints 8 (cstr "id"); ints 8 (replicate 6 1)] tt
  = Ok (VInt IBool 1,
        [ints 8 (cstr "{""id"": ""x:y""  }"); ints 8 (cstr "id"); ints 8 (cstr "x:y" ++ [1; 1])], tt).
Proof. vm_compute. reflexivity. Qed.

Theorem C102_find_absent : forall (W : Type) sc
    (ext : Z -> list val -> mem -> W -> outcome (val * mem * W)) fuel m w b bk bv o bb key k val vb,
  m !! b = Some (ints 8 (o ++ bb)) -> m !! bk = Some (ints 8 key) ->
  m !! bv = Some (ints 8 (val ++ vb)) -> b <> bk -> b <> bv -> bk <> bv ->
  bytes (o ++ bb) -> is_cstring key k -> len o < 2 ^ 32 -> len key < 2 ^ 64 ->
  len (val ++ vb) < 2 ^ 64 -> len (o ++ bb) + 1 < Z.of_nat fuel ->
  ~ occurs k o ->
  call sc ext fuel c_Json_findByKey
    [chars b; VInt U64 (len o); chars bk; chars bv; VInt U64 (len val)] m w
  = Ok (VInt IBool 0, m, w).
Proof. exact @text_find_absent. Qed.
Print Assumptions C102_find_absent.

(** a value that does not fit: its first bytes are written, without a NUL *)
Theorem C102_find_long : forall (W : Type) sc
    (ext : Z -> list val -> mem -> W -> outcome (val * mem * W)) fuel m w b bk bv o bb key k val vb,
  m !! b = Some (ints 8 (o ++ bb)) -> m !! bk = Some (ints 8 key) ->
  m !! bv = Some (ints 8 (val ++ vb)) -> b <> bk -> b <> bv -> bk <> bv ->
  bytes (o ++ bb) -> is_cstring key k -> len o < 2 ^ 32 -> len key < 2 ^ 64 ->
  len (val ++ vb) < 2 ^ 64 -> len (o ++ bb) + 1 < Z.of_nat fuel ->
  forall v, has_value o k v -> len val <= len v ->
  call sc ext fuel c_Json_findByKey
    [chars b; VInt U64 (len o); chars bk; chars bv; VInt U64 (len val)] m w
  = Ok (VInt IBool 0, <[bv := ints 8 (take (length val) v ++ vb)]> m, w).
Proof. exact @text_find_long. Qed.
Print Assumptions C102_find_long.
Example C102_find_long_ex :
  call true no_ext 50 c_Json_findByKey [chars 0; VInt U64 12; chars 1; chars 2; VInt U64 3]
    [ints 8 (cstr "{""a"":""bcd""}"); ints 8 (cstr "a"); ints 8 [1; 2; 3; 4]] tt
  = Ok (VInt IBool 0, [ints 8 (cstr "{""a"":""bcd""}"); ints 8 (cstr "a"); ints 8 (str "bcd" ++ [4])], tt)
  /\ call true no_ext 50 c_Json_findByKey [chars 0; VInt U64 12; chars 1; chars 2; VInt U64 3]
    [ints 8 (cstr "{""a"":""bcd""}"); ints 8 (cstr "x"); ints 8 [1; 2; 3; 4]] tt
  = Ok (VInt IBool 0, [ints 8 (cstr "{""a"":""bcd""}"); ints 8 (cstr "x"); ints 8 [1; 2; 3; 4]], tt).
Proof. split; vm_compute; reflexivity. Qed.

(** ** Building, then searching *)

Theorem C102_build_find : forall (W : Type) sc
    (ext : Z -> list val -> mem -> W -> outcome (val * mem * W)) fuel m w b bk bv n buffer beyond
    key k val vb,
  m !! b = Some (ints 8 (buffer ++ beyond)) -> m !! bk = Some (ints 8 key) ->
  m !! bv = Some (ints 8 (val ++ vb)) -> b <> bk -> b <> bv -> bk <> bv ->
  bytes (buffer ++ beyond) -> is_cstring key k -> n = len buffer -> n < 2 ^ 32 ->
  len (buffer ++ beyond) < 2 ^ 64 -> len key < 2 ^ 64 -> len (val ++ vb) < 2 ^ 64 ->
  len (buffer ++ beyond) + 1 < Z.of_nat fuel ->
  forall pre v post, strings (pre ++ (k, v) :: post) ->
  len (json_text (pre ++ (k, v) :: post)) + 1 <= n ->
  ~ In 34 k -> ~ In 34 v -> k <> [] -> k <> [123] ->
  Forall (fun kv => ~ occurs k (fst kv) /\ ~ occurs k (snd kv)) pre ->
  (pre <> [] -> k <> [58] /\ k <> [44]) -> len v < len val ->
  exists rs m',
    (let! '(rs, m, w) := json_calls sc ext fuel b n (build (pre ++ (k, v) :: post)) m w in
     let! '(r, m, w) := call sc ext fuel c_Json_findByKey
                          [chars b; VInt U64 n; chars bk; chars bv; VInt U64 (len val)] m w in
     Ok (rs, r, m, w)) = Ok (rs, VInt IBool 1, m', w) /\
    Forall (fun r => r = true) rs /\ m' !! bv = Some (ints 8 (put v val ++ vb)) /\
    same_but [b; bv] m m'.
Proof. exact @text_build_find. Qed.
Print Assumptions C102_build_find.
Example C102_build_find_ex :
  (let! '(rs, m, w) := json_calls true no_ext 50 0 30 (build [(str "id", str "7"); (str "name", str "x:y")])
                         [ints 8 (replicate 30 9); ints 8 (cstr "name"); ints 8 (replicate 6 1)] tt in
   let! '(r, m, w) := call true no_ext 50 c_Json_findByKey
                        [chars 0; VInt U64 30; chars 1; chars 2; VInt U64 4] m w in
   Ok (rs, r, m !! 2%nat)) = Ok ([true; true; true; true], VInt IBool 1, Some (ints 8 (cstr "x:y" ++ [1; 1]))).
Proof. vm_compute. reflexivity. Qed.

Theorem C102_build_absent : forall (W : Type) sc
    (ext : Z -> list val -> mem -> W -> outcome (val * mem * W)) fuel m w b bk bv n buffer beyond
    key k val vb,
  m !! b = Some (ints 8 (buffer ++ beyond)) -> m !! bk = Some (ints 8 key) ->
  m !! bv = Some (ints 8 (val ++ vb)) -> b <> bk -> b <> bv -> bk <> bv ->
  bytes (buffer ++ beyond) -> is_cstring key k -> n = len buffer -> n < 2 ^ 32 ->
  len (buffer ++ beyond) < 2 ^ 64 -> len key < 2 ^ 64 -> len (val ++ vb) < 2 ^ 64 ->
  len (buffer ++ beyond) + 1 < Z.of_nat fuel ->
  forall kvs, strings kvs -> len (json_text kvs) + 1 <= n ->
  ~ In 34 k -> ~ In k [[]; [123]; [125]; [123; 125]; [58]; [44]] ->
  Forall (fun kv => ~ occurs k (fst kv) /\ ~ occurs k (snd kv)) kvs ->
  ~ occurs k buffer ->
  exists rs m',
    (let! '(rs, m, w) := json_calls sc ext fuel b n (build kvs) m w in
     let! '(r, m, w) := call sc ext fuel c_Json_findByKey
                          [chars b; VInt U64 n; chars bk; chars bv; VInt U64 (len val)] m w in
     Ok (rs, r, m, w)) = Ok (rs, VInt IBool 0, m', w) /\
    Forall (fun r => r = true) rs /\ same_but [b] m m'.
Proof. exact @text_build_absent. Qed.
Print Assumptions C102_build_absent.

(** a key that ends an earlier key: the value of the other is returned *)
Theorem C102_confused_refuted : exists kvs k v v2 rs m m' (w : unit),
  NoDup (map fst kvs) /\ In (k, v) kvs /\ v2 <> v /\ Forall (fun r => r = true) rs /\
  m !! 1%nat = Some (ints 8 (k ++ [0])) /\ m' !! 2%nat = Some (ints 8 (v2 ++ [0])) /\
  (let! '(rs, m, w) := json_calls true no_ext 50 0 30 (build kvs) m w in
   let! '(r, m, w) := call true no_ext 50 c_Json_findByKey
                        [chars 0; VInt U64 30; chars 1; chars 2; VInt U64 2] m w in
   Ok (rs, r, m, w)) = Ok (rs, VInt IBool 1, m', w).
Proof. exact text_confused. Qed.
Print Assumptions C102_confused_refuted.
