(** * Properties C54-C60: json.c

    [n] is the size given to the functions; [beyond], [bb] and [vb] lie behind the buffers. *)
From Coq Require Import String.
From Verif Require Import CSem Lib Model_Json Spec_Json Drive_Json Proof_Json Proof_JsonProps.

(** ** C54 JSON builder produces the stated text *)

Theorem C54_build : forall n kvs buffer beyond, n = len buffer -> n < 2 ^ 63 ->
  Forall (fun kv => no_nul (fst kv) /\ no_nul (snd kv)) kvs -> len (json_text kvs) + 1 <= n ->
  json_run n (build kvs) (buffer ++ beyond)
  = Ok (replicate (length kvs + 2) true, put (json_text kvs) buffer ++ beyond).
Proof. exact build_ok. Qed.
Print Assumptions C54_build.
(** and only then do all calls succeed *)
Theorem C54_build_only : forall n kvs buffer rs buffer', n = len buffer -> n < 2 ^ 63 ->
  Forall (fun kv => no_nul (fst kv) /\ no_nul (snd kv) /\ len (fst kv) + len (snd kv) + 8 < 2 ^ 63) kvs ->
  json_run n (build kvs) buffer = Ok (rs, buffer') -> Forall (fun r => r = true) rs ->
  len (json_text kvs) + 1 <= n.
Proof. exact build_only. Qed.
Print Assumptions C54_build_only.
Example C54_text_ex :
  json_text [(str "k", str "v"); ([], str "x y")] = str "{""k"":""v"","""":""x y""}".
Proof. ex. Qed.
Example C54_build_ex :
  json_run 24 (build [(str "k", str "v"); ([], str "x y")]) (replicate 26 9)
  = Ok ([true; true; true; true], cstr "{""k"":""v"","""":""x y""}" ++ replicate 7 9).
Proof. ex. Qed.

(** ** C55 JSON builder success conditions; a failed addData may corrupt the text *)

Theorem C55_start : forall buffer n, n <= len buffer ->
  Json_startString buffer n = if fits n [123] then Ok (true, put [123] buffer) else Ok (false, buffer).
Proof. exact start_exact. Qed.
Print Assumptions C55_start.
(** [s] is the text so far *)
Theorem C55_add : forall buffer key value s k v n, is_cstring buffer s -> is_cstring key k ->
  is_cstring value v -> s <> [] -> len s + len k + len v + 8 < 2 ^ 64 -> n <= len buffer ->
  Json_addData buffer n key value =
  if fits n (s ++ separator s ++ pair_text (k, v))
  then Ok (true, put (s ++ separator s ++ pair_text (k, v)) buffer)
  else if ends_in_quote s then
    if len s + 2 <=? len buffer then Ok (false, put (s ++ [44]) buffer) else UB OutOfBounds
  else Ok (false, buffer).
Proof. exact add_ok. Qed.
Print Assumptions C55_add.
Theorem C55_end : forall buffer n s, is_cstring buffer s -> n <= len buffer -> len s + 2 < 2 ^ 64 -> n < 2 ^ 64 ->
  Json_endString buffer n
  = if fits n (s ++ [125]) then Ok (true, put (s ++ [125]) buffer) else Ok (false, buffer).
Proof. exact end_exact. Qed.
Print Assumptions C55_end.
(** sizes that just suffice and that are one short *)
Example C55_calls_ex :
  Json_startString [9; 9; 9] 2 = Ok (true, [123; 0; 9]) /\
  Json_startString [9; 9; 9] 1 = Ok (false, [9; 9; 9]) /\
  Json_addData (cstr "{" ++ replicate 9 9) 9 (cstr "k") (cstr "vw") = Ok (false, cstr "{" ++ replicate 9 9) /\
  Json_addData (cstr "{" ++ replicate 9 9) 10 (cstr "k") (cstr "vw") = Ok (true, cstr "{""k"":""vw""" ++ [9]) /\
  Json_addData (cstr "{""""" ++ replicate 6 9) 9 (cstr "") (cstr "") = Ok (false, cstr "{""""," ++ replicate 5 9) /\
  Json_addData (cstr "{""""" ++ replicate 6 9) 10 (cstr "") (cstr "") = Ok (true, cstr "{"""","""":""""") /\
  Json_endString (cstr "{""" ++ [9; 9]) 4 = Ok (true, cstr "{""}" ++ [9]) /\
  Json_endString (cstr "{""" ++ [9; 9]) 3 = Ok (false, cstr "{""" ++ [9; 9]).
Proof. repeat split; ex. Qed.
(** every sequence of calls after a successful start *)
Theorem C55_sequence : forall n beyond ops buffer, 2 <= n -> n = len buffer -> n < 2 ^ 63 ->
  Forall op_ok ops ->
  match text_run n (Start :: ops) [] with
  | Some (rs, s) => exists buffer',
      json_run n (Start :: ops) (buffer ++ beyond) = Ok (rs, buffer' ++ beyond) /\
      is_cstring buffer' s /\ len buffer' = n
  | None => json_run n (Start :: ops) buffer = UB OutOfBounds
  end.
Proof. exact run_start. Qed.
Print Assumptions C55_sequence.
Example C55_sequence_ex :
  text_run 16 [Start; Add (str "a") (str "b"); Add (str "a") (str "bc"); Add [] []; End; Start] []
  = Some ([true; true; false; true; true; true], str "{") /\
  text_run 15 [Start; Add (str "a") (str "b"); Add (str "a") (str "bc"); End; Start] []
  = Some ([true; true; false; true; true], str "{").
Proof. split; ex. Qed.
(** a failed addData does not leave the text unchanged, and the text may end in ",}" *)
Theorem C55_failed_add_unchanged_refuted : exists buffer n key value s k v buffer',
  is_cstring buffer s /\ is_cstring key k /\ is_cstring value v /\ n = len buffer /\
  Json_addData buffer n key value = Ok (false, buffer') /\ ~ is_cstring buffer' s.
Proof. exact failed_add_changes. Qed.
Print Assumptions C55_failed_add_unchanged_refuted.
Theorem C55_valid_text_refuted : exists n k v k2 v2 buffer buffer' s,
  n = len buffer /\
  json_run n [Start; Add k v; Add k2 v2; End] buffer = Ok ([true; true; false; true], buffer') /\
  is_cstring buffer' (s ++ [44; 125]).
Proof. exact comma_brace. Qed.
Print Assumptions C55_valid_text_refuted.

(** ** C56 JSON builder memory bounds *)

Theorem C56_start : forall buffer n, n = len buffer ->
  exists buffer', len buffer' = n /\ forall beyond,
    Json_startString (buffer ++ beyond) n = Ok (fits n [123], buffer' ++ beyond) /\
    (fits n [123] = true -> buffer' = put [123] buffer) /\ (fits n [123] = false -> buffer' = buffer).
Proof. exact start_bounds. Qed.
Print Assumptions C56_start.
Theorem C56_end : forall buffer n s, n = len buffer -> is_cstring buffer s -> n < 2 ^ 64 - 1 ->
  exists buffer', len buffer' = n /\ forall beyond,
    Json_endString (buffer ++ beyond) n = Ok (fits n (s ++ [125]), buffer' ++ beyond) /\
    (fits n (s ++ [125]) = true -> buffer' = put (s ++ [125]) buffer) /\
    (fits n (s ++ [125]) = false -> buffer' = buffer).
Proof. exact end_bounds. Qed.
Print Assumptions C56_end.
Theorem C56_add : forall buffer n s key k value v, n = len buffer -> is_cstring buffer s ->
  is_cstring key k -> is_cstring value v -> s <> [] -> len s + len k + len v + 8 < 2 ^ 64 ->
  ~ (ends_in_quote s = true /\ len s + 1 = n) ->
  exists r buffer', len buffer' = n /\ forall beyond,
    Json_addData (buffer ++ beyond) n key value = Ok (r, buffer' ++ beyond).
Proof. exact add_bounds. Qed.
Print Assumptions C56_add.
(** the excluded case: one byte beyond the buffer becomes 0 *)
Theorem C56_add_overrun : forall buffer n s key k value v, n = len buffer -> is_cstring buffer s ->
  is_cstring key k -> is_cstring value v -> len s + len k + len v + 8 < 2 ^ 64 ->
  ends_in_quote s = true -> len s + 1 = n ->
  Json_addData buffer n key value = UB OutOfBounds /\
  forall x beyond, Json_addData (buffer ++ x :: beyond) n key value
    = Ok (false, s ++ [44] ++ [0] ++ beyond).
Proof. exact add_overrun. Qed.
Print Assumptions C56_add_overrun.
(** the other excluded case *)
Theorem C56_add_empty : forall buffer n key value k v, is_cstring buffer [] -> is_cstring key k ->
  is_cstring value v -> len buffer < 2 ^ 64 -> Json_addData buffer n key value = UB OutOfBounds.
Proof. exact add_empty. Qed.
Print Assumptions C56_add_empty.
(** a buffer filled exactly by the first pair: the second call overruns it *)
Theorem C56_in_bounds_refuted : exists n k v k2 v2 buffer buffer',
  n = len buffer /\ json_run n [Start; Add k v] buffer = Ok ([true; true], buffer') /\
  json_run n [Start; Add k v; Add k2 v2] buffer = UB OutOfBounds /\
  json_run n [Start; Add k v; Add k2 v2] (buffer ++ [77]) = Ok ([true; true; false], str "{""a"":""b"","  ++ [0]).
Proof. exact overrun_reached. Qed.
Print Assumptions C56_in_bounds_refuted.
Example C56_ex :
  is_cstring (cstr "{""a"":""b""") (str "{""a"":""b""") /\
  ends_in_quote (str "{""a"":""b""") = true /\ len (str "{""a"":""b""") + 1 = 9.
Proof. split; [by exists []; split; [|repeat constructor]|split; ex]. Qed.

(** ** C57 JSON search is memory safe on arbitrary input *)

(** the [b] bytes searched are arbitrary; only they, the key string and [val] matter *)
Theorem C57_safe : forall b k val, no_nul k -> len b < 2 ^ 32 -> len val < 2 ^ 64 ->
  exists r val', len val' = len val /\ forall key bb vb, is_cstring key k ->
    Json_findByKey (b ++ bb) (len b) key (val ++ vb) (len val) = Ok (r, val' ++ vb).
Proof. exact find_safe. Qed.
Print Assumptions C57_safe.
Example C57_ex :
  Json_findByKey [97; 34; 34; 0; 255] 5 (cstr "a") [1; 2; 3; 4] 3 = Ok (false, [0; 255; 3; 4]).
Proof. ex. Qed.

(** ** C58 JSON build then find *)

(** when the search succeeds, for every buffer *)
Theorem C58_find : forall b k val key bb vb, is_cstring key k -> len b < 2 ^ 32 -> len val < 2 ^ 64 ->
  forall value', len b < 2 ^ 32 - 1 ->
  Json_findByKey (b ++ bb) (len b) key (val ++ vb) (len val) = Ok (true, value') <->
  exists v, has_value b k v /\ len v < len val /\ value' = put v val ++ vb.
Proof. exact find_iff. Qed.
Print Assumptions C58_find.
(** blanks before the value, nothing but the key, a value without end, a key as long as the text,
    a text in which the name is not followed by a quote, and limits that just suffice *)
Example C58_find_ex :
  Json_findByKey (str "{""k"": !""v w"",") 14 (cstr "k") [9; 9; 9; 9; 9] 5 = Ok (true, str "v w" ++ [0; 9]) /\
  Json_findByKey (str "{""k"": !""v w"",") 14 (cstr "k") [9; 9; 9; 9; 9] 4 = Ok (true, str "v w" ++ [0; 9]) /\
  Json_findByKey (str "{""k"": !""v w"",") 14 (cstr "k") [9; 9; 9; 9; 9] 3 = Ok (false, str "v w" ++ [9; 9]) /\
  Json_findByKey (str "{""k"": !""v w"",") 11 (cstr "k") [9; 9; 9; 9; 9] 5 = Ok (false, str "v w" ++ [9; 9]) /\
  Json_findByKey (str "{""k"": !""v w"",") 12 (cstr "k") [9; 9; 9; 9; 9] 5 = Ok (true, str "v w" ++ [0; 9]) /\
  Json_findByKey (str "k""") 2 (cstr "k") [9] 1 = Ok (false, [9]) /\
  Json_findByKey (str "k""") 1 (cstr "k") [9] 1 = Ok (false, [9]) /\
  Json_findByKey (str "k""") 2 (cstr "k""") [9] 1 = Ok (false, [9]) /\
  Json_findByKey (str "k!""k"":""v""") 9 (cstr "k") [9; 9] 2 = Ok (false, [9; 9]) /\
  Json_findByKey (str "k#""k"":""v""") 9 (cstr "k") [9; 9] 2 = Ok (false, [9; 9]).
Proof. repeat split; ex. Qed.
Theorem C58_unique : forall b k v v', has_value b k v -> has_value b k v' -> v = v'.
Proof. exact has_value_unique. Qed.
Print Assumptions C58_unique.
(** for built text: the key is not part of an earlier key or value, nor is it one of the
    characters that stand between them *)
Theorem C58_build_find : forall n buffer beyond pre k v post key val vb,
  n = len buffer -> n < 2 ^ 32 ->
  Forall (fun kv => no_nul (fst kv) /\ no_nul (snd kv)) (pre ++ (k, v) :: post) ->
  len (json_text (pre ++ (k, v) :: post)) + 1 <= n ->
  ~ In 34 k -> ~ In 34 v -> k <> [] -> k <> [123] ->
  Forall (fun kv => ~ occurs k (fst kv) /\ ~ occurs k (snd kv)) pre ->
  (pre <> [] -> k <> [58] /\ k <> [44]) ->
  is_cstring key k -> len v < len val < 2 ^ 64 ->
  exists rs buffer', json_run n (build (pre ++ (k, v) :: post)) (buffer ++ beyond) = Ok (rs, buffer') /\
    Forall (fun r => r = true) rs /\
    Json_findByKey buffer' n key (val ++ vb) (len val) = Ok (true, put v val ++ vb).
Proof. exact build_find. Qed.
Print Assumptions C58_build_find.
Example C58_build_find_ex :
  (let! '(_, b) := json_run 30 (build [(str "id", str "7"); (str "name", str "x:y")]) (replicate 30 9) in
   Json_findByKey b 30 (cstr "name") (replicate 6 1) 4)
  = Ok (true, cstr "x:y" ++ [1; 1]).
Proof. ex. Qed.
(** at [buffer_size] 2^32 - 1 the 32-bit index wraps and a value is reported where there is none *)
Theorem C58_wrap_refuted : exists b k val val', len b = 2 ^ 32 - 1 /\ no_nul k /\
  (forall v, ~ has_value b k v) /\
  Json_findByKey b (len b) (k ++ [0]) val (len val) = Ok (true, val').
Proof. exact find_wrap. Qed.
Print Assumptions C58_wrap_refuted.

(** ** C59 JSON search confuses keys *)

(** the key occurs in an earlier key: not found *)
Theorem C59_found_refuted : exists n kvs k v buffer rs buffer' val,
  n = len buffer /\ NoDup (map fst kvs) /\ In (k, v) kvs /\ len v < len val /\
  json_run n (build kvs) buffer = Ok (rs, buffer') /\ Forall (fun r => r = true) rs /\
  Json_findByKey buffer' n (k ++ [0]) val (len val) = Ok (false, val).
Proof. exact not_found. Qed.
Print Assumptions C59_found_refuted.
(** the key ends an earlier key, or is an earlier value: another string is returned *)
Theorem C59_value_refuted : exists n kvs k v v2 buffer rs buffer' val,
  n = len buffer /\ NoDup (map fst kvs) /\ In (k, v) kvs /\ len v < len val /\
  json_run n (build kvs) buffer = Ok (rs, buffer') /\ Forall (fun r => r = true) rs /\
  v2 <> v /\ Json_findByKey buffer' n (k ++ [0]) val (len val) = Ok (true, put v2 val).
Proof. exact wrong_value. Qed.
Print Assumptions C59_value_refuted.
Theorem C59_value_as_key_refuted : exists n kvs k v v2 buffer rs buffer' val,
  n = len buffer /\ NoDup (map fst kvs) /\ In (k, v) kvs /\ len v < len val /\
  In k (map snd kvs) /\
  json_run n (build kvs) buffer = Ok (rs, buffer') /\ Forall (fun r => r = true) rs /\
  v2 <> v /\ Json_findByKey buffer' n (k ++ [0]) val (len val) = Ok (true, put v2 val).
Proof. exact wrong_value_2. Qed.
Print Assumptions C59_value_as_key_refuted.
(** the empty key is never found in built text *)
Theorem C59_empty_key : forall n kvs rest val key vb, is_cstring key [] -> n = len (json_text kvs ++ rest) ->
  n < 2 ^ 32 -> len val < 2 ^ 64 ->
  Json_findByKey (json_text kvs ++ rest) n key (val ++ vb) (len val) = Ok (false, val ++ vb).
Proof. exact empty_key. Qed.
Print Assumptions C59_empty_key.

(** ** C60 JSON search reports absence *)

Theorem C60_absent : forall b k val key bb vb, is_cstring key k -> len b < 2 ^ 32 -> len val < 2 ^ 64 ->
  ~ occurs k b ->
  Json_findByKey (b ++ bb) (len b) key (val ++ vb) (len val) = Ok (false, val ++ vb).
Proof. exact find_absent. Qed.
Print Assumptions C60_absent.
Theorem C60_no_value : forall b k val key bb vb, is_cstring key k -> len b < 2 ^ 32 -> len val < 2 ^ 64 ->
  len b < 2 ^ 32 - 1 -> (forall w, ~ has_tail b k w) ->
  Json_findByKey (b ++ bb) (len b) key (val ++ vb) (len val) = Ok (false, val ++ vb).
Proof. exact find_none. Qed.
Print Assumptions C60_no_value.
(** the first bytes of a value that does not fit are still copied, without a NUL *)
Theorem C60_too_long : forall b k val key bb vb, is_cstring key k -> len b < 2 ^ 32 -> len val < 2 ^ 64 ->
  forall v, has_value b k v -> len val <= len v ->
  Json_findByKey (b ++ bb) (len b) key (val ++ vb) (len val) = Ok (false, take (length val) v ++ vb).
Proof. exact find_long. Qed.
Print Assumptions C60_too_long.
Theorem C60_unterminated : forall b k val key bb vb, is_cstring key k -> len b < 2 ^ 32 -> len val < 2 ^ 64 ->
  forall w, has_tail b k w -> ~ In 34 w ->
  Json_findByKey (b ++ bb) (len b) key (val ++ vb) (len val)
  = Ok (false, (take (length val) w ++ drop (length w) val) ++ vb).
Proof. exact find_unterminated. Qed.
Print Assumptions C60_unterminated.
Theorem C60_build_absent : forall n buffer beyond kvs k key val vb,
  n = len buffer -> n < 2 ^ 32 ->
  Forall (fun kv => no_nul (fst kv) /\ no_nul (snd kv)) kvs ->
  len (json_text kvs) + 1 <= n ->
  ~ In 34 k -> ~ In k [[]; [123]; [125]; [123; 125]; [58]; [44]] ->
  Forall (fun kv => ~ occurs k (fst kv) /\ ~ occurs k (snd kv)) kvs ->
  ~ occurs k buffer ->
  is_cstring key k -> len val < 2 ^ 64 ->
  exists rs buffer', json_run n (build kvs) (buffer ++ beyond) = Ok (rs, buffer') /\
    Forall (fun r => r = true) rs /\
    Json_findByKey buffer' n key (val ++ vb) (len val) = Ok (false, val ++ vb).
Proof. exact build_find_absent. Qed.
Print Assumptions C60_build_absent.
Example C60_ex :
  Json_findByKey (cstr "{""a"":""bcd""}") 12 (cstr "x") [1; 2; 3] 3 = Ok (false, [1; 2; 3]) /\
  Json_findByKey (cstr "{""a"":""bcd""}") 12 (cstr "a") [1; 2; 3] 3 = Ok (false, str "bcd") /\
  Json_findByKey (str "{""a"":""b") 7 (cstr "a") [1; 2; 3] 3 = Ok (false, [98; 2; 3]).
Proof. split; [ex|split; ex]. Qed.
(** without the condition on the former contents of the buffer: bytes behind the text's NUL
    are searched too *)
Theorem C60_stale_refuted : exists n kvs k buffer rs buffer' v val,
  n = len buffer /\ Forall (fun kv => ~ occurs k (fst kv) /\ ~ occurs k (snd kv)) kvs /\
  json_run n (build kvs) buffer = Ok (rs, buffer') /\ Forall (fun r => r = true) rs /\
  ~ occurs k (json_text kvs) /\
  Json_findByKey buffer' n (k ++ [0]) val (len val) = Ok (true, put v val).
Proof. exact stale. Qed.
Print Assumptions C60_stale_refuted.
