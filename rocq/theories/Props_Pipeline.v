(** * Properties C70-C73: base64 text, and clients that combine several modules *)
From Coq Require Import String.
From Verif Require Import CSem Lib Model_Base64 Model_Crypto Model_Json Model_Crc Model_CrcVariants
  Spec_Base64 Spec_ChaCha Spec_Json Spec_Crc Spec_Pipeline
  Drive_Crc Drive_Json Drive_Pipeline Proof_Base64Text Proof_Pipeline.

(** ** C70 Which texts the encoder produces *)

(** characters of the alphabet, then none, one or two padding characters *)
Theorem C70_shape : forall data, bytes data ->
  exists t p, base64 data = t ++ replicate p 61 /\ Forall in_alphabet t /\
    Z.of_nat p = (- len data) mod 3.
Proof. exact text_shape. Qed.
Print Assumptions C70_shape.
Theorem C70_injective : forall d1 d2, bytes d1 -> bytes d2 -> base64 d1 = base64 d2 -> d1 = d2.
Proof. exact text_inj. Qed.
Print Assumptions C70_injective.
(** data of a whole number of triples may be encoded apart from what follows *)
Theorem C70_pieces : forall d1 d2 r1 r2 r m1 m2 m, bytes d1 -> bytes d2 -> len d1 mod 3 = 0 ->
  len d1 + len d2 < 2 ^ 62 ->
  len (base64 d1) <= m1 < len r1 -> len (base64 d2) <= m2 < len r2 ->
  len (base64 (d1 ++ d2)) <= m < len r ->
  exists t1 t2 x1 x2 x, Base64_encode d1 (len d1) r1 m1 = Ok (0, t1 ++ 0 :: x1) /\
    Base64_encode d2 (len d2) r2 m2 = Ok (0, t2 ++ 0 :: x2) /\
    Base64_encode (d1 ++ d2) (len (d1 ++ d2)) r m = Ok (0, (t1 ++ t2) ++ 0 :: x).
Proof. exact pieces. Qed.
Print Assumptions C70_pieces.
(** decoding and encoding again gives the same text exactly if the unused bits are zero *)
Theorem C70_recode : forall vs out text max_out max_text,
  Forall is_sextet vs -> 4 <= len vs < 2 ^ 60 -> len vs mod 4 <> 1 ->
  len (base64_decoded vs) <= max_out <= len out ->
  len (pad (map alphabet vs)) <= max_text < len text ->
  exists d out' t text',
    Base64_decode (pad (map alphabet vs)) (len (pad (map alphabet vs))) out max_out = Ok (0, d ++ out') /\
    Base64_encode (d ++ out') (len d) text max_text = Ok (0, t ++ 0 :: text') /\
    len t = len (pad (map alphabet vs)) /\
    (t = pad (map alphabet vs) <-> canonical vs).
Proof. exact recode. Qed.
Print Assumptions C70_recode.
(** different texts decoded to the same data *)
Theorem C70_one_text_refuted : exists v1 v2 d, Forall is_sextet v1 /\ Forall is_sextet v2 /\ v1 <> v2 /\
  Base64_decode (pad (map alphabet v1)) 8 [0; 0; 0; 0] 4 = Ok (0, d) /\
  Base64_decode (pad (map alphabet v2)) 8 [0; 0; 0; 0] 4 = Ok (0, d).
Proof. exact ambiguous. Qed.
Print Assumptions C70_one_text_refuted.
(* foob: Zm9vYg== and Zm9vYh== *)
Example C70_ex : pad (map alphabet [25; 38; 61; 47; 24; 32]) = str "Zm9vYg==" /\
  canonical [25; 38; 61; 47; 24; 32] /\ ~ canonical [25; 38; 61; 47; 24; 33] /\
  Base64_decode (str "Zm9vYh==") 8 [0; 0; 0; 0] 4 = Ok (0, str "foob") /\
  Base64_encode (str "foob") 4 (replicate 9 0) 8 = Ok (0, str "Zm9vYg==" ++ [0]).
Proof.
  split; [by vm_compute|]. split; [repeat constructor|]. split; [|by vm_compute].
  intros H. inversion_clear H as [|? ? _ H2]. inversion_clear H2 as [|? ? _ H3].
  inversion_clear H3 as [|? ? _ H4]. inversion_clear H4 as [|? ? E _]. discriminate E.
Qed.

(** ** C71 Encrypted data sent as text *)

Theorem C71_roundtrip : forall data key nonce inc text out max_text max_out, parameters key nonce ->
  bytes data -> 3 <= len data < 2 ^ 32 -> len (base64 data) <= max_text < len text -> bytes text ->
  bytes out -> len data <= max_out <= len out ->
  exists text', seal data key nonce inc text max_text = Ok (0, text') /\
    unseal text' (len (base64 data)) key nonce inc out max_out (len data)
    = Ok (0, data ++ drop (length data) out).
Proof. exact seal_unseal. Qed.
Print Assumptions C71_roundtrip.
Theorem C71_text : forall data key nonce inc text max_text, parameters key nonce -> bytes data ->
  len data < 2 ^ 32 -> len (base64 data) <= max_text < len text ->
  seal data key nonce inc text max_text
  = Ok (0, base64 (chacha20 key nonce inc data)
           ++ 0 :: drop (S (length (base64 (chacha20 key nonce inc data)))) text).
Proof. exact seal_ok. Qed.
Print Assumptions C71_text.
(** one or two bytes do not survive: the decoder refuses the text *)
Theorem C71_short_fails : forall data key nonce inc text out max_text max_out m, parameters key nonce ->
  bytes data -> len data < 3 -> len (base64 data) <= max_text < len text ->
  exists text', seal data key nonce inc text max_text = Ok (0, text') /\
    unseal text' (len (base64 data)) key nonce inc out max_out m = Ok (1, out).
Proof. exact seal_short. Qed.
Print Assumptions C71_short_fails.
(** another key, nonce or counter is not noticed; it gives the data back exactly if it
    encrypts the data to the same bytes *)
Theorem C71_other_key : forall data rest key nonce inc key' nonce' inc' out max_out, parameters key nonce ->
  parameters key' nonce' -> bytes data ->
  3 <= len data < 2 ^ 32 -> bytes rest -> bytes out -> len data <= max_out <= len out ->
  let t := base64 (chacha20 key nonce inc data) in
  exists data', unseal (t ++ rest) (len t) key' nonce' inc' out max_out (len data)
    = Ok (0, data' ++ drop (length data) out) /\
    data' = chacha20 key' nonce' inc' (chacha20 key nonce inc data) /\
    (data' = data <-> chacha20 key' nonce' inc' data = chacha20 key nonce inc data).
Proof. exact unseal_other. Qed.
Print Assumptions C71_other_key.
Example C71_ex :
  let key := map Z.of_nat (seq 0 32) in let nonce := replicate 12 7 in
  parameters key nonce /\
  exists t, seal (str "attack") key nonce 1 (replicate 9 0) 8 = Ok (0, t) /\
    len (base64 (str "attack")) = 8 /\
    unseal t 8 key nonce 1 (replicate 7 9) 6 6 = Ok (0, str "attack" ++ [9]) /\
    unseal t 8 key nonce 2 (replicate 7 9) 6 6 <> Ok (0, str "attack" ++ [9]).
Proof.
  intros key nonce. split; [unfold parameters, key, nonce; cbn; ex; lia|].
  eexists. split; [by vm_compute|]. split; [done|]. split; [by vm_compute|]. vm_compute. done.
Qed.

(** ** C72 Arbitrary bytes stored in JSON text *)

Theorem C72_json_data : forall n buffer beyond data text max_text pre k post key value out max_out,
  bytes data -> 3 <= len data < 2 ^ 59 -> len (base64 data) <= max_text < len text ->
  n = len buffer -> n < 2 ^ 32 ->
  Forall (fun kv => no_nul (fst kv) /\ no_nul (snd kv)) (pre ++ (k, base64 data) :: post) ->
  len (json_text (pre ++ (k, base64 data) :: post)) + 1 <= n ->
  ~ In 34 k -> k <> [] -> k <> [123] ->
  Forall (fun kv => ~ occurs k (fst kv) /\ ~ occurs k (snd kv)) pre ->
  (pre <> [] -> k <> [58] /\ k <> [44]) ->
  is_cstring key k -> bytes value -> len (base64 data) < len value < 2 ^ 64 ->
  len data <= max_out <= len out ->
  exists rs buffer', put_data n (buffer ++ beyond) data text max_text pre k post = Ok (rs, buffer') /\
    Forall (fun r => r = true) rs /\
    get_data n buffer' key value out max_out = Ok (true, 0, data ++ drop (length data) out).
Proof. exact json_data. Qed.
Print Assumptions C72_json_data.
(* bytes 0, 34 (the quote) and 255 under the key b, after the pair a, 1 *)
Example C72_ex :
  exists rs b, put_data 24 (replicate 26 7) [0; 34; 255] (replicate 5 0) 4 [(str "a", str "1")]
      (str "b") [] = Ok (rs, b) /\
    rs = [true; true; true; true] /\
    take 20 b = str "{""a"":""1"",""b"":""ACL/""}" /\
    get_data 24 b (str "b" ++ [0]) (replicate 5 0) [9; 9; 9; 9] 4 = Ok (true, 0, [0; 34; 255; 9]).
Proof. eexists _, _. split; [by vm_compute|]. by vm_compute. Qed.

(** ** C73 Frames: a message followed by its CRC *)

Theorem C73_send : forall V msg old rest, In V crc_variants -> bytes msg ->
  8 * len old = width (params V) ->
  exists c, is_crc (params V) msg c /\
    send V (msg ++ old ++ rest) (len msg) = Ok (msg ++ crc_bytes (params V) c ++ rest).
Proof. exact send_ok. Qed.
Print Assumptions C73_send.
Theorem C73_sent_accepted : forall V msg rest c, In V crc_variants -> bytes msg ->
  is_crc (params V) msg c ->
  receive V (msg ++ crc_bytes (params V) c ++ rest) (len (msg ++ crc_bytes (params V) c))
  = Ok true.
Proof. exact receive_sent. Qed.
Print Assumptions C73_sent_accepted.
(** accepted exactly if the last bytes are the CRC of the others *)
Theorem C73_receive : forall V msg f rest, In V crc_variants -> bytes msg -> bytes f ->
  8 * len f = width (params V) ->
  exists b, receive V (msg ++ f ++ rest) (len (msg ++ f)) = Ok b /\
    (b = true <-> exists c, is_crc (params V) msg c /\ f = crc_bytes (params V) c).
Proof. exact receive_iff. Qed.
Print Assumptions C73_receive.
(** taking the CRC of the whole frame is the same check *)
Theorem C73_residue : forall V, In V crc_variants -> exists res, is_residue (params V) res /\
  forall frame rest, bytes frame -> width (params V) <= 8 * len frame ->
    receive_residue V res (frame ++ rest) (len frame) = receive V (frame ++ rest) (len frame).
Proof. exact receive_same_residue. Qed.
Print Assumptions C73_residue.
(** beside an accepted frame another one, of any length, is accepted exactly if it has the
    same CRC, so what C50 and C61-C63 say about messages holds of frames *)
Theorem C73_equal : forall V frame frame' rest rest', In V crc_variants -> bytes frame -> bytes frame' ->
  width (params V) <= 8 * len frame -> width (params V) <= 8 * len frame' ->
  receive V (frame ++ rest) (len frame) = Ok true ->
  receive V (frame' ++ rest') (len frame') = Ok true <->
  run V frame' (len frame') true None = run V frame (len frame) true None.
Proof. exact receive_equal. Qed.
Print Assumptions C73_equal.
(** a burst of at most as many bits as the CRC has, anywhere in the frame, is noticed *)
Theorem C73_burst : forall V frame frame' rest rest' pre e1 e2 post, In V crc_variants ->
  bytes frame -> bytes frame' -> width (params V) <= 8 * len frame ->
  receive V (frame ++ rest) (len frame) = Ok true ->
  message_bits (params V) frame = pre ++ e1 ++ post ->
  message_bits (params V) frame' = pre ++ e2 ++ post ->
  length e1 = length e2 -> Z.of_nat (length e1) <= width (params V) -> e1 <> e2 ->
  receive V (frame' ++ rest') (len frame') = Ok false.
Proof. exact receive_burst. Qed.
Print Assumptions C73_burst.
Example C73_ex :
  let V := Crc_variant crc32 Crc32_table Crc32 in
  In V crc_variants /\
  exists f, send V (str "123456789" ++ [0; 0; 0; 0; 7]) 9 = Ok f /\
    f = str "123456789" ++ [0x26; 0x39; 0xf4; 0xcb; 7] /\
    receive V f 13 = Ok true /\
    receive V (str "12345678" ++ [57 + 2; 0x27; 0x39; 0xf4; 0xcb; 7]) 13 = Ok false.
Proof.
  split; [by repeat (left; reflexivity) || right|]. eexists. split; [by vm_compute|]. by vm_compute.
Qed.
