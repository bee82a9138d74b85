(** * Properties C38-C42: the Caesar and Vernam ciphers

    [s] is the message without its NUL, [rest] what follows the NUL in memory. *)
From Coq Require Import String.
From Verif Require Import CSem Lib Model_Crypto Spec_Cipher Proof_Cipher.

(** ** C38 Caesar encryption shifts letters *)

Theorem C38_encrypt : forall s rest k, text s -> 0 <= k < 256 ->
  CaesarCipher_encrypt (s ++ 0 :: rest) k = Ok (map (move k) s ++ 0 :: rest).
Proof. exact caesar_encrypt_ok. Qed.
Print Assumptions C38_encrypt.
(** "Zebra, x!" by 3 *)
Example C38_encrypt_ex :
  CaesarCipher_encrypt (str "Zebra, x!" ++ 0 :: [7]) 3 = Ok (str "Cheud, a!" ++ 0 :: [7]) /\
  text (str "Zebra, x!").
Proof. split; [ex|by repeat constructor]. Qed.

(** ** C39 Caesar decryption *)

(** a letter is moved back by [k] if it lies at least [k] places into the alphabet, and
    by [k - 22] otherwise *)
Theorem C39_decrypt : forall s rest k, text s -> 0 <= k < 256 ->
  CaesarCipher_decrypt (s ++ 0 :: rest) k
  = Ok (map (fun c => if k <=? place c then move (- k) c else move (22 - k) c) s ++ 0 :: rest).
Proof. exact caesar_decrypt_ok. Qed.
Print Assumptions C39_decrypt.
Example C39_decrypt_ex :
  CaesarCipher_decrypt (str "Cheud, a!" ++ 0 :: [7]) 3 = Ok (str "Vebra, t!" ++ 0 :: [7]).
Proof. ex. Qed.
Theorem C39_round_trip : forall s rest k, text s -> 0 <= k < 256 ->
  (let! m := CaesarCipher_encrypt (s ++ 0 :: rest) k in CaesarCipher_decrypt m k)
  = Ok (map (fun c => if letter c && (26 <=? place c + k) then move 22 c else c) s ++ 0 :: rest).
Proof. exact caesar_round. Qed.
Print Assumptions C39_round_trip.
Theorem C39_round_trip_iff : forall s rest k, text s -> 0 <= k < 256 ->
  (let! m := CaesarCipher_encrypt (s ++ 0 :: rest) k in CaesarCipher_decrypt m k)
    = Ok (s ++ 0 :: rest)
  <-> Forall (fun c => letter c = true -> place c + k < 26) s.
Proof. exact caesar_round_iff. Qed.
Print Assumptions C39_round_trip_iff.
Example C39_round_trip_ex :
  (let! m := CaesarCipher_encrypt (str "Web!" ++ [0]) 3 in CaesarCipher_decrypt m 3)
    = Ok (str "Web!" ++ [0]) /\
  Forall (fun c => letter c = true -> place c + 3 < 26) (str "Web!") /\
  (let! m := CaesarCipher_encrypt (str "Zebra" ++ [0]) 3 in CaesarCipher_decrypt m 3)
    = Ok (str "Vebra" ++ [0]).
Proof. split; [ex|split; [|ex]]. repeat constructor. Qed.
Theorem C39_round_trip_refuted : exists s rest k, text s /\ 0 <= k < 256 /\
  (let! m := CaesarCipher_encrypt (s ++ 0 :: rest) k in CaesarCipher_decrypt m k)
    <> Ok (s ++ 0 :: rest).
Proof. exact caesar_round_refuted. Qed.
Print Assumptions C39_round_trip_refuted.
(** what does undo an encryption: encrypting again with a complementary shift *)
Theorem C39_undo : forall s rest k j, text s -> 0 <= k < 256 -> 0 <= j < 256 -> (k + j) mod 26 = 0 ->
  (let! m := CaesarCipher_encrypt (s ++ 0 :: rest) k in CaesarCipher_encrypt m j)
    = Ok (s ++ 0 :: rest).
Proof. exact caesar_undo. Qed.
Print Assumptions C39_undo.
Example C39_undo_ex :
  (let! m := CaesarCipher_encrypt (str "Zebra" ++ [0]) 3 in CaesarCipher_encrypt m 23)
    = Ok (str "Zebra" ++ [0]).
Proof. ex. Qed.

(** ** C40 Vernam with alphabetic keys *)

Theorem C40_encrypt : forall s rest key krest, text s -> len s < 2 ^ 31 -> len key = len s ->
  Forall (fun k => letter k = true) key ->
  VernamCipher_encrypt (s ++ 0 :: rest) (key ++ krest) (len s)
  = Ok (true, zip_with (fun m k => move (place k) m) s key ++ 0 :: rest).
Proof. exact vernam_encrypt_ok. Qed.
Print Assumptions C40_encrypt.
Theorem C40_decrypt : forall signed_char s rest key krest,
  text s -> len s < 2 ^ 31 -> len key = len s -> Forall (fun k => letter k = true) key ->
  VernamCipher_decrypt signed_char (s ++ 0 :: rest) (key ++ krest) (len s)
  = Ok (true, zip_with (fun m k => move (- place k) m) s key ++ 0 :: rest).
Proof. exact vernam_decrypt_ok. Qed.
Print Assumptions C40_decrypt.
Theorem C40_round_trip : forall signed_char s rest key krest,
  text s -> len s < 2 ^ 31 -> len key = len s -> Forall (fun k => letter k = true) key ->
  (let! '(ok, m) := VernamCipher_encrypt (s ++ 0 :: rest) (key ++ krest) (len s) in
   VernamCipher_decrypt signed_char m (key ++ krest) (len s))
  = Ok (true, s ++ 0 :: rest).
Proof. exact vernam_round. Qed.
Print Assumptions C40_round_trip.
Example C40_ex :
  VernamCipher_encrypt (str "Zebra, x" ++ 0 :: [7]) (str "KeyABCdz" ++ [0]) 8
    = Ok (true, str "Jizrb, w" ++ 0 :: [7]) /\
  VernamCipher_decrypt true (str "Jizrb, w" ++ 0 :: [7]) (str "KeyABCdz" ++ [0]) 8
    = Ok (true, str "Zebra, x" ++ 0 :: [7]) /\
  Forall (fun k => letter k = true) (str "KeyABCdz").
Proof. split; [ex|split; [ex|by repeat constructor]]. Qed.

(** ** C41 The Vernam length check *)

Theorem C41_encrypt : forall s rest key krest n, text s -> len s < 2 ^ 31 -> len s <= len key ->
  exists m, VernamCipher_encrypt (s ++ 0 :: rest) (key ++ krest) n = Ok (bool_decide (n = len s), m) /\
    (n <> len s -> m = s ++ 0 :: rest).
Proof. exact vernam_result. Qed.
Print Assumptions C41_encrypt.
Theorem C41_decrypt : forall signed_char s rest key krest n,
  text s -> len s < 2 ^ 31 -> len s <= len key ->
  exists m, VernamCipher_decrypt signed_char (s ++ 0 :: rest) (key ++ krest) n
      = Ok (bool_decide (n = len s), m) /\
    (n <> len s -> m = s ++ 0 :: rest).
Proof. exact vernam_result_dec. Qed.
Print Assumptions C41_decrypt.
(** on failure the key is not even read *)
Theorem C41_encrypt_false : forall s rest key n, text s -> s32 (len s) <> n ->
  VernamCipher_encrypt (s ++ 0 :: rest) key n = Ok (false, s ++ 0 :: rest).
Proof. exact vernam_encrypt_length. Qed.
Print Assumptions C41_encrypt_false.
Theorem C41_decrypt_false : forall signed_char s rest key n, text s -> s32 (len s) <> n ->
  VernamCipher_decrypt signed_char (s ++ 0 :: rest) key n = Ok (false, s ++ 0 :: rest).
Proof. exact vernam_decrypt_length. Qed.
Print Assumptions C41_decrypt_false.
Example C41_ex :
  VernamCipher_encrypt (str "abc" ++ [0]) (str "bcde" ++ [0]) 4 = Ok (false, str "abc" ++ [0]) /\
  VernamCipher_encrypt (str "abc" ++ [0]) (str "bcde" ++ [0]) 3 = Ok (true, str "bdf" ++ [0]) /\
  VernamCipher_encrypt (str "abc" ++ [0]) (str "bcde" ++ [0]) (-1) = Ok (false, str "abc" ++ [0]).
Proof. ex. Qed.
(** the header: "True if message size is higher than or equal to key length" *)
Theorem C41_header_refuted : exists s key, text s /\ text key /\ len key <= len s /\
  VernamCipher_encrypt (s ++ [0]) (key ++ [0]) (len key) = Ok (false, s ++ [0]).
Proof. exact vernam_header_refuted. Qed.
Print Assumptions C41_header_refuted.
(** messages of 2^31 characters and more: their length is taken modulo 2^32, and the
    function may report success after encrypting only the start of the message *)
Theorem C41_long : forall s t rest key krest, text (s ++ t) -> len key = len s ->
  s32 (len (s ++ t)) = len s -> Forall (fun k => letter k = true) key ->
  VernamCipher_encrypt (s ++ t ++ 0 :: rest) (key ++ krest) (len s)
  = Ok (true, zip_with (fun m k => move (place k) m) s key ++ t ++ 0 :: rest).
Proof. exact vernam_wrap. Qed.
Print Assumptions C41_long.
Theorem C41_long_refuted : exists s key m,
  text s /\ text key /\ len s = 2 ^ 32 + 1 /\ len key = 1 /\
  VernamCipher_encrypt (s ++ [0]) (key ++ [0]) (len key) = Ok (true, m) /\
  drop 1 m = drop 1 s ++ [0].
Proof. exact vernam_long_refuted. Qed.
Print Assumptions C41_long_refuted.

(** ** C42 Which Vernam keys round-trip *)

(** exactly those of letters and [[] characters (91, which acts as a shift by 26) *)
Theorem C42_keys : forall signed_char key krest, bytes key -> len key < 2 ^ 31 ->
  (forall s rest, text s -> len s = len key ->
     (let! '(ok, m) := VernamCipher_encrypt (s ++ 0 :: rest) (key ++ krest) (len s) in
      VernamCipher_decrypt signed_char m (key ++ krest) (len s))
     = Ok (true, s ++ 0 :: rest))
  <-> Forall (fun k => letter k = true \/ k = 91) key.
Proof. exact vernam_keys. Qed.
Print Assumptions C42_keys.
Example C42_keys_ex :
  bytes (str "a[Z") /\ Forall (fun k => letter k = true \/ k = 91) (str "a[Z") /\
  bytes (str "a1Z") /\ ~ Forall (fun k => letter k = true \/ k = 91) (str "a1Z").
Proof.
  split; [by repeat constructor|].
  split; [do 3 (constructor; [first [by left|by right]|]); constructor|].
  split; [by repeat constructor|]. intros H. inversion H as [|?? _ H']. inversion H' as [|?? [E|E] _].
  - by vm_compute in E.
  - by vm_compute in E.
Qed.
Theorem C42_round_trip_refuted : forall signed_char, exists s key,
  text s /\ text key /\ len key = len s /\
  (let! '(ok, m) := VernamCipher_encrypt (s ++ [0]) (key ++ [0]) (len s) in
   VernamCipher_decrypt signed_char m (key ++ [0]) (len s))
  <> Ok (true, s ++ [0]).
Proof. exact vernam_round_refuted. Qed.
Print Assumptions C42_round_trip_refuted.
