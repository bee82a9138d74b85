(** * Properties C43-C46: ChaCha20

    [m] is the memory holding the message at offset [p] and receiving the result at offset
    [r]. *)
From Verif Require Import CSem Lib Model_Crypto Spec_ChaCha Proof_ChaCha Proof_ChaChaCrypt.

(** the key 00 01 .. 1f of the test vectors of RFC 8439 *)
Definition rfc_key : list Z := map Z.of_nat (seq 0 32).

(** ** C43 ChaCha20 implements RFC 8439 *)

Theorem C43_block : forall key counter nonce out, parameters key nonce -> is_u32 counter ->
  len out = 64 -> Block key counter nonce out = Ok (chacha20_block key counter nonce).
Proof. exact block_parameters. Qed.
Print Assumptions C43_block.
(** the specification and the model give the block of RFC 8439, 2.3.2, and the quarter
    round of 2.1.1 *)
Example C43_block_ex :
  let nonce := [0; 0; 0; 9; 0; 0; 0; 0x4a; 0; 0; 0; 0] in
  let block :=
    [0x10; 0xf1; 0xe7; 0xe4; 0xd1; 0x3b; 0x59; 0x15; 0x50; 0x0f; 0xdd; 0x1f; 0xa3; 0x20; 0x71; 0xc4;
     0xc7; 0xd1; 0xf4; 0xc7; 0x33; 0xc0; 0x68; 0x03; 0x04; 0x22; 0xaa; 0x9a; 0xc3; 0xd4; 0x6c; 0x4e;
     0xd2; 0x82; 0x64; 0x46; 0x07; 0x9f; 0xaa; 0x09; 0x14; 0xc2; 0xd7; 0x05; 0xd9; 0x8b; 0x02; 0xa2;
     0xb5; 0x12; 0x9c; 0xd1; 0xde; 0x16; 0x4e; 0xb9; 0xcb; 0xd0; 0x83; 0xe8; 0xa2; 0x50; 0x3c; 0x4e] in
  chacha20_block rfc_key 1 nonce = block /\
  Block rfc_key 1 nonce (replicate 64 255) = Ok block /\
  parameters rfc_key nonce.
Proof.
  split; [by vm_compute|]. split; [by vm_compute|].
  split; [by repeat constructor|]. split; [cbn; lia|]. split; [by repeat constructor|cbn; lia].
Qed.
Example C43_quarter_ex :
  quarter 0x11111111 0x01020304 0x9b8d6f43 0x01234567
  = (0xea2a92f4, 0xcb1cf8ce, 0x4581472e, 0x5881c4bb).
Proof. by vm_compute. Qed.
(** with the all-zero key, nonce and counter: RFC 8439, A.1, first vector *)
Example C43_zero_ex :
  take 16 (chacha20_block (replicate 32 0) 0 (replicate 12 0))
  = [0x76; 0xb8; 0xe0; 0xad; 0xa0; 0xf1; 0x3d; 0x90; 0x40; 0x5d; 0x6a; 0xe5; 0x53; 0x86; 0xbd; 0x28].
Proof. by vm_compute. Qed.

(** the result behind the message in memory, and before it *)
Theorem C43_crypt_after : forall key nonce inc pre msg mid old post, parameters key nonce ->
  bytes (pre ++ msg ++ mid ++ old ++ post) -> len msg < 2 ^ 32 -> len old = len msg ->
  Chacha20_crypt (pre ++ msg ++ mid ++ old ++ post) (len pre) (len msg) key nonce inc
    (len pre + len msg + len mid)
  = Ok (pre ++ msg ++ mid ++ chacha20 key nonce inc msg ++ post).
Proof. exact crypt_after. Qed.
Print Assumptions C43_crypt_after.
Theorem C43_crypt_before : forall key nonce inc pre old mid msg post, parameters key nonce ->
  bytes (pre ++ old ++ mid ++ msg ++ post) -> len msg < 2 ^ 32 -> len old = len msg ->
  Chacha20_crypt (pre ++ old ++ mid ++ msg ++ post) (len pre + len old + len mid) (len msg)
    key nonce inc (len pre)
  = Ok (pre ++ chacha20 key nonce inc msg ++ mid ++ msg ++ post).
Proof. exact crypt_before. Qed.
Print Assumptions C43_crypt_before.
(** 70 bytes (two blocks) with counter 2^32 - 1, which wraps to 0 for the second block *)
Example C43_crypt_ex :
  let nonce := replicate 12 0 in let msg := replicate 70 0 in
  Chacha20_crypt (msg ++ replicate 70 1) 0 70 (replicate 32 0) nonce 0xffffffff 70
  = Ok (msg ++ chacha20_block (replicate 32 0) 0xffffffff nonce
            ++ [0x76; 0xb8; 0xe0; 0xad; 0xa0; 0xf1]).
Proof. by vm_compute. Qed.

(** ** C44 ChaCha20 decrypts what it encrypts *)

Theorem C44_twice : forall key nonce inc m p n, parameters key nonce -> bytes m ->
  0 <= p -> 0 <= n < 2 ^ 32 -> p + n <= len m ->
  (let! c := Chacha20_crypt m p n key nonce inc p in Chacha20_crypt c p n key nonce inc p) = Ok m.
Proof. exact crypt_twice. Qed.
Print Assumptions C44_twice.
Theorem C44_back : forall key nonce inc m p r q n, parameters key nonce -> bytes m ->
  0 <= p -> 0 <= r -> 0 <= q -> 0 <= n < 2 ^ 32 ->
  p + n <= len m -> r + n <= len m -> q + n <= len m ->
  r <= p \/ p + n <= r -> q <= r \/ r + n <= q ->
  exists c d, Chacha20_crypt m p n key nonce inc r = Ok c /\
    Chacha20_crypt c r n key nonce inc q = Ok d /\ slice d q n = slice m p n.
Proof. exact crypt_back. Qed.
Print Assumptions C44_back.
Example C44_ex :
  exists c, Chacha20_crypt [1; 2; 3; 4] 1 3 rfc_key (replicate 12 7) 5 1 = Ok c /\
    c <> [1; 2; 3; 4] /\ Chacha20_crypt c 1 3 rfc_key (replicate 12 7) 5 1 = Ok [1; 2; 3; 4].
Proof. eexists. split; [by vm_compute|]. split; [done|by vm_compute]. Qed.

(** ** C45 ChaCha20 memory effects, in place or not *)

Theorem C45_in_place : forall key nonce inc pre msg post, parameters key nonce ->
  bytes (pre ++ msg ++ post) -> len msg < 2 ^ 32 ->
  Chacha20_crypt (pre ++ msg ++ post) (len pre) (len msg) key nonce inc (len pre)
  = Ok (pre ++ chacha20 key nonce inc msg ++ post).
Proof. exact crypt_in_place. Qed.
Print Assumptions C45_in_place.
(** any placement in which the result does not begin inside the message *)
Theorem C45_placement : forall key nonce inc m p r n, parameters key nonce -> bytes m ->
  0 <= p -> 0 <= r -> 0 <= n < 2 ^ 32 -> p + n <= len m -> r + n <= len m ->
  r <= p \/ p + n <= r ->
  Chacha20_crypt m p n key nonce inc r = Ok (write m r (chacha20 key nonce inc (slice m p n))).
Proof. exact crypt_general. Qed.
Print Assumptions C45_placement.
Theorem C45_frame : forall key nonce inc m p r n c, parameters key nonce -> bytes m ->
  0 <= p -> 0 <= r -> 0 <= n < 2 ^ 32 -> p + n <= len m -> r + n <= len m ->
  r <= p \/ p + n <= r -> Chacha20_crypt m p n key nonce inc r = Ok c ->
  len c = len m /\ forall i, 0 <= i < len m -> i < r \/ r + n <= i -> get c i = get m i.
Proof. exact crypt_frame. Qed.
Print Assumptions C45_frame.
Theorem C45_reads : forall key x nonce y inc m p r n,
  length key = 32%nat -> length nonce = 12%nat ->
  bytes (key ++ x) -> bytes (nonce ++ y) -> bytes m ->
  0 <= p -> 0 <= r -> 0 <= n < 2 ^ 32 -> p + n <= len m -> r + n <= len m ->
  r <= p \/ p + n <= r ->
  Chacha20_crypt m p n (key ++ x) (nonce ++ y) inc r = Chacha20_crypt m p n key nonce inc r.
Proof. exact crypt_extra. Qed.
Print Assumptions C45_reads.
(** the result one byte before the message *)
Example C45_placement_ex :
  Chacha20_crypt [9; 1; 2; 3; 4] 1 3 rfc_key (replicate 12 7) 5 0
  = Ok (chacha20 rfc_key (replicate 12 7) 5 [1; 2; 3] ++ [3; 4]).
Proof. by vm_compute. Qed.
(** a result that begins inside the message is wrong *)
Theorem C45_overlap_refuted : exists key nonce inc m p r n, parameters key nonce /\ bytes m /\
  0 <= p /\ 0 <= r /\ 0 <= n < 2 ^ 32 /\ p + n <= len m /\ r + n <= len m /\
  exists c, Chacha20_crypt m p n key nonce inc r = Ok c /\
    slice c r n <> chacha20 key nonce inc (slice m p n).
Proof. exact overlap_wrong. Qed.
Print Assumptions C45_overlap_refuted.

(** ** C46 ChaCha20 messages can be processed in pieces *)

Theorem C46_pieces : forall key nonce inc m p r a b, parameters key nonce -> bytes m ->
  0 <= p -> 0 <= r -> 0 <= a -> a mod 64 = 0 -> 0 <= b -> a + b < 2 ^ 32 ->
  p + (a + b) <= len m -> r + (a + b) <= len m -> r <= p \/ p + (a + b) <= r ->
  (let! c := Chacha20_crypt m p a key nonce inc r in
   Chacha20_crypt c (p + a) b key nonce ((inc + a / 64) mod 2 ^ 32) (r + a))
  = Chacha20_crypt m p (a + b) key nonce inc r.
Proof. exact crypt_pieces. Qed.
Print Assumptions C46_pieces.
Example C46_pieces_ex :
  (let! c := Chacha20_crypt (replicate 70 3) 0 64 rfc_key (replicate 12 7) 5 0 in
   Chacha20_crypt c 64 6 rfc_key (replicate 12 7) 6 64)
  = Chacha20_crypt (replicate 70 3) 0 70 rfc_key (replicate 12 7) 5 0.
Proof. by vm_compute. Qed.
Theorem C46_local : forall key nonce inc m p r n m' p' r' n' c c' i, parameters key nonce ->
  bytes m -> bytes m' ->
  0 <= p -> 0 <= r -> n < 2 ^ 32 -> p + n <= len m -> r + n <= len m -> r <= p \/ p + n <= r ->
  0 <= p' -> 0 <= r' -> n' < 2 ^ 32 -> p' + n' <= len m' -> r' + n' <= len m' ->
  r' <= p' \/ p' + n' <= r' ->
  Chacha20_crypt m p n key nonce inc r = Ok c ->
  Chacha20_crypt m' p' n' key nonce inc r' = Ok c' ->
  0 <= i < n -> i < n' -> get m (p + i) = get m' (p' + i) -> get c (r + i) = get c' (r' + i).
Proof. exact crypt_local. Qed.
Print Assumptions C46_local.
(** a message cut elsewhere than after a whole number of blocks cannot be continued *)
Theorem C46_any_cut_refuted : exists key nonce inc m a b, parameters key nonce /\ bytes m /\
  0 <= a /\ 0 <= b /\ a + b < 2 ^ 32 /\ a + b <= len m /\
  (let! c := Chacha20_crypt m 0 a key nonce inc 0 in
   Chacha20_crypt c a b key nonce ((inc + a / 64) mod 2 ^ 32) a)
  <> Chacha20_crypt m 0 (a + b) key nonce inc 0.
Proof. exact cut_wrong. Qed.
Print Assumptions C46_any_cut_refuted.
