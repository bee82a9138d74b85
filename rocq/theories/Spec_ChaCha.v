(** * Specification of ChaCha20, after RFC 8439 *)
From Coq Require Import ZArith.
From stdpp Require Import list numbers.
Open Scope Z_scope.

(** addition and rotation of 32-bit words (RFC 8439, 2.1) *)
Definition add32 (x y : Z) : Z := (x + y) mod 2 ^ 32.
Definition rotl (x n : Z) : Z := (x * 2 ^ n) mod 2 ^ 32 + x / 2 ^ (32 - n).

(** the quarter round (2.1) *)
Definition quarter (a b c d : Z) : Z * Z * Z * Z :=
  let a := add32 a b in let d := rotl (Z.lxor d a) 16 in
  let c := add32 c d in let b := rotl (Z.lxor b c) 12 in
  let a := add32 a b in let d := rotl (Z.lxor d a) 8 in
  let c := add32 c d in let b := rotl (Z.lxor b c) 7 in
  (a, b, c, d).
(** the quarter round on four words of the state (2.2) *)
Definition quarter_round (s : list Z) (i j k l : nat) : list Z :=
  let '(a, b, c, d) := quarter (nth i s 0) (nth j s 0) (nth k s 0) (nth l s 0) in
  <[l := d]> (<[k := c]> (<[j := b]> (<[i := a]> s))).
(** a column round and a diagonal round (2.3) *)
Definition inner_block (s : list Z) : list Z :=
  let s := quarter_round s 0 4 8 12 in
  let s := quarter_round s 1 5 9 13 in
  let s := quarter_round s 2 6 10 14 in
  let s := quarter_round s 3 7 11 15 in
  let s := quarter_round s 0 5 10 15 in
  let s := quarter_round s 1 6 11 12 in
  let s := quarter_round s 2 7 8 13 in
  quarter_round s 3 4 9 14.

(** word [i] of a byte string, and the bytes of a word, least significant byte first *)
Definition word (bs : list Z) (i : nat) : Z :=
  nth (4 * i) bs 0 + nth (4 * i + 1) bs 0 * 2 ^ 8
  + nth (4 * i + 2) bs 0 * 2 ^ 16 + nth (4 * i + 3) bs 0 * 2 ^ 24.
Definition word_bytes (w : Z) : list Z :=
  [w mod 2 ^ 8; w / 2 ^ 8 mod 2 ^ 8; w / 2 ^ 16 mod 2 ^ 8; w / 2 ^ 24 mod 2 ^ 8].

(** the block function (2.3) *)
Definition initial_state (key : list Z) (counter : Z) (nonce : list Z) : list Z :=
  [0x61707865; 0x3320646e; 0x79622d32; 0x6b206574]
    ++ map (word key) (seq 0 8) ++ [counter] ++ map (word nonce) (seq 0 3).
Definition chacha20_block (key : list Z) (counter : Z) (nonce : list Z) : list Z :=
  let s := initial_state key counter nonce in
  concat (map word_bytes (zip_with add32 (Nat.iter 10 inner_block s) s)).

(** byte [i] of the key stream, and encryption (2.4) *)
Definition key_stream (key nonce : list Z) (counter i : Z) : Z :=
  nth (Z.to_nat (i mod 64)) (chacha20_block key ((counter + i / 64) mod 2 ^ 32) nonce) 0.
Definition chacha20 (key nonce : list Z) (counter : Z) (msg : list Z) : list Z :=
  imap (fun i b => Z.lxor b (key_stream key nonce counter (Z.of_nat i))) msg.

(** a key of (at least) 32 bytes and a nonce of (at least) 12 *)
Definition parameters (key nonce : list Z) : Prop :=
  Forall (fun b => 0 <= b < 256) key /\ (32 <= length key)%nat /\
  Forall (fun b => 0 <= b < 256) nonce /\ (12 <= length nonce)%nat.
