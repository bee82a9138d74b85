(** * The ciphers on a target with a 32-bit [size_t] *)
From Verif Require Import CSem Lib CLang C_Utils C_Crypto C_Size32 Model_Utils Model_Crypto Refine Refine_Utils Refine_Cipher.

Lemma to_type32 sc n : 0 <= n < 2 ^ 32 -> to_type sc (TInt U32) (VInt U64 n) = Ok (VInt U32 n).
Proof. intros H. unfold to_type, cast. cbn [fits wrap]. by rewrite u32_small. Qed.
Ltac hook32 X :=
  lazymatch X with to_type _ (TInt U32) (VInt U64 ?n) => rewrite (to_type32 _ n) by lia end.
Ltac head_hook X ::=
  lazymatch X with
  | to_type _ _ _ => hook32 X
  | lib LStrlen [VPtr _ (BObj ?b) 0] _ => erewrite lib_strlen; [|look]
  | strlen ?o => let n := fresh "n" in let E := fresh "E" in
      destruct (strlen o) as [n| |] eqn:E; cbn [bind]; try reflexivity;
      pose proof (strlen_bound o n E)
  end.

Section cipher.
  Context {W : Type} (sc : bool)
          (ext : Z -> list val -> mem -> W -> outcome (val * mem * W)) (fuel : nat).
  Local Notation run f := (call sc ext fuel f).
  Implicit Types (m : mem) (w : W) (o : list Z).

  Lemma ref32_caesar_encrypt m w b o k :
    m !! b = Some (ints 8 o) -> bytes o -> is_byte k -> len o < 2 ^ 32 -> (length o < fuel)%nat ->
    run c32_CaesarCipher_encrypt [VPtr (TInt IChar) (BObj b) 0; VInt U8 k] m w
    = let! o := CaesarCipher_encrypt o k in Ok (VUndef, <[b := ints 8 o]> m, w).
  Proof.
    intros Hb Hbo Hk Hlo Hf. unfold c32_CaesarCipher_encrypt, CaesarCipher_encrypt. bounds. go.
    sim_for (fun i o => ([VPtr (TInt IChar) (BObj b) 0; VInt U8 k; VInt U32 n; VInt U32 i],
                         <[b := ints 8 o]> m, w))
      (fun _ o => bytes o).
    - by rewrite list_insert_id.
    - lia.
    - done.
    - unfold len in *. lia.
    - intros i s Hi Hs. go_body.
      rewrite ref_isAlpha by done. go.
      rewrite ref_isUpperChar by done.
      unfold caesar_ascii_val, MAX_SHIFT, UPPER_A_ASCII, LOWER_A_ASCII. go.
      all: fin i s.
    - intros i s s' Hi Hs E'. apply bind_ok_inv in E' as (c & Hc & E').
      destruct (Utils_isAlpha c); [|by injection E' as <-].
      eapply store_bytes; [|apply u8_byte|]; done.
    - intros s Hs. go_body.
    - both. go.
  Qed.
  Lemma ref32_caesar_decrypt m w b o k :
    m !! b = Some (ints 8 o) -> bytes o -> is_byte k -> len o < 2 ^ 32 -> (length o < fuel)%nat ->
    run c32_CaesarCipher_decrypt [VPtr (TInt IChar) (BObj b) 0; VInt U8 k] m w
    = let! o := CaesarCipher_decrypt o k in Ok (VUndef, <[b := ints 8 o]> m, w).
  Proof.
    intros Hb Hbo Hk Hlo Hf. unfold c32_CaesarCipher_decrypt, CaesarCipher_decrypt. bounds. go.
    sim_for (fun i o => ([VPtr (TInt IChar) (BObj b) 0; VInt U8 k; VInt U32 n; VInt U32 i],
                         <[b := ints 8 o]> m, w))
      (fun _ o => bytes o).
    - by rewrite list_insert_id.
    - lia.
    - done.
    - unfold len in *. lia.
    - intros i s Hi Hs. go_body.
      rewrite ref_isAlpha by done. go.
      rewrite ref_isUpperChar by done.
      unfold caesar_ascii_val, MAX_SHIFT, UPPER_A_ASCII, LOWER_A_ASCII. go.
      all: fin i s.
    - intros i s s' Hi Hs E'. apply bind_ok_inv in E' as (c & Hc & E').
      destruct (Utils_isAlpha c); [|by injection E' as <-].
      eapply store_bytes; [|apply u8_byte|]; done.
    - intros s Hs. go_body.
    - both. go.
  Qed.

  Lemma ref32_vernam_encrypt m w b o b' o' k :
    m !! b = Some (ints 8 o) -> m !! b' = Some (ints 8 o') -> b <> b' -> bytes o -> bytes o' ->
    is_s32 k -> len o < 2 ^ 32 -> (length o < fuel)%nat ->
    run c32_VernamCipher_encrypt [VPtr (TInt IChar) (BObj b) 0; VPtr (TInt IChar) (BObj b') 0;
                                VInt I32 k] m w
    = let! '(r, o) := VernamCipher_encrypt o o' k in Ok (VInt IBool (b2z r), <[b := ints 8 o]> m, w).
  Proof.
    intros Hb Hb' Hne Hbo Hbo' Hk Hlo Hf. unfold c32_VernamCipher_encrypt, VernamCipher_encrypt.
    bounds. go.
    2:{ cbn [bind b2z]. by rewrite list_insert_id. }
    destruct (Z.ltb_spec k 0).
    { rewrite cfor_empty by lia. rewrite loop_skip; [|lia|go_body].
      go. cbn [bind b2z]. by rewrite list_insert_id. }
    sim_for (fun i o => ([VPtr (TInt IChar) (BObj b) 0; VPtr (TInt IChar) (BObj b') 0; VInt I32 k;
                          VInt IBool 0; VInt U32 n; VInt I32 i],
                         <[b := ints 8 o]> m, w))
      (fun _ o => bytes o).
    - by rewrite list_insert_id.
    - lia.
    - done.
    - unfold len, s32 in *. lia.
    - intros i s Hi Hs. go_body.
      rewrite ref_isAlpha by done. go.
      rewrite ref_isLowerChar by done.
      unfold vernam_c, caesar_ascii_val, UPPER_A_ASCII, LOWER_A_ASCII. go.
      all: rewrite ref_isUpperChar by done. all: go.
      all: unfold crem, NUM_OF_ALPHA; fin i s.
    - intros i s s' Hi Hs E'. apply bind_ok_inv in E' as (c & Hc & E').
      destruct (Utils_isAlpha c); [|by injection E' as <-].
      apply bind_ok_inv in E' as (k' & Hk' & E').
      eapply store_bytes; [|apply u8_byte|]; done.
    - intros s Hs. go_body.
    - both. go.
  Qed.
  Lemma ref32_vernam_decrypt m w b o b' o' k :
    m !! b = Some (ints 8 o) -> m !! b' = Some (ints 8 o') -> b <> b' -> bytes o -> bytes o' ->
    is_s32 k -> len o < 2 ^ 32 -> (length o < fuel)%nat ->
    run c32_VernamCipher_decrypt [VPtr (TInt IChar) (BObj b) 0; VPtr (TInt IChar) (BObj b') 0;
                                VInt I32 k] m w
    = let! '(r, o) := VernamCipher_decrypt sc o o' k in Ok (VInt IBool (b2z r), <[b := ints 8 o]> m, w).
  Proof.
    intros Hb Hb' Hne Hbo Hbo' Hk Hlo Hf. unfold c32_VernamCipher_decrypt, VernamCipher_decrypt.
    bounds. go.
    2:{ cbn [bind b2z]. by rewrite list_insert_id. }
    destruct (Z.ltb_spec k 0).
    { rewrite cfor_empty by lia. rewrite loop_skip; [|lia|go_body].
      go. cbn [bind b2z]. by rewrite list_insert_id. }
    sim_for (fun i o => ([VPtr (TInt IChar) (BObj b) 0; VPtr (TInt IChar) (BObj b') 0; VInt I32 k;
                          VInt IBool 0; VInt U32 n; VInt I32 i],
                         <[b := ints 8 o]> m, w))
      (fun _ o => bytes o).
    - by rewrite list_insert_id.
    - lia.
    - done.
    - unfold len, s32 in *. lia.
    - intros i s Hi Hs. go_body.
      rewrite ref_isAlpha by done. go.
      pose proof (char_bounds sc z ltac:(done)). pose proof (char_bounds sc z0 ltac:(done)).
      rewrite ref_isLowerChar by done.
      unfold vernam_c, caesar_ascii_val, UPPER_A_ASCII, LOWER_A_ASCII. go.
      all: rewrite ref_isUpperChar by done. all: go.
      all: unfold NUM_OF_ALPHA; fin i s.
    - intros i s s' Hi Hs E'. apply bind_ok_inv in E' as (c & Hc & E').
      destruct (Utils_isAlpha c); [|by injection E' as <-].
      apply bind_ok_inv in E' as (k' & Hk' & E').
      eapply store_bytes; [|apply u8_byte|]; done.
    - intros s Hs. go_body.
    - both. go.
  Qed.
End cipher.
