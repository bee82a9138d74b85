(** * The hand-written model of caesar_cipher.c and vernam_cipher.c against the C text *)
From Verif Require Import CSem Lib CLang C_Utils C_Crypto Model_Utils Model_Crypto Refine Refine_Utils.

Lemma cstrlen_ints o : cstrlen (ints 8 o) = strlen o.
Proof.
  unfold strlen. induction o as [|c o IH]; [done|]. cbn. destruct (c =? 0); [done|].
  unfold ints in IH. rewrite IH. destruct (strlen_nat o); cbn; [|done]. f_equal. lia.
Qed.
Lemma lib_strlen m b o t :
  m !! b = Some (ints 8 o) ->
  lib LStrlen [VPtr t (BObj b) 0] m = let! n := strlen o in Ok (VInt U64 n, m).
Proof.
  intros Hb. unfold lib, cells_from, block. rewrite Hb. cbn [bind]. rewrite len_ints.
  pose proof (len_nonneg o). replace ((0 <=? 0) && (0 <=? len o)) with true by lia.
  cbn [bind]. change (Z.to_nat 0) with O. by rewrite drop_0, cstrlen_ints.
Qed.
Lemma strlen_bound o n : strlen o = Ok n -> 0 <= n < len o.
Proof.
  intros H. apply strlen_inv in H as (s & (r & -> & _) & ->). rewrite len_app, len_cons.
  pose proof (len_nonneg s). pose proof (len_nonneg r). lia.
Qed.

Ltac head_hook X ::=
  lazymatch X with
  | lib LStrlen [VPtr _ (BObj ?b) 0] _ => erewrite lib_strlen; [|look]
  | strlen ?o => let n := fresh "n" in let E := fresh "E" in
      destruct (strlen o) as [n| |] eqn:E; cbn [bind]; try reflexivity;
      pose proof (strlen_bound o n E)
  end.

Lemma u8_wc (c : bool) x : u8 (if c then s8 x else u8 x) = u8 x.
Proof. unfold u8, s8. destruct c; lia. Qed.
Lemma u8_u8 x : u8 (u8 x) = u8 x.
Proof. unfold u8. lia. Qed.
Lemma s8_char sc z : s8 (char_val sc z) = s8 z.
Proof. unfold char_val, s8. destruct sc; lia. Qed.
Lemma char_bounds sc z : is_byte z -> - 128 <= char_val sc z < 256.
Proof. unfold is_byte, char_val, s8. destruct sc; lia. Qed.
Ltac fin i s :=
  rewrite ?u8_wc, ?u8_u8, ?s8_char; rewrite (store_ok s i) by lia; cbn [bind]; smalls; reflexivity.

Lemma loop_skip {T B} (step : T -> outcome (looped T)) x n (k : _ -> outcome B) :
  (0 < n)%nat -> step x = Ok (Done RNormal x) -> bind (loop n step x) k = k (RNormal, x).
Proof. intros Hn E. destruct n; [lia|]. rewrite loop_S, E. done. Qed.

Section cipher.
  Context {W : Type} (sc : bool)
          (ext : Z -> list val -> mem -> W -> outcome (val * mem * W)) (fuel : nat).
  Local Notation run f := (call sc ext fuel f).
  Implicit Types (m : mem) (w : W) (o : list Z).

  Lemma ref_caesar_encrypt m w b o k :
    m !! b = Some (ints 8 o) -> bytes o -> is_byte k -> len o < 2 ^ 64 -> (length o < fuel)%nat ->
    run c_CaesarCipher_encrypt [VPtr (TInt IChar) (BObj b) 0; VInt U8 k] m w
    = let! o := CaesarCipher_encrypt o k in Ok (VUndef, <[b := ints 8 o]> m, w).
  Proof.
    intros Hb Hbo Hk Hlo Hf. unfold c_CaesarCipher_encrypt, CaesarCipher_encrypt. bounds. go.
    sim_for (fun i o => ([VPtr (TInt IChar) (BObj b) 0; VInt U8 k; VInt U64 n; VInt U64 i],
                         <[b := ints 8 o]> m, w))
      (fun _ o => bytes o).
    - by rewrite list_insert_id.
    - lia.
    - done.
    - unfold len in *. lia.
    - intros i s Hi Hs. go_body.
      rewrite ref_isAlpha by done. go.
      rewrite ref_isUpperChar by done.
      unfold caesar_ascii_val, MAX_SHIFT, UPPER_A_ASCII, LOWER_A_ASCII. go.
      all: fin i s.
    - intros i s s' Hi Hs E'. apply bind_ok_inv in E' as (c & Hc & E').
      destruct (Utils_isAlpha c); [|by injection E' as <-].
      eapply store_bytes; [|apply u8_byte|]; done.
    - intros s Hs. go_body.
    - both. go.
  Qed.
  Lemma ref_caesar_decrypt m w b o k :
    m !! b = Some (ints 8 o) -> bytes o -> is_byte k -> len o < 2 ^ 64 -> (length o < fuel)%nat ->
    run c_CaesarCipher_decrypt [VPtr (TInt IChar) (BObj b) 0; VInt U8 k] m w
    = let! o := CaesarCipher_decrypt o k in Ok (VUndef, <[b := ints 8 o]> m, w).
  Proof.
    intros Hb Hbo Hk Hlo Hf. unfold c_CaesarCipher_decrypt, CaesarCipher_decrypt. bounds. go.
    sim_for (fun i o => ([VPtr (TInt IChar) (BObj b) 0; VInt U8 k; VInt U64 n; VInt U64 i],
                         <[b := ints 8 o]> m, w))
      (fun _ o => bytes o).
    - by rewrite list_insert_id.
    - lia.
    - done.
    - unfold len in *. lia.
    - intros i s Hi Hs. go_body.
      rewrite ref_isAlpha by done. go.
      rewrite ref_isUpperChar by done.
      unfold caesar_ascii_val, MAX_SHIFT, UPPER_A_ASCII, LOWER_A_ASCII. go.
      all: fin i s.
    - intros i s s' Hi Hs E'. apply bind_ok_inv in E' as (c & Hc & E').
      destruct (Utils_isAlpha c); [|by injection E' as <-].
      eapply store_bytes; [|apply u8_byte|]; done.
    - intros s Hs. go_body.
    - both. go.
  Qed.

  Lemma ref_vernam_encrypt m w b o b' o' k :
    m !! b = Some (ints 8 o) -> m !! b' = Some (ints 8 o') -> b <> b' -> bytes o -> bytes o' ->
    is_s32 k -> len o < 2 ^ 64 -> (length o < fuel)%nat ->
    run c_VernamCipher_encrypt [VPtr (TInt IChar) (BObj b) 0; VPtr (TInt IChar) (BObj b') 0;
                                VInt I32 k] m w
    = let! '(r, o) := VernamCipher_encrypt o o' k in Ok (VInt IBool (b2z r), <[b := ints 8 o]> m, w).
  Proof.
    intros Hb Hb' Hne Hbo Hbo' Hk Hlo Hf. unfold c_VernamCipher_encrypt, VernamCipher_encrypt.
    bounds. go.
    2:{ cbn [bind b2z]. by rewrite list_insert_id. }
    destruct (Z.ltb_spec k 0).
    { rewrite cfor_empty by lia. rewrite loop_skip; [|lia|go_body].
      go. cbn [bind b2z]. by rewrite list_insert_id. }
    sim_for (fun i o => ([VPtr (TInt IChar) (BObj b) 0; VPtr (TInt IChar) (BObj b') 0; VInt I32 k;
                          VInt IBool 0; VInt U64 n; VInt I32 i],
                         <[b := ints 8 o]> m, w))
      (fun _ o => bytes o).
    - by rewrite list_insert_id.
    - lia.
    - done.
    - unfold len, s32 in *. lia.
    - intros i s Hi Hs. go_body.
      rewrite ref_isAlpha by done. go.
      rewrite ref_isLowerChar by done.
      unfold vernam_c, caesar_ascii_val, UPPER_A_ASCII, LOWER_A_ASCII. go.
      all: rewrite ref_isUpperChar by done. all: go.
      all: unfold crem, NUM_OF_ALPHA; fin i s.
    - intros i s s' Hi Hs E'. apply bind_ok_inv in E' as (c & Hc & E').
      destruct (Utils_isAlpha c); [|by injection E' as <-].
      apply bind_ok_inv in E' as (k' & Hk' & E').
      eapply store_bytes; [|apply u8_byte|]; done.
    - intros s Hs. go_body.
    - both. go.
  Qed.
  Lemma ref_vernam_decrypt m w b o b' o' k :
    m !! b = Some (ints 8 o) -> m !! b' = Some (ints 8 o') -> b <> b' -> bytes o -> bytes o' ->
    is_s32 k -> len o < 2 ^ 64 -> (length o < fuel)%nat ->
    run c_VernamCipher_decrypt [VPtr (TInt IChar) (BObj b) 0; VPtr (TInt IChar) (BObj b') 0;
                                VInt I32 k] m w
    = let! '(r, o) := VernamCipher_decrypt sc o o' k in Ok (VInt IBool (b2z r), <[b := ints 8 o]> m, w).
  Proof.
    intros Hb Hb' Hne Hbo Hbo' Hk Hlo Hf. unfold c_VernamCipher_decrypt, VernamCipher_decrypt.
    bounds. go.
    2:{ cbn [bind b2z]. by rewrite list_insert_id. }
    destruct (Z.ltb_spec k 0).
    { rewrite cfor_empty by lia. rewrite loop_skip; [|lia|go_body].
      go. cbn [bind b2z]. by rewrite list_insert_id. }
    sim_for (fun i o => ([VPtr (TInt IChar) (BObj b) 0; VPtr (TInt IChar) (BObj b') 0; VInt I32 k;
                          VInt IBool 0; VInt U64 n; VInt I32 i],
                         <[b := ints 8 o]> m, w))
      (fun _ o => bytes o).
    - by rewrite list_insert_id.
    - lia.
    - done.
    - unfold len, s32 in *. lia.
    - intros i s Hi Hs. go_body.
      rewrite ref_isAlpha by done. go.
      pose proof (char_bounds sc z ltac:(done)). pose proof (char_bounds sc z0 ltac:(done)).
      rewrite ref_isLowerChar by done.
      unfold vernam_c, caesar_ascii_val, UPPER_A_ASCII, LOWER_A_ASCII. go.
      all: rewrite ref_isUpperChar by done. all: go.
      all: unfold NUM_OF_ALPHA; fin i s.
    - intros i s s' Hi Hs E'. apply bind_ok_inv in E' as (c & Hc & E').
      destruct (Utils_isAlpha c); [|by injection E' as <-].
      apply bind_ok_inv in E' as (k' & Hk' & E').
      eapply store_bytes; [|apply u8_byte|]; done.
    - intros s Hs. go_body.
    - both. go.
  Qed.
End cipher.
