(** * The C text of the ciphers *)
From Verif Require Import CSem Lib CLang C_Utils C_Crypto Model_Crypto Spec_Cipher Spec_ChaCha Drive_TextRun
  Proof_Cipher Proof_ChaChaCrypt Refine Refine_Cipher Refine_Chacha Refine_ChachaBlock Refine_ChachaCrypt
  Proof_TextQueue.

Local Notation chars b := (VPtr (TInt IChar) (BObj b) 0).
Local Notation bytes_at b p := (VPtr (TInt U8) (BObj b) p).

Lemma text_bytes s rest : text s -> bytes rest -> bytes (s ++ 0 :: rest).
Proof.
  intros Hs Hr. apply Forall_app_2; [eapply list.Forall_impl; [exact Hs|]; unfold is_byte; cbn; intros; lia|].
  constructor; [unfold is_byte; lia|done].
Qed.
Lemma move_text k s : text s -> text (map (move k) s).
Proof.
  intros Hs. apply Forall_forall. intros c. rewrite in_map_iff.
  intros (x & <- & Hx).
  pose proof (proj1 (Forall_forall _ _) Hs x Hx) as B. cbn in B.
  unfold move, upper, lower. pose proof (Z.mod_pos_bound (x - 65 + k) 26).
  pose proof (Z.mod_pos_bound (x - 97 + k) 26). repeat case_match; lia.
Qed.

Lemma ints_inj o o' : ints 8 o = ints 8 o' -> o = o'.
Proof. intros E. by rewrite <- (bytes_back o), E, bytes_back. Qed.

Lemma letters_bytes key krest :
  bytes krest -> Forall (fun k => letter k = true) key -> bytes (key ++ krest).
Proof.
  intros Hkr Hk. apply Forall_app_2; [|done]. eapply list.Forall_impl; [exact Hk|].
  unfold letter, upper, lower, is_byte. cbn. intros; lia.
Qed.

Section crypto.
  Context {W : Type} (sc : bool)
          (ext : Z -> list val -> mem -> W -> outcome (val * mem * W)) (fuel : nat).
  Implicit Types (m : mem) (w : W).

  Section caesar.
    Context (m : mem) (w : W) (b : nat) (s rest : list Z).
    Hypothesis (Hb : m !! b = Some (ints 8 (s ++ 0 :: rest))) (Hs : text s) (Hr : bytes rest).
    Hypothesis (H64 : len (s ++ 0 :: rest) < 2 ^ 64) (Hf : len (s ++ 0 :: rest) < Z.of_nat fuel).

    Lemma text_caesar_encrypt k : 0 <= k < 256 ->
      call sc ext fuel c_CaesarCipher_encrypt [chars b; VInt U8 k] m w
      = Ok (VUndef, <[b := ints 8 (map (move k) s ++ 0 :: rest)]> m, w).
    Proof.
      intros Hk. rewrite (ref_caesar_encrypt sc ext fuel m w b _ k Hb); try done.
      - rewrite caesar_encrypt_ok by done. done.
      - by apply text_bytes.
      - unfold len in *. lia.
    Qed.
    Lemma text_caesar_decrypt k : 0 <= k < 256 ->
      call sc ext fuel c_CaesarCipher_decrypt [chars b; VInt U8 k] m w
      = Ok (VUndef, <[b := ints 8 (map (fun c => if k <=? place c then move (- k) c
                                                 else move (22 - k) c) s ++ 0 :: rest)]> m, w).
    Proof.
      intros Hk. rewrite (ref_caesar_decrypt sc ext fuel m w b _ k Hb); try done.
      - rewrite caesar_decrypt_ok by done. done.
      - by apply text_bytes.
      - unfold len in *. lia.
    Qed.
  End caesar.

  Lemma text_caesar_undo m w b s rest k j :
    m !! b = Some (ints 8 (s ++ 0 :: rest)) -> text s -> bytes rest ->
    len (s ++ 0 :: rest) < 2 ^ 64 -> len (s ++ 0 :: rest) < Z.of_nat fuel ->
    0 <= k < 256 -> 0 <= j < 256 -> (k + j) mod 26 = 0 ->
    (let! '(_, m, w) := call sc ext fuel c_CaesarCipher_encrypt [chars b; VInt U8 k] m w in
     call sc ext fuel c_CaesarCipher_encrypt [chars b; VInt U8 j] m w) = Ok (VUndef, m, w).
  Proof.
    intros Hb Hs Hr H64 Hf Hk Hj Hkj.
    rewrite (text_caesar_encrypt m w b s rest) by done. cbn [bind].
    assert (len (map (move k) s ++ 0 :: rest) = len (s ++ 0 :: rest)) as El.
    { unfold len. by rewrite !app_length, map_length. }
    rewrite (text_caesar_encrypt _ w b (map (move k) s) rest); rewrite ?El; try done.
    - pose proof (caesar_undo s rest k j Hs Hk Hj Hkj) as U.
      rewrite caesar_encrypt_ok in U by done. cbn [bind] in U.
      rewrite caesar_encrypt_ok in U by (try done; by apply move_text). injection U as U.
      rewrite U, list_insert_insert. do 2 f_equal. f_equal. by apply list_insert_id.
    - apply list_lookup_insert. by eapply lookup_lt_Some.
    - by apply move_text.
  Qed.
  (** encrypting and decrypting with one key: exactly the texts whose letters do not pass [z] *)
  Lemma text_caesar_round m w b s rest k :
    m !! b = Some (ints 8 (s ++ 0 :: rest)) -> text s -> bytes rest ->
    len (s ++ 0 :: rest) < 2 ^ 64 -> len (s ++ 0 :: rest) < Z.of_nat fuel -> 0 <= k < 256 ->
    (let! '(_, m, w) := call sc ext fuel c_CaesarCipher_encrypt [chars b; VInt U8 k] m w in
     call sc ext fuel c_CaesarCipher_decrypt [chars b; VInt U8 k] m w) = Ok (VUndef, m, w)
    <-> Forall (fun c => letter c = true -> place c + k < 26) s.
  Proof.
    intros Hb Hs Hr H64 Hf Hk. rewrite <- (caesar_round_iff s rest k Hs Hk).
    rewrite (text_caesar_encrypt m w b s rest) by done. cbn [bind].
    assert (len (map (move k) s ++ 0 :: rest) = len (s ++ 0 :: rest)) as El.
    { unfold len. by rewrite !app_length, map_length. }
    rewrite (text_caesar_decrypt _ w b (map (move k) s) rest); rewrite ?El; try done.
    - rewrite caesar_encrypt_ok by done. cbn [bind].
      rewrite caesar_decrypt_ok by (try done; by apply move_text).
      rewrite list_insert_insert. split; intros E; injection E as E.
      + f_equal. apply (f_equal (fun m : mem => m !! b)) in E.
        rewrite Hb, list_lookup_insert in E by by eapply lookup_lt_Some.
        injection E as E. by apply ints_inj.
      + rewrite E. do 2 f_equal. f_equal. by apply list_insert_id.
    - apply list_lookup_insert. by eapply lookup_lt_Some.
    - by apply move_text.
  Qed.

  Section vernam.
    Context (m : mem) (w : W) (b b' : nat) (s rest key krest : list Z).
    Hypothesis (Hb : m !! b = Some (ints 8 (s ++ 0 :: rest))) (Hb' : m !! b' = Some (ints 8 (key ++ krest))).
    Hypothesis (Hne : b <> b') (Hs : text s) (Hr : bytes rest) (Hkr : bytes krest).
    Hypothesis (Hl : len s < 2 ^ 31) (H64 : len (s ++ 0 :: rest) < 2 ^ 64)
               (Hf : len (s ++ 0 :: rest) < Z.of_nat fuel).

    (** a length that is not the key's: refused, nothing is changed *)
    Lemma text_vernam_refuse f n : f = c_VernamCipher_encrypt \/ f = c_VernamCipher_decrypt ->
      bytes key -> is_s32 n -> n <> len s ->
      call sc ext fuel f [chars b; chars b'; VInt I32 n] m w = Ok (VInt IBool 0, m, w).
    Proof.
      intros Hfn Hk Hn Hnl. assert (bytes (key ++ krest)) by by apply Forall_app_2.
      assert (s32 (len s) <> n) as Hd.
      { rewrite s32_small by (unfold len in *; lia). done. }
      destruct Hfn as [-> | ->].
      - rewrite (ref_vernam_encrypt sc ext fuel m w b _ b' _ n Hb Hb'); try done.
        + rewrite vernam_encrypt_length by done. cbn [bind]. do 2 f_equal. f_equal. by apply list_insert_id.
        + by apply text_bytes.
        + unfold len in *. lia.
      - rewrite (ref_vernam_decrypt sc ext fuel m w b _ b' _ n Hb Hb'); try done.
        + rewrite vernam_decrypt_length by done. cbn [bind]. do 2 f_equal. f_equal. by apply list_insert_id.
        + by apply text_bytes.
        + unfold len in *. lia.
    Qed.
    Lemma text_vernam_encrypt : len key = len s -> Forall (fun k => letter k = true) key ->
      call sc ext fuel c_VernamCipher_encrypt [chars b; chars b'; VInt I32 (len s)] m w
      = Ok (VInt IBool 1,
            <[b := ints 8 (zip_with (fun c k => move (place k) c) s key ++ 0 :: rest)]> m, w).
    Proof.
      intros Hkl Hk. rewrite (ref_vernam_encrypt sc ext fuel m w b _ b' _ (len s) Hb Hb'); try done.
      - rewrite vernam_encrypt_ok by done. done.
      - by apply text_bytes.
      - by apply letters_bytes.
      - unfold is_s32, len in *. lia.
      - unfold len in *. lia.
    Qed.
    Lemma text_vernam_decrypt : len key = len s -> Forall (fun k => letter k = true) key ->
      call sc ext fuel c_VernamCipher_decrypt [chars b; chars b'; VInt I32 (len s)] m w
      = Ok (VInt IBool 1,
            <[b := ints 8 (zip_with (fun c k => move (- place k) c) s key ++ 0 :: rest)]> m, w).
    Proof.
      intros Hkl Hk. rewrite (ref_vernam_decrypt sc ext fuel m w b _ b' _ (len s) Hb Hb'); try done.
      - rewrite vernam_decrypt_ok by done. done.
      - by apply text_bytes.
      - by apply letters_bytes.
      - unfold is_s32, len in *. lia.
      - unfold len in *. lia.
    Qed.
  End vernam.

  Lemma zip_move_text s key : text s -> text (zip_with (fun c k => move (place k) c) s key).
  Proof.
    intros Hs. revert key. induction Hs as [|c s Hc Hs IH]; intros [|k key]; cbn; try constructor; [|apply IH].
    pose proof (move_text (place k) [c] ltac:(by constructor)) as H. by inversion H.
  Qed.
  Lemma text_vernam_round m w b b' s rest key krest :
    m !! b = Some (ints 8 (s ++ 0 :: rest)) -> m !! b' = Some (ints 8 (key ++ krest)) ->
    b <> b' -> text s -> bytes rest -> bytes krest -> len s < 2 ^ 31 ->
    len (s ++ 0 :: rest) < 2 ^ 64 -> len (s ++ 0 :: rest) < Z.of_nat fuel ->
    len key = len s -> Forall (fun k => letter k = true) key ->
    (let! '(_, m, w) :=
       call sc ext fuel c_VernamCipher_encrypt [chars b; chars b'; VInt I32 (len s)] m w in
     call sc ext fuel c_VernamCipher_decrypt [chars b; chars b'; VInt I32 (len s)] m w)
    = Ok (VInt IBool 1, m, w).
  Proof.
    intros Hb Hb' Hne Hs Hr Hkr Hl H64 Hf Hkl Hk.
    rewrite (text_vernam_encrypt m w b b' s rest key krest) by done. cbn [bind].
    pose proof (zip_move_text s key Hs) as Ht.
    assert (len (zip_with (fun c k => move (place k) c) s key) = len s) as El.
    { unfold len in *. rewrite zip_with_length. lia. }
    assert (len (zip_with (fun c k => move (place k) c) s key ++ 0 :: rest) = len (s ++ 0 :: rest)) as El'.
    { unfold len in *. rewrite !app_length. lia. }
    rewrite <- El.
    pose proof (vernam_round sc s rest key krest Hs Hl Hkl Hk) as R.
    rewrite vernam_encrypt_ok in R by done. cbn [bind] in R. rewrite <- El in R.
    rewrite vernam_decrypt_ok in R by (try done; lia). injection R as R.
    rewrite (text_vernam_decrypt _ w b b' _ rest key krest); rewrite ?El'; try done; try lia.
    - rewrite R, list_insert_insert. do 2 f_equal. f_equal. by apply list_insert_id.
    - apply list_lookup_insert. by eapply lookup_lt_Some.
    - by rewrite list_lookup_insert_ne.
  Qed.

  (** ** ChaCha20 *)
  Lemma text_chacha20 m w bp po p br ro r bk key bn nonce n inc :
    m !! bp = Some (ints 8 po) -> m !! br = Some (ints 8 ro) ->
    m !! bk = Some (ints 8 key) -> m !! bn = Some (ints 8 nonce) ->
    br <> bk -> br <> bn -> parameters key nonce -> bytes po -> bytes ro -> is_u32 n -> is_u32 inc ->
    0 <= p -> p + n <= len po -> 0 <= r -> r + n <= len ro ->
    (bp = br -> r <= p \/ p + n <= r) ->
    64 < Z.of_nat fuel -> n / 64 < Z.of_nat fuel ->
    call sc ext fuel c_Chacha20_crypt
      [bytes_at bp p; VInt U32 n; bytes_at bk 0; bytes_at bn 0; VInt U32 inc; bytes_at br r] m w
    = Ok (VUndef, <[br := ints 8 (write ro r (chacha20 key nonce inc (slice po p n)))]> m, w).
  Proof.
    intros Hbp Hbr Hbk Hbn Hk Hn' HP Hpo Hro Hn Hi Hp Hpn Hr Hrn Ho Hf Hf'.
    pose proof HP as (Bk & _ & Bn & _). unfold is_u32 in Hn.
    assert (0 <= n / 64) by (apply Z.div_pos; lia).
    destruct (decide (bp = br)) as [<- | Hne].
    - rewrite Hbp in Hbr. injection Hbr as E. apply ints_inj in E as <-.
      rewrite (ref_Chacha20_crypt sc ext fuel m w bp po p r bk key bn nonce n inc) by (done || lia).
      rewrite crypt_general; auto.
    - rewrite (ref_Chacha20_crypt_apart sc ext fuel m w bp po br ro p r bk key bn nonce n inc) by (done || lia).
      assert (len (po ++ ro) = len po + len ro) as El by (unfold len; rewrite app_length; lia).
      rewrite crypt_general; try done; try (unfold len in *; lia); [|by apply Forall_app_2].
      cbn [bind]. do 2 f_equal. f_equal. f_equal.
      assert (slice (po ++ ro) p n = slice po p n) as ->.
      { unfold slice, len in *. rewrite drop_app_le by lia. rewrite take_app_le; [done|].
        rewrite drop_length. lia. }
      unfold write, len. rewrite take_app_ge by lia.
      rewrite <- app_assoc, drop_app, drop_app_ge by lia.
      generalize (chacha20 key nonce inc (slice po p n)) as c. intros c.
      replace (Z.to_nat (Z.of_nat (length po) + r) - length po)%nat with (Z.to_nat r) by lia.
      by replace (Z.to_nat (Z.of_nat (length po) + r) + length c - length po)%nat
        with (Z.to_nat r + length c)%nat by lia.
  Qed.
  (** from [bp] to [br] and from there to [bq] *)
  Lemma text_chacha20_back m w bp po p br ro r bq qo q bk key bn nonce n inc :
    m !! bp = Some (ints 8 po) -> m !! br = Some (ints 8 ro) -> m !! bq = Some (ints 8 qo) ->
    m !! bk = Some (ints 8 key) -> m !! bn = Some (ints 8 nonce) ->
    br <> bk -> br <> bn -> bq <> bk -> bq <> bn -> parameters key nonce ->
    bytes po -> bytes ro -> bytes qo -> is_u32 n -> is_u32 inc ->
    0 <= p -> p + n <= len po -> 0 <= r -> r + n <= len ro -> 0 <= q -> q + n <= len qo ->
    (bp = br -> r <= p \/ p + n <= r) -> (br = bq -> q <= r \/ r + n <= q) ->
    64 < Z.of_nat fuel -> n / 64 < Z.of_nat fuel ->
    exists m' qo',
      (let! '(_, m, w) := call sc ext fuel c_Chacha20_crypt
         [bytes_at bp p; VInt U32 n; bytes_at bk 0; bytes_at bn 0; VInt U32 inc; bytes_at br r] m w in
       call sc ext fuel c_Chacha20_crypt
         [bytes_at br r; VInt U32 n; bytes_at bk 0; bytes_at bn 0; VInt U32 inc; bytes_at bq q] m w)
      = Ok (VUndef, m', w) /\
      m' !! bq = Some (ints 8 qo') /\ slice qo' q n = slice po p n /\ same_but [br; bq] m m'.
  Proof.
    intros Hbp Hbr Hbq Hbk Hbn H1 H2 H3 H4 HP Hpo Hro Hqo Hn Hi Hp Hpn Hr Hrn Hq Hqn Ho1 Ho2 Hf Hf'.
    rewrite (text_chacha20 m w bp po p br ro r bk key bn nonce n inc) by done. cbn [bind].
    pose proof Hn as Hn'. unfold is_u32 in Hn'.
    set (c := chacha20 key nonce inc (slice po p n)).
    assert (len c = n) as Hc by (unfold c; rewrite len_chacha20, len_slice; lia).
    assert (bytes c) as Bc by by apply bytes_chacha20, bytes_slice.
    assert (slice (write ro r c) r n = c) as Sc by (apply slice_write_len; lia).
    assert (bytes (write ro r c)) as Bw by by apply bytes_write.
    assert (len (write ro r c) = len ro) as Lw by (rewrite len_write; lia).
    assert (len (slice po p n) = n) as Lp by (rewrite len_slice; lia).
    set (qo1 := if decide (bq = br) then write ro r c else qo).
    assert (<[br:=ints 8 (write ro r c)]> m !! bq = Some (ints 8 qo1) /\ bytes qo1 /\ q + n <= len qo1)
      as (Hq1 & Bq1 & Lq1).
    { unfold qo1. destruct (decide (bq = br)) as [->|Hne].
      - rewrite list_lookup_insert by by eapply lookup_lt_Some. split; [done|]. split; [done|].
        rewrite Hbr in Hbq. injection Hbq as E. apply ints_inj in E as <-. lia.
      - by rewrite list_lookup_insert_ne by done. }
    exists (<[bq:=ints 8 (write qo1 q (slice po p n))]> (<[br:=ints 8 (write ro r c)]> m)),
      (write qo1 q (slice po p n)).
    rewrite (text_chacha20 _ w br (write ro r c) r bq qo1 q bk key bn nonce n inc); try done; try lia.
    - rewrite Sc. unfold c. rewrite chacha20_involutive. split; [done|]. split.
      { apply list_lookup_insert. rewrite insert_length. by eapply lookup_lt_Some. }
      split; [apply slice_write_len; lia|]. split; [by rewrite !insert_length|].
      intros b Hb. rewrite !not_elem_of_cons in Hb. destruct Hb as (? & ? & _).
      by rewrite !list_lookup_insert_ne by done.
    - apply list_lookup_insert. by eapply lookup_lt_Some.
    - by rewrite list_lookup_insert_ne.
    - by rewrite list_lookup_insert_ne.
  Qed.
End crypto.
