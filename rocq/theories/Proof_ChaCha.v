(** * Proofs about ChaCha20 *)
From Verif Require Import CSem Lib Model_Utils Model_Crypto Spec_Utils Spec_ChaCha Proof_Utils
  Proof_Cipher.

Lemma get_nth (o : list Z) i : 0 <= i < len o -> get o i = nth (Z.to_nat i) o 0.
Proof.
  intros Hi. pose proof (lookup_get o i Hi) as H. symmetry. by apply nth_lookup_Some.
Qed.
Lemma nth_get (o : list Z) (n : nat) : Z.of_nat n < len o -> nth n o 0 = get o (Z.of_nat n).
Proof. intros H. rewrite get_nth by lia. by rewrite Nat2Z.id. Qed.

(** ** The quarter round *)

Definition words (s : list Z) : Prop := Forall is_u32 s.
Lemma add32_u32 x y : is_u32 (add32 x y).
Proof. apply u32_range. Qed.
Lemma lxor_u32 x y : is_u32 x -> is_u32 y -> is_u32 (Z.lxor x y).
Proof. intros. apply lxor_bound; [lia|done|done]. Qed.
Lemma rotl_model x n : is_u32 x -> 1 <= n <= 31 ->
  BitManipulation_rotl32 x n = Ok (rotl x n) /\ is_u32 (rotl x n).
Proof.
  intros Hx Hn.
  assert (is_u32 (x / 2 ^ (32 - n)) /\ x / 2 ^ (32 - n) < 2 ^ n) as [Hu Hb].
  { unfold is_u32 in *. assert (0 < 2 ^ (32 - n)) by (apply Z.pow_pos_nonneg; lia).
    assert (2 ^ (32 - n) * 2 ^ n = 2 ^ 32).
    { rewrite <- Z.pow_add_r by lia. f_equal. lia. }
    assert (x / 2 ^ (32 - n) < 2 ^ n) by (apply Z.div_lt_upper_bound; lia).
    split; [|done]. split; [apply Z.div_pos; lia|].
    assert (2 ^ n < 2 ^ 32) by (apply Z.pow_lt_mono_r; lia). lia. }
  assert ((x * 2 ^ n) mod 2 ^ 32 mod 2 ^ n = 0) as Hm.
  { replace (2 ^ 32) with (2 ^ n * 2 ^ (32 - n)) by (rewrite <- Z.pow_add_r by lia; f_equal; lia).
    assert (0 < 2 ^ n) by (apply Z.pow_pos_nonneg; lia).
    assert (0 < 2 ^ (32 - n)) by (apply Z.pow_pos_nonneg; lia).
    rewrite (Z.mul_comm x). rewrite Z.mul_mod_distr_l by lia.
    rewrite Z.mul_comm. apply Z_mod_mult. }
  assert (Z.lxor ((x * 2 ^ n) mod 2 ^ 32) (x / 2 ^ (32 - n)) = rotl x n) as E.
  { unfold rotl. rewrite <- (lor_add_disjoint ((x * 2 ^ n) mod 2 ^ 32) (x / 2 ^ (32 - n)) n)
      by (unfold is_u32 in *; lia).
    apply Z.bits_inj'. intros k Hk. rewrite Z.lxor_spec, Z.lor_spec.
    destruct (Z.lt_ge_cases k n) as [Hkn|Hkn].
    - assert (Z.testbit ((x * 2 ^ n) mod 2 ^ 32) k = false) as ->; [|by destruct (Z.testbit _ _)].
      rewrite Z.mod_pow2_bits_low by lia. apply Z.mul_pow2_bits_low. lia.
    - rewrite (testbit_small (x / _) n k) by (unfold is_u32 in *; lia).
      by destruct (Z.testbit _ _). }
  split.
  - unfold BitManipulation_rotl32, shl32, shr32.
    replace ((0 <=? n) && (n <? 32)) with true by lia. cbn [bind].
    rewrite (u32_small (32 - n)) by lia.
    replace ((0 <=? 32 - n) && (32 - n <? 32)) with true by lia. cbn [bind].
    rewrite Z.shiftr_div_pow2, Z.shiftl_mul_pow2 by lia. unfold u32. by rewrite E.
  - rewrite <- E. apply lxor_u32; [apply u32_range|done].
Qed.
Lemma rotl_ok x n : is_u32 x -> 1 <= n <= 31 -> BitManipulation_rotl32 x n = Ok (rotl x n).
Proof. intros. by apply rotl_model. Qed.
Lemma rotl_u32 x n : is_u32 x -> 1 <= n <= 31 -> is_u32 (rotl x n).
Proof. intros. by apply rotl_model. Qed.

Lemma quarter_u32 a b c d : is_u32 a -> is_u32 b -> is_u32 c -> is_u32 d ->
  let '(a', b', c', d') := quarter a b c d in is_u32 a' /\ is_u32 b' /\ is_u32 c' /\ is_u32 d'.
Proof.
  intros. unfold quarter. cbn zeta.
  repeat split; repeat first
    [apply add32_u32 | apply rotl_u32; [|lia] | apply lxor_u32 | done].
Qed.

Ltac u32s := repeat first [done | apply add32_u32 | apply rotl_u32; [|lia] | apply lxor_u32].

Lemma quarter_ok s i j k l : words s -> len s = 16 ->
  0 <= i < 16 -> 0 <= j < 16 -> 0 <= k < 16 -> 0 <= l < 16 ->
  QuarterRound s i j k l
    = Ok (quarter_round s (Z.to_nat i) (Z.to_nat j) (Z.to_nat k) (Z.to_nat l)) /\
  words (quarter_round s (Z.to_nat i) (Z.to_nat j) (Z.to_nat k) (Z.to_nat l)) /\
  len (quarter_round s (Z.to_nat i) (Z.to_nat j) (Z.to_nat k) (Z.to_nat l)) = 16.
Proof.
  intros Hs HL Hi Hj Hk Hl. unfold quarter_round.
  rewrite <- !get_nth by lia.
  pose proof (Forall_get _ _ i Hs ltac:(lia)) as Ha.
  pose proof (Forall_get _ _ j Hs ltac:(lia)) as Hb.
  pose proof (Forall_get _ _ k Hs ltac:(lia)) as Hc.
  pose proof (Forall_get _ _ l Hs ltac:(lia)) as Hd.
  unfold QuarterRound. rewrite !(load_ok s) by lia. cbn [bind].
  revert Ha Hb Hc Hd. generalize (get s i) (get s j) (get s k) (get s l).
  intros a b c d Ha Hb Hc Hd.
  pose proof (quarter_u32 a b c d Ha Hb Hc Hd) as HQ.
  split.
  - unfold quarter. fold (add32 a b).
    change (u32 (a + b)) with (add32 a b).
    rewrite rotl_ok by (lia || u32s). cbn [bind].
    match goal with |- context [u32 (c + ?x)] => change (u32 (c + x)) with (add32 c x) end.
    rewrite rotl_ok by (lia || u32s). cbn [bind].
    match goal with |- context [u32 (add32 a b + ?x)] =>
      change (u32 (add32 a b + x)) with (add32 (add32 a b) x) end.
    rewrite rotl_ok by (lia || u32s). cbn [bind].
    match goal with |- context [u32 (add32 c ?y + ?x)] =>
      change (u32 (add32 c y + x)) with (add32 (add32 c y) x) end.
    rewrite rotl_ok by (lia || u32s). cbn [bind].
    rewrite store_ok by lia. cbn [bind].
    rewrite store_ok by (rewrite !len_insert; lia). cbn [bind].
    rewrite store_ok by (rewrite !len_insert; lia). cbn [bind].
    rewrite store_ok by (rewrite !len_insert; lia). done.
  - destruct (quarter a b c d) as [[[a' b'] c'] d']. destruct HQ as (? & ? & ? & ?).
    split; [|by rewrite !len_insert]. unfold words.
    repeat (apply Forall_insert; [|done]). done.
Qed.

Lemma double_ok s : words s -> len s = 16 ->
  chacha_double_round s = Ok (inner_block s) /\ words (inner_block s) /\ len (inner_block s) = 16.
Proof.
  intros Hs HL. unfold chacha_double_round, inner_block. cbn zeta.
  destruct (quarter_ok s 0 4 8 12) as (-> & Hs1 & HL1); try done.
  cbn [bind Z.to_nat Pos.to_nat Pos.iter_op Nat.add] in *.
  destruct (quarter_ok _ 1 5 9 13 Hs1 HL1) as (E2 & Hs2 & HL2); try done.
  destruct (quarter_ok _ 2 6 10 14 Hs2 HL2) as (E3 & Hs3 & HL3); try done.
  destruct (quarter_ok _ 3 7 11 15 Hs3 HL3) as (E4 & Hs4 & HL4); try done.
  destruct (quarter_ok _ 0 5 10 15 Hs4 HL4) as (E5 & Hs5 & HL5); try done.
  destruct (quarter_ok _ 1 6 11 12 Hs5 HL5) as (E6 & Hs6 & HL6); try done.
  destruct (quarter_ok _ 2 7 8 13 Hs6 HL6) as (E7 & Hs7 & HL7); try done.
  destruct (quarter_ok _ 3 4 9 14 Hs7 HL7) as (E8 & Hs8 & HL8); try done.
  split; [|by split].
  etransitivity; [apply (f_equal (fun e => bind e _) E2)|]. cbn [bind].
  etransitivity; [apply (f_equal (fun e => bind e _) E3)|]. cbn [bind].
  etransitivity; [apply (f_equal (fun e => bind e _) E4)|]. cbn [bind].
  etransitivity; [apply (f_equal (fun e => bind e _) E5)|]. cbn [bind].
  etransitivity; [apply (f_equal (fun e => bind e _) E6)|]. cbn [bind].
  etransitivity; [apply (f_equal (fun e => bind e _) E7)|]. cbn [bind].
  exact E8.
Qed.

Lemma iter_length (f : list Z -> list Z) n s : (forall x, length (f x) = length x) ->
  length (Nat.iter n f s) = length s.
Proof. intros Hf. induction n as [|n IH]; [done|]. cbn. by rewrite Hf. Qed.
Lemma quarter_length s i j k l : length (quarter_round s i j k l) = length s.
Proof.
  unfold quarter_round. destruct (quarter _ _ _ _) as [[[a b] c] d]. by rewrite !insert_length.
Qed.
Lemma inner_length s : length (inner_block s) = length s.
Proof. unfold inner_block. cbn zeta. by rewrite !quarter_length. Qed.

Local Opaque inner_block.
Lemma iter_ok s n : words s -> len s = 16 ->
  cfor 0 (Z.of_nat n) (fun _ x => chacha_double_round x) s = Ok (Nat.iter n inner_block s) /\
  words (Nat.iter n inner_block s) /\ len (Nat.iter n inner_block s) = 16.
Proof.
  intros Hs HL. induction n as [|n (IH & IHs & IHL)].
  - split; [done|]. by split.
  - rewrite (cfor_split 0 (Z.of_nat n)) by lia. rewrite IH. cbn [bind].
    rewrite cfor_step by lia. destruct (double_ok _ IHs IHL) as (E & Es & EL).
    rewrite E. cbn [bind]. rewrite cfor_empty by lia.
    split; [reflexivity|]. split; [exact Es|exact EL].
Qed.

(** ** The block function *)

Lemma word_ok o (i : nat) : bytes o -> 4 * Z.of_nat i + 4 <= len o ->
  Utils_deserialize32LE o (4 * Z.of_nat i) = Ok (word o i) /\ is_u32 (word o i).
Proof.
  intros Hb Hi. unfold Utils_deserialize32LE, word.
  rewrite !load_ok by lia. cbn [bind].
  rewrite !nth_get by lia.
  replace (Z.of_nat (4 * i)) with (4 * Z.of_nat i) by lia.
  replace (Z.of_nat (4 * i + 1)) with (4 * Z.of_nat i + 1) by lia.
  replace (Z.of_nat (4 * i + 2)) with (4 * Z.of_nat i + 2) by lia.
  replace (Z.of_nat (4 * i + 3)) with (4 * Z.of_nat i + 3) by lia.
  pose proof (Forall_get _ _ (4 * Z.of_nat i) Hb ltac:(lia)) as H0.
  pose proof (Forall_get _ _ (4 * Z.of_nat i + 1) Hb ltac:(lia)) as H1.
  pose proof (Forall_get _ _ (4 * Z.of_nat i + 2) Hb ltac:(lia)) as H2.
  pose proof (Forall_get _ _ (4 * Z.of_nat i + 3) Hb ltac:(lia)) as H3.
  split.
  - f_equal. rewrite or4 by done. lia.
  - unfold is_byte in *. unfold is_u32. lia.
Qed.

Lemma init_ok key counter nonce : bytes key -> 32 <= len key -> bytes nonce -> 12 <= len nonce ->
  chacha_init key nonce counter = Ok (initial_state key counter nonce).
Proof.
  intros Hk Lk Hn Ln. unfold chacha_init.
  assert (forall i : nat, (i < 8)%nat ->
    Utils_deserialize32LE key (4 * Z.of_nat i) = Ok (word key i)) as HK.
  { intros i Hi. apply word_ok; [done|lia]. }
  assert (forall i : nat, (i < 3)%nat ->
    Utils_deserialize32LE nonce (4 * Z.of_nat i) = Ok (word nonce i)) as HN.
  { intros i Hi. apply word_ok; [done|lia]. }
  rewrite (HK 0%nat ltac:(lia) : Utils_deserialize32LE key 0 = _). cbn [bind]. rewrite (HK 1%nat ltac:(lia) : Utils_deserialize32LE key 4 = _). cbn [bind].
  rewrite (HK 2%nat ltac:(lia) : Utils_deserialize32LE key 8 = _). cbn [bind]. rewrite (HK 3%nat ltac:(lia) : Utils_deserialize32LE key 12 = _). cbn [bind].
  rewrite (HK 4%nat ltac:(lia) : Utils_deserialize32LE key 16 = _). cbn [bind]. rewrite (HK 5%nat ltac:(lia) : Utils_deserialize32LE key 20 = _). cbn [bind].
  rewrite (HK 6%nat ltac:(lia) : Utils_deserialize32LE key 24 = _). cbn [bind]. rewrite (HK 7%nat ltac:(lia) : Utils_deserialize32LE key 28 = _). cbn [bind].
  rewrite (HN 0%nat ltac:(lia) : Utils_deserialize32LE nonce 0 = _). cbn [bind]. rewrite (HN 1%nat ltac:(lia) : Utils_deserialize32LE nonce 4 = _). cbn [bind].
  rewrite (HN 2%nat ltac:(lia) : Utils_deserialize32LE nonce 8 = _). cbn [bind]. done.
Qed.
Lemma init_words key counter nonce : bytes key -> 32 <= len key -> bytes nonce ->
  12 <= len nonce -> is_u32 counter ->
  words (initial_state key counter nonce) /\ len (initial_state key counter nonce) = 16.
Proof.
  intros Hk Lk Hn Ln Hc. split; [|done]. unfold words, initial_state.
  assert (forall n m o, bytes o -> 4 * Z.of_nat (n + m) <= len o ->
    Forall is_u32 (map (word o) (seq n m))) as HW.
  { intros n m o Ho Hl. apply Forall_fmap, list.Forall_forall. intros i Hi.
    apply elem_of_list_In, in_seq in Hi. apply word_ok; [done|lia]. }
  apply Forall_app_2; [by repeat constructor|].
  apply Forall_app_2; [apply HW; [done|lia]|].
  apply Forall_app_2; [by constructor|apply HW; [done|lia]].
Qed.

Lemma word_bytes_le w : word_bytes w = le_bytes 4 w.
Proof.
  unfold word_bytes. cbn [le_bytes]. rewrite !Z.div_div by lia. done.
Qed.
Lemma len_word_bytes xs : len (concat (map word_bytes xs)) = 4 * len xs.
Proof.
  induction xs as [|x xs IH]; [done|]. cbn [map concat]. rewrite len_app, len_cons, IH.
  change (len (word_bytes x)) with 4. lia.
Qed.
Lemma serialize_loop xs out : len out = 4 * len xs ->
  cfor 0 (len xs) (fun i out => let! xi := load xs i in Utils_serialize32LE out (4 * i) xi) out
  = Ok (concat (map word_bytes xs)).
Proof.
  intros HL. pose proof (len_nonneg xs).
  for_rule (fun i o => o = concat (map word_bytes (take (Z.to_nat i) xs)) ++ drop (Z.to_nat (4 * i)) out) o Ho.
  - done.
  - done.
  - intros i o Hi ->. rewrite load_ok by lia. cbn [bind]. eexists. split; [|reflexivity].
    assert (len (concat (map word_bytes (take (Z.to_nat i) xs))) = 4 * i) as HP.
    { rewrite len_word_bytes, len_take. lia. }
    rewrite <- HP at 2. rewrite HP.
    replace (drop (Z.to_nat (4 * i)) out)
      with (take 4 (drop (Z.to_nat (4 * i)) out) ++ drop (Z.to_nat (4 * (i + 1))) out).
    2: { replace (Z.to_nat (4 * (i + 1))) with (Z.to_nat (4 * i) + 4)%nat by lia.
         rewrite <- drop_drop. apply take_drop. }
    rewrite <- HP at 2. rewrite serialize32LE_ok.
    2: { rewrite len_take, len_drop. lia. }
    f_equal. replace (Z.to_nat (i + 1)) with (S (Z.to_nat i)) by lia.
    rewrite (take_S_r xs _ (get xs i)) by (apply lookup_get; lia).
    rewrite map_app, concat_app, <- app_assoc. f_equal. cbn [map concat].
    by rewrite app_nil_r, word_bytes_le.
  - rewrite Ho. f_equal. rewrite take_ge by (unfold len; lia).
    rewrite drop_ge by (unfold len in *; lia). apply app_nil_r.
Qed.

Lemma block_ok key counter nonce out : bytes key -> 32 <= len key -> bytes nonce ->
  12 <= len nonce -> is_u32 counter -> len out = 64 ->
  Block key counter nonce out = Ok (chacha20_block key counter nonce).
Proof.
  intros Hk Lk Hn Ln Hc Ho. unfold Block. rewrite init_ok by done. cbn [bind].
  destruct (init_words key counter nonce) as [Hs HL]; try done.
  unfold chacha20_block. cbn zeta. remember (initial_state key counter nonce) as s.
  destruct (iter_ok s 10 Hs HL) as (E & Es & EL).
  change CHACHA20_ROUNDS with (Z.of_nat 10). rewrite E. cbn [bind].
  remember (Nat.iter 10 inner_block s) as x.
  assert (length (zip_with add32 x s) = length x) as HZ.
  { rewrite zip_with_length. unfold len in *. lia. }
  assert (cfor 0 16 (fun i x => let! xi := load x i in let! yi := load s i in
            store x i (u32 (xi + yi))) x = Ok (zip_with add32 x s)) as ->.
  { rewrite <- EL. rewrite <- (app_nil_r x) at 2. rewrite <- (app_nil_r (zip_with add32 x s)).
    apply cfor_each; [done|]. intros i pre r Hi Hp. cbn beta.
    rewrite (cipher_load pre r _ i) by done. cbn [bind].
    rewrite load_ok by lia. cbn [bind]. rewrite cipher_store by done.
    do 3 f_equal. symmetry. apply get_lookup; [lia|].
    rewrite lookup_zip_with, !lookup_get by lia. done. }
  cbn [bind]. assert (len (zip_with add32 x s) = 16) as HZ' by (unfold len in *; lia).
  rewrite <- HZ'. apply serialize_loop. lia.
Qed.
Lemma len_block key counter nonce : len (chacha20_block key counter nonce) = 64.
Proof.
  unfold chacha20_block. cbn zeta. rewrite len_word_bytes.
  assert (length (initial_state key counter nonce) = 16%nat) as H by done.
  revert H. generalize (initial_state key counter nonce). intros s H.
  unfold len. rewrite zip_with_length, iter_length by apply inner_length. rewrite H. done.
Qed.
Lemma bytes_block key counter nonce : bytes (chacha20_block key counter nonce).
Proof.
  unfold chacha20_block. cbn zeta.
  match goal with |- bytes (concat (map _ ?l)) => generalize l end. intros xs.
  induction xs as [|x xs IH]; [constructor|]. cbn [map concat]. apply Forall_app_2; [|done].
  unfold word_bytes. repeat constructor; unfold is_byte; cbn; lia.
Qed.
