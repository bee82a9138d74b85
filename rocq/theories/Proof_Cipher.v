(** * Proofs about the Caesar and Vernam ciphers *)
From Verif Require Import CSem Lib Model_Utils Model_Crypto Spec_Cipher Proof_Utils.

(** a loop that replaces the characters one after the other *)
Lemma cfor_each (body : Z -> list Z -> outcome (list Z)) s t :
  length t = length s ->
  (forall i pre rest, 0 <= i < len s -> len pre = i ->
     body i (pre ++ get s i :: rest) = Ok (pre ++ get t i :: rest)) ->
  forall rest, cfor 0 (len s) body (s ++ rest) = Ok (t ++ rest).
Proof.
  intros HL HB rest.
  assert (len t = len s) as HL' by (unfold len; lia).
  pose proof (len_nonneg s) as Hs0.
  for_rule (fun i m => m = take (Z.to_nat i) t ++ drop (Z.to_nat i) s ++ rest) m Hm.
  - done.
  - done.
  - intros i m Hi ->. eexists. split.
    + rewrite (drop_S s (get s i) (Z.to_nat i)) by (apply lookup_get; lia).
      cbn [app]. apply HB; [done|]. rewrite len_take. lia.
    + replace (Z.to_nat (i + 1)) with (S (Z.to_nat i)) by lia.
      rewrite (take_S_r t _ (get t i)) by (apply lookup_get; lia).
      by rewrite <- app_assoc.
  - rewrite Hm. f_equal. rewrite take_ge by (unfold len; lia).
    by rewrite drop_ge by (unfold len; lia).
Qed.

Lemma cipher_load (pre rest : list Z) c i : len pre = i -> load (pre ++ c :: rest) i = Ok c.
Proof. intros <-. by apply load_app. Qed.
Lemma cipher_store (pre rest : list Z) c d i : len pre = i ->
  store (pre ++ c :: rest) i d = Ok (pre ++ d :: rest).
Proof. intros <-. by apply store_app. Qed.

Lemma text_string s rest : text s -> is_cstring (s ++ 0 :: rest) s.
Proof. intros H. exists rest. split; [done|]. eapply list.Forall_impl; [exact H|]. cbn; lia. Qed.
Lemma text_get s i : text s -> 0 <= i < len s -> 0 < get s i < 256.
Proof. intros H Hi. exact (Forall_get _ _ _ H Hi). Qed.

Lemma upper_model c : 0 <= c < 256 -> Utils_isUpperChar c = upper c.
Proof. intros H. unfold Utils_isUpperChar, upper. rewrite u8_small by lia. done. Qed.
Lemma lower_model c : 0 <= c < 256 -> Utils_isLowerChar c = lower c.
Proof. intros H. unfold Utils_isLowerChar, lower. rewrite u8_small by lia. done. Qed.
Lemma letter_model c : 0 <= c < 256 -> Utils_isAlpha c = letter c.
Proof. intros H. unfold Utils_isAlpha, letter. by rewrite upper_model, lower_model. Qed.

(** ** Caesar *)

(** what decryption makes of a character *)
Definition unmove (k c : Z) : Z :=
  if k <=? place c then move (- k) c else move (22 - k) c.

Lemma caesar_enc_char c k : 0 <= c < 256 -> 0 <= k < 256 -> letter c = true ->
  u8 (u32 (u32 (u8 c + k - caesar_ascii_val c) mod MAX_SHIFT + caesar_ascii_val c)) = move k c.
Proof.
  intros Hc Hk HL. unfold caesar_ascii_val. rewrite upper_model by lia.
  unfold letter in HL. unfold move, UPPER_A_ASCII, LOWER_A_ASCII, MAX_SHIFT.
  rewrite (u8_small c) by lia.
  destruct (upper c) eqn:U; unfold upper in U.
  - rewrite (u32_small (c + k - 65)) by lia. rewrite u32_small by lia.
    rewrite u8_small by lia. rewrite Z.add_comm. f_equal. f_equal. lia.
  - cbn in HL. rewrite HL. unfold lower in HL.
    rewrite (u32_small (c + k - 97)) by lia. rewrite u32_small by lia.
    rewrite u8_small by lia. rewrite Z.add_comm. f_equal. f_equal. lia.
Qed.
Lemma move_other k c : letter c = false -> move k c = c.
Proof.
  unfold letter, move. destruct (upper c), (lower c); done.
Qed.
Lemma upper_lower c : upper c = true -> lower c = false.
Proof. unfold upper, lower. lia. Qed.
Lemma move_upper k c : upper c = true ->
  move k c = 65 + (c - 65 + k) mod 26 /\ upper (move k c) = true.
Proof.
  intros H. unfold move. rewrite H. split; [done|]. unfold upper. lia.
Qed.
Lemma move_lower k c : lower c = true ->
  move k c = 97 + (c - 97 + k) mod 26 /\ lower (move k c) = true.
Proof.
  intros H. unfold move. assert (upper c = false) as -> by (unfold upper, lower in *; lia).
  rewrite H. split; [done|]. unfold lower. lia.
Qed.
Lemma unmove_other k c : letter c = false -> unmove k c = c.
Proof. intros H. unfold unmove. destruct (_ <=? _); by apply move_other. Qed.

Lemma caesar_dec_char c k : 0 <= c < 256 -> 0 <= k < 256 -> letter c = true ->
  u8 (u32 (u32 (u8 c - k - caesar_ascii_val c) mod MAX_SHIFT + caesar_ascii_val c)) = unmove k c.
Proof.
  intros Hc Hk HL. unfold caesar_ascii_val. rewrite upper_model by lia.
  unfold letter in HL. unfold unmove, place, UPPER_A_ASCII, LOWER_A_ASCII, MAX_SHIFT.
  rewrite (u8_small c) by lia.
  destruct (upper c) eqn:U.
  - rewrite upper_lower by done.
    rewrite !(proj1 (move_upper _ _ U)). unfold upper in U.
    destruct (Z.leb_spec k (c - 65)).
    + rewrite (u32_small (c - k - 65)) by lia. rewrite u32_small by lia.
      rewrite u8_small by lia. rewrite Z.add_comm. f_equal. f_equal. lia.
    + replace (u32 (c - k - 65)) with (2 ^ 32 + (c - k - 65)) by (unfold u32; lia).
      rewrite u32_small by lia. rewrite u8_small by lia. lia.
  - cbn in HL. rewrite HL. rewrite !(proj1 (move_lower _ _ HL)). unfold lower in HL.
    destruct (Z.leb_spec k (c - 97)).
    + rewrite (u32_small (c - k - 97)) by lia. rewrite u32_small by lia.
      rewrite u8_small by lia. rewrite Z.add_comm. f_equal. f_equal. lia.
    + replace (u32 (c - k - 97)) with (2 ^ 32 + (c - k - 97)) by (unfold u32; lia).
      rewrite u32_small by lia. rewrite u8_small by lia. lia.
Qed.

Lemma caesar_encrypt_ok s rest k : text s -> 0 <= k < 256 ->
  CaesarCipher_encrypt (s ++ 0 :: rest) k = Ok (map (move k) s ++ 0 :: rest).
Proof.
  intros Hs Hk. unfold CaesarCipher_encrypt.
  rewrite (strlen_cstring _ s) by (by apply text_string). cbn [bind].
  apply cfor_each; [apply map_length|]. intros i pre r Hi Hp.
  pose proof (text_get s i Hs Hi) as Hc.
  rewrite (cipher_load pre r _ i) by done. cbn [bind]. rewrite letter_model by lia.
  rewrite get_map by done. destruct (letter (get s i)) eqn:HL.
  - rewrite caesar_enc_char by (done || lia). by apply cipher_store.
  - by rewrite move_other.
Qed.
Lemma caesar_decrypt_gen s rest k : text s -> 0 <= k < 256 ->
  CaesarCipher_decrypt (s ++ 0 :: rest) k = Ok (map (unmove k) s ++ 0 :: rest).
Proof.
  intros Hs Hk. unfold CaesarCipher_decrypt.
  rewrite (strlen_cstring _ s) by (by apply text_string). cbn [bind].
  apply cfor_each; [apply map_length|]. intros i pre r Hi Hp.
  pose proof (text_get s i Hs Hi) as Hc.
  rewrite (cipher_load pre r _ i) by done. cbn [bind]. rewrite letter_model by lia.
  rewrite get_map by done. destruct (letter (get s i)) eqn:HL.
  - rewrite caesar_dec_char by (done || lia). by apply cipher_store.
  - by rewrite unmove_other.
Qed.
Lemma caesar_decrypt_ok s rest k : text s -> 0 <= k < 256 ->
  CaesarCipher_decrypt (s ++ 0 :: rest) k
  = Ok (map (fun c => if k <=? place c then move (- k) c else move (22 - k) c) s ++ 0 :: rest).
Proof. apply caesar_decrypt_gen. Qed.

Lemma move_text k s : text s -> text (map (move k) s).
Proof.
  intros H. unfold text. apply Forall_fmap. eapply list.Forall_impl; [exact H|].
  intros c Hc. cbn in * . unfold move.
  destruct (upper c); [lia|]. destruct (lower c); lia.
Qed.

(** the round trip of one character *)
Definition returned (k c : Z) : Z :=
  if letter c && (26 <=? place c + k) then move 22 c else c.
Lemma unmove_move k c : 0 <= k -> unmove k (move k c) = returned k c.
Proof.
  intros Hk. unfold returned. destruct (letter c) eqn:HL; cbn [andb].
  2: { rewrite move_other by done. by apply unmove_other. }
  unfold letter in HL. destruct (upper c) eqn:U.
  - destruct (move_upper k c U) as [E U'].
    unfold unmove, place. rewrite (upper_lower _ U'), (upper_lower _ U).
    rewrite !(proj1 (move_upper _ _ U')), !(proj1 (move_upper _ _ U)).
    unfold upper in U.
    destruct (Z.leb_spec k (65 + (c - 65 + k) mod 26 - 65)), (Z.leb_spec 26 (c - 65 + k)); lia.
  - cbn in HL. destruct (move_lower k c HL) as [E L'].
    unfold unmove, place. rewrite L', HL.
    rewrite !(proj1 (move_lower _ _ L')), !(proj1 (move_lower _ _ HL)).
    unfold lower in HL.
    destruct (Z.leb_spec k (97 + (c - 97 + k) mod 26 - 97)), (Z.leb_spec 26 (c - 97 + k)); lia.
Qed.
Lemma caesar_round s rest k : text s -> 0 <= k < 256 ->
  (let! m := CaesarCipher_encrypt (s ++ 0 :: rest) k in CaesarCipher_decrypt m k)
  = Ok (map (fun c => if letter c && (26 <=? place c + k) then move 22 c else c) s ++ 0 :: rest).
Proof.
  intros Hs Hk. rewrite caesar_encrypt_ok by done. cbn [bind].
  rewrite caesar_decrypt_gen by (done || by apply move_text).
  rewrite map_map. do 2 f_equal. apply map_ext. intros c. apply unmove_move. lia.
Qed.
Lemma returned_fixed k c : returned k c = c <-> (letter c = true -> place c + k < 26).
Proof.
  unfold returned. destruct (letter c) eqn:HL; cbn [andb]; [|done].
  destruct (Z.leb_spec 26 (place c + k)).
  - split; [|intros H'; specialize (H' eq_refl); lia].
    unfold letter in HL. destruct (upper c) eqn:U.
    + rewrite (proj1 (move_upper _ _ U)). unfold upper in U. lia.
    + cbn in HL. rewrite (proj1 (move_lower _ _ HL)). unfold lower in HL. lia.
  - split; [done|done].
Qed.
Lemma map_id_iff (f : Z -> Z) s : map f s = s <-> Forall (fun c => f c = c) s.
Proof.
  split.
  - induction s as [|c s IH]; intros H; [constructor|]. injection H as E H. constructor; [done|].
    by apply IH.
  - induction 1 as [|c s E _ IH]; [done|]. cbn. by rewrite E, IH.
Qed.
Lemma caesar_round_iff s rest k : text s -> 0 <= k < 256 ->
  (let! m := CaesarCipher_encrypt (s ++ 0 :: rest) k in CaesarCipher_decrypt m k)
    = Ok (s ++ 0 :: rest)
  <-> Forall (fun c => letter c = true -> place c + k < 26) s.
Proof.
  intros Hs Hk. rewrite caesar_round by done. fold (returned k).
  transitivity (map (returned k) s = s).
  - split; [intros [= E]|intros E; do 2 f_equal; exact E].
    apply (app_inj_1 _ _ _ _ (map_length _ _) E).
  - rewrite map_id_iff. apply Forall_iff. intros c. apply returned_fixed.
Qed.
Lemma caesar_round_refuted : exists s rest k, text s /\ 0 <= k < 256 /\
  (let! m := CaesarCipher_encrypt (s ++ 0 :: rest) k in CaesarCipher_decrypt m k)
    <> Ok (s ++ 0 :: rest).
Proof.
  exists [90], [], 1. split; [by repeat constructor|]. split; [lia|]. by vm_compute.
Qed.
(** encrypting with 26 - k undoes encrypting with k *)
Lemma move_move a b c : move a (move b c) = move (a + b) c.
Proof.
  destruct (letter c) eqn:HL.
  2: { by rewrite !move_other by (rewrite ?move_other by done; done). }
  unfold letter in HL. destruct (upper c) eqn:U.
  - destruct (move_upper b c U) as [E U'].
    rewrite (proj1 (move_upper _ _ U')), !(proj1 (move_upper _ _ U)). f_equal.
    replace (65 + (c - 65 + b) mod 26 - 65 + a) with ((c - 65 + b) mod 26 + a) by lia.
    rewrite Zplus_mod_idemp_l. f_equal. lia.
  - cbn in HL. destruct (move_lower b c HL) as [E L'].
    rewrite (proj1 (move_lower _ _ L')), !(proj1 (move_lower _ _ HL)). f_equal.
    replace (97 + (c - 97 + b) mod 26 - 97 + a) with ((c - 97 + b) mod 26 + a) by lia.
    rewrite Zplus_mod_idemp_l. f_equal. lia.
Qed.
Lemma move_26 k c : k mod 26 = 0 -> move k c = c.
Proof.
  intros H. destruct (letter c) eqn:HL; [|by apply move_other].
  unfold letter in HL. destruct (upper c) eqn:U.
  - rewrite (proj1 (move_upper _ _ U)). unfold upper in U. lia.
  - cbn in HL. rewrite (proj1 (move_lower _ _ HL)). unfold lower in HL. lia.
Qed.
Lemma caesar_undo s rest k j : text s -> 0 <= k < 256 -> 0 <= j < 256 -> (k + j) mod 26 = 0 ->
  (let! m := CaesarCipher_encrypt (s ++ 0 :: rest) k in CaesarCipher_encrypt m j)
    = Ok (s ++ 0 :: rest).
Proof.
  intros Hs Hk Hj E. rewrite caesar_encrypt_ok by done. cbn [bind].
  rewrite caesar_encrypt_ok by (done || by apply move_text).
  rewrite map_map. do 2 f_equal. apply map_id_iff. apply Forall_true. intros c.
  rewrite move_move. apply move_26. by rewrite Z.add_comm.
Qed.

(** ** Vernam *)

(** what the model does to one character *)
Definition venc (m k : Z) : Z :=
  if letter m then
    u8 (crem (s8 m - caesar_ascii_val m + s8 k - vernam_c k) NUM_OF_ALPHA + caesar_ascii_val m)
  else m.
Definition vdec (sc : bool) (m k : Z) : Z :=
  if letter m then
    let cipher := (char_val sc m - caesar_ascii_val m) - (char_val sc k - vernam_c k) in
    u8 (if cipher <? 0 then cipher + NUM_OF_ALPHA + caesar_ascii_val m
        else cipher + caesar_ascii_val m)
  else m.

Section vernam.
  Context (s rest key krest : list Z) (Hs : text s) (Hl : len key = len s).
  Lemma venc_gen : s32 (len s) = len s ->
    VernamCipher_encrypt (s ++ 0 :: rest) (key ++ krest) (len s)
    = Ok (true, zip_with venc s key ++ 0 :: rest).
  Proof.
    intros H32. unfold VernamCipher_encrypt.
    rewrite (strlen_cstring _ s) by (by apply text_string). cbn [bind].
    rewrite H32, Z.eqb_refl.
    assert (length (zip_with venc s key) = length s) as HL.
    { rewrite zip_with_length. unfold len in Hl. lia. }
    rewrite (cfor_each _ s (zip_with venc s key)); [done|done|].
    intros i pre r Hi Hp. pose proof (text_get s i Hs Hi) as Hc.
    rewrite (cipher_load pre r _ i) by done. cbn [bind]. rewrite letter_model by lia.
    assert (get (zip_with venc s key) i = venc (get s i) (get key i)) as ->.
    { apply get_lookup; [lia|]. rewrite lookup_zip_with, !lookup_get by lia. done. }
    unfold venc. destruct (letter (get s i)); [|done].
    rewrite load_ok by (rewrite len_app; pose proof (len_nonneg krest); lia). cbn [bind].
    rewrite get_app_l by lia. by apply cipher_store.
  Qed.
  Lemma vdec_gen sc : s32 (len s) = len s ->
    VernamCipher_decrypt sc (s ++ 0 :: rest) (key ++ krest) (len s)
    = Ok (true, zip_with (vdec sc) s key ++ 0 :: rest).
  Proof.
    intros H32. unfold VernamCipher_decrypt.
    rewrite (strlen_cstring _ s) by (by apply text_string). cbn [bind].
    rewrite H32, Z.eqb_refl.
    assert (length (zip_with (vdec sc) s key) = length s) as HL.
    { rewrite zip_with_length. unfold len in Hl. lia. }
    rewrite (cfor_each _ s (zip_with (vdec sc) s key)); [done|done|].
    intros i pre r Hi Hp. pose proof (text_get s i Hs Hi) as Hc.
    rewrite (cipher_load pre r _ i) by done. cbn [bind]. rewrite letter_model by lia.
    assert (get (zip_with (vdec sc) s key) i = vdec sc (get s i) (get key i)) as ->.
    { apply get_lookup; [lia|]. rewrite lookup_zip_with, !lookup_get by lia. done. }
    unfold vdec. destruct (letter (get s i)); [|done].
    rewrite load_ok by (rewrite len_app; pose proof (len_nonneg krest); lia). cbn [bind].
    rewrite get_app_l by lia. by apply cipher_store.
  Qed.
End vernam.

(** facts about single characters *)
Lemma ascii_val_letter m : letter m = true ->
  caesar_ascii_val m = (if upper m then 65 else 97) /\ 65 <= m <= 122 /\
  0 <= m - caesar_ascii_val m < 26.
Proof.
  intros H. unfold caesar_ascii_val.
  assert (65 <= m <= 122) as Hm by (unfold letter, upper, lower in H; lia).
  rewrite upper_model by lia. unfold UPPER_A_ASCII, LOWER_A_ASCII.
  unfold letter in H. destruct (upper m) eqn:U; unfold upper, lower in *; lia.
Qed.
Lemma vernam_c_letter k : letter k = true -> 0 <= k < 256 -> k - vernam_c k = place k /\ 0 <= place k < 26.
Proof.
  intros H Hk. unfold vernam_c, place. rewrite lower_model by lia. unfold letter in H.
  destruct (lower k) eqn:L; unfold UPPER_A_ASCII, LOWER_A_ASCII, upper, lower in *; lia.
Qed.
Lemma move_letter k m : letter m = true ->
  move k m = caesar_ascii_val m + (m - caesar_ascii_val m + k) mod 26.
Proof.
  intros H. destruct (ascii_val_letter m H) as [-> _]. unfold move. unfold letter in H.
  destruct (upper m); [done|]. cbn in H. by rewrite H.
Qed.
Lemma venc_letter m k : 0 <= m < 256 -> 0 <= k < 256 -> letter k = true ->
  venc m k = move (place k) m.
Proof.
  intros Hm Hk HL. unfold venc. destruct (letter m) eqn:HM; [|by rewrite move_other].
  destruct (ascii_val_letter m HM) as [_ [Hm' Ha]].
  destruct (vernam_c_letter k HL Hk) as [Hp Hp'].
  assert (k < 128) by (unfold letter, upper, lower in HL; lia).
  rewrite move_letter by done. unfold crem, NUM_OF_ALPHA.
  rewrite !s8_small by lia.
  replace (m - caesar_ascii_val m + k - vernam_c k)
    with (m - caesar_ascii_val m + place k) by lia.
  rewrite Z.rem_mod_nonneg by lia. rewrite Z.add_comm. apply u8_small.
  pose proof (Z.mod_pos_bound (m - caesar_ascii_val m + place k) 26). lia.
Qed.
Lemma vdec_letter sc m k : 0 <= m < 256 -> 0 <= k < 256 -> letter k = true ->
  vdec sc m k = move (- place k) m.
Proof.
  intros Hm Hk HL. unfold vdec. destruct (letter m) eqn:HM; [|by rewrite move_other].
  destruct (ascii_val_letter m HM) as [_ [Hm' Ha]].
  destruct (vernam_c_letter k HL Hk) as [Hp Hp'].
  assert (k < 128) by (unfold letter, upper, lower in HL; lia).
  rewrite move_letter by done.
  assert (forall c, 0 <= c < 128 -> char_val sc c = c) as HC.
  { intros c Hc. destruct sc; [|done]. apply s8_small. lia. }
  rewrite !HC by lia. cbn zeta. rewrite Hp. unfold NUM_OF_ALPHA.
  destruct (Z.ltb_spec (m - caesar_ascii_val m - place k) 0); rewrite u8_small by lia; lia.
Qed.
Lemma venc_byte m k : 0 < m < 256 -> 0 <= k < 256 -> 0 < venc m k < 256.
Proof.
  intros Hm Hk. unfold venc. destruct (letter m) eqn:HM; [|lia].
  destruct (ascii_val_letter m HM) as [_ [Hm' Ha]]. unfold crem, NUM_OF_ALPHA.
  pose proof (Z.rem_bound_abs (s8 m - caesar_ascii_val m + s8 k - vernam_c k) 26 ltac:(lia)).
  rewrite u8_small by lia. lia.
Qed.
(** which key characters bring every message character back *)
Definition good (sc : bool) (k : Z) : bool :=
  forallb (fun m => vdec sc (venc m k) k =? m) (map Z.of_nat (seq 1 255)).
Lemma good_bad sc k m : 0 < m < 256 -> vdec sc (venc m k) k <> m -> good sc k = false.
Proof.
  intros Hm HN. apply not_true_is_false. intros H. apply HN. unfold good in H.
  rewrite forallb_forall in H. apply Z.eqb_eq, H.
  apply in_map_iff. exists (Z.to_nat m). split; [lia|]. apply in_seq. lia.
Qed.
Lemma good_iff sc k : 0 <= k < 256 -> good sc k = letter k || (k =? 91).
Proof.
  intros Hk. destruct (letter k) eqn:HL; cbn [orb].
  - unfold good. apply forallb_forall. intros m Hin.
    apply in_map_iff in Hin as [j [Hj Hin]]. apply in_seq in Hin.
    rewrite venc_letter by (done || lia).
    assert (0 <= move (place k) m < 256) as HM.
    { rewrite <- venc_letter by (done || lia). pose proof (venc_byte m k). lia. }
    rewrite vdec_letter by done. rewrite move_move, move_26; [lia|].
    by replace (- place k + place k) with 0 by lia.
  - destruct (Z.eqb_spec k 91) as [->|HN].
    + destruct sc; by vm_compute.
    + assert (implb (negb (letter k || (k =? 91)))
        (negb (vdec sc (venc 65 k) k =? 65) || negb (vdec sc (venc 90 k) k =? 90)) = true) as H.
      { clear HL HN. revert k Hk. apply check_range. destruct sc; by vm_compute. }
      rewrite HL in H. cbn [orb] in H. destruct (Z.eqb_spec k 91); [done|]. cbn [negb implb] in H.
      apply orb_true_iff in H as [H|H]; apply negb_true_iff, Z.eqb_neq in H;
        (eapply good_bad; [|exact H]; lia).
Qed.

Lemma zip_with_forall2 (f g : Z -> Z -> Z) s key :
  Forall (fun c => 0 <= c < 256) s -> Forall (fun k => 0 <= k < 256 /\ letter k = true) key ->
  (forall m k, 0 <= m < 256 -> 0 <= k < 256 -> letter k = true -> f m k = g m k) ->
  zip_with f s key = zip_with g s key.
Proof.
  intros Hs Hk H. revert key Hk. induction Hs as [|c s Hc _ IH]; intros key Hk; [done|].
  destruct Hk as [|k key [Hk HL] Hks]; [done|]. cbn. rewrite H by done. by rewrite IH.
Qed.
Lemma text_bytes s : text s -> Forall (fun c => 0 <= c < 256) s.
Proof. intros H. eapply list.Forall_impl; [exact H|]. cbn; lia. Qed.
Lemma letters_bytes key : Forall (fun k => letter k = true) key ->
  Forall (fun k => 0 <= k < 256 /\ letter k = true) key.
Proof.
  intros H. eapply list.Forall_impl; [exact H|]. cbn. intros k Hk. split; [|done].
  unfold letter, upper, lower in Hk. lia.
Qed.

Lemma vernam_encrypt_ok s rest key krest : text s -> len s < 2 ^ 31 -> len key = len s ->
  Forall (fun k => letter k = true) key ->
  VernamCipher_encrypt (s ++ 0 :: rest) (key ++ krest) (len s)
  = Ok (true, zip_with (fun m k => move (place k) m) s key ++ 0 :: rest).
Proof.
  intros Hs H31 Hl HK. pose proof (len_nonneg s).
  rewrite venc_gen by (try done; apply s32_small; lia). do 3 f_equal.
  apply zip_with_forall2; [by apply text_bytes|by apply letters_bytes|apply venc_letter].
Qed.
Lemma vernam_decrypt_ok sc s rest key krest : text s -> len s < 2 ^ 31 -> len key = len s ->
  Forall (fun k => letter k = true) key ->
  VernamCipher_decrypt sc (s ++ 0 :: rest) (key ++ krest) (len s)
  = Ok (true, zip_with (fun m k => move (- place k) m) s key ++ 0 :: rest).
Proof.
  intros Hs H31 Hl HK. pose proof (len_nonneg s).
  rewrite vdec_gen by (try done; apply s32_small; lia). do 3 f_equal.
  apply zip_with_forall2; [by apply text_bytes|by apply letters_bytes|apply vdec_letter].
Qed.

Lemma venc_text s key : text s -> Forall (fun k => 0 <= k < 256) key ->
  text (zip_with venc s key).
Proof.
  intros Hs. revert key. induction Hs as [|c s Hc _ IH]; intros key Hk; [constructor|].
  destruct Hk as [|k key Hk Hks]; [constructor|]. constructor; [by apply venc_byte|by apply IH].
Qed.
Lemma zip_with_zip_with (f g : Z -> Z -> Z) s key :
  zip_with f (zip_with g s key) key = zip_with (fun m k => f (g m k) k) s key.
Proof.
  revert key. induction s as [|c s IH]; intros key; [done|]. destruct key; [done|].
  cbn. by rewrite IH.
Qed.

(** the round trip, for any key *)
Lemma vernam_round_gen sc s rest key krest : text s -> len s < 2 ^ 31 -> len key = len s ->
  Forall (fun k => 0 <= k < 256) key ->
  (let! '(ok, m) := VernamCipher_encrypt (s ++ 0 :: rest) (key ++ krest) (len s) in
   VernamCipher_decrypt sc m (key ++ krest) (len s))
  = Ok (true, zip_with (fun m k => vdec sc (venc m k) k) s key ++ 0 :: rest).
Proof.
  intros Hs H31 Hl HK. pose proof (len_nonneg s).
  rewrite venc_gen by (try done; apply s32_small; lia). cbn [bind].
  assert (len (zip_with venc s key) = len s) as E.
  { unfold len in *. rewrite zip_with_length. lia. }
  rewrite <- E. rewrite vdec_gen.
  - by rewrite zip_with_zip_with.
  - by apply venc_text.
  - lia.
  - apply s32_small. lia.
Qed.
Lemma good_round sc s key : text s -> len key = len s ->
  Forall (fun k => good sc k = true) key -> zip_with (fun m k => vdec sc (venc m k) k) s key = s.
Proof.
  intros Hs. revert key. induction Hs as [|c s Hc _ IH]; intros key Hl HK; [done|].
  destruct HK as [|k key Hk HK]; [rewrite len_cons, len_nil in Hl; pose proof (len_nonneg s); lia|].
  rewrite !len_cons in Hl. cbn. f_equal; [|apply IH; [lia|done]].
  unfold good in Hk. rewrite forallb_forall in Hk. specialize (Hk c). apply Z.eqb_eq, Hk.
  apply in_map_iff. exists (Z.to_nat c). split; [lia|]. apply in_seq. lia.
Qed.
Lemma vernam_round sc s rest key krest : text s -> len s < 2 ^ 31 -> len key = len s ->
  Forall (fun k => letter k = true) key ->
  (let! '(ok, m) := VernamCipher_encrypt (s ++ 0 :: rest) (key ++ krest) (len s) in
   VernamCipher_decrypt sc m (key ++ krest) (len s))
  = Ok (true, s ++ 0 :: rest).
Proof.
  intros Hs H31 Hl HK. pose proof (letters_bytes _ HK) as HB.
  rewrite vernam_round_gen; try done; [|eapply list.Forall_impl; [exact HB|]; by intros ? [??]].
  rewrite good_round; try done. eapply list.Forall_impl; [exact HB|].
  intros k [Hk HL]. cbv beta in *. rewrite good_iff by done. by rewrite HL.
Qed.

Lemma bad_message sc k : good sc k = false -> exists m, 0 < m < 256 /\ vdec sc (venc m k) k <> m.
Proof.
  intros H. unfold good in H.
  destruct (existsb (fun m => negb (vdec sc (venc m k) k =? m)) (map Z.of_nat (seq 1 255))) eqn:E.
  - apply existsb_exists in E as [m [Hin Hm]]. apply in_map_iff in Hin as [j [Hj Hin]].
    apply in_seq in Hin. exists m. split; [lia|]. lia.
  - exfalso. revert H E. generalize (map Z.of_nat (seq 1 255)). intros l.
    induction l as [|x l IH]; cbn; [done|]. destruct (_ =? _); cbn; [done|done].
Qed.
Lemma vernam_keys sc key krest : bytes key -> len key < 2 ^ 31 ->
  (forall s rest, text s -> len s = len key ->
     (let! '(ok, m) := VernamCipher_encrypt (s ++ 0 :: rest) (key ++ krest) (len s) in
      VernamCipher_decrypt sc m (key ++ krest) (len s))
     = Ok (true, s ++ 0 :: rest))
  <-> Forall (fun k => letter k = true \/ k = 91) key.
Proof.
  intros HB H31.
  assert (Forall (fun k => 0 <= k < 256) key) as HB' by exact HB.
  transitivity (Forall (fun k => good sc k = true) key).
  - split.
    + intros H. destruct (decide (Forall (fun k => good sc k = true) key)) as [|HN]; [done|exfalso].
      apply not_Forall_Exists in HN; [|intros ?; apply _].
      apply list.Exists_exists in HN as [k [Hin Hk]]. cbv beta in Hk.
      apply elem_of_list_split in Hin as (l & r & ->).
      destruct (bad_message sc k) as [m [Hm HD]]; [by apply not_true_is_false|].
      set (s := replicate (length l) 65 ++ m :: replicate (length r) 65).
      assert (text s) as Hs.
      { unfold s, text. apply Forall_app_2; [by apply Forall_replicate|].
        constructor; [lia|by apply Forall_replicate]. }
      assert (len s = len (l ++ k :: r)) as Hl.
      { unfold s. rewrite !len_app, !len_cons, !len_replicate. unfold len. lia. }
      specialize (H s [] Hs Hl).
      rewrite vernam_round_gen in H by (try done; lia). injection H as H.
      apply app_inj_1 in H as [H _].
      2: { rewrite zip_with_length. unfold len in Hl. lia. }
      unfold s in H. rewrite zip_with_app in H by apply replicate_length.
      cbn in H. apply app_inj_1 in H as [_ H].
      2: { rewrite zip_with_length, replicate_length. lia. }
      by injection H as H _.
    + intros H s rest Hs Hl. rewrite vernam_round_gen by (try done; lia).
      by rewrite good_round.
  - rewrite !list.Forall_forall. rewrite list.Forall_forall in HB'.
    split; intros H k Hin; specialize (H k Hin); specialize (HB' k Hin); cbv beta in *.
    + rewrite good_iff in H by done. apply orb_true_iff in H as [H|H]; [by left|right; lia].
    + rewrite good_iff by done. apply orb_true_iff. destruct H as [H|H]; [by left|right; lia].
Qed.
Lemma vernam_round_refuted sc : exists s key, text s /\ text key /\ len key = len s /\
  (let! '(ok, m) := VernamCipher_encrypt (s ++ [0]) (key ++ [0]) (len s) in
   VernamCipher_decrypt sc m (key ++ [0]) (len s))
  <> Ok (true, s ++ [0]).
Proof.
  exists [65], [48]. repeat split; by repeat constructor.
Qed.

(** the length check *)
Lemma vernam_encrypt_length s rest key n : text s -> s32 (len s) <> n ->
  VernamCipher_encrypt (s ++ 0 :: rest) key n = Ok (false, s ++ 0 :: rest).
Proof.
  intros Hs H. unfold VernamCipher_encrypt.
  rewrite (strlen_cstring _ s) by (by apply text_string). cbn [bind].
  destruct (Z.eqb_spec (s32 (len s)) n); done.
Qed.
Lemma vernam_decrypt_length sc s rest key n : text s -> s32 (len s) <> n ->
  VernamCipher_decrypt sc (s ++ 0 :: rest) key n = Ok (false, s ++ 0 :: rest).
Proof.
  intros Hs H. unfold VernamCipher_decrypt.
  rewrite (strlen_cstring _ s) by (by apply text_string). cbn [bind].
  destruct (Z.eqb_spec (s32 (len s)) n); done.
Qed.
Lemma vernam_result s rest key krest n : text s -> len s < 2 ^ 31 -> len s <= len key ->
  exists m, VernamCipher_encrypt (s ++ 0 :: rest) (key ++ krest) n = Ok (bool_decide (n = len s), m) /\
    (n <> len s -> m = s ++ 0 :: rest).
Proof.
  intros Hs H31 Hl. pose proof (len_nonneg s).
  assert (s32 (len s) = len s) as E by (apply s32_small; lia).
  destruct (decide (n = len s)) as [->|HN].
  - rewrite bool_decide_true by done.
    rewrite <- (take_drop (length s) key), <- app_assoc. rewrite venc_gen; try done.
    + eexists. by split.
    + rewrite len_take. unfold len in *. lia.
  - rewrite bool_decide_false by done. rewrite vernam_encrypt_length by (try done; lia).
    eexists. by split.
Qed.
Lemma vernam_result_dec sc s rest key krest n : text s -> len s < 2 ^ 31 -> len s <= len key ->
  exists m, VernamCipher_decrypt sc (s ++ 0 :: rest) (key ++ krest) n
      = Ok (bool_decide (n = len s), m) /\
    (n <> len s -> m = s ++ 0 :: rest).
Proof.
  intros Hs H31 Hl. pose proof (len_nonneg s).
  assert (s32 (len s) = len s) as E by (apply s32_small; lia).
  destruct (decide (n = len s)) as [->|HN].
  - rewrite bool_decide_true by done.
    rewrite <- (take_drop (length s) key), <- app_assoc. rewrite vdec_gen; try done.
    + eexists. by split.
    + rewrite len_take. unfold len in *. lia.
  - rewrite bool_decide_false by done. rewrite vernam_decrypt_length by (try done; lia).
    eexists. by split.
Qed.
(** the header: true if the message is at least as long as the key *)
Lemma vernam_header_refuted : exists s key, text s /\ text key /\ len key <= len s /\
  VernamCipher_encrypt (s ++ [0]) (key ++ [0]) (len key) = Ok (false, s ++ [0]).
Proof. exists [65; 66], [67]. repeat split; by repeat constructor. Qed.

(** messages of 2^31 characters and more: the length is compared modulo 2^32 *)
Lemma vernam_wrap s t rest key krest : text (s ++ t) -> len key = len s ->
  s32 (len (s ++ t)) = len s ->
  Forall (fun k => letter k = true) key ->
  VernamCipher_encrypt (s ++ t ++ 0 :: rest) (key ++ krest) (len s)
  = Ok (true, zip_with (fun m k => move (place k) m) s key ++ t ++ 0 :: rest).
Proof.
  intros Hst Hl H32 HK. assert (text s) as Hs by (by apply Forall_app in Hst as [? _]).
  unfold VernamCipher_encrypt. rewrite (strlen_cstring _ (s ++ t)).
  2: { rewrite app_assoc. by apply text_string. }
  cbn [bind]. rewrite H32, Z.eqb_refl.
  assert (length (zip_with venc s key) = length s) as HL.
  { rewrite zip_with_length. unfold len in Hl. lia. }
  rewrite (cfor_each _ s (zip_with venc s key)); [|done|].
  { cbn [bind]. do 3 f_equal.
    apply zip_with_forall2; [by apply text_bytes|by apply letters_bytes|apply venc_letter]. }
  intros i pre r Hi Hp. pose proof (text_get s i Hs Hi) as Hc.
  rewrite (cipher_load pre r _ i) by done. cbn [bind]. rewrite letter_model by lia.
  assert (get (zip_with venc s key) i = venc (get s i) (get key i)) as ->.
  { apply get_lookup; [lia|]. rewrite lookup_zip_with, !lookup_get by lia. done. }
  unfold venc. destruct (letter (get s i)); [|done].
  rewrite load_ok by (rewrite len_app; pose proof (len_nonneg krest); lia). cbn [bind].
  rewrite get_app_l by lia. by apply cipher_store.
Qed.
Lemma vernam_long_refuted : exists s key m,
  text s /\ text key /\ len s = 2 ^ 32 + 1 /\ len key = 1 /\
  VernamCipher_encrypt (s ++ [0]) (key ++ [0]) (len key) = Ok (true, m) /\
  drop 1 m = drop 1 s ++ [0].
Proof.
  assert (exists n : nat, Z.of_nat n = 2 ^ 32) as [n Hn].
  { exists (Z.to_nat (2 ^ 32)). apply Z2Nat.id. lia. }
  exists ([65] ++ replicate n 65), [66]. eexists.
  assert (text ([65] ++ replicate n 65)) as HT.
  { apply Forall_app_2; [by repeat constructor|by apply Forall_replicate]. }
  assert (len ([65] ++ replicate n 65) = 2 ^ 32 + 1) as HL.
  { rewrite len_app, len_replicate, Hn. done. }
  split; [done|]. split; [by repeat constructor|]. split; [done|]. split; [done|].
  split.
  - rewrite <- app_assoc. change (len [66]) with (len [65]). apply vernam_wrap.
    + done.
    + done.
    + rewrite HL. done.
    + by repeat constructor.
  - done.
Qed.
