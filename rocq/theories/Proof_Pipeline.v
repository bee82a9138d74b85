(** * Encrypted text, bytes in JSON, frames *)
From Verif Require Import CSem Lib Model_Utils Model_Base64 Model_Crypto Model_Json Model_Crc
  Model_CrcVariants Spec_Utils Spec_Base64 Spec_ChaCha Spec_Json Spec_Crc Spec_Pipeline
  Drive_Crc Drive_Json Drive_Pipeline
  Proof_Utils Proof_Base64 Proof_ChaChaCrypt Proof_JsonProps
  Proof_Gf2 Proof_Crc Proof_CrcTable Proof_CrcAll Proof_CrcProps Proof_CrcEnd.

(** ** Encrypted text *)

Lemma seal_ok data key nonce inc text max_text : parameters key nonce -> bytes data ->
  len data < 2 ^ 32 -> len (base64 data) <= max_text < len text ->
  seal data key nonce inc text max_text
  = Ok (0, base64 (chacha20 key nonce inc data)
           ++ 0 :: drop (S (length (base64 (chacha20 key nonce inc data)))) text).
Proof.
  intros HP HB HL HT. unfold seal. pose proof (len_nonneg data) as H0.
  pose proof (crypt_in_place key nonce inc [] data [] HP) as HC.
  rewrite app_nil_r, app_nil_l in HC. change (len []) with 0 in HC.
  rewrite HC by done. rewrite app_nil_r. cbn [app bind].
  assert (bytes (chacha20 key nonce inc data)) as HB2 by by apply bytes_chacha20.
  assert (len (chacha20 key nonce inc data) = len data) as HL2 by apply len_chacha20.
  assert (len (base64 (chacha20 key nonce inc data)) = len (base64 data)) as HL3.
  { rewrite !len_base64, HL2 by done. done. }
  pose proof (encode_success (chacha20 key nonce inc data) [] text max_text HB2) as HE.
  rewrite app_nil_r in HE. pose proof (len_nonneg (base64 data)). apply HE; lia.
Qed.
Lemma unseal_ok data rest key nonce inc out max_out : parameters key nonce -> bytes data ->
  3 <= len data < 2 ^ 32 -> bytes rest -> bytes out -> len data <= max_out <= len out ->
  let t := base64 (chacha20 key nonce inc data) in
  unseal (t ++ rest) (len t) key nonce inc out max_out (len data)
  = Ok (0, data ++ drop (length data) out).
Proof.
  intros HP HB HL HR HO HM t. unfold unseal.
  assert (bytes (chacha20 key nonce inc data)) as HB2 by by apply bytes_chacha20.
  assert (len (chacha20 key nonce inc data) = len data) as HL2 by apply len_chacha20.
  unfold t. rewrite decode_base64 by (done || lia). cbn [bind]. change (0 =? 0) with true. cbv iota.
  pose proof (crypt_in_place key nonce inc [] (chacha20 key nonce inc data)
    (drop (length (chacha20 key nonce inc data)) out) HP) as HC.
  rewrite app_nil_l, HL2 in HC. change (len []) with 0 in HC. rewrite HC; [|..].
  - cbn [bind app]. rewrite chacha20_involutive by done. do 4 f_equal.
    unfold len in HL2. lia.
  - apply Forall_app_2; [done|]. by apply Forall_drop.
  - lia.
Qed.
Lemma seal_unseal data key nonce inc text out max_text max_out : parameters key nonce ->
  bytes data -> 3 <= len data < 2 ^ 32 -> len (base64 data) <= max_text < len text -> bytes text ->
  bytes out -> len data <= max_out <= len out ->
  exists text', seal data key nonce inc text max_text = Ok (0, text') /\
    unseal text' (len (base64 data)) key nonce inc out max_out (len data)
    = Ok (0, data ++ drop (length data) out).
Proof.
  intros HP HB HL HT HTB HO HM. eexists. split; [apply seal_ok; [done|done|lia|done]|].
  assert (len (base64 data) = len (base64 (chacha20 key nonce inc data))) as ->.
  { rewrite !len_base64; [by rewrite len_chacha20|by apply bytes_chacha20|done]. }
  apply unseal_ok; try done. apply list.Forall_cons. split; [done|]. by apply Forall_drop.
Qed.

Lemma seal_short data key nonce inc text out max_text max_out m : parameters key nonce ->
  bytes data -> len data < 3 -> len (base64 data) <= max_text < len text ->
  exists text', seal data key nonce inc text max_text = Ok (0, text') /\
    unseal text' (len (base64 data)) key nonce inc out max_out m = Ok (1, out).
Proof.
  intros HP HB HL HT. eexists. split; [apply seal_ok; [done|done|lia|done]|].
  assert (bytes (chacha20 key nonce inc data)) as HB2 by by apply bytes_chacha20.
  assert (len (base64 data) = len (base64 (chacha20 key nonce inc data))) as ->.
  { rewrite !len_base64; [by rewrite len_chacha20|done|done]. }
  unfold unseal. rewrite decode_base64_short; [done|done|]. by rewrite len_chacha20.
Qed.
(** with other parameters: what both key streams together make of the data *)
Lemma unseal_other data rest key nonce inc key' nonce' inc' out max_out : parameters key nonce ->
  parameters key' nonce' -> bytes data ->
  3 <= len data < 2 ^ 32 -> bytes rest -> bytes out -> len data <= max_out <= len out ->
  let t := base64 (chacha20 key nonce inc data) in
  exists data', unseal (t ++ rest) (len t) key' nonce' inc' out max_out (len data)
    = Ok (0, data' ++ drop (length data) out) /\
    data' = chacha20 key' nonce' inc' (chacha20 key nonce inc data) /\
    (data' = data <-> chacha20 key' nonce' inc' data = chacha20 key nonce inc data).
Proof.
  intros HP HP' HB HL HR HO HM t. unfold unseal. eexists.
  assert (bytes (chacha20 key nonce inc data)) as HB2 by by apply bytes_chacha20.
  assert (len (chacha20 key nonce inc data) = len data) as HL2 by apply len_chacha20.
  unfold t. rewrite decode_base64 by (done || lia). cbn [bind]. change (0 =? 0) with true. cbv iota.
  pose proof (crypt_in_place key' nonce' inc' [] (chacha20 key nonce inc data)
    (drop (length (chacha20 key nonce inc data)) out) HP') as HC.
  rewrite app_nil_l, HL2 in HC. change (len []) with 0 in HC. rewrite HC.
  - cbn [bind app]. split; [|split; [reflexivity|]].
    + do 4 f_equal. unfold len in HL2. lia.
    + split; intros E.
      * rewrite <- E at 1. by rewrite chacha20_involutive.
      * rewrite <- E. by rewrite chacha20_involutive.
  - apply Forall_app_2; [done|]. by apply Forall_drop.
  - lia.
Qed.

(** ** Bytes in JSON *)

Lemma no_nul_base64 data : no_nul (base64 data).
Proof.
  rewrite base64_values. apply Forall_app_2.
  - apply List.Forall_map. eapply list.Forall_impl; [apply sextets_range|].
    intros v Hv. unfold alphabet, is_sextet in *. repeat case_match; lia.
  - apply Forall_replicate. done.
Qed.
Lemma no_quote_base64 data : ~ In 34 (base64 data).
Proof.
  rewrite base64_values. intros [H|H]%in_app_iff.
  - apply in_map_iff in H as (v & E & H).
    assert (is_sextet v) as Hv.
    { pose proof (sextets_range (mjoin (map (bits 8) data))) as HS.
      rewrite List.Forall_forall in HS. by apply HS. }
    unfold alphabet, is_sextet in *. repeat case_match; lia.
  - apply elem_of_list_In, elem_of_replicate in H as [H _]. lia.
Qed.
Lemma json_data n buffer beyond data text max_text pre k post key value out max_out :
  bytes data -> 3 <= len data < 2 ^ 59 -> len (base64 data) <= max_text < len text ->
  n = len buffer -> n < 2 ^ 32 ->
  Forall (fun kv => no_nul (fst kv) /\ no_nul (snd kv)) (pre ++ (k, base64 data) :: post) ->
  len (json_text (pre ++ (k, base64 data) :: post)) + 1 <= n ->
  ~ In 34 k -> k <> [] -> k <> [123] ->
  Forall (fun kv => ~ occurs k (fst kv) /\ ~ occurs k (snd kv)) pre ->
  (pre <> [] -> k <> [58] /\ k <> [44]) ->
  is_cstring key k -> bytes value -> len (base64 data) < len value < 2 ^ 64 ->
  len data <= max_out <= len out ->
  exists rs buffer', put_data n (buffer ++ beyond) data text max_text pre k post = Ok (rs, buffer') /\
    Forall (fun r => r = true) rs /\
    get_data n buffer' key value out max_out = Ok (true, 0, data ++ drop (length data) out).
Proof.
  intros HB HL HT Hn Hn2 HN HF HK HK1 HK2 HO HS HC HVB HV HM.
  pose proof (encode_success data [] text max_text HB) as HE. rewrite app_nil_r in HE.
  pose proof (len_nonneg (base64 data)).
  unfold put_data. rewrite HE by lia. cbn [bind].
  set (tl := drop _ text).
  assert (is_cstring (base64 data ++ 0 :: tl) (base64 data)) as HCS.
  { exists tl. split; [done|apply no_nul_base64]. }
  rewrite (strlen_cstring _ _ HCS). cbn [bind].
  replace (take (Z.to_nat (len (base64 data))) (base64 data ++ 0 :: tl)) with (base64 data).
  2: { unfold len. rewrite Nat2Z.id, take_app_alt by done. done. }
  destruct (build_find n buffer beyond pre k (base64 data) post key value [] Hn Hn2 HN HF HK
    (no_quote_base64 data) HK1 HK2 HO HS HC HV) as (rs & b' & E1 & E2 & E3).
  exists rs, b'. split; [done|]. split; [done|]. unfold get_data. rewrite app_nil_r in E3.
  rewrite E3. cbn [bind]. rewrite app_nil_r. unfold put.
  assert (is_cstring (base64 data ++ [0] ++ drop (S (length (base64 data))) value) (base64 data)) as HCV.
  { eexists. split; [done|apply no_nul_base64]. }
  rewrite (strlen_cstring _ _ HCV). cbn [bind].
  rewrite decode_base64; [done|done|done| |done].
  apply list.Forall_cons. split; [done|]. by apply Forall_drop.
Qed.

(** ** Frames *)

Lemma le_bytes_map n c : le_bytes n c = map (fun i => (c / 2 ^ (8 * Z.of_nat i)) mod 2 ^ 8) (seq 0 n).
Proof.
  revert c. induction n as [|n IH]; intros c; [done|]. cbn [le_bytes seq map].
  rewrite IH. f_equal.
  - change (8 * Z.of_nat 0) with 0. by rewrite Z.pow_0_r, Z.div_1_r.
  - rewrite <- seq_shift, map_map. apply map_ext. intros i. f_equal.
    replace (8 * Z.of_nat (S i)) with (8 + 8 * Z.of_nat i) by lia.
    rewrite Z.pow_add_r by lia. change (2 ^ 8) with 256.
    rewrite Z.div_div; [done|lia|]. apply Z.pow_pos_nonneg; lia.
Qed.
Lemma crc_bytes_le P c : crc_bytes P c
  = if refout P then le_bytes (Z.to_nat (width P / 8)) c else be_bytes (Z.to_nat (width P / 8)) c.
Proof.
  unfold crc_bytes, be_bytes. rewrite !le_bytes_map. cbn zeta.
  destruct (refout P); [done|]. unfold reverse. by rewrite rev_alt.
Qed.
Lemma widths V : In V crc_variants ->
  width (params V) = 8 \/ width (params V) = 16 \/ width (params V) = 32.
Proof.
  intros HV.
  assert (forallb (fun V => (width (params V) =? 8) || (width (params V) =? 16)
                         || (width (params V) =? 32)) crc_variants = true) as H
    by (vm_compute; reflexivity).
  rewrite forallb_forall in H. specialize (H V HV). lia.
Qed.
Lemma put_crc_ok V msg old rest c : In V crc_variants -> 8 * len old = width (params V) ->
  put_crc (params V) (msg ++ old ++ rest) (len msg) c
  = Ok (msg ++ crc_bytes (params V) c ++ rest).
Proof.
  intros HV HL. rewrite crc_bytes_le. unfold put_crc.
  destruct (widths V HV) as [E|[E|E]]; rewrite E in *; cbn [Z.eqb Pos.eqb].
  - rewrite serialize8_ok by lia. by destruct (refout _).
  - destruct (refout _); [by rewrite serialize16LE_ok by lia|by rewrite serialize16BE_ok by lia].
  - destruct (refout _); [by rewrite serialize32LE_ok by lia|by rewrite serialize32BE_ok by lia].
Qed.
Lemma get_crc_ok V msg f rest : In V crc_variants -> bytes f -> 8 * len f = width (params V) ->
  exists d, get_crc (params V) (msg ++ f ++ rest) (len msg) = Ok d /\
    0 <= d < 2 ^ width (params V) /\ crc_bytes (params V) d = f.
Proof.
  intros HV HB HL.
  exists (if refout (params V) then le_value f else be_value f).
  assert (Z.to_nat (width (params V) / 8) = length f) as EL by (unfold len in HL; lia).
  split; [|split].
  - unfold get_crc. destruct (widths V HV) as [E|[E|E]]; rewrite E in *; cbn [Z.eqb Pos.eqb].
    + rewrite deserialize8_ok by (done || lia). destruct (refout _); [done|].
      destruct f as [|a [|b f]]; [done..|]. exfalso. unfold len in HL. cbn [length] in HL. lia.
    + destruct (refout _); [by rewrite deserialize16LE_ok by (done || lia)
                           |by rewrite deserialize16BE_ok by (done || lia)].
    + destruct (refout _); [by rewrite deserialize32LE_ok by (done || lia)
                           |by rewrite deserialize32BE_ok by (done || lia)].
  - replace (2 ^ width (params V)) with (256 ^ len f).
    2: { change 256 with (2 ^ 8). rewrite <- Z.pow_mul_r by (unfold len; lia). by rewrite HL. }
    assert (0 < 256 ^ len f) by (apply Z.pow_pos_nonneg; unfold len; lia).
    destruct (refout (params V)).
    + pose proof (le_value_bytes (length f) (le_value f)) as EV. rewrite (le_bytes_value f HB) in EV.
      rewrite EV. by apply Z.mod_pos_bound.
    + pose proof (be_value_bytes (length f) (be_value f)) as EV. rewrite (be_bytes_value f HB) in EV.
      rewrite EV. by apply Z.mod_pos_bound.
  - rewrite crc_bytes_le, EL. destruct (refout (params V)).
    + by apply le_bytes_value.
    + by apply be_bytes_value.
Qed.
Lemma send_ok V msg old rest : In V crc_variants -> bytes msg -> 8 * len old = width (params V) ->
  exists c, is_crc (params V) msg c /\
    send V (msg ++ old ++ rest) (len msg) = Ok (msg ++ crc_bytes (params V) c ++ rest).
Proof.
  intros HV HB HL. exists (output (params V) (register V msg)). split.
  - by apply is_crc_register.
  - unfold send. rewrite run_whole by done. cbn [bind]. by apply put_crc_ok.
Qed.
Lemma is_crc_unique V msg c d : In V crc_variants -> bytes msg ->
  is_crc (params V) msg c -> is_crc (params V) msg d -> c = d.
Proof. intros HV HB H1%(is_crc_register V msg) H2%(is_crc_register V msg); [congruence|done..]. Qed.
Lemma crc_bytes_inj V c d : In V crc_variants ->
  0 <= c < 2 ^ width (params V) -> 0 <= d < 2 ^ width (params V) ->
  crc_bytes (params V) c = crc_bytes (params V) d -> c = d.
Proof.
  intros HV Hc Hd E. rewrite !crc_bytes_le in E. pose proof (widths V HV) as HW.
  assert (256 ^ Z.of_nat (Z.to_nat (width (params V) / 8)) = 2 ^ width (params V)) as EW.
  { change 256 with (2 ^ 8). rewrite <- Z.pow_mul_r by lia. f_equal. lia. }
  destruct (refout (params V)).
  - apply (f_equal le_value) in E. rewrite !le_value_bytes, EW, !Z.mod_small in E by done. done.
  - apply (f_equal be_value) in E. rewrite !be_value_bytes, EW, !Z.mod_small in E by done. done.
Qed.
Lemma receive_iff V msg f rest : In V crc_variants -> bytes msg -> bytes f ->
  8 * len f = width (params V) ->
  exists b, receive V (msg ++ f ++ rest) (len (msg ++ f)) = Ok b /\
    (b = true <-> exists c, is_crc (params V) msg c /\ f = crc_bytes (params V) c).
Proof.
  intros HV HB HF HL. destruct (get_crc_ok V msg f rest HV HF HL) as (d & E & Hd & HE).
  exists (output (params V) (register V msg) =? d). split.
  - unfold receive. cbn zeta. rewrite len_app.
    replace (len msg + len f - width (params V) / 8) with (len msg) by lia.
    rewrite run_whole by done. cbn [bind]. rewrite E. done.
  - rewrite Z.eqb_eq. split.
    + intros <-. exists (output (params V) (register V msg)). split; [by apply is_crc_register|done].
    + intros (c & HC & ->). apply is_crc_register in HC; [|done|done]. rewrite <- HC in *.
      apply (crc_bytes_inj V); [done| |done|done]. rewrite HC.
      destruct (variant V HV) as (HP & _). apply output_bound; [done|by apply register_bound].
Qed.

Lemma receive_sent V msg rest c : In V crc_variants -> bytes msg -> is_crc (params V) msg c ->
  receive V (msg ++ crc_bytes (params V) c ++ rest) (len (msg ++ crc_bytes (params V) c)) = Ok true.
Proof.
  intros HV HB HC. destruct (variant V HV) as (HP & _).
  destruct (receive_iff V msg (crc_bytes (params V) c) rest HV HB (bytes_crc_bytes _ _)
    (len_crc_bytes _ _ HP)) as (b & -> & HI). f_equal. apply HI. by exists c.
Qed.
Lemma frame_split V (frame : list Z) : In V crc_variants -> width (params V) <= 8 * len frame ->
  exists msg f, frame = msg ++ f /\ 8 * len f = width (params V).
Proof.
  intros HV HL. pose proof (widths V HV).
  exists (take (Z.to_nat (len frame - width (params V) / 8)) frame),
    (drop (Z.to_nat (len frame - width (params V) / 8)) frame).
  split; [by rewrite take_drop|]. unfold len in *. rewrite drop_length. lia.
Qed.
Lemma receive_same_residue V : In V crc_variants -> exists res, is_residue (params V) res /\
  forall frame rest, bytes frame -> width (params V) <= 8 * len frame ->
    receive_residue V res (frame ++ rest) (len frame) = receive V (frame ++ rest) (len frame).
Proof.
  intros HV. destruct (residue V HV) as (res & HR & HI). exists res. split; [done|].
  intros frame rest HB HL. destruct (frame_split V frame HV HL) as (msg & f & -> & HF).
  apply list.Forall_app in HB as [HB1 HB2].
  destruct (receive_iff V msg f rest HV HB1 HB2 HF) as (b & E & Hb).
  rewrite app_assoc in E. rewrite E. unfold receive_residue.
  destruct (get_crc_ok V msg f rest HV HB2 HF) as (d & _ & Hd & HD).
  specialize (HI msg rest d HB1 Hd). rewrite HD in HI.
  rewrite run_whole in * by (done || by apply Forall_app_2). cbn [bind]. f_equal.
  pose proof (run_whole V msg [] HV HB1) as W. rewrite app_nil_r in W. rewrite W in HI.
  apply eq_true_iff_eq. rewrite Z.eqb_eq, Hb. split.
  - intros EQ. assert (Ok (output (params V) (register V msg)) = Ok d) as [= Ed] by (apply HI; by f_equal).
    exists d. split; [by apply is_crc_register|done].
  - intros (c & HC & Ec). apply is_crc_register in HC; [|done|done].
    assert (c = d) as ->.
    { destruct (variant V HV) as (HP & _). apply (crc_bytes_inj V); [done| |done|congruence].
      rewrite HC. apply output_bound; [done|by apply register_bound]. }
    rewrite <- HC in HI. destruct HI as [_ HI]. specialize (HI eq_refl). congruence.
Qed.
(** against a sent frame, another of the same length is accepted exactly if it has the same CRC *)
Lemma receive_equal V frame frame' rest rest' : In V crc_variants -> bytes frame -> bytes frame' ->
  width (params V) <= 8 * len frame -> width (params V) <= 8 * len frame' ->
  receive V (frame ++ rest) (len frame) = Ok true ->
  receive V (frame' ++ rest') (len frame') = Ok true <->
  run V frame' (len frame') true None = run V frame (len frame) true None.
Proof.
  intros HV HB HB' HL HL' HR. destruct (receive_same_residue V HV) as (res & _ & HI).
  rewrite <- HI in HR by done. rewrite <- HI by done. unfold receive_residue in *.
  rewrite run_whole in * by done. cbn [bind] in *. 
  pose proof (run_whole V frame [] HV HB) as W. pose proof (run_whole V frame' [] HV HB') as W'.
  rewrite app_nil_r in W, W'. rewrite W, W'.
  assert ((output (params V) (register V frame) =? res) = true) as ER%Z.eqb_eq by congruence.
  rewrite ER. split.
  - intros [= E%Z.eqb_eq]. by f_equal.
  - intros [= E]. f_equal. by apply Z.eqb_eq.
Qed.
Lemma receive_burst V frame frame' rest rest' pre e1 e2 post : In V crc_variants ->
  bytes frame -> bytes frame' -> width (params V) <= 8 * len frame ->
  receive V (frame ++ rest) (len frame) = Ok true ->
  message_bits (params V) frame = pre ++ e1 ++ post ->
  message_bits (params V) frame' = pre ++ e2 ++ post ->
  length e1 = length e2 -> Z.of_nat (length e1) <= width (params V) -> e1 <> e2 ->
  receive V (frame' ++ rest') (len frame') = Ok false.
Proof.
  intros HV HB HB' HL HR E1 E2 HE HW HN.
  assert (len frame = len frame') as EL.
  { pose proof (length_message_bits (params V) frame) as L1.
    pose proof (length_message_bits (params V) frame') as L2.
    rewrite E1, !app_length in L1. rewrite E2, !app_length in L2. lia. }
  assert (exists b, receive V (frame' ++ rest') (len frame') = Ok b) as (b & E).
  { destruct (frame_split V frame' HV) as (msg & f & -> & HF); [lia|].
    apply list.Forall_app in HB' as [H1 H2].
    destruct (receive_iff V msg f rest' HV H1 H2 HF) as (b & E & _). rewrite app_assoc in E. eauto. }
  rewrite E. destruct b; [exfalso|done].
  apply (receive_equal V frame frame' rest rest') in E; try done; try lia.
  pose proof (run_whole V frame [] HV HB) as W. pose proof (run_whole V frame' [] HV HB') as W'.
  rewrite app_nil_r in W, W'.
  by eapply (burst V frame frame' pre e1 e2 post); [..|exact W|rewrite E; exact W|reflexivity].
Qed.
