(** * Records, byte orders and decimal text *)
From Verif Require Import CSem Lib Model_Utils Spec_Utils Spec_Record Drive_Record Proof_Utils.

Lemma len_encoding f : wf_field f -> len (encoding f) = size_of (kind_of f).
Proof.
  destruct f as [k v|k s]; destruct k; cbn [wf_field encoding kind_of size_of];
    rewrite ?len_le_bytes, ?len_be_bytes, ?len_reverse; try done; try by intros [].
Qed.
Lemma bytes_encoding f : wf_field f -> bytes (encoding f).
Proof.
  destruct f as [k v|k s]; destruct k; cbn [wf_field encoding];
    intros H; try done; try apply bytes_le_bytes; try apply bytes_be_bytes.
  - by destruct H.
  - apply bytes_reverse. by destruct H as (_ & _ & H).
Qed.
Lemma write_field_ok pre old post f : wf_field f -> len old = size_of (kind_of f) ->
  write_field (pre ++ old ++ post) (len pre) f = Ok (pre ++ encoding f ++ post).
Proof.
  destruct f as [k v|k s]; destruct k; cbn [wf_field write_field encoding kind_of size_of];
    intros Hw Hl; try done.
  - by rewrite serialize8_ok.
  - by rewrite serialize16BE_ok.
  - by rewrite serialize24BE_ok.
  - by rewrite serialize32BE_ok.
  - by rewrite serialize16LE_ok.
  - by rewrite serialize24LE_ok.
  - by rewrite serialize32LE_ok.
  - destruct Hw as [<- _]. pose proof (serializeBlobBE_ok pre old post [] s [] Hl) as H.
    rewrite app_nil_r in H. exact H.
  - destruct Hw as (<- & Hn & _). pose proof (serializeBlobLE_ok pre old post [] s [] Hl Hn) as H.
    rewrite app_nil_r in H. exact H.
Qed.
Lemma read_field_ok pre post f : wf_field f ->
  read_field (pre ++ encoding f ++ post) (len pre) (kind_of f) = Ok (truncated f).
Proof.
  intros Hw. pose proof (bytes_encoding f Hw) as HB. pose proof (len_encoding f Hw) as HL.
  destruct f as [k v|k s]; destruct k; cbn [wf_field read_field kind_of truncated size_of] in *; try done.
  - rewrite deserialize8_ok by done. cbn [bind]. do 2 f_equal. apply (le_value_bytes 1).
  - rewrite deserialize16BE_ok by done. cbn [bind]. do 2 f_equal. apply (be_value_bytes 2).
  - rewrite deserialize24BE_ok by done. cbn [bind]. do 2 f_equal. apply (be_value_bytes 3).
  - rewrite deserialize32BE_ok by done. cbn [bind]. do 2 f_equal. apply (be_value_bytes 4).
  - rewrite deserialize16LE_ok by done. cbn [bind]. do 2 f_equal. apply (le_value_bytes 2).
  - rewrite deserialize24LE_ok by done. cbn [bind]. do 2 f_equal. apply (le_value_bytes 3).
  - rewrite deserialize32LE_ok by done. cbn [bind]. do 2 f_equal. apply (le_value_bytes 4).
  - destruct Hw as [<- _]. cbn [encoding]. rewrite (app_assoc pre).
    pose proof (deserializeBlobBE_ok [] (replicate (Z.to_nat (len s)) 0) [] pre s post) as H.
    rewrite !app_nil_r, !app_nil_l in H. rewrite <- app_assoc.
    change (len []) with 0 in H. rewrite H; [done|]. unfold len. rewrite replicate_length. lia.
  - destruct Hw as (<- & Hn & _). cbn [encoding].
    pose proof (deserializeBlobLE_ok [] (replicate (Z.to_nat (len s)) 0) [] pre (reverse s) post) as H.
    rewrite !app_nil_r, !app_nil_l, len_reverse, reverse_involutive in H.
    change (len []) with 0 in H. rewrite H; [done| |done]. unfold len. rewrite replicate_length. lia.
Qed.
Lemma layout_cons f fs : layout (f :: fs) = encoding f ++ layout fs.
Proof. done. Qed.
Lemma write_fields_ok fs : forall pre old post, Forall wf_field fs -> len old = len (layout fs) ->
  write_fields (pre ++ old ++ post) (len pre) fs = Ok (pre ++ layout fs ++ post).
Proof.
  induction fs as [|f fs IH]; intros pre old post Hw Hl.
  - destruct old; [done|]. unfold len in Hl. cbn in Hl. lia.
  - apply list.Forall_cons in Hw as [Hf Hw]. rewrite layout_cons in *. rewrite len_app in Hl.
    pose proof (len_nonneg (layout fs)) as Hn. pose proof (len_encoding f Hf) as HE.
    assert (exists o1 o2, old = o1 ++ o2 /\ len o1 = len (encoding f) /\ len o2 = len (layout fs))
      as (o1 & o2 & -> & H1 & H2).
    { exists (take (length (encoding f)) old), (drop (length (encoding f)) old).
      rewrite take_drop. split; [done|]. unfold len in *. rewrite take_length, drop_length. lia. }
    cbn [write_fields]. rewrite <- app_assoc, write_field_ok by (done || lia). cbn [bind].
    rewrite <- HE, <- len_app. rewrite app_assoc. rewrite IH by (done || lia). by rewrite <- !app_assoc.
Qed.
Lemma read_fields_ok fs : forall pre post, Forall wf_field fs ->
  read_fields (pre ++ layout fs ++ post) (len pre) (map kind_of fs) = Ok (map truncated fs).
Proof.
  induction fs as [|f fs IH]; intros pre post Hw; [done|].
  apply list.Forall_cons in Hw as [Hf Hw]. rewrite layout_cons. cbn [map read_fields].
  rewrite <- app_assoc, read_field_ok by done. cbn [bind].
  rewrite <- (len_encoding f Hf), <- len_app, app_assoc, IH by done. done.
Qed.
Lemma record_roundtrip fs pre old post : Forall wf_field fs -> len old = len (layout fs) ->
  exists m, write_fields (pre ++ old ++ post) (len pre) fs = Ok m /\
    read_fields m (len pre) (map kind_of fs) = Ok (map truncated fs).
Proof.
  intros Hw Hl. eexists. split; [by apply write_fields_ok|]. by apply read_fields_ok.
Qed.
Lemma layout_app a b : layout (a ++ b) = layout a ++ layout b.
Proof.
  induction a as [|f a IH]; [done|]. cbn [app]. by rewrite !layout_cons, IH, app_assoc.
Qed.
(** changing one field in place *)
Lemma record_update fs f g fs' pre post : Forall wf_field (fs ++ f :: fs') -> wf_field g ->
  size_of (kind_of g) = size_of (kind_of f) ->
  write_field (pre ++ layout (fs ++ f :: fs') ++ post) (len pre + len (layout fs)) g
  = Ok (pre ++ layout (fs ++ g :: fs') ++ post).
Proof.
  intros Hw Hg HS. apply list.Forall_app in Hw as [Hw1 Hw]. apply list.Forall_cons in Hw as [Hf Hw].
  rewrite !layout_app, !layout_cons. rewrite <- len_app.
  replace (pre ++ (layout fs ++ encoding f ++ layout fs') ++ post)
    with ((pre ++ layout fs) ++ encoding f ++ (layout fs' ++ post)) by by rewrite <- !app_assoc.
  rewrite write_field_ok by (try done; rewrite len_encoding by done; lia).
  by rewrite <- !app_assoc.
Qed.
(** two records of the same kinds with the same bytes are the same up to truncation *)
Lemma layout_inj fs gs : Forall wf_field fs -> Forall wf_field gs -> map kind_of fs = map kind_of gs ->
  layout fs = layout gs -> map truncated fs = map truncated gs.
Proof.
  intros Hf Hg HK HL. pose proof (read_fields_ok fs [] [] Hf) as R1.
  pose proof (read_fields_ok gs [] [] Hg) as R2. rewrite HL, HK in R1. rewrite R1 in R2.
  by injection R2.
Qed.

(** ** Byte orders *)

Lemma swapped n v : be_value (le_bytes n v) = be_value (reverse (be_bytes n v)).
Proof. unfold be_bytes. by rewrite reverse_involutive. Qed.
Lemma other_order pre post o2 o3 o4 v : len o2 = 2 -> len o3 = 3 -> len o4 = 4 ->
  (exists m, Utils_serialize16LE (pre ++ o2 ++ post) (len pre) v = Ok m /\
     Utils_deserialize16BE m (len pre) = Ok (be_value (le_bytes 2 v))) /\
  (exists m, Utils_serialize24LE (pre ++ o3 ++ post) (len pre) v = Ok m /\
     Utils_deserialize24BE m (len pre) = Ok (be_value (le_bytes 3 v))) /\
  (exists m, Utils_serialize32LE (pre ++ o4 ++ post) (len pre) v = Ok m /\
     Utils_deserialize32BE m (len pre) = Ok (be_value (le_bytes 4 v))) /\
  (exists m, Utils_serialize16BE (pre ++ o2 ++ post) (len pre) v = Ok m /\
     Utils_deserialize16LE m (len pre) = Ok (be_value (le_bytes 2 v))) /\
  (exists m, Utils_serialize24BE (pre ++ o3 ++ post) (len pre) v = Ok m /\
     Utils_deserialize24LE m (len pre) = Ok (be_value (le_bytes 3 v))) /\
  (exists m, Utils_serialize32BE (pre ++ o4 ++ post) (len pre) v = Ok m /\
     Utils_deserialize32LE m (len pre) = Ok (be_value (le_bytes 4 v))).
Proof.
  intros H2 H3 H4. repeat split; eexists; (split; [first
    [by apply serialize16LE_ok|by apply serialize24LE_ok|by apply serialize32LE_ok
    |by apply serialize16BE_ok|by apply serialize24BE_ok|by apply serialize32BE_ok]|]).
  - apply deserialize16BE_ok; [apply bytes_le_bytes|apply len_le_bytes].
  - apply deserialize24BE_ok; [apply bytes_le_bytes|apply len_le_bytes].
  - apply deserialize32BE_ok; [apply bytes_le_bytes|apply len_le_bytes].
  - apply deserialize16LE_ok; [apply bytes_be_bytes|apply len_be_bytes].
  - apply deserialize24LE_ok; [apply bytes_be_bytes|apply len_be_bytes].
  - apply deserialize32LE_ok; [apply bytes_be_bytes|apply len_be_bytes].
Qed.
(** the number serializers agree with the blob serializers on the bytes of the number *)
Lemma number_as_blob pre post old v : len old = 4 ->
  Utils_serialize32BE (pre ++ old ++ post) (len pre) v
  = Utils_serializeBlobBE (pre ++ old ++ post) (len pre) (be_bytes 4 v) 0 4 /\
  Utils_serialize32LE (pre ++ old ++ post) (len pre) v
  = Utils_serializeBlobLE (pre ++ old ++ post) (len pre) (be_bytes 4 v) 0 4.
Proof.
  intros H. rewrite serialize32BE_ok, serialize32LE_ok by done.
  pose proof (serializeBlobBE_ok pre old post [] (be_bytes 4 v) []) as HB.
  pose proof (serializeBlobLE_ok pre old post [] (be_bytes 4 v) []) as HL.
  rewrite app_nil_r, app_nil_l, len_be_bytes in HB, HL. change (len []) with 0 in HB, HL.
  split; symmetry; [by apply HB|]. etransitivity; [by apply HL|].
  unfold be_bytes. by rewrite reverse_involutive.
Qed.

(** ** Decimal text *)

Lemma decimal_snoc s c : decimal (s ++ [c]) = 10 * decimal s + (c - 48).
Proof. unfold decimal. by rewrite fold_left_app. Qed.
Lemma digits_ok k : forall n, 0 <= n < 10 ^ Z.of_nat k -> 0 < Z.of_nat k ->
  Forall is_digit (digits k n) /\ decimal (digits k n) = n /\ (length (digits k n) <= k)%nat.
Proof.
  induction k as [|k IH]; intros n Hn Hk; [lia|]. cbn [digits].
  replace (Z.of_nat (S k)) with (1 + Z.of_nat k) in Hn by lia.
  rewrite Z.pow_add_r, Z.pow_1_r in Hn by lia.
  assert (Forall is_digit [48 + n mod 10]) as Hd.
  { apply list.Forall_cons. split; [unfold is_digit; lia|by apply Forall_nil]. }
  destruct (Z.ltb_spec n 10).
  - split; [done|]. split; [|cbn; lia]. rewrite decimal_snoc. change (decimal []) with 0.
    rewrite Z.mod_small by lia. lia.
  - destruct k as [|k]; [cbn in Hn; lia|].
    destruct (IH (n / 10)) as (H1 & H2 & H3); [|lia|].
    { split; [lia|]. apply Z.div_lt_upper_bound; lia. }
    split; [by apply Forall_app_2|]. split.
    + rewrite decimal_snoc, H2. lia.
    + rewrite app_length. cbn [length]. lia.
Qed.
Lemma print_parse sc n rest : 0 <= n < 2 ^ 32 ->
  Utils_stringToUint32 sc (decimal_text n ++ rest) (len (decimal_text n)) = Ok (true, n).
Proof.
  intros Hn. destruct (digits_ok 10 n) as (H1 & H2 & H3); [|lia|].
  { change (10 ^ Z.of_nat 10) with 10000000000. lia. }
  fold (decimal_text n) in *.
  assert (bytes (decimal_text n)) as HB.
  { eapply list.Forall_impl; [exact H1|]. unfold is_digit, is_byte. intros; lia. }
  destruct (parse_ok sc (decimal_text n) rest HB) as (ok & v & E & HO & HV).
  { unfold len. lia. }
  assert (ok = true) as -> by (apply HO; split; [done|lia]). rewrite E, HV, H2 by done. done.
Qed.
Lemma decimal_zeros k s : decimal (replicate k 48 ++ s) = decimal s.
Proof.
  unfold decimal. rewrite fold_left_app. f_equal. induction k as [|k IH]; [done|]. exact IH.
Qed.
(** leading zeros do not matter as long as the text has at most ten characters *)
Lemma leading_zeros_parse sc n k rest : 0 <= n < 2 ^ 32 ->
  let t := replicate k 48 ++ decimal_text n in
  len t <= 10 -> Utils_stringToUint32 sc (t ++ rest) (len t) = Ok (true, n).
Proof.
  intros Hn t Ht. destruct (digits_ok 10 n) as (H1 & H2 & H3); [|lia|].
  { change (10 ^ Z.of_nat 10) with 10000000000. lia. }
  fold (decimal_text n) in *.
  assert (Forall is_digit t) as HD.
  { apply Forall_app_2; [|done]. apply Forall_replicate. unfold is_digit. lia. }
  assert (bytes t) as HB.
  { eapply list.Forall_impl; [exact HD|]. unfold is_digit, is_byte. intros; lia. }
  assert (decimal t = n) as HT by (unfold t; by rewrite decimal_zeros).
  destruct (parse_ok sc t rest HB Ht) as (ok & v & E & HO & HV).
  assert (ok = true) as -> by (apply HO; split; [done|lia]). rewrite E, HV, HT by done. done.
Qed.
