(** * Properties of base64 text *)
From Verif Require Import CSem Lib Model_Base64 Spec_Base64 Spec_Pipeline Proof_Base64.

Lemma text_shape data : bytes data ->
  exists t p, base64 data = t ++ replicate p 61 /\ Forall in_alphabet t /\
    Z.of_nat p = (- len data) mod 3.
Proof.
  intros Hb. exists (map alphabet (values data)), (Z.to_nat ((- len (values data)) mod 4)).
  split; [apply base64_values|]. split.
  - apply List.Forall_map. eapply list.Forall_impl; [apply sextets_range|].
    intros v Hv. by exists v.
  - rewrite len_values. pose proof (len_nonneg data). lia.
Qed.
Lemma text_inj d1 d2 : bytes d1 -> bytes d2 -> base64 d1 = base64 d2 -> d1 = d2.
Proof.
  intros H1 H2 E.

  assert (forall d, bytes d -> exists vs, Forall is_sextet vs /\ base64_decoded vs = d /\
    vs = map idx (filter (fun c => c <> 61) (base64 d))) as H.
  { intros d Hd. exists (values d). split; [apply sextets_range|]. split; [by apply values_decoded|].
    rewrite base64_values, list.filter_app.
    assert (filter (fun c => c <> 61) (replicate (Z.to_nat ((- len (values d)) mod 4)) 61) = []) as ->.
    { generalize (Z.to_nat ((- len (values d)) mod 4)). intros n. induction n as [|n IH]; [done|]. exact IH. }
    rewrite app_nil_r. pose proof (sextets_range (mjoin (map (bits 8) d))) as HS. fold (values d) in HS.
    induction HS as [|v vs Hv HS IH]; [done|]. cbn [map].
    rewrite list.filter_cons_True by by apply alphabet_not_pad. cbn [map].
    rewrite idx_alphabet by done. by rewrite <- IH. }
  destruct (H d1 H1) as (v1 & _ & <- & ->), (H d2 H2) as (v2 & _ & <- & ->).
  by rewrite E.
Qed.

(** ** Canonical texts *)

Lemma of_bits8 a b c d e f g h :
  is_byte (of_bits [a; b; c; d; e; f; g; h]) /\
  bits 8 (of_bits [a; b; c; d; e; f; g; h]) = [a; b; c; d; e; f; g; h].
Proof. unfold is_byte. destruct a, b, c, d, e, f, g, h; (split; [by vm_compute|reflexivity]). Qed.
Lemma list8_ind (P : list bool -> Prop) :
  (forall l, (length l < 8)%nat -> P l) ->
  (forall a b c d e f g h r, P r -> P (a :: b :: c :: d :: e :: f :: g :: h :: r)) -> forall l, P l.
Proof.
  intros H0 H8 l. remember (length l) as n eqn:En. revert l En.
  induction n as [n IH] using lt_wf_ind. intros l ->.
  destruct l as [|a [|b [|c [|d [|e [|f [|g [|h l]]]]]]]]; [apply H0; cbn; lia..|].
  apply H8. apply (IH (length l)); [cbn; lia|done].
Qed.
Lemma octets_short bs : (length bs < 8)%nat -> octets bs = [].
Proof. destruct bs as [|a [|b [|c [|d [|e [|f [|g [|h l]]]]]]]]; cbn; done || lia. Qed.
Lemma octets_spec bs : bytes (octets bs) /\ length (octets bs) = (length bs / 8)%nat /\
  mjoin (map (bits 8) (octets bs)) = take (8 * (length bs / 8)) bs.
Proof.
  revert bs. apply list8_ind.
  - intros bs H. rewrite octets_short, Nat.div_small by done. split; [by apply Forall_nil|done].
  - intros a b c d e f g h r (H1 & H2 & H3). cbn [octets].
    assert (length (a :: b :: c :: d :: e :: f :: g :: h :: r) / 8 = S (length r / 8))%nat as E.
    { cbn [length]. replace (S (S (S (S (S (S (S (S (length r)))))))))%nat with (length r + 1 * 8)%nat by lia.
      rewrite Nat.div_add by lia. lia. }
    rewrite E. split; [|split].
    + apply list.Forall_cons. split; [apply of_bits8|done].
    + cbn [length]. by rewrite H2.
    + cbn [map]. rewrite mjoin_cons, (proj2 (of_bits8 a b c d e f g h)), H3.
      replace (8 * S (length r / 8))%nat with (8 + 8 * (length r / 8))%nat by lia. done.
Qed.
Lemma bits6_length v : length (bits 6 v) = 6%nat.
Proof. done. Qed.
Lemma sextets_unique vs : forall D z, Forall is_sextet vs -> (z < 6)%nat ->
  mjoin (map (bits 6) vs) = D ++ replicate z false -> sextets D = vs.
Proof.
  induction vs as [|v vs IH]; intros D z Hv Hz E.
  - cbn in E. destruct D; [done|discriminate].
  - apply list.Forall_cons in Hv as [Hv Hvs]. cbn [map] in E. rewrite mjoin_cons in E.
    destruct (le_lt_dec 6 (length D)) as [HD|HD].
    + destruct D as [|a [|b [|c [|d [|e [|f D]]]]]]; cbn [length] in HD; try lia.
      cbn [sextets]. change ((a :: b :: c :: d :: e :: f :: D) ++ replicate z false)
        with ([a; b; c; d; e; f] ++ (D ++ replicate z false)) in E.
      apply app_inj_1 in E as [<- E]; [|done]. rewrite sx_all by apply Hv. f_equal. by eapply IH.
    + assert (vs = []) as ->.
      { destruct vs as [|w vs]; [done|]. apply (f_equal length) in E. cbn [map] in E.
        rewrite mjoin_cons, !app_length, !bits6_length, replicate_length in E. lia. }
      cbn [map] in E. change (mjoin []) with (@nil bool) in E. rewrite app_nil_r in E.
      pose proof (f_equal length E) as EL. rewrite app_length, replicate_length, bits6_length in EL.
      destruct (sextets_short D) as (a & b & c & d & e & f & -> & EE); [lia|].
      replace (6 - length D)%nat with z in EE by lia. rewrite EE, <- E. by rewrite sx_all by apply Hv.
Qed.
Lemma length_bits6 vs : length (mjoin (map (bits 6) vs)) = (6 * length vs)%nat.
Proof.
  induction vs as [|v vs IH]; [done|]. cbn [map]. rewrite mjoin_cons, app_length, IH, bits6_length.
  cbn [length]. lia.
Qed.
Lemma all_false l : Forall (fun b => b = false) l -> l = replicate (length l) false.
Proof. induction 1 as [|x l -> _ IH]; [done|]. cbn. by rewrite <- IH. Qed.
Lemma canonical_iff vs : Forall is_sextet vs -> len vs mod 4 <> 1 ->
  canonical vs <-> values (base64_decoded vs) = vs.
Proof.
  intros Hv Hm. unfold canonical. cbn zeta. set (bs := mjoin (map (bits 6) vs)).
  destruct (octets_spec bs) as (HB & HL & HE). unfold values, base64_decoded. fold bs. rewrite HE.
  assert (length bs = 6 * length vs)%nat as Hbs by apply length_bits6.
  set (k := (8 * (length bs / 8))%nat) in *.
  assert (length bs - k < 6)%nat as Hk.
  { unfold k, len in *. rewrite Hbs. lia. }
  split.
  - intros HF. apply all_false in HF. rewrite drop_length in HF.
    apply (sextets_unique vs _ (length bs - k)); [done|done|]. fold bs.
    rewrite <- HF. by rewrite take_drop.
  - intros E. destruct (sextets_bits (take k bs)) as (z & EZ & Hz & _). rewrite E in EZ. fold bs in EZ.
    rewrite EZ. rewrite drop_app_le by (rewrite take_length; lia).
    rewrite drop_ge by (rewrite take_length; lia). cbn [app]. apply Forall_replicate. done.
Qed.
Lemma length_decoded vs : length (base64_decoded vs) = (6 * length vs / 8)%nat.
Proof. unfold base64_decoded. destruct (octets_spec (mjoin (map (bits 6) vs))) as (_ & -> & _). by rewrite length_bits6. Qed.
Lemma map_alphabet_inj vs ws : Forall is_sextet vs -> Forall is_sextet ws ->
  map alphabet vs = map alphabet ws -> vs = ws.
Proof.
  intros H1. revert ws. induction H1 as [|v vs Hv H1 IH]; intros [|w ws] H2 E; try done.
  apply list.Forall_cons in H2 as [Hw H2]. injection E as E1 E2. f_equal; [|by apply IH].
  by rewrite <- (idx_alphabet v Hv), <- (idx_alphabet w Hw), E1.
Qed.
Lemma canonical_text vs : Forall is_sextet vs -> len vs mod 4 <> 1 ->
  canonical vs <-> base64 (base64_decoded vs) = pad (map alphabet vs).
Proof.
  intros Hv Hm. rewrite canonical_iff by done. unfold base64, base64_unpadded.
  change (sextets _) with (values (base64_decoded vs)). split; [by intros ->|].
  unfold pad. rewrite !len_map. intros E.
  assert (len (values (base64_decoded vs)) = len vs) as HL.
  { rewrite len_values. unfold len in *. rewrite length_decoded. lia. }
  rewrite HL in E. apply app_inv_tail in E.
  apply map_alphabet_inj; [apply sextets_range|done|done].
Qed.
(** decoding a text and encoding the result *)
Lemma recode vs out text max_out max_text :
  Forall is_sextet vs -> 4 <= len vs < 2 ^ 60 -> len vs mod 4 <> 1 ->
  len (base64_decoded vs) <= max_out <= len out ->
  len (pad (map alphabet vs)) <= max_text < len text ->
  exists d out' t text',
    Base64_decode (pad (map alphabet vs)) (len (pad (map alphabet vs))) out max_out = Ok (0, d ++ out') /\
    Base64_encode (d ++ out') (len d) text max_text = Ok (0, t ++ 0 :: text') /\
    len t = len (pad (map alphabet vs)) /\
    (t = pad (map alphabet vs) <-> canonical vs).
Proof.
  intros Hv Hl Hm Ho Ht.
  exists (base64_decoded vs), (drop (length (base64_decoded vs)) out),
    (base64 (base64_decoded vs)), (drop (S (length (base64 (base64_decoded vs)))) text).
  assert (bytes (base64_decoded vs)) as HB by apply octets_spec.
  assert (len (pad (map alphabet vs)) = len vs + (- len vs) mod 4) as HP.
  { unfold pad. rewrite len_app, !len_map. unfold len at 2. rewrite replicate_length. lia. }
  assert (len (base64_decoded vs) = 6 * len vs / 8) as HD.
  { unfold len. rewrite length_decoded. lia. }
  assert (len (base64 (base64_decoded vs)) = len (pad (map alphabet vs))) as HE.
  { rewrite len_base64 by done. rewrite HP, HD. lia. }
  split; [|split; [|split]].
  - pose proof (decode_valid vs (replicate (Z.to_nat ((- len vs) mod 4)) 61) [] out max_out) as H.
    rewrite app_nil_r in H. unfold pad. rewrite len_app, len_map.
    rewrite H; [|done|done|done|by right|by apply Forall_nil|pose proof (len_nonneg (base64_decoded vs)); lia].
    cbv zeta. by replace (len (base64_decoded vs) <=? max_out) with true by lia.
  - apply encode_success; [done|lia| |lia|lia]. pose proof (len_nonneg (pad (map alphabet vs))). lia.
  - done.
  - symmetry. by apply canonical_text.
Qed.
(** two texts, one result *)
Lemma ambiguous : exists v1 v2 d, Forall is_sextet v1 /\ Forall is_sextet v2 /\ v1 <> v2 /\
  Base64_decode (pad (map alphabet v1)) 8 [0; 0; 0; 0] 4 = Ok (0, d) /\
  Base64_decode (pad (map alphabet v2)) 8 [0; 0; 0; 0] 4 = Ok (0, d).
Proof.
  exists [1; 2; 3; 4; 5; 32], [1; 2; 3; 4; 5; 33]. eexists.
  split; [repeat constructor; done|]. split; [repeat constructor; done|]. split; [done|].
  split; by vm_compute.
Qed.
(** texts of pieces of whole triples *)
Lemma pieces d1 d2 r1 r2 r m1 m2 m : bytes d1 -> bytes d2 -> len d1 mod 3 = 0 ->
  len d1 + len d2 < 2 ^ 62 ->
  len (base64 d1) <= m1 < len r1 -> len (base64 d2) <= m2 < len r2 ->
  len (base64 (d1 ++ d2)) <= m < len r ->
  exists t1 t2 x1 x2 x, Base64_encode d1 (len d1) r1 m1 = Ok (0, t1 ++ 0 :: x1) /\
    Base64_encode d2 (len d2) r2 m2 = Ok (0, t2 ++ 0 :: x2) /\
    Base64_encode (d1 ++ d2) (len (d1 ++ d2)) r m = Ok (0, (t1 ++ t2) ++ 0 :: x).
Proof.
  intros H1 H2 H3 HL B1 B2 B. pose proof (len_nonneg d1). pose proof (len_nonneg d2).
  pose proof (len_nonneg (base64 d1)). pose proof (len_nonneg (base64 d2)).
  pose proof (len_nonneg (base64 (d1 ++ d2))).
  assert (bytes (d1 ++ d2)) by by apply Forall_app_2.
  assert (len (d1 ++ d2) < 2 ^ 62) by (rewrite len_app; lia).
  pose proof (encode_success d1 [] r1 m1 H1) as E1. pose proof (encode_success d2 [] r2 m2 H2) as E2.
  pose proof (encode_success (d1 ++ d2) [] r m) as E.
  rewrite app_nil_r in E1, E2, E.
  exists (base64 d1), (base64 d2). do 3 eexists.
  split; [apply E1; lia|]. split; [apply E2; lia|]. rewrite <- base64_app by done.
  rewrite E by (done || lia). done.
Qed.
