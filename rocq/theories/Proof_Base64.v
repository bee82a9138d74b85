(** * Proofs about base64.c *)
From Verif Require Import Lib Model_Base64 Spec_Base64 Proof_Utils.

Ltac mk_forall := unfold bytes; repeat (apply Forall_cons_2; [done|]); try apply Forall_nil_2.

(** ** The specification, group by group *)

Definition quad (a b c d : Z) : list Z := [alphabet a; alphabet b; alphabet c; alphabet d].

Lemma bits8 v : bits 8 v = [Z.testbit v 7; Z.testbit v 6; Z.testbit v 5; Z.testbit v 4;
  Z.testbit v 3; Z.testbit v 2; Z.testbit v 1; Z.testbit v 0].
Proof. reflexivity. Qed.
Lemma bits6 v : bits 6 v = [Z.testbit v 5; Z.testbit v 4;
  Z.testbit v 3; Z.testbit v 2; Z.testbit v 1; Z.testbit v 0].
Proof. reflexivity. Qed.

Lemma of_bits_app x y : of_bits (x ++ y) = of_bits x * 2 ^ len y + of_bits y.
Proof.
  unfold of_bits. rewrite fold_left_app.
  generalize (fold_left (fun a (b : bool) => 2 * a + Z.b2z b) x 0) as z.
  induction y as [|b y IH] using rev_ind; intros z; [change (z = z * 1 + 0); lia|].
  rewrite !fold_left_app. cbn [fold_left]. rewrite IH, len_app. change (len [b]) with 1.
  pose proof (len_nonneg y). rewrite Z.pow_add_r by lia. lia.
Qed.

Ltac byte_check f :=
  intros H; match goal with a : Z |- _ =>
    apply Z.eqb_eq; revert a H; apply (check_range f); vm_compute; reflexivity end.

Lemma hi6 a : 0 <= a < 256 ->
  of_bits [Z.testbit a 7; Z.testbit a 6; Z.testbit a 5; Z.testbit a 4; Z.testbit a 3; Z.testbit a 2]
  = Z.shiftr a 2.
Proof.
  byte_check (fun a => of_bits [Z.testbit a 7; Z.testbit a 6; Z.testbit a 5; Z.testbit a 4;
    Z.testbit a 3; Z.testbit a 2] =? Z.shiftr a 2).
Qed.
Lemma lo2 a : 0 <= a < 256 -> of_bits [Z.testbit a 1; Z.testbit a 0] = Z.land a 3.
Proof. byte_check (fun a => of_bits [Z.testbit a 1; Z.testbit a 0] =? Z.land a 3). Qed.
Lemma hi4 a : 0 <= a < 256 ->
  of_bits [Z.testbit a 7; Z.testbit a 6; Z.testbit a 5; Z.testbit a 4] = Z.shiftr a 4.
Proof.
  byte_check (fun a => of_bits [Z.testbit a 7; Z.testbit a 6; Z.testbit a 5; Z.testbit a 4]
    =? Z.shiftr a 4).
Qed.
Lemma lo4 a : 0 <= a < 256 ->
  of_bits [Z.testbit a 3; Z.testbit a 2; Z.testbit a 1; Z.testbit a 0] = Z.land a 15.
Proof.
  byte_check (fun a => of_bits [Z.testbit a 3; Z.testbit a 2; Z.testbit a 1; Z.testbit a 0]
    =? Z.land a 15).
Qed.
Lemma hi2 a : 0 <= a < 256 -> of_bits [Z.testbit a 7; Z.testbit a 6] = Z.shiftr a 6.
Proof. byte_check (fun a => of_bits [Z.testbit a 7; Z.testbit a 6] =? Z.shiftr a 6). Qed.
Lemma lo6 a : 0 <= a < 256 ->
  of_bits [Z.testbit a 5; Z.testbit a 4; Z.testbit a 3; Z.testbit a 2; Z.testbit a 1; Z.testbit a 0]
  = Z.land a 63.
Proof.
  byte_check (fun a => of_bits [Z.testbit a 5; Z.testbit a 4; Z.testbit a 3; Z.testbit a 2;
    Z.testbit a 1; Z.testbit a 0] =? Z.land a 63).
Qed.

Lemma mid24 a b : 0 <= a < 256 -> 0 <= b < 256 ->
  of_bits [Z.testbit a 1; Z.testbit a 0; Z.testbit b 7; Z.testbit b 6; Z.testbit b 5; Z.testbit b 4]
  = Z.lor (Z.shiftl (Z.land a 3) 4) (Z.shiftr b 4).
Proof.
  intros Ha Hb.
  change ([?x; ?y; ?z; ?u; ?v; ?w]) with ([x; y] ++ [z; u; v; w]).
  rewrite of_bits_app. change (len _) with 4 at 1.
  rewrite lo2, hi4 by done. rewrite lor_shiftl_add; [done|lia|].
  rewrite Z.shiftr_div_pow2 by lia. lia.
Qed.
Lemma mid42 a b : 0 <= a < 256 -> 0 <= b < 256 ->
  of_bits [Z.testbit a 3; Z.testbit a 2; Z.testbit a 1; Z.testbit a 0; Z.testbit b 7; Z.testbit b 6]
  = Z.lor (Z.shiftl (Z.land a 15) 2) (Z.shiftr b 6).
Proof.
  intros Ha Hb.
  change ([?x; ?y; ?z; ?u; ?v; ?w]) with ([x; y; z; u] ++ [v; w]).
  rewrite of_bits_app. change (len _) with 2 at 1.
  rewrite lo4, hi2 by done. rewrite lor_shiftl_add; [done|lia|].
  rewrite Z.shiftr_div_pow2 by lia. lia.
Qed.
Lemma end2 a : 0 <= a < 256 ->
  of_bits [Z.testbit a 1; Z.testbit a 0; false; false; false; false] = Z.shiftl (Z.land a 3) 4.
Proof.
  byte_check (fun a => of_bits [Z.testbit a 1; Z.testbit a 0; false; false; false; false]
    =? Z.shiftl (Z.land a 3) 4).
Qed.
Lemma end4 a : 0 <= a < 256 ->
  of_bits [Z.testbit a 3; Z.testbit a 2; Z.testbit a 1; Z.testbit a 0; false; false]
  = Z.shiftl (Z.land a 15) 2.
Proof.
  byte_check (fun a => of_bits [Z.testbit a 3; Z.testbit a 2; Z.testbit a 1; Z.testbit a 0;
    false; false] =? Z.shiftl (Z.land a 15) 2).
Qed.

Lemma pad_app_4 x y : len x = 4 -> pad (x ++ y) = x ++ pad y.
Proof.
  intros H. unfold pad. rewrite <- app_assoc. do 4 f_equal. rewrite len_app. lia.
Qed.

Lemma base64_3 a b c data :
  bytes [a; b; c] ->
  base64 (a :: b :: c :: data)
  = quad (Z.shiftr a 2) (Z.lor (Z.shiftl (Z.land a 3) 4) (Z.shiftr b 4))
         (Z.lor (Z.shiftl (Z.land b 15) 2) (Z.shiftr c 6)) (Z.land c 63) ++ base64 data.
Proof.
  intros H. unfold bytes in H. inv_forall. unfold is_byte in *.
  rewrite <- hi6, <- mid24, <- mid42, <- lo6 by lia.
  unfold base64, base64_unpadded. cbn [map mjoin list_join]. rewrite !bits8. cbn [app sextets map].
  rewrite <- pad_app_4; [|done]. done.
Qed.
Lemma base64_0 : base64 [] = [].
Proof. done. Qed.
Lemma base64_1 a :
  is_byte a -> base64 [a] = [alphabet (Z.shiftr a 2); alphabet (Z.shiftl (Z.land a 3) 4); 61; 61].
Proof.
  intros H. unfold is_byte in H. rewrite <- hi6, <- end2 by lia. reflexivity.
Qed.
Lemma base64_2 a b :
  is_byte a -> is_byte b ->
  base64 [a; b] = [alphabet (Z.shiftr a 2);
    alphabet (Z.lor (Z.shiftl (Z.land a 3) 4) (Z.shiftr b 4));
    alphabet (Z.shiftl (Z.land b 15) 2); 61].
Proof.
  intros Ha Hb. unfold is_byte in *. rewrite <- hi6, <- mid24, <- end4 by lia. reflexivity.
Qed.

Lemma base64_app d1 d2 :
  bytes d1 -> len d1 mod 3 = 0 -> base64 (d1 ++ d2) = base64 d1 ++ base64 d2.
Proof.
  remember (length d1) as n eqn:En. revert d1 En.
  induction n as [n IH] using lt_wf_ind. intros d1 -> Hb Hm.
  destruct d1 as [|a [|b [|c d1]]]; [done|discriminate Hm|discriminate Hm|].
  unfold bytes in Hb. rewrite !len_cons in Hm.
  assert (Hd : bytes d1) by (by inv_forall).
  assert (Hq : bytes [a; b; c]) by (inv_forall; mk_forall).
  cbn [app]. rewrite !base64_3 by done.
  rewrite (IH (length d1)); [by rewrite app_assoc|cbn; lia|done|done|lia].
Qed.
Lemma len_base64 data : bytes data -> len (base64 data) = 4 * ((len data + 2) / 3).
Proof.
  remember (length data) as n eqn:En. revert data En.
  induction n as [n IH] using lt_wf_ind. intros d1 -> Hb.
  destruct d1 as [|a [|b [|c d1]]]; [done|..].
  - unfold bytes in Hb. inv_forall. by rewrite base64_1.
  - unfold bytes in Hb. inv_forall. by rewrite base64_2.
  - unfold bytes in Hb.
    assert (Hd : bytes d1) by (by inv_forall).
    assert (Hq : bytes [a; b; c]) by (inv_forall; mk_forall).
    rewrite base64_3, len_app by done. rewrite (IH (length d1)); [|cbn; lia|done|done].
    rewrite !len_cons. change (len (quad _ _ _ _)) with 4. lia.
Qed.

(** ** The encoder *)

Lemma table_ok v : 0 <= v < 64 -> load base64_table v = Ok (alphabet v).
Proof.
  intros H. rewrite load_ok by (change (len base64_table) with 65; lia). f_equal.
  apply Z.eqb_eq. revert v H.
  apply (check_range (fun v => get base64_table v =? alphabet v)). vm_compute. done.
Qed.
Lemma sx_hi6 a : is_byte a -> 0 <= Z.shiftr a 2 < 64.
Proof. unfold is_byte. intros. rewrite Z.shiftr_div_pow2 by lia. lia. Qed.
Lemma sx_mid24 a b : is_byte b -> 0 <= Z.lor (Z.shiftl (Z.land a 3) 4) (Z.shiftr b 4) < 64.
Proof.
  unfold is_byte. intros.
  rewrite lor_shiftl_add by (rewrite ?Z.shiftr_div_pow2; lia).
  rewrite Z.shiftr_div_pow2, land_3 by lia. lia.
Qed.
Lemma sx_mid42 a b : is_byte b -> 0 <= Z.lor (Z.shiftl (Z.land a 15) 2) (Z.shiftr b 6) < 64.
Proof.
  unfold is_byte. intros.
  rewrite lor_shiftl_add by (rewrite ?Z.shiftr_div_pow2; lia).
  rewrite Z.shiftr_div_pow2, land_15 by lia. lia.
Qed.
Lemma sx_lo6 a : 0 <= Z.land a 63 < 64.
Proof. rewrite land_63. lia. Qed.
Lemma sx_end2 a : 0 <= Z.shiftl (Z.land a 3) 4 < 64.
Proof. rewrite Z.shiftl_mul_pow2, land_3 by lia. lia. Qed.
Lemma sx_end4 a : 0 <= Z.shiftl (Z.land a 15) 2 < 64.
Proof. rewrite Z.shiftl_mul_pow2, land_15 by lia. lia. Qed.

(** the state before the final NUL *)
Lemma encode_ok data rest result max_len w :
  bytes data -> len data < 2 ^ 62 -> 0 <= max_len ->
  w = Z.min (4 * ((len data + 2) / 3)) (4 * (max_len / 4)) ->
  w <= len result ->
  Base64_encode (data ++ rest) (len data) result max_len
  = (let! r := store (take (Z.to_nat w) (base64 data) ++ drop (Z.to_nat w) result) w 0 in
     Ok (if 4 * ((len data + 2) / 3) <=? max_len then 0 else 1, r)).
Proof.
  intros Hb Hn Hm Hw Hr. pose proof (len_nonneg data) as H0. unfold Base64_encode.
  rewrite (u64_small (len data + 2)), u64_small by lia. cbv zeta.
  replace (4 * ((len data + 2) / 3) <? len data) with false by lia.
  while_rule
    (fun '(success, cl, ip, inp, pos, res) =>
       exists k d1 d2 r1 r2, 0 <= k /\ data = d1 ++ d2 /\ result = r1 ++ r2 /\ len d1 = 3 * k /\
         len r1 = 4 * k /\ cl = 4 * k /\ ip = 3 * k /\ inp = 3 * k /\ pos = 4 * k /\
         4 * k <= max_len /\ success = 0 /\ res = base64 d1 ++ r2)
    (fun '(success, cl, ip, inp, pos, res) =>
       exists k d1 d2 r1 r2, 0 <= k /\ data = d1 ++ d2 /\ result = r1 ++ r2 /\ len d1 = 3 * k /\
         len r1 = 4 * k /\ ip = 3 * k /\ inp = 3 * k /\ pos = 4 * k /\
         4 * k <= max_len /\ res = base64 d1 ++ r2 /\
         (success = 1 /\ max_len < 4 * k + 4 /\ 3 <= len d2 \/
          success = 0 /\ cl = 4 * k /\ len d2 < 3))
    (fun '(success, cl, ip, inp, pos, res) => len data - ip)
    st HQ.
  - exists 0, [], data, [], result. repeat split; try done; lia.
  - unfold len. rewrite app_length. lia.
  - intros [[[[[success cl] ip] inp] pos] res]
      (k & d1 & d2 & r1 & r2 & Hk & Hd & Hres & Hl1 & Hlr & -> & -> & -> & -> & Hkm & -> & ->) Hc.
    pose proof (len_nonneg d2). assert (Hld : len data = 3 * k + len d2) by (subst data; rewrite len_app; lia).
    rewrite u64_small in Hc by lia. cbv zeta.
    rewrite (u64_small (4 * k + 4)) by lia.
    destruct (Z.ltb_spec max_len (4 * k + 4)).
    + right. eexists. split; [reflexivity|].
      exists k, d1, d2, r1, r2. repeat split; try done. left. lia.
    + left.
      assert (Hlr2 : 4 * k + 4 <= len result) by lia.
      assert (Hl3 : 3 <= len d2) by lia.
      destruct d2 as [|a [|b [|c d2]]]; [vm_compute in Hl3; done..|].
      assert (Hq : bytes [a; b; c] /\ bytes d1).
      { subst data. unfold bytes in Hb. apply Forall_app in Hb as [? ?]. inv_forall.
        split; [mk_forall|done]. }
      destruct Hq as [Hq Hb1].
      assert (Hlr' : 4 <= len r2) by (subst result; rewrite len_app in Hlr2; lia).
      destruct r2 as [|x0 [|x1 [|x2 [|x3 r2]]]]; [vm_compute in Hlr'; done..|].
      subst data. rewrite <- app_assoc. cbn [app].
      replace (3 * k) with (len d1). rewrite ld0, ld1, ld2. cbn [bind].
      assert (Hlb : len (base64 d1) = 4 * k) by (rewrite len_base64 by done; lia).
      pose proof Hq as Hq'. unfold bytes in Hq'. inv_forall.
      rewrite table_ok by (by apply sx_hi6). rewrite table_ok by (by apply sx_mid24).
      rewrite table_ok by (by apply sx_mid42). rewrite table_ok by apply sx_lo6. cbn [bind].
      rewrite <- Hlb. rewrite st0; cbn [bind]. rewrite st1; cbn [bind].
      rewrite st2; cbn [bind]. rewrite st3; cbn [bind].
      eexists. split; [reflexivity|]. split.
      * exists (k + 1), (d1 ++ [a; b; c]), d2, (r1 ++ [x0; x1; x2; x3]), r2.
        rewrite <- !app_assoc. rewrite !len_app. cbn [app].
        change (len [a; b; c]) with 3. change (len [x0; x1; x2; x3]) with 4.
        rewrite u64_small by lia.
        repeat split; try done; try lia.
        rewrite base64_app by (done || lia).
        rewrite base64_3 by done. rewrite base64_0, app_nil_r, <- app_assoc. done.
      * rewrite u64_small by lia. rewrite len_app, !len_cons. pose proof (len_nonneg d2). lia.
  - intros [[[[[success cl] ip] inp] pos] res]
      (k & d1 & d2 & r1 & r2 & Hk & Hd & Hres & Hl1 & Hlr & -> & -> & -> & -> & Hkm & -> & ->) Hc.
    exists k, d1, d2, r1, r2. repeat split; try done. right.
    pose proof (len_nonneg d2).
    assert (Hld : len data = 3 * k + len d2) by (subst data; rewrite len_app; lia).
    rewrite u64_small in Hc by lia. lia.
  - destruct st as [[[[[success cl] ip] inp] pos] res].
    destruct HQ as (k & d1 & d2 & r1 & r2 & Hk & Hd & Hres & Hl1 & Hlr & -> & -> & -> & Hkm & -> & HQ).
    cbn [bind].
    pose proof (len_nonneg d2). assert (Hld : len data = 3 * k + len d2) by (subst data; rewrite len_app; lia).
    assert (Hb1 : bytes d1 /\ bytes d2).
    { subst data. unfold bytes in Hb. by apply Forall_app in Hb as [? ?]. }
    destruct Hb1 as [Hb1 Hb2].
    assert (Hlb : len (base64 d1) = 4 * k) by (rewrite len_base64 by done; lia).
    assert (Hba : base64 data = base64 d1 ++ base64 d2) by (subst data; apply base64_app; [done|lia]).
    assert (Hdr : drop (Z.to_nat (4 * k)) result = r2).
    { subst result. rewrite <- Hlr. rewrite <- length_len. apply drop_app. }
    destruct HQ as [(-> & HQ1 & HQ2)|(-> & -> & HQ)].
    + cbn [Z.eqb Pos.eqb andb bind].
      replace w with (4 * k) by lia. rewrite Hdr, Hba.
      rewrite take_app_alt by (unfold len in Hlb; lia).
      replace (4 * ((len data + 2) / 3) <=? max_len) with false by lia. done.
    + rewrite u64_small by lia. cbn [Z.eqb andb]. replace (len data - 3 * k) with (len d2) by lia.
      destruct d2 as [|a [|b [|c d2]]].
      * cbn [len length Z.of_nat Z.eqb negb bind]. change (len []) with 0 in Hld.
        replace w with (4 * k) by lia. rewrite Hdr, Hba.
        rewrite take_app_alt by (unfold len in Hlb; lia).
        replace (4 * ((len data + 2) / 3) <=? max_len) with true by lia. done.
      * change (len [a]) with 1 in *. cbn [Z.eqb Pos.eqb negb]. cbv zeta.
        rewrite (u64_small (4 * k + 4)) by lia.
        destruct (Z.ltb_spec max_len (4 * k + 4)).
        { cbn [bind]. replace w with (4 * k) by lia. rewrite Hdr, Hba.
          rewrite take_app_alt by (unfold len in Hlb; lia).
          replace (4 * ((len data + 2) / 3) <=? max_len) with false by lia. done. }
        assert (Hlr2 : 4 * k + 4 <= len result) by lia.
        assert (Hlr' : 4 <= len r2) by (subst result; rewrite len_app in Hlr2; lia).
        destruct r2 as [|x0 [|x1 [|x2 [|x3 r2]]]]; [vm_compute in Hlr'; done..|].
        subst data. rewrite <- app_assoc. cbn [app]. unfold bytes in Hb2. inv_forall.
        replace (3 * k) with (len d1). rewrite ld0. cbn [bind].
        rewrite table_ok by (by apply sx_hi6). rewrite table_ok by apply sx_end2.
        rewrite <- Hlb. cbn [bind]. rewrite st0; cbn [bind]. rewrite st1; cbn [bind].
        replace (len (base64 d1) + 1 + 1) with (len (base64 d1) + 2) by lia.
        replace (len (base64 d1) + 1 + 2) with (len (base64 d1) + 3) by lia.
        rewrite st2; cbn [bind]. rewrite st3; cbn [bind].
        replace w with (4 * k + 4) by lia. rewrite Hba.
        replace (4 * ((len (d1 ++ [a]) + 2) / 3) <=? max_len) with true by lia.
        rewrite base64_1 by done.
        rewrite take_ge by (rewrite app_length; cbn [length]; unfold len in Hlb; lia).
        replace (Z.to_nat (4 * k + 4)) with (4 + Z.to_nat (4 * k))%nat by lia.
        rewrite Nat.add_comm, <- drop_drop, Hdr. cbn [drop]. rewrite <- app_assoc.
        cbn [app]. f_equal. f_equal. lia.
      * change (len [a; b]) with 2 in *. cbn [Z.eqb Pos.eqb negb]. cbv zeta.
        rewrite (u64_small (4 * k + 4)) by lia.
        destruct (Z.ltb_spec max_len (4 * k + 4)).
        { cbn [bind]. replace w with (4 * k) by lia. rewrite Hdr, Hba.
          rewrite take_app_alt by (unfold len in Hlb; lia).
          replace (4 * ((len data + 2) / 3) <=? max_len) with false by lia. done. }
        assert (Hlr2 : 4 * k + 4 <= len result) by lia.
        assert (Hlr' : 4 <= len r2) by (subst result; rewrite len_app in Hlr2; lia).
        destruct r2 as [|x0 [|x1 [|x2 [|x3 r2]]]]; [vm_compute in Hlr'; done..|].
        subst data. rewrite <- app_assoc. cbn [app]. unfold bytes in Hb2. inv_forall.
        replace (3 * k) with (len d1). rewrite ld0, ld1. cbn [bind].
        rewrite table_ok by (by apply sx_hi6). rewrite table_ok by (by apply sx_mid24).
        rewrite table_ok by apply sx_end4.
        rewrite <- Hlb. cbn [bind]. rewrite st0; cbn [bind]. rewrite st1; cbn [bind].
        replace (len (base64 d1) + 1 + 1) with (len (base64 d1) + 2) by lia.
        replace (len (base64 d1) + 1 + 2) with (len (base64 d1) + 3) by lia.
        rewrite st2; cbn [bind]. rewrite st3; cbn [bind].
        replace w with (4 * k + 4) by lia. rewrite Hba.
        replace (4 * ((len (d1 ++ [a; b]) + 2) / 3) <=? max_len) with true by lia.
        rewrite base64_2 by done.
        rewrite take_ge by (rewrite app_length; cbn [length]; unfold len in Hlb; lia).
        replace (Z.to_nat (4 * k + 4)) with (4 + Z.to_nat (4 * k))%nat by lia.
        rewrite Nat.add_comm, <- drop_drop, Hdr. cbn [drop]. rewrite <- app_assoc.
        cbn [app]. f_equal. f_equal. lia.
      * rewrite !len_cons in HQ. pose proof (len_nonneg d2). lia.
Qed.

(** ** The decoder, in terms of its index table *)

Definition idx (c : Z) : Z := get base64_index c.
Lemma index_ok c : is_byte c -> load base64_index c = Ok (idx c).
Proof. intros H. apply load_ok. exact H. Qed.
Lemma idx_range c : is_byte c -> 0 <= idx c < 64.
Proof.
  intros H. assert ((0 <=? idx c) && (idx c <? 64) = true); [|lia].
  revert c H. apply (check_range (fun c => (0 <=? idx c) && (idx c <? 64))). by vm_compute.
Qed.
Lemma idx_alphabet v : is_sextet v -> idx (alphabet v) = v.
Proof.
  intros H. apply Z.eqb_eq. revert v H.
  apply (check_range (fun v => idx (alphabet v) =? v)). by vm_compute.
Qed.
Lemma alphabet_byte v : is_sextet v -> is_byte (alphabet v).
Proof.
  intros H. unfold is_byte. assert ((0 <=? alphabet v) && (alphabet v <? 2 ^ 8) = true); [|lia].
  revert v H.
  apply (check_range (fun v => (0 <=? alphabet v) && (alphabet v <? 2 ^ 8))). by vm_compute.
Qed.
Lemma alphabet_not_pad v : is_sextet v -> alphabet v <> 61.
Proof.
  intros H. apply Z.eqb_neq, negb_true_iff. revert v H.
  apply (check_range (fun v => negb (alphabet v =? 61))). by vm_compute.
Qed.

(** the three bytes made of four table values *)
Definition dec3 (v0 v1 v2 v3 : Z) : list Z :=
  [v0 * 4 + v1 / 16; v1 mod 16 * 16 + v2 / 4; v2 mod 4 * 64 + v3].
Fixpoint decg (cs : list Z) : list Z :=
  match cs with
  | a :: b :: c :: d :: r => dec3 (idx a) (idx b) (idx c) (idx d) ++ decg r
  | _ => []
  end.

Lemma list4_ind (P : list Z -> Prop) :
  P [] -> (forall a, P [a]) -> (forall a b, P [a; b]) -> (forall a b c, P [a; b; c]) ->
  (forall a b c d r, P r -> P (a :: b :: c :: d :: r)) -> forall l, P l.
Proof.
  intros H0 H1 H2 H3 H4 l.
  remember (length l) as n eqn:En. revert l En.
  induction n as [n IH] using lt_wf_ind. intros l ->.
  destruct l as [|a [|b [|c [|d l]]]]; [done..|]. apply H4.
  apply (IH (length l)); [cbn; lia|done].
Qed.
Lemma decg_app c1 c2 : len c1 mod 4 = 0 -> decg (c1 ++ c2) = decg c1 ++ decg c2.
Proof.
  revert c1. apply (list4_ind (fun c1 => len c1 mod 4 = 0 -> decg (c1 ++ c2) = decg c1 ++ decg c2));
    [done|intros; discriminate..|].
  intros a b c d r IH. rewrite !len_cons. intros H. cbn [app decg].
  rewrite IH by lia. done.
Qed.
Lemma len_decg cs : len (decg cs) = 3 * (len cs / 4).
Proof.
  revert cs. apply (list4_ind (fun cs => len (decg cs) = 3 * (len cs / 4))); [done..|].
  intros a b c d r IH. cbn [decg]. rewrite len_app, IH, !len_cons.
  change (len (dec3 _ _ _ _)) with 3. lia.
Qed.

Lemma word_sum v0 v1 v2 v3 :
  0 <= v0 < 64 -> 0 <= v1 < 64 -> 0 <= v2 < 64 -> 0 <= v3 < 64 ->
  Z.lor (Z.lor (Z.lor (u32 (Z.shiftl v0 18)) (u32 (Z.shiftl v1 12))) (u32 (Z.shiftl v2 6))) v3
  = v0 * 2 ^ 18 + v1 * 2 ^ 12 + v2 * 2 ^ 6 + v3.
Proof.
  intros. rewrite !Z.shiftl_mul_pow2 by lia.
  rewrite !u32_small by lia.
  rewrite (lor_add_disjoint _ (v1 * 2 ^ 12) 18) by lia.
  rewrite (lor_add_disjoint _ (v2 * 2 ^ 6) 12) by lia.
  rewrite (lor_add_disjoint _ v3 6) by lia. done.
Qed.
Lemma word_bytes v0 v1 v2 v3 :
  0 <= v0 < 64 -> 0 <= v1 < 64 -> 0 <= v2 < 64 -> 0 <= v3 < 64 ->
  let n := v0 * 2 ^ 18 + v1 * 2 ^ 12 + v2 * 2 ^ 6 + v3 in
  [u8 (Z.shiftr n 16); u8 (Z.land (Z.shiftr n 8) 255); u8 (Z.land n 255)] = dec3 v0 v1 v2 v3.
Proof.
  intros. unfold dec3. rewrite !land_255, !Z.shiftr_div_pow2 by lia. unfold u8, n.
  f_equal; [lia|]. f_equal; [lia|]. f_equal. lia.
Qed.

Lemma decode_loop (cs t o1 o2 : list Z) k :
  bytes cs -> len cs = 4 * k -> len o1 = 3 * k -> 4 * k < 2 ^ 63 ->
  cwhile (S (length (cs ++ t)))
      (fun '(i, j, out) => i <? 4 * k)
      (fun '(i, j, out) =>
         let! b0 := load (cs ++ t) i in
         let! v0 := load base64_index b0 in
         let! b1 := load (cs ++ t) (i + 1) in
         let! v1 := load base64_index b1 in
         let! b2 := load (cs ++ t) (i + 2) in
         let! v2 := load base64_index b2 in
         let! b3 := load (cs ++ t) (i + 3) in
         let! v3 := load base64_index b3 in
         let n := Z.lor (Z.lor (Z.lor (u32 (Z.shiftl v0 18)) (u32 (Z.shiftl v1 12)))
                               (u32 (Z.shiftl v2 6))) v3 in
         let! out := store out j (u8 (Z.shiftr n 16)) in
         let! out := store out (j + 1) (u8 (Z.land (Z.shiftr n 8) 255)) in
         let! out := store out (j + 2) (u8 (Z.land n 255)) in
         Ok (Next (u64 (i + 4), j + 3, out)))
      (0, 0, o1 ++ o2) = Ok (4 * k, 3 * k, decg cs ++ o2).
Proof.
  intros Hb Hl Ho Hk.
  while_rule
    (fun '(i, j, out) => exists h c1 c2 p1 p2, 0 <= h /\ cs = c1 ++ c2 /\ o1 = p1 ++ p2 /\
        len c1 = 4 * h /\ len p1 = 3 * h /\ i = 4 * h /\ j = 3 * h /\
        out = decg c1 ++ p2 ++ o2)
    (fun '(i, j, out) => i = 4 * k /\ j = 3 * k /\ out = decg cs ++ o2)
    (fun '(i, j, out) => 4 * k - i) st HQ.
  - exists 0, [], cs, [], o1. done.
  - unfold len in Hl. rewrite app_length. lia.
  - intros [[i j] out] (h & c1 & c2 & p1 & p2 & Hh & -> & -> & Hc1 & Hp1 & -> & -> & ->) Hc.
    left. rewrite len_app in Hl, Ho. pose proof (len_nonneg c2).
    assert (Hc2 : len c2 mod 4 = 0 /\ 4 <= len c2) by lia. destruct Hc2 as [_ Hc2].
    destruct c2 as [|b0 [|b1 [|b2 [|b3 c2]]]]; [vm_compute in Hc2; done..|].
    assert (Hp2 : 3 <= len p2) by lia.
    destruct p2 as [|x0 [|x1 [|x2 p2]]]; [vm_compute in Hp2; done..|].
    rewrite <- app_assoc. cbn [app]. rewrite <- Hc1. rewrite ld0, ld1, ld2, ld3. cbn [bind].
    unfold bytes in Hb. apply Forall_app in Hb as [Hb1 Hb2]. inv_forall.
    rewrite !index_ok by done. cbn [bind]. cbv zeta.
    rewrite word_sum by (by apply idx_range).
    assert (Hd : len (decg c1) = 3 * h) by (rewrite len_decg; lia).
    rewrite <- Hd. rewrite st0; cbn [bind]. rewrite st1; cbn [bind]. rewrite st2; cbn [bind].
    eexists. split; [reflexivity|].
    rewrite u64_small by lia. split.
    + exists (h + 1), (c1 ++ [b0; b1; b2; b3]), c2, (p1 ++ [x0; x1; x2]), p2.
      rewrite <- !app_assoc, !len_app. cbn [app].
      change (len [b0; b1; b2; b3]) with 4. change (len [x0; x1; x2]) with 3.
      repeat split; try done; try lia.
      rewrite decg_app by lia. cbn [decg]. rewrite app_nil_r.
      rewrite <- word_bytes by (by apply idx_range).
      rewrite <- app_assoc. done.
    + pose proof (len_nonneg c2). rewrite !len_cons in Hl. lia.
  - intros [[i j] out] (h & c1 & c2 & p1 & p2 & Hh & -> & -> & Hc1 & Hp1 & -> & -> & ->) Hc.
    rewrite len_app in Hl, Ho. pose proof (len_nonneg c2).
    assert (h = k) as -> by lia.
    assert (c2 = []) as -> by (apply len_0_inv; lia).
    assert (p2 = []) as -> by (apply len_0_inv; lia).
    rewrite app_nil_r. done.
  - destruct st as [[i j] out]. destruct HQ as (-> & -> & ->). done.
Qed.

(** when there is not enough room or not a full group, nothing happens *)
Definition dec_pad (inb : list Z) (n : Z) : bool :=
  (0 <? n) && (negb (n mod 4 =? 0) || (get inb (n - 1) =? 61)).

Lemma decode_unfold inb n out max_len :
  0 <= n <= len inb -> n < 2 ^ 62 ->
  Base64_decode inb n out max_len =
  let p := dec_pad inb n in
  let l := 4 * ((n + 3) / 4 - Z.b2z p) in
  let ol := 3 * ((n + 3) / 4 - Z.b2z p) + Z.b2z p in
  if (max_len <? ol) || (l =? 0) then Ok (1, out) else
  let! '(_, _, out) :=
    cwhile (S (length inb))
      (fun '(i, j, out) => i <? l)
      (fun '(i, j, out) =>
         let! b0 := load inb i in
         let! v0 := load base64_index b0 in
         let! b1 := load inb (i + 1) in
         let! v1 := load base64_index b1 in
         let! b2 := load inb (i + 2) in
         let! v2 := load base64_index b2 in
         let! b3 := load inb (i + 3) in
         let! v3 := load base64_index b3 in
         let n := Z.lor (Z.lor (Z.lor (u32 (Z.shiftl v0 18)) (u32 (Z.shiftl v1 12)))
                               (u32 (Z.shiftl v2 6))) v3 in
         let! out := store out j (u8 (Z.shiftr n 16)) in
         let! out := store out (j + 1) (u8 (Z.land (Z.shiftr n 8) 255)) in
         let! out := store out (j + 2) (u8 (Z.land n 255)) in
         Ok (Next (u64 (i + 4), j + 3, out)))
      (0, 0, out) in
  if p then
    let! b0 := load inb l in
    let! v0 := load base64_index b0 in
    let! b1 := load inb (l + 1) in
    let! v1 := load base64_index b1 in
    let n' := Z.lor (u32 (Z.shiftl v0 18)) (u32 (Z.shiftl v1 12)) in
    let! out := store out (ol - 1) (u8 (Z.shiftr n' 16)) in
    let! third :=
      if l + 2 <? n then
        let! b2 := load inb (l + 2) in Ok (negb (b2 =? 61))
      else Ok false in
    if third then
      if max_len <? ol + 1 then Ok (1, out)
      else
        let! b2 := load inb (l + 2) in
        let! v2 := load base64_index b2 in
        let n' := Z.lor n' (u32 (Z.shiftl v2 6)) in
        let! out := store out ol (u8 (Z.land (Z.shiftr n' 8) 255)) in
        Ok (0, out)
    else Ok (0, out)
  else Ok (0, out).
Proof.
  intros Hn H62. unfold Base64_decode.
  assert (E : (if 0 <? n then
      if negb (n mod 4 =? 0) then Ok true
      else let! c := load inb (n - 1) in Ok (c =? 61)
    else Ok false) = Ok (dec_pad inb n)).
  { unfold dec_pad. destruct (Z.ltb_spec 0 n); [|done]. cbn [andb].
    destruct (n mod 4 =? 0); [|done]. cbn [negb orb]. by rewrite load_ok by lia. }
  rewrite E. cbn [bind]. clear E.
  assert (Hp : dec_pad inb n = true -> 0 < n) by (unfold dec_pad; lia).
  replace (if dec_pad inb n then 1 else 0) with (Z.b2z (dec_pad inb n)) by done.
  set (p := dec_pad inb n) in *. assert (Hb : 0 <= Z.b2z p <= 1) by (destruct p; cbn; lia).
  assert (Hq : 0 <= (n + 3) / 4 - Z.b2z p) by (destruct p; cbn [Z.b2z]; [specialize (Hp eq_refl)|]; lia).
  rewrite (u64_small (n + 3)) by lia. rewrite (u64_small ((n + 3) / 4 - Z.b2z p)) by lia.
  set (q := (n + 3) / 4 - Z.b2z p) in *. assert (Hq2 : q <= 2 ^ 61) by lia. clearbody q.
  rewrite (u64_small (q * 4)) by lia. replace (q * 4) with (4 * q) by lia.
  replace (4 * q / 4) with q by lia.
  rewrite (u64_small (q * 3)), (u64_small (q * 3 + Z.b2z p)) by lia.
  replace (q * 3) with (3 * q) by lia. rewrite (u64_small (4 * q + 2)) by lia.
  rewrite (u64_small (3 * q + Z.b2z p + 1)) by lia. reflexivity.
Qed.

Lemma decode_short inb n out max_len :
  0 <= n <= len inb -> n < 2 ^ 62 ->
  (max_len < 3 * ((n + 3) / 4 - Z.b2z (dec_pad inb n)) + Z.b2z (dec_pad inb n) \/
   (n + 3) / 4 = Z.b2z (dec_pad inb n)) ->
  Base64_decode inb n out max_len = Ok (1, out).
Proof.
  intros Hn H62 H. rewrite decode_unfold by lia. cbv zeta.
  replace (_ || _) with true by lia. done.
Qed.

Lemma decode_full cs t o1 o2 k max_len :
  bytes cs -> len cs = 4 * k -> 4 * k < 2 ^ 62 -> 1 <= k -> len o1 = 3 * k -> 3 * k <= max_len ->
  get cs (4 * k - 1) <> 61 ->
  Base64_decode (cs ++ t) (4 * k) (o1 ++ o2) max_len = Ok (0, decg cs ++ o2).
Proof.
  intros Hb Hl H62 Hk Ho Hm Hg. pose proof (len_nonneg t).
  rewrite decode_unfold by (rewrite ?len_app; lia).
  assert (dec_pad (cs ++ t) (4 * k) = false) as ->.
  { unfold dec_pad. rewrite get_app_l by lia. lia. }
  cbv zeta. cbn [Z.b2z]. replace (4 * ((4 * k + 3) / 4 - 0)) with (4 * k) by lia.
  replace (_ || _) with false by lia. rewrite decode_loop by (done || lia). done.
Qed.

Lemma two_sum v0 v1 :
  0 <= v0 < 64 -> 0 <= v1 < 64 ->
  Z.lor (u32 (Z.shiftl v0 18)) (u32 (Z.shiftl v1 12)) = v0 * 2 ^ 18 + v1 * 2 ^ 12.
Proof.
  intros. rewrite !Z.shiftl_mul_pow2 by lia. rewrite !u32_small by lia.
  by rewrite (lor_add_disjoint _ (v1 * 2 ^ 12) 18) by lia.
Qed.

Definition dec_x (b0 b1 : Z) : Z := idx b0 * 4 + idx b1 / 16.
Definition dec_y (b1 b2 : Z) : Z := idx b1 mod 16 * 16 + idx b2 / 4.

Lemma decode_padded cs b0 b1 t n o1 x o2 k max_len :
  bytes (cs ++ b0 :: b1 :: t) -> len cs = 4 * k -> 4 * k < 2 ^ 61 -> 1 <= k ->
  4 * k < n <= 4 * k + 4 -> n <= len (cs ++ b0 :: b1 :: t) ->
  dec_pad (cs ++ b0 :: b1 :: t) n = true ->
  len o1 = 3 * k -> 3 * k + 1 <= max_len -> max_len <= 3 * k + 1 + len o2 ->
  let third := (4 * k + 2 <? n) && negb (get t 0 =? 61) in
  Base64_decode (cs ++ b0 :: b1 :: t) n (o1 ++ x :: o2) max_len =
    if third then
      if max_len =? 3 * k + 1 then Ok (1, decg cs ++ dec_x b0 b1 :: o2)
      else Ok (0, decg cs ++ dec_x b0 b1 :: dec_y b1 (get t 0) :: drop 1 o2)
    else Ok (0, decg cs ++ dec_x b0 b1 :: o2).
Proof.
  intros Hb Hl H61 Hk Hn Hnl Hp Ho Hm1 Hm2 third. pose proof (len_nonneg t).
  rewrite decode_unfold by lia.
  rewrite Hp. cbv zeta. cbn [Z.b2z].
  replace ((n + 3) / 4 - 1) with k by lia.
  replace (_ || _) with false by lia.
  assert (Hbs : bytes cs /\ is_byte b0 /\ is_byte b1 /\ bytes t).
  { unfold bytes in Hb. apply Forall_app in Hb as [? Hb]. by inv_forall. }
  destruct Hbs as (Hbc & Hb0 & Hb1 & Hbt).
  rewrite decode_loop by (done || lia). cbn [bind].
  rewrite <- Hl. rewrite ld0, ld1. cbn [bind]. rewrite !index_ok by done. cbn [bind].
  pose proof (idx_range b0 Hb0) as H0. pose proof (idx_range b1 Hb1) as H1.
  rewrite two_sum by done.
  assert (Hd : len (decg cs) = 3 * k) by (rewrite len_decg; lia).
  replace (3 * k + 1 - 1) with (len (decg cs)) by lia. rewrite st0. cbn [bind].
  assert (EX : u8 (Z.shiftr (idx b0 * 2 ^ 18 + idx b1 * 2 ^ 12) 16) = dec_x b0 b1).
  { unfold dec_x, u8. rewrite Z.shiftr_div_pow2 by lia. lia. }
  rewrite EX. clear EX. unfold third. clear third. rewrite Hl.
  destruct (Z.ltb_spec (4 * k + 2) n) as [Hn2|Hn2]; [|done].
  rewrite len_app, !len_cons in Hnl.
  destruct t as [|b2 t]; [change (len []) with 0 in Hnl; lia|].
  unfold bytes in Hbt. inv_forall.
  rewrite <- Hl. rewrite ld2. cbn [bind andb]. rewrite get_0.
  destruct (negb (b2 =? 61)); [|done].
  destruct (Z.eqb_spec max_len (3 * k + 1)) as [->|Hne].
  - replace (3 * k + 1 <? 3 * k + 1 + 1) with true by lia. done.
  - replace (max_len <? 3 * k + 1 + 1) with false by lia.
    rewrite index_ok by done. cbn [bind].
    destruct o2 as [|y o2]; [change (len []) with 0 in Hm2; lia|].
    replace (3 * k + 1) with (len (decg cs) + 1) by lia. rewrite st1. cbn [bind drop].
    do 4 f_equal.
    pose proof (idx_range b2 ltac:(done)) as H2'. f_equal.
    rewrite Z.shiftl_mul_pow2, (u32_small (idx b2 * 2 ^ 6)) by lia.
    rewrite (lor_add_disjoint _ (idx b2 * 2 ^ 6) 12) by lia.
    unfold u8. rewrite land_255, Z.shiftr_div_pow2 by lia. unfold dec_y. lia.
Qed.

Lemma decode_overread cs b0 o1 x o2 k max_len :
  bytes (cs ++ [b0]) -> len cs = 4 * k -> 4 * k < 2 ^ 61 -> 1 <= k ->
  len o1 = 3 * k -> 3 * k + 1 <= max_len ->
  Base64_decode (cs ++ [b0]) (4 * k + 1) (o1 ++ x :: o2) max_len = UB OutOfBounds.
Proof.
  intros Hb Hl H61 Hk Ho Hm1.
  rewrite decode_unfold by (rewrite ?len_app; change (len [b0]) with 1; lia).
  assert (dec_pad (cs ++ [b0]) (4 * k + 1) = true) as ->.
  { unfold dec_pad. replace (negb ((4 * k + 1) mod 4 =? 0)) with true by lia. lia. }
  cbv zeta. cbn [Z.b2z].
  replace ((4 * k + 1 + 3) / 4 - 1) with k by lia.
  replace (_ || _) with false by lia.
  unfold bytes in Hb. apply Forall_app in Hb as [? Hb]. inv_forall.
  rewrite decode_loop by (done || lia). cbn [bind].
  rewrite <- Hl. rewrite ld0. cbn [bind]. rewrite index_ok by done. cbn [bind].
  rewrite (load_oob (A := Z)) by (rewrite len_app; change (len [b0]) with 1; lia). done.
Qed.

(** ** C13 *)

Lemma split_at {A} (l : list A) n :
  0 <= n <= len l -> exists l1 l2, l = l1 ++ l2 /\ len l1 = n.
Proof.
  intros H. exists (take (Z.to_nat n) l), (drop (Z.to_nat n) l).
  rewrite take_drop, len_take. split; [done|lia].
Qed.
Lemma drop_app_len {A} (l1 l2 : list A) m :
  len l1 <= m -> drop (Z.to_nat m) (l1 ++ l2) = drop (Z.to_nat (m - len l1)) l2.
Proof.
  intros. rewrite drop_app_ge by (unfold len in *; lia). f_equal. unfold len. lia.
Qed.

Lemma decode_safe inb n out max_len :
  bytes inb -> 0 <= n <= len inb -> n < 2 ^ 61 -> 0 <= max_len <= len out ->
  (n mod 4 = 1 -> 5 <= n -> n + 1 <= len inb) ->
  exists st out', Base64_decode inb n out max_len = Ok (st, out') /\
    (st = 0 \/ st = 1) /\ len out' = len out /\
    drop (Z.to_nat max_len) out' = drop (Z.to_nat max_len) out.
Proof.
  intros Hb Hn H61 Hm Hover.
  destruct (dec_pad inb n) eqn:Hp.
  - destruct (Z.lt_ge_cases max_len (3 * ((n + 3) / 4 - 1) + 1)).
    { rewrite decode_short; [|lia|lia|rewrite Hp; cbn [Z.b2z]; lia]. eauto 10. }
    assert (0 < n) by (unfold dec_pad in Hp; lia).
    remember ((n + 3) / 4 - 1) as k eqn:Ek.
    destruct (Z.eq_dec k 0).
    { rewrite decode_short; [|lia|lia|rewrite Hp; cbn [Z.b2z]; lia]. eauto 10. }
    assert (4 * k < n <= 4 * k + 4) by lia.
    destruct (split_at inb (4 * k)) as (cs & t & -> & Hcs); [lia|].
    rewrite len_app in *.
    assert (Ht : 2 <= len t) by lia.
    destruct t as [|b0 [|b1 t]]; [vm_compute in Ht; done..|].
    destruct (split_at out (3 * k)) as (o1 & o2 & -> & Ho1); [lia|].
    rewrite len_app in *. destruct o2 as [|x o2]; [change (len []) with 0 in *; lia|].
    rewrite !len_cons in *.
    rewrite (decode_padded cs b0 b1 t n o1 x o2 k max_len);
      [|done|lia|lia|lia|lia|rewrite len_app, !len_cons; lia|done|lia|lia|lia].
    assert (Hd : len (decg cs) = 3 * k) by (rewrite len_decg; lia).
    cbv zeta. destruct (_ && _) eqn:E3; [destruct (Z.eqb_spec max_len (3 * k + 1))|].
    + do 2 eexists. split; [reflexivity|]. split; [lia|]. rewrite !len_app, !len_cons.
      split; [lia|]. rewrite !drop_app_len by lia.
      replace (Z.to_nat (max_len - len (decg cs))) with 1%nat by lia.
      by replace (Z.to_nat (max_len - len o1)) with 1%nat by lia.
    + do 2 eexists. split; [reflexivity|]. split; [lia|].
      destruct o2 as [|y o2]; [change (len []) with 0 in *; lia|].
      cbn [drop]. rewrite drop_0, !len_app, !len_cons.
      split; [lia|]. rewrite !drop_app_len by lia.
      replace (Z.to_nat (max_len - len (decg cs))) with (2 + Z.to_nat (max_len - 3 * k - 2))%nat by lia.
      by replace (Z.to_nat (max_len - len o1)) with (2 + Z.to_nat (max_len - 3 * k - 2))%nat by lia.
    + do 2 eexists. split; [reflexivity|]. split; [lia|].
      rewrite !len_app, !len_cons.
      split; [lia|]. rewrite !drop_app_len by lia.
      replace (Z.to_nat (max_len - len (decg cs))) with (1 + Z.to_nat (max_len - 3 * k - 1))%nat by lia.
      by replace (Z.to_nat (max_len - len o1)) with (1 + Z.to_nat (max_len - 3 * k - 1))%nat by lia.
  - assert (Hn0 : n = 0 \/ n mod 4 = 0) by (unfold dec_pad in Hp; lia).
    remember (n / 4) as k eqn:Ek. assert (n = 4 * k) as -> by lia.
    destruct (Z.lt_ge_cases max_len (3 * k)).
    { rewrite decode_short; [|lia|lia|rewrite Hp; cbn [Z.b2z]; lia]. eauto 10. }
    destruct (Z.eq_dec k 0).
    { rewrite decode_short; [|lia|lia|rewrite Hp; cbn [Z.b2z]; lia]. eauto 10. }
    destruct (split_at inb (4 * k)) as (cs & t & -> & Hcs); [lia|].
    destruct (split_at out (3 * k)) as (o1 & o2 & -> & Ho1); [lia|].
    unfold bytes in Hb. apply Forall_app in Hb as [Hbc _].
    rewrite (decode_full cs t o1 o2 k max_len); [|done|lia|lia|lia|lia|lia|].
    + do 2 eexists. split; [reflexivity|]. split; [lia|].
      assert (Hd : len (decg cs) = 3 * k) by (rewrite len_decg; lia).
      rewrite !len_app. split; [lia|].
      rewrite !drop_app_len by lia. do 2 f_equal. lia.
    + unfold dec_pad in Hp. rewrite get_app_l in Hp by lia. lia.
Qed.

Lemma decode_overread_gen inb out max_len :
  bytes inb -> len inb < 2 ^ 61 -> len inb mod 4 = 1 -> 5 <= len inb ->
  3 * (len inb / 4) + 1 <= max_len <= len out ->
  Base64_decode inb (len inb) out max_len = UB OutOfBounds.
Proof.
  intros Hb Hl Hm H5 Ho. remember (len inb / 4) as k eqn:Ek.
  destruct (split_at inb (4 * k)) as (cs & t & -> & Hcs); [lia|].
  rewrite len_app in *. pose proof (len_nonneg t).
  assert (Ht : len t = 1) by lia. explode t Ht.
  destruct (split_at out (3 * k)) as (o1 & o2 & -> & Ho1); [lia|].
  rewrite len_app in *. destruct o2 as [|y o2]; [change (len []) with 0 in *; lia|].
  rewrite Hcs. change (len [x]) with 1.
  apply decode_overread; (done || lia).
Qed.

(** ** C14, C12 *)

Ltac sextet_check f :=
  intros H; match goal with a : Z |- _ =>
    apply Z.eqb_eq; revert a H; apply (check_range f); vm_compute; reflexivity end.
Lemma sx_all v : 0 <= v < 64 -> of_bits (bits 6 v) = v.
Proof. sextet_check (fun v => of_bits (bits 6 v) =? v). Qed.
Lemma sx_54 v : 0 <= v < 64 -> of_bits [Z.testbit v 5; Z.testbit v 4] = v / 16.
Proof. sextet_check (fun v => of_bits [Z.testbit v 5; Z.testbit v 4] =? v / 16). Qed.
Lemma sx_30 v : 0 <= v < 64 ->
  of_bits [Z.testbit v 3; Z.testbit v 2; Z.testbit v 1; Z.testbit v 0] = v mod 16.
Proof.
  sextet_check (fun v => of_bits [Z.testbit v 3; Z.testbit v 2; Z.testbit v 1; Z.testbit v 0]
    =? v mod 16).
Qed.
Lemma sx_52 v : 0 <= v < 64 ->
  of_bits [Z.testbit v 5; Z.testbit v 4; Z.testbit v 3; Z.testbit v 2] = v / 4.
Proof.
  sextet_check (fun v => of_bits [Z.testbit v 5; Z.testbit v 4; Z.testbit v 3; Z.testbit v 2]
    =? v / 4).
Qed.
Lemma sx_10 v : 0 <= v < 64 -> of_bits [Z.testbit v 1; Z.testbit v 0] = v mod 4.
Proof. sextet_check (fun v => of_bits [Z.testbit v 1; Z.testbit v 0] =? v mod 4). Qed.

Lemma oct_x v0 v1 : 0 <= v0 < 64 -> 0 <= v1 < 64 ->
  of_bits [Z.testbit v0 5; Z.testbit v0 4; Z.testbit v0 3; Z.testbit v0 2; Z.testbit v0 1;
           Z.testbit v0 0; Z.testbit v1 5; Z.testbit v1 4] = v0 * 4 + v1 / 16.
Proof.
  intros. change ([?a; ?b; ?c; ?d; ?e; ?f; ?g; ?h]) with ([a; b; c; d; e; f] ++ [g; h]).
  rewrite of_bits_app. rewrite <- bits6, sx_all, sx_54 by done. done.
Qed.
Lemma oct_y v0 v1 : 0 <= v0 < 64 -> 0 <= v1 < 64 ->
  of_bits [Z.testbit v0 3; Z.testbit v0 2; Z.testbit v0 1; Z.testbit v0 0;
           Z.testbit v1 5; Z.testbit v1 4; Z.testbit v1 3; Z.testbit v1 2]
  = v0 mod 16 * 16 + v1 / 4.
Proof.
  intros. change ([?a; ?b; ?c; ?d; ?e; ?f; ?g; ?h]) with ([a; b; c; d] ++ [e; f; g; h]).
  rewrite of_bits_app. rewrite sx_30, sx_52 by done. done.
Qed.
Lemma oct_z v0 v1 : 0 <= v0 < 64 -> 0 <= v1 < 64 ->
  of_bits [Z.testbit v0 1; Z.testbit v0 0; Z.testbit v1 5; Z.testbit v1 4;
           Z.testbit v1 3; Z.testbit v1 2; Z.testbit v1 1; Z.testbit v1 0]
  = v0 mod 4 * 64 + v1.
Proof.
  intros. change ([?a; ?b; ?c; ?d; ?e; ?f; ?g; ?h]) with ([a; b] ++ [c; d; e; f; g; h]).
  rewrite of_bits_app. rewrite <- bits6, sx_all, sx_10 by done. done.
Qed.

Lemma decoded_4 v0 v1 v2 v3 vs :
  Forall is_sextet [v0; v1; v2; v3] ->
  base64_decoded (v0 :: v1 :: v2 :: v3 :: vs) = dec3 v0 v1 v2 v3 ++ base64_decoded vs.
Proof.
  intros H. inv_forall. unfold is_sextet in *. unfold base64_decoded.
  cbn [map mjoin list_join]. rewrite !bits6. cbn [app octets].
  rewrite oct_x, oct_y, oct_z by lia. done.
Qed.
Lemma decoded_2 v0 v1 :
  Forall is_sextet [v0; v1] -> base64_decoded [v0; v1] = [v0 * 4 + v1 / 16].
Proof.
  intros H. inv_forall. unfold is_sextet in *. unfold base64_decoded.
  cbn [map mjoin list_join]. rewrite !bits6. cbn [app octets].
  rewrite oct_x by lia. done.
Qed.
Lemma decoded_3 v0 v1 v2 :
  Forall is_sextet [v0; v1; v2] ->
  base64_decoded [v0; v1; v2] = [v0 * 4 + v1 / 16; v1 mod 16 * 16 + v2 / 4].
Proof.
  intros H. inv_forall. unfold is_sextet in *. unfold base64_decoded.
  cbn [map mjoin list_join]. rewrite !bits6. cbn [app octets].
  rewrite oct_x, oct_y by lia. done.
Qed.
Lemma decoded_app vs ws :
  Forall is_sextet vs -> len vs mod 4 = 0 ->
  base64_decoded (vs ++ ws) = decg (map alphabet vs) ++ base64_decoded ws.
Proof.
  revert vs. apply (list4_ind (fun vs => Forall is_sextet vs -> len vs mod 4 = 0 ->
    base64_decoded (vs ++ ws) = decg (map alphabet vs) ++ base64_decoded ws));
    [done|intros; discriminate..|].
  intros a b c d r IH Hv. rewrite !len_cons. intros Hm.
  assert (Hq : Forall is_sextet [a; b; c; d]) by (inv_forall; mk_forall).
  assert (Hr : Forall is_sextet r) by (by inv_forall).
  cbn [app]. rewrite decoded_4 by done. rewrite IH by (done || lia).
  cbn [map decg]. inv_forall. rewrite !idx_alphabet by done. by rewrite app_assoc.
Qed.
Lemma bytes_alphabet vs : Forall is_sextet vs -> bytes (map alphabet vs).
Proof.
  induction 1; [constructor|]. cbn [map]. constructor; [by apply alphabet_byte|done].
Qed.

(** padding is optional *)
Lemma decode_valid vs p rest out max_len :
  Forall is_sextet vs -> 4 <= len vs < 2 ^ 60 -> len vs mod 4 <> 1 ->
  p = [] \/ p = replicate (Z.to_nat ((- len vs) mod 4)) 61 ->
  bytes rest -> 0 <= max_len <= len out ->
  Base64_decode (map alphabet vs ++ p ++ rest) (len vs + len p) out max_len =
    let d := base64_decoded vs in
    if len d <=? max_len then Ok (0, d ++ drop (length d) out)
    else Ok (1, if (len d =? max_len + 1) && (len vs mod 4 =? 3)
                then take (length d - 1) d ++ drop (length d - 1) out else out).
Proof.
  intros Hv Hl Hm Hp Hr Ho.
  remember (len vs / 4) as k eqn:Ek.
  destruct (split_at vs (4 * k)) as (v1 & v2 & -> & Hv1); [lia|].
  rewrite len_app in *. pose proof (len_nonneg v2).
  rewrite map_app. rewrite decoded_app; [|by apply Forall_app in Hv as [? ?]|lia].
  apply Forall_app in Hv as [Hs1 Hs2].
  set (cs := map alphabet v1).
  assert (Hcs : len cs = 4 * k) by (unfold cs; rewrite len_map; lia).
  assert (Hbc : bytes cs) by (by apply bytes_alphabet).
  assert (Hd : len (decg cs) = 3 * k) by (rewrite len_decg; lia).
  assert (Hk : 1 <= k) by lia.
  assert (Hc : v2 = [] \/ (exists a b, v2 = [a; b]) \/ (exists a b c, v2 = [a; b; c])).
  { destruct v2 as [|a [|b [|c [|d v2]]]]; [by left|..].
    - change (len [a]) with 1 in *. lia.
    - right; left; eauto.
    - right; right; eauto.
    - rewrite !len_cons in *. pose proof (len_nonneg v2). lia. }
  cbv zeta.
  destruct Hc as [->|[(a & b & ->)|(a & b & c & ->)]].
  - change (len []) with 0 in *. change (base64_decoded []) with (@nil Z).
    cbn [map]. rewrite !app_nil_r, !Z.add_0_r in *.
    assert (p = []) as ->.
    { destruct Hp as [->| ->]; [done|]. rewrite Hv1. by replace ((- (4 * k)) mod 4) with 0 by lia. }
    change (len []) with 0. rewrite Z.add_0_r, Hv1, Hd. cbn [app].
    assert (Hlast : get cs (4 * k - 1) <> 61).
    { unfold cs. rewrite get_map by lia. apply alphabet_not_pad.
      apply Forall_get; [done|lia]. }
    destruct (Z.leb_spec (3 * k) max_len).
    + destruct (split_at out (3 * k)) as (o1 & o2 & -> & Ho1); [lia|].
      rewrite decode_full by (done || lia).
      rewrite drop_app_ge by (unfold len in *; lia).
      replace (length (decg cs) - length o1)%nat with 0%nat by (unfold len in *; lia). done.
    + rewrite decode_short; [|rewrite len_app; pose proof (len_nonneg rest); lia|lia|].
      * by replace (4 * k mod 4 =? 3) with false by lia; rewrite andb_false_r.
      * assert (dec_pad (cs ++ rest) (4 * k) = false) as ->.
        { unfold dec_pad. rewrite get_app_l by lia. lia. }
        cbn [Z.b2z]. lia.
  - change (len [a; b]) with 2 in *. rewrite decoded_2 by done. rewrite Hv1.
    inversion_clear Hs2 as [|? ? Ha Hs3]. inversion_clear Hs3 as [|? ? Hb _].
    assert (Hpp : (p = [] \/ p = [61; 61]) /\ bytes p).
    { split; [|destruct Hp as [->| ->]; [constructor|]; apply Forall_replicate; done].
      destruct Hp as [->| ->]; [by left|]. right. rewrite Hv1.
      by replace ((- (4 * k + 2)) mod 4) with 2 by lia. }
    destruct Hpp as [Hpp Hbp]. clear Hp.
    rewrite len_app, Hd. change (len [_]) with 1.
    assert (Hbytes : bytes (cs ++ alphabet a :: alphabet b :: p ++ rest)).
    { unfold bytes. apply Forall_app. split; [done|].
      repeat (apply Forall_cons_2; [by apply alphabet_byte|]). by apply Forall_app. }
    cbn [map]. rewrite <- app_assoc. cbn [app].
    assert (Hpad : dec_pad (cs ++ alphabet a :: alphabet b :: p ++ rest) (4 * k + 2 + len p) = true).
    { unfold dec_pad. destruct Hpp as [->| ->]; change (len []) with 0; change (len [61; 61]) with 2.
      - replace (negb _) with true by lia. lia.
      - rewrite get_app_r. 2: { rewrite !len_cons, len_app. change (len [61; 61]) with 2.
          pose proof (len_nonneg rest). lia. }
        rewrite Hcs. replace (4 * k + 2 + 2 - 1 - 4 * k) with 3 by lia.
        cbn [app]. change (get (_ :: _ :: _ :: 61 :: rest) 3) with 61.
        rewrite orb_true_r. lia. }
    assert (Hlp : 0 <= len p <= 2).
    { by destruct Hpp as [->| ->]. }
    assert (Hlen : 4 * k + 2 + len p <= len (cs ++ alphabet a :: alphabet b :: p ++ rest)).
    { rewrite len_app, !len_cons, len_app. pose proof (len_nonneg rest). lia. }
    destruct (Z.leb_spec (3 * k + 1) max_len).
    + destruct (split_at out (3 * k)) as (o1 & o2 & -> & Ho1); [lia|].
      rewrite len_app in Ho. destruct o2 as [|x o2]; [change (len []) with 0 in *; lia|].
      rewrite len_cons in Ho.
      rewrite (decode_padded cs _ _ (p ++ rest) _ o1 x o2 k); try done; try lia.
      cbv zeta. replace (_ && _) with false.
      2: { destruct Hpp as [->| ->]; change (len []) with 0; change (len [61; 61]) with 2.
           - lia.
           - cbn [app]. rewrite get_0. lia. }
      rewrite drop_app_ge by (rewrite app_length; unfold len in *; cbn; lia).
      rewrite app_length.
      replace (length (decg cs) + length [_] - length o1)%nat with 1%nat by (unfold len in *; cbn; lia).
      unfold dec_x. rewrite !idx_alphabet by done. rewrite <- app_assoc. done.
    + replace ((4 * k + 2) mod 4 =? 3) with false by lia. rewrite andb_false_r.
      rewrite decode_short; [done|lia|lia|]. rewrite Hpad. cbn [Z.b2z]. lia.
  - change (len [a; b; c]) with 3 in *. rewrite decoded_3 by done. rewrite Hv1.
    inversion_clear Hs2 as [|? ? Ha Hs3]. inversion_clear Hs3 as [|? ? Hb Hs4].
    inversion_clear Hs4 as [|? ? Hcc _].
    assert (Hpp : (p = [] \/ p = [61]) /\ bytes p).
    { split; [|destruct Hp as [->| ->]; [constructor|]; apply Forall_replicate; done].
      destruct Hp as [->| ->]; [by left|]. right. rewrite Hv1.
      by replace ((- (4 * k + 3)) mod 4) with 1 by lia. }
    destruct Hpp as [Hpp Hbp]. clear Hp.
    rewrite len_app, Hd. change (len [_; _]) with 2.
    assert (Hbytes : bytes (cs ++ alphabet a :: alphabet b :: alphabet c :: p ++ rest)).
    { unfold bytes. apply Forall_app. split; [done|].
      repeat (apply Forall_cons_2; [by apply alphabet_byte|]). by apply Forall_app. }
    cbn [map]. rewrite <- app_assoc. cbn [app].
    assert (Hpad : dec_pad (cs ++ alphabet a :: alphabet b :: alphabet c :: p ++ rest)
                     (4 * k + 3 + len p) = true).
    { unfold dec_pad. destruct Hpp as [->| ->]; change (len []) with 0; change (len [61]) with 1.
      - replace (negb _) with true by lia. lia.
      - rewrite get_app_r. 2: { rewrite !len_cons, len_app. change (len [61]) with 1.
          pose proof (len_nonneg rest). lia. }
        rewrite Hcs. replace (4 * k + 3 + 1 - 1 - 4 * k) with 3 by lia.
        cbn [app]. change (get (_ :: _ :: _ :: 61 :: rest) 3) with 61.
        rewrite orb_true_r. lia. }
    assert (Hlp : 0 <= len p <= 1).
    { by destruct Hpp as [->| ->]. }
    assert (Hlen : 4 * k + 3 + len p <= len (cs ++ alphabet a :: alphabet b :: alphabet c :: p ++ rest)).
    { rewrite len_app, !len_cons, len_app. pose proof (len_nonneg rest). lia. }
    pose proof (alphabet_not_pad c Hcc) as Hnp.
    destruct (Z.leb_spec (3 * k + 2) max_len).
    + destruct (split_at out (3 * k)) as (o1 & o2 & -> & Ho1); [lia|].
      rewrite len_app in Ho. destruct o2 as [|x [|y o2]];
        [change (len []) with 0 in *; lia|change (len [x]) with 1 in *; lia|].
      rewrite !len_cons in Ho.
      rewrite (decode_padded cs _ _ (alphabet c :: p ++ rest) _ o1 x (y :: o2) k);
        try done; rewrite ?len_cons; try lia.
      cbv zeta. rewrite get_0. replace (_ && _) with true by lia.
      replace (max_len =? 3 * k + 1) with false by lia.
      rewrite drop_app_ge by (rewrite app_length; unfold len in *; cbn; lia).
      rewrite app_length.
      replace (length (decg cs) + length [_; _] - length o1)%nat with 2%nat by (unfold len in *; cbn; lia).
      unfold dec_x, dec_y. rewrite !idx_alphabet by done. rewrite <- app_assoc. done.
    + replace ((4 * k + 3) mod 4 =? 3) with true by lia. rewrite andb_true_r.
      destruct (Z.eqb_spec (3 * k + 2) (max_len + 1)).
      * destruct (split_at out (3 * k)) as (o1 & o2 & -> & Ho1); [lia|].
        rewrite len_app in Ho. destruct o2 as [|x o2];
          [change (len []) with 0 in *; lia|].
        rewrite !len_cons in Ho. pose proof (len_nonneg o2).
        rewrite (decode_padded cs _ _ (alphabet c :: p ++ rest) _ o1 x o2 k);
          try done; rewrite ?len_cons; try lia.
        cbv zeta. rewrite get_0. replace (_ && _) with true by lia.
        replace (max_len =? 3 * k + 1) with true by lia.
        rewrite app_length. cbn [length].
        replace (length (decg cs) + 2 - 1)%nat with (length (decg cs) + 1)%nat by lia.
        rewrite take_add_app by done. cbn [take].
        rewrite drop_app_ge by (unfold len in *; cbn; lia).
        replace (length (decg cs) + 1 - length o1)%nat with 1%nat by (unfold len in *; cbn; lia).
        unfold dec_x. rewrite !idx_alphabet by done. rewrite <- app_assoc. done.
      * rewrite decode_short; [done|lia|lia|]. rewrite Hpad. cbn [Z.b2z]. lia.
Qed.

Lemma list6_ind (P : list bool -> Prop) :
  (forall l, (length l < 6)%nat -> P l) ->
  (forall a b c d e f r, P r -> P (a :: b :: c :: d :: e :: f :: r)) -> forall l, P l.
Proof.
  intros H0 H6 l. remember (length l) as n eqn:En. revert l En.
  induction n as [n IH] using lt_wf_ind. intros l ->.
  destruct l as [|a [|b [|c [|d [|e [|f l]]]]]]; [apply H0; cbn; lia..|].
  apply H6. apply (IH (length l)); [cbn; lia|done].
Qed.
Lemma of_bits6 a b c d e f : is_sextet (of_bits [a; b; c; d; e; f]) /\
  bits 6 (of_bits [a; b; c; d; e; f]) = [a; b; c; d; e; f].
Proof.
  unfold is_sextet. destruct a, b, c, d, e, f; (split; [by vm_compute|reflexivity]).
Qed.
Lemma sextets_short bs : (0 < length bs < 6)%nat ->
  exists a b c d e f, sextets bs = [of_bits [a; b; c; d; e; f]] /\
    [a; b; c; d; e; f] = bs ++ replicate (6 - length bs) false.
Proof.
  intros H. destruct bs as [|a [|b [|c [|d [|e [|f bs]]]]]]; cbn in H; try lia.
  - exists a, false, false, false, false, false. done.
  - exists a, b, false, false, false, false. done.
  - exists a, b, c, false, false, false. done.
  - exists a, b, c, d, false, false. done.
  - exists a, b, c, d, e, false. done.
Qed.
Lemma sextets_range bs : Forall is_sextet (sextets bs).
Proof.
  revert bs. apply list6_ind.
  - intros bs H. destruct (decide (length bs = 0%nat)) as [H0|].
    { destruct bs; [constructor|done]. }
    destruct (sextets_short bs) as (a & b & c & d & e & f & -> & _); [lia|].
    constructor; [apply of_bits6|constructor].
  - intros a b c d e f r IH. cbn [sextets]. constructor; [apply of_bits6|done].
Qed.
Lemma mjoin_cons {A} (x : list A) l : mjoin (x :: l) = x ++ mjoin l.
Proof. done. Qed.
Lemma sextets_bits bs :
  exists z, mjoin (map (bits 6) (sextets bs)) = bs ++ replicate z false /\ (z < 6)%nat /\
    len (sextets bs) = (len bs + 5) / 6.
Proof.
  revert bs. apply list6_ind.
  - intros bs H. destruct (decide (length bs = 0%nat)) as [H0|].
    { destruct bs; [|done]. exists 0%nat. done. }
    destruct (sextets_short bs) as (a & b & c & d & e & f & -> & E); [lia|].
    exists (6 - length bs)%nat. rewrite <- E. cbn [map mjoin list_join].
    rewrite (proj2 (of_bits6 a b c d e f)). split; [done|]. split; [lia|].
    change (len [_]) with 1. unfold len. lia.
  - intros a b c d e f r (z & E & Hz & Hl). exists z. cbn [sextets map]. rewrite mjoin_cons.
    rewrite (proj2 (of_bits6 a b c d e f)).
    rewrite E. split; [done|]. split; [done|].
    rewrite !len_cons, Hl. lia.
Qed.
Lemma octet_bits a bs : is_byte a -> octets (bits 8 a ++ bs) = a :: octets bs.
Proof.
  intros H. rewrite bits8. cbn [app octets]. f_equal.
  rewrite <- bits8. apply Z.eqb_eq. revert a H.
  apply (check_range (fun a => of_bits (bits 8 a) =? a)). by vm_compute.
Qed.
Lemma octets_bits data z :
  bytes data -> (z < 8)%nat ->
  octets (mjoin (map (bits 8) data) ++ replicate z false) = data.
Proof.
  intros Hb Hz. induction Hb as [|a data Ha Hb IH].
  - do 8 (destruct z as [|z]; [done|]). lia.
  - cbn [map]. rewrite mjoin_cons, <- app_assoc, octet_bits by done.
    by rewrite IH.
Qed.
Lemma len_bits8 data : len (mjoin (map (bits 8) data)) = 8 * len data.
Proof.
  induction data as [|a data IH]; [done|].
  cbn [map]. rewrite mjoin_cons.
  rewrite len_app, IH, len_cons. change (len (bits 8 a)) with 8. lia.
Qed.
Definition values (data : list Z) : list Z := sextets (mjoin (map (bits 8) data)).
Lemma values_decoded data : bytes data -> base64_decoded (values data) = data.
Proof.
  intros Hb. unfold base64_decoded, values.
  destruct (sextets_bits (mjoin (map (bits 8) data))) as (z & -> & Hz & _).
  apply octets_bits; [done|lia].
Qed.
Lemma len_values data : len (values data) = (8 * len data + 5) / 6.
Proof.
  unfold values. destruct (sextets_bits (mjoin (map (bits 8) data))) as (z & _ & _ & ->).
  by rewrite len_bits8.
Qed.
Lemma base64_values data :
  base64 data = map alphabet (values data) ++ replicate (Z.to_nat ((- len (values data)) mod 4)) 61.
Proof. unfold base64, base64_unpadded, pad. rewrite len_map. done. Qed.

(** decoding the encoding, with room for [max_len] bytes *)
Lemma decode_base64 data rest out max_len :
  bytes data -> 3 <= len data < 2 ^ 59 -> bytes rest -> len data <= max_len <= len out ->
  Base64_decode (base64 data ++ rest) (len (base64 data)) out max_len
  = Ok (0, data ++ drop (length data) out).
Proof.
  intros Hb Hl Hr Hm. rewrite base64_values, <- app_assoc, len_app, len_map.
  rewrite decode_valid; [|apply sextets_range|rewrite len_values; lia|rewrite len_values; lia
    |by right|done|lia].
  rewrite values_decoded by done. cbv zeta. replace (len data <=? max_len) with true by lia. done.
Qed.
Lemma bytes_base64 data : bytes (base64 data).
Proof.
  rewrite base64_values. unfold bytes. apply Forall_app. split.
  - apply bytes_alphabet, sextets_range.
  - by apply Forall_replicate.
Qed.
Lemma decode_base64_short data rest out max_len :
  bytes data -> len data < 3 ->
  Base64_decode (base64 data ++ rest) (len (base64 data)) out max_len = Ok (1, out).
Proof.
  intros Hb Hl. pose proof (len_nonneg data). pose proof (len_nonneg rest).
  assert (Hlb : len (base64 data) = 4 * ((len data + 2) / 3)) by (by apply len_base64).
  apply decode_short; [rewrite len_app; lia|lia|]. right.
  destruct data as [|a [|b [|c data]]]; [done|..].
  - unfold bytes in Hb. inv_forall. rewrite base64_1 by done. done.
  - unfold bytes in Hb. inv_forall. rewrite base64_2 by done. done.
  - rewrite !len_cons in Hl. pose proof (len_nonneg data). lia.
Qed.

(** ** The encoder's outcomes *)

Lemma store_split {A} (l1 l2 : list A) w y :
  len l1 = w -> 0 < len l2 -> store (l1 ++ l2) w y = Ok (l1 ++ y :: drop 1 l2).
Proof.
  intros <- H. destruct l2 as [|x l2]; [done|]. cbn [drop]. rewrite drop_0. by apply store_app.
Qed.
Lemma encode_result data rest result max_len w :
  bytes data -> len data < 2 ^ 62 -> 0 <= max_len ->
  w = Z.min (4 * ((len data + 2) / 3)) (4 * (max_len / 4)) ->
  w < len result ->
  Base64_encode (data ++ rest) (len data) result max_len
  = Ok (if 4 * ((len data + 2) / 3) <=? max_len then 0 else 1,
        take (Z.to_nat w) (base64 data) ++ 0 :: drop (Z.to_nat (w + 1)) result).
Proof.
  intros Hb Hn Hm Hw Hr. pose proof (len_nonneg data). rewrite (encode_ok _ _ _ _ w) by (done || lia).
  rewrite store_split.
  - cbn [bind]. rewrite drop_drop. by replace (Z.to_nat w + 1)%nat with (Z.to_nat (w + 1)) by lia.
  - rewrite len_take, len_base64 by done. lia.
  - rewrite len_drop. lia.
Qed.
Lemma encode_nul_oob data rest result max_len w :
  bytes data -> len data < 2 ^ 62 -> 0 <= max_len ->
  w = Z.min (4 * ((len data + 2) / 3)) (4 * (max_len / 4)) ->
  w = len result ->
  Base64_encode (data ++ rest) (len data) result max_len = UB OutOfBounds.
Proof.
  intros Hb Hn Hm Hw Hr. pose proof (len_nonneg data). rewrite (encode_ok _ _ _ _ w) by (done || lia).
  rewrite store_oob; [done|]. rewrite len_app, len_take, len_drop, len_base64 by done. lia.
Qed.

Lemma encode_success data rest result max_len :
  bytes data -> len data < 2 ^ 62 -> 0 <= max_len ->
  len (base64 data) <= max_len -> len (base64 data) < len result ->
  Base64_encode (data ++ rest) (len data) result max_len
  = Ok (0, base64 data ++ 0 :: drop (S (length (base64 data))) result).
Proof.
  intros Hb Hn Hm Hl Hr. pose proof (len_nonneg data). pose proof (len_base64 data Hb) as Hlb.
  rewrite (encode_result _ _ _ _ (len (base64 data))); [|done|lia|lia|lia|done].
  replace (_ <=? max_len) with true by lia.
  rewrite take_ge by (unfold len; lia).
  by replace (Z.to_nat (len (base64 data) + 1)) with (S (length (base64 data))) by (unfold len; lia).
Qed.
Lemma encode_failure data rest result max_len :
  bytes data -> len data < 2 ^ 62 -> 0 <= max_len ->
  max_len < len (base64 data) -> 4 * (max_len / 4) < len result ->
  Base64_encode (data ++ rest) (len data) result max_len
  = Ok (1, take (Z.to_nat (4 * (max_len / 4))) (base64 data)
           ++ 0 :: drop (S (Z.to_nat (4 * (max_len / 4)))) result).
Proof.
  intros Hb Hn Hm Hl Hr. pose proof (len_nonneg data). pose proof (len_base64 data Hb) as Hlb.
  rewrite (encode_result _ _ _ _ (4 * (max_len / 4))); [|done|lia|lia|lia|done].
  replace (_ <=? max_len) with false by lia.
  by replace (Z.to_nat (4 * (max_len / 4) + 1)) with (S (Z.to_nat (4 * (max_len / 4)))) by lia.
Qed.

(** a buffer of [max_len + 1] bytes is always enough; what lies beyond stays *)
Lemma encode_safe data rest result max_len :
  bytes data -> len data < 2 ^ 62 -> 0 <= max_len -> max_len < len result ->
  exists st result',
    Base64_encode (data ++ rest) (len data) result max_len = Ok (st, result') /\
    (st = 0 <-> len (base64 data) <= max_len) /\ (st = 0 \/ st = 1) /\
    len result' = len result /\
    drop (Z.to_nat (max_len + 1)) result' = drop (Z.to_nat (max_len + 1)) result.
Proof.
  intros Hb Hn Hm Hr. pose proof (len_nonneg data). pose proof (len_base64 data Hb) as Hlb.
  set (w := Z.min (4 * ((len data + 2) / 3)) (4 * (max_len / 4))).
  assert (Hw : 0 <= w <= max_len /\ w <= len (base64 data)) by lia.
  rewrite (encode_result _ _ _ _ w) by (done || lia).
  do 2 eexists. split; [reflexivity|]. rewrite Hlb.
  split; [|split].
  - destruct (Z.leb_spec (4 * ((len data + 2) / 3)) max_len); lia.
  - destruct (_ <=? _); lia.
  - clearbody w. assert (Hlt : len (take (Z.to_nat w) (base64 data)) = w) by (rewrite len_take; lia).
    split; [rewrite len_app, len_cons, len_drop; lia|].
    rewrite drop_app_len by lia.
    replace (Z.to_nat (max_len + 1 - _)) with (S (Z.to_nat (max_len - w))) by lia.
    cbn [drop]. rewrite drop_drop. f_equal. lia.
Qed.

(** encode, then decode *)
Lemma roundtrip data result out max_res max_out :
  bytes data -> 3 <= len data < 2 ^ 59 ->
  len (base64 data) <= max_res < len result -> bytes result ->
  len data <= max_out <= len out ->
  exists result', Base64_encode data (len data) result max_res = Ok (0, result') /\
    Base64_decode result' (len (base64 data)) out max_out
    = Ok (0, data ++ drop (length data) out).
Proof.
  intros Hb Hl Hr Hbr Ho. pose proof (len_nonneg (base64 data)). pose proof (encode_success data [] result max_res) as E. rewrite app_nil_r in E.
  rewrite E by (done || lia).
  eexists. split; [reflexivity|]. apply decode_base64; [done|lia| |lia].
  apply Forall_cons_2; [done|]. by apply Forall_drop.
Qed.
Lemma roundtrip_short data result out max_res max_out :
  bytes data -> len data < 3 ->
  len (base64 data) <= max_res < len result ->
  exists result', Base64_encode data (len data) result max_res = Ok (0, result') /\
    Base64_decode result' (len (base64 data)) out max_out = Ok (1, out).
Proof.
  intros Hb Hl Hr. pose proof (len_nonneg (base64 data)). pose proof (encode_success data [] result max_res) as E. rewrite app_nil_r in E.
  rewrite E by (done || lia).
  eexists. split; [reflexivity|]. by apply decode_base64_short.
Qed.

Lemma encode_exact_buffer data rest result :
  bytes data -> len data < 2 ^ 62 -> len result = len (base64 data) ->
  Base64_encode (data ++ rest) (len data) result (len result) = UB OutOfBounds.
Proof.
  intros Hb Hn Hr. pose proof (len_nonneg data). pose proof (len_base64 data Hb) as Hlb.
  apply encode_nul_oob with (len result); (done || lia).
Qed.
Lemma encode_within_limit_refuted :
  exists data result, bytes data /\
    Base64_encode data (len data) result (len result) = UB OutOfBounds.
Proof. exists [77; 97; 110], [0; 0; 0; 0]. split; [repeat constructor; done|]. by vm_compute. Qed.
Lemma decode_reads_inside_refuted :
  exists inb out, bytes inb /\
    Base64_decode inb (len inb) out (len out) = UB OutOfBounds.
Proof.
  exists [77; 97; 110; 77; 97], [0; 0; 0; 0]. split; [repeat constructor; done|]. by vm_compute.
Qed.
Lemma roundtrip_refuted :
  exists data result out r', bytes data /\
    Base64_encode data (len data) result 8 = Ok (0, r') /\
    Base64_decode r' (len (base64 data)) out (len out) = Ok (1, out).
Proof.
  exists [77; 97], (replicate 9 0), (replicate 8 0), [84; 87; 69; 61; 0; 0; 0; 0; 0].
  split; [repeat constructor; done|]. by vm_compute.
Qed.
Lemma decode_no_validation text rest o1 o2 max_len :
  bytes text -> 4 <= len text < 2 ^ 62 -> len text mod 4 = 0 ->
  get text (len text - 1) <> 61 ->
  len o1 = 3 * (len text / 4) -> len o1 <= max_len ->
  exists d, Base64_decode (text ++ rest) (len text) (o1 ++ o2) max_len = Ok (0, d ++ o2).
Proof.
  intros Hb Hl Hm Hg Ho Hx. remember (len text / 4) as k eqn:Ek.
  assert (E : len text = 4 * k) by lia. rewrite E in *.
  rewrite (decode_full text rest o1 o2 k) by (done || lia). eauto.
Qed.
Lemma decode_malformed_refuted :
  exists text out out', bytes text /\ ~ Forall (fun c => exists v, is_sextet v /\ c = alphabet v) text /\
    ~ In 61 text /\ Base64_decode text (len text) out (len out) = Ok (0, out').
Proof.
  exists [33; 33; 33; 33], [9; 9; 9], [0; 0; 0]. split; [repeat constructor; done|].
  split; [|split; [|by vm_compute]].
  - intros H. inversion_clear H as [|? ? (v & Hv & E) _].
    pose proof (idx_alphabet v Hv) as Hi. rewrite <- E in Hi. vm_compute in Hi. by subst v.
  - cbn. intuition lia.
Qed.
