(** * CRC tables and registers are remainders *)
From Verif Require Import CSem Lib Model_Utils Model_Crc Spec_Utils Spec_Crc Proof_Utils Proof_Gf2 Proof_Crc.

(** a generator of degree [w] and its table *)
Definition gen_ok (w p : Z) : Prop := 8 <= w /\ 0 <= p < 2 ^ w.
Definition table_for (w p : Z) (t : list Z) : Prop :=
  len t = 256 /\ forall i, 0 <= i < 256 -> remainder w (2 ^ w + p) (i * 2 ^ w) (get t i).

Lemma gen_bound w p : gen_ok w p -> 2 ^ w <= 2 ^ w + p < 2 ^ (w + 1).
Proof. intros [? ?]. rewrite Z.pow_add_r by lia. lia. Qed.
Lemma gen_lxor w p : gen_ok w p -> 2 ^ w + p = Z.lxor (2 ^ w) p.
Proof.
  intros [? ?]. pose proof (add_lxor 1 p w ltac:(lia) ltac:(lia)) as H1.
  by rewrite !Z.mul_1_l in H1.
Qed.
Lemma gen_cong w p : gen_ok w p -> cong (2 ^ w + p) (2 ^ w) p.
Proof. intros H. exists 1. split; [lia|]. rewrite mul_1_l. symmetry. by apply gen_lxor. Qed.

Lemma table_for_table w p t : table_for w p t -> table w t.
Proof.
  intros [Hl Ht]. split; [done|]. apply Forall_get_2. intros i Hi.
  destruct (Ht i) as [H _]; [lia|done].
Qed.
Lemma table_for_unique w p t u : gen_ok w p -> table_for w p t -> table_for w p u -> t = u.
Proof.
  intros Hg [Hl Ht] [Hm Hu]. apply get_ext; [lia|]. intros i Hi.
  apply (remainder_unique w (2 ^ w + p) (i * 2 ^ w)); [destruct Hg; lia|by apply gen_bound|apply Ht; lia|apply Hu; lia].
Qed.

(** one step of the division: [r] times x *)
Definition double (w p r : Z) : Z :=
  if Z.testbit r (w - 1) then Z.lxor (2 * r) (2 ^ w + p) else 2 * r.
Lemma testbit_top w r : 1 <= w -> 0 <= r < 2 ^ w -> Z.testbit r (w - 1) = (2 ^ (w - 1) <=? r).
Proof.
  intros Hw Hr. assert (2 ^ w = 2 * 2 ^ (w - 1)) as E.
  { replace w with (1 + (w - 1)) at 1 by lia. rewrite Z.pow_add_r by lia. done. }
  assert (0 < 2 ^ (w - 1)) by (apply Z.pow_pos_nonneg; lia).
  destruct (Z.leb_spec (2 ^ (w - 1)) r).
  - replace r with (1 * 2 ^ (w - 1) + (r - 2 ^ (w - 1))) by lia.
    rewrite add_lxor by lia. rewrite Z.lxor_spec, (testbit_small (r - _) (w - 1)) by lia.
    rewrite Z.mul_1_l, Z.pow2_bits_true by lia. done.
  - apply (testbit_small r (w - 1)); lia.
Qed.
Lemma double_ok w p r : gen_ok w p -> 0 <= r < 2 ^ w ->
  0 <= double w p r < 2 ^ w /\ cong (2 ^ w + p) (r * 2) (double w p r) /\
  double w p r = Z.lxor ((2 * r) mod 2 ^ w) (if Z.testbit r (w - 1) then p else 0).
Proof.
  intros Hg Hr. pose proof Hg as [Hw Hp].
  assert (2 ^ w = 2 * 2 ^ (w - 1)) as E.
  { replace w with (1 + (w - 1)) at 1 by lia. rewrite Z.pow_add_r by lia. done. }
  unfold double. rewrite testbit_top by lia. destruct (Z.leb_spec (2 ^ (w - 1)) r).
  - assert (Z.lxor (2 * r) (2 ^ w + p) = Z.lxor (2 * r - 2 ^ w) p) as E1.
    { replace (2 * r) with (1 * 2 ^ w + (2 * r - 2 ^ w)) at 1 by lia.
      rewrite add_lxor by lia. rewrite gen_lxor by done. rewrite Z.mul_1_l, lxor_swap.
      by rewrite Z.lxor_nilpotent, Z.lxor_0_l. }
    assert ((2 * r) mod 2 ^ w = 2 * r - 2 ^ w) as ->.
    { symmetry. apply (Z.mod_unique_pos _ _ 1); lia. }
    rewrite E1. split; [apply lxor_bound; lia|]. split; [|done]. rewrite <- E1.
    exists 1. split; [lia|]. rewrite mul_1_l. replace (r * 2) with (2 * r) by lia.
    by rewrite <- Z.lxor_assoc, Z.lxor_nilpotent, Z.lxor_0_l.
  - rewrite Z.mod_small by lia. rewrite Z.lxor_0_r. split; [lia|]. split; [|done].
    replace (r * 2) with (2 * r) by lia. apply cong_refl.
Qed.

(** the table built by doubling *)
Definition expand (w p : Z) (l : list Z) : list Z :=
  flat_map (fun x => let y := double w p x in [y; Z.lxor y p]) l.
Definition gen_table (w p : Z) : list Z := Nat.iter 8 (expand w p) [0].

Lemma len_expand w p l : len (expand w p l) = 2 * len l.
Proof. unfold expand, len. induction l; cbn [flat_map app length]; lia. Qed.
Lemma get_expand w p l i : 0 <= i < 2 * len l ->
  get (expand w p l) i
  = (let y := double w p (get l (i / 2)) in if Z.even i then y else Z.lxor y p).
Proof.
  revert i. induction l as [|x l IH]; intros i Hi; [change (len (@nil Z)) with 0 in Hi; lia|].
  change (expand w p (x :: l)) with ([double w p x; Z.lxor (double w p x) p] ++ expand w p l).
  rewrite len_cons in Hi.
  destruct (Z.eq_dec i 0) as [->|]; [done|]. destruct (Z.eq_dec i 1) as [->|]; [done|].
  rewrite get_app_r by (rewrite len_expand, !len_cons; change (len (@nil Z)) with 0; lia).
  change (len [_; _]) with 2.
  rewrite IH by lia. rewrite (get_cons _ _ (i / 2)) by lia.
  replace (i / 2 =? 0) with false by lia.
  replace ((i - 2) / 2) with (i / 2 - 1) by lia.
  replace (Z.even (i - 2)) with (Z.even i); [done|].
  rewrite Z.even_sub. by destruct (Z.even i).
Qed.
Lemma iter_table w p n : gen_ok w p ->
  len (Nat.iter n (expand w p) [0]) = 2 ^ Z.of_nat n /\
  forall i, 0 <= i < 2 ^ Z.of_nat n ->
    0 <= get (Nat.iter n (expand w p) [0]) i < 2 ^ w /\
    cong (2 ^ w + p) (i * 2 ^ w) (get (Nat.iter n (expand w p) [0]) i).
Proof.
  intros Hg. induction n as [|n [IL IH]].
  - split; [done|]. intros i Hi. assert (i = 0) as -> by (change (2 ^ Z.of_nat 0) with 1 in Hi; lia).
    change (get (Nat.iter 0 (expand w p) [0]) 0) with 0.
    split; [split; [done|apply Z.pow_pos_nonneg; destruct Hg; lia]|apply cong_refl].
  - change (Nat.iter (S n) (expand w p) [0]) with (expand w p (Nat.iter n (expand w p) [0])).
    remember (Nat.iter n (expand w p) [0]) as l.
    rewrite Nat2Z.inj_succ, Z.pow_succ_r by lia. split; [rewrite len_expand, IL; done|].
    intros i Hi. rewrite get_expand by lia. cbn zeta.
    destruct (IH (i / 2) ltac:(lia)) as [B C]. destruct (double_ok w p _ Hg B) as (B2 & C2 & _).
    remember (double w p (get l (i / 2))) as y.
    assert (cong (2 ^ w + p) (i / 2 * 2 * 2 ^ w) y) as C3.
    { eapply cong_trans; [|exact C2].
      replace (i / 2 * 2 * 2 ^ w) with (i / 2 * 2 ^ w * 2 ^ 1) by lia.
      replace (get l (i / 2) * 2) with (get l (i / 2) * 2 ^ 1) by lia. apply cong_shift; [lia|done]. }
    destruct (Z.even i) eqn:Ev.
    + split; [done|]. rewrite Z.even_spec in Ev. destruct Ev as [k ->].
      by replace (2 * k / 2 * 2) with (2 * k) in C3 by lia.
    + pose proof Hg as [Hw Hp]. split; [apply lxor_bound; [lia|done|done]|].
      assert (Z.odd i = true) as Od by (rewrite <- Z.negb_even, Ev; done).
      rewrite Z.odd_spec in Od. destruct Od as [k ->].
      replace ((2 * k + 1) / 2 * 2) with (2 * k) in C3 by lia.
      rewrite <- lxor_double_1. rewrite <- lxor_pow2 by lia. rewrite Z.mul_1_l.
      apply cong_lxor; [done|by apply gen_cong].
Qed.
Lemma gen_table_ok w p : gen_ok w p -> table_for w p (gen_table w p).
Proof.
  intros Hg. destruct (iter_table w p 8 Hg) as [Hl H]. split; [exact Hl|].
  intros i Hi. apply remainder_cong. by apply H.
Qed.

(** ** The table calculators *)

Lemma calculator w p old rest body :
  gen_ok w p -> len old = 256 ->
  (forall i r, 0 <= r < 2 ^ w -> body i r = Ok (double w p r)) ->
  exists t, cfor 0 256 (fun d t => let! r := cfor 0 8 body (d * 2 ^ (w - 8)) in store t d r)
              (old ++ rest)
            = Ok (t ++ rest) /\ table_for w p t.
Proof.
  intros Hg Hl Hbody. pose proof Hg as [Hw Hp].
  assert (2 ^ w = 2 ^ (w - 8) * 256) as E.
  { replace w with ((w - 8) + 8) at 1 by lia. rewrite Z.pow_add_r by lia. done. }
  assert (0 < 2 ^ (w - 8)) by (apply Z.pow_pos_nonneg; lia).
  assert (forall d, 0 <= d < 256 -> exists r, cfor 0 8 body (d * 2 ^ (w - 8)) = Ok r /\
    remainder w (2 ^ w + p) (d * 2 ^ w) r) as Hin.
  { intros d Hd.
    destruct (cfor_rule (fun i r => 0 <= r < 2 ^ w /\ cong (2 ^ w + p) (d * 2 ^ (w - 8) * 2 ^ i) r)
      0 8 body (d * 2 ^ (w - 8))) as (r & -> & Hr & Hc); [lia| | |].
    - split; [nia|]. rewrite Z.mul_1_r. apply cong_refl.
    - intros i r Hi [Hr Hc]. destruct (double_ok w p r Hg Hr) as (B & C & _).
      exists (double w p r). split; [by apply Hbody|]. split; [done|].
      eapply cong_trans; [|exact C]. rewrite Z.pow_add_r, Z.mul_assoc by lia.
      apply (cong_shift _ _ _ 1); [lia|done].
    - exists r. split; [done|]. apply remainder_cong. split; [done|].
      by replace (d * 2 ^ (w - 8) * 2 ^ 8) with (d * 2 ^ w) in Hc by lia. }
  destruct (cfor_rule (fun n s => exists t, s = t ++ rest /\ len t = 256 /\
      forall i, 0 <= i < n -> remainder w (2 ^ w + p) (i * 2 ^ w) (get t i)) 0 256
      (fun d t => let! r := cfor 0 8 body (d * 2 ^ (w - 8)) in store t d r) (old ++ rest))
    as (s & -> & t & -> & HL & Ht); [lia|exists old; by split; [done|split; [done|lia]]| |].
  - intros d s Hd (t & -> & HL & Ht). destruct (Hin d Hd) as (r & -> & Hr). cbn [bind].
    rewrite store_ok by (rewrite len_app; pose proof (len_nonneg rest); lia). eexists.
    split; [done|]. exists (<[Z.to_nat d:=r]> t).
    split; [apply insert_app_l; unfold len in HL; lia|]. split; [by rewrite len_insert|].
    intros i Hi. destruct (Z.eq_dec i d) as [->|].
    + by rewrite get_insert_eq by lia.
    + rewrite get_insert_ne by lia. apply Ht. lia.
  - exists t. done.
Qed.

Lemma land_pow2 r k : 0 <= k -> (Z.land r (2 ^ k) =? 0) = negb (Z.testbit r k).
Proof.
  intros Hk. assert (Z.land r (2 ^ k) = if Z.testbit r k then 2 ^ k else 0) as ->.
  { apply bits_ext. intros n Hn. rewrite Z.land_spec, Z.pow2_bits_eqb by done.
    destruct (Z.eqb_spec k n) as [->|].
    - rewrite andb_true_r. destruct (Z.testbit r n); [by rewrite Z.pow2_bits_true|by rewrite Z.bits_0].
    - rewrite andb_false_r. destruct (Z.testbit r k); [by rewrite Z.pow2_bits_false|by rewrite Z.bits_0]. }
  destruct (Z.testbit r k); [|done]. apply Z.eqb_neq.
  assert (0 < 2 ^ k) by (apply Z.pow_pos_nonneg; lia). cbn. lia.
Qed.
Lemma lxor_mod a b w : 0 <= w -> 0 <= b < 2 ^ w ->
  (Z.lxor a b) mod 2 ^ w = Z.lxor (a mod 2 ^ w) b.
Proof.
  intros Hw Hb. apply bits_ext. intros n Hn. destruct (Z.lt_ge_cases n w).
  - by rewrite Z.mod_pow2_bits_low, !Z.lxor_spec, Z.mod_pow2_bits_low by lia.
  - rewrite Z.mod_pow2_bits_high, Z.lxor_spec, Z.mod_pow2_bits_high by lia.
    by rewrite (testbit_small b w) by lia.
Qed.
Lemma double_model w p r : gen_ok w p -> 0 <= r < 2 ^ w ->
  (if Z.land r (2 ^ (w - 1)) =? 0 then (Z.shiftl r 1) mod 2 ^ w
   else Z.lxor ((Z.shiftl r 1) mod 2 ^ w) p) = double w p r.
Proof.
  intros Hg Hr. destruct (double_ok w p r Hg Hr) as (_ & _ & ->).
  pose proof Hg as [Hw Hp]. rewrite land_pow2 by lia. rewrite Z.shiftl_mul_pow2 by lia.
  rewrite Z.mul_comm. change (2 ^ 1) with 2.
  destruct (Z.testbit r (w - 1)); cbn [negb]; [done|by rewrite Z.lxor_0_r].
Qed.

Lemma calculator8 p old rest : 0 <= p < 2 ^ 8 -> len old = 256 ->
  exists t, Crc8Base_tableCalculator p (old ++ rest) = Ok (t ++ rest) /\ table_for 8 p t.
Proof.
  intros Hp Hl. assert (gen_ok 8 p) as Hg by (split; lia).
  destruct (calculator 8 p old rest (fun _ residue =>
     if Z.land residue 128 =? 0 then Ok (u8 (Z.shiftl residue 1))
     else Ok (u8 (Z.lxor (Z.shiftl residue 1) p))) Hg Hl) as (t & E & Ht).
  - intros _ r Hr. rewrite <- double_model by done. unfold u8. rewrite lxor_mod by lia.
    change (2 ^ (8 - 1)) with 128. by destruct (Z.land r 128 =? 0).
  - exists t. split; [|done]. rewrite <- E. unfold Crc8Base_tableCalculator. apply cfor_ext.
    intros d s Hd. change (2 ^ (8 - 8)) with 1. rewrite Z.mul_1_r.
    unfold u8 at 3. by rewrite Z.mod_small by lia.
Qed.
Lemma calculator16 p old rest : 0 <= p < 2 ^ 16 -> len old = 256 ->
  exists t, Crc16Base_tableCalculator p (old ++ rest) = Ok (t ++ rest) /\ table_for 16 p t.
Proof.
  intros Hp Hl. assert (gen_ok 16 p) as Hg by (split; lia).
  destruct (calculator 16 p old rest (fun _ residue =>
     if Z.land residue 32768 =? 0 then Ok (u16 (Z.shiftl residue 1))
     else Ok (u16 (Z.lxor (Z.shiftl residue 1) p))) Hg Hl) as (t & E & Ht).
  - intros _ r Hr. rewrite <- double_model by done. unfold u16. rewrite lxor_mod by lia.
    change (2 ^ (16 - 1)) with 32768. by destruct (Z.land r 32768 =? 0).
  - exists t. split; [|done]. rewrite <- E. unfold Crc16Base_tableCalculator. apply cfor_ext.
    intros d s Hd. rewrite Z.shiftl_mul_pow2 by lia. change (2 ^ (16 - 8)) with (2 ^ 8).
    assert (u16 (u32 (d * 2 ^ 8)) = d * 2 ^ 8) as ->; [|done].
    unfold u16, u32. rewrite !Z.mod_small; lia.
Qed.
Lemma calculator32 p old rest : 0 <= p < 2 ^ 32 -> len old = 256 ->
  exists t, Crc32Base_tableCalculator p (old ++ rest) = Ok (t ++ rest) /\ table_for 32 p t.
Proof.
  intros Hp Hl. assert (gen_ok 32 p) as Hg by (split; lia).
  destruct (calculator 32 p old rest (fun _ residue =>
     if Z.land residue 2147483648 =? 0 then Ok (u32 (Z.shiftl residue 1))
     else Ok (Z.lxor (u32 (Z.shiftl residue 1)) p)) Hg Hl) as (t & E & Ht).
  - intros _ r Hr. rewrite <- double_model by done. unfold u32.
    change (2 ^ (32 - 1)) with 2147483648. by destruct (Z.land r 2147483648 =? 0).
  - exists t. split; [|done]. rewrite <- E. unfold Crc32Base_tableCalculator. apply cfor_ext.
    intros d s Hd. rewrite Z.shiftl_mul_pow2 by lia. change (2 ^ (32 - 8)) with (2 ^ 24).
    assert (u32 (d * 2 ^ 24) = d * 2 ^ 24) as ->; [|done].
    unfold u32. rewrite !Z.mod_small; lia.
Qed.

(** ** The register is the remainder of what was fed *)

Definition in_bits (refin : bool) (msg : list Z) : list bool :=
  concat (map (fun b => if refin then rev (bits_of 8 b) else bits_of 8 b) msg).
Lemma in_bits_snoc r msg c :
  in_bits r (msg ++ [c]) = in_bits r msg ++ (if r then rev (bits_of 8 c) else bits_of 8 c).
Proof. unfold in_bits. rewrite map_app, concat_app. cbn [map concat]. by rewrite app_nil_r. Qed.
Lemma len_in_byte (r : bool) c : len (if r then rev (bits_of 8 c) else bits_of 8 c) = 8.
Proof. unfold len. destruct r; rewrite ?rev_length, bits_of_length; done. Qed.
Lemma len_in_bits r msg : len (in_bits r msg) = 8 * len msg.
Proof.
  induction msg as [|c msg IH] using rev_ind; [done|].
  rewrite in_bits_snoc, !len_app, len_in_byte, IH. change (len [c]) with 1. lia.
Qed.

Lemma step_cong w p t crc b : gen_ok w p -> table_for w p t -> 0 <= crc < 2 ^ w -> 0 <= b < 256 ->
  cong (2 ^ w + p) (Z.lxor (crc * 2 ^ 8) (b * 2 ^ w)) (step w t crc b).
Proof.
  intros Hg Ht Hc Hb. pose proof Hg as [Hw Hp].
  destruct (step_bound w t crc b Hw (table_for_table _ _ _ Ht) Hc Hb) as [_ Hi].
  assert (2 ^ w = 2 ^ (w - 8) * 2 ^ 8) as E.
  { replace w with ((w - 8) + 8) at 1 by lia. rewrite Z.pow_add_r by lia. done. }
  assert (0 < 2 ^ (w - 8)) by (apply Z.pow_pos_nonneg; lia).
  unfold step. remember (crc / 2 ^ (w - 8)) as hi.
  assert (crc * 2 ^ 8 = Z.lxor (hi * 2 ^ w) ((crc * 2 ^ 8) mod 2 ^ w)) as E2.
  { rewrite <- add_lxor by (try apply Z.mod_pos_bound; lia).
    rewrite (Z.div_mod (crc * 2 ^ 8) (2 ^ w)) at 1 by lia.
    rewrite E at 2. rewrite Z.div_mul_cancel_r by lia. subst hi. lia. }
  rewrite E2 at 1. rewrite (Z.lxor_comm (hi * 2 ^ w)), Z.lxor_assoc, lxor_pow2 by lia.
  apply cong_lxor; [apply cong_refl|]. destruct Ht as [_ Ht].
  specialize (Ht _ Hi). by apply remainder_cong in Ht as [_ ?].
Qed.

Lemma feed_cong w p t r msg crc : gen_ok w p -> table_for w p t -> bytes msg -> 0 <= crc < 2 ^ w ->
  remainder w (2 ^ w + p)
    (Z.lxor (value (in_bits r msg) * 2 ^ w) (crc * 2 ^ len (in_bits r msg)))
    (feed w t r msg crc).
Proof.
  intros Hg Ht Hm Hc. apply remainder_cong. pose proof Hg as [Hw Hp].
  split; [apply feed_bound; [done|by eapply table_for_table|done|done]|].
  induction msg as [|c msg IH] using rev_ind.
  - change (cong (2 ^ w + p) (Z.lxor 0 (crc * 1)) crc). rewrite Z.mul_1_r, Z.lxor_0_l.
    apply cong_refl.
  - apply list.Forall_app in Hm as [Hm Hx]. apply list.Forall_cons in Hx as [Hx _].
    specialize (IH Hm). unfold feed. rewrite fold_left_app. cbn [fold_left].
    change (fold_left _ msg crc) with (feed w t r msg crc).
    eapply cong_trans; [|apply step_cong; [done|done| |by apply in_byte_bound]].
    2: { apply feed_bound; [done|by eapply table_for_table|done|done]. }
    rewrite in_bits_snoc, value_app_lxor, len_app, !len_in_byte.
    change (value (if r then _ else _)) with (in_byte r c).
    pose proof (len_nonneg (in_bits r msg)).
    rewrite Z.pow_add_r, <- lxor_pow2, Z.mul_assoc by lia.
    rewrite (Z.lxor_comm _ (in_byte r c * 2 ^ w)), Z.lxor_assoc, Z.lxor_comm.
    apply cong_lxor; [|apply cong_refl].
    replace (value (in_bits r msg) * 2 ^ 8 * 2 ^ w) with (value (in_bits r msg) * 2 ^ w * 2 ^ 8) by lia.
    rewrite lxor_pow2 by lia. apply cong_shift; [lia|done].
Qed.
