(** * Polynomials over GF(2) *)
From Verif Require Import CSem Lib Spec_Crc.

(** ** Binary induction and products *)

Lemma bin_ind (P : Z -> Prop) :
  P 0 -> (forall a, 0 <= a -> P a -> P (2 * a)) -> (forall a, 0 <= a -> P a -> P (2 * a + 1)) ->
  forall a, 0 <= a -> P a.
Proof.
  intros H0 He Ho a Ha. destruct a as [|p|p]; [done| |lia].
  induction p as [p IH|p IH|].
  - rewrite Pos2Z.inj_xI. apply Ho; [lia|]. apply IH. lia.
  - rewrite Pos2Z.inj_xO. apply He; [lia|]. apply IH. lia.
  - apply (Ho 0); [lia|done].
Qed.

Lemma testbit_double a n : Z.testbit (2 * a) (Z.succ n) = Z.testbit a n.
Proof. apply Z.double_bits_succ. Qed.
Lemma bits_ext a b : (forall n, 0 <= n -> Z.testbit a n = Z.testbit b n) -> a = b.
Proof. apply Z.bits_inj'. Qed.
Lemma bit_cases (P : Z -> Prop) : P 0 -> (forall n, 0 <= n -> P (Z.succ n)) -> forall n, 0 <= n -> P n.
Proof.
  intros H0 H n Hn. destruct (Z.eq_dec n 0) as [->|]; [done|].
  replace n with (Z.succ (n - 1)) by lia. apply H. lia.
Qed.
Lemma lxor_double a b : Z.lxor (2 * a) (2 * b) = 2 * Z.lxor a b.
Proof.
  apply bits_ext. apply bit_cases.
  - rewrite Z.lxor_spec, !Z.testbit_even_0. done.
  - intros n Hn. rewrite Z.lxor_spec, !testbit_double, Z.lxor_spec. done.
Qed.
Lemma lxor_double_1 a : Z.lxor (2 * a) 1 = 2 * a + 1.
Proof.
  apply bits_ext. apply bit_cases.
  - rewrite Z.lxor_spec, Z.testbit_even_0, Z.testbit_odd_0. done.
  - intros n Hn. rewrite Z.lxor_spec, testbit_double, Z.testbit_odd_succ by lia.
    rewrite (testbit_small 1 1) by lia. by rewrite xorb_false_r.
Qed.
Lemma lxor_01 a b : Z.lxor (2 * a) (2 * b + 1) = 2 * Z.lxor a b + 1.
Proof. by rewrite <- (lxor_double_1 b), <- Z.lxor_assoc, lxor_double, lxor_double_1. Qed.
Lemma lxor_11 a b : Z.lxor (2 * a + 1) (2 * b + 1) = 2 * Z.lxor a b.
Proof.
  rewrite <- (lxor_double_1 a), Z.lxor_assoc, (Z.lxor_comm 1), <- (lxor_double_1 b).
  by rewrite Z.lxor_assoc, Z.lxor_nilpotent, Z.lxor_0_r, lxor_double.
Qed.
Lemma lxor_pow2 k a b : 0 <= k -> Z.lxor (a * 2 ^ k) (b * 2 ^ k) = Z.lxor a b * 2 ^ k.
Proof. intros Hk. rewrite <- !Z.shiftl_mul_pow2 by done. by rewrite Z.shiftl_lxor. Qed.
(** a sum without common bits *)
Lemma add_lxor a b k : 0 <= k -> 0 <= b < 2 ^ k -> a * 2 ^ k + b = Z.lxor (a * 2 ^ k) b.
Proof.
  intros Hk Hb. rewrite <- Z.shiftl_mul_pow2 by done.
  apply Z.add_nocarry_lxor. apply bits_ext. intros n Hn.
  rewrite Z.land_spec, Z.bits_0, Z.shiftl_spec by done.
  destruct (Z.lt_ge_cases n k).
  - rewrite Z.testbit_neg_r by lia. done.
  - rewrite (testbit_small b k) by lia. by rewrite andb_false_r.
Qed.

Lemma mul_0_l b : mul 0 b = 0.
Proof. done. Qed.
Lemma mul_1_l b : mul 1 b = b.
Proof. done. Qed.
Lemma mul_double a b : 0 <= a -> mul (2 * a) b = 2 * mul a b.
Proof. intros Ha. destruct a; [done|done|lia]. Qed.
Lemma mul_double_1 a b : 0 <= a -> mul (2 * a + 1) b = Z.lxor b (2 * mul a b).
Proof. intros Ha. destruct a; [|done|lia]. cbn. by rewrite Z.lxor_0_r. Qed.
Lemma lxor_nonneg a b : 0 <= a -> 0 <= b -> 0 <= Z.lxor a b.
Proof. intros. by apply Z.lxor_nonneg. Qed.
Lemma mul_nonneg a b : 0 <= a -> 0 <= b -> 0 <= mul a b.
Proof.
  intros Ha Hb. revert a Ha. apply bin_ind; [done| |]; intros a Ha IH.
  - rewrite mul_double by done. lia.
  - rewrite mul_double_1 by done. apply lxor_nonneg; lia.
Qed.
Lemma lxor_swap a b c d : Z.lxor (Z.lxor a b) (Z.lxor c d) = Z.lxor (Z.lxor a c) (Z.lxor b d).
Proof.
  apply bits_ext. intros n _. rewrite !Z.lxor_spec.
  destruct (Z.testbit a n), (Z.testbit b n), (Z.testbit c n), (Z.testbit d n); done.
Qed.
Lemma mul_lxor a b c : 0 <= a -> 0 <= b ->
  mul (Z.lxor a b) c = Z.lxor (mul a c) (mul b c).
Proof.
  intros Ha. revert b. pattern a. revert a Ha. apply bin_ind; [done| |];
    intros a Ha IH b Hb.
  - destruct (Z.Even_or_Odd b) as [[b' ->]|[b' ->]].
    + rewrite lxor_double, !mul_double by (try apply lxor_nonneg; lia).
      rewrite IH by lia. by rewrite lxor_double.
    + rewrite lxor_01, !mul_double_1, mul_double by (try apply lxor_nonneg; lia).
      rewrite IH by lia. rewrite <- lxor_double.
      rewrite <- !Z.lxor_assoc. f_equal. apply Z.lxor_comm.
  - destruct (Z.Even_or_Odd b) as [[b' ->]|[b' ->]].
    + rewrite Z.lxor_comm, lxor_01, (Z.lxor_comm b').
      rewrite !mul_double_1, mul_double by (try apply lxor_nonneg; lia).
      rewrite IH by lia. rewrite <- lxor_double. by rewrite Z.lxor_assoc.
    + rewrite lxor_11, !mul_double_1, mul_double by (try apply lxor_nonneg; lia).
      rewrite IH by lia. rewrite lxor_swap, Z.lxor_nilpotent, Z.lxor_0_l.
      by rewrite lxor_double.
Qed.
Lemma mul_pow2 k a b : 0 <= k -> 0 <= a -> mul (a * 2 ^ k) b = mul a b * 2 ^ k.
Proof.
  intros Hk Ha. revert k Hk. apply natlike_ind.
  - by rewrite !Z.mul_1_r.
  - intros k Hk IH. rewrite Z.pow_succ_r by done.
    replace (a * (2 * 2 ^ k)) with (2 * (a * 2 ^ k)) by lia.
    rewrite mul_double by (apply Z.mul_nonneg_nonneg; lia). rewrite IH. lia.
Qed.

(** the degree of a product *)
Lemma lxor_high a b k : 0 <= a < 2 ^ k -> 2 ^ k <= b -> 2 ^ k <= Z.lxor a b.
Proof.
  intros Ha Hb. destruct (Z.lt_ge_cases (Z.lxor a b) (2 ^ k)) as [H|H]; [|lia].
  assert (0 <= k) as Hk by (destruct (Z.lt_ge_cases k 0); [rewrite Z.pow_neg_r in Ha by lia; lia|lia]).
  assert (0 <= Z.lxor a (Z.lxor a b) < 2 ^ k) as H1.
  { apply lxor_bound; [done|done|]. split; [apply lxor_nonneg; lia|done]. }
  rewrite <- Z.lxor_assoc, Z.lxor_nilpotent, Z.lxor_0_l in H1. lia.
Qed.
Lemma mul_degree w g q : 0 <= w -> 2 ^ w <= g < 2 ^ (w + 1) -> 0 < q -> 2 ^ w <= mul q g.
Proof.
  intros Hw Hg Hq. assert (0 <= q) as Hq0 by lia.
  assert (2 ^ (w + 1) = 2 * 2 ^ w) as E by (rewrite Z.pow_add_r by lia; lia).
  revert Hq. pattern q. revert q Hq0. apply bin_ind; [lia| |]; intros q Hq IH H0.
  - rewrite mul_double by done. pose proof (IH ltac:(lia)). lia.
  - rewrite mul_double_1 by done. destruct (Z.eq_dec q 0) as [->|].
    + cbn. rewrite Z.lxor_0_r. lia.
    + pose proof (IH ltac:(lia)). pose proof (lxor_high g (2 * mul q g) (w + 1)). lia.
Qed.

(** ** Congruence modulo a polynomial *)

Definition cong (g a b : Z) : Prop := exists q, 0 <= q /\ Z.lxor a b = mul q g.

Lemma cong_refl g a : cong g a a.
Proof. exists 0. by rewrite Z.lxor_nilpotent. Qed.
Lemma cong_sym g a b : cong g a b -> cong g b a.
Proof. intros (q & ? & H). exists q. by rewrite Z.lxor_comm. Qed.
Lemma cong_trans g a b c : cong g a b -> cong g b c -> cong g a c.
Proof.
  intros (q & Hq & E) (r & Hr & F). exists (Z.lxor q r). split; [by apply lxor_nonneg|].
  rewrite mul_lxor, <- E, <- F by done.
  rewrite Z.lxor_assoc, <- (Z.lxor_assoc b b c), Z.lxor_nilpotent, Z.lxor_0_l. done.
Qed.
Lemma cong_lxor g a b c d : cong g a b -> cong g c d -> cong g (Z.lxor a c) (Z.lxor b d).
Proof.
  intros (q & Hq & E) (r & Hr & F). exists (Z.lxor q r). split; [by apply lxor_nonneg|].
  rewrite mul_lxor, <- E, <- F by done. apply lxor_swap.
Qed.
Lemma cong_shift g a b k : 0 <= k -> cong g a b -> cong g (a * 2 ^ k) (b * 2 ^ k).
Proof.
  intros Hk (q & Hq & E). exists (q * 2 ^ k). split; [lia|].
  rewrite lxor_pow2, mul_pow2, E by done. done.
Qed.
Lemma cong_small w g a b : 0 <= w -> 2 ^ w <= g < 2 ^ (w + 1) ->
  0 <= a < 2 ^ w -> 0 <= b < 2 ^ w -> cong g a b -> a = b.
Proof.
  intros Hw Hg Ha Hb (q & Hq & E). destruct (Z.eq_dec q 0) as [->|].
  - apply Z.lxor_eq. by rewrite E.
  - pose proof (mul_degree w g q Hw Hg ltac:(lia)) as H. rewrite <- E in H.
    pose proof (lxor_bound a b w Hw Ha Hb). lia.
Qed.
(** division by x: the polynomial must have a constant term *)
Lemma mul_odd q g : 0 <= q -> Z.testbit (mul q g) 0 = Z.testbit q 0 && Z.testbit g 0.
Proof.
  intros Hq. destruct (Z.Even_or_Odd q) as [[q' ->]|[q' ->]].
  - rewrite mul_double by lia. by rewrite !Z.testbit_even_0.
  - rewrite mul_double_1 by lia. by rewrite Z.lxor_spec, Z.testbit_even_0, Z.testbit_odd_0, xorb_false_r.
Qed.
Lemma cong_half g a b : Z.testbit g 0 = true -> cong g (2 * a) (2 * b) -> cong g a b.
Proof.
  intros Hg (q & Hq & E). rewrite lxor_double in E.
  assert (Z.testbit q 0 = false) as H0.
  { pose proof (mul_odd q g Hq) as H. rewrite <- E, Z.testbit_even_0, Hg in H.
    by rewrite andb_true_r in H. }
  destruct (Z.Even_or_Odd q) as [[q' ->]|[q' ->]].
  - rewrite mul_double in E by lia. exists q'. split; lia.
  - rewrite Z.testbit_odd_0 in H0. done.
Qed.
Lemma cong_unshift g a b k : 0 <= k -> Z.testbit g 0 = true ->
  cong g (a * 2 ^ k) (b * 2 ^ k) -> cong g a b.
Proof.
  intros Hk Hg. revert k Hk. apply (natlike_ind (fun k => cong g (a * 2 ^ k) (b * 2 ^ k) -> cong g a b)).
  - by rewrite !Z.mul_1_r.
  - intros k Hk IH H. apply IH. apply cong_half; [done|].
    rewrite Z.pow_succ_r in H by done.
    replace (2 * (a * 2 ^ k)) with (a * (2 * 2 ^ k)) by lia.
    by replace (2 * (b * 2 ^ k)) with (b * (2 * 2 ^ k)) by lia.
Qed.

(** remainders *)
Lemma remainder_cong w g a r : remainder w g a r <-> 0 <= r < 2 ^ w /\ cong g a r.
Proof.
  unfold remainder, cong. split.
  - intros (Hr & q & Hq & ->). split; [done|]. exists q. split; [done|].
    by rewrite Z.lxor_assoc, Z.lxor_nilpotent, Z.lxor_0_r.
  - intros (Hr & q & Hq & E). split; [done|]. exists q. split; [done|].
    by rewrite <- E, Z.lxor_assoc, Z.lxor_nilpotent, Z.lxor_0_r.
Qed.
Lemma remainder_unique w g a r s : 0 <= w -> 2 ^ w <= g < 2 ^ (w + 1) ->
  remainder w g a r -> remainder w g a s -> r = s.
Proof.
  intros Hw Hg [Hr Cr]%remainder_cong [Hs Cs]%remainder_cong.
  eapply cong_small; [exact Hw|exact Hg|done|done|].
  eapply cong_trans; [apply cong_sym; exact Cr|exact Cs].
Qed.

(** ** Numbers and bits *)

Lemma value_snoc l b : value (l ++ [b]) = 2 * value l + Z.b2z b.
Proof. unfold value. by rewrite fold_left_app. Qed.
Lemma value_app l m :
  value (l ++ m) = value l * 2 ^ len m + value m.
Proof.
  induction m as [|b m IH] using rev_ind.
  - rewrite app_nil_r. change (value l = value l * 1 + 0). lia.
  - rewrite app_assoc, !value_snoc, IH, len_app. pose proof (len_nonneg m).
    rewrite Z.pow_add_r by apply len_nonneg. change (2 ^ len [b]) with 2. lia.
Qed.
Lemma value_bound l : 0 <= value l < 2 ^ len l.
Proof.
  induction l as [|b l IH] using rev_ind; [done|].
  rewrite value_snoc, len_app. pose proof (len_nonneg l).
  rewrite Z.pow_add_r by apply len_nonneg. change (2 ^ len [b]) with 2. destruct b; cbn [Z.b2z]; lia.
Qed.
Lemma value_app_lxor l m : value (l ++ m) = Z.lxor (value l * 2 ^ len m) (value m).
Proof. rewrite value_app. apply add_lxor; [apply len_nonneg|apply value_bound]. Qed.
Lemma value_testbit l k : 0 <= k -> Z.testbit (value l) k = nth (Z.to_nat k) (rev l) false.
Proof.
  revert k. induction l as [|b l IH] using rev_ind; intros k Hk.
  - cbn. rewrite Z.bits_0. by destruct (Z.to_nat k).
  - rewrite value_snoc, rev_app_distr. cbn [rev app]. revert k Hk. apply bit_cases.
    + change (Z.to_nat 0) with O. cbn [nth]. destruct b; cbn [Z.b2z]; [by rewrite Z.testbit_odd_0|].
      rewrite Z.add_0_r. apply Z.testbit_even_0.
    + intros n Hn. rewrite Z2Nat.inj_succ by done. cbn [nth]. rewrite <- IH by done.
      destruct b; cbn [Z.b2z]; [by apply Z.testbit_odd_succ|].
      rewrite Z.add_0_r. apply testbit_double.
Qed.
Lemma bits_of_length n x : length (bits_of n x) = n.
Proof. induction n; cbn; congruence. Qed.
Lemma bits_of_nth n x k : nth k (bits_of n x) false
  = (k <? n)%nat && Z.testbit x (Z.of_nat (n - 1 - k)).
Proof.
  revert k. induction n as [|n IH]; intros k; cbn [bits_of].
  - by destruct k.
  - destruct k as [|k]; cbn [nth].
    + rewrite Nat.sub_0_r. cbn. by rewrite Nat.sub_0_r.
    + rewrite IH. replace (S n - 1 - S k)%nat with (n - 1 - k)%nat by lia. done.
Qed.
Lemma bits_of_rev_nth n x k : nth k (rev (bits_of n x)) false
  = (k <? n)%nat && Z.testbit x (Z.of_nat k).
Proof.
  destruct (Nat.ltb_spec k n).
  - rewrite rev_nth by (rewrite bits_of_length; done). rewrite bits_of_length, bits_of_nth.
    replace (n - S k <? n)%nat with true by (symmetry; apply Nat.ltb_lt; lia).
    replace (n - 1 - (n - S k))%nat with k by lia. done.
  - rewrite nth_overflow; [done|]. rewrite rev_length, bits_of_length. done.
Qed.
Lemma value_bits_of n x : 0 <= x < 2 ^ Z.of_nat n -> value (bits_of n x) = x.
Proof.
  intros Hx. apply bits_ext. intros k Hk. rewrite value_testbit, bits_of_rev_nth by done.
  rewrite Z2Nat.id by done. destruct (Nat.ltb_spec (Z.to_nat k) n); [done|].
  rewrite (testbit_small x (Z.of_nat n)) by lia. done.
Qed.
Lemma value_rev_bits_of n x k : 0 <= k ->
  Z.testbit (value (rev (bits_of n x))) k
  = (k <? Z.of_nat n) && Z.testbit x (Z.of_nat n - 1 - k).
Proof.
  intros Hk. rewrite value_testbit, rev_involutive, bits_of_nth by done.
  destruct (Nat.ltb_spec (Z.to_nat k) n).
  - replace (k <? Z.of_nat n) with true by lia. cbn. f_equal. lia.
  - by replace (k <? Z.of_nat n) with false by lia.
Qed.
