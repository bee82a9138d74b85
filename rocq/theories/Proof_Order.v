(** * The ring of polynomials over GF(2) and the order of x *)
From Coq Require Import Znumtheory.
From Verif Require Import CSem Lib Spec_Crc Spec_CrcErr Proof_Gf2.

(** ** The ring *)

Lemma mul_0_r a : 0 <= a -> mul a 0 = 0.
Proof.
  revert a. apply bin_ind; [done| |]; intros a Ha IH.
  - rewrite mul_double, IH by done. done.
  - rewrite mul_double_1, IH by done. done.
Qed.
Lemma mul_1_r a : 0 <= a -> mul a 1 = a.
Proof.
  revert a. apply bin_ind; [done| |]; intros a Ha IH.
  - by rewrite mul_double, IH by done.
  - rewrite mul_double_1, IH, Z.lxor_comm by done. apply lxor_double_1.
Qed.
Lemma mul_lxor_r a b c : 0 <= a -> mul a (Z.lxor b c) = Z.lxor (mul a b) (mul a c).
Proof.
  revert a. apply bin_ind; [done| |]; intros a Ha IH.
  - by rewrite !mul_double, IH, lxor_double by done.
  - rewrite !mul_double_1, IH, <- lxor_double by done. apply lxor_swap.
Qed.
Lemma mul_double_r a b : 0 <= a -> mul a (2 * b) = 2 * mul a b.
Proof.
  revert a. apply bin_ind; [done| |]; intros a Ha IH.
  - by rewrite !mul_double, IH by done.
  - by rewrite !mul_double_1, IH, lxor_double by done.
Qed.
Lemma mul_comm a b : 0 <= a -> 0 <= b -> mul a b = mul b a.
Proof.
  intros Ha Hb. revert a Ha. apply bin_ind.
  - by rewrite mul_0_r.
  - intros a Ha IH. by rewrite mul_double, mul_double_r, IH by done.
  - intros a Ha IH. rewrite mul_double_1, IH by done.
    rewrite <- lxor_double_1, mul_lxor_r, mul_double_r, mul_1_r by done. apply Z.lxor_comm.
Qed.
Lemma mul_assoc a b c : 0 <= a -> 0 <= b -> mul a (mul b c) = mul (mul a b) c.
Proof.
  intros Ha Hb. revert a Ha. apply bin_ind; [done| |]; intros a Ha IH.
  - pose proof (mul_nonneg a b Ha Hb). by rewrite !mul_double, IH by done.
  - pose proof (mul_nonneg a b Ha Hb). rewrite !mul_double_1, IH by done.
    rewrite mul_lxor, mul_double by lia. done.
Qed.
Lemma mul_x k b : 0 <= k -> mul (2 ^ k) b = b * 2 ^ k.
Proof. intros Hk. rewrite <- (Z.mul_1_l (2 ^ k)) at 1. by rewrite mul_pow2. Qed.

Lemma cong_divides g a b : cong g a b <-> divides g (Z.lxor a b).
Proof. done. Qed.
Lemma cong_mul g a b c d : 0 <= g -> 0 <= a -> 0 <= b -> 0 <= c -> 0 <= d ->
  cong g a b -> cong g c d -> cong g (mul a c) (mul b d).
Proof.
  intros Hg Ha Hb Hc Hd (q & Hq & E) (r & Hr & F). apply (cong_trans _ _ (mul a d)).
  - exists (mul a r). split; [by apply mul_nonneg|]. by rewrite <- mul_lxor_r, F, mul_assoc.
  - exists (mul d q). split; [by apply mul_nonneg|].
    rewrite <- mul_lxor, E, <- mul_assoc by done.
    rewrite (mul_comm g d), mul_assoc, (mul_comm q d) by done. done.
Qed.

(** ** Powers of x, by repeated squaring *)

Fixpoint reduce (n : nat) (w g a : Z) : Z :=
  match n with
  | O => a
  | S n => reduce n w g
             (if Z.testbit a (w + Z.of_nat n) then Z.lxor a (g * 2 ^ Z.of_nat n) else a)
  end.
Lemma reduce_nonneg n w g a : 0 <= g -> 0 <= a -> 0 <= reduce n w g a.
Proof.
  intros Hg. revert a. induction n as [|n IH]; intros a Ha; cbn [reduce]; [done|]. apply IH.
  destruct (Z.testbit a _); [|done]. apply lxor_nonneg; [done|].
  apply Z.mul_nonneg_nonneg; [done|]. apply Z.pow_nonneg. lia.
Qed.
Lemma reduce_cong n w g a : cong g a (reduce n w g a).
Proof.
  revert a. induction n as [|n IH]; intros a; cbn [reduce]; [apply cong_refl|].
  eapply cong_trans; [|apply IH]. destruct (Z.testbit a _); [|apply cong_refl].
  exists (2 ^ Z.of_nat n). split; [apply Z.pow_nonneg; lia|].
  rewrite <- Z.lxor_assoc, Z.lxor_nilpotent, Z.lxor_0_l. rewrite mul_x by lia. done.
Qed.
Fixpoint powx (w g : Z) (p : positive) : Z :=
  match p with
  | xH => 2
  | xO p => let r := powx w g p in reduce (Z.to_nat (w + 1)) w g (mul r r)
  | xI p => let r := powx w g p in reduce (Z.to_nat (w + 1)) w g (2 * mul r r)
  end.
Lemma powx_ok w g p : 0 <= g -> 0 <= powx w g p /\ cong g (2 ^ Zpos p) (powx w g p).
Proof.
  intros Hg. induction p as [p [IH1 IH2]|p [IH1 IH2]|]; cbn [powx]; cbn zeta.
  - assert (0 <= mul (powx w g p) (powx w g p)) by by apply mul_nonneg.
    split; [apply reduce_nonneg; lia|]. eapply cong_trans; [|apply reduce_cong].
    rewrite Pos2Z.inj_xI, Z.pow_add_r by lia.
    replace (2 * mul (powx w g p) (powx w g p)) with (mul (powx w g p) (powx w g p) * 2 ^ 1) by lia.
    apply cong_shift; [lia|].
    replace (2 * Z.pos p) with (Z.pos p + Z.pos p) by lia. rewrite Z.pow_add_r, <- mul_x by lia.
    apply cong_mul; try done; apply Z.pow_nonneg; lia.
  - assert (0 <= mul (powx w g p) (powx w g p)) by by apply mul_nonneg.
    split; [apply reduce_nonneg; lia|]. eapply cong_trans; [|apply reduce_cong].
    assert (Z.pos p~0 = Z.pos p + Z.pos p) as -> by lia. rewrite Z.pow_add_r, <- mul_x by lia.
    apply cong_mul; try done; apply Z.pow_nonneg; lia.
  - split; [lia|apply cong_refl].
Qed.

(** ** Primes, by trial division *)

Fixpoint trial (k : nat) (d n : Z) : bool :=
  match k with O => true | S k => negb (n mod d =? 0) && trial k (d + 1) n end.
Lemma trial_ok k d n : trial k d n = true ->
  forall e, d <= e < d + Z.of_nat k -> n mod e <> 0.
Proof.
  revert d. induction k as [|k IH]; intros d H e He; [lia|]. cbn [trial] in H.
  apply andb_true_iff in H as [H1 H2]. destruct (Z.eq_dec e d) as [->|].
  - intros E. rewrite E in H1. done.
  - apply (IH (d + 1) H2). lia.
Qed.
Definition prime_test (n : Z) : bool := (1 <? n) && trial (Z.to_nat (Z.sqrt n - 1)) 2 n.
Lemma prime_test_ok n : prime_test n = true -> prime n.
Proof.
  intros [H1 H2]%andb_true_iff. apply Z.ltb_lt in H1. pose proof (trial_ok _ _ _ H2) as H.
  pose proof (Z.sqrt_nonneg n) as Hs0. pose proof (Z.sqrt_spec n ltac:(lia)) as Hs.
  apply prime_alt. split; [lia|]. intros e He D.
  assert (exists f, 1 < f <= Z.sqrt n /\ (f | n)) as (f & Hf & Df).
  { destruct (Z.le_gt_cases e (Z.sqrt n)); [exists e; split; [lia|done]|].
    destruct D as [f Ef]. exists f. assert (0 < f) by nia. split; [|exists e; lia].
    split; [nia|]. destruct (Z.le_gt_cases f (Z.sqrt n)); [done|]. exfalso. clear H H2.
    cbn zeta in Hs. revert Hs0 Hs H0 H4. generalize (Z.sqrt n). subst n. clear. intros s. nia. }
  apply (H f); [lia|]. by apply Z.mod_divide; [lia|].
Qed.
Fixpoint product (ps : list Z) : Z := match ps with [] => 1 | p :: ps => p * product ps end.
Lemma prime_divisor ps k : Forall prime ps -> 1 < k -> (k | product ps) ->
  exists p, In p ps /\ (p | k).
Proof.
  intros HP Hk. induction HP as [|p ps Hp HP IH]; cbn [product]; intros D.
  - apply Z.divide_1_r_nonneg in D; lia.
  - destruct (Zdivide_dec p k) as [Dp|Dp]; [exists p; split; [by left|done]|].
    destruct IH as (q & Hq & Dq); [|exists q; split; [by right|done]].
    apply (Gauss k p); [done|]. apply rel_prime_sym. by apply prime_rel_prime.
Qed.

(** ** The order of x *)

Section order.
  Context (w g : Z) (Hw : 2 <= w) (Hg : 2 ^ w <= g < 2 ^ (w + 1)) (Ho : Z.testbit g 0 = true).
  Definition period (d : Z) : Prop := cong g (2 ^ d) 1.
  Lemma period_add c d : 0 <= c -> 0 <= d -> period c -> period d -> period (c + d).
  Proof.
    intros Hc Hd Pc Pd. unfold period. rewrite Z.pow_add_r by done.
    eapply cong_trans; [|exact Pd]. rewrite <- (Z.mul_1_l (2 ^ d)) at 2. by apply cong_shift.
  Qed.
  Lemma period_sub c d : 0 <= d <= c -> period c -> period d -> period (c - d).
  Proof.
    intros Hd Pc Pd. unfold period. apply (cong_unshift g _ _ d); [lia|done|].
    rewrite <- Z.pow_add_r, Z.sub_add, Z.mul_1_l by lia.
    eapply cong_trans; [exact Pc|by apply cong_sym].
  Qed.
  Lemma period_mul d k : 0 <= d -> 0 <= k -> period d -> period (k * d).
  Proof.
    intros Hd Hk Pd. revert k Hk. apply natlike_ind; [apply cong_refl|].
    intros k Hk IH. replace (Z.succ k * d) with (k * d + d) by lia. apply period_add; [nia|done..].
  Qed.
  Lemma period_mod c d : 0 <= c -> 0 < d -> period c -> period d -> period (c mod d).
  Proof.
    intros Hc Hd Pc Pd. rewrite Z.mod_eq by lia.
    assert (0 <= d * (c / d) <= c).
    { split; [apply Z.mul_nonneg_nonneg; [lia|apply Z.div_pos; lia]|apply Z.mul_div_le; lia]. }
    apply period_sub; [done|done|]. rewrite Z.mul_comm. apply period_mul; [lia| |done].
    apply Z.div_pos; lia.
  Qed.
  Lemma period_gcd c d : 0 <= c -> 0 <= d -> period c -> period d -> period (Z.gcd c d).
  Proof.
    intros Hc Hd. revert c Hc. pattern d. revert d Hd. apply Zlt_0_ind.
    intros d IH Hd c Hc Pc Pd. destruct (Z.eq_dec d 0) as [->|].
    - by rewrite Z.gcd_0_r_nonneg.
    - rewrite Z.gcd_comm, <- Z.gcd_mod, Z.gcd_comm by done.
      pose proof (Z.mod_pos_bound c d ltac:(lia)).
      apply IH; [lia|lia|done|]. by apply period_mod; [|lia|..].
  Qed.
  Lemma period_divides d : 0 < d -> period d <-> divides g (2 ^ d + 1).
  Proof.
    intros Hd. unfold period. rewrite cong_divides. replace (Z.lxor (2 ^ d) 1) with (2 ^ d + 1); [done|].
    rewrite <- (Z.mul_1_l (2 ^ d)). apply add_lxor; [lia|]. split; [lia|].
    apply Z.pow_gt_1; lia.
  Qed.
  (** [n] has the prime factors [ps]; x^n is 1, x^(n/p) is not *)
  Definition order_test (n : Z) (ps : list Z) : bool :=
    (product ps =? n) && forallb prime_test ps && (0 <? n) &&
    (powx w g (Z.to_pos n) =? 1) &&
    forallb (fun p => let r := powx w g (Z.to_pos (n / p)) in (r <? 2 ^ w) && negb (r =? 1)) ps.
  Lemma order_test_ok n ps : order_test n ps = true -> is_order g n.
  Proof.
    unfold order_test. rewrite !andb_true_iff, !forallb_forall, Z.eqb_eq, Z.ltb_lt, Z.eqb_eq.
    intros ((((EN & HP) & Hn) & H1) & HN).
    assert (0 < 2 ^ w) by (apply Z.pow_pos_nonneg; lia).
    assert (period n) as Pn.
    { destruct (powx_ok w g (Z.to_pos n) ltac:(lia)) as [_ C]. rewrite H1, Z2Pos.id in C by done. done. }
    split; [done|]. split; [by apply period_divides|]. intros d Hd D.
    apply period_divides in D; [|lia].
    pose proof (period_gcd d n ltac:(lia) ltac:(lia) D Pn) as Pe.
    set (e := Z.gcd d n) in *. assert (0 <= e) by apply Z.gcd_nonneg.
    assert (e | d) as De by apply Z.gcd_divide_l. assert (e | n) as Dn by apply Z.gcd_divide_r.
    assert (0 < e <= d).
    { split; [|apply Z.divide_pos_le; [lia|done]].
      destruct (Z.eq_dec e 0) as [E|]; [|lia]. rewrite E in De. apply Z.divide_0_l in De. lia. }
    destruct Dn as [k Ek]. assert (1 < k) by nia.
    destruct (prime_divisor ps k) as (p & Hp & Dp).
    { apply List.Forall_forall. intros p Hp. apply prime_test_ok. by apply HP. }
    { done. }
    { rewrite EN. exists e. lia. }
    pose proof (prime_test_ok p (HP p Hp)) as [Hp1 _].
    destruct Dp as [j Ej]. assert (0 < j) by nia.
    assert (n / p = j * e) as E.
    { rewrite Ek, Ej. replace (j * p * e) with (j * e * p) by lia. apply Z.div_mul. lia. }
    specialize (HN p Hp). cbn zeta in HN. rewrite E in HN.
    apply andb_true_iff in HN as [HN1 HN2]. apply Z.ltb_lt in HN1.
    assert (0 < j * e) by nia.
    destruct (powx_ok w g (Z.to_pos (j * e)) ltac:(lia)) as [P0 C].
    rewrite Z2Pos.id in C by done.
    assert (powx w g (Z.to_pos (j * e)) = 1) as E1; [|by rewrite E1 in HN2].
    apply (cong_small w g); [lia|done|done|split; [lia|apply Z.pow_gt_1; lia]|].
    eapply cong_trans; [apply cong_sym; exact C|]. apply period_mul; [lia|lia|done].
  Qed.
  Lemma order_period n d : is_order g n -> 0 <= d -> period d <-> (n | d).
  Proof.
    intros (Hn & Dn & HN) Hd. apply period_divides in Dn; [|done]. split.
    - intros Pd. apply Z.mod_divide; [lia|]. pose proof (Z.mod_pos_bound d n Hn).
      destruct (Z.eq_dec (d mod n) 0); [done|]. exfalso. apply (HN (d mod n)); [lia|].
      apply period_divides; [lia|]. by apply period_mod.
    - intros [k ->]. apply period_mul; [lia|nia|done].
  Qed.
End order.
