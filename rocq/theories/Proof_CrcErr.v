(** * What the CRC functions detect *)
From Verif Require Import CSem Lib Model_Utils Model_Crc Model_CrcVariants Spec_Crc Spec_CrcErr
  Drive_Crc Proof_Gf2 Proof_Crc Proof_CrcTable Proof_CrcAll Proof_CrcProps Proof_CrcEnd Proof_Order.

(** ** Equal CRCs *)

Lemma same_register V m1 m2 : In V crc_variants -> bytes m1 -> bytes m2 ->
  run V m1 (len m1) true None = run V m2 (len m2) true None <-> register V m1 = register V m2.
Proof.
  intros HV B1 B2.
  pose proof (run_whole V m1 [] HV B1) as W1. pose proof (run_whole V m2 [] HV B2) as W2.
  rewrite app_nil_r in W1, W2. rewrite W1, W2. split; [|by intros ->].
  intros [= E]. destruct (variant V HV) as (HP & _).
  apply (output_inj (params V)); [done|by apply register_bound|by apply register_bound|done].
Qed.
Lemma same_dividend V m1 m2 : In V crc_variants -> bytes m1 -> bytes m2 ->
  register V m1 = register V m2 <->
  cong (generator (params V)) (dividend (params V) (message_bits (params V) m1))
    (dividend (params V) (message_bits (params V) m2)).
Proof.
  intros HV B1 B2. pose proof (register_remainder V m1 HV B1) as R1.
  pose proof (register_remainder V m2 HV B2) as R2.
  destruct (variant V HV) as (HP & _). pose proof HP as (Hg & _). pose proof Hg as [Hw Hp].
  apply remainder_cong in R1 as [H1 C1], R2 as [H2 C2]. split.
  - intros E. rewrite E in C1. eapply cong_trans; [exact C1|by apply cong_sym].
  - intros C. apply (cong_small (width (params V)) (generator (params V))); [lia|by apply gen_bound|done|done|].
    eapply cong_trans; [apply cong_sym; exact C1|]. eapply cong_trans; [exact C|exact C2].
Qed.
Lemma divides_0 g a : divides g a <-> cong g a 0.
Proof. unfold cong. by rewrite Z.lxor_0_r. Qed.
Lemma same_crc_cong V m1 m2 : In V crc_variants -> bytes m1 -> bytes m2 -> len m1 = len m2 ->
  run V m1 (len m1) true None = run V m2 (len m2) true None <->
  cong (generator (params V)) (value (message_bits (params V) m1)) (value (message_bits (params V) m2)).
Proof.
  intros HV B1 B2 HL. rewrite same_register, same_dividend by done.
  destruct (variant V HV) as (HP & _). pose proof HP as ([Hw _] & _).
  assert (length (message_bits (params V) m1) = length (message_bits (params V) m2)) as E.
  { pose proof (length_message_bits (params V) m1). pose proof (length_message_bits (params V) m2). lia. }
  rewrite !cong_divides, (dividend_lxor _ _ _ E), !divides_0.
  rewrite <- (Z.mul_0_l (2 ^ width (params V))) at 1. split.
  - apply cong_unshift; [lia|by apply generator_odd].
  - apply cong_shift; lia.
Qed.
Lemma same_crc V m1 m2 : In V crc_variants -> bytes m1 -> bytes m2 -> len m1 = len m2 ->
  run V m1 (len m1) true None = run V m2 (len m2) true None <->
  divides (generator (params V))
    (Z.lxor (value (message_bits (params V) m1)) (value (message_bits (params V) m2))).
Proof. intros. rewrite same_crc_cong by done. apply cong_divides. Qed.

(** ** Sequences of bits are messages *)

Lemma bits_of_value l : bits_of (length l) (value l) = l.
Proof.
  apply value_inj; [by rewrite bits_of_length|]. apply value_bits_of. apply value_bound.
Qed.
Lemma message_of_bits P k : forall bits, length bits = (8 * k)%nat ->
  exists msg, bytes msg /\ length msg = k /\ message_bits P msg = bits.
Proof.
  induction k as [|k IH]; intros bits HL.
  - destruct bits; [|cbn in HL; lia]. exists []. split; [by apply Forall_nil|]. done.
  - destruct (IH (drop 8 bits)) as (msg & B & L & E); [rewrite drop_length; lia|].
    set (h := take 8 bits). assert (length h = 8%nat) as Hh.
    { unfold h. rewrite take_length. lia. }
    exists (value (if refin P then rev h else h) :: msg). split; [|split].
    + apply list.Forall_cons. split; [|done].
      pose proof (value_bound (if refin P then rev h else h)) as H. unfold len in H.
      destruct (refin P); rewrite ?rev_length, Hh in H; exact H.
    + cbn. by rewrite L.
    + change (_ :: msg) with ([value (if refin P then rev h else h)] ++ msg).
      rewrite message_bits_app, E. etransitivity; [|apply (take_drop 8 bits)]. f_equal.
      unfold message_bits. cbn [map concat]. rewrite app_nil_r. fold h.
      destruct (refin P).
      * rewrite <- Hh, <- (rev_length h), bits_of_value. apply rev_involutive.
      * rewrite <- Hh at 1. apply bits_of_value.
Qed.

(** ** Numbers of errors *)

Lemma value_cons x a : value (x :: a) = Z.lxor (Z.b2z x * 2 ^ len a) (value a).
Proof.
  change (x :: a) with ([x] ++ a). rewrite value_app_lxor.
  by destruct x.
Qed.
Lemma value_xor a b : length a = length b ->
  Z.lxor (value a) (value b) = value (zip_with xorb a b).
Proof.
  revert b. induction a as [|x a IH]; intros [|y b] HL; try done.
  cbn [length] in HL. cbn [zip_with]. rewrite !value_cons, <- IH by lia.
  assert (len b = len a) as -> by (unfold len; lia).
  assert (len (zip_with xorb a b) = len a) as -> by (unfold len; rewrite zip_with_length_l; lia).
  rewrite lxor_swap, lxor_pow2 by apply len_nonneg. f_equal. f_equal. by destruct x, y.
Qed.
(** modulo x + 1 a polynomial is the parity of its number of terms *)
Lemma parity l : cong 3 (value l) (Z.b2z (Nat.odd (ones l))).
Proof.
  induction l as [|x l IH]; [apply cong_refl|]. rewrite value_cons.
  assert (forall n, 0 <= n -> cong 3 (2 ^ n) 1) as C.
  { apply natlike_ind; [apply cong_refl|]. intros n Hn H. rewrite Z.pow_succ_r, Z.mul_comm by done.
    apply (cong_trans _ _ (1 * 2 ^ 1)); [apply (cong_shift 3 _ _ 1); [lia|done]|].
    exists 1. done. }
  unfold ones. destruct x.
  - rewrite count_occ_cons_eq by done. rewrite Nat.odd_succ, <- Nat.negb_odd.
    change (count_occ _ l true) with (ones l).
    replace (Z.b2z (negb (Nat.odd (ones l)))) with (Z.lxor 1 (Z.b2z (Nat.odd (ones l))))
      by (by destruct (Nat.odd _)).
    apply cong_lxor; [|done]. cbn [Z.b2z]. rewrite Z.mul_1_l. apply C, len_nonneg.
  - rewrite count_occ_cons_neq by done. cbn [Z.b2z]. by rewrite Z.mul_0_l, Z.lxor_0_l.
Qed.
Lemma generator_value P : params_ok P ->
  value (bits_of (Z.to_nat (width P + 1)) (generator P)) = generator P.
Proof.
  intros (Hg & _). pose proof Hg as [Hw _]. apply value_bits_of. rewrite Z2Nat.id by lia.
  pose proof (gen_bound _ _ Hg) as H. unfold generator.
  split; [|lia]. assert (0 < 2 ^ width P) by (apply Z.pow_pos_nonneg; lia). lia.
Qed.
Lemma length_same P m1 m2 : len m1 = len m2 ->
  length (message_bits P m1) = length (message_bits P m2).
Proof.
  pose proof (length_message_bits P m1). pose proof (length_message_bits P m2). lia.
Qed.
Lemma odd_detected V m1 m2 : In V crc_variants -> bytes m1 -> bytes m2 -> len m1 = len m2 ->
  Nat.even (terms (params V)) = true ->
  Nat.odd (differences (message_bits (params V) m1) (message_bits (params V) m2)) = true ->
  run V m1 (len m1) true None <> run V m2 (len m2) true None.
Proof.
  intros HV B1 B2 HL HE HO E. apply same_crc in E as (q & Hq & E); [|done..].
  destruct (variant V HV) as (HP & _). pose proof HP as (Hg & _). pose proof Hg as [Hw _].
  pose proof (gen_bound _ _ Hg) as HB.
  assert (0 < 2 ^ width (params V)) by (apply Z.pow_pos_nonneg; lia).
  rewrite value_xor in E by by apply length_same.
  pose proof (parity (zip_with xorb (message_bits (params V) m1) (message_bits (params V) m2))) as C1.
  unfold differences in HO. rewrite HO, E in C1.
  pose proof (parity (bits_of (Z.to_nat (width (params V) + 1)) (generator (params V)))) as C2.
  rewrite generator_value in C2 by done. unfold terms in HE. rewrite <- Nat.negb_even, HE in C2.
  cbn [Z.b2z negb] in *.
  assert (cong 3 (mul q (generator (params V))) 0) as C3.
  { rewrite <- (mul_0_r q Hq). apply cong_mul; try lia; [|apply cong_refl|done].
    unfold generator. lia. }
  assert (1 = 0); [|lia]. apply (cong_small 1 3); [lia..|].
  eapply cong_trans; [apply cong_sym; exact C1|exact C3].
Qed.
Lemma zip_false l n : n = length l -> zip_with xorb l (replicate n false) = l.
Proof. intros ->. induction l as [|x l IH]; [done|]. cbn. rewrite IH. by destruct x. Qed.
Lemma value_false n : value (replicate n false) = 0.
Proof.
  induction n as [|n IH]; [done|]. cbn [replicate]. rewrite value_cons, IH. done.
Qed.
Lemma odd_missed V : In V crc_variants -> Nat.odd (terms (params V)) = true ->
  exists m1 m2, bytes m1 /\ bytes m2 /\ len m1 = len m2 /\
    Nat.odd (differences (message_bits (params V) m1) (message_bits (params V) m2)) = true /\
    run V m1 (len m1) true None = run V m2 (len m2) true None.
Proof.
  intros HV HO. destruct (variant V HV) as (HP & _).
  pose proof HP as (Hg & _ & _ & _ & _ & Hm). pose proof Hg as [Hw _].
  set (g := bits_of (Z.to_nat (width (params V) + 1)) (generator (params V))).
  set (k := Z.to_nat (width (params V) / 8 + 1)).
  assert (length g = Z.to_nat (width (params V) + 1)) as HL by apply bits_of_length.
  destruct (message_of_bits (params V) k (replicate 7 false ++ g)) as (m1 & B1 & L1 & E1).
  { rewrite app_length, HL. cbn [length replicate]. unfold k. lia. }
  destruct (message_of_bits (params V) k (replicate (length (replicate 7 false ++ g)) false))
    as (m2 & B2 & L2 & E2).
  { rewrite replicate_length, app_length, HL. cbn [length replicate]. unfold k. lia. }
  exists m1, m2. assert (len m1 = len m2) as HLL by (unfold len; lia).
  split; [done|]. split; [done|]. split; [done|]. split.
  - unfold differences. rewrite E1, E2, zip_false by done. unfold ones. rewrite count_occ_app. exact HO.
  - apply same_crc; [done..|]. rewrite E1, E2, value_false, Z.lxor_0_r.
    rewrite value_app, value_false. unfold g. rewrite generator_value by done.
    exists 1. done.
Qed.
Lemma odd_iff V : In V crc_variants ->
  Nat.even (terms (params V)) = true <->
  (forall m1 m2, bytes m1 -> bytes m2 -> len m1 = len m2 ->
    Nat.odd (differences (message_bits (params V) m1) (message_bits (params V) m2)) = true ->
    run V m1 (len m1) true None <> run V m2 (len m2) true None).
Proof.
  intros HV. split; [intros HE m1 m2 B1 B2 HL HO; by apply odd_detected|].
  intros H. destruct (Nat.even _) eqn:HE; [done|].
  destruct (odd_missed V HV) as (m1 & m2 & B1 & B2 & HL & HO & E).
  { rewrite <- Nat.negb_even. by rewrite HE. }
  exfalso. by apply (H m1 m2).
Qed.

(** ** Two errors *)

Lemma zip_same l : zip_with xorb l l = replicate (length l) false.
Proof. induction l as [|x l IH]; [done|]. cbn. rewrite IH. by destruct x. Qed.
Lemma two_errors V n m1 m2 pre b mid c post : In V crc_variants ->
  is_order (generator (params V)) n -> bytes m1 -> bytes m2 ->
  message_bits (params V) m1 = pre ++ b :: mid ++ c :: post ->
  message_bits (params V) m2 = pre ++ negb b :: mid ++ negb c :: post ->
  run V m1 (len m1) true None = run V m2 (len m2) true None <-> (n | 1 + Z.of_nat (length mid)).
Proof.
  intros HV HN B1 B2 E1 E2.
  destruct (variant V HV) as (HP & _). pose proof HP as (Hg & _). pose proof Hg as [Hw _].
  assert (len m1 = len m2) as HL.
  { pose proof (length_message_bits (params V) m1) as L1.
    pose proof (length_message_bits (params V) m2) as L2. rewrite E1 in L1. rewrite E2 in L2.
    rewrite !app_length in *. cbn [length] in *. rewrite !app_length in *. cbn [length] in *. lia. }
  rewrite same_crc_cong by done. rewrite cong_divides, value_xor by by apply length_same.
  rewrite E1, E2. rewrite zip_with_app, zip_same by done. cbn [zip_with].
  rewrite zip_with_app, zip_same by done. cbn [zip_with]. rewrite zip_same.
  assert (forall x, xorb x (negb x) = true) as -> by (by intros []).
  assert (forall x, xorb x (negb x) = true) as -> by (by intros []).
  rewrite <- (order_period 2 (generator (params V)) ltac:(lia) (generator_odd _ HP) n) by (done || lia).
  unfold period. rewrite value_app, value_false, Z.mul_0_l, Z.add_0_l, value_cons.
  rewrite value_app_lxor, value_false, Z.mul_0_l, Z.lxor_0_l, value_cons, value_false, Z.lxor_0_r.
  rewrite len_app. change (true :: ?l) with ([true] ++ l). rewrite len_app.
  change (len [true]) with 1. unfold len. rewrite !replicate_length. cbn [Z.b2z]. rewrite !Z.mul_1_l.
  rewrite Z.add_assoc, (Z.add_comm (Z.of_nat (length mid)) 1). rewrite Z.pow_add_r by lia.
  rewrite <- (Z.mul_1_l (2 ^ Z.of_nat (length post))) at 2. rewrite lxor_pow2 by lia.
  rewrite cong_divides, !divides_0.
  rewrite <- (Z.mul_0_l (2 ^ Z.of_nat (length post))) at 1. split.
  - apply cong_unshift; [lia|by apply generator_odd].
  - apply cong_shift; lia.
Qed.
Lemma two_errors_near V n m1 m2 pre b mid c post : In V crc_variants ->
  is_order (generator (params V)) n -> bytes m1 -> bytes m2 -> 8 * len m1 <= n ->
  message_bits (params V) m1 = pre ++ b :: mid ++ c :: post ->
  message_bits (params V) m2 = pre ++ negb b :: mid ++ negb c :: post ->
  run V m1 (len m1) true None <> run V m2 (len m2) true None.
Proof.
  intros HV HN B1 B2 HL E1 E2 E. eapply two_errors in E; [|done..].
  apply Z.divide_pos_le in E; [|lia].
  pose proof (length_message_bits (params V) m1) as L1. rewrite E1 in L1.
  rewrite !app_length in L1. cbn [length] in L1. rewrite !app_length in L1. cbn [length] in L1. lia.
Qed.

(** the orders, with their prime factors *)
Definition orders : list (Z * list Z) :=
   [(127, [127]); (127, [127]); (127, [127]); (17, [17]); (93, [3; 31]); (255, [3; 5; 17]);
    (255, [3; 5; 17]); (127, [127]); (127, [127]); (127, [127]); (255, [3; 5; 17]);
    (255, [3; 5; 17]); (127, [127]); (32767, [7; 31; 151]); (32767, [7; 31; 151]);
    (32767, [7; 31; 151]); (32767, [7; 31; 151]); (32767, [7; 31; 151]); (32767, [7; 31; 151]);
    (65535, [3; 5; 17; 257]); (32767, [7; 31; 151]); (254, [2; 127]); (254, [2; 127]);
    (151, [151]); (151, [151]); (32767, [7; 31; 151]); (32767, [7; 31; 151]);
    (32767, [7; 31; 151]); (32767, [7; 31; 151]); (32767, [7; 31; 151]); (32767, [7; 31; 151]);
    (65535, [3; 5; 17; 257]); (32766, [2; 3; 43; 127]); (32767, [7; 31; 151]);
    (32767, [7; 31; 151]); (32767, [7; 31; 151]); (4294967295, [3; 5; 17; 257; 65537]);
    (4294967295, [3; 5; 17; 257; 65537]); (2147483647, [2147483647]); (65537, [65537]);
    (4294967295, [3; 5; 17; 257; 65537]); (4294967295, [3; 5; 17; 257; 65537]);
    (4294967295, [3; 5; 17; 257; 65537]); (2147483647, [2147483647]);
    (4294967295, [3; 5; 17; 257; 65537])].
Lemma orders_test :
  forallb (fun '(V, (n, ps)) => order_test (width (params V)) (generator (params V)) n ps)
    (zip crc_variants orders) = true.
Proof. by vm_compute. Qed.
Lemma orders_ok : Forall2 (fun V n => is_order (generator (params V)) n) crc_variants (map fst orders).
Proof.
  pose proof orders_test as T. rewrite forallb_forall in T.
  apply Forall2_fmap_r. apply Forall2_same_length_lookup_2; [done|].
  intros i V [n ps] HV HO. cbn.
  assert (In V crc_variants) as HI by (apply elem_of_list_In; by eapply elem_of_list_lookup_2).
  destruct (variant V HI) as (HP & _). pose proof HP as (Hg & _). pose proof Hg as [Hw _].
  apply (order_test_ok (width (params V)) _ ltac:(lia) (gen_bound _ _ Hg) (generator_odd _ HP) n ps).
  apply (T (V, (n, ps))). apply elem_of_list_In. apply (elem_of_list_lookup_2 _ i).
  rewrite lookup_zip_with, HV. cbn. by rewrite HO.
Qed.

(** ** Forging *)

Lemma unshift w g t : 0 < w -> 2 ^ w <= g < 2 ^ (w + 1) -> Z.testbit g 0 = true ->
  0 <= t < 2 ^ w -> forall k, 0 <= k -> exists y, 0 <= y < 2 ^ w /\ cong g (y * 2 ^ k) t.
Proof.
  intros Hw Hg Ho Ht. apply natlike_ind.
  - exists t. rewrite Z.mul_1_r. split; [done|apply cong_refl].
  - intros k Hk (y & Hy & C).
    assert (2 ^ (w + 1) = 2 * 2 ^ w) as E by (rewrite Z.pow_add_r by lia; lia).
    assert (exists z, 0 <= z < 2 ^ w /\ cong g (2 * z) y) as (z & Hz & D).
    { destruct (Z.Even_or_Odd y) as [[z ->]|[z ->]].
      - exists z. split; [lia|apply cong_refl].
      - destruct (Z.Even_or_Odd g) as [[h Eh]|[h Eh]].
        + rewrite Eh, Z.testbit_even_0 in Ho. done.
        + exists (Z.lxor z h). split.
          * apply lxor_bound; lia.
          * exists 1. split; [lia|]. rewrite mul_1_l, Eh, <- lxor_double.
            rewrite <- (lxor_double_1 z), <- (lxor_double_1 h).
            apply bits_ext. intros n _. rewrite !Z.lxor_spec.
            destruct (Z.testbit (2 * z) n), (Z.testbit (2 * h) n), (Z.testbit 1 n); done. }
    exists z. split; [done|]. eapply cong_trans; [|exact C].
    rewrite Z.pow_succ_r by done. replace (z * (2 * 2 ^ k)) with (2 * z * 2 ^ k) by lia.
    by apply cong_shift.
Qed.
Lemma forge V msg c : In V crc_variants -> bytes msg -> 0 <= c < 2 ^ width (params V) ->
  exists! s, bytes s /\ 8 * len s = width (params V) /\
    run V (msg ++ s) (len (msg ++ s)) true None = Ok c.
Proof.
  intros HV Hm Hc. destruct (variant V HV) as (HP & _).
  pose proof HP as (Hg & _ & Hx & _). pose proof Hg as [Hw _].
  pose proof (register_bound V msg HV Hm) as HR.
  assert (0 <= view (params V) (Z.lxor c (xorout (params V))) < 2 ^ width (params V)) as Ht.
  { apply view_bound; [lia|]. apply lxor_bound; [lia|done|done]. }
  destruct (unshift (width (params V)) (generator (params V))
    (view (params V) (Z.lxor c (xorout (params V))))
    ltac:(lia) ltac:(by apply gen_bound) ltac:(by apply generator_odd) Ht (width (params V)) ltac:(lia))
    as (y & Hy & C).
  set (d := view (params V) (Z.lxor y (register V msg))).
  assert (0 <= d < 2 ^ width (params V)) as Hd.
  { apply view_bound; [lia|]. apply lxor_bound; [lia|done|done]. }
  exists (crc_bytes (params V) d).
  assert (bytes (crc_bytes (params V) d)) as Hb by apply bytes_crc_bytes.
  assert (run V (msg ++ crc_bytes (params V) d) (len (msg ++ crc_bytes (params V) d)) true None = Ok c) as HE.
  { pose proof (register_app V msg d HV Hm Hd) as HA.
    unfold d in HA at 1. rewrite view_view, lxor_cancel in HA by (first [lia|apply lxor_bound; [lia|done|done]]).
    assert (remainder (width (params V)) (generator (params V)) (y * 2 ^ width (params V))
      (view (params V) (Z.lxor c (xorout (params V))))) as HB by by apply remainder_cong.
    assert (0 <= width (params V)) as Hw0 by lia.
    pose proof (remainder_unique _ _ _ _ _ Hw0 (gen_bound _ _ Hg) HA HB) as E.
    assert (bytes (msg ++ crc_bytes (params V) d)) as HBB by by apply Forall_app_2.
    pose proof (run_whole V _ [] HV HBB) as W. rewrite app_nil_r in W. rewrite W, E. f_equal.
    rewrite output_view, view_view by (first [lia|apply lxor_bound; [lia|done|done]]).
    apply lxor_cancel. }
  split.
  - split; [done|]. split; [by apply len_crc_bytes|done].
  - intros s (Hs & HL & HEs). pose proof (len_crc_bytes (params V) d HP) as HL2.
    destruct (decide (crc_bytes (params V) d = s)) as [|Hn]; [done|]. exfalso.
    apply (burst_bytes V msg (crc_bytes (params V) d) s [] c c HV); rewrite ?app_nil_r; try done; try lia.
    + by apply Forall_app_2.
    + by apply Forall_app_2.
Qed.

(** ** Leading zeros *)

Lemma leading_zero_test :
  forallb (fun V => (init (params V) =? 0) ||
    negb (feed (width (params V)) (table_of V) (refin (params V)) [0] (init (params V))
          =? init (params V))) crc_variants = true.
Proof. by vm_compute. Qed.
Lemma bits_of_0 n : bits_of n 0 = replicate n false.
Proof. induction n as [|n IH]; [done|]. cbn [bits_of replicate]. by rewrite IH, Z.bits_0. Qed.
Lemma rev_replicate_false n : rev (replicate n false) = replicate n false.
Proof. induction n as [|n IH]; [done|]. cbn [replicate rev]. rewrite IH. symmetry. apply replicate_cons_app. Qed.
Lemma message_bits_zeros P k : message_bits P (replicate k 0) = replicate (8 * k) false.
Proof.
  induction k as [|k IH]; [done|]. change (replicate (S k) 0) with ([0] ++ replicate k 0).
  rewrite message_bits_app, IH. replace (8 * S k)%nat with (8 + 8 * k)%nat by lia.
  rewrite replicate_add. f_equal. unfold message_bits. cbn [map concat]. by destruct (refin P).
Qed.
Lemma leading_zeros V k msg : In V crc_variants -> bytes msg -> init (params V) = 0 ->
  run V (replicate k 0 ++ msg) (len (replicate k 0 ++ msg)) true None = run V msg (len msg) true None.
Proof.
  intros HV Hm HI. assert (bytes (replicate k 0 ++ msg)) as HB.
  { apply Forall_app_2; [|done]. apply Forall_replicate. done. }
  apply same_register; [done..|]. apply same_dividend; [done..|]. unfold dividend. rewrite HI.
  rewrite message_bits_app, message_bits_zeros, value_app, value_false, !Z.mul_0_l, Z.add_0_l.
  apply cong_refl.
Qed.
Lemma leading_zero V msg : In V crc_variants -> bytes msg ->
  run V (0 :: msg) (1 + len msg) true None = run V msg (len msg) true None <-> init (params V) = 0.
Proof.
  intros HV Hm. assert (bytes (0 :: msg)) as HB.
  { apply list.Forall_cons. split; [done|done]. }
  replace (1 + len msg) with (len (0 :: msg)) by (unfold len; cbn [length]; lia).
  split; [|apply (leading_zeros V 1 msg HV Hm)].
  intros E. apply same_register in E; [|done..]. apply same_dividend in E; [|done..].
  destruct (variant V HV) as (HP & HT & _). pose proof HP as (Hg & Hi & _). pose proof Hg as [Hw _].
  pose proof leading_zero_test as T. rewrite forallb_forall in T. specialize (T V HV).
  apply orb_true_iff in T as [T|T]; [by apply Z.eqb_eq in T|]. exfalso.
  apply negb_true_iff, Z.eqb_neq in T. apply T. clear T.
  assert (bytes [0]) as B0 by (apply list.Forall_cons; split; [done|by apply Forall_nil]).
  pose proof (feed_cong _ _ _ (refin (params V)) [0] (init (params V)) Hg HT B0 Hi) as HF.
  apply remainder_cong in HF as [HF C].
  apply (cong_small (width (params V)) (generator (params V))); [lia|by apply gen_bound|done|done|].
  eapply cong_trans; [apply cong_sym; exact C|].
  change (in_bits (refin (params V)) [0]) with (message_bits (params V) [0]).
  change [0] with (replicate 1 0). rewrite message_bits_zeros. change (8 * 1)%nat with 8%nat.
  rewrite value_false, Z.mul_0_l, Z.lxor_0_l. unfold len. rewrite replicate_length.
  unfold dividend in E. change (0 :: msg) with (replicate 1 0 ++ msg) in E.
  rewrite message_bits_app, message_bits_zeros, value_app, value_false, Z.mul_0_l, Z.add_0_l in E.
  rewrite app_length, replicate_length in E.
  set (L := message_bits (params V) msg) in *.
  rewrite Nat2Z.inj_add, Z.pow_add_r in E by lia.
  apply (cong_unshift _ _ _ (Z.of_nat (length L))); [lia|by apply generator_odd|].
  apply (cong_lxor _ _ _ (value L * 2 ^ width (params V)) (value L * 2 ^ width (params V))) in E;
    [|apply cong_refl].
  rewrite !(Z.lxor_comm (Z.lxor _ _)), <- !Z.lxor_assoc, !Z.lxor_nilpotent, !Z.lxor_0_l in E.
  rewrite <- Z.mul_assoc. exact E.
Qed.

(** ** Relations between the functions *)

Lemma run_is V msg : In V crc_variants -> bytes msg -> forall c,
  run V msg (len msg) true None = Ok c <-> is_crc (params V) msg c.
Proof. intros HV Hm c. pose proof (run_crc V msg [] c HV Hm) as H. by rewrite app_nil_r in H. Qed.
Lemma other_xorout V1 V2 msg c : In V1 crc_variants -> In V2 crc_variants -> bytes msg ->
  params V2 = with_xorout (params V1) (xorout (params V2)) ->
  run V1 msg (len msg) true None = Ok c ->
  run V2 msg (len msg) true None
  = Ok (Z.lxor c (Z.lxor (xorout (params V1)) (xorout (params V2)))).
Proof.
  intros H1 H2 Hm E R. apply run_is in R as (r & HR & ->); [|done..]. apply run_is; [done..|].
  exists r. rewrite E. split; [exact HR|]. rewrite !output_view. cbn [with_xorout xorout].
  change (view (with_xorout _ _) r) with (view (params V1) r).
  rewrite Z.lxor_assoc, <- (Z.lxor_assoc (xorout (params V1))), Z.lxor_nilpotent, Z.lxor_0_l. done.
Qed.
Lemma mirror_bits P msg : bytes msg ->
  message_bits (mirrored P) (map (reversed 8) msg) = message_bits P msg.
Proof.
  unfold message_bits. cbn [mirrored refin]. induction 1 as [|b msg Hb HB IH]; [done|].
  cbn [map concat]. rewrite IH. f_equal. unfold reversed. change (Z.to_nat 8) with 8%nat.
  assert (bits_of 8 (value (rev (bits_of 8 b))) = rev (bits_of 8 b)) as E by apply (bits_of_value (rev (bits_of 8 b))).
  rewrite E. destruct (refin P); cbn [negb]; [done|apply rev_involutive].
Qed.
Lemma mirror V1 V2 msg c : In V1 crc_variants -> In V2 crc_variants -> bytes msg ->
  params V2 = mirrored (params V1) ->
  run V1 msg (len msg) true None = Ok c ->
  run V2 (map (reversed 8) msg) (len msg) true None = Ok (reversed (width (params V1)) c).
Proof.
  intros H1 H2 Hm E R. apply run_is in R as (r & HR & ->); [|done..].
  assert (bytes (map (reversed 8) msg)) as HB.
  { apply List.Forall_map. apply List.Forall_forall. intros b _. apply (flip_bound 8). lia. }
  assert (len msg = len (map (reversed 8) msg)) as -> by (unfold len; by rewrite map_length).
  apply run_is; [done..|]. rewrite E.
  destruct (variant V1 H1) as (HP & _). pose proof HP as ([Hw _] & _ & Hx & _).
  exists r. split.
  - rewrite mirror_bits by done. exact HR.
  - rewrite !output_view. change (reversed ?w ?x) with (flip w x). rewrite flip_lxor by lia.
    cbn [mirrored xorout]. change (reversed ?w ?x) with (flip w x). f_equal.
    apply remainder_cong in HR as [HR _].
    unfold view. cbn [mirrored refout width]. destruct (refout (params V1)); cbn [negb]; [|done].
    apply flip_flip; [lia|done].
Qed.

(** ** Facts about single functions *)

Lemma which_even : map (fun V => Nat.even (terms (params V))) crc_variants
  = [true; true; true; false; true; false; false; true; true; true; false; false; true; true;
     true; true; true; true; true; false; true; true; true; true; true; true; true; true; true;
     true; true; false; true; true; true; true; false; false; true; false; false; false; false;
     true; false].
Proof. by vm_compute. Qed.
Lemma crc32_odd_missed : exists m1 m2, bytes m1 /\ bytes m2 /\ len m1 = len m2 /\
  Nat.odd (differences (message_bits crc32 m1) (message_bits crc32 m2)) = true /\
  Crc32 m1 (len m1) true None = Crc32 m2 (len m2) true None.
Proof.
  destruct (odd_missed (Crc_variant crc32 Crc32_table Crc32)) as (m1 & m2 & H).
  - unfold crc_variants. cbn [In]. tauto.
  - by vm_compute.
  - exists m1, m2. exact H.
Qed.
