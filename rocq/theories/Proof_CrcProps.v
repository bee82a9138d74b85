(** * Properties of the 45 CRC functions *)
From Verif Require Import CSem Lib Model_Utils Model_Crc Model_CrcVariants Spec_Crc Drive_Crc
  Proof_Gf2 Proof_Crc Proof_CrcTable Proof_CrcAll.

Lemma variant V : In V crc_variants -> variant_ok V.
Proof. intros H. pose proof all_ok as A. rewrite List.Forall_forall in A. by apply A. Qed.

(** ** Tables *)

Lemma nth_get_Z (l : list Z) i : (i < length l)%nat -> nth i l 0 = get l (Z.of_nat i).
Proof.
  intros H. unfold get. rewrite Nat2Z.id. rewrite (list_lookup_total_alt l i).
  rewrite nth_lookup. destruct (l !! i) eqn:E; [done|]. apply lookup_ge_None in E. lia.
Qed.
Lemma table_for_spec w p t : table_for w p t -> is_table w (2 ^ w + p) t.
Proof.
  intros [Hl Ht]. unfold len in Hl. split; [lia|]. intros i Hi. rewrite nth_get_Z by lia.
  apply Ht. lia.
Qed.
Lemma calc8 p old rest : 0 <= p < 2 ^ 8 -> len old = 256 ->
  exists t, Crc8Base_tableCalculator p (old ++ rest) = Ok (t ++ rest) /\ is_table 8 (2 ^ 8 + p) t.
Proof.
  intros H1 H2. destruct (calculator8 p old rest H1 H2) as (t & E & H). exists t.
  split; [done|by apply table_for_spec].
Qed.
Lemma calc16 p old rest : 0 <= p < 2 ^ 16 -> len old = 256 ->
  exists t, Crc16Base_tableCalculator p (old ++ rest) = Ok (t ++ rest) /\ is_table 16 (2 ^ 16 + p) t.
Proof.
  intros H1 H2. destruct (calculator16 p old rest H1 H2) as (t & E & H). exists t.
  split; [done|by apply table_for_spec].
Qed.
Lemma calc32 p old rest : 0 <= p < 2 ^ 32 -> len old = 256 ->
  exists t, Crc32Base_tableCalculator p (old ++ rest) = Ok (t ++ rest) /\ is_table 32 (2 ^ 32 + p) t.
Proof.
  intros H1 H2. destruct (calculator32 p old rest H1 H2) as (t & E & H). exists t.
  split; [done|by apply table_for_spec].
Qed.
Lemma variant_table V : In V crc_variants ->
  is_table (width (params V)) (generator (params V)) (table_of V).
Proof. intros H%variant. apply table_for_spec. apply H. Qed.
Lemma variant_calc8 V old : In V crc_variants -> width (params V) = 8 -> len old = 256 ->
  Crc8Base_tableCalculator (poly (params V)) old = Ok (table_of V).
Proof.
  intros (HP & HT & _)%variant HW Hl. destruct HP as (Hg & _). rewrite HW in *.
  destruct (calculator8 (poly (params V)) old [] (proj2 Hg) Hl) as (t & E & Ht).
  rewrite !app_nil_r in E. rewrite E. f_equal. by eapply table_for_unique.
Qed.
Lemma variant_calc16 V old : In V crc_variants -> width (params V) = 16 -> len old = 256 ->
  Crc16Base_tableCalculator (poly (params V)) old = Ok (table_of V).
Proof.
  intros (HP & HT & _)%variant HW Hl. destruct HP as (Hg & _). rewrite HW in *.
  destruct (calculator16 (poly (params V)) old [] (proj2 Hg) Hl) as (t & E & Ht).
  rewrite !app_nil_r in E. rewrite E. f_equal. by eapply table_for_unique.
Qed.
Lemma variant_calc32 V old : In V crc_variants -> width (params V) = 32 -> len old = 256 ->
  Crc32Base_tableCalculator (poly (params V)) old = Ok (table_of V).
Proof.
  intros (HP & HT & _)%variant HW Hl. destruct HP as (Hg & _). rewrite HW in *.
  destruct (calculator32 (poly (params V)) old [] (proj2 Hg) Hl) as (t & E & Ht).
  rewrite !app_nil_r in E. rewrite E. f_equal. by eapply table_for_unique.
Qed.

(** ** The whole message *)

Definition register V msg : Z :=
  feed (width (params V)) (table_of V) (refin (params V)) msg (init (params V)).
Lemma run_whole V msg rest : In V crc_variants -> bytes msg ->
  run V (msg ++ rest) (len msg) true None = Ok (output (params V) (register V msg)).
Proof. intros (_ & _ & HR)%variant Hm. by rewrite HR. Qed.
Lemma register_bound V msg : In V crc_variants -> bytes msg ->
  0 <= register V msg < 2 ^ width (params V).
Proof.
  intros (HP & HT & _)%variant Hm. destruct HP as ((Hw & _) & Hi & _).
  apply feed_bound; [done|by eapply table_for_table|done|done].
Qed.
Lemma register_remainder V msg : In V crc_variants -> bytes msg ->
  remainder (width (params V)) (generator (params V))
    (dividend (params V) (message_bits (params V) msg)) (register V msg).
Proof.
  intros (HP & HT & _)%variant Hm. destruct HP as (Hg & Hi & _).
  by apply feed_cong.
Qed.
Lemma is_crc_register V msg c : In V crc_variants -> bytes msg ->
  is_crc (params V) msg c <-> c = output (params V) (register V msg).
Proof.
  intros HV Hm. split.
  - intros (r & Hr & ->). f_equal. destruct (variant V HV) as ((Hg & _) & _).
    eapply remainder_unique; [| |exact Hr|by apply register_remainder].
    + destruct Hg; lia.
    + by apply gen_bound.
  - intros ->. exists (register V msg). split; [by apply register_remainder|done].
Qed.
Lemma run_crc V msg rest c : In V crc_variants -> bytes msg ->
  run V (msg ++ rest) (len msg) true None = Ok c <-> is_crc (params V) msg c.
Proof.
  intros HV Hm. rewrite is_crc_register, run_whole by done. split; [by intros [= <-]|by intros ->].
Qed.
Lemma run_crc_exists V msg rest : In V crc_variants -> bytes msg ->
  exists c, run V (msg ++ rest) (len msg) true None = Ok c /\ is_crc (params V) msg c.
Proof.
  intros HV Hm. eexists. split; [by apply run_whole|]. by apply is_crc_register.
Qed.

(** the result is below 2^w and reversing bits is an involution *)
Definition flip (w x : Z) : Z := value (rev (bits_of (Z.to_nat w) x)).
Lemma flip_bound w x : 0 <= w -> 0 <= flip w x < 2 ^ w.
Proof. intros Hw. pose proof (value_rev_bound (Z.to_nat w) x). by rewrite Z2Nat.id in H by done. Qed.
Lemma flip_testbit w x k : 0 <= w -> 0 <= k ->
  Z.testbit (flip w x) k = (k <? w) && Z.testbit x (w - 1 - k).
Proof. intros Hw Hk. unfold flip. rewrite value_rev_bits_of by done. by rewrite Z2Nat.id by done. Qed.
Lemma flip_flip w x : 0 <= w -> 0 <= x < 2 ^ w -> flip w (flip w x) = x.
Proof.
  intros Hw Hx. apply bits_ext. intros k Hk. rewrite flip_testbit by done.
  destruct (Z.ltb_spec k w); cbn [andb].
  - rewrite flip_testbit by lia. replace (w - 1 - k <? w) with true by lia. cbn [andb].
    f_equal. lia.
  - by rewrite (testbit_small x w) by lia.
Qed.
Lemma flip_lxor w x y : 0 <= w -> flip w (Z.lxor x y) = Z.lxor (flip w x) (flip w y).
Proof.
  intros Hw. apply bits_ext. intros k Hk. rewrite Z.lxor_spec, !flip_testbit by done.
  destruct (Z.ltb_spec k w); cbn [andb]; [|done]. by rewrite Z.lxor_spec.
Qed.
Definition view (P : crc_params) (x : Z) : Z := if refout P then flip (width P) x else x.
Lemma output_view P r : output P r = Z.lxor (view P r) (xorout P).
Proof. done. Qed.
Lemma view_lxor P x y : 0 <= width P -> view P (Z.lxor x y) = Z.lxor (view P x) (view P y).
Proof. intros. unfold view. destruct (refout P); [by apply flip_lxor|done]. Qed.
Lemma view_view P x : 0 <= width P -> 0 <= x < 2 ^ width P -> view P (view P x) = x.
Proof. intros. unfold view. destruct (refout P); [by apply flip_flip|done]. Qed.
Lemma view_bound P x : 0 <= width P -> 0 <= x < 2 ^ width P -> 0 <= view P x < 2 ^ width P.
Proof. intros. unfold view. destruct (refout P); [by apply flip_bound|done]. Qed.
Lemma lxor_cancel a b : Z.lxor (Z.lxor a b) b = a.
Proof. by rewrite Z.lxor_assoc, Z.lxor_nilpotent, Z.lxor_0_r. Qed.
Lemma output_inj P r s : params_ok P -> 0 <= r < 2 ^ width P -> 0 <= s < 2 ^ width P ->
  output P r = output P s -> r = s.
Proof.
  intros ((Hw & _) & _) Hr Hs E. rewrite !output_view in E.
  apply (f_equal (fun z => Z.lxor z (xorout P))) in E. rewrite !lxor_cancel in E.
  rewrite <- (view_view P r), <- (view_view P s) by (try lia; done). by rewrite E.
Qed.
Lemma output_bound P r : params_ok P -> 0 <= r < 2 ^ width P -> 0 <= output P r < 2 ^ width P.
Proof.
  intros ((Hw & _) & _ & Hx & _) Hr. rewrite output_view.
  apply lxor_bound; [lia|apply view_bound; [lia|done]|done].
Qed.

(** ** Pieces *)

Lemma feed_app w t r a b crc : feed w t r (a ++ b) crc = feed w t r b (feed w t r a crc).
Proof. apply fold_left_app. Qed.
Lemma pieces_feed V pieces last : variant_ok V -> pieces <> [] ->
  Forall (fun p => bytes (fst p)) pieces ->
  (forall c, last = Some c -> 0 <= c < 2 ^ width (params V)) ->
  run_pieces V pieces last
  = Ok (output (params V) (feed (width (params V)) (table_of V) (refin (params V))
                             (concat (map fst pieces)) (default (init (params V)) last))).
Proof.
  intros HV. revert last. induction pieces as [|[a rest] pieces IH]; intros last Hn HB Hl; [done|].
  apply list.Forall_cons in HB as [HA HB]. cbn [fst] in HA.
  pose proof HV as (HP & HT & HR).
  destruct pieces as [|p pieces].
  - cbn [run_pieces map concat fst]. rewrite HR by done. cbn zeta. by rewrite app_nil_r.
  - change (run_pieces V ((a, rest) :: p :: pieces) last)
      with (let! c := run V (a ++ rest) (len a) false last in run_pieces V (p :: pieces) (Some c)).
    rewrite HR by done. cbn zeta. cbn [bind].
    change (concat (map fst ((a, rest) :: p :: pieces))) with (a ++ concat (map fst (p :: pieces))).
    rewrite feed_app. rewrite IH; [done|done|done|].
    intros c [= <-]. destruct HP as ((Hw & _) & Hi & _).
    apply feed_bound; [done|by eapply table_for_table|done|].
    destruct last as [c|]; [by apply Hl|done].
Qed.
Lemma pieces_ok V pieces rest : In V crc_variants -> pieces <> [] ->
  Forall (fun p => bytes (fst p)) pieces ->
  run_pieces V pieces None
  = run V (concat (map fst pieces) ++ rest) (len (concat (map fst pieces))) true None.
Proof.
  intros HV Hn HB. rewrite pieces_feed; [|by apply variant|done|done|done].
  rewrite run_whole; [done|done|].
  clear Hn. induction pieces as [|p pieces IH]; [by apply Forall_nil|].
  apply list.Forall_cons in HB as [HA HB]. cbn [map concat]. apply Forall_app_2; [done|by apply IH].
Qed.

(** ** Errors *)

Lemma generator_odd P : params_ok P -> Z.testbit (generator P) 0 = true.
Proof.
  intros (Hg & _ & _ & Ho & _). unfold generator. rewrite gen_lxor by done.
  rewrite Z.lxor_spec, Ho. rewrite Z.pow2_bits_false; [done|]. destruct Hg; lia.
Qed.
Lemma dividend_lxor P a b : length a = length b ->
  Z.lxor (dividend P a) (dividend P b) = Z.lxor (value a) (value b) * 2 ^ width P.
Proof.
  intros E. unfold dividend. rewrite E, lxor_swap, Z.lxor_nilpotent, Z.lxor_0_r.
  destruct (Z.le_gt_cases 0 (width P)); [by rewrite lxor_pow2|].
  rewrite Z.pow_neg_r by done. by rewrite !Z.mul_0_r.
Qed.
Lemma value_inj a b : length a = length b -> value a = value b -> a = b.
Proof.
  intros HL E. rewrite <- (rev_involutive a), <- (rev_involutive b). f_equal.
  apply (nth_ext _ _ false false); [by rewrite !rev_length|]. intros n _.
  pose proof (value_testbit a (Z.of_nat n) ltac:(lia)) as H1.
  pose proof (value_testbit b (Z.of_nat n) ltac:(lia)) as H2.
  rewrite Nat2Z.id in H1, H2. by rewrite <- H1, <- H2, E.
Qed.
Lemma burst_register V m1 m2 pre e1 e2 post : In V crc_variants -> bytes m1 -> bytes m2 ->
  message_bits (params V) m1 = pre ++ e1 ++ post ->
  message_bits (params V) m2 = pre ++ e2 ++ post ->
  length e1 = length e2 -> Z.of_nat (length e1) <= width (params V) ->
  register V m1 = register V m2 -> e1 = e2.
Proof.
  intros HV B1 B2 E1 E2 HL HW E.
  pose proof (register_remainder V m1 HV B1) as R1. pose proof (register_remainder V m2 HV B2) as R2.
  apply remainder_cong in R1 as [_ C1], R2 as [_ C2]. rewrite E in C1.
  pose proof (cong_trans _ _ _ _ C1 (cong_sym _ _ _ C2)) as C. clear C1 C2.
  destruct (variant V HV) as (HP & _). pose proof HP as (Hg & _). pose proof Hg as [Hw Hp].
  rewrite E1, E2 in C.
  assert (cong (generator (params V))
            (Z.lxor (value e1) (value e2) * 2 ^ (len post + width (params V))) 0) as C2.
  { assert (Z.lxor (dividend (params V) (pre ++ e1 ++ post)) (dividend (params V) (pre ++ e2 ++ post))
      = Z.lxor (value e1) (value e2) * 2 ^ (len post + width (params V))) as <-.
    { rewrite dividend_lxor by (rewrite !app_length; lia).
      pose proof (len_nonneg post). rewrite Z.pow_add_r, Z.mul_assoc by lia. f_equal.
      rewrite !value_app_lxor. rewrite !len_app. unfold len at 1 3. rewrite HL.
      rewrite lxor_swap, Z.lxor_nilpotent, Z.lxor_0_l.
      rewrite lxor_swap, Z.lxor_nilpotent, Z.lxor_0_r. by rewrite lxor_pow2. }
    destruct C as (q & Hq & C). exists q. split; [done|]. by rewrite Z.lxor_0_r. }
  rewrite <- (Z.mul_0_l (2 ^ (len post + width (params V)))) in C2.
  apply cong_unshift in C2; [|pose proof (len_nonneg post); lia|by apply generator_odd].
  apply (cong_small (width (params V))) in C2.
  - apply value_inj; [done|]. by apply Z.lxor_eq.
  - lia.
  - by apply gen_bound.
  - assert (2 ^ Z.of_nat (length e1) <= 2 ^ width (params V)) by (apply Z.pow_le_mono_r; lia).
    apply lxor_bound; [lia| |].
    + pose proof (value_bound e1). unfold len in *. lia.
    + pose proof (value_bound e2). unfold len in *. rewrite <- HL in *. lia.
  - split; [done|]. apply Z.pow_pos_nonneg; lia.
Qed.
Lemma burst V m1 m2 pre e1 e2 post c1 c2 : In V crc_variants -> bytes m1 -> bytes m2 ->
  message_bits (params V) m1 = pre ++ e1 ++ post ->
  message_bits (params V) m2 = pre ++ e2 ++ post ->
  length e1 = length e2 -> Z.of_nat (length e1) <= width (params V) -> e1 <> e2 ->
  run V m1 (len m1) true None = Ok c1 -> run V m2 (len m2) true None = Ok c2 -> c1 <> c2.
Proof.
  intros HV B1 B2 E1 E2 HL HW HN R1 R2 ->. apply HN.
  pose proof (run_whole V m1 [] HV B1) as W1. pose proof (run_whole V m2 [] HV B2) as W2.
  rewrite app_nil_r in W1, W2. rewrite W1 in R1. rewrite W2 in R2.
  apply (burst_register V m1 m2 pre e1 e2 post); try done.
  destruct (variant V HV) as (HP & _).
  apply (output_inj (params V)); [done|by apply register_bound|by apply register_bound|congruence].
Qed.

(** the same in bytes *)
Lemma message_bits_app P a b : message_bits P (a ++ b) = message_bits P a ++ message_bits P b.
Proof. unfold message_bits. by rewrite map_app, concat_app. Qed.
Lemma length_message_bits P a : Z.of_nat (length (message_bits P a)) = 8 * len a.
Proof. apply (len_in_bits (refin P)). Qed.
Lemma bits_of_inj n x y : 0 <= x < 2 ^ Z.of_nat n -> 0 <= y < 2 ^ Z.of_nat n ->
  bits_of n x = bits_of n y -> x = y.
Proof. intros Hx Hy E. rewrite <- (value_bits_of n x), <- (value_bits_of n y) by done. by rewrite E. Qed.
Lemma message_bits_inj P a b : bytes a -> bytes b -> message_bits P a = message_bits P b -> a = b.
Proof.
  intros Ha. revert b. induction a as [|x a IH]; intros [|y b] Hb E.
  - done.
  - apply (f_equal (fun l => Z.of_nat (length l))) in E. rewrite !length_message_bits in E.
    rewrite len_cons in E. pose proof (len_nonneg b). change (len (@nil Z)) with 0 in E. lia.
  - apply (f_equal (fun l => Z.of_nat (length l))) in E. rewrite !length_message_bits in E.
    rewrite len_cons in E. pose proof (len_nonneg a). change (len (@nil Z)) with 0 in E. lia.
  - apply list.Forall_cons in Ha as [Hx Ha]. apply list.Forall_cons in Hb as [Hy Hb].
    unfold message_bits in E. cbn [map concat] in E. apply app_inj_1 in E as [E1 E2].
    2: { pose proof (len_in_byte (refin P) x). pose proof (len_in_byte (refin P) y).
         unfold len in *. lia. }
    f_equal; [|by apply IH].
    apply (bits_of_inj 8); [done|done|]. destruct (refin P); [|done].
    apply (f_equal (@rev bool)) in E1. by rewrite !rev_involutive in E1.
Qed.
Lemma burst_bytes V pre x y post c1 c2 : In V crc_variants ->
  bytes (pre ++ x ++ post) -> bytes (pre ++ y ++ post) ->
  len x = len y -> 8 * len x <= width (params V) -> x <> y ->
  run V (pre ++ x ++ post) (len (pre ++ x ++ post)) true None = Ok c1 ->
  run V (pre ++ y ++ post) (len (pre ++ y ++ post)) true None = Ok c2 -> c1 <> c2.
Proof.
  intros HV B1 B2 HL HW HN R1 R2.
  eapply (burst V (pre ++ x ++ post) (pre ++ y ++ post) (message_bits (params V) pre)
    (message_bits (params V) x) (message_bits (params V) y) (message_bits (params V) post));
    try done; rewrite ?message_bits_app; try done.
  - apply Nat2Z.inj. by rewrite !length_message_bits, HL.
  - by rewrite length_message_bits.
  - intros E. apply HN. eapply message_bits_inj; [| |exact E].
    + apply list.Forall_app in B1 as [_ B1]. by apply list.Forall_app in B1 as [B1 _].
    + apply list.Forall_app in B2 as [_ B2]. by apply list.Forall_app in B2 as [B2 _].
Qed.
Lemma single_bit V pre b post k c1 c2 : In V crc_variants -> bytes (pre ++ b :: post) ->
  0 <= k < 8 ->
  run V (pre ++ b :: post) (len (pre ++ b :: post)) true None = Ok c1 ->
  run V (pre ++ Z.lxor b (2 ^ k) :: post) (len (pre ++ b :: post)) true None = Ok c2 -> c1 <> c2.
Proof.
  intros HV B Hk R1 R2.
  assert (0 <= 2 ^ k < 2 ^ 8) as Hp.
  { split; [apply Z.pow_nonneg; lia|]. apply Z.pow_lt_mono_r; lia. }
  pose proof B as B'. apply list.Forall_app in B' as [B1 B2]. apply list.Forall_cons in B2 as [B2 B3].
  change (b :: post) with ([b] ++ post) in *.
  change (Z.lxor b (2 ^ k) :: post) with ([Z.lxor b (2 ^ k)] ++ post) in *.
  eapply (burst_bytes V pre [b] [Z.lxor b (2 ^ k)] post); try done.
  - apply Forall_app_2; [done|]. apply Forall_app_2; [|done]. constructor; [|done].
    apply (lxor_bound _ _ 8); [lia|done|done].
  - destruct (variant V HV) as (((Hw & _) & _) & _). change (len [b]) with 1. lia.
  - intros [= E]. apply (f_equal (Z.lxor b)) in E.
    rewrite <- Z.lxor_assoc, Z.lxor_nilpotent, Z.lxor_0_l in E.
    assert (0 < 2 ^ k) by (apply Z.pow_pos_nonneg; lia). lia.
  - rewrite <- R2. f_equal. by rewrite !len_app.
Qed.

(** ** Affinity *)

Definition xor3 (a b c : list Z) : list Z := zip_with Z.lxor (zip_with Z.lxor a b) c.
Lemma byte_bits_lxor (r : bool) x y z :
  value (if r then rev (bits_of 8 (Z.lxor (Z.lxor x y) z)) else bits_of 8 (Z.lxor (Z.lxor x y) z))
  = Z.lxor (Z.lxor (value (if r then rev (bits_of 8 x) else bits_of 8 x))
              (value (if r then rev (bits_of 8 y) else bits_of 8 y)))
      (value (if r then rev (bits_of 8 z) else bits_of 8 z)).
Proof.
  apply bits_ext. intros k Hk. rewrite !Z.lxor_spec. destruct r.
  - rewrite !value_rev_bits_of by done. destruct (k <? Z.of_nat 8); [|done].
    cbn [andb]. by rewrite !Z.lxor_spec.
  - rewrite !value_testbit, !bits_of_rev_nth by done.
    destruct (Z.to_nat k <? 8)%nat; [|done]. cbn [andb]. by rewrite !Z.lxor_spec.
Qed.
Lemma lxor_swap3 x y z a b c :
  Z.lxor (Z.lxor (Z.lxor x y) z) (Z.lxor (Z.lxor a b) c)
  = Z.lxor (Z.lxor (Z.lxor x a) (Z.lxor y b)) (Z.lxor z c).
Proof. rewrite (lxor_swap (Z.lxor x y)). f_equal. apply lxor_swap. Qed.
Lemma bits_xor3 r a b c : length a = length b -> length b = length c ->
  value (in_bits r (xor3 a b c))
  = Z.lxor (Z.lxor (value (in_bits r a)) (value (in_bits r b))) (value (in_bits r c)).
Proof.
  revert b c. induction a as [|x a IH]; intros [|y b] [|z c] H1 H2; try done.
  cbn [length] in *. unfold xor3. cbn [zip_with].
  change (zip_with Z.lxor (zip_with Z.lxor a b) c) with (xor3 a b c).
  unfold in_bits. cbn [map concat].
  change (concat (map _ (xor3 a b c))) with (in_bits r (xor3 a b c)).
  change (concat (map _ a)) with (in_bits r a). change (concat (map _ b)) with (in_bits r b).
  change (concat (map _ c)) with (in_bits r c).
  rewrite !value_app_lxor, IH by lia. rewrite byte_bits_lxor, !len_in_bits.
  assert (len (xor3 a b c) = len a) as ->.
  { unfold len, xor3. rewrite !zip_with_length. lia. }
  replace (len b) with (len a) by (unfold len; lia).
  replace (len c) with (len a) by (unfold len; lia).
  pose proof (len_nonneg a). rewrite <- !lxor_pow2 by lia.
  apply lxor_swap3.
Qed.
Lemma affine V a b c ca cb cc : In V crc_variants -> bytes a -> bytes b -> bytes c ->
  len a = len b -> len b = len c ->
  run V a (len a) true None = Ok ca -> run V b (len b) true None = Ok cb ->
  run V c (len c) true None = Ok cc ->
  run V (zip_with Z.lxor (zip_with Z.lxor a b) c) (len a) true None
  = Ok (Z.lxor (Z.lxor ca cb) cc).
Proof.
  intros HV Ba Bb Bc L1 L2 Ra Rb Rc. unfold len in L1, L2.
  assert (bytes (xor3 a b c)) as Bx.
  { apply Forall_get_2. intros i Hi. unfold xor3.
    assert (len (xor3 a b c) = len a) as E.
    { unfold len, xor3. rewrite !zip_with_length. lia. }
    rewrite E in Hi. unfold get. unfold len in Hi.
    destruct (lookup_lt_is_Some_2 a (Z.to_nat i)) as [x Hx]; [lia|].
    destruct (lookup_lt_is_Some_2 b (Z.to_nat i)) as [y Hy]; [lia|].
    destruct (lookup_lt_is_Some_2 c (Z.to_nat i)) as [z Hz]; [lia|].
    assert (zip_with Z.lxor (zip_with Z.lxor a b) c !! Z.to_nat i = Some (Z.lxor (Z.lxor x y) z)) as EE.
    { by rewrite !lookup_zip_with, Hx, Hy, Hz. }
    apply list_lookup_total_correct in EE. rewrite EE.
    pose proof (Forall_lookup_1 _ _ _ _ Ba Hx). pose proof (Forall_lookup_1 _ _ _ _ Bb Hy).
    pose proof (Forall_lookup_1 _ _ _ _ Bc Hz).
    apply (lxor_bound _ _ 8); [lia| |done]. by apply (lxor_bound _ _ 8). }
  pose proof (run_whole V a [] HV Ba) as Wa. pose proof (run_whole V b [] HV Bb) as Wb.
  pose proof (run_whole V c [] HV Bc) as Wc. pose proof (run_whole V _ [] HV Bx) as Wx.
  rewrite app_nil_r in Wa, Wb, Wc, Wx.
  assert (len (xor3 a b c) = len a) as E.
  { unfold len, xor3. rewrite !zip_with_length. lia. }
  rewrite E in Wx. unfold xor3 in Wx. rewrite Wx.
  rewrite Ra in Wa. rewrite Rb in Wb. rewrite Rc in Wc.
  injection Wa as ->. injection Wb as ->. injection Wc as ->. f_equal.
  destruct (variant V HV) as (HP & _). pose proof HP as (Hg & _). pose proof Hg as [Hw Hp].
  assert (register V (xor3 a b c)
          = Z.lxor (Z.lxor (register V a) (register V b)) (register V c)) as ER.
  { apply (cong_small (width (params V)) (generator (params V))).
    - lia.
    - by apply gen_bound.
    - by apply register_bound.
    - apply lxor_bound; [lia| |by apply register_bound].
      apply lxor_bound; [lia|by apply register_bound|by apply register_bound].
    - pose proof (register_remainder V a HV Ba) as Ca. pose proof (register_remainder V b HV Bb) as Cb.
      pose proof (register_remainder V c HV Bc) as Cc. pose proof (register_remainder V _ HV Bx) as Cx.
      apply remainder_cong in Ca as [_ Ca], Cb as [_ Cb], Cc as [_ Cc], Cx as [_ Cx].
      eapply cong_trans; [apply cong_sym, Cx|].
      pose proof (cong_lxor _ _ _ _ _ (cong_lxor _ _ _ _ _ Ca Cb) Cc) as C.
      assert (dividend (params V) (message_bits (params V) (xor3 a b c))
        = Z.lxor (Z.lxor (dividend (params V) (message_bits (params V) a))
                    (dividend (params V) (message_bits (params V) b)))
            (dividend (params V) (message_bits (params V) c))) as ->; [|done].
      unfold dividend. change (message_bits (params V)) with (in_bits (refin (params V))).
      rewrite bits_xor3 by lia.
      assert (forall l, Z.of_nat (length (in_bits (refin (params V)) l)) = 8 * len l) as LB
        by (intros; apply len_in_bits).
      rewrite !LB, E. replace (len c) with (len a) by (unfold len; lia).
      replace (len b) with (len a) by (unfold len; lia).
      rewrite <- !lxor_pow2 by lia. rewrite (lxor_swap (value (in_bits _ a) * _)).
      rewrite Z.lxor_nilpotent, Z.lxor_0_r. by rewrite !Z.lxor_assoc. }
  unfold xor3 in ER. rewrite ER. rewrite !output_view, !view_lxor by lia.
  rewrite (lxor_swap (view _ (register V a))), Z.lxor_nilpotent, Z.lxor_0_r.
  by rewrite !Z.lxor_assoc.
Qed.
