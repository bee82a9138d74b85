(** * The CRC functions compute remainders *)
From Verif Require Import CSem Lib Model_Utils Model_Crc Spec_Utils Spec_Crc Proof_Utils Proof_Gf2.
Local Notation lxor_nonneg := Proof_Gf2.lxor_nonneg.

(** ** The three base functions as folds *)

(** a message byte as a number, in the order of its bits *)
Definition in_byte (refin : bool) (c : Z) : Z :=
  value (if refin then rev (bits_of 8 c) else bits_of 8 c).
(** the register after one more byte *)
Definition step (w : Z) (t : list Z) (crc b : Z) : Z :=
  Z.lxor ((crc * 2 ^ 8) mod 2 ^ w) (get t (Z.lxor (crc / 2 ^ (w - 8)) b)).
Definition feed (w : Z) (t : list Z) (refin : bool) (msg : list Z) (crc : Z) : Z :=
  fold_left (fun crc c => step w t crc (in_byte refin c)) msg crc.
Definition finish (w : Z) (reflected_output final_xor : bool) (final_xor_value r : Z) : Z :=
  let r := if reflected_output then value (rev (bits_of (Z.to_nat w) r)) else r in
  if final_xor then Z.lxor r final_xor_value else r.

(** tables of 256 entries below 2^w *)
Definition table (w : Z) (t : list Z) : Prop := len t = 256 /\ Forall (fun x => 0 <= x < 2 ^ w) t.

Lemma reflect_value w x : 0 <= w <= 32 -> is_u32 x ->
  BitManipulation_reflect x w = Ok (value (rev (bits_of (Z.to_nat w) x))).
Proof.
  intros Hw Hx. destruct (reflect_ok x w) as (r & -> & Hr & Hk); [done|done|].
  f_equal. apply Proof_Gf2.bits_ext. intros k H. rewrite Hk by done.
  rewrite value_rev_bits_of by done. unfold mirror_bit. by rewrite Z2Nat.id by lia.
Qed.
Lemma value_rev_bound n x : 0 <= value (rev (bits_of n x)) < 2 ^ Z.of_nat n.
Proof.
  pose proof (value_bound (rev (bits_of n x))) as H.
  unfold len in H. by rewrite rev_length, bits_of_length in H.
Qed.
Lemma in_byte_bound r c : 0 <= c < 256 -> 0 <= in_byte r c < 256.
Proof.
  intros Hc. unfold in_byte. destruct r; [apply (value_rev_bound 8)|].
  rewrite value_bits_of; lia.
Qed.
Lemma crc_input_ok r c : 0 <= c < 256 -> crc_input r c = Ok (in_byte r c).
Proof.
  intros Hc. unfold crc_input. destruct r.
  - rewrite reflect_value by (unfold is_u32, REFLECTED_INPUT_BITS_NUM; lia). cbn [bind].
    f_equal. unfold in_byte. unfold REFLECTED_INPUT_BITS_NUM. change (Z.to_nat 8) with 8%nat.
    unfold u8. rewrite Z.mod_small; [done|]. apply (value_rev_bound 8).
  - unfold in_byte. by rewrite value_bits_of.
Qed.

Lemma step_bound w t crc b : 8 <= w -> table w t -> 0 <= crc < 2 ^ w -> 0 <= b < 256 ->
  0 <= step w t crc b < 2 ^ w /\ 0 <= Z.lxor (crc / 2 ^ (w - 8)) b < 256.
Proof.
  intros Hw [Hl Ht] Hc Hb.
  assert (2 ^ w = 2 ^ (w - 8) * 256) as E.
  { replace w with ((w - 8) + 8) at 1 by lia. rewrite Z.pow_add_r by lia. done. }
  assert (0 < 2 ^ (w - 8)) by (apply Z.pow_pos_nonneg; lia).
  assert (0 <= crc / 2 ^ (w - 8) < 256) as H1.
  { split; [apply Z.div_pos; lia|]. apply Z.div_lt_upper_bound; lia. }
  assert (0 <= Z.lxor (crc / 2 ^ (w - 8)) b < 256) as H2 by (apply (lxor_bound _ _ 8); lia).
  split; [|done]. unfold step. apply lxor_bound; [lia| |].
  - apply Z.mod_pos_bound. lia.
  - apply (Forall_get _ _ _ Ht). lia.
Qed.
Lemma feed_bound w t r msg crc : 8 <= w -> table w t -> bytes msg -> 0 <= crc < 2 ^ w ->
  0 <= feed w t r msg crc < 2 ^ w.
Proof.
  intros Hw Ht Hm. revert crc. induction msg as [|c msg IH]; intros crc Hc; [done|].
  apply list.Forall_cons in Hm as [H1 H2]. apply IH; [done|].
  apply step_bound; [done|done|done|]. by apply in_byte_bound.
Qed.

(** a loop that reads one byte per turn *)
Lemma cfor_feed w t r msg rest crc (body : Z -> Z -> outcome Z) :
  8 <= w -> table w t -> bytes msg -> 0 <= crc < 2 ^ w ->
  (forall i crc c, load (msg ++ rest) i = Ok c -> 0 <= c < 256 -> 0 <= crc < 2 ^ w ->
     body i crc = Ok (step w t crc (in_byte r c))) ->
  cfor 0 (len msg) body crc = Ok (feed w t r msg crc).
Proof.
  intros Hw Ht Hm Hc Hbody.
  assert (forall done todo, msg = done ++ todo ->
    cfor 0 (len done) body crc = Ok (feed w t r done crc)) as H.
  { induction done as [|c done IH] using rev_ind; intros todo E; [by apply cfor_empty|].
    rewrite len_app. change (len [c]) with 1. pose proof (len_nonneg done).
    rewrite (cfor_split 0 (len done)) by lia.
    rewrite (IH ([c] ++ todo)) by (by rewrite <- app_assoc in E). cbn [bind].
    rewrite cfor_step by lia. subst msg. apply list.Forall_app in Hm as [Hm _].
    apply list.Forall_app in Hm as [Hm Hx]. apply list.Forall_cons in Hx as [Hx _].
    rewrite (Hbody _ _ c).
    - cbn [bind]. rewrite cfor_empty by lia. unfold feed. by rewrite fold_left_app.
    - rewrite <- !app_assoc. by apply load_app.
    - done.
    - by apply feed_bound. }
  apply (H msg []). by rewrite app_nil_r.
Qed.

Lemma u8_lxor_finish r v fx : 0 <= r < 256 -> 0 <= v < 256 ->
  (if fx : bool then u8 (Z.lxor r v) else r) = (if fx then Z.lxor r v else r).
Proof.
  intros Hr Hv. destruct fx; [|done]. apply Z.mod_small. apply (lxor_bound _ _ 8); lia.
Qed.

Lemma crc8_base t msg rest crc v ro ri fx :
  table 8 t -> bytes msg -> 0 <= crc < 2 ^ 8 -> 0 <= v < 2 ^ 8 ->
  Crc8Base t (msg ++ rest) (len msg) crc v ro ri fx
  = Ok (finish 8 ro fx v (feed 8 t ri msg crc)).
Proof.
  intros Ht Hm Hc Hv. unfold Crc8Base.
  rewrite (cfor_feed 8 t ri msg rest) by
    (try done; intros i x c Hl Hc' Hx; rewrite Hl; cbn [bind]; rewrite crc_input_ok by done;
     cbn [bind]; pose proof (step_bound 8 t x (in_byte ri c) ltac:(lia) Ht Hx (in_byte_bound ri c Hc'));
     unfold step in *; change (2 ^ (8 - 8)) with 1 in *; rewrite Z.div_1_r in *;
     rewrite Z_mod_mult, Z.lxor_0_l; unfold u8; rewrite Z.mod_small by lia;
     apply load_ok; destruct Ht; lia).
  pose proof (feed_bound 8 t ri msg crc ltac:(lia) Ht Hm Hc) as Hf.
  remember (feed 8 t ri msg crc) as x. cbn [bind]. unfold finish. destruct ro.
  - rewrite reflect_value by (unfold is_u32; lia). cbn [bind].
    pose proof (value_rev_bound (Z.to_nat 8) x) as Hy.
    remember (value (rev (bits_of (Z.to_nat 8) x))) as y. change (2 ^ Z.of_nat (Z.to_nat 8)) with 256 in Hy.
    assert (u8 y = y) as -> by (by apply Z.mod_small). f_equal. by apply u8_lxor_finish.
  - cbn [bind]. f_equal. by apply u8_lxor_finish.
Qed.
Lemma crc16_base t msg rest crc v ro ri fx :
  table 16 t -> bytes msg -> 0 <= crc < 2 ^ 16 -> 0 <= v < 2 ^ 16 ->
  Crc16Base t (msg ++ rest) (len msg) crc v ro ri fx
  = Ok (finish 16 ro fx v (feed 16 t ri msg crc)).
Proof.
  intros Ht Hm Hc Hv. unfold Crc16Base.
  rewrite (cfor_feed 16 t ri msg rest); try done.
  - pose proof (feed_bound 16 t ri msg crc ltac:(lia) Ht Hm Hc) as Hf.
    remember (feed 16 t ri msg crc) as x. cbn [bind]. unfold finish. destruct ro.
    + rewrite reflect_value by (unfold is_u32; lia). cbn [bind].
      pose proof (value_rev_bound (Z.to_nat 16) x) as Hy.
      remember (value (rev (bits_of (Z.to_nat 16) x))) as y.
      change (2 ^ Z.of_nat (Z.to_nat 16)) with (2 ^ 16) in Hy.
      assert (u16 y = y) as -> by (by apply Z.mod_small). f_equal. destruct fx; [|done].
      apply Z.mod_small. by apply lxor_bound.
    + cbn [bind]. f_equal. destruct fx; [|done]. apply Z.mod_small. by apply lxor_bound.
  - intros i x c Hl Hc' Hx. rewrite Hl. cbn [bind]. rewrite crc_input_ok by done. cbn [bind].
    pose proof (step_bound 16 t x (in_byte ri c) ltac:(lia) Ht Hx (in_byte_bound ri c Hc')) as [H1 H2].
    change (2 ^ (16 - 8)) with (2 ^ 8) in H2. rewrite Z.shiftr_div_pow2 by lia.
    unfold u8. rewrite (Z.mod_small (Z.lxor _ _)) by done.
    rewrite load_ok by (destruct Ht; lia). cbn [bind]. f_equal.
    rewrite Z.shiftl_mul_pow2 by lia. rewrite <- (Z.mod_small (step _ _ _ _) (2 ^ 16)) by done.
    unfold u16, step. change (2 ^ (16 - 8)) with (2 ^ 8).
    apply Proof_Gf2.bits_ext. intros n Hn. destruct (Z.lt_ge_cases n 16).
    + rewrite !Z.mod_pow2_bits_low, !Z.lxor_spec by lia. by rewrite Z.mod_pow2_bits_low by lia.
    + by rewrite !Z.mod_pow2_bits_high by lia.
Qed.
Lemma crc32_base t msg rest crc v ro ri fx :
  table 32 t -> bytes msg -> 0 <= crc < 2 ^ 32 -> 0 <= v < 2 ^ 32 ->
  Crc32Base t (msg ++ rest) (len msg) crc v ro ri fx
  = Ok (finish 32 ro fx v (feed 32 t ri msg crc)).
Proof.
  intros Ht Hm Hc Hv. unfold Crc32Base.
  rewrite (cfor_feed 32 t ri msg rest); try done.
  - pose proof (feed_bound 32 t ri msg crc ltac:(lia) Ht Hm Hc) as Hf.
    remember (feed 32 t ri msg crc) as x. cbn [bind]. unfold finish. destruct ro.
    + rewrite reflect_value by (unfold is_u32; lia). done.
    + done.
  - intros i x c Hl Hc' Hx. rewrite Hl. cbn [bind]. rewrite crc_input_ok by done. cbn [bind].
    pose proof (step_bound 32 t x (in_byte ri c) ltac:(lia) Ht Hx (in_byte_bound ri c Hc')) as [H1 H2].
    change (2 ^ (32 - 8)) with (2 ^ 24) in H2. rewrite Z.shiftr_div_pow2 by lia.
    unfold u8. rewrite (Z.mod_small (Z.lxor _ _)) by done.
    rewrite load_ok by (destruct Ht; lia). cbn [bind]. f_equal.
    rewrite Z.shiftl_mul_pow2 by lia. done.
Qed.
