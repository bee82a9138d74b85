(** * Residues and memory safety of the CRC functions *)
From Verif Require Import CSem Lib Model_Utils Model_Crc Model_CrcVariants Spec_Crc Drive_Crc
  Proof_Gf2 Proof_Crc Proof_CrcTable Proof_CrcAll Proof_CrcProps.

(** ** A CRC as bytes *)

Lemma bits_of_add n m x : bits_of (n + m) x = bits_of n (x / 2 ^ Z.of_nat m) ++ bits_of m x.
Proof.
  induction n as [|n IH]; cbn [bits_of Nat.add app]; [done|]. f_equal; [|done].
  rewrite <- Z.shiftr_div_pow2, Z.shiftr_spec by lia. f_equal. lia.
Qed.
Lemma bits_of_mod n x : bits_of n (x mod 2 ^ Z.of_nat n) = bits_of n x.
Proof.
  assert (forall m, (m <= n)%nat -> bits_of m (x mod 2 ^ Z.of_nat n) = bits_of m x) as H; [|by apply H].
  induction m as [|m IH]; intros Hm; [done|]. cbn [bits_of]. rewrite IH by lia. f_equal.
  by rewrite Z.mod_pow2_bits_low by lia.
Qed.
Lemma low_first_bits n x :
  concat (map (fun b => rev (bits_of 8 b))
            (map (fun i => (x / 2 ^ (8 * Z.of_nat i)) mod 2 ^ 8) (seq 0 n)))
  = rev (bits_of (8 * n) x).
Proof.
  induction n as [|n IH]; [done|].
  rewrite seq_S, !map_app, concat_app, IH. cbn [map concat]. rewrite app_nil_r, Nat.add_0_l.
  replace (8 * S n)%nat with (8 + 8 * n)%nat by lia. rewrite bits_of_add, rev_app_distr.
  f_equal. f_equal. change (2 ^ 8) with (2 ^ Z.of_nat 8). rewrite bits_of_mod.
  f_equal. f_equal. f_equal. lia.
Qed.
Lemma high_first_bits n x :
  concat (map (bits_of 8)
            (rev (map (fun i => (x / 2 ^ (8 * Z.of_nat i)) mod 2 ^ 8) (seq 0 n))))
  = bits_of (8 * n) x.
Proof.
  induction n as [|n IH]; [done|].
  rewrite seq_S, map_app, rev_app_distr. cbn [map rev app concat]. rewrite IH, Nat.add_0_l.
  replace (8 * S n)%nat with (8 + 8 * n)%nat by lia. rewrite bits_of_add.
  f_equal. change (2 ^ 8) with (2 ^ Z.of_nat 8). rewrite bits_of_mod.
  f_equal. f_equal. f_equal. lia.
Qed.
Lemma crc_bytes_value P c : params_ok P -> 0 <= c < 2 ^ width P ->
  value (message_bits P (crc_bytes P c)) = view P c.
Proof.
  intros ((Hw & _) & _ & _ & _ & Hr & Hm) Hc. unfold message_bits, crc_bytes, view. rewrite Hr.
  assert (8 * Z.to_nat (width P / 8) = Z.to_nat (width P))%nat as E by lia.
  destruct (refout P).
  - by rewrite low_first_bits, E.
  - change (fun b => bits_of 8 b) with (bits_of 8). rewrite high_first_bits, E.
    apply value_bits_of. by rewrite Z2Nat.id by lia.
Qed.
Lemma bytes_crc_bytes P c : bytes (crc_bytes P c).
Proof.
  assert (forall n, bytes (map (fun i => (c / 2 ^ (8 * Z.of_nat i)) mod 2 ^ 8) (seq 0 n))) as H.
  { intros n. apply List.Forall_forall. intros x Hx. apply in_map_iff in Hx as (i & <- & _).
    apply Z.mod_pos_bound. lia. }
  unfold crc_bytes. destruct (refout P); [apply H|]. apply List.Forall_rev, H.
Qed.
Lemma len_crc_bytes P c : params_ok P -> 8 * len (crc_bytes P c) = width P.
Proof.
  intros ((Hw & _) & _ & _ & _ & _ & Hm).
  assert (length (crc_bytes P c) = Z.to_nat (width P / 8)) as E.
  { unfold crc_bytes. destruct (refout P); rewrite ?rev_length, map_length, seq_length; done. }
  unfold len. rewrite E. lia.
Qed.

(** ** Residues *)

(** the register after a message and [c] *)
Lemma register_app V msg c : In V crc_variants -> bytes msg -> 0 <= c < 2 ^ width (params V) ->
  remainder (width (params V)) (generator (params V))
    (Z.lxor (view (params V) c) (register V msg) * 2 ^ width (params V))
    (register V (msg ++ crc_bytes (params V) c)).
Proof.
  intros HV Hm Hc. pose proof (register_bound V msg HV Hm) as HB.
  destruct (variant V HV) as (HP & HT & _). pose proof HP as (Hg & _). pose proof Hg as [Hw _].
  unfold register at 2. rewrite feed_app. change (feed _ _ _ msg _) with (register V msg).
  pose proof (feed_cong _ _ _ (refin (params V)) (crc_bytes (params V) c) (register V msg)
    Hg HT (bytes_crc_bytes _ _) HB) as H.
  rewrite len_in_bits, len_crc_bytes in H by done.
  change (in_bits (refin (params V))) with (message_bits (params V)) in H.
  rewrite crc_bytes_value in H by done. rewrite lxor_pow2 in H by lia. done.
Qed.
(** the register that follows a message with its CRC *)
Lemma residue_view P r : params_ok P ->
  is_residue P r <->
  exists s, remainder (width P) (generator P) (view P (xorout P) * 2 ^ width P) s /\
    r = output P s.
Proof.
  intros HP. pose proof HP as (_ & _ & Hx & _). unfold is_residue, is_crc, dividend, generator.
  cbn [width poly init refin refout xorout]. rewrite Z.mul_0_l, Z.lxor_0_r.
  change (message_bits _ (crc_bytes P (xorout P))) with (message_bits P (crc_bytes P (xorout P))).
  rewrite crc_bytes_value by done. done.
Qed.
Lemma cong_dec_register V x : variant_ok V -> 0 <= x < 2 ^ width (params V) ->
  exists s, remainder (width (params V)) (generator (params V)) (x * 2 ^ width (params V)) s.
Proof.
  intros (HP & HT & _) Hx. pose proof HP as (Hg & _ & _ & _ & Hr & _). pose proof Hg as [Hw _].
  (* feed the bytes of [x] to an empty register *)
  pose proof (feed_cong _ _ _ (refin (params V)) (crc_bytes (params V) (view (params V) x)) 0
    Hg HT (bytes_crc_bytes _ _) ltac:(split; [lia|apply Z.pow_pos_nonneg; lia])) as H.
  change (in_bits (refin (params V))) with (message_bits (params V)) in H.
  rewrite crc_bytes_value in H by (first [done|by apply view_bound; [lia|]]).
  rewrite view_view, Z.mul_0_l, Z.lxor_0_r in H by (try done; lia). eexists. exact H.
Qed.
Lemma residue V : In V crc_variants -> exists res, is_residue (params V) res /\
  forall msg rest c, bytes msg -> 0 <= c < 2 ^ width (params V) ->
    run V ((msg ++ crc_bytes (params V) c) ++ rest) (len (msg ++ crc_bytes (params V) c)) true None
      = Ok res <->
    run V msg (len msg) true None = Ok c.
Proof.
  intros HV. pose proof (variant V HV) as HVO. destruct (variant V HV) as (HP & HT & _).
  pose proof HP as (Hg & _ & Hx & _). pose proof Hg as [Hw _].
  destruct (cong_dec_register V (view (params V) (xorout (params V))) HVO) as (s & Hs).
  { apply view_bound; [lia|done]. }
  exists (output (params V) s). split; [apply residue_view; [done|]; by exists s|]. intros msg rest c Hm Hc.
  pose proof (run_whole V msg [] HV Hm) as W. rewrite app_nil_r in W. rewrite W.
  assert (bytes (msg ++ crc_bytes (params V) c)) as HB.
  { apply Forall_app_2; [done|apply bytes_crc_bytes]. }
  rewrite run_whole by done.
  pose proof (register_app V msg c HV Hm Hc) as HA.
  pose proof (register_bound V msg HV Hm) as HR.
  pose proof (register_bound V _ HV HB) as HRA.
  remember (register V (msg ++ crc_bytes (params V) c)) as ra. remember (register V msg) as r.
  assert (0 <= s < 2 ^ width (params V)) as HS by (by destruct Hs).
  split.
  - intros [= E]. f_equal. apply output_inj in E; [|done|done|done]. subst s.
    apply remainder_cong in HA as [_ CA]. apply remainder_cong in Hs as [_ CS].
    pose proof (cong_trans _ _ _ _ CA (cong_sym _ _ _ CS)) as C.
    apply cong_unshift in C; [|lia|by apply generator_odd].
    apply (cong_small (width (params V))) in C; [|lia|by apply gen_bound| |].
    + rewrite output_view.
      assert (r = Z.lxor (view (params V) c) (view (params V) (xorout (params V)))) as ->.
      { rewrite <- C, <- Z.lxor_assoc, Z.lxor_nilpotent, Z.lxor_0_l. done. }
      rewrite view_lxor, !view_view by (try done; lia). by rewrite lxor_cancel.
    + apply lxor_bound; [lia|apply view_bound; [lia|done]|done].
    + apply view_bound; [lia|done].
  - intros [= <-]. f_equal. f_equal.
    eapply remainder_unique; [|by apply gen_bound|exact HA|].
    + lia.
    + rewrite output_view, view_lxor, view_view by (try done; lia).
      rewrite (Z.lxor_comm r), lxor_cancel. done.
Qed.
Lemma residue_zero V : In V crc_variants -> xorout (params V) = 0 ->
  forall msg rest c, bytes msg -> 0 <= c < 2 ^ width (params V) ->
    run V ((msg ++ crc_bytes (params V) c) ++ rest) (len (msg ++ crc_bytes (params V) c)) true None
      = Ok 0 <->
    run V msg (len msg) true None = Ok c.
Proof.
  intros HV HX. destruct (residue V HV) as (res & HRes & H).
  destruct (variant V HV) as (HP & HT & _). pose proof HP as (Hg & _). pose proof Hg as [Hw _].
  apply residue_view in HRes as (s & Hs & ->); [|done].
  assert (forall w, flip w 0 = 0) as F0.
  { intros w. unfold flip. apply bits_ext. intros k Hk. rewrite value_rev_bits_of by done.
    rewrite !Z.bits_0. by rewrite andb_false_r. }
  assert (view (params V) 0 = 0) as V0 by (unfold view; by destruct (refout (params V))).
  assert (s = 0) as ->.
  { rewrite HX, V0, Z.mul_0_l in Hs.
    eapply remainder_unique; [|by apply gen_bound|exact Hs|].
    - lia.
    - apply remainder_cong. split; [split; [lia|apply Z.pow_pos_nonneg; lia]|apply cong_refl]. }
  rewrite output_view, V0, HX in H. exact H.
Qed.

(** ** Memory safety for every table *)

Lemma finish_bound w ro fx v r : 0 <= w -> 0 <= r < 2 ^ w -> 0 <= v < 2 ^ w ->
  0 <= finish w ro fx v r < 2 ^ w.
Proof.
  intros Hw Hr Hv. unfold finish. cbn zeta.
  assert (0 <= (if ro then value (rev (bits_of (Z.to_nat w) r)) else r) < 2 ^ w) as H.
  { destruct ro; [by apply flip_bound|done]. }
  destruct fx; [by apply lxor_bound|done].
Qed.
Definition is_base (w : Z) (f : list Z -> list Z -> Z -> Z -> Z -> bool -> bool -> bool -> outcome Z) : Prop :=
  forall t msg crc v ro ri fx, len t = 256 -> Forall (fun x => 0 <= x < 2 ^ w) t ->
    bytes msg -> 0 <= crc < 2 ^ w -> 0 <= v < 2 ^ w ->
    exists r, 0 <= r < 2 ^ w /\ forall rest, f t (msg ++ rest) (len msg) crc v ro ri fx = Ok r.
Lemma base8 : is_base 8 Crc8Base.
Proof.
  intros t msg crc v ro ri fx HL HT Hm Hc Hv. assert (table 8 t) as Ht by done. eexists.
  split; [|intros rest; by apply crc8_base]. apply finish_bound; [lia| |done]. by apply feed_bound.
Qed.
Lemma base16 : is_base 16 Crc16Base.
Proof.
  intros t msg crc v ro ri fx HL HT Hm Hc Hv. assert (table 16 t) as Ht by done. eexists.
  split; [|intros rest; by apply crc16_base]. apply finish_bound; [lia| |done]. by apply feed_bound.
Qed.
Lemma base32 : is_base 32 Crc32Base.
Proof.
  intros t msg crc v ro ri fx HL HT Hm Hc Hv. assert (table 32 t) as Ht by done. eexists.
  split; [|intros rest; by apply crc32_base]. apply finish_bound; [lia| |done]. by apply feed_bound.
Qed.

(** more bytes asked for than there are *)
Lemma cfor_short_ub (data : list Z) n (k : Z -> Z -> outcome Z) crc (rest : Z -> outcome Z) y :
  bind (cfor 0 (len data) (fun i crc => let! c := load data i in k c crc) crc) rest = Ok y ->
  len data < n ->
  cfor 0 n (fun i crc => let! c := load data i in k c crc) crc = UB OutOfBounds.
Proof.
  intros E Hn. pose proof (len_nonneg data). rewrite (cfor_split 0 (len data)) by lia.
  destruct (cfor 0 (len data) _ crc) as [z| |]; [|done|done]. cbn [bind].
  rewrite cfor_step by lia. by rewrite load_oob by lia.
Qed.
Definition is_base_short (w : Z) (f : list Z -> list Z -> Z -> Z -> Z -> bool -> bool -> bool -> outcome Z) : Prop :=
  forall t data n crc v ro ri fx, len t = 256 -> Forall (fun x => 0 <= x < 2 ^ w) t ->
    bytes data -> 0 <= crc < 2 ^ w -> 0 <= v < 2 ^ w -> len data < n ->
    f t data n crc v ro ri fx = UB OutOfBounds.
Lemma short8 : is_base_short 8 Crc8Base.
Proof.
  intros t msg n crc v ro ri fx HL HT Hm Hc Hv Hn.
  destruct (base8 t msg crc v ro ri fx HL HT Hm Hc Hv) as (r & _ & E). specialize (E []).
  rewrite app_nil_r in E. unfold Crc8Base in *. by rewrite (cfor_short_ub _ _ _ _ _ _ E Hn).
Qed.
Lemma short16 : is_base_short 16 Crc16Base.
Proof.
  intros t msg n crc v ro ri fx HL HT Hm Hc Hv Hn.
  destruct (base16 t msg crc v ro ri fx HL HT Hm Hc Hv) as (r & _ & E). specialize (E []).
  rewrite app_nil_r in E. unfold Crc16Base in *. by rewrite (cfor_short_ub _ _ _ _ _ _ E Hn).
Qed.
Lemma short32 : is_base_short 32 Crc32Base.
Proof.
  intros t msg n crc v ro ri fx HL HT Hm Hc Hv Hn.
  destruct (base32 t msg crc v ro ri fx HL HT Hm Hc Hv) as (r & _ & E). specialize (E []).
  rewrite app_nil_r in E. unfold Crc32Base in *. by rewrite (cfor_short_ub _ _ _ _ _ _ E Hn).
Qed.
(** the results of the 45 functions *)
Lemma run_range V msg rest fin last : In V crc_variants -> bytes msg ->
  (forall c, last = Some c -> 0 <= c < 2 ^ width (params V)) ->
  exists r, run V (msg ++ rest) (len msg) fin last = Ok r /\ 0 <= r < 2 ^ width (params V) /\
    run V msg (len msg) fin last = Ok r.
Proof.
  intros (HP & HT & HR)%variant Hm Hl. rewrite (HR msg rest fin last Hm Hl). eexists.
  split; [reflexivity|]. split.
  - assert (0 <= feed (width (params V)) (table_of V) (refin (params V)) msg
                  (default (init (params V)) last) < 2 ^ width (params V)) as H.
    { apply feed_bound; [apply HP|by eapply table_for_table|done|].
      destruct last as [c|]; [by apply Hl|apply HP]. }
    destruct fin; [by apply output_bound|done].
  - pose proof (HR msg [] fin last Hm Hl) as E. by rewrite app_nil_r in E.
Qed.

(** ** Refutations *)

(** entry 1 of a table is the polynomial *)
Lemma is_table_poly w p t : gen_ok w p -> is_table w (2 ^ w + p) t -> nth 1 t 0 = p.
Proof.
  intros Hg [_ Ht]. specialize (Ht 1%nat ltac:(lia)). change (Z.of_nat 1) with 1 in Ht.
  rewrite Z.mul_1_l in Ht. pose proof Hg as [Hw Hp].
  apply (remainder_unique w (2 ^ w + p) (2 ^ w)); [lia|by apply gen_bound|done|].
  apply remainder_cong. split; [done|by apply gen_cong].
Qed.
Lemma documented_wrong :
  ~ is_table 32 (2 ^ 32 + 0x4C11DB7) Crc32_d_table /\
  ~ is_table 32 (2 ^ 32 + 0xA833982B) Crc32_posix_table /\
  ~ is_table 32 (2 ^ 32 + 0x4C11DB7) Crc32_q_table /\
  ~ is_table 32 (2 ^ 32 + 0xAF) Crc32_q_table /\
  ~ is_table 32 (2 ^ 32 + 0x4C11DB7) Crc32_xfer_table.
Proof.
  repeat split; intros H%is_table_poly; try (split; lia); vm_compute in H; discriminate H.
Qed.
(** passing the result of a final call on *)
Lemma final_passed_on_wrong : exists V a b c, In V crc_variants /\ bytes a /\ bytes b /\
  run V a (len a) true None = Ok c /\
  run V b (len b) true (Some c) <> run V (a ++ b) (len (a ++ b)) true None.
Proof.
  exists (Crc_variant crc32 Crc32_table Crc32), [1], [2]. eexists.
  split; [unfold crc_variants; cbn [In]; tauto|].
  split; [by repeat constructor|]. split; [by repeat constructor|].
  split; [vm_compute; reflexivity|]. vm_compute. discriminate.
Qed.
(** a burst of w + 1 bits *)
Lemma longer_burst_missed : exists V pre e1 e2 post m1 m2, In V crc_variants /\
  bytes m1 /\ bytes m2 /\
  message_bits (params V) m1 = pre ++ e1 ++ post /\ message_bits (params V) m2 = pre ++ e2 ++ post /\
  length e1 = length e2 /\ Z.of_nat (length e1) = width (params V) + 1 /\ e1 <> e2 /\
  run V m1 (len m1) true None = run V m2 (len m2) true None.
Proof.
  exists (Crc_variant crc8 Crc8_table (fun d n _ last => Crc8 d n last)),
    (replicate 7 false), (bits_of 9 0x107), (replicate 9 false), [], [1; 7], [0; 0].
  split; [unfold crc_variants; cbn [In]; tauto|].
  split; [by repeat constructor|]. split; [by repeat constructor|].
  split; [vm_compute; reflexivity|]. split; [vm_compute; reflexivity|]. split; [done|].
  split; [done|]. split; [vm_compute; discriminate|]. vm_compute. reflexivity.
Qed.
