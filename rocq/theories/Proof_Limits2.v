(** * Sizes beyond which maps, sorts, the cipher and the JSON search leave their contract *)
From Verif Require Import Lib Model_Utils Model_Containers Model_Sort Model_Crypto Model_Json Spec_Utils Spec_Queue Spec_Map
  Spec_Json Drive_Map Proof_Utils Proof_Queue Proof_Map Proof_SortEnd Proof_Term Proof_Json Proof_JsonFind.

(** ** map.c *)

Lemma le_bytes_inj n i j : 0 <= i < 256 ^ Z.of_nat n -> 0 <= j < 256 ^ Z.of_nat n ->
  le_bytes n i = le_bytes n j -> i = j.
Proof.
  intros Hi Hj H. apply (f_equal le_value) in H. rewrite !le_value_bytes in H.
  by rewrite !Z.mod_small in H by lia.
Qed.

(** absent key, free place, offset beyond 2 GiB *)
Lemma map_insert_ub m key v d : Map_getValue (Some m) key d = Ok (false, d) ->
  m_current_size m <> m_max_map_size m ->
  2 ^ 31 <= m_current_size m * m_key_size m \/ 2 ^ 31 <= m_current_size m * m_value_size m ->
  exists k, Map_insert (Some m) key v = UB k.
Proof.
  intros Hg Hm Ho. destruct (Map_insert (Some m) key v) as [[s m']|k|] eqn:E; [|eauto|].
  - exfalso. unfold Map_insert, Map_getValue in *.
    destruct (Map_GetIndex m key (m_current_size m)) as [idx| |]; cbn [bind] in *; try done.
    destruct (idx =? INDEX_NOT_FOUND); cbn [negb] in *.
    + destruct (Z.eqb_spec (m_current_size m) (m_max_map_size m)); [done|]. cbn [negb] in E.
      apply bind_ok_inv in E as (ko & E1 & E). apply ck32_inv in E1 as [-> E1].
      apply bind_ok_inv in E as (ks & E2 & E). apply bind_ok_inv in E as (vo & E3 & E).
      apply ck32_inv in E3 as [-> E3]. lia.
    + apply bind_ok_inv in Hg as (vo & E1 & Hg). apply bind_ok_inv in Hg as (vv & E2 & Hg). done.
  - exfalso. apply (proj1 (proj2 (map_nd (Some m) None None 0 0 0 key v))) in E. done.
Qed.

Section maplimit.
  Context (mx ks vs : Z) (Hmx : 0 < mx < 2 ^ 31) (Hks : 0 < ks < 2 ^ 31) (Hvs : 0 < vs < 2 ^ 31)
    (Hfew : mx <= 256 ^ ks).

  Definition nth_key (i : Z) : list Z := le_bytes (Z.to_nat ks) i.
  Lemma len_nth_key i : len (nth_key i) = ks.
  Proof. unfold nth_key. rewrite len_le_bytes. lia. Qed.
  Lemma nth_key_inj i j : 0 <= i < mx -> 0 <= j < mx -> nth_key i = nth_key j -> i = j.
  Proof.
    intros Hi Hj. apply le_bytes_inj; rewrite Z2Nat.id by lia; lia.
  Qed.
  Definition holds_first (n : Z) (m : Map_t) : Prop :=
    m_current_size m = n /\ m_max_map_size m = mx /\ m_key_size m = ks /\ m_value_size m = vs /\
    mx * ks <= len (m_keys m) /\ forall i, 0 <= i < n -> slice (m_keys m) (i * ks) ks = nth_key i.

  Lemma insert_next n m v s m' : holds_first n m -> 0 <= n < mx ->
    Map_insert (Some m) (nth_key n) v = Ok (s, m') ->
    n * ks < 2 ^ 31 /\ n * vs < 2 ^ 31 /\ exists m2, m' = Some m2 /\ holds_first (n + 1) m2.
  Proof.
    intros (H1 & H2 & H3 & H4 & H5 & H6) Hn E. unfold Map_insert in E.
    apply bind_ok_inv in E as (idx & Ei & E). rewrite H1, H2, H3, H4 in *.
    assert (idx = INDEX_NOT_FOUND) as ->.
    { unfold Map_GetIndex in Ei. apply bind_ok_inv in Ei as ([i' idx'] & Ew & [= ->]).
      revert Ew. set (W := (i', idx)). intros Ew.
      assert (W.2 = INDEX_NOT_FOUND); [|done]. revert Ew.
      intros Ew. eapply (cwhile_inv (fun '(i, x) => 0 <= i /\ x = INDEX_NOT_FOUND)
        (fun w => w.2 = INDEX_NOT_FOUND)) in Ew; [done|done|..].
      - intros [i x] [j y] [Hi ->] Hc Eb. rewrite H3 in Eb.
        apply bind_ok_inv in Eb as (o & _ & Eb). apply bind_ok_inv in Eb as (eq & _ & Eb).
        destruct eq; [done|]. injection Eb as <- <-. split; [lia|done].
      - intros [i x] [j y] [Hi ->] Hc Eb. exfalso. rewrite H3 in Eb.
        apply bind_ok_inv in Eb as (o & Eo & Eb). apply ck32_inv in Eo as [-> Eo].
        apply bind_ok_inv in Eb as (eq & Ee & Eb). destruct eq; [|done].
        unfold memcmp_eq in Ee. destruct (_ && _) in Ee; [|done]. injection Ee as Ee.
        apply bool_decide_eq_true in Ee. rewrite u64_small in Ee by lia.
        rewrite H6 in Ee by lia. rewrite slice_0_take, take_ge in Ee
          by (pose proof (len_nth_key n) as L; unfold len in L; lia).
        apply nth_key_inj in Ee; lia.
      - intros [i x] [Hi ->] _. done. }
    change (INDEX_NOT_FOUND =? INDEX_NOT_FOUND) with true in E. cbv iota in E.
    destruct (Z.eqb_spec n mx); [lia|]. cbn [negb] in E.
    apply bind_ok_inv in E as (ko & E1 & E). apply ck32_inv in E1 as [-> E1].
    apply bind_ok_inv in E as (kk & E2 & E). apply memcpy_inv in E2 as (_ & E2a & E2b & _ & E2c & ->).
    apply bind_ok_inv in E as (vo & E3 & E). apply ck32_inv in E3 as [-> E3].
    apply bind_ok_inv in E as (vv & E4 & E). apply bind_ok_inv in E as (cs & E5 & E).
    apply ck32_inv in E5 as [-> E5]. injection E as <- <-.
    rewrite u64_small in * by lia.
    split; [lia|]. split; [lia|]. eexists. split; [done|].
    assert (n * ks + ks <= mx * ks) by nia.
    rewrite slice_0_take, take_ge by (pose proof (len_nth_key n) as L; unfold len in L; lia).
    pose proof (len_nth_key n). unfold holds_first. cbn. rewrite len_write by lia.
    split; [done|]. split; [done|]. split; [done|]. split; [done|]. split; [lia|].
    intros i Hi. destruct (Z.eq_dec i n) as [->|].
    - pose proof (slice_write_same (m_keys m) (nth_key n) (n * ks)) as W. rewrite len_nth_key in W. apply W; lia.
    - assert (i * ks + ks <= n * ks) by nia. assert (0 <= i * ks) by nia.
      rewrite slice_write_disjoint by lia. apply H6. lia.
  Qed.

  Lemma insert_all k a m v rs m' : holds_first (Z.of_nat a) m -> Z.of_nat (a + S k) <= mx ->
    map_run (map (fun i => Insert (nth_key (Z.of_nat i)) v) (seq a (S k))) (Some m) = Ok (rs, m') ->
    Z.of_nat (a + k) * ks < 2 ^ 31 /\ Z.of_nat (a + k) * vs < 2 ^ 31.
  Proof.
    revert a m rs m'. induction k as [|k IH]; intros a m rs m' Hm Hk E;
      match type of E with context [seq a (S ?j)] => change (seq a (S j)) with (a :: seq (S a) j) in E end;
      rewrite map_cons in E;
      cbn [map_run map_model_step] in E; apply bind_ok_inv in E as ([r m1] & E1 & E);
      apply bind_ok_inv in E1 as ([s m2] & E1 & E1'); apply insert_next in E1; [|done|lia| |done|lia].
    - rewrite Nat.add_0_r. tauto.
    - injection E1' as <- <-. destruct E1 as (_ & _ & m3 & -> & Hm3).
      apply bind_ok_inv in E as ([rs' m4] & E & _).
      replace (a + S k)%nat with (S a + k)%nat by lia. apply (IH (S a) m3 rs' m4); [|lia|done].
      by replace (Z.of_nat (S a)) with (Z.of_nat a + 1) by lia.
  Qed.

  Lemma map_limit :
    (forall keys vals m0 ops, mx * ks <= len keys -> mx * vs <= len vals -> Forall (mop_ok ks vs) ops ->
       exists m1 m2, Map_init (Some m0) (Some keys) (Some vals) ks vs mx = Ok (true, Some m1) /\
         map_run ops (Some m1) = Ok ((map_ops mx ks vs ops ∅).1, Some m2))
    <-> (mx - 1) * ks < 2 ^ 31 /\ (mx - 1) * vs < 2 ^ 31.
  Proof.
    split.
    - intros H.
      assert (exists n, Z.of_nat n = mx * ks) as (n & Hn) by (exists (Z.to_nat (mx * ks)); nia).
      assert (exists n, Z.of_nat n = mx * vs) as (l & Hl) by (exists (Z.to_nat (mx * vs)); nia).
      assert (exists n, Z.of_nat n = vs) as (w & Hw) by (exists (Z.to_nat vs); lia).
      assert (exists n, Z.of_nat (S n) = mx) as (k & Hk) by (exists (Z.to_nat (mx - 1)); lia).
      destruct (H (replicate n 0) (replicate l 0) (mkMap [] [] 0 0 0 0)
        (map (fun i => Insert (nth_key (Z.of_nat i)) (replicate w 0)) (seq 0 (S k)))) as (m1 & m2 & E1 & E2).
      { rewrite len_replicate. lia. }
      { rewrite len_replicate. lia. }
      { apply Forall_forall. intros x Hx. apply in_map_iff in Hx as (i & <- & _). cbn [mop_ok].
        rewrite replicate_length. pose proof (len_nth_key (Z.of_nat i)) as L. unfold len in L. lia. }
      rewrite minit_accepts in E1 by lia. injection E1 as <-.
      apply insert_all in E2; [| |lia].
      + replace (Z.of_nat (0 + k)) with (mx - 1) in E2 by lia. done.
      + unfold holds_first. cbn [m_current_size m_max_map_size m_key_size m_value_size m_keys].
        rewrite len_replicate. repeat split; try lia.
    - intros [Ha Hb] keys vals m0 ops Hk Hv Ho. apply map_behaves; [|done]. unfold map_sizes. lia.
  Qed.
End maplimit.

(** ** The sorts *)

Lemma cfor_each {S} a b (body : Z -> S -> outcome S) s r i : cfor a b body s = Ok r -> a <= i < b ->
  exists s1 s2, body i s1 = Ok s2.
Proof.
  intros H Hi. rewrite (cfor_split a i b) in H by lia. apply bind_ok_inv in H as (s1 & _ & H).
  rewrite cfor_step in H by lia. apply bind_ok_inv in H as (s2 & H & _). eauto.
Qed.
Lemma not_ok_ub {A} (o : outcome A) : o <> Diverge -> (forall x, o = Ok x -> False) -> exists k, o = UB k.
Proof. destruct o as [x|k|]; intros H1 H2; [by destruct (H2 x)|eauto|done]. Qed.

Section sorts.
  Context (cmp : list Z -> list Z -> bool) (m : list Z) (base n es : Z)
    (Hn : 2 <= n < 2 ^ 31) (Hw : 2 ^ 31 <= (n - 1) * es).

  Lemma bubble_limit : exists k, BubbleSort_sort cmp m base n es = UB k.
  Proof.
    apply not_ok_ub; [apply bubble_nd|]. intros x E. unfold BubbleSort_sort in E.
    apply bind_ok_inv in E as ([[m1 s1] i1] & E & _). cbn [cwhile] in E. rewrite ck32_ok in E by lia.
    cbn [bind] in E. rewrite ck32_ok in E by lia. cbn [bind] in E.
    apply bind_ok_inv in E as (c & E & _). apply bind_ok_inv in E as ([m2 s2] & E & _).
    apply (cfor_each _ _ _ _ _ (n - 2)) in E as ([m3 s3] & r3 & E); [|lia].
    apply bind_ok_inv in E as (o1 & _ & E). apply bind_ok_inv in E as (o2 & E & _).
    apply ck32_inv in E as [_ E]. replace (n - 2 + 1) with (n - 1) in E by lia. lia.
  Qed.
  Lemma selection_limit : exists k, SelectionSort_sort cmp m base n es = UB k.
  Proof.
    apply not_ok_ub; [apply selection_nd|]. intros x E. unfold SelectionSort_sort in E.
    rewrite ck32_ok in E by lia. cbn [bind] in E.
    apply (cfor_each _ _ _ _ _ 0) in E as (m3 & r3 & E); [|lia].
    apply bind_ok_inv in E as (mi & E & _).
    apply (cfor_each _ _ _ _ _ (n - 1)) in E as (k3 & r4 & E); [|lia].
    apply bind_ok_inv in E as (o1 & _ & E). apply bind_ok_inv in E as (o2 & E & _).
    apply ck32_inv in E as [_ E]. lia.
  Qed.
  Lemma insertion_limit el : exists k, InsertionSort_sort cmp m el base n es = UB k.
  Proof.
    apply not_ok_ub; [apply insertion_nd|]. intros x E. unfold InsertionSort_sort in E.
    apply (cfor_each _ _ _ _ _ (n - 1)) in E as ([m3 e3] & r3 & E); [|lia].
    apply bind_ok_inv in E as (o2 & E & _). apply ck32_inv in E as [_ E]. lia.
  Qed.
  Lemma heap_limit : exists k, HeapSort_sort cmp m base n es = UB k.
  Proof.
    apply not_ok_ub; [apply heap_nd|]. intros x E. unfold HeapSort_sort in E.
    apply bind_ok_inv in E as (t & _ & E). apply bind_ok_inv in E as (m1 & _ & E).
    rewrite ck32_ok in E by lia. cbn [bind] in E. rewrite cford_step in E by lia.
    apply bind_ok_inv in E as (m2 & E & _). apply bind_ok_inv in E as (o2 & E & _).
    apply ck32_inv in E as [_ E]. lia.
  Qed.
End sorts.

(** ** chacha20.c *)

Lemma crypt_nothing m p key nonce inc r : Chacha20_crypt m p 0 key nonce inc r = Ok m.
Proof. done. Qed.

Lemma des_cases o p : 0 <= p ->
  (p + 4 <= len o /\ exists x, Utils_deserialize32LE o p = Ok x) \/
  (len o < p + 4 /\ Utils_deserialize32LE o p = UB OutOfBounds).
Proof.
  intros Hp. unfold Utils_deserialize32LE. destruct (Z.le_gt_cases (p + 4) (len o)).
  - left. split; [done|]. rewrite !load_ok by lia. cbn [bind]. eauto.
  - right. split; [done|]. rewrite (load_oob _ (p + 3)) by lia. done.
Qed.
Lemma block_short key counter nonce out : len key < 32 \/ len nonce < 12 ->
  Block key counter nonce out = UB OutOfBounds.
Proof.
  intros H. unfold Block, chacha_init.
  repeat match goal with |- context [Utils_deserialize32LE ?o ?p] =>
    destruct (des_cases o p) as [(? & ? & ->)|[? ->]]; cbn [bind]; [lia| |done] end.
  lia.
Qed.
Lemma crypt_short m p n key nonce inc r : 0 < n -> len key < 32 \/ len nonce < 12 ->
  Chacha20_crypt m p n key nonce inc r = UB OutOfBounds.
Proof.
  intros Hn H. unfold Chacha20_crypt, BLOCK_SIZE. destruct (Z.lt_ge_cases n 64).
  - rewrite cfor_empty by lia. cbn [bind]. destruct (Z.eqb_spec (n mod 64) 0); [lia|]. cbn [negb].
    by rewrite block_short.
  - rewrite cfor_step by lia. by rewrite block_short.
Qed.

(** ** json.c *)

Lemma find_window b n k v mx s : is_cstring k s -> n = len b -> n < 2 ^ 64 -> len s < n ->
  (forall i, 0 <= i < (n - len s) mod 2 ^ 32 -> ~ s `prefix_of` drop (Z.to_nat i) b) ->
  Json_findByKey b n k v mx = Ok (false, v).
Proof.
  intros Hk -> Hb Hs Hno. pose proof Hk as (kr & -> & Hnn). pose proof (len_nonneg s).
  pose proof (Z.mod_le (len b - len s) (2 ^ 32)). pose proof (Z.mod_pos_bound (len b - len s) (2 ^ 32)).
  unfold Json_findByKey. rewrite (strlen_cstring _ s Hk). cbn [bind].
  replace (len s <? len b) with true by lia. fold (u32 (len b - len s)) in *. set (W := u32 (len b - len s)) in *.
  while_rule (fun '(i, x) => 0 <= i <= W /\ x = false) (fun w : Z * bool => w.2 = false)
    (fun w : Z * bool => W - w.1) st HQ.
  - lia.
  - cbn. unfold len in *. lia.
  - intros [i x] [Hi ->] Hc. left. exists (i + 1, false).
    assert (b = take (Z.to_nat i) b ++ drop (Z.to_nat i) b) as Eb by (by rewrite take_drop).
    assert (strncmp_eq b i (s ++ 0 :: kr) 0 (Z.to_nat (len s))
            = Ok (bool_decide (s `prefix_of` drop (Z.to_nat i) b))) as ->.
    { rewrite Eb at 1. replace (Z.to_nat (len s)) with (length s) by (unfold len; lia).
      apply (strncmp_prefix s (take (Z.to_nat i) b) (drop (Z.to_nat i) b) [] (0 :: kr)); [done| |done|].
      - unfold len. rewrite take_length. unfold len in *. lia.
      - rewrite drop_length. unfold len in *. lia. }
    rewrite bool_decide_eq_false_2 by (apply Hno; lia). cbn [bind]. rewrite u32_small by lia.
    split; [done|]. cbn. lia.
  - intros [i x] [Hi ->] _. done.
  - destruct st as [i x]. cbn in HQ. subst x. done.
Qed.
Lemma find_window_refuted : exists b k v, len b = 2 ^ 32 + 2 /\ is_cstring k [97; 98] /\ has_value b [97; 98] [120] /\
  Json_findByKey b (len b) k v (len v) = Ok (false, v).
Proof.
  assert (exists n, Z.of_nat n = 2 ^ 32 - 6) as (n & Hn) by (exists (Z.to_nat (2 ^ 32 - 6)); lia).
  set (b := [34; 97; 98; 34; 58; 34; 120; 34] ++ replicate n 32).
  assert (len b = 2 ^ 32 + 2) as Hl by (unfold b; rewrite len_app, len_replicate; unfold len; cbn [length]; lia).
  exists b, [97; 98; 0], (replicate 8 0). split; [done|].
  assert (is_cstring [97; 98; 0] [97; 98]) as Hc by (exists []; split; [done|repeat constructor; lia]).
  split; [done|]. split.
  - exists [34], [58], (replicate n 32). split; [done|]. split.
    + intros [|x p'] q' H; [|cbn; lia]. discriminate H.
    + split; cbn; intros [H|H]; (discriminate || done).
  - apply (find_window _ _ _ _ _ _ Hc); [done|lia|rewrite Hl; unfold len; cbn; lia|].
    intros i. rewrite Hl. change (len [97; 98]) with 2.
    change ((2 ^ 32 + 2 - 2) mod 2 ^ 32) with 0. lia.
Qed.
