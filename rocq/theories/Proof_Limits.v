(** * Sizes at which the index arithmetic wraps *)
From Verif Require Import Lib Model_Containers Spec_Queue Spec_PriorityQueue Drive_Queue Drive_PriorityQueue
  Proof_Queue Proof_PriorityQueue.

(** ** queue.c *)

Lemma queue_run_app' ops1 ops2 q r1 q1 r2 q2 :
  queue_run ops1 q = Ok (r1, q1) -> queue_run ops2 q1 = Ok (r2, q2) ->
  queue_run (ops1 ++ ops2) q = Ok (r1 ++ r2, q2).
Proof.
  revert q r1. induction ops1 as [|op ops1 IH]; intros q r1 H1 H2; cbn in *.
  - by injection H1 as <- <-.
  - destruct (queue_step op q) as [[r q']| |]; cbn in *; try done.
    destruct (queue_run ops1 q') as [[rs q'']| |] eqn:E; cbn in *; try done.
    injection H1 as <- <-. rewrite (IH q' rs E H2). done.
Qed.
Lemma fifo_app' cap es ops1 ops2 c :
  fifo cap es (ops1 ++ ops2) c
  = ((fifo cap es ops1 c).1 ++ (fifo cap es ops2 (fifo cap es ops1 c).2).1,
     (fifo cap es ops2 (fifo cap es ops1 c).2).2).
Proof.
  revert c. induction ops1 as [|op ops1 IH]; intros c; cbn.
  - by destruct (fifo cap es ops2 c).
  - destruct (fifo_step cap es op c) as [r c1]. rewrite IH.
    by destruct (fifo cap es ops1 c1).
Qed.
Lemma fifo_fill cap es x n c : Z.of_nat (n + length c) <= cap ->
  (fifo cap es (replicate n (Enqueue x)) c).2 = c ++ replicate n (take (Z.to_nat es) x).
Proof.
  revert c. induction n as [|n IH]; intros c Hn; cbn [replicate fifo fifo_step].
  - by rewrite app_nil_r.
  - replace (Z.of_nat (length c) <? cap) with true by lia.
    specialize (IH (c ++ [take (Z.to_nat es) x])). destruct (fifo _ _ _ _) as [rs c2].
    cbn in *. rewrite IH by (rewrite app_length; cbn; lia). by rewrite <- app_assoc.
Qed.

(** a constant byte string *)
Definition all (b : Z) (o : list Z) : Prop := forall k, 0 <= k < len o -> get o k = b.
Lemma all_replicate n b : all b (replicate n b).
Proof.
  intros k Hk. apply get_lookup; [lia|]. apply lookup_replicate. rewrite len_replicate in Hk. split; [done|lia].
Qed.
Lemma all_write b o x off : all b o -> all b x -> 0 <= off -> off + len x <= len o -> all b (write o off x).
Proof.
  intros Ho Hx H0 H1 k Hk. rewrite len_write in Hk by lia. rewrite get_write by lia.
  destruct (Z.leb_spec off k), (Z.ltb_spec k (off + len x)); cbn [andb]; try (apply Ho; lia).
  apply Hx. lia.
Qed.

Section queue.
  Context (cap es : Z) (Hcap : 0 < cap < 2 ^ 32) (Hes : 0 < es < 2 ^ 32).

  Lemma enqueue_at q x i : q_size q = i -> 0 <= i < cap -> q_capacity q = cap -> q_element_size q = es ->
    q_rear q = (i - 1) mod cap -> len x = es -> cap * es <= len (q_buffer q) ->
    Queue_enqueue (Some q) (Some x)
    = Ok (true, Some (mkQueue (q_front q) i (i + 1) cap es (write (q_buffer q) ((i * es) mod 2 ^ 32) x))) /\
    0 <= (i * es) mod 2 ^ 32 <= i * es.
  Proof.
    intros Hi Hic Hc He Hr Hx Hb. assert (0 <= i * es) by nia.
    pose proof (Z.mod_le (i * es) (2 ^ 32)). pose proof (Z.mod_pos_bound (i * es) (2 ^ 32)).
    split; [|lia]. unfold Queue_enqueue, Queue_full. cbn [deref bind]. rewrite Hi, Hc, He, Hr.
    destruct (Z.eqb_spec i cap); [lia|]. cbn [negb].
    assert (u32 ((i - 1) mod cap + 1) mod cap = i) as Hs.
    { pose proof (Z.mod_pos_bound (i - 1) cap). unfold u32. rewrite (Z.mod_small _ (2 ^ 32)) by lia.
      rewrite Zplus_mod_idemp_l. replace (i - 1 + 1) with i by lia. by apply Z.mod_small. }
    rewrite umod_ok by lia. cbn [bind]. rewrite Hs. unfold u32 at 1.
    assert (i * es + es <= cap * es) by nia.
    rewrite memcpy_ok by lia. cbn [bind]. rewrite u32_small by lia. rewrite slice_0_take, take_ge; [done|].
    unfold len in Hx; lia.
  Qed.

  (** after [i] times a string of zeros into a buffer of zeros *)
  Definition zero_queue (i : Z) (q : Queue_t) : Prop :=
    q_front q = 0 /\ q_size q = i /\ q_rear q = (i - 1) mod cap /\ q_capacity q = cap /\ q_element_size q = es /\
    cap * es <= len (q_buffer q) /\ all 0 (q_buffer q).

  Lemma fill z q n i : zero_queue i q -> 0 <= i -> i + Z.of_nat n <= cap -> len z = es -> all 0 z ->
    exists rs q', queue_run (replicate n (Enqueue z)) (Some q) = Ok (rs, Some q') /\
      zero_queue (i + Z.of_nat n) q'.
  Proof.
    intros Hq Hi Hn Hz Hz0. revert i q Hq Hi Hn. induction n as [|n IH]; intros i q Hq Hi Hn.
    - exists [], q. split; [done|]. by replace (i + Z.of_nat 0) with i by lia.
    - destruct Hq as (H1 & H2 & H3 & H4 & H5 & H6 & H7).
      destruct (enqueue_at q z i) as [E Eo]; [done|lia|done..|].
      assert (i * es + es <= cap * es) by nia.
      destruct (IH (i + 1) (mkQueue (q_front q) i (i + 1) cap es (write (q_buffer q) ((i * es) mod 2 ^ 32) z)))
        as (rs & q' & Er & Hq'); [|lia|lia|].
      + unfold zero_queue. cbn. split; [done|]. split; [done|]. split; [|split; [done|]; split; [done|]].
        { replace (i + 1 - 1) with i by lia. by rewrite Z.mod_small by lia. }
        split; [rewrite len_write; lia|]. apply all_write; [done|done|lia|lia].
      + exists ((true, z) :: rs), q'. cbn [replicate queue_run queue_step]. rewrite E. cbn [bind].
        rewrite Er. cbn [bind]. split; [done|]. by replace (i + Z.of_nat (S n)) with (i + 1 + Z.of_nat n) by lia.
  Qed.

  Lemma queue_wraps z o buf q0 : 2 ^ 32 <= (cap - 1) * es -> len z = es -> all 0 z -> len o = es -> all 1 o ->
    cap * es <= len buf -> all 0 buf ->
    exists n q1 rs q2, Queue_init (Some q0) cap es (Some buf) = Ok (true, Some q1) /\
      queue_run (replicate n (Enqueue z) ++ [Enqueue o; Front z]) (Some q1) = Ok (rs, Some q2) /\
      rs <> (fifo cap es (replicate n (Enqueue z) ++ [Enqueue o; Front z]) []).1.
  Proof.
    intros Hw Hz Hz0 Ho Ho1 Hb Hb0.
    set (j := (2 ^ 32 + es - 1) / es).
    assert (2 ^ 32 <= j * es < 2 ^ 32 + es) as Hj by (subst j; nia).
    assert (0 < j < cap) as Hjc by nia.
    exists (Z.to_nat j). eexists.
    destruct (fill z (mkQueue 0 (u32 (cap - 1)) 0 cap es buf) (Z.to_nat j) 0) as (rs & q & Er & Hq);
      [|lia|lia|done|done|].
    { unfold zero_queue. cbn. repeat split; try done. rewrite u32_small by lia.
      apply Z.mod_unique_pos with (-1); lia. }
    replace (0 + Z.of_nat (Z.to_nat j)) with j in Hq by lia.
    destruct Hq as (H1 & H2 & H3 & H4 & H5 & H6 & H7).
    destruct (enqueue_at q o j) as [E Eo]; [done|lia|done..|].
    assert ((j * es) mod 2 ^ 32 = j * es - 2 ^ 32) as Hoff.
    { symmetry. apply Z.mod_unique_pos with 1; lia. }
    rewrite Hoff in E. set (off := j * es - 2 ^ 32) in *.
    assert (j * es + es <= cap * es) by nia.
    set (buf' := write (q_buffer q) off o) in *.
    assert (len buf' = len (q_buffer q)) as Hl by (apply len_write; lia).
    eexists (rs ++ [(true, o); (true, write z 0 (slice buf' 0 es))]), _. split.
    { unfold Queue_init. destruct (Z.eqb_spec es 0); [lia|]. destruct (Z.eqb_spec cap 0); [lia|]. done. }
    split.
    { eapply queue_run_app'; [exact Er|]. cbn [queue_run queue_step]. rewrite E. cbn [bind].
      unfold Queue_front, Queue_empty. cbn [deref bind q_size q_front q_element_size q_buffer].
      destruct (Z.eqb_spec (j + 1) 0); [lia|]. cbn [negb]. rewrite H1.
      change (u32 (0 * es)) with 0. rewrite memcpy_ok by lia. cbn. done. }
    rewrite fifo_app'. cbn [fst]. rewrite fifo_fill by (cbn; lia). cbn [app].
    cbn [fifo fifo_step]. rewrite replicate_length. replace (Z.of_nat (Z.to_nat j) <? cap) with true by lia.
    destruct (Z.to_nat j) as [|n] eqn:En; [lia|]. cbn [replicate app head fst].
    intros Heq. apply app_inj_2 in Heq as [_ Heq]; [|done]. injection Heq as Heq.
    apply (f_equal (fun l => get l off)) in Heq. revert Heq.
    assert (len (slice buf' 0 es) = es) by (apply len_slice; lia).
    rewrite get_write by lia. replace ((0 <=? off) && (off <? 0 + len (slice buf' 0 es))) with true by lia.
    rewrite get_slice by lia. unfold buf'. rewrite get_write by lia.
    replace ((off <=? 0 + (off - 0)) && (0 + (off - 0) <? off + len o)) with true by lia.
    rewrite Ho1 by lia. unfold copied. rewrite take_ge by (unfold len in Hz; lia).
    rewrite get_app_l by lia. rewrite Hz0 by lia. done.
  Qed.
  Lemma queue_limit :
    (forall buf q0 ops, cap * es <= len buf -> Forall (qop_ok es) ops ->
       exists q1 q2, Queue_init (Some q0) cap es (Some buf) = Ok (true, Some q1) /\
         queue_run ops (Some q1) = Ok ((fifo cap es ops []).1, Some q2))
    <-> (cap - 1) * es < 2 ^ 32.
  Proof.
    split.
    - intros H. apply Z.nle_gt. intros Hw.
      assert (exists n, Z.of_nat n = cap * es) as (n & Hn) by (exists (Z.to_nat (cap * es)); nia).
      assert (exists k, Z.of_nat k = es) as (k & Hk) by (exists (Z.to_nat es); lia).
      destruct (queue_wraps (replicate k 0) (replicate k 1) (replicate n 0) (mkQueue 0 0 0 0 0 []) Hw)
        as (m & q1 & rs & q2 & E1 & E2 & Hne);
        [rewrite len_replicate; lia|apply all_replicate|rewrite len_replicate; lia|apply all_replicate|
         rewrite len_replicate; lia|apply all_replicate|].
      set (ops := replicate m (Enqueue (replicate k 0)) ++ [Enqueue (replicate k 1); Front (replicate k 0)]) in *.
      destruct (H (replicate n 0) (mkQueue 0 0 0 0 0 []) ops) as (q1' & q2' & E1' & E2').
      { rewrite len_replicate; lia. }
      { subst ops. apply Forall_app. split; [apply Forall_replicate|repeat constructor]; cbn [qop_ok];
          rewrite replicate_length; lia. }
      rewrite E1 in E1'. injection E1' as <-. rewrite E2 in E2'. injection E2' as Ers _. done.
    - intros Hlt buf q0 ops Hb Ho. apply queue_fifo; [|done]. unfold queue_sizes. lia.
  Qed.
End queue.

(** ** priority_queue.c *)

Lemma pq_run_app_inv ops1 ops2 q r1 q1 rs q2 :
  pq_run ops1 q = Ok (r1, q1) -> pq_run (ops1 ++ ops2) q = Ok (rs, q2) ->
  exists r2, rs = r1 ++ r2 /\ pq_run ops2 q1 = Ok (r2, q2).
Proof.
  revert q r1 rs. induction ops1 as [|op ops1 IH]; intros q r1 rs H1 H2; cbn in *.
  - injection H1 as <- <-. eauto.
  - destruct (pq_step op q) as [[r q']| |]; cbn in *; try done.
    destruct (pq_run ops1 q') as [[r1' q'']| |] eqn:E; cbn in *; try done.
    injection H1 as <- <-. destruct (pq_run (ops1 ++ ops2) q') as [[rs' q3]| |] eqn:E2; cbn in *; try done.
    injection H2 as <- <-. destruct (IH q' r1' rs' E E2) as (r2 & -> & H). exists r2. done.
Qed.
Lemma prio_fill cap es p x n c : Z.of_nat (n + length c) <= cap ->
  (prio cap es (replicate n (PEnqueue p x)) c).2 = c ++ replicate n (p, take (Z.to_nat es) x).
Proof.
  revert c. induction n as [|n IH]; intros c Hn; cbn [replicate prio prio_step].
  - by rewrite app_nil_r.
  - replace (Z.of_nat (length c) <? cap) with true by lia.
    specialize (IH (c ++ [(p, take (Z.to_nat es) x)])). destruct (prio _ _ _ _) as [rs c2].
    cbn in *. rewrite IH by (rewrite app_length; cbn; lia). by rewrite <- app_assoc.
Qed.

Section pq.
  Context (cap es : Z) (Hcap : 0 < cap < 2 ^ 32) (Hes : 0 < es < 2 ^ 32).

  Lemma penqueue_at q p x i : pq_size q = i -> 0 <= i < cap -> pq_capacity q = cap -> pq_element_size q = es ->
    len x = es -> cap * es <= len (pq_buffer q) -> cap <= len (pq_priority_array q) ->
    PriorityQueue_enqueue (Some q) (Some (mkItem [p] x))
    = Ok (true, Some (mkPQ (i + 1) cap es (<[Z.to_nat i := p]> (pq_priority_array q))
                           (write (pq_buffer q) ((i * es) mod 2 ^ 32) x))) /\
    0 <= (i * es) mod 2 ^ 32 <= i * es.
  Proof.
    intros Hi Hic Hc He Hx Hb Hp. assert (0 <= i * es) by nia.
    pose proof (Z.mod_le (i * es) (2 ^ 32)). pose proof (Z.mod_pos_bound (i * es) (2 ^ 32)).
    split; [|lia]. unfold PriorityQueue_enqueue, PQ_Full. cbn [deref bind]. rewrite Hi, Hc, He.
    destruct (Z.eqb_spec i cap); [lia|]. cbn [negb bind it_element it_priority]. unfold u32 at 1.
    assert (i * es + es <= cap * es) by nia.
    rewrite memcpy_ok by lia. cbn [bind]. change (load [p] 0) with (Ok p). cbn [bind].
    rewrite store_ok by lia. cbn [bind]. rewrite u32_small by lia. rewrite slice_0_take, take_ge; [done|].
    unfold len in Hx; lia.
  Qed.

  Definition zero_pq (i : Z) (q : PriorityQueue_t) : Prop :=
    pq_size q = i /\ pq_capacity q = cap /\ pq_element_size q = es /\
    cap * es <= len (pq_buffer q) /\ all 0 (pq_buffer q) /\
    cap <= len (pq_priority_array q) /\ all 0 (pq_priority_array q).

  Lemma all_insert b (o : list Z) i : all b o -> 0 <= i < len o -> all b (<[Z.to_nat i := b]> o).
  Proof.
    intros H Hi k Hk. rewrite len_insert in Hk. rewrite get_insert by lia. destruct (i =? k); [done|]. by apply H.
  Qed.
  Lemma pfill z q n i : zero_pq i q -> 0 <= i -> i + Z.of_nat n <= cap -> len z = es -> all 0 z ->
    exists rs q', pq_run (replicate n (PEnqueue 0 z)) (Some q) = Ok (rs, Some q') /\ zero_pq (i + Z.of_nat n) q'.
  Proof.
    intros Hq Hi Hn Hz Hz0. revert i q Hq Hi Hn. induction n as [|n IH]; intros i q Hq Hi Hn.
    - exists [], q. split; [done|]. by replace (i + Z.of_nat 0) with i by lia.
    - destruct Hq as (H1 & H2 & H3 & H4 & H5 & H6 & H7).
      destruct (penqueue_at q 0 z i) as [E Eo]; [done|lia|done..|].
      assert (i * es + es <= cap * es) by nia.
      destruct (IH (i + 1) (mkPQ (i + 1) cap es (<[Z.to_nat i := 0]> (pq_priority_array q))
                              (write (pq_buffer q) ((i * es) mod 2 ^ 32) z)))
        as (rs & q' & Er & Hq'); [|lia|lia|].
      + unfold zero_pq. cbn. split; [done|]. split; [done|]. split; [done|].
        split; [rewrite len_write; lia|]. split; [apply all_write; [done|done|lia|lia]|].
        split; [rewrite len_insert; lia|]. apply all_insert; [done|lia].
      + exists ((true, z) :: rs), q'. cbn [replicate pq_run pq_step]. rewrite E. cbn [bind].
        rewrite Er. cbn [bind]. split; [done|]. by replace (i + Z.of_nat (S n)) with (i + 1 + Z.of_nat n) by lia.
  Qed.
  Lemma highest_first q : all 0 (pq_priority_array q) -> 0 < pq_size q <= len (pq_priority_array q) ->
    GetHighestPriorityIndex q = Ok 0.
  Proof.
    intros H Hs. unfold GetHighestPriorityIndex. rewrite load_ok by lia. rewrite H by lia. cbn [bind].
    for_rule (fun (i : Z) (s : Z * Z) => s = (0, 0)) st HQ.
    - lia.
    - done.
    - intros i [h x] Hi [= -> ->]. exists (0, 0). split; [|done]. rewrite load_ok by lia. rewrite H by lia. done.
    - subst st. done.
  Qed.

  Lemma pq_limit :
    (forall it q0 ops, cap <= len (it_priority it) -> cap * es <= len (it_element it) ->
       Forall (pqop_ok es) ops ->
       exists q1 q2, PriorityQueue_init (Some q0) cap es (Some it) = Ok (true, Some q1) /\
         pq_run ops (Some q1) = Ok ((prio cap es ops []).1, Some q2))
    <-> (cap - 1) * es < 2 ^ 32.
  Proof.
    split.
    - intros H. apply Z.nle_gt. intros Hw.
      assert (exists n, Z.of_nat n = cap * es) as (n & Hn) by (exists (Z.to_nat (cap * es)); nia).
      assert (exists k, Z.of_nat k = es) as (k & Hk) by (exists (Z.to_nat es); lia).
      assert (exists c, Z.of_nat c = cap) as (c & Hc) by (exists (Z.to_nat cap); lia).
      set (j := (2 ^ 32 + es - 1) / es).
      assert (2 ^ 32 <= j * es < 2 ^ 32 + es) as Hj by (subst j; nia).
      assert (0 < j < cap) as Hjc by nia.
      assert (exists m, Z.of_nat m = j) as (m & Hm) by (exists (Z.to_nat j); lia).
      set (z := replicate k 0). set (o := replicate k 1).
      assert (len z = es) as Hz by (unfold z; rewrite len_replicate; lia).
      assert (len o = es) as Ho by (unfold o; rewrite len_replicate; lia).
      assert (all 0 z) as Hz0 by apply all_replicate. assert (all 1 o) as Ho1 by apply all_replicate.
      set (it := mkItem (replicate c 0) (replicate n 0)).
      set (ops := replicate m (PEnqueue 0 z) ++ [PEnqueue 0 o; PDequeue z]).
      destruct (H it (mkPQ 0 0 0 [] []) ops) as (q1 & q2 & E1 & E2).
      { cbn. rewrite len_replicate; lia. }
      { cbn. rewrite len_replicate; lia. }
      { subst ops. apply Forall_app. split; [apply Forall_replicate|repeat constructor]; cbn [pqop_ok];
          unfold len in *; lia. }
      rewrite pinit_accepts in E1 by lia. injection E1 as <-.
      destruct (pfill z (mkPQ 0 cap es (replicate c 0) (replicate n 0)) m 0) as (rs & q & Er & Hq);
        [|lia|lia|done|done|].
      { unfold zero_pq. cbn. rewrite !len_replicate. repeat split; try lia; apply all_replicate. }
      replace (0 + Z.of_nat m) with j in Hq by lia.
      destruct Hq as (H1 & H2 & H3 & H4 & H5 & H6 & H7).
      destruct (pq_run_app_inv _ _ _ _ _ _ _ Er E2) as (r2 & Hrs & E3). clear E2.
      destruct (penqueue_at q 0 o j) as [E Eo]; [done|lia|done..|].
      assert ((j * es) mod 2 ^ 32 = j * es - 2 ^ 32) as Hoff.
      { symmetry. apply Z.mod_unique_pos with 1; lia. }
      rewrite Hoff in E. set (off := j * es - 2 ^ 32) in *.
      assert (j * es + es <= cap * es) by nia.
      set (buf' := write (pq_buffer q) off o) in *.
      assert (len buf' = len (pq_buffer q)) as Hl by (apply len_write; lia).
      cbn [pq_run pq_step] in E3. rewrite E in E3. cbn [bind] in E3.
      assert (PriorityQueue_dequeue (Some (mkPQ (j + 1) cap es (<[Z.to_nat j := 0]> (pq_priority_array q)) buf'))
                (Some z)
              = let! '(buffer, prio) := PQ_shift es 0 j buf' (<[Z.to_nat j := 0]> (pq_priority_array q)) in
                Ok (true, Some (mkPQ j cap es prio buffer), Some (write z 0 (slice buf' 0 es)))) as Ed.
      { unfold PriorityQueue_dequeue. cbn [deref bind pq_size pq_element_size pq_buffer pq_priority_array pq_capacity].
        destruct (Z.eqb_spec (j + 1) 0); [lia|]. cbn [negb].
        rewrite highest_first; [|cbn; apply all_insert; [done|lia]|cbn; rewrite len_insert; lia].
        cbn [bind]. change (u32 (0 * es)) with 0. rewrite memcpy_ok by lia. cbn [bind].
        rewrite u32_small by lia. replace (j + 1 - 1) with j by lia. done. }
      rewrite Ed in E3. destruct (PQ_shift _ _ _ _ _) as [[bb pp]| |]; cbn [bind deref] in E3; try done.
      injection E3 as Er2 _.
      subst ops. rewrite prio_app in Hrs. cbn [fst] in Hrs. rewrite prio_fill in Hrs by (cbn; lia).
      cbn [app] in Hrs. cbn [prio prio_step] in Hrs. rewrite replicate_length in Hrs.
      replace (Z.of_nat m <? cap) with true in Hrs by lia.
      destruct m as [|m']; [lia|]. cbn [replicate app] in Hrs. cbn [remove_first] in Hrs.
      match type of Hrs with context [is_highest ?l ?x] => assert (is_highest l x = true) as Eh end.
      { apply is_highest_true. intros y Hy. apply elem_of_cons in Hy as [->|Hy]; [done|].
        apply elem_of_app in Hy as [Hy|Hy].
        - apply elem_of_replicate in Hy as [-> _]. done.
        - apply elem_of_list_singleton in Hy as ->. done. }
      rewrite Eh in Hrs. cbn [fst snd] in Hrs. subst r2.
      apply app_inj_2 in Hrs as [_ Heq]; [|done]. injection Heq as Heq.
      apply (f_equal (fun l => get l off)) in Heq. revert Heq.
      assert (len (slice buf' 0 es) = es) by (apply len_slice; lia).
      rewrite get_write by lia. replace ((0 <=? off) && (off <? 0 + len (slice buf' 0 es))) with true by lia.
      rewrite get_slice by lia. unfold buf'. rewrite get_write by lia.
      replace ((off <=? 0 + (off - 0)) && (0 + (off - 0) <? off + len o)) with true by lia.
      rewrite Ho1 by lia. unfold copied. rewrite take_ge by (unfold len in Hz; lia).
      rewrite get_app_l by lia. rewrite Hz0 by lia. done.
    - intros Hlt it q0 ops Hp Hb Ho. apply pq_behaves; [|done]. unfold pq_sizes. lia.
  Qed.
End pq.
