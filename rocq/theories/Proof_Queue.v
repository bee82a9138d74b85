(** * Proofs about queue.c *)
From Verif Require Import Lib Model_Containers Spec_Queue Drive_Queue.

(** ** Slots: equal cells of [es] bytes in a buffer *)

Definition slot (buf : list Z) (es i : Z) : list Z := slice buf (i * es) es.

Lemma slot_bounds i cap es :
  0 <= i < cap -> 0 < es -> 0 <= i * es /\ i * es + es <= cap * es.
Proof. nia. Qed.
Lemma slot_order i j es : i < j -> 0 < es -> i * es + es <= j * es.
Proof. nia. Qed.
Lemma len_slot buf es i cap :
  0 <= i < cap -> 0 < es -> cap * es <= len buf -> len (slot buf es i) = es.
Proof. intros. pose proof (slot_bounds i cap es). apply len_slice; lia. Qed.
Lemma slot_write_same buf es i cap x :
  0 <= i < cap -> 0 < es -> cap * es <= len buf -> len x = es ->
  slot (write buf (i * es) x) es i = x.
Proof.
  intros ? ? ? <-. pose proof (slot_bounds i cap (len x)). apply slice_write_same; lia.
Qed.
Lemma slot_write_other buf es i j cap x :
  0 <= i < cap -> 0 <= j < cap -> i <> j -> 0 < es -> cap * es <= len buf -> len x = es ->
  slot (write buf (i * es) x) es j = slot buf es j.
Proof.
  intros. unfold slot. pose proof (len_nonneg x).
  pose proof (slot_bounds i cap es). pose proof (slot_bounds j cap es).
  pose proof (slot_order i j es). pose proof (slot_order j i es).
  apply slice_write_disjoint; lia.
Qed.
Lemma slice_0_take (o : list Z) n : slice o 0 n = take (Z.to_nat n) o.
Proof. done. Qed.
Lemma write_0 (d x : list Z) : write d 0 x = copied x d.
Proof. done. Qed.
Lemma len_copied (x d : list Z) : len x <= len d -> len (copied x d) = len d.
Proof. intros. unfold copied. rewrite len_app, len_drop. unfold len in *; lia. Qed.

(** ** Slot numbers go round *)

Definition ring (cap x : Z) : Z := x mod cap.
Lemma ring_bound cap x : 0 < cap -> 0 <= ring cap x < cap.
Proof. intros. by apply Z.mod_pos_bound. Qed.
Lemma ring_small cap x : 0 <= x < cap -> ring cap x = x.
Proof. apply Z.mod_small. Qed.
Lemma ring_l cap x y : ring cap (ring cap x + y) = ring cap (x + y).
Proof. unfold ring. apply Zplus_mod_idemp_l. Qed.
Lemma ring_ne cap x y : 0 < cap -> 0 < x - y < cap -> ring cap x <> ring cap y.
Proof.
  unfold ring. intros Hc H E.
  assert (Hd : (x - y) mod cap = 0) by (rewrite Zminus_mod, E, Z.sub_diag; apply Zmod_0_l).
  rewrite Z.mod_small in Hd; lia.
Qed.
Lemma ring_pred cap : 0 < cap -> ring cap (-1) = cap - 1.
Proof.
  intros. unfold ring. rewrite <- (Z_mod_plus_full _ 1), Z.mod_small; lia.
Qed.

(** ** The invariant *)

(** [c] is the contents of [q]: element [k] lies in slot [(front + k) mod cap] *)
Record holds (cap es : Z) (n : Z) (q : Queue_t) (c : list (list Z)) : Prop := {
  h_cap : q_capacity q = cap;
  h_es : q_element_size q = es;
  h_buf : len (q_buffer q) = n;
  h_front : 0 <= q_front q < cap;
  h_size : q_size q = len c;
  h_le : len c <= cap;
  h_rear : q_rear q = ring cap (q_front q + len c - 1);
  h_slot : forall k, 0 <= k < len c ->
             slot (q_buffer q) es (ring cap (q_front q + k)) = get c k }.

Lemma last_get (c : list (list Z)) : 0 < len c -> list.last c = Some (get c (len c - 1)).
Proof.
  intros. rewrite last_lookup. replace (pred (length c)) with (Z.to_nat (len c - 1)).
  - apply lookup_get. lia.
  - unfold len in *. lia.
Qed.
Lemma holds_elem_len cap es n q c k :
  0 < cap -> 0 < es -> cap * es <= n ->
  holds cap es n q c -> 0 <= k < len c -> len (get c k) = es.
Proof.
  intros ? ? ? [] ?. rewrite <- h_slot0 by done. pose proof (ring_bound cap (q_front q + k)).
  apply len_slot with cap; lia.
Qed.

Section queue.
  Context (cap es n : Z).
  Context (Hcap : 0 < cap < 2 ^ 32) (Hes : 0 < es < 2 ^ 32).
  Context (Hle : (cap - 1) * es < 2 ^ 32) (Hn : cap * es <= n).

  Lemma u32_slot i : 0 <= i < cap -> u32 (i * es) = i * es.
  Proof. intros. pose proof (slot_bounds i cap es). apply u32_small. lia. Qed.

  Lemma enqueue_ok q c e :
    holds cap es n q c -> es <= len e ->
    if len c <? cap then
      exists q', Queue_enqueue (Some q) (Some e) = Ok (true, Some q') /\
        holds cap es n q' (c ++ [take (Z.to_nat es) e]) /\
        exists i, 0 <= i < cap /\ (forall k, 0 <= k < len c -> i <> ring cap (q_front q + k)) /\
          q_buffer q' = write (q_buffer q) (i * es) (take (Z.to_nat es) e)
    else Queue_enqueue (Some q) (Some e) = Ok (false, Some q).
  Proof.
    intros H He. pose proof H as []. pose proof (len_nonneg c).
    unfold Queue_enqueue, Queue_full. cbn [deref bind].
    rewrite h_cap0, h_size0, h_es0.
    destruct (Z.ltb_spec (len c) cap) as [Hlt|Hge].
    2: { replace (len c =? cap) with true by lia. done. }
    replace (len c =? cap) with false by lia. cbn [negb].
    remember (ring cap (q_front q + len c)) as i eqn:Hi1.
    assert (Hi : 0 <= i < cap) by (rewrite Hi1; apply ring_bound; lia).
    assert (Hslot : u32 (q_rear q + 1) mod cap = i).
    { pose proof (ring_bound cap (q_front q + len c - 1)).
      rewrite u32_small by (rewrite h_rear0; lia). rewrite h_rear0.
      change (ring cap (ring cap (q_front q + len c - 1) + 1) = i).
      rewrite ring_l, Hi1. f_equal. lia. }
    rewrite umod_ok by lia. rewrite Hslot. cbn [bind].
    assert (Hfree : forall k, 0 <= k < len c -> i <> ring cap (q_front q + k)).
    { intros k Hk. rewrite Hi1. apply ring_ne; lia. }
    clear Hslot. pose proof (slot_bounds i cap es Hi).
    rewrite u32_slot by lia. rewrite memcpy_ok by lia. cbn [bind].
    rewrite slice_0_take. set (x := take (Z.to_nat es) e).
    assert (Hx : len x = es) by (unfold x; rewrite len_take; lia).
    eexists. split; [done|]. split; [|exists i; cbn; done].
    constructor; cbn; [done|done|..].
    - rewrite len_write; lia.
    - done.
    - rewrite len_app. change (len [x]) with 1. rewrite u32_small; lia.
    - rewrite len_app. change (len [x]) with 1. lia.
    - rewrite len_app. change (len [x]) with 1. rewrite Hi1. f_equal. lia.
    - rewrite len_app. change (len [x]) with 1. intros k Hk.
      destruct (Z.eq_dec k (len c)) as [->|].
      + rewrite <- Hi1. rewrite get_app_r by (change (len [x]) with 1; lia).
        rewrite Z.sub_diag, get_0. apply slot_write_same with cap; lia.
      + rewrite get_app_l by lia. rewrite <- h_slot0 by lia.
        apply slot_write_other with cap; try lia.
        * apply ring_bound. lia.
  Qed.

  Lemma dequeue_ok q c d :
    holds cap es n q c -> es <= len d ->
    match c with
    | [] => Queue_dequeue (Some q) (Some d) = Ok (false, Some q, Some d)
    | x :: c' =>
        exists q', Queue_dequeue (Some q) (Some d) = Ok (true, Some q', Some (copied x d)) /\
          holds cap es n q' c' /\ q_buffer q' = q_buffer q
    end.
  Proof.
    intros H Hd. pose proof H as []. unfold Queue_dequeue, Queue_empty. cbn [deref bind].
    rewrite h_cap0, h_size0, h_es0.
    destruct c as [|x c]; [done|]. rewrite len_cons in *. pose proof (len_nonneg c).
    replace (len c + 1 =? 0) with false by lia. cbn [negb].
    pose proof (slot_bounds (q_front q) cap es).
    rewrite u32_slot by lia. rewrite memcpy_ok by lia. cbn [bind].
    pose proof (h_slot0 0) as Hs0. rewrite Z.add_0_r, ring_small, get_0 in Hs0 by lia.
    change (slice (q_buffer q) (q_front q * es) es) with (slot (q_buffer q) es (q_front q)).
    rewrite Hs0 by lia.
    rewrite umod_ok by lia. cbn [bind]. rewrite (u32_small (q_front q + 1)) by lia.
    change ((q_front q + 1) mod cap) with (ring cap (q_front q + 1)).
    eexists. split; [rewrite write_0; done|]. split; [|done].
    constructor; cbn; [done|done|done|..].
    - apply ring_bound. lia.
    - rewrite u32_small; lia.
    - lia.
    - rewrite h_rear0.
      rewrite <- (Z.add_sub_assoc (ring cap (q_front q + 1))), ring_l. f_equal. lia.
    - intros k Hk. rewrite ring_l.
      replace (q_front q + 1 + k) with (q_front q + (k + 1)) by lia.
      rewrite h_slot0 by lia. rewrite get_cons by lia.
      replace (k + 1 =? 0) with false by lia. f_equal. lia.
  Qed.

  Lemma front_ok q c d :
    holds cap es n q c -> es <= len d ->
    Queue_front (Some q) (Some d) =
    match head c with
    | None => Ok (false, Some d) | Some x => Ok (true, Some (copied x d)) end.
  Proof.
    intros H Hd. pose proof H as []. unfold Queue_front, Queue_empty. cbn [deref bind].
    rewrite h_size0, h_es0.
    destruct c as [|x c]; [done|]. rewrite len_cons in *. pose proof (len_nonneg c).
    replace (len c + 1 =? 0) with false by lia. cbn [negb].
    pose proof (slot_bounds (q_front q) cap es).
    rewrite u32_slot by lia. rewrite memcpy_ok by lia. cbn [bind].
    pose proof (h_slot0 0) as Hs0. rewrite Z.add_0_r, ring_small, get_0 in Hs0 by lia.
    change (slice (q_buffer q) (q_front q * es) es) with (slot (q_buffer q) es (q_front q)).
    rewrite Hs0 by lia. by rewrite write_0.
  Qed.
  Lemma rear_ok q c d :
    holds cap es n q c -> es <= len d ->
    Queue_rear (Some q) (Some d) =
    match list.last c with
    | None => Ok (false, Some d) | Some x => Ok (true, Some (copied x d)) end.
  Proof.
    intros H Hd. pose proof H as []. unfold Queue_rear, Queue_empty. cbn [deref bind].
    rewrite h_size0, h_es0. pose proof (len_nonneg c).
    destruct (Z.eqb_spec (len c) 0) as [E|E].
    { apply len_0_inv in E as ->. done. }
    cbn [negb]. rewrite last_get by lia.
    assert (Hr : 0 <= q_rear q < cap) by (rewrite h_rear0; apply ring_bound; lia).
    pose proof (slot_bounds (q_rear q) cap es).
    rewrite u32_slot by lia. rewrite memcpy_ok by lia. cbn [bind].
    change (slice (q_buffer q) (q_rear q * es) es) with (slot (q_buffer q) es (q_rear q)).
    rewrite <- (h_slot0 (len c - 1)) by lia. rewrite h_rear0.
    replace (q_front q + (len c - 1)) with (q_front q + len c - 1) by lia. by rewrite write_0.
  Qed.
  Lemma full_ok q c : holds cap es n q c -> Queue_full (Some q) = Ok (len c =? cap).
  Proof. intros []. unfold Queue_full. cbn. by rewrite h_size0, h_cap0. Qed.
  Lemma empty_ok q c : holds cap es n q c -> Queue_empty (Some q) = Ok (len c =? 0).
  Proof. intros []. unfold Queue_empty. cbn. by rewrite h_size0. Qed.

  Lemma step_ok op q c :
    holds cap es n q c -> qop_ok es op ->
    exists q', queue_step op (Some q) = Ok ((fifo_step cap es op c).1, Some q') /\
      holds cap es n q' (fifo_step cap es op c).2.
  Proof.
    intros H Ho. destruct op as [e|d|d|d| |]; cbn [queue_step fifo_step qop_ok] in *.
    - change (Z.of_nat (length e)) with (len e) in Ho.
      change (Z.of_nat (length c)) with (len c).
      pose proof (enqueue_ok q c e H Ho) as He. destruct (len c <? cap).
      + destruct He as (q' & -> & Hq & _). cbn. eauto.
      + rewrite He. cbn. eauto.
    - pose proof (dequeue_ok q c d H Ho) as Hd. destruct c as [|x c].
      + rewrite Hd. cbn. eauto.
      + destruct Hd as (q' & -> & Hq & _). cbn. eauto.
    - rewrite (front_ok q c d H Ho). destruct (head c); cbn; eauto.
    - rewrite (rear_ok q c d H Ho). destruct (list.last c); cbn; eauto.
    - rewrite (full_ok q c H). cbn. eauto.
    - rewrite (empty_ok q c H). cbn. eauto.
  Qed.
  Lemma run_ok ops q c :
    holds cap es n q c -> Forall (qop_ok es) ops ->
    exists q', queue_run ops (Some q) = Ok ((fifo cap es ops c).1, Some q') /\
      holds cap es n q' (fifo cap es ops c).2.
  Proof.
    intros H Ho. revert q c H. induction Ho as [|op ops Hop Ho IH]; intros q c H.
    { cbn. eauto. }
    destruct (step_ok op q c H Hop) as (q1 & E1 & H1). cbn [queue_run fifo]. rewrite E1. cbn.
    destruct (fifo_step cap es op c) as [r c1]. cbn [fst snd] in *.
    destruct (IH q1 c1 H1) as (q2 & E2 & H2). rewrite E2. cbn.
    destruct (fifo cap es ops c1) as [rs c2]. cbn in *. eauto.
  Qed.
  Lemma init_ok q0 buf :
    len buf = n ->
    exists q, Queue_init (Some q0) cap es (Some buf) = Ok (true, Some q) /\ holds cap es n q [].
  Proof.
    intros Hb. unfold Queue_init. replace (es =? 0) with false by lia.
    replace (cap =? 0) with false by lia. cbn. eexists. split; [done|].
    constructor; cbn; try lia; try done.
    - change (len []) with 0. lia.
    - change (len []) with 0. rewrite u32_small by lia.
      cbn. by rewrite ring_pred by lia.
    - change (len []) with 0. lia.
  Qed.
End queue.

Lemma after_holds cap es buf ops q :
  queue_sizes cap es buf -> Forall (qop_ok es) ops -> queue_after cap es buf ops q ->
  holds cap es (len buf) q (fifo cap es ops []).2.
Proof.
  intros (Hc & He & Hl & Hn) Ho (q0 & q1 & rs & Ei & Er).
  destruct (init_ok cap es (len buf) Hc He q0 buf eq_refl) as (q1' & Ei' & H1).
  rewrite Ei in Ei'. injection Ei' as <-.
  destruct (run_ok cap es (len buf) Hc He Hl Hn ops q1 [] H1 Ho) as (q' & Er' & H').
  rewrite Er in Er'. by injection Er' as _ <-.
Qed.

Lemma queue_fifo cap es buf q0 ops :
  queue_sizes cap es buf -> Forall (qop_ok es) ops ->
  exists q1 q2, Queue_init (Some q0) cap es (Some buf) = Ok (true, Some q1) /\
    queue_run ops (Some q1) = Ok ((fifo cap es ops []).1, Some q2).
Proof.
  intros (Hc & He & Hl & Hn) Ho.
  destruct (init_ok cap es (len buf) Hc He q0 buf eq_refl) as (q1 & Ei & H1).
  destruct (run_ok cap es (len buf) Hc He Hl Hn ops q1 [] H1 Ho) as (q' & Er & H'). eauto.
Qed.

(** ** Every reachable state *)

Section reachable.
  Context (cap es : Z) (buf : list Z) (ops : list qop) (q : Queue_t).
  Context (Hs : queue_sizes cap es buf) (Ho : Forall (qop_ok es) ops).
  Context (Ha : queue_after cap es buf ops q).
  Let c := (fifo cap es ops []).2.

  Lemma reach_len : 0 <= len c <= cap.
  Proof.
    pose proof (after_holds _ _ _ _ _ Hs Ho Ha) as []. fold c in h_le0.
    pose proof (len_nonneg c). lia.
  Qed.
  Lemma reach_enqueue e : es <= len e ->
    exists q', Queue_enqueue (Some q) (Some e) = Ok (len c <? cap, Some q') /\
      (cap <= len c -> q' = q).
  Proof.
    intros He. destruct Hs as (H1 & H2 & H3 & H4).
    pose proof (enqueue_ok cap es (len buf) H1 H2 H3 H4 q c e) as H.
    specialize (H (after_holds _ _ _ _ _ Hs Ho Ha) He).
    destruct (Z.ltb_spec (len c) cap).
    - destruct H as (q' & -> & _). eexists. split; [done|]. lia.
    - rewrite H. eauto.
  Qed.
  Lemma reach_dequeue d : es <= len d ->
    exists q' d', Queue_dequeue (Some q) (Some d) = Ok (0 <? len c, Some q', Some d') /\
      (len c = 0 -> q' = q /\ d' = d).
  Proof.
    intros He. destruct Hs as (H1 & H2 & H3 & H4).
    pose proof (dequeue_ok cap es (len buf) H1 H2 H3 H4 q c d) as H.
    specialize (H (after_holds _ _ _ _ _ Hs Ho Ha) He).
    destruct c as [|x c'].
    - rewrite H. eauto.
    - destruct H as (q' & -> & _). rewrite len_cons. pose proof (len_nonneg c').
      replace (0 <? len c' + 1) with true by lia. eexists _, _. split; [done|]. lia.
  Qed.
  Lemma reach_front d : es <= len d ->
    exists d', Queue_front (Some q) (Some d) = Ok (0 <? len c, Some d') /\ (len c = 0 -> d' = d).
  Proof.
    intros He. destruct Hs as (H1 & H2 & H3 & H4).
    rewrite (front_ok cap es (len buf) H2 H3 H4 q c d (after_holds _ _ _ _ _ Hs Ho Ha) He).
    destruct c as [|x c']; cbn; [eauto|].
    rewrite len_cons. pose proof (len_nonneg c').
    replace (0 <? len c' + 1) with true by lia. eexists. split; [done|]. lia.
  Qed.
  Lemma reach_rear d : es <= len d ->
    exists d', Queue_rear (Some q) (Some d) = Ok (0 <? len c, Some d') /\ (len c = 0 -> d' = d).
  Proof.
    intros He. destruct Hs as (H1 & H2 & H3 & H4).
    rewrite (rear_ok cap es (len buf) H1 H2 H3 H4 q c d (after_holds _ _ _ _ _ Hs Ho Ha) He).
    pose proof (len_nonneg c). destruct (Z.eq_dec (len c) 0) as [E|].
    - rewrite E. apply len_0_inv in E as ->. cbn. eauto.
    - rewrite last_get by lia. replace (0 <? len c) with true by lia.
      eexists. split; [done|]. lia.
  Qed.
  Lemma reach_full : Queue_full (Some q) = Ok (len c =? cap).
  Proof. eapply full_ok. by apply after_holds. Qed.
  Lemma reach_empty : Queue_empty (Some q) = Ok (len c =? 0).
  Proof. eapply empty_ok. by apply after_holds. Qed.

  (** the slot written is inside the first [cap * es] bytes and holds no stored element *)
  Lemma reach_enqueue_frame e : es <= len e -> len c < cap ->
    exists q' i, Queue_enqueue (Some q) (Some e) = Ok (true, Some q') /\
      0 <= i < cap /\ (forall k, 0 <= k < len c -> i <> (q_front q + k) mod cap) /\
      q_buffer q' = write (q_buffer q) (i * es) (take (Z.to_nat es) e).
  Proof.
    intros He Hc. destruct Hs as (H1 & H2 & H3 & H4).
    pose proof (enqueue_ok cap es (len buf) H1 H2 H3 H4 q c e) as H.
    specialize (H (after_holds _ _ _ _ _ Hs Ho Ha) He).
    replace (len c <? cap) with true in H by lia.
    destruct H as (q' & E & _ & i & Hi & Hf & Hb). exists q', i. done.
  Qed.
  Lemma reach_dequeue_frame d : es <= len d -> 0 < len c ->
    exists q' x, Queue_dequeue (Some q) (Some d)
                 = Ok (true, Some q', Some (x ++ drop (Z.to_nat es) d)) /\
      len x = es /\ q_buffer q' = q_buffer q.
  Proof.
    intros He Hc. destruct Hs as (H1 & H2 & H3 & H4).
    pose proof (after_holds _ _ _ _ _ Hs Ho Ha) as HH. fold c in HH.
    pose proof (dequeue_ok cap es (len buf) H1 H2 H3 H4 q c d HH He) as H.
    pose proof (holds_elem_len cap es (len buf) q c 0 ltac:(lia) ltac:(lia) H4 HH) as Hl.
    destruct c as [|x c'].
    - change (len []) with 0 in Hc. lia.
    - destruct H as (q' & -> & _ & Hb). exists q', x. rewrite get_0 in Hl.
      unfold copied. rewrite length_len, Hl by lia. done.
  Qed.
  Lemma reach_peek_frame d : es <= len d -> 0 < len c ->
    (exists x, Queue_front (Some q) (Some d) = Ok (true, Some (x ++ drop (Z.to_nat es) d)) /\
       len x = es) /\
    (exists x, Queue_rear (Some q) (Some d) = Ok (true, Some (x ++ drop (Z.to_nat es) d)) /\
       len x = es).
  Proof.
    intros He Hc. destruct Hs as (H1 & H2 & H3 & H4).
    pose proof (after_holds _ _ _ _ _ Hs Ho Ha) as HH. fold c in HH.
    rewrite (rear_ok cap es (len buf) H1 H2 H3 H4 q c d HH He).
    rewrite (front_ok cap es (len buf) H2 H3 H4 q c d HH He).
    pose proof (holds_elem_len cap es (len buf) q c 0 ltac:(lia) ltac:(lia) H4 HH) as Hl.
    pose proof (holds_elem_len cap es (len buf) q c (len c - 1) ltac:(lia) ltac:(lia) H4 HH) as Hl'.
    rewrite last_get by lia. split.
    - destruct c as [|x c']; [change (len []) with 0 in Hc; lia|].
      exists x. rewrite get_0 in Hl. cbn. unfold copied. rewrite length_len, Hl by lia. done.
    - eexists. unfold copied. rewrite (length_len (get _ _)), Hl' by lia. split; [done|]. lia.
  Qed.
  Lemma reach_config :
    q_capacity q = cap /\ q_element_size q = es /\ len (q_buffer q) = len buf.
  Proof. by pose proof (after_holds _ _ _ _ _ Hs Ho Ha) as []. Qed.
End reachable.

(** ** Arguments *)

Lemma init_rejects queue cap es buf :
  cap = 0 \/ es = 0 \/ buf = None -> Queue_init queue cap es buf = Ok (false, queue).
Proof.
  intros H. unfold Queue_init. destruct buf as [b|]; [|done].
  destruct (Z.eqb_spec es 0), (Z.eqb_spec cap 0); try done. naive_solver.
Qed.
Lemma init_accepts q0 cap es buf :
  cap <> 0 -> es <> 0 ->
  exists q, Queue_init (Some q0) cap es (Some buf) = Ok (true, Some q) /\
    q_capacity q = cap /\ q_element_size q = es /\ q_buffer q = buf /\ q_size q = 0.
Proof.
  intros. unfold Queue_init. destruct (Z.eqb_spec es 0), (Z.eqb_spec cap 0); try done.
  cbn. by eexists.
Qed.
Lemma init_null cap es buf :
  cap <> 0 -> es <> 0 -> Queue_init None cap es (Some buf) = UB NullDeref.
Proof.
  intros. unfold Queue_init. destruct (Z.eqb_spec es 0), (Z.eqb_spec cap 0); done.
Qed.
Lemma null_args queue element :
  queue = None \/ element = None ->
  Queue_enqueue queue element = Ok (false, queue) /\
  Queue_dequeue queue element = Ok (false, queue, element) /\
  Queue_front queue element = Ok (false, element) /\
  Queue_rear queue element = Ok (false, element).
Proof. intros [-> | ->]; [by destruct element|by destruct queue]. Qed.
Lemma null_queue : Queue_full None = UB NullDeref /\ Queue_empty None = UB NullDeref.
Proof. done. Qed.

(** ** More than 4 GiB *)

(** three slots of 2^31 bytes: the third lies on top of the first *)
Lemma wrap_overwrites buf q0 a b e d :
  3 * 2 ^ 31 <= len buf -> len a = 2 ^ 31 -> len b = 2 ^ 31 -> len e = 2 ^ 31 ->
  len d = 2 ^ 31 ->
  exists q1 q2, Queue_init (Some q0) 3 (2 ^ 31) (Some buf) = Ok (true, Some q1) /\
    queue_run [Enqueue a; Enqueue b; Enqueue e; Dequeue d] (Some q1)
    = Ok ([(true, a); (true, b); (true, e); (true, e)], Some q2).
Proof.
  intros Hb Ha Hb' He Hd.
  assert (Hstep : forall f r s x bu i off, u32 (r + 1) mod 3 = i -> u32 (i * 2 ^ 31) = off ->
    0 <= off <= 2 ^ 31 -> 0 <= s < 3 -> len x = 2 ^ 31 -> 3 * 2 ^ 31 <= len bu ->
    Queue_enqueue (Some (mkQueue f r s 3 (2 ^ 31) bu)) (Some x) =
    Ok (true, Some (mkQueue f i (s + 1) 3 (2 ^ 31) (write bu off x)))).
  { intros f r s x bu i off Hi Hoff Ho Hs Hx Hbu. unfold Queue_enqueue, Queue_full.
    cbn [deref bind q_size q_capacity q_rear q_element_size q_buffer q_front].
    replace (s =? 3) with false by lia. cbn [negb]. rewrite umod_ok by lia. cbn [bind].
    rewrite Hi, Hoff.
    rewrite memcpy_ok by lia. cbn [bind]. rewrite (u32_small (s + 1)) by lia.
    rewrite slice_0_take. rewrite <- Hx. rewrite take_ge; [done|]. unfold len. lia. }
  eexists _, _. split; [done|]. cbn [queue_run queue_step].
  rewrite (Hstep _ _ _ _ _ 0 0); [|by vm_compute|by vm_compute|lia..]. cbn [bind].
  assert (L1 : len (write buf 0 a) = len buf) by (apply len_write; lia).
  rewrite (Hstep _ _ _ _ _ 1 (2 ^ 31)); [|by vm_compute|by vm_compute|lia..]. cbn [bind].
  assert (L2 : len (write (write buf 0 a) (2 ^ 31) b) = len buf)
    by (rewrite len_write; lia).
  rewrite (Hstep _ _ _ _ _ 2 0); [|by vm_compute|by vm_compute|lia..]. cbn [bind].
  assert (L3 : len (write (write (write buf 0 a) (2 ^ 31) b) 0 e) = len buf)
    by (rewrite len_write; lia).
  unfold Queue_dequeue, Queue_empty.
  cbn [deref bind q_size q_capacity q_rear q_element_size q_buffer q_front].
  replace (0 + 1 + 1 + 1 =? 0) with false by lia. cbn [negb].
  change (u32 (0 * 2 ^ 31)) with 0. rewrite umod_ok by lia. cbn [bind].
  rewrite memcpy_ok by lia. cbn [bind].
  assert (S1 : slice (write (write (write buf 0 a) (2 ^ 31) b) 0 e) 0 (2 ^ 31) = e).
  { rewrite <- He at 2. apply slice_write_same; lia. }
  rewrite S1. rewrite write_0. unfold copied. rewrite drop_ge by (unfold len in *; lia).
  rewrite app_nil_r. done.
Qed.
Lemma wrap_refuted_gen n es :
  Z.of_nat n = es -> es = 2 ^ 31 ->
  exists cap es buf q0 q1 q2 ops rs,
    0 < cap < 2 ^ 32 /\ 0 < es < 2 ^ 32 /\ cap * es <= len buf /\ Forall (qop_ok es) ops /\
    Queue_init (Some q0) cap es (Some buf) = Ok (true, Some q1) /\
    queue_run ops (Some q1) = Ok (rs, Some q2) /\ rs <> (fifo cap es ops []).1.
Proof.
  intros En Ees.
  set (a := replicate n 1). set (e := replicate n 2).
  set (buf := replicate n 0 ++ replicate n 0 ++ replicate n 0).
  assert (Hr : forall x, len (replicate n x : list Z) = es) by (intros; rewrite len_replicate; lia).
  assert (Hbuf : len buf = 3 * es) by (unfold buf; rewrite !len_app, !Hr; lia).
  destruct (wrap_overwrites buf (mkQueue 0 0 0 0 0 []) a a e a) as (q1 & q2 & E1 & E2);
    [lia|rewrite <- Ees; apply Hr..|]. rewrite <- Ees in E1.
  exists 3, es, buf, (mkQueue 0 0 0 0 0 []), q1, q2, [Enqueue a; Enqueue a; Enqueue e; Dequeue a].
  eexists. split; [lia|]. split; [lia|]. split; [lia|]. split.
  { pose proof (Hr 1) as H1. pose proof (Hr 2) as H2. unfold len in H1, H2.
    repeat constructor; cbn [qop_ok]; unfold a, e; lia. }
  split; [exact E1|]. split; [exact E2|].
  assert (Hne : e <> take (Z.to_nat es) a ++ drop (length (take (Z.to_nat es) a)) a).
  { rewrite take_ge by (unfold a; rewrite replicate_length; lia).
    rewrite drop_ge by lia. rewrite app_nil_r. unfold a, e.
    destruct n as [|n']; [lia|]. cbn. congruence. }
  cbn [fifo fifo_step]. change (Z.of_nat (length [])) with 0. change (0 <? 3) with true.
  cbn [app]. change (Z.of_nat (length [_])) with 1. change (1 <? 3) with true. cbn [app].
  change (Z.of_nat (length [_; _])) with 2. change (2 <? 3) with true. cbn [app fst].
  unfold copied. congruence.
Qed.
Lemma wrap_refuted :
  exists cap es buf q0 q1 q2 ops rs,
    0 < cap < 2 ^ 32 /\ 0 < es < 2 ^ 32 /\ cap * es <= len buf /\ Forall (qop_ok es) ops /\
    Queue_init (Some q0) cap es (Some buf) = Ok (true, Some q1) /\
    queue_run ops (Some q1) = Ok (rs, Some q2) /\ rs <> (fifo cap es ops []).1.
Proof. exact (wrap_refuted_gen _ _ (Z2Nat.id (2 ^ 31) ltac:(done)) eq_refl). Qed.
