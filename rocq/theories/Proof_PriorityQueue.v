(** * Proofs about priority_queue.c *)
From Coq Require Import Sorted.
From Verif Require Import Lib Model_Containers Spec_Queue Spec_PriorityQueue
  Drive_PriorityQueue Proof_Queue.

(** ** The specification *)

Lemma remove_first_split f l x r :
  (forall y, y ∈ l -> f y = false) -> f x = true ->
  remove_first f (l ++ x :: r) = Some (x, l ++ r).
Proof.
  induction l as [|a l IH]; intros Hl Hx; cbn.
  - by rewrite Hx.
  - rewrite (Hl a) by left. rewrite IH; [done| |done]. intros y Hy. apply Hl. by right.
Qed.
Lemma remove_first_inv f c x rest :
  remove_first f c = Some (x, rest) ->
  exists l r, c = l ++ x :: r /\ rest = l ++ r /\ f x = true /\ forall y, y ∈ l -> f y = false.
Proof.
  revert x rest. induction c as [|a c IH]; intros x rest; cbn; [done|].
  destruct (f a) eqn:Ea.
  - intros [= <- <-]. exists [], c. split; [done|]. split; [done|]. split; [done|].
    intros y Hy. inversion Hy.
  - destruct (remove_first f c) as [[y r']|] eqn:Er; [|done]. intros [= <- <-].
    destruct (IH _ _ eq_refl) as (l & r & -> & -> & Hx & Hl).
    exists (a :: l), r. split; [done|]. split; [done|]. split; [done|].
    intros z Hz. apply elem_of_cons in Hz as [->|Hz]; [done|]. by apply Hl.
Qed.
Lemma forallb_get (f : entry -> bool) c :
  forallb f c = true <-> forall k, 0 <= k < len c -> f (get c k) = true.
Proof.
  rewrite forallb_forall. split.
  - intros H k Hk. apply H. rewrite <- elem_of_list_In. eapply elem_of_list_lookup_2.
    by apply lookup_get.
  - intros H x Hx. rewrite <- elem_of_list_In in Hx.
    apply elem_of_list_lookup_1 in Hx as [i Hi].
    specialize (H (Z.of_nat i)). unfold get in H. rewrite Nat2Z.id in H.
    rewrite (list_lookup_total_correct _ _ _ Hi) in H. apply H.
    apply lookup_lt_Some in Hi. unfold len. lia.
Qed.
(** splitting a list at an index *)
Lemma split_get (c : list entry) k :
  0 <= k < len c -> exists l r, c = l ++ get c k :: r /\ len l = k.
Proof.
  intros Hk. exists (take (Z.to_nat k) c), (drop (S (Z.to_nat k)) c). split.
  - symmetry. apply take_drop_middle. by apply lookup_get.
  - rewrite len_take. lia.
Qed.
Lemma elem_of_get (l : list entry) y : y ∈ l -> exists k, 0 <= k < len l /\ get l k = y.
Proof.
  intros Hy. apply elem_of_list_lookup_1 in Hy as [i Hi]. exists (Z.of_nat i).
  unfold get. rewrite Nat2Z.id. rewrite (list_lookup_total_correct _ _ _ Hi).
  apply lookup_lt_Some in Hi. unfold len. split; [lia|done].
Qed.
Lemma get_mid (l r : list entry) x : get (l ++ x :: r) (len l) = x.
Proof.
  rewrite get_app_r.
  - by rewrite Z.sub_diag.
  - rewrite len_cons. pose proof (len_nonneg r). lia.
Qed.

(** ** Finding the highest and the lowest *)

Definition cells (es : Z) (buf pa : list Z) (c : list entry) : Prop :=
  forall k, 0 <= k < len c -> slot buf es k = (get c k).2 /\ get pa k = (get c k).1.

Lemma scan_highest q c :
  pq_size q = len c -> 0 < len c <= len (pq_priority_array q) ->
  (forall k, 0 <= k < len c -> get (pq_priority_array q) k = (get c k).1) ->
  exists l x r, c = l ++ x :: r /\ GetHighestPriorityIndex q = Ok (len l) /\
    remove_first (is_highest c) c = Some (x, l ++ r).
Proof.
  intros Hs Hl Hp. unfold GetHighestPriorityIndex. rewrite load_ok by lia. cbn [bind].
  rewrite Hs.
  for_rule (fun i '(h, idx) => 0 <= idx < len c /\ h = get (pq_priority_array q) idx /\
    (forall k, 0 <= k < i -> get (pq_priority_array q) k <= h) /\
    (forall k, 0 <= k < idx -> get (pq_priority_array q) k < h)) st HQ.
  - lia.
  - split; [lia|]. split; [done|]. split; intros; lia.
  - intros i [h idx] Hi (H1 & H2 & H3 & H4). rewrite load_ok by lia. cbn [bind].
    destruct (Z.ltb_spec h (get (pq_priority_array q) i)).
    + eexists. split; [done|]. split; [lia|]. split; [done|]. split; intros k Hk.
      * destruct (Z.eq_dec k i) as [->|]; [lia|]. specialize (H3 k). lia.
      * specialize (H3 k). lia.
    + eexists. split; [done|]. split; [lia|]. split; [done|]. split; intros k Hk.
      * destruct (Z.eq_dec k i) as [->|]; [lia|]. specialize (H3 k). lia.
      * specialize (H4 k). lia.
  - destruct st as [h idx]. destruct HQ as (H1 & H2 & H3 & H4). cbn [bind].
    destruct (split_get c idx H1) as (l & r & Ec & Ell).
    exists l, (get c idx), r. split; [done|]. split; [by rewrite <- Ell|].
    rewrite Ec at 2. apply remove_first_split.
    + intros y Hy. apply elem_of_get in Hy as (k & Hk & <-).
      unfold is_highest. apply not_true_iff_false. rewrite forallb_get. intros H.
      specialize (H idx H1). specialize (H4 k). rewrite H2, (Hp k) in H4 by lia. rewrite <- (Hp idx) in H by lia.
      assert (get c k = get l k) as Ek by (rewrite Ec at 1; apply get_app_l; lia).
      rewrite Ek in H4. lia.
    + apply forallb_get. intros k Hk. specialize (H3 k Hk). rewrite H2, !Hp in H3 by lia. lia.
Qed.
Lemma scan_lowest q c :
  pq_size q = len c -> 0 < len c <= len (pq_priority_array q) ->
  (forall k, 0 <= k < len c -> get (pq_priority_array q) k = (get c k).1) ->
  exists l x r, c = l ++ x :: r /\ GetLowestPriorityIndex q = Ok (len l) /\
    remove_first (is_lowest c) c = Some (x, l ++ r).
Proof.
  intros Hs Hl Hp. unfold GetLowestPriorityIndex. rewrite load_ok by lia. cbn [bind].
  rewrite Hs.
  for_rule (fun i '(h, idx) => 0 <= idx < len c /\ h = get (pq_priority_array q) idx /\
    (forall k, 0 <= k < i -> h <= get (pq_priority_array q) k) /\
    (forall k, 0 <= k < idx -> h < get (pq_priority_array q) k)) st HQ.
  - lia.
  - split; [lia|]. split; [done|]. split; intros; lia.
  - intros i [h idx] Hi (H1 & H2 & H3 & H4). rewrite load_ok by lia. cbn [bind].
    destruct (Z.ltb_spec (get (pq_priority_array q) i) h).
    + eexists. split; [done|]. split; [lia|]. split; [done|]. split; intros k Hk.
      * destruct (Z.eq_dec k i) as [->|]; [lia|]. specialize (H3 k). lia.
      * specialize (H3 k). lia.
    + eexists. split; [done|]. split; [lia|]. split; [done|]. split; intros k Hk.
      * destruct (Z.eq_dec k i) as [->|]; [lia|]. specialize (H3 k). lia.
      * specialize (H4 k). lia.
  - destruct st as [h idx]. destruct HQ as (H1 & H2 & H3 & H4). cbn [bind].
    destruct (split_get c idx H1) as (l & r & Ec & Ell).
    exists l, (get c idx), r. split; [done|]. split; [by rewrite <- Ell|].
    rewrite Ec at 2. apply remove_first_split.
    + intros y Hy. apply elem_of_get in Hy as (k & Hk & <-).
      unfold is_lowest. apply not_true_iff_false. rewrite forallb_get. intros H.
      specialize (H idx H1). specialize (H4 k). rewrite H2, (Hp k) in H4 by lia. rewrite <- (Hp idx) in H by lia.
      assert (get c k = get l k) as Ek by (rewrite Ec at 1; apply get_app_l; lia).
      rewrite Ek in H4. lia.
    + apply forallb_get. intros k Hk. specialize (H3 k Hk). rewrite H2, !Hp in H3 by lia. lia.
Qed.

(** ** Closing the gap *)

Section shift.
  Context (cap es : Z).
  Context (Hcap : 0 < cap < 2 ^ 32) (Hes : 0 < es < 2 ^ 32) (Hle : (cap - 1) * es < 2 ^ 32).

  Lemma drop_insert_lt (l : list Z) i n x :
    0 <= i < n -> drop (Z.to_nat n) (<[Z.to_nat i := x]> l) = drop (Z.to_nat n) l.
  Proof. intros. apply drop_insert_gt. lia. Qed.
  Lemma drop_write_lt (l xs : list Z) off n :
    0 <= off -> off + len xs <= n -> n <= len l ->
    drop (Z.to_nat n) (write l off xs) = drop (Z.to_nat n) l.
  Proof.
    intros. pose proof (len_nonneg xs). apply get_ext.
    - rewrite !len_drop, len_write; lia.
    - rewrite len_drop, len_write by lia. intros i Hi.
      rewrite !get_drop by (rewrite ?len_write; lia).
      rewrite get_write by lia.
      replace (_ && _) with false; [done|]. lia.
  Qed.

  Lemma shift_ok buf pa l x r :
    cap <= len pa -> cap * es <= len buf -> len (l ++ x :: r) <= cap ->
    cells es buf pa (l ++ x :: r) ->
    exists buf' pa', PQ_shift es (len l) (len l + len r) buf pa = Ok (buf', pa') /\
      cells es buf' pa' (l ++ r) /\ len buf' = len buf /\ len pa' = len pa /\
      drop (Z.to_nat (cap * es)) buf' = drop (Z.to_nat (cap * es)) buf /\
      drop (Z.to_nat cap) pa' = drop (Z.to_nat cap) pa.
  Proof.
    intros Hpa Hbuf Hlen Hc. pose proof (len_nonneg l). pose proof (len_nonneg r).
    rewrite len_app, len_cons in Hlen.
    unfold PQ_shift.
    for_rule (fun i '(b, p) =>
      (forall k, 0 <= k < len l + len r + 1 ->
         slot b es k = slot buf es (if (len l <=? k) && (k <? i) then k + 1 else k) /\
         get p k = get pa (if (len l <=? k) && (k <? i) then k + 1 else k)) /\
      len b = len buf /\ len p = len pa /\
      drop (Z.to_nat (cap * es)) b = drop (Z.to_nat (cap * es)) buf /\
      drop (Z.to_nat cap) p = drop (Z.to_nat cap) pa) st HQ.
    - lia.
    - split; [|done]. intros k Hk. replace (_ && _) with false by lia. done.
    - intros i [b p] Hi (H1 & H2 & H3 & H4 & H5).
      pose proof (slot_bounds i cap es) as Hb1. pose proof (slot_bounds (i + 1) cap es) as Hb2.
      assert (Hb3 : i * es + es = (i + 1) * es) by lia.
      rewrite (u32_small (i * es)) by lia. rewrite Hb3. rewrite (u32_small ((i + 1) * es)) by lia.
      rewrite (u32_small (i + 1)) by lia.
      rewrite memcpy_within_ok by lia. cbn [bind]. rewrite load_ok by lia. cbn [bind].
      rewrite store_ok by lia. cbn [bind].
      eexists. split; [done|]. cbv beta iota.
      change (slice b ((i + 1) * es) es) with (slot b es (i + 1)).
      assert (Hls : len (slot b es (i + 1)) = es) by (apply len_slot with cap; lia).
      split; [|split; [|split; [|split]]].
      + intros k Hk. destruct (Z.eq_dec k i) as [->|Hne].
        * replace (_ && _) with true by lia.
          rewrite slot_write_same with (cap := cap) by lia.
          rewrite get_insert_eq by lia.
          destruct (H1 (i + 1)) as [-> ->]; [lia|]. replace (_ && _) with false by lia. done.
        * rewrite slot_write_other with (cap := cap) by lia.
          rewrite get_insert_ne by lia. destruct (H1 k) as [-> ->]; [lia|].
          replace ((len l <=? k) && (k <? i + 1)) with ((len l <=? k) && (k <? i)) by lia. done.
      + rewrite len_write; lia.
      + by rewrite len_insert.
      + rewrite drop_write_lt by lia. done.
      + rewrite drop_insert_lt by lia. done.
    - destruct st as [b p]. destruct HQ as (H1 & H2 & H3 & H4 & H5).
      exists b, p. split; [done|]. split; [|done].
      intros k Hk. rewrite len_app in Hk. destruct (H1 k) as [-> ->]; [lia|].
      destruct (Z.lt_ge_cases k (len l)).
      + replace (_ && _) with false by lia.
        destruct (Hc k) as [-> ->]; [rewrite len_app, len_cons; lia|].
        rewrite !get_app_l by lia. done.
      + replace (_ && _) with true by lia.
        destruct (Hc (k + 1)) as [-> ->]; [rewrite len_app, len_cons; lia|].
        rewrite !get_app_r by (rewrite ?len_cons; lia).
        rewrite get_cons by lia. replace (_ =? 0) with false by lia.
        replace (k + 1 - len l - 1) with (k - len l) by lia. done.
  Qed.

  (** appending a cell *)
  Lemma cells_snoc buf pa c p x :
    cap <= len pa -> cap * es <= len buf -> len c < cap -> len x = es ->
    cells es buf pa c ->
    cells es (write buf (len c * es) x) (<[Z.to_nat (len c) := p]> pa) (c ++ [(p, x)]).
  Proof.
    intros Hpa Hbuf Hlen Hx Hc k Hk. pose proof (len_nonneg c).
    rewrite len_app in Hk. change (len [(p, x)]) with 1 in Hk.
    destruct (Z.eq_dec k (len c)) as [->|].
    - rewrite get_mid. rewrite slot_write_same with (cap := cap) by lia.
      rewrite get_insert_eq by lia. done.
    - rewrite slot_write_other with (cap := cap) by lia. rewrite get_insert_ne by lia.
      rewrite get_app_l by lia. apply Hc. lia.
  Qed.
End shift.

(** ** The invariant *)

Record pholds (cap es : Z) (it : PriorityQueueItem_t) (q : PriorityQueue_t) (c : list entry)
  : Prop := {
  p_cap : pq_capacity q = cap;
  p_es : pq_element_size q = es;
  p_size : pq_size q = len c;
  p_le : len c <= cap;
  p_cells : cells es (pq_buffer q) (pq_priority_array q) c;
  p_buf : len (pq_buffer q) = len (it_element it);
  p_pa : len (pq_priority_array q) = len (it_priority it);
  p_buf' : drop (Z.to_nat (cap * es)) (pq_buffer q)
           = drop (Z.to_nat (cap * es)) (it_element it);
  p_pa' : drop (Z.to_nat cap) (pq_priority_array q)
          = drop (Z.to_nat cap) (it_priority it) }.

Section pq.
  Context (cap es : Z) (it : PriorityQueueItem_t).
  Context (Hs : pq_sizes cap es it).

  Lemma penqueue_ok q c p e :
    pholds cap es it q c -> es <= len e ->
    exists q', PriorityQueue_enqueue (Some q) (Some (mkItem [p] e))
               = Ok ((prio_step cap es (PEnqueue p e) c).1.1, Some q') /\
      pholds cap es it q' (prio_step cap es (PEnqueue p e) c).2 /\
      ((prio_step cap es (PEnqueue p e) c).1.1 = false -> q' = q).
  Proof.
    destruct Hs as (H1 & H2 & H3 & H4 & H5).
    intros H He. pose proof H as []. pose proof (len_nonneg c).
    unfold PriorityQueue_enqueue. cbn [deref bind it_priority it_element].
    unfold PQ_Full. rewrite p_cap0, p_size0, p_es0. cbn [prio_step].
    change (Z.of_nat (length c)) with (len c).
    set (x := take (Z.to_nat es) e).
    assert (Hx : len x = es) by (unfold x; rewrite len_take; lia).
    change (load [p] 0) with (Ok p). cbn [bind].
    destruct (Z.ltb_spec (len c) cap).
    - replace (len c =? cap) with false by lia. cbn [negb].
      pose proof (slot_bounds (len c) cap es).
      rewrite (u32_small (len c * es)) by lia. rewrite memcpy_ok by lia. cbn [bind].
      rewrite slice_0_take. fold x. rewrite store_ok by lia. cbn [bind fst snd].
      eexists. split; [done|]. split; [|done].
      constructor; cbn; rewrite ?len_app; change (len [(p, x)]) with 1; try done.
      + rewrite u32_small; lia.
      + lia.
      + apply cells_snoc with cap; (done || lia).
      + rewrite len_write; lia.
      + by rewrite len_insert.
      + rewrite drop_write_lt by lia. done.
      + rewrite drop_insert_lt by lia. done.
    - replace (len c =? cap) with true by lia. cbn [negb].
      destruct (scan_lowest q c) as (l & y & r & Ec & -> & ->); [lia|lia| |].
      { intros k Hk. by apply p_cells0. }
      cbn [bind fst snd].
      assert (Hl : len c = len l + len r + 1) by (rewrite Ec, len_app, len_cons; lia).
      pose proof (len_nonneg l). pose proof (len_nonneg r).
      rewrite load_ok by lia. cbn [bind].
      destruct (p_cells0 (len l)) as [_ Hy]; [lia|].
      rewrite Ec, get_mid in Hy. rewrite Hy.
      destruct (Z.ltb_spec (y.1) p); cbn [fst snd]; [|eauto].
      rewrite (u32_small (len c - 1)) by lia.
      replace (len c - 1) with (len l + len r) by lia.
      destruct (shift_ok cap es H1 H2 H3 (pq_buffer q) (pq_priority_array q) l y r)
        as (b & pa & -> & Hcells & Lb & Lp & Db & Dp); [lia|lia|by rewrite <- Ec; lia|by rewrite <- Ec|].
      cbn [bind]. pose proof (slot_bounds (len l + len r) cap es).
      rewrite (u32_small ((len l + len r) * es)) by lia. rewrite memcpy_ok by lia. cbn [bind].
      rewrite slice_0_take. fold x. rewrite store_ok by lia. cbn [bind].
      eexists. split; [done|]. split; [|done].
      constructor; cbn; rewrite ?len_app; change (len [(p, x)]) with 1; try done.
      + rewrite u32_small; lia.
      + lia.
      + rewrite <- len_app. apply cells_snoc with cap; rewrite ?len_app; (done || lia).
      + rewrite len_write; lia.
      + rewrite len_insert; lia.
      + rewrite drop_write_lt by lia. by rewrite Db.
      + rewrite drop_insert_lt by lia. by rewrite Dp.
  Qed.
  Lemma pdequeue_ok q c d :
    pholds cap es it q c -> es <= len d ->
    exists q', PriorityQueue_dequeue (Some q) (Some d)
               = Ok ((prio_step cap es (PDequeue d) c).1.1, Some q',
                     Some (prio_step cap es (PDequeue d) c).1.2) /\
      pholds cap es it q' (prio_step cap es (PDequeue d) c).2 /\
      ((prio_step cap es (PDequeue d) c).1.1 = false -> q' = q).
  Proof.
    destruct Hs as (H1 & H2 & H3 & H4 & H5).
    intros H Hd. pose proof H as []. pose proof (len_nonneg c).
    unfold PriorityQueue_dequeue. cbn [deref bind]. rewrite p_size0, p_cap0, p_es0.
    cbn [prio_step]. destruct (Z.eqb_spec (len c) 0) as [E|]; cbn [negb].
    { apply len_0_inv in E as ->. cbn. eauto. }
    destruct (scan_highest q c) as (l & y & r & Ec & -> & ->); [lia|lia| |].
    { intros k Hk. by apply p_cells0. }
    cbn [bind fst snd].
    assert (Hl : len c = len l + len r + 1) by (rewrite Ec, len_app, len_cons; lia).
    pose proof (len_nonneg l). pose proof (len_nonneg r).
    destruct (p_cells0 (len l)) as [Hy _]; [lia|]. rewrite Ec, get_mid in Hy.
    pose proof (slot_bounds (len l) cap es).
    rewrite (u32_small (len l * es)) by lia. rewrite memcpy_ok by lia. cbn [bind].
    change (slice (pq_buffer q) (len l * es) es) with (slot (pq_buffer q) es (len l)).
    rewrite Hy, write_0.
    rewrite (u32_small (len c - 1)) by lia. replace (len c - 1) with (len l + len r) by lia.
    destruct (shift_ok cap es H1 H2 H3 (pq_buffer q) (pq_priority_array q) l y r)
      as (b & pa & -> & Hcells & Lb & Lp & Db & Dp); [lia|lia|by rewrite <- Ec; lia|by rewrite <- Ec|].
    cbn [bind]. eexists. split; [done|]. split; [|done].
    constructor; cbn; rewrite ?len_app; try done; try lia; congruence.
  Qed.
  Lemma pstep_ok op q c :
    pholds cap es it q c -> pqop_ok es op ->
    exists q', pq_step op (Some q) = Ok ((prio_step cap es op c).1, Some q') /\
      pholds cap es it q' (prio_step cap es op c).2.
  Proof.
    intros H Ho. destruct op as [p e|d|].
    - destruct (penqueue_ok q c p e H Ho) as (q' & E & Hq & _).
      cbn [pq_step]. rewrite E. cbn [bind]. exists q'. split; [|done].
      f_equal. f_equal. cbn [prio_step]. destruct (_ <? cap); [done|].
      destruct (remove_first _ _) as [[x r]|]; [|done]. by destruct (_ <? p).
    - destruct (pdequeue_ok q c d H Ho) as (q' & E & Hq & _).
      cbn [pq_step]. rewrite E. cbn [bind deref]. exists q'. split; [|done].
      by destruct (prio_step _ _ _ _) as [[] ].
    - cbn. exists q. split; [|done]. destruct H. rewrite p_size0. done.
  Qed.
  Lemma prun_ok ops q c :
    pholds cap es it q c -> Forall (pqop_ok es) ops ->
    exists q', pq_run ops (Some q) = Ok ((prio cap es ops c).1, Some q') /\
      pholds cap es it q' (prio cap es ops c).2.
  Proof.
    intros H Ho. revert q c H. induction Ho as [|op ops Hop Ho IH]; intros q c H.
    { cbn. eauto. }
    destruct (pstep_ok op q c H Hop) as (q1 & E1 & P1). cbn [pq_run prio]. rewrite E1. cbn [bind].
    destruct (prio_step cap es op c) as [r c1]. cbn [fst snd] in *.
    destruct (IH q1 c1 P1) as (q2 & E2 & P2). rewrite E2. cbn.
    destruct (prio cap es ops c1) as [rs c2]. cbn in *. eauto.
  Qed.
  Lemma pinit_ok q0 :
    exists q, PriorityQueue_init (Some q0) cap es (Some it) = Ok (true, Some q) /\
      pholds cap es it q [].
  Proof.
    destruct Hs as (H1 & H2 & H3 & H4 & H5).
    unfold PriorityQueue_init. replace (es =? 0) with false by lia.
    replace (cap =? 0) with false by lia. cbn. eexists. split; [done|].
    constructor; cbn; try lia; try done.
    - change (len []) with 0. lia.
    - intros k Hk. change (len []) with 0 in Hk. lia.
  Qed.
  Lemma pafter_holds ops q :
    Forall (pqop_ok es) ops -> pq_after cap es it ops q ->
    pholds cap es it q (prio cap es ops []).2.
  Proof.
    intros Ho (q0 & q1 & rs & Ei & Er).
    destruct (pinit_ok q0) as (q1' & Ei' & P1). rewrite Ei in Ei'. injection Ei' as <-.
    destruct (prun_ok ops q1 [] P1 Ho) as (q' & Er' & P'). rewrite Er in Er'.
    by injection Er' as _ <-.
  Qed.
End pq.

(** ** Consequences *)

Lemma pq_behaves cap es it q0 ops :
  pq_sizes cap es it -> Forall (pqop_ok es) ops ->
  exists q1 q2, PriorityQueue_init (Some q0) cap es (Some it) = Ok (true, Some q1) /\
    pq_run ops (Some q1) = Ok ((prio cap es ops []).1, Some q2).
Proof.
  intros Hs Ho. destruct (pinit_ok cap es it Hs q0) as (q1 & E1 & P1).
  destruct (prun_ok cap es it Hs ops q1 [] P1 Ho) as (q2 & E2 & _). eauto.
Qed.
Lemma pq_run_app ops1 ops2 q r1 q1 r2 q2 :
  pq_run ops1 q = Ok (r1, q1) -> pq_run ops2 q1 = Ok (r2, q2) ->
  pq_run (ops1 ++ ops2) q = Ok (r1 ++ r2, q2).
Proof.
  revert q r1. induction ops1 as [|op ops1 IH]; intros q r1 H1 H2; cbn in *.
  - by injection H1 as <- <-.
  - destruct (pq_step op q) as [[r q']| |]; cbn in *; try done.
    destruct (pq_run ops1 q') as [[rs q'']| |] eqn:E; cbn in *; try done.
    injection H1 as <- <-. rewrite (IH q' rs E H2). done.
Qed.
Lemma prio_app cap es ops1 ops2 c :
  prio cap es (ops1 ++ ops2) c
  = ((prio cap es ops1 c).1 ++ (prio cap es ops2 (prio cap es ops1 c).2).1,
     (prio cap es ops2 (prio cap es ops1 c).2).2).
Proof.
  revert c. induction ops1 as [|op ops1 IH]; intros c; cbn.
  - by destruct (prio cap es ops2 c).
  - destruct (prio_step cap es op c) as [r c1]. rewrite IH.
    by destruct (prio cap es ops1 c1).
Qed.
Lemma pq_after_app cap es it ops1 ops2 q rs q' :
  pq_after cap es it ops1 q -> pq_run ops2 (Some q) = Ok (rs, Some q') ->
  pq_after cap es it (ops1 ++ ops2) q'.
Proof.
  intros (q0 & q1 & rs1 & Ei & Er) E. exists q0, q1, (rs1 ++ rs). split; [done|].
  by apply pq_run_app with (Some q).
Qed.

Lemma is_highest_true c x : is_highest c x = true <-> forall y, y ∈ c -> y.1 <= x.1.
Proof.
  unfold is_highest. rewrite forallb_forall. split.
  - intros H y Hy. rewrite elem_of_list_In in Hy. specialize (H y Hy). lia.
  - intros H y Hy. rewrite <- elem_of_list_In in Hy. specialize (H y Hy). lia.
Qed.
Lemma is_lowest_true c x : is_lowest c x = true <-> forall y, y ∈ c -> x.1 <= y.1.
Proof.
  unfold is_lowest. rewrite forallb_forall. split.
  - intros H y Hy. rewrite elem_of_list_In in Hy. specialize (H y Hy). lia.
  - intros H y Hy. rewrite <- elem_of_list_In in Hy. specialize (H y Hy). lia.
Qed.
Lemma first_highest c x rest :
  remove_first (is_highest c) c = Some (x, rest) ->
  exists l r, c = l ++ x :: r /\ rest = l ++ r /\
    (forall y, y ∈ l -> y.1 < x.1) /\ (forall y, y ∈ r -> y.1 <= x.1).
Proof.
  intros E. apply remove_first_inv in E as (l & r & Ec & Er & Hx & Hl).
  rewrite is_highest_true in Hx. exists l, r. split; [done|]. split; [done|]. split.
  - intros y Hy. specialize (Hl y Hy). apply not_true_iff_false in Hl.
    destruct (Z.lt_ge_cases (y.1) (x.1)) as [|Hge]; [done|]. exfalso. apply Hl.
    apply is_highest_true. intros z Hz. specialize (Hx z Hz). lia.
  - intros y Hy. apply Hx. rewrite Ec. apply elem_of_app. right. by right.
Qed.
Lemma first_lowest c x rest :
  remove_first (is_lowest c) c = Some (x, rest) ->
  exists l r, c = l ++ x :: r /\ rest = l ++ r /\
    (forall y, y ∈ l -> x.1 < y.1) /\ (forall y, y ∈ r -> x.1 <= y.1).
Proof.
  intros E. apply remove_first_inv in E as (l & r & Ec & Er & Hx & Hl).
  rewrite is_lowest_true in Hx. exists l, r. split; [done|]. split; [done|]. split.
  - intros y Hy. specialize (Hl y Hy). apply not_true_iff_false in Hl.
    destruct (Z.lt_ge_cases (x.1) (y.1)) as [|Hge]; [done|]. exfalso. apply Hl.
    apply is_lowest_true. intros z Hz. specialize (Hx z Hz). lia.
  - intros y Hy. apply Hx. rewrite Ec. apply elem_of_app. right. by right.
Qed.
Lemma max_exists (c : list entry) : c <> [] -> exists x, x ∈ c /\ is_highest c x = true.
Proof.
  induction c as [|a c IH]; [done|]. intros _. destruct c as [|b c].
  - exists a. split; [by left|]. apply is_highest_true. intros y Hy.
    apply elem_of_list_singleton in Hy as ->. lia.
  - destruct IH as (x & Hx & Hm); [done|]. rewrite is_highest_true in Hm.
    destruct (Z.le_ge_cases (a.1) (x.1)).
    + exists x. split; [by right|]. apply is_highest_true. intros y Hy.
      apply elem_of_cons in Hy as [->|Hy]; [done|]. by apply Hm.
    + exists a. split; [by left|]. apply is_highest_true. intros y Hy.
      apply elem_of_cons in Hy as [->|Hy]; [lia|]. specialize (Hm y Hy). lia.
Qed.
Lemma min_exists (c : list entry) : c <> [] -> exists x, x ∈ c /\ is_lowest c x = true.
Proof.
  induction c as [|a c IH]; [done|]. intros _. destruct c as [|b c].
  - exists a. split; [by left|]. apply is_lowest_true. intros y Hy.
    apply elem_of_list_singleton in Hy as ->. lia.
  - destruct IH as (x & Hx & Hm); [done|]. rewrite is_lowest_true in Hm.
    destruct (Z.le_ge_cases (a.1) (x.1)).
    + exists a. split; [by left|]. apply is_lowest_true. intros y Hy.
      apply elem_of_cons in Hy as [->|Hy]; [lia|]. specialize (Hm y Hy). lia.
    + exists x. split; [by right|]. apply is_lowest_true. intros y Hy.
      apply elem_of_cons in Hy as [->|Hy]; [lia|]. by apply Hm.
Qed.
Lemma remove_first_some f c x : x ∈ c -> f x = true -> exists y r, remove_first f c = Some (y, r).
Proof.
  induction 1 as [x c|x a c Hx IH]; intros E; cbn.
  - rewrite E. eauto.
  - destruct (f a); [eauto|]. destruct (IH E) as (y & r & ->). eauto.
Qed.
Lemma highest_some c : c <> [] -> exists x r, remove_first (is_highest c) c = Some (x, r).
Proof. intros H. destruct (max_exists c H) as (x & H1 & H2). by eapply remove_first_some. Qed.
Lemma lowest_some c : c <> [] -> exists x r, remove_first (is_lowest c) c = Some (x, r).
Proof. intros H. destruct (min_exists c H) as (x & H1 & H2). by eapply remove_first_some. Qed.

Section preach.
  Context (cap es : Z) (it : PriorityQueueItem_t) (ops : list pqop) (q : PriorityQueue_t).
  Context (Hs : pq_sizes cap es it) (Ho : Forall (pqop_ok es) ops).
  Context (Ha : pq_after cap es it ops q).
  Let c := (prio cap es ops []).2.

  Lemma preach_dequeue d : es <= len d -> c <> [] ->
    exists l x r q', c = l ++ x :: r /\
      (forall y, y ∈ l -> y.1 < x.1) /\ (forall y, y ∈ r -> y.1 <= x.1) /\
      PriorityQueue_dequeue (Some q) (Some d) = Ok (true, Some q', Some (copied x.2 d)) /\
      pq_after cap es it (ops ++ [PDequeue d]) q' /\
      (prio cap es (ops ++ [PDequeue d]) []).2 = l ++ r.
  Proof.
    intros Hd Hc. pose proof (pafter_holds cap es it Hs ops q Ho Ha) as HH. fold c in HH.
    destruct (pdequeue_ok cap es it Hs q c d HH Hd) as (q' & E & _ & _).
    cbn [prio_step] in E. destruct (highest_some c Hc) as (x & rest & Er). rewrite Er in E.
    cbn [fst snd] in E. destruct (first_highest _ _ _ Er) as (l & r & Ec & -> & H1 & H2).
    exists l, x, r, q'. split; [done|]. split; [done|]. split; [done|]. split; [done|]. split.
    - eapply pq_after_app; [done|]. cbn [pq_run pq_step]. rewrite E. done.
    - rewrite prio_app. fold c. cbn [prio prio_step]. rewrite Er. done.
  Qed.
  Lemma preach_dequeue_empty d : c = [] ->
    PriorityQueue_dequeue (Some q) (Some d) = Ok (false, Some q, Some d).
  Proof.
    intros Hc. pose proof (pafter_holds cap es it Hs ops q Ho Ha) as []. fold c in p_size0.
    rewrite Hc in p_size0. unfold PriorityQueue_dequeue. cbn. rewrite p_size0. done.
  Qed.
  Lemma preach_enqueue_room p e : es <= len e -> len c < cap ->
    exists q', PriorityQueue_enqueue (Some q) (Some (mkItem [p] e)) = Ok (true, Some q') /\
      pq_after cap es it (ops ++ [PEnqueue p e]) q' /\
      (prio cap es (ops ++ [PEnqueue p e]) []).2 = c ++ [(p, take (Z.to_nat es) e)].
  Proof.
    intros He Hc. pose proof (pafter_holds cap es it Hs ops q Ho Ha) as HH. fold c in HH.
    destruct (penqueue_ok cap es it Hs q c p e HH He) as (q' & E & _ & _).
    assert (Hst : prio_step cap es (PEnqueue p e) c
                  = ((true, e), c ++ [(p, take (Z.to_nat es) e)])).
    { cbn [prio_step]. change (Z.of_nat (length c)) with (len c).
      by replace (len c <? cap) with true by lia. }
    rewrite Hst in E. exists q'. split; [done|]. split.
    - eapply pq_after_app; [done|]. cbn [pq_run pq_step]. rewrite E. done.
    - rewrite prio_app. fold c. cbn [prio]. rewrite Hst. done.
  Qed.
  Lemma preach_enqueue_full p e : es <= len e -> len c = cap ->
    exists l x r, c = l ++ x :: r /\
      (forall y, y ∈ l -> x.1 < y.1) /\ (forall y, y ∈ r -> x.1 <= y.1) /\
      (p <= x.1 ->
         PriorityQueue_enqueue (Some q) (Some (mkItem [p] e)) = Ok (false, Some q)) /\
      (x.1 < p -> exists q',
         PriorityQueue_enqueue (Some q) (Some (mkItem [p] e)) = Ok (true, Some q') /\
         pq_after cap es it (ops ++ [PEnqueue p e]) q' /\
         (prio cap es (ops ++ [PEnqueue p e]) []).2 = l ++ r ++ [(p, take (Z.to_nat es) e)]).
  Proof.
    intros He Hc. pose proof (pafter_holds cap es it Hs ops q Ho Ha) as HH. fold c in HH.
    destruct (penqueue_ok cap es it Hs q c p e HH He) as (q' & E & _ & Hq).
    assert (Hne : c <> []).
    { intros Hn. rewrite Hn in Hc. change (len []) with 0 in Hc. destruct Hs. lia. }
    destruct (lowest_some c Hne) as (x & rest & Er).
    destruct (first_lowest _ _ _ Er) as (l & r & Ec & Erest & H1 & H2).
    exists l, x, r. split; [done|]. split; [done|]. split; [done|].
    assert (Hst : prio_step cap es (PEnqueue p e) c
                  = if x.1 <? p then ((true, e), rest ++ [(p, take (Z.to_nat es) e)])
                    else ((false, e), c)).
    { cbn [prio_step]. change (Z.of_nat (length c)) with (len c).
      replace (len c <? cap) with false by lia. rewrite Er. done. }
    rewrite Hst in E, Hq. split; intros Hp.
    - replace (x.1 <? p) with false in * by lia. cbn in *. rewrite Hq in E by done. done.
    - exists q'. replace (x.1 <? p) with true in * by lia. split; [done|]. split.
      + eapply pq_after_app; [done|]. cbn [pq_run pq_step]. rewrite E. done.
      + rewrite prio_app. fold c. cbn [prio]. rewrite Hst. cbn. rewrite Erest.
        by rewrite app_assoc.
  Qed.
  Lemma preach_empty : PriorityQueue_empty (Some q) = Ok (len c =? 0).
  Proof.
    pose proof (pafter_holds cap es it Hs ops q Ho Ha) as []. unfold PriorityQueue_empty.
    cbn. by rewrite p_size0.
  Qed.
  Lemma preach_memory :
    pq_capacity q = cap /\ pq_element_size q = es /\
    pq_size q = len c /\ len c <= cap /\
    len (pq_buffer q) = len (it_element it) /\
    len (pq_priority_array q) = len (it_priority it) /\
    drop (Z.to_nat (cap * es)) (pq_buffer q) = drop (Z.to_nat (cap * es)) (it_element it) /\
    drop (Z.to_nat cap) (pq_priority_array q) = drop (Z.to_nat cap) (it_priority it).
  Proof. by pose proof (pafter_holds cap es it Hs ops q Ho Ha) as []. Qed.
End preach.

(** ** Draining *)

Lemma filter_none (l : list entry) p :
  (forall y, y ∈ l -> y.1 <> p) -> filter (fun y => y.1 = p) l = [].
Proof.
  induction l as [|a l IH]; intros H; [done|].
  rewrite filter_cons_False by (apply H; left). apply IH. intros y Hy. apply H. by right.
Qed.
Lemma drain_spec cap es d c :
  exists out, prio cap es (replicate (length c) (PDequeue d)) c
              = (map (fun x => (true, copied x.2 d)) out, []) /\
    Permutation out c /\ StronglySorted (fun x y => y.1 <= x.1) out /\
    forall p, filter (fun x => x.1 = p) out = filter (fun x => x.1 = p) c.
Proof.
  remember (length c) as n eqn:En. revert c En. induction n as [|n IH]; intros c En.
  - destruct c; [|done]. exists []. split; [done|]. split; [done|]. split; [constructor|done].
  - destruct (highest_some c) as (x & rest & Er); [by intros ->|].
    destruct (first_highest _ _ _ Er) as (l & r & Ec & Erest & H1 & H2).
    destruct (IH rest) as (out & Eo & Hp & Hsort & Hst).
    { rewrite Erest, app_length. rewrite Ec, app_length in En. cbn in En. lia. }
    exists (x :: out). split; [|split; [|split]].
    + cbn [replicate prio prio_step]. rewrite Er, Eo. done.
    + rewrite Ec, Hp, Erest. by apply Permutation_middle.
    + constructor; [done|]. rewrite Hp, Erest. apply Forall_app. split.
      * apply list.Forall_forall. intros y Hy. specialize (H1 y Hy). lia.
      * by apply list.Forall_forall.
    + intros p. rewrite Ec, list.filter_app.
      destruct (decide (x.1 = p)) as [Hx|Hx].
      * rewrite !filter_cons_True by done. rewrite Hst, Erest, list.filter_app.
        rewrite (filter_none l); [done|]. intros y Hy. specialize (H1 y Hy). lia.
      * rewrite !filter_cons_False by done. by rewrite Hst, Erest, list.filter_app.
Qed.
Lemma preach_drain cap es it ops q d :
  pq_sizes cap es it -> Forall (pqop_ok es) ops -> pq_after cap es it ops q ->
  es <= len d ->
  let c := (prio cap es ops []).2 in
  exists out q', pq_run (replicate (length c) (PDequeue d)) (Some q)
              = Ok (map (fun x => (true, copied x.2 d)) out, Some q') /\
    PriorityQueue_empty (Some q') = Ok true /\
    Permutation out c /\ StronglySorted (fun x y => y.1 <= x.1) out /\
    forall p, filter (fun x => x.1 = p) out = filter (fun x => x.1 = p) c.
Proof.
  intros Hs Ho Ha Hd c. pose proof (pafter_holds cap es it Hs ops q Ho Ha) as HH. fold c in HH.
  destruct (drain_spec cap es d c) as (out & E & H).
  destruct (prun_ok cap es it Hs (replicate (length c) (PDequeue d)) q c HH) as (q' & E' & H').
  { by apply Forall_replicate. }
  rewrite E in E', H'. exists out, q'. split; [done|]. split; [|done].
  destruct H'. unfold PriorityQueue_empty. cbn in *. by rewrite p_size0.
Qed.

(** ** Arguments *)

Lemma pinit_rejects queue cap es items :
  queue = None \/ items = None \/ cap = 0 \/ es = 0 ->
  PriorityQueue_init queue cap es items = Ok (false, queue).
Proof.
  intros H. unfold PriorityQueue_init. destruct queue, items; try done.
  destruct (Z.eqb_spec cap 0), (Z.eqb_spec es 0); try done. naive_solver.
Qed.
Lemma pinit_accepts q0 cap es it :
  cap <> 0 -> es <> 0 ->
  PriorityQueue_init (Some q0) cap es (Some it)
  = Ok (true, Some (mkPQ 0 cap es (it_priority it) (it_element it))).
Proof.
  intros. unfold PriorityQueue_init. by destruct (Z.eqb_spec cap 0), (Z.eqb_spec es 0).
Qed.
Lemma pnull item element :
  PriorityQueue_empty None = UB NullDeref /\
  PriorityQueue_enqueue None item = UB NullDeref /\
  PriorityQueue_dequeue None element = UB NullDeref.
Proof. done. Qed.
Lemma pnull_item cap es it ops q :
  pq_sizes cap es it -> Forall (pqop_ok es) ops -> pq_after cap es it ops q ->
  PriorityQueue_enqueue (Some q) None = UB NullDeref /\
  PriorityQueue_dequeue (Some q) None
  = if len (prio cap es ops []).2 =? 0 then Ok (false, Some q, None) else UB NullDeref.
Proof.
  intros Hs Ho Ha. pose proof (pafter_holds cap es it Hs ops q Ho Ha) as [].
  destruct Hs as (H1 & H2 & H3 & H4 & H5).
  remember (prio cap es ops []).2 as c eqn:Ec. clear Ec. pose proof (len_nonneg c).
  unfold PriorityQueue_enqueue, PriorityQueue_dequeue, PQ_Full. cbn [deref bind].
  rewrite p_size0, p_cap0. split.
  - destruct (Z.eqb_spec (len c) cap); [|done]. cbn [negb].
    destruct (scan_lowest q c) as (l & y & r & -> & -> & _); [lia|lia| |].
    { intros k Hk. by apply p_cells0. }
    cbn [bind]. rewrite len_app, len_cons in *. pose proof (len_nonneg l).
    pose proof (len_nonneg r). rewrite load_ok by lia. done.
  - destruct (Z.eqb_spec (len c) 0); [done|]. cbn [negb].
    destruct (scan_highest q c) as (l & y & r & -> & -> & _); [lia|lia| |done].
    intros k Hk. by apply p_cells0.
Qed.
