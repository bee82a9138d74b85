(** * A client of the C text of priority_queue.c sees a bounded priority queue *)
From Verif Require Import CSem Lib CLang C_Containers Model_Containers Drive_ContText Drive_TextRun
  Spec_Queue Spec_PriorityQueue Drive_PriorityQueue Proof_PriorityQueue Refine Refine_Sort
  Refine_PQ Refine_PQEnq Proof_TextQueue.

Lemma pq_at_app m s p b q x : pq_at m s p b q -> pq_at (m ++ x) s p b q.
Proof. intros (? & ? & ? & ?). split_and!; [by apply front_at..|done]. Qed.
Lemma put_pq_length m s p b q : length (put_pq s p b q m) = length m.
Proof. unfold put_pq, put_bytes. by rewrite !insert_length. Qed.
Lemma put_pq_app m s p b q q' x : pq_at m s p b q -> put_pq s p b q' (m ++ x) = put_pq s p b q' m ++ x.
Proof.
  intros (Hs%lookup_lt_Some & Hp%lookup_lt_Some & Hb%lookup_lt_Some & _). unfold put_pq, put_bytes.
  rewrite !put_front by (rewrite ?insert_length; lia). done.
Qed.
Lemma put_pq_at m s p b q : s <> p -> s <> b -> p <> b ->
  (s < length m)%nat -> (p < length m)%nat -> (b < length m)%nat -> pq_at (put_pq s p b q m) s p b q.
Proof.
  intros. unfold put_pq, put_bytes, pq_at, bytes_at, words_at. split_and!; [..|done].
  - apply list_lookup_insert. by rewrite !insert_length.
  - rewrite list_lookup_insert_ne by done. apply list_lookup_insert. by rewrite !insert_length.
  - rewrite !list_lookup_insert_ne by done. by apply list_lookup_insert.
Qed.
Lemma same_but_put_pq m s p b q : same_but [s; p; b] m (put_pq s p b q m).
Proof.
  split; [apply put_pq_length|]. intros c Hc. unfold put_pq, put_bytes.
  rewrite !not_elem_of_cons in Hc. destruct Hc as (? & ? & ? & _). by rewrite !list_lookup_insert_ne by done.
Qed.

(** what stays true of the structure *)
Definition pq_keeps (fuel : nat) (q : PriorityQueue_t) : Prop :=
  pq_u32 q /\ 0 < pq_capacity q < Z.of_nat fuel /\ pq_size q <= pq_capacity q.

Lemma shift_u32 es from cur buf prio buf' prio' : Forall is_u32 prio ->
  PQ_shift es from cur buf prio = Ok (buf', prio') -> Forall is_u32 prio'.
Proof.
  unfold PQ_shift. intros Hp E.
  destruct (Z.ltb_spec cur from) as [Hc|Hc].
  { rewrite cfor_empty in E by lia. by injection E as _ <-. }
  eapply (cfor_inv (fun _ '(_, pr) => Forall is_u32 pr)) in E; [done|done|done|].
  intros i [o pr] [o' pr'] Hi Hpr E'. apply bind_ok_inv in E' as (o3 & _ & E').
  apply bind_ok_inv in E' as (z & Hz & E'). apply bind_ok_inv in E' as (o4 & Ho & E').
  injection E' as <- <-. eapply store_u32; [|by eapply load_u32|]; done.
Qed.

Lemma pq_step_keeps fuel op q r q' : pq_keeps fuel q -> op_u32 op -> pq_step op (Some q) = Ok (r, q') ->
  exists q1, q' = Some q1 /\ pq_keeps fuel q1.
Proof.
  intros Hk Ho E. pose proof Hk as ((H1 & H2 & H3 & H4) & Hc & Hs). unfold is_u32 in H1, H2.
  destruct op as [p e|d|]; cbn [pq_step op_u32] in *.
  - unfold PriorityQueue_enqueue in E. cbn [deref bind] in E. destruct (PQ_Full q) eqn:Ef; cbn [negb] in E.
    + unfold PQ_Full in Ef. destruct (GetLowestPriorityIndex q) as [lo| |]; cbn [bind] in E; [|done..].
      destruct (load _ lo) as [pl| |]; cbn [bind it_priority] in E; [|done..].
      change (load [p] 0) with (Ok p) in E. cbn [bind] in E.
      destruct (pl <? p); [|injection E as _ <-; by eexists].
      destruct (PQ_shift _ _ _ _ _) as [[bu pr]| |] eqn:Esh; cbn [bind] in E; [|done..].
      destruct (memcpy _ _ _ _ _) as [bu'| |]; cbn [bind] in E; [|done..].
      destruct (store _ _ _) as [pr'| |] eqn:Est; cbn [bind] in E; [|done..].
      injection E as _ <-. eexists. split; [done|].
      apply shift_u32 in Esh; [|done]. apply store_u32 in Est; [|done..].
      rewrite (u32_small (pq_size q - 1)), u32_small by lia.
      unfold pq_keeps, pq_u32, is_u32 in *; cbn. repeat split; try done; lia.
    + unfold PQ_Full in Ef. destruct (memcpy _ _ _ _ _) as [bu'| |]; cbn [bind it_priority] in E; [|done..].
      change (load [p] 0) with (Ok p) in E. cbn [bind] in E.
      destruct (store _ _ _) as [pr'| |] eqn:Est; cbn [bind] in E; [|done..].
      injection E as _ <-. eexists. split; [done|]. apply store_u32 in Est; [|done..].
      rewrite u32_small by lia.
      unfold pq_keeps, pq_u32, is_u32 in *; cbn. repeat split; try done; lia.
  - unfold PriorityQueue_dequeue in E. cbn [deref bind] in E.
    destruct (Z.eqb_spec (pq_size q) 0); cbn [negb deref bind] in E; [injection E as _ <-; by eexists|].
    destruct (GetHighestPriorityIndex q) as [hi| |]; cbn [bind] in E; [|done..].
    destruct (memcpy _ _ _ _ _) as [bu'| |]; cbn [bind] in E; [|done..].
    destruct (PQ_shift _ _ _ _ _) as [[bu pr]| |] eqn:Esh; cbn [bind deref] in E; [|done..].
    injection E as _ <-. eexists. split; [done|]. apply shift_u32 in Esh; [|done].
    rewrite u32_small by lia.
    unfold pq_keeps, pq_u32, is_u32 in *; cbn. repeat split; try done; lia.
  - injection E as _ <-. by eexists.
Qed.

Local Ltac fin q' := fin_at q' put_pq_app put_pq_length.

Section pq.
  Context (sc : bool) (fuel : nat).

  Lemma pq_call_step m s p b q op : pq_at m s p b q -> pq_keeps fuel q -> op_u32 op ->
    pq_call sc fuel s op m
    = let! '(r, q') := pq_step op (Some q) in Ok (r, opt_put q' (put_pq s p b) m).
  Proof.
    intros H (Hu & Hc & Hsz) Hop.
    pose proof H as (Hs%lookup_lt_Some & Hp%lookup_lt_Some & Hb%lookup_lt_Some & _).
    pose proof (put_pq_id _ _ _ _ _ H) as Hid. pose proof Hu as (H1 & _). unfold is_u32 in H1.
    unfold pq_call, call_with_objs.
    destruct op as [pr e|d|]; cbn [pq_step op_u32] in *.
    - assert (item_at (m ++ [ints 8 e; ints 32 [pr]; item_cells (length m + 1) (length m)])
               (length m + 2) (length m + 1) (length m) (mkItem [pr] e)) as Hi.
      { repeat split; unfold words_at, bytes_at; rewrite lookup_app_r by lia.
        - by replace (length m + 2 - length m)%nat with 2%nat by lia.
        - by replace (length m + 1 - length m)%nat with 1%nat by lia.
        - by rewrite Nat.sub_diag. }
      pose proof (ref_PriorityQueue_enqueue sc no_ext fuel _ tt s p b (Some q) _ _ _ _
        (pq_at_app _ _ _ _ _ _ H) Hu Hi (Forall_cons_2 _ _ _ Hop (Forall_nil_2 _))
        ltac:(lia) ltac:(lia) ltac:(lia) ltac:(lia)
        ltac:(cbn; split; [lia|intros; rewrite u32_small; lia])) as HR.
      cbn [opt_ptr] in HR. rewrite HR.
      destruct (PriorityQueue_enqueue (Some q) _) as [[r q']| |]; cbn [bind]; [|done..]. fin q'.
    - pose proof (ref_PriorityQueue_dequeue sc no_ext fuel (m ++ [ints 8 d]) tt s p b (Some q) (length m) d
        (pq_at_app _ _ _ _ _ _ H) Hu (last_at m _ _ eq_refl) ltac:(lia) ltac:(lia) ltac:(cbn; lia)) as HR.
      cbn [opt_ptr] in HR. rewrite HR.
      destruct (PriorityQueue_dequeue (Some q) (Some d)) as [[[r q'] d']| |] eqn:E; cbn [bind]; [|done..].
      assert (exists o, d' = Some o) as [o ->].
      { clear -E. unfold PriorityQueue_dequeue in E. cbn [deref bind] in E.
        destruct (negb _); cbn [deref bind] in E; [|injection E as _ _ <-; by eexists].
        destruct (GetHighestPriorityIndex q) as [hi| |]; cbn [bind] in E; [|done..].
        destruct (memcpy _ _ _ _ _) as [o| |]; cbn [bind] in E; [|done..].
        destruct (PQ_shift _ _ _ _ _) as [[bu pr]| |] eqn:Esh; cbn [bind] in E; [|done..].
        injection E as _ _ <-. by eexists. }
      cbn [deref bind opt_put]. unfold put_bytes. rewrite put_last. fin q'.
    - pose proof (ref_PriorityQueue_empty sc no_ext fuel (m ++ []) tt s p b (Some q) (pq_at_app _ _ _ _ _ _ H)) as HR.
      cbn [opt_ptr] in HR. rewrite HR. destruct (PriorityQueue_empty _); cbn [bind]; [|done..].
      cbn [opt_put]. by rewrite take_app, answer_b2z, Hid.
  Qed.

  Lemma pq_calls ops m s p b q : pq_at m s p b q -> pq_keeps fuel q -> Forall op_u32 ops ->
    forall rs q', pq_run ops (Some q) = Ok (rs, q') ->
    exists m', calls (pq_call sc fuel s) ops m = Ok (rs, m') /\ same_but [s; p; b] m m'.
  Proof.
    revert m q. induction ops as [|op ops IH]; intros m q H Hu Ho rs q' E; cbn [calls pq_run] in *.
    - injection E as <- <-. eauto using same_but_refl.
    - apply Forall_cons_1 in Ho as [Ho1 Ho]. rewrite (pq_call_step m s p b q) by done.
      destruct (pq_step op (Some q)) as [[r qa]| |] eqn:Es; cbn [bind] in *; [|done..].
      destruct (pq_step_keeps _ _ _ _ _ Hu Ho1 Es) as (q1 & -> & Hu1). cbn [opt_put].
      destruct (pq_run ops (Some q1)) as [[rs1 qb]| |] eqn:Er; cbn [bind] in *; [|done..].
      injection E as <- <-. pose proof (pq_ne _ _ _ _ _ H) as (? & ? & ?).
      destruct H as (Hs%lookup_lt_Some & Hp%lookup_lt_Some & Hb%lookup_lt_Some & _).
      destruct (IH (put_pq s p b q1 m) q1 ltac:(by apply put_pq_at) Hu1 Ho _ _ Er)
        as (m' & -> & Hb'). cbn [bind].
      eexists. split; [done|]. eapply same_but_trans; [apply same_but_put_pq|done].
  Qed.

  Lemma text_pq_behaves m s p b i old cap es prios buf ops :
    m !! s = Some old -> pq_shape old -> m !! i = Some (item_cells p b) ->
    m !! p = Some (ints 32 prios) -> m !! b = Some (ints 8 buf) -> p <> b -> Forall is_u32 prios ->
    pq_sizes cap es (mkItem prios buf) -> cap < Z.of_nat fuel ->
    Forall (pqop_ok es) ops -> Forall op_u32 ops ->
    exists m1 m2,
      call sc no_ext fuel c_PriorityQueue_init
        [struct_ptr 5 s; VInt U32 cap; VInt U32 es; struct_ptr 2 i] m tt
      = Ok (VInt IBool 1, m1, tt) /\
      calls (pq_call sc fuel s) ops m1 = Ok ((prio cap es ops []).1, m2) /\
      same_but [s; p; b] m m1 /\ same_but [s; p; b] m1 m2.
  Proof.
    intros Hs Hsh Hi Hp Hb Hpb Hpr Hz Hf Ho Hou. pose proof Hz as (Hc & He & _).
    set (q0 := mkPQ 0 0 0 [] []).
    destruct (pq_behaves cap es (mkItem prios buf) q0 ops Hz Ho) as (q1 & q2 & Ei & Er).
    pose proof (ref_PriorityQueue_init sc no_ext fuel m tt s p b i (Some q0) old cap es (Some (mkItem prios buf))
      (conj Hs Hsh) (conj Hi (conj Hp Hb)) ltac:(unfold is_u32; lia) ltac:(unfold is_u32; lia)) as HR.
    cbn [opt_ptr] in HR. rewrite Ei in HR. cbn [bind opt_put b2z] in HR.
    assert (s <> p /\ s <> b) as [Hsp Hsb].
    { split; intros ->; simplify_eq; clear -Hsh.
      - destruct prios as [|? [|? [|? []]]]; destruct Hsh as [E|(? & ? & ? & E)]; done.
      - destruct buf as [|? [|? [|? []]]]; destruct Hsh as [E|(? & ? & ? & E)]; done. }
    assert (pq_at (put_pq s p b q1 m) s p b q1) as Ha.
    { apply lookup_lt_Some in Hs, Hp, Hb. by apply put_pq_at. }
    assert (pq_keeps fuel q1) as Hu.
    { cbn in Ei. destruct (_ && _) in Ei; cbn in Ei; [|done].
      injection Ei as <-. unfold pq_keeps, pq_u32, is_u32; cbn. repeat split; try lia. done. }
    destruct (pq_calls ops _ s p b q1 Ha Hu Hou _ _ Er) as (m' & HC & HS).
    exists (put_pq s p b q1 m), m'. split; [exact HR|]. split; [done|]. split; [|done].
    apply same_but_put_pq.
  Qed.
End pq.
