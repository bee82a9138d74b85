(** * [PriorityQueue_enqueue] and [PriorityQueue_dequeue] against the C text *)
From Verif Require Import CSem Lib CLang C_Containers Model_Containers Drive_ContText
  Drive_SortText Proof_SortEnd Proof_Term Refine Refine_Cipher Refine_Sort Refine_Queue Refine_PQ.

Lemma lowest_nd q : GetLowestPriorityIndex q <> Diverge.
Proof.
  unfold GetLowestPriorityIndex. nd.
Qed.
Lemma highest_nd q : GetHighestPriorityIndex q <> Diverge.
Proof.
  unfold GetHighestPriorityIndex. nd.
Qed.

Section pq.
  Context {W : Type} (sc : bool)
          (ext : Z -> list val -> mem -> W -> outcome (val * mem * W)) (fuel : nat).
  Local Notation run f := (call sc ext fuel f).
  Implicit Types (m : mem) (w : W) (q : PriorityQueue_t).

  (** the loop that both functions contain *)
  Local Notation shift_cond := (EBin Lt (ELv (LVar 6 (TInt U32))) (ELv (LVar 5 (TInt U32)))).
  Local Notation shift_step := (SExpr (EInc true 1 (LVar 6 (TInt U32)))).
  Local Notation shift_body := (SSeq (SExpr (ELib LMemcpy (ECons (EAddr (LIndex (ELv (LVar 4 (TPtr (TInt U8)))) (EBin Mul (ELv (LVar 6 (TInt U32))) (ELv (LField (LDeref (ELv (LVar 0 (TPtr (TStruct 5))))) 2 (TInt U32)))))) (ECons (EAddr (LIndex (ELv (LVar 4 (TPtr (TInt U8)))) (EBin Add (EBin Mul (ELv (LVar 6 (TInt U32))) (ELv (LField (LDeref (ELv (LVar 0 (TPtr (TStruct 5))))) 2 (TInt U32)))) (ELv (LField (LDeref (ELv (LVar 0 (TPtr (TStruct 5))))) 2 (TInt U32)))))) (ECons (ELv (LField (LDeref (ELv (LVar 0 (TPtr (TStruct 5))))) 2 (TInt U32))) ENil))))) (SSet (LIndex (ELv (LField (LDeref (ELv (LVar 0 (TPtr (TStruct 5))))) 3 (TPtr (TInt U32)))) (ELv (LVar 6 (TInt U32)))) (ELv (LIndex (ELv (LField (LDeref (ELv (LVar 0 (TPtr (TStruct 5))))) 3 (TPtr (TInt U32)))) (EBin Add (ELv (LVar 6 (TInt U32))) (ECst U32 1)))))).
  Lemma shift_loop m w s p b size cap es buf prio v1 v2 r cur n :
    m !! s = Some [CI 32 size; CI 32 cap; CI 32 es; CV (VPtr (TInt U32) (BObj p) 0);
                   CV (VPtr (TInt U8) (BObj b) 0)] ->
    m !! p = Some (ints 32 prio) -> m !! b = Some (ints 8 buf) -> s <> p -> s <> b -> p <> b ->
    0 <= es < 2 ^ 32 -> 0 <= r -> 0 <= cur < 2 ^ 32 -> Forall is_u32 prio -> (0 < n)%nat ->
    cur < Z.of_nat n ->
    loop n (one sc ext fuel shift_cond shift_step shift_body)
      ([VPtr (TStruct 5) (BObj s) 0; v1; v2; VInt U32 r; VPtr (TInt U8) (BObj b) 0; VInt U32 cur;
        VInt U32 r], m, w)
    = let! '(buf, prio) := PQ_shift es r cur buf prio in
      Ok (RNormal, ([VPtr (TStruct 5) (BObj s) 0; v1; v2; VInt U32 r; VPtr (TInt U8) (BObj b) 0;
        VInt U32 cur; VInt U32 (Z.max r cur)], <[p := ints 32 prio]> (<[b := ints 8 buf]> m), w)).
  Proof.
    intros Hs Hp Hb ? ? ? Hes Hr Hcur Hpr Hn Hf. rewrite <- (bind_ret (loop _ _ _)). unfold PQ_shift.
    destruct (Z.ltb_spec cur r) as [Hc|Hc].
    { rewrite cfor_empty by lia. rewrite loop_skip; [|lia|go_body]. cbn [bind].
      rewrite Z.max_l by lia. by rewrite (list_insert_id m b), (list_insert_id m p). }
    rewrite Z.max_r by lia.
    sim_for (fun i '(o, pr) => ([VPtr (TStruct 5) (BObj s) 0; v1; v2; VInt U32 r;
       VPtr (TInt U8) (BObj b) 0; VInt U32 cur; VInt U32 i],
       <[p := ints 32 pr]> (<[b := ints 8 o]> m), w))
      (fun i '(o, pr) => Forall is_u32 pr).
    - by rewrite (list_insert_id m b), (list_insert_id m p).
    - lia.
    - done.
    - lia.
    - intros i [o pr'] Hi Hpr'. go_body.
    - intros i [o pr'] [o2 pr2] Hi Hpr' E. apply bind_ok_inv in E as (o3 & _ & E).
      apply bind_ok_inv in E as (z & Hz & E). apply bind_ok_inv in E as (o4 & Ho & E).
      injection E as <- <-. eapply store_u32; [|by eapply load_u32|]; done.
    - intros [o pr'] _. go_body.
    - both. go.
  Qed.

  Lemma ref_PriorityQueue_enqueue m w s p b queue i ip ie item :
    opt_at queue (pq_at m s p b) -> opt_at queue pq_u32 ->
    item_at m i ip ie item -> Forall is_u32 (it_priority item) ->
    ip <> p -> ip <> b -> ie <> p -> ie <> b ->
    opt_at queue (fun q => pq_size q < Z.of_nat fuel /\
      (pq_size q = pq_capacity q -> u32 (pq_size q - 1) < Z.of_nat fuel)) ->
    run c_PriorityQueue_enqueue [opt_ptr queue (struct_ptr 5 s); struct_ptr 2 i] m w
    = let! '(r, queue) := PriorityQueue_enqueue queue (Some item) in
      Ok (VInt IBool (b2z r), opt_put queue (put_pq s p b) m, w).
  Proof.
    intros H Hu Hi Hu' H1 H2 H3 H4 Hf. unfold c_PriorityQueue_enqueue, PriorityQueue_enqueue.
    destruct queue as [q|]; cbn [opt_at opt_ptr deref bind] in *; [|go].
    pose proof (put_pq_id _ _ _ _ _ H) as Hid.
    pose proof (ref_PQ_Full sc ext fuel m w s p b q H) as HF.
    pose proof (ref_GetLowestPriorityIndex sc ext fuel m w s p b q H Hu (proj1 Hf)) as HL.
    destruct Hu as (Hu1 & Hu2 & Hu3 & Hu4), Hi as (Hi & Hip & Hie), item as [pr el]. cbn [it_priority it_element] in *.
    pq_start H. bounds.
    assert (s <> i) by (intros ->; simplify_eq).
    assert (i <> p /\ i <> b) as [].
    { split; intros ->; simplify_eq.
      - by destruct (pq_priority_array q).
      - by destruct (pq_buffer q). }
    assert (s <> ip /\ s <> ie) as [].
    { split; intros ->; simplify_eq.
      - by destruct pr as [|? [|? [|? []]]].
      - by destruct el as [|? [|? [|? []]]]. }
    go. rewrite HF. go.
    rewrite HL, bind_assoc. both. go.
    2:{ cbn [bind b2z opt_put]. by rewrite Hid. }
    rewrite (shift_loop _ _ s p b (u32 (pq_size q - 1)) (pq_capacity q) (pq_element_size q) (pq_buffer q) (pq_priority_array q)); [|look|look|look|done|done|done|lia|lia|unfold u32; lia|done|lia|apply Hf; unfold PQ_Full in *; lia].
    rewrite bind_assoc. both. go.
    cbn [b2z opt_put]. unfold put_pq, put_bytes, pq_cells, byte_ptr, word_ptr.
    cbn [pq_size pq_capacity pq_element_size pq_priority_array pq_buffer].
    by rewrite (list_insert_commute m b s), (list_insert_commute _ p s), list_insert_insert by done.
  Qed.

  Lemma ref_PriorityQueue_dequeue m w s p b queue e el :
    opt_at queue (pq_at m s p b) -> opt_at queue pq_u32 -> bytes_at m e el -> e <> p -> e <> b ->
    opt_at queue (fun q => pq_size q < Z.of_nat fuel) ->
    run c_PriorityQueue_dequeue [opt_ptr queue (struct_ptr 5 s); byte_ptr e] m w
    = let! '(r, queue, element) := PriorityQueue_dequeue queue (Some el) in
      Ok (VInt IBool (b2z r),
          opt_put queue (put_pq s p b) (opt_put element (put_bytes e) m), w).
  Proof.
    intros H Hu He H1 H2 Hf. unfold c_PriorityQueue_dequeue, PriorityQueue_dequeue.
    destruct queue as [q|]; cbn [opt_at opt_ptr deref bind] in *; [|unfold byte_ptr; go].
    pose proof (put_pq_id _ _ _ _ _ H) as Hid. pose proof (put_bytes_id _ _ _ He) as Hie.
    pose proof (ref_PriorityQueue_empty sc ext fuel m w s p b (Some q) H) as HF.
    pose proof (ref_GetHighestPriorityIndex sc ext fuel m w s p b q H Hu Hf) as HL.
    pose proof (fun r => highest_u32 q r Hu) as Hhu.
    destruct Hu as (Hu1 & Hu2 & Hu3 & Hu4). pq_start H. bounds.
    assert (s <> e) by (intros ->; simplify_eq; by destruct el as [|? [|? [|? []]]]).
    cbn [opt_ptr PriorityQueue_empty deref bind] in HF.
    go. rewrite HF. go.
    2:{ cbn [bind b2z opt_put]. by rewrite Hie, Hid. }
    rewrite HL, bind_assoc. both. specialize (Hhu r eq_refl). bounds. go.
    rewrite (shift_loop _ _ s p b (u32 (pq_size q - 1)) (pq_capacity q) (pq_element_size q) (pq_buffer q) (pq_priority_array q));
      [|look|look|look|done|done|done|lia|lia|unfold u32; lia|done|lia|rewrite u32_small; lia].
    rewrite bind_assoc. both. go.
    cbn [bind b2z opt_put]. unfold put_pq, put_bytes, pq_cells, byte_ptr, word_ptr.
    cbn [pq_size pq_capacity pq_element_size pq_priority_array pq_buffer].
    by rewrite (list_insert_commute _ b s), (list_insert_commute _ p s) by done.
  Qed.

  (** a [NULL] item or element that would be used: both sides are undefined, not always for the
      same reason first *)
  Lemma ref_PriorityQueue_enqueue_null m w s p b queue :
    opt_at queue (pq_at m s p b) -> opt_at queue pq_u32 ->
    opt_at queue (fun q => pq_size q < Z.of_nat fuel) ->
    agree (run c_PriorityQueue_enqueue [opt_ptr queue (struct_ptr 5 s); VNull] m w)
      (let! '(r, queue) := PriorityQueue_enqueue queue None in
       Ok (VInt IBool (b2z r), opt_put queue (put_pq s p b) m, w)).
  Proof.
    intros H Hu Hf.
    assert (exists k k', run c_PriorityQueue_enqueue [opt_ptr queue (struct_ptr 5 s); VNull] m w = UB k
      /\ PriorityQueue_enqueue queue None = UB k') as (k & k' & -> & ->); [|done].
    unfold c_PriorityQueue_enqueue, PriorityQueue_enqueue.
    destruct queue as [q|]; cbn [opt_at opt_ptr deref bind] in *.
    2:{ do 2 eexists. split; [|done]. go. }
    pose proof (ref_PQ_Full sc ext fuel m w s p b q H) as HF.
    pose proof (ref_GetLowestPriorityIndex sc ext fuel m w s p b q H Hu Hf) as HL.
    destruct Hu as (Hu1 & Hu2 & Hu3 & Hu4). pq_start H. bounds.
    destruct (PQ_Full q) eqn:EF; cbn [negb].
    - destruct (GetLowestPriorityIndex q) as [r|k|] eqn:EL; cbn [bind].
      + destruct (load (pq_priority_array q) r) as [z|k|] eqn:Ez; cbn [bind].
        * do 2 eexists. split; [|done]. go. rewrite HF. go. rewrite HL. go.
        * do 2 eexists. split; [|done]. go. rewrite HF. go. rewrite HL. go.
        * by apply load_not_div in Ez.
      + do 2 eexists. split; [|done]. go. rewrite HF. go. rewrite HL. go.
      + by apply lowest_nd in EL.
    - destruct (ptr (pq_buffer q) (u32 (pq_size q * pq_element_size q))) as [[]|k|] eqn:Ep.
      + apply ptr_ok in Ep. do 2 eexists. split; [|done]. go. rewrite HF. go.
      + do 2 eexists. split; [|done]. go. rewrite HF. go. rewrite Ep. done.
      + by apply ptr_nd in Ep.
  Qed.

  Lemma ref_PriorityQueue_dequeue_null m w s p b queue :
    opt_at queue (pq_at m s p b) -> opt_at queue pq_u32 ->
    opt_at queue (fun q => pq_size q < Z.of_nat fuel) ->
    agree (run c_PriorityQueue_dequeue [opt_ptr queue (struct_ptr 5 s); VNull] m w)
      (let! '(r, queue, _) := PriorityQueue_dequeue queue None in
       Ok (VInt IBool (b2z r), opt_put queue (put_pq s p b) m, w)).
  Proof.
    intros H Hu Hf.
    assert (forall q, queue = Some q -> put_pq s p b q m = m) as Hid.
    { intros q ->. by apply put_pq_id. }
    assert ((exists k k', run c_PriorityQueue_dequeue [opt_ptr queue (struct_ptr 5 s); VNull] m w = UB k
      /\ PriorityQueue_dequeue queue None = UB k')
      \/ run c_PriorityQueue_dequeue [opt_ptr queue (struct_ptr 5 s); VNull] m w = Ok (VInt IBool 0, m, w)
      /\ PriorityQueue_dequeue queue None = Ok (false, queue, None)) as [(k & k' & -> & ->)|[-> ->]];
      [|done|].
    2:{ cbn. destruct queue as [q|]; [|done]. cbn. by rewrite Hid. }
    unfold c_PriorityQueue_dequeue, PriorityQueue_dequeue.
    destruct queue as [q|]; cbn [opt_at opt_ptr deref bind] in *.
    2:{ left. do 2 eexists. split; [|done]. go. }
    pose proof (ref_PriorityQueue_empty sc ext fuel m w s p b (Some q) H) as HF.
    pose proof (ref_GetHighestPriorityIndex sc ext fuel m w s p b q H Hu Hf) as HL.
    pose proof (fun r => highest_u32 q r Hu) as Hhu.
    destruct Hu as (Hu1 & Hu2 & Hu3 & Hu4). pq_start H. bounds.
    cbn [opt_ptr PriorityQueue_empty deref bind] in HF.
    destruct (pq_size q =? 0) eqn:EF; cbn [negb].
    { right. split; [|done]. go. rewrite HF. go. }
    left. destruct (GetHighestPriorityIndex q) as [r|k|] eqn:EL; cbn [bind].
    - specialize (Hhu r eq_refl). bounds.
      destruct (ptr (pq_buffer q) (u32 (r * pq_element_size q))) as [[]|k|] eqn:Ep.
      + apply ptr_ok in Ep. do 2 eexists. split; [|done]. go. rewrite HF. go. rewrite HL. go.
      + do 2 eexists. split; [|done]. go. rewrite HF. go. rewrite HL. go. rewrite Ep. done.
      + by apply ptr_nd in Ep.
    - do 2 eexists. split; [|done]. go. rewrite HF. go. rewrite HL. go.
    - by apply highest_nd in EL.
  Qed.
End pq.
