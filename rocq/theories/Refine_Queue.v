(** * The hand-written model of queue.c against the C text *)
From Verif Require Import CSem Lib CLang C_Containers Model_Containers Drive_ContText
  Refine Refine_Cipher Refine_Sort.

(** ** Members of structures *)

Lemma mload_cell sc m b cs k t c v :
  m !! b = Some cs -> load cs k = Ok c -> of_cell sc t c = Ok v -> mload sc m t (BObj b) k = Ok v.
Proof. intros Hb Hc Hv. unfold mload. rewrite (block_obj _ _ _ Hb). cbn [bind]. by rewrite Hc. Qed.
Lemma mstore_cell m b cs k t c v c' cs' :
  m !! b = Some cs -> load cs k = Ok c -> to_cell t c v = Ok c' -> store cs k c' = Ok cs' ->
  mstore m t (BObj b) k v = Ok (<[b := cs']> m).
Proof.
  intros Hb Hc Hv Hs. unfold mstore. rewrite (block_obj _ _ _ Hb). cbn [bind]. rewrite Hc.
  cbn [bind]. rewrite Hv. cbn [bind]. by rewrite Hs.
Qed.
Ltac store_tac :=
  lazymatch goal with
  | |- store ?cs ?k ?c = _ =>
      let r := eval cbv [store len length Z.of_nat Pos.of_succ_nat Z.leb Z.ltb Z.compare
        Pos.compare Pos.compare_cont Pos.succ andb insert list_insert Z.to_nat Pos.to_nat
        Pos.iter_op Init.Nat.add] in (store cs k c) in
      exact (eq_refl r)
  end.
Lemma memcpy_oob_dst o p o' q n : ptr o p <> Ok tt -> memcpy o p o' q n = UB OutOfBounds.
Proof.
  rewrite ptr_ok. intros H. unfold memcpy, in_range.
  by replace ((0 <=? p) && _ && _ && _) with false by lia.
Qed.
Lemma memcpy_oob_src o p o' q n : ptr o' q <> Ok tt -> memcpy o p o' q n = UB OutOfBounds.
Proof.
  rewrite ptr_ok. intros H. unfold memcpy, in_range.
  by replace (_ && ((0 <=? q) && _ && _)) with false by lia.
Qed.
Lemma ptr_ub o p k : ptr o p = UB k -> k = OutOfBounds /\ ptr o p <> Ok tt.
Proof. unfold ptr. destruct (_ && _); [done|]. by intros [= <-]. Qed.
Lemma lib_memcpy_u32 m t t' a o p b o' q n :
  m !! a = Some (ints 8 o) -> m !! b = Some (ints 8 o') -> a <> b ->
  lib LMemcpy [VPtr t (BObj a) p; VPtr t' (BObj b) q; VInt U32 n] m
  = let! o := memcpy o p o' q n in Ok (VPtr TVoid (BObj a) p, <[a := ints 8 o]> m).
Proof. exact (lib_memcpy m t t' a o p b o' q n). Qed.

Lemma queue_shape_ints o : ~ queue_shape (ints 8 o).
Proof. by destruct o as [|? []]; intros [?|(? & ? & ?)]. Qed.

Ltac cont_hook X :=
  lazymatch X with
  | check_ptr (snd (fst (?E, ?M, ?w))) ?b ?p =>
      change (check_ptr (snd (fst (E, M, w))) b p) with (check_ptr M b p)
  | check_ptr _ (BObj ?b) _ => erewrite check_ptr_ptr; [|look]
  | ptr ?o 0 => rewrite (ptr_0 o); cbn [bind]
  | ptr ?o ?p => let H := fresh "Hp" in let k := fresh "k" in
      first [rewrite (proj2 (ptr_ok o p)) by lia |
      destruct (ptr o p) as [[]|k|] eqn:H;
      [apply ptr_ok in H
      |apply ptr_ub in H as [-> H]; cbn [bind];
       first [rewrite memcpy_oob_dst by exact H; reflexivity
             |rewrite memcpy_oob_src by exact H; reflexivity]
      |by apply ptr_nd in H]]; cbn [bind]
  | deref_at (VPtr (TStruct ?n) ?b 0) 0 =>
      change (deref_at (VPtr (TStruct n) b 0) 0) with (Ok (LocMem (TStruct n) b 0))
  | mload ?sc ?M ?t ?b (0 + ?k) => change (mload sc M t b (0 + k)) with (mload sc M t b k)
  | mstore ?M ?t ?b (0 + ?k) ?v => change (mstore M t b (0 + k) v) with (mstore M t b k v)
  | mload _ _ _ (BObj ?b) ?k => is_num k;
      erewrite mload_cell; [|look|reflexivity|reflexivity]; cbn [dec]
  | mstore _ _ (BObj ?b) ?k _ => is_num k;
      erewrite mstore_cell; [|look|reflexivity|reflexivity|store_tac]; cbn [raw]; memn
  | memcpy _ _ _ _ _ => both; memn
  | lib LMemcpy [VPtr _ (BObj ?a) _; VPtr _ (BObj ?b) _; VInt U32 _] _ =>
      erewrite lib_memcpy_u32; [|look|look|ne_tac]
  end.
Ltac head_hook X ::= cont_hook X.

Section queue.
  Context {W : Type} (sc : bool)
          (ext : Z -> list val -> mem -> W -> outcome (val * mem * W)) (fuel : nat).
  Local Notation run f := (call sc ext fuel f).
  Implicit Types (m : mem) (w : W) (q : Queue_t).

  Lemma queue_ne m s b q : queue_at m s b q -> s <> b.
  Proof. intros [Hs Hb] ->. unfold bytes_at in Hb. rewrite Hs in Hb. by destruct (q_buffer q) as [|? []] . Qed.
  Lemma queue_ne' m s b q e o : queue_at m s b q -> bytes_at m e o -> s <> e.
  Proof. intros [Hs _] He ->. unfold bytes_at in He. rewrite Hs in He. by destruct o as [|? []]. Qed.

  Lemma put_queue_id m s b q : queue_at m s b q -> put_queue s b q m = m.
  Proof.
    intros [Hs Hb]. unfold put_queue, put_bytes. rewrite (list_insert_id m b _ Hb).
    by apply list_insert_id.
  Qed.

  Local Ltac start H :=
    pose proof (queue_ne _ _ _ _ H); destruct H as [? ?];
    unfold struct_ptr, queue_cells, bytes_at, byte_ptr, queue_u32, is_u32 in *.

  Lemma ref_Queue_full m w s b queue :
    opt_at queue (queue_at m s b) ->
    run c_Queue_full [opt_ptr queue (struct_ptr 6 s)] m w
    = let! r := Queue_full queue in Ok (VInt IBool (b2z r), m, w).
  Proof.
    intros H. destruct queue as [q|]; cbn [opt_at opt_ptr] in *; unfold c_Queue_full, Queue_full.
    - start H. go.
    - go.
  Qed.

  Lemma ref_Queue_empty m w s b queue :
    opt_at queue (queue_at m s b) ->
    run c_Queue_empty [opt_ptr queue (struct_ptr 6 s)] m w
    = let! r := Queue_empty queue in Ok (VInt IBool (b2z r), m, w).
  Proof.
    intros H. destruct queue as [q|]; cbn [opt_at opt_ptr] in *; unfold c_Queue_empty, Queue_empty.
    - start H. go.
    - go.
  Qed.

  Lemma ref_Queue_enqueue m w s b queue e element :
    opt_at queue (queue_at m s b) -> opt_at queue queue_u32 -> opt_at element (bytes_at m e) ->
    e <> b ->
    run c_Queue_enqueue [opt_ptr queue (struct_ptr 6 s); opt_ptr element (byte_ptr e)] m w
    = let! '(r, queue) := Queue_enqueue queue element in
      Ok (VInt IBool (b2z r), opt_put queue (put_queue s b) m, w).
  Proof.
    intros H Hu He Hne. destruct queue as [q|], element as [el|]; cbn [opt_at opt_ptr opt_put] in *;
      unfold c_Queue_enqueue, Queue_enqueue.
    - pose proof (put_queue_id _ _ _ _ H) as Hid. pose proof (ref_Queue_full m w s b (Some q) H) as HF.
      start H. go. cbn [opt_ptr] in HF. rewrite HF. cbn [Queue_full deref bind].
      unfold umod. destruct (q_capacity q =? 0) eqn:Ec; cbn [bind]; go.
      all: cbn [bind opt_put b2z]; by rewrite Hid.
    - pose proof (put_queue_id _ _ _ _ H) as Hid. start H. go. cbn [bind opt_put b2z]. by rewrite Hid.
    - unfold byte_ptr. go.
    - go.
  Qed.

  (** an object that holds bytes, unchanged *)
  Lemma put_bytes_id m b o : bytes_at m b o -> put_bytes b o m = m.
  Proof. apply list_insert_id. Qed.

  Lemma ref_Queue_dequeue m w s b queue e element :
    opt_at queue (queue_at m s b) -> opt_at queue queue_u32 -> opt_at element (bytes_at m e) ->
    e <> b ->
    run c_Queue_dequeue [opt_ptr queue (struct_ptr 6 s); opt_ptr element (byte_ptr e)] m w
    = let! '(r, queue, element) := Queue_dequeue queue element in
      Ok (VInt IBool (b2z r),
          opt_put queue (put_queue s b) (opt_put element (put_bytes e) m), w).
  Proof.
    intros H Hu He Hne. destruct queue as [q|], element as [el|]; cbn [opt_at opt_ptr opt_put] in *;
      unfold c_Queue_dequeue, Queue_dequeue.
    - pose proof (put_queue_id _ _ _ _ H) as Hid. pose proof (put_bytes_id _ _ _ He) as Hie.
      pose proof (queue_ne' _ _ _ _ _ _ H He).
      pose proof (ref_Queue_empty m w s b (Some q) H) as HF.
      start H. go. cbn [opt_ptr] in HF. rewrite HF. cbn [Queue_empty deref bind].
      unfold umod. destruct (q_capacity q =? 0) eqn:Ec; cbn [bind]; go.
      all: cbn [bind opt_put b2z]; rewrite ?Hie, ?Hid; try done.
      unfold put_queue, put_bytes. cbn [q_buffer].
      by rewrite (list_insert_id (<[e := _]> m) b) by (rewrite list_lookup_insert_ne; done).
    - pose proof (put_queue_id _ _ _ _ H) as Hid. start H. go. cbn [bind opt_put b2z]. by rewrite Hid.
    - pose proof (put_bytes_id _ _ _ He) as Hie. unfold byte_ptr. go. cbn [bind opt_put b2z]. by rewrite Hie.
    - go.
  Qed.

  Lemma ref_Queue_front m w s b queue e element :
    opt_at queue (queue_at m s b) -> opt_at queue queue_u32 -> opt_at element (bytes_at m e) ->
    e <> b ->
    run c_Queue_front [opt_ptr queue (struct_ptr 6 s); opt_ptr element (byte_ptr e)] m w
    = let! '(r, element) := Queue_front queue element in
      Ok (VInt IBool (b2z r), opt_put element (put_bytes e) m, w).
  Proof.
    intros H Hu He Hne. destruct queue as [q|], element as [el|]; cbn [opt_at opt_ptr opt_put] in *;
      unfold c_Queue_front, Queue_front.
    - pose proof (put_bytes_id _ _ _ He) as Hie. pose proof (queue_ne' _ _ _ _ _ _ H He).
      pose proof (ref_Queue_empty m w s b (Some q) H) as HF.
      start H. go. cbn [opt_ptr] in HF. rewrite HF. cbn [Queue_empty deref bind].
      go. all: cbn [bind opt_put b2z]; rewrite ?Hie; done.
    - start H. go.
    - pose proof (put_bytes_id _ _ _ He) as Hie. unfold byte_ptr. go. cbn [bind opt_put b2z]. by rewrite Hie.
    - go.
  Qed.

  Lemma ref_Queue_rear m w s b queue e element :
    opt_at queue (queue_at m s b) -> opt_at queue queue_u32 -> opt_at element (bytes_at m e) ->
    e <> b ->
    run c_Queue_rear [opt_ptr queue (struct_ptr 6 s); opt_ptr element (byte_ptr e)] m w
    = let! '(r, element) := Queue_rear queue element in
      Ok (VInt IBool (b2z r), opt_put element (put_bytes e) m, w).
  Proof.
    intros H Hu He Hne. destruct queue as [q|], element as [el|]; cbn [opt_at opt_ptr opt_put] in *;
      unfold c_Queue_rear, Queue_rear.
    - pose proof (put_bytes_id _ _ _ He) as Hie. pose proof (queue_ne' _ _ _ _ _ _ H He).
      pose proof (ref_Queue_empty m w s b (Some q) H) as HF.
      start H. go. cbn [opt_ptr] in HF. rewrite HF. cbn [Queue_empty deref bind].
      go. all: cbn [bind opt_put b2z]; rewrite ?Hie; done.
    - start H. go.
    - pose proof (put_bytes_id _ _ _ He) as Hie. unfold byte_ptr. go. cbn [bind opt_put b2z]. by rewrite Hie.
    - go.
  Qed.

  Lemma ref_Queue_init m w s b queue old capacity element_size buffer :
    opt_at queue (fun _ => m !! s = Some old /\ queue_shape old) ->
    opt_at buffer (bytes_at m b) -> is_u32 capacity -> is_u32 element_size ->
    run c_Queue_init [opt_ptr queue (struct_ptr 6 s); VInt U32 capacity; VInt U32 element_size;
                      opt_ptr buffer (byte_ptr b)] m w
    = let! '(r, queue) := Queue_init queue capacity element_size buffer in
      Ok (VInt IBool (b2z r), if r then opt_put queue (put_queue s b) m else m, w).
  Proof.
    intros H Hb Hc He. unfold c_Queue_init, Queue_init, is_u32 in *.
    destruct buffer as [buf|]; cbn [opt_at opt_ptr] in *; unfold byte_ptr, bytes_at in *.
    - destruct queue as [q|]; cbn [opt_at opt_ptr] in *; unfold struct_ptr.
      + destruct H as [Hs H].
        assert (s <> b) by (intros ->; rewrite Hs in Hb; injection Hb as ->; by eapply queue_shape_ints).
        destruct (negb (element_size =? 0)) eqn:E1, (negb (capacity =? 0)) eqn:E2; cbn [andb].
        4: go. 3: go. 2: go.
        assert (Hid : <[b := ints 8 buf]> m = m) by by apply list_insert_id.
        destruct H as [->|(q' & v & ->)]; cbn [replicate queue_cells take app] in Hs; go.
        all: cbn [bind deref b2z opt_put]; unfold put_queue, put_bytes, queue_cells, byte_ptr;
          cbn [q_front q_rear q_size q_capacity q_element_size q_buffer]; by rewrite Hid.
      + destruct (negb (element_size =? 0)) eqn:E1, (negb (capacity =? 0)) eqn:E2; cbn [andb]; go.
    - destruct queue as [q|]; cbn [opt_ptr]; unfold struct_ptr; go.
      all: destruct (negb (element_size =? 0)) eqn:E1, (negb (capacity =? 0)) eqn:E2; try done; go.
  Qed.
End queue.
