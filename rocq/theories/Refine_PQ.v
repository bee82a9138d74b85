(** * The hand-written model of priority_queue.c against the C text *)
From Verif Require Import CSem Lib CLang C_Containers Model_Containers Drive_ContText
  Refine Refine_Cipher Refine_Sort Refine_Queue.

Lemma load_u32 o p z : Forall is_u32 o -> load o p = Ok z -> is_u32 z.
Proof. intros Hb H. apply load_inv in H as [Hp ->]. apply Forall_get; [done|lia]. Qed.
Lemma store_u32 o p z o' : Forall is_u32 o -> is_u32 z -> store o p z = Ok o' -> Forall is_u32 o'.
Proof. intros Hb Hz H. apply store_inv in H as [Hp ->]. by apply Forall_insert. Qed.

Ltac load_hook o p ::=
  lazymatch goal with
  | HH : Forall is_u32 o |- _ =>
      first [ match goal with H : load o ?q = _ |- _ =>
                replace (load o p) with (load o q) by (f_equal; val_eq); rewrite H
              end
            | same_load o p; let E := fresh "E" in let z := fresh "z" in
              destruct (load o p) as [z| |] eqn:E; cbn [bind]; try reflexivity;
              note_load o p z E; pose proof (load_u32 o p z HH E); bounds ]
  end.
Lemma lib_memcpy_within_u32 m t t' a o p q n :
  m !! a = Some (ints 8 o) ->
  lib LMemcpy [VPtr t (BObj a) p; VPtr t' (BObj a) q; VInt U32 n] m
  = let! o := memcpy_within o p q n in Ok (VPtr TVoid (BObj a) p, <[a := ints 8 o]> m).
Proof. exact (lib_memcpy_within m t t' a o p q n). Qed.
Lemma memcpy_within_oob_dst o p q n : ptr o p <> Ok tt -> memcpy_within o p q n = UB OutOfBounds.
Proof.
  rewrite ptr_ok. intros H. unfold memcpy_within, in_range.
  by replace ((0 <=? p) && _ && _ && _) with false by lia.
Qed.
Lemma memcpy_within_oob_src o p q n : ptr o q <> Ok tt -> memcpy_within o p q n = UB OutOfBounds.
Proof.
  rewrite ptr_ok. intros H. unfold memcpy_within, in_range.
  by replace (_ && ((0 <=? q) && _ && _)) with false by lia.
Qed.
Ltac head_hook X ::=
  lazymatch X with
  | ptr ?o ?p => first [cont_hook X | let H := fresh "Hp" in let k := fresh "k" in
      destruct (ptr o p) as [[]|k|] eqn:H;
      [apply ptr_ok in H
      |apply ptr_ub in H as [-> H]; cbn [bind];
       first [rewrite memcpy_within_oob_dst by exact H; reflexivity
             |rewrite memcpy_within_oob_src by exact H; reflexivity]
      |by apply ptr_nd in H]; cbn [bind] ]
  | lib LMemcpy [VPtr _ (BObj ?a) _; VPtr _ (BObj ?a) _; VInt U32 _] _ =>
      erewrite lib_memcpy_within_u32; [|look]
  | memcpy_within _ _ _ _ => both; memn
  | _ => cont_hook X
  end.

Lemma pq_ne m s p b q : pq_at m s p b q -> s <> p /\ s <> b /\ p <> b.
Proof.
  intros (Hs & Hp & Hb & Hne). unfold bytes_at, words_at in *. repeat split; [| |done].
  - intros ->. rewrite Hs in Hp. by destruct (pq_priority_array q) as [|? [|? [|? []]]].
  - intros ->. rewrite Hs in Hb. by destruct (pq_buffer q) as [|? [|? [|? []]]].
Qed.
Lemma put_pq_id m s p b q : pq_at m s p b q -> put_pq s p b q m = m.
Proof.
  intros (Hs & Hp & Hb & Hne). unfold put_pq, put_bytes.
  rewrite (list_insert_id m b _ Hb), (list_insert_id m p _ Hp). by apply list_insert_id.
Qed.
Ltac pq_start H :=
  let Hp := fresh "Hp" in let H1 := fresh "Hsp" in let H2 := fresh "Hsb" in let H3 := fresh "Hpb" in
  destruct (pq_ne _ _ _ _ _ H) as (H1 & H2 & H3); destruct H as (? & ? & ? & _);
  unfold struct_ptr, pq_cells, item_cells, words_at, bytes_at, byte_ptr, word_ptr in *.

Lemma highest_u32 (q : PriorityQueue_t) r : pq_u32 q -> GetHighestPriorityIndex q = Ok r -> is_u32 r.
Proof.
  intros (Hu1 & Hu2 & Hu3 & Hu4) H. unfold GetHighestPriorityIndex in H. bounds.
  apply bind_ok_inv in H as (h0 & _ & H). apply bind_ok_inv in H as ([h x] & H & [= <-]).
  apply (cfor_inv (fun _ '(_, x) => is_u32 x)) in H; [done|rng|lia|].
  intros i [h' x'] [h2 x2] Hi Hx E. apply bind_ok_inv in E as (c & _ & E).
  destruct (_ <? _); injection E as <- <-; [rng|done].
Qed.

Section pq.
  Context {W : Type} (sc : bool)
          (ext : Z -> list val -> mem -> W -> outcome (val * mem * W)) (fuel : nat).
  Local Notation run f := (call sc ext fuel f).
  Implicit Types (m : mem) (w : W) (q : PriorityQueue_t).

  Lemma ref_PQ_Full m w s p b q :
    pq_at m s p b q ->
    run c_PQ_Full [struct_ptr 5 s] m w = Ok (VInt IBool (b2z (PQ_Full q)), m, w).
  Proof. intros H. unfold c_PQ_Full, PQ_Full. pq_start H. go. Qed.

  Lemma ref_PriorityQueue_empty m w s p b queue :
    opt_at queue (pq_at m s p b) ->
    run c_PriorityQueue_empty [opt_ptr queue (struct_ptr 5 s)] m w
    = let! r := PriorityQueue_empty queue in Ok (VInt IBool (b2z r), m, w).
  Proof.
    intros H. destruct queue as [q|]; cbn [opt_at opt_ptr] in *;
      unfold c_PriorityQueue_empty, PriorityQueue_empty.
    - pq_start H. go.
    - go.
  Qed.

  Lemma ref_GetHighestPriorityIndex m w s p b q :
    pq_at m s p b q -> pq_u32 q -> pq_size q < Z.of_nat fuel ->
    run c_PQ_GetHighestPriorityIndex [struct_ptr 5 s] m w
    = let! r := GetHighestPriorityIndex q in Ok (VInt U32 r, m, w).
  Proof.
    intros H (Hu1 & Hu2 & Hu3 & Hu4) Hf. unfold c_PQ_GetHighestPriorityIndex, GetHighestPriorityIndex.
    pq_start H. bounds. go.
    sim_for (fun i '(h, x) => ([VPtr (TStruct 5) (BObj s) 0; VInt U32 h; VInt U32 x; VInt U32 i], m, w))
      (fun i '(h, x) => is_u32 h /\ is_u32 x).
    - done.
    - lia.
    - rng.
    - lia.
    - intros i [h x] Hi [Hh Hx]. go_body.
    - intros i [h x] [h' x'] Hi [Hh Hx] E'. apply bind_ok_inv in E' as (c & Hc & E').
      pose proof (load_u32 _ _ _ Hu4 Hc). destruct (_ <? _); injection E' as <- <-; rng.
    - intros [h x] [Hh Hx]. go_body.
    - both. go.
  Qed.

  Lemma ref_GetLowestPriorityIndex m w s p b q :
    pq_at m s p b q -> pq_u32 q -> pq_size q < Z.of_nat fuel ->
    run c_PQ_GetLowestPriorityIndex [struct_ptr 5 s] m w
    = let! r := GetLowestPriorityIndex q in Ok (VInt U32 r, m, w).
  Proof.
    intros H (Hu1 & Hu2 & Hu3 & Hu4) Hf. unfold c_PQ_GetLowestPriorityIndex, GetLowestPriorityIndex.
    pq_start H. bounds. go.
    sim_for (fun i '(h, x) => ([VPtr (TStruct 5) (BObj s) 0; VInt U32 h; VInt U32 x; VInt U32 i], m, w))
      (fun i '(h, x) => is_u32 h /\ is_u32 x).
    - done.
    - lia.
    - rng.
    - lia.
    - intros i [h x] Hi [Hh Hx]. go_body.
    - intros i [h x] [h' x'] Hi [Hh Hx] E'. apply bind_ok_inv in E' as (c & Hc & E').
      pose proof (load_u32 _ _ _ Hu4 Hc). destruct (_ <? _); injection E' as <- <-; rng.
    - intros [h x] [Hh Hx]. go_body.
    - both. go.
  Qed.

  Lemma ref_PriorityQueue_init m w s p b i queue old capacity element_size items :
    opt_at queue (fun _ => m !! s = Some old /\ pq_shape old) ->
    opt_at items (item_at m i p b) -> is_u32 capacity -> is_u32 element_size ->
    run c_PriorityQueue_init [opt_ptr queue (struct_ptr 5 s); VInt U32 capacity;
                              VInt U32 element_size; opt_ptr items (struct_ptr 2 i)] m w
    = let! '(r, queue) := PriorityQueue_init queue capacity element_size items in
      Ok (VInt IBool (b2z r), if r then opt_put queue (put_pq s p b) m else m, w).
  Proof.
    intros H Hi Hc He. unfold c_PriorityQueue_init, PriorityQueue_init, is_u32 in *.
    destruct queue as [q|], items as [it|]; cbn [opt_at opt_ptr] in *; unfold struct_ptr in *.
    - destruct H as [Hs H], Hi as (Hi & Hip & Hie). unfold words_at, bytes_at, item_cells, word_ptr, byte_ptr in *.
      assert (s <> i) by (intros ->; rewrite Hs in Hi; injection Hi as ->; by destruct H as [|(? & ? & ? & ?)]).
      assert (s <> p /\ s <> b) as [].
      { split; intros ->; rewrite Hs in *; simplify_eq.
        - destruct (it_priority it) as [|? [|? [|? [|? []]]]], H as [|(? & ? & ? & ?)]; done.
        - destruct (it_element it) as [|? [|? [|? [|? []]]]], H as [|(? & ? & ? & ?)]; done. }
      destruct (negb (capacity =? 0)) eqn:E1, (negb (element_size =? 0)) eqn:E2; cbn [andb].
      4: go. 3: go. 2: go.
      destruct H as [->|(q' & v & v' & ->)]; cbn [replicate pq_cells take app] in Hs; go.
      all: cbn [bind deref b2z opt_put]; unfold put_pq, put_bytes, pq_cells, byte_ptr, word_ptr;
          cbn [pq_size pq_capacity pq_element_size pq_priority_array pq_buffer].
      all: by rewrite (list_insert_id m b _ Hie), (list_insert_id m p _ Hip).
    - go; destruct (negb (capacity =? 0)), (negb (element_size =? 0)); done.
    - go.
    - go.
  Qed.
End pq.
