(** * A client of the C text of queue.c sees a FIFO *)
From Verif Require Import CSem Lib CLang C_Containers Model_Containers Drive_ContText Drive_TextRun
  Spec_Queue Drive_Queue Proof_Queue Refine Refine_Queue.

Lemma answer_b2z t r : answer (VInt t (b2z r)) = r.
Proof. by destruct r. Qed.
Lemma bytes_back o : byte_of <$> ints 8 o = o.
Proof. unfold ints. rewrite <- list_fmap_compose. apply list_fmap_id. Qed.
Lemma first_bytes_ints o os : first_bytes (ints 8 o :: os) = o.
Proof. apply bytes_back. Qed.
Lemma u32_is x : is_u32 (u32 x).
Proof. unfold is_u32, u32. apply Z.mod_pos_bound. lia. Qed.
Lemma umod_u32 a b r : is_u32 a -> is_u32 b -> umod a b = Ok r -> is_u32 r.
Proof.
  unfold umod, is_u32. intros Ha Hb. destruct (Z.eqb_spec b 0); [done|]. intros [= <-].
  pose proof (Z.mod_pos_bound a b). lia.
Qed.

(** the caller's object follows the memory *)
Lemma last_at m o (x : list cell) : o = length m -> (m ++ [x]) !! o = Some x.
Proof. intros ->. by rewrite lookup_app_r, Nat.sub_diag. Qed.
Lemma front_at m b o (x : list (list cell)) : m !! b = Some o -> (m ++ x) !! b = Some o.
Proof. intros H. rewrite lookup_app_l; [done|]. by apply lookup_lt_Some in H. Qed.
Lemma put_front (m : mem) b o x : (b < length m)%nat -> <[b := o]> (m ++ x) = <[b := o]> m ++ x.
Proof. apply insert_app_l. Qed.
Lemma put_last m o o' : <[length m := o']> (m ++ [o]) = m ++ [o'] :> mem.
Proof. rewrite <- (Nat.add_0_r (length m)), insert_app_r. done. Qed.

Lemma queue_at_app m s b q x : queue_at m s b q -> queue_at (m ++ x) s b q.
Proof. intros [? ?]. split; by apply front_at. Qed.
Lemma put_queue_app m s b q q' x : queue_at m s b q ->
  put_queue s b q' (m ++ x) = put_queue s b q' m ++ x.
Proof.
  intros [Hs%lookup_lt_Some Hb%lookup_lt_Some]. unfold put_queue, put_bytes.
  rewrite put_front, put_front by (rewrite ?insert_length; lia). done.
Qed.
Lemma put_queue_length m s b q : length (put_queue s b q m) = length m.
Proof. unfold put_queue, put_bytes. by rewrite !insert_length. Qed.
Lemma put_queue_at m s b q q' : queue_at m s b q -> queue_at (put_queue s b q' m) s b q'.
Proof.
  intros H. pose proof (queue_ne _ _ _ _ H). destruct H as [Hs%lookup_lt_Some Hb%lookup_lt_Some].
  unfold put_queue, put_bytes, queue_at, bytes_at. split.
  - apply list_lookup_insert. by rewrite insert_length.
  - rewrite list_lookup_insert_ne by done. by apply list_lookup_insert.
Qed.
Lemma same_but_refl bs m : same_but bs m m.
Proof. done. Qed.
Lemma same_but_trans bs m1 m2 m3 : same_but bs m1 m2 -> same_but bs m2 m3 -> same_but bs m1 m3.
Proof. intros [H1 H2] [H3 H4]. split; [congruence|]. intros b Hb. by rewrite H4, H2. Qed.
Lemma same_but_put_queue m s b q : same_but [s; b] m (put_queue s b q m).
Proof.
  split; [apply put_queue_length|]. intros c Hc. unfold put_queue, put_bytes.
  rewrite !not_elem_of_cons in Hc. destruct Hc as (? & ? & _). by rewrite !list_lookup_insert_ne by done.
Qed.

Lemma queue_step_u32 op q r q' : queue_u32 q -> queue_step op (Some q) = Ok (r, q') -> 
  exists q1, q' = Some q1 /\ queue_u32 q1.
Proof.
  intros Hu E. pose proof Hu as (H1 & H2 & H3 & H4 & H5). destruct op as [e|d|d|d| |]; cbn in E.
  - destruct (negb _); cbn in E; [|injection E as _ <-; by eexists].
    destruct (umod _ _) as [z| |] eqn:Ez; cbn in E; [|done..].
    destruct (memcpy _ _ _ _ _) as [o| |]; cbn in E; [|done..]. injection E as _ <-. eexists; split; [done|].
    unfold queue_u32; cbn. apply umod_u32 in Ez; [|apply u32_is|done].
    repeat split; try done; try apply Ez; try apply u32_is; try apply H1; try apply H4; apply H5.
  - destruct (negb _); cbn in E; [|injection E as _ <-; by eexists].
    destruct (memcpy _ _ _ _ _) as [o| |]; cbn in E; [|done..].
    destruct (umod _ _) as [z| |] eqn:Ez; cbn in E; [|done..]. injection E as _ <-. eexists; split; [done|].
    apply umod_u32 in Ez; [|apply u32_is|done]. unfold queue_u32; cbn.
    repeat split; try apply Ez; try apply u32_is; try apply H2; try apply H4; apply H5.
  - destruct (negb _); cbn in E; [|injection E as _ <-; by eexists].
    destruct (memcpy _ _ _ _ _) as [o| |]; cbn in E; [|done..]. injection E as _ <-. by eexists.
  - destruct (negb _); cbn in E; [|injection E as _ <-; by eexists].
    destruct (memcpy _ _ _ _ _) as [o| |]; cbn in E; [|done..]. injection E as _ <-. by eexists.
  - injection E as _ <-. by eexists.
  - injection E as _ <-. by eexists.
Qed.

(** a call that has updated the queue *)
Ltac fin_at q' put_app put_len :=
  destruct q' as [q'|]; cbn [opt_put];
  [ erewrite put_app by eassumption; rewrite drop_app_alt, take_app_alt by by rewrite put_len
  | rewrite drop_app, take_app ];
  by rewrite answer_b2z, first_bytes_ints.
Local Ltac fin q' := fin_at q' put_queue_app put_queue_length.

Section queue.
  Context (sc : bool) (fuel : nat).

  Lemma queue_call_step m s b q op : queue_at m s b q -> queue_u32 q ->
    queue_call sc fuel s op m
    = let! '(r, q') := queue_step op (Some q) in Ok (r, opt_put q' (put_queue s b) m).
  Proof.
    intros H Hu. pose proof H as [Hs%lookup_lt_Some Hb%lookup_lt_Some].
    pose proof (put_queue_id _ _ _ _ H) as Hid.
    assert (Hne : length m <> b) by lia.
    unfold queue_call, call_with_objs.
    destruct op as [e|d|d|d| |]; cbn [queue_step].
    - pose proof (ref_Queue_enqueue sc no_ext fuel (m ++ [ints 8 e]) tt s b (Some q) (length m) (Some e)
        (queue_at_app _ _ _ _ _ H) Hu (last_at m _ _ eq_refl) Hne) as HR. cbn [opt_ptr] in HR. rewrite HR.
      destruct (Queue_enqueue (Some q) (Some e)) as [[r q']| |]; cbn [bind]; [|done..].
      fin q'.
    - pose proof (ref_Queue_dequeue sc no_ext fuel (m ++ [ints 8 d]) tt s b (Some q) (length m) (Some d)
        (queue_at_app _ _ _ _ _ H) Hu (last_at m _ _ eq_refl) Hne) as HR. cbn [opt_ptr] in HR. rewrite HR.
      destruct (Queue_dequeue (Some q) (Some d)) as [[[r q'] d']| |] eqn:E; cbn [bind]; [|done..].
      assert (exists o, d' = Some o) as [o ->].
      { clear -E. cbn in E. destruct (negb _); cbn in E; [|injection E as _ _ <-; by eexists].
        destruct (memcpy _ _ _ _ _) as [o| |]; cbn in E; [|done..].
        destruct (umod _ _) as [z| |] eqn:Ez; cbn in E; [|done..]. injection E as _ _ <-. by eexists. }
      cbn [deref bind opt_put]. unfold put_bytes. rewrite put_last. fin q'.
    - pose proof (ref_Queue_front sc no_ext fuel (m ++ [ints 8 d]) tt s b (Some q) (length m) (Some d)
        (queue_at_app _ _ _ _ _ H) Hu (last_at m _ _ eq_refl) Hne) as HR. cbn [opt_ptr] in HR. rewrite HR.
      destruct (Queue_front (Some q) (Some d)) as [[r d']| |] eqn:E; cbn [bind]; [|done..].
      assert (exists o, d' = Some o) as [o ->].
      { clear -E. cbn in E. destruct (negb _); cbn in E; [|injection E as _ <-; by eexists].
        destruct (memcpy _ _ _ _ _) as [o| |]; cbn in E; [|done..]. injection E as _ <-. by eexists. }
      cbn [deref bind opt_put]. unfold put_bytes. rewrite put_last, Hid.
      by rewrite drop_app, take_app, answer_b2z, first_bytes_ints.
    - pose proof (ref_Queue_rear sc no_ext fuel (m ++ [ints 8 d]) tt s b (Some q) (length m) (Some d)
        (queue_at_app _ _ _ _ _ H) Hu (last_at m _ _ eq_refl) Hne) as HR. cbn [opt_ptr] in HR. rewrite HR.
      destruct (Queue_rear (Some q) (Some d)) as [[r d']| |] eqn:E; cbn [bind]; [|done..].
      assert (exists o, d' = Some o) as [o ->].
      { clear -E. cbn in E. destruct (negb _); cbn in E; [|injection E as _ <-; by eexists].
        destruct (memcpy _ _ _ _ _) as [o| |]; cbn in E; [|done..]. injection E as _ <-. by eexists. }
      cbn [deref bind opt_put]. unfold put_bytes. rewrite put_last, Hid.
      by rewrite drop_app, take_app, answer_b2z, first_bytes_ints.
    - pose proof (ref_Queue_full sc no_ext fuel (m ++ []) tt s b (Some q) (queue_at_app _ _ _ _ _ H)) as HR.
      cbn [opt_ptr] in HR. rewrite HR. destruct (Queue_full _); cbn [bind]; [|done..].
      cbn [opt_put]. by rewrite take_app, answer_b2z, Hid.
    - pose proof (ref_Queue_empty sc no_ext fuel (m ++ []) tt s b (Some q) (queue_at_app _ _ _ _ _ H)) as HR.
      cbn [opt_ptr] in HR. rewrite HR. destruct (Queue_empty _); cbn [bind]; [|done..].
      cbn [opt_put]. by rewrite take_app, answer_b2z, Hid.
  Qed.

  Lemma queue_calls ops m s b q : queue_at m s b q -> queue_u32 q ->
    forall rs q', queue_run ops (Some q) = Ok (rs, q') ->
    exists m' q1, calls (queue_call sc fuel s) ops m = Ok (rs, m') /\ q' = Some q1 /\
      queue_at m' s b q1 /\ same_but [s; b] m m'.
  Proof.
    revert m q. induction ops as [|op ops IH]; intros m q H Hu rs q' E; cbn in *.
    - injection E as <- <-. eauto 7 using same_but_refl.
    - rewrite (queue_call_step m s b q) by done.
      destruct (queue_step op (Some q)) as [[r qa]| |] eqn:Es; cbn [bind] in *; [|done..].
      destruct (queue_step_u32 _ _ _ _ Hu Es) as (q1 & -> & Hu1). cbn [opt_put].
      destruct (queue_run ops (Some q1)) as [[rs1 qb]| |] eqn:Er; cbn [bind] in *; [|done..].
      injection E as <- <-.
      destruct (IH (put_queue s b q1 m) q1 (put_queue_at _ _ _ _ _ H) Hu1 _ _ Er)
        as (m' & q2 & -> & -> & Ha & Hb). cbn [bind].
      eexists _, _. split; [done|]. split; [done|]. split; [done|].
      eapply same_but_trans; [apply same_but_put_queue|done].
  Qed.

  Lemma text_queue_fifo m s b old cap es buf ops :
    m !! s = Some old -> queue_shape old -> m !! b = Some (ints 8 buf) ->
    queue_sizes cap es buf -> Forall (qop_ok es) ops ->
    exists m1 m2,
      call sc no_ext fuel c_Queue_init [struct_ptr 6 s; VInt U32 cap; VInt U32 es; byte_ptr b] m tt
      = Ok (VInt IBool 1, m1, tt) /\
      calls (queue_call sc fuel s) ops m1 = Ok ((fifo cap es ops []).1, m2) /\
      same_but [s; b] m m1 /\ same_but [s; b] m1 m2.
  Proof.
    intros Hs Hsh Hb Hz Ho. pose proof Hz as (Hc & He & _).
    set (q0 := mkQueue 0 0 0 0 0 []).
    destruct (queue_fifo cap es buf q0 ops Hz Ho) as (q1 & q2 & Ei & Er).
    pose proof (ref_Queue_init sc no_ext fuel m tt s b (Some q0) old cap es (Some buf)
      (conj Hs Hsh) Hb ltac:(unfold is_u32; lia) ltac:(unfold is_u32; lia)) as HR.
    cbn [opt_ptr] in HR. rewrite Ei in HR. cbn [bind opt_put b2z] in HR.
    assert (s <> b) as Hne.
    { intros ->. rewrite Hs in Hb. injection Hb as ->. clear -Hsh.
      assert (Forall (fun c => exists z, c = CI 8 z) (ints 8 buf)) as HF.
      { apply Forall_fmap, Forall_forall. intros. by eexists. }
      destruct Hsh as [E|(q & v & E)]; rewrite E in HF.
      - by inversion HF as [|? ? [? [=]]].
      - cbn in HF. by inversion HF as [|? ? [? [=]]]. }
    assert (queue_at (put_queue s b q1 m) s b q1) as Ha.
    { unfold queue_at, put_queue, put_bytes, bytes_at. apply lookup_lt_Some in Hs, Hb. split.
      - apply list_lookup_insert. by rewrite insert_length.
      - rewrite list_lookup_insert_ne by done. by apply list_lookup_insert. }
    assert (queue_u32 q1) as Hu.
    { cbn in Ei. destruct (_ && _) in Ei; cbn in Ei; [|done].
      injection Ei as <-. unfold queue_u32; cbn. pose proof (u32_is (cap - 1)).
      unfold is_u32 in *. repeat split; try lia; apply H. }
    destruct (queue_calls ops _ s b q1 Ha Hu _ _ Er) as (m' & q' & HC & _ & _ & HS).
    exists (put_queue s b q1 m), m'. split; [exact HR|]. split; [done|]. split; [|done].
    apply same_but_put_queue.
  Qed.
End queue.
