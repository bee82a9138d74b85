(** * A client of the C text of scheduler.c *)
From Verif Require Import CSem Lib CLang C_Containers Model_Containers Drive_ContText Drive_TextRun
  Spec_Scheduler Drive_Scheduler Proof_Scheduler Refine Refine_Sched Proof_TextQueue.

Lemma addTask_length tasks n new r tasks' :
  Scheduler_addTask tasks n new = Ok (r, tasks') -> length tasks' = length tasks.
Proof.
  unfold Scheduler_addTask. intros E. apply bind_ok_inv in E as ([[i ts] st] & E & E').
  injection E' as _ <-.
  eapply (cwhile_inv (fun '(_, ts, _) => length ts = length tasks) (fun '(_, ts, _) => length ts = length tasks))
    in E; [done|done|..].
  - intros [[j us] s] [[j' us'] s'] H _ Eb. apply bind_ok_inv in Eb as (t & Et & Eb).
    destruct (t_function t); [by simplify_eq|]. by apply bind_ok_inv in Eb as (? & ? & ?).
  - intros [[j us] s] [[j' us'] s'] H _ Eb. apply bind_ok_inv in Eb as (t & Et & Eb).
    destruct (t_function t); [done|]. apply bind_ok_inv in Eb as (us1 & Es & Eb). injection Eb as _ <- _.
    rewrite <- H. unfold store in Es. destruct (_ && _) in Es; [|done]. injection Es as <-. apply insert_length.
  - by intros [[j us] s].
Qed.

Lemma slots_tasks (ts : list SchedulerTask_t) : flat (slot_cells <$> (Some <$> ts)) = flat (task_cells <$> ts).
Proof. by rewrite <- list_fmap_compose. Qed.
Lemma put_tasks_at m b ts ts' : tasks_at m b ts -> tasks_at (put_tasks b ts' m) b ts'.
Proof. intros H%lookup_lt_Some. by apply list_lookup_insert. Qed.
Lemma put_put_tasks m b ts ts' : put_tasks b ts (put_tasks b ts' m) = put_tasks b ts m.
Proof. apply list_insert_insert. Qed.
Lemma same_but_put_tasks m b ts : same_but [b] m (put_tasks b ts m).
Proof.
  split; [apply insert_length|]. intros c Hc. unfold put_tasks.
  rewrite not_elem_of_cons in Hc. destruct Hc as (? & _). by rewrite list_lookup_insert_ne.
Qed.

Section sched.
  Context {W : Type} (sc : bool)
          (ext : Z -> list val -> mem -> W -> outcome (val * mem * W)) (fuel : nat).

  Lemma add_calls_ok b n new m w tasks : tasks_at m b tasks -> is_u32 n -> (S (length tasks) < fuel)%nat ->
    add_calls sc ext fuel b n new m w
    = let! '(rs, ts) := add_all tasks n new in Ok (rs, put_tasks b ts m, w).
  Proof.
    revert m tasks. induction new as [|t new IH]; intros m tasks H Hn Hf; cbn [add_calls add_all bind].
    - unfold put_tasks. by rewrite list_insert_id.
    - pose proof H as Hl%lookup_lt_Some.
      rewrite (ref_Scheduler_addTask sc ext fuel _ w b tasks n (length m) t (front_at m _ _ _ H)
        (last_at m _ _ eq_refl) ltac:(lia) Hn Hf).
      destruct (Scheduler_addTask tasks n t) as [[r ts]| |] eqn:E; cbn [bind]; [|done..].
      unfold put_tasks at 1. rewrite put_front, take_app_alt by (rewrite ?insert_length; lia).
      change (<[b:=flat (task_cells <$> ts)]> m) with (put_tasks b ts m).
      rewrite (IH _ ts).
      + destruct (add_all ts n new) as [[rs ts']| |]; cbn [bind]; [|done..].
        by rewrite put_put_tasks, answer_b2z.
      + by eapply put_tasks_at.
      + done.
      + by rewrite (addTask_length _ _ _ _ _ E).
  Qed.

  Lemma pass_dynamic m w b tasks n
      (exec : Z -> mem * W * list SchedulerTask_t -> mem * W * list SchedulerTask_t) :
    tasks_at m b tasks -> is_u32 n -> n <= Z.of_nat (length tasks) -> n < Z.of_nat fuel ->
    (forall f m w ts, (b < length m)%nat ->
       let '(m', w', ts') := exec f (m, w, ts) in
       ext f [] (put_tasks b ts m) w = Ok (VUndef, put_tasks b ts' m', w') /\
       (b < length m')%nat) ->
    (forall f s, length (exec f s).2 = length s.2) ->
    exists calls,
      (let '(m', w', ts') := after exec calls (m, w, tasks) in
       call sc ext fuel c_Scheduler_run [struct_ptr 2 b; VInt U32 n] m w
       = Ok (VUndef, put_tasks b ts' m', w')) /\
      pass exec runs_slot n (m, w, tasks) calls.
  Proof.
    intros H Hn Hl Hf He Hlen. unfold is_u32 in Hn.
    destruct (run_dynamic exec (m, w) tasks n ltac:(unfold len; lia)) as (cs & Er & Hp).
    { intros f s. unfold len. by rewrite Hlen. }
    exists cs. split; [|done].
    rewrite (ref_Scheduler_run sc ext fuel m w b tasks n exec H Hn ltac:(lia) He), Er. cbn [bind].
    by destruct (after exec cs (m, w, tasks)) as [[m' w'] ts'].
  Qed.

  (** tasks that only change the world *)
  Section static.
    Context (ef : Z -> W -> W) (He : forall f m w, ext f [] m w = Ok (VUndef, m, ef f w)).
    Lemma pass_static m w b tasks n :
      tasks_at m b tasks -> is_u32 n -> n <= Z.of_nat (length tasks) -> n < Z.of_nat fuel ->
      call sc ext fuel c_Scheduler_run [struct_ptr 2 b; VInt U32 n] m w
      = Ok (VUndef, m, fold_left (fun w f => ef f w) (omap runnable (take (Z.to_nat n) tasks)) w).
    Proof.
      intros H Hn Hl Hf. unfold is_u32 in Hn.
      set (ef' := fun f '(m, w) => (m, ef f w) : mem * W).
      rewrite (ref_Scheduler_run sc ext fuel m w b tasks n (fun f '(mw, t) => (ef' f mw, t)) H Hn ltac:(lia)).
      2:{ intros f m' w' ts Hb. cbn. by rewrite He. }
      rewrite run_static by (unfold len; lia). cbn [bind].
      assert (forall l w, fold_left (fun w f => ef' f w) l (m, w) = (m, fold_left (fun w f => ef f w) l w)) as ->.
      { clear. intros l. induction l as [|x l IH]; intros w; cbn; [done|]. apply IH. }
      unfold put_tasks. by rewrite list_insert_id.
    Qed.
    Lemma passes_static m w b tasks n k :
      tasks_at m b tasks -> is_u32 n -> n <= Z.of_nat (length tasks) -> n < Z.of_nat fuel ->
      passes sc ext fuel b n k m w
      = Ok (m, Nat.iter k (fold_left (fun w f => ef f w) (omap runnable (take (Z.to_nat n) tasks))) w).
    Proof.
      intros H Hn Hl Hf. revert w. induction k as [|k IH]; intros w; [done|].
      cbn [passes]. rewrite (pass_static m w b tasks n) by done. cbn [bind]. rewrite IH. by rewrite Nat.iter_succ_r.
    Qed.

    Lemma text_schedule b slots n new k m w :
      m !! b = Some (flat (slot_cells <$> slots)) -> length slots = Z.to_nat n ->
      is_u32 n -> n + 1 < Z.of_nat fuel -> Forall (fun t => t_function t <> None) new ->
      exists m',
        schedule sc ext fuel b n new k m w
        = Ok (replicate (Nat.min (Z.to_nat n) (length new)) true
                ++ replicate (length new - Z.to_nat n) false,
              m',
              Nat.iter k (fold_left (fun w f => ef f w) (omap runnable (take (Z.to_nat n) new))) w) /\
        same_but [b] m m'.
    Proof.
      intros Hm Hl Hn Hf Hnew. pose proof Hn as Hn'. unfold is_u32 in Hn'. unfold schedule.
      rewrite (ref_Scheduler_init sc ext fuel m w b slots n (mkTask None false) Hm Hn ltac:(lia)).
      pose proof (add_all_after_init (default (mkTask None false) <$> slots) n new ltac:(lia)
        ltac:(unfold len; rewrite fmap_length; lia) Hnew) as Ha.
      rewrite init_table in Ha |- * by (unfold len; rewrite fmap_length; lia). cbn [bind] in Ha |- *.
      set (ts0 := replicate _ (mkTask None false) ++ _) in *.
      assert (length ts0 = Z.to_nat n) as Hl0.
      { unfold ts0. rewrite app_length, replicate_length, drop_length, fmap_length. lia. }
      rewrite (take_ge ts0), (drop_ge slots) by lia. rewrite app_nil_r.
      unfold put_slots. rewrite slots_tasks. change (<[b:=flat (task_cells <$> ts0)]> m) with (put_tasks b ts0 m).
      assert (tasks_at (put_tasks b ts0 m) b ts0) as Hat.
      { apply lookup_lt_Some in Hm. by apply list_lookup_insert. }
      rewrite (add_calls_ok b n new _ w ts0 Hat Hn ltac:(lia)), Ha. cbn [bind]. rewrite put_put_tasks.
      rewrite (drop_ge (_ <$> _)), app_nil_r by (rewrite fmap_length; lia).
      clear Ha. set (ts1 := take _ new ++ _).
      assert (length ts1 = Z.to_nat n) as Hl1.
      { unfold ts1. rewrite app_length, take_length, replicate_length. lia. }
      assert (tasks_at (put_tasks b ts1 m) b ts1) as Hat1.
      { apply lookup_lt_Some in Hm. by apply list_lookup_insert. }
      rewrite (passes_static _ w b ts1 n k Hat1 Hn ltac:(lia) ltac:(lia)). cbn [bind].
      eexists. split; [|apply (same_but_put_tasks m b ts1)]. do 3 f_equal. f_equal.
      rewrite (take_ge ts1) by lia. unfold ts1. rewrite omap_app.
      assert (omap runnable (replicate (Z.to_nat n - length new) (mkTask None false)) = []) as ->.
      { clear. by induction (Z.to_nat n - length new)%nat. }
      by rewrite app_nil_r.
    Qed.
  End static.
End sched.
