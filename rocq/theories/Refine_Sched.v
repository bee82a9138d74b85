(** * The hand-written model of scheduler.c against the C text *)
From Verif Require Import CSem Lib CLang C_Containers Model_Containers Drive_ContText
  Proof_SortEnd Proof_Term Refine Refine_Cipher Refine_Sort Refine_Queue.

Lemma flat_len bs : len (flat bs) = 2 * len bs.
Proof. induction bs as [|[x y] bs IH]; [done|]. cbn [flat]. rewrite !len_cons. lia. Qed.
Lemma flat_lookup bs n :
  flat bs !! (2 * n)%nat = fst <$> bs !! n /\ flat bs !! S (2 * n)%nat = snd <$> bs !! n.
Proof.
  revert n. induction bs as [|[x y] bs IH]; intros n; [done|].
  destruct n as [|n]; [done|]. cbn [flat].
  replace (2 * S n)%nat with (S (S (2 * n))) by lia. cbn [lookup list_lookup]. apply IH.
Qed.
Lemma flat_insert bs n x y :
  flat (<[n := (x, y)]> bs) = <[(2 * n)%nat := x]> (<[S (2 * n)%nat := y]> (flat bs)).
Proof.
  revert n. induction bs as [|[x' y'] bs IH]; intros n; [done|].
  destruct n as [|n]; [done|]. cbn [insert list_insert flat].
  replace (2 * S n)%nat with (S (S (2 * n))) by lia. cbn [insert list_insert]. do 2 f_equal. apply IH.
Qed.

Lemma load_flat_0 bs i : 0 <= i ->
  load (flat bs) (i * 2 + 0) = let! c := load bs i in Ok c.1.
Proof.
  intros Hi. unfold load. replace (0 <=? i * 2 + 0) with true by lia.
  replace (0 <=? i) with true by lia.
  replace (Z.to_nat (i * 2 + 0)) with (2 * Z.to_nat i)%nat by lia.
  rewrite (proj1 (flat_lookup _ _)). by destruct (bs !! Z.to_nat i).
Qed.
Lemma load_flat_1 bs i : 0 <= i ->
  load (flat bs) (i * 2 + 1) = let! c := load bs i in Ok c.2.
Proof.
  intros Hi. unfold load. replace (0 <=? i * 2 + 1) with true by lia.
  replace (0 <=? i) with true by lia.
  replace (Z.to_nat (i * 2 + 1)) with (S (2 * Z.to_nat i))%nat by lia.
  rewrite (proj2 (flat_lookup _ _)). by destruct (bs !! Z.to_nat i).
Qed.

Lemma load_some {A} (o : list A) i x : load o i = Ok x -> 0 <= i < len o /\ o !! Z.to_nat i = Some x.
Proof.
  unfold load. destruct (Z.leb_spec 0 i); [|done]. destruct (o !! Z.to_nat i) eqn:E; [|done].
  intros [= ->]. apply lookup_lt_Some in E as ?. unfold len. split; [lia|done].
Qed.
Lemma mload_flat_0 sc m b bs i t : m !! b = Some (flat bs) -> 0 <= i ->
  mload sc m t (BObj b) (i * 2 + 0) = let! c := load bs i in of_cell sc t c.1.
Proof.
  intros Hb Hi. unfold mload. rewrite (block_obj _ _ _ Hb). cbn [bind].
  rewrite load_flat_0 by done. by destruct (load bs i).
Qed.
Lemma mload_flat_1 sc m b bs i t : m !! b = Some (flat bs) -> 0 <= i ->
  mload sc m t (BObj b) (i * 2 + 1) = let! c := load bs i in of_cell sc t c.2.
Proof.
  intros Hb Hi. unfold mload. rewrite (block_obj _ _ _ Hb). cbn [bind].
  rewrite load_flat_1 by done. by destruct (load bs i).
Qed.
Lemma mstore_flat_0 m b bs i t v : m !! b = Some (flat bs) -> 0 <= i ->
  mstore m t (BObj b) (i * 2 + 0) v
  = let! c := load bs i in let! x := to_cell t c.1 v in
    Ok (<[b := flat (<[Z.to_nat i := (x, c.2)]> bs)]> m).
Proof.
  intros Hb Hi. unfold mstore. rewrite (block_obj _ _ _ Hb). cbn [bind].
  rewrite load_flat_0 by done. destruct (load bs i) as [[x y]| |] eqn:E; cbn [bind fst snd]; [|done..].
  destruct (to_cell t x v) as [x'| |]; cbn [bind]; [|done..].
  apply load_some in E as [Hr E]. rewrite store_ok by (rewrite flat_len; lia). cbn [bind].
  rewrite flat_insert. replace (Z.to_nat (i * 2 + 0)) with (2 * Z.to_nat i)%nat by lia.
  rewrite (list_insert_id (flat bs) (S (2 * Z.to_nat i)) y); [done|]. by rewrite (proj2 (flat_lookup _ _)), E.
Qed.
Lemma mstore_flat_1 m b bs i t v : m !! b = Some (flat bs) -> 0 <= i ->
  mstore m t (BObj b) (i * 2 + 1) v
  = let! c := load bs i in let! y := to_cell t c.2 v in
    Ok (<[b := flat (<[Z.to_nat i := (c.1, y)]> bs)]> m).
Proof.
  intros Hb Hi. unfold mstore. rewrite (block_obj _ _ _ Hb). cbn [bind].
  rewrite load_flat_1 by done. destruct (load bs i) as [[x y]| |] eqn:E; cbn [bind fst snd]; [|done..].
  destruct (to_cell t y v) as [x'| |]; cbn [bind]; [|done..].
  apply load_some in E as [Hr E]. rewrite store_ok by (rewrite flat_len; lia). cbn [bind].
  rewrite flat_insert. replace (Z.to_nat (i * 2 + 1)) with (S (2 * Z.to_nat i))%nat by lia.
  rewrite (list_insert_commute (flat bs) (2 * Z.to_nat i)) by lia.
  rewrite (list_insert_id (flat bs) (2 * Z.to_nat i) x); [done|].
  by rewrite (proj1 (flat_lookup _ _)), E.
Qed.
Lemma load_fmap {A B} (f : A -> B) o i : load (f <$> o) i = let! x := load o i in Ok (f x).
Proof. unfold load. destruct (0 <=? i); [|done]. rewrite list_lookup_fmap. by destruct (o !! _). Qed.
Lemma load_put {A} (o : list A) i x y : load o i = Ok y -> load (<[Z.to_nat i := x]> o) i = Ok x.
Proof.
  intros H. apply load_some in H as [Hr H]. unfold load. replace (0 <=? i) with true by lia.
  rewrite list_lookup_insert; [done|]. unfold len in Hr. lia.
Qed.

Ltac find_load := match goal with H : load ?o ?i = Ok _ |- context [load ?o ?i] => rewrite H; reflexivity end.
Ltac sched_hook X :=
  lazymatch X with
  | deref_at (VPtr (TStruct 2) ?b 0) ?i =>
      change (deref_at (VPtr (TStruct 2) b 0) i) with (Ok (LocMem (TStruct 2) b (0 + i * 2)))
  | mload ?sc ?M ?t ?b (0 + ?i * 2 + ?k) =>
      change (mload sc M t b (0 + i * 2 + k)) with (mload sc M t b (i * 2 + k))
  | mstore ?M ?t ?b (0 + ?i * 2 + ?k) ?v =>
      change (mstore M t b (0 + i * 2 + k) v) with (mstore M t b (i * 2 + k) v)
  | mload _ _ _ (BObj _) (_ * 2 + 0) => erewrite mload_flat_0; [|look|lia]
  | mload _ _ _ (BObj _) (_ * 2 + 1) => erewrite mload_flat_1; [|look|lia]
  | mstore _ _ (BObj _) (_ * 2 + 0) _ => erewrite mstore_flat_0; [|look|lia]
  | mstore _ _ (BObj _) (_ * 2 + 1) _ => erewrite mstore_flat_1; [|look|lia]
  | load (_ <$> _) _ => rewrite load_fmap
  | load (<[Z.to_nat ?i := ?x]> ?o) ?i => erewrite (load_put o i x) by (rewrite load_fmap; find_load)
  | of_cell _ _ _ => cbn [of_cell fst snd width task_cells slot_cells t_function t_active]
  | to_cell _ _ _ => cbn [to_cell fst snd width task_cells slot_cells t_function t_active]
  end.
Ltac head_hook X ::= first [cont_hook X | sched_hook X].

Lemma init_slots i (ts : list SchedulerTask_t) (slots : list (option SchedulerTask_t)) t :
  (i < length slots)%nat -> length ts = length slots ->
  (Some <$> take (S i) (<[i := t]> ts)) ++ drop (S i) slots
  = <[i := Some t]> ((Some <$> take i ts) ++ drop i slots).
Proof.
  intros Hi Hl. rewrite (take_S_r _ i t) by (apply list_lookup_insert; lia).
  rewrite take_insert by lia. rewrite fmap_app, <- app_assoc. cbn [fmap list_fmap app].
  assert (Hn : i = (length (Some <$> take i ts) + 0)%nat) by (rewrite fmap_length, take_length; lia).
  rewrite (insert_app_r_alt _ _ i) by lia.
  replace (i - length (Some <$> take i ts))%nat with 0%nat by lia. f_equal.
  destruct (drop i slots) as [|x r] eqn:E.
  - apply (f_equal length) in E. rewrite drop_length in E. cbn in E. lia.
  - cbn [insert list_insert]. f_equal. replace (S i) with (i + 1)%nat by lia.
    by rewrite <- drop_drop, E.
Qed.

Section sched.
  Context {W : Type} (sc : bool)
          (ext : Z -> list val -> mem -> W -> outcome (val * mem * W)) (fuel : nat).
  Local Notation run f := (call sc ext fuel f).
  Implicit Types (m : mem) (w : W).

  Lemma ref_Scheduler_addTask m w b tasks max nb new :
    tasks_at m b tasks -> m !! nb = Some (flat [task_cells new]) -> b <> nb -> is_u32 max ->
    (S (length tasks) < fuel)%nat ->
    run c_Scheduler_addTask [struct_ptr 2 b; VInt U32 max; struct_ptr 2 nb] m w
    = let! '(r, tasks) := Scheduler_addTask tasks max new in
      Ok (VInt IBool (b2z r), put_tasks b tasks m, w).
  Proof.
    intros Hb Hnb Hne Hmax Hf. unfold c_Scheduler_addTask, Scheduler_addTask.
    pose proof (addTask_nd tasks max new Hmax) as Hnd. unfold Scheduler_addTask in Hnd.
    unfold tasks_at, put_tasks, struct_ptr in *. bounds. go.
    set (enc := fun '(i, ts, st) => ([VPtr (TStruct 2) (BObj b) 0; VInt U32 max; VPtr (TStruct 2) (BObj nb) 0;
       VInt IBool (b2z st); VInt U32 i], <[b := flat (task_cells <$> ts)]> m, w)).
    sim_while enc enc (fun '(i, ts, st) => 0 <= i /\ is_u32 i).
    - subst enc. cbv beta iota. by rewrite list_insert_id.
    - rng.
    - lia.
    - intros E. apply Hnd. rewrite E. done.
    - intros [[i ts] st] [Hi0 Hi] Hc. subst enc. cbv beta iota. apply Z.ltb_lt in Hc.
      destruct (load ts i) as [[f a]|k|] eqn:El.
      + destruct new as [f' a'], f as [f|]; [go_body|].
        destruct f' as [f'|]; cbn [flat task_cells t_function t_active] in Hnb; go_body.
        all: apply load_some in El as [? _]; cbn [bind t_function]; rewrite store_ok by lia;
          cbn [bind ctl_map]; rewrite !list_insert_insert, list_fmap_insert; done.
      + go_body.
      + go_body.
    - intros [[i ts] st] [Hi0 Hi] Hc. subst enc. cbv beta iota. apply Z.ltb_ge in Hc. go_body.
    - intros [[i x] st] [[i' x'] st'] [Hi0 Hi] Hc E. apply Z.ltb_lt in Hc. bounds.
      apply bind_ok_inv in E as (t & _ & E). destruct (t_function t).
      + injection E as <- <- <-. rewrite u32_small by lia. unfold is_u32. lia.
      + by apply bind_ok_inv in E as (? & _ & E).
    - both. subst enc. go.
  Qed.

  Lemma ref_Scheduler_init m w b slots n (t0 : SchedulerTask_t) :
    slots_at m b slots -> is_u32 n -> (Z.to_nat n < fuel)%nat ->
    run c_Scheduler_init [struct_ptr 2 b; VInt U32 n] m w
    = let! ts := Scheduler_init (default t0 <$> slots) n in
      Ok (VUndef, put_slots b ((Some <$> take (Z.to_nat n) ts) ++ drop (Z.to_nat n) slots) m, w).
  Proof.
    intros Hb Hn Hf. unfold c_Scheduler_init, Scheduler_init.
    unfold slots_at, put_slots, struct_ptr in *. bounds. go.
    sim_for (fun i ts => ([VPtr (TStruct 2) (BObj b) 0; VInt U32 n; VInt U32 i],
       <[b := flat (slot_cells <$> ((Some <$> take (Z.to_nat i) ts) ++ drop (Z.to_nat i) slots))]> m, w))
       (fun i ts => length ts = length slots).
    - cbn [Z.to_nat take drop fmap list_fmap app]. by rewrite list_insert_id.
    - lia.
    - by rewrite fmap_length.
    - lia.
    - intros i ts Hi Hl. destruct (Z.ltb_spec i (len slots)) as [Hlt|Hge].
      + assert (exists sl, load ((Some <$> take (Z.to_nat i) ts) ++ drop (Z.to_nat i) slots) i = Ok sl) as [sl El].
        { unfold load. replace (0 <=? i) with true by lia.
          destruct (((Some <$> take (Z.to_nat i) ts) ++ drop (Z.to_nat i) slots) !! Z.to_nat i) eqn:E; [by eexists|].
          apply lookup_ge_None in E. rewrite app_length, fmap_length, take_length, drop_length in E.
          unfold len in Hlt. lia. }
        rewrite store_ok by (unfold len in *; lia). cbn [bind].
        replace (Z.to_nat (i + 1)) with (S (Z.to_nat i)) by lia.
        rewrite (init_slots (Z.to_nat i)) by (unfold len in *; lia).
        revert El. generalize ((Some <$> take (Z.to_nat i) ts) ++ drop (Z.to_nat i) slots).
        intros ss El. rewrite list_fmap_insert.
        destruct sl as [[f a]|]; go_body.
        all: rewrite !list_insert_insert; go.
      + assert (load ((Some <$> take (Z.to_nat i) ts) ++ drop (Z.to_nat i) slots) i = UB OutOfBounds) as El.
        { unfold load. replace (0 <=? i) with true by lia. rewrite lookup_ge_None_2; [done|].
          rewrite app_length, fmap_length, take_length, drop_length. unfold len in Hge. lia. }
        unfold store. replace ((0 <=? i) && (i <? len ts)) with false by (unfold len in *; lia). cbn [bind].
        go_body.
    - intros i ts ts' Hi Hl E. apply store_inv in E as [_ ->]. by rewrite insert_length.
    - intros ts Hl. go_body.
    - both. go.
  Qed.

  Lemma ref_Scheduler_run m w b tasks n (exec : Z -> mem * W * list SchedulerTask_t -> mem * W * list SchedulerTask_t) :
    tasks_at m b tasks -> is_u32 n -> (Z.to_nat n < fuel)%nat ->
    (forall f m w ts, (b < length m)%nat ->
       let '(m', w', ts') := exec f (m, w, ts) in
       ext f [] (put_tasks b ts m) w = Ok (VUndef, put_tasks b ts' m', w') /\ (b < length m')%nat) ->
    run c_Scheduler_run [struct_ptr 2 b; VInt U32 n] m w
    = let! '(m, w, ts) := Scheduler_run exec (m, w) tasks n in Ok (VUndef, put_tasks b ts m, w).
  Proof.
    intros Hb Hn Hf Hext. unfold c_Scheduler_run, Scheduler_run.
    unfold tasks_at, put_tasks, struct_ptr in *. bounds. go.
    sim_for (fun i '(m, w, ts) => ([VPtr (TStruct 2) (BObj b) 0; VInt U32 n; VInt U32 i],
       <[b := flat (task_cells <$> ts)]> m, w)) (fun i '(m, w, ts) => (b < length m)%nat).
    - by rewrite list_insert_id.
    - lia.
    - by apply lookup_lt_Some in Hb.
    - lia.
    - intros i [[m1 w1] ts] Hi Hl.
      destruct (load ts i) as [[[f|] a]|k|] eqn:El; [| |go_body|go_body].
      + specialize (Hext f m1 w1 ts Hl). destruct (exec f (m1, w1, ts)) as [[m2 w2] ts2] eqn:Ee.
        destruct Hext as [He _]. destruct a; go_body. rewrite He.
        cbn [bind t_function t_active]. rewrite Ee. go.
      + go_body.
    - intros i [[m1 w1] ts] [[m2 w2] ts2] Hi Hl E. apply bind_ok_inv in E as ([[f|] []] & _ & E); cbn in E.
      + injection E as E. specialize (Hext f m1 w1 ts Hl). rewrite E in Hext. by destruct Hext.
      + by injection E as <- <- <-.
      + by injection E as <- <- <-.
      + by injection E as <- <- <-.
    - intros [[m1 w1] ts] _. go_body.
    - both. go.
  Qed.
End sched.
