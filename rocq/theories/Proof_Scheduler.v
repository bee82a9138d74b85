(** * Proofs about scheduler.c *)
From Verif Require Import Lib Model_Containers Spec_Scheduler Drive_Scheduler Proof_Map.

(** ** Tasks that leave the table alone *)

Lemma run_static {W} (ef : Z -> W -> W) w t n :
  0 <= n <= len t ->
  Scheduler_run (fun f '(w, t) => (ef f w, t)) w t n
  = Ok (fold_left (fun w f => ef f w) (omap runnable (take (Z.to_nat n) t)) w, t).
Proof.
  intros Hn. unfold Scheduler_run.
  for_rule (fun i s => s = (fold_left (fun w f => ef f w)
                             (omap runnable (take (Z.to_nat i) t)) w, t)) st HQ.
  - lia.
  - done.
  - intros i [w' t'] Hi [= -> ->]. rewrite load_ok by lia. cbn [bind].
    replace (Z.to_nat (i + 1)) with (S (Z.to_nat i)) by lia.
    rewrite (take_S_r t (Z.to_nat i) (get t i)) by (apply lookup_get; lia).
    rewrite omap_app, fold_left_app. cbn.
    destruct (runnable (get t i)) eqn:Er; unfold runnable in Er;
    destruct (t_function (get t i)), (t_active (get t i)); inversion Er; cbn; eauto.
  - by rewrite HQ.
Qed.

(** ** Tasks that change the table *)

Lemma filter_all {A} (P : A -> Prop) `{forall x, Decision (P x)} (l : list A) :
  (forall x, x ∈ l -> P x) -> filter P l = l.
Proof.
  induction l as [|x l IH]; intros Hp; [done|]. rewrite filter_cons_True by (apply Hp; by left).
  rewrite IH; [done|]. intros y Hy. apply Hp. by right.
Qed.

Lemma run_dynamic {W} (exec : Z -> W * list SchedulerTask_t -> W * list SchedulerTask_t) w t n :
  0 <= n <= len t -> (forall f s, len (exec f s).2 = len s.2) ->
  exists calls, Scheduler_run exec w t n = Ok (after exec calls (w, t)) /\
    pass exec runs_slot n (w, t) calls.
Proof.
  intros Hn Hlen. unfold Scheduler_run.
  for_rule (fun i s => exists calls, s = after exec calls (w, t) /\ len s.2 = len t /\
    pass exec runs_slot i (w, t) calls) st HQ.
  - lia.
  - exists []. split; [done|]. split; [done|]. constructor.
    + intros i j c d _ H. done.
    + intros c Hc. inversion Hc.
    + intros; lia.
  - intros i [w' t'] Hi (calls & E & Hl & [Ho Hr Hb]). cbn [snd] in Hl.
    rewrite load_ok by lia. cbn [bind].
    assert (Hbef : before i calls = calls).
    { unfold before. apply filter_all. intros c Hc. specialize (Hr c Hc). cbn. lia. }
    assert (Hruns : runs_slot (after exec (before i calls) (w, t)) i = runnable (get t' i)).
    { rewrite Hbef, <- E. unfold runs_slot. cbn [snd]. rewrite lookup_get by lia. done. }
    destruct (runnable (get t' i)) as [f|] eqn:Ef.
    + assert (Hcase : t_function (get t' i) = Some f /\ t_active (get t' i) = true).
      { unfold runnable in Ef. by destruct (t_active (get t' i)). }
      destruct Hcase as [-> ->].
      eexists. split; [done|]. exists (calls ++ [(i, f)]). split.
      { unfold after. rewrite fold_left_app. cbn. fold (after exec calls (w, t)). by rewrite <- E. }
      split; [rewrite Hlen; done|]. constructor.
      * intros a b c d Hab Ha Hb'. apply lookup_app_Some in Hb' as [Hb'|[Hb1 Hb2]].
        -- assert (calls !! a = Some c).
           { rewrite lookup_app_l in Ha; [done|]. apply lookup_lt_Some in Hb'. lia. }
           by apply (Ho a b).
        -- apply list_lookup_singleton_Some in Hb2 as [Hb2 <-]. cbn.
           rewrite lookup_app_l in Ha by lia. apply elem_of_list_lookup_2, Hr in Ha. lia.
      * intros c Hc. apply elem_of_app in Hc as [Hc|Hc].
        -- specialize (Hr c Hc). lia.
        -- apply elem_of_list_singleton in Hc as ->. cbn. lia.
      * intros k g Hk.
        assert (Hbk : before k (calls ++ [(i, f)]) = before k calls).
        { unfold before. rewrite list.filter_app. rewrite (filter_cons_False _ (i, f)).
          - by rewrite app_nil_r.
          - cbn. lia. }
        rewrite Hbk. rewrite elem_of_app, elem_of_list_singleton.
        destruct (Z.eq_dec k i) as [->|Hne].
        -- rewrite Hruns. split.
           ++ intros [H|[= ->]]; [|done]. specialize (Hr _ H). cbn in Hr. lia.
           ++ intros [= ->]. by right.
        -- rewrite <- Hb by lia. split; [intros [?|[= ? ?]]; [done|lia]|by left].
    + assert (Hskip : (match t_function (get t' i) with
                       | Some f => if t_active (get t' i) then Ok (exec f (w', t')) else Ok (w', t')
                       | None => Ok (w', t') end) = Ok (w', t')).
      { unfold runnable in Ef. destruct (t_active (get t' i)); [by rewrite Ef|].
        by destruct (t_function (get t' i)). }
      rewrite Hskip. eexists. split; [done|]. exists calls. split; [done|]. split; [done|].
      constructor.
      * done.
      * intros c Hc. specialize (Hr c Hc). lia.
      * intros k g Hk. destruct (Z.eq_dec k i) as [->|Hne].
        -- rewrite Hruns. split; [|done]. intros H. specialize (Hr _ H). cbn in Hr. lia.
        -- apply Hb. lia.
  - destruct HQ as (calls & -> & _ & Hp). exists calls. done.
Qed.
Lemma pass_length {S} (exec : Z -> S -> S) runs n s calls :
  0 <= n -> pass exec runs n s calls -> len calls <= n.
Proof.
  intros Hn [Ho Hr _]. 
  assert (H : forall k c, calls !! k = Some c -> Z.of_nat k <= c.1).
  { induction k as [|k IH]; intros c Hc.
    - apply elem_of_list_lookup_2, Hr in Hc. lia.
    - destruct (calls !! k) as [d|] eqn:Ed.
      + specialize (IH d eq_refl). specialize (Ho k (Datatypes.S k) d c ltac:(lia) Ed Hc). lia.
      + apply lookup_ge_None in Ed. apply lookup_lt_Some in Hc. lia. }
  destruct calls as [|c0 cs] using rev_ind; [change (len []) with 0; lia|].
  specialize (H (length cs) c0). rewrite lookup_app_r, Nat.sub_diag in H by lia.
  specialize (H eq_refl). assert (0 <= c0.1 < n).
  { apply Hr. apply elem_of_app. right. by left. }
  rewrite len_app. change (len [c0]) with 1. unfold len. lia.
Qed.

(** ** Adding tasks *)

Lemma init_table t n :
  0 <= n <= len t ->
  Scheduler_init t n = Ok (replicate (Z.to_nat n) (mkTask None false) ++ drop (Z.to_nat n) t).
Proof.
  intros Hn. unfold Scheduler_init.
  for_rule (fun i s => s = replicate (Z.to_nat i) (mkTask None false) ++ drop (Z.to_nat i) t) st HQ.
  - lia.
  - done.
  - intros i s Hi ->. rewrite store_ok by (rewrite len_app, len_replicate, len_drop; lia).
    eexists. split; [done|].
    rewrite insert_app_r_alt by (rewrite replicate_length; lia).
    rewrite replicate_length, Nat.sub_diag.
    rewrite (drop_S t (get t i) (Z.to_nat i)) by (apply lookup_get; lia). cbn.
    replace (Z.to_nat (i + 1)) with (S (Z.to_nat i)) by lia.
    rewrite replicate_S_end, <- app_assoc. done.
  - by rewrite HQ.
Qed.
Lemma add_scan l r n new :
  0 <= n < 2 ^ 32 -> len l <= n -> n <= len (l ++ r) ->
  Forall (fun t => t_function t <> None) l ->
  Scheduler_addTask (l ++ r) n new =
  match r with
  | x :: r' => if (len l <? n) && bool_decide (t_function x = None)
               then Ok (true, l ++ new :: r') else Scheduler_addTask (l ++ r) n new
  | [] => Scheduler_addTask (l ++ r) n new
  end.
Proof.
  intros Hn Hl Hr Hf. destruct r as [|x r']; [done|].
  destruct (Z.ltb_spec (len l) n) as [Hlt|]; [|done].
  destruct (bool_decide_reflect (t_function x = None)) as [Hx|]; [|done]. cbn [andb].
  unfold Scheduler_addTask. pose proof (len_nonneg l). pose proof (len_nonneg r').
  rewrite len_app, len_cons in Hr.
  while_rule (fun '(i, t, st) => 0 <= i <= len l /\ t = l ++ x :: r' /\ st = false)
    (fun '(i, t, st) => t = l ++ new :: r' /\ st = true)
    (fun '(i, t, st) => len l - i) st HQ.
  - split; [lia|done].
  - rewrite app_length. cbn. unfold len in *. lia.
  - intros [[i t] s] (Hi & -> & ->) _. rewrite load_ok by (rewrite len_app, len_cons; lia).
    cbn [bind]. destruct (Z.eq_dec i (len l)) as [->|].
    + right. rewrite get_mid', Hx. rewrite store_ok by (rewrite len_app, len_cons; lia).
      cbn [bind]. eexists. split; [done|]. cbv beta iota. split; [|done].
      rewrite insert_app_r_alt by (unfold len; lia).
      replace (Z.to_nat (len l) - length l)%nat with 0%nat by (unfold len; lia). cbn.
      by destruct new.
    + left. rewrite get_app_l by lia.
      pose proof (Forall_get _ l i Hf ltac:(lia)) as Hg. cbn in Hg.
      destruct (t_function (get l i)); [|done].
      eexists. split; [done|]. cbv beta iota. rewrite u32_small by lia.
      split; [|lia]. split; [lia|done].
  - intros [[i t] s] (Hi & -> & ->) Hc. apply Z.ltb_ge in Hc. lia.
  - destruct st as [[i t] s]. destruct HQ as [-> ->]. done.
Qed.
Lemma add_first_free l x r n new :
  0 <= n < 2 ^ 32 -> len l < n -> n <= len (l ++ x :: r) ->
  Forall (fun t => t_function t <> None) l -> t_function x = None ->
  Scheduler_addTask (l ++ x :: r) n new = Ok (true, l ++ new :: r).
Proof.
  intros Hn Hl Hr Hf Hx. rewrite add_scan by (done || lia).
  replace (len l <? n) with true by lia. by rewrite bool_decide_true by done.
Qed.
Lemma add_full l r n new :
  len l = n -> n < 2 ^ 32 -> Forall (fun t => t_function t <> None) l ->
  Scheduler_addTask (l ++ r) n new = Ok (false, l ++ r).
Proof.
  intros Hl Hn Hf. unfold Scheduler_addTask. pose proof (len_nonneg l). pose proof (len_nonneg r).
  while_rule (fun '(i, t, st) => 0 <= i <= len l /\ t = l ++ r /\ st = false)
    (fun '(i, t, st) => t = l ++ r /\ st = false)
    (fun '(i, t, st) => len l - i) st HQ.
  - split; [lia|done].
  - rewrite app_length. unfold len in *. lia.
  - intros [[i t] s] (Hi & -> & ->) Hc. apply Z.ltb_lt in Hc. left.
    rewrite load_ok by (rewrite len_app; lia). cbn [bind]. rewrite get_app_l by lia.
    pose proof (Forall_get _ l i Hf ltac:(lia)) as Hg. cbn in Hg.
    destruct (t_function (get l i)); [|done].
    eexists. split; [done|]. cbv beta iota. rewrite u32_small by lia.
    split; [|lia]. split; [lia|done].
  - intros [[i t] s] (Hi & -> & ->) Hc. done.
  - destruct st as [[i t] s]. destruct HQ as [-> ->]. done.
Qed.

Lemma add_all_full l r n new :
  len l = n -> n < 2 ^ 32 -> Forall (fun t => t_function t <> None) l ->
  add_all (l ++ r) n new = Ok (replicate (length new) false, l ++ r).
Proof.
  intros Hl Hn Hf. induction new as [|t new IH]; [done|]. cbn.
  rewrite add_full by done. cbn. by rewrite IH.
Qed.
Lemma add_all_after_init tasks n new :
  0 <= n < 2 ^ 32 -> n <= len tasks -> Forall (fun t => t_function t <> None) new ->
  (let! t := Scheduler_init tasks n in add_all t n new)
  = Ok (replicate (Nat.min (Z.to_nat n) (length new)) true
          ++ replicate (length new - Z.to_nat n) false,
        take (Z.to_nat n) new ++ replicate (Z.to_nat n - length new) (mkTask None false)
          ++ drop (Z.to_nat n) tasks).
Proof.
  intros Hn Hl Hf. rewrite init_table by lia. cbn [bind].
  remember (drop (Z.to_nat n) tasks) as rest eqn:Er. clear Er Hl tasks.
  assert (Hgen : forall new done_ k, Forall (fun t => t_function t <> None) done_ ->
    Forall (fun t => t_function t <> None) new -> len done_ + Z.of_nat k = n ->
    add_all (done_ ++ replicate k (mkTask None false) ++ rest) n new
    = Ok (replicate (Nat.min k (length new)) true ++ replicate (length new - k) false,
          done_ ++ take k new ++ replicate (k - length new) (mkTask None false) ++ rest)).
  { clear new Hf. induction new as [|t new IH]; intros dn k Hd Hnew Hk.
    - cbn. rewrite Nat.min_0_r, Nat.sub_0_r, take_nil. done.
    - inversion_clear Hnew as [|? ? Ht Hnew']. destruct k as [|k].
      + rewrite add_all_full; [|lia|lia|done]. cbn. done.
      + cbn [replicate app add_all]. pose proof (len_nonneg dn).
        pose proof (len_nonneg (replicate k (mkTask None false) ++ rest)).
        rewrite add_first_free; [|lia|lia| |done|done].
        2: { rewrite len_app, len_cons, len_app, len_replicate. pose proof (len_nonneg rest). lia. }
        cbn [bind].
        specialize (IH (dn ++ [t]) k). rewrite <- app_assoc in IH. cbn [app] in IH. rewrite IH.
        * cbn [bind]. rewrite <- app_assoc. cbn [app take length Nat.min Nat.sub replicate]. done.
        * apply Forall_app. split; [done|]. by constructor.
        * done.
        * rewrite len_app. change (len [t]) with 1. lia. }
  specialize (Hgen new [] (Z.to_nat n)). cbn [app] in Hgen. apply Hgen; [constructor|done|].
  change (len []) with 0. lia.
Qed.
(** a task without a function is reported as added, but its slot is still free *)
Lemma add_null_function l x r n a :
  0 <= n < 2 ^ 32 -> len l < n -> n <= len (l ++ x :: r) ->
  Forall (fun t => t_function t <> None) l -> t_function x = None ->
  Scheduler_addTask (l ++ x :: r) n (mkTask None a) = Ok (true, l ++ mkTask None a :: r) /\
  forall new, Scheduler_addTask (l ++ mkTask None a :: r) n new = Ok (true, l ++ new :: r).
Proof.
  intros. split; [by apply add_first_free|]. intros new. apply add_first_free; try done.
  rewrite len_app, len_cons in *. lia.
Qed.
Lemma added_task_occupies_refuted :
  exists tasks n t tasks', Scheduler_addTask tasks n t = Ok (true, tasks') /\
    forall i x, tasks' !! i = Some x -> t_function x = None.
Proof.
  exists [mkTask None false], 1, (mkTask None true). eexists. split; [by vm_compute|].
  intros [|i] x; [|done]. by intros [= <-].
Qed.
