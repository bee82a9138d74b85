(** * Proofs about the four sorts *)
From stdpp Require Import relations.
From Verif Require Import Lib Model_Utils Model_Sort Spec_Sort Proof_Utils Proof_Map.

(** ** Lists *)

Section swp.
  Context {A : Type} `{Inhabited A}.
  Implicit Types (xs : list A).

  (** elements [i] and [j] exchanged *)
  Definition swp xs (i j : Z) : list A :=
    <[Z.to_nat j := get xs i]> (<[Z.to_nat i := get xs j]> xs).

  Lemma len_swp xs i j : len (swp xs i j) = len xs.
  Proof. unfold swp. by rewrite !len_insert. Qed.
  Lemma get_swp xs i j k : 0 <= i < len xs -> 0 <= j < len xs -> 0 <= k ->
    get (swp xs i j) k = if j =? k then get xs i else if i =? k then get xs j else get xs k.
  Proof.
    intros. unfold swp. rewrite get_insert by (rewrite ?len_insert; lia).
    destruct (j =? k); [done|]. apply get_insert; lia.
  Qed.
  Lemma swp_perm xs i j : 0 <= i < len xs -> 0 <= j < len xs -> Permutation (swp xs i j) xs.
  Proof.
    intros Hi Hj. apply Permutation_inj. split; [unfold swp; by rewrite !insert_length|].
    exists (fun k => if decide (k = Z.to_nat i) then Z.to_nat j
             else if decide (k = Z.to_nat j) then Z.to_nat i else k). split.
    - intros a b. repeat case_decide; lia.
    - intros k. unfold swp. pose proof (lookup_get xs i Hi). pose proof (lookup_get xs j Hj).
      unfold len in *. repeat case_decide; subst.
      + destruct (decide (Z.to_nat i = Z.to_nat j)) as [E|E].
        * rewrite E. rewrite list_lookup_insert by (rewrite insert_length; lia). congruence.
        * rewrite list_lookup_insert_ne by done. rewrite list_lookup_insert by lia. done.
      + rewrite list_lookup_insert by (rewrite insert_length; lia). done.
      + rewrite !list_lookup_insert_ne by done. done.
  Qed.
  Lemma swp_mid (l r : list A) x y : swp (l ++ x :: y :: r) (len l) (len l + 1) = l ++ y :: x :: r.
  Proof.
    pose proof (len_nonneg l). pose proof (len_nonneg r). unfold swp. rewrite get_mid'.
    assert (Ey : get (l ++ x :: y :: r) (len l + 1) = y).
    { rewrite get_app_r by (rewrite !len_cons; lia).
      replace (len l + 1 - len l) with 1 by lia. done. }
    rewrite Ey. rewrite (insert_app_r_alt l) by (unfold len; lia).
    rewrite insert_app_r_alt by (unfold len; lia).
    replace (Z.to_nat (len l) - length l)%nat with 0%nat by (unfold len; lia).
    replace (Z.to_nat (len l + 1) - length l)%nat with 1%nat by (unfold len; lia). done.
  Qed.

  Context (gt : A -> A -> bool).

  (** exchange of two neighbours of which the first is greater *)
  Inductive step : list A -> list A -> Prop :=
    | Step l x y r : gt x y = true -> step (l ++ x :: y :: r) (l ++ y :: x :: r).

  Lemma step_swp xs j :
    0 <= j -> j + 1 < len xs -> gt (get xs j) (get xs (j + 1)) = true ->
    step xs (swp xs j (j + 1)).
  Proof.
    intros H0 H1 Hg. destruct (split_get' xs j) as (l & r & E & Hl); [lia|].
    destruct r as [|y r].
    { rewrite E, len_app, len_cons in H1. change (len []) with 0 in H1. lia. }
    assert (Ey : get xs (j + 1) = y).
    { rewrite E, get_app_r by (rewrite !len_cons; pose proof (len_nonneg r); lia).
      replace (j + 1 - len l) with 1 by lia. done. }
    rewrite Ey in Hg. remember (get xs j) as x. rewrite E. rewrite <- Hl, swp_mid.
    by constructor.
  Qed.
  Lemma steps_perm xs ys : rtc step xs ys -> Permutation ys xs.
  Proof.
    induction 1 as [|a b c [l x y r _] _ IH]; [done|]. rewrite IH.
    apply Permutation_app_head. constructor.
  Qed.
  Lemma steps_stable xs ys : strict_weak_order gt xs -> rtc step xs ys -> stable gt xs ys.
  Proof.
    intros [Has Htr] Hs. induction Hs as [|a b c [l x y r Hxy] Hs IH]; [done|].
    assert (Hp : Permutation (l ++ y :: x :: r) (l ++ x :: y :: r)).
    { apply Permutation_app_head. constructor. }
    intros z Hz. rewrite IH.
    - rewrite !list.filter_app. f_equal. rewrite !filter_cons.
      destruct (decide (equivalent gt z x)) as [[_ Hx]|], (decide (equivalent gt z y)) as [[Hy _]|];
        try done.
      rewrite (Htr x z y) in Hxy; try done; rewrite elem_of_app, !elem_of_cons; tauto.
    - intros p q. rewrite Hp. apply Has.
    - intros p q s. rewrite Hp. apply Htr.
    - by rewrite Hp.
  Qed.

  Lemma ascending_get xs :
    (forall p q, 0 <= p < q -> q < len xs -> gt (get xs p) (get xs q) = false) -> ascending gt xs.
  Proof.
    intros Hg i j x y Hij Hx Hy. specialize (Hg (Z.of_nat i) (Z.of_nat j)).
    apply lookup_lt_Some in Hy as Hj. unfold get in Hg. rewrite !Nat2Z.id in Hg.
    rewrite (list_lookup_total_correct _ _ _ Hx), (list_lookup_total_correct _ _ _ Hy) in Hg.
    apply Hg; unfold len; lia.
  Qed.
  Lemma ascending_get_1 xs p q :
    ascending gt xs -> 0 <= p < q -> q < len xs -> gt (get xs p) (get xs q) = false.
  Proof.
    intros Ha Hp Hq. apply (Ha (Z.to_nat p) (Z.to_nat q)); [lia| |]; apply lookup_get; lia.
  Qed.

  (** the order on a rearrangement of the elements *)
  Lemma swo_perm xs ys : Permutation ys xs -> strict_weak_order gt xs -> strict_weak_order gt ys.
  Proof.
    intros Hp [Ha Ht]. split.
    - intros x y. rewrite Hp. apply Ha.
    - intros x y z. rewrite Hp. apply Ht.
  Qed.
  Lemma swo_asym xs p q : strict_weak_order gt xs -> 0 <= p < len xs -> 0 <= q < len xs ->
    gt (get xs p) (get xs q) = true -> gt (get xs q) (get xs p) = false.
  Proof.
    intros [Ha _] Hp Hq. apply Ha; eapply elem_of_list_lookup_2, lookup_get; done.
  Qed.
  Lemma swo_le_trans xs p q r : strict_weak_order gt xs ->
    0 <= p < len xs -> 0 <= q < len xs -> 0 <= r < len xs ->
    gt (get xs p) (get xs q) = false -> gt (get xs q) (get xs r) = false ->
    gt (get xs p) (get xs r) = false.
  Proof.
    intros [_ Ht] Hp Hq Hr. apply Ht; eapply elem_of_list_lookup_2, lookup_get; done.
  Qed.
  Lemma swo_irrefl xs p : strict_weak_order gt xs -> 0 <= p < len xs ->
    gt (get xs p) (get xs p) = false.
  Proof.
    intros Hs Hp. destruct (gt (get xs p) (get xs p)) eqn:E; [|done].
    by rewrite (swo_asym xs p p) in E.
  Qed.
  (** [q] below [p], [r] not below [p]: [q] not above [r] *)
  Lemma swo_below xs p q r : strict_weak_order gt xs ->
    0 <= p < len xs -> 0 <= q < len xs -> 0 <= r < len xs ->
    gt (get xs p) (get xs q) = true -> gt (get xs p) (get xs r) = false ->
    gt (get xs q) (get xs r) = false.
  Proof.
    intros Hs Hp Hq Hr Hpq Hpr. apply (swo_le_trans xs q p r); try done.
    by apply swo_asym.
  Qed.
End swp.

(** ** Loops without memory: what the sorts compute, wherever the elements are *)

Definition pfor {S} (a b : Z) (g : Z -> S -> S) (s : S) : S :=
  fold_left (fun s j => g j s) (seqZ a (b - a)) s.
Lemma pfor_empty {S} a b (g : Z -> S -> S) s : b <= a -> pfor a b g s = s.
Proof. intros. unfold pfor. by rewrite seqZ_nil by lia. Qed.
Lemma pfor_succ {S} a j (g : Z -> S -> S) s : a <= j -> pfor a (j + 1) g s = g j (pfor a j g s).
Proof.
  intros. unfold pfor. replace (j + 1 - a) with ((j - a) + 1) by lia.
  rewrite seqZ_app by lia. rewrite fold_left_app.
  replace (a + (j - a)) with j by lia. done.
Qed.

(** ** Elements in memory *)

Lemma offset es (Hes : 0 <= es) i n : 0 <= i < n -> 0 <= i * es /\ i * es + es <= n * es.
Proof. nia. Qed.
Lemma offset_order es (Hes : 0 <= es) i j : i < j -> i * es + es <= j * es.
Proof. nia. Qed.

Lemma len_concat {A} es (xs : list (list A)) :
  Forall (fun x => len x = es) xs -> len (concat xs) = len xs * es.
Proof.
  induction 1 as [|x xs Hx _ IH]; [done|]. cbn [concat]. rewrite len_app, len_cons. lia.
Qed.

Section mem.
  Context (pre post : list Z) (es : Z) (Hes : 0 <= es).
  Implicit Types (xs : list (list Z)) (x : list Z).

  Notation wf := (Forall (fun x => len x = es)).
  Notation mem xs := (pre ++ concat xs ++ post).

  Lemma len_mem xs : wf xs -> len (mem xs) = len pre + len xs * es + len post.
  Proof. intros. rewrite !len_app, (len_concat es) by done. lia. Qed.
  Lemma mem_split l x r : mem (l ++ x :: r) = (pre ++ concat l) ++ x ++ (concat r ++ post).
  Proof. rewrite concat_app. cbn [concat]. by rewrite <- !app_assoc. Qed.
  Lemma get_wf xs i : wf xs -> 0 <= i < len xs -> len (get xs i) = es.
  Proof. intros Hw Hi. exact (Forall_get _ _ _ Hw Hi). Qed.
  Lemma slice_mem xs i : wf xs -> 0 <= i < len xs ->
    slice (mem xs) (len pre + i * es) es = get xs i.
  Proof.
    intros Hw Hi. destruct (split_get' xs i Hi) as (l & r & E & Hl).
    pose proof (get_wf xs i Hw Hi) as Hx. remember (get xs i) as g. rewrite E, mem_split.
    replace (len pre + i * es) with (len (pre ++ concat l)).
    - rewrite <- Hx. apply slice_app.
    - rewrite len_app, (len_concat es), Hl; [done|]. rewrite E in Hw. by apply Forall_app in Hw as [? _].
  Qed.
  Lemma write_mem xs i x : wf xs -> 0 <= i < len xs -> len x = es ->
    write (mem xs) (len pre + i * es) x = mem (<[Z.to_nat i := x]> xs).
  Proof.
    intros Hw Hi Hx. destruct (split_get' xs i Hi) as (l & r & E & Hl).
    pose proof (get_wf xs i Hw Hi) as Hg. remember (get xs i) as g.
    assert (Hwl : wf l) by (rewrite E in Hw; by apply Forall_app in Hw as [? _]).
    rewrite E. rewrite mem_split.
    replace (len pre + i * es) with (len (pre ++ concat l))
      by (rewrite len_app, (len_concat es), Hl by done; done).
    rewrite write_app by lia. rewrite <- mem_split. do 3 f_equal.
    rewrite insert_app_r_alt by (unfold len in Hl; lia).
    replace (Z.to_nat i - length l)%nat with O by (unfold len in Hl; lia). done.
  Qed.
  Lemma wf_insert xs i x : wf xs -> len x = es -> wf (<[i := x]> xs).
  Proof. intros. by apply Forall_insert. Qed.
  Lemma wf_swp xs i j : wf xs -> 0 <= i < len xs -> 0 <= j < len xs -> wf (swp xs i j).
  Proof. intros. unfold swp. apply wf_insert; [apply wf_insert|]; try done; by apply get_wf. Qed.
  Lemma wf_perm xs ys : Permutation ys xs -> wf xs -> wf ys.
  Proof. intros ->. done. Qed.

  Lemma swap_mem xs i j : wf xs -> 0 <= i < len xs -> 0 <= j < len xs ->
    Utils_swapElements (mem xs) (len pre + i * es) (len pre + j * es) es = Ok (mem (swp xs i j)).
  Proof.
    intros Hw Hi Hj. pose proof (offset es Hes i _ Hi). pose proof (offset es Hes j _ Hj).
    pose proof (len_nonneg pre). pose proof (len_nonneg post).
    rewrite swap_write; rewrite ?len_mem by done; try lia.
    - rewrite !slice_mem by done. rewrite write_mem by (try done; by apply get_wf).
      rewrite write_mem; [done| | |by apply get_wf].
      + apply wf_insert; [done|by apply get_wf].
      + by rewrite len_insert.
    - destruct (Z.lt_trichotomy i j) as [Hlt|[->|Hlt]]; [|by right; right|];
        apply (offset_order es Hes) in Hlt; lia.
  Qed.

  Context (cmp : list Z -> list Z -> bool).

  (** the comparator on two elements *)
  Lemma cmp_mem xs i j : wf xs -> 0 <= i < len xs -> 0 <= j < len xs ->
    call_cmp cmp es (mem xs) (len pre + i * es) (mem xs) (len pre + j * es)
    = Ok (cmp (get xs i) (get xs j)).
  Proof.
    intros Hw Hi Hj. unfold call_cmp. pose proof (offset es Hes i _ Hi). pose proof (offset es Hes j _ Hj).
    pose proof (len_nonneg pre). pose proof (len_nonneg post).
    rewrite !(proj2 (in_range_true _ _ _)) by (rewrite len_mem by done; lia). cbn [andb].
    by rewrite !slice_mem.
  Qed.
  (** the comparator on any readable memory *)
  Lemma cmp_any a o1 b o2 : 0 <= o1 -> o1 + es <= len a -> 0 <= o2 -> o2 + es <= len b ->
    call_cmp cmp es a o1 b o2 = Ok (cmp (slice a o1 es) (slice b o2 es)).
  Proof. intros. unfold call_cmp. by rewrite !(proj2 (in_range_true _ _ _)) by lia. Qed.
End mem.

(** ** Bubble sort *)

Section bubble.
  Context (cmp : list Z -> list Z -> bool) (pre post : list Z) (es : Z) (Hes : 0 <= es).
  Notation wf := (Forall (fun x => len x = es)).
  Notation mem xs := (pre ++ concat xs ++ post).

  Definition bub_step (j : Z) : list (list Z) * bool -> list (list Z) * bool :=
    fun '(ys, sw) => if cmp (get ys j) (get ys (j + 1)) then (swp ys j (j + 1), true) else (ys, sw).
  Fixpoint bub (fuel : nat) (i : Z) (xs : list (list Z)) : list (list Z) :=
    match fuel with
    | O => xs
    | S f => let '(ys, sw) := pfor 0 (len xs - i - 1) bub_step (xs, false) in
             if (sw : bool) then bub f (i + 1) ys else ys
    end.

  (** the last [k] elements are in place *)
  Definition placed (k : Z) (xs : list (list Z)) : Prop :=
    forall p q, 0 <= p < q -> len xs - k <= q < len xs -> cmp (get xs p) (get xs q) = false.

  Lemma bubble_pass xs i :
    wf xs -> 0 <= i -> 0 <= len xs - i - 1 -> len xs < 2 ^ 31 -> len xs * es < 2 ^ 31 ->
    exists ys sw,
      cfor 0 (len xs - i - 1)
        (fun j '(m, swapped) =>
           let! o1 := ck32 (j * es) in
           let! o2 := ck32 ((j + 1) * es) in
           let! c := call_cmp cmp es m (len pre + o1) m (len pre + o2) in
           if (c : bool) then
             let! m := Utils_swapElements m (len pre + o1) (len pre + o2) (u32 es) in
             Ok (m, true)
           else Ok (m, swapped)) (mem xs, false) = Ok (mem ys, sw) /\
      pfor 0 (len xs - i - 1) bub_step (xs, false) = (ys, sw) /\
      wf ys /\ len ys = len xs /\ rtc (step cmp) xs ys /\
      (sw = true -> i + 1 < len xs) /\
      (strict_weak_order cmp xs -> placed i xs ->
       placed (i + 1) ys /\ (sw = false -> ascending cmp ys)).
  Proof.
    intros Hw Hi Hb Hn Hne.
    for_rule (fun j '(m, sw) => exists ys, m = mem ys /\
      pfor 0 j bub_step (xs, false) = (ys, sw) /\ wf ys /\ len ys = len xs /\
      rtc (step cmp) xs ys /\ (sw = true -> 0 < j) /\
      (strict_weak_order cmp xs -> placed i xs ->
       placed i ys /\ (forall p, 0 <= p < j -> cmp (get ys p) (get ys j) = false) /\
       (sw = false -> forall p q, 0 <= p < q -> q <= j -> cmp (get ys p) (get ys q) = false)))
      st HQ.
    - lia.
    - exists xs. split; [done|]. split; [by rewrite pfor_empty|]. split; [done|]. split; [done|].
      split; [done|]. split; [done|]. intros _ Hp. split; [done|]. split; [intros; lia|]. intros _ p q; lia.
    - intros j [m sw] Hj (ys & -> & Hpf & Hwy & Hl & Hs & _ & Hord).
      destruct (offset es Hes j (len ys)) as [Ho1 Ho1']; [lia|].
      destruct (offset es Hes (j + 1) (len ys)) as [Ho2 Ho2']; [lia|].
      pose proof (offset_order es Hes j (j + 1)).
      rewrite Hl in Ho1', Ho2'.
      assert (es <= len xs * es) by lia.
      rewrite !ck32_ok by lia. cbn [bind].
      rewrite cmp_mem by (done || lia). cbn [bind].
      destruct (cmp (get ys j) (get ys (j + 1))) eqn:Ec.
      + rewrite u32_small by lia. rewrite swap_mem by (done || lia). cbn [bind].
        eexists. split; [done|]. cbv beta iota. exists (swp ys j (j + 1)).
        assert (Hst : rtc (step cmp) xs (swp ys j (j + 1))).
        { eapply rtc_r; [exact Hs|]. apply step_swp; (done || lia). }
        split; [done|].
        split; [rewrite pfor_succ, Hpf by lia; cbn; by rewrite Ec|].
        split; [apply wf_swp; (done || lia)|]. split; [by rewrite len_swp|].
        split; [done|]. split; [lia|].
        intros Hswo Hpl. specialize (Hord Hswo Hpl) as (Hp1 & Hp2 & _).
        apply (swo_perm _ _ ys) in Hswo; [|by apply (steps_perm cmp)].
        assert (Hnew : cmp (get ys (j + 1)) (get ys j) = false) by (apply swo_asym; (done || lia)).
        split; [|split; [|done]].
        * intros p q Hpq Hq. rewrite len_swp in Hq. rewrite !get_swp by lia.
          replace (j + 1 =? q) with false by lia. replace (j =? q) with false by lia.
          destruct (Z.eqb_spec (j + 1) p); [apply Hp1; lia|].
          destruct (Z.eqb_spec j p); apply Hp1; lia.
        * intros p Hp. rewrite !get_swp by lia. rewrite Z.eqb_refl.
          replace (j + 1 =? p) with false by lia.
          destruct (Z.eqb_spec j p); [done|]. apply Hp2. lia.
      + eexists. split; [done|]. cbv beta iota. exists ys.
        split; [done|]. split; [rewrite pfor_succ, Hpf by lia; cbn; by rewrite Ec|].
        split; [done|]. split; [done|]. split; [done|]. split; [lia|].
        intros Hswo Hpl. specialize (Hord Hswo Hpl) as (Hp1 & Hp2 & Hp3).
        apply (swo_perm _ _ ys) in Hswo; [|by apply (steps_perm cmp)].
        assert (Hnew : forall p, 0 <= p < j + 1 -> cmp (get ys p) (get ys (j + 1)) = false).
        { intros p Hp. destruct (Z.eq_dec p j) as [->|]; [done|].
          apply (swo_le_trans cmp ys p j (j + 1)); (done || lia || apply Hp2; lia). }
        split; [done|]. split; [done|].
        intros Hsw p q Hpq Hq. destruct (Z.eq_dec q (j + 1)) as [->|]; [apply Hnew; lia|].
        apply Hp3; (done || lia).
    - destruct st as [m sw]. destruct HQ as (ys & -> & Hpf & Hwy & Hl & Hs & Hsw & Hord).
      exists ys, sw. split; [done|]. split; [done|]. split; [done|]. split; [done|]. split; [done|].
      split; [lia|]. intros Hswo Hpl. specialize (Hord Hswo Hpl) as (Hp1 & Hp2 & Hp3). split.
      + intros p q Hpq Hq. rewrite Hl in Hq.
        destruct (Z.eq_dec q (len xs - i - 1)) as [->|]; [apply Hp2; lia|apply Hp1; lia].
      + intros E. apply ascending_get. intros p q Hpq Hq.
        destruct (Z.le_gt_cases q (len xs - i - 1)); [apply Hp3; (done || lia)|apply Hp1; lia].
  Qed.

  Lemma bubble_ok xs :
    wf xs -> len xs < 2 ^ 31 -> len xs * es < 2 ^ 31 ->
    let ys := bub (Z.to_nat (len xs + 1)) 0 xs in
    BubbleSort_sort cmp (mem xs) (len pre) (len xs) es = Ok (mem ys) /\
      wf ys /\ rtc (step cmp) xs ys /\ (strict_weak_order cmp xs -> ascending cmp ys).
  Proof.
    intros Hw Hn Hne res. unfold BubbleSort_sort. pose proof (len_nonneg xs).
    while_rule (fun '(m, sw, i) => exists ys, m = mem ys /\ wf ys /\ len ys = len xs /\
        (if sw : bool then bub (Z.to_nat (len xs + 1 - i)) i ys = res else ys = res) /\
        rtc (step cmp) xs ys /\ 0 <= i /\ (sw = true -> i < len xs \/ i = 0) /\
        (strict_weak_order cmp xs -> placed i ys /\ (sw = false -> ascending cmp ys)))
      (fun '(m, sw, i) => m = mem res /\ wf res /\
        rtc (step cmp) xs res /\ (strict_weak_order cmp xs -> ascending cmp res))
      (fun '(m, sw, i) => if (sw : bool) then len xs + 1 - i else 0) st HQ.
    - exists xs. split; [done|]. split; [done|]. split; [done|].
      split; [unfold res; do 2 f_equal; lia|]. split; [done|]. split; [done|].
      split; [lia|]. intros _. split; [|done]. intros p q; lia.
    - lia.
    - intros [[m sw] i] (ys & -> & Hwy & Hl & Hr & Hs & Hi & Hsi & Hord) ->. left.
      specialize (Hsi eq_refl). rewrite !ck32_ok by lia. cbn [bind].
      rewrite !ck32_ok by lia. cbn [bind].
      destruct (Z.le_gt_cases 0 (len xs - i - 1)) as [Hb|Hb].
      + destruct (bubble_pass ys i) as (zs & sw & E & Hpf & Hwz & Hlz & Hsz & Hsw & Ho);
          [done|lia|lia|lia|lia|].
        replace (Z.to_nat (len xs + 1 - i)) with (S (Z.to_nat (len xs + 1 - (i + 1)))) in Hr by lia.
        cbn [bub] in Hr. rewrite Hpf in Hr. rewrite Hl in E. rewrite E. cbn [bind].
        eexists. split; [done|]. cbv beta iota. split.
        * exists zs. split; [done|]. split; [done|]. split; [lia|].
          split; [by destruct sw|].
          split; [by transitivity ys|]. split; [lia|]. split; [lia|].
          intros Hswo. destruct (Hord Hswo) as [Hp _]. apply Ho; [|done].
          apply (swo_perm _ xs); [|done]. by apply (steps_perm cmp).
        * destruct sw; lia.
      + rewrite cfor_empty by lia. cbn [bind].
        eexists. split; [done|]. cbv beta iota. split; [|lia].
        replace (Z.to_nat (len xs + 1 - i)) with (S (Z.to_nat (len xs - i))) in Hr by lia.
        cbn [bub] in Hr. rewrite pfor_empty in Hr by lia.
        exists ys. split; [done|]. split; [done|]. split; [done|]. split; [done|]. split; [done|].
        split; [lia|]. split; [done|]. intros Hswo. destruct (Hord Hswo) as [Hp _]. split.
        * intros p q Hpq Hq. apply Hp; lia.
        * intros _. apply ascending_get. intros p q Hpq Hq. apply Hp; lia.
    - intros [[m sw] i] (ys & -> & Hwy & Hl & Hr & Hs & Hi & Hsi & Hord) ->.
      subst ys. split; [done|]. split; [done|]. split; [done|].
      intros Hswo. destruct (Hord Hswo) as [_ Ha]. by apply Ha.
    - destruct st as [[m sw] i]. destruct HQ as (-> & Hwy & Hs & Ha). done.
  Qed.
End bubble.
