(** * Sorting with comparators that have a state: what holds for all of them, and how often they are called *)
From Verif Require Import CSem Lib Model_Utils Model_Sort Model_SortState Spec_Sort Proof_Utils Proof_Sort
  Proof_SortInsert Proof_SortHeap.
From stdpp Require Import list numbers.
Open Scope Z_scope.

Section sort.
  Context {T : Type} (cmp : T -> list Z -> list Z -> T * bool).
  (** [cost] grows by [d] at each call *)
  Context (cost : T -> Z) (d : Z).
  Context (Hcost : forall t x y, cost (fst (cmp t x y)) = cost t + d).
  Context (pre post : list Z) (es : Z) (Hes : 0 <= es).
  Notation wf := (Forall (fun x => len x = es)).
  Notation mem xs := (pre ++ concat xs ++ post).
  Implicit Types (xs ys zs : list (list Z)).

  Lemma call_any t a o1 b o2 : 0 <= o1 -> o1 + es <= len a -> 0 <= o2 -> o2 + es <= len b ->
    exists t' r, call_cmp_state cmp es t a o1 b o2 = Ok (t', r) /\ cost t' = cost t + d.
  Proof.
    intros. unfold call_cmp_state. rewrite !(proj2 (in_range_true _ _ _)) by lia. cbn [andb].
    pose proof (Hcost t (slice a o1 es) (slice b o2 es)) as H'.
    destruct (cmp t _ _) as [t' r]. eauto.
  Qed.
  Lemma call_mem t xs i j : wf xs -> 0 <= i < len xs -> 0 <= j < len xs ->
    exists t' r, call_cmp_state cmp es t (mem xs) (len pre + i * es) (mem xs) (len pre + j * es)
      = Ok (t', r) /\ cost t' = cost t + d.
  Proof.
    intros Hw Hi Hj. pose proof (offset es Hes i _ Hi). pose proof (offset es Hes j _ Hj).
    pose proof (len_nonneg pre). pose proof (len_nonneg post).
    apply call_any; rewrite ?(len_mem pre post es) by done; lia.
  Qed.

  (** ** Bubble sort *)

  Lemma pass_state t xs i :
    wf xs -> 0 <= i -> 0 <= len xs - i - 1 -> len xs < 2 ^ 31 -> len xs * es < 2 ^ 31 ->
    exists t' ys sw,
      cfor 0 (len xs - i - 1)
        (fun j '(t, m, swapped) =>
           let! o1 := ck32 (j * es) in
           let! o2 := ck32 ((j + 1) * es) in
           let! '(t, c) := call_cmp_state cmp es t m (len pre + o1) m (len pre + o2) in
           if (c : bool) then
             let! m := Utils_swapElements m (len pre + o1) (len pre + o2) (u32 es) in
             Ok (t, m, true)
           else Ok (t, m, swapped)) (t, mem xs, false) = Ok (t', mem ys, sw) /\
      wf ys /\ Permutation ys xs /\ cost t' = cost t + (len xs - i - 1) * d /\
      (sw = true -> i + 1 < len xs).
  Proof.
    intros Hw Hi Hb Hn Hne.
    for_rule (fun j '(t', m, sw) => exists ys, m = mem ys /\ wf ys /\ Permutation ys xs /\
      cost t' = cost t + j * d /\ (sw = true -> 0 < j)) st HQ.
    - lia.
    - exists xs. split; [done|]. split; [done|]. split; [done|]. split; [lia|done].
    - intros j [[t' m] sw] Hj (ys & -> & Hwy & Hp & Hc & Hsw).
      assert (len ys = len xs) as Hl by (unfold len; by rewrite Hp).
      destruct (offset es Hes j (len ys)) as [Ho1 Ho1']; [lia|].
      destruct (offset es Hes (j + 1) (len ys)) as [Ho2 Ho2']; [lia|].
      pose proof (offset_order es Hes j (j + 1)).
      rewrite Hl in Ho1', Ho2'.
      assert (es <= len xs * es) by lia.
      rewrite !ck32_ok by lia. cbn [bind].
      destruct (call_mem t' ys j (j + 1)) as (t2 & r & -> & Hc2); [done|lia|lia|]. cbn [bind].
      destruct r.
      + rewrite u32_small by lia. rewrite swap_mem by (done || lia). cbn [bind].
        eexists. split; [done|]. cbv beta iota. exists (swp ys j (j + 1)).
        split; [done|]. split; [apply wf_swp; (done || lia)|].
        split; [rewrite swp_perm by lia; done|]. split; [lia|lia].
      + eexists. split; [done|]. cbv beta iota. exists ys. split; [done|]. split; [done|].
        split; [done|]. split; [lia|lia].
    - destruct st as [[t' m] sw]. destruct HQ as (ys & -> & Hwy & Hp & Hc & Hsw).
      exists t', ys, sw. split; [done|]. split; [done|]. split; [done|]. split; [done|lia].
  Qed.
  Lemma bubble_state t xs :
    wf xs -> len xs < 2 ^ 31 -> len xs * es < 2 ^ 31 ->
    exists t' ys k, BubbleSort_state cmp t (mem xs) (len pre) (len xs) es = Ok (t', mem ys) /\
      wf ys /\ Permutation ys xs /\ cost t' = cost t + k * d /\
      len xs - 1 <= k /\ 0 <= k /\ 2 * k <= len xs * (len xs - 1).
  Proof.
    intros Hw Hn Hne. unfold BubbleSort_state. pose proof (len_nonneg xs).
    while_rule (fun '(t', m, sw, i) => exists ys k, m = mem ys /\ wf ys /\ Permutation ys xs /\
        cost t' = cost t + k * d /\ 0 <= i /\ (sw = true -> i < len xs \/ i = 0) /\
        (i <= len xs \/ i = 1) /\
        (if sw : bool then i = 0 \/ len xs - 1 <= k else len xs - 1 <= k) /\ 0 <= k /\
        2 * k <= i * (2 * len xs - i - 1) + Z.max 0 (2 * (i - len xs)))
      (fun '(t', m, sw, i) => exists ys k, m = mem ys /\ wf ys /\ Permutation ys xs /\
        cost t' = cost t + k * d /\ len xs - 1 <= k /\ 0 <= k /\ 2 * k <= len xs * (len xs - 1))
      (fun '(t', m, sw, i) => if (sw : bool) then len xs + 1 - i else 0) st HQ.
    - exists xs, 0. split; [done|]. split; [done|]. split; [done|]. repeat split; lia.
    - lia.
    - intros [[[t' m] sw] i] (ys & k & -> & Hwy & Hp & Hc & Hi & Hsi & Hi2 & Hk & Hk0 & Hk2) ->. left.
      assert (len ys = len xs) as Hl by (unfold len; by rewrite Hp).
      specialize (Hsi eq_refl). rewrite !ck32_ok by lia. cbn [bind].
      rewrite !ck32_ok by lia. cbn [bind].
      destruct (Z.le_gt_cases 0 (len xs - i - 1)) as [Hb|Hb].
      + destruct (pass_state t' ys i) as (t2 & zs & sw & E & Hwz & Hpz & Hc2 & Hsw);
          [done|lia|lia|lia|lia|].
        rewrite Hl in E. rewrite E. cbn [bind]. rewrite ?ck32_ok by lia. cbn [bind].
        eexists. split; [done|]. cbv beta iota. split.
        * exists zs, (k + (len xs - i - 1)). split; [done|]. split; [done|].
          split; [by rewrite Hpz|]. split; [rewrite Hc2, Hl, Hc; ring|]. split; [lia|].
          split; [lia|]. split; [lia|]. split; [destruct sw; lia|]. split; [lia|].
          rewrite Z.max_l in Hk2 |- * by lia. nia.
        * destruct sw; lia.
      + rewrite cfor_empty by lia. cbn [bind]. rewrite ?ck32_ok by lia. cbn [bind].
        eexists. split; [done|]. cbv beta iota. split; [|lia].
        exists ys, k. split; [done|]. split; [done|]. split; [done|]. split; [done|].
        split; [lia|]. split; [done|]. split; [lia|]. split; [lia|]. split; [lia|].
        assert (len xs = 0 /\ i = 0) as [E1 E2] by lia. rewrite E1, E2 in *. lia.
    - intros [[[t' m] sw] i] (ys & k & -> & Hwy & Hp & Hc & Hi & Hsi & Hi2 & Hk & Hk0 & Hk2) ->.
      exists ys, k. split; [done|]. split; [done|]. split; [done|]. split; [done|].
      split; [done|]. split; [done|].
      destruct (Z.le_gt_cases i (len xs)).
      + rewrite Z.max_l in Hk2 by lia.
        assert (0 <= (len xs - i) * (len xs - i - 1)).
        { destruct (Z.eq_dec (len xs) i) as [->|]; [lia|]. apply Z.mul_nonneg_nonneg; lia. }
        lia.
      + assert (i = 1 /\ len xs = 0) as [E1 E2] by lia. rewrite E1, E2 in *. lia.
    - destruct st as [[[t' m] sw] i]. destruct HQ as (ys & k & -> & HR). cbn [bind]. eauto.
  Qed.

  (** ** Selection sort: always the same number of calls *)

  Lemma least_state t xs i :
    wf xs -> 0 <= i -> i < len xs -> len xs < 2 ^ 31 -> len xs * es < 2 ^ 31 ->
    exists t' k, cfor (i + 1) (len xs)
      (fun j '(t, min_index) =>
         let! o1 := ck32 (min_index * es) in
         let! o2 := ck32 (j * es) in
         let! '(t, c) := call_cmp_state cmp es t (mem xs) (len pre + o1) (mem xs) (len pre + o2) in
         Ok (t, if (c : bool) then j else min_index)) (t, i) = Ok (t', k) /\
    i <= k < len xs /\ cost t' = cost t + (len xs - i - 1) * d.
  Proof.
    intros Hw Hi Hi' Hn Hne.
    for_rule (fun j '(t', k) => i <= k < j /\ cost t' = cost t + (j - i - 1) * d) st HQ.
    - lia.
    - split; [lia|]. replace (i + 1 - i - 1) with 0 by lia. lia.
    - intros j [t' k] Hj (Hk & Hc).
      destruct (offset es Hes j (len xs)) as [Ho1 Ho1']; [lia|].
      destruct (offset es Hes k (len xs)) as [Ho2 Ho2']; [lia|].
      assert (es <= len xs * es) by lia.
      rewrite !ck32_ok by lia. cbn [bind].
      destruct (call_mem t' xs k j) as (t2 & r & -> & Hc2); [done|lia|lia|]. cbn [bind].
      eexists. split; [done|]. split; [destruct r; lia|]. rewrite Hc2, Hc. ring.
    - destruct st as [t' k]. destruct HQ as [? ?]. exists t', k. done.
  Qed.
  Lemma selection_state t xs :
    wf xs -> len xs < 2 ^ 31 -> len xs * es < 2 ^ 31 ->
    exists t' ys k, SelectionSort_state cmp t (mem xs) (len pre) (len xs) es = Ok (t', mem ys) /\
      wf ys /\ Permutation ys xs /\ cost t' = cost t + k * d /\ 2 * k = len xs * (len xs - 1).
  Proof.
    intros Hw Hn Hne. unfold SelectionSort_state. pose proof (len_nonneg xs).
    rewrite ck32_ok by lia. cbn [bind].
    destruct (Z.eq_dec (len xs) 0) as [E0|E0].
    { rewrite cfor_empty by lia. exists t, xs, 0. split; [done|]. split; [done|]. split; [done|].
      rewrite E0. lia. }
    for_rule (fun i '(t', m) => exists ys k, m = mem ys /\ wf ys /\ Permutation ys xs /\
      cost t' = cost t + k * d /\ 2 * k = i * (2 * len xs - i - 1)) st HQ.
    - lia.
    - exists xs, 0. split; [done|]. split; [done|]. split; [done|]. lia.
    - intros i [t' m] Hi (ys & k & -> & Hwy & Hp & Hc & Hk).
      assert (len ys = len xs) as Hl by (unfold len; by rewrite Hp).
      destruct (least_state t' ys i) as (t2 & l & E & Hb & Hc2); [done|lia|lia|lia|lia|].
      rewrite Hl in E, Hb, Hc2. rewrite E. cbn [bind].
      assert (cost t2 = cost t + (k + (len xs - i - 1)) * d /\
        2 * (k + (len xs - i - 1)) = (i + 1) * (2 * len xs - (i + 1) - 1)) as [HA HB].
      { split; [rewrite Hc2, Hc; ring|lia]. }
      destruct (Z.eqb_spec l i) as [->|Hne']; cbn [negb].
      + eexists. split; [done|]. exists ys, (k + (len xs - i - 1)). done.
      + destruct (offset es Hes l (len xs)) as [Ho1 Ho1']; [lia|].
        destruct (offset es Hes i (len xs)) as [Ho2 Ho2']; [lia|].
        assert (es <= len xs * es) by lia.
        rewrite !ck32_ok by lia. cbn [bind]. rewrite u32_small by lia.
        rewrite swap_mem by (done || lia). cbn [bind]. eexists. split; [done|].
        exists (swp ys l i), (k + (len xs - i - 1)). split; [done|].
        split; [apply wf_swp; (done || lia)|]. split; [rewrite swp_perm by lia; done|]. done.
    - destruct st as [t' m]. destruct HQ as (ys & k & -> & Hwy & Hp & Hc & Hk).
      exists t', ys, k. split; [done|]. split; [done|]. split; [done|]. split; [done|]. lia.
  Qed.
End sort.

(** ** Insertion sort *)

Section insertion.
  Context {T : Type} (cmp : T -> list Z -> list Z -> T * bool).
  Context (cost : T -> Z) (d : Z).
  Context (Hcost : forall t x y, cost (fst (cmp t x y)) = cost t + d).
  Context (pre post : list Z) (es : Z) (Hes : 0 <= es <= 64) (Hroom : es <= len pre).
  Notation wf := (Forall (fun x => len x = es)).
  Notation mem xs := (pre ++ concat xs ++ post).
  Implicit Types (xs ys zs : list (list Z)).

  Lemma step_state t ys (el : list Z) i :
    wf ys -> 1 <= i < len ys -> len ys < 2 ^ 31 -> len ys * es < 2 ^ 31 -> len el = 64 ->
    exists t' zs k,
      (let! o := ck32 (i * es) in
       let! element := memcpy el 0 (mem ys) (len pre + o) (u64 es) in
       let j := i - 1 in
       let! o := ck32 (j * es) in
       let! '(t, compare) := call_cmp_state cmp es t (mem ys) (len pre + o) element 0 in
       let! '(t, m, j, _) :=
         cwhile (S (Z.to_nat i))
           (fun '(t, m, j, compare) => (0 <=? j) && compare)
           (fun '(t, m, j, compare) =>
              let! o1 := ck32 ((j + 1) * es) in
              let! o := ck32 (j * es) in
              let! m := memcpy_within m (len pre + o1) (len pre + o) (u64 es) in
              let j := j - 1 in
              let! o := ck32 (j * es) in
              let! '(t, compare) := call_cmp_state cmp es t m (len pre + o) element 0 in
              Ok (Next (t, m, j, compare)))
           (t, mem ys, j, compare) in
       let! o1 := ck32 ((j + 1) * es) in
       let! m := memcpy m (len pre + o1) element 0 (u64 es) in
       Ok (t, m, element)) = Ok (t', mem zs, write el 0 (get ys i)) /\
      wf zs /\ Permutation zs ys /\ cost t' = cost t + k * d /\ 1 <= k <= i + 1.
  Proof.
    intros Hw Hi Hn Hne Hel.
    pose proof (len_nonneg pre). pose proof (len_nonneg post).
    assert (Hmem : forall zs, wf zs -> len zs = len ys ->
      len (mem zs) = len pre + len ys * es + len post).
    { intros zs Hz Hlz. rewrite (len_mem pre post es), Hlz by done. lia. }
    assert (Hes' : es <= len ys * es) by nia.
    destruct (offset es ltac:(lia) i (len ys)) as [Hoi Hoi']; [lia|].
    destruct (offset es ltac:(lia) (i - 1) (len ys)) as [Hoj Hoj']; [lia|].
    assert (Hx : len (get ys i) = es) by (apply get_wf; (done || lia)).
    rewrite !ck32_ok by lia. cbn [bind]. rewrite u64_small by lia.
    rewrite memcpy_ok by (rewrite ?Hmem by done; lia). cbn [bind].
    rewrite slice_mem by (done || lia). cbv zeta.
    rewrite !ck32_ok by lia. cbn [bind].
    destruct (call_any cmp cost d Hcost es ltac:(lia) t (mem ys) (len pre + (i - 1) * es)
      (write el 0 (get ys i)) 0) as (t1 & r & -> & Hc1);
      [lia|rewrite Hmem by done; lia|lia|rewrite len_write; lia|]. cbn [bind].
    while_rule (fun '(t', m, j, c) => exists zs k, m = mem zs /\ wf zs /\ len zs = len ys /\
        Permutation (<[Z.to_nat (j + 1) := get ys i]> zs) ys /\ -1 <= j < i /\
        cost t' = cost t + k * d /\ k = i - j)
      (fun '(t', m, j, c) => exists zs k, m = mem zs /\ wf zs /\ len zs = len ys /\
        Permutation (<[Z.to_nat (j + 1) := get ys i]> zs) ys /\ -1 <= j < i /\
        cost t' = cost t + k * d /\ k = i - j)
      (fun '(t', m, j, c) => j + 1) st HQ.
    - exists ys, 1. split; [done|]. split; [done|]. split; [done|].
      split; [|split; [lia|split; lia]].
      replace (i - 1 + 1) with i by lia. rewrite list_insert_id; [done|]. apply lookup_get. lia.
    - lia.
    - intros [[[t' m] j] c] (zs & k & -> & Hwz & Hl & Hp & Hj & Hc & Hk) Hcond. left.
      apply andb_true_iff in Hcond as [Hj0 ->]. apply Z.leb_le in Hj0.
      destruct (offset es ltac:(lia) j (len ys)) as [H1 H1']; [lia|].
      destruct (offset es ltac:(lia) (j + 1) (len ys)) as [H2 H2']; [lia|].
      pose proof (offset_order es ltac:(lia) j (j + 1) ltac:(lia)).
      assert (Hsub : (j - 1) * es = j * es - es) by ring.
      rewrite !ck32_ok by lia. cbn [bind].
      rewrite memcpy_within_ok by (rewrite ?Hmem by done; lia). cbn [bind]. cbv zeta.
      rewrite slice_mem, write_mem by (done || lia || apply get_wf; (done || lia)).
      rewrite ?ck32_ok by lia. cbn [bind].
      set (zs' := <[Z.to_nat (j + 1) := get zs j]> zs).
      assert (Hwz' : wf zs') by (apply wf_insert; [done|]; apply get_wf; (done || lia)).
      assert (Hl' : len zs' = len ys) by (unfold zs'; by rewrite len_insert).
      destruct (call_any cmp cost d Hcost es ltac:(lia) t' (mem zs') (len pre + (j - 1) * es)
        (write el 0 (get ys i)) 0) as (t2 & r2 & -> & Hc2);
        [lia|rewrite Hmem by done; lia|lia|rewrite len_write; lia|]. cbn [bind].
      eexists. split; [done|]. cbv beta iota. split; [|lia].
      exists zs', (k + 1). split; [done|]. split; [done|]. split; [done|].
      split; [|split; [lia|split; [rewrite Hc2, Hc; ring|lia]]].
      rewrite <- Hp at 2. set (vs := <[Z.to_nat (j + 1) := get ys i]> zs).
      assert (Ej : get vs j = get zs j) by (unfold vs; rewrite get_insert_ne by lia; done).
      assert (Ej1 : get vs (j + 1) = get ys i) by (unfold vs; rewrite get_insert_eq by lia; done).
      replace (<[Z.to_nat (j - 1 + 1) := get ys i]> zs') with (swp vs j (j + 1)).
      + apply swp_perm; unfold vs; rewrite ?len_insert; lia.
      + unfold zs'. replace (j - 1 + 1) with j by lia. unfold swp. rewrite Ej, Ej1. unfold vs.
        rewrite (list_insert_commute zs (Z.to_nat j) (Z.to_nat (j + 1))) by lia.
        rewrite list_insert_insert.
        rewrite (list_insert_commute zs (Z.to_nat j)) by lia. done.
    - intros [[[t' m] j] c] HP _. exact HP.
    - destruct st as [[[t' m] j] c]. destruct HQ as (zs & k & -> & Hwz & Hl & Hp & Hj & Hc & Hk).
      cbn [bind]. destruct (offset es ltac:(lia) (j + 1) (len ys)) as [H2 H2']; [lia|].
      rewrite ck32_ok by lia. cbn [bind].
      rewrite memcpy_ok by (rewrite ?Hmem by done; rewrite ?len_write by lia; lia). cbn [bind].
      rewrite el_slice, write_mem by (done || lia).
      exists t', (<[Z.to_nat (j + 1) := get ys i]> zs), k. split; [done|].
      split; [by apply wf_insert|]. split; [done|]. split; [done|]. lia.
  Qed.
  Lemma insertion_state t xs (el : list Z) :
    wf xs -> len xs < 2 ^ 31 -> len xs * es < 2 ^ 31 -> len el = 64 ->
    exists t' ys el' k,
      InsertionSort_state cmp t (mem xs) el (len pre) (len xs) es = Ok (t', mem ys, el') /\
      len el' = 64 /\ wf ys /\ Permutation ys xs /\ cost t' = cost t + k * d /\
      len xs - 1 <= k /\ 0 <= k /\ 2 * k <= (len xs - 1) * (len xs + 2) + Z.max 0 (2 * (1 - len xs)).
  Proof.
    intros Hw Hn Hne Hel. unfold InsertionSort_state. pose proof (len_nonneg xs).
    destruct (Z.eq_dec (len xs) 0) as [E0|E0].
    { rewrite cfor_empty by lia. exists t, xs, el, 0. rewrite E0.
      split; [done|]. split; [done|]. split; [done|]. split; [done|]. lia. }
    for_rule (fun i '(t', m, el') => exists ys k, m = mem ys /\ len el' = 64 /\ wf ys /\
      Permutation ys xs /\ cost t' = cost t + k * d /\ i - 1 <= k /\ 2 * k <= (i - 1) * (i + 2)) st HQ.
    - lia.
    - exists xs, 0. split; [done|]. split; [done|]. split; [done|]. split; [done|]. lia.
    - intros i [[t' m] el'] Hi (ys & k & -> & Hel' & Hwy & Hp & Hc & Hk & Hk2).
      assert (len ys = len xs) as Hl by (unfold len; by rewrite Hp).
      destruct (step_state t' ys el' i) as (t2 & zs & k' & E & Hwz & Hpz & Hc2 & Hk');
        [done|lia|lia|lia|done|]. eexists. split; [exact E|]. cbv beta iota.
      exists zs, (k + k'). split; [done|]. split.
      { rewrite len_write; [done|lia|]. rewrite (get_wf es) by (done || lia). lia. }
      split; [done|]. split; [by rewrite Hpz|]. split; [rewrite Hc2, Hc; ring|].
      split; [lia|]. lia.
    - destruct st as [[t' m] el']. destruct HQ as (ys & k & -> & Hel' & Hwy & Hp & Hc & Hk & Hk2).
      exists t', ys, el', k. split; [done|]. split; [done|]. split; [done|]. split; [done|].
      split; [done|]. split; [done|]. split; [lia|]. lia.
  Qed.
End insertion.

(** ** Heap sort *)

Section heap.
  Context {T : Type} (cmp : T -> list Z -> list Z -> T * bool).
  Context (cost : T -> Z) (d : Z).
  Context (Hcost : forall t x y, cost (fst (cmp t x y)) = cost t + d).
  Context (pre post : list Z) (es N : Z) (Hes : 0 <= es) (HN : 0 <= N).
  Context (Hn31 : 2 * N < 2 ^ 31) (Hne31 : 2 * N * es < 2 ^ 31).
  Context (Hroom : (N + 1) * es <= len post).
  Notation wf := (Forall (fun x => len x = es)).
  Notation mem xs := (pre ++ concat xs ++ post).
  Implicit Types (xs ys zs : list (list Z)).

  Lemma read_state t ys p q : wf ys -> len ys = N -> 0 <= p <= 2 * N -> 0 <= q < N ->
    exists t' r, call_cmp_state cmp es t (mem ys) (len pre + p * es) (mem ys) (len pre + q * es)
      = Ok (t', r) /\ cost t' = cost t + d.
  Proof.
    intros Hw Hl Hp Hq. pose proof (offset2 es Hes p _ Hp) as Ho.
    destruct (offset es Hes q N Hq) as [H1 H2].
    pose proof (len_nonneg pre).
    apply (call_any cmp cost d Hcost es Hes); rewrite ?(len_mem pre post es), ?Hl by done; lia.
  Qed.
  Lemma log2_child k : 0 <= k ->
    Z.log2 (2 * k + 1 + 1) = Z.log2 (k + 1) + 1 /\ Z.log2 (2 * k + 2 + 1) = Z.log2 (k + 1) + 1.
  Proof.
    intros Hk. replace (2 * k + 1 + 1) with (2 * (k + 1)) by lia.
    replace (2 * k + 2 + 1) with (2 * (k + 1) + 1) by lia.
    rewrite Z.log2_double, Z.log2_succ_double by lia. lia.
  Qed.
  Lemma heapify_state t n ys k :
    wf ys -> len ys = N -> 0 <= n <= N -> 0 <= k < N -> k = 0 \/ k < n ->
    exists t' zs c, Heapify_state cmp t (mem ys) (len pre) n k es = Ok (t', mem zs) /\
      wf zs /\ Permutation zs ys /\ cost t' = cost t + 2 * c * d /\
      1 <= c <= Z.log2 n + 1.
  Proof.
    intros Hw Hl Hn Hk Hkn. unfold Heapify_state. pose proof (len_nonneg pre).
    while_rule (fun '(t', m, i, go) => exists zs c, m = mem zs /\ wf zs /\ Permutation zs ys /\
        0 <= i < N /\ (i = 0 \/ i < n) /\ cost t' = cost t + 2 * c * d /\
        0 <= c /\ (if (go : bool) then c <= Z.log2 (i + 1) else 1 <= c <= Z.log2 n + 1))
      (fun '(t', m, i, go) => exists zs c, m = mem zs /\ wf zs /\ Permutation zs ys /\
        cost t' = cost t + 2 * c * d /\ (1 <= c <= Z.log2 n + 1))
      (fun '(t', m, i, go) => if (go : bool) then n + 1 - i else 0) st HQ.
    - exists ys, 0. split; [done|]. split; [done|]. split; [done|]. split; [lia|]. split; [done|].
      split; [lia|]. split; [lia|]. apply Z.log2_nonneg.
    - lia.
    - intros [[[t' m] i] go] (zs & c & -> & Hwz & Hp & Hi & Hin & Hc & Hc0 & Hcb) ->. left.
      assert (Hlz : len zs = N) by (unfold len in *; by rewrite Hp).
      pose proof (offset2 es Hes (2 * i + 1) (2 * N) ltac:(lia)) as Hol.
      pose proof (offset2 es Hes (2 * i + 2) (2 * N) ltac:(lia)) as Hor.
      pose proof (offset2 es Hes i (2 * N) ltac:(lia)) as Ho.
      assert (Hes2 : es <= 2 * N * es) by nia.
      rewrite !(ck32_ok (2 * i)) by lia. cbn [bind].
      rewrite !(ck32_ok (2 * i + 1)), !(ck32_ok (2 * i + 2)) by lia. cbn [bind]. cbv zeta.
      rewrite !(ck32_ok ((2 * i + 1) * es)), !(ck32_ok (i * es)) by lia. cbn [bind].
      destruct (read_state t' zs (2 * i + 1) i) as (t1 & r1 & -> & Hc1); [done|done|lia|lia|].
      cbn [bind]. rewrite !(ck32_ok ((2 * i + 2) * es)) by lia. cbn [bind].
      set (l := if (2 * i + 1 <? n) && r1 then 2 * i + 1 else i).
      assert (Hcl : l = i \/ (l = 2 * i + 1 /\ l < n)).
      { unfold l. destruct (Z.ltb_spec (2 * i + 1) n), r1; cbn [andb]; lia. }
      assert (Hcl' : 0 <= l <= 2 * N) by lia.
      pose proof (offset2 es Hes _ _ Hcl') as Hog.
      rewrite (ck32_ok (l * es)) by lia. cbn [bind].
      destruct (read_state t1 zs (2 * i + 2) l) as (t2 & r2 & -> & Hc2); [done|done|lia|lia|].
      cbn [bind].
      set (g := if (2 * i + 2 <? n) && r2 then 2 * i + 2 else l).
      assert (Hcg : g = i \/ ((g = 2 * i + 1 \/ g = 2 * i + 2) /\ g < n)).
      { unfold g. destruct (Z.ltb_spec (2 * i + 2) n), r2; cbn [andb]; lia. }
      assert (Hc3 : cost t2 = cost t + 2 * (c + 1) * d) by (rewrite Hc2, Hc1, Hc; ring).
      destruct (Z.eqb_spec g i) as [Eg|Hg]; cbn [negb].
      + eexists. split; [done|]. cbv beta iota. split; [|lia].
        exists zs, (c + 1). split; [done|]. split; [done|]. split; [done|]. split; [done|].
        split; [done|]. split; [done|]. split; [lia|]. split; [lia|].
        assert (Z.log2 (i + 1) <= Z.log2 n); [|lia].
        destruct Hin as [->|Hin]; [apply Z.log2_nonneg|]. apply Z.log2_le_mono. lia.
      + assert (Hg' : 0 <= g <= 2 * N) by lia.
        pose proof (offset2 es Hes _ _ Hg') as Hoc.
        rewrite !(ck32_ok (g * es)) by lia. cbn [bind]. rewrite u32_small by lia.
        rewrite swap_mem by (done || lia). cbn [bind].
        eexists. split; [done|]. cbv beta iota. split; [|lia].
        exists (swp zs i g), (c + 1). split; [done|]. split; [apply wf_swp; (done || lia)|].
        split; [rewrite swp_perm by lia; done|]. split; [lia|]. split; [lia|].
        split; [done|]. split; [lia|].
        destruct (log2_child i ltac:(lia)) as [L1 L2].
        destruct Hcg as [?|[[->| ->] _]]; lia.
    - intros [[[t' m] i] go] (zs & c & -> & Hwz & Hp & Hi & Hin & Hc & Hc0 & Hcb) ->.
      exists zs, c. done.
    - destruct st as [[[t' m] i] go]. destruct HQ as (zs & c & -> & HR). cbn [bind]. eauto.
  Qed.

  Lemma heap_state t xs : wf xs -> len xs = N ->
    exists t' ys c, HeapSort_state cmp t (mem xs) (len pre) (len xs) es = Ok (t', mem ys) /\
      wf ys /\ Permutation ys xs /\ cost t' = cost t + 2 * c * d /\
      N / 2 + N <= c <= (N / 2 + N) * (Z.log2 N + 1).
  Proof.
    intros Hw Hl. unfold HeapSort_state. rewrite Hl.
    rewrite Z.quot_div_nonneg by lia. rewrite ck32_ok by lia. cbn [bind].
    set (L := Z.log2 N + 1).
    ford_rule (fun i '(t', m) => exists ys c, m = mem ys /\ wf ys /\ Permutation ys xs /\
      cost t' = cost t + 2 * c * d /\
      N / 2 - 1 - i <= c <= (N / 2 - 1 - i) * L) st HQ.
    - lia.
    - exists xs, 0. split; [done|]. split; [done|]. split; [done|]. split; [lia|].
      replace (N / 2 - 1 - (N / 2 - 1)) with 0 by lia. lia.
    - intros i [t' m] Hi (ys & c & -> & Hwy & Hp & Hc & Hb).
      assert (Hly : len ys = N) by (unfold len in *; by rewrite Hp).
      destruct (heapify_state t' N ys i) as (t2 & zs & c' & E & Hwz & Hpz & Hc2 & Hb2);
        [done|done|lia|lia|lia|]. fold L in Hb2. rewrite E. eexists. split; [done|]. cbv beta iota.
      exists zs, (c + c'). split; [done|]. split; [done|]. split; [by rewrite Hpz|].
      split; [rewrite Hc2, Hc; ring|].
      replace ((N / 2 - 1 - (i - 1)) * L) with ((N / 2 - 1 - i) * L + L) by ring. lia.
    - destruct st as [t1 m]. destruct HQ as (ys & c & -> & Hwy & Hp & Hc & Hb).
      cbn [bind]. rewrite ck32_ok by lia. cbn [bind].
      replace (N / 2 - 1 - (0 - 1)) with (N / 2) in Hb by lia.
      ford_rule (fun i '(t', m) => exists zs c', m = mem zs /\ wf zs /\ Permutation zs xs /\
        cost t' = cost t + 2 * c' * d /\
        N / 2 + (N - 1 - i) <= c' <= N / 2 * L + (N - 1 - i) * L) st2 HQ2.
      + lia.
      + exists ys, c. split; [done|]. split; [done|]. split; [done|]. split; [done|].
        replace ((N - 1 - (N - 1)) * L) with 0 by ring. lia.
      + intros i [t' m] Hi (zs & c' & -> & Hwz & Hpz & Hcz & Hbz).
        assert (Hlz : len zs = N) by (unfold len in *; by rewrite Hpz).
        destruct (offset es Hes i N) as [Ho1 Ho1']; [lia|].
        destruct (offset es Hes 0 N) as [Ho2 Ho2']; [lia|].
        assert (N * es <= 2 * N * es) by lia.
        rewrite ck32_ok by lia. cbn [bind]. rewrite u32_small by lia.
        assert (Esw : Utils_swapElements (mem zs) (len pre) (len pre + i * es) es
                      = Ok (mem (swp zs 0 i))).
        { pose proof (swap_mem pre post es Hes zs 0 i) as Hs.
          replace (len pre + 0 * es) with (len pre) in Hs by lia. apply Hs; (done || lia). }
        rewrite Esw. cbn [bind].
        destruct (heapify_state t' i (swp zs 0 i) 0) as (t2 & ws & c2 & E & Hww & Hpw & Hc2 & Hb2);
          [apply wf_swp; (done || lia)|by rewrite len_swp|lia|lia|by left|].
        rewrite E. eexists. split; [done|]. cbv beta iota.
        exists ws, (c' + c2). split; [done|]. split; [done|].
        split; [rewrite Hpw, swp_perm by lia; done|]. split; [rewrite Hc2, Hcz; ring|].
        assert (Z.log2 i <= Z.log2 N) by (apply Z.log2_le_mono; lia).
        replace ((N - 1 - (i - 1)) * L) with ((N - 1 - i) * L + L) by ring. unfold L in *. lia.
      + destruct st2 as [t' m]. destruct HQ2 as (zs & c' & -> & Hwz & Hpz & Hcz & Hbz).
        exists t', zs, c'. split; [done|]. split; [done|]. split; [done|]. split; [done|].
        replace (N - 1 - (0 - 1)) with N in Hbz by lia. lia.
  Qed.
End heap.
