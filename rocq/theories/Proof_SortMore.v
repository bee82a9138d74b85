(** * Sorted input, agreement of the sorts *)
From Verif Require Import CSem Lib Model_Sort Spec_Sort Spec_SortMore Proof_Sort Proof_SortInsert
  Proof_SortHeap Proof_SortEnd Proof_SortAll.
From stdpp Require Import list numbers relations.
Open Scope Z_scope.

(** ** Sorted input *)

Lemma no_step {A} (gt : A -> A -> bool) xs ys :
  neighbours_ordered gt xs -> rtc (step gt) xs ys -> ys = xs.
Proof.
  intros HN HR. destruct HR as [|a b c [l x y r Hg] _]; [done|]. exfalso.
  rewrite (HN (length l) x y) in Hg; [done|by rewrite list_lookup_middle|].
  rewrite (cons_middle x), app_assoc. apply list_lookup_middle. rewrite app_length. cbn. lia.
Qed.
Lemma ascending_neighbours {A} (gt : A -> A -> bool) xs : ascending gt xs -> neighbours_ordered gt xs.
Proof. intros H i x y Hx Hy. apply (H i (S i) x y); [lia|done|done]. Qed.

Lemma bubble_sorted cmp es xs pre post : elements_of es xs -> neighbours_ordered cmp xs ->
  BubbleSort_sort cmp (pre ++ concat xs ++ post) (len pre) (len xs) es = Ok (pre ++ concat xs ++ post).
Proof.
  intros (H0 & HF & H1 & H2) HN.
  destruct (bubble_ok cmp pre post es H0 xs HF H1 H2) as (E & _ & HR & _).
  rewrite E. by rewrite (no_step _ _ _ HN HR).
Qed.
Lemma ordered_no_low {A} (cmp : A -> A -> bool) xs i : neighbours_ordered cmp xs -> ~ new_low cmp xs i.
Proof.
  intros HN (Hi & x & Hx & HL). destruct i as [|i]; [lia|].
  assert (is_Some (xs !! i)) as [y Hy] by (apply lookup_lt_is_Some; apply lookup_lt_Some in Hx; lia).
  assert (cmp y x = true); [|by rewrite (HN i y x) in H].
  apply HL. apply elem_of_list_lookup. exists i. rewrite lookup_take by lia. done.
Qed.
Lemma insertion_sorted cmp es xs pre post static : elements_of es xs -> es <= 64 -> len static = 64 ->
  neighbours_ordered cmp xs ->
  exists static', len static' = 64 /\
    InsertionSort_sort cmp (pre ++ concat xs ++ post) static (len pre) (len xs) es
    = Ok (pre ++ concat xs ++ post, static').
Proof.
  intros (H0 & HF & H1 & H2) H64 HS HN.
  destruct (insertion_ok cmp pre post es (conj H0 H64) xs static HF H1 H2 HS) as (el & E & HL & _ & HR & _).
  { right. apply no_low. intros i. by apply ordered_no_low. }
  exists el. split; [done|]. rewrite E. by rewrite (no_step _ _ _ HN HR).
Qed.
Lemma selection_sorted cmp es xs pre post : elements_of es xs -> ascending cmp xs ->
  SelectionSort_sort cmp (pre ++ concat xs ++ post) (len pre) (len xs) es
  = Ok (pre ++ concat xs ++ post).
Proof.
  intros (H0 & HF & H1 & H2) HA.
  destruct (selection_ok cmp pre post es H0 xs HF H1 H2) as (E & _). rewrite E. do 4 f_equal.
  assert (forall i k, 0 <= i -> i + 1 + Z.of_nat k <= len xs ->
    least cmp xs i (i + 1 + Z.of_nat k) = i) as HL.
  { intros i k Hi. induction k as [|k IH]; intros Hk; unfold least.
    - by rewrite pfor_empty by lia.
    - replace (i + 1 + Z.of_nat (S k)) with (i + 1 + Z.of_nat k + 1) by lia.
      rewrite pfor_succ by lia. fold (least cmp xs i (i + 1 + Z.of_nat k)).
      rewrite IH by lia. by rewrite ascending_get_1 by (done || lia). }
  assert (forall k, Z.of_nat k <= len xs - 1 -> pfor 0 (Z.of_nat k) (sel_step cmp) xs = xs) as H.
  { induction k as [|k IH]; intros Hk; [by rewrite pfor_empty|].
    replace (Z.of_nat (S k)) with (Z.of_nat k + 1) by lia. rewrite pfor_succ, IH by lia.
    unfold sel_step. replace (len xs) with (Z.of_nat k + 1 + Z.of_nat (Z.to_nat (len xs - Z.of_nat k - 1))) by lia.
    rewrite HL by lia. by rewrite Z.eqb_refl. }
  destruct (Z.le_gt_cases (len xs - 1) 0); [by rewrite pfor_empty|].
  replace (len xs - 1) with (Z.of_nat (Z.to_nat (len xs - 1))) by lia. apply H. lia.
Qed.

(** unchanged exactly if sorted *)
Lemma concat_inj es (xs ys : list (list Z)) : 0 < es -> Forall (fun x => len x = es) xs ->
  Forall (fun x => len x = es) ys -> concat xs = concat ys -> xs = ys.
Proof.
  intros He HX. revert ys. induction HX as [|x xs Hx HX IH]; intros ys HY E.
  - destruct HY as [|y ys Hy HY]; [done|]. cbn in E. destruct y; [|done].
    change (len []) with 0 in Hy. lia.
  - destruct HY as [|y ys Hy HY]; cbn in E.
    + destruct x; [|done]. change (len []) with 0 in Hx. lia.
    + apply app_inj_1 in E as [-> E]; [|unfold len in *; lia]. f_equal. by apply IH.
Qed.
Lemma unchanged_iff cmp es xs ys (pre post : list Z) : 0 < es ->
  Forall (fun x => len x = es) xs -> Forall (fun x => len x = es) ys ->
  ascending cmp ys -> (ascending cmp xs -> pre ++ concat ys ++ post = pre ++ concat xs ++ post) ->
  pre ++ concat ys ++ post = pre ++ concat xs ++ post <-> ascending cmp xs.
Proof.
  intros He HX HY HA H. split; [|done]. intros E%app_inv_head%app_inv_tail.
  apply (concat_inj es) in E; [by subst|done..].
Qed.
Lemma bubble_unchanged cmp es xs pre post : elements_of es xs -> 0 < es -> strict_weak_order cmp xs ->
  BubbleSort_sort cmp (pre ++ concat xs ++ post) (len pre) (len xs) es = Ok (pre ++ concat xs ++ post)
  <-> ascending cmp xs.
Proof.
  intros HE He HS. destruct (bubble_all cmp es xs HE) as (ys & E & HF & _ & HA). rewrite E.
  destruct (HA HS) as [HA' _].
  pose proof (unchanged_iff cmp es xs ys pre post He (proj1 (proj2 HE)) HF HA') as H.
  rewrite <- H; [split; [by intros [= ->]|by intros ->]|]. intros HX%ascending_neighbours.
  pose proof (bubble_sorted cmp es xs pre post HE HX) as E'. rewrite E in E'. congruence.
Qed.
Lemma selection_unchanged cmp es xs pre post : elements_of es xs -> 0 < es -> strict_weak_order cmp xs ->
  SelectionSort_sort cmp (pre ++ concat xs ++ post) (len pre) (len xs) es = Ok (pre ++ concat xs ++ post)
  <-> ascending cmp xs.
Proof.
  intros HE He HS. destruct (selection_all cmp es xs HE) as (ys & E & HF & _ & HA). rewrite E.
  specialize (HA HS).
  pose proof (unchanged_iff cmp es xs ys pre post He (proj1 (proj2 HE)) HF HA) as H.
  rewrite <- H; [split; [by intros [= ->]|by intros ->]|]. intros HX.
  pose proof (selection_sorted cmp es xs pre post HE HX) as E'. rewrite E in E'. congruence.
Qed.
(** heap sort rearranges equivalent elements even if they are in order *)
Lemma heap_sorted_refuted : exists cmp es xs post ys,
  elements_of es xs /\ strict_weak_order cmp xs /\ ascending cmp xs /\
  HeapSort_sort cmp (concat xs ++ post) 0 (len xs) es = Ok (concat ys ++ post) /\
  Forall (fun y => len y = es) ys /\ ys <> xs.
Proof.
  exists by_key, 2, [[1;0]; [1;1]; [1;2]], (repeat 0 8), [[1;1]; [1;2]; [1;0]].
  split; [repeat split; try done; by repeat constructor|]. split; [apply by_key_swo|].
  split; [|split; [by vm_compute|split; [by repeat constructor|done]]].
  intros i j x y Hij Hx Hy.
  do 3 (destruct i as [|i]; [injection Hx as <-; do 3 (destruct j as [|j]; [injection Hy as <-; done|]); done|]).
  done.
Qed.

(** ** Agreement *)

Lemma swo_mono {A} (gt : A -> A -> bool) xs ys : (forall x, x ∈ ys -> x ∈ xs) ->
  strict_weak_order gt xs -> strict_weak_order gt ys.
Proof. intros H [H1 H2]. split; [intros x y Hx Hy; apply H1; auto|intros x y z Hx Hy Hz; apply H2; auto]. Qed.
Lemma ascending_cons {A} (gt : A -> A -> bool) x xs : ascending gt (x :: xs) ->
  ascending gt xs /\ forall y, y ∈ xs -> gt x y = false.
Proof.
  intros H. split.
  - intros i j a b Hij Ha Hb. apply (H (S i) (S j)); [lia|done|done].
  - intros y [j Hy]%elem_of_list_lookup. apply (H 0%nat (S j)); [lia|done|done].
Qed.
Lemma stable_unique {A} (gt : A -> A -> bool) (ys zs : list A) :
  strict_weak_order gt ys -> Permutation ys zs -> ascending gt ys -> ascending gt zs ->
  (forall x, x ∈ ys -> filter (equivalent gt x) ys = filter (equivalent gt x) zs) -> ys = zs.
Proof.
  revert zs. induction ys as [|y ys IH]; intros zs HS HP HA HB HF.
  { apply Permutation_nil_l in HP. done. }
  destruct zs as [|z zs]; [by apply Permutation_nil_r in HP|].
  destruct (ascending_cons _ _ _ HA) as [HA1 HA2]. destruct (ascending_cons _ _ _ HB) as [HB1 HB2].
  assert (forall x, x ∈ y :: ys -> gt x x = false) as HI.
  { intros x Hx. destruct HS as [HS _]. destruct (gt x x) eqn:E; [|done].
    rewrite (HS x x Hx Hx E) in E. done. }
  assert (z ∈ y :: ys) as Hz by (rewrite HP; left).
  assert (y ∈ z :: zs) as Hy by (rewrite <- HP; left).
  assert (equivalent gt y z) as HYZ.
  { split.
    - apply elem_of_cons in Hz as [->|Hz]; [apply HI; left|by apply HA2].
    - apply elem_of_cons in Hy as [->|Hy]; [apply HI; by rewrite HP; left|by apply HB2]. }
  assert (y = z) as <-.
  { specialize (HF y ltac:(left)). rewrite filter_cons_True in HF by (split; apply HI; left).
    rewrite filter_cons_True in HF by done. by injection HF. }
  f_equal. apply IH; [|by eapply Permutation_cons_inv|done|done|].
  - eapply swo_mono; [|done]. intros x Hx. by right.
  - intros x Hx. specialize (HF x ltac:(by right)).
    destruct (decide (equivalent gt x y)) as [H|H].
    + rewrite !filter_cons_True in HF by done. by injection HF.
    + rewrite !filter_cons_False in HF by done. done.
Qed.
Lemma distinguished_unique {A} (gt : A -> A -> bool) (ys zs : list A) :
  strict_weak_order gt ys -> distinguishes gt ys -> Permutation ys zs ->
  ascending gt ys -> ascending gt zs -> ys = zs.
Proof.
  intros HS HD HP HA HB. apply (stable_unique gt); try done. intros x Hx.
  assert (forall l, (forall y, y ∈ l -> y ∈ ys) ->
    Permutation (filter (equivalent gt x) l) (filter (equivalent gt x) l) /\
    Forall (fun y => y = x) (filter (equivalent gt x) l)) as H.
  { intros l Hl. split; [done|]. apply list.Forall_forall. intros y Hy.
    apply elem_of_list_filter in Hy as [Hy1 Hy2]. symmetry. apply HD; auto. }
  assert (forall l, Forall (fun y => y = x) l -> l = replicate (length l) x) as HR.
  { induction 1 as [|a l -> _ IH]; [done|]. cbn. by rewrite <- IH. }
  rewrite (HR _ (proj2 (H ys ltac:(done)))).
  rewrite (HR (filter _ zs)).
  - f_equal. apply Permutation_length. by rewrite HP.
  - apply H. intros y Hy. by rewrite HP.
Qed.

Lemma stable_agree cmp es xs : elements_of es xs -> es <= 64 -> strict_weak_order cmp xs ->
  exists ys, Permutation ys xs /\ ascending cmp ys /\ (forall pre post,
      BubbleSort_sort cmp (pre ++ concat xs ++ post) (len pre) (len xs) es
      = Ok (pre ++ concat ys ++ post)) /\
    forall pre post static, len static = 64 -> es <= len pre \/ (forall i, ~ new_low cmp xs i) ->
      exists static', InsertionSort_sort cmp (pre ++ concat xs ++ post) static (len pre) (len xs) es
      = Ok (pre ++ concat ys ++ post, static').
Proof.
  intros HE H64 HS. destruct (bubble_all cmp es xs HE) as (ys & E1 & _ & P1 & A1).
  destruct (insertion_all cmp es xs HE H64) as (zs & E2 & _ & P2 & A2).
  destruct (A1 HS) as [A1' S1]. destruct (A2 HS) as [A2' S2].
  assert (ys = zs) as <-.
  { apply (stable_unique cmp).
    - eapply swo_mono; [|done]. intros x. by rewrite P1.
    - by rewrite P1, P2.
    - done.
    - done.
    - intros x Hx. rewrite P1 in Hx. by rewrite S1, S2. }
  exists ys. split; [done|]. split; [done|]. split; [done|]. intros pre post static HL HP.
  destruct (E2 pre post static HL HP) as (s' & _ & E). eauto.
Qed.
Lemma all_agree cmp es xs : elements_of es xs -> es <= 64 -> 2 * len xs < 2 ^ 31 ->
  2 * len xs * es < 2 ^ 31 -> strict_weak_order cmp xs -> distinguishes cmp xs ->
  exists ys, (forall pre post,
      BubbleSort_sort cmp (pre ++ concat xs ++ post) (len pre) (len xs) es
      = Ok (pre ++ concat ys ++ post) /\
      SelectionSort_sort cmp (pre ++ concat xs ++ post) (len pre) (len xs) es
      = Ok (pre ++ concat ys ++ post)) /\
    (forall pre post static, len static = 64 -> es <= len pre \/ (forall i, ~ new_low cmp xs i) ->
      exists static', InsertionSort_sort cmp (pre ++ concat xs ++ post) static (len pre) (len xs) es
      = Ok (pre ++ concat ys ++ post, static')) /\
    (forall pre post, (len xs + 1) * es <= len post ->
      HeapSort_sort cmp (pre ++ concat xs ++ post) (len pre) (len xs) es
      = Ok (pre ++ concat ys ++ post)).
Proof.
  intros HE H64 H1 H2 HS HD. destruct (stable_agree cmp es xs HE H64 HS) as (ys & P1 & A1 & E1 & EI).
  destruct (selection_all cmp es xs HE) as (zs & E2 & _ & P2 & A2).
  destruct (heap_all cmp es xs HE H1 H2) as (ws & E3 & _ & P3 & A3).
  assert (strict_weak_order cmp ys /\ distinguishes cmp ys) as [HS' HD'].
  { split.
    - eapply swo_mono; [|done]. intros x. by rewrite P1.
    - intros x y. rewrite P1. apply HD. }
  assert (ys = zs) as <- by (apply (distinguished_unique cmp); try done; [by rewrite P1, P2|by apply A2]).
  assert (ys = ws) as <- by (apply (distinguished_unique cmp); try done; [by rewrite P1, P3|by apply A3]).
  exists ys. split; [|split]; done.
Qed.
