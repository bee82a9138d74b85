(** * The parts of the sorting theorems, one lemma for each property *)
From Verif Require Import CSem Lib Model_Sort Spec_Sort Proof_SortAll.
Open Scope Z_scope.

Lemma bubble_c32 : forall cmp es xs,
  elements_of es xs ->
  exists ys, (forall pre post,
      BubbleSort_sort cmp (pre ++ concat xs ++ post) (len pre) (len xs) es
      = Ok (pre ++ concat ys ++ post)) /\
    Forall (fun y => len y = es) ys /\ Permutation ys xs.
Proof. intros cmp es xs H. destruct (bubble_all cmp es xs H) as [ys ?]. exists ys. tauto. Qed.
Lemma selection_c32 : forall cmp es xs,
  elements_of es xs ->
  exists ys, (forall pre post,
      SelectionSort_sort cmp (pre ++ concat xs ++ post) (len pre) (len xs) es
      = Ok (pre ++ concat ys ++ post)) /\
    Forall (fun y => len y = es) ys /\ Permutation ys xs.
Proof. intros cmp es xs H. destruct (selection_all cmp es xs H) as [ys ?]. exists ys. tauto. Qed.
Lemma insertion_c32 : forall cmp es xs,
  elements_of es xs -> es <= 64 ->
  exists ys, (forall pre post static, len static = 64 ->
      es <= len pre \/ (forall i, ~ new_low cmp xs i) ->
      exists static', len static' = 64 /\
      InsertionSort_sort cmp (pre ++ concat xs ++ post) static (len pre) (len xs) es
      = Ok (pre ++ concat ys ++ post, static')) /\
    Forall (fun y => len y = es) ys /\ Permutation ys xs.
Proof. intros cmp es xs H H0. destruct (insertion_all cmp es xs H H0) as [ys ?]. exists ys. tauto. Qed.
Lemma heap_c32 : forall cmp es xs,
  elements_of es xs -> 2 * len xs < 2 ^ 31 -> 2 * len xs * es < 2 ^ 31 ->
  exists ys, (forall pre post, (len xs + 1) * es <= len post ->
      HeapSort_sort cmp (pre ++ concat xs ++ post) (len pre) (len xs) es
      = Ok (pre ++ concat ys ++ post)) /\
    Forall (fun y => len y = es) ys /\ Permutation ys xs.
Proof. intros cmp es xs H H0 H1. destruct (heap_all cmp es xs H H0 H1) as [ys ?]. exists ys. tauto. Qed.
Lemma bubble_c33 : forall cmp es xs,
  elements_of es xs -> strict_weak_order cmp xs ->
  exists ys, (forall pre post,
      BubbleSort_sort cmp (pre ++ concat xs ++ post) (len pre) (len xs) es
      = Ok (pre ++ concat ys ++ post)) /\
    Permutation ys xs /\ ascending cmp ys.
Proof. intros cmp es xs H HS. destruct (bubble_all cmp es xs H) as [ys [? [_ [? HA]]]]. specialize (HA HS). exists ys. tauto. Qed.
Lemma selection_c33 : forall cmp es xs,
  elements_of es xs -> strict_weak_order cmp xs ->
  exists ys, (forall pre post,
      SelectionSort_sort cmp (pre ++ concat xs ++ post) (len pre) (len xs) es
      = Ok (pre ++ concat ys ++ post)) /\
    Permutation ys xs /\ ascending cmp ys.
Proof. intros cmp es xs H HS. destruct (selection_all cmp es xs H) as [ys [? [_ [? HA]]]]. specialize (HA HS). exists ys. tauto. Qed.
Lemma insertion_c33 : forall cmp es xs,
  elements_of es xs -> es <= 64 -> strict_weak_order cmp xs ->
  exists ys, (forall pre post static, len static = 64 ->
      es <= len pre \/ (forall i, ~ new_low cmp xs i) ->
      exists static', len static' = 64 /\
      InsertionSort_sort cmp (pre ++ concat xs ++ post) static (len pre) (len xs) es
      = Ok (pre ++ concat ys ++ post, static')) /\
    Permutation ys xs /\ ascending cmp ys.
Proof. intros cmp es xs H H0 HS. destruct (insertion_all cmp es xs H H0) as [ys [? [_ [? HA]]]]. specialize (HA HS). exists ys. tauto. Qed.
Lemma heap_c33 : forall cmp es xs,
  elements_of es xs -> 2 * len xs < 2 ^ 31 -> 2 * len xs * es < 2 ^ 31 -> strict_weak_order cmp xs ->
  exists ys, (forall pre post, (len xs + 1) * es <= len post ->
      HeapSort_sort cmp (pre ++ concat xs ++ post) (len pre) (len xs) es
      = Ok (pre ++ concat ys ++ post)) /\
    Permutation ys xs /\ ascending cmp ys.
Proof. intros cmp es xs H H0 H1 HS. destruct (heap_all cmp es xs H H0 H1) as [ys [? [_ [? HA]]]]. specialize (HA HS). exists ys. tauto. Qed.
Lemma bubble_c34 : forall cmp es xs,
  elements_of es xs -> strict_weak_order cmp xs ->
  exists ys, (forall pre post,
      BubbleSort_sort cmp (pre ++ concat xs ++ post) (len pre) (len xs) es
      = Ok (pre ++ concat ys ++ post)) /\
    stable cmp xs ys.
Proof. intros cmp es xs H HS. destruct (bubble_all cmp es xs H) as [ys [? [_ [? HA]]]]. specialize (HA HS). exists ys. tauto. Qed.
Lemma insertion_c34 : forall cmp es xs,
  elements_of es xs -> es <= 64 -> strict_weak_order cmp xs ->
  exists ys, (forall pre post static, len static = 64 ->
      es <= len pre \/ (forall i, ~ new_low cmp xs i) ->
      exists static', len static' = 64 /\
      InsertionSort_sort cmp (pre ++ concat xs ++ post) static (len pre) (len xs) es
      = Ok (pre ++ concat ys ++ post, static')) /\
    stable cmp xs ys.
Proof. intros cmp es xs H H0 HS. destruct (insertion_all cmp es xs H H0) as [ys [? [_ [? HA]]]]. specialize (HA HS). exists ys. tauto. Qed.
Lemma bubble_c36 : forall cmp es xs, elements_of es xs ->
  exists ys, BubbleSort_sort cmp (concat xs) 0 (len xs) es = Ok (concat ys).
Proof. intros cmp es xs H. destruct (bubble_all cmp es xs H) as [ys [HR _]]. exists ys. specialize (HR [] []). by rewrite !app_nil_r in HR. Qed.
Lemma selection_c36 : forall cmp es xs, elements_of es xs ->
  exists ys, SelectionSort_sort cmp (concat xs) 0 (len xs) es = Ok (concat ys).
Proof. intros cmp es xs H. destruct (selection_all cmp es xs H) as [ys [HR _]]. exists ys. specialize (HR [] []). by rewrite !app_nil_r in HR. Qed.
Lemma insertion_inside_c36 : forall cmp es xs static post,
  elements_of es xs -> es <= 64 -> len static = 64 -> (forall i, ~ new_low cmp xs i) ->
  exists ys static', InsertionSort_sort cmp (concat xs ++ post) static 0 (len xs) es
    = Ok (concat ys ++ post, static').
Proof. intros cmp es xs static post H H0 Hs HL. destruct (insertion_all cmp es xs H H0) as [ys [HR _]].
  destruct (HR [] post static Hs (or_intror HL)) as [static' [_ E]]. by exists ys, static'. Qed.
