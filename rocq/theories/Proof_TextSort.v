(** * The C text of the sorts sorts *)
From Verif Require Import CSem Lib CLang C_Sort Model_Sort Model_SortState Spec_Sort Drive_SortText
  Proof_SortAll Proof_SortProps Proof_SortErase Refine Refine_Cipher Refine_Sort Refine_SortAgree Refine_SortInsert
  Refine_SortHeapify Refine_SortHeap.

Lemma agree_ok {A} (o : outcome A) a : agree o (Ok a) -> o = Ok a.
Proof. by destruct o; cbn; [intros ->|..]. Qed.
Lemma agree_ub {A} (o : outcome A) k : agree o (UB k) -> exists k', o = UB k'.
Proof. destruct o; cbn; [done|eauto|done]. Qed.

Local Notation bytes_at b p := (VPtr (TInt U8) (BObj b) p).
Section sorts.
  Context {T : Type} (f : T -> list Z -> list Z -> T) (cmp : list Z -> list Z -> bool).
  Context (sc : bool) (fuel : nat) (es : Z) (xs : list (list Z)).
  Local Notation answering := (byte_cmp (fun t x y => (f t x y, cmp x y)) es).
  Hypothesis (Hes : elements_of es xs) (He : es < 2 ^ 31).
  Hypothesis (Hf : len xs + 1 < Z.of_nat fuel) (Hfe : es < Z.of_nat fuel).
  Implicit Types (m : mem) (t : T) (b : nat) (pre post : list Z) (g : Z).

  Lemma es_s32 : is_s32 es.
  Proof. destruct Hes as (H1 & _). unfold is_s32. lia. Qed.
  Lemma n_s32 : is_s32 (len xs).
  Proof. destruct Hes as (_ & _ & H3 & _). unfold is_s32, len. lia. Qed.
  Lemma fuel_n : (S (Z.to_nat (len xs)) < fuel)%nat.
  Proof. unfold len in *. lia. Qed.
  Lemma fuel_es : (Z.to_nat (u32 es) < fuel)%nat.
  Proof. destruct Hes as (H1 & _). rewrite u32_small by lia. lia. Qed.
  Local Hint Resolve es_s32 n_s32 fuel_n fuel_es : core.
  Lemma inside pre post : 0 <= len pre <= len (pre ++ concat xs ++ post).
  Proof. unfold len. rewrite app_length. lia. Qed.

  (** the model with a state and without end alike *)
  Lemma erase_ok {A} (o : outcome (T * A)) a :
    (let! '(_, x) := o in Ok x) = Ok a -> exists t, o = Ok (t, a).
  Proof. destruct o as [[t x]| |]; cbn; [intros [= ->]; eauto|done..]. Qed.
  Lemma erase_ub {A} (o : outcome (T * A)) k : (let! '(_, x) := o in Ok x) = UB k -> o = UB k.
  Proof. destruct o as [[t x]| |]; cbn; [done|intros [= ->]; eauto|done..]. Qed.

  Lemma text_bubble : exists ys, Permutation ys xs /\
    (strict_weak_order cmp xs -> ascending cmp ys /\ stable cmp xs ys) /\
    forall m t b pre post g, m !! b = Some (ints 8 (pre ++ concat xs ++ post)) ->
    exists t', call sc answering fuel c_BubbleSort_sort
                 [bytes_at b (len pre); VInt I32 (len xs); VInt I32 es; VFun g] m t
      = Ok (VUndef, <[b := ints 8 (pre ++ concat ys ++ post)]> m, t').
  Proof.
    destruct (bubble_all cmp es xs Hes) as (ys & HR & _ & HP & HS). exists ys. split; [done|]. split; [done|].
    intros m t b pre post g Hm. specialize (HR pre post). rewrite <- (bubble_erase f cmp t) in HR.
    apply erase_ok in HR as (t' & HR). exists t'.
    pose proof (ref_BubbleSort_sort (fun t x y => (f t x y, cmp x y)) sc fuel es m t b _ (len pre) (len xs) g Hm
      ltac:(auto) ltac:(auto) ltac:(auto) ltac:(auto)) as HA.
    rewrite HR in HA. by apply agree_ok in HA.
  Qed.

  Lemma text_selection : exists ys, Permutation ys xs /\
    (strict_weak_order cmp xs -> ascending cmp ys) /\
    forall m t b pre post g, m !! b = Some (ints 8 (pre ++ concat xs ++ post)) ->
    exists t', call sc answering fuel c_SelectionSort_sort
                 [bytes_at b (len pre); VInt I32 (len xs); VInt I32 es; VFun g] m t
      = Ok (VUndef, <[b := ints 8 (pre ++ concat ys ++ post)]> m, t').
  Proof.
    destruct (selection_all cmp es xs Hes) as (ys & HR & _ & HP & HS). exists ys. split; [done|]. split; [done|].
    intros m t b pre post g Hm. specialize (HR pre post). rewrite <- (selection_erase f cmp t) in HR.
    apply erase_ok in HR as (t' & HR). exists t'.
    pose proof (ref_SelectionSort_sort (fun t x y => (f t x y, cmp x y)) sc fuel es m t b _ (len pre) (len xs) g Hm
      (inside pre post) ltac:(auto) ltac:(auto) ltac:(pose proof fuel_n; lia) ltac:(auto)) as HA.
    rewrite HR in HA. by apply agree_ok in HA.
  Qed.

  Lemma text_heap : 2 * len xs < 2 ^ 31 -> 2 * len xs * es < 2 ^ 31 ->
    exists ys, Permutation ys xs /\
    (strict_weak_order cmp xs -> ascending cmp ys) /\
    forall m t b pre post g, m !! b = Some (ints 8 (pre ++ concat xs ++ post)) ->
    (len xs + 1) * es <= len post ->
    exists t', call sc answering fuel c_HeapSort_sort
                 [bytes_at b (len pre); VInt I32 (len xs); VInt I32 es; VFun g] m t
      = Ok (VUndef, <[b := ints 8 (pre ++ concat ys ++ post)]> m, t').
  Proof.
    intros H1 H2. destruct (heap_all cmp es xs Hes H1 H2) as (ys & HR & _ & HP & HS). exists ys. split; [done|]. split; [done|].
    intros m t b pre post g Hm Hp. specialize (HR pre post Hp). rewrite <- (heap_erase f cmp t) in HR.
    apply erase_ok in HR as (t' & HR). exists t'.
    pose proof (ref_HeapSort_sort (fun t x y => (f t x y, cmp x y)) sc fuel es m t b _ (len pre) (len xs) g Hm
      (inside pre post) ltac:(auto) ltac:(auto) ltac:(auto) ltac:(auto)) as HA.
    rewrite HR in HA. by apply agree_ok in HA.
  Qed.
  Lemma text_heap_outside m t b pre post g : m !! b = Some (ints 8 (pre ++ concat xs ++ post)) ->
    0 < es -> (len xs + 1) * es < 2 ^ 31 -> len post < es ->
    len xs = 1 \/ (0 < len xs /\ Z.even (len xs) = true) ->
    exists k, call sc answering fuel c_HeapSort_sort
                [bytes_at b (len pre); VInt I32 (len xs); VInt I32 es; VFun g] m t = UB k.
  Proof.
    intros Hm H1 H2 H3 H4. pose proof (heap_reads_beyond cmp es xs pre post Hes H1 H2 H3 H4) as HR.
    rewrite <- (heap_erase f cmp t) in HR. apply erase_ub in HR.
    pose proof (ref_HeapSort_sort (fun t x y => (f t x y, cmp x y)) sc fuel es m t b _ (len pre) (len xs) g Hm
      (inside pre post) ltac:(auto) ltac:(auto) ltac:(auto) ltac:(auto)) as HA.
    rewrite HR in HA. by apply agree_ub in HA.
  Qed.

  (** the local static array of 64 bytes is object [b'] *)
  Lemma text_insertion : es <= 64 -> exists ys, Permutation ys xs /\
    (strict_weak_order cmp xs -> ascending cmp ys /\ stable cmp xs ys) /\
    forall m t b b' static pre post g, m !! b = Some (ints 8 (pre ++ concat xs ++ post)) ->
    m !! b' = Some (ints 8 static) -> len static = 64 -> b <> b' ->
    es <= len pre \/ (forall i, ~ new_low cmp xs i) ->
    exists t' static', len static' = 64 /\
      call sc answering fuel c_InsertionSort_sort
        [bytes_at b' 0; bytes_at b (len pre); VInt I32 (len xs); VInt I32 es; VFun g] m t
      = Ok (VUndef, <[b' := ints 8 static']> (<[b := ints 8 (pre ++ concat ys ++ post)]> m), t').
  Proof.
    intros H64. destruct (insertion_all cmp es xs Hes H64) as (ys & HR & _ & HP & HS). exists ys. split; [done|]. split; [done|].
    intros m t b b' static pre post g Hm Hm' Hst Hne Hin.
    destruct (HR pre post static Hst Hin) as (static' & Hl & HE). rewrite <- (insertion_erase f cmp t) in HE.
    destruct (InsertionSort_state _ t _ static _ _ _) as [[[t' o'] s']| |] eqn:Ei; cbn [bind] in HE; [|done..].
    injection HE as -> ->. exists t', static'. split; [done|].
    pose proof (ref_InsertionSort_sort (fun t x y => (f t x y, cmp x y)) sc fuel es m t b _ b' static (len pre) (len xs) g Hm Hm'
      Hne ltac:(auto) ltac:(auto) ltac:(pose proof fuel_n; lia)) as HA.
    rewrite Ei in HA. by apply agree_ok in HA.
  Qed.
  Lemma text_insertion_outside m t b b' static pre post g : es <= 64 ->
    m !! b = Some (ints 8 (pre ++ concat xs ++ post)) ->
    m !! b' = Some (ints 8 static) -> len static = 64 -> b <> b' -> len pre < es ->
    (exists i, new_low cmp xs i) ->
    exists k, call sc answering fuel c_InsertionSort_sort
        [bytes_at b' 0; bytes_at b (len pre); VInt I32 (len xs); VInt I32 es; VFun g] m t = UB k.
  Proof.
    intros H64 Hm Hm' Hst Hne Hlow Hin.
    pose proof (insertion_low_ub cmp es xs pre post static Hes H64 Hst Hlow Hin) as HE. rewrite <- (insertion_erase f cmp t) in HE.
    destruct (InsertionSort_state _ t _ static _ _ _) as [[[t' o'] s']|k|] eqn:Ei; cbn [bind] in HE; [done| |done].
    pose proof (ref_InsertionSort_sort (fun t x y => (f t x y, cmp x y)) sc fuel es m t b _ b' static (len pre) (len xs) g Hm Hm'
      Hne ltac:(auto) ltac:(auto) ltac:(pose proof fuel_n; lia)) as HA.
    rewrite Ei in HA. by apply agree_ub in HA.
  Qed.
End sorts.
