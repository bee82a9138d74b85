(** * The sorting theorems in the form of the properties *)
From Verif Require Import CSem Lib Model_Utils Model_Sort Spec_Sort Proof_Utils Proof_Queue Proof_Sort
  Proof_SortInsert Proof_SortHeap Proof_SortEnd.
From stdpp Require Import relations.
Open Scope Z_scope.

Lemma swo_by {A} (f : A -> Z) xs : strict_weak_order (fun x y => f y <? f x) xs.
Proof. split; intros; lia. Qed.

Lemma low_new_low cmp xs i : (0 < i < length xs)%nat ->
  low cmp xs (Z.of_nat i) <-> new_low cmp xs i.
Proof.
  intros Hi.
  assert (forall p, (p < length xs)%nat -> xs !! p = Some (get xs (Z.of_nat p))) as HG.
  { intros p Hp. destruct (lookup_lt_is_Some_2 xs p Hp) as [x E].
    rewrite E. f_equal. unfold get. rewrite Nat2Z.id.
    symmetry. by apply list_lookup_total_correct. }
  split.
  - intros HL. split; [lia|]. exists (get xs (Z.of_nat i)). split; [apply HG; lia|].
    intros y Hy. apply elem_of_list_lookup in Hy as [p Hp].
    apply lookup_take_Some in Hp as [Hp Hlt].
    pose proof (HG p ltac:(lia)) as E. rewrite Hp in E. injection E as ->.
    apply HL. lia.
  - intros [_ [x [E HL]]] p Hp.
    pose proof (HG i ltac:(lia)) as E'. rewrite E in E'. injection E' as ->.
    apply HL. apply elem_of_list_lookup. exists (Z.to_nat p).
    rewrite lookup_take by lia. rewrite HG by lia. by rewrite Z2Nat.id by lia.
Qed.

Lemma no_low cmp xs : (forall i, ~ new_low cmp xs i) ->
  forall i, 1 <= i < len xs -> ~ low cmp xs i.
Proof.
  intros H i Hi HL. apply (H (Z.to_nat i)). unfold len in Hi. apply low_new_low; [lia|].
  by rewrite Z2Nat.id by lia.
Qed.
Lemma some_low cmp xs : (exists i, new_low cmp xs i) ->
  exists i, 1 <= i < len xs /\ low cmp xs i.
Proof.
  intros [i H]. exists (Z.of_nat i).
  assert (0 < i < length xs)%nat.
  { destruct H as [? [x [E _]]]. apply lookup_lt_Some in E. lia. }
  unfold len. split; [lia|]. by apply low_new_low.
Qed.

Lemma bubble_all cmp es xs : elements_of es xs ->
  exists ys, (forall pre post,
      BubbleSort_sort cmp (pre ++ concat xs ++ post) (len pre) (len xs) es
      = Ok (pre ++ concat ys ++ post)) /\
    Forall (fun x => len x = es) ys /\
    Permutation ys xs /\ (strict_weak_order cmp xs -> ascending cmp ys /\ stable cmp xs ys).
Proof.
  intros [H0 [HF [H1 H2]]]. eexists. split; [|split; [|split]].
  - intros pre post. by apply (bubble_ok cmp pre post es H0 xs HF H1 H2).
  - by apply (bubble_ok cmp [] [] es H0 xs HF H1 H2).
  - eapply steps_perm. by apply (bubble_ok cmp [] [] es H0 xs HF H1 H2).
  - intros HS. destruct (bubble_ok cmp [] [] es H0 xs HF H1 H2) as [_ [_ [HR HA]]].
    split; [by apply HA|]. by apply steps_stable.
Qed.

Lemma selection_all cmp es xs : elements_of es xs ->
  exists ys, (forall pre post,
      SelectionSort_sort cmp (pre ++ concat xs ++ post) (len pre) (len xs) es
      = Ok (pre ++ concat ys ++ post)) /\
    Forall (fun x => len x = es) ys /\
    Permutation ys xs /\ (strict_weak_order cmp xs -> ascending cmp ys).
Proof.
  intros [H0 [HF [H1 H2]]]. eexists. split; [|split; [|split]].
  - intros pre post. by apply (selection_ok cmp pre post es H0 xs HF H1 H2).
  - by apply (selection_ok cmp [] [] es H0 xs HF H1 H2).
  - by apply (selection_ok cmp [] [] es H0 xs HF H1 H2).
  - by apply (selection_ok cmp [] [] es H0 xs HF H1 H2).
Qed.

Lemma insertion_all cmp es xs : elements_of es xs -> es <= 64 ->
  exists ys, (forall pre post static, len static = 64 ->
      es <= len pre \/ (forall i, ~ new_low cmp xs i) ->
      exists static', len static' = 64 /\
      InsertionSort_sort cmp (pre ++ concat xs ++ post) static (len pre) (len xs) es
      = Ok (pre ++ concat ys ++ post, static')) /\
    Forall (fun x => len x = es) ys /\
    Permutation ys xs /\ (strict_weak_order cmp xs -> ascending cmp ys /\ stable cmp xs ys).
Proof.
  intros [H0 [HF [H1 H2]]] H64.
  assert (forall pre post static, len static = 64 ->
      es <= len pre \/ (forall i, ~ new_low cmp xs i) ->
      let ys := pfor 1 (len xs) (ins_step cmp) xs in
      exists el',
      InsertionSort_sort cmp (pre ++ concat xs ++ post) static (len pre) (len xs) es
        = Ok (pre ++ concat ys ++ post, el') /\ len el' = 64 /\
      Forall (fun x => len x = es) ys /\ rtc (step cmp) xs ys /\
      (strict_weak_order cmp xs -> ascending cmp ys)) as H.
  { intros pre post st Hs Hl. apply insertion_ok; try done.
    destruct Hl as [Hl|Hl]; [by left|right]. by apply no_low. }
  assert (exists el' : list Z, len el' = 64) as [el Hel].
  { exists (repeat 0 64). done. }
  assert (es <= len (repeat 0 64)) as Hp by (change (len (repeat 0 64)) with 64; lia).
  destruct (H (repeat 0 64) [] el Hel (or_introl Hp)) as [el' [_ [_ [HW [HR HA]]]]].
  eexists. split; [|split; [exact HW|split]].
  - intros pre post st Hs Hl. destruct (H pre post st Hs Hl) as [e [E [Le _]]].
    exists e. by split.
  - by eapply steps_perm.
  - intros HS. split; [by apply HA|]. by apply steps_stable.
Qed.

Lemma insertion_low_ub cmp es xs pre post static : elements_of es xs -> es <= 64 ->
  len static = 64 -> len pre < es -> (exists i, new_low cmp xs i) ->
  InsertionSort_sort cmp (pre ++ concat xs ++ post) static (len pre) (len xs) es = UB OutOfBounds.
Proof.
  intros [H0 [HF [H1 H2]]] H64 Hs Hp HL. apply insertion_ub; try done. by apply some_low.
Qed.

Lemma heap_all cmp es xs : elements_of es xs -> 2 * len xs < 2 ^ 31 -> 2 * len xs * es < 2 ^ 31 ->
  exists ys, (forall pre post, (len xs + 1) * es <= len post ->
      HeapSort_sort cmp (pre ++ concat xs ++ post) (len pre) (len xs) es
      = Ok (pre ++ concat ys ++ post)) /\
    Forall (fun x => len x = es) ys /\
    Permutation ys xs /\ (strict_weak_order cmp xs -> ascending cmp ys).
Proof.
  intros [H0 [HF _]] H1 H2.
  pose proof (len_nonneg xs) as HN.
  assert (forall post : list Z, (len xs + 1) * es <= len post -> forall pre,
     let ys := heap cmp xs in
     HeapSort_sort cmp (pre ++ concat xs ++ post) (len pre) (len xs) es
       = Ok (pre ++ concat ys ++ post) /\ Forall (fun x => len x = es) ys /\
     Permutation ys xs /\ (strict_weak_order cmp xs -> ascending cmp ys)) as H.
  { intros post Hp pre. by apply (heap_ok cmp pre post es H0 (len xs)). }
  assert (exists post : list Z, (len xs + 1) * es <= len post) as [post Hp].
  { exists (replicate (Z.to_nat ((len xs + 1) * es)) 0). unfold len at 2.
    rewrite replicate_length. lia. }
  eexists. split; [|split; [|split]].
  - intros pre post' Hp'. by apply (H post' Hp' pre).
  - by apply (H post Hp []).
  - by apply (H post Hp []).
  - by apply (H post Hp []).
Qed.

Lemma heap_reads_beyond cmp es xs pre post : elements_of es xs -> 0 < es ->
  (len xs + 1) * es < 2 ^ 31 -> len post < es ->
  len xs = 1 \/ (0 < len xs /\ Z.even (len xs) = true) ->
  HeapSort_sort cmp (pre ++ concat xs ++ post) (len pre) (len xs) es = UB OutOfBounds.
Proof. intros [_ [HF _]] ????. by apply heap_ub. Qed.

(** elements of two bytes, a key and a tag *)
Definition by_key (x y : list Z) : bool := nth 0 y 0 <? nth 0 x 0.
Lemma by_key_swo xs : strict_weak_order by_key xs.
Proof. apply swo_by. Qed.

Lemma selection_stable_refuted : exists cmp es xs ys,
  elements_of es xs /\ strict_weak_order cmp xs /\
  SelectionSort_sort cmp (concat xs) 0 (len xs) es = Ok (concat ys) /\
  Forall (fun x => len x = es) ys /\ ~ stable cmp xs ys.
Proof.
  exists by_key, 2, [[2;0]; [2;1]; [1;0]], [[1;0]; [2;1]; [2;0]].
  split; [|split; [|split; [|split]]].
  - repeat split; try done. by repeat constructor.
  - apply by_key_swo.
  - by vm_compute.
  - by repeat constructor.
  - intros H. specialize (H [2;0] ltac:(constructor)). by vm_compute in H.
Qed.
Lemma heap_stable_refuted : exists cmp es xs ys post,
  elements_of es xs /\ strict_weak_order cmp xs /\
  HeapSort_sort cmp (concat xs ++ post) 0 (len xs) es = Ok (concat ys ++ post) /\
  Forall (fun x => len x = es) ys /\ ~ stable cmp xs ys.
Proof.
  exists by_key, 2, [[2;0]; [2;1]], [[2;1]; [2;0]], [0;0;0;0;0;0].
  split; [|split; [|split; [|split]]].
  - repeat split; try done. by repeat constructor.
  - apply by_key_swo.
  - by vm_compute.
  - by repeat constructor.
  - intros H. specialize (H [2;0] ltac:(constructor)). by vm_compute in H.
Qed.

Lemma insertion_stays_inside_refuted : exists cmp es xs static,
  elements_of es xs /\ es <= 64 /\ strict_weak_order cmp xs /\ len static = 64 /\
  InsertionSort_sort cmp (concat xs) static 0 (len xs) es = UB OutOfBounds.
Proof.
  exists greater, 1, [[2]; [1]], (repeat 0 64).
  split; [|split; [|split; [|split]]]; try done.
  - repeat split; try done. by repeat constructor.
  - apply swo_by.
Qed.
Lemma heap_stays_inside_refuted : exists cmp es xs,
  elements_of es xs /\ strict_weak_order cmp xs /\
  HeapSort_sort cmp (concat xs) 0 (len xs) es = UB OutOfBounds.
Proof.
  exists greater, 1, [[2]; [1]; [3]; [4]].
  split; [|split]; try done.
  - repeat split; try done. by repeat constructor.
  - apply swo_by.
Qed.

Lemma frame_of (pre post xs ys : list Z) : length ys = length xs ->
  len (pre ++ ys ++ post) = len (pre ++ xs ++ post) /\
  forall i, (i < length pre \/ length pre + length xs <= i)%nat ->
    (pre ++ ys ++ post) !! i = (pre ++ xs ++ post) !! i.
Proof.
  intros H. split; [unfold len; rewrite !app_length; lia|]. intros i [Hi|Hi].
  - by rewrite !lookup_app_l by lia.
  - rewrite !(lookup_app_r pre), !(lookup_app_r _ post) by lia. by rewrite H.
Qed.
Lemma perm_concat_length (xs ys : list (list Z)) : Permutation ys xs ->
  length (concat ys) = length (concat xs).
Proof.
  induction 1 as [|x l l' _ IH|x y l|l l' l'' _ IH _ IH']; simpl; rewrite ?app_length; lia.
Qed.

Lemma bubble_frame cmp es xs pre post : elements_of es xs ->
  exists m, BubbleSort_sort cmp (pre ++ concat xs ++ post) (len pre) (len xs) es = Ok m /\
    len m = len (pre ++ concat xs ++ post) /\
    forall i, (i < length pre \/ length pre + length (concat xs) <= i)%nat ->
      m !! i = (pre ++ concat xs ++ post) !! i.
Proof.
  intros H. destruct (bubble_all cmp es xs H) as [ys [E [_ [HP _]]]].
  eexists. split; [apply E|]. by apply frame_of, perm_concat_length.
Qed.
Lemma selection_frame cmp es xs pre post : elements_of es xs ->
  exists m, SelectionSort_sort cmp (pre ++ concat xs ++ post) (len pre) (len xs) es = Ok m /\
    len m = len (pre ++ concat xs ++ post) /\
    forall i, (i < length pre \/ length pre + length (concat xs) <= i)%nat ->
      m !! i = (pre ++ concat xs ++ post) !! i.
Proof.
  intros H. destruct (selection_all cmp es xs H) as [ys [E [_ [HP _]]]].
  eexists. split; [apply E|]. by apply frame_of, perm_concat_length.
Qed.
Lemma heap_frame cmp es xs pre post : elements_of es xs ->
  2 * len xs < 2 ^ 31 -> 2 * len xs * es < 2 ^ 31 -> (len xs + 1) * es <= len post ->
  exists m, HeapSort_sort cmp (pre ++ concat xs ++ post) (len pre) (len xs) es = Ok m /\
    len m = len (pre ++ concat xs ++ post) /\
    forall i, (i < length pre \/ length pre + length (concat xs) <= i)%nat ->
      m !! i = (pre ++ concat xs ++ post) !! i.
Proof.
  intros H H1 H2 Hp. destruct (heap_all cmp es xs H H1 H2) as [ys [E [_ [HP _]]]].
  eexists. split; [by apply E|]. by apply frame_of, perm_concat_length.
Qed.
Lemma insertion_frame cmp es xs pre post static : elements_of es xs -> es <= 64 ->
  len static = 64 -> es <= len pre \/ (forall i, ~ new_low cmp xs i) ->
  exists m static',
    InsertionSort_sort cmp (pre ++ concat xs ++ post) static (len pre) (len xs) es
    = Ok (m, static') /\
    len m = len (pre ++ concat xs ++ post) /\
    forall i, (i < length pre \/ length pre + length (concat xs) <= i)%nat ->
      m !! i = (pre ++ concat xs ++ post) !! i.
Proof.
  intros H H1 Hs HL. destruct (insertion_all cmp es xs H H1) as [ys [E [_ [HP _]]]].
  destruct (E pre post static Hs HL) as [st [_ E']]. eexists _, st. split; [exact E'|].
  by apply frame_of, perm_concat_length.
Qed.
