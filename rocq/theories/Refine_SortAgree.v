(** * The hand-written model of sort/*.c and its C text end alike *)
From Verif Require Import CSem Lib CLang C_Utils C_Sort Model_Utils Model_Sort Model_SortState
  Drive_SortText Proof_SortEnd Proof_Term Refine Refine_Utils Refine_Cipher Refine_Sort
  Refine_SortInsert Refine_SortHeapify Refine_SortHeap.

(** ** Two computations that end alike *)

Lemma agree_refl {A} (o : outcome A) : agree o o.
Proof. by destruct o. Qed.
Lemma agree_bind {A B} (o o' : outcome A) (k k' : A -> outcome B) :
  agree o o' -> (forall a, o' = Ok a -> agree (k a) (k' a)) -> agree (bind o k) (bind o' k').
Proof. destruct o, o'; cbn; try done. intros ->. auto. Qed.
Lemma agree_same {A B} (o : outcome A) (k k' : A -> outcome B) :
  (forall a, o = Ok a -> agree (k a) (k' a)) -> agree (bind o k) (bind o k').
Proof. apply agree_bind, agree_refl. Qed.
Lemma agree_for {S} (I : S -> Prop) a b f g (s : S) : I s ->
  (forall i s, a <= i < b -> I s -> agree (f i s) (g i s)) ->
  (forall i s s', a <= i < b -> I s -> g i s = Ok s' -> I s') ->
  agree (cfor a b f s) (cfor a b g s).
Proof.
  unfold cfor. remember (Z.to_nat (b - a)) as n eqn:En. revert a s En.
  induction n as [|n IH]; intros a s En HI H H'; cbn; [done|].
  apply agree_bind; [apply H; [lia|done]|]. intros s' E. apply IH.
  - lia.
  - eapply H'; [|done|done]. lia.
  - intros. apply H; [lia|done].
  - intros. eapply H'; [|done|done]. lia.
Qed.
Lemma agree_ford {S} (I : S -> Prop) a b f g (s : S) : I s ->
  (forall i s, b <= i <= a -> I s -> agree (f i s) (g i s)) ->
  (forall i s s', b <= i <= a -> I s -> g i s = Ok s' -> I s') ->
  agree (cford a b f s) (cford a b g s).
Proof.
  unfold cford. remember (Z.to_nat (a + 1 - b)) as n eqn:En. revert a s En.
  induction n as [|n IH]; intros a s En HI H H'; cbn; [done|].
  apply agree_bind; [apply H; [lia|done]|]. intros s' E. apply IH.
  - lia.
  - eapply H'; [|done|done]. lia.
  - intros. apply H; [lia|done].
  - intros. eapply H'; [|done|done]. lia.
Qed.
Lemma agree_while {S} (I : S -> Prop) n cond f g (s : S) : I s ->
  (forall s, I s -> cond s = true -> agree (f s) (g s)) ->
  (forall s s', I s -> cond s = true -> g s = Ok (Next s') -> I s') ->
  agree (cwhile n cond f s) (cwhile n cond g s).
Proof.
  intros HI H H'. revert s HI. induction n as [|n IH]; intros s HI; cbn; [done|].
  destruct (cond s) eqn:Ec; [|done]. apply agree_bind; [by apply H|].
  intros [s'|s'] E; [|apply agree_refl]. apply IH. by eapply H'.
Qed.

Definition is_ub {A} (o : outcome A) : Prop := exists k, o = UB k.
Lemma bind_ub {A B} (o : outcome A) (k : A -> outcome B) : is_ub o -> is_ub (bind o k).
Proof. intros [u ->]. by exists u. Qed.
Lemma agree_ub {A} u (o : outcome A) : is_ub o -> agree (UB u) o.
Proof. by intros [k ->]. Qed.
Lemma ptr_cases o p : (ptr o p = Ok tt /\ 0 <= p <= len o) \/
  (ptr o p = UB OutOfBounds /\ ~ (0 <= p <= len o)).
Proof. unfold ptr. destruct (_ && _) eqn:E; [left|right]; (split; [done|lia]). Qed.
Lemma ck32_cases x : (exists r, ck32 x = Ok r) \/ ck32 x = UB SignedOverflow.
Proof. unfold ck32. destruct (_ && _); [left; by eexists|by right]. Qed.

Lemma agree_ptr {B} (o : list Z) p (k : outcome B) k' :
  agree k k' -> (~ (0 <= p <= len o) -> is_ub k') -> agree (let! _ := ptr o p in k) k'.
Proof.
  intros H Hu. destruct (ptr_cases o p) as [[-> ?]|[-> ?]]; [done|]. apply agree_ub. auto.
Qed.
Lemma agree_two {B} o base x y (k k' : Z -> Z -> outcome B) :
  (forall o1 o2, ck32 x = Ok o1 -> ck32 y = Ok o2 -> agree (k o1 o2) (k' o1 o2)) ->
  (forall o1 o2, ck32 x = Ok o1 -> ck32 y = Ok o2 ->
     ~ (0 <= base + o1 <= len o /\ 0 <= base + o2 <= len o) -> is_ub (k' o1 o2)) ->
  agree (two o base x y k) (let! o1 := ck32 x in let! o2 := ck32 y in k' o1 o2).
Proof.
  intros H Hu. unfold two.
  destruct (ck32_cases x) as [[o1 E1]|E1]; rewrite E1; cbn [bind]; [|done].
  destruct (ptr_cases o (base + o1)) as [[-> ?]|[-> ?]]; cbn [bind].
  - destruct (ck32_cases y) as [[o2 E2]|E2]; rewrite E2; cbn [bind]; [|done].
    destruct (ptr_cases o (base + o2)) as [[-> ?]|[-> ?]]; cbn [bind]; [auto|].
    apply agree_ub, Hu; [done..|]. tauto.
  - apply agree_ub. destruct (ck32_cases y) as [[o2 E2]|E2]; rewrite E2; cbn [bind]; [|by eexists].
    apply Hu; [done..|]. tauto.
Qed.

(** ** What the steps of the sorts need *)

Lemma memcpy_oob d i s j n : ~ (0 <= i <= len d /\ 0 <= j <= len s) -> is_ub (memcpy d i s j n).
Proof.
  intros H. unfold memcpy, in_range. destruct (_ && _) eqn:E; [|by eexists]. destruct H. lia.
Qed.
Lemma memcpy_within_oob d i j n :
  ~ (0 <= i <= len d /\ 0 <= j <= len d) -> is_ub (memcpy_within d i j n).
Proof.
  intros H. unfold memcpy_within, in_range.
  destruct (_ && _) eqn:E; [destruct H; lia|by eexists].
Qed.
Lemma swap_range o a b n o' : 0 < n -> Utils_swapElements o a b n = Ok o' ->
  0 <= a <= len o /\ 0 <= b <= len o.
Proof.
  intros Hn E. unfold Utils_swapElements in E.
  assert (len o' = len o /\ forall k, 0 - 1 < k <= n - 1 -> 0 <= a + k < len o /\ 0 <= b + k < len o)
    as [_ H].
  { apply (cford_inv (fun i s => len s = len o /\
      forall k, i < k <= n - 1 -> 0 <= a + k < len o /\ 0 <= b + k < len o) _ _ _ _ _ E).
    - split; [done|]. intros. lia.
    - lia.
    - intros i s s' Hi [Hl Hk] Es.
      apply bind_ok_inv in Es as (x & Hx & Es). apply bind_ok_inv in Es as (y & Hy & Es).
      apply bind_ok_inv in Es as (s2 & Hs2 & Es).
      apply load_inv in Hx as [Hx _]. apply load_inv in Hy as [Hy _].
      apply store_inv in Hs2 as [? ->]. apply store_inv in Es as [? ->].
      rewrite !len_insert. split; [done|]. intros k Hk'.
      destruct (Z.eq_dec k i) as [->|]; [lia|]. apply Hk. lia. }
  destruct (H 0 ltac:(lia)), (H (n - 1) ltac:(lia)). lia.
Qed.
Lemma swap_len o a b n o' : Utils_swapElements o a b n = Ok o' -> len o' = len o.
Proof.
  intros E. unfold Utils_swapElements in E. destruct (Z.le_gt_cases n 0).
  { rewrite cford_empty in E by lia. by injection E as <-. }
  apply (cford_inv (fun i s => len s = len o) _ _ _ _ _ E); [done|lia|].
  intros i s s' Hi Hl Es.
  apply bind_ok_inv in Es as (x & Hx & Es). apply bind_ok_inv in Es as (y & Hy & Es).
  apply bind_ok_inv in Es as (s2 & Hs2 & Es).
  apply store_inv in Hs2 as [? ->]. apply store_inv in Es as [? ->]. by rewrite !len_insert.
Qed.

Section agree.
  Context {T : Type} (cmp : T -> list Z -> list Z -> T * bool) (es : Z) (Hes : is_s32 es).
  Implicit Types (t : T) (m o : list Z).

  Lemma call_oob t (a : list Z) i (b : list Z) j :
    ~ (0 <= i <= len a /\ 0 <= j <= len b) -> is_ub (call_cmp_state cmp es t a i b j).
  Proof.
    intros H. unfold call_cmp_state, in_range. destruct (_ && _) eqn:E; [|by eexists].
    destruct H. lia.
  Qed.
  Lemma swap_oob m p x y (o1 o2 : Z) : 0 <= p <= len m -> ck32 (x * es) = Ok o1 -> ck32 (y * es) = Ok o2 ->
    ~ (0 <= p + o1 <= len m /\ 0 <= p + o2 <= len m) ->
    is_ub (Utils_swapElements m (p + o1) (p + o2) (u32 es)).
  Proof.
    intros Hp E1 E2 H. destruct (Z.eq_dec es 0) as [->|Hz].
    { rewrite Z.mul_0_r in E1, E2. apply ck32_inv in E1 as [-> _]. apply ck32_inv in E2 as [-> _].
      destruct H. lia. }
    destruct (Utils_swapElements m (p + o1) (p + o2) (u32 es)) as [o'|u|] eqn:E.
    - destruct H. eapply swap_range; [|exact E]. unfold is_s32, s32, u32 in *. lia.
    - by eexists.
    - by apply swap_nd in E.
  Qed.

  Lemma agree_bubble t o p n :
    agree (bubble_text cmp t o p n es) (BubbleSort_state cmp t o p n es).
  Proof.
    unfold bubble_text, BubbleSort_state.
    apply agree_bind; [|intros [[[? ?] ?] ?] _; apply agree_refl].
    apply (agree_while (fun _ => True)); [done| |done].
    intros [[[t' m'] sw] i] _ _. apply agree_same. intros x _. apply agree_same. intros top _.
    apply agree_bind; [|intros [[? ?] ?] _; apply agree_refl].
    apply (agree_for (fun _ => True)); [done| |done].
    intros j [[t2 m2] sw2] Hj _. apply agree_two.
    - intros. apply agree_refl.
    - intros o1 o2 E1 E2 H. by apply bind_ub, call_oob.
  Qed.

  Lemma agree_selection t o p n : 0 <= p <= len o ->
    agree (selection_text cmp t o p n es) (SelectionSort_state cmp t o p n es).
  Proof.
    intros Hp. unfold selection_text, SelectionSort_state. apply agree_same. intros top _.
    apply (agree_for (fun '(t, m) => len m = len o)); [done| |].
    - intros i [t' m'] Hi Hl. apply agree_bind.
      + apply (agree_for (fun _ => True)); [done| |done].
        intros j [t2 k] Hj _. apply agree_two.
        * intros. apply agree_refl.
        * intros o1 o2 E1 E2 H. by apply bind_ub, call_oob.
      + intros [t2 k] _. destruct (negb _); [|done]. apply agree_two.
        * intros. apply agree_refl.
        * intros o1 o2 E1 E2 H. apply bind_ub. eapply swap_oob; try done. lia.
    - intros i [t' m'] [t2 m2] Hi Hl E. apply bind_ok_inv in E as ([t3 k] & _ & E).
      destruct (negb _); [|by injection E as <- <-]. inv. injection E as <- <-.
      match goal with H : Utils_swapElements _ _ _ _ = _ |- _ => by rewrite (swap_len _ _ _ _ _ H) end.
  Qed.

  Lemma agree_insertion t o el p n :
    agree (insertion_text cmp t o el p n es) (InsertionSort_state cmp t o el p n es).
  Proof.
    unfold insertion_text, InsertionSort_state.
    apply (agree_for (fun _ => True)); [done| |done].
    intros i [[t' m'] el'] Hi _. apply agree_same. intros o1 E1.
    apply agree_ptr; [|intros; apply bind_ub, memcpy_oob; tauto].
    apply agree_same. intros e Ee. apply agree_same. intros o2 E2.
    apply agree_ptr; [|intros; apply bind_ub, call_oob; tauto].
    apply agree_same. intros [t2 c] Ec. apply agree_bind.
    - apply (agree_while (fun _ => True)); [done| |done].
      intros [[[t3 m3] j] c3] _ _. apply agree_two.
      + intros. apply agree_same. intros m4 E4. cbv zeta. change (j - 1) with (j + -1).
        apply agree_same. intros o5 E5.
        apply agree_ptr; [|intros; apply bind_ub, call_oob; tauto]. apply agree_refl.
      + intros o3 o4 E3 E4 H. by apply bind_ub, memcpy_within_oob.
    - intros [[[t3 m3] j] c3] _. apply agree_same. intros o3 E3.
      apply agree_ptr; [|intros; apply bind_ub, memcpy_oob; tauto]. apply agree_refl.
  Qed.

  Lemma heapify_len t o p n i t' o' : Heapify_state cmp t o p n i es = Ok (t', o') -> len o' = len o.
  Proof.
    unfold Heapify_state. intros E. apply bind_ok_inv in E as ([[[t2 m2] k] c] & Ew & E).
    injection E as <- <-.
    eapply (cwhile_inv (fun '(t, m, k, c) => len m = len o) (fun '(t, m, k, c) => len m = len o) _ _ _ _ _ Ew);
      [done| | |].
    - intros [[[t3 m3] k3] c3] [[[t4 m4] k4] c4] Hl _ E. inv.
      repeat (inv; match type of E with (match ?x with (_, _) => _ end) = _ => destruct x end; inv).
      destruct (negb _); inv; injection E as <- <- <- <-; [|done].
      match goal with H : Utils_swapElements _ _ _ _ = _ |- _ => by rewrite (swap_len _ _ _ _ _ H) end.
    - intros [[[t3 m3] k3] c3] [[[t4 m4] k4] c4] Hl _ E. inv.
      repeat (inv; match type of E with (match ?x with (_, _) => _ end) = _ => destruct x end; inv).
      destruct (negb _); inv; discriminate.
    - by intros [[[? ?] ?] ?].
  Qed.
  Lemma agree_heapify t o p n i : 0 <= p <= len o ->
    agree (heapify_text cmp t o p n i es) (Heapify_state cmp t o p n i es).
  Proof.
    intros Hp. unfold heapify_text, Heapify_state.
    apply agree_bind; [|intros [[[? ?] ?] ?] _; apply agree_refl].
    apply (agree_while (fun '(t, m, k, c) => len m = len o)); [done| |].
    - intros [[[t' m'] k] c] Hl _.
      apply agree_same. intros ? _. apply agree_same. intros ? _.
      apply agree_same. intros ? _. apply agree_same. intros ? _. cbv zeta.
      apply agree_two; [|intros; by apply bind_ub, call_oob].
      intros. apply agree_same. intros [t2 c2] _.
      apply agree_two; [|intros; by apply bind_ub, call_oob].
      intros. apply agree_same. intros [t3 c3] _. destruct (negb _); [|done].
      apply agree_two; [intros; apply agree_refl|].
      intros. apply bind_ub. eapply swap_oob; try done. lia.
    - intros [[[t3 m3] k3] c3] [[[t4 m4] k4] c4] Hl _ E. inv.
      repeat (inv; match type of E with (match ?x with (_, _) => _ end) = _ => destruct x end; inv).
      destruct (negb _); inv; injection E as <- <- <- <-; [|done].
      match goal with H : Utils_swapElements _ _ _ _ = _ |- _ => by rewrite (swap_len _ _ _ _ _ H) end.
  Qed.
  Lemma agree_heap t o p n : 0 <= p <= len o ->
    agree (heap_text cmp t o p n es) (HeapSort_state cmp t o p n es).
  Proof.
    intros Hp. unfold heap_text, HeapSort_state. apply agree_same. intros top _.
    apply agree_bind.
    - apply (agree_ford (fun '(t, m) => len m = len o)); [done| |].
      + intros i [t' m'] Hi Hl. apply agree_heapify. lia.
      + intros i [t' m'] [t2 m2] Hi Hl E. apply heapify_len in E. lia.
    - intros [t' m'] E. assert (len m' = len o) as Hl.
      { destruct (Z.lt_ge_cases top 0).
        { rewrite cford_empty in E by lia. by injection E as <- <-. }
        apply (cford_inv (fun _ '(t, m) => len m = len o) _ _ _ _ _ E); [done|lia|].
        intros i [t2 m2] [t3 m3] Hi Hl E'. apply heapify_len in E'. lia. }
      apply agree_same. intros top' _.
      apply (agree_ford (fun '(t, m) => len m = len o)); [done| |].
      + intros i [t2 m2] Hi Hl2. rewrite (proj2 (ptr_ok m2 p)) by lia. cbn [bind].
        apply agree_same. intros o1 E1.
        apply agree_ptr.
        * apply agree_same. intros m3 E3. apply swap_len in E3. apply agree_heapify. lia.
        * intros H. apply bind_ub. replace p with (p + 0) at 1 by lia.
          apply (swap_oob m2 p 0 i); [lia|done|done|tauto].
      + intros i [t2 m2] [t3 m3] Hi Hl2 E'. inv. apply heapify_len in E'.
        match goal with H : Utils_swapElements _ _ _ _ = _ |- _ => apply swap_len in H end. lia.
  Qed.
End agree.

Section ref.
  Context {T : Type} (cmp : T -> list Z -> list Z -> T * bool) (sc : bool) (fuel : nat) (es : Z).
  Local Notation run f := (call sc (byte_cmp cmp es) fuel f).
  Local Notation at8 b p := (VPtr (TInt U8) (BObj b) p).
  Implicit Types (m : mem) (t : T) (o : list Z).

  Lemma ref_BubbleSort_sort m t b o p n f :
    m !! b = Some (ints 8 o) -> is_s32 n -> is_s32 es ->
    (S (Z.to_nat n) < fuel)%nat -> (Z.to_nat (u32 es) < fuel)%nat ->
    agree (run c_BubbleSort_sort [at8 b p; VInt I32 n; VInt I32 es; VFun f] m t)
      (let! '(t, o) := BubbleSort_state cmp t o p n es in Ok (VUndef, <[b := ints 8 o]> m, t)).
  Proof.
    intros. rewrite text_bubble with (o := o) by done.
    apply agree_bind; [apply agree_bubble|intros [? ?] _; apply agree_refl].
  Qed.
  Lemma ref_SelectionSort_sort m t b o p n f :
    m !! b = Some (ints 8 o) -> 0 <= p <= len o -> is_s32 n -> is_s32 es ->
    (Z.to_nat n < fuel)%nat -> (Z.to_nat (u32 es) < fuel)%nat ->
    agree (run c_SelectionSort_sort [at8 b p; VInt I32 n; VInt I32 es; VFun f] m t)
      (let! '(t, o) := SelectionSort_state cmp t o p n es in Ok (VUndef, <[b := ints 8 o]> m, t)).
  Proof.
    intros. rewrite text_selection with (o := o) by done.
    apply agree_bind; [by apply agree_selection|intros [? ?] _; apply agree_refl].
  Qed.
  Lemma ref_InsertionSort_sort m t b o b' el p n f :
    m !! b = Some (ints 8 o) -> m !! b' = Some (ints 8 el) -> b <> b' -> is_s32 n -> is_s32 es ->
    (Z.to_nat n < fuel)%nat ->
    agree (run c_InsertionSort_sort [at8 b' 0; at8 b p; VInt I32 n; VInt I32 es; VFun f] m t)
      (let! '(t, o, el) := InsertionSort_state cmp t o el p n es in
       Ok (VUndef, <[b' := ints 8 el]> (<[b := ints 8 o]> m), t)).
  Proof.
    intros. rewrite text_insertion with (o := o) (el := el) by done.
    apply agree_bind; [apply agree_insertion|intros [[? ?] ?] _; apply agree_refl].
  Qed.
  Lemma ref_Heapify m t b o p n i f :
    m !! b = Some (ints 8 o) -> 0 <= p <= len o -> is_s32 n -> is_s32 i -> 0 <= i -> is_s32 es ->
    (S (Z.to_nat n) < fuel)%nat -> (Z.to_nat (u32 es) < fuel)%nat ->
    agree (run c_Heapify [at8 b p; VInt I32 n; VInt I32 i; VInt I32 es; VFun f] m t)
      (let! '(t, o) := Heapify_state cmp t o p n i es in Ok (VUndef, <[b := ints 8 o]> m, t)).
  Proof.
    intros. rewrite text_heapify with (o := o) by done.
    apply agree_bind; [by apply agree_heapify|intros [? ?] _; apply agree_refl].
  Qed.
  Lemma ref_HeapSort_sort m t b o p n f :
    m !! b = Some (ints 8 o) -> 0 <= p <= len o -> is_s32 n -> is_s32 es ->
    (S (Z.to_nat n) < fuel)%nat -> (Z.to_nat (u32 es) < fuel)%nat ->
    agree (run c_HeapSort_sort [at8 b p; VInt I32 n; VInt I32 es; VFun f] m t)
      (let! '(t, o) := HeapSort_state cmp t o p n es in Ok (VUndef, <[b := ints 8 o]> m, t)).
  Proof.
    intros. rewrite text_heap with (o := o) by done.
    apply agree_bind; [by apply agree_heap|intros [? ?] _; apply agree_refl].
  Qed.
End ref.
