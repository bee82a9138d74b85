(** * The sorts terminate, whatever their arguments *)
From Verif Require Import Lib Model_Utils Model_Sort.

Lemma bind_nd {A B} (e : outcome A) (k : A -> outcome B) :
  e <> Diverge -> (forall a, e = Ok a -> k a <> Diverge) -> bind e k <> Diverge.
Proof. destruct e; cbn; [|done|done]. intros _ H. by apply H. Qed.
Lemma ok_nd {A} (a : A) : Ok a <> Diverge.
Proof. done. Qed.
Lemma ck32_nd x : ck32 x <> Diverge.
Proof. unfold ck32. by destruct (_ && _). Qed.
Lemma load_nd {A} (o : list A) i : load o i <> Diverge.
Proof. unfold load. destruct (0 <=? i); [|done]. by destruct (o !! _). Qed.
Lemma store_nd {A} (o : list A) i x : store o i x <> Diverge.
Proof. unfold store. by destruct (_ && _). Qed.
Lemma memcpy_nd d i s j n : memcpy d i s j n <> Diverge.
Proof. unfold memcpy. by destruct (_ && _). Qed.
Lemma memcpy_within_nd o i j n : memcpy_within o i j n <> Diverge.
Proof. unfold memcpy_within. destruct (_ && _); [|done]. by destruct (_ || _). Qed.
Lemma cfor_nd {S} a b (body : Z -> S -> outcome S) s :
  (forall i s, a <= i < b -> body i s <> Diverge) -> cfor a b body s <> Diverge.
Proof.
  unfold cfor. remember (Z.to_nat (b - a)) as n eqn:En. revert a s En.
  induction n as [|n IH]; intros a s En H; cbn; [done|]. apply bind_nd; [apply H; lia|].
  intros t _. apply IH; [lia|]. intros i u Hi. apply H. lia.
Qed.
Lemma cford_nd {S} a b (body : Z -> S -> outcome S) s :
  (forall i s, b <= i <= a -> body i s <> Diverge) -> cford a b body s <> Diverge.
Proof.
  unfold cford. remember (Z.to_nat (a + 1 - b)) as n eqn:En. revert a s En.
  induction n as [|n IH]; intros a s En H; cbn; [done|]. apply bind_nd; [apply H; lia|].
  intros t _. apply IH; [lia|]. intros i u Hi. apply H. lia.
Qed.
Lemma cwhile_nd {S} (P : S -> Prop) (mu : S -> Z) fuel cond (body : S -> outcome (ctl S)) s :
  P s -> 0 <= mu s < Z.of_nat fuel ->
  (forall s, P s -> cond s = true -> body s <> Diverge /\
     forall s', body s = Ok (Next s') -> P s' /\ 0 <= mu s' < mu s) ->
  cwhile fuel cond body s <> Diverge.
Proof.
  revert s. induction fuel as [|f IH]; intros s HP Hm Hb; [lia|]. cbn.
  destruct (cond s) eqn:Ec; [|done]. destruct (Hb s HP Ec) as [Hd Hn].
  apply bind_nd; [done|]. intros [s'|s'] E; [|done].
  destruct (Hn s' E). apply IH; (done || lia).
Qed.

Section nd.
  Context (cmp : list Z -> list Z -> bool).

  Lemma call_cmp_nd es a i b j : call_cmp cmp es a i b j <> Diverge.
  Proof. unfold call_cmp. by destruct (_ && _). Qed.
  Lemma swap_nd m a b n : Utils_swapElements m a b n <> Diverge.
  Proof.
    unfold Utils_swapElements. apply cford_nd. intros i s _.
    apply bind_nd; [apply load_nd|]. intros. apply bind_nd; [apply load_nd|]. intros.
    apply bind_nd; [apply store_nd|]. intros. apply store_nd.
  Qed.

  Ltac nd := repeat first
    [ apply ck32_nd | apply call_cmp_nd | apply swap_nd | apply memcpy_nd | apply memcpy_within_nd
    | apply ok_nd | apply bind_nd; [|intros ? ?] ].
  Ltac inv := repeat match goal with
    | H : bind _ _ = Ok _ |- _ => apply bind_ok_inv in H as (? & ? & H)
    | H : ck32 _ = Ok _ |- _ => apply ck32_inv in H as [-> ?]
    end.

  Lemma bubble_nd m base n es : BubbleSort_sort cmp m base n es <> Diverge.
  Proof.
    unfold BubbleSort_sort. apply bind_nd; [|intros [[? ?] ?] _; done].
    apply (cwhile_nd (fun '(m, sw, i) => 0 <= i /\ (sw = true -> i = 0 \/ i < n))
      (fun '(m, sw, i) => if (sw : bool) then Z.max n 0 + 1 - i else 0)).
    - lia.
    - lia.
    - intros [[m' sw] i] [Hi Hs] ->. specialize (Hs eq_refl). split.
      + nd.
        * apply cfor_nd. intros j [m2 s2] _. nd. destruct a3; nd.
        * destruct a1. nd.
      + intros [[m2 s2] i2] E. inv. destruct x1 as [m3 s3]. inv. injection E as <- <- <-.
        destruct (Z.le_gt_cases (n - i - 1) 0) as [Hle|Hgt].
        * rewrite cfor_empty in H1 by lia. injection H1 as <- <-. lia.
        * destruct s3; lia.
  Qed.
  Lemma selection_nd m base n es : SelectionSort_sort cmp m base n es <> Diverge.
  Proof.
    unfold SelectionSort_sort. nd. apply cfor_nd. intros i s _. nd.
    - apply cfor_nd. intros j k _. nd.
    - destruct (negb _); nd.
  Qed.
  Lemma insertion_nd m el base n es : InsertionSort_sort cmp m el base n es <> Diverge.
  Proof.
    unfold InsertionSort_sort. apply cfor_nd. intros i [m' el'] Hi. nd.
    - apply (cwhile_nd (fun '(m, j, c) => -1 <= j) (fun '(m, j, c) => j + 1)).
      + lia.
      + lia.
      + intros [[m2 j] c] Hj Hc. apply andb_true_iff in Hc as [Hc _]. apply Z.leb_le in Hc. split.
        * nd.
        * intros [[m3 j3] c3] E. inv. injection E as <- <- <-. lia.
    - destruct a3 as [[m2 j] c]. nd.
  Qed.
  Lemma heapify_nd m base n i es : 0 <= i -> Heapify cmp m base n i es <> Diverge.
  Proof.
    intros Hi. unfold Heapify. apply bind_nd; [|intros [[? ?] ?] _; done].
    apply (cwhile_nd (fun '(m, k, c) => 0 <= k)
      (fun '(m, k, c) => if (c : bool) then Z.max 0 (n - k) + 1 else 0)).
    - lia.
    - lia.
    - intros [[m' k] c] Hk ->. split.
      + nd. destruct (negb _); nd.
      + intros [[m2 k2] c2] E. inv.
        match type of E with (if negb (?g =? k) then _ else _) = _ => destruct (Z.eqb_spec g k) as [Eg|Eg] end;
          cbn [negb] in E.
        * injection E as <- <- <-. lia.
        * inv. injection E as <- <- <-. revert Eg.
          repeat match goal with |- context [if ?b && _ then _ else _] =>
            destruct b eqn:?; cbn [andb] end;
          repeat match goal with |- context [if ?b then _ else _] => destruct b eqn:? end; lia.
  Qed.
  Lemma heap_nd m base n es : HeapSort_sort cmp m base n es <> Diverge.
  Proof.
    unfold HeapSort_sort. nd.
    - apply cford_nd. intros i s Hi. apply heapify_nd. lia.
    - apply cford_nd. intros i s Hi. apply bind_nd; [nd|]. intros o _.
      apply bind_nd; [nd|]. intros m' _. by apply heapify_nd.
  Qed.
End nd.
