(** * The state of a comparator that does not influence its answers can be left out *)
From Verif Require Import CSem Lib Model_Utils Model_Sort Model_SortState Spec_Sort Spec_SortMore Proof_Utils
  Proof_Sort Proof_SortInsert Proof_SortHeap Proof_SortState Proof_SortMore.
From stdpp Require Import list numbers.
Open Scope Z_scope.

(** two computations that end the same way, with related results *)
Definition same {A B} (R : A -> B -> Prop) (o : outcome A) (o' : outcome B) : Prop :=
  match o, o' with
  | Ok a, Ok b => R a b
  | UB k, UB k' => k = k'
  | Diverge, Diverge => True
  | _, _ => False
  end.
Lemma same_bind {A B A' B'} (R : A -> B -> Prop) (R' : A' -> B' -> Prop) o o' k k' :
  same R o o' -> (forall a b, R a b -> same R' (k a) (k' b)) -> same R' (bind o k) (bind o' k').
Proof. destruct o, o'; cbn; try done; auto. Qed.
Lemma same_eq {A A' B'} (R' : A' -> B' -> Prop) (o : outcome A) k k' :
  (forall a, same R' (k a) (k' a)) -> same R' (bind o k) (bind o k').
Proof. intros H. apply (same_bind eq); [by destruct o|]. by intros a b ->. Qed.
Lemma same_for {A B} (R : A -> B -> Prop) a b f g s s' : R s s' ->
  (forall i s s', R s s' -> same R (f i s) (g i s')) -> same R (cfor a b f s) (cfor a b g s').
Proof.
  intros H0 HS. unfold cfor. generalize (Z.to_nat (b - a)) as n. intros n. revert a s s' H0.
  induction n as [|n IH]; intros a s s' H0; cbn; [done|].
  apply (same_bind R); [by apply HS|]. auto.
Qed.
Lemma same_ford {A B} (R : A -> B -> Prop) a b f g s s' : R s s' ->
  (forall i s s', R s s' -> same R (f i s) (g i s')) -> same R (cford a b f s) (cford a b g s').
Proof.
  intros H0 HS. unfold cford. generalize (Z.to_nat (a + 1 - b)) as n. intros n. revert a s s' H0.
  induction n as [|n IH]; intros a s s' H0; cbn; [done|].
  apply (same_bind R); [by apply HS|]. auto.
Qed.
Definition next {A B} (R : A -> B -> Prop) (a : ctl A) (b : ctl B) : Prop :=
  match a, b with Next a, Next b | Break a, Break b => R a b | _, _ => False end.
Lemma same_while {A B} (R : A -> B -> Prop) n c c' f g s s' : R s s' ->
  (forall s s', R s s' -> c s = c' s') ->
  (forall s s', R s s' -> same (next R) (f s) (g s')) -> same R (cwhile n c f s) (cwhile n c' g s').
Proof.
  intros H0 HC HS. revert s s' H0. induction n as [|n IH]; intros s s' H0; cbn; [done|].
  rewrite (HC s s' H0). destruct (c' s'); [|done].
  apply (same_bind (next R)); [by apply HS|]. intros [a|a] [b|b]; cbn; (done || auto).
Qed.

Section erase.
  Context {T : Type} (f : T -> list Z -> list Z -> T) (cmp : list Z -> list Z -> bool).
  Notation cmps := (fun t x y => (f t x y, cmp x y)).

  Lemma same_call es t a i b j :
    same (fun p c => p.2 = c) (call_cmp_state cmps es t a i b j) (call_cmp cmp es a i b j).
  Proof. unfold call_cmp_state, call_cmp. by destruct (_ && _). Qed.

  Lemma bubble_erase t m base n es :
    (let! '(_, m) := BubbleSort_state cmps t m base n es in Ok m) = BubbleSort_sort cmp m base n es.
  Proof.
    assert (same (fun p m => p.2 = m) (BubbleSort_state cmps t m base n es)
      (BubbleSort_sort cmp m base n es)) as H.
    { apply (same_bind (fun '(_, m, sw, i) st => (m, sw, i) = st)).
      - apply same_while; [done| |].
        + by intros [[[? ?] ?] ?] ? <-.
        + intros [[[t1 m1] sw] i] ? <-. do 2 (apply same_eq; intros ?).
          apply (same_bind (fun '(_, m, sw) st => (m, sw) = st)).
          * apply same_for; [done|]. intros j [[t2 m2] sw2] ? <-. do 2 (apply same_eq; intros ?).
            eapply same_bind; [apply same_call|]. intros [t3 c] ? <-. cbn [snd].
            destruct c; [|done]. apply same_eq. done.
          * intros [[t2 m2] sw2] ? <-. apply same_eq. done.
      - intros [[[? ?] ?] ?] ? <-. done. }
    destruct (BubbleSort_state _ _ _ _ _ _) as [[? ?]|?|], (BubbleSort_sort _ _ _ _ _);
      cbn in *; (done || congruence).
  Qed.
  Lemma selection_erase t m base n es :
    (let! '(_, m) := SelectionSort_state cmps t m base n es in Ok m)
    = SelectionSort_sort cmp m base n es.
  Proof.
    assert (same (fun p m => p.2 = m) (SelectionSort_state cmps t m base n es)
      (SelectionSort_sort cmp m base n es)) as H.
    { apply same_eq. intros b. apply same_for; [done|]. intros i [t1 m1] ? <-. cbn [snd].
      apply (same_bind (fun p k => p.2 = k)).
      - apply same_for; [done|]. intros j [t2 k] ? <-. do 2 (apply same_eq; intros ?).
        eapply same_bind; [apply same_call|]. intros [t3 c] ? <-. done.
      - intros [t2 k] ? <-. cbn [snd]. destruct (negb _); [|done].
        do 2 (apply same_eq; intros ?). by destruct (Utils_swapElements _ _ _ _). }
    destruct (SelectionSort_state _ _ _ _ _ _) as [[? ?]|?|], (SelectionSort_sort _ _ _ _ _);
      cbn in *; (done || congruence).
  Qed.
  Lemma insertion_erase t m el base n es :
    (let! '(_, m, el) := InsertionSort_state cmps t m el base n es in Ok (m, el))
    = InsertionSort_sort cmp m el base n es.
  Proof.
    assert (same (fun '(_, m, el) st => (m, el) = st) (InsertionSort_state cmps t m el base n es)
      (InsertionSort_sort cmp m el base n es)) as H.
    { apply same_for; [done|]. intros i [[t1 m1] el1] ? <-. do 3 (apply same_eq; intros ?).
      eapply same_bind; [apply same_call|]. intros [t3 c] ? <-. cbn [snd].
      apply (same_bind (fun '(_, m, j, c) st => (m, j, c) = st)).
      - apply same_while; [done| |].
        + by intros [[[? ?] ?] ?] ? <-.
        + intros [[[t4 m4] j] c4] ? <-. do 4 (apply same_eq; intros ?).
          eapply same_bind; [apply same_call|]. intros [t5 c5] ? <-. done.
      - intros [[[t4 m4] j] c4] ? <-. do 2 (apply same_eq; intros ?). done. }
    destruct (InsertionSort_state _ _ _ _ _ _ _) as [[[? ?] ?]|?|], (InsertionSort_sort _ _ _ _ _ _);
      cbn in *; (done || congruence).
  Qed.
  Lemma heapify_erase t m base n i es :
    same (fun p m => p.2 = m) (Heapify_state cmps t m base n i es) (Heapify cmp m base n i es).
  Proof.
    apply (same_bind (fun '(_, m, j, c) st => (m, j, c) = st)).
    - apply same_while; [done| |].
      + by intros [[[? ?] ?] ?] ? <-.
      + intros [[[t4 m4] j] c4] ? <-. do 6 (apply same_eq; intros ?).
        eapply same_bind; [apply same_call|]. intros [t5 c5] ? <-. cbn [snd].
        do 2 (apply same_eq; intros ?).
        eapply same_bind; [apply same_call|]. intros [t6 c6] ? <-. cbn [snd].
        destruct (negb _); [|done]. do 2 (apply same_eq; intros ?). apply same_eq. done.
    - intros [[[t4 m4] j] c4] ? <-. done.
  Qed.
  Lemma heap_erase t m base n es :
    (let! '(_, m) := HeapSort_state cmps t m base n es in Ok m) = HeapSort_sort cmp m base n es.
  Proof.
    assert (same (fun p m => p.2 = m) (HeapSort_state cmps t m base n es)
      (HeapSort_sort cmp m base n es)) as H.
    { apply same_eq. intros top. apply (same_bind (fun p m => p.2 = m)).
      - apply same_ford; [done|]. intros i [t1 m1] ? <-. apply heapify_erase.
      - intros [t1 m1] ? <-. cbn [snd]. apply same_eq. intros top'.
        apply same_ford; [done|]. intros i [t2 m2] ? <-. cbn [snd].
        do 2 (apply same_eq; intros ?). apply heapify_erase. }
    destruct (HeapSort_state _ _ _ _ _ _) as [[? ?]|?|], (HeapSort_sort _ _ _ _ _);
      cbn in *; (done || congruence).
  Qed.
End erase.

(** ** The forms used in the properties *)

Lemma zero_cost {T} (cmp : T -> list Z -> list Z -> T * bool) t x y :
  (fun _ => 0) (fst (cmp t x y)) = (fun _ : T => 0) t + 0.
Proof. done. Qed.
Lemma bubble_any {T} (cmp : T -> list Z -> list Z -> T * bool) t es xs pre post : elements_of es xs ->
  exists t' ys, BubbleSort_state cmp t (pre ++ concat xs ++ post) (len pre) (len xs) es
    = Ok (t', pre ++ concat ys ++ post) /\ Forall (fun y => len y = es) ys /\ Permutation ys xs.
Proof.
  intros (H0 & HF & H1 & H2).
  destruct (bubble_state cmp _ _ (zero_cost cmp) pre post es H0 t xs HF H1 H2)
    as (t' & ys & k & ? & ? & ? & _). eauto.
Qed.
Lemma selection_any {T} (cmp : T -> list Z -> list Z -> T * bool) t es xs pre post : elements_of es xs ->
  exists t' ys, SelectionSort_state cmp t (pre ++ concat xs ++ post) (len pre) (len xs) es
    = Ok (t', pre ++ concat ys ++ post) /\ Forall (fun y => len y = es) ys /\ Permutation ys xs.
Proof.
  intros (H0 & HF & H1 & H2).
  destruct (selection_state cmp _ _ (zero_cost cmp) pre post es H0 t xs HF H1 H2)
    as (t' & ys & k & ? & ? & ? & _). eauto.
Qed.
Lemma insertion_any {T} (cmp : T -> list Z -> list Z -> T * bool) t es xs pre post static :
  elements_of es xs -> es <= 64 -> es <= len pre -> len static = 64 ->
  exists t' ys static',
    InsertionSort_state cmp t (pre ++ concat xs ++ post) static (len pre) (len xs) es
    = Ok (t', pre ++ concat ys ++ post, static') /\ len static' = 64 /\
    Forall (fun y => len y = es) ys /\ Permutation ys xs.
Proof.
  intros (H0 & HF & H1 & H2) H64 HR HS.
  destruct (insertion_state cmp _ _ (zero_cost cmp) pre post es (conj H0 H64) HR t xs static HF H1 H2 HS)
    as (t' & ys & el & k & ? & ? & ? & ? & _). eauto 7.
Qed.
Lemma heap_any {T} (cmp : T -> list Z -> list Z -> T * bool) t es xs pre post :
  elements_of es xs -> 2 * len xs < 2 ^ 31 -> 2 * len xs * es < 2 ^ 31 ->
  (len xs + 1) * es <= len post ->
  exists t' ys, HeapSort_state cmp t (pre ++ concat xs ++ post) (len pre) (len xs) es
    = Ok (t', pre ++ concat ys ++ post) /\ Forall (fun y => len y = es) ys /\ Permutation ys xs.
Proof.
  intros (H0 & HF & _) H1 H2 HR.
  destruct (heap_state cmp _ _ (zero_cost cmp) pre post es (len xs) H0 (len_nonneg xs) H1 H2 HR t xs HF eq_refl)
    as (t' & ys & k & ? & ? & ? & _). eauto.
Qed.

(** ** Counting calls *)

Lemma count_cost {T} (cmp : T -> list Z -> list Z -> T * bool) t x y :
  snd (fst (counting cmp t x y)) = snd t + 1.
Proof. by destruct t. Qed.
Lemma bubble_calls {T} (cmp : T -> list Z -> list Z -> T * bool) t es xs pre post : elements_of es xs ->
  exists t' calls m, BubbleSort_state (counting cmp) (t, 0) (pre ++ concat xs ++ post) (len pre) (len xs) es
    = Ok (t', calls, m) /\ len xs - 1 <= calls /\ 0 <= calls <= len xs * (len xs - 1) / 2.
Proof.
  intros (H0 & HF & H1 & H2).
  destruct (bubble_state (counting cmp) _ _ (count_cost cmp) pre post es H0 (t, 0) xs HF H1 H2)
    as ([t' c] & ys & k & E & _ & _ & Hc & Hk). cbn [snd] in Hc.
  exists t', c, (pre ++ concat ys ++ post). rewrite E. split; [done|]. lia.
Qed.
Lemma selection_calls {T} (cmp : T -> list Z -> list Z -> T * bool) t es xs pre post : elements_of es xs ->
  exists t' m, SelectionSort_state (counting cmp) (t, 0) (pre ++ concat xs ++ post) (len pre) (len xs) es
    = Ok (t', len xs * (len xs - 1) / 2, m).
Proof.
  intros (H0 & HF & H1 & H2).
  destruct (selection_state (counting cmp) _ _ (count_cost cmp) pre post es H0 (t, 0) xs HF H1 H2)
    as ([t' c] & ys & k & E & _ & _ & Hc & Hk). cbn [snd] in Hc.
  exists t', (pre ++ concat ys ++ post). rewrite E. by replace c with (len xs * (len xs - 1) / 2) by lia.
Qed.
Lemma insertion_calls {T} (cmp : T -> list Z -> list Z -> T * bool) t es xs pre post static :
  elements_of es xs -> es <= 64 -> es <= len pre -> len static = 64 -> xs <> [] ->
  exists t' calls m static',
    InsertionSort_state (counting cmp) (t, 0) (pre ++ concat xs ++ post) static (len pre) (len xs) es
    = Ok (t', calls, m, static') /\ len xs - 1 <= calls <= (len xs - 1) * (len xs + 2) / 2.
Proof.
  intros (H0 & HF & H1 & H2) H64 HR HS HN.
  destruct (insertion_state (counting cmp) _ _ (count_cost cmp) pre post es (conj H0 H64) HR (t, 0) xs
    static HF H1 H2 HS) as ([t' c] & ys & el & k & E & _ & _ & _ & Hc & Hk). cbn [snd] in Hc.
  exists t', c, (pre ++ concat ys ++ post), el. rewrite E. split; [done|].
  assert (1 <= len xs) by (destruct xs; [done|rewrite len_cons; pose proof (len_nonneg xs); lia]).
  rewrite Z.max_l in Hk by lia. lia.
Qed.
Lemma heap_calls {T} (cmp : T -> list Z -> list Z -> T * bool) t es xs pre post :
  elements_of es xs -> 2 * len xs < 2 ^ 31 -> 2 * len xs * es < 2 ^ 31 ->
  (len xs + 1) * es <= len post ->
  exists t' calls m, HeapSort_state (counting cmp) (t, 0) (pre ++ concat xs ++ post) (len pre) (len xs) es
    = Ok (t', calls, m) /\ 2 * (len xs + len xs / 2) <= calls /\
      calls <= 2 * (len xs + len xs / 2) * (Z.log2 (len xs) + 1).
Proof.
  intros (H0 & HF & _) H1 H2 HR.
  destruct (heap_state (counting cmp) _ _ (count_cost cmp) pre post es (len xs) H0 (len_nonneg xs) H1 H2 HR
    (t, 0) xs HF eq_refl) as ([t' c] & ys & k & E & _ & _ & Hc & Hk). cbn [snd] in Hc.
  exists t', c, (pre ++ concat ys ++ post). rewrite E. split; [done|]. lia.
Qed.

(** on ordered elements one pass is enough *)
Lemma call_state_mem {T} (cmp : T -> list Z -> list Z -> T * bool) pre post es t xs i j : 0 <= es ->
  Forall (fun x => len x = es) xs -> 0 <= i < len xs -> 0 <= j < len xs ->
  call_cmp_state cmp es t (pre ++ concat xs ++ post) (len pre + i * es)
    (pre ++ concat xs ++ post) (len pre + j * es) = Ok (cmp t (get xs i) (get xs j)).
Proof.
  intros He Hw Hi Hj. pose proof (offset es He i _ Hi). pose proof (offset es He j _ Hj).
  pose proof (len_nonneg pre). pose proof (len_nonneg post). unfold call_cmp_state.
  rewrite !(proj2 (in_range_true _ _ _)) by (rewrite (len_mem pre post es) by done; lia).
  cbn [andb]. by rewrite !slice_mem by done.
Qed.
Lemma ordered_get cmp (xs : list (list Z)) j : neighbours_ordered cmp xs -> 0 <= j -> j + 1 < len xs ->
  cmp (get xs j) (get xs (j + 1)) = false.
Proof.
  intros HN Hj Hj'. apply (HN (Z.to_nat j)).
  - apply lookup_get. lia.
  - replace (S (Z.to_nat j)) with (Z.to_nat (j + 1)) by lia. apply lookup_get. lia.
Qed.
Lemma bubble_calls_ordered cmp es xs pre post : elements_of es xs -> xs <> [] ->
  neighbours_ordered cmp xs ->
  BubbleSort_state (counting (stateless cmp)) (tt, 0) (pre ++ concat xs ++ post) (len pre) (len xs) es
  = Ok (tt, len xs - 1, pre ++ concat xs ++ post).
Proof.
  intros (H0 & HF & H1 & H2) Hx HN.
  assert (1 <= len xs) by (destruct xs; [done|rewrite len_cons; pose proof (len_nonneg xs); lia]).
  unfold BubbleSort_state. cbn [cwhile]. rewrite !ck32_ok by (unfold len in *; lia). cbn [bind].
  rewrite !ck32_ok by (unfold len in *; lia). cbn [bind].
  for_rule (fun j '(t, m, sw) => t = (tt, j) /\ m = pre ++ concat xs ++ post /\ sw = false) st HQ.
  - lia.
  - done.
  - intros j [[t m] sw] Hj (-> & -> & ->).
    destruct (offset es H0 j (len xs)) as [Ho1 Ho1']; [lia|].
    destruct (offset es H0 (j + 1) (len xs)) as [Ho2 Ho2']; [lia|].
    fold (len xs) in *. rewrite !ck32_ok by lia. cbn [bind].
    rewrite call_state_mem by (done || lia). cbn [counting stateless fst snd].
    rewrite (ordered_get cmp xs j) by (done || lia). cbn [bind].
    eexists. split; [done|]. done.
  - destruct st as [[t m] sw]. destruct HQ as (-> & -> & ->). cbn [bind].
    rewrite ?ck32_ok by lia. cbn [bind]. by replace (len xs - 0 - 1) with (len xs - 1) by lia.
Qed.
Lemma insertion_calls_ordered cmp es xs pre post static : elements_of es xs -> es <= 64 ->
  len static = 64 -> xs <> [] -> neighbours_ordered cmp xs ->
  exists static',
  InsertionSort_state (counting (stateless cmp)) (tt, 0) (pre ++ concat xs ++ post) static (len pre)
    (len xs) es = Ok (tt, len xs - 1, pre ++ concat xs ++ post, static').
Proof.
  intros (H0 & HF & H1 & H2) H64 HS Hx HN.
  assert (1 <= len xs) by (destruct xs; [done|rewrite len_cons; pose proof (len_nonneg xs); lia]).
  fold (len xs) in *. pose proof (len_nonneg pre). pose proof (len_nonneg post).
  unfold InsertionSort_state.
  for_rule (fun i '(t, m, el) => t = (tt, i - 1) /\ m = pre ++ concat xs ++ post /\ len el = 64) st HQ.
  - lia.
  - done.
  - intros i [[t m] el] Hi (-> & -> & Hel).
    destruct (offset es H0 i (len xs)) as [Hoi Hoi']; [lia|].
    destruct (offset es H0 (i - 1) (len xs)) as [Hoj Hoj']; [lia|].
    assert (Hlx : len (get xs i) = es) by (apply get_wf; (done || lia)).
    assert (Hlm : len (pre ++ concat xs ++ post) = len pre + len xs * es + len post)
      by (rewrite (len_mem pre post es) by done; lia).
    rewrite !ck32_ok by lia. cbn [bind]. rewrite u64_small by lia.
    rewrite memcpy_ok by lia. cbn [bind]. rewrite slice_mem by (done || lia).
    cbv zeta. rewrite ?ck32_ok by lia. cbn [bind].
    unfold call_cmp_state at 1.
    rewrite !(proj2 (in_range_true _ _ _)) by (rewrite ?len_write by lia; lia). cbn [andb bind].
    rewrite slice_mem, el_slice by (done || lia). cbn [counting stateless fst snd].
    assert (E : cmp (get xs (i - 1)) (get xs i) = false).
    { replace i with (i - 1 + 1) at 2 by lia. apply ordered_get; (done || lia). }
    rewrite E. cbn [cwhile]. rewrite andb_false_r. cbn [bind].
    replace (i - 1 + 1) with i by lia. rewrite ?ck32_ok by lia. cbn [bind].
    rewrite memcpy_ok by (rewrite ?len_write by lia; lia). cbn [bind].
    rewrite el_slice, write_mem by (done || lia).
    rewrite list_insert_id by (apply lookup_get; lia).
    eexists. split; [done|]. cbv beta iota. split; [f_equal; lia|]. split; [done|].
    rewrite len_write by lia. done.
  - destruct st as [[t m] el]. destruct HQ as (-> & -> & _). eauto.
Qed.
