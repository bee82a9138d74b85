(** * The exact extent of heap sort's reads *)
From Verif Require Import Lib Model_Utils Model_Sort Spec_Sort Spec_HeapReads Proof_Utils
  Proof_Map Proof_Sort Proof_SortHeap Proof_SortAll.

Section bridge.
  Context {A : Type} `{Inhabited A} (cmp : A -> A -> bool).
  Implicit Types (xs ys : list A).

  Lemma at_get xs (i : nat) : (i < length xs)%nat -> xs !! i = Some (get xs (Z.of_nat i)).
  Proof.
    intros Hi. destruct (xs !! i) as [x|] eqn:E.
    - f_equal. symmetry. unfold get. rewrite Nat2Z.id. by apply list_lookup_total_correct.
    - apply lookup_ge_None in E. lia.
  Qed.
  Lemma above_get xs (i j : nat) : (i < length xs)%nat -> (j < length xs)%nat ->
    above cmp xs i j = cmp (get xs (Z.of_nat i)) (get xs (Z.of_nat j)).
  Proof. intros. unfold above. by rewrite !at_get by done. Qed.
  Lemma exchange_swp xs (i j : nat) : (i < length xs)%nat -> (j < length xs)%nat ->
    exchange xs i j = swp xs (Z.of_nat i) (Z.of_nat j).
  Proof. intros. unfold exchange, swp. rewrite !at_get by done. by rewrite !Nat2Z.id. Qed.

  Lemma child1_nat (n k : nat) xs : (k < length xs)%nat -> (n <= length xs)%nat ->
    child1 cmp (Z.of_nat n) (Z.of_nat k) xs
    = Z.of_nat (if (2 * k + 1 <? n)%nat && above cmp xs (2 * k + 1) k then 2 * k + 1 else k).
  Proof.
    intros Hk Hn. unfold child1. replace (2 * Z.of_nat k + 1 <? Z.of_nat n) with (2 * k + 1 <? n)%nat.
    2: { destruct (Nat.ltb_spec (2 * k + 1) n); lia. }
    destruct (Nat.ltb_spec (2 * k + 1) n); cbn [andb]; [|done].
    rewrite above_get by lia. replace (Z.of_nat (2 * k + 1)) with (2 * Z.of_nat k + 1) by lia.
    destruct (cmp _ _); lia.
  Qed.
  Lemma child2_nat (n k : nat) xs : (k < length xs)%nat -> (n <= length xs)%nat ->
    child2 cmp (Z.of_nat n) (Z.of_nat k) xs = Z.of_nat (pick cmp n xs k).
  Proof.
    intros Hk Hn. unfold child2, pick. rewrite child1_nat by done.
    set (g := if (2 * k + 1 <? n)%nat && above cmp xs (2 * k + 1) k then (2 * k + 1)%nat else k).
    assert (Hg : (g < length xs)%nat).
    { unfold g. destruct (Nat.ltb_spec (2 * k + 1) n); cbn [andb]; [|lia]. destruct (above _ _ _ _); lia. }
    replace (2 * Z.of_nat k + 2 <? Z.of_nat n) with (2 * k + 2 <? n)%nat.
    2: { destruct (Nat.ltb_spec (2 * k + 2) n); lia. }
    destruct (Nat.ltb_spec (2 * k + 2) n); cbn [andb]; [|done].
    rewrite above_get by lia. replace (Z.of_nat (2 * k + 2)) with (2 * Z.of_nat k + 2) by lia.
    destruct (cmp _ _); lia.
  Qed.

  Lemma pick_cases n k xs :
    pick cmp n xs k = k \/
    ((pick cmp n xs k = 2 * k + 1 \/ pick cmp n xs k = 2 * k + 2) /\ pick cmp n xs k < n)%nat.
  Proof.
    unfold pick. destruct (Nat.ltb_spec (2 * k + 1) n), (Nat.ltb_spec (2 * k + 2) n); cbn [andb];
    repeat match goal with |- context [above ?c ?x ?a ?b] => destruct (above c x a b) end; lia.
  Qed.
  Lemma exchange_perm xs i j : Permutation (exchange xs i j) xs.
  Proof.
    unfold exchange. destruct (xs !! i) eqn:E1; [|done]. destruct (xs !! j) eqn:E2; [|done].
    apply lookup_lt_Some in E1 as L1. apply lookup_lt_Some in E2 as L2.
    assert (E : <[j:=a]> (<[i:=a0]> xs) = exchange xs i j).
    { unfold exchange. by rewrite E1, E2. }
    rewrite E, exchange_swp by done. apply swp_perm; unfold len; lia.
  Qed.
  Lemma sifts_perm n xs k ys last : sifts cmp n xs k ys last ->
    Permutation ys xs /\ (k <= last)%nat /\ ((k < n)%nat -> (last < n)%nat) /\
    ((n <= k)%nat -> last = k).
  Proof.
    induction 1 as [xs k E|xs k ys last E _ (IH1 & IH2 & IH3 & IH4)]; [done|].
    rewrite IH1, exchange_perm. split; [done|].
    destruct (pick_cases n k xs) as [?|[Hc Hn]]; [done|]. lia.
  Qed.
End bridge.

Section reads.
  Context (cmp : list Z -> list Z -> bool) (pre post : list Z) (es : Z) (Hes : 0 <= es).
  Context (N : Z) (HN : 0 <= N) (H2N : 2 * N < 2 ^ 31) (H2Ne : 2 * N * es < 2 ^ 31).
  Notation wf := (Forall (fun x => len x = es)).
  Notation mem xs := (pre ++ concat xs ++ post).
  (** the bytes from the start of the buffer to the end of the memory *)
  Definition room : Z := N * es + len post.

  Lemma cmp_at xs a b : wf xs -> len xs = N -> 0 <= a <= 2 * N -> 0 <= b < N ->
    ((a + 1) * es <= room -> exists r,
       call_cmp cmp es (mem xs) (len pre + a * es) (mem xs) (len pre + b * es) = Ok r /\
       (a < N -> r = cmp (get xs a) (get xs b))) /\
    (room < (a + 1) * es ->
       call_cmp cmp es (mem xs) (len pre + a * es) (mem xs) (len pre + b * es) = UB OutOfBounds).
  Proof.
    intros Hw Hl Ha Hb. pose proof (len_nonneg pre). pose proof (len_nonneg post). unfold room.
    pose proof (offset2 es Hes a (2 * N) Ha). pose proof (offset es Hes b N Hb).
    assert (E1 : (a + 1) * es = a * es + es) by lia. rewrite E1. split; intros HR.
    - destruct (Z.lt_ge_cases a N) as [HaN|HaN].
      + rewrite cmp_mem by (done || lia). eauto.
      + rewrite cmp_any by (rewrite ?(len_mem pre post es) by done; rewrite ?Hl; lia).
        eexists. split; [done|]. lia.
    - unfold call_cmp. rewrite (proj2 (in_range_false (mem xs) _ _)); [done|].
      rewrite (len_mem pre post es) by done. rewrite Hl. lia.
  Qed.

  Lemma hbody_room n ys k :
    wf ys -> len ys = N -> n <= N -> 0 <= k < N ->
    hbody cmp pre es n (mem ys, k, true)
    = if (2 * k + 3) * es <=? room then
        Ok (Next (if child2 cmp n k ys =? k then (mem ys, k, false)
                  else (mem (swp ys k (child2 cmp n k ys)), child2 cmp n k ys, true)))
      else UB OutOfBounds.
  Proof.
    intros Hw Hl Hn Hk. unfold hbody. pose proof (len_nonneg pre).
    pose proof (offset2 es Hes (2 * k + 1) (2 * N) ltac:(lia)) as Hol.
    pose proof (offset2 es Hes (2 * k + 2) (2 * N) ltac:(lia)) as Hor.
    pose proof (offset2 es Hes k (2 * N) ltac:(lia)) as Ho.
    assert (Hes2 : es <= 2 * N * es) by nia.
    rewrite !(ck32_ok (2 * k)) by lia. cbn [bind].
    rewrite !(ck32_ok (2 * k + 1)), !(ck32_ok (2 * k + 2)) by lia. cbn [bind].
    rewrite !(ck32_ok ((2 * k + 1) * es)), !(ck32_ok (k * es)) by lia. cbn [bind].
    destruct (cmp_at ys (2 * k + 1) k) as [Ok1 Ub1]; [done|done|lia|lia|].
    replace (2 * k + 1 + 1) with (2 * k + 2) in Ok1, Ub1 by lia.
    assert (Hlt : (2 * k + 2) * es <= (2 * k + 3) * es) by nia.
    destruct (Z.leb_spec ((2 * k + 2) * es) room) as [HR1|HR1].
    2: { rewrite Ub1 by done. cbn [bind]. destruct (Z.leb_spec ((2 * k + 3) * es) room); [lia|done]. }
    destruct (Ok1 HR1) as (r1 & -> & Hr1). cbn [bind].
    assert (E1 : (if (2 * k + 1 <? n) && r1 then 2 * k + 1 else k) = child1 cmp n k ys).
    { unfold child1. destruct (Z.ltb_spec (2 * k + 1) n); cbn [andb]; [|done].
      by rewrite Hr1 by lia. }
    rewrite E1. rewrite !(ck32_ok ((2 * k + 2) * es)) by lia. cbn [bind].
    assert (Hc1 : 0 <= child1 cmp n k ys < N).
    { unfold child1. destruct (Z.ltb_spec (2 * k + 1) n); cbn [andb]; [|lia].
      destruct (cmp _ _); lia. }
    assert (Hc1' : 0 <= child1 cmp n k ys <= 2 * N) by lia.
    pose proof (offset2 es Hes _ _ Hc1') as Hog.
    rewrite (ck32_ok (child1 cmp n k ys * es)) by lia. cbn [bind].
    destruct (cmp_at ys (2 * k + 2) (child1 cmp n k ys)) as [Ok2 Ub2]; [done|done|lia|lia|].
    replace (2 * k + 2 + 1) with (2 * k + 3) in Ok2, Ub2 by lia.
    destruct (Z.leb_spec ((2 * k + 3) * es) room) as [HR2|HR2].
    2: { by rewrite Ub2 by done. }
    destruct (Ok2 HR2) as (r2 & -> & Hr2). cbn [bind].
    assert (E2 : (if (2 * k + 2 <? n) && r2 then 2 * k + 2 else child1 cmp n k ys)
                 = child2 cmp n k ys).
    { unfold child2. destruct (Z.ltb_spec (2 * k + 2) n); cbn [andb]; [|done].
      by rewrite Hr2 by lia. }
    rewrite E2. destruct (child2_cases cmp n k ys ltac:(lia)) as [Ec|[Hc Hcn]].
    - by rewrite Ec, Z.eqb_refl.
    - replace (child2 cmp n k ys =? k) with false by lia. cbn [negb].
      assert (Hc2' : 0 <= child2 cmp n k ys <= 2 * N) by lia.
      pose proof (offset2 es Hes _ _ Hc2') as Hoc.
      rewrite ck32_ok by lia. cbn [bind]. rewrite u32_small by lia.
      rewrite swap_mem by (done || lia). done.
  Qed.

  Lemma loop_room n fuel (ys : list (list Z)) (k : nat) :
    wf ys -> len ys = N -> Z.of_nat n <= N -> Z.of_nat k < N ->
    Z.max 0 (Z.of_nat n - Z.of_nat k) + 2 <= Z.of_nat fuel ->
    exists zs last, sifts cmp n ys k zs last /\ Z.of_nat last < N /\
      exists k',
      cwhile fuel (fun '(m, index, continue_iterating) => continue_iterating)
        (hbody cmp pre es (Z.of_nat n)) (mem ys, Z.of_nat k, true)
      = if (2 * Z.of_nat last + 3) * es <=? room then Ok (mem zs, k', false) else UB OutOfBounds.
  Proof.
    revert ys k. induction fuel as [|f IH]; intros ys k Hw Hl Hn Hk Hf; [lia|].
    cbn [cwhile]. rewrite hbody_room by (done || lia).
    assert (Hk' : (k < length ys)%nat) by (unfold len in Hl; lia).
    assert (Hn' : (n <= length ys)%nat) by (unfold len in Hl; lia).
    rewrite child2_nat by done.
    destruct (pick_cases cmp n k ys) as [Ec|[Hc Hcn]].
    - exists ys, k. split; [by constructor|]. split; [done|]. rewrite Ec, Z.eqb_refl.
      exists (Z.of_nat k). destruct (_ <=? room); [|done]. cbn [bind].
      destruct f as [|f]; [lia|]. done.
    - replace (Z.of_nat (pick cmp n ys k) =? Z.of_nat k) with false by lia.
      assert (Hp : (pick cmp n ys k < length ys)%nat) by lia.
      rewrite <- exchange_swp by done.
      destruct (IH (exchange ys k (pick cmp n ys k)) (pick cmp n ys k)) as (zs & last & Hs & Hlast & k' & E);
        [by apply (wf_perm es ys); [apply exchange_perm|]| |done|unfold len in Hl; lia|lia|].
      { unfold len. by rewrite exchange_perm. }
      exists zs, last. split; [apply sifts_down; [lia|done]|]. split; [done|]. exists k'.
      apply sifts_perm in Hs as (_ & Hlk & _ & _).
      destruct (Z.leb_spec ((2 * Z.of_nat k + 3) * es) room) as [HR|HR]; [done|].
      assert ((2 * Z.of_nat k + 3) * es <= (2 * Z.of_nat last + 3) * es) by nia.
      destruct (Z.leb_spec ((2 * Z.of_nat last + 3) * es) room); [lia|done].
  Qed.

  Lemma heapify_room (n : nat) (ys : list (list Z)) (k : nat) :
    wf ys -> len ys = N -> Z.of_nat n <= N -> Z.of_nat k < N ->
    exists zs last, sifts cmp n ys k zs last /\ Z.of_nat last < N /\
      Heapify cmp (mem ys) (len pre) (Z.of_nat n) (Z.of_nat k) es
      = if (2 * Z.of_nat last + 3) * es <=? room then Ok (mem zs) else UB OutOfBounds.
  Proof.
    intros Hw Hl Hn Hk. unfold Heapify.
    destruct (loop_room n (S (S (Z.to_nat (Z.of_nat n)))) ys k) as (zs & last & Hs & Hlast & k' & E);
      [done|done|done|done|lia|].
    exists zs, last. split; [done|]. split; [done|].
    fold (hbody cmp pre es (Z.of_nat n)). rewrite E. by destruct (_ <=? room).
  Qed.

  Lemma max_room (a e : nat) :
    (Z.of_nat (Nat.max a e) * es <=? room) = (Z.of_nat a * es <=? room) && (Z.of_nat e * es <=? room).
  Proof.
    destruct (Nat.le_ge_cases a e) as [H|H].
    - rewrite Nat.max_r by done. assert (Z.of_nat a * es <= Z.of_nat e * es) by nia. lia.
    - rewrite Nat.max_l by done. assert (Z.of_nat e * es <= Z.of_nat a * es) by nia. lia.
  Qed.

  Lemma builds_room (i : nat) (xs : list (list Z)) :
    wf xs -> len xs = N -> Z.of_nat i <= N ->
    exists ys e, builds cmp i xs ys e /\ Permutation ys xs /\
      cford (Z.of_nat i - 1) 0 (fun i m => Heapify cmp m (len pre) N i es) (mem xs)
      = if Z.of_nat e * es <=? room then Ok (mem ys) else UB OutOfBounds.
  Proof.
    revert xs. induction i as [|i IH]; intros xs Hw Hl Hi.
    { exists xs, O. split; [constructor|]. split; [done|]. rewrite cford_empty by lia.
      pose proof (len_nonneg post). unfold room. destruct (Z.leb_spec (Z.of_nat 0 * es) (N * es + len post)); [done|nia]. }
    rewrite cford_step by lia. replace (Z.of_nat (S i) - 1) with (Z.of_nat i) by lia.
    assert (HlN : N = Z.of_nat (length xs)) by (unfold len in Hl; lia).
    destruct (heapify_room (length xs) xs i Hw Hl ltac:(lia) ltac:(lia)) as (ys & last & Hs & Hlast & E).
    rewrite <- HlN in E. rewrite E.
    apply sifts_perm in Hs as Hs'. destruct Hs' as (Hp & _).
    destruct (IH ys) as (zs & e & Hb & Hp' & E'); [by apply (wf_perm es xs)| |lia|].
    { unfold len. rewrite Hp. done. }
    exists zs, (Nat.max (2 * last + 3) e). split; [by econstructor|]. split; [by rewrite Hp'|].
    rewrite max_room. replace (Z.of_nat (2 * last + 3)) with (2 * Z.of_nat last + 3) by lia.
    destruct (_ <=? room); cbn [andb bind]; [|done]. done.
  Qed.

  Lemma drains_room (i : nat) (xs : list (list Z)) :
    wf xs -> len xs = N -> Z.of_nat i <= N ->
    exists ys e, drains cmp i xs ys e /\ Permutation ys xs /\
      cford (Z.of_nat i - 1) 0
        (fun i m => let! o := ck32 (i * es) in
                    let! m := Utils_swapElements m (len pre) (len pre + o) (u32 es) in
                    Heapify cmp m (len pre) i 0 es) (mem xs)
      = if Z.of_nat e * es <=? room then Ok (mem ys) else UB OutOfBounds.
  Proof.
    revert xs. induction i as [|i IH]; intros xs Hw Hl Hi.
    { exists xs, O. split; [constructor|]. split; [done|]. rewrite cford_empty by lia.
      pose proof (len_nonneg post). unfold room. destruct (Z.leb_spec (Z.of_nat 0 * es) (N * es + len post)); [done|nia]. }
    rewrite cford_step by lia. replace (Z.of_nat (S i) - 1) with (Z.of_nat i) by lia.
    assert (HlN : N = Z.of_nat (length xs)) by (unfold len in Hl; lia).
    pose proof (offset2 es Hes (Z.of_nat i) (2 * N) ltac:(lia)) as Hoi.
    assert (Hes2 : es <= 2 * N * es) by nia.
    rewrite ck32_ok by lia. cbn [bind]. rewrite u32_small by lia.
    pose proof (swap_mem pre post es Hes xs 0 (Z.of_nat i) Hw ltac:(lia) ltac:(lia)) as Esw.
    rewrite Z.mul_0_l, Z.add_0_r in Esw. rewrite Esw. cbn [bind].
    assert (Ex : swp xs 0 (Z.of_nat i) = exchange xs 0 i) by (by rewrite exchange_swp by lia).
    rewrite Ex.
    pose proof (exchange_perm cmp xs 0 i) as Hpe.
    destruct (heapify_room i (exchange xs 0 i) 0) as (ys & last & Hs & Hlast & E);
      [by apply (wf_perm es xs)|unfold len; by rewrite Hpe|lia|lia|].
    change (Z.of_nat 0) with 0 in E. rewrite E.
    apply sifts_perm in Hs as Hs'. destruct Hs' as (Hp & _). rewrite Hpe in Hp.
    destruct (IH ys) as (zs & e & Hb & Hp' & E'); [by apply (wf_perm es xs)| |lia|].
    { unfold len. rewrite Hp. done. }
    exists zs, (Nat.max (2 * last + 3) e). split; [by econstructor|]. split; [by rewrite Hp'|].
    rewrite max_room. replace (Z.of_nat (2 * last + 3)) with (2 * Z.of_nat last + 3) by lia.
    destruct (_ <=? room); cbn [andb bind]; [|done]. rewrite u32_small in E' by lia. exact E'.
  Qed.
End reads.

Lemma heap_reads cmp es xs : elements_of es xs -> 2 * len xs < 2 ^ 31 -> 2 * len xs * es < 2 ^ 31 ->
  forall pre post, exists ys extent, heap_run cmp xs ys extent /\ Permutation ys xs /\
    HeapSort_sort cmp (pre ++ concat xs ++ post) (len pre) (len xs) es
    = if Z.of_nat extent * es <=? len xs * es + len post then Ok (pre ++ concat ys ++ post)
      else UB OutOfBounds.
Proof.
  intros (Hes & Hw & _) H1 H2 pre post. pose proof (len_nonneg xs) as HN.
  unfold HeapSort_sort. rewrite Z.quot_div_nonneg by lia. rewrite ck32_ok by lia. cbn [bind].
  assert (Hh : len xs / 2 = Z.of_nat (length xs / 2)).
  { unfold len. rewrite Nat2Z.inj_div. done. }
  rewrite Hh.
  destruct (builds_room cmp pre post es Hes (len xs) HN H1 H2 (length xs / 2) xs Hw eq_refl)
    as (ys & e1 & Hb & Hp & E1); [rewrite <- Hh; lia|]. rewrite E1.
  assert (Hly : len ys = len xs) by (unfold len; by rewrite Hp).
  destruct (drains_room cmp pre post es Hes (len xs) HN H1 H2 (length xs) ys) as (zs & e2 & Hd & Hp2 & E2);
    [by apply (wf_perm es xs)|done|unfold len; lia|].
  exists zs, (Nat.max e1 e2). split; [by exists ys, e1, e2|]. split; [by rewrite Hp2|].
  pose proof (max_room cmp post es Hes (len xs) e1 e2) as EM. unfold room in *. rewrite EM.
  destruct (Z.of_nat e1 * es <=? len xs * es + len post); cbn [andb bind]; [|done].
  rewrite ck32_ok by lia. cbn [bind]. change (len xs - 1) with (Z.of_nat (length xs) - 1). exact E2.
Qed.

Section run.
  Context {A : Type} (cmp : A -> A -> bool).
  Implicit Types (xs ys zs : list A).
  Lemma sifts_det n xs k ys last ys' last' :
    sifts cmp n xs k ys last -> sifts cmp n xs k ys' last' -> ys = ys' /\ last = last'.
  Proof.
    intros H. revert ys' last'. induction H as [xs k E|xs k ys last E _ IH]; intros ys' last' H'.
    - inversion H'; subst; done.
    - inversion H'; subst; [done|]. by apply IH.
  Qed.
  Lemma builds_det i xs ys e ys' e' :
    builds cmp i xs ys e -> builds cmp i xs ys' e' -> ys = ys' /\ e = e'.
  Proof.
    intros H. revert ys' e'. induction H as [xs|i xs ys zs last e Hs _ IH]; intros ys' e' H'.
    - by inversion H'.
    - inversion H' as [|? ? ys2 ? last2 e2 Hs2 Hb2]; subst.
      destruct (sifts_det _ _ _ _ _ _ _ Hs Hs2) as [-> ->]. by destruct (IH _ _ Hb2) as [-> ->].
  Qed.
  Lemma drains_det i xs ys e ys' e' :
    drains cmp i xs ys e -> drains cmp i xs ys' e' -> ys = ys' /\ e = e'.
  Proof.
    intros H. revert ys' e'. induction H as [xs|i xs ys zs last e Hs _ IH]; intros ys' e' H'.
    - by inversion H'.
    - inversion H' as [|? ? ys2 ? last2 e2 Hs2 Hb2]; subst.
      destruct (sifts_det _ _ _ _ _ _ _ Hs Hs2) as [-> ->]. by destruct (IH _ _ Hb2) as [-> ->].
  Qed.
  Lemma heap_run_det xs ys e ys' e' :
    heap_run cmp xs ys e -> heap_run cmp xs ys' e' -> ys = ys' /\ e = e'.
  Proof.
    intros (hs & e1 & e2 & Hb & Hd & ->) (hs' & e1' & e2' & Hb' & Hd' & ->).
    destruct (builds_det _ _ _ _ _ _ Hb Hb') as [-> ->].
    by destruct (drains_det _ _ _ _ _ _ Hd Hd') as [-> ->].
  Qed.

  (** *** Existence and bounds *)
  Lemma sifts_ex n xs k : exists ys last, sifts cmp n xs k ys last.
  Proof.
    remember (n - k)%nat as d eqn:Ed. revert xs k Ed.
    induction (lt_wf d) as [d _ IH]. intros xs k Ed.
    destruct (pick_cases cmp n k xs) as [E|[Hc Hn]].
    - exists xs, k. by constructor.
    - destruct (IH (n - pick cmp n xs k)%nat ltac:(lia) (exchange xs k (pick cmp n xs k)) (pick cmp n xs k) eq_refl)
        as (ys & last & Hs).
      exists ys, last. apply sifts_down; [lia|done].
  Qed.
  Lemma builds_ex i xs : exists ys e, builds cmp i xs ys e.
  Proof.
    revert xs. induction i as [|i IH]; intros xs; [exists xs, O; constructor|].
    destruct (sifts_ex (length xs) xs i) as (ys & last & Hs). destruct (IH ys) as (zs & e & Hb).
    exists zs, (Nat.max (2 * last + 3) e). by econstructor.
  Qed.
  Lemma drains_ex i xs : exists ys e, drains cmp i xs ys e.
  Proof.
    revert xs. induction i as [|i IH]; intros xs; [exists xs, O; constructor|].
    destruct (sifts_ex i (exchange xs 0 i) 0) as (ys & last & Hs). destruct (IH ys) as (zs & e & Hb).
    exists zs, (Nat.max (2 * last + 3) e). by econstructor.
  Qed.
  Lemma heap_run_ex xs : exists ys e, heap_run cmp xs ys e.
  Proof.
    destruct (builds_ex (length xs / 2) xs) as (hs & e1 & Hb).
    destruct (drains_ex (length xs) hs) as (ys & e2 & Hd). exists ys, (Nat.max e1 e2).
    by exists hs, e1, e2.
  Qed.
End run.

Section extent.
  Context {A : Type} (cmp : A -> A -> bool).
  Implicit Types (xs ys zs : list A).

  Lemma sifts_length n xs k ys last : sifts cmp n xs k ys last -> length ys = length xs.
  Proof.
    induction 1 as [|xs k ys last E _ IH]; [done|]. rewrite IH. unfold exchange.
    destruct (xs !! k); [|done]. destruct (xs !! _); [|done]. by rewrite !insert_length.
  Qed.
  Lemma sifts_last n xs k ys last : sifts cmp n xs k ys last ->
    (k <= last)%nat /\ (last < n \/ last = k)%nat.
  Proof.
    induction 1 as [xs k E|xs k ys last E _ (IH1 & IH2)]; [lia|].
    destruct (pick_cases cmp n k xs) as [?|[Hc Hn]]; [done|]. lia.
  Qed.
  Lemma builds_bound i xs ys e : builds cmp i xs ys e -> (i <= length xs)%nat ->
    length ys = length xs /\ (e <= 2 * length xs + 1)%nat /\ ((0 < i)%nat -> (2 * i + 1 <= e)%nat).
  Proof.
    induction 1 as [xs|i xs ys zs last e Hs _ IH]; intros Hi; [lia|].
    apply sifts_last in Hs as Hl. apply sifts_length in Hs. rewrite Hs in IH.
    destruct IH as (IH1 & IH2 & IH3); [lia|]. rewrite IH1. lia.
  Qed.
  Lemma exchange_length xs i j : length (exchange xs i j) = length xs.
  Proof.
    unfold exchange. destruct (xs !! i); [|done]. destruct (xs !! j); [|done].
    by rewrite !insert_length.
  Qed.
  Lemma drains_bound i xs ys e : drains cmp i xs ys e ->
    length ys = length xs /\ (e <= 2 * i + 1)%nat /\ ((0 < i)%nat -> (3 <= e)%nat).
  Proof.
    induction 1 as [xs|i xs ys zs last e Hs _ IH]; [lia|].
    apply sifts_last in Hs as Hl. apply sifts_length in Hs. rewrite exchange_length in Hs.
    rewrite Hs in IH. destruct IH as (IH1 & IH2 & IH3). rewrite IH1. lia.
  Qed.

  Lemma heap_run_bounds xs ys e : heap_run cmp xs ys e ->
    (xs = [] -> e = 0%nat) /\ (e <= 2 * length xs + 1)%nat /\
    ((0 < length xs)%nat -> (3 <= e /\ length xs <= e)%nat) /\
    ((0 < length xs)%nat -> Nat.even (length xs) = true -> (length xs + 1 <= e)%nat).
  Proof.
    intros (hs & e1 & e2 & Hb & Hd & ->).
    split.
    { intros ->. by inversion Hb; inversion Hd. }
    pose proof (Nat.div_mod_eq (length xs) 2) as Hdm.
    pose proof (Nat.mod_upper_bound (length xs) 2 ltac:(lia)) as Hm.
    apply builds_bound in Hb as (Hl & Hb1 & Hb2); [|lia].
    apply drains_bound in Hd as (Hl2 & Hd1 & Hd2). split; [lia|]. split.
    - intros Hpos. split; [lia|].
      destruct (Nat.eq_dec (length xs / 2) 0); lia.
    - intros Hpos Hev. apply Nat.even_spec in Hev as [h Hh]. lia.
  Qed.

  (** strictly ascending elements: the farthest possible *)
  Lemma sifts_leaf n xs k ys last : (n <= 2 * k + 1)%nat -> sifts cmp n xs k ys last -> last = k.
  Proof.
    intros Hn H. inversion H as [|? ? ? ? Hp]; subst; [done|].
    destruct (pick_cases cmp n k xs) as [?|[??]]; [done|lia].
  Qed.
  Lemma heap_run_ascending xs ys e : heap_run cmp xs ys e -> (0 < length xs)%nat ->
    (forall i j x y, (i < j)%nat -> xs !! i = Some x -> xs !! j = Some y -> cmp y x = true) ->
    e = (2 * length xs + 1)%nat.
  Proof.
    intros Hr Hpos Hasc. pose proof (heap_run_bounds xs ys e Hr) as (_ & Hub & Hlb & _).
    assert (Hab : forall i j, (i < j < length xs)%nat -> above cmp xs j i = true).
    { intros i j Hij. unfold above.
      destruct (xs !! j) as [y|] eqn:Ej; [|apply lookup_ge_None in Ej; lia].
      destruct (xs !! i) as [x|] eqn:Ei; [|apply lookup_ge_None in Ei; lia]. apply (Hasc i j); (done || lia). }
    destruct Hr as (hs & e1 & e2 & Hb & Hd & ->).
    destruct (Nat.eq_dec (length xs) 1) as [H1|H1]; [lia|].
    pose proof (Nat.div_mod_eq (length xs) 2) as Hdm.
    pose proof (Nat.mod_upper_bound (length xs) 2 ltac:(lia)) as Hm.
    remember (length xs / 2)%nat as h eqn:Eh.
    inversion Hb as [|i xs' ys' zs' last e' Hs Hb']; subst; [lia|].
    assert (Hp : pick cmp (length xs) xs i = (length xs - 1)%nat).
    { unfold pick. destruct (Nat.eq_dec (length xs mod 2) 0) as [H0|H0].
      - replace (2 * i + 1)%nat with (length xs - 1)%nat by lia.
        replace (2 * i + 2)%nat with (length xs) by lia.
        rewrite Nat.ltb_irrefl. cbn [andb]. rewrite Hab by lia.
        by destruct (Nat.ltb_spec (length xs - 1) (length xs)); [|lia].
      - replace (2 * i + 2)%nat with (length xs - 1)%nat by lia.
        destruct (Nat.ltb_spec (2 * i + 1) (length xs)); [|lia]. cbn [andb].
        rewrite (Hab i (2 * i + 1)%nat) by lia. rewrite Hab by lia.
        by destruct (Nat.ltb_spec (length xs - 1) (length xs)); [|lia]. }
    inversion Hs as [|? ? ? ? Hne Hs']; subst; [lia|].
    rewrite Hp in Hs'. apply sifts_leaf in Hs'; [|lia]. lia.
  Qed.

  (** no element greater than another one: the least possible *)
  Lemma sifts_flat n xs k ys last :
    (forall x y, x ∈ xs -> y ∈ xs -> cmp x y = false) -> sifts cmp n xs k ys last ->
    ys = xs /\ last = k.
  Proof.
    intros HF H.
    assert (Hab : forall i j, above cmp xs i j = false).
    { intros i j. unfold above. destruct (xs !! i) eqn:Ei; [|done].
      destruct (xs !! j) eqn:Ej; [|done]. apply HF; by eapply elem_of_list_lookup_2. }
    inversion H as [|? ? ? ? Hp]; subst; [done|]. destruct Hp. unfold pick.
    rewrite !Hab, !andb_false_r. done.
  Qed.
  Lemma exchange_in xs i j x : x ∈ exchange xs i j -> x ∈ xs.
  Proof.
    unfold exchange. destruct (xs !! i) eqn:Ei; [|done]. destruct (xs !! j) eqn:Ej; [|done].
    intros H. apply elem_of_list_lookup in H as [p Hp].
    apply list_lookup_insert_Some in Hp as [(-> & <- & _)|[_ Hp]]; [by eapply elem_of_list_lookup_2|].
    apply list_lookup_insert_Some in Hp as [(-> & <- & _)|[_ Hp]]; by eapply elem_of_list_lookup_2.
  Qed.
  Lemma builds_flat i xs ys e : builds cmp i xs ys e ->
    (forall x y, x ∈ xs -> y ∈ xs -> cmp x y = false) ->
    ys = xs /\ e = (if (0 <? i)%nat then 2 * i + 1 else 0)%nat.
  Proof.
    induction 1 as [xs|i xs ys zs last e Hs _ IH]; intros HF; [done|].
    apply sifts_flat in Hs as [-> ->]; [|done]. destruct (IH HF) as [-> ->]. split; [done|].
    destruct (Nat.ltb_spec 0 i), (Nat.ltb_spec 0 (S i)); lia.
  Qed.
  Lemma drains_flat i xs ys e : drains cmp i xs ys e ->
    (forall x y, x ∈ xs -> y ∈ xs -> cmp x y = false) -> (e <= 3)%nat.
  Proof.
    induction 1 as [xs|i xs ys zs last e Hs _ IH]; intros HF; [lia|].
    assert (HE : forall x y, x ∈ exchange xs 0 i -> y ∈ exchange xs 0 i -> cmp x y = false).
    { intros x y Hx Hy. apply HF; by eapply exchange_in. }
    apply sifts_flat in Hs as [-> ->]; [|done]. specialize (IH HE). lia.
  Qed.
  Lemma heap_run_flat xs ys e : heap_run cmp xs ys e ->
    (forall x y, x ∈ xs -> y ∈ xs -> cmp x y = false) -> (3 <= length xs)%nat ->
    Nat.odd (length xs) = true -> e = length xs.
  Proof.
    intros (hs & e1 & e2 & Hb & Hd & ->) HF H3 Ho. apply Nat.odd_spec in Ho as [h Hh].
    apply builds_flat in Hb as [-> ->]; [|done]. apply drains_flat in Hd; [|done].
    pose proof (Nat.div_mod_eq (length xs) 2) as Hdm.
    pose proof (Nat.mod_upper_bound (length xs) 2 ltac:(lia)) as Hm.
    destruct (Nat.ltb_spec 0 (length xs / 2)); lia.
  Qed.
End extent.

Lemma heap_exact cmp es xs ys extent : elements_of es xs -> 2 * len xs < 2 ^ 31 ->
  2 * len xs * es < 2 ^ 31 -> heap_run cmp xs ys extent ->
  forall pre post, HeapSort_sort cmp (pre ++ concat xs ++ post) (len pre) (len xs) es
    = if Z.of_nat extent * es <=? len xs * es + len post then Ok (pre ++ concat ys ++ post)
      else UB OutOfBounds.
Proof.
  intros HE H1 H2 Hr pre post.
  destruct (heap_reads cmp es xs HE H1 H2 pre post) as (ys' & e' & Hr' & _ & E).
  by destruct (heap_run_det cmp _ _ _ _ _ Hr Hr') as [-> ->].
Qed.
Lemma heap_run_exists {A} (cmp : A -> A -> bool) xs : exists ys extent, heap_run cmp xs ys extent /\
  (xs = [] -> extent = 0%nat) /\ (extent <= 2 * length xs + 1)%nat /\
  ((0 < length xs)%nat -> (3 <= extent /\ length xs <= extent)%nat) /\
  ((0 < length xs)%nat -> Nat.even (length xs) = true -> (length xs + 1 <= extent)%nat).
Proof.
  destruct (heap_run_ex cmp xs) as (ys & e & Hr). exists ys, e. split; [done|].
  by apply heap_run_bounds in Hr.
Qed.

Lemma concat_inj (es : Z) xs ys : Forall (fun x : list Z => len x = es) xs ->
  Forall (fun x => len x = es) ys -> length xs = length ys -> concat xs = concat ys -> xs = ys.
Proof.
  intros Hx. revert ys. induction Hx as [|x xs Hx _ IH]; intros [|y ys] Hy Hl E; try done.
  inversion Hy as [|? ? Hy1 Hy2]; subst. cbn [concat] in E.
  apply app_inj_1 in E as [-> E]; [|unfold len in *; lia]. f_equal. apply IH; [done| |done].
  by injection Hl.
Qed.
Lemma heap_whenever cmp es xs pre post m : elements_of es xs -> 2 * len xs < 2 ^ 31 ->
  2 * len xs * es < 2 ^ 31 ->
  HeapSort_sort cmp (pre ++ concat xs ++ post) (len pre) (len xs) es = Ok m ->
  exists ys, m = pre ++ concat ys ++ post /\ Forall (fun y => len y = es) ys /\
    Permutation ys xs /\ (strict_weak_order cmp xs -> ascending cmp ys).
Proof.
  intros HE H1 H2 E. pose proof HE as (Hes & Hw & _).
  destruct (heap_all cmp es xs HE H1 H2) as (zs & Hz & Hwz & Hpz & Hs).
  destruct (heap_reads cmp es xs HE H1 H2 pre post) as (ys & e & Hr & Hp & E').
  exists ys. assert (Hwy : Forall (fun y => len y = es) ys) by by apply (wf_perm es xs).
  assert (ys = zs) as ->.
  { pose (big := replicate (Z.to_nat ((len xs + 1) * es)) 0).
    pose proof (len_nonneg xs).
    assert (Hbig : (len xs + 1) * es <= len big).
    { unfold big, len at 2. rewrite replicate_length. lia. }
    specialize (Hz [] big Hbig).
    pose proof (heap_exact cmp es xs ys e HE H1 H2 Hr [] big) as Hex. rewrite Hz in Hex.
    match type of Hex with context [if ?b then _ else _] => destruct b end; [|done].
    injection Hex as Hex. apply app_inv_tail in Hex.
    apply (concat_inj es); [done|done| |done]. by rewrite Hp, Hpz. }
  rewrite E' in E. match type of E with context [if ?b then _ else _] => destruct b end; [|done].
  by injection E as <-.
Qed.
