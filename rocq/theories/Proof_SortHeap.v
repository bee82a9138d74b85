(** * Proofs about heap sort *)
From stdpp Require Import relations.
From Verif Require Import Lib Model_Utils Model_Sort Spec_Sort Proof_Utils Proof_Map Proof_Sort.

Definition pford {S} (a b : Z) (g : Z -> S -> S) (s : S) : S :=
  pfor 0 (a + 1 - b) (fun k => g (a - k)) s.
Lemma pford_empty {S} a b (g : Z -> S -> S) s : a < b -> pford a b g s = s.
Proof. intros. unfold pford. by rewrite pfor_empty by lia. Qed.
Lemma pford_succ {S} a b (g : Z -> S -> S) s :
  b <= a -> pford a b g s = g b (pford a (b + 1) g s).
Proof.
  intros. unfold pford. replace (a + 1 - b) with (a + 1 - (b + 1) + 1) by lia.
  rewrite pfor_succ by lia. f_equal. lia.
Qed.
Lemma offset2 es (Hes : 0 <= es) a b : 0 <= a <= b -> 0 <= a * es <= b * es.
Proof. nia. Qed.

(** ** What sifting down computes *)

Section sift.
  Context {A : Type} `{Inhabited A} (cmp : A -> A -> bool).
  Implicit Types (xs ys : list A).

  Definition child1 n k xs : Z :=
    if (2 * k + 1 <? n) && cmp (get xs (2 * k + 1)) (get xs k) then 2 * k + 1 else k.
  Definition child2 n k xs : Z :=
    if (2 * k + 2 <? n) && cmp (get xs (2 * k + 2)) (get xs (child1 n k xs)) then 2 * k + 2
    else child1 n k xs.
  Fixpoint sift (fuel : nat) (n k : Z) xs : list A :=
    match fuel with
    | O => xs
    | S f => if child2 n k xs =? k then xs else sift f n (child2 n k xs) (swp xs k (child2 n k xs))
    end.
  Definition heapify (n k : Z) xs := sift (S (S (Z.to_nat n))) n k xs.
  Definition heap xs : list A :=
    let ys := pford (len xs / 2 - 1) 0 (fun i ys => heapify (len xs) i ys) xs in
    pford (len xs - 1) 0 (fun i ys => heapify i 0 (swp ys 0 i)) ys.

  Lemma child2_cases n k xs : 0 <= k ->
    child2 n k xs = k \/
    ((child2 n k xs = 2 * k + 1 \/ child2 n k xs = 2 * k + 2) /\ child2 n k xs < n).
  Proof.
    intros. unfold child2, child1.
    repeat match goal with |- context [if ?b && _ then _ else _] => destruct b eqn:?; cbn [andb] end;
    repeat match goal with |- context [if ?b then _ else _] => destruct b eqn:? end; lia.
  Qed.

  Lemma sift_keeps fuel n k xs :
    0 <= k < len xs -> n <= len xs ->
    Permutation (sift fuel n k xs) xs /\ len (sift fuel n k xs) = len xs /\
    (forall p, n <= p -> 0 <= p -> get (sift fuel n k xs) p = get xs p) /\
    (forall p, 0 <= p < n -> exists p', 0 <= p' < n /\ get (sift fuel n k xs) p = get xs p').
  Proof.
    revert k xs. induction fuel as [|f IH]; intros k xs Hk Hn; cbn [sift].
    { split; [done|]. split; [done|]. split; [done|]. intros p Hp. eauto. }
    destruct (Z.eqb_spec (child2 n k xs) k) as [|Hne].
    { split; [done|]. split; [done|]. split; [done|]. intros p Hp. eauto. }
    destruct (child2_cases n k xs) as [|[Hc Hcn]]; [lia|lia|].
    destruct (IH (child2 n k xs) (swp xs k (child2 n k xs))) as (Hp & Hl & Hg & Hm);
      [rewrite len_swp; lia|rewrite len_swp; lia|].
    remember (child2 n k xs) as c eqn:Ec. rewrite len_swp in Hl.
    split; [rewrite Hp; apply swp_perm; lia|]. split; [done|]. split.
    - intros p Hpn Hp0. rewrite Hg by lia. rewrite get_swp by lia.
      replace (c =? p) with false by lia. replace (k =? p) with false by lia. done.
    - intros p Hp0. destruct (Hm p Hp0) as (p' & Hp' & ->). rewrite get_swp by lia.
      destruct (c =? p'); [exists k; split; [lia|done]|].
      destruct (k =? p'); [exists c; split; [lia|done]|]. eauto.
  Qed.

  (** no child is greater than its parent, for the parents [p] with [P p] *)
  Definition heaped (P : Z -> Prop) (n : Z) xs : Prop :=
    forall p c, 0 <= p -> P p -> c = 2 * p + 1 \/ c = 2 * p + 2 -> c < n ->
      cmp (get xs c) (get xs p) = false.

  Lemma child2_stop n k xs : strict_weak_order cmp xs -> 0 <= k < len xs -> n <= len xs ->
    child2 n k xs = k -> heaped (fun p => p = k) n xs.
  Proof.
    intros Hs Hk Hn Ec p c Hp -> Hc Hcn. unfold child2, child1 in Ec.
    destruct Hc as [->| ->].
    - destruct (cmp (get xs (2 * k + 1)) (get xs k)) eqn:E1; [|done].
      replace (2 * k + 1 <? n) with true in Ec by lia. cbn [andb] in Ec.
      destruct ((2 * k + 2 <? n) && _); lia.
    - replace (2 * k + 2 <? n) with true in Ec by lia. replace (2 * k + 1 <? n) with true in Ec by lia.
      cbn [andb] in Ec. destruct (cmp (get xs (2 * k + 1)) (get xs k)).
      + destruct (cmp (get xs (2 * k + 2)) (get xs (2 * k + 1))); lia.
      + destruct (cmp (get xs (2 * k + 2)) (get xs k)); [lia|done].
  Qed.
  (** the chosen child is greater than the parent, and its sibling is not greater than it *)
  Lemma child2_swap n k xs : strict_weak_order cmp xs -> 0 <= k < len xs -> n <= len xs ->
    child2 n k xs <> k ->
    cmp (get xs (child2 n k xs)) (get xs k) = true /\
    forall c, c = 2 * k + 1 \/ c = 2 * k + 2 -> c < n ->
      cmp (get xs c) (get xs (child2 n k xs)) = false.
  Proof.
    intros Hs Hk Hn Ec. unfold child2, child1 in *.
    destruct (Z.ltb_spec (2 * k + 1) n) as [H1|H1]; cbn [andb] in *.
    2: { replace (2 * k + 2 <? n) with false in * by lia. cbn [andb] in *. lia. }
    destruct (cmp (get xs (2 * k + 1)) (get xs k)) eqn:E1.
    - destruct (Z.ltb_spec (2 * k + 2) n) as [H2|H2]; cbn [andb] in *.
      + destruct (cmp (get xs (2 * k + 2)) (get xs (2 * k + 1))) eqn:E2.
        * split.
          -- destruct (cmp (get xs (2 * k + 2)) (get xs k)) eqn:E3; [done|].
             rewrite (swo_below cmp xs (2 * k + 2) (2 * k + 1) k) in E1; try done; lia.
          -- intros c [->| ->] Hc.
             ++ apply swo_asym; (done || lia).
             ++ apply swo_irrefl; (done || lia).
        * split; [done|]. intros c [->| ->] Hc; [apply swo_irrefl; (done || lia)|done].
      + split; [done|]. intros c [->| ->] Hc; [apply swo_irrefl; (done || lia)|lia].
    - destruct (Z.ltb_spec (2 * k + 2) n) as [H2|H2]; cbn [andb] in *; [|lia].
      destruct (cmp (get xs (2 * k + 2)) (get xs k)) eqn:E2; [|lia].
      split; [done|]. intros c [->| ->] Hc; [|apply swo_irrefl; (done || lia)].
      apply (swo_le_trans cmp xs (2 * k + 1) k (2 * k + 2)); try done; try lia.
      apply swo_asym; (done || lia).
  Qed.

  Lemma sift_heaped i fuel n k xs :
    strict_weak_order cmp xs -> 0 <= i <= k -> k < len xs -> n <= len xs ->
    Z.max 0 (n - k) + 1 <= Z.of_nat fuel ->
    heaped (fun p => i <= p /\ p <> k) n xs ->
    (forall q c, i <= q -> k = 2 * q + 1 \/ k = 2 * q + 2 ->
       c = 2 * k + 1 \/ c = 2 * k + 2 -> c < n -> cmp (get xs c) (get xs q) = false) ->
    heaped (fun p => i <= p) n (sift fuel n k xs).
  Proof.
    revert k xs. induction fuel as [|f IH]; intros k xs Hs Hi Hk Hn Hf Hh Hgp; [lia|].
    cbn [sift]. destruct (Z.eqb_spec (child2 n k xs) k) as [Ec|Hne].
    { pose proof (child2_stop n k xs Hs ltac:(lia) Hn Ec) as Hst.
      intros p c Hp Hip Hc Hcn. destruct (Z.eq_dec p k) as [->|].
      - by apply (Hst k).
      - apply Hh; (done || lia). }
    destruct (child2_cases n k xs) as [|[Hc Hcn]]; [lia|lia|].
    destruct (child2_swap n k xs Hs ltac:(lia) Hn Hne) as [Hgt Hsib].
    remember (child2 n k xs) as g eqn:Eg. clear Eg.
    apply IH.
    - apply (swo_perm cmp xs); [|done]. apply swp_perm; lia.
    - lia.
    - rewrite len_swp. lia.
    - rewrite len_swp. lia.
    - lia.
    - intros p c Hp [Hip Hpg] Hpc Hcn'. rewrite !get_swp by lia.
      replace (g =? p) with false by lia.
      destruct (Z.eqb_spec k p) as [<-|Hkp].
      + destruct (Z.eqb_spec g c) as [<-|].
        * apply swo_asym; try done; lia.
        * replace (k =? c) with false by lia. by apply Hsib.
      + replace (g =? c) with false by lia.
        destruct (Z.eqb_spec k c) as [<-|].
        * apply Hgp; (done || lia).
        * apply Hh; (done || lia).
    - intros q c Hq Hgq Hgc Hcn'. assert (q = k) as -> by lia.
      rewrite !get_swp by lia. replace (g =? c) with false by lia. replace (k =? c) with false by lia.
      replace (g =? k) with false by lia. rewrite Z.eqb_refl. apply Hh; lia.
  Qed.
  Lemma heapify_heaped i n xs :
    strict_weak_order cmp xs -> 0 <= i < len xs -> 0 <= n <= len xs ->
    heaped (fun p => i < p) n xs -> heaped (fun p => i <= p) n (heapify n i xs).
  Proof.
    intros Hs Hi Hn Hh. apply sift_heaped; try done; try lia.
    intros p c Hp Hip. apply Hh; lia.
  Qed.

  Lemma heaped_root n xs : strict_weak_order cmp xs -> 0 < n <= len xs ->
    heaped (fun p => 0 <= p) n xs -> forall c, 0 <= c < n -> cmp (get xs c) (get xs 0) = false.
  Proof.
    intros Hs Hn Hh.
    assert (Hgen : forall m, 0 <= m -> forall c, 0 <= c < m -> c < n ->
      cmp (get xs c) (get xs 0) = false).
    { apply (natlike_ind (fun m => forall c, 0 <= c < m -> c < n ->
        cmp (get xs c) (get xs 0) = false)); [lia|].
      intros m Hm IH c Hc Hcn. destruct (Z.eq_dec c 0) as [->|]; [apply swo_irrefl; (done || lia)|].
      apply (swo_le_trans cmp xs c ((c - 1) / 2) 0); try done; try lia.
      - apply Hh; lia.
      - apply IH; lia. }
    intros c Hc. apply (Hgen n); lia.
  Qed.
End sift.

(** ** Heap sort in memory *)

Section heapsort.
  Context (cmp : list Z -> list Z -> bool) (pre post : list Z) (es : Z) (Hes : 0 <= es).
  Context (N : Z) (HN : 0 <= N) (H2N : 2 * N < 2 ^ 31) (H2Ne : 2 * N * es < 2 ^ 31).
  Context (Hpost : (N + 1) * es <= len post).
  Notation wf := (Forall (fun x => len x = es)).
  Notation mem xs := (pre ++ concat xs ++ post).

  Lemma cmp_read xs a b : wf xs -> len xs = N -> 0 <= a <= 2 * N -> 0 <= b < N ->
    exists r, call_cmp cmp es (mem xs) (len pre + a * es) (mem xs) (len pre + b * es) = Ok r /\
      (a < N -> r = cmp (get xs a) (get xs b)).
  Proof.
    intros Hw Hl Ha Hb. pose proof (len_nonneg pre).
    destruct (Z.lt_ge_cases a N) as [HaN|HaN].
    - rewrite cmp_mem by (done || lia). eauto.
    - pose proof (offset2 es Hes a (2 * N) Ha). pose proof (offset es Hes b N Hb).
      rewrite cmp_any by (rewrite ?(len_mem pre post es) by done; rewrite ?Hl; lia).
      eexists. split; [done|]. lia.
  Qed.

  Definition hbody (n : Z) : list Z * Z * bool -> outcome (ctl (list Z * Z * bool)) :=
    fun '(m, index, continue_iterating) =>
       let largest := index in
       let! left := ck32 (2 * index) in
       let! left := ck32 (left + 1) in
       let! right := ck32 (2 * index) in
       let! right := ck32 (right + 2) in
       let! ol := ck32 (left * es) in
       let! og := ck32 (largest * es) in
       let! c := call_cmp cmp es m (len pre + ol) m (len pre + og) in
       let largest := if (left <? n) && c then left else largest in
       let! or := ck32 (right * es) in
       let! og := ck32 (largest * es) in
       let! c := call_cmp cmp es m (len pre + or) m (len pre + og) in
       let largest := if (right <? n) && c then right else largest in
       if negb (largest =? index) then
         let! oi := ck32 (index * es) in
         let! og := ck32 (largest * es) in
         let! m := Utils_swapElements m (len pre + oi) (len pre + og) (u32 es) in
         Ok (Next (m, largest, continue_iterating))
       else Ok (Next (m, index, false)).

  Lemma hbody_ok n ys k :
    wf ys -> len ys = N -> n <= N -> 0 <= k < N ->
    hbody n (mem ys, k, true)
    = Ok (Next (if child2 cmp n k ys =? k then (mem ys, k, false)
                else (mem (swp ys k (child2 cmp n k ys)), child2 cmp n k ys, true))).
  Proof.
    intros Hw Hl Hn Hk. unfold hbody. pose proof (len_nonneg pre).
    pose proof (offset2 es Hes (2 * k + 1) (2 * N) ltac:(lia)) as Hol.
    pose proof (offset2 es Hes (2 * k + 2) (2 * N) ltac:(lia)) as Hor.
    pose proof (offset2 es Hes k (2 * N) ltac:(lia)) as Ho.
    assert (Hes2 : es <= 2 * N * es) by nia.
    rewrite !(ck32_ok (2 * k)) by lia. cbn [bind].
    rewrite !(ck32_ok (2 * k + 1)), !(ck32_ok (2 * k + 2)) by lia. cbn [bind].
    rewrite !(ck32_ok ((2 * k + 1) * es)), !(ck32_ok (k * es)) by lia. cbn [bind].
    destruct (cmp_read ys (2 * k + 1) k) as (r1 & -> & Hr1); [done|done|lia|lia|]. cbn [bind].
    assert (E1 : (if (2 * k + 1 <? n) && r1 then 2 * k + 1 else k) = child1 cmp n k ys).
    { unfold child1. destruct (Z.ltb_spec (2 * k + 1) n); cbn [andb]; [|done].
      by rewrite Hr1 by lia. }
    rewrite E1. rewrite !(ck32_ok ((2 * k + 2) * es)) by lia. cbn [bind].
    assert (Hc1 : 0 <= child1 cmp n k ys < N).
    { unfold child1. destruct (Z.ltb_spec (2 * k + 1) n); cbn [andb]; [|lia].
      destruct (cmp _ _); lia. }
    assert (Hc1' : 0 <= child1 cmp n k ys <= 2 * N) by lia.
    pose proof (offset2 es Hes _ _ Hc1') as Hog.
    rewrite (ck32_ok (child1 cmp n k ys * es)) by lia. cbn [bind].
    destruct (cmp_read ys (2 * k + 2) (child1 cmp n k ys)) as (r2 & -> & Hr2);
      [done|done|lia|lia|]. cbn [bind].
    assert (E2 : (if (2 * k + 2 <? n) && r2 then 2 * k + 2 else child1 cmp n k ys)
                 = child2 cmp n k ys).
    { unfold child2. destruct (Z.ltb_spec (2 * k + 2) n); cbn [andb]; [|done].
      by rewrite Hr2 by lia. }
    rewrite E2. destruct (child2_cases cmp n k ys ltac:(lia)) as [Ec|[Hc Hcn]].
    - by rewrite Ec, Z.eqb_refl.
    - replace (child2 cmp n k ys =? k) with false by lia. cbn [negb].
      assert (Hc2' : 0 <= child2 cmp n k ys <= 2 * N) by lia.
      pose proof (offset2 es Hes _ _ Hc2') as Hoc.
      rewrite ck32_ok by lia. cbn [bind]. rewrite u32_small by lia.
      rewrite swap_mem by (done || lia). done.
  Qed.
  Lemma heapify_loop n fuel ys k :
    wf ys -> len ys = N -> n <= N -> 0 <= k < N -> Z.max 0 (n - k) + 2 <= Z.of_nat fuel ->
    exists k',
      cwhile fuel (fun '(m, index, continue_iterating) => continue_iterating) (hbody n)
        (mem ys, k, true) = Ok (mem (sift cmp fuel n k ys), k', false).
  Proof.
    revert ys k. induction fuel as [|f IH]; intros ys k Hw Hl Hn Hk Hf; [lia|].
    cbn [cwhile sift]. rewrite hbody_ok by done. cbn [bind].
    destruct (child2_cases cmp n k ys ltac:(lia)) as [Ec|[Hc Hcn]].
    - rewrite Ec, Z.eqb_refl. destruct f as [|f]; [lia|]. cbn [cwhile]. eexists. done.
    - replace (child2 cmp n k ys =? k) with false by lia.
      apply IH; [apply wf_swp; (done || lia)|by rewrite len_swp|done|lia|lia].
  Qed.

  Lemma heapify_ok n ys k : wf ys -> len ys = N -> 0 <= n <= N -> 0 <= k < N ->
    Heapify cmp (mem ys) (len pre) n k es = Ok (mem (heapify cmp n k ys)).
  Proof.
    intros Hw Hl Hn Hk. unfold Heapify.
    destruct (heapify_loop n (S (S (Z.to_nat n))) ys k) as (k' & E); try done; [lia|lia|].
    fold (hbody n). rewrite E. done.
  Qed.

  Lemma heap_ok xs : wf xs -> len xs = N ->
    let ys := heap cmp xs in
    HeapSort_sort cmp (mem xs) (len pre) (len xs) es = Ok (mem ys) /\
    wf ys /\ Permutation ys xs /\ (strict_weak_order cmp xs -> ascending cmp ys).
  Proof.
    intros Hw Hl res. unfold HeapSort_sort. rewrite Hl.
    rewrite Z.quot_div_nonneg by lia. rewrite ck32_ok by lia. cbn [bind].
    ford_rule (fun i m => exists ys, m = mem ys /\
      ys = pford (N / 2 - 1) (i + 1) (fun i ys => heapify cmp N i ys) xs /\
      wf ys /\ len ys = N /\ Permutation ys xs /\
      (strict_weak_order cmp xs -> heaped cmp (fun p => i < p) N ys)) st HQ.
    - lia.
    - exists xs. split; [done|]. split; [by rewrite pford_empty by lia|]. split; [done|].
      split; [done|]. split; [done|]. intros _ p c Hp. lia.
    - intros i m Hi (ys & -> & Hpf & Hwy & Hly & Hp & Hh).
      rewrite heapify_ok by (done || lia). eexists. split; [done|].
      exists (heapify cmp N i ys). split; [done|].
      destruct (sift_keeps cmp (S (S (Z.to_nat N))) N i ys) as (Hp' & Hl' & _);
        [lia|lia|]. fold (heapify cmp N i ys) in Hp', Hl'.
      split; [rewrite pford_succ by lia; replace (i - 1 + 1 + 1) with (i + 1) by lia;
              rewrite <- Hpf; f_equal; lia|].
      split; [by apply (wf_perm es ys)|]. split; [lia|]. split; [by rewrite Hp'|].
      intros Hs p c Hp0 Hip.
      apply (heapify_heaped cmp i N ys); try done; try lia.
      + apply (swo_perm cmp xs); done.
      + by apply Hh.
    - destruct HQ as (ys & -> & Hpf & Hwy & Hly & Hp & Hh). cbn [bind].
      rewrite ck32_ok by lia. cbn [bind].
      ford_rule (fun i m => exists zs, m = mem zs /\
        zs = pford (N - 1) (i + 1) (fun i ys => heapify cmp i 0 (swp ys 0 i)) ys /\
        wf zs /\ len zs = N /\ Permutation zs xs /\
        (strict_weak_order cmp xs -> heaped cmp (fun p => 0 <= p) (i + 1) zs /\
           forall p q, 0 <= p < q -> i < q < N -> cmp (get zs p) (get zs q) = false)) st HQ.
      + lia.
      + exists ys. split; [done|]. split; [by rewrite pford_empty by lia|]. split; [done|].
        split; [done|]. split; [done|]. intros Hs. split; [|lia].
        replace (N - 1 + 1) with N by lia. intros p c Hp0 _. apply (Hh Hs); lia.
      + intros i m Hi (zs & -> & Hpf' & Hwz & Hlz & Hpz & Ho).
        pose proof (offset2 es Hes i (2 * N) ltac:(lia)) as Hoi.
        assert (Hes2 : es <= 2 * N * es) by nia.
        rewrite ck32_ok by lia. cbn [bind]. rewrite u32_small by lia.
        pose proof (swap_mem pre post es Hes zs 0 i Hwz ltac:(lia) ltac:(lia)) as Esw.
        rewrite Z.mul_0_l, Z.add_0_r in Esw. rewrite Esw. cbn [bind].
        set (ws := swp zs 0 i).
        assert (Hww : wf ws) by (apply wf_swp; (done || lia)).
        assert (Hlw : len ws = N) by (unfold ws; by rewrite len_swp).
        assert (Hpw : Permutation ws zs) by (apply swp_perm; lia).
        rewrite heapify_ok by (done || lia). eexists. split; [done|].
        exists (heapify cmp i 0 ws). split; [done|].
        destruct (sift_keeps cmp (S (S (Z.to_nat i))) i 0 ws) as (Hp' & Hl' & Hg' & Hm');
          [lia|lia|]. fold (heapify cmp i 0 ws) in Hp', Hl', Hg', Hm'.
        split; [rewrite pford_succ by lia; replace (i - 1 + 1 + 1) with (i + 1) by lia;
                rewrite <- Hpf'; unfold ws; repeat f_equal; lia|].
        split; [by apply (wf_perm es ws)|]. split; [lia|]. split; [by rewrite Hp', Hpw|].
        intros Hs. destruct (Ho Hs) as [Hheap Hsorted].
        assert (Hsz : strict_weak_order cmp zs) by (apply (swo_perm cmp xs); done).
        assert (Hsw : strict_weak_order cmp ws) by (apply (swo_perm cmp zs); done).
        split.
        * replace (i - 1 + 1) with i by lia. apply heapify_heaped; try done; [lia|lia|].
          intros p c Hp0 Hpi Hc Hcn. unfold ws. rewrite !get_swp by lia.
          replace (i =? c) with false by lia. replace (0 =? c) with false by lia.
          replace (i =? p) with false by lia. replace (0 =? p) with false by lia.
          apply Hheap; lia.
        * intros p q Hpq Hq.
          assert (Hw' : forall p, 0 <= p < i -> cmp (get ws p) (get ws i) = false).
          { intros p0 Hp0. unfold ws. rewrite !get_swp by lia. rewrite Z.eqb_refl.
            replace (i =? p0) with false by lia.
            destruct (Z.eqb_spec 0 p0); apply (heaped_root cmp (i + 1) zs); (done || lia). }
          assert (Hw2 : forall p q, 0 <= p < q -> i < q < N -> cmp (get ws p) (get ws q) = false).
          { intros p0 q0 Hpq0 Hq0. unfold ws. rewrite !get_swp by lia.
            replace (i =? q0) with false by lia. replace (0 =? q0) with false by lia.
            destruct (i =? p0); [apply Hsorted; lia|].
            destruct (0 =? p0); apply Hsorted; lia. }
          rewrite (Hg' q) by lia.
          destruct (Z.lt_ge_cases p i) as [Hpi|Hpi].
          -- destruct (Hm' p) as (p' & Hpp & ->); [lia|].
             destruct (Z.eq_dec q i) as [->|]; [apply Hw'; lia|apply Hw2; lia].
          -- rewrite Hg' by lia. apply Hw2; lia.
      + destruct HQ as (zs & -> & Hpf' & Hwz & Hlz & Hpz & Ho).
        assert (Er : zs = res).
        { rewrite Hpf', Hpf. unfold res, heap. rewrite Hl.
          replace (0 - 1 + 1) with 0 by lia. done. }
        rewrite <- Er. split; [done|]. split; [done|]. split; [done|].
        intros Hs. destruct (Ho Hs) as [_ Hsorted]. apply ascending_get. intros p q Hpq Hq.
        apply Hsorted; lia.
  Qed.
End heapsort.

(** ** Comparisons beyond the buffer *)

Section heap_ub.
  Context (cmp : list Z -> list Z -> bool) (pre post : list Z) (es : Z) (Hes : 0 < es).
  Notation wf := (Forall (fun x => len x = es)).
  Notation mem xs := (pre ++ concat xs ++ post).

  (** sifting from a leaf or from the parent of the last element reads beyond the buffer *)
  Lemma heapify_ub n ys k :
    wf ys -> 0 <= k < len ys -> len ys <= 2 * k + 2 -> (2 * k + 2) * es < 2 ^ 31 ->
    len post < es -> Heapify cmp (mem ys) (len pre) n k es = UB OutOfBounds.
  Proof.
    intros Hw Hk Hl Hsz Hpost. unfold Heapify. cbn [cwhile].
    pose proof (len_nonneg pre).
    assert (Hes' : 0 <= es) by lia.
    pose proof (offset2 es Hes' (2 * k + 1) (2 * k + 2) ltac:(lia)) as Hol.
    pose proof (offset2 es Hes' k (2 * k + 2) ltac:(lia)) as Ho.
    pose proof (offset2 es Hes' (len ys) (2 * k + 2) ltac:(lia)) as Hor.
    assert (2 * k + 2 < 2 ^ 31) by nia.
    rewrite !(ck32_ok (2 * k)) by lia. cbn [bind].
    rewrite !(ck32_ok (2 * k + 1)), !(ck32_ok (2 * k + 2)) by lia. cbn [bind].
    rewrite !(ck32_ok ((2 * k + 1) * es)), !(ck32_ok (k * es)) by lia. cbn [bind].
    assert (Hout : forall a o b, len ys * es <= o ->
      call_cmp cmp es (mem ys) (len pre + o) a b = UB OutOfBounds).
    { intros a o b Hoo. unfold call_cmp.
      rewrite (proj2 (in_range_false (mem ys) _ _)); [done|].
      rewrite (len_mem pre post es) by done. lia. }
    destruct (Z.le_gt_cases (len ys) (2 * k + 1)) as [Hle|Hgt].
    - rewrite Hout; [done|]. apply (offset2 es Hes' (len ys) (2 * k + 1)). lia.
    - rewrite cmp_mem by (done || lia). cbn [bind].
      rewrite !(ck32_ok ((2 * k + 2) * es)) by lia. cbn [bind].
      rewrite ck32_ok; [|destruct ((2 * k + 1 <? n) && _); lia]. cbn [bind].
      rewrite Hout by lia. done.
  Qed.
  Lemma heap_ub xs :
    wf xs -> (len xs + 1) * es < 2 ^ 31 -> len post < es ->
    len xs = 1 \/ (0 < len xs /\ Z.even (len xs) = true) ->
    HeapSort_sort cmp (mem xs) (len pre) (len xs) es = UB OutOfBounds.
  Proof.
    intros Hw Hsz Hpost Hn. pose proof (len_nonneg pre). pose proof (len_nonneg post).
    pose proof (len_nonneg xs). assert (len xs + 1 < 2 ^ 31) by nia.
    unfold HeapSort_sort. rewrite Z.quot_div_nonneg by lia.
    destruct Hn as [Hone|[Hpos Hev]].
    - rewrite Hone. change (1 / 2 - 1) with (-1). change (1 - 1) with 0.
      rewrite !ck32_ok by lia. cbn [bind]. rewrite cford_empty by lia. cbn [bind].
      rewrite cford_step by lia. rewrite !ck32_ok by lia. cbn [bind]. rewrite u32_small by lia.
      pose proof (swap_mem pre post es ltac:(lia) xs 0 0 Hw ltac:(lia) ltac:(lia)) as Esw.
      rewrite Z.mul_0_l, Z.add_0_r in Esw.
      rewrite Z.mul_0_l, Z.add_0_r. rewrite Esw. cbn [bind].
      rewrite heapify_ub; [done|apply wf_swp; (done || lia)| | |lia|done]; rewrite len_swp; lia.
    - apply Z.even_spec in Hev as [h Hh].
      rewrite !ck32_ok by lia. cbn [bind]. rewrite cford_step by lia.
      rewrite heapify_ub; [done|done|lia|lia| |done].
      replace (2 * (len xs / 2 - 1) + 2) with (len xs) by lia. nia.
  Qed.
End heap_ub.
