(** * The hand-written model of sort/*.c against the C text *)
From Verif Require Import CSem Lib CLang C_Utils C_Sort Model_Utils Model_Sort Model_SortState
  Drive_SortText Proof_SortEnd Proof_Term Refine Refine_Utils Refine_Cipher.

(** ** Pointers, comparisons and copies *)

Definition ptr (o : list Z) (p : Z) : outcome unit :=
  if (0 <=? p) && (p <=? len o) then Ok tt else UB OutOfBounds.
Lemma check_ptr_ptr m b w o p : m !! b = Some (ints w o) -> check_ptr m (BObj b) p = ptr o p.
Proof. intros H. by rewrite (check_ptr_ints m b w o p H). Qed.
Lemma ptr_nd o p : ptr o p <> Diverge.
Proof. unfold ptr. by destruct (_ && _). Qed.
Lemma ptr_ok o p : ptr o p = Ok tt <-> 0 <= p <= len o.
Proof. unfold ptr. destruct (_ && _) eqn:E; split; intros; (done || lia). Qed.
Lemma ptr_0 o : ptr o 0 = Ok tt.
Proof. apply ptr_ok. pose proof (len_nonneg o). lia. Qed.

Lemma slice_ints w o p n : slice (ints w o) p n = ints w (slice o p n).
Proof. unfold slice, ints. by rewrite fmap_take, fmap_drop. Qed.
Lemma write_ints w o p x : write (ints w o) p (ints w x) = ints w (write o p x).
Proof. unfold write, ints. by rewrite !fmap_app, fmap_take, fmap_drop, fmap_length. Qed.
Lemma in_range_ints w o p n : in_range (ints w o) p n = in_range o p n.
Proof. unfold in_range. by rewrite len_ints. Qed.
Lemma byte_ints o : forallb is_byte_cell (ints 8 o) = true.
Proof. by induction o. Qed.
Lemma cells_ints o : cells_bytes (ints 8 o) = Ok o.
Proof. induction o as [|z o IH]; [done|]. cbn. unfold ints in IH. by rewrite IH. Qed.
Lemma read_ints m b o p n : m !! b = Some (ints 8 o) ->
  read_bytes m (BObj b) p n = if in_range o p n then Ok (slice o p n) else UB OutOfBounds.
Proof.
  intros H. unfold read_bytes. rewrite (block_obj _ _ _ H). cbn [bind].
  rewrite in_range_ints, slice_ints, cells_ints. done.
Qed.
Lemma lib_memcpy m t t' a o p b o' q n :
  m !! a = Some (ints 8 o) -> m !! b = Some (ints 8 o') -> a <> b ->
  lib LMemcpy [VPtr t (BObj a) p; VPtr t' (BObj b) q; VInt U64 n] m
  = let! o := memcpy o p o' q n in Ok (VPtr TVoid (BObj a) p, <[a := ints 8 o]> m).
Proof.
  intros Ha Hb Hne. cbn [lib cast fits]. unfold copy, memcpy.
  rewrite (block_obj _ _ _ Ha), (block_obj _ _ _ Hb). cbn [bind].
  rewrite !in_range_ints, !slice_ints, !byte_ints, write_ints. destruct (_ && _); [|done].
  cbn [same_blk]. destruct (Nat.eqb_spec a b); done.
Qed.
Lemma lib_memcpy_within m t t' a o p q n :
  m !! a = Some (ints 8 o) ->
  lib LMemcpy [VPtr t (BObj a) p; VPtr t' (BObj a) q; VInt U64 n] m
  = let! o := memcpy_within o p q n in Ok (VPtr TVoid (BObj a) p, <[a := ints 8 o]> m).
Proof.
  intros Ha. cbn [lib cast fits]. unfold copy, memcpy_within.
  rewrite (block_obj _ _ _ Ha). cbn [bind].
  rewrite !in_range_ints, !slice_ints, !byte_ints, write_ints. destruct (_ && _); [|done].
  cbn [same_blk]. rewrite Nat.eqb_refl. cbn [andb]. by destruct (_ || _).
Qed.

Section sort.
  Context {T : Type} (cmp : T -> list Z -> list Z -> T * bool).

  Lemma ext_cmp n f t1 t2 m a o p b o' q t :
    m !! a = Some (ints 8 o) -> m !! b = Some (ints 8 o') ->
    byte_cmp cmp n f [VPtr t1 (BObj a) p; VPtr t2 (BObj b) q] m t
    = let! '(t, c) := call_cmp_state cmp n t o p o' q in Ok (VInt IBool (b2z c), m, t).
  Proof.
    intros Ha Hb. unfold byte_cmp, call_cmp_state.
    rewrite (read_ints _ _ _ _ _ Ha), (read_ints _ _ _ _ _ Hb).
    destruct (in_range o p n); [|done]. cbn [bind andb]. destruct (in_range o' q n); [|done].
    cbn [bind]. by destruct (cmp _ _ _).
  Qed.

  (** ** The sorts in the order of evaluation of the text *)

  (** the offsets of two elements; the first address is formed before the second offset is
      computed *)
  Definition two {A} (m : list Z) (base x y : Z) (k : Z -> Z -> outcome A) : outcome A :=
    let! o1 := ck32 x in
    let! _ := ptr m (base + o1) in
    let! o2 := ck32 y in
    let! _ := ptr m (base + o2) in
    k o1 o2.

  (** bubble_sort.c:39-55, as [BubbleSort_state] *)
  Definition bubble_text (t : T) (m : list Z) (base n es : Z) : outcome (T * list Z) :=
    let! '(t, m, _, _) :=
      cwhile (S (S (Z.to_nat n)))
        (fun '(t, m, swapped, i) => swapped)
        (fun '(t, m, swapped, i) =>
           let! bound := ck32 (n - i) in
           let! bound := ck32 (bound - 1) in
           let! '(t, m, swapped) :=
             cfor 0 bound
               (fun j '(t, m, swapped) =>
                  two m base (j * es) ((j + 1) * es) (fun o1 o2 =>
                  let! '(t, c) := call_cmp_state cmp es t m (base + o1) m (base + o2) in
                  if (c : bool) then
                    let! m := Utils_swapElements m (base + o1) (base + o2) (u32 es) in
                    Ok (t, m, true)
                  else Ok (t, m, swapped)))
               (t, m, false) in
           let! i := ck32 (i + 1) in
           Ok (Next (t, m, swapped, i)))
        (t, m, true, 0) in
    Ok (t, m).

  (** insertion_sort.c:39-70, as [InsertionSort_state] *)
  Definition insertion_text (t : T) (m max_element : list Z) (base n es : Z)
    : outcome (T * list Z * list Z) :=
    cfor 1 n
      (fun i '(t, m, element) =>
         let! o := ck32 (i * es) in
         let! _ := ptr m (base + o) in
         let! element := memcpy element 0 m (base + o) (u64 es) in
         let! o := ck32 ((i - 1) * es) in
         let! _ := ptr m (base + o) in
         let! '(t, compare) := call_cmp_state cmp es t m (base + o) element 0 in
         let! '(t, m, j, _) :=
           cwhile (S (Z.to_nat i))
             (fun '(t, m, j, compare) => (0 <=? j) && compare)
             (fun '(t, m, j, compare) =>
                two m base ((j + 1) * es) (j * es) (fun o1 o =>
                let! m := memcpy_within m (base + o1) (base + o) (u64 es) in
                let! o := ck32 ((j + -1) * es) in
                let! _ := ptr m (base + o) in
                let! '(t, compare) := call_cmp_state cmp es t m (base + o) element 0 in
                Ok (Next (t, m, j + -1, compare))))
             (t, m, i - 1, compare) in
         let! o1 := ck32 ((j + 1) * es) in
         let! _ := ptr m (base + o1) in
         let! m := memcpy m (base + o1) element 0 (u64 es) in
         Ok (t, m, element))
      (t, m, max_element).

  (** selection_sort.c:39-57, as [SelectionSort_state] *)
  Definition selection_text (t : T) (m : list Z) (base n es : Z) : outcome (T * list Z) :=
    let! bound := ck32 (n - 1) in
    cfor 0 bound
      (fun i '(t, m) =>
         let! '(t, min_index) :=
           cfor (i + 1) n
             (fun j '(t, min_index) =>
                two m base (min_index * es) (j * es) (fun o1 o2 =>
                let! '(t, c) := call_cmp_state cmp es t m (base + o1) m (base + o2) in
                Ok (t, if (c : bool) then j else min_index))) (t, i) in
         if negb (min_index =? i) then
           two m base (min_index * es) (i * es) (fun o1 o2 =>
           let! m := Utils_swapElements m (base + o1) (base + o2) (u32 es) in
           Ok (t, m))
         else Ok (t, m)) (t, m).

  (** heap_sort.c:39-71, as [Heapify_state] *)
  Definition heapify_text (t : T) (m : list Z) (base n i es : Z) : outcome (T * list Z) :=
    let! '(t, m, _, _) :=
      cwhile (S (S (Z.to_nat n)))
        (fun '(t, m, index, continue_iterating) => continue_iterating)
        (fun '(t, m, index, continue_iterating) =>
           let! left := ck32 (2 * index) in
           let! left := ck32 (left + 1) in
           let! right := ck32 (2 * index) in
           let! right := ck32 (right + 2) in
           two m base (left * es) (index * es) (fun ol og =>
           let! '(t, c) := call_cmp_state cmp es t m (base + ol) m (base + og) in
           let largest := if (left <? n) && c then left else index in
           two m base (right * es) (largest * es) (fun or og =>
           let! '(t, c) := call_cmp_state cmp es t m (base + or) m (base + og) in
           let largest := if (right <? n) && c then right else largest in
           if negb (largest =? index) then
             two m base (index * es) (largest * es) (fun oi og =>
             let! m := Utils_swapElements m (base + oi) (base + og) (u32 es) in
             Ok (Next (t, m, largest, continue_iterating)))
           else Ok (Next (t, m, index, false)))))
        (t, m, i, true) in
    Ok (t, m).

  (** heap_sort.c:73-86, as [HeapSort_state] *)
  Definition heap_text (t : T) (m : list Z) (base n es : Z) : outcome (T * list Z) :=
    let! top := ck32 (Z.quot n 2 - 1) in
    let! '(t, m) := cford top 0 (fun i '(t, m) => heapify_text t m base n i es) (t, m) in
    let! top := ck32 (n - 1) in
    cford top 0
      (fun i '(t, m) =>
         let! _ := ptr m base in
         let! o := ck32 (i * es) in
         let! _ := ptr m (base + o) in
         let! m := Utils_swapElements m base (base + o) (u32 es) in
         heapify_text t m base i 0 es) (t, m).
End sort.

Ltac head_hook X ::=
  lazymatch X with
  | check_ptr (snd (fst (?E, ?M, ?w))) ?b ?p =>
      change (check_ptr (snd (fst (E, M, w))) b p) with (check_ptr M b p)
  | check_ptr _ (BObj ?b) _ => erewrite check_ptr_ptr; [|look]
  | ptr ?o 0 => rewrite (ptr_0 o); cbn [bind]
  | ptr ?o ?p =>
      first [match goal with H : ptr o p = _ |- _ => rewrite H end; cbn [bind] | both]
  | ck32 ?x => match goal with H : ck32 x = _ |- _ => rewrite H end; cbn [bind]
  | byte_cmp _ _ _ _ _ _ => erewrite ext_cmp; [|look|look]
  | call_cmp_state _ _ _ _ _ _ _ => both
  | lib LMemcpy [VPtr _ (BObj ?a) _; VPtr _ (BObj ?a) _; _] _ =>
      erewrite lib_memcpy_within; [|look]
  | lib LMemcpy [VPtr _ (BObj ?a) _; VPtr _ (BObj ?b) _; _] _ =>
      erewrite lib_memcpy; [|look|look|ne_tac]
  | memcpy _ _ _ _ _ => both; memn
  | memcpy_within _ _ _ _ => both; memn
  end.

Global Hint Resolve ptr_nd call_state_nd : nd.

Section text.
  Context {T : Type} (cmp : T -> list Z -> list Z -> T * bool) (sc : bool) (fuel : nat) (es : Z).
  Local Notation run f := (call sc (byte_cmp cmp es) fuel f).
  Local Notation at8 b p := (VPtr (TInt U8) (BObj b) p).
  Implicit Types (m : mem) (t : T) (o : list Z).

  Lemma text_selection m t b o p n f :
    m !! b = Some (ints 8 o) -> is_s32 n -> is_s32 es ->
    (Z.to_nat n < fuel)%nat -> (Z.to_nat (u32 es) < fuel)%nat ->
    run c_SelectionSort_sort [at8 b p; VInt I32 n; VInt I32 es; VFun f] m t
    = let! '(t, o) := selection_text cmp t o p n es in Ok (VUndef, <[b := ints 8 o]> m, t).
  Proof.
    intros Hb Hn He Hf Hfe. unfold c_SelectionSort_sort, selection_text, two. bounds. go.
    destruct (ck32 (n - 1)) as [top| |] eqn:Etop.
    2,3: destruct fuel as [|fu]; [lia|]; rewrite loop_S; go_body.
    apply ck32_inv in Etop as [-> Etop]. cbn [bind].
    destruct (Z.leb_spec (n - 1) 0).
    { rewrite cfor_empty by lia. rewrite loop_skip; [|lia|go_body].
      go. cbn [bind]. by rewrite list_insert_id. }
    sim_for (fun i '(t, o) => ([at8 b p; VInt I32 n; VInt I32 es; VFun f; at8 b p;
                                if i =? 0 then VUndef else VInt I32 n; VInt I32 i],
                               <[b := ints 8 o]> m, t))
      (fun _ _ => True).
    - cbn. by rewrite list_insert_id.
    - lia.
    - done.
    - lia.
    - intros i [t' s] Hi _. go_body.
      sim_for (fun j '(t, k) => ([at8 b p; VInt I32 n; VInt I32 es; VFun f; at8 b p;
                                 VInt I32 j; VInt I32 i; VInt I32 k],
                               <[b := ints 8 s]> m, t))
        (fun _ '(_, k) => 0 <= k < n).
      + done.
      + lia.
      + lia.
      + lia.
      + intros j [t2 k] Hj Hk. go_body.
      + intros j [t2 k] [t3 k'] Hj Hk E'. repeat (apply bind_ok_inv in E' as (? & ? & E')).
        destruct x3 as [? []]; injection E' as <- <-; lia.
      + intros [t2 k] Hk. go_body.
      + both. go.
        * erewrite ref_swapElements; [|look|unfold is_u32; rng|done]. go. both. go.
          memn. by replace (i + 1 =? 0) with false by lia.
        * go. by replace (i + 1 =? 0) with false by lia.
    - done.
    - intros [t' s] _. replace (n - 1 =? 0) with false by lia. go_body.
    - both. go.
  Qed.
  Lemma bubble_while_nd t o p n :
    bubble_text cmp t o p n es <> Diverge.
  Proof.
    unfold bubble_text, two. apply bind_nd; [|intros ? _; nd].
    apply (cwhile_nd (fun '(t, m, sw, i) => 0 <= i /\ (sw = true -> i = 0 \/ i < n))
      (fun '(t, m, sw, i) => if (sw : bool) then Z.max n 0 + 1 - i else 0)).
    - lia.
    - lia.
    - intros [[[t' m'] sw] i] [Hi Hs] ->. specialize (Hs eq_refl). split; [nd|].
      intros [[[t2 m2] s2] i2] E. inv. destruct x1 as [[t3 m3] s3]. inv. injection E as <- <- <- <-.
      destruct (Z.le_gt_cases (n - i - 1) 0) as [Hle|Hgt].
      + rewrite cfor_empty in H1 by lia. injection H1 as <- <- <-. lia.
      + destruct s3; lia.
  Qed.
  Lemma text_bubble m t b o p n f :
    m !! b = Some (ints 8 o) -> is_s32 n -> is_s32 es ->
    (S (Z.to_nat n) < fuel)%nat -> (Z.to_nat (u32 es) < fuel)%nat ->
    run c_BubbleSort_sort [at8 b p; VInt I32 n; VInt I32 es; VFun f] m t
    = let! '(t, o) := bubble_text cmp t o p n es in Ok (VUndef, <[b := ints 8 o]> m, t).
  Proof.
    intros Hb Hn He Hf Hfe. pose proof (bubble_while_nd t o p n) as Hnd. revert Hnd.
    unfold c_BubbleSort_sort, bubble_text, two. bounds. intros Hnd. go.
    sim_while (fun '(t, o, sw, i) => ([at8 b p; VInt I32 n; VInt I32 es; VFun f; at8 b p;
                                VInt IBool (b2z sw); VInt I32 i],
                               <[b := ints 8 o]> m, t))
      (fun '(t, o, sw, i) => ([at8 b p; VInt I32 n; VInt I32 es; VFun f; at8 b p;
                                VInt IBool (b2z sw); VInt I32 i],
                               <[b := ints 8 o]> m, t))
      (fun '(t, o, sw, i) => 0 <= i).
    - cbn. by rewrite list_insert_id.
    - lia.
    - lia.
    - intros E. apply Hnd. rewrite E. done.
    - intros [[[t' s] sw] i] Hi ->. go_body.
      destruct (ck32 (n - i)) as [top| |] eqn:Etop.
      2,3: destruct fuel as [|fu]; [lia|]; rewrite loop_S; go_body.
      cbn [bind].
      destruct (ck32 (top - 1)) as [top'| |] eqn:Etop'.
      2,3: destruct fuel as [|fu]; [lia|]; rewrite loop_S; go_body.
      cbn [bind]. pose proof Etop as Et. pose proof Etop' as Et'.
      apply ck32_inv in Et as [-> Et]. apply ck32_inv in Et' as [-> Et'].
      destruct (Z.leb_spec (n - i - 1) 0).
      { rewrite cfor_empty by lia. rewrite loop_skip; [|lia|go_body].
        go. }
      sim_for (fun j '(t, o, sw) => ([at8 b p; VInt I32 n; VInt I32 es; VFun f; at8 b p;
                                VInt IBool (b2z sw); VInt I32 i; VInt I32 j],
                               <[b := ints 8 o]> m, t))
        (fun _ _ => True).
      + done.
      + lia.
      + done.
      + lia.
      + intros j [[t2 k] sw2] Hj _. go_body.
        erewrite ref_swapElements; [|look|unfold is_u32; rng|done]. go. both. go. by memn.
      + done.
      + intros [[t2 k] sw2] _. go_body.
      + both. go. 
    - intros [[[t' s] sw] i] Hi ->. go_body.
    - intros [[[t' s] sw] i] [[[t2 s2] sw2] i2] Hi -> E'. inv. destruct x1 as [[? ?] ?].
      inv. injection E' as <- <- <- <-. lia.
    - both. go.
  Qed.
End text.
