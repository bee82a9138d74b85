(** * The hand-written model of heap_sort.c against the C text *)
From Verif Require Import CSem Lib CLang C_Utils C_Sort Model_Utils Model_Sort Model_SortState
  Drive_SortText Proof_SortEnd Proof_Term Refine Refine_Utils Refine_Cipher Refine_Sort Refine_SortHeapify.

Section text.
  Context {T : Type} (cmp : T -> list Z -> list Z -> T * bool) (sc : bool) (fuel : nat) (es : Z).
  Local Notation run f := (call sc (byte_cmp cmp es) fuel f).
  Local Notation at8 b p := (VPtr (TInt U8) (BObj b) p).
  Implicit Types (m : mem) (t : T) (o : list Z).

  Lemma text_heap m t b o p n f :
    m !! b = Some (ints 8 o) -> is_s32 n -> is_s32 es ->
    (S (Z.to_nat n) < fuel)%nat -> (Z.to_nat (u32 es) < fuel)%nat ->
    run c_HeapSort_sort [at8 b p; VInt I32 n; VInt I32 es; VFun f] m t
    = let! '(t, o) := heap_text cmp t o p n es in Ok (VUndef, <[b := ints 8 o]> m, t).
  Proof.
    intros Hb Hn He Hf Hfe. unfold c_HeapSort_sort, heap_text. bounds.
    assert (0 <= n -> Z.quot n 2 = n / 2) as Hq by (intros; apply Z.quot_div_nonneg; lia).
    assert (n < 0 -> - 2 ^ 30 <= Z.quot n 2 <= 0) as Hq'.
    { intros. replace n with (- - n) by lia. rewrite Z.quot_opp_l, Z.quot_div_nonneg by lia. unfold s32 in *. lia. }
    go. cbn [bind].
    destruct (Z.ltb_spec n 0).
    - rewrite cford_empty by lia. rewrite loop_skip; [|lia|go_body]. go.
      match goal with H : ck32 _ = Ok _ |- _ => apply ck32_inv in H as [-> ?] end. cbn [bind].
      rewrite cford_empty by lia. rewrite loop_skip; [|lia|go_body].
      go. cbn [bind]. by rewrite list_insert_id.
    - specialize (Hq ltac:(lia)).
      sim_ford (fun i '(t, o) =>
          ([at8 b p; VInt I32 n; VInt I32 es; VFun f; VInt I32 i; at8 b p], <[b := ints 8 o]> m, t))
        (fun '(t, o) =>
          ([at8 b p; VInt I32 n; VInt I32 es; VFun f; VInt I32 (-1); at8 b p], <[b := ints 8 o]> m, t))
        (fun _ _ => True).
      + cbn. by rewrite list_insert_id.
      + lia.
      + done.
      + lia.
      + intros i [t' s] Hi _. go_body.
        erewrite text_heapify; [|look|unfold is_s32; rng..|lia|lia]. go. both. go. by memn.
      + done.
      + intros [t' s] _. go_body.
      + both. go. cbn [bind].
        sim_ford (fun i '(t, o) =>
          ([at8 b p; VInt I32 n; VInt I32 es; VFun f; VInt I32 i; at8 b p], <[b := ints 8 o]> m, t))
        (fun '(t, o) =>
          ([at8 b p; VInt I32 n; VInt I32 es; VFun f; VInt I32 (-1); at8 b p], <[b := ints 8 o]> m, t))
        (fun _ _ => True).
        * done.
        * lia.
        * done.
        * lia.
        * intros i [t' s] Hi _. go_body.
          erewrite ref_swapElements; [|look|unfold is_u32; rng|done]. go. both. go.
          erewrite text_heapify; [|look|unfold is_s32; rng..|lia|lia]. go. both. go. by memn.
        * done.
        * intros [t' s] _. go_body.
        * both. go.
  Qed.
End text.
