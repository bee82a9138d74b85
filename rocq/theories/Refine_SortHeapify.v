(** * The hand-written model of [Heapify] of heap_sort.c against the C text *)
From Verif Require Import CSem Lib CLang C_Utils C_Sort Model_Utils Model_Sort Model_SortState
  Drive_SortText Proof_SortEnd Proof_Term Refine Refine_Utils Refine_Cipher Refine_Sort.

Section text.
  Context {T : Type} (cmp : T -> list Z -> list Z -> T * bool) (sc : bool) (fuel : nat) (es : Z).
  Local Notation run f := (call sc (byte_cmp cmp es) fuel f).
  Local Notation at8 b p := (VPtr (TInt U8) (BObj b) p).
  Implicit Types (m : mem) (t : T) (o : list Z).

  Lemma heapify_text_nd t o p n i : 0 <= i -> heapify_text cmp t o p n i es <> Diverge.
  Proof.
    intros Hi. unfold heapify_text, two. apply bind_nd; [|intros ? _; nd].
    apply (cwhile_nd (fun '(t, m, k, c) => 0 <= k)
      (fun '(t, m, k, c) => if (c : bool) then Z.max 0 (n - k) + 1 else 0)).
    - lia.
    - lia.
    - intros [[[t' m'] k] c] Hk ->. split; [nd|]. intros [[[t2 m2] k2] c2] E. inv.
      repeat (inv; match type of E with (match ?x with (_, _) => _ end) = _ => destruct x end; inv).
      match type of E with (if negb (?g =? k) then _ else _) = _ => destruct (Z.eqb_spec g k) as [Eg|Eg] end;
        cbn [negb] in E.
      + injection E as <- <- <- <-. lia.
      + inv. injection E as <- <- <- <-. revert Eg.
        repeat match goal with |- context [if ?b && _ then _ else _] =>
          destruct b eqn:?; cbn [andb] end;
        repeat match goal with |- context [if ?b then _ else _] => destruct b eqn:? end; lia.
  Qed.

  Lemma text_heapify m t b o p n i f :
    m !! b = Some (ints 8 o) -> is_s32 n -> is_s32 i -> 0 <= i -> is_s32 es ->
    (S (Z.to_nat n) < fuel)%nat -> (Z.to_nat (u32 es) < fuel)%nat ->
    run c_Heapify [at8 b p; VInt I32 n; VInt I32 i; VInt I32 es; VFun f] m t
    = let! '(t, o) := heapify_text cmp t o p n i es in Ok (VUndef, <[b := ints 8 o]> m, t).
  Proof.
    intros Hb Hn Hi Hi0 He Hf Hfe. pose proof (heapify_text_nd t o p n i Hi0) as Hnd. revert Hnd.
    unfold c_Heapify, heapify_text, two. bounds. intros Hnd. go.
    sim_while (fun '(t, o, k, c) => ([at8 b p; VInt I32 n; VInt I32 i; VInt I32 es; VFun f;
                                VInt IBool (b2z c); VInt I32 k; at8 b p],
                               <[b := ints 8 o]> m, t))
      (fun '(t, o, k, c) => ([at8 b p; VInt I32 n; VInt I32 i; VInt I32 es; VFun f;
                                VInt IBool (b2z c); VInt I32 k; at8 b p],
                               <[b := ints 8 o]> m, t))
      (fun _ => True).
    - cbn. by rewrite list_insert_id.
    - done.
    - lia.
    - intros E. apply Hnd. rewrite E. done.
    - intros [[[t' s] k] c] _ ->. go_body.
      all: erewrite ref_swapElements; [|look|unfold is_u32; rng|done]; go; both; go; by memn.
    - intros [[[t' s] k] c] _ ->. go_body.
    - done.
    - both. go.
  Qed.
End text.
