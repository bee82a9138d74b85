(** * [insertion_sort.c] on a target with a 32-bit [size_t] *)
From Verif Require Import CSem Lib CLang C_Utils C_Sort C_Size32 Model_Utils Model_Sort
  Model_SortState Drive_SortText Proof_SortEnd Proof_Term Refine Refine_Utils Refine_Cipher
  Refine_Queue Refine_PQ Refine32_Map Refine_Sort Refine_SortInsert.

Ltac head_hook X ::=
  lazymatch X with
  | check_ptr (snd (fst (?E, ?M, ?w))) ?b ?p =>
      change (check_ptr (snd (fst (E, M, w))) b p) with (check_ptr M b p)
  | check_ptr _ (BObj ?b) _ => erewrite check_ptr_ptr; [|look]
  | ptr ?o 0 => rewrite (ptr_0 o); cbn [bind]
  | ptr ?o ?p =>
      first [match goal with H : ptr o p = _ |- _ => rewrite H end; cbn [bind] | both]
  | ck32 ?x => match goal with H : ck32 x = _ |- _ => rewrite H end; cbn [bind]
  | byte_cmp _ _ _ _ _ _ => erewrite ext_cmp; [|look|look]
  | call_cmp_state _ _ _ _ _ _ _ => both
  | lib LMemcpy [VPtr _ (BObj ?a) _; VPtr _ (BObj ?a) _; VInt U32 (u32 ?x)] _ =>
      rewrite (size32 x) by lia; erewrite lib_memcpy_within_u32; [|look]
  | lib LMemcpy [VPtr _ (BObj ?a) _; VPtr _ (BObj ?b) _; VInt U32 (u32 ?x)] _ =>
      rewrite (size32 x) by lia; erewrite lib_memcpy_u32; [|look|look|ne_tac]
  | memcpy _ _ _ _ _ => both; memn
  | memcpy_within _ _ _ _ => both; memn
  end.

Section text.
  Context {T : Type} (cmp : T -> list Z -> list Z -> T * bool) (sc : bool) (fuel : nat) (es : Z).
  Local Notation run f := (call sc (byte_cmp cmp es) fuel f).
  Local Notation at8 b p := (VPtr (TInt U8) (BObj b) p).
  Implicit Types (m : mem) (t : T) (o : list Z).

  Lemma text32_insertion m t b o b' el p n f :
    m !! b = Some (ints 8 o) -> m !! b' = Some (ints 8 el) -> b <> b' -> is_s32 n -> is_s32 es -> 0 <= es ->
    (Z.to_nat n < fuel)%nat ->
    run c32_InsertionSort_sort [at8 b' 0; at8 b p; VInt I32 n; VInt I32 es; VFun f] m t
    = let! '(t, o, el) := insertion_text cmp t o el p n es in
      Ok (VUndef, <[b' := ints 8 el]> (<[b := ints 8 o]> m), t).
  Proof.
    intros Hb Hb' Hne Hn He He0 Hf.
    unfold c32_InsertionSort_sort, insertion_text, two. bounds. go.
    destruct (Z.leb_spec n 1).
    { rewrite cfor_empty by lia. rewrite loop_skip; [|lia|go_body].
      go. cbn [bind]. by rewrite (list_insert_id m b), (list_insert_id m b'). }
    sim_for (fun i '(t, o, el) => ([at8 b' 0; at8 b p; VInt I32 n; VInt I32 es; VFun f; at8 b p;
                                at8 b' 0; VInt I32 i],
                               <[b' := ints 8 el]> (<[b := ints 8 o]> m), t))
      (fun _ _ => True).
    - cbn. by rewrite (list_insert_id m b), (list_insert_id m b').
    - lia.
    - done.
    - lia.
    - intros i [[t' s] e] Hi _. go_body.
      assert (0 <= i) as Hi0 by lia. pose proof (insertion_while_nd cmp es t0 s b0 r1 p i Hi0) as Hnd.
      revert Hnd. unfold two. intros Hnd.
      sim_while (fun '(t, o, j, c) => ([at8 b' 0; at8 b p; VInt I32 n; VInt I32 es; VFun f; at8 b p;
                                at8 b' 0; VInt I32 i; VInt I32 j; VInt IBool (b2z c)],
                               <[b' := ints 8 r1]> (<[b := ints 8 o]> m), t))
        (fun '(t, o, j, c) => ([at8 b' 0; at8 b p; VInt I32 n; VInt I32 es; VFun f; at8 b p;
                                at8 b' 0; VInt I32 i; VInt I32 j; VInt IBool (b2z c)],
                               <[b' := ints 8 r1]> (<[b := ints 8 o]> m), t))
        (fun '(t, o, j, c) => -1 <= j < i).
      + done.
      + lia.
      + lia.
      + done.
      + intros [[[t2 s2] j] c] Hj Hc. apply andb_true_iff in Hc as [Hc ->]. go_body.
      + intros [[[t2 s2] j] c] Hj Hc. apply andb_false_iff in Hc as [Hc|Hc]; [|subst c]; go_body.
      + intros [[[t2 s2] j] c] [[[t3 s3] j'] c'] Hj Hc E'. apply andb_true_iff in Hc as [Hc ->].
        inv. match type of E' with (let (_, _) := ?x in _) = _ => destruct x end.
        injection E' as <- <- <- <-. lia.
      + both.
        match goal with H : cwhile _ _ _ _ = Ok (?t', ?o', ?z, ?c') |- _ =>
          assert (-1 <= z < i) by
            (eapply (cwhile_inv (fun '(t, o, j, c) => -1 <= j < i)
                       (fun '(t, o, j, c) => -1 <= j < i) _ _ _ _ (t', o', z, c') H);
             [lia| | |];
             [ intros [[[t2 s2] j] c] [[[t3 s3] j'] c''] Hj Hc E'; apply andb_true_iff in Hc as [Hc ->];
               inv; match type of E' with (let (_, _) := ?x in _) = _ => destruct x end;
               injection E' as <- <- <- <-; lia
             | intros [[[t2 s2] j] c] [[[t3 s3] j'] c''] Hj Hc E'; inv;
               match type of E' with (let (_, _) := ?x in _) = _ => destruct x end; discriminate
             | by intros [[[t2 s2] j] c] ])
        end.
        go.
    - done.
    - intros [[t' s] e] _. go_body.
    - both. go.
  Qed.
End text.
