(** * The hand-written model of map.c against the C text *)
From Verif Require Import CSem Lib CLang C_Containers Model_Containers Drive_ContText
  Proof_SortEnd Proof_Term Refine Refine_Cipher Refine_Sort Refine_Queue.

(** the sign [memcmp] returns *)
Definition mem_sign (o : list Z) (p : Z) (o' : list Z) (q n : Z) : outcome Z :=
  if in_range o p n && in_range o' q n
  then ccompare false (Z.to_nat n) (ints 8 (slice o p n)) (ints 8 (slice o' q n)) else UB OutOfBounds.
Lemma ccompare_mem n (a b : list Z) : length a = n -> length b = n ->
  (let! r := ccompare false n (ints 8 a) (ints 8 b) in Ok (r =? 0)) = Ok (bool_decide (a = b)).
Proof.
  revert a b. induction n as [|n IH]; intros [|x a] [|y b] Ha Hb; try done.
  cbn [ints fmap list_fmap ccompare bind cell_byte].
  change (8 =? 8) with true. cbv iota. cbn [bind andb].
  destruct (Z.eqb_spec x y) as [->|Hne].
  - cbn in Ha, Hb. etrans; [apply IH; lia|]. f_equal. apply bool_decide_ext. naive_solver.
  - rewrite bool_decide_false by naive_solver. by destruct (x <? y).
Qed.
Lemma mem_sign_eq o p o' q n :
  memcmp_eq o p o' q n = let! r := mem_sign o p o' q n in Ok (r =? 0).
Proof.
  unfold memcmp_eq, mem_sign. destruct (in_range o p n) eqn:E1, (in_range o' q n) eqn:E2; try done.
  cbn [andb]. apply in_range_true in E1, E2. symmetry.
  assert (forall (x : list Z) y, 0 <= y -> 0 <= n -> y + n <= len x -> length (slice x y n) = Z.to_nat n) as Hs.
  { intros x y. pose proof (len_slice x y n) as Hl. unfold len in *. lia. }
  apply ccompare_mem; apply Hs; lia.
Qed.
Lemma lib_memcmp m t t' a o p b o' q n :
  m !! a = Some (ints 8 o) -> m !! b = Some (ints 8 o') ->
  lib LMemcmp [VPtr t (BObj a) p; VPtr t' (BObj b) q; VInt U64 n] m
  = let! r := mem_sign o p o' q n in Ok (VInt I32 r, m).
Proof.
  intros Ha Hb. cbn [lib cast fits]. rewrite (block_obj _ _ _ Ha), (block_obj _ _ _ Hb).
  cbn [bind]. unfold mem_sign. rewrite !in_range_ints, !slice_ints. by destruct (_ && _).
Qed.
Lemma memcmp_oob o p o' q n : ptr o p <> Ok tt -> memcmp_eq o p o' q n = UB OutOfBounds.
Proof.
  rewrite ptr_ok. intros H. unfold memcmp_eq, in_range.
  by replace ((0 <=? p) && _ && _ && _) with false by lia.
Qed.
Lemma s32_u32 x : is_s32 x -> s32 (u32 x) = x.
Proof. unfold is_s32, s32, u32. lia. Qed.

Ltac s32s := cbn [wrap]; repeat match goal with |- context [s32 (u32 ?x)] => rewrite (s32_u32 x) by (unfold is_s32; lia) end.
Ltac head_hook X ::=
  first [progress s32s |
  lazymatch X with
  | ptr ?o ?p => first [cont_hook X | let H := fresh "Hp" in let k := fresh "k" in
      destruct (ptr o p) as [[]|k|] eqn:H;
      [apply ptr_ok in H
      |apply ptr_ub in H as [-> H]; cbn [bind]; rewrite memcmp_oob by exact H; reflexivity
      |by apply ptr_nd in H]; cbn [bind] ]
  | lib LMemcpy [VPtr _ (BObj ?a) _; VPtr _ (BObj ?b) _; VInt U64 _] _ =>
      erewrite lib_memcpy; [|look|look|ne_tac]
  | lib LMemcmp [VPtr _ (BObj ?a) _; VPtr _ (BObj ?b) _; _] _ => erewrite lib_memcmp; [|look|look]
  | mem_sign ?o ?p ?s ?q ?n => rewrite (mem_sign_eq o p s q n); both; cbn [bind]
  | _ => cont_hook X
  end].

Lemma map_shape_ints o : ~ map_shape (ints 8 o).
Proof. by destruct o; intros [?|(? & ? & ? & ?)]. Qed.
Lemma map_ne m s kb vb mp : map_at m s kb vb mp -> s <> kb /\ s <> vb /\ kb <> vb.
Proof.
  intros (Hs & Hp & Hb & Hne). unfold bytes_at in *. repeat split; [| |done].
  - intros ->. rewrite Hs in Hp. by destruct (m_keys mp).
  - intros ->. rewrite Hs in Hb. by destruct (m_values mp).
Qed.
Lemma put_map_id m s kb vb mp : map_at m s kb vb mp -> put_map s kb vb mp m = m.
Proof.
  intros (Hs & Hp & Hb & Hne). unfold put_map, put_bytes.
  rewrite (list_insert_id m vb _ Hb), (list_insert_id m kb _ Hp). by apply list_insert_id.
Qed.

Ltac map_start H :=
  let Hp := fresh "Hp" in let H1 := fresh "Hsk" in let H2 := fresh "Hsv" in let H3 := fresh "Hkv" in
  destruct (map_ne _ _ _ _ _ H) as (H1 & H2 & H3); destruct H as (? & ? & ? & _);
  unfold struct_ptr, map_cells, bytes_at, byte_ptr in *.

Section map.
  Context {W : Type} (sc : bool)
          (ext : Z -> list val -> mem -> W -> outcome (val * mem * W)) (fuel : nat).
  Local Notation run f := (call sc ext fuel f).
  Implicit Types (m : mem) (w : W) (mp : Map_t).

  Lemma ref_Map_GetIndex m w s kb vb mp k key size :
    map_at m s kb vb mp -> map_s32 mp -> bytes_at m k key -> is_s32 size ->
    (Z.to_nat size < fuel)%nat ->
    run c_Map_GetIndex [struct_ptr 6 s; byte_ptr k; VInt I32 size] m w
    = let! r := Map_GetIndex mp key size in Ok (VInt I32 r, m, w).
  Proof.
    intros H (Hu1 & Hu2 & Hu3 & Hu4) Hk Hsz Hf. pose proof (getindex_nd mp key size) as Hnd.
    unfold c_Map_GetIndex, Map_GetIndex, INDEX_NOT_FOUND in *. map_start H. bounds. go.
    set (enc := fun '(i, x) => ([VPtr (TStruct 6) (BObj s) 0; VPtr (TInt U8) (BObj k) 0; VInt I32 size;
       VInt I32 x; VInt I32 i], m, w)).
    sim_while enc enc (fun '(i, x) => 0 <= i /\ is_s32 i).
    - done.
    - rng.
    - lia.
    - intros E. apply Hnd. rewrite E. done.
    - intros [i x] [Hi0 Hi] Hc. subst enc. cbv beta iota. apply Z.ltb_lt in Hc. go_body.
    - intros [i x] [Hi0 Hi] Hc. subst enc. cbv beta iota. apply Z.ltb_ge in Hc. go_body.
    - intros [i x] [i' x'] [Hi0 Hi] Hc E. apply Z.ltb_lt in Hc. bounds.
      apply bind_ok_inv in E as (o & _ & E). apply bind_ok_inv in E as (c & _ & E).
      destruct c; [done|]. injection E as <- <-. rng.
    - both. subst enc. go.
  Qed.
End map.
