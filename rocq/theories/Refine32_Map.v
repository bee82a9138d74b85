(** * [map.c] on a target with a 32-bit [size_t] *)
From Verif Require Import CSem Lib CLang C_Containers C_Size32 Model_Containers Drive_ContText
  Proof_SortEnd Proof_Term Refine Refine_Cipher Refine_Sort Refine_Queue Refine_Map.

(** the sizes passed to [memcpy] and [memcmp] *)
Lemma size32 x : 0 <= x < 2 ^ 32 -> u32 x = u64 x.
Proof. intros H. by rewrite u32_small, u64_small by lia. Qed.
Lemma lib_memcmp32 m t t' a o p b o' q n :
  m !! a = Some (ints 8 o) -> m !! b = Some (ints 8 o') ->
  lib LMemcmp [VPtr t (BObj a) p; VPtr t' (BObj b) q; VInt U32 n] m
  = let! r := mem_sign o p o' q n in Ok (VInt I32 r, m).
Proof. exact (lib_memcmp m t t' a o p b o' q n). Qed.
(** element sizes that are not negative *)
Definition map_sizes (mp : Map_t) : Prop := 0 <= m_key_size mp /\ 0 <= m_value_size mp.

Ltac head_hook X ::=
  first [progress s32s |
  lazymatch X with
  | ptr ?o ?p => first [cont_hook X | let H := fresh "Hp" in let k := fresh "k" in
      destruct (ptr o p) as [[]|k|] eqn:H;
      [apply ptr_ok in H
      |apply ptr_ub in H as [-> H]; cbn [bind]; rewrite memcmp_oob by exact H; reflexivity
      |by apply ptr_nd in H]; cbn [bind] ]
  | lib LMemcpy [VPtr _ (BObj ?a) _; VPtr _ (BObj ?b) _; VInt U32 (u32 ?x)] _ =>
      rewrite (size32 x) by lia; erewrite lib_memcpy_u32; [|look|look|ne_tac]
  | lib LMemcmp [VPtr _ (BObj ?a) _; VPtr _ (BObj ?b) _; VInt U32 (u32 ?x)] _ =>
      rewrite (size32 x) by lia; erewrite lib_memcmp32; [|look|look]
  | mem_sign ?o ?p ?s ?q ?n => rewrite (mem_sign_eq o p s q n); both; cbn [bind]
  | _ => cont_hook X
  end].

Section map.
  Context {W : Type} (sc : bool)
          (ext : Z -> list val -> mem -> W -> outcome (val * mem * W)) (fuel : nat).
  Local Notation run f := (call sc ext fuel f).
  Implicit Types (m : mem) (w : W) (mp : Map_t).

  Lemma ref32_Map_GetIndex m w s kb vb mp k key size :
    map_at m s kb vb mp -> map_s32 mp -> map_sizes mp -> bytes_at m k key -> is_s32 size ->
    (Z.to_nat size < fuel)%nat ->
    run c32_Map_GetIndex [struct_ptr 6 s; byte_ptr k; VInt I32 size] m w
    = let! r := Map_GetIndex mp key size in Ok (VInt I32 r, m, w).
  Proof.
    intros H (Hu1 & Hu2 & Hu3 & Hu4) [Hz1 Hz2] Hk Hsz Hf. pose proof (getindex_nd mp key size) as Hnd.
    unfold c32_Map_GetIndex, Map_GetIndex, INDEX_NOT_FOUND in *. map_start H. bounds. go.
    set (enc := fun '(i, x) => ([VPtr (TStruct 6) (BObj s) 0; VPtr (TInt U8) (BObj k) 0; VInt I32 size;
       VInt I32 x; VInt I32 i], m, w)).
    sim_while enc enc (fun '(i, x) => 0 <= i /\ is_s32 i).
    - done.
    - rng.
    - lia.
    - intros E. apply Hnd. rewrite E. done.
    - intros [i x] [Hi0 Hi] Hc. subst enc. cbv beta iota. apply Z.ltb_lt in Hc. go_body.
    - intros [i x] [Hi0 Hi] Hc. subst enc. cbv beta iota. apply Z.ltb_ge in Hc. go_body.
    - intros [i x] [i' x'] [Hi0 Hi] Hc E. apply Z.ltb_lt in Hc. bounds.
      apply bind_ok_inv in E as (o & _ & E). apply bind_ok_inv in E as (c & _ & E).
      destruct c; [done|]. injection E as <- <-. rng.
    - both. subst enc. go.
  Qed.
  Lemma ref32_Map_insert m w s kb vb map k key v value :
    opt_at map (map_at m s kb vb) -> opt_at map map_s32 -> opt_at map map_sizes -> bytes_at m k key -> bytes_at m v value ->
    k <> kb -> v <> kb -> v <> vb ->
    opt_at map (fun mp => (Z.to_nat (m_current_size mp) < fuel)%nat) ->
    run c32_Map_insert [opt_ptr map (struct_ptr 6 s); byte_ptr k; byte_ptr v] m w
    = let! '(r, map) := Map_insert map key value in
      Ok (VInt IBool (b2z r), opt_put map (put_map s kb vb) m, w).
  Proof.
    intros H Hu Hz Hk Hv H1 H2 H3 Hf. unfold c32_Map_insert, Map_insert, INDEX_NOT_FOUND.
    destruct map as [mp|]; cbn [opt_at opt_ptr] in *; [|unfold byte_ptr; go].
    pose proof (put_map_id _ _ _ _ _ H) as Hid.
    pose proof (ref32_Map_GetIndex m w s kb vb mp k key (m_current_size mp) H Hu Hz Hk (proj2 (proj2 (proj2 Hu))) Hf) as HG.
    destruct Hu as (Hu1 & Hu2 & Hu3 & Hu4), Hz as [Hz1 Hz2]. map_start H. bounds.
    assert (s <> k) by (intros ->; simplify_eq; by destruct key).
    assert (s <> v) by (intros ->; simplify_eq; by destruct value).
    go. s32s. rewrite HG, bind_assoc. both.
    destruct (r =? -1) eqn:E1; go.
    - cbn [b2z opt_put]. unfold put_map, map_cells, put_bytes, byte_ptr.
      cbn [m_keys m_values m_key_size m_value_size m_max_map_size m_current_size].
      rewrite (list_insert_commute m vb kb) by done. done.
    - cbn [bind b2z opt_put]. by rewrite Hid.
    - cbn [b2z opt_put]. unfold put_map, map_cells, put_bytes, byte_ptr.
      cbn [m_keys m_values m_key_size m_value_size m_max_map_size m_current_size].
      rewrite (list_insert_commute m kb vb), (list_insert_commute _ s vb) by done.
      repeat match goal with
      | H : m !! kb = Some ?c |- context [<[kb := ?c]> m] => rewrite (list_insert_id m kb c H)
      | H : m !! s = Some ?c |- context [<[s := ?c]> m] => rewrite (list_insert_id m s c H)
      end. done.
  Qed.

  Lemma ref32_Map_getValue m w s kb vb map k key v value :
    opt_at map (map_at m s kb vb) -> opt_at map map_s32 -> opt_at map map_sizes -> bytes_at m k key -> bytes_at m v value ->
    v <> vb ->
    opt_at map (fun mp => (Z.to_nat (m_current_size mp) < fuel)%nat) ->
    run c32_Map_getValue [opt_ptr map (struct_ptr 6 s); byte_ptr k; byte_ptr v] m w
    = let! '(r, value) := Map_getValue map key value in
      Ok (VInt IBool (b2z r), put_bytes v value m, w).
  Proof.
    intros H Hu Hz Hk Hv H1 Hf. unfold c32_Map_getValue, Map_getValue, INDEX_NOT_FOUND.
    pose proof (put_bytes_id _ _ _ Hv) as Hid.
    destruct map as [mp|]; cbn [opt_at opt_ptr] in *.
    2:{ unfold byte_ptr. go. cbn [bind b2z]. by rewrite Hid. }
    pose proof (ref32_Map_GetIndex m w s kb vb mp k key (m_current_size mp) H Hu Hz Hk (proj2 (proj2 (proj2 Hu))) Hf) as HG.
    destruct Hu as (Hu1 & Hu2 & Hu3 & Hu4), Hz as [Hz1 Hz2]. map_start H. bounds.
    assert (s <> k) by (intros ->; simplify_eq; by destruct key).
    assert (s <> v) by (intros ->; simplify_eq; by destruct value).
    go. s32s. rewrite HG, bind_assoc. both.
    destruct (r =? -1) eqn:E1; go.
    cbn [bind b2z]. by rewrite Hid.
  Qed.
End map.
