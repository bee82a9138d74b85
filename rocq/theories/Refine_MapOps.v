(** * Map_insert and Map_getValue against their C text *)
From Verif Require Import CSem Lib CLang C_Containers Model_Containers Drive_ContText
  Proof_SortEnd Proof_Term Refine Refine_Cipher Refine_Sort Refine_Queue Refine_Map.

Section map.
  Context {W : Type} (sc : bool)
          (ext : Z -> list val -> mem -> W -> outcome (val * mem * W)) (fuel : nat).
  Local Notation run f := (call sc ext fuel f).
  Implicit Types (m : mem) (w : W) (mp : Map_t).

  Lemma ref_Map_insert m w s kb vb map k key v value :
    opt_at map (map_at m s kb vb) -> opt_at map map_s32 -> bytes_at m k key -> bytes_at m v value ->
    k <> kb -> v <> kb -> v <> vb ->
    opt_at map (fun mp => (Z.to_nat (m_current_size mp) < fuel)%nat) ->
    run c_Map_insert [opt_ptr map (struct_ptr 6 s); byte_ptr k; byte_ptr v] m w
    = let! '(r, map) := Map_insert map key value in
      Ok (VInt IBool (b2z r), opt_put map (put_map s kb vb) m, w).
  Proof.
    intros H Hu Hk Hv H1 H2 H3 Hf. unfold c_Map_insert, Map_insert, INDEX_NOT_FOUND.
    destruct map as [mp|]; cbn [opt_at opt_ptr] in *; [|unfold byte_ptr; go].
    pose proof (put_map_id _ _ _ _ _ H) as Hid.
    pose proof (ref_Map_GetIndex sc ext fuel m w s kb vb mp k key (m_current_size mp) H Hu Hk (proj2 (proj2 (proj2 Hu))) Hf) as HG.
    destruct Hu as (Hu1 & Hu2 & Hu3 & Hu4). map_start H. bounds.
    assert (s <> k) by (intros ->; simplify_eq; by destruct key).
    assert (s <> v) by (intros ->; simplify_eq; by destruct value).
    go. s32s. rewrite HG, bind_assoc. both.
    destruct (r =? -1) eqn:E1; go.
    - cbn [b2z opt_put]. unfold put_map, map_cells, put_bytes, byte_ptr.
      cbn [m_keys m_values m_key_size m_value_size m_max_map_size m_current_size].
      rewrite (list_insert_commute m vb kb) by done. done.
    - cbn [bind b2z opt_put]. by rewrite Hid.
    - cbn [b2z opt_put]. unfold put_map, map_cells, put_bytes, byte_ptr.
      cbn [m_keys m_values m_key_size m_value_size m_max_map_size m_current_size].
      rewrite (list_insert_commute m kb vb), (list_insert_commute _ s vb) by done.
      repeat match goal with
      | H : m !! kb = Some ?c |- context [<[kb := ?c]> m] => rewrite (list_insert_id m kb c H)
      | H : m !! s = Some ?c |- context [<[s := ?c]> m] => rewrite (list_insert_id m s c H)
      end. done.
  Qed.

  Lemma ref_Map_getValue m w s kb vb map k key v value :
    opt_at map (map_at m s kb vb) -> opt_at map map_s32 -> bytes_at m k key -> bytes_at m v value ->
    v <> vb ->
    opt_at map (fun mp => (Z.to_nat (m_current_size mp) < fuel)%nat) ->
    run c_Map_getValue [opt_ptr map (struct_ptr 6 s); byte_ptr k; byte_ptr v] m w
    = let! '(r, value) := Map_getValue map key value in
      Ok (VInt IBool (b2z r), put_bytes v value m, w).
  Proof.
    intros H Hu Hk Hv H1 Hf. unfold c_Map_getValue, Map_getValue, INDEX_NOT_FOUND.
    pose proof (put_bytes_id _ _ _ Hv) as Hid.
    destruct map as [mp|]; cbn [opt_at opt_ptr] in *.
    2:{ unfold byte_ptr. go. cbn [bind b2z]. by rewrite Hid. }
    pose proof (ref_Map_GetIndex sc ext fuel m w s kb vb mp k key (m_current_size mp) H Hu Hk (proj2 (proj2 (proj2 Hu))) Hf) as HG.
    destruct Hu as (Hu1 & Hu2 & Hu3 & Hu4). map_start H. bounds.
    assert (s <> k) by (intros ->; simplify_eq; by destruct key).
    assert (s <> v) by (intros ->; simplify_eq; by destruct value).
    go. s32s. rewrite HG, bind_assoc. both.
    destruct (r =? -1) eqn:E1; go.
    cbn [bind b2z]. by rewrite Hid.
  Qed.
End map.
