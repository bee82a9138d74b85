(** * Map_init against its C text *)
From Verif Require Import CSem Lib CLang C_Containers Model_Containers Drive_ContText
  Proof_SortEnd Proof_Term Refine Refine_Cipher Refine_Sort Refine_Queue Refine_Map.

Section map.
  Context {W : Type} (sc : bool)
          (ext : Z -> list val -> mem -> W -> outcome (val * mem * W)) (fuel : nat).
  Local Notation run f := (call sc ext fuel f).
  Implicit Types (m : mem) (w : W) (mp : Map_t).

  Lemma ref_Map_init m w s kb vb map old keys values key_size value_size max_map_size :
    opt_at map (fun _ => m !! s = Some old /\ map_shape old) ->
    opt_at keys (bytes_at m kb) -> opt_at values (bytes_at m vb) ->
    is_s32 key_size -> is_s32 value_size -> is_s32 max_map_size ->
    run c_Map_init [opt_ptr map (struct_ptr 6 s); opt_ptr keys (byte_ptr kb);
                    opt_ptr values (byte_ptr vb); VInt I32 key_size; VInt I32 value_size;
                    VInt I32 max_map_size] m w
    = let! '(r, map) := Map_init map keys values key_size value_size max_map_size in
      Ok (VInt IBool (b2z r), if r then opt_put map (put_map s kb vb) m else m, w).
  Proof.
    intros H Hk Hv H1 H2 H3. unfold c_Map_init, Map_init. bounds.
    assert (Hp : to_type sc (TPtr (TStruct 6)) (opt_ptr map (struct_ptr 6 s))
      = Ok (opt_ptr map (struct_ptr 6 s))) by (by destruct map).
    assert (Hq : to_type sc (TPtr (TInt U8)) (opt_ptr keys (byte_ptr kb))
      = Ok (opt_ptr keys (byte_ptr kb))) by (by destruct keys).
    assert (Hr : to_type sc (TPtr (TInt U8)) (opt_ptr values (byte_ptr vb))
      = Ok (opt_ptr values (byte_ptr vb))) by (by destruct values).
    destruct (key_size =? 0) eqn:E1; cbn [negb andb].
    { revert Hp Hq Hr.
      generalize (opt_ptr map (struct_ptr 6 s)) (opt_ptr keys (byte_ptr kb)) (opt_ptr values (byte_ptr vb)).
      intros p q r Hp Hq Hr. cbn [to_type] in *. go. rewrite Hp. go. rewrite Hq. go. rewrite Hr. go.
      by destruct keys, values. }
    destruct (value_size =? 0) eqn:E2; cbn [negb andb].
    { revert Hp Hq Hr.
      generalize (opt_ptr map (struct_ptr 6 s)) (opt_ptr keys (byte_ptr kb)) (opt_ptr values (byte_ptr vb)).
      intros p q r Hp Hq Hr. cbn [to_type] in *. go. rewrite Hp. go. rewrite Hq. go. rewrite Hr. go.
      by destruct keys, values. }
    destruct (max_map_size =? 0) eqn:E3; cbn [negb andb].
    { revert Hp Hq Hr.
      generalize (opt_ptr map (struct_ptr 6 s)) (opt_ptr keys (byte_ptr kb)) (opt_ptr values (byte_ptr vb)).
      intros p q r Hp Hq Hr. cbn [to_type] in *. go. rewrite Hp. go. rewrite Hq. go. rewrite Hr. go.
      by destruct keys, values. }
    destruct keys as [ks|].
    2:{ clear Hp Hq Hr. destruct map, values; cbn [opt_ptr]; unfold struct_ptr, byte_ptr; go. }
    destruct values as [vs|].
    2:{ clear Hp Hq Hr. destruct map; cbn [opt_ptr]; unfold struct_ptr, byte_ptr; go. }
    clear Hp Hq Hr. cbn [opt_at opt_ptr] in *; unfold byte_ptr, bytes_at, struct_ptr in *.
    destruct map as [mp|]; cbn [opt_at opt_ptr] in *; [|go].
    destruct H as [Hs H].
    assert (s <> kb) by (intros ->; rewrite Hs in Hk; injection Hk as ->; by eapply map_shape_ints).
    assert (s <> vb) by (intros ->; rewrite Hs in Hv; injection Hv as ->; by eapply map_shape_ints).
    assert (Hid : <[kb := ints 8 ks]> (<[vb := ints 8 vs]> m) = m).
    { rewrite (list_insert_id m vb _ Hv). by apply list_insert_id. }
    destruct H as [->|(q' & v & v' & ->)]; cbn [replicate map_cells drop] in Hs; go.
    all: cbn [bind deref b2z opt_put]; unfold put_map, put_bytes, map_cells, byte_ptr;
      cbn [m_keys m_values m_key_size m_value_size m_max_map_size m_current_size]; by rewrite Hid.
  Qed.
End map.
