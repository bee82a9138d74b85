(** * A client of the C text of map.c sees a finite map *)
From stdpp Require Import gmap.
From Verif Require Import CSem Lib CLang C_Containers Model_Containers Drive_ContText Drive_TextRun
  Spec_Queue Spec_Map Drive_Map Proof_Map Refine Refine_Map Refine_MapInit Refine_MapOps
  Proof_TextQueue.

Lemma put_first m o o' x : <[length m := o']> (m ++ o :: x) = m ++ o' :: x :> mem.
Proof. rewrite <- (Nat.add_0_r (length m)), insert_app_r. done. Qed.
Lemma map_at_app m s kb vb mp x : map_at m s kb vb mp -> map_at (m ++ x) s kb vb mp.
Proof. intros (? & ? & ? & ?). split_and!; [by apply front_at..|done]. Qed.
Lemma put_map_length m s kb vb mp : length (put_map s kb vb mp m) = length m.
Proof. unfold put_map, put_bytes. by rewrite !insert_length. Qed.
Lemma put_map_app m s kb vb mp mp' x : map_at m s kb vb mp ->
  put_map s kb vb mp' (m ++ x) = put_map s kb vb mp' m ++ x.
Proof.
  intros (Hs%lookup_lt_Some & Hp%lookup_lt_Some & Hb%lookup_lt_Some & _). unfold put_map, put_bytes.
  rewrite !put_front by (rewrite ?insert_length; lia). done.
Qed.
Lemma put_map_at m s kb vb mp : s <> kb -> s <> vb -> kb <> vb ->
  (s < length m)%nat -> (kb < length m)%nat -> (vb < length m)%nat ->
  map_at (put_map s kb vb mp m) s kb vb mp.
Proof.
  intros. unfold put_map, put_bytes, map_at, bytes_at. split_and!; [..|done].
  - apply list_lookup_insert. by rewrite !insert_length.
  - rewrite list_lookup_insert_ne by done. apply list_lookup_insert. by rewrite !insert_length.
  - rewrite !list_lookup_insert_ne by done. by apply list_lookup_insert.
Qed.
Lemma same_but_put_map m s kb vb mp : same_but [s; kb; vb] m (put_map s kb vb mp m).
Proof.
  split; [apply put_map_length|]. intros c Hc. unfold put_map, put_bytes.
  rewrite !not_elem_of_cons in Hc. destruct Hc as (? & ? & ? & _). by rewrite !list_lookup_insert_ne by done.
Qed.

(** what stays true of the structure *)
Definition map_keeps (fuel : nat) (mp : Map_t) : Prop :=
  map_s32 mp /\ m_current_size mp <= m_max_map_size mp < Z.of_nat fuel /\ 0 <= m_current_size mp.

Lemma map_step_keeps fuel op mp r mp' : map_keeps fuel mp -> map_model_step op (Some mp) = Ok (r, mp') ->
  exists mp1, mp' = Some mp1 /\ map_keeps fuel mp1.
Proof.
  intros Hk E. pose proof Hk as ((H1 & H2 & H3 & H4) & Hc & Hs). unfold is_s32 in *.
  destruct op as [k v|k d]; cbn [map_model_step Map_insert] in *.
  - destruct (Map_GetIndex _ _ _) as [ix| |]; cbn [bind] in E; [|done..].
    destruct (ix =? _).
    + destruct (Z.eqb_spec (m_current_size mp) (m_max_map_size mp)); cbn [negb] in E;
        [injection E as _ <-; by eexists|].
      destruct (ck32 _) as [ko| |] in E; cbn [bind] in E; [|done..].
      destruct (memcpy _ _ _ _ _) as [ks| |] in E; cbn [bind] in E; [|done..].
      destruct (ck32 (m_current_size mp * m_value_size mp)) as [vo| |] in E; cbn [bind] in E; [|done..].
      destruct (memcpy _ _ _ _ _) as [vs| |] in E; cbn [bind] in E; [|done..].
      rewrite ck32_ok in E by lia. injection E as _ <-. eexists. split; [done|].
      unfold map_keeps, map_s32, is_s32; cbn. lia.
    + destruct (ck32 _) as [vo| |] in E; cbn [bind] in E; [|done..].
      destruct (memcpy _ _ _ _ _) as [vs| |] in E; cbn [bind] in E; [|done..].
      injection E as _ <-. eexists. split; [done|].
      unfold map_keeps, map_s32, is_s32; cbn. lia.
  - destruct (Map_getValue _ _ _) as [[r' d']| |]; cbn [bind] in E; [|done..].
    injection E as _ <-. by eexists.
Qed.

Local Ltac fin q' := fin_at q' put_map_app put_map_length.

Section map.
  Context (sc : bool) (fuel : nat).

  Lemma map_call_step m s kb vb mp op : map_at m s kb vb mp -> map_keeps fuel mp ->
    map_call sc fuel s op m
    = let! '(r, mp') := map_model_step op (Some mp) in Ok (r, opt_put mp' (put_map s kb vb) m).
  Proof.
    intros H (Hu & Hc & Hsz).
    pose proof H as (Hs%lookup_lt_Some & Hp%lookup_lt_Some & Hb%lookup_lt_Some & _).
    pose proof (put_map_id _ _ _ _ _ H) as Hid.
    assert (forall v k : list Z, bytes_at (m ++ [ints 8 v; ints 8 k]) (length m) v) as Hv.
    { intros. unfold bytes_at. by rewrite lookup_app_r, Nat.sub_diag by lia. }
    assert (forall v k : list Z, bytes_at (m ++ [ints 8 v; ints 8 k]) (length m + 1) k) as Hk.
    { intros. unfold bytes_at. rewrite lookup_app_r by lia.
      by replace (length m + 1 - length m)%nat with 1%nat by lia. }
    unfold map_call, call_with_objs.
    destruct op as [k v|k d]; cbn [map_model_step].
    - pose proof (ref_Map_insert sc no_ext fuel _ tt s kb vb (Some mp) _ k _ v
        (map_at_app _ _ _ _ _ _ H) Hu (Hk v k) (Hv v k)
        ltac:(lia) ltac:(lia) ltac:(lia) ltac:(cbn; lia)) as HR.
      cbn [opt_ptr] in HR. rewrite HR.
      destruct (Map_insert (Some mp) k v) as [[r mp']| |]; cbn [bind]; [|done..]. fin mp'.
    - pose proof (ref_Map_getValue sc no_ext fuel _ tt s kb vb (Some mp) _ k _ d
        (map_at_app _ _ _ _ _ _ H) Hu (Hk d k) (Hv d k) ltac:(lia) ltac:(cbn; lia)) as HR.
      cbn [opt_ptr] in HR. rewrite HR.
      destruct (Map_getValue (Some mp) k d) as [[r d']| |]; cbn [bind opt_put]; [|done..].
      unfold put_bytes. rewrite Hid, put_first.
      by rewrite drop_app, take_app, answer_b2z, first_bytes_ints.
  Qed.

  Lemma map_calls ops m s kb vb mp : map_at m s kb vb mp -> map_keeps fuel mp ->
    forall rs mp', map_run ops (Some mp) = Ok (rs, mp') ->
    exists m', calls (map_call sc fuel s) ops m = Ok (rs, m') /\ same_but [s; kb; vb] m m'.
  Proof.
    revert m mp. induction ops as [|op ops IH]; intros m mp H Hu rs mp' E; cbn [calls map_run] in *.
    - injection E as <- <-. eauto using same_but_refl.
    - rewrite (map_call_step m s kb vb mp) by done.
      destruct (map_model_step op (Some mp)) as [[r ma]| |] eqn:Es; cbn [bind] in *; [|done..].
      destruct (map_step_keeps _ _ _ _ _ Hu Es) as (mp1 & -> & Hu1). cbn [opt_put].
      destruct (map_run ops (Some mp1)) as [[rs1 mb]| |] eqn:Er; cbn [bind] in *; [|done..].
      injection E as <- <-. pose proof (map_ne _ _ _ _ _ H) as (? & ? & ?).
      destruct H as (Hs%lookup_lt_Some & Hp%lookup_lt_Some & Hb%lookup_lt_Some & _).
      destruct (IH (put_map s kb vb mp1 m) mp1 ltac:(by apply put_map_at) Hu1 _ _ Er)
        as (m' & -> & Hb'). cbn [bind].
      eexists. split; [done|]. eapply same_but_trans; [apply same_but_put_map|done].
  Qed.

  Lemma text_map_behaves m s kb vb old mx ks vs keys vals ops :
    m !! s = Some old -> map_shape old ->
    m !! kb = Some (ints 8 keys) -> m !! vb = Some (ints 8 vals) -> kb <> vb ->
    map_sizes mx ks vs keys vals -> mx < Z.of_nat fuel -> Forall (mop_ok ks vs) ops ->
    exists m1 m2,
      call sc no_ext fuel c_Map_init
        [struct_ptr 6 s; byte_ptr kb; byte_ptr vb; VInt I32 ks; VInt I32 vs; VInt I32 mx] m tt
      = Ok (VInt IBool 1, m1, tt) /\
      calls (map_call sc fuel s) ops m1 = Ok ((map_ops mx ks vs ops ∅).1, m2) /\
      same_but [s; kb; vb] m m1 /\ same_but [s; kb; vb] m1 m2.
  Proof.
    intros Hs Hsh Hk Hv Hkv Hz Hf Ho. pose proof Hz as (Hc & He & Hw & _).
    set (mp0 := mkMap [] [] 0 0 0 0).
    destruct (map_behaves mx ks vs keys vals mp0 ops Hz Ho) as (mp1 & mp2 & Ei & Er).
    pose proof (ref_Map_init sc no_ext fuel m tt s kb vb (Some mp0) old (Some keys) (Some vals) ks vs mx
      (conj Hs Hsh) Hk Hv ltac:(unfold is_s32; lia) ltac:(unfold is_s32; lia) ltac:(unfold is_s32; lia)) as HR.
    cbn [opt_ptr] in HR. rewrite Ei in HR. cbn [bind opt_put b2z] in HR.
    assert (s <> kb /\ s <> vb) as [Hsp Hsb].
    { split; intros ->; simplify_eq; by eapply map_shape_ints. }
    assert (map_at (put_map s kb vb mp1 m) s kb vb mp1) as Ha.
    { apply lookup_lt_Some in Hs, Hk, Hv. by apply put_map_at. }
    assert (map_keeps fuel mp1) as Hu.
    { cbn in Ei. destruct (_ && _) in Ei; cbn in Ei; [|done].
      injection Ei as <-. unfold map_keeps, map_s32, is_s32; cbn. lia. }
    destruct (map_calls ops _ s kb vb mp1 Ha Hu _ _ Er) as (m' & HC & HS).
    exists (put_map s kb vb mp1 m), m'. split; [exact HR|]. split; [done|]. split; [|done].
    apply same_but_put_map.
  Qed.
End map.
