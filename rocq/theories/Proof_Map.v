(** * Proofs about map.c *)
From stdpp Require Import gmap.
From Verif Require Import Lib Model_Containers Spec_Queue Spec_Map Drive_Map Proof_Queue
  Proof_PriorityQueue.

Notation kv := (list Z * list Z)%type.

Definition mcells (ks vs : Z) (keys vals : list Z) (c : list kv) : Prop :=
  forall k, 0 <= k < len c -> slot keys ks k = (get c k).1 /\ slot vals vs k = (get c k).2.

Lemma get_mid' {A} `{Inhabited A} (l r : list A) x : get (l ++ x :: r) (len l) = x.
Proof.
  rewrite get_app_r.
  - by rewrite Z.sub_diag.
  - rewrite len_cons. pose proof (len_nonneg r). lia.
Qed.
Lemma split_get' {A} `{Inhabited A} (c : list A) k :
  0 <= k < len c -> exists l r, c = l ++ get c k :: r /\ len l = k.
Proof.
  intros Hk. exists (take (Z.to_nat k) c), (drop (S (Z.to_nat k)) c). split.
  - symmetry. apply take_drop_middle. by apply lookup_get.
  - rewrite len_take. lia.
Qed.

(** [c] lists the entries in slot order; it represents [list_to_map c] *)
Record mholds (mx ks vs : Z) (keys0 vals0 : list Z) (m : Map_t) (c : list kv) : Prop := {
  m_mx : m_max_map_size m = mx;
  m_ks : m_key_size m = ks;
  m_vs : m_value_size m = vs;
  m_size : m_current_size m = len c;
  m_le : len c <= mx;
  m_cells : mcells ks vs (m_keys m) (m_values m) c;
  m_nodup : NoDup c.*1;
  m_lk : len (m_keys m) = len keys0;
  m_lv : len (m_values m) = len vals0;
  m_dk : drop (Z.to_nat (mx * ks)) (m_keys m) = drop (Z.to_nat (mx * ks)) keys0;
  m_dv : drop (Z.to_nat (mx * vs)) (m_values m) = drop (Z.to_nat (mx * vs)) vals0 }.

Section map.
  Context (mx ks vs : Z) (keys0 vals0 : list Z).
  Context (Hs : map_sizes mx ks vs keys0 vals0).

  Lemma getindex_ok m c key :
    mholds mx ks vs keys0 vals0 m c -> ks <= len key ->
    let k := take (Z.to_nat ks) key in
    (k ∉ c.*1 /\ Map_GetIndex m key (m_current_size m) = Ok (-1)) \/
    (exists l v r, c = l ++ (k, v) :: r /\ Map_GetIndex m key (m_current_size m) = Ok (len l)).
  Proof.
    destruct Hs as (H1 & H2 & H3 & H4 & H5 & H6 & H7). intros [] Hk k.
    pose proof (len_nonneg c). unfold Map_GetIndex. rewrite m_size0.
    while_rule
      (fun '(i, index) => 0 <= i <= len c /\ index = -1 /\ forall j, 0 <= j < i -> (get c j).1 <> k)
      (fun '(i, index) =>
         (index = -1 /\ forall j, 0 <= j < len c -> (get c j).1 <> k) \/
         (0 <= index < len c /\ (get c index).1 = k))
      (fun '(i, index) => len c - i) st HQ.
    - split; [lia|]. split; [done|]. intros; lia.
    - lia.
    - intros [i index] (Hi & -> & Hj) Hlt. apply Z.ltb_lt in Hlt. rewrite m_ks0.
      pose proof (slot_bounds i mx ks). rewrite ck32_ok by lia. cbn [bind].
      rewrite u64_small by lia. rewrite memcmp_eq_ok by lia. cbn [bind].
      change (slice (m_keys m) (i * ks) ks) with (slot (m_keys m) ks i).
      change (slice key 0 ks) with k.
      destruct (m_cells0 i) as [-> _]; [lia|].
      destruct (bool_decide_reflect ((get c i).1 = k)) as [E|E].
      + right. eexists. split; [done|]. cbv beta iota. right. split; [lia|done].
      + left. eexists. split; [done|]. cbv beta iota. split; [|lia].
        split; [lia|]. split; [done|]. intros j Hj'.
        destruct (Z.eq_dec j i) as [->|]; [done|]. apply Hj. lia.
    - intros [i index] (Hi & -> & Hj) Hlt. apply Z.ltb_ge in Hlt. left. split; [done|].
      intros j Hj'. apply Hj. lia.
    - destruct st as [i index]. cbn [bind]. destruct HQ as [[-> Hj]|[Hi E]].
      + left. split; [|done]. intros Hin. apply elem_of_list_lookup_1 in Hin as [n Hn].
        rewrite list_lookup_fmap in Hn. destruct (c !! n) as [x|] eqn:Ex; [|done].
        injection Hn as Hx. specialize (Hj (Z.of_nat n)). unfold get in Hj.
        rewrite Nat2Z.id, (list_lookup_total_correct _ _ _ Ex) in Hj.
        apply lookup_lt_Some in Ex. apply Hj; [unfold len; lia|done].
      + right. destruct (split_get' c index Hi) as (l & r & Ec & El).
        exists l, (get c index).2, r. split; [|by rewrite El].
        rewrite Ec at 1. f_equal. rewrite <- E. by destruct (get c index).
  Qed.

  Lemma lookup_app_mid (l r : list kv) k v :
    NoDup (l ++ (k, v) :: r).*1 ->
    (list_to_map (l ++ (k, v) :: r) : gmap (list Z) (list Z)) !! k = Some v.
  Proof.
    intros Hn. apply elem_of_list_to_map_1; [done|]. apply elem_of_app. right. left.
  Qed.
  Lemma update_app_mid (l r : list kv) k v v' :
    NoDup (l ++ (k, v) :: r).*1 ->
    (list_to_map (l ++ (k, v') :: r) : gmap (list Z) (list Z))
    = <[k := v']> (list_to_map (l ++ (k, v) :: r)).
  Proof.
    intros Hn. induction l as [|[k1 v1] l IH]; cbn.
    - by rewrite insert_insert.
    - cbn in Hn. inversion_clear Hn as [|? ? Hk Hn']. rewrite IH by done.
      rewrite insert_commute; [done|]. intros ->. apply Hk. rewrite fmap_app.
      apply elem_of_app. right. left.
  Qed.
  Lemma len_size (c : list kv) :
    NoDup c.*1 -> Z.of_nat (size (list_to_map c : gmap (list Z) (list Z))) = len c.
  Proof.
    induction c as [|[k v] c IH]; cbn; intros Hn; [done|].
    inversion_clear Hn as [|? ? Hk Hn']. rewrite map_size_insert_None.
    - rewrite Nat2Z.inj_succ, IH by done. rewrite len_cons. lia.
    - by apply not_elem_of_list_to_map_1.
  Qed.

  Lemma minsert_ok m c key v :
    mholds mx ks vs keys0 vals0 m c -> ks <= len key -> vs <= len v ->
    let M := list_to_map c : gmap (list Z) (list Z) in
    exists m' c', Map_insert (Some m) key v
                  = Ok ((map_step mx ks vs (Insert key v) M).1.1, Some m') /\
      mholds mx ks vs keys0 vals0 m' c' /\
      (map_step mx ks vs (Insert key v) M).2 = list_to_map c' /\
      ((map_step mx ks vs (Insert key v) M).1.1 = false -> m' = m).
  Proof.
    intros H Hk Hv M. pose proof (getindex_ok m c key H Hk) as Hg. cbv zeta in Hg.
    destruct Hs as (H1 & H2 & H3 & H4 & H5 & H6 & H7). pose proof H as [].
    pose proof (len_nonneg c).
    unfold Map_insert. cbn [map_step].
    set (k := take (Z.to_nat ks) key) in *. set (w := take (Z.to_nat vs) v) in *.
    assert (Lk : len k = ks) by (unfold k; rewrite len_take; lia).
    assert (Lw : len w = vs) by (unfold w; rewrite len_take; lia).
    destruct Hg as [[Hnin ->]|(l & v0 & r & Ec & ->)]; cbn [bind].
    - change (-1 =? INDEX_NOT_FOUND) with true. cbv iota.
      assert (EM : M !! k = None) by (by apply not_elem_of_list_to_map_1).
      rewrite EM. unfold M. rewrite len_size by done. rewrite m_size0, m_mx0, m_ks0, m_vs0.
      destruct (Z.ltb_spec (len c) mx) as [Hlt|Hge]; cbn [fst snd].
      2: { replace (len c =? mx) with true by lia. cbn [negb].
           exists m, c. done. }
      replace (len c =? mx) with false by lia. cbn [negb].
      pose proof (slot_bounds (len c) mx ks). pose proof (slot_bounds (len c) mx vs).
      rewrite !ck32_ok by lia. cbn [bind]. rewrite !u64_small by lia.
      rewrite memcpy_ok by lia. cbn [bind]. rewrite memcpy_ok by lia. cbn [bind].
      rewrite !slice_0_take. fold k w.
      exists (mkMap (write (m_keys m) (len c * ks) k) (write (m_values m) (len c * vs) w)
               ks vs mx (len c + 1)), (c ++ [(k, w)]).
      split; [done|]. split; [|split; [|done]].
      + constructor; cbn; try done.
        * by rewrite len_app.
        * rewrite len_app. change (len [(k, w)]) with 1. lia.
        * intros j Hj. rewrite len_app in Hj. change (len [(k, w)]) with 1 in Hj.
          destruct (Z.eq_dec j (len c)) as [->|].
          -- rewrite get_mid'. cbn [fst snd]. split; apply slot_write_same with mx; lia.
          -- rewrite get_app_l by lia.
             rewrite !slot_write_other with (cap := mx) by lia. apply m_cells0. lia.
        * rewrite fmap_app. apply NoDup_app. split; [done|]. split.
          -- intros y Hy Hin. cbn in Hin. apply elem_of_list_singleton in Hin as ->. done.
          -- apply NoDup_singleton.
        * rewrite len_write; lia.
        * rewrite len_write; lia.
        * rewrite drop_write_lt by lia. done.
        * rewrite drop_write_lt by lia. done.
      + symmetry. apply list_to_map_snoc. done.
    - pose proof (len_nonneg l). replace (len l =? INDEX_NOT_FOUND) with false by (unfold INDEX_NOT_FOUND; lia).
      assert (EM : M !! k = Some v0). { unfold M. rewrite Ec. apply lookup_app_mid. by rewrite <- Ec. }
      rewrite EM. cbn [fst snd]. rewrite m_size0, m_mx0, m_ks0, m_vs0.
      assert (Ll : len c = len l + len r + 1) by (rewrite Ec, len_app, len_cons; lia).
      pose proof (len_nonneg r). pose proof (slot_bounds (len l) mx vs).
      rewrite ck32_ok by lia. cbn [bind]. rewrite u64_small by lia.
      rewrite memcpy_ok by lia. cbn [bind]. rewrite slice_0_take. fold w.
      exists (mkMap (m_keys m) (write (m_values m) (len l * vs) w) ks vs mx (len c)),
        (l ++ (k, w) :: r).
      split; [done|]. split; [|split; [|done]].
      + constructor; cbn; try done.
        * rewrite len_app, len_cons. lia.
        * rewrite len_app, len_cons. lia.
        * intros j Hj. rewrite len_app, len_cons in Hj.
          destruct (Z.eq_dec j (len l)) as [->|].
          -- rewrite get_mid'. cbn [fst snd]. split; [|apply slot_write_same with mx; lia].
             destruct (m_cells0 (len l)) as [-> _]; [lia|]. by rewrite Ec, get_mid'.
          -- rewrite slot_write_other with (cap := mx) by lia.
             destruct (m_cells0 j) as [-> ->]; [lia|]. rewrite Ec.
             destruct (Z.lt_ge_cases j (len l)).
             ++ by rewrite !get_app_l by lia.
             ++ rewrite !get_app_r by (rewrite ?len_cons; lia).
                rewrite !get_cons by lia. by replace (j - len l =? 0) with false by lia.
        * rewrite Ec in m_nodup0. by rewrite fmap_app in *.
        * rewrite len_write; lia.
        * rewrite drop_write_lt by lia. done.
      + unfold M. rewrite Ec. symmetry. apply update_app_mid. by rewrite <- Ec.
  Qed.

  Lemma mget_ok m c key d :
    mholds mx ks vs keys0 vals0 m c -> ks <= len key -> vs <= len d ->
    Map_getValue (Some m) key d
    = Ok (map_step mx ks vs (GetValue key d) (list_to_map c)).1.
  Proof.
    intros H Hk Hd. pose proof (getindex_ok m c key H Hk) as Hg. cbv zeta in Hg.
    destruct Hs as (H1 & H2 & H3 & H4 & H5 & H6 & H7). pose proof H as [].
    unfold Map_getValue. cbn [map_step].
    set (k := take (Z.to_nat ks) key) in *.
    destruct Hg as [[Hnin ->]|(l & v0 & r & Ec & ->)]; cbn [bind].
    - rewrite not_elem_of_list_to_map_1 by done. done.
    - pose proof (len_nonneg l). replace (len l =? INDEX_NOT_FOUND) with false by (unfold INDEX_NOT_FOUND; lia).
      cbn [negb]. rewrite Ec, lookup_app_mid by (by rewrite <- Ec). cbn [fst].
      assert (Ll : len c = len l + len r + 1) by (rewrite Ec, len_app, len_cons; lia).
      pose proof (len_nonneg r). pose proof (slot_bounds (len l) mx vs).
      rewrite m_vs0. rewrite ck32_ok by lia. cbn [bind]. rewrite u64_small by lia.
      rewrite memcpy_ok by lia. cbn [bind].
      change (slice (m_values m) (len l * vs) vs) with (slot (m_values m) vs (len l)).
      destruct (m_cells0 (len l)) as [_ ->]; [lia|]. rewrite Ec, get_mid'. by rewrite write_0.
  Qed.

  Lemma mstep_ok op m c :
    mholds mx ks vs keys0 vals0 m c -> mop_ok ks vs op ->
    exists m' c', map_model_step op (Some m)
                  = Ok ((map_step mx ks vs op (list_to_map c)).1, Some m') /\
      mholds mx ks vs keys0 vals0 m' c' /\
      (map_step mx ks vs op (list_to_map c)).2 = list_to_map c'.
  Proof.
    intros H Ho. destruct op as [k v|k d]; destruct Ho as [Hk Hv].
    - destruct (minsert_ok m c k v H Hk Hv) as (m' & c' & E & H' & E' & _).
      exists m', c'. cbn [map_model_step]. rewrite E. cbn [bind]. split; [|done].
      f_equal. f_equal. cbn [map_step]. destruct (_ !! _); [done|]. by destruct (_ <? mx).
    - exists m, c. cbn [map_model_step]. rewrite (mget_ok m c k d H Hk Hv). cbn [bind].
      split; [by destruct (map_step _ _ _ _ _) as [[] ]|]. split; [done|].
      cbn [map_step]. by destruct (_ !! _).
  Qed.
  Lemma mrun_ok ops m c :
    mholds mx ks vs keys0 vals0 m c -> Forall (mop_ok ks vs) ops ->
    exists m' c', map_run ops (Some m)
                  = Ok ((map_ops mx ks vs ops (list_to_map c)).1, Some m') /\
      mholds mx ks vs keys0 vals0 m' c' /\
      (map_ops mx ks vs ops (list_to_map c)).2 = list_to_map c'.
  Proof.
    intros H Ho. revert m c H. induction Ho as [|op ops Hop Ho IH]; intros m c H.
    { exists m, c. done. }
    destruct (mstep_ok op m c H Hop) as (m1 & c1 & E1 & P1 & EM). cbn [map_run map_ops].
    rewrite E1. cbn [bind].
    destruct (map_step mx ks vs op (list_to_map c)) as [r M1]. cbn [fst snd] in *. rewrite EM.
    destruct (IH m1 c1 P1) as (m2 & c2 & E2 & P2 & EM2). rewrite E2. cbn.
    destruct (map_ops mx ks vs ops (list_to_map c1)) as [rs M2]. cbn in *.
    exists m2, c2. done.
  Qed.
  Lemma minit_ok m0 :
    exists m, Map_init (Some m0) (Some keys0) (Some vals0) ks vs mx = Ok (true, Some m) /\
      mholds mx ks vs keys0 vals0 m [].
  Proof.
    destruct Hs as (H1 & H2 & H3 & H4 & H5 & H6 & H7).
    unfold Map_init. replace (ks =? 0) with false by lia. replace (vs =? 0) with false by lia.
    replace (mx =? 0) with false by lia. cbn. eexists. split; [done|].
    constructor; cbn; try lia; try done.
    - change (len []) with 0. lia.
    - intros k Hk. change (len []) with 0 in Hk. lia.
    - apply NoDup_nil_2.
  Qed.
  Lemma mafter_holds ops m :
    Forall (mop_ok ks vs) ops -> map_after mx ks vs keys0 vals0 ops m ->
    exists c, mholds mx ks vs keys0 vals0 m c /\
      (map_ops mx ks vs ops ∅).2 = list_to_map c.
  Proof.
    intros Ho (m0 & m1 & rs & Ei & Er).
    destruct (minit_ok m0) as (m1' & Ei' & P1). rewrite Ei in Ei'. injection Ei' as <-.
    destruct (mrun_ok ops m1 [] P1 Ho) as (m' & c' & Er' & P' & E').
    rewrite Er in Er'. injection Er' as _ <-. exists c'. done.
  Qed.
End map.

(** ** Consequences *)

Lemma map_behaves mx ks vs keys vals m0 ops :
  map_sizes mx ks vs keys vals -> Forall (mop_ok ks vs) ops ->
  exists m1 m2, Map_init (Some m0) (Some keys) (Some vals) ks vs mx = Ok (true, Some m1) /\
    map_run ops (Some m1) = Ok ((map_ops mx ks vs ops ∅).1, Some m2).
Proof.
  intros Hs Ho. destruct (minit_ok mx ks vs keys vals Hs m0) as (m1 & E1 & P1).
  destruct (mrun_ok mx ks vs keys vals Hs ops m1 [] P1 Ho) as (m2 & c2 & E2 & _). eauto.
Qed.

Section mreach.
  Context (mx ks vs : Z) (keys vals : list Z) (ops : list mop) (m : Map_t).
  Context (Hs : map_sizes mx ks vs keys vals) (Ho : Forall (mop_ok ks vs) ops).
  Context (Ha : map_after mx ks vs keys vals ops m).
  Let M := (map_ops mx ks vs ops ∅).2.

  Lemma mreach_get key d : ks <= len key -> vs <= len d ->
    Map_getValue (Some m) key d
    = match M !! take (Z.to_nat ks) key with
      | Some v => Ok (true, copied v d) | None => Ok (false, d) end.
  Proof.
    intros Hk Hd. destruct (mafter_holds _ _ _ _ _ Hs ops m Ho Ha) as (c & Hc & E).
    fold M in E. rewrite E.
    rewrite (mget_ok _ _ _ _ _ Hs m c key d Hc Hk Hd). cbn [map_step]. by destruct (_ !! _).
  Qed.
  Lemma mreach_insert key v : ks <= len key -> vs <= len v ->
    let k := take (Z.to_nat ks) key in
    let ok := bool_decide (is_Some (M !! k)) || (Z.of_nat (size M) <? mx) in
    exists m', Map_insert (Some m) key v = Ok (ok, Some m') /\
      (ok = false -> m' = m) /\
      (ok = true -> map_after mx ks vs keys vals (ops ++ [Insert key v]) m' /\
         (map_ops mx ks vs (ops ++ [Insert key v]) ∅).2
         = <[k := take (Z.to_nat vs) v]> M) /\
      forall key' d, ks <= len key' -> vs <= len d ->
        Map_getValue (Some m') key' d
        = if ok && bool_decide (take (Z.to_nat ks) key' = k)
          then Ok (true, copied (take (Z.to_nat vs) v) d)
          else Map_getValue (Some m) key' d.
  Proof.
    intros Hk Hv k ok. destruct (mafter_holds _ _ _ _ _ Hs ops m Ho Ha) as (c & Hc & E).
    fold M in E.
    destruct (minsert_ok _ _ _ _ _ Hs m c key v Hc Hk Hv) as (m' & c' & E' & Hc' & EM & Hf).
    rewrite <- E in E', EM, Hf. cbn [map_step] in E', EM, Hf. fold k in E', EM, Hf.
    set (w := take (Z.to_nat vs) v) in *.
    assert (Happ : forall r, Map_insert (Some m) key v = Ok (r, Some m') ->
      map_after mx ks vs keys vals (ops ++ [Insert key v]) m').
    { intros r Er. destruct Ha as (m0 & m1 & rs & Ei & Erun). exists m0, m1.
      exists (rs ++ [(r, v)]). split; [done|]. clear - Erun Er.
      revert Erun. generalize (Some m1) as x. revert rs. induction ops as [|op o IH];
        intros rs x; cbn [map_run app].
      - intros [= <- ->]. cbn [map_model_step]. rewrite Er. done.
      - destruct (map_model_step op x) as [[a b]| |]; cbn [bind]; try done.
        destruct (map_run o b) as [[a' b']| |] eqn:Eo; cbn [bind]; try done.
        intros [= <- ->]. rewrite (IH a' b Eo). done. }
    assert (Hops : (map_ops mx ks vs (ops ++ [Insert key v]) ∅).2
                   = (map_step mx ks vs (Insert key v) M).2).
    { unfold M. clear. generalize (∅ : gmap (list Z) (list Z)) as x.
      induction ops as [|op o IH]; intros x; cbn [map_ops app].
      - by destruct (map_step _ _ _ _ _).
      - destruct (map_step mx ks vs op x) as [r x1]. specialize (IH x1).
        destruct (map_ops mx ks vs (o ++ [Insert key v]) x1) as [? ?].
        destruct (map_ops mx ks vs o x1). cbn in *. done. }
    cbn [map_step] in Hops. fold k w in Hops.
    assert (Hok : ok = true -> (map_ops mx ks vs (ops ++ [Insert key v]) ∅).2 = <[k := w]> M
                  /\ list_to_map c' = <[k := w]> M).
    { intros Hok. rewrite Hops, <- EM. unfold ok in Hok. destruct (M !! k); [done|].
      destruct (Z.of_nat (size M) <? mx); [done|]. done. }
    assert (E1 : Map_insert (Some m) key v = Ok (ok, Some m') /\ (ok = false -> m' = m)).
    { unfold ok. destruct (M !! k) eqn:EMk; [done|].
      destruct (Z.of_nat (size M) <? mx) eqn:Es; [done|]. cbn. rewrite Hf in * by done. done. }
    destruct E1 as [E1 E2]. exists m'. split; [done|]. split; [done|]. split.
    - intros H. split; [by eapply Happ|]. by apply Hok.
    - intros key' d Hk' Hd.
      rewrite (mget_ok _ _ _ _ _ Hs m' c' key' d Hc' Hk' Hd).
      rewrite (mget_ok _ _ _ _ _ Hs m c key' d Hc Hk' Hd). rewrite <- E.
      destruct ok eqn:Eok; cbn [andb].
      + destruct (Hok eq_refl) as [_ ->]. cbn [map_step].
        destruct (bool_decide_reflect (take (Z.to_nat ks) key' = k)) as [->|Hne].
        * by rewrite lookup_insert.
        * rewrite lookup_insert_ne by done. by destruct (M !! take (Z.to_nat ks) key').
      + rewrite E2 in Hc' by done. clear - Hc' Hc E Hk' Hd Hs.
        rewrite E. rewrite <- (mget_ok _ _ _ _ _ Hs m c key' d Hc Hk' Hd).
        rewrite <- (mget_ok _ _ _ _ _ Hs m c' key' d Hc' Hk' Hd). done.
  Qed.
  Lemma mreach_independent key v key' d :
    ks <= len key -> vs <= len v -> ks <= len key' -> vs <= len d ->
    take (Z.to_nat ks) key' <> take (Z.to_nat ks) key ->
    exists s m', Map_insert (Some m) key v = Ok (s, Some m') /\
      Map_getValue (Some m') key' d = Map_getValue (Some m) key' d.
  Proof.
    intros Hk Hv Hk' Hd Hne. destruct (mreach_insert key v Hk Hv) as (m' & E & _ & _ & Hg).
    eexists _, m'. split; [exact E|]. rewrite Hg by done.
    rewrite (bool_decide_false (_ = _)) by done. by rewrite andb_false_r.
  Qed.
  Lemma mreach_count :
    m_current_size m = Z.of_nat (size M) /\ Z.of_nat (size M) <= mx /\
    forall i j, 0 <= i < j -> j < m_current_size m ->
      slice (m_keys m) (i * ks) ks <> slice (m_keys m) (j * ks) ks.
  Proof.
    destruct (mafter_holds _ _ _ _ _ Hs ops m Ho Ha) as (c & [] & E). fold M in E.
    rewrite E, len_size by done. split; [done|]. split; [done|]. rewrite m_size0.
    intros i j Hi Hj Heq.
    destruct (m_cells0 i) as [Ei _]; [lia|]. destruct (m_cells0 j) as [Ej _]; [lia|].
    unfold slot in Ei, Ej. rewrite Ei, Ej in Heq.
    assert (Z.to_nat i = Z.to_nat j); [|lia].
    apply (NoDup_lookup c.*1 _ _ (get c i).1 m_nodup0).
    - rewrite list_lookup_fmap, lookup_get by lia. done.
    - rewrite list_lookup_fmap, lookup_get by lia. rewrite Heq. done.
  Qed.
  Lemma mreach_memory :
    m_max_map_size m = mx /\ m_key_size m = ks /\ m_value_size m = vs /\
    len (m_keys m) = len keys /\ len (m_values m) = len vals /\
    drop (Z.to_nat (mx * ks)) (m_keys m) = drop (Z.to_nat (mx * ks)) keys /\
    drop (Z.to_nat (mx * vs)) (m_values m) = drop (Z.to_nat (mx * vs)) vals.
  Proof. by destruct (mafter_holds _ _ _ _ _ Hs ops m Ho Ha) as (c & [] & _). Qed.
End mreach.

(** ** Arguments *)

Lemma minit_rejects map keys vals ks vs mx :
  keys = None \/ vals = None \/ ks = 0 \/ vs = 0 \/ mx = 0 ->
  Map_init map keys vals ks vs mx = Ok (false, map).
Proof.
  intros H. unfold Map_init. destruct keys, vals; try done.
  destruct (Z.eqb_spec ks 0), (Z.eqb_spec vs 0), (Z.eqb_spec mx 0); try done. naive_solver.
Qed.
Lemma minit_accepts m0 keys vals ks vs mx :
  ks <> 0 -> vs <> 0 -> mx <> 0 ->
  Map_init (Some m0) (Some keys) (Some vals) ks vs mx
  = Ok (true, Some (mkMap keys vals ks vs mx 0)).
Proof.
  intros. unfold Map_init.
  by destruct (Z.eqb_spec ks 0), (Z.eqb_spec vs 0), (Z.eqb_spec mx 0).
Qed.
Lemma minit_null keys vals ks vs mx :
  ks <> 0 -> vs <> 0 -> mx <> 0 ->
  Map_init None (Some keys) (Some vals) ks vs mx = UB NullDeref.
Proof.
  intros. unfold Map_init.
  by destruct (Z.eqb_spec ks 0), (Z.eqb_spec vs 0), (Z.eqb_spec mx 0).
Qed.
Lemma mnull key value :
  Map_insert None key value = Ok (false, None) /\ Map_getValue None key value = Ok (false, value).
Proof. done. Qed.
Lemma mnegative keys vals ks vs mx key value :
  - 2 ^ 31 <= ks < 0 -> vs <> 0 -> mx <> 0 -> len keys < 2 ^ 63 ->
  Map_insert (Some (mkMap keys vals ks vs mx 0)) key value = UB OutOfBounds.
Proof.
  intros Hk Hv Hm Hl. unfold Map_insert. cbn [m_current_size m_max_map_size m_key_size].
  unfold Map_GetIndex. cbn [Z.to_nat cwhile]. cbn [bind].
  change (0 <? 0) with false. cbn [bind].
  change (INDEX_NOT_FOUND =? INDEX_NOT_FOUND) with true. cbv iota.
  replace (0 =? mx) with false by lia. cbn [negb]. rewrite ck32_ok by lia. cbn [bind m_keys].
  unfold memcpy. assert (in_range keys (0 * ks) (u64 ks) = false) as ->; [|done].
  apply in_range_false. right. right.
  assert (u64 ks = ks + 2 ^ 64); [|lia].
  unfold u64. rewrite <- (Z_mod_plus_full _ 1), Z.mod_small; lia.
Qed.
Lemma maccept_usable_refuted :
  exists m0 keys vals ks vs mx m key value,
    Map_init (Some m0) (Some keys) (Some vals) ks vs mx = Ok (true, Some m) /\
    Map_insert (Some m) key value = UB OutOfBounds.
Proof.
  exists (mkMap [] [] 0 0 0 0), [1; 2; 3; 4], [1; 2; 3; 4], (-1), 1, 4.
  eexists _, [1], [1]. split; [reflexivity|]. by vm_compute.
Qed.
(** a negative capacity is no capacity: the map writes past its storage *)
Lemma mnegative_capacity_refuted :
  exists m0 keys vals ks vs mx m m1 m2,
    mx < 0 /\ 0 < ks /\ 0 < vs /\
    Map_init (Some m0) (Some keys) (Some vals) ks vs mx = Ok (true, Some m) /\
    Map_insert (Some m) [1] [1] = Ok (true, Some m1) /\
    Map_insert (Some m1) [2] [2] = Ok (true, Some m2) /\
    Map_insert (Some m2) [3] [3] = UB OutOfBounds.
Proof.
  exists (mkMap [] [] 0 0 0 0), [0; 0], [0; 0], 1, 1, (-1).
  eexists _, _, _. split; [lia|]. split; [lia|]. split; [lia|]. split; [reflexivity|].
  split; [vm_compute; reflexivity|]. split; [vm_compute; reflexivity|]. by vm_compute.
Qed.
