(** * Proofs about selection and insertion sort *)
From stdpp Require Import relations.
From Verif Require Import Lib Model_Utils Model_Sort Spec_Sort Proof_Utils Proof_Map Proof_Sort.

(** ** Selection sort *)

Section selection.
  Context (cmp : list Z -> list Z -> bool) (pre post : list Z) (es : Z) (Hes : 0 <= es).
  Notation wf := (Forall (fun x => len x = es)).
  Notation mem xs := (pre ++ concat xs ++ post).

  Definition least (xs : list (list Z)) (i j : Z) : Z :=
    pfor (i + 1) j (fun j k => if cmp (get xs k) (get xs j) then j else k) i.
  Definition sel_step (i : Z) (xs : list (list Z)) : list (list Z) :=
    let k := least xs i (len xs) in if k =? i then xs else swp xs k i.

  Lemma least_ok xs i :
    wf xs -> 0 <= i -> i < len xs -> len xs < 2 ^ 31 -> len xs * es < 2 ^ 31 ->
    cfor (i + 1) (len xs)
      (fun j min_index =>
         let! o1 := ck32 (min_index * es) in
         let! o2 := ck32 (j * es) in
         let! c := call_cmp cmp es (mem xs) (len pre + o1) (mem xs) (len pre + o2) in
         Ok (if (c : bool) then j else min_index)) i = Ok (least xs i (len xs)) /\
    i <= least xs i (len xs) < len xs /\
    (strict_weak_order cmp xs -> forall k, i <= k < len xs ->
       cmp (get xs (least xs i (len xs))) (get xs k) = false).
  Proof.
    intros Hw Hi Hi' Hn Hne.
    for_rule (fun j k => k = least xs i j /\ i <= k < j /\
      (strict_weak_order cmp xs -> forall l, i <= l < j -> cmp (get xs k) (get xs l) = false))
      k HQ.
    - lia.
    - split; [unfold least; by rewrite pfor_empty|]. split; [lia|].
      intros Hs l Hl. replace l with i by lia. by apply swo_irrefl.
    - intros j k Hj (Hk & Hki & Ho).
      destruct (offset es Hes j (len xs)) as [Ho1 Ho1']; [lia|].
      destruct (offset es Hes k (len xs)) as [Ho2 Ho2']; [lia|].
      assert (es <= len xs * es) by lia.
      rewrite !ck32_ok by lia. cbn [bind]. rewrite cmp_mem by (done || lia). cbn [bind].
      eexists. split; [done|]. split; [|split].
      + unfold least. rewrite pfor_succ by lia. fold (least xs i j). by rewrite <- Hk.
      + destruct (cmp (get xs k) (get xs j)); lia.
      + intros Hs l Hl. destruct (cmp (get xs k) (get xs j)) eqn:Ec.
        * destruct (Z.eq_dec l j) as [->|]; [apply swo_irrefl; (done || lia)|].
          apply (swo_below cmp xs k j l); (done || lia || apply Ho; (done || lia)).
        * destruct (Z.eq_dec l j) as [->|]; [done|]. apply Ho; (done || lia).
    - destruct HQ as (-> & ? & ?). done.
  Qed.

  Lemma selection_ok xs :
    wf xs -> len xs < 2 ^ 31 -> len xs * es < 2 ^ 31 ->
    let ys := pfor 0 (len xs - 1) sel_step xs in
    SelectionSort_sort cmp (mem xs) (len pre) (len xs) es = Ok (mem ys) /\
    wf ys /\ Permutation ys xs /\ (strict_weak_order cmp xs -> ascending cmp ys).
  Proof.
    intros Hw Hn Hne res. unfold SelectionSort_sort. pose proof (len_nonneg xs).
    rewrite ck32_ok by lia. cbn [bind].
    destruct (Z.eq_dec (len xs) 0) as [E0|E0].
    { unfold res. rewrite cfor_empty, pfor_empty by lia. split; [done|]. split; [done|].
      split; [done|]. intros _. apply ascending_get. lia. }
    for_rule (fun i m => exists ys, m = mem ys /\ ys = pfor 0 i sel_step xs /\ wf ys /\
      Permutation ys xs /\ len ys = len xs /\
      (strict_weak_order cmp xs -> forall p q, 0 <= p < q -> p < i -> q < len xs ->
         cmp (get ys p) (get ys q) = false)) st HQ.
    - lia.
    - exists xs. split; [done|]. split; [by rewrite pfor_empty|]. split; [done|].
      split; [done|]. split; [done|]. lia.
    - intros i m Hi (ys & -> & Hpf & Hwy & Hp & Hl & Ho).
      destruct (least_ok ys i) as (E & Hb & Hmin); [done|lia|lia|lia|lia|].
      rewrite Hl in E, Hb, Hmin. rewrite E. cbn [bind].
      assert (Hstep : pfor 0 (i + 1) sel_step xs = sel_step i ys)
        by (rewrite pfor_succ by lia; by rewrite <- Hpf).
      unfold sel_step in Hstep. rewrite Hl in Hstep. remember (least ys i (len xs)) as k eqn:Ek.
      destruct (Z.eqb_spec k i) as [Eki|Hne']; cbn [negb].
      + eexists. split; [done|]. exists ys. split; [done|]. split; [done|].
        split; [done|]. split; [done|]. split; [done|].
        intros Hs p q Hpq Hpi Hq. destruct (Z.eq_dec p i) as [->|].
        * rewrite <- Eki at 1. apply Hmin; [by apply (swo_perm cmp xs)|lia].
        * apply Ho; (done || lia).
      + destruct (offset es Hes i (len xs)) as [Ho1 Ho1']; [lia|].
        destruct (offset es Hes k (len xs)) as [Ho2 Ho2']; [lia|].
        assert (es <= len xs * es) by lia.
        rewrite !ck32_ok by lia. cbn [bind]. rewrite u32_small by lia.
        rewrite swap_mem by (done || lia). eexists. split; [done|].
        exists (swp ys k i). split; [done|]. split; [done|].
        split; [apply wf_swp; (done || lia)|].
        split; [rewrite swp_perm by lia; done|]. split; [by rewrite len_swp|].
        intros Hs p q Hpq Hpi Hq. assert (Hs' := Hs). apply (swo_perm cmp xs ys) in Hs'; [|done].
        rewrite !get_swp by lia.
        destruct (Z.eqb_spec i p) as [<-|].
        * replace (i =? q) with false by lia.
          destruct (Z.eqb_spec k q) as [<-|]; apply Hmin; (done || lia).
        * replace (k =? p) with false by lia.
          destruct (Z.eqb_spec i q); [apply Ho; (done || lia)|].
          destruct (Z.eqb_spec k q) as [<-|]; apply Ho; (done || lia).
    - destruct HQ as (ys & -> & Hpf & Hwy & Hp & Hl & Ho). fold res in Hpf. subst ys.
      split; [done|]. split; [done|]. split; [done|]. intros Hs. apply ascending_get.
      intros p q Hpq Hq. apply Ho; (done || lia).
  Qed.
End selection.

(** ** Insertion sort *)

(** a loop that always ends in undefined behaviour *)
Lemma cwhile_ub {S} (P : S -> Prop) (mu : S -> Z) k fuel cond (body : S -> outcome (ctl S)) s :
  P s -> 0 <= mu s < Z.of_nat fuel ->
  (forall s, P s -> cond s = true /\
     (body s = UB k \/ exists s', body s = Ok (Next s') /\ P s' /\ 0 <= mu s' < mu s)) ->
  cwhile fuel cond body s = UB k.
Proof.
  revert s. induction fuel as [|f IH]; intros s HP Hmu Hb; [lia|]. cbn.
  destruct (Hb s HP) as [-> [->|(s' & -> & HP' & Hm)]]; cbn; [done|]. apply IH; (done || lia).
Qed.

Section insertion.
  Context (cmp : list Z -> list Z -> bool) (pre post : list Z) (es : Z) (Hes : 0 <= es <= 64).
  Notation wf := (Forall (fun x => len x = es)).
  Notation mem xs := (pre ++ concat xs ++ post).

  Definition ins_body (i : Z) : list Z * list Z -> outcome (list Z * list Z) :=
    fun '(m, element) =>
       let! o := ck32 (i * es) in
       let! element := memcpy element 0 m (len pre + o) (u64 es) in
       let j := i - 1 in
       let! o := ck32 (j * es) in
       let! compare := call_cmp cmp es m (len pre + o) element 0 in
       let! '(m, j, _) :=
         cwhile (S (Z.to_nat i))
           (fun '(m, j, compare) => (0 <=? j) && compare)
           (fun '(m, j, compare) =>
              let! o1 := ck32 ((j + 1) * es) in
              let! o := ck32 (j * es) in
              let! m := memcpy_within m (len pre + o1) (len pre + o) (u64 es) in
              let j := j - 1 in
              let! o := ck32 (j * es) in
              let! compare := call_cmp cmp es m (len pre + o) element 0 in
              Ok (Next (m, j, compare)))
           (m, j, compare) in
       let! o1 := ck32 ((j + 1) * es) in
       let! m := memcpy m (len pre + o1) element 0 (u64 es) in
       Ok (m, element).
  Lemma insertion_unfold m el n :
    InsertionSort_sort cmp m el (len pre) n es = cfor 1 n ins_body (m, el).
  Proof. reflexivity. Qed.

  (** where [x] goes among the first [k] elements, and the elements [j+1 .. i-1] shifted *)
  Fixpoint pos (ys : list (list Z)) (x : list Z) (k : nat) : Z :=
    match k with
    | O => 0
    | S k' => if cmp (get ys (Z.of_nat k')) x then pos ys x k' else Z.of_nat k
    end.
  Definition shift (ys : list (list Z)) (i p : Z) : list (list Z) :=
    pfor 0 (i - p) (fun k zs => <[Z.to_nat (i - k) := get zs (i - k - 1)]> zs) ys.
  Definition ins_step (i : Z) (ys : list (list Z)) : list (list Z) :=
    let x := get ys i in
    let p := pos ys x (Z.to_nat i) in <[Z.to_nat p := x]> (shift ys i p).

  Lemma pos_ok ys x (i : nat) j :
    -1 <= j < Z.of_nat i -> (forall q, j < q < Z.of_nat i -> cmp (get ys q) x = true) ->
    (0 <= j -> cmp (get ys j) x = false) -> pos ys x i = j + 1.
  Proof.
    induction i as [|k IH]; intros Hj Hq Hf; [cbn; lia|]. cbn [pos].
    destruct (Z.eq_dec j (Z.of_nat k)) as [->|].
    - rewrite Hf by lia. lia.
    - rewrite Hq by lia. apply IH; [lia| |done]. intros q Hk. apply Hq. lia.
  Qed.

  (** the state of the inner loop *)
  Definition shifted (ys zs : list (list Z)) (i j : Z) : Prop :=
    zs = shift ys i (j + 1) /\ wf zs /\ len zs = len ys /\ -1 <= j < i /\
    (forall p, 0 <= p < len ys ->
       get zs p = if (j + 1 <? p) && (p <=? i) then get ys (p - 1) else get ys p) /\
    (forall q, j < q < i -> cmp (get ys q) (get ys i) = true) /\
    rtc (step cmp) ys (<[Z.to_nat (j + 1) := get ys i]> zs).

  Lemma shifted_0 ys i : wf ys -> 1 <= i < len ys -> shifted ys ys i (i - 1).
  Proof.
    intros Hw Hi. split; [unfold shift; by rewrite pfor_empty by lia|]. split; [done|]. split; [done|]. split; [lia|].
    split; [|split].
    - intros p Hp. by replace ((i - 1 + 1 <? p) && (p <=? i)) with false by lia.
    - lia.
    - replace (i - 1 + 1) with i by lia. rewrite list_insert_id; [done|]. apply lookup_get. lia.
  Qed.
  Lemma shifted_next ys zs i j :
    wf ys -> 1 <= i < len ys -> shifted ys zs i j -> 0 <= j ->
    cmp (get ys j) (get ys i) = true ->
    shifted ys (<[Z.to_nat (j + 1) := get zs j]> zs) i (j - 1).
  Proof.
    intros Hw Hi (Hsh & Hwz & Hl & Hj & Hg & Hq & Hs) Hj0 Hc. split.
    { unfold shift in *. replace (i - (j - 1 + 1)) with (i - (j + 1) + 1) by lia.
      rewrite pfor_succ by lia. rewrite <- Hsh. f_equal; [lia|]. f_equal. lia. }
    split.
    { apply wf_insert; [done|]. apply get_wf; (done || lia). }
    split; [by rewrite len_insert|]. split; [lia|]. split; [|split].
    - intros p Hp. rewrite get_insert by lia. rewrite !Hg by lia.
      replace ((j + 1 <? j) && (j <=? i)) with false by lia.
      destruct (Z.eqb_spec (j + 1) p) as [<-|].
      + replace ((j - 1 + 1 <? j + 1) && (j + 1 <=? i)) with true by lia. f_equal. lia.
      + replace ((j + 1 <? p) && (p <=? i)) with ((j - 1 + 1 <? p) && (p <=? i)) by lia. done.
    - intros q Hk. destruct (Z.eq_dec q j) as [->|]; [done|]. apply Hq. lia.
    - eapply rtc_r; [exact Hs|].
      set (vs := <[Z.to_nat (j + 1) := get ys i]> zs).
      assert (Ej : get vs j = get zs j) by (unfold vs; rewrite get_insert_ne by lia; done).
      assert (Ej1 : get vs (j + 1) = get ys i) by (unfold vs; rewrite get_insert_eq by lia; done).
      replace (<[Z.to_nat (j - 1 + 1) := get ys i]> (<[Z.to_nat (j + 1) := get zs j]> zs))
        with (swp vs j (j + 1)).
      + apply step_swp; [lia|unfold vs; rewrite len_insert; lia|].
        rewrite Ej, Ej1, Hg by lia.
        replace ((j + 1 <? j) && (j <=? i)) with false by lia. done.
      + replace (j - 1 + 1) with j by lia. unfold swp. rewrite Ej, Ej1. unfold vs.
        rewrite (list_insert_commute zs (Z.to_nat j) (Z.to_nat (j + 1))) by lia.
        rewrite list_insert_insert.
        rewrite (list_insert_commute zs (Z.to_nat j)) by lia. done.
  Qed.

  Lemma el_slice (el x : list Z) : len el = 64 -> len x = es -> slice (write el 0 x) 0 es = x.
  Proof. intros Hl Hx. rewrite <- Hx. apply slice_write_same; lia. Qed.

  Lemma call_el m o el x :
    0 <= o -> o + es <= len m -> len el = 64 -> len x = es ->
    call_cmp cmp es m o (write el 0 x) 0 = Ok (cmp (slice m o es) x).
  Proof.
    intros Ho Hm Hl Hx. rewrite cmp_any by (rewrite ?len_write; lia). by rewrite el_slice.
  Qed.

  (** the part of an iteration before the inner loop *)
  Lemma ins_step_ok ys el i :
    wf ys -> 1 <= i < len ys -> len ys < 2 ^ 31 -> len ys * es < 2 ^ 31 -> len el = 64 ->
    es <= len pre \/ (exists p, 0 <= p < i /\ cmp (get ys p) (get ys i) = false) ->
    let vs := ins_step i ys in
    ins_body i (mem ys, el) = Ok (mem vs, write el 0 (get ys i)) /\
    wf vs /\ len vs = len ys /\ rtc (step cmp) ys vs /\
    (forall p, i < p < len ys -> get vs p = get ys p) /\
    (strict_weak_order cmp ys ->
     (forall p q, 0 <= p < q -> q < i -> cmp (get ys p) (get ys q) = false) ->
     (forall p q, 0 <= p < q -> q <= i -> cmp (get vs p) (get vs q) = false)).
  Proof.
    intros Hw Hi Hn Hne Hel Hroom res. unfold ins_body.
    pose proof (len_nonneg pre). pose proof (len_nonneg post).
    assert (Hmem : forall zs, wf zs -> len zs = len ys ->
      len (mem zs) = len pre + len ys * es + len post).
    { intros zs Hz Hlz. rewrite (len_mem pre post es), Hlz by done. lia. }
    assert (Hes' : es <= len ys * es) by nia.
    destruct (offset es ltac:(lia) i (len ys)) as [Hoi Hoi']; [lia|].
    destruct (offset es ltac:(lia) (i - 1) (len ys)) as [Hoj Hoj']; [lia|].
    assert (Hx : len (get ys i) = es) by (apply get_wf; (done || lia)).
    rewrite !ck32_ok by lia. cbn [bind]. rewrite u64_small by lia.
    rewrite memcpy_ok by (rewrite ?Hmem by done; lia). cbn [bind].
    rewrite slice_mem by (done || lia).
    rewrite call_el by (rewrite ?Hmem by done; (done || lia)). cbn [bind].
    rewrite slice_mem by (done || lia).
    while_rule (fun '(m, j, c) => exists zs, m = mem zs /\ shifted ys zs i j /\
        (0 <= j -> c = cmp (get ys j) (get ys i)))
      (fun '(m, j, c) => exists zs, m = mem zs /\ shifted ys zs i j /\
        (0 <= j -> cmp (get ys j) (get ys i) = false))
      (fun '(m, j, c) => j + 1) st HQ.
    - exists ys. split; [done|]. split; [by apply shifted_0|]. done.
    - lia.
    - intros [[m j] c] (zs & -> & Hsh & Hc) Hcond. left.
      apply andb_true_iff in Hcond as [Hj0 ->]. apply Z.leb_le in Hj0.
      specialize (Hc Hj0). symmetry in Hc.
      pose proof (shifted_next ys zs i j Hw Hi Hsh Hj0 Hc) as Hnext.
      destruct Hsh as (_ & Hwz & Hl & Hj & Hg & Hq & Hs).
      destruct (offset es ltac:(lia) j (len ys)) as [H1 H1']; [lia|].
      destruct (offset es ltac:(lia) (j + 1) (len ys)) as [H2 H2']; [lia|].
      pose proof (offset_order es ltac:(lia) j (j + 1) ltac:(lia)).
      assert (Hsub : (j - 1) * es = j * es - es) by ring.
      assert (Hjes : 0 < j -> es <= j * es)
        by (intros; pose proof (offset_order es ltac:(lia) 0 j ltac:(lia)); lia).
      rewrite !ck32_ok by lia. cbn [bind].
      rewrite memcpy_within_ok by (rewrite ?Hmem by done; lia). cbn [bind].
      rewrite slice_mem, write_mem by (done || lia || apply get_wf; (done || lia)).
      destruct Hnext as (Hn0 & Hn1 & Hn2 & Hn3 & Hn4 & Hn5 & Hn6).
      set (zs' := <[Z.to_nat (j + 1) := get zs j]> zs) in *.
      rewrite call_el; [|destruct Hroom as [Hroom|(p & Hp & Hpc)]|rewrite Hmem by done|done|done].
      + cbn [bind]. eexists. split; [done|]. cbv beta iota. split; [|lia].
        exists zs'. split; [done|]. split; [done|].
        intros Hj1. rewrite slice_mem by (done || lia). rewrite Hn4 by lia.
        replace ((j - 1 + 1 <? j - 1) && (j - 1 <=? i)) with false by lia. done.
      + lia.
      + destruct (Z.eq_dec j 0) as [->|]; [|lia].
        rewrite Hn5 in Hpc by lia. done.
      + lia.
    - intros [[m j] c] (zs & -> & Hsh & Hc) Hcond. exists zs. split; [done|]. split; [done|].
      intros Hj. rewrite <- Hc by done. destruct c; [lia|done].
    - destruct st as [[m j] c]. destruct HQ as (zs & -> & (Hsh & Hwz & Hl & Hj & Hg & Hq & Hs) & Hc).
      cbn [bind]. destruct (offset es ltac:(lia) (j + 1) (len ys)) as [H2 H2']; [lia|].
      rewrite ck32_ok by lia. cbn [bind].
      rewrite memcpy_ok by (rewrite ?Hmem by done; rewrite ?len_write by lia; lia). cbn [bind].
      rewrite el_slice, write_mem by (done || lia).
      assert (Eres : res = <[Z.to_nat (j + 1) := get ys i]> zs).
      { unfold res, ins_step. rewrite (pos_ok _ _ _ j).
        - by rewrite Hsh.
        - lia.
        - intros q Hk. apply Hq. lia.
        - done. }
      rewrite Eres. set (vs := <[Z.to_nat (j + 1) := get ys i]> zs) in *.
      assert (Hgv : forall p, 0 <= p < len ys -> get vs p
        = if p =? j + 1 then get ys i
          else if (j + 1 <? p) && (p <=? i) then get ys (p - 1) else get ys p).
      { intros p Hp. unfold vs. rewrite get_insert by lia. rewrite Z.eqb_sym.
        destruct (p =? j + 1); [done|]. by apply Hg. }
      split; [done|]. split.
      { apply wf_insert; [done|]. done. }
      split; [unfold vs; by rewrite len_insert|]. split; [done|]. split.
      { intros p Hp. rewrite Hgv by lia. replace (p =? j + 1) with false by lia.
        replace ((j + 1 <? p) && (p <=? i)) with false by lia. done. }
      intros Hswo Hsort p q Hpq Hqi. rewrite !Hgv by lia.
      destruct (Z.eqb_spec p (j + 1)) as [->|], (Z.eqb_spec q (j + 1)) as [->|]; try lia.
      + replace ((j + 1 <? q) && (q <=? i)) with true by lia.
        apply swo_asym; try done; [lia|lia|]. apply Hq. lia.
      + replace ((j + 1 <? p) && (p <=? i)) with false by lia.
        destruct (Z.eq_dec p j) as [->|]; [apply Hc; lia|].
        apply (swo_le_trans cmp ys p j i); try done; [lia|lia|lia| |apply Hc; lia].
        apply Hsort; lia.
      + destruct ((j + 1 <? p) && (p <=? i)) eqn:E1, ((j + 1 <? q) && (q <=? i)) eqn:E2;
          apply Hsort; lia.
  Qed.

  Lemma ins_step_ub ys el i :
    wf ys -> 1 <= i < len ys -> len ys < 2 ^ 31 -> len ys * es < 2 ^ 31 -> len el = 64 ->
    len pre < es -> (forall p, 0 <= p < i -> cmp (get ys p) (get ys i) = true) ->
    ins_body i (mem ys, el) = UB OutOfBounds.
  Proof.
    intros Hw Hi Hn Hne Hel Hroom Hall. unfold ins_body.
    pose proof (len_nonneg pre). pose proof (len_nonneg post).
    assert (Hmem : forall zs, wf zs -> len zs = len ys ->
      len (mem zs) = len pre + len ys * es + len post).
    { intros zs Hz Hlz. rewrite (len_mem pre post es), Hlz by done. lia. }
    assert (Hes' : es <= len ys * es) by nia.
    destruct (offset es ltac:(lia) i (len ys)) as [Hoi Hoi']; [lia|].
    destruct (offset es ltac:(lia) (i - 1) (len ys)) as [Hoj Hoj']; [lia|].
    assert (Hx : len (get ys i) = es) by (apply get_wf; (done || lia)).
    rewrite !ck32_ok by lia. cbn [bind]. rewrite u64_small by lia.
    rewrite memcpy_ok by (rewrite ?Hmem by done; lia). cbn [bind].
    rewrite slice_mem by (done || lia).
    rewrite call_el by (rewrite ?Hmem by done; (done || lia)). cbn [bind].
    rewrite slice_mem by (done || lia).
    rewrite (cwhile_ub (fun '(m, j, c) => exists zs, m = mem zs /\ shifted ys zs i j /\
        0 <= j /\ c = true) (fun '(m, j, c) => j) OutOfBounds); [done| | |].
    - exists ys. split; [done|]. split; [by apply shifted_0|]. split; [lia|]. apply Hall. lia.
    - lia.
    - intros [[m j] c] (zs & -> & Hsh & Hj0 & ->). split; [lia|].
      assert (Hj := Hsh). destruct Hj as (_ & Hwz & Hl & Hj & Hg & Hq & Hs).
      pose proof (shifted_next ys zs i j Hw Hi Hsh Hj0 (Hall j ltac:(lia))) as Hnext.
      destruct (offset es ltac:(lia) j (len ys)) as [H1 H1']; [lia|].
      destruct (offset es ltac:(lia) (j + 1) (len ys)) as [H2 H2']; [lia|].
      pose proof (offset_order es ltac:(lia) j (j + 1) ltac:(lia)).
      assert (Hsub : (j - 1) * es = j * es - es) by ring.
      assert (Hjes : 0 < j -> es <= j * es)
        by (intros; pose proof (offset_order es ltac:(lia) 0 j ltac:(lia)); lia).
      rewrite !ck32_ok by lia. cbn [bind].
      rewrite memcpy_within_ok by (rewrite ?Hmem by done; lia). cbn [bind].
      rewrite slice_mem, write_mem by (done || lia || apply get_wf; (done || lia)).
      assert (Hn' := Hnext). destruct Hn' as (Hn0 & Hn1 & Hn2 & Hn3 & Hn4 & Hn5 & Hn6).
      set (zs' := <[Z.to_nat (j + 1) := get zs j]> zs) in *.
      destruct (Z.eq_dec j 0) as [->|].
      + left. unfold call_cmp. rewrite (proj2 (in_range_false (mem zs') _ _)); [done|lia].
      + right. rewrite call_el by (rewrite ?Hmem by done; (done || lia)). cbn [bind].
        eexists. split; [done|]. cbv beta iota. split; [|lia].
        exists zs'. split; [done|]. split; [done|]. split; [lia|].
        rewrite slice_mem by (done || lia). rewrite Hn4 by lia.
        replace ((j - 1 + 1 <? j - 1) && (j - 1 <=? i)) with false by lia. apply Hall. lia.
  Qed.

  (** element [i] is below all the earlier ones *)
  Definition low (xs : list (list Z)) (i : Z) : Prop :=
    forall p, 0 <= p < i -> cmp (get xs p) (get xs i) = true.

  Lemma low_dec xs i : 0 <= i -> low xs i \/ exists p, 0 <= p < i /\ cmp (get xs p) (get xs i) = false.
  Proof.
    intros Hi. unfold low.
    assert (Hgen : forall k, 0 <= k -> (forall p, 0 <= p < k -> cmp (get xs p) (get xs i) = true) \/
      exists p, 0 <= p < k /\ cmp (get xs p) (get xs i) = false).
    { apply natlike_ind; [left; lia|]. intros k Hk [IH|(p & Hp & Hc)].
      - destruct (cmp (get xs k) (get xs i)) eqn:Ec.
        + left. intros p Hp. destruct (Z.eq_dec p k) as [->|]; [done|]. apply IH. lia.
        + right. exists k. split; [lia|done].
      - right. exists p. split; [lia|done]. }
    by apply Hgen.
  Qed.

  (** the state before iteration [i] *)
  Definition insorted (xs : list (list Z)) (i : Z) (ys : list (list Z)) : Prop :=
    ys = pfor 1 i ins_step xs /\ wf ys /\ len ys = len xs /\ rtc (step cmp) xs ys /\
    (forall p, i <= p < len xs -> get ys p = get xs p) /\
    Permutation (take (Z.to_nat i) ys) (take (Z.to_nat i) xs) /\
    (strict_weak_order cmp xs ->
     forall p q, 0 <= p < q -> q < i -> cmp (get ys p) (get ys q) = false).

  Lemma insorted_low xs ys i : 0 <= i < len xs -> insorted xs i ys ->
    (forall p, 0 <= p < i -> cmp (get xs p) (get xs i) = true) <->
    (forall p, 0 <= p < i -> cmp (get ys p) (get ys i) = true).
  Proof.
    intros Hi (_ & _ & Hl & _ & Hg & Hp & _). rewrite Hg by lia.
    assert (Hgen : forall (zs : list (list Z)) x, i <= len zs ->
      (forall p, 0 <= p < i -> cmp (get zs p) x = true) <->
      (forall y, y ∈ take (Z.to_nat i) zs -> cmp y x = true)).
    { intros zs x Hz. split.
      - intros H y Hy. apply elem_of_list_lookup in Hy as (k & Hk).
        apply lookup_take_Some in Hk as [Hk Hk2]. specialize (H (Z.of_nat k)).
        unfold get in H. rewrite Nat2Z.id, (list_lookup_total_correct _ _ _ Hk) in H. apply H. lia.
      - intros H p Hp'. apply H. apply elem_of_list_lookup_2 with (Z.to_nat p).
        rewrite lookup_take by lia. apply lookup_get. lia. }
    rewrite !Hgen by lia. by setoid_rewrite Hp.
  Qed.
  Lemma insorted_next xs ys i : 1 <= i < len xs -> insorted xs i ys ->
    wf (ins_step i ys) -> len (ins_step i ys) = len ys ->
    rtc (step cmp) ys (ins_step i ys) ->
    (forall p, i < p < len ys -> get (ins_step i ys) p = get ys p) ->
    (strict_weak_order cmp ys ->
     (forall p q, 0 <= p < q -> q < i -> cmp (get ys p) (get ys q) = false) ->
     (forall p q, 0 <= p < q -> q <= i ->
        cmp (get (ins_step i ys) p) (get (ins_step i ys) q) = false)) ->
    insorted xs (i + 1) (ins_step i ys).
  Proof.
    intros Hi (Hpf & Hw & Hl & Hs & Hg & Hp & Ho) Hw' Hl' Hs' Hg' Ho'.
    set (vs := ins_step i ys) in *.
    split; [rewrite pfor_succ by lia; by rewrite <- Hpf|]. split; [done|]. split; [lia|].
    split; [by transitivity ys|]. split; [|split].
    - intros p Hpi. rewrite Hg', Hg by lia. done.
    - assert (Hd : drop (Z.to_nat (i + 1)) vs = drop (Z.to_nat (i + 1)) xs).
      { apply get_ext; rewrite !len_drop; [lia|]. intros k Hk.
        rewrite !get_drop by lia. rewrite Hg', Hg by lia. done. }
      assert (Hpp : Permutation vs xs).
      { rewrite (steps_perm cmp _ _ Hs'). by apply (steps_perm cmp). }
      rewrite <- (take_drop (Z.to_nat (i + 1)) vs), <- (take_drop (Z.to_nat (i + 1)) xs) in Hpp.
      rewrite Hd in Hpp. by apply Permutation_app_inv_r in Hpp.
    - intros Hswo p q Hpq Hq. apply Ho'; try lia.
      + apply (swo_perm cmp xs); [|done]. by apply (steps_perm cmp).
      + by apply Ho.
  Qed.
  Lemma insorted_1 xs : wf xs -> insorted xs 1 xs.
  Proof.
    intros Hw. split; [by rewrite pfor_empty|]. split; [done|]. split; [done|]. split; [done|].
    split; [done|]. split; [done|]. lia.
  Qed.

  Lemma ins_prefix xs el k :
    wf xs -> 1 <= k <= len xs -> len xs < 2 ^ 31 -> len xs * es < 2 ^ 31 -> len el = 64 ->
    es <= len pre \/ (forall i, 1 <= i < k -> ~ low xs i) ->
    exists el', cfor 1 k ins_body (mem xs, el) = Ok (mem (pfor 1 k ins_step xs), el') /\
      len el' = 64 /\ insorted xs k (pfor 1 k ins_step xs).
  Proof.
    intros Hw Hk Hn Hne Hel Hroom.
    for_rule (fun i '(m, el') => exists ys, m = mem ys /\ len el' = 64 /\ insorted xs i ys) st HQ.
    - lia.
    - exists xs. split; [done|]. split; [done|]. by apply insorted_1.
    - intros i [m e] Hi (ys & -> & He & Hin).
      assert (Hl : len ys = len xs) by apply Hin.
      destruct (ins_step_ok ys e i) as (E & Hw' & Hl' & Hs' & Hg' & Ho').
      + apply Hin.
      + lia.
      + lia.
      + lia.
      + done.
      + destruct Hroom as [Hroom|Hno]; [by left|right].
        destruct (low_dec ys i ltac:(lia)) as [Hlow|Hex]; [|done].
        destruct (Hno i ltac:(lia)). exact (proj2 (insorted_low xs ys i ltac:(lia) Hin) Hlow).
      + rewrite E. eexists. split; [done|]. cbv beta iota. exists (ins_step i ys).
        assert (len (get ys i) = es) by (apply get_wf; [apply Hin|lia]).
        split; [done|]. split; [rewrite len_write; lia|]. apply insorted_next; (done || lia).
    - destruct st as [m e]. destruct HQ as (ys & -> & He & Hin).
      assert (E := Hin). destruct E as [E _]. rewrite <- E. exists e. done.
  Qed.

  Lemma insertion_ok xs el :
    wf xs -> len xs < 2 ^ 31 -> len xs * es < 2 ^ 31 -> len el = 64 ->
    es <= len pre \/ (forall i, 1 <= i < len xs -> ~ low xs i) ->
    let ys := pfor 1 (len xs) ins_step xs in
    exists el', InsertionSort_sort cmp (mem xs) el (len pre) (len xs) es = Ok (mem ys, el') /\
      len el' = 64 /\ wf ys /\ rtc (step cmp) xs ys /\
      (strict_weak_order cmp xs -> ascending cmp ys).
  Proof.
    intros Hw Hn Hne Hel Hroom res. rewrite insertion_unfold. pose proof (len_nonneg xs).
    destruct (Z.eq_dec (len xs) 0) as [E0|E0].
    { unfold res. rewrite cfor_empty, pfor_empty by lia. exists el. split; [done|]. split; [done|].
      split; [done|]. split; [done|]. intros _. apply ascending_get. lia. }
    destruct (ins_prefix xs el (len xs)) as (el' & E & Hel' & Hin); try done; [lia|].
    fold res in E, Hin. exists el'. rewrite E. split; [done|]. split; [done|].
    destruct Hin as (_ & Hw' & Hl' & Hs & _ & _ & Ho). split; [done|]. split; [done|].
    intros Hswo. apply ascending_get. intros p q Hpq Hq. apply Ho; (done || lia).
  Qed.

  Lemma least_low xs i : 0 <= i -> low xs i -> 1 <= i ->
    exists k, 1 <= k <= i /\ low xs k /\ forall j, 1 <= j < k -> ~ low xs j.
  Proof.
    intros Hi. revert i Hi. 
    assert (Hgen : forall n, 0 <= n -> forall i, 1 <= i <= n -> low xs i ->
      exists k, 1 <= k <= i /\ low xs k /\ forall j, 1 <= j < k -> ~ low xs j).
    { apply (natlike_ind (fun n => forall i, 1 <= i <= n -> low xs i ->
      exists k, 1 <= k <= i /\ low xs k /\ forall j, 1 <= j < k -> ~ low xs j)); [lia|].
      intros n Hn IH i Hi Hlow.
      destruct (Z.eq_dec i (Z.succ n)) as [->|]; [|apply IH; (done || lia)].
      assert (Hd : (exists j, 1 <= j <= n /\ low xs j) \/ forall j, 1 <= j < Z.succ n -> ~ low xs j).
      { clear IH Hlow Hi. revert n Hn. apply natlike_ind; [right; lia|].
        intros n Hn [(j & Hj & Hl)|Hno]; [left; exists j; split; [lia|done]|].
        destruct (low_dec xs (Z.succ n) ltac:(lia)) as [Hl|(p & Hp & Hc)].
        - left. exists (Z.succ n). split; [lia|done].
        - right. intros j Hj Hl. destruct (Z.eq_dec j (Z.succ n)) as [->|].
          + rewrite Hl in Hc by done. done.
          + apply (Hno j); (done || lia). }
      destruct Hd as [(j & Hj & Hl)|Hno].
      - destruct (IH j) as (k & Hk & Hlk & Hmin); [lia|done|]. exists k. split; [lia|done].
      - exists (Z.succ n). split; [lia|]. done. }
    intros i Hi Hlow Hi1. apply (Hgen i); (done || lia).
  Qed.

  Lemma insertion_ub xs el :
    wf xs -> len xs < 2 ^ 31 -> len xs * es < 2 ^ 31 -> len el = 64 ->
    len pre < es -> (exists i, 1 <= i < len xs /\ low xs i) ->
    InsertionSort_sort cmp (mem xs) el (len pre) (len xs) es = UB OutOfBounds.
  Proof.
    intros Hw Hn Hne Hel Hroom (i & Hi & Hlow). rewrite insertion_unfold.
    destruct (least_low xs i) as (k & Hk & Hlk & Hmin); [lia|done|lia|].
    rewrite (cfor_split 1 k) by lia.
    destruct (ins_prefix xs el k) as (el' & E & Hel' & Hin); try done; [lia|by right|].
    rewrite E. cbn [bind]. rewrite cfor_step by lia.
    assert (Hl : len (pfor 1 k ins_step xs) = len xs) by apply Hin.
    rewrite ins_step_ub; [done|apply Hin|lia|lia|lia|done|done|].
    exact (proj1 (insorted_low xs _ k ltac:(lia) Hin) Hlk).
  Qed.
End insertion.

Lemma insertion_big cmp m el base n es :
  64 < es < 2 ^ 31 -> 2 <= n -> len el = 64 ->
  InsertionSort_sort cmp m el base n es = UB OutOfBounds.
Proof.
  intros Hes Hn Hel. unfold InsertionSort_sort. rewrite cfor_step by lia.
  rewrite ck32_ok by lia. cbn [bind]. rewrite u64_small by lia.
  unfold memcpy at 1. rewrite (proj2 (in_range_false el _ _)) by lia. done.
Qed.
