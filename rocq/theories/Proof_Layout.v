(** * Proofs for [Props_Layout.v]: where the objects lie does not matter *)
From Verif Require Import CSem Lib CLang Spec_Layout Proof_EvalOrder.
Local Open Scope Z_scope.

Definition osim {A B} (P : A -> B -> Prop) (x : outcome A) (y : outcome B) : Prop :=
  forall a, x = Ok a -> exists b, y = Ok b /\ P a b.
Lemma osim_bind {A B C D} (P : A -> B -> Prop) (Q : C -> D -> Prop) x y f g :
  osim P x y -> (forall a b, P a b -> osim Q (f a) (g b)) -> osim Q (bind x f) (bind y g).
Proof.
  intros H Hf c E. destruct x as [a| |]; try discriminate. destruct (H a eq_refl) as (b & -> & HP).
  exact (Hf a b HP c E).
Qed.
Lemma osim_Ok {A B} (P : A -> B -> Prop) a b : P a b -> osim P (Ok a) (Ok b).
Proof. intros H c E. injection E as <-. eauto. Qed.
Lemma osim_UB {A B} (P : A -> B -> Prop) k y : osim P (UB k) y.
Proof. intros c E. discriminate. Qed.
Lemma osim_Div {A B} (P : A -> B -> Prop) y : osim P Diverge y.
Proof. intros c E. discriminate. Qed.

Lemma length_map' {A B} (f : A -> B) l : length (map f l) = length l.
Proof. apply map_length. Qed.

(** ** Objects *)

Section layout.
  Context (j : nat -> nat * nat).
  Notation mv := (moved j).
  Notation mc := (map (moved_cell j)).
  Notation shift b := (match b with BObj n => Z.of_nat (snd (j n)) | BData _ _ => 0 end).
  Notation mb b := (match b with BObj n => BObj (fst (j n)) | BData _ _ => b end).

  Lemma move_ptr t b o : mv (VPtr t b o) = VPtr t (mb b) (shift b + o).
  Proof. destruct b; reflexivity. Qed.

  Lemma part_lookup cs ds o :
    part j cs ds o <->
    (o + length cs <= length ds)%nat /\
    forall i c, cs !! i = Some c -> ds !! (o + i)%nat = Some (moved_cell j c).
  Proof.
    split.
    - intros (pre & post & -> & <-). rewrite !app_length, map_length. split; [lia|].
      intros i c H. rewrite lookup_app_r by lia. rewrite lookup_app_l.
      + rewrite (list_lookup_fmap (moved_cell j)). replace (_ - _)%nat with i by lia. rewrite H. done.
      + apply lookup_lt_Some in H. rewrite map_length. lia.
    - intros [L H]. exists (take o ds), (drop (o + length cs) ds). rewrite take_length. split; [|lia].
      assert (take (length cs) (drop o ds) = mc cs) as <-.
      { apply list_eq. intros i. rewrite (list_lookup_fmap (moved_cell j)).
        destruct (cs !! i) as [c|] eqn:X.
        - pose proof (lookup_lt_Some _ _ _ X). rewrite lookup_take by lia.
          rewrite lookup_drop. exact (H _ _ X).
        - apply lookup_ge_None in X. rewrite lookup_take_ge by lia. done. }
      rewrite <- (drop_drop ds (length cs) o). rewrite take_drop, take_drop. done.
  Qed.

  (** ** Operations on cells *)

  Lemma load_part pre cs post o c : load cs o = Ok c ->
    load (pre ++ mc cs ++ post) (Z.of_nat (length pre) + o) = Ok (moved_cell j c).
  Proof.
    unfold load. intros H. destruct (Z.leb_spec 0 o); [|discriminate].
    destruct (Z.leb_spec 0 (Z.of_nat (length pre) + o)); [|lia].
    destruct (cs !! Z.to_nat o) as [c'|] eqn:X; [|discriminate]. injection H as <-.
    assert (part j cs (pre ++ mc cs ++ post) (length pre)) as P by (do 2 eexists; eauto).
    apply part_lookup in P as [_ P]. specialize (P _ _ X).
    replace (Z.to_nat (Z.of_nat (length pre) + o)) with (length pre + Z.to_nat o)%nat by lia.
    rewrite P. done.
  Qed.
  Lemma store_part pre cs post o c cs' : store cs o c = Ok cs' ->
    length cs' = length cs /\
    store (pre ++ mc cs ++ post) (Z.of_nat (length pre) + o) (moved_cell j c)
    = Ok (pre ++ mc cs' ++ post).
  Proof.
    unfold store, len. rewrite !app_length, map_length. intros H.
    destruct (Z.leb_spec 0 o), (Z.ltb_spec o (Z.of_nat (length cs))); try discriminate.
    injection H as <-. rewrite insert_length. split; [done|].
    destruct (Z.leb_spec 0 (Z.of_nat (length pre) + o)); [|lia].
    destruct (Z.ltb_spec (Z.of_nat (length pre) + o)
                (Z.of_nat (length pre + (length cs + length post)))); [|lia].
    cbn [andb]. f_equal.
    replace (Z.to_nat (Z.of_nat (length pre) + o)) with (length pre + Z.to_nat o)%nat by lia.
    rewrite insert_app_r. f_equal. rewrite insert_app_l by (rewrite map_length; lia). f_equal.
    symmetry. apply (list_fmap_insert (moved_cell j)).
  Qed.
  Lemma in_range_part {A} (pre : list A) (cs : list cell) cs' post o n :
    length cs' = length cs -> in_range cs o n = true ->
    in_range (pre ++ cs' ++ post) (Z.of_nat (length pre) + o) n = true.
  Proof. rewrite !in_range_true. unfold len. rewrite !app_length. lia. Qed.
  Lemma slice_part pre cs post o n : in_range cs o n = true ->
    slice (pre ++ mc cs ++ post) (Z.of_nat (length pre) + o) n = mc (slice cs o n).
  Proof.
    rewrite in_range_true. unfold slice, len. intros (? & ? & ?).
    replace (Z.to_nat (Z.of_nat (length pre) + o)) with (length pre + Z.to_nat o)%nat by lia.
    rewrite <- drop_drop, drop_app. rewrite drop_app_le by (rewrite map_length; lia).
    rewrite take_app_le by (rewrite drop_length, map_length; lia).
    rewrite <- (fmap_drop (moved_cell j)), <- (fmap_take (moved_cell j)). done.
  Qed.
  Lemma write_part pre cs post o x : 0 <= o -> o + len x <= len cs ->
    write (pre ++ mc cs ++ post) (Z.of_nat (length pre) + o) (mc x) = pre ++ mc (write cs o x) ++ post.
  Proof.
    unfold write, len. intros H H1. rewrite map_length.
    replace (Z.to_nat (Z.of_nat (length pre) + o)) with (length pre + Z.to_nat o)%nat by lia.
    rewrite take_app_ge by lia. replace (length pre + _ - length pre)%nat with (Z.to_nat o) by lia.
    rewrite take_app_le by (rewrite map_length; lia).
    rewrite <- Nat.add_assoc, <- drop_drop, drop_app.
    rewrite drop_app_le by (rewrite map_length; lia).
    rewrite !map_app, <- !app_assoc. f_equal.
    rewrite <- (fmap_take (moved_cell j)), <- (fmap_drop (moved_cell j)). done.
  Qed.
  Lemma drop_part pre cs post o : 0 <= o <= len cs ->
    drop (Z.to_nat (Z.of_nat (length pre) + o)) (pre ++ mc cs ++ post)
    = mc (drop (Z.to_nat o) cs) ++ post.
  Proof.
    unfold len. intros H.
    replace (Z.to_nat (Z.of_nat (length pre) + o)) with (length pre + Z.to_nat o)%nat by lia.
    rewrite <- drop_drop, drop_app. rewrite drop_app_le by (rewrite map_length; lia).
    rewrite <- (fmap_drop (moved_cell j)). done.
  Qed.
  Lemma byte_cell_move c : is_byte_cell (moved_cell j c) = is_byte_cell c.
  Proof. destruct c as [|[| ? [|] ?| | |]]; reflexivity. Qed.
  Lemma byte_cells_move cs : forallb is_byte_cell (mc cs) = forallb is_byte_cell cs.
  Proof. induction cs as [|c cs IH]; [done|]. cbn [map forallb]. rewrite byte_cell_move, IH. done. Qed.
  Lemma cell_byte_move c : cell_byte (moved_cell j c) = cell_byte c.
  Proof. destruct c as [|[| ? [|] ?| | |]]; reflexivity. Qed.
  Lemma cstrlen_part cs post n : cstrlen cs = Ok n -> cstrlen (mc cs ++ post) = Ok n.
  Proof.
    revert n. induction cs as [|c cs IH]; cbn [cstrlen map app]; intros n H; [discriminate|].
    rewrite cell_byte_move. destruct (cell_byte c); cbn [bind] in *; try discriminate.
    destruct (_ =? 0); [done|]. destruct (cstrlen cs); cbn [bind] in *; try discriminate.
    rewrite (IH _ eq_refl). done.
  Qed.
  Lemma ccompare_part stop n n' a b pa pb z :
    ccompare stop n a b = Ok z -> n' = n \/ (length a < n /\ length a < n')%nat ->
    ccompare stop n' (mc a ++ pa) (mc b ++ pb) = Ok z.
  Proof.
    revert n' a b. induction n as [|n IH]; intros n' a b H L.
    - destruct L as [->|]; [|lia]. exact H.
    - destruct n' as [|n']; [destruct L as [|[_ ?]]; [discriminate|lia]|]. cbn [ccompare] in *.
      destruct a as [|c a]; [discriminate|]. destruct b as [|d b]; [discriminate|].
      cbn [map app]. rewrite !cell_byte_move.
      destruct (cell_byte c); cbn [bind] in *; try discriminate.
      destruct (cell_byte d); cbn [bind] in *; try discriminate.
      destruct (_ =? _); [|exact H]. destruct (_ && _); [exact H|].
      apply IH; [exact H|]. cbn [length] in L. lia.
  Qed.

  (** ** Values *)

  Lemma to_cell_move t c v c' : to_cell t c v = Ok c' ->
    to_cell t (moved_cell j c) (mv v) = Ok (moved_cell j c').
  Proof.
    unfold to_cell. intros H.
    destruct t, v as [ty z|ty [k|w' l] o| |f|]; try discriminate;
      destruct c as [w z'|[| ? [|] ?| | |]]; cbn [moved_cell moved]; try discriminate;
      try (destruct (w =? _); [|discriminate]); injection H as <-; reflexivity.
  Qed.
  Lemma of_cell_move sc t c v : of_cell sc t c = Ok v ->
    of_cell sc t (moved_cell j c) = Ok (mv v).
  Proof.
    unfold of_cell. intros H. destruct c as [w z|[| ? [|] ?| | |]]; cbn [moved_cell moved]; try discriminate;
      destruct t; try discriminate; try (destruct (w =? _); [|discriminate]);
      injection H as <-; reflexivity.
  Qed.
  Lemma result_move t z v : result t z = Ok v -> mv v = v.
  Proof.
    unfold result. destruct t; intros H; inv; try discriminate; try reflexivity.
    destruct (_ && _); inv; reflexivity.
  Qed.
  Lemma truth_move v : truth (mv v) = truth v.
  Proof. destruct v as [| ? [|] ?| | |]; reflexivity. Qed.
  Lemma ptr_eq_move a b r : ptr_eq a b = Ok r -> ptr_eq (mv a) (mv b) = Ok r.
  Proof.
    destruct a as [| ? [n|] o| | |], b as [| ? [k|] p| | |]; cbn [ptr_eq moved]; try done.
    destruct (Nat.eqb_spec n k) as [->|]; [|discriminate]. rewrite Nat.eqb_refl. intros <-. f_equal. lia.
  Qed.
  Lemma binary_move sc op a b v : binary sc op a b = Ok v ->
    binary sc op (mv a) (mv b) = Ok (mv v).
  Proof.
    intros H. assert (mv v = v) as E.
    { unfold binary in H. destruct a, b; try discriminate;
        try (destruct op; try discriminate; inv; reflexivity).
      destruct op; unfold arith, CLang.shift in H; repeat (split_match; inv; try discriminate);
        try (eapply result_move; eassumption); inv; reflexivity. }
    rewrite E. clear E.
    destruct a as [|? [?|] ?| | |] eqn:Ea, b as [|? [?|] ?| | |] eqn:Eb; try exact H;
      unfold binary in *; cbn [moved]; try discriminate;
      destruct op; try discriminate; inv;
      match goal with X : ptr_eq _ _ = Ok _ |- _ => apply ptr_eq_move in X; cbn [moved] in X; rewrite X; reflexivity end.
  Qed.
  Lemma unary_move sc op a v : unary sc op a = Ok v -> unary sc op (mv a) = Ok (mv v).
  Proof.
    unfold unary. intros H. destruct op, a as [|? [?|] ?| | |]; cbn [moved truth] in *; inv; try discriminate;
      try reflexivity; try (rewrite H; symmetry; f_equal; eapply result_move; eassumption).
    destruct (is_signed _); [inv; reflexivity|]. rewrite H. symmetry. f_equal.
    eapply result_move; eassumption.
  Qed.
  Lemma to_type_move sc t a v : to_type sc t a = Ok v -> to_type sc t (mv a) = Ok (mv v).
  Proof.
    unfold to_type. intros H. destruct t, a as [|? [?|] ?| | |]; cbn [moved] in *; try discriminate;
      try (destruct (_ =? _); [|discriminate]); injection H as <-; reflexivity.
  Qed.
  Lemma to_types_move sc ts vs E : to_types sc ts vs = Ok E ->
    to_types sc ts (map mv vs) = Ok (map mv E).
  Proof.
    revert vs E. induction ts as [|t ts IH]; intros [|v vs] E H; cbn in H; try discriminate.
    - inv. reflexivity.
    - fold (to_types sc) in H.
      destruct (to_type sc t v) as [v'| |] eqn:T; cbn [bind] in H; try discriminate.
      destruct (to_types sc ts vs) as [E'| |] eqn:T'; unfold to_types in T'; rewrite T' in H;
        cbn [bind] in H; try discriminate.
      injection H as <-. cbn. rewrite (to_type_move _ _ _ _ T). cbn [bind].
      pose proof (IH _ _ T') as X. unfold to_types in X. rewrite X. reflexivity.
  Qed.

  (** ** Memories *)

  Context (M1 M2 : mem).
  Hypothesis Hj0 : forall n cs, M1 !! n = Some cs -> (fst (j n) < length M2)%nat.
  Hypothesis Hj1 : forall n, (length M1 <= n)%nat -> j n = (length M2 + (n - length M1), 0)%nat.
  Hypothesis Hapart : apart j M1.

  Definition mrel (m1 m2 : mem) : Prop :=
    holds j m1 m2 /\ (length M1 <= length m1)%nat /\
    (length m2 + length M1 = length m1 + length M2)%nat /\
    (forall n cs, M1 !! n = Some cs -> exists cs', m1 !! n = Some cs' /\ length cs' = length cs) /\
    untouched j M1 M2 m2.

  Lemma size_old m1 m2 n cs : mrel m1 m2 -> m1 !! n = Some cs -> (n < length M1)%nat ->
    exists cs', M1 !! n = Some cs' /\ length cs' = length cs.
  Proof.
    intros (_ & _ & _ & H & _) Hn L. apply lookup_lt_is_Some in L as [cs' X].
    destruct (H _ _ X) as (cs'' & Y & Z). rewrite Hn in Y. injection Y as <-. eauto.
  Qed.
  Lemma apart_now m1 m2 : mrel m1 m2 -> apart j m1.
  Proof.
    intros Hm n k b x (cs & Hn & Hb & Hx) (ds & Hk & Hb' & Hx').
    destruct (decide (n < length M1)%nat) as [Ln|Ln], (decide (k < length M1)%nat) as [Lk|Lk].
    - destruct (size_old _ _ _ _ Hm Hn Ln) as (cs' & Hn' & En).
      destruct (size_old _ _ _ _ Hm Hk Lk) as (ds' & Hk' & Ek).
      apply (Hapart n k b x); [exists cs'|exists ds']; repeat split; auto; lia.
    - destruct (size_old _ _ _ _ Hm Hn Ln) as (cs' & Hn' & En). pose proof (Hj0 _ _ Hn').
      rewrite (Hj1 k) in Hb' by lia. cbn [fst] in Hb'. lia.
    - destruct (size_old _ _ _ _ Hm Hk Lk) as (cs' & Hn' & En). pose proof (Hj0 _ _ Hn').
      rewrite (Hj1 n) in Hb by lia. cbn [fst] in Hb. lia.
    - rewrite (Hj1 k) in Hb' by lia. rewrite (Hj1 n) in Hb by lia. cbn [fst] in *. lia.
  Qed.

  Lemma block_rel m1 m2 b cs : mrel m1 m2 -> block m1 b = Ok cs ->
    exists pre post, block m2 (mb b) = Ok (pre ++ mc cs ++ post) /\ Z.of_nat (length pre) = shift b.
  Proof.
    intros (HH & _) H. destruct b as [n|w l]; cbn [block] in *.
    - destruct (m1 !! n) as [cs'|] eqn:X; [|discriminate]. injection H as <-.
      destruct (HH _ _ X) as (ds & -> & pre & post & -> & <-). eauto.
    - injection H as <-. exists [], []. split; [|reflexivity]. rewrite app_nil_r. cbn [app]. f_equal.
      symmetry. change (mc ?l) with (moved_cell j <$> l). rewrite <- list_fmap_compose.
      apply list_fmap_ext. intros; reflexivity.
  Qed.

  (** new contents for an object *)
  Lemma mrel_insert m1 m2 n cs cs' pre post : mrel m1 m2 -> m1 !! n = Some cs ->
    length cs' = length cs -> m2 !! fst (j n) = Some (pre ++ mc cs ++ post) ->
    length pre = snd (j n) ->
    mrel (<[n := cs']> m1) (<[fst (j n) := pre ++ mc cs' ++ post]> m2).
  Proof.
    intros Hm Hn HL Hd Hp. pose proof (apart_now _ _ Hm) as HA. pose proof (fun L => size_old _ _ _ _ Hm Hn L) as HSo.
    destruct Hm as (HH & L1 & L2 & HS & HU).
    assert (forall x, ~ (snd (j n) <= x < snd (j n) + length cs)%nat ->
              (pre ++ mc cs' ++ post) !! x = (pre ++ mc cs ++ post) !! x) as Same.
    { intros x Hx. destruct (decide (x < length pre)%nat) as [Lx|Lx].
      - rewrite !lookup_app_l by lia. done.
      - rewrite !(lookup_app_r pre) by lia.
        rewrite !lookup_app_r by (rewrite map_length; lia). rewrite !map_length, HL. done. }
    unfold mrel. rewrite !insert_length. refine (conj _ (conj L1 (conj L2 (conj _ _)))).
    - intros k ds Hk. destruct (decide (n = k)) as [<-|D].
      + rewrite list_lookup_insert in Hk by (apply lookup_lt_Some in Hn; lia). injection Hk as <-.
        rewrite list_lookup_insert by (apply lookup_lt_Some in Hd; lia). eexists. split; [done|].
        do 2 eexists. split; [done|exact Hp].
      + rewrite list_lookup_insert_ne in Hk by done. destruct (HH _ _ Hk) as (es & He & Hpart).
        destruct (decide (fst (j n) = fst (j k))) as [E|E].
        * rewrite <- E. rewrite list_lookup_insert by (apply lookup_lt_Some in Hd; lia).
          eexists. split; [done|]. rewrite <- E, Hd in He. injection He as <-.
          apply part_lookup in Hpart as [Lp Hpart]. apply part_lookup.
          rewrite !app_length, !map_length in *. split; [lia|]. intros i c Hi.
          rewrite Same; [exact (Hpart _ _ Hi)|]. intros Hx. apply D.
          apply (HA n k (fst (j n)) (snd (j k) + i)%nat); [exists cs; auto|].
          exists ds. repeat split; auto; [lia|]. apply lookup_lt_Some in Hi. lia.
        * rewrite list_lookup_insert_ne by done. eauto.
    - intros k ds Hk. destruct (HS _ _ Hk) as (ds' & X & Y). destruct (decide (n = k)) as [<-|D].
      + rewrite list_lookup_insert by (apply lookup_lt_Some in Hn; lia). eexists. split; [done|].
        rewrite Hn in X. injection X as <-. congruence.
      + rewrite list_lookup_insert_ne by done. eauto.
    - intros b ds Hb. destruct (HU _ _ Hb) as (ds' & X & Y & Z).
      destruct (decide (fst (j n) = b)) as [<-|D].
      + rewrite list_lookup_insert by (apply lookup_lt_Some in Hd; lia). eexists. split; [done|].
        rewrite Hd in X. injection X as <-. rewrite <- Y. rewrite !app_length, !map_length, HL. split; [done|].
        intros x Hx. rewrite <- (Z _ Hx). apply Same. intros Hc.
        destruct (decide (n < length M1)%nat) as [Ln|Ln].
        * destruct (HSo Ln) as (cs0 & Q & R). apply (Hx n). exists cs0. rewrite R. auto.
        * apply lookup_lt_Some in Hb. rewrite (Hj1 n) in Hb by lia. cbn [fst] in Hb. lia.
      + rewrite list_lookup_insert_ne by done. eauto.
  Qed.

  Lemma mload_rel sc m1 m2 t b o v : mrel m1 m2 -> mload sc m1 t b o = Ok v ->
    mload sc m2 t (mb b) (shift b + o) = Ok (mv v).
  Proof.
    intros Hm H. unfold mload in *.
    destruct (block m1 b) as [cs| |] eqn:B; cbn [bind] in H; try discriminate.
    destruct (block_rel _ _ _ _ Hm B) as (pre & post & -> & <-). cbn [bind].
    destruct (load cs o) as [c| |] eqn:L; cbn [bind] in H; try discriminate.
    rewrite (load_part _ _ _ _ _ L). cbn [bind]. exact (of_cell_move _ _ _ _ H).
  Qed.
  Lemma mstore_rel m1 m2 t b o v m1' : mrel m1 m2 -> mstore m1 t b o v = Ok m1' ->
    exists m2', mstore m2 t (mb b) (shift b + o) (mv v) = Ok m2' /\ mrel m1' m2'.
  Proof.
    intros Hm H. unfold mstore in *. destruct b as [n|]; [|discriminate].
    destruct (block m1 (BObj n)) as [cs| |] eqn:B; cbn [bind] in H; try discriminate.
    destruct (block_rel _ _ _ _ Hm B) as (pre & post & B' & E). rewrite B'. rewrite <- E. cbn [bind].
    destruct (load cs o) as [c| |] eqn:L; cbn [bind] in H; try discriminate.
    rewrite (load_part _ _ _ _ _ L). cbn [bind].
    destruct (to_cell t c v) as [c'| |] eqn:T; cbn [bind] in H; try discriminate.
    rewrite (to_cell_move _ _ _ _ T). cbn [bind].
    destruct (store cs o c') as [cs'| |] eqn:S; cbn [bind] in H; try discriminate.
    destruct (store_part pre _ post _ _ _ S) as [HL ->]. cbn [bind]. injection H as <-.
    eexists. split; [done|]. cbn [block] in B, B'.
    destruct (m1 !! n) as [cs''|] eqn:X; [|discriminate]. injection B as ->.
    destruct (m2 !! fst (j n)) as [ds|] eqn:Y; [|discriminate]. injection B' as ->.
    eapply mrel_insert; eauto. lia.
  Qed.
  Lemma check_ptr_rel m1 m2 b o u : mrel m1 m2 -> check_ptr m1 b o = Ok u ->
    check_ptr m2 (mb b) (shift b + o) = Ok tt.
  Proof.
    intros Hm H. unfold check_ptr in *.
    destruct (block m1 b) as [cs| |] eqn:B; cbn [bind] in H; try discriminate.
    destruct (block_rel _ _ _ _ Hm B) as (pre & post & -> & <-). cbn [bind].
    unfold len in *. rewrite !app_length, map_length.
    destruct (Z.leb_spec 0 o), (Z.leb_spec o (Z.of_nat (length cs))); try discriminate.
    destruct (Z.leb_spec 0 (Z.of_nat (length pre) + o)); [|lia].
    destruct (Z.leb_spec (Z.of_nat (length pre) + o)
      (Z.of_nat (length pre + (length cs + length post)))); [done|lia].
  Qed.
  Lemma cells_from_rel m1 m2 b o cs : mrel m1 m2 -> cells_from m1 b o = Ok cs ->
    exists post, cells_from m2 (mb b) (shift b + o) = Ok (mc cs ++ post).
  Proof.
    intros Hm H. unfold cells_from in *.
    destruct (block m1 b) as [bs| |] eqn:B; cbn [bind] in H; try discriminate.
    destruct (block_rel _ _ _ _ Hm B) as (pre & post & -> & <-). cbn [bind].
    destruct (Z.leb_spec 0 o), (Z.leb_spec o (len bs)); try discriminate. injection H as <-.
    rewrite drop_part by lia.
    destruct (Z.leb_spec 0 (Z.of_nat (length pre) + o)); [|lia].
    destruct (Z.leb_spec (Z.of_nat (length pre) + o) (len (pre ++ mc bs ++ post))) as [|X]; [eauto|].
    unfold len in *. rewrite !app_length, map_length in X. lia.
  Qed.

  Lemma copy_rel m1 m2 db d sb s n m1' : mrel m1 m2 -> copy m1 db d sb s n = Ok m1' ->
    exists m2', copy m2 (mb db) (shift db + d) (mb sb) (shift sb + s) n = Ok m2' /\ mrel m1' m2'.
  Proof.
    intros Hm H. unfold copy in *.
    destruct (block m1 db) as [dc| |] eqn:D; cbn [bind] in H; try discriminate.
    destruct (block m1 sb) as [cs| |] eqn:S; cbn [bind] in H; try discriminate.
    destruct (block_rel _ _ _ _ Hm D) as (pre & post & D' & ED).
    destruct (block_rel _ _ _ _ Hm S) as (pre' & post' & S' & ES).
    rewrite D', S'. cbn [bind]. rewrite <- ED, <- ES.
    destruct (in_range dc d n) eqn:R1; [|discriminate].
    destruct (in_range cs s n) eqn:R2; [|discriminate]. cbn [andb] in H.
    rewrite (in_range_part _ _ _ _ _ _ (map_length _ _) R1), (in_range_part _ _ _ _ _ _ (map_length _ _) R2).
    cbn [andb]. rewrite !slice_part, !byte_cells_move by assumption.
    destruct (same_blk db sb && negb _) eqn:O; [discriminate|].
    destruct (forallb _ _ && _) eqn:F; [|discriminate].
    destruct db as [k|]; [|discriminate]. injection H as <-.
    match goal with |- context [if ?c then UB Overlap else _] => assert (c = false) as -> end.
    { destruct sb as [k'|]; [|reflexivity]. cbn [same_blk] in *.
      destruct (Nat.eqb_spec (fst (j k)) (fst (j k'))) as [E|]; [|reflexivity]. cbn [andb].
      apply in_range_true in R1 as (? & ? & ?). apply in_range_true in R2 as (? & ? & ?).
      destruct (Nat.eqb_spec k k') as [->|Dk].
      - cbn [andb] in O. rewrite ED, ES. lia.
      - clear O. destruct (negb _) eqn:N; [|done]. exfalso. apply Dk.
        set (x := Z.to_nat (Z.max (Z.of_nat (length pre) + d) (Z.of_nat (length pre') + s))).
        cbn [block] in D, S. unfold len in *.
        destruct (m1 !! k) as [a|] eqn:Xa; [|discriminate]. injection D as ->.
        destruct (m1 !! k') as [b|] eqn:Xb; [|discriminate]. injection S as ->.
        apply (apart_now _ _ Hm k k' (fst (j k)) x); [exists dc|exists cs];
          (split; [done|]); (split; [congruence|]); unfold x; lia. }
    apply in_range_true in R1 as (? & ? & ?). apply in_range_true in R2 as (? & ? & ?).
    rewrite write_part by (rewrite ?len_slice; lia).
    eexists. split; [done|]. cbn [block] in D, D'.
    destruct (m1 !! k) as [a|] eqn:Xa; [|discriminate]. injection D as ->.
    destruct (m2 !! fst (j k)) as [e|] eqn:Xe; [|discriminate]. injection D' as ->.
    eapply mrel_insert; eauto; [|lia].
    assert (len (write dc d (slice cs s n)) = len dc) as W by (apply len_write; rewrite ?len_slice; lia).
    unfold len in W. lia.
  Qed.

  Lemma lib_rel f vs m1 m2 v m1' : mrel m1 m2 -> lib f vs m1 = Ok (v, m1') ->
    exists m2', lib f (map mv vs) m2 = Ok (mv v, m2') /\ mrel m1' m2'.
  Proof.
    intros Hm H. unfold lib in H.
    destruct f; (destruct vs as [|[t1 z1|t1 b1 o1| |f1|] vs]; try discriminate);
    try (destruct vs as [|[t2 z2|t2 b2 o2| |f2|] vs]; try discriminate);
    try (destruct vs as [|[t3 z3|t3 b3 o3| |f3|] vs]; try discriminate);
    try (destruct vs as [|? vs]; try discriminate);
    cbn [map]; rewrite ?move_ptr; cbn [lib moved].
    - destruct (copy _ _ _ _ _ _) eqn:C; cbn [bind] in H; try discriminate. injection H as <- <-.
      destruct (copy_rel _ _ _ _ _ _ _ _ Hm C) as (m2' & -> & Hm'). cbn [bind]. rewrite move_ptr. eauto.
    - destruct (block m1 b1) as [ac| |] eqn:B1; cbn [bind] in H; try discriminate.
      destruct (block m1 b2) as [bc| |] eqn:B2; cbn [bind] in H; try discriminate.
      destruct (block_rel _ _ _ _ Hm B1) as (pre & post & -> & <-).
      destruct (block_rel _ _ _ _ Hm B2) as (pre' & post' & -> & <-). cbn [bind].
      destruct (in_range ac o1 _) eqn:R1; [|discriminate].
      destruct (in_range bc o2 _) eqn:R2; [|discriminate]. cbn [andb] in H.
      rewrite (in_range_part _ _ _ _ _ _ (map_length _ _) R1), (in_range_part _ _ _ _ _ _ (map_length _ _) R2).
      cbn [andb]. rewrite !slice_part by assumption.
      destruct (ccompare _ _ _ _) as [z| |] eqn:C; cbn [bind] in H; try discriminate. injection H as <- <-.
      pose proof (ccompare_part _ _ _ _ _ [] [] _ C (or_introl eq_refl)) as C'.
      rewrite !app_nil_r in C'. rewrite C'. cbn [bind]. eauto.
    - destruct (cells_from _ _ _) as [cs| |] eqn:C; cbn [bind] in H; try discriminate.
      destruct (cells_from_rel _ _ _ _ _ Hm C) as (post & ->). cbn [bind].
      destruct (cstrlen cs) as [n| |] eqn:L; cbn [bind] in H; try discriminate. injection H as <- <-.
      rewrite (cstrlen_part _ _ _ L). cbn [bind]. eauto.
    - destruct (cells_from _ _ _) as [cs| |] eqn:C; cbn [bind] in H; try discriminate.
      destruct (cells_from_rel _ _ _ _ _ Hm C) as (post & ->). cbn [bind].
      destruct (cstrlen cs) as [n| |] eqn:L; cbn [bind] in H; try discriminate.
      rewrite (cstrlen_part _ _ _ L). cbn [bind].
      destruct (copy _ _ _ _ _ _) eqn:Y; cbn [bind] in H; try discriminate. injection H as <- <-.
      destruct (copy_rel _ _ _ _ _ _ _ _ Hm Y) as (m2' & -> & Hm'). cbn [bind]. rewrite move_ptr. eauto.
    - destruct (cells_from m1 b1 _) as [ac| |] eqn:C1; cbn [bind] in H; try discriminate.
      destruct (cells_from m1 b2 _) as [bc| |] eqn:C2; cbn [bind] in H; try discriminate.
      destruct (cells_from_rel _ _ _ _ _ Hm C1) as (p1 & ->). cbn [bind].
      destruct (cells_from_rel _ _ _ _ _ Hm C2) as (p2 & ->). cbn [bind].
      destruct (ccompare _ _ _ _) as [z| |] eqn:C; cbn [bind] in H; try discriminate. injection H as <- <-.
      rewrite (ccompare_part _ _ (S (length (mc ac ++ p1))) _ _ p1 p2 _ C)
        by (right; rewrite app_length, map_length; lia).
      cbn [bind]. eauto.
    - destruct (cells_from m1 b1 _) as [ac| |] eqn:C1; cbn [bind] in H; try discriminate.
      destruct (cells_from m1 b2 _) as [bc| |] eqn:C2; cbn [bind] in H; try discriminate.
      destruct (cells_from_rel _ _ _ _ _ Hm C1) as (p1 & ->). cbn [bind].
      destruct (cells_from_rel _ _ _ _ _ Hm C2) as (p2 & ->). cbn [bind].
      destruct (ccompare _ _ _ _) as [z| |] eqn:C; cbn [bind] in H; try discriminate. injection H as <- <-.
      rewrite (ccompare_part _ _ _ _ _ p1 p2 _ C (or_introl eq_refl)). cbn [bind]. eauto.
  Qed.

  Lemma mrel_app m1 m2 cs : mrel m1 m2 -> mc cs = cs ->
    mrel (m1 ++ [cs]) (m2 ++ [cs]) /\ j (length m1) = (length m2, 0%nat).
  Proof.
    intros (HH & L1 & L2 & HS & HU) Hcs.
    assert (j (length m1) = (length m2, 0%nat)) as Ej by (rewrite Hj1 by done; f_equal; lia).
    split; [|exact Ej]. unfold mrel. rewrite !app_length. cbn [length].
    refine (conj _ (conj _ (conj _ (conj _ _)))); [| lia | lia | |].
    - intros n ds H. apply lookup_app_Some in H as [H|[L H]].
      + destruct (HH _ _ H) as (es & He & Hp). exists es. split; [|exact Hp].
        apply lookup_app_l_Some. exact He.
      + apply list_lookup_singleton_Some in H as [L' <-]. replace n with (length m1) by lia.
        rewrite Ej. cbn [fst snd]. exists cs. split.
        * rewrite lookup_app_r by lia. rewrite Nat.sub_diag. done.
        * exists [], []. rewrite app_nil_r, Hcs. done.
    - intros n ds H. destruct (HS _ _ H) as (cs' & X & Y). exists cs'. split; [|done].
      apply lookup_app_l_Some. exact X.
    - intros b ds H. destruct (HU _ _ H) as (cs' & X & Y). exists cs'. split; [|done].
      apply lookup_app_l_Some. exact X.
  Qed.
  Lemma mrel_take m1 m2 n n' : mrel m1 m2 -> (length M1 <= n)%nat ->
    (n' + length M1 = n + length M2)%nat -> mrel (take n m1) (take n' m2).
  Proof.
    intros (HH & L1 & L2 & HS & HU) Hn Hn'. unfold mrel. rewrite !take_length.
    refine (conj _ (conj _ (conj _ (conj _ _)))); [| lia | lia | |].
    - intros k ds H. apply lookup_take_Some in H as [H Lk].
      destruct (HH _ _ H) as (es & He & Hp). exists es. split; [|exact Hp].
      rewrite lookup_take; [exact He|]. destruct (decide (k < length M1)%nat) as [L|L].
      + apply lookup_lt_is_Some in L as [c X]. pose proof (Hj0 _ _ X). lia.
      + rewrite Hj1 by lia. cbn [fst]. lia.
    - intros k ds H. destruct (HS _ _ H) as (cs' & X & Y). exists cs'. split; [|done].
      apply lookup_lt_Some in H. rewrite lookup_take by lia. exact X.
    - intros b ds H. destruct (HU _ _ H) as (cs' & X & Y). exists cs'. split; [|done].
      apply lookup_lt_Some in H. rewrite lookup_take by lia. exact X.
  Qed.

  (** ** The interpreter *)

  Definition mloc (l : loc) : loc :=
    match l with LocVar _ _ => l | LocMem t b o => LocMem t (mb b) (shift b + o) end.
  Definition mres (r : res) : res := match r with RReturn v => RReturn (mv v) | _ => r end.

  Lemma deref_move v i l : deref_at v i = Ok l -> deref_at (mv v) i = Ok (mloc l).
  Proof.
    destruct v; cbn [deref_at]; intros H; try discriminate. injection H as <-. rewrite move_ptr.
    cbn [deref_at mloc]. do 2 f_equal. lia.
  Qed.

  Section world.
    Context {W : Type} (sc : bool)
            (ext1 ext2 : Z -> list val -> mem -> W -> outcome (val * mem * W)) (fuel : nat).
    Hypothesis Hext : follows j ext1 ext2.
    Notation st := (@CLang.st W).

    Definition srel (s1 s2 : st) : Prop :=
      let '(E1, m1, w1) := s1 in
      let '(E2, m2, w2) := s2 in
      E2 = map mv E1 /\ w1 = w2 /\ mrel m1 m2.
    Definition rrel {A} (f : A -> A) (x y : A * st) : Prop :=
      fst y = f (fst x) /\ srel (snd x) (snd y).

    Lemma get_loc_rel l (s1 s2 : st) : srel s1 s2 ->
      osim (fun v1 v2 => v2 = mv v1) (get_loc sc l s1) (get_loc sc (mloc l) s2).
    Proof.
      destruct s1 as [[E1 m1] w1], s2 as [[E2 m2] w2]. intros (-> & -> & Hm) v H.
      destruct l as [n t|t b o]; cbn [get_loc mloc] in *.
      - rewrite (list_lookup_fmap mv). destruct (E1 !! n) as [u|]; [|discriminate]. cbn [fmap option_fmap option_map].
        destruct u as [| ? [|] ?| | |]; try discriminate; injection H as <-; cbn [moved]; eauto.
      - rewrite (mload_rel _ _ _ _ _ _ _ Hm H). eauto.
    Qed.
    Lemma set_loc_rel l v (s1 s2 : st) : srel s1 s2 ->
      osim srel (set_loc sc l v s1) (set_loc sc (mloc l) (mv v) s2).
    Proof.
      destruct s1 as [[E1 m1] w1], s2 as [[E2 m2] w2]. intros (-> & -> & Hm) s H.
      destruct l as [n t|t b o]; cbn [set_loc mloc] in *;
        (destruct (to_type sc t v) as [v'| |] eqn:T; cbn [bind] in H; try discriminate);
        rewrite (to_type_move _ _ _ _ T); cbn [bind].
      - injection H as <-. eexists. split; [done|]. split; [|done].
        symmetry. apply (list_fmap_insert mv).
      - destruct (mstore m1 t b o v') as [m1'| |] eqn:S; cbn [bind] in H; try discriminate.
        injection H as <-. destruct (mstore_rel _ _ _ _ _ _ _ Hm S) as (m2' & -> & Hm'). cbn [bind].
        eexists. split; [done|]. cbn. auto.
    Qed.
    Lemma step_val_rel d v (s1 s2 : st) : srel s1 s2 ->
      osim (fun v1 v2 => v2 = mv v1) (step_val sc d v s1) (step_val sc d (mv v) s2).
    Proof.
      destruct s1 as [[E1 m1] w1], s2 as [[E2 m2] w2]. intros (-> & -> & Hm) u H.
      unfold step_val in H. destruct v as [t z|t b o| | |]; try discriminate; cbn [fst snd] in H.
      - pose proof (binary_move _ _ _ _ _ H) as X. cbn [moved] in *. unfold step_val. eauto.
      - destruct (check_ptr _ _ _) eqn:C; cbn [bind] in H; try discriminate. injection H as <-.
        rewrite !move_ptr. unfold step_val. cbn [fst snd].
        pose proof (check_ptr_rel _ _ _ _ _ Hm C) as X. rewrite Z.add_assoc in X. rewrite X.
        cbn [bind]. rewrite Z.add_assoc. eauto.
    Qed.
    Lemma leave_rel objs (s1 s2 s1' s2' : st) : srel s1 s2 -> srel s1' s2' ->
      srel (leave objs s1 s1') (leave objs s2 s2').
    Proof.
      destruct s1 as [[E1 m1] w1], s2 as [[E2 m2] w2], s1' as [[E1' m1'] w1'], s2' as [[E2' m2'] w2'].
      intros (-> & -> & Hm) (-> & -> & Hm'). cbn. rewrite map_length.
      refine (conj _ (conj eq_refl _)); [symmetry; apply (fmap_take mv)|].
      destruct objs; [|exact Hm']. destruct Hm as (_ & L1 & L2 & _).
      apply mrel_take; [exact Hm'|lia|lia].
    Qed.
    Lemma ext_rel f vs m1 m2 (w : W) : mrel m1 m2 ->
      osim (fun '(v1, m1, w1) '(v2, m2, w2) => v2 = mv v1 /\ w1 = w2 /\ mrel m1 m2)
        (ext1 f vs m1 w) (ext2 f (map mv vs) m2 w).
    Proof.
      intros Hm [[v m1'] w'] H.
      destruct (Hext _ _ _ _ _ _ _ _ (proj1 Hm) (apart_now _ _ Hm) H) as (HL & m2' & -> & HL2 & HH & HU).
      eexists. split; [done|]. split; [done|]. split; [done|].
      pose proof (fun n cs => size_old _ _ n cs Hm) as HSo.
      destruct Hm as (HH0 & L1 & L2 & HS & HU0). unfold mrel. rewrite HL2.
      assert (length m1' = length m1) as L3.
      { rewrite <- (map_length (@length cell) m1'), HL, map_length. done. }
      rewrite L3. refine (conj HH (conj L1 (conj L2 (conj _ _)))).
      - intros n cs Hn. destruct (HS _ _ Hn) as (cs' & X & Y).
        assert (n < length m1')%nat as Ln by (rewrite L3; apply lookup_lt_Some in X; lia).
        apply lookup_lt_is_Some in Ln as [c Z]. exists c. split; [exact Z|]. rewrite <- Y.
        apply (f_equal (fun l => l !! n)) in HL.
        rewrite !(list_lookup_fmap (@length cell)), X, Z in HL. injection HL as ->. done.
      - intros b ds Hb. destruct (HU0 _ _ Hb) as (ds' & X & Y & Z).
        destruct (HU _ _ X) as (ds'' & X' & Y' & Z'). exists ds''. split; [done|]. split; [congruence|].
        intros x Hx. rewrite Z'; [exact (Z _ Hx)|]. intros n (cs & Hn & Hf & Hr).
        destruct (decide (n < length M1)%nat) as [Ln|Ln].
        + destruct (HSo _ _ Hn Ln) as (cs0 & Q & R). apply (Hx n). exists cs0. rewrite R. auto.
        + apply lookup_lt_Some in Hb. rewrite (Hj1 n) in Hf by lia. cbn [fst] in Hf. lia.
    Qed.

    Lemma loop_rel n (f g : st -> outcome (looped st)) :
      (forall s1 s2, srel s1 s2 ->
         osim (fun x y => match x, y with
                          | Again a, Again b => srel a b
                          | Done r a, Done r' b => r' = mres r /\ srel a b
                          | _, _ => False
                          end) (f s1) (g s2)) ->
      forall s1 s2, srel s1 s2 -> osim (rrel mres) (loop n f s1) (loop n g s2).
    Proof.
      intros Hf. induction n as [|n IH]; intros s1 s2 Hs; cbn [loop]; [apply osim_Div|].
      eapply osim_bind; [exact (Hf _ _ Hs)|].
      intros [a|r a] [b|r' b] H; try contradiction; [exact (IH _ _ H)|]. apply osim_Ok. exact H.
    Qed.

    Notation eval1 := (eval sc ext1 fuel).
    Notation lvalue1 := (lvalue sc ext1 fuel).
    Notation evals1 := (evals sc ext1 fuel).
    Notation exec1 := (exec sc ext1 fuel).
    Notation call1 := (call sc ext1 fuel).
    Notation eval2 := (eval sc ext2 fuel).
    Notation lvalue2 := (lvalue sc ext2 fuel).
    Notation evals2 := (evals sc ext2 fuel).
    Notation exec2 := (exec sc ext2 fuel).
    Notation call2 := (call sc ext2 fuel).

    Lemma layout_rel :
      (forall e s1 s2, srel s1 s2 -> osim (rrel mv) (eval1 e s1) (eval2 e s2)) /\
      (forall l s1 s2, srel s1 s2 -> osim (rrel mloc) (lvalue1 l s1) (lvalue2 l s2)) /\
      (forall es s1 s2, srel s1 s2 -> osim (rrel (map mv)) (evals1 es s1) (evals2 es s2)) /\
      (forall c s1 s2, srel s1 s2 -> osim (rrel mres) (exec1 c s1) (exec2 c s2)) /\
      (forall f args m1 m2 w, mrel m1 m2 ->
         osim (fun '(v1, m1, w1) '(v2, m2, w2) => v2 = mv v1 /\ w1 = w2 /\ mrel m1 m2)
           (call1 f args m1 w) (call2 f (map mv args) m2 w)).
    Proof.
      Ltac pure_sim L :=
        eapply (osim_bind (fun a b => b = _ a));
          [let a := fresh in let H := fresh in intros a H; exists (moved j a);
           split; [apply L; exact H|reflexivity]
          |let a := fresh "v" in let b := fresh "v" in intros a b ->].
      Ltac go :=
        match goal with
        | |- osim _ (UB _) _ => apply osim_UB
        | H : srel ?a ?b |- osim _ (Ok (?x, ?a)) (Ok (?y, ?b)) =>
            apply osim_Ok; refine (conj _ H); cbn [fst snd mres mloc moved map]; try reflexivity
        | IH : forall s1 s2, srel s1 s2 -> osim _ (?f s1) (?g s2) |- osim _ (?f _) (?g _) =>
            apply IH; assumption
        | IH : forall s1 s2, srel s1 s2 -> osim _ (?f s1) (?g s2)
          |- osim _ (bind (?f _) _) (bind (?g _) _) =>
            eapply osim_bind; [apply IH; assumption|];
            intros [? ?] [? ?] (? & ?); cbn [fst snd] in *; subst
        | |- osim _ (bind (get_loc _ _ _) _) _ =>
            eapply osim_bind; [apply get_loc_rel; eassumption|intros ? ? ->]
        | |- osim _ (bind (set_loc _ _ _ _) _) _ =>
            eapply osim_bind; [apply set_loc_rel; eassumption|intros]
        | |- osim _ (bind (step_val _ _ _ _) _) _ =>
            eapply osim_bind; [apply step_val_rel; eassumption|intros ? ? ->]
        | |- osim _ (bind (unary _ _ _) _) _ => pure_sim unary_move
        | |- osim _ (bind (binary _ _ _ _) _) _ => pure_sim binary_move
        | |- osim _ (bind (to_type _ _ _) _) _ => pure_sim to_type_move
        | |- osim _ (bind (deref_at _ _) _) _ =>
            eapply (osim_bind (fun a b => b = mloc a));
              [intros ? ?; eexists; split; [apply deref_move; eassumption|reflexivity]|intros ? ? ->]
        | |- osim _ (bind (truth _) _) _ =>
            rewrite truth_move; eapply (osim_bind eq);
              [intros ? ?; eexists; split; [eassumption|reflexivity]|intros ? ? <-]
        | |- osim _ (match ?x with _ => _ end) (match ?x with _ => _ end) => destruct x
        end.
      apply clang_ind; intros;
        try (destruct s1 as [[E1 m1] w1], s2 as [[E2 m2] w2]);
        cbn [CLang.eval CLang.lvalue CLang.evals CLang.exec CLang.call];
        fold eval1 eval2; fold lvalue1 lvalue2; fold evals1 evals2; fold exec1 exec2; fold call1 call2.
      all: repeat go.
      - (* &l *)
        destruct s as [[? ?] ?], s0 as [[? ?] ?]. cbn [fst snd]. pose proof H2 as (_ & _ & Hm).
        destruct l0 as [|t b o]; [apply osim_UB|]. cbn [mloc].
        destruct (check_ptr _ b o) eqn:C; cbn [bind]; try (apply osim_UB || apply osim_Div).
        rewrite (check_ptr_rel _ _ _ _ _ Hm C). cbn [bind]. apply osim_Ok. split; [|exact H2].
        cbn [fst]. rewrite move_ptr. done.
      - (* call *)
        destruct s as [[? ?] ?], s0 as [[? ?] ?]. destruct H3 as (-> & -> & Hm).
        eapply osim_bind; [apply H; eassumption|].
        intros [[? ?] ?] [[? ?] ?] (-> & -> & ?). apply osim_Ok.
        refine (conj eq_refl (conj eq_refl (conj eq_refl _))). assumption.
      - (* call of a function pointer *)
        destruct s1 as [[? ?] ?], s2 as [[? ?] ?]. destruct H4 as (-> & -> & Hm).
        destruct v as [| ? [|] ?| |f0|]; cbn [moved]; try apply osim_UB.
        eapply osim_bind; [exact (ext_rel _ _ _ _ _ Hm)|].
        intros [[? ?] ?] [[? ?] ?] (-> & -> & ?). apply osim_Ok.
        refine (conj eq_refl (conj eq_refl (conj eq_refl _))). assumption.
      - (* library function *)
        destruct s as [[? ?] ?], s0 as [[? ?] ?]. destruct H2 as (-> & -> & Hm).
        destruct (lib f _ _) as [[v m']| |] eqn:L; cbn [bind]; try (apply osim_UB || apply osim_Div).
        destruct (lib_rel _ _ _ _ _ _ Hm L) as (m2' & -> & Hm'). cbn [bind]. apply osim_Ok.
        refine (conj eq_refl (conj eq_refl (conj eq_refl _))). assumption.
      - (* index *)
        destruct v0 as [| ? [|] ?| | |]; cbn [moved]; try apply osim_UB. repeat go.
      - (* field *)
        destruct l0 as [|t0 b o]; cbn [mloc]; [apply osim_UB|]. apply osim_Ok. split; [|assumption].
        cbn [fst mloc]. f_equal. lia.
      - (* sequence *)
        destruct r; cbn [mres]; repeat go.
      - (* variable *)
        destruct H as (-> & -> & Hm). apply osim_Ok. refine (conj eq_refl (conj _ (conj eq_refl Hm))).
        rewrite map_app. done.
      - destruct s as [[? ?] ?], s0 as [[? ?] ?]. destruct H2 as (-> & -> & Hm). apply osim_Ok.
        refine (conj eq_refl (conj _ (conj eq_refl Hm))). rewrite map_app. done.
      - (* object *)
        destruct s as [[? ?] ?], s0 as [[? ?] ?]. destruct H2 as (-> & -> & Hm).
        destruct v0 as [ty z| ? [|] ?| | |]; cbn [moved]; try apply osim_UB. apply osim_Ok.
        destruct (mrel_app _ _ [CI (width t) (raw t z)] Hm eq_refl) as [Hm' Ej].
        refine (conj eq_refl (conj _ (conj eq_refl Hm'))). cbn [snd].
        rewrite map_app. cbn [map moved]. rewrite Ej. done.
      - (* array *)
        destruct H as (-> & -> & Hm). apply osim_Ok.
        assert (mc (CI (width t) <$> l) = CI (width t) <$> l) as El.
        { change (mc ?x) with (moved_cell j <$> x). rewrite <- list_fmap_compose.
          apply list_fmap_ext. intros; reflexivity. }
        destruct (mrel_app _ _ _ Hm El) as [Hm' Ej].
        refine (conj eq_refl (conj _ (conj eq_refl Hm'))). cbn [snd].
        rewrite map_app. cbn [map moved]. rewrite Ej. done.
      - (* loop *)
        apply loop_rel; [|assumption]. intros s1 s2 Hs.
        repeat go.
        + match goal with |- osim _ (match ?r with _ => _ end) _ => destruct r end; cbn [mres];
            repeat go; apply osim_Ok; auto.
        + apply osim_Ok. auto.
      - (* block *)
        apply osim_Ok. split; [reflexivity|]. apply leave_rel; assumption.
      - (* function *)
        destruct (to_types sc params args) as [E| |] eqn:T; cbn [bind]; try (apply osim_UB || apply osim_Div).
        rewrite (to_types_move _ _ _ _ T). cbn [bind].
        eapply osim_bind.
        { apply H. exact (conj eq_refl (conj eq_refl H0)). }
        intros [r [[? ?] ?]] [r' [[? ?] ?]] (Heq & (_ & -> & Hm)).
        cbn [fst snd] in *. subst.
        destruct r as [| |v]; cbn [mres]; [destruct ret; try apply osim_UB; apply osim_Ok; auto|apply osim_UB|].
        pure_sim to_type_move. apply osim_Ok. auto.
    Qed.
  End world.
End layout.

Lemma call_layout {W} sc ext1 ext2 fuel d args lay m1 m2 (w : W) v m1' w' :
  length lay = length m1 -> holds (placed lay (length m2)) m1 m2 ->
  apart (placed lay (length m2)) m1 -> follows (placed lay (length m2)) ext1 ext2 ->
  call sc ext1 fuel d args m1 w = Ok (v, m1', w') ->
  exists m2',
    call sc ext2 fuel d (map (moved (placed lay (length m2))) args) m2 w
    = Ok (moved (placed lay (length m2)) v, m2', w') /\
    holds (placed lay (length m2)) m1' m2' /\ untouched (placed lay (length m2)) m1 m2 m2' /\
    (length m2' + length m1 = length m1' + length m2)%nat.
Proof.
  set (j := placed lay (length m2)). intros HL HH HA HF H.
  assert (mrel j m1 m2 m1 m2) as Hm.
  { refine (conj HH (conj (le_n _) (conj _ (conj _ _)))); [lia| |]; intros b ds X; exists ds; auto. }
  destruct (proj2 (proj2 (proj2 (proj2 (layout_rel j m1 m2
    ltac:(intros n cs X; destruct (HH _ _ X) as (ds & Y & _); apply lookup_lt_Some in Y; exact Y)
    ltac:(intros n Hn; unfold j, placed; rewrite (proj2 (lookup_ge_None lay n)) by lia; rewrite HL; done)
    HA sc ext1 ext2 fuel HF)))) d args m1 m2 w Hm _ H) as ([[v2 m2'] w2] & E & -> & <- & Hm').
  exists m2'. split; [exact E|]. destruct Hm' as (HH' & _ & L & _ & HU). auto.
Qed.
