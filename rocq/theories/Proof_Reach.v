(** * Proofs for [Props_Interp.v]: a call gets only at what its arguments reach *)
From Verif Require Import CSem Lib CLang Spec_Reach Proof_EvalOrder.
Local Open Scope Z_scope.

Definition orel {A B} (P : A -> B -> Prop) (x : outcome A) (y : outcome B) : Prop :=
  match x, y with
  | Ok a, Ok b => P a b
  | UB k, UB k' => k = k'
  | Diverge, Diverge => True
  | _, _ => False
  end.
Lemma orel_bind {A B C D} (P : A -> B -> Prop) (Q : C -> D -> Prop) x y f g :
  orel P x y -> (forall a b, P a b -> orel Q (f a) (g b)) -> orel Q (bind x f) (bind y g).
Proof. destruct x, y; cbn; intros H Hf; try contradiction; auto. Qed.
Lemma orel_mono {A B} (P Q : A -> B -> Prop) x y :
  orel P x y -> (forall a b, P a b -> Q a b) -> orel Q x y.
Proof. destruct x, y; cbn; auto. Qed.
(** an outcome that satisfies [P] if it is [Ok] *)
Lemma orel_diag {A} (P : A -> Prop) (x : outcome A) :
  (forall a, x = Ok a -> P a) -> orel (fun a b => a = b /\ P a) x x.
Proof. destruct x; cbn; auto. Qed.

Section reach.
  Context (R : nat -> Prop) (M1 M2 : mem) (n0 : nat).
  Hypothesis HR : forall n, (n0 <= n)%nat -> R n.

  Definition mrel (m1 m2 : mem) : Prop :=
    closed R m1 /\ same_in R m1 m2 /\ (n0 <= length m1)%nat /\
    same_out R M1 m1 /\ same_out R M2 m2.
  Definition insb (b : blk) : Prop := match b with BObj n => R n | BData _ _ => True end.
  Definition insl (l : loc) : Prop := match l with LocVar _ _ => True | LocMem _ b _ => insb b end.

  Lemma inside_ptr t b o : inside R (VPtr t b o) <-> insb b.
  Proof. destruct b; reflexivity. Qed.

  Lemma block_rel m1 m2 b : mrel m1 m2 -> insb b ->
    block m1 b = block m2 b /\ forall cs, block m1 b = Ok cs -> Forall (inside_cell R) cs.
  Proof.
    intros (HC & [_ HS] & _) Hb. destruct b as [n|w l]; cbn in *.
    - rewrite <- (HS n Hb). split; [reflexivity|]. intros cs H.
      destruct (m1 !! n) eqn:X; [|discriminate]. injection H as <-. exact (HC _ _ Hb X).
    - split; [reflexivity|]. intros cs H. injection H as <-.
      apply Forall_fmap. apply Forall_forall. intros z _. exact I.
  Qed.

  Lemma of_cell_inside sc t c v : inside_cell R c -> of_cell sc t c = Ok v -> inside R v.
  Proof.
    destruct c as [w z|u], t; cbn; intros Hc H; try discriminate.
    all: try (destruct (w =? _); [injection H as <-; exact I|discriminate]).
    all: destruct u; try discriminate; injection H as <-; assumption || exact I.
  Qed.
  Lemma load_Forall {A} (P : A -> Prop) cs o c : Forall P cs -> load cs o = Ok c -> P c.
  Proof.
    intros HF H. unfold load in H. destruct (0 <=? o); [|discriminate].
    destruct (cs !! Z.to_nat o) eqn:X; [|discriminate]. injection H as <-.
    exact (Forall_lookup_1 _ _ _ _ HF X).
  Qed.

  Lemma mload_rel sc m1 m2 t b o : mrel m1 m2 -> insb b ->
    orel (fun v1 v2 => v1 = v2 /\ inside R v1) (mload sc m1 t b o) (mload sc m2 t b o).
  Proof.
    intros Hm Hb. destruct (block_rel _ _ _ Hm Hb) as [E HF]. unfold mload. rewrite <- E.
    apply orel_diag. intros v H.
    destruct (block m1 b) as [cs| |]; cbn [bind] in H; try discriminate.
    destruct (load cs o) as [c| |] eqn:L; cbn [bind] in H; try discriminate.
    exact (of_cell_inside _ _ _ _ (load_Forall _ _ _ _ (HF _ eq_refl) L) H).
  Qed.

  Lemma mrel_insert m1 m2 n cs : mrel m1 m2 -> R n -> Forall (inside_cell R) cs ->
    mrel (<[n := cs]> m1) (<[n := cs]> m2).
  Proof.
    intros (HC & [HL HS] & Hn & HO1 & HO2) Hr HF. unfold mrel, same_in, same_out.
    rewrite !insert_length. repeat split; auto.
    - intros k cs' Hk H. destruct (decide (n = k)) as [->|D].
      + apply list_lookup_insert_Some in H as [(_ & -> & _)|[D _]]; [exact HF|congruence].
      + rewrite list_lookup_insert_ne in H by exact D. exact (HC _ _ Hk H).
    - intros k Hk. destruct (decide (n = k)) as [->|D].
      + destruct (decide (k < length m1)%nat) as [L|L].
        * rewrite !list_lookup_insert by lia. reflexivity.
        * rewrite !list_insert_ge by lia. auto.
      + rewrite !list_lookup_insert_ne by exact D. auto.
    - intros k Hk. rewrite list_lookup_insert_ne by congruence. auto.
    - intros k Hk. rewrite list_lookup_insert_ne by congruence. auto.
  Qed.

  Lemma to_cell_inside t c v c' : inside R v -> to_cell t c v = Ok c' -> inside_cell R c'.
  Proof.
    intros Hv H. unfold to_cell in H.
    destruct t, v; try discriminate; destruct c as [w' z'|u]; try discriminate;
      try (destruct (w' =? _); [|discriminate]); try (destruct u; try discriminate);
      injection H as <-; cbn in *; auto.
  Qed.

  Lemma mstore_rel m1 m2 t b o v : mrel m1 m2 -> insb b -> inside R v ->
    orel mrel (mstore m1 t b o v) (mstore m2 t b o v).
  Proof.
    intros Hm Hb Hv. destruct (block_rel _ _ _ Hm Hb) as [E HF]. unfold mstore.
    destruct b as [n|]; [|reflexivity]. rewrite <- E.
    destruct (block m1 (BObj n)) as [cs| |] eqn:B; cbn [bind orel]; auto.
    destruct (load cs o) as [c| |] eqn:L; cbn [bind orel]; auto.
    destruct (to_cell t c v) as [c'| |] eqn:T; cbn [bind orel]; auto.
    destruct (store cs o c') as [cs'| |] eqn:S; cbn [bind orel]; auto.
    apply mrel_insert; [exact Hm|exact Hb|].
    unfold store in S. destruct (_ && _); [|discriminate]. injection S as <-.
    apply Forall_insert; [exact (HF _ eq_refl)|exact (to_cell_inside _ _ _ _ Hv T)].
  Qed.

  Lemma check_ptr_rel m1 m2 b o : mrel m1 m2 -> insb b -> check_ptr m1 b o = check_ptr m2 b o.
  Proof. intros Hm Hb. unfold check_ptr. rewrite (proj1 (block_rel _ _ _ Hm Hb)). reflexivity. Qed.
  Lemma cells_from_rel m1 m2 b o : mrel m1 m2 -> insb b -> cells_from m1 b o = cells_from m2 b o.
  Proof. intros Hm Hb. unfold cells_from. rewrite (proj1 (block_rel _ _ _ Hm Hb)). reflexivity. Qed.

  Lemma copy_rel m1 m2 db d sb s n : mrel m1 m2 -> insb db -> insb sb ->
    orel mrel (copy m1 db d sb s n) (copy m2 db d sb s n).
  Proof.
    intros Hm Hd Hs. unfold copy.
    destruct (block_rel _ _ _ Hm Hd) as [<- HF1]. destruct (block_rel _ _ _ Hm Hs) as [<- HF2].
    destruct (block m1 db) as [dc| |]; cbn [bind orel]; auto.
    destruct (block m1 sb) as [cs| |]; cbn [bind orel]; auto.
    destruct (in_range _ _ _ && _); [|reflexivity].
    destruct (same_blk db sb && _); [reflexivity|]. destruct (forallb _ _ && _); [|reflexivity].
    destruct db as [k|]; [|reflexivity]. cbn [orel]. apply mrel_insert; [exact Hm|exact Hd|].
    unfold write, slice. specialize (HF1 _ eq_refl). specialize (HF2 _ eq_refl).
    repeat apply Forall_app_2; auto using Forall_take, Forall_drop.
  Qed.

  Lemma lib_rel f vs m1 m2 : mrel m1 m2 -> Forall (inside R) vs ->
    orel (fun '(v1, m1) '(v2, m2) => v1 = v2 /\ inside R v1 /\ mrel m1 m2) (lib f vs m1) (lib f vs m2).
  Proof.
    intros Hm HF. unfold lib.
    destruct f; (destruct vs as [|[t1 z1|t1 b1 o1| |f1|] vs]; try reflexivity;
      pose proof (Forall_inv HF) as Hv; apply Forall_inv_tail in HF; try rewrite inside_ptr in Hv);
    try (destruct vs as [|[t2 z2|t2 b2 o2| |f2|] vs]; try reflexivity;
      try (pose proof (Forall_inv HF) as Hv2; apply Forall_inv_tail in HF; try rewrite inside_ptr in Hv2));
    try (destruct vs as [|[t3 z3|t3 b3 o3| |f3|] vs]; try reflexivity;
      try (pose proof (Forall_inv HF) as Hv3; apply Forall_inv_tail in HF));
    try (destruct vs as [|? vs]; try reflexivity).
    - eapply orel_bind; [exact (copy_rel _ _ _ _ _ _ _ Hm Hv Hv2)|]. intros a b Hab. cbn [orel].
      rewrite inside_ptr. auto.
    - destruct (block_rel _ _ _ Hm Hv) as [<- _]. destruct (block_rel _ _ _ Hm Hv2) as [<- _].
      destruct (block m1 b1); cbn [bind orel]; auto. destruct (block m1 b2); cbn [bind orel]; auto.
      destruct (in_range _ _ _ && _); [|reflexivity].
      destruct (ccompare _ _ _ _); cbn [bind orel inside]; auto.
    - rewrite <- (cells_from_rel _ _ _ _ Hm Hv).
      destruct (cells_from m1 b1 o1); cbn [bind orel]; auto.
      destruct (cstrlen _); cbn [bind orel inside]; auto.
    - rewrite <- (cells_from_rel _ _ _ _ Hm Hv2).
      destruct (cells_from m1 b2 o2); cbn [bind orel]; auto.
      destruct (cstrlen _); cbn [bind orel inside]; auto.
      eapply orel_bind; [exact (copy_rel _ _ _ _ _ _ _ Hm Hv Hv2)|]. intros c b Hab. cbn [orel].
      rewrite inside_ptr. auto.
    - rewrite <- (cells_from_rel _ _ _ _ Hm Hv), <- (cells_from_rel _ _ _ _ Hm Hv2).
      destruct (cells_from m1 b1 o1); cbn [bind orel]; auto.
      destruct (cells_from m1 b2 o2); cbn [bind orel]; auto.
      destruct (ccompare _ _ _ _); cbn [bind orel inside]; auto.
    - rewrite <- (cells_from_rel _ _ _ _ Hm Hv), <- (cells_from_rel _ _ _ _ Hm Hv2).
      destruct (cells_from m1 b1 o1); cbn [bind orel]; auto.
      destruct (cells_from m1 b2 o2); cbn [bind orel]; auto.
      destruct (ccompare _ _ _ _); cbn [bind orel inside]; auto.
  Qed.

  Lemma mrel_app m1 m2 cs : mrel m1 m2 -> Forall (inside_cell R) cs ->
    mrel (m1 ++ [cs]) (m2 ++ [cs]).
  Proof.
    intros (HC & [HL HS] & Hn & HO1 & HO2) HF. unfold mrel, same_in, same_out.
    rewrite !app_length. cbn [length]. repeat split; try lia.
    - intros k cs' Hk H. apply lookup_app_Some in H as [H|[L H]]; [exact (HC _ _ Hk H)|].
      apply list_lookup_singleton_Some in H as [_ <-]. exact HF.
    - intros k Hk. destruct (decide (k < length m1)%nat) as [L|L].
      + rewrite !lookup_app_l by lia. auto.
      + rewrite !lookup_app_r by lia. rewrite HL. reflexivity.
    - intros k Hk. assert (~ (n0 <= k)%nat) by auto. rewrite lookup_app_l by lia. auto.
    - intros k Hk. assert (~ (n0 <= k)%nat) by auto. rewrite lookup_app_l by lia. auto.
  Qed.
  Lemma mrel_take m1 m2 n : mrel m1 m2 -> (n0 <= n)%nat -> mrel (take n m1) (take n m2).
  Proof.
    intros (HC & [HL HS] & Hn & HO1 & HO2) L. unfold mrel, same_in, same_out.
    rewrite !take_length. repeat split; try lia.
    - intros k cs' Hk H. apply lookup_take_Some in H as [H _]. exact (HC _ _ Hk H).
    - intros k Hk. destruct (decide (k < n)%nat).
      + rewrite !lookup_take by lia. auto.
      + rewrite !lookup_take_ge by lia. reflexivity.
    - intros k Hk. assert (~ (n0 <= k)%nat) by auto. rewrite lookup_take by lia. auto.
    - intros k Hk. assert (~ (n0 <= k)%nat) by auto. rewrite lookup_take by lia. auto.
  Qed.

  Lemma result_inside t z v : result t z = Ok v -> inside R v.
  Proof. unfold result. destruct t; intros H; inv; try discriminate; try exact I.
    destruct (_ && _); inv; exact I. Qed.
  Lemma binary_inside sc op a b v : binary sc op a b = Ok v -> inside R v.
  Proof.
    unfold binary. intros H.
    destruct a, b; try discriminate;
      try (destruct op; try discriminate; inv; exact I).
    destruct op; unfold arith, shift in H; repeat (split_match; inv; try discriminate);
      try (eapply result_inside; eassumption); try exact I; inv; try exact I.
  Qed.
  Lemma unary_inside sc op a v : unary sc op a = Ok v -> inside R v.
  Proof.
    unfold unary. intros H. destruct op, a; inv; try discriminate; try exact I;
      try (eapply result_inside; eassumption).
    all: destruct (is_signed _); inv; try exact I; eapply result_inside; eassumption.
  Qed.
  Lemma to_type_inside sc t a v : inside R a -> to_type sc t a = Ok v -> inside R v.
  Proof.
    unfold to_type. intros Ha H. destruct t, a; try discriminate; inv; try exact I; auto.
    destruct (_ =? _); inv; exact I.
  Qed.
  Lemma to_types_inside sc ts vs E : Forall (inside R) vs -> to_types sc ts vs = Ok E ->
    Forall (inside R) E.
  Proof.
    revert vs E. induction ts as [|t ts IH]; intros [|v vs] E HF H; cbn in H; try discriminate.
    - inv. constructor.
    - fold (to_types sc) in H. pose proof (Forall_inv HF). pose proof (Forall_inv_tail HF).
      destruct (to_type sc t v) as [v'| |] eqn:T; cbn [bind] in H; try discriminate.
      destruct (to_types sc ts vs) as [E'| |] eqn:T'; unfold to_types in T'; rewrite T' in H;
        cbn [bind] in H; try discriminate.
      injection H as <-. constructor; [exact (to_type_inside _ _ _ _ H0 T)|].
      exact (IH _ _ H1 T').
  Qed.
  Lemma deref_inside v i l : inside R v -> deref_at v i = Ok l -> insl l.
  Proof. destruct v; cbn; intros Hv H; try discriminate. injection H as <-. destruct b; exact Hv. Qed.

  Section world.
    Context {W : Type} (sc : bool)
            (ext : Z -> list val -> mem -> W -> outcome (val * mem * W)) (fuel : nat).
    Hypothesis Hext : confined R ext.
    Notation st := (@CLang.st W).
    Notation eval := (eval sc ext fuel).
    Notation lvalue := (lvalue sc ext fuel).
    Notation evals := (evals sc ext fuel).
    Notation exec := (exec sc ext fuel).
    Notation call := (call sc ext fuel).

    Definition srel (s1 s2 : st) : Prop :=
      let '(E1, m1, w1) := s1 in
      let '(E2, m2, w2) := s2 in
      E1 = E2 /\ w1 = w2 /\ Forall (inside R) E1 /\ mrel m1 m2.
    Definition rrel {A} (P : A -> Prop) (x y : A * st) : Prop :=
      fst x = fst y /\ P (fst x) /\ srel (snd x) (snd y).
    Definition insr (r : res) : Prop := match r with RReturn v => inside R v | _ => True end.

    Lemma get_loc_rel l (s1 s2 : st) : srel s1 s2 -> insl l ->
      orel (fun v1 v2 => v1 = v2 /\ inside R v1) (get_loc sc l s1) (get_loc sc l s2).
    Proof.
      destruct s1 as [[E1 m1] w1], s2 as [[E2 m2] w2]. intros (-> & -> & HF & Hm) Hl.
      destruct l as [n t|t b o]; cbn [get_loc].
      - apply orel_diag. intros v H. destruct (E2 !! n) as [u|] eqn:X; [|discriminate].
        pose proof (Forall_lookup_1 _ _ _ _ HF X). destruct u; inv; try discriminate; assumption.
      - exact (mload_rel _ _ _ _ _ _ Hm Hl).
    Qed.
    Lemma set_loc_rel l v (s1 s2 : st) : srel s1 s2 -> insl l -> inside R v ->
      orel srel (set_loc sc l v s1) (set_loc sc l v s2).
    Proof.
      destruct s1 as [[E1 m1] w1], s2 as [[E2 m2] w2]. intros (-> & -> & HF & Hm) Hl Hv.
      destruct l as [n t|t b o]; cbn [set_loc].
      - destruct (to_type sc t v) as [v'| |] eqn:T; cbn [bind orel]; auto.
        refine (conj eq_refl (conj eq_refl (conj _ Hm))).
        apply Forall_insert; [exact HF|exact (to_type_inside _ _ _ _ Hv T)].
      - destruct (to_type sc t v) as [v'| |] eqn:T; cbn [bind orel]; auto.
        eapply orel_bind; [exact (mstore_rel _ _ _ _ _ _ Hm Hl (to_type_inside _ _ _ _ Hv T))|].
        intros a b' Hab. cbn. auto.
    Qed.
    Lemma step_val_rel d v (s1 s2 : st) : srel s1 s2 -> inside R v ->
      orel (fun v1 v2 => v1 = v2 /\ inside R v1) (step_val sc d v s1) (step_val sc d v s2).
    Proof.
      destruct s1 as [[E1 m1] w1], s2 as [[E2 m2] w2]. intros (-> & -> & HF & Hm) Hv.
      unfold step_val. cbn [fst snd]. destruct v as [t z|t b o| | |]; try reflexivity.
      - apply orel_diag. intros v H. eapply binary_inside. exact H.
      - apply inside_ptr in Hv. rewrite <- (check_ptr_rel _ _ _ _ Hm Hv). apply orel_diag.
        intros v H. inv. apply inside_ptr. exact Hv.
    Qed.
    Lemma leave_rel objs (s1 s2 s1' s2' : st) : srel s1 s2 -> srel s1' s2' ->
      srel (leave objs s1 s1') (leave objs s2 s2').
    Proof.
      destruct s1 as [[E1 m1] w1], s2 as [[E2 m2] w2], s1' as [[E1' m1'] w1'], s2' as [[E2' m2'] w2'].
      intros (-> & -> & HF & Hm) (-> & -> & HF' & Hm'). cbn.
      refine (conj eq_refl (conj eq_refl (conj (Forall_take _ _ _ HF') _))).
      destruct objs; [|exact Hm'].
      destruct Hm as (_ & [HL _] & Hn & _). rewrite HL in *. exact (mrel_take _ _ _ Hm' Hn).
    Qed.

    Lemma confined_rel f vs m1 m2 (w : W) : Forall (inside R) vs -> mrel m1 m2 ->
      orel (fun '(v1, m1, w1) '(v2, m2, w2) => v1 = v2 /\ inside R v1 /\ w1 = w2 /\ mrel m1 m2)
        (ext f vs m1 w) (ext f vs m2 w).
    Proof.
      intros HF (HC & HS & Hn & HO1 & HO2). specialize (Hext f vs m1 m2 w HF HC HS). revert Hext.
      destruct (ext f vs m1 w) as [[[v1 m1'] w1]| |], (ext f vs m2 w) as [[[v2 m2'] w2]| |];
        cbn [orel]; auto.
      intros (-> & -> & Hv & HC' & HS' & H1 & H2 & HL). unfold mrel. rewrite HL.
      repeat split; auto; try apply HS'.
      - intros n D. rewrite (H1 n D). auto.
      - intros n D. rewrite (H2 n D). auto.
    Qed.

    Lemma loop_rel n (f : st -> outcome (looped st)) :
      (forall s1 s2, srel s1 s2 ->
         orel (fun x y => match x, y with
                          | Again a, Again b => srel a b
                          | Done r a, Done r' b => r = r' /\ insr r /\ srel a b
                          | _, _ => False
                          end) (f s1) (f s2)) ->
      forall s1 s2, srel s1 s2 -> orel (rrel insr) (loop n f s1) (loop n f s2).
    Proof.
      intros Hf. induction n as [|n IH]; intros s1 s2 Hs; cbn [loop]; [exact I|].
      eapply orel_bind; [exact (Hf _ _ Hs)|].
      intros [a|r a] [b|r' b] H; try contradiction; [exact (IH _ _ H)|exact H].
    Qed.

    Lemma reach_rel :
      (forall e s1 s2, srel s1 s2 -> orel (rrel (inside R)) (eval e s1) (eval e s2)) /\
      (forall l s1 s2, srel s1 s2 -> orel (rrel insl) (lvalue l s1) (lvalue l s2)) /\
      (forall es s1 s2, srel s1 s2 -> orel (rrel (Forall (inside R))) (evals es s1) (evals es s2)) /\
      (forall c s1 s2, srel s1 s2 -> orel (rrel insr) (exec c s1) (exec c s2)) /\
      (forall f args m1 m2 w, Forall (inside R) args -> mrel m1 m2 ->
         orel (fun '(v1, m1, w1) '(v2, m2, w2) => v1 = v2 /\ inside R v1 /\ w1 = w2 /\ mrel m1 m2)
           (call f args m1 w) (call f args m2 w)).
    Proof.
      Ltac pure_rel L :=
        eapply (orel_bind (fun a b => a = b /\ inside R a));
          [apply orel_diag; intros ? ?; eapply L; eassumption
          |let a := fresh "v" in let b := fresh "v" in intros a b [<- ?]].
      Ltac go :=
        match goal with
        | |- orel _ (UB _) (UB _) => reflexivity
        | H : srel ?a ?b |- orel _ (Ok (?x, ?a)) (Ok (?x, ?b)) =>
            refine (conj eq_refl (conj _ H)); cbn [fst snd insr insl inside]; try exact I; eauto
        | IH : forall s1 s2, srel s1 s2 -> orel _ (?f s1) (?f s2) |- orel _ (?f _) (?f _) =>
            apply IH; assumption
        | IH : forall s1 s2, srel s1 s2 -> orel _ (?f s1) (?f s2)
          |- orel _ (bind (?f _) _) (bind (?f _) _) =>
            eapply orel_bind; [apply IH; assumption|];
            intros [? ?] [? ?] (? & ? & ?); cbn [fst snd] in *; subst
        | |- orel _ (bind (get_loc _ _ _) _) _ =>
            eapply orel_bind; [apply get_loc_rel; eassumption|intros ? ? [<- ?]]
        | |- orel _ (bind (set_loc _ _ _ _) _) _ =>
            eapply orel_bind; [apply set_loc_rel; eassumption|intros]
        | |- orel _ (bind (step_val _ _ _ _) _) _ =>
            eapply orel_bind; [apply step_val_rel; eassumption|intros ? ? [<- ?]]
        | |- orel _ (bind (unary _ _ _) _) _ => pure_rel unary_inside
        | |- orel _ (bind (binary _ _ _ _) _) _ => pure_rel binary_inside
        | |- orel _ (bind (to_type _ _ _) _) _ => pure_rel to_type_inside
        | |- orel _ (bind (deref_at _ _) _) _ =>
            eapply (orel_bind (fun a b => a = b /\ insl a));
              [apply orel_diag; intros; eapply deref_inside; [|eassumption]; assumption|intros ? ? [<- ?]]
        | |- orel _ (bind (truth _) _) _ =>
            eapply (orel_bind (fun a b => a = b /\ True));
              [apply orel_diag; intros; exact I|intros ? ? [<- _]]
        | |- orel _ (match ?x with _ => _ end) (match ?x with _ => _ end) => destruct x
        end.
      apply clang_ind; intros;
        try (destruct s1 as [[E1 m1] w1], s2 as [[E2 m2] w2]);
        cbn [CLang.eval CLang.lvalue CLang.evals CLang.exec CLang.call];
        fold eval; fold lvalue; fold evals; fold exec; fold call.
      all: repeat go.
      - (* &l *)
        destruct s as [[? ?] ?], s0 as [[? ?] ?]. cbn [fst snd]. pose proof H3 as (_ & _ & _ & Hm).
        rewrite <- (check_ptr_rel _ _ _ _ Hm H2).
        destruct (check_ptr _ _ _); cbn [bind orel]; auto.
        refine (conj eq_refl (conj _ H3)). apply inside_ptr. exact H2.
      - (* call *)
        destruct s as [[? ?] ?], s0 as [[? ?] ?]. destruct H4 as (-> & -> & HF & Hm).
        eapply orel_bind; [apply H; eassumption|].
        intros [[? ?] ?] [[? ?] ?] (-> & ? & -> & ?). cbn [orel].
        refine (conj eq_refl (conj _ (conj eq_refl (conj eq_refl (conj HF _))))); assumption.
      - (* call of a function pointer *)
        destruct s1 as [[? ?] ?], s2 as [[? ?] ?]. destruct H6 as (-> & -> & HF & Hm).
        destruct v0; try reflexivity.
        eapply orel_bind; [exact (confined_rel _ _ _ _ _ H5 Hm)|].
        intros [[? ?] ?] [[? ?] ?] (-> & ? & -> & ?). cbn [orel].
        refine (conj eq_refl (conj _ (conj eq_refl (conj eq_refl (conj HF _))))); assumption.
      - (* library function *)
        destruct s as [[? ?] ?], s0 as [[? ?] ?]. destruct H3 as (-> & -> & HF & Hm).
        eapply orel_bind; [apply lib_rel; eassumption|].
        intros [? ?] [? ?] (-> & ? & ?). cbn [orel].
        refine (conj eq_refl (conj _ (conj eq_refl (conj eq_refl (conj HF _))))); assumption.
      - (* variable *)
        destruct H as (-> & -> & HF & Hm).
        refine (conj eq_refl (conj I (conj eq_refl (conj eq_refl (conj _ Hm))))).
        apply Forall_app_2; [exact HF|]. repeat constructor.
      - destruct s as [[? ?] ?], s0 as [[? ?] ?]. destruct H3 as (-> & -> & HF & Hm).
        refine (conj eq_refl (conj I (conj eq_refl (conj eq_refl (conj _ Hm))))).
        apply Forall_app_2; [exact HF|]. repeat constructor. assumption.
      - (* object *)
        destruct s as [[? ?] ?], s0 as [[? ?] ?]. destruct H3 as (-> & -> & HF & Hm).
        destruct v; try reflexivity. pose proof Hm as (_ & [HL _] & Hn & _).
        refine (conj eq_refl (conj I (conj _ (conj eq_refl (conj _ _))))); cbn [snd].
        + rewrite HL. reflexivity.
        + apply Forall_app_2; [exact HF|]. constructor; [|constructor]. cbn. auto.
        + apply mrel_app; [exact Hm|]. repeat constructor.
      - (* array *)
        destruct H as (-> & -> & HF & Hm). pose proof Hm as (_ & [HL _] & Hn & _).
        refine (conj eq_refl (conj I (conj _ (conj eq_refl (conj _ _))))); cbn [snd].
        + rewrite HL. reflexivity.
        + apply Forall_app_2; [exact HF|]. constructor; [|constructor]. cbn. auto.
        + apply mrel_app; [exact Hm|]. apply Forall_fmap. apply Forall_forall. intros z _. exact I.
      - (* loop *)
        apply loop_rel; [|assumption]. intros s1 s2 Hs.
        repeat go; cbn [orel insr]; auto.
      - (* block *)
        refine (conj eq_refl (conj _ _)); [assumption|]. apply leave_rel; assumption.
      - (* function *)
        destruct (to_types sc params args) as [E| |] eqn:T; cbn [bind orel]; auto.
        eapply orel_bind.
        { apply H. refine (conj eq_refl (conj eq_refl (conj _ H1))).
          exact (to_types_inside _ _ _ _ H0 T). }
        intros [r' [[? ?] ?]] [r [[? ?] ?]] (Heq & Hr & (_ & -> & _ & Hm)).
        cbn [fst snd] in *. subst.
        destruct r as [| |v]; [destruct ret; cbn [orel inside]; auto|reflexivity|].
        pure_rel to_type_inside. cbn [orel]. auto.
    Qed.
  End world.
End reach.

Lemma call_reach {W} R sc ext fuel d args m1 m2 (w : W) :
  confined R ext -> Forall (inside R) args -> closed R m1 -> same_in R m1 m2 ->
  (forall n, (length m1 <= n)%nat -> R n) ->
  match call sc ext fuel d args m1 w, call sc ext fuel d args m2 w with
  | Ok (v1, m1', w1), Ok (v2, m2', w2) =>
      v1 = v2 /\ w1 = w2 /\ inside R v1 /\ closed R m1' /\ same_in R m1' m2' /\
      same_out R m1 m1' /\ same_out R m2 m2'
  | UB k1, UB k2 => k1 = k2
  | Diverge, Diverge => True
  | _, _ => False
  end.
Proof.
  intros Hext HF HC HS HR.
  pose proof (proj2 (proj2 (proj2 (proj2 (reach_rel R m1 m2 (length m1) HR sc ext fuel Hext))))
                d args m1 m2 w HF) as H.
  assert (mrel R m1 m2 (length m1) m1 m2) as Hm.
  { split; [exact HC|]. split; [exact HS|]. split; [lia|]. split; intros n _; reflexivity. }
  specialize (H Hm). revert H.
  destruct (call sc ext fuel d args m1 w) as [[[v1 m1'] w1]| |],
    (call sc ext fuel d args m2 w) as [[[v2 m2'] w2]| |]; cbn [orel]; auto.
  intros (-> & Hv & -> & HC' & HS' & _ & H1 & H2).
  refine (conj eq_refl (conj eq_refl (conj Hv (conj HC' (conj HS' (conj H1 H2)))))).
Qed.

(** the case of one memory *)
Lemma call_frame {W} R sc ext fuel d args m (w : W) v m' w' :
  confined R ext -> Forall (inside R) args -> closed R m ->
  (forall n, (length m <= n)%nat -> R n) ->
  call sc ext fuel d args m w = Ok (v, m', w') ->
  inside R v /\ closed R m' /\ same_out R m m'.
Proof.
  intros Hext HF HC HR H.
  pose proof (call_reach R sc ext fuel d args m m w Hext HF HC (conj eq_refl (fun _ _ => eq_refl)) HR) as X.
  rewrite H in X. destruct X as (_ & _ & ? & ? & _ & ? & _). auto.
Qed.
