(** * Proofs for [Props_EvalOrder.v]: the order of evaluation does not matter

    A syntactic check, in which two operands that are evaluated in no particular order must not
    interfere: neither has a side effect, or one is a constant, or one reads nothing but local
    variables and the other changes none.  Programs that pass it give the same result in every
    order; all functions of [/repo/Src] pass it. *)
From Verif Require Import Drive_Front.
From Verif Require Import CSem Lib CLang CLangOrder.
Local Open Scope Z_scope.

(** ** The check *)

(** library functions that do not write *)
Definition lib_ro (f : libfun) : bool :=
  match f with LMemcpy | LStrcpy => false | _ => true end.
(** changes no memory and no world *)
Fixpoint ro_e (e : expr) : bool :=
  match e with
  | ECst _ _ | EData _ _ => true
  | ELv l | EAddr l => ro_l l
  | EUn _ a | ECast _ a => ro_e a
  | EBin _ a b | EAnd a b | EOr a b => ro_e a && ro_e b
  | ECond c a b => ro_e c && ro_e a && ro_e b
  | EInc _ _ (LVar _ _) => true
  | EInc _ _ _ => false
  | ECall f args => ro_f f && ro_es args
  | ECallPtr _ _ => false
  | ELib f args => lib_ro f && ro_es args
  end
with ro_l (l : lval) : bool :=
  match l with
  | LVar _ _ => true
  | LDeref e => ro_e e
  | LIndex a i => ro_e a && ro_e i
  | LField l _ _ => ro_l l
  end
with ro_es (es : exprs) : bool :=
  match es with ENil => true | ECons e es => ro_e e && ro_es es end
with ro_s (s : stmt) : bool :=
  match s with
  | SSkip | SVar _ | SBreak => true
  | SSeq a b => ro_s a && ro_s b
  | SExpr e | SInit _ e | SReturn e => ro_e e
  | SSet (LVar _ _) e | SOp _ (LVar _ _) e => ro_e e
  | SSet _ _ | SOp _ _ _ | SMem _ _ | SArr _ _ => false
  | SIf c a b | SLoop c a b => ro_e c && ro_s a && ro_s b
  | SBlock objs s => negb objs && ro_s s
  end
with ro_f (f : fundef) : bool := match f with FDef _ _ b => ro_s b end.

(** changes no local variable *)
Fixpoint noinc_e (e : expr) : bool :=
  match e with
  | ECst _ _ | EData _ _ => true
  | ELv l | EAddr l => noinc_l l
  | EUn _ a | ECast _ a => noinc_e a
  | EBin _ a b | EAnd a b | EOr a b => noinc_e a && noinc_e b
  | ECond c a b => noinc_e c && noinc_e a && noinc_e b
  | EInc _ _ _ => false
  | ECall _ args | ELib _ args => noinc_es args
  | ECallPtr f args => noinc_e f && noinc_es args
  end
with noinc_l (l : lval) : bool :=
  match l with
  | LVar _ _ => true
  | LDeref e => noinc_e e
  | LIndex a i => noinc_e a && noinc_e i
  | LField l _ _ => noinc_l l
  end
with noinc_es (es : exprs) : bool :=
  match es with ENil => true | ECons e es => noinc_e e && noinc_es es end.

(** reads nothing but local variables *)
Fixpoint stable_e (e : expr) : bool :=
  match e with
  | ECst _ _ | EData _ _ | ELv (LVar _ _) => true
  | EUn _ a | ECast _ a => stable_e a
  | EBin _ a b => stable_e a && stable_e b
  | _ => false
  end.
Fixpoint stable_l (l : lval) : bool :=
  match l with
  | LVar _ _ => true
  | LDeref e => stable_e e
  | LIndex a i => stable_e a && stable_e i
  | LField l _ _ => stable_l l
  end.
Definition const_e (e : expr) : bool :=
  match e with ECst _ _ | EData _ _ => true | _ => false end.

Definition pure_e (e : expr) : bool := ro_e e && noinc_e e.
Definition pure_l (l : lval) : bool := ro_l l && noinc_l l.
Definition pure_es (es : exprs) : bool := ro_es es && noinc_es es.

Definition free (a b : expr) : bool :=
  (pure_e a && pure_e b) || const_e a || const_e b || (noinc_e a && stable_e b) ||
  (stable_e a && noinc_e b).
Definition free_l (a : lval) (b : expr) : bool :=
  (pure_l a && pure_e b) || const_e b || (noinc_l a && stable_e b) || (stable_l a && noinc_e b).
(** the left side of a compound assignment is also read *)
Definition free_op (a : lval) (b : expr) : bool :=
  (pure_l a && pure_e b) || const_e b ||
  match a with LVar _ _ => noinc_e b | _ => false end.
Definition free_es (a : expr) (b : exprs) : bool :=
  (pure_e a && pure_es b) || match b with ENil => true | _ => false end ||
  (stable_e a && noinc_es b).

Fixpoint ok_e (e : expr) : bool :=
  match e with
  | ECst _ _ | EData _ _ => true
  | ELv l | EAddr l | EInc _ _ l => ok_l l
  | EUn _ a | ECast _ a => ok_e a
  | EBin _ a b => free a b && ok_e a && ok_e b
  | EAnd a b | EOr a b => ok_e a && ok_e b
  | ECond c a b => ok_e c && ok_e a && ok_e b
  | ECall f args => ok_f f && ok_es args
  | ELib _ args => ok_es args
  | ECallPtr f args => free_es f args && ok_e f && ok_es args
  end
with ok_l (l : lval) : bool :=
  match l with
  | LVar _ _ => true
  | LDeref e => ok_e e
  | LIndex a i => free a i && ok_e a && ok_e i
  | LField l _ _ => ok_l l
  end
with ok_es (es : exprs) : bool :=
  match es with ENil => true | ECons e es => free_es e es && ok_e e && ok_es es end
with ok_s (s : stmt) : bool :=
  match s with
  | SSkip | SVar _ | SBreak | SArr _ _ => true
  | SSeq a b => ok_s a && ok_s b
  | SExpr e | SInit _ e | SMem _ e | SReturn e => ok_e e
  | SSet l e => free_l l e && ok_l l && ok_e e
  | SOp _ l e => free_op l e && ok_l l && ok_e e
  | SIf c a b | SLoop c a b => ok_e c && ok_s a && ok_s b
  | SBlock _ s => ok_s s
  end
with ok_f (f : fundef) : bool := match f with FDef _ _ b => ok_s b end.

Scheme expr_mut := Induction for expr Sort Prop
  with lval_mut := Induction for lval Sort Prop
  with exprs_mut := Induction for exprs Sort Prop
  with stmt_mut := Induction for stmt Sort Prop
  with fundef_mut := Induction for fundef Sort Prop.
Combined Scheme clang_ind from expr_mut, lval_mut, exprs_mut, stmt_mut, fundef_mut.


(** ** What the parts of the check mean for [CLang] *)

Ltac inv1 :=
  match goal with
  | H : bind ?e _ = Ok _ |- _ =>
      let X := fresh "X" in
      destruct e as [?|?|] eqn:X; cbn [bind] in H; [|discriminate H|discriminate H]
  | H : Ok _ = Ok _ |- _ => injection H; clear H; intros; subst
  | H : UB _ = Ok _ |- _ => discriminate H
  | H : Diverge = Ok _ |- _ => discriminate H
  | H : (_, _) = (_, _) |- _ => injection H; clear H; intros; subst
  | p : st |- _ => unfold st in p
  | p : (_ * _)%type |- _ => destruct p
  | H : andb _ _ = true |- _ => apply andb_prop in H as [? ?]
  | H : false = true |- _ => discriminate H
  end.
Ltac inv := repeat (inv1; cbn [fst snd] in * ).
Ltac split_match :=
  match goal with
  | H : (match ?x with _ => _ end) = Ok _ |- _ => destruct x
  end.

Lemma loop_keep {S} (P : S -> Prop) n (step : S -> outcome (looped S)) :
  (forall s x, P s -> step s = Ok x -> match x with Again s | Done _ s => P s end) ->
  forall s r s', P s -> loop n step s = Ok (r, s') -> P s'.
Proof.
  intros Hs. induction n as [|n IH]; cbn [loop]; intros s r s' HP H; [discriminate|].
  destruct (step s) as [x| |] eqn:X; cbn [bind] in H; [|discriminate|discriminate].
  specialize (Hs _ _ HP X). destruct x; [exact (IH _ _ _ Hs H)|]. inv. exact Hs.
Qed.

Lemma loop_mono {S} n (f g : S -> outcome (looped S)) :
  (forall s x, f s = Ok x -> g s = Ok x) ->
  forall s r, loop n f s = Ok r -> loop n g s = Ok r.
Proof.
  intros Hs. induction n as [|n IH]; cbn [loop]; intros s r H; [discriminate|].
  destruct (f s) as [x| |] eqn:X; cbn [bind] in H; [|discriminate|discriminate].
  rewrite (Hs _ _ X). cbn [bind]. destruct x; auto.
Qed.

Lemma lib_keep f vs m v m' : lib_ro f = true -> lib f vs m = Ok (v, m') -> m' = m.
Proof.
  intros Hf H. unfold lib in H.
  destruct f; try discriminate; destruct vs as [|[] [|[] [|[] [|]]]]; inv; try discriminate;
    try reflexivity.
  all: destruct (_ && _); inv; reflexivity.
Qed.

Section keep.
  Context {W : Type} (sc : bool)
          (ext : Z -> list val -> mem -> W -> outcome (val * mem * W)) (fuel : nat).
  Notation eval := (eval sc ext fuel).
  Notation lvalue := (lvalue sc ext fuel).
  Notation evals := (evals sc ext fuel).
  Notation exec := (exec sc ext fuel).
  Notation call := (call sc ext fuel).
  Notation st := (@CLang.st W).
  Ltac step :=
    cbn [CLang.eval CLang.lvalue CLang.evals CLang.exec CLang.call] in *;
    fold eval in *; fold lvalue in *; fold evals in *; fold exec in *; fold call in *.

  Ltac use_ih :=
    repeat match goal with
    | IH : true = true -> _ |- _ => specialize (IH eq_refl)
    | IH : ?b = true -> _, H : ?b = true |- _ => specialize (IH H)
    end.

  Lemma keep_mw :
    (forall e, ro_e e = true -> forall E m w v E' m' w',
       eval e (E, m, w) = Ok (v, (E', m', w')) -> m' = m /\ w' = w) /\
    (forall l, ro_l l = true -> forall E m w v E' m' w',
       lvalue l (E, m, w) = Ok (v, (E', m', w')) -> m' = m /\ w' = w) /\
    (forall es, ro_es es = true -> forall E m w v E' m' w',
       evals es (E, m, w) = Ok (v, (E', m', w')) -> m' = m /\ w' = w) /\
    (forall c, ro_s c = true -> forall E m w v E' m' w',
       exec c (E, m, w) = Ok (v, (E', m', w')) -> m' = m /\ w' = w) /\
    (forall f, ro_f f = true -> forall args m w v m' w',
       call f args m w = Ok (v, m', w') -> m' = m /\ w' = w).
  Proof.
    Ltac apply_ih :=
      match goal with
      | IH : forall E m w v E' m' w', ?f _ = Ok (v, (E', m', w')) -> m' = m /\ w' = w,
        H : ?f _ = Ok (_, (_, _, _)) |- _ => destruct (IH _ _ _ _ _ _ _ H); clear H; subst
      | IH : forall args m w v m' w', ?f args m w = Ok (v, m', w') -> m' = m /\ w' = w,
        H : ?f _ _ _ = Ok (_, _, _) |- _ => destruct (IH _ _ _ _ _ _ H); clear H; subst
      | H : lib _ _ _ = Ok (_, _) |- _ => apply lib_keep in H; [subst|assumption]
      | H : set_loc _ (LocVar _ _) _ _ = Ok _ |- _ => cbn [set_loc] in H
      end.
    Ltac crush := repeat first [progress inv | apply_ih | split_match].
    apply clang_ind; intros; cbn [ro_e ro_l ro_es ro_s ro_f] in *;
      try match goal with H : (match ?l with _ => _ end) = true |- _ => is_var l; destruct l end;
      inv; step; use_ih.
    all: try solve [crush; try discriminate; auto].
    - match goal with H : loop _ _ _ = Ok (_, _) |- _ =>
        apply (loop_keep (fun s => snd (fst s) = m /\ snd s = w)) in H; [exact H| |split; reflexivity] end.
      clear - H H0 H1. intros [[E0 m0] w0] x Hp Hx. cbn [fst snd] in Hp. destruct Hp; subst. crush; auto.
    - crush. unfold leave in *. cbn [fst snd] in *. destruct objs; [discriminate|]. crush. auto.
  Qed.

  Lemma keep_env :
    (forall e, noinc_e e = true -> forall E m w v E' m' w',
       eval e (E, m, w) = Ok (v, (E', m', w')) -> E' = E) /\
    (forall l, noinc_l l = true -> forall E m w v E' m' w',
       lvalue l (E, m, w) = Ok (v, (E', m', w')) -> E' = E) /\
    (forall es, noinc_es es = true -> forall E m w v E' m' w',
       evals es (E, m, w) = Ok (v, (E', m', w')) -> E' = E).
  Proof.
    Ltac apply_ih' :=
      match goal with
      | IH : forall E m w v E' m' w', ?f _ = Ok (v, (E', m', w')) -> E' = E,
        H : ?f _ = Ok (_, (_, _, _)) |- _ => pose proof (IH _ _ _ _ _ _ _ H); clear H; subst
      end.
    cut ((forall e, noinc_e e = true -> forall E m w v E' m' w',
            eval e (E, m, w) = Ok (v, (E', m', w')) -> E' = E) /\
         (forall l, noinc_l l = true -> forall E m w v E' m' w',
            lvalue l (E, m, w) = Ok (v, (E', m', w')) -> E' = E) /\
         (forall es, noinc_es es = true -> forall E m w v E' m' w',
            evals es (E, m, w) = Ok (v, (E', m', w')) -> E' = E) /\
         (forall c : stmt, True) /\ (forall f : fundef, True)).
    { intros (? & ? & ? & _). auto. }
    apply clang_ind; intros; try exact I; cbn [noinc_e noinc_l noinc_es] in *; inv; step; use_ih.
    all: repeat first [progress inv | apply_ih' | split_match]; try discriminate; auto.
  Qed.

  Lemma stable_ok e : stable_e e = true -> forall E m w v s',
    eval e (E, m, w) = Ok (v, s') ->
    s' = (E, m, w) /\ forall m' w', eval e (E, m', w') = Ok (v, (E, m', w')).
  Proof.
    assert ((forall e, stable_e e = true -> forall E m w v s',
               eval e (E, m, w) = Ok (v, s') ->
               s' = (E, m, w) /\ forall m' w', eval e (E, m', w') = Ok (v, (E, m', w'))) /\
            (forall l : lval, True) /\ (forall es : exprs, True) /\
            (forall c : stmt, True) /\ (forall f : fundef, True)) as [H _]; [|exact (H e)].
    clear e. Ltac apply_st :=
      match goal with
      | IH : forall E m w v s', ?f _ = Ok (v, s') -> s' = (E, m, w) /\ _,
        H : ?f _ = Ok (_, _) |- _ =>
          let A := fresh "A" in let B := fresh "B" in
          destruct (IH _ _ _ _ _ H) as [A B]; clear H; inv; subst
      end.
    apply clang_ind; intros; try exact I; cbn [stable_e] in *; try discriminate;
      try match goal with H : (match ?l with _ => _ end) = true |- _ => destruct l; try discriminate end;
      inv; step; use_ih.
    all: repeat first [progress inv | apply_st].
    all: split; [reflexivity|]; intros m' w'; step; cbn [bind].
    all: repeat match goal with
         | H : forall m' w', ?f (?E, m', w') = Ok _ |- context [?f (?E, ?m, ?w)] =>
             rewrite (H m w); cbn [bind]
         | H : unary _ _ _ = Ok _ |- _ => rewrite H; cbn [bind]
         | H : binary _ _ _ _ = Ok _ |- _ => rewrite H; cbn [bind]
         | H : to_type _ _ _ = Ok _ |- _ => rewrite H; cbn [bind]
         | H : get_loc _ _ _ = Ok _ |- _ => cbn [get_loc] in *; rewrite H; cbn [bind]
         end; reflexivity.
  Qed.

  Lemma stable_l_ok l : stable_l l = true -> forall E m w v s',
    lvalue l (E, m, w) = Ok (v, s') ->
    s' = (E, m, w) /\ forall m' w', lvalue l (E, m', w') = Ok (v, (E, m', w')).
  Proof.
    induction l as [n t|e|a i|l IH k t]; intros Hs E m w v s' H; cbn [stable_l] in Hs; step.
    - inv. auto.
    - inv. apply (stable_ok _ Hs) in X as [A B]. inv. split; [reflexivity|].
      intros. rewrite B. cbn [bind]. rewrite X0. reflexivity.
    - inv. apply stable_ok in X as [A B]; [|assumption]. inv.
      apply stable_ok in X0 as [A B']; [|assumption]. inv.
      destruct v1; inv; try discriminate. split; [reflexivity|]. intros.
      rewrite B. cbn [bind]. rewrite B'. cbn [bind]. rewrite X. reflexivity.
    - inv. apply IH in X as [A B]; [|assumption]. inv. split_match; [discriminate|]. inv.
      split; [reflexivity|]. intros. rewrite B. reflexivity.
  Qed.

  (** ** Two evaluations that commute *)

  Definition commute {A B} (f : st -> outcome (A * st)) (g : st -> outcome (B * st)) : Prop :=
    forall s v1 s1 v2 s2, f s = Ok (v1, s1) -> g s1 = Ok (v2, s2) ->
      exists s', g s = Ok (v2, s') /\ f s' = Ok (v1, s2).

  Lemma commute_pure {A B} (f : st -> outcome (A * st)) (g : st -> outcome (B * st)) :
    (forall s v s', f s = Ok (v, s') -> s' = s) -> (forall s v s', g s = Ok (v, s') -> s' = s) ->
    commute f g.
  Proof.
    intros Hf Hg s v1 s1 v2 s2 H1 H2. pose proof (Hf _ _ _ H1). subst.
    pose proof (Hg _ _ _ H2). subst. eauto.
  Qed.
  Lemma commute_const {A B} (f : st -> outcome (A * st)) (g : st -> outcome (B * st)) v :
    (forall s, f s = Ok (v, s)) -> commute f g /\ commute g f.
  Proof.
    intros Hf. split; intros s v1 s1 v2 s2 H1 H2.
    - rewrite Hf in H1. inv1; inv1. eauto.
    - rewrite Hf in H2. inv1; inv1. eauto.
  Qed.
  Lemma commute_stable {A B} (f : st -> outcome (A * st)) (g : st -> outcome (B * st)) :
    (forall E m w v s', f (E, m, w) = Ok (v, s') ->
       s' = (E, m, w) /\ forall m' w', f (E, m', w') = Ok (v, (E, m', w'))) ->
    (forall E m w v E' m' w', g (E, m, w) = Ok (v, (E', m', w')) -> E' = E) ->
    commute f g /\ commute g f.
  Proof.
    intros Hf Hg. split; intros [[E m] w] v1 [[E1 m1] w1] v2 [[E2 m2] w2] H1 H2.
    - apply Hf in H1 as [A1 H1]. injection A1 as -> -> ->.
      pose proof (Hg _ _ _ _ _ _ _ H2). subst. eauto.
    - pose proof (Hg _ _ _ _ _ _ _ H1). subst.
      apply Hf in H2 as [A1 H2]. injection A1 as -> -> ->. eauto.
  Qed.

  Lemma pure_ok e : pure_e e = true -> forall s v s', eval e s = Ok (v, s') -> s' = s.
  Proof.
    intros Hp [[E m] w] v [[E' m'] w'] H. apply andb_prop in Hp as [H1 H2].
    destruct (proj1 keep_mw e H1 _ _ _ _ _ _ _ H).
    pose proof (proj1 keep_env e H2 _ _ _ _ _ _ _ H). congruence.
  Qed.
  Lemma pure_l_ok l : pure_l l = true -> forall s v s', lvalue l s = Ok (v, s') -> s' = s.
  Proof.
    intros Hp [[E m] w] v [[E' m'] w'] H. apply andb_prop in Hp as [H1 H2].
    destruct (proj1 (proj2 keep_mw) l H1 _ _ _ _ _ _ _ H).
    pose proof (proj1 (proj2 keep_env) l H2 _ _ _ _ _ _ _ H). congruence.
  Qed.
  Lemma pure_es_ok es : pure_es es = true -> forall s v s', evals es s = Ok (v, s') -> s' = s.
  Proof.
    intros Hp [[E m] w] v [[E' m'] w'] H. apply andb_prop in Hp as [H1 H2].
    destruct (proj1 (proj2 (proj2 keep_mw)) es H1 _ _ _ _ _ _ _ H).
    pose proof (proj2 (proj2 keep_env) es H2 _ _ _ _ _ _ _ H). congruence.
  Qed.
  Lemma const_ok e : const_e e = true -> exists v, forall s, eval e s = Ok (v, s).
  Proof.
    destruct e; try discriminate; intros _; eexists; intros [[E m] w]; cbn [CLang.eval]; reflexivity.
  Qed.

  (** reading the left side of a compound assignment *)
  Definition read_l (l : lval) (s : st) : outcome ((loc * val) * st) :=
    let! '(lc, s) := lvalue l s in let! v := get_loc sc lc s in Ok ((lc, v), s).

  Lemma free_ok a b : free a b = true -> commute (eval a) (eval b) /\ commute (eval b) (eval a).
  Proof.
    unfold free. rewrite !orb_true_iff. intros [[[[H|H]|H]|H]|H].
    - apply andb_prop in H as [H1 H2]. split; apply commute_pure; eauto using pure_ok.
    - apply const_ok in H as [v H]. exact (commute_const _ _ v H).
    - apply const_ok in H as [v H]. apply and_comm. exact (commute_const _ _ v H).
    - apply andb_prop in H as [H1 H2]. apply and_comm.
      exact (commute_stable _ _ (stable_ok b H2) (proj1 keep_env a H1)).
    - apply andb_prop in H as [H1 H2].
      exact (commute_stable _ _ (stable_ok a H1) (proj1 keep_env b H2)).
  Qed.
  Lemma free_l_ok a b :
    free_l a b = true -> commute (lvalue a) (eval b) /\ commute (eval b) (lvalue a).
  Proof.
    unfold free_l. rewrite !orb_true_iff. intros [[[H|H]|H]|H].
    - apply andb_prop in H as [H1 H2].
      split; apply commute_pure; eauto using pure_ok, pure_l_ok.
    - apply const_ok in H as [v H]. apply and_comm. exact (commute_const _ _ v H).
    - apply andb_prop in H as [H1 H2]. apply and_comm.
      exact (commute_stable _ _ (stable_ok b H2) (proj1 (proj2 keep_env) a H1)).
    - apply andb_prop in H as [H1 H2].
      exact (commute_stable _ _ (stable_l_ok a H1) (proj1 keep_env b H2)).
  Qed.
  Lemma free_op_ok a b :
    free_op a b = true -> commute (read_l a) (eval b) /\ commute (eval b) (read_l a).
  Proof.
    unfold free_op. rewrite !orb_true_iff. intros [[H|H]|H].
    - apply andb_prop in H as [H1 H2].
      assert (forall s v s', read_l a s = Ok (v, s') -> s' = s).
      { intros s v s' Hr. unfold read_l in Hr. inv1. destruct a0 as [lc s0]. inv1. inv1.
        exact (pure_l_ok _ H1 _ _ _ X). }
      split; apply commute_pure; eauto using pure_ok.
    - apply const_ok in H as [v H]. apply and_comm. exact (commute_const _ _ v H).
    - destruct a as [n t| | |]; try discriminate.
      apply commute_stable; [|exact (proj1 keep_env b H)].
      intros E m w v s' Hr. unfold read_l in *. cbn [CLang.lvalue bind get_loc] in *. inv.
      split; [reflexivity|]. intros. reflexivity.
  Qed.
  Lemma free_es_ok a b :
    free_es a b = true -> commute (eval a) (evals b) /\ commute (evals b) (eval a).
  Proof.
    unfold free_es. rewrite !orb_true_iff. intros [[H|H]|H].
    - apply andb_prop in H as [H1 H2].
      split; apply commute_pure; eauto using pure_ok, pure_es_ok.
    - destruct b; [|discriminate]. apply and_comm. apply (commute_const _ _ []).
      intros [[E m] w]. reflexivity.
    - apply andb_prop in H as [H1 H2].
      exact (commute_stable _ _ (stable_ok a H1) (proj2 (proj2 keep_env) b H2)).
  Qed.

  (** ** The theorem *)

  Context (ord : exprs -> st -> bool).
  Notation eval_any := (eval_any sc ext fuel ord).
  Notation lvalue_any := (lvalue_any sc ext fuel ord).
  Notation evals_any := (evals_any sc ext fuel ord).
  Notation exec_any := (exec_any sc ext fuel ord).
  Notation call_any := (call_any sc ext fuel ord).

  Lemma in_order_ok {A B} f fa g ga b (s : st) (v1 : A) s1 (v2 : B) s2 :
    commute f g ->
    (forall s r, f s = Ok r -> fa s = Ok r) -> (forall s r, g s = Ok r -> ga s = Ok r) ->
    f s = Ok (v1, s1) -> g s1 = Ok (v2, s2) ->
    in_order b fa ga s = Ok (v1, v2, s2).
  Proof.
    intros Hc Hf Hg H1 H2. unfold in_order. destruct b.
    - rewrite (Hf _ _ H1). cbn [bind]. rewrite (Hg _ _ H2). reflexivity.
    - destruct (Hc _ _ _ _ _ H1 H2) as (s' & H3 & H4).
      rewrite (Hg _ _ H3). cbn [bind]. rewrite (Hf _ _ H4). reflexivity.
  Qed.
  Lemma in_order_inv {A B} f fa g ga b (s : st) (v1 : A) (v2 : B) s2 :
    commute g f ->
    (forall s r, fa s = Ok r -> f s = Ok r) -> (forall s r, ga s = Ok r -> g s = Ok r) ->
    in_order b fa ga s = Ok (v1, v2, s2) ->
    exists s1, f s = Ok (v1, s1) /\ g s1 = Ok (v2, s2).
  Proof.
    intros Hc Hf Hg H. unfold in_order in H. destruct b.
    - inv1. destruct a as [x s1]. inv1. destruct a as [y s3]. inv1. inv1. eauto.
    - inv1. destruct a as [x s1]. inv1. destruct a as [y s3]. inv1. inv1.
      exact (Hc _ _ _ _ _ (Hg _ _ X) (Hf _ _ X0)).
  Qed.

  Lemma order_ok :
    (forall e, ok_e e = true -> forall s r, eval e s = Ok r -> eval_any e s = Ok r) /\
    (forall l, ok_l l = true -> forall s r, lvalue l s = Ok r -> lvalue_any l s = Ok r) /\
    (forall es, ok_es es = true -> forall s r, evals es s = Ok r -> evals_any es s = Ok r) /\
    (forall c, ok_s c = true -> forall s r, exec c s = Ok r -> exec_any c s = Ok r) /\
    (forall f, ok_f f = true -> forall args m w r,
       call f args m w = Ok r -> call_any f args m w = Ok r).
  Proof.
    Ltac fwd :=
      match goal with
      | H : bind ?e _ = Ok _ |- _ =>
          let X := fresh "X" in
          destruct e as [?|?|] eqn:X; cbn [bind] in H; [|discriminate H|discriminate H]
      | p : (_ * _)%type |- _ => destruct p
      | H : Ok _ = Ok _ |- _ => injection H; clear H; intros; subst
      | H : ?x = Ok ?y |- context [?x] => rewrite H; cbn [bind]
      | IH : forall s r, ?f s = Ok r -> ?g s = Ok r, H : ?f ?s = Ok _ |- context [?g ?s] =>
          rewrite (IH _ _ H); cbn [bind]
      | IH : forall a m w r, ?f a m w = Ok r -> ?g a m w = Ok r, H : ?f ?a ?m ?w = Ok _ |- context [?g ?a ?m ?w] =>
          rewrite (IH _ _ _ _ H); cbn [bind]
      | H : free ?a ?b = true |- context [in_order ?o (eval_any ?a) (eval_any ?b) ?s] =>
          erewrite (in_order_ok (eval a) _ (eval b) _ o s); [|apply (free_ok _ _ H)|eassumption..];
          cbn [bind]
      | H : free_l ?a ?b = true |- context [in_order ?o (lvalue_any ?a) (eval_any ?b) ?s] =>
          erewrite (in_order_ok (lvalue a) _ (eval b) _ o s); [|apply (free_l_ok _ _ H)|eassumption..];
          cbn [bind]
      | H : free_es ?a ?b = true |- context [in_order ?o (eval_any ?a) (evals_any ?b) ?s] =>
          erewrite (in_order_ok (eval a) _ (evals b) _ o s); [|apply (free_es_ok _ _ H)|eassumption..];
          cbn [bind]
      | H : (match ?x with _ => _ end) = Ok _ |- _ => destruct x eqn:?; try discriminate H
      end.
    apply clang_ind; intros; cbn [ok_e ok_l ok_es ok_s ok_f] in *;
      repeat match goal with H : andb _ _ = true |- _ => apply andb_prop in H as [? ?] end;
      use_ih;
      try match goal with s : st |- _ => destruct s as [[? ?] ?] end;
      step;
      cbn [CLangOrder.eval_any CLangOrder.lvalue_any CLangOrder.evals_any CLangOrder.exec_any
           CLangOrder.call_any] in *;
      fold eval_any in *; fold lvalue_any in *; fold evals_any in *; fold exec_any in *;
      fold call_any in *.
    all: try solve [repeat fwd; try reflexivity; auto].
    - (* l op= e *)
      inv1. destruct a as [lc s1]. inv1. inv1. destruct a0 as [v2 s2]. inv1. inv1. inv1.
      erewrite (in_order_ok (read_l l) _ (eval e) _ _ _ (lc, a) s1);
        [|apply (free_op_ok _ _ H1)| |eassumption|unfold read_l; rewrite X; cbn [bind]; rewrite X0; reflexivity|eassumption].
      2: { intros s r Hr. unfold read_l in Hr. inv1. destruct a2 as [lc' s']. inv1. inv1.
           rewrite (H _ _ X4). cbn [bind]. rewrite X5. reflexivity. }
      cbn [bind]. rewrite X2. cbn [bind]. rewrite X3. reflexivity.
    - (* loop *)
      destruct r as [r s']. eapply loop_mono; [|eassumption].
      clear H2. intros [[E m] w'] x Hx. cbn beta iota in *. repeat fwd; reflexivity.
    - repeat fwd; cbn [bind]; repeat fwd; reflexivity.
  Qed.

  Lemma read_l_inv l :
    (forall s r, lvalue_any l s = Ok r -> lvalue l s = Ok r) ->
    forall s r,
      (let! '(lc, s) := lvalue_any l s in let! v := get_loc sc lc s in Ok ((lc, v), s)) = Ok r ->
      read_l l s = Ok r.
  Proof.
    intros H s r Hr. unfold read_l. destruct (lvalue_any l s) as [[lc s']| |] eqn:X; try discriminate.
    rewrite (H _ _ X). exact Hr.
  Qed.

  Lemma order_inv :
    (forall e, ok_e e = true -> forall (s : st) r, eval_any e s = Ok r -> eval e s = Ok r) /\
    (forall l, ok_l l = true -> forall (s : st) r, lvalue_any l s = Ok r -> lvalue l s = Ok r) /\
    (forall es, ok_es es = true -> forall (s : st) r, evals_any es s = Ok r -> evals es s = Ok r) /\
    (forall c, ok_s c = true -> forall (s : st) r, exec_any c s = Ok r -> exec c s = Ok r) /\
    (forall f, ok_f f = true -> forall args m w r,
       call_any f args m w = Ok r -> call f args m w = Ok r).
  Proof.
    Ltac bwd :=
      match goal with
      | X : in_order _ (eval_any ?a) (eval_any ?b) ?s = Ok (_, _, _), H : free ?a ?b = true |- _ =>
          let H1 := fresh in let H2 := fresh in
          destruct (in_order_inv (eval a) _ (eval b) _ _ _ _ _ _ (proj2 (free_ok _ _ H)) ltac:(eassumption) ltac:(eassumption) X)
            as (? & H1 & H2); clear X; rewrite H1; cbn [bind]; rewrite H2; cbn [bind]
      | X : in_order _ (lvalue_any ?a) (eval_any ?b) ?s = Ok (_, _, _), H : free_l ?a ?b = true |- _ =>
          let H1 := fresh in let H2 := fresh in
          destruct (in_order_inv (lvalue a) _ (eval b) _ _ _ _ _ _ (proj2 (free_l_ok _ _ H)) ltac:(eassumption) ltac:(eassumption) X)
            as (? & H1 & H2); clear X; rewrite H1; cbn [bind]; rewrite H2; cbn [bind]
      | X : in_order _ (eval_any ?a) (evals_any ?b) ?s = Ok (_, _, _), H : free_es ?a ?b = true |- _ =>
          let H1 := fresh in let H2 := fresh in
          destruct (in_order_inv (eval a) _ (evals b) _ _ _ _ _ _ (proj2 (free_es_ok _ _ H)) ltac:(eassumption) ltac:(eassumption) X)
            as (? & H1 & H2); clear X; rewrite H1; cbn [bind]; rewrite H2; cbn [bind]
      | H : bind ?e _ = Ok _ |- _ =>
          let X := fresh "X" in
          destruct e as [?|?|] eqn:X; cbn [bind] in H; [|discriminate H|discriminate H]
      | p : (_ * _)%type |- _ => destruct p
      | H : Ok _ = Ok _ |- _ => injection H; clear H; intros; subst
      | H : ?x = Ok ?y |- context [?x] => rewrite H; cbn [bind]
      | IH : forall s r, ?f s = Ok r -> ?g s = Ok r, H : ?f ?s = Ok _ |- context [?g ?s] =>
          rewrite (IH _ _ H); cbn [bind]
      | IH : forall a m w r, ?f a m w = Ok r -> ?g a m w = Ok r, H : ?f ?a ?m ?w = Ok _ |- context [?g ?a ?m ?w] =>
          rewrite (IH _ _ _ _ H); cbn [bind]
      | H : (match ?x with _ => _ end) = Ok _ |- _ => destruct x eqn:?; try discriminate H
      end.
    apply clang_ind; intros; cbn [ok_e ok_l ok_es ok_s ok_f] in *;
      repeat match goal with H : andb _ _ = true |- _ => apply andb_prop in H as [? ?] end;
      use_ih;
      try match goal with s : st |- _ => destruct s as [[? ?] ?] end;
      step;
      cbn [CLangOrder.eval_any CLangOrder.lvalue_any CLangOrder.evals_any CLangOrder.exec_any
           CLangOrder.call_any] in *;
      fold eval_any in *; fold lvalue_any in *; fold evals_any in *; fold exec_any in *;
      fold call_any in *.
    all: try solve [repeat bwd; try reflexivity; auto].
    - (* l op= e *)
      destruct (in_order _ _ _ _) as [[[[lc v1] v2] s2]| |] eqn:X;
        cbn [bind] in H2; [|discriminate H2|discriminate H2].
      destruct (in_order_inv (read_l l) _ (eval e) _ _ _ _ _ _ (proj2 (free_op_ok _ _ H1))
                  (read_l_inv l H) H0 X) as (s1 & Hr & He).
      unfold read_l in Hr. destruct (lvalue l _) as [[lc' s']| |]; try discriminate.
      cbn [bind] in *. destruct (get_loc sc lc' s') as [v'| |] eqn:G; try discriminate.
      cbn [bind] in Hr. injection Hr as -> -> ->.
      cbn [bind]. rewrite He. cbn [bind]. exact H2.
    - (* loop *)
      destruct r as [r s']. eapply loop_mono; [|eassumption].
      clear H2. intros [[E m] w'] x Hx. cbn beta iota in *. repeat bwd; reflexivity.
    - repeat bwd; cbn [bind]; repeat bwd; reflexivity.
  Qed.
End keep.

Lemma all_ok :
  forallb (fun '(_, l) => forallb (fun '(_, _, d) => ok_f d) l) c_program = true.
Proof. vm_compute. reflexivity. Qed.

Lemma order_program {W} sc ext fuel ord f l x st d args (m : mem) (w : W) r :
  In (f, l) c_program -> In (x, st, d) l ->
  call sc ext fuel d args m w = Ok r <-> call_any sc ext fuel ord d args m w = Ok r.
Proof.
  intros H1 H2. pose proof all_ok as H. rewrite forallb_forall in H.
  specialize (H _ H1). cbn beta iota in H. rewrite forallb_forall in H. specialize (H _ H2).
  cbn beta iota in H. split.
  - apply (order_ok sc ext fuel ord). exact H.
  - apply (order_inv sc ext fuel ord). exact H.
Qed.
