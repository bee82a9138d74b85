(** * Proofs for [Props_Interp.v]: facts about the interpreter of [CLang] that hold of every
    program: more fuel changes nothing, and no call leaves an object behind *)
From Verif Require Import Drive_Front.
From Verif Require Import CSem Lib CLang Proof_EvalOrder.
Local Open Scope Z_scope.

(** ** Fuel *)

Definition ole {A} (x y : outcome A) : Prop := x = Diverge \/ x = y.
Lemma ole_refl {A} (x : outcome A) : ole x x.
Proof. right. reflexivity. Qed.
Lemma ole_bind {A B} (x y : outcome A) (f g : A -> outcome B) :
  ole x y -> (forall a, ole (f a) (g a)) -> ole (bind x f) (bind y g).
Proof. intros [->| ->] H; [left; reflexivity|]. destruct y; cbn; auto using ole_refl. Qed.

Lemma ole_loop {S} n n' (f g : S -> outcome (looped S)) :
  (n <= n')%nat -> (forall s, ole (f s) (g s)) -> forall s, ole (loop n f s) (loop n' g s).
Proof.
  intros Hn H. revert n' Hn. induction n as [|n IH]; intros n' Hn s; [left; reflexivity|].
  destruct n' as [|n']; [lia|]. cbn [loop]. apply ole_bind; [apply H|].
  intros []; [apply IH; lia|apply ole_refl].
Qed.

Section fuel.
  Context {W : Type} (sc : bool)
          (ext : Z -> list val -> mem -> W -> outcome (val * mem * W)) (n n' : nat).
  Hypothesis Hn : (n <= n')%nat.
  Notation st := (@CLang.st W).

  Lemma fuel_ole :
    (forall e (s : st), ole (eval sc ext n e s) (eval sc ext n' e s)) /\
    (forall l (s : st), ole (lvalue sc ext n l s) (lvalue sc ext n' l s)) /\
    (forall es (s : st), ole (evals sc ext n es s) (evals sc ext n' es s)) /\
    (forall c (s : st), ole (exec sc ext n c s) (exec sc ext n' c s)) /\
    (forall f args m w, ole (call sc ext n f args m w) (call sc ext n' f args m w)).
  Proof.
    apply clang_ind; intros; try (destruct s as [[E m] w]);
      cbn [eval lvalue evals exec call];
      fold (eval sc ext n); fold (lvalue sc ext n); fold (evals sc ext n); fold (exec sc ext n);
      fold (call sc ext n);
      fold (eval sc ext n'); fold (lvalue sc ext n'); fold (evals sc ext n'); fold (exec sc ext n');
      fold (call sc ext n').
    all: repeat first
      [ apply ole_refl
      | match goal with IH : forall s, ole (?f s) _ |- ole (?f _) _ => apply IH end
      | match goal with IH : forall a m w, ole (?f a m w) _ |- ole (?f _ _ _) _ => apply IH end
      | apply ole_bind; [|intros]
      | apply ole_loop; [exact Hn|intros]
      | match goal with |- context [match ?x with _ => _ end] => is_var x; destruct x end ].
  Qed.
End fuel.

Lemma more_fuel {W} sc ext n n' f args m (w : W) :
  (n <= n')%nat -> call sc ext n f args m w <> Diverge ->
  call sc ext n' f args m w = call sc ext n f args m w.
Proof.
  intros Hn H. destruct (fuel_ole (W := W) sc ext n n' Hn) as (_ & _ & _ & _ & Hf).
  destruct (Hf f args m w) as [E|E]; [contradiction|]. symmetry. exact E.
Qed.

Lemma same_result {W} sc ext n n' f args m (w : W) :
  call sc ext n f args m w <> Diverge -> call sc ext n' f args m w <> Diverge ->
  call sc ext n f args m w = call sc ext n' f args m w.
Proof.
  intros H H'. destruct (Nat.le_ge_cases n n') as [L|L].
  - symmetry. apply more_fuel; assumption.
  - apply more_fuel; assumption.
Qed.

(** ** Objects *)

(** the sizes of the objects in memory *)
Notation sizes m := (map (@length cell) m).

(** declares an object that is still there when the statement ends *)
Fixpoint decl (c : stmt) : bool :=
  match c with
  | SMem _ _ | SArr _ _ => true
  | SSeq a b | SIf _ a b => decl a || decl b
  | SBlock objs s => negb objs && decl s
  | _ => false
  end.
(** a loop and a function leave nothing behind *)
Fixpoint tidy_e (e : expr) : bool :=
  match e with
  | ECst _ _ | EData _ _ => true
  | ELv l | EAddr l | EInc _ _ l => tidy_l l
  | EUn _ a | ECast _ a => tidy_e a
  | EBin _ a b | EAnd a b | EOr a b => tidy_e a && tidy_e b
  | ECond c a b => tidy_e c && tidy_e a && tidy_e b
  | ECall f args => tidy_f f && tidy_es args
  | ECallPtr f args => tidy_e f && tidy_es args
  | ELib _ args => tidy_es args
  end
with tidy_l (l : lval) : bool :=
  match l with
  | LVar _ _ => true
  | LDeref e => tidy_e e
  | LIndex a i => tidy_e a && tidy_e i
  | LField l _ _ => tidy_l l
  end
with tidy_es (es : exprs) : bool :=
  match es with ENil => true | ECons e es => tidy_e e && tidy_es es end
with tidy_s (c : stmt) : bool :=
  match c with
  | SSkip | SVar _ | SBreak | SArr _ _ => true
  | SSeq a b => tidy_s a && tidy_s b
  | SExpr e | SInit _ e | SMem _ e | SReturn e => tidy_e e
  | SSet l e | SOp _ l e => tidy_l l && tidy_e e
  | SIf c a b => tidy_e c && tidy_s a && tidy_s b
  | SLoop c a b => tidy_e c && tidy_s a && tidy_s b && negb (decl a) && negb (decl b)
  | SBlock _ s => tidy_s s
  end
with tidy_f (f : fundef) : bool :=
  match f with FDef _ _ b => tidy_s b && negb (decl b) end.

Lemma sizes_insert (m : mem) n cs cs' :
  m !! n = Some cs -> length cs' = length cs -> sizes (<[n := cs']> m) = sizes m.
Proof.
  intros H HL. revert n H. induction m as [|c m IH]; intros [|n] H; cbn in *; try discriminate.
  - injection H as ->. rewrite HL. reflexivity.
  - f_equal. apply IH. exact H.
Qed.

Lemma sizes_mstore m t b o v m' : mstore m t b o v = Ok m' -> sizes m' = sizes m.
Proof.
  intros H. unfold mstore in H. destruct b as [n|]; [|discriminate]. inv.
  unfold block in X. destruct (m !! n) eqn:B; [|discriminate]. inv.
  apply (sizes_insert _ _ _ _ B).
  unfold store in X2. destruct (_ && _); inv. apply insert_length.
Qed.

Lemma sizes_copy m db d sb s n m' : copy m db d sb s n = Ok m' -> sizes m' = sizes m.
Proof.
  intros H. unfold copy in H. destruct (block m db) as [dc| |] eqn:X; cbn [bind] in H; try discriminate.
  destruct (block m sb) as [sc| |]; cbn [bind] in H; try discriminate.
  destruct (in_range dc d n && in_range sc s n) eqn:R; [|discriminate].
  destruct (same_blk db sb && _); [discriminate H|].
  destruct (forallb _ _ && _); [|discriminate H].
  destruct db as [k|]; [|discriminate]. injection H as <-.
  unfold block in X. destruct (m !! k) eqn:B; [|discriminate]. injection X as ->.
  apply (sizes_insert _ _ _ _ B). unfold in_range in R. rewrite !andb_true_iff in R.
  unfold write, slice, len in *. rewrite !app_length, !take_length, !drop_length. lia.
Qed.

Lemma sizes_lib f vs m v m' : lib f vs m = Ok (v, m') -> sizes m' = sizes m.
Proof.
  intros H. destruct (lib_ro f) eqn:R; [f_equal; exact (lib_keep _ _ _ _ _ R H)|].
  destruct f; try discriminate; unfold lib in H.
  - destruct vs as [|[] [|[] [|[] [|]]]]; inv. eauto using sizes_copy.
  - destruct vs as [|[] [|[] [|]]]; inv. eauto using sizes_copy.
Qed.

Section sizes.
  Context {W : Type} (sc : bool)
          (ext : Z -> list val -> mem -> W -> outcome (val * mem * W)) (fuel : nat).
  Hypothesis Hext : forall f vs m w v m' w',
    ext f vs m w = Ok (v, m', w') -> sizes m' = sizes m.
  Notation eval := (eval sc ext fuel).
  Notation lvalue := (lvalue sc ext fuel).
  Notation evals := (evals sc ext fuel).
  Notation exec := (exec sc ext fuel).
  Notation call := (call sc ext fuel).
  Notation st := (@CLang.st W).
  Ltac step :=
    cbn [CLang.eval CLang.lvalue CLang.evals CLang.exec CLang.call] in *;
    fold eval in *; fold lvalue in *; fold evals in *; fold exec in *; fold call in *.

  Lemma sizes_set l v E m (w : W) E' m' w' :
    set_loc sc l v (E, m, w) = Ok (E', m', w') -> sizes m' = sizes m.
  Proof. unfold set_loc. destruct l; intros H; inv; [reflexivity|]. eauto using sizes_mstore. Qed.

  Lemma keep_sizes :
    (forall e, tidy_e e = true -> forall E m w v E' m' w',
       eval e (E, m, w) = Ok (v, (E', m', w')) -> sizes m' = sizes m) /\
    (forall l, tidy_l l = true -> forall E m w v E' m' w',
       lvalue l (E, m, w) = Ok (v, (E', m', w')) -> sizes m' = sizes m) /\
    (forall es, tidy_es es = true -> forall E m w v E' m' w',
       evals es (E, m, w) = Ok (v, (E', m', w')) -> sizes m' = sizes m) /\
    (forall c, tidy_s c = true -> forall E m w v E' m' w',
       exec c (E, m, w) = Ok (v, (E', m', w')) ->
       exists k, sizes m' = sizes m ++ k /\ (decl c = false -> k = [])) /\
    (forall f, tidy_f f = true -> forall args m w v m' w',
       call f args m w = Ok (v, m', w') -> sizes m' = sizes m).
  Proof.
    Ltac use_ih :=
      repeat match goal with
      | IH : true = true -> _ |- _ => specialize (IH eq_refl)
      | IH : ?b = true -> _, H : ?b = true |- _ => specialize (IH H)
      end.
    Ltac apply_sz :=
      match goal with
      | IH : forall E m w v E' m' w', ?f _ = Ok (v, (E', m', w')) -> map _ m' = map _ m,
        H : ?f _ = Ok (_, (_, _, _)) |- _ => apply IH in H
      | IH : forall E m w v E' m' w', ?f _ = Ok (v, (E', m', w')) -> exists _, _,
        H : ?f _ = Ok (_, (_, _, _)) |- _ =>
          let k := fresh "k" in let A := fresh "A" in let B := fresh "B" in
          apply IH in H as (k & A & B)
      | IH : forall args m w v m' w', ?f args m w = Ok (v, m', w') -> map _ m' = map _ m,
        H : ?f _ _ _ = Ok (_, _, _) |- _ => apply IH in H
      | H : lib _ _ _ = Ok (_, _) |- _ => apply sizes_lib in H
      | H : ext _ _ _ _ = Ok _ |- _ => apply Hext in H
      | H : set_loc _ _ _ _ = Ok _ |- _ => apply sizes_set in H
      end.
    Ltac crush := repeat first [progress inv | apply_sz | split_match].
    apply clang_ind; intros; cbn [tidy_e tidy_l tidy_es tidy_s tidy_f decl] in *; inv; step; use_ih.
    all: try solve [crush; try discriminate; congruence].
    all: try solve [crush; try discriminate; exists []; rewrite app_nil_r; split; [congruence|auto]].
    - (* a; b *)
      crush.
      + exists (k ++ k0). split; [rewrite A0, A, app_assoc; reflexivity|].
        intros D. apply orb_false_iff in D as [D1 D2]. rewrite B, B0 by assumption. reflexivity.
      + exists k. split; [exact A|]. intros D. apply orb_false_iff in D as [D1 D2]. auto.
      + exists k. split; [exact A|]. intros D. apply orb_false_iff in D as [D1 D2]. auto.
    - (* one object *)
      crush. rewrite map_app. cbn [map]. eexists. split; [rewrite X; reflexivity|discriminate].
    - (* an array *)
      crush. rewrite map_app. cbn [map]. eexists. split; [reflexivity|discriminate].
    - (* if *)
      crush.
      + exists k. split; [congruence|]. intros D. apply orb_false_iff in D as [D1 D2]. auto.
      + exists k. split; [congruence|]. intros D. apply orb_false_iff in D as [D1 D2]. auto.
    - (* loop *)
      rewrite negb_true_iff in *.
      match goal with H : loop _ _ _ = Ok (_, _) |- _ =>
        apply (loop_keep (fun s => sizes (snd (fst s)) = sizes m)) in H;
          [exists []; rewrite app_nil_r; auto| |reflexivity] end.
      intros [[E0 m0] w0] x Hp Hx. cbn [fst snd] in Hp. crush; cbn [fst snd];
        repeat match goal with B : decl ?c = false -> ?k = [], D : decl ?c = false |- _ =>
          specialize (B D); subst; rewrite app_nil_r in * end; congruence.
    - (* block *)
      crush. unfold leave in *. inv. destruct objs.
      + exists []. rewrite app_nil_r. split; [|reflexivity].
        rewrite <- firstn_map. fold (take (A := nat)). rewrite A.
        rewrite <- (map_length (@length cell) m) at 1. apply take_app.
      + exists k. split; [exact A|]. intros D. auto.
    - (* call *)
      rewrite negb_true_iff in *. crush.
      all: specialize (B ltac:(assumption)); subst; rewrite app_nil_r in *; congruence.
  Qed.
End sizes.

Lemma all_tidy :
  forallb (fun '(_, l) => forallb (fun '(_, _, d) => tidy_f d) l) c_program = true.
Proof. vm_compute. reflexivity. Qed.

Lemma sizes_program {W} sc ext fuel f l x st d args (m : mem) (w : W) v m' w' :
  (forall f vs m w v m' w', ext f vs m w = Ok (v, m', w') -> sizes m' = sizes m) ->
  In (f, l) c_program -> In (x, st, d) l ->
  call sc ext fuel d args m w = Ok (v, m', w') -> sizes m' = sizes m.
Proof.
  intros Hext H1 H2. pose proof all_tidy as H. rewrite forallb_forall in H.
  specialize (H _ H1). cbn beta iota in H. rewrite forallb_forall in H. specialize (H _ H2).
  apply (keep_sizes sc ext fuel Hext). exact H.
Qed.
