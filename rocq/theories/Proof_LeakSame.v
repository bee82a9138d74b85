(** * The results with and without the list of events (for [Props_Leak.v]) *)
From Verif Require Import CSem Lib CLang CLeak Proof_EvalOrder.

Section same.
  Context {W : Type} (sc : bool)
          (ext : Z -> list val -> mem -> W -> outcome (val * mem * W)) (fuel : nat).
  Notation lst := (@st (W * trace)).

  Definition hide (s : lst) : st := let '(E, m, (w, _)) := s in (E, m, w).
  Definition hidden {A} (o : outcome (A * lst)) : outcome (A * st) :=
    let! '(a, s) := o in Ok (a, hide s).
  Definition hide_loop (o : outcome (looped lst)) : outcome (looped (@st W)) :=
    let! x := o in match x with Again s => Ok (Again (hide s)) | Done r s => Ok (Done r (hide s)) end.

  Lemma hide_note e s : hide (note e s) = hide s.
  Proof. by destruct s as [[E m] [w t]]. Qed.
  Lemma hide_loc l s : hide (note_loc l s) = hide s.
  Proof. destruct l; [done|apply hide_note]. Qed.
  Lemma hide_op op a b s : hide (note_op op a b s) = hide s.
  Proof. destruct op; try done; apply hide_note. Qed.
  Lemma hide_get l s : get_loc sc l (hide s) = get_loc sc l s.
  Proof. by destruct s as [[E m] [w t]]. Qed.
  Lemma hide_lget l s : hidden (lget sc l s) = (let! v := get_loc sc l (hide s) in Ok (v, hide s)).
  Proof. unfold lget, hidden. rewrite hide_get. destruct (get_loc sc l s); cbn; [|done..]. by rewrite hide_loc. Qed.
  Lemma hide_lset l v s : (let! s := lset sc l v s in Ok (hide s)) = set_loc sc l v (hide s).
  Proof.
    unfold lset. destruct s as [[E m] [w t]], l; cbn.
    - by destruct (to_type sc t0 v).
    - destruct (to_type sc t0 v); cbn; [|done..]. by destruct (mstore m t0 b o a).
  Qed.
  Lemma hide_step d v s : step_val sc d v (hide s) = step_val sc d v s.
  Proof. by destruct s as [[E m] [w t]]. Qed.
  Lemma hide_check s b o : check_ptr (snd (fst (hide s))) b o = check_ptr (snd (fst s)) b o.
  Proof. by destruct s as [[E m] [w t]]. Qed.
  Lemma hide_branch v s : hidden (lbranch v s) = (let! c := truth v in Ok (c, hide s)).
  Proof. unfold lbranch, hidden. destruct (truth v); cbn; [|done..]. by rewrite hide_note. Qed.
  Lemma hide_leave o s s' : hide (leave o s s') = leave o (hide s) (hide s').
  Proof. by destruct s as [[E m] [w t]], s' as [[E' m'] [w' t']]. Qed.
  Lemma hidden_bind {A B} (o : outcome (A * lst)) (k : A -> lst -> outcome (B * lst)) :
    hidden (let! '(a, s) := o in k a s) = let! '(a, s) := o in hidden (k a s).
  Proof. destruct o as [[a s]| |]; reflexivity. Qed.
  Lemma bind_hidden {A B} (o : outcome (A * lst)) (k : A -> @st W -> outcome B) :
    (let! '(a, s) := hidden o in k a s) = let! '(a, s) := o in k a (hide s).
  Proof. destruct o as [[a s]| |]; reflexivity. Qed.
  Lemma hide_loop_ok (f : lst -> outcome (looped lst)) (g : @st W -> outcome (looped (@st W))) :
    (forall s, g (hide s) = hide_loop (f s)) ->
    forall n s, loop n g (hide s) = hidden (loop n f s).
  Proof.
    intros Hf n. induction n as [|n IH]; intros s; [done|]. cbn. rewrite Hf.
    destruct (f s) as [[s1|r s1]| |]; cbn; [apply IH|done..].
  Qed.

  Definition QE (e : expr) : Prop := forall s,
    eval sc ext fuel e (hide s) = hidden (leval sc ext fuel e s).
  Definition QL (l : lval) : Prop := forall s,
    lvalue sc ext fuel l (hide s) = hidden (llvalue sc ext fuel l s).
  Definition QEs (es : exprs) : Prop := forall s,
    evals sc ext fuel es (hide s) = hidden (levals sc ext fuel es s).
  Definition QS (c : stmt) : Prop := forall s,
    exec sc ext fuel c (hide s) = hidden (lexec sc ext fuel c s).
  Definition QF (f : fundef) : Prop := forall vs m w t,
    call sc ext fuel f vs m w
    = let! '(v, m, (w, _)) := lcall sc ext fuel f vs m (w, t) in Ok (v, m, w).

  Ltac go := cbn -[hidden lget lset lbranch get_loc set_loc step_val loop check_ptr unary binary to_type
    truth note note_op note_loc leave deref_at bind to_types lib raw];
    fold (eval sc ext fuel); fold (lvalue sc ext fuel); fold (evals sc ext fuel); fold (exec sc ext fuel);
    fold (call sc ext fuel); fold (leval sc ext fuel); fold (llvalue sc ext fuel);
    fold (levals sc ext fuel); fold (lexec sc ext fuel); fold (lcall sc ext fuel).

  Lemma run_same : (forall e, QE e) /\ (forall l, QL l) /\ (forall es, QEs es) /\ (forall c, QS c) /\
    (forall f, QF f).
  Proof.
    apply clang_ind; unfold QE, QL, QEs, QS, QF.
    - intros t z [[E m] [w tr]]. reflexivity.
    - intros t l [[E m] [w tr]]. reflexivity.
    - intros l IH [[E m] [w tr]]. go. change (E, m, w) with (hide (E, m, (w, tr))).
      rewrite IH, bind_hidden, hidden_bind. destruct (llvalue _ _ _ l _) as [[lc s]| |]; cbn [bind]; [|done..].
      by rewrite hide_lget.
    - intros l IH [[E m] [w tr]]. go. change (E, m, w) with (hide (E, m, (w, tr))).
      rewrite IH, bind_hidden, hidden_bind. destruct (llvalue _ _ _ l _) as [[lc s]| |]; cbn [bind]; [|done..].
      destruct lc; [done|]. rewrite hide_check. by destruct (check_ptr _ _ _).
    - intros op a IH [[E m] [w tr]]. go. change (E, m, w) with (hide (E, m, (w, tr))).
      rewrite IH, bind_hidden, hidden_bind. destruct (leval _ _ _ a _) as [[v s]| |]; cbn [bind]; [|done..].
      by destruct (unary _ _ _).
    - intros op a IHa b IHb [[E m] [w tr]]. go. change (E, m, w) with (hide (E, m, (w, tr))).
      rewrite IHa, bind_hidden, hidden_bind. destruct (leval _ _ _ a _) as [[v s]| |]; cbn [bind]; [|done..].
      rewrite IHb, bind_hidden, hidden_bind. destruct (leval _ _ _ b _) as [[v2 s2]| |]; cbn [bind]; [|done..].
      destruct (binary _ _ _ _); cbn; [|done..]. by rewrite hide_op.
    - intros a IHa b IHb [[E m] [w tr]]. go. change (E, m, w) with (hide (E, m, (w, tr))).
      rewrite IHa, bind_hidden, hidden_bind. destruct (leval _ _ _ a _) as [[v s]| |]; cbn [bind]; [|done..].
      rewrite hidden_bind. unfold lbranch. destruct (truth v) as [c| |]; cbn [bind]; [|done..].
      destruct c.
      + rewrite <- (hide_note (EvBranch true)), IHb, bind_hidden, hidden_bind.
        destruct (leval _ _ _ b _) as [[v2 s2]| |]; cbn [bind]; [|done..]. by destruct (truth v2).
      + cbn. by rewrite hide_note.
    - intros a IHa b IHb [[E m] [w tr]]. go. change (E, m, w) with (hide (E, m, (w, tr))).
      rewrite IHa, bind_hidden, hidden_bind. destruct (leval _ _ _ a _) as [[v s]| |]; cbn [bind]; [|done..].
      rewrite hidden_bind. unfold lbranch. destruct (truth v) as [c| |]; cbn [bind]; [|done..].
      destruct c.
      + cbn. by rewrite hide_note.
      + rewrite <- (hide_note (EvBranch false)), IHb, bind_hidden, hidden_bind.
        destruct (leval _ _ _ b _) as [[v2 s2]| |]; cbn [bind]; [|done..]. by destruct (truth v2).
    - intros c IHc a IHa b IHb [[E m] [w tr]]. go. change (E, m, w) with (hide (E, m, (w, tr))).
      rewrite IHc, bind_hidden, hidden_bind. destruct (leval _ _ _ c _) as [[v s]| |]; cbn [bind]; [|done..].
      rewrite hidden_bind. unfold lbranch. destruct (truth v) as [k| |]; cbn [bind]; [|done..].
      destruct k.
      + by rewrite <- (hide_note (EvBranch true)), IHa.
      + by rewrite <- (hide_note (EvBranch false)), IHb.
    - intros t a IH [[E m] [w tr]]. go. change (E, m, w) with (hide (E, m, (w, tr))).
      rewrite IH, bind_hidden, hidden_bind. destruct (leval _ _ _ a _) as [[v s]| |]; cbn [bind]; [|done..].
      by destruct (to_type _ _ _).
    - intros pre d l IH [[E m] [w tr]]. go. change (E, m, w) with (hide (E, m, (w, tr))).
      rewrite IH, bind_hidden, hidden_bind. destruct (llvalue _ _ _ l _) as [[lc s]| |]; cbn [bind]; [|done..].
      rewrite hidden_bind. unfold lget. rewrite hide_get. destruct (get_loc sc lc s) as [v| |]; cbn [bind]; [|done..].
      rewrite <- (hide_loc lc), hide_step. destruct (step_val _ _ _ _) as [v'| |]; cbn [bind]; [|done..].
      rewrite <- hide_lset. destruct (lset _ _ _ _) as [s2| |]; cbn [bind]; [|done..].
      destruct pre; [|done]. rewrite hide_get. by destruct (get_loc _ _ _).
    - intros f IHf args IH [[E m] [w tr]]. go. change (E, m, w) with (hide (E, m, (w, tr))).
      rewrite IH, bind_hidden, hidden_bind. destruct (levals _ _ _ args _) as [[vs [[E1 m1] [w1 t1]]]| |]; cbn [bind hide]; [|done..].
      rewrite (IHf _ _ _ t1). by destruct (lcall _ _ _ _ _ _ _) as [[[v m2] [w2 t2]]| |].
    - intros f IHf args IH [[E m] [w tr]]. go. change (E, m, w) with (hide (E, m, (w, tr))).
      rewrite IHf, bind_hidden, hidden_bind. destruct (leval _ _ _ f _) as [[v s]| |]; cbn [bind]; [|done..].
      rewrite IH, bind_hidden, hidden_bind. destruct (levals _ _ _ args _) as [[vs [[E1 m1] [w1 t1]]]| |]; cbn [bind hide]; [|done..].
      destruct v; try done. by destruct (ext _ _ _ _) as [[[v m2] w2]| |].
    - intros f args IH [[E m] [w tr]]. go. change (E, m, w) with (hide (E, m, (w, tr))).
      rewrite IH, bind_hidden, hidden_bind. destruct (levals _ _ _ args _) as [[vs [[E1 m1] [w1 t1]]]| |]; cbn [bind hide]; [|done..].
      by destruct (lib _ _ _) as [[v m2]| |].
    - intros n t [[E m] [w tr]]. reflexivity.
    - intros e IH [[E m] [w tr]]. go. change (E, m, w) with (hide (E, m, (w, tr))).
      rewrite IH, bind_hidden, hidden_bind. destruct (leval _ _ _ e _) as [[v s]| |]; cbn [bind]; [|done..].
      by destruct (deref_at _ _).
    - intros a IHa i IHi [[E m] [w tr]]. go. change (E, m, w) with (hide (E, m, (w, tr))).
      rewrite IHa, bind_hidden, hidden_bind. destruct (leval _ _ _ a _) as [[v s]| |]; cbn [bind]; [|done..].
      rewrite IHi, bind_hidden, hidden_bind. destruct (leval _ _ _ i _) as [[n s2]| |]; cbn [bind]; [|done..].
      destruct n; try done. by destruct (deref_at _ _).
    - intros l IH k t [[E m] [w tr]]. go. change (E, m, w) with (hide (E, m, (w, tr))).
      rewrite IH, bind_hidden, hidden_bind. destruct (llvalue _ _ _ l _) as [[lc s]| |]; cbn [bind]; [|done..].
      by destruct lc.
    - intros [[E m] [w tr]]. reflexivity.
    - intros e IHe es IHes [[E m] [w tr]]. go. change (E, m, w) with (hide (E, m, (w, tr))).
      rewrite IHe, bind_hidden, hidden_bind. destruct (leval _ _ _ e _) as [[v s]| |]; cbn [bind]; [|done..].
      rewrite IHes, bind_hidden, hidden_bind. by destruct (levals _ _ _ es _) as [[vs s2]| |].
    - intros [[E m] [w tr]]. reflexivity.
    - intros a IHa b IHb [[E m] [w tr]]. go. change (E, m, w) with (hide (E, m, (w, tr))).
      rewrite IHa, bind_hidden, hidden_bind. destruct (lexec _ _ _ a _) as [[r s]| |]; cbn [bind]; [|done..].
      destruct r; [apply IHb|done..].
    - intros e IH [[E m] [w tr]]. go. change (E, m, w) with (hide (E, m, (w, tr))).
      rewrite IH, bind_hidden, hidden_bind. by destruct (leval _ _ _ e _) as [[v s]| |].
    - intros l IHl e IHe [[E m] [w tr]]. go. change (E, m, w) with (hide (E, m, (w, tr))).
      rewrite IHl, bind_hidden, hidden_bind. destruct (llvalue _ _ _ l _) as [[lc s]| |]; cbn [bind]; [|done..].
      rewrite IHe, bind_hidden, hidden_bind. destruct (leval _ _ _ e _) as [[v s2]| |]; cbn [bind]; [|done..].
      rewrite <- hide_lset. by destruct (lset _ _ _ _).
    - intros op l IHl e IHe [[E m] [w tr]]. go. change (E, m, w) with (hide (E, m, (w, tr))).
      rewrite IHl, bind_hidden, hidden_bind. destruct (llvalue _ _ _ l _) as [[lc s]| |]; cbn [bind]; [|done..].
      rewrite hidden_bind. unfold lget. rewrite hide_get. destruct (get_loc sc lc s) as [v| |]; cbn [bind]; [|done..].
      rewrite <- (hide_loc lc), IHe, bind_hidden, hidden_bind.
      destruct (leval _ _ _ e _) as [[v2 s2]| |]; cbn [bind]; [|done..].
      destruct (binary _ _ _ _); cbn [bind]; [|done..].
      rewrite <- (hide_op op v v2 s2), <- hide_lset. by destruct (lset _ _ _ _).
    - intros t [[E m] [w tr]]. reflexivity.
    - intros t e IH [[E m] [w tr]]. go. change (E, m, w) with (hide (E, m, (w, tr))).
      rewrite IH, bind_hidden, hidden_bind. destruct (leval _ _ _ e _) as [[v [[E1 m1] [w1 t1]]]| |]; cbn [bind hide]; [|done..].
      by destruct (to_type _ _ _).
    - intros t e IH [[E m] [w tr]]. go. change (E, m, w) with (hide (E, m, (w, tr))).
      rewrite IH, bind_hidden, hidden_bind. destruct (leval _ _ _ e _) as [[v [[E1 m1] [w1 t1]]]| |]; cbn [bind hide]; [|done..].
      destruct (to_type _ _ _) as [[]| |]; done.
    - intros t l [[E m] [w tr]]. reflexivity.
    - intros c IHc a IHa b IHb [[E m] [w tr]]. go. change (E, m, w) with (hide (E, m, (w, tr))).
      rewrite IHc, bind_hidden, hidden_bind. destruct (leval _ _ _ c _) as [[v s]| |]; cbn [bind]; [|done..].
      rewrite hidden_bind. unfold lbranch. destruct (truth v) as [k| |]; cbn [bind]; [|done..].
      destruct k.
      + by rewrite <- (hide_note (EvBranch true)), IHa.
      + by rewrite <- (hide_note (EvBranch false)), IHb.
    - intros c IHc st IHst b IHb [[E m] [w tr]]. go. change (E, m, w) with (hide (E, m, (w, tr))).
      apply hide_loop_ok. intros s.
      rewrite IHc, bind_hidden. destruct (leval _ _ _ c _) as [[v s1]| |]; cbn [bind]; [|done..].
      unfold lbranch. destruct (truth v) as [k| |]; cbn [bind]; [|done..]. destruct k.
      + rewrite <- (hide_note (EvBranch true)), IHb, bind_hidden.
        destruct (lexec _ _ _ b _) as [[r s2]| |]; cbn [bind]; [|done..]. destruct r; [|done..].
        rewrite IHst, bind_hidden. by destruct (lexec _ _ _ st _) as [[r s3]| |].
      + cbn. by rewrite hide_note.
    - intros o b IH [[E m] [w tr]]. go. change (E, m, w) with (hide (E, m, (w, tr))).
      rewrite IH, bind_hidden, hidden_bind. destruct (lexec _ _ _ b _) as [[r s]| |]; cbn [bind]; [|done..].
      cbn [hidden bind]. by rewrite hide_leave.
    - intros [[E m] [w tr]]. reflexivity.
    - intros e IH [[E m] [w tr]]. go. change (E, m, w) with (hide (E, m, (w, tr))).
      rewrite IH, bind_hidden, hidden_bind. by destruct (leval _ _ _ e _) as [[v s]| |].
    - intros ps ret b IH vs m w t. go. destruct (to_types sc ps vs) as [E| |]; cbn [bind]; [|done..].
      change (E, m, w) with (hide (E, m, (w, t))). rewrite IH.
      destruct (lexec _ _ _ b _) as [[r [[E1 m1] [w1 t1]]]| |]; cbn [bind hidden hide]; [|done..].
      destruct r, ret; try done; by destruct (to_type _ _ _).
  Qed.
End same.

(** ** Functions that pass the check of [Proof_Leak] *)
From Verif Require Import Proof_Leak.

Lemma vrels_nil : vrels [] [] [].
Proof. repeat split; intros; by rewrite lookup_nil in *. Qed.
Lemma vrels_cons p v v' ps vs vs' : vrel p v v' -> vrels ps vs vs' -> vrels (p :: ps) (v :: vs) (v' :: vs').
Proof.
  intros Hv (H1 & H2 & H3). split; [cbn; by rewrite H1|]. split; [cbn; by rewrite H2|].
  intros [|n] q x x' Hq Hx Hx'; cbn in *; [by simplify_eq|by eapply H3].
Qed.

Section same_trace.
  Context {W : Type} (sc : bool)
          (ext : Z -> list val -> mem -> W -> outcome (val * mem * W)) (fuel : nat).

  Lemma call_same f vs m w t :
    call sc ext fuel f vs m w = let! '(v, m, (w, _)) := lcall sc ext fuel f vs m (w, t) in Ok (v, m, w).
  Proof. apply run_same. Qed.

  Lemma same_trace ps f vs vs' m m' w w' v v' m1 m1' w1 w1' :
    ct_f ps f = true -> vrels ps vs vs' -> same_shape m m' ->
    call sc ext fuel f vs m w = Ok (v, m1, w1) -> call sc ext fuel f vs' m' w' = Ok (v', m1', w1') ->
    exists t, lcall sc ext fuel f vs m (w, []) = Ok (v, m1, (w1, t)) /\
              lcall sc ext fuel f vs' m' (w', []) = Ok (v', m1', (w1', t)).
  Proof.
    intros Hf Hv Hm H H'. rewrite (call_same _ _ _ _ []) in H. rewrite (call_same _ _ _ _ []) in H'.
    destruct (lcall sc ext fuel f vs m (w, [])) as [[[x mx] [wx tx]]| |] eqn:Hl; cbn in H; try done.
    destruct (lcall sc ext fuel f vs' m' (w', [])) as [[[x' mx'] [wx' tx']]| |] eqn:Hl'; cbn in H'; try done.
    destruct (run_rel sc ext fuel) as (_ & _ & _ & _ & Hr).
    destruct (Hr f ps vs vs' m m' w w' [] _ _ _ _ _ _ _ _ Hf Hv Hm Hl Hl') as (_ & _ & Ht).
    simplify_eq. eauto.
  Qed.
End same_trace.
