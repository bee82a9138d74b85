(** * Proofs for [Props_Grammar.v]: statements and files *)
From Coq Require Import String.
From Verif Require Import CSem Lib CLang CFront Spec_Grammar Spec_GrammarUnit Proof_Grammar.
Local Open Scope string_scope.
Local Open Scope list_scope.

Lemma next_is_eq x ts : next_is x ts = true -> exists r, ts = Op x :: r.
Proof.
  destruct ts as [|t r]; cbn; [discriminate|]. intros H. apply is_op_eq in H. subst.
  exists r. reflexivity.
Qed.
Lemma next_kw_eq x ts : next_kw x ts = true -> exists p r, ts = Id x p :: r.
Proof.
  destruct ts as [|[y p| | | |] r]; cbn; try discriminate. intros H. apply String.eqb_eq in H.
  subst. exists p, r. reflexivity.
Qed.

Section sound.
  Context (tys : list (string * ptype)).

  Lemma expr_sound k ts e r :
    expr tys k ts = Some (e, r) -> exists us, ts = us ++ r /\ derives tys Conditional us e.
  Proof. intros H. apply (sound tys k) in H. exact H. Qed.

  Notation three := ["const"; "static"; "inline"].
  Lemma quals3_sound ts s c r :
    quals three ts = (s, c, r) -> exists us, ts = us ++ r /\ words_before us s c.
  Proof.
    revert s c r. induction ts as [|t ts IH]; cbn [quals]; intros s c r H.
    - injection H as <- <- <-. exists []. split; [reflexivity|constructor].
    - destruct t as [x p| | | |];
        try (injection H as <- <- <-; exists []; split; [reflexivity|constructor]).
      destruct (elem x three) eqn:Ex.
      + destruct (quals three ts) as [[s' c'] r'] eqn:E. specialize (IH _ _ _ eq_refl).
        destruct IH as (us & -> & Hq). injection H as <- <- <-. exists (Id x p :: us).
        split; [reflexivity|]. apply elem_In in Ex. destruct Ex as [<-|[<-|[<-|[]]]]; cbn.
        * rewrite orb_false_r, orb_true_r. econstructor. exact Hq.
        * rewrite orb_false_r, orb_true_r. econstructor. exact Hq.
        * rewrite !orb_false_r. constructor. exact Hq.
      + injection H as <- <- <-. exists []. split; [reflexivity|constructor].
  Qed.
  Lemma declared_sound ts s c t r :
    type_name tys three ts = Some (s, c, t, r) ->
    exists us, ts = us ++ r /\ declared_type tys us s c t.
  Proof.
    unfold type_name. intros H.
    destruct (quals three ts) as [[s1 c1] ts1] eqn:Eq.
    apply quals3_sound in Eq as (qs & -> & Hq).
    destruct (words type_words ts1) as [w r1] eqn:Ew.
    bind H. destruct p as [t1 ts2]. destruct (stars c1 t1 ts2) as [[c3 t3] ts3] eqn:Es.
    injection H as <- <- <- <-.
    apply stars_sound in Es as (rs & d & ps & -> & Hr & Hp).
    assert (Hs : exists us, ts1 = us ++ rs ++ ps ++ ts3 /\ specifier tys us t1).
    { destruct (String.eqb w "").
      - binds E. injection E as -> ->. apply ident_eq in E0 as (p & -> & Hk).
        exists [Id s p]. split; [reflexivity|]. constructor; assumption.
      - bind E. injection E as <- <-. exact (words_sound tys _ _ _ _ Ew E0). }
    destruct Hs as (us & -> & Hs).
    exists (qs ++ us ++ rs ++ ps). split; [rewrite <- !app_assoc; reflexivity|].
    econstructor; eassumption.
  Qed.

  Lemma constant_sound e z : constant e = Some z <-> constant_is e z.
  Proof.
    split.
    - destruct e as [t y| | | | | | | |[[]| | | | | |] [t y| | | | | | | | | | | |]| | | |]; try discriminate.
      + intros H. injection H as <-. constructor.
      + intros H. injection H as <-. apply Const_u8.
    - intros []; reflexivity.
  Qed.

  Lemma inits_sound k ts l r :
    inits tys k ts = Some (l, r) ->
    next_is "}" ts = true /\ l = [] /\ ts = Op "}" :: r \/
    exists us, ts = us ++ Op "}" :: r /\ initialisers tys us l.
  Proof.
    revert ts l r. induction k as [|k IH]; [discriminate|]. intros ts l r H. cbn [inits] in H.
    destruct (eat "}" ts) eqn:Ee.
    - apply eat_eq in Ee as ->. injection H as <- <-. left. repeat split.
    - right. binds H. apply expr_sound in E as (us & -> & D). destruct (eat "," l0) eqn:Ec.
      + apply eat_eq in Ec as ->. binds H. injection H as <- <-.
        apply IH in E as [(_ & -> & ->)|(vs & -> & D1)].
        * exists (us ++ [Op ","]). split; [rewrite <- app_assoc; reflexivity|]. apply Inits_comma. exact D.
        * exists (us ++ Op "," :: vs). split; [rewrite <- app_assoc; reflexivity|].
          apply Inits_more; assumption.
      + binds H. injection H as <- <-. apply eat_eq in E as ->. exists us. split; [reflexivity|].
        apply Inits_one. exact D.
  Qed.

  Lemma assign_sound o b : assoc o assign_ops = Some b <-> assigns o b.
  Proof.
    split.
    - cbn. intros H.
      repeat match type of H with
             | (if String.eqb o ?x then _ else _) = _ =>
                 destruct (String.eqb_spec o x) as [->|]; [injection H as <-; constructor|]
             end.
      discriminate.
    - intros []; reflexivity.
  Qed.

  Lemma simple_sound k ts s r :
    simple tys k ts = Some (s, r) -> exists us, ts = us ++ r /\ simple_statement tys us s.
  Proof.
    unfold simple. destruct (at_type tys ts).
    - intros H. bind H. destruct p as [[[st c] t] ts1].
      apply declared_sound in E as (us & -> & T).
      bind H. destruct p as [x ts2]. apply name_eq in E as (p & -> & Hx).
      assert (G : exists vs u ts3, ts2 = vs ++ ts3 /\ dimension tys t vs u /\
        (match eat "=" ts3 with
         | Some ts =>
             match eat "{" ts with
             | Some ts =>
                 if next_is "}" ts then None
                 else '(l, ts) ← inits tys k ts; Some (InitL l, ts)
             | None => '(e, ts) ← expr tys k ts; Some (InitE e, ts)
             end
         | None => Some (NoInit, ts3)
         end) ≫= (fun '(i, ts) => Some (YDecl st c u x i, ts)) = Some (s, r)).
      { destruct (eat "[" ts2) eqn:Ed.
        - apply eat_eq in Ed as ->. bind H. destruct p0 as [u ts3]. binds E. injection E as <- <-.
          apply expr_sound in E0 as (vs & -> & D). apply constant_sound in E1.
          apply eat_eq in E2 as ->. exists (Op "[" :: vs ++ [Op "]"]), (PArr t z). eexists.
          split; [cbn; rewrite <- app_assoc; reflexivity|]. split; [|exact H].
          eapply Dim_array; eassumption.
        - exists [], t, ts2. split; [reflexivity|]. split; [constructor|exact H]. }
      destruct G as (vs & u & ts3 & -> & Hd & G). bind G. destruct p0 as [i ts4].
      injection G as <- <-.
      assert (G : exists ws, ts3 = ws ++ ts4 /\ initialised tys ws i).
      { destruct (eat "=" ts3) eqn:Eq.
        - apply eat_eq in Eq as ->. destruct (eat "{" l) eqn:Eb.
          + apply eat_eq in Eb as ->. destruct (next_is "}" l0) eqn:En; [discriminate|].
            binds E. injection E as <- <-. apply inits_sound in E0 as [(E' & _)|(ws & -> & D)].
            * rewrite En in E'. discriminate.
            * exists (Op "=" :: Op "{" :: ws ++ [Op "}"]).
              split; [cbn; rewrite <- app_assoc; reflexivity|]. constructor. exact D.
          + binds E. injection E as <- <-. apply expr_sound in E0 as (ws & -> & D).
            exists (Op "=" :: ws). split; [reflexivity|]. constructor. exact D.
        - injection E as <- <-. exists []. split; [reflexivity|constructor]. }
      destruct G as (ws & -> & Hi). exists (us ++ Id x p :: vs ++ ws).
      split; [rewrite <- app_assoc; cbn; rewrite <- app_assoc; reflexivity|].
      eapply Simple_decl; eassumption.
    - intros H. binds H. apply expr_sound in E as (us & -> & D).
      destruct l as [|[| | |o|] l]; try discriminate.
      destruct (String.eqb_spec o "=") as [->|].
      + binds H. injection H as <- <-. apply expr_sound in E as (vs & -> & D1).
        exists (us ++ Op "=" :: vs). split; [rewrite <- app_assoc; reflexivity|].
        apply Simple_set; assumption.
      + destruct (assoc o assign_ops) as [b|] eqn:Eo.
        * apply assign_sound in Eo. binds H. injection H as <- <-.
          apply expr_sound in E as (vs & -> & D1).
          exists (us ++ Op o :: vs). split; [rewrite <- app_assoc; reflexivity|].
          apply Simple_op; assumption.
        * injection H as <- <-. exists us. split; [reflexivity|]. apply Simple_expr. exact D.
  Qed.

  Lemma statement_sound k :
    (forall ts s r, stmt tys k ts = Some (s, r) ->
       exists us o, ts = us ++ r /\ statement tys o us s /\ (o = true -> next_kw "else" r = false)) /\
    (forall ts l r, stmts tys k ts = Some (l, r) ->
       exists us, ts = us ++ Op "}" :: r /\ items tys us l).
  Proof.
    induction k as [|k [IHs IHl]]; [split; discriminate|]. split.
    - intros ts s r H. cbn [stmt] in H.
      destruct (next_is "{" ts) eqn:E1.
      { binds H. injection H as <- <-. apply eat_eq in E as ->. apply IHl in E0 as (us & -> & D).
        exists (Op "{" :: us ++ [Op "}"]), false. split; [cbn; rewrite <- app_assoc; reflexivity|].
        split; [|discriminate]. constructor. exact D. }
      destruct (next_is ";" ts) eqn:E2.
      { binds H. injection H as <- <-. apply eat_eq in E as ->. exists [Op ";"], false.
        split; [reflexivity|]. split; [constructor|discriminate]. }
      destruct (next_kw "if" ts) eqn:E3.
      { apply next_kw_eq in E3 as (p & ts1 & ->). cbn [tail] in H. bind H. apply eat_eq in E as ->.
        bind H. destruct p0 as [c ts2]. apply expr_sound in E as (cs & -> & D). bind H.
        apply eat_eq in E as ->. bind H. destruct p0 as [a ts3].
        apply IHs in E as (us & o & -> & Da & Ho).
        destruct (next_kw "else" ts3) eqn:Ee.
        - apply next_kw_eq in Ee as (q & ts4 & ->). cbn [tail] in H. binds H. injection H as <- <-.
          apply IHs in E as (vs & o' & -> & Db & Ho').
          exists (Id "if" p :: Op "(" :: cs ++ Op ")" :: us ++ Id "else" q :: vs), o'.
          split; [cbn; rewrite <- !app_assoc; cbn; rewrite <- !app_assoc; reflexivity|].
          split; [|exact Ho']. apply St_if_else; [exact D| |exact Db].
          destruct o; [|exact Da]. specialize (Ho eq_refl). discriminate Ho.
        - injection H as <- <-. exists (Id "if" p :: Op "(" :: cs ++ Op ")" :: us), true.
          split; [cbn; rewrite <- !app_assoc; reflexivity|]. split; [|intros _; exact Ee].
          eapply St_if; eassumption. }
      destruct (next_kw "while" ts) eqn:E4.
      { apply next_kw_eq in E4 as (p & ts1 & ->). cbn [tail] in H. bind H. apply eat_eq in E as ->.
        bind H. destruct p0 as [c ts2]. apply expr_sound in E as (cs & -> & D). bind H.
        apply eat_eq in E as ->. bind H. destruct p0 as [a ts3]. injection H as <- <-.
        apply IHs in E as (us & o & -> & Da & Ho).
        exists (Id "while" p :: Op "(" :: cs ++ Op ")" :: us), o.
        split; [cbn; rewrite <- !app_assoc; reflexivity|]. split; [|exact Ho].
        apply St_while; assumption. }
      destruct (next_kw "for" ts) eqn:E5.
      { apply next_kw_eq in E5 as (p & ts1 & ->). cbn [tail] in H. bind H. apply eat_eq in E as ->.
        bind H. destruct p0 as [i ts2]. apply simple_sound in E as (is & -> & Di). bind H.
        apply eat_eq in E as ->. bind H. destruct p0 as [c ts3].
        apply expr_sound in E as (cs & -> & D). bind H. apply eat_eq in E as ->.
        bind H. destruct p0 as [st ts4]. apply simple_sound in E as (ss & -> & Ds). bind H.
        apply eat_eq in E as ->. bind H. destruct p0 as [b ts5]. injection H as <- <-.
        apply IHs in E as (us & o & -> & Db & Ho).
        exists (Id "for" p :: Op "(" :: is ++ Op ";" :: cs ++ Op ";" :: ss ++ Op ")" :: us), o.
        split; [cbn; repeat (rewrite <- app_assoc; cbn); reflexivity|]. split; [|exact Ho].
        apply St_for; assumption. }
      destruct (next_kw "break" ts) eqn:E6.
      { apply next_kw_eq in E6 as (p & ts1 & ->). cbn [tail] in H. binds H. injection H as <- <-.
        apply eat_eq in E as ->. exists [Id "break" p; Op ";"], false. split; [reflexivity|].
        split; [constructor|discriminate]. }
      destruct (next_kw "return" ts) eqn:E7.
      { apply next_kw_eq in E7 as (p & ts1 & ->). cbn [tail] in H. binds H. injection H as <- <-.
        apply expr_sound in E as (us & -> & D). apply eat_eq in E0 as ->.
        exists (Id "return" p :: us ++ [Op ";"]), false.
        split; [cbn; rewrite <- app_assoc; reflexivity|]. split; [|discriminate].
        constructor. exact D. }
      binds H. injection H as <- <-. apply simple_sound in E as (us & -> & D).
      apply eat_eq in E0 as ->. exists (us ++ [Op ";"]), false.
      split; [rewrite <- app_assoc; reflexivity|]. split; [|discriminate]. apply St_simple. exact D.
    - intros ts l r H. cbn [stmts] in H. destruct (eat "}" ts) eqn:Ee.
      + apply eat_eq in Ee as ->. injection H as <- <-. exists []. split; [reflexivity|constructor].
      + binds H. injection H as <- <-. apply IHs in E as (us & o & -> & D & _).
        apply IHl in E0 as (vs & -> & D1). exists (us ++ vs).
        split; [rewrite <- app_assoc; reflexivity|]. econstructor; eassumption.
  Qed.

  (** ** Files *)

  Lemma skip_sound n ts r :
    skip_paren (S n) ts = Some r ->
    exists us vs, ts = us ++ Op ")" :: vs /\ balanced us /\
      match n with O => vs = r | S _ => skip_paren n vs = Some r end.
  Proof.
    remember (length ts) as m eqn:Em. assert (Hm : (length ts <= m)%nat) by lia. clear Em.
    revert n ts r Hm. induction m as [|m IH]; intros n ts r Hm H.
    { destruct ts; [discriminate|cbn in Hm; lia]. }
    destruct ts as [|t ts]; [discriminate|]. cbn [length] in Hm. cbn [skip_paren] in H.
    destruct (is_op "(" t) eqn:E1.
    - apply is_op_eq in E1 as ->. apply IH in H as (us & vs & -> & B & H); [|lia].
      apply IH in H; [|rewrite app_length in Hm; cbn in Hm; lia].
      destruct H as (us' & vs' & -> & B' & H). exists (Op "(" :: us ++ Op ")" :: us'), vs'.
      split; [cbn; rewrite <- app_assoc; reflexivity|]. split; [|exact H].
      constructor; assumption.
    - destruct (is_op ")" t) eqn:E2.
      + apply is_op_eq in E2 as ->. exists [], ts. split; [reflexivity|]. split; [constructor|].
        destruct n as [|n]; [injection H as <-; reflexivity|exact H].
      + apply IH in H; [|lia]. destruct H as (us & vs & -> & B & H). exists (t :: us), vs.
        split; [reflexivity|]. split; [|exact H]. constructor; [| |exact B].
        * intros ->. discriminate E1.
        * intros ->. discriminate E2.
  Qed.

  Lemma name_of_sound (param : bool) ts x r :
    (if param then name tys ts else ident ts) = Some (x, r) ->
    exists p, ts = Id x p :: r /\ declared_name tys param x.
  Proof.
    destruct param; cbn [declared_name]; intros H.
    - apply name_eq in H. exact H.
    - apply ident_eq in H. exact H.
  Qed.
  Lemma declarator_sound k param ts x t r :
    declarator tys k param ts = Some (x, t, r) ->
    exists us, ts = us ++ r /\ declares tys param us x t.
  Proof.
    unfold declarator. intros H. bind H. destruct p as [[[s c] u] ts1].
    apply type_sound in E as (_ & us & -> & T). destruct (eat "(" ts1) eqn:Ep.
    - apply eat_eq in Ep as ->. bind H. apply eat_eq in E as ->. bind H. destruct p as [y ts2].
      apply name_of_sound in E as (p & -> & Hy). bind H. apply eat_eq in E as ->. bind H.
      apply eat_eq in E as ->. bind H. injection H as <- <- <-.
      apply skip_sound in E as (vs & ws & -> & B & ->).
      eexists (us ++ [Op "("; Op "*"; Id y p; Op ")"; Op "("] ++ vs ++ [Op ")"]).
      split; [rewrite <- app_assoc; cbn; rewrite <- app_assoc; reflexivity|].
      eapply Decl_function; eassumption.
    - bind H. destruct p as [y ts2]. apply name_of_sound in E as (p & -> & Hy).
      destruct (eat "[" ts2) eqn:Eb.
      + apply eat_eq in Eb as ->. bind H. bind H. apply eat_eq in E0 as ->.
        destruct param; [|discriminate]. injection H as <- <- <-.
        destruct (next_is "]" l) eqn:En.
        * injection E as ->. exists (us ++ [Id y p; Op "["; Op "]"]).
          split; [rewrite <- app_assoc; reflexivity|]. eapply Decl_open; [reflexivity|eassumption..].
        * binds E. injection E as ->. apply expr_sound in E0 as (vs & -> & D).
          exists (us ++ Id y p :: Op "[" :: vs ++ [Op "]"]).
          split; [rewrite <- app_assoc; cbn; rewrite <- app_assoc; reflexivity|].
          eapply Decl_array; [reflexivity|eassumption..].
      + injection H as <- <- <-. exists (us ++ [Id y p]). split; [rewrite <- app_assoc; reflexivity|].
        eapply Decl_plain; eassumption.
  Qed.
  Lemma members_sound k ts l r :
    members tys k ts = Some (l, r) -> exists us, ts = us ++ Op "}" :: r /\ member_list tys us l.
  Proof.
    revert ts l r. induction k as [|k IH]; [discriminate|]. intros ts l r H. cbn [members] in H.
    destruct (eat "}" ts) eqn:Ee.
    - apply eat_eq in Ee as ->. injection H as <- <-. exists []. split; [reflexivity|constructor].
    - binds H. injection H as <- <-. apply declarator_sound in E as (us & -> & D).
      apply eat_eq in E0 as ->. apply IH in E1 as (vs & -> & D1). exists (us ++ Op ";" :: vs).
      split; [rewrite <- app_assoc; reflexivity|]. constructor; assumption.
  Qed.
  Lemma params_sound k ts l r :
    params tys k ts = Some (l, r) -> exists us, ts = us ++ Op ")" :: r /\ parameter_list tys us l.
  Proof.
    revert ts l r. induction k as [|k IH]; [discriminate|]. intros ts l r H. cbn [params] in H.
    binds H. apply declarator_sound in E as (us & -> & D). destruct (eat "," l0) eqn:Ec.
    - apply eat_eq in Ec as ->. binds H. injection H as <- <-. apply IH in E as (vs & -> & D1).
      exists (us ++ Op "," :: vs). split; [rewrite <- app_assoc; reflexivity|].
      constructor; assumption.
    - binds H. injection H as <- <-. apply eat_eq in E as ->. exists us. split; [reflexivity|].
      constructor. exact D.
  Qed.
End sound.

Lemma unit_sound k tys ts l : unit k tys ts = Some l -> file tys ts l.
Proof.
  revert tys ts l. induction k as [|k IH]; intros tys ts l H.
  { destruct ts; [|discriminate]. injection H as <-. constructor. }
  destruct ts as [|t0 ts0]; [injection H as <-; constructor|].
  cbn [unit] in H. remember (t0 :: ts0) as ts eqn:Ets. clear t0 ts0 Ets.
  destruct (next_kw "typedef" ts) eqn:E1.
  - apply next_kw_eq in E1 as (p & ts1 & ->). cbn [tail] in H. bind H. destruct p0 as [t ts2].
    bind H. destruct p0 as [x ts3]. apply name_eq in E0 as (r & -> & Hx). bind H.
    apply eat_eq in E0 as ->. apply IH in H. destruct (next_kw "struct" ts1) eqn:E2.
    + apply next_kw_eq in E2 as (q & ts2 & ->). cbn [tail] in E. binds E. injection E as <- ->.
      apply eat_eq in E0 as ->. apply members_sound in E1 as (us & -> & D).
      eapply File_struct; eassumption.
    + binds E. injection E as -> ->. apply type_sound in E0 as (_ & us & -> & T).
      eapply File_type; eassumption.
  - bind H. destruct p as [[[s c] t] ts1]. apply declared_sound in E as (us & -> & T).
    bind H. destruct p as [x ts2]. apply name_eq in E as (r & -> & Hx). bind H.
    apply eat_eq in E as ->. bind H. destruct p as [ps ts3].
    assert (G : exists vs, l0 = vs ++ Op ")" :: ts3 /\ parameters tys vs ps).
    { destruct (next_kw "void" l0 && next_is ")" (tail l0)) eqn:Ev.
      - apply andb_prop in Ev as [Ev Ec]. apply next_kw_eq in Ev as (p & ts4 & ->).
        apply next_is_eq in Ec as (ts5 & Ec). cbn [tail] in *. subst ts4. injection E as <- <-.
        exists [Id "void" p]. split; [reflexivity|constructor].
      - apply params_sound in E as (vs & -> & D). exists vs. split; [reflexivity|].
        apply Pars_some. exact D. }
    destruct G as (vs & -> & D). destruct (eat ";" ts3) eqn:Es.
    + apply eat_eq in Es as ->. apply IH in H. eapply File_declaration; eassumption.
    + binds H. injection H as <-. apply eat_eq in E0 as ->.
      apply statement_sound in E2 as (bs & -> & B). apply IH in E3.
      eapply File_function; eassumption.
Qed.
