(** * Proofs for [Props_Grammar.v]: the parser of [CFront.v] and the grammar of the standard *)
From Coq Require Import String.
From Verif Require Import CSem Lib CLang CFront Spec_Grammar.
Local Open Scope string_scope.
Local Open Scope list_scope.

Lemma elem_In x l : elem x l = true <-> In x l.
Proof.
  unfold elem. rewrite existsb_exists. split.
  - intros (y & Hy & E). apply String.eqb_eq in E. subst. exact Hy.
  - intros H. exists x. split; [exact H|apply String.eqb_refl].
Qed.
Lemma elem_not x l : elem x l = false <-> ~ In x l.
Proof. rewrite <- elem_In. symmetry. apply not_true_iff_false. Qed.

Lemma is_op_eq x t : is_op x t = true -> t = Op x.
Proof. destruct t; cbn; try discriminate. intros H. apply String.eqb_eq in H. subst. reflexivity. Qed.
Lemma eat_eq x ts r : eat x ts = Some r <-> ts = Op x :: r.
Proof.
  split.
  - destruct ts as [|t l]; cbn; [discriminate|]. destruct (is_op x t) eqn:E; [|discriminate].
    intros H. injection H as ->. apply is_op_eq in E. subst. reflexivity.
  - intros ->. cbn. rewrite String.eqb_refl. reflexivity.
Qed.
Lemma ident_eq ts x r : ident ts = Some (x, r) -> exists p, ts = Id x p :: r /\ ~ In x keywords.
Proof.
  destruct ts as [|[y p|? ?|?|?|] l]; try discriminate. unfold ident.
  destruct (elem y keywords) eqn:E; [discriminate|]. intros H. injection H as -> ->.
  exists p. split; [reflexivity|]. apply elem_not. exact E.
Qed.
Lemma ident_Id x p r : ~ In x keywords -> ident (Id x p :: r) = Some (x, r).
Proof. intros H. unfold ident. apply elem_not in H. rewrite H. reflexivity. Qed.

(** one step of [H : e ≫= f = Some _] *)
Ltac bind H :=
  match type of H with
  | (?o ≫= _) = Some _ =>
      let E := fresh "E" in destruct o eqn:E; cbn [mbind option_bind] in H; [|discriminate H]
  end.
Ltac binds H := repeat (bind H; repeat match goal with p : prod _ _ |- _ => destruct p end).

Section sound.
  Context (tys : list (string * ptype)).

  Lemma name_eq ts x r :
    name tys ts = Some (x, r) -> exists p, ts = Id x p :: r /\ ordinary tys x.
  Proof.
    unfold name. intros H. bind H. destruct p as [y l]. unfold is_type in H.
    destruct (assoc y tys) eqn:Ea; [discriminate|]. injection H as -> ->.
    apply ident_eq in E as (p & -> & Hk). exists p. split; [reflexivity|]. split; assumption.
  Qed.
  Lemma name_Id x p r : ordinary tys x -> name tys (Id x p :: r) = Some (x, r).
  Proof.
    intros [Hk Ha]. unfold name. rewrite (ident_Id _ _ _ Hk). cbn [mbind option_bind].
    unfold is_type. rewrite Ha. reflexivity.
  Qed.

  (** ** Type names *)

  Lemma quals_sound ts s c r :
    quals ["const"] ts = (s, c, r) -> s = false /\ exists us, ts = us ++ r /\ qualifiers us c.
  Proof.
    revert s c r. induction ts as [|t ts IH]; cbn; intros s c r H.
    - injection H as <- <- <-. split; [reflexivity|]. exists []. split; [reflexivity|constructor].
    - destruct t as [x p| | | |];
        try (injection H as <- <- <-; split; [reflexivity|]; exists []; split; [reflexivity|constructor]).
      destruct (String.eqb_spec x "const") as [->|]; cbn in H.
      + destruct (quals ["const"] ts) as [[s' c'] r'] eqn:E. specialize (IH _ _ _ eq_refl).
        destruct IH as (-> & us & -> & Hq). injection H as <- <- <-.
        split; [reflexivity|]. exists (Id "const" p :: us). split; [reflexivity|].
        rewrite orb_true_r. econstructor. exact Hq.
      + injection H as <- <- <-. split; [reflexivity|]. exists []. split; [reflexivity|constructor].
  Qed.

  Lemma stars_sound ts c t d u r :
    stars c t ts = (d, u, r) ->
    exists qs e ps, ts = qs ++ ps ++ r /\ qualifiers qs e /\ pointers (c || e) t ps d u.
  Proof.
    revert c t d u r. induction ts as [|x ts IH]; cbn; intros c t d u r H.
    - injection H as <- <- <-. exists [], false, []. rewrite orb_false_r. repeat constructor.
    - assert (Hstop : (c, t, x :: ts) = (d, u, r) ->
        exists qs e ps, x :: ts = qs ++ ps ++ r /\ qualifiers qs e /\ pointers (c || e) t ps d u).
      { intros H'. injection H' as <- <- <-. exists [], false, []. rewrite orb_false_r. repeat constructor. }
      destruct x as [x p| | |o|]; try exact (Hstop H).
      + destruct (String.eqb_spec x "const") as [->|]; [|exact (Hstop H)].
        apply IH in H as (qs & e & ps & -> & Hq & Hp).
        exists (Id "const" p :: qs), true, ps. split; [reflexivity|].
        split; [econstructor; exact Hq|]. rewrite orb_true_r. exact Hp.
      + destruct (String.eqb_spec o "*") as [->|]; [|exact (Hstop H)].
        apply IH in H as (qs & e & ps & -> & Hq & Hp).
        exists [], false, (Op "*" :: qs ++ ps). rewrite orb_false_r. split; [|split; [constructor|]].
        * cbn. rewrite <- app_assoc. reflexivity.
        * econstructor; [exact Hq|]. exact Hp.
  Qed.

  Lemma words_cases ts w r :
    words type_words ts = (w, r) ->
    (w = "" /\ r = ts) \/
    exists x p us a, ts = Id x p :: us /\ In x type_words /\ words type_words us = (a, r) /\
      w = (if String.eqb a "" then x else x ++ " " ++ a)%string.
  Proof.
    destruct ts as [|t us]; cbn [words]; intros H.
    - injection H as <- <-. left. split; reflexivity.
    - destruct t as [x p| | | |]; try (injection H as <- <-; left; split; reflexivity).
      destruct (elem x type_words) eqn:E; [|injection H as <- <-; left; split; reflexivity].
      right. destruct (words type_words us) as [a r'] eqn:Ew. injection H as <- <-.
      exists x, p, us, a. split; [reflexivity|]. apply elem_In in E. split; [exact E|].
      split; [exact Ew|reflexivity].
  Qed.
  Lemma words_sound ts w r t :
    words type_words ts = (w, r) -> assoc w basic_types = Some t ->
    exists us, ts = us ++ r /\ specifier tys us t.
  Proof.
    intros H Ha. apply words_cases in H as [[-> _]|(x & p & us & a & -> & Hx & H & ->)]; [discriminate|].
    apply words_cases in H as [[-> ->]|(y & q & vs & b & -> & Hy & H & ->)].
    - exists [Id x p]. split; [reflexivity|]. cbn in Ha. 
      repeat (destruct Hx as [<-|Hx]; [cbn in Ha; try discriminate Ha; injection Ha as <-; constructor|]).
      destruct Hx.
    - apply words_cases in H as [[-> ->]|(z & q' & ? & c & -> & Hz & H & ->)].
      + exists [Id x p; Id y q]. split; [reflexivity|].
        repeat (destruct Hx as [<-|Hx];
          [repeat (destruct Hy as [<-|Hy]; [cbn in Ha; try discriminate Ha; injection Ha as <-; constructor|]);
           destruct Hy|]).
        destruct Hx.
      + exfalso.
        set (w := (if String.eqb c "" then z else z ++ " " ++ c)%string) in *.
        assert (Hw0 : String.eqb w "" = false).
        { unfold w. clear -Hz. repeat (destruct Hz as [<-|Hz]; [destruct (String.eqb c ""); reflexivity|]).
          destruct Hz. }
        rewrite Hw0 in Ha. clearbody w. clear -Ha Hx Hy.
        repeat (destruct Hx as [<-|Hx];
          [repeat (destruct Hy as [<-|Hy]; [cbn in Ha; discriminate Ha|]);
           destruct Hy|]).
        destruct Hx.
  Qed.

  Lemma type_sound ts s c t r :
    type_name tys ["const"] ts = Some (s, c, t, r) ->
    s = false /\ exists us, ts = us ++ r /\ type_of_name tys us c t.
  Proof.
    unfold type_name. intros H.
    destruct (quals ["const"] ts) as [[s1 c1] ts1] eqn:Eq.
    apply quals_sound in Eq as (-> & qs & -> & Hq).
    destruct (words type_words ts1) as [w r1] eqn:Ew.
    bind H. destruct p as [t1 ts2]. destruct (stars c1 t1 ts2) as [[c3 t3] ts3] eqn:Es.
    injection H as <- <- <- <-. split; [reflexivity|].
    apply stars_sound in Es as (rs & d & ps & -> & Hr & Hp).
    assert (Hs : exists us, ts1 = us ++ rs ++ ps ++ ts3 /\ specifier tys us t1).
    { destruct (String.eqb w "").
      - binds E. injection E as -> ->. apply ident_eq in E0 as (p & -> & Hk).
        exists [Id s p]. split; [reflexivity|]. constructor; assumption.
      - bind E. injection E as <- <-. exact (words_sound _ _ _ _ Ew E0). }
    destruct Hs as (us & -> & Hs).
    exists (qs ++ us ++ rs ++ ps). split; [rewrite <- !app_assoc; reflexivity|].
    econstructor; eassumption.
  Qed.

  (** ** Expressions *)

  Definition cat (n : nat) : category :=
    match n with
    | 0 => Cast | 1 => Multiplicative | 2 => Additive | 3 => Shift | 4 => Relational
    | 5 => Equality | 6 => And_ | 7 => Exclusive_or | 8 => Inclusive_or | 9 => Logical_and
    | _ => Logical_or
    end%nat.
  (** the [n] tightest levels *)
  Definition tight (n : nat) : list (list string) := skipn (10 - n) levels.
  Definition level (n : nat) : list string := nth (9 - n) levels [].

  Lemma tight_S n : (n < 10)%nat -> tight (S n) = level n :: tight n.
  Proof. intros H. do 10 (destruct n as [|n]; [reflexivity|]). lia. Qed.
  Lemma above_S n : (n < 10)%nat -> above (cat n) (cat (S n)).
  Proof. intros H. do 10 (destruct n as [|n]; [constructor|]). lia. Qed.
  Lemma level_operator n o :
    (n < 10)%nat -> elem o (level n) = true -> operator o (cat n) (cat (S n)).
  Proof.
    intros H Ho. apply elem_In in Ho.
    do 10 (destruct n as [|n];
      [cbn in Ho; repeat (destruct Ho as [<-|Ho]; [constructor|]); destruct Ho|]).
    lia.
  Qed.

  (** what the parser reads is derived by the grammar *)
  Definition reads (c : category) (ts : list token) (e : pexpr) (r : list token) : Prop :=
    exists us, ts = us ++ r /\ derives tys c us e.

  Definition all_sound (k : nat) : Prop :=
    (forall ts e r, expr tys k ts = Some (e, r) -> reads Conditional ts e r) /\
    (forall n ts e r, (n <= 10)%nat -> binary tys k (tight n) ts = Some (e, r) ->
       reads (cat n) ts e r) /\
    (forall n a ts e r us, (n < 10)%nat ->
       operands tys k (level n) (tight n) a ts = Some (e, r) ->
       derives tys (cat (S n)) us a -> reads (cat (S n)) (us ++ ts) e r) /\
    (forall ts e r, unary tys k ts = Some (e, r) ->
       reads Cast ts e r /\
       (next_is "(" ts && at_type tys (tail ts) = false -> reads Unary ts e r)) /\
    (forall ts e r, primary tys k ts = Some (e, r) -> reads Primary ts e r) /\
    (forall a ts e r us, postfix tys k a ts = Some (e, r) ->
       derives tys Postfix us a -> reads Postfix (us ++ ts) e r) /\
    (forall ts l r, args tys k ts = Some (l, r) ->
       exists us, ts = us ++ Op ")" :: r /\ (us = [] /\ l = [] \/ arguments tys us l)).

  Lemma reads_up c d ts e r : above c d -> reads c ts e r -> reads d ts e r.
  Proof. intros H (us & -> & D). exists us. split; [reflexivity|]. eapply D_up; eassumption. Qed.

  Lemma sound k : all_sound k.
  Proof.
    induction k as [|k (IHe & IHb & IHo & IHu & IHp & IHq & IHa)].
    { repeat split; intros; discriminate. }
    assert (He : forall ts e r, expr tys (S k) ts = Some (e, r) -> reads Conditional ts e r).
    { intros ts e r H. cbn [expr] in H. binds H.
      change levels with (tight 10) in E. apply IHb in E as (us & -> & D); [|lia].
      destruct (eat "?" l) eqn:Eq.
      - apply eat_eq in Eq as ->. binds H. injection H as <- <-.
        apply IHe in E as (vs & -> & D1). apply eat_eq in E0 as ->.
        apply IHe in E1 as (ws & -> & D2).
        exists (us ++ Op "?" :: vs ++ Op ":" :: ws).
        split; [rewrite <- !app_assoc; cbn; rewrite <- !app_assoc; reflexivity|].
        apply D_conditional; assumption.
      - injection H as <- <-. exists us. split; [reflexivity|]. apply D_logical_or. exact D. }
    assert (Hb : forall n ts e r, (n <= 10)%nat -> binary tys (S k) (tight n) ts = Some (e, r) ->
       reads (cat n) ts e r).
    { intros n ts e r Hn H. destruct n as [|n]; cbn [binary] in H.
      - apply IHu in H as [H _]. exact H.
      - rewrite tight_S in H by lia. binds H. apply IHb in E as (us & -> & D); [|lia].
        eapply (IHo n); [lia|exact H|]. eapply D_up; [apply above_S; lia|exact D]. }
    assert (Ho : forall n a ts e r us, (n < 10)%nat ->
       operands tys (S k) (level n) (tight n) a ts = Some (e, r) ->
       derives tys (cat (S n)) us a -> reads (cat (S n)) (us ++ ts) e r).
    { intros n a ts e r us Hn H D. cbn [operands] in H.
      assert (Hstop : Some (a, ts) = Some (e, r) -> reads (cat (S n)) (us ++ ts) e r).
      { intros H'. injection H' as <- <-. exists us. split; [reflexivity|exact D]. }
      destruct ts as [|[| | |o|] l]; try exact (Hstop H).
      destruct (elem o (level n)) eqn:El; [|exact (Hstop H)].
      binds H. apply IHb in E as (vs & -> & D1); [|lia].
      apply (IHo n _ _ _ _ (us ++ Op o :: vs)) in H; [|lia|].
      - rewrite <- app_assoc in H. exact H.
      - eapply D_binary; [apply level_operator; assumption|exact D|exact D1]. }
    assert (Hpq : forall ts e r, primary tys k ts ≫= (fun '(e, ts) => postfix tys k e ts) = Some (e, r) ->
       reads Postfix ts e r).
    { intros ts e r H. binds H. apply IHp in E as (us & -> & D).
      apply (IHq _ _ _ _ us) in H; [exact H|]. apply D_primary. exact D. }
    assert (Hup : forall ts e r, reads Unary ts e r ->
       reads Cast ts e r /\ (next_is "(" ts && at_type tys (tail ts) = false -> reads Unary ts e r)).
    { intros ts e r (us & -> & D). split; [|intros _]; exists us; (split; [reflexivity|]).
      - apply D_unary. exact D.
      - exact D. }
    assert (Hqu : forall ts e r, reads Postfix ts e r ->
       reads Cast ts e r /\ (next_is "(" ts && at_type tys (tail ts) = false -> reads Unary ts e r)).
    { intros ts e r (us & -> & D). apply Hup. exists us. split; [reflexivity|]. apply D_postfix. exact D. }
    assert (Hu : forall ts e r, unary tys (S k) ts = Some (e, r) ->
       reads Cast ts e r /\
       (next_is "(" ts && at_type tys (tail ts) = false -> reads Unary ts e r)).
    { intros ts e r H. cbn [unary] in H.
      destruct ts as [|[| | |o|] l]; try (apply Hqu, Hpq, H).
      destruct (elem o ["++"; "--"] && next_is "(" l && at_type tys (tail l)) eqn:Ec; [discriminate|].
      destruct (String.eqb_spec o "++") as [->|].
      { binds H. injection H as <- <-. apply Hup. apply IHu in E as [_ E].
        destruct (E Ec) as (us & -> & D). exists (Op "++" :: us). split; [reflexivity|].
        apply D_pre_inc. exact D. }
      destruct (String.eqb_spec o "--") as [->|].
      { binds H. injection H as <- <-. apply Hup. apply IHu in E as [_ E].
        destruct (E Ec) as (us & -> & D). exists (Op "--" :: us). split; [reflexivity|].
        apply D_pre_dec. exact D. }
      destruct (String.eqb_spec o "*") as [->|].
      { binds H. injection H as <- <-. apply Hup. apply IHu in E as [(us & -> & D) _].
        exists (Op "*" :: us). split; [reflexivity|]. apply D_indirection. exact D. }
      destruct (String.eqb_spec o "&") as [->|].
      { binds H. injection H as <- <-. apply Hup. apply IHu in E as [(us & -> & D) _].
        exists (Op "&" :: us). split; [reflexivity|]. apply D_address. exact D. }
      destruct (elem o ["!"; "~"; "-"]) eqn:Eu.
      { binds H. injection H as <- <-. apply Hup. apply IHu in E as [(us & -> & D) _].
        apply elem_In in Eu. exists (Op o :: us). split; [reflexivity|].
        destruct Eu as [<-|[<-|[<-|[]]]];
          [apply D_not|apply D_complement|apply D_minus]; exact D. }
      destruct (String.eqb_spec o "(") as [->|]; cbn [andb] in H.
      2: { apply Hqu, Hpq, H. }
      destruct (at_type tys l) eqn:Et.
      - binds H. injection H as <- <-. apply type_sound in E as (_ & us & -> & T).
        apply eat_eq in E0 as ->. apply IHu in E1 as [(vs & -> & D) _]. split.
        + exists (Op "(" :: us ++ Op ")" :: vs).
          split; [cbn; rewrite <- !app_assoc; reflexivity|]. eapply D_cast; eassumption.
        + cbn. rewrite Et. discriminate.
      - apply Hqu, Hpq, H. }
    assert (Hp : forall ts e r, primary tys (S k) ts = Some (e, r) -> reads Primary ts e r).
    { intros ts e r H. cbn [primary] in H.
      assert (Hparen : eat "(" ts ≫= (fun ts => expr tys k ts ≫= (fun '(e, ts) =>
                         eat ")" ts ≫= (fun ts => Some (e, ts)))) = Some (e, r) ->
                       reads Primary ts e r).
      { intros H'. binds H'. injection H' as <- <-. apply eat_eq in E as ->.
        apply IHe in E0 as (us & -> & D). apply eat_eq in E1 as ->.
        exists (Op "(" :: us ++ [Op ")"]). split; [cbn; rewrite <- app_assoc; reflexivity|].
        apply D_paren. exact D. }
      destruct ts as [|[x p|t z|x|o|] l]; try exact (Hparen H).
      - binds H. injection H as <- <-. apply name_eq in E as (q & E & Hx).
        injection E as -> -> ->. exists [Id s q]. split; [reflexivity|]. apply D_identifier. exact Hx.
      - injection H as <- <-. exists [Num t z]. split; [reflexivity|]. apply D_constant.
      - injection H as <- <-. exists [Str x]. split; [reflexivity|]. apply D_string. }
    assert (Hq : forall a ts e r us, postfix tys (S k) a ts = Some (e, r) ->
       derives tys Postfix us a -> reads Postfix (us ++ ts) e r).
    { intros a ts e r us H D. cbn [postfix] in H.
      assert (Hstop : Some (a, ts) = Some (e, r) -> reads Postfix (us ++ ts) e r).
      { intros H'. injection H' as <- <-. exists us. split; [reflexivity|exact D]. }
      destruct ts as [|[| | |o|] l]; try exact (Hstop H).
      destruct (String.eqb_spec o "[") as [->|].
      { binds H. apply IHe in E as (vs & -> & D1). apply eat_eq in E0 as ->.
        apply (IHq _ _ _ _ (us ++ Op "[" :: vs ++ [Op "]"])) in H; [|apply D_index; assumption].
        rewrite <- app_assoc in H. cbn in H. rewrite <- app_assoc in H. exact H. }
      destruct (String.eqb_spec o "(") as [->|].
      { binds H. apply IHa in E as (vs & -> & [[-> ->]|D1]).
        - apply (IHq _ _ _ _ (us ++ [Op "("; Op ")"])) in H; [|apply D_call0; assumption].
          rewrite <- app_assoc in H. exact H.
        - apply (IHq _ _ _ _ (us ++ Op "(" :: vs ++ [Op ")"])) in H; [|apply D_call; assumption].
          rewrite <- app_assoc in H. cbn in H. rewrite <- app_assoc in H. exact H. }
      destruct (String.eqb_spec o "->") as [->|].
      { binds H. apply ident_eq in E as (p & -> & Hk).
        apply (IHq _ _ _ _ (us ++ [Op "->"; Id s p])) in H; [|apply D_arrow; assumption].
        rewrite <- app_assoc in H. exact H. }
      destruct (String.eqb_spec o ".") as [->|].
      { binds H. apply ident_eq in E as (p & -> & Hk).
        apply (IHq _ _ _ _ (us ++ [Op "."; Id s p])) in H; [|apply D_dot; assumption].
        rewrite <- app_assoc in H. exact H. }
      destruct (String.eqb_spec o "++") as [->|].
      { apply (IHq _ _ _ _ (us ++ [Op "++"])) in H; [|apply D_post_inc; assumption].
        rewrite <- app_assoc in H. exact H. }
      destruct (String.eqb_spec o "--") as [->|].
      { apply (IHq _ _ _ _ (us ++ [Op "--"])) in H; [|apply D_post_dec; assumption].
        rewrite <- app_assoc in H. exact H. }
      exact (Hstop H). }
    refine (conj He (conj Hb (conj Ho (conj Hu (conj Hp (conj Hq _)))))).
    intros ts l r H. cbn [args] in H. destruct (eat ")" ts) eqn:Ee.
    - apply eat_eq in Ee as ->. injection H as <- <-. exists []. split; [reflexivity|].
      left. split; reflexivity.
    - binds H. apply IHe in E as (us & -> & D). destruct (eat "," l0) eqn:Ec.
      + apply eat_eq in Ec as ->. destruct (next_is ")" l1) eqn:En; [discriminate|].
        binds H. injection H as <- <-. apply IHa in E as (vs & -> & [[-> ->]|D1]).
        * discriminate En.
        * exists (us ++ Op "," :: vs). split; [rewrite <- !app_assoc; reflexivity|].
          right. constructor; assumption.
      + binds H. injection H as <- <-. apply eat_eq in E as ->. exists us.
        split; [reflexivity|]. right. constructor. exact D.
  Qed.
End sound.
