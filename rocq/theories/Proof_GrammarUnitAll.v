(** * Proofs for [Props_Grammar.v]: the parser reads whatever the grammar of files derives *)
From Coq Require Import String.
From Verif Require Import CSem Lib CLang CFront Spec_Grammar Spec_GrammarUnit Proof_Grammar Proof_GrammarAll Proof_GrammarUnit.
Local Open Scope string_scope.
Local Open Scope list_scope.

Lemma eat_Op x r : eat x (Op x :: r) = Some r.
Proof. apply eat_eq. reflexivity. Qed.
Lemma eat_other x o r : o <> x -> eat x (Op o :: r) = None.
Proof. intros H. cbn. destruct (String.eqb_spec x o) as [->|]; [contradiction|reflexivity]. Qed.

(** no statement but the one it names and no declaration starts with these *)
Definition special : list string :=
  ["if"; "while"; "for"; "break"; "return"; "else"; "typedef"; "struct"].
Definition plain (t : token) : Prop :=
  match t with
  | Id x _ => ~ In x special
  | Op o => ~ In o ["{"; "}"; ";"]
  | _ => True
  end.
Lemma special_keyword x : In x special -> In x keywords.
Proof.
  intros H. apply elem_In. cbn in H. repeat (destruct H as [<-|H]; [reflexivity|]). destruct H.
Qed.
Lemma plain_kw t r x : plain t -> In x special -> next_kw x (t :: r) = false.
Proof.
  destruct t as [y p| | | |]; try reflexivity. cbn. intros H Hx.
  destruct (String.eqb_spec x y) as [->|]; [contradiction|reflexivity].
Qed.
Lemma plain_op t r x : plain t -> In x ["{"; "}"; ";"] -> next_is x (t :: r) = false.
Proof.
  destruct t as [| | |o|]; try reflexivity. intros H Hx. cbn [next_is is_op].
  destruct (String.eqb_spec x o) as [->|]; [contradiction|reflexivity].
Qed.
Lemma next_eat x ts : next_is x ts = false -> eat x ts = None.
Proof. destruct ts; cbn; [reflexivity|]. intros ->. reflexivity. Qed.

Section complete.
  Context (tys : list (string * ptype)).

  Lemma expr_complete us e r :
    derives tys Conditional us e -> ends r -> ev (fun k => expr tys k (us ++ r)) (e, r).
  Proof. intros D. exact (proj1 (complete tys) _ _ _ D r). Qed.
  Lemma ends_op o r : elem o goes_on = false -> ends (Op o :: r).
  Proof. intros H. cbn [ends]. apply elem_not. exact H. Qed.

  Lemma starts_plain t : starts tys t -> plain t.
  Proof.
    destruct t as [x p| | |o|]; cbn [starts plain]; try exact (fun _ => I).
    - intros [Hk _] H. apply Hk, special_keyword, H.
    - intros H. cbn in H. repeat (destruct H as [<-|H]; [apply elem_not; reflexivity|]). destruct H.
  Qed.
  Lemma derives_plain us e :
    derives tys Conditional us e -> exists t vs, us = t :: vs /\ plain t /\ starts tys t.
  Proof.
    intros D. apply first_token in D as (t & vs & -> & St & _). exists t, vs.
    split; [reflexivity|]. split; [apply starts_plain|]; exact St.
  Qed.

  (** ** Declarations *)

  Notation three := ["const"; "static"; "inline"].
  Lemma specifier_first ts t :
    specifier tys ts t ->
    exists x p r, ts = Id x p :: r /\ (In x type_words \/ ~ In x keywords).
  Proof.
    intros [p|p|p|p q|p q|p q|p|p q|p|p q|p|p|p q|x p t' Hk Ha];
      (eexists _, p, _; split; [reflexivity|]); try (left; cbn; tauto). right. exact Hk.
  Qed.
  Lemma specifier_plain x p : In x type_words \/ ~ In x keywords -> plain (Id x p) /\ ~ In x three.
  Proof.
    intros [H|H].
    - cbn in H. repeat (destruct H as [<-|H]; [split; apply elem_not; reflexivity|]). destruct H.
    - split.
      + intros H'. apply H, special_keyword, H'.
      + intros H'. apply H. cbn in H'. apply elem_In.
        repeat (destruct H' as [<-|H']; [reflexivity|]). destruct H'.
  Qed.
  Lemma words_before_quals ws s c ts :
    words_before ws s c ->
    match ts with Id x _ :: _ => ~ In x three | _ => True end ->
    quals three (ws ++ ts) = (s, c, ts).
  Proof.
    intros Hw Ht. induction Hw as [|p ws s c Hw IH|p ws s c Hw IH|p ws s c Hw IH]; cbn [app].
    - destruct ts as [|[x p| | | |] l]; try reflexivity. cbn [quals].
      apply elem_not in Ht. rewrite Ht. reflexivity.
    - cbn [quals]. change (elem "const" three) with true. cbn iota. rewrite IH. cbn.
      rewrite orb_false_r, orb_true_r. reflexivity.
    - cbn [quals]. change (elem "static" three) with true. cbn iota. rewrite IH. cbn.
      rewrite orb_false_r, orb_true_r. reflexivity.
    - cbn [quals]. change (elem "inline" three) with true. cbn iota. rewrite IH. cbn.
      rewrite !orb_false_r. reflexivity.
  Qed.
  Lemma type_of_plain us c t :
    type_of_name tys us c t -> exists x p r, us = Id x p :: r /\ plain (Id x p).
  Proof.
    intros [qs c0 ts t0 rs d ps e u Hq Hs Hr Hp].
    destruct Hq as [|p qs d0 Hq].
    - apply specifier_first in Hs as (x & p & r & -> & Hx). cbn [app]. exists x, p. eexists.
      split; [reflexivity|]. apply specifier_plain, Hx.
    - eexists "const", p, _. split; [reflexivity|]. apply elem_not. reflexivity.
  Qed.
  Lemma declared_plain us s c t :
    declared_type tys us s c t -> exists x p r, us = Id x p :: r /\ plain (Id x p).
  Proof.
    intros [ws s0 c0 ts t0 rs d ps e u Hq Hs Hr Hp].
    destruct Hq as [|p ? ? ? Hq|p ? ? ? Hq|p ? ? ? Hq];
      try (eexists _, p, _; split; [reflexivity|]; apply elem_not; reflexivity).
    apply specifier_first in Hs as (x & p & r & -> & Hx). cbn [app]. exists x, p. eexists.
    split; [reflexivity|]. apply specifier_plain, Hx.
  Qed.

  Lemma declared_complete us s c t r :
    declared_type tys us s c t -> follows_type r ->
    type_name tys three (us ++ r) = Some (s, c, t, r) /\ at_type tys (us ++ r) = true.
  Proof.
    intros H Hr. destruct H as [ws s c ts t rs d ps e u Hw Hs Hrs Hp].
    rewrite <- !app_assoc.
    assert (Hafter : match rs ++ ps ++ r with Id x _ :: _ => ~ In x type_words | _ => True end).
    { destruct Hrs as [|? ? ? ?]; [|apply elem_not; reflexivity].
      destruct Hp; cbn [app]; [|exact I].
      destruct r as [|[x p| | | |] r]; try exact I. intros H. apply Hr, type_words_keywords, H. }
    assert (Hrest : stars c t (rs ++ ps ++ r) = (e, u, r)).
    { rewrite (quals_stars _ _ _ _ _ Hrs). apply pointers_stars; assumption. }
    split.
    - unfold type_name. rewrite (words_before_quals _ _ _ _ Hw).
      2: { apply specifier_first in Hs as (x & p & r' & -> & Hx). cbn [app].
           apply (specifier_plain x p). exact Hx. }
      assert (Hb : exists w r', words type_words (ts ++ rs ++ ps ++ r) = (w, r') /\
        (if String.eqb w "" then '(x, r) ← ident (ts ++ rs ++ ps ++ r); t ← assoc x tys; Some (t, r)
         else t ← assoc w basic_types; Some (t, r')) = Some (t, rs ++ ps ++ r)).
      { destruct Hs as [p|p|p|p q|p q|p q|p|p q|p|p q|p|p|p q|x p t Hk Ha];
          try (eexists _, _; split; [cbn [app words]; rewrite (words_none _ Hafter); reflexivity|reflexivity]).
        exists "", (Id x p :: rs ++ ps ++ r). split.
        - apply words_none. intros H. apply Hk, type_words_keywords, H.
        - cbn [app]. change (String.eqb "" "") with true. cbn iota.
          rewrite (ident_Id _ _ _ Hk). cbn [mbind option_bind]. rewrite Ha. reflexivity. }
      destruct Hb as (w & r' & Hb & Hb'). rewrite Hb, Hb'. cbn [mbind option_bind].
      rewrite Hrest. reflexivity.
    - destruct Hw as [|? ? ? ? Hw|? ? ? ? Hw|? ? ? ? Hw]; try reflexivity. cbn [app].
      destruct Hs as [p|p|p|p q|p q|p q|p|p q|p|p q|p|p|p q|x p t Hk Ha]; try reflexivity.
      cbn [app at_type]. unfold is_type. rewrite Ha. rewrite orb_true_r. reflexivity.
  Qed.

  Lemma inits_complete us l :
    initialisers tys us l ->
    (exists t vs, us = t :: vs /\ plain t) /\
    forall r, ev (fun k => inits tys k (us ++ Op "}" :: r)) (l, r).
  Proof.
    induction 1 as [us e D|us e D|us e vs l D _ [_ IH]].
    - pose proof (derives_plain _ _ D) as (t & vs & -> & P & _).
      split; [exists t, vs; split; [reflexivity|exact P]|]. intros r.
      destruct (expr_complete _ _ (Op "}" :: r) D) as [k Hk]; [apply ends_op; reflexivity|].
      step k. cbn [inits app] in *.
      rewrite (next_eat "}") by (apply plain_op; [exact P|cbn; tauto]).
      rewrite Hk by lia. cbn [mbind option_bind]. rewrite (eat_other "," "}") by discriminate.
      rewrite eat_Op. reflexivity.
    - pose proof (derives_plain _ _ D) as (t & vs & -> & P & _).
      split; [eexists t, _; split; [reflexivity|exact P]|]. intros r. rewrite <- app_assoc.
      destruct (expr_complete _ _ (Op "," :: Op "}" :: r) D) as [k Hk]; [apply ends_op; reflexivity|].
      step (S k). cbn [inits app] in *.
      rewrite (next_eat "}") by (apply plain_op; [exact P|cbn; tauto]).
      rewrite Hk by lia. cbn [mbind option_bind]. rewrite eat_Op.
      destruct k0 as [|k0]; [lia|]. cbn [inits]. rewrite eat_Op. reflexivity.
    - pose proof (derives_plain _ _ D) as (t & ws & -> & P & _).
      split; [eexists t, _; split; [reflexivity|exact P]|]. intros r. rewrite <- app_assoc.
      specialize (IH r). thresholds.
      destruct (expr_complete _ _ (Op "," :: vs ++ Op "}" :: r) D) as [k1 Hk1]; [apply ends_op; reflexivity|].
      step (k + k1)%nat. cbn [inits app] in *.
      rewrite (next_eat "}") by (apply plain_op; [exact P|cbn; tauto]).
      rewrite Hk1 by lia. cbn [mbind option_bind]. rewrite eat_Op. rewrite Hk by lia. reflexivity.
  Qed.

  (** ** Statements *)

  Lemma simple_plain us s : simple_statement tys us s -> exists t vs, us = t :: vs /\ plain t.
  Proof.
    intros [ts st c t x p vs u ws i T Hx Hd Hi|ts e D|ts l vs e D D1|ts l o b vs e D Ho D1].
    - apply declared_plain in T as (y & q & r & -> & P). eexists _, _. split; [reflexivity|exact P].
    - apply derives_plain in D as (t & vs & -> & P & _). eexists _, _. split; [reflexivity|exact P].
    - apply derives_plain in D as (t & ws & -> & P & _). eexists _, _. split; [reflexivity|exact P].
    - apply derives_plain in D as (t & ws & -> & P & _). eexists _, _. split; [reflexivity|exact P].
  Qed.

  Lemma simple_complete us s o r :
    simple_statement tys us s -> o = ";" \/ o = ")" ->
    ev (fun k => simple tys k (us ++ Op o :: r)) (s, Op o :: r).
  Proof.
    intros H Ho.
    assert (Hend : forall r, ends (Op o :: r)) by (intros; destruct Ho as [->| ->]; apply ends_op; reflexivity).
    destruct H as [ts st c t x p vs u ws i T Hx Hd Hi|ts e D|ts l vs e D D1|ts l o' b vs e D Hb D1].
    - (* declaration *)
      rewrite <- app_assoc. cbn [app]. rewrite <- app_assoc.
      destruct (declared_complete _ _ _ _ (Id x p :: vs ++ ws ++ Op o :: r) T) as [T1 T2].
      { exact (proj1 Hx). }
      assert (Gi : ev (fun k =>
        match eat "=" (ws ++ Op o :: r) with
        | Some ts =>
            match eat "{" ts with
            | Some ts =>
                if next_is "}" ts then None
                else '(l, ts) ← inits tys k ts; Some (InitL l, ts)
            | None => '(e, ts) ← expr tys k ts; Some (InitE e, ts)
            end
        | None => Some (NoInit, ws ++ Op o :: r)
        end) (i, Op o :: r)).
      { destruct Hi as [|ws e D|ws l D].
        - exists 0%nat. intros k _. cbn [app].
          rewrite (eat_other "=") by (destruct Ho as [->| ->]; discriminate). reflexivity.
        - destruct (derives_plain _ _ D) as (t0 & r0 & -> & P & _).
          destruct (expr_complete _ _ (Op o :: r) D) as [k Hk]; [apply Hend|].
          exists k. intros k0 Hk0. cbn [app] in *. rewrite eat_Op.
          rewrite (next_eat "{") by (apply plain_op; [exact P|cbn; tauto]).
          rewrite Hk by lia. reflexivity.
        - apply inits_complete in D as [(t0 & r0 & -> & P) D]. specialize (D (Op o :: r)). thresholds.
          exists k. intros k0 Hk0. cbn [app] in *. rewrite !eat_Op. rewrite <- app_assoc. cbn [app].
          rewrite plain_op by (first [exact P|cbn; tauto]). rewrite Hk by lia. reflexivity. }
      assert (Gd : ev (fun k =>
        match eat "[" (vs ++ ws ++ Op o :: r) with
        | Some ts =>
            '(e, ts) ← expr tys k ts; n ← constant e; ts ← eat "]" ts;
            Some (PArr t n, ts)
        | None => Some (t, vs ++ ws ++ Op o :: r)
        end) (u, ws ++ Op o :: r)).
      { destruct Hd as [t|t vs e n D Hn].
        - exists 0%nat. intros k _. cbn [app]. replace (eat "[" (ws ++ Op o :: r)) with (@None (list token)); [reflexivity|].
          symmetry. destruct Hi as [|ws e D|ws l D]; cbn [app]; apply eat_other;
            destruct Ho as [->| ->]; discriminate.
        - destruct (expr_complete _ _ (Op "]" :: ws ++ Op o :: r) D) as [k Hk]; [apply ends_op; reflexivity|].
          exists k. intros k0 Hk0. cbn [app]. rewrite eat_Op. rewrite <- app_assoc. cbn [app].
          rewrite Hk by lia. cbn [mbind option_bind]. apply constant_sound in Hn. rewrite Hn.
          cbn [mbind option_bind]. rewrite eat_Op. reflexivity. }
      thresholds. exists (k + k0)%nat. intros k1 Hk1. unfold simple. rewrite T1, T2.
      cbn [mbind option_bind]. rewrite (name_Id _ _ _ _ Hx). cbn [mbind option_bind].
      rewrite Hk by lia. cbn [mbind option_bind]. rewrite Hk0 by lia. reflexivity.
    - destruct (expr_complete _ _ (Op o :: r) D) as [k Hk]; [apply Hend|].
      destruct (derives_plain _ _ D) as (t0 & r0 & -> & P & St). exists k. intros k0 Hk0.
      unfold simple. cbn [app] in *. rewrite starts_at by exact St. rewrite Hk by lia.
      cbn [mbind option_bind].
      destruct Ho as [->| ->]; reflexivity.
    - rewrite <- app_assoc. cbn [app].
      destruct (expr_complete _ _ (Op "=" :: vs ++ Op o :: r) D) as [k Hk]; [apply ends_op; reflexivity|].
      destruct (expr_complete _ _ (Op o :: r) D1) as [k1 Hk1]; [apply Hend|].
      destruct (derives_plain _ _ D) as (t0 & r0 & -> & P & St). exists (k + k1)%nat. intros k0 Hk0.
      unfold simple. cbn [app] in *. rewrite starts_at by exact St. rewrite Hk by lia.
      cbn [mbind option_bind]. change (String.eqb "=" "=") with true. cbn iota.
      rewrite Hk1 by lia. reflexivity.
    - rewrite <- app_assoc. cbn [app].
      destruct (expr_complete _ _ (Op o' :: vs ++ Op o :: r) D) as [k Hk].
      { destruct Hb; apply ends_op; reflexivity. }
      destruct (expr_complete _ _ (Op o :: r) D1) as [k1 Hk1]; [apply Hend|].
      destruct (derives_plain _ _ D) as (t0 & r0 & -> & P & St). exists (k + k1)%nat. intros k0 Hk0.
      unfold simple. cbn [app] in *. rewrite starts_at by exact St. rewrite Hk by lia.
      cbn [mbind option_bind].
      replace (String.eqb o' "=") with false by (destruct Hb; reflexivity).
      apply assign_sound in Hb. rewrite Hb. rewrite Hk1 by lia. reflexivity.
  Qed.

  Scheme statement_items_ind := Minimality for statement Sort Prop
    with items_statement_ind := Minimality for items Sort Prop.
  Combined Scheme statement_mutind from statement_items_ind, items_statement_ind.

  Definition head_ok (ts : list token) : Prop :=
    match ts with
    | Id x _ :: _ => x <> "else"
    | Op o :: _ => o <> "}"
    | [] => False
    | _ => True
    end.
  Lemma head_plain t vs : plain t -> head_ok (t :: vs).
  Proof.
    destruct t as [x p| | |o|]; cbn; try exact (fun _ => I).
    - intros H ->. apply H. cbn. tauto.
    - intros H ->. apply H. cbn. tauto.
  Qed.
  Lemma head_ok_app us r : head_ok us -> head_ok (us ++ r).
  Proof. destruct us; [intros []|]. exact (fun H => H). Qed.
  Lemma head_else us : head_ok us -> next_kw "else" us = false.
  Proof.
    destruct us as [|[x p| | | |] us]; try reflexivity.
    cbn [next_kw head_ok]. intros H.
    destruct (String.eqb_spec "else" x) as [<-|]; [contradiction|reflexivity].
  Qed.
  Lemma head_close us : head_ok us -> eat "}" us = None.
  Proof.
    destruct us as [|[x p| | |o|] us]; try reflexivity. intros H. apply eat_other. exact H.
  Qed.

  Lemma statement_complete :
    (forall o us s, statement tys o us s ->
       head_ok us /\
       forall r, (o = true -> next_kw "else" r = false) ->
         ev (fun k => stmt tys k (us ++ r)) (s, r)) /\
    (forall us l, items tys us l ->
       (us = [] \/ head_ok us) /\
       forall r, ev (fun k => stmts tys k (us ++ Op "}" :: r)) (l, r)).
  Proof.
    apply statement_mutind.
    - (* block *) intros us l _ [_ H]. split; [discriminate|]. intros r _. specialize (H r). thresholds.
      step k. cbn [stmt app]. change (next_is "{" (Op "{" :: (us ++ [Op "}"]) ++ r)) with true.
      cbn iota. rewrite eat_Op. cbn [mbind option_bind]. rewrite <- app_assoc. cbn [app].
      rewrite Hk by lia. reflexivity.
    - (* ; *) split; [discriminate|]. intros r _. step 0%nat. reflexivity.
    - (* if *) intros p cs c o us a D _ [_ H]. split; [discriminate|]. intros r Hr.
      specialize (H r (fun _ => Hr eq_refl)). thresholds.
      destruct (expr_complete _ _ (Op ")" :: us ++ r) D) as [k1 Hk1]; [apply ends_op; reflexivity|].
      step (k + k1)%nat. cbn [stmt app next_is is_op next_kw tail].
      change (String.eqb "if" "if") with true. cbn iota. rewrite eat_Op. cbn [mbind option_bind].
      rewrite <- app_assoc. cbn [app]. rewrite Hk1 by lia. cbn [mbind option_bind]. rewrite eat_Op.
      cbn [mbind option_bind]. rewrite Hk by lia. cbn [mbind option_bind].
      specialize (Hr eq_refl). unfold next_kw in Hr. unfold next_kw. rewrite Hr. reflexivity.
    - (* if else *) intros p cs c us a q o vs b D _ [_ Ha] _ [_ Hb]. split; [discriminate|].
      intros r Hr. specialize (Ha (Id "else" q :: vs ++ r) ltac:(discriminate)).
      specialize (Hb r Hr). thresholds.
      destruct (expr_complete _ _ (Op ")" :: us ++ Id "else" q :: vs ++ r) D) as [k1 Hk1]; [apply ends_op; reflexivity|].
      step (k + k0 + k1)%nat. cbn [stmt app next_is is_op next_kw tail].
      change (String.eqb "if" "if") with true. cbn iota. rewrite eat_Op. cbn [mbind option_bind].
      rewrite <- app_assoc. cbn [app]. rewrite <- app_assoc. cbn [app].
      rewrite Hk1 by lia. cbn [mbind option_bind]. rewrite eat_Op.
      cbn [mbind option_bind]. rewrite Hk0 by lia. cbn [mbind option_bind tail].
      change (String.eqb "else" "else") with true. cbn iota.
      rewrite Hk by lia. reflexivity.
    - (* while *) intros p cs c o us b D _ [_ H]. split; [discriminate|]. intros r Hr.
      specialize (H r Hr). thresholds.
      destruct (expr_complete _ _ (Op ")" :: us ++ r) D) as [k1 Hk1]; [apply ends_op; reflexivity|].
      step (k + k1)%nat. cbn [stmt app next_is is_op next_kw tail].
      change (String.eqb "if" "while") with false. change (String.eqb "while" "while") with true.
      cbn iota. rewrite eat_Op. cbn [mbind option_bind].
      rewrite <- app_assoc. cbn [app]. rewrite Hk1 by lia. cbn [mbind option_bind]. rewrite eat_Op.
      cbn [mbind option_bind]. rewrite Hk by lia. reflexivity.
    - (* for *) intros p is i cs c ss s o us b Di D Ds _ [_ H]. split; [discriminate|]. intros r Hr.
      specialize (H r Hr). thresholds.
      destruct (simple_complete _ _ ";" (cs ++ Op ";" :: ss ++ Op ")" :: us ++ r) Di) as [k1 Hk1]; [left; reflexivity|].
      destruct (expr_complete _ _ (Op ";" :: ss ++ Op ")" :: us ++ r) D) as [k2 Hk2]; [apply ends_op; reflexivity|].
      destruct (simple_complete _ _ ")" (us ++ r) Ds) as [k3 Hk3]; [right; reflexivity|].
      step (k + k1 + k2 + k3)%nat. cbn [stmt app next_is is_op next_kw tail].
      change (String.eqb "if" "for") with false. change (String.eqb "while" "for") with false.
      change (String.eqb "for" "for") with true. cbn iota. rewrite eat_Op. cbn [mbind option_bind].
      repeat (rewrite <- app_assoc; cbn [app]).
      rewrite Hk1 by lia. cbn [mbind option_bind]. rewrite eat_Op. cbn [mbind option_bind].
      rewrite Hk2 by lia. cbn [mbind option_bind]. rewrite eat_Op. cbn [mbind option_bind].
      rewrite Hk3 by lia. cbn [mbind option_bind]. rewrite eat_Op. cbn [mbind option_bind].
      rewrite Hk by lia. reflexivity.
    - (* break *) intros p. split; [discriminate|]. intros r _. step 0%nat. reflexivity.
    - (* return *) intros p us e D. split; [discriminate|]. intros r _.
      destruct (expr_complete _ _ (Op ";" :: r) D) as [k1 Hk1]; [apply ends_op; reflexivity|].
      step k1. cbn [stmt app next_is is_op next_kw tail].
      change (String.eqb "if" "return") with false. change (String.eqb "while" "return") with false.
      change (String.eqb "for" "return") with false. change (String.eqb "break" "return") with false.
      change (String.eqb "return" "return") with true. cbn iota.
      rewrite <- app_assoc. cbn [app]. rewrite Hk1 by lia. cbn [mbind option_bind].
      rewrite eat_Op. reflexivity.
    - (* simple *) intros us s D.
      destruct (simple_plain _ _ D) as (t & vs & -> & P). split; [apply head_plain; exact P|].
      intros r _. rewrite <- app_assoc. destruct (simple_complete _ _ ";" r D) as [k Hk]; [left; reflexivity|].
      step k. cbn [stmt]. cbn [app] in *.
      rewrite !plain_op by (first [exact P|cbn; tauto]).
      rewrite !plain_kw by (first [exact P|cbn; tauto]).
      rewrite Hk by lia. cbn [mbind option_bind]. rewrite eat_Op. reflexivity.
    - (* no items *) split; [left; reflexivity|]. intros r. step 0%nat. reflexivity.
    - (* items *) intros o us s vs l _ [Hu Hs] _ [Hv Hl].
      split; [right; apply head_ok_app; exact Hu|]. intros r. rewrite <- app_assoc.
      specialize (Hl r). specialize (Hs (vs ++ Op "}" :: r)). destruct Hs as [k Hk].
      { intros _. destruct Hv as [->|Hv]; [reflexivity|]. apply head_else, head_ok_app, Hv. }
      thresholds. step (k + k0)%nat. cbn [stmts].
      rewrite (head_close (us ++ _)) by (apply head_ok_app; exact Hu).
      rewrite Hk by lia. cbn [mbind option_bind]. rewrite Hk0 by lia. reflexivity.
  Qed.

  (** ** Files *)

  Lemma skip_balanced us n r : balanced us -> skip_paren (S n) (us ++ r) = skip_paren (S n) r.
  Proof.
    intros B. revert n r. induction B as [|t us H1 H2 _ IH|us vs _ IHu _ IHv]; intros n r; cbn [app].
    - reflexivity.
    - cbn [skip_paren]. destruct (is_op "(" t) eqn:E1; [apply is_op_eq in E1; contradiction|].
      destruct (is_op ")" t) eqn:E2; [apply is_op_eq in E2; contradiction|]. apply IH.
    - cbn [skip_paren]. change (is_op "(" (Op "(")) with true. cbn iota.
      rewrite <- app_assoc. rewrite IHu. cbn [app].
      change (skip_paren (S n) (vs ++ r) = skip_paren (S n) r). apply IHv.
  Qed.

  Lemma declared_name_parse (param : bool) x p r :
    declared_name tys param x ->
    (if param then name tys (Id x p :: r) else ident (Id x p :: r)) = Some (x, r) /\ ~ In x keywords.
  Proof.
    destruct param; cbn [declared_name]; intros H.
    - split; [apply name_Id; exact H|exact (proj1 H)].
    - split; [apply ident_Id; exact H|exact H].
  Qed.
  Lemma declarator_complete param us x t r :
    declares tys param us x t -> match r with Op o :: _ => o <> "[" | _ => True end ->
    ev (fun k => declarator tys k param (us ++ r)) (x, t, r).
  Proof.
    intros H Hr.
    destruct H as [ts c t x p T Hx|ts c t x p us T Hx B|ts c t x p -> T Hx|ts c t x p us e -> T Hx D].
    - destruct (declared_name_parse param x p r Hx) as [N Hk]. rewrite <- app_assoc. cbn [app].
      destruct (type_complete tys _ _ _ (Id x p :: r) T Hk) as [T1 _].
      exists 0%nat. intros k _. unfold declarator. rewrite T1. cbn [mbind option_bind].
      change (eat "(" (Id x p :: r)) with (@None (list token)). cbn iota. rewrite N. cbn [mbind option_bind].
      replace (eat "[" r) with (@None (list token)); [reflexivity|]. symmetry.
      destruct r as [|[| | |o|] r]; try reflexivity. apply eat_other. exact Hr.
    - destruct (declared_name_parse param x p (Op ")" :: Op "(" :: us ++ Op ")" :: r) Hx) as [N Hk].
      rewrite <- app_assoc. cbn [app]. rewrite <- app_assoc. cbn [app].
      destruct (type_complete tys _ _ _ (Op "(" :: Op "*" :: Id x p :: Op ")" :: Op "(" :: us ++ Op ")" :: r) T)
        as [T1 _]; [discriminate|].
      exists 0%nat. intros k _. unfold declarator. rewrite T1. cbn [mbind option_bind].
      rewrite !eat_Op. cbn [mbind option_bind]. rewrite N. cbn [mbind option_bind].
      rewrite !eat_Op. cbn [mbind option_bind]. rewrite eat_Op. cbn [mbind option_bind].
      rewrite (skip_balanced us 0 _ B). reflexivity.
    - destruct (declared_name_parse true x p (Op "[" :: Op "]" :: r) Hx) as [N Hk].
      rewrite <- app_assoc. cbn [app].
      destruct (type_complete tys _ _ _ (Id x p :: Op "[" :: Op "]" :: r) T Hk) as [T1 _].
      exists 0%nat. intros k _. unfold declarator. rewrite T1. cbn [mbind option_bind].
      change (eat "(" (Id x p :: Op "[" :: Op "]" :: r)) with (@None (list token)). cbn iota.
      rewrite N. reflexivity.
    - destruct (declared_name_parse true x p (Op "[" :: us ++ Op "]" :: r) Hx) as [N Hk].
      rewrite <- app_assoc. cbn [app]. rewrite <- app_assoc. cbn [app].
      destruct (type_complete tys _ _ _ (Id x p :: Op "[" :: us ++ Op "]" :: r) T Hk) as [T1 _].
      destruct (expr_complete _ _ (Op "]" :: r) D) as [k Hk']; [apply ends_op; reflexivity|].
      exists k. intros k0 Hk0. unfold declarator. rewrite T1. cbn [mbind option_bind].
      change (eat "(" (Id x p :: Op "[" :: us ++ Op "]" :: r)) with (@None (list token)). cbn iota.
      rewrite N. cbn [mbind option_bind]. rewrite eat_Op.
      replace (next_is "]" (us ++ Op "]" :: r)) with false.
      2: { symmetry. apply first_token in D as (t0 & vs & -> & St & _).
           destruct t0 as [| | |o|]; try reflexivity. cbn [app next_is is_op].
           destruct (String.eqb_spec "]" o) as [<-|]; [|reflexivity].
           cbn in St. repeat (destruct St as [St|St]; [discriminate St|]). destruct St. }
      rewrite Hk' by lia. cbn [mbind option_bind]. rewrite eat_Op. reflexivity.
  Qed.
  (** a declaration starts with a plain token, and not with [void )] *)
  Lemma declares_first param us x t :
    declares tys param us x t ->
    (exists y p r, us = Id y p :: r /\ plain (Id y p)) /\
    forall r, next_kw "void" (us ++ r) && next_is ")" (tail (us ++ r)) = false.
  Proof.
    assert (G : forall ts c t u r, type_of_name tys ts c t ->
              match u with Op ")" => False | _ => True end ->
              next_kw "void" (ts ++ u :: r) && next_is ")" (tail (ts ++ u :: r)) = false).
    { clear. intros ts c t u r [qs c0 ss t0 rs d ps e v Hq Hs Hr Hp] Hu.
      destruct Hq as [|p qs d0 Hq]; [|reflexivity].
      assert (Hn : next_is ")" (rs ++ ps ++ u :: r) = false).
      { destruct Hr as [|p rs d Hr]; [|reflexivity]. destruct Hp as [|]; [|reflexivity]. cbn [app].
        destruct u as [| | |o|]; try reflexivity. cbn [next_is is_op].
        destruct (String.eqb_spec ")" o) as [<-|]; [destruct Hu|reflexivity]. }
      rewrite <- !app_assoc.
      destruct Hs as [p|p|p|p q|p q|p q|p|p q|p|p q|p|p|p q|y p t' Hk Ha]; try reflexivity.
      - cbn [app tail]. rewrite Hn. apply andb_false_r.
      - cbn [app tail]. rewrite Hn. apply andb_false_r. }
    intros H.
    destruct H as [ts c t x p T Hx|ts c t x p us T Hx B|ts c t x p -> T Hx|ts c t x p us e -> T Hx D];
      (split; [apply type_of_plain in T as (y & q & r & -> & P); eexists _, _, _; split; [reflexivity|exact P]
              |intros r; rewrite <- app_assoc; cbn [app]; eapply G; [exact T|exact I]]).
  Qed.

  Lemma members_complete us l r :
    member_list tys us l -> ev (fun k => members tys k (us ++ Op "}" :: r)) (l, r).
  Proof.
    induction 1 as [|us x t vs l D _ IH].
    - step 0%nat. reflexivity.
    - rewrite <- app_assoc. cbn [app].
      destruct (declarator_complete _ _ _ _ (Op ";" :: vs ++ Op "}" :: r) D) as [k1 Hk1]; [discriminate|].
      thresholds. step (k + k1)%nat. cbn [members].
      apply declares_first in D as [(y & p & r' & -> & P) _]. cbn [app] in *.
      change (eat "}" (Id y p :: r' ++ Op ";" :: vs ++ Op "}" :: r)) with (@None (list token)).
      rewrite Hk1 by lia. cbn [mbind option_bind]. rewrite eat_Op. cbn [mbind option_bind].
      rewrite Hk by lia. reflexivity.
  Qed.
  Lemma params_complete us l r :
    parameter_list tys us l -> ev (fun k => params tys k (us ++ Op ")" :: r)) (l, r).
  Proof.
    induction 1 as [us x t D|us x t vs l D _ IH].
    - destruct (declarator_complete _ _ _ _ (Op ")" :: r) D) as [k1 Hk1]; [discriminate|].
      step k1. cbn [params]. rewrite Hk1 by lia. cbn [mbind option_bind].
      rewrite (eat_other "," ")") by discriminate. rewrite eat_Op. reflexivity.
    - rewrite <- app_assoc. cbn [app].
      destruct (declarator_complete _ _ _ _ (Op "," :: vs ++ Op ")" :: r) D) as [k1 Hk1]; [discriminate|].
      thresholds. step (k + k1)%nat. cbn [params]. rewrite Hk1 by lia. cbn [mbind option_bind].
      rewrite eat_Op. rewrite Hk by lia. reflexivity.
  Qed.
  Lemma parameters_complete us l r :
    parameters tys us l ->
    ev (fun k => if next_kw "void" (us ++ Op ")" :: r) && next_is ")" (tail (us ++ Op ")" :: r))
                 then Some ([], tail (tail (us ++ Op ")" :: r))) else params tys k (us ++ Op ")" :: r))
       (l, r).
  Proof.
    intros [p|vs l' D].
    - exists 0%nat. intros k _. reflexivity.
    - assert (G : forall r, next_kw "void" (vs ++ r) && next_is ")" (tail (vs ++ r)) = false).
      { intros r'. destruct D as [us' x t D|us' x t ws l'' D _].
        - apply declares_first in D as [_ D]. apply D.
        - apply declares_first in D as [_ D]. rewrite <- app_assoc. apply D. }
      destruct (params_complete _ _ r D) as [k Hk]. exists k. intros k0 Hk0. rewrite G. apply Hk. exact Hk0.
  Qed.
End complete.

Lemma unit_complete tys ts l : file tys ts l -> ev (fun k => unit k tys ts) l.
Proof.
  induction 1 as [tys|tys p q us fs x r ts l M Hx _ IH|tys p us c t x r ts l T Hx _ IH
    |tys us s c t x p vs ps ts l T Hx P _ IH|tys us s c t x p vs ps bs b ts l T Hx P B _ IH].
  - exists 0%nat. intros [|k] _; reflexivity.
  - destruct (members_complete _ _ _ (Id x r :: Op ";" :: ts) M) as [k1 Hk1]. thresholds.
    step (k + k1)%nat. cbn [unit next_kw tail]. change (String.eqb "typedef" "typedef") with true.
    change (String.eqb "struct" "struct") with true. cbn iota. rewrite eat_Op. cbn [mbind option_bind].
    rewrite Hk1 by lia. cbn [mbind option_bind]. rewrite name_Id by exact Hx. cbn [mbind option_bind].
    rewrite eat_Op. cbn [mbind option_bind]. apply Hk. lia.
  - destruct (type_complete tys _ _ _ (Id x r :: Op ";" :: ts) T (proj1 Hx)) as [T1 _]. thresholds.
    step k. cbn [unit next_kw tail]. change (String.eqb "typedef" "typedef") with true. cbn iota.
    apply type_of_plain in T as (y & q & r' & -> & Pl). cbn [app] in *.
    rewrite (plain_kw _ _ "struct" Pl) by (cbn; tauto).
    rewrite T1. cbn [mbind option_bind]. rewrite name_Id by exact Hx. cbn [mbind option_bind].
    rewrite eat_Op. cbn [mbind option_bind]. apply Hk. lia.
  - destruct (declared_complete tys _ _ _ _ (Id x p :: Op "(" :: vs ++ Op ")" :: Op ";" :: ts) T (proj1 Hx))
      as [T1 _].
    destruct (parameters_complete _ _ _ (Op ";" :: ts) P) as [k1 Hk1]. thresholds.
    step (k + k1)%nat. apply declared_plain in T as (y & q & r' & -> & Pl). cbn [app] in *.
    cbn [unit]. rewrite (plain_kw _ _ "typedef" Pl) by (cbn; tauto).
    rewrite T1. cbn [mbind option_bind]. rewrite name_Id by exact Hx. cbn [mbind option_bind].
    rewrite eat_Op. cbn [mbind option_bind]. rewrite Hk1 by lia. cbn [mbind option_bind].
    rewrite eat_Op. apply Hk. lia.
  - destruct (declared_complete tys _ _ _ _ (Id x p :: Op "(" :: vs ++ Op ")" :: Op "{" :: bs ++ Op "}" :: ts) T (proj1 Hx))
      as [T1 _].
    destruct (parameters_complete _ _ _ (Op "{" :: bs ++ Op "}" :: ts) P) as [k1 Hk1].
    destruct (proj2 (proj2 (statement_complete tys) _ _ B) ts) as [k2 Hk2]. thresholds.
    step (k + k1 + k2)%nat. apply declared_plain in T as (y & q & r' & -> & Pl). cbn [app] in *.
    cbn [unit]. rewrite (plain_kw _ _ "typedef" Pl) by (cbn; tauto).
    rewrite T1. cbn [mbind option_bind]. rewrite name_Id by exact Hx. cbn [mbind option_bind].
    rewrite eat_Op. cbn [mbind option_bind]. rewrite Hk1 by lia. cbn [mbind option_bind].
    rewrite (eat_other ";" "{") by discriminate. rewrite eat_Op. cbn [mbind option_bind].
    rewrite Hk2 by lia. cbn [mbind option_bind]. rewrite Hk by lia. reflexivity.
Qed.

(** ** The grammar is unambiguous *)

Lemma ev_unique {A} (f : nat -> option A) x y : ev f x -> ev f y -> x = y.
Proof.
  intros [k Hk] [l Hl]. specialize (Hk (k + l)%nat ltac:(lia)). specialize (Hl (k + l)%nat ltac:(lia)).
  congruence.
Qed.
Lemma derives_unique tys ts e1 e2 :
  derives tys Conditional ts e1 -> derives tys Conditional ts e2 -> e1 = e2.
Proof.
  intros H1 H2. pose proof (expr_complete tys _ _ [] H1 I) as G1.
  pose proof (expr_complete tys _ _ [] H2 I) as G2.
  pose proof (ev_unique _ _ _ G1 G2) as E. injection E as ->. reflexivity.
Qed.
Lemma items_unique tys ts l1 l2 : items tys ts l1 -> items tys ts l2 -> l1 = l2.
Proof.
  intros H1 H2. pose proof (proj2 (proj2 (statement_complete tys) _ _ H1) []) as G1.
  pose proof (proj2 (proj2 (statement_complete tys) _ _ H2) []) as G2.
  pose proof (ev_unique _ _ _ G1 G2) as E. injection E as ->. reflexivity.
Qed.
Lemma file_unique tys ts l1 l2 : file tys ts l1 -> file tys ts l2 -> l1 = l2.
Proof.
  intros H1 H2. exact (ev_unique _ _ _ (unit_complete _ _ _ H1) (unit_complete _ _ _ H2)).
Qed.

(** ** Statements for [Props_Grammar.v] *)

Lemma expr_exact tys ts e r :
  ev (fun k => expr tys k ts) (e, r) <->
  exists us, ts = us ++ r /\ derives tys Conditional us e /\ ends r.
Proof.
  split.
  - intros [k Hk]. specialize (Hk k ltac:(lia)).
    pose proof (proj1 (stops tys k) _ _ _ Hk) as He. apply expr_sound in Hk as (us & -> & D).
    exists us. split; [reflexivity|]. split; assumption.
  - intros (us & -> & D & He). apply expr_complete; assumption.
Qed.
Lemma unit_exact tys ts l : (exists k, unit k tys ts = Some l) <-> file tys ts l.
Proof.
  split.
  - intros [k Hk]. exact (unit_sound _ _ _ _ Hk).
  - intros H. apply unit_complete in H as [k Hk]. exists k. apply Hk. lia.
Qed.

Lemma mapM_names (funs : list (string * fundef)) l ds :
  mapM (fun f => d ← assoc (f_name f) funs; Some (f_name f, f_static f, d)) l = Some ds ->
  map fst ds = map (fun f => (f_name f, f_static f)) l.
Proof.
  revert ds. induction l as [|f l IH]; cbn; intros ds H.
  - injection H as <-. reflexivity.
  - destruct (assoc (f_name f) funs); cbn in H; [|discriminate].
    destruct (mapM _ l) as [ds'|] eqn:E; cbn in H; [|discriminate].
    injection H as <-. cbn. f_equal. apply IH. reflexivity.
Qed.
Lemma translate_grammar fs funs f ds :
  translate fs funs f = Some ds ->
  exists m ts l, preprocess 9 fs [] f = Some (m, ts) /\ file [] ts l /\
    map fst ds = map (fun f => (f_name f, f_static f)) l.
Proof.
  unfold translate. intros H. bind H. destruct p as [m ts]. bind H.
  exists m, ts, l. split; [reflexivity|]. split; [exact (unit_sound _ _ _ _ E0)|].
  exact (mapM_names _ _ _ H).
Qed.
