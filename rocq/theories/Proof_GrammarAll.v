(** * Proofs for [Props_Grammar.v]: the parser reads whatever the grammar derives *)
From Coq Require Import String.
From Verif Require Import CSem Lib CLang CFront Spec_Grammar Proof_Grammar.
Local Open Scope string_scope.
Local Open Scope list_scope.


(** [f] gives [x] with enough fuel *)
Definition ev {A} (f : nat -> option A) (x : A) : Prop :=
  exists k0, forall k, (k0 <= k)%nat -> f k = Some x.

Ltac thresholds :=
  repeat match goal with
         | H : ev _ _ |- _ => let k := fresh "k" in let Hk := fresh "Hk" in destruct H as [k Hk]
         end.
(** [ev] of a function that calls others with one unit of fuel less *)
Ltac step k0 :=
  exists (S k0); let k := fresh "k" in let Hk := fresh "Hk" in
  intros [|k] Hk; [lia|].

Definition postfix_ops : list string := ["["; "("; "."; "->"; "++"; "--"].
Definition stop (n : nat) (ts : list token) : Prop :=
  match ts with Op o :: _ => ~ In o (postfix_ops ++ concat (tight n)) | _ => True end.

Section complete.
  Context (tys : list (string * ptype)).

  Lemma type_words_keywords x : In x type_words -> In x keywords.
  Proof.
    intros H. apply elem_In. cbn in H. repeat (destruct H as [<-|H]; [reflexivity|]). destruct H.
  Qed.
  Definition starts (t : token) : Prop :=
    match t with
    | Id x _ => ordinary tys x
    | Num _ _ | Str _ => True
    | Op o => In o ["("; "++"; "--"; "&"; "*"; "-"; "~"; "!"]
    | NL => False
    end.
  Lemma ordinary_at x p r : ordinary tys x -> at_type tys (Id x p :: r) = false.
  Proof.
    intros [Hk Ha]. cbn [at_type]. unfold is_type. rewrite Ha.
    assert (E : forall l, (forall y, In y l -> In y keywords) -> elem x l = false).
    { intros l Hl. apply elem_not. intros Hin. apply Hk, Hl, Hin. }
    rewrite !E; [reflexivity| |exact type_words_keywords].
    intros y Hy. apply elem_In. cbn in Hy.
    repeat (destruct Hy as [<-|Hy]; [reflexivity|]). destruct Hy.
  Qed.
  Lemma starts_at t r : starts t -> at_type tys (t :: r) = false.
  Proof. destruct t; cbn [starts]; try reflexivity. apply ordinary_at. Qed.
  Lemma starts_close t : starts t -> is_op ")" t = false.
  Proof.
    destruct t as [| | |o|]; try reflexivity. cbn.
    repeat (intros [<-|H]; [reflexivity|revert H]). intros [].
  Qed.

  (** the first token of an expression *)
  Lemma first_token c ts e :
    derives tys c ts e ->
    exists t us, ts = t :: us /\ starts t /\
      match c with
      | Primary | Postfix =>
          match t with
          | Op o => o = "(" /\ exists u vs, us = u :: vs /\ starts u
          | _ => True
          end
      | Unary =>
          match t with
          | Op o => o = "(" -> exists u vs, us = u :: vs /\ starts u
          | _ => True
          end
      | _ => True
      end.
  Proof.
    induction 1 as
      [x p Hx|t z|s|ts e D (t & us & -> & St & _)
      |ts e D (t & us & -> & St & G)
      |ts a us i D (t & vs & -> & St & G) D1 _|ts f D (t & vs & -> & St & G)
      |ts f us l D (t & vs & -> & St & G) A|ts a x p D (t & vs & -> & St & G) Hx
      |ts a x p D (t & vs & -> & St & G) Hx|ts a D (t & vs & -> & St & G)
      |ts a D (t & vs & -> & St & G)
      |ts e D (t & us & -> & St & G)|ts a D _|ts a D _|ts a D _|ts a D _|ts a D _|ts a D _|ts a D _
      |ts e D (t & us & -> & St & G)|ts c t us a T D _
      |c d ts e Ab D (t & us & -> & St & G)|o c d ts a us b Ho D (t & vs & -> & St & G) D1 _
      |ts e D (t & us & -> & St & G)|ts c us a vs b D (t & ws & -> & St & G) D1 _ D2 _].
    - exists (Id x p), []. split; [reflexivity|]. split; [exact Hx|exact I].
    - exists (Num t z), []. repeat split.
    - exists (Str s), []. repeat split.
    - exists (Op "("), (t :: us ++ [Op ")"]). repeat split; [left; reflexivity|].
      exists t, (us ++ [Op ")"]). split; [reflexivity|exact St].
    - exists t, us. split; [reflexivity|]. split; [exact St|exact G].
    - exists t, (vs ++ Op "[" :: us ++ [Op "]"]). split; [reflexivity|]. split; [exact St|].
      destruct t as [| | |o|]; try exact I. destruct G as (-> & u & ws & -> & Su).
      split; [reflexivity|]. exists u, (ws ++ Op "[" :: us ++ [Op "]"]). split; [reflexivity|exact Su].
    - exists t, (vs ++ [Op "("; Op ")"]). split; [reflexivity|]. split; [exact St|].
      destruct t as [| | |o|]; try exact I. destruct G as (-> & u & ws & -> & Su).
      split; [reflexivity|]. eexists u, _. split; [reflexivity|exact Su].
    - exists t, (vs ++ Op "(" :: us ++ [Op ")"]). split; [reflexivity|]. split; [exact St|].
      destruct t as [| | |o|]; try exact I. destruct G as (-> & u & ws & -> & Su).
      split; [reflexivity|]. eexists u, _. split; [reflexivity|exact Su].
    - exists t, (vs ++ [Op "."; Id x p]). split; [reflexivity|]. split; [exact St|].
      destruct t as [| | |o|]; try exact I. destruct G as (-> & u & ws & -> & Su).
      split; [reflexivity|]. eexists u, _. split; [reflexivity|exact Su].
    - exists t, (vs ++ [Op "->"; Id x p]). split; [reflexivity|]. split; [exact St|].
      destruct t as [| | |o|]; try exact I. destruct G as (-> & u & ws & -> & Su).
      split; [reflexivity|]. eexists u, _. split; [reflexivity|exact Su].
    - exists t, (vs ++ [Op "++"]). split; [reflexivity|]. split; [exact St|].
      destruct t as [| | |o|]; try exact I. destruct G as (-> & u & ws & -> & Su).
      split; [reflexivity|]. eexists u, _. split; [reflexivity|exact Su].
    - exists t, (vs ++ [Op "--"]). split; [reflexivity|]. split; [exact St|].
      destruct t as [| | |o|]; try exact I. destruct G as (-> & u & ws & -> & Su).
      split; [reflexivity|]. eexists u, _. split; [reflexivity|exact Su].
    - exists t, us. split; [reflexivity|]. split; [exact St|].
      destruct t as [| | |o|]; try exact I. destruct G as (_ & G). intros _. exact G.
    - exists (Op "++"), ts. split; [reflexivity|]. split; [cbn; tauto|discriminate].
    - exists (Op "--"), ts. split; [reflexivity|]. split; [cbn; tauto|discriminate].
    - exists (Op "&"), ts. split; [reflexivity|]. split; [cbn; tauto|discriminate].
    - exists (Op "*"), ts. split; [reflexivity|]. split; [cbn; tauto|discriminate].
    - exists (Op "-"), ts. split; [reflexivity|]. split; [cbn; tauto|discriminate].
    - exists (Op "~"), ts. split; [reflexivity|]. split; [cbn; tauto|discriminate].
    - exists (Op "!"), ts. split; [reflexivity|]. split; [cbn; tauto|discriminate].
    - exists t, us. split; [reflexivity|]. split; [exact St|exact I].
    - eexists (Op "("), _. split; [reflexivity|]. split; [cbn; tauto|exact I].
    - exists t, us. split; [reflexivity|]. split; [exact St|]. destruct Ab; exact I.
    - exists t, (vs ++ Op o :: us). split; [reflexivity|]. split; [exact St|]. destruct Ho; exact I.
    - exists t, us. split; [reflexivity|]. split; [exact St|exact I].
    - exists t, (ws ++ Op "?" :: us ++ Op ":" :: vs). split; [reflexivity|]. split; [exact St|exact I].
  Qed.

  (** ** Type names *)

  (** tokens that can follow a type name *)
  Definition follows_type (ts : list token) : Prop :=
    match ts with
    | Op o :: _ => o <> "*"
    | Id x _ :: _ => ~ In x keywords
    | _ => True
    end.
  Lemma words_none ts :
    match ts with Id x _ :: _ => ~ In x type_words | _ => True end -> words type_words ts = ("", ts).
  Proof.
    destruct ts as [|[x p| | | |] l]; try reflexivity. intros H. cbn [words].
    apply elem_not in H. rewrite H. reflexivity.
  Qed.
  Lemma pointers_stars c t ps d u r :
    pointers c t ps d u -> follows_type r -> stars c t (ps ++ r) = (d, u, r).
  Proof.
    induction 1 as [c t|c t qs d ts e u Hq Hp IH]; intros Hr.
    - cbn [app]. destruct r as [|[x p| | |o|] r]; try reflexivity; cbn [stars].
      + destruct (String.eqb_spec x "const") as [->|]; [|reflexivity].
        exfalso. apply Hr. cbn. tauto.
      + destruct (String.eqb_spec o "*") as [->|]; [|reflexivity]. exfalso. apply Hr. reflexivity.
    - cbn [app stars]. change (String.eqb "*" "*") with true. cbn iota. specialize (IH Hr).
      rewrite <- app_assoc. 
      assert (G : forall c0, stars c0 (PPtr t) (qs ++ ts ++ r) = stars (c0 || d) (PPtr t) (ts ++ r)).
      { clear -Hq. induction Hq as [|p qs d Hq IH]; intros c0; cbn.
        - rewrite orb_false_r. reflexivity.
        - rewrite IH. rewrite orb_true_r. reflexivity. }
      rewrite G. exact IH.
  Qed.
  Lemma quals_stars qs d c t ts :
    qualifiers qs d -> stars c t (qs ++ ts) = stars (c || d) t ts.
  Proof.
    intros Hq. revert c. induction Hq as [|p qs d Hq IH]; intros c; cbn.
    - rewrite orb_false_r. reflexivity.
    - rewrite IH, orb_true_r. reflexivity.
  Qed.
  Lemma quals_complete qs c ts :
    qualifiers qs c -> match ts with Id x _ :: _ => x <> "const" | _ => True end ->
    quals ["const"] (qs ++ ts) = (false, c, ts).
  Proof.
    intros Hq Ht. induction Hq as [|p qs d Hq IH]; cbn.
    - destruct ts as [|[x p| | | |] l]; try reflexivity. cbn.
      destruct (String.eqb_spec x "const"); [contradiction|reflexivity].
    - rewrite IH. rewrite orb_true_r. reflexivity.
  Qed.

  Lemma type_complete us c t r :
    type_of_name tys us c t -> follows_type r ->
    type_name tys ["const"] (us ++ r) = Some (false, c, t, r) /\ at_type tys (us ++ r) = true.
  Proof.
    intros H Hr. destruct H as [qs c ts t rs d ps e u Hq Hs Hrs Hp].
    rewrite <- !app_assoc.
    assert (Hafter : match rs ++ ps ++ r with Id x _ :: _ => ~ In x type_words | _ => True end).
    { destruct Hrs as [|? ? ? ?]; [|cbn; intros H; repeat (destruct H as [H|H]; [discriminate H|]); exact H].
      destruct Hp; cbn [app]; [|exact I].
      destruct r as [|[x p| | | |] r]; try exact I. intros H. apply Hr, type_words_keywords, H. }
    assert (Hrest : stars c t (rs ++ ps ++ r) = (e, u, r)).
    { rewrite (quals_stars _ _ _ _ _ Hrs). apply pointers_stars; assumption. }
    split.
    - unfold type_name.
      rewrite (quals_complete _ _ _ Hq).
      2: { destruct Hs; cbn; try discriminate. intros ->. apply H. cbn. tauto. }
      assert (Hw : exists w r', words type_words (ts ++ rs ++ ps ++ r) = (w, r') /\
        (if String.eqb w "" then '(x, r) ← ident (ts ++ rs ++ ps ++ r); t ← assoc x tys; Some (t, r)
         else t ← assoc w basic_types; Some (t, r')) = Some (t, rs ++ ps ++ r)).
      { destruct Hs as [p|p|p|p q|p q|p q|p|p q|p|p q|p|p|p q|x p t Hk Ha];
          try (eexists _, _; split; [cbn [app words]; rewrite (words_none _ Hafter); reflexivity|reflexivity]).
        exists "", (Id x p :: rs ++ ps ++ r). split.
        - apply words_none. intros H. apply Hk, type_words_keywords, H.
        - cbn [app]. change (String.eqb "" "") with true. cbn iota.
          rewrite (ident_Id _ _ _ Hk). cbn [mbind option_bind]. rewrite Ha. reflexivity. }
      destruct Hw as (w & r' & Hw & Hb). rewrite Hw, Hb. cbn [mbind option_bind].
      rewrite Hrest. reflexivity.
    - destruct Hq as [|]; [|reflexivity]. cbn [app].
      destruct Hs as [p|p|p|p q|p q|p q|p|p q|p|p q|p|p|p q|x p t Hk Ha]; try reflexivity.
      cbn [app at_type]. unfold is_type. rewrite Ha. rewrite orb_true_r. reflexivity.
  Qed.

  (** ** Expressions *)

  (** the operators of a primary expression and what follows it *)
  Definition primary_postfix (k : nat) (ts : list token) : option (pexpr * list token) :=
    '(e, ts) ← primary tys k ts; postfix tys k e ts.

  Definition read_as (c : category) (ts : list token) (e : pexpr) : Prop :=
    match c with
    | Primary => forall r, ev (fun k => primary tys k (ts ++ r)) (e, r)
    | Postfix => forall r x,
        ev (fun k => postfix tys k e r) x -> ev (fun k => primary_postfix k (ts ++ r)) x
    | Unary | Cast => forall r, stop 0 r -> ev (fun k => unary tys k (ts ++ r)) (e, r)
    | Conditional => forall r, ends r -> ev (fun k => expr tys k (ts ++ r)) (e, r)
    | _ => forall n r x, (n < 10)%nat -> c = cat (S n) -> stop n r ->
        ev (fun k => operands tys k (level n) (tight n) e r) x ->
        ev (fun k => binary tys k (tight (S n)) (ts ++ r)) x
    end.
  Definition read_level (n : nat) (ts : list token) (e : pexpr) : Prop :=
    forall r x, stop n r -> ev (fun k => operands tys k (level n) (tight n) e r) x ->
      ev (fun k => binary tys k (tight (S n)) (ts ++ r)) x.
  Lemma read_as_level n ts e : (n < 10)%nat -> read_as (cat (S n)) ts e <-> read_level n ts e.
  Proof.
    intros Hn. unfold read_level. split.
    - intros H r x. do 10 (destruct n as [|n]; [cbn in H; eapply H; [lia|reflexivity]|]). lia.
    - intros H. do 10 (destruct n as [|n];
        [cbn; intros [|[|[|[|[|[|[|[|[|[|n]]]]]]]]]] r x Hn' E; try discriminate E; try (exact (H r x)); lia|]).
      lia.
  Qed.

  Lemma above_cat c d : above c d -> exists n, (n < 10)%nat /\ c = cat n /\ d = cat (S n).
  Proof.
    intros []; [exists 0%nat|exists 1%nat|exists 2%nat|exists 3%nat|exists 4%nat|exists 5%nat
      |exists 6%nat|exists 7%nat|exists 8%nat|exists 9%nat]; repeat split; lia.
  Qed.
  Lemma operator_cat o c d :
    operator o c d ->
    exists n, (n < 10)%nat /\ c = cat n /\ d = cat (S n) /\ elem o (level n) = true /\
      forall r, stop n (Op o :: r).
  Proof.
    assert (G : forall n o, elem o (postfix_ops ++ concat (tight n)) = false ->
                 forall r, stop n (Op o :: r)).
    { intros n o' H r. cbn [stop]. apply elem_not. exact H. }
    intros [];
      [exists 0%nat|exists 0%nat|exists 0%nat|exists 1%nat|exists 1%nat|exists 2%nat|exists 2%nat
      |exists 3%nat|exists 3%nat|exists 3%nat|exists 3%nat|exists 4%nat|exists 4%nat|exists 5%nat
      |exists 6%nat|exists 7%nat|exists 8%nat|exists 9%nat];
      (split; [lia|]); (split; [reflexivity|]); (split; [reflexivity|]); (split; [reflexivity|]);
      apply G; reflexivity.
  Qed.

  Lemma stop_level n r :
    (n < 10)%nat -> stop (S n) r -> stop n r /\ match r with Op o :: _ => elem o (level n) = false | _ => True end.
  Proof.
    intros Hn H. destruct r as [|[| | |o|] r]; try (split; exact I).
    cbn [stop] in *. rewrite tight_S in H by exact Hn. cbn [concat] in H. split.
    - intros H'. apply H. apply in_app_or in H' as [H'|H']; apply in_or_app; [left; exact H'|].
      right. apply in_or_app. right. exact H'.
    - apply elem_not. intros H'. apply H. apply in_or_app. right. apply in_or_app. left. exact H'.
  Qed.
  Lemma operands_stop n e r :
    match r with Op o :: _ => elem o (level n) = false | _ => True end ->
    ev (fun k => operands tys k (level n) (tight n) e r) (e, r).
  Proof.
    intros H. step 0%nat. cbn [operands]. destruct r as [|[| | |o|] r]; try reflexivity.
    rewrite H. reflexivity.
  Qed.
  (** a whole expression of level [n] *)
  Lemma read_whole n ts e r :
    (n <= 10)%nat -> read_as (cat n) ts e -> stop n r ->
    ev (fun k => binary tys k (tight n) (ts ++ r)) (e, r).
  Proof.
    intros Hn H Hr. destruct n as [|n].
    - specialize (H r Hr). thresholds. step k. cbn [binary tight Nat.sub skipn levels].
      apply Hk. lia.
    - apply read_as_level in H; [|lia]. apply stop_level in Hr as [Hr Hr']; [|lia].
      apply H; [exact Hr|]. apply operands_stop. exact Hr'.
  Qed.

  (** [unary] of something that is neither a cast nor starts with an operator *)
  Lemma unary_postfix ts r x :
    (exists t us, ts = t :: us /\ starts t /\
       match t with Op o => o = "(" /\ exists u vs, us = u :: vs /\ starts u | _ => True end) ->
    ev (fun k => primary_postfix k (ts ++ r)) x -> ev (fun k => unary tys k (ts ++ r)) x.
  Proof.
    intros (t & us & -> & St & G) H. thresholds. step k. specialize (Hk k0 ltac:(lia)).
    unfold primary_postfix in Hk. cbn [unary app] in *.
    destruct t as [| | |o|]; try exact Hk.
    destruct G as (-> & u & vs & -> & Su). cbn [app] in *.
    rewrite starts_at by exact Su.
    change (elem "(" ["++"; "--"]) with false. change (String.eqb "(" "++") with false.
    change (String.eqb "(" "--") with false. change (String.eqb "(" "*") with false.
    change (String.eqb "(" "&") with false. change (elem "(" ["!"; "~"; "-"]) with false.
    rewrite andb_false_r. exact Hk.
  Qed.
  Lemma postfix_stop e r : stop 0 r -> ev (fun k => postfix tys k e r) (e, r).
  Proof.
    intros H. step 0%nat. cbn [postfix]. destruct r as [|[| | |o|] r]; try reflexivity.
    cbn [stop] in H.
    assert (G : forall y, In y postfix_ops -> String.eqb o y = false).
    { intros y Hy. destruct (String.eqb_spec o y) as [->|]; [|reflexivity].
      exfalso. apply H. apply in_or_app. left. exact Hy. }
    rewrite !G by (cbn; tauto). reflexivity.
  Qed.

  Scheme derives_args_ind := Minimality for derives Sort Prop
    with arguments_derives_ind := Minimality for arguments Sort Prop.
  Combined Scheme derives_mutind from derives_args_ind, arguments_derives_ind.

  Lemma starts_eat t r : starts t -> eat ")" (t :: r) = None.
  Proof. intros H. unfold eat. rewrite (starts_close _ H). reflexivity. Qed.

  Lemma complete :
    (forall c ts e, derives tys c ts e -> read_as c ts e) /\
    (forall us l, arguments tys us l ->
       (exists t vs, us = t :: vs /\ starts t) /\
       forall r, ev (fun k => args tys k (us ++ Op ")" :: r)) (l, r)).
  Proof.
    apply derives_mutind; cbn [read_as].
    - (* identifier *) intros x p Hx r. step 0%nat. cbn [primary app].
      rewrite (name_Id _ _ _ _ Hx). reflexivity.
    - (* constant *) intros t z r. step 0%nat. reflexivity.
    - (* string *) intros s r. step 0%nat. reflexivity.
    - (* parentheses *) intros ts e _ H r. specialize (H (Op ")" :: r)).
      destruct H as [k Hk].
      { cbn. intros H. repeat (destruct H as [H|H]; [discriminate H|]). exact H. }
      step k. cbn [primary app]. change (eat "(" (Op "(" :: (ts ++ [Op ")"]) ++ r)) with (Some ((ts ++ [Op ")"]) ++ r)).
      cbn [mbind option_bind]. rewrite <- app_assoc. cbn [app]. rewrite Hk by lia. reflexivity.
    - (* primary *) intros ts e _ H r x Hx. specialize (H r). thresholds.
      exists (k + k0)%nat. intros k1 Hk1. unfold primary_postfix. rewrite Hk0 by lia.
      cbn [mbind option_bind]. apply Hk. lia.
    - (* index *) intros ts a us i _ Ha _ Hi r x Hx. specialize (Hi (Op "]" :: r)).
      destruct Hi as [k1 Hk1].
      { cbn. intros H. repeat (destruct H as [H|H]; [discriminate H|]). exact H. }
      rewrite <- app_assoc. cbn [app]. rewrite <- app_assoc. apply Ha. thresholds.
      step (k + k1)%nat. cbn [postfix app]. change (String.eqb "[" "[") with true. cbn iota.
      rewrite Hk1 by lia. cbn [mbind option_bind]. change (eat "]" (Op "]" :: r)) with (Some r).
      cbn [mbind option_bind]. apply Hk. lia.
    - (* call without arguments *) intros ts f _ Hf r x Hx. rewrite <- app_assoc. apply Hf.
      thresholds. step (S k). cbn [postfix app].
      change (String.eqb "(" "[") with false. change (String.eqb "(" "(") with true. cbn iota.
      destruct k0 as [|k0]; [lia|]. cbn [args]. change (eat ")" (Op ")" :: r)) with (Some r).
      cbn [mbind option_bind]. apply Hk. lia.
    - (* call *) intros ts f us l _ Hf _ [_ Hl] r x Hx. rewrite <- app_assoc. cbn [app].
      rewrite <- app_assoc. apply Hf. specialize (Hl r). thresholds. step (k + k0)%nat.
      cbn [postfix app]. change (String.eqb "(" "[") with false.
      change (String.eqb "(" "(") with true. cbn iota. rewrite Hk0 by lia.
      cbn [mbind option_bind]. apply Hk. lia.
    - (* dot *) intros ts a x p _ Ha Hx r y Hy. rewrite <- app_assoc. apply Ha. thresholds. step k.
      cbn [postfix app]. change (String.eqb "." "[") with false. change (String.eqb "." "(") with false.
      change (String.eqb "." "->") with false. change (String.eqb "." ".") with true. cbn iota.
      rewrite (ident_Id _ _ _ Hx). cbn [mbind option_bind]. apply Hk. lia.
    - (* arrow *) intros ts a x p _ Ha Hx r y Hy. rewrite <- app_assoc. apply Ha. thresholds. step k.
      cbn [postfix app]. change (String.eqb "->" "[") with false. change (String.eqb "->" "(") with false.
      change (String.eqb "->" "->") with true. cbn iota.
      rewrite (ident_Id _ _ _ Hx). cbn [mbind option_bind]. apply Hk. lia.
    - (* postfix ++ *) intros ts a _ Ha r x Hx. rewrite <- app_assoc. apply Ha. thresholds. step k.
      cbn [postfix app]. change (String.eqb "++" "[") with false. change (String.eqb "++" "(") with false.
      change (String.eqb "++" "->") with false. change (String.eqb "++" ".") with false.
      change (String.eqb "++" "++") with true. cbn iota. apply Hk. lia.
    - (* postfix -- *) intros ts a _ Ha r x Hx. rewrite <- app_assoc. apply Ha. thresholds. step k.
      cbn [postfix app]. change (String.eqb "--" "[") with false. change (String.eqb "--" "(") with false.
      change (String.eqb "--" "->") with false. change (String.eqb "--" ".") with false.
      change (String.eqb "--" "++") with false.
      change (String.eqb "--" "--") with true. cbn iota. apply Hk. lia.
    - (* postfix *) intros ts e D H r Hr. apply unary_postfix.
      + apply first_token in D as (t & us & -> & St & G). exists t, us. split; [reflexivity|].
        split; assumption.
      + apply H. apply postfix_stop. exact Hr.
    - (* prefix ++ *) intros ts a D H r Hr. specialize (H r Hr). thresholds. step k.
      apply first_token in D as (t & us & -> & St & G). cbn [unary app].
      change (elem "++" ["++"; "--"]) with true. cbn [andb].
      replace (next_is "(" (t :: us ++ r) && at_type tys (tail (t :: us ++ r))) with false.
      2: { destruct t as [| | |o|]; try reflexivity. cbn [next_is is_op tail].
           destruct (String.eqb_spec "(" o) as [<-|]; [|reflexivity].
           destruct (G eq_refl) as (u & vs & -> & Su). cbn [app]. rewrite starts_at by exact Su. reflexivity. }
      change (String.eqb "++" "++") with true. cbn iota. cbn [app] in Hk. rewrite Hk by lia. reflexivity.
    - (* prefix -- *) intros ts a D H r Hr. specialize (H r Hr). thresholds. step k.
      apply first_token in D as (t & us & -> & St & G). cbn [unary app].
      change (elem "--" ["++"; "--"]) with true. cbn [andb].
      replace (next_is "(" (t :: us ++ r) && at_type tys (tail (t :: us ++ r))) with false.
      2: { destruct t as [| | |o|]; try reflexivity. cbn [next_is is_op tail].
           destruct (String.eqb_spec "(" o) as [<-|]; [|reflexivity].
           destruct (G eq_refl) as (u & vs & -> & Su). cbn [app]. rewrite starts_at by exact Su. reflexivity. }
      change (String.eqb "--" "++") with false. change (String.eqb "--" "--") with true.
      cbn iota. cbn [app] in Hk. rewrite Hk by lia. reflexivity.
    - (* & *) intros ts a _ H r Hr. specialize (H r Hr). thresholds. step k. cbn [unary app].
      change (elem "&" ["++"; "--"]) with false. cbn [andb].
      change (String.eqb "&" "++") with false. change (String.eqb "&" "--") with false.
      change (String.eqb "&" "*") with false. change (String.eqb "&" "&") with true.
      cbn iota. rewrite Hk by lia. reflexivity.
    - (* * *) intros ts a _ H r Hr. specialize (H r Hr). thresholds. step k. cbn [unary app].
      change (elem "*" ["++"; "--"]) with false. cbn [andb].
      change (String.eqb "*" "++") with false. change (String.eqb "*" "--") with false.
      change (String.eqb "*" "*") with true.
      cbn iota. rewrite Hk by lia. reflexivity.
    - (* - *) intros ts a _ H r Hr. specialize (H r Hr). thresholds. step k. cbn [unary app].
      change (elem "-" ["++"; "--"]) with false. cbn [andb].
      change (String.eqb "-" "++") with false. change (String.eqb "-" "--") with false.
      change (String.eqb "-" "*") with false. change (String.eqb "-" "&") with false.
      change (elem "-" ["!"; "~"; "-"]) with true.
      cbn iota. rewrite Hk by lia. reflexivity.
    - (* ~ *) intros ts a _ H r Hr. specialize (H r Hr). thresholds. step k. cbn [unary app].
      change (elem "~" ["++"; "--"]) with false. cbn [andb].
      change (String.eqb "~" "++") with false. change (String.eqb "~" "--") with false.
      change (String.eqb "~" "*") with false. change (String.eqb "~" "&") with false.
      change (elem "~" ["!"; "~"; "-"]) with true.
      cbn iota. rewrite Hk by lia. reflexivity.
    - (* ! *) intros ts a _ H r Hr. specialize (H r Hr). thresholds. step k. cbn [unary app].
      change (elem "!" ["++"; "--"]) with false. cbn [andb].
      change (String.eqb "!" "++") with false. change (String.eqb "!" "--") with false.
      change (String.eqb "!" "*") with false. change (String.eqb "!" "&") with false.
      change (elem "!" ["!"; "~"; "-"]) with true.
      cbn iota. rewrite Hk by lia. reflexivity.
    - (* unary *) intros ts e _ H. exact H.
    - (* cast *) intros ts c t us a T _ H r Hr. specialize (H r Hr). thresholds. step k.
      destruct (type_complete ts c t (Op ")" :: us ++ r) T) as [T1 T2]; [discriminate|].
      cbn [unary app]. rewrite <- app_assoc. cbn [app]. rewrite T1, T2.
      change (elem "(" ["++"; "--"]) with false. change (String.eqb "(" "++") with false.
      change (String.eqb "(" "--") with false. change (String.eqb "(" "*") with false.
      change (String.eqb "(" "&") with false. change (elem "(" ["!"; "~"; "-"]) with false.
      change (String.eqb "(" "(") with true. cbn [andb mbind option_bind].
      change (eat ")" (Op ")" :: us ++ r)) with (Some (us ++ r)). cbn [mbind option_bind].
      rewrite Hk by lia. reflexivity.
    - (* up *) intros c d ts e Ab _ H. apply above_cat in Ab as (n & Hn & -> & ->).
      apply read_as_level; [exact Hn|]. intros r x Hr Hx.
      apply (read_whole n _ _ r) in H; [|lia|exact Hr]. thresholds. step (k + k0)%nat.
      rewrite tight_S by exact Hn. cbn [binary]. rewrite Hk0 by lia. cbn [mbind option_bind].
      apply Hk. lia.
    - (* binary *) intros o c d ts a us b Ho _ Ha _ Hb.
      apply operator_cat in Ho as (n & Hn & -> & -> & Hin & Hst).
      apply read_as_level; [exact Hn|]. apply read_as_level in Ha; [|exact Hn].
      intros r x Hr Hx. rewrite <- app_assoc. cbn [app]. apply Ha; [apply Hst|].
      apply (read_whole n _ _ r) in Hb; [|lia|exact Hr]. thresholds. step (k + k0)%nat.
      cbn [operands]. rewrite Hin, Hk0 by lia. cbn [mbind option_bind]. apply Hk. lia.
    - (* logical or *) intros ts e _ H r Hr.
      assert (Hs : stop 10 r /\ eat "?" r = None).
      { destruct r as [|[| | |o|] r]; try (split; [exact I|reflexivity]). cbn [ends] in Hr. split.
        - cbn [stop]. intros H'. apply Hr. clear -H'. apply elem_In. apply elem_In in H'.
          cbn in H'. repeat (apply orb_prop in H' as [H'|H'];
            [apply String.eqb_eq in H'; subst; reflexivity|]). discriminate H'.
        - cbn [eat is_op]. destruct (String.eqb_spec "?" o) as [<-|]; [|reflexivity].
          exfalso. apply Hr. cbn. tauto. }
      destruct Hs as [Hs Hq]. apply (read_whole 10 _ _ r) in H; [|lia|exact Hs]. thresholds.
      step k. cbn [expr]. change levels with (tight 10). rewrite Hk by lia.
      cbn [mbind option_bind]. rewrite Hq. reflexivity.
    - (* conditional *) intros ts c us a vs b _ Hc _ Ha _ Hb r Hr.
      specialize (Hb r Hr). specialize (Ha (Op ":" :: vs ++ r)).
      destruct Ha as [ka Ha].
      { cbn. intros H. repeat (destruct H as [H|H]; [discriminate H|]). exact H. }
      apply (read_whole 10 _ _ (Op "?" :: us ++ Op ":" :: vs ++ r)) in Hc; [|lia|].
      2: { apply elem_not. reflexivity. }
      thresholds. rewrite <- app_assoc. cbn [app]. rewrite <- app_assoc. cbn [app].
      step (k + k0 + ka)%nat. cbn [expr]. change levels with (tight 10).
      rewrite Hk0 by lia. cbn [mbind option_bind].
      change (eat "?" (Op "?" :: us ++ Op ":" :: vs ++ r)) with (Some (us ++ Op ":" :: vs ++ r)).
      cbn iota beta. rewrite Ha by lia. cbn [mbind option_bind].
      change (eat ":" (Op ":" :: vs ++ r)) with (Some (vs ++ r)). cbn [mbind option_bind].
      rewrite Hk by lia. reflexivity.
    - (* one argument *) intros ts a D H. apply first_token in D as (t & us & -> & St & _).
      split; [exists t, us; split; [reflexivity|exact St]|]. intros r.
      specialize (H (Op ")" :: r)). destruct H as [k Hk].
      { cbn. intros H. repeat (destruct H as [H|H]; [discriminate H|]). exact H. }
      step k. cbn [args app]. rewrite (starts_eat _ _ St). cbn [app] in Hk. rewrite Hk by lia.
      reflexivity.
    - (* more arguments *) intros ts a us l D H _ [(u & ws & -> & Su) Hl].
      apply first_token in D as (t & vs & -> & St & _).
      split; [exists t, (vs ++ Op "," :: u :: ws); split; [reflexivity|exact St]|]. intros r.
      specialize (Hl r). specialize (H (Op "," :: (u :: ws) ++ Op ")" :: r)). destruct H as [k Hk].
      { cbn. intros H. repeat (destruct H as [H|H]; [discriminate H|]). exact H. }
      thresholds. rewrite <- app_assoc. step (k + k0)%nat. cbn [args app].
      rewrite (starts_eat _ _ St). cbn [app] in *. rewrite Hk by lia. cbn [mbind option_bind].
      change (eat "," (Op "," :: u :: ws ++ Op ")" :: r)) with (Some (u :: ws ++ Op ")" :: r)).
      cbn [next_is]. rewrite (starts_close _ Su). rewrite Hk0 by lia. reflexivity.
  Qed.
End complete.

(** ** Where the parser stops *)

Lemma stop_S n r :
  (n < 10)%nat -> stop n r -> match r with Op o :: _ => elem o (level n) = false | _ => True end ->
  stop (S n) r.
Proof.
  intros Hn H Hl. destruct r as [|[| | |o|] r]; try exact I. cbn [stop] in *.
  rewrite tight_S by exact Hn. cbn [concat]. intros H'. apply in_app_or in H' as [H'|H'].
  - apply H. apply in_or_app. left. exact H'.
  - apply in_app_or in H' as [H'|H'].
    + apply elem_not in Hl. contradiction.
    + apply H. apply in_or_app. right. exact H'.
Qed.
Lemma stop_ends r : stop 10 r -> eat "?" r = None -> ends r.
Proof.
  destruct r as [|[| | |o|] r]; try exact (fun _ _ => I). cbn [stop ends eat is_op]. intros H Hq H'.
  destruct (String.eqb_spec "?" o) as [<-|Hne]; [discriminate|]. apply H. clear H Hq.
  cbn in H'. apply elem_In.
  repeat (destruct H' as [<-|H']; [first [reflexivity|contradiction]|]). destruct H'.
Qed.
Definition all_stop (tys : list (string * ptype)) (k : nat) : Prop :=
  (forall ts e r, expr tys k ts = Some (e, r) -> ends r) /\
  (forall n ts e r, (n <= 10)%nat -> binary tys k (tight n) ts = Some (e, r) -> stop n r) /\
  (forall n a ts e r, (n < 10)%nat -> operands tys k (level n) (tight n) a ts = Some (e, r) ->
     stop n ts -> stop (S n) r) /\
  (forall ts e r, unary tys k ts = Some (e, r) -> stop 0 r) /\
  (forall a ts e r, postfix tys k a ts = Some (e, r) -> stop 0 r).
Lemma stops tys k : all_stop tys k.
Proof.
  induction k as [|k (IHe & IHb & IHo & IHu & IHq)].
  { repeat split; intros; discriminate. }
  assert (Hpq : forall ts e r, primary tys k ts ≫= (fun '(e, ts) => postfix tys k e ts) = Some (e, r) ->
     stop 0 r).
  { intros ts e r H. binds H. exact (IHq _ _ _ _ H). }
  refine (conj _ (conj _ (conj _ (conj _ _)))).
  - intros ts e r H. cbn [expr] in H. binds H. destruct (eat "?" l) eqn:Eq.
    + binds H. injection H as <- <-. exact (IHe _ _ _ E2).
    + injection H as <- <-. change levels with (tight 10) in E. apply IHb in E; [|lia].
      apply stop_ends; assumption.
  - intros n ts e r Hn H. destruct n as [|n]; cbn [binary] in H.
    + exact (IHu _ _ _ H).
    + rewrite tight_S in H by lia. binds H. apply IHb in E; [|lia].
      exact (IHo n _ _ _ _ ltac:(lia) H E).
  - intros n a ts e r Hn H Hs. cbn [operands] in H.
    assert (Hstop : Some (a, ts) = Some (e, r) ->
      match ts with Op o :: _ => elem o (level n) = false | _ => True end -> stop (S n) r).
    { intros H' Hl. injection H' as <- <-. apply stop_S; assumption. }
    destruct ts as [|[| | |o|] l]; try exact (Hstop H I).
    destruct (elem o (level n)) eqn:El; [|exact (Hstop H eq_refl)].
    binds H. apply IHb in E; [|lia]. exact (IHo n _ _ _ _ Hn H E).
  - intros ts e r H. cbn [unary] in H.
    destruct ts as [|[| | |o|] l]; try exact (Hpq _ _ _ H).
    destruct (elem o ["++"; "--"] && next_is "(" l && at_type tys (tail l)); [discriminate|].
    repeat match type of H with
           | (if ?c then _ else _) = _ =>
               destruct c; [binds H; injection H as <- <-; eapply IHu; eassumption|]
           end.
    exact (Hpq _ _ _ H).
  - intros a ts e r H. cbn [postfix] in H.
    assert (Hstop : Some (a, ts) = Some (e, r) ->
      match ts with Op o :: _ => ~ In o postfix_ops | _ => True end -> stop 0 r).
    { intros H' Hl. injection H' as <- <-. destruct ts as [|[| | |o|] l]; try exact I.
      cbn [stop]. intros Hin. apply in_app_or in Hin as [Hin|Hin]; [contradiction|destruct Hin]. }
    destruct ts as [|[| | |o|] l]; try exact (Hstop H I).
    destruct (String.eqb_spec o "[") as [->|N1]; [binds H; exact (IHq _ _ _ _ H)|].
    destruct (String.eqb_spec o "(") as [->|N2]; [binds H; exact (IHq _ _ _ _ H)|].
    destruct (String.eqb_spec o "->") as [->|N3]; [binds H; exact (IHq _ _ _ _ H)|].
    destruct (String.eqb_spec o ".") as [->|N4]; [binds H; exact (IHq _ _ _ _ H)|].
    destruct (String.eqb_spec o "++") as [->|N5]; [exact (IHq _ _ _ _ H)|].
    destruct (String.eqb_spec o "--") as [->|N6]; [exact (IHq _ _ _ _ H)|].
    apply (Hstop H). intros Hin. cbn in Hin.
    repeat (destruct Hin as [<-|Hin]; [contradiction|]). destruct Hin.
Qed.
