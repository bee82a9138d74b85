(** * Proof_Prep: directives and macros of [CFront] are those of [Spec_Prep] *)
From Coq Require Import String Ascii.
From Verif Require Import CSem Lib CLang CFront Spec_Lex Proof_Lex Spec_Prep.
Local Open Scope string_scope.
Local Open Scope list_scope.

(** ** Tables *)
Lemma assoc_entry {A} x (l : list (string * A)) a : assoc x l = Some a <-> entry_of x l a.
Proof.
  split.
  - induction l as [|(y, b) l IH]; [discriminate|]. cbn. destruct (String.eqb_spec x y) as [->|N].
    + intros H. injection H as ->. constructor.
    + intros H. constructor; [congruence|auto].
  - induction 1 as [a l|y b l a N H IH]; cbn.
    + by rewrite String.eqb_refl.
    + destruct (String.eqb_spec x y); [congruence|done].
Qed.
Lemma assoc_none {A} x (l : list (string * A)) : assoc x l = None <-> no_entry x l.
Proof.
  split.
  - intros H a E. apply assoc_entry in E. congruence.
  - intros H. destruct (assoc x l) as [a|] eqn:E; [|done]. apply assoc_entry in E. by destruct (H a).
Qed.
Lemma entry_unique {A} x (l : list (string * A)) a b : entry_of x l a -> entry_of x l b -> a = b.
Proof. intros H K. apply assoc_entry in H, K. congruence. Qed.

(** ** Macro replacement *)
Lemma expand_all_le m (f g : list token -> option (list token)) ts us :
  (forall a b, f a = Some b -> g a = Some b) -> expand_all f m ts = Some us -> expand_all g m ts = Some us.
Proof.
  intros L. revert us. induction ts as [|t ts IH]; intros us H; [done|]. cbn in H |- *.
  destruct (match t with Id x _ => match assoc x m with Some b => f b | None => Some [t] end | _ => Some [t] end)
    as [a|] eqn:E; [|discriminate].
  assert (E' : match t with Id x _ => match assoc x m with Some b => g b | None => Some [t] end | _ => Some [t] end = Some a).
  { destruct t as [x b|t z|s|x|]; try done. destruct (assoc x m) as [body|]; [by apply L|done]. }
  rewrite E'. cbn in H |- *. destruct (expand_all f m ts) as [b|]; [|discriminate]. by rewrite (IH b eq_refl).
Qed.
Lemma expand_S m k ts us : expand k m ts = Some us -> expand (S k) m ts = Some us.
Proof.
  revert ts us. induction k as [|k IH]; intros ts us H; [discriminate|].
  change (expand_all (expand (S k) m) m ts = Some us). change (expand_all (expand k m) m ts = Some us) in H.
  by apply (expand_all_le m (expand k m)).
Qed.
Lemma expand_le m k j ts us : (k <= j)%nat -> expand k m ts = Some us -> expand j m ts = Some us.
Proof. induction 1; [done|]. intros H'. apply expand_S. auto. Qed.
Lemma expand_least m k ts us : expand k m ts = Some us ->
  exists j, (j < k)%nat /\ expand (S j) m ts = Some us /\ expand j m ts = None.
Proof.
  induction k as [|k IH]; intros H; [discriminate|]. destruct (expand k m ts) as [vs|] eqn:E.
  - pose proof (expand_S _ _ _ _ E) as E'. rewrite H in E'. injection E' as <-.
    destruct (IH eq_refl) as (j & L & H1 & H2). exists j. split; [lia|done].
  - exists k. split; [lia|done].
Qed.
Lemma expand_sound m k : forall hide ts us,
  (forall x b, In x hide -> expand k m [Id x b] = None) -> expand k m ts = Some us -> replaced m hide ts us.
Proof.
  induction k as [k IHk] using lt_wf_ind. intros hide ts us Hide H.
  destruct k as [|k]; [discriminate|]. change (expand_all (expand k m) m ts = Some us) in H.
  revert us H. induction ts as [|t ts IH]; intros us H; [injection H as <-; constructor|]. cbn in H.
  destruct (match t with Id x _ => match assoc x m with Some b => expand k m b | None => Some [t] end | _ => Some [t] end)
    as [a|] eqn:E; [|discriminate]. cbn in H.
  destruct (expand_all (expand k m) m ts) as [vs|]; [|discriminate]. injection H as <-. specialize (IH _ eq_refl).
  destruct t as [x b|t z|s|x|]; try (injection E as <-; apply replaced_other; [discriminate|done]).
  destruct (assoc x m) as [body|] eqn:A.
  2:{ injection E as <-. apply replaced_name; [by apply assoc_none|done]. }
  assert (One : forall j vs, expand j m body = Some vs -> expand (S j) m [Id x b] = Some vs).
  { intros j us E'. change (expand_all (expand j m) m [Id x b] = Some us). cbn. rewrite A, E'. cbn. by rewrite app_nil_r. }
  assert (Two : forall j vs, expand (S j) m [Id x b] = Some vs -> expand j m body = Some vs).
  { intros j us E'. change (expand_all (expand j m) m [Id x b] = Some us) in E'. cbn in E'. rewrite A in E'.
    destruct (expand j m body); [|discriminate]. cbn in E'. by rewrite app_nil_r in E'. }
  apply replaced_macro with body; [| | |done].
  - intros I. pose proof (One k a E) as K. by rewrite (Hide x b I) in K.
  - by apply assoc_entry.
  - destruct (expand_least m (S k) [Id x b] a) as (j & L & H1 & H2); [auto|].
    apply (IHk j); [lia| |auto]. intros y c [<-|Y].
    + destruct (expand j m [Id x c]) as [us|] eqn:K; [|done]. exfalso.
      destruct j as [|j]; [discriminate K|]. change (expand_all (expand j m) m [Id x c] = Some us) in K.
      change (expand_all (expand j m) m [Id x b] = None) in H2. cbn in K, H2. rewrite A in K, H2.
      by destruct (expand j m body).
    + destruct (expand j m [Id y c]) as [us|] eqn:K; [|done].
      apply (expand_le m j (S k)) in K; [|lia]. by rewrite (Hide y c Y) in K.
Qed.
Lemma replaced_unique m hide ts us : replaced m hide ts us -> forall vs, replaced m hide ts vs -> us = vs.
Proof.
  induction 1 as [hide|hide t ts us N H IH|hide x b ts us N H IH|hide x b ts us I H IH|hide x b body vs ts us N E H IH H' IH'];
    intros ws K; inversion K; subst;
    try match goal with E : forall x b, Id ?y ?c <> Id x b |- _ => by destruct (E y c) end;
    try match goal with M : no_entry ?y m, E : entry_of ?y m _ |- _ => by destruct (M _ E) end;
    try done; try (f_equal; by eauto).
  match goal with M : entry_of x m ?c |- _ =>
    match c with body => fail 1 | _ => pose proof (entry_unique _ _ _ _ E M); subst c end end.
  f_equal; by eauto.
Qed.

(** ** Lines *)
Lemma lines_cons t ts : t <> NL -> lines (t :: ts) = match lines ts with [] => [[t]] | l :: ls => (t :: l) :: ls end.
Proof. by destruct t. Qed.
Lemma lines_complete ts ls : text_lines ts ls -> lines ts = ls.
Proof.
  induction 1 as [|l ts ls N H IH]; [done|]. induction l as [|t l IHl]; [cbn; by rewrite IH|].
  cbn [app]. rewrite lines_cons by (intros ->; apply N; by left). rewrite IHl; [done|].
  intros I. apply N. by right.
Qed.
Lemma lexed_NL s ts : lexed s ts -> exists us, ts = us ++ [NL].
Proof.
  induction 1 as [|c s ts B H IH|s ts H (us & ->)|t s ts T H IH|t s ts T S H IH|x s t ts C1 C2 L M H (us & ->)];
    try done; [by exists []|by exists (NL :: us)|by exists (t :: us)].
Qed.
Lemma lines_sound us : text_lines (us ++ [NL]) (lines (us ++ [NL])).
Proof.
  induction us as [|t us IH]; [apply (text_line [] [] []); [by intros []|constructor]|]. cbn [app].
  destruct (match t with NL => true | _ => false end) eqn:T.
  - destruct t; try discriminate. apply (text_line [] (us ++ [NL])); [by intros []|exact IH].
  - rewrite lines_cons by (intros ->; discriminate). inversion IH as [E|l ts ls N H E1 E2]; [by destruct us|].
    apply (text_line (t :: l) ts ls); [|done]. intros [->|I]; [discriminate|done].
Qed.

Lemma is_op_ok t : is_op "#" t = true <-> t = Op "#".
Proof.
  split; [|by intros ->]. destruct t as [x b|t z|s|x|]; try discriminate.
  unfold is_op. destruct (String.eqb_spec "#" x) as [<-|]; [done|discriminate].
Qed.
Lemma header_ok r f : header_name r = Some f <->
  r = [Str f] \/ exists x b b', r = [Op "<"; Id x b; Op "."; Id "h" b'; Op ">"] /\ f = "<" +++ x +++ ".h>".
Proof.
  split.
  - unfold header_name. intros H.
    destruct r as [|[| |s|a|] r]; try discriminate.
    + destruct r; [|discriminate]. injection H as ->. by left.
    + destruct r as [|[x b| | | |] [|[| | |p|] [|[h b'| | | |] [|[| | |c|] [|]]]]]; try discriminate.
      right. destruct (String.eqb_spec a "<") as [->|]; [|discriminate].
      destruct (String.eqb_spec p ".") as [->|]; [|discriminate].
      destruct (String.eqb_spec h "h") as [->|]; [|discriminate].
      destruct (String.eqb_spec c ">") as [->|]; [|discriminate]. injection H as <-. by exists x, b, b'.
  - intros [->|(x & b & b' & -> & ->)]; reflexivity.
Qed.
Lemma classify_directive d b r : classify (Op "#" :: Id d b :: r) =
  if String.eqb d "endif" then match r with [] => DEndif | _ => DStop end
  else if String.eqb d "ifdef" || String.eqb d "ifndef" then
    match r with [Id x _] => DIf (String.eqb d "ifdef") x | _ => DStop end
  else if String.eqb d "include" then
    match header_name r with Some f => DInclude f | None => DOther end
  else if String.eqb d "define" then
    match r with Id x false :: body => DDefine x body | _ => DOther end
  else if elem d ["if"; "elif"; "else"] then DStop
  else DOther.
Proof. reflexivity. Qed.
(** what a line is *)
Lemma classify_ok l :
  match classify l with
  | DText => is_text l
  | DIf d x => opens l d x
  | DEndif => closes l
  | DInclude f => includes l f
  | DDefine x body => defines l x body
  | DOther => ~ is_text l /\ ~ conditional l
  | DStop => conditional l
  end.
Proof.
  destruct l as [|t r]; [by intros r|]. cbn [classify]. destruct (is_op "#" t) eqn:T; cbn [negb].
  2:{ intros r' E. injection E as -> ->. discriminate T. }
  apply is_op_ok in T as ->.
  assert (Nt : ~ is_text (Op "#" :: r)) by (intros K; by destruct (K r)).
  destruct r as [|[d b| | | |] r];
    try (split; [done|]; intros (d & r' & (b & E) & _); discriminate).
  destruct (String.eqb_spec d "endif") as [->|N1].
  { destruct r as [|t r]; [by exists b|]. exists "endif", (t :: r). split; [by exists b|cbn; tauto]. }
  destruct (String.eqb_spec d "ifdef") as [->|N2]; cbn [orb].
  { destruct r as [|[x b'| | | |] [|t r]]; try (exists b', b; done);
      eexists "ifdef", _; (split; [eexists; reflexivity|cbn; tauto]). }
  destruct (String.eqb_spec d "ifndef") as [->|N3].
  { destruct r as [|[x b'| | | |] [|t r]]; try (exists b', b; done);
      eexists "ifndef", _; (split; [eexists; reflexivity|cbn; tauto]). }
  destruct (String.eqb_spec d "include") as [->|N4].
  { destruct (header_name r) as [f|] eqn:H.
    - apply header_ok in H as [->|(x & c & c' & -> & ->)]; [left; by exists b|right]. exists x, c, c'. split; [by exists b|done].
    - split; [done|]. intros (d & r' & (b' & E) & I). injection E as <- <- <-.
      cbn in I. repeat (destruct I as [I|I]; [discriminate I|]). done. }
  destruct (String.eqb_spec d "define") as [->|N5].
  { assert (Nc : ~ conditional (Op "#" :: Id "define" b :: r)).
    { intros (d & r' & (b' & E) & I). injection E as <- <- <-.
      cbn in I. repeat (destruct I as [I|I]; [discriminate I|]). done. }
    destruct r as [|[x [|]| | | |] r]; auto. by exists b. }
  destruct (elem d ["if"; "elif"; "else"]) eqn:E.
  - exists d, r. split; [by exists b|]. apply existsb_exists in E as (y & Y & E). apply String.eqb_eq in E. subst y.
    cbn in Y |- *. tauto.
  - split; [done|]. intros (d' & r' & (b' & E') & I). injection E' as <- <- <-.
    assert (K : elem d ["if"; "elif"; "else"] = true); [|congruence].
    apply existsb_exists. exists d. split; [|apply String.eqb_refl]. cbn in I |- *.
    repeat (destruct I as [I|I]; [subst d; tauto|]). done.
Qed.
Lemma text_class l : is_text l -> classify l = DText.
Proof.
  intros H. destruct l as [|t r]; [done|]. cbn [classify]. destruct (is_op "#" t) eqn:T; [|done].
  apply is_op_ok in T as ->. by destruct (H r).
Qed.
Lemma opens_class l d x : opens l d x -> classify l = DIf d x.
Proof. intros (b & b' & ->). by destruct d. Qed.
Lemma closes_class l : closes l -> classify l = DEndif.
Proof. intros (b & ->). reflexivity. Qed.
Lemma includes_class l f : includes l f -> classify l = DInclude f.
Proof. intros [(b & ->)|(x & c & c' & (b & ->) & ->)]; reflexivity. Qed.
Lemma defines_class l x body : defines l x body -> classify l = DDefine x body.
Proof. intros (b & ->). reflexivity. Qed.
Lemma conditional_class l : ~ conditional l ->
  match classify l with DIf _ _ | DEndif | DStop => False | _ => True end.
Proof.
  intros H. pose proof (classify_ok l) as K. destruct (classify l) as [|d x| | | | |]; try done; apply H.
  - destruct K as (b & b' & ->). eexists _, _. split; [eexists; reflexivity|]. destruct d; cbn; tauto.
  - destruct K as (b & ->). eexists _, _. split; [eexists; reflexivity|]. cbn; tauto.
Qed.
Lemma class_conditional l :
  match classify l with DIf _ _ | DEndif | DStop => False | _ => True end -> ~ conditional l.
Proof.
  intros H (d & r & (b & ->) & I). rewrite classify_directive in H. cbn in I.
  repeat (destruct I as [<-|I]; [cbn in H; repeat (destruct r as [|[] r]; try done)|]); try done.
Qed.

(** ** Directives *)
Definition defined (m : macros) (x : string) : bool := match assoc x m with Some _ => true | None => false end.
Lemma holds_ok m d x : if xorb d (defined m x) then ~ holds_if m d x else holds_if m d x.
Proof.
  unfold holds_if, defined. destruct (assoc x m) as [a|] eqn:E.
  - apply assoc_entry in E. destruct d; cbn; [by exists a|]. intros H. by destruct (H a).
  - apply assoc_none in E. destruct d; cbn; [|done]. intros (a & H). by destruct (E a).
Qed.
(** the lines [ls] inside the conditionals [skip] *)
Fixpoint rest (fs : files) (skip : list bool) (m : macros) (ls : list (list token)) (m' : macros) (o : list token) : Prop :=
  match skip with
  | [] => group fs m ls m' o
  | b :: skip =>
      exists body e ls2, ls = body ++ e :: ls2 /\ closes e /\
        if existsb id (b :: skip) then left_out body /\ rest fs skip m ls2 m' o
        else exists m1 o1 o2, group fs m body m1 o1 /\ o = o1 ++ o2 /\ rest fs skip m1 ls2 m' o2
  end.
Lemma rest_group fs skip pre m m1 p ls m' o : existsb id skip = false ->
  (forall ls m' o, group fs m1 ls m' o -> group fs m (pre ++ ls) m' (p ++ o)) ->
  rest fs skip m1 ls m' o -> rest fs skip m (pre ++ ls) m' (p ++ o).
Proof.
  intros N G H. destruct skip as [|b skip]; cbn [rest] in *; [by apply G|].
  destruct H as (body & e & ls2 & -> & C & H). exists (pre ++ body), e, ls2.
  split; [by rewrite <- app_assoc|split; [done|]]. rewrite N in H |- *.
  destruct H as (m2 & o1 & o2 & H & -> & R). exists m2, (p ++ o1), o2. rewrite <- app_assoc. auto.
Qed.
Lemma rest_left fs skip pre m ls m' o : existsb id skip = true ->
  (forall ls, left_out ls -> left_out (pre ++ ls)) ->
  rest fs skip m ls m' o -> rest fs skip m (pre ++ ls) m' o.
Proof.
  intros N G H. destruct skip as [|b skip]; [discriminate|]. cbn [rest] in *.
  destruct H as (body & e & ls2 & -> & C & H). exists (pre ++ body), e, ls2.
  split; [by rewrite <- app_assoc|split; [done|]]. rewrite N in H |- *. destruct H as (L & R). auto.
Qed.
Lemma directives_sound fs inc :
  (forall m f m' ts, inc m f = Some (m', ts) -> file_tokens fs m f m' ts) ->
  forall ls m skip out m' res, directives inc ls m skip out = Some (m', res) ->
    exists o, res = rev o ++ out /\ rest fs skip m ls m' o.
Proof.
  intros Inc. induction ls as [|l ls IH]; intros m skip out m' res H; cbn [directives] in H.
  { destruct skip; [|discriminate]. injection H as <- <-. exists []. split; [done|constructor]. }
  pose proof (classify_ok l) as K. pose proof (class_conditional l) as Kc.
  assert (Left : ~ conditional l -> existsb id skip = true -> directives inc ls m skip out = Some (m', res) ->
    exists o, res = rev o ++ out /\ rest fs skip m (l :: ls) m' o).
  { intros C N E. apply IH in E as (o & -> & R). exists o. split; [done|].
    apply (rest_left fs skip [l]); [done| |done]. intros ls' L. by apply left_line. }
  destruct (classify l) as [|d x| |f|x body| |] eqn:Cl.
  - destruct (existsb id skip) eqn:N; [auto|]. destruct (expand 9 m l) as [o1|] eqn:E; [|discriminate]. cbn in H.
    apply IH in H as (o & -> & R). exists (o1 ++ o). rewrite rev_append_rev, rev_app_distr, <- app_assoc. split; [done|].
    apply (rest_group fs skip [l] m m); [done| |done]. intros ls' m2 o' G. apply group_text; [done| |done].
    apply (expand_sound m 9); [by intros|done].
  - apply IH in H as (o & -> & R). exists o. split; [done|]. cbn [rest] in R.
    destruct R as (body & e & ls2 & -> & C & R). pose proof (holds_ok m d x) as Ho. fold (defined m x) in R.
    change (existsb id (xorb d (defined m x) :: skip)) with (xorb d (defined m x) || existsb id skip) in R.
    replace (l :: body ++ e :: ls2) with ((l :: body ++ [e]) ++ ls2) by (cbn; by rewrite <- app_assoc).
    destruct (existsb id skip) eqn:N.
    + rewrite orb_true_r in R. destruct R as (L & R). apply rest_left; [done| |done].
      intros ls' L'. cbn. rewrite <- app_assoc. by apply left_if with d x.
    + rewrite orb_false_r in R. destruct (xorb d (defined m x)).
      * destruct R as (L & R). apply (rest_group fs skip _ m m []); [done| |done].
        intros ls' m2 o' G. cbn. rewrite <- app_assoc. by apply group_skip with d x.
      * destruct R as (m1 & o1 & o2 & G1 & -> & R). apply (rest_group fs skip _ m m1); [done| |done].
        intros ls' m2 o' G. cbn. rewrite <- app_assoc. by apply group_if with d x m1.
  - destruct skip as [|b skip]; [discriminate|]. apply IH in H as (o & -> & R). exists o. split; [done|].
    cbn [rest]. exists [], l, ls. split; [done|split; [done|]]. destruct (existsb id (b :: skip)).
    + split; [constructor|done].
    + exists m, [], o. split; [constructor|done].
  - destruct (existsb id skip) eqn:N; [auto|]. destruct (inc m f) as [(m1, o1)|] eqn:E; [|discriminate]. cbn in H.
    apply IH in H as (o & -> & R). exists (o1 ++ o). rewrite rev_append_rev, rev_app_distr, <- app_assoc. split; [done|].
    apply (rest_group fs skip [l] m m1); [done| |done]. intros ls' m2 o' G.
    apply Inc in E as (s & t & ks & hs & E1 & E2 & E3 & E4 & E5). by apply group_include with f s t ks hs m1.
  - destruct (existsb id skip) eqn:N; [auto|].
    apply IH in H as (o & -> & R). exists o. split; [done|].
    apply (rest_group fs skip [l] m ((x, body) :: m) []); [done| |done]. intros ls' m2 o' G. by apply group_define with x body.
  - destruct (existsb id skip) eqn:N; [|discriminate]. auto.
  - discriminate.
Qed.
Theorem preprocess_sound fs k : forall m f m' ts, preprocess k fs m f = Some (m', ts) -> file_tokens fs m f m' ts.
Proof.
  induction k as [|k IH]; intros m f m' ts H; [discriminate|]. cbn [preprocess] in H.
  destruct (assoc f fs) as [s|] eqn:A; [|discriminate]. cbn [mbind option_bind] in H.
  destruct (tokens s) as [ks|] eqn:T; [|discriminate]. cbn [mbind option_bind] in H.
  destruct (directives (preprocess k fs) (lines ks) m [] []) as [(m1, out)|] eqn:D; [|discriminate].
  cbn [mbind option_bind] in H. injection H as -> <-.
  apply tokens_exact in T as (t & J & L). exists s, t, ks, (lines ks). split; [by apply assoc_entry|].
  split; [done|split; [done|split]].
  - destruct (lexed_NL _ _ L) as (us & ->). apply lines_sound.
  - apply (directives_sound fs) in D as (o & -> & R); [|exact IH].
    rewrite rev_append_rev, !app_nil_r, rev_involutive. exact R.
Qed.

(** ** The result is the only one *)

(** the lines up to the end of the conditional that [n] others were opened in *)
Fixpoint close_at (n : nat) (ls : list (list token)) : option (list (list token) * list token * list (list token)) :=
  match ls with
  | [] => None
  | l :: ls =>
      let go n := '(a, e, b) ← close_at n ls; Some (l :: a, e, b) in
      match classify l with
      | DIf _ _ => go (S n)
      | DEndif => match n with O => Some ([], l, ls) | S n => go n end
      | _ => go n
      end
  end.
Definition after (pre : list (list token)) (r : option (list (list token) * list token * list (list token))) :=
  '(a, e, b) ← r; Some (pre ++ a, e, b).
Lemma after_app p q r : after p (after q r) = after (p ++ q) r.
Proof. destruct r as [((a, e), b)|]; [|done]. cbn. by rewrite app_assoc. Qed.
Lemma close_if n l d x body e ls : opens l d x -> closes e ->
  (forall n ls, close_at n (body ++ ls) = after body (close_at n ls)) ->
  close_at n (l :: body ++ e :: ls) = after (l :: body ++ [e]) (close_at n ls).
Proof.
  intros O C B. cbn [close_at]. rewrite (opens_class _ _ _ O), B. cbn [close_at]. rewrite (closes_class _ C).
  destruct (close_at n ls) as [((a, e'), b)|]; [|done]. cbn. by rewrite <- app_assoc.
Qed.
Lemma left_balanced body : left_out body -> forall n ls, close_at n (body ++ ls) = after body (close_at n ls).
Proof.
  induction 1 as [|l ls C H IH|l d x body e ls O H IH C H' IH']; intros n r.
  - cbn [app]. by destruct (close_at n r) as [((a, e), b)|].
  - apply conditional_class in C. cbn [app close_at].
    transitivity (after [l] (close_at n (ls ++ r))); [by destruct (classify l)|].
    by rewrite IH, after_app.
  - cbn [app]. rewrite <- app_assoc. cbn [app]. rewrite (close_if n l d x body e) by done. rewrite IH', after_app.
    cbn [app]. by rewrite <- app_assoc.
Qed.
Lemma group_balanced fs m body m' o : group fs m body m' o -> forall n ls, close_at n (body ++ ls) = after body (close_at n ls).
Proof.
  assert (One : forall l ls n r, match classify l with DIf _ _ | DEndif => False | _ => True end ->
    (forall n r, close_at n (ls ++ r) = after ls (close_at n r)) -> close_at n ((l :: ls) ++ r) = after (l :: ls) (close_at n r)).
  { intros l ls n r C IH. cbn [app close_at].
    transitivity (after [l] (close_at n (ls ++ r))); [by destruct (classify l)|].
    by rewrite IH, after_app. }
  induction 1 as [m|m l ls m' ts us T R H IH|m l x body ls m' ts D H IH|m l f s t ks hs m1 ts ls m' us I E J L X G1 IH1 G2 IH2
    |m l d x body e m1 ts ls m' us O Ho G1 IH1 C G2 IH2|m l d x body e ls m' us O Ho L C G IH]; intros n r.
  - cbn [app]. by destruct (close_at n r) as [((a, e), b)|].
  - apply One; [by rewrite (text_class _ T)|done].
  - apply One; [by rewrite (defines_class _ _ _ D)|done].
  - apply One; [by rewrite (includes_class _ _ I)|done].
  - cbn [app]. rewrite <- app_assoc. cbn [app]. rewrite (close_if n l d x body e) by done. rewrite IH2, after_app.
    cbn [app]. by rewrite <- app_assoc.
  - cbn [app]. rewrite <- app_assoc. cbn [app]. rewrite (close_if n l d x body e) by (auto using left_balanced).
    rewrite IH, after_app. cbn [app]. by rewrite <- app_assoc.
Qed.
Lemma same_end body1 e1 ls1 body2 e2 ls2 : closes e1 -> closes e2 ->
  (forall n ls, close_at n (body1 ++ ls) = after body1 (close_at n ls)) ->
  (forall n ls, close_at n (body2 ++ ls) = after body2 (close_at n ls)) ->
  body1 ++ e1 :: ls1 = body2 ++ e2 :: ls2 -> body1 = body2 /\ ls1 = ls2.
Proof.
  intros C1 C2 B1 B2 E. assert (K : close_at 0 (body1 ++ e1 :: ls1) = close_at 0 (body2 ++ e2 :: ls2)) by by rewrite E.
  rewrite B1, B2 in K. cbn [close_at] in K. rewrite (closes_class _ C1), (closes_class _ C2) in K.
  cbn in K. rewrite !app_nil_r in K. by injection K as -> _ ->.
Qed.
Lemma group_unique fs m ls m' o : group fs m ls m' o -> forall m2 o2, group fs m ls m2 o2 -> m' = m2 /\ o = o2.
Proof.
  induction 1 as [m|m l ls m' ts us T R H IH|m l x body ls m' ts D H IH|m l f s t ks hs m1 ts ls m' us I E J L X G1 IH1 G2 IH2
    |m l d x body e m1 ts ls m' us O Ho G1 IH1 C G2 IH2|m l d x body e ls m' us O Ho L C G IH]; intros m2 o2 K;
    inversion K; subst; try done;
    repeat match goal with
    | H : is_text _ |- _ => apply text_class in H
    | H : defines _ _ _ |- _ => apply defines_class in H
    | H : includes _ _ |- _ => apply includes_class in H
    | H : opens _ _ _ |- _ => apply opens_class in H
    end; try congruence.
  - match goal with G : group _ _ _ m2 _ |- _ => apply IH in G as (-> & ->) end.
    split; [done|]. f_equal. by apply (replaced_unique m [] l).
  - assert (E' : DDefine x body = DDefine x0 body0) by congruence. injection E' as <- <-. by apply IH.
  - assert (E' : DInclude f = DInclude f0) by congruence. injection E' as <-.
    match goal with M : entry_of f fs ?c |- _ =>
      match c with s => fail 1 | _ => pose proof (entry_unique _ _ _ _ E M); subst c end end.
    match goal with M : joined s ?c |- _ =>
      match c with t => fail 1 | _ => pose proof (joined_unique _ _ _ J M); subst c end end.
    match goal with M : lexed t ?c |- _ =>
      match c with ks => fail 1 | _ => pose proof (lexed_unique _ _ _ L M); subst c end end.
    match goal with M : text_lines ks ?c |- _ =>
      match c with hs => fail 1 | _ => assert (hs = c) by (by rewrite <- (lines_complete _ _ M), <- (lines_complete _ _ X)); subst c end end.
    match goal with G : group fs m hs _ _ |- _ => apply IH1 in G as (-> & ->) end.
    match goal with G : group _ _ _ m2 _ |- _ => apply IH2 in G as (-> & ->) end. done.
  - assert (E' : DIf d x = DIf d0 x0) by congruence. injection E' as <- <-.
    match goal with E : _ ++ _ :: _ = _ ++ _ :: _ |- _ => apply same_end in E as (-> & ->); [| done | done | |];
      try (by eauto using group_balanced) end.
    match goal with G : group fs m body _ _ |- _ => apply IH1 in G as (-> & ->) end.
    match goal with G : group _ _ _ m2 _ |- _ => apply IH2 in G as (-> & ->) end. done.
  - assert (E' : DIf d x = DIf d0 x0) by congruence. injection E' as <- <-.
    match goal with E : _ ++ _ :: _ = _ ++ _ :: _ |- _ => apply same_end in E as (-> & ->); [| done | done | |];
      by eauto using left_balanced end.
Qed.
Theorem file_tokens_unique fs m f m1 ts1 m2 ts2 :
  file_tokens fs m f m1 ts1 -> file_tokens fs m f m2 ts2 -> m1 = m2 /\ ts1 = ts2.
Proof.
  intros (s & t & ks & ls & E & J & L & X & G) (s' & t' & ks' & ls' & E' & J' & L' & X' & G').
  pose proof (entry_unique _ _ _ _ E E'). subst s'. pose proof (joined_unique _ _ _ J J'). subst t'.
  pose proof (lexed_unique _ _ _ L L'). subst ks'.
  assert (ls' = ls) by (by rewrite <- (lines_complete _ _ X), <- (lines_complete _ _ X')). subst ls'.
  by apply (group_unique fs m ls).
Qed.
