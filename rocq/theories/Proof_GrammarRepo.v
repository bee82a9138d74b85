(** * Proofs for [Props_Grammar.v]: the grammar derives every file of [/repo/Src] *)
From Coq Require Import String.
From Verif Require Import CSem Lib CLang CFront Drive_Front Proof_Front.
From Verif Require Import Spec_Grammar Spec_GrammarUnit Proof_GrammarUnitAll.
Local Open Scope string_scope.
Local Open Scope list_scope.

Lemma program_translate fs funs l p :
  program fs funs l = Some p ->
  forall f ds, In (f, ds) p -> exists funs, translate fs funs f = Some ds.
Proof.
  revert funs p. induction l as [|g l IH]; cbn [program]; intros funs p H f ds Hin.
  - injection H as <-. contradiction.
  - destruct (translate fs funs g) as [ds'|] eqn:E; cbn [mbind option_bind] in H; [|discriminate].
    destruct (program fs _ l) as [r|] eqn:E'; cbn [mbind option_bind] in H; [|discriminate].
    injection H as <-. destruct Hin as [Heq|Hin].
    + injection Heq as <- <-. exists funs. exact E.
    + exact (IH _ _ E' f ds Hin).
Qed.
Lemma sources_grammar f ds :
  In (f, ds) c_program ->
  exists m ts l, preprocess 9 repo [] f = Some (m, ts) /\ file [] ts l /\
    (forall l', file [] ts l' -> l' = l) /\
    map fst ds = map (fun f => (f_name f, f_static f)) l.
Proof.
  intros H. destruct (program_translate _ _ _ _ program_ok f ds H) as [funs E].
  destruct (translate_grammar _ _ _ _ E) as (m & ts & l & H1 & H2 & H3).
  exists m, ts, l. split; [exact H1|]. split; [exact H2|]. split; [|exact H3].
  intros l' H'. exact (file_unique _ _ _ _ H' H2).
Qed.
