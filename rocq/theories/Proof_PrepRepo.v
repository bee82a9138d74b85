(** * Proof_PrepRepo: the files of [/repo/Src] from their characters to their functions *)
From Coq Require Import String.
From Verif Require Import CSem Lib CLang CFront CSystem Drive_Front Proof_Front.
From Verif Require Import Spec_Grammar Spec_GrammarUnit Proof_GrammarUnitAll Proof_GrammarRepo.
From Verif Require Import Spec_Lex Spec_Prep Proof_Prep.
Local Open Scope string_scope.
Local Open Scope list_scope.

Lemma sources_standard f ds :
  In (f, ds) c_program ->
  exists m ts l, file_tokens repo [] f m ts /\ file [] ts l /\
    (forall m' ts' l', file_tokens repo [] f m' ts' -> file [] ts' l' -> ts' = ts /\ l' = l) /\
    map fst ds = map (fun f => (f_name f, f_static f)) l.
Proof.
  intros H. destruct (sources_grammar f ds H) as (m & ts & l & P & F & U & N).
  apply preprocess_sound in P. exists m, ts, l. split; [done|split; [done|split; [|done]]].
  intros m' ts' l' P' F'. destruct (file_tokens_unique _ _ _ _ _ _ _ P' P) as [-> ->]. auto.
Qed.
