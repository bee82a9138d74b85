(** * C113: directives and macros of the C text are carried out as the standard says

    [Spec_Prep.v] states lines, conditionals, [#include], [#define] and the replacement of macros
    (C99 6.10).  [expand] and [preprocess] of [CFront.v] are what reads the files of [/repo/Src]. *)
From Coq Require Import String Ascii.
From Verif Require Import CSem Lib CLang CFront CSystem Drive_Front Spec_Lex Spec_Prep Proof_Prep.
From Verif Require Import Spec_Grammar Spec_GrammarUnit Proof_PrepRepo.
Local Open Scope string_scope.
Local Open Scope list_scope.
Local Open Scope Z_scope.

(** ** Macros *)
Theorem C113_replaced : forall k m ts us, expand k m ts = Some us -> replaced m [] ts us.
Proof. exact (fun k m ts us H => expand_sound m k [] ts us (fun x b (F : In x []) => match F with end) H). Qed.
Print Assumptions C113_replaced.
(** a macro in another, which is defined twice *)
Example C113_replaced_ex :
  replaced [("A", [Num I32 3]); ("B", [Id "A" false; Op "+"; Id "A" false]); ("A", [Num I32 1])] []
    [Id "B" false; Op ";"; Id "C" false] [Num I32 3; Op "+"; Num I32 3; Op ";"; Id "C" false].
Proof. apply C113_replaced with 9%nat. vm_compute. reflexivity. Qed.
Theorem C113_replaced_unique : forall m hide ts us vs, replaced m hide ts us -> replaced m hide ts vs -> us = vs.
Proof. exact (fun m hide ts us vs H K => replaced_unique m hide ts us H vs K). Qed.
Print Assumptions C113_replaced_unique.
(** a macro is not replaced in its own replacement *)
Example C113_replaced_unique_ex : forall us,
  replaced [("x", [Op "*"; Id "x" false])] [] [Id "x" false] us -> us = [Op "*"; Id "x" false].
Proof.
  intros us H. refine (C113_replaced_unique _ [] [Id "x" false] us _ H _).
  apply (replaced_macro _ [] "x" false [Op "*"; Id "x" false] [Op "*"; Id "x" false] [] []).
  - intros [].
  - constructor.
  - constructor; [discriminate|]. apply replaced_hidden; [left; reflexivity|]. constructor.
  - constructor.
Qed.

(** ** Files *)
Theorem C113_file : forall k fs m f m' ts, preprocess k fs m f = Some (m', ts) -> file_tokens fs m f m' ts.
Proof. exact (fun k fs m f m' ts H => preprocess_sound fs k m f m' ts H). Qed.
Print Assumptions C113_file.
(** a header with a guard that is included twice, once in a conditional that is left out *)
Example C113_file_ex :
  exists m, file_tokens [("a.c", "#include ""a.h""
#include ""a.h""
#ifndef A_H
#include ""none.h""
#ifdef N
#pragma none
#endif
#endif
N;"); ("a.h", "#ifndef A_H
#define A_H
#define N 7
x
#endif // A_H
y")] [] "a.c" m [Id "x" false; Id "y" false; Id "y" false; Num I32 7; Op ";"].
Proof. eexists. apply C113_file with 3%nat. vm_compute. reflexivity. Qed.
Theorem C113_unique : forall fs m f m1 ts1 m2 ts2,
  file_tokens fs m f m1 ts1 -> file_tokens fs m f m2 ts2 -> m1 = m2 /\ ts1 = ts2.
Proof. exact file_tokens_unique. Qed.
Print Assumptions C113_unique.
Example C113_unique_ex : forall m ts,
  file_tokens [("a.c", "#define B
#ifdef A
a
#ifdef B
b
#endif
c
#endif
d")] [] "a.c" m ts -> m = [("B", [])] /\ ts = [Id "d" false].
Proof.
  intros m ts H. apply (C113_unique _ _ _ _ _ _ _ H). apply C113_file with 1%nat. vm_compute. reflexivity.
Qed.
(** nothing is read from files with other conditionals, not even in lines that are left out, with
    conditionals that do not match, with a macro that needs itself, or with a header that is not
    there *)
Example C113_refuse_ex :
  map (fun s => preprocess 9 [("a.c", s)] [] "a.c")
    ["#ifdef A
#else
#endif"; "#ifdef A
#if 1
#endif
#endif"; "#if 1
#endif"; "#ifdef A"; "#endif"; "#define A A
A"; "#include ""a.h"""; "#include ""a.c"""; "#define F(x) x"; "#undef A"]
  = replicate 10 None.
Proof. vm_compute. reflexivity. Qed.

(** ** The files of [/repo/Src], from their characters to their functions *)
Theorem C113_sources : forall f ds,
  In (f, ds) c_program ->
  exists m ts l, file_tokens repo [] f m ts /\ file [] ts l /\
    (forall m' ts' l', file_tokens repo [] f m' ts' -> file [] ts' l' -> ts' = ts /\ l' = l) /\
    map fst ds = map (fun f => (f_name f, f_static f)) l.
Proof. exact sources_standard. Qed.
Print Assumptions C113_sources.
Example C113_sources_ex :
  exists m ts l, file_tokens repo [] "queue.c" m ts /\ file [] ts l /\
    map f_name l = ["Queue_init"; "Queue_full"; "Queue_empty"; "Queue_enqueue"; "Queue_dequeue";
                    "Queue_front"; "Queue_rear"].
Proof.
  destruct (C113_sources "queue.c" funs_queue_c) as (m & ts & l & H1 & H2 & _ & H3).
  { do 3 right. left. reflexivity. }
  exists m, ts, l. split; [exact H1|]. split; [exact H2|].
  apply (f_equal (map fst)) in H3. rewrite !map_map in H3. symmetry. exact H3.
Qed.
