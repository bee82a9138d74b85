(** * C112: the characters of the C text are read as the tokens of the standard

    [Spec_Lex.v] states the lexical elements of C (C99 6.4) by their productions and the rule of
    the longest token.  [tokens] of [CFront.v] is what reads the files of [/repo/Src]. *)
From Coq Require Import String Ascii.
From Verif Require Import CSem Lib CLang CFront Spec_Lex Proof_Lex.
Local Open Scope string_scope.
Local Open Scope list_scope.
Local Open Scope Z_scope.

Theorem C112_exact : forall s ts, tokens s = Some ts <-> exists t, joined s t /\ lexed t ts.
Proof. exact tokens_exact. Qed.
Print Assumptions C112_exact.
(** the longest token; a constant in base 16; comments; a line joined by a backslash *)
Example C112_exact_ex :
  exists t, joined "a+++b /* c // */ 0x1Fu\
>>= '\n' // */ x
f(""\t*/"")" t /\
  lexed t [Id "a" false; Op "++"; Op "+"; Id "b" false; Num U32 31; Op ">>="; Num I32 10; NL;
           Id "f" true; Op "("; Str "	*/"; Op ")"; NL].
Proof. apply C112_exact. vm_compute. reflexivity. Qed.
(** texts that have no tokens here: floating and octal constants, constants that do not fit, other
    suffixes, a constant run into a name, wide characters, escapes in octal, a newline in a string,
    a comment without an end *)
Example C112_refuse_ex :
  Forall (fun s => ~ exists ts t, joined s t /\ lexed t ts)
    ["1.5"; ".5"; "017"; "2147483648"; "4294967296u"; "1l"; "0xE+1"; "12ab"; "L'x'"; "''"; "'ab'"; """\01""";
     """\x41"""; """a
b"""; "/* a"; "a $ b"].
Proof.
  repeat (constructor; [intros (ts & H); apply C112_exact in H; vm_compute in H; discriminate H|]). constructor.
Qed.

(** a text has at most one meaning *)
Theorem C112_joined_unique : forall s t u, joined s t -> joined s u -> t = u.
Proof. exact joined_unique. Qed.
Print Assumptions C112_joined_unique.
Example C112_joined_unique_ex : forall u, joined "a\
b" u -> u = "ab".
Proof.
  intros u H. apply (C112_joined_unique "a\
b"); [exact H|]. constructor.
  - intros (e & r & _ & E). discriminate E.
  - apply (joined_line (chr "010") "b" "b"); [left; reflexivity|]. constructor; [|constructor].
    intros (e & r & _ & E). discriminate E.
Qed.
Theorem C112_unambiguous : forall s ts us, lexed s ts -> lexed s us -> ts = us.
Proof. exact lexed_unique. Qed.
Print Assumptions C112_unambiguous.
Example C112_unambiguous_ex : forall us, lexed "x---1" us -> us = [Id "x" false; Op "--"; Op "-"; Num I32 1; NL].
Proof.
  intros us H. apply (C112_unambiguous "x---1"); [exact H|].
  destruct (proj1 (C112_exact "x---1" [Id "x" false; Op "--"; Op "-"; Num I32 1; NL])) as (t & J & L).
  { vm_compute. reflexivity. }
  replace "x---1" with t; [exact L|]. apply (C112_joined_unique "x---1"); [exact J|].
  repeat (constructor; [intros (e & r & _ & E); discriminate E|]). constructor.
Qed.
