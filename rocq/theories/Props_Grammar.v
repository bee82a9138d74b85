(** * C109, C110: the parser that reads the C text is the grammar of the standard

    [Spec_Grammar.v] and [Spec_GrammarUnit.v] state the grammar by its productions.  The parser
    of [CFront.v] returns a tree exactly when the grammar derives it, and the grammar derives at
    most one.  The parser has a fuel argument; "with enough fuel" is [exists k0, forall k, ...]. *)
From Coq Require Import String.
From Verif Require Import CSem Lib CLang CFront CSystem Drive_Front Proof_Front.
From Verif Require Import Spec_Grammar Spec_GrammarUnit.
From Verif Require Import Proof_Grammar Proof_GrammarAll Proof_GrammarUnit Proof_GrammarUnitAll Proof_GrammarRepo.
Local Open Scope string_scope.
Local Open Scope list_scope.

(** ** C109: expressions and type names *)

(** whatever the parser reads is derived by the grammar, at any fuel *)
Theorem C109_sound : forall tys k ts e r,
  expr tys k ts = Some (e, r) ->
  exists us, ts = us ++ r /\ derives tys Conditional us e /\ ends r.
Proof.
  exact (fun tys k ts e r H =>
    match expr_sound tys k ts e r H with
    | ex_intro _ us (conj H1 H2) =>
        ex_intro _ us (conj H1 (conj H2 (proj1 (stops tys k) ts e r H)))
    end).
Qed.
Print Assumptions C109_sound.

(** the parser reads an expression, and leaves [r], exactly if the grammar derives what stands
    before [r] and [r] cannot go on the expression *)
Theorem C109_exact : forall tys ts e r,
  (exists k0, forall k, (k0 <= k)%nat -> expr tys k ts = Some (e, r)) <->
  exists us, ts = us ++ r /\ derives tys Conditional us e /\ ends r.
Proof. exact expr_exact. Qed.
Print Assumptions C109_exact.

Theorem C109_unambiguous : forall tys ts e1 e2,
  derives tys Conditional ts e1 -> derives tys Conditional ts e2 -> e1 = e2.
Proof. exact derives_unique. Qed.
Print Assumptions C109_unambiguous.

(** type names *)
Theorem C109_type_sound : forall tys ts s c t r,
  type_name tys ["const"] ts = Some (s, c, t, r) ->
  s = false /\ exists us, ts = us ++ r /\ type_of_name tys us c t.
Proof. exact type_sound. Qed.
Print Assumptions C109_type_sound.
Theorem C109_type_complete : forall tys us c t r,
  type_of_name tys us c t ->
  match r with Op o :: _ => o <> "*" | Id x _ :: _ => ~ In x keywords | _ => True end ->
  type_name tys ["const"] (us ++ r) = Some (false, c, t, r) /\ at_type tys (us ++ r) = true.
Proof. exact type_complete. Qed.
Print Assumptions C109_type_complete.

(** [a || b && c | d ^ e & f == g < h << i + j * k - l % m] up to [;]: each operator is on a level
    of its own, tighter ones to the right *)
Example C109_precedence_ex :
  derives [] Conditional
    [Id "a" false; Op "||"; Id "b" false; Op "&&"; Id "c" false; Op "|"; Id "d" false; Op "^";
     Id "e" false; Op "&"; Id "f" false; Op "=="; Id "g" false; Op "<"; Id "h" false; Op "<<";
     Id "i" false; Op "+"; Id "j" false; Op "*"; Id "k" false; Op "-"; Id "l" false; Op "%";
     Id "m" false]
    (XBin "||" (XId "a") (XBin "&&" (XId "b") (XBin "|" (XId "c") (XBin "^" (XId "d")
      (XBin "&" (XId "e") (XBin "==" (XId "f") (XBin "<" (XId "g") (XBin "<<" (XId "h")
        (XBin "-" (XBin "+" (XId "i") (XBin "*" (XId "j") (XId "k")))
           (XBin "%" (XId "l") (XId "m"))))))))))).
Proof.
  match goal with |- derives _ _ ?ts ?e =>
    destruct (C109_sound [] 99 ts e [] ltac:(vm_compute; reflexivity)) as (us & E & D & _) end.
  rewrite app_nil_r in E. rewrite E. exact D.
Qed.
(** [* p ++] is [* (p ++)], [( const t * ) - x -> y [ 0 ]] is a cast of a negation, and [?:]
    associates to the right *)
Example C109_unary_ex :
  expr [] 99 [Op "*"; Id "p" false; Op "++"; Op ";"]
  = Some (XDeref (XInc false 1 (XId "p")), [Op ";"]) /\
  expr [("t", PInt U8)] 99
    [Op "("; Id "const" false; Id "t" false; Op "*"; Op ")"; Op "-"; Id "x" false; Op "->";
     Id "y" false; Op "["; Num I32 0; Op "]"; Op ";"]
  = Some (XCast (PPtr (PInt U8)) (XUn "-" (XIndex (XField (XDeref (XId "x")) "y") (XNum I32 0))),
          [Op ";"]) /\
  expr [] 99 [Id "a" false; Op "?"; Id "b" false; Op ":"; Id "c" false; Op "?"; Id "d" false;
              Op ":"; Id "e" false; Op "="; Id "f" false]
  = Some (XCond (XId "a") (XId "b") (XCond (XId "c") (XId "d") (XId "e")), [Op "="; Id "f" false]).
Proof. repeat split; vm_compute; reflexivity. Qed.

(** ** C110: statements and files *)

(** statements up to a closing brace *)
Theorem C110_statements_sound : forall tys k ts l r,
  stmts tys k ts = Some (l, r) -> exists us, ts = us ++ Op "}" :: r /\ items tys us l.
Proof. exact (fun tys k => proj2 (statement_sound tys k)). Qed.
Print Assumptions C110_statements_sound.
Theorem C110_statements_complete : forall tys us l,
  items tys us l ->
  forall r, exists k0, forall k, (k0 <= k)%nat -> stmts tys k (us ++ Op "}" :: r) = Some (l, r).
Proof. exact (fun tys us l H => proj2 (proj2 (statement_complete tys) us l H)). Qed.
Print Assumptions C110_statements_complete.
Theorem C110_statements_unambiguous : forall tys ts l1 l2,
  items tys ts l1 -> items tys ts l2 -> l1 = l2.
Proof. exact items_unique. Qed.
Print Assumptions C110_statements_unambiguous.

(** an [else] belongs to the nearest [if] *)
Example C110_else_ex :
  items [] [Id "if" true; Op "("; Id "a" false; Op ")"; Id "if" true; Op "("; Id "b" false; Op ")";
            Id "x" false; Op "+="; Num I32 1; Op ";"; Id "else" false; Id "y" false; Op "="; Num I32 2;
            Op ";"]
    [YIf (XId "a") (YIf (XId "b") (YOp "+" (XId "x") (XNum I32 1)) (YSet (XId "y") (XNum I32 2)))
       YSkip].
Proof.
  match goal with |- items _ ?ts ?l =>
    destruct (C110_statements_sound [] 99 (ts ++ [Op "}"]) l [] ltac:(vm_compute; reflexivity))
      as (us & E & D) end.
  apply app_inj_tail in E as [-> _]. exact D.
Qed.

(** whole files, after preprocessing *)
Theorem C110_file : forall tys ts l, (exists k, unit k tys ts = Some l) <-> file tys ts l.
Proof. exact unit_exact. Qed.
Print Assumptions C110_file.
Theorem C110_file_unambiguous : forall tys ts l1 l2, file tys ts l1 -> file tys ts l2 -> l1 = l2.
Proof. exact file_unique. Qed.
Print Assumptions C110_file_unambiguous.
(** so a file that is translated is one that the grammar derives, and the functions are those in
    its only tree *)
Theorem C110_translate : forall fs funs f ds,
  translate fs funs f = Some ds ->
  exists m ts l, preprocess 9 fs [] f = Some (m, ts) /\ file [] ts l /\
    map fst ds = map (fun f => (f_name f, f_static f)) l.
Proof. exact translate_grammar. Qed.
Print Assumptions C110_translate.
(** the files of [/repo/Src] *)
Theorem C110_sources : forall f ds,
  In (f, ds) c_program ->
  exists m ts l, preprocess 9 repo [] f = Some (m, ts) /\ file [] ts l /\
    (forall l', file [] ts l' -> l' = l) /\
    map fst ds = map (fun f => (f_name f, f_static f)) l.
Proof. exact sources_grammar. Qed.
Print Assumptions C110_sources.
Example C110_sources_ex :
  exists m ts l, preprocess 9 repo [] "queue.c" = Some (m, ts) /\ file [] ts l /\
    map f_name l = ["Queue_init"; "Queue_full"; "Queue_empty"; "Queue_enqueue"; "Queue_dequeue";
                    "Queue_front"; "Queue_rear"].
Proof.
  destruct (C110_sources "queue.c" funs_queue_c) as (m & ts & l & H1 & H2 & _ & H3).
  { do 3 right. left. reflexivity. }
  exists m, ts, l. split; [exact H1|]. split; [exact H2|].
  apply (f_equal (map fst)) in H3. rewrite !map_map in H3. symmetry. exact H3.
Qed.

(** texts that the grammar does not derive: nothing else does it *)
Example C110_refuse_ex :
  forall l,
    ~ file [] [Id "int" false; Id "f" true; Op "("; Id "void" false; Op ")"; Op "{"; Id "return" false;
               Num I32 1; Op "}"] l.
Proof.
  intros l H. apply C110_file in H as [k H].
  do 30 (destruct k as [|k]; [discriminate H|]). discriminate H.
Qed.
