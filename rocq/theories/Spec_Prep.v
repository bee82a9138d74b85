(** * Spec_Prep: directives and macros (C99 6.10)

    [#include], [#define] of an object-like macro, [#ifdef], [#ifndef] and [#endif], on lists of
    tokens.  Files, lines and conditionals are structured as in the grammar of 6.10.  Other
    directives have no meaning here, except that a conditional that is left out may hold any
    lines as long as the conditionals in it match (6.10p4 to p6).  A second definition of a macro replaces the first. *)
From Coq Require Import String Ascii.
From Verif Require Import CSem CLang CFront Spec_Lex.
Local Open Scope string_scope.
Local Open Scope list_scope.

(** the first entry for [x] *)
Inductive entry_of {A} (x : string) : list (string * A) -> A -> Prop :=
  | entry_here a l : entry_of x ((x, a) :: l) a
  | entry_later y b l a : y <> x -> entry_of x l a -> entry_of x ((y, b) :: l) a.
Definition no_entry {A} (x : string) (l : list (string * A)) : Prop := forall a, ~ entry_of x l a.

(** ** Macro replacement (6.10.3)

    A name that is being replaced is not replaced again inside its own replacement
    (6.10.3.4p2): [hide] are those names. *)
Inductive replaced (m : macros) : list string -> list token -> list token -> Prop :=
  | replaced_end hide : replaced m hide [] []
  | replaced_other hide t ts us : (forall x b, t <> Id x b) -> replaced m hide ts us ->
      replaced m hide (t :: ts) (t :: us)
  | replaced_name hide x b ts us : no_entry x m -> replaced m hide ts us ->
      replaced m hide (Id x b :: ts) (Id x b :: us)
  | replaced_hidden hide x b ts us : In x hide -> replaced m hide ts us ->
      replaced m hide (Id x b :: ts) (Id x b :: us)
  | replaced_macro hide x b body vs ts us : ~ In x hide -> entry_of x m body ->
      replaced m (x :: hide) body vs -> replaced m hide ts us ->
      replaced m hide (Id x b :: ts) (vs ++ us).

(** ** Lines *)
Inductive text_lines : list token -> list (list token) -> Prop :=
  | text_end : text_lines [] []
  | text_line l ts ls : ~ In NL l -> text_lines ts ls -> text_lines (l ++ NL :: ts) (l :: ls).

Definition directive (d : string) (l r : list token) : Prop := exists b, l = Op "#" :: Id d b :: r.
Definition is_text (l : list token) : Prop := forall r, l <> Op "#" :: r.
Definition opens (l : list token) (d : bool) (x : string) : Prop :=
  exists b, directive (if d then "ifdef" else "ifndef") l [Id x b].
Definition closes (l : list token) : Prop := directive "endif" l [].
(** lines that belong to conditionals *)
Definition conditional (l : list token) : Prop :=
  exists d r, directive d l r /\ In d ["if"; "ifdef"; "ifndef"; "elif"; "else"; "endif"].
(** the header that a line includes; a system header is named with its angle brackets *)
Definition includes (l : list token) (f : string) : Prop :=
  directive "include" l [Str f] \/
  exists x b b', directive "include" l [Op "<"; Id x b; Op "."; Id "h" b'; Op ">"] /\
    f = "<" +++ x +++ ".h>".
(** [#define x body]; no parenthesis follows [x] at once (6.10.3p10) *)
Definition defines (l : list token) (x : string) (body : list token) : Prop :=
  directive "define" l (Id x false :: body).

(** lines that are left out *)
Inductive left_out : list (list token) -> Prop :=
  | left_end : left_out []
  | left_line l ls : ~ conditional l -> left_out ls -> left_out (l :: ls)
  | left_if l d x body e ls : opens l d x -> left_out body -> closes e -> left_out ls ->
      left_out (l :: body ++ e :: ls).

(** [#ifdef x] if [d], [#ifndef x] otherwise *)
Definition holds_if (m : macros) (d : bool) (x : string) : Prop :=
  if d then exists a, entry_of x m a else no_entry x m.

(** [group fs m ls m' ts]: with the macros [m] the lines [ls] become the tokens [ts], and the macros
    are [m'] afterwards *)
Inductive group (fs : files) : macros -> list (list token) -> macros -> list token -> Prop :=
  | group_end m : group fs m [] m []
  | group_text m l ls m' ts us : is_text l -> replaced m [] l ts -> group fs m ls m' us ->
      group fs m (l :: ls) m' (ts ++ us)
  | group_define m l x body ls m' ts : defines l x body -> group fs ((x, body) :: m) ls m' ts ->
      group fs m (l :: ls) m' ts
  | group_include m l f s t ks hs m1 ts ls m' us : includes l f ->
      entry_of f fs s -> joined s t -> lexed t ks -> text_lines ks hs -> group fs m hs m1 ts ->
      group fs m1 ls m' us -> group fs m (l :: ls) m' (ts ++ us)
  | group_if m l d x body e m1 ts ls m' us : opens l d x -> holds_if m d x ->
      group fs m body m1 ts -> closes e -> group fs m1 ls m' us ->
      group fs m (l :: body ++ e :: ls) m' (ts ++ us)
  | group_skip m l d x body e ls m' us : opens l d x -> ~ holds_if m d x ->
      left_out body -> closes e -> group fs m ls m' us ->
      group fs m (l :: body ++ e :: ls) m' us.

(** the file [f], with the macros [m] defined before *)
Definition file_tokens (fs : files) (m : macros) (f : string) (m' : macros) (ts : list token) : Prop :=
  exists s t ks ls, entry_of f fs s /\ joined s t /\ lexed t ks /\ text_lines ks ls /\
    group fs m ls m' ts.
