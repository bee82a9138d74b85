(** * CFront: from the text of a C file to terms of [CLang]

    The terms in [C_*.v] are printed by a script, [/verif/tools/c2coq.py].  So that the script
    need not be trusted, this file defines the same translation inside Coq, from the characters
    of the files in [/repo/Src] and [/repo/Inc] ([Text_*.v]) to terms of [CLang];
    [Props_Front.v] proves that it returns the terms in [C_*.v].

    The passes are those of C99 5.1.1.2: characters to tokens, directives and macros, a
    recursive descent parser, and a pass that replaces names by variable numbers, members by
    cell numbers and callees by their definitions.  Types and arithmetic are left to the
    interpreter in [CLang.v].  Whatever lies outside the fragment of C that [/repo/Src] is
    written in makes the result [None]. *)
From Coq Require Import String Ascii.
From Verif Require Import CSem CLang.
Local Open Scope string_scope.
Local Open Scope list_scope.
Local Open Scope Z_scope.

Fixpoint assoc {A} (x : string) (l : list (string * A)) : option A :=
  match l with
  | [] => None
  | (y, a) :: l => if String.eqb x y then Some a else assoc x l
  end.
Definition elem (x : string) (l : list string) : bool := existsb (String.eqb x) l.

(** ** Characters and tokens (6.4) *)

Definition code (c : ascii) : Z := Z.of_N (N_of_ascii c).
Definition between (a b : Z) (c : ascii) : bool := (a <=? code c) && (code c <=? b).
Definition is_digit : ascii -> bool := between 48 57.
Definition is_name (c : ascii) : bool :=
  between 97 122 c || between 65 90 c || is_digit c || Ascii.eqb c "_".
(** space, tab, vertical tab, form feed, carriage return *)
Definition is_space (c : ascii) : bool :=
  Ascii.eqb c " " || between 11 13 c || Ascii.eqb c "009".
Definition is_newline (c : ascii) : bool := Ascii.eqb c "010".

(** [Id x paren]: an identifier or keyword; [paren] says that an opening parenthesis follows
    at once, which is what makes a macro function-like (6.10.3p10).
    [Num t z]: an integer or character constant with its type.  [NL]: the end of a line. *)
Inductive token :=
  | Id (x : string) (paren : bool) | Num (t : ity) (z : Z) | Str (s : string)
  | Op (x : string) | NL.

(** punctuators (6.4.6); none comes before a longer one that it starts (6.4p4).  The parser knows no
    digraphs, no [...] and no [##]; they are here so that they are not taken for two others. *)
Definition ops : list string :=
  [","; ";"; "("; ")"; "{"; "}"; "["; "]"; "..."; "."; "?"; "~";
   "<<="; ">>="; "->"; "++"; "--"; "<<"; ">>"; "<="; ">="; "=="; "!="; "&&"; "||";
   "+="; "-="; "*="; "/="; "%="; "&="; "|="; "^=";
   "%:%:"; "%:"; "<:"; ":>"; "<%"; "%>"; "##";
   "+"; "-"; "*"; "/"; "%"; "&"; "|"; "^"; "!"; "<"; ">"; "="; ":"; "#"].

(** what is left of [s] after [p], if it starts with [p] *)
Fixpoint after (p s : string) : option string :=
  match p, s with
  | EmptyString, _ => Some s
  | String a p, String b s => if Ascii.eqb a b then after p s else None
  | _, _ => None
  end.
Fixpoint first_op (l : list string) (s : string) : option (string * string) :=
  match l with
  | [] => None
  | o :: l => match after o s with Some r => Some (o, r) | None => first_op l s end
  end.

(** the longest prefix of characters that satisfy [p] *)
Fixpoint span (p : ascii -> bool) (s : string) : string * string :=
  match s with
  | String c r => if p c then let (a, b) := span p r in (String c a, b) else ("", s)
  | EmptyString => ("", "")
  end.
(** the longest preprocessing number at the start (6.4.8), less the condition on how it starts *)
Definition is_exponent (c : ascii) : bool :=
  Ascii.eqb c "e" || Ascii.eqb c "E" || Ascii.eqb c "p" || Ascii.eqb c "P".
Definition is_sign (c : ascii) : bool := Ascii.eqb c "+" || Ascii.eqb c "-".
Fixpoint span_number (s : string) : string * string :=
  match s with
  | String c r =>
      if is_name c || Ascii.eqb c "." then
        match r with
        | String d r' =>
            if is_exponent c && is_sign d
            then let (a, b) := span_number r' in (String c (String d a), b)
            else let (a, b) := span_number r in (String c a, b)
        | EmptyString => (s, "")
        end
      else ("", s)
  | EmptyString => ("", "")
  end.
(** the text after the end of a comment *)
Fixpoint end_comment (s : string) : option string :=
  match s with
  | EmptyString => None
  | String c r => match after "*/" s with Some r => Some r | None => end_comment r end
  end.

(** integer constants have digits of value less than the base (6.4.4.1) *)
Definition digit (c : ascii) : Z :=
  if is_digit c then code c - 48
  else if between 97 102 c then code c - 87
  else if between 65 70 c then code c - 55
  else 99.
Definition starts_digit (base : Z) (s : string) : bool :=
  match s with String c _ => digit c <? base | EmptyString => false end.

(** simple escape sequences (6.4.4.4), and [\0] if no octal digit follows; [r] is the text after [c] *)
Definition escape (c : ascii) (r : string) : option ascii :=
  if Ascii.eqb c "n" then Some "010"%char
  else if Ascii.eqb c "0" then if starts_digit 8 r then None else Some "000"%char
  else if Ascii.eqb c "\" || Ascii.eqb c "'" || Ascii.eqb c """" || Ascii.eqb c "?" then Some c
  else if Ascii.eqb c "a" then Some "007"%char
  else if Ascii.eqb c "b" then Some "008"%char
  else if Ascii.eqb c "t" then Some "009"%char
  else if Ascii.eqb c "v" then Some "011"%char
  else if Ascii.eqb c "f" then Some "012"%char
  else if Ascii.eqb c "r" then Some "013"%char
  else None.
(** characters up to the closing quote [q] *)
Fixpoint quoted (q : ascii) (s : string) : option (string * string) :=
  match s with
  | EmptyString => None
  | String c r =>
      if Ascii.eqb c q then Some ("", r)
      else if is_newline c then None
      else if Ascii.eqb c "\" then
        match r with
        | String e r => c ← escape e r; '(a, b) ← quoted q r; Some (String c a, b)
        | EmptyString => None
        end
      else '(a, b) ← quoted q r; Some (String c a, b)
  end.

(** decimal or hexadecimal constants of type [int] or [unsigned int] (6.4.4.1) *)
Fixpoint digits (base z : Z) (s : string) : Z * string :=
  match s with
  | String c r => if digit c <? base then digits base (base * z + digit c) r else (z, s)
  | EmptyString => (z, s)
  end.
Definition number (s : string) : option token :=
  let '(base, s) :=
    match after "0x" s, after "0X" s with
    | Some r, _ | _, Some r => (16, r)
    | None, None => (if match after "0" s with Some r => starts_digit 10 r | None => false end
                     then 8 else 10, s)
    end in
  if (base =? 8) || negb (starts_digit base s) then None
  else
    let '(z, suffix) := digits base 0 s in
    if String.eqb suffix "" then if z <? 2 ^ 31 then Some (Num I32 z) else None
    else if String.eqb suffix "U" || String.eqb suffix "u" then
      if z <? 2 ^ 32 then Some (Num U32 z) else None
    else None.

Fixpoint lex (fuel : nat) (s : string) : option (list token) :=
  match fuel with
  | O => None
  | S k =>
      match s with
      | EmptyString => Some [NL]
      | String c r =>
          if is_space c then lex k r
          else if is_newline c then ts ← lex k r; Some (NL :: ts)
          else if is_digit c || Ascii.eqb c "." && starts_digit 10 r then
            let '(a, r) := span_number s in
            t ← number a; ts ← lex k r; Some (t :: ts)
          else if is_name c then
            let '(a, r) := span is_name s in
            let next := match r with String d _ => d | EmptyString => " "%char end in
            if String.eqb a "L" && (Ascii.eqb next """" || Ascii.eqb next "'") then None
            else ts ← lex k r; Some (Id a (Ascii.eqb next "(") :: ts)
          else if Ascii.eqb c """" then
            '(a, r) ← quoted """" r; ts ← lex k r; Some (Str a :: ts)
          else if Ascii.eqb c "'" then
            '(a, r) ← quoted "'" r;
            match a with
            | String c EmptyString =>
                if code c <? 128 then ts ← lex k r; Some (Num I32 (code c) :: ts) else None
            | _ => None
            end
          else
            match after "/*" s, after "//" s with
            | Some r, _ => r ← end_comment r; lex k r
            | _, Some r => lex k (snd (span (fun c => negb (is_newline c)) r))
            | None, None => '(o, r) ← first_op ops s; ts ← lex k r; Some (Op o :: ts)
            end
      end
  end.
(** a backslash at the end of a line joins it to the next (5.1.1.2p1); some files end their
    lines with a carriage return and a newline *)
Fixpoint splice (s : string) : string :=
  match s with
  | String a r =>
      if Ascii.eqb a "\" then
        match r with
        | String b r' =>
            if is_newline b then splice r'
            else
              match r' with
              | String c r'' =>
                  if Ascii.eqb b "013" && is_newline c then splice r'' else String a (splice r)
              | EmptyString => s
              end
        | EmptyString => s
        end
      else String a (splice r)
  | EmptyString => s
  end.
Definition tokens (s : string) : option (list token) :=
  let s := splice s in lex (S (String.length s)) s.

(** ** Directives and macros (6.10)

    [#include], [#define] of an object-like macro, [#ifdef], [#ifndef], [#endif]. *)

(** file names and their texts; a system header is named with its angle brackets *)
Notation files := (list (string * string)).
Notation macros := (list (string * list token)).

Definition is_op (x : string) (t : token) : bool :=
  match t with Op y => String.eqb x y | _ => false end.

(** macro replacement; [inner] is used on the bodies of macros *)
Fixpoint expand_all (inner : list token -> option (list token)) (m : macros) (ts : list token)
  : option (list token) :=
  match ts with
  | [] => Some []
  | t :: ts =>
      a ← match t with
          | Id x _ => match assoc x m with Some b => inner b | None => Some [t] end
          | _ => Some [t]
          end;
      b ← expand_all inner m ts;
      Some (a ++ b)
  end.
(** a macro that mentions itself, directly or not, runs out of [fuel] *)
Fixpoint expand (fuel : nat) (m : macros) (ts : list token) : option (list token) :=
  match fuel with
  | O => None
  | S k => expand_all (expand k m) m ts
  end.

(** lines without their ends *)
Fixpoint lines (ts : list token) : list (list token) :=
  match ts with
  | [] => []
  | NL :: ts => [] :: lines ts
  | t :: ts => match lines ts with [] => [[t]] | l :: ls => (t :: l) :: ls end
  end.

Definition header_name (l : list token) : option string :=
  match l with
  | [Str f] => Some f
  | [Op a; Id f _; Op b; Id h _; Op c] =>
      if String.eqb a "<" && String.eqb b "." && String.eqb h "h" && String.eqb c ">"
      then Some ("<" ++ f ++ ".h>")%string else None
  | _ => None
  end.

(** [DIf d x]: [#ifdef x] if [d], [#ifndef x] otherwise.  [DStop]: a line that this phase cannot
    skip either, since it may belong to a conditional. *)
Inductive line :=
  | DText | DIf (d : bool) (x : string) | DEndif
  | DInclude (f : string) | DDefine (x : string) (body : list token) | DOther | DStop.
Definition classify (l : list token) : line :=
  match l with
  | [] => DText
  | t :: r =>
      if negb (is_op "#" t) then DText
      else
        match r with
        | Id d _ :: r =>
            if String.eqb d "endif" then match r with [] => DEndif | _ => DStop end
            else if String.eqb d "ifdef" || String.eqb d "ifndef" then
              match r with [Id x _] => DIf (String.eqb d "ifdef") x | _ => DStop end
            else if String.eqb d "include" then
              match header_name r with Some f => DInclude f | None => DOther end
            else if String.eqb d "define" then
              match r with Id x false :: body => DDefine x body | _ => DOther end
            else if elem d ["if"; "elif"; "else"] then DStop
            else DOther
        | _ => DOther
        end
  end.

(** the tokens of some lines after this phase, in reverse in front of [out], and the macros defined
    at their end; [skip] has an entry for each open conditional: whether its lines are left out;
    [inc] processes another file *)
Fixpoint directives (inc : macros -> string -> option (macros * list token))
    (ls : list (list token)) (m : macros) (skip : list bool) (out : list token)
  : option (macros * list token) :=
  match ls with
  | [] => match skip with [] => Some (m, out) | _ => None end
  | l :: ls =>
      match classify l with
      | DStop => None
      | DEndif => match skip with [] => None | _ :: skip => directives inc ls m skip out end
      | DIf d x =>
          let defined := match assoc x m with Some _ => true | None => false end in
          directives inc ls m (xorb d defined :: skip) out
      | c =>
          if existsb id skip then directives inc ls m skip out
          else
            match c with
            | DText => o ← expand 9 m l; directives inc ls m skip (rev_append o out)
            | DInclude g => '(m, o) ← inc m g; directives inc ls m skip (rev_append o out)
            | DDefine x body => directives inc ls ((x, body) :: m) skip out
            | _ => None
            end
      end
  end.
(** the tokens of file [f] after this phase, and the macros defined at its end *)
Fixpoint preprocess (fuel : nat) (fs : files) (m : macros) (f : string)
  : option (macros * list token) :=
  match fuel with
  | O => None
  | S k =>
      text ← assoc f fs;
      ts ← tokens text;
      '(m, out) ← directives (preprocess k fs) (lines ts) m [] [];
      Some (m, rev_append out [])
  end.

(** ** Parser (6.5 to 6.9) *)

(** [PStruct fs]: a structure with members [fs]; [POther]: a floating type, which no function
    of the fragment may use *)
Inductive ptype :=
  | PInt (t : ity) | PPtr (t : ptype) | PVoid | PFun | PArr (t : ptype) (n : Z)
  | PStruct (fs : list (string * ptype)) | POther.

Inductive pexpr :=
  | XNum (t : ity) (z : Z) | XStr (s : string) | XId (x : string)
  | XUn (op : string) (e : pexpr) | XDeref (e : pexpr) | XAddr (e : pexpr)
  | XBin (op : string) (a b : pexpr) | XCond (c a b : pexpr)
  | XCast (t : ptype) (e : pexpr) | XInc (pre : bool) (d : Z) (e : pexpr)
  | XIndex (a i : pexpr) | XField (e : pexpr) (x : string) | XCall (f : pexpr) (l : list pexpr).

Inductive pinit := NoInit | InitE (e : pexpr) | InitL (l : list pexpr).
(** a declaration says whether the object is static and whether it is constant *)
Inductive pstmt :=
  | YSkip | YBlock (l : list pstmt) | YIf (c : pexpr) (a b : pstmt)
  | YLoop (init : pstmt) (c : pexpr) (step body : pstmt) | YBreak | YReturn (e : pexpr)
  | YDecl (static const : bool) (t : ptype) (x : string) (i : pinit)
  | YSet (l e : pexpr) | YOp (op : string) (l e : pexpr) | YExpr (e : pexpr).

Record pfun := PFunction {
  f_static : bool; f_ret : ptype; f_name : string; f_params : list (string * ptype);
  f_body : list pstmt
}.

Definition next_is (x : string) (ts : list token) : bool :=
  match ts with t :: _ => is_op x t | [] => false end.
Definition next_kw (x : string) (ts : list token) : bool :=
  match ts with Id y _ :: _ => String.eqb x y | _ => false end.
Definition eat (x : string) (ts : list token) : option (list token) :=
  match ts with t :: r => if is_op x t then Some r else None | [] => None end.
(** 6.4.1 *)
Definition keywords : list string :=
  ["auto"; "break"; "case"; "char"; "const"; "continue"; "default"; "do"; "double"; "else";
   "enum"; "extern"; "float"; "for"; "goto"; "if"; "inline"; "int"; "long"; "register";
   "restrict"; "return"; "short"; "signed"; "sizeof"; "static"; "struct"; "switch"; "typedef";
   "union"; "unsigned"; "void"; "volatile"; "while"; "_Bool"; "_Complex"; "_Imaginary"].
Definition ident (ts : list token) : option (string * list token) :=
  match ts with
  | Id x _ :: r => if elem x keywords then None else Some (x, r)
  | _ => None
  end.

Definition type_words : list string :=
  ["void"; "_Bool"; "char"; "signed"; "unsigned"; "short"; "int"; "long"; "float"; "double"].
(** the types of the x86-64 ABI *)
Definition basic_types : list (string * ptype) :=
  [("void", PVoid); ("_Bool", PInt IBool); ("char", PInt IChar); ("signed char", PInt I8);
   ("unsigned char", PInt U8); ("unsigned short", PInt U16); ("int", PInt I32);
   ("unsigned int", PInt U32); ("long", PInt I64); ("unsigned long", PInt U64);
   ("float", POther); ("double", POther); ("long double", POther)].

(** leading identifiers out of [ws], joined by spaces *)
Fixpoint words (ws : list string) (ts : list token) : string * list token :=
  match ts with
  | Id x _ :: r =>
      if elem x ws then
        let '(a, r) := words ws r in ((if String.eqb a "" then x else x ++ " " ++ a)%string, r)
      else ("", ts)
  | _ => ("", ts)
  end.
(** leading words out of [ws], where [ws] has [const], [static] and [inline] or only the first;
    whether [static] and [const] are among them *)
Fixpoint quals (ws : list string) (ts : list token) : bool * bool * list token :=
  match ts with
  | Id x _ :: r =>
      if elem x ws then
        let '(s, c, r) := quals ws r in (s || String.eqb x "static", c || String.eqb x "const", r)
      else (false, false, ts)
  | _ => (false, false, ts)
  end.
(** qualifiers, and asterisks with theirs; [c]: is the object constant *)
Fixpoint stars (c : bool) (t : ptype) (ts : list token) : bool * ptype * list token :=
  match ts with
  | Op o :: r => if String.eqb o "*" then stars false (PPtr t) r else (c, t, ts)
  | Id x _ :: r => if String.eqb x "const" then stars true t r else (c, t, ts)
  | _ => (c, t, ts)
  end.

(** the tokens after the parenthesis that closes the [n]-th open one *)
Fixpoint skip_paren (n : nat) (ts : list token) : option (list token) :=
  match ts with
  | [] => None
  | t :: r =>
      if is_op "(" t then skip_paren (S n) r
      else if is_op ")" t then match n with O => None | 1%nat => Some r | S n => skip_paren n r end
      else skip_paren n r
  end.

(** operators of each level, loosest first (6.5.5 to 6.5.14) *)
Definition levels : list (list string) :=
  [["||"]; ["&&"]; ["|"]; ["^"]; ["&"]; ["=="; "!="]; ["<"; ">"; "<="; ">="]; ["<<"; ">>"];
   ["+"; "-"]; ["*"; "/"; "%"]].
Definition assign_ops : list (string * string) :=
  [("+=", "+"); ("-=", "-"); ("*=", "*"); ("/=", "/"); ("%=", "%"); ("&=", "&"); ("|=", "|");
   ("^=", "^"); ("<<=", "<<"); (">>=", ">>")].

Section parser.
  (** [tys]: the type names declared so far *)
  Context (tys : list (string * ptype)).

  Definition is_type (x : string) : bool :=
    match assoc x tys with Some _ => true | None => false end.
  Definition at_type (ts : list token) : bool :=
    match ts with
    | Id x _ :: _ => elem x type_words || elem x ["const"; "static"; "inline"] || is_type x
    | _ => false
    end.
  (** a name that is not the name of a type; no other name may hide one *)
  Definition name (ts : list token) : option (string * list token) :=
    '(x, r) ← ident ts; if is_type x then None else Some (x, r).

  (** static, constant, type *)
  Definition type_name (ws : list string) (ts : list token)
    : option (bool * bool * ptype * list token) :=
    let '(s, c, ts) := quals ws ts in
    let '(w, r) := words type_words ts in
    '(t, ts) ← (if String.eqb w "" then '(x, r) ← ident ts; t ← assoc x tys; Some (t, r)
                else t ← assoc w basic_types; Some (t, r));
    let '(c, t, ts) := stars c t ts in
    Some (s, c, t, ts).

  Fixpoint expr (fuel : nat) (ts : list token) : option (pexpr * list token) :=
    match fuel with
    | O => None
    | S k =>
        '(c, ts) ← binary k levels ts;
        match eat "?" ts with
        | None => Some (c, ts)
        | Some ts =>
            '(a, ts) ← expr k ts; ts ← eat ":" ts; '(b, ts) ← expr k ts;
            Some (XCond c a b, ts)
        end
    end
  with binary (fuel : nat) (ls : list (list string)) (ts : list token)
    : option (pexpr * list token) :=
    match fuel with
    | O => None
    | S k =>
        match ls with
        | [] => unary k ts
        | os :: ls => '(a, ts) ← binary k ls ts; operands k os ls a ts
        end
    end
  (** what follows the left operand [a] on a level: left-associative *)
  with operands (fuel : nat) (os : list string) (ls : list (list string)) (a : pexpr)
         (ts : list token) : option (pexpr * list token) :=
    match fuel with
    | O => None
    | S k =>
        match ts with
        | Op o :: r =>
            if elem o os then '(b, ts) ← binary k ls r; operands k os ls (XBin o a b) ts
            else Some (a, ts)
        | _ => Some (a, ts)
        end
    end
  with unary (fuel : nat) (ts : list token) : option (pexpr * list token) :=
    match fuel with
    | O => None
    | S k =>
        match ts with
        | Op o :: r =>
            if elem o ["++"; "--"] && next_is "(" r && at_type (tail r) then None
            else if String.eqb o "++" then '(e, ts) ← unary k r; Some (XInc true 1 e, ts)
            else if String.eqb o "--" then '(e, ts) ← unary k r; Some (XInc true (-1) e, ts)
            else if String.eqb o "*" then '(e, ts) ← unary k r; Some (XDeref e, ts)
            else if String.eqb o "&" then '(e, ts) ← unary k r; Some (XAddr e, ts)
            else if elem o ["!"; "~"; "-"] then '(e, ts) ← unary k r; Some (XUn o e, ts)
            else if String.eqb o "(" && at_type r then
              '(_, t, ts) ← type_name ["const"] r; ts ← eat ")" ts; '(e, ts) ← unary k ts;
              Some (XCast t e, ts)
            else '(e, ts) ← primary k ts; postfix k e ts
        | _ => '(e, ts) ← primary k ts; postfix k e ts
        end
    end
  with primary (fuel : nat) (ts : list token) : option (pexpr * list token) :=
    match fuel with
    | O => None
    | S k =>
        match ts with
        | Id _ _ :: _ => '(x, r) ← name ts; Some (XId x, r)
        | Num t z :: r => Some (XNum t z, r)
        | Str s :: r => Some (XStr s, r)
        | _ => ts ← eat "(" ts; '(e, ts) ← expr k ts; ts ← eat ")" ts; Some (e, ts)
        end
    end
  with postfix (fuel : nat) (e : pexpr) (ts : list token) : option (pexpr * list token) :=
    match fuel with
    | O => None
    | S k =>
        match ts with
        | Op o :: r =>
            if String.eqb o "[" then
              '(i, ts) ← expr k r; ts ← eat "]" ts; postfix k (XIndex e i) ts
            else if String.eqb o "(" then '(l, ts) ← args k r; postfix k (XCall e l) ts
            else if String.eqb o "->" then
              '(x, ts) ← ident r; postfix k (XField (XDeref e) x) ts
            else if String.eqb o "." then '(x, ts) ← ident r; postfix k (XField e x) ts
            else if String.eqb o "++" then postfix k (XInc false 1 e) r
            else if String.eqb o "--" then postfix k (XInc false (-1) e) r
            else Some (e, ts)
        | _ => Some (e, ts)
        end
    end
  (** arguments up to the closing parenthesis *)
  with args (fuel : nat) (ts : list token) : option (list pexpr * list token) :=
    match fuel with
    | O => None
    | S k =>
        match eat ")" ts with
        | Some r => Some ([], r)
        | None =>
            '(a, ts) ← expr k ts;
            match eat "," ts with
            | Some ts => if next_is ")" ts then None else '(l, ts) ← args k ts; Some (a :: l, ts)
            | None => ts ← eat ")" ts; Some ([a], ts)
            end
        end
    end.

  (** an initialiser list, up to the closing brace *)
  Fixpoint inits (fuel : nat) (ts : list token) : option (list pexpr * list token) :=
    match fuel with
    | O => None
    | S k =>
        match eat "}" ts with
        | Some r => Some ([], r)
        | None =>
            '(a, ts) ← expr k ts;
            match eat "," ts with
            | Some ts => '(l, ts) ← inits k ts; Some (a :: l, ts)
            | None => ts ← eat "}" ts; Some ([a], ts)
            end
        end
    end.

  (** a constant expression: a number, or a number cast to [uint8_t] *)
  Definition constant (e : pexpr) : option Z :=
    match e with
    | XNum _ z => Some z
    | XCast (PInt U8) (XNum _ z) => Some (u8 z)
    | _ => None
    end.

  (** a declaration, assignment or expression, without its semicolon *)
  Definition simple (k : nat) (ts : list token) : option (pstmt * list token) :=
    if at_type ts then
      '(s, c, t, ts) ← type_name ["const"; "static"; "inline"] ts;
      '(x, ts) ← name ts;
      '(t, ts) ← match eat "[" ts with
                 | Some ts =>
                     '(e, ts) ← expr k ts; n ← constant e; ts ← eat "]" ts;
                     Some (PArr t n, ts)
                 | None => Some (t, ts)
                 end;
      '(i, ts) ← match eat "=" ts with
                 | Some ts =>
                     match eat "{" ts with
                     | Some ts =>
                         if next_is "}" ts then None
                         else '(l, ts) ← inits k ts; Some (InitL l, ts)
                     | None => '(e, ts) ← expr k ts; Some (InitE e, ts)
                     end
                 | None => Some (NoInit, ts)
                 end;
      Some (YDecl s c t x i, ts)
    else
      '(e, ts) ← expr k ts;
      match ts with
      | Op o :: r =>
          if String.eqb o "=" then '(a, ts) ← expr k r; Some (YSet e a, ts)
          else
            match assoc o assign_ops with
            | Some b => '(a, ts) ← expr k r; Some (YOp b e a, ts)
            | None => Some (YExpr e, ts)
            end
      | _ => None
      end.

  Fixpoint stmt (fuel : nat) (ts : list token) : option (pstmt * list token) :=
    match fuel with
    | O => None
    | S k =>
        if next_is "{" ts then
          ts ← eat "{" ts; '(l, ts) ← stmts k ts; Some (YBlock l, ts)
        else if next_is ";" ts then ts ← eat ";" ts; Some (YSkip, ts)
        else if next_kw "if" ts then
          let ts := tail ts in
          ts ← eat "(" ts; '(c, ts) ← expr k ts; ts ← eat ")" ts;
          '(a, ts) ← stmt k ts;
          if next_kw "else" ts then
            '(b, ts) ← stmt k (tail ts); Some (YIf c a b, ts)
          else Some (YIf c a YSkip, ts)
        else if next_kw "while" ts then
          let ts := tail ts in
          ts ← eat "(" ts; '(c, ts) ← expr k ts; ts ← eat ")" ts;
          '(b, ts) ← stmt k ts;
          Some (YLoop YSkip c YSkip b, ts)
        else if next_kw "for" ts then
          let ts := tail ts in
          ts ← eat "(" ts; '(i, ts) ← simple k ts; ts ← eat ";" ts;
          '(c, ts) ← expr k ts; ts ← eat ";" ts;
          '(s, ts) ← simple k ts; ts ← eat ")" ts;
          '(b, ts) ← stmt k ts;
          Some (YLoop i c s b, ts)
        else if next_kw "break" ts then
          ts ← eat ";" (tail ts); Some (YBreak, ts)
        else if next_kw "return" ts then
          '(e, ts) ← expr k (tail ts); ts ← eat ";" ts; Some (YReturn e, ts)
        else '(s, ts) ← simple k ts; ts ← eat ";" ts; Some (s, ts)
    end
  (** statements up to the closing brace *)
  with stmts (fuel : nat) (ts : list token) : option (list pstmt * list token) :=
    match fuel with
    | O => None
    | S k =>
        match eat "}" ts with
        | Some r => Some ([], r)
        | None => '(s, ts) ← stmt k ts; '(l, ts) ← stmts k ts; Some (s :: l, ts)
        end
    end.

  (** a member or parameter: [type name], [type ( *name )(...)] or [type name [...]]; an array
      parameter is a pointer (6.7.5.3p7) *)
  Definition declarator (k : nat) (param : bool) (ts : list token)
    : option (string * ptype * list token) :=
    '(_, t, ts) ← type_name ["const"] ts;
    match eat "(" ts with
    | Some ts =>
        ts ← eat "*" ts; '(x, ts) ← (if param then name ts else ident ts); ts ← eat ")" ts;
        ts ← eat "(" ts; ts ← skip_paren 1 ts;
        Some (x, PPtr PFun, ts)
    | None =>
        '(x, ts) ← (if param then name ts else ident ts);
        match eat "[" ts with
        | None => Some (x, t, ts)
        | Some ts =>
            ts ← (if next_is "]" ts then Some ts else '(_, ts) ← expr k ts; Some ts);
            ts ← eat "]" ts;
            if param then Some (x, PPtr t, ts) else None
        end
    end.
  Fixpoint members (fuel : nat) (ts : list token)
    : option (list (string * ptype) * list token) :=
    match fuel with
    | O => None
    | S k =>
        match eat "}" ts with
        | Some r => Some ([], r)
        | None =>
            '(m, ts) ← declarator k false ts; ts ← eat ";" ts;
            '(l, ts) ← members k ts; Some (m :: l, ts)
        end
    end.
  Fixpoint params (fuel : nat) (ts : list token)
    : option (list (string * ptype) * list token) :=
    match fuel with
    | O => None
    | S k =>
        '(m, ts) ← declarator k true ts;
        match eat "," ts with
        | Some ts => '(l, ts) ← params k ts; Some (m :: l, ts)
        | None => ts ← eat ")" ts; Some ([m], ts)
        end
    end.
End parser.

(** a whole file: the functions it defines, in order; declarations of functions are read and
    dropped *)
Fixpoint unit (fuel : nat) (tys : list (string * ptype)) (ts : list token)
  : option (list pfun) :=
  match fuel, ts with
  | _, [] => Some []
  | O, _ => None
  | S k, _ =>
      if next_kw "typedef" ts then
        let ts := tail ts in
        '(t, ts) ← (if next_kw "struct" ts then
                      ts ← eat "{" (tail ts);
                      '(fs, ts) ← members tys k ts; Some (PStruct fs, ts)
                    else '(_, t, ts) ← type_name tys ["const"] ts; Some (t, ts));
        '(x, ts) ← name tys ts;
        ts ← eat ";" ts;
        unit k ((x, t) :: tys) ts
      else
        '(s, _, t, ts) ← type_name tys ["const"; "static"; "inline"] ts;
        '(x, ts) ← name tys ts;
        ts ← eat "(" ts;
        '(ps, ts) ← (if next_kw "void" ts && next_is ")" (tail ts)
                     then Some ([], tail (tail ts)) else params tys k ts);
        match eat ";" ts with
        | Some ts => unit k tys ts
        | None =>
            ts ← eat "{" ts;
            '(b, ts) ← stmts tys k ts;
            l ← unit k tys ts;
            Some (PFunction s t x ps b :: l)
        end
  end.

(** ** Names *)

(** [CLang] has no structure types of its own, only their number of cells *)
Fixpoint ctype (t : ptype) : option cty :=
  match t with
  | PInt t => Some (TInt t)
  | PPtr t | PArr t _ => t ← ctype t; Some (TPtr t)
  | PVoid => Some TVoid
  | PFun => Some TFun
  | PStruct fs => Some (TStruct (len fs))
  | POther => None
  end.

(** what a name stands for: a variable; one whose address is taken, so that it is an object in
    memory and the variable is a pointer to it; an array in memory; constant data *)
Inductive entry :=
  | NVar (n : nat) (t : ptype) | NMem (n : nat) (t : ptype) | NArr (n : nat) (t : ptype)
  | NData (t : ity) (l : list Z).
(** names in scope, innermost first, and the number of variables in use *)
Notation scope := (list (string * entry) * nat)%type.

Definition lib_funs : list (string * libfun) :=
  [("memcpy", LMemcpy); ("memcmp", LMemcmp); ("strlen", LStrlen); ("strcpy", LStrcpy);
   ("strcmp", LStrcmp); ("strncmp", LStrncmp)].
Definition bin_ops : list (string * binop) :=
  [("+", Add); ("-", Sub); ("*", Mul); ("/", Div); ("%", Mod); ("&", And); ("|", Or);
   ("^", Xor); ("<<", Shl); (">>", Shr); ("<", Lt); ("<=", Le); (">", Gt); (">=", Ge);
   ("==", Eq); ("!=", Ne)].
Definition un_ops : list (string * unop) := [("!", LNot); ("~", BNot); ("-", Neg)].

(** the type of an expression whose member is taken *)
Fixpoint type_of (ns : list (string * entry)) (e : pexpr) : option ptype :=
  match e with
  | XId x =>
      match assoc x ns with
      | Some (NVar _ t | NMem _ t | NArr _ t) => Some t
      | _ => None
      end
  | XIndex e _ | XDeref e =>
      match type_of ns e with Some (PPtr t | PArr t _) => Some t | _ => None end
  | XField e x => match type_of ns e with Some (PStruct fs) => assoc x fs | _ => None end
  | XCast t _ => Some t
  | _ => None
  end.
(** the position of a member *)
Fixpoint position (x : string) (fs : list (string * ptype)) : Z :=
  match fs with
  | [] => 0
  | (y, _) :: fs => if String.eqb x y then 0 else 1 + position x fs
  end.

Fixpoint codes (s : string) : list Z :=
  match s with EmptyString => [0] | String c r => code c :: codes r end.

(** an expression designates an object ([inl]) or has a value ([inr]) *)
Notation both := (lval + CLang.expr)%type.
Definition value (x : both) : CLang.expr := match x with inl l => ELv l | inr e => e end.
Definition place (x : both) : option lval := match x with inl l => Some l | inr _ => None end.

Section names.
  (** [funs]: the functions that can be called, with their definitions *)
  Context (funs : list (string * fundef)).

  Fixpoint elab (ns : list (string * entry)) (e : pexpr) : option both :=
    match e with
    | XNum t z => Some (inr (ECst t z))
    | XStr s => Some (inr (EData IChar (codes s)))
    | XId x =>
        match assoc x ns with
        | Some (NVar n t) => t ← ctype t; Some (inl (LVar n t))
        | Some (NMem n t) => t ← ctype t; Some (inl (LDeref (ELv (LVar n (TPtr t)))))
        | Some (NArr n t) => t ← ctype t; Some (inr (ELv (LVar n t)))
        | Some (NData t l) => Some (inr (EData t l))
        | None => None
        end
    | XUn op a => op ← assoc op un_ops; a ← elab ns a; Some (inr (EUn op (value a)))
    | XDeref a => a ← elab ns a; Some (inl (LDeref (value a)))
    | XAddr a =>
        a ← elab ns a;
        match a with
        | inl (LDeref e) => Some (inr e)
        | inl (LVar _ _) | inr _ => None
        | inl l => Some (inr (EAddr l))
        end
    | XBin op a b =>
        a ← elab ns a; b ← elab ns b;
        if String.eqb op "&&" then Some (inr (EAnd (value a) (value b)))
        else if String.eqb op "||" then Some (inr (EOr (value a) (value b)))
        else op ← assoc op bin_ops; Some (inr (EBin op (value a) (value b)))
    | XCond c a b =>
        c ← elab ns c; a ← elab ns a; b ← elab ns b;
        Some (inr (ECond (value c) (value a) (value b)))
    | XCast t a => t ← ctype t; a ← elab ns a; Some (inr (ECast t (value a)))
    | XInc pre d a => a ← elab ns a; l ← place a; Some (inr (EInc pre d l))
    | XIndex a i => a ← elab ns a; i ← elab ns i; Some (inl (LIndex (value a) (value i)))
    | XField a x =>
        match type_of ns a with
        | Some (PStruct fs) =>
            t ← assoc x fs; t ← ctype t;
            a ← elab ns a; l ← place a;
            Some (inl (LField l (position x fs) t))
        | _ => None
        end
    | XCall f l =>
        l ← (fix go (l : list pexpr) : option exprs :=
               match l with
               | [] => Some ENil
               | a :: l => a ← elab ns a; l ← go l; Some (ECons (value a) l)
               end) l;
        match f with
        | XId x =>
            match assoc x ns, assoc x funs, assoc x lib_funs with
            | Some _, _, _ => f ← elab ns f; Some (inr (ECallPtr (value f) l))
            | None, Some d, _ => Some (inr (ECall d l))
            | None, None, Some d => Some (inr (ELib d l))
            | None, None, None => None
            end
        | _ => f ← elab ns f; Some (inr (ECallPtr (value f) l))
        end
    end.
  Definition rvalue (ns : list (string * entry)) (e : pexpr) : option CLang.expr :=
    a ← elab ns e; Some (value a).
  Definition lvalue (ns : list (string * entry)) (e : pexpr) : option lval :=
    a ← elab ns e; place a.

  (** the elements of an array of [n], padded with zeros (6.7.8p21) *)
  Fixpoint constants (l : list pexpr) : option (list Z) :=
    match l with
    | [] => Some []
    | e :: l => z ← constant e; l ← constants l; Some (z :: l)
    end.
  Definition elements (n : Z) (l : list pexpr) : option (list Z) :=
    zs ← constants l;
    if len zs <=? n then Some (zs ++ replicate (Z.to_nat (n - len zs)) 0) else None.

  (** [addr]: the names whose address is taken in the function *)
  Context (addr : list string).

  Definition declare (static const : bool) (t : ptype) (x : string) (i : pinit) (sc : scope)
    : option (CLang.stmt * scope) :=
    let '(ns, n) := sc in
    match t, i with
    | PArr (PInt t) k, InitL l =>
        zs ← elements k l;
        if const then Some (SSkip, ((x, NData t zs) :: ns, n))
        else if static then None
        else Some (SArr t zs, ((x, NArr n (PPtr (PInt t))) :: ns, S n))
    | PArr _ _, _ => None
    | _, _ =>
        if static then None
        else if elem x addr then
          match t, i with
          | PInt t, InitE e =>
              e ← rvalue ns e; Some (SMem t e, ((x, NMem n (PInt t)) :: ns, S n))
          | _, _ => None
          end
        else
          c ← ctype t;
          match i with
          | NoInit => Some (SVar c, ((x, NVar n t) :: ns, S n))
          | InitE e => e ← rvalue ns e; Some (SInit c e, ((x, NVar n t) :: ns, S n))
          | InitL _ => None
          end
    end.
  (** does the statement declare an object in memory? *)
  Definition in_memory (s : pstmt) : bool :=
    match s with
    | YDecl static const t x _ =>
        elem x addr || match t with PArr _ _ => negb (static || const) | _ => false end
    | _ => false
    end.

  Definition then_ (a b : CLang.stmt) : CLang.stmt :=
    match a, b with SSkip, _ => b | _, SSkip => a | _, _ => SSeq a b end.

  (** statements one after the other: [f] is the meaning of each, and declarations are in scope
      for what follows *)
  Definition sequence (f : scope -> pstmt -> option (CLang.stmt * scope))
    : scope -> list pstmt -> option (CLang.stmt * nat) :=
    fix go sc l {struct l} :=
      match l with
      | [] => Some (SSkip, snd sc)
      | s :: l => '(a, sc) ← f sc s; '(b, n) ← go sc l; Some (then_ a b, n)
      end.

  Fixpoint elabs (sc : scope) (s : pstmt) {struct s} : option (CLang.stmt * scope) :=
    let ns := fst sc in
    match s with
    | YSkip => Some (SSkip, sc)
    | YBlock l =>
        '(t, n) ← sequence elabs sc l;
        Some (if Nat.eqb n (snd sc) then t else SBlock (existsb in_memory l) t, sc)
    | YIf c a b =>
        c ← rvalue ns c;
        '(a, (_, n)) ← elabs sc a;
        '(b, (_, k)) ← elabs sc b;
        if Nat.eqb n (snd sc) && Nat.eqb k (snd sc) then Some (SIf c a b, sc) else None
    | YLoop i c s b =>
        '(i, sc') ← elabs sc i;
        c ← rvalue (fst sc') c;
        '(s, (_, n)) ← elabs sc' s;
        '(b, (_, k)) ← elabs sc' b;
        let t := then_ i (SLoop c s b) in
        if Nat.eqb n (snd sc') && Nat.eqb k (snd sc')
        then Some (if Nat.eqb (snd sc') (snd sc) then t else SBlock false t, sc)
        else None
    | YBreak => Some (SBreak, sc)
    | YReturn e => e ← rvalue ns e; Some (SReturn e, sc)
    | YDecl static const t x i => declare static const t x i sc
    | YSet l e => l ← lvalue ns l; e ← rvalue ns e; Some (SSet l e, sc)
    | YOp o l e =>
        o ← assoc o bin_ops; l ← lvalue ns l; e ← rvalue ns e; Some (SOp o l e, sc)
    | YExpr e => e ← rvalue ns e; Some (SExpr e, sc)
    end.
End names.

(** names whose address is taken *)
Fixpoint addr_of (e : pexpr) : list string :=
  match e with
  | XNum _ _ | XStr _ | XId _ => []
  | XAddr (XId x) => [x]
  | XUn _ a | XDeref a | XAddr a | XCast _ a | XInc _ _ a | XField a _ => addr_of a
  | XBin _ a b | XIndex a b => addr_of a ++ addr_of b
  | XCond c a b => addr_of c ++ addr_of a ++ addr_of b
  | XCall f l => addr_of f ++ concat (map addr_of l)
  end.
Fixpoint addrs_of (s : pstmt) : list string :=
  match s with
  | YSkip | YBreak => []
  | YBlock l => concat (map addrs_of l)
  | YIf c a b => addr_of c ++ addrs_of a ++ addrs_of b
  | YLoop i c a b => addrs_of i ++ addr_of c ++ addrs_of a ++ addrs_of b
  | YReturn e | YExpr e => addr_of e
  | YDecl _ _ _ _ i =>
      match i with NoInit => [] | InitE e => addr_of e | InitL l => concat (map addr_of l) end
  | YSet a b | YOp _ a b => addr_of a ++ addr_of b
  end.

(** a static array that is written is an object of its own, passed as a first parameter *)
Definition static_array (s : pstmt) : bool :=
  match s with YDecl true false (PArr _ _) _ _ => true | _ => false end.
Fixpoint numbered (n : nat) (ps : list (string * ptype)) : scope :=
  match ps with
  | [] => ([], n)
  | (x, t) :: ps => let '(ns, k) := numbered (S n) ps in ((x, NVar n t) :: ns, k)
  end.
Fixpoint ctypes (ps : list (string * ptype)) : option (list cty) :=
  match ps with
  | [] => Some []
  | (_, t) :: ps => t ← ctype t; l ← ctypes ps; Some (t :: l)
  end.
Definition define (funs : list (string * fundef)) (f : pfun) : option fundef :=
  let '(statics, body) := List.partition static_array (f_body f) in
  let ps := map (fun s => match s with
                          | YDecl _ _ (PArr t _) x _ => (x, PPtr t)
                          | _ => ("", POther)
                          end) statics ++ f_params f in
  let addr := addrs_of (YBlock body) in
  let sc := numbered 0 ps in
  ts ← ctypes ps;
  t ← ctype (f_ret f);
  '(b, _) ← sequence (elabs funs addr) sc body;
  Some (FDef ts t (if existsb (in_memory addr) body then SBlock true b else b)).

(** ** Files

    A function is defined once the functions that it calls are. *)
Fixpoint define_all (rounds : nat) (funs : list (string * fundef)) (todo : list pfun)
  : list (string * fundef) :=
  match rounds with
  | O => funs
  | S k =>
      let '(funs, todo) :=
        List.fold_left
          (fun '(funs, todo) f =>
             match define funs f with
             | Some d => ((f_name f, d) :: funs, todo)
             | None => (funs, todo ++ [f])
             end) todo (funs, []) in
      match todo with [] => funs | _ => define_all k funs todo end
  end.

(** the functions that file [f] defines, in order, each with a flag that says whether it is
    static; [funs] are the functions of other files *)
Definition translate (fs : files) (funs : list (string * fundef)) (f : string)
  : option (list (string * bool * fundef)) :=
  '(_, ts) ← preprocess 9 fs [] f;
  l ← unit 999 [] ts;
  let funs := define_all (length l) funs l in
  mapM (fun f => d ← assoc (f_name f) funs; Some (f_name f, f_static f, d)) l.
