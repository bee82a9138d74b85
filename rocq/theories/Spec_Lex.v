(** * Spec_Lex: the lexical elements of C (C99 5.1.1.2 and 6.4)

    What the characters of a file mean as tokens, stated with the productions of the standard and
    the rule that the next token is the longest possible.  Only the type [token] is taken from
    [CFront].

    Not in it: trigraphs, universal character names, header names between [<] and [>] (read as
    separate tokens), and the rule that any other character is a token by itself.  Constants have
    a meaning here only if the front end claims to know it: decimal and hexadecimal constants of
    type [int] and [unsigned int], characters of the basic set, simple escape sequences and [\0]. *)
From Coq Require Import String Ascii.
From Verif Require Import CSem CLang CFront.
Local Open Scope string_scope.
Local Open Scope list_scope.
Local Open Scope Z_scope.

Definition one_of (l : string) (c : ascii) : Prop := In c (list_ascii_of_string l).
Definition chr (c : ascii) : string := String c "".
Infix "+++" := String.append (right associativity, at level 60).

(** ** Lines joined by a backslash (5.1.1.2p1, phase 2) *)

(** the end of a line: a newline, or a carriage return and a newline *)
Definition line_end (s : string) : Prop := s = chr "010" \/ s = chr "013" +++ chr "010".
Inductive joined : string -> string -> Prop :=
  | joined_end : joined "" ""
  | joined_line e s t : line_end e -> joined s t -> joined (chr "\" +++ e +++ s) t
  | joined_char c s t : ~ (exists e r, line_end e /\ chr c +++ s = chr "\" +++ e +++ r) ->
      joined s t -> joined (String c s) (String c t).

(** ** Preprocessing tokens (6.4) *)

(** identifiers (6.4.2.1) *)
Definition nondigit : ascii -> Prop :=
  one_of "_abcdefghijklmnopqrstuvwxyzABCDEFGHIJKLMNOPQRSTUVWXYZ".
Definition decimal : ascii -> Prop := one_of "0123456789".
Inductive identifier : string -> Prop :=
  | identifier_first c : nondigit c -> identifier (chr c)
  | identifier_nondigit x c : identifier x -> nondigit c -> identifier (x +++ chr c)
  | identifier_digit x c : identifier x -> decimal c -> identifier (x +++ chr c).

(** preprocessing numbers (6.4.8) *)
Inductive pp_number : string -> Prop :=
  | number_digit c : decimal c -> pp_number (chr c)
  | number_point c : decimal c -> pp_number ("." +++ chr c)
  | number_more x c : pp_number x -> decimal c -> pp_number (x +++ chr c)
  | number_nondigit x c : pp_number x -> nondigit c -> pp_number (x +++ chr c)
  | number_sign x e c : pp_number x -> one_of "eEpP" e -> one_of "+-" c ->
      pp_number (x +++ chr e +++ chr c)
  | number_dot x : pp_number x -> pp_number (x +++ ".").

(** character constants (6.4.4.4) and string literals (6.4.5) *)
Definition octal : ascii -> Prop := one_of "01234567".
Definition hexadecimal : ascii -> Prop := one_of "0123456789abcdefABCDEF".
Inductive escape_sequence : string -> Prop :=
  | escape_simple c : one_of "'""?\abfnrtv" c -> escape_sequence (chr "\" +++ chr c)
  | escape_octal1 a : octal a -> escape_sequence (chr "\" +++ chr a)
  | escape_octal2 a b : octal a -> octal b -> escape_sequence (chr "\" +++ chr a +++ chr b)
  | escape_octal3 a b c : octal a -> octal b -> octal c ->
      escape_sequence (chr "\" +++ chr a +++ chr b +++ chr c)
  | escape_x c : hexadecimal c -> escape_sequence ("\x" +++ chr c)
  | escape_hex e c : escape_sequence ("\x" +++ e) -> hexadecimal c ->
      escape_sequence ("\x" +++ e +++ chr c).
(** characters between quotes [q] *)
Inductive chars (q : ascii) : string -> Prop :=
  | chars_end : chars q ""
  | chars_char c s : c <> q -> c <> "\"%char -> c <> "010"%char -> chars q s -> chars q (String c s)
  | chars_escape e s : escape_sequence e -> chars q s -> chars q (e +++ s).
Definition in_quotes (q : ascii) (s : string) : string := chr q +++ s +++ chr q.

(** punctuators (6.4.6) *)
Definition punctuators : list string :=
  ["["; "]"; "("; ")"; "{"; "}"; "."; "->"; "++"; "--"; "&"; "*"; "+"; "-"; "~"; "!"; "/"; "%"; "<<"; ">>";
   "<"; ">"; "<="; ">="; "=="; "!="; "^"; "|"; "&&"; "||"; "?"; ":"; ";"; "..."; "="; "*="; "/="; "%=";
   "+="; "-="; "<<="; ">>="; "&="; "^="; "|="; ","; "#"; "##"; "<:"; ":>"; "<%"; "%>"; "%:"; "%:%:"].

Inductive pp_token : string -> Prop :=
  | pp_identifier x : identifier x -> pp_token x
  | pp_num x : pp_number x -> pp_token x
  | pp_character l s : l = "" \/ l = "L" -> s <> "" -> chars "'" s -> pp_token (l +++ in_quotes "'" s)
  | pp_string l s : l = "" \/ l = "L" -> chars """" s -> pp_token (l +++ in_quotes """" s)
  | pp_punctuator x : In x punctuators -> pp_token x.

(** [x] is the next token of [x ++ r]: no longer sequence of characters is a token (6.4p4) *)
Definition longest (x r : string) : Prop :=
  pp_token x /\
  forall y s, x +++ r = y +++ s -> pp_token y -> (String.length y <= String.length x)%nat.

(** ** What tokens mean *)

(** digits and numbers in a base (6.4.4.1) *)
Definition digit_value (base : Z) (c : ascii) (d : Z) : Prop :=
  0 <= d < base /\
  (String.get (Z.to_nat d) "0123456789abcdef" = Some c \/
   String.get (Z.to_nat d) "0123456789ABCDEF" = Some c).
Inductive numeral (base : Z) : string -> Z -> Prop :=
  | numeral_one c d : digit_value base c d -> numeral base (chr c) d
  | numeral_more s z c d : numeral base s z -> digit_value base c d ->
      numeral base (s +++ chr c) (base * z + d).
Inductive unsuffixed : string -> Z -> Prop :=
  | unsuffixed_zero : unsuffixed "0" 0
  | unsuffixed_decimal s z : numeral 10 s z -> String.get 0 s <> Some "0"%char -> unsuffixed s z
  | unsuffixed_hex p s z : p = "0x" \/ p = "0X" -> numeral 16 s z -> unsuffixed (p +++ s) z.
Inductive constant : string -> ity -> Z -> Prop :=
  | constant_int s z : unsuffixed s z -> z < 2 ^ 31 -> constant s I32 z
  | constant_unsigned s z u : unsuffixed s z -> u = "u" \/ u = "U" -> z < 2 ^ 32 ->
      constant (s +++ u) U32 z.

(** the characters that a sequence between quotes stands for (6.4.4.4) *)
Definition simple_escapes : list (ascii * ascii) :=
  [("'", "'"); ("""", """"); ("?", "?"); ("\", "\"); ("a", "007"); ("b", "008"); ("f", "012");
   ("n", "010"); ("r", "013"); ("t", "009"); ("v", "011")]%char.
Inductive spells : string -> string -> Prop :=
  | spells_end : spells "" ""
  | spells_char c s v : c <> "\"%char -> spells s v -> spells (String c s) (String c v)
  | spells_escape e c s v : In (e, c) simple_escapes -> spells s v ->
      spells (String "\" (String e s)) (String c v)
  | spells_zero s v : (forall c r, s = String c r -> ~ octal c) -> spells s v ->
      spells (String "\" (String "0" s)) (String "000" v).

(** the token that [x] stands for if [r] follows *)
Inductive means : string -> string -> token -> Prop :=
  | means_identifier x r paren : identifier x ->
      (paren = true <-> exists s, r = String "(" s) -> means x r (Id x paren)
  | means_constant x r t z : constant x t z -> means x r (Num t z)
  | means_character s r c : spells s (chr c) -> code c < 128 ->
      means (in_quotes "'" s) r (Num I32 (code c))
  | means_string s r v : spells s v -> means (in_quotes """" s) r (Str v)
  | means_punctuator x r : In x punctuators -> means x r (Op x).

(** ** Files *)

(** white space other than the end of a line; some files have carriage returns there *)
Definition blank (c : ascii) : Prop := In c [" "; "009"; "011"; "012"; "013"]%char.
(** [/* s */]: the first [*/] ends it (6.4.9) *)
Definition comment_text (s : string) : Prop :=
  forall a b, s +++ "*/" = a +++ "*/" +++ b -> b = "".
Definition starts (p s : string) : Prop := exists r, s = p +++ r.

Inductive lexed : string -> list token -> Prop :=
  | lexed_end : lexed "" [NL]
  | lexed_blank c s ts : blank c -> lexed s ts -> lexed (String c s) ts
  | lexed_line s ts : lexed s ts -> lexed (String "010" s) (NL :: ts)
  | lexed_comment t s ts : comment_text t -> lexed s ts -> lexed ("/*" +++ t +++ "*/" +++ s) ts
  | lexed_rest t s ts : ~ In "010"%char (list_ascii_of_string t) ->
      s = "" \/ starts (chr "010") s -> lexed s ts -> lexed ("//" +++ t +++ s) ts
  | lexed_token x s t ts : ~ starts "/*" (x +++ s) -> ~ starts "//" (x +++ s) ->
      longest x s -> means x s t -> lexed s ts -> lexed (x +++ s) (t :: ts).
