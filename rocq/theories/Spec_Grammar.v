(** * The grammar of C expressions and type names (C99 6.5 and 6.7.6, A.2.1)

    The productions of the standard, written as they stand there, for the tokens and trees of
    [CFront.v].  [tys] are the names that [typedef] has given to types.  Left out, because
    [CFront.v] does not know them: [sizeof], compound literals, the comma operator, and
    assignment inside expressions (an assignment is a statement there); type names have no
    qualifier but [const] and no declarators but asterisks. *)
From Coq Require Import String.
From Verif Require Import CSem CLang CFront.
Local Open Scope string_scope.
Local Open Scope list_scope.

(** ** Type names *)

(** type specifiers (6.7.2), with the meaning that the x86-64 ABI gives them *)
Inductive specifier (tys : list (string * ptype)) : list token -> ptype -> Prop :=
  | T_void p : specifier tys [Id "void" p] PVoid
  | T_bool p : specifier tys [Id "_Bool" p] (PInt IBool)
  | T_char p : specifier tys [Id "char" p] (PInt IChar)
  | T_schar p q : specifier tys [Id "signed" p; Id "char" q] (PInt I8)
  | T_uchar p q : specifier tys [Id "unsigned" p; Id "char" q] (PInt U8)
  | T_ushort p q : specifier tys [Id "unsigned" p; Id "short" q] (PInt U16)
  | T_int p : specifier tys [Id "int" p] (PInt I32)
  | T_uint p q : specifier tys [Id "unsigned" p; Id "int" q] (PInt U32)
  | T_long p : specifier tys [Id "long" p] (PInt I64)
  | T_ulong p q : specifier tys [Id "unsigned" p; Id "long" q] (PInt U64)
  | T_float p : specifier tys [Id "float" p] POther
  | T_double p : specifier tys [Id "double" p] POther
  | T_ldouble p q : specifier tys [Id "long" p; Id "double" q] POther
  | T_name x p t : ~ In x keywords -> assoc x tys = Some t -> specifier tys [Id x p] t.

(** [qualifiers ts c]: zero or more times [const]; [c] says whether there is one *)
Inductive qualifiers : list token -> bool -> Prop :=
  | Quals_none : qualifiers [] false
  | Quals_const p ts c : qualifiers ts c -> qualifiers (Id "const" p :: ts) true.

(** [pointers c t ts d u]: asterisks, each with its qualifiers, after the type [t]; the whole is
    the type [u].  [c] and [d]: is the object constant *)
Inductive pointers : bool -> ptype -> list token -> bool -> ptype -> Prop :=
  | Ptr_none c t : pointers c t [] c t
  | Ptr_star c t qs d ts e u :
      qualifiers qs d -> pointers d (PPtr t) ts e u -> pointers c t (Op "*" :: qs ++ ts) e u.

Inductive type_of_name (tys : list (string * ptype)) : list token -> bool -> ptype -> Prop :=
  | Type_name qs c ts t rs d ps e u :
      qualifiers qs c -> specifier tys ts t -> qualifiers rs d ->
      pointers (c || d) t ps e u ->
      type_of_name tys (qs ++ ts ++ rs ++ ps) e u.

(** ** Expressions *)

(** an identifier that is neither a keyword nor the name of a type *)
Definition ordinary (tys : list (string * ptype)) (x : string) : Prop :=
  ~ In x keywords /\ assoc x tys = None.

Inductive category :=
  | Primary | Postfix | Unary | Cast | Multiplicative | Additive | Shift | Relational | Equality
  | And_ | Exclusive_or | Inclusive_or | Logical_and | Logical_or | Conditional.

(** [above c d]: every [c] is a [d], for the categories of binary operators *)
Inductive above : category -> category -> Prop :=
  | Up_mul : above Cast Multiplicative
  | Up_add : above Multiplicative Additive
  | Up_shift : above Additive Shift
  | Up_rel : above Shift Relational
  | Up_eq : above Relational Equality
  | Up_and : above Equality And_
  | Up_xor : above And_ Exclusive_or
  | Up_or : above Exclusive_or Inclusive_or
  | Up_land : above Inclusive_or Logical_and
  | Up_lor : above Logical_and Logical_or.
(** [operator o c d]: a [d] may be a [d], the operator [o] and a [c] *)
Inductive operator : string -> category -> category -> Prop :=
  | O_mul : operator "*" Cast Multiplicative
  | O_div : operator "/" Cast Multiplicative
  | O_mod : operator "%" Cast Multiplicative
  | O_add : operator "+" Multiplicative Additive
  | O_sub : operator "-" Multiplicative Additive
  | O_shl : operator "<<" Additive Shift
  | O_shr : operator ">>" Additive Shift
  | O_lt : operator "<" Shift Relational
  | O_gt : operator ">" Shift Relational
  | O_le : operator "<=" Shift Relational
  | O_ge : operator ">=" Shift Relational
  | O_eq : operator "==" Relational Equality
  | O_ne : operator "!=" Relational Equality
  | O_and : operator "&" Equality And_
  | O_xor : operator "^" And_ Exclusive_or
  | O_or : operator "|" Exclusive_or Inclusive_or
  | O_land : operator "&&" Inclusive_or Logical_and
  | O_lor : operator "||" Logical_and Logical_or.

Inductive derives (tys : list (string * ptype)) : category -> list token -> pexpr -> Prop :=
  (* 6.5.1 *)
  | D_identifier x p : ordinary tys x -> derives tys Primary [Id x p] (XId x)
  | D_constant t z : derives tys Primary [Num t z] (XNum t z)
  | D_string s : derives tys Primary [Str s] (XStr s)
  | D_paren ts e :
      derives tys Conditional ts e -> derives tys Primary (Op "(" :: ts ++ [Op ")"]) e
  (* 6.5.2 *)
  | D_primary ts e : derives tys Primary ts e -> derives tys Postfix ts e
  | D_index ts a us i :
      derives tys Postfix ts a -> derives tys Conditional us i ->
      derives tys Postfix (ts ++ Op "[" :: us ++ [Op "]"]) (XIndex a i)
  | D_call0 ts f :
      derives tys Postfix ts f -> derives tys Postfix (ts ++ [Op "("; Op ")"]) (XCall f [])
  | D_call ts f us l :
      derives tys Postfix ts f -> arguments tys us l ->
      derives tys Postfix (ts ++ Op "(" :: us ++ [Op ")"]) (XCall f l)
  | D_dot ts a x p :
      derives tys Postfix ts a -> ~ In x keywords ->
      derives tys Postfix (ts ++ [Op "."; Id x p]) (XField a x)
  | D_arrow ts a x p :
      derives tys Postfix ts a -> ~ In x keywords ->
      derives tys Postfix (ts ++ [Op "->"; Id x p]) (XField (XDeref a) x)
  | D_post_inc ts a :
      derives tys Postfix ts a -> derives tys Postfix (ts ++ [Op "++"]) (XInc false 1 a)
  | D_post_dec ts a :
      derives tys Postfix ts a -> derives tys Postfix (ts ++ [Op "--"]) (XInc false (-1) a)
  (* 6.5.3 *)
  | D_postfix ts e : derives tys Postfix ts e -> derives tys Unary ts e
  | D_pre_inc ts a : derives tys Unary ts a -> derives tys Unary (Op "++" :: ts) (XInc true 1 a)
  | D_pre_dec ts a :
      derives tys Unary ts a -> derives tys Unary (Op "--" :: ts) (XInc true (-1) a)
  | D_address ts a : derives tys Cast ts a -> derives tys Unary (Op "&" :: ts) (XAddr a)
  | D_indirection ts a : derives tys Cast ts a -> derives tys Unary (Op "*" :: ts) (XDeref a)
  | D_minus ts a : derives tys Cast ts a -> derives tys Unary (Op "-" :: ts) (XUn "-" a)
  | D_complement ts a : derives tys Cast ts a -> derives tys Unary (Op "~" :: ts) (XUn "~" a)
  | D_not ts a : derives tys Cast ts a -> derives tys Unary (Op "!" :: ts) (XUn "!" a)
  (* 6.5.4 *)
  | D_unary ts e : derives tys Unary ts e -> derives tys Cast ts e
  | D_cast ts c t us a :
      type_of_name tys ts c t -> derives tys Cast us a ->
      derives tys Cast (Op "(" :: ts ++ Op ")" :: us) (XCast t a)
  (* 6.5.5 to 6.5.14 *)
  | D_up c d ts e : above c d -> derives tys c ts e -> derives tys d ts e
  | D_binary o c d ts a us b :
      operator o c d -> derives tys d ts a -> derives tys c us b ->
      derives tys d (ts ++ Op o :: us) (XBin o a b)
  (* 6.5.15 *)
  | D_logical_or ts e : derives tys Logical_or ts e -> derives tys Conditional ts e
  | D_conditional ts c us a vs b :
      derives tys Logical_or ts c -> derives tys Conditional us a ->
      derives tys Conditional vs b ->
      derives tys Conditional (ts ++ Op "?" :: us ++ Op ":" :: vs) (XCond c a b)
(** one or more arguments, with commas between them *)
with arguments (tys : list (string * ptype)) : list token -> list pexpr -> Prop :=
  | A_one ts a : derives tys Conditional ts a -> arguments tys ts [a]
  | A_more ts a us l :
      derives tys Conditional ts a -> arguments tys us l ->
      arguments tys (ts ++ Op "," :: us) (a :: l).

(** tokens with which an expression can go on *)
Definition goes_on : list string :=
  ["["; "("; "."; "->"; "++"; "--"; "*"; "/"; "%"; "+"; "-"; "<<"; ">>"; "<"; ">"; "<="; ">=";
   "=="; "!="; "&"; "^"; "|"; "&&"; "||"; "?"].
Definition ends (ts : list token) : Prop :=
  match ts with Op o :: _ => ~ In o goes_on | _ => True end.
