(** * The grammar of C statements and files (C99 6.7 to 6.9)

    Productions for the statements, declarations and definitions that [CFront.v] knows, after
    those of the standard.  They let in a little more than the standard: a declaration may stand
    where only a statement may, and the left side of an assignment may be any expression.  The
    pass after the parser refuses both. *)
From Coq Require Import String.
From Verif Require Import CSem CLang CFront Spec_Grammar.
Local Open Scope string_scope.
Local Open Scope list_scope.

(** ** Declarations *)

(** [words_before ts s c]: words before the type; [s], [c]: is [static], is [const] among them *)
Inductive words_before : list token -> bool -> bool -> Prop :=
  | W_none : words_before [] false false
  | W_const p ts s c : words_before ts s c -> words_before (Id "const" p :: ts) s true
  | W_static p ts s c : words_before ts s c -> words_before (Id "static" p :: ts) true c
  | W_inline p ts s c : words_before ts s c -> words_before (Id "inline" p :: ts) s c.
Inductive declared_type (tys : list (string * ptype))
  : list token -> bool -> bool -> ptype -> Prop :=
  | Declared_type ws s c ts t rs d ps e u :
      words_before ws s c -> specifier tys ts t -> qualifiers rs d ->
      pointers (c || d) t ps e u ->
      declared_type tys (ws ++ ts ++ rs ++ ps) s e u.

(** a constant expression: a number, or one cast to [uint8_t] *)
Inductive constant_is : pexpr -> Z -> Prop :=
  | Const_num t z : constant_is (XNum t z) z
  | Const_u8 t z : constant_is (XCast (PInt U8) (XNum t z)) (z mod 256).
Inductive dimension (tys : list (string * ptype)) : ptype -> list token -> ptype -> Prop :=
  | Dim_none t : dimension tys t [] t
  | Dim_array t us e n :
      derives tys Conditional us e -> constant_is e n ->
      dimension tys t (Op "[" :: us ++ [Op "]"]) (PArr t n).
(** the last element may be followed by a comma *)
Inductive initialisers (tys : list (string * ptype)) : list token -> list pexpr -> Prop :=
  | Inits_one us e : derives tys Conditional us e -> initialisers tys us [e]
  | Inits_comma us e :
      derives tys Conditional us e -> initialisers tys (us ++ [Op ","]) [e]
  | Inits_more us e vs l :
      derives tys Conditional us e -> initialisers tys vs l ->
      initialisers tys (us ++ Op "," :: vs) (e :: l).
Inductive initialised (tys : list (string * ptype)) : list token -> pinit -> Prop :=
  | Init_none : initialised tys [] NoInit
  | Init_expr us e : derives tys Conditional us e -> initialised tys (Op "=" :: us) (InitE e)
  | Init_list us l :
      initialisers tys us l -> initialised tys (Op "=" :: Op "{" :: us ++ [Op "}"]) (InitL l).

(** ** Statements *)

(** compound assignment (6.5.16) *)
Inductive assigns : string -> string -> Prop :=
  | As_add : assigns "+=" "+" | As_sub : assigns "-=" "-" | As_mul : assigns "*=" "*"
  | As_div : assigns "/=" "/" | As_mod : assigns "%=" "%" | As_and : assigns "&=" "&"
  | As_or : assigns "|=" "|" | As_xor : assigns "^=" "^" | As_shl : assigns "<<=" "<<"
  | As_shr : assigns ">>=" ">>".

(** without the semicolon *)
Inductive simple_statement (tys : list (string * ptype)) : list token -> pstmt -> Prop :=
  | Simple_decl ts s c t x p us u vs i :
      declared_type tys ts s c t -> ordinary tys x -> dimension tys t us u ->
      initialised tys vs i ->
      simple_statement tys (ts ++ Id x p :: us ++ vs) (YDecl s c u x i)
  | Simple_expr ts e : derives tys Conditional ts e -> simple_statement tys ts (YExpr e)
  | Simple_set ts l us e :
      derives tys Conditional ts l -> derives tys Conditional us e ->
      simple_statement tys (ts ++ Op "=" :: us) (YSet l e)
  | Simple_op ts l o b us e :
      derives tys Conditional ts l -> assigns o b -> derives tys Conditional us e ->
      simple_statement tys (ts ++ Op o :: us) (YOp b l e).

(** [statement o ts s]: [o] says whether the statement ends with an [if] that has no [else]; such
    a statement cannot stand before an [else] (6.8.4.1p3) *)
Inductive statement (tys : list (string * ptype)) : bool -> list token -> pstmt -> Prop :=
  | St_block us l : items tys us l -> statement tys false (Op "{" :: us ++ [Op "}"]) (YBlock l)
  | St_empty : statement tys false [Op ";"] YSkip
  | St_if p cs c o us a :
      derives tys Conditional cs c -> statement tys o us a ->
      statement tys true (Id "if" p :: Op "(" :: cs ++ Op ")" :: us) (YIf c a YSkip)
  | St_if_else p cs c us a q o vs b :
      derives tys Conditional cs c -> statement tys false us a -> statement tys o vs b ->
      statement tys o (Id "if" p :: Op "(" :: cs ++ Op ")" :: us ++ Id "else" q :: vs) (YIf c a b)
  | St_while p cs c o us b :
      derives tys Conditional cs c -> statement tys o us b ->
      statement tys o (Id "while" p :: Op "(" :: cs ++ Op ")" :: us) (YLoop YSkip c YSkip b)
  | St_for p is i cs c ss s o us b :
      simple_statement tys is i -> derives tys Conditional cs c -> simple_statement tys ss s ->
      statement tys o us b ->
      statement tys o
        (Id "for" p :: Op "(" :: is ++ Op ";" :: cs ++ Op ";" :: ss ++ Op ")" :: us)
        (YLoop i c s b)
  | St_break p : statement tys false [Id "break" p; Op ";"] YBreak
  | St_return p us e :
      derives tys Conditional us e ->
      statement tys false (Id "return" p :: us ++ [Op ";"]) (YReturn e)
  | St_simple us s : simple_statement tys us s -> statement tys false (us ++ [Op ";"]) s
with items (tys : list (string * ptype)) : list token -> list pstmt -> Prop :=
  | It_none : items tys [] []
  | It_more o us s vs l :
      statement tys o us s -> items tys vs l -> items tys (us ++ vs) (s :: l).

(** ** Files *)

(** tokens with matching parentheses *)
Inductive balanced : list token -> Prop :=
  | Bal_none : balanced []
  | Bal_token t ts : t <> Op "(" -> t <> Op ")" -> balanced ts -> balanced (t :: ts)
  | Bal_paren us ts : balanced us -> balanced ts -> balanced (Op "(" :: us ++ Op ")" :: ts).

(** a member of a structure ([param = false]) or a parameter; pointers to functions are not told
    apart, and an array parameter is a pointer (6.7.5.3p7) *)
Definition declared_name (tys : list (string * ptype)) (param : bool) (x : string) : Prop :=
  if param then ordinary tys x else ~ In x keywords.
Inductive declares (tys : list (string * ptype)) (param : bool)
  : list token -> string -> ptype -> Prop :=
  | Decl_plain ts c t x p :
      type_of_name tys ts c t -> declared_name tys param x ->
      declares tys param (ts ++ [Id x p]) x t
  | Decl_function ts c t x p us :
      type_of_name tys ts c t -> declared_name tys param x -> balanced us ->
      declares tys param (ts ++ [Op "("; Op "*"; Id x p; Op ")"; Op "("] ++ us ++ [Op ")"])
        x (PPtr PFun)
  | Decl_open ts c t x p :
      param = true -> type_of_name tys ts c t -> declared_name tys param x ->
      declares tys param (ts ++ [Id x p; Op "["; Op "]"]) x (PPtr t)
  | Decl_array ts c t x p us e :
      param = true -> type_of_name tys ts c t -> declared_name tys param x ->
      derives tys Conditional us e ->
      declares tys param (ts ++ Id x p :: Op "[" :: us ++ [Op "]"]) x (PPtr t).

Inductive member_list (tys : list (string * ptype)) : list token -> list (string * ptype) -> Prop :=
  | Mem_none : member_list tys [] []
  | Mem_more us x t vs l :
      declares tys false us x t -> member_list tys vs l ->
      member_list tys (us ++ Op ";" :: vs) ((x, t) :: l).
Inductive parameter_list (tys : list (string * ptype))
  : list token -> list (string * ptype) -> Prop :=
  | Par_one us x t : declares tys true us x t -> parameter_list tys us [(x, t)]
  | Par_more us x t vs l :
      declares tys true us x t -> parameter_list tys vs l ->
      parameter_list tys (us ++ Op "," :: vs) ((x, t) :: l).
Inductive parameters (tys : list (string * ptype)) : list token -> list (string * ptype) -> Prop :=
  | Pars_void p : parameters tys [Id "void" p] []
  | Pars_some us l : parameter_list tys us l -> parameters tys us l.

(** [file tys ts fs]: the tokens of a file after preprocessing and the functions it defines *)
Inductive file : list (string * ptype) -> list token -> list pfun -> Prop :=
  | File_end tys : file tys [] []
  | File_struct tys p q us fs x r ts l :
      member_list tys us fs -> ordinary tys x -> file ((x, PStruct fs) :: tys) ts l ->
      file tys (Id "typedef" p :: Id "struct" q :: Op "{" :: us ++ Op "}" :: Id x r :: Op ";" :: ts) l
  | File_type tys p us c t x r ts l :
      type_of_name tys us c t -> ordinary tys x -> file ((x, t) :: tys) ts l ->
      file tys (Id "typedef" p :: us ++ Id x r :: Op ";" :: ts) l
  | File_declaration tys us s c t x p vs ps ts l :
      declared_type tys us s c t -> ordinary tys x -> parameters tys vs ps -> file tys ts l ->
      file tys (us ++ Id x p :: Op "(" :: vs ++ Op ")" :: Op ";" :: ts) l
  | File_function tys us s c t x p vs ps bs b ts l :
      declared_type tys us s c t -> ordinary tys x -> parameters tys vs ps -> items tys bs b ->
      file tys ts l ->
      file tys (us ++ Id x p :: Op "(" :: vs ++ Op ")" :: Op "{" :: bs ++ Op "}" :: ts)
        (PFunction s t x ps b :: l).
