(** * C104: the terms in [C_*.v] are the text of [/repo/Src]

    [repo] holds the characters of every file of [/repo/Src] and of the headers they include
    ([Text_*.v], copied by [tools/embed.py]).  [program] reads them: tokens, directives, macros,
    grammar, names ([CFront.v]).  [c_program] lists the terms of [C_*.v] by file.  The script
    [tools/c2coq.py] that printed those terms is therefore not trusted. *)
From Coq Require Import String.
From Verif Require Import CSem Lib CLang CFront CSystem C_Utils C_Crc Drive_Front Proof_Front Refine.
Local Open Scope string_scope.
Local Open Scope list_scope.

(** ** All files of [/repo/Src] *)
Theorem C104_program : program repo [] sources = Some c_program.
Proof. exact program_ok. Qed.
Print Assumptions C104_program.
Example C104_program_ex : length sources = 63%nat /\ length (concat (map snd c_program)) = 120%nat.
Proof. split; vm_compute; reflexivity. Qed.

(** no two functions that other files can see share a name *)
Theorem C104_names : NoDup (map fst (functions c_program)).
Proof. exact names_ok. Qed.
Print Assumptions C104_names.
Example C104_names_ex : length (functions c_program) = 113%nat.
Proof. vm_compute. reflexivity. Qed.

(** a call of the function called [x] in the text is a call of its term in [C_*.v]; so C84-C103
    are theorems about the text *)
Theorem C104_run : forall (W : Type) sc
    (ext : Z -> list val -> mem -> W -> outcome (val * mem * W)) fuel f l x d args m w,
  In (f, l) c_program -> In (x, false, d) l ->
  run_text sc ext fuel repo sources x args m w = call sc ext fuel d args m w.
Proof. exact @run_function. Qed.
Print Assumptions C104_run.
Example C104_run_ex :
  run_text true (fun _ _ _ _ => UB BadType) 50 repo sources "BitManipulation_reflect"
    [VInt U32 6; VInt U8 8] [] tt = Ok (VInt U32 96, [], tt).
Proof.
  erewrite C104_run with (f := "bit_manipulation.c") (d := c_BitManipulation_reflect).
  - vm_compute. reflexivity.
  - right. left. reflexivity.
  - left. reflexivity.
Qed.

(** ** What the front end does with small files *)

(** precedence and associativity, and parameters numbered from 0 *)
Example C104_precedence_ex :
  translate [("a.c", "int f(int a, int b) { return a - b - 1 * 2 == a & b; }")] [] "a.c"
  = Some [("f", false,
           FDef [TInt I32; TInt I32] (TInt I32)
             (SReturn (EBin And
               (EBin Eq
                 (EBin Sub (EBin Sub (ELv (LVar 0 (TInt I32))) (ELv (LVar 1 (TInt I32))))
                    (EBin Mul (ECst I32 1) (ECst I32 2)))
                 (ELv (LVar 0 (TInt I32))))
               (ELv (LVar 1 (TInt I32))))))].
Proof. vm_compute. reflexivity. Qed.

(** an [else] belongs to the nearest [if]; comments, macros and escapes *)
Example C104_else_ex :
  translate [("a.c", "#define N (2 /* two */ + 'a') // x
char f(int a) { if (a) if (a > N) return '\n'; else return ""%"" [0]; return 0x1FU; }")] [] "a.c"
  = Some [("f", false,
           FDef [TInt I32] (TInt IChar)
             (SSeq
               (SIf (ELv (LVar 0 (TInt I32)))
                 (SIf (EBin Gt (ELv (LVar 0 (TInt I32))) (EBin Add (ECst I32 2) (ECst I32 97)))
                   (SReturn (ECst I32 10))
                   (SReturn (ELv (LIndex (EData IChar [37; 0]) (ECst I32 0)))))
                 SSkip)
               (SReturn (ECst U32 31))))].
Proof. vm_compute. reflexivity. Qed.

(** an inner variable hides an outer one and takes a number of its own; a callee may come after
    its caller *)
Example C104_scope_ex :
  translate [("a.c", "static int f(int a) { { int a = 1; a += g(a); } return a; }
int g(int b) { return b++; }")] [] "a.c"
  = (let g := FDef [TInt I32] (TInt I32) (SReturn (EInc false 1 (LVar 0 (TInt I32)))) in
     Some [("f", true,
            FDef [TInt I32] (TInt I32)
              (SSeq
                (SBlock false
                  (SSeq (SInit (TInt I32) (ECst I32 1))
                    (SOp Add (LVar 1 (TInt I32))
                       (ECall g (ECons (ELv (LVar 1 (TInt I32))) ENil)))))
                (SReturn (ELv (LVar 0 (TInt I32))))));
           ("g", false, g)]).
Proof. vm_compute. reflexivity. Qed.

(** what it does not know it does not translate *)
Example C104_reject_ex :
  map (fun s => translate [("a.c", s)] [] "a.c")
    ["int f(int a) { return b; }"; "int f(int a) { return a + ; }"; "int f(double a) { return 1; }";
     "#define M(x) x
int f(int a) { return M(a); }"; "int f(int a) { return 017; }"; "int f(int a) { return h(a); }";
     "int f(int a) { return f(a); }"; "int f(int a) { goto x; }"; "int f(int a) { return a; ";
     "#if 1
int f(int a) { return a; }
#endif"]
  = replicate 10 None.
Proof. vm_compute. reflexivity. Qed.

(** lines joined by a backslash; constants that fit their type and ones that do not *)
Example C104_lexical_ex :
  map (fun s => translate [("a.c", s)] [] "a.c")
    ["#define N 1 + \
2
int f(int a) { return N; }"; "int f(int a) { return 2147483647; }";
     "int f(int a) { return 4294967295U; }"; "int f(int a) { return 2147483648; }";
     "int f(int a) { return 4294967296U; }"]
  = let f e := Some [("f", false, FDef [TInt I32] (TInt I32) (SReturn e))] in
    [f (EBin Add (ECst I32 1) (ECst I32 2)); f (ECst I32 2147483647);
     f (ECst U32 4294967295); None; None].
Proof. vm_compute. reflexivity. Qed.

(** conditionals inside each other; the last definition of a macro counts *)
Example C104_directives_ex :
  translate [("a.c", "#define A
#define N 1
#define N 2
#ifdef A
#ifdef B
int f(int a) { return 1; }
#ifndef C
int g(int a) { return 2; }
#endif
#endif
int h(int a) { return N; }
#endif")] [] "a.c"
  = Some [("h", false, FDef [TInt I32] (TInt I32) (SReturn (ECst I32 2)))].
Proof. vm_compute. reflexivity. Qed.

(** missing elements are 0; a static array that is written is a parameter; a variable whose
    address is taken is an object in memory *)
Example C104_objects_ex :
  translate [("a.c", "int g(int *p) { return *p; }
int f(int a) { const int t[3] = {1, 2}; static int s[2] = {7}; int x = 1; s[0] = a;
  return t[a] + g(&x); }")] [] "a.c"
  = (let g := FDef [TPtr (TInt I32)] (TInt I32)
                (SReturn (ELv (LDeref (ELv (LVar 0 (TPtr (TInt I32))))))) in
     Some [("g", false, g);
           ("f", false,
            FDef [TPtr (TInt I32); TInt I32] (TInt I32)
              (SBlock true
                (SSeq (SMem I32 (ECst I32 1))
                  (SSeq
                    (SSet (LIndex (ELv (LVar 0 (TPtr (TInt I32)))) (ECst I32 0))
                       (ELv (LVar 1 (TInt I32))))
                    (SReturn
                      (EBin Add
                        (ELv (LIndex (EData I32 [1; 2; 0]) (ELv (LVar 1 (TInt I32)))))
                        (ECall g (ECons (ELv (LVar 2 (TPtr (TInt I32)))) ENil))))))))]).
Proof. vm_compute. reflexivity. Qed.

(** more that it does not translate: a macro with parameters, conditionals that do not match, a
    declaration that is not in a block, too many elements, assignment to a value, [++] of a cast,
    a keyword as a name, a static array in a block inside the function *)
Example C104_refuse_ex :
  map (fun s => translate [("a.c", s)] [] "a.c")
    ["#define M(x) x
int f(int a) { return a; }"; "#ifndef A
int f(int a) { return a; }"; "#endif
int f(int a) { return a; }"; "int f(int a) { if (a) int b = 1; return a; }";
     "int f(int a) { const int t[1] = {1, 2}; return t[a]; }"; "int f(int a) { a + 1 = 2; return a; }";
     "int f(int a) { ++(int) a; return a; }"; "int f(int if) { return 1; }";
     "int f(int a) { if (a) { static int t[1] = {0}; t[0] = 1; return t[0]; } return a; }"]
  = replicate 9 None.
Proof. vm_compute. reflexivity. Qed.
