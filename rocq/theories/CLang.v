(** * CLang: the syntax of a C fragment and its meaning

    The other model files transcribe the functions of [/repo/Src] by hand.  Here the fragment
    of C that [/repo/Src] is written in is a data type, and its meaning is an interpreter.
    The terms themselves (files [C_*.v]) are produced from the text of [/repo/Src] by
    [/verif/tools/c2coq.py]; nothing in them is written by hand.  The files [Refine_*.v] prove
    that the hand-written model computes what the interpreter computes on these terms.

    What the interpreter says about C:

    - an integer value carries its C type; operands are promoted and brought to a common type
      by the usual arithmetic conversions (C99 6.3.1.1, 6.3.1.8) at run time; unsigned
      arithmetic wraps, signed overflow is [UB SignedOverflow] (6.5p5);
    - memory is a list of objects, an object is a list of cells.  A cell is one scalar: a byte,
      a wider integer, or a pointer; a structure has one cell for each member.  A pointer is an
      object and a cell offset.  Accesses are at the type of the pointer, and a byte may be
      read as [char], [uint8_t] or [bool] alike;
    - reading or writing outside an object, or forming a pointer that is not into or one past
      an object, is [UB OutOfBounds] (6.5.6p8); reading an indeterminate value is [UB Uninit];
    - a local variable lives in an environment of its own unless its address is taken or it is
      an array; then it is an object in memory that disappears at the end of its block;
    - operands and arguments are evaluated from left to right (C leaves the order open; no
      expression of [/repo/Src] has two side effects that interfere);
    - a call through a function pointer is given by the parameter [ext]; it may change memory
      and the rest of the world [W];
    - what the fragment leaves out or a C compiler would reject is [UB BadType]. *)
From Verif Require Import CSem.

(** ** Types *)

(** [IChar] is plain [char], [IBool] is [_Bool]; [size_t] is [U64], [int] is [I32] *)
Inductive ity := I8 | U8 | U16 | I32 | U32 | I64 | U64 | IBool | IChar.
(** [TStruct n] is a structure with [n] scalar members; [TFun] is any function type *)
Inductive cty := TInt (t : ity) | TPtr (t : cty) | TVoid | TStruct (n : Z) | TFun.

(** number of cells an object of the type occupies *)
Definition csize (t : cty) : Z := match t with TStruct n => n | _ => 1 end.

Definition width (t : ity) : Z :=
  match t with
  | I8 | U8 | IBool | IChar => 8 | U16 => 16 | I32 | U32 => 32 | I64 | U64 => 64
  end.

Definition b2z (b : bool) : Z := if b then 1 else 0.

(** conversion of the value [z] to type [t] (6.3.1.2, 6.3.1.3); [sc] says whether plain
    [char] is signed *)
Definition wrap (sc : bool) (t : ity) (z : Z) : Z :=
  match t with
  | I8 => s8 z | U8 => u8 z | U16 => u16 z | I32 => s32 z | U32 => u32 z
  | I64 => (z + 2 ^ 63) mod 2 ^ 64 - 2 ^ 63 | U64 => u64 z
  | IBool => b2z (negb (z =? 0))
  | IChar => if sc then s8 z else u8 z
  end.

(** every value of type [a] is a value of type [b], so converting changes nothing *)
Definition fits (a b : ity) : bool :=
  match a, b with
  | I8, (I8 | I32 | I64) | U8, (U8 | U16 | I32 | U32 | I64 | U64)
  | U16, (U16 | I32 | U32 | I64 | U64) | I32, (I32 | I64) | U32, (U32 | I64 | U64)
  | I64, I64 | U64, U64 | IBool, _ | IChar, (IChar | I32 | I64) => true
  | _, _ => false
  end.
Definition cast (sc : bool) (a b : ity) (z : Z) : Z :=
  if fits a b then z else wrap sc b z.

(** integer promotions and the usual arithmetic conversions *)
Definition promote (t : ity) : ity :=
  match t with I8 | U8 | U16 | IBool | IChar => I32 | _ => t end.
Definition common (a b : ity) : ity :=
  match promote a, promote b with
  | U64, _ | _, U64 => U64
  | I64, _ | _, I64 => I64
  | U32, _ | _, U32 => U32
  | _, _ => I32
  end.
Definition is_signed (t : ity) : bool :=
  match t with I8 | I32 | I64 => true | _ => false end.

(** ** Values and memory *)

(** [BObj n] is the [n]-th object in memory; [BData w l] is constant data (a string literal, a
    constant table) whose [w]-bit elements are [l]: it is never written, so it need not be in
    the memory *)
Inductive blk := BObj (n : nat) | BData (w : Z) (l : list Z).

(** [VPtr t b o]: a pointer of type [t*] to cell [o] of [b]; [VFun f]: a pointer to the
    function with identifier [f]; [VUndef]: an indeterminate value *)
Inductive val :=
  | VInt (t : ity) (z : Z)
  | VPtr (t : cty) (b : blk) (o : Z)
  | VNull
  | VFun (f : Z)
  | VUndef.

(** [CI w z]: a [w]-bit integer, kept as the number its bits stand for when read unsigned *)
Inductive cell := CI (w z : Z) | CV (v : val).
Notation mem := (list (list cell)).

Definition block (m : mem) (b : blk) : outcome (list cell) :=
  match b with
  | BObj n => match m !! n with Some cs => Ok cs | None => UB BadType end
  | BData w l => Ok (CI w <$> l)
  end.

Definition dec (sc : bool) (t : ity) (z : Z) : Z :=
  match t with I8 | I32 | I64 => wrap sc t z | IChar => char_val sc z | _ => z end.
Definition raw (t : ity) (z : Z) : Z :=
  match t with I8 | IChar => u8 z | I32 => u32 z | I64 => u64 z | _ => z end.

Definition of_cell (sc : bool) (t : cty) (c : cell) : outcome val :=
  match c, t with
  | CI w z, TInt t => if w =? width t then Ok (VInt t (dec sc t z)) else UB BadType
  | CV VUndef, _ => UB Uninit
  | CV v, TPtr _ => Ok v
  | _, _ => UB BadType
  end.
(** the cell that replaces [c] when [v] (already of type [t]) is stored *)
Definition to_cell (t : cty) (c : cell) (v : val) : outcome cell :=
  match t, v with
  | TInt t, VInt _ z =>
      match c with
      | CI w _ => if w =? width t then Ok (CI w (raw t z)) else UB BadType
      | CV VUndef => Ok (CI (width t) (raw t z))
      | _ => UB BadType
      end
  | TPtr _, (VPtr _ _ _ | VNull | VFun _) =>
      match c with CV _ => Ok (CV v) | _ => UB BadType end
  | _, _ => UB BadType
  end.

Definition mload (sc : bool) (m : mem) (t : cty) (b : blk) (o : Z) : outcome val :=
  let! cs := block m b in let! c := load cs o in of_cell sc t c.
Definition mstore (m : mem) (t : cty) (b : blk) (o : Z) (v : val) : outcome mem :=
  match b with
  | BObj n =>
      let! cs := block m b in
      let! c := load cs o in
      let! c := to_cell t c v in
      let! cs := store cs o c in
      Ok (<[n := cs]> m)
  | BData _ _ => UB BadType
  end.

(** ** Operators *)

Inductive unop := Neg | BNot | LNot.
Inductive binop :=
  | Add | Sub | Mul | Div | Mod | And | Or | Xor | Shl | Shr
  | Lt | Le | Gt | Ge | Eq | Ne.

(** the result of an arithmetic operation at type [t] (one of [I32 U32 I64 U64]) *)
Definition result (t : ity) (z : Z) : outcome val :=
  match t with
  | I32 => let! z := ck32 z in Ok (VInt I32 z)
  | I64 => if (- 2 ^ 63 <=? z) && (z <? 2 ^ 63) then Ok (VInt I64 z) else UB SignedOverflow
  | U32 => Ok (VInt U32 (u32 z))
  | U64 => Ok (VInt U64 (u64 z))
  | _ => UB BadType
  end.

Definition arith (op : binop) (t : ity) (a b : Z) : outcome val :=
  match op with
  | Add => result t (a + b)
  | Sub => result t (a - b)
  | Mul => result t (a * b)
  | Div => if b =? 0 then UB DivByZero
           else result t (if is_signed t then Z.quot a b else a / b)
  | Mod => if b =? 0 then UB DivByZero
           else if is_signed t
                then let! _ := result t (Z.quot a b) in Ok (VInt t (Z.rem a b))
                else Ok (VInt t (a mod b))
  | And => Ok (VInt t (Z.land a b))
  | Or => Ok (VInt t (Z.lor a b))
  | Xor => Ok (VInt t (Z.lxor a b))
  | Lt => Ok (VInt I32 (b2z (a <? b)))
  | Le => Ok (VInt I32 (b2z (a <=? b)))
  | Gt => Ok (VInt I32 (b2z (b <? a)))
  | Ge => Ok (VInt I32 (b2z (b <=? a)))
  | Eq => Ok (VInt I32 (b2z (a =? b)))
  | Ne => Ok (VInt I32 (b2z (negb (a =? b))))
  | Shl | Shr => UB BadType
  end.

(** shifts: the operands are promoted separately and the result has the type of the left one
    (6.5.7); a negative left operand of [<<] is undefined *)
Definition shift (left : bool) (t : ity) (a n : Z) : outcome val :=
  if (0 <=? n) && (n <? width t) then
    if left then
      if is_signed t then if a <? 0 then UB SignedOverflow else result t (Z.shiftl a n)
      else result t (Z.shiftl a n)
    else Ok (VInt t (Z.shiftr a n))
  else UB BadShift.

(** [==] on pointers; a pointer to an object is not [NULL].  Pointers into different objects are
    not compared: the answer would depend on where the objects lie (6.5.9: a pointer one past the
    end of an array may equal the pointer to what comes next), and no function of [/repo/Src]
    does it. *)
Definition ptr_eq (a b : val) : outcome bool :=
  match a, b with
  | VNull, VNull => Ok true
  | (VPtr _ _ _ | VFun _), VNull | VNull, (VPtr _ _ _ | VFun _) => Ok false
  | VPtr _ (BObj n) o, VPtr _ (BObj k) p => if Nat.eqb n k then Ok (o =? p) else UB BadType
  | VFun f, VFun g => Ok (f =? g)
  | _, _ => UB BadType
  end.

Definition binary (sc : bool) (op : binop) (v1 v2 : val) : outcome val :=
  match v1, v2 with
  | VInt t1 a, VInt t2 b =>
      match op with
      | Shl => shift true (promote t1) a b
      | Shr => shift false (promote t1) a b
      | _ => let t := common t1 t2 in arith op t (cast sc t1 t a) (cast sc t2 t b)
      end
  | VUndef, _ | _, VUndef => UB Uninit
  | _, _ =>
      match op with
      | Eq => let! b := ptr_eq v1 v2 in Ok (VInt I32 (b2z b))
      | Ne => let! b := ptr_eq v1 v2 in Ok (VInt I32 (b2z (negb b)))
      | _ => UB BadType
      end
  end.

(** the truth value of a scalar *)
Definition truth (v : val) : outcome bool :=
  match v with
  | VInt _ z => Ok (negb (z =? 0))
  | VPtr _ _ _ | VFun _ => Ok true
  | VNull => Ok false
  | VUndef => UB Uninit
  end.

Definition unary (sc : bool) (op : unop) (v : val) : outcome val :=
  match op, v with
  | LNot, _ => let! b := truth v in Ok (VInt I32 (b2z (negb b)))
  | Neg, VInt t z => result (promote t) (- z)
  | BNot, VInt t z =>
      let t' := promote t in
      if is_signed t' then Ok (VInt t' (Z.lnot z)) else result t' (Z.lnot z)
  | _, _ => UB BadType
  end.

(** conversion of a value to a scalar type, explicit or by assignment *)
Definition to_type (sc : bool) (t : cty) (v : val) : outcome val :=
  match t, v with
  | _, VUndef => UB Uninit
  | TInt t, VInt t' z => Ok (VInt t (cast sc t' t z))
  | TPtr t, VPtr _ b o => Ok (VPtr t b o)
  | TPtr _, VNull => Ok VNull
  | TPtr _, VFun f => Ok (VFun f)
  | TPtr _, VInt _ z => if z =? 0 then Ok VNull else UB BadType
  | TVoid, _ => Ok v
  | _, _ => UB BadType
  end.

(** [p + i]: must point into the object or one past its end *)
Definition check_ptr (m : mem) (b : blk) (o : Z) : outcome unit :=
  let! cs := block m b in
  if (0 <=? o) && (o <=? len cs) then Ok tt else UB OutOfBounds.

(** ** The library functions used, C99 7.21, on cells *)

Inductive libfun := LMemcpy | LMemcmp | LStrlen | LStrcpy | LStrcmp | LStrncmp.

Definition is_byte_cell (c : cell) : bool :=
  match c with CI w _ => w =? 8 | CV VUndef => true | _ => false end.
Definition cell_byte (c : cell) : outcome Z :=
  match c with CI w z => if w =? 8 then Ok z else UB BadType | CV VUndef => UB Uninit | _ => UB BadType end.

(** the cells from offset [o] on *)
Definition cells_from (m : mem) (b : blk) (o : Z) : outcome (list cell) :=
  let! cs := block m b in
  if (0 <=? o) && (o <=? len cs) then Ok (drop (Z.to_nat o) cs) else UB OutOfBounds.

Definition same_blk (a b : blk) : bool :=
  match a, b with BObj n, BObj k => Nat.eqb n k | _, _ => false end.

Definition copy (m : mem) (db : blk) (d : Z) (sb : blk) (s n : Z) : outcome mem :=
  let! dc := block m db in
  let! scs := block m sb in
  if in_range dc d n && in_range scs s n then
    if same_blk db sb && negb ((d + n <=? s) || (s + n <=? d)) then UB Overlap
    else if forallb is_byte_cell (slice dc d n) && forallb is_byte_cell (slice scs s n) then
      match db with
      | BObj k => Ok (<[k := write dc d (slice scs s n)]> m)
      | BData _ _ => UB BadType
      end
    else UB BadType
  else UB OutOfBounds.

(** length of the string that the cells start with *)
Fixpoint cstrlen (cs : list cell) : outcome Z :=
  match cs with
  | [] => UB OutOfBounds
  | c :: cs =>
      let! z := cell_byte c in
      if z =? 0 then Ok 0 else let! n := cstrlen cs in Ok (n + 1)
  end.

(** sign of the difference of the first [n] bytes; with [stop], a NUL ends the comparison *)
Fixpoint ccompare (stop : bool) (n : nat) (a b : list cell) : outcome Z :=
  match n with
  | O => Ok 0
  | S n =>
      match a, b with
      | c :: a, d :: b =>
          let! x := cell_byte c in
          let! y := cell_byte d in
          if x =? y then (if stop && (x =? 0) then Ok 0 else ccompare stop n a b)
          else Ok (if x <? y then -1 else 1)
      | _, _ => UB OutOfBounds
      end
  end.

Definition lib (f : libfun) (args : list val) (m : mem) : outcome (val * mem) :=
  match f, args with
  | LMemcpy, [VPtr _ db d; VPtr _ sb s; VInt t n] =>
      let! m := copy m db d sb s (cast true t U64 n) in Ok (VPtr TVoid db d, m)
  | LMemcmp, [VPtr _ ab a; VPtr _ bb b; VInt t n] =>
      let n := cast true t U64 n in
      let! ac := block m ab in
      let! bc := block m bb in
      if in_range ac a n && in_range bc b n then
        let! r := ccompare false (Z.to_nat n) (slice ac a n) (slice bc b n) in
        Ok (VInt I32 r, m)
      else UB OutOfBounds
  | LStrlen, [VPtr _ ab a] =>
      let! cs := cells_from m ab a in
      let! n := cstrlen cs in
      Ok (VInt U64 n, m)
  | LStrcpy, [VPtr _ db d; VPtr _ sb s] =>
      let! cs := cells_from m sb s in
      let! n := cstrlen cs in
      let! m := copy m db d sb s (n + 1) in
      Ok (VPtr (TInt IChar) db d, m)
  | LStrcmp, [VPtr _ ab a; VPtr _ bb b] =>
      let! ac := cells_from m ab a in
      let! bc := cells_from m bb b in
      let! r := ccompare true (S (length ac)) ac bc in
      Ok (VInt I32 r, m)
  | LStrncmp, [VPtr _ ab a; VPtr _ bb b; VInt t n] =>
      let! ac := cells_from m ab a in
      let! bc := cells_from m bb b in
      let! r := ccompare true (Z.to_nat (cast true t U64 n)) ac bc in
      Ok (VInt I32 r, m)
  | _, _ => UB (if existsb (fun v => match v with VNull => true | _ => false end) args
                then NullDeref else BadType)
  end.

(** ** Syntax *)

(** Local variables are numbered: the [n]-th variable of the environment.  A variable in memory
    (an array, or one whose address is taken) is a variable that holds the pointer to its object.
    A call names the called function's definition, so a program is its functions (no function of
    [/repo/Src] is recursive). *)
Inductive expr :=
  | ECst (t : ity) (z : Z)
  | EData (t : ity) (l : list Z)          (* constant array, string literal *)
  | ELv (l : lval)
  | EAddr (l : lval)
  | EUn (op : unop) (e : expr)
  | EBin (op : binop) (a b : expr)
  | EAnd (a b : expr)
  | EOr (a b : expr)
  | ECond (c a b : expr)
  | ECast (t : cty) (e : expr)
  | EInc (pre : bool) (d : Z) (l : lval)  (* ++ and --: [d] is 1 or -1 *)
  | ECall (f : fundef) (args : exprs)
  | ECallPtr (f : expr) (args : exprs)
  | ELib (f : libfun) (args : exprs)
with lval :=
  | LVar (n : nat) (t : cty)
  | LDeref (e : expr)
  | LIndex (a i : expr)
  | LField (l : lval) (k : Z) (t : cty)   (* member in cell [k] of the structure *)
with exprs := ENil | ECons (e : expr) (es : exprs)
with stmt :=
  | SSkip
  | SSeq (a b : stmt)
  | SExpr (e : expr)
  | SSet (l : lval) (e : expr)
  | SOp (op : binop) (l : lval) (e : expr)   (* [l op= e] *)
  | SVar (t : cty)                        (* declarations: not initialised, *)
  | SInit (t : cty) (e : expr)            (* initialised, *)
  | SMem (t : ity) (e : expr)             (* initialised and in memory, *)
  | SArr (t : ity) (l : list Z)           (* an array in memory *)
  | SIf (c : expr) (a b : stmt)
  | SLoop (c : expr) (step body : stmt)   (* [for (; c; step) body] *)
  | SBlock (objs : bool) (s : stmt)       (* a scope; [objs]: it declares objects in memory *)
  | SBreak
  | SReturn (e : expr)
with fundef := FDef (params : list cty) (ret : cty) (body : stmt).

(** ** Meaning *)

Inductive loc := LocVar (n : nat) (t : cty) | LocMem (t : cty) (b : blk) (o : Z).
(** how a statement ended *)
Inductive res := RNormal | RBreak | RReturn (v : val).
Inductive looped (S : Type) := Again (s : S) | Done (r : res) (s : S).
Arguments Again {S} s.
Arguments Done {S} r s.

Fixpoint loop {S} (fuel : nat) (step : S -> outcome (looped S)) (s : S) : outcome (res * S) :=
  match fuel with
  | O => Diverge
  | Datatypes.S f =>
      let! x := step s in
      match x with Again s => loop f step s | Done r s => Ok (r, s) end
  end.

Section sem.
  Context {W : Type} (sc : bool)
          (ext : Z -> list val -> mem -> W -> outcome (val * mem * W)) (fuel : nat).

  (** local variables, memory, and what the called function pointers work on *)
  Definition st : Type := list val * mem * W.

  Definition get_loc (l : loc) (s : st) : outcome val :=
    let '(E, m, w) := s in
    match l with
    | LocVar n _ =>
        match E !! n with Some VUndef => UB Uninit | Some v => Ok v | None => UB BadType end
    | LocMem t b o => mload sc m t b o
    end.
  Definition set_loc (l : loc) (v : val) (s : st) : outcome st :=
    let '(E, m, w) := s in
    match l with
    | LocVar n t => let! v := to_type sc t v in Ok (<[n := v]> E, m, w)
    | LocMem t b o =>
        let! v := to_type sc t v in let! m := mstore m t b o v in Ok (E, m, w)
    end.

  (** [l + i] elements further *)
  Definition deref_at (v : val) (i : Z) : outcome loc :=
    match v with
    | VPtr t b o => Ok (LocMem t b (o + i * csize t))
    | VNull => UB NullDeref
    | VUndef => UB Uninit
    | _ => UB BadType
    end.

  (** the value of [v] moved by [d], for [++] and [--] *)
  Definition step_val (d : Z) (v : val) (s : st) : outcome val :=
    match v with
    | VInt t z => binary sc Add v (VInt I32 d)
    | VPtr t b o =>
        let o := o + d * csize t in
        let! _ := check_ptr (snd (fst s)) b o in Ok (VPtr t b o)
    | VNull => UB NullDeref
    | _ => UB BadType
    end.

  (** leaving a scope: its variables, and its objects, disappear *)
  Definition leave (objs : bool) (before after : st) : st :=
    let '(E0, m0, _) := before in
    let '(E, m, w) := after in
    (take (length E0) E, if objs then take (length m0) m else m, w).

  Definition to_types (ts : list cty) (vs : list val) : outcome (list val) :=
    (fix go ts vs :=
       match ts, vs with
       | [], [] => Ok []
       | t :: ts, v :: vs =>
           let! v := to_type sc t v in let! vs := go ts vs in Ok (v :: vs)
       | _, _ => UB BadType
       end) ts vs.

  Fixpoint eval (e : expr) (s : st) {struct e} : outcome (val * st) :=
    let '(E, m, w) := s in
    match e with
    | ECst t z => Ok (VInt t z, (E, m, w))
    | EData t l => Ok (VPtr (TInt t) (BData (width t) l) 0, (E, m, w))
    | ELv l =>
        let! '(lc, s) := lvalue l (E, m, w) in
        let! v := get_loc lc s in Ok (v, s)
    | EAddr l =>
        let! '(lc, s) := lvalue l (E, m, w) in
        match lc with
        | LocMem t b o => let! _ := check_ptr (snd (fst s)) b o in Ok (VPtr t b o, s)
        | LocVar _ _ => UB BadType
        end
    | EUn op a =>
        let! '(v, s) := eval a (E, m, w) in let! v := unary sc op v in Ok (v, s)
    | EBin op a b =>
        let! '(v1, s) := eval a (E, m, w) in
        let! '(v2, s) := eval b s in
        let! v := binary sc op v1 v2 in Ok (v, s)
    | EAnd a b =>
        let! '(v, s) := eval a (E, m, w) in
        let! c := truth v in
        if c then
          let! '(v, s) := eval b s in let! c := truth v in Ok (VInt I32 (b2z c), s)
        else Ok (VInt I32 0, s)
    | EOr a b =>
        let! '(v, s) := eval a (E, m, w) in
        let! c := truth v in
        if c then Ok (VInt I32 1, s)
        else let! '(v, s) := eval b s in let! c := truth v in Ok (VInt I32 (b2z c), s)
    | ECond c a b =>
        let! '(v, s) := eval c (E, m, w) in
        let! c := truth v in
        if c then eval a s else eval b s
    | ECast t a =>
        let! '(v, s) := eval a (E, m, w) in let! v := to_type sc t v in Ok (v, s)
    | EInc pre d l =>
        let! '(lc, s) := lvalue l (E, m, w) in
        let! v := get_loc lc s in
        let! v' := step_val d v s in
        let! s := set_loc lc v' s in
        if pre then let! v' := get_loc lc s in Ok (v', s) else Ok (v, s)
    | ECall f args =>
        let! '(vs, s) := evals args (E, m, w) in
        let '(E, m, w) := s in
        let! '(v, m, w) := call f vs m w in Ok (v, (E, m, w))
    | ECallPtr f args =>
        let! '(v, s) := eval f (E, m, w) in
        let! '(vs, s) := evals args s in
        let '(E, m, w) := s in
        match v with
        | VFun id => let! '(v, m, w) := ext id vs m w in Ok (v, (E, m, w))
        | VNull => UB NullDeref
        | _ => UB BadType
        end
    | ELib f args =>
        let! '(vs, s) := evals args (E, m, w) in
        let '(E, m, w) := s in
        let! '(v, m) := lib f vs m in Ok (v, (E, m, w))
    end
  with lvalue (l : lval) (s : st) {struct l} : outcome (loc * st) :=
    let '(E, m, w) := s in
    match l with
    | LVar n t => Ok (LocVar n t, (E, m, w))
    | LDeref e => let! '(v, s) := eval e (E, m, w) in let! lc := deref_at v 0 in Ok (lc, s)
    | LIndex a i =>
        let! '(v, s) := eval a (E, m, w) in
        let! '(n, s) := eval i s in
        match n with
        | VInt _ z => let! lc := deref_at v z in Ok (lc, s)
        | VUndef => UB Uninit
        | _ => UB BadType
        end
    | LField l k t =>
        let! '(lc, s) := lvalue l (E, m, w) in
        match lc with LocMem _ b o => Ok (LocMem t b (o + k), s) | _ => UB BadType end
    end
  with evals (es : exprs) (s : st) {struct es} : outcome (list val * st) :=
    let '(E, m, w) := s in
    match es with
    | ENil => Ok ([], (E, m, w))
    | ECons e es =>
        let! '(v, s) := eval e (E, m, w) in
        let! '(vs, s) := evals es s in Ok (v :: vs, s)
    end
  with exec (c : stmt) (s : st) {struct c} : outcome (res * st) :=
    let '(E, m, w) := s in
    match c with
    | SSkip => Ok (RNormal, (E, m, w))
    | SSeq a b =>
        let! '(r, s) := exec a (E, m, w) in
        match r with RNormal => exec b s | _ => Ok (r, s) end
    | SExpr e => let! '(_, s) := eval e (E, m, w) in Ok (RNormal, s)
    | SSet l e =>
        let! '(lc, s) := lvalue l (E, m, w) in
        let! '(v, s) := eval e s in
        let! s := set_loc lc v s in Ok (RNormal, s)
    | SOp op l e =>
        let! '(lc, s) := lvalue l (E, m, w) in
        let! v1 := get_loc lc s in
        let! '(v2, s) := eval e s in
        let! v := binary sc op v1 v2 in
        let! s := set_loc lc v s in Ok (RNormal, s)
    | SVar t => Ok (RNormal, (E ++ [VUndef], m, w))
    | SInit t e =>
        let! '(v, s) := eval e (E, m, w) in
        let! v := to_type sc t v in
        let '(E, m, w) := s in Ok (RNormal, (E ++ [v], m, w))
    | SMem t e =>
        let! '(v, s) := eval e (E, m, w) in
        let! v := to_type sc (TInt t) v in
        let '(E, m, w) := s in
        match v with
        | VInt _ z =>
            Ok (RNormal, (E ++ [VPtr (TInt t) (BObj (length m)) 0],
                          m ++ [[CI (width t) (raw t z)]], w))
        | _ => UB BadType
        end
    | SArr t l =>
        Ok (RNormal, (E ++ [VPtr (TInt t) (BObj (length m)) 0], m ++ [CI (width t) <$> l], w))
    | SIf c a b =>
        let! '(v, s) := eval c (E, m, w) in
        let! c := truth v in
        if c then exec a s else exec b s
    | SLoop c step body =>
        loop fuel
          (fun s =>
             let! '(v, s) := eval c s in
             let! c := truth v in
             if c then
               let! '(r, s) := exec body s in
               match r with
               | RNormal => let! '(_, s) := exec step s in Ok (Again s)
               | RBreak => Ok (Done RNormal s)
               | RReturn v => Ok (Done (RReturn v) s)
               end
             else Ok (Done RNormal s)) (E, m, w)
    | SBlock objs b =>
        let! '(r, s') := exec b (E, m, w) in Ok (r, leave objs (E, m, w) s')
    | SBreak => Ok (RBreak, (E, m, w))
    | SReturn e => let! '(v, s) := eval e (E, m, w) in Ok (RReturn v, s)
    end
  with call (f : fundef) (args : list val) (m : mem) (w : W) {struct f}
    : outcome (val * mem * W) :=
    match f with
    | FDef params ret body =>
        let! E := to_types params args in
        let! '(r, (_, m, w)) := exec body (E, m, w) in
        match r, ret with
        | RReturn v, _ => let! v := to_type sc ret v in Ok (v, m, w)
        | RNormal, TVoid => Ok (VUndef, m, w)
        | _, _ => UB BadType
        end
    end.
End sem.
