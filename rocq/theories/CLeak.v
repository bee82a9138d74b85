(** * What a call gives away besides its result

    The interpreter of [CLang] with a list of what an observer may see of a run, as it is usual for
    code that handles secrets: which way every branch goes (so also how often a loop runs), the
    address of every access to memory, the operands of multiplications, divisions and remainders
    and the amounts of shifts (their time depends on the numbers on some machines), and what is
    passed to functions that are not in the text.  Library functions are taken to give away all
    of the memory.  The results are those of [CLang] (C115_same). *)
From Verif Require Import CSem CLang.

Inductive event :=
  | EvBranch (b : bool)
  | EvAddr (b : blk) (o : Z)
  | EvOperands (op : binop) (a b : val)
  | EvShift (n : val)
  | EvLib (f : libfun) (args : list val) (m : mem)
  | EvCall (f : Z) (args : list val) (m : mem).
(** newest first *)
Notation trace := (list event).

Section sem.
  Context {W : Type} (sc : bool)
          (ext : Z -> list val -> mem -> W -> outcome (val * mem * W)) (fuel : nat).
  Notation lst := (@st (W * trace)).

  Definition note (e : event) (s : lst) : lst :=
    let '(E, m, (w, t)) := s in (E, m, (w, e :: t)).
  Definition note_loc (l : loc) (s : lst) : lst :=
    match l with LocVar _ _ => s | LocMem _ b o => note (EvAddr b o) s end.
  Definition note_op (op : binop) (v1 v2 : val) (s : lst) : lst :=
    match op with
    | Mul | Div | Mod => note (EvOperands op v1 v2) s
    | Shl | Shr => note (EvShift v2) s
    | _ => s
    end.
  Definition lbranch (v : val) (s : lst) : outcome (bool * lst) :=
    let! c := truth v in Ok (c, note (EvBranch c) s).
  Definition lget (l : loc) (s : lst) : outcome (val * lst) :=
    let! v := get_loc sc l s in Ok (v, note_loc l s).
  Definition lset (l : loc) (v : val) (s : lst) : outcome lst :=
    let! s := set_loc sc l v s in Ok (note_loc l s).

  Fixpoint leval (e : expr) (s : lst) {struct e} : outcome (val * lst) :=
    match e with
    | ECst t z => Ok (VInt t z, s)
    | EData t l => Ok (VPtr (TInt t) (BData (width t) l) 0, s)
    | ELv l => let! '(lc, s) := llvalue l s in lget lc s
    | EAddr l =>
        let! '(lc, s) := llvalue l s in
        match lc with
        | LocMem t b o => let! _ := check_ptr (snd (fst s)) b o in Ok (VPtr t b o, s)
        | LocVar _ _ => UB BadType
        end
    | EUn op a => let! '(v, s) := leval a s in let! v := unary sc op v in Ok (v, s)
    | EBin op a b =>
        let! '(v1, s) := leval a s in
        let! '(v2, s) := leval b s in
        let! v := binary sc op v1 v2 in Ok (v, note_op op v1 v2 s)
    | EAnd a b =>
        let! '(v, s) := leval a s in
        let! '(c, s) := lbranch v s in
        if c then
          let! '(v, s) := leval b s in let! c := truth v in Ok (VInt I32 (b2z c), s)
        else Ok (VInt I32 0, s)
    | EOr a b =>
        let! '(v, s) := leval a s in
        let! '(c, s) := lbranch v s in
        if c then Ok (VInt I32 1, s)
        else let! '(v, s) := leval b s in let! c := truth v in Ok (VInt I32 (b2z c), s)
    | ECond c a b =>
        let! '(v, s) := leval c s in
        let! '(c, s) := lbranch v s in
        if c then leval a s else leval b s
    | ECast t a => let! '(v, s) := leval a s in let! v := to_type sc t v in Ok (v, s)
    | EInc pre d l =>
        let! '(lc, s) := llvalue l s in
        let! '(v, s) := lget lc s in
        let! v' := step_val sc d v s in
        let! s := lset lc v' s in
        if pre then let! v' := get_loc sc lc s in Ok (v', s) else Ok (v, s)
    | ECall f args =>
        let! '(vs, s) := levals args s in
        let '(E, m, w) := s in
        let! '(v, m, w) := lcall f vs m w in Ok (v, (E, m, w))
    | ECallPtr f args =>
        let! '(v, s) := leval f s in
        let! '(vs, s) := levals args s in
        let '(E, m, (w, t)) := s in
        match v with
        | VFun id =>
            let! '(v, m', w) := ext id vs m w in Ok (v, (E, m', (w, EvCall id vs m :: t)))
        | VNull => UB NullDeref
        | _ => UB BadType
        end
    | ELib f args =>
        let! '(vs, s) := levals args s in
        let '(E, m, (w, t)) := s in
        let! '(v, m') := lib f vs m in Ok (v, (E, m', (w, EvLib f vs m :: t)))
    end
  with llvalue (l : lval) (s : lst) {struct l} : outcome (loc * lst) :=
    match l with
    | LVar n t => Ok (LocVar n t, s)
    | LDeref e => let! '(v, s) := leval e s in let! lc := deref_at v 0 in Ok (lc, s)
    | LIndex a i =>
        let! '(v, s) := leval a s in
        let! '(n, s) := leval i s in
        match n with
        | VInt _ z => let! lc := deref_at v z in Ok (lc, s)
        | VUndef => UB Uninit
        | _ => UB BadType
        end
    | LField l k t =>
        let! '(lc, s) := llvalue l s in
        match lc with LocMem _ b o => Ok (LocMem t b (o + k), s) | _ => UB BadType end
    end
  with levals (es : exprs) (s : lst) {struct es} : outcome (list val * lst) :=
    match es with
    | ENil => Ok ([], s)
    | ECons e es =>
        let! '(v, s) := leval e s in
        let! '(vs, s) := levals es s in Ok (v :: vs, s)
    end
  with lexec (c : stmt) (s : lst) {struct c} : outcome (res * lst) :=
    match c with
    | SSkip => Ok (RNormal, s)
    | SSeq a b =>
        let! '(r, s) := lexec a s in
        match r with RNormal => lexec b s | _ => Ok (r, s) end
    | SExpr e => let! '(_, s) := leval e s in Ok (RNormal, s)
    | SSet l e =>
        let! '(lc, s) := llvalue l s in
        let! '(v, s) := leval e s in
        let! s := lset lc v s in Ok (RNormal, s)
    | SOp op l e =>
        let! '(lc, s) := llvalue l s in
        let! '(v1, s) := lget lc s in
        let! '(v2, s) := leval e s in
        let! v := binary sc op v1 v2 in
        let! s := lset lc v (note_op op v1 v2 s) in Ok (RNormal, s)
    | SVar t => let '(E, m, w) := s in Ok (RNormal, (E ++ [VUndef], m, w))
    | SInit t e =>
        let! '(v, s) := leval e s in
        let! v := to_type sc t v in
        let '(E, m, w) := s in Ok (RNormal, (E ++ [v], m, w))
    | SMem t e =>
        let! '(v, s) := leval e s in
        let! v := to_type sc (TInt t) v in
        let '(E, m, w) := s in
        match v with
        | VInt _ z =>
            Ok (RNormal, (E ++ [VPtr (TInt t) (BObj (length m)) 0],
                          m ++ [[CI (width t) (raw t z)]], w))
        | _ => UB BadType
        end
    | SArr t l =>
        let '(E, m, w) := s in
        Ok (RNormal, (E ++ [VPtr (TInt t) (BObj (length m)) 0], m ++ [CI (width t) <$> l], w))
    | SIf c a b =>
        let! '(v, s) := leval c s in
        let! '(c, s) := lbranch v s in
        if c then lexec a s else lexec b s
    | SLoop c step body =>
        loop fuel
          (fun s =>
             let! '(v, s) := leval c s in
             let! '(c, s) := lbranch v s in
             if c then
               let! '(r, s) := lexec body s in
               match r with
               | RNormal => let! '(_, s) := lexec step s in Ok (Again s)
               | RBreak => Ok (Done RNormal s)
               | RReturn v => Ok (Done (RReturn v) s)
               end
             else Ok (Done RNormal s)) s
    | SBlock objs b => let! '(r, s') := lexec b s in Ok (r, leave objs s s')
    | SBreak => Ok (RBreak, s)
    | SReturn e => let! '(v, s) := leval e s in Ok (RReturn v, s)
    end
  with lcall (f : fundef) (args : list val) (m : mem) (w : W * trace) {struct f}
    : outcome (val * mem * (W * trace)) :=
    match f with
    | FDef params ret body =>
        let! E := to_types sc params args in
        let! '(r, (_, m, w)) := lexec body (E, m, w) in
        match r, ret with
        | RReturn v, _ => let! v := to_type sc ret v in Ok (v, m, w)
        | RNormal, TVoid => Ok (VUndef, m, w)
        | _, _ => UB BadType
        end
    end.
End sem.

(** two memories that differ at most in the numbers they hold: the same objects, of the same
    sizes, with the same pointers *)
Definition same_kind (c d : cell) : Prop :=
  match c, d with CI w _, CI w' _ => w = w' | _, _ => c = d end.
Definition same_shape (m m' : mem) : Prop := Forall2 (Forall2 same_kind) m m'.
