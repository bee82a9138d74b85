(** * CLangOrder: the C fragment with operands evaluated in any order

    C99 leaves open in which order the operands of an operator, the array and the index, the
    function designator and the arguments of a call, and the two sides of an assignment are
    evaluated (6.5p3, 6.5.2.2p10, 6.5.16p4); [CLang] goes from left to right.  This is the
    interpreter of [CLang] with the order left to a parameter: [ord es s] says for the operands
    [es], met in the state [s], whether the first is evaluated before the others or after.  (An
    assignment is asked about its left side written as [EAddr l].)  Nothing else differs.
    [&&], [||] and [?:] have a fixed order (6.5.13p4, 6.5.14p4, 6.5.15p4). *)
From Verif Require Import CSem CLang.

Section sem.
  Context {W : Type} (sc : bool)
          (ext : Z -> list val -> mem -> W -> outcome (val * mem * W)) (fuel : nat).
  Context (ord : exprs -> list val * mem * W -> bool).

  (** the results of [a] and [b], [a] before [b] if [first] *)
  Definition in_order {S A B} (first : bool) (a : S -> outcome (A * S))
      (b : S -> outcome (B * S)) (s : S) : outcome (A * B * S) :=
    if first then
      let! '(x, s) := a s in let! '(y, s) := b s in Ok (x, y, s)
    else
      let! '(y, s) := b s in let! '(x, s) := a s in Ok (x, y, s).

  Fixpoint eval_any (e : expr) (s : list val * mem * W) {struct e}
    : outcome (val * (list val * mem * W)) :=
    match e with
    | ECst t z => Ok (VInt t z, s)
    | EData t l => Ok (VPtr (TInt t) (BData (width t) l) 0, s)
    | ELv l =>
        let! '(lc, s) := lvalue_any l s in
        let! v := get_loc sc lc s in Ok (v, s)
    | EAddr l =>
        let! '(lc, s) := lvalue_any l s in
        match lc with
        | LocMem t b o => let! _ := check_ptr (snd (fst s)) b o in Ok (VPtr t b o, s)
        | LocVar _ _ => UB BadType
        end
    | EUn op a => let! '(v, s) := eval_any a s in let! v := unary sc op v in Ok (v, s)
    | EBin op a b =>
        let! '(v1, v2, s) :=
          in_order (ord (ECons a (ECons b ENil)) s) (eval_any a) (eval_any b) s in
        let! v := binary sc op v1 v2 in Ok (v, s)
    | EAnd a b =>
        let! '(v, s) := eval_any a s in
        let! c := truth v in
        if c then
          let! '(v, s) := eval_any b s in let! c := truth v in Ok (VInt I32 (b2z c), s)
        else Ok (VInt I32 0, s)
    | EOr a b =>
        let! '(v, s) := eval_any a s in
        let! c := truth v in
        if c then Ok (VInt I32 1, s)
        else let! '(v, s) := eval_any b s in let! c := truth v in Ok (VInt I32 (b2z c), s)
    | ECond c a b =>
        let! '(v, s) := eval_any c s in
        let! c := truth v in
        if c then eval_any a s else eval_any b s
    | ECast t a => let! '(v, s) := eval_any a s in let! v := to_type sc t v in Ok (v, s)
    | EInc pre d l =>
        let! '(lc, s) := lvalue_any l s in
        let! v := get_loc sc lc s in
        let! v' := step_val sc d v s in
        let! s := set_loc sc lc v' s in
        if pre then let! v' := get_loc sc lc s in Ok (v', s) else Ok (v, s)
    | ECall f args =>
        let! '(vs, s) := evals_any args s in
        let '(E, m, w) := s in
        let! '(v, m, w) := call_any f vs m w in Ok (v, (E, m, w))
    | ECallPtr f args =>
        let! '(v, vs, s) := in_order (ord (ECons f args) s) (eval_any f) (evals_any args) s in
        let '(E, m, w) := s in
        match v with
        | VFun id => let! '(v, m, w) := ext id vs m w in Ok (v, (E, m, w))
        | VNull => UB NullDeref
        | _ => UB BadType
        end
    | ELib f args =>
        let! '(vs, s) := evals_any args s in
        let '(E, m, w) := s in
        let! '(v, m) := lib f vs m in Ok (v, (E, m, w))
    end
  with lvalue_any (l : lval) (s : list val * mem * W) {struct l}
    : outcome (loc * (list val * mem * W)) :=
    match l with
    | LVar n t => Ok (LocVar n t, s)
    | LDeref e => let! '(v, s) := eval_any e s in let! lc := deref_at v 0 in Ok (lc, s)
    | LIndex a i =>
        let! '(v, n, s) :=
          in_order (ord (ECons a (ECons i ENil)) s) (eval_any a) (eval_any i) s in
        match n with
        | VInt _ z => let! lc := deref_at v z in Ok (lc, s)
        | VUndef => UB Uninit
        | _ => UB BadType
        end
    | LField l k t =>
        let! '(lc, s) := lvalue_any l s in
        match lc with LocMem _ b o => Ok (LocMem t b (o + k), s) | _ => UB BadType end
    end
  with evals_any (es : exprs) (s : list val * mem * W) {struct es}
    : outcome (list val * (list val * mem * W)) :=
    match es with
    | ENil => Ok ([], s)
    | ECons e es =>
        let! '(v, vs, s) := in_order (ord (ECons e es) s) (eval_any e) (evals_any es) s in
        Ok (v :: vs, s)
    end
  with exec_any (c : stmt) (s : list val * mem * W) {struct c}
    : outcome (res * (list val * mem * W)) :=
    let '(E, m, w) := s in
    match c with
    | SSkip => Ok (RNormal, s)
    | SSeq a b =>
        let! '(r, s) := exec_any a s in
        match r with RNormal => exec_any b s | _ => Ok (r, s) end
    | SExpr e => let! '(_, s) := eval_any e s in Ok (RNormal, s)
    | SSet l e =>
        let! '(lc, v, s) :=
          in_order (ord (ECons (EAddr l) (ECons e ENil)) s) (lvalue_any l) (eval_any e) s in
        let! s := set_loc sc lc v s in Ok (RNormal, s)
    | SOp op l e =>
        let! '((lc, v1), v2, s) :=
          in_order (ord (ECons (EAddr l) (ECons e ENil)) s)
            (fun s => let! '(lc, s) := lvalue_any l s in
                      let! v := get_loc sc lc s in Ok ((lc, v), s))
            (eval_any e) s in
        let! v := binary sc op v1 v2 in
        let! s := set_loc sc lc v s in Ok (RNormal, s)
    | SVar t => Ok (RNormal, (E ++ [VUndef], m, w))
    | SInit t e =>
        let! '(v, s) := eval_any e s in
        let! v := to_type sc t v in
        let '(E, m, w) := s in Ok (RNormal, (E ++ [v], m, w))
    | SMem t e =>
        let! '(v, s) := eval_any e s in
        let! v := to_type sc (TInt t) v in
        let '(E, m, w) := s in
        match v with
        | VInt _ z =>
            Ok (RNormal, (E ++ [VPtr (TInt t) (BObj (length m)) 0],
                          m ++ [[CI (width t) (raw t z)]], w))
        | _ => UB BadType
        end
    | SArr t l =>
        Ok (RNormal, (E ++ [VPtr (TInt t) (BObj (length m)) 0], m ++ [CI (width t) <$> l], w))
    | SIf c a b =>
        let! '(v, s) := eval_any c s in
        let! c := truth v in
        if c then exec_any a s else exec_any b s
    | SLoop c step body =>
        loop fuel
          (fun s =>
             let! '(v, s) := eval_any c s in
             let! c := truth v in
             if c then
               let! '(r, s) := exec_any body s in
               match r with
               | RNormal => let! '(_, s) := exec_any step s in Ok (Again s)
               | RBreak => Ok (Done RNormal s)
               | RReturn v => Ok (Done (RReturn v) s)
               end
             else Ok (Done RNormal s)) s
    | SBlock objs b => let! '(r, s') := exec_any b s in Ok (r, leave objs s s')
    | SBreak => Ok (RBreak, s)
    | SReturn e => let! '(v, s) := eval_any e s in Ok (RReturn v, s)
    end
  with call_any (f : fundef) (args : list val) (m : mem) (w : W) {struct f}
    : outcome (val * mem * W) :=
    match f with
    | FDef params ret body =>
        let! E := to_types sc params args in
        let! '(r, (_, m, w)) := exec_any body (E, m, w) in
        match r, ret with
        | RReturn v, _ => let! v := to_type sc ret v in Ok (v, m, w)
        | RNormal, TVoid => Ok (VUndef, m, w)
        | _, _ => UB BadType
        end
    end.
End sem.
