(** * Tools for relating the terms of [C_*.v] to the hand-written model *)
From Verif Require Import CSem Lib CLang.

#[local] Arguments eval {W} sc ext fuel !e !s /.
#[local] Arguments lvalue {W} sc ext fuel !l !s /.
#[local] Arguments evals {W} sc ext fuel !es !s /.
#[local] Arguments exec {W} sc ext fuel !c !s /.
#[local] Arguments call {W} sc ext fuel !f args m w /.

(** no function pointers *)
Definition no_ext {W} : Z -> list val -> mem -> W -> outcome (val * mem * W) :=
  fun _ _ _ _ => UB BadType.

(** ** The interpreter, one construct at a time *)

Section steps.
  Context {W : Type} (sc : bool)
          (ext : Z -> list val -> mem -> W -> outcome (val * mem * W)) (fuel : nat).
  Context {B : Type}.
  Implicit Types (E : list val) (m : mem) (w : W).
  Local Notation ev := (eval sc ext fuel).
  Local Notation lvl := (lvalue sc ext fuel).
  Local Notation evs := (evals sc ext fuel).
  Local Notation ex := (exec sc ext fuel).

  Lemma bind_ok {A} (a : A) (k : A -> outcome B) : bind (Ok a) k = k a.
  Proof. done. Qed.
  Lemma bind_assoc {A C} (e : outcome A) (f : A -> outcome C) (k : C -> outcome B) :
    bind (bind e f) k = bind e (fun a => bind (f a) k).
  Proof. by destruct e. Qed.

  Ltac unf :=
    cbn [eval lvalue evals exec call];
    fold (@eval W sc ext fuel); fold (@lvalue W sc ext fuel); fold (@evals W sc ext fuel);
    fold (@exec W sc ext fuel); fold (@call W sc ext fuel).

  Lemma E_cst t z E m w (k : _ -> outcome B) :
    bind (ev (ECst t z) (E, m, w)) k = k (VInt t z, (E, m, w)).
  Proof. done. Qed.
  Lemma E_data t l E m w (k : _ -> outcome B) :
    bind (ev (EData t l) (E, m, w)) k = k (VPtr (TInt t) (BData (width t) l) 0, (E, m, w)).
  Proof. done. Qed.
  Lemma E_lv l E m w (k : _ -> outcome B) :
    bind (ev (ELv l) (E, m, w)) k
    = bind (lvl l (E, m, w)) (fun '(lc, s) => bind (get_loc sc lc s) (fun v => k (v, s))).
  Proof. unf. by destruct (lvl l _) as [[lc s]| |]; cbn; [destruct (get_loc sc lc s)|..]. Qed.
  Lemma E_addr l E m w (k : _ -> outcome B) :
    bind (ev (EAddr l) (E, m, w)) k
    = bind (lvl l (E, m, w)) (fun '(lc, s) =>
        match lc with
        | LocMem t b o => bind (check_ptr (snd (fst s)) b o) (fun _ => k (VPtr t b o, s))
        | LocVar _ _ => UB BadType
        end).
  Proof.
    unf. destruct (lvl l _) as [[[n t|t b o] s]| |]; cbn; [done| |done..].
    by destruct (check_ptr _ _ _).
  Qed.
  Lemma E_un op a E m w (k : _ -> outcome B) :
    bind (ev (EUn op a) (E, m, w)) k
    = bind (ev a (E, m, w)) (fun '(v, s) => bind (unary sc op v) (fun v => k (v, s))).
  Proof. unf. destruct (ev a _) as [[v s]| |]; cbn; [|done..]. by destruct (unary sc op v). Qed.
  Lemma E_bin op a b E m w (k : _ -> outcome B) :
    bind (ev (EBin op a b) (E, m, w)) k
    = bind (ev a (E, m, w)) (fun '(v1, s) => bind (ev b s) (fun '(v2, s) =>
        bind (binary sc op v1 v2) (fun v => k (v, s)))).
  Proof.
    unf. destruct (ev a _) as [[v s]| |]; cbn; [|done..].
    destruct (ev b s) as [[v2 s2]| |]; cbn; [|done..]. by destruct (binary sc op v v2).
  Qed.
  Lemma E_and a b E m w (k : _ -> outcome B) :
    bind (ev (EAnd a b) (E, m, w)) k
    = bind (ev a (E, m, w)) (fun '(v, s) => bind (truth v) (fun c : bool =>
        if c then bind (ev b s) (fun '(v, s) =>
                    bind (truth v) (fun c => k (VInt I32 (b2z c), s)))
        else k (VInt I32 0, s))).
  Proof.
    unf. destruct (ev a _) as [[v s]| |]; cbn; [|done..].
    destruct (truth v) as [[]| |]; cbn; [|done..].
    destruct (ev b s) as [[v2 s2]| |]; cbn; [|done..]. by destruct (truth v2).
  Qed.
  Lemma E_or a b E m w (k : _ -> outcome B) :
    bind (ev (EOr a b) (E, m, w)) k
    = bind (ev a (E, m, w)) (fun '(v, s) => bind (truth v) (fun c : bool =>
        if c then k (VInt I32 1, s)
        else bind (ev b s) (fun '(v, s) =>
               bind (truth v) (fun c => k (VInt I32 (b2z c), s))))).
  Proof.
    unf. destruct (ev a _) as [[v s]| |]; cbn; [|done..].
    destruct (truth v) as [[]| |]; cbn; [done| |done..].
    destruct (ev b s) as [[v2 s2]| |]; cbn; [|done..]. by destruct (truth v2).
  Qed.
  Lemma E_cond c a b E m w (k : _ -> outcome B) :
    bind (ev (ECond c a b) (E, m, w)) k
    = bind (ev c (E, m, w)) (fun '(v, s) => bind (truth v) (fun c : bool =>
        if c then bind (ev a s) k else bind (ev b s) k)).
  Proof.
    unf. destruct (ev c _) as [[v s]| |]; cbn; [|done..].
    by destruct (truth v) as [[]| |]; cbn.
  Qed.
  Lemma E_cast t a E m w (k : _ -> outcome B) :
    bind (ev (ECast t a) (E, m, w)) k
    = bind (ev a (E, m, w)) (fun '(v, s) => bind (to_type sc t v) (fun v => k (v, s))).
  Proof. unf. destruct (ev a _) as [[v s]| |]; cbn; [|done..]. by destruct (to_type sc t v). Qed.
  Lemma E_inc pre d l E m w (k : _ -> outcome B) :
    bind (ev (EInc pre d l) (E, m, w)) k
    = bind (lvl l (E, m, w)) (fun '(lc, s) => bind (get_loc sc lc s) (fun v =>
        bind (step_val sc d v s) (fun v' => bind (set_loc sc lc v' s) (fun s =>
        if pre then bind (get_loc sc lc s) (fun v' => k (v', s)) else k (v, s))))).
  Proof.
    unf. destruct (lvl l _) as [[lc s]| |]; cbn; [|done..].
    destruct (get_loc sc lc s); cbn; [|done..]. destruct (step_val sc d _ s); cbn; [|done..].
    destruct (set_loc sc lc _ s); cbn; [|done..]. destruct pre; [|done]. by destruct (get_loc sc lc _).
  Qed.
  Lemma E_call f args E m w (k : _ -> outcome B) :
    bind (ev (ECall f args) (E, m, w)) k
    = bind (evs args (E, m, w)) (fun '(vs, (E, m, w)) =>
        bind (call sc ext fuel f vs m w) (fun '(v, m, w) => k (v, (E, m, w)))).
  Proof.
    unf. destruct (evs args _) as [[vs [[E' m'] w']]| |]; cbn; [|done..].
    by destruct (call sc ext fuel f vs m' w') as [[[v m2] w2]| |].
  Qed.
  Lemma E_callptr f args E m w (k : _ -> outcome B) :
    bind (ev (ECallPtr f args) (E, m, w)) k
    = bind (ev f (E, m, w)) (fun '(v, s) => bind (evs args s) (fun '(vs, (E, m, w)) =>
        match v with
        | VFun id => bind (ext id vs m w) (fun '(v, m, w) => k (v, (E, m, w)))
        | VNull => UB NullDeref
        | _ => UB BadType
        end)).
  Proof.
    unf. destruct (ev f _) as [[v s]| |]; cbn; [|done..].
    destruct (evs args _) as [[vs [[E' m'] w']]| |]; cbn; [|done..].
    destruct v; cbn; [done..| |done]. by destruct (ext f0 vs m' w') as [[[v m2] w2]| |].
  Qed.
  Lemma E_lib f args E m w (k : _ -> outcome B) :
    bind (ev (ELib f args) (E, m, w)) k
    = bind (evs args (E, m, w)) (fun '(vs, (E, m, w)) =>
        bind (lib f vs m) (fun '(v, m) => k (v, (E, m, w)))).
  Proof.
    unf. destruct (evs args _) as [[vs [[E' m'] w']]| |]; cbn; [|done..].
    by destruct (lib f vs m') as [[v m2]| |].
  Qed.

  Lemma A_nil E m w (k : _ -> outcome B) : bind (evs ENil (E, m, w)) k = k ([], (E, m, w)).
  Proof. done. Qed.
  Lemma A_cons e es E m w (k : _ -> outcome B) :
    bind (evs (ECons e es) (E, m, w)) k
    = bind (ev e (E, m, w)) (fun '(v, s) => bind (evs es s) (fun '(vs, s) => k (v :: vs, s))).
  Proof.
    unf. destruct (ev e _) as [[v s]| |]; cbn; [|done..]. by destruct (evs es s) as [[vs s2]| |].
  Qed.

  Lemma L_var n t E m w (k : _ -> outcome B) :
    bind (lvl (LVar n t) (E, m, w)) k = k (LocVar n t, (E, m, w)).
  Proof. done. Qed.
  Lemma L_deref e E m w (k : _ -> outcome B) :
    bind (lvl (LDeref e) (E, m, w)) k
    = bind (ev e (E, m, w)) (fun '(v, s) => bind (deref_at v 0) (fun lc => k (lc, s))).
  Proof. unf. destruct (ev e _) as [[v s]| |]; cbn; [|done..]. by destruct (deref_at v 0). Qed.
  Lemma L_index a i E m w (k : _ -> outcome B) :
    bind (lvl (LIndex a i) (E, m, w)) k
    = bind (ev a (E, m, w)) (fun '(v, s) => bind (ev i s) (fun '(n, s) =>
        match n with
        | VInt _ z => bind (deref_at v z) (fun lc => k (lc, s))
        | VUndef => UB Uninit
        | _ => UB BadType
        end)).
  Proof.
    unf. destruct (ev a _) as [[v s]| |]; cbn; [|done..].
    destruct (ev i s) as [[[] s2]| |]; cbn; [|done..]. by destruct (deref_at v z).
  Qed.
  Lemma L_field l n t E m w (k : _ -> outcome B) :
    bind (lvl (LField l n t) (E, m, w)) k
    = bind (lvl l (E, m, w)) (fun '(lc, s) =>
        match lc with LocMem _ b o => k (LocMem t b (o + n), s) | _ => UB BadType end).
  Proof. unf. by destruct (lvl l _) as [[[] s]| |]. Qed.

  Lemma S_skip E m w (k : _ -> outcome B) :
    bind (ex SSkip (E, m, w)) k = k (RNormal, (E, m, w)).
  Proof. done. Qed.
  Lemma S_seq a b E m w (k : _ -> outcome B) :
    bind (ex (SSeq a b) (E, m, w)) k
    = bind (ex a (E, m, w)) (fun '(r, s) =>
        match r with RNormal => bind (ex b s) k | _ => k (r, s) end).
  Proof. unf. by destruct (ex a _) as [[[] s]| |]; cbn. Qed.
  Lemma S_expr e E m w (k : _ -> outcome B) :
    bind (ex (SExpr e) (E, m, w)) k
    = bind (ev e (E, m, w)) (fun '(_, s) => k (RNormal, s)).
  Proof. unf. by destruct (ev e _) as [[v s]| |]. Qed.
  Lemma S_set l e E m w (k : _ -> outcome B) :
    bind (ex (SSet l e) (E, m, w)) k
    = bind (lvl l (E, m, w)) (fun '(lc, s) => bind (ev e s) (fun '(v, s) =>
        bind (set_loc sc lc v s) (fun s => k (RNormal, s)))).
  Proof.
    unf. destruct (lvl l _) as [[lc s]| |]; cbn; [|done..].
    destruct (ev e s) as [[v s2]| |]; cbn; [|done..]. by destruct (set_loc sc lc v s2).
  Qed.
  Lemma S_op op l e E m w (k : _ -> outcome B) :
    bind (ex (SOp op l e) (E, m, w)) k
    = bind (lvl l (E, m, w)) (fun '(lc, s) => bind (get_loc sc lc s) (fun v1 =>
        bind (ev e s) (fun '(v2, s) => bind (binary sc op v1 v2) (fun v =>
        bind (set_loc sc lc v s) (fun s => k (RNormal, s)))))).
  Proof.
    unf. destruct (lvl l _) as [[lc s]| |]; cbn; [|done..].
    destruct (get_loc sc lc s); cbn; [|done..].
    destruct (ev e s) as [[v s2]| |]; cbn; [|done..]. destruct (binary sc op a v); cbn; [|done..].
    by destruct (set_loc sc lc _ s2).
  Qed.
  Lemma S_var t E m w (k : _ -> outcome B) :
    bind (ex (SVar t) (E, m, w)) k = k (RNormal, (E ++ [VUndef], m, w)).
  Proof. done. Qed.
  Lemma S_init t e E m w (k : _ -> outcome B) :
    bind (ex (SInit t e) (E, m, w)) k
    = bind (ev e (E, m, w)) (fun '(v, (E, m, w)) => bind (to_type sc t v) (fun v =>
        k (RNormal, (E ++ [v], m, w)))).
  Proof.
    unf. destruct (ev e _) as [[v [[E' m'] w']]| |]; cbn; [|done..].
    by destruct (to_type sc t v).
  Qed.
  Lemma S_mem t e E m w (k : _ -> outcome B) :
    bind (ex (SMem t e) (E, m, w)) k
    = bind (ev e (E, m, w)) (fun '(v, (E, m, w)) => bind (to_type sc (TInt t) v) (fun v =>
        match v with
        | VInt _ z => k (RNormal, (E ++ [VPtr (TInt t) (BObj (length m)) 0],
                                   m ++ [[CI (width t) (raw t z)]], w))
        | _ => UB BadType
        end)).
  Proof.
    unf. destruct (ev e _) as [[v [[E' m'] w']]| |]; cbn; [|done..].
    by destruct v as [t' z| | | |]; cbn.
  Qed.
  Lemma S_arr t l E m w (k : _ -> outcome B) :
    bind (ex (SArr t l) (E, m, w)) k
    = k (RNormal, (E ++ [VPtr (TInt t) (BObj (length m)) 0], m ++ [CI (width t) <$> l], w)).
  Proof. done. Qed.
  Lemma S_if c a b E m w (k : _ -> outcome B) :
    bind (ex (SIf c a b) (E, m, w)) k
    = bind (ev c (E, m, w)) (fun '(v, s) => bind (truth v) (fun c : bool =>
        if c then bind (ex a s) k else bind (ex b s) k)).
  Proof.
    unf. destruct (ev c _) as [[v s]| |]; cbn; [|done..].
    by destruct (truth v) as [[]| |]; cbn.
  Qed.
  Definition one (c : expr) (step body : stmt) (s : st) : outcome (looped st) :=
    bind (ev c s) (fun '(v, s) => bind (truth v) (fun c : bool =>
      if c then bind (ex body s) (fun '(r, s) =>
        match r with
        | RNormal => bind (ex step s) (fun '(_, s) => Ok (Again s))
        | RBreak => Ok (Done RNormal s)
        | RReturn v => Ok (Done (RReturn v) s)
        end)
      else Ok (Done RNormal s))).
  Lemma S_loop c step body E m w (k : _ -> outcome B) :
    bind (ex (SLoop c step body) (E, m, w)) k = bind (loop fuel (one c step body) (E, m, w)) k.
  Proof. done. Qed.
  Lemma S_block objs b E m w (k : _ -> outcome B) :
    bind (ex (SBlock objs b) (E, m, w)) k
    = bind (ex b (E, m, w)) (fun '(r, s) => k (r, leave objs (E, m, w) s)).
  Proof. unf. by destruct (ex b _) as [[r s]| |]. Qed.
  Lemma S_break E m w (k : _ -> outcome B) :
    bind (ex SBreak (E, m, w)) k = k (RBreak, (E, m, w)).
  Proof. done. Qed.
  Lemma S_return e E m w (k : _ -> outcome B) :
    bind (ex (SReturn e) (E, m, w)) k
    = bind (ev e (E, m, w)) (fun '(v, s) => k (RReturn v, s)).
  Proof. unf. by destruct (ev e _) as [[v s]| |]. Qed.
  Lemma F_call params ret body vs m w (k : _ -> outcome B) :
    bind (call sc ext fuel (FDef params ret body) vs m w) k
    = bind (to_types sc params vs) (fun E => bind (ex body (E, m, w)) (fun '(r, (_, m, w)) =>
        match r, ret with
        | RReturn v, _ => bind (to_type sc ret v) (fun v => k (v, m, w))
        | RNormal, TVoid => k (VUndef, m, w)
        | _, _ => UB BadType
        end)).
  Proof.
    unf. destruct (to_types sc params vs) as [E| |]; cbn; [|done..].
    destruct (ex body _) as [[[] [[E' m'] w']]| |]; cbn; [by destruct ret|done| |done..].
    by destruct (to_type sc ret v).
  Qed.
  (** a call depends on its arguments only after their conversion *)
  Lemma call_conv params ret body vs vs' m w :
    to_types sc params vs = to_types sc params vs' ->
    call sc ext fuel (FDef params ret body) vs m w = call sc ext fuel (FDef params ret body) vs' m w.
  Proof. intros H. unf. by rewrite H. Qed.
End steps.

Lemma bind_ret {A} (e : outcome A) : bind e Ok = e.
Proof. by destruct e. Qed.

(** ** Objects in memory *)

(** an object of [w]-bit integers *)
Definition ints (w : Z) (o : list Z) : list cell := CI w <$> o.

Lemma load_ints w o p : load (ints w o) p = let! z := load o p in Ok (CI w z).
Proof.
  unfold load, ints. destruct (0 <=? p); [|done]. rewrite list_lookup_fmap.
  by destruct (o !! Z.to_nat p).
Qed.
Lemma store_ints w o p z :
  store (ints w o) p (CI w z) = let! o' := store o p z in Ok (ints w o').
Proof.
  unfold store, ints, len. rewrite fmap_length.
  destruct (_ && _); [|done]. cbn. by rewrite list_fmap_insert.
Qed.
Lemma len_ints w o : len (ints w o) = len o.
Proof. unfold ints. apply len_fmap. Qed.
Lemma load_store_oob {A} (o : list A) p x : load o p = UB OutOfBounds -> store o p x = UB OutOfBounds.
Proof.
  unfold load, store. destruct (0 <=? p) eqn:E; [|done]. cbn.
  destruct (o !! Z.to_nat p) eqn:El; [done|]. apply lookup_ge_None in El. intros _.
  destruct (Z.ltb_spec p (len o)) as [Hl|]; [unfold len in Hl; lia|done].
Qed.
Lemma load_oob_kind {A} (o : list A) p k : load o p = UB k -> k = OutOfBounds.
Proof. unfold load. destruct (0 <=? p); [destruct (_ !! _)|]; congruence. Qed.
Lemma load_not_div {A} (o : list A) p : load o p <> Diverge.
Proof. unfold load. destruct (0 <=? p); [destruct (_ !! _)|]; congruence. Qed.

Lemma ints_ne w w' (o o' : list Z) p : w <> w' -> 0 <= p < len o' -> ints w o <> ints w' o'.
Proof.
  unfold ints, len. intros Hw Hp. destruct o, o'; cbn in *; [lia|done|done|]. congruence.
Qed.
Lemma mload_ints sc m b w o t p :
  m !! b = Some (ints w o) -> w = width t ->
  mload sc m (TInt t) (BObj b) p = let! z := load o p in Ok (VInt t (dec sc t z)).
Proof.
  intros Hb ->. unfold mload, block. rewrite Hb. cbn [bind]. rewrite load_ints.
  destruct (load o p); cbn; [|done..]. by rewrite Z.eqb_refl.
Qed.
Lemma mload_data sc m w l t p :
  w = width t ->
  mload sc m (TInt t) (BData w l) p = let! z := load l p in Ok (VInt t (dec sc t z)).
Proof.
  intros ->. unfold mload, block. cbn [bind]. fold (ints (width t) l). rewrite load_ints.
  destruct (load l p); cbn; [|done..]. by rewrite Z.eqb_refl.
Qed.
Lemma mload_blk sc m b w o t p :
  block m b = Ok (ints w o) -> w = width t ->
  mload sc m (TInt t) b p = let! z := load o p in Ok (VInt t (dec sc t z)).
Proof.
  intros Hb ->. unfold mload. rewrite Hb. cbn [bind]. rewrite load_ints.
  destruct (load o p); cbn; [|done..]. by rewrite Z.eqb_refl.
Qed.
Lemma block_obj m b c : m !! b = Some c -> block m (BObj b) = Ok c.
Proof. intros H. unfold block. by rewrite H. Qed.
Lemma block_data m w l : block m (BData w l) = Ok (ints w l).
Proof. done. Qed.
Lemma mstore_ints m b w o t t' p z :
  m !! b = Some (ints w o) -> w = width t ->
  mstore m (TInt t) (BObj b) p (VInt t' z)
  = let! o' := store o p (raw t z) in Ok (<[b := ints w o']> m).
Proof.
  intros Hb ->. unfold mstore, block. rewrite Hb. cbn [bind]. rewrite load_ints.
  destruct (load o p) eqn:E; cbn.
  - rewrite Z.eqb_refl. cbn [bind]. rewrite store_ints. by destruct (store o p _).
  - pose proof (load_oob_kind _ _ _ E) as ->. by rewrite (load_store_oob _ _ _ E).
  - by apply load_not_div in E.
Qed.
Lemma check_ptr_ints m b w o p :
  m !! b = Some (ints w o) ->
  check_ptr m (BObj b) p = if (0 <=? p) && (p <=? len o) then Ok tt else UB OutOfBounds.
Proof. intros Hb. unfold check_ptr, block. rewrite Hb. cbn. by rewrite len_ints. Qed.

(** ** Values *)

Lemma truth_b2z c : negb (b2z c =? 0) = c.
Proof. by destruct c. Qed.
Lemma b2z_eq0 c : (b2z c =? 0) = negb c.
Proof. by destruct c. Qed.
Lemma u8_char sc c : is_byte c -> u8 (char_val sc c) = c.
Proof. unfold is_byte, u8, char_val, s8. destruct sc; lia. Qed.
Lemma deref_1 t b o i : csize t = 1 -> deref_at (VPtr t b o) i = Ok (LocMem t b (o + i)).
Proof. intros H. unfold deref_at. by rewrite H, Z.mul_1_r. Qed.

Lemma shift_shl32 a n :
  shift true U32 a n = let! z := shl32 a n in Ok (VInt U32 z).
Proof. unfold shift, shl32. cbn [width is_signed result]. by destruct (_ && _). Qed.
Lemma shift_shr32 a n :
  shift false U32 a n = let! z := shr32 a n in Ok (VInt U32 z).
Proof. unfold shift, shr32. cbn [width is_signed result]. by destruct (_ && _). Qed.
Lemma load_insert_same {A} (o : list A) p z : 0 <= p < len o -> load (<[Z.to_nat p := z]> o) p = Ok z.
Proof.
  intros Hp. unfold load, len in *. destruct (Z.leb_spec 0 p); [|lia].
  rewrite list_lookup_insert by lia. done.
Qed.
Lemma load_store_other {A} (o o' : list A) p q x :
  store o q x = Ok o' -> p <> q -> load o' p = load o p.
Proof.
  intros E Hp. apply store_inv in E as [Hq ->]. unfold load. destruct (Z.leb_spec 0 p); [|done].
  rewrite list_lookup_insert_ne by lia. done.
Qed.
Lemma load_store_same {A} `{Inhabited A} (o : list A) p x : load o p = Ok x -> store o p x = Ok o.
Proof.
  intros Hl. apply load_inv in Hl as [Hp ->]. rewrite store_ok by done. f_equal.
  apply list_insert_id. by apply lookup_get.
Qed.

Lemma land_mod n a b : 0 <= n -> Z.land a b mod 2 ^ n = Z.land (a mod 2 ^ n) b.
Proof.
  intros. rewrite <- !Z.land_ones by done.
  by rewrite <- Z.land_assoc, (Z.land_comm b), Z.land_assoc.
Qed.
Lemma u32_land a b : 0 <= a < 2 ^ 32 -> u32 (Z.land a b) = Z.land a b.
Proof. intros. unfold u32. rewrite land_mod by done. by rewrite Z.mod_small. Qed.
Lemma land_le a c : 0 <= c -> 0 <= Z.land a c <= c.
Proof.
  intros Hc. assert (0 <= Z.land a c) by (apply Z.land_nonneg; lia).
  assert (0 <= Z.ldiff c a) by (apply Z.ldiff_nonneg; lia).
  assert (Z.land (Z.ldiff c a) (Z.land c a) = 0) as H1.
  { apply Z.bits_inj'. intros n Hn. rewrite !Z.land_spec, Z.ldiff_spec, Z.bits_0. 
    destruct (Z.testbit c n), (Z.testbit a n); done. }
  pose proof (Z.add_nocarry_lxor _ _ H1) as H2. rewrite Z.lxor_lor, Z.lor_ldiff_and in H2 by done.
  rewrite (Z.land_comm a c) in *. lia.
Qed.
Lemma u32_shl_land a c k : 0 <= c -> 0 <= k -> c * 2 ^ k < 2 ^ 32 ->
  u32 (Z.shiftl (Z.land a c) k) = Z.shiftl (Z.land a c) k.
Proof.
  intros Hc Hk Hb. apply u32_small. rewrite Z.shiftl_mul_pow2 by done.
  pose proof (land_le a c Hc). pose proof (Z.pow_pos_nonneg 2 k). nia.
Qed.
Lemma u64_div a b : 0 < b -> u64 (u64 a / b) = u64 a / b.
Proof.
  intros Hb. apply u64_small. assert (0 <= u64 a < 2 ^ 64) by (unfold u64; lia).
  split; [apply Z.div_pos; lia|]. apply Z.div_lt_upper_bound; [done|]. nia.
Qed.
Lemma u64_land a b : 0 <= a < 2 ^ 64 -> u64 (Z.land a b) = Z.land a b.
Proof. intros. unfold u64. rewrite land_mod by done. by rewrite Z.mod_small. Qed.

(** ** Symbolic execution *)

Ltac is_pos p := lazymatch p with xH => idtac | xO ?q => is_pos q | xI ?q => is_pos q end.
Ltac is_num z := lazymatch z with Z0 => idtac | Zpos ?p => is_pos p | Zneg ?p => is_pos p end.

(** conversions of constants *)
Ltac const1 f x := is_num x; let r := eval vm_compute in (f x) in change (f x) with r.
Ltac consts :=
  repeat match goal with
    | |- context [u8 ?x] => const1 u8 x
    | |- context [u16 ?x] => const1 u16 x
    | |- context [u32 ?x] => const1 u32 x
    | |- context [u64 ?x] => const1 u64 x
    | |- context [s8 ?x] => const1 s8 x
    | |- context [s32 ?x] => const1 s32 x
    | |- context [?x =? ?y] =>
        is_num x; is_num y; let r := eval vm_compute in (x =? y) in change (x =? y) with r
    | |- context [?x / ?y] =>
        is_num x; is_num y; let r := eval vm_compute in (x / y) in change (x / y) with r
    | |- context [?x mod ?y] =>
        is_num x; is_num y; let r := eval vm_compute in (x mod y) in change (x mod y) with r
    | |- context [?x * ?y] =>
        is_num x; is_num y; let r := eval vm_compute in (x * y) in change (x * y) with r
    | |- context [?x - ?y] =>
        is_num x; is_num y; let r := eval vm_compute in (x - y) in change (x - y) with r
    | |- context [negb true] => change (negb true) with false
    | |- context [negb false] => change (negb false) with true
    end.

(** compute the head of the left side with the given (whitelisted) reduction *)
Ltac head_cbn :=
  lazymatch goal with
  | |- bind ?X ?k = ?R =>
      let X' := eval cbn [get_loc set_loc to_type to_types binary arith shift result unary truth
                          cast fits wrap common promote is_signed width deref_at csize step_val
                          lookup list_lookup insert list_insert take bind dec raw negb
                          ptr_eq fst snd b2z] in X in
      change (bind X' k = R)
  end.

Ltac len_tac :=
  rewrite ?insert_length, ?app_length; cbn [length];
  repeat match goal with H : _ !! _ = Some _ |- _ => apply lookup_lt_Some in H end; lia.
Ltac ne_tac :=
  first [assumption | apply not_eq_sym; assumption
        | let H := fresh in intros H; revert H;
          rewrite ?insert_length, ?app_length; cbn [length];
          repeat match goal with H : _ !! _ = Some _ |- _ => apply lookup_lt_Some in H end; lia].
(** [M !! b = Some ?c] *)
Ltac look :=
  first
    [ eassumption
    | lazymatch goal with
      | |- <[?b := _]> ?M !! ?b = _ => apply list_lookup_insert; len_tac
      | |- <[?b' := _]> ?M !! ?b = _ => rewrite list_lookup_insert_ne by ne_tac; look
      | |- (?M ++ [_]) !! ?b = _ =>
          first [ rewrite lookup_app_l by len_tac; look
                | rewrite lookup_app_r by len_tac;
                  replace (b - length M)%nat with 0%nat by len_tac; reflexivity ]
      end ].

Ltac beta := cbv beta iota.

Ltac new_obj :=
  repeat match goal with
    | |- context [CI (width ?t) <$> ?l] =>
        let w := eval compute in (width t) in change (CI (width t) <$> l) with (ints w l)
    | |- context [[CI (width ?t) (raw ?t' ?z)]] =>
        let w := eval compute in (width t) in
        change [CI (width t) (raw t' z)] with (ints w [raw t' z]); cbn [raw]
    end.
(** rewrite the head of the left side *)
Ltac hrw l := eapply eq_trans; [apply l|].
Ltac estep e :=
  lazymatch e with
  | ECst _ _ => hrw E_cst
  | EData _ _ => hrw E_data
  | ELv _ => hrw E_lv
  | EAddr _ => hrw E_addr
  | EUn _ _ => hrw E_un
  | EBin _ _ _ => hrw E_bin
  | EAnd _ _ => hrw E_and
  | EOr _ _ => hrw E_or
  | ECond _ _ _ => hrw E_cond
  | ECast _ _ => hrw E_cast
  | EInc _ _ _ => hrw E_inc
  | ECall _ _ => hrw E_call
  | ECallPtr _ _ => hrw E_callptr
  | ELib _ _ => hrw E_lib
  end.
Ltac lstep l :=
  lazymatch l with
  | LVar _ _ => hrw L_var
  | LDeref _ => hrw L_deref
  | LIndex _ _ => hrw L_index
  | LField _ _ _ => hrw L_field
  end.
Ltac sstep c :=
  lazymatch c with
  | SSkip => hrw S_skip
  | SSeq _ _ => hrw S_seq
  | SExpr _ => hrw S_expr
  | SSet _ _ => hrw S_set
  | SOp _ _ _ => hrw S_op
  | SVar _ => hrw S_var; cbn [app]
  | SInit _ _ => hrw S_init
  | SMem _ _ => hrw S_mem; new_obj
  | SArr _ _ => hrw S_arr; cbn [app]; new_obj
  | SIf _ _ _ => hrw S_if
  | SLoop _ _ _ => hrw S_loop
  | SBlock _ _ => hrw S_block
  | SBreak => hrw S_break
  | SReturn _ => hrw S_return
  end.

(** bounds of values *)
Lemma load_byte o p z : bytes o -> load o p = Ok z -> is_byte z.
Proof. intros Hb H. apply load_inv in H as [Hp ->]. apply Forall_get; [done|lia]. Qed.
Lemma store_bytes o p z o' : bytes o -> is_byte z -> store o p z = Ok o' -> bytes o'.
Proof.
  intros Hb Hz H. apply store_inv in H as [Hp ->]. by apply Forall_insert.
Qed.
Lemma u8_byte x : is_byte (u8 x).
Proof. unfold is_byte, u8. lia. Qed.

Ltac bounds :=
  repeat match goal with
    | H : is_byte _ |- _ => unfold is_byte in H
    | H : is_u16 _ |- _ => unfold is_u16 in H
    | H : is_u32 _ |- _ => unfold is_u32 in H
    | H : is_u64 _ |- _ => unfold is_u64 in H
    | H : is_s32 _ |- _ => unfold is_s32 in H
    end.
Ltac rng :=
  bounds; rewrite ?Z.shiftl_mul_pow2, ?Z.shiftr_div_pow2 by lia;
  unfold u8, u16, u32, u64, s8, s32, is_byte, is_u16, is_u32, is_u64, is_s32 in *; lia.

(** two descriptions of one value *)
Ltac val_eq := first [reflexivity | lia | rng].

(** the same access on the right side *)
Ltac same_load o p :=
  try match goal with
    | |- _ = ?R => match R with context [load o ?q] =>
        lazymatch q with p => idtac | _ => replace (load o q) with (load o p) by (f_equal; val_eq) end end
    end.
Ltac same_store o p x :=
  try match goal with
    | |- _ = ?R => match R with context [store o ?q ?y] =>
        lazymatch constr:((q, y)) with
        | (p, x) => idtac
        | _ => replace (store o q y) with (store o p x) by (f_equal; val_eq)
        end end
    end.
Lemma load_range {A} `{Inhabited A} (o : list A) p z : load o p = Ok z -> 0 <= p < len o.
Proof. intros E. by apply load_inv in E as [? _]. Qed.
Lemma store_range {A} (o o' : list A) p z : store o p z = Ok o' -> 0 <= p < len o /\ len o' = len o.
Proof. intros E. apply store_inv in E as [? ->]. by rewrite len_insert. Qed.
Ltac note_load o p z E :=
  pose proof (load_range o p z E);
  try match goal with H : bytes o |- _ => pose proof (load_byte o p z H E) end.

Ltac go_if c :=
  lazymatch c with
  | true => idtac
  | false => idtac
  | _ =>
      try lazymatch c with ?x =? ?y => rewrite (Z.eqb_sym y x) end;
      first [ match goal with H : c = _ |- _ => rewrite H end
            | let H := fresh "H" in
              first [ assert (c = true) as H by lia | assert (c = false) as H by lia ];
              rewrite H; clear H
            | destruct c eqn:?; try (exfalso; lia) ]
  end; cbn [andb orb negb].

(** a shift whose count is a constant, or that the right side has as well *)
Ltac go_shift x :=
  lazymatch x with
  | shl32 ?a ?n => is_num n; change x with (Ok (u32 (Z.shiftl a n)))
  | shr32 ?a ?n => is_num n; change x with (Ok (Z.shiftr a n))
  end.
Ltac go_shift' x := first [go_shift x | let z := fresh "z" in let E := fresh "E" in
         destruct x as [z| |] eqn:E; cbn [bind]; try reflexivity].

(** simplifications of values, as they come up *)
Ltac norm :=
  repeat match goal with
    | H : is_byte ?c |- context [u8 (char_val ?sc ?c)] => rewrite (u8_char sc c H)
    | |- context [negb (b2z _ =? 0)] => rewrite truth_b2z
    | |- context [[CI (width ?t) (raw ?t' ?z)]] => new_obj
    | |- context [u32 (Z.land ?a ?b)] => rewrite (u32_land a b) by lia
    | |- context [u64 (Z.land ?a ?b)] => rewrite (u64_land a b) by lia
    | |- context [u32 (Z.shiftl (Z.land ?a ?c) ?k)] =>
        is_num c; is_num k; rewrite (u32_shl_land a c k) by lia
    | |- context [u32 (Z.shiftr ?a ?k)] =>
        is_num k; rewrite (u32_small (Z.shiftr a k)) by (first [lia|rng])
    | |- context [u64 (u64 ?a / ?b)] => rewrite (u64_div a b) by lia
    end.

Lemma insert_last {A} (M : list A) b x y :
  b = length M -> <[b := x]> (M ++ [y]) = M ++ [x].
Proof. intros ->. rewrite insert_app_r_alt by lia. by rewrite Nat.sub_diag. Qed.
Lemma insert_front {A} (M : list A) b x y :
  (b < length M)%nat -> <[b := x]> (M ++ [y]) = <[b := x]> M ++ [y].
Proof. intros. by rewrite insert_app_l. Qed.
Lemma take_last {A} (M : list A) n y : n = length M -> take n (M ++ [y]) = M.
Proof. intros ->. apply take_app. Qed.
Lemma take_front {A} (M : list A) n y : (n <= length M)%nat -> take n (M ++ [y]) = take n M.
Proof. intros. by apply take_app_le. Qed.

(** at most one update of each object; new objects at the end *)
Ltac memn :=
  rewrite ?insert_length;
  repeat (rewrite list_insert_insert ||
    match goal with
    | |- context [<[?b := ?x]> (?M ++ [?y])] =>
        first [rewrite (insert_last M b x y) by len_tac | rewrite (insert_front M b x y) by len_tac]
    | |- context [take ?n (?M ++ [?y])] =>
        first [rewrite (take_last M n y) by len_tac | rewrite (take_front M n y) by len_tac]
    | |- context [<[?b := ?x]> (<[?c := ?y]> (<[?b := ?z]> ?M))] =>
        rewrite (list_insert_commute (<[b := z]> M) b c x y) by ne_tac
    end).

Ltac leave_objs := lazymatch goal with |- context [take (length _) (_ ++ _)] => memn end.

(** conversions that change nothing *)
Ltac smalls :=
  repeat match goal with
    | |- context [u8 ?z] => rewrite (u8_small z) by (first [lia | rng])
    | |- context [u16 ?z] => rewrite (u16_small z) by (first [lia | rng])
    | |- context [u32 ?z] => rewrite (u32_small z) by (first [lia | rng])
    | |- context [u64 ?z] => rewrite (u64_small z) by (first [lia | rng])
    | |- context [s32 ?z] => rewrite (s32_small z) by (first [lia | rng])
    | |- context [s8 ?z] => rewrite (s8_small z) by (first [lia | rng])
    end.

(** the same computation at the head of both sides *)
Ltac both :=
  lazymatch goal with
  | |- bind ?X _ = _ =>
      let x := fresh "r" in let E := fresh "E" in
      destruct X as [x| |] eqn:E; cbn [bind]; [|reflexivity..];
      repeat match goal with z : _ * _ |- _ => destruct z end; cbv beta iota
  end.
(** what a later file knows about a load *)
Ltac load_hook o p := fail.
(** how a later file steps over a head it knows *)
Ltac head_hook X := fail.

(** one step at the head of the left side *)
Ltac go1 :=
  lazymatch goal with
  | |- bind ?X _ = _ =>
      first [head_hook X |
      lazymatch X with
      | Ok ?x => lazymatch goal with |- bind _ ?k = ?R => change (k x = R) end; cbn [app leave take length]; try leave_objs
      | bind _ _ => hrw bind_assoc
      | eval _ _ _ ?e _ => estep e
      | lvalue _ _ _ ?l _ => lstep l
      | evals _ _ _ ENil _ => hrw A_nil
      | evals _ _ _ (ECons _ _) _ => hrw A_cons
      | exec _ _ _ ?c _ => sstep c
      | call _ _ _ (FDef _ _ _) _ _ _ => hrw F_call
      | get_loc _ _ _ => head_cbn
      | set_loc _ _ _ _ => head_cbn
      | deref_at (VPtr _ _ _) _ => rewrite deref_1 by reflexivity; rewrite ?Z.add_0_r, ?Z.add_0_l
      | deref_at _ _ => head_cbn
      | to_type _ _ _ => head_cbn
      | to_types _ _ _ => head_cbn
      | binary _ _ _ _ => head_cbn
      | unary _ _ _ => head_cbn
      | truth _ => head_cbn; rewrite ?truth_b2z
      | step_val _ _ _ _ => head_cbn
      | shift true U32 ?a ?n => rewrite (shift_shl32 a n)
      | shift false U32 ?a ?n => rewrite (shift_shr32 a n)
      | shl32 ?a ?n => go_shift' (shl32 a n)
      | shr32 ?a ?n => go_shift' (shr32 a n)
      | shift ?l ?t ?a ?n =>
          is_num n; unfold shift at 1; cbn [width is_signed];
          change ((0 <=? n) && (n <? _)) with true; cbn [result];
          try replace (a <? 0) with false by (symmetry; apply Z.ltb_ge; val_eq)
      | mload _ _ (TInt ?t) (BObj ?b) _ =>
          erewrite mload_ints; [|look|reflexivity]; cbn [dec]
      | mload _ _ (TInt ?t) (BData _ _) _ => rewrite mload_data by reflexivity; cbn [dec]
      | mload _ _ (TInt ?t) _ _ => erewrite mload_blk; [|eassumption|reflexivity]; cbn [dec]
      | check_ptr _ (BObj ?b) _ => erewrite check_ptr_ints; [|look]
      | mstore _ (TInt ?t) (BObj ?b) _ (VInt _ _) =>
          erewrite mstore_ints; [|look|reflexivity]; cbn [raw]
      | load [?x] 0 => change (load [x] 0) with (Ok x)
      | store [?y] 0 ?x => change (store [y] 0 x) with (Ok [x]); cbn [bind]; memn
      | load ?o ?p =>
          first [ load_hook o p
                | lazymatch o with <[Z.to_nat p := ?z]> ?o' => rewrite (load_insert_same o' p z) by lia end
                | match goal with H : load o ?q = _ |- _ =>
                    replace (load o p) with (load o q) by (f_equal; val_eq); rewrite H
                  end
                | same_load o p; let E := fresh "E" in let z := fresh "z" in
                  destruct (load o p) as [z| |] eqn:E; cbn [bind]; try reflexivity;
                  note_load o p z E ]
      | store ?o ?p ?x =>
          same_store o p x;
          first [ rewrite (store_ok o p x) by (rewrite ?len_insert; lia); cbn [bind]
                | let E := fresh "E" in let z := fresh "o" in
                  destruct (store o p x) as [z| |] eqn:E; cbn [bind]; try reflexivity;
                  destruct (store_range o z p x E) ]; memn
      | ck32 ?x => first [rewrite (ck32_ok x) by val_eq | both]
      | (if ?c then _ else _) => go_if c
      end]
  | |- call _ _ _ (FDef _ _ _) _ _ _ = _ => rewrite <- (bind_ret (call _ _ _ _ _ _ _))
  | |- (if ?c then _ else _) = _ => go_if c
  end; beta; consts; norm.
Definition ctl_map {S T} (enc fin : S -> T) (c : ctl S) : looped T :=
  match c with Next s => Again (enc s) | Break s => Done RNormal (fin s) end.

Ltac split_eq :=
  repeat match goal with
    | |- @eq ?T _ _ => lazymatch T with Z => fail | list Z => fail | bool => fail | _ => f_equal end
    end.
Ltac done_ok :=
  lazymatch goal with
  | |- Ok _ = _ => cbn [bind take ctl_map]; smalls; first [reflexivity | split_eq; val_eq]
  end.
Ltac go := try reflexivity; repeat (go1; try reflexivity); try done_ok.
Ltac go_body := unfold one; bounds; go.

(** use the lemma [l] about the function called at the head, with the arguments converted *)
Ltac call_with vs :=
  lazymatch goal with
  | |- bind (call ?sc ?ext ?fuel ?f ?vs' ?m ?w) ?k = ?R =>
      replace (call sc ext fuel f vs' m w) with (call sc ext fuel f vs m w)
        by (unfold f; apply call_conv; cbn [to_types to_type cast fits wrap];
            consts; smalls; reflexivity)
  end.

(** the object is unchanged *)
Ltac same_obj :=
  cbn [bind];
  repeat match goal with
    | H : load ?o ?p = Ok ?x |- context [store ?o ?p ?x] =>
        rewrite (load_store_same o p x H); cbn [bind]
    end;
  repeat match goal with
    | H : ?m !! ?b = Some ?c |- context [<[?b := ?c]> ?m] => rewrite (list_insert_id m b c H)
    end.

(** ** Loops *)

Section loops.
  Context {S T : Type}.

  Lemma loop_S n (step : T -> outcome (looped T)) x :
    loop (Datatypes.S n) step x
    = let! y := step x in match y with Again s => loop n step s | Done r s => Ok (r, s) end.
  Proof. done. Qed.

  (** [enc i s]: the interpreter's state when the model's loop is at [i] with state [s] *)
  Lemma loop_cfor (enc : Z -> S -> T) (I : Z -> S -> Prop) (body : Z -> S -> outcome S)
      (step : T -> outcome (looped T)) (a b : Z) (s : S) (n : nat) :
    a <= b -> I a s -> (Z.to_nat (b - a) < n)%nat ->
    (forall i s, a <= i < b -> I i s ->
       step (enc i s) = let! s' := body i s in Ok (Again (enc (i + 1) s'))) ->
    (forall i s s', a <= i < b -> I i s -> body i s = Ok s' -> I (i + 1) s') ->
    (forall s, I b s -> step (enc b s) = Ok (Done RNormal (enc b s))) ->
    loop n step (enc a s) = let! s' := cfor a b body s in Ok (RNormal, enc b s').
  Proof.
    intros Hab HI Hn Hstep Hinv Hend. unfold cfor.
    remember (Z.to_nat (b - a)) as k eqn:Hk. revert a s n Hab HI Hn Hk Hstep Hinv.
    induction k as [|k IH]; intros a s n Hab HI Hn Hk Hstep Hinv;
      (destruct n as [|n]; [lia|]); rewrite loop_S.
    - assert (a = b) as -> by lia. rewrite Hend by done. done.
    - rewrite Hstep by (done || lia). cbn [cfor_n].
      destruct (body a s) as [s'| |] eqn:E; cbn [bind]; [|done..].
      apply IH; [lia|eapply Hinv; [lia|done|done]|lia|lia| |].
      + intros. apply Hstep; [lia|done].
      + intros. eapply Hinv; [|done|done]. lia.
  Qed.

  Lemma loop_cford (enc : Z -> S -> T) (I : Z -> S -> Prop) (body : Z -> S -> outcome S)
      (step : T -> outcome (looped T)) (fin : S -> T) (a b : Z) (s : S) (n : nat) :
    b <= a + 1 -> I a s -> (Z.to_nat (a + 1 - b) < n)%nat ->
    (forall i s, b <= i <= a -> I i s ->
       step (enc i s) = let! s' := body i s in Ok (Again (enc (i - 1) s'))) ->
    (forall i s s', b <= i <= a -> I i s -> body i s = Ok s' -> I (i - 1) s') ->
    (forall s, I (b - 1) s -> step (enc (b - 1) s) = Ok (Done RNormal (fin s))) ->
    loop n step (enc a s) = let! s' := cford a b body s in Ok (RNormal, fin s').
  Proof.
    intros Hab HI Hn Hstep Hinv Hend. unfold cford.
    remember (Z.to_nat (a + 1 - b)) as k eqn:Hk. revert a s n Hab HI Hn Hk Hstep Hinv.
    induction k as [|k IH]; intros a s n Hab HI Hn Hk Hstep Hinv;
      (destruct n as [|n]; [lia|]); rewrite loop_S.
    - assert (a = b - 1) as -> by lia. rewrite Hend by done. done.
    - rewrite Hstep by (done || lia). cbn [cford_n].
      destruct (body a s) as [s'| |] eqn:E; cbn [bind]; [|done..].
      apply IH; [lia|eapply Hinv; [lia|done|done]|lia|lia| |].
      + intros. apply Hstep; [lia|done].
      + intros. eapply Hinv; [|done|done]. lia.
  Qed.

  Lemma loop_cwhile (enc fin : S -> T) (I : S -> Prop) (cond : S -> bool)
      (body : S -> outcome (ctl S)) (step : T -> outcome (looped T)) (k n : nat) (s : S) :
    I s -> (k <= n)%nat -> cwhile k cond body s <> Diverge ->
    (forall s, I s -> cond s = true ->
       step (enc s) = let! c := body s in Ok (ctl_map enc fin c)) ->
    (forall s, I s -> cond s = false -> step (enc s) = Ok (Done RNormal (fin s))) ->
    (forall s s', I s -> cond s = true -> body s = Ok (Next s') -> I s') ->
    loop n step (enc s) = let! s' := cwhile k cond body s in Ok (RNormal, fin s').
  Proof.
    intros HI Hk Hd Hstep Hend Hinv. revert s n HI Hk Hd.
    induction k as [|k IH]; intros s n HI Hk Hd; [by destruct Hd|].
    destruct n as [|n]; [lia|]. rewrite loop_S. cbn [cwhile] in *.
    destruct (cond s) eqn:Ec; [|by rewrite Hend].
    rewrite Hstep by done. destruct (body s) as [[s'|s']| |] eqn:E; cbn in *; try done.
    apply IH; [by eapply Hinv|lia|done].
  Qed.

  Lemma for_sim {B} (enc : Z -> S -> T) (I : Z -> S -> Prop) body step a b s n x (k : _ -> outcome B) R :
    x = enc a s -> a <= b -> I a s -> (Z.to_nat (b - a) < n)%nat ->
    (forall i s, a <= i < b -> I i s ->
       step (enc i s) = let! s' := body i s in Ok (Again (enc (i + 1) s'))) ->
    (forall i s s', a <= i < b -> I i s -> body i s = Ok s' -> I (i + 1) s') ->
    (forall s, I b s -> step (enc b s) = Ok (Done RNormal (enc b s))) ->
    bind (cfor a b body s) (fun s' => k (RNormal, enc b s')) = R ->
    bind (loop n step x) k = R.
  Proof.
    intros -> Hab HI Hn Hs Hi He <-. rewrite (loop_cfor enc I body step a b s n) by done.
    by destruct (cfor a b body s).
  Qed.
  Lemma ford_sim {B} (enc : Z -> S -> T) fin (I : Z -> S -> Prop) body step a b s n x (k : _ -> outcome B) R :
    x = enc a s -> b <= a + 1 -> I a s -> (Z.to_nat (a + 1 - b) < n)%nat ->
    (forall i s, b <= i <= a -> I i s ->
       step (enc i s) = let! s' := body i s in Ok (Again (enc (i - 1) s'))) ->
    (forall i s s', b <= i <= a -> I i s -> body i s = Ok s' -> I (i - 1) s') ->
    (forall s, I (b - 1) s -> step (enc (b - 1) s) = Ok (Done RNormal (fin s))) ->
    bind (cford a b body s) (fun s' => k (RNormal, fin s')) = R ->
    bind (loop n step x) k = R.
  Proof.
    intros -> Hab HI Hn Hs Hi He <-. rewrite (loop_cford enc I body step fin a b s n) by done.
    by destruct (cford a b body s).
  Qed.
  Lemma while_sim {B} (enc fin : S -> T) (I : S -> Prop) cond body step j n s x (k : _ -> outcome B) R :
    x = enc s -> I s -> (j <= n)%nat -> cwhile j cond body s <> Diverge ->
    (forall s, I s -> cond s = true ->
       step (enc s) = let! c := body s in Ok (ctl_map enc fin c)) ->
    (forall s, I s -> cond s = false -> step (enc s) = Ok (Done RNormal (fin s))) ->
    (forall s s', I s -> cond s = true -> body s = Ok (Next s') -> I s') ->
    bind (cwhile j cond body s) (fun s' => k (RNormal, fin s')) = R ->
    bind (loop n step x) k = R.
  Proof.
    intros -> HI Hn Hd Hs He Hi <-.
    rewrite (loop_cwhile enc fin I cond body step j n s) by done. by destruct (cwhile _ _ _ _).
  Qed.
End loops.

(** the loop on the left side is the first loop on the right side *)
Tactic Notation "sim_for" uconstr(enc) uconstr(I) :=
  lazymatch goal with
  | |- bind (loop _ _ _) _ = ?R =>
      lazymatch R with
      | context [@cfor ?S ?a ?b ?body ?s] =>
          eapply (for_sim (S := S) enc I body _ a b s)
      end
  end.
Tactic Notation "sim_ford" uconstr(enc) uconstr(fin) uconstr(I) :=
  lazymatch goal with
  | |- bind (loop _ _ _) _ = ?R =>
      lazymatch R with
      | context [@cford ?S ?a ?b ?body ?s] =>
          eapply (ford_sim (S := S) enc fin I body _ a b s)
      end
  end.
Tactic Notation "sim_while" uconstr(enc) uconstr(fin) uconstr(I) :=
  lazymatch goal with
  | |- bind (loop _ _ _) _ = ?R =>
      lazymatch R with
      | context [@cwhile ?S ?j ?cond ?body ?s] =>
          eapply (while_sim (S := S) enc fin I cond body _ j _ s)
      end
  end.
