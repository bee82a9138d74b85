(** * Proofs for [Props_Leak.v] *)
From Verif Require Import CSem Lib CLang CLeak Proof_EvalOrder.

(** ** A check that secrets do not reach branches and addresses

    Every variable is public ([true]) or may hold a secret ([false]); every number in memory may be
    secret, pointers are public. *)
Definition all_true (l : list bool) : bool := forallb (fun b => b) l.
Definition op_ok (op : binop) (p1 p2 : bool) : bool :=
  match op with Mul | Div | Mod => p1 && p2 | Shl | Shr => p2 | _ => true end.
Definition leq (p q : bool) : bool := implb q p.   (* a [p] may be put where a [q] is expected *)

Fixpoint ct_e (G : list bool) (e : expr) : option bool :=
  match e with
  | ECst _ _ | EData _ _ => Some true
  | ELv l => ct_l G l
  | EAddr l => _ ← ct_l G l; Some true
  | EUn _ a => ct_e G a
  | EBin op a b =>
      p ← ct_e G a; q ← ct_e G b; if op_ok op p q then Some (p && q) else None
  | EAnd a b | EOr a b => p ← ct_e G a; q ← ct_e G b; if (p : bool) then Some q else None
  | ECond c a b =>
      p ← ct_e G c; q ← ct_e G a; r ← ct_e G b; if (p : bool) then Some (q && r) else None
  | ECast _ a => ct_e G a
  | EInc _ _ l => ct_l G l
  | ECall f args => ps ← ct_es G args; if ct_f ps f then Some false else None
  | ECallPtr _ _ | ELib _ _ => None
  end
with ct_l (G : list bool) (l : lval) : option bool :=
  match l with
  | LVar n _ => G !! n
  | LDeref e => p ← ct_e G e; if (p : bool) then Some false else None
  | LIndex a i => p ← ct_e G a; q ← ct_e G i; if p && q then Some false else None
  | LField l _ _ => _ ← ct_l G l; Some false
  end
with ct_es (G : list bool) (es : exprs) : option (list bool) :=
  match es with
  | ENil => Some []
  | ECons e es => p ← ct_e G e; ps ← ct_es G es; Some (p :: ps)
  end
with ct_s (G : list bool) (s : stmt) : option (list bool) :=
  match s with
  | SSkip | SBreak => Some G
  | SSeq a b => G ← ct_s G a; ct_s G b
  | SExpr e => _ ← ct_e G e; Some G
  | SSet l e => p ← ct_l G l; q ← ct_e G e; if leq q p then Some G else None
  | SOp op l e =>
      p ← ct_l G l; q ← ct_e G e; if op_ok op p q && leq (p && q) p then Some G else None
  | SVar _ => Some (G ++ [false])
  | SInit _ e => p ← ct_e G e; Some (G ++ [p])
  | SMem _ e => _ ← ct_e G e; Some (G ++ [true])
  | SArr _ _ => Some (G ++ [true])
  | SIf c a b =>
      p ← ct_e G c; G1 ← ct_s G a; G2 ← ct_s G b;
      if (p : bool) && (length G1 =? length G)%nat && (length G2 =? length G)%nat then Some G else None
  | SLoop c st b =>
      p ← ct_e G c; G1 ← ct_s G b; G2 ← ct_s G st;
      if (p : bool) && (length G1 =? length G)%nat && (length G2 =? length G)%nat then Some G else None
  | SBlock _ b => _ ← ct_s G b; Some G
  | SReturn e => _ ← ct_e G e; Some G
  end
with ct_f (ps : list bool) (f : fundef) : bool :=
  match f with FDef params _ b =>
    match ct_s ps b with Some _ => (length params =? length ps)%nat | None => false end end.

(** ** Related values and states *)
Definition like (v v' : val) : Prop :=
  match v, v' with VInt t _, VInt t' _ => t = t' | _, _ => v = v' end.
Definition vrel (p : bool) (v v' : val) : Prop := if p then v = v' else like v v'.
Definition erel (G : list bool) (E E' : list val) : Prop :=
  length E = length G /\ length E' = length G /\
  forall n p v v', G !! n = Some p -> E !! n = Some v -> E' !! n = Some v' -> vrel p v v'.
Definition vrels (ps : list bool) (vs vs' : list val) : Prop := erel ps vs vs'.
Definition locok (G : list bool) (p : bool) (lc : loc) : Prop :=
  match lc with LocVar n _ => G !! n = Some p | LocMem _ _ _ => p = false end.

Lemma like_refl v : like v v.
Proof. destruct v; reflexivity. Qed.
Lemma vrel_like p v v' : vrel p v v' -> like v v'.
Proof. destruct p; cbn; [intros ->; apply like_refl|done]. Qed.
Lemma vrel_leq p q v v' : leq p q = true -> vrel p v v' -> vrel q v v'.
Proof. destruct p, q; cbn; try done. intros _ ->. apply like_refl. Qed.
Lemma vrel_of p q v v' : (p && q = true -> v = v') -> like v v' -> vrel (p && q) v v'.
Proof. destruct (p && q); cbn; auto. Qed.

Lemma erel_app G E E' p v v' : erel G E E' -> vrel p v v' -> erel (G ++ [p]) (E ++ [v]) (E' ++ [v']).
Proof.
  intros (H1 & H2 & H3) Hv. split; [rewrite !app_length; cbn; lia|]. split; [rewrite !app_length; cbn; lia|].
  intros n q x x' Hn Hx Hx'. destruct (decide (n < length G)%nat) as [l|l].
  - rewrite lookup_app_l in Hn by lia. rewrite lookup_app_l in Hx by lia. rewrite lookup_app_l in Hx' by lia. exact (H3 n q x x' Hn Hx Hx').
  - rewrite lookup_app_r in Hn by lia. rewrite lookup_app_r in Hx by lia. rewrite lookup_app_r in Hx' by lia.
    rewrite H1 in Hx. rewrite H2 in Hx'. destruct (n - length G)%nat as [|k]; [|done].
    cbn in *. by simplify_eq.
Qed.
Lemma erel_insert G E E' n p v v' :
  erel G E E' -> G !! n = Some p -> vrel p v v' -> erel G (<[n := v]> E) (<[n := v']> E').
Proof.
  intros (H1 & H2 & H3) Hn Hv. split; [by rewrite insert_length|]. split; [by rewrite insert_length|].
  intros k q x x' Hk Hx Hx'. destruct (decide (k = n)) as [->|Hne].
  - rewrite list_lookup_insert in Hx by (apply lookup_lt_Some in Hn; lia).
    rewrite list_lookup_insert in Hx' by (apply lookup_lt_Some in Hn; lia). by simplify_eq.
  - rewrite list_lookup_insert_ne in Hx by done. rewrite list_lookup_insert_ne in Hx' by done. exact (H3 k q x x' Hk Hx Hx').
Qed.
Lemma erel_take G G' E E' : erel (G ++ G') E E' -> erel G (take (length G) E) (take (length G) E').
Proof.
  intros (H1 & H2 & H3). rewrite app_length in *. split; [rewrite take_length; lia|]. split; [rewrite take_length; lia|].
  intros n p v v' Hn Hv Hv'. pose proof (lookup_lt_Some _ _ _ Hn).
  rewrite lookup_take in Hv by lia. rewrite lookup_take in Hv' by lia. apply (H3 n p v v'); [by rewrite lookup_app_l by lia|done..].
Qed.

(** ** Values *)
Section vals.
  Context (sc : bool).
  Lemma to_type_rel p t v v' x x' :
    vrel p v v' -> to_type sc t v = Ok x -> to_type sc t v' = Ok x' -> vrel p x x'.
  Proof.
    destruct p; cbn [vrel].
    - intros -> H1 H2. congruence.
    - intros Hl H1 H2. destruct v, v'; cbn in Hl; simplify_eq; try done;
        destruct t; cbn in *; repeat case_match; simplify_eq; first [done|apply like_refl].
  Qed.
  Lemma result_like t z z' x x' : result t z = Ok x -> result t z' = Ok x' -> like x x'.
  Proof. unfold result, ck32. intros H H'. destruct t; cbn in *; repeat case_match; cbn in *; by simplify_eq. Qed.
  Lemma arith_like op t a b a' b' x x' :
    arith op t a b = Ok x -> arith op t a' b' = Ok x' -> like x x'.
  Proof.
    destruct op; cbn [arith]; intros H H';
      try (by simplify_eq); try (by eapply result_like).
    - destruct (b =? 0), (b' =? 0); try done. by eapply result_like.
    - destruct (b =? 0), (b' =? 0); try done. destruct (is_signed t); [|by simplify_eq].
      apply bind_ok_inv in H as (? & ? & ?). apply bind_ok_inv in H' as (? & ? & ?). by simplify_eq.
  Qed.
  Lemma shift_like l t a b a' b' x x' :
    shift l t a b = Ok x -> shift l t a' b' = Ok x' -> like x x'.
  Proof.
    unfold shift. intros H H'. repeat case_match; try done; try (by eapply result_like); by simplify_eq.
  Qed.
  Lemma binary_like op v1 v2 v1' v2' x x' :
    like v1 v1' -> like v2 v2' -> binary sc op v1 v2 = Ok x -> binary sc op v1' v2' = Ok x' -> like x x'.
  Proof.
    intros H1 H2 Hx Hx'.
    destruct v1, v1'; cbn in H1; simplify_eq; try done;
    destruct v2, v2'; cbn in H2; simplify_eq; try done;
    cbn [binary] in *; try done; try (by simplify_eq; apply like_refl).
    1: destruct op; first [by eapply arith_like|by eapply shift_like].
    all: destruct op; try done; try (rewrite Hx in Hx'; simplify_eq; apply like_refl);
      apply bind_ok_inv in Hx as (? & ? & ?); apply bind_ok_inv in Hx' as (? & ? & ?); by simplify_eq.
  Qed.
  Lemma unary_rel op p v v' x x' :
    vrel p v v' -> unary sc op v = Ok x -> unary sc op v' = Ok x' -> vrel p x x'.
  Proof.
    destruct p; cbn [vrel]; [intros ->; congruence|].
    intros Hl H H'. destruct op; cbn in *.
    - destruct v, v'; cbn in Hl; simplify_eq; try done. by eapply result_like.
    - destruct v, v'; cbn in Hl; simplify_eq; try done.
      destruct (is_signed (promote t0)); [by simplify_eq|by eapply result_like].
    - apply bind_ok_inv in H as (? & ? & ?). apply bind_ok_inv in H' as (? & ? & ?). by simplify_eq.
  Qed.
End vals.

(** ** Memory *)
Lemma block_like m m' b cs cs' :
  same_shape m m' -> block m b = Ok cs -> block m' b = Ok cs' -> Forall2 same_kind cs cs'.
Proof.
  intros Hm. destruct b as [n|w l]; cbn.
  - intros H H'. destruct (m !! n) eqn:E1; [|done]. destruct (m' !! n) eqn:E2; [|done].
    simplify_eq. exact (Forall2_lookup_lr _ _ _ n _ _ Hm E1 E2).
  - intros. simplify_eq. apply Forall_Forall2_diag. apply Forall_forall. intros c Hc.
    destruct c; reflexivity.
Qed.
Lemma load_like cs cs' o c c' :
  Forall2 same_kind cs cs' -> load cs o = Ok c -> load cs' o = Ok c' -> same_kind c c'.
Proof.
  unfold load. intros H H1 H2. repeat case_match; simplify_eq; try done.
  eapply Forall2_lookup_lr; [exact H|eassumption..].
Qed.
Lemma of_cell_like sc t c c' v v' :
  same_kind c c' -> of_cell sc t c = Ok v -> of_cell sc t c' = Ok v' -> like v v'.
Proof.
  intros Hc H H'. destruct c, c'; cbn in Hc; simplify_eq; try done.
  - destruct t; cbn in *; try done. repeat case_match; by simplify_eq.
  - rewrite H in H'. simplify_eq. apply like_refl.
Qed.
Lemma mload_like sc m m' t b o v v' :
  same_shape m m' -> mload sc m t b o = Ok v -> mload sc m' t b o = Ok v' -> like v v'.
Proof.
  intros Hm H H'. unfold mload in *.
  apply bind_ok_inv in H as (cs & Hb & H). apply bind_ok_inv in H as (c & Hl & H).
  apply bind_ok_inv in H' as (cs' & Hb' & H'). apply bind_ok_inv in H' as (c' & Hl' & H').
  eapply of_cell_like; [|exact H|exact H']. eapply load_like; [|exact Hl|exact Hl'].
  by eapply block_like.
Qed.
Lemma to_cell_like t c c' v v' d d' :
  same_kind c c' -> like v v' -> to_cell t c v = Ok d -> to_cell t c' v' = Ok d' -> same_kind d d'.
Proof.
  intros Hc Hv H H'.
  destruct v, v'; cbn in Hv; simplify_eq; try done; destruct t; cbn in *; try done;
    destruct c as [|[]], c' as [|[]]; cbn in Hc; simplify_eq; try done; repeat case_match; by simplify_eq.
Qed.
Lemma mstore_like m m' t b o v v' m1 m1' :
  same_shape m m' -> like v v' -> mstore m t b o v = Ok m1 -> mstore m' t b o v' = Ok m1' ->
  same_shape m1 m1'.
Proof.
  intros Hm Hv H H'. destruct b as [n|]; [|done]. unfold mstore in *.
  apply bind_ok_inv in H as (cs & Hb & H). apply bind_ok_inv in H as (c & Hl & H).
  apply bind_ok_inv in H as (d & Hd & H). apply bind_ok_inv in H as (ds & Hs & H).
  apply bind_ok_inv in H' as (cs' & Hb' & H'). apply bind_ok_inv in H' as (c' & Hl' & H').
  apply bind_ok_inv in H' as (d' & Hd' & H'). apply bind_ok_inv in H' as (ds' & Hs' & H').
  simplify_eq. pose proof (block_like _ _ _ _ _ Hm Hb Hb') as Hc.
  pose proof (to_cell_like _ _ _ _ _ _ _ (load_like _ _ _ _ _ Hc Hl Hl') Hv Hd Hd') as Hk.
  apply Forall2_insert; [done|]. unfold store in *. repeat case_match; simplify_eq; try done.
  by apply Forall2_insert.
Qed.

(** ** Two runs *)
Ltac ob H := first
  [ apply bind_Some in H; let x := fresh "p" in let E := fresh "Ec" in destruct H as (x & E & H); ob H
  | idtac ].
Ltac ib1 H := apply bind_ok_inv in H; let x := fresh "x" in let E := fresh "Er" in destruct H as (x & E & H).

Section rel.
  Context {W : Type} (sc : bool)
          (ext : Z -> list val -> mem -> W -> outcome (val * mem * W)) (fuel : nat).
  Notation lst := (@st (W * trace)).

  Definition srel (G : list bool) (s s' : lst) : Prop :=
    let '(E, m, (w, t)) := s in let '(E', m', (w', t')) := s' in
    erel G E E' /\ same_shape m m' /\ t = t'.
  Definition rrel (r r' : res) : Prop :=
    match r, r' with
    | RNormal, RNormal | RBreak, RBreak => True
    | RReturn v, RReturn v' => like v v'
    | _, _ => False
    end.

  Lemma srel_note G e s s' : srel G s s' -> srel G (note e s) (note e s').
  Proof.
    destruct s as [[E m] [w t]], s' as [[E' m'] [w' t']]. intros (? & ? & ->). split; [done|]. split; done.
  Qed.
  Lemma srel_note_loc G l s s' : srel G s s' -> srel G (note_loc l s) (note_loc l s').
  Proof. destruct l; [done|apply srel_note]. Qed.
  Lemma srel_note_op G op p q v1 v2 v1' v2' s s' :
    op_ok op p q = true -> vrel p v1 v1' -> vrel q v2 v2' -> srel G s s' ->
    srel G (note_op op v1 v2 s) (note_op op v1' v2' s').
  Proof.
    intros Ho H1 H2 Hs.
    destruct op; cbn in *; try done; destruct p, q; try done; cbn in *; subst; by apply srel_note.
  Qed.
  Lemma branch_rel G v s s' c c' s1 s1' :
    srel G s s' -> lbranch v s = Ok (c, s1) -> lbranch v s' = Ok (c', s1') -> c = c' /\ srel G s1 s1'.
  Proof.
    intros Hs H H'. unfold lbranch in *. ib1 H. ib1 H'. rewrite Er in Er0. simplify_eq.
    split; [done|]. by apply srel_note.
  Qed.
  Lemma get_rel G p l s s' v v' :
    locok G p l -> srel G s s' -> get_loc sc l s = Ok v -> get_loc sc l s' = Ok v' -> vrel p v v'.
  Proof.
    destruct s as [[E m] [w t]], s' as [[E' m'] [w' t']]. intros Hl (He & Hm & ->) H H'.
    destruct l as [n ty|ty b o]; cbn in *.
    - destruct (E !! n) as [x|] eqn:E1; [|done]. destruct (E' !! n) as [x'|] eqn:E2; [|done].
      assert (v = x) as -> by (destruct x; congruence). assert (v' = x') as -> by (destruct x'; congruence).
      destruct He as (_ & _ & He). exact (He n p x x' Hl E1 E2).
    - subst p. by eapply mload_like.
  Qed.
  Lemma lget_rel G p l s s' v v' s1 s1' :
    locok G p l -> srel G s s' -> lget sc l s = Ok (v, s1) -> lget sc l s' = Ok (v', s1') ->
    vrel p v v' /\ srel G s1 s1'.
  Proof.
    intros Hl Hs H H'. unfold lget in *. ib1 H. ib1 H'. simplify_eq.
    split; [by eapply get_rel|by apply srel_note_loc].
  Qed.
  Lemma lset_rel G p l v v' s s' s1 s1' :
    locok G p l -> vrel p v v' -> srel G s s' -> lset sc l v s = Ok s1 -> lset sc l v' s' = Ok s1' ->
    srel G s1 s1'.
  Proof.
    intros Hl Hv Hs H H'. unfold lset in *. ib1 H. ib1 H'. simplify_eq. apply srel_note_loc.
    destruct s as [[E m] [w t]], s' as [[E' m'] [w' t']]. destruct Hs as (He & Hm & ->).
    destruct l as [n ty|ty b o]; cbn in Hl, Er, Er0; ib1 Er; ib1 Er0.
    - simplify_eq. split; [|done]. eapply erel_insert; [done..|]. by eapply to_type_rel.
    - ib1 Er. ib1 Er0. simplify_eq. split; [done|]. split; [|done]. eapply mstore_like; [done| |done..].
      apply (vrel_like false). by eapply to_type_rel.
  Qed.
  Lemma step_rel G p d v v' s s' x x' :
    srel G s s' -> vrel p v v' -> step_val sc d v s = Ok x -> step_val sc d v' s' = Ok x' -> vrel p x x'.
  Proof.
    intros Hs Hv H H'. pose proof (vrel_like _ _ _ Hv) as Hl.
    destruct v, v'; cbn in Hl; simplify_eq; try done; cbn [step_val] in *.
    - destruct p; cbn [vrel] in Hv |- *; [rewrite Hv in H; congruence|].
      eapply binary_like; [| |exact H|exact H']; reflexivity.
    - ib1 H. ib1 H'. simplify_eq. destruct p; reflexivity.
  Qed.
  Lemma leave_rel G D o s s' s1 s1' :
    srel G s s' -> srel (G ++ D) s1 s1' -> srel G (leave o s s1) (leave o s' s1').
  Proof.
    destruct s as [[E m] [w t]], s' as [[E' m'] [w' t']].
    destruct s1 as [[E1 m1] [w1 t1]], s1' as [[E1' m1'] [w1' t1']].
    intros (He & Hm & ->) (He1 & Hm1 & ->). cbn. destruct He as (-> & -> & _).
    split; [by eapply erel_take|]. split; [|done].
    destruct o; [|done]. rewrite (Forall2_length _ _ _ Hm). by apply Forall2_take.
  Qed.
  Lemma to_types_rel ps ts vs vs' xs xs' :
    vrels ps vs vs' -> length ts = length ps ->
    to_types sc ts vs = Ok xs -> to_types sc ts vs' = Ok xs' -> erel ps xs xs'.
  Proof.
    revert ps vs vs' xs xs'. induction ts as [|t ts IH]; intros [|p ps] vs vs' xs xs' Hv Hl H H'; try done.
    - destruct vs, vs'; try done. cbn in *. by simplify_eq.
    - destruct Hv as (H1 & H2 & H3). destruct vs as [|v vs], vs' as [|v' vs']; try done.
      cbn in H, H'. ib1 H. ib1 H. ib1 H'. ib1 H'. simplify_eq.
      assert (erel ps x0 x2) as (L1 & L2 & L3).
      { eapply IH; [|cbn in Hl; lia|exact Er0|exact Er2]. split; [cbn in *; lia|]. split; [cbn in *; lia|].
        intros n. exact (H3 (S n)). }
      split; [cbn; lia|]. split; [cbn; lia|]. intros [|n] q y y' Hq Hy Hy'.
      + cbn in *. simplify_eq. eapply to_type_rel; [|done..]. exact (H3 0%nat q v v' eq_refl eq_refl eq_refl).
      + exact (L3 n q y y' Hq Hy Hy').
  Qed.
  Lemma loop_rel G (f f' : lst -> outcome (looped lst)) :
    (forall s s' x x', srel G s s' -> f s = Ok x -> f' s' = Ok x' ->
       match x, x' with
       | Again s1, Again s1' => srel G s1 s1'
       | Done r s1, Done r' s1' => rrel r r' /\ srel G s1 s1'
       | _, _ => False
       end) ->
    forall n s s' r r' s1 s1', srel G s s' -> loop n f s = Ok (r, s1) -> loop n f' s' = Ok (r', s1') ->
    rrel r r' /\ srel G s1 s1'.
  Proof.
    intros Hf n. induction n as [|n IH]; intros s s' r r' s1 s1' Hs H H'; [done|].
    cbn in H, H'. ib1 H. ib1 H'. pose proof (Hf _ _ _ _ Hs Er Er0) as Hx.
    destruct x, x0; try done.
    - eapply IH; [exact Hx|done..].
    - by simplify_eq.
  Qed.

  Lemma ct_grow c : forall G G', ct_s G c = Some G' -> exists D, G' = G ++ D.
  Proof.
    induction c as [|a IHa b IHb| | | | | | | |x a IHa b IHb|x a IHa b IHb| | |]; intros G G' H; cbn in H; ob H;
      try (simplify_eq; exists []; by rewrite app_nil_r); try (simplify_eq; by eexists).
    - destruct (IHa _ _ Ec) as [D ->]. destruct (IHb _ _ H) as [D' ->]. exists (D ++ D'). by rewrite app_assoc.
    - case_match; simplify_eq. exists []. by rewrite app_nil_r.
    - case_match; simplify_eq. exists []. by rewrite app_nil_r.
    - case_match; simplify_eq. exists []. by rewrite app_nil_r.
    - case_match; simplify_eq. exists []. by rewrite app_nil_r.
  Qed.
  Lemma same_nil (G D : list bool) : (length (G ++ D) =? length G)%nat = true -> D = [].
  Proof. rewrite app_length. intros H%Nat.eqb_eq. destruct D; [done|cbn in H; lia]. Qed.

  Definition PE (e : expr) : Prop := forall G p s s' v v' s1 s1',
    ct_e G e = Some p -> srel G s s' ->
    leval sc ext fuel e s = Ok (v, s1) -> leval sc ext fuel e s' = Ok (v', s1') ->
    vrel p v v' /\ srel G s1 s1'.
  Definition PL (l : lval) : Prop := forall G p s s' v v' s1 s1',
    ct_l G l = Some p -> srel G s s' ->
    llvalue sc ext fuel l s = Ok (v, s1) -> llvalue sc ext fuel l s' = Ok (v', s1') ->
    v = v' /\ locok G p v /\ srel G s1 s1'.
  Definition PEs (es : exprs) : Prop := forall G ps s s' v v' s1 s1',
    ct_es G es = Some ps -> srel G s s' ->
    levals sc ext fuel es s = Ok (v, s1) -> levals sc ext fuel es s' = Ok (v', s1') ->
    vrels ps v v' /\ srel G s1 s1'.
  Definition PS (c : stmt) : Prop := forall G G' s s' r r' s1 s1',
    ct_s G c = Some G' -> srel G s s' ->
    lexec sc ext fuel c s = Ok (r, s1) -> lexec sc ext fuel c s' = Ok (r', s1') ->
    rrel r r' /\ exists D D', G' = G ++ D ++ D' /\ srel (G ++ D) s1 s1' /\ (r = RNormal -> D' = []).
  Definition PF (f : fundef) : Prop := forall ps vs vs' m m' w w' t v v' m1 m1' w1 w1' t1 t1',
    ct_f ps f = true -> vrels ps vs vs' -> same_shape m m' ->
    lcall sc ext fuel f vs m (w, t) = Ok (v, m1, (w1, t1)) ->
    lcall sc ext fuel f vs' m' (w', t) = Ok (v', m1', (w1', t1')) ->
    like v v' /\ same_shape m1 m1' /\ t1 = t1'.

  Lemma run_rel : (forall e, PE e) /\ (forall l, PL l) /\ (forall es, PEs es) /\ (forall c, PS c) /\
    (forall f, PF f).
  Proof.
    apply clang_ind; unfold PE, PL, PEs, PS, PF.
    - (* ECst *) intros t z G p s s' v v' s1 s1' Hc Hs H H'. cbn in *. simplify_eq. done.
    - (* EData *) intros t l G p s s' v v' s1 s1' Hc Hs H H'. cbn in *. simplify_eq. done.
    - (* ELv *) intros l IH G p s s' v v' s1 s1' Hc Hs H H'. cbn in *. ib1 H. ib1 H'.
      destruct x as [lc s2], x0 as [lc' s2'].
      destruct (IH _ _ _ _ _ _ _ _ Hc Hs Er Er0) as (<- & Hl & Hs2).
      by eapply lget_rel.
    - (* EAddr *) intros l IH G p s s' v v' s1 s1' Hc Hs H H'. cbn in *. ob Hc. ib1 H. ib1 H'.
      destruct x as [lc s2], x0 as [lc' s2'].
      destruct (IH _ _ _ _ _ _ _ _ Ec Hs Er Er0) as (<- & Hl & Hs2).
      destruct lc; [done|]. ib1 H. ib1 H'. simplify_eq. done.
    - (* EUn *) intros op a IH G p s s' v v' s1 s1' Hc Hs H H'. cbn in *. ib1 H. ib1 H'.
      destruct x as [x s2], x0 as [x' s2']. destruct (IH _ _ _ _ _ _ _ _ Hc Hs Er Er0) as (Hv & Hs2).
      ib1 H. ib1 H'. simplify_eq. split; [by eapply unary_rel|done].
    - (* EBin *) intros op a IHa b IHb G p s s' v v' s1 s1' Hc Hs H H'. cbn in *. ob Hc. ib1 H. ib1 H'.
      destruct x as [x s2], x0 as [x' s2']. destruct (IHa _ _ _ _ _ _ _ _ Ec Hs Er Er0) as (Hv & Hs2).
      ib1 H. ib1 H'. destruct x0 as [y s3], x1 as [y' s3'].
      destruct (IHb _ _ _ _ _ _ _ _ Ec0 Hs2 Er1 Er2) as (Hy & Hs3). ib1 H. ib1 H'.
      destruct (op_ok op p0 p1) eqn:Ho; [|done]. simplify_eq.
      split; [|by eapply srel_note_op]. apply vrel_of.
      + intros Hp. destruct p0, p1; try done. cbn in Hv, Hy. subst. congruence.
      + eapply binary_like; [| |exact Er3|exact Er4]; by eapply vrel_like.
    - (* EAnd *) intros a IHa b IHb G p s s' v v' s1 s1' Hc Hs H H'. cbn in *. ob Hc. ib1 H. ib1 H'.
      destruct p0; [|done]. simplify_eq.
      destruct x as [x s2], x0 as [x' s2']. destruct (IHa _ _ _ _ _ _ _ _ Ec Hs Er Er0) as (Hv & Hs2).
      cbn in Hv. subst x'. ib1 H. ib1 H'. destruct x0 as [c s3], x1 as [c' s3'].
      destruct (branch_rel _ _ _ _ _ _ _ _ Hs2 Er1 Er2) as [<- Hs3]. destruct c.
      + ib1 H. ib1 H'. destruct x0 as [y s4], x1 as [y' s4'].
        destruct (IHb _ _ _ _ _ _ _ _ Ec0 Hs3 Er3 Er4) as (Hy & Hs4). ib1 H. ib1 H'. simplify_eq.
        split; [|done]. destruct p; [|done]. cbn in Hy |- *. subst. congruence.
      + simplify_eq. split; [|done]. destruct p; done.
    - (* EOr *) intros a IHa b IHb G p s s' v v' s1 s1' Hc Hs H H'. cbn in *. ob Hc. ib1 H. ib1 H'.
      destruct p0; [|done]. simplify_eq.
      destruct x as [x s2], x0 as [x' s2']. destruct (IHa _ _ _ _ _ _ _ _ Ec Hs Er Er0) as (Hv & Hs2).
      cbn in Hv. subst x'. ib1 H. ib1 H'. destruct x0 as [c s3], x1 as [c' s3'].
      destruct (branch_rel _ _ _ _ _ _ _ _ Hs2 Er1 Er2) as [<- Hs3]. destruct c.
      + simplify_eq. split; [|done]. destruct p; done.
      + ib1 H. ib1 H'. destruct x0 as [y s4], x1 as [y' s4'].
        destruct (IHb _ _ _ _ _ _ _ _ Ec0 Hs3 Er3 Er4) as (Hy & Hs4). ib1 H. ib1 H'. simplify_eq.
        split; [|done]. destruct p; [|done]. cbn in Hy |- *. subst. congruence.
    - (* ECond *) intros c IHc a IHa b IHb G p s s' v v' s1 s1' Hc Hs H H'. cbn in *. ob Hc. ib1 H. ib1 H'.
      destruct p0; [|done]. simplify_eq.
      destruct x as [x s2], x0 as [x' s2']. destruct (IHc _ _ _ _ _ _ _ _ Ec Hs Er Er0) as (Hv & Hs2).
      cbn in Hv. subst x'. ib1 H. ib1 H'. destruct x0 as [k s3], x1 as [k' s3'].
      destruct (branch_rel _ _ _ _ _ _ _ _ Hs2 Er1 Er2) as [<- Hs3]. destruct k.
      + destruct (IHa _ _ _ _ _ _ _ _ Ec0 Hs3 H H') as (Hy & Hs4). split; [|done].
        eapply vrel_leq; [|exact Hy]. by destruct p1, p2.
      + destruct (IHb _ _ _ _ _ _ _ _ Ec1 Hs3 H H') as (Hy & Hs4). split; [|done].
        eapply vrel_leq; [|exact Hy]. by destruct p1, p2.
    - (* ECast *) intros t a IH G p s s' v v' s1 s1' Hc Hs H H'. cbn in *. ib1 H. ib1 H'.
      destruct x as [x s2], x0 as [x' s2']. destruct (IH _ _ _ _ _ _ _ _ Hc Hs Er Er0) as (Hv & Hs2).
      ib1 H. ib1 H'. simplify_eq. split; [by eapply to_type_rel|done].
    - (* EInc *) intros pre d l IH G p s s' v v' s1 s1' Hc Hs H H'. cbn in *. ib1 H. ib1 H'.
      destruct x as [lc s2], x0 as [lc' s2'].
      destruct (IH _ _ _ _ _ _ _ _ Hc Hs Er Er0) as (<- & Hl & Hs2).
      ib1 H. ib1 H'. destruct x as [x s3], x0 as [x' s3'].
      destruct (lget_rel _ _ _ _ _ _ _ _ _ Hl Hs2 Er1 Er2) as [Hv Hs3].
      ib1 H. ib1 H'. pose proof (step_rel _ _ _ _ _ _ _ _ _ Hs3 Hv Er3 Er4) as Hy.
      ib1 H. ib1 H'. pose proof (lset_rel _ _ _ _ _ _ _ _ _ Hl Hy Hs3 Er5 Er6) as Hs4.
      destruct pre.
      + ib1 H. ib1 H'. simplify_eq. split; [by eapply get_rel|done].
      + by simplify_eq.
    - (* ECall *) intros f IHf args IH G p s s' v v' s1 s1' Hc Hs H H'. cbn in *. ob Hc. ib1 H. ib1 H'.
      destruct x as [vs s2], x0 as [vs' s2']. destruct (IH _ _ _ _ _ _ _ _ Ec Hs Er Er0) as (Hv & Hs2).
      destruct s2 as [[E m] [w t]], s2' as [[E' m'] [w' t']]. destruct Hs2 as (He & Hm & ->).
      destruct (ct_f p0 f) eqn:Hf; [|done]. ib1 H. ib1 H'. destruct x as [[y m1] [w1 t1]], x0 as [[y' m1'] [w1' t1']].
      simplify_eq. destruct (IHf _ _ _ _ _ _ _ _ _ _ _ _ _ _ _ _ Hf Hv Hm Er1 Er2) as (Hy & Hm1 & Ht).
      done.
    - (* ECallPtr *) intros f IHf args IH G p s s' v v' s1 s1' Hc. done.
    - (* ELib *) intros f args IH G p s s' v v' s1 s1' Hc. done.
    - (* LVar *) intros n t G p s s' v v' s1 s1' Hc Hs H H'. cbn in *. by simplify_eq.
    - (* LDeref *) intros e IH G p s s' v v' s1 s1' Hc Hs H H'. cbn in *. ob Hc. ib1 H. ib1 H'.
      destruct p0; [|done]. simplify_eq.
      destruct x as [x s2], x0 as [x' s2']. destruct (IH _ _ _ _ _ _ _ _ Ec Hs Er Er0) as (Hv & Hs2).
      cbn in Hv. subst x'. ib1 H. ib1 H'. rewrite Er1 in Er2. simplify_eq. split; [done|]. split; [|done].
      destruct x; cbn in Er1; by simplify_eq.
    - (* LIndex *) intros a IHa i IHi G p s s' v v' s1 s1' Hc Hs H H'. cbn in *. ob Hc. ib1 H. ib1 H'.
      destruct p0, p1; try done. cbn in Hc. simplify_eq.
      destruct x as [x s2], x0 as [x' s2']. destruct (IHa _ _ _ _ _ _ _ _ Ec Hs Er Er0) as (Hv & Hs2).
      cbn in Hv. subst x'. ib1 H. ib1 H'. destruct x0 as [y s3], x1 as [y' s3'].
      destruct (IHi _ _ _ _ _ _ _ _ Ec0 Hs2 Er1 Er2) as (Hy & Hs3). cbn in Hy. subst y'.
      destruct y; try done. ib1 H. ib1 H'. rewrite Er3 in Er4. simplify_eq. split; [done|]. split; [|done].
      destruct x; unfold deref_at in Er3; simplify_eq; reflexivity.
    - (* LField *) intros l IH k t G p s s' v v' s1 s1' Hc Hs H H'. cbn in *. ob Hc. ib1 H. ib1 H'.
      destruct x as [lc s2], x0 as [lc' s2'].
      destruct (IH _ _ _ _ _ _ _ _ Ec Hs Er Er0) as (<- & Hl & Hs2). destruct lc; by simplify_eq.
    - (* ENil *) intros G p s s' v v' s1 s1' Hc Hs H H'. cbn in *. by simplify_eq.
    - (* ECons *) intros e IHe es IHes G p s s' v v' s1 s1' Hc Hs H H'. cbn in *. ob Hc. ib1 H. ib1 H'.
      destruct x as [x s2], x0 as [x' s2']. destruct (IHe _ _ _ _ _ _ _ _ Ec Hs Er Er0) as (Hv & Hs2).
      ib1 H. ib1 H'. destruct x0 as [y s3], x1 as [y' s3'].
      destruct (IHes _ _ _ _ _ _ _ _ Ec0 Hs2 Er1 Er2) as ((L1 & L2 & L3) & Hs3). simplify_eq.
      split; [|done]. split; [cbn; lia|]. split; [cbn; lia|].
      intros [|n] q z z' Hq Hz Hz'; cbn in *; [by simplify_eq|by eapply L3].
    - (* SSkip *) intros G G' s s' r r' s1 s1' Hc Hs H H'. cbn in *. simplify_eq.
      split; [done|]. exists [], []. by rewrite !app_nil_r.
    - (* SSeq *) intros a IHa b IHb G G' s s' r r' s1 s1' Hc Hs H H'. cbn in *. ob Hc. ib1 H. ib1 H'.
      destruct x as [x s2], x0 as [x' s2'].
      destruct (IHa _ _ _ _ _ _ _ _ Ec Hs Er Er0) as (Hr & D & D' & -> & Hs2 & Hn).
      destruct x, x'; try done.
      + rewrite (Hn eq_refl), app_nil_r in Hc.
        destruct (IHb _ _ _ _ _ _ _ _ Hc Hs2 H H') as (Hr2 & D2 & D2' & -> & Hs3 & Hn2).
        split; [done|]. exists (D ++ D2), D2'. rewrite <- !app_assoc. rewrite <- app_assoc in Hs3. done.
      + simplify_eq. split; [done|]. destruct (ct_grow _ _ _ Hc) as [D2 ->].
        exists D, (D' ++ D2). by rewrite !app_assoc.
      + simplify_eq. split; [done|]. destruct (ct_grow _ _ _ Hc) as [D2 ->].
        exists D, (D' ++ D2). by rewrite !app_assoc.
    - (* SExpr *) intros e IH G G' s s' r r' s1 s1' Hc Hs H H'. cbn in *. ob Hc. ib1 H. ib1 H'.
      destruct x as [x s2], x0 as [x' s2']. destruct (IH _ _ _ _ _ _ _ _ Ec Hs Er Er0) as (Hv & Hs2).
      simplify_eq. split; [done|]. exists [], []. by rewrite !app_nil_r.
    - (* SSet *) intros l IHl e IHe G G' s s' r r' s1 s1' Hc Hs H H'. cbn in *. ob Hc. ib1 H. ib1 H'.
      destruct x as [lc s2], x0 as [lc' s2'].
      destruct (IHl _ _ _ _ _ _ _ _ Ec Hs Er Er0) as (<- & Hl & Hs2).
      ib1 H. ib1 H'. destruct x as [x s3], x0 as [x' s3'].
      destruct (IHe _ _ _ _ _ _ _ _ Ec0 Hs2 Er1 Er2) as (Hv & Hs3).
      destruct (leq p0 p) eqn:Hq; [|done]. ib1 H. ib1 H'. simplify_eq. split; [done|]. exists [], [].
      rewrite !app_nil_r. split; [done|]. split; [|done].
      eapply lset_rel; [exact Hl|by eapply vrel_leq|exact Hs3|done..].
    - (* SOp *) intros op l IHl e IHe G G' s s' r r' s1 s1' Hc Hs H H'. cbn in *. ob Hc. ib1 H. ib1 H'.
      destruct x as [lc s2], x0 as [lc' s2'].
      destruct (IHl _ _ _ _ _ _ _ _ Ec Hs Er Er0) as (<- & Hl & Hs2).
      ib1 H. ib1 H'. destruct x as [x s3], x0 as [x' s3'].
      destruct (lget_rel _ _ _ _ _ _ _ _ _ Hl Hs2 Er1 Er2) as [Hx Hs3].
      ib1 H. ib1 H'. destruct x0 as [y s4], x1 as [y' s4'].
      destruct (IHe _ _ _ _ _ _ _ _ Ec0 Hs3 Er3 Er4) as (Hy & Hs4).
      destruct (op_ok op p p0) eqn:Ho; [|done]. destruct (leq (p && p0) p) eqn:Hq; [|done].
      ib1 H. ib1 H'. ib1 H. ib1 H'. cbn in Hc. simplify_eq. split; [done|]. exists [], [].
      rewrite !app_nil_r. split; [done|]. split; [|done].
      eapply lset_rel; [exact Hl| |by eapply srel_note_op|done..].
      eapply vrel_leq; [exact Hq|]. apply vrel_of.
      + intros Hp. destruct p, p0; try done. cbn in Hx, Hy. subst. congruence.
      + eapply binary_like; [| |exact Er5|exact Er6]; by eapply vrel_like.
    - (* SVar *) intros t G G' s s' r r' s1 s1' Hc Hs H H'. cbn in *.
      destruct s as [[E m] [w tr]], s' as [[E' m'] [w' tr']]. destruct Hs as (He & Hm & ->). simplify_eq.
      split; [done|]. exists [false], []. split; [done|]. split; [|done]. split; [|done]. by apply erel_app.
    - (* SInit *) intros t e IH G G' s s' r r' s1 s1' Hc Hs H H'. cbn in *. ob Hc. ib1 H. ib1 H'.
      destruct x as [x s2], x0 as [x' s2']. destruct (IH _ _ _ _ _ _ _ _ Ec Hs Er Er0) as (Hv & Hs2).
      ib1 H. ib1 H'. destruct s2 as [[E m] [w tr]], s2' as [[E' m'] [w' tr']]. destruct Hs2 as (He & Hm & ->).
      simplify_eq. split; [done|]. exists [p], []. split; [done|]. split; [|done]. split; [|done].
      apply erel_app; [done|]. by eapply to_type_rel.
    - (* SMem *) intros t e IH G G' s s' r r' s1 s1' Hc Hs H H'. cbn -[to_type] in *. ob Hc. ib1 H. ib1 H'.
      destruct x as [x s2], x0 as [x' s2']. destruct (IH _ _ _ _ _ _ _ _ Ec Hs Er Er0) as (Hv & Hs2).
      ib1 H. ib1 H'. destruct s2 as [[E m] [w tr]], s2' as [[E' m'] [w' tr']]. destruct Hs2 as (He & Hm & ->).
      destruct x0, x1; try done. simplify_eq. split; [done|]. exists [true], []. split; [done|].
      split; [|done]. rewrite (Forall2_length _ _ _ Hm). split; [by apply erel_app|]. split; [|done].
      apply Forall2_app; [done|]. by repeat constructor.
    - (* SArr *) intros t l G G' s s' r r' s1 s1' Hc Hs H H'. cbn in *.
      destruct s as [[E m] [w tr]], s' as [[E' m'] [w' tr']]. destruct Hs as (He & Hm & ->). simplify_eq.
      split; [done|]. exists [true], []. split; [done|]. split; [|done].
      rewrite (Forall2_length _ _ _ Hm). split; [by apply erel_app|]. split; [|done].
      apply Forall2_app; [done|]. constructor; [|constructor]. apply Forall_Forall2_diag.
      apply Forall_forall. intros c _. destruct c; reflexivity.
    - (* SIf *) intros c IHc a IHa b IHb G G' s s' r r' s1 s1' Hc Hs H H'. cbn in *. ob Hc. ib1 H. ib1 H'.
      destruct p; [|done]. destruct (length p0 =? length G)%nat eqn:L1; [|done].
      destruct (length p1 =? length G)%nat eqn:L2; [|done]. cbn in Hc. simplify_eq.
      destruct x as [x s2], x0 as [x' s2']. destruct (IHc _ _ _ _ _ _ _ _ Ec Hs Er Er0) as (Hv & Hs2).
      cbn in Hv. subst x'. ib1 H. ib1 H'. destruct x0 as [k s3], x1 as [k' s3'].
      destruct (branch_rel _ _ _ _ _ _ _ _ Hs2 Er1 Er2) as [<- Hs3]. destruct k.
      + destruct (IHa _ _ _ _ _ _ _ _ Ec0 Hs3 H H') as (Hr & D & D' & -> & Hs4 & Hn).
        apply same_nil in L1. apply app_nil in L1 as [-> ->]. split; [done|]. exists [], [].
        rewrite !app_nil_r in *. done.
      + destruct (IHb _ _ _ _ _ _ _ _ Ec1 Hs3 H H') as (Hr & D & D' & -> & Hs4 & Hn).
        apply same_nil in L2. apply app_nil in L2 as [-> ->]. split; [done|]. exists [], [].
        rewrite !app_nil_r in *. done.
    - (* SLoop *) intros c IHc st IHst b IHb G G' s s' r r' s1 s1' Hc Hs H H'. cbn in Hc. ob Hc.
      destruct p; [|done]. destruct (length p0 =? length G)%nat eqn:L1; [|done].
      destruct (length p1 =? length G)%nat eqn:L2; [|done]. cbn in Hc. injection Hc as <-.
      cbn [lexec] in H, H'.
      assert (rrel r r' /\ srel G s1 s1') as [Hr Hs1]; [|split; [done|]; exists [], []; by rewrite !app_nil_r].
      revert Hs H H'. apply loop_rel. clear s s' r r' s1 s1'. intros s s' y y' Hs H H'. ib1 H. ib1 H'.
      destruct x as [x s2], x0 as [x' s2']. destruct (IHc _ _ _ _ _ _ _ _ Ec Hs Er Er0) as (Hv & Hs2).
      cbn in Hv. subst x'. ib1 H. ib1 H'. destruct x0 as [k s3], x1 as [k' s3'].
      destruct (branch_rel _ _ _ _ _ _ _ _ Hs2 Er1 Er2) as [<- Hs3]. destruct k; [|by simplify_eq].
      ib1 H. ib1 H'. destruct x0 as [r1 s4], x1 as [r1' s4'].
      destruct (IHb _ _ _ _ _ _ _ _ Ec0 Hs3 Er3 Er4) as (Hr & D & D' & -> & Hs4 & Hn).
      apply same_nil in L1. apply app_nil in L1 as [-> ->]. rewrite app_nil_r in Hs4.
      destruct r1, r1'; try done; [|by simplify_eq..].
      ib1 H. ib1 H'. destruct x0 as [r2 s5], x1 as [r2' s5'].
      destruct (IHst _ _ _ _ _ _ _ _ Ec1 Hs4 Er5 Er6) as (Hr2 & D & D' & -> & Hs5 & Hn2).
      apply same_nil in L2. apply app_nil in L2 as [-> ->]. rewrite app_nil_r in Hs5. by simplify_eq.
    - (* SBlock *) intros o b IH G G' s s' r r' s1 s1' Hc Hs H H'. cbn in *. ob Hc. ib1 H. ib1 H'.
      destruct x as [x s2], x0 as [x' s2'].
      destruct (IH _ _ _ _ _ _ _ _ Ec Hs Er Er0) as (Hr & D & D' & -> & Hs2 & Hn).
      simplify_eq. split; [done|]. exists [], []. rewrite !app_nil_r. split; [done|]. split; [|done].
      by eapply leave_rel.
    - (* SBreak *) intros G G' s s' r r' s1 s1' Hc Hs H H'. cbn in *. simplify_eq.
      split; [done|]. exists [], []. by rewrite !app_nil_r.
    - (* SReturn *) intros e IH G G' s s' r r' s1 s1' Hc Hs H H'. cbn in *. ob Hc. ib1 H. ib1 H'.
      destruct x as [x s2], x0 as [x' s2']. destruct (IH _ _ _ _ _ _ _ _ Ec Hs Er Er0) as (Hv & Hs2).
      simplify_eq. split; [by eapply vrel_like|]. exists [], []. by rewrite !app_nil_r.
    - (* FDef *) intros ts ret b IH ps vs vs' m m' w w' t v v' m1 m1' w1 w1' t1 t1' Hc Hv Hm H H'.
      cbn in Hc. destruct (ct_s ps b) as [G'|] eqn:Hb; [|done]. apply Nat.eqb_eq in Hc.
      cbn [lcall] in H, H'. ib1 H. ib1 H'. pose proof (to_types_rel _ _ _ _ _ _ Hv Hc Er Er0) as He.
      ib1 H. ib1 H'. destruct x1 as [r [[E1 m2] [w2 t2]]], x2 as [r' [[E1' m2'] [w2' t2']]].
      assert (srel ps (x, m, (w, t)) (x0, m', (w', t))) as Hs by done.
      destruct (IH _ _ _ _ _ _ _ _ Hb Hs Er1 Er2) as (Hr & D & D' & -> & (He2 & Hm2 & ->) & Hn).
      destruct r, r'; try done.
      + destruct ret; try done. by simplify_eq.
      + ib1 H. ib1 H'. simplify_eq. split; [|done].
        apply (vrel_like false). by eapply to_type_rel.
  Qed.
End rel.
