(** * The hand-written model of the decoder of base64.c against the C text *)
From Verif Require Import CSem Lib CLang C_Base64 Model_Base64 Refine Proof_Term.

(** run up to the next [&&] *)
Ltac go_to_and :=
  lazymatch goal with
  | |- bind (eval _ _ _ (EAnd _ _) _) _ = _ => idtac
  | _ => go1; go_to_and
  end.

Section base64.
  Context {W : Type} (sc : bool)
          (ext : Z -> list val -> mem -> W -> outcome (val * mem * W)) (fuel : nat).
  Local Notation run f := (call sc ext fuel f).
  Implicit Types (m : mem) (w : W) (o : list Z).

  Lemma index_bytes : bytes base64_index.
  Proof. unfold bytes, base64_index. repeat constructor; unfold is_byte; lia. Qed.

  Lemma ref_decode m w bi d n bo o mx :
    m !! bi = Some (ints 8 d) -> m !! bo = Some (ints 8 o) -> bi <> bo -> bytes d ->
    is_u64 n -> is_u64 mx -> (length d < fuel)%nat ->
    run c_Base64_decode [VPtr (TInt IChar) (BObj bi) 0; VInt U64 n; VPtr (TInt U8) (BObj bo) 0;
                         VInt U64 mx] m w
    = let! '(s, o) := Base64_decode d n o mx in Ok (VInt I32 s, <[bo := ints 8 o]> m, w).
  Proof.
    intros Hd Ho Hne Hbd Hn Hmx Hf. pose proof (decode_nd d n o mx) as Hnd.
    pose proof index_bytes as Ht. revert Hnd.
    unfold c_Base64_decode, Base64_decode. cbv zeta. intros Hnd. bounds.
    change c_Base64_decode_base64_index with base64_index.
    go_to_and.
    lazymatch goal with
    | |- bind (eval _ _ _ ?e ?s) _ = bind (bind ?M _) _ =>
        assert (eval sc ext fuel e s = let! p := M in Ok (VInt I32 (b2z p), s)) as ->
    end.
    { rewrite <- (bind_ret (eval _ _ _ _ _)). go. }
    rewrite !bind_assoc. revert Hnd.
    destruct (if 0 <? n then _ else _) as [pad| |]; [|done..]. cbn [bind]. intros Hnd.
    destruct pad; go.
    all: try (cbn [bind]; by rewrite list_insert_id).
    all: cbn [b2z].
    all: match goal with |- context [VInt IBool ?bz :: VInt U32 ?q :: _] =>
      set (L := u64 (u64 (u64 (n + 3) / 4 - q) * 4)) in *;
      set (OL := u64 (u64 (L / 4 * 3) + q)) in *;
      assert (0 <= L < 2 ^ 64 /\ L mod 4 = 0) as HL
        by (subst L; generalize (u64 (n + 3) / 4 - q); intros x; unfold u64; lia);
      assert (OL = L / 4 * 3 + q) as HO by (subst OL; unfold u64; lia);
      clearbody OL L;
      sim_while (fun '(i, j, o) =>
          ([VPtr (TInt IChar) (BObj bi) 0; VInt U64 n; VPtr (TInt U8) (BObj bo) 0; VInt U64 mx;
            VInt I32 0; VPtr (TInt U8) (BObj bi) 0; VInt IBool bz; VInt U32 q; VInt U64 L;
            VInt U64 OL; VInt U64 j; VInt U64 i], <[bo := ints 8 o]> m, w))
        (fun '(i, j, o) =>
          ([VPtr (TInt IChar) (BObj bi) 0; VInt U64 n; VPtr (TInt U8) (BObj bo) 0; VInt U64 mx;
            VInt I32 0; VPtr (TInt U8) (BObj bi) 0; VInt IBool bz; VInt U32 q; VInt U64 L;
            VInt U64 OL; VInt U64 j; VInt U64 i], <[bo := ints 8 o]> m, w))
        (fun '(i, j, o) => 0 <= i <= L /\ i mod 4 = 0 /\ 0 <= j <= i)
      end.
    - by rewrite list_insert_id.
    - lia.
    - lia.
    - intros E. apply Hnd. rewrite E. done.
    - intros [[i j] o'] (Hi & Hi4 & Hj) Hc. go_body.
    - intros [[i j] o'] (Hi & Hi4 & Hj) Hc. go_body.
    - intros [[i j] o'] [[i' j'] o''] (Hi & Hi4 & Hj) Hc E. cbv beta iota in E.
      apply Z.ltb_lt in Hc.
      repeat lazymatch type of E with bind _ _ = _ => apply bind_ok_inv in E as (? & _ & E) end.
      injection E as <- <- <-. rewrite u64_small by lia. lia.
    - clear Hnd. both. go.
    - by rewrite list_insert_id.
    - lia.
    - lia.
    - intros E. apply Hnd. rewrite E. done.
    - intros [[i j] o'] (Hi & Hi4 & Hj) Hc. go_body.
    - intros [[i j] o'] (Hi & Hi4 & Hj) Hc. go_body.
    - intros [[i j] o'] [[i' j'] o''] (Hi & Hi4 & Hj) Hc E. cbv beta iota in E.
      apply Z.ltb_lt in Hc.
      repeat lazymatch type of E with bind _ _ = _ => apply bind_ok_inv in E as (? & _ & E) end.
      injection E as <- <- <-. rewrite u64_small by lia. lia.
    - clear Hnd. both. go.
  Qed.
End base64.
