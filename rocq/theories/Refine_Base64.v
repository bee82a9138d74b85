(** * The hand-written model of base64.c against the C text *)
From Verif Require Import CSem Lib CLang C_Base64 Model_Base64 Refine Proof_Term.

Section base64.
  Context {W : Type} (sc : bool)
          (ext : Z -> list val -> mem -> W -> outcome (val * mem * W)) (fuel : nat).
  Local Notation run f := (call sc ext fuel f).
  Implicit Types (m : mem) (w : W) (o : list Z).

  Lemma table_bytes : bytes base64_table.
  Proof. unfold bytes, base64_table. repeat constructor; unfold is_byte; lia. Qed.

  Lemma ref_encode m w bd d n br r mx :
    m !! bd = Some (ints 8 d) -> m !! br = Some (ints 8 r) -> bd <> br -> bytes d ->
    is_u64 n -> is_u64 mx -> (length d < fuel)%nat ->
    run c_Base64_encode [VPtr (TInt IChar) (BObj bd) 0; VInt U64 n; VPtr (TInt IChar) (BObj br) 0;
                         VInt U64 mx] m w
    = let! '(s, r) := Base64_encode d n r mx in Ok (VInt I32 s, <[br := ints 8 r]> m, w).
  Proof.
    intros Hd Hr Hne Hbd Hn Hmx Hf. pose proof (encode_nd d n r mx) as Hnd.
    pose proof table_bytes as Ht. revert Hnd.
    unfold c_Base64_encode, Base64_encode. cbv zeta. intros Hnd. bounds. pose proof (len_nonneg r).
    change c_Base64_encode_base64_table with base64_table.
    go.
    { cbn [bind]. by rewrite list_insert_id. }
    set (L := u64 (4 * (u64 (n + 2) / 3))) in *.
    sim_while (fun '(s, cl, ip, i, p, r) =>
        ([VPtr (TInt IChar) (BObj bd) 0; VInt U64 n; VPtr (TInt IChar) (BObj br) 0; VInt U64 mx;
          VInt I32 s; VPtr (TInt U8) (BObj br) 0; VPtr (TInt U8) (BObj bd) i; VInt U64 L;
          VInt U64 cl; VInt U64 ip; VPtr (TInt U8) (BObj br) p], <[br := ints 8 r]> m, w))
      (fun '(s, cl, ip, i, p, r) =>
        ([VPtr (TInt IChar) (BObj bd) 0; VInt U64 n; VPtr (TInt IChar) (BObj br) 0; VInt U64 mx;
          VInt I32 s; VPtr (TInt U8) (BObj br) 0; VPtr (TInt U8) (BObj bd) i; VInt U64 L;
          VInt U64 cl; VInt U64 ip; VPtr (TInt U8) (BObj br) p], <[br := ints 8 r]> m, w))
      (fun '(s, cl, ip, i, p, r) => s = 0 /\ 0 <= i).
    - by rewrite list_insert_id.
    - done.
    - lia.
    - intros E. apply Hnd. rewrite E. done.
    - intros [[[[[s cl] ip] i] p] r'] [-> Hi] Hc. go_body.
    - intros [[[[[s cl] ip] i] p] r'] [-> Hi] Hc. go_body.
    - intros [[[[[s cl] ip] i] p] r'] [[[[[s' cl'] ip'] i'] p'] r''] [-> Hi] Hc E.
      cbv beta iota in E. destruct (mx <? _); [done|].
      repeat lazymatch type of E with bind _ _ = _ => apply bind_ok_inv in E as (? & _ & E) end.
      injection E as <- <- <- <- <- <-. lia.
    - clear Hnd. both. go. all: cbn [bind]; go.
  Qed.
End base64.
