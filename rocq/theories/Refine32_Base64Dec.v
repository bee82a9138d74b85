(** * The decoder of [base64.c] on a target with a 32-bit [size_t] *)
From Verif Require Import CSem Lib CLang C_Base64 C_Size32 Model_Base64 Refine Proof_Term
  Refine_Base64Dec Refine32_Base64.

(** the model with the sums at the narrower type *)
Lemma Base64_decode_32 inb n out mx :
  0 <= n < 2 ^ 32 ->
  Base64_decode inb n out mx
  = let! pad_bool :=
      if 0 <? n then
        if negb (n mod 4 =? 0) then Ok true
        else let! c := load inb (n - 1) in Ok (c =? 61)
      else Ok false in
    let pad_uint := if pad_bool then 1 else 0 in
    let L := u32 (u32 (u32 (u32 (n + 3) / 4) - pad_uint) * 4) in
    let out_len := u32 (u32 (u32 (L / 4) * 3) + pad_uint) in
    if (mx <? out_len) || (L =? 0) then Ok (1, out) else
    let! '(_, _, out) :=
      cwhile (S (length inb))
        (fun '(i, j, out) => i <? L)
        (fun '(i, j, out) =>
           let! b0 := load inb i in
           let! v0 := load base64_index b0 in
           let! b1 := load inb (i + 1) in
           let! v1 := load base64_index b1 in
           let! b2 := load inb (i + 2) in
           let! v2 := load base64_index b2 in
           let! b3 := load inb (i + 3) in
           let! v3 := load base64_index b3 in
           let n := Z.lor (Z.lor (Z.lor (u32 (Z.shiftl v0 18)) (u32 (Z.shiftl v1 12)))
                                 (u32 (Z.shiftl v2 6))) v3 in
           let! out := store out j (u8 (Z.shiftr n 16)) in
           let! out := store out (j + 1) (u8 (Z.land (Z.shiftr n 8) 255)) in
           let! out := store out (j + 2) (u8 (Z.land n 255)) in
           Ok (Next (u32 (i + 4), j + 3, out)))
        (0, 0, out) in
    if pad_bool then
      let! b0 := load inb L in
      let! v0 := load base64_index b0 in
      let! b1 := load inb (L + 1) in
      let! v1 := load base64_index b1 in
      let n' := Z.lor (u32 (Z.shiftl v0 18)) (u32 (Z.shiftl v1 12)) in
      let! out := store out (out_len - 1) (u8 (Z.shiftr n' 16)) in
      let! third :=
        if u32 (L + 2) <? n then
          let! b2 := load inb (L + 2) in Ok (negb (b2 =? 61))
        else Ok false in
      if third then
        if mx <? u32 (out_len + 1) then Ok (1, out)
        else
          let! b2 := load inb (L + 2) in
          let! v2 := load base64_index b2 in
          let n' := Z.lor n' (u32 (Z.shiftl v2 6)) in
          let! out := store out out_len (u8 (Z.land (Z.shiftr n' 8) 255)) in
          Ok (0, out)
      else Ok (0, out)
    else Ok (0, out).
Proof.
  intros Hn. unfold Base64_decode. cbv zeta.
  destruct (if 0 <? n then _ else _) as [pad| |] eqn:Ep; [|done..]. cbn [bind].
  assert (pad = false -> n mod 4 = 0 /\ n <= 2 ^ 32 - 4) as Hp0.
  { intros ->. destruct (Z.ltb_spec 0 n); [|lia]. destruct (Z.eqb_spec (n mod 4) 0); [lia|done]. }
  assert (pad = true -> 1 <= n) as Hp1.
  { intros ->. destruct (Z.ltb_spec 0 n); [lia|done]. }
  clear Ep. set (q := if pad then 1 else 0).
  assert (q = 0 /\ pad = false \/ q = 1 /\ pad = true) as Hq by (subst q; destruct pad; auto).
  assert (0 <= q <= 1) as Hq01 by (subst q; destruct pad; lia).
  rewrite (u32_small (u32 (n + 3) / 4)) by (pose proof (u32_range (n + 3)); lia).
  assert (u32 (u32 (u32 (n + 3) / 4 - q) * 4) = u64 (u64 (u64 (n + 3) / 4 - q) * 4)) as ->.
  { destruct (Z.le_gt_cases n (2 ^ 32 - 4)) as [Hs|Hs].
    - rewrite (u32_small (n + 3)), (u64_small (n + 3)) by lia.
      assert (q <= (n + 3) / 4) by (destruct Hq as [[-> ?]|[-> ?]]; [|specialize (Hp1 ltac:(done))]; lia).
      rewrite (u32_small (_ - q)), (u64_small (_ - q)), u32_small, u64_small by lia. done.
    - destruct Hq as [[_ Hf]|[-> _]]; [specialize (Hp0 Hf); lia|].
      assert (u32 (n + 3) = n + 3 - 2 ^ 32) as -> by (unfold u32; lia).
      replace ((n + 3 - 2 ^ 32) / 4) with 0 by lia. rewrite (u64_small (n + 3)) by lia.
      replace ((n + 3) / 4) with (2 ^ 30) by lia. done. }
  set (L := u64 (u64 (u64 (n + 3) / 4 - q) * 4)).
  assert (0 <= L <= 2 ^ 32 - 4 /\ L mod 4 = 0) as HL.
  { subst L. rewrite (u64_small (n + 3)) by lia.
    assert (q <= (n + 3) / 4 /\ (n + 3) / 4 - q < 2 ^ 30) as Hb.
    { destruct Hq as [[-> Hf]|[-> Hf]]; [specialize (Hp0 Hf)|specialize (Hp1 Hf)]; lia. }
    generalize dependent ((n + 3) / 4). clear -Hq01. intros x Hb.
    rewrite (u64_small (x - q)), u64_small by lia. lia. }
  clearbody L. rewrite (u32_small (L / 4)), (u64_small (L / 4 * 3)), (u32_small (L / 4 * 3)) by lia.
  rewrite (u64_small (_ + q)), (u32_small (_ + q)) by lia.
  rewrite (u64_small (L + 2)), (u32_small (L + 2)) by lia.
  rewrite (u64_small (_ + q + 1)), (u32_small (_ + q + 1)) by lia.
  clearbody q. destruct (_ || _); [done|].
  apply (cwhile_agree (fun '(i, j, o) => 0 <= i <= L /\ i mod 4 = 0) (fun '(i, j, o) => True)); [| | | | | |].
  - lia.
  - by intros [[i j] o].
  - intros [[i j] o] (Hi & Hm) Hc. rewrite u64_small, u32_small by lia. done.
  - intros [[i j] o] [[i' j'] o'] (Hi & Hm) Hc Eb.
    repeat lazymatch type of Eb with bind _ _ = _ => apply bind_ok_inv in Eb as (? & _ & Eb) end.
    injection Eb as <- <- <-. rewrite u64_small by lia. lia.
  - by intros [[i j] o] [[i' j'] o'].
  - by intros [[i j] o].
  - by intros [[i j] o].
Qed.

Section base64.
  Context {W : Type} (sc : bool)
          (ext : Z -> list val -> mem -> W -> outcome (val * mem * W)) (fuel : nat).
  Local Notation run f := (call sc ext fuel f).
  Implicit Types (m : mem) (w : W) (o : list Z).

  Lemma ref32_decode m w bi d n bo o mx :
    m !! bi = Some (ints 8 d) -> m !! bo = Some (ints 8 o) -> bi <> bo -> bytes d ->
    is_u32 n -> is_u32 mx -> (length d < fuel)%nat ->
    run c32_Base64_decode [VPtr (TInt IChar) (BObj bi) 0; VInt U32 n; VPtr (TInt U8) (BObj bo) 0;
                         VInt U32 mx] m w
    = let! '(s, o) := Base64_decode d n o mx in Ok (VInt I32 s, <[bo := ints 8 o]> m, w).
  Proof.
    intros Hd Ho Hne Hbd Hn Hmx Hf. pose proof (decode_nd d n o mx) as Hnd.
    pose proof index_bytes as Ht. rewrite Base64_decode_32 in * by done. revert Hnd.
    unfold c32_Base64_decode. cbv zeta. intros Hnd. bounds.
    change c_Base64_decode_base64_index with base64_index.
    go_to_and.
    lazymatch goal with
    | |- bind (eval _ _ _ ?e ?s) _ = bind (bind ?M _) _ =>
        assert (eval sc ext fuel e s = let! p := M in Ok (VInt I32 (b2z p), s)) as ->
    end.
    { rewrite <- (bind_ret (eval _ _ _ _ _)). go. }
    rewrite !bind_assoc. revert Hnd.
    destruct (if 0 <? n then _ else _) as [pad| |]; [|done..]. cbn [bind]. intros Hnd.
    destruct pad; go.
    all: try (cbn [bind]; by rewrite list_insert_id).
    all: cbn [b2z].
    all: match goal with |- context [VInt IBool ?bz :: VInt U32 ?q :: _] =>
      set (L := u32 (u32 (u32 (u32 (n + 3) / 4) - q) * 4)) in *;
      set (OL := u32 (u32 (u32 (L / 4) * 3) + q)) in *;
      assert (0 <= L < 2 ^ 32 /\ L mod 4 = 0) as HL
        by (subst L; generalize (u32 (u32 (n + 3) / 4) - q); intros x; unfold u32; lia);
      assert (OL = L / 4 * 3 + q) as HO by (subst OL; unfold u32; lia);
      clearbody OL L;
      sim_while (fun '(i, j, o) =>
          ([VPtr (TInt IChar) (BObj bi) 0; VInt U32 n; VPtr (TInt U8) (BObj bo) 0; VInt U32 mx;
            VInt I32 0; VPtr (TInt U8) (BObj bi) 0; VInt IBool bz; VInt U32 q; VInt U32 L;
            VInt U32 OL; VInt U32 j; VInt U32 i], <[bo := ints 8 o]> m, w))
        (fun '(i, j, o) =>
          ([VPtr (TInt IChar) (BObj bi) 0; VInt U32 n; VPtr (TInt U8) (BObj bo) 0; VInt U32 mx;
            VInt I32 0; VPtr (TInt U8) (BObj bi) 0; VInt IBool bz; VInt U32 q; VInt U32 L;
            VInt U32 OL; VInt U32 j; VInt U32 i], <[bo := ints 8 o]> m, w))
        (fun '(i, j, o) => 0 <= i <= L /\ i mod 4 = 0 /\ 0 <= j <= i)
      end.
    all: lazymatch goal with
    | |- forall s, _ -> _ -> _ => idtac
    | |- forall s s', _ -> _ -> _ -> _ => idtac
    | |- _ => try (by rewrite list_insert_id); try lia; try (intros E; apply Hnd; rewrite E; done)
    end.
    - intros [[i j] o'] (Hi & Hi4 & Hj) Hc. go_body.
    - intros [[i j] o'] (Hi & Hi4 & Hj) Hc. go_body.
    - intros [[i j] o'] [[i' j'] o''] (Hi & Hi4 & Hj) Hc E. cbv beta iota in E.
      apply Z.ltb_lt in Hc.
      repeat lazymatch type of E with bind _ _ = _ => apply bind_ok_inv in E as (? & _ & E) end.
      injection E as <- <- <-. rewrite u32_small by lia. lia.
    - clear Hnd. both. go.
    - intros [[i j] o'] (Hi & Hi4 & Hj) Hc. go_body.
    - intros [[i j] o'] (Hi & Hi4 & Hj) Hc. go_body.
    - intros [[i j] o'] [[i' j'] o''] (Hi & Hi4 & Hj) Hc E. cbv beta iota in E.
      apply Z.ltb_lt in Hc.
      repeat lazymatch type of E with bind _ _ = _ => apply bind_ok_inv in E as (? & _ & E) end.
      injection E as <- <- <-. rewrite u32_small by lia. lia.
    - clear Hnd. both. go.
  Qed.
End base64.
