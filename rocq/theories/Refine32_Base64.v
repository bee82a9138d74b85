(** * [base64.c] on a target with a 32-bit [size_t] *)
From Verif Require Import CSem Lib CLang C_Base64 C_Size32 Model_Base64 Refine Proof_Term
  Refine_Base64 Refine_Base64Dec.

(** two loops that agree where an invariant holds *)
Lemma cwhile_agree {S R} (P Q : S -> Prop) fuel (c1 c2 : S -> bool) (b1 b2 : S -> outcome (ctl S)) s
    (k1 k2 : S -> outcome R) :
  P s -> (forall s, P s -> c1 s = c2 s) -> (forall s, P s -> c1 s = true -> b1 s = b2 s) ->
  (forall s t, P s -> c1 s = true -> b1 s = Ok (Next t) -> P t) ->
  (forall s t, P s -> c1 s = true -> b1 s = Ok (Break t) -> Q t) ->
  (forall s, P s -> c1 s = false -> Q s) -> (forall s, Q s -> k1 s = k2 s) ->
  bind (cwhile fuel c1 b1 s) k1 = bind (cwhile fuel c2 b2 s) k2.
Proof.
  intros HP Hc Hb Hn Hbr He Hk.
  assert (cwhile fuel c1 b1 s = cwhile fuel c2 b2 s) as E.
  { clear Hbr He Hk. revert s HP. induction fuel as [|fuel IH]; intros s HP; cbn [cwhile].
    - done.
    - rewrite <- (Hc s HP). destruct (c1 s) eqn:Ec; [|done]. rewrite <- (Hb s HP Ec).
      destruct (b1 s) as [[t|t]| |] eqn:E; cbn [bind]; try done. apply IH. by eapply Hn. }
  rewrite <- E. destruct (cwhile fuel c1 b1 s) as [t| |] eqn:Et; cbn [bind]; try done.
  apply Hk. exact (cwhile_inv P Q _ _ _ _ _ Et HP Hn Hbr He).
Qed.

(** the model of the encoder with the sums at the narrower type *)
Lemma Base64_encode_32 data n result mx :
  0 <= n < 3 * 2 ^ 30 - 2 ->
  Base64_encode data n result mx
  = let L := u32 (4 * u32 (u32 (n + 2) / 3)) in
    if L <? n then Ok (1, result) else
    let! '(success, current_length, in_position, inp, pos, result) :=
      cwhile (S (length data))
        (fun '(success, current_length, in_position, inp, pos, result) =>
           3 <=? u32 (n - in_position))
        (fun '(success, current_length, in_position, inp, pos, result) =>
           let current_length := u32 (current_length + 4) in
           if mx <? current_length then
             Ok (Break (1, current_length, in_position, inp, pos, result))
           else
             let! in0 := load data inp in
             let! c := load base64_table (Z.shiftr in0 2) in
             let! result := store result pos c in
             let! in1 := load data (inp + 1) in
             let! c := load base64_table
                         (Z.lor (Z.shiftl (Z.land in0 3) 4) (Z.shiftr in1 4)) in
             let! result := store result (pos + 1) c in
             let! in2 := load data (inp + 2) in
             let! c := load base64_table
                         (Z.lor (Z.shiftl (Z.land in1 15) 2) (Z.shiftr in2 6)) in
             let! result := store result (pos + 2) c in
             let! c := load base64_table (Z.land in2 63) in
             let! result := store result (pos + 3) c in
             Ok (Next (success, current_length, u32 (in_position + 3), inp + 3, pos + 4,
                       result)))
        (0, 0, 0, 0, 0, result) in
    let! '(success, pos, result) :=
      if (success =? 0) && negb (u32 (n - in_position) =? 0) then
        let current_length := u32 (current_length + 4) in
        if mx <? current_length then Ok (1, pos, result)
        else
          let! in0 := load data inp in
          let! c := load base64_table (Z.shiftr in0 2) in
          let! result := store result pos c in
          let pos := pos + 1 in
          let! '(pos, result) :=
            if u32 (n - in_position) =? 1 then
              let! c := load base64_table (Z.shiftl (Z.land in0 3) 4) in
              let! result := store result pos c in
              let! result := store result (pos + 1) 61 in
              Ok (pos + 2, result)
            else
              let! in1 := load data (inp + 1) in
              let! c := load base64_table
                          (Z.lor (Z.shiftl (Z.land in0 3) 4) (Z.shiftr in1 4)) in
              let! result := store result pos c in
              let! c := load base64_table (Z.shiftl (Z.land in1 15) 2) in
              let! result := store result (pos + 1) c in
              Ok (pos + 2, result) in
          let! result := store result pos 61 in
          Ok (success, pos + 1, result)
      else Ok (success, pos, result) in
    let! result := store result pos 0 in
    Ok (success, result).
Proof.
  intros Hn. unfold Base64_encode. cbv zeta.
  rewrite (u64_small (n + 2)), (u32_small (n + 2)) by lia.
  rewrite (u32_small ((n + 2) / 3)), (u64_small (4 * _)), (u32_small (4 * _)) by lia.
  destruct (_ <? n) eqn:E; [done|].
  apply (cwhile_agree
    (fun '(s, cl, ip, i, p, r) => s = 0 /\ 0 <= ip <= n /\ ip mod 3 = 0 /\ cl = 4 * (ip / 3))
    (fun '(s, cl, ip, i, p, r) => 0 <= ip <= n /\ (s = 0 -> ip mod 3 = 0 /\ cl = 4 * (ip / 3)))).
  - lia.
  - intros [[[[[s cl] ip] i] p] r] (-> & Hip & Hm & ->). by rewrite u64_small, u32_small by lia.
  - intros [[[[[s cl] ip] i] p] r] (-> & Hip & Hm & ->) Hc. rewrite u64_small in Hc by lia.
    rewrite !u64_small, !u32_small by lia. done.
  - intros [[[[[s cl] ip] i] p] r] [[[[[s' cl'] ip'] i'] p'] r'] (-> & Hip & Hm & ->) Hc Eb.
    rewrite u64_small in Hc by lia. rewrite !u64_small in Eb by lia.
    destruct (mx <? _); [done|].
    repeat lazymatch type of Eb with bind _ _ = _ => apply bind_ok_inv in Eb as (? & _ & Eb) end.
    injection Eb as <- <- <- <- <- <-. lia.
  - intros [[[[[s cl] ip] i] p] r] [[[[[s' cl'] ip'] i'] p'] r'] (-> & Hip & Hm & ->) Hc Eb.
    rewrite u64_small in Hc by lia. rewrite !u64_small in Eb by lia.
    destruct (mx <? _); [injection Eb as <- <- <- <- <- <-; lia|].
    by repeat lazymatch type of Eb with bind _ _ = _ => apply bind_ok_inv in Eb as (? & _ & Eb) end.
  - intros [[[[[s cl] ip] i] p] r] (-> & Hip & Hm & ->) Hc. lia.
  - intros [[[[[s cl] ip] i] p] r] (Hip & Hs).
    rewrite (u64_small (n - ip)), (u32_small (n - ip)) by lia.
    destruct (s =? 0) eqn:Es; [|done]. destruct (n - ip =? 0) eqn:Ez; [done|].
    rewrite (u64_small (cl + 4)), (u32_small (cl + 4)) by lia. done.
Qed.

Section base64.
  Context {W : Type} (sc : bool)
          (ext : Z -> list val -> mem -> W -> outcome (val * mem * W)) (fuel : nat).
  Local Notation run f := (call sc ext fuel f).
  Implicit Types (m : mem) (w : W) (o : list Z).

  Lemma ref32_encode_long m w bd d n br r mx :
    m !! bd = Some (ints 8 d) -> m !! br = Some (ints 8 r) ->
    3 * 2 ^ 30 - 2 <= n < 2 ^ 32 -> is_u32 mx ->
    run c32_Base64_encode [VPtr (TInt IChar) (BObj bd) 0; VInt U32 n; VPtr (TInt IChar) (BObj br) 0;
                         VInt U32 mx] m w
    = Ok (VInt I32 1, m, w).
  Proof.
    intros Hd Hr Hn Hmx. unfold c32_Base64_encode. bounds.
    assert (u32 (4 * (u32 (n + 2) / 3)) <? n = true) as Hl by (unfold u32; lia).
    go. all: exfalso; unfold u32 in *; lia.
  Qed.
  Lemma ref32_encode m w bd d n br r mx :
    m !! bd = Some (ints 8 d) -> m !! br = Some (ints 8 r) -> bd <> br -> bytes d ->
    0 <= n < 3 * 2 ^ 30 - 2 -> is_u32 mx -> (length d < fuel)%nat ->
    run c32_Base64_encode [VPtr (TInt IChar) (BObj bd) 0; VInt U32 n; VPtr (TInt IChar) (BObj br) 0;
                         VInt U32 mx] m w
    = let! '(s, r) := Base64_encode d n r mx in Ok (VInt I32 s, <[br := ints 8 r]> m, w).
  Proof.
    intros Hd Hr Hne Hbd Hn Hmx Hf. pose proof (encode_nd d n r mx) as Hnd.
    pose proof table_bytes as Ht. rewrite Base64_encode_32 in * by done. revert Hnd.
    unfold c32_Base64_encode. cbv zeta. intros Hnd. bounds. pose proof (len_nonneg r).
    change c_Base64_encode_base64_table with base64_table.
    go.
    set (L := u32 (4 * u32 (u32 (n + 2) / 3))) in *.
    sim_while (fun '(s, cl, ip, i, p, r) =>
        ([VPtr (TInt IChar) (BObj bd) 0; VInt U32 n; VPtr (TInt IChar) (BObj br) 0; VInt U32 mx;
          VInt I32 s; VPtr (TInt U8) (BObj br) 0; VPtr (TInt U8) (BObj bd) i; VInt U32 L;
          VInt U32 cl; VInt U32 ip; VPtr (TInt U8) (BObj br) p], <[br := ints 8 r]> m, w))
      (fun '(s, cl, ip, i, p, r) =>
        ([VPtr (TInt IChar) (BObj bd) 0; VInt U32 n; VPtr (TInt IChar) (BObj br) 0; VInt U32 mx;
          VInt I32 s; VPtr (TInt U8) (BObj br) 0; VPtr (TInt U8) (BObj bd) i; VInt U32 L;
          VInt U32 cl; VInt U32 ip; VPtr (TInt U8) (BObj br) p], <[br := ints 8 r]> m, w))
      (fun '(s, cl, ip, i, p, r) => s = 0 /\ 0 <= i).
    - by rewrite list_insert_id.
    - done.
    - lia.
    - intros E. apply Hnd. rewrite E. done.
    - intros [[[[[s cl] ip] i] p] r'] [-> Hi] Hc. go_body.
    - intros [[[[[s cl] ip] i] p] r'] [-> Hi] Hc. go_body.
    - intros [[[[[s cl] ip] i] p] r'] [[[[[s' cl'] ip'] i'] p'] r''] [-> Hi] Hc E.
      cbv beta iota in E. destruct (mx <? _); [done|].
      repeat lazymatch type of E with bind _ _ = _ => apply bind_ok_inv in E as (? & _ & E) end.
      injection E as <- <- <- <- <- <-. lia.
    - clear Hnd. both. go. all: cbn [bind]; go.
  Qed.
End base64.
