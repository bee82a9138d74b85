(** * The hand-written model of utils.c and bit_manipulation.c against the C text *)
From Verif Require Import CSem Lib CLang C_Utils Model_Utils Proof_Term Refine.

Lemma land_255 x : u8 (Z.land (u8 x) 255) = Z.land (u8 x) 255.
Proof.
  change 255 with (Z.ones 8). rewrite Z.land_ones by lia. unfold u8. change (2 ^ 8) with 256. lia.
Qed.
Lemma byte_of_cast v k : u8 (Z.land (u8 (Z.shiftr v k)) 255) = byte_of v k.
Proof. apply land_255. Qed.
Lemma byte_of_cast0 v : u8 (Z.land (u8 v) 255) = byte_of v 0.
Proof. unfold byte_of. rewrite Z.shiftr_0_r. apply land_255. Qed.
Lemma byte_of_8 v : is_byte v -> u8 (Z.land v 255) = byte_of v 0.
Proof. intros H. rewrite <- byte_of_cast0. rewrite (u8_small v) by (unfold is_byte in H; lia). done. Qed.

Ltac val_eq ::=
  first [reflexivity | lia | apply byte_of_cast | apply byte_of_cast0 | apply byte_of_8; done | rng].

Section utils.
  Context {W : Type} (sc : bool)
          (ext : Z -> list val -> mem -> W -> outcome (val * mem * W)) (fuel : nat).
  Local Notation run f := (call sc ext fuel f).
  Local Notation at8 b p := (VPtr (TInt U8) (BObj b) p).
  Implicit Types (m : mem) (w : W) (o : list Z).

  Lemma ref_serialize8 m w b o p v : m !! b = Some (ints 8 o) -> is_byte v ->
    run c_Utils_serialize8 [at8 b p; VInt U8 v] m w
    = let! o' := Utils_serialize8 o p v in Ok (VUndef, <[b := ints 8 o']> m, w).
  Proof. intros. unfold c_Utils_serialize8, Utils_serialize8. go. Qed.
  Lemma ref_serialize16BE m w b o p v : m !! b = Some (ints 8 o) ->
    run c_Utils_serialize16BE [at8 b p; VInt U16 v] m w
    = let! o' := Utils_serialize16BE o p v in Ok (VUndef, <[b := ints 8 o']> m, w).
  Proof. intros. unfold c_Utils_serialize16BE, Utils_serialize16BE. go. Qed.
  Lemma ref_serialize24BE m w b o p v : m !! b = Some (ints 8 o) ->
    run c_Utils_serialize24BE [at8 b p; VInt U32 v] m w
    = let! o' := Utils_serialize24BE o p v in Ok (VUndef, <[b := ints 8 o']> m, w).
  Proof. intros. unfold c_Utils_serialize24BE, Utils_serialize24BE. go. Qed.
  Lemma ref_serialize32BE m w b o p v : m !! b = Some (ints 8 o) ->
    run c_Utils_serialize32BE [at8 b p; VInt U32 v] m w
    = let! o' := Utils_serialize32BE o p v in Ok (VUndef, <[b := ints 8 o']> m, w).
  Proof. intros. unfold c_Utils_serialize32BE, Utils_serialize32BE. go. Qed.
  Lemma ref_serialize16LE m w b o p v : m !! b = Some (ints 8 o) ->
    run c_Utils_serialize16LE [at8 b p; VInt U16 v] m w
    = let! o' := Utils_serialize16LE o p v in Ok (VUndef, <[b := ints 8 o']> m, w).
  Proof. intros. unfold c_Utils_serialize16LE, Utils_serialize16LE. go. Qed.
  Lemma ref_serialize24LE m w b o p v : m !! b = Some (ints 8 o) ->
    run c_Utils_serialize24LE [at8 b p; VInt U32 v] m w
    = let! o' := Utils_serialize24LE o p v in Ok (VUndef, <[b := ints 8 o']> m, w).
  Proof. intros. unfold c_Utils_serialize24LE, Utils_serialize24LE. go. Qed.
  Lemma ref_serialize32LE m w b o p v : m !! b = Some (ints 8 o) ->
    run c_Utils_serialize32LE [at8 b p; VInt U32 v] m w
    = let! o' := Utils_serialize32LE o p v in Ok (VUndef, <[b := ints 8 o']> m, w).
  Proof. intros. unfold c_Utils_serialize32LE, Utils_serialize32LE. go. Qed.
  Lemma ref_deserialize8 m w b o p : m !! b = Some (ints 8 o) ->
    run c_Utils_deserialize8 [at8 b p] m w
    = let! v := Utils_deserialize8 o p in Ok (VInt U8 v, m, w).
  Proof. intros. unfold c_Utils_deserialize8, Utils_deserialize8. go. Qed.
  Lemma ref_deserialize16BE m w b o p : m !! b = Some (ints 8 o) -> bytes o ->
    run c_Utils_deserialize16BE [at8 b p] m w
    = let! v := Utils_deserialize16BE o p in Ok (VInt U16 v, m, w).
  Proof. intros. unfold c_Utils_deserialize16BE, Utils_deserialize16BE. go. Qed.
  Lemma ref_deserialize24BE m w b o p : m !! b = Some (ints 8 o) -> bytes o ->
    run c_Utils_deserialize24BE [at8 b p] m w
    = let! v := Utils_deserialize24BE o p in Ok (VInt U32 v, m, w).
  Proof. intros. unfold c_Utils_deserialize24BE, Utils_deserialize24BE. go. Qed.
  Lemma ref_deserialize32BE m w b o p : m !! b = Some (ints 8 o) -> bytes o ->
    run c_Utils_deserialize32BE [at8 b p] m w
    = let! v := Utils_deserialize32BE o p in Ok (VInt U32 v, m, w).
  Proof. intros. unfold c_Utils_deserialize32BE, Utils_deserialize32BE. go. Qed.
  Lemma ref_deserialize16LE m w b o p : m !! b = Some (ints 8 o) -> bytes o ->
    run c_Utils_deserialize16LE [at8 b p] m w
    = let! v := Utils_deserialize16LE o p in Ok (VInt U16 v, m, w).
  Proof. intros. unfold c_Utils_deserialize16LE, Utils_deserialize16LE. go. Qed.
  Lemma ref_deserialize24LE m w b o p : m !! b = Some (ints 8 o) -> bytes o ->
    run c_Utils_deserialize24LE [at8 b p] m w
    = let! v := Utils_deserialize24LE o p in Ok (VInt U32 v, m, w).
  Proof. intros. unfold c_Utils_deserialize24LE, Utils_deserialize24LE. go. Qed.
  Lemma ref_deserialize32LE m w b o p : m !! b = Some (ints 8 o) -> bytes o ->
    run c_Utils_deserialize32LE [at8 b p] m w
    = let! v := Utils_deserialize32LE o p in Ok (VInt U32 v, m, w).
  Proof. intros. unfold c_Utils_deserialize32LE, Utils_deserialize32LE. go. Qed.

  Lemma ref_isUpperChar m w c : is_byte c ->
    run c_Utils_isUpperChar [VInt IChar (char_val sc c)] m w
    = Ok (VInt IBool (b2z (Utils_isUpperChar c)), m, w).
  Proof.
    intros. unfold c_Utils_isUpperChar, Utils_isUpperChar, UPPER_A_ASCII, UPPER_Z_ASCII.
    smalls. go.
  Qed.
  Lemma ref_isLowerChar m w c : is_byte c ->
    run c_Utils_isLowerChar [VInt IChar (char_val sc c)] m w
    = Ok (VInt IBool (b2z (Utils_isLowerChar c)), m, w).
  Proof.
    intros. unfold c_Utils_isLowerChar, Utils_isLowerChar, LOWER_A_ASCII, LOWER_Z_ASCII.
    smalls. go.
  Qed.
  Lemma ref_isAlpha m w c : is_byte c ->
    run c_Utils_isAlpha [VInt IChar (char_val sc c)] m w
    = Ok (VInt IBool (b2z (Utils_isAlpha c)), m, w).
  Proof.
    intros. unfold c_Utils_isAlpha, Utils_isAlpha. go.
    rewrite ref_isUpperChar by done. go. rewrite ref_isLowerChar by done. go.
  Qed.

  Lemma ref_bitSet m w b o p x d n :
    m !! b = Some (ints 8 o) -> load o p = Ok (b2z x) -> is_byte n ->
    run c_BitManipulation_bitSet [VInt U32 d; VInt U8 n; VPtr (TInt IBool) (BObj b) p] m w
    = let! '(r, x') := BitManipulation_bitSet d n x in
      let! o' := store o p (b2z x') in Ok (VInt IBool (b2z r), <[b := ints 8 o']> m, w).
  Proof.
    intros Hb Hl Hn. unfold c_BitManipulation_bitSet, BitManipulation_bitSet, MAX_BIT_SHIFT.
    go. by same_obj.
  Qed.
  Lemma ref_setBit m w b o p x d n :
    m !! b = Some (ints 32 o) -> load o p = Ok x -> is_byte n ->
    run c_BitManipulation_setBit [VInt U32 d; VInt U8 n; VPtr (TInt U32) (BObj b) p] m w
    = let! '(r, x') := BitManipulation_setBit d n x in
      let! o' := store o p x' in Ok (VInt IBool (b2z r), <[b := ints 32 o']> m, w).
  Proof.
    intros Hb Hl Hn. unfold c_BitManipulation_setBit, BitManipulation_setBit, MAX_BIT_SHIFT.
    go. by same_obj.
  Qed.
  Lemma ref_clearBit m w b o p x d n :
    m !! b = Some (ints 32 o) -> load o p = Ok x -> is_byte n ->
    run c_BitManipulation_clearBit [VInt U32 d; VInt U8 n; VPtr (TInt U32) (BObj b) p] m w
    = let! '(r, x') := BitManipulation_clearBit d n x in
      let! o' := store o p x' in Ok (VInt IBool (b2z r), <[b := ints 32 o']> m, w).
  Proof.
    intros Hb Hl Hn. unfold c_BitManipulation_clearBit, BitManipulation_clearBit, MAX_BIT_SHIFT.
    go. by same_obj.
  Qed.
  Lemma ref_toggleBit m w b o p x d n :
    m !! b = Some (ints 32 o) -> load o p = Ok x -> is_byte n ->
    run c_BitManipulation_toggleBit [VInt U32 d; VInt U8 n; VPtr (TInt U32) (BObj b) p] m w
    = let! '(r, x') := BitManipulation_toggleBit d n x in
      let! o' := store o p x' in Ok (VInt IBool (b2z r), <[b := ints 32 o']> m, w).
  Proof.
    intros Hb Hl Hn. unfold c_BitManipulation_toggleBit, BitManipulation_toggleBit, MAX_BIT_SHIFT.
    go. by same_obj.
  Qed.
  Lemma ref_rotl32 m w d n :
    run c_BitManipulation_rotl32 [VInt U32 d; VInt U32 n] m w
    = let! z := BitManipulation_rotl32 d n in Ok (VInt U32 z, m, w).
  Proof. unfold c_BitManipulation_rotl32, BitManipulation_rotl32. go. Qed.

  Lemma ref_serializeBlobBE m w b o p b' o' p' n :
    m !! b = Some (ints 8 o) -> m !! b' = Some (ints 8 o') -> b <> b' ->
    is_u32 n -> (Z.to_nat n < fuel)%nat ->
    run c_Utils_serializeBlobBE [at8 b p; at8 b' p'; VInt U32 n] m w
    = let! o := Utils_serializeBlobBE o p o' p' n in Ok (VUndef, <[b := ints 8 o]> m, w).
  Proof.
    intros Hb Hb' Hne Hn Hf. unfold c_Utils_serializeBlobBE, Utils_serializeBlobBE. go.
    sim_for (fun i o => ([at8 b p; at8 b' p'; VInt U32 n; VInt U32 i], <[b := ints 8 o]> m, w))
      (fun _ _ => True).
    - by rewrite list_insert_id.
    - rng.
    - done.
    - rewrite Z.sub_0_r. done.
    - intros i s Hi _. go_body.
    - done.
    - intros s _. go_body.
    - both. go.
  Qed.

  Lemma ref_deserializeBlobBE m w b o p b' o' p' n :
    m !! b = Some (ints 8 o) -> m !! b' = Some (ints 8 o') -> b <> b' ->
    is_u32 n -> (Z.to_nat n < fuel)%nat ->
    run c_Utils_deserializeBlobBE [at8 b p; at8 b' p'; VInt U32 n] m w
    = let! o' := Utils_deserializeBlobBE o p o' p' n in Ok (VUndef, <[b' := ints 8 o']> m, w).
  Proof.
    intros Hb Hb' Hne Hn Hf. unfold c_Utils_deserializeBlobBE, Utils_deserializeBlobBE. go.
    sim_for (fun i o => ([at8 b p; at8 b' p'; VInt U32 n; VInt U32 i], <[b' := ints 8 o]> m, w))
      (fun _ _ => True).
    - by rewrite list_insert_id.
    - rng.
    - done.
    - rewrite Z.sub_0_r. done.
    - intros i s Hi _. go_body.
    - done.
    - intros s _. go_body.
    - both. go.
  Qed.

  Lemma ref_serializeBlobLE m w b o p b' o' p' n :
    m !! b = Some (ints 8 o) -> m !! b' = Some (ints 8 o') -> b <> b' ->
    is_u32 n -> (Z.to_nat n < fuel)%nat ->
    run c_Utils_serializeBlobLE [at8 b p; at8 b' p'; VInt U32 n] m w
    = let! o := Utils_serializeBlobLE o p o' p' n in Ok (VUndef, <[b := ints 8 o]> m, w).
  Proof.
    intros Hb Hb' Hne Hn Hf. unfold c_Utils_serializeBlobLE, Utils_serializeBlobLE. bounds. go.
    destruct (Z.leb_spec 0 r).
    - sim_ford (fun i '(o, j) =>
          ([at8 b p; at8 b' p'; VInt U32 n; VInt I32 j; VInt I32 i], <[b := ints 8 o]> m, w))
        (fun '(o, j) => ([at8 b p; at8 b' p'; VInt U32 n; VInt I32 j; VInt I32 (-1)],
                         <[b := ints 8 o]> m, w))
        (fun i '(o, j) => j = r - i).
      + cbn. by rewrite list_insert_id.
      + lia.
      + lia.
      + apply ck32_inv in E as [-> E]. unfold s32 in *. lia.
      + apply ck32_inv in E as [? E]. intros i [s j] Hi ->. go_body.
      + intros i [s j] [s' j'] Hi -> Hs. repeat (apply bind_ok_inv in Hs as (? & ? & Hs)).
        apply ck32_inv in H2 as [? ?]. injection Hs as -> ->. lia.
      + intros [s j] Hj. go_body.
      + both. go.
    - rewrite cford_empty by lia. destruct fuel as [|f]; [lia|]. rewrite loop_S.
      go_body. cbn [bind]. by rewrite list_insert_id.
  Qed.

  Lemma ref_deserializeBlobLE m w b o p b' o' p' n :
    m !! b = Some (ints 8 o) -> m !! b' = Some (ints 8 o') -> b <> b' ->
    is_u32 n -> (Z.to_nat n < fuel)%nat ->
    run c_Utils_deserializeBlobLE [at8 b p; at8 b' p'; VInt U32 n] m w
    = let! o' := Utils_deserializeBlobLE o p o' p' n in Ok (VUndef, <[b' := ints 8 o']> m, w).
  Proof.
    intros Hb Hb' Hne Hn Hf. unfold c_Utils_deserializeBlobLE, Utils_deserializeBlobLE.
    bounds. go.
    destruct (Z.leb_spec 0 r).
    - sim_ford (fun i '(o, j) =>
          ([at8 b p; at8 b' p'; VInt U32 n; VInt I32 j; VInt I32 i], <[b' := ints 8 o]> m, w))
        (fun '(o, j) => ([at8 b p; at8 b' p'; VInt U32 n; VInt I32 j; VInt I32 (-1)],
                         <[b' := ints 8 o]> m, w))
        (fun i '(o, j) => j = r - i).
      + cbn. by rewrite list_insert_id.
      + lia.
      + lia.
      + apply ck32_inv in E as [-> E]. unfold s32 in *. lia.
      + apply ck32_inv in E as [? E]. intros i [s j] Hi ->. go_body.
      + intros i [s j] [s' j'] Hi -> Hs. repeat (apply bind_ok_inv in Hs as (? & ? & Hs)).
        apply ck32_inv in H2 as [? ?]. injection Hs as -> ->. lia.
      + intros [s j] Hj. go_body.
      + both. go.
    - rewrite cford_empty by lia. destruct fuel as [|f]; [lia|]. rewrite loop_S.
      go_body. cbn [bind]. by rewrite list_insert_id.
  Qed.

  Lemma ref_reflect m w d n :
    is_byte n -> (Z.to_nat n < fuel)%nat ->
    run c_BitManipulation_reflect [VInt U32 d; VInt U8 n] m w
    = let! z := BitManipulation_reflect d n in Ok (VInt U32 z, m, w).
  Proof.
    intros Hn Hf. unfold c_BitManipulation_reflect, BitManipulation_reflect. bounds. go.
    sim_for (fun i '(r, t) => ([VInt U32 d; VInt U8 n; VInt U32 r; VInt U32 t; VInt U8 i], m, w))
      (fun _ _ => True); [done|lia|done|lia| |done| |].
    - intros i [r t] Hi _. go_body.
    - intros [r t] _. go_body.
    - both. go.
  Qed.

  (** both elements in the same object *)
  Lemma ref_swapElements m w b o p q n :
    m !! b = Some (ints 8 o) -> is_u32 n -> (Z.to_nat n < fuel)%nat ->
    run c_Utils_swapElements [at8 b p; at8 b q; VInt U32 n] m w
    = let! o := Utils_swapElements o p q n in Ok (VUndef, <[b := ints 8 o]> m, w).
  Proof.
    intros Hb Hn Hf. unfold c_Utils_swapElements, Utils_swapElements. bounds. go.
    sim_ford (fun i o => ([at8 b p; at8 b q; VInt U32 n; at8 b p; at8 b q; VInt U32 (i + 1)],
                          <[b := ints 8 o]> m, w))
      (fun o => ([at8 b p; at8 b q; VInt U32 n; at8 b p; at8 b q; VInt U32 (2 ^ 32 - 1)],
                          <[b := ints 8 o]> m, w))
      (fun _ _ => True); [|lia|done|lia| |done| |].
    - rewrite list_insert_id by done. by replace (n - 1 + 1) with n by lia.
    - intros i s Hi _. go_body.
    - intros s _. go_body.
    - both. go.
  Qed.

  Lemma ref_quickUint32Pow10 m w b o p e x :
    m !! b = Some (ints 32 o) -> load o p = Ok x -> is_byte e ->
    run c_Utils_quickUint32Pow10 [VInt U8 e; VPtr (TInt U32) (BObj b) p] m w
    = let! '(r, x) := Utils_quickUint32Pow10 e x in
      let! o := store o p x in Ok (VInt IBool (b2z r), <[b := ints 32 o]> m, w).
  Proof.
    intros Hb Hl He. unfold c_Utils_quickUint32Pow10, Utils_quickUint32Pow10.
    change c_Utils_quickUint32Pow10_pow10 with pow10_table. unfold MAX_UINT32_POW_10_EXPONENT.
    bounds. go. by same_obj.
  Qed.

  Lemma ref_stringToUint32 m w b o b' o' p' n :
    m !! b = Some (ints 8 o) -> m !! b' = Some (ints 32 o') -> 0 <= p' < len o' ->
    bytes o -> is_byte n -> (Z.to_nat n < fuel)%nat ->
    run c_Utils_stringToUint32
      [VPtr (TInt IChar) (BObj b) 0; VInt U8 n; VPtr (TInt U32) (BObj b') p'] m w
    = let! '(r, x) := Utils_stringToUint32 sc o n in
      Ok (VInt IBool (b2z r), <[b' := ints 32 (<[Z.to_nat p' := x]> o')]> m, w).
  Proof.
    intros Hb Hb' Hl Ho Hn Hf. unfold c_Utils_stringToUint32.
    pose proof (string_nd sc o n Hn) as Hnd. revert Hnd. unfold Utils_stringToUint32.
    change UINT32_MAX with 4294967295.
    unfold MAX_UINT32_POW_10_EXPONENT. bounds. cbv zeta. consts.
    remember (if n =? 10 then u8 (n - 1) else n) as L eqn:HL. intros Hnd.
    assert (0 <= L <= n) by (destruct (Z.eqb_spec n 10); rng).
    assert (b <> b') as Hne by (intros ->; rewrite Hb in Hb'; injection Hb' as Hb'; revert Hb'; by eapply ints_ne).
    go.
    all: sim_while (fun '(i, x, r) =>
           ([VPtr (TInt IChar) (BObj b) 0; VInt U8 n; VPtr (TInt U32) (BObj b') p';
             VInt IBool (b2z r); VInt IBool (b2z (n =? 10)); VInt U8 i; VInt U8 L],
            <[b' := ints 32 (<[Z.to_nat p' := x]> o')]> m, w))
         (fun '(i, x, r) =>
           ([VPtr (TInt IChar) (BObj b) 0; VInt U8 n; VPtr (TInt U32) (BObj b') p';
             VInt IBool (b2z r); VInt IBool (b2z (n =? 10)); VInt U8 i; VInt U8 L],
            <[b' := ints 32 (<[Z.to_nat p' := x]> o')]> m, w))
         (fun '(i, x, r) => 0 <= i <= L).
    - rewrite Heqb0. cbn [b2z]. split_eq; rng.
    - lia.
    - lia.
    - intros Hd. apply Hnd. consts. rewrite Hd. done.
    - intros [[i x] r] Hi Hc. apply andb_prop in Hc as [Hc ->]. rewrite Heqb0. cbn [b2z].
      go_body. erewrite ref_quickUint32Pow10; [|look|reflexivity|apply u8_byte].
      go. both. go.
    - intros [[i x] r] Hi Hc. apply andb_false_iff in Hc as [Hc|Hc]; [|subst r]; go_body.
    - intros [[i x] r] [[i' x'] r'] Hi Hc Hs. apply andb_prop in Hc as [Hc ->].
      apply bind_ok_inv in Hs as (c & Hl' & Hs). destruct (_ && _).
      + apply bind_ok_inv in Hs as ([? ?] & _ & Hs). injection Hs as <- <- <-. rng.
      + injection Hs as <- <- <-. done.
    - both. go.
    - rewrite Heqb0. cbn [b2z]. split_eq; rng.
    - lia.
    - lia.
    - intros Hd. apply Hnd. consts. rewrite Hd. done.
    - intros [[i x] r] Hi Hc. apply andb_prop in Hc as [Hc ->]. rewrite Heqb0. cbn [b2z].
      go_body. erewrite ref_quickUint32Pow10; [|look|reflexivity|apply u8_byte].
      go. both. go.
    - intros [[i x] r] Hi Hc. apply andb_false_iff in Hc as [Hc|Hc]; [|subst r]; go_body.
    - intros [[i x] r] [[i' x'] r'] Hi Hc Hs. apply andb_prop in Hc as [Hc ->].
      apply bind_ok_inv in Hs as (c & Hl' & Hs). destruct (_ && _).
      + apply bind_ok_inv in Hs as ([? ?] & _ & Hs). injection Hs as <- <- <-. rng.
      + injection Hs as <- <- <-. done.
    - both. go.
  Qed.
End utils.
