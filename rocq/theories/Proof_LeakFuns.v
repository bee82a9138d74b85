(** * The functions whose events do not depend on the data (for [Props_Leak.v]) *)
From Verif Require Import CSem Lib CLang CLeak C_Utils C_Crypto Spec_ChaCha Refine Drive_TextRun Proof_TextCrypto.
From Verif Require Import Proof_Leak Proof_LeakSame.

Section funs.
  Context {W : Type} (sc : bool)
          (ext : Z -> list val -> mem -> W -> outcome (val * mem * W)) (fuel : nat).

  Ltac args := repeat first [apply vrels_nil|apply vrels_cons; [first [reflexivity|exact eq_refl]|]].

  Lemma leak_chacha m m' w w' bp p br r bk bn n po ro key nonce inc po' ro' key' nonce' inc' :
    same_shape m m' ->
    m !! bp = Some (ints 8 po) -> m !! br = Some (ints 8 ro) ->
    m !! bk = Some (ints 8 key) -> m !! bn = Some (ints 8 nonce) ->
    m' !! bp = Some (ints 8 po') -> m' !! br = Some (ints 8 ro') ->
    m' !! bk = Some (ints 8 key') -> m' !! bn = Some (ints 8 nonce') ->
    br <> bk -> br <> bn -> parameters key nonce -> parameters key' nonce' ->
    bytes po -> bytes ro -> bytes po' -> bytes ro' -> is_u32 n -> is_u32 inc -> is_u32 inc' ->
    0 <= p -> p + n <= len po -> 0 <= r -> r + n <= len ro ->
    (bp = br -> r <= p \/ p + n <= r) ->
    64 < Z.of_nat fuel -> n / 64 < Z.of_nat fuel ->
    exists t,
      lcall sc ext fuel c_Chacha20_crypt
        [VPtr (TInt U8) (BObj bp) p; VInt U32 n; VPtr (TInt U8) (BObj bk) 0;
         VPtr (TInt U8) (BObj bn) 0; VInt U32 inc; VPtr (TInt U8) (BObj br) r] m (w, [])
      = Ok (VUndef, <[br := ints 8 (write ro r (chacha20 key nonce inc (slice po p n)))]> m, (w, t)) /\
      lcall sc ext fuel c_Chacha20_crypt
        [VPtr (TInt U8) (BObj bp) p; VInt U32 n; VPtr (TInt U8) (BObj bk) 0;
         VPtr (TInt U8) (BObj bn) 0; VInt U32 inc'; VPtr (TInt U8) (BObj br) r] m' (w', [])
      = Ok (VUndef, <[br := ints 8 (write ro' r (chacha20 key' nonce' inc' (slice po' p n)))]> m', (w', t)).
  Proof.
    intros Hm H1 H2 H3 H4 H1' H2' H3' H4' N1 N2 P P' B1 B2 B1' B2' Hn Hi Hi' Hp Hpn Hr Hrn Hd Hf Hf2.
    assert (Hlen : forall b x x', m !! b = Some (ints 8 x) -> m' !! b = Some (ints 8 x') -> len x = len x').
    { intros b x x' Hx Hx'. destruct (Forall2_lookup_l _ _ _ _ _ Hm Hx) as (y & Hy & Hs).
      rewrite Hx' in Hy. simplify_eq. apply Forall2_length in Hs. unfold ints in Hs.
      rewrite !fmap_length in Hs. unfold len. lia. }
    pose proof (Hlen _ _ _ H1 H1'). pose proof (Hlen _ _ _ H2 H2').
    apply (same_trace sc ext fuel [true; true; true; true; false; true]); [vm_compute; reflexivity|args|done| |].
    - by eapply text_chacha20.
    - eapply text_chacha20; try done; lia.
  Qed.

  Lemma leak_block key n n' nonce out m m' w w' v v' m1 m1' w1 w1' :
    same_shape m m' ->
    call sc ext fuel c_Block [key; VInt U32 n; nonce; out] m w = Ok (v, m1, w1) ->
    call sc ext fuel c_Block [key; VInt U32 n'; nonce; out] m' w' = Ok (v', m1', w1') ->
    exists t, lcall sc ext fuel c_Block [key; VInt U32 n; nonce; out] m (w, []) = Ok (v, m1, (w1, t)) /\
              lcall sc ext fuel c_Block [key; VInt U32 n'; nonce; out] m' (w', []) = Ok (v', m1', (w1', t)).
  Proof. apply (same_trace sc ext fuel [true; false; true; true]); [vm_compute; reflexivity|args]. Qed.

  (** functions that get only pointers and lengths *)
  Lemma leak_memory f vs m m' w w' v v' m1 m1' w1 w1' :
    f ∈ [c_QuarterRound; c_Utils_swapElements; c_Utils_deserialize8;
         c_Utils_deserialize16BE; c_Utils_deserialize24BE; c_Utils_deserialize32BE;
         c_Utils_deserialize16LE; c_Utils_deserialize24LE; c_Utils_deserialize32LE;
         c_Utils_serializeBlobBE; c_Utils_serializeBlobLE;
         c_Utils_deserializeBlobBE; c_Utils_deserializeBlobLE] ->
    same_shape m m' ->
    call sc ext fuel f vs m w = Ok (v, m1, w1) -> call sc ext fuel f vs m' w' = Ok (v', m1', w1') ->
    exists t, lcall sc ext fuel f vs m (w, []) = Ok (v, m1, (w1, t)) /\
              lcall sc ext fuel f vs m' (w', []) = Ok (v', m1', (w1', t)).
  Proof.
    intros Hf Hm H H'.
    assert (Hps : exists ps, ct_f ps f = true /\ length vs = length ps /\ forallb (fun x => x) ps = true).
    { assert (Hl : exists ps, ct_f ps f = true /\ forallb (fun x => x) ps = true).
      { repeat (apply elem_of_cons in Hf as [->|Hf];
          [first [exists [true]; split; reflexivity|exists [true; true]; split; reflexivity
                 |exists [true; true; true]; split; reflexivity|exists [true; true; true; true]; split; reflexivity]|]).
        by apply elem_of_nil in Hf. }
      destruct Hl as (ps & Hc & Hb). exists ps. split; [done|]. split; [|done].
      destruct f as [params ret b]. cbn in Hc. destruct (ct_s ps b); [|done]. apply Nat.eqb_eq in Hc.
      rewrite <- Hc. cbn in H. destruct (to_types sc params vs) as [E| |] eqn:Et; cbn in H; try done.
      clear -Et. revert vs E Et. induction params as [|q params IH]; intros [|x vs] E Et; cbn in *; try done.
      apply bind_ok_inv in Et as (y & _ & Et). apply bind_ok_inv in Et as (ys & Hys & _).
      f_equal. by eapply IH. }
    destruct Hps as (ps & Hc & Hl & Hb). eapply (same_trace sc ext fuel ps); try done.
    split; [done|]. split; [done|]. intros n p x x' Hp Hx Hx'. rewrite Hx in Hx'. simplify_eq.
    destruct p; [reflexivity|apply like_refl].
  Qed.

  Lemma leak_serialize f p ty d d' m m' w w' v v' m1 m1' w1 w1' :
    f ∈ [c_Utils_serialize8; c_Utils_serialize16BE; c_Utils_serialize24BE; c_Utils_serialize32BE;
         c_Utils_serialize16LE; c_Utils_serialize24LE; c_Utils_serialize32LE] ->
    same_shape m m' ->
    call sc ext fuel f [p; VInt ty d] m w = Ok (v, m1, w1) ->
    call sc ext fuel f [p; VInt ty d'] m' w' = Ok (v', m1', w1') ->
    exists t, lcall sc ext fuel f [p; VInt ty d] m (w, []) = Ok (v, m1, (w1, t)) /\
              lcall sc ext fuel f [p; VInt ty d'] m' (w', []) = Ok (v', m1', (w1', t)).
  Proof.
    intros Hf. apply (same_trace sc ext fuel [true; false]); [|args].
    repeat (apply elem_of_cons in Hf as [->|Hf]; [reflexivity|]). by apply elem_of_nil in Hf.
  Qed.

  Lemma leak_bits f d d' n p m m' w w' v v' m1 m1' w1 w1' :
    f ∈ [c_BitManipulation_bitSet; c_BitManipulation_setBit; c_BitManipulation_clearBit;
         c_BitManipulation_toggleBit] ->
    same_shape m m' ->
    call sc ext fuel f [VInt U32 d; n; p] m w = Ok (v, m1, w1) ->
    call sc ext fuel f [VInt U32 d'; n; p] m' w' = Ok (v', m1', w1') ->
    exists t, lcall sc ext fuel f [VInt U32 d; n; p] m (w, []) = Ok (v, m1, (w1, t)) /\
              lcall sc ext fuel f [VInt U32 d'; n; p] m' (w', []) = Ok (v', m1', (w1', t)).
  Proof.
    intros Hf. apply (same_trace sc ext fuel [false; true; true]); [|args].
    repeat (apply elem_of_cons in Hf as [->|Hf]; [reflexivity|]). by apply elem_of_nil in Hf.
  Qed.

  Lemma leak_rotl32 d d' n m m' w w' v v' m1 m1' w1 w1' :
    same_shape m m' ->
    call sc ext fuel c_BitManipulation_rotl32 [VInt U32 d; n] m w = Ok (v, m1, w1) ->
    call sc ext fuel c_BitManipulation_rotl32 [VInt U32 d'; n] m' w' = Ok (v', m1', w1') ->
    exists t,
      lcall sc ext fuel c_BitManipulation_rotl32 [VInt U32 d; n] m (w, []) = Ok (v, m1, (w1, t)) /\
      lcall sc ext fuel c_BitManipulation_rotl32 [VInt U32 d'; n] m' (w', []) = Ok (v', m1', (w1', t)).
  Proof. apply (same_trace sc ext fuel [false; true]); [vm_compute; reflexivity|args]. Qed.
End funs.
