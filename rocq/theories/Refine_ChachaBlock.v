(** * The hand-written model of [Block] (chacha20.c) against the C text *)
From Verif Require Import CSem Lib CLang C_Utils C_Crypto Model_Utils Model_Crypto Refine Refine_Utils
  Refine_Chacha.

Ltac in_cells := first [eassumption | apply cells_look; look | apply cells_get; [len_tac | reflexivity]].
(** memory is [m ++ cells xs] throughout *)
Ltac head_hook X ::=
  lazymatch X with
  | exec _ _ _ _ (_, (_ ++ cells _) ++ [ints 32 [_]], _) =>
      rewrite !cells_len, cells_snoc; cbn [app length]
  | eval _ _ _ (ECall c_Utils_deserialize32LE _) _ =>
      eapply eq_trans; [eapply E_deser; [reflexivity | in_cells | assumption | lia] |]
  | eval _ _ _ (ECall c_Utils_serialize32LE _) _ =>
      eapply eq_trans; [eapply E_ser; [reflexivity | in_cells | lia | reflexivity | in_cells] |];
      both; rewrite cells_front by len_tac; rewrite ?list_insert_insert
  | Utils_deserialize32LE ?o ?p =>
      first [match goal with H : Utils_deserialize32LE o p = Ok _ |- _ => rewrite H end | both]
  | mload _ (_ ++ cells _) (TInt U32) (BObj (_ + _)) 0 =>
      erewrite mload_cells; [|len_tac|reflexivity]
  | mstore (_ ++ cells _) (TInt U32) (BObj (_ + _)) 0 _ =>
      erewrite mstore_cells; [|len_tac|reflexivity]; cbn [insert list_insert]
  | call _ _ _ c_QuarterRound _ _ _ =>
      rewrite ref_QuarterRound_list by (first [lia | len_tac]); 
      repeat match goal with |- context [Z.of_nat ?n] =>
        let r := eval vm_compute in (Z.of_nat n) in change (Z.of_nat n) with r end;
      rewrite bind_assoc; both;
      match goal with H : QuarterRound _ _ _ _ _ = Ok _ |- _ =>
        pose proof (QuarterRound_len _ _ _ _ _ _ H); clear H end
  end.

Section block.
  Context {W : Type} (sc : bool)
          (ext : Z -> list val -> mem -> W -> outcome (val * mem * W)) (fuel : nat).
  Local Notation run f := (call sc ext fuel f).
  Implicit Types (m : mem) (w : W) (o : list Z).
  Local Notation at8 b := (VPtr (TInt U8) (BObj b) 0).

  Lemma ref_Block m w bk key bn nonce bo out counter :
    m !! bk = Some (ints 8 key) -> m !! bn = Some (ints 8 nonce) -> m !! bo = Some (ints 8 out) ->
    bytes key -> bytes nonce -> (10 < fuel)%nat ->
    run c_Block [at8 bk; VInt U32 counter; at8 bn; at8 bo] m w
    = let! out := Block key counter nonce out in Ok (VUndef, <[bo := ints 8 out]> m, w).
  Proof.
    intros Hk Hn Ho Bk Bn Hf. unfold c_Block, Block, chacha_init.
    go1. go1. go1. go1. go1.
    lazymatch goal with |- context [exec sc ext fuel ?p (?E, m, w)] =>
      replace (exec sc ext fuel p (E, m, w)) with (exec sc ext fuel p (E, m ++ cells [], w))
        by (unfold cells; cbn [fmap list_fmap]; by rewrite app_nil_r) end.
    go.
    lazymatch goal with |- bind (loop _ _ (?E ++ [VInt U8 0], _, _)) _ = _ => idtac
    | |- bind (loop _ _ (?E, _, _)) _ = _ => set (E20 := take 20 E) end.
    sim_for (fun i xs => (E20 ++ [VInt U8 i], m ++ cells xs, w)) (fun _ xs => length xs = 16%nat).
    - done.
    - done.
    - done.
    - unfold CHACHA20_ROUNDS. lia.
    - intros i xs Hi Hx. unfold E20, chacha_double_round, CHACHA20_ROUNDS in *. cbn [take app].
      go_body.
    - intros i xs xs' Hi Hx Hd. apply double_round_len in Hd. lia.
    - intros xs Hx. unfold E20, CHACHA20_ROUNDS. cbn [take app]. go_body.
    - destruct (cfor 0 CHACHA20_ROUNDS _ _) as [xs| |] eqn:Er; cbn [bind]; [|done..].
      apply rounds_len in Er. cbn [length] in Er.
      do 16 (destruct xs as [|? xs]; [done|]). destruct xs; [|done]. clear Er.
      rewrite add16. cbn [bind]. rewrite ser16'.
      unfold CHACHA_MAGIC_NUMBER_PART_1, CHACHA_MAGIC_NUMBER_PART_2, CHACHA_MAGIC_NUMBER_PART_3,
        CHACHA_MAGIC_NUMBER_PART_4.
      unfold E20. cbn [take app]. clear E20.
      go. rewrite take_app_alt by (by rewrite insert_length). done.
  Qed.
End block.
