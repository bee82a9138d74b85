(** * The C text of the CRC functions *)
From Verif Require Import CSem Lib CLang C_Crc C_CrcVariants Model_Crc Model_CrcVariants Spec_Crc Drive_Crc
  Drive_CrcText Proof_CrcProps Proof_CrcEnd Refine Refine_Crc Refine_CrcVariants.

Section crc.
  Context {W : Type} (sc : bool)
          (ext : Z -> list val -> mem -> W -> outcome (val * mem * W)) (fuel : nat).
  Implicit Types (m : mem) (w : W).

  Definition text_is (V : crc_variant) (F : crc_params * fundef * bool) : Prop :=
    let '(P, f, has_final) := F in
    params V = P /\
    forall m w b o n final v l,
      m !! b = Some (ints 8 o) -> bytes o -> is_u32 n -> last_ptr m (crc_type P) v l ->
      (Z.to_nat n < fuel)%nat -> (32 < fuel)%nat ->
      call sc ext fuel f (crc_args has_final b n final v) m w
      = let! z := run V o n final l in Ok (VInt (crc_type P) z, m, w).
  Lemma functions_are : Forall2 text_is crc_variants crc_functions.
  Proof.
    unfold crc_variants, crc_functions.
    constructor; [split; [done|]; intros; apply ref_Crc8; done|].
    constructor; [split; [done|]; intros; apply ref_Crc8_8h2f; done|].
    constructor; [split; [done|]; intros; apply ref_Crc8_cdma2000; done|].
    constructor; [split; [done|]; intros; apply ref_Crc8_darc; done|].
    constructor; [split; [done|]; intros; apply ref_Crc8_dvbS2; done|].
    constructor; [split; [done|]; intros; apply ref_Crc8_ebu; done|].
    constructor; [split; [done|]; intros; apply ref_Crc8_icode; done|].
    constructor; [split; [done|]; intros; apply ref_Crc8_itu; done|].
    constructor; [split; [done|]; intros; apply ref_Crc8_maxim; done|].
    constructor; [split; [done|]; intros; apply ref_Crc8_rohc; done|].
    constructor; [split; [done|]; intros; apply ref_Crc8_saeJ1850; done|].
    constructor; [split; [done|]; intros; apply ref_Crc8_saeJ1850Zero; done|].
    constructor; [split; [done|]; intros; apply ref_Crc8_wcdma; done|].
    constructor; [split; [done|]; intros; apply ref_Crc16_a; done|].
    constructor; [split; [done|]; intros; apply ref_Crc16_arc; done|].
    constructor; [split; [done|]; intros; apply ref_Crc16_augCcit; done|].
    constructor; [split; [done|]; intros; apply ref_Crc16_buypass; done|].
    constructor; [split; [done|]; intros; apply ref_Crc16_ccitFalse; done|].
    constructor; [split; [done|]; intros; apply ref_Crc16_ccitZero; done|].
    constructor; [split; [done|]; intros; apply ref_Crc16_cdma2000; done|].
    constructor; [split; [done|]; intros; apply ref_Crc16_dds110; done|].
    constructor; [split; [done|]; intros; apply ref_Crc16_dectR; done|].
    constructor; [split; [done|]; intros; apply ref_Crc16_dectX; done|].
    constructor; [split; [done|]; intros; apply ref_Crc16_dnp; done|].
    constructor; [split; [done|]; intros; apply ref_Crc16_en13757; done|].
    constructor; [split; [done|]; intros; apply ref_Crc16_genibus; done|].
    constructor; [split; [done|]; intros; apply ref_Crc16_kermit; done|].
    constructor; [split; [done|]; intros; apply ref_Crc16_maxim; done|].
    constructor; [split; [done|]; intros; apply ref_Crc16_mcrf4xx; done|].
    constructor; [split; [done|]; intros; apply ref_Crc16_modbus; done|].
    constructor; [split; [done|]; intros; apply ref_Crc16_riello; done|].
    constructor; [split; [done|]; intros; apply ref_Crc16_t10Dif; done|].
    constructor; [split; [done|]; intros; apply ref_Crc16_teledisk; done|].
    constructor; [split; [done|]; intros; apply ref_Crc16_tms37157; done|].
    constructor; [split; [done|]; intros; apply ref_Crc16_usb; done|].
    constructor; [split; [done|]; intros; apply ref_Crc16_x25; done|].
    constructor; [split; [done|]; intros; apply ref_Crc32; done|].
    constructor; [split; [done|]; intros; apply ref_Crc32_bzip2; done|].
    constructor; [split; [done|]; intros; apply ref_Crc32_c; done|].
    constructor; [split; [done|]; intros; apply ref_Crc32_d; done|].
    constructor; [split; [done|]; intros; apply ref_Crc32_jamcrc; done|].
    constructor; [split; [done|]; intros; apply ref_Crc32_mpeg2; done|].
    constructor; [split; [done|]; intros; apply ref_Crc32_posix; done|].
    constructor; [split; [done|]; intros; apply ref_Crc32_q; done|].
    constructor; [split; [done|]; intros; apply ref_Crc32_xfer; done|].
    constructor.
  Qed.
  Lemma text_of P f h : In (P, f, h) crc_functions ->
    exists V, In V crc_variants /\ text_is V (P, f, h).
  Proof.
    intros HIn. rewrite <- elem_of_list_In in HIn. apply elem_of_list_lookup in HIn as (i & Hi).
    destruct (Forall2_lookup_r _ _ _ _ _ functions_are Hi) as (V & HV & HT).
    exists V. split; [|done]. rewrite <- elem_of_list_In. by eapply elem_of_list_lookup_2.
  Qed.

  Lemma text_crc P f h m w b msg rest c :
    In (P, f, h) crc_functions -> m !! b = Some (ints 8 (msg ++ rest)) ->
    bytes msg -> bytes rest -> len msg < 2 ^ 32 -> len msg < Z.of_nat fuel -> 32 < Z.of_nat fuel ->
    call sc ext fuel f (crc_args h b (len msg) true VNull) m w = Ok (VInt (crc_type P) c, m, w)
    <-> is_crc P msg c.
  Proof.
    intros HIn Hb Hm Hr Hn Hf Hf'. destruct (text_of _ _ _ HIn) as (V & HV & HP & HT).
    rewrite (HT m w b (msg ++ rest) (len msg) true VNull None).
    - rewrite <- HP, <- (run_crc V msg rest c HV Hm).
      destruct (run V _ _ _ _) as [z| |]; cbn; [|done..]. split; congruence.
    - done.
    - by apply Forall_app_2.
    - unfold is_u32, len in *. lia.
    - done.
    - unfold len in *. lia.
    - lia.
  Qed.
  Lemma text_crc_exists P f h m w b msg rest :
    In (P, f, h) crc_functions -> m !! b = Some (ints 8 (msg ++ rest)) ->
    bytes msg -> bytes rest -> len msg < 2 ^ 32 -> len msg < Z.of_nat fuel -> 32 < Z.of_nat fuel ->
    exists c, is_crc P msg c /\
      call sc ext fuel f (crc_args h b (len msg) true VNull) m w = Ok (VInt (crc_type P) c, m, w).
  Proof.
    intros HIn Hb Hm Hr Hn Hf Hf'. destruct (text_of _ _ _ HIn) as (V & HV & HP & HT).
    destruct (run_crc_exists V msg rest HV Hm) as (c & E & H). exists c. rewrite <- HP. split; [done|].
    rewrite HP. apply (text_crc P f h m w b msg rest c); try done. by rewrite <- HP.
  Qed.

  (** one call with the value so far *)
  Lemma crc_call_ok V P f h m w b msg rest final last :
    In V crc_variants -> text_is V (P, f, h) -> m !! b = Some (ints 8 (msg ++ rest)) ->
    bytes msg -> bytes rest -> len msg < 2 ^ 32 -> len msg < Z.of_nat fuel -> 32 < Z.of_nat fuel ->
    (forall c, last = Some c -> 0 <= c < 2 ^ width P) ->
    crc_call sc ext fuel P f h m w b (len msg) final last
    = let! z := run V (msg ++ rest) (len msg) final last in Ok (z, m, w).
  Proof.
    intros HV (HP & HT) Hb Hm Hr Hn Hf Hf' Hc. unfold crc_call.
    assert (bytes (msg ++ rest)) by by apply Forall_app_2.
    assert (is_u32 (len msg)) by (unfold is_u32, len in *; lia).
    assert (Z.to_nat (len msg) < fuel)%nat by (unfold len in *; lia).
    assert (32 < fuel)%nat by lia.
    assert (CLang.width (crc_type P) = width P) as Hw.
    { rewrite <- HP. clear -HV. repeat (destruct HV as [<-|HV]; [by vm_compute|]). done. }
    destruct last as [c|].
    - rewrite (HT _ w b (msg ++ rest) (len msg) final _ (Some c)); try done.
      + destruct (run V _ _ _ _) as [z| |]; cbn; [|done..]. by rewrite take_app.
      + rewrite lookup_app_l; [done|]. by eapply lookup_lt_Some.
      + cbn [last_ptr]. exists (length m), 0, [c]. split; [done|]. split.
        * by rewrite lookup_app_r, Nat.sub_diag.
        * rewrite Hw. split; [done|auto].
    - rewrite (HT _ w b (msg ++ rest) (len msg) final VNull None); try done.
      destruct (run V _ _ _ _) as [z| |]; cbn; [|done..]. by rewrite firstn_all.
  Qed.

  Lemma crc_pieces_run V P f h m w : In V crc_variants -> text_is V (P, f, h) -> 32 < Z.of_nat fuel ->
    forall pieces msgs last, Forall2 (piece_at fuel m) pieces msgs ->
    (forall c, last = Some c -> 0 <= c < 2 ^ width P) -> pieces <> [] ->
    exists ps, map fst ps = msgs /\
      crc_pieces sc ext fuel P f h pieces last m w
      = let! z := run_pieces V ps last in Ok (z, m, w).
  Proof.
    intros HV HT Hf pieces msgs last H. revert last.
    induction H as [|[b n] msg pieces msgs (rest & Hb & Hbm & Hn & H32 & Hfm) H IH]; intros last Hc Hne; [done|].
    cbn in Hb, Hn. subst n. apply Forall_app in Hbm as [Hm Hr].
    destruct pieces as [|p' pieces].
    - inversion H. exists [(msg, rest)]. split; [done|]. cbn.
      by rewrite (crc_call_ok V P f h m w b msg rest true last).
    - pose proof (run_range V msg rest false last HV Hm) as R.
      destruct R as (z & Ez & Hz & _).
      { intros c ->. destruct HT as (-> & _). auto. }
      destruct HT as (HP & HT'). rewrite HP in Hz.
      destruct (IH (Some z)) as (ps & Hps & E); [|done|].
      { intros c [= <-]. done. }
      exists ((msg, rest) :: ps). split; [cbn; by rewrite Hps|].
      assert (ps <> []) as Hps0.
      { intros ->. inversion H; subst. done. }
      destruct ps as [|p1 ps]; [done|].
      transitivity (let! '(c, m, w) := crc_call sc ext fuel P f h m w b (len msg) false last in
                    crc_pieces sc ext fuel P f h (p' :: pieces) (Some c) m w); [done|].
      rewrite (crc_call_ok V P f h m w b msg rest false last) by done.
      rewrite Ez. cbn [bind]. rewrite E.
      transitivity (let! z := (let! c := run V (msg ++ rest) (len msg) false last in
                               run_pieces V (p1 :: ps) (Some c)) in Ok (z, m, w)); [by rewrite Ez|done].
  Qed.

  Lemma text_pieces P f h m w pieces msgs c :
    In (P, f, h) crc_functions -> Forall2 (piece_at fuel m) pieces msgs -> pieces <> [] ->
    32 < Z.of_nat fuel ->
    crc_pieces sc ext fuel P f h pieces None m w = Ok (c, m, w) <-> is_crc P (concat msgs) c.
  Proof.
    intros HIn H Hne Hf. destruct (text_of _ _ _ HIn) as (V & HV & HT).
    destruct (crc_pieces_run V P f h m w HV HT Hf pieces msgs None H) as (ps & Hps & ->); [done|done|].
    assert (Forall (fun p => bytes (fst p)) ps) as Bp.
    { apply Forall_forall. intros [msg rest] Hin. cbn.
      assert (msg ∈ msgs) as Hmsg.
      { rewrite <- Hps, elem_of_list_In. by apply (in_map fst) in Hin. }
      apply elem_of_list_lookup in Hmsg as (i & Hi).
      destruct (Forall2_lookup_r _ _ _ _ _ H Hi) as (p & _ & r & _ & B & _).
      by apply Forall_app in B as [B _]. }
    assert (bytes (concat (map fst ps))) as Bc.
    { clear -Bp. induction Bp as [|p ps Hp Bp IH]; [constructor|]. cbn. by apply Forall_app_2. }
    rewrite (pieces_ok V ps [] HV); [|by intros ->; inversion H; subst|done].
    rewrite Hps. destruct HT as (<- & _). rewrite Hps in Bc.
    rewrite <- (run_crc V (concat msgs) [] c HV Bc).
    destruct (run V _ _ _ _) as [z| |]; cbn; [|done..]. split; congruence.
  Qed.

  (** the table generators *)
  Lemma text_calc8 m w b old rest p :
    m !! b = Some (ints 8 (old ++ rest)) -> len old = 256 -> 0 <= p < 2 ^ 8 -> 256 < Z.of_nat fuel ->
    exists t, is_table 8 (2 ^ 8 + p) t /\
      call sc ext fuel c_Crc8Base_tableCalculator [VInt U8 p; VPtr (TInt U8) (BObj b) 0] m w
      = Ok (VUndef, <[b := ints 8 (t ++ rest)]> m, w).
  Proof.
    intros Hb Ho Hp Hf. destruct (calc8 p old rest Hp Ho) as (t & E & Ht). exists t. split; [done|].
    rewrite (ref_Crc8Base_tableCalculator sc ext fuel m w b _ p Hb), E; [done|done|lia].
  Qed.
  Lemma text_calc16 m w b old rest p :
    m !! b = Some (ints 16 (old ++ rest)) -> len old = 256 -> 0 <= p < 2 ^ 16 -> 256 < Z.of_nat fuel ->
    exists t, is_table 16 (2 ^ 16 + p) t /\
      call sc ext fuel c_Crc16Base_tableCalculator [VInt U16 p; VPtr (TInt U16) (BObj b) 0] m w
      = Ok (VUndef, <[b := ints 16 (t ++ rest)]> m, w).
  Proof.
    intros Hb Ho Hp Hf. destruct (calc16 p old rest Hp Ho) as (t & E & Ht). exists t. split; [done|].
    rewrite (ref_Crc16Base_tableCalculator sc ext fuel m w b _ p Hb), E; [done|done|lia].
  Qed.
  Lemma text_calc32 m w b old rest p :
    m !! b = Some (ints 32 (old ++ rest)) -> len old = 256 -> 0 <= p < 2 ^ 32 -> 256 < Z.of_nat fuel ->
    exists t, is_table 32 (2 ^ 32 + p) t /\
      call sc ext fuel c_Crc32Base_tableCalculator [VInt U32 p; VPtr (TInt U32) (BObj b) 0] m w
      = Ok (VUndef, <[b := ints 32 (t ++ rest)]> m, w).
  Proof.
    intros Hb Ho Hp Hf. destruct (calc32 p old rest Hp Ho) as (t & E & Ht). exists t. split; [done|].
    rewrite (ref_Crc32Base_tableCalculator sc ext fuel m w b _ p Hb), E; [done|done|lia].
  Qed.
End crc.
