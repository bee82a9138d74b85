(** * The hand-written model of the 45 CRC variants against the C text *)
From Verif Require Import CSem Lib CLang C_Utils C_Crc C_CrcVariants Model_Utils Model_Crc
  Model_CrcVariants Refine Refine_Utils Refine_Crc.

(** the argument [last_crc]: a null pointer, or a pointer to an element that can be read *)
Definition last_ptr (m : mem) (t : ity) (v : val) (l : option Z) : Prop :=
  match l with
  | None => v = VNull
  | Some c => exists b p o, v = VPtr (TInt t) (BObj b) p /\ m !! b = Some (ints (width t) o) /\
                load o p = Ok c /\ 0 <= c < 2 ^ width t
  end.

Definition all_below (k : Z) (t : list Z) : bool := forallb (fun x => (0 <=? x) && (x <? k)) t.
Lemma all_below_Forall k t : all_below k t = true -> Forall (fun x => 0 <= x < k) t.
Proof.
  intros H. apply Forall_forall. intros x Hx. unfold all_below in H.
  rewrite forallb_forall in H. specialize (H x Hx). lia.
Qed.

Ltac crc_call c_tab tab c_base ref :=
  change c_tab with tab;
  lazymatch goal with
  | |- bind (call _ _ _ _ (VPtr ?pt ?blk 0 :: ?d :: ?nn :: _) _ _) _ = bind (?f ?t ?o ?n ?iv ?fx ?ro ?ri ?fb) _ =>
      lazymatch pt with TInt ?T =>
        call_with [VPtr pt blk 0; d; nn; VInt T iv; VInt T fx; VInt IBool (b2z ro);
                   VInt IBool (b2z ri); VInt IBool (b2z fb)]
      end;
      rewrite (ref _ _ blk t _ o n iv fx ro ri fb)
  end.
Ltac crc_split H := 
  destruct H as (bl & pl & ol & -> & Hol & Hld & Hcl).
Ltac crc_var c_tab tab c_base ref :=
  go; crc_call c_tab tab c_base ref;
  [go; both; go
  |first [apply block_data|eassumption|by apply all_below_Forall; vm_compute
         |unfold is_byte, is_u16, is_u32 in *; cbn in *; lia]..].

Section variants.
  Context {W : Type} (sc : bool)
          (ext : Z -> list val -> mem -> W -> outcome (val * mem * W)) (fuel : nat).
  Local Notation run f := (call sc ext fuel f).
  Implicit Types (m : mem) (w : W) (o : list Z).

  Lemma ref_Crc8 m w b o n v l :
    m !! b = Some (ints 8 o) -> bytes o -> is_u32 n -> last_ptr m U8 v l ->
    (Z.to_nat n < fuel)%nat -> (32 < fuel)%nat ->
    run c_Crc8 [VPtr (TInt U8) (BObj b) 0; VInt U32 n; v] m w
    = let! z := Crc8 o n l in Ok (VInt U8 z, m, w).
  Proof.
    intros Hb Hbo Hn Hl Hf Hf'. unfold c_Crc8, Crc8.
    destruct l as [c|]; cbn [last_ptr] in Hl; [crc_split Hl|subst v];
      crc_var c_Crc8_crc_table Crc8_table c_Crc8Base (@ref_Crc8Base W sc ext fuel).
  Qed.

  Lemma ref_Crc8_8h2f m w b o n fc v l :
    m !! b = Some (ints 8 o) -> bytes o -> is_u32 n -> last_ptr m U8 v l ->
    (Z.to_nat n < fuel)%nat -> (32 < fuel)%nat ->
    run c_Crc8_8h2f [VPtr (TInt U8) (BObj b) 0; VInt U32 n;
      VInt IBool (b2z fc); v] m w
    = let! z := Crc8_8h2f o n fc l in Ok (VInt U8 z, m, w).
  Proof.
    intros Hb Hbo Hn Hl Hf Hf'. unfold c_Crc8_8h2f, Crc8_8h2f.
    destruct l as [c|]; cbn [last_ptr] in Hl; [crc_split Hl|subst v]; destruct fc;
      crc_var c_Crc8_8h2f_crc_table Crc8_8h2f_table c_Crc8Base (@ref_Crc8Base W sc ext fuel).
  Qed.

  Lemma ref_Crc8_cdma2000 m w b o n v l :
    m !! b = Some (ints 8 o) -> bytes o -> is_u32 n -> last_ptr m U8 v l ->
    (Z.to_nat n < fuel)%nat -> (32 < fuel)%nat ->
    run c_Crc8_cdma2000 [VPtr (TInt U8) (BObj b) 0; VInt U32 n; v] m w
    = let! z := Crc8_cdma2000 o n l in Ok (VInt U8 z, m, w).
  Proof.
    intros Hb Hbo Hn Hl Hf Hf'. unfold c_Crc8_cdma2000, Crc8_cdma2000.
    destruct l as [c|]; cbn [last_ptr] in Hl; [crc_split Hl|subst v];
      crc_var c_Crc8_cdma2000_crc_table Crc8_cdma2000_table c_Crc8Base (@ref_Crc8Base W sc ext fuel).
  Qed.

  Lemma ref_Crc8_darc m w b o n fc v l :
    m !! b = Some (ints 8 o) -> bytes o -> is_u32 n -> last_ptr m U8 v l ->
    (Z.to_nat n < fuel)%nat -> (32 < fuel)%nat ->
    run c_Crc8_darc [VPtr (TInt U8) (BObj b) 0; VInt U32 n;
      VInt IBool (b2z fc); v] m w
    = let! z := Crc8_darc o n fc l in Ok (VInt U8 z, m, w).
  Proof.
    intros Hb Hbo Hn Hl Hf Hf'. unfold c_Crc8_darc, Crc8_darc.
    destruct l as [c|]; cbn [last_ptr] in Hl; [crc_split Hl|subst v]; destruct fc;
      crc_var c_Crc8_darc_crc_table Crc8_darc_table c_Crc8Base (@ref_Crc8Base W sc ext fuel).
  Qed.

  Lemma ref_Crc8_dvbS2 m w b o n v l :
    m !! b = Some (ints 8 o) -> bytes o -> is_u32 n -> last_ptr m U8 v l ->
    (Z.to_nat n < fuel)%nat -> (32 < fuel)%nat ->
    run c_Crc8_dvbS2 [VPtr (TInt U8) (BObj b) 0; VInt U32 n; v] m w
    = let! z := Crc8_dvbS2 o n l in Ok (VInt U8 z, m, w).
  Proof.
    intros Hb Hbo Hn Hl Hf Hf'. unfold c_Crc8_dvbS2, Crc8_dvbS2.
    destruct l as [c|]; cbn [last_ptr] in Hl; [crc_split Hl|subst v];
      crc_var c_Crc8_dvbS2_crc_table Crc8_dvbS2_table c_Crc8Base (@ref_Crc8Base W sc ext fuel).
  Qed.

  Lemma ref_Crc8_ebu m w b o n fc v l :
    m !! b = Some (ints 8 o) -> bytes o -> is_u32 n -> last_ptr m U8 v l ->
    (Z.to_nat n < fuel)%nat -> (32 < fuel)%nat ->
    run c_Crc8_ebu [VPtr (TInt U8) (BObj b) 0; VInt U32 n;
      VInt IBool (b2z fc); v] m w
    = let! z := Crc8_ebu o n fc l in Ok (VInt U8 z, m, w).
  Proof.
    intros Hb Hbo Hn Hl Hf Hf'. unfold c_Crc8_ebu, Crc8_ebu.
    destruct l as [c|]; cbn [last_ptr] in Hl; [crc_split Hl|subst v]; destruct fc;
      crc_var c_Crc8_ebu_crc_table Crc8_ebu_table c_Crc8Base (@ref_Crc8Base W sc ext fuel).
  Qed.

  Lemma ref_Crc8_icode m w b o n v l :
    m !! b = Some (ints 8 o) -> bytes o -> is_u32 n -> last_ptr m U8 v l ->
    (Z.to_nat n < fuel)%nat -> (32 < fuel)%nat ->
    run c_Crc8_icode [VPtr (TInt U8) (BObj b) 0; VInt U32 n; v] m w
    = let! z := Crc8_icode o n l in Ok (VInt U8 z, m, w).
  Proof.
    intros Hb Hbo Hn Hl Hf Hf'. unfold c_Crc8_icode, Crc8_icode.
    destruct l as [c|]; cbn [last_ptr] in Hl; [crc_split Hl|subst v];
      crc_var c_Crc8_icode_crc_table Crc8_icode_table c_Crc8Base (@ref_Crc8Base W sc ext fuel).
  Qed.

  Lemma ref_Crc8_itu m w b o n fc v l :
    m !! b = Some (ints 8 o) -> bytes o -> is_u32 n -> last_ptr m U8 v l ->
    (Z.to_nat n < fuel)%nat -> (32 < fuel)%nat ->
    run c_Crc8_itu [VPtr (TInt U8) (BObj b) 0; VInt U32 n;
      VInt IBool (b2z fc); v] m w
    = let! z := Crc8_itu o n fc l in Ok (VInt U8 z, m, w).
  Proof.
    intros Hb Hbo Hn Hl Hf Hf'. unfold c_Crc8_itu, Crc8_itu.
    destruct l as [c|]; cbn [last_ptr] in Hl; [crc_split Hl|subst v]; destruct fc;
      crc_var c_Crc8_itu_crc_table Crc8_itu_table c_Crc8Base (@ref_Crc8Base W sc ext fuel).
  Qed.

  Lemma ref_Crc8_maxim m w b o n fc v l :
    m !! b = Some (ints 8 o) -> bytes o -> is_u32 n -> last_ptr m U8 v l ->
    (Z.to_nat n < fuel)%nat -> (32 < fuel)%nat ->
    run c_Crc8_maxim [VPtr (TInt U8) (BObj b) 0; VInt U32 n;
      VInt IBool (b2z fc); v] m w
    = let! z := Crc8_maxim o n fc l in Ok (VInt U8 z, m, w).
  Proof.
    intros Hb Hbo Hn Hl Hf Hf'. unfold c_Crc8_maxim, Crc8_maxim.
    destruct l as [c|]; cbn [last_ptr] in Hl; [crc_split Hl|subst v]; destruct fc;
      crc_var c_Crc8_maxim_crc_table Crc8_maxim_table c_Crc8Base (@ref_Crc8Base W sc ext fuel).
  Qed.

  Lemma ref_Crc8_rohc m w b o n fc v l :
    m !! b = Some (ints 8 o) -> bytes o -> is_u32 n -> last_ptr m U8 v l ->
    (Z.to_nat n < fuel)%nat -> (32 < fuel)%nat ->
    run c_Crc8_rohc [VPtr (TInt U8) (BObj b) 0; VInt U32 n;
      VInt IBool (b2z fc); v] m w
    = let! z := Crc8_rohc o n fc l in Ok (VInt U8 z, m, w).
  Proof.
    intros Hb Hbo Hn Hl Hf Hf'. unfold c_Crc8_rohc, Crc8_rohc.
    destruct l as [c|]; cbn [last_ptr] in Hl; [crc_split Hl|subst v]; destruct fc;
      crc_var c_Crc8_rohc_crc_table Crc8_rohc_table c_Crc8Base (@ref_Crc8Base W sc ext fuel).
  Qed.

  Lemma ref_Crc8_saeJ1850 m w b o n fc v l :
    m !! b = Some (ints 8 o) -> bytes o -> is_u32 n -> last_ptr m U8 v l ->
    (Z.to_nat n < fuel)%nat -> (32 < fuel)%nat ->
    run c_Crc8_saeJ1850 [VPtr (TInt U8) (BObj b) 0; VInt U32 n;
      VInt IBool (b2z fc); v] m w
    = let! z := Crc8_saeJ1850 o n fc l in Ok (VInt U8 z, m, w).
  Proof.
    intros Hb Hbo Hn Hl Hf Hf'. unfold c_Crc8_saeJ1850, Crc8_saeJ1850.
    destruct l as [c|]; cbn [last_ptr] in Hl; [crc_split Hl|subst v]; destruct fc;
      crc_var c_Crc8_saeJ1850_crc_table Crc8_saeJ1850_table c_Crc8Base (@ref_Crc8Base W sc ext fuel).
  Qed.

  Lemma ref_Crc8_saeJ1850Zero m w b o n v l :
    m !! b = Some (ints 8 o) -> bytes o -> is_u32 n -> last_ptr m U8 v l ->
    (Z.to_nat n < fuel)%nat -> (32 < fuel)%nat ->
    run c_Crc8_saeJ1850Zero [VPtr (TInt U8) (BObj b) 0; VInt U32 n; v] m w
    = let! z := Crc8_saeJ1850Zero o n l in Ok (VInt U8 z, m, w).
  Proof.
    intros Hb Hbo Hn Hl Hf Hf'. unfold c_Crc8_saeJ1850Zero, Crc8_saeJ1850Zero.
    destruct l as [c|]; cbn [last_ptr] in Hl; [crc_split Hl|subst v];
      crc_var c_Crc8_saeJ1850Zero_crc_table Crc8_saeJ1850Zero_table c_Crc8Base (@ref_Crc8Base W sc ext fuel).
  Qed.

  Lemma ref_Crc8_wcdma m w b o n fc v l :
    m !! b = Some (ints 8 o) -> bytes o -> is_u32 n -> last_ptr m U8 v l ->
    (Z.to_nat n < fuel)%nat -> (32 < fuel)%nat ->
    run c_Crc8_wcdma [VPtr (TInt U8) (BObj b) 0; VInt U32 n;
      VInt IBool (b2z fc); v] m w
    = let! z := Crc8_wcdma o n fc l in Ok (VInt U8 z, m, w).
  Proof.
    intros Hb Hbo Hn Hl Hf Hf'. unfold c_Crc8_wcdma, Crc8_wcdma.
    destruct l as [c|]; cbn [last_ptr] in Hl; [crc_split Hl|subst v]; destruct fc;
      crc_var c_Crc8_wcdma_crc_table Crc8_wcdma_table c_Crc8Base (@ref_Crc8Base W sc ext fuel).
  Qed.

  Lemma ref_Crc16_a m w b o n fc v l :
    m !! b = Some (ints 8 o) -> bytes o -> is_u32 n -> last_ptr m U16 v l ->
    (Z.to_nat n < fuel)%nat -> (32 < fuel)%nat ->
    run c_Crc16_a [VPtr (TInt U8) (BObj b) 0; VInt U32 n;
      VInt IBool (b2z fc); v] m w
    = let! z := Crc16_a o n fc l in Ok (VInt U16 z, m, w).
  Proof.
    intros Hb Hbo Hn Hl Hf Hf'. unfold c_Crc16_a, Crc16_a.
    destruct l as [c|]; cbn [last_ptr] in Hl; [crc_split Hl|subst v]; destruct fc;
      crc_var c_Crc16_a_crc_table Crc16_a_table c_Crc16Base (@ref_Crc16Base W sc ext fuel).
  Qed.

  Lemma ref_Crc16_arc m w b o n fc v l :
    m !! b = Some (ints 8 o) -> bytes o -> is_u32 n -> last_ptr m U16 v l ->
    (Z.to_nat n < fuel)%nat -> (32 < fuel)%nat ->
    run c_Crc16_arc [VPtr (TInt U8) (BObj b) 0; VInt U32 n;
      VInt IBool (b2z fc); v] m w
    = let! z := Crc16_arc o n fc l in Ok (VInt U16 z, m, w).
  Proof.
    intros Hb Hbo Hn Hl Hf Hf'. unfold c_Crc16_arc, Crc16_arc.
    destruct l as [c|]; cbn [last_ptr] in Hl; [crc_split Hl|subst v]; destruct fc;
      crc_var c_Crc16_arc_crc_table Crc16_arc_table c_Crc16Base (@ref_Crc16Base W sc ext fuel).
  Qed.

  Lemma ref_Crc16_augCcit m w b o n v l :
    m !! b = Some (ints 8 o) -> bytes o -> is_u32 n -> last_ptr m U16 v l ->
    (Z.to_nat n < fuel)%nat -> (32 < fuel)%nat ->
    run c_Crc16_augCcit [VPtr (TInt U8) (BObj b) 0; VInt U32 n; v] m w
    = let! z := Crc16_augCcit o n l in Ok (VInt U16 z, m, w).
  Proof.
    intros Hb Hbo Hn Hl Hf Hf'. unfold c_Crc16_augCcit, Crc16_augCcit.
    destruct l as [c|]; cbn [last_ptr] in Hl; [crc_split Hl|subst v];
      crc_var c_Crc16_augCcit_crc_table Crc16_augCcit_table c_Crc16Base (@ref_Crc16Base W sc ext fuel).
  Qed.

  Lemma ref_Crc16_buypass m w b o n v l :
    m !! b = Some (ints 8 o) -> bytes o -> is_u32 n -> last_ptr m U16 v l ->
    (Z.to_nat n < fuel)%nat -> (32 < fuel)%nat ->
    run c_Crc16_buypass [VPtr (TInt U8) (BObj b) 0; VInt U32 n; v] m w
    = let! z := Crc16_buypass o n l in Ok (VInt U16 z, m, w).
  Proof.
    intros Hb Hbo Hn Hl Hf Hf'. unfold c_Crc16_buypass, Crc16_buypass.
    destruct l as [c|]; cbn [last_ptr] in Hl; [crc_split Hl|subst v];
      crc_var c_Crc16_buypass_crc_table Crc16_buypass_table c_Crc16Base (@ref_Crc16Base W sc ext fuel).
  Qed.

  Lemma ref_Crc16_ccitFalse m w b o n v l :
    m !! b = Some (ints 8 o) -> bytes o -> is_u32 n -> last_ptr m U16 v l ->
    (Z.to_nat n < fuel)%nat -> (32 < fuel)%nat ->
    run c_Crc16_ccitFalse [VPtr (TInt U8) (BObj b) 0; VInt U32 n; v] m w
    = let! z := Crc16_ccitFalse o n l in Ok (VInt U16 z, m, w).
  Proof.
    intros Hb Hbo Hn Hl Hf Hf'. unfold c_Crc16_ccitFalse, Crc16_ccitFalse.
    destruct l as [c|]; cbn [last_ptr] in Hl; [crc_split Hl|subst v];
      crc_var c_Crc16_ccitFalse_crc_table Crc16_ccitFalse_table c_Crc16Base (@ref_Crc16Base W sc ext fuel).
  Qed.

  Lemma ref_Crc16_ccitZero m w b o n v l :
    m !! b = Some (ints 8 o) -> bytes o -> is_u32 n -> last_ptr m U16 v l ->
    (Z.to_nat n < fuel)%nat -> (32 < fuel)%nat ->
    run c_Crc16_ccitZero [VPtr (TInt U8) (BObj b) 0; VInt U32 n; v] m w
    = let! z := Crc16_ccitZero o n l in Ok (VInt U16 z, m, w).
  Proof.
    intros Hb Hbo Hn Hl Hf Hf'. unfold c_Crc16_ccitZero, Crc16_ccitZero.
    destruct l as [c|]; cbn [last_ptr] in Hl; [crc_split Hl|subst v];
      crc_var c_Crc16_ccitZero_crc_table Crc16_ccitZero_table c_Crc16Base (@ref_Crc16Base W sc ext fuel).
  Qed.

  Lemma ref_Crc16_cdma2000 m w b o n v l :
    m !! b = Some (ints 8 o) -> bytes o -> is_u32 n -> last_ptr m U16 v l ->
    (Z.to_nat n < fuel)%nat -> (32 < fuel)%nat ->
    run c_Crc16_cdma2000 [VPtr (TInt U8) (BObj b) 0; VInt U32 n; v] m w
    = let! z := Crc16_cdma2000 o n l in Ok (VInt U16 z, m, w).
  Proof.
    intros Hb Hbo Hn Hl Hf Hf'. unfold c_Crc16_cdma2000, Crc16_cdma2000.
    destruct l as [c|]; cbn [last_ptr] in Hl; [crc_split Hl|subst v];
      crc_var c_Crc16_cdma2000_crc_table Crc16_cdma2000_table c_Crc16Base (@ref_Crc16Base W sc ext fuel).
  Qed.

  Lemma ref_Crc16_dds110 m w b o n v l :
    m !! b = Some (ints 8 o) -> bytes o -> is_u32 n -> last_ptr m U16 v l ->
    (Z.to_nat n < fuel)%nat -> (32 < fuel)%nat ->
    run c_Crc16_dds110 [VPtr (TInt U8) (BObj b) 0; VInt U32 n; v] m w
    = let! z := Crc16_dds110 o n l in Ok (VInt U16 z, m, w).
  Proof.
    intros Hb Hbo Hn Hl Hf Hf'. unfold c_Crc16_dds110, Crc16_dds110.
    destruct l as [c|]; cbn [last_ptr] in Hl; [crc_split Hl|subst v];
      crc_var c_Crc16_dds110_crc_table Crc16_dds110_table c_Crc16Base (@ref_Crc16Base W sc ext fuel).
  Qed.

  Lemma ref_Crc16_dectR m w b o n fc v l :
    m !! b = Some (ints 8 o) -> bytes o -> is_u32 n -> last_ptr m U16 v l ->
    (Z.to_nat n < fuel)%nat -> (32 < fuel)%nat ->
    run c_Crc16_dectR [VPtr (TInt U8) (BObj b) 0; VInt U32 n;
      VInt IBool (b2z fc); v] m w
    = let! z := Crc16_dectR o n fc l in Ok (VInt U16 z, m, w).
  Proof.
    intros Hb Hbo Hn Hl Hf Hf'. unfold c_Crc16_dectR, Crc16_dectR.
    destruct l as [c|]; cbn [last_ptr] in Hl; [crc_split Hl|subst v]; destruct fc;
      crc_var c_Crc16_dectR_crc_table Crc16_dectR_table c_Crc16Base (@ref_Crc16Base W sc ext fuel).
  Qed.

  Lemma ref_Crc16_dectX m w b o n v l :
    m !! b = Some (ints 8 o) -> bytes o -> is_u32 n -> last_ptr m U16 v l ->
    (Z.to_nat n < fuel)%nat -> (32 < fuel)%nat ->
    run c_Crc16_dectX [VPtr (TInt U8) (BObj b) 0; VInt U32 n; v] m w
    = let! z := Crc16_dectX o n l in Ok (VInt U16 z, m, w).
  Proof.
    intros Hb Hbo Hn Hl Hf Hf'. unfold c_Crc16_dectX, Crc16_dectX.
    destruct l as [c|]; cbn [last_ptr] in Hl; [crc_split Hl|subst v];
      crc_var c_Crc16_dectX_crc_table Crc16_dectX_table c_Crc16Base (@ref_Crc16Base W sc ext fuel).
  Qed.

  Lemma ref_Crc16_dnp m w b o n fc v l :
    m !! b = Some (ints 8 o) -> bytes o -> is_u32 n -> last_ptr m U16 v l ->
    (Z.to_nat n < fuel)%nat -> (32 < fuel)%nat ->
    run c_Crc16_dnp [VPtr (TInt U8) (BObj b) 0; VInt U32 n;
      VInt IBool (b2z fc); v] m w
    = let! z := Crc16_dnp o n fc l in Ok (VInt U16 z, m, w).
  Proof.
    intros Hb Hbo Hn Hl Hf Hf'. unfold c_Crc16_dnp, Crc16_dnp.
    destruct l as [c|]; cbn [last_ptr] in Hl; [crc_split Hl|subst v]; destruct fc;
      crc_var c_Crc16_dnp_crc_table Crc16_dnp_table c_Crc16Base (@ref_Crc16Base W sc ext fuel).
  Qed.

  Lemma ref_Crc16_en13757 m w b o n fc v l :
    m !! b = Some (ints 8 o) -> bytes o -> is_u32 n -> last_ptr m U16 v l ->
    (Z.to_nat n < fuel)%nat -> (32 < fuel)%nat ->
    run c_Crc16_en13757 [VPtr (TInt U8) (BObj b) 0; VInt U32 n;
      VInt IBool (b2z fc); v] m w
    = let! z := Crc16_en13757 o n fc l in Ok (VInt U16 z, m, w).
  Proof.
    intros Hb Hbo Hn Hl Hf Hf'. unfold c_Crc16_en13757, Crc16_en13757.
    destruct l as [c|]; cbn [last_ptr] in Hl; [crc_split Hl|subst v]; destruct fc;
      crc_var c_Crc16_en13757_crc_table Crc16_en13757_table c_Crc16Base (@ref_Crc16Base W sc ext fuel).
  Qed.

  Lemma ref_Crc16_genibus m w b o n fc v l :
    m !! b = Some (ints 8 o) -> bytes o -> is_u32 n -> last_ptr m U16 v l ->
    (Z.to_nat n < fuel)%nat -> (32 < fuel)%nat ->
    run c_Crc16_genibus [VPtr (TInt U8) (BObj b) 0; VInt U32 n;
      VInt IBool (b2z fc); v] m w
    = let! z := Crc16_genibus o n fc l in Ok (VInt U16 z, m, w).
  Proof.
    intros Hb Hbo Hn Hl Hf Hf'. unfold c_Crc16_genibus, Crc16_genibus.
    destruct l as [c|]; cbn [last_ptr] in Hl; [crc_split Hl|subst v]; destruct fc;
      crc_var c_Crc16_genibus_crc_table Crc16_genibus_table c_Crc16Base (@ref_Crc16Base W sc ext fuel).
  Qed.

  Lemma ref_Crc16_kermit m w b o n fc v l :
    m !! b = Some (ints 8 o) -> bytes o -> is_u32 n -> last_ptr m U16 v l ->
    (Z.to_nat n < fuel)%nat -> (32 < fuel)%nat ->
    run c_Crc16_kermit [VPtr (TInt U8) (BObj b) 0; VInt U32 n;
      VInt IBool (b2z fc); v] m w
    = let! z := Crc16_kermit o n fc l in Ok (VInt U16 z, m, w).
  Proof.
    intros Hb Hbo Hn Hl Hf Hf'. unfold c_Crc16_kermit, Crc16_kermit.
    destruct l as [c|]; cbn [last_ptr] in Hl; [crc_split Hl|subst v]; destruct fc;
      crc_var c_Crc16_kermit_crc_table Crc16_kermit_table c_Crc16Base (@ref_Crc16Base W sc ext fuel).
  Qed.

  Lemma ref_Crc16_maxim m w b o n fc v l :
    m !! b = Some (ints 8 o) -> bytes o -> is_u32 n -> last_ptr m U16 v l ->
    (Z.to_nat n < fuel)%nat -> (32 < fuel)%nat ->
    run c_Crc16_maxim [VPtr (TInt U8) (BObj b) 0; VInt U32 n;
      VInt IBool (b2z fc); v] m w
    = let! z := Crc16_maxim o n fc l in Ok (VInt U16 z, m, w).
  Proof.
    intros Hb Hbo Hn Hl Hf Hf'. unfold c_Crc16_maxim, Crc16_maxim.
    destruct l as [c|]; cbn [last_ptr] in Hl; [crc_split Hl|subst v]; destruct fc;
      crc_var c_Crc16_maxim_crc_table Crc16_maxim_table c_Crc16Base (@ref_Crc16Base W sc ext fuel).
  Qed.

  Lemma ref_Crc16_mcrf4xx m w b o n fc v l :
    m !! b = Some (ints 8 o) -> bytes o -> is_u32 n -> last_ptr m U16 v l ->
    (Z.to_nat n < fuel)%nat -> (32 < fuel)%nat ->
    run c_Crc16_mcrf4xx [VPtr (TInt U8) (BObj b) 0; VInt U32 n;
      VInt IBool (b2z fc); v] m w
    = let! z := Crc16_mcrf4xx o n fc l in Ok (VInt U16 z, m, w).
  Proof.
    intros Hb Hbo Hn Hl Hf Hf'. unfold c_Crc16_mcrf4xx, Crc16_mcrf4xx.
    destruct l as [c|]; cbn [last_ptr] in Hl; [crc_split Hl|subst v]; destruct fc;
      crc_var c_Crc16_mcrf4xx_crc_table Crc16_mcrf4xx_table c_Crc16Base (@ref_Crc16Base W sc ext fuel).
  Qed.

  Lemma ref_Crc16_modbus m w b o n fc v l :
    m !! b = Some (ints 8 o) -> bytes o -> is_u32 n -> last_ptr m U16 v l ->
    (Z.to_nat n < fuel)%nat -> (32 < fuel)%nat ->
    run c_Crc16_modbus [VPtr (TInt U8) (BObj b) 0; VInt U32 n;
      VInt IBool (b2z fc); v] m w
    = let! z := Crc16_modbus o n fc l in Ok (VInt U16 z, m, w).
  Proof.
    intros Hb Hbo Hn Hl Hf Hf'. unfold c_Crc16_modbus, Crc16_modbus.
    destruct l as [c|]; cbn [last_ptr] in Hl; [crc_split Hl|subst v]; destruct fc;
      crc_var c_Crc16_modbus_crc_table Crc16_modbus_table c_Crc16Base (@ref_Crc16Base W sc ext fuel).
  Qed.

  Lemma ref_Crc16_riello m w b o n fc v l :
    m !! b = Some (ints 8 o) -> bytes o -> is_u32 n -> last_ptr m U16 v l ->
    (Z.to_nat n < fuel)%nat -> (32 < fuel)%nat ->
    run c_Crc16_riello [VPtr (TInt U8) (BObj b) 0; VInt U32 n;
      VInt IBool (b2z fc); v] m w
    = let! z := Crc16_riello o n fc l in Ok (VInt U16 z, m, w).
  Proof.
    intros Hb Hbo Hn Hl Hf Hf'. unfold c_Crc16_riello, Crc16_riello.
    destruct l as [c|]; cbn [last_ptr] in Hl; [crc_split Hl|subst v]; destruct fc;
      crc_var c_Crc16_riello_crc_table Crc16_riello_table c_Crc16Base (@ref_Crc16Base W sc ext fuel).
  Qed.

  Lemma ref_Crc16_t10Dif m w b o n v l :
    m !! b = Some (ints 8 o) -> bytes o -> is_u32 n -> last_ptr m U16 v l ->
    (Z.to_nat n < fuel)%nat -> (32 < fuel)%nat ->
    run c_Crc16_t10Dif [VPtr (TInt U8) (BObj b) 0; VInt U32 n; v] m w
    = let! z := Crc16_t10Dif o n l in Ok (VInt U16 z, m, w).
  Proof.
    intros Hb Hbo Hn Hl Hf Hf'. unfold c_Crc16_t10Dif, Crc16_t10Dif.
    destruct l as [c|]; cbn [last_ptr] in Hl; [crc_split Hl|subst v];
      crc_var c_Crc16_t10Dif_crc_table Crc16_t10Dif_table c_Crc16Base (@ref_Crc16Base W sc ext fuel).
  Qed.

  Lemma ref_Crc16_teledisk m w b o n v l :
    m !! b = Some (ints 8 o) -> bytes o -> is_u32 n -> last_ptr m U16 v l ->
    (Z.to_nat n < fuel)%nat -> (32 < fuel)%nat ->
    run c_Crc16_teledisk [VPtr (TInt U8) (BObj b) 0; VInt U32 n; v] m w
    = let! z := Crc16_teledisk o n l in Ok (VInt U16 z, m, w).
  Proof.
    intros Hb Hbo Hn Hl Hf Hf'. unfold c_Crc16_teledisk, Crc16_teledisk.
    destruct l as [c|]; cbn [last_ptr] in Hl; [crc_split Hl|subst v];
      crc_var c_Crc16_teledisk_crc_table Crc16_teledisk_table c_Crc16Base (@ref_Crc16Base W sc ext fuel).
  Qed.

  Lemma ref_Crc16_tms37157 m w b o n fc v l :
    m !! b = Some (ints 8 o) -> bytes o -> is_u32 n -> last_ptr m U16 v l ->
    (Z.to_nat n < fuel)%nat -> (32 < fuel)%nat ->
    run c_Crc16_tms37157 [VPtr (TInt U8) (BObj b) 0; VInt U32 n;
      VInt IBool (b2z fc); v] m w
    = let! z := Crc16_tms37157 o n fc l in Ok (VInt U16 z, m, w).
  Proof.
    intros Hb Hbo Hn Hl Hf Hf'. unfold c_Crc16_tms37157, Crc16_tms37157.
    destruct l as [c|]; cbn [last_ptr] in Hl; [crc_split Hl|subst v]; destruct fc;
      crc_var c_Crc16_tms37157_crc_table Crc16_tms37157_table c_Crc16Base (@ref_Crc16Base W sc ext fuel).
  Qed.

  Lemma ref_Crc16_usb m w b o n fc v l :
    m !! b = Some (ints 8 o) -> bytes o -> is_u32 n -> last_ptr m U16 v l ->
    (Z.to_nat n < fuel)%nat -> (32 < fuel)%nat ->
    run c_Crc16_usb [VPtr (TInt U8) (BObj b) 0; VInt U32 n;
      VInt IBool (b2z fc); v] m w
    = let! z := Crc16_usb o n fc l in Ok (VInt U16 z, m, w).
  Proof.
    intros Hb Hbo Hn Hl Hf Hf'. unfold c_Crc16_usb, Crc16_usb.
    destruct l as [c|]; cbn [last_ptr] in Hl; [crc_split Hl|subst v]; destruct fc;
      crc_var c_Crc16_usb_crc_table Crc16_usb_table c_Crc16Base (@ref_Crc16Base W sc ext fuel).
  Qed.

  Lemma ref_Crc16_x25 m w b o n fc v l :
    m !! b = Some (ints 8 o) -> bytes o -> is_u32 n -> last_ptr m U16 v l ->
    (Z.to_nat n < fuel)%nat -> (32 < fuel)%nat ->
    run c_Crc16_x25 [VPtr (TInt U8) (BObj b) 0; VInt U32 n;
      VInt IBool (b2z fc); v] m w
    = let! z := Crc16_x25 o n fc l in Ok (VInt U16 z, m, w).
  Proof.
    intros Hb Hbo Hn Hl Hf Hf'. unfold c_Crc16_x25, Crc16_x25.
    destruct l as [c|]; cbn [last_ptr] in Hl; [crc_split Hl|subst v]; destruct fc;
      crc_var c_Crc16_x25_crc_table Crc16_x25_table c_Crc16Base (@ref_Crc16Base W sc ext fuel).
  Qed.

  Lemma ref_Crc32 m w b o n fc v l :
    m !! b = Some (ints 8 o) -> bytes o -> is_u32 n -> last_ptr m U32 v l ->
    (Z.to_nat n < fuel)%nat -> (32 < fuel)%nat ->
    run c_Crc32 [VPtr (TInt U8) (BObj b) 0; VInt U32 n;
      VInt IBool (b2z fc); v] m w
    = let! z := Crc32 o n fc l in Ok (VInt U32 z, m, w).
  Proof.
    intros Hb Hbo Hn Hl Hf Hf'. unfold c_Crc32, Crc32.
    destruct l as [c|]; cbn [last_ptr] in Hl; [crc_split Hl|subst v]; destruct fc;
      crc_var c_Crc32_crc_table Crc32_table c_Crc32Base (@ref_Crc32Base W sc ext fuel).
  Qed.

  Lemma ref_Crc32_bzip2 m w b o n fc v l :
    m !! b = Some (ints 8 o) -> bytes o -> is_u32 n -> last_ptr m U32 v l ->
    (Z.to_nat n < fuel)%nat -> (32 < fuel)%nat ->
    run c_Crc32_bzip2 [VPtr (TInt U8) (BObj b) 0; VInt U32 n;
      VInt IBool (b2z fc); v] m w
    = let! z := Crc32_bzip2 o n fc l in Ok (VInt U32 z, m, w).
  Proof.
    intros Hb Hbo Hn Hl Hf Hf'. unfold c_Crc32_bzip2, Crc32_bzip2.
    destruct l as [c|]; cbn [last_ptr] in Hl; [crc_split Hl|subst v]; destruct fc;
      crc_var c_Crc32_bzip2_crc_table Crc32_bzip2_table c_Crc32Base (@ref_Crc32Base W sc ext fuel).
  Qed.

  Lemma ref_Crc32_c m w b o n fc v l :
    m !! b = Some (ints 8 o) -> bytes o -> is_u32 n -> last_ptr m U32 v l ->
    (Z.to_nat n < fuel)%nat -> (32 < fuel)%nat ->
    run c_Crc32_c [VPtr (TInt U8) (BObj b) 0; VInt U32 n;
      VInt IBool (b2z fc); v] m w
    = let! z := Crc32_c o n fc l in Ok (VInt U32 z, m, w).
  Proof.
    intros Hb Hbo Hn Hl Hf Hf'. unfold c_Crc32_c, Crc32_c.
    destruct l as [c|]; cbn [last_ptr] in Hl; [crc_split Hl|subst v]; destruct fc;
      crc_var c_Crc32_c_crc_table Crc32_c_table c_Crc32Base (@ref_Crc32Base W sc ext fuel).
  Qed.

  Lemma ref_Crc32_d m w b o n fc v l :
    m !! b = Some (ints 8 o) -> bytes o -> is_u32 n -> last_ptr m U32 v l ->
    (Z.to_nat n < fuel)%nat -> (32 < fuel)%nat ->
    run c_Crc32_d [VPtr (TInt U8) (BObj b) 0; VInt U32 n;
      VInt IBool (b2z fc); v] m w
    = let! z := Crc32_d o n fc l in Ok (VInt U32 z, m, w).
  Proof.
    intros Hb Hbo Hn Hl Hf Hf'. unfold c_Crc32_d, Crc32_d.
    destruct l as [c|]; cbn [last_ptr] in Hl; [crc_split Hl|subst v]; destruct fc;
      crc_var c_Crc32_d_crc_table Crc32_d_table c_Crc32Base (@ref_Crc32Base W sc ext fuel).
  Qed.

  Lemma ref_Crc32_jamcrc m w b o n fc v l :
    m !! b = Some (ints 8 o) -> bytes o -> is_u32 n -> last_ptr m U32 v l ->
    (Z.to_nat n < fuel)%nat -> (32 < fuel)%nat ->
    run c_Crc32_jamcrc [VPtr (TInt U8) (BObj b) 0; VInt U32 n;
      VInt IBool (b2z fc); v] m w
    = let! z := Crc32_jamcrc o n fc l in Ok (VInt U32 z, m, w).
  Proof.
    intros Hb Hbo Hn Hl Hf Hf'. unfold c_Crc32_jamcrc, Crc32_jamcrc.
    destruct l as [c|]; cbn [last_ptr] in Hl; [crc_split Hl|subst v]; destruct fc;
      crc_var c_Crc32_jamcrc_crc_table Crc32_jamcrc_table c_Crc32Base (@ref_Crc32Base W sc ext fuel).
  Qed.

  Lemma ref_Crc32_mpeg2 m w b o n v l :
    m !! b = Some (ints 8 o) -> bytes o -> is_u32 n -> last_ptr m U32 v l ->
    (Z.to_nat n < fuel)%nat -> (32 < fuel)%nat ->
    run c_Crc32_mpeg2 [VPtr (TInt U8) (BObj b) 0; VInt U32 n; v] m w
    = let! z := Crc32_mpeg2 o n l in Ok (VInt U32 z, m, w).
  Proof.
    intros Hb Hbo Hn Hl Hf Hf'. unfold c_Crc32_mpeg2, Crc32_mpeg2.
    destruct l as [c|]; cbn [last_ptr] in Hl; [crc_split Hl|subst v];
      crc_var c_Crc32_mpeg2_crc_table Crc32_mpeg2_table c_Crc32Base (@ref_Crc32Base W sc ext fuel).
  Qed.

  Lemma ref_Crc32_posix m w b o n fc v l :
    m !! b = Some (ints 8 o) -> bytes o -> is_u32 n -> last_ptr m U32 v l ->
    (Z.to_nat n < fuel)%nat -> (32 < fuel)%nat ->
    run c_Crc32_posix [VPtr (TInt U8) (BObj b) 0; VInt U32 n;
      VInt IBool (b2z fc); v] m w
    = let! z := Crc32_posix o n fc l in Ok (VInt U32 z, m, w).
  Proof.
    intros Hb Hbo Hn Hl Hf Hf'. unfold c_Crc32_posix, Crc32_posix.
    destruct l as [c|]; cbn [last_ptr] in Hl; [crc_split Hl|subst v]; destruct fc;
      crc_var c_Crc32_posix_crc_table Crc32_posix_table c_Crc32Base (@ref_Crc32Base W sc ext fuel).
  Qed.

  Lemma ref_Crc32_q m w b o n v l :
    m !! b = Some (ints 8 o) -> bytes o -> is_u32 n -> last_ptr m U32 v l ->
    (Z.to_nat n < fuel)%nat -> (32 < fuel)%nat ->
    run c_Crc32_q [VPtr (TInt U8) (BObj b) 0; VInt U32 n; v] m w
    = let! z := Crc32_q o n l in Ok (VInt U32 z, m, w).
  Proof.
    intros Hb Hbo Hn Hl Hf Hf'. unfold c_Crc32_q, Crc32_q.
    destruct l as [c|]; cbn [last_ptr] in Hl; [crc_split Hl|subst v];
      crc_var c_Crc32_q_crc_table Crc32_q_table c_Crc32Base (@ref_Crc32Base W sc ext fuel).
  Qed.

  Lemma ref_Crc32_xfer m w b o n v l :
    m !! b = Some (ints 8 o) -> bytes o -> is_u32 n -> last_ptr m U32 v l ->
    (Z.to_nat n < fuel)%nat -> (32 < fuel)%nat ->
    run c_Crc32_xfer [VPtr (TInt U8) (BObj b) 0; VInt U32 n; v] m w
    = let! z := Crc32_xfer o n l in Ok (VInt U32 z, m, w).
  Proof.
    intros Hb Hbo Hn Hl Hf Hf'. unfold c_Crc32_xfer, Crc32_xfer.
    destruct l as [c|]; cbn [last_ptr] in Hl; [crc_split Hl|subst v];
      crc_var c_Crc32_xfer_crc_table Crc32_xfer_table c_Crc32Base (@ref_Crc32Base W sc ext fuel).
  Qed.
End variants.
