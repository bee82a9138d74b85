(** * The hand-written model of the CRC functions against the C text *)
From Verif Require Import CSem Lib CLang C_Utils C_Crc Model_Utils Model_Crc Refine Refine_Utils.

Section crc.
  Context {W : Type} (sc : bool)
          (ext : Z -> list val -> mem -> W -> outcome (val * mem * W)) (fuel : nat).
  Local Notation run f := (call sc ext fuel f).
  Implicit Types (m : mem) (w : W) (o : list Z).

  Lemma ref_Crc8Base_tableCalculator m w b o poly :
    m !! b = Some (ints 8 o) -> is_byte poly -> (256 < fuel)%nat ->
    run c_Crc8Base_tableCalculator [VInt U8 poly; VPtr (TInt U8) (BObj b) 0] m w
    = let! o := Crc8Base_tableCalculator poly o in Ok (VUndef, <[b := ints 8 o]> m, w).
  Proof.
    intros Hb Hp Hf. unfold c_Crc8Base_tableCalculator, Crc8Base_tableCalculator. go.
    sim_for (fun i o => ([VInt U8 poly; VPtr (TInt U8) (BObj b) 0; VInt U8 128; VInt U32 i],
                         <[b := ints 8 o]> m, w))
      (fun _ _ => True); [|lia|done|lia| |done| |].
    - by rewrite list_insert_id.
    - intros i s Hi _. go_body.
      sim_for (fun j r => ([VInt U8 poly; VPtr (TInt U8) (BObj b) 0; VInt U8 128; VInt U32 i;
                            VInt U8 r; VInt U8 j], <[b := ints 8 s]> m, w))
        (fun _ r => is_byte r); [done|lia|apply u8_byte|lia| | | |].
      + intros j r Hj Hr. go_body.
      + intros j r r' Hj Hr Hs. destruct (_ =? _); injection Hs as <-; apply u8_byte.
      + intros r Hr. go_body.
      + both. go.
    - intros s _. go_body.
    - both. go.
  Qed.
  Lemma ref_Crc16Base_tableCalculator m w b o poly :
    m !! b = Some (ints 16 o) -> is_u16 poly -> (256 < fuel)%nat ->
    run c_Crc16Base_tableCalculator [VInt U16 poly; VPtr (TInt U16) (BObj b) 0] m w
    = let! o := Crc16Base_tableCalculator poly o in Ok (VUndef, <[b := ints 16 o]> m, w).
  Proof.
    intros Hb Hp Hf. unfold c_Crc16Base_tableCalculator, Crc16Base_tableCalculator. go.
    sim_for (fun i o => ([VInt U16 poly; VPtr (TInt U16) (BObj b) 0; VInt U16 32768; VInt U32 i],
                         <[b := ints 16 o]> m, w))
      (fun _ _ => True); [|lia|done|lia| |done| |].
    - by rewrite list_insert_id.
    - intros i s Hi _. go_body.
      sim_for (fun j r => ([VInt U16 poly; VPtr (TInt U16) (BObj b) 0; VInt U16 32768; VInt U32 i;
                            VInt U16 r; VInt U8 j], <[b := ints 16 s]> m, w))
        (fun _ r => is_u16 r); [done|lia|rng|lia| | | |].
      + intros j r Hj Hr. go_body.
      + intros j r r' Hj Hr Hs. destruct (_ =? _); injection Hs as <-; rng.
      + intros r Hr. go_body.
      + both. go.
    - intros s _. go_body.
    - both. go.
  Qed.

  Lemma ref_Crc32Base_tableCalculator m w b o poly :
    m !! b = Some (ints 32 o) -> is_u32 poly -> (256 < fuel)%nat ->
    run c_Crc32Base_tableCalculator [VInt U32 poly; VPtr (TInt U32) (BObj b) 0] m w
    = let! o := Crc32Base_tableCalculator poly o in Ok (VUndef, <[b := ints 32 o]> m, w).
  Proof.
    intros Hb Hp Hf. unfold c_Crc32Base_tableCalculator, Crc32Base_tableCalculator. go.
    sim_for (fun i o => ([VInt U32 poly; VPtr (TInt U32) (BObj b) 0; VInt U32 2147483648; VInt U32 i],
                         <[b := ints 32 o]> m, w))
      (fun _ _ => True); [|lia|done|lia| |done| |].
    - by rewrite list_insert_id.
    - intros i s Hi _. go_body.
      sim_for (fun j r => ([VInt U32 poly; VPtr (TInt U32) (BObj b) 0; VInt U32 2147483648; VInt U32 i;
                            VInt U32 r; VInt U8 j], <[b := ints 32 s]> m, w))
        (fun _ r => is_u32 r); [done|lia|rng|lia| | | |].
      + intros j r Hj Hr. go_body.
      + intros j r r' Hj Hr Hs. destruct (_ =? _); injection Hs as <-; [rng|].
        apply lxor_bound; [lia|rng|done].
      + intros r Hr. go_body.
      + both. go.
    - intros s _. go_body.
    - both. go.
  Qed.

  Lemma ref_Crc8Base m w tb t b o n iv fx ro ri fxb :
    block m tb = Ok (ints 8 t) -> m !! b = Some (ints 8 o) -> bytes t -> bytes o ->
    is_u32 n -> is_byte iv -> is_byte fx -> (Z.to_nat n < fuel)%nat -> (32 < fuel)%nat -> 
    run c_Crc8Base [VPtr (TInt U8) tb 0; VPtr (TInt U8) (BObj b) 0; VInt U32 n; VInt U8 iv;
      VInt U8 fx; VInt IBool (b2z ro); VInt IBool (b2z ri); VInt IBool (b2z fxb)] m w
    = let! z := Crc8Base t o n iv fx ro ri fxb in Ok (VInt U8 z, m, w).
  Proof.
    intros Ht Hb Hbt Hbo Hn Hiv Hfx Hf Hf'. unfold c_Crc8Base, Crc8Base. go.
    sim_for (fun i c => ([VPtr (TInt U8) tb 0; VPtr (TInt U8) (BObj b) 0; VInt U32 n; VInt U8 iv;
      VInt U8 fx; VInt IBool (b2z ro); VInt IBool (b2z ri); VInt IBool (b2z fxb);
      VInt U8 c; VPtr (TInt U8) (BObj b) i; VInt U32 i], m, w))
      (fun _ c => is_byte c); [done|rng|done|rng| | | |].
    - intros i c Hi Hc. unfold crc_input, REFLECTED_INPUT_BITS_NUM. go_body.
      + call_with [VInt U32 z; VInt U8 8]. rewrite ref_reflect by (first [lia|rng]). 
        go. both. go.
    - intros i c c' Hi Hc Hs. apply bind_ok_inv in Hs as (? & _ & Hs).
      apply bind_ok_inv in Hs as (? & _ & Hs). exact (load_byte _ _ _ Hbt Hs).
    - intros c Hc. go_body.
    - both. go.
      + call_with [VInt U32 r; VInt U8 8]. rewrite ref_reflect by (first [lia|rng]). 
        go. both. go.
  Qed.
  Lemma ref_Crc16Base m w tb t b o n iv fx ro ri fxb :
    block m tb = Ok (ints 16 t) -> m !! b = Some (ints 8 o) -> bytes o ->
    is_u32 n -> is_u16 iv -> is_u16 fx -> (Z.to_nat n < fuel)%nat -> (32 < fuel)%nat -> 
    run c_Crc16Base [VPtr (TInt U16) tb 0; VPtr (TInt U8) (BObj b) 0; VInt U32 n; VInt U16 iv;
      VInt U16 fx; VInt IBool (b2z ro); VInt IBool (b2z ri); VInt IBool (b2z fxb)] m w
    = let! z := Crc16Base t o n iv fx ro ri fxb in Ok (VInt U16 z, m, w).
  Proof.
    intros Ht Hb Hbo Hn Hiv Hfx Hf Hf'. unfold c_Crc16Base, Crc16Base. go.
    sim_for (fun i c => ([VPtr (TInt U16) tb 0; VPtr (TInt U8) (BObj b) 0; VInt U32 n; VInt U16 iv;
      VInt U16 fx; VInt IBool (b2z ro); VInt IBool (b2z ri); VInt IBool (b2z fxb);
      VInt U16 c; VPtr (TInt U8) (BObj b) i; VInt U32 i], m, w))
      (fun _ c => is_u16 c); [done|rng|done|rng| | | |].
    - intros i c Hi Hc. unfold crc_input, REFLECTED_INPUT_BITS_NUM. go_body.
      + call_with [VInt U32 z; VInt U8 8]. rewrite ref_reflect by (first [lia|rng]). 
        go. both. go.
    - intros i c c' Hi Hc Hs. apply bind_ok_inv in Hs as (? & _ & Hs).
      apply bind_ok_inv in Hs as (? & _ & Hs). apply bind_ok_inv in Hs as (? & Hl & Hs).
      injection Hs as <-. rng.
    - intros c Hc. go_body.
    - both. go.
      + call_with [VInt U32 r; VInt U8 16]. rewrite ref_reflect by (first [lia|rng]). 
        go. both. go.
  Qed.
  Lemma ref_Crc32Base m w tb t b o n iv fx ro ri fxb :
    block m tb = Ok (ints 32 t) -> m !! b = Some (ints 8 o) -> Forall is_u32 t -> bytes o ->
    is_u32 n -> is_u32 iv -> is_u32 fx -> (Z.to_nat n < fuel)%nat -> (32 < fuel)%nat -> 
    run c_Crc32Base [VPtr (TInt U32) tb 0; VPtr (TInt U8) (BObj b) 0; VInt U32 n; VInt U32 iv;
      VInt U32 fx; VInt IBool (b2z ro); VInt IBool (b2z ri); VInt IBool (b2z fxb)] m w
    = let! z := Crc32Base t o n iv fx ro ri fxb in Ok (VInt U32 z, m, w).
  Proof.
    intros Ht Hb Hbt Hbo Hn Hiv Hfx Hf Hf'. unfold c_Crc32Base, Crc32Base. go.
    sim_for (fun i c => ([VPtr (TInt U32) tb 0; VPtr (TInt U8) (BObj b) 0; VInt U32 n; VInt U32 iv;
      VInt U32 fx; VInt IBool (b2z ro); VInt IBool (b2z ri); VInt IBool (b2z fxb);
      VInt U32 c; VPtr (TInt U8) (BObj b) i; VInt U32 i], m, w))
      (fun _ c => is_u32 c); [done|rng|done|rng| | | |].
    - intros i c Hi Hc. unfold crc_input, REFLECTED_INPUT_BITS_NUM. go_body.
      + call_with [VInt U32 z; VInt U8 8]. rewrite ref_reflect by (first [lia|rng]). 
        go. both. go.
    - intros i c c' Hi Hc Hs. apply bind_ok_inv in Hs as (? & _ & Hs).
      apply bind_ok_inv in Hs as (? & _ & Hs). apply bind_ok_inv in Hs as (? & Hl & Hs).
      injection Hs as <-. apply lxor_bound; [lia|rng|].
      apply load_inv in Hl as [? ->]. by apply Forall_get.
    - intros c Hc. go_body.
    - both. go.
      + call_with [VInt U32 r; VInt U8 32]. rewrite ref_reflect by (first [lia|rng]). 
        go. both. go.
  Qed.
End crc.
