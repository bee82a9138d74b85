(** * The CRC functions of the C text as one list

    Each entry: the catalogued parameters, the function produced from the C text and whether it
    has a [final_crc] argument. *)
From Verif Require Import CSem CLang C_Crc C_CrcVariants Spec_Crc Refine.

Definition crc_functions : list (crc_params * fundef * bool) :=
  [(crc8, c_Crc8, false);
   (crc8_8h2f, c_Crc8_8h2f, true);
   (crc8_cdma2000, c_Crc8_cdma2000, false);
   (crc8_darc, c_Crc8_darc, true);
   (crc8_dvbS2, c_Crc8_dvbS2, false);
   (crc8_ebu, c_Crc8_ebu, true);
   (crc8_icode, c_Crc8_icode, false);
   (crc8_itu, c_Crc8_itu, true);
   (crc8_maxim, c_Crc8_maxim, true);
   (crc8_rohc, c_Crc8_rohc, true);
   (crc8_saeJ1850, c_Crc8_saeJ1850, true);
   (crc8_saeJ1850Zero, c_Crc8_saeJ1850Zero, false);
   (crc8_wcdma, c_Crc8_wcdma, true);
   (crc16_a, c_Crc16_a, true);
   (crc16_arc, c_Crc16_arc, true);
   (crc16_augCcit, c_Crc16_augCcit, false);
   (crc16_buypass, c_Crc16_buypass, false);
   (crc16_ccitFalse, c_Crc16_ccitFalse, false);
   (crc16_ccitZero, c_Crc16_ccitZero, false);
   (crc16_cdma2000, c_Crc16_cdma2000, false);
   (crc16_dds110, c_Crc16_dds110, false);
   (crc16_dectR, c_Crc16_dectR, true);
   (crc16_dectX, c_Crc16_dectX, false);
   (crc16_dnp, c_Crc16_dnp, true);
   (crc16_en13757, c_Crc16_en13757, true);
   (crc16_genibus, c_Crc16_genibus, true);
   (crc16_kermit, c_Crc16_kermit, true);
   (crc16_maxim, c_Crc16_maxim, true);
   (crc16_mcrf4xx, c_Crc16_mcrf4xx, true);
   (crc16_modbus, c_Crc16_modbus, true);
   (crc16_riello, c_Crc16_riello, true);
   (crc16_t10Dif, c_Crc16_t10Dif, false);
   (crc16_teledisk, c_Crc16_teledisk, false);
   (crc16_tms37157, c_Crc16_tms37157, true);
   (crc16_usb, c_Crc16_usb, true);
   (crc16_x25, c_Crc16_x25, true);
   (crc32, c_Crc32, true);
   (crc32_bzip2, c_Crc32_bzip2, true);
   (crc32_c, c_Crc32_c, true);
   (crc32_d, c_Crc32_d, true);
   (crc32_jamcrc, c_Crc32_jamcrc, true);
   (crc32_mpeg2, c_Crc32_mpeg2, false);
   (crc32_posix, c_Crc32_posix, true);
   (crc32_q, c_Crc32_q, false);
   (crc32_xfer, c_Crc32_xfer, false)].

(** the type of the result *)
Definition crc_type (P : crc_params) : ity :=
  if width P =? 8 then U8 else if width P =? 16 then U16 else U32.
(** the arguments: the data (object [b], [n] bytes of it), [final_crc] and [last_crc] *)
Definition crc_args (has_final : bool) (b : nat) (n : Z) (final : bool) (last : val) : list val :=
  [VPtr (TInt U8) (BObj b) 0; VInt U32 n] ++ (if has_final then [VInt IBool (b2z final)] else [])
    ++ [last].

(** a message in pieces, each the first bytes of an object: the result of each call is put into
    an object of the caller's for the next, [final_crc] is set in the last call only *)
Section pieces.
  Context {W : Type} (sc : bool)
          (ext : Z -> list val -> mem -> W -> outcome (val * mem * W)) (fuel : nat)
          (P : crc_params) (f : fundef) (has_final : bool).
  Definition crc_call (m : mem) (w : W) (b : nat) (n : Z) (final : bool) (last : option Z)
    : outcome (Z * mem * W) :=
    let t := crc_type P in
    let! '(v, m', w) :=
      match last with
      | None => call sc ext fuel f (crc_args has_final b n final VNull) m w
      | Some c => call sc ext fuel f (crc_args has_final b n final (VPtr (TInt t) (BObj (length m)) 0))
                    (m ++ [ints (CLang.width t) [c]]) w
      end in
    match v with VInt _ z => Ok (z, take (length m) m', w) | _ => UB BadType end.
  Fixpoint crc_pieces (pieces : list (nat * Z)) (last : option Z) (m : mem) (w : W)
    : outcome (Z * mem * W) :=
    match pieces with
    | [] => Ok (0, m, w)
    | [(b, n)] => crc_call m w b n true last
    | (b, n) :: pieces =>
        let! '(c, m, w) := crc_call m w b n false last in crc_pieces pieces (Some c) m w
    end.
End pieces.
(** [p]: the first bytes of an object, the piece [msg] of the message *)
Definition piece_at (fuel : nat) (m : mem) (p : nat * Z) (msg : list Z) : Prop :=
  exists rest, m !! p.1 = Some (ints 8 (msg ++ rest)) /\ bytes (msg ++ rest) /\
    p.2 = len msg /\ len msg < 2 ^ 32 /\ len msg < Z.of_nat fuel.
