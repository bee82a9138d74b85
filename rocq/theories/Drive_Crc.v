(** * The CRC functions of the model as one list

    Each entry is a set of catalogued parameters, the table of the function and the function
    itself, called with the data, [crc_length], [final_crc] and [last_crc_ptr].  Functions
    without a [final_crc] argument ignore it.  Written by [/verif/tools/gen_drive_crc.py]. *)
From Verif Require Import CSem Model_Crc Model_CrcVariants Spec_Crc.

Record crc_variant := Crc_variant {
  params : crc_params;
  table_of : list Z;
  run : list Z -> Z -> bool -> option Z -> outcome Z }.

Definition crc_variants : list crc_variant :=
  [Crc_variant crc8 Crc8_table (fun d n _ last => Crc8 d n last);
   Crc_variant crc8_8h2f Crc8_8h2f_table Crc8_8h2f;
   Crc_variant crc8_cdma2000 Crc8_cdma2000_table (fun d n _ last => Crc8_cdma2000 d n last);
   Crc_variant crc8_darc Crc8_darc_table Crc8_darc;
   Crc_variant crc8_dvbS2 Crc8_dvbS2_table (fun d n _ last => Crc8_dvbS2 d n last);
   Crc_variant crc8_ebu Crc8_ebu_table Crc8_ebu;
   Crc_variant crc8_icode Crc8_icode_table (fun d n _ last => Crc8_icode d n last);
   Crc_variant crc8_itu Crc8_itu_table Crc8_itu;
   Crc_variant crc8_maxim Crc8_maxim_table Crc8_maxim;
   Crc_variant crc8_rohc Crc8_rohc_table Crc8_rohc;
   Crc_variant crc8_saeJ1850 Crc8_saeJ1850_table Crc8_saeJ1850;
   Crc_variant crc8_saeJ1850Zero Crc8_saeJ1850Zero_table (fun d n _ last => Crc8_saeJ1850Zero d n last);
   Crc_variant crc8_wcdma Crc8_wcdma_table Crc8_wcdma;
   Crc_variant crc16_a Crc16_a_table Crc16_a;
   Crc_variant crc16_arc Crc16_arc_table Crc16_arc;
   Crc_variant crc16_augCcit Crc16_augCcit_table (fun d n _ last => Crc16_augCcit d n last);
   Crc_variant crc16_buypass Crc16_buypass_table (fun d n _ last => Crc16_buypass d n last);
   Crc_variant crc16_ccitFalse Crc16_ccitFalse_table (fun d n _ last => Crc16_ccitFalse d n last);
   Crc_variant crc16_ccitZero Crc16_ccitZero_table (fun d n _ last => Crc16_ccitZero d n last);
   Crc_variant crc16_cdma2000 Crc16_cdma2000_table (fun d n _ last => Crc16_cdma2000 d n last);
   Crc_variant crc16_dds110 Crc16_dds110_table (fun d n _ last => Crc16_dds110 d n last);
   Crc_variant crc16_dectR Crc16_dectR_table Crc16_dectR;
   Crc_variant crc16_dectX Crc16_dectX_table (fun d n _ last => Crc16_dectX d n last);
   Crc_variant crc16_dnp Crc16_dnp_table Crc16_dnp;
   Crc_variant crc16_en13757 Crc16_en13757_table Crc16_en13757;
   Crc_variant crc16_genibus Crc16_genibus_table Crc16_genibus;
   Crc_variant crc16_kermit Crc16_kermit_table Crc16_kermit;
   Crc_variant crc16_maxim Crc16_maxim_table Crc16_maxim;
   Crc_variant crc16_mcrf4xx Crc16_mcrf4xx_table Crc16_mcrf4xx;
   Crc_variant crc16_modbus Crc16_modbus_table Crc16_modbus;
   Crc_variant crc16_riello Crc16_riello_table Crc16_riello;
   Crc_variant crc16_t10Dif Crc16_t10Dif_table (fun d n _ last => Crc16_t10Dif d n last);
   Crc_variant crc16_teledisk Crc16_teledisk_table (fun d n _ last => Crc16_teledisk d n last);
   Crc_variant crc16_tms37157 Crc16_tms37157_table Crc16_tms37157;
   Crc_variant crc16_usb Crc16_usb_table Crc16_usb;
   Crc_variant crc16_x25 Crc16_x25_table Crc16_x25;
   Crc_variant crc32 Crc32_table Crc32;
   Crc_variant crc32_bzip2 Crc32_bzip2_table Crc32_bzip2;
   Crc_variant crc32_c Crc32_c_table Crc32_c;
   Crc_variant crc32_d Crc32_d_table Crc32_d;
   Crc_variant crc32_jamcrc Crc32_jamcrc_table Crc32_jamcrc;
   Crc_variant crc32_mpeg2 Crc32_mpeg2_table (fun d n _ last => Crc32_mpeg2 d n last);
   Crc_variant crc32_posix Crc32_posix_table Crc32_posix;
   Crc_variant crc32_q Crc32_q_table (fun d n _ last => Crc32_q d n last);
   Crc_variant crc32_xfer Crc32_xfer_table (fun d n _ last => Crc32_xfer d n last)].

(** a message fed in pieces, each with what follows it in its memory: the result of each call
    is passed on, [final_crc] is set in the last only *)
Fixpoint run_pieces (V : crc_variant) (pieces : list (list Z * list Z)) (last : option Z)
  : outcome Z :=
  match pieces with
  | [] => Ok 0
  | [(msg, rest)] => run V (msg ++ rest) (len msg) true last
  | (msg, rest) :: pieces =>
      let! c := run V (msg ++ rest) (len msg) false last in run_pieces V pieces (Some c)
  end.
