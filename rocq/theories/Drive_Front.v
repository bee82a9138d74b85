(** * The functions of [/repo/Src], file by file

    What the translation of the files of [/repo/Src] should return: for each file the functions
    it defines, in order, with their definitions in [C_*.v].  A flag marks static functions. *)
From Coq Require Import String.
From Verif Require Import CSem CLang CFront CSystem.
From Verif Require Import C_Utils C_Base64 C_Containers C_Sort C_Crypto C_Crc C_CrcVariants C_Json.
From Verif Require Import Text_Utils Text_Containers Text_Sort Text_Crypto Text_Crc Text_Crc8 Text_Crc16 Text_Crc32 Text_Headers Text_HeadersCrc.
Local Open Scope string_scope.
Local Open Scope list_scope.

(** the texts, by file name *)
Definition repo : files :=
  text_utils ++ text_containers ++ text_sort ++ text_crypto ++ text_crc ++ text_crc8 ++ text_crc16 ++ text_crc32 ++
   text_headers ++ text_headerscrc ++ system.

(** functions that other files may call *)
Definition externs (l : list (string * bool * fundef)) : list (string * fundef) :=
  flat_map (fun '(x, static, d) => if (static : bool) then [] else [(x, d)]) l.

(** files one after the other, each seeing the functions of those before *)
Fixpoint program (fs : files) (funs : list (string * fundef)) (l : list string)
  : option (list (string * list (string * bool * fundef))) :=
  match l with
  | [] => Some []
  | f :: l =>
      ds ← translate fs funs f;
      r ← program fs (externs ds ++ funs) l;
      Some ((f, ds) :: r)
  end.

(** the functions that the text of [/repo] defines and exports, by name *)
Definition functions (p : list (string * list (string * bool * fundef)))
  : list (string * fundef) := flat_map (fun x => externs (snd x)) p.

(** call of the function [x] of the program in the files [l] of [fs] *)
Definition run_text {W} (sc : bool)
    (ext : Z -> list val -> mem -> W -> outcome (val * mem * W)) (fuel : nat)
    (fs : files) (l : list string) (x : string) (args : list val) (m : mem) (w : W)
  : outcome (val * mem * W) :=
  match p ← program fs [] l; assoc x (functions p) with
  | Some d => call sc ext fuel d args m w
  | None => UB BadType
  end.

(** Src/utils.c *)
Definition funs_utils_c : list (string * bool * fundef) :=
  [("Utils_stringToUint32", false, c_Utils_stringToUint32);
   ("Utils_swapElements", false, c_Utils_swapElements);
   ("Utils_quickUint32Pow10", false, c_Utils_quickUint32Pow10);
   ("Utils_serialize8", false, c_Utils_serialize8);
   ("Utils_deserialize8", false, c_Utils_deserialize8);
   ("Utils_serialize16BE", false, c_Utils_serialize16BE);
   ("Utils_serialize24BE", false, c_Utils_serialize24BE);
   ("Utils_serialize32BE", false, c_Utils_serialize32BE);
   ("Utils_serializeBlobBE", false, c_Utils_serializeBlobBE);
   ("Utils_deserialize16BE", false, c_Utils_deserialize16BE);
   ("Utils_deserialize24BE", false, c_Utils_deserialize24BE);
   ("Utils_deserialize32BE", false, c_Utils_deserialize32BE);
   ("Utils_deserializeBlobBE", false, c_Utils_deserializeBlobBE);
   ("Utils_serialize16LE", false, c_Utils_serialize16LE);
   ("Utils_serialize24LE", false, c_Utils_serialize24LE);
   ("Utils_serialize32LE", false, c_Utils_serialize32LE);
   ("Utils_serializeBlobLE", false, c_Utils_serializeBlobLE);
   ("Utils_deserialize16LE", false, c_Utils_deserialize16LE);
   ("Utils_deserialize24LE", false, c_Utils_deserialize24LE);
   ("Utils_deserialize32LE", false, c_Utils_deserialize32LE);
   ("Utils_deserializeBlobLE", false, c_Utils_deserializeBlobLE);
   ("Utils_isUpperChar", false, c_Utils_isUpperChar);
   ("Utils_isLowerChar", false, c_Utils_isLowerChar);
   ("Utils_isAlpha", false, c_Utils_isAlpha)].
(** Src/bit_manipulation.c *)
Definition funs_bit_manipulation_c : list (string * bool * fundef) :=
  [("BitManipulation_reflect", false, c_BitManipulation_reflect);
   ("BitManipulation_bitSet", false, c_BitManipulation_bitSet);
   ("BitManipulation_setBit", false, c_BitManipulation_setBit);
   ("BitManipulation_clearBit", false, c_BitManipulation_clearBit);
   ("BitManipulation_toggleBit", false, c_BitManipulation_toggleBit);
   ("BitManipulation_rotl32", false, c_BitManipulation_rotl32)].
(** Src/base64.c *)
Definition funs_base64_c : list (string * bool * fundef) :=
  [("Base64_encode", false, c_Base64_encode); ("Base64_decode", false, c_Base64_decode)].
(** Src/queue.c *)
Definition funs_queue_c : list (string * bool * fundef) :=
  [("Queue_init", false, c_Queue_init); ("Queue_full", false, c_Queue_full);
   ("Queue_empty", false, c_Queue_empty); ("Queue_enqueue", false, c_Queue_enqueue);
   ("Queue_dequeue", false, c_Queue_dequeue); ("Queue_front", false, c_Queue_front);
   ("Queue_rear", false, c_Queue_rear)].
(** Src/priority_queue.c *)
Definition funs_priority_queue_c : list (string * bool * fundef) :=
  [("Full", true, c_PQ_Full);
   ("GetHighestPriorityIndex", true, c_PQ_GetHighestPriorityIndex);
   ("GetLowestPriorityIndex", true, c_PQ_GetLowestPriorityIndex);
   ("PriorityQueue_init", false, c_PriorityQueue_init);
   ("PriorityQueue_empty", false, c_PriorityQueue_empty);
   ("PriorityQueue_enqueue", false, c_PriorityQueue_enqueue);
   ("PriorityQueue_dequeue", false, c_PriorityQueue_dequeue)].
(** Src/map.c *)
Definition funs_map_c : list (string * bool * fundef) :=
  [("GetIndex", true, c_Map_GetIndex); ("Map_init", false, c_Map_init);
   ("Map_insert", false, c_Map_insert); ("Map_getValue", false, c_Map_getValue)].
(** Src/scheduler.c *)
Definition funs_scheduler_c : list (string * bool * fundef) :=
  [("Scheduler_init", false, c_Scheduler_init);
   ("Scheduler_addTask", false, c_Scheduler_addTask);
   ("Scheduler_run", false, c_Scheduler_run)].
(** Src/sort/bubble_sort.c *)
Definition funs_bubble_sort_c : list (string * bool * fundef) :=
  [("BubbleSort_sort", false, c_BubbleSort_sort)].
(** Src/sort/insertion_sort.c *)
Definition funs_insertion_sort_c : list (string * bool * fundef) :=
  [("InsertionSort_sort", false, c_InsertionSort_sort)].
(** Src/sort/selection_sort.c *)
Definition funs_selection_sort_c : list (string * bool * fundef) :=
  [("SelectionSort_sort", false, c_SelectionSort_sort)].
(** Src/sort/heap_sort.c *)
Definition funs_heap_sort_c : list (string * bool * fundef) :=
  [("Heapify", true, c_Heapify); ("HeapSort_sort", false, c_HeapSort_sort)].
(** Src/crypto/caesar_cipher.c *)
Definition funs_caesar_cipher_c : list (string * bool * fundef) :=
  [("CaesarCipher_encrypt", false, c_CaesarCipher_encrypt);
   ("CaesarCipher_decrypt", false, c_CaesarCipher_decrypt)].
(** Src/crypto/vernam_cipher.c *)
Definition funs_vernam_cipher_c : list (string * bool * fundef) :=
  [("VernamCipher_encrypt", false, c_VernamCipher_encrypt);
   ("VernamCipher_decrypt", false, c_VernamCipher_decrypt)].
(** Src/crypto/chacha20.c *)
Definition funs_chacha20_c : list (string * bool * fundef) :=
  [("QuarterRound", true, c_QuarterRound); ("Block", true, c_Block);
   ("Chacha20_crypt", false, c_Chacha20_crypt)].
(** Src/crc/crc8_base.c *)
Definition funs_crc8_base_c : list (string * bool * fundef) :=
  [("Crc8Base_tableCalculator", false, c_Crc8Base_tableCalculator);
   ("Crc8Base", false, c_Crc8Base)].
(** Src/crc/crc16_base.c *)
Definition funs_crc16_base_c : list (string * bool * fundef) :=
  [("Crc16Base_tableCalculator", false, c_Crc16Base_tableCalculator);
   ("Crc16Base", false, c_Crc16Base)].
(** Src/crc/crc32_base.c *)
Definition funs_crc32_base_c : list (string * bool * fundef) :=
  [("Crc32Base_tableCalculator", false, c_Crc32Base_tableCalculator);
   ("Crc32Base", false, c_Crc32Base)].
(** Src/crc/crc8_variants/crc8.c *)
Definition funs_crc8_c : list (string * bool * fundef) :=
  [("Crc8", false, c_Crc8)].
(** Src/crc/crc8_variants/crc8_8h2f.c *)
Definition funs_crc8_8h2f_c : list (string * bool * fundef) :=
  [("Crc8_8h2f", false, c_Crc8_8h2f)].
(** Src/crc/crc8_variants/crc8_cdma2000.c *)
Definition funs_crc8_cdma2000_c : list (string * bool * fundef) :=
  [("Crc8_cdma2000", false, c_Crc8_cdma2000)].
(** Src/crc/crc8_variants/crc8_darc.c *)
Definition funs_crc8_darc_c : list (string * bool * fundef) :=
  [("Crc8_darc", false, c_Crc8_darc)].
(** Src/crc/crc8_variants/crc8_dvb_s2.c *)
Definition funs_crc8_dvb_s2_c : list (string * bool * fundef) :=
  [("Crc8_dvbS2", false, c_Crc8_dvbS2)].
(** Src/crc/crc8_variants/crc8_ebu.c *)
Definition funs_crc8_ebu_c : list (string * bool * fundef) :=
  [("Crc8_ebu", false, c_Crc8_ebu)].
(** Src/crc/crc8_variants/crc8_icode.c *)
Definition funs_crc8_icode_c : list (string * bool * fundef) :=
  [("Crc8_icode", false, c_Crc8_icode)].
(** Src/crc/crc8_variants/crc8_itu.c *)
Definition funs_crc8_itu_c : list (string * bool * fundef) :=
  [("Crc8_itu", false, c_Crc8_itu)].
(** Src/crc/crc8_variants/crc8_maxim.c *)
Definition funs_crc8_maxim_c : list (string * bool * fundef) :=
  [("Crc8_maxim", false, c_Crc8_maxim)].
(** Src/crc/crc8_variants/crc8_rohc.c *)
Definition funs_crc8_rohc_c : list (string * bool * fundef) :=
  [("Crc8_rohc", false, c_Crc8_rohc)].
(** Src/crc/crc8_variants/crc8_sae_j1850.c *)
Definition funs_crc8_sae_j1850_c : list (string * bool * fundef) :=
  [("Crc8_saeJ1850", false, c_Crc8_saeJ1850)].
(** Src/crc/crc8_variants/crc8_sae_j1850_zero.c *)
Definition funs_crc8_sae_j1850_zero_c : list (string * bool * fundef) :=
  [("Crc8_saeJ1850Zero", false, c_Crc8_saeJ1850Zero)].
(** Src/crc/crc8_variants/crc8_wcdma.c *)
Definition funs_crc8_wcdma_c : list (string * bool * fundef) :=
  [("Crc8_wcdma", false, c_Crc8_wcdma)].
(** Src/crc/crc16_variants/crc16_a.c *)
Definition funs_crc16_a_c : list (string * bool * fundef) :=
  [("Crc16_a", false, c_Crc16_a)].
(** Src/crc/crc16_variants/crc16_arc.c *)
Definition funs_crc16_arc_c : list (string * bool * fundef) :=
  [("Crc16_arc", false, c_Crc16_arc)].
(** Src/crc/crc16_variants/crc16_aug_ccit.c *)
Definition funs_crc16_aug_ccit_c : list (string * bool * fundef) :=
  [("Crc16_augCcit", false, c_Crc16_augCcit)].
(** Src/crc/crc16_variants/crc16_buypass.c *)
Definition funs_crc16_buypass_c : list (string * bool * fundef) :=
  [("Crc16_buypass", false, c_Crc16_buypass)].
(** Src/crc/crc16_variants/crc16_ccit_false.c *)
Definition funs_crc16_ccit_false_c : list (string * bool * fundef) :=
  [("Crc16_ccitFalse", false, c_Crc16_ccitFalse)].
(** Src/crc/crc16_variants/crc16_ccit_zero.c *)
Definition funs_crc16_ccit_zero_c : list (string * bool * fundef) :=
  [("Crc16_ccitZero", false, c_Crc16_ccitZero)].
(** Src/crc/crc16_variants/crc16_cdma2000.c *)
Definition funs_crc16_cdma2000_c : list (string * bool * fundef) :=
  [("Crc16_cdma2000", false, c_Crc16_cdma2000)].
(** Src/crc/crc16_variants/crc16_dds110.c *)
Definition funs_crc16_dds110_c : list (string * bool * fundef) :=
  [("Crc16_dds110", false, c_Crc16_dds110)].
(** Src/crc/crc16_variants/crc16_dect_r.c *)
Definition funs_crc16_dect_r_c : list (string * bool * fundef) :=
  [("Crc16_dectR", false, c_Crc16_dectR)].
(** Src/crc/crc16_variants/crc16_dect_x.c *)
Definition funs_crc16_dect_x_c : list (string * bool * fundef) :=
  [("Crc16_dectX", false, c_Crc16_dectX)].
(** Src/crc/crc16_variants/crc16_dnp.c *)
Definition funs_crc16_dnp_c : list (string * bool * fundef) :=
  [("Crc16_dnp", false, c_Crc16_dnp)].
(** Src/crc/crc16_variants/crc16_en_13757.c *)
Definition funs_crc16_en_13757_c : list (string * bool * fundef) :=
  [("Crc16_en13757", false, c_Crc16_en13757)].
(** Src/crc/crc16_variants/crc16_genibus.c *)
Definition funs_crc16_genibus_c : list (string * bool * fundef) :=
  [("Crc16_genibus", false, c_Crc16_genibus)].
(** Src/crc/crc16_variants/crc16_kermit.c *)
Definition funs_crc16_kermit_c : list (string * bool * fundef) :=
  [("Crc16_kermit", false, c_Crc16_kermit)].
(** Src/crc/crc16_variants/crc16_maxim.c *)
Definition funs_crc16_maxim_c : list (string * bool * fundef) :=
  [("Crc16_maxim", false, c_Crc16_maxim)].
(** Src/crc/crc16_variants/crc16_mcrf4xx.c *)
Definition funs_crc16_mcrf4xx_c : list (string * bool * fundef) :=
  [("Crc16_mcrf4xx", false, c_Crc16_mcrf4xx)].
(** Src/crc/crc16_variants/crc16_modbus.c *)
Definition funs_crc16_modbus_c : list (string * bool * fundef) :=
  [("Crc16_modbus", false, c_Crc16_modbus)].
(** Src/crc/crc16_variants/crc16_riello.c *)
Definition funs_crc16_riello_c : list (string * bool * fundef) :=
  [("Crc16_riello", false, c_Crc16_riello)].
(** Src/crc/crc16_variants/crc16_t10_dif.c *)
Definition funs_crc16_t10_dif_c : list (string * bool * fundef) :=
  [("Crc16_t10Dif", false, c_Crc16_t10Dif)].
(** Src/crc/crc16_variants/crc16_teledisk.c *)
Definition funs_crc16_teledisk_c : list (string * bool * fundef) :=
  [("Crc16_teledisk", false, c_Crc16_teledisk)].
(** Src/crc/crc16_variants/crc16_tms37157.c *)
Definition funs_crc16_tms37157_c : list (string * bool * fundef) :=
  [("Crc16_tms37157", false, c_Crc16_tms37157)].
(** Src/crc/crc16_variants/crc16_usb.c *)
Definition funs_crc16_usb_c : list (string * bool * fundef) :=
  [("Crc16_usb", false, c_Crc16_usb)].
(** Src/crc/crc16_variants/crc16_x_25.c *)
Definition funs_crc16_x_25_c : list (string * bool * fundef) :=
  [("Crc16_x25", false, c_Crc16_x25)].
(** Src/crc/crc32_variants/crc32.c *)
Definition funs_crc32_c : list (string * bool * fundef) :=
  [("Crc32", false, c_Crc32)].
(** Src/crc/crc32_variants/crc32_bzip2.c *)
Definition funs_crc32_bzip2_c : list (string * bool * fundef) :=
  [("Crc32_bzip2", false, c_Crc32_bzip2)].
(** Src/crc/crc32_variants/crc32_c.c *)
Definition funs_crc32_c_c : list (string * bool * fundef) :=
  [("Crc32_c", false, c_Crc32_c)].
(** Src/crc/crc32_variants/crc32_d.c *)
Definition funs_crc32_d_c : list (string * bool * fundef) :=
  [("Crc32_d", false, c_Crc32_d)].
(** Src/crc/crc32_variants/crc32_jamcrc.c *)
Definition funs_crc32_jamcrc_c : list (string * bool * fundef) :=
  [("Crc32_jamcrc", false, c_Crc32_jamcrc)].
(** Src/crc/crc32_variants/crc32_mpeg2.c *)
Definition funs_crc32_mpeg2_c : list (string * bool * fundef) :=
  [("Crc32_mpeg2", false, c_Crc32_mpeg2)].
(** Src/crc/crc32_variants/crc32_posix.c *)
Definition funs_crc32_posix_c : list (string * bool * fundef) :=
  [("Crc32_posix", false, c_Crc32_posix)].
(** Src/crc/crc32_variants/crc32_q.c *)
Definition funs_crc32_q_c : list (string * bool * fundef) :=
  [("Crc32_q", false, c_Crc32_q)].
(** Src/crc/crc32_variants/crc32_xfer.c *)
Definition funs_crc32_xfer_c : list (string * bool * fundef) :=
  [("Crc32_xfer", false, c_Crc32_xfer)].
(** Src/json.c *)
Definition funs_json_c : list (string * bool * fundef) :=
  [("Json_startString", false, c_Json_startString); ("Json_addData", false, c_Json_addData);
   ("Json_endString", false, c_Json_endString); ("Json_findByKey", false, c_Json_findByKey)].

(** every file of [/repo/Src], after those it calls *)
Definition c_program : list (string * list (string * bool * fundef)) :=
  [("utils.c", funs_utils_c); ("bit_manipulation.c", funs_bit_manipulation_c);
   ("base64.c", funs_base64_c); ("queue.c", funs_queue_c);
   ("priority_queue.c", funs_priority_queue_c); ("map.c", funs_map_c);
   ("scheduler.c", funs_scheduler_c); ("bubble_sort.c", funs_bubble_sort_c);
   ("insertion_sort.c", funs_insertion_sort_c); ("selection_sort.c", funs_selection_sort_c);
   ("heap_sort.c", funs_heap_sort_c); ("caesar_cipher.c", funs_caesar_cipher_c);
   ("vernam_cipher.c", funs_vernam_cipher_c); ("chacha20.c", funs_chacha20_c);
   ("crc8_base.c", funs_crc8_base_c); ("crc16_base.c", funs_crc16_base_c);
   ("crc32_base.c", funs_crc32_base_c); ("crc8.c", funs_crc8_c);
   ("crc8_8h2f.c", funs_crc8_8h2f_c); ("crc8_cdma2000.c", funs_crc8_cdma2000_c);
   ("crc8_darc.c", funs_crc8_darc_c); ("crc8_dvb_s2.c", funs_crc8_dvb_s2_c);
   ("crc8_ebu.c", funs_crc8_ebu_c); ("crc8_icode.c", funs_crc8_icode_c);
   ("crc8_itu.c", funs_crc8_itu_c); ("crc8_maxim.c", funs_crc8_maxim_c);
   ("crc8_rohc.c", funs_crc8_rohc_c); ("crc8_sae_j1850.c", funs_crc8_sae_j1850_c);
   ("crc8_sae_j1850_zero.c", funs_crc8_sae_j1850_zero_c);
   ("crc8_wcdma.c", funs_crc8_wcdma_c); ("crc16_a.c", funs_crc16_a_c);
   ("crc16_arc.c", funs_crc16_arc_c); ("crc16_aug_ccit.c", funs_crc16_aug_ccit_c);
   ("crc16_buypass.c", funs_crc16_buypass_c);
   ("crc16_ccit_false.c", funs_crc16_ccit_false_c);
   ("crc16_ccit_zero.c", funs_crc16_ccit_zero_c);
   ("crc16_cdma2000.c", funs_crc16_cdma2000_c); ("crc16_dds110.c", funs_crc16_dds110_c);
   ("crc16_dect_r.c", funs_crc16_dect_r_c); ("crc16_dect_x.c", funs_crc16_dect_x_c);
   ("crc16_dnp.c", funs_crc16_dnp_c); ("crc16_en_13757.c", funs_crc16_en_13757_c);
   ("crc16_genibus.c", funs_crc16_genibus_c); ("crc16_kermit.c", funs_crc16_kermit_c);
   ("crc16_maxim.c", funs_crc16_maxim_c); ("crc16_mcrf4xx.c", funs_crc16_mcrf4xx_c);
   ("crc16_modbus.c", funs_crc16_modbus_c); ("crc16_riello.c", funs_crc16_riello_c);
   ("crc16_t10_dif.c", funs_crc16_t10_dif_c); ("crc16_teledisk.c", funs_crc16_teledisk_c);
   ("crc16_tms37157.c", funs_crc16_tms37157_c); ("crc16_usb.c", funs_crc16_usb_c);
   ("crc16_x_25.c", funs_crc16_x_25_c); ("crc32.c", funs_crc32_c);
   ("crc32_bzip2.c", funs_crc32_bzip2_c); ("crc32_c.c", funs_crc32_c_c);
   ("crc32_d.c", funs_crc32_d_c); ("crc32_jamcrc.c", funs_crc32_jamcrc_c);
   ("crc32_mpeg2.c", funs_crc32_mpeg2_c); ("crc32_posix.c", funs_crc32_posix_c);
   ("crc32_q.c", funs_crc32_q_c); ("crc32_xfer.c", funs_crc32_xfer_c);
   ("json.c", funs_json_c)].
Definition sources : list string := map fst c_program.
