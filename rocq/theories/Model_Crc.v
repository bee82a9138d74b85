(** * Model of [/repo/Src/crc/crc8_base.c], [crc16_base.c], [crc32_base.c] *)
From Verif Require Import CSem Model_Utils.

(** crc8_base.c:39 (and crc16_base.c:39, crc32_base.c:39) *)
Definition REFLECTED_INPUT_BITS_NUM : Z := 8.

(** crc8_base.c:42-60; outer state [crc_table], inner state [residue] *)
Definition Crc8Base_tableCalculator (polynomial : Z) (crc_table : list Z)
  : outcome (list Z) :=
  let top_bit := 128 in
  cfor 0 256
    (fun dividend crc_table =>
       let! residue :=
         cfor 0 8
           (fun _ residue =>
              if Z.land residue top_bit =? 0 then Ok (u8 (Z.shiftl residue 1))
              else Ok (u8 (Z.lxor (Z.shiftl residue 1) polynomial)))
           (u8 dividend) in
       store crc_table dividend residue) crc_table.

(** crc16_base.c:42-60 *)
Definition Crc16Base_tableCalculator (polynomial : Z) (crc_table : list Z)
  : outcome (list Z) :=
  let top_bit := 32768 in
  cfor 0 256
    (fun dividend crc_table =>
       let! residue :=
         cfor 0 8
           (fun _ residue =>
              if Z.land residue top_bit =? 0 then Ok (u16 (Z.shiftl residue 1))
              else Ok (u16 (Z.lxor (Z.shiftl residue 1) polynomial)))
           (u16 (u32 (Z.shiftl dividend 8))) in
       store crc_table dividend residue) crc_table.

(** crc32_base.c:42-60 *)
Definition Crc32Base_tableCalculator (polynomial : Z) (crc_table : list Z)
  : outcome (list Z) :=
  let top_bit := 2147483648 in
  cfor 0 256
    (fun dividend crc_table =>
       let! residue :=
         cfor 0 8
           (fun _ residue =>
              if Z.land residue top_bit =? 0 then Ok (u32 (Z.shiftl residue 1))
              else Ok (Z.lxor (u32 (Z.shiftl residue 1)) polynomial))
           (u32 (Z.shiftl dividend 24)) in
       store crc_table dividend residue) crc_table.

(** crc8_base.c:77-83 (the same text in the three files): the next data byte *)
Definition crc_input (reflected_input : bool) (c : Z) : outcome Z :=
  if reflected_input then
    let! r := BitManipulation_reflect c REFLECTED_INPUT_BITS_NUM in Ok (u8 r)
  else Ok c.

(** crc8_base.c:62-98; [crc_data] is the object [crc_data_ptr] points at *)
Definition Crc8Base (crc_table crc_data : list Z) (crc_length crc_initial_value
    final_xor_value : Z) (reflected_output reflected_input final_xor : bool) : outcome Z :=
  let! crc :=
    cfor 0 crc_length
      (fun counter crc =>
         let! c := load crc_data counter in
         let! temp := crc_input reflected_input c in
         load crc_table (u8 (Z.lxor crc temp))) crc_initial_value in
  let! crc :=
    if reflected_output then let! r := BitManipulation_reflect crc 8 in Ok (u8 r)
    else Ok crc in
  Ok (if final_xor then u8 (Z.lxor crc final_xor_value) else crc).

(** crc16_base.c:62-97 *)
Definition Crc16Base (crc_table crc_data : list Z) (crc_length crc_initial_value
    final_xor_value : Z) (reflected_output reflected_input final_xor : bool) : outcome Z :=
  let! crc :=
    cfor 0 crc_length
      (fun counter crc =>
         let! c := load crc_data counter in
         let! temp := crc_input reflected_input c in
         let! t := load crc_table (u8 (Z.lxor (Z.shiftr crc 8) temp)) in
         Ok (u16 (Z.lxor (Z.shiftl crc 8) t))) crc_initial_value in
  let! crc :=
    if reflected_output then let! r := BitManipulation_reflect crc 16 in Ok (u16 r)
    else Ok crc in
  Ok (if final_xor then u16 (Z.lxor crc final_xor_value) else crc).

(** crc32_base.c:62-98 *)
Definition Crc32Base (crc_table crc_data : list Z) (crc_length crc_initial_value
    final_xor_value : Z) (reflected_output reflected_input final_xor : bool) : outcome Z :=
  let! crc :=
    cfor 0 crc_length
      (fun counter crc =>
         let! c := load crc_data counter in
         let! temp := crc_input reflected_input c in
         let! t := load crc_table (u8 (Z.lxor (Z.shiftr crc 24) temp)) in
         Ok (Z.lxor (u32 (Z.shiftl crc 8)) t)) crc_initial_value in
  let! crc :=
    if reflected_output then BitManipulation_reflect crc 32 else Ok crc in
  Ok (if final_xor then Z.lxor crc final_xor_value else crc).
