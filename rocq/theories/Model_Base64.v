(** * Model of [/repo/Src/base64.c] *)
From Verif Require Import CSem.

(** base64.c:24-42, the array [base64_table] (65 bytes, the last one NUL) *)
Definition base64_table : list Z :=
  [
    65; 66; 67; 68; 69; 70; 71; 72; 73; 74; 75; 76; 77; 78; 79; 80;   (* A .. P *)
    81; 82; 83; 84; 85; 86; 87; 88; 89; 90; 97; 98; 99; 100; 101; 102;   (* Q .. f *)
    103; 104; 105; 106; 107; 108; 109; 110; 111; 112; 113; 114; 115; 116; 117; 118;   (* g .. v *)
    119; 120; 121; 122; 48; 49; 50; 51; 52; 53; 54; 55; 56; 57; 43; 47;   (* w .. / *)
    0 ].

(** base64.c:111-126, the array [base64_index] *)
Definition base64_index : list Z :=
  [ 0; 0; 0; 0; 0; 0; 0; 0; 0; 0; 0; 0; 0; 0; 0; 0; 0; 0; 0; 0;
    0; 0; 0; 0; 0; 0; 0; 0; 0; 0; 0; 0; 0; 0; 0; 0; 0; 0; 0; 0;
    0; 0; 0; 62; 63; 62; 62; 63; 52; 53; 54; 55; 56; 57; 58; 59; 60;
    61; 0; 0; 0; 0; 0; 0; 0; 0; 1; 2; 3; 4; 5; 6; 7; 8; 9; 10; 11;
    12; 13; 14; 15; 16; 17; 18; 19; 20; 21; 22; 23; 24; 25; 0; 0; 0;
    0; 63; 0; 26; 27; 28; 29; 30; 31; 32; 33; 34; 35; 36; 37; 38; 39;
    40; 41; 42; 43; 44; 45; 46; 47; 48; 49; 50; 51; 0; 0; 0; 0; 0; 0;
    0; 0; 0; 0; 0; 0; 0; 0; 0; 0; 0; 0; 0; 0; 0; 0; 0; 0; 0; 0; 0;
    0; 0; 0; 0; 0; 0; 0; 0; 0; 0; 0; 0; 0; 0; 0; 0; 0; 0; 0; 0; 0;
    0; 0; 0; 0; 0; 0; 0; 0; 0; 0; 0; 0; 0; 0; 0; 0; 0; 0; 0; 0; 0;
    0; 0; 0; 0; 0; 0; 0; 0; 0; 0; 0; 0; 0; 0; 0; 0; 0; 0; 0; 0; 0;
    0; 0; 0; 0; 0; 0; 0; 0; 0; 0; 0; 0; 0; 0; 0; 0; 0; 0; 0; 0; 0;
    0; 0; 0; 0; 0; 0; 0; 0; 0; 0; 0; 0; 0; 0; 0; 0; 0; 0; 0; 0; 0;
    0 ].

(** base64.c:21-106.  [data] and [result] are the objects behind the two pointers;
    [data_length] and [max_result_length] are what the caller claims.  The result is the
    returned status (0 = success) and the final contents of [result].
    The moving pointers [in] and [pos] are offsets into [data] and [result]. *)
Definition Base64_encode (data : list Z) (data_length : Z) (result : list Z)
    (max_result_length : Z) : outcome (Z * list Z) :=
  (* base64.c:46-50 *)
  let len := u64 (4 * (u64 (data_length + 2) / 3)) in
  if len <? data_length then Ok (1, result) else
  (* base64.c:57-75; state (success, current_length, in_position, in, pos, result) *)
  let! '(success, current_length, in_position, inp, pos, result) :=
    cwhile (S (length data))
      (fun '(success, current_length, in_position, inp, pos, result) =>
         3 <=? u64 (data_length - in_position))
      (fun '(success, current_length, in_position, inp, pos, result) =>
         let current_length := u64 (current_length + 4) in
         if max_result_length <? current_length then
           Ok (Break (1, current_length, in_position, inp, pos, result))
         else
           let! in0 := load data inp in
           let! c := load base64_table (Z.shiftr in0 2) in
           let! result := store result pos c in
           let! in1 := load data (inp + 1) in
           let! c := load base64_table
                       (Z.lor (Z.shiftl (Z.land in0 3) 4) (Z.shiftr in1 4)) in
           let! result := store result (pos + 1) c in
           let! in2 := load data (inp + 2) in
           let! c := load base64_table
                       (Z.lor (Z.shiftl (Z.land in1 15) 2) (Z.shiftr in2 6)) in
           let! result := store result (pos + 2) c in
           let! c := load base64_table (Z.land in2 63) in
           let! result := store result (pos + 3) c in
           Ok (Next (success, current_length, u64 (in_position + 3), inp + 3, pos + 4,
                     result)))
      (0, 0, 0, 0, 0, result) in
  (* base64.c:77-100 *)
  let! '(success, pos, result) :=
    if (success =? 0) && negb (u64 (data_length - in_position) =? 0) then
      let current_length := u64 (current_length + 4) in
      if max_result_length <? current_length then Ok (1, pos, result)
      else
        let! in0 := load data inp in
        let! c := load base64_table (Z.shiftr in0 2) in
        let! result := store result pos c in
        let pos := pos + 1 in
        let! '(pos, result) :=
          if u64 (data_length - in_position) =? 1 then
            let! c := load base64_table (Z.shiftl (Z.land in0 3) 4) in
            let! result := store result pos c in
            let! result := store result (pos + 1) 61 in
            Ok (pos + 2, result)
          else
            let! in1 := load data (inp + 1) in
            let! c := load base64_table
                        (Z.lor (Z.shiftl (Z.land in0 3) 4) (Z.shiftr in1 4)) in
            let! result := store result pos c in
            let! c := load base64_table (Z.shiftl (Z.land in1 15) 2) in
            let! result := store result (pos + 1) c in
            Ok (pos + 2, result) in
        let! result := store result pos 61 in
        Ok (success, pos + 1, result)
    else Ok (success, pos, result) in
  (* base64.c:102 *)
  let! result := store result pos 0 in
  Ok (success, result).

(** base64.c:108-172.  [inb] and [out] are the objects behind [in] and [out]. *)
Definition Base64_decode (inb : list Z) (in_len : Z) (out : list Z) (max_out_len : Z)
  : outcome (Z * list Z) :=
  (* base64.c:128-134; && and || short-circuit *)
  let! pad_bool :=
    if 0 <? in_len then
      if negb (in_len mod 4 =? 0) then Ok true
      else let! c := load inb (in_len - 1) in Ok (c =? 61)
    else Ok false in
  let pad_uint := if pad_bool then 1 else 0 in
  let len := u64 (u64 (u64 (in_len + 3) / 4 - pad_uint) * 4) in
  let out_len := u64 (u64 ((len / 4) * 3) + pad_uint) in
  (* base64.c:136-142 *)
  if (max_out_len <? out_len) || (len =? 0) then Ok (1, out) else
  (* base64.c:145-155; state (i, j, out) *)
  let! '(_, _, out) :=
    cwhile (S (length inb))
      (fun '(i, j, out) => i <? len)
      (fun '(i, j, out) =>
         let! b0 := load inb i in
         let! v0 := load base64_index b0 in
         let! b1 := load inb (i + 1) in
         let! v1 := load base64_index b1 in
         let! b2 := load inb (i + 2) in
         let! v2 := load base64_index b2 in
         let! b3 := load inb (i + 3) in
         let! v3 := load base64_index b3 in
         let n := Z.lor (Z.lor (Z.lor (u32 (Z.shiftl v0 18)) (u32 (Z.shiftl v1 12)))
                               (u32 (Z.shiftl v2 6))) v3 in
         let! out := store out j (u8 (Z.shiftr n 16)) in
         let! out := store out (j + 1) (u8 (Z.land (Z.shiftr n 8) 255)) in
         let! out := store out (j + 2) (u8 (Z.land n 255)) in
         Ok (Next (u64 (i + 4), j + 3, out)))
      (0, 0, out) in
  (* base64.c:156-168 *)
  if pad_bool then
    let! b0 := load inb len in
    let! v0 := load base64_index b0 in
    let! b1 := load inb (len + 1) in
    let! v1 := load base64_index b1 in
    let n := Z.lor (u32 (Z.shiftl v0 18)) (u32 (Z.shiftl v1 12)) in
    let! out := store out (out_len - 1) (u8 (Z.shiftr n 16)) in
    let! third :=
      if u64 (len + 2) <? in_len then
        let! b2 := load inb (len + 2) in Ok (negb (b2 =? 61))
      else Ok false in
    if third then
      if max_out_len <? u64 (out_len + 1) then Ok (1, out)
      else
        let! b2 := load inb (len + 2) in
        let! v2 := load base64_index b2 in
        let n := Z.lor n (u32 (Z.shiftl v2 6)) in
        let! out := store out out_len (u8 (Z.land (Z.shiftr n 8) 255)) in
        Ok (0, out)
    else Ok (0, out)
  else Ok (0, out).
