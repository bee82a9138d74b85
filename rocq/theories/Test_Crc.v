(** * The tests of [/repo/Tests/test_crc*.c] run on the model

    Transcribed by [tools/gen_tests.py].  These are tests, not proofs of a property. *)
From Verif Require Import CSem Model_Crc Model_CrcVariants.

Definition crc8_message1 : list Z := [0x00; 0x00; 0x00; 0x00].
Definition crc8_message2 : list Z := [0xF2; 0x01; 0x83].
Definition crc8_message3 : list Z := [0x0F; 0xAA; 0x00; 0x55].
Definition crc8_message4 : list Z := [0x00; 0xFF; 0x55; 0x11].
Definition crc8_message5 : list Z := [0x33; 0x22; 0x55; 0xAA; 0xBB; 0xCC; 0xDD; 0xEE; 0xFF].
Definition crc8_message6 : list Z := [0x92; 0x6B; 0x55].
Definition crc8_message7 : list Z := [0xFF; 0xFF; 0xFF; 0xFF].

Example test_Crc8Base_tableCalculator_0 :
  Crc8Base_tableCalculator 0x2F (replicate 256 0)
  = Ok [
   0x00; 0x2F; 0x5E; 0x71; 0xBC; 0x93; 0xE2; 0xCD; 0x57; 0x78; 0x09; 0x26; 0xEB; 0xC4; 0xB5;
   0x9A; 0xAE; 0x81; 0xF0; 0xDF; 0x12; 0x3D; 0x4C; 0x63; 0xF9; 0xD6; 0xA7; 0x88; 0x45; 0x6A;
   0x1B; 0x34; 0x73; 0x5C; 0x2D; 0x02; 0xCF; 0xE0; 0x91; 0xBE; 0x24; 0x0B; 0x7A; 0x55; 0x98;
   0xB7; 0xC6; 0xE9; 0xDD; 0xF2; 0x83; 0xAC; 0x61; 0x4E; 0x3F; 0x10; 0x8A; 0xA5; 0xD4; 0xFB;
   0x36; 0x19; 0x68; 0x47; 0xE6; 0xC9; 0xB8; 0x97; 0x5A; 0x75; 0x04; 0x2B; 0xB1; 0x9E; 0xEF;
   0xC0; 0x0D; 0x22; 0x53; 0x7C; 0x48; 0x67; 0x16; 0x39; 0xF4; 0xDB; 0xAA; 0x85; 0x1F; 0x30;
   0x41; 0x6E; 0xA3; 0x8C; 0xFD; 0xD2; 0x95; 0xBA; 0xCB; 0xE4; 0x29; 0x06; 0x77; 0x58; 0xC2;
   0xED; 0x9C; 0xB3; 0x7E; 0x51; 0x20; 0x0F; 0x3B; 0x14; 0x65; 0x4A; 0x87; 0xA8; 0xD9; 0xF6;
   0x6C; 0x43; 0x32; 0x1D; 0xD0; 0xFF; 0x8E; 0xA1; 0xE3; 0xCC; 0xBD; 0x92; 0x5F; 0x70; 0x01;
   0x2E; 0xB4; 0x9B; 0xEA; 0xC5; 0x08; 0x27; 0x56; 0x79; 0x4D; 0x62; 0x13; 0x3C; 0xF1; 0xDE;
   0xAF; 0x80; 0x1A; 0x35; 0x44; 0x6B; 0xA6; 0x89; 0xF8; 0xD7; 0x90; 0xBF; 0xCE; 0xE1; 0x2C;
   0x03; 0x72; 0x5D; 0xC7; 0xE8; 0x99; 0xB6; 0x7B; 0x54; 0x25; 0x0A; 0x3E; 0x11; 0x60; 0x4F;
   0x82; 0xAD; 0xDC; 0xF3; 0x69; 0x46; 0x37; 0x18; 0xD5; 0xFA; 0x8B; 0xA4; 0x05; 0x2A; 0x5B;
   0x74; 0xB9; 0x96; 0xE7; 0xC8; 0x52; 0x7D; 0x0C; 0x23; 0xEE; 0xC1; 0xB0; 0x9F; 0xAB; 0x84;
   0xF5; 0xDA; 0x17; 0x38; 0x49; 0x66; 0xFC; 0xD3; 0xA2; 0x8D; 0x40; 0x6F; 0x1E; 0x31; 0x76;
   0x59; 0x28; 0x07; 0xCA; 0xE5; 0x94; 0xBB; 0x21; 0x0E; 0x7F; 0x50; 0x9D; 0xB2; 0xC3; 0xEC;
   0xD8; 0xF7; 0x86; 0xA9; 0x64; 0x4B; 0x3A; 0x15; 0x8F; 0xA0; 0xD1; 0xFE; 0x33; 0x1C; 0x6D;
   0x42].
Proof. by vm_compute. Qed.
Example test_Crc8Base_tableCalculator_1 :
  Crc8Base_tableCalculator 0x1D (replicate 256 0)
  = Ok [
   0x00; 0x1D; 0x3A; 0x27; 0x74; 0x69; 0x4E; 0x53; 0xE8; 0xF5; 0xD2; 0xCF; 0x9C; 0x81; 0xA6;
   0xBB; 0xCD; 0xD0; 0xF7; 0xEA; 0xB9; 0xA4; 0x83; 0x9E; 0x25; 0x38; 0x1F; 0x02; 0x51; 0x4C;
   0x6B; 0x76; 0x87; 0x9A; 0xBD; 0xA0; 0xF3; 0xEE; 0xC9; 0xD4; 0x6F; 0x72; 0x55; 0x48; 0x1B;
   0x06; 0x21; 0x3C; 0x4A; 0x57; 0x70; 0x6D; 0x3E; 0x23; 0x04; 0x19; 0xA2; 0xBF; 0x98; 0x85;
   0xD6; 0xCB; 0xEC; 0xF1; 0x13; 0x0E; 0x29; 0x34; 0x67; 0x7A; 0x5D; 0x40; 0xFB; 0xE6; 0xC1;
   0xDC; 0x8F; 0x92; 0xB5; 0xA8; 0xDE; 0xC3; 0xE4; 0xF9; 0xAA; 0xB7; 0x90; 0x8D; 0x36; 0x2B;
   0x0C; 0x11; 0x42; 0x5F; 0x78; 0x65; 0x94; 0x89; 0xAE; 0xB3; 0xE0; 0xFD; 0xDA; 0xC7; 0x7C;
   0x61; 0x46; 0x5B; 0x08; 0x15; 0x32; 0x2F; 0x59; 0x44; 0x63; 0x7E; 0x2D; 0x30; 0x17; 0x0A;
   0xB1; 0xAC; 0x8B; 0x96; 0xC5; 0xD8; 0xFF; 0xE2; 0x26; 0x3B; 0x1C; 0x01; 0x52; 0x4F; 0x68;
   0x75; 0xCE; 0xD3; 0xF4; 0xE9; 0xBA; 0xA7; 0x80; 0x9D; 0xEB; 0xF6; 0xD1; 0xCC; 0x9F; 0x82;
   0xA5; 0xB8; 0x03; 0x1E; 0x39; 0x24; 0x77; 0x6A; 0x4D; 0x50; 0xA1; 0xBC; 0x9B; 0x86; 0xD5;
   0xC8; 0xEF; 0xF2; 0x49; 0x54; 0x73; 0x6E; 0x3D; 0x20; 0x07; 0x1A; 0x6C; 0x71; 0x56; 0x4B;
   0x18; 0x05; 0x22; 0x3F; 0x84; 0x99; 0xBE; 0xA3; 0xF0; 0xED; 0xCA; 0xD7; 0x35; 0x28; 0x0F;
   0x12; 0x41; 0x5C; 0x7B; 0x66; 0xDD; 0xC0; 0xE7; 0xFA; 0xA9; 0xB4; 0x93; 0x8E; 0xF8; 0xE5;
   0xC2; 0xDF; 0x8C; 0x91; 0xB6; 0xAB; 0x10; 0x0D; 0x2A; 0x37; 0x64; 0x79; 0x5E; 0x43; 0xB2;
   0xAF; 0x88; 0x95; 0xC6; 0xDB; 0xFC; 0xE1; 0x5A; 0x47; 0x60; 0x7D; 0x2E; 0x33; 0x14; 0x09;
   0x7F; 0x62; 0x45; 0x58; 0x0B; 0x16; 0x31; 0x2C; 0x97; 0x8A; 0xAD; 0xB0; 0xE3; 0xFE; 0xD9;
   0xC4].
Proof. by vm_compute. Qed.
Example test_Crc8 :
  Crc8 crc8_message1 (Z.of_nat (length crc8_message1)) None = Ok 0x00 /\
  Crc8 crc8_message2 (Z.of_nat (length crc8_message2)) None = Ok 0x2F /\
  Crc8 crc8_message3 (Z.of_nat (length crc8_message3)) None = Ok 0xB1 /\
  Crc8 crc8_message4 (Z.of_nat (length crc8_message4)) None = Ok 0x11 /\
  Crc8 crc8_message5 (Z.of_nat (length crc8_message5)) None = Ok 0x59 /\
  Crc8 crc8_message6 (Z.of_nat (length crc8_message6)) None = Ok 0xB1 /\
  Crc8 crc8_message7 (Z.of_nat (length crc8_message7)) None = Ok 0xDE /\
  (let! r := Crc8 crc8_message5 2 None in
   let! r := Crc8 (skipn 2 crc8_message5) 5 (Some r) in
   Crc8 (skipn 7 crc8_message5) 2 (Some r)) = Ok 0x59.
Proof. repeat split; by vm_compute. Qed.
Example test_Crc8_8h2f :
  Crc8_8h2f crc8_message1 (Z.of_nat (length crc8_message1)) true None = Ok 0x12 /\
  Crc8_8h2f crc8_message2 (Z.of_nat (length crc8_message2)) true None = Ok 0xC2 /\
  Crc8_8h2f crc8_message3 (Z.of_nat (length crc8_message3)) true None = Ok 0xC6 /\
  Crc8_8h2f crc8_message4 (Z.of_nat (length crc8_message4)) true None = Ok 0x77 /\
  Crc8_8h2f crc8_message5 (Z.of_nat (length crc8_message5)) true None = Ok 0x11 /\
  Crc8_8h2f crc8_message6 (Z.of_nat (length crc8_message6)) true None = Ok 0x33 /\
  Crc8_8h2f crc8_message7 (Z.of_nat (length crc8_message7)) true None = Ok 0x6C /\
  (let! r := Crc8_8h2f crc8_message5 2 false None in
   let! r := Crc8_8h2f (skipn 2 crc8_message5) 5 false (Some r) in
   Crc8_8h2f (skipn 7 crc8_message5) 2 true (Some r)) = Ok 0x11.
Proof. repeat split; by vm_compute. Qed.
Example test_Crc8_cdma2000 :
  Crc8_cdma2000 crc8_message1 (Z.of_nat (length crc8_message1)) None = Ok 0xAF /\
  Crc8_cdma2000 crc8_message2 (Z.of_nat (length crc8_message2)) None = Ok 0xCB /\
  Crc8_cdma2000 crc8_message3 (Z.of_nat (length crc8_message3)) None = Ok 0xA9 /\
  Crc8_cdma2000 crc8_message4 (Z.of_nat (length crc8_message4)) None = Ok 0xAF /\
  Crc8_cdma2000 crc8_message5 (Z.of_nat (length crc8_message5)) None = Ok 0x3C /\
  Crc8_cdma2000 crc8_message6 (Z.of_nat (length crc8_message6)) None = Ok 0xD7 /\
  Crc8_cdma2000 crc8_message7 (Z.of_nat (length crc8_message7)) None = Ok 0x0C /\
  (let! r := Crc8_cdma2000 crc8_message5 2 None in
   let! r := Crc8_cdma2000 (skipn 2 crc8_message5) 5 (Some r) in
   Crc8_cdma2000 (skipn 7 crc8_message5) 2 (Some r)) = Ok 0x3C.
Proof. repeat split; by vm_compute. Qed.
Example test_Crc8_darc :
  Crc8_darc crc8_message1 (Z.of_nat (length crc8_message1)) true None = Ok 0x00 /\
  Crc8_darc crc8_message2 (Z.of_nat (length crc8_message2)) true None = Ok 0x0D /\
  Crc8_darc crc8_message3 (Z.of_nat (length crc8_message3)) true None = Ok 0x4F /\
  Crc8_darc crc8_message4 (Z.of_nat (length crc8_message4)) true None = Ok 0xE2 /\
  Crc8_darc crc8_message5 (Z.of_nat (length crc8_message5)) true None = Ok 0x99 /\
  Crc8_darc crc8_message6 (Z.of_nat (length crc8_message6)) true None = Ok 0x43 /\
  Crc8_darc crc8_message7 (Z.of_nat (length crc8_message7)) true None = Ok 0x03 /\
  (let! r := Crc8_darc crc8_message5 2 false None in
   let! r := Crc8_darc (skipn 2 crc8_message5) 5 false (Some r) in
   Crc8_darc (skipn 7 crc8_message5) 2 true (Some r)) = Ok 0x99.
Proof. repeat split; by vm_compute. Qed.
Example test_Crc8_dvbS2 :
  Crc8_dvbS2 crc8_message1 (Z.of_nat (length crc8_message1)) None = Ok 0x00 /\
  Crc8_dvbS2 crc8_message2 (Z.of_nat (length crc8_message2)) None = Ok 0x1A /\
  Crc8_dvbS2 crc8_message3 (Z.of_nat (length crc8_message3)) None = Ok 0x72 /\
  Crc8_dvbS2 crc8_message4 (Z.of_nat (length crc8_message4)) None = Ok 0xED /\
  Crc8_dvbS2 crc8_message5 (Z.of_nat (length crc8_message5)) None = Ok 0x77 /\
  Crc8_dvbS2 crc8_message6 (Z.of_nat (length crc8_message6)) None = Ok 0xA9 /\
  Crc8_dvbS2 crc8_message7 (Z.of_nat (length crc8_message7)) None = Ok 0x21 /\
  (let! r := Crc8_dvbS2 crc8_message5 2 None in
   let! r := Crc8_dvbS2 (skipn 2 crc8_message5) 5 (Some r) in
   Crc8_dvbS2 (skipn 7 crc8_message5) 2 (Some r)) = Ok 0x77.
Proof. repeat split; by vm_compute. Qed.
Example test_Crc8_ebu :
  Crc8_ebu crc8_message1 (Z.of_nat (length crc8_message1)) true None = Ok 0x65 /\
  Crc8_ebu crc8_message2 (Z.of_nat (length crc8_message2)) true None = Ok 0x90 /\
  Crc8_ebu crc8_message3 (Z.of_nat (length crc8_message3)) true None = Ok 0x57 /\
  Crc8_ebu crc8_message4 (Z.of_nat (length crc8_message4)) true None = Ok 0x18 /\
  Crc8_ebu crc8_message5 (Z.of_nat (length crc8_message5)) true None = Ok 0x42 /\
  Crc8_ebu crc8_message6 (Z.of_nat (length crc8_message6)) true None = Ok 0x3D /\
  Crc8_ebu crc8_message7 (Z.of_nat (length crc8_message7)) true None = Ok 0xD1 /\
  (let! r := Crc8_ebu crc8_message5 2 false None in
   let! r := Crc8_ebu (skipn 2 crc8_message5) 5 false (Some r) in
   Crc8_ebu (skipn 7 crc8_message5) 2 true (Some r)) = Ok 0x42.
Proof. repeat split; by vm_compute. Qed.
Example test_Crc8_icode :
  Crc8_icode crc8_message1 (Z.of_nat (length crc8_message1)) None = Ok 0x81 /\
  Crc8_icode crc8_message2 (Z.of_nat (length crc8_message2)) None = Ok 0xCB /\
  Crc8_icode crc8_message3 (Z.of_nat (length crc8_message3)) None = Ok 0xA1 /\
  Crc8_icode crc8_message4 (Z.of_nat (length crc8_message4)) None = Ok 0x60 /\
  Crc8_icode crc8_message5 (Z.of_nat (length crc8_message5)) None = Ok 0xFE /\
  Crc8_icode crc8_message6 (Z.of_nat (length crc8_message6)) None = Ok 0x70 /\
  Crc8_icode crc8_message7 (Z.of_nat (length crc8_message7)) None = Ok 0xAC /\
  (let! r := Crc8_icode crc8_message5 2 None in
   let! r := Crc8_icode (skipn 2 crc8_message5) 5 (Some r) in
   Crc8_icode (skipn 7 crc8_message5) 2 (Some r)) = Ok 0xFE.
Proof. repeat split; by vm_compute. Qed.
Example test_Crc8_itu :
  Crc8_itu crc8_message1 (Z.of_nat (length crc8_message1)) true None = Ok 0x55 /\
  Crc8_itu crc8_message2 (Z.of_nat (length crc8_message2)) true None = Ok 0x7A /\
  Crc8_itu crc8_message3 (Z.of_nat (length crc8_message3)) true None = Ok 0xE4 /\
  Crc8_itu crc8_message4 (Z.of_nat (length crc8_message4)) true None = Ok 0x44 /\
  Crc8_itu crc8_message5 (Z.of_nat (length crc8_message5)) true None = Ok 0x0C /\
  Crc8_itu crc8_message6 (Z.of_nat (length crc8_message6)) true None = Ok 0xE4 /\
  Crc8_itu crc8_message7 (Z.of_nat (length crc8_message7)) true None = Ok 0x8B /\
  (let! r := Crc8_itu crc8_message5 2 false None in
   let! r := Crc8_itu (skipn 2 crc8_message5) 5 false (Some r) in
   Crc8_itu (skipn 7 crc8_message5) 2 true (Some r)) = Ok 0x0C.
Proof. repeat split; by vm_compute. Qed.
Example test_Crc8_maxim :
  Crc8_maxim crc8_message1 (Z.of_nat (length crc8_message1)) true None = Ok 0x00 /\
  Crc8_maxim crc8_message2 (Z.of_nat (length crc8_message2)) true None = Ok 0x68 /\
  Crc8_maxim crc8_message3 (Z.of_nat (length crc8_message3)) true None = Ok 0xE2 /\
  Crc8_maxim crc8_message4 (Z.of_nat (length crc8_message4)) true None = Ok 0x99 /\
  Crc8_maxim crc8_message5 (Z.of_nat (length crc8_message5)) true None = Ok 0xEB /\
  Crc8_maxim crc8_message6 (Z.of_nat (length crc8_message6)) true None = Ok 0xFA /\
  Crc8_maxim crc8_message7 (Z.of_nat (length crc8_message7)) true None = Ok 0x8D /\
  (let! r := Crc8_maxim crc8_message5 2 false None in
   let! r := Crc8_maxim (skipn 2 crc8_message5) 5 false (Some r) in
   Crc8_maxim (skipn 7 crc8_message5) 2 true (Some r)) = Ok 0xEB.
Proof. repeat split; by vm_compute. Qed.
Example test_Crc8_rohc :
  Crc8_rohc crc8_message1 (Z.of_nat (length crc8_message1)) true None = Ok 0x8B /\
  Crc8_rohc crc8_message2 (Z.of_nat (length crc8_message2)) true None = Ok 0xA8 /\
  Crc8_rohc crc8_message3 (Z.of_nat (length crc8_message3)) true None = Ok 0x96 /\
  Crc8_rohc crc8_message4 (Z.of_nat (length crc8_message4)) true None = Ok 0x8B /\
  Crc8_rohc crc8_message5 (Z.of_nat (length crc8_message5)) true None = Ok 0x1D /\
  Crc8_rohc crc8_message6 (Z.of_nat (length crc8_message6)) true None = Ok 0x30 /\
  Crc8_rohc crc8_message7 (Z.of_nat (length crc8_message7)) true None = Ok 0xF0 /\
  (let! r := Crc8_rohc crc8_message5 2 false None in
   let! r := Crc8_rohc (skipn 2 crc8_message5) 5 false (Some r) in
   Crc8_rohc (skipn 7 crc8_message5) 2 true (Some r)) = Ok 0x1D.
Proof. repeat split; by vm_compute. Qed.
Example test_Crc8_saeJ1850 :
  Crc8_saeJ1850 crc8_message1 (Z.of_nat (length crc8_message1)) true None = Ok 0x59 /\
  Crc8_saeJ1850 crc8_message2 (Z.of_nat (length crc8_message2)) true None = Ok 0x37 /\
  Crc8_saeJ1850 crc8_message3 (Z.of_nat (length crc8_message3)) true None = Ok 0x79 /\
  Crc8_saeJ1850 crc8_message4 (Z.of_nat (length crc8_message4)) true None = Ok 0xB8 /\
  Crc8_saeJ1850 crc8_message5 (Z.of_nat (length crc8_message5)) true None = Ok 0xCB /\
  Crc8_saeJ1850 crc8_message6 (Z.of_nat (length crc8_message6)) true None = Ok 0x8C /\
  Crc8_saeJ1850 crc8_message7 (Z.of_nat (length crc8_message7)) true None = Ok 0x74 /\
  (let! r := Crc8_saeJ1850 crc8_message5 2 false None in
   let! r := Crc8_saeJ1850 (skipn 2 crc8_message5) 5 false (Some r) in
   Crc8_saeJ1850 (skipn 7 crc8_message5) 2 true (Some r)) = Ok 0xCB.
Proof. repeat split; by vm_compute. Qed.
Example test_Crc8_saeJ1850Zero :
  Crc8_saeJ1850Zero crc8_message1 (Z.of_nat (length crc8_message1)) None = Ok 0x00 /\
  Crc8_saeJ1850Zero crc8_message2 (Z.of_nat (length crc8_message2)) None = Ok 0xC6 /\
  Crc8_saeJ1850Zero crc8_message3 (Z.of_nat (length crc8_message3)) None = Ok 0x20 /\
  Crc8_saeJ1850Zero crc8_message4 (Z.of_nat (length crc8_message4)) None = Ok 0xE1 /\
  Crc8_saeJ1850Zero crc8_message5 (Z.of_nat (length crc8_message5)) None = Ok 0xB7 /\
  Crc8_saeJ1850Zero crc8_message6 (Z.of_nat (length crc8_message6)) None = Ok 0x7D /\
  Crc8_saeJ1850Zero crc8_message7 (Z.of_nat (length crc8_message7)) None = Ok 0x2D /\
  (let! r := Crc8_saeJ1850Zero crc8_message5 2 None in
   let! r := Crc8_saeJ1850Zero (skipn 2 crc8_message5) 5 (Some r) in
   Crc8_saeJ1850Zero (skipn 7 crc8_message5) 2 (Some r)) = Ok 0xB7.
Proof. repeat split; by vm_compute. Qed.
Example test_Crc8_wcdma :
  Crc8_wcdma crc8_message1 (Z.of_nat (length crc8_message1)) true None = Ok 0x00 /\
  Crc8_wcdma crc8_message2 (Z.of_nat (length crc8_message2)) true None = Ok 0x76 /\
  Crc8_wcdma crc8_message3 (Z.of_nat (length crc8_message3)) true None = Ok 0x28 /\
  Crc8_wcdma crc8_message4 (Z.of_nat (length crc8_message4)) true None = Ok 0x50 /\
  Crc8_wcdma crc8_message5 (Z.of_nat (length crc8_message5)) true None = Ok 0xF9 /\
  Crc8_wcdma crc8_message6 (Z.of_nat (length crc8_message6)) true None = Ok 0xE7 /\
  Crc8_wcdma crc8_message7 (Z.of_nat (length crc8_message7)) true None = Ok 0xC5 /\
  (let! r := Crc8_wcdma crc8_message5 2 false None in
   let! r := Crc8_wcdma (skipn 2 crc8_message5) 5 false (Some r) in
   Crc8_wcdma (skipn 7 crc8_message5) 2 true (Some r)) = Ok 0xF9.
Proof. repeat split; by vm_compute. Qed.

Definition crc16_message1 : list Z := [0x00; 0x00; 0x00; 0x00].
Definition crc16_message2 : list Z := [0xF2; 0x01; 0x83].
Definition crc16_message3 : list Z := [0x0F; 0xAA; 0x00; 0x55].
Definition crc16_message4 : list Z := [0x00; 0xFF; 0x55; 0x11].
Definition crc16_message5 : list Z := [0x33; 0x22; 0x55; 0xAA; 0xBB; 0xCC; 0xDD; 0xEE; 0xFF].
Definition crc16_message6 : list Z := [0x92; 0x6B; 0x55].
Definition crc16_message7 : list Z := [0xFF; 0xFF; 0xFF; 0xFF].

Example test_Crc16Base_tableCalculator_0 :
  Crc16Base_tableCalculator 0x1021 (replicate 256 0)
  = Ok [
   0x0000; 0x1021; 0x2042; 0x3063; 0x4084; 0x50A5; 0x60C6; 0x70E7; 0x8108; 0x9129; 0xA14A;
   0xB16B; 0xC18C; 0xD1AD; 0xE1CE; 0xF1EF; 0x1231; 0x0210; 0x3273; 0x2252; 0x52B5; 0x4294;
   0x72F7; 0x62D6; 0x9339; 0x8318; 0xB37B; 0xA35A; 0xD3BD; 0xC39C; 0xF3FF; 0xE3DE; 0x2462;
   0x3443; 0x0420; 0x1401; 0x64E6; 0x74C7; 0x44A4; 0x5485; 0xA56A; 0xB54B; 0x8528; 0x9509;
   0xE5EE; 0xF5CF; 0xC5AC; 0xD58D; 0x3653; 0x2672; 0x1611; 0x0630; 0x76D7; 0x66F6; 0x5695;
   0x46B4; 0xB75B; 0xA77A; 0x9719; 0x8738; 0xF7DF; 0xE7FE; 0xD79D; 0xC7BC; 0x48C4; 0x58E5;
   0x6886; 0x78A7; 0x0840; 0x1861; 0x2802; 0x3823; 0xC9CC; 0xD9ED; 0xE98E; 0xF9AF; 0x8948;
   0x9969; 0xA90A; 0xB92B; 0x5AF5; 0x4AD4; 0x7AB7; 0x6A96; 0x1A71; 0x0A50; 0x3A33; 0x2A12;
   0xDBFD; 0xCBDC; 0xFBBF; 0xEB9E; 0x9B79; 0x8B58; 0xBB3B; 0xAB1A; 0x6CA6; 0x7C87; 0x4CE4;
   0x5CC5; 0x2C22; 0x3C03; 0x0C60; 0x1C41; 0xEDAE; 0xFD8F; 0xCDEC; 0xDDCD; 0xAD2A; 0xBD0B;
   0x8D68; 0x9D49; 0x7E97; 0x6EB6; 0x5ED5; 0x4EF4; 0x3E13; 0x2E32; 0x1E51; 0x0E70; 0xFF9F;
   0xEFBE; 0xDFDD; 0xCFFC; 0xBF1B; 0xAF3A; 0x9F59; 0x8F78; 0x9188; 0x81A9; 0xB1CA; 0xA1EB;
   0xD10C; 0xC12D; 0xF14E; 0xE16F; 0x1080; 0x00A1; 0x30C2; 0x20E3; 0x5004; 0x4025; 0x7046;
   0x6067; 0x83B9; 0x9398; 0xA3FB; 0xB3DA; 0xC33D; 0xD31C; 0xE37F; 0xF35E; 0x02B1; 0x1290;
   0x22F3; 0x32D2; 0x4235; 0x5214; 0x6277; 0x7256; 0xB5EA; 0xA5CB; 0x95A8; 0x8589; 0xF56E;
   0xE54F; 0xD52C; 0xC50D; 0x34E2; 0x24C3; 0x14A0; 0x0481; 0x7466; 0x6447; 0x5424; 0x4405;
   0xA7DB; 0xB7FA; 0x8799; 0x97B8; 0xE75F; 0xF77E; 0xC71D; 0xD73C; 0x26D3; 0x36F2; 0x0691;
   0x16B0; 0x6657; 0x7676; 0x4615; 0x5634; 0xD94C; 0xC96D; 0xF90E; 0xE92F; 0x99C8; 0x89E9;
   0xB98A; 0xA9AB; 0x5844; 0x4865; 0x7806; 0x6827; 0x18C0; 0x08E1; 0x3882; 0x28A3; 0xCB7D;
   0xDB5C; 0xEB3F; 0xFB1E; 0x8BF9; 0x9BD8; 0xABBB; 0xBB9A; 0x4A75; 0x5A54; 0x6A37; 0x7A16;
   0x0AF1; 0x1AD0; 0x2AB3; 0x3A92; 0xFD2E; 0xED0F; 0xDD6C; 0xCD4D; 0xBDAA; 0xAD8B; 0x9DE8;
   0x8DC9; 0x7C26; 0x6C07; 0x5C64; 0x4C45; 0x3CA2; 0x2C83; 0x1CE0; 0x0CC1; 0xEF1F; 0xFF3E;
   0xCF5D; 0xDF7C; 0xAF9B; 0xBFBA; 0x8FD9; 0x9FF8; 0x6E17; 0x7E36; 0x4E55; 0x5E74; 0x2E93;
   0x3EB2; 0x0ED1; 0x1EF0].
Proof. by vm_compute. Qed.
Example test_Crc16Base_tableCalculator_1 :
  Crc16Base_tableCalculator 0x8005 (replicate 256 0)
  = Ok [
   0x0000; 0x8005; 0x800F; 0x000A; 0x801B; 0x001E; 0x0014; 0x8011; 0x8033; 0x0036; 0x003C;
   0x8039; 0x0028; 0x802D; 0x8027; 0x0022; 0x8063; 0x0066; 0x006C; 0x8069; 0x0078; 0x807D;
   0x8077; 0x0072; 0x0050; 0x8055; 0x805F; 0x005A; 0x804B; 0x004E; 0x0044; 0x8041; 0x80C3;
   0x00C6; 0x00CC; 0x80C9; 0x00D8; 0x80DD; 0x80D7; 0x00D2; 0x00F0; 0x80F5; 0x80FF; 0x00FA;
   0x80EB; 0x00EE; 0x00E4; 0x80E1; 0x00A0; 0x80A5; 0x80AF; 0x00AA; 0x80BB; 0x00BE; 0x00B4;
   0x80B1; 0x8093; 0x0096; 0x009C; 0x8099; 0x0088; 0x808D; 0x8087; 0x0082; 0x8183; 0x0186;
   0x018C; 0x8189; 0x0198; 0x819D; 0x8197; 0x0192; 0x01B0; 0x81B5; 0x81BF; 0x01BA; 0x81AB;
   0x01AE; 0x01A4; 0x81A1; 0x01E0; 0x81E5; 0x81EF; 0x01EA; 0x81FB; 0x01FE; 0x01F4; 0x81F1;
   0x81D3; 0x01D6; 0x01DC; 0x81D9; 0x01C8; 0x81CD; 0x81C7; 0x01C2; 0x0140; 0x8145; 0x814F;
   0x014A; 0x815B; 0x015E; 0x0154; 0x8151; 0x8173; 0x0176; 0x017C; 0x8179; 0x0168; 0x816D;
   0x8167; 0x0162; 0x8123; 0x0126; 0x012C; 0x8129; 0x0138; 0x813D; 0x8137; 0x0132; 0x0110;
   0x8115; 0x811F; 0x011A; 0x810B; 0x010E; 0x0104; 0x8101; 0x8303; 0x0306; 0x030C; 0x8309;
   0x0318; 0x831D; 0x8317; 0x0312; 0x0330; 0x8335; 0x833F; 0x033A; 0x832B; 0x032E; 0x0324;
   0x8321; 0x0360; 0x8365; 0x836F; 0x036A; 0x837B; 0x037E; 0x0374; 0x8371; 0x8353; 0x0356;
   0x035C; 0x8359; 0x0348; 0x834D; 0x8347; 0x0342; 0x03C0; 0x83C5; 0x83CF; 0x03CA; 0x83DB;
   0x03DE; 0x03D4; 0x83D1; 0x83F3; 0x03F6; 0x03FC; 0x83F9; 0x03E8; 0x83ED; 0x83E7; 0x03E2;
   0x83A3; 0x03A6; 0x03AC; 0x83A9; 0x03B8; 0x83BD; 0x83B7; 0x03B2; 0x0390; 0x8395; 0x839F;
   0x039A; 0x838B; 0x038E; 0x0384; 0x8381; 0x0280; 0x8285; 0x828F; 0x028A; 0x829B; 0x029E;
   0x0294; 0x8291; 0x82B3; 0x02B6; 0x02BC; 0x82B9; 0x02A8; 0x82AD; 0x82A7; 0x02A2; 0x82E3;
   0x02E6; 0x02EC; 0x82E9; 0x02F8; 0x82FD; 0x82F7; 0x02F2; 0x02D0; 0x82D5; 0x82DF; 0x02DA;
   0x82CB; 0x02CE; 0x02C4; 0x82C1; 0x8243; 0x0246; 0x024C; 0x8249; 0x0258; 0x825D; 0x8257;
   0x0252; 0x0270; 0x8275; 0x827F; 0x027A; 0x826B; 0x026E; 0x0264; 0x8261; 0x0220; 0x8225;
   0x822F; 0x022A; 0x823B; 0x023E; 0x0234; 0x8231; 0x8213; 0x0216; 0x021C; 0x8219; 0x0208;
   0x820D; 0x8207; 0x0202].
Proof. by vm_compute. Qed.
Example test_Crc16_a :
  Crc16_a crc16_message1 (Z.of_nat (length crc16_message1)) true None = Ok 0x5600 /\
  Crc16_a crc16_message2 (Z.of_nat (length crc16_message2)) true None = Ok 0x33D3 /\
  Crc16_a crc16_message3 (Z.of_nat (length crc16_message3)) true None = Ok 0x9D7C /\
  Crc16_a crc16_message4 (Z.of_nat (length crc16_message4)) true None = Ok 0x3CB4 /\
  Crc16_a crc16_message5 (Z.of_nat (length crc16_message5)) true None = Ok 0x6F1D /\
  Crc16_a crc16_message6 (Z.of_nat (length crc16_message6)) true None = Ok 0x1D00 /\
  Crc16_a crc16_message7 (Z.of_nat (length crc16_message7)) true None = Ok 0xA599 /\
  (let! r := Crc16_a crc16_message5 2 false None in
   let! r := Crc16_a (skipn 2 crc16_message5) 5 false (Some r) in
   Crc16_a (skipn 7 crc16_message5) 2 true (Some r)) = Ok 0x6F1D.
Proof. repeat split; by vm_compute. Qed.
Example test_Crc16_arc :
  Crc16_arc crc16_message1 (Z.of_nat (length crc16_message1)) true None = Ok 0x0000 /\
  Crc16_arc crc16_message2 (Z.of_nat (length crc16_message2)) true None = Ok 0xC2E1 /\
  Crc16_arc crc16_message3 (Z.of_nat (length crc16_message3)) true None = Ok 0x0BE3 /\
  Crc16_arc crc16_message4 (Z.of_nat (length crc16_message4)) true None = Ok 0x6CCF /\
  Crc16_arc crc16_message5 (Z.of_nat (length crc16_message5)) true None = Ok 0xAE98 /\
  Crc16_arc crc16_message6 (Z.of_nat (length crc16_message6)) true None = Ok 0xE24E /\
  Crc16_arc crc16_message7 (Z.of_nat (length crc16_message7)) true None = Ok 0x9401 /\
  (let! r := Crc16_arc crc16_message5 2 false None in
   let! r := Crc16_arc (skipn 2 crc16_message5) 5 false (Some r) in
   Crc16_arc (skipn 7 crc16_message5) 2 true (Some r)) = Ok 0xAE98.
Proof. repeat split; by vm_compute. Qed.
Example test_Crc16_augCcit :
  Crc16_augCcit crc16_message1 (Z.of_nat (length crc16_message1)) None = Ok 0x0E10 /\
  Crc16_augCcit crc16_message2 (Z.of_nat (length crc16_message2)) None = Ok 0x0EE4 /\
  Crc16_augCcit crc16_message3 (Z.of_nat (length crc16_message3)) None = Ok 0xAAF3 /\
  Crc16_augCcit crc16_message4 (Z.of_nat (length crc16_message4)) None = Ok 0x3229 /\
  Crc16_augCcit crc16_message5 (Z.of_nat (length crc16_message5)) None = Ok 0x3942 /\
  Crc16_augCcit crc16_message6 (Z.of_nat (length crc16_message6)) None = Ok 0xDAD5 /\
  Crc16_augCcit crc16_message7 (Z.of_nat (length crc16_message7)) None = Ok 0x97DF /\
  (let! r := Crc16_augCcit crc16_message5 2 None in
   let! r := Crc16_augCcit (skipn 2 crc16_message5) 5 (Some r) in
   Crc16_augCcit (skipn 7 crc16_message5) 2 (Some r)) = Ok 0x3942.
Proof. repeat split; by vm_compute. Qed.
Example test_Crc16_buypass :
  Crc16_buypass crc16_message1 (Z.of_nat (length crc16_message1)) None = Ok 0x0000 /\
  Crc16_buypass crc16_message2 (Z.of_nat (length crc16_message2)) None = Ok 0x89E1 /\
  Crc16_buypass crc16_message3 (Z.of_nat (length crc16_message3)) None = Ok 0xC5F6 /\
  Crc16_buypass crc16_message4 (Z.of_nat (length crc16_message4)) None = Ok 0x726F /\
  Crc16_buypass crc16_message5 (Z.of_nat (length crc16_message5)) None = Ok 0x4FD0 /\
  Crc16_buypass crc16_message6 (Z.of_nat (length crc16_message6)) None = Ok 0xF093 /\
  Crc16_buypass crc16_message7 (Z.of_nat (length crc16_message7)) None = Ok 0x8029 /\
  (let! r := Crc16_buypass crc16_message5 2 None in
   let! r := Crc16_buypass (skipn 2 crc16_message5) 5 (Some r) in
   Crc16_buypass (skipn 7 crc16_message5) 2 (Some r)) = Ok 0x4FD0.
Proof. repeat split; by vm_compute. Qed.
Example test_Crc16_ccitFalse :
  Crc16_ccitFalse crc16_message1 (Z.of_nat (length crc16_message1)) None = Ok 0x84C0 /\
  Crc16_ccitFalse crc16_message2 (Z.of_nat (length crc16_message2)) None = Ok 0xD374 /\
  Crc16_ccitFalse crc16_message3 (Z.of_nat (length crc16_message3)) None = Ok 0x2023 /\
  Crc16_ccitFalse crc16_message4 (Z.of_nat (length crc16_message4)) None = Ok 0xB8F9 /\
  Crc16_ccitFalse crc16_message5 (Z.of_nat (length crc16_message5)) None = Ok 0xF53F /\
  Crc16_ccitFalse crc16_message6 (Z.of_nat (length crc16_message6)) None = Ok 0x0745 /\
  Crc16_ccitFalse crc16_message7 (Z.of_nat (length crc16_message7)) None = Ok 0x1D0F /\
  (let! r := Crc16_ccitFalse crc16_message5 2 None in
   let! r := Crc16_ccitFalse (skipn 2 crc16_message5) 5 (Some r) in
   Crc16_ccitFalse (skipn 7 crc16_message5) 2 (Some r)) = Ok 0xF53F.
Proof. repeat split; by vm_compute. Qed.
Example test_Crc16_ccitZero :
  Crc16_ccitZero crc16_message1 (Z.of_nat (length crc16_message1)) None = Ok 0x0000 /\
  Crc16_ccitZero crc16_message2 (Z.of_nat (length crc16_message2)) None = Ok 0x1FE8 /\
  Crc16_ccitZero crc16_message3 (Z.of_nat (length crc16_message3)) None = Ok 0xA4E3 /\
  Crc16_ccitZero crc16_message4 (Z.of_nat (length crc16_message4)) None = Ok 0x3C39 /\
  Crc16_ccitZero crc16_message5 (Z.of_nat (length crc16_message5)) None = Ok 0xED4D /\
  Crc16_ccitZero crc16_message6 (Z.of_nat (length crc16_message6)) None = Ok 0xCBD9 /\
  Crc16_ccitZero crc16_message7 (Z.of_nat (length crc16_message7)) None = Ok 0x99CF /\
  (let! r := Crc16_ccitZero crc16_message5 2 None in
   let! r := Crc16_ccitZero (skipn 2 crc16_message5) 5 (Some r) in
   Crc16_ccitZero (skipn 7 crc16_message5) 2 (Some r)) = Ok 0xED4D.
Proof. repeat split; by vm_compute. Qed.
Example test_Crc16_cdma2000 :
  Crc16_cdma2000 crc16_message1 (Z.of_nat (length crc16_message1)) None = Ok 0xA101 /\
  Crc16_cdma2000 crc16_message2 (Z.of_nat (length crc16_message2)) None = Ok 0x98F9 /\
  Crc16_cdma2000 crc16_message3 (Z.of_nat (length crc16_message3)) None = Ok 0x9658 /\
  Crc16_cdma2000 crc16_message4 (Z.of_nat (length crc16_message4)) None = Ok 0x7124 /\
  Crc16_cdma2000 crc16_message5 (Z.of_nat (length crc16_message5)) None = Ok 0x2DCB /\
  Crc16_cdma2000 crc16_message6 (Z.of_nat (length crc16_message6)) None = Ok 0x023F /\
  Crc16_cdma2000 crc16_message7 (Z.of_nat (length crc16_message7)) None = Ok 0x8A85 /\
  (let! r := Crc16_cdma2000 crc16_message5 2 None in
   let! r := Crc16_cdma2000 (skipn 2 crc16_message5) 5 (Some r) in
   Crc16_cdma2000 (skipn 7 crc16_message5) 2 (Some r)) = Ok 0x2DCB.
Proof. repeat split; by vm_compute. Qed.
Example test_Crc16_dds110 :
  Crc16_dds110 crc16_message1 (Z.of_nat (length crc16_message1)) None = Ok 0x00D8 /\
  Crc16_dds110 crc16_message2 (Z.of_nat (length crc16_message2)) None = Ok 0xADE1 /\
  Crc16_dds110 crc16_message3 (Z.of_nat (length crc16_message3)) None = Ok 0xC52E /\
  Crc16_dds110 crc16_message4 (Z.of_nat (length crc16_message4)) None = Ok 0x72B7 /\
  Crc16_dds110 crc16_message5 (Z.of_nat (length crc16_message5)) None = Ok 0x2FF7 /\
  Crc16_dds110 crc16_message6 (Z.of_nat (length crc16_message6)) None = Ok 0xD493 /\
  Crc16_dds110 crc16_message7 (Z.of_nat (length crc16_message7)) None = Ok 0x80F1 /\
  (let! r := Crc16_dds110 crc16_message5 2 None in
   let! r := Crc16_dds110 (skipn 2 crc16_message5) 5 (Some r) in
   Crc16_dds110 (skipn 7 crc16_message5) 2 (Some r)) = Ok 0x2FF7.
Proof. repeat split; by vm_compute. Qed.
Example test_Crc16_dectR :
  Crc16_dectR crc16_message1 (Z.of_nat (length crc16_message1)) true None = Ok 0x0001 /\
  Crc16_dectR crc16_message2 (Z.of_nat (length crc16_message2)) true None = Ok 0xC746 /\
  Crc16_dectR crc16_message3 (Z.of_nat (length crc16_message3)) true None = Ok 0x860A /\
  Crc16_dectR crc16_message4 (Z.of_nat (length crc16_message4)) true None = Ok 0x3C4F /\
  Crc16_dectR crc16_message5 (Z.of_nat (length crc16_message5)) true None = Ok 0xEE45 /\
  Crc16_dectR crc16_message6 (Z.of_nat (length crc16_message6)) true None = Ok 0x36FD /\
  Crc16_dectR crc16_message7 (Z.of_nat (length crc16_message7)) true None = Ok 0x983C /\
  (let! r := Crc16_dectR crc16_message5 2 false None in
   let! r := Crc16_dectR (skipn 2 crc16_message5) 5 false (Some r) in
   Crc16_dectR (skipn 7 crc16_message5) 2 true (Some r)) = Ok 0xEE45.
Proof. repeat split; by vm_compute. Qed.
Example test_Crc16_dectX :
  Crc16_dectX crc16_message1 (Z.of_nat (length crc16_message1)) None = Ok 0x0000 /\
  Crc16_dectX crc16_message2 (Z.of_nat (length crc16_message2)) None = Ok 0xC747 /\
  Crc16_dectX crc16_message3 (Z.of_nat (length crc16_message3)) None = Ok 0x860B /\
  Crc16_dectX crc16_message4 (Z.of_nat (length crc16_message4)) None = Ok 0x3C4E /\
  Crc16_dectX crc16_message5 (Z.of_nat (length crc16_message5)) None = Ok 0xEE44 /\
  Crc16_dectX crc16_message6 (Z.of_nat (length crc16_message6)) None = Ok 0x36FC /\
  Crc16_dectX crc16_message7 (Z.of_nat (length crc16_message7)) None = Ok 0x983D /\
  (let! r := Crc16_dectX crc16_message5 2 None in
   let! r := Crc16_dectX (skipn 2 crc16_message5) 5 (Some r) in
   Crc16_dectX (skipn 7 crc16_message5) 2 (Some r)) = Ok 0xEE44.
Proof. repeat split; by vm_compute. Qed.
Example test_Crc16_dnp :
  Crc16_dnp crc16_message1 (Z.of_nat (length crc16_message1)) true None = Ok 0xFFFF /\
  Crc16_dnp crc16_message2 (Z.of_nat (length crc16_message2)) true None = Ok 0x7425 /\
  Crc16_dnp crc16_message3 (Z.of_nat (length crc16_message3)) true None = Ok 0x9935 /\
  Crc16_dnp crc16_message4 (Z.of_nat (length crc16_message4)) true None = Ok 0xFD1F /\
  Crc16_dnp crc16_message5 (Z.of_nat (length crc16_message5)) true None = Ok 0x9BE3 /\
  Crc16_dnp crc16_message6 (Z.of_nat (length crc16_message6)) true None = Ok 0xC6FF /\
  Crc16_dnp crc16_message7 (Z.of_nat (length crc16_message7)) true None = Ok 0x7A8F /\
  (let! r := Crc16_dnp crc16_message5 2 false None in
   let! r := Crc16_dnp (skipn 2 crc16_message5) 5 false (Some r) in
   Crc16_dnp (skipn 7 crc16_message5) 2 true (Some r)) = Ok 0x9BE3.
Proof. repeat split; by vm_compute. Qed.
Example test_Crc16_en13757 :
  Crc16_en13757 crc16_message1 (Z.of_nat (length crc16_message1)) true None = Ok 0xFFFF /\
  Crc16_en13757 crc16_message2 (Z.of_nat (length crc16_message2)) true None = Ok 0xD754 /\
  Crc16_en13757 crc16_message3 (Z.of_nat (length crc16_message3)) true None = Ok 0xAD16 /\
  Crc16_en13757 crc16_message4 (Z.of_nat (length crc16_message4)) true None = Ok 0xF72A /\
  Crc16_en13757 crc16_message5 (Z.of_nat (length crc16_message5)) true None = Ok 0x7A1F /\
  Crc16_en13757 crc16_message6 (Z.of_nat (length crc16_message6)) true None = Ok 0xB31F /\
  Crc16_en13757 crc16_message7 (Z.of_nat (length crc16_message7)) true None = Ok 0xF15E /\
  (let! r := Crc16_en13757 crc16_message5 2 false None in
   let! r := Crc16_en13757 (skipn 2 crc16_message5) 5 false (Some r) in
   Crc16_en13757 (skipn 7 crc16_message5) 2 true (Some r)) = Ok 0x7A1F.
Proof. repeat split; by vm_compute. Qed.
Example test_Crc16_genibus :
  Crc16_genibus crc16_message1 (Z.of_nat (length crc16_message1)) true None = Ok 0x7B3F /\
  Crc16_genibus crc16_message2 (Z.of_nat (length crc16_message2)) true None = Ok 0x2C8B /\
  Crc16_genibus crc16_message3 (Z.of_nat (length crc16_message3)) true None = Ok 0xDFDC /\
  Crc16_genibus crc16_message4 (Z.of_nat (length crc16_message4)) true None = Ok 0x4706 /\
  Crc16_genibus crc16_message5 (Z.of_nat (length crc16_message5)) true None = Ok 0x0AC0 /\
  Crc16_genibus crc16_message6 (Z.of_nat (length crc16_message6)) true None = Ok 0xF8BA /\
  Crc16_genibus crc16_message7 (Z.of_nat (length crc16_message7)) true None = Ok 0xE2F0 /\
  (let! r := Crc16_genibus crc16_message5 2 false None in
   let! r := Crc16_genibus (skipn 2 crc16_message5) 5 false (Some r) in
   Crc16_genibus (skipn 7 crc16_message5) 2 true (Some r)) = Ok 0x0AC0.
Proof. repeat split; by vm_compute. Qed.
Example test_Crc16_kermit :
  Crc16_kermit crc16_message1 (Z.of_nat (length crc16_message1)) true None = Ok 0x0000 /\
  Crc16_kermit crc16_message2 (Z.of_nat (length crc16_message2)) true None = Ok 0x96C7 /\
  Crc16_kermit crc16_message3 (Z.of_nat (length crc16_message3)) true None = Ok 0xCB7C /\
  Crc16_kermit crc16_message4 (Z.of_nat (length crc16_message4)) true None = Ok 0x6AB4 /\
  Crc16_kermit crc16_message5 (Z.of_nat (length crc16_message5)) true None = Ok 0xF191 /\
  Crc16_kermit crc16_message6 (Z.of_nat (length crc16_message6)) true None = Ok 0xB814 /\
  Crc16_kermit crc16_message7 (Z.of_nat (length crc16_message7)) true None = Ok 0xF399 /\
  (let! r := Crc16_kermit crc16_message5 2 false None in
   let! r := Crc16_kermit (skipn 2 crc16_message5) 5 false (Some r) in
   Crc16_kermit (skipn 7 crc16_message5) 2 true (Some r)) = Ok 0xF191.
Proof. repeat split; by vm_compute. Qed.
Example test_Crc16_maxim :
  Crc16_maxim crc16_message1 (Z.of_nat (length crc16_message1)) true None = Ok 0xFFFF /\
  Crc16_maxim crc16_message2 (Z.of_nat (length crc16_message2)) true None = Ok 0x3D1E /\
  Crc16_maxim crc16_message3 (Z.of_nat (length crc16_message3)) true None = Ok 0xF41C /\
  Crc16_maxim crc16_message4 (Z.of_nat (length crc16_message4)) true None = Ok 0x9330 /\
  Crc16_maxim crc16_message5 (Z.of_nat (length crc16_message5)) true None = Ok 0x5167 /\
  Crc16_maxim crc16_message6 (Z.of_nat (length crc16_message6)) true None = Ok 0x1DB1 /\
  Crc16_maxim crc16_message7 (Z.of_nat (length crc16_message7)) true None = Ok 0x6BFE /\
  (let! r := Crc16_maxim crc16_message5 2 false None in
   let! r := Crc16_maxim (skipn 2 crc16_message5) 5 false (Some r) in
   Crc16_maxim (skipn 7 crc16_message5) 2 true (Some r)) = Ok 0x5167.
Proof. repeat split; by vm_compute. Qed.
Example test_Crc16_mcrf4xx :
  Crc16_mcrf4xx crc16_message1 (Z.of_nat (length crc16_message1)) true None = Ok 0x0321 /\
  Crc16_mcrf4xx crc16_message2 (Z.of_nat (length crc16_message2)) true None = Ok 0xAFF4 /\
  Crc16_mcrf4xx crc16_message3 (Z.of_nat (length crc16_message3)) true None = Ok 0xC85D /\
  Crc16_mcrf4xx crc16_message4 (Z.of_nat (length crc16_message4)) true None = Ok 0x6995 /\
  Crc16_mcrf4xx crc16_message5 (Z.of_nat (length crc16_message5)) true None = Ok 0xBF89 /\
  Crc16_mcrf4xx crc16_message6 (Z.of_nat (length crc16_message6)) true None = Ok 0x8127 /\
  Crc16_mcrf4xx crc16_message7 (Z.of_nat (length crc16_message7)) true None = Ok 0xF0B8 /\
  (let! r := Crc16_mcrf4xx crc16_message5 2 false None in
   let! r := Crc16_mcrf4xx (skipn 2 crc16_message5) 5 false (Some r) in
   Crc16_mcrf4xx (skipn 7 crc16_message5) 2 true (Some r)) = Ok 0xBF89.
Proof. repeat split; by vm_compute. Qed.
Example test_Crc16_modbus :
  Crc16_modbus crc16_message1 (Z.of_nat (length crc16_message1)) true None = Ok 0x2400 /\
  Crc16_modbus crc16_message2 (Z.of_nat (length crc16_message2)) true None = Ok 0x0290 /\
  Crc16_modbus crc16_message3 (Z.of_nat (length crc16_message3)) true None = Ok 0x2FE3 /\
  Crc16_modbus crc16_message4 (Z.of_nat (length crc16_message4)) true None = Ok 0x48CF /\
  Crc16_modbus crc16_message5 (Z.of_nat (length crc16_message5)) true None = Ok 0x5E92 /\
  Crc16_modbus crc16_message6 (Z.of_nat (length crc16_message6)) true None = Ok 0x223F /\
  Crc16_modbus crc16_message7 (Z.of_nat (length crc16_message7)) true None = Ok 0xB001 /\
  (let! r := Crc16_modbus crc16_message5 2 false None in
   let! r := Crc16_modbus (skipn 2 crc16_message5) 5 false (Some r) in
   Crc16_modbus (skipn 7 crc16_message5) 2 true (Some r)) = Ok 0x5E92.
Proof. repeat split; by vm_compute. Qed.
Example test_Crc16_riello :
  Crc16_riello crc16_message1 (Z.of_nat (length crc16_message1)) true None = Ok 0x2766 /\
  Crc16_riello crc16_message2 (Z.of_nat (length crc16_message2)) true None = Ok 0xC281 /\
  Crc16_riello crc16_message3 (Z.of_nat (length crc16_message3)) true None = Ok 0xEC1A /\
  Crc16_riello crc16_message4 (Z.of_nat (length crc16_message4)) true None = Ok 0x4DD2 /\
  Crc16_riello crc16_message5 (Z.of_nat (length crc16_message5)) true None = Ok 0xB3C8 /\
  Crc16_riello crc16_message6 (Z.of_nat (length crc16_message6)) true None = Ok 0xEC52 /\
  Crc16_riello crc16_message7 (Z.of_nat (length crc16_message7)) true None = Ok 0xD4FF /\
  (let! r := Crc16_riello crc16_message5 2 false None in
   let! r := Crc16_riello (skipn 2 crc16_message5) 5 false (Some r) in
   Crc16_riello (skipn 7 crc16_message5) 2 true (Some r)) = Ok 0xB3C8.
Proof. repeat split; by vm_compute. Qed.
Example test_Crc16_t10Dif :
  Crc16_t10Dif crc16_message1 (Z.of_nat (length crc16_message1)) None = Ok 0x0000 /\
  Crc16_t10Dif crc16_message2 (Z.of_nat (length crc16_message2)) None = Ok 0x6276 /\
  Crc16_t10Dif crc16_message3 (Z.of_nat (length crc16_message3)) None = Ok 0x9231 /\
  Crc16_t10Dif crc16_message4 (Z.of_nat (length crc16_message4)) None = Ok 0x0FF2 /\
  Crc16_t10Dif crc16_message5 (Z.of_nat (length crc16_message5)) None = Ok 0xA725 /\
  Crc16_t10Dif crc16_message6 (Z.of_nat (length crc16_message6)) None = Ok 0x1A01 /\
  Crc16_t10Dif crc16_message7 (Z.of_nat (length crc16_message7)) None = Ok 0x77B5 /\
  (let! r := Crc16_t10Dif crc16_message5 2 None in
   let! r := Crc16_t10Dif (skipn 2 crc16_message5) 5 (Some r) in
   Crc16_t10Dif (skipn 7 crc16_message5) 2 (Some r)) = Ok 0xA725.
Proof. repeat split; by vm_compute. Qed.
Example test_Crc16_teledisk :
  Crc16_teledisk crc16_message1 (Z.of_nat (length crc16_message1)) None = Ok 0x0000 /\
  Crc16_teledisk crc16_message2 (Z.of_nat (length crc16_message2)) None = Ok 0x3079 /\
  Crc16_teledisk crc16_message3 (Z.of_nat (length crc16_message3)) None = Ok 0x612F /\
  Crc16_teledisk crc16_message4 (Z.of_nat (length crc16_message4)) None = Ok 0xF1AE /\
  Crc16_teledisk crc16_message5 (Z.of_nat (length crc16_message5)) None = Ok 0xC07B /\
  Crc16_teledisk crc16_message6 (Z.of_nat (length crc16_message6)) None = Ok 0x50D4 /\
  Crc16_teledisk crc16_message7 (Z.of_nat (length crc16_message7)) None = Ok 0x30B8 /\
  (let! r := Crc16_teledisk crc16_message5 2 None in
   let! r := Crc16_teledisk (skipn 2 crc16_message5) 5 (Some r) in
   Crc16_teledisk (skipn 7 crc16_message5) 2 (Some r)) = Ok 0xC07B.
Proof. repeat split; by vm_compute. Qed.
Example test_Crc16_tms37157 :
  Crc16_tms37157 crc16_message1 (Z.of_nat (length crc16_message1)) true None = Ok 0xF8DF /\
  Crc16_tms37157 crc16_message2 (Z.of_nat (length crc16_message2)) true None = Ok 0xBEC8 /\
  Crc16_tms37157 crc16_message3 (Z.of_nat (length crc16_message3)) true None = Ok 0x33A3 /\
  Crc16_tms37157 crc16_message4 (Z.of_nat (length crc16_message4)) true None = Ok 0x926B /\
  Crc16_tms37157 crc16_message5 (Z.of_nat (length crc16_message5)) true None = Ok 0xF6A9 /\
  Crc16_tms37157 crc16_message6 (Z.of_nat (length crc16_message6)) true None = Ok 0x901B /\
  Crc16_tms37157 crc16_message7 (Z.of_nat (length crc16_message7)) true None = Ok 0x0B46 /\
  (let! r := Crc16_tms37157 crc16_message5 2 false None in
   let! r := Crc16_tms37157 (skipn 2 crc16_message5) 5 false (Some r) in
   Crc16_tms37157 (skipn 7 crc16_message5) 2 true (Some r)) = Ok 0xF6A9.
Proof. repeat split; by vm_compute. Qed.
Example test_Crc16_usb :
  Crc16_usb crc16_message1 (Z.of_nat (length crc16_message1)) true None = Ok 0xDBFF /\
  Crc16_usb crc16_message2 (Z.of_nat (length crc16_message2)) true None = Ok 0xFD6F /\
  Crc16_usb crc16_message3 (Z.of_nat (length crc16_message3)) true None = Ok 0xD01C /\
  Crc16_usb crc16_message4 (Z.of_nat (length crc16_message4)) true None = Ok 0xB730 /\
  Crc16_usb crc16_message5 (Z.of_nat (length crc16_message5)) true None = Ok 0xA16D /\
  Crc16_usb crc16_message6 (Z.of_nat (length crc16_message6)) true None = Ok 0xDDC0 /\
  Crc16_usb crc16_message7 (Z.of_nat (length crc16_message7)) true None = Ok 0x4FFE /\
  (let! r := Crc16_usb crc16_message5 2 false None in
   let! r := Crc16_usb (skipn 2 crc16_message5) 5 false (Some r) in
   Crc16_usb (skipn 7 crc16_message5) 2 true (Some r)) = Ok 0xA16D.
Proof. repeat split; by vm_compute. Qed.
Example test_Crc16_x25 :
  Crc16_x25 crc16_message1 (Z.of_nat (length crc16_message1)) true None = Ok 0xFCDE /\
  Crc16_x25 crc16_message2 (Z.of_nat (length crc16_message2)) true None = Ok 0x500B /\
  Crc16_x25 crc16_message3 (Z.of_nat (length crc16_message3)) true None = Ok 0x37A2 /\
  Crc16_x25 crc16_message4 (Z.of_nat (length crc16_message4)) true None = Ok 0x966A /\
  Crc16_x25 crc16_message5 (Z.of_nat (length crc16_message5)) true None = Ok 0x4076 /\
  Crc16_x25 crc16_message6 (Z.of_nat (length crc16_message6)) true None = Ok 0x7ED8 /\
  Crc16_x25 crc16_message7 (Z.of_nat (length crc16_message7)) true None = Ok 0x0F47 /\
  (let! r := Crc16_x25 crc16_message5 2 false None in
   let! r := Crc16_x25 (skipn 2 crc16_message5) 5 false (Some r) in
   Crc16_x25 (skipn 7 crc16_message5) 2 true (Some r)) = Ok 0x4076.
Proof. repeat split; by vm_compute. Qed.

Definition crc32_message1 : list Z := [0x00; 0x00; 0x00; 0x00].
Definition crc32_message2 : list Z := [0xF2; 0x01; 0x83].
Definition crc32_message3 : list Z := [0x0F; 0xAA; 0x00; 0x55].
Definition crc32_message4 : list Z := [0x00; 0xFF; 0x55; 0x11].
Definition crc32_message5 : list Z := [0x33; 0x22; 0x55; 0xAA; 0xBB; 0xCC; 0xDD; 0xEE; 0xFF].
Definition crc32_message6 : list Z := [0x92; 0x6B; 0x55].
Definition crc32_message7 : list Z := [0xFF; 0xFF; 0xFF; 0xFF].

Definition test_crc32_table : list Z := [
   0x00000000; 0x04C11DB7; 0x09823B6E; 0x0D4326D9; 0x130476DC; 0x17C56B6B; 0x1A864DB2;
   0x1E475005; 0x2608EDB8; 0x22C9F00F; 0x2F8AD6D6; 0x2B4BCB61; 0x350C9B64; 0x31CD86D3;
   0x3C8EA00A; 0x384FBDBD; 0x4C11DB70; 0x48D0C6C7; 0x4593E01E; 0x4152FDA9; 0x5F15ADAC;
   0x5BD4B01B; 0x569796C2; 0x52568B75; 0x6A1936C8; 0x6ED82B7F; 0x639B0DA6; 0x675A1011;
   0x791D4014; 0x7DDC5DA3; 0x709F7B7A; 0x745E66CD; 0x9823B6E0; 0x9CE2AB57; 0x91A18D8E;
   0x95609039; 0x8B27C03C; 0x8FE6DD8B; 0x82A5FB52; 0x8664E6E5; 0xBE2B5B58; 0xBAEA46EF;
   0xB7A96036; 0xB3687D81; 0xAD2F2D84; 0xA9EE3033; 0xA4AD16EA; 0xA06C0B5D; 0xD4326D90;
   0xD0F37027; 0xDDB056FE; 0xD9714B49; 0xC7361B4C; 0xC3F706FB; 0xCEB42022; 0xCA753D95;
   0xF23A8028; 0xF6FB9D9F; 0xFBB8BB46; 0xFF79A6F1; 0xE13EF6F4; 0xE5FFEB43; 0xE8BCCD9A;
   0xEC7DD02D; 0x34867077; 0x30476DC0; 0x3D044B19; 0x39C556AE; 0x278206AB; 0x23431B1C;
   0x2E003DC5; 0x2AC12072; 0x128E9DCF; 0x164F8078; 0x1B0CA6A1; 0x1FCDBB16; 0x018AEB13;
   0x054BF6A4; 0x0808D07D; 0x0CC9CDCA; 0x7897AB07; 0x7C56B6B0; 0x71159069; 0x75D48DDE;
   0x6B93DDDB; 0x6F52C06C; 0x6211E6B5; 0x66D0FB02; 0x5E9F46BF; 0x5A5E5B08; 0x571D7DD1;
   0x53DC6066; 0x4D9B3063; 0x495A2DD4; 0x44190B0D; 0x40D816BA; 0xACA5C697; 0xA864DB20;
   0xA527FDF9; 0xA1E6E04E; 0xBFA1B04B; 0xBB60ADFC; 0xB6238B25; 0xB2E29692; 0x8AAD2B2F;
   0x8E6C3698; 0x832F1041; 0x87EE0DF6; 0x99A95DF3; 0x9D684044; 0x902B669D; 0x94EA7B2A;
   0xE0B41DE7; 0xE4750050; 0xE9362689; 0xEDF73B3E; 0xF3B06B3B; 0xF771768C; 0xFA325055;
   0xFEF34DE2; 0xC6BCF05F; 0xC27DEDE8; 0xCF3ECB31; 0xCBFFD686; 0xD5B88683; 0xD1799B34;
   0xDC3ABDED; 0xD8FBA05A; 0x690CE0EE; 0x6DCDFD59; 0x608EDB80; 0x644FC637; 0x7A089632;
   0x7EC98B85; 0x738AAD5C; 0x774BB0EB; 0x4F040D56; 0x4BC510E1; 0x46863638; 0x42472B8F;
   0x5C007B8A; 0x58C1663D; 0x558240E4; 0x51435D53; 0x251D3B9E; 0x21DC2629; 0x2C9F00F0;
   0x285E1D47; 0x36194D42; 0x32D850F5; 0x3F9B762C; 0x3B5A6B9B; 0x0315D626; 0x07D4CB91;
   0x0A97ED48; 0x0E56F0FF; 0x1011A0FA; 0x14D0BD4D; 0x19939B94; 0x1D528623; 0xF12F560E;
   0xF5EE4BB9; 0xF8AD6D60; 0xFC6C70D7; 0xE22B20D2; 0xE6EA3D65; 0xEBA91BBC; 0xEF68060B;
   0xD727BBB6; 0xD3E6A601; 0xDEA580D8; 0xDA649D6F; 0xC423CD6A; 0xC0E2D0DD; 0xCDA1F604;
   0xC960EBB3; 0xBD3E8D7E; 0xB9FF90C9; 0xB4BCB610; 0xB07DABA7; 0xAE3AFBA2; 0xAAFBE615;
   0xA7B8C0CC; 0xA379DD7B; 0x9B3660C6; 0x9FF77D71; 0x92B45BA8; 0x9675461F; 0x8832161A;
   0x8CF30BAD; 0x81B02D74; 0x857130C3; 0x5D8A9099; 0x594B8D2E; 0x5408ABF7; 0x50C9B640;
   0x4E8EE645; 0x4A4FFBF2; 0x470CDD2B; 0x43CDC09C; 0x7B827D21; 0x7F436096; 0x7200464F;
   0x76C15BF8; 0x68860BFD; 0x6C47164A; 0x61043093; 0x65C52D24; 0x119B4BE9; 0x155A565E;
   0x18197087; 0x1CD86D30; 0x029F3D35; 0x065E2082; 0x0B1D065B; 0x0FDC1BEC; 0x3793A651;
   0x3352BBE6; 0x3E119D3F; 0x3AD08088; 0x2497D08D; 0x2056CD3A; 0x2D15EBE3; 0x29D4F654;
   0xC5A92679; 0xC1683BCE; 0xCC2B1D17; 0xC8EA00A0; 0xD6AD50A5; 0xD26C4D12; 0xDF2F6BCB;
   0xDBEE767C; 0xE3A1CBC1; 0xE760D676; 0xEA23F0AF; 0xEEE2ED18; 0xF0A5BD1D; 0xF464A0AA;
   0xF9278673; 0xFDE69BC4; 0x89B8FD09; 0x8D79E0BE; 0x803AC667; 0x84FBDBD0; 0x9ABC8BD5;
   0x9E7D9662; 0x933EB0BB; 0x97FFAD0C; 0xAFB010B1; 0xAB710D06; 0xA6322BDF; 0xA2F33668;
   0xBCB4666D; 0xB8757BDA; 0xB5365D03; 0xB1F740B4].
Example test_Crc32Base_tableCalculator_0 :
  Crc32Base_tableCalculator 0x4C11DB7 (replicate 256 0)
  = Ok [
   0x00000000; 0x04C11DB7; 0x09823B6E; 0x0D4326D9; 0x130476DC; 0x17C56B6B; 0x1A864DB2;
   0x1E475005; 0x2608EDB8; 0x22C9F00F; 0x2F8AD6D6; 0x2B4BCB61; 0x350C9B64; 0x31CD86D3;
   0x3C8EA00A; 0x384FBDBD; 0x4C11DB70; 0x48D0C6C7; 0x4593E01E; 0x4152FDA9; 0x5F15ADAC;
   0x5BD4B01B; 0x569796C2; 0x52568B75; 0x6A1936C8; 0x6ED82B7F; 0x639B0DA6; 0x675A1011;
   0x791D4014; 0x7DDC5DA3; 0x709F7B7A; 0x745E66CD; 0x9823B6E0; 0x9CE2AB57; 0x91A18D8E;
   0x95609039; 0x8B27C03C; 0x8FE6DD8B; 0x82A5FB52; 0x8664E6E5; 0xBE2B5B58; 0xBAEA46EF;
   0xB7A96036; 0xB3687D81; 0xAD2F2D84; 0xA9EE3033; 0xA4AD16EA; 0xA06C0B5D; 0xD4326D90;
   0xD0F37027; 0xDDB056FE; 0xD9714B49; 0xC7361B4C; 0xC3F706FB; 0xCEB42022; 0xCA753D95;
   0xF23A8028; 0xF6FB9D9F; 0xFBB8BB46; 0xFF79A6F1; 0xE13EF6F4; 0xE5FFEB43; 0xE8BCCD9A;
   0xEC7DD02D; 0x34867077; 0x30476DC0; 0x3D044B19; 0x39C556AE; 0x278206AB; 0x23431B1C;
   0x2E003DC5; 0x2AC12072; 0x128E9DCF; 0x164F8078; 0x1B0CA6A1; 0x1FCDBB16; 0x018AEB13;
   0x054BF6A4; 0x0808D07D; 0x0CC9CDCA; 0x7897AB07; 0x7C56B6B0; 0x71159069; 0x75D48DDE;
   0x6B93DDDB; 0x6F52C06C; 0x6211E6B5; 0x66D0FB02; 0x5E9F46BF; 0x5A5E5B08; 0x571D7DD1;
   0x53DC6066; 0x4D9B3063; 0x495A2DD4; 0x44190B0D; 0x40D816BA; 0xACA5C697; 0xA864DB20;
   0xA527FDF9; 0xA1E6E04E; 0xBFA1B04B; 0xBB60ADFC; 0xB6238B25; 0xB2E29692; 0x8AAD2B2F;
   0x8E6C3698; 0x832F1041; 0x87EE0DF6; 0x99A95DF3; 0x9D684044; 0x902B669D; 0x94EA7B2A;
   0xE0B41DE7; 0xE4750050; 0xE9362689; 0xEDF73B3E; 0xF3B06B3B; 0xF771768C; 0xFA325055;
   0xFEF34DE2; 0xC6BCF05F; 0xC27DEDE8; 0xCF3ECB31; 0xCBFFD686; 0xD5B88683; 0xD1799B34;
   0xDC3ABDED; 0xD8FBA05A; 0x690CE0EE; 0x6DCDFD59; 0x608EDB80; 0x644FC637; 0x7A089632;
   0x7EC98B85; 0x738AAD5C; 0x774BB0EB; 0x4F040D56; 0x4BC510E1; 0x46863638; 0x42472B8F;
   0x5C007B8A; 0x58C1663D; 0x558240E4; 0x51435D53; 0x251D3B9E; 0x21DC2629; 0x2C9F00F0;
   0x285E1D47; 0x36194D42; 0x32D850F5; 0x3F9B762C; 0x3B5A6B9B; 0x0315D626; 0x07D4CB91;
   0x0A97ED48; 0x0E56F0FF; 0x1011A0FA; 0x14D0BD4D; 0x19939B94; 0x1D528623; 0xF12F560E;
   0xF5EE4BB9; 0xF8AD6D60; 0xFC6C70D7; 0xE22B20D2; 0xE6EA3D65; 0xEBA91BBC; 0xEF68060B;
   0xD727BBB6; 0xD3E6A601; 0xDEA580D8; 0xDA649D6F; 0xC423CD6A; 0xC0E2D0DD; 0xCDA1F604;
   0xC960EBB3; 0xBD3E8D7E; 0xB9FF90C9; 0xB4BCB610; 0xB07DABA7; 0xAE3AFBA2; 0xAAFBE615;
   0xA7B8C0CC; 0xA379DD7B; 0x9B3660C6; 0x9FF77D71; 0x92B45BA8; 0x9675461F; 0x8832161A;
   0x8CF30BAD; 0x81B02D74; 0x857130C3; 0x5D8A9099; 0x594B8D2E; 0x5408ABF7; 0x50C9B640;
   0x4E8EE645; 0x4A4FFBF2; 0x470CDD2B; 0x43CDC09C; 0x7B827D21; 0x7F436096; 0x7200464F;
   0x76C15BF8; 0x68860BFD; 0x6C47164A; 0x61043093; 0x65C52D24; 0x119B4BE9; 0x155A565E;
   0x18197087; 0x1CD86D30; 0x029F3D35; 0x065E2082; 0x0B1D065B; 0x0FDC1BEC; 0x3793A651;
   0x3352BBE6; 0x3E119D3F; 0x3AD08088; 0x2497D08D; 0x2056CD3A; 0x2D15EBE3; 0x29D4F654;
   0xC5A92679; 0xC1683BCE; 0xCC2B1D17; 0xC8EA00A0; 0xD6AD50A5; 0xD26C4D12; 0xDF2F6BCB;
   0xDBEE767C; 0xE3A1CBC1; 0xE760D676; 0xEA23F0AF; 0xEEE2ED18; 0xF0A5BD1D; 0xF464A0AA;
   0xF9278673; 0xFDE69BC4; 0x89B8FD09; 0x8D79E0BE; 0x803AC667; 0x84FBDBD0; 0x9ABC8BD5;
   0x9E7D9662; 0x933EB0BB; 0x97FFAD0C; 0xAFB010B1; 0xAB710D06; 0xA6322BDF; 0xA2F33668;
   0xBCB4666D; 0xB8757BDA; 0xB5365D03; 0xB1F740B4].
Proof. by vm_compute. Qed.
Example test_CRC32Base_Reflect_output_and_input :
  Crc32Base test_crc32_table crc32_message1 (Z.of_nat (length crc32_message1)) 0xFFFFFFFF 0xFFFFFFFF true true true = Ok 0x2144DF1C /\
  Crc32Base test_crc32_table crc32_message2 (Z.of_nat (length crc32_message2)) 0xFFFFFFFF 0xFFFFFFFF true true true = Ok 0x24AB9D77 /\
  Crc32Base test_crc32_table crc32_message3 (Z.of_nat (length crc32_message3)) 0xFFFFFFFF 0xFFFFFFFF true true true = Ok 0xB6C9B287 /\
  Crc32Base test_crc32_table crc32_message4 (Z.of_nat (length crc32_message4)) 0xFFFFFFFF 0xFFFFFFFF true true true = Ok 0x32A06212 /\
  Crc32Base test_crc32_table crc32_message5 (Z.of_nat (length crc32_message5)) 0xFFFFFFFF 0xFFFFFFFF true true true = Ok 0xB0AE863D /\
  Crc32Base test_crc32_table crc32_message6 (Z.of_nat (length crc32_message6)) 0xFFFFFFFF 0xFFFFFFFF true true true = Ok 0x9CDEA29B /\
  Crc32Base test_crc32_table crc32_message7 (Z.of_nat (length crc32_message7)) 0xFFFFFFFF 0xFFFFFFFF true true true = Ok 0xFFFFFFFF.
Proof. repeat split; by vm_compute. Qed.
Example test_CRC32Base_Reflect_input :
  Crc32Base test_crc32_table crc32_message1 (Z.of_nat (length crc32_message1)) 0xFFFFFFFF 0xFFFFFFFF false true true = Ok 0x38FB2284 /\
  Crc32Base test_crc32_table crc32_message2 (Z.of_nat (length crc32_message2)) 0xFFFFFFFF 0xFFFFFFFF false true true = Ok 0xEEB9D524 /\
  Crc32Base test_crc32_table crc32_message3 (Z.of_nat (length crc32_message3)) 0xFFFFFFFF 0xFFFFFFFF false true true = Ok 0xE14D936D /\
  Crc32Base test_crc32_table crc32_message4 (Z.of_nat (length crc32_message4)) 0xFFFFFFFF 0xFFFFFFFF false true true = Ok 0x4846054C /\
  Crc32Base test_crc32_table crc32_message5 (Z.of_nat (length crc32_message5)) 0xFFFFFFFF 0xFFFFFFFF false true true = Ok 0xBC61750D /\
  Crc32Base test_crc32_table crc32_message6 (Z.of_nat (length crc32_message6)) 0xFFFFFFFF 0xFFFFFFFF false true true = Ok 0xD9457B39 /\
  Crc32Base test_crc32_table crc32_message7 (Z.of_nat (length crc32_message7)) 0xFFFFFFFF 0xFFFFFFFF false true true = Ok 0xFFFFFFFF.
Proof. repeat split; by vm_compute. Qed.
Example test_CRC32Base_Reflect_output :
  Crc32Base test_crc32_table crc32_message1 (Z.of_nat (length crc32_message1)) 0xFFFFFFFF 0xFFFFFFFF true false true = Ok 0x2144DF1C /\
  Crc32Base test_crc32_table crc32_message2 (Z.of_nat (length crc32_message2)) 0xFFFFFFFF 0xFFFFFFFF true false true = Ok 0x53677982 /\
  Crc32Base test_crc32_table crc32_message3 (Z.of_nat (length crc32_message3)) 0xFFFFFFFF 0xFFFFFFFF true false true = Ok 0xFB566F16 /\
  Crc32Base test_crc32_table crc32_message4 (Z.of_nat (length crc32_message4)) 0xFFFFFFFF 0xFFFFFFFF true false true = Ok 0x2857B480 /\
  Crc32Base test_crc32_table crc32_message5 (Z.of_nat (length crc32_message5)) 0xFFFFFFFF 0xFFFFFFFF true false true = Ok 0xBD39C06B /\
  Crc32Base test_crc32_table crc32_message6 (Z.of_nat (length crc32_message6)) 0xFFFFFFFF 0xFFFFFFFF true false true = Ok 0x616B4732 /\
  Crc32Base test_crc32_table crc32_message7 (Z.of_nat (length crc32_message7)) 0xFFFFFFFF 0xFFFFFFFF true false true = Ok 0xFFFFFFFF.
Proof. repeat split; by vm_compute. Qed.
Example test_CRC32Base_Without_finish_xor :
  Crc32Base test_crc32_table crc32_message1 (Z.of_nat (length crc32_message1)) 0xFFFFFFFF 0xFFFFFFFF true true false = Ok 0xDEBB20E3 /\
  Crc32Base test_crc32_table crc32_message2 (Z.of_nat (length crc32_message2)) 0xFFFFFFFF 0xFFFFFFFF true true false = Ok 0xDB546288 /\
  Crc32Base test_crc32_table crc32_message3 (Z.of_nat (length crc32_message3)) 0xFFFFFFFF 0xFFFFFFFF true true false = Ok 0x49364D78 /\
  Crc32Base test_crc32_table crc32_message4 (Z.of_nat (length crc32_message4)) 0xFFFFFFFF 0xFFFFFFFF true true false = Ok 0xCD5F9DED /\
  Crc32Base test_crc32_table crc32_message5 (Z.of_nat (length crc32_message5)) 0xFFFFFFFF 0xFFFFFFFF true true false = Ok 0x4F5179C2 /\
  Crc32Base test_crc32_table crc32_message6 (Z.of_nat (length crc32_message6)) 0xFFFFFFFF 0xFFFFFFFF true true false = Ok 0x63215D64 /\
  Crc32Base test_crc32_table crc32_message7 (Z.of_nat (length crc32_message7)) 0xFFFFFFFF 0xFFFFFFFF true true false = Ok 0x00000000.
Proof. repeat split; by vm_compute. Qed.
Example test_Crc32 :
  Crc32 crc32_message1 (Z.of_nat (length crc32_message1)) true None = Ok 0x2144DF1C /\
  Crc32 crc32_message2 (Z.of_nat (length crc32_message2)) true None = Ok 0x24AB9D77 /\
  Crc32 crc32_message3 (Z.of_nat (length crc32_message3)) true None = Ok 0xB6C9B287 /\
  Crc32 crc32_message4 (Z.of_nat (length crc32_message4)) true None = Ok 0x32A06212 /\
  Crc32 crc32_message5 (Z.of_nat (length crc32_message5)) true None = Ok 0xB0AE863D /\
  Crc32 crc32_message6 (Z.of_nat (length crc32_message6)) true None = Ok 0x9CDEA29B /\
  Crc32 crc32_message7 (Z.of_nat (length crc32_message7)) true None = Ok 0xFFFFFFFF /\
  (let! r := Crc32 crc32_message5 2 false None in
   let! r := Crc32 (skipn 2 crc32_message5) 5 false (Some r) in
   Crc32 (skipn 7 crc32_message5) 2 true (Some r)) = Ok 0xB0AE863D.
Proof. repeat split; by vm_compute. Qed.
Example test_Crc32_bzip2 :
  Crc32_bzip2 crc32_message1 (Z.of_nat (length crc32_message1)) true None = Ok 0x38FB2284 /\
  Crc32_bzip2 crc32_message2 (Z.of_nat (length crc32_message2)) true None = Ok 0x419EE6CA /\
  Crc32_bzip2 crc32_message3 (Z.of_nat (length crc32_message3)) true None = Ok 0x68F66ADF /\
  Crc32_bzip2 crc32_message4 (Z.of_nat (length crc32_message4)) true None = Ok 0x012DEA14 /\
  Crc32_bzip2 crc32_message5 (Z.of_nat (length crc32_message5)) true None = Ok 0xD6039CBD /\
  Crc32_bzip2 crc32_message6 (Z.of_nat (length crc32_message6)) true None = Ok 0x4CE2D686 /\
  Crc32_bzip2 crc32_message7 (Z.of_nat (length crc32_message7)) true None = Ok 0xFFFFFFFF /\
  (let! r := Crc32_bzip2 crc32_message5 2 false None in
   let! r := Crc32_bzip2 (skipn 2 crc32_message5) 5 false (Some r) in
   Crc32_bzip2 (skipn 7 crc32_message5) 2 true (Some r)) = Ok 0xD6039CBD.
Proof. repeat split; by vm_compute. Qed.
Example test_Crc32_c :
  Crc32_c crc32_message1 (Z.of_nat (length crc32_message1)) true None = Ok 0x48674BC7 /\
  Crc32_c crc32_message2 (Z.of_nat (length crc32_message2)) true None = Ok 0x70ABD088 /\
  Crc32_c crc32_message3 (Z.of_nat (length crc32_message3)) true None = Ok 0xDEAABEBB /\
  Crc32_c crc32_message4 (Z.of_nat (length crc32_message4)) true None = Ok 0xA6ADEA2D /\
  Crc32_c crc32_message5 (Z.of_nat (length crc32_message5)) true None = Ok 0xB59CA09B /\
  Crc32_c crc32_message6 (Z.of_nat (length crc32_message6)) true None = Ok 0x99357B56 /\
  Crc32_c crc32_message7 (Z.of_nat (length crc32_message7)) true None = Ok 0xFFFFFFFF /\
  (let! r := Crc32_c crc32_message5 2 false None in
   let! r := Crc32_c (skipn 2 crc32_message5) 5 false (Some r) in
   Crc32_c (skipn 7 crc32_message5) 2 true (Some r)) = Ok 0xB59CA09B.
Proof. repeat split; by vm_compute. Qed.
Example test_Crc32_d :
  Crc32_d crc32_message1 (Z.of_nat (length crc32_message1)) true None = Ok 0xBAD8FAAE /\
  Crc32_d crc32_message2 (Z.of_nat (length crc32_message2)) true None = Ok 0x001A059C /\
  Crc32_d crc32_message3 (Z.of_nat (length crc32_message3)) true None = Ok 0x1A266FFA /\
  Crc32_d crc32_message4 (Z.of_nat (length crc32_message4)) true None = Ok 0xC636481B /\
  Crc32_d crc32_message5 (Z.of_nat (length crc32_message5)) true None = Ok 0xCF0E6328 /\
  Crc32_d crc32_message6 (Z.of_nat (length crc32_message6)) true None = Ok 0x4B92ADBE /\
  Crc32_d crc32_message7 (Z.of_nat (length crc32_message7)) true None = Ok 0xFFFFFFFF /\
  (let! r := Crc32_d crc32_message5 2 false None in
   let! r := Crc32_d (skipn 2 crc32_message5) 5 false (Some r) in
   Crc32_d (skipn 7 crc32_message5) 2 true (Some r)) = Ok 0xCF0E6328.
Proof. repeat split; by vm_compute. Qed.
Example test_Crc32_jamcrc :
  Crc32_jamcrc crc32_message1 (Z.of_nat (length crc32_message1)) true None = Ok 0xDEBB20E3 /\
  Crc32_jamcrc crc32_message2 (Z.of_nat (length crc32_message2)) true None = Ok 0xDB546288 /\
  Crc32_jamcrc crc32_message3 (Z.of_nat (length crc32_message3)) true None = Ok 0x49364D78 /\
  Crc32_jamcrc crc32_message4 (Z.of_nat (length crc32_message4)) true None = Ok 0xCD5F9DED /\
  Crc32_jamcrc crc32_message5 (Z.of_nat (length crc32_message5)) true None = Ok 0x4F5179C2 /\
  Crc32_jamcrc crc32_message6 (Z.of_nat (length crc32_message6)) true None = Ok 0x63215D64 /\
  Crc32_jamcrc crc32_message7 (Z.of_nat (length crc32_message7)) true None = Ok 0x00000000 /\
  (let! r := Crc32_jamcrc crc32_message5 2 false None in
   let! r := Crc32_jamcrc (skipn 2 crc32_message5) 5 false (Some r) in
   Crc32_jamcrc (skipn 7 crc32_message5) 2 true (Some r)) = Ok 0x4F5179C2.
Proof. repeat split; by vm_compute. Qed.
Example test_Crc32_mpeg2 :
  Crc32_mpeg2 crc32_message1 (Z.of_nat (length crc32_message1)) None = Ok 0xC704DD7B /\
  Crc32_mpeg2 crc32_message2 (Z.of_nat (length crc32_message2)) None = Ok 0xBE611935 /\
  Crc32_mpeg2 crc32_message3 (Z.of_nat (length crc32_message3)) None = Ok 0x97099520 /\
  Crc32_mpeg2 crc32_message4 (Z.of_nat (length crc32_message4)) None = Ok 0xFED215EB /\
  Crc32_mpeg2 crc32_message5 (Z.of_nat (length crc32_message5)) None = Ok 0x29FC6342 /\
  Crc32_mpeg2 crc32_message6 (Z.of_nat (length crc32_message6)) None = Ok 0xB31D2979 /\
  Crc32_mpeg2 crc32_message7 (Z.of_nat (length crc32_message7)) None = Ok 0x00000000 /\
  (let! r := Crc32_mpeg2 crc32_message5 2 None in
   let! r := Crc32_mpeg2 (skipn 2 crc32_message5) 5 (Some r) in
   Crc32_mpeg2 (skipn 7 crc32_message5) 2 (Some r)) = Ok 0x29FC6342.
Proof. repeat split; by vm_compute. Qed.
Example test_Crc32_posix :
  Crc32_posix crc32_message1 (Z.of_nat (length crc32_message1)) true None = Ok 0xFFFFFFFF /\
  Crc32_posix crc32_message2 (Z.of_nat (length crc32_message2)) true None = Ok 0xF6FA9BCA /\
  Crc32_posix crc32_message3 (Z.of_nat (length crc32_message3)) true None = Ok 0xAFF2B7A4 /\
  Crc32_posix crc32_message4 (Z.of_nat (length crc32_message4)) true None = Ok 0xC629376F /\
  Crc32_posix crc32_message5 (Z.of_nat (length crc32_message5)) true None = Ok 0x5CD4F325 /\
  Crc32_posix crc32_message6 (Z.of_nat (length crc32_message6)) true None = Ok 0xFB86AB86 /\
  Crc32_posix crc32_message7 (Z.of_nat (length crc32_message7)) true None = Ok 0x38FB2284 /\
  (let! r := Crc32_posix crc32_message5 2 false None in
   let! r := Crc32_posix (skipn 2 crc32_message5) 5 false (Some r) in
   Crc32_posix (skipn 7 crc32_message5) 2 true (Some r)) = Ok 0x5CD4F325.
Proof. repeat split; by vm_compute. Qed.
Example test_Crc32_q :
  Crc32_q crc32_message1 (Z.of_nat (length crc32_message1)) None = Ok 0x00000000 /\
  Crc32_q crc32_message2 (Z.of_nat (length crc32_message2)) None = Ok 0x09F26687 /\
  Crc32_q crc32_message3 (Z.of_nat (length crc32_message3)) None = Ok 0x2C8E43FC /\
  Crc32_q crc32_message4 (Z.of_nat (length crc32_message4)) None = Ok 0xA854EA7C /\
  Crc32_q crc32_message5 (Z.of_nat (length crc32_message5)) None = Ok 0x64E7EA17 /\
  Crc32_q crc32_message6 (Z.of_nat (length crc32_message6)) None = Ok 0x35BD0C6C /\
  Crc32_q crc32_message7 (Z.of_nat (length crc32_message7)) None = Ok 0x90A54352 /\
  (let! r := Crc32_q crc32_message5 2 None in
   let! r := Crc32_q (skipn 2 crc32_message5) 5 (Some r) in
   Crc32_q (skipn 7 crc32_message5) 2 (Some r)) = Ok 0x64E7EA17.
Proof. repeat split; by vm_compute. Qed.
Example test_Crc32_xfer :
  Crc32_xfer crc32_message1 (Z.of_nat (length crc32_message1)) None = Ok 0x00000000 /\
  Crc32_xfer crc32_message2 (Z.of_nat (length crc32_message2)) None = Ok 0x620EF971 /\
  Crc32_xfer crc32_message3 (Z.of_nat (length crc32_message3)) None = Ok 0x734620C1 /\
  Crc32_xfer crc32_message4 (Z.of_nat (length crc32_message4)) None = Ok 0x6546295F /\
  Crc32_xfer crc32_message5 (Z.of_nat (length crc32_message5)) None = Ok 0xD543C03C /\
  Crc32_xfer crc32_message6 (Z.of_nat (length crc32_message6)) None = Ok 0x5C148A23 /\
  Crc32_xfer crc32_message7 (Z.of_nat (length crc32_message7)) None = Ok 0x00003C56 /\
  (let! r := Crc32_xfer crc32_message5 2 None in
   let! r := Crc32_xfer (skipn 2 crc32_message5) 5 (Some r) in
   Crc32_xfer (skipn 7 crc32_message5) 2 (Some r)) = Ok 0xD543C03C.
Proof. repeat split; by vm_compute. Qed.
