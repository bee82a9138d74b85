(** * The tests of [/repo/Tests/test_chacha20.c] run on the model

    Transcribed by [tools/gen_tests.py].  These are tests, not proofs of a property.
    The plaintext and the result are placed one after the other in one memory. *)
From Verif Require Import CSem Model_Crypto.

Definition Chacha20_crypt_01_key : list Z := [
   0x00; 0x01; 0x02; 0x03; 0x04; 0x05; 0x06; 0x07; 0x08; 0x09; 0x0a; 0x0b; 0x0c; 0x0d; 0x0e;
   0x0f; 0x10; 0x11; 0x12; 0x13; 0x14; 0x15; 0x16; 0x17; 0x18; 0x19; 0x1a; 0x1b; 0x1c; 0x1d;
   0x1e; 0x1f].
Definition Chacha20_crypt_01_nonce : list Z := [
   0x00; 0x00; 0x00; 0x00; 0x00; 0x00; 0x00; 0x4a; 0x00; 0x00; 0x00; 0x00].
Definition Chacha20_crypt_01_plain : list Z := [
   76; 97; 100; 105; 101; 115; 32; 97; 110; 100; 32; 71; 101; 110; 116; 108; 101; 109; 101;
   110; 32; 111; 102; 32; 116; 104; 101; 32; 99; 108; 97; 115; 115; 32; 111; 102; 32; 39; 57;
   57; 58; 32; 73; 102; 32; 73; 32; 99; 111; 117; 108; 100; 32; 111; 102; 102; 101; 114; 32;
   121; 111; 117; 32; 111; 110; 108; 121; 32; 111; 110; 101; 32; 116; 105; 112; 32; 102; 111;
   114; 32; 116; 104; 101; 32; 102; 117; 116; 117; 114; 101; 44; 32; 115; 117; 110; 115; 99;
   114; 101; 101; 110; 32; 119; 111; 117; 108; 100; 32; 98; 101; 32; 105; 116; 46].
Definition Chacha20_crypt_01_cipher : list Z := [
   0x6e; 0x2e; 0x35; 0x9a; 0x25; 0x68; 0xf9; 0x80; 0x41; 0xba; 0x07; 0x28; 0xdd; 0x0d; 0x69;
   0x81; 0xe9; 0x7e; 0x7a; 0xec; 0x1d; 0x43; 0x60; 0xc2; 0x0a; 0x27; 0xaf; 0xcc; 0xfd; 0x9f;
   0xae; 0x0b; 0xf9; 0x1b; 0x65; 0xc5; 0x52; 0x47; 0x33; 0xab; 0x8f; 0x59; 0x3d; 0xab; 0xcd;
   0x62; 0xb3; 0x57; 0x16; 0x39; 0xd6; 0x24; 0xe6; 0x51; 0x52; 0xab; 0x8f; 0x53; 0x0c; 0x35;
   0x9f; 0x08; 0x61; 0xd8; 0x07; 0xca; 0x0d; 0xbf; 0x50; 0x0d; 0x6a; 0x61; 0x56; 0xa3; 0x8e;
   0x08; 0x8a; 0x22; 0xb6; 0x5e; 0x52; 0xbc; 0x51; 0x4d; 0x16; 0xcc; 0xf8; 0x06; 0x81; 0x8c;
   0xe9; 0x1a; 0xb7; 0x79; 0x37; 0x36; 0x5a; 0xf9; 0x0b; 0xbf; 0x74; 0xa3; 0x5b; 0xe6; 0xb4;
   0x0b; 0x8e; 0xed; 0xf2; 0x78; 0x5e; 0x42; 0x87; 0x4d].
Example test_Chacha20_crypt_01_cipher :
  Chacha20_crypt (Chacha20_crypt_01_plain ++ replicate 114 0) 0 114 Chacha20_crypt_01_key Chacha20_crypt_01_nonce 1 114
  = Ok (Chacha20_crypt_01_plain ++ Chacha20_crypt_01_cipher).
Proof. by vm_compute. Qed.
Example test_Chacha20_crypt_01_plain :
  Chacha20_crypt (Chacha20_crypt_01_cipher ++ replicate 114 0) 0 114 Chacha20_crypt_01_key Chacha20_crypt_01_nonce 1 114
  = Ok (Chacha20_crypt_01_cipher ++ Chacha20_crypt_01_plain).
Proof. by vm_compute. Qed.

Definition Chacha20_crypt_02_key : list Z := [
   0x00; 0x00; 0x00; 0x00; 0x00; 0x00; 0x00; 0x00; 0x00; 0x00; 0x00; 0x00; 0x00; 0x00; 0x00;
   0x00; 0x00; 0x00; 0x00; 0x00; 0x00; 0x00; 0x00; 0x00; 0x00; 0x00; 0x00; 0x00; 0x00; 0x00;
   0x00; 0x00].
Definition Chacha20_crypt_02_nonce : list Z := [
   0x00; 0x00; 0x00; 0x00; 0x00; 0x00; 0x00; 0x00; 0x00; 0x00; 0x00; 0x00].
Definition Chacha20_crypt_02_plain : list Z := [
   0x00; 0x00; 0x00; 0x00; 0x00; 0x00; 0x00; 0x00; 0x00; 0x00; 0x00; 0x00; 0x00; 0x00; 0x00;
   0x00; 0x00; 0x00; 0x00; 0x00; 0x00; 0x00; 0x00; 0x00; 0x00; 0x00; 0x00; 0x00; 0x00; 0x00;
   0x00; 0x00; 0x00; 0x00; 0x00; 0x00; 0x00; 0x00; 0x00; 0x00; 0x00; 0x00; 0x00; 0x00; 0x00;
   0x00; 0x00; 0x00; 0x00; 0x00; 0x00; 0x00; 0x00; 0x00; 0x00; 0x00; 0x00; 0x00; 0x00; 0x00;
   0x00; 0x00; 0x00; 0x00].
Definition Chacha20_crypt_02_cipher : list Z := [
   0x76; 0xb8; 0xe0; 0xad; 0xa0; 0xf1; 0x3d; 0x90; 0x40; 0x5d; 0x6a; 0xe5; 0x53; 0x86; 0xbd;
   0x28; 0xbd; 0xd2; 0x19; 0xb8; 0xa0; 0x8d; 0xed; 0x1a; 0xa8; 0x36; 0xef; 0xcc; 0x8b; 0x77;
   0x0d; 0xc7; 0xda; 0x41; 0x59; 0x7c; 0x51; 0x57; 0x48; 0x8d; 0x77; 0x24; 0xe0; 0x3f; 0xb8;
   0xd8; 0x4a; 0x37; 0x6a; 0x43; 0xb8; 0xf4; 0x15; 0x18; 0xa1; 0x1c; 0xc3; 0x87; 0xb6; 0x69;
   0xb2; 0xee; 0x65; 0x86].
Example test_Chacha20_crypt_02_cipher :
  Chacha20_crypt (Chacha20_crypt_02_plain ++ replicate 64 0) 0 64 Chacha20_crypt_02_key Chacha20_crypt_02_nonce 0 64
  = Ok (Chacha20_crypt_02_plain ++ Chacha20_crypt_02_cipher).
Proof. by vm_compute. Qed.
Example test_Chacha20_crypt_02_plain :
  Chacha20_crypt (Chacha20_crypt_02_cipher ++ replicate 64 0) 0 64 Chacha20_crypt_02_key Chacha20_crypt_02_nonce 0 64
  = Ok (Chacha20_crypt_02_cipher ++ Chacha20_crypt_02_plain).
Proof. by vm_compute. Qed.

Definition Chacha20_crypt_03_key : list Z := [
   0x00; 0x00; 0x00; 0x00; 0x00; 0x00; 0x00; 0x00; 0x00; 0x00; 0x00; 0x00; 0x00; 0x00; 0x00;
   0x00; 0x00; 0x00; 0x00; 0x00; 0x00; 0x00; 0x00; 0x00; 0x00; 0x00; 0x00; 0x00; 0x00; 0x00;
   0x00; 0x01].
Definition Chacha20_crypt_03_nonce : list Z := [
   0x00; 0x00; 0x00; 0x00; 0x00; 0x00; 0x00; 0x00; 0x00; 0x00; 0x00; 0x02].
Definition Chacha20_crypt_03_plain : list Z := [
   65; 110; 121; 32; 115; 117; 98; 109; 105; 115; 115; 105; 111; 110; 32; 116; 111; 32; 116;
   104; 101; 32; 73; 69; 84; 70; 32; 105; 110; 116; 101; 110; 100; 101; 100; 32; 98; 121; 32;
   116; 104; 101; 32; 67; 111; 110; 116; 114; 105; 98; 117; 116; 111; 114; 32; 102; 111; 114;
   32; 112; 117; 98; 108; 105; 99; 97; 116; 105; 111; 110; 32; 97; 115; 32; 97; 108; 108; 32;
   111; 114; 32; 112; 97; 114; 116; 32; 111; 102; 32; 97; 110; 32; 73; 69; 84; 70; 32; 73; 110;
   116; 101; 114; 110; 101; 116; 45; 68; 114; 97; 102; 116; 32; 111; 114; 32; 82; 70; 67; 32;
   97; 110; 100; 32; 97; 110; 121; 32; 115; 116; 97; 116; 101; 109; 101; 110; 116; 32; 109; 97;
   100; 101; 32; 119; 105; 116; 104; 105; 110; 32; 116; 104; 101; 32; 99; 111; 110; 116; 101;
   120; 116; 32; 111; 102; 32; 97; 110; 32; 73; 69; 84; 70; 32; 97; 99; 116; 105; 118; 105;
   116; 121; 32; 105; 115; 32; 99; 111; 110; 115; 105; 100; 101; 114; 101; 100; 32; 97; 110;
   32; 34; 73; 69; 84; 70; 32; 67; 111; 110; 116; 114; 105; 98; 117; 116; 105; 111; 110; 34;
   46; 32; 83; 117; 99; 104; 32; 115; 116; 97; 116; 101; 109; 101; 110; 116; 115; 32; 105; 110;
   99; 108; 117; 100; 101; 32; 111; 114; 97; 108; 32; 115; 116; 97; 116; 101; 109; 101; 110;
   116; 115; 32; 105; 110; 32; 73; 69; 84; 70; 32; 115; 101; 115; 115; 105; 111; 110; 115; 44;
   32; 97; 115; 32; 119; 101; 108; 108; 32; 97; 115; 32; 119; 114; 105; 116; 116; 101; 110; 32;
   97; 110; 100; 32; 101; 108; 101; 99; 116; 114; 111; 110; 105; 99; 32; 99; 111; 109; 109;
   117; 110; 105; 99; 97; 116; 105; 111; 110; 115; 32; 109; 97; 100; 101; 32; 97; 116; 32; 97;
   110; 121; 32; 116; 105; 109; 101; 32; 111; 114; 32; 112; 108; 97; 99; 101; 44; 32; 119; 104;
   105; 99; 104; 32; 97; 114; 101; 32; 97; 100; 100; 114; 101; 115; 115; 101; 100; 32; 116; 111].
Definition Chacha20_crypt_03_cipher : list Z := [
   0xa3; 0xfb; 0xf0; 0x7d; 0xf3; 0xfa; 0x2f; 0xde; 0x4f; 0x37; 0x6c; 0xa2; 0x3e; 0x82; 0x73;
   0x70; 0x41; 0x60; 0x5d; 0x9f; 0x4f; 0x4f; 0x57; 0xbd; 0x8c; 0xff; 0x2c; 0x1d; 0x4b; 0x79;
   0x55; 0xec; 0x2a; 0x97; 0x94; 0x8b; 0xd3; 0x72; 0x29; 0x15; 0xc8; 0xf3; 0xd3; 0x37; 0xf7;
   0xd3; 0x70; 0x05; 0x0e; 0x9e; 0x96; 0xd6; 0x47; 0xb7; 0xc3; 0x9f; 0x56; 0xe0; 0x31; 0xca;
   0x5e; 0xb6; 0x25; 0x0d; 0x40; 0x42; 0xe0; 0x27; 0x85; 0xec; 0xec; 0xfa; 0x4b; 0x4b; 0xb5;
   0xe8; 0xea; 0xd0; 0x44; 0x0e; 0x20; 0xb6; 0xe8; 0xdb; 0x09; 0xd8; 0x81; 0xa7; 0xc6; 0x13;
   0x2f; 0x42; 0x0e; 0x52; 0x79; 0x50; 0x42; 0xbd; 0xfa; 0x77; 0x73; 0xd8; 0xa9; 0x05; 0x14;
   0x47; 0xb3; 0x29; 0x1c; 0xe1; 0x41; 0x1c; 0x68; 0x04; 0x65; 0x55; 0x2a; 0xa6; 0xc4; 0x05;
   0xb7; 0x76; 0x4d; 0x5e; 0x87; 0xbe; 0xa8; 0x5a; 0xd0; 0x0f; 0x84; 0x49; 0xed; 0x8f; 0x72;
   0xd0; 0xd6; 0x62; 0xab; 0x05; 0x26; 0x91; 0xca; 0x66; 0x42; 0x4b; 0xc8; 0x6d; 0x2d; 0xf8;
   0x0e; 0xa4; 0x1f; 0x43; 0xab; 0xf9; 0x37; 0xd3; 0x25; 0x9d; 0xc4; 0xb2; 0xd0; 0xdf; 0xb4;
   0x8a; 0x6c; 0x91; 0x39; 0xdd; 0xd7; 0xf7; 0x69; 0x66; 0xe9; 0x28; 0xe6; 0x35; 0x55; 0x3b;
   0xa7; 0x6c; 0x5c; 0x87; 0x9d; 0x7b; 0x35; 0xd4; 0x9e; 0xb2; 0xe6; 0x2b; 0x08; 0x71; 0xcd;
   0xac; 0x63; 0x89; 0x39; 0xe2; 0x5e; 0x8a; 0x1e; 0x0e; 0xf9; 0xd5; 0x28; 0x0f; 0xa8; 0xca;
   0x32; 0x8b; 0x35; 0x1c; 0x3c; 0x76; 0x59; 0x89; 0xcb; 0xcf; 0x3d; 0xaa; 0x8b; 0x6c; 0xcc;
   0x3a; 0xaf; 0x9f; 0x39; 0x79; 0xc9; 0x2b; 0x37; 0x20; 0xfc; 0x88; 0xdc; 0x95; 0xed; 0x84;
   0xa1; 0xbe; 0x05; 0x9c; 0x64; 0x99; 0xb9; 0xfd; 0xa2; 0x36; 0xe7; 0xe8; 0x18; 0xb0; 0x4b;
   0x0b; 0xc3; 0x9c; 0x1e; 0x87; 0x6b; 0x19; 0x3b; 0xfe; 0x55; 0x69; 0x75; 0x3f; 0x88; 0x12;
   0x8c; 0xc0; 0x8a; 0xaa; 0x9b; 0x63; 0xd1; 0xa1; 0x6f; 0x80; 0xef; 0x25; 0x54; 0xd7; 0x18;
   0x9c; 0x41; 0x1f; 0x58; 0x69; 0xca; 0x52; 0xc5; 0xb8; 0x3f; 0xa3; 0x6f; 0xf2; 0x16; 0xb9;
   0xc1; 0xd3; 0x00; 0x62; 0xbe; 0xbc; 0xfd; 0x2d; 0xc5; 0xbc; 0xe0; 0x91; 0x19; 0x34; 0xfd;
   0xa7; 0x9a; 0x86; 0xf6; 0xe6; 0x98; 0xce; 0xd7; 0x59; 0xc3; 0xff; 0x9b; 0x64; 0x77; 0x33;
   0x8f; 0x3d; 0xa4; 0xf9; 0xcd; 0x85; 0x14; 0xea; 0x99; 0x82; 0xcc; 0xaf; 0xb3; 0x41; 0xb2;
   0x38; 0x4d; 0xd9; 0x02; 0xf3; 0xd1; 0xab; 0x7a; 0xc6; 0x1d; 0xd2; 0x9c; 0x6f; 0x21; 0xba;
   0x5b; 0x86; 0x2f; 0x37; 0x30; 0xe3; 0x7c; 0xfd; 0xc4; 0xfd; 0x80; 0x6c; 0x22; 0xf2; 0x21].
Example test_Chacha20_crypt_03_cipher :
  Chacha20_crypt (Chacha20_crypt_03_plain ++ replicate 375 0) 0 375 Chacha20_crypt_03_key Chacha20_crypt_03_nonce 1 375
  = Ok (Chacha20_crypt_03_plain ++ Chacha20_crypt_03_cipher).
Proof. by vm_compute. Qed.
Example test_Chacha20_crypt_03_plain :
  Chacha20_crypt (Chacha20_crypt_03_cipher ++ replicate 375 0) 0 375 Chacha20_crypt_03_key Chacha20_crypt_03_nonce 1 375
  = Ok (Chacha20_crypt_03_cipher ++ Chacha20_crypt_03_plain).
Proof. by vm_compute. Qed.

Definition Chacha20_crypt_04_key : list Z := [
   0x1c; 0x92; 0x40; 0xa5; 0xeb; 0x55; 0xd3; 0x8a; 0xf3; 0x33; 0x88; 0x86; 0x04; 0xf6; 0xb5;
   0xf0; 0x47; 0x39; 0x17; 0xc1; 0x40; 0x2b; 0x80; 0x09; 0x9d; 0xca; 0x5c; 0xbc; 0x20; 0x70;
   0x75; 0xc0].
Definition Chacha20_crypt_04_nonce : list Z := [
   0x00; 0x00; 0x00; 0x00; 0x00; 0x00; 0x00; 0x00; 0x00; 0x00; 0x00; 0x02].
Definition Chacha20_crypt_04_plain : list Z := [
   39; 84; 119; 97; 115; 32; 98; 114; 105; 108; 108; 105; 103; 44; 32; 97; 110; 100; 32; 116;
   104; 101; 32; 115; 108; 105; 116; 104; 121; 32; 116; 111; 118; 101; 115; 10; 68; 105; 100;
   32; 103; 121; 114; 101; 32; 97; 110; 100; 32; 103; 105; 109; 98; 108; 101; 32; 105; 110; 32;
   116; 104; 101; 32; 119; 97; 98; 101; 58; 10; 65; 108; 108; 32; 109; 105; 109; 115; 121; 32;
   119; 101; 114; 101; 32; 116; 104; 101; 32; 98; 111; 114; 111; 103; 111; 118; 101; 115; 44;
   10; 65; 110; 100; 32; 116; 104; 101; 32; 109; 111; 109; 101; 32; 114; 97; 116; 104; 115; 32;
   111; 117; 116; 103; 114; 97; 98; 101; 46].
Definition Chacha20_crypt_04_cipher : list Z := [
   0x62; 0xe6; 0x34; 0x7f; 0x95; 0xed; 0x87; 0xa4; 0x5f; 0xfa; 0xe7; 0x42; 0x6f; 0x27; 0xa1;
   0xdf; 0x5f; 0xb6; 0x91; 0x10; 0x04; 0x4c; 0x0d; 0x73; 0x11; 0x8e; 0xff; 0xa9; 0x5b; 0x01;
   0xe5; 0xcf; 0x16; 0x6d; 0x3d; 0xf2; 0xd7; 0x21; 0xca; 0xf9; 0xb2; 0x1e; 0x5f; 0xb1; 0x4c;
   0x61; 0x68; 0x71; 0xfd; 0x84; 0xc5; 0x4f; 0x9d; 0x65; 0xb2; 0x83; 0x19; 0x6c; 0x7f; 0xe4;
   0xf6; 0x05; 0x53; 0xeb; 0xf3; 0x9c; 0x64; 0x02; 0xc4; 0x22; 0x34; 0xe3; 0x2a; 0x35; 0x6b;
   0x3e; 0x76; 0x43; 0x12; 0xa6; 0x1a; 0x55; 0x32; 0x05; 0x57; 0x16; 0xea; 0xd6; 0x96; 0x25;
   0x68; 0xf8; 0x7d; 0x3f; 0x3f; 0x77; 0x04; 0xc6; 0xa8; 0xd1; 0xbc; 0xd1; 0xbf; 0x4d; 0x50;
   0xd6; 0x15; 0x4b; 0x6d; 0xa7; 0x31; 0xb1; 0x87; 0xb5; 0x8d; 0xfd; 0x72; 0x8a; 0xfa; 0x36;
   0x75; 0x7a; 0x79; 0x7a; 0xc1; 0x88; 0xd1].
Example test_Chacha20_crypt_04_cipher :
  Chacha20_crypt (Chacha20_crypt_04_plain ++ replicate 127 0) 0 127 Chacha20_crypt_04_key Chacha20_crypt_04_nonce 42 127
  = Ok (Chacha20_crypt_04_plain ++ Chacha20_crypt_04_cipher).
Proof. by vm_compute. Qed.
Example test_Chacha20_crypt_04_plain :
  Chacha20_crypt (Chacha20_crypt_04_cipher ++ replicate 127 0) 0 127 Chacha20_crypt_04_key Chacha20_crypt_04_nonce 42 127
  = Ok (Chacha20_crypt_04_cipher ++ Chacha20_crypt_04_plain).
Proof. by vm_compute. Qed.
