(** * The text of [/repo/Src/crc/*_variants/*.c] as terms of [CLang]

    Generated by [/verif/tools/c2coq.py] from the C text; not edited by hand. *)
From Verif Require Import CSem CLang C_Crc.


(** crc/crc8_variants/crc8.c:52, a constant array *)
Definition c_Crc8_crc_table : list Z :=
  [0; 7; 14; 9; 28; 27; 18; 21; 56; 63; 54; 49; 36; 35; 42; 45; 112; 119; 126; 121; 
       108; 107; 98; 101; 72; 79; 70; 65; 84; 83; 90; 93; 224; 231; 238; 233; 252; 251; 
       242; 245; 216; 223; 214; 209; 196; 195; 202; 205; 144; 151; 158; 153; 140; 139; 
       130; 133; 168; 175; 166; 161; 180; 179; 186; 189; 199; 192; 201; 206; 219; 220; 
       213; 210; 255; 248; 241; 246; 227; 228; 237; 234; 183; 176; 185; 190; 171; 172; 
       165; 162; 143; 136; 129; 134; 147; 148; 157; 154; 39; 32; 41; 46; 59; 60; 53; 50; 
       31; 24; 17; 22; 3; 4; 13; 10; 87; 80; 89; 94; 75; 76; 69; 66; 111; 104; 97; 102; 
       115; 116; 125; 122; 137; 142; 135; 128; 149; 146; 155; 156; 177; 182; 191; 184; 
       173; 170; 163; 164; 249; 254; 247; 240; 229; 226; 235; 236; 193; 198; 207; 200; 
       221; 218; 211; 212; 105; 110; 103; 96; 117; 114; 123; 124; 81; 86; 95; 88; 77; 74; 
       67; 68; 25; 30; 23; 16; 5; 2; 11; 12; 33; 38; 47; 40; 61; 58; 51; 52; 78; 73; 64; 
       71; 82; 85; 92; 91; 118; 113; 120; 127; 106; 109; 100; 99; 62; 57; 48; 55; 34; 37; 
       44; 43; 6; 1; 8; 15; 26; 29; 20; 19; 174; 169; 160; 167; 178; 181; 188; 187; 150; 
       145; 152; 159; 138; 141; 132; 131; 222; 217; 208; 215; 194; 197; 204; 203; 230; 
       225; 232; 239; 250; 253; 244; 243].

(** crc/crc8_variants/crc8.c:45-87; parameters: crc_data_ptr, crc_length, last_crc_ptr. *)
Definition c_Crc8 : fundef :=
  FDef [TPtr (TInt U8); TInt U32; TPtr (TInt U8)] (TInt U8)
    (SSeq (SInit (TInt U8) (ECst U32 0))
    (SSeq (SIf (EBin Ne (ECast (TPtr TVoid) (ECst I32 0)) (ELv (LVar 2 (TPtr (TInt U8)))))
     (SSet (LVar 3 (TInt U8)) (ELv (LDeref (ELv (LVar 2 (TPtr (TInt U8)))))))
     SSkip)
    (SReturn (ECall c_Crc8Base (ECons (EData U8 c_Crc8_crc_table) (ECons (ELv (LVar 0 (TPtr (TInt U8)))) (ECons (ELv (LVar 1 (TInt U32))) (ECons (ELv (LVar 3 (TInt U8))) (ECons (ECst U32 0) (ECons (ECst I32 0) (ECons (ECst I32 0) (ECons (ECst I32 0) ENil)))))))))))).

(** crc/crc8_variants/crc8_8h2f.c:53, a constant array *)
Definition c_Crc8_8h2f_crc_table : list Z :=
  [0; 47; 94; 113; 188; 147; 226; 205; 87; 120; 9; 38; 235; 196; 181; 154; 174; 129; 
       240; 223; 18; 61; 76; 99; 249; 214; 167; 136; 69; 106; 27; 52; 115; 92; 45; 2; 207; 
       224; 145; 190; 36; 11; 122; 85; 152; 183; 198; 233; 221; 242; 131; 172; 97; 78; 63; 
       16; 138; 165; 212; 251; 54; 25; 104; 71; 230; 201; 184; 151; 90; 117; 4; 43; 177; 
       158; 239; 192; 13; 34; 83; 124; 72; 103; 22; 57; 244; 219; 170; 133; 31; 48; 65; 
       110; 163; 140; 253; 210; 149; 186; 203; 228; 41; 6; 119; 88; 194; 237; 156; 179; 
       126; 81; 32; 15; 59; 20; 101; 74; 135; 168; 217; 246; 108; 67; 50; 29; 208; 255; 
       142; 161; 227; 204; 189; 146; 95; 112; 1; 46; 180; 155; 234; 197; 8; 39; 86; 121; 
       77; 98; 19; 60; 241; 222; 175; 128; 26; 53; 68; 107; 166; 137; 248; 215; 144; 191; 
       206; 225; 44; 3; 114; 93; 199; 232; 153; 182; 123; 84; 37; 10; 62; 17; 96; 79; 130; 
       173; 220; 243; 105; 70; 55; 24; 213; 250; 139; 164; 5; 42; 91; 116; 185; 150; 231; 
       200; 82; 125; 12; 35; 238; 193; 176; 159; 171; 132; 245; 218; 23; 56; 73; 102; 252; 
       211; 162; 141; 64; 111; 30; 49; 118; 89; 40; 7; 202; 229; 148; 187; 33; 14; 127; 
       80; 157; 178; 195; 236; 216; 247; 134; 169; 100; 75; 58; 21; 143; 160; 209; 254; 
       51; 28; 109; 66].

(** crc/crc8_variants/crc8_8h2f.c:45-93; parameters: crc_data_ptr, crc_length, final_crc, last_crc_ptr. *)
Definition c_Crc8_8h2f : fundef :=
  FDef [TPtr (TInt U8); TInt U32; TInt IBool; TPtr (TInt U8)] (TInt U8)
    (SSeq (SInit (TInt IBool) (ECst I32 0))
    (SSeq (SInit (TInt U8) (ECst U32 255))
    (SSeq (SIf (EBin Ne (ECast (TPtr TVoid) (ECst I32 0)) (ELv (LVar 3 (TPtr (TInt U8)))))
     (SSet (LVar 5 (TInt U8)) (ELv (LDeref (ELv (LVar 3 (TPtr (TInt U8)))))))
     SSkip)
    (SSeq (SIf (ELv (LVar 2 (TInt IBool)))
     (SSet (LVar 4 (TInt IBool)) (ECst I32 1))
     SSkip)
    (SReturn (ECall c_Crc8Base (ECons (EData U8 c_Crc8_8h2f_crc_table) (ECons (ELv (LVar 0 (TPtr (TInt U8)))) (ECons (ELv (LVar 1 (TInt U32))) (ECons (ELv (LVar 5 (TInt U8))) (ECons (ECst U32 255) (ECons (ECst I32 0) (ECons (ECst I32 0) (ECons (ELv (LVar 4 (TInt IBool))) ENil)))))))))))))).

(** crc/crc8_variants/crc8_cdma2000.c:52, a constant array *)
Definition c_Crc8_cdma2000_crc_table : list Z :=
  [0; 155; 173; 54; 193; 90; 108; 247; 25; 130; 180; 47; 216; 67; 117; 238; 50; 169; 
       159; 4; 243; 104; 94; 197; 43; 176; 134; 29; 234; 113; 71; 220; 100; 255; 201; 82; 
       165; 62; 8; 147; 125; 230; 208; 75; 188; 39; 17; 138; 86; 205; 251; 96; 151; 12; 
       58; 161; 79; 212; 226; 121; 142; 21; 35; 184; 200; 83; 101; 254; 9; 146; 164; 63; 
       209; 74; 124; 231; 16; 139; 189; 38; 250; 97; 87; 204; 59; 160; 150; 13; 227; 120; 
       78; 213; 34; 185; 143; 20; 172; 55; 1; 154; 109; 246; 192; 91; 181; 46; 24; 131; 
       116; 239; 217; 66; 158; 5; 51; 168; 95; 196; 242; 105; 135; 28; 42; 177; 70; 221; 
       235; 112; 11; 144; 166; 61; 202; 81; 103; 252; 18; 137; 191; 36; 211; 72; 126; 229; 
       57; 162; 148; 15; 248; 99; 85; 206; 32; 187; 141; 22; 225; 122; 76; 215; 111; 244; 
       194; 89; 174; 53; 3; 152; 118; 237; 219; 64; 183; 44; 26; 129; 93; 198; 240; 107; 
       156; 7; 49; 170; 68; 223; 233; 114; 133; 30; 40; 179; 195; 88; 110; 245; 2; 153; 
       175; 52; 218; 65; 119; 236; 27; 128; 182; 45; 241; 106; 92; 199; 48; 171; 157; 6; 
       232; 115; 69; 222; 41; 178; 132; 31; 167; 60; 10; 145; 102; 253; 203; 80; 190; 37; 
       19; 136; 127; 228; 210; 73; 149; 14; 56; 163; 84; 207; 249; 98; 140; 23; 33; 186; 
       77; 214; 224; 123].

(** crc/crc8_variants/crc8_cdma2000.c:45-87; parameters: crc_data_ptr, crc_length, last_crc_ptr. *)
Definition c_Crc8_cdma2000 : fundef :=
  FDef [TPtr (TInt U8); TInt U32; TPtr (TInt U8)] (TInt U8)
    (SSeq (SInit (TInt U8) (ECst U32 255))
    (SSeq (SIf (EBin Ne (ECast (TPtr TVoid) (ECst I32 0)) (ELv (LVar 2 (TPtr (TInt U8)))))
     (SSet (LVar 3 (TInt U8)) (ELv (LDeref (ELv (LVar 2 (TPtr (TInt U8)))))))
     SSkip)
    (SReturn (ECall c_Crc8Base (ECons (EData U8 c_Crc8_cdma2000_crc_table) (ECons (ELv (LVar 0 (TPtr (TInt U8)))) (ECons (ELv (LVar 1 (TInt U32))) (ECons (ELv (LVar 3 (TInt U8))) (ECons (ECst U32 0) (ECons (ECst I32 0) (ECons (ECst I32 0) (ECons (ECst I32 0) ENil)))))))))))).

(** crc/crc8_variants/crc8_darc.c:53, a constant array *)
Definition c_Crc8_darc_crc_table : list Z :=
  [0; 57; 114; 75; 228; 221; 150; 175; 241; 200; 131; 186; 21; 44; 103; 94; 219; 226; 
       169; 144; 63; 6; 77; 116; 42; 19; 88; 97; 206; 247; 188; 133; 143; 182; 253; 196; 
       107; 82; 25; 32; 126; 71; 12; 53; 154; 163; 232; 209; 84; 109; 38; 31; 176; 137; 
       194; 251; 165; 156; 215; 238; 65; 120; 51; 10; 39; 30; 85; 108; 195; 250; 177; 136; 
       214; 239; 164; 157; 50; 11; 64; 121; 252; 197; 142; 183; 24; 33; 106; 83; 13; 52; 
       127; 70; 233; 208; 155; 162; 168; 145; 218; 227; 76; 117; 62; 7; 89; 96; 43; 18; 
       189; 132; 207; 246; 115; 74; 1; 56; 151; 174; 229; 220; 130; 187; 240; 201; 102; 
       95; 20; 45; 78; 119; 60; 5; 170; 147; 216; 225; 191; 134; 205; 244; 91; 98; 41; 16; 
       149; 172; 231; 222; 113; 72; 3; 58; 100; 93; 22; 47; 128; 185; 242; 203; 193; 248; 
       179; 138; 37; 28; 87; 110; 48; 9; 66; 123; 212; 237; 166; 159; 26; 35; 104; 81; 
       254; 199; 140; 181; 235; 210; 153; 160; 15; 54; 125; 68; 105; 80; 27; 34; 141; 180; 
       255; 198; 152; 161; 234; 211; 124; 69; 14; 55; 178; 139; 192; 249; 86; 111; 36; 29; 
       67; 122; 49; 8; 167; 158; 213; 236; 230; 223; 148; 173; 2; 59; 112; 73; 23; 46; 
       101; 92; 243; 202; 129; 184; 61; 4; 79; 118; 217; 224; 171; 146; 204; 245; 190; 
       135; 40; 17; 90; 99].

(** crc/crc8_variants/crc8_darc.c:45-93; parameters: crc_data_ptr, crc_length, final_crc, last_crc_ptr. *)
Definition c_Crc8_darc : fundef :=
  FDef [TPtr (TInt U8); TInt U32; TInt IBool; TPtr (TInt U8)] (TInt U8)
    (SSeq (SInit (TInt IBool) (ECst I32 0))
    (SSeq (SInit (TInt U8) (ECst U32 0))
    (SSeq (SIf (EBin Ne (ECast (TPtr TVoid) (ECst I32 0)) (ELv (LVar 3 (TPtr (TInt U8)))))
     (SSet (LVar 5 (TInt U8)) (ELv (LDeref (ELv (LVar 3 (TPtr (TInt U8)))))))
     SSkip)
    (SSeq (SIf (ELv (LVar 2 (TInt IBool)))
     (SSet (LVar 4 (TInt IBool)) (ECst I32 1))
     SSkip)
    (SReturn (ECall c_Crc8Base (ECons (EData U8 c_Crc8_darc_crc_table) (ECons (ELv (LVar 0 (TPtr (TInt U8)))) (ECons (ELv (LVar 1 (TInt U32))) (ECons (ELv (LVar 5 (TInt U8))) (ECons (ECst U32 0) (ECons (ELv (LVar 4 (TInt IBool))) (ECons (ECst I32 1) (ECons (ECst I32 0) ENil)))))))))))))).

(** crc/crc8_variants/crc8_dvb_s2.c:52, a constant array *)
Definition c_Crc8_dvbS2_crc_table : list Z :=
  [0; 213; 127; 170; 254; 43; 129; 84; 41; 252; 86; 131; 215; 2; 168; 125; 82; 135; 
       45; 248; 172; 121; 211; 6; 123; 174; 4; 209; 133; 80; 250; 47; 164; 113; 219; 14; 
       90; 143; 37; 240; 141; 88; 242; 39; 115; 166; 12; 217; 246; 35; 137; 92; 8; 221; 
       119; 162; 223; 10; 160; 117; 33; 244; 94; 139; 157; 72; 226; 55; 99; 182; 28; 201; 
       180; 97; 203; 30; 74; 159; 53; 224; 207; 26; 176; 101; 49; 228; 78; 155; 230; 51; 
       153; 76; 24; 205; 103; 178; 57; 236; 70; 147; 199; 18; 184; 109; 16; 197; 111; 186; 
       238; 59; 145; 68; 107; 190; 20; 193; 149; 64; 234; 63; 66; 151; 61; 232; 188; 105; 
       195; 22; 239; 58; 144; 69; 17; 196; 110; 187; 198; 19; 185; 108; 56; 237; 71; 146; 
       189; 104; 194; 23; 67; 150; 60; 233; 148; 65; 235; 62; 106; 191; 21; 192; 75; 158; 
       52; 225; 181; 96; 202; 31; 98; 183; 29; 200; 156; 73; 227; 54; 25; 204; 102; 179; 
       231; 50; 152; 77; 48; 229; 79; 154; 206; 27; 177; 100; 114; 167; 13; 216; 140; 89; 
       243; 38; 91; 142; 36; 241; 165; 112; 218; 15; 32; 245; 95; 138; 222; 11; 161; 116; 
       9; 220; 118; 163; 247; 34; 136; 93; 214; 3; 169; 124; 40; 253; 87; 130; 255; 42; 
       128; 85; 1; 212; 126; 171; 132; 81; 251; 46; 122; 175; 5; 208; 173; 120; 210; 7; 
       83; 134; 44; 249].

(** crc/crc8_variants/crc8_dvb_s2.c:45-87; parameters: crc_data_ptr, crc_length, last_crc_ptr. *)
Definition c_Crc8_dvbS2 : fundef :=
  FDef [TPtr (TInt U8); TInt U32; TPtr (TInt U8)] (TInt U8)
    (SSeq (SInit (TInt U8) (ECst U32 0))
    (SSeq (SIf (EBin Ne (ECast (TPtr TVoid) (ECst I32 0)) (ELv (LVar 2 (TPtr (TInt U8)))))
     (SSet (LVar 3 (TInt U8)) (ELv (LDeref (ELv (LVar 2 (TPtr (TInt U8)))))))
     SSkip)
    (SReturn (ECall c_Crc8Base (ECons (EData U8 c_Crc8_dvbS2_crc_table) (ECons (ELv (LVar 0 (TPtr (TInt U8)))) (ECons (ELv (LVar 1 (TInt U32))) (ECons (ELv (LVar 3 (TInt U8))) (ECons (ECst U32 0) (ECons (ECst I32 0) (ECons (ECst I32 0) (ECons (ECst I32 0) ENil)))))))))))).

(** crc/crc8_variants/crc8_ebu.c:53, a constant array *)
Definition c_Crc8_ebu_crc_table : list Z :=
  [0; 29; 58; 39; 116; 105; 78; 83; 232; 245; 210; 207; 156; 129; 166; 187; 205; 208; 
       247; 234; 185; 164; 131; 158; 37; 56; 31; 2; 81; 76; 107; 118; 135; 154; 189; 160; 
       243; 238; 201; 212; 111; 114; 85; 72; 27; 6; 33; 60; 74; 87; 112; 109; 62; 35; 4; 
       25; 162; 191; 152; 133; 214; 203; 236; 241; 19; 14; 41; 52; 103; 122; 93; 64; 251; 
       230; 193; 220; 143; 146; 181; 168; 222; 195; 228; 249; 170; 183; 144; 141; 54; 43; 
       12; 17; 66; 95; 120; 101; 148; 137; 174; 179; 224; 253; 218; 199; 124; 97; 70; 91; 
       8; 21; 50; 47; 89; 68; 99; 126; 45; 48; 23; 10; 177; 172; 139; 150; 197; 216; 255; 
       226; 38; 59; 28; 1; 82; 79; 104; 117; 206; 211; 244; 233; 186; 167; 128; 157; 235; 
       246; 209; 204; 159; 130; 165; 184; 3; 30; 57; 36; 119; 106; 77; 80; 161; 188; 155; 
       134; 213; 200; 239; 242; 73; 84; 115; 110; 61; 32; 7; 26; 108; 113; 86; 75; 24; 5; 
       34; 63; 132; 153; 190; 163; 240; 237; 202; 215; 53; 40; 15; 18; 65; 92; 123; 102; 
       221; 192; 231; 250; 169; 180; 147; 142; 248; 229; 194; 223; 140; 145; 182; 171; 16; 
       13; 42; 55; 100; 121; 94; 67; 178; 175; 136; 149; 198; 219; 252; 225; 90; 71; 96; 
       125; 46; 51; 20; 9; 127; 98; 69; 88; 11; 22; 49; 44; 151; 138; 173; 176; 227; 254; 
       217; 196].

(** crc/crc8_variants/crc8_ebu.c:45-93; parameters: crc_data_ptr, crc_length, final_crc, last_crc_ptr. *)
Definition c_Crc8_ebu : fundef :=
  FDef [TPtr (TInt U8); TInt U32; TInt IBool; TPtr (TInt U8)] (TInt U8)
    (SSeq (SInit (TInt IBool) (ECst I32 0))
    (SSeq (SInit (TInt U8) (ECst U32 255))
    (SSeq (SIf (EBin Ne (ECast (TPtr TVoid) (ECst I32 0)) (ELv (LVar 3 (TPtr (TInt U8)))))
     (SSet (LVar 5 (TInt U8)) (ELv (LDeref (ELv (LVar 3 (TPtr (TInt U8)))))))
     SSkip)
    (SSeq (SIf (ELv (LVar 2 (TInt IBool)))
     (SSet (LVar 4 (TInt IBool)) (ECst I32 1))
     SSkip)
    (SReturn (ECall c_Crc8Base (ECons (EData U8 c_Crc8_ebu_crc_table) (ECons (ELv (LVar 0 (TPtr (TInt U8)))) (ECons (ELv (LVar 1 (TInt U32))) (ECons (ELv (LVar 5 (TInt U8))) (ECons (ECst U32 0) (ECons (ELv (LVar 4 (TInt IBool))) (ECons (ECst I32 1) (ECons (ECst I32 0) ENil)))))))))))))).

(** crc/crc8_variants/crc8_icode.c:52, a constant array *)
Definition c_Crc8_icode_crc_table : list Z :=
  [0; 29; 58; 39; 116; 105; 78; 83; 232; 245; 210; 207; 156; 129; 166; 187; 205; 208; 
       247; 234; 185; 164; 131; 158; 37; 56; 31; 2; 81; 76; 107; 118; 135; 154; 189; 160; 
       243; 238; 201; 212; 111; 114; 85; 72; 27; 6; 33; 60; 74; 87; 112; 109; 62; 35; 4; 
       25; 162; 191; 152; 133; 214; 203; 236; 241; 19; 14; 41; 52; 103; 122; 93; 64; 251; 
       230; 193; 220; 143; 146; 181; 168; 222; 195; 228; 249; 170; 183; 144; 141; 54; 43; 
       12; 17; 66; 95; 120; 101; 148; 137; 174; 179; 224; 253; 218; 199; 124; 97; 70; 91; 
       8; 21; 50; 47; 89; 68; 99; 126; 45; 48; 23; 10; 177; 172; 139; 150; 197; 216; 255; 
       226; 38; 59; 28; 1; 82; 79; 104; 117; 206; 211; 244; 233; 186; 167; 128; 157; 235; 
       246; 209; 204; 159; 130; 165; 184; 3; 30; 57; 36; 119; 106; 77; 80; 161; 188; 155; 
       134; 213; 200; 239; 242; 73; 84; 115; 110; 61; 32; 7; 26; 108; 113; 86; 75; 24; 5; 
       34; 63; 132; 153; 190; 163; 240; 237; 202; 215; 53; 40; 15; 18; 65; 92; 123; 102; 
       221; 192; 231; 250; 169; 180; 147; 142; 248; 229; 194; 223; 140; 145; 182; 171; 16; 
       13; 42; 55; 100; 121; 94; 67; 178; 175; 136; 149; 198; 219; 252; 225; 90; 71; 96; 
       125; 46; 51; 20; 9; 127; 98; 69; 88; 11; 22; 49; 44; 151; 138; 173; 176; 227; 254; 
       217; 196].

(** crc/crc8_variants/crc8_icode.c:45-87; parameters: crc_data_ptr, crc_length, last_crc_ptr. *)
Definition c_Crc8_icode : fundef :=
  FDef [TPtr (TInt U8); TInt U32; TPtr (TInt U8)] (TInt U8)
    (SSeq (SInit (TInt U8) (ECst U32 253))
    (SSeq (SIf (EBin Ne (ECast (TPtr TVoid) (ECst I32 0)) (ELv (LVar 2 (TPtr (TInt U8)))))
     (SSet (LVar 3 (TInt U8)) (ELv (LDeref (ELv (LVar 2 (TPtr (TInt U8)))))))
     SSkip)
    (SReturn (ECall c_Crc8Base (ECons (EData U8 c_Crc8_icode_crc_table) (ECons (ELv (LVar 0 (TPtr (TInt U8)))) (ECons (ELv (LVar 1 (TInt U32))) (ECons (ELv (LVar 3 (TInt U8))) (ECons (ECst U32 0) (ECons (ECst I32 0) (ECons (ECst I32 0) (ECons (ECst I32 0) ENil)))))))))))).

(** crc/crc8_variants/crc8_itu.c:53, a constant array *)
Definition c_Crc8_itu_crc_table : list Z :=
  [0; 7; 14; 9; 28; 27; 18; 21; 56; 63; 54; 49; 36; 35; 42; 45; 112; 119; 126; 121; 
       108; 107; 98; 101; 72; 79; 70; 65; 84; 83; 90; 93; 224; 231; 238; 233; 252; 251; 
       242; 245; 216; 223; 214; 209; 196; 195; 202; 205; 144; 151; 158; 153; 140; 139; 
       130; 133; 168; 175; 166; 161; 180; 179; 186; 189; 199; 192; 201; 206; 219; 220; 
       213; 210; 255; 248; 241; 246; 227; 228; 237; 234; 183; 176; 185; 190; 171; 172; 
       165; 162; 143; 136; 129; 134; 147; 148; 157; 154; 39; 32; 41; 46; 59; 60; 53; 50; 
       31; 24; 17; 22; 3; 4; 13; 10; 87; 80; 89; 94; 75; 76; 69; 66; 111; 104; 97; 102; 
       115; 116; 125; 122; 137; 142; 135; 128; 149; 146; 155; 156; 177; 182; 191; 184; 
       173; 170; 163; 164; 249; 254; 247; 240; 229; 226; 235; 236; 193; 198; 207; 200; 
       221; 218; 211; 212; 105; 110; 103; 96; 117; 114; 123; 124; 81; 86; 95; 88; 77; 74; 
       67; 68; 25; 30; 23; 16; 5; 2; 11; 12; 33; 38; 47; 40; 61; 58; 51; 52; 78; 73; 64; 
       71; 82; 85; 92; 91; 118; 113; 120; 127; 106; 109; 100; 99; 62; 57; 48; 55; 34; 37; 
       44; 43; 6; 1; 8; 15; 26; 29; 20; 19; 174; 169; 160; 167; 178; 181; 188; 187; 150; 
       145; 152; 159; 138; 141; 132; 131; 222; 217; 208; 215; 194; 197; 204; 203; 230; 
       225; 232; 239; 250; 253; 244; 243].

(** crc/crc8_variants/crc8_itu.c:45-93; parameters: crc_data_ptr, crc_length, final_crc, last_crc_ptr. *)
Definition c_Crc8_itu : fundef :=
  FDef [TPtr (TInt U8); TInt U32; TInt IBool; TPtr (TInt U8)] (TInt U8)
    (SSeq (SInit (TInt IBool) (ECst I32 0))
    (SSeq (SInit (TInt U8) (ECst U32 0))
    (SSeq (SIf (EBin Ne (ECast (TPtr TVoid) (ECst I32 0)) (ELv (LVar 3 (TPtr (TInt U8)))))
     (SSet (LVar 5 (TInt U8)) (ELv (LDeref (ELv (LVar 3 (TPtr (TInt U8)))))))
     SSkip)
    (SSeq (SIf (ELv (LVar 2 (TInt IBool)))
     (SSet (LVar 4 (TInt IBool)) (ECst I32 1))
     SSkip)
    (SReturn (ECall c_Crc8Base (ECons (EData U8 c_Crc8_itu_crc_table) (ECons (ELv (LVar 0 (TPtr (TInt U8)))) (ECons (ELv (LVar 1 (TInt U32))) (ECons (ELv (LVar 5 (TInt U8))) (ECons (ECst U32 85) (ECons (ECst I32 0) (ECons (ECst I32 0) (ECons (ELv (LVar 4 (TInt IBool))) ENil)))))))))))))).

(** crc/crc8_variants/crc8_maxim.c:53, a constant array *)
Definition c_Crc8_maxim_crc_table : list Z :=
  [0; 49; 98; 83; 196; 245; 166; 151; 185; 136; 219; 234; 125; 76; 31; 46; 67; 114; 
       33; 16; 135; 182; 229; 212; 250; 203; 152; 169; 62; 15; 92; 109; 134; 183; 228; 
       213; 66; 115; 32; 17; 63; 14; 93; 108; 251; 202; 153; 168; 197; 244; 167; 150; 1; 
       48; 99; 82; 124; 77; 30; 47; 184; 137; 218; 235; 61; 12; 95; 110; 249; 200; 155; 
       170; 132; 181; 230; 215; 64; 113; 34; 19; 126; 79; 28; 45; 186; 139; 216; 233; 199; 
       246; 165; 148; 3; 50; 97; 80; 187; 138; 217; 232; 127; 78; 29; 44; 2; 51; 96; 81; 
       198; 247; 164; 149; 248; 201; 154; 171; 60; 13; 94; 111; 65; 112; 35; 18; 133; 180; 
       231; 214; 122; 75; 24; 41; 190; 143; 220; 237; 195; 242; 161; 144; 7; 54; 101; 84; 
       57; 8; 91; 106; 253; 204; 159; 174; 128; 177; 226; 211; 68; 117; 38; 23; 252; 205; 
       158; 175; 56; 9; 90; 107; 69; 116; 39; 22; 129; 176; 227; 210; 191; 142; 221; 236; 
       123; 74; 25; 40; 6; 55; 100; 85; 194; 243; 160; 145; 71; 118; 37; 20; 131; 178; 
       225; 208; 254; 207; 156; 173; 58; 11; 88; 105; 4; 53; 102; 87; 192; 241; 162; 147; 
       189; 140; 223; 238; 121; 72; 27; 42; 193; 240; 163; 146; 5; 52; 103; 86; 120; 73; 
       26; 43; 188; 141; 222; 239; 130; 179; 224; 209; 70; 119; 36; 21; 59; 10; 89; 104; 
       255; 206; 157; 172].

(** crc/crc8_variants/crc8_maxim.c:45-93; parameters: crc_data_ptr, crc_length, final_crc, last_crc_ptr. *)
Definition c_Crc8_maxim : fundef :=
  FDef [TPtr (TInt U8); TInt U32; TInt IBool; TPtr (TInt U8)] (TInt U8)
    (SSeq (SInit (TInt IBool) (ECst I32 0))
    (SSeq (SInit (TInt U8) (ECst U32 0))
    (SSeq (SIf (EBin Ne (ECast (TPtr TVoid) (ECst I32 0)) (ELv (LVar 3 (TPtr (TInt U8)))))
     (SSet (LVar 5 (TInt U8)) (ELv (LDeref (ELv (LVar 3 (TPtr (TInt U8)))))))
     SSkip)
    (SSeq (SIf (ELv (LVar 2 (TInt IBool)))
     (SSet (LVar 4 (TInt IBool)) (ECst I32 1))
     SSkip)
    (SReturn (ECall c_Crc8Base (ECons (EData U8 c_Crc8_maxim_crc_table) (ECons (ELv (LVar 0 (TPtr (TInt U8)))) (ECons (ELv (LVar 1 (TInt U32))) (ECons (ELv (LVar 5 (TInt U8))) (ECons (ECst U32 0) (ECons (ELv (LVar 4 (TInt IBool))) (ECons (ECst I32 1) (ECons (ECst I32 0) ENil)))))))))))))).

(** crc/crc8_variants/crc8_rohc.c:53, a constant array *)
Definition c_Crc8_rohc_crc_table : list Z :=
  [0; 7; 14; 9; 28; 27; 18; 21; 56; 63; 54; 49; 36; 35; 42; 45; 112; 119; 126; 121; 
       108; 107; 98; 101; 72; 79; 70; 65; 84; 83; 90; 93; 224; 231; 238; 233; 252; 251; 
       242; 245; 216; 223; 214; 209; 196; 195; 202; 205; 144; 151; 158; 153; 140; 139; 
       130; 133; 168; 175; 166; 161; 180; 179; 186; 189; 199; 192; 201; 206; 219; 220; 
       213; 210; 255; 248; 241; 246; 227; 228; 237; 234; 183; 176; 185; 190; 171; 172; 
       165; 162; 143; 136; 129; 134; 147; 148; 157; 154; 39; 32; 41; 46; 59; 60; 53; 50; 
       31; 24; 17; 22; 3; 4; 13; 10; 87; 80; 89; 94; 75; 76; 69; 66; 111; 104; 97; 102; 
       115; 116; 125; 122; 137; 142; 135; 128; 149; 146; 155; 156; 177; 182; 191; 184; 
       173; 170; 163; 164; 249; 254; 247; 240; 229; 226; 235; 236; 193; 198; 207; 200; 
       221; 218; 211; 212; 105; 110; 103; 96; 117; 114; 123; 124; 81; 86; 95; 88; 77; 74; 
       67; 68; 25; 30; 23; 16; 5; 2; 11; 12; 33; 38; 47; 40; 61; 58; 51; 52; 78; 73; 64; 
       71; 82; 85; 92; 91; 118; 113; 120; 127; 106; 109; 100; 99; 62; 57; 48; 55; 34; 37; 
       44; 43; 6; 1; 8; 15; 26; 29; 20; 19; 174; 169; 160; 167; 178; 181; 188; 187; 150; 
       145; 152; 159; 138; 141; 132; 131; 222; 217; 208; 215; 194; 197; 204; 203; 230; 
       225; 232; 239; 250; 253; 244; 243].

(** crc/crc8_variants/crc8_rohc.c:45-93; parameters: crc_data_ptr, crc_length, final_crc, last_crc_ptr. *)
Definition c_Crc8_rohc : fundef :=
  FDef [TPtr (TInt U8); TInt U32; TInt IBool; TPtr (TInt U8)] (TInt U8)
    (SSeq (SInit (TInt IBool) (ECst I32 0))
    (SSeq (SInit (TInt U8) (ECst U32 255))
    (SSeq (SIf (EBin Ne (ECast (TPtr TVoid) (ECst I32 0)) (ELv (LVar 3 (TPtr (TInt U8)))))
     (SSet (LVar 5 (TInt U8)) (ELv (LDeref (ELv (LVar 3 (TPtr (TInt U8)))))))
     SSkip)
    (SSeq (SIf (ELv (LVar 2 (TInt IBool)))
     (SSet (LVar 4 (TInt IBool)) (ECst I32 1))
     SSkip)
    (SReturn (ECall c_Crc8Base (ECons (EData U8 c_Crc8_rohc_crc_table) (ECons (ELv (LVar 0 (TPtr (TInt U8)))) (ECons (ELv (LVar 1 (TInt U32))) (ECons (ELv (LVar 5 (TInt U8))) (ECons (ECst U32 0) (ECons (ELv (LVar 4 (TInt IBool))) (ECons (ECst I32 1) (ECons (ECst I32 0) ENil)))))))))))))).

(** crc/crc8_variants/crc8_sae_j1850.c:53, a constant array *)
Definition c_Crc8_saeJ1850_crc_table : list Z :=
  [0; 29; 58; 39; 116; 105; 78; 83; 232; 245; 210; 207; 156; 129; 166; 187; 205; 208; 
       247; 234; 185; 164; 131; 158; 37; 56; 31; 2; 81; 76; 107; 118; 135; 154; 189; 160; 
       243; 238; 201; 212; 111; 114; 85; 72; 27; 6; 33; 60; 74; 87; 112; 109; 62; 35; 4; 
       25; 162; 191; 152; 133; 214; 203; 236; 241; 19; 14; 41; 52; 103; 122; 93; 64; 251; 
       230; 193; 220; 143; 146; 181; 168; 222; 195; 228; 249; 170; 183; 144; 141; 54; 43; 
       12; 17; 66; 95; 120; 101; 148; 137; 174; 179; 224; 253; 218; 199; 124; 97; 70; 91; 
       8; 21; 50; 47; 89; 68; 99; 126; 45; 48; 23; 10; 177; 172; 139; 150; 197; 216; 255; 
       226; 38; 59; 28; 1; 82; 79; 104; 117; 206; 211; 244; 233; 186; 167; 128; 157; 235; 
       246; 209; 204; 159; 130; 165; 184; 3; 30; 57; 36; 119; 106; 77; 80; 161; 188; 155; 
       134; 213; 200; 239; 242; 73; 84; 115; 110; 61; 32; 7; 26; 108; 113; 86; 75; 24; 5; 
       34; 63; 132; 153; 190; 163; 240; 237; 202; 215; 53; 40; 15; 18; 65; 92; 123; 102; 
       221; 192; 231; 250; 169; 180; 147; 142; 248; 229; 194; 223; 140; 145; 182; 171; 16; 
       13; 42; 55; 100; 121; 94; 67; 178; 175; 136; 149; 198; 219; 252; 225; 90; 71; 96; 
       125; 46; 51; 20; 9; 127; 98; 69; 88; 11; 22; 49; 44; 151; 138; 173; 176; 227; 254; 
       217; 196].

(** crc/crc8_variants/crc8_sae_j1850.c:45-93; parameters: crc_data_ptr, crc_length, final_crc, last_crc_ptr. *)
Definition c_Crc8_saeJ1850 : fundef :=
  FDef [TPtr (TInt U8); TInt U32; TInt IBool; TPtr (TInt U8)] (TInt U8)
    (SSeq (SInit (TInt IBool) (ECst I32 0))
    (SSeq (SInit (TInt U8) (ECst U32 255))
    (SSeq (SIf (EBin Ne (ECast (TPtr TVoid) (ECst I32 0)) (ELv (LVar 3 (TPtr (TInt U8)))))
     (SSet (LVar 5 (TInt U8)) (ELv (LDeref (ELv (LVar 3 (TPtr (TInt U8)))))))
     SSkip)
    (SSeq (SIf (ELv (LVar 2 (TInt IBool)))
     (SSet (LVar 4 (TInt IBool)) (ECst I32 1))
     SSkip)
    (SReturn (ECall c_Crc8Base (ECons (EData U8 c_Crc8_saeJ1850_crc_table) (ECons (ELv (LVar 0 (TPtr (TInt U8)))) (ECons (ELv (LVar 1 (TInt U32))) (ECons (ELv (LVar 5 (TInt U8))) (ECons (ECst U32 255) (ECons (ECst I32 0) (ECons (ECst I32 0) (ECons (ELv (LVar 4 (TInt IBool))) ENil)))))))))))))).

(** crc/crc8_variants/crc8_sae_j1850_zero.c:52, a constant array *)
Definition c_Crc8_saeJ1850Zero_crc_table : list Z :=
  [0; 29; 58; 39; 116; 105; 78; 83; 232; 245; 210; 207; 156; 129; 166; 187; 205; 208; 
       247; 234; 185; 164; 131; 158; 37; 56; 31; 2; 81; 76; 107; 118; 135; 154; 189; 160; 
       243; 238; 201; 212; 111; 114; 85; 72; 27; 6; 33; 60; 74; 87; 112; 109; 62; 35; 4; 
       25; 162; 191; 152; 133; 214; 203; 236; 241; 19; 14; 41; 52; 103; 122; 93; 64; 251; 
       230; 193; 220; 143; 146; 181; 168; 222; 195; 228; 249; 170; 183; 144; 141; 54; 43; 
       12; 17; 66; 95; 120; 101; 148; 137; 174; 179; 224; 253; 218; 199; 124; 97; 70; 91; 
       8; 21; 50; 47; 89; 68; 99; 126; 45; 48; 23; 10; 177; 172; 139; 150; 197; 216; 255; 
       226; 38; 59; 28; 1; 82; 79; 104; 117; 206; 211; 244; 233; 186; 167; 128; 157; 235; 
       246; 209; 204; 159; 130; 165; 184; 3; 30; 57; 36; 119; 106; 77; 80; 161; 188; 155; 
       134; 213; 200; 239; 242; 73; 84; 115; 110; 61; 32; 7; 26; 108; 113; 86; 75; 24; 5; 
       34; 63; 132; 153; 190; 163; 240; 237; 202; 215; 53; 40; 15; 18; 65; 92; 123; 102; 
       221; 192; 231; 250; 169; 180; 147; 142; 248; 229; 194; 223; 140; 145; 182; 171; 16; 
       13; 42; 55; 100; 121; 94; 67; 178; 175; 136; 149; 198; 219; 252; 225; 90; 71; 96; 
       125; 46; 51; 20; 9; 127; 98; 69; 88; 11; 22; 49; 44; 151; 138; 173; 176; 227; 254; 
       217; 196].

(** crc/crc8_variants/crc8_sae_j1850_zero.c:45-87; parameters: crc_data_ptr, crc_length, last_crc_ptr. *)
Definition c_Crc8_saeJ1850Zero : fundef :=
  FDef [TPtr (TInt U8); TInt U32; TPtr (TInt U8)] (TInt U8)
    (SSeq (SInit (TInt U8) (ECst U32 0))
    (SSeq (SIf (EBin Ne (ECast (TPtr TVoid) (ECst I32 0)) (ELv (LVar 2 (TPtr (TInt U8)))))
     (SSet (LVar 3 (TInt U8)) (ELv (LDeref (ELv (LVar 2 (TPtr (TInt U8)))))))
     SSkip)
    (SReturn (ECall c_Crc8Base (ECons (EData U8 c_Crc8_saeJ1850Zero_crc_table) (ECons (ELv (LVar 0 (TPtr (TInt U8)))) (ECons (ELv (LVar 1 (TInt U32))) (ECons (ELv (LVar 3 (TInt U8))) (ECons (ECst U32 0) (ECons (ECst I32 0) (ECons (ECst I32 0) (ECons (ECst I32 0) ENil)))))))))))).

(** crc/crc8_variants/crc8_wcdma.c:53, a constant array *)
Definition c_Crc8_wcdma_crc_table : list Z :=
  [0; 155; 173; 54; 193; 90; 108; 247; 25; 130; 180; 47; 216; 67; 117; 238; 50; 169; 
       159; 4; 243; 104; 94; 197; 43; 176; 134; 29; 234; 113; 71; 220; 100; 255; 201; 82; 
       165; 62; 8; 147; 125; 230; 208; 75; 188; 39; 17; 138; 86; 205; 251; 96; 151; 12; 
       58; 161; 79; 212; 226; 121; 142; 21; 35; 184; 200; 83; 101; 254; 9; 146; 164; 63; 
       209; 74; 124; 231; 16; 139; 189; 38; 250; 97; 87; 204; 59; 160; 150; 13; 227; 120; 
       78; 213; 34; 185; 143; 20; 172; 55; 1; 154; 109; 246; 192; 91; 181; 46; 24; 131; 
       116; 239; 217; 66; 158; 5; 51; 168; 95; 196; 242; 105; 135; 28; 42; 177; 70; 221; 
       235; 112; 11; 144; 166; 61; 202; 81; 103; 252; 18; 137; 191; 36; 211; 72; 126; 229; 
       57; 162; 148; 15; 248; 99; 85; 206; 32; 187; 141; 22; 225; 122; 76; 215; 111; 244; 
       194; 89; 174; 53; 3; 152; 118; 237; 219; 64; 183; 44; 26; 129; 93; 198; 240; 107; 
       156; 7; 49; 170; 68; 223; 233; 114; 133; 30; 40; 179; 195; 88; 110; 245; 2; 153; 
       175; 52; 218; 65; 119; 236; 27; 128; 182; 45; 241; 106; 92; 199; 48; 171; 157; 6; 
       232; 115; 69; 222; 41; 178; 132; 31; 167; 60; 10; 145; 102; 253; 203; 80; 190; 37; 
       19; 136; 127; 228; 210; 73; 149; 14; 56; 163; 84; 207; 249; 98; 140; 23; 33; 186; 
       77; 214; 224; 123].

(** crc/crc8_variants/crc8_wcdma.c:45-93; parameters: crc_data_ptr, crc_length, final_crc, last_crc_ptr. *)
Definition c_Crc8_wcdma : fundef :=
  FDef [TPtr (TInt U8); TInt U32; TInt IBool; TPtr (TInt U8)] (TInt U8)
    (SSeq (SInit (TInt IBool) (ECst I32 0))
    (SSeq (SInit (TInt U8) (ECst U32 0))
    (SSeq (SIf (EBin Ne (ECast (TPtr TVoid) (ECst I32 0)) (ELv (LVar 3 (TPtr (TInt U8)))))
     (SSet (LVar 5 (TInt U8)) (ELv (LDeref (ELv (LVar 3 (TPtr (TInt U8)))))))
     SSkip)
    (SSeq (SIf (ELv (LVar 2 (TInt IBool)))
     (SSet (LVar 4 (TInt IBool)) (ECst I32 1))
     SSkip)
    (SReturn (ECall c_Crc8Base (ECons (EData U8 c_Crc8_wcdma_crc_table) (ECons (ELv (LVar 0 (TPtr (TInt U8)))) (ECons (ELv (LVar 1 (TInt U32))) (ECons (ELv (LVar 5 (TInt U8))) (ECons (ECst U32 0) (ECons (ELv (LVar 4 (TInt IBool))) (ECons (ECst I32 1) (ECons (ECst I32 0) ENil)))))))))))))).

(** crc/crc16_variants/crc16_a.c:53, a constant array *)
Definition c_Crc16_a_crc_table : list Z :=
  [0; 4129; 8258; 12387; 16516; 20645; 24774; 28903; 33032; 37161; 41290; 45419; 
       49548; 53677; 57806; 61935; 4657; 528; 12915; 8786; 21173; 17044; 29431; 25302; 
       37689; 33560; 45947; 41818; 54205; 50076; 62463; 58334; 9314; 13379; 1056; 5121; 
       25830; 29895; 17572; 21637; 42346; 46411; 34088; 38153; 58862; 62927; 50604; 54669; 
       13907; 9842; 5649; 1584; 30423; 26358; 22165; 18100; 46939; 42874; 38681; 34616; 
       63455; 59390; 55197; 51132; 18628; 22757; 26758; 30887; 2112; 6241; 10242; 14371; 
       51660; 55789; 59790; 63919; 35144; 39273; 43274; 47403; 23285; 19156; 31415; 27286; 
       6769; 2640; 14899; 10770; 56317; 52188; 64447; 60318; 39801; 35672; 47931; 43802; 
       27814; 31879; 19684; 23749; 11298; 15363; 3168; 7233; 60846; 64911; 52716; 56781; 
       44330; 48395; 36200; 40265; 32407; 28342; 24277; 20212; 15891; 11826; 7761; 3696; 
       65439; 61374; 57309; 53244; 48923; 44858; 40793; 36728; 37256; 33193; 45514; 41451; 
       53516; 49453; 61774; 57711; 4224; 161; 12482; 8419; 20484; 16421; 28742; 24679; 
       33721; 37784; 41979; 46042; 49981; 54044; 58239; 62302; 689; 4752; 8947; 13010; 
       16949; 21012; 25207; 29270; 46570; 42443; 38312; 34185; 62830; 58703; 54572; 50445; 
       13538; 9411; 5280; 1153; 29798; 25671; 21540; 17413; 42971; 47098; 34713; 38840; 
       59231; 63358; 50973; 55100; 9939; 14066; 1681; 5808; 26199; 30326; 17941; 22068; 
       55628; 51565; 63758; 59695; 39368; 35305; 47498; 43435; 22596; 18533; 30726; 26663; 
       6336; 2273; 14466; 10403; 52093; 56156; 60223; 64286; 35833; 39896; 43963; 48026; 
       19061; 23124; 27191; 31254; 2801; 6864; 10931; 14994; 64814; 60687; 56684; 52557; 
       48554; 44427; 40424; 36297; 31782; 27655; 23652; 19525; 15522; 11395; 7392; 3265; 
       61215; 65342; 53085; 57212; 44955; 49082; 36825; 40952; 28183; 32310; 20053; 24180; 
       11923; 16050; 3793; 7920].

(** crc/crc16_variants/crc16_a.c:45-93; parameters: crc_data_ptr, crc_length, final_crc, last_crc_ptr. *)
Definition c_Crc16_a : fundef :=
  FDef [TPtr (TInt U8); TInt U32; TInt IBool; TPtr (TInt U16)] (TInt U16)
    (SSeq (SInit (TInt IBool) (ECst I32 0))
    (SSeq (SInit (TInt U16) (ECst U32 50886))
    (SSeq (SIf (EBin Ne (ECast (TPtr TVoid) (ECst I32 0)) (ELv (LVar 3 (TPtr (TInt U16)))))
     (SSet (LVar 5 (TInt U16)) (ELv (LDeref (ELv (LVar 3 (TPtr (TInt U16)))))))
     SSkip)
    (SSeq (SIf (ELv (LVar 2 (TInt IBool)))
     (SSet (LVar 4 (TInt IBool)) (ECst I32 1))
     SSkip)
    (SReturn (ECall c_Crc16Base (ECons (EData U16 c_Crc16_a_crc_table) (ECons (ELv (LVar 0 (TPtr (TInt U8)))) (ECons (ELv (LVar 1 (TInt U32))) (ECons (ELv (LVar 5 (TInt U16))) (ECons (ECst U32 0) (ECons (ELv (LVar 4 (TInt IBool))) (ECons (ECst I32 1) (ECons (ECst I32 0) ENil)))))))))))))).

(** crc/crc16_variants/crc16_arc.c:53, a constant array *)
Definition c_Crc16_arc_crc_table : list Z :=
  [0; 32773; 32783; 10; 32795; 30; 20; 32785; 32819; 54; 60; 32825; 40; 32813; 32807; 
       34; 32867; 102; 108; 32873; 120; 32893; 32887; 114; 80; 32853; 32863; 90; 32843; 
       78; 68; 32833; 32963; 198; 204; 32969; 216; 32989; 32983; 210; 240; 33013; 33023; 
       250; 33003; 238; 228; 32993; 160; 32933; 32943; 170; 32955; 190; 180; 32945; 32915; 
       150; 156; 32921; 136; 32909; 32903; 130; 33155; 390; 396; 33161; 408; 33181; 33175; 
       402; 432; 33205; 33215; 442; 33195; 430; 420; 33185; 480; 33253; 33263; 490; 33275; 
       510; 500; 33265; 33235; 470; 476; 33241; 456; 33229; 33223; 450; 320; 33093; 33103; 
       330; 33115; 350; 340; 33105; 33139; 374; 380; 33145; 360; 33133; 33127; 354; 33059; 
       294; 300; 33065; 312; 33085; 33079; 306; 272; 33045; 33055; 282; 33035; 270; 260; 
       33025; 33539; 774; 780; 33545; 792; 33565; 33559; 786; 816; 33589; 33599; 826; 
       33579; 814; 804; 33569; 864; 33637; 33647; 874; 33659; 894; 884; 33649; 33619; 854; 
       860; 33625; 840; 33613; 33607; 834; 960; 33733; 33743; 970; 33755; 990; 980; 33745; 
       33779; 1014; 1020; 33785; 1000; 33773; 33767; 994; 33699; 934; 940; 33705; 952; 
       33725; 33719; 946; 912; 33685; 33695; 922; 33675; 910; 900; 33665; 640; 33413; 
       33423; 650; 33435; 670; 660; 33425; 33459; 694; 700; 33465; 680; 33453; 33447; 674; 
       33507; 742; 748; 33513; 760; 33533; 33527; 754; 720; 33493; 33503; 730; 33483; 718; 
       708; 33473; 33347; 582; 588; 33353; 600; 33373; 33367; 594; 624; 33397; 33407; 634; 
       33387; 622; 612; 33377; 544; 33317; 33327; 554; 33339; 574; 564; 33329; 33299; 534; 
       540; 33305; 520; 33293; 33287; 514].

(** crc/crc16_variants/crc16_arc.c:45-93; parameters: crc_data_ptr, crc_length, final_crc, last_crc_ptr. *)
Definition c_Crc16_arc : fundef :=
  FDef [TPtr (TInt U8); TInt U32; TInt IBool; TPtr (TInt U16)] (TInt U16)
    (SSeq (SInit (TInt IBool) (ECst I32 0))
    (SSeq (SInit (TInt U16) (ECst U32 0))
    (SSeq (SIf (EBin Ne (ECast (TPtr TVoid) (ECst I32 0)) (ELv (LVar 3 (TPtr (TInt U16)))))
     (SSet (LVar 5 (TInt U16)) (ELv (LDeref (ELv (LVar 3 (TPtr (TInt U16)))))))
     SSkip)
    (SSeq (SIf (ELv (LVar 2 (TInt IBool)))
     (SSet (LVar 4 (TInt IBool)) (ECst I32 1))
     SSkip)
    (SReturn (ECall c_Crc16Base (ECons (EData U16 c_Crc16_arc_crc_table) (ECons (ELv (LVar 0 (TPtr (TInt U8)))) (ECons (ELv (LVar 1 (TInt U32))) (ECons (ELv (LVar 5 (TInt U16))) (ECons (ECst U32 0) (ECons (ELv (LVar 4 (TInt IBool))) (ECons (ECst I32 1) (ECons (ECst I32 0) ENil)))))))))))))).

(** crc/crc16_variants/crc16_aug_ccit.c:52, a constant array *)
Definition c_Crc16_augCcit_crc_table : list Z :=
  [0; 4129; 8258; 12387; 16516; 20645; 24774; 28903; 33032; 37161; 41290; 45419; 
       49548; 53677; 57806; 61935; 4657; 528; 12915; 8786; 21173; 17044; 29431; 25302; 
       37689; 33560; 45947; 41818; 54205; 50076; 62463; 58334; 9314; 13379; 1056; 5121; 
       25830; 29895; 17572; 21637; 42346; 46411; 34088; 38153; 58862; 62927; 50604; 54669; 
       13907; 9842; 5649; 1584; 30423; 26358; 22165; 18100; 46939; 42874; 38681; 34616; 
       63455; 59390; 55197; 51132; 18628; 22757; 26758; 30887; 2112; 6241; 10242; 14371; 
       51660; 55789; 59790; 63919; 35144; 39273; 43274; 47403; 23285; 19156; 31415; 27286; 
       6769; 2640; 14899; 10770; 56317; 52188; 64447; 60318; 39801; 35672; 47931; 43802; 
       27814; 31879; 19684; 23749; 11298; 15363; 3168; 7233; 60846; 64911; 52716; 56781; 
       44330; 48395; 36200; 40265; 32407; 28342; 24277; 20212; 15891; 11826; 7761; 3696; 
       65439; 61374; 57309; 53244; 48923; 44858; 40793; 36728; 37256; 33193; 45514; 41451; 
       53516; 49453; 61774; 57711; 4224; 161; 12482; 8419; 20484; 16421; 28742; 24679; 
       33721; 37784; 41979; 46042; 49981; 54044; 58239; 62302; 689; 4752; 8947; 13010; 
       16949; 21012; 25207; 29270; 46570; 42443; 38312; 34185; 62830; 58703; 54572; 50445; 
       13538; 9411; 5280; 1153; 29798; 25671; 21540; 17413; 42971; 47098; 34713; 38840; 
       59231; 63358; 50973; 55100; 9939; 14066; 1681; 5808; 26199; 30326; 17941; 22068; 
       55628; 51565; 63758; 59695; 39368; 35305; 47498; 43435; 22596; 18533; 30726; 26663; 
       6336; 2273; 14466; 10403; 52093; 56156; 60223; 64286; 35833; 39896; 43963; 48026; 
       19061; 23124; 27191; 31254; 2801; 6864; 10931; 14994; 64814; 60687; 56684; 52557; 
       48554; 44427; 40424; 36297; 31782; 27655; 23652; 19525; 15522; 11395; 7392; 3265; 
       61215; 65342; 53085; 57212; 44955; 49082; 36825; 40952; 28183; 32310; 20053; 24180; 
       11923; 16050; 3793; 7920].

(** crc/crc16_variants/crc16_aug_ccit.c:45-87; parameters: crc_data_ptr, crc_length, last_crc_ptr. *)
Definition c_Crc16_augCcit : fundef :=
  FDef [TPtr (TInt U8); TInt U32; TPtr (TInt U16)] (TInt U16)
    (SSeq (SInit (TInt U16) (ECst U32 7439))
    (SSeq (SIf (EBin Ne (ECast (TPtr TVoid) (ECst I32 0)) (ELv (LVar 2 (TPtr (TInt U16)))))
     (SSet (LVar 3 (TInt U16)) (ELv (LDeref (ELv (LVar 2 (TPtr (TInt U16)))))))
     SSkip)
    (SReturn (ECall c_Crc16Base (ECons (EData U16 c_Crc16_augCcit_crc_table) (ECons (ELv (LVar 0 (TPtr (TInt U8)))) (ECons (ELv (LVar 1 (TInt U32))) (ECons (ELv (LVar 3 (TInt U16))) (ECons (ECst U32 0) (ECons (ECst I32 0) (ECons (ECst I32 0) (ECons (ECst I32 0) ENil)))))))))))).

(** crc/crc16_variants/crc16_buypass.c:52, a constant array *)
Definition c_Crc16_buypass_crc_table : list Z :=
  [0; 32773; 32783; 10; 32795; 30; 20; 32785; 32819; 54; 60; 32825; 40; 32813; 32807; 
       34; 32867; 102; 108; 32873; 120; 32893; 32887; 114; 80; 32853; 32863; 90; 32843; 
       78; 68; 32833; 32963; 198; 204; 32969; 216; 32989; 32983; 210; 240; 33013; 33023; 
       250; 33003; 238; 228; 32993; 160; 32933; 32943; 170; 32955; 190; 180; 32945; 32915; 
       150; 156; 32921; 136; 32909; 32903; 130; 33155; 390; 396; 33161; 408; 33181; 33175; 
       402; 432; 33205; 33215; 442; 33195; 430; 420; 33185; 480; 33253; 33263; 490; 33275; 
       510; 500; 33265; 33235; 470; 476; 33241; 456; 33229; 33223; 450; 320; 33093; 33103; 
       330; 33115; 350; 340; 33105; 33139; 374; 380; 33145; 360; 33133; 33127; 354; 33059; 
       294; 300; 33065; 312; 33085; 33079; 306; 272; 33045; 33055; 282; 33035; 270; 260; 
       33025; 33539; 774; 780; 33545; 792; 33565; 33559; 786; 816; 33589; 33599; 826; 
       33579; 814; 804; 33569; 864; 33637; 33647; 874; 33659; 894; 884; 33649; 33619; 854; 
       860; 33625; 840; 33613; 33607; 834; 960; 33733; 33743; 970; 33755; 990; 980; 33745; 
       33779; 1014; 1020; 33785; 1000; 33773; 33767; 994; 33699; 934; 940; 33705; 952; 
       33725; 33719; 946; 912; 33685; 33695; 922; 33675; 910; 900; 33665; 640; 33413; 
       33423; 650; 33435; 670; 660; 33425; 33459; 694; 700; 33465; 680; 33453; 33447; 674; 
       33507; 742; 748; 33513; 760; 33533; 33527; 754; 720; 33493; 33503; 730; 33483; 718; 
       708; 33473; 33347; 582; 588; 33353; 600; 33373; 33367; 594; 624; 33397; 33407; 634; 
       33387; 622; 612; 33377; 544; 33317; 33327; 554; 33339; 574; 564; 33329; 33299; 534; 
       540; 33305; 520; 33293; 33287; 514].

(** crc/crc16_variants/crc16_buypass.c:45-87; parameters: crc_data_ptr, crc_length, last_crc_ptr. *)
Definition c_Crc16_buypass : fundef :=
  FDef [TPtr (TInt U8); TInt U32; TPtr (TInt U16)] (TInt U16)
    (SSeq (SInit (TInt U16) (ECst U32 0))
    (SSeq (SIf (EBin Ne (ECast (TPtr TVoid) (ECst I32 0)) (ELv (LVar 2 (TPtr (TInt U16)))))
     (SSet (LVar 3 (TInt U16)) (ELv (LDeref (ELv (LVar 2 (TPtr (TInt U16)))))))
     SSkip)
    (SReturn (ECall c_Crc16Base (ECons (EData U16 c_Crc16_buypass_crc_table) (ECons (ELv (LVar 0 (TPtr (TInt U8)))) (ECons (ELv (LVar 1 (TInt U32))) (ECons (ELv (LVar 3 (TInt U16))) (ECons (ECst U32 0) (ECons (ECst I32 0) (ECons (ECst I32 0) (ECons (ECst I32 0) ENil)))))))))))).

(** crc/crc16_variants/crc16_ccit_false.c:52, a constant array *)
Definition c_Crc16_ccitFalse_crc_table : list Z :=
  [0; 4129; 8258; 12387; 16516; 20645; 24774; 28903; 33032; 37161; 41290; 45419; 
       49548; 53677; 57806; 61935; 4657; 528; 12915; 8786; 21173; 17044; 29431; 25302; 
       37689; 33560; 45947; 41818; 54205; 50076; 62463; 58334; 9314; 13379; 1056; 5121; 
       25830; 29895; 17572; 21637; 42346; 46411; 34088; 38153; 58862; 62927; 50604; 54669; 
       13907; 9842; 5649; 1584; 30423; 26358; 22165; 18100; 46939; 42874; 38681; 34616; 
       63455; 59390; 55197; 51132; 18628; 22757; 26758; 30887; 2112; 6241; 10242; 14371; 
       51660; 55789; 59790; 63919; 35144; 39273; 43274; 47403; 23285; 19156; 31415; 27286; 
       6769; 2640; 14899; 10770; 56317; 52188; 64447; 60318; 39801; 35672; 47931; 43802; 
       27814; 31879; 19684; 23749; 11298; 15363; 3168; 7233; 60846; 64911; 52716; 56781; 
       44330; 48395; 36200; 40265; 32407; 28342; 24277; 20212; 15891; 11826; 7761; 3696; 
       65439; 61374; 57309; 53244; 48923; 44858; 40793; 36728; 37256; 33193; 45514; 41451; 
       53516; 49453; 61774; 57711; 4224; 161; 12482; 8419; 20484; 16421; 28742; 24679; 
       33721; 37784; 41979; 46042; 49981; 54044; 58239; 62302; 689; 4752; 8947; 13010; 
       16949; 21012; 25207; 29270; 46570; 42443; 38312; 34185; 62830; 58703; 54572; 50445; 
       13538; 9411; 5280; 1153; 29798; 25671; 21540; 17413; 42971; 47098; 34713; 38840; 
       59231; 63358; 50973; 55100; 9939; 14066; 1681; 5808; 26199; 30326; 17941; 22068; 
       55628; 51565; 63758; 59695; 39368; 35305; 47498; 43435; 22596; 18533; 30726; 26663; 
       6336; 2273; 14466; 10403; 52093; 56156; 60223; 64286; 35833; 39896; 43963; 48026; 
       19061; 23124; 27191; 31254; 2801; 6864; 10931; 14994; 64814; 60687; 56684; 52557; 
       48554; 44427; 40424; 36297; 31782; 27655; 23652; 19525; 15522; 11395; 7392; 3265; 
       61215; 65342; 53085; 57212; 44955; 49082; 36825; 40952; 28183; 32310; 20053; 24180; 
       11923; 16050; 3793; 7920].

(** crc/crc16_variants/crc16_ccit_false.c:45-87; parameters: crc_data_ptr, crc_length, last_crc_ptr. *)
Definition c_Crc16_ccitFalse : fundef :=
  FDef [TPtr (TInt U8); TInt U32; TPtr (TInt U16)] (TInt U16)
    (SSeq (SInit (TInt U16) (ECst U32 65535))
    (SSeq (SIf (EBin Ne (ECast (TPtr TVoid) (ECst I32 0)) (ELv (LVar 2 (TPtr (TInt U16)))))
     (SSet (LVar 3 (TInt U16)) (ELv (LDeref (ELv (LVar 2 (TPtr (TInt U16)))))))
     SSkip)
    (SReturn (ECall c_Crc16Base (ECons (EData U16 c_Crc16_ccitFalse_crc_table) (ECons (ELv (LVar 0 (TPtr (TInt U8)))) (ECons (ELv (LVar 1 (TInt U32))) (ECons (ELv (LVar 3 (TInt U16))) (ECons (ECst U32 0) (ECons (ECst I32 0) (ECons (ECst I32 0) (ECons (ECst I32 0) ENil)))))))))))).

(** crc/crc16_variants/crc16_ccit_zero.c:52, a constant array *)
Definition c_Crc16_ccitZero_crc_table : list Z :=
  [0; 4129; 8258; 12387; 16516; 20645; 24774; 28903; 33032; 37161; 41290; 45419; 
       49548; 53677; 57806; 61935; 4657; 528; 12915; 8786; 21173; 17044; 29431; 25302; 
       37689; 33560; 45947; 41818; 54205; 50076; 62463; 58334; 9314; 13379; 1056; 5121; 
       25830; 29895; 17572; 21637; 42346; 46411; 34088; 38153; 58862; 62927; 50604; 54669; 
       13907; 9842; 5649; 1584; 30423; 26358; 22165; 18100; 46939; 42874; 38681; 34616; 
       63455; 59390; 55197; 51132; 18628; 22757; 26758; 30887; 2112; 6241; 10242; 14371; 
       51660; 55789; 59790; 63919; 35144; 39273; 43274; 47403; 23285; 19156; 31415; 27286; 
       6769; 2640; 14899; 10770; 56317; 52188; 64447; 60318; 39801; 35672; 47931; 43802; 
       27814; 31879; 19684; 23749; 11298; 15363; 3168; 7233; 60846; 64911; 52716; 56781; 
       44330; 48395; 36200; 40265; 32407; 28342; 24277; 20212; 15891; 11826; 7761; 3696; 
       65439; 61374; 57309; 53244; 48923; 44858; 40793; 36728; 37256; 33193; 45514; 41451; 
       53516; 49453; 61774; 57711; 4224; 161; 12482; 8419; 20484; 16421; 28742; 24679; 
       33721; 37784; 41979; 46042; 49981; 54044; 58239; 62302; 689; 4752; 8947; 13010; 
       16949; 21012; 25207; 29270; 46570; 42443; 38312; 34185; 62830; 58703; 54572; 50445; 
       13538; 9411; 5280; 1153; 29798; 25671; 21540; 17413; 42971; 47098; 34713; 38840; 
       59231; 63358; 50973; 55100; 9939; 14066; 1681; 5808; 26199; 30326; 17941; 22068; 
       55628; 51565; 63758; 59695; 39368; 35305; 47498; 43435; 22596; 18533; 30726; 26663; 
       6336; 2273; 14466; 10403; 52093; 56156; 60223; 64286; 35833; 39896; 43963; 48026; 
       19061; 23124; 27191; 31254; 2801; 6864; 10931; 14994; 64814; 60687; 56684; 52557; 
       48554; 44427; 40424; 36297; 31782; 27655; 23652; 19525; 15522; 11395; 7392; 3265; 
       61215; 65342; 53085; 57212; 44955; 49082; 36825; 40952; 28183; 32310; 20053; 24180; 
       11923; 16050; 3793; 7920].

(** crc/crc16_variants/crc16_ccit_zero.c:45-87; parameters: crc_data_ptr, crc_length, last_crc_ptr. *)
Definition c_Crc16_ccitZero : fundef :=
  FDef [TPtr (TInt U8); TInt U32; TPtr (TInt U16)] (TInt U16)
    (SSeq (SInit (TInt U16) (ECst U32 0))
    (SSeq (SIf (EBin Ne (ECast (TPtr TVoid) (ECst I32 0)) (ELv (LVar 2 (TPtr (TInt U16)))))
     (SSet (LVar 3 (TInt U16)) (ELv (LDeref (ELv (LVar 2 (TPtr (TInt U16)))))))
     SSkip)
    (SReturn (ECall c_Crc16Base (ECons (EData U16 c_Crc16_ccitZero_crc_table) (ECons (ELv (LVar 0 (TPtr (TInt U8)))) (ECons (ELv (LVar 1 (TInt U32))) (ECons (ELv (LVar 3 (TInt U16))) (ECons (ECst U32 0) (ECons (ECst I32 0) (ECons (ECst I32 0) (ECons (ECst I32 0) ENil)))))))))))).

(** crc/crc16_variants/crc16_cdma2000.c:52, a constant array *)
Definition c_Crc16_cdma2000_crc_table : list Z :=
  [0; 51303; 22697; 37070; 45394; 31029; 59899; 8604; 43715; 25252; 62058; 14861; 
       7057; 54262; 17208; 35679; 40417; 21894; 50504; 3375; 11443; 58580; 29722; 48253; 
       14114; 65349; 28555; 42988; 34416; 19991; 57049; 5822; 62373; 15298; 43788; 25451; 
       17143; 35472; 6750; 53817; 22886; 37121; 463; 51624; 59444; 8275; 45213; 30970; 
       28228; 42531; 14061; 65162; 57110; 6001; 34751; 20440; 50311; 3296; 39982; 21577; 
       30165; 48562; 11644; 58651; 12077; 59210; 30596; 49123; 40575; 22040; 50902; 3761; 
       34286; 19849; 56647; 5408; 13500; 64731; 27669; 42098; 45772; 31403; 60005; 8706; 
       926; 52217; 23351; 37712; 6159; 53352; 16550; 35009; 43357; 24890; 61940; 14739; 
       56456; 5359; 33825; 19526; 28122; 42429; 13683; 64788; 30283; 48684; 12002; 59013; 
       50969; 3966; 40880; 22487; 16745; 35086; 6592; 53671; 61499; 14428; 43154; 24821; 
       60330; 9165; 45827; 31588; 23288; 37535; 593; 51766; 24154; 38461; 1779; 52884; 
       61192; 10095; 47009; 32710; 62617; 15614; 44080; 25687; 17867; 36268; 7522; 54533; 
       50107; 3036; 39698; 21365; 29417; 47758; 10816; 57895; 27000; 41247; 12753; 63926; 
       55338; 4173; 32899; 18660; 44543; 26008; 62806; 15665; 7341; 54474; 17412; 35939; 
       1852; 53083; 24469; 38898; 46702; 32265; 61127; 9888; 12318; 63609; 26807; 41168; 
       33100; 18731; 55781; 4482; 39645; 21178; 49780; 2579; 11151; 58344; 29478; 47937; 
       29047; 47376; 10718; 57785; 49189; 2114; 39052; 20715; 56244; 5075; 33565; 19322; 
       27366; 41601; 12879; 64040; 60566; 9457; 46143; 31832; 24004; 38307; 1389; 52490; 
       18005; 36402; 7932; 54939; 63239; 16224; 44974; 26569; 33490; 19125; 55931; 4636; 
       13184; 64487; 27433; 41806; 10257; 57462; 28856; 47327; 39235; 20772; 49642; 2445; 
       7987; 55124; 18330; 36861; 44641; 26118; 63176; 16047; 46576; 32151; 60761; 9534; 
       1186; 52421; 23563; 37996].

(** crc/crc16_variants/crc16_cdma2000.c:45-87; parameters: crc_data_ptr, crc_length, last_crc_ptr. *)
Definition c_Crc16_cdma2000 : fundef :=
  FDef [TPtr (TInt U8); TInt U32; TPtr (TInt U16)] (TInt U16)
    (SSeq (SInit (TInt U16) (ECst U32 65535))
    (SSeq (SIf (EBin Ne (ECast (TPtr TVoid) (ECst I32 0)) (ELv (LVar 2 (TPtr (TInt U16)))))
     (SSet (LVar 3 (TInt U16)) (ELv (LDeref (ELv (LVar 2 (TPtr (TInt U16)))))))
     SSkip)
    (SReturn (ECall c_Crc16Base (ECons (EData U16 c_Crc16_cdma2000_crc_table) (ECons (ELv (LVar 0 (TPtr (TInt U8)))) (ECons (ELv (LVar 1 (TInt U32))) (ECons (ELv (LVar 3 (TInt U16))) (ECons (ECst U32 0) (ECons (ECst I32 0) (ECons (ECst I32 0) (ECons (ECst I32 0) ENil)))))))))))).

(** crc/crc16_variants/crc16_dds110.c:52, a constant array *)
Definition c_Crc16_dds110_crc_table : list Z :=
  [0; 32773; 32783; 10; 32795; 30; 20; 32785; 32819; 54; 60; 32825; 40; 32813; 32807; 
       34; 32867; 102; 108; 32873; 120; 32893; 32887; 114; 80; 32853; 32863; 90; 32843; 
       78; 68; 32833; 32963; 198; 204; 32969; 216; 32989; 32983; 210; 240; 33013; 33023; 
       250; 33003; 238; 228; 32993; 160; 32933; 32943; 170; 32955; 190; 180; 32945; 32915; 
       150; 156; 32921; 136; 32909; 32903; 130; 33155; 390; 396; 33161; 408; 33181; 33175; 
       402; 432; 33205; 33215; 442; 33195; 430; 420; 33185; 480; 33253; 33263; 490; 33275; 
       510; 500; 33265; 33235; 470; 476; 33241; 456; 33229; 33223; 450; 320; 33093; 33103; 
       330; 33115; 350; 340; 33105; 33139; 374; 380; 33145; 360; 33133; 33127; 354; 33059; 
       294; 300; 33065; 312; 33085; 33079; 306; 272; 33045; 33055; 282; 33035; 270; 260; 
       33025; 33539; 774; 780; 33545; 792; 33565; 33559; 786; 816; 33589; 33599; 826; 
       33579; 814; 804; 33569; 864; 33637; 33647; 874; 33659; 894; 884; 33649; 33619; 854; 
       860; 33625; 840; 33613; 33607; 834; 960; 33733; 33743; 970; 33755; 990; 980; 33745; 
       33779; 1014; 1020; 33785; 1000; 33773; 33767; 994; 33699; 934; 940; 33705; 952; 
       33725; 33719; 946; 912; 33685; 33695; 922; 33675; 910; 900; 33665; 640; 33413; 
       33423; 650; 33435; 670; 660; 33425; 33459; 694; 700; 33465; 680; 33453; 33447; 674; 
       33507; 742; 748; 33513; 760; 33533; 33527; 754; 720; 33493; 33503; 730; 33483; 718; 
       708; 33473; 33347; 582; 588; 33353; 600; 33373; 33367; 594; 624; 33397; 33407; 634; 
       33387; 622; 612; 33377; 544; 33317; 33327; 554; 33339; 574; 564; 33329; 33299; 534; 
       540; 33305; 520; 33293; 33287; 514].

(** crc/crc16_variants/crc16_dds110.c:45-87; parameters: crc_data_ptr, crc_length, last_crc_ptr. *)
Definition c_Crc16_dds110 : fundef :=
  FDef [TPtr (TInt U8); TInt U32; TPtr (TInt U16)] (TInt U16)
    (SSeq (SInit (TInt U16) (ECst U32 32781))
    (SSeq (SIf (EBin Ne (ECast (TPtr TVoid) (ECst I32 0)) (ELv (LVar 2 (TPtr (TInt U16)))))
     (SSet (LVar 3 (TInt U16)) (ELv (LDeref (ELv (LVar 2 (TPtr (TInt U16)))))))
     SSkip)
    (SReturn (ECall c_Crc16Base (ECons (EData U16 c_Crc16_dds110_crc_table) (ECons (ELv (LVar 0 (TPtr (TInt U8)))) (ECons (ELv (LVar 1 (TInt U32))) (ECons (ELv (LVar 3 (TInt U16))) (ECons (ECst U32 0) (ECons (ECst I32 0) (ECons (ECst I32 0) (ECons (ECst I32 0) ENil)))))))))))).

(** crc/crc16_variants/crc16_dect_r.c:53, a constant array *)
Definition c_Crc16_dectR_crc_table : list Z :=
  [0; 1417; 2834; 3739; 5668; 5037; 7478; 6335; 11336; 10689; 10074; 8915; 14956; 
       16357; 12670; 13559; 22672; 23833; 21378; 22027; 20148; 19261; 17830; 16431; 29912; 
       29009; 32714; 31299; 25340; 26485; 27118; 27751; 45344; 46249; 47666; 49083; 42756; 
       41613; 44054; 43423; 40296; 39137; 38522; 37875; 35660; 36549; 32862; 34263; 59824; 
       60473; 58018; 59179; 65428; 64029; 62598; 61711; 50680; 49265; 52970; 52067; 54236; 
       54869; 55502; 56647; 26569; 25152; 27867; 26962; 29165; 29796; 31487; 32630; 19329; 
       19976; 16531; 17690; 23973; 22572; 22199; 21310; 16217; 15056; 13387; 12738; 10621; 
       11508; 8815; 10214; 4881; 5784; 6147; 7562; 1333; 188; 3623; 2990; 55017; 54112; 
       56827; 55410; 49357; 50500; 52191; 52822; 64161; 65320; 61875; 62522; 60549; 59660; 
       59287; 57886; 36473; 35824; 34155; 32994; 39005; 40404; 37711; 38598; 41521; 42936; 
       43299; 44202; 46101; 45468; 48903; 47758; 53138; 51739; 50304; 49417; 55734; 56383; 
       53924; 55085; 58330; 58963; 59592; 60737; 62974; 61559; 65260; 64357; 38658; 37515; 
       39952; 39321; 33062; 33967; 35380; 36797; 47946; 48835; 45144; 46545; 44398; 43239; 
       42620; 41973; 32434; 31547; 30112; 28713; 26774; 27935; 25476; 26125; 21242; 22387; 
       23016; 23649; 17630; 16727; 20428; 19013; 9762; 9131; 11568; 10425; 12294; 13711; 
       15124; 16029; 2666; 4067; 376; 1265; 7246; 6599; 5980; 4821; 43099; 44498; 41801; 
       42688; 48767; 48118; 46445; 45284; 33811; 33178; 36609; 35464; 37431; 38846; 39205; 
       40108; 61643; 62786; 64473; 65104; 59119; 58214; 60925; 59508; 56451; 55562; 55185; 
       53784; 51879; 53038; 49589; 50236; 6523; 7410; 4713; 6112; 3935; 2774; 1101; 452; 
       13619; 12474; 15905; 15272; 8983; 9886; 10245; 11660; 16875; 17506; 19193; 20336; 
       22479; 21062; 23773; 22868; 28067; 26666; 26289; 25400; 31623; 32270; 28821; 29980].

(** crc/crc16_variants/crc16_dect_r.c:45-93; parameters: crc_data_ptr, crc_length, final_crc, last_crc_ptr. *)
Definition c_Crc16_dectR : fundef :=
  FDef [TPtr (TInt U8); TInt U32; TInt IBool; TPtr (TInt U16)] (TInt U16)
    (SSeq (SInit (TInt IBool) (ECst I32 0))
    (SSeq (SInit (TInt U16) (ECst U32 0))
    (SSeq (SIf (EBin Ne (ECast (TPtr TVoid) (ECst I32 0)) (ELv (LVar 3 (TPtr (TInt U16)))))
     (SSet (LVar 5 (TInt U16)) (ELv (LDeref (ELv (LVar 3 (TPtr (TInt U16)))))))
     SSkip)
    (SSeq (SIf (ELv (LVar 2 (TInt IBool)))
     (SSet (LVar 4 (TInt IBool)) (ECst I32 1))
     SSkip)
    (SReturn (ECall c_Crc16Base (ECons (EData U16 c_Crc16_dectR_crc_table) (ECons (ELv (LVar 0 (TPtr (TInt U8)))) (ECons (ELv (LVar 1 (TInt U32))) (ECons (ELv (LVar 5 (TInt U16))) (ECons (ECst U32 1) (ECons (ECst I32 0) (ECons (ECst I32 0) (ECons (ELv (LVar 4 (TInt IBool))) ENil)))))))))))))).

(** crc/crc16_variants/crc16_dect_x.c:52, a constant array *)
Definition c_Crc16_dectX_crc_table : list Z :=
  [0; 1417; 2834; 3739; 5668; 5037; 7478; 6335; 11336; 10689; 10074; 8915; 14956; 
       16357; 12670; 13559; 22672; 23833; 21378; 22027; 20148; 19261; 17830; 16431; 29912; 
       29009; 32714; 31299; 25340; 26485; 27118; 27751; 45344; 46249; 47666; 49083; 42756; 
       41613; 44054; 43423; 40296; 39137; 38522; 37875; 35660; 36549; 32862; 34263; 59824; 
       60473; 58018; 59179; 65428; 64029; 62598; 61711; 50680; 49265; 52970; 52067; 54236; 
       54869; 55502; 56647; 26569; 25152; 27867; 26962; 29165; 29796; 31487; 32630; 19329; 
       19976; 16531; 17690; 23973; 22572; 22199; 21310; 16217; 15056; 13387; 12738; 10621; 
       11508; 8815; 10214; 4881; 5784; 6147; 7562; 1333; 188; 3623; 2990; 55017; 54112; 
       56827; 55410; 49357; 50500; 52191; 52822; 64161; 65320; 61875; 62522; 60549; 59660; 
       59287; 57886; 36473; 35824; 34155; 32994; 39005; 40404; 37711; 38598; 41521; 42936; 
       43299; 44202; 46101; 45468; 48903; 47758; 53138; 51739; 50304; 49417; 55734; 56383; 
       53924; 55085; 58330; 58963; 59592; 60737; 62974; 61559; 65260; 64357; 38658; 37515; 
       39952; 39321; 33062; 33967; 35380; 36797; 47946; 48835; 45144; 46545; 44398; 43239; 
       42620; 41973; 32434; 31547; 30112; 28713; 26774; 27935; 25476; 26125; 21242; 22387; 
       23016; 23649; 17630; 16727; 20428; 19013; 9762; 9131; 11568; 10425; 12294; 13711; 
       15124; 16029; 2666; 4067; 376; 1265; 7246; 6599; 5980; 4821; 43099; 44498; 41801; 
       42688; 48767; 48118; 46445; 45284; 33811; 33178; 36609; 35464; 37431; 38846; 39205; 
       40108; 61643; 62786; 64473; 65104; 59119; 58214; 60925; 59508; 56451; 55562; 55185; 
       53784; 51879; 53038; 49589; 50236; 6523; 7410; 4713; 6112; 3935; 2774; 1101; 452; 
       13619; 12474; 15905; 15272; 8983; 9886; 10245; 11660; 16875; 17506; 19193; 20336; 
       22479; 21062; 23773; 22868; 28067; 26666; 26289; 25400; 31623; 32270; 28821; 29980].

(** crc/crc16_variants/crc16_dect_x.c:45-87; parameters: crc_data_ptr, crc_length, last_crc_ptr. *)
Definition c_Crc16_dectX : fundef :=
  FDef [TPtr (TInt U8); TInt U32; TPtr (TInt U16)] (TInt U16)
    (SSeq (SInit (TInt U16) (ECst U32 0))
    (SSeq (SIf (EBin Ne (ECast (TPtr TVoid) (ECst I32 0)) (ELv (LVar 2 (TPtr (TInt U16)))))
     (SSet (LVar 3 (TInt U16)) (ELv (LDeref (ELv (LVar 2 (TPtr (TInt U16)))))))
     SSkip)
    (SReturn (ECall c_Crc16Base (ECons (EData U16 c_Crc16_dectX_crc_table) (ECons (ELv (LVar 0 (TPtr (TInt U8)))) (ECons (ELv (LVar 1 (TInt U32))) (ECons (ELv (LVar 3 (TInt U16))) (ECons (ECst U32 0) (ECons (ECst I32 0) (ECons (ECst I32 0) (ECons (ECst I32 0) ENil)))))))))))).

(** crc/crc16_variants/crc16_dnp.c:53, a constant array *)
Definition c_Crc16_dnp_crc_table : list Z :=
  [0; 15717; 31434; 18351; 62868; 51441; 36702; 45627; 54861; 60200; 44167; 37346; 
       9177; 7868; 22803; 25718; 37375; 44186; 60213; 54864; 25707; 22798; 7841; 9156; 
       18354; 31447; 15736; 29; 45606; 36675; 51436; 62857; 7835; 9214; 25681; 22836; 
       60175; 54890; 37317; 44192; 51414; 62899; 45596; 36729; 15682; 39; 18312; 31469; 
       36708; 45569; 62894; 51403; 31472; 18325; 58; 15711; 22825; 25676; 9187; 7814; 
       44221; 37336; 54903; 60178; 15670; 83; 18428; 31385; 51362; 62919; 45672; 36621; 
       60283; 54814; 37297; 44244; 7919; 9098; 25637; 22848; 44233; 37292; 54787; 60262; 
       22877; 25656; 9111; 7922; 31364; 18401; 78; 15659; 36624; 45685; 62938; 51391; 
       9133; 7880; 22887; 25602; 54841; 60252; 44275; 37270; 62944; 51333; 36650; 45647; 
       116; 15633; 31422; 18395; 45650; 36663; 51352; 62973; 18374; 31395; 15628; 105; 
       25631; 22906; 7893; 9136; 37259; 44270; 60225; 54820; 31340; 18185; 166; 15811; 
       36856; 45725; 62770; 51287; 44065; 37188; 55019; 60302; 22965; 25808; 9087; 7706; 
       60307; 55030; 37209; 44092; 7687; 9058; 25805; 22952; 15838; 187; 18196; 31345; 
       51274; 62767; 45696; 36837; 25847; 22930; 7741; 9048; 37219; 44038; 60329; 54988; 
       45754; 36831; 51312; 62741; 18222; 31307; 15844; 129; 62728; 51309; 36802; 45735; 
       156; 15865; 31318; 18227; 9029; 7712; 22927; 25834; 54993; 60340; 44059; 37246; 
       18266; 31295; 15760; 245; 45774; 36779; 51204; 62817; 37143; 44146; 60381; 54968; 
       25731; 23014; 7753; 9004; 54949; 60352; 44143; 37130; 9009; 7764; 23035; 25758; 
       232; 15757; 31266; 18247; 62844; 51225; 36790; 45779; 22977; 25764; 8971; 7790; 
       44117; 37168; 54943; 60410; 36748; 45801; 62790; 51235; 31256; 18301; 210; 15799; 
       51262; 62811; 45812; 36753; 15786; 207; 18272; 31237; 7795; 8982; 25785; 23004; 
       60391; 54914; 37165; 44104].

(** crc/crc16_variants/crc16_dnp.c:45-95; parameters: crc_data_ptr, crc_length, final_crc, last_crc_ptr. *)
Definition c_Crc16_dnp : fundef :=
  FDef [TPtr (TInt U8); TInt U32; TInt IBool; TPtr (TInt U16)] (TInt U16)
    (SSeq (SInit (TInt IBool) (ECst I32 0))
    (SSeq (SInit (TInt IBool) (ECst I32 0))
    (SSeq (SInit (TInt U16) (ECst U32 0))
    (SSeq (SIf (EBin Ne (ECast (TPtr TVoid) (ECst I32 0)) (ELv (LVar 3 (TPtr (TInt U16)))))
     (SSet (LVar 6 (TInt U16)) (ELv (LDeref (ELv (LVar 3 (TPtr (TInt U16)))))))
     SSkip)
    (SSeq (SIf (ELv (LVar 2 (TInt IBool)))
     (SSeq (SSet (LVar 4 (TInt IBool)) (ECst I32 1))
     (SSet (LVar 5 (TInt IBool)) (ECst I32 1)))
     SSkip)
    (SReturn (ECall c_Crc16Base (ECons (EData U16 c_Crc16_dnp_crc_table) (ECons (ELv (LVar 0 (TPtr (TInt U8)))) (ECons (ELv (LVar 1 (TInt U32))) (ECons (ELv (LVar 6 (TInt U16))) (ECons (ECst U32 65535) (ECons (ELv (LVar 4 (TInt IBool))) (ECons (ECst I32 1) (ECons (ELv (LVar 5 (TInt IBool))) ENil))))))))))))))).

(** crc/crc16_variants/crc16_en_13757.c:53, a constant array *)
Definition c_Crc16_en13757_crc_table : list Z :=
  [0; 15717; 31434; 18351; 62868; 51441; 36702; 45627; 54861; 60200; 44167; 37346; 
       9177; 7868; 22803; 25718; 37375; 44186; 60213; 54864; 25707; 22798; 7841; 9156; 
       18354; 31447; 15736; 29; 45606; 36675; 51436; 62857; 7835; 9214; 25681; 22836; 
       60175; 54890; 37317; 44192; 51414; 62899; 45596; 36729; 15682; 39; 18312; 31469; 
       36708; 45569; 62894; 51403; 31472; 18325; 58; 15711; 22825; 25676; 9187; 7814; 
       44221; 37336; 54903; 60178; 15670; 83; 18428; 31385; 51362; 62919; 45672; 36621; 
       60283; 54814; 37297; 44244; 7919; 9098; 25637; 22848; 44233; 37292; 54787; 60262; 
       22877; 25656; 9111; 7922; 31364; 18401; 78; 15659; 36624; 45685; 62938; 51391; 
       9133; 7880; 22887; 25602; 54841; 60252; 44275; 37270; 62944; 51333; 36650; 45647; 
       116; 15633; 31422; 18395; 45650; 36663; 51352; 62973; 18374; 31395; 15628; 105; 
       25631; 22906; 7893; 9136; 37259; 44270; 60225; 54820; 31340; 18185; 166; 15811; 
       36856; 45725; 62770; 51287; 44065; 37188; 55019; 60302; 22965; 25808; 9087; 7706; 
       60307; 55030; 37209; 44092; 7687; 9058; 25805; 22952; 15838; 187; 18196; 31345; 
       51274; 62767; 45696; 36837; 25847; 22930; 7741; 9048; 37219; 44038; 60329; 54988; 
       45754; 36831; 51312; 62741; 18222; 31307; 15844; 129; 62728; 51309; 36802; 45735; 
       156; 15865; 31318; 18227; 9029; 7712; 22927; 25834; 54993; 60340; 44059; 37246; 
       18266; 31295; 15760; 245; 45774; 36779; 51204; 62817; 37143; 44146; 60381; 54968; 
       25731; 23014; 7753; 9004; 54949; 60352; 44143; 37130; 9009; 7764; 23035; 25758; 
       232; 15757; 31266; 18247; 62844; 51225; 36790; 45779; 22977; 25764; 8971; 7790; 
       44117; 37168; 54943; 60410; 36748; 45801; 62790; 51235; 31256; 18301; 210; 15799; 
       51262; 62811; 45812; 36753; 15786; 207; 18272; 31237; 7795; 8982; 25785; 23004; 
       60391; 54914; 37165; 44104].

(** crc/crc16_variants/crc16_en_13757.c:45-93; parameters: crc_data_ptr, crc_length, final_crc, last_crc_ptr. *)
Definition c_Crc16_en13757 : fundef :=
  FDef [TPtr (TInt U8); TInt U32; TInt IBool; TPtr (TInt U16)] (TInt U16)
    (SSeq (SInit (TInt IBool) (ECst I32 0))
    (SSeq (SInit (TInt U16) (ECst U32 0))
    (SSeq (SIf (EBin Ne (ECast (TPtr TVoid) (ECst I32 0)) (ELv (LVar 3 (TPtr (TInt U16)))))
     (SSet (LVar 5 (TInt U16)) (ELv (LDeref (ELv (LVar 3 (TPtr (TInt U16)))))))
     SSkip)
    (SSeq (SIf (ELv (LVar 2 (TInt IBool)))
     (SSet (LVar 4 (TInt IBool)) (ECst I32 1))
     SSkip)
    (SReturn (ECall c_Crc16Base (ECons (EData U16 c_Crc16_en13757_crc_table) (ECons (ELv (LVar 0 (TPtr (TInt U8)))) (ECons (ELv (LVar 1 (TInt U32))) (ECons (ELv (LVar 5 (TInt U16))) (ECons (ECst U32 65535) (ECons (ECst I32 0) (ECons (ECst I32 0) (ECons (ELv (LVar 4 (TInt IBool))) ENil)))))))))))))).

(** crc/crc16_variants/crc16_genibus.c:53, a constant array *)
Definition c_Crc16_genibus_crc_table : list Z :=
  [0; 4129; 8258; 12387; 16516; 20645; 24774; 28903; 33032; 37161; 41290; 45419; 
       49548; 53677; 57806; 61935; 4657; 528; 12915; 8786; 21173; 17044; 29431; 25302; 
       37689; 33560; 45947; 41818; 54205; 50076; 62463; 58334; 9314; 13379; 1056; 5121; 
       25830; 29895; 17572; 21637; 42346; 46411; 34088; 38153; 58862; 62927; 50604; 54669; 
       13907; 9842; 5649; 1584; 30423; 26358; 22165; 18100; 46939; 42874; 38681; 34616; 
       63455; 59390; 55197; 51132; 18628; 22757; 26758; 30887; 2112; 6241; 10242; 14371; 
       51660; 55789; 59790; 63919; 35144; 39273; 43274; 47403; 23285; 19156; 31415; 27286; 
       6769; 2640; 14899; 10770; 56317; 52188; 64447; 60318; 39801; 35672; 47931; 43802; 
       27814; 31879; 19684; 23749; 11298; 15363; 3168; 7233; 60846; 64911; 52716; 56781; 
       44330; 48395; 36200; 40265; 32407; 28342; 24277; 20212; 15891; 11826; 7761; 3696; 
       65439; 61374; 57309; 53244; 48923; 44858; 40793; 36728; 37256; 33193; 45514; 41451; 
       53516; 49453; 61774; 57711; 4224; 161; 12482; 8419; 20484; 16421; 28742; 24679; 
       33721; 37784; 41979; 46042; 49981; 54044; 58239; 62302; 689; 4752; 8947; 13010; 
       16949; 21012; 25207; 29270; 46570; 42443; 38312; 34185; 62830; 58703; 54572; 50445; 
       13538; 9411; 5280; 1153; 29798; 25671; 21540; 17413; 42971; 47098; 34713; 38840; 
       59231; 63358; 50973; 55100; 9939; 14066; 1681; 5808; 26199; 30326; 17941; 22068; 
       55628; 51565; 63758; 59695; 39368; 35305; 47498; 43435; 22596; 18533; 30726; 26663; 
       6336; 2273; 14466; 10403; 52093; 56156; 60223; 64286; 35833; 39896; 43963; 48026; 
       19061; 23124; 27191; 31254; 2801; 6864; 10931; 14994; 64814; 60687; 56684; 52557; 
       48554; 44427; 40424; 36297; 31782; 27655; 23652; 19525; 15522; 11395; 7392; 3265; 
       61215; 65342; 53085; 57212; 44955; 49082; 36825; 40952; 28183; 32310; 20053; 24180; 
       11923; 16050; 3793; 7920].

(** crc/crc16_variants/crc16_genibus.c:45-93; parameters: crc_data_ptr, crc_length, final_crc, last_crc_ptr. *)
Definition c_Crc16_genibus : fundef :=
  FDef [TPtr (TInt U8); TInt U32; TInt IBool; TPtr (TInt U16)] (TInt U16)
    (SSeq (SInit (TInt IBool) (ECst I32 0))
    (SSeq (SInit (TInt U16) (ECst U32 65535))
    (SSeq (SIf (EBin Ne (ECast (TPtr TVoid) (ECst I32 0)) (ELv (LVar 3 (TPtr (TInt U16)))))
     (SSet (LVar 5 (TInt U16)) (ELv (LDeref (ELv (LVar 3 (TPtr (TInt U16)))))))
     SSkip)
    (SSeq (SIf (ELv (LVar 2 (TInt IBool)))
     (SSet (LVar 4 (TInt IBool)) (ECst I32 1))
     SSkip)
    (SReturn (ECall c_Crc16Base (ECons (EData U16 c_Crc16_genibus_crc_table) (ECons (ELv (LVar 0 (TPtr (TInt U8)))) (ECons (ELv (LVar 1 (TInt U32))) (ECons (ELv (LVar 5 (TInt U16))) (ECons (ECst U32 65535) (ECons (ECst I32 0) (ECons (ECst I32 0) (ECons (ELv (LVar 4 (TInt IBool))) ENil)))))))))))))).

(** crc/crc16_variants/crc16_kermit.c:53, a constant array *)
Definition c_Crc16_kermit_crc_table : list Z :=
  [0; 4129; 8258; 12387; 16516; 20645; 24774; 28903; 33032; 37161; 41290; 45419; 
       49548; 53677; 57806; 61935; 4657; 528; 12915; 8786; 21173; 17044; 29431; 25302; 
       37689; 33560; 45947; 41818; 54205; 50076; 62463; 58334; 9314; 13379; 1056; 5121; 
       25830; 29895; 17572; 21637; 42346; 46411; 34088; 38153; 58862; 62927; 50604; 54669; 
       13907; 9842; 5649; 1584; 30423; 26358; 22165; 18100; 46939; 42874; 38681; 34616; 
       63455; 59390; 55197; 51132; 18628; 22757; 26758; 30887; 2112; 6241; 10242; 14371; 
       51660; 55789; 59790; 63919; 35144; 39273; 43274; 47403; 23285; 19156; 31415; 27286; 
       6769; 2640; 14899; 10770; 56317; 52188; 64447; 60318; 39801; 35672; 47931; 43802; 
       27814; 31879; 19684; 23749; 11298; 15363; 3168; 7233; 60846; 64911; 52716; 56781; 
       44330; 48395; 36200; 40265; 32407; 28342; 24277; 20212; 15891; 11826; 7761; 3696; 
       65439; 61374; 57309; 53244; 48923; 44858; 40793; 36728; 37256; 33193; 45514; 41451; 
       53516; 49453; 61774; 57711; 4224; 161; 12482; 8419; 20484; 16421; 28742; 24679; 
       33721; 37784; 41979; 46042; 49981; 54044; 58239; 62302; 689; 4752; 8947; 13010; 
       16949; 21012; 25207; 29270; 46570; 42443; 38312; 34185; 62830; 58703; 54572; 50445; 
       13538; 9411; 5280; 1153; 29798; 25671; 21540; 17413; 42971; 47098; 34713; 38840; 
       59231; 63358; 50973; 55100; 9939; 14066; 1681; 5808; 26199; 30326; 17941; 22068; 
       55628; 51565; 63758; 59695; 39368; 35305; 47498; 43435; 22596; 18533; 30726; 26663; 
       6336; 2273; 14466; 10403; 52093; 56156; 60223; 64286; 35833; 39896; 43963; 48026; 
       19061; 23124; 27191; 31254; 2801; 6864; 10931; 14994; 64814; 60687; 56684; 52557; 
       48554; 44427; 40424; 36297; 31782; 27655; 23652; 19525; 15522; 11395; 7392; 3265; 
       61215; 65342; 53085; 57212; 44955; 49082; 36825; 40952; 28183; 32310; 20053; 24180; 
       11923; 16050; 3793; 7920].

(** crc/crc16_variants/crc16_kermit.c:45-93; parameters: crc_data_ptr, crc_length, final_crc, last_crc_ptr. *)
Definition c_Crc16_kermit : fundef :=
  FDef [TPtr (TInt U8); TInt U32; TInt IBool; TPtr (TInt U16)] (TInt U16)
    (SSeq (SInit (TInt IBool) (ECst I32 0))
    (SSeq (SInit (TInt U16) (ECst U32 0))
    (SSeq (SIf (EBin Ne (ECast (TPtr TVoid) (ECst I32 0)) (ELv (LVar 3 (TPtr (TInt U16)))))
     (SSet (LVar 5 (TInt U16)) (ELv (LDeref (ELv (LVar 3 (TPtr (TInt U16)))))))
     SSkip)
    (SSeq (SIf (ELv (LVar 2 (TInt IBool)))
     (SSet (LVar 4 (TInt IBool)) (ECst I32 1))
     SSkip)
    (SReturn (ECall c_Crc16Base (ECons (EData U16 c_Crc16_kermit_crc_table) (ECons (ELv (LVar 0 (TPtr (TInt U8)))) (ECons (ELv (LVar 1 (TInt U32))) (ECons (ELv (LVar 5 (TInt U16))) (ECons (ECst U32 0) (ECons (ELv (LVar 4 (TInt IBool))) (ECons (ECst I32 1) (ECons (ECst I32 0) ENil)))))))))))))).

(** crc/crc16_variants/crc16_maxim.c:53, a constant array *)
Definition c_Crc16_maxim_crc_table : list Z :=
  [0; 32773; 32783; 10; 32795; 30; 20; 32785; 32819; 54; 60; 32825; 40; 32813; 32807; 
       34; 32867; 102; 108; 32873; 120; 32893; 32887; 114; 80; 32853; 32863; 90; 32843; 
       78; 68; 32833; 32963; 198; 204; 32969; 216; 32989; 32983; 210; 240; 33013; 33023; 
       250; 33003; 238; 228; 32993; 160; 32933; 32943; 170; 32955; 190; 180; 32945; 32915; 
       150; 156; 32921; 136; 32909; 32903; 130; 33155; 390; 396; 33161; 408; 33181; 33175; 
       402; 432; 33205; 33215; 442; 33195; 430; 420; 33185; 480; 33253; 33263; 490; 33275; 
       510; 500; 33265; 33235; 470; 476; 33241; 456; 33229; 33223; 450; 320; 33093; 33103; 
       330; 33115; 350; 340; 33105; 33139; 374; 380; 33145; 360; 33133; 33127; 354; 33059; 
       294; 300; 33065; 312; 33085; 33079; 306; 272; 33045; 33055; 282; 33035; 270; 260; 
       33025; 33539; 774; 780; 33545; 792; 33565; 33559; 786; 816; 33589; 33599; 826; 
       33579; 814; 804; 33569; 864; 33637; 33647; 874; 33659; 894; 884; 33649; 33619; 854; 
       860; 33625; 840; 33613; 33607; 834; 960; 33733; 33743; 970; 33755; 990; 980; 33745; 
       33779; 1014; 1020; 33785; 1000; 33773; 33767; 994; 33699; 934; 940; 33705; 952; 
       33725; 33719; 946; 912; 33685; 33695; 922; 33675; 910; 900; 33665; 640; 33413; 
       33423; 650; 33435; 670; 660; 33425; 33459; 694; 700; 33465; 680; 33453; 33447; 674; 
       33507; 742; 748; 33513; 760; 33533; 33527; 754; 720; 33493; 33503; 730; 33483; 718; 
       708; 33473; 33347; 582; 588; 33353; 600; 33373; 33367; 594; 624; 33397; 33407; 634; 
       33387; 622; 612; 33377; 544; 33317; 33327; 554; 33339; 574; 564; 33329; 33299; 534; 
       540; 33305; 520; 33293; 33287; 514].

(** crc/crc16_variants/crc16_maxim.c:45-95; parameters: crc_data_ptr, crc_length, final_crc, last_crc_ptr. *)
Definition c_Crc16_maxim : fundef :=
  FDef [TPtr (TInt U8); TInt U32; TInt IBool; TPtr (TInt U16)] (TInt U16)
    (SSeq (SInit (TInt IBool) (ECst I32 0))
    (SSeq (SInit (TInt IBool) (ECst I32 0))
    (SSeq (SInit (TInt U16) (ECst U32 0))
    (SSeq (SIf (EBin Ne (ECast (TPtr TVoid) (ECst I32 0)) (ELv (LVar 3 (TPtr (TInt U16)))))
     (SSet (LVar 6 (TInt U16)) (ELv (LDeref (ELv (LVar 3 (TPtr (TInt U16)))))))
     SSkip)
    (SSeq (SIf (ELv (LVar 2 (TInt IBool)))
     (SSeq (SSet (LVar 4 (TInt IBool)) (ECst I32 1))
     (SSet (LVar 5 (TInt IBool)) (ECst I32 1)))
     SSkip)
    (SReturn (ECall c_Crc16Base (ECons (EData U16 c_Crc16_maxim_crc_table) (ECons (ELv (LVar 0 (TPtr (TInt U8)))) (ECons (ELv (LVar 1 (TInt U32))) (ECons (ELv (LVar 6 (TInt U16))) (ECons (ECst U32 65535) (ECons (ELv (LVar 4 (TInt IBool))) (ECons (ECst I32 1) (ECons (ELv (LVar 5 (TInt IBool))) ENil))))))))))))))).

(** crc/crc16_variants/crc16_mcrf4xx.c:53, a constant array *)
Definition c_Crc16_mcrf4xx_crc_table : list Z :=
  [0; 4129; 8258; 12387; 16516; 20645; 24774; 28903; 33032; 37161; 41290; 45419; 
       49548; 53677; 57806; 61935; 4657; 528; 12915; 8786; 21173; 17044; 29431; 25302; 
       37689; 33560; 45947; 41818; 54205; 50076; 62463; 58334; 9314; 13379; 1056; 5121; 
       25830; 29895; 17572; 21637; 42346; 46411; 34088; 38153; 58862; 62927; 50604; 54669; 
       13907; 9842; 5649; 1584; 30423; 26358; 22165; 18100; 46939; 42874; 38681; 34616; 
       63455; 59390; 55197; 51132; 18628; 22757; 26758; 30887; 2112; 6241; 10242; 14371; 
       51660; 55789; 59790; 63919; 35144; 39273; 43274; 47403; 23285; 19156; 31415; 27286; 
       6769; 2640; 14899; 10770; 56317; 52188; 64447; 60318; 39801; 35672; 47931; 43802; 
       27814; 31879; 19684; 23749; 11298; 15363; 3168; 7233; 60846; 64911; 52716; 56781; 
       44330; 48395; 36200; 40265; 32407; 28342; 24277; 20212; 15891; 11826; 7761; 3696; 
       65439; 61374; 57309; 53244; 48923; 44858; 40793; 36728; 37256; 33193; 45514; 41451; 
       53516; 49453; 61774; 57711; 4224; 161; 12482; 8419; 20484; 16421; 28742; 24679; 
       33721; 37784; 41979; 46042; 49981; 54044; 58239; 62302; 689; 4752; 8947; 13010; 
       16949; 21012; 25207; 29270; 46570; 42443; 38312; 34185; 62830; 58703; 54572; 50445; 
       13538; 9411; 5280; 1153; 29798; 25671; 21540; 17413; 42971; 47098; 34713; 38840; 
       59231; 63358; 50973; 55100; 9939; 14066; 1681; 5808; 26199; 30326; 17941; 22068; 
       55628; 51565; 63758; 59695; 39368; 35305; 47498; 43435; 22596; 18533; 30726; 26663; 
       6336; 2273; 14466; 10403; 52093; 56156; 60223; 64286; 35833; 39896; 43963; 48026; 
       19061; 23124; 27191; 31254; 2801; 6864; 10931; 14994; 64814; 60687; 56684; 52557; 
       48554; 44427; 40424; 36297; 31782; 27655; 23652; 19525; 15522; 11395; 7392; 3265; 
       61215; 65342; 53085; 57212; 44955; 49082; 36825; 40952; 28183; 32310; 20053; 24180; 
       11923; 16050; 3793; 7920].

(** crc/crc16_variants/crc16_mcrf4xx.c:45-93; parameters: crc_data_ptr, crc_length, final_crc, last_crc_ptr. *)
Definition c_Crc16_mcrf4xx : fundef :=
  FDef [TPtr (TInt U8); TInt U32; TInt IBool; TPtr (TInt U16)] (TInt U16)
    (SSeq (SInit (TInt IBool) (ECst I32 0))
    (SSeq (SInit (TInt U16) (ECst U32 65535))
    (SSeq (SIf (EBin Ne (ECast (TPtr TVoid) (ECst I32 0)) (ELv (LVar 3 (TPtr (TInt U16)))))
     (SSet (LVar 5 (TInt U16)) (ELv (LDeref (ELv (LVar 3 (TPtr (TInt U16)))))))
     SSkip)
    (SSeq (SIf (ELv (LVar 2 (TInt IBool)))
     (SSet (LVar 4 (TInt IBool)) (ECst I32 1))
     SSkip)
    (SReturn (ECall c_Crc16Base (ECons (EData U16 c_Crc16_mcrf4xx_crc_table) (ECons (ELv (LVar 0 (TPtr (TInt U8)))) (ECons (ELv (LVar 1 (TInt U32))) (ECons (ELv (LVar 5 (TInt U16))) (ECons (ECst U32 0) (ECons (ELv (LVar 4 (TInt IBool))) (ECons (ECst I32 1) (ECons (ECst I32 0) ENil)))))))))))))).

(** crc/crc16_variants/crc16_modbus.c:53, a constant array *)
Definition c_Crc16_modbus_crc_table : list Z :=
  [0; 32773; 32783; 10; 32795; 30; 20; 32785; 32819; 54; 60; 32825; 40; 32813; 32807; 
       34; 32867; 102; 108; 32873; 120; 32893; 32887; 114; 80; 32853; 32863; 90; 32843; 
       78; 68; 32833; 32963; 198; 204; 32969; 216; 32989; 32983; 210; 240; 33013; 33023; 
       250; 33003; 238; 228; 32993; 160; 32933; 32943; 170; 32955; 190; 180; 32945; 32915; 
       150; 156; 32921; 136; 32909; 32903; 130; 33155; 390; 396; 33161; 408; 33181; 33175; 
       402; 432; 33205; 33215; 442; 33195; 430; 420; 33185; 480; 33253; 33263; 490; 33275; 
       510; 500; 33265; 33235; 470; 476; 33241; 456; 33229; 33223; 450; 320; 33093; 33103; 
       330; 33115; 350; 340; 33105; 33139; 374; 380; 33145; 360; 33133; 33127; 354; 33059; 
       294; 300; 33065; 312; 33085; 33079; 306; 272; 33045; 33055; 282; 33035; 270; 260; 
       33025; 33539; 774; 780; 33545; 792; 33565; 33559; 786; 816; 33589; 33599; 826; 
       33579; 814; 804; 33569; 864; 33637; 33647; 874; 33659; 894; 884; 33649; 33619; 854; 
       860; 33625; 840; 33613; 33607; 834; 960; 33733; 33743; 970; 33755; 990; 980; 33745; 
       33779; 1014; 1020; 33785; 1000; 33773; 33767; 994; 33699; 934; 940; 33705; 952; 
       33725; 33719; 946; 912; 33685; 33695; 922; 33675; 910; 900; 33665; 640; 33413; 
       33423; 650; 33435; 670; 660; 33425; 33459; 694; 700; 33465; 680; 33453; 33447; 674; 
       33507; 742; 748; 33513; 760; 33533; 33527; 754; 720; 33493; 33503; 730; 33483; 718; 
       708; 33473; 33347; 582; 588; 33353; 600; 33373; 33367; 594; 624; 33397; 33407; 634; 
       33387; 622; 612; 33377; 544; 33317; 33327; 554; 33339; 574; 564; 33329; 33299; 534; 
       540; 33305; 520; 33293; 33287; 514].

(** crc/crc16_variants/crc16_modbus.c:45-93; parameters: crc_data_ptr, crc_length, final_crc, last_crc_ptr. *)
Definition c_Crc16_modbus : fundef :=
  FDef [TPtr (TInt U8); TInt U32; TInt IBool; TPtr (TInt U16)] (TInt U16)
    (SSeq (SInit (TInt IBool) (ECst I32 0))
    (SSeq (SInit (TInt U16) (ECst U32 65535))
    (SSeq (SIf (EBin Ne (ECast (TPtr TVoid) (ECst I32 0)) (ELv (LVar 3 (TPtr (TInt U16)))))
     (SSet (LVar 5 (TInt U16)) (ELv (LDeref (ELv (LVar 3 (TPtr (TInt U16)))))))
     SSkip)
    (SSeq (SIf (ELv (LVar 2 (TInt IBool)))
     (SSet (LVar 4 (TInt IBool)) (ECst I32 1))
     SSkip)
    (SReturn (ECall c_Crc16Base (ECons (EData U16 c_Crc16_modbus_crc_table) (ECons (ELv (LVar 0 (TPtr (TInt U8)))) (ECons (ELv (LVar 1 (TInt U32))) (ECons (ELv (LVar 5 (TInt U16))) (ECons (ECst U32 0) (ECons (ELv (LVar 4 (TInt IBool))) (ECons (ECst I32 1) (ECons (ECst I32 0) ENil)))))))))))))).

(** crc/crc16_variants/crc16_riello.c:53, a constant array *)
Definition c_Crc16_riello_crc_table : list Z :=
  [0; 4129; 8258; 12387; 16516; 20645; 24774; 28903; 33032; 37161; 41290; 45419; 
       49548; 53677; 57806; 61935; 4657; 528; 12915; 8786; 21173; 17044; 29431; 25302; 
       37689; 33560; 45947; 41818; 54205; 50076; 62463; 58334; 9314; 13379; 1056; 5121; 
       25830; 29895; 17572; 21637; 42346; 46411; 34088; 38153; 58862; 62927; 50604; 54669; 
       13907; 9842; 5649; 1584; 30423; 26358; 22165; 18100; 46939; 42874; 38681; 34616; 
       63455; 59390; 55197; 51132; 18628; 22757; 26758; 30887; 2112; 6241; 10242; 14371; 
       51660; 55789; 59790; 63919; 35144; 39273; 43274; 47403; 23285; 19156; 31415; 27286; 
       6769; 2640; 14899; 10770; 56317; 52188; 64447; 60318; 39801; 35672; 47931; 43802; 
       27814; 31879; 19684; 23749; 11298; 15363; 3168; 7233; 60846; 64911; 52716; 56781; 
       44330; 48395; 36200; 40265; 32407; 28342; 24277; 20212; 15891; 11826; 7761; 3696; 
       65439; 61374; 57309; 53244; 48923; 44858; 40793; 36728; 37256; 33193; 45514; 41451; 
       53516; 49453; 61774; 57711; 4224; 161; 12482; 8419; 20484; 16421; 28742; 24679; 
       33721; 37784; 41979; 46042; 49981; 54044; 58239; 62302; 689; 4752; 8947; 13010; 
       16949; 21012; 25207; 29270; 46570; 42443; 38312; 34185; 62830; 58703; 54572; 50445; 
       13538; 9411; 5280; 1153; 29798; 25671; 21540; 17413; 42971; 47098; 34713; 38840; 
       59231; 63358; 50973; 55100; 9939; 14066; 1681; 5808; 26199; 30326; 17941; 22068; 
       55628; 51565; 63758; 59695; 39368; 35305; 47498; 43435; 22596; 18533; 30726; 26663; 
       6336; 2273; 14466; 10403; 52093; 56156; 60223; 64286; 35833; 39896; 43963; 48026; 
       19061; 23124; 27191; 31254; 2801; 6864; 10931; 14994; 64814; 60687; 56684; 52557; 
       48554; 44427; 40424; 36297; 31782; 27655; 23652; 19525; 15522; 11395; 7392; 3265; 
       61215; 65342; 53085; 57212; 44955; 49082; 36825; 40952; 28183; 32310; 20053; 24180; 
       11923; 16050; 3793; 7920].

(** crc/crc16_variants/crc16_riello.c:45-93; parameters: crc_data_ptr, crc_length, final_crc, last_crc_ptr. *)
Definition c_Crc16_riello : fundef :=
  FDef [TPtr (TInt U8); TInt U32; TInt IBool; TPtr (TInt U16)] (TInt U16)
    (SSeq (SInit (TInt IBool) (ECst I32 0))
    (SSeq (SInit (TInt U16) (ECst U32 45738))
    (SSeq (SIf (EBin Ne (ECast (TPtr TVoid) (ECst I32 0)) (ELv (LVar 3 (TPtr (TInt U16)))))
     (SSet (LVar 5 (TInt U16)) (ELv (LDeref (ELv (LVar 3 (TPtr (TInt U16)))))))
     SSkip)
    (SSeq (SIf (ELv (LVar 2 (TInt IBool)))
     (SSet (LVar 4 (TInt IBool)) (ECst I32 1))
     SSkip)
    (SReturn (ECall c_Crc16Base (ECons (EData U16 c_Crc16_riello_crc_table) (ECons (ELv (LVar 0 (TPtr (TInt U8)))) (ECons (ELv (LVar 1 (TInt U32))) (ECons (ELv (LVar 5 (TInt U16))) (ECons (ECst U32 0) (ECons (ELv (LVar 4 (TInt IBool))) (ECons (ECst I32 1) (ECons (ECst I32 0) ENil)))))))))))))).

(** crc/crc16_variants/crc16_t10_dif.c:52, a constant array *)
Definition c_Crc16_t10Dif_crc_table : list Z :=
  [0; 35767; 40153; 5998; 45573; 14770; 11996; 42347; 61373; 25610; 29540; 63699; 
       23992; 54799; 49505; 19158; 21709; 57210; 51220; 17315; 59080; 28031; 31249; 61862; 
       47984; 12487; 10153; 44062; 2421; 33474; 38316; 7707; 43418; 8749; 13635; 48884; 
       7071; 36904; 34630; 3313; 17959; 52624; 56062; 20809; 62498; 32661; 26875; 58188; 
       64855; 30432; 24974; 59961; 20306; 50405; 54155; 22588; 4842; 39261; 36403; 1412; 
       41199; 11096; 15414; 46977; 55427; 21300; 17498; 53229; 27270; 57649; 63071; 32232; 
       14142; 48265; 44007; 8272; 34107; 3724; 6626; 37461; 35918; 2041; 4247; 39712; 
       15947; 46588; 41618; 10533; 25587; 59460; 65322; 29853; 53750; 23105; 19759; 50840; 
       28953; 64174; 60864; 26231; 49948; 18603; 24517; 54386; 40612; 5395; 637; 35274; 
       11425; 42774; 45176; 15311; 9684; 44643; 47373; 12986; 38865; 7270; 2824; 32959; 
       51817; 16862; 22192; 56583; 30828; 62427; 58549; 28418; 15025; 45318; 42600; 11743; 
       34996; 771; 5229; 40922; 54540; 24251; 18901; 49762; 26377; 60606; 64464; 28775; 
       28284; 58827; 62117; 30994; 56441; 22478; 16544; 51991; 33217; 2678; 7448; 38575; 
       13252; 47219; 44829; 9386; 37675; 6300; 4082; 33861; 8494; 43673; 48631; 13888; 
       31894; 63265; 57423; 27640; 52883; 17700; 21066; 55805; 51174; 19537; 23359; 53384; 
       30179; 65108; 59706; 25229; 10331; 41964; 46210; 16181; 39518; 4585; 1671; 36144; 
       57906; 27013; 32491; 62812; 20535; 56192; 52462; 18265; 3471; 34360; 37206; 6881; 
       49034; 13373; 9043; 43236; 46847; 15688; 10790; 41361; 1274; 36685; 38947; 5012; 
       22850; 54005; 50587; 20012; 60231; 24816; 30622; 64553; 19368; 49183; 55153; 23750; 
       63917; 29210; 25972; 61123; 42005; 12194; 14540; 45947; 5648; 40359; 35529; 382; 
       8037; 38098; 33724; 2059; 44384; 9943; 12729; 47630; 61656; 31599; 27649; 59318; 
       17117; 51562; 56836; 21939].

(** crc/crc16_variants/crc16_t10_dif.c:45-87; parameters: crc_data_ptr, crc_length, last_crc_ptr. *)
Definition c_Crc16_t10Dif : fundef :=
  FDef [TPtr (TInt U8); TInt U32; TPtr (TInt U16)] (TInt U16)
    (SSeq (SInit (TInt U16) (ECst U32 0))
    (SSeq (SIf (EBin Ne (ECast (TPtr TVoid) (ECst I32 0)) (ELv (LVar 2 (TPtr (TInt U16)))))
     (SSet (LVar 3 (TInt U16)) (ELv (LDeref (ELv (LVar 2 (TPtr (TInt U16)))))))
     SSkip)
    (SReturn (ECall c_Crc16Base (ECons (EData U16 c_Crc16_t10Dif_crc_table) (ECons (ELv (LVar 0 (TPtr (TInt U8)))) (ECons (ELv (LVar 1 (TInt U32))) (ECons (ELv (LVar 3 (TInt U16))) (ECons (ECst U32 0) (ECons (ECst I32 0) (ECons (ECst I32 0) (ECons (ECst I32 0) ENil)))))))))))).

(** crc/crc16_variants/crc16_teledisk.c:52, a constant array *)
Definition c_Crc16_teledisk_crc_table : list Z :=
  [0; 41111; 57785; 16686; 25573; 50034; 33372; 8907; 51146; 26461; 9843; 34532; 
       42031; 1208; 17814; 58625; 12035; 36756; 52922; 28205; 19686; 60529; 44383; 3528; 
       59593; 18526; 2416; 43495; 35628; 11195; 27285; 51714; 24070; 65169; 49087; 7976; 
       15843; 40308; 56410; 31949; 39372; 14683; 30837; 55522; 64041; 23230; 7056; 47879; 
       28933; 53650; 37052; 12331; 4832; 45687; 62297; 21454; 46799; 5720; 22390; 63457; 
       54570; 30141; 13459; 37892; 48140; 7323; 23989; 64802; 57321; 32638; 15952; 40647; 
       31686; 56145; 39551; 15080; 6179; 47284; 63898; 22797; 37647; 13208; 29366; 53793; 
       61674; 20605; 4435; 45508; 21701; 62546; 46460; 5611; 14112; 38839; 54937; 30222; 
       57866; 17053; 947; 41764; 33263; 8568; 24662; 49345; 9664; 34135; 50297; 25838; 
       17957; 59058; 42908; 1803; 52489; 28062; 11440; 35879; 44780; 3707; 20309; 61378; 
       2755; 43604; 60282; 19437; 26918; 51633; 34975; 10248; 55439; 30744; 14646; 39329; 
       47978; 7165; 23251; 64068; 8005; 49106; 65276; 24171; 31904; 56375; 40217; 15758; 
       63372; 22299; 5685; 46754; 37993; 13566; 30160; 54599; 12358; 37073; 53759; 29032; 
       21411; 62260; 45594; 4749; 34441; 9758; 26416; 51111; 58732; 17915; 1237; 42050; 
       16707; 57812; 41210; 109; 8870; 33329; 49951; 25480; 43402; 2333; 18483; 59556; 
       51823; 27384; 11222; 35649; 28224; 52951; 36857; 12142; 3493; 44338; 60444; 19595; 
       25731; 50196; 34106; 9645; 1894; 42993; 59103; 17992; 41801; 990; 17136; 57959; 
       49324; 24635; 8469; 33154; 19328; 60183; 43577; 2734; 10341; 35058; 51676; 26955; 
       35914; 11485; 28147; 52580; 61359; 20280; 3606; 44673; 14981; 39442; 56124; 31659; 
       22880; 63991; 47321; 6222; 64847; 24024; 7414; 48225; 40618; 15933; 32531; 57220; 
       5510; 46353; 62527; 21672; 30307; 55028; 38874; 14157; 53836; 29403; 13301; 37730; 
       45481; 4414; 20496; 61575].

(** crc/crc16_variants/crc16_teledisk.c:45-87; parameters: crc_data_ptr, crc_length, last_crc_ptr. *)
Definition c_Crc16_teledisk : fundef :=
  FDef [TPtr (TInt U8); TInt U32; TPtr (TInt U16)] (TInt U16)
    (SSeq (SInit (TInt U16) (ECst U32 0))
    (SSeq (SIf (EBin Ne (ECast (TPtr TVoid) (ECst I32 0)) (ELv (LVar 2 (TPtr (TInt U16)))))
     (SSet (LVar 3 (TInt U16)) (ELv (LDeref (ELv (LVar 2 (TPtr (TInt U16)))))))
     SSkip)
    (SReturn (ECall c_Crc16Base (ECons (EData U16 c_Crc16_teledisk_crc_table) (ECons (ELv (LVar 0 (TPtr (TInt U8)))) (ECons (ELv (LVar 1 (TInt U32))) (ECons (ELv (LVar 3 (TInt U16))) (ECons (ECst U32 0) (ECons (ECst I32 0) (ECons (ECst I32 0) (ECons (ECst I32 0) ENil)))))))))))).

(** crc/crc16_variants/crc16_tms37157.c:53, a constant array *)
Definition c_Crc16_tms37157_crc_table : list Z :=
  [0; 4129; 8258; 12387; 16516; 20645; 24774; 28903; 33032; 37161; 41290; 45419; 
       49548; 53677; 57806; 61935; 4657; 528; 12915; 8786; 21173; 17044; 29431; 25302; 
       37689; 33560; 45947; 41818; 54205; 50076; 62463; 58334; 9314; 13379; 1056; 5121; 
       25830; 29895; 17572; 21637; 42346; 46411; 34088; 38153; 58862; 62927; 50604; 54669; 
       13907; 9842; 5649; 1584; 30423; 26358; 22165; 18100; 46939; 42874; 38681; 34616; 
       63455; 59390; 55197; 51132; 18628; 22757; 26758; 30887; 2112; 6241; 10242; 14371; 
       51660; 55789; 59790; 63919; 35144; 39273; 43274; 47403; 23285; 19156; 31415; 27286; 
       6769; 2640; 14899; 10770; 56317; 52188; 64447; 60318; 39801; 35672; 47931; 43802; 
       27814; 31879; 19684; 23749; 11298; 15363; 3168; 7233; 60846; 64911; 52716; 56781; 
       44330; 48395; 36200; 40265; 32407; 28342; 24277; 20212; 15891; 11826; 7761; 3696; 
       65439; 61374; 57309; 53244; 48923; 44858; 40793; 36728; 37256; 33193; 45514; 41451; 
       53516; 49453; 61774; 57711; 4224; 161; 12482; 8419; 20484; 16421; 28742; 24679; 
       33721; 37784; 41979; 46042; 49981; 54044; 58239; 62302; 689; 4752; 8947; 13010; 
       16949; 21012; 25207; 29270; 46570; 42443; 38312; 34185; 62830; 58703; 54572; 50445; 
       13538; 9411; 5280; 1153; 29798; 25671; 21540; 17413; 42971; 47098; 34713; 38840; 
       59231; 63358; 50973; 55100; 9939; 14066; 1681; 5808; 26199; 30326; 17941; 22068; 
       55628; 51565; 63758; 59695; 39368; 35305; 47498; 43435; 22596; 18533; 30726; 26663; 
       6336; 2273; 14466; 10403; 52093; 56156; 60223; 64286; 35833; 39896; 43963; 48026; 
       19061; 23124; 27191; 31254; 2801; 6864; 10931; 14994; 64814; 60687; 56684; 52557; 
       48554; 44427; 40424; 36297; 31782; 27655; 23652; 19525; 15522; 11395; 7392; 3265; 
       61215; 65342; 53085; 57212; 44955; 49082; 36825; 40952; 28183; 32310; 20053; 24180; 
       11923; 16050; 3793; 7920].

(** crc/crc16_variants/crc16_tms37157.c:45-93; parameters: crc_data_ptr, crc_length, final_crc, last_crc_ptr. *)
Definition c_Crc16_tms37157 : fundef :=
  FDef [TPtr (TInt U8); TInt U32; TInt IBool; TPtr (TInt U16)] (TInt U16)
    (SSeq (SInit (TInt IBool) (ECst I32 0))
    (SSeq (SInit (TInt U16) (ECst U32 35308))
    (SSeq (SIf (EBin Ne (ECast (TPtr TVoid) (ECst I32 0)) (ELv (LVar 3 (TPtr (TInt U16)))))
     (SSet (LVar 5 (TInt U16)) (ELv (LDeref (ELv (LVar 3 (TPtr (TInt U16)))))))
     SSkip)
    (SSeq (SIf (ELv (LVar 2 (TInt IBool)))
     (SSet (LVar 4 (TInt IBool)) (ECst I32 1))
     SSkip)
    (SReturn (ECall c_Crc16Base (ECons (EData U16 c_Crc16_tms37157_crc_table) (ECons (ELv (LVar 0 (TPtr (TInt U8)))) (ECons (ELv (LVar 1 (TInt U32))) (ECons (ELv (LVar 5 (TInt U16))) (ECons (ECst U32 0) (ECons (ELv (LVar 4 (TInt IBool))) (ECons (ECst I32 1) (ECons (ECst I32 0) ENil)))))))))))))).

(** crc/crc16_variants/crc16_usb.c:53, a constant array *)
Definition c_Crc16_usb_crc_table : list Z :=
  [0; 32773; 32783; 10; 32795; 30; 20; 32785; 32819; 54; 60; 32825; 40; 32813; 32807; 
       34; 32867; 102; 108; 32873; 120; 32893; 32887; 114; 80; 32853; 32863; 90; 32843; 
       78; 68; 32833; 32963; 198; 204; 32969; 216; 32989; 32983; 210; 240; 33013; 33023; 
       250; 33003; 238; 228; 32993; 160; 32933; 32943; 170; 32955; 190; 180; 32945; 32915; 
       150; 156; 32921; 136; 32909; 32903; 130; 33155; 390; 396; 33161; 408; 33181; 33175; 
       402; 432; 33205; 33215; 442; 33195; 430; 420; 33185; 480; 33253; 33263; 490; 33275; 
       510; 500; 33265; 33235; 470; 476; 33241; 456; 33229; 33223; 450; 320; 33093; 33103; 
       330; 33115; 350; 340; 33105; 33139; 374; 380; 33145; 360; 33133; 33127; 354; 33059; 
       294; 300; 33065; 312; 33085; 33079; 306; 272; 33045; 33055; 282; 33035; 270; 260; 
       33025; 33539; 774; 780; 33545; 792; 33565; 33559; 786; 816; 33589; 33599; 826; 
       33579; 814; 804; 33569; 864; 33637; 33647; 874; 33659; 894; 884; 33649; 33619; 854; 
       860; 33625; 840; 33613; 33607; 834; 960; 33733; 33743; 970; 33755; 990; 980; 33745; 
       33779; 1014; 1020; 33785; 1000; 33773; 33767; 994; 33699; 934; 940; 33705; 952; 
       33725; 33719; 946; 912; 33685; 33695; 922; 33675; 910; 900; 33665; 640; 33413; 
       33423; 650; 33435; 670; 660; 33425; 33459; 694; 700; 33465; 680; 33453; 33447; 674; 
       33507; 742; 748; 33513; 760; 33533; 33527; 754; 720; 33493; 33503; 730; 33483; 718; 
       708; 33473; 33347; 582; 588; 33353; 600; 33373; 33367; 594; 624; 33397; 33407; 634; 
       33387; 622; 612; 33377; 544; 33317; 33327; 554; 33339; 574; 564; 33329; 33299; 534; 
       540; 33305; 520; 33293; 33287; 514].

(** crc/crc16_variants/crc16_usb.c:45-95; parameters: crc_data_ptr, crc_length, final_crc, last_crc_ptr. *)
Definition c_Crc16_usb : fundef :=
  FDef [TPtr (TInt U8); TInt U32; TInt IBool; TPtr (TInt U16)] (TInt U16)
    (SSeq (SInit (TInt IBool) (ECst I32 0))
    (SSeq (SInit (TInt IBool) (ECst I32 0))
    (SSeq (SInit (TInt U16) (ECst U32 65535))
    (SSeq (SIf (EBin Ne (ECast (TPtr TVoid) (ECst I32 0)) (ELv (LVar 3 (TPtr (TInt U16)))))
     (SSet (LVar 6 (TInt U16)) (ELv (LDeref (ELv (LVar 3 (TPtr (TInt U16)))))))
     SSkip)
    (SSeq (SIf (ELv (LVar 2 (TInt IBool)))
     (SSeq (SSet (LVar 4 (TInt IBool)) (ECst I32 1))
     (SSet (LVar 5 (TInt IBool)) (ECst I32 1)))
     SSkip)
    (SReturn (ECall c_Crc16Base (ECons (EData U16 c_Crc16_usb_crc_table) (ECons (ELv (LVar 0 (TPtr (TInt U8)))) (ECons (ELv (LVar 1 (TInt U32))) (ECons (ELv (LVar 6 (TInt U16))) (ECons (ECst U32 65535) (ECons (ELv (LVar 4 (TInt IBool))) (ECons (ECst I32 1) (ECons (ELv (LVar 5 (TInt IBool))) ENil))))))))))))))).

(** crc/crc16_variants/crc16_x_25.c:53, a constant array *)
Definition c_Crc16_x25_crc_table : list Z :=
  [0; 4129; 8258; 12387; 16516; 20645; 24774; 28903; 33032; 37161; 41290; 45419; 
       49548; 53677; 57806; 61935; 4657; 528; 12915; 8786; 21173; 17044; 29431; 25302; 
       37689; 33560; 45947; 41818; 54205; 50076; 62463; 58334; 9314; 13379; 1056; 5121; 
       25830; 29895; 17572; 21637; 42346; 46411; 34088; 38153; 58862; 62927; 50604; 54669; 
       13907; 9842; 5649; 1584; 30423; 26358; 22165; 18100; 46939; 42874; 38681; 34616; 
       63455; 59390; 55197; 51132; 18628; 22757; 26758; 30887; 2112; 6241; 10242; 14371; 
       51660; 55789; 59790; 63919; 35144; 39273; 43274; 47403; 23285; 19156; 31415; 27286; 
       6769; 2640; 14899; 10770; 56317; 52188; 64447; 60318; 39801; 35672; 47931; 43802; 
       27814; 31879; 19684; 23749; 11298; 15363; 3168; 7233; 60846; 64911; 52716; 56781; 
       44330; 48395; 36200; 40265; 32407; 28342; 24277; 20212; 15891; 11826; 7761; 3696; 
       65439; 61374; 57309; 53244; 48923; 44858; 40793; 36728; 37256; 33193; 45514; 41451; 
       53516; 49453; 61774; 57711; 4224; 161; 12482; 8419; 20484; 16421; 28742; 24679; 
       33721; 37784; 41979; 46042; 49981; 54044; 58239; 62302; 689; 4752; 8947; 13010; 
       16949; 21012; 25207; 29270; 46570; 42443; 38312; 34185; 62830; 58703; 54572; 50445; 
       13538; 9411; 5280; 1153; 29798; 25671; 21540; 17413; 42971; 47098; 34713; 38840; 
       59231; 63358; 50973; 55100; 9939; 14066; 1681; 5808; 26199; 30326; 17941; 22068; 
       55628; 51565; 63758; 59695; 39368; 35305; 47498; 43435; 22596; 18533; 30726; 26663; 
       6336; 2273; 14466; 10403; 52093; 56156; 60223; 64286; 35833; 39896; 43963; 48026; 
       19061; 23124; 27191; 31254; 2801; 6864; 10931; 14994; 64814; 60687; 56684; 52557; 
       48554; 44427; 40424; 36297; 31782; 27655; 23652; 19525; 15522; 11395; 7392; 3265; 
       61215; 65342; 53085; 57212; 44955; 49082; 36825; 40952; 28183; 32310; 20053; 24180; 
       11923; 16050; 3793; 7920].

(** crc/crc16_variants/crc16_x_25.c:45-95; parameters: crc_data_ptr, crc_length, final_crc, last_crc_ptr. *)
Definition c_Crc16_x25 : fundef :=
  FDef [TPtr (TInt U8); TInt U32; TInt IBool; TPtr (TInt U16)] (TInt U16)
    (SSeq (SInit (TInt IBool) (ECst I32 0))
    (SSeq (SInit (TInt IBool) (ECst I32 0))
    (SSeq (SInit (TInt U16) (ECst U32 65535))
    (SSeq (SIf (EBin Ne (ECast (TPtr TVoid) (ECst I32 0)) (ELv (LVar 3 (TPtr (TInt U16)))))
     (SSet (LVar 6 (TInt U16)) (ELv (LDeref (ELv (LVar 3 (TPtr (TInt U16)))))))
     SSkip)
    (SSeq (SIf (ELv (LVar 2 (TInt IBool)))
     (SSeq (SSet (LVar 4 (TInt IBool)) (ECst I32 1))
     (SSet (LVar 5 (TInt IBool)) (ECst I32 1)))
     SSkip)
    (SReturn (ECall c_Crc16Base (ECons (EData U16 c_Crc16_x25_crc_table) (ECons (ELv (LVar 0 (TPtr (TInt U8)))) (ECons (ELv (LVar 1 (TInt U32))) (ECons (ELv (LVar 6 (TInt U16))) (ECons (ECst U32 65535) (ECons (ELv (LVar 4 (TInt IBool))) (ECons (ECst I32 1) (ECons (ELv (LVar 5 (TInt IBool))) ENil))))))))))))))).

(** crc/crc32_variants/crc32.c:53, a constant array *)
Definition c_Crc32_crc_table : list Z :=
  [0; 79764919; 159529838; 222504665; 319059676; 398814059; 445009330; 507990021; 
       638119352; 583659535; 797628118; 726387553; 890018660; 835552979; 1015980042; 
       944750013; 1276238704; 1221641927; 1167319070; 1095957929; 1595256236; 1540665371; 
       1452775106; 1381403509; 1780037320; 1859660671; 1671105958; 1733955601; 2031960084; 
       2111593891; 1889500026; 1952343757; 2552477408; 2632100695; 2443283854; 2506133561; 
       2334638140; 2414271883; 2191915858; 2254759653; 3190512472; 3135915759; 3081330742; 
       3009969537; 2905550212; 2850959411; 2762807018; 2691435357; 3560074640; 3505614887; 
       3719321342; 3648080713; 3342211916; 3287746299; 3467911202; 3396681109; 4063920168; 
       4143685023; 4223187782; 4286162673; 3779000052; 3858754371; 3904687514; 3967668269; 
       881225847; 809987520; 1023691545; 969234094; 662832811; 591600412; 771767749; 
       717299826; 311336399; 374308984; 453813921; 533576470; 25881363; 88864420; 
       134795389; 214552010; 2023205639; 2086057648; 1897238633; 1976864222; 1804852699; 
       1867694188; 1645340341; 1724971778; 1587496639; 1516133128; 1461550545; 1406951526; 
       1302016099; 1230646740; 1142491917; 1087903418; 2896545431; 2825181984; 2770861561; 
       2716262478; 3215044683; 3143675388; 3055782693; 3001194130; 2326604591; 2389456536; 
       2200899649; 2280525302; 2578013683; 2640855108; 2418763421; 2498394922; 3769900519; 
       3832873040; 3912640137; 3992402750; 4088425275; 4151408268; 4197601365; 4277358050; 
       3334271071; 3263032808; 3476998961; 3422541446; 3585640067; 3514407732; 3694837229; 
       3640369242; 1762451694; 1842216281; 1619975040; 1682949687; 2047383090; 2127137669; 
       1938468188; 2001449195; 1325665622; 1271206113; 1183200824; 1111960463; 1543535498; 
       1489069629; 1434599652; 1363369299; 622672798; 568075817; 748617968; 677256519; 
       907627842; 853037301; 1067152940; 995781531; 51762726; 131386257; 177728840; 
       240578815; 269590778; 349224269; 429104020; 491947555; 4046411278; 4126034873; 
       4172115296; 4234965207; 3794477266; 3874110821; 3953728444; 4016571915; 3609705398; 
       3555108353; 3735388376; 3664026991; 3290680682; 3236090077; 3449943556; 3378572211; 
       3174993278; 3120533705; 3032266256; 2961025959; 2923101090; 2868635157; 2813903052; 
       2742672763; 2604032198; 2683796849; 2461293480; 2524268063; 2284983834; 2364738477; 
       2175806836; 2238787779; 1569362073; 1498123566; 1409854455; 1355396672; 1317987909; 
       1246755826; 1192025387; 1137557660; 2072149281; 2135122070; 1912620623; 1992383480; 
       1753615357; 1816598090; 1627664531; 1707420964; 295390185; 358241886; 404320391; 
       483945776; 43990325; 106832002; 186451547; 266083308; 932423249; 861060070; 
       1041341759; 986742920; 613929101; 542559546; 756411363; 701822548; 3316196985; 
       3244833742; 3425377559; 3370778784; 3601682597; 3530312978; 3744426955; 3689838204; 
       3819031489; 3881883254; 3928223919; 4007849240; 4037393693; 4100235434; 4180117107; 
       4259748804; 2310601993; 2373574846; 2151335527; 2231098320; 2596047829; 2659030626; 
       2470359227; 2550115596; 2947551409; 2876312838; 2788305887; 2733848168; 3165939309; 
       3094707162; 3040238851; 2985771188].

(** crc/crc32_variants/crc32.c:45-111; parameters: crc_data_ptr, crc_length, final_crc, last_crc_ptr. *)
Definition c_Crc32 : fundef :=
  FDef [TPtr (TInt U8); TInt U32; TInt IBool; TPtr (TInt U32)] (TInt U32)
    (SSeq (SInit (TInt IBool) (ECst I32 0))
    (SSeq (SInit (TInt IBool) (ECst I32 0))
    (SSeq (SInit (TInt U32) (ECst U32 4294967295))
    (SSeq (SIf (EBin Ne (ECast (TPtr TVoid) (ECst I32 0)) (ELv (LVar 3 (TPtr (TInt U32)))))
     (SSet (LVar 6 (TInt U32)) (ELv (LDeref (ELv (LVar 3 (TPtr (TInt U32)))))))
     SSkip)
    (SSeq (SIf (ELv (LVar 2 (TInt IBool)))
     (SSeq (SSet (LVar 4 (TInt IBool)) (ECst I32 1))
     (SSet (LVar 5 (TInt IBool)) (ECst I32 1)))
     SSkip)
    (SReturn (ECall c_Crc32Base (ECons (EData U32 c_Crc32_crc_table) (ECons (ELv (LVar 0 (TPtr (TInt U8)))) (ECons (ELv (LVar 1 (TInt U32))) (ECons (ELv (LVar 6 (TInt U32))) (ECons (ECst U32 4294967295) (ECons (ELv (LVar 4 (TInt IBool))) (ECons (ECst I32 1) (ECons (ELv (LVar 5 (TInt IBool))) ENil))))))))))))))).

(** crc/crc32_variants/crc32_bzip2.c:53, a constant array *)
Definition c_Crc32_bzip2_crc_table : list Z :=
  [0; 79764919; 159529838; 222504665; 319059676; 398814059; 445009330; 507990021; 
       638119352; 583659535; 797628118; 726387553; 890018660; 835552979; 1015980042; 
       944750013; 1276238704; 1221641927; 1167319070; 1095957929; 1595256236; 1540665371; 
       1452775106; 1381403509; 1780037320; 1859660671; 1671105958; 1733955601; 2031960084; 
       2111593891; 1889500026; 1952343757; 2552477408; 2632100695; 2443283854; 2506133561; 
       2334638140; 2414271883; 2191915858; 2254759653; 3190512472; 3135915759; 3081330742; 
       3009969537; 2905550212; 2850959411; 2762807018; 2691435357; 3560074640; 3505614887; 
       3719321342; 3648080713; 3342211916; 3287746299; 3467911202; 3396681109; 4063920168; 
       4143685023; 4223187782; 4286162673; 3779000052; 3858754371; 3904687514; 3967668269; 
       881225847; 809987520; 1023691545; 969234094; 662832811; 591600412; 771767749; 
       717299826; 311336399; 374308984; 453813921; 533576470; 25881363; 88864420; 
       134795389; 214552010; 2023205639; 2086057648; 1897238633; 1976864222; 1804852699; 
       1867694188; 1645340341; 1724971778; 1587496639; 1516133128; 1461550545; 1406951526; 
       1302016099; 1230646740; 1142491917; 1087903418; 2896545431; 2825181984; 2770861561; 
       2716262478; 3215044683; 3143675388; 3055782693; 3001194130; 2326604591; 2389456536; 
       2200899649; 2280525302; 2578013683; 2640855108; 2418763421; 2498394922; 3769900519; 
       3832873040; 3912640137; 3992402750; 4088425275; 4151408268; 4197601365; 4277358050; 
       3334271071; 3263032808; 3476998961; 3422541446; 3585640067; 3514407732; 3694837229; 
       3640369242; 1762451694; 1842216281; 1619975040; 1682949687; 2047383090; 2127137669; 
       1938468188; 2001449195; 1325665622; 1271206113; 1183200824; 1111960463; 1543535498; 
       1489069629; 1434599652; 1363369299; 622672798; 568075817; 748617968; 677256519; 
       907627842; 853037301; 1067152940; 995781531; 51762726; 131386257; 177728840; 
       240578815; 269590778; 349224269; 429104020; 491947555; 4046411278; 4126034873; 
       4172115296; 4234965207; 3794477266; 3874110821; 3953728444; 4016571915; 3609705398; 
       3555108353; 3735388376; 3664026991; 3290680682; 3236090077; 3449943556; 3378572211; 
       3174993278; 3120533705; 3032266256; 2961025959; 2923101090; 2868635157; 2813903052; 
       2742672763; 2604032198; 2683796849; 2461293480; 2524268063; 2284983834; 2364738477; 
       2175806836; 2238787779; 1569362073; 1498123566; 1409854455; 1355396672; 1317987909; 
       1246755826; 1192025387; 1137557660; 2072149281; 2135122070; 1912620623; 1992383480; 
       1753615357; 1816598090; 1627664531; 1707420964; 295390185; 358241886; 404320391; 
       483945776; 43990325; 106832002; 186451547; 266083308; 932423249; 861060070; 
       1041341759; 986742920; 613929101; 542559546; 756411363; 701822548; 3316196985; 
       3244833742; 3425377559; 3370778784; 3601682597; 3530312978; 3744426955; 3689838204; 
       3819031489; 3881883254; 3928223919; 4007849240; 4037393693; 4100235434; 4180117107; 
       4259748804; 2310601993; 2373574846; 2151335527; 2231098320; 2596047829; 2659030626; 
       2470359227; 2550115596; 2947551409; 2876312838; 2788305887; 2733848168; 3165939309; 
       3094707162; 3040238851; 2985771188].

(** crc/crc32_variants/crc32_bzip2.c:45-109; parameters: crc_data_ptr, crc_length, final_crc, last_crc_ptr. *)
Definition c_Crc32_bzip2 : fundef :=
  FDef [TPtr (TInt U8); TInt U32; TInt IBool; TPtr (TInt U32)] (TInt U32)
    (SSeq (SInit (TInt IBool) (ECst I32 0))
    (SSeq (SInit (TInt U32) (ECst U32 4294967295))
    (SSeq (SIf (EBin Ne (ECast (TPtr TVoid) (ECst I32 0)) (ELv (LVar 3 (TPtr (TInt U32)))))
     (SSet (LVar 5 (TInt U32)) (ELv (LDeref (ELv (LVar 3 (TPtr (TInt U32)))))))
     SSkip)
    (SSeq (SIf (ELv (LVar 2 (TInt IBool)))
     (SSet (LVar 4 (TInt IBool)) (ECst I32 1))
     SSkip)
    (SReturn (ECall c_Crc32Base (ECons (EData U32 c_Crc32_bzip2_crc_table) (ECons (ELv (LVar 0 (TPtr (TInt U8)))) (ECons (ELv (LVar 1 (TInt U32))) (ECons (ELv (LVar 5 (TInt U32))) (ECons (ECst U32 4294967295) (ECons (ECst I32 0) (ECons (ECst I32 0) (ECons (ELv (LVar 4 (TInt IBool))) ENil)))))))))))))).

(** crc/crc32_variants/crc32_c.c:53, a constant array *)
Definition c_Crc32_c_crc_table : list Z :=
  [0; 517762881; 1035525762; 593801667; 2071051524; 1705890373; 1187603334; 
       1477774535; 4142103048; 3896448329; 3411780746; 3582446539; 2375206668; 2471405645; 
       2955549070; 2935387855; 4078607185; 3989238800; 3466741203; 3497929362; 2288723541; 
       2528594196; 3050567895; 2869925782; 100262233; 455446040; 943800283; 647843994; 
       2122865757; 1616130844; 1127252703; 1575808414; 4176042467; 3862247074; 3310454625; 
       3683510304; 2207835367; 2638515110; 3189783141; 2700891428; 235545579; 282479786; 
       867368297; 762221096; 1971035887; 1806168494; 1220755565; 1444884268; 200524466; 
       355446259; 910892080; 681014129; 1887600566; 1851658487; 1295687988; 1407635061; 
       4245731514; 3821852667; 3232261688; 3732146553; 2254505406; 2562550527; 3151616828; 
       2768614525; 4010728583; 4057117638; 3535143429; 3429526852; 2491376003; 2325941954; 
       2848440065; 3072053312; 435005071; 120703438; 609581069; 982062924; 1654397835; 
       2084598986; 1596245257; 1106815560; 471091158; 46672023; 564959572; 1064367637; 
       1734736594; 2042205587; 1524442192; 1140935441; 3942071774; 4096479903; 3612336988; 
       3381890077; 2441511130; 2405101467; 2889768536; 3001168153; 401048932; 154921509; 
       710892518; 881013927; 1821784160; 1917474593; 1362028258; 1341295011; 3775201132; 
       4292382765; 3703316974; 3261091503; 2591375976; 2225679657; 2815270122; 3104961451; 
       3841793589; 4196495732; 3645227191; 3348738038; 2676794161; 2169556080; 2721349043; 
       3169325810; 303981629; 214043516; 799455935; 830133758; 1768937785; 2008266360; 
       1423378363; 1242261754; 3233928783; 3726489870; 4252567757; 3819267980; 3148901195; 
       2775319562; 2248717769; 2564086408; 908241991; 687784710; 194671301; 356916612; 
       1297289539; 1401912834; 1894502337; 1849139328; 870010142; 755442271; 241406876; 
       281017565; 1219162138; 1450614619; 1964125848; 1808679385; 3308795670; 3689175127; 
       4169197972; 3864823509; 3192490514; 2694178131; 2213631120; 2636987345; 942182316; 
       653582573; 93344046; 457981551; 1129919144; 1569021417; 2128735274; 1614644075; 
       3469473188; 3491207909; 4084411174; 3987686503; 3048884384; 2875598817; 2281870882; 
       2531195235; 3409057021; 3589176252; 4136290943; 3897992510; 2957224441; 2929706680; 
       2382067579; 2468812858; 1037135605; 588054964; 6926455; 515235638; 1184945137; 
       1484569776; 2065173875; 1707369010; 802097864; 823354761; 309843018; 212581131; 
       1421785036; 1247991949; 1762027854; 2010777103; 3643568320; 3354402689; 3834949186; 
       4199072003; 2724056516; 3162612357; 2682590022; 2168028167; 3704983961; 3255434968; 
       3782037275; 4289798234; 2812554397; 3111666652; 2585588255; 2227215710; 708242321; 
       887784656; 395195667; 156392018; 1363629717; 1335572948; 1828685847; 1914955606; 
       3609613099; 3388619882; 3936259497; 4098024168; 2891443759; 2995487086; 2448371885; 
       2402508780; 566569251; 1058621026; 478017441; 44144864; 1521783847; 1147730790; 
       1728858789; 2043684324; 607963258; 987801403; 428087032; 123238841; 1598911870; 
       1100028479; 1660267516; 2083112125; 3537875570; 3422805299; 4016532720; 4055565233; 
       2846756726; 3077726263; 2484523508; 2328542901].

(** crc/crc32_variants/crc32_c.c:45-111; parameters: crc_data_ptr, crc_length, final_crc, last_crc_ptr. *)
Definition c_Crc32_c : fundef :=
  FDef [TPtr (TInt U8); TInt U32; TInt IBool; TPtr (TInt U32)] (TInt U32)
    (SSeq (SInit (TInt IBool) (ECst I32 0))
    (SSeq (SInit (TInt IBool) (ECst I32 0))
    (SSeq (SInit (TInt U32) (ECst U32 4294967295))
    (SSeq (SIf (EBin Ne (ECast (TPtr TVoid) (ECst I32 0)) (ELv (LVar 3 (TPtr (TInt U32)))))
     (SSet (LVar 6 (TInt U32)) (ELv (LDeref (ELv (LVar 3 (TPtr (TInt U32)))))))
     SSkip)
    (SSeq (SIf (ELv (LVar 2 (TInt IBool)))
     (SSeq (SSet (LVar 4 (TInt IBool)) (ECst I32 1))
     (SSet (LVar 5 (TInt IBool)) (ECst I32 1)))
     SSkip)
    (SReturn (ECall c_Crc32Base (ECons (EData U32 c_Crc32_c_crc_table) (ECons (ELv (LVar 0 (TPtr (TInt U8)))) (ECons (ELv (LVar 1 (TInt U32))) (ECons (ELv (LVar 6 (TInt U32))) (ECons (ECst U32 4294967295) (ECons (ELv (LVar 4 (TInt IBool))) (ECons (ECst I32 1) (ECons (ELv (LVar 5 (TInt IBool))) ENil))))))))))))))).

(** crc/crc32_variants/crc32_d.c:53, a constant array *)
Definition c_Crc32_d_crc_table : list Z :=
  [0; 2821953579; 4166297725; 1348939862; 1486538961; 4037628154; 2697879724; 
       150861959; 2973077922; 419826057; 1231108575; 3780289012; 3920583027; 1100792152; 
       301723918; 3116919077; 3394812783; 1651188548; 839652114; 2587855673; 2462217150; 
       988933013; 1788271555; 3265610728; 2070751949; 3546198758; 2201584304; 722082459; 
       603447836; 2344909367; 3684911713; 1938870858; 1015213813; 2494658270; 3302377096; 
       1827004067; 1679304228; 3425418767; 2622262873; 880744050; 2377613143; 629467004; 
       1977866026; 3721416449; 3576543110; 2099130285; 762912763; 2236254160; 4141503898; 
       1592380849; 244252135; 2797430220; 2923470155; 108201312; 1444164918; 4264013085; 
       1206895672; 4024196115; 3216731205; 394851438; 527764713; 3074856130; 3877741716; 
       1326595263; 2030427626; 3509994945; 2169599383; 694349244; 564073787; 2309786896; 
       3654008134; 1912087917; 3358608456; 1610863715; 811918389; 2555870238; 2427094169; 
       949558450; 1761488100; 3234706639; 3009242757; 460258990; 1258934008; 3812251347; 
       3955732052; 1140078207; 328402473; 3147865602; 40433447; 2858118924; 4198260570; 
       1376765809; 1525825526; 4072777693; 2728826763; 177541024; 1166488351; 3988040500; 
       3184761698; 367002441; 488504270; 3039716325; 3846788019; 1299893144; 4105347773; 
       1551973014; 216402624; 2765460203; 2888329836; 68940359; 1417462289; 4233058874; 
       2413791344; 669782107; 2005606413; 3753424934; 3611639969; 2138495114; 789702876; 
       2267181303; 1055529426; 2530836985; 3334386095; 1854744964; 1718669571; 3460516136; 
       2653190526; 907534677; 4060855252; 1513628671; 174003113; 2725022594; 2861658885; 
       44231470; 1388698488; 4210443091; 1128147574; 3943543389; 3144319499; 324606496; 
       463790759; 3013048972; 3824175834; 1271124721; 944963771; 2422249616; 3221727430; 
       1748250861; 1623836778; 3371847745; 2560450583; 816773180; 2305200409; 559221042; 
       1899116900; 3640762703; 3522976200; 2043658723; 698937781; 2174445982; 3465106721; 
       1723518218; 920517980; 2666423671; 2517868016; 1042286043; 1850160525; 3329535398; 
       2143077507; 3616496808; 2280156414; 802944213; 656804946; 2400556153; 3748832303; 
       2000763908; 80866894; 2900522597; 4236592691; 1421270552; 1548428959; 4101553844; 
       2753531618; 204216009; 3051651052; 500688839; 1303435153; 3850588090; 3984504637; 
       1162686230; 355082048; 3172566891; 2332976702; 591265301; 1935330883; 3681113704; 
       3549736687; 2074556100; 734004882; 2213781177; 977008540; 2450026423; 3262078945; 
       1784465354; 1654734669; 3398608742; 2599786288; 851840795; 1096211793; 3915728250; 
       3103946028; 288484615; 432805248; 2986315179; 3784883709; 1235953110; 4033039603; 
       1481692376; 137880718; 2684648613; 2834924578; 13245449; 1353526367; 4171150452; 
       3079440587; 532615392; 1339564214; 3890985117; 4011212826; 1193662513; 390260839; 
       3211882572; 112793961; 2928312642; 4276990228; 1457400127; 1579405752; 4128262547; 
       2792847813; 239395310; 2111058852; 3588729743; 2239798233; 766706674; 625933173; 
       2373804894; 3709489928; 1965673251; 3437339142; 1691499053; 884279931; 2626064976; 
       2491116247; 1011413756; 1815069354; 3290192513].

(** crc/crc32_variants/crc32_d.c:45-111; parameters: crc_data_ptr, crc_length, final_crc, last_crc_ptr. *)
Definition c_Crc32_d : fundef :=
  FDef [TPtr (TInt U8); TInt U32; TInt IBool; TPtr (TInt U32)] (TInt U32)
    (SSeq (SInit (TInt IBool) (ECst I32 0))
    (SSeq (SInit (TInt IBool) (ECst I32 0))
    (SSeq (SInit (TInt U32) (ECst U32 4294967295))
    (SSeq (SIf (EBin Ne (ECast (TPtr TVoid) (ECst I32 0)) (ELv (LVar 3 (TPtr (TInt U32)))))
     (SSet (LVar 6 (TInt U32)) (ELv (LDeref (ELv (LVar 3 (TPtr (TInt U32)))))))
     SSkip)
    (SSeq (SIf (ELv (LVar 2 (TInt IBool)))
     (SSeq (SSet (LVar 4 (TInt IBool)) (ECst I32 1))
     (SSet (LVar 5 (TInt IBool)) (ECst I32 1)))
     SSkip)
    (SReturn (ECall c_Crc32Base (ECons (EData U32 c_Crc32_d_crc_table) (ECons (ELv (LVar 0 (TPtr (TInt U8)))) (ECons (ELv (LVar 1 (TInt U32))) (ECons (ELv (LVar 6 (TInt U32))) (ECons (ECst U32 4294967295) (ECons (ELv (LVar 4 (TInt IBool))) (ECons (ECst I32 1) (ECons (ELv (LVar 5 (TInt IBool))) ENil))))))))))))))).

(** crc/crc32_variants/crc32_jamcrc.c:53, a constant array *)
Definition c_Crc32_jamcrc_crc_table : list Z :=
  [0; 79764919; 159529838; 222504665; 319059676; 398814059; 445009330; 507990021; 
       638119352; 583659535; 797628118; 726387553; 890018660; 835552979; 1015980042; 
       944750013; 1276238704; 1221641927; 1167319070; 1095957929; 1595256236; 1540665371; 
       1452775106; 1381403509; 1780037320; 1859660671; 1671105958; 1733955601; 2031960084; 
       2111593891; 1889500026; 1952343757; 2552477408; 2632100695; 2443283854; 2506133561; 
       2334638140; 2414271883; 2191915858; 2254759653; 3190512472; 3135915759; 3081330742; 
       3009969537; 2905550212; 2850959411; 2762807018; 2691435357; 3560074640; 3505614887; 
       3719321342; 3648080713; 3342211916; 3287746299; 3467911202; 3396681109; 4063920168; 
       4143685023; 4223187782; 4286162673; 3779000052; 3858754371; 3904687514; 3967668269; 
       881225847; 809987520; 1023691545; 969234094; 662832811; 591600412; 771767749; 
       717299826; 311336399; 374308984; 453813921; 533576470; 25881363; 88864420; 
       134795389; 214552010; 2023205639; 2086057648; 1897238633; 1976864222; 1804852699; 
       1867694188; 1645340341; 1724971778; 1587496639; 1516133128; 1461550545; 1406951526; 
       1302016099; 1230646740; 1142491917; 1087903418; 2896545431; 2825181984; 2770861561; 
       2716262478; 3215044683; 3143675388; 3055782693; 3001194130; 2326604591; 2389456536; 
       2200899649; 2280525302; 2578013683; 2640855108; 2418763421; 2498394922; 3769900519; 
       3832873040; 3912640137; 3992402750; 4088425275; 4151408268; 4197601365; 4277358050; 
       3334271071; 3263032808; 3476998961; 3422541446; 3585640067; 3514407732; 3694837229; 
       3640369242; 1762451694; 1842216281; 1619975040; 1682949687; 2047383090; 2127137669; 
       1938468188; 2001449195; 1325665622; 1271206113; 1183200824; 1111960463; 1543535498; 
       1489069629; 1434599652; 1363369299; 622672798; 568075817; 748617968; 677256519; 
       907627842; 853037301; 1067152940; 995781531; 51762726; 131386257; 177728840; 
       240578815; 269590778; 349224269; 429104020; 491947555; 4046411278; 4126034873; 
       4172115296; 4234965207; 3794477266; 3874110821; 3953728444; 4016571915; 3609705398; 
       3555108353; 3735388376; 3664026991; 3290680682; 3236090077; 3449943556; 3378572211; 
       3174993278; 3120533705; 3032266256; 2961025959; 2923101090; 2868635157; 2813903052; 
       2742672763; 2604032198; 2683796849; 2461293480; 2524268063; 2284983834; 2364738477; 
       2175806836; 2238787779; 1569362073; 1498123566; 1409854455; 1355396672; 1317987909; 
       1246755826; 1192025387; 1137557660; 2072149281; 2135122070; 1912620623; 1992383480; 
       1753615357; 1816598090; 1627664531; 1707420964; 295390185; 358241886; 404320391; 
       483945776; 43990325; 106832002; 186451547; 266083308; 932423249; 861060070; 
       1041341759; 986742920; 613929101; 542559546; 756411363; 701822548; 3316196985; 
       3244833742; 3425377559; 3370778784; 3601682597; 3530312978; 3744426955; 3689838204; 
       3819031489; 3881883254; 3928223919; 4007849240; 4037393693; 4100235434; 4180117107; 
       4259748804; 2310601993; 2373574846; 2151335527; 2231098320; 2596047829; 2659030626; 
       2470359227; 2550115596; 2947551409; 2876312838; 2788305887; 2733848168; 3165939309; 
       3094707162; 3040238851; 2985771188].

(** crc/crc32_variants/crc32_jamcrc.c:45-109; parameters: crc_data_ptr, crc_length, final_crc, last_crc_ptr. *)
Definition c_Crc32_jamcrc : fundef :=
  FDef [TPtr (TInt U8); TInt U32; TInt IBool; TPtr (TInt U32)] (TInt U32)
    (SSeq (SInit (TInt IBool) (ECst I32 0))
    (SSeq (SInit (TInt U32) (ECst U32 4294967295))
    (SSeq (SIf (EBin Ne (ECast (TPtr TVoid) (ECst I32 0)) (ELv (LVar 3 (TPtr (TInt U32)))))
     (SSet (LVar 5 (TInt U32)) (ELv (LDeref (ELv (LVar 3 (TPtr (TInt U32)))))))
     SSkip)
    (SSeq (SIf (ELv (LVar 2 (TInt IBool)))
     (SSet (LVar 4 (TInt IBool)) (ECst I32 1))
     SSkip)
    (SReturn (ECall c_Crc32Base (ECons (EData U32 c_Crc32_jamcrc_crc_table) (ECons (ELv (LVar 0 (TPtr (TInt U8)))) (ECons (ELv (LVar 1 (TInt U32))) (ECons (ELv (LVar 5 (TInt U32))) (ECons (ECst U32 0) (ECons (ELv (LVar 4 (TInt IBool))) (ECons (ECst I32 1) (ECons (ECst I32 0) ENil)))))))))))))).

(** crc/crc32_variants/crc32_mpeg2.c:52, a constant array *)
Definition c_Crc32_mpeg2_crc_table : list Z :=
  [0; 79764919; 159529838; 222504665; 319059676; 398814059; 445009330; 507990021; 
       638119352; 583659535; 797628118; 726387553; 890018660; 835552979; 1015980042; 
       944750013; 1276238704; 1221641927; 1167319070; 1095957929; 1595256236; 1540665371; 
       1452775106; 1381403509; 1780037320; 1859660671; 1671105958; 1733955601; 2031960084; 
       2111593891; 1889500026; 1952343757; 2552477408; 2632100695; 2443283854; 2506133561; 
       2334638140; 2414271883; 2191915858; 2254759653; 3190512472; 3135915759; 3081330742; 
       3009969537; 2905550212; 2850959411; 2762807018; 2691435357; 3560074640; 3505614887; 
       3719321342; 3648080713; 3342211916; 3287746299; 3467911202; 3396681109; 4063920168; 
       4143685023; 4223187782; 4286162673; 3779000052; 3858754371; 3904687514; 3967668269; 
       881225847; 809987520; 1023691545; 969234094; 662832811; 591600412; 771767749; 
       717299826; 311336399; 374308984; 453813921; 533576470; 25881363; 88864420; 
       134795389; 214552010; 2023205639; 2086057648; 1897238633; 1976864222; 1804852699; 
       1867694188; 1645340341; 1724971778; 1587496639; 1516133128; 1461550545; 1406951526; 
       1302016099; 1230646740; 1142491917; 1087903418; 2896545431; 2825181984; 2770861561; 
       2716262478; 3215044683; 3143675388; 3055782693; 3001194130; 2326604591; 2389456536; 
       2200899649; 2280525302; 2578013683; 2640855108; 2418763421; 2498394922; 3769900519; 
       3832873040; 3912640137; 3992402750; 4088425275; 4151408268; 4197601365; 4277358050; 
       3334271071; 3263032808; 3476998961; 3422541446; 3585640067; 3514407732; 3694837229; 
       3640369242; 1762451694; 1842216281; 1619975040; 1682949687; 2047383090; 2127137669; 
       1938468188; 2001449195; 1325665622; 1271206113; 1183200824; 1111960463; 1543535498; 
       1489069629; 1434599652; 1363369299; 622672798; 568075817; 748617968; 677256519; 
       907627842; 853037301; 1067152940; 995781531; 51762726; 131386257; 177728840; 
       240578815; 269590778; 349224269; 429104020; 491947555; 4046411278; 4126034873; 
       4172115296; 4234965207; 3794477266; 3874110821; 3953728444; 4016571915; 3609705398; 
       3555108353; 3735388376; 3664026991; 3290680682; 3236090077; 3449943556; 3378572211; 
       3174993278; 3120533705; 3032266256; 2961025959; 2923101090; 2868635157; 2813903052; 
       2742672763; 2604032198; 2683796849; 2461293480; 2524268063; 2284983834; 2364738477; 
       2175806836; 2238787779; 1569362073; 1498123566; 1409854455; 1355396672; 1317987909; 
       1246755826; 1192025387; 1137557660; 2072149281; 2135122070; 1912620623; 1992383480; 
       1753615357; 1816598090; 1627664531; 1707420964; 295390185; 358241886; 404320391; 
       483945776; 43990325; 106832002; 186451547; 266083308; 932423249; 861060070; 
       1041341759; 986742920; 613929101; 542559546; 756411363; 701822548; 3316196985; 
       3244833742; 3425377559; 3370778784; 3601682597; 3530312978; 3744426955; 3689838204; 
       3819031489; 3881883254; 3928223919; 4007849240; 4037393693; 4100235434; 4180117107; 
       4259748804; 2310601993; 2373574846; 2151335527; 2231098320; 2596047829; 2659030626; 
       2470359227; 2550115596; 2947551409; 2876312838; 2788305887; 2733848168; 3165939309; 
       3094707162; 3040238851; 2985771188].

(** crc/crc32_variants/crc32_mpeg2.c:45-103; parameters: crc_data_ptr, crc_length, last_crc_ptr. *)
Definition c_Crc32_mpeg2 : fundef :=
  FDef [TPtr (TInt U8); TInt U32; TPtr (TInt U32)] (TInt U32)
    (SSeq (SInit (TInt U32) (ECst U32 4294967295))
    (SSeq (SIf (EBin Ne (ECast (TPtr TVoid) (ECst I32 0)) (ELv (LVar 2 (TPtr (TInt U32)))))
     (SSet (LVar 3 (TInt U32)) (ELv (LDeref (ELv (LVar 2 (TPtr (TInt U32)))))))
     SSkip)
    (SReturn (ECall c_Crc32Base (ECons (EData U32 c_Crc32_mpeg2_crc_table) (ECons (ELv (LVar 0 (TPtr (TInt U8)))) (ECons (ELv (LVar 1 (TInt U32))) (ECons (ELv (LVar 3 (TInt U32))) (ECons (ECst U32 0) (ECons (ECst I32 0) (ECons (ECst I32 0) (ECons (ECst I32 0) ENil)))))))))))).

(** crc/crc32_variants/crc32_posix.c:53, a constant array *)
Definition c_Crc32_posix_crc_table : list Z :=
  [0; 79764919; 159529838; 222504665; 319059676; 398814059; 445009330; 507990021; 
       638119352; 583659535; 797628118; 726387553; 890018660; 835552979; 1015980042; 
       944750013; 1276238704; 1221641927; 1167319070; 1095957929; 1595256236; 1540665371; 
       1452775106; 1381403509; 1780037320; 1859660671; 1671105958; 1733955601; 2031960084; 
       2111593891; 1889500026; 1952343757; 2552477408; 2632100695; 2443283854; 2506133561; 
       2334638140; 2414271883; 2191915858; 2254759653; 3190512472; 3135915759; 3081330742; 
       3009969537; 2905550212; 2850959411; 2762807018; 2691435357; 3560074640; 3505614887; 
       3719321342; 3648080713; 3342211916; 3287746299; 3467911202; 3396681109; 4063920168; 
       4143685023; 4223187782; 4286162673; 3779000052; 3858754371; 3904687514; 3967668269; 
       881225847; 809987520; 1023691545; 969234094; 662832811; 591600412; 771767749; 
       717299826; 311336399; 374308984; 453813921; 533576470; 25881363; 88864420; 
       134795389; 214552010; 2023205639; 2086057648; 1897238633; 1976864222; 1804852699; 
       1867694188; 1645340341; 1724971778; 1587496639; 1516133128; 1461550545; 1406951526; 
       1302016099; 1230646740; 1142491917; 1087903418; 2896545431; 2825181984; 2770861561; 
       2716262478; 3215044683; 3143675388; 3055782693; 3001194130; 2326604591; 2389456536; 
       2200899649; 2280525302; 2578013683; 2640855108; 2418763421; 2498394922; 3769900519; 
       3832873040; 3912640137; 3992402750; 4088425275; 4151408268; 4197601365; 4277358050; 
       3334271071; 3263032808; 3476998961; 3422541446; 3585640067; 3514407732; 3694837229; 
       3640369242; 1762451694; 1842216281; 1619975040; 1682949687; 2047383090; 2127137669; 
       1938468188; 2001449195; 1325665622; 1271206113; 1183200824; 1111960463; 1543535498; 
       1489069629; 1434599652; 1363369299; 622672798; 568075817; 748617968; 677256519; 
       907627842; 853037301; 1067152940; 995781531; 51762726; 131386257; 177728840; 
       240578815; 269590778; 349224269; 429104020; 491947555; 4046411278; 4126034873; 
       4172115296; 4234965207; 3794477266; 3874110821; 3953728444; 4016571915; 3609705398; 
       3555108353; 3735388376; 3664026991; 3290680682; 3236090077; 3449943556; 3378572211; 
       3174993278; 3120533705; 3032266256; 2961025959; 2923101090; 2868635157; 2813903052; 
       2742672763; 2604032198; 2683796849; 2461293480; 2524268063; 2284983834; 2364738477; 
       2175806836; 2238787779; 1569362073; 1498123566; 1409854455; 1355396672; 1317987909; 
       1246755826; 1192025387; 1137557660; 2072149281; 2135122070; 1912620623; 1992383480; 
       1753615357; 1816598090; 1627664531; 1707420964; 295390185; 358241886; 404320391; 
       483945776; 43990325; 106832002; 186451547; 266083308; 932423249; 861060070; 
       1041341759; 986742920; 613929101; 542559546; 756411363; 701822548; 3316196985; 
       3244833742; 3425377559; 3370778784; 3601682597; 3530312978; 3744426955; 3689838204; 
       3819031489; 3881883254; 3928223919; 4007849240; 4037393693; 4100235434; 4180117107; 
       4259748804; 2310601993; 2373574846; 2151335527; 2231098320; 2596047829; 2659030626; 
       2470359227; 2550115596; 2947551409; 2876312838; 2788305887; 2733848168; 3165939309; 
       3094707162; 3040238851; 2985771188].

(** crc/crc32_variants/crc32_posix.c:45-109; parameters: crc_data_ptr, crc_length, final_crc, last_crc_ptr. *)
Definition c_Crc32_posix : fundef :=
  FDef [TPtr (TInt U8); TInt U32; TInt IBool; TPtr (TInt U32)] (TInt U32)
    (SSeq (SInit (TInt IBool) (ECst I32 0))
    (SSeq (SInit (TInt U32) (ECst U32 0))
    (SSeq (SIf (EBin Ne (ECast (TPtr TVoid) (ECst I32 0)) (ELv (LVar 3 (TPtr (TInt U32)))))
     (SSet (LVar 5 (TInt U32)) (ELv (LDeref (ELv (LVar 3 (TPtr (TInt U32)))))))
     SSkip)
    (SSeq (SIf (ELv (LVar 2 (TInt IBool)))
     (SSet (LVar 4 (TInt IBool)) (ECst I32 1))
     SSkip)
    (SReturn (ECall c_Crc32Base (ECons (EData U32 c_Crc32_posix_crc_table) (ECons (ELv (LVar 0 (TPtr (TInt U8)))) (ECons (ELv (LVar 1 (TInt U32))) (ECons (ELv (LVar 5 (TInt U32))) (ECons (ECst U32 4294967295) (ECons (ECst I32 0) (ECons (ECst I32 0) (ECons (ELv (LVar 4 (TInt IBool))) ENil)))))))))))))).

(** crc/crc32_variants/crc32_q.c:52, a constant array *)
Definition c_Crc32_q_crc_table : list Z :=
  [0; 2168537515; 2210644733; 42107734; 2261173329; 126322170; 84215468; 2219067143; 
       2362231049; 227379362; 252644340; 2387495519; 168430936; 2336967923; 2311704485; 
       143166990; 2564346809; 429494802; 454758724; 2589610223; 505288680; 2673825347; 
       2648560917; 480023742; 336861872; 2505399067; 2547505229; 378968550; 2463293153; 
       328441674; 286333980; 2421185975; 2968577753; 833726322; 858989604; 2993841551; 
       909517448; 3078054691; 3052789877; 884253150; 1010577360; 3179114107; 3221220653; 
       1052683398; 3137006465; 1002154538; 960047484; 3094898903; 673723744; 2842260683; 
       2884368285; 715830838; 2934894897; 800043162; 757937100; 2892788327; 2766470249; 
       631619010; 656883348; 2791735103; 572667960; 2741205395; 2715941573; 547404654; 
       3768618009; 1642188210; 1667452644; 3793882959; 1717979208; 3878095331; 3852831413; 
       1692715806; 1819034896; 3979150523; 4021258221; 1861142086; 3937042753; 1810612458; 
       1768506300; 3894936087; 2021154720; 4181270027; 4223376733; 2063260918; 4273904625; 
       2147474010; 2105366796; 4231796903; 4105475753; 1979045634; 2004309076; 4130739711; 
       1920094968; 4080210771; 4054945797; 1894830510; 1347447488; 3507563371; 3549669437; 
       1389554070; 3600199313; 1473769274; 1431661676; 3558092231; 3701253065; 1574822498; 
       1600086324; 3726516383; 1515874200; 3675989555; 3650725221; 1490609358; 3364403577; 
       1237973202; 1263238020; 3389667887; 1313766696; 3473882243; 3448618965; 1288502910; 
       1145335920; 3305451995; 3347559053; 1187443494; 3263345697; 1136915850; 1094809308; 
       3221239671; 1073764761; 3242268722; 3284376420; 1115871951; 3334905288; 1200086115; 
       1157979957; 3292798622; 3435958416; 1301139771; 1326404205; 3461223366; 1242191041; 
       3410695530; 3385431612; 1216927639; 3638069792; 1503251339; 1528514781; 3663333750; 
       1579044465; 3747549146; 3722284172; 1553780007; 1410614057; 3579118210; 3621224916; 
       1452720255; 3537012600; 1402193619; 1360086405; 3494904878; 4042309440; 1907490539; 
       1932754365; 4067572758; 1983281937; 4151786170; 4126521836; 1958017095; 2084337225; 
       4252841954; 4294948020; 2126443807; 4210733592; 2075915187; 2033807589; 4168626510; 
       1747479801; 3915984210; 3958091268; 1789587375; 4008618152; 1873799427; 1831692885; 
       3966512126; 3840189936; 1705370715; 1730635533; 3865454246; 1646420385; 3814924298; 
       3789661020; 1621156599; 2694894976; 568431659; 593696637; 2720159446; 644223441; 
       2804371578; 2779108140; 618959495; 745282697; 2905431330; 2947538548; 787390431; 
       2863323352; 736860531; 694753829; 2821217166; 947390009; 3107538834; 3149644996; 
       989496687; 3200172648; 1073710019; 1031602325; 3158065470; 3031748400; 905285275; 
       930549197; 3057011814; 846334817; 3006483146; 2981218716; 821069879; 273691481; 
       2433839858; 2475946404; 315797519; 2526476040; 400012963; 357905909; 2484368478; 
       2627533392; 501070843; 526334125; 2652797190; 442121729; 2602270634; 2577005820; 
       416857431; 2290671840; 164208971; 189473309; 2315936694; 240002225; 2400150810; 
       2374886988; 214738919; 71576041; 2231724098; 2273831700; 113683135; 2189618616; 
       63155219; 21049157; 2147512046].

(** crc/crc32_variants/crc32_q.c:45-103; parameters: crc_data_ptr, crc_length, last_crc_ptr. *)
Definition c_Crc32_q : fundef :=
  FDef [TPtr (TInt U8); TInt U32; TPtr (TInt U32)] (TInt U32)
    (SSeq (SInit (TInt U32) (ECst U32 0))
    (SSeq (SIf (EBin Ne (ECast (TPtr TVoid) (ECst I32 0)) (ELv (LVar 2 (TPtr (TInt U32)))))
     (SSet (LVar 3 (TInt U32)) (ELv (LDeref (ELv (LVar 2 (TPtr (TInt U32)))))))
     SSkip)
    (SReturn (ECall c_Crc32Base (ECons (EData U32 c_Crc32_q_crc_table) (ECons (ELv (LVar 0 (TPtr (TInt U8)))) (ECons (ELv (LVar 1 (TInt U32))) (ECons (ELv (LVar 3 (TInt U32))) (ECons (ECst U32 0) (ECons (ECst I32 0) (ECons (ECst I32 0) (ECons (ECst I32 0) ENil)))))))))))).

(** crc/crc32_variants/crc32_xfer.c:52, a constant array *)
Definition c_Crc32_xfer_crc_table : list Z :=
  [0; 175; 350; 497; 700; 531; 994; 845; 1400; 1495; 1062; 1161; 1988; 1899; 1690; 
       1589; 2800; 2655; 2990; 2817; 2124; 2275; 2322; 2493; 3976; 3879; 3798; 3705; 3380; 
       3483; 3178; 3269; 5600; 5455; 5310; 5137; 5980; 6131; 5634; 5805; 4248; 4151; 4550; 
       4457; 4644; 4747; 4986; 5077; 7952; 8127; 7758; 7905; 7596; 7427; 7410; 7261; 6760; 
       6855; 6966; 7065; 6356; 6267; 6538; 6437; 11200; 11119; 10910; 10801; 10620; 10707; 
       10274; 10381; 11960; 11799; 12262; 12105; 11268; 11435; 11610; 11765; 8496; 8607; 
       8302; 8385; 9100; 8995; 8914; 8829; 9288; 9447; 9494; 9657; 9972; 9819; 10154; 
       9989; 15904; 16015; 16254; 16337; 15516; 15411; 15810; 15725; 15192; 15351; 14854; 
       15017; 14820; 14667; 14522; 14357; 13520; 13439; 13710; 13601; 13932; 14019; 14130; 
       14237; 12712; 12551; 12534; 12377; 13076; 13243; 12874; 13029; 22400; 22319; 22238; 
       22129; 21820; 21907; 21602; 21709; 21240; 21079; 21414; 21257; 20548; 20715; 20762; 
       20917; 23920; 24031; 23598; 23681; 24524; 24419; 24210; 24125; 22536; 22695; 22870; 
       23033; 23220; 23067; 23530; 23365; 16992; 17103; 17214; 17297; 16604; 16499; 16770; 
       16685; 18200; 18359; 17990; 18153; 17828; 17675; 17658; 17493; 18576; 18495; 18894; 
       18785; 18988; 19075; 19314; 19421; 19944; 19783; 19638; 19481; 20308; 20475; 19978; 
       20133; 31808; 31983; 32030; 32177; 32508; 32339; 32674; 32525; 31032; 31127; 30822; 
       30921; 31620; 31531; 31450; 31349; 30384; 30239; 30702; 30529; 29708; 29859; 30034; 
       30205; 29640; 29543; 29334; 29241; 29044; 29147; 28714; 28805; 27040; 26895; 26878; 
       26705; 27420; 27571; 27202; 27373; 27864; 27767; 28038; 27945; 28260; 28363; 28474; 
       28565; 25424; 25599; 25102; 25249; 25068; 24899; 24754; 24605; 26152; 26247; 26486; 
       26585; 25748; 25659; 26058; 25957].

(** crc/crc32_variants/crc32_xfer.c:45-103; parameters: crc_data_ptr, crc_length, last_crc_ptr. *)
Definition c_Crc32_xfer : fundef :=
  FDef [TPtr (TInt U8); TInt U32; TPtr (TInt U32)] (TInt U32)
    (SSeq (SInit (TInt U32) (ECst U32 0))
    (SSeq (SIf (EBin Ne (ECast (TPtr TVoid) (ECst I32 0)) (ELv (LVar 2 (TPtr (TInt U32)))))
     (SSet (LVar 3 (TInt U32)) (ELv (LDeref (ELv (LVar 2 (TPtr (TInt U32)))))))
     SSkip)
    (SReturn (ECall c_Crc32Base (ECons (EData U32 c_Crc32_xfer_crc_table) (ECons (ELv (LVar 0 (TPtr (TInt U8)))) (ECons (ELv (LVar 1 (TInt U32))) (ECons (ELv (LVar 3 (TInt U32))) (ECons (ECst U32 0) (ECons (ECst I32 0) (ECons (ECst I32 0) (ECons (ECst I32 0) ENil)))))))))))).
