(** The Atari template images shipped with the program, byte for byte: the files
    named below, written sector by sector without trailing zeros (sectors left
    out are zero).  The lists of sectors of the files on them are part of what
    is checked in [TemplAtari], not assumed. *)
From Verif Require Import Base TemplAtari.

(** /repo/atrcopy/templates/dos2sd.atr: 92176 bytes *)
Definition dos2sd_head : list Z := [150; 2; 128; 22; 128; 0; 0; 0; 0; 0; 0; 0; 0; 0; 0; 0].
Definition dos2sd_boot : list Z := padto 384 [].
Definition dos2sd_tab : tab := [
  (360, [2; 195; 2; 195; 2; 0; 0; 0; 0; 0; 15; 255; 255; 255; 255; 255; 255; 255; 255; 255; 255; 255; 255; 255; 255; 255; 255; 255; 255; 255; 255; 255; 255;
      255; 255; 255; 255; 255; 255; 255; 255; 255; 255; 255; 255; 255; 255; 255; 255; 255; 255; 255; 255; 255; 255; 0; 127; 255; 255; 255; 255; 255;
      255; 255; 255; 255; 255; 255; 255; 255; 255; 255; 255; 255; 255; 255; 255; 255; 255; 255; 255; 255; 255; 255; 255; 255; 255; 255; 255; 255; 255;
      255; 255; 255; 255; 255; 255; 255; 255; 255])].
Definition dos2sd : list Z := atr_image 128 720 dos2sd_head dos2sd_boot dos2sd_tab.
Definition dos2sd_files : list (list Z) := [].

(** /repo/atrcopy/templates/dos2sd+2.0s.atr: 92176 bytes *)
Definition dos2sd_20s_head : list Z := [150; 2; 128; 22; 128; 0; 0; 0; 0; 0; 0; 0; 0; 0; 0; 0].
Definition dos2sd_20s_boot : list Z := padto 384 [0; 3; 0; 7; 64; 21; 76; 20; 7; 3; 3; 0; 124; 26; 1; 4; 0; 125; 203; 7; 172; 14; 7; 240; 54; 173; 18; 7; 133; 67; 141; 4; 3; 173; 19; 7; 133; 68; 141;
      5; 3; 173; 16; 7; 172; 15; 7; 24; 174; 14; 7; 32; 108; 7; 48; 23; 172; 17; 7; 177; 67; 41; 3; 72; 200; 17; 67; 240; 14; 177; 67; 168; 32; 87; 7;
      104; 76; 47; 7; 169; 192; 208; 1; 104; 10; 168; 96; 24; 165; 67; 109; 17; 7; 141; 4; 3; 133; 67; 165; 68; 105; 0; 141; 5; 3; 133; 68; 96; 141;
      11; 3; 140; 10; 3; 169; 82; 160; 64; 144; 4; 169; 87; 160; 128; 141; 2; 3; 140; 3; 3; 169; 49; 160; 15; 141; 0; 3; 140; 6; 3; 169; 3; 141; 255;
      18; 169; 0; 160; 128; 202; 240; 4; 169; 1; 160; 0; 141; 9; 3; 140; 8; 3; 32; 89; 228; 16; 29; 206; 255; 18; 48; 24; 162; 64; 169; 82; 205; 2; 3;
      240; 9; 169; 33; 205; 2; 3; 240; 2; 162; 128; 142; 3; 3; 76; 162; 7; 174; 1; 19; 173; 3; 3; 96; 170; 8; 20; 11; 190; 10; 203; 9; 0; 11; 166; 11;
      7; 133; 68; 173; 10; 7; 141; 214; 18; 173; 12; 7; 133; 67; 173; 13; 7; 133; 68; 173; 10; 7; 141; 12; 19; 162; 7; 142; 13; 19; 14; 12; 19; 176;
      13; 169; 0; 157; 17; 19; 157; 41; 19; 157; 49; 19; 240; 54; 160; 5; 169; 0; 145; 67; 232; 142; 1; 3; 169; 83; 141; 2; 3; 32; 83; 228; 160; 2;
      173; 234; 2; 41; 32; 208; 1; 136; 152; 174; 13; 19; 157; 17; 19; 165; 67; 157; 41; 19; 165; 68; 157; 49; 19; 32; 112; 8; 136; 240; 3; 32; 112; 8;
      202; 16; 178; 172; 9; 7; 162; 0; 169; 0; 136; 16; 1; 152; 157; 25; 19; 152; 48; 13; 165; 67; 157; 57; 19; 165; 68; 157; 73; 19; 32; 112; 8; 232;
      224; 16; 208; 226; 165; 67; 141; 231; 2; 165; 68; 141; 232; 2; 76; 126; 8; 24; 165; 67; 105; 128; 133; 67; 165; 68; 105; 0; 133; 68; 96; 160;
      127].
Definition dos2sd_20s_tab : tab := [
  (4, [170; 8; 20; 11; 190; 10; 203; 9; 0; 11; 166; 11; 7; 133; 68; 173; 10; 7; 141; 214; 18; 173; 12; 7; 133; 67; 173; 13; 7; 133; 68; 173; 10; 7; 141; 12;
      19; 162; 7; 142; 13; 19; 14; 12; 19; 176; 13; 169; 0; 157; 17; 19; 157; 41; 19; 157; 49; 19; 240; 54; 160; 5; 169; 0; 145; 67; 232; 142; 1; 3;
      169; 83; 141; 2; 3; 32; 83; 228; 160; 2; 173; 234; 2; 41; 32; 208; 1; 136; 152; 174; 13; 19; 157; 17; 19; 165; 67; 157; 41; 19; 165; 68; 157; 49;
      19; 32; 112; 8; 136; 240; 3; 32; 112; 8; 202; 16; 178; 172; 9; 7; 162; 0; 169; 0; 136; 0; 5; 125]);
  (5, [16; 1; 152; 157; 25; 19; 152; 48; 13; 165; 67; 157; 57; 19; 165; 68; 157; 73; 19; 32; 112; 8; 232; 224; 16; 208; 226; 165; 67; 141; 231; 2; 165; 68;
      141; 232; 2; 76; 126; 8; 24; 165; 67; 105; 128; 133; 67; 165; 68; 105; 0; 133; 68; 96; 160; 127; 169; 0; 153; 129; 19; 136; 208; 250; 160; 0;
      185; 26; 3; 240; 12; 201; 68; 240; 8; 200; 200; 200; 192; 30; 208; 240; 0; 169; 68; 153; 26; 3; 169; 203; 153; 27; 3; 169; 7; 153; 28; 3; 96; 32;
      100; 17; 32; 158; 14; 189; 74; 3; 157; 130; 19; 41; 2; 240; 3; 76; 173; 13; 32; 33; 15; 8; 189; 130; 19; 0; 6; 125]);
  (6, [201; 4; 240; 15; 201; 8; 240; 68; 201; 12; 240; 12; 201; 9; 240; 23; 76; 191; 18; 40; 176; 14; 144; 6; 40; 176; 9; 32; 172; 12; 32; 174; 9; 76; 240;
      18; 76; 187; 18; 40; 176; 250; 172; 5; 19; 185; 1; 20; 41; 2; 240; 21; 32; 172; 12; 32; 191; 16; 32; 6; 17; 157; 142; 19; 189; 139; 19; 157; 141;
      19; 76; 124; 9; 76; 183; 18; 40; 176; 9; 32; 83; 12; 172; 5; 19; 76; 72; 9; 173; 2; 19; 48; 112; 141; 6; 19; 32; 110; 16; 173; 3; 19; 141; 5; 19;
      173; 4; 19; 141; 7; 19; 32; 191; 16; 172; 5; 19; 162; 10; 169; 32; 153; 6; 20; 200; 0; 7; 125]);
  (7, [202; 16; 249; 174; 1; 19; 32; 6; 17; 172; 5; 19; 153; 5; 20; 189; 139; 19; 153; 4; 20; 169; 67; 153; 1; 20; 169; 0; 153; 3; 20; 153; 2; 20; 162; 0;
      189; 89; 19; 201; 63; 240; 3; 153; 6; 20; 200; 232; 224; 11; 144; 240; 174; 1; 19; 32; 113; 16; 32; 149; 9; 32; 226; 15; 169; 128; 157; 133; 19;
      32; 155; 18; 208; 3; 76; 10; 18; 76; 240; 18; 32; 189; 18; 169; 0; 157; 133; 19; 173; 7; 19; 10; 10; 157; 129; 19; 169; 0; 157; 135; 19; 157;
      143; 19; 157; 144; 19; 96; 32; 149; 9; 172; 5; 19; 185; 1; 20; 41; 2; 157; 132; 19; 185; 4; 20; 0; 8; 125]);
  (8, [157; 139; 19; 185; 5; 20; 157; 140; 19; 32; 23; 16; 96; 141; 8; 19; 189; 65; 3; 133; 33; 32; 100; 17; 172; 0; 19; 185; 2; 1; 201; 223; 176; 4; 169; 0;
      133; 34; 189; 130; 19; 41; 8; 240; 45; 188; 135; 19; 152; 221; 134; 19; 144; 17; 32; 148; 15; 176; 34; 32; 31; 10; 160; 0; 176; 5; 177; 36; 141;
      8; 19; 254; 135; 19; 173; 8; 19; 145; 71; 169; 64; 29; 133; 19; 157; 133; 19; 76; 240; 18; 76; 191; 18; 76; 244; 18; 189; 133; 19; 16; 38; 48; 2;
      169; 0; 141; 16; 19; 165; 34; 41; 2; 240; 25; 32; 174; 10; 176; 20; 165; 36; 133; 71; 165; 37; 0; 9; 125]);
  (9, [133; 72; 173; 16; 19; 48; 9; 32; 15; 16; 144; 51; 176; 83; 56; 96; 173; 248; 18; 157; 135; 19; 168; 177; 71; 141; 9; 19; 200; 177; 71; 141; 10; 19;
      200; 177; 71; 141; 11; 19; 32; 148; 15; 172; 248; 18; 173; 9; 19; 145; 71; 200; 173; 10; 19; 145; 71; 200; 173; 11; 19; 145; 71; 24; 165; 71;
      125; 134; 19; 133; 71; 165; 72; 105; 0; 133; 72; 56; 165; 40; 253; 134; 19; 133; 40; 165; 41; 233; 0; 234; 133; 41; 32; 174; 10; 144; 161; 165;
      71; 133; 36; 165; 72; 133; 37; 188; 136; 19; 136; 32; 208; 17; 24; 96; 173; 254; 18; 201; 1; 208; 4; 165; 40; 48; 243; 0; 10; 125]);
  (10, [165; 41; 208; 239; 56; 96; 32; 100; 17; 189; 130; 19; 41; 2; 240; 3; 76; 185; 13; 189; 135; 19; 221; 134; 19; 144; 11; 32; 38; 10; 32; 15; 16; 144;
      240; 76; 244; 18; 168; 177; 71; 141; 8; 19; 200; 152; 157; 135; 19; 188; 139; 19; 208; 15; 188; 140; 19; 208; 10; 221; 134; 19; 144; 5; 169; 3;
      76; 211; 18; 76; 240; 18; 32; 100; 17; 32; 158; 14; 32; 33; 15; 176; 6; 32; 172; 12; 76; 240; 18; 76; 187; 18; 32; 100; 17; 189; 130; 19; 41; 8;
      240; 78; 62; 133; 19; 144; 81; 32; 171; 15; 32; 128; 11; 189; 144; 19; 72; 189; 143; 19; 72; 189; 130; 19; 41; 0; 11; 125]);
  (11, [1; 240; 23; 32; 174; 9; 32; 15; 16; 144; 251; 189; 141; 19; 157; 139; 19; 189; 142; 19; 157; 140; 19; 32; 179; 15; 172; 5; 19; 24; 104; 121; 2; 20;
      153; 2; 20; 104; 121; 3; 20; 153; 3; 20; 169; 66; 153; 1; 20; 32; 113; 16; 32; 149; 16; 169; 0; 157; 130; 19; 76; 234; 18; 62; 133; 19; 144; 243;
      32; 248; 15; 76; 109; 11; 189; 129; 19; 74; 74; 141; 7; 19; 32; 155; 11; 141; 6; 19; 32; 155; 11; 32; 157; 11; 10; 141; 5; 19; 76; 110; 16; 169;
      0; 160; 3; 30; 129; 19; 42; 136; 208; 249; 96; 32; 100; 17; 189; 66; 3; 201; 254; 240; 37; 201; 39; 0; 12; 125]);
  (12, [176; 30; 56; 233; 32; 144; 25; 10; 168; 185; 197; 11; 72; 185; 198; 11; 72; 96; 11; 216; 12; 49; 11; 210; 12; 123; 12; 130; 12; 185; 13; 2; 76; 191;
      18; 76; 24; 13; 32; 158; 14; 140; 13; 19; 32; 33; 15; 144; 3; 76; 187; 18; 32; 172; 12; 32; 155; 18; 208; 3; 32; 25; 18; 172; 13; 19; 32; 180;
      14; 32; 155; 18; 208; 15; 172; 5; 19; 185; 5; 20; 72; 185; 4; 20; 168; 104; 32; 83; 18; 162; 0; 172; 5; 19; 189; 89; 19; 201; 63; 240; 3; 153; 6;
      20; 200; 232; 224; 11; 144; 240; 174; 1; 19; 32; 113; 16; 32; 158; 14; 32; 49; 15; 144; 184; 76; 0; 13; 125]);
  (13, [234; 18; 32; 158; 14; 32; 33; 15; 176; 63; 32; 83; 12; 32; 155; 18; 208; 3; 32; 25; 18; 32; 113; 16; 32; 49; 15; 144; 237; 32; 149; 16; 76; 234; 18;
      32; 191; 16; 172; 5; 19; 32; 172; 12; 169; 128; 153; 1; 20; 32; 174; 9; 76; 108; 12; 32; 15; 16; 176; 6; 32; 197; 16; 76; 103; 12; 160; 5; 169;
      255; 145; 69; 96; 76; 187; 18; 169; 32; 141; 15; 19; 208; 5; 169; 0; 141; 15; 19; 32; 158; 14; 32; 33; 15; 144; 3; 76; 187; 18; 172; 5; 19; 185;
      1; 20; 41; 223; 13; 15; 19; 153; 1; 20; 32; 113; 16; 32; 49; 15; 144; 234; 76; 234; 18; 172; 0; 14; 125]);
  (14, [5; 19; 185; 1; 20; 41; 32; 208; 1; 96; 76; 193; 18; 189; 133; 19; 48; 65; 189; 77; 3; 221; 138; 19; 208; 8; 189; 76; 3; 221; 137; 19; 240; 30; 189;
      133; 19; 240; 8; 32; 248; 15; 169; 0; 157; 133; 19; 189; 77; 3; 157; 140; 19; 189; 76; 3; 157; 139; 19; 32; 23; 16; 176; 10; 189; 78; 3; 221;
      134; 19; 144; 5; 240; 3; 76; 195; 18; 157; 135; 19; 76; 240; 18; 76; 185; 18; 189; 135; 19; 157; 78; 3; 189; 137; 19; 157; 76; 3; 189; 138; 19;
      157; 77; 3; 76; 240; 18; 165; 72; 141; 5; 3; 165; 71; 141; 4; 3; 169; 33; 141; 2; 3; 169; 64; 141; 0; 15; 125]);
  (15, [3; 3; 174; 254; 18; 169; 49; 172; 70; 2; 32; 134; 7; 16; 25; 192; 144; 208; 18; 160; 0; 177; 71; 201; 255; 208; 7; 200; 177; 71; 201; 255; 240; 3; 76;
      181; 18; 76; 211; 18; 169; 0; 168; 145; 69; 200; 16; 251; 160; 0; 169; 2; 145; 69; 200; 169; 195; 145; 69; 200; 200; 145; 69; 169; 2; 136; 145;
      69; 200; 200; 145; 69; 160; 10; 169; 255; 145; 69; 200; 192; 100; 208; 249; 169; 15; 160; 10; 145; 69; 160; 55; 169; 0; 145; 69; 200; 169; 127;
      145; 69; 32; 149; 16; 169; 0; 168; 153; 1; 20; 200; 16; 250; 169; 7; 141; 6; 19; 32; 113; 16; 206; 6; 19; 16; 248; 0; 16; 125]);
  (16, [32; 25; 18; 76; 234; 18; 169; 0; 141; 15; 19; 32; 33; 15; 144; 44; 176; 48; 44; 15; 19; 48; 83; 172; 15; 19; 177; 71; 141; 8; 19; 238; 15; 19; 201;
      155; 208; 9; 192; 17; 176; 8; 169; 128; 141; 15; 19; 76; 240; 18; 169; 0; 141; 15; 19; 32; 49; 15; 176; 6; 32; 33; 14; 76; 240; 18; 32; 139; 16;
      160; 4; 177; 69; 72; 136; 177; 69; 168; 104; 32; 87; 14; 160; 3; 162; 12; 189; 20; 14; 145; 71; 200; 202; 16; 247; 32; 103; 14; 169; 0; 141; 15;
      19; 76; 234; 18; 76; 244; 18; 83; 82; 79; 84; 67; 69; 83; 32; 69; 69; 82; 70; 32; 160; 0; 169; 0; 17; 125]);
  (17, [32; 145; 71; 174; 5; 19; 189; 1; 20; 41; 32; 240; 4; 169; 42; 145; 71; 200; 169; 32; 145; 71; 200; 189; 6; 20; 145; 71; 232; 200; 192; 13; 144; 245;
      169; 32; 145; 71; 200; 140; 15; 19; 174; 5; 19; 188; 2; 20; 189; 3; 20; 162; 100; 32; 113; 14; 162; 10; 32; 113; 14; 152; 32; 141; 14; 160; 17;
      169; 155; 145; 71; 160; 0; 140; 15; 19; 96; 142; 14; 19; 162; 255; 141; 13; 19; 140; 12; 19; 232; 56; 173; 12; 19; 237; 14; 19; 168; 173; 13; 19;
      233; 0; 176; 234; 138; 9; 48; 172; 15; 19; 145; 71; 238; 15; 19; 173; 13; 19; 172; 12; 19; 96; 189; 68; 3; 0; 18; 125]);
  (18, [133; 67; 189; 69; 3; 133; 68; 160; 2; 177; 67; 136; 48; 88; 201; 58; 208; 247; 200; 162; 11; 169; 32; 157; 89; 19; 202; 16; 250; 162; 0; 142; 12; 19;
      200; 177; 67; 201; 42; 208; 11; 169; 63; 32; 10; 15; 144; 249; 16; 240; 48; 46; 201; 46; 208; 12; 44; 12; 19; 48; 37; 162; 8; 110; 12; 19; 144;
      222; 201; 63; 240; 20; 201; 65; 144; 4; 201; 91; 144; 12; 224; 0; 240; 18; 201; 48; 144; 10; 201; 58; 176; 6; 32; 10; 15; 76; 195; 14; 174; 1;
      19; 96; 76; 197; 18; 224; 8; 144; 13; 240; 5; 224; 12; 144; 7; 96; 44; 12; 19; 48; 1; 96; 157; 89; 19; 0; 19; 125]);
  (19, [232; 24; 96; 169; 255; 141; 2; 19; 141; 6; 19; 141; 7; 19; 169; 112; 141; 5; 19; 238; 7; 19; 24; 173; 5; 19; 105; 16; 16; 17; 238; 6; 19; 169; 8; 205;
      6; 19; 144; 2; 240; 72; 32; 110; 16; 169; 0; 141; 5; 19; 168; 185; 1; 20; 240; 29; 48; 27; 41; 1; 208; 213; 162; 0; 189; 89; 19; 201; 63; 240; 5;
      217; 6; 20; 208; 199; 232; 200; 224; 11; 208; 238; 24; 144; 29; 173; 2; 19; 16; 18; 173; 6; 19; 141; 2; 19; 173; 5; 19; 141; 3; 19; 173; 7; 19;
      141; 4; 19; 185; 1; 20; 48; 162; 56; 174; 1; 19; 96; 189; 133; 19; 48; 15; 10; 16; 0; 20; 125]);
  (20, [9; 10; 157; 133; 19; 32; 248; 15; 48; 36; 76; 15; 16; 32; 6; 17; 189; 135; 19; 172; 251; 18; 145; 71; 189; 140; 19; 29; 129; 19; 172; 248; 18; 145; 71;
      200; 189; 139; 19; 145; 71; 32; 248; 15; 16; 17; 173; 3; 3; 141; 15; 19; 169; 0; 157; 130; 19; 173; 15; 19; 76; 211; 18; 254; 143; 19; 208; 3;
      254; 144; 19; 32; 2; 16; 169; 0; 157; 139; 19; 157; 140; 19; 157; 135; 19; 173; 248; 18; 157; 134; 19; 24; 96; 56; 189; 138; 19; 188; 137; 19;
      76; 247; 17; 189; 139; 19; 157; 137; 19; 189; 140; 19; 157; 138; 19; 96; 189; 133; 19; 240; 3; 76; 148; 15; 189; 0; 21; 125]);
  (21, [139; 19; 29; 140; 19; 208; 2; 56; 96; 32; 2; 16; 24; 32; 249; 15; 48; 53; 172; 248; 18; 177; 71; 41; 252; 221; 129; 19; 208; 44; 177; 71; 41; 3; 157;
      140; 19; 200; 177; 71; 157; 139; 19; 200; 177; 71; 72; 189; 132; 19; 208; 8; 104; 48; 2; 169; 125; 41; 127; 72; 104; 157; 134; 19; 169; 0; 157;
      135; 19; 24; 96; 32; 229; 18; 189; 66; 3; 201; 33; 240; 3; 32; 199; 18; 56; 96; 24; 144; 1; 56; 8; 169; 20; 141; 5; 3; 169; 1; 141; 4; 3; 24;
      173; 6; 19; 105; 105; 168; 169; 1; 105; 0; 76; 171; 16; 160; 5; 177; 69; 240; 1; 96; 24; 144; 7; 0; 22; 125]);
  (22, [160; 5; 169; 0; 145; 69; 56; 8; 165; 70; 141; 5; 3; 165; 69; 141; 4; 3; 160; 104; 169; 1; 40; 174; 254; 18; 32; 108; 7; 48; 1; 96; 201; 131; 240; 3;
      76; 229; 18; 76; 201; 18; 32; 139; 16; 76; 149; 16; 189; 137; 19; 29; 138; 19; 240; 56; 169; 0; 160; 3; 94; 138; 19; 126; 137; 19; 106; 136; 208;
      246; 160; 5; 106; 136; 208; 252; 168; 169; 0; 56; 106; 136; 16; 252; 72; 189; 137; 19; 105; 10; 168; 104; 17; 69; 145; 69; 160; 3; 177; 69; 24;
      105; 1; 145; 69; 200; 177; 69; 105; 0; 145; 69; 96; 160; 9; 200; 192; 100; 176; 84; 177; 69; 240; 247; 140; 0; 23; 125]);
  (23, [12; 19; 72; 56; 160; 3; 177; 69; 233; 1; 145; 69; 200; 177; 69; 233; 0; 145; 69; 200; 169; 255; 145; 69; 104; 160; 255; 200; 10; 144; 252; 140; 13; 19;
      74; 136; 16; 252; 172; 12; 19; 145; 69; 56; 173; 12; 19; 233; 10; 160; 0; 140; 12; 19; 10; 46; 12; 19; 200; 192; 3; 144; 247; 24; 109; 13; 19;
      157; 139; 19; 173; 12; 19; 105; 0; 157; 140; 19; 96; 76; 203; 18; 169; 159; 133; 73; 142; 1; 19; 186; 232; 232; 142; 0; 19; 174; 1; 19; 164; 33;
      140; 1; 3; 136; 185; 41; 19; 133; 69; 185; 49; 19; 133; 70; 185; 17; 19; 240; 82; 141; 254; 18; 168; 185; 248; 0; 24; 125]);
  (24, [18; 141; 248; 18; 185; 251; 18; 141; 251; 18; 188; 136; 19; 136; 16; 49; 160; 0; 185; 25; 19; 240; 8; 200; 192; 16; 144; 246; 76; 205; 18; 173; 254;
      18; 74; 176; 16; 200; 192; 16; 176; 242; 185; 25; 19; 208; 232; 136; 169; 128; 153; 26; 19; 169; 128; 153; 25; 19; 152; 157; 136; 19; 254; 136;
      19; 185; 57; 19; 133; 71; 185; 73; 19; 133; 72; 96; 76; 207; 18; 188; 136; 19; 240; 19; 136; 169; 0; 157; 136; 19; 153; 25; 19; 173; 254; 18; 74;
      176; 4; 74; 153; 26; 19; 96; 72; 165; 71; 141; 4; 3; 165; 72; 141; 5; 3; 104; 174; 254; 18; 32; 108; 7; 96; 188; 137; 0; 25; 125]);
  (25, [19; 189; 138; 19; 32; 83; 18; 32; 103; 18; 76; 240; 18; 169; 0; 141; 14; 7; 169; 7; 141; 5; 3; 169; 0; 141; 4; 3; 169; 0; 141; 10; 3; 141; 11; 3; 238;
      10; 3; 162; 1; 56; 32; 114; 7; 24; 173; 4; 3; 105; 128; 141; 4; 3; 173; 5; 3; 105; 0; 141; 5; 3; 173; 10; 3; 205; 1; 7; 208; 222; 96; 140; 15; 7;
      141; 16; 7; 173; 254; 18; 141; 14; 7; 172; 248; 18; 140; 17; 7; 208; 180; 173; 18; 7; 133; 67; 173; 19; 7; 133; 68; 160; 0; 177; 67; 145; 71;
      200; 204; 248; 18; 144; 246; 152; 157; 135; 19; 32; 87; 7; 205; 13; 7; 144; 11; 0; 26; 125]);
  (26, [208; 15; 165; 67; 205; 12; 7; 144; 2; 208; 6; 32; 148; 15; 76; 113; 18; 96; 160; 11; 185; 88; 19; 217; 168; 18; 208; 3; 136; 208; 245; 96; 68; 79; 83;
      32; 32; 32; 32; 32; 83; 89; 83; 32; 230; 73; 230; 73; 230; 73; 230; 73; 230; 73; 230; 73; 230; 73; 230; 73; 230; 73; 230; 73; 230; 73; 230; 73;
      230; 73; 230; 73; 165; 73; 174; 1; 19; 157; 67; 3; 174; 0; 19; 154; 174; 1; 19; 168; 173; 8; 19; 96; 173; 3; 3; 48; 233; 174; 1; 19; 32; 222; 17;
      169; 1; 208; 223; 169; 136; 48; 219; 125; 125; 253; 127; 127; 255; 1; 3; 247; 16; 0; 0; 0; 0; 0; 27; 125]);
  (27, [0; 0; 155; 32; 72; 69; 0; 3; 10; 0; 192; 1; 1; 0; 0; 0; 0; 0; 0; 128; 0; 0; 255; 254; 253; 252; 251; 250; 249; 248; 247; 246; 245; 244; 243; 252; 124;
      0; 0; 0; 0; 0; 0; 26; 26; 0; 0; 0; 0; 0; 0; 124; 252; 124; 202; 0; 0; 68; 68; 79; 83; 32; 32; 32; 28; 28; 29; 27; 27; 28; 27; 0; 0; 0; 0; 0; 0;
      0; 0; 0; 68; 79; 83; 68; 79; 83; 32; 32; 32; 32; 32; 83; 89; 83; 32; 32; 0; 0; 0; 0; 0; 0; 0; 0; 0; 0; 0; 0; 0; 0; 0; 0; 0; 0; 0; 8; 0; 0; 128;
      125; 0; 0; 0; 0; 0; 0; 28; 125]);
  (28, [0; 0; 0; 0; 0; 0; 0; 0; 0; 0; 0; 0; 0; 0; 0; 8; 0; 0; 128; 125; 0; 1; 28; 0; 0; 0; 0; 0; 24; 0; 0; 0; 0; 0; 0; 0; 0; 0; 0; 0; 0; 0; 0; 0; 0; 0; 0; 0;
      0; 0; 0; 0; 0; 0; 0; 0; 0; 0; 0; 0; 0; 0; 0; 0; 0; 0; 0; 0; 0; 0; 0; 0; 0; 0; 0; 0; 0; 0; 0; 0; 0; 0; 0; 0; 0; 0; 0; 0; 0; 0; 0; 0; 0; 0; 0; 0;
      0; 0; 0; 0; 0; 0; 0; 0; 0; 0; 0; 0; 0; 0; 0; 0; 0; 0; 0; 0; 0; 0; 0; 0; 0; 0; 0; 0; 0; 0; 29; 125]);
  (29, [0; 67; 0; 0; 4; 0; 68; 79; 83; 32; 32; 32; 32; 32; 83; 89; 83; 0; 0; 0; 0; 0; 0; 0; 0; 0; 0; 0; 0; 0; 0; 0; 0; 0; 0; 0; 0; 0; 0; 0; 0; 0; 0; 0; 0; 0;
      0; 0; 0; 0; 0; 0; 0; 0; 0; 0; 0; 0; 0; 0; 0; 0; 0; 0; 0; 0; 0; 0; 0; 0; 0; 0; 0; 0; 0; 0; 0; 0; 0; 0; 0; 0; 0; 0; 0; 0; 0; 0; 0; 0; 0; 0; 0; 0;
      0; 0; 0; 0; 0; 0; 0; 0; 0; 0; 0; 0; 0; 0; 0; 0; 0; 0; 0; 0; 0; 0; 0; 0; 0; 0; 0; 0; 0; 0; 0; 0; 30; 125]);
  (30, [0; 0; 0; 0; 0; 0; 0; 0; 0; 0; 0; 0; 0; 0; 0; 0; 0; 0; 0; 0; 0; 0; 0; 0; 0; 0; 0; 0; 0; 0; 0; 0; 0; 0; 0; 0; 0; 0; 0; 0; 0; 0; 0; 0; 0; 0; 0; 0; 0; 0;
      0; 0; 0; 0; 0; 0; 0; 0; 0; 0; 0; 0; 0; 0; 0; 0; 0; 0; 0; 0; 0; 0; 0; 0; 0; 0; 0; 0; 0; 0; 0; 0; 0; 0; 0; 0; 32; 141; 22; 48; 21; 160; 0; 96; 169;
      3; 157; 66; 3; 169; 155; 157; 68; 3; 169; 20; 157; 69; 3; 76; 86; 228; 140; 252; 20; 32; 141; 22; 169; 33; 157; 66; 3; 32; 219; 0; 31; 125]);
  (31, [20; 160; 0; 96; 76; 86; 169; 0; 141; 85; 21; 169; 81; 133; 10; 169; 23; 133; 11; 169; 154; 141; 10; 2; 169; 25; 141; 11; 2; 169; 93; 141; 12; 2; 169;
      25; 141; 13; 2; 32; 224; 7; 165; 8; 208; 21; 169; 192; 141; 84; 3; 169; 22; 141; 85; 3; 32; 74; 21; 169; 192; 32; 93; 21; 76; 33; 25; 173; 84;
      21; 169; 0; 141; 158; 21; 169; 159; 133; 10; 169; 23; 133; 11; 169; 35; 141; 10; 2; 169; 26; 141; 11; 2; 169; 230; 141; 12; 2; 169; 25; 141; 13;
      2; 32; 224; 7; 165; 8; 208; 21; 169; 12; 141; 84; 3; 169; 23; 141; 85; 3; 32; 147; 21; 169; 192; 0; 32; 125]);
  (32, [32; 166; 21; 76; 170; 25; 173; 157; 21; 240; 17; 173; 158; 23; 240; 18; 32; 63; 25; 32; 46; 25; 32; 147; 21; 32; 116; 228; 169; 0; 141; 157; 21; 96;
      133; 8; 240; 246; 255; 0; 0; 224; 2; 225; 2; 169; 128; 141; 159; 21; 169; 71; 141; 224; 2; 169; 22; 141; 225; 2; 162; 16; 169; 3; 157; 66; 3;
      169; 4; 157; 74; 3; 32; 86; 228; 16; 4; 169; 1; 208; 126; 162; 16; 169; 244; 157; 68; 3; 169; 29; 157; 69; 3; 169; 2; 157; 72; 3; 169; 0; 157;
      73; 3; 141; 11; 23; 169; 7; 157; 66; 3; 32; 86; 228; 48; 100; 169; 255; 205; 244; 29; 208; 86; 205; 245; 0; 33; 125]);
  (33, [29; 208; 81; 162; 16; 169; 160; 157; 68; 3; 169; 21; 157; 69; 3; 169; 4; 157; 72; 3; 169; 0; 157; 73; 3; 32; 86; 228; 16; 70; 192; 136; 208; 57; 32;
      170; 25; 44; 158; 21; 48; 3; 32; 8; 23; 169; 0; 44; 159; 21; 141; 159; 21; 48; 27; 32; 115; 24; 48; 5; 104; 104; 76; 184; 23; 173; 157; 21; 208;
      10; 169; 27; 162; 23; 32; 190; 25; 76; 1; 24; 169; 0; 170; 96; 32; 170; 25; 169; 3; 208; 247; 152; 72; 32; 170; 25; 104; 168; 208; 238; 162; 16;
      173; 160; 21; 157; 68; 3; 72; 173; 161; 21; 157; 69; 3; 168; 104; 200; 208; 31; 168; 200; 208; 27; 173; 0; 34; 125]);
  (34, [162; 21; 141; 160; 21; 173; 163; 21; 141; 161; 21; 169; 162; 157; 68; 3; 169; 21; 157; 69; 3; 169; 2; 76; 5; 22; 173; 162; 21; 56; 237; 160; 21; 157;
      72; 3; 173; 163; 21; 237; 161; 21; 157; 73; 3; 173; 161; 21; 32; 250; 22; 176; 21; 173; 163; 21; 32; 250; 22; 176; 13; 173; 11; 23; 48; 8; 169;
      128; 13; 159; 21; 141; 159; 21; 254; 72; 3; 208; 3; 254; 73; 3; 44; 159; 21; 48; 19; 173; 11; 23; 48; 14; 206; 11; 23; 32; 57; 25; 169; 0; 141;
      157; 21; 32; 46; 25; 162; 16; 169; 71; 141; 226; 2; 169; 22; 141; 227; 2; 32; 86; 228; 16; 3; 76; 79; 0; 35; 125]);
  (35, [22; 44; 158; 21; 48; 3; 32; 5; 23; 76; 247; 21; 201; 29; 144; 6; 201; 52; 42; 73; 1; 74; 96; 108; 226; 2; 108; 224; 2; 0; 68; 49; 58; 65; 85; 84; 79;
      82; 85; 78; 46; 83; 89; 83; 155; 78; 69; 69; 68; 32; 77; 69; 77; 46; 83; 65; 86; 32; 84; 79; 32; 76; 79; 65; 68; 32; 84; 72; 73; 83; 32; 70; 73;
      76; 69; 46; 155; 68; 49; 58; 77; 69; 77; 46; 83; 65; 86; 155; 32; 170; 25; 169; 8; 157; 74; 3; 32; 121; 23; 48; 56; 169; 11; 157; 66; 3; 169;
      124; 157; 68; 3; 169; 29; 157; 69; 3; 169; 138; 157; 72; 3; 169; 21; 157; 73; 0; 36; 125]);
  (36, [3; 32; 86; 228; 48; 26; 32; 170; 25; 48; 21; 160; 0; 96; 169; 3; 157; 66; 3; 169; 59; 157; 68; 3; 169; 23; 157; 69; 3; 76; 86; 228; 140; 154; 23; 32;
      170; 25; 169; 33; 157; 66; 3; 32; 121; 23; 160; 0; 96; 64; 21; 0; 162; 0; 142; 158; 23; 142; 159; 21; 202; 134; 8; 32; 118; 25; 32; 115; 24; 16;
      6; 169; 0; 133; 8; 240; 63; 32; 70; 23; 48; 5; 206; 158; 23; 48; 53; 169; 58; 162; 24; 32; 190; 25; 169; 91; 162; 24; 32; 190; 25; 169; 5; 141;
      66; 3; 169; 0; 141; 68; 3; 169; 1; 141; 69; 3; 169; 2; 141; 72; 3; 169; 0; 141; 73; 0; 37; 125]);
  (37, [3; 32; 86; 228; 173; 0; 1; 201; 89; 208; 56; 169; 0; 133; 8; 162; 32; 169; 12; 157; 66; 3; 32; 86; 228; 165; 12; 141; 156; 23; 165; 13; 141; 157; 23;
      169; 64; 133; 12; 169; 21; 133; 13; 169; 47; 162; 16; 157; 68; 3; 169; 24; 157; 69; 3; 160; 0; 140; 158; 21; 136; 140; 157; 21; 32; 164; 21; 96;
      69; 58; 155; 68; 49; 58; 68; 85; 80; 46; 83; 89; 83; 155; 69; 82; 82; 79; 82; 45; 83; 65; 86; 73; 78; 71; 32; 85; 83; 69; 82; 32; 77; 69; 77; 79;
      82; 89; 32; 79; 78; 32; 68; 73; 83; 75; 155; 84; 89; 80; 69; 32; 89; 32; 84; 79; 32; 0; 38; 125]);
  (38, [83; 84; 73; 76; 76; 32; 82; 85; 78; 32; 68; 79; 83; 155; 32; 180; 25; 169; 3; 157; 66; 3; 169; 59; 157; 68; 3; 169; 23; 157; 69; 3; 169; 12; 157; 74;
      3; 32; 86; 228; 8; 32; 180; 25; 40; 96; 169; 0; 240; 3; 32; 57; 25; 162; 16; 32; 86; 228; 169; 0; 240; 26; 238; 160; 24; 173; 226; 2; 141; 228;
      25; 173; 227; 2; 141; 229; 25; 169; 226; 170; 141; 224; 25; 169; 2; 32; 239; 24; 169; 0; 240; 26; 238; 190; 24; 173; 224; 2; 141; 228; 25; 173;
      225; 2; 141; 229; 25; 169; 224; 170; 141; 224; 25; 169; 2; 32; 239; 24; 32; 170; 25; 173; 158; 23; 45; 0; 39; 125]);
  (39, [148; 24; 240; 6; 238; 148; 24; 76; 19; 24; 76; 117; 32; 141; 225; 25; 232; 142; 226; 25; 141; 227; 25; 162; 16; 169; 224; 157; 68; 3; 169; 25; 157; 69;
      3; 169; 6; 157; 72; 3; 169; 0; 157; 73; 3; 76; 86; 228; 32; 57; 25; 169; 0; 141; 157; 21; 32; 46; 25; 108; 250; 191; 32; 57; 25; 169; 0; 141;
      157; 21; 32; 46; 25; 108; 26; 0; 173; 156; 23; 133; 12; 173; 157; 23; 133; 13; 96; 173; 158; 23; 208; 1; 96; 32; 115; 24; 16; 6; 169; 0; 133; 8;
      240; 36; 169; 3; 157; 66; 3; 32; 86; 228; 169; 7; 157; 66; 3; 169; 138; 157; 72; 3; 169; 21; 157; 0; 40; 125]);
  (40, [73; 3; 169; 124; 157; 68; 3; 169; 29; 157; 69; 3; 32; 86; 228; 169; 12; 157; 66; 3; 76; 86; 228; 32; 110; 228; 162; 0; 169; 3; 157; 66; 3; 169; 44;
      157; 68; 3; 169; 24; 157; 69; 3; 169; 12; 157; 74; 3; 32; 86; 228; 162; 0; 142; 28; 2; 142; 29; 2; 160; 1; 169; 3; 141; 42; 2; 32; 92; 228; 173;
      42; 2; 208; 251; 96; 169; 12; 162; 16; 157; 66; 3; 32; 86; 228; 162; 32; 169; 12; 157; 66; 3; 76; 86; 228; 141; 68; 3; 142; 69; 3; 169; 128; 141;
      72; 3; 162; 0; 142; 73; 3; 169; 9; 141; 66; 3; 173; 157; 21; 208; 3; 76; 86; 228; 76; 0; 41; 125]);
  (41, [170; 49; 255; 255; 224; 2; 225; 2; 117; 32; 152; 72; 230; 50; 208; 2; 230; 51; 165; 50; 197; 52; 165; 51; 229; 53; 144; 26; 165; 59; 208; 9; 165; 49;
      141; 13; 210; 198; 59; 208; 9; 165; 16; 9; 8; 133; 16; 141; 14; 210; 104; 168; 104; 64; 160; 0; 177; 50; 141; 13; 210; 24; 101; 49; 105; 0; 133;
      49; 76; 14; 26; 152; 72; 173; 15; 210; 141; 10; 210; 48; 4; 160; 140; 132; 48; 41; 32; 208; 4; 160; 142; 132; 48; 165; 56; 240; 19; 173; 13; 210;
      197; 49; 240; 4; 160; 143; 132; 48; 169; 255; 133; 57; 104; 168; 104; 64; 173; 13; 210; 160; 0; 145; 50; 24; 101; 0; 42; 125]);
  (42, [49; 105; 0; 133; 49; 230; 50; 208; 2; 230; 51; 165; 50; 197; 52; 165; 51; 229; 53; 144; 222; 165; 60; 240; 6; 169; 0; 133; 60; 240; 208; 198; 56; 208;
      208; 0; 0; 0; 0; 0; 0; 0; 0; 0; 0; 0; 0; 0; 0; 0; 0; 0; 0; 0; 0; 0; 0; 0; 0; 0; 0; 0; 0; 0; 0; 0; 0; 0; 0; 0; 0; 0; 0; 0; 0; 0; 0; 0; 0; 0; 0; 0;
      0; 0; 0; 0; 0; 0; 0; 0; 0; 0; 0; 0; 0; 0; 0; 0; 0; 0; 0; 0; 0; 0; 0; 0; 0; 0; 0; 0; 0; 0; 0; 0; 0; 0; 0; 0; 0; 0; 0; 0; 0; 0; 0; 0; 0; 125]);
  (43, [255; 255; 12; 31; 5; 51; 69; 58; 155; 125; 68; 73; 83; 75; 32; 79; 80; 69; 82; 65; 84; 73; 78; 71; 32; 83; 89; 83; 84; 69; 77; 32; 73; 73; 32; 86; 69;
      82; 83; 73; 79; 78; 32; 50; 46; 48; 83; 155; 67; 79; 80; 89; 82; 73; 71; 72; 84; 32; 49; 57; 56; 48; 32; 65; 84; 65; 82; 73; 155; 155; 65; 46;
      32; 68; 73; 83; 75; 32; 68; 73; 82; 69; 67; 84; 79; 82; 89; 32; 73; 46; 32; 70; 79; 82; 77; 65; 84; 32; 68; 73; 83; 75; 155; 66; 46; 32; 82; 85;
      78; 32; 67; 65; 82; 84; 82; 73; 68; 71; 69; 32; 32; 74; 46; 32; 68; 4; 44; 125]);
  (44, [85; 80; 76; 73; 67; 65; 84; 69; 32; 68; 73; 83; 75; 155; 67; 46; 32; 67; 79; 80; 89; 32; 70; 73; 76; 69; 32; 32; 32; 32; 32; 32; 75; 46; 32; 66; 73;
      78; 65; 82; 89; 32; 83; 65; 86; 69; 155; 68; 46; 32; 68; 69; 76; 69; 84; 69; 32; 70; 73; 76; 69; 40; 83; 41; 32; 76; 46; 32; 66; 73; 78; 65; 82;
      89; 32; 76; 79; 65; 68; 155; 69; 46; 32; 82; 69; 78; 65; 77; 69; 32; 70; 73; 76; 69; 32; 32; 32; 32; 77; 46; 32; 82; 85; 78; 32; 65; 84; 32; 65;
      68; 68; 82; 69; 83; 83; 155; 70; 46; 32; 76; 79; 67; 75; 32; 70; 4; 45; 125]);
  (45, [73; 76; 69; 32; 32; 32; 32; 32; 32; 78; 46; 32; 67; 82; 69; 65; 84; 69; 32; 77; 69; 77; 46; 83; 65; 86; 155; 71; 46; 32; 85; 78; 76; 79; 67; 75; 32;
      70; 73; 76; 69; 32; 32; 32; 32; 79; 46; 32; 68; 85; 80; 76; 73; 67; 65; 84; 69; 32; 70; 73; 76; 69; 155; 72; 46; 32; 87; 82; 73; 84; 69; 32; 68;
      79; 83; 32; 70; 73; 76; 69; 83; 155; 29; 29; 29; 29; 29; 57; 33; 238; 38; 120; 35; 201; 33; 55; 38; 112; 41; 152; 41; 217; 39; 128; 38; 88; 42;
      46; 47; 26; 41; 76; 39; 154; 39; 30; 45; 162; 255; 216; 134; 17; 232; 142; 159; 4; 46; 125]);
  (46, [21; 169; 2; 133; 82; 169; 39; 133; 83; 165; 16; 9; 128; 133; 16; 141; 14; 210; 32; 118; 25; 169; 15; 141; 244; 30; 169; 87; 133; 24; 169; 32; 133; 25;
      169; 15; 141; 68; 3; 169; 31; 141; 69; 3; 169; 72; 141; 72; 3; 169; 1; 141; 73; 3; 32; 163; 49; 162; 255; 154; 232; 142; 65; 35; 169; 26; 162;
      33; 32; 190; 25; 169; 64; 141; 190; 2; 32; 126; 48; 201; 155; 240; 207; 56; 233; 65; 48; 46; 205; 244; 30; 16; 41; 10; 168; 177; 24; 200; 133;
      26; 177; 24; 133; 27; 160; 1; 177; 26; 170; 136; 177; 26; 32; 181; 49; 32; 187; 49; 165; 26; 24; 105; 2; 133; 26; 4; 47; 125]);
  (47, [165; 27; 105; 0; 133; 27; 108; 26; 0; 169; 13; 162; 33; 32; 181; 49; 76; 182; 32; 78; 79; 32; 83; 85; 67; 72; 32; 73; 84; 69; 77; 155; 83; 69; 76; 69;
      67; 84; 32; 73; 84; 69; 77; 32; 79; 82; 32; 210; 197; 212; 213; 210; 206; 32; 70; 79; 82; 32; 77; 69; 78; 85; 155; 167; 33; 32; 207; 48; 32; 196;
      46; 174; 1; 31; 169; 155; 157; 123; 29; 189; 122; 29; 201; 58; 208; 24; 169; 42; 157; 123; 29; 157; 125; 29; 169; 46; 157; 124; 29; 169; 155;
      157; 126; 29; 232; 232; 232; 142; 1; 31; 142; 0; 31; 162; 32; 32; 221; 49; 32; 232; 48; 32; 196; 48; 169; 4; 48; 125]);
  (48, [6; 162; 16; 157; 74; 3; 169; 3; 157; 66; 3; 142; 254; 30; 224; 16; 208; 1; 32; 238; 49; 173; 1; 31; 56; 237; 0; 31; 201; 3; 240; 3; 76; 94; 37; 174; 0;
      31; 189; 124; 29; 201; 68; 208; 243; 76; 108; 37; 68; 73; 82; 69; 67; 84; 79; 82; 89; 45; 45; 83; 69; 65; 82; 67; 72; 32; 83; 80; 69; 67; 44; 76;
      73; 83; 84; 32; 70; 73; 76; 69; 63; 155; 13; 35; 32; 207; 48; 32; 196; 48; 32; 110; 38; 173; 124; 29; 201; 68; 240; 26; 169; 229; 162; 33; 32;
      181; 49; 76; 182; 32; 78; 79; 84; 32; 65; 32; 68; 73; 83; 75; 32; 70; 73; 76; 69; 4; 49; 125]);
  (49, [155; 162; 16; 173; 158; 21; 201; 78; 208; 11; 169; 33; 157; 66; 3; 32; 238; 49; 76; 182; 32; 169; 247; 162; 34; 32; 181; 49; 169; 0; 141; 2; 31; 162;
      32; 169; 33; 157; 66; 3; 169; 241; 157; 68; 3; 169; 29; 157; 69; 3; 169; 68; 141; 241; 29; 169; 58; 141; 243; 29; 173; 125; 29; 201; 58; 208; 2;
      169; 49; 141; 242; 29; 162; 16; 169; 3; 157; 66; 3; 169; 6; 157; 74; 3; 169; 124; 157; 68; 3; 169; 29; 157; 69; 3; 32; 238; 49; 169; 244; 157;
      68; 3; 169; 29; 157; 69; 3; 169; 5; 157; 66; 3; 169; 0; 141; 1; 31; 162; 16; 169; 0; 157; 72; 3; 169; 4; 50; 125]);
  (50, [1; 157; 73; 3; 32; 238; 49; 173; 245; 29; 201; 32; 208; 104; 238; 1; 31; 173; 1; 31; 205; 2; 31; 48; 223; 162; 0; 160; 2; 185; 244; 29; 201; 32; 240;
      9; 157; 244; 29; 232; 200; 224; 8; 48; 240; 169; 46; 157; 244; 29; 232; 160; 10; 185; 244; 29; 157; 244; 29; 200; 232; 192; 13; 48; 244; 142; 0;
      31; 169; 63; 157; 244; 29; 232; 169; 155; 157; 244; 29; 169; 241; 162; 29; 32; 181; 49; 32; 126; 48; 201; 89; 208; 155; 173; 1; 31; 141; 2; 31;
      174; 0; 31; 169; 155; 157; 244; 29; 162; 32; 32; 238; 49; 32; 237; 34; 76; 60; 34; 32; 237; 34; 76; 182; 32; 162; 4; 51; 125]);
  (51, [16; 169; 12; 157; 66; 3; 76; 238; 49; 84; 89; 80; 69; 32; 34; 89; 34; 32; 84; 79; 32; 68; 69; 76; 69; 84; 69; 46; 46; 46; 155; 68; 69; 76; 69; 84; 69;
      32; 70; 73; 76; 69; 32; 83; 80; 69; 67; 155; 67; 79; 80; 89; 45; 45; 70; 82; 79; 77; 44; 32; 84; 79; 63; 155; 79; 80; 84; 73; 79; 78; 32; 78; 79;
      84; 32; 65; 76; 76; 79; 87; 69; 68; 155; 0; 0; 0; 0; 0; 0; 0; 0; 0; 0; 0; 0; 0; 0; 0; 0; 0; 0; 0; 0; 0; 0; 0; 32; 32; 67; 79; 80; 89; 73; 78; 71;
      45; 45; 45; 68; 78; 58; 0; 0; 0; 0; 4; 52; 125]);
  (52, [0; 0; 0; 0; 0; 0; 0; 0; 0; 0; 0; 0; 0; 30; 35; 32; 207; 48; 173; 1; 31; 141; 0; 31; 173; 124; 29; 201; 68; 208; 7; 162; 0; 32; 215; 46; 240; 3; 76;
      225; 36; 169; 128; 141; 65; 35; 169; 0; 141; 66; 35; 169; 0; 141; 67; 35; 162; 16; 169; 6; 157; 74; 3; 169; 3; 157; 66; 3; 169; 124; 157; 68; 3;
      169; 29; 157; 69; 3; 32; 238; 49; 169; 5; 157; 66; 3; 169; 20; 157; 72; 3; 169; 0; 157; 73; 3; 169; 68; 157; 68; 3; 169; 35; 157; 69; 3; 32; 238;
      49; 173; 68; 35; 201; 48; 144; 15; 201; 58; 176; 11; 169; 12; 157; 66; 3; 4; 53; 125]);
  (53, [32; 238; 49; 76; 182; 32; 173; 66; 35; 205; 67; 35; 240; 5; 238; 67; 35; 208; 193; 238; 66; 35; 169; 12; 157; 66; 3; 32; 238; 49; 160; 2; 185; 78; 35;
      217; 21; 36; 208; 8; 136; 16; 245; 48; 137; 83; 89; 83; 160; 49; 173; 125; 29; 201; 58; 240; 1; 168; 140; 101; 35; 162; 2; 160; 3; 189; 68; 35;
      201; 32; 240; 4; 153; 100; 35; 200; 232; 224; 10; 208; 240; 189; 68; 35; 201; 32; 240; 22; 169; 46; 153; 100; 35; 200; 189; 68; 35; 201; 32; 240;
      4; 153; 100; 35; 200; 232; 224; 13; 208; 240; 169; 155; 153; 100; 35; 169; 88; 162; 35; 32; 181; 49; 44; 65; 35; 4; 54; 125]);
  (54, [80; 15; 162; 16; 169; 100; 157; 68; 3; 169; 35; 157; 69; 3; 76; 79; 45; 32; 65; 46; 162; 16; 169; 3; 157; 66; 3; 169; 4; 157; 74; 3; 169; 100; 157; 68;
      3; 169; 35; 157; 69; 3; 142; 254; 30; 32; 238; 49; 162; 32; 32; 221; 49; 173; 1; 31; 72; 173; 2; 31; 72; 32; 232; 48; 104; 141; 2; 31; 104; 141;
      1; 31; 174; 0; 31; 189; 124; 29; 201; 68; 240; 3; 76; 94; 37; 160; 49; 189; 125; 29; 201; 58; 240; 1; 168; 204; 101; 35; 208; 6; 32; 170; 25; 76;
      116; 37; 162; 32; 140; 101; 35; 169; 100; 157; 68; 3; 169; 35; 157; 69; 3; 76; 148; 37; 162; 4; 55; 125]);
  (55, [32; 32; 221; 49; 32; 232; 48; 174; 0; 31; 32; 237; 46; 174; 0; 31; 32; 215; 46; 208; 48; 169; 1; 162; 37; 32; 181; 49; 76; 182; 32; 87; 73; 76; 68; 32;
      67; 65; 82; 68; 83; 32; 78; 79; 84; 32; 65; 76; 76; 79; 87; 69; 68; 32; 73; 78; 32; 68; 69; 83; 84; 73; 78; 65; 84; 73; 79; 78; 155; 32; 196; 48;
      32; 65; 46; 173; 124; 29; 201; 75; 240; 64; 201; 67; 240; 60; 201; 69; 208; 8; 162; 0; 142; 254; 30; 76; 94; 37; 201; 83; 240; 44; 162; 16; 169;
      3; 157; 66; 3; 169; 4; 157; 74; 3; 142; 254; 30; 224; 16; 208; 31; 32; 238; 49; 174; 4; 56; 125]);
  (56, [0; 31; 189; 124; 29; 201; 75; 240; 12; 201; 69; 208; 21; 169; 0; 141; 255; 30; 76; 171; 37; 169; 46; 162; 35; 32; 181; 49; 32; 170; 25; 76; 182; 32;
      201; 67; 240; 239; 174; 158; 21; 224; 65; 208; 8; 201; 68; 208; 228; 169; 9; 208; 2; 169; 8; 162; 32; 157; 74; 3; 169; 3; 157; 66; 3; 142; 255;
      30; 32; 238; 49; 169; 0; 157; 75; 3; 169; 7; 174; 254; 30; 172; 255; 30; 157; 66; 3; 169; 11; 153; 66; 3; 165; 26; 157; 68; 3; 153; 68; 3; 165;
      27; 157; 69; 3; 153; 69; 3; 174; 254; 30; 173; 4; 31; 157; 72; 3; 173; 5; 31; 157; 73; 3; 32; 86; 4; 57; 125]);
  (57, [228; 140; 248; 30; 174; 255; 30; 172; 254; 30; 185; 72; 3; 157; 72; 3; 185; 73; 3; 157; 73; 3; 25; 72; 3; 240; 3; 32; 238; 49; 173; 248; 30; 16; 204;
      201; 136; 240; 3; 76; 246; 49; 174; 254; 30; 240; 8; 169; 12; 157; 66; 3; 32; 86; 228; 174; 255; 30; 240; 8; 169; 12; 157; 66; 3; 32; 86; 228;
      174; 255; 30; 208; 7; 169; 233; 162; 38; 32; 190; 25; 44; 65; 35; 16; 3; 76; 158; 35; 76; 182; 32; 82; 38; 32; 207; 48; 32; 218; 48; 32; 196; 48;
      32; 110; 38; 169; 32; 162; 16; 157; 66; 3; 32; 238; 49; 76; 182; 32; 82; 69; 78; 65; 77; 69; 32; 4; 58; 125]);
  (58, [45; 32; 71; 73; 86; 69; 32; 79; 76; 68; 32; 78; 65; 77; 69; 44; 32; 78; 69; 87; 155; 160; 1; 173; 125; 29; 201; 58; 240; 3; 41; 15; 168; 140; 246; 30;
      76; 243; 40; 185; 38; 32; 60; 48; 32; 190; 50; 24; 105; 48; 141; 232; 38; 141; 235; 38; 32; 196; 48; 169; 208; 162; 38; 32; 181; 49; 32; 126; 48;
      201; 89; 208; 20; 169; 234; 162; 16; 157; 68; 3; 169; 38; 157; 69; 3; 169; 254; 157; 66; 3; 32; 238; 49; 76; 182; 32; 87; 72; 73; 67; 72; 32; 68;
      82; 73; 86; 69; 32; 84; 79; 32; 70; 79; 82; 77; 65; 84; 63; 155; 84; 89; 80; 69; 32; 34; 4; 59; 125]);
  (59, [89; 34; 32; 84; 79; 32; 70; 79; 82; 77; 65; 84; 32; 68; 73; 83; 75; 32; 49; 155; 68; 49; 58; 155; 75; 39; 172; 253; 191; 169; 170; 141; 253; 191; 205;
      253; 191; 208; 23; 169; 85; 141; 253; 191; 205; 253; 191; 208; 13; 140; 253; 191; 169; 63; 162; 39; 32; 181; 49; 76; 182; 32; 173; 252; 191; 208;
      241; 170; 173; 253; 191; 240; 235; 205; 253; 191; 208; 230; 232; 208; 243; 32; 118; 25; 169; 6; 162; 228; 160; 95; 32; 92; 228; 169; 7; 162; 228;
      160; 98; 32; 92; 228; 76; 18; 25; 78; 79; 32; 67; 65; 82; 84; 82; 73; 68; 71; 69; 155; 104; 39; 32; 60; 48; 32; 36; 4; 60; 125]);
  (60, [50; 32; 196; 48; 133; 26; 134; 27; 173; 3; 31; 201; 4; 240; 80; 32; 118; 25; 76; 32; 25; 82; 85; 78; 32; 70; 82; 79; 77; 32; 87; 72; 65; 84; 32; 65;
      68; 68; 82; 69; 83; 83; 63; 155; 84; 89; 80; 69; 32; 34; 89; 34; 32; 84; 79; 32; 67; 82; 69; 65; 84; 69; 32; 77; 69; 77; 46; 83; 65; 86; 155;
      127; 39; 32; 126; 48; 201; 89; 208; 12; 32; 115; 24; 48; 13; 169; 189; 162; 39; 32; 181; 49; 32; 170; 25; 76; 182; 32; 32; 70; 23; 16; 245; 76;
      245; 49; 77; 69; 77; 46; 83; 65; 86; 32; 70; 73; 76; 69; 32; 65; 76; 82; 69; 65; 68; 4; 61; 125]);
  (61, [89; 32; 69; 88; 73; 83; 84; 83; 155; 117; 40; 32; 60; 48; 32; 190; 50; 32; 196; 48; 141; 246; 30; 9; 48; 141; 203; 40; 141; 199; 40; 32; 243; 40; 169;
      168; 162; 40; 32; 181; 49; 32; 126; 48; 201; 89; 208; 114; 169; 146; 162; 40; 32; 181; 49; 169; 3; 162; 16; 157; 66; 3; 169; 202; 157; 68; 3;
      169; 40; 157; 69; 3; 169; 8; 157; 74; 3; 32; 238; 49; 162; 16; 169; 12; 157; 66; 3; 32; 238; 49; 162; 11; 189; 46; 24; 157; 123; 29; 202; 208;
      247; 173; 203; 40; 141; 125; 29; 142; 1; 31; 162; 16; 32; 221; 49; 169; 12; 141; 224; 25; 169; 31; 141; 225; 25; 4; 62; 125]);
  (62, [169; 5; 141; 226; 25; 169; 249; 141; 248; 47; 169; 19; 141; 253; 47; 169; 51; 141; 227; 25; 72; 169; 117; 141; 224; 2; 169; 32; 141; 225; 2; 206; 190;
      24; 76; 160; 47; 76; 182; 32; 68; 82; 73; 86; 69; 32; 84; 79; 32; 87; 82; 73; 84; 69; 32; 68; 79; 83; 32; 70; 73; 76; 69; 83; 32; 84; 79; 63;
      155; 87; 82; 73; 84; 73; 78; 71; 32; 78; 69; 87; 32; 68; 79; 83; 32; 70; 73; 76; 69; 83; 155; 84; 89; 80; 69; 32; 34; 89; 34; 32; 84; 79; 32; 87;
      82; 73; 84; 69; 32; 68; 79; 83; 32; 84; 79; 32; 68; 82; 73; 86; 69; 32; 49; 46; 155; 4; 63; 125]);
  (63, [68; 49; 58; 68; 79; 83; 46; 83; 89; 83; 155; 69; 82; 82; 79; 82; 32; 45; 32; 78; 79; 84; 32; 86; 69; 82; 83; 73; 79; 78; 32; 50; 32; 70; 79; 82; 77;
      65; 84; 46; 155; 169; 0; 141; 8; 31; 173; 246; 30; 32; 228; 44; 176; 5; 169; 128; 141; 8; 31; 32; 38; 42; 173; 244; 29; 201; 2; 240; 10; 169;
      213; 162; 40; 32; 181; 49; 76; 182; 32; 96; 91; 41; 32; 207; 48; 169; 0; 174; 158; 21; 141; 158; 21; 224; 78; 208; 3; 206; 158; 21; 32; 196; 48;
      32; 169; 21; 224; 0; 240; 18; 224; 3; 240; 4; 152; 76; 246; 49; 169; 77; 162; 41; 32; 181; 49; 4; 64; 125]);
  (64, [32; 170; 25; 76; 182; 32; 66; 65; 68; 32; 76; 79; 65; 68; 32; 70; 73; 76; 69; 155; 76; 79; 65; 68; 32; 70; 82; 79; 77; 32; 87; 72; 65; 84; 32; 70; 73;
      76; 69; 63; 155; 133; 41; 32; 207; 48; 32; 196; 48; 169; 35; 162; 16; 157; 66; 3; 32; 238; 49; 76; 182; 32; 87; 72; 65; 84; 32; 70; 73; 76; 69;
      32; 84; 79; 32; 76; 79; 67; 75; 63; 155; 173; 41; 32; 207; 48; 32; 196; 48; 169; 36; 162; 16; 157; 66; 3; 32; 238; 49; 76; 182; 32; 87; 72; 65;
      84; 32; 70; 73; 76; 69; 32; 84; 79; 32; 85; 78; 76; 79; 67; 75; 63; 155; 68; 85; 4; 65; 125]);
  (65, [80; 32; 68; 73; 83; 75; 45; 83; 79; 85; 82; 67; 69; 44; 68; 69; 83; 84; 32; 68; 82; 73; 86; 69; 83; 63; 155; 84; 89; 80; 69; 32; 34; 89; 34; 32; 73;
      70; 32; 79; 75; 32; 84; 79; 32; 85; 83; 69; 32; 80; 82; 79; 71; 82; 65; 77; 32; 65; 82; 69; 65; 155; 67; 65; 85; 84; 73; 79; 78; 58; 32; 65; 32;
      34; 89; 34; 32; 73; 78; 86; 65; 76; 73; 68; 65; 84; 69; 83; 32; 77; 69; 77; 46; 83; 65; 86; 46; 155; 169; 1; 141; 11; 3; 169; 104; 141; 10; 3;
      169; 29; 141; 5; 3; 169; 244; 141; 4; 3; 32; 141; 44; 169; 0; 141; 1; 4; 66; 125]);
  (66, [31; 173; 254; 29; 141; 254; 30; 169; 8; 141; 2; 31; 169; 0; 141; 11; 3; 169; 1; 141; 10; 3; 96; 194; 41; 169; 0; 141; 11; 31; 32; 60; 48; 32; 190; 50;
      141; 246; 30; 32; 190; 50; 141; 255; 30; 32; 196; 48; 169; 128; 141; 8; 31; 169; 0; 141; 9; 31; 173; 246; 30; 32; 228; 44; 144; 9; 162; 0; 142;
      8; 31; 232; 142; 9; 31; 173; 255; 30; 32; 228; 44; 144; 15; 44; 8; 31; 16; 15; 169; 222; 162; 42; 32; 181; 49; 76; 182; 32; 44; 8; 31; 16; 241;
      173; 246; 30; 205; 255; 30; 240; 75; 162; 42; 169; 191; 32; 181; 49; 32; 126; 48; 206; 11; 31; 48; 4; 67; 125]);
  (67, [70; 73; 78; 83; 69; 82; 84; 32; 66; 79; 84; 72; 32; 68; 73; 83; 75; 83; 44; 32; 84; 89; 80; 69; 32; 82; 69; 84; 85; 82; 78; 155; 69; 82; 82; 79; 82;
      32; 45; 32; 68; 82; 73; 86; 69; 83; 32; 73; 78; 67; 79; 77; 80; 65; 84; 73; 66; 76; 69; 46; 155; 169; 22; 162; 44; 32; 181; 49; 32; 126; 48; 169;
      5; 141; 6; 31; 169; 51; 141; 7; 31; 173; 229; 2; 56; 237; 8; 31; 141; 4; 31; 173; 230; 2; 237; 9; 31; 141; 5; 31; 173; 4; 31; 205; 6; 31; 173; 5;
      31; 237; 7; 31; 176; 10; 169; 6; 162; 44; 32; 181; 49; 76; 182; 32; 32; 4; 68; 125]);
  (68, [190; 44; 169; 0; 141; 158; 21; 32; 38; 42; 173; 10; 3; 141; 249; 30; 173; 11; 3; 141; 250; 30; 173; 1; 31; 141; 251; 30; 173; 2; 31; 141; 252; 30; 173;
      254; 30; 141; 253; 30; 76; 122; 43; 169; 0; 141; 158; 21; 44; 11; 31; 48; 10; 169; 22; 162; 44; 32; 181; 49; 32; 126; 48; 32; 210; 43; 32; 89;
      44; 48; 33; 44; 158; 21; 48; 6; 32; 141; 44; 76; 144; 43; 32; 152; 44; 173; 4; 3; 24; 109; 8; 31; 141; 4; 3; 173; 5; 3; 109; 9; 31; 141; 5; 3;
      32; 118; 44; 240; 34; 173; 4; 31; 205; 4; 3; 173; 5; 31; 237; 5; 3; 176; 199; 173; 158; 4; 69; 125]);
  (69, [21; 48; 171; 206; 158; 21; 44; 11; 31; 48; 183; 169; 53; 162; 44; 76; 116; 43; 173; 158; 21; 16; 236; 76; 182; 32; 160; 4; 185; 252; 43; 133; 26; 185;
      1; 44; 133; 27; 162; 0; 161; 26; 72; 185; 249; 30; 129; 26; 104; 153; 249; 30; 136; 16; 229; 173; 6; 31; 141; 4; 3; 173; 7; 31; 141; 5; 3; 96;
      10; 11; 1; 2; 254; 3; 3; 31; 31; 30; 78; 79; 84; 32; 69; 78; 79; 85; 71; 72; 32; 82; 79; 79; 77; 155; 73; 78; 83; 69; 82; 84; 32; 83; 79; 85; 82;
      67; 69; 32; 68; 73; 83; 75; 44; 84; 89; 80; 69; 32; 82; 69; 84; 85; 82; 78; 155; 4; 70; 125]);
  (70, [73; 78; 83; 69; 82; 84; 32; 68; 69; 83; 84; 73; 78; 65; 84; 73; 79; 78; 32; 68; 73; 83; 75; 44; 84; 89; 80; 69; 32; 82; 69; 84; 85; 82; 78; 155; 14;
      254; 30; 206; 2; 31; 208; 17; 238; 1; 31; 174; 1; 31; 189; 254; 29; 141; 254; 30; 169; 8; 141; 2; 31; 173; 254; 30; 96; 173; 10; 3; 201; 208;
      208; 7; 173; 11; 3; 201; 2; 240; 8; 238; 10; 3; 208; 3; 238; 11; 3; 96; 173; 246; 30; 141; 1; 3; 24; 8; 76; 160; 44; 173; 255; 30; 141; 1; 3; 56;
      8; 169; 2; 141; 247; 30; 162; 1; 44; 8; 31; 48; 1; 232; 40; 8; 32; 114; 7; 4; 71; 125]);
  (71, [16; 8; 206; 247; 30; 16; 236; 76; 245; 49; 40; 96; 165; 8; 240; 28; 169; 223; 162; 41; 32; 181; 49; 169; 2; 162; 42; 32; 181; 49; 32; 126; 48; 201; 89;
      208; 8; 169; 0; 133; 8; 141; 158; 23; 96; 104; 104; 76; 182; 32; 141; 1; 3; 169; 83; 141; 2; 3; 169; 2; 141; 247; 30; 32; 83; 228; 16; 8; 206;
      247; 30; 16; 246; 76; 245; 49; 24; 173; 234; 2; 41; 32; 240; 1; 56; 96; 78; 65; 77; 69; 32; 79; 70; 32; 70; 73; 76; 69; 32; 84; 79; 32; 77; 79;
      86; 69; 63; 155; 8; 45; 32; 207; 48; 32; 196; 48; 173; 124; 29; 201; 68; 240; 3; 76; 116; 4; 72; 125]);
  (72, [37; 32; 65; 46; 162; 44; 169; 22; 32; 181; 49; 32; 60; 48; 32; 196; 48; 32; 215; 46; 208; 5; 169; 64; 76; 150; 35; 162; 0; 32; 237; 46; 162; 16; 169;
      3; 157; 66; 3; 169; 4; 157; 74; 3; 32; 238; 49; 169; 0; 141; 10; 31; 141; 11; 31; 162; 16; 165; 26; 157; 68; 3; 165; 27; 157; 69; 3; 173; 4; 31;
      157; 72; 3; 173; 5; 31; 157; 73; 3; 169; 7; 157; 66; 3; 32; 86; 228; 16; 10; 192; 136; 240; 3; 76; 245; 49; 206; 10; 31; 162; 44; 169; 53; 32;
      181; 49; 32; 60; 48; 44; 245; 30; 16; 3; 76; 31; 46; 162; 32; 160; 9; 173; 11; 31; 208; 4; 73; 125]);
  (73, [5; 160; 8; 238; 11; 31; 152; 157; 74; 3; 169; 3; 157; 66; 3; 169; 124; 160; 29; 44; 65; 35; 80; 4; 169; 100; 160; 35; 157; 68; 3; 152; 157; 69; 3; 32;
      238; 49; 160; 16; 162; 32; 169; 0; 217; 72; 3; 208; 5; 217; 73; 3; 240; 30; 169; 11; 157; 66; 3; 165; 26; 157; 68; 3; 165; 27; 157; 69; 3; 185;
      72; 3; 157; 72; 3; 185; 73; 3; 157; 73; 3; 32; 238; 49; 169; 12; 157; 66; 3; 32; 238; 49; 173; 10; 31; 208; 18; 162; 44; 169; 22; 32; 181; 49;
      32; 60; 48; 44; 245; 30; 48; 3; 76; 102; 45; 162; 16; 169; 12; 157; 66; 3; 32; 86; 228; 4; 74; 125]);
  (74, [44; 65; 35; 80; 16; 162; 44; 169; 22; 32; 181; 49; 32; 60; 48; 32; 196; 48; 76; 158; 35; 76; 182; 32; 165; 8; 240; 21; 169; 223; 162; 41; 32; 181; 49;
      169; 2; 162; 42; 32; 181; 49; 32; 126; 48; 201; 89; 208; 106; 169; 0; 133; 8; 141; 158; 23; 169; 5; 133; 26; 169; 51; 133; 27; 173; 229; 2; 56;
      233; 5; 141; 4; 31; 173; 230; 2; 233; 51; 141; 5; 31; 169; 0; 141; 6; 31; 141; 7; 31; 169; 125; 24; 109; 6; 31; 141; 6; 31; 169; 0; 109; 7; 31;
      141; 7; 31; 173; 5; 31; 205; 7; 31; 144; 10; 208; 229; 173; 4; 31; 205; 6; 31; 176; 221; 173; 4; 75; 125]);
  (75, [7; 31; 208; 8; 169; 125; 205; 6; 31; 144; 1; 96; 173; 6; 31; 56; 233; 125; 141; 4; 31; 173; 7; 31; 233; 0; 141; 5; 31; 96; 169; 244; 133; 26; 169; 29;
      133; 27; 169; 250; 141; 4; 31; 169; 0; 141; 5; 31; 96; 189; 124; 29; 232; 201; 42; 240; 13; 201; 63; 240; 9; 201; 155; 240; 4; 201; 44; 208; 236;
      232; 96; 232; 189; 124; 29; 201; 58; 240; 1; 232; 232; 160; 0; 185; 205; 40; 221; 124; 29; 208; 16; 200; 232; 192; 7; 208; 242; 169; 18; 162; 47;
      32; 181; 49; 76; 182; 32; 96; 68; 69; 83; 84; 73; 78; 65; 84; 73; 79; 78; 32; 67; 65; 78; 84; 32; 4; 76; 125]);
  (76, [66; 69; 32; 68; 79; 83; 46; 83; 89; 83; 155; 24; 48; 169; 0; 141; 160; 24; 141; 190; 24; 32; 207; 48; 173; 158; 21; 72; 174; 1; 31; 169; 155; 157; 123;
      29; 32; 36; 50; 141; 224; 25; 142; 225; 25; 224; 50; 176; 3; 206; 148; 24; 32; 36; 50; 141; 226; 25; 142; 227; 25; 56; 237; 224; 25; 141; 248;
      47; 138; 237; 225; 25; 16; 3; 76; 182; 32; 141; 253; 47; 192; 155; 240; 41; 32; 36; 50; 141; 226; 2; 142; 227; 2; 13; 227; 2; 240; 3; 206; 160;
      24; 192; 155; 240; 20; 32; 36; 50; 32; 196; 48; 141; 224; 2; 142; 225; 2; 13; 225; 2; 240; 3; 206; 190; 24; 4; 77; 125]);
  (77, [169; 0; 141; 158; 21; 104; 201; 65; 208; 3; 206; 158; 21; 162; 16; 169; 3; 157; 66; 3; 44; 158; 21; 48; 4; 169; 8; 208; 2; 169; 9; 157; 74; 3; 32; 238;
      49; 169; 11; 157; 66; 3; 169; 222; 157; 68; 3; 169; 25; 157; 69; 3; 169; 6; 157; 72; 3; 169; 0; 157; 73; 3; 44; 158; 21; 16; 15; 169; 4; 157; 72;
      3; 169; 224; 157; 68; 3; 169; 25; 157; 69; 3; 32; 238; 49; 162; 16; 169; 249; 157; 72; 3; 169; 19; 157; 73; 3; 254; 72; 3; 208; 3; 254; 73; 3;
      173; 224; 25; 157; 68; 3; 173; 225; 25; 157; 69; 3; 76; 147; 24; 83; 65; 86; 69; 45; 4; 78; 125]);
  (78, [71; 73; 86; 69; 32; 70; 73; 76; 69; 44; 83; 84; 65; 82; 84; 44; 69; 78; 68; 40; 44; 73; 78; 73; 84; 44; 82; 85; 78; 41; 155; 169; 155; 162; 79; 157;
      164; 29; 202; 16; 250; 169; 0; 141; 1; 31; 141; 2; 31; 141; 245; 30; 32; 88; 48; 32; 187; 49; 96; 169; 5; 141; 66; 3; 169; 164; 141; 68; 3; 169;
      29; 141; 69; 3; 169; 80; 141; 72; 3; 169; 0; 141; 73; 3; 162; 0; 32; 86; 228; 192; 128; 208; 3; 206; 245; 30; 96; 169; 0; 141; 245; 30; 32; 88;
      48; 173; 72; 3; 141; 247; 30; 32; 187; 49; 173; 245; 30; 16; 6; 32; 170; 25; 76; 182; 32; 4; 79; 125]);
  (79, [173; 247; 30; 201; 3; 48; 10; 169; 175; 162; 48; 32; 181; 49; 76; 131; 48; 173; 164; 29; 96; 80; 76; 69; 65; 83; 69; 32; 84; 89; 80; 69; 32; 49; 32;
      76; 69; 84; 84; 69; 82; 155; 44; 245; 30; 48; 1; 96; 104; 104; 76; 182; 32; 32; 60; 48; 162; 16; 32; 221; 49; 76; 232; 48; 169; 8; 141; 3; 31;
      172; 1; 31; 174; 2; 31; 76; 65; 49; 172; 1; 31; 174; 2; 31; 169; 11; 141; 3; 31; 189; 164; 29; 201; 44; 240; 59; 201; 155; 240; 55; 189; 165; 29;
      201; 44; 240; 34; 201; 155; 240; 30; 169; 58; 221; 166; 29; 240; 49; 221; 165; 29; 208; 18; 206; 3; 4; 80; 125]);
  (80, [31; 189; 164; 29; 201; 65; 16; 34; 169; 68; 153; 124; 29; 200; 16; 26; 206; 3; 31; 206; 3; 31; 221; 164; 29; 240; 237; 206; 3; 31; 169; 68; 153; 124;
      29; 200; 169; 58; 153; 124; 29; 200; 169; 0; 141; 158; 21; 189; 164; 29; 153; 124; 29; 232; 200; 201; 155; 240; 44; 201; 44; 240; 40; 201; 47;
      240; 43; 201; 46; 208; 5; 169; 4; 141; 3; 31; 206; 3; 31; 16; 222; 169; 149; 162; 49; 32; 181; 49; 206; 245; 30; 189; 164; 29; 232; 201; 44; 240;
      4; 201; 155; 208; 244; 142; 2; 31; 140; 1; 31; 96; 189; 164; 29; 141; 158; 21; 232; 189; 164; 29; 153; 123; 29; 232; 16; 4; 81; 125]);
  (81, [233; 78; 65; 77; 69; 32; 84; 79; 79; 32; 76; 79; 78; 71; 155; 169; 11; 141; 66; 3; 162; 0; 32; 86; 228; 192; 128; 208; 3; 76; 182; 32; 96; 32; 190; 25;
      76; 187; 49; 169; 0; 170; 157; 73; 3; 169; 10; 157; 72; 3; 169; 49; 157; 69; 3; 169; 211; 157; 68; 3; 76; 163; 49; 28; 28; 28; 28; 28; 156; 29;
      29; 29; 29; 169; 124; 24; 109; 1; 31; 157; 68; 3; 169; 29; 105; 0; 157; 69; 3; 96; 32; 86; 228; 152; 48; 1; 96; 152; 56; 233; 100; 162; 47; 232;
      56; 233; 10; 16; 250; 24; 105; 58; 141; 34; 50; 142; 33; 50; 162; 50; 169; 23; 32; 181; 49; 4; 82; 125]);
  (82, [32; 170; 25; 76; 182; 32; 69; 82; 82; 79; 82; 45; 32; 32; 32; 49; 50; 56; 155; 169; 4; 141; 3; 31; 169; 0; 141; 4; 31; 141; 5; 31; 174; 2; 31; 189;
      164; 29; 238; 2; 31; 201; 155; 240; 43; 201; 44; 240; 39; 32; 165; 50; 48; 42; 160; 3; 24; 46; 5; 31; 46; 4; 31; 136; 16; 246; 13; 5; 31; 141; 5;
      31; 206; 3; 31; 16; 211; 169; 119; 162; 50; 32; 181; 49; 206; 245; 30; 96; 168; 173; 5; 31; 174; 4; 31; 96; 169; 135; 162; 50; 208; 235; 84; 79;
      79; 32; 77; 65; 78; 89; 32; 68; 73; 71; 73; 84; 83; 155; 73; 78; 86; 65; 76; 73; 68; 4; 83; 125]);
  (83, [32; 72; 69; 88; 65; 68; 69; 67; 73; 77; 65; 76; 32; 80; 65; 82; 65; 77; 69; 84; 69; 82; 155; 56; 233; 48; 48; 15; 201; 10; 48; 13; 56; 233; 7; 201; 10;
      48; 4; 201; 16; 48; 2; 169; 255; 201; 0; 96; 44; 245; 30; 48; 39; 174; 2; 31; 189; 164; 29; 232; 201; 68; 240; 248; 56; 233; 48; 240; 24; 48; 22;
      201; 5; 16; 18; 72; 189; 164; 29; 232; 201; 44; 240; 4; 201; 155; 208; 244; 142; 2; 31; 104; 96; 206; 245; 30; 169; 245; 162; 50; 76; 181; 49;
      78; 69; 69; 68; 32; 68; 49; 32; 84; 72; 82; 85; 32; 68; 52; 155; 0; 224; 2; 225; 2; 117; 4; 84; 125]);
  (84, [32; 72; 69; 88; 65; 68; 69; 67; 73; 77; 65; 76; 32; 80; 65; 82; 65; 77; 69; 84; 69; 82; 155; 56; 233; 48; 48; 15; 201; 10; 48; 13; 56; 233; 7; 201; 10;
      48; 4; 201; 16; 48; 2; 169; 255; 201; 0; 96; 44; 245; 30; 48; 39; 174; 2; 31; 189; 164; 29; 232; 201; 68; 240; 248; 56; 233; 48; 240; 24; 48; 22;
      201; 5; 16; 18; 72; 189; 164; 29; 232; 201; 44; 240; 4; 201; 155; 208; 244; 142; 2; 31; 104; 96; 206; 245; 30; 169; 245; 162; 50; 76; 181; 49;
      78; 69; 69; 68; 32; 68; 49; 32; 84; 72; 82; 85; 32; 68; 52; 155; 0; 224; 2; 225; 2; 117; 4; 0; 1]);
  (85, [255; 255; 0; 56; 75; 56; 169; 80; 141; 0; 3; 169; 1; 141; 1; 3; 169; 63; 141; 2; 3; 169; 64; 141; 3; 3; 169; 5; 141; 6; 3; 141; 5; 3; 169; 0; 141; 4;
      3; 141; 9; 3; 141; 10; 3; 141; 11; 3; 169; 12; 141; 8; 3; 32; 89; 228; 16; 1; 96; 162; 11; 189; 0; 5; 157; 0; 3; 202; 16; 247; 32; 89; 228; 48;
      6; 32; 6; 5; 108; 12; 0; 96; 226; 2; 227; 2; 0; 56; 0; 0; 0; 0; 0; 0; 0; 0; 0; 0; 0; 0; 0; 0; 0; 0; 0; 0; 0; 0; 0; 0; 0; 0; 0; 0; 0; 0; 0; 0; 0;
      0; 0; 0; 0; 0; 0; 8; 0; 88]);
  (360, [2; 195; 2; 113; 2; 0; 0; 0; 0; 0; 0; 0; 0; 0; 0; 0; 0; 0; 0; 0; 3; 255; 255; 255; 255; 255; 255; 255; 255; 255; 255; 255; 255; 255; 255; 255; 255; 255;
      255; 255; 255; 255; 255; 255; 255; 255; 255; 255; 255; 255; 255; 255; 255; 255; 255; 0; 127; 255; 255; 255; 255; 255; 255; 255; 255; 255; 255;
      255; 255; 255; 255; 255; 255; 255; 255; 255; 255; 255; 255; 255; 255; 255; 255; 255; 255; 255; 255; 255; 255; 255; 255; 255; 255; 255; 255; 255;
      255; 255; 255; 255; 0; 0; 0; 0; 0; 0; 0; 0; 0; 0; 0; 0; 0; 0; 0; 0; 0; 0; 0; 0; 0; 0; 0; 0; 5]);
  (361, [66; 39; 0; 4; 0; 68; 79; 83; 32; 32; 32; 32; 32; 83; 89; 83; 66; 42; 0; 43; 0; 68; 85; 80; 32; 32; 32; 32; 32; 83; 89; 83; 66; 1; 0; 85; 0; 65; 85; 84;
      79; 82; 85; 78; 32; 83; 89; 83])].
Definition dos2sd_20s : list Z := atr_image 128 720 dos2sd_20s_head dos2sd_20s_boot dos2sd_20s_tab.
Definition dos2sd_20s_files : list (list Z) := [zrange 4 43; zrange 43 85; zrange 85 86].

(** /repo/atrcopy/templates/dos2ed.atr: 133136 bytes *)
Definition dos2ed_head : list Z := [150; 2; 128; 32; 128; 0; 0; 0; 0; 0; 0; 0; 0; 0; 0; 0].
Definition dos2ed_boot : list Z := padto 384 [].
Definition dos2ed_tab : tab := [
  (360, [2; 242; 3; 195; 2; 0; 0; 0; 0; 0; 15; 255; 255; 255; 255; 255; 255; 255; 255; 255; 255; 255; 255; 255; 255; 255; 255; 255; 255; 255; 255; 255; 255;
      255; 255; 255; 255; 255; 255; 255; 255; 255; 255; 255; 255; 255; 255; 255; 255; 255; 255; 255; 255; 255; 255; 0; 127; 255; 255; 255; 255; 255;
      255; 255; 255; 255; 255; 255; 255; 255; 255; 255; 255; 255; 255; 255; 255; 255; 255; 255; 255; 255; 255; 255; 255; 255; 255; 255; 255; 255; 255;
      255; 255; 255; 255; 255; 255; 255; 255; 255]);
  (1024, [255; 255; 255; 255; 255; 255; 255; 255; 255; 255; 255; 255; 255; 255; 255; 255; 255; 255; 255; 255; 255; 255; 255; 255; 255; 255; 255; 255; 255; 255;
      255; 255; 255; 255; 255; 255; 255; 255; 255; 0; 127; 255; 255; 255; 255; 255; 255; 255; 255; 255; 255; 255; 255; 255; 255; 255; 255; 255; 255;
      255; 255; 255; 255; 255; 255; 255; 255; 255; 255; 255; 255; 255; 255; 255; 255; 255; 255; 255; 255; 255; 255; 255; 255; 255; 255; 255; 255; 255;
      255; 255; 255; 255; 255; 255; 255; 255; 255; 255; 255; 255; 255; 255; 255; 255; 255; 255; 255; 255; 255; 255; 255; 255; 255; 255; 255; 255; 255;
      255; 255; 255; 255; 255; 47; 1])].
Definition dos2ed : list Z := atr_image 128 1040 dos2ed_head dos2ed_boot dos2ed_tab.
Definition dos2ed_files : list (list Z) := [].

(** /repo/atrcopy/templates/dos2ed+2.5.atr: 133136 bytes *)
Definition dos2ed_25_head : list Z := [150; 2; 128; 32; 128; 0; 0; 0; 0; 0; 0; 0; 0; 0; 0; 0].
Definition dos2ed_25_boot : list Z := padto 384 [0; 3; 0; 7; 64; 21; 76; 20; 7; 3; 131; 0; 204; 25; 1; 4; 0; 125; 203; 7; 172; 14; 7; 240; 53; 32; 95; 7; 173; 16; 7; 172; 15; 7; 166; 36; 142; 4; 3;
      166; 37; 142; 5; 3; 24; 32; 108; 7; 48; 28; 172; 17; 7; 177; 36; 41; 3; 170; 200; 17; 36; 240; 17; 177; 36; 72; 200; 177; 36; 32; 85; 7; 104;
      168; 138; 76; 34; 7; 169; 192; 10; 168; 96; 169; 128; 24; 101; 36; 133; 36; 144; 2; 230; 37; 96; 173; 18; 7; 133; 36; 173; 19; 7; 133; 37; 96; 0;
      0; 141; 11; 3; 140; 10; 3; 169; 82; 160; 64; 144; 4; 169; 87; 160; 128; 8; 166; 33; 224; 8; 208; 7; 40; 32; 129; 20; 76; 185; 7; 40; 141; 2; 3;
      169; 15; 141; 6; 3; 140; 23; 19; 169; 49; 141; 0; 3; 169; 3; 141; 9; 19; 169; 128; 141; 8; 3; 10; 141; 9; 3; 173; 23; 19; 141; 3; 3; 32; 89; 228;
      16; 5; 206; 9; 19; 16; 240; 166; 73; 152; 96; 32; 173; 17; 32; 100; 15; 32; 4; 13; 76; 199; 18; 0; 0; 100; 8; 143; 10; 77; 10; 143; 9; 188; 7;
      42; 11; 128; 64; 32; 16; 8; 4; 2; 1; 255; 173; 12; 7; 133; 36; 173; 13; 7; 133; 37; 173; 10; 7; 133; 67; 162; 7; 169; 0; 6; 67; 144; 21; 160; 5;
      145; 36; 165; 36; 157; 41; 19; 165; 37; 157; 49; 19; 169; 144; 32; 85; 7; 169; 100; 157; 25; 19; 202; 16; 223; 165; 36; 141; 57; 19; 165; 37;
      141; 58; 19; 172; 9; 7; 162; 0; 136; 152; 157; 33; 19; 48; 3; 32; 83; 7; 232; 224; 8; 208; 241; 165; 36; 141; 231; 2; 165; 37; 141; 232; 2; 169;
      0; 168; 153; 129; 19; 200; 16; 250; 168; 185; 26; 3; 240; 12; 201; 68; 240; 8; 200; 200; 200; 192; 30; 208; 240; 0; 169; 68; 153; 26; 3; 169;
      203; 153; 27; 3; 169; 7; 153; 28; 3; 96; 32; 173; 17; 32; 125; 14; 189; 74; 3; 157; 130; 19; 41; 2; 240; 3; 76; 114; 13; 32; 236; 14; 8; 189;
      130; 19; 201].
Definition dos2ed_25_tab : tab := [
  (4, [100; 8; 143; 10; 77; 10; 143; 9; 188; 7; 42; 11; 128; 64; 32; 16; 8; 4; 2; 1; 255; 173; 12; 7; 133; 36; 173; 13; 7; 133; 37; 173; 10; 7; 133; 67; 162;
      7; 169; 0; 6; 67; 144; 21; 160; 5; 145; 36; 165; 36; 157; 41; 19; 165; 37; 157; 49; 19; 169; 144; 32; 85; 7; 169; 100; 157; 25; 19; 202; 16; 223;
      165; 36; 141; 57; 19; 165; 37; 141; 58; 19; 172; 9; 7; 162; 0; 136; 152; 157; 33; 19; 48; 3; 32; 83; 7; 232; 224; 8; 208; 241; 165; 36; 141; 231;
      2; 165; 37; 141; 232; 2; 169; 0; 168; 153; 129; 19; 200; 16; 250; 168; 185; 26; 3; 240; 0; 5; 125]);
  (5, [12; 201; 68; 240; 8; 200; 200; 200; 192; 30; 208; 240; 0; 169; 68; 153; 26; 3; 169; 203; 153; 27; 3; 169; 7; 153; 28; 3; 96; 32; 173; 17; 32; 125; 14;
      189; 74; 3; 157; 130; 19; 41; 2; 240; 3; 76; 114; 13; 32; 236; 14; 8; 189; 130; 19; 201; 4; 240; 16; 201; 8; 240; 74; 201; 12; 240; 13; 201; 9;
      240; 25; 32; 165; 18; 168; 40; 176; 14; 144; 6; 40; 176; 9; 32; 4; 13; 32; 112; 9; 76; 199; 18; 32; 165; 18; 170; 40; 176; 249; 172; 14; 19; 185;
      1; 20; 157; 131; 19; 41; 2; 240; 21; 32; 4; 13; 32; 145; 16; 32; 74; 17; 157; 142; 19; 189; 0; 6; 125]);
  (6, [139; 19; 157; 141; 19; 76; 61; 9; 32; 165; 18; 172; 40; 176; 9; 32; 193; 12; 172; 14; 19; 76; 5; 9; 173; 11; 19; 48; 113; 141; 15; 19; 32; 65; 16; 173;
      12; 19; 141; 14; 19; 173; 13; 19; 141; 16; 19; 32; 145; 16; 172; 14; 19; 162; 10; 169; 32; 153; 6; 20; 200; 202; 16; 249; 166; 73; 169; 66; 157;
      131; 19; 32; 74; 17; 172; 14; 19; 153; 5; 20; 189; 139; 19; 153; 4; 20; 169; 67; 153; 1; 20; 169; 0; 153; 3; 20; 153; 2; 20; 162; 0; 189; 59; 19;
      201; 63; 240; 3; 153; 6; 20; 200; 232; 224; 11; 144; 240; 32; 68; 16; 32; 87; 9; 32; 182; 0; 7; 125]);
  (7, [15; 169; 128; 157; 133; 19; 32; 130; 18; 208; 3; 76; 31; 18; 76; 199; 18; 32; 165; 18; 169; 169; 0; 157; 133; 19; 173; 16; 19; 10; 10; 157; 129; 19;
      169; 0; 157; 135; 19; 157; 143; 19; 157; 144; 19; 96; 32; 87; 9; 172; 14; 19; 185; 1; 20; 157; 131; 19; 41; 2; 157; 132; 19; 185; 4; 20; 157;
      139; 19; 185; 5; 20; 157; 140; 19; 76; 234; 15; 141; 17; 19; 189; 65; 3; 133; 33; 32; 173; 17; 172; 10; 19; 185; 2; 1; 201; 223; 176; 4; 169; 0;
      133; 34; 189; 130; 19; 41; 8; 240; 45; 188; 135; 19; 152; 221; 134; 19; 144; 17; 32; 112; 15; 176; 34; 32; 0; 8; 125]);
  (8, [228; 9; 160; 0; 176; 5; 177; 36; 141; 17; 19; 254; 135; 19; 173; 17; 19; 145; 71; 169; 64; 29; 133; 19; 157; 133; 19; 76; 199; 18; 76; 143; 8; 32; 165;
      18; 136; 189; 133; 19; 48; 4; 56; 96; 169; 0; 141; 24; 19; 169; 1; 141; 81; 19; 165; 34; 41; 2; 240; 60; 208; 50; 14; 81; 19; 173; 24; 19; 48;
      24; 32; 226; 15; 176; 45; 160; 0; 177; 71; 145; 36; 200; 152; 221; 134; 19; 144; 245; 32; 85; 7; 76; 35; 10; 32; 59; 10; 32; 112; 15; 56; 165;
      40; 253; 134; 19; 133; 40; 176; 2; 198; 41; 165; 40; 48; 202; 165; 41; 208; 198; 78; 81; 19; 96; 160; 0; 9; 125]);
  (9, [0; 177; 36; 145; 71; 200; 152; 221; 134; 19; 144; 245; 157; 135; 19; 76; 85; 7; 32; 173; 17; 189; 130; 19; 41; 2; 240; 3; 76; 173; 13; 189; 135; 19;
      221; 134; 19; 144; 11; 32; 235; 9; 32; 226; 15; 144; 240; 76; 224; 9; 168; 177; 71; 141; 17; 19; 200; 152; 157; 135; 19; 188; 139; 19; 208; 15;
      188; 140; 19; 208; 10; 221; 134; 19; 144; 5; 169; 3; 76; 175; 18; 76; 199; 18; 32; 173; 17; 189; 130; 19; 41; 8; 240; 87; 62; 133; 19; 144; 90;
      32; 135; 15; 32; 4; 11; 189; 144; 19; 72; 189; 143; 19; 72; 189; 130; 19; 41; 1; 240; 31; 189; 131; 19; 72; 32; 0; 10; 125]);
  (10, [112; 9; 104; 157; 131; 19; 32; 226; 15; 144; 251; 189; 141; 19; 157; 139; 19; 189; 142; 19; 157; 140; 19; 32; 142; 15; 172; 14; 19; 24; 104; 121; 2;
      20; 153; 2; 20; 104; 121; 3; 20; 153; 3; 20; 189; 131; 19; 153; 1; 20; 32; 68; 16; 32; 148; 16; 169; 0; 157; 130; 19; 76; 194; 18; 62; 133; 19;
      144; 243; 32; 203; 15; 76; 241; 10; 189; 129; 19; 74; 74; 141; 16; 19; 32; 31; 11; 141; 15; 19; 32; 31; 11; 32; 33; 11; 10; 141; 14; 19; 76; 65;
      16; 169; 0; 160; 3; 30; 129; 19; 42; 136; 208; 249; 96; 32; 173; 17; 189; 66; 3; 201; 254; 240; 70; 201; 0; 11; 125]);
  (11, [253; 240; 55; 201; 39; 176; 30; 56; 233; 32; 144; 25; 10; 168; 185; 77; 11; 72; 185; 78; 11; 72; 96; 12; 56; 12; 164; 11; 90; 12; 223; 12; 226; 13; 17;
      13; 92; 76; 143; 8; 100; 2; 195; 2; 195; 2; 138; 2; 242; 3; 195; 2; 74; 2; 243; 1; 243; 1; 189; 74; 3; 208; 2; 169; 33; 162; 0; 240; 3; 169; 34;
      170; 142; 21; 19; 141; 2; 3; 165; 33; 162; 12; 201; 8; 240; 71; 165; 70; 141; 5; 3; 165; 69; 141; 4; 3; 160; 64; 173; 70; 2; 32; 144; 7; 16; 40;
      192; 139; 208; 15; 174; 21; 19; 240; 7; 169; 33; 205; 2; 3; 208; 209; 76; 175; 18; 0; 12; 125]);
  (12, [192; 144; 208; 249; 160; 0; 169; 255; 209; 69; 208; 5; 200; 209; 69; 240; 236; 32; 165; 18; 173; 162; 0; 173; 2; 3; 201; 33; 240; 2; 162; 6; 169; 0;
      160; 143; 145; 69; 136; 208; 251; 189; 94; 11; 141; 8; 19; 232; 189; 94; 11; 145; 69; 200; 192; 5; 208; 245; 160; 10; 169; 15; 145; 69; 169; 255;
      200; 204; 8; 19; 208; 246; 160; 55; 169; 0; 145; 69; 200; 169; 127; 145; 69; 174; 8; 19; 16; 15; 160; 100; 145; 69; 160; 138; 169; 47; 145; 69;
      200; 169; 1; 145; 69; 32; 148; 16; 169; 0; 168; 153; 1; 20; 200; 16; 250; 169; 7; 141; 15; 19; 32; 68; 16; 206; 15; 0; 13; 125]);
  (13, [19; 16; 248; 32; 46; 18; 76; 194; 18; 32; 125; 14; 32; 137; 14; 162; 10; 189; 59; 19; 157; 70; 19; 202; 16; 247; 32; 100; 15; 32; 4; 13; 32; 130; 18;
      8; 162; 0; 142; 21; 19; 172; 14; 19; 189; 59; 19; 201; 63; 208; 8; 206; 21; 19; 221; 70; 19; 208; 55; 189; 70; 19; 201; 63; 240; 3; 153; 6; 20;
      200; 232; 224; 11; 208; 225; 40; 208; 3; 32; 46; 18; 32; 130; 18; 208; 12; 174; 14; 19; 189; 5; 20; 188; 4; 20; 32; 90; 18; 32; 68; 16; 173; 21;
      19; 240; 5; 32; 252; 14; 144; 174; 76; 194; 18; 76; 232; 14; 32; 100; 15; 32; 193; 12; 32; 130; 0; 14; 125]);
  (14, [18; 208; 3; 32; 46; 18; 32; 68; 16; 32; 252; 14; 144; 237; 32; 148; 16; 76; 194; 18; 32; 145; 16; 172; 14; 19; 32; 4; 13; 169; 128; 153; 1; 20; 32;
      112; 9; 32; 13; 17; 32; 226; 15; 144; 248; 160; 5; 152; 145; 69; 96; 169; 32; 44; 169; 0; 141; 20; 19; 32; 100; 15; 172; 14; 19; 185; 1; 20; 41;
      223; 13; 20; 19; 153; 1; 20; 32; 68; 16; 32; 252; 14; 144; 234; 76; 194; 18; 172; 14; 19; 185; 1; 20; 41; 32; 240; 209; 32; 165; 18; 167; 189;
      133; 19; 48; 66; 189; 77; 3; 221; 138; 19; 208; 8; 189; 76; 3; 221; 137; 19; 240; 30; 189; 133; 19; 0; 15; 125]);
  (15, [240; 8; 32; 203; 15; 169; 0; 157; 133; 19; 189; 77; 3; 157; 140; 19; 189; 76; 3; 157; 139; 19; 32; 234; 15; 176; 10; 189; 78; 3; 221; 134; 19; 144; 6;
      240; 4; 32; 165; 18; 166; 157; 135; 19; 76; 199; 18; 32; 165; 18; 171; 189; 135; 19; 157; 78; 3; 189; 137; 19; 157; 76; 3; 189; 138; 19; 157; 77;
      3; 76; 199; 18; 32; 236; 14; 144; 91; 32; 84; 16; 160; 138; 177; 69; 160; 3; 24; 113; 69; 72; 200; 177; 69; 160; 139; 113; 69; 170; 104; 168;
      138; 162; 0; 142; 22; 19; 32; 48; 14; 160; 3; 138; 145; 71; 200; 185; 212; 13; 145; 71; 200; 192; 16; 208; 246; 0; 16; 125]);
  (16, [32; 72; 14; 76; 199; 18; 172; 22; 19; 16; 3; 76; 224; 9; 177; 71; 141; 17; 19; 238; 22; 19; 201; 155; 208; 233; 192; 17; 176; 8; 169; 128; 141; 22; 19;
      76; 194; 18; 32; 252; 14; 176; 165; 32; 228; 13; 76; 199; 18; 70; 82; 69; 69; 32; 83; 69; 67; 84; 79; 82; 83; 174; 14; 19; 160; 0; 169; 32; 145;
      71; 189; 1; 20; 41; 32; 240; 4; 169; 42; 145; 71; 200; 169; 32; 145; 71; 200; 189; 6; 20; 145; 71; 232; 200; 192; 13; 144; 245; 169; 32; 145; 71;
      200; 140; 22; 19; 174; 14; 19; 165; 42; 106; 144; 17; 189; 1; 20; 106; 144; 11; 136; 169; 62; 145; 71; 0; 17; 125]);
  (17, [160; 1; 169; 60; 145; 71; 188; 2; 20; 189; 3; 20; 162; 100; 32; 82; 14; 162; 10; 32; 82; 14; 162; 1; 32; 82; 14; 162; 32; 152; 240; 2; 162; 43; 160;
      17; 169; 155; 145; 71; 160; 0; 140; 22; 19; 96; 142; 19; 19; 162; 255; 133; 68; 132; 67; 232; 56; 165; 67; 237; 19; 19; 168; 165; 68; 233; 0;
      144; 4; 224; 9; 208; 234; 138; 9; 48; 172; 22; 19; 145; 71; 238; 22; 19; 165; 68; 164; 67; 96; 160; 2; 177; 36; 136; 48; 100; 201; 58; 208; 247;
      200; 200; 169; 8; 162; 0; 141; 18; 19; 177; 36; 201; 46; 208; 11; 224; 8; 208; 5; 200; 169; 11; 208; 238; 144; 0; 18; 125]);
  (18, [44; 201; 42; 208; 9; 169; 63; 236; 18; 19; 176; 37; 144; 36; 201; 63; 240; 31; 201; 48; 144; 14; 201; 58; 144; 23; 41; 223; 201; 65; 144; 4; 201; 91;
      144; 13; 169; 11; 141; 18; 19; 224; 11; 240; 16; 169; 32; 208; 1; 200; 236; 18; 19; 240; 185; 157; 59; 19; 232; 208; 179; 173; 59; 19; 201; 32;
      240; 3; 166; 73; 96; 32; 165; 18; 165; 169; 255; 141; 11; 19; 141; 15; 19; 141; 16; 19; 169; 112; 141; 14; 19; 238; 16; 19; 24; 173; 14; 19; 105;
      16; 16; 17; 238; 15; 19; 169; 8; 205; 15; 19; 144; 2; 240; 78; 32; 65; 16; 169; 0; 141; 14; 19; 168; 185; 1; 0; 19; 125]);
  (19, [20; 240; 35; 48; 33; 41; 67; 201; 3; 240; 4; 41; 1; 208; 207; 162; 0; 189; 59; 19; 201; 63; 240; 5; 217; 6; 20; 208; 193; 232; 200; 224; 11; 208; 238;
      24; 144; 29; 173; 11; 19; 16; 18; 173; 15; 19; 141; 11; 19; 173; 14; 19; 141; 12; 19; 173; 16; 19; 141; 13; 19; 185; 1; 20; 48; 156; 56; 166; 73;
      96; 32; 125; 14; 32; 236; 14; 176; 1; 96; 76; 164; 8; 189; 133; 19; 48; 15; 10; 16; 9; 10; 157; 133; 19; 32; 203; 15; 48; 34; 76; 226; 15; 32;
      74; 17; 189; 135; 19; 160; 127; 145; 71; 189; 140; 19; 29; 129; 19; 160; 125; 145; 71; 200; 189; 139; 0; 20; 125]);
  (20, [19; 145; 71; 32; 203; 15; 16; 11; 169; 0; 157; 130; 19; 173; 3; 3; 76; 175; 18; 254; 143; 19; 208; 3; 254; 144; 19; 32; 213; 15; 169; 0; 157; 139; 19;
      157; 140; 19; 157; 135; 19; 169; 125; 157; 134; 19; 24; 96; 56; 189; 138; 19; 188; 137; 19; 76; 18; 18; 189; 139; 19; 157; 137; 19; 189; 140; 19;
      157; 138; 19; 96; 189; 133; 19; 240; 3; 76; 112; 15; 189; 139; 19; 29; 140; 19; 208; 2; 56; 96; 32; 213; 15; 24; 32; 204; 15; 48; 52; 160; 125;
      177; 71; 41; 252; 221; 129; 19; 208; 44; 177; 71; 41; 3; 157; 140; 19; 200; 177; 71; 157; 139; 19; 200; 177; 71; 0; 21; 125]);
  (21, [72; 189; 132; 19; 208; 8; 104; 48; 2; 169; 125; 41; 127; 72; 104; 157; 134; 19; 169; 0; 157; 135; 19; 24; 96; 32; 189; 18; 189; 66; 3; 201; 33; 240; 4;
      32; 165; 18; 164; 56; 96; 24; 144; 1; 56; 8; 24; 173; 15; 19; 105; 105; 168; 40; 162; 1; 169; 20; 208; 90; 160; 5; 177; 69; 208; 54; 164; 33;
      169; 74; 192; 8; 240; 20; 140; 1; 3; 169; 83; 141; 2; 3; 32; 83; 228; 169; 100; 172; 234; 2; 16; 2; 169; 138; 164; 33; 153; 24; 19; 141; 8; 19;
      24; 32; 204; 16; 32; 234; 16; 160; 5; 145; 69; 24; 32; 168; 16; 32; 251; 16; 96; 32; 84; 16; 169; 0; 22; 125]);
  (22, [0; 160; 5; 145; 69; 32; 234; 16; 56; 32; 168; 16; 32; 251; 16; 56; 76; 204; 16; 165; 70; 166; 69; 160; 104; 140; 10; 3; 160; 1; 140; 11; 3; 141; 5; 3;
      142; 4; 3; 32; 114; 7; 16; 57; 192; 131; 240; 3; 76; 189; 18; 32; 165; 18; 163; 173; 8; 19; 16; 41; 8; 169; 0; 141; 10; 3; 169; 4; 141; 11; 3;
      165; 69; 24; 105; 16; 170; 165; 70; 105; 0; 40; 76; 182; 16; 160; 100; 177; 69; 153; 238; 18; 169; 0; 145; 69; 200; 192; 144; 208; 242; 96; 172;
      8; 19; 16; 12; 160; 100; 185; 238; 18; 145; 69; 200; 192; 144; 208; 246; 96; 189; 137; 19; 72; 41; 0; 23; 125]);
  (23, [7; 168; 104; 29; 138; 19; 240; 47; 185; 215; 7; 72; 189; 137; 19; 160; 3; 94; 138; 19; 106; 136; 208; 249; 24; 105; 10; 168; 104; 17; 69; 145; 69; 192;
      100; 160; 3; 144; 2; 160; 138; 177; 69; 24; 105; 1; 145; 69; 200; 177; 69; 105; 0; 145; 69; 96; 160; 9; 200; 204; 8; 19; 176; 87; 177; 69; 240;
      246; 162; 255; 232; 10; 144; 252; 189; 215; 7; 81; 69; 145; 69; 138; 72; 166; 73; 152; 56; 233; 10; 157; 139; 19; 169; 192; 30; 139; 19; 42; 176;
      250; 157; 140; 19; 104; 29; 139; 19; 157; 139; 19; 192; 100; 160; 3; 144; 12; 160; 138; 189; 131; 19; 41; 191; 9; 1; 0; 24; 125]);
  (24, [157; 131; 19; 56; 177; 69; 233; 1; 145; 69; 200; 177; 69; 233; 0; 145; 69; 160; 5; 152; 145; 69; 189; 140; 19; 96; 32; 165; 18; 162; 134; 73; 186; 232;
      232; 142; 10; 19; 166; 33; 142; 1; 3; 202; 189; 41; 19; 133; 69; 189; 49; 19; 133; 70; 189; 25; 19; 240; 53; 141; 8; 19; 166; 73; 188; 136; 19;
      208; 24; 185; 33; 19; 16; 9; 200; 192; 8; 144; 246; 32; 165; 18; 161; 169; 128; 153; 33; 19; 200; 152; 157; 136; 19; 136; 152; 74; 72; 169; 0;
      106; 109; 57; 19; 133; 71; 104; 109; 58; 19; 133; 72; 96; 32; 165; 18; 160; 188; 136; 19; 240; 9; 136; 169; 0; 157; 0; 25; 125]);
  (25, [136; 19; 153; 33; 19; 96; 166; 71; 142; 4; 3; 166; 72; 142; 5; 3; 76; 108; 7; 188; 137; 19; 189; 138; 19; 32; 90; 18; 32; 100; 18; 76; 199; 18; 169; 0;
      141; 14; 7; 169; 7; 141; 5; 3; 160; 0; 140; 4; 3; 200; 169; 0; 56; 32; 108; 7; 173; 4; 3; 73; 128; 141; 4; 3; 48; 3; 238; 5; 3; 172; 10; 3; 204;
      1; 7; 208; 228; 96; 140; 15; 7; 141; 16; 7; 169; 1; 208; 204; 32; 95; 7; 169; 125; 157; 134; 19; 32; 59; 10; 165; 36; 205; 12; 7; 165; 37; 237;
      13; 7; 176; 6; 32; 112; 15; 76; 108; 18; 96; 162; 0; 172; 14; 19; 185; 6; 0; 26; 125]);
  (26, [20; 221; 154; 18; 208; 6; 200; 232; 224; 11; 208; 242; 8; 166; 73; 40; 96; 68; 79; 83; 32; 32; 32; 32; 32; 83; 89; 83; 104; 133; 67; 104; 133; 68; 160;
      1; 177; 67; 174; 10; 19; 154; 166; 73; 157; 67; 3; 168; 173; 17; 19; 96; 173; 3; 3; 48; 237; 166; 73; 32; 3; 18; 169; 1; 208; 228; 160; 1; 132;
      66; 174; 223; 7; 48; 6; 166; 20; 228; 20; 240; 252; 140; 14; 212; 120; 10; 10; 133; 68; 173; 1; 211; 41; 227; 5; 68; 141; 1; 211; 96; 125; 78;
      101; 101; 100; 32; 68; 79; 83; 50; 46; 53; 44; 116; 121; 112; 101; 32; 89; 32; 210; 197; 212; 213; 210; 0; 27; 125]);
  (27, [206; 155; 138; 3; 247; 0; 0; 0; 0; 0; 0; 155; 11; 1; 0; 34; 128; 128; 192; 138; 100; 0; 0; 0; 0; 0; 74; 128; 0; 0; 255; 254; 253; 252; 251; 236; 92; 0;
      0; 0; 0; 0; 204; 26; 26; 0; 0; 0; 0; 0; 25; 124; 27; 68; 79; 83; 32; 32; 32; 32; 32; 83; 89; 83; 67; 79; 80; 89; 51; 84; 79; 50; 67; 79; 77; 0;
      127; 255; 255; 255; 255; 255; 255; 255; 255; 255; 255; 255; 255; 255; 255; 255; 255; 255; 255; 255; 255; 255; 255; 255; 255; 255; 255; 255; 255;
      255; 255; 255; 255; 255; 255; 255; 255; 255; 47; 1; 0; 0; 0; 0; 0; 0; 0; 0; 0; 0; 28; 125]);
  (28, [0; 0; 0; 0; 0; 0; 0; 0; 0; 0; 0; 0; 0; 0; 0; 8; 66; 2; 128; 125; 0; 1; 28; 0; 0; 0; 0; 0; 24; 0; 0; 0; 66; 0; 128; 125; 0; 0; 0; 0; 0; 0; 0; 0; 57; 0;
      0; 0; 0; 0; 0; 0; 0; 0; 0; 0; 0; 0; 0; 0; 0; 0; 0; 0; 0; 0; 0; 0; 0; 0; 0; 0; 0; 0; 0; 0; 0; 0; 0; 0; 0; 0; 0; 0; 0; 0; 0; 0; 0; 0; 0; 0; 0; 0;
      0; 0; 0; 0; 0; 0; 0; 0; 0; 0; 0; 0; 0; 0; 0; 0; 0; 0; 0; 0; 0; 0; 0; 0; 0; 0; 0; 0; 0; 0; 0; 0; 29; 125]);
  (29, [0; 67; 0; 0; 4; 0; 68; 79; 83; 32; 32; 32; 32; 32; 83; 89; 83; 0; 0; 0; 0; 0; 0; 0; 0; 0; 0; 0; 0; 0; 0; 0; 0; 0; 0; 0; 0; 0; 0; 0; 0; 0; 0; 0; 0; 0;
      0; 0; 0; 0; 0; 0; 0; 0; 0; 0; 0; 0; 0; 0; 0; 0; 0; 0; 0; 0; 0; 0; 0; 0; 0; 0; 0; 0; 0; 0; 0; 0; 0; 0; 0; 0; 0; 0; 0; 0; 0; 0; 0; 0; 0; 0; 0; 0;
      0; 0; 0; 0; 0; 0; 0; 0; 0; 0; 0; 0; 0; 0; 0; 0; 0; 0; 0; 0; 0; 0; 0; 0; 0; 0; 0; 0; 0; 0; 0; 0; 30; 125]);
  (30, [0; 0; 0; 0; 173; 10; 3; 133; 67; 8; 173; 11; 3; 6; 67; 42; 201; 4; 144; 5; 40; 160; 139; 208; 62; 32; 203; 18; 165; 67; 56; 106; 74; 133; 51; 169; 0;
      106; 133; 50; 173; 4; 3; 133; 67; 173; 5; 3; 133; 68; 160; 127; 40; 144; 9; 177; 67; 145; 50; 136; 16; 249; 48; 7; 177; 50; 145; 67; 136; 16;
      249; 169; 4; 32; 222; 18; 160; 192; 140; 14; 212; 160; 0; 132; 66; 88; 200; 96; 0; 0; 0; 14; 10; 7; 78; 10; 7; 169; 49; 141; 63; 21; 169; 241;
      162; 20; 32; 108; 21; 169; 12; 162; 23; 76; 108; 21; 68; 58; 82; 65; 77; 68; 73; 83; 75; 0; 31; 125]);
  (31, [46; 67; 79; 77; 155; 169; 76; 205; 117; 32; 208; 3; 76; 165; 49; 169; 0; 141; 157; 21; 169; 237; 162; 18; 32; 205; 23; 76; 9; 21; 165; 59; 208; 3; 76;
      144; 234; 152; 72; 76; 179; 234; 179; 234; 0; 0; 0; 0; 0; 186; 142; 10; 19; 32; 84; 16; 160; 1; 96; 186; 142; 10; 19; 32; 148; 16; 160; 1; 96;
      56; 169; 0; 141; 158; 21; 169; 159; 133; 10; 169; 23; 133; 11; 173; 156; 234; 201; 144; 208; 10; 169; 24; 141; 12; 2; 169; 21; 141; 13; 2; 32;
      224; 7; 234; 234; 234; 165; 8; 208; 21; 32; 216; 20; 96; 141; 84; 3; 142; 85; 3; 32; 147; 21; 169; 192; 0; 32; 125]);
  (32, [32; 166; 21; 76; 146; 25; 173; 157; 21; 240; 17; 173; 158; 23; 240; 18; 32; 63; 25; 32; 46; 25; 32; 147; 21; 32; 116; 228; 169; 0; 141; 157; 21; 96;
      133; 8; 240; 246; 255; 0; 0; 224; 2; 225; 2; 169; 128; 141; 159; 21; 169; 71; 141; 224; 2; 169; 22; 141; 225; 2; 162; 16; 169; 3; 157; 66; 3;
      169; 4; 157; 74; 3; 32; 140; 23; 16; 4; 169; 1; 208; 126; 162; 16; 169; 244; 157; 68; 3; 169; 29; 157; 69; 3; 169; 2; 157; 72; 3; 169; 0; 157;
      73; 3; 141; 11; 23; 169; 7; 157; 66; 3; 32; 86; 228; 48; 100; 169; 255; 205; 244; 29; 208; 86; 205; 245; 0; 33; 125]);
  (33, [29; 208; 81; 162; 16; 169; 160; 157; 68; 3; 169; 21; 157; 69; 3; 169; 4; 157; 72; 3; 169; 0; 157; 73; 3; 32; 86; 228; 16; 70; 192; 136; 208; 57; 32;
      146; 25; 44; 158; 21; 48; 3; 32; 8; 23; 169; 0; 44; 159; 21; 141; 159; 21; 48; 27; 32; 115; 24; 48; 5; 104; 104; 76; 184; 23; 173; 157; 21; 208;
      10; 169; 27; 162; 23; 32; 166; 25; 76; 1; 24; 169; 0; 170; 96; 32; 146; 25; 169; 3; 208; 247; 152; 72; 32; 146; 25; 104; 168; 208; 238; 162; 16;
      173; 160; 21; 157; 68; 3; 72; 173; 161; 21; 157; 69; 3; 168; 104; 200; 208; 31; 168; 200; 208; 27; 173; 0; 34; 125]);
  (34, [162; 21; 141; 160; 21; 173; 163; 21; 141; 161; 21; 169; 162; 157; 68; 3; 169; 21; 157; 69; 3; 169; 2; 76; 5; 22; 173; 162; 21; 56; 237; 160; 21; 157;
      72; 3; 173; 163; 21; 237; 161; 21; 157; 73; 3; 173; 161; 21; 201; 52; 234; 176; 8; 173; 163; 21; 201; 29; 234; 176; 13; 173; 11; 23; 48; 8; 169;
      128; 13; 159; 21; 141; 159; 21; 254; 72; 3; 208; 3; 254; 73; 3; 44; 159; 21; 48; 19; 173; 11; 23; 48; 14; 206; 11; 23; 32; 57; 25; 169; 0; 141;
      157; 21; 32; 46; 25; 162; 16; 169; 71; 141; 226; 2; 169; 22; 141; 227; 2; 32; 86; 228; 16; 3; 76; 79; 0; 35; 125]);
  (35, [22; 44; 158; 21; 48; 3; 32; 5; 23; 76; 247; 21; 201; 29; 144; 6; 201; 52; 42; 73; 1; 74; 96; 108; 226; 2; 108; 224; 2; 0; 68; 49; 58; 65; 85; 84; 79;
      82; 85; 78; 46; 83; 89; 83; 155; 78; 69; 69; 68; 32; 77; 69; 77; 46; 83; 65; 86; 32; 84; 79; 32; 76; 79; 65; 68; 32; 84; 72; 73; 83; 32; 70; 73;
      76; 69; 46; 155; 68; 56; 58; 77; 69; 77; 46; 83; 65; 86; 155; 32; 146; 25; 169; 8; 157; 74; 3; 32; 121; 23; 48; 56; 169; 11; 157; 66; 3; 169;
      124; 157; 68; 3; 169; 29; 157; 69; 3; 169; 138; 157; 72; 3; 169; 21; 157; 73; 0; 36; 125]);
  (36, [3; 32; 86; 228; 48; 26; 32; 146; 25; 48; 21; 160; 0; 96; 169; 3; 157; 66; 3; 169; 59; 157; 68; 3; 169; 23; 157; 69; 3; 76; 140; 23; 96; 173; 63; 21;
      141; 60; 23; 141; 48; 24; 76; 86; 228; 23; 160; 144; 96; 64; 21; 0; 162; 0; 142; 158; 23; 142; 159; 21; 202; 134; 8; 32; 118; 25; 32; 115; 24;
      16; 6; 169; 0; 133; 8; 240; 63; 32; 70; 23; 48; 5; 206; 158; 23; 48; 53; 169; 58; 162; 24; 32; 166; 25; 169; 91; 162; 24; 32; 166; 25; 169; 5;
      141; 66; 3; 169; 0; 141; 68; 3; 169; 1; 141; 69; 3; 169; 2; 141; 72; 3; 169; 0; 141; 73; 0; 37; 125]);
  (37, [3; 32; 86; 228; 173; 0; 1; 201; 89; 208; 56; 169; 0; 133; 8; 162; 32; 169; 12; 157; 66; 3; 32; 86; 228; 165; 12; 141; 156; 23; 165; 13; 141; 157; 23;
      169; 64; 133; 12; 169; 21; 133; 13; 169; 47; 162; 16; 157; 68; 3; 169; 24; 157; 69; 3; 160; 0; 140; 158; 21; 136; 140; 157; 21; 32; 164; 21; 96;
      69; 58; 155; 68; 56; 58; 68; 85; 80; 46; 83; 89; 83; 155; 69; 82; 82; 79; 82; 45; 83; 65; 86; 73; 78; 71; 32; 85; 83; 69; 82; 32; 77; 69; 77; 79;
      82; 89; 32; 79; 78; 32; 68; 73; 83; 75; 155; 84; 89; 80; 69; 32; 89; 32; 84; 79; 32; 0; 38; 125]);
  (38, [83; 84; 73; 76; 76; 32; 82; 85; 78; 32; 68; 79; 83; 155; 32; 156; 25; 169; 3; 157; 66; 3; 169; 59; 157; 68; 3; 169; 23; 157; 69; 3; 169; 12; 157; 74;
      3; 32; 140; 23; 8; 32; 156; 25; 40; 96; 169; 0; 240; 3; 32; 57; 25; 162; 16; 32; 86; 228; 169; 0; 240; 26; 238; 160; 24; 173; 226; 2; 141; 199;
      25; 173; 227; 2; 141; 200; 25; 169; 226; 170; 141; 195; 25; 169; 2; 32; 239; 24; 169; 0; 240; 26; 238; 190; 24; 173; 224; 2; 141; 199; 25; 173;
      225; 2; 141; 200; 25; 169; 224; 170; 141; 195; 25; 169; 2; 32; 239; 24; 32; 146; 25; 173; 158; 23; 45; 0; 39; 125]);
  (39, [148; 24; 240; 6; 238; 148; 24; 76; 19; 24; 76; 117; 32; 141; 196; 25; 232; 142; 197; 25; 141; 198; 25; 162; 16; 169; 195; 157; 68; 3; 169; 25; 157; 69;
      3; 169; 6; 157; 72; 3; 169; 0; 157; 73; 3; 76; 86; 228; 32; 57; 25; 169; 0; 141; 157; 21; 32; 46; 25; 108; 250; 191; 32; 57; 25; 169; 0; 141;
      157; 21; 32; 46; 25; 108; 26; 0; 173; 156; 23; 133; 12; 173; 157; 23; 133; 13; 96; 173; 158; 23; 208; 1; 96; 32; 115; 24; 16; 6; 169; 0; 133; 8;
      240; 36; 169; 3; 157; 66; 3; 32; 140; 23; 169; 7; 157; 66; 3; 169; 138; 157; 72; 3; 169; 21; 157; 0; 40; 125]);
  (40, [73; 3; 169; 124; 157; 68; 3; 169; 29; 157; 69; 3; 32; 86; 228; 169; 12; 157; 66; 3; 76; 86; 228; 32; 110; 228; 162; 0; 169; 3; 157; 66; 3; 169; 44;
      157; 68; 3; 169; 24; 157; 69; 3; 169; 12; 157; 74; 3; 76; 86; 228; 169; 12; 162; 16; 157; 66; 3; 32; 86; 228; 162; 32; 169; 12; 157; 66; 3; 76;
      86; 228; 141; 68; 3; 142; 69; 3; 162; 1; 142; 73; 3; 202; 169; 9; 141; 66; 3; 234; 234; 173; 157; 21; 240; 229; 76; 255; 20; 255; 255; 224; 2;
      225; 2; 117; 32; 149; 32; 22; 2; 243; 1; 9; 1; 0; 0; 0; 0; 0; 0; 0; 0; 0; 0; 0; 0; 0; 125]);
  (41, [255; 255; 12; 31; 5; 51; 69; 58; 155; 125; 68; 73; 83; 75; 32; 79; 80; 69; 82; 65; 84; 73; 78; 71; 32; 83; 89; 83; 84; 69; 77; 32; 73; 73; 32; 86; 69;
      82; 83; 73; 79; 78; 32; 160; 178; 174; 181; 160; 67; 79; 80; 89; 82; 73; 71; 72; 84; 32; 49; 57; 56; 52; 32; 65; 84; 65; 82; 73; 32; 67; 79; 82;
      80; 46; 155; 155; 65; 46; 32; 68; 73; 83; 75; 32; 68; 73; 82; 69; 67; 84; 79; 82; 89; 32; 32; 73; 46; 32; 70; 79; 82; 77; 65; 84; 32; 68; 73; 83;
      75; 155; 66; 46; 32; 82; 85; 78; 32; 67; 65; 82; 84; 82; 73; 68; 71; 4; 42; 125]);
  (42, [69; 32; 32; 32; 74; 46; 32; 68; 85; 80; 76; 73; 67; 65; 84; 69; 32; 68; 73; 83; 75; 155; 67; 46; 32; 67; 79; 80; 89; 32; 70; 73; 76; 69; 32; 32; 32;
      32; 32; 32; 32; 75; 46; 32; 66; 73; 78; 65; 82; 89; 32; 83; 65; 86; 69; 155; 68; 46; 32; 68; 69; 76; 69; 84; 69; 32; 70; 73; 76; 69; 40; 83; 41;
      32; 32; 76; 46; 32; 66; 73; 78; 65; 82; 89; 32; 76; 79; 65; 68; 155; 69; 46; 32; 82; 69; 78; 65; 77; 69; 32; 70; 73; 76; 69; 32; 32; 32; 32; 32;
      77; 46; 32; 82; 85; 78; 32; 65; 84; 32; 65; 68; 68; 82; 69; 83; 4; 43; 125]);
  (43, [83; 155; 70; 46; 32; 76; 79; 67; 75; 32; 70; 73; 76; 69; 32; 32; 32; 32; 32; 32; 32; 78; 46; 32; 67; 82; 69; 65; 84; 69; 32; 77; 69; 77; 46; 83; 65;
      86; 155; 71; 46; 32; 85; 78; 76; 79; 67; 75; 32; 70; 73; 76; 69; 32; 32; 32; 32; 32; 79; 46; 32; 68; 85; 80; 76; 73; 67; 65; 84; 69; 32; 70; 73;
      76; 69; 155; 72; 46; 32; 87; 82; 73; 84; 69; 32; 68; 79; 83; 32; 70; 73; 76; 69; 83; 32; 80; 46; 32; 70; 79; 82; 77; 65; 84; 32; 83; 73; 78; 71;
      76; 69; 155; 29; 29; 29; 29; 29; 76; 152; 32; 144; 33; 78; 39; 198; 4; 44; 125]);
  (44, [35; 23; 34; 129; 38; 190; 41; 230; 41; 57; 40; 208; 38; 169; 42; 41; 47; 104; 41; 172; 39; 250; 39; 25; 45; 202; 38; 162; 255; 216; 134; 17; 232; 142;
      159; 21; 169; 2; 133; 82; 169; 39; 133; 83; 165; 16; 9; 128; 133; 16; 141; 14; 210; 32; 118; 25; 173; 190; 25; 201; 76; 240; 47; 169; 0; 141;
      157; 21; 169; 203; 162; 32; 32; 205; 23; 76; 188; 32; 125; 73; 110; 115; 101; 114; 116; 32; 68; 79; 83; 32; 50; 46; 48; 115; 44; 32; 116; 121;
      112; 101; 32; 89; 32; 210; 197; 212; 213; 210; 206; 155; 169; 16; 141; 244; 30; 169; 120; 133; 24; 169; 32; 133; 25; 169; 15; 4; 45; 125]);
  (45, [141; 68; 3; 169; 31; 141; 69; 3; 169; 102; 141; 72; 3; 169; 1; 141; 73; 3; 32; 158; 49; 162; 255; 154; 232; 142; 143; 35; 169; 113; 162; 33; 32; 166;
      25; 169; 64; 141; 190; 2; 32; 121; 48; 201; 155; 240; 207; 56; 233; 65; 48; 44; 205; 244; 30; 16; 39; 10; 168; 177; 24; 200; 133; 26; 177; 24;
      133; 27; 160; 1; 177; 26; 170; 136; 177; 26; 32; 176; 49; 32; 182; 49; 165; 26; 24; 105; 2; 133; 26; 144; 2; 230; 27; 108; 26; 0; 169; 100; 162;
      33; 32; 176; 49; 76; 15; 33; 78; 79; 32; 83; 85; 67; 72; 32; 73; 84; 69; 77; 155; 83; 69; 76; 69; 67; 84; 4; 46; 125]);
  (46, [32; 73; 84; 69; 77; 32; 79; 82; 32; 210; 197; 212; 213; 210; 206; 32; 70; 79; 82; 32; 77; 69; 78; 85; 155; 245; 33; 32; 202; 48; 32; 191; 46; 174; 1;
      31; 189; 122; 29; 201; 58; 208; 19; 169; 42; 157; 123; 29; 157; 125; 29; 169; 46; 157; 124; 29; 232; 232; 232; 142; 1; 31; 169; 155; 157; 123;
      29; 142; 0; 31; 162; 32; 32; 216; 49; 32; 227; 48; 32; 191; 48; 169; 7; 162; 16; 157; 74; 3; 169; 3; 157; 66; 3; 142; 254; 30; 32; 233; 49; 173;
      1; 31; 56; 237; 0; 31; 201; 3; 240; 3; 76; 168; 37; 174; 0; 31; 189; 124; 29; 201; 68; 208; 243; 76; 182; 4; 47; 125]);
  (47, [37; 68; 73; 82; 69; 67; 84; 79; 82; 89; 45; 45; 83; 69; 65; 82; 67; 72; 32; 83; 80; 69; 67; 44; 76; 73; 83; 84; 32; 70; 73; 76; 69; 63; 155; 91; 35;
      32; 202; 48; 32; 191; 48; 32; 184; 38; 173; 124; 29; 201; 68; 240; 26; 169; 51; 162; 34; 32; 176; 49; 76; 15; 33; 78; 79; 84; 32; 65; 32; 68; 73;
      83; 75; 32; 70; 73; 76; 69; 155; 162; 16; 173; 158; 21; 201; 78; 208; 11; 169; 33; 157; 66; 3; 32; 233; 49; 76; 15; 33; 169; 69; 162; 35; 32;
      176; 49; 169; 0; 141; 2; 31; 162; 32; 169; 33; 157; 66; 3; 169; 241; 157; 68; 3; 169; 29; 4; 48; 125]);
  (48, [157; 69; 3; 169; 68; 141; 241; 29; 169; 58; 141; 243; 29; 173; 125; 29; 201; 58; 208; 2; 169; 49; 141; 242; 29; 162; 16; 169; 3; 157; 66; 3; 169; 6;
      157; 74; 3; 169; 124; 157; 68; 3; 169; 29; 157; 69; 3; 32; 233; 49; 169; 244; 157; 68; 3; 169; 29; 157; 69; 3; 169; 5; 157; 66; 3; 169; 0; 141;
      1; 31; 162; 16; 169; 0; 157; 72; 3; 169; 1; 157; 73; 3; 32; 233; 49; 173; 245; 29; 201; 32; 208; 104; 238; 1; 31; 173; 1; 31; 205; 2; 31; 48;
      223; 162; 0; 160; 2; 185; 244; 29; 201; 32; 240; 9; 157; 244; 29; 232; 200; 224; 8; 48; 240; 169; 46; 4; 49; 125]);
  (49, [157; 244; 29; 232; 160; 10; 185; 244; 29; 157; 244; 29; 200; 232; 192; 13; 48; 244; 142; 0; 31; 169; 63; 157; 244; 29; 232; 169; 155; 157; 244; 29;
      169; 241; 162; 29; 32; 176; 49; 32; 121; 48; 201; 89; 208; 155; 173; 1; 31; 141; 2; 31; 174; 0; 31; 169; 155; 157; 244; 29; 162; 32; 32; 233; 49;
      32; 59; 35; 76; 138; 34; 32; 59; 35; 76; 15; 33; 162; 16; 169; 12; 157; 66; 3; 76; 233; 49; 84; 89; 80; 69; 32; 34; 89; 34; 32; 84; 79; 32; 68;
      69; 76; 69; 84; 69; 46; 46; 46; 155; 68; 69; 76; 69; 84; 69; 32; 70; 73; 76; 69; 32; 83; 80; 69; 67; 4; 50; 125]);
  (50, [155; 67; 79; 80; 89; 45; 45; 70; 82; 79; 77; 44; 32; 84; 79; 63; 155; 79; 80; 84; 73; 79; 78; 32; 78; 79; 84; 32; 65; 76; 76; 79; 87; 69; 68; 155; 0;
      4; 4; 54; 57; 55; 32; 70; 82; 69; 69; 32; 83; 69; 67; 84; 79; 82; 83; 155; 155; 0; 0; 32; 32; 67; 79; 80; 89; 73; 78; 71; 45; 45; 45; 68; 56; 58;
      67; 79; 80; 89; 51; 50; 46; 67; 79; 77; 155; 155; 0; 0; 0; 0; 0; 108; 35; 32; 202; 48; 173; 1; 31; 141; 0; 31; 173; 124; 29; 201; 68; 208; 7;
      162; 0; 32; 210; 46; 240; 3; 76; 47; 37; 169; 128; 141; 143; 35; 169; 4; 51; 125]);
  (51, [0; 141; 144; 35; 169; 0; 141; 145; 35; 162; 16; 169; 6; 157; 74; 3; 169; 3; 157; 66; 3; 169; 124; 157; 68; 3; 169; 29; 157; 69; 3; 32; 233; 49; 169; 5;
      157; 66; 3; 169; 20; 157; 72; 3; 169; 0; 157; 73; 3; 169; 146; 157; 68; 3; 169; 35; 157; 69; 3; 32; 233; 49; 173; 146; 35; 201; 48; 144; 15; 201;
      58; 176; 11; 169; 12; 157; 66; 3; 32; 233; 49; 76; 15; 33; 173; 144; 35; 205; 145; 35; 240; 5; 238; 145; 35; 208; 193; 238; 144; 35; 169; 12;
      157; 66; 3; 32; 233; 49; 160; 2; 185; 156; 35; 217; 99; 36; 208; 8; 136; 16; 245; 48; 137; 83; 89; 4; 52; 125]);
  (52, [83; 160; 49; 173; 125; 29; 201; 58; 240; 1; 168; 140; 179; 35; 162; 2; 160; 3; 189; 146; 35; 201; 32; 240; 4; 153; 178; 35; 200; 232; 224; 10; 208;
      240; 189; 146; 35; 201; 32; 240; 22; 169; 46; 153; 178; 35; 200; 189; 146; 35; 201; 32; 240; 4; 153; 178; 35; 200; 232; 224; 13; 208; 240; 169;
      155; 153; 178; 35; 169; 166; 162; 35; 32; 176; 49; 44; 143; 35; 80; 15; 162; 16; 169; 178; 157; 68; 3; 169; 35; 157; 69; 3; 76; 74; 45; 32; 60;
      46; 162; 16; 169; 3; 157; 66; 3; 169; 4; 157; 74; 3; 169; 178; 157; 68; 3; 169; 35; 157; 69; 3; 142; 254; 30; 32; 233; 4; 53; 125]);
  (53, [49; 162; 32; 32; 216; 49; 173; 1; 31; 72; 173; 2; 31; 72; 32; 227; 48; 104; 141; 2; 31; 104; 141; 1; 31; 174; 0; 31; 189; 124; 29; 201; 68; 240; 3; 76;
      168; 37; 160; 49; 189; 125; 29; 201; 58; 240; 1; 168; 204; 179; 35; 208; 6; 32; 146; 25; 76; 190; 37; 162; 32; 140; 179; 35; 169; 178; 157; 68;
      3; 169; 35; 157; 69; 3; 76; 222; 37; 162; 32; 32; 216; 49; 32; 227; 48; 174; 0; 31; 32; 232; 46; 174; 0; 31; 32; 210; 46; 208; 48; 169; 79; 162;
      37; 32; 176; 49; 76; 15; 33; 87; 73; 76; 68; 32; 67; 65; 82; 68; 83; 32; 78; 79; 84; 32; 65; 4; 54; 125]);
  (54, [76; 76; 79; 87; 69; 68; 32; 73; 78; 32; 68; 69; 83; 84; 73; 78; 65; 84; 73; 79; 78; 155; 32; 191; 48; 32; 60; 46; 173; 124; 29; 201; 75; 240; 60; 201;
      67; 240; 56; 201; 69; 208; 8; 162; 0; 142; 254; 30; 76; 168; 37; 201; 83; 240; 40; 162; 16; 169; 3; 157; 66; 3; 169; 4; 157; 74; 3; 142; 254; 30;
      32; 233; 49; 174; 0; 31; 189; 124; 29; 201; 75; 240; 12; 201; 69; 208; 21; 169; 0; 141; 255; 30; 76; 245; 37; 169; 124; 162; 35; 32; 176; 49; 32;
      146; 25; 76; 15; 33; 201; 67; 240; 239; 174; 158; 21; 224; 65; 208; 8; 201; 68; 208; 228; 169; 9; 4; 55; 125]);
  (55, [208; 2; 169; 8; 162; 32; 157; 74; 3; 169; 3; 157; 66; 3; 142; 255; 30; 32; 233; 49; 169; 0; 157; 75; 3; 169; 7; 174; 254; 30; 172; 255; 30; 157; 66; 3;
      169; 11; 153; 66; 3; 165; 26; 157; 68; 3; 153; 68; 3; 165; 27; 157; 69; 3; 153; 69; 3; 174; 254; 30; 173; 4; 31; 157; 72; 3; 173; 5; 31; 157; 73;
      3; 32; 86; 228; 140; 248; 30; 174; 255; 30; 172; 254; 30; 185; 72; 3; 157; 72; 3; 185; 73; 3; 157; 73; 3; 25; 72; 3; 240; 3; 32; 233; 49; 173;
      248; 30; 16; 204; 201; 136; 240; 3; 76; 241; 49; 174; 254; 30; 240; 8; 169; 12; 157; 66; 4; 56; 125]);
  (56, [3; 32; 86; 228; 174; 255; 30; 240; 8; 169; 12; 157; 66; 3; 32; 86; 228; 174; 255; 30; 208; 7; 169; 73; 162; 39; 32; 166; 25; 44; 143; 35; 16; 3; 76;
      236; 35; 76; 15; 33; 156; 38; 32; 202; 48; 32; 213; 48; 32; 191; 48; 32; 184; 38; 169; 32; 162; 16; 157; 66; 3; 32; 233; 49; 76; 15; 33; 82; 69;
      78; 65; 77; 69; 32; 45; 32; 71; 73; 86; 69; 32; 79; 76; 68; 32; 78; 65; 77; 69; 44; 32; 78; 69; 87; 155; 160; 1; 173; 125; 29; 201; 58; 240; 3;
      41; 15; 168; 140; 246; 30; 76; 83; 41; 25; 39; 169; 253; 208; 4; 25; 39; 169; 254; 141; 2; 4; 57; 125]);
  (57, [39; 32; 55; 48; 32; 185; 50; 24; 105; 48; 141; 72; 39; 141; 75; 39; 32; 191; 48; 169; 48; 162; 39; 32; 176; 49; 32; 121; 48; 201; 89; 208; 8; 173; 2;
      39; 160; 33; 32; 3; 39; 76; 15; 33; 254; 162; 16; 157; 66; 3; 169; 74; 157; 68; 3; 169; 39; 157; 69; 3; 152; 157; 74; 3; 76; 233; 49; 87; 72; 73;
      67; 72; 32; 68; 82; 73; 86; 69; 32; 84; 79; 32; 70; 79; 82; 77; 65; 84; 63; 155; 84; 89; 80; 69; 32; 34; 89; 34; 32; 84; 79; 32; 70; 79; 82; 77;
      65; 84; 32; 68; 73; 83; 75; 32; 49; 155; 68; 49; 58; 155; 171; 39; 172; 253; 191; 4; 58; 125]);
  (58, [169; 170; 141; 253; 191; 205; 253; 191; 208; 23; 169; 85; 141; 253; 191; 205; 253; 191; 208; 13; 140; 253; 191; 169; 159; 162; 39; 32; 176; 49; 76; 15;
      33; 173; 252; 191; 208; 241; 170; 173; 253; 191; 240; 235; 205; 253; 191; 208; 230; 232; 208; 243; 32; 118; 25; 169; 6; 162; 228; 160; 95; 32;
      92; 228; 169; 7; 162; 228; 160; 98; 32; 92; 228; 76; 18; 25; 78; 79; 32; 67; 65; 82; 84; 82; 73; 68; 71; 69; 155; 200; 39; 32; 55; 48; 32; 31;
      50; 32; 191; 48; 133; 26; 134; 27; 173; 3; 31; 201; 4; 240; 80; 32; 118; 25; 76; 32; 25; 82; 85; 78; 32; 70; 82; 79; 77; 4; 59; 125]);
  (59, [32; 87; 72; 65; 84; 32; 65; 68; 68; 82; 69; 83; 83; 63; 155; 84; 89; 80; 69; 32; 34; 89; 34; 32; 84; 79; 32; 67; 82; 69; 65; 84; 69; 32; 77; 69; 77;
      46; 83; 65; 86; 155; 223; 39; 32; 121; 48; 201; 89; 208; 12; 32; 115; 24; 48; 13; 169; 29; 162; 40; 32; 176; 49; 32; 146; 25; 76; 15; 33; 32; 70;
      23; 16; 245; 76; 240; 49; 77; 69; 77; 46; 83; 65; 86; 32; 70; 73; 76; 69; 32; 65; 76; 82; 69; 65; 68; 89; 32; 69; 88; 73; 83; 84; 83; 155; 213;
      40; 32; 55; 48; 32; 185; 50; 32; 191; 48; 141; 246; 30; 9; 48; 141; 43; 41; 141; 4; 60; 125]);
  (60, [39; 41; 32; 83; 41; 169; 8; 162; 41; 32; 176; 49; 32; 121; 48; 201; 89; 208; 114; 169; 242; 162; 40; 32; 176; 49; 169; 3; 162; 16; 157; 66; 3; 169; 42;
      157; 68; 3; 169; 41; 157; 69; 3; 169; 8; 157; 74; 3; 32; 233; 49; 162; 16; 169; 12; 157; 66; 3; 32; 233; 49; 162; 11; 189; 46; 24; 157; 123; 29;
      202; 208; 247; 173; 43; 41; 141; 125; 29; 142; 1; 31; 162; 16; 32; 216; 49; 169; 12; 141; 195; 25; 169; 31; 141; 196; 25; 169; 5; 141; 197; 25;
      169; 249; 141; 243; 47; 169; 19; 141; 248; 47; 169; 51; 141; 198; 25; 72; 169; 117; 141; 224; 2; 169; 32; 141; 4; 61; 125]);
  (61, [225; 2; 206; 190; 24; 76; 155; 47; 76; 15; 33; 68; 82; 73; 86; 69; 32; 84; 79; 32; 87; 82; 73; 84; 69; 32; 68; 79; 83; 32; 70; 73; 76; 69; 83; 32; 84;
      79; 63; 155; 87; 82; 73; 84; 73; 78; 71; 32; 78; 69; 87; 32; 68; 79; 83; 32; 70; 73; 76; 69; 83; 155; 84; 89; 80; 69; 32; 34; 89; 34; 32; 84; 79;
      32; 87; 82; 73; 84; 69; 32; 68; 79; 83; 32; 84; 79; 32; 68; 82; 73; 86; 69; 32; 49; 46; 155; 68; 49; 58; 68; 79; 83; 46; 83; 89; 83; 155; 69; 82;
      82; 79; 82; 32; 45; 32; 78; 79; 84; 32; 86; 69; 82; 83; 73; 79; 4; 62; 125]);
  (62, [78; 32; 50; 32; 70; 79; 82; 77; 65; 84; 46; 155; 32; 116; 42; 173; 244; 29; 201; 2; 240; 10; 169; 53; 162; 41; 32; 176; 49; 76; 15; 33; 96; 169; 41;
      32; 202; 48; 169; 0; 174; 158; 21; 141; 158; 21; 224; 78; 208; 3; 206; 158; 21; 32; 191; 48; 32; 169; 21; 224; 0; 240; 18; 224; 3; 240; 4; 152;
      76; 241; 49; 169; 155; 162; 41; 32; 176; 49; 32; 146; 25; 76; 15; 33; 66; 65; 68; 32; 76; 79; 65; 68; 32; 70; 73; 76; 69; 155; 76; 79; 65; 68;
      32; 70; 82; 79; 77; 32; 87; 72; 65; 84; 32; 70; 73; 76; 69; 63; 155; 211; 41; 32; 202; 48; 32; 4; 63; 125]);
  (63, [191; 48; 169; 35; 162; 16; 157; 66; 3; 32; 233; 49; 76; 15; 33; 87; 72; 65; 84; 32; 70; 73; 76; 69; 32; 84; 79; 32; 76; 79; 67; 75; 63; 155; 251; 41;
      32; 202; 48; 32; 191; 48; 169; 36; 162; 16; 157; 66; 3; 32; 233; 49; 76; 15; 33; 87; 72; 65; 84; 32; 70; 73; 76; 69; 32; 84; 79; 32; 85; 78; 76;
      79; 67; 75; 63; 155; 68; 85; 80; 32; 68; 73; 83; 75; 45; 83; 79; 85; 82; 67; 69; 44; 68; 69; 83; 84; 32; 68; 82; 73; 86; 69; 83; 63; 155; 84; 89;
      80; 69; 32; 34; 89; 34; 32; 73; 70; 32; 79; 75; 32; 84; 79; 32; 85; 83; 4; 64; 125]);
  (64, [69; 32; 80; 82; 79; 71; 82; 65; 77; 32; 65; 82; 69; 65; 155; 67; 65; 85; 84; 73; 79; 78; 58; 32; 65; 32; 34; 89; 34; 32; 73; 78; 86; 65; 76; 73; 68;
      65; 84; 69; 83; 32; 77; 69; 77; 46; 83; 65; 86; 46; 155; 169; 29; 133; 70; 169; 244; 133; 69; 173; 246; 30; 133; 33; 169; 0; 141; 249; 29; 32;
      43; 21; 16; 3; 76; 240; 49; 169; 10; 141; 1; 31; 173; 254; 29; 141; 254; 30; 169; 8; 141; 2; 31; 169; 0; 141; 11; 3; 169; 1; 141; 10; 3; 96; 16;
      42; 169; 0; 141; 11; 31; 32; 55; 48; 32; 185; 50; 141; 246; 30; 32; 185; 50; 141; 255; 4; 65; 125]);
  (65, [30; 32; 191; 48; 173; 246; 30; 205; 255; 30; 240; 46; 162; 42; 169; 217; 32; 176; 49; 32; 121; 48; 206; 11; 31; 48; 41; 73; 78; 83; 69; 82; 84; 32; 66;
      79; 84; 72; 32; 68; 73; 83; 75; 83; 44; 32; 84; 89; 80; 69; 32; 82; 69; 84; 85; 82; 78; 155; 169; 94; 162; 44; 32; 176; 49; 32; 121; 48; 169; 5;
      141; 6; 31; 169; 51; 141; 7; 31; 173; 229; 2; 56; 233; 128; 141; 4; 31; 173; 230; 2; 233; 0; 141; 5; 31; 173; 4; 31; 205; 6; 31; 173; 5; 31; 237;
      7; 31; 176; 10; 169; 78; 162; 44; 32; 176; 49; 76; 15; 33; 32; 221; 44; 169; 0; 141; 4; 66; 125]);
  (66, [158; 21; 141; 67; 44; 32; 116; 42; 173; 10; 3; 141; 249; 30; 173; 11; 3; 141; 250; 30; 173; 1; 31; 141; 251; 30; 173; 2; 31; 141; 252; 30; 173; 254;
      30; 141; 253; 30; 76; 120; 43; 169; 0; 141; 158; 21; 44; 11; 31; 48; 10; 169; 94; 162; 44; 32; 176; 49; 32; 121; 48; 32; 25; 44; 32; 161; 44; 48;
      27; 44; 158; 21; 48; 6; 32; 199; 44; 76; 142; 43; 32; 205; 44; 173; 4; 3; 73; 128; 141; 4; 3; 48; 3; 238; 5; 3; 32; 190; 44; 173; 1; 31; 205; 8;
      19; 240; 86; 173; 4; 31; 205; 4; 3; 173; 5; 31; 237; 5; 3; 176; 199; 173; 158; 21; 48; 4; 67; 125]);
  (67, [171; 206; 158; 21; 44; 11; 31; 48; 10; 169; 125; 162; 44; 32; 176; 49; 32; 121; 48; 173; 67; 44; 208; 168; 238; 67; 44; 173; 255; 30; 9; 48; 141; 75;
      39; 160; 33; 173; 8; 19; 16; 2; 160; 34; 173; 10; 3; 72; 173; 11; 3; 72; 169; 253; 32; 3; 39; 104; 141; 11; 3; 104; 141; 10; 3; 76; 120; 43; 173;
      158; 21; 16; 184; 173; 255; 30; 133; 33; 169; 244; 133; 69; 169; 29; 133; 70; 32; 53; 21; 16; 3; 76; 240; 49; 76; 15; 33; 160; 4; 185; 68; 44;
      133; 26; 185; 73; 44; 133; 27; 162; 0; 161; 26; 72; 185; 249; 30; 129; 26; 104; 153; 249; 30; 136; 16; 4; 68; 125]);
  (68, [229; 173; 6; 31; 141; 4; 3; 173; 7; 31; 141; 5; 3; 96; 0; 10; 11; 1; 2; 254; 3; 3; 31; 31; 30; 78; 79; 84; 32; 69; 78; 79; 85; 71; 72; 32; 82; 79; 79;
      77; 155; 73; 78; 83; 69; 82; 84; 32; 83; 79; 85; 82; 67; 69; 32; 68; 73; 83; 75; 44; 84; 89; 80; 69; 32; 82; 69; 84; 85; 82; 78; 155; 73; 78; 83;
      69; 82; 84; 32; 68; 69; 83; 84; 73; 78; 65; 84; 73; 79; 78; 32; 68; 73; 83; 75; 44; 84; 89; 80; 69; 32; 82; 69; 84; 85; 82; 78; 155; 14; 254; 30;
      206; 2; 31; 208; 17; 238; 1; 31; 174; 1; 31; 189; 244; 29; 4; 69; 125]);
  (69, [141; 254; 30; 169; 8; 141; 2; 31; 173; 254; 30; 96; 238; 10; 3; 208; 3; 238; 11; 3; 96; 173; 246; 30; 24; 144; 4; 173; 255; 30; 56; 141; 1; 3; 32; 114;
      7; 16; 3; 76; 240; 49; 96; 165; 8; 240; 28; 169; 45; 162; 42; 32; 176; 49; 169; 80; 162; 42; 32; 176; 49; 32; 121; 48; 201; 89; 208; 8; 169; 0;
      133; 8; 141; 158; 23; 96; 104; 104; 76; 15; 33; 78; 65; 77; 69; 32; 79; 70; 32; 70; 73; 76; 69; 32; 84; 79; 32; 77; 79; 86; 69; 63; 155; 3; 45;
      32; 202; 48; 32; 191; 48; 173; 124; 29; 201; 68; 240; 3; 76; 190; 37; 32; 60; 46; 162; 4; 70; 125]);
  (70, [44; 169; 94; 32; 176; 49; 32; 55; 48; 32; 191; 48; 32; 210; 46; 208; 5; 169; 64; 76; 228; 35; 162; 0; 32; 232; 46; 162; 16; 169; 3; 157; 66; 3; 169; 4;
      157; 74; 3; 32; 233; 49; 169; 0; 141; 10; 31; 141; 11; 31; 162; 16; 165; 26; 157; 68; 3; 165; 27; 157; 69; 3; 173; 4; 31; 157; 72; 3; 173; 5; 31;
      157; 73; 3; 169; 7; 157; 66; 3; 32; 86; 228; 16; 10; 192; 136; 240; 3; 76; 240; 49; 206; 10; 31; 162; 44; 169; 125; 32; 176; 49; 32; 55; 48; 44;
      245; 30; 16; 3; 76; 26; 46; 162; 32; 160; 9; 173; 11; 31; 208; 5; 160; 8; 238; 11; 4; 71; 125]);
  (71, [31; 152; 157; 74; 3; 169; 3; 157; 66; 3; 169; 124; 160; 29; 44; 143; 35; 80; 4; 169; 178; 160; 35; 157; 68; 3; 152; 157; 69; 3; 32; 233; 49; 160; 16;
      162; 32; 169; 0; 217; 72; 3; 208; 5; 217; 73; 3; 240; 30; 169; 11; 157; 66; 3; 165; 26; 157; 68; 3; 165; 27; 157; 69; 3; 185; 72; 3; 157; 72; 3;
      185; 73; 3; 157; 73; 3; 32; 233; 49; 169; 12; 157; 66; 3; 32; 233; 49; 173; 10; 31; 208; 18; 162; 44; 169; 94; 32; 176; 49; 32; 55; 48; 44; 245;
      30; 48; 3; 76; 97; 45; 162; 16; 169; 12; 157; 66; 3; 32; 86; 228; 44; 143; 35; 80; 16; 4; 72; 125]);
  (72, [162; 44; 169; 94; 32; 176; 49; 32; 55; 48; 32; 191; 48; 76; 236; 35; 76; 15; 33; 165; 8; 240; 21; 169; 45; 162; 42; 32; 176; 49; 169; 80; 162; 42; 32;
      176; 49; 32; 121; 48; 201; 89; 208; 106; 169; 0; 133; 8; 141; 158; 23; 169; 5; 133; 26; 169; 51; 133; 27; 173; 229; 2; 56; 233; 5; 141; 4; 31;
      173; 230; 2; 233; 51; 141; 5; 31; 169; 0; 141; 6; 31; 141; 7; 31; 169; 125; 24; 109; 6; 31; 141; 6; 31; 169; 0; 109; 7; 31; 141; 7; 31; 173; 5;
      31; 205; 7; 31; 144; 10; 208; 229; 173; 4; 31; 205; 6; 31; 176; 221; 173; 7; 31; 208; 8; 169; 4; 73; 125]);
  (73, [125; 205; 6; 31; 144; 1; 96; 173; 6; 31; 56; 233; 125; 141; 4; 31; 173; 7; 31; 233; 0; 141; 5; 31; 96; 169; 244; 133; 26; 169; 29; 133; 27; 169; 250;
      141; 4; 31; 169; 0; 141; 5; 31; 96; 189; 124; 29; 232; 201; 42; 240; 13; 201; 63; 240; 9; 201; 155; 240; 4; 201; 44; 208; 236; 232; 96; 232; 189;
      124; 29; 201; 58; 240; 1; 232; 232; 160; 0; 185; 45; 41; 221; 124; 29; 208; 16; 200; 232; 192; 7; 208; 242; 169; 13; 162; 47; 32; 176; 49; 76;
      15; 33; 96; 68; 69; 83; 84; 73; 78; 65; 84; 73; 79; 78; 32; 67; 65; 78; 84; 32; 66; 69; 32; 68; 79; 4; 74; 125]);
  (74, [83; 46; 83; 89; 83; 155; 19; 48; 169; 0; 141; 160; 24; 141; 190; 24; 32; 202; 48; 173; 158; 21; 72; 174; 1; 31; 169; 155; 157; 123; 29; 32; 31; 50;
      141; 195; 25; 142; 196; 25; 224; 52; 176; 3; 206; 148; 24; 32; 31; 50; 141; 197; 25; 142; 198; 25; 56; 237; 195; 25; 141; 243; 47; 138; 237; 196;
      25; 176; 3; 76; 15; 33; 141; 248; 47; 192; 155; 240; 41; 32; 31; 50; 141; 226; 2; 142; 227; 2; 13; 227; 2; 240; 3; 206; 160; 24; 192; 155; 240;
      20; 32; 31; 50; 32; 191; 48; 141; 224; 2; 142; 225; 2; 13; 225; 2; 240; 3; 206; 190; 24; 169; 0; 141; 158; 21; 4; 75; 125]);
  (75, [104; 201; 65; 208; 3; 206; 158; 21; 162; 16; 169; 3; 157; 66; 3; 44; 158; 21; 48; 4; 169; 8; 208; 2; 169; 9; 157; 74; 3; 32; 233; 49; 169; 11; 157; 66;
      3; 169; 193; 157; 68; 3; 169; 25; 157; 69; 3; 169; 6; 157; 72; 3; 169; 0; 157; 73; 3; 44; 158; 21; 16; 15; 169; 4; 157; 72; 3; 169; 195; 157; 68;
      3; 169; 25; 157; 69; 3; 32; 233; 49; 162; 16; 169; 249; 157; 72; 3; 169; 19; 157; 73; 3; 254; 72; 3; 208; 3; 254; 73; 3; 173; 195; 25; 157; 68;
      3; 173; 196; 25; 157; 69; 3; 76; 147; 24; 83; 65; 86; 69; 45; 71; 73; 86; 69; 32; 4; 76; 125]);
  (76, [70; 73; 76; 69; 44; 83; 84; 65; 82; 84; 44; 69; 78; 68; 40; 44; 73; 78; 73; 84; 44; 82; 85; 78; 41; 155; 169; 155; 162; 79; 157; 164; 29; 202; 16; 250;
      169; 0; 141; 1; 31; 141; 2; 31; 141; 245; 30; 32; 83; 48; 32; 182; 49; 96; 169; 5; 141; 66; 3; 169; 164; 141; 68; 3; 169; 29; 141; 69; 3; 169;
      80; 141; 72; 3; 169; 0; 141; 73; 3; 162; 0; 32; 86; 228; 192; 128; 208; 3; 206; 245; 30; 96; 169; 0; 141; 245; 30; 32; 83; 48; 173; 72; 3; 141;
      247; 30; 32; 182; 49; 173; 245; 30; 16; 6; 32; 146; 25; 76; 15; 33; 173; 247; 30; 201; 3; 4; 77; 125]);
  (77, [48; 10; 169; 170; 162; 48; 32; 176; 49; 76; 126; 48; 173; 164; 29; 96; 80; 76; 69; 65; 83; 69; 32; 84; 89; 80; 69; 32; 49; 32; 76; 69; 84; 84; 69; 82;
      155; 44; 245; 30; 48; 1; 96; 104; 104; 76; 15; 33; 32; 55; 48; 162; 16; 32; 216; 49; 76; 227; 48; 169; 8; 141; 3; 31; 172; 1; 31; 174; 2; 31; 76;
      60; 49; 172; 1; 31; 174; 2; 31; 169; 11; 141; 3; 31; 189; 164; 29; 201; 44; 240; 59; 201; 155; 240; 55; 189; 165; 29; 201; 44; 240; 34; 201; 155;
      240; 30; 169; 58; 221; 166; 29; 240; 49; 221; 165; 29; 208; 18; 206; 3; 31; 189; 164; 29; 201; 4; 78; 125]);
  (78, [65; 16; 34; 169; 68; 153; 124; 29; 200; 16; 26; 206; 3; 31; 206; 3; 31; 221; 164; 29; 240; 237; 206; 3; 31; 169; 68; 153; 124; 29; 200; 169; 58; 153;
      124; 29; 200; 169; 0; 141; 158; 21; 189; 164; 29; 153; 124; 29; 232; 200; 201; 155; 240; 44; 201; 44; 240; 40; 201; 47; 240; 43; 201; 46; 208; 5;
      169; 4; 141; 3; 31; 206; 3; 31; 16; 222; 169; 144; 162; 49; 32; 176; 49; 206; 245; 30; 189; 164; 29; 232; 201; 44; 240; 4; 201; 155; 208; 244;
      142; 2; 31; 140; 1; 31; 96; 189; 164; 29; 141; 158; 21; 232; 189; 164; 29; 153; 123; 29; 232; 16; 233; 78; 65; 77; 69; 4; 79; 125]);
  (79, [32; 84; 79; 79; 32; 76; 79; 78; 71; 155; 169; 11; 141; 66; 3; 162; 0; 32; 86; 228; 192; 128; 208; 3; 76; 15; 33; 96; 32; 166; 25; 76; 182; 49; 169; 0;
      170; 157; 73; 3; 169; 10; 157; 72; 3; 169; 49; 157; 69; 3; 169; 206; 157; 68; 3; 76; 158; 49; 28; 28; 28; 28; 28; 156; 29; 29; 29; 29; 169; 124;
      24; 109; 1; 31; 157; 68; 3; 169; 29; 105; 0; 157; 69; 3; 96; 32; 86; 228; 152; 48; 1; 96; 152; 56; 233; 100; 162; 47; 232; 56; 233; 10; 16; 250;
      24; 105; 58; 141; 29; 50; 142; 28; 50; 162; 50; 169; 18; 32; 176; 49; 32; 146; 25; 76; 15; 4; 80; 125]);
  (80, [33; 69; 82; 82; 79; 82; 45; 32; 32; 32; 49; 52; 52; 155; 169; 4; 141; 3; 31; 169; 0; 141; 4; 31; 141; 5; 31; 174; 2; 31; 189; 164; 29; 238; 2; 31; 201;
      155; 240; 43; 201; 44; 240; 39; 32; 160; 50; 48; 42; 160; 3; 24; 46; 5; 31; 46; 4; 31; 136; 16; 246; 13; 5; 31; 141; 5; 31; 206; 3; 31; 16; 211;
      169; 114; 162; 50; 32; 176; 49; 206; 245; 30; 96; 168; 173; 5; 31; 174; 4; 31; 96; 169; 130; 162; 50; 208; 235; 84; 79; 79; 32; 77; 65; 78; 89;
      32; 68; 73; 71; 73; 84; 83; 155; 73; 78; 86; 65; 76; 73; 68; 32; 72; 69; 88; 65; 4; 81; 125]);
  (81, [68; 69; 67; 73; 77; 65; 76; 32; 80; 65; 82; 65; 77; 69; 84; 69; 82; 155; 56; 233; 48; 48; 15; 201; 10; 48; 13; 56; 233; 7; 201; 10; 48; 4; 201; 16; 48;
      2; 169; 255; 201; 0; 96; 44; 245; 30; 48; 39; 174; 2; 31; 189; 164; 29; 232; 201; 68; 240; 248; 56; 233; 48; 240; 24; 48; 22; 201; 9; 16; 18; 72;
      189; 164; 29; 232; 201; 44; 240; 4; 201; 155; 208; 244; 142; 2; 31; 104; 96; 206; 245; 30; 169; 240; 162; 50; 76; 176; 49; 78; 69; 69; 68; 32;
      68; 49; 32; 84; 72; 82; 85; 32; 68; 56; 155; 0; 0; 0; 0; 0; 255; 224; 2; 225; 2; 117; 4; 82; 125]);
  (82, [32; 69; 67; 73; 77; 65; 76; 32; 80; 65; 82; 65; 77; 69; 84; 69; 82; 155; 56; 233; 48; 48; 15; 201; 10; 48; 13; 56; 233; 7; 201; 10; 48; 4; 201; 16; 48;
      2; 169; 255; 201; 0; 96; 44; 245; 30; 48; 39; 174; 2; 31; 189; 164; 29; 232; 201; 68; 240; 248; 56; 233; 48; 240; 24; 48; 22; 201; 9; 16; 18; 72;
      189; 164; 29; 232; 201; 44; 240; 4; 201; 155; 208; 244; 142; 2; 31; 104; 96; 206; 245; 30; 169; 240; 162; 50; 76; 176; 49; 78; 69; 69; 68; 32;
      68; 49; 32; 84; 72; 82; 85; 32; 68; 56; 155; 0; 0; 0; 0; 0; 255; 224; 2; 225; 2; 117; 4; 0; 1]);
  (83, [255; 255; 0; 56; 29; 60; 30; 60; 0; 0; 162; 255; 134; 166; 160; 12; 208; 10; 132; 166; 160; 11; 208; 4; 132; 166; 160; 5; 134; 165; 162; 0; 134; 163;
      10; 10; 10; 10; 170; 152; 157; 66; 3; 165; 163; 240; 10; 157; 74; 3; 165; 164; 157; 75; 3; 169; 0; 168; 157; 73; 3; 177; 165; 157; 72; 3; 240;
      18; 24; 165; 165; 105; 1; 157; 68; 3; 165; 166; 105; 0; 157; 69; 3; 76; 86; 228; 96; 134; 165; 132; 166; 160; 3; 76; 28; 56; 134; 165; 132; 166;
      162; 0; 134; 163; 160; 9; 32; 28; 56; 208; 10; 169; 11; 157; 66; 3; 169; 155; 76; 86; 228; 96; 0; 76; 120; 8; 84; 125]);
  (84, [56; 141; 116; 56; 108; 10; 0; 19; 17; 1; 131; 186; 142; 193; 4; 160; 128; 152; 76; 117; 56; 133; 160; 134; 161; 132; 162; 24; 104; 133; 132; 105; 3;
      168; 104; 133; 133; 105; 0; 72; 152; 72; 160; 1; 177; 132; 133; 130; 200; 177; 132; 133; 131; 200; 177; 132; 168; 185; 160; 0; 145; 130; 136; 16;
      248; 165; 17; 208; 15; 230; 17; 76; 130; 56; 8; 99; 9; 17; 25; 24; 19; 33; 35; 51; 96; 16; 22; 192; 136; 240; 8; 152; 192; 128; 240; 17; 76; 117;
      56; 138; 74; 74; 74; 74; 170; 152; 157; 192; 5; 96; 162; 1; 134; 17; 72; 32; 130; 56; 104; 168; 96; 72; 134; 161; 132; 8; 85; 125]);
  (85, [162; 168; 169; 0; 153; 192; 5; 168; 177; 161; 141; 0; 5; 168; 200; 169; 155; 208; 2; 177; 161; 153; 0; 5; 136; 208; 248; 104; 162; 0; 160; 5; 32; 81;
      56; 76; 204; 56; 134; 161; 170; 164; 161; 165; 183; 32; 90; 56; 76; 204; 56; 32; 4; 56; 76; 204; 56; 134; 161; 170; 164; 161; 165; 183; 32; 12;
      56; 76; 204; 56; 32; 28; 56; 76; 204; 56; 2; 83; 58; 64; 57; 2; 69; 58; 69; 57; 72; 169; 0; 32; 39; 57; 169; 12; 133; 163; 169; 0; 174; 72; 57;
      172; 73; 57; 32; 240; 56; 169; 6; 32; 39; 57; 104; 133; 164; 41; 48; 73; 28; 133; 163; 169; 6; 174; 67; 8; 86; 125]);
  (86, [57; 172; 68; 57; 76; 240; 56; 30; 60; 255; 255; 76; 127; 57; 32; 140; 56; 120; 57; 3; 169; 7; 141; 82; 3; 173; 121; 57; 141; 85; 3; 173; 120; 57; 141;
      84; 3; 173; 123; 57; 141; 89; 3; 173; 122; 57; 141; 88; 3; 162; 16; 169; 0; 32; 86; 228; 96; 124; 29; 138; 21; 76; 177; 57; 32; 140; 56; 170; 57;
      3; 169; 11; 141; 98; 3; 173; 171; 57; 141; 101; 3; 173; 170; 57; 141; 100; 3; 173; 173; 57; 141; 105; 3; 173; 172; 57; 141; 104; 3; 162; 32; 169;
      0; 32; 86; 228; 96; 241; 76; 224; 57; 160; 1; 140; 0; 64; 173; 1; 211; 141; 220; 57; 173; 1; 211; 8; 87; 125]);
  (87, [41; 239; 141; 1; 211; 136; 140; 0; 64; 173; 220; 57; 141; 1; 211; 173; 0; 64; 133; 160; 96; 62; 3; 13; 76; 9; 58; 169; 3; 141; 4; 58; 169; 26; 141; 3;
      58; 160; 1; 140; 5; 58; 169; 12; 205; 5; 58; 176; 3; 76; 114; 58; 173; 3; 58; 133; 174; 173; 4; 58; 133; 175; 160; 0; 177; 174; 73; 69; 240; 3;
      76; 91; 58; 24; 173; 3; 58; 105; 1; 133; 174; 173; 4; 58; 105; 0; 133; 175; 177; 174; 73; 0; 208; 5; 200; 17; 174; 73; 228; 208; 3; 76; 91; 58;
      169; 0; 133; 160; 96; 24; 173; 3; 58; 105; 3; 141; 3; 58; 173; 4; 58; 105; 0; 141; 4; 8; 88; 125]);
  (88, [58; 238; 5; 58; 76; 24; 58; 169; 1; 133; 160; 96; 1; 76; 123; 58; 141; 119; 58; 173; 119; 58; 10; 10; 10; 10; 133; 174; 166; 174; 189; 67; 3; 133; 160;
      96; 76; 146; 58; 76; 160; 58; 10; 68; 56; 58; 77; 69; 77; 46; 83; 65; 86; 169; 8; 133; 163; 169; 0; 133; 164; 160; 58; 162; 149; 169; 2; 32; 240;
      56; 169; 21; 133; 163; 160; 138; 162; 29; 169; 124; 32; 174; 57; 169; 2; 32; 39; 57; 96; 6; 20; 76; 201; 58; 76; 214; 58; 9; 68; 58; 68; 85; 80;
      46; 83; 89; 83; 169; 4; 133; 163; 169; 0; 133; 164; 160; 58; 162; 204; 169; 1; 32; 240; 56; 169; 8; 89; 125]);
  (89, [1; 32; 120; 58; 165; 160; 201; 128; 176; 3; 76; 251; 58; 169; 1; 32; 39; 57; 96; 169; 255; 133; 163; 160; 255; 174; 1; 56; 173; 0; 56; 32; 124; 57;
      173; 89; 3; 141; 197; 58; 173; 88; 3; 141; 196; 58; 169; 1; 32; 39; 57; 76; 41; 59; 10; 68; 56; 58; 68; 85; 80; 46; 83; 89; 83; 169; 8; 133; 163;
      169; 0; 133; 164; 160; 59; 162; 30; 169; 2; 32; 240; 56; 173; 197; 58; 133; 163; 172; 196; 58; 174; 1; 56; 173; 0; 56; 32; 174; 57; 169; 2; 32;
      39; 57; 169; 56; 141; 63; 21; 32; 143; 58; 96; 1; 59; 169; 87; 76; 96; 59; 32; 221; 57; 165; 160; 8; 90; 125]);
  (90, [240; 3; 76; 110; 59; 32; 224; 7; 96; 32; 6; 58; 165; 160; 141; 89; 59; 173; 89; 59; 208; 3; 76; 218; 59; 76; 171; 59; 41; 125; 29; 29; 29; 29; 29; 29;
      32; 32; 32; 83; 101; 116; 116; 105; 110; 103; 32; 85; 112; 32; 65; 84; 65; 82; 73; 32; 49; 51; 48; 88; 69; 32; 82; 97; 109; 32; 68; 105; 115;
      107; 162; 59; 169; 129; 32; 26; 57; 76; 211; 59; 29; 29; 29; 29; 29; 29; 32; 32; 32; 32; 32; 32; 32; 32; 32; 32; 32; 32; 160; 240; 236; 229; 225;
      243; 229; 160; 247; 225; 233; 244; 162; 59; 169; 181; 32; 45; 57; 173; 10; 7; 9; 128; 141; 10; 7; 8; 91; 125]);
  (91, [32; 224; 7; 169; 0; 133; 163; 169; 0; 133; 164; 76; 244; 59; 3; 68; 56; 58; 169; 59; 133; 166; 169; 240; 133; 165; 160; 254; 162; 0; 169; 1; 32; 58;
      57; 32; 198; 58; 173; 89; 59; 208; 3; 76; 28; 60; 76; 21; 60; 1; 125; 162; 60; 169; 19; 32; 45; 57; 96; 96; 224; 2; 225; 2; 93; 59; 68; 105; 115;
      107; 162; 59; 169; 129; 32; 26; 57; 76; 211; 59; 29; 29; 29; 29; 29; 29; 32; 32; 32; 32; 32; 32; 32; 32; 32; 32; 32; 32; 160; 240; 236; 229; 225;
      243; 229; 160; 247; 225; 233; 244; 162; 59; 169; 181; 32; 45; 57; 173; 10; 7; 9; 128; 141; 10; 7; 8; 0; 66]);
  (92, [255; 255; 208; 3; 225; 3; 173; 117; 32; 201; 76; 208; 8; 32; 60; 46; 165; 8; 208; 1; 96; 76; 117; 32; 226; 2; 227; 2; 208; 3; 255; 255; 0; 52; 199; 85;
      32; 40; 99; 41; 49; 57; 56; 51; 32; 65; 99; 116; 105; 111; 110; 32; 67; 111; 109; 112; 117; 116; 101; 114; 32; 83; 101; 114; 118; 105; 99; 101;
      115; 162; 255; 134; 166; 160; 12; 208; 10; 132; 166; 160; 11; 208; 4; 132; 166; 160; 5; 134; 165; 162; 0; 134; 163; 10; 10; 10; 10; 170; 152;
      157; 66; 3; 165; 163; 240; 10; 157; 74; 3; 165; 164; 157; 75; 3; 169; 0; 168; 157; 73; 3; 177; 165; 157; 72; 3; 12; 93; 125]);
  (93, [240; 18; 24; 165; 165; 105; 1; 157; 68; 3; 165; 166; 105; 0; 157; 69; 3; 76; 86; 228; 96; 134; 165; 132; 166; 160; 3; 76; 57; 52; 134; 165; 132; 166;
      162; 0; 134; 163; 160; 9; 32; 57; 52; 208; 10; 169; 11; 157; 66; 3; 169; 155; 76; 86; 228; 96; 34; 76; 149; 52; 141; 145; 52; 108; 10; 0; 19; 17;
      1; 131; 186; 142; 193; 4; 160; 128; 152; 76; 146; 52; 164; 132; 240; 10; 134; 133; 10; 38; 133; 136; 208; 250; 166; 133; 96; 164; 132; 240; 10;
      134; 133; 70; 133; 106; 136; 208; 250; 166; 133; 96; 164; 211; 16; 16; 133; 134; 134; 135; 56; 169; 0; 229; 134; 168; 169; 12; 94; 125]);
  (94, [0; 229; 135; 170; 152; 96; 134; 211; 224; 0; 16; 3; 32; 203; 52; 133; 130; 134; 131; 165; 133; 16; 14; 170; 69; 211; 133; 211; 165; 132; 32; 203; 52;
      133; 132; 134; 133; 169; 0; 133; 135; 96; 240; 27; 202; 134; 199; 170; 240; 21; 134; 198; 169; 0; 162; 8; 10; 6; 198; 144; 2; 101; 199; 202; 208;
      246; 24; 101; 135; 133; 135; 165; 134; 166; 135; 96; 32; 220; 52; 166; 130; 240; 27; 134; 198; 166; 132; 240; 21; 202; 134; 199; 162; 8; 10; 38;
      135; 6; 198; 144; 6; 101; 199; 144; 2; 230; 135; 202; 208; 240; 133; 134; 165; 130; 166; 133; 32; 0; 53; 165; 131; 166; 132; 32; 0; 12; 95; 125]);
  (95, [53; 76; 199; 52; 32; 220; 52; 165; 133; 240; 39; 162; 8; 38; 130; 38; 131; 38; 135; 56; 165; 131; 229; 132; 168; 165; 135; 229; 133; 144; 4; 133; 135;
      132; 131; 202; 208; 231; 165; 130; 42; 162; 0; 164; 131; 132; 134; 76; 199; 52; 162; 16; 38; 130; 38; 131; 42; 176; 4; 197; 132; 144; 3; 229;
      132; 56; 202; 208; 239; 38; 130; 38; 131; 133; 134; 165; 130; 166; 131; 76; 199; 52; 32; 87; 53; 165; 134; 166; 135; 96; 133; 160; 134; 161; 132;
      162; 24; 104; 133; 132; 105; 3; 168; 104; 133; 133; 105; 0; 72; 152; 72; 160; 1; 177; 132; 133; 130; 200; 177; 132; 133; 131; 200; 177; 132; 12;
      96; 125]);
  (96, [168; 185; 160; 0; 145; 130; 136; 16; 248; 165; 17; 208; 15; 230; 17; 76; 159; 52; 8; 99; 9; 17; 25; 24; 19; 33; 35; 51; 96; 16; 22; 192; 136; 240; 8;
      152; 192; 128; 240; 18; 76; 146; 52; 138; 74; 74; 74; 74; 170; 152; 157; 192; 5; 96; 162; 1; 134; 17; 72; 32; 159; 52; 104; 168; 96; 72; 134;
      161; 132; 162; 168; 169; 0; 153; 192; 5; 168; 177; 161; 141; 0; 5; 168; 200; 169; 155; 208; 2; 177; 161; 153; 0; 5; 136; 208; 248; 104; 162; 0;
      160; 5; 32; 110; 52; 76; 237; 53; 134; 161; 170; 164; 161; 165; 183; 32; 119; 52; 76; 237; 53; 32; 33; 52; 76; 237; 12; 97; 125]);
  (97, [53; 134; 161; 170; 164; 161; 165; 183; 32; 41; 52; 76; 237; 53; 32; 47; 52; 132; 160; 189; 72; 3; 240; 3; 56; 233; 1; 160; 0; 145; 165; 164; 160; 96;
      134; 162; 170; 164; 162; 165; 183; 72; 169; 255; 133; 163; 104; 72; 134; 161; 132; 162; 160; 0; 165; 163; 145; 161; 104; 164; 162; 32; 91; 54;
      76; 237; 53; 162; 7; 134; 163; 10; 10; 10; 10; 170; 165; 163; 157; 66; 3; 169; 0; 157; 72; 3; 157; 73; 3; 152; 32; 86; 228; 133; 160; 76; 237;
      53; 169; 155; 170; 165; 183; 134; 161; 164; 161; 162; 11; 76; 146; 54; 160; 155; 208; 247; 32; 57; 52; 76; 237; 53; 133; 212; 134; 12; 98; 125]);
  (98, [213; 32; 170; 217; 32; 230; 216; 160; 255; 162; 0; 200; 232; 177; 243; 157; 80; 5; 16; 247; 73; 128; 157; 80; 5; 142; 80; 5; 96; 162; 0; 32; 199; 54;
      165; 183; 162; 80; 160; 5; 32; 41; 52; 76; 237; 53; 162; 0; 32; 233; 54; 76; 175; 54; 160; 0; 133; 160; 138; 132; 162; 166; 162; 32; 199; 54;
      165; 160; 76; 238; 54; 160; 0; 32; 2; 55; 165; 160; 76; 189; 54; 134; 162; 170; 164; 162; 165; 183; 192; 0; 16; 22; 72; 134; 161; 132; 162; 160;
      45; 32; 184; 54; 56; 169; 0; 229; 161; 170; 169; 0; 229; 162; 168; 104; 76; 2; 55; 32; 27; 55; 76; 175; 54; 32; 34; 12; 99; 125]);
  (99, [55; 165; 160; 76; 189; 54; 134; 162; 132; 163; 162; 0; 164; 162; 132; 162; 32; 199; 54; 200; 185; 80; 5; 145; 162; 136; 16; 248; 96; 224; 0; 16; 237;
      133; 160; 134; 161; 132; 162; 56; 169; 0; 229; 160; 168; 169; 0; 229; 161; 170; 152; 32; 199; 54; 232; 138; 168; 185; 79; 5; 145; 162; 136; 208;
      248; 138; 145; 162; 200; 169; 45; 145; 162; 96; 165; 183; 162; 19; 142; 80; 5; 162; 80; 160; 5; 32; 138; 54; 169; 80; 162; 5; 133; 164; 134; 165;
      160; 0; 132; 160; 132; 161; 132; 162; 177; 164; 133; 163; 230; 163; 169; 32; 200; 209; 164; 208; 5; 200; 196; 163; 48; 247; 177; 164; 201; 12;
      100; 125]);
  (100, [45; 208; 3; 133; 162; 200; 196; 163; 16; 54; 177; 164; 201; 48; 48; 48; 201; 58; 16; 44; 56; 233; 48; 170; 165; 161; 72; 165; 160; 10; 38; 161; 10; 38;
      161; 24; 101; 160; 133; 160; 104; 101; 161; 133; 161; 6; 160; 38; 161; 24; 138; 101; 160; 133; 160; 144; 2; 230; 161; 200; 196; 163; 48; 202;
      165; 162; 240; 13; 56; 169; 0; 229; 160; 133; 160; 169; 0; 229; 161; 133; 161; 96; 133; 164; 134; 165; 169; 4; 133; 166; 169; 36; 32; 177; 54;
      169; 0; 162; 4; 6; 164; 38; 165; 42; 202; 208; 248; 105; 48; 201; 58; 48; 2; 105; 6; 32; 177; 54; 198; 166; 208; 229; 96; 133; 192; 12; 101; 125]);
  (101, [134; 193; 140; 240; 5; 160; 0; 177; 192; 133; 194; 230; 194; 162; 13; 181; 162; 157; 240; 5; 202; 208; 248; 134; 139; 134; 138; 230; 138; 164; 138;
      196; 194; 176; 218; 177; 192; 201; 37; 208; 15; 230; 138; 200; 177; 192; 201; 37; 240; 6; 201; 69; 208; 8; 169; 155; 32; 177; 54; 76; 92; 56;
      164; 139; 230; 139; 230; 139; 133; 160; 185; 240; 5; 190; 241; 5; 164; 160; 192; 67; 240; 230; 192; 83; 208; 6; 32; 78; 54; 76; 92; 56; 192; 73;
      208; 6; 32; 27; 55; 76; 92; 56; 192; 72; 208; 6; 32; 22; 56; 76; 92; 56; 32; 233; 54; 76; 92; 56; 134; 161; 132; 162; 10; 10; 10; 12; 102; 125]);
  (102, [10; 170; 169; 38; 157; 66; 3; 32; 86; 228; 32; 237; 53; 160; 0; 189; 78; 3; 145; 163; 189; 76; 3; 145; 161; 189; 77; 3; 200; 145; 161; 96; 134; 161;
      10; 10; 10; 10; 170; 152; 157; 77; 3; 165; 161; 157; 76; 3; 165; 163; 157; 78; 3; 169; 37; 157; 66; 3; 32; 86; 228; 76; 237; 53; 2; 83; 58; 254;
      56; 2; 69; 58; 3; 57; 133; 91; 134; 92; 132; 90; 133; 85; 134; 86; 132; 84; 96; 133; 164; 134; 165; 132; 162; 160; 0; 132; 160; 132; 161; 177;
      164; 209; 162; 240; 3; 32; 61; 57; 201; 0; 208; 1; 96; 133; 166; 200; 177; 164; 209; 162; 208; 5; 196; 166; 144; 12; 103; 125]);
  (103, [245; 96; 162; 255; 134; 160; 144; 3; 177; 162; 232; 134; 161; 96; 133; 160; 134; 161; 132; 162; 160; 0; 177; 162; 145; 160; 240; 8; 168; 177; 162; 145;
      160; 136; 208; 249; 96; 133; 160; 134; 161; 132; 162; 160; 0; 177; 162; 197; 165; 176; 2; 133; 165; 198; 164; 24; 165; 162; 101; 164; 133; 162;
      144; 2; 230; 163; 56; 165; 165; 229; 164; 176; 2; 169; 0; 76; 83; 57; 133; 160; 134; 161; 132; 162; 160; 0; 177; 162; 240; 13; 133; 166; 198;
      164; 56; 165; 165; 229; 164; 240; 2; 176; 1; 96; 170; 197; 166; 144; 8; 24; 165; 166; 170; 101; 164; 133; 165; 165; 165; 209; 160; 144; 3; 145;
      160; 12; 104; 125]);
  (104, [24; 165; 160; 101; 164; 133; 160; 144; 2; 230; 161; 138; 76; 87; 57; 41; 34; 41; 218; 84; 238; 26; 0; 49; 0; 0; 30; 0; 82; 73; 78; 84; 69; 40; 34; 32;
      32; 32; 98; 117; 116; 32; 68; 79; 32; 117; 115; 101; 32; 116; 104; 101; 32; 112; 14; 68; 49; 58; 65; 85; 84; 79; 82; 85; 78; 46; 83; 89; 83; 3;
      68; 49; 58; 18; 68; 49; 58; 68; 79; 83; 46; 83; 89; 83; 44; 68; 79; 83; 46; 83; 89; 83; 6; 82; 85; 78; 34; 68; 58; 0; 0; 10; 0; 32; 46; 83; 65;
      86; 44; 0; 1; 2; 4; 8; 16; 32; 64; 128; 255; 255; 252; 55; 75; 56; 169; 12; 105; 125]);
  (105, [0; 133; 8; 169; 80; 141; 0; 3; 169; 1; 141; 1; 3; 169; 63; 141; 2; 3; 169; 64; 141; 3; 3; 169; 5; 141; 6; 3; 141; 5; 3; 169; 0; 141; 4; 3; 141; 9; 3;
      141; 10; 3; 141; 11; 3; 169; 12; 141; 8; 3; 32; 89; 228; 16; 1; 96; 162; 11; 189; 0; 5; 157; 0; 3; 202; 16; 247; 32; 89; 228; 48; 6; 32; 6; 5;
      108; 12; 0; 96; 226; 2; 227; 2; 252; 55; 255; 255; 160; 6; 162; 6; 76; 175; 6; 175; 6; 251; 6; 160; 11; 185; 0; 228; 153; 163; 6; 136; 16; 247;
      169; 222; 141; 167; 6; 169; 6; 141; 168; 6; 172; 170; 6; 174; 169; 6; 12; 106; 125]);
  (106, [232; 208; 1; 200; 142; 246; 6; 140; 247; 6; 169; 163; 141; 33; 3; 169; 6; 141; 34; 3; 96; 172; 0; 6; 208; 10; 169; 0; 141; 33; 3; 169; 228; 141; 34; 3;
      185; 1; 6; 206; 0; 6; 72; 32; 251; 6; 104; 160; 1; 96; 253; 6; 255; 6; 108; 250; 191; 68; 2; 68; 2; 0; 9; 0; 9; 0; 1; 226; 2; 227; 2; 160; 6;
      224; 2; 225; 2; 253; 6; 0; 76; 5; 59; 141; 1; 59; 173; 1; 59; 208; 3; 76; 57; 59; 32; 175; 54; 76; 50; 59; 27; 32; 32; 32; 116; 111; 32; 99; 111;
      110; 116; 105; 110; 117; 101; 44; 32; 112; 117; 115; 104; 32; 160; 211; 212; 12; 107; 125]);
  (107, [193; 210; 212; 162; 59; 169; 22; 32; 78; 54; 173; 31; 208; 41; 1; 133; 174; 165; 174; 73; 1; 240; 3; 76; 76; 59; 76; 57; 59; 173; 31; 208; 41; 1; 133;
      174; 165; 174; 240; 3; 76; 93; 59; 76; 76; 59; 96; 0; 76; 98; 59; 169; 255; 141; 252; 2; 169; 7; 32; 144; 54; 165; 160; 141; 94; 59; 173; 94; 59;
      133; 160; 96; 111; 117; 114; 32; 66; 76; 127; 59; 32; 173; 53; 119; 59; 2; 160; 0; 140; 123; 59; 32; 95; 59; 165; 160; 141; 122; 59; 173; 122;
      59; 73; 155; 240; 3; 76; 206; 59; 24; 173; 123; 59; 105; 1; 133; 174; 24; 173; 119; 59; 101; 174; 133; 172; 12; 108; 125]);
  (108, [173; 120; 59; 105; 0; 133; 173; 169; 155; 160; 0; 145; 172; 173; 119; 59; 133; 174; 173; 120; 59; 133; 175; 173; 123; 59; 145; 174; 173; 123; 59; 133;
      160; 96; 173; 122; 59; 41; 127; 141; 122; 59; 173; 122; 59; 73; 125; 240; 3; 76; 20; 60; 169; 0; 205; 123; 59; 144; 3; 76; 20; 60; 160; 1; 140;
      122; 59; 173; 123; 59; 141; 0; 60; 173; 0; 60; 205; 122; 59; 176; 4; 76; 12; 60; 218; 169; 126; 32; 177; 54; 238; 122; 59; 76; 245; 59; 160; 0;
      140; 123; 59; 76; 171; 60; 173; 122; 59; 73; 126; 240; 3; 76; 58; 60; 169; 0; 205; 123; 59; 144; 3; 76; 58; 60; 173; 12; 109; 125]);
  (109, [122; 59; 32; 177; 54; 56; 173; 123; 59; 233; 1; 141; 123; 59; 76; 171; 60; 173; 122; 59; 201; 96; 176; 3; 76; 76; 60; 173; 122; 59; 41; 95; 141; 122;
      59; 173; 122; 59; 201; 48; 176; 3; 76; 93; 60; 169; 57; 205; 122; 59; 176; 27; 173; 122; 59; 201; 65; 176; 3; 76; 110; 60; 169; 90; 205; 122; 59;
      176; 10; 173; 122; 59; 73; 46; 240; 3; 76; 166; 60; 173; 123; 59; 205; 121; 59; 144; 3; 76; 166; 60; 173; 122; 59; 32; 177; 54; 238; 123; 59; 24;
      173; 119; 59; 109; 123; 59; 133; 174; 173; 120; 59; 105; 0; 133; 175; 173; 122; 59; 160; 0; 145; 174; 76; 171; 60; 12; 110; 125]);
  (110, [169; 253; 32; 177; 54; 76; 138; 59; 99; 101; 218; 84; 8; 24; 76; 183; 60; 32; 173; 53; 174; 60; 3; 173; 174; 60; 133; 174; 173; 175; 60; 133; 175; 160;
      0; 177; 174; 141; 179; 60; 200; 140; 178; 60; 173; 176; 60; 133; 174; 173; 177; 60; 133; 175; 136; 177; 174; 141; 237; 60; 173; 237; 60; 205;
      178; 60; 176; 4; 76; 34; 61; 242; 24; 173; 179; 60; 109; 178; 60; 133; 174; 24; 173; 174; 60; 101; 174; 133; 172; 173; 175; 60; 105; 0; 133; 173;
      24; 173; 176; 60; 109; 178; 60; 133; 174; 173; 177; 60; 105; 0; 133; 175; 160; 0; 177; 174; 145; 172; 238; 178; 60; 76; 226; 60; 173; 12; 111;
      125]);
  (111, [174; 60; 133; 174; 173; 175; 60; 133; 175; 173; 176; 60; 133; 172; 173; 177; 60; 133; 173; 24; 173; 179; 60; 160; 0; 113; 172; 145; 174; 96; 32; 76;
      69; 61; 141; 65; 61; 173; 65; 61; 141; 206; 57; 96; 76; 82; 61; 173; 199; 57; 133; 16; 165; 16; 141; 14; 210; 76; 117; 32; 104; 76; 99; 61; 32;
      95; 59; 165; 160; 41; 95; 141; 95; 61; 173; 95; 61; 73; 89; 240; 3; 76; 132; 61; 169; 89; 32; 177; 54; 169; 1; 133; 160; 96; 76; 160; 61; 173;
      95; 61; 73; 78; 240; 3; 76; 155; 61; 169; 78; 32; 177; 54; 169; 0; 133; 160; 96; 76; 160; 61; 169; 253; 32; 177; 54; 12; 112; 125]);
  (112, [76; 99; 61; 76; 166; 61; 76; 202; 61; 32; 125; 29; 29; 29; 84; 104; 97; 116; 32; 119; 97; 115; 32; 110; 111; 116; 32; 97; 32; 118; 97; 108; 105; 100;
      32; 99; 104; 111; 105; 99; 101; 33; 162; 61; 169; 169; 32; 59; 54; 76; 242; 61; 29; 29; 29; 67; 104; 111; 111; 115; 101; 32; 111; 110; 108; 121;
      32; 48; 44; 32; 49; 44; 32; 50; 44; 32; 111; 114; 32; 51; 32; 33; 162; 61; 169; 212; 32; 59; 54; 96; 102; 97; 99; 101; 76; 1; 62; 32; 173; 53;
      250; 61; 2; 160; 0; 140; 253; 61; 56; 173; 252; 61; 233; 1; 141; 32; 62; 173; 32; 62; 205; 253; 61; 176; 4; 12; 113; 125]);
  (113, [76; 68; 62; 111; 24; 173; 250; 61; 109; 253; 61; 133; 174; 173; 251; 61; 105; 0; 133; 175; 160; 0; 177; 174; 133; 161; 166; 161; 169; 1; 32; 180; 54;
      238; 253; 61; 76; 21; 62; 96; 84; 76; 73; 62; 76; 106; 62; 29; 125; 29; 29; 32; 32; 32; 32; 160; 195; 232; 225; 238; 231; 229; 160; 195; 245;
      242; 242; 229; 238; 244; 160; 196; 242; 233; 246; 229; 160; 162; 62; 169; 76; 32; 59; 54; 76; 149; 62; 32; 29; 84; 104; 105; 115; 32; 112; 114;
      111; 103; 114; 97; 109; 32; 119; 105; 108; 108; 32; 119; 111; 114; 107; 32; 119; 105; 116; 104; 32; 97; 110; 100; 162; 62; 169; 116; 32; 12; 114;
      125]);
  (114, [59; 54; 76; 194; 62; 34; 32; 32; 32; 97; 102; 102; 101; 99; 116; 32; 116; 104; 101; 32; 100; 105; 115; 107; 101; 116; 116; 101; 32; 105; 110; 115; 101;
      114; 116; 101; 100; 32; 105; 110; 162; 62; 169; 159; 32; 59; 54; 76; 226; 62; 21; 32; 32; 32; 100; 114; 105; 118; 101; 32; 110; 117; 109; 98;
      101; 114; 32; 37; 67; 46; 37; 69; 169; 0; 133; 163; 172; 207; 57; 162; 62; 169; 204; 32; 63; 56; 76; 22; 63; 34; 29; 29; 84; 111; 32; 115; 112;
      101; 99; 105; 102; 121; 32; 97; 110; 111; 116; 104; 101; 114; 32; 100; 114; 105; 118; 101; 44; 32; 115; 105; 109; 112; 108; 121; 162; 12; 115;
      125]);
  (115, [62; 169; 243; 32; 59; 54; 76; 68; 63; 35; 32; 32; 32; 101; 110; 116; 101; 114; 32; 106; 117; 115; 116; 32; 116; 104; 101; 32; 100; 114; 105; 118; 101;
      39; 115; 32; 110; 117; 109; 98; 101; 114; 32; 97; 116; 162; 63; 169; 32; 32; 59; 54; 76; 113; 63; 34; 32; 32; 32; 116; 104; 101; 32; 112; 114;
      111; 109; 112; 116; 32; 40; 97; 110; 121; 32; 107; 101; 121; 32; 98; 117; 116; 32; 97; 32; 118; 97; 108; 105; 100; 162; 63; 169; 78; 32; 59; 54;
      76; 162; 63; 38; 32; 32; 32; 100; 114; 105; 118; 101; 32; 110; 117; 109; 98; 101; 114; 32; 114; 101; 113; 117; 101; 115; 116; 115; 12; 116; 125]);
  (116, [32; 39; 110; 111; 32; 99; 104; 97; 110; 103; 101; 39; 41; 46; 162; 63; 169; 123; 32; 59; 54; 76; 196; 63; 23; 29; 29; 87; 104; 105; 99; 104; 32; 100;
      114; 105; 118; 101; 32; 116; 111; 32; 117; 115; 101; 32; 63; 32; 162; 63; 169; 172; 32; 78; 54; 32; 95; 59; 165; 160; 141; 69; 62; 173; 69; 62;
      201; 49; 176; 3; 76; 58; 64; 169; 52; 205; 69; 62; 176; 3; 76; 58; 64; 173; 69; 62; 32; 177; 54; 173; 69; 62; 141; 207; 57; 173; 69; 62; 141;
      240; 57; 173; 69; 62; 141; 255; 57; 173; 69; 62; 141; 3; 58; 76; 41; 64; 32; 37; 69; 37; 69; 32; 32; 32; 32; 12; 117; 125]);
  (117, [68; 114; 105; 118; 101; 32; 37; 67; 32; 110; 111; 119; 32; 115; 101; 108; 101; 99; 116; 101; 100; 46; 37; 69; 169; 0; 133; 163; 172; 207; 57; 162; 64;
      169; 8; 32; 63; 56; 76; 117; 64; 76; 103; 64; 41; 37; 69; 37; 69; 78; 111; 32; 99; 104; 97; 110; 103; 101; 45; 45; 100; 114; 105; 118; 101; 32;
      37; 67; 32; 115; 116; 105; 108; 108; 32; 115; 101; 108; 101; 99; 116; 101; 100; 46; 37; 69; 169; 0; 133; 163; 172; 207; 57; 162; 64; 169; 61; 32;
      63; 56; 96; 39; 76; 122; 64; 76; 158; 64; 32; 29; 29; 29; 67; 117; 114; 114; 101; 110; 116; 32; 83; 121; 115; 116; 101; 12; 118; 125]);
  (118, [109; 32; 67; 111; 110; 102; 105; 103; 117; 114; 97; 116; 105; 111; 110; 58; 162; 64; 169; 125; 32; 59; 54; 76; 185; 64; 16; 29; 65; 99; 116; 105; 118;
      101; 32; 68; 114; 105; 118; 101; 115; 58; 32; 162; 64; 169; 168; 32; 78; 54; 160; 1; 140; 118; 64; 169; 8; 205; 118; 64; 176; 3; 76; 249; 64;
      173; 10; 7; 174; 118; 64; 61; 37; 58; 133; 174; 165; 174; 208; 3; 76; 243; 64; 24; 173; 118; 64; 105; 48; 133; 160; 165; 160; 32; 177; 54; 169;
      32; 32; 177; 54; 238; 118; 64; 76; 197; 64; 32; 175; 54; 173; 10; 7; 41; 128; 133; 174; 165; 174; 208; 3; 76; 45; 65; 76; 12; 119; 125]);
  (119, [38; 65; 24; 32; 32; 32; 32; 32; 32; 32; 32; 32; 32; 32; 32; 32; 32; 32; 40; 82; 97; 109; 68; 105; 115; 107; 41; 162; 65; 169; 13; 32; 59; 54; 173; 10;
      7; 41; 143; 141; 118; 64; 173; 118; 64; 73; 15; 240; 3; 76; 190; 65; 76; 100; 65; 33; 195; 193; 213; 212; 201; 207; 206; 186; 32; 73; 70; 32; 97;
      32; 82; 65; 77; 68; 73; 83; 75; 32; 105; 115; 32; 97; 100; 100; 101; 100; 32; 116; 111; 162; 65; 169; 66; 32; 59; 54; 76; 146; 65; 35; 32; 32;
      32; 116; 104; 105; 115; 32; 99; 111; 110; 102; 105; 103; 117; 114; 97; 116; 105; 111; 110; 44; 32; 116; 104; 12; 120; 125]);
  (120, [101; 32; 68; 79; 83; 32; 109; 101; 110; 117; 162; 65; 169; 110; 32; 59; 54; 76; 183; 65; 26; 32; 32; 32; 119; 105; 108; 108; 32; 78; 79; 84; 32; 119;
      111; 114; 107; 32; 112; 114; 111; 112; 101; 114; 108; 121; 33; 162; 65; 169; 156; 32; 59; 54; 173; 118; 64; 73; 143; 240; 3; 76; 79; 66; 76; 237;
      65; 33; 196; 193; 206; 199; 197; 210; 186; 32; 100; 111; 32; 78; 79; 84; 32; 114; 101; 116; 117; 114; 110; 32; 116; 111; 32; 68; 79; 83; 32; 119;
      105; 116; 104; 162; 65; 169; 203; 32; 59; 54; 76; 26; 66; 34; 32; 32; 32; 116; 104; 105; 115; 32; 99; 111; 110; 102; 105; 12; 121; 125]);
  (121, [103; 117; 114; 97; 116; 105; 111; 110; 32; 97; 99; 116; 105; 118; 101; 46; 32; 32; 116; 104; 101; 162; 65; 169; 247; 32; 59; 54; 76; 72; 66; 35; 32;
      32; 32; 68; 79; 83; 32; 109; 101; 110; 117; 32; 119; 105; 108; 108; 32; 78; 79; 84; 32; 119; 111; 114; 107; 32; 112; 114; 111; 112; 101; 114;
      108; 121; 33; 162; 66; 169; 36; 32; 59; 54; 76; 124; 66; 41; 37; 69; 85; 112; 32; 116; 111; 32; 37; 66; 32; 102; 105; 108; 101; 115; 32; 111;
      112; 101; 110; 32; 115; 105; 109; 117; 108; 116; 97; 110; 101; 111; 117; 115; 108; 121; 46; 37; 69; 37; 69; 169; 0; 133; 163; 172; 9; 12; 122;
      125]);
  (122, [7; 162; 66; 169; 82; 32; 63; 56; 76; 160; 66; 18; 68; 105; 115; 107; 32; 119; 114; 105; 116; 101; 115; 32; 111; 99; 99; 117; 114; 32; 162; 66; 169;
      141; 32; 78; 54; 173; 121; 7; 73; 80; 240; 3; 76; 208; 66; 76; 198; 66; 17; 160; 247; 233; 244; 232; 239; 245; 244; 160; 32; 118; 101; 114; 105;
      102; 121; 46; 162; 66; 169; 180; 32; 59; 54; 76; 231; 66; 76; 224; 66; 12; 119; 105; 116; 104; 32; 118; 101; 114; 105; 102; 121; 46; 162; 66;
      169; 211; 32; 59; 54; 96; 32; 67; 108; 111; 76; 239; 66; 76; 25; 67; 38; 125; 29; 29; 29; 32; 32; 32; 32; 32; 160; 195; 232; 12; 123; 125]);
  (123, [225; 238; 231; 229; 160; 211; 249; 243; 244; 229; 237; 160; 195; 239; 238; 230; 233; 231; 245; 242; 225; 244; 233; 239; 238; 160; 162; 66; 169; 242;
      32; 59; 54; 32; 119; 64; 76; 73; 67; 34; 29; 68; 111; 32; 121; 111; 117; 32; 119; 97; 110; 116; 32; 116; 111; 32; 99; 104; 97; 110; 103; 101; 32;
      97; 110; 121; 32; 112; 97; 114; 116; 32; 111; 102; 162; 67; 169; 38; 32; 59; 54; 76; 114; 67; 30; 32; 32; 32; 116; 104; 97; 116; 32; 99; 111;
      110; 102; 105; 103; 117; 114; 97; 116; 105; 111; 110; 32; 40; 89; 47; 78; 41; 32; 63; 32; 162; 67; 169; 83; 32; 78; 54; 32; 96; 61; 12; 124; 125]);
  (124, [165; 160; 240; 3; 76; 143; 67; 32; 175; 54; 32; 175; 54; 160; 0; 140; 203; 57; 96; 173; 10; 7; 141; 232; 66; 173; 9; 7; 141; 233; 66; 173; 121; 7; 141;
      234; 66; 76; 200; 67; 35; 125; 29; 29; 29; 83; 112; 101; 99; 105; 102; 121; 32; 97; 99; 116; 105; 118; 101; 32; 100; 114; 105; 118; 101; 115; 32;
      98; 121; 32; 115; 105; 109; 112; 108; 121; 162; 67; 169; 164; 32; 59; 54; 76; 245; 67; 34; 32; 32; 32; 116; 121; 112; 105; 110; 103; 32; 116;
      104; 101; 105; 114; 32; 100; 114; 105; 118; 101; 32; 110; 117; 109; 98; 101; 114; 115; 44; 32; 111; 110; 101; 162; 67; 169; 210; 12; 125; 125]);
  (125, [32; 59; 54; 76; 33; 68; 33; 32; 32; 32; 97; 102; 116; 101; 114; 32; 97; 110; 111; 116; 104; 101; 114; 46; 32; 32; 65; 110; 121; 32; 107; 101; 121; 32;
      101; 120; 99; 101; 112; 116; 162; 67; 169; 255; 32; 59; 54; 76; 79; 68; 35; 32; 32; 32; 97; 32; 118; 97; 108; 105; 100; 32; 100; 114; 105; 118;
      101; 32; 110; 117; 109; 98; 101; 114; 32; 40; 49; 32; 116; 111; 32; 52; 41; 32; 105; 115; 162; 68; 169; 43; 32; 59; 54; 76; 125; 68; 35; 32; 32;
      32; 97; 115; 115; 117; 109; 101; 100; 32; 116; 111; 32; 98; 101; 32; 101; 110; 100; 32; 111; 102; 32; 121; 111; 117; 114; 12; 126; 125]);
  (126, [32; 101; 110; 116; 114; 121; 46; 162; 68; 169; 89; 32; 59; 54; 76; 160; 68; 24; 29; 65; 99; 116; 105; 118; 101; 32; 100; 114; 105; 118; 101; 32; 110;
      117; 109; 98; 101; 114; 115; 32; 63; 32; 162; 68; 169; 135; 32; 78; 54; 173; 10; 7; 41; 128; 133; 174; 165; 174; 9; 1; 141; 10; 7; 32; 95; 59;
      165; 160; 141; 235; 66; 173; 235; 66; 201; 49; 176; 3; 76; 241; 68; 169; 52; 205; 235; 66; 176; 3; 76; 241; 68; 173; 235; 66; 32; 177; 54; 169;
      32; 32; 177; 54; 173; 235; 66; 41; 7; 133; 174; 173; 10; 7; 166; 174; 29; 37; 58; 141; 10; 7; 76; 244; 68; 76; 247; 12; 127; 125]);
  (127, [68; 76; 181; 68; 32; 175; 54; 76; 33; 69; 35; 29; 72; 111; 119; 32; 109; 97; 110; 121; 32; 102; 105; 108; 101; 115; 32; 100; 111; 32; 121; 111; 117;
      32; 110; 101; 101; 100; 32; 116; 111; 32; 104; 97; 118; 101; 162; 68; 169; 253; 32; 59; 54; 76; 75; 69; 31; 32; 32; 32; 111; 112; 101; 110; 32;
      115; 105; 109; 117; 108; 116; 97; 110; 101; 111; 117; 115; 108; 121; 32; 40; 49; 45; 55; 41; 32; 63; 32; 162; 69; 169; 43; 32; 78; 54; 32; 95;
      59; 165; 160; 141; 235; 66; 173; 235; 66; 201; 49; 176; 3; 76; 124; 69; 169; 55; 205; 235; 66; 176; 3; 76; 124; 69; 173; 235; 12; 128; 125]);
  (128, [66; 32; 177; 54; 173; 235; 66; 41; 7; 141; 9; 7; 32; 175; 54; 76; 164; 69; 33; 29; 68; 111; 32; 121; 111; 117; 32; 119; 97; 110; 116; 32; 100; 105;
      115; 107; 32; 119; 114; 105; 116; 101; 115; 32; 116; 111; 32; 111; 99; 99; 117; 114; 162; 69; 169; 130; 32; 59; 54; 76; 202; 69; 27; 32; 32; 32;
      160; 247; 233; 244; 232; 239; 245; 244; 160; 32; 118; 101; 114; 105; 102; 121; 32; 40; 89; 47; 78; 41; 32; 63; 162; 69; 169; 174; 32; 78; 54; 32;
      96; 61; 165; 160; 73; 1; 240; 3; 76; 229; 69; 169; 80; 141; 121; 7; 76; 234; 69; 169; 87; 141; 121; 7; 76; 15; 70; 12; 129; 125]);
  (129, [33; 125; 29; 29; 32; 32; 32; 32; 160; 206; 229; 247; 160; 211; 249; 243; 244; 229; 237; 160; 195; 239; 238; 230; 233; 231; 245; 242; 225; 244; 233;
      239; 238; 160; 162; 69; 169; 237; 32; 59; 54; 32; 119; 64; 76; 64; 70; 35; 29; 29; 65; 114; 101; 32; 121; 111; 117; 32; 160; 243; 245; 242; 229;
      160; 32; 116; 104; 105; 115; 32; 99; 111; 110; 102; 105; 103; 117; 114; 97; 116; 105; 111; 110; 162; 70; 169; 28; 32; 59; 54; 76; 103; 70; 28;
      32; 32; 32; 105; 115; 32; 119; 104; 97; 116; 32; 121; 111; 117; 32; 119; 97; 110; 116; 32; 40; 89; 47; 78; 41; 32; 63; 32; 162; 70; 169; 12; 130;
      125]);
  (130, [74; 32; 78; 54; 32; 96; 61; 165; 160; 240; 3; 76; 141; 70; 173; 234; 66; 141; 121; 7; 173; 233; 66; 141; 9; 7; 173; 232; 66; 141; 10; 7; 76; 237; 71;
      32; 224; 7; 32; 175; 54; 76; 184; 70; 33; 29; 67; 117; 114; 114; 101; 110; 116; 32; 115; 121; 115; 116; 101; 109; 32; 99; 111; 110; 102; 105;
      103; 117; 114; 97; 116; 105; 111; 110; 32; 104; 97; 115; 162; 70; 169; 150; 32; 59; 54; 76; 227; 70; 32; 32; 32; 32; 98; 101; 101; 110; 32; 99;
      104; 97; 110; 103; 101; 100; 46; 32; 32; 68; 111; 32; 121; 111; 117; 32; 119; 97; 110; 116; 32; 116; 111; 162; 70; 169; 194; 12; 131; 125]);
  (131, [32; 59; 54; 76; 15; 71; 33; 32; 32; 32; 109; 97; 107; 101; 32; 116; 104; 101; 115; 101; 32; 99; 104; 97; 110; 103; 101; 115; 32; 116; 111; 32; 116;
      104; 101; 32; 100; 105; 115; 107; 162; 70; 169; 237; 32; 59; 54; 76; 59; 71; 33; 32; 32; 32; 99; 117; 114; 114; 101; 110; 116; 108; 121; 32; 105;
      110; 32; 100; 114; 105; 118; 101; 32; 37; 67; 32; 40; 89; 47; 78; 41; 32; 63; 32; 169; 0; 133; 163; 172; 207; 57; 162; 71; 169; 25; 32; 63; 56;
      32; 96; 61; 165; 160; 73; 1; 240; 3; 76; 231; 71; 169; 3; 32; 72; 54; 160; 0; 140; 206; 57; 169; 0; 133; 163; 169; 12; 132; 125]);
  (132, [0; 133; 164; 169; 58; 133; 166; 169; 1; 133; 165; 160; 32; 162; 0; 169; 3; 32; 193; 54; 169; 1; 205; 206; 57; 144; 3; 76; 231; 71; 32; 175; 54; 32;
      175; 54; 76; 173; 71; 33; 85; 110; 97; 98; 108; 101; 32; 116; 111; 32; 99; 104; 97; 110; 103; 101; 32; 68; 79; 83; 32; 111; 110; 32; 116; 104;
      97; 116; 32; 100; 105; 115; 107; 162; 71; 169; 139; 32; 59; 54; 76; 217; 71; 33; 32; 32; 32; 98; 101; 99; 97; 117; 115; 101; 32; 101; 114; 114;
      111; 114; 32; 35; 32; 37; 85; 32; 111; 99; 99; 117; 114; 114; 101; 100; 46; 37; 69; 169; 0; 133; 163; 172; 206; 57; 162; 12; 133; 125]);
  (133, [71; 169; 183; 32; 63; 56; 32; 175; 54; 76; 240; 71; 76; 239; 66; 96; 44; 1; 155; 76; 247; 71; 76; 33; 72; 38; 125; 29; 29; 29; 80; 108; 101; 97; 115;
      101; 32; 101; 110; 116; 101; 114; 32; 116; 104; 101; 32; 110; 97; 109; 101; 32; 111; 102; 32; 116; 104; 101; 32; 66; 65; 83; 73; 67; 162; 71;
      169; 250; 32; 59; 54; 76; 76; 72; 32; 32; 32; 32; 112; 114; 111; 103; 114; 97; 109; 32; 116; 104; 97; 116; 32; 121; 111; 117; 32; 119; 105; 115;
      104; 32; 116; 111; 32; 104; 97; 118; 101; 162; 72; 169; 43; 32; 59; 54; 76; 122; 72; 35; 32; 32; 32; 97; 117; 116; 111; 12; 134; 125]);
  (134, [109; 97; 116; 105; 99; 97; 108; 108; 121; 32; 82; 85; 78; 32; 119; 104; 101; 110; 32; 116; 104; 105; 115; 32; 100; 105; 115; 107; 162; 72; 169; 86; 32;
      59; 54; 76; 151; 72; 18; 32; 32; 32; 105; 115; 32; 110; 101; 120; 116; 32; 66; 111; 111; 116; 101; 100; 46; 162; 72; 169; 132; 32; 59; 54; 76;
      195; 72; 33; 29; 68; 111; 32; 78; 79; 84; 32; 101; 110; 116; 101; 114; 32; 116; 104; 101; 32; 100; 114; 105; 118; 101; 32; 115; 112; 101; 99;
      105; 102; 105; 101; 114; 162; 72; 169; 161; 32; 59; 54; 76; 241; 72; 35; 32; 32; 32; 40; 105; 46; 101; 46; 44; 32; 100; 111; 32; 12; 135; 125]);
  (135, [110; 111; 116; 32; 117; 115; 101; 32; 68; 58; 44; 32; 68; 49; 58; 44; 32; 101; 116; 99; 46; 41; 162; 72; 169; 205; 32; 59; 54; 76; 30; 73; 34; 32; 32;
      32; 98; 117; 116; 32; 68; 79; 32; 117; 115; 101; 32; 116; 104; 101; 32; 112; 114; 111; 112; 101; 114; 32; 101; 120; 116; 101; 110; 115; 105; 111;
      110; 162; 72; 169; 251; 32; 59; 54; 76; 75; 73; 34; 32; 32; 32; 40; 101; 46; 103; 46; 44; 32; 46; 66; 65; 83; 44; 32; 46; 83; 65; 86; 44; 32;
      101; 116; 99; 46; 41; 32; 105; 102; 32; 121; 111; 117; 162; 73; 169; 40; 32; 59; 54; 76; 116; 73; 30; 32; 32; 12; 136; 125]);
  (136, [32; 83; 65; 86; 69; 100; 32; 105; 116; 32; 119; 105; 116; 104; 32; 97; 110; 32; 101; 120; 116; 101; 110; 115; 105; 111; 110; 46; 162; 73; 169; 85; 32;
      59; 54; 76; 161; 73; 34; 29; 82; 69; 77; 69; 77; 66; 69; 82; 58; 32; 32; 84; 104; 101; 32; 66; 65; 83; 73; 67; 32; 112; 114; 111; 103; 114; 97;
      109; 32; 116; 104; 97; 116; 162; 73; 169; 126; 32; 59; 54; 76; 204; 73; 32; 32; 32; 32; 119; 105; 115; 104; 32; 116; 111; 32; 39; 65; 85; 84; 79;
      82; 85; 78; 39; 32; 105; 110; 32; 116; 104; 105; 115; 32; 119; 97; 121; 162; 73; 169; 171; 32; 59; 54; 76; 248; 12; 137; 125]);
  (137, [73; 33; 32; 32; 32; 77; 85; 83; 84; 32; 98; 101; 32; 83; 65; 86; 69; 100; 32; 111; 110; 32; 116; 104; 101; 32; 115; 97; 109; 101; 32; 100; 105; 115;
      107; 162; 73; 169; 214; 32; 59; 54; 76; 37; 74; 34; 32; 32; 32; 119; 104; 105; 99; 104; 32; 114; 101; 99; 101; 105; 118; 101; 115; 32; 116; 104;
      105; 115; 32; 65; 85; 84; 79; 82; 85; 78; 46; 83; 89; 83; 162; 74; 169; 2; 32; 59; 54; 76; 64; 74; 16; 32; 32; 32; 112; 114; 111; 103; 114; 97;
      109; 32; 102; 105; 108; 101; 33; 162; 74; 169; 47; 32; 59; 54; 76; 112; 74; 37; 29; 29; 78; 111; 119; 32; 101; 12; 138; 125]);
  (138, [110; 116; 101; 114; 32; 121; 111; 117; 114; 32; 66; 65; 83; 73; 67; 32; 112; 114; 111; 103; 114; 97; 109; 39; 115; 32; 110; 97; 109; 101; 162; 74; 169;
      74; 32; 59; 54; 76; 134; 74; 11; 32; 32; 32; 104; 101; 114; 101; 32; 62; 62; 32; 162; 74; 169; 122; 32; 78; 54; 160; 12; 162; 57; 169; 208; 32;
      124; 59; 165; 160; 240; 3; 76; 162; 74; 169; 1; 133; 160; 96; 169; 71; 133; 163; 160; 242; 162; 57; 169; 208; 32; 180; 60; 169; 0; 133; 160; 96;
      73; 76; 184; 74; 76; 226; 74; 38; 125; 29; 32; 32; 160; 205; 225; 235; 229; 160; 225; 238; 160; 193; 213; 212; 207; 210; 213; 12; 139; 125]);
  (139, [206; 174; 211; 217; 211; 160; 240; 242; 239; 231; 242; 225; 237; 160; 230; 233; 236; 229; 160; 162; 74; 169; 187; 32; 59; 54; 76; 15; 75; 34; 29; 29;
      87; 104; 101; 110; 32; 116; 104; 101; 32; 100; 105; 115; 107; 32; 99; 117; 114; 114; 101; 110; 116; 108; 121; 32; 105; 110; 32; 100; 114; 105;
      118; 101; 162; 74; 169; 236; 32; 59; 54; 76; 61; 75; 35; 32; 32; 32; 110; 117; 109; 98; 101; 114; 32; 37; 67; 32; 105; 115; 32; 110; 101; 120;
      116; 32; 98; 111; 111; 116; 101; 100; 44; 32; 119; 104; 97; 116; 37; 69; 169; 0; 133; 163; 172; 207; 57; 162; 75; 169; 25; 32; 63; 56; 76; 12;
      140; 125]);
  (140, [104; 75; 25; 32; 32; 32; 100; 111; 32; 121; 111; 117; 32; 119; 97; 110; 116; 32; 116; 111; 32; 104; 97; 112; 112; 101; 110; 63; 162; 75; 169; 78; 32;
      59; 54; 76; 149; 75; 34; 29; 49; 46; 32; 84; 104; 101; 32; 82; 83; 50; 51; 50; 32; 40; 82; 58; 41; 32; 100; 114; 105; 118; 101; 114; 115; 32;
      102; 111; 114; 32; 116; 104; 101; 162; 75; 169; 114; 32; 59; 54; 76; 193; 75; 33; 32; 32; 32; 65; 84; 65; 82; 73; 32; 56; 53; 48; 32; 73; 110;
      116; 101; 114; 102; 97; 99; 101; 32; 77; 111; 100; 117; 108; 101; 32; 97; 114; 101; 162; 75; 169; 159; 32; 59; 54; 76; 12; 141; 125]);
  (141, [230; 75; 26; 32; 32; 32; 108; 111; 97; 100; 101; 100; 32; 97; 110; 100; 32; 109; 97; 100; 101; 32; 97; 99; 116; 105; 118; 101; 46; 162; 75; 169; 203;
      32; 59; 54; 76; 23; 76; 38; 29; 50; 46; 32; 65; 32; 66; 65; 83; 73; 67; 32; 112; 114; 111; 103; 114; 97; 109; 32; 119; 105; 108; 108; 32; 97;
      117; 116; 111; 109; 97; 116; 105; 99; 97; 108; 108; 121; 162; 75; 169; 240; 32; 59; 54; 76; 50; 76; 16; 32; 32; 32; 108; 111; 97; 100; 32; 97;
      110; 100; 32; 82; 85; 78; 46; 162; 76; 169; 33; 32; 59; 54; 76; 95; 76; 34; 29; 51; 46; 32; 66; 111; 116; 104; 32; 12; 142; 125]);
  (142, [97; 99; 116; 105; 111; 110; 115; 32; 40; 49; 46; 32; 97; 110; 100; 32; 50; 46; 32; 97; 98; 111; 118; 101; 41; 162; 76; 169; 60; 32; 59; 54; 76; 120;
      76; 14; 32; 32; 32; 119; 105; 108; 108; 32; 111; 99; 99; 117; 114; 46; 162; 76; 169; 105; 32; 59; 54; 76; 160; 76; 29; 29; 29; 48; 46; 32; 78;
      111; 110; 101; 45; 45; 113; 117; 105; 116; 32; 116; 111; 32; 109; 97; 105; 110; 32; 109; 101; 110; 117; 46; 162; 76; 169; 130; 32; 59; 54; 76;
      204; 76; 33; 29; 29; 32; 32; 32; 32; 89; 111; 117; 114; 32; 99; 104; 111; 105; 99; 101; 32; 40; 48; 44; 49; 44; 50; 12; 143; 125]);
  (143, [44; 111; 114; 32; 51; 41; 32; 63; 32; 162; 76; 169; 170; 32; 78; 54; 32; 95; 59; 165; 160; 141; 180; 74; 173; 180; 74; 201; 48; 176; 3; 76; 247; 76;
      169; 51; 205; 180; 74; 176; 3; 76; 247; 76; 173; 180; 74; 41; 3; 133; 160; 96; 32; 163; 61; 32; 2; 59; 76; 184; 74; 82; 73; 78; 84; 69; 76; 8;
      77; 32; 181; 74; 165; 160; 141; 2; 77; 173; 2; 77; 240; 3; 76; 30; 77; 160; 0; 140; 203; 57; 96; 173; 2; 77; 41; 2; 133; 174; 165; 174; 208; 3;
      76; 119; 79; 32; 244; 71; 165; 160; 73; 1; 240; 3; 76; 181; 77; 76; 85; 77; 25; 125; 29; 29; 29; 12; 144; 125]);
  (144, [79; 111; 112; 115; 33; 32; 32; 84; 104; 97; 116; 32; 119; 97; 115; 32; 110; 111; 116; 32; 97; 162; 77; 169; 59; 32; 59; 54; 76; 115; 77; 19; 32; 32;
      32; 118; 97; 108; 105; 100; 32; 102; 105; 108; 101; 32; 110; 97; 109; 101; 33; 162; 77; 169; 95; 32; 59; 54; 76; 163; 77; 37; 29; 82; 101; 97;
      100; 32; 116; 104; 101; 32; 105; 110; 115; 116; 114; 117; 99; 116; 105; 111; 110; 115; 32; 97; 103; 97; 105; 110; 44; 32; 112; 108; 101; 97; 115;
      101; 46; 162; 77; 169; 125; 32; 59; 54; 169; 1; 32; 2; 59; 160; 0; 140; 203; 57; 96; 169; 3; 141; 253; 57; 169; 57; 133; 12; 145; 125]);
  (145, [163; 160; 208; 162; 57; 169; 253; 32; 180; 60; 169; 1; 32; 72; 54; 160; 0; 140; 206; 57; 169; 4; 133; 163; 169; 0; 133; 164; 160; 57; 162; 253; 169; 1;
      32; 17; 54; 169; 1; 205; 206; 57; 144; 3; 76; 101; 79; 173; 206; 57; 73; 170; 240; 3; 76; 225; 78; 160; 0; 140; 206; 57; 76; 15; 78; 16; 125; 29;
      29; 29; 66; 101; 32; 99; 97; 114; 101; 102; 117; 108; 33; 29; 162; 77; 169; 254; 32; 59; 54; 76; 57; 78; 31; 84; 104; 101; 32; 66; 65; 83; 73;
      67; 32; 112; 114; 111; 103; 114; 97; 109; 32; 110; 97; 109; 101; 32; 121; 111; 117; 32; 117; 115; 101; 100; 162; 12; 146; 125]);
  (146, [78; 169; 25; 32; 59; 54; 76; 96; 78; 28; 32; 32; 32; 104; 97; 115; 32; 110; 111; 116; 32; 121; 101; 116; 32; 98; 101; 101; 110; 32; 83; 65; 86; 69;
      100; 32; 111; 110; 162; 78; 169; 67; 32; 59; 54; 76; 120; 78; 13; 32; 32; 32; 116; 104; 105; 115; 32; 100; 105; 115; 107; 33; 162; 78; 169; 106;
      32; 59; 54; 76; 162; 78; 31; 29; 68; 111; 32; 121; 111; 117; 32; 119; 97; 110; 116; 32; 116; 111; 32; 100; 111; 32; 116; 104; 105; 115; 32; 65;
      85; 84; 79; 82; 85; 78; 162; 78; 169; 130; 32; 59; 54; 76; 197; 78; 24; 32; 32; 32; 115; 101; 116; 117; 112; 32; 97; 12; 147; 125]);
  (147, [110; 121; 119; 97; 121; 32; 40; 89; 47; 78; 41; 32; 63; 32; 162; 78; 169; 172; 32; 78; 54; 32; 96; 61; 165; 160; 73; 1; 208; 3; 76; 222; 78; 160; 0;
      140; 203; 57; 96; 76; 101; 79; 32; 175; 54; 76; 11; 79; 35; 79; 111; 112; 115; 33; 32; 32; 69; 114; 114; 111; 114; 32; 35; 32; 37; 85; 32; 119;
      104; 105; 108; 101; 32; 116; 114; 121; 105; 110; 103; 32; 116; 111; 37; 69; 169; 0; 133; 163; 172; 206; 57; 162; 78; 169; 231; 32; 63; 56; 76;
      61; 79; 32; 32; 32; 99; 104; 101; 99; 107; 32; 116; 104; 97; 116; 32; 66; 65; 83; 73; 67; 32; 112; 114; 111; 103; 12; 148; 125]);
  (148, [114; 97; 109; 32; 102; 105; 108; 101; 46; 162; 79; 169; 28; 32; 59; 54; 76; 93; 79; 21; 37; 69; 85; 110; 97; 98; 108; 101; 32; 116; 111; 32; 99; 111;
      110; 116; 105; 110; 117; 101; 46; 162; 79; 169; 71; 32; 63; 56; 96; 169; 6; 141; 20; 58; 169; 57; 133; 163; 160; 208; 162; 58; 169; 20; 32; 180;
      60; 76; 158; 79; 35; 125; 29; 29; 29; 67; 114; 101; 97; 116; 105; 110; 103; 32; 65; 85; 84; 79; 82; 85; 78; 46; 83; 89; 83; 32; 112; 114; 111;
      103; 114; 97; 109; 46; 46; 46; 162; 79; 169; 122; 32; 78; 54; 169; 1; 32; 72; 54; 160; 0; 140; 206; 57; 169; 8; 12; 149; 125]);
  (149, [133; 163; 169; 0; 133; 164; 160; 57; 162; 238; 169; 1; 32; 17; 54; 169; 1; 205; 206; 57; 144; 3; 76; 49; 80; 32; 175; 54; 76; 243; 79; 34; 79; 111;
      112; 115; 33; 32; 32; 69; 114; 114; 111; 114; 32; 35; 32; 37; 85; 32; 119; 104; 105; 108; 101; 32; 99; 114; 101; 97; 116; 105; 110; 103; 37; 69;
      169; 0; 133; 163; 172; 206; 57; 162; 79; 169; 208; 32; 63; 56; 76; 41; 80; 36; 32; 32; 65; 85; 84; 79; 82; 85; 78; 32; 102; 105; 108; 101; 46;
      32; 32; 85; 110; 97; 98; 108; 101; 32; 116; 111; 32; 99; 111; 110; 116; 105; 110; 117; 101; 46; 162; 80; 169; 4; 32; 12; 150; 125]);
  (150, [59; 54; 96; 173; 2; 77; 41; 1; 133; 174; 165; 174; 208; 3; 76; 72; 80; 160; 92; 162; 58; 169; 46; 32; 254; 61; 173; 2; 77; 41; 2; 133; 174; 165; 174;
      208; 3; 76; 200; 80; 160; 119; 162; 58; 169; 138; 32; 254; 61; 173; 20; 58; 141; 1; 77; 162; 0; 169; 1; 32; 180; 54; 162; 6; 169; 1; 32; 180; 54;
      174; 1; 77; 169; 1; 32; 180; 54; 162; 6; 169; 1; 32; 180; 54; 56; 173; 1; 77; 233; 1; 133; 161; 166; 161; 169; 1; 32; 180; 54; 160; 0; 140; 0;
      77; 56; 173; 1; 77; 233; 1; 141; 170; 80; 173; 170; 80; 205; 0; 77; 176; 4; 76; 200; 80; 32; 12; 151; 125]);
  (151, [56; 173; 1; 77; 237; 0; 77; 133; 174; 166; 174; 189; 20; 58; 133; 161; 166; 161; 169; 1; 32; 180; 54; 238; 0; 77; 76; 159; 80; 169; 1; 32; 72; 54; 169;
      1; 205; 206; 57; 144; 3; 76; 210; 81; 76; 253; 80; 34; 125; 29; 29; 29; 79; 111; 112; 115; 46; 32; 32; 83; 111; 109; 101; 116; 104; 105; 110;
      103; 32; 119; 101; 110; 116; 32; 119; 114; 111; 110; 103; 32; 105; 110; 162; 80; 169; 218; 32; 59; 54; 76; 37; 81; 29; 32; 32; 32; 116; 104; 101;
      32; 112; 114; 111; 99; 101; 115; 115; 32; 111; 102; 32; 119; 114; 105; 116; 105; 110; 103; 32; 116; 104; 101; 162; 81; 169; 12; 152; 125]);
  (152, [7; 32; 59; 54; 76; 80; 81; 32; 32; 32; 32; 65; 85; 84; 79; 82; 85; 78; 46; 83; 89; 83; 32; 112; 114; 111; 103; 114; 97; 109; 32; 102; 105; 108; 101;
      46; 32; 32; 65; 110; 162; 81; 169; 47; 32; 59; 54; 76; 118; 81; 27; 32; 32; 32; 101; 114; 114; 111; 114; 32; 40; 35; 32; 37; 66; 41; 32; 111; 99;
      99; 117; 114; 114; 101; 100; 46; 37; 69; 169; 0; 133; 163; 172; 206; 57; 162; 81; 169; 90; 32; 63; 56; 76; 168; 81; 32; 29; 29; 67; 111; 110;
      115; 117; 108; 116; 32; 121; 111; 117; 114; 32; 68; 79; 83; 32; 109; 97; 110; 117; 97; 108; 32; 98; 101; 102; 12; 153; 125]);
  (153, [111; 114; 101; 162; 81; 169; 135; 32; 59; 54; 76; 200; 81; 21; 32; 32; 32; 116; 114; 121; 105; 110; 103; 32; 116; 104; 105; 115; 32; 97; 103; 97; 105;
      110; 46; 162; 81; 169; 178; 32; 59; 54; 76; 255; 81; 32; 175; 54; 76; 248; 81; 31; 29; 29; 65; 85; 84; 79; 82; 85; 78; 32; 99; 114; 101; 97; 116;
      101; 100; 32; 115; 117; 99; 99; 101; 115; 115; 102; 117; 108; 108; 121; 46; 162; 81; 169; 216; 32; 59; 54; 96; 218; 76; 4; 82; 76; 38; 82; 30;
      125; 29; 29; 29; 32; 32; 32; 32; 32; 65; 114; 101; 32; 121; 111; 117; 32; 83; 85; 82; 69; 32; 121; 111; 117; 32; 12; 154; 125]);
  (154, [119; 97; 110; 116; 162; 82; 169; 7; 32; 59; 54; 76; 73; 82; 24; 32; 32; 32; 32; 32; 32; 32; 116; 111; 32; 114; 101; 116; 117; 114; 110; 32; 116; 111;
      32; 68; 79; 83; 63; 162; 82; 169; 48; 32; 59; 54; 76; 110; 82; 26; 29; 80; 114; 101; 115; 115; 32; 217; 32; 116; 111; 32; 114; 101; 116; 117;
      114; 110; 32; 116; 111; 32; 68; 79; 83; 46; 162; 82; 169; 83; 32; 59; 54; 76; 159; 82; 38; 80; 114; 101; 115; 115; 32; 97; 110; 121; 32; 111;
      116; 104; 101; 114; 32; 107; 101; 121; 32; 116; 111; 32; 114; 101; 116; 117; 114; 110; 32; 116; 111; 32; 109; 101; 110; 117; 46; 12; 155; 125]);
  (155, [162; 82; 169; 120; 32; 59; 54; 76; 187; 82; 17; 32; 32; 32; 160; 217; 239; 245; 242; 160; 227; 232; 239; 233; 227; 229; 160; 191; 162; 82; 169; 169;
      32; 78; 54; 32; 95; 59; 165; 160; 41; 95; 141; 0; 82; 173; 0; 82; 73; 89; 208; 3; 76; 220; 82; 160; 0; 140; 203; 57; 96; 173; 205; 57; 141; 148;
      52; 173; 204; 57; 141; 147; 52; 76; 9; 83; 29; 125; 29; 29; 73; 110; 115; 101; 114; 116; 32; 68; 79; 83; 32; 115; 121; 115; 116; 101; 109; 32;
      100; 105; 115; 107; 101; 116; 116; 101; 162; 82; 169; 235; 32; 59; 54; 76; 39; 83; 19; 32; 32; 32; 32; 32; 97; 110; 100; 12; 156; 125]);
  (156, [32; 104; 105; 116; 32; 160; 211; 212; 193; 210; 212; 162; 83; 169; 19; 32; 78; 54; 169; 0; 32; 2; 59; 32; 79; 61; 76; 232; 82; 48; 76; 61; 83; 165; 16;
      141; 199; 57; 165; 16; 41; 127; 133; 16; 165; 16; 141; 14; 210; 169; 7; 32; 72; 54; 76; 88; 83; 2; 75; 58; 169; 4; 133; 163; 169; 0; 133; 164;
      160; 83; 162; 85; 169; 7; 32; 17; 54; 173; 148; 52; 141; 205; 57; 173; 147; 52; 141; 204; 57; 173; 68; 61; 141; 148; 52; 173; 67; 61; 141; 147;
      52; 76; 156; 83; 23; 125; 32; 32; 32; 32; 32; 32; 32; 32; 32; 32; 32; 32; 32; 32; 32; 160; 211; 197; 212; 12; 157; 125]);
  (157, [213; 208; 160; 162; 83; 169; 132; 32; 59; 54; 76; 203; 83; 36; 29; 32; 32; 32; 32; 84; 104; 105; 115; 32; 112; 114; 111; 103; 114; 97; 109; 32; 119;
      105; 108; 108; 32; 119; 111; 114; 107; 32; 119; 105; 116; 104; 32; 97; 110; 100; 162; 83; 169; 166; 32; 59; 54; 76; 249; 83; 35; 32; 32; 32; 32;
      97; 102; 102; 101; 99; 116; 32; 116; 104; 101; 32; 100; 105; 115; 107; 101; 116; 116; 101; 32; 105; 110; 115; 101; 114; 116; 101; 100; 32; 105;
      110; 162; 83; 169; 213; 32; 59; 54; 76; 40; 84; 36; 32; 32; 32; 32; 100; 114; 105; 118; 101; 32; 110; 117; 109; 98; 101; 114; 32; 37; 12; 158;
      125]);
  (158, [67; 32; 117; 110; 108; 101; 115; 115; 32; 121; 111; 117; 32; 117; 115; 101; 37; 69; 169; 0; 133; 163; 172; 207; 57; 162; 84; 169; 3; 32; 63; 56; 76;
      89; 84; 31; 32; 32; 32; 32; 111; 112; 116; 105; 111; 110; 32; 49; 32; 105; 110; 32; 116; 104; 101; 32; 109; 101; 110; 117; 32; 98; 101; 108; 111;
      119; 33; 162; 84; 169; 57; 32; 59; 54; 76; 129; 84; 29; 29; 29; 32; 32; 32; 32; 32; 32; 32; 32; 32; 32; 67; 104; 111; 111; 115; 101; 32; 97; 110;
      32; 111; 112; 116; 105; 111; 110; 58; 162; 84; 169; 99; 32; 59; 54; 76; 175; 84; 35; 29; 32; 32; 32; 32; 49; 46; 12; 159; 125]);
  (159, [32; 67; 104; 97; 110; 103; 101; 32; 99; 117; 114; 114; 101; 110; 116; 32; 100; 114; 105; 118; 101; 32; 110; 117; 109; 98; 101; 114; 162; 84; 169; 139;
      32; 59; 54; 76; 221; 84; 35; 29; 32; 32; 32; 32; 50; 46; 32; 67; 104; 97; 110; 103; 101; 32; 115; 121; 115; 116; 101; 109; 32; 99; 111; 110; 102;
      105; 103; 117; 114; 97; 116; 105; 111; 110; 162; 84; 169; 185; 32; 59; 54; 76; 7; 85; 31; 29; 32; 32; 32; 32; 51; 46; 32; 83; 101; 116; 32; 117;
      112; 32; 65; 85; 84; 79; 82; 85; 78; 32; 102; 111; 114; 32; 66; 111; 111; 116; 162; 84; 169; 231; 32; 59; 54; 76; 46; 12; 160; 125]);
  (160, [85; 28; 29; 29; 32; 32; 32; 32; 48; 46; 32; 81; 117; 105; 116; 45; 45; 114; 101; 116; 117; 114; 110; 32; 116; 111; 32; 68; 79; 83; 162; 85; 169; 17;
      32; 59; 54; 76; 90; 85; 33; 29; 29; 32; 32; 32; 32; 89; 111; 117; 114; 32; 99; 104; 111; 105; 99; 101; 32; 40; 48; 44; 49; 44; 50; 44; 111; 114;
      32; 51; 41; 32; 63; 32; 162; 85; 169; 56; 32; 78; 54; 32; 95; 59; 165; 160; 141; 57; 83; 160; 1; 140; 203; 57; 173; 57; 83; 73; 48; 240; 3; 76;
      126; 85; 32; 1; 82; 76; 177; 85; 173; 57; 83; 73; 49; 240; 3; 76; 142; 85; 32; 70; 62; 76; 177; 12; 161; 125]);
  (161, [85; 173; 57; 83; 73; 50; 240; 3; 76; 158; 85; 32; 236; 66; 76; 177; 85; 173; 57; 83; 73; 51; 240; 3; 76; 174; 85; 32; 5; 77; 76; 177; 85; 32; 163; 61;
      173; 203; 57; 208; 3; 76; 196; 85; 32; 175; 54; 32; 175; 54; 169; 1; 32; 2; 59; 76; 129; 83; 96; 224; 2; 225; 2; 58; 83; 44; 111; 114; 32; 51;
      41; 32; 63; 32; 162; 85; 169; 56; 32; 78; 54; 32; 95; 59; 165; 160; 141; 57; 83; 160; 1; 140; 203; 57; 173; 57; 83; 73; 48; 240; 3; 76; 126; 85;
      32; 1; 82; 76; 177; 85; 173; 57; 83; 73; 49; 240; 3; 76; 142; 85; 32; 70; 62; 76; 177; 12; 0; 65]);
  (162, [255; 255; 208; 3; 225; 3; 173; 117; 32; 201; 76; 208; 8; 32; 60; 46; 165; 8; 208; 1; 96; 76; 117; 32; 226; 2; 227; 2; 208; 3; 255; 255; 0; 52; 180; 78;
      32; 40; 99; 41; 49; 57; 56; 51; 32; 65; 99; 116; 105; 111; 110; 32; 67; 111; 109; 112; 117; 116; 101; 114; 32; 83; 101; 114; 118; 105; 99; 101;
      115; 162; 255; 134; 166; 160; 12; 208; 10; 132; 166; 160; 11; 208; 4; 132; 166; 160; 5; 134; 165; 162; 0; 134; 163; 10; 10; 10; 10; 170; 152;
      157; 66; 3; 165; 163; 240; 10; 157; 74; 3; 165; 164; 157; 75; 3; 169; 0; 168; 157; 73; 3; 177; 165; 157; 72; 3; 16; 163; 125]);
  (163, [240; 18; 24; 165; 165; 105; 1; 157; 68; 3; 165; 166; 105; 0; 157; 69; 3; 76; 86; 228; 96; 134; 165; 132; 166; 160; 3; 76; 57; 52; 134; 165; 132; 166;
      162; 0; 134; 163; 160; 9; 32; 57; 52; 208; 10; 169; 11; 157; 66; 3; 169; 155; 76; 86; 228; 96; 0; 76; 149; 52; 141; 145; 52; 108; 10; 0; 19; 17;
      1; 131; 186; 142; 193; 4; 160; 128; 152; 76; 146; 52; 164; 132; 240; 10; 134; 133; 10; 38; 133; 136; 208; 250; 166; 133; 96; 164; 132; 240; 10;
      134; 133; 70; 133; 106; 136; 208; 250; 166; 133; 96; 164; 211; 16; 16; 133; 134; 134; 135; 56; 169; 0; 229; 134; 168; 169; 16; 164; 125]);
  (164, [0; 229; 135; 170; 152; 96; 134; 211; 224; 0; 16; 3; 32; 203; 52; 133; 130; 134; 131; 165; 133; 16; 14; 170; 69; 211; 133; 211; 165; 132; 32; 203; 52;
      133; 132; 134; 133; 169; 0; 133; 135; 96; 240; 27; 202; 134; 199; 170; 240; 21; 134; 198; 169; 0; 162; 8; 10; 6; 198; 144; 2; 101; 199; 202; 208;
      246; 24; 101; 135; 133; 135; 165; 134; 166; 135; 96; 32; 220; 52; 166; 130; 240; 27; 134; 198; 166; 132; 240; 21; 202; 134; 199; 162; 8; 10; 38;
      135; 6; 198; 144; 6; 101; 199; 144; 2; 230; 135; 202; 208; 240; 133; 134; 165; 130; 166; 133; 32; 0; 53; 165; 131; 166; 132; 32; 0; 16; 165; 125]);
  (165, [53; 76; 199; 52; 32; 220; 52; 165; 133; 240; 39; 162; 8; 38; 130; 38; 131; 38; 135; 56; 165; 131; 229; 132; 168; 165; 135; 229; 133; 144; 4; 133; 135;
      132; 131; 202; 208; 231; 165; 130; 42; 162; 0; 164; 131; 132; 134; 76; 199; 52; 162; 16; 38; 130; 38; 131; 42; 176; 4; 197; 132; 144; 3; 229;
      132; 56; 202; 208; 239; 38; 130; 38; 131; 133; 134; 165; 130; 166; 131; 76; 199; 52; 32; 87; 53; 165; 134; 166; 135; 96; 133; 160; 134; 161; 132;
      162; 24; 104; 133; 132; 105; 3; 168; 104; 133; 133; 105; 0; 72; 152; 72; 160; 1; 177; 132; 133; 130; 200; 177; 132; 133; 131; 200; 177; 132; 16;
      166; 125]);
  (166, [168; 185; 160; 0; 145; 130; 136; 16; 248; 165; 17; 208; 15; 230; 17; 76; 159; 52; 8; 99; 9; 17; 25; 24; 19; 33; 35; 51; 96; 16; 22; 192; 136; 240; 8;
      152; 192; 128; 240; 18; 76; 146; 52; 138; 74; 74; 74; 74; 170; 152; 157; 192; 5; 96; 162; 1; 134; 17; 72; 32; 159; 52; 104; 168; 96; 72; 134;
      161; 132; 162; 168; 169; 0; 153; 192; 5; 168; 177; 161; 141; 0; 5; 168; 200; 169; 155; 208; 2; 177; 161; 153; 0; 5; 136; 208; 248; 104; 162; 0;
      160; 5; 32; 110; 52; 76; 237; 53; 134; 161; 170; 164; 161; 165; 183; 32; 119; 52; 76; 237; 53; 32; 33; 52; 76; 237; 16; 167; 125]);
  (167, [53; 134; 161; 170; 164; 161; 165; 183; 32; 41; 52; 76; 237; 53; 32; 47; 52; 132; 160; 189; 72; 3; 240; 3; 56; 233; 1; 160; 0; 145; 165; 164; 160; 96;
      134; 162; 170; 164; 162; 165; 183; 72; 169; 255; 133; 163; 104; 72; 134; 161; 132; 162; 160; 0; 165; 163; 145; 161; 104; 164; 162; 32; 91; 54;
      76; 237; 53; 162; 7; 134; 163; 10; 10; 10; 10; 170; 165; 163; 157; 66; 3; 169; 0; 157; 72; 3; 157; 73; 3; 152; 32; 86; 228; 133; 160; 76; 237;
      53; 169; 155; 170; 165; 183; 134; 161; 164; 161; 162; 11; 76; 146; 54; 160; 155; 208; 247; 32; 57; 52; 76; 237; 53; 133; 212; 134; 16; 168; 125]);
  (168, [213; 32; 170; 217; 32; 230; 216; 160; 255; 162; 0; 200; 232; 177; 243; 157; 80; 5; 16; 247; 73; 128; 157; 80; 5; 142; 80; 5; 96; 162; 0; 32; 199; 54;
      165; 183; 162; 80; 160; 5; 32; 41; 52; 76; 237; 53; 162; 0; 32; 233; 54; 76; 175; 54; 160; 0; 133; 160; 138; 132; 162; 166; 162; 32; 199; 54;
      165; 160; 76; 238; 54; 160; 0; 32; 2; 55; 165; 160; 76; 189; 54; 134; 162; 170; 164; 162; 165; 183; 192; 0; 16; 22; 72; 134; 161; 132; 162; 160;
      45; 32; 184; 54; 56; 169; 0; 229; 161; 170; 169; 0; 229; 162; 168; 104; 76; 2; 55; 32; 27; 55; 76; 175; 54; 32; 34; 16; 169; 125]);
  (169, [55; 165; 160; 76; 189; 54; 134; 162; 132; 163; 162; 0; 164; 162; 132; 162; 32; 199; 54; 200; 185; 80; 5; 145; 162; 136; 16; 248; 96; 224; 0; 16; 237;
      133; 160; 134; 161; 132; 162; 56; 169; 0; 229; 160; 168; 169; 0; 229; 161; 170; 152; 32; 199; 54; 232; 138; 168; 185; 79; 5; 145; 162; 136; 208;
      248; 138; 145; 162; 200; 169; 45; 145; 162; 96; 165; 183; 162; 19; 142; 80; 5; 162; 80; 160; 5; 32; 138; 54; 169; 80; 162; 5; 133; 164; 134; 165;
      160; 0; 132; 160; 132; 161; 132; 162; 177; 164; 133; 163; 230; 163; 169; 32; 200; 209; 164; 208; 5; 200; 196; 163; 48; 247; 177; 164; 201; 16;
      170; 125]);
  (170, [45; 208; 3; 133; 162; 200; 196; 163; 16; 54; 177; 164; 201; 48; 48; 48; 201; 58; 16; 44; 56; 233; 48; 170; 165; 161; 72; 165; 160; 10; 38; 161; 10; 38;
      161; 24; 101; 160; 133; 160; 104; 101; 161; 133; 161; 6; 160; 38; 161; 24; 138; 101; 160; 133; 160; 144; 2; 230; 161; 200; 196; 163; 48; 202;
      165; 162; 240; 13; 56; 169; 0; 229; 160; 133; 160; 169; 0; 229; 161; 133; 161; 96; 133; 164; 134; 165; 169; 4; 133; 166; 169; 36; 32; 177; 54;
      169; 0; 162; 4; 6; 164; 38; 165; 42; 202; 208; 248; 105; 48; 201; 58; 48; 2; 105; 6; 32; 177; 54; 198; 166; 208; 229; 96; 133; 192; 16; 171; 125]);
  (171, [134; 193; 140; 240; 5; 160; 0; 177; 192; 133; 194; 230; 194; 162; 13; 181; 162; 157; 240; 5; 202; 208; 248; 134; 139; 134; 138; 230; 138; 164; 138;
      196; 194; 176; 218; 177; 192; 201; 37; 208; 15; 230; 138; 200; 177; 192; 201; 37; 240; 6; 201; 69; 208; 8; 169; 155; 32; 177; 54; 76; 92; 56;
      164; 139; 230; 139; 230; 139; 133; 160; 185; 240; 5; 190; 241; 5; 164; 160; 192; 67; 240; 230; 192; 83; 208; 6; 32; 78; 54; 76; 92; 56; 192; 73;
      208; 6; 32; 27; 55; 76; 92; 56; 192; 72; 208; 6; 32; 22; 56; 76; 92; 56; 32; 233; 54; 76; 92; 56; 134; 161; 132; 162; 10; 10; 10; 16; 172; 125]);
  (172, [10; 170; 169; 38; 157; 66; 3; 32; 86; 228; 32; 237; 53; 160; 0; 189; 78; 3; 145; 163; 189; 76; 3; 145; 161; 189; 77; 3; 200; 145; 161; 96; 134; 161;
      10; 10; 10; 10; 170; 152; 157; 77; 3; 165; 161; 157; 76; 3; 165; 163; 157; 78; 3; 169; 37; 157; 66; 3; 32; 86; 228; 76; 237; 53; 2; 83; 58; 254;
      56; 2; 69; 58; 3; 57; 133; 91; 134; 92; 132; 90; 133; 85; 134; 86; 132; 84; 96; 133; 164; 134; 165; 132; 162; 160; 0; 132; 160; 132; 161; 177;
      164; 209; 162; 240; 3; 32; 61; 57; 201; 0; 208; 1; 96; 133; 166; 200; 177; 164; 209; 162; 208; 5; 196; 166; 144; 16; 173; 125]);
  (173, [245; 96; 162; 255; 134; 160; 144; 3; 177; 162; 232; 134; 161; 96; 133; 160; 134; 161; 132; 162; 160; 0; 177; 162; 145; 160; 240; 8; 168; 177; 162; 145;
      160; 136; 208; 249; 96; 133; 160; 134; 161; 132; 162; 160; 0; 177; 162; 197; 165; 176; 2; 133; 165; 198; 164; 24; 165; 162; 101; 164; 133; 162;
      144; 2; 230; 163; 56; 165; 165; 229; 164; 176; 2; 169; 0; 76; 83; 57; 133; 160; 134; 161; 132; 162; 160; 0; 177; 162; 240; 13; 133; 166; 198;
      164; 56; 165; 165; 229; 164; 240; 2; 176; 1; 96; 170; 197; 166; 144; 8; 24; 165; 166; 170; 101; 164; 133; 165; 165; 165; 209; 160; 144; 3; 145;
      160; 16; 174; 125]);
  (174, [24; 165; 160; 101; 164; 133; 160; 144; 2; 230; 161; 138; 76; 87; 57; 181; 82; 0; 4; 0; 85; 98; 0; 0; 19; 32; 32; 73; 79; 67; 66; 181; 78; 0; 4; 215;
      57; 128; 0; 108; 101; 66; 117; 102; 0; 0; 59; 98; 0; 0; 15; 32; 32; 73; 79; 67; 66; 108; 101; 110; 32; 61; 32; 76; 101; 110; 0; 0; 37; 98; 0; 0;
      14; 32; 32; 73; 79; 67; 66; 99; 109; 100; 32; 61; 32; 49; 49; 0; 0; 16; 98; 0; 0; 12; 32; 32; 67; 73; 79; 40; 48; 44; 36; 50; 48; 41; 0; 0; 253;
      97; 0; 0; 5; 32; 32; 32; 32; 32; 0; 0; 241; 97; 0; 0; 19; 16; 175; 125]);
  (175, [32; 32; 73; 70; 32; 73; 79; 67; 66; 115; 116; 97; 62; 51; 32; 84; 72; 69; 78; 0; 0; 215; 97; 0; 0; 46; 32; 32; 32; 32; 81; 85; 73; 84; 40; 73; 79; 67;
      215; 57; 20; 0; 44; 34; 119; 104; 105; 108; 101; 32; 119; 114; 105; 116; 105; 110; 103; 32; 68; 79; 83; 32; 50; 46; 120; 32; 76; 122; 58; 96; 76;
      126; 58; 173; 31; 208; 41; 1; 133; 174; 165; 174; 73; 1; 240; 3; 76; 145; 58; 76; 126; 58; 173; 31; 208; 41; 1; 133; 174; 165; 174; 73; 1; 208;
      3; 76; 164; 58; 76; 145; 58; 96; 0; 76; 169; 58; 169; 255; 141; 252; 2; 169; 7; 32; 144; 16; 176; 125]);
  (176, [54; 165; 160; 141; 165; 58; 173; 165; 58; 133; 160; 96; 76; 193; 58; 76; 117; 32; 76; 199; 58; 173; 111; 58; 133; 16; 165; 16; 141; 14; 210; 173; 118;
      58; 141; 148; 52; 173; 117; 58; 141; 147; 52; 169; 7; 32; 72; 54; 32; 190; 58; 76; 232; 58; 32; 175; 54; 32; 175; 54; 76; 14; 59; 28; 32; 32; 32;
      32; 72; 105; 116; 32; 160; 211; 212; 193; 210; 212; 160; 32; 32; 116; 111; 32; 82; 101; 115; 116; 97; 114; 116; 46; 162; 58; 169; 241; 32; 59;
      54; 76; 57; 59; 32; 32; 32; 32; 32; 72; 105; 116; 32; 160; 211; 197; 204; 197; 195; 212; 160; 32; 116; 111; 32; 113; 117; 16; 177; 125]);
  (177, [105; 116; 32; 116; 111; 32; 68; 79; 83; 46; 162; 59; 169; 24; 32; 59; 54; 173; 31; 208; 41; 3; 133; 174; 165; 174; 73; 3; 240; 3; 76; 83; 59; 76; 64;
      59; 173; 31; 208; 41; 2; 133; 174; 165; 174; 240; 3; 76; 100; 59; 32; 196; 58; 32; 119; 58; 70; 105; 108; 76; 109; 59; 32; 173; 53; 103; 59; 2;
      169; 125; 32; 177; 54; 76; 138; 59; 14; 69; 114; 114; 111; 114; 32; 35; 37; 66; 32; 37; 83; 37; 69; 169; 0; 133; 163; 173; 105; 59; 133; 165;
      173; 104; 59; 133; 164; 172; 103; 59; 162; 59; 169; 123; 32; 63; 56; 32; 229; 58; 72; 76; 169; 59; 141; 165; 59; 16; 178; 125]);
  (178, [76; 191; 59; 15; 119; 97; 115; 32; 117; 110; 101; 120; 112; 101; 99; 116; 101; 100; 33; 160; 59; 162; 175; 173; 165; 59; 32; 106; 59; 76; 204; 59; 76;
      251; 59; 43; 125; 37; 69; 37; 69; 37; 69; 84; 104; 101; 32; 100; 105; 115; 107; 32; 105; 110; 32; 100; 114; 105; 118; 101; 32; 37; 85; 32; 100;
      111; 101; 115; 32; 110; 111; 116; 32; 97; 112; 112; 101; 97; 114; 169; 0; 133; 163; 172; 213; 57; 162; 59; 169; 207; 32; 63; 56; 76; 41; 60; 28;
      32; 32; 32; 116; 111; 32; 98; 101; 32; 97; 32; 118; 97; 108; 105; 100; 32; 68; 79; 83; 32; 51; 32; 100; 105; 115; 107; 33; 16; 179; 125]);
  (179, [162; 60; 169; 12; 32; 59; 54; 32; 229; 58; 0; 10; 215; 57; 10; 0; 82; 69; 84; 85; 82; 78; 76; 66; 60; 160; 0; 140; 52; 60; 32; 166; 58; 165; 160; 141;
      51; 60; 173; 51; 60; 73; 155; 240; 3; 76; 162; 60; 173; 52; 60; 240; 3; 76; 102; 60; 169; 0; 133; 160; 96; 173; 54; 60; 41; 15; 141; 51; 60; 169;
      1; 205; 52; 60; 144; 3; 76; 156; 60; 169; 0; 133; 133; 169; 10; 133; 132; 173; 51; 60; 162; 0; 32; 34; 53; 133; 174; 138; 133; 175; 173; 55; 60;
      41; 15; 133; 172; 24; 165; 174; 101; 172; 141; 51; 60; 173; 51; 60; 133; 160; 96; 173; 51; 60; 41; 16; 180; 125]);
  (180, [127; 141; 51; 60; 173; 51; 60; 73; 125; 240; 3; 76; 232; 60; 169; 0; 205; 52; 60; 144; 3; 76; 232; 60; 160; 1; 140; 51; 60; 173; 52; 60; 141; 212; 60;
      173; 212; 60; 205; 51; 60; 176; 4; 76; 224; 60; 40; 169; 126; 32; 177; 54; 238; 51; 60; 76; 201; 60; 160; 0; 140; 52; 60; 76; 96; 61; 173; 51;
      60; 73; 126; 240; 3; 76; 14; 61; 169; 0; 205; 52; 60; 144; 3; 76; 14; 61; 173; 51; 60; 32; 177; 54; 56; 173; 52; 60; 233; 1; 141; 52; 60; 76; 96;
      61; 173; 52; 60; 201; 2; 144; 3; 76; 91; 61; 173; 51; 60; 201; 96; 176; 3; 76; 42; 61; 173; 16; 181; 125]);
  (181, [51; 60; 41; 95; 141; 51; 60; 173; 51; 60; 201; 48; 176; 3; 76; 83; 61; 169; 57; 205; 51; 60; 176; 3; 76; 83; 61; 173; 51; 60; 32; 177; 54; 238; 52; 60;
      173; 51; 60; 174; 52; 60; 157; 53; 60; 76; 88; 61; 169; 253; 32; 177; 54; 76; 96; 61; 169; 253; 32; 177; 54; 76; 71; 60; 101; 97; 100; 121; 76;
      106; 61; 32; 173; 53; 99; 61; 3; 173; 100; 61; 141; 11; 3; 173; 99; 61; 141; 10; 3; 160; 0; 140; 9; 3; 169; 128; 141; 8; 3; 140; 7; 3; 169; 15;
      141; 6; 3; 173; 102; 61; 141; 5; 3; 173; 101; 61; 141; 4; 3; 169; 82; 141; 2; 3; 169; 16; 182; 125]);
  (182, [49; 141; 0; 3; 169; 64; 141; 3; 3; 173; 213; 57; 141; 1; 3; 32; 89; 228; 169; 3; 205; 3; 3; 144; 3; 76; 227; 61; 76; 217; 61; 25; 119; 104; 105; 108;
      101; 32; 114; 101; 97; 100; 105; 110; 103; 32; 68; 79; 83; 32; 51; 32; 100; 105; 115; 107; 46; 160; 61; 162; 191; 173; 3; 3; 32; 106; 59; 96;
      103; 101; 116; 32; 97; 115; 32; 109; 117; 99; 104; 32; 76; 243; 61; 32; 173; 53; 228; 61; 3; 169; 0; 133; 133; 169; 8; 133; 132; 173; 229; 61;
      170; 173; 228; 61; 32; 34; 53; 133; 174; 138; 133; 175; 24; 169; 25; 101; 174; 141; 232; 61; 169; 0; 101; 175; 141; 16; 183; 125]);
  (183, [233; 61; 160; 0; 140; 239; 61; 140; 238; 61; 169; 7; 205; 238; 61; 169; 0; 237; 239; 61; 176; 3; 76; 141; 62; 24; 173; 232; 61; 109; 238; 61; 141; 234;
      61; 173; 233; 61; 109; 239; 61; 141; 235; 61; 169; 0; 133; 133; 169; 128; 133; 132; 173; 239; 61; 170; 173; 238; 61; 32; 34; 53; 133; 174; 138;
      133; 175; 24; 173; 230; 61; 101; 174; 141; 236; 61; 173; 231; 61; 101; 175; 141; 237; 61; 173; 237; 61; 133; 163; 172; 236; 61; 174; 235; 61;
      173; 234; 61; 32; 103; 61; 238; 238; 61; 208; 160; 238; 239; 61; 76; 39; 62; 96; 101; 114; 116; 32; 68; 79; 76; 151; 62; 173; 216; 57; 16; 184;
      125]);
  (184, [141; 145; 62; 173; 215; 57; 141; 144; 62; 160; 0; 140; 143; 62; 169; 16; 141; 142; 62; 169; 23; 205; 142; 62; 169; 0; 237; 143; 62; 176; 3; 76; 233;
      62; 173; 145; 62; 133; 163; 172; 144; 62; 174; 143; 62; 173; 142; 62; 32; 103; 61; 24; 173; 144; 62; 105; 128; 141; 144; 62; 173; 145; 62; 105;
      0; 141; 145; 62; 238; 142; 62; 208; 202; 238; 143; 62; 76; 173; 62; 169; 57; 133; 163; 160; 219; 162; 0; 169; 24; 32; 103; 61; 160; 0; 140; 146;
      62; 169; 127; 205; 146; 62; 176; 3; 76; 43; 63; 174; 146; 62; 189; 219; 57; 141; 147; 62; 169; 127; 205; 147; 62; 144; 3; 76; 37; 16; 185; 125]);
  (185, [63; 173; 147; 62; 201; 252; 144; 3; 76; 37; 63; 32; 201; 59; 238; 146; 62; 76; 251; 62; 96; 32; 76; 48; 63; 141; 44; 63; 173; 44; 63; 201; 48; 176; 3;
      76; 72; 63; 169; 57; 205; 44; 63; 176; 3; 76; 72; 63; 96; 173; 44; 63; 201; 65; 176; 3; 76; 93; 63; 169; 90; 205; 44; 63; 176; 3; 76; 93; 63; 96;
      173; 44; 63; 73; 46; 240; 3; 76; 104; 63; 96; 32; 201; 59; 112; 97; 115; 76; 113; 63; 160; 0; 140; 116; 58; 140; 115; 58; 140; 109; 63; 200; 140;
      108; 63; 169; 63; 205; 108; 63; 169; 0; 237; 109; 63; 176; 3; 76; 225; 63; 169; 4; 133; 132; 173; 16; 186; 125]);
  (186, [109; 63; 170; 173; 108; 63; 32; 169; 52; 133; 174; 138; 133; 175; 24; 173; 215; 57; 101; 174; 133; 172; 173; 216; 57; 101; 175; 133; 173; 160; 0; 177;
      172; 141; 107; 63; 173; 107; 63; 208; 3; 76; 214; 63; 173; 107; 63; 73; 128; 208; 3; 76; 214; 63; 173; 109; 63; 141; 116; 58; 173; 108; 63; 141;
      115; 58; 238; 108; 63; 208; 165; 238; 109; 63; 76; 128; 63; 96; 0; 0; 4; 32; 32; 70; 73; 76; 236; 63; 142; 227; 63; 141; 226; 63; 169; 68; 141;
      92; 58; 24; 173; 214; 57; 105; 48; 141; 93; 58; 169; 58; 141; 94; 58; 169; 4; 141; 231; 63; 160; 1; 140; 230; 63; 169; 4; 16; 187; 125]);
  (187, [133; 132; 173; 227; 63; 170; 173; 226; 63; 32; 169; 52; 133; 174; 138; 133; 175; 24; 173; 215; 57; 101; 174; 141; 228; 63; 173; 216; 57; 101; 175; 141;
      229; 63; 24; 173; 228; 63; 109; 230; 63; 133; 174; 173; 229; 63; 105; 0; 133; 175; 160; 0; 177; 174; 73; 32; 208; 3; 76; 123; 64; 173; 230; 63;
      201; 9; 144; 3; 76; 123; 64; 24; 173; 228; 63; 109; 230; 63; 133; 174; 173; 229; 63; 105; 0; 133; 175; 160; 0; 177; 174; 174; 231; 63; 157; 91;
      58; 238; 231; 63; 238; 230; 63; 76; 51; 64; 24; 173; 228; 63; 105; 9; 133; 174; 173; 229; 63; 105; 0; 133; 175; 160; 0; 177; 174; 16; 188; 125]);
  (188, [73; 32; 208; 47; 24; 173; 228; 63; 105; 10; 133; 174; 173; 229; 63; 105; 0; 133; 175; 177; 174; 73; 32; 208; 26; 24; 173; 228; 63; 105; 11; 133; 174;
      173; 229; 63; 105; 0; 133; 175; 160; 0; 177; 174; 73; 32; 208; 3; 76; 23; 65; 169; 46; 174; 231; 63; 157; 91; 58; 238; 231; 63; 169; 9; 141; 230;
      63; 169; 11; 205; 230; 63; 176; 3; 76; 23; 65; 24; 173; 228; 63; 109; 230; 63; 133; 174; 173; 229; 63; 105; 0; 133; 175; 160; 0; 177; 174; 73;
      32; 208; 3; 76; 17; 65; 24; 173; 228; 63; 109; 230; 63; 133; 174; 173; 229; 63; 105; 0; 133; 175; 177; 174; 174; 231; 63; 16; 189; 125]);
  (189, [157; 91; 58; 238; 231; 63; 238; 230; 63; 76; 209; 64; 169; 0; 174; 231; 63; 157; 91; 58; 56; 173; 231; 63; 233; 1; 141; 231; 63; 173; 231; 63; 141; 91;
      58; 169; 4; 141; 230; 63; 173; 231; 63; 141; 68; 65; 173; 68; 65; 205; 230; 63; 176; 4; 76; 96; 65; 39; 174; 230; 63; 189; 91; 58; 141; 232; 63;
      173; 232; 63; 32; 45; 63; 173; 232; 63; 32; 177; 54; 238; 230; 63; 76; 57; 65; 96; 192; 90; 0; 0; 41; 32; 32; 32; 76; 108; 65; 142; 98; 65; 141;
      97; 65; 160; 0; 140; 104; 65; 140; 103; 65; 169; 125; 32; 177; 54; 76; 162; 65; 31; 32; 35; 32; 70; 105; 16; 190; 125]);
  (190, [108; 101; 32; 110; 97; 109; 101; 32; 32; 32; 32; 32; 32; 32; 32; 35; 32; 70; 105; 108; 101; 32; 110; 97; 109; 101; 162; 65; 169; 130; 32; 59; 54; 76;
      206; 65; 33; 18; 18; 32; 18; 18; 18; 18; 18; 18; 18; 18; 18; 18; 18; 32; 32; 32; 32; 32; 18; 18; 32; 18; 18; 18; 18; 18; 18; 18; 18; 18; 18; 18;
      162; 65; 169; 172; 32; 59; 54; 173; 103; 65; 201; 16; 173; 104; 65; 233; 0; 48; 3; 76; 183; 66; 173; 115; 58; 205; 97; 65; 173; 116; 58; 237; 98;
      65; 176; 3; 76; 183; 66; 169; 4; 133; 132; 173; 98; 65; 170; 173; 97; 65; 32; 169; 52; 133; 174; 16; 191; 125]);
  (191, [138; 133; 175; 24; 173; 215; 57; 101; 174; 133; 172; 173; 216; 57; 101; 175; 133; 173; 160; 0; 177; 172; 141; 102; 65; 173; 102; 65; 73; 128; 208; 3;
      76; 172; 66; 173; 102; 65; 208; 3; 76; 172; 66; 169; 1; 133; 132; 173; 104; 65; 170; 173; 103; 65; 32; 184; 52; 133; 174; 138; 133; 175; 24; 169;
      2; 101; 174; 141; 101; 65; 173; 103; 65; 41; 1; 133; 174; 173; 104; 65; 41; 0; 133; 175; 165; 174; 5; 175; 240; 3; 76; 111; 66; 172; 101; 65;
      162; 0; 169; 2; 32; 8; 57; 76; 121; 66; 172; 101; 65; 162; 0; 169; 21; 32; 8; 57; 173; 97; 65; 201; 10; 173; 98; 65; 233; 16; 192; 125]);
  (192, [0; 144; 3; 76; 141; 66; 169; 32; 32; 177; 54; 174; 98; 65; 173; 97; 65; 32; 27; 55; 169; 32; 32; 177; 54; 174; 98; 65; 173; 97; 65; 32; 233; 63; 238;
      103; 65; 208; 3; 238; 104; 65; 238; 97; 65; 208; 3; 238; 98; 65; 76; 213; 65; 173; 98; 65; 133; 161; 173; 97; 65; 133; 160; 96; 36; 32; 32; 76;
      200; 66; 142; 195; 66; 141; 194; 66; 76; 244; 66; 34; 37; 69; 79; 110; 32; 119; 104; 105; 99; 104; 32; 100; 114; 105; 118; 101; 32; 40; 49; 45;
      52; 41; 32; 105; 115; 32; 37; 83; 32; 100; 105; 115; 107; 63; 173; 195; 66; 133; 163; 172; 194; 66; 162; 66; 169; 16; 193; 125]);
  (193, [209; 32; 63; 56; 32; 166; 58; 165; 160; 141; 196; 66; 173; 196; 66; 73; 155; 240; 3; 76; 29; 67; 169; 125; 32; 177; 54; 32; 229; 58; 173; 196; 66; 41;
      127; 141; 196; 66; 173; 196; 66; 201; 49; 176; 3; 76; 71; 67; 169; 52; 205; 196; 66; 176; 3; 76; 71; 67; 173; 196; 66; 32; 177; 54; 173; 196; 66;
      41; 7; 133; 160; 96; 169; 253; 32; 177; 54; 76; 3; 67; 76; 82; 67; 76; 112; 67; 26; 125; 32; 32; 32; 32; 32; 32; 32; 32; 32; 32; 160; 195; 207;
      208; 217; 160; 179; 160; 244; 239; 160; 178; 174; 248; 160; 162; 67; 169; 85; 32; 59; 54; 76; 156; 67; 33; 29; 16; 194; 125]);
  (194, [29; 67; 111; 112; 121; 32; 102; 105; 108; 101; 115; 32; 102; 114; 111; 109; 32; 97; 32; 68; 79; 83; 32; 51; 32; 100; 105; 115; 107; 32; 116; 111; 162;
      67; 169; 122; 32; 59; 54; 76; 198; 67; 31; 32; 32; 32; 97; 32; 68; 79; 83; 32; 50; 46; 53; 32; 40; 111; 114; 32; 68; 79; 83; 32; 50; 46; 48; 41;
      32; 100; 105; 115; 107; 46; 162; 67; 169; 166; 32; 59; 54; 76; 246; 67; 37; 29; 29; 40; 72; 105; 116; 32; 160; 210; 197; 212; 213; 210; 206; 160;
      32; 102; 111; 114; 32; 100; 114; 105; 118; 101; 32; 35; 32; 116; 111; 32; 113; 117; 105; 116; 46; 41; 162; 67; 169; 16; 195; 125]);
  (195, [208; 32; 59; 54; 76; 6; 68; 5; 68; 79; 83; 32; 51; 162; 68; 169; 0; 32; 197; 66; 165; 160; 141; 213; 57; 76; 29; 68; 7; 68; 79; 83; 32; 50; 46; 120;
      162; 68; 169; 21; 32; 197; 66; 165; 160; 141; 214; 57; 96; 105; 109; 101; 109; 32; 45; 32; 76; 52; 68; 142; 43; 68; 141; 42; 68; 169; 4; 133;
      132; 173; 43; 68; 170; 173; 42; 68; 32; 169; 52; 133; 174; 138; 133; 175; 24; 173; 215; 57; 101; 174; 141; 44; 68; 173; 216; 57; 101; 175; 141;
      45; 68; 24; 173; 44; 68; 105; 14; 141; 46; 68; 173; 45; 68; 105; 0; 141; 47; 68; 24; 173; 44; 68; 105; 13; 133; 16; 196; 125]);
  (196, [174; 173; 45; 68; 105; 0; 133; 175; 160; 0; 177; 174; 141; 48; 68; 24; 173; 44; 68; 105; 12; 133; 174; 173; 45; 68; 105; 0; 133; 175; 169; 0; 141; 206;
      57; 177; 174; 141; 205; 57; 173; 46; 68; 133; 174; 173; 47; 68; 133; 175; 177; 174; 41; 255; 141; 207; 57; 200; 177; 174; 41; 3; 141; 208; 57;
      173; 48; 68; 133; 160; 96; 76; 192; 68; 169; 0; 141; 212; 57; 174; 211; 57; 189; 219; 57; 141; 211; 57; 173; 211; 57; 201; 128; 173; 212; 57;
      233; 0; 144; 3; 76; 233; 68; 169; 4; 133; 161; 169; 0; 133; 160; 96; 76; 244; 68; 173; 208; 57; 133; 161; 173; 207; 57; 133; 160; 16; 197; 125]);
  (197, [96; 68; 79; 83; 76; 250; 68; 160; 0; 140; 244; 68; 173; 200; 57; 141; 246; 68; 173; 199; 57; 141; 245; 68; 173; 211; 57; 201; 128; 173; 212; 57; 233;
      0; 144; 3; 76; 85; 69; 173; 244; 68; 205; 209; 57; 169; 0; 237; 210; 57; 144; 3; 76; 85; 69; 173; 246; 68; 133; 163; 172; 245; 68; 174; 212; 57;
      173; 211; 57; 32; 240; 61; 32; 189; 68; 24; 173; 245; 68; 101; 160; 141; 245; 68; 173; 246; 68; 101; 161; 141; 246; 68; 238; 244; 68; 76; 11; 69;
      56; 173; 245; 68; 237; 199; 57; 133; 160; 173; 246; 68; 237; 200; 57; 133; 161; 96; 32; 76; 107; 69; 141; 103; 69; 169; 12; 16; 198; 125]);
  (198, [141; 98; 3; 162; 32; 169; 0; 32; 86; 228; 169; 1; 205; 99; 3; 144; 3; 76; 180; 69; 173; 103; 69; 208; 3; 76; 180; 69; 76; 170; 69; 26; 119; 104; 105;
      108; 101; 32; 99; 108; 111; 115; 105; 110; 103; 32; 68; 79; 83; 32; 50; 46; 120; 32; 102; 105; 108; 101; 160; 69; 162; 143; 173; 99; 3; 32; 106;
      59; 96; 116; 76; 185; 69; 141; 181; 69; 169; 0; 32; 104; 69; 169; 58; 141; 101; 3; 169; 92; 141; 100; 3; 169; 3; 141; 98; 3; 173; 181; 69; 141;
      106; 3; 160; 0; 140; 107; 3; 162; 32; 169; 0; 32; 86; 228; 169; 1; 205; 99; 3; 144; 3; 76; 20; 70; 76; 16; 199; 125]);
  (199, [10; 70; 26; 119; 104; 105; 108; 101; 32; 111; 112; 101; 110; 105; 110; 103; 32; 68; 79; 83; 32; 50; 46; 120; 32; 102; 105; 108; 101; 160; 69; 162; 239;
      173; 99; 3; 32; 106; 59; 96; 37; 66; 76; 26; 70; 142; 22; 70; 141; 21; 70; 173; 200; 57; 141; 101; 3; 173; 199; 57; 141; 100; 3; 173; 22; 70;
      141; 105; 3; 173; 21; 70; 141; 104; 3; 169; 11; 141; 98; 3; 162; 32; 169; 0; 32; 86; 228; 169; 3; 205; 99; 3; 144; 3; 76; 118; 70; 76; 108; 70;
      26; 119; 104; 105; 108; 101; 32; 119; 114; 105; 116; 105; 110; 103; 32; 68; 79; 83; 32; 50; 46; 120; 32; 102; 105; 16; 200; 125]);
  (200, [108; 101; 160; 70; 162; 81; 173; 99; 3; 32; 106; 59; 96; 211; 212; 193; 210; 212; 160; 32; 76; 129; 70; 142; 120; 70; 141; 119; 70; 169; 125; 32; 177;
      54; 169; 4; 133; 132; 173; 120; 70; 170; 173; 119; 70; 32; 169; 52; 133; 174; 138; 133; 175; 24; 173; 215; 57; 101; 174; 141; 121; 70; 173; 216;
      57; 101; 175; 141; 122; 70; 169; 63; 205; 119; 70; 169; 0; 237; 120; 70; 144; 37; 173; 121; 70; 133; 174; 173; 122; 70; 133; 175; 160; 0; 177;
      174; 240; 21; 173; 121; 70; 133; 174; 173; 122; 70; 133; 175; 160; 0; 177; 174; 73; 128; 240; 3; 76; 48; 71; 76; 254; 70; 25; 78; 111; 16; 201;
      125]);
  (201, [32; 102; 105; 108; 101; 32; 119; 105; 116; 104; 32; 116; 104; 97; 116; 32; 110; 117; 109; 98; 101; 114; 33; 162; 70; 169; 228; 32; 59; 54; 32; 175; 54;
      76; 37; 71; 25; 72; 105; 116; 32; 160; 211; 212; 193; 210; 212; 160; 32; 116; 111; 32; 116; 114; 121; 32; 97; 103; 97; 105; 110; 46; 162; 71;
      169; 11; 32; 59; 54; 32; 123; 58; 96; 76; 70; 71; 18; 37; 69; 37; 69; 82; 101; 97; 100; 121; 32; 116; 111; 32; 99; 111; 112; 121; 32; 162; 71;
      169; 51; 32; 63; 56; 174; 120; 70; 173; 119; 70; 32; 233; 63; 76; 116; 71; 26; 37; 69; 37; 69; 72; 105; 116; 32; 160; 211; 16; 202; 125]);
  (202, [212; 193; 210; 212; 160; 32; 105; 102; 32; 111; 107; 97; 121; 46; 37; 69; 162; 71; 169; 89; 32; 63; 56; 76; 155; 71; 28; 72; 105; 116; 32; 160; 211;
      197; 204; 197; 195; 212; 160; 32; 116; 111; 32; 114; 101; 106; 101; 99; 116; 32; 99; 111; 112; 121; 46; 162; 71; 169; 126; 32; 59; 54; 173; 31;
      208; 41; 3; 133; 174; 165; 174; 73; 3; 240; 3; 76; 181; 71; 76; 162; 71; 173; 31; 208; 41; 2; 133; 174; 165; 174; 240; 3; 76; 196; 71; 96; 174;
      120; 70; 173; 119; 70; 32; 49; 68; 169; 0; 141; 212; 57; 165; 160; 141; 211; 57; 169; 8; 141; 125; 70; 32; 247; 68; 165; 161; 16; 203; 125]);
  (203, [141; 124; 70; 165; 160; 141; 123; 70; 173; 213; 57; 77; 214; 57; 240; 3; 76; 183; 72; 32; 175; 54; 76; 32; 72; 37; 80; 108; 101; 97; 115; 101; 32; 114;
      101; 109; 111; 118; 101; 32; 68; 79; 83; 32; 51; 32; 40; 39; 102; 114; 111; 109; 39; 41; 32; 100; 105; 115; 107; 32; 97; 110; 100; 162; 71; 169;
      250; 32; 59; 54; 76; 77; 72; 34; 32; 32; 32; 32; 32; 32; 32; 105; 110; 115; 101; 114; 116; 32; 68; 79; 83; 32; 50; 46; 120; 32; 40; 39; 116; 111;
      39; 41; 32; 100; 105; 115; 107; 46; 162; 72; 169; 42; 32; 59; 54; 32; 175; 54; 76; 118; 72; 27; 32; 32; 32; 16; 204; 125]);
  (204, [80; 117; 115; 104; 32; 160; 211; 212; 193; 210; 212; 160; 32; 119; 104; 101; 110; 32; 114; 101; 97; 100; 121; 46; 162; 72; 169; 90; 32; 59; 54; 32;
      123; 58; 76; 167; 72; 35; 28; 28; 156; 156; 45; 45; 45; 99; 111; 112; 121; 105; 110; 103; 32; 160; 212; 207; 160; 32; 68; 79; 83; 32; 50; 46;
      120; 32; 100; 105; 115; 107; 45; 45; 45; 162; 72; 169; 131; 32; 59; 54; 173; 125; 70; 32; 182; 69; 76; 199; 72; 173; 125; 70; 73; 8; 240; 3; 76;
      199; 72; 173; 125; 70; 32; 182; 69; 174; 124; 70; 173; 123; 70; 32; 23; 70; 169; 9; 141; 125; 70; 173; 213; 57; 77; 214; 57; 16; 205; 125]);
  (205, [240; 3; 76; 159; 73; 169; 1; 32; 104; 69; 32; 175; 54; 76; 17; 73; 37; 80; 108; 101; 97; 115; 101; 32; 114; 101; 109; 111; 118; 101; 32; 68; 79; 83;
      32; 50; 46; 120; 32; 40; 39; 116; 111; 39; 41; 32; 100; 105; 115; 107; 32; 97; 110; 100; 162; 72; 169; 235; 32; 59; 54; 76; 62; 73; 34; 32; 32;
      32; 32; 32; 32; 32; 105; 110; 115; 101; 114; 116; 32; 68; 79; 83; 32; 51; 32; 40; 39; 102; 114; 111; 109; 39; 41; 32; 100; 105; 115; 107; 46;
      162; 73; 169; 27; 32; 59; 54; 32; 175; 54; 76; 103; 73; 27; 32; 32; 32; 80; 117; 115; 104; 32; 160; 211; 212; 193; 16; 206; 125]);
  (206, [210; 212; 160; 32; 119; 104; 101; 110; 32; 114; 101; 97; 100; 121; 46; 162; 73; 169; 75; 32; 59; 54; 32; 123; 58; 76; 152; 73; 35; 28; 28; 156; 156;
      45; 45; 45; 99; 111; 112; 121; 105; 110; 103; 32; 160; 198; 210; 207; 205; 160; 32; 68; 79; 83; 32; 51; 32; 100; 105; 115; 107; 45; 45; 45; 162;
      73; 169; 116; 32; 59; 54; 169; 127; 205; 211; 57; 169; 0; 237; 212; 57; 144; 3; 76; 220; 71; 173; 213; 57; 77; 214; 57; 208; 3; 76; 190; 73; 169;
      1; 32; 104; 69; 169; 125; 32; 177; 54; 76; 216; 73; 17; 70; 105; 108; 101; 32; 67; 111; 112; 105; 101; 100; 32; 79; 75; 16; 207; 125]);
  (207, [65; 89; 33; 162; 73; 169; 198; 32; 59; 54; 32; 175; 54; 76; 254; 73; 24; 72; 105; 116; 32; 160; 211; 212; 193; 210; 212; 160; 32; 116; 111; 32; 99;
      111; 110; 116; 105; 110; 117; 101; 46; 162; 73; 169; 229; 32; 59; 54; 32; 123; 58; 96; 97; 120; 71; 111; 111; 100; 0; 0; 16; 82; 0; 0; 76; 24;
      74; 56; 173; 229; 2; 237; 199; 57; 133; 174; 173; 230; 2; 237; 200; 57; 133; 175; 165; 174; 41; 0; 141; 9; 74; 165; 175; 41; 252; 141; 10; 74;
      169; 10; 133; 132; 173; 10; 74; 170; 173; 9; 74; 32; 184; 52; 141; 209; 57; 138; 141; 210; 57; 32; 79; 67; 76; 123; 74; 16; 208; 125]);
  (208, [40; 37; 69; 37; 69; 80; 108; 97; 99; 101; 32; 116; 104; 101; 32; 68; 79; 83; 32; 51; 32; 100; 105; 115; 107; 32; 105; 110; 32; 100; 114; 105; 118; 101;
      32; 37; 66; 37; 69; 37; 69; 169; 0; 133; 163; 172; 213; 57; 162; 74; 169; 82; 32; 63; 56; 173; 214; 57; 77; 213; 57; 240; 3; 76; 30; 75; 32; 175;
      54; 76; 191; 74; 36; 67; 65; 85; 84; 73; 79; 78; 58; 32; 89; 111; 117; 32; 119; 105; 108; 108; 32; 98; 101; 32; 115; 119; 97; 112; 112; 105; 110;
      103; 32; 100; 105; 115; 107; 115; 46; 162; 74; 169; 154; 32; 59; 54; 32; 175; 54; 76; 237; 74; 32; 32; 32; 16; 209; 125]);
  (209, [32; 32; 32; 32; 32; 32; 32; 80; 117; 116; 32; 97; 32; 119; 114; 105; 116; 101; 32; 112; 114; 111; 116; 101; 99; 116; 32; 116; 97; 98; 162; 74; 169;
      204; 32; 59; 54; 76; 20; 75; 28; 32; 32; 32; 32; 32; 32; 32; 32; 32; 111; 110; 32; 121; 111; 117; 114; 32; 68; 79; 83; 32; 51; 32; 100; 105; 115;
      107; 33; 162; 74; 169; 247; 32; 59; 54; 76; 86; 75; 76; 72; 75; 38; 80; 108; 97; 99; 101; 32; 116; 104; 101; 32; 68; 79; 83; 32; 50; 46; 120; 32;
      100; 105; 115; 107; 32; 105; 110; 32; 100; 114; 105; 118; 101; 32; 37; 66; 37; 69; 37; 69; 169; 0; 133; 163; 16; 210; 125]);
  (210, [172; 214; 57; 162; 75; 169; 33; 32; 63; 56; 32; 175; 54; 76; 117; 75; 24; 80; 117; 115; 104; 32; 160; 211; 212; 193; 210; 212; 160; 32; 119; 104; 101;
      110; 32; 114; 101; 97; 100; 121; 46; 162; 75; 169; 92; 32; 59; 54; 32; 123; 58; 32; 148; 62; 32; 110; 63; 173; 115; 58; 13; 116; 58; 240; 3; 76;
      199; 75; 76; 189; 75; 41; 125; 29; 29; 83; 111; 114; 114; 121; 33; 32; 32; 78; 111; 32; 102; 105; 108; 101; 115; 32; 111; 110; 32; 116; 104; 97;
      116; 32; 68; 79; 83; 32; 51; 32; 100; 105; 115; 107; 33; 29; 29; 162; 75; 169; 147; 32; 59; 54; 32; 229; 58; 160; 0; 16; 211; 125]);
  (211, [140; 18; 74; 200; 140; 17; 74; 174; 18; 74; 173; 17; 74; 32; 105; 65; 165; 161; 141; 18; 74; 165; 160; 141; 17; 74; 32; 175; 54; 32; 175; 54; 76; 16;
      76; 35; 67; 104; 111; 111; 115; 101; 32; 97; 32; 102; 105; 108; 101; 32; 116; 111; 32; 99; 111; 112; 121; 32; 98; 121; 32; 116; 121; 112; 105;
      110; 103; 32; 105; 116; 115; 162; 75; 169; 236; 32; 59; 54; 76; 51; 76; 24; 32; 32; 110; 117; 109; 98; 101; 114; 32; 97; 115; 32; 103; 105; 118;
      101; 110; 32; 97; 98; 111; 118; 101; 46; 162; 76; 169; 26; 32; 59; 54; 32; 175; 54; 173; 17; 74; 205; 115; 58; 173; 18; 74; 16; 212; 125]);
  (212, [237; 116; 58; 48; 3; 76; 146; 76; 76; 109; 76; 27; 79; 114; 32; 115; 101; 101; 32; 109; 111; 114; 101; 32; 102; 105; 108; 101; 115; 32; 98; 121; 32;
      116; 121; 112; 105; 110; 103; 162; 76; 169; 81; 32; 59; 54; 76; 136; 76; 16; 32; 32; 106; 117; 115; 116; 32; 160; 210; 197; 212; 213; 210; 206;
      160; 46; 162; 76; 169; 119; 32; 59; 54; 76; 236; 76; 76; 182; 76; 32; 79; 114; 32; 106; 117; 115; 116; 32; 104; 105; 116; 32; 160; 210; 197; 212;
      213; 210; 206; 160; 32; 116; 111; 32; 82; 101; 115; 116; 97; 114; 116; 44; 162; 76; 169; 149; 32; 59; 54; 76; 229; 76; 36; 32; 32; 16; 213; 125]);
  (213, [32; 81; 117; 105; 116; 32; 116; 111; 32; 68; 79; 83; 44; 32; 111; 114; 32; 86; 105; 101; 119; 32; 110; 97; 109; 101; 115; 32; 97; 103; 97; 105; 110;
      46; 162; 76; 169; 192; 32; 59; 54; 32; 175; 54; 76; 2; 77; 15; 160; 217; 239; 245; 242; 160; 195; 232; 239; 233; 227; 229; 160; 191; 160; 162;
      76; 169; 242; 32; 78; 54; 32; 63; 60; 169; 0; 141; 14; 74; 165; 160; 141; 13; 74; 169; 0; 205; 13; 74; 169; 0; 237; 14; 74; 144; 17; 173; 17; 74;
      205; 115; 58; 173; 18; 74; 237; 116; 58; 16; 3; 76; 208; 75; 173; 13; 74; 13; 14; 74; 240; 3; 76; 39; 78; 169; 125; 16; 214; 125]);
  (214, [32; 177; 54; 76; 93; 77; 22; 37; 69; 82; 101; 97; 100; 121; 32; 116; 111; 32; 113; 117; 105; 116; 63; 37; 69; 37; 69; 37; 69; 162; 77; 169; 70; 32; 63;
      56; 32; 175; 54; 32; 175; 54; 76; 138; 77; 28; 32; 32; 32; 32; 72; 105; 116; 32; 160; 211; 212; 193; 210; 212; 160; 32; 32; 116; 111; 32; 82;
      101; 115; 116; 97; 114; 116; 46; 162; 77; 169; 109; 32; 59; 54; 76; 181; 77; 32; 32; 32; 32; 32; 72; 105; 116; 32; 160; 211; 197; 204; 197; 195;
      212; 160; 32; 116; 111; 32; 81; 117; 105; 116; 32; 116; 111; 32; 68; 79; 83; 46; 162; 77; 169; 148; 32; 59; 54; 76; 16; 215; 125]);
  (215, [229; 77; 37; 32; 32; 32; 32; 72; 105; 116; 32; 160; 207; 208; 212; 201; 207; 206; 160; 32; 116; 111; 32; 86; 105; 101; 119; 32; 102; 105; 108; 101;
      115; 32; 97; 103; 97; 105; 110; 46; 162; 77; 169; 191; 32; 59; 54; 173; 31; 208; 41; 7; 133; 174; 165; 174; 73; 7; 240; 3; 76; 255; 77; 76; 236;
      77; 173; 31; 208; 41; 2; 133; 174; 165; 174; 240; 3; 76; 19; 78; 32; 196; 58; 76; 36; 78; 173; 31; 208; 41; 1; 133; 174; 165; 174; 240; 3; 76;
      36; 78; 32; 119; 58; 76; 48; 78; 174; 14; 74; 173; 13; 74; 32; 126; 70; 76; 199; 75; 32; 76; 55; 78; 162; 255; 154; 16; 216; 125]);
  (216, [169; 7; 32; 72; 54; 76; 69; 78; 2; 75; 58; 169; 4; 133; 163; 169; 0; 133; 164; 160; 78; 162; 66; 169; 7; 32; 17; 54; 32; 21; 74; 165; 160; 141; 51; 78;
      173; 51; 78; 240; 3; 76; 86; 78; 173; 118; 58; 141; 148; 52; 173; 117; 58; 141; 147; 52; 169; 125; 32; 177; 54; 32; 196; 58; 76; 125; 78; 173;
      148; 52; 141; 118; 58; 173; 147; 52; 141; 117; 58; 173; 168; 59; 141; 148; 52; 173; 167; 59; 141; 147; 52; 173; 54; 78; 141; 121; 58; 173; 53;
      78; 141; 120; 58; 165; 16; 141; 111; 58; 165; 16; 41; 127; 133; 16; 165; 16; 141; 14; 210; 32; 52; 78; 96; 224; 2; 16; 217; 125]);
  (217, [225; 2; 122; 78; 54; 76; 69; 78; 2; 75; 58; 169; 4; 133; 163; 169; 0; 133; 164; 160; 78; 162; 66; 169; 7; 32; 17; 54; 32; 21; 74; 165; 160; 141; 51;
      78; 173; 51; 78; 240; 3; 76; 86; 78; 173; 118; 58; 141; 148; 52; 173; 117; 58; 141; 147; 52; 169; 125; 32; 177; 54; 32; 196; 58; 76; 125; 78;
      173; 148; 52; 141; 118; 58; 173; 147; 52; 141; 117; 58; 173; 168; 59; 141; 148; 52; 173; 167; 59; 141; 147; 52; 173; 54; 78; 141; 121; 58; 173;
      53; 78; 141; 120; 58; 165; 16; 141; 111; 58; 165; 16; 41; 127; 133; 16; 165; 16; 141; 14; 210; 32; 52; 78; 96; 224; 2; 16; 0; 4]);
  (218, [255; 255; 208; 3; 225; 3; 173; 117; 32; 201; 76; 208; 8; 32; 60; 46; 165; 8; 208; 1; 96; 76; 117; 32; 226; 2; 227; 2; 208; 3; 255; 255; 0; 52; 168; 79;
      32; 40; 99; 41; 49; 57; 56; 51; 32; 65; 99; 116; 105; 111; 110; 32; 67; 111; 109; 112; 117; 116; 101; 114; 32; 83; 101; 114; 118; 105; 99; 101;
      115; 162; 255; 134; 166; 160; 12; 208; 10; 132; 166; 160; 11; 208; 4; 132; 166; 160; 5; 134; 165; 162; 0; 134; 163; 10; 10; 10; 10; 170; 152;
      157; 66; 3; 165; 163; 240; 10; 157; 74; 3; 165; 164; 157; 75; 3; 169; 0; 168; 157; 73; 3; 177; 165; 157; 72; 3; 20; 219; 125]);
  (219, [240; 18; 24; 165; 165; 105; 1; 157; 68; 3; 165; 166; 105; 0; 157; 69; 3; 76; 86; 228; 96; 134; 165; 132; 166; 160; 3; 76; 57; 52; 134; 165; 132; 166;
      162; 0; 134; 163; 160; 9; 32; 57; 52; 208; 10; 169; 11; 157; 66; 3; 169; 155; 76; 86; 228; 96; 164; 132; 240; 10; 134; 133; 70; 133; 106; 136;
      208; 250; 166; 133; 96; 164; 211; 16; 16; 133; 134; 134; 135; 56; 169; 0; 229; 134; 168; 169; 0; 229; 135; 170; 152; 96; 134; 211; 224; 0; 16; 3;
      32; 164; 52; 133; 130; 134; 131; 165; 133; 16; 14; 170; 69; 211; 133; 211; 165; 132; 32; 164; 52; 133; 132; 134; 133; 169; 0; 20; 220; 125]);
  (220, [133; 135; 96; 240; 27; 202; 134; 199; 170; 240; 21; 134; 198; 169; 0; 162; 8; 10; 6; 198; 144; 2; 101; 199; 202; 208; 246; 24; 101; 135; 133; 135; 165;
      134; 166; 135; 96; 32; 181; 52; 166; 130; 240; 27; 134; 198; 166; 132; 240; 21; 202; 134; 199; 162; 8; 10; 38; 135; 6; 198; 144; 6; 101; 199;
      144; 2; 230; 135; 202; 208; 240; 133; 134; 165; 130; 166; 133; 32; 217; 52; 165; 131; 166; 132; 32; 217; 52; 76; 160; 52; 133; 160; 134; 161;
      132; 162; 24; 104; 133; 132; 105; 3; 168; 104; 133; 133; 105; 0; 72; 152; 72; 160; 1; 177; 132; 133; 130; 200; 177; 132; 133; 131; 200; 177; 132;
      20; 221; 125]);
  (221, [168; 185; 160; 0; 145; 130; 136; 16; 248; 96; 72; 169; 1; 133; 17; 104; 96; 72; 134; 161; 132; 162; 168; 169; 0; 153; 192; 5; 168; 177; 161; 141; 0; 5;
      168; 200; 169; 155; 208; 2; 177; 161; 153; 0; 5; 136; 208; 248; 104; 162; 0; 160; 5; 32; 110; 52; 76; 93; 53; 134; 161; 170; 164; 161; 165; 183;
      32; 119; 52; 76; 93; 53; 32; 33; 52; 76; 93; 53; 134; 161; 170; 164; 161; 165; 183; 32; 41; 52; 76; 93; 53; 32; 47; 52; 132; 160; 189; 72; 3;
      240; 3; 56; 233; 1; 160; 0; 145; 165; 164; 160; 96; 134; 162; 170; 164; 162; 165; 183; 72; 169; 255; 133; 163; 104; 72; 20; 222; 125]);
  (222, [134; 161; 132; 162; 160; 0; 165; 163; 145; 161; 104; 164; 162; 32; 174; 53; 76; 93; 53; 162; 7; 134; 163; 10; 10; 10; 10; 170; 165; 163; 157; 66; 3;
      169; 0; 157; 72; 3; 157; 73; 3; 152; 32; 86; 228; 133; 160; 76; 93; 53; 169; 155; 170; 165; 183; 134; 161; 164; 161; 162; 11; 76; 229; 53; 160;
      155; 208; 247; 32; 57; 52; 76; 93; 53; 133; 212; 134; 213; 32; 170; 217; 32; 230; 216; 160; 255; 162; 0; 200; 232; 177; 243; 157; 80; 5; 16; 247;
      73; 128; 157; 80; 5; 142; 80; 5; 96; 162; 0; 32; 26; 54; 165; 183; 162; 80; 160; 5; 32; 41; 52; 76; 93; 53; 162; 0; 20; 223; 125]);
  (223, [32; 60; 54; 76; 2; 54; 160; 0; 133; 160; 138; 132; 162; 166; 162; 32; 26; 54; 165; 160; 76; 65; 54; 160; 0; 32; 85; 54; 165; 160; 76; 16; 54; 134; 162;
      170; 164; 162; 165; 183; 192; 0; 16; 22; 72; 134; 161; 132; 162; 160; 45; 32; 11; 54; 56; 169; 0; 229; 161; 170; 169; 0; 229; 162; 168; 104; 76;
      85; 54; 32; 110; 54; 76; 2; 54; 32; 117; 54; 165; 160; 76; 16; 54; 134; 162; 132; 163; 162; 0; 164; 162; 132; 162; 32; 26; 54; 200; 185; 80; 5;
      145; 162; 136; 16; 248; 96; 224; 0; 16; 237; 133; 160; 134; 161; 132; 162; 56; 169; 0; 229; 160; 168; 169; 0; 229; 20; 224; 125]);
  (224, [161; 170; 152; 32; 26; 54; 232; 138; 168; 185; 79; 5; 145; 162; 136; 208; 248; 138; 145; 162; 200; 169; 45; 145; 162; 96; 165; 183; 162; 19; 142; 80;
      5; 162; 80; 160; 5; 32; 221; 53; 169; 80; 162; 5; 133; 164; 134; 165; 160; 0; 132; 160; 132; 161; 132; 162; 177; 164; 133; 163; 230; 163; 169;
      32; 200; 209; 164; 208; 5; 200; 196; 163; 48; 247; 177; 164; 201; 45; 208; 3; 133; 162; 200; 196; 163; 16; 54; 177; 164; 201; 48; 48; 48; 201;
      58; 16; 44; 56; 233; 48; 170; 165; 161; 72; 165; 160; 10; 38; 161; 10; 38; 161; 24; 101; 160; 133; 160; 104; 101; 161; 133; 161; 6; 160; 38; 20;
      225; 125]);
  (225, [161; 24; 138; 101; 160; 133; 160; 144; 2; 230; 161; 200; 196; 163; 48; 202; 165; 162; 240; 13; 56; 169; 0; 229; 160; 133; 160; 169; 0; 229; 161; 133;
      161; 96; 133; 164; 134; 165; 169; 4; 133; 166; 169; 36; 32; 4; 54; 169; 0; 162; 4; 6; 164; 38; 165; 42; 202; 208; 248; 105; 48; 201; 58; 48; 2;
      105; 6; 32; 4; 54; 198; 166; 208; 229; 96; 133; 192; 134; 193; 140; 240; 5; 160; 0; 177; 192; 133; 194; 230; 194; 162; 13; 181; 162; 157; 240; 5;
      202; 208; 248; 134; 139; 134; 138; 230; 138; 164; 138; 196; 194; 176; 218; 177; 192; 201; 37; 208; 15; 230; 138; 200; 177; 192; 201; 37; 20; 226;
      125]);
  (226, [240; 6; 201; 69; 208; 8; 169; 155; 32; 4; 54; 76; 175; 55; 164; 139; 230; 139; 230; 139; 133; 160; 185; 240; 5; 190; 241; 5; 164; 160; 192; 67; 240;
      230; 192; 83; 208; 6; 32; 161; 53; 76; 175; 55; 192; 73; 208; 6; 32; 110; 54; 76; 175; 55; 192; 72; 208; 6; 32; 105; 55; 76; 175; 55; 32; 60; 54;
      76; 175; 55; 2; 83; 58; 10; 56; 2; 69; 58; 15; 56; 133; 91; 134; 92; 132; 90; 133; 85; 134; 86; 132; 84; 96; 72; 169; 0; 133; 164; 104; 133; 160;
      134; 161; 132; 162; 160; 0; 165; 164; 166; 163; 240; 16; 145; 160; 200; 208; 251; 230; 161; 198; 163; 208; 245; 240; 20; 227; 125]);
  (227, [3; 145; 160; 200; 196; 162; 208; 249; 96; 133; 160; 134; 161; 132; 162; 160; 0; 165; 165; 240; 22; 177; 162; 145; 160; 200; 208; 249; 230; 161; 230;
      163; 198; 165; 208; 241; 240; 5; 177; 162; 145; 160; 200; 196; 164; 208; 247; 96; 169; 79; 0; 4; 113; 56; 144; 0; 0; 0; 0; 0; 0; 0; 0; 0; 0; 0;
      0; 0; 0; 0; 0; 0; 0; 0; 0; 0; 0; 0; 0; 0; 0; 0; 0; 0; 0; 0; 0; 0; 0; 0; 0; 0; 0; 0; 0; 0; 0; 0; 0; 0; 0; 0; 0; 0; 0; 0; 0; 0; 0; 0; 0; 0; 0; 0;
      0; 0; 0; 0; 0; 0; 0; 0; 0; 0; 0; 20; 228; 125]);
  (228, [0; 0; 0; 0; 0; 0; 0; 0; 0; 0; 0; 0; 0; 0; 0; 0; 0; 0; 0; 0; 0; 0; 0; 0; 0; 0; 0; 0; 0; 0; 0; 0; 0; 0; 0; 0; 0; 0; 0; 0; 0; 0; 0; 0; 0; 0; 0; 0; 0; 0;
      0; 0; 0; 0; 0; 0; 0; 0; 0; 0; 0; 0; 0; 0; 0; 0; 0; 0; 0; 0; 0; 113; 56; 128; 0; 0; 0; 0; 0; 0; 0; 0; 0; 0; 0; 0; 0; 0; 0; 0; 0; 0; 0; 0; 0; 0; 0;
      0; 0; 0; 0; 0; 0; 0; 0; 0; 0; 0; 0; 0; 0; 0; 0; 0; 0; 0; 0; 0; 0; 0; 0; 0; 0; 0; 0; 20; 229; 125]);
  (229, [0; 0; 0; 0; 0; 0; 0; 0; 0; 0; 0; 0; 0; 0; 0; 0; 0; 0; 0; 0; 0; 0; 0; 0; 0; 0; 0; 0; 0; 0; 0; 0; 0; 0; 0; 0; 0; 0; 0; 0; 0; 0; 0; 0; 0; 0; 0; 0; 0; 0;
      0; 0; 0; 0; 0; 0; 0; 0; 0; 0; 0; 0; 0; 0; 0; 0; 0; 0; 0; 0; 0; 0; 0; 0; 113; 56; 128; 0; 0; 0; 0; 0; 0; 0; 0; 0; 0; 0; 0; 0; 0; 0; 0; 0; 0; 0; 0;
      0; 0; 0; 0; 0; 0; 0; 0; 0; 0; 0; 0; 0; 0; 0; 0; 0; 0; 0; 0; 0; 0; 0; 0; 0; 0; 0; 0; 20; 230; 125]);
  (230, [0; 0; 0; 0; 0; 0; 0; 0; 0; 0; 0; 0; 0; 0; 0; 0; 0; 0; 0; 0; 0; 0; 0; 0; 0; 0; 0; 0; 0; 0; 0; 0; 0; 0; 0; 0; 0; 0; 0; 0; 0; 0; 0; 0; 0; 0; 0; 0; 0; 0;
      0; 0; 0; 0; 0; 0; 0; 0; 0; 0; 0; 0; 0; 0; 0; 0; 0; 0; 0; 0; 0; 0; 0; 0; 0; 0; 0; 113; 56; 13; 0; 0; 0; 0; 0; 0; 0; 0; 0; 0; 113; 56; 31; 0; 0; 0;
      0; 0; 0; 0; 0; 0; 0; 0; 0; 0; 0; 0; 0; 0; 0; 0; 0; 0; 0; 0; 0; 0; 0; 0; 0; 0; 0; 1; 0; 20; 231; 125]);
  (231, [0; 0; 0; 0; 0; 0; 0; 0; 0; 0; 0; 0; 0; 0; 76; 70; 58; 169; 125; 32; 4; 54; 96; 76; 79; 58; 0; 48; 49; 50; 51; 52; 53; 54; 55; 56; 57; 65; 66; 67; 68;
      69; 70; 76; 99; 58; 141; 79; 58; 173; 79; 58; 74; 74; 74; 74; 133; 174; 166; 174; 189; 80; 58; 133; 160; 165; 160; 32; 4; 54; 173; 79; 58; 41;
      15; 133; 174; 166; 174; 189; 80; 58; 133; 160; 165; 160; 32; 4; 54; 96; 0; 0; 76; 148; 58; 142; 144; 58; 141; 143; 58; 173; 144; 58; 32; 96; 58;
      173; 143; 58; 32; 96; 58; 96; 0; 0; 76; 172; 58; 142; 168; 58; 141; 167; 58; 20; 232; 125]);
  (232, [173; 167; 58; 201; 10; 173; 168; 58; 233; 0; 144; 3; 76; 198; 58; 169; 32; 32; 4; 54; 173; 167; 58; 201; 100; 173; 168; 58; 233; 0; 144; 3; 76; 218;
      58; 169; 32; 32; 4; 54; 173; 167; 58; 201; 232; 173; 168; 58; 233; 3; 144; 3; 76; 238; 58; 169; 32; 32; 4; 54; 174; 168; 58; 173; 167; 58; 32;
      60; 54; 96; 76; 251; 58; 173; 31; 208; 41; 1; 133; 174; 165; 174; 73; 1; 240; 3; 76; 14; 59; 76; 251; 58; 173; 31; 208; 41; 1; 133; 174; 165;
      174; 240; 3; 76; 31; 59; 76; 14; 59; 96; 76; 117; 32; 76; 38; 59; 173; 66; 58; 133; 16; 165; 16; 141; 14; 20; 233; 125]);
  (233, [210; 32; 32; 59; 76; 78; 59; 23; 125; 29; 80; 108; 101; 97; 115; 101; 32; 105; 110; 115; 101; 114; 116; 32; 68; 79; 83; 32; 50; 46; 53; 162; 59; 169;
      54; 32; 142; 53; 76; 110; 59; 21; 100; 105; 115; 107; 32; 97; 110; 100; 32; 112; 114; 101; 115; 115; 32; 160; 211; 212; 193; 210; 212; 162; 59;
      169; 88; 32; 161; 53; 32; 248; 58; 76; 48; 59; 0; 0; 0; 76; 129; 59; 32; 48; 53; 123; 59; 2; 76; 160; 59; 21; 125; 29; 69; 114; 114; 111; 114;
      32; 37; 66; 32; 119; 104; 105; 108; 101; 32; 37; 83; 37; 69; 169; 0; 133; 163; 173; 125; 59; 133; 165; 173; 124; 59; 20; 234; 125]);
  (234, [133; 164; 172; 123; 59; 162; 59; 169; 138; 32; 146; 55; 76; 219; 59; 31; 84; 111; 32; 99; 111; 110; 116; 105; 110; 117; 101; 32; 68; 73; 83; 75; 70;
      73; 88; 44; 32; 104; 105; 116; 32; 160; 211; 212; 193; 210; 212; 162; 59; 169; 187; 32; 161; 53; 32; 248; 58; 32; 76; 58; 0; 76; 236; 59; 141;
      232; 59; 173; 232; 59; 201; 48; 176; 3; 76; 8; 60; 169; 57; 205; 232; 59; 176; 3; 76; 8; 60; 169; 1; 133; 160; 96; 169; 0; 133; 160; 96; 0; 76;
      17; 60; 141; 13; 60; 173; 13; 60; 32; 233; 59; 165; 160; 73; 1; 240; 27; 173; 13; 60; 201; 65; 176; 3; 76; 49; 20; 235; 125]);
  (235, [60; 169; 90; 205; 13; 60; 176; 10; 173; 13; 60; 73; 46; 240; 3; 76; 64; 60; 169; 1; 133; 160; 96; 169; 0; 133; 160; 96; 0; 76; 73; 60; 141; 69; 60; 0;
      0; 0; 0; 0; 0; 0; 76; 86; 60; 32; 48; 53; 76; 60; 4; 160; 0; 140; 81; 60; 173; 79; 60; 141; 72; 60; 173; 78; 60; 141; 71; 60; 169; 1; 32; 227;
      53; 165; 160; 141; 82; 60; 173; 82; 60; 32; 70; 60; 165; 160; 73; 1; 240; 3; 76; 180; 60; 173; 81; 60; 205; 80; 60; 144; 3; 76; 180; 60; 238; 81;
      60; 24; 173; 76; 60; 109; 81; 60; 133; 174; 173; 77; 60; 105; 0; 133; 175; 173; 82; 20; 236; 125]);
  (236, [60; 160; 0; 145; 174; 173; 82; 60; 32; 4; 54; 76; 25; 61; 173; 82; 60; 73; 126; 240; 3; 76; 217; 60; 169; 0; 205; 81; 60; 144; 3; 76; 214; 60; 169;
      126; 32; 4; 54; 56; 173; 81; 60; 233; 1; 141; 81; 60; 76; 25; 61; 173; 82; 60; 73; 125; 240; 3; 76; 1; 61; 169; 0; 205; 81; 60; 144; 3; 76; 254;
      60; 169; 126; 32; 4; 54; 56; 173; 81; 60; 233; 1; 141; 81; 60; 76; 227; 60; 76; 25; 61; 173; 82; 60; 73; 155; 240; 3; 76; 20; 61; 32; 2; 54; 76;
      28; 61; 76; 25; 61; 169; 253; 32; 4; 54; 76; 109; 60; 173; 76; 60; 133; 174; 173; 77; 20; 237; 125]);
  (237, [60; 133; 175; 173; 81; 60; 160; 0; 145; 174; 96; 0; 0; 76; 51; 61; 142; 47; 61; 141; 46; 61; 173; 16; 60; 133; 163; 173; 15; 60; 133; 162; 169; 12;
      133; 164; 164; 162; 174; 47; 61; 173; 46; 61; 32; 83; 60; 96; 113; 56; 4; 0; 76; 90; 61; 173; 235; 59; 133; 163; 173; 234; 59; 133; 162; 169; 2;
      133; 164; 164; 162; 162; 61; 169; 83; 32; 83; 60; 162; 61; 169; 83; 32; 246; 54; 165; 160; 133; 160; 96; 0; 0; 0; 76; 131; 61; 142; 126; 61; 141;
      125; 61; 76; 151; 61; 10; 37; 83; 63; 32; 40; 89; 47; 78; 41; 32; 173; 126; 61; 133; 163; 172; 125; 61; 162; 20; 238; 125]);
  (238, [61; 169; 140; 32; 146; 55; 169; 1; 32; 227; 53; 165; 160; 41; 127; 141; 127; 61; 173; 127; 61; 73; 89; 240; 10; 173; 127; 61; 73; 78; 240; 3; 76; 166;
      61; 174; 127; 61; 169; 0; 32; 7; 54; 173; 127; 61; 73; 78; 240; 3; 76; 218; 61; 169; 0; 133; 160; 96; 169; 1; 133; 160; 96; 0; 0; 0; 0; 0; 0; 76;
      232; 61; 32; 48; 53; 223; 61; 5; 169; 49; 141; 0; 3; 173; 51; 58; 141; 1; 3; 173; 223; 61; 141; 2; 3; 173; 224; 61; 141; 3; 3; 173; 228; 61; 141;
      5; 3; 173; 227; 61; 141; 4; 3; 160; 0; 140; 7; 3; 169; 15; 141; 6; 3; 140; 9; 20; 239; 125]);
  (239, [3; 169; 128; 141; 8; 3; 173; 226; 61; 141; 11; 3; 173; 225; 61; 141; 10; 3; 32; 89; 228; 173; 3; 3; 133; 160; 96; 0; 0; 0; 0; 76; 63; 62; 32; 48; 53;
      56; 62; 3; 173; 57; 62; 133; 163; 173; 59; 62; 133; 165; 173; 58; 62; 133; 164; 172; 56; 62; 162; 64; 169; 82; 32; 229; 61; 165; 160; 133; 160;
      96; 0; 0; 0; 0; 76; 106; 62; 32; 48; 53; 99; 62; 3; 173; 100; 62; 133; 163; 173; 102; 62; 133; 165; 173; 101; 62; 133; 164; 172; 99; 62; 162;
      128; 169; 87; 32; 229; 61; 165; 160; 133; 160; 96; 0; 76; 146; 62; 141; 142; 62; 169; 0; 133; 133; 169; 20; 240; 125]);
  (240, [16; 133; 132; 173; 142; 62; 162; 0; 32; 251; 52; 133; 174; 138; 133; 175; 24; 173; 113; 56; 101; 174; 141; 49; 58; 173; 114; 56; 101; 175; 141; 50; 58;
      173; 49; 58; 133; 174; 173; 50; 58; 133; 175; 160; 0; 177; 174; 141; 54; 58; 24; 173; 49; 58; 105; 1; 141; 64; 58; 173; 50; 58; 105; 0; 141; 65;
      58; 173; 64; 58; 133; 174; 173; 65; 58; 133; 175; 200; 177; 174; 141; 59; 58; 136; 177; 174; 141; 58; 58; 169; 1; 10; 8; 24; 109; 64; 58; 133;
      174; 169; 0; 42; 40; 109; 65; 58; 133; 175; 200; 177; 174; 141; 57; 58; 136; 177; 174; 141; 56; 58; 24; 173; 49; 58; 105; 20; 241; 125]);
  (241, [5; 133; 162; 173; 50; 58; 105; 0; 133; 163; 169; 0; 133; 165; 169; 11; 133; 164; 164; 162; 162; 58; 169; 6; 32; 74; 56; 169; 11; 141; 5; 58; 96; 12;
      76; 60; 63; 76; 86; 63; 22; 37; 69; 37; 69; 87; 104; 105; 99; 104; 32; 100; 105; 115; 107; 32; 100; 114; 105; 118; 101; 63; 32; 162; 63; 169; 63;
      32; 146; 55; 160; 0; 140; 56; 63; 173; 56; 63; 32; 233; 59; 165; 160; 73; 1; 208; 3; 76; 128; 63; 169; 1; 32; 227; 53; 165; 160; 41; 127; 141;
      56; 63; 76; 98; 63; 56; 173; 56; 63; 233; 48; 141; 51; 58; 173; 56; 63; 32; 4; 54; 96; 0; 0; 0; 0; 20; 242; 125]);
  (242, [0; 76; 152; 63; 169; 3; 133; 132; 173; 53; 58; 170; 173; 52; 58; 32; 145; 52; 141; 144; 63; 138; 141; 145; 63; 169; 0; 133; 133; 169; 128; 133; 132;
      173; 145; 63; 170; 173; 144; 63; 32; 251; 52; 133; 174; 138; 133; 175; 24; 173; 113; 56; 101; 174; 141; 147; 63; 173; 114; 56; 101; 175; 141;
      148; 63; 24; 169; 105; 109; 144; 63; 133; 160; 169; 1; 109; 145; 63; 133; 161; 173; 148; 63; 133; 163; 172; 147; 63; 166; 161; 165; 160; 32; 103;
      62; 165; 160; 141; 146; 63; 173; 146; 63; 73; 1; 208; 3; 76; 33; 64; 76; 23; 64; 17; 119; 114; 105; 116; 105; 110; 103; 32; 100; 105; 114; 20;
      243; 125]);
  (243, [101; 99; 116; 111; 114; 121; 160; 64; 162; 5; 173; 146; 63; 32; 126; 59; 96; 19; 7; 133; 68; 141; 76; 42; 64; 160; 0; 140; 35; 64; 140; 34; 64; 169; 7;
      205; 34; 64; 169; 0; 237; 35; 64; 176; 3; 76; 192; 64; 169; 0; 133; 133; 169; 128; 133; 132; 173; 35; 64; 170; 173; 34; 64; 32; 251; 52; 133;
      174; 138; 133; 175; 24; 173; 113; 56; 101; 174; 141; 37; 64; 173; 114; 56; 101; 175; 141; 38; 64; 24; 169; 105; 109; 34; 64; 133; 160; 169; 1;
      109; 35; 64; 133; 161; 173; 38; 64; 133; 163; 172; 37; 64; 166; 161; 165; 160; 32; 60; 62; 165; 160; 141; 36; 64; 173; 36; 20; 244; 125]);
  (244, [64; 73; 1; 208; 3; 76; 181; 64; 76; 171; 64; 17; 114; 101; 97; 100; 105; 110; 103; 32; 100; 105; 114; 101; 99; 116; 111; 114; 121; 160; 64; 162; 153;
      173; 36; 64; 32; 126; 59; 238; 34; 64; 208; 3; 238; 35; 64; 76; 50; 64; 96; 76; 162; 7; 76; 199; 64; 141; 193; 64; 32; 67; 58; 173; 193; 64; 141;
      195; 64; 24; 173; 193; 64; 105; 31; 141; 231; 64; 173; 231; 64; 205; 195; 64; 176; 4; 76; 224; 65; 70; 173; 195; 64; 41; 15; 141; 194; 64; 173;
      195; 64; 41; 16; 133; 174; 165; 174; 240; 3; 76; 11; 65; 172; 194; 64; 162; 0; 169; 2; 32; 20; 56; 76; 21; 65; 20; 245; 125]);
  (245, [172; 194; 64; 162; 0; 169; 21; 32; 20; 56; 173; 195; 64; 201; 10; 144; 3; 76; 36; 65; 169; 32; 32; 4; 54; 162; 0; 173; 195; 64; 32; 110; 54; 169; 32;
      32; 4; 54; 173; 195; 64; 32; 143; 62; 173; 54; 58; 208; 3; 76; 195; 65; 173; 54; 58; 41; 128; 133; 174; 165; 174; 208; 3; 76; 85; 65; 169; 68;
      32; 4; 54; 76; 180; 65; 173; 54; 58; 73; 66; 240; 3; 76; 103; 65; 169; 32; 32; 4; 54; 76; 180; 65; 173; 54; 58; 73; 98; 240; 3; 76; 121; 65; 169;
      42; 32; 4; 54; 76; 180; 65; 173; 54; 58; 73; 67; 240; 3; 76; 139; 65; 169; 87; 32; 4; 54; 20; 246; 125]);
  (246, [76; 180; 65; 173; 54; 58; 73; 3; 240; 3; 76; 157; 65; 169; 32; 32; 4; 54; 76; 180; 65; 173; 54; 58; 73; 35; 240; 3; 76; 175; 65; 169; 42; 32; 4; 54;
      76; 180; 65; 169; 63; 32; 4; 54; 169; 32; 32; 4; 54; 162; 58; 169; 5; 32; 161; 53; 76; 218; 65; 76; 211; 65; 12; 32; 32; 32; 32; 40; 117; 110;
      117; 115; 101; 100; 41; 162; 65; 169; 198; 32; 161; 53; 238; 195; 64; 76; 220; 64; 96; 0; 0; 0; 76; 231; 65; 32; 48; 53; 225; 65; 2; 173; 225;
      65; 32; 196; 64; 76; 17; 66; 26; 37; 69; 37; 69; 67; 104; 111; 111; 115; 101; 32; 97; 32; 102; 20; 247; 125]);
  (247, [105; 108; 101; 32; 110; 117; 109; 98; 101; 114; 62; 32; 162; 65; 169; 246; 32; 146; 55; 173; 235; 59; 133; 163; 173; 234; 59; 133; 162; 169; 2; 133;
      164; 164; 162; 174; 227; 65; 173; 226; 65; 32; 83; 60; 96; 113; 56; 30; 0; 0; 0; 0; 0; 0; 0; 0; 0; 0; 0; 0; 0; 0; 0; 0; 0; 0; 0; 0; 0; 0; 0; 0;
      0; 0; 0; 0; 76; 84; 66; 32; 39; 64; 160; 66; 162; 50; 169; 0; 32; 228; 65; 173; 50; 66; 240; 3; 76; 113; 66; 160; 66; 162; 50; 169; 32; 32; 228;
      65; 173; 50; 66; 208; 3; 76; 146; 66; 162; 66; 169; 50; 32; 246; 54; 165; 160; 20; 248; 125]);
  (248, [141; 80; 66; 169; 0; 133; 161; 173; 80; 66; 133; 160; 96; 76; 155; 66; 169; 255; 133; 161; 169; 255; 133; 160; 96; 109; 9; 76; 160; 66; 142; 156; 66;
      141; 155; 66; 32; 81; 66; 165; 161; 141; 53; 58; 165; 160; 141; 52; 58; 173; 52; 58; 201; 0; 173; 53; 58; 233; 0; 48; 15; 169; 63; 205; 52; 58;
      169; 0; 237; 53; 58; 48; 3; 76; 249; 66; 76; 241; 66; 31; 37; 69; 89; 111; 117; 32; 100; 105; 100; 110; 39; 116; 32; 99; 104; 111; 111; 115; 101;
      32; 97; 110; 121; 116; 104; 105; 110; 103; 33; 37; 69; 162; 66; 169; 209; 32; 146; 55; 96; 173; 52; 58; 32; 143; 62; 20; 249; 125]);
  (249, [173; 54; 58; 240; 3; 76; 49; 67; 76; 31; 67; 20; 84; 104; 97; 116; 32; 102; 105; 108; 101; 32; 105; 115; 32; 117; 110; 117; 115; 101; 100; 46; 162; 67;
      169; 10; 32; 142; 53; 169; 255; 141; 53; 58; 169; 255; 141; 52; 58; 96; 76; 88; 67; 35; 125; 29; 32; 32; 32; 32; 84; 121; 112; 101; 32; 32; 32;
      32; 78; 97; 109; 101; 32; 32; 32; 32; 32; 76; 101; 110; 103; 116; 104; 32; 83; 116; 97; 114; 116; 162; 67; 169; 52; 32; 142; 53; 76; 104; 67; 5;
      200; 197; 216; 32; 32; 162; 67; 169; 98; 32; 161; 53; 173; 54; 58; 32; 96; 58; 169; 32; 32; 4; 54; 169; 32; 20; 250; 125]);
  (250, [32; 4; 54; 162; 58; 169; 5; 32; 161; 53; 169; 32; 32; 4; 54; 169; 32; 32; 4; 54; 174; 59; 58; 173; 58; 58; 32; 145; 58; 169; 32; 32; 4; 54; 169; 32;
      32; 4; 54; 169; 32; 32; 4; 54; 174; 57; 58; 173; 56; 58; 32; 145; 58; 76; 186; 67; 5; 37; 69; 196; 197; 195; 162; 67; 169; 180; 32; 146; 55; 162;
      0; 173; 54; 58; 32; 169; 58; 169; 32; 32; 4; 54; 169; 32; 32; 4; 54; 162; 58; 169; 5; 32; 161; 53; 169; 32; 32; 4; 54; 169; 32; 32; 4; 54; 174;
      59; 58; 173; 58; 58; 32; 169; 58; 169; 32; 32; 4; 54; 169; 32; 32; 4; 54; 169; 32; 20; 251; 125]);
  (251, [32; 4; 54; 174; 57; 58; 173; 56; 58; 32; 169; 58; 32; 2; 54; 76; 17; 68; 5; 37; 69; 37; 83; 32; 173; 156; 66; 133; 163; 172; 155; 66; 162; 68; 169; 11;
      32; 146; 55; 76; 45; 68; 9; 116; 104; 105; 115; 32; 102; 105; 108; 101; 162; 68; 169; 35; 32; 128; 61; 165; 160; 240; 3; 76; 69; 68; 169; 255;
      141; 53; 58; 169; 255; 141; 52; 58; 96; 76; 73; 68; 169; 83; 141; 2; 3; 173; 51; 58; 141; 1; 3; 32; 83; 228; 173; 234; 2; 41; 128; 133; 174; 165;
      174; 240; 3; 76; 109; 68; 169; 100; 141; 8; 19; 76; 114; 68; 169; 138; 141; 8; 19; 96; 0; 0; 0; 20; 252; 125]);
  (252, [0; 0; 0; 128; 64; 32; 16; 8; 4; 2; 1; 76; 132; 68; 142; 116; 68; 141; 115; 68; 160; 0; 140; 118; 68; 140; 117; 68; 173; 115; 68; 141; 119; 68; 173;
      116; 68; 141; 169; 68; 173; 169; 68; 205; 119; 68; 176; 4; 76; 226; 68; 0; 160; 0; 140; 120; 68; 169; 7; 205; 120; 68; 176; 3; 76; 220; 68; 174;
      119; 68; 189; 127; 56; 174; 120; 68; 61; 121; 68; 133; 174; 165; 174; 208; 3; 76; 214; 68; 238; 117; 68; 208; 3; 238; 118; 68; 238; 120; 68; 76;
      175; 68; 238; 119; 68; 76; 158; 68; 173; 118; 68; 133; 161; 173; 117; 68; 133; 160; 96; 0; 0; 76; 242; 68; 32; 20; 253; 125]);
  (253, [70; 68; 169; 56; 133; 70; 169; 117; 133; 69; 173; 51; 58; 133; 33; 169; 2; 141; 117; 56; 169; 56; 141; 238; 68; 169; 118; 141; 237; 68; 169; 127; 205;
      8; 19; 144; 3; 76; 51; 69; 173; 237; 68; 133; 174; 173; 238; 68; 133; 175; 169; 3; 160; 1; 145; 174; 169; 242; 136; 145; 174; 76; 72; 69; 173;
      237; 68; 133; 174; 173; 238; 68; 133; 175; 169; 2; 160; 1; 145; 174; 169; 195; 136; 145; 174; 169; 1; 10; 8; 24; 109; 237; 68; 133; 174; 169; 0;
      42; 40; 109; 238; 68; 133; 175; 165; 175; 72; 165; 174; 72; 162; 89; 169; 0; 32; 129; 68; 104; 133; 174; 104; 133; 175; 165; 161; 20; 254; 125]);
  (254, [160; 1; 145; 174; 165; 160; 136; 145; 174; 169; 56; 141; 238; 68; 169; 255; 141; 237; 68; 173; 237; 68; 133; 174; 173; 238; 68; 133; 175; 165; 175; 72;
      165; 174; 72; 162; 127; 169; 90; 32; 129; 68; 104; 133; 174; 104; 133; 175; 165; 161; 160; 1; 145; 174; 165; 160; 136; 145; 174; 32; 53; 21; 152;
      133; 160; 96; 0; 0; 127; 191; 223; 239; 247; 251; 253; 254; 180; 69; 76; 193; 69; 142; 179; 69; 141; 178; 69; 169; 3; 133; 132; 173; 179; 69;
      170; 173; 178; 69; 32; 145; 52; 133; 174; 138; 133; 175; 173; 178; 69; 41; 7; 133; 172; 173; 179; 69; 41; 0; 133; 173; 24; 173; 188; 69; 101; 20;
      255; 125]);
  (255, [172; 133; 170; 173; 189; 69; 101; 173; 133; 171; 166; 174; 189; 127; 56; 160; 0; 49; 170; 166; 174; 157; 127; 56; 96; 0; 0; 76; 11; 70; 169; 0; 133;
      163; 169; 0; 133; 164; 160; 144; 162; 56; 169; 117; 32; 39; 56; 169; 0; 133; 163; 169; 255; 133; 164; 160; 128; 162; 56; 169; 127; 32; 39; 56;
      160; 0; 140; 7; 70; 140; 6; 70; 169; 3; 205; 6; 70; 169; 0; 237; 7; 70; 176; 3; 76; 88; 70; 174; 7; 70; 173; 6; 70; 32; 190; 69; 238; 6; 70; 208;
      227; 238; 7; 70; 76; 53; 70; 160; 1; 140; 7; 70; 169; 104; 141; 6; 70; 169; 112; 205; 6; 70; 169; 1; 237; 21; 0; 125]);
  (256, [7; 70; 176; 3; 76; 133; 70; 174; 7; 70; 173; 6; 70; 32; 190; 69; 238; 6; 70; 208; 227; 238; 7; 70; 76; 98; 70; 162; 2; 169; 208; 32; 190; 69; 96; 0; 0;
      0; 0; 76; 148; 70; 142; 142; 70; 141; 141; 70; 24; 173; 141; 70; 105; 125; 141; 143; 70; 173; 142; 70; 105; 0; 141; 144; 70; 173; 143; 70; 133;
      174; 173; 144; 70; 133; 175; 160; 0; 177; 174; 74; 74; 133; 160; 96; 0; 0; 0; 0; 76; 197; 70; 142; 191; 70; 141; 190; 70; 24; 173; 190; 70; 105;
      125; 133; 174; 173; 191; 70; 105; 0; 133; 175; 160; 0; 177; 174; 41; 3; 141; 193; 70; 24; 173; 190; 70; 21; 1; 125]);
  (257, [105; 126; 133; 174; 173; 191; 70; 105; 0; 133; 175; 177; 174; 141; 192; 70; 173; 193; 70; 133; 161; 173; 192; 70; 133; 160; 96; 0; 0; 76; 7; 71; 142;
      3; 71; 141; 2; 71; 24; 173; 2; 71; 105; 125; 133; 174; 173; 3; 71; 105; 0; 133; 175; 160; 0; 177; 174; 41; 252; 145; 174; 24; 173; 2; 71; 105;
      126; 133; 174; 173; 3; 71; 105; 0; 133; 175; 169; 0; 145; 174; 96; 0; 0; 0; 0; 0; 0; 0; 0; 0; 76; 68; 71; 141; 56; 71; 160; 0; 140; 60; 71; 140;
      59; 71; 169; 66; 141; 58; 71; 169; 1; 10; 8; 24; 109; 64; 58; 133; 174; 169; 0; 42; 40; 109; 65; 21; 2; 125]);
  (258, [58; 133; 175; 200; 177; 174; 141; 62; 71; 136; 177; 174; 141; 61; 71; 76; 138; 71; 19; 86; 101; 114; 105; 102; 121; 105; 110; 103; 32; 102; 105; 108;
      101; 32; 37; 66; 37; 69; 169; 0; 133; 163; 172; 56; 71; 162; 71; 169; 118; 32; 146; 55; 173; 61; 71; 13; 62; 71; 208; 3; 76; 38; 72; 169; 57;
      133; 163; 169; 0; 133; 165; 169; 128; 133; 164; 160; 5; 162; 57; 169; 133; 32; 74; 56; 169; 57; 133; 163; 160; 5; 174; 62; 71; 173; 61; 71; 32;
      60; 62; 162; 57; 169; 5; 32; 145; 70; 165; 160; 141; 55; 58; 173; 55; 58; 77; 56; 71; 208; 3; 76; 225; 71; 76; 38; 72; 21; 3; 125]);
  (259, [169; 208; 205; 61; 71; 169; 2; 237; 62; 71; 144; 3; 76; 245; 71; 169; 3; 141; 58; 71; 174; 62; 71; 173; 61; 71; 32; 190; 69; 238; 59; 71; 208; 3; 238;
      60; 71; 173; 62; 71; 141; 64; 71; 173; 61; 71; 141; 63; 71; 162; 57; 169; 5; 32; 194; 70; 165; 161; 141; 62; 71; 165; 160; 141; 61; 71; 76; 152;
      71; 173; 61; 71; 13; 62; 71; 208; 3; 76; 211; 72; 76; 75; 72; 22; 66; 97; 100; 32; 108; 105; 110; 107; 32; 105; 110; 32; 102; 105; 108; 101; 32;
      37; 66; 32; 45; 32; 173; 53; 58; 133; 163; 172; 52; 58; 162; 72; 169; 52; 32; 146; 55; 173; 59; 71; 13; 21; 4; 125]);
  (260, [60; 71; 240; 3; 76; 139; 72; 76; 113; 72; 8; 100; 101; 108; 101; 116; 105; 110; 103; 162; 72; 169; 104; 32; 142; 53; 173; 49; 58; 133; 174; 173; 50;
      58; 133; 175; 169; 128; 160; 0; 145; 174; 76; 182; 72; 76; 153; 72; 10; 116; 114; 117; 110; 99; 97; 116; 105; 110; 103; 162; 72; 169; 142; 32;
      142; 53; 162; 57; 169; 133; 32; 4; 71; 169; 57; 133; 163; 160; 133; 174; 64; 71; 173; 63; 71; 32; 103; 62; 173; 64; 58; 133; 174; 173; 65; 58;
      133; 175; 173; 60; 71; 160; 1; 145; 174; 173; 59; 71; 136; 145; 174; 32; 149; 63; 76; 54; 73; 173; 59; 71; 77; 58; 58; 208; 6; 21; 5; 125]);
  (261, [13; 60; 71; 77; 59; 58; 208; 17; 173; 54; 58; 41; 223; 133; 174; 165; 174; 77; 58; 71; 208; 3; 76; 54; 73; 173; 49; 58; 133; 174; 173; 50; 58; 133;
      175; 160; 0; 177; 174; 41; 32; 133; 172; 173; 58; 71; 5; 172; 141; 58; 71; 173; 49; 58; 133; 174; 173; 50; 58; 133; 175; 173; 58; 71; 145; 174;
      173; 64; 58; 133; 174; 173; 65; 58; 133; 175; 173; 60; 71; 200; 145; 174; 173; 59; 71; 136; 145; 174; 32; 149; 63; 96; 0; 76; 59; 73; 173; 54;
      58; 41; 128; 133; 174; 165; 174; 208; 3; 76; 138; 73; 169; 66; 141; 54; 58; 169; 0; 133; 133; 169; 16; 133; 132; 173; 53; 21; 6; 125]);
  (262, [58; 170; 173; 52; 58; 32; 251; 52; 133; 174; 138; 133; 175; 24; 173; 113; 56; 101; 174; 141; 49; 58; 173; 114; 56; 101; 175; 141; 50; 58; 173; 49; 58;
      133; 174; 173; 50; 58; 133; 175; 173; 54; 58; 160; 0; 145; 174; 32; 149; 63; 96; 0; 0; 0; 76; 145; 73; 141; 141; 73; 173; 139; 73; 205; 140; 73;
      144; 3; 76; 171; 73; 173; 141; 73; 174; 139; 73; 157; 5; 58; 238; 139; 73; 96; 0; 0; 0; 76; 178; 73; 142; 173; 73; 141; 172; 73; 169; 0; 133;
      163; 169; 32; 133; 164; 160; 11; 162; 58; 169; 5; 32; 39; 56; 160; 0; 140; 139; 73; 169; 8; 141; 140; 73; 200; 140; 21; 7; 125]);
  (263, [174; 73; 173; 172; 73; 133; 174; 173; 173; 73; 133; 175; 136; 177; 174; 141; 242; 73; 173; 242; 73; 205; 174; 73; 176; 4; 76; 58; 74; 0; 24; 173; 172;
      73; 109; 174; 73; 133; 174; 173; 173; 73; 105; 0; 133; 175; 160; 0; 177; 174; 73; 46; 208; 3; 76; 42; 74; 24; 173; 172; 73; 109; 174; 73; 133;
      174; 173; 173; 73; 105; 0; 133; 175; 177; 174; 133; 160; 165; 160; 32; 142; 73; 76; 52; 74; 169; 8; 141; 139; 73; 169; 11; 141; 140; 73; 238;
      174; 73; 76; 231; 73; 96; 0; 0; 76; 64; 74; 76; 85; 74; 17; 37; 69; 78; 101; 119; 32; 102; 105; 108; 101; 32; 110; 97; 109; 21; 8; 125]);
  (264, [101; 63; 32; 162; 74; 169; 67; 32; 146; 55; 162; 58; 169; 18; 32; 48; 61; 169; 0; 205; 18; 58; 144; 3; 76; 158; 74; 162; 58; 169; 18; 32; 175; 73; 24;
      173; 49; 58; 105; 5; 133; 160; 173; 50; 58; 105; 0; 133; 161; 169; 58; 133; 163; 169; 0; 133; 165; 169; 11; 133; 164; 160; 5; 166; 161; 165; 160;
      32; 74; 56; 32; 149; 63; 76; 190; 74; 76; 183; 74; 21; 37; 69; 82; 101; 110; 97; 109; 101; 32; 99; 97; 110; 99; 101; 108; 108; 101; 100; 46; 37;
      69; 162; 74; 169; 161; 32; 146; 55; 96; 0; 76; 195; 74; 76; 223; 74; 24; 125; 37; 69; 86; 101; 114; 105; 102; 21; 9; 125]);
  (265, [121; 105; 110; 103; 32; 100; 105; 115; 107; 46; 46; 46; 37; 69; 37; 69; 162; 74; 169; 198; 32; 146; 55; 32; 8; 70; 32; 39; 64; 160; 0; 140; 53; 58;
      140; 52; 58; 169; 63; 205; 52; 58; 169; 0; 237; 53; 58; 16; 3; 76; 143; 75; 173; 52; 58; 32; 143; 62; 173; 54; 58; 73; 3; 240; 24; 173; 54; 58;
      73; 35; 240; 17; 173; 54; 58; 73; 66; 240; 10; 173; 54; 58; 73; 98; 240; 3; 76; 49; 75; 173; 52; 58; 32; 65; 71; 76; 132; 75; 173; 54; 58; 73;
      67; 240; 3; 76; 132; 75; 76; 98; 75; 35; 68; 101; 108; 101; 116; 105; 110; 103; 32; 102; 105; 108; 101; 21; 10; 125]);
  (266, [32; 37; 66; 32; 45; 32; 111; 112; 101; 110; 32; 102; 111; 114; 32; 119; 114; 105; 116; 101; 37; 69; 173; 53; 58; 133; 163; 172; 52; 58; 162; 75; 169;
      62; 32; 146; 55; 173; 49; 58; 133; 174; 173; 50; 58; 133; 175; 169; 128; 160; 0; 145; 174; 32; 149; 63; 238; 52; 58; 208; 3; 238; 53; 58; 76;
      244; 74; 32; 239; 68; 165; 160; 141; 191; 74; 173; 191; 74; 201; 128; 176; 3; 76; 187; 75; 76; 177; 75; 12; 119; 114; 105; 116; 105; 110; 103;
      32; 86; 84; 79; 67; 160; 75; 162; 164; 173; 191; 74; 32; 126; 59; 96; 76; 191; 75; 76; 233; 75; 38; 37; 69; 37; 69; 73; 110; 21; 11; 125]);
  (267, [115; 101; 114; 116; 32; 100; 101; 115; 105; 114; 101; 100; 32; 100; 105; 115; 107; 32; 97; 110; 100; 32; 104; 105; 116; 32; 160; 211; 212; 193; 210;
      212; 162; 75; 169; 194; 32; 146; 55; 32; 248; 58; 96; 0; 0; 76; 249; 75; 162; 255; 154; 173; 248; 75; 141; 78; 58; 173; 247; 75; 141; 77; 58;
      173; 64; 21; 73; 169; 208; 10; 173; 63; 21; 201; 49; 144; 3; 76; 107; 76; 76; 55; 76; 26; 125; 37; 69; 68; 79; 83; 32; 50; 46; 53; 32; 110; 111;
      116; 32; 98; 111; 111; 116; 101; 100; 33; 37; 69; 37; 69; 162; 76; 169; 28; 32; 146; 55; 76; 94; 76; 28; 65; 98; 111; 114; 21; 12; 125]);
  (268, [116; 105; 110; 103; 32; 45; 32; 112; 108; 101; 97; 115; 101; 32; 104; 105; 116; 32; 160; 211; 212; 193; 210; 212; 162; 76; 169; 65; 32; 161; 53; 32;
      248; 58; 32; 35; 59; 169; 64; 141; 190; 2; 32; 67; 58; 169; 1; 32; 155; 53; 76; 126; 76; 2; 75; 58; 169; 4; 133; 163; 169; 0; 133; 164; 160; 76;
      162; 123; 169; 1; 32; 100; 53; 76; 208; 76; 61; 125; 37; 69; 32; 32; 32; 32; 32; 32; 32; 32; 160; 196; 201; 211; 203; 198; 201; 216; 160; 213;
      212; 201; 204; 201; 212; 217; 160; 37; 69; 32; 32; 32; 32; 32; 32; 32; 32; 102; 111; 114; 32; 65; 84; 65; 82; 73; 32; 21; 13; 125]);
  (269, [68; 79; 83; 32; 50; 46; 53; 37; 69; 37; 69; 37; 69; 162; 76; 169; 146; 32; 146; 55; 173; 51; 58; 201; 1; 144; 10; 169; 8; 205; 51; 58; 144; 3; 76; 237;
      76; 160; 1; 140; 51; 58; 76; 15; 77; 30; 32; 32; 32; 32; 32; 32; 32; 67; 117; 114; 114; 101; 110; 116; 32; 68; 114; 105; 118; 101; 32; 35; 32;
      105; 115; 32; 37; 66; 37; 69; 169; 0; 133; 163; 172; 51; 58; 162; 76; 169; 240; 32; 146; 55; 76; 179; 77; 146; 155; 32; 32; 32; 32; 32; 32; 32;
      32; 49; 41; 32; 67; 104; 97; 110; 103; 101; 32; 68; 114; 105; 118; 101; 32; 35; 155; 32; 32; 32; 32; 21; 14; 125]);
  (270, [32; 32; 32; 32; 50; 41; 32; 85; 110; 101; 114; 97; 115; 101; 32; 70; 105; 108; 101; 155; 32; 32; 32; 32; 32; 32; 32; 32; 51; 41; 32; 86; 101; 114; 105;
      102; 121; 32; 68; 105; 115; 107; 155; 32; 32; 32; 32; 32; 32; 32; 32; 52; 41; 32; 82; 101; 110; 97; 109; 101; 32; 70; 105; 108; 101; 32; 98; 121;
      32; 35; 155; 32; 32; 32; 32; 32; 32; 32; 32; 53; 41; 32; 81; 117; 105; 116; 32; 116; 111; 32; 68; 79; 83; 155; 155; 32; 32; 32; 32; 32; 32; 32;
      32; 32; 32; 32; 32; 32; 87; 104; 105; 99; 104; 63; 32; 162; 77; 169; 32; 32; 161; 53; 169; 1; 32; 21; 15; 125]);
  (271, [227; 53; 165; 160; 141; 244; 75; 173; 244; 75; 201; 49; 176; 3; 76; 213; 77; 169; 53; 205; 244; 75; 176; 3; 76; 186; 77; 173; 244; 75; 32; 4; 54; 173;
      244; 75; 73; 49; 240; 3; 76; 241; 77; 32; 57; 63; 32; 76; 58; 76; 98; 79; 173; 244; 75; 73; 50; 240; 3; 76; 118; 78; 32; 188; 75; 76; 9; 78; 7;
      85; 110; 101; 114; 97; 115; 101; 162; 78; 169; 1; 32; 157; 66; 173; 52; 58; 201; 0; 173; 53; 58; 233; 0; 16; 3; 76; 115; 78; 173; 52; 58; 201;
      64; 173; 53; 58; 233; 0; 48; 3; 76; 115; 78; 173; 54; 58; 41; 128; 133; 174; 165; 174; 208; 10; 173; 21; 16; 125]);
  (272, [54; 58; 73; 67; 240; 3; 76; 76; 78; 32; 56; 73; 32; 192; 74; 76; 115; 78; 76; 108; 78; 28; 37; 69; 84; 104; 97; 116; 39; 115; 32; 110; 111; 116; 32;
      97; 110; 32; 101; 114; 97; 115; 101; 100; 32; 102; 105; 108; 101; 33; 162; 78; 169; 79; 32; 146; 55; 76; 98; 79; 173; 244; 75; 73; 51; 240; 3;
      76; 185; 78; 32; 2; 54; 32; 2; 54; 76; 162; 78; 24; 79; 75; 32; 116; 111; 32; 118; 101; 114; 105; 102; 121; 32; 101; 110; 116; 105; 114; 101; 32;
      100; 105; 115; 107; 162; 78; 169; 137; 32; 128; 61; 165; 160; 208; 3; 76; 182; 78; 32; 188; 75; 32; 192; 74; 76; 21; 17; 125]);
  (273, [98; 79; 173; 244; 75; 73; 52; 240; 3; 76; 251; 78; 32; 188; 75; 76; 208; 78; 6; 82; 101; 110; 97; 109; 101; 162; 78; 169; 201; 32; 157; 66; 173; 52;
      58; 201; 0; 173; 53; 58; 233; 0; 16; 3; 76; 248; 78; 173; 52; 58; 201; 64; 173; 53; 58; 233; 0; 48; 3; 76; 248; 78; 32; 61; 74; 76; 98; 79; 173;
      244; 75; 73; 53; 240; 3; 76; 56; 79; 76; 28; 79; 19; 125; 29; 82; 101; 116; 117; 114; 110; 32; 116; 111; 32; 68; 79; 83; 32; 50; 46; 53; 162; 79;
      169; 8; 32; 128; 61; 165; 160; 208; 3; 76; 50; 79; 169; 1; 32; 155; 53; 32; 35; 59; 32; 76; 21; 18; 125]);
  (274, [58; 76; 98; 79; 76; 91; 79; 31; 37; 69; 89; 111; 117; 32; 100; 105; 100; 110; 39; 116; 32; 99; 104; 111; 111; 115; 101; 32; 97; 110; 121; 116; 104;
      105; 110; 103; 33; 37; 69; 162; 79; 169; 59; 32; 146; 55; 76; 131; 79; 29; 37; 69; 37; 69; 80; 114; 101; 115; 115; 32; 160; 211; 212; 193; 210;
      212; 160; 32; 102; 111; 114; 32; 109; 101; 110; 117; 32; 62; 32; 162; 79; 169; 101; 32; 146; 55; 32; 248; 58; 76; 115; 76; 96; 76; 148; 79; 165;
      16; 141; 66; 58; 165; 16; 41; 127; 133; 16; 165; 16; 141; 14; 210; 32; 246; 75; 96; 96; 224; 2; 225; 2; 145; 79; 32; 76; 20; 0; 123]);
  (360, [2; 242; 3; 180; 1; 0; 0; 0; 0; 0; 0; 0; 0; 0; 0; 0; 0; 0; 0; 0; 0; 0; 0; 0; 0; 0; 0; 0; 0; 0; 0; 0; 0; 0; 0; 0; 0; 0; 0; 0; 0; 0; 0; 0; 31; 255; 255;
      255; 255; 255; 255; 255; 255; 255; 255; 0; 127; 255; 255; 255; 255; 255; 255; 255; 255; 255; 255; 255; 255; 255; 255; 255; 255; 255; 255; 255;
      255; 255; 255; 255; 255; 255; 255; 255; 255; 255; 255; 255; 255; 255; 255; 255; 255; 255; 255; 255; 255; 255; 255; 255]);
  (361, [98; 37; 0; 4; 0; 68; 79; 83; 32; 32; 32; 32; 32; 83; 89; 83; 98; 42; 0; 41; 0; 68; 85; 80; 32; 32; 32; 32; 32; 83; 89; 83; 98; 9; 0; 83; 0; 82; 65; 77;
      68; 73; 83; 75; 32; 67; 79; 77; 98; 70; 0; 92; 0; 83; 69; 84; 85; 80; 32; 32; 32; 67; 79; 77; 98; 56; 0; 162; 0; 67; 79; 80; 89; 51; 50; 32; 32;
      67; 79; 77; 98; 57; 0; 218; 0; 68; 73; 83; 75; 70; 73; 88; 32; 67; 79; 77]);
  (1024, [0; 0; 0; 0; 0; 0; 0; 0; 0; 0; 0; 0; 0; 0; 0; 0; 0; 0; 0; 0; 0; 0; 0; 0; 0; 0; 0; 0; 31; 255; 255; 255; 255; 255; 255; 255; 255; 255; 255; 0; 127; 255;
      255; 255; 255; 255; 255; 255; 255; 255; 255; 255; 255; 255; 255; 255; 255; 255; 255; 255; 255; 255; 255; 255; 255; 255; 255; 255; 255; 255; 255;
      255; 255; 255; 255; 255; 255; 255; 255; 255; 255; 255; 255; 255; 127; 255; 255; 255; 255; 255; 255; 255; 255; 255; 255; 255; 255; 255; 255; 255;
      255; 255; 255; 255; 255; 255; 255; 255; 255; 255; 255; 255; 255; 255; 255; 255; 255; 255; 255; 255; 255; 255; 47; 1])].
Definition dos2ed_25 : list Z := atr_image 128 1040 dos2ed_25_head dos2ed_25_boot dos2ed_25_tab.
Definition dos2ed_25_files : list (list Z) := [zrange 4 41; zrange 41 83; zrange 83 92; zrange 92 162; zrange 162 218; zrange 218 275].

(** /repo/atrcopy/templates/dos2dd.atr: 183952 bytes *)
Definition dos2dd_head : list Z := [150; 2; 232; 44; 0; 1; 0; 0; 0; 0; 0; 0; 0; 0; 0; 0].
Definition dos2dd_boot : list Z := padto 384 [].
Definition dos2dd_tab : tab := [
  (360, [2; 195; 2; 195; 2; 0; 0; 0; 0; 0; 15; 255; 255; 255; 255; 255; 255; 255; 255; 255; 255; 255; 255; 255; 255; 255; 255; 255; 255; 255; 255; 255; 255;
      255; 255; 255; 255; 255; 255; 255; 255; 255; 255; 255; 255; 255; 255; 255; 255; 255; 255; 255; 255; 255; 255; 0; 127; 255; 255; 255; 255; 255;
      255; 255; 255; 255; 255; 255; 255; 255; 255; 255; 255; 255; 255; 255; 255; 255; 255; 255; 255; 255; 255; 255; 255; 255; 255; 255; 255; 255; 255;
      255; 255; 255; 255; 255; 255; 255; 255; 255])].
Definition dos2dd : list Z := atr_image 256 720 dos2dd_head dos2dd_boot dos2dd_tab.
Definition dos2dd_files : list (list Z) := [].
