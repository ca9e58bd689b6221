(** The Apple template images shipped with the program, byte for byte: the files
    named below, written sector by sector without trailing zeros (sectors left
    out are zero). *)
From Verif Require Import Base TemplAtari Dos33Demo.

(** /repo/atrcopy/templates/dos33.dsk: 143360 bytes *)
Definition dos33_tab : tab := [
  (0, [1; 165; 39; 201; 9; 208; 24; 165; 43; 74; 74; 74; 74; 9; 192; 133; 63; 169; 92; 133; 62; 24; 173; 254; 8; 109; 255; 8; 141; 254; 8; 174; 255; 8; 48;
      21; 189; 77; 8; 133; 61; 206; 255; 8; 173; 254; 8; 133; 39; 206; 254; 8; 166; 43; 108; 62; 0; 238; 254; 8; 238; 254; 8; 32; 137; 254; 32; 147;
      254; 32; 47; 251; 166; 43; 108; 253; 8; 0; 13; 11; 9; 7; 5; 3; 1; 14; 12; 10; 8; 6; 4; 2; 15; 0; 32; 100; 39; 176; 8; 169; 0; 168; 141; 93; 54;
      145; 64; 173; 197; 53; 76; 210; 38; 173; 93; 54; 240; 8; 238; 189; 53; 208; 3; 238; 190; 53; 169; 0; 141; 93; 54; 76; 132; 58; 141; 188; 53; 32;
      168; 38; 32; 234; 34; 76; 125; 34; 160; 19; 177; 66; 208; 20; 200; 192; 23; 208; 247; 160; 25; 177; 66; 153; 164; 53; 200; 192; 29; 208; 246; 76;
      187; 38; 162; 255; 142; 93; 54; 208; 246; 0; 0; 0; 0; 0; 0; 0; 0; 0; 0; 0; 0; 0; 0; 0; 0; 0; 0; 0; 0; 0; 0; 0; 0; 0; 0; 0; 0; 0; 0; 0; 0; 0; 0;
      0; 0; 0; 0; 0; 0; 0; 0; 0; 0; 0; 0; 0; 0; 0; 0; 0; 0; 0; 0; 0; 0; 0; 0; 0; 0; 0; 0; 0; 0; 0; 0; 0; 0; 0; 0; 0; 0; 0; 0; 0; 54; 9]);
  (1, [142; 233; 55; 142; 247; 55; 169; 1; 141; 248; 55; 141; 234; 55; 173; 224; 55; 141; 225; 55; 169; 2; 141; 236; 55; 169; 4; 141; 237; 55; 172; 231; 55;
      136; 140; 241; 55; 169; 1; 141; 244; 55; 138; 74; 74; 74; 74; 170; 169; 0; 157; 248; 4; 157; 120; 4; 32; 147; 55; 162; 255; 154; 142; 235; 55;
      76; 200; 63; 32; 137; 254; 76; 3; 27; 173; 231; 55; 56; 237; 241; 55; 141; 225; 55; 173; 231; 55; 141; 241; 55; 206; 241; 55; 169; 2; 141; 236;
      55; 169; 4; 141; 237; 55; 169; 2; 141; 244; 55; 32; 147; 55; 173; 231; 55; 141; 254; 54; 24; 105; 9; 141; 241; 55; 169; 10; 141; 225; 55; 56;
      233; 1; 141; 255; 54; 141; 237; 55; 32; 147; 55; 96; 0; 0; 0; 0; 0; 0; 173; 229; 55; 172; 228; 55; 32; 181; 55; 172; 237; 55; 136; 16; 7; 160;
      15; 234; 234; 206; 236; 55; 140; 237; 55; 206; 241; 55; 206; 225; 55; 208; 223; 96; 8; 120; 32; 0; 61; 176; 3; 40; 24; 96; 40; 56; 96; 173; 188;
      53; 141; 241; 55; 169; 0; 141; 240; 55; 173; 249; 53; 73; 255; 141; 235; 55; 96; 169; 0; 168; 145; 66; 200; 208; 251; 96; 0; 27; 0; 10; 27; 232;
      55; 0; 54; 1; 96; 1; 0; 0; 0; 251; 55; 0; 0; 0; 1; 0; 0; 0; 96; 1; 0; 0; 0; 1; 239; 216]);
  (2, [162; 0; 160; 2; 136; 177; 62; 74; 62; 0; 60; 74; 62; 0; 60; 153; 0; 59; 232; 224; 86; 144; 237; 162; 0; 152; 208; 232; 162; 85; 189; 0; 60; 41; 63;
      157; 0; 60; 202; 16; 245; 96; 56; 134; 39; 142; 120; 6; 189; 141; 192; 189; 142; 192; 48; 124; 173; 0; 60; 133; 38; 169; 255; 157; 143; 192; 29;
      140; 192; 72; 104; 234; 160; 4; 72; 104; 32; 185; 56; 136; 208; 248; 169; 213; 32; 184; 56; 169; 170; 32; 184; 56; 169; 173; 32; 184; 56; 152;
      160; 86; 208; 3; 185; 0; 60; 89; 255; 59; 170; 189; 41; 58; 166; 39; 157; 141; 192; 189; 140; 192; 136; 208; 235; 165; 38; 234; 89; 0; 59; 170;
      189; 41; 58; 174; 120; 6; 157; 141; 192; 189; 140; 192; 185; 0; 59; 200; 208; 234; 170; 189; 41; 58; 166; 39; 32; 187; 56; 169; 222; 32; 184; 56;
      169; 170; 32; 184; 56; 169; 235; 32; 184; 56; 169; 255; 32; 184; 56; 189; 142; 192; 189; 140; 192; 96; 24; 72; 104; 157; 141; 192; 29; 140; 192;
      96; 160; 0; 162; 86; 202; 48; 251; 185; 0; 59; 94; 0; 60; 42; 94; 0; 60; 42; 145; 62; 200; 196; 38; 208; 235; 96; 160; 32; 136; 240; 97; 189;
      140; 192; 16; 251; 73; 213; 208; 244; 234; 189; 140; 192; 16; 251; 201; 170; 208; 242; 160; 86; 189; 140; 192; 16; 251; 201; 173; 208; 231; 169]);
  (3, [0; 136; 132; 38; 188; 140; 192; 16; 251; 89; 0; 58; 164; 38; 153; 0; 60; 208; 238; 132; 38; 188; 140; 192; 16; 251; 89; 0; 58; 164; 38; 153; 0; 59;
      200; 208; 238; 188; 140; 192; 16; 251; 217; 0; 58; 208; 19; 189; 140; 192; 16; 251; 201; 222; 208; 10; 234; 189; 140; 192; 16; 251; 201; 170;
      240; 92; 56; 96; 160; 252; 132; 38; 200; 208; 4; 230; 38; 240; 243; 189; 140; 192; 16; 251; 201; 213; 208; 240; 234; 189; 140; 192; 16; 251; 201;
      170; 208; 242; 160; 3; 189; 140; 192; 16; 251; 201; 150; 208; 231; 169; 0; 133; 39; 189; 140; 192; 16; 251; 42; 133; 38; 189; 140; 192; 16; 251;
      37; 38; 153; 44; 0; 69; 39; 136; 16; 231; 168; 208; 183; 189; 140; 192; 16; 251; 201; 222; 208; 174; 234; 189; 140; 192; 16; 251; 201; 170; 208;
      164; 24; 96; 134; 43; 133; 42; 205; 120; 4; 240; 83; 169; 0; 133; 38; 173; 120; 4; 133; 39; 56; 229; 42; 240; 51; 176; 7; 73; 255; 238; 120; 4;
      144; 5; 105; 254; 206; 120; 4; 197; 38; 144; 2; 165; 38; 201; 12; 176; 1; 168; 56; 32; 238; 57; 185; 17; 58; 32; 0; 58; 165; 39; 24; 32; 241; 57;
      185; 29; 58; 32; 0; 58; 230; 38; 208; 195; 32; 0; 58; 24; 173; 120; 4; 41; 3; 42; 5; 43; 170; 189; 128; 192; 166; 43; 96]);
  (4, [162; 17; 202; 208; 253; 230; 70; 208; 2; 230; 71; 56; 233; 1; 208; 240; 96; 1; 48; 40; 36; 32; 30; 29; 28; 28; 28; 28; 28; 112; 44; 38; 34; 31; 30; 29;
      28; 28; 28; 28; 28; 150; 151; 154; 155; 157; 158; 159; 166; 167; 171; 172; 173; 174; 175; 178; 179; 180; 181; 182; 183; 185; 186; 187; 188; 189;
      190; 191; 203; 205; 206; 207; 211; 214; 215; 217; 218; 219; 220; 221; 222; 223; 229; 230; 231; 233; 234; 235; 236; 237; 238; 239; 242; 243; 244;
      245; 246; 247; 249; 250; 251; 252; 253; 254; 255; 174; 95; 42; 224; 28; 240; 5; 162; 0; 142; 93; 54; 96; 169; 255; 141; 251; 4; 141; 12; 192;
      141; 14; 192; 76; 47; 251; 173; 189; 53; 141; 230; 53; 141; 234; 53; 186; 142; 155; 51; 76; 127; 51; 0; 0; 0; 1; 152; 153; 2; 3; 156; 4; 5; 6;
      160; 161; 162; 163; 164; 165; 7; 8; 168; 169; 170; 9; 10; 11; 12; 13; 176; 177; 14; 15; 16; 17; 18; 19; 184; 20; 21; 22; 23; 24; 25; 26; 192;
      193; 194; 195; 196; 197; 198; 199; 200; 201; 202; 27; 204; 28; 29; 30; 208; 209; 210; 31; 212; 213; 32; 33; 216; 34; 35; 36; 37; 38; 39; 40; 224;
      225; 226; 227; 228; 41; 42; 43; 232; 44; 45; 46; 47; 48; 49; 50; 240; 241; 51; 52; 53; 54; 55; 56; 248; 57; 58; 59; 60; 61; 62; 63]);
  (6, [0; 0; 0; 0; 0; 0; 0; 0; 0; 0; 0; 0; 0; 0; 0; 0; 0; 0; 0; 0; 0; 0; 0; 0; 0; 0; 0; 0; 0; 0; 0; 0; 0; 0; 0; 0; 0; 0; 0; 0; 0; 0; 0; 0; 0; 0; 0; 0; 0; 0;
      0; 0; 0; 0; 0; 0; 0; 0; 0; 0; 0; 0; 0; 0; 0; 0; 0; 0; 0; 0; 0; 0; 0; 0; 0; 0; 0; 0; 0; 0; 0; 0; 0; 0; 0; 0; 56; 189; 141; 192; 189; 142; 192; 48;
      94; 169; 255; 157; 143; 192; 221; 140; 192; 72; 104; 32; 195; 60; 32; 195; 60; 157; 141; 192; 221; 140; 192; 234; 136; 208; 240; 169; 213; 32;
      213; 60; 169; 170; 32; 213; 60; 169; 150; 32; 213; 60; 165; 65; 32; 196; 60; 165; 68; 32; 196; 60; 165; 63; 32; 196; 60; 165; 65; 69; 68; 69; 63;
      72; 74; 5; 62; 157; 141; 192; 189; 140; 192; 104; 9; 170; 32; 212; 60; 169; 222; 32; 213; 60; 169; 170; 32; 213; 60; 169; 235; 32; 213; 60; 24;
      189; 142; 192; 189; 140; 192; 96; 72; 74; 5; 62; 157; 141; 192; 221; 140; 192; 104; 234; 234; 234; 9; 170; 234; 234; 72; 104; 157; 141; 192; 221;
      140; 192; 96]);
  (7, [132; 72; 133; 73; 160; 2; 140; 248; 6; 160; 4; 140; 248; 4; 160; 1; 177; 72; 170; 160; 15; 209; 72; 240; 27; 138; 72; 177; 72; 170; 104; 72; 145; 72;
      189; 142; 192; 160; 8; 189; 140; 192; 221; 140; 192; 208; 246; 136; 208; 248; 104; 170; 189; 142; 192; 189; 140; 192; 160; 8; 189; 140; 192; 72;
      104; 72; 104; 142; 248; 5; 221; 140; 192; 208; 3; 136; 208; 238; 8; 189; 137; 192; 160; 6; 177; 72; 153; 54; 0; 200; 192; 10; 208; 246; 160; 3;
      177; 60; 133; 71; 160; 2; 177; 72; 160; 16; 209; 72; 240; 6; 145; 72; 40; 160; 0; 8; 106; 144; 5; 189; 138; 192; 176; 3; 189; 139; 192; 102; 53;
      40; 8; 208; 11; 160; 7; 32; 0; 58; 136; 208; 250; 174; 248; 5; 160; 4; 177; 72; 32; 90; 62; 40; 208; 17; 164; 71; 16; 13; 160; 18; 136; 208; 253;
      230; 70; 208; 247; 230; 71; 208; 243; 160; 12; 177; 72; 240; 90; 201; 4; 240; 88; 106; 8; 176; 3; 32; 0; 56; 160; 48; 140; 120; 5; 174; 248; 5;
      32; 68; 57; 144; 36; 206; 120; 5; 16; 243; 173; 120; 4; 72; 169; 96; 32; 149; 62; 206; 248; 6; 240; 40; 169; 4; 141; 248; 4; 169; 0; 32; 90; 62;
      104; 32; 90; 62; 76; 188; 61; 164; 46; 204; 120; 4; 240; 28; 173; 120; 4; 72; 152; 32; 149; 62; 104; 206; 248; 4]);
  (8, [208; 229; 240; 202; 104; 169; 64; 40; 76; 72; 62; 240; 57; 76; 175; 62; 160; 3; 177; 72; 72; 165; 47; 160; 14; 145; 72; 104; 240; 8; 197; 47; 240; 4;
      169; 32; 208; 225; 160; 5; 177; 72; 168; 185; 184; 63; 197; 45; 208; 151; 40; 144; 28; 32; 220; 56; 8; 176; 142; 40; 162; 0; 134; 38; 32; 194;
      56; 174; 248; 5; 24; 36; 56; 160; 13; 145; 72; 189; 136; 192; 96; 32; 42; 56; 144; 240; 169; 16; 176; 238; 72; 160; 1; 177; 60; 106; 104; 144; 8;
      10; 32; 107; 62; 78; 120; 4; 96; 133; 42; 32; 142; 62; 185; 120; 4; 36; 53; 48; 3; 185; 248; 4; 141; 120; 4; 165; 42; 36; 53; 48; 5; 153; 248; 4;
      16; 3; 153; 120; 4; 76; 160; 57; 138; 74; 74; 74; 74; 168; 96; 72; 160; 2; 177; 72; 106; 102; 53; 32; 142; 62; 104; 10; 36; 53; 48; 5; 153; 248;
      4; 16; 3; 153; 120; 4; 96; 160; 3; 177; 72; 133; 65; 169; 170; 133; 62; 160; 86; 169; 0; 133; 68; 153; 255; 59; 136; 208; 250; 153; 0; 59; 136;
      208; 250; 169; 80; 32; 149; 62; 169; 40; 133; 69; 165; 68; 32; 90; 62; 32; 13; 63; 169; 8; 176; 36; 169; 48; 141; 120; 5; 56; 206; 120; 5; 240;
      25; 32; 68; 57; 176; 245; 165; 45; 208; 241; 32; 220; 56; 176; 236; 230; 68; 165; 68; 201; 35; 144]);
  (9, [211; 24; 144; 5; 160; 13; 145; 72; 56; 189; 136; 192; 96; 169; 0; 133; 63; 160; 128; 208; 2; 164; 69; 32; 86; 60; 176; 107; 32; 42; 56; 176; 102; 230;
      63; 165; 63; 201; 16; 144; 236; 160; 15; 132; 63; 169; 48; 141; 120; 5; 153; 168; 63; 136; 16; 250; 164; 69; 32; 135; 63; 32; 135; 63; 32; 135;
      63; 72; 104; 234; 136; 208; 241; 32; 68; 57; 176; 35; 165; 45; 240; 21; 169; 16; 197; 69; 165; 69; 233; 1; 133; 69; 201; 5; 176; 17; 56; 96; 32;
      68; 57; 176; 5; 32; 220; 56; 144; 28; 206; 120; 5; 208; 241; 32; 68; 57; 176; 11; 165; 45; 201; 15; 208; 5; 32; 220; 56; 144; 140; 206; 120; 5;
      208; 235; 56; 96; 164; 45; 185; 168; 63; 48; 221; 169; 255; 153; 168; 63; 198; 63; 16; 202; 165; 68; 208; 10; 165; 69; 201; 16; 144; 229; 198;
      69; 198; 69; 24; 96; 0; 0; 0; 0; 0; 0; 0; 0; 0; 0; 0; 0; 0; 0; 0; 0; 0; 13; 11; 9; 7; 5; 3; 1; 14; 12; 10; 8; 6; 4; 2; 15; 32; 147; 254; 173;
      129; 192; 173; 129; 192; 169; 0; 141; 0; 224; 32; 118; 58; 76; 68; 55; 141; 99; 42; 141; 112; 42; 141; 113; 42; 96; 32; 91; 39; 140; 183; 42; 96;
      32; 126; 46; 174; 155; 51; 154; 32; 22; 35; 186; 142; 155; 51; 169; 9; 76; 133; 51]);
  (10, [76; 132; 29; 169; 191; 133; 65; 162; 0; 134; 64; 160; 0; 161; 64; 133; 38; 152; 69; 38; 133; 38; 152; 65; 64; 129; 64; 197; 38; 208; 5; 200; 208; 239;
      240; 4; 198; 65; 208; 227; 165; 65; 41; 223; 133; 67; 134; 66; 161; 66; 72; 133; 38; 152; 69; 38; 133; 38; 152; 65; 64; 129; 66; 197; 38; 208; 9;
      200; 208; 239; 164; 67; 104; 76; 81; 27; 104; 129; 66; 164; 65; 200; 140; 125; 28; 56; 152; 237; 126; 28; 141; 124; 28; 56; 237; 122; 28; 240;
      157; 141; 127; 28; 173; 122; 28; 141; 13; 29; 169; 29; 141; 73; 55; 169; 132; 141; 72; 55; 162; 0; 134; 64; 189; 41; 28; 168; 189; 42; 28; 133;
      65; 76; 147; 27; 24; 177; 64; 109; 127; 28; 145; 64; 200; 208; 2; 230; 65; 200; 208; 2; 230; 65; 165; 65; 221; 44; 28; 144; 231; 152; 221; 43;
      28; 144; 225; 138; 24; 105; 4; 170; 236; 40; 28; 144; 203; 162; 0; 142; 156; 51; 189; 90; 28; 133; 64; 189; 91; 28; 133; 65; 162; 0; 161; 64; 32;
      142; 248; 164; 47; 192; 2; 208; 17; 177; 64; 205; 122; 28; 144; 10; 205; 123; 28; 176; 5; 109; 127; 28; 145; 64; 56; 165; 47; 101; 64; 133; 64;
      169; 0; 101; 65; 133; 65; 174; 156; 51; 221; 93; 28; 144; 205; 165; 64; 221; 92; 28; 144; 198; 138; 24; 105; 4; 170; 236; 89; 28]);
  (11, [144; 175; 169; 63; 133; 65; 172; 125; 28; 136; 132; 67; 169; 0; 133; 64; 133; 66; 168; 177; 64; 145; 66; 200; 208; 249; 206; 128; 28; 240; 6; 198; 65;
      198; 67; 208; 238; 76; 84; 30; 36; 0; 29; 86; 29; 88; 29; 90; 29; 100; 29; 102; 29; 108; 29; 112; 29; 120; 29; 124; 29; 126; 29; 128; 29; 193;
      42; 253; 42; 228; 55; 232; 55; 238; 55; 240; 55; 0; 0; 0; 0; 0; 0; 0; 0; 0; 0; 0; 0; 32; 132; 29; 132; 40; 253; 42; 151; 51; 93; 54; 224; 55; 86;
      60; 223; 60; 0; 56; 17; 58; 105; 58; 148; 58; 0; 61; 168; 63; 200; 63; 255; 63; 29; 64; 0; 0; 35; 0; 35; 252; 253; 253; 253; 252; 253; 252; 252;
      252; 254; 254; 252; 254; 252; 252; 253; 254; 252; 255; 252; 253; 252; 252; 252; 255; 252; 255; 252; 254; 255; 255; 255; 255; 253; 254; 252; 253;
      252; 252; 252; 252; 253; 252; 254; 254; 254; 252; 253; 255; 252; 252; 252; 254; 252; 253; 252; 252; 252; 254; 252; 253; 252; 252; 252; 253; 252;
      253; 253; 252; 252; 252; 253; 253; 252; 254; 252; 252; 254; 252; 252; 253; 253; 252; 255; 254; 252; 255; 252; 252; 253; 252; 253; 254; 252; 252;
      253; 252; 255; 252; 254; 255; 255; 255; 253; 252; 254; 254; 252; 252; 254; 252; 252; 254; 252; 254; 252; 254; 254; 252; 254; 254; 252; 252; 254;
      252; 253; 253]);
  (12, [211; 28; 129; 30; 189; 30; 117; 42; 147; 42; 96; 42; 0; 27; 187; 53; 234; 30; 17; 31; 34; 31; 46; 31; 81; 31; 96; 31; 112; 31; 78; 37; 18; 36; 150; 35;
      208; 36; 239; 36; 98; 34; 112; 34; 116; 34; 233; 34; 26; 37; 197; 37; 15; 37; 220; 37; 162; 34; 151; 34; 128; 34; 109; 37; 50; 34; 60; 34; 40;
      34; 45; 34; 80; 34; 121; 37; 157; 37; 48; 35; 92; 35; 141; 35; 124; 34; 54; 232; 229; 36; 227; 227; 0; 224; 3; 224; 0; 0; 54; 232; 229; 36; 227;
      227; 0; 224; 3; 224; 252; 36; 252; 36; 101; 216; 0; 224; 60; 212; 242; 212; 6; 37; 6; 37; 103; 16; 132; 29; 60; 12; 242; 12; 173; 233; 55; 74;
      74; 74; 74; 141; 106; 42; 173; 234; 55; 141; 104; 42; 173; 0; 224; 73; 32; 208; 17; 141; 182; 42; 162; 10; 189; 97; 29; 157; 85; 29; 202; 208;
      247; 76; 188; 29; 169; 64; 141; 182; 42; 162; 12; 189; 107; 29; 157; 85; 29; 202; 208; 247; 56; 176; 18; 173; 182; 42; 208; 4; 169; 32; 208; 5;
      10; 16; 5; 169; 76; 32; 178; 37; 24; 8; 32; 81; 40; 169; 0; 141; 94; 42; 141; 82; 42; 40; 106; 141; 81; 42; 48; 3; 108; 94; 29; 108; 92; 29; 10;
      16; 25; 141; 182; 42; 162; 12; 189; 119; 29; 157; 85; 29; 202; 208; 247; 162; 29; 189; 147; 42]);
  (13, [157; 117; 42; 202; 16; 247; 173; 177; 42; 141; 87; 42; 32; 212; 39; 173; 179; 42; 240; 9; 72; 32; 157; 38; 104; 160; 0; 145; 64; 32; 91; 39; 173; 95;
      42; 208; 32; 162; 47; 189; 81; 30; 157; 208; 3; 202; 16; 247; 173; 83; 30; 141; 243; 3; 73; 165; 141; 244; 3; 173; 82; 30; 141; 242; 3; 169; 6;
      208; 5; 173; 98; 42; 240; 6; 141; 95; 42; 76; 128; 33; 96; 76; 191; 29; 76; 132; 29; 76; 253; 42; 76; 181; 55; 173; 15; 29; 172; 14; 29; 96; 173;
      194; 42; 172; 193; 42; 96; 76; 81; 40; 234; 234; 76; 89; 250; 76; 101; 255; 76; 88; 255; 76; 101; 255; 76; 101; 255; 101; 255; 32; 209; 30; 173;
      81; 42; 240; 21; 72; 173; 92; 42; 145; 40; 104; 48; 3; 76; 38; 38; 32; 234; 29; 164; 36; 169; 96; 145; 40; 173; 179; 42; 240; 3; 32; 130; 38;
      169; 3; 141; 82; 42; 32; 186; 31; 32; 186; 30; 141; 92; 42; 142; 90; 42; 76; 179; 31; 108; 56; 0; 32; 209; 30; 173; 82; 42; 10; 170; 189; 17; 29;
      72; 189; 16; 29; 72; 173; 92; 42; 96; 141; 92; 42; 142; 90; 42; 140; 91; 42; 186; 232; 232; 142; 89; 42; 162; 3; 189; 83; 42; 149; 54; 202; 16;
      248; 96; 174; 183; 42; 240; 3; 76; 120; 31; 174; 81; 42; 240; 8; 201; 191; 240; 117; 197; 51; 240; 39]);
  (14, [162; 2; 142; 82; 42; 205; 178; 42; 208; 25; 202; 142; 82; 42; 202; 142; 93; 42; 174; 93; 42; 157; 0; 2; 232; 142; 93; 42; 201; 141; 208; 117; 76; 205;
      31; 201; 141; 208; 125; 162; 0; 142; 82; 42; 76; 164; 31; 162; 0; 142; 82; 42; 201; 141; 240; 7; 173; 179; 42; 240; 103; 208; 94; 72; 56; 173;
      179; 42; 208; 3; 32; 94; 38; 104; 144; 236; 174; 90; 42; 76; 21; 31; 201; 141; 208; 5; 169; 5; 141; 82; 42; 32; 14; 38; 76; 153; 31; 205; 178;
      42; 240; 133; 201; 138; 240; 241; 162; 4; 142; 82; 42; 208; 225; 169; 0; 141; 82; 42; 240; 37; 169; 0; 141; 183; 42; 32; 81; 40; 76; 220; 36;
      173; 0; 2; 205; 178; 42; 240; 10; 169; 141; 141; 0; 2; 162; 0; 142; 90; 42; 169; 64; 208; 6; 169; 16; 208; 2; 169; 32; 45; 94; 42; 240; 15; 32;
      186; 31; 32; 197; 31; 141; 92; 42; 140; 91; 42; 142; 90; 42; 32; 81; 40; 174; 89; 42; 154; 173; 92; 42; 172; 91; 42; 174; 90; 42; 56; 96; 108;
      54; 0; 169; 141; 76; 197; 31; 160; 255; 140; 95; 42; 200; 140; 98; 42; 238; 95; 42; 162; 0; 8; 189; 0; 2; 205; 178; 42; 208; 1; 232; 142; 93; 42;
      32; 164; 33; 41; 127; 89; 132; 40; 200; 10; 240; 2; 104; 8; 144; 240; 40; 240; 32; 185; 132; 40; 208; 214]);
  (15, [173; 0; 2; 205; 178; 42; 240; 3; 76; 164; 31; 173; 1; 2; 201; 141; 208; 6; 32; 91; 39; 76; 149; 31; 76; 196; 38; 14; 95; 42; 172; 95; 42; 32; 94; 38;
      144; 12; 169; 2; 57; 9; 41; 240; 5; 169; 15; 76; 210; 38; 192; 6; 208; 2; 132; 51; 169; 32; 57; 9; 41; 240; 97; 32; 149; 32; 8; 32; 164; 33; 240;
      30; 10; 144; 5; 48; 3; 76; 0; 32; 106; 76; 89; 32; 32; 147; 33; 240; 13; 153; 117; 42; 200; 192; 60; 144; 243; 32; 147; 33; 208; 251; 40; 208;
      15; 172; 95; 42; 169; 16; 57; 9; 41; 240; 12; 160; 30; 8; 208; 203; 173; 147; 42; 201; 160; 240; 19; 173; 117; 42; 201; 160; 208; 75; 172; 95;
      42; 169; 192; 57; 9; 41; 240; 2; 16; 63; 76; 0; 32; 160; 60; 169; 160; 153; 116; 42; 136; 208; 250; 96; 141; 117; 42; 169; 12; 57; 9; 41; 240;
      39; 32; 185; 33; 176; 31; 168; 208; 23; 224; 17; 176; 19; 172; 95; 42; 169; 8; 57; 9; 41; 240; 6; 224; 8; 176; 206; 144; 11; 138; 208; 8; 169; 2;
      76; 210; 38; 76; 196; 38; 169; 0; 141; 101; 42; 141; 116; 42; 141; 102; 42; 141; 108; 42; 141; 109; 42; 32; 220; 63; 173; 93; 42; 32; 164; 33;
      208; 31; 201; 141; 208; 247; 174; 95; 42; 173; 101; 42; 29; 10; 41; 93; 10; 41; 208; 147; 174]);
  (16, [99; 42; 240; 118; 141; 99; 42; 142; 93; 42; 208; 220; 162; 10; 221; 64; 41; 240; 5; 202; 208; 248; 240; 182; 189; 74; 41; 48; 71; 13; 101; 42; 141;
      101; 42; 202; 142; 100; 42; 32; 185; 33; 176; 162; 173; 100; 42; 10; 10; 168; 165; 69; 208; 9; 165; 68; 217; 85; 41; 144; 140; 165; 69; 217; 88;
      41; 144; 11; 208; 131; 165; 68; 217; 87; 41; 144; 2; 208; 245; 173; 99; 42; 208; 148; 152; 74; 168; 165; 69; 153; 103; 42; 165; 68; 153; 102; 42;
      76; 232; 32; 72; 169; 128; 13; 101; 42; 141; 101; 42; 104; 41; 127; 13; 116; 42; 141; 116; 42; 208; 233; 240; 156; 32; 128; 33; 76; 131; 31; 32;
      91; 39; 32; 174; 33; 173; 95; 42; 170; 189; 31; 29; 72; 189; 30; 29; 72; 96; 174; 93; 42; 189; 0; 2; 201; 141; 240; 6; 232; 142; 93; 42; 201;
      172; 96; 32; 147; 33; 240; 250; 201; 160; 240; 247; 96; 169; 0; 160; 22; 153; 186; 53; 136; 208; 250; 96; 169; 0; 133; 68; 133; 69; 32; 164; 33;
      8; 201; 164; 240; 60; 40; 76; 206; 33; 32; 164; 33; 208; 6; 166; 68; 165; 69; 24; 96; 56; 233; 176; 48; 33; 201; 10; 176; 29; 32; 254; 33; 101;
      68; 170; 169; 0; 101; 69; 168; 32; 254; 33; 32; 254; 33; 138; 101; 68; 133; 68; 152; 101; 69; 133; 69; 144; 207; 56; 96; 6; 68]);
  (17, [38; 69; 96; 40; 32; 164; 33; 240; 197; 56; 233; 176; 48; 238; 201; 10; 144; 8; 233; 7; 48; 230; 201; 16; 176; 226; 162; 4; 32; 254; 33; 202; 208; 250;
      5; 68; 133; 68; 76; 4; 34; 165; 68; 76; 149; 254; 165; 68; 76; 139; 254; 173; 94; 42; 13; 116; 42; 141; 94; 42; 96; 44; 116; 42; 80; 3; 32; 200;
      31; 169; 112; 77; 116; 42; 45; 94; 42; 141; 94; 42; 96; 169; 0; 141; 179; 42; 165; 68; 72; 32; 22; 35; 104; 141; 87; 42; 76; 212; 39; 169; 5; 32;
      170; 34; 32; 100; 39; 160; 0; 152; 145; 64; 96; 169; 7; 208; 2; 169; 8; 32; 170; 34; 76; 234; 34; 169; 12; 208; 246; 173; 8; 29; 141; 189; 53;
      173; 9; 29; 141; 190; 53; 169; 9; 141; 99; 42; 32; 200; 34; 76; 234; 34; 32; 163; 34; 32; 140; 38; 208; 251; 76; 113; 54; 169; 0; 76; 213; 35;
      169; 1; 141; 99; 42; 173; 108; 42; 208; 10; 173; 109; 42; 208; 5; 169; 1; 141; 108; 42; 173; 108; 42; 141; 189; 53; 173; 109; 42; 141; 190; 53;
      32; 234; 34; 165; 69; 208; 3; 76; 200; 38; 133; 65; 165; 68; 133; 64; 32; 67; 39; 32; 78; 39; 32; 26; 39; 173; 99; 42; 141; 187; 53; 76; 168; 38;
      173; 117; 42; 201; 160; 240; 37; 32; 100; 39; 176; 58; 32; 252; 34; 76; 234; 34; 32; 175; 39; 208]);
  (18, [5; 169; 0; 141; 179; 42; 160; 0; 152; 145; 64; 32; 78; 39; 169; 2; 141; 187; 53; 76; 168; 38; 32; 146; 39; 208; 5; 32; 154; 39; 240; 16; 32; 175; 39;
      240; 246; 32; 170; 39; 240; 241; 32; 252; 34; 76; 22; 35; 96; 169; 9; 45; 101; 42; 201; 9; 240; 3; 76; 0; 32; 169; 4; 32; 213; 35; 173; 115; 42;
      172; 114; 42; 32; 224; 35; 173; 109; 42; 172; 108; 42; 32; 224; 35; 173; 115; 42; 172; 114; 42; 76; 255; 35; 32; 168; 34; 169; 127; 45; 194; 53;
      201; 4; 240; 3; 76; 208; 38; 169; 4; 32; 213; 35; 32; 122; 36; 170; 173; 101; 42; 41; 1; 208; 6; 142; 114; 42; 140; 115; 42; 32; 122; 36; 174;
      114; 42; 172; 115; 42; 76; 113; 36; 32; 93; 35; 32; 81; 40; 108; 114; 42; 173; 182; 42; 240; 32; 165; 214; 16; 3; 76; 204; 38; 169; 2; 32; 213;
      35; 56; 165; 175; 229; 103; 168; 165; 176; 229; 104; 32; 224; 35; 165; 104; 164; 103; 76; 255; 35; 169; 1; 32; 213; 35; 56; 165; 76; 229; 202;
      168; 165; 77; 229; 203; 32; 224; 35; 165; 203; 164; 202; 76; 255; 35; 141; 194; 53; 72; 32; 168; 34; 104; 76; 196; 39; 140; 193; 53; 140; 195;
      53; 141; 194; 53; 169; 4; 141; 187; 53; 169; 1; 141; 188; 53; 32; 168; 38; 173; 194; 53; 141; 195; 53; 76; 168; 38; 140]);
  (19, [195; 53; 141; 196; 53; 169; 2; 76; 134; 54; 32; 168; 38; 76; 234; 34; 76; 208; 38; 32; 22; 35; 32; 168; 34; 169; 35; 45; 194; 53; 240; 240; 141; 194;
      53; 173; 182; 42; 240; 40; 169; 2; 32; 177; 36; 32; 122; 36; 24; 101; 103; 170; 152; 101; 104; 197; 116; 176; 112; 133; 176; 133; 106; 134; 175;
      134; 105; 166; 103; 164; 104; 32; 113; 36; 32; 81; 40; 108; 96; 29; 169; 1; 32; 177; 36; 32; 122; 36; 56; 165; 76; 237; 96; 42; 170; 165; 77;
      237; 97; 42; 144; 69; 168; 196; 75; 144; 64; 240; 62; 132; 203; 134; 202; 142; 195; 53; 140; 196; 53; 76; 10; 36; 173; 10; 29; 141; 195; 53; 173;
      11; 29; 141; 196; 53; 169; 0; 141; 194; 53; 169; 2; 141; 193; 53; 169; 3; 141; 187; 53; 169; 2; 141; 188; 53; 32; 168; 38; 173; 97; 42; 141; 194;
      53; 168; 173; 96; 42; 141; 193; 53; 96; 32; 234; 34; 76; 204; 38; 205; 194; 53; 240; 26; 174; 95; 42; 142; 98; 42; 74; 240; 3; 76; 158; 37; 162;
      29; 189; 117; 42; 157; 147; 42; 202; 16; 247; 76; 122; 37; 96; 173; 182; 42; 240; 3; 141; 183; 42; 32; 19; 36; 32; 200; 31; 32; 81; 40; 108; 88;
      29; 165; 74; 133; 204; 165; 75; 133; 205; 108; 86; 29; 32; 22; 36; 32; 200; 31; 32; 81; 40; 108; 86; 29; 32; 101; 214; 133]);
  (20, [51; 133; 216; 76; 210; 215; 32; 101; 14; 133; 51; 133; 216; 76; 212; 15; 32; 38; 37; 169; 5; 141; 82; 42; 76; 131; 31; 32; 38; 37; 169; 1; 141; 81; 42;
      76; 131; 31; 32; 100; 39; 144; 6; 32; 163; 34; 76; 52; 37; 32; 78; 39; 173; 101; 42; 41; 6; 240; 19; 162; 3; 189; 110; 42; 157; 189; 53; 202; 16;
      247; 169; 10; 141; 187; 53; 32; 168; 38; 96; 169; 64; 45; 101; 42; 240; 5; 173; 102; 42; 208; 5; 169; 254; 141; 102; 42; 173; 13; 29; 141; 188;
      53; 169; 11; 32; 170; 34; 76; 151; 35; 169; 6; 32; 170; 34; 173; 191; 53; 141; 102; 42; 96; 169; 76; 32; 178; 37; 240; 46; 169; 0; 141; 182; 42;
      160; 30; 32; 151; 32; 162; 9; 189; 183; 42; 157; 116; 42; 202; 208; 247; 169; 192; 141; 81; 42; 76; 209; 36; 169; 32; 32; 178; 37; 240; 5; 169;
      1; 76; 210; 38; 169; 0; 141; 183; 42; 76; 132; 29; 205; 0; 224; 240; 14; 141; 128; 192; 205; 0; 224; 240; 6; 141; 129; 192; 205; 0; 224; 96; 32;
      163; 34; 173; 79; 42; 141; 180; 42; 173; 80; 42; 141; 181; 42; 173; 117; 42; 141; 179; 42; 208; 14; 32; 100; 39; 144; 6; 32; 163; 34; 76; 235;
      37; 32; 78; 39; 173; 101; 42; 41; 4; 240; 27; 173; 110; 42; 208; 8; 174; 111; 42; 240; 17; 206; 111; 42; 206]);
  (21, [110; 42; 32; 140; 38; 240; 56; 201; 141; 208; 247; 240; 229; 96; 32; 94; 38; 176; 102; 173; 92; 42; 141; 195; 53; 169; 4; 141; 187; 53; 169; 1; 141;
      188; 53; 76; 168; 38; 32; 94; 38; 176; 78; 169; 6; 141; 82; 42; 32; 140; 38; 208; 15; 32; 252; 34; 169; 3; 205; 82; 42; 240; 206; 169; 5; 76;
      210; 38; 201; 224; 144; 2; 41; 127; 141; 92; 42; 174; 90; 42; 240; 9; 202; 189; 0; 2; 9; 128; 157; 0; 2; 76; 179; 31; 72; 173; 182; 42; 240; 14;
      166; 118; 232; 240; 13; 166; 51; 224; 221; 240; 7; 104; 24; 96; 165; 217; 48; 249; 104; 56; 96; 32; 252; 34; 32; 91; 39; 76; 179; 31; 32; 157;
      38; 32; 78; 39; 169; 3; 208; 161; 169; 3; 141; 187; 53; 169; 1; 141; 188; 53; 32; 168; 38; 173; 195; 53; 96; 173; 181; 42; 133; 65; 173; 180; 42;
      133; 64; 96; 32; 6; 43; 144; 22; 173; 197; 53; 201; 5; 240; 3; 76; 94; 54; 76; 146; 54; 234; 32; 105; 58; 162; 0; 142; 195; 53; 96; 169; 11; 208;
      10; 169; 12; 208; 6; 169; 14; 208; 2; 169; 13; 141; 92; 42; 32; 230; 63; 173; 182; 42; 240; 4; 165; 216; 48; 14; 162; 0; 32; 2; 39; 174; 92; 42;
      32; 2; 39; 32; 200; 31; 32; 81; 40; 32; 94; 38; 174; 92; 42; 169; 3; 176; 3; 108; 90; 29; 108]);
  (22, [94; 29; 189; 63; 42; 170; 142; 99; 42; 189; 113; 41; 72; 9; 128; 32; 197; 31; 174; 99; 42; 232; 104; 16; 237; 96; 173; 102; 42; 141; 191; 53; 173; 104;
      42; 141; 192; 53; 173; 106; 42; 141; 193; 53; 173; 6; 29; 141; 195; 53; 173; 7; 29; 141; 196; 53; 165; 64; 141; 79; 42; 165; 65; 141; 80; 42; 96;
      160; 29; 185; 117; 42; 145; 64; 136; 16; 248; 96; 160; 30; 177; 64; 153; 169; 53; 200; 192; 38; 208; 246; 96; 160; 0; 140; 81; 42; 140; 82; 42;
      96; 169; 0; 133; 69; 32; 146; 39; 76; 115; 39; 32; 154; 39; 240; 29; 32; 170; 39; 208; 10; 165; 64; 133; 68; 165; 65; 133; 69; 208; 236; 160; 29;
      177; 64; 217; 117; 42; 208; 227; 136; 16; 246; 24; 96; 56; 96; 173; 0; 29; 174; 1; 29; 208; 10; 160; 37; 177; 64; 240; 9; 170; 136; 177; 64; 134;
      65; 133; 64; 138; 96; 160; 0; 177; 64; 96; 173; 179; 42; 240; 14; 173; 180; 42; 197; 64; 208; 8; 173; 181; 42; 197; 65; 240; 1; 202; 96; 77; 194;
      53; 240; 10; 41; 127; 240; 6; 32; 234; 34; 76; 208; 38; 96; 56; 173; 0; 29; 133; 64; 173; 1; 29; 133; 65; 173; 87; 42; 141; 99; 42; 160; 0; 152;
      145; 64; 160; 30; 56; 165; 64; 233; 45; 145; 64; 72; 165; 65; 233; 0; 200; 145; 64; 170; 202; 104; 72; 200]);
  (23, [145; 64; 138; 200; 145; 64; 170; 202; 104; 72; 200; 145; 64; 200; 138; 145; 64; 206; 99; 42; 240; 23; 170; 104; 56; 233; 38; 200; 145; 64; 72; 138;
      233; 0; 200; 145; 64; 133; 65; 104; 133; 64; 76; 229; 39; 72; 169; 0; 200; 145; 64; 200; 145; 64; 173; 182; 42; 240; 11; 104; 133; 116; 133; 112;
      104; 133; 115; 133; 111; 96; 104; 133; 77; 133; 203; 104; 133; 76; 133; 202; 96; 165; 57; 205; 3; 29; 240; 18; 141; 86; 42; 165; 56; 141; 85; 42;
      173; 2; 29; 133; 56; 173; 3; 29; 133; 57; 165; 55; 205; 5; 29; 240; 18; 141; 84; 42; 165; 54; 141; 83; 42; 173; 4; 29; 133; 54; 173; 5; 29; 133;
      55; 96; 73; 78; 73; 212; 76; 79; 65; 196; 83; 65; 86; 197; 82; 85; 206; 67; 72; 65; 73; 206; 68; 69; 76; 69; 84; 197; 76; 79; 67; 203; 85; 78;
      76; 79; 67; 203; 67; 76; 79; 83; 197; 82; 69; 65; 196; 69; 88; 69; 195; 87; 82; 73; 84; 197; 80; 79; 83; 73; 84; 73; 79; 206; 79; 80; 69; 206;
      65; 80; 80; 69; 78; 196; 82; 69; 78; 65; 77; 197; 67; 65; 84; 65; 76; 79; 199; 77; 79; 206; 78; 79; 77; 79; 206; 80; 82; 163; 73; 78; 163; 77;
      65; 88; 70; 73; 76; 69; 211; 70; 208; 73; 78; 212; 66; 83; 65; 86; 197; 66; 76; 79; 65; 196; 66; 82]);
  (24, [85; 206; 86; 69; 82; 73; 70; 217; 0; 33; 112; 160; 112; 161; 112; 160; 112; 32; 112; 32; 112; 32; 112; 32; 112; 96; 0; 34; 6; 32; 116; 34; 6; 34; 4;
      35; 120; 34; 112; 48; 112; 64; 112; 64; 128; 64; 128; 8; 0; 8; 0; 4; 0; 64; 112; 64; 0; 33; 121; 32; 113; 32; 113; 32; 112; 214; 196; 211; 204;
      210; 194; 193; 195; 201; 207; 64; 32; 16; 8; 4; 2; 1; 192; 160; 144; 0; 0; 254; 0; 1; 0; 2; 0; 1; 0; 7; 0; 1; 0; 255; 127; 0; 0; 255; 127; 0; 0;
      255; 127; 0; 0; 255; 255; 13; 7; 141; 76; 65; 78; 71; 85; 65; 71; 69; 32; 78; 79; 84; 32; 65; 86; 65; 73; 76; 65; 66; 76; 197; 82; 65; 78; 71;
      69; 32; 69; 82; 82; 79; 210; 87; 82; 73; 84; 69; 32; 80; 82; 79; 84; 69; 67; 84; 69; 196; 69; 78; 68; 32; 79; 70; 32; 68; 65; 84; 193; 70; 73;
      76; 69; 32; 78; 79; 84; 32; 70; 79; 85; 78; 196; 86; 79; 76; 85; 77; 69; 32; 77; 73; 83; 77; 65; 84; 67; 200; 73; 47; 79; 32; 69; 82; 82; 79;
      210; 68; 73; 83; 75; 32; 70; 85; 76; 204; 70; 73; 76; 69; 32; 76; 79; 67; 75; 69; 196; 83; 89; 78; 84; 65; 88; 32; 69; 82; 82; 79; 210; 78; 79;
      32; 66; 85; 70; 70; 69; 82; 83; 32]);
  (25, [65; 86; 65; 73; 76; 65; 66; 76; 197; 70; 73; 76; 69; 32; 84; 89; 80; 69; 32; 77; 73; 83; 77; 65; 84; 67; 200; 80; 82; 79; 71; 82; 65; 77; 32; 84; 79;
      79; 32; 76; 65; 82; 71; 197; 78; 79; 84; 32; 68; 73; 82; 69; 67; 84; 32; 67; 79; 77; 77; 65; 78; 196; 141; 0; 3; 25; 25; 36; 51; 62; 76; 91; 100;
      109; 120; 132; 152; 170; 187; 0; 0; 0; 0; 0; 0; 0; 0; 0; 3; 0; 0; 0; 0; 0; 0; 0; 0; 0; 0; 0; 0; 0; 0; 0; 0; 0; 0; 0; 1; 0; 0; 0; 0; 0; 0; 0; 0;
      200; 197; 204; 204; 207; 160; 160; 160; 160; 160; 160; 160; 160; 160; 160; 160; 160; 160; 160; 160; 160; 160; 160; 160; 160; 160; 160; 160; 160;
      160; 160; 160; 160; 160; 160; 160; 160; 160; 160; 160; 160; 160; 160; 160; 160; 160; 160; 160; 160; 160; 160; 160; 160; 160; 160; 160; 160; 160;
      160; 160; 3; 132; 0; 0; 0; 0; 0; 193; 208; 208; 204; 197; 211; 207; 198; 212; 232; 55; 187; 51; 187; 52; 0; 64; 126; 51; 33; 43; 5; 44; 87; 44;
      111; 44; 42; 45; 151; 45; 238; 44; 245; 44; 57; 44; 17; 45; 141; 46; 23; 45; 126; 51; 126; 51; 137; 44; 149; 44; 134; 44; 146; 44; 126; 51; 126;
      51; 189; 44; 201; 44; 186; 44; 198; 44; 126; 51; 224; 0; 240]);
  (26, [2; 162; 2; 142; 95; 42; 186; 142; 155; 51; 32; 106; 46; 173; 187; 53; 201; 13; 176; 11; 10; 170; 189; 202; 42; 72; 189; 201; 42; 72; 96; 76; 99; 51;
      32; 40; 43; 76; 127; 51; 32; 220; 43; 169; 1; 141; 227; 53; 174; 190; 53; 173; 189; 53; 208; 5; 224; 0; 208; 1; 232; 141; 232; 53; 142; 233; 53;
      32; 201; 49; 144; 94; 142; 156; 51; 174; 95; 42; 189; 9; 41; 174; 156; 51; 74; 176; 13; 173; 81; 42; 201; 192; 208; 3; 76; 95; 51; 76; 115; 51;
      169; 0; 157; 232; 52; 169; 1; 157; 231; 52; 142; 156; 51; 32; 68; 50; 174; 156; 51; 157; 199; 52; 141; 210; 53; 141; 212; 53; 173; 241; 53; 157;
      198; 52; 141; 209; 53; 141; 211; 53; 173; 194; 53; 157; 200; 52; 32; 55; 48; 32; 12; 47; 32; 214; 55; 32; 58; 47; 174; 156; 51; 169; 6; 141; 197;
      53; 189; 198; 52; 141; 209; 53; 189; 199; 52; 141; 210; 53; 189; 200; 52; 141; 194; 53; 141; 246; 53; 189; 231; 52; 141; 238; 53; 189; 232; 52;
      141; 239; 53; 142; 217; 53; 169; 255; 141; 224; 53; 141; 225; 53; 173; 226; 51; 141; 218; 53; 24; 76; 94; 47; 169; 0; 170; 157; 209; 53; 232;
      224; 45; 208; 248; 173; 191; 53; 73; 255; 141; 249; 53; 173; 192; 53; 141; 248; 53; 173; 193; 53; 10; 10; 10; 10; 170; 142; 247; 53]);
  (27, [169; 17; 141; 250; 53; 96; 32; 29; 47; 32; 52; 47; 32; 195; 50; 169; 2; 45; 213; 53; 240; 33; 32; 247; 47; 169; 0; 24; 32; 17; 48; 56; 206; 216; 53;
      208; 247; 174; 217; 53; 173; 238; 53; 157; 231; 52; 173; 239; 53; 157; 232; 52; 32; 55; 48; 76; 127; 51; 32; 40; 43; 173; 246; 53; 48; 43; 173;
      189; 53; 133; 66; 173; 190; 53; 133; 67; 174; 156; 51; 32; 28; 50; 32; 55; 48; 76; 127; 51; 173; 188; 53; 201; 5; 176; 11; 10; 170; 189; 230; 42;
      72; 189; 229; 42; 72; 96; 76; 103; 51; 76; 123; 51; 173; 246; 53; 48; 248; 173; 188; 53; 201; 5; 176; 238; 10; 170; 189; 242; 42; 72; 189; 241;
      42; 72; 96; 32; 0; 51; 32; 168; 44; 141; 195; 53; 76; 127; 51; 32; 0; 51; 32; 181; 49; 32; 168; 44; 72; 32; 162; 49; 160; 0; 104; 145; 66; 76;
      150; 44; 32; 182; 48; 176; 11; 177; 66; 72; 32; 91; 49; 32; 148; 49; 104; 96; 76; 111; 51; 32; 0; 51; 173; 195; 53; 32; 218; 44; 76; 127; 51; 32;
      0; 51; 32; 162; 49; 160; 0; 177; 66; 32; 218; 44; 32; 181; 49; 76; 202; 44; 72; 32; 182; 48; 104; 145; 66; 169; 64; 13; 213; 53; 141; 213; 53;
      32; 91; 49; 76; 148; 49; 169; 128; 141; 158; 51; 208; 5; 169; 0; 141; 158; 51; 32; 40; 43; 174; 156]);
  (28, [51; 189; 200; 52; 41; 127; 13; 158; 51; 157; 200; 52; 32; 55; 48; 76; 127; 51; 32; 0; 51; 76; 127; 51; 32; 40; 43; 32; 182; 48; 176; 239; 238; 228; 53;
      208; 246; 238; 229; 53; 76; 27; 45; 32; 40; 43; 174; 156; 51; 189; 200; 52; 16; 3; 76; 123; 51; 174; 156; 51; 189; 198; 52; 141; 209; 53; 157;
      230; 52; 169; 255; 157; 198; 52; 188; 199; 52; 140; 210; 53; 32; 55; 48; 24; 32; 94; 47; 176; 42; 32; 12; 47; 160; 12; 140; 156; 51; 177; 66; 48;
      11; 240; 9; 72; 200; 177; 66; 168; 104; 32; 137; 45; 172; 156; 51; 200; 200; 208; 231; 173; 211; 53; 172; 212; 53; 32; 137; 45; 56; 176; 209; 32;
      251; 47; 76; 127; 51; 56; 32; 221; 50; 169; 0; 162; 5; 157; 240; 53; 202; 16; 250; 96; 32; 220; 43; 169; 255; 141; 249; 53; 32; 247; 47; 169; 22;
      141; 157; 51; 32; 47; 46; 32; 47; 46; 162; 11; 189; 175; 51; 32; 237; 253; 202; 16; 247; 134; 69; 173; 246; 55; 133; 68; 32; 66; 46; 32; 47; 46;
      32; 47; 46; 24; 32; 17; 48; 176; 93; 162; 0; 142; 156; 51; 189; 198; 52; 240; 83; 48; 74; 160; 160; 189; 200; 52; 16; 2; 160; 170; 152; 32; 237;
      253; 189; 200; 52; 41; 127; 160; 7; 10; 10; 176; 3; 136; 208; 250; 185; 167; 51; 32; 237; 253; 169; 160; 32; 237]);
  (29, [253; 189; 231; 52; 133; 68; 189; 232; 52; 133; 69; 32; 66; 46; 169; 160; 32; 237; 253; 232; 232; 232; 160; 29; 189; 198; 52; 32; 237; 253; 232; 136;
      16; 246; 32; 47; 46; 32; 48; 50; 144; 167; 176; 158; 76; 127; 51; 169; 141; 32; 237; 253; 206; 157; 51; 208; 8; 32; 12; 253; 169; 21; 141; 157;
      51; 96; 160; 2; 169; 0; 72; 165; 68; 217; 164; 51; 144; 18; 249; 164; 51; 133; 68; 165; 69; 233; 0; 133; 69; 104; 105; 0; 72; 76; 71; 46; 104; 9;
      176; 32; 237; 253; 136; 16; 219; 96; 32; 8; 47; 160; 0; 140; 197; 53; 177; 66; 153; 209; 53; 200; 192; 45; 208; 246; 24; 96; 32; 8; 47; 160; 0;
      185; 209; 53; 145; 66; 200; 192; 45; 208; 246; 96; 32; 220; 43; 169; 4; 32; 88; 48; 173; 249; 53; 73; 255; 141; 193; 51; 169; 17; 141; 235; 51;
      169; 1; 141; 236; 51; 162; 56; 169; 0; 157; 187; 51; 232; 208; 250; 162; 12; 224; 140; 240; 20; 160; 3; 185; 160; 51; 157; 243; 51; 232; 136; 16;
      246; 224; 68; 208; 236; 162; 72; 208; 232; 32; 251; 47; 162; 0; 138; 157; 187; 52; 232; 208; 250; 32; 69; 48; 169; 17; 172; 240; 51; 136; 136;
      141; 236; 55; 141; 188; 52; 140; 189; 52; 200; 140; 237; 55; 169; 2; 32; 88; 48; 172; 189; 52; 136; 48; 5; 208; 236; 152; 240; 230; 32]);
  (30, [194; 55; 32; 74; 55; 76; 127; 51; 162; 0; 240; 6; 162; 2; 208; 2; 162; 4; 189; 199; 53; 133; 66; 189; 200; 53; 133; 67; 96; 44; 213; 53; 112; 1; 96;
      32; 228; 47; 169; 2; 32; 82; 48; 169; 191; 45; 213; 53; 141; 213; 53; 96; 173; 213; 53; 48; 1; 96; 32; 75; 47; 169; 2; 32; 82; 48; 169; 127; 45;
      213; 53; 141; 213; 53; 96; 173; 201; 53; 141; 240; 55; 173; 202; 53; 141; 241; 55; 174; 211; 53; 172; 212; 53; 96; 8; 32; 52; 47; 32; 75; 47; 32;
      12; 47; 40; 176; 9; 174; 209; 53; 172; 210; 53; 76; 181; 47; 160; 1; 177; 66; 240; 8; 170; 200; 177; 66; 168; 76; 181; 47; 173; 187; 53; 201; 4;
      240; 2; 56; 96; 32; 68; 50; 160; 2; 145; 66; 72; 136; 173; 241; 53; 145; 66; 72; 32; 58; 47; 32; 214; 55; 160; 5; 173; 222; 53; 145; 66; 200;
      173; 223; 53; 145; 66; 104; 170; 104; 168; 169; 2; 208; 2; 169; 1; 142; 211; 53; 140; 212; 53; 32; 82; 48; 160; 5; 177; 66; 141; 220; 53; 24;
      109; 218; 53; 141; 222; 53; 200; 177; 66; 141; 221; 53; 109; 219; 53; 141; 223; 53; 24; 96; 32; 228; 47; 169; 1; 76; 82; 48; 172; 203; 53; 173;
      204; 53; 140; 240; 55; 141; 241; 55; 174; 214; 53; 172; 215; 53; 96; 169; 1; 208; 2; 169; 2; 172; 195; 42]);
  (31, [140; 240; 55; 172; 196; 42; 140; 241; 55; 174; 250; 53; 160; 0; 76; 82; 48; 8; 32; 69; 48; 40; 176; 8; 172; 189; 51; 174; 188; 51; 208; 10; 174; 188;
      52; 208; 2; 56; 96; 172; 189; 52; 142; 151; 51; 140; 152; 51; 169; 1; 32; 82; 48; 24; 96; 32; 69; 48; 174; 151; 51; 172; 152; 51; 169; 2; 76; 82;
      48; 173; 197; 42; 141; 240; 55; 173; 198; 42; 141; 241; 55; 96; 142; 236; 55; 140; 237; 55; 141; 244; 55; 201; 2; 208; 6; 13; 213; 53; 141; 213;
      53; 173; 249; 53; 73; 255; 141; 235; 55; 173; 247; 53; 141; 233; 55; 173; 248; 53; 141; 234; 55; 173; 226; 53; 141; 242; 55; 173; 227; 53; 141;
      243; 55; 169; 1; 141; 232; 55; 172; 193; 42; 173; 194; 42; 32; 181; 55; 173; 246; 55; 141; 191; 53; 169; 255; 141; 235; 55; 176; 1; 96; 173; 245;
      55; 160; 7; 201; 32; 240; 8; 160; 4; 201; 16; 240; 2; 160; 8; 152; 76; 133; 51; 173; 228; 53; 205; 224; 53; 208; 8; 173; 229; 53; 205; 225; 53;
      240; 102; 32; 29; 47; 173; 229; 53; 205; 221; 53; 144; 28; 208; 8; 173; 228; 53; 205; 220; 53; 144; 18; 173; 229; 53; 205; 223; 53; 144; 16; 208;
      8; 173; 228; 53; 205; 222; 53; 144; 6; 32; 94; 47; 144; 215; 96; 56; 173; 228; 53; 237; 220; 53; 10; 105; 12; 168; 32; 12]);
  (32, [47; 177; 66; 208; 15; 173; 187; 53; 201; 4; 240; 2; 56; 96; 32; 52; 49; 76; 32; 49; 141; 214; 53; 200; 177; 66; 141; 215; 53; 32; 220; 47; 173; 228;
      53; 141; 224; 53; 173; 229; 53; 141; 225; 53; 32; 16; 47; 172; 230; 53; 24; 96; 140; 157; 51; 32; 68; 50; 172; 157; 51; 200; 145; 66; 141; 215;
      53; 136; 173; 241; 53; 145; 66; 141; 214; 53; 32; 16; 47; 32; 214; 55; 169; 192; 13; 213; 53; 141; 213; 53; 96; 174; 234; 53; 142; 189; 53; 174;
      235; 53; 142; 190; 53; 174; 236; 53; 172; 237; 53; 142; 191; 53; 140; 192; 53; 232; 208; 1; 200; 204; 233; 53; 208; 17; 236; 232; 53; 208; 12;
      162; 0; 160; 0; 238; 234; 53; 208; 3; 238; 235; 53; 142; 236; 53; 140; 237; 53; 96; 238; 230; 53; 208; 8; 238; 228; 53; 208; 3; 238; 229; 53; 96;
      172; 195; 53; 174; 196; 53; 132; 66; 134; 67; 238; 195; 53; 208; 3; 238; 196; 53; 96; 172; 193; 53; 208; 8; 174; 194; 53; 240; 7; 206; 194; 53;
      206; 193; 53; 96; 76; 127; 51; 32; 247; 47; 173; 195; 53; 133; 66; 173; 196; 53; 133; 67; 169; 1; 141; 157; 51; 169; 0; 141; 216; 53; 24; 238;
      216; 53; 32; 17; 48; 176; 81; 162; 0; 142; 156; 51; 189; 198; 52; 240; 31; 48; 34; 160; 0; 232; 232; 232; 177; 66; 221; 198; 52; 208]);
  (33, [10; 200; 192; 30; 208; 243; 174; 156; 51; 24; 96; 32; 48; 50; 144; 219; 176; 207; 172; 157; 51; 208; 193; 172; 157; 51; 208; 239; 160; 0; 232; 232;
      232; 177; 66; 157; 198; 52; 200; 192; 30; 208; 245; 174; 156; 51; 56; 96; 24; 173; 156; 51; 105; 35; 170; 224; 245; 96; 169; 0; 172; 157; 51;
      208; 151; 76; 119; 51; 173; 241; 53; 240; 33; 206; 240; 53; 48; 23; 24; 162; 4; 62; 241; 53; 202; 208; 250; 144; 240; 238; 238; 53; 208; 3; 238;
      239; 53; 173; 240; 53; 96; 169; 0; 141; 241; 53; 169; 0; 141; 158; 51; 32; 247; 47; 24; 173; 235; 51; 109; 236; 51; 240; 9; 205; 239; 51; 144;
      20; 169; 255; 208; 10; 173; 158; 51; 208; 55; 169; 1; 141; 158; 51; 141; 236; 51; 24; 105; 17; 141; 235; 51; 141; 241; 53; 168; 10; 10; 168; 162;
      4; 24; 185; 246; 51; 157; 241; 53; 240; 6; 56; 169; 0; 153; 246; 51; 136; 202; 208; 238; 144; 189; 32; 251; 47; 173; 240; 51; 141; 240; 53; 208;
      137; 76; 119; 51; 173; 241; 53; 208; 1; 96; 72; 32; 247; 47; 172; 240; 53; 104; 24; 32; 221; 50; 169; 0; 141; 241; 53; 76; 251; 47; 162; 252;
      126; 246; 52; 232; 208; 250; 200; 204; 240; 51; 208; 242; 10; 10; 168; 240; 15; 162; 4; 189; 241; 53; 25; 246; 51; 153; 246; 51; 136; 202; 208;
      243; 96]);
  (34, [173; 189; 53; 141; 230; 53; 141; 234; 53; 173; 190; 53; 141; 228; 53; 141; 235; 53; 169; 0; 141; 229; 53; 160; 16; 170; 173; 230; 53; 74; 176; 3; 138;
      144; 14; 24; 173; 229; 53; 109; 232; 53; 141; 229; 53; 138; 109; 233; 53; 106; 110; 229; 53; 110; 228; 53; 110; 230; 53; 136; 208; 219; 24; 173;
      191; 53; 141; 236; 53; 109; 230; 53; 141; 230; 53; 173; 192; 53; 141; 237; 53; 109; 228; 53; 141; 228; 53; 144; 3; 238; 229; 53; 96; 0; 0; 169;
      1; 208; 34; 169; 2; 208; 30; 169; 3; 208; 26; 169; 4; 208; 22; 169; 5; 208; 18; 169; 6; 208; 14; 76; 237; 63; 234; 169; 10; 208; 6; 173; 197; 53;
      24; 144; 1; 56; 8; 141; 197; 53; 169; 0; 133; 72; 32; 126; 46; 40; 174; 155; 51; 154; 96; 0; 0; 0; 0; 0; 0; 0; 0; 0; 0; 0; 255; 255; 1; 10; 100;
      212; 201; 193; 194; 211; 210; 193; 194; 160; 197; 205; 213; 204; 207; 214; 160; 203; 211; 201; 196; 4; 17; 15; 4; 0; 0; 254; 252; 254; 252; 252;
      254; 252; 252; 253; 255; 252; 255; 252; 252; 253; 252; 255; 254; 252; 253; 254; 252; 252; 253; 252; 255; 252; 252; 255; 255; 254; 252; 252; 122;
      252; 252; 252; 253; 252; 252; 254; 252; 17; 1; 0; 0; 35; 16; 0; 1; 255; 253; 252; 252; 253; 252; 252; 253; 253; 252; 253; 254; 252]);
  (35, [254; 255; 252; 253; 254; 252; 254; 252; 252; 253; 255; 252; 255; 255; 253; 255; 252; 255; 252; 252; 253; 252; 252; 252; 253; 252; 255; 252; 252; 255;
      255; 253; 253; 252; 254; 253; 252; 252; 254; 252; 252; 252; 252; 254; 253; 254; 252; 252; 254; 253; 252; 252; 252; 252; 253; 252; 252; 252; 253;
      252; 253; 254; 255; 254; 253; 255; 252; 252; 254; 254; 252; 254; 253; 252; 253; 253; 252; 255; 252; 252; 253; 252; 254; 252; 252; 253; 252; 252;
      252; 253; 252; 255; 253; 254; 255; 254; 253; 252; 252; 255; 255; 252; 252; 253; 252; 252; 253; 252; 254; 253; 254; 255; 255; 253; 253; 252; 252;
      253; 252; 253; 253; 252; 252; 253; 255; 252; 253; 254; 255; 254; 254; 254; 252; 253; 252; 252; 255; 252; 253; 255; 252; 253; 252; 252; 253; 254;
      252; 252; 255; 252; 255; 252; 254; 255; 252; 252; 255; 254; 254; 254; 255; 252; 252; 252; 252; 255; 252; 252; 254; 252; 252; 252; 252; 254; 253;
      254; 253; 252; 255; 253; 252; 252; 253; 252; 253; 255; 252; 2; 253; 252; 252; 252; 253; 252; 253; 253; 252; 252; 252; 255; 252; 252; 253; 252;
      252; 252; 254; 252; 255; 252; 252; 255; 255; 253; 255; 255; 254; 255; 253; 252; 254; 252; 252; 252; 252; 254; 254; 254; 252; 253; 252; 254; 252;
      254; 252; 252; 255; 252; 252; 252; 253; 252; 253; 253; 252; 252; 255; 252; 253; 253; 255; 253; 254; 252; 253; 253]);
  (36, [252; 254; 255; 252; 253; 255; 252; 255; 254; 253; 254; 252; 252; 253; 252; 253; 254; 252; 252; 252; 252; 255; 253; 252; 255; 252; 252; 252; 252; 255;
      252; 252; 252; 253; 252; 252; 253; 252; 254; 255; 254; 252; 252; 252; 255; 252; 252; 252; 252; 253; 252; 252; 252; 252; 252; 253; 254; 254; 253;
      254; 253; 255; 252; 254; 254; 252; 254; 253; 252; 253; 253; 254; 255; 254; 252; 255; 252; 255; 252; 252; 253; 252; 252; 255; 252; 255; 255; 252;
      252; 252; 253; 252; 254; 252; 252; 253; 252; 254; 252; 254; 252; 253; 252; 252; 253; 252; 254; 253; 253; 252; 252; 252; 252; 252; 253; 255; 255;
      252; 253; 253; 252; 252; 254; 252; 252; 255; 252; 252; 254; 253; 252; 254; 254; 252; 253; 252; 252; 255; 253; 253; 255; 252; 252; 255; 252; 253;
      254; 252; 252; 255; 252; 255; 252; 252; 255; 252; 252; 253; 252; 254; 253; 252; 252; 252; 252; 252; 253; 252; 254; 254; 254; 253; 254; 255; 254;
      252; 252; 252; 252; 253; 252; 252; 252; 253; 252; 253; 254; 253; 253; 253; 252; 252; 253; 255; 253; 252; 253; 253; 253; 255; 252; 252; 252; 252;
      252; 255; 252; 252; 252; 252; 252; 255; 252; 252; 255; 255; 254; 252; 252; 254; 252; 252; 255; 252; 254; 252; 254; 252; 252; 252; 252; 253; 252;
      255; 252; 252; 252; 255; 252; 252; 253; 252; 254; 254; 255; 252; 253; 255; 252; 254; 253; 252; 253; 252; 253; 254]);
  (272, [4; 17; 15; 3; 0; 0; 1; 0; 0; 0; 0; 0; 0; 0; 0; 0; 0; 0; 0; 0; 0; 0; 0; 0; 0; 0; 0; 0; 0; 0; 0; 0; 0; 0; 0; 0; 0; 0; 0; 122; 0; 0; 0; 0; 0; 0; 0; 0; 11;
      255; 0; 0; 35; 16; 0; 1; 0; 0; 0; 0; 0; 0; 0; 0; 0; 0; 0; 0; 255; 255; 0; 0; 255; 255; 0; 0; 255; 255; 0; 0; 255; 255; 0; 0; 255; 255; 0; 0; 255;
      255; 0; 0; 255; 255; 0; 0; 255; 255; 0; 0; 255; 255; 0; 0; 255; 255; 0; 0; 255; 255; 0; 0; 255; 255; 0; 0; 255; 255; 0; 0; 255; 255; 0; 0; 0; 0;
      0; 0; 255; 255; 0; 0; 255; 255; 0; 0; 255; 255; 0; 0; 255; 255; 0; 0; 255; 255; 0; 0; 255; 255; 0; 0; 255; 255; 0; 0; 255; 255; 0; 0; 255; 255;
      0; 0; 255; 255; 0; 0; 255; 255; 0; 0; 255; 255; 0; 0; 255; 255; 0; 0; 255; 255; 0; 0; 255; 255; 0; 0; 255; 255; 0; 0; 255; 255]);
  (274, [0; 17; 1]);
  (275, [0; 17; 2]);
  (276, [0; 17; 3]);
  (277, [0; 17; 4]);
  (278, [0; 17; 5]);
  (279, [0; 17; 6]);
  (280, [0; 17; 7]);
  (281, [0; 17; 8]);
  (282, [0; 17; 9]);
  (283, [0; 17; 10]);
  (284, [0; 17; 11]);
  (285, [0; 17; 12]);
  (286, [0; 17; 13]);
  (287, [0; 17; 14])].
Definition dos33 : list Z := disk_of (tsec 256 dos33_tab).

(** /repo/atrcopy/templates/dos33autobrun.dsk: 143360 bytes *)
Definition dos33_autobrun_tab : tab := [
  (0, [1; 165; 39; 201; 9; 208; 24; 165; 43; 74; 74; 74; 74; 9; 192; 133; 63; 169; 92; 133; 62; 24; 173; 254; 8; 109; 255; 8; 141; 254; 8; 174; 255; 8; 48;
      21; 189; 77; 8; 133; 61; 206; 255; 8; 173; 254; 8; 133; 39; 206; 254; 8; 166; 43; 108; 62; 0; 238; 254; 8; 238; 254; 8; 32; 137; 254; 32; 147;
      254; 32; 47; 251; 166; 43; 108; 253; 8; 0; 13; 11; 9; 7; 5; 3; 1; 14; 12; 10; 8; 6; 4; 2; 15; 0; 32; 100; 39; 176; 8; 169; 0; 168; 141; 93; 54;
      145; 64; 173; 197; 53; 76; 210; 38; 173; 93; 54; 240; 8; 238; 189; 53; 208; 3; 238; 190; 53; 169; 0; 141; 93; 54; 76; 132; 58; 141; 188; 53; 32;
      168; 38; 32; 234; 34; 76; 125; 34; 160; 19; 177; 66; 208; 20; 200; 192; 23; 208; 247; 160; 25; 177; 66; 153; 164; 53; 200; 192; 29; 208; 246; 76;
      187; 38; 162; 255; 142; 93; 54; 208; 246; 0; 0; 0; 0; 0; 0; 0; 0; 0; 0; 0; 0; 0; 0; 0; 0; 0; 0; 0; 0; 0; 0; 0; 0; 0; 0; 0; 0; 0; 0; 0; 0; 0; 0;
      0; 0; 0; 0; 0; 0; 0; 0; 0; 0; 0; 0; 0; 0; 0; 0; 0; 0; 0; 0; 0; 0; 0; 0; 0; 0; 0; 0; 0; 0; 0; 0; 0; 0; 0; 0; 0; 0; 0; 0; 0; 54; 9]);
  (1, [142; 233; 55; 142; 247; 55; 169; 1; 141; 248; 55; 141; 234; 55; 173; 224; 55; 141; 225; 55; 169; 2; 141; 236; 55; 169; 4; 141; 237; 55; 172; 231; 55;
      136; 140; 241; 55; 169; 1; 141; 244; 55; 138; 74; 74; 74; 74; 170; 169; 0; 157; 248; 4; 157; 120; 4; 32; 147; 55; 162; 255; 154; 142; 235; 55;
      76; 200; 63; 32; 137; 254; 76; 3; 27; 173; 231; 55; 56; 237; 241; 55; 141; 225; 55; 173; 231; 55; 141; 241; 55; 206; 241; 55; 169; 2; 141; 236;
      55; 169; 4; 141; 237; 55; 169; 2; 141; 244; 55; 32; 147; 55; 173; 231; 55; 141; 254; 54; 24; 105; 9; 141; 241; 55; 169; 10; 141; 225; 55; 56;
      233; 1; 141; 255; 54; 141; 237; 55; 32; 147; 55; 96; 0; 0; 0; 0; 0; 0; 173; 229; 55; 172; 228; 55; 32; 181; 55; 172; 237; 55; 136; 16; 7; 160;
      15; 234; 234; 206; 236; 55; 140; 237; 55; 206; 241; 55; 206; 225; 55; 208; 223; 96; 8; 120; 32; 0; 61; 176; 3; 40; 24; 96; 40; 56; 96; 173; 188;
      53; 141; 241; 55; 169; 0; 141; 240; 55; 173; 249; 53; 73; 255; 141; 235; 55; 96; 169; 0; 168; 145; 66; 200; 208; 251; 96; 0; 27; 0; 10; 27; 232;
      55; 0; 54; 1; 96; 1; 0; 0; 0; 251; 55; 0; 0; 0; 1; 0; 0; 0; 96; 1; 0; 0; 0; 1; 239; 216]);
  (2, [162; 0; 160; 2; 136; 177; 62; 74; 62; 0; 60; 74; 62; 0; 60; 153; 0; 59; 232; 224; 86; 144; 237; 162; 0; 152; 208; 232; 162; 85; 189; 0; 60; 41; 63;
      157; 0; 60; 202; 16; 245; 96; 56; 134; 39; 142; 120; 6; 189; 141; 192; 189; 142; 192; 48; 124; 173; 0; 60; 133; 38; 169; 255; 157; 143; 192; 29;
      140; 192; 72; 104; 234; 160; 4; 72; 104; 32; 185; 56; 136; 208; 248; 169; 213; 32; 184; 56; 169; 170; 32; 184; 56; 169; 173; 32; 184; 56; 152;
      160; 86; 208; 3; 185; 0; 60; 89; 255; 59; 170; 189; 41; 58; 166; 39; 157; 141; 192; 189; 140; 192; 136; 208; 235; 165; 38; 234; 89; 0; 59; 170;
      189; 41; 58; 174; 120; 6; 157; 141; 192; 189; 140; 192; 185; 0; 59; 200; 208; 234; 170; 189; 41; 58; 166; 39; 32; 187; 56; 169; 222; 32; 184; 56;
      169; 170; 32; 184; 56; 169; 235; 32; 184; 56; 169; 255; 32; 184; 56; 189; 142; 192; 189; 140; 192; 96; 24; 72; 104; 157; 141; 192; 29; 140; 192;
      96; 160; 0; 162; 86; 202; 48; 251; 185; 0; 59; 94; 0; 60; 42; 94; 0; 60; 42; 145; 62; 200; 196; 38; 208; 235; 96; 160; 32; 136; 240; 97; 189;
      140; 192; 16; 251; 73; 213; 208; 244; 234; 189; 140; 192; 16; 251; 201; 170; 208; 242; 160; 86; 189; 140; 192; 16; 251; 201; 173; 208; 231; 169]);
  (3, [0; 136; 132; 38; 188; 140; 192; 16; 251; 89; 0; 58; 164; 38; 153; 0; 60; 208; 238; 132; 38; 188; 140; 192; 16; 251; 89; 0; 58; 164; 38; 153; 0; 59;
      200; 208; 238; 188; 140; 192; 16; 251; 217; 0; 58; 208; 19; 189; 140; 192; 16; 251; 201; 222; 208; 10; 234; 189; 140; 192; 16; 251; 201; 170;
      240; 92; 56; 96; 160; 252; 132; 38; 200; 208; 4; 230; 38; 240; 243; 189; 140; 192; 16; 251; 201; 213; 208; 240; 234; 189; 140; 192; 16; 251; 201;
      170; 208; 242; 160; 3; 189; 140; 192; 16; 251; 201; 150; 208; 231; 169; 0; 133; 39; 189; 140; 192; 16; 251; 42; 133; 38; 189; 140; 192; 16; 251;
      37; 38; 153; 44; 0; 69; 39; 136; 16; 231; 168; 208; 183; 189; 140; 192; 16; 251; 201; 222; 208; 174; 234; 189; 140; 192; 16; 251; 201; 170; 208;
      164; 24; 96; 134; 43; 133; 42; 205; 120; 4; 240; 83; 169; 0; 133; 38; 173; 120; 4; 133; 39; 56; 229; 42; 240; 51; 176; 7; 73; 255; 238; 120; 4;
      144; 5; 105; 254; 206; 120; 4; 197; 38; 144; 2; 165; 38; 201; 12; 176; 1; 168; 56; 32; 238; 57; 185; 17; 58; 32; 0; 58; 165; 39; 24; 32; 241; 57;
      185; 29; 58; 32; 0; 58; 230; 38; 208; 195; 32; 0; 58; 24; 173; 120; 4; 41; 3; 42; 5; 43; 170; 189; 128; 192; 166; 43; 96]);
  (4, [162; 17; 202; 208; 253; 230; 70; 208; 2; 230; 71; 56; 233; 1; 208; 240; 96; 1; 48; 40; 36; 32; 30; 29; 28; 28; 28; 28; 28; 112; 44; 38; 34; 31; 30; 29;
      28; 28; 28; 28; 28; 150; 151; 154; 155; 157; 158; 159; 166; 167; 171; 172; 173; 174; 175; 178; 179; 180; 181; 182; 183; 185; 186; 187; 188; 189;
      190; 191; 203; 205; 206; 207; 211; 214; 215; 217; 218; 219; 220; 221; 222; 223; 229; 230; 231; 233; 234; 235; 236; 237; 238; 239; 242; 243; 244;
      245; 246; 247; 249; 250; 251; 252; 253; 254; 255; 174; 95; 42; 224; 28; 240; 5; 162; 0; 142; 93; 54; 96; 169; 255; 141; 251; 4; 141; 12; 192;
      141; 14; 192; 76; 47; 251; 173; 189; 53; 141; 230; 53; 141; 234; 53; 186; 142; 155; 51; 76; 127; 51; 0; 0; 0; 1; 152; 153; 2; 3; 156; 4; 5; 6;
      160; 161; 162; 163; 164; 165; 7; 8; 168; 169; 170; 9; 10; 11; 12; 13; 176; 177; 14; 15; 16; 17; 18; 19; 184; 20; 21; 22; 23; 24; 25; 26; 192;
      193; 194; 195; 196; 197; 198; 199; 200; 201; 202; 27; 204; 28; 29; 30; 208; 209; 210; 31; 212; 213; 32; 33; 216; 34; 35; 36; 37; 38; 39; 40; 224;
      225; 226; 227; 228; 41; 42; 43; 232; 44; 45; 46; 47; 48; 49; 50; 240; 241; 51; 52; 53; 54; 55; 56; 248; 57; 58; 59; 60; 61; 62; 63]);
  (6, [0; 0; 0; 0; 0; 0; 0; 0; 0; 0; 0; 0; 0; 0; 0; 0; 0; 0; 0; 0; 0; 0; 0; 0; 0; 0; 0; 0; 0; 0; 0; 0; 0; 0; 0; 0; 0; 0; 0; 0; 0; 0; 0; 0; 0; 0; 0; 0; 0; 0;
      0; 0; 0; 0; 0; 0; 0; 0; 0; 0; 0; 0; 0; 0; 0; 0; 0; 0; 0; 0; 0; 0; 0; 0; 0; 0; 0; 0; 0; 0; 0; 0; 0; 0; 0; 0; 56; 189; 141; 192; 189; 142; 192; 48;
      94; 169; 255; 157; 143; 192; 221; 140; 192; 72; 104; 32; 195; 60; 32; 195; 60; 157; 141; 192; 221; 140; 192; 234; 136; 208; 240; 169; 213; 32;
      213; 60; 169; 170; 32; 213; 60; 169; 150; 32; 213; 60; 165; 65; 32; 196; 60; 165; 68; 32; 196; 60; 165; 63; 32; 196; 60; 165; 65; 69; 68; 69; 63;
      72; 74; 5; 62; 157; 141; 192; 189; 140; 192; 104; 9; 170; 32; 212; 60; 169; 222; 32; 213; 60; 169; 170; 32; 213; 60; 169; 235; 32; 213; 60; 24;
      189; 142; 192; 189; 140; 192; 96; 72; 74; 5; 62; 157; 141; 192; 221; 140; 192; 104; 234; 234; 234; 9; 170; 234; 234; 72; 104; 157; 141; 192; 221;
      140; 192; 96]);
  (7, [132; 72; 133; 73; 160; 2; 140; 248; 6; 160; 4; 140; 248; 4; 160; 1; 177; 72; 170; 160; 15; 209; 72; 240; 27; 138; 72; 177; 72; 170; 104; 72; 145; 72;
      189; 142; 192; 160; 8; 189; 140; 192; 221; 140; 192; 208; 246; 136; 208; 248; 104; 170; 189; 142; 192; 189; 140; 192; 160; 8; 189; 140; 192; 72;
      104; 72; 104; 142; 248; 5; 221; 140; 192; 208; 3; 136; 208; 238; 8; 189; 137; 192; 160; 6; 177; 72; 153; 54; 0; 200; 192; 10; 208; 246; 160; 3;
      177; 60; 133; 71; 160; 2; 177; 72; 160; 16; 209; 72; 240; 6; 145; 72; 40; 160; 0; 8; 106; 144; 5; 189; 138; 192; 176; 3; 189; 139; 192; 102; 53;
      40; 8; 208; 11; 160; 7; 32; 0; 58; 136; 208; 250; 174; 248; 5; 160; 4; 177; 72; 32; 90; 62; 40; 208; 17; 164; 71; 16; 13; 160; 18; 136; 208; 253;
      230; 70; 208; 247; 230; 71; 208; 243; 160; 12; 177; 72; 240; 90; 201; 4; 240; 88; 106; 8; 176; 3; 32; 0; 56; 160; 48; 140; 120; 5; 174; 248; 5;
      32; 68; 57; 144; 36; 206; 120; 5; 16; 243; 173; 120; 4; 72; 169; 96; 32; 149; 62; 206; 248; 6; 240; 40; 169; 4; 141; 248; 4; 169; 0; 32; 90; 62;
      104; 32; 90; 62; 76; 188; 61; 164; 46; 204; 120; 4; 240; 28; 173; 120; 4; 72; 152; 32; 149; 62; 104; 206; 248; 4]);
  (8, [208; 229; 240; 202; 104; 169; 64; 40; 76; 72; 62; 240; 57; 76; 175; 62; 160; 3; 177; 72; 72; 165; 47; 160; 14; 145; 72; 104; 240; 8; 197; 47; 240; 4;
      169; 32; 208; 225; 160; 5; 177; 72; 168; 185; 184; 63; 197; 45; 208; 151; 40; 144; 28; 32; 220; 56; 8; 176; 142; 40; 162; 0; 134; 38; 32; 194;
      56; 174; 248; 5; 24; 36; 56; 160; 13; 145; 72; 189; 136; 192; 96; 32; 42; 56; 144; 240; 169; 16; 176; 238; 72; 160; 1; 177; 60; 106; 104; 144; 8;
      10; 32; 107; 62; 78; 120; 4; 96; 133; 42; 32; 142; 62; 185; 120; 4; 36; 53; 48; 3; 185; 248; 4; 141; 120; 4; 165; 42; 36; 53; 48; 5; 153; 248; 4;
      16; 3; 153; 120; 4; 76; 160; 57; 138; 74; 74; 74; 74; 168; 96; 72; 160; 2; 177; 72; 106; 102; 53; 32; 142; 62; 104; 10; 36; 53; 48; 5; 153; 248;
      4; 16; 3; 153; 120; 4; 96; 160; 3; 177; 72; 133; 65; 169; 170; 133; 62; 160; 86; 169; 0; 133; 68; 153; 255; 59; 136; 208; 250; 153; 0; 59; 136;
      208; 250; 169; 80; 32; 149; 62; 169; 40; 133; 69; 165; 68; 32; 90; 62; 32; 13; 63; 169; 8; 176; 36; 169; 48; 141; 120; 5; 56; 206; 120; 5; 240;
      25; 32; 68; 57; 176; 245; 165; 45; 208; 241; 32; 220; 56; 176; 236; 230; 68; 165; 68; 201; 35; 144]);
  (9, [211; 24; 144; 5; 160; 13; 145; 72; 56; 189; 136; 192; 96; 169; 0; 133; 63; 160; 128; 208; 2; 164; 69; 32; 86; 60; 176; 107; 32; 42; 56; 176; 102; 230;
      63; 165; 63; 201; 16; 144; 236; 160; 15; 132; 63; 169; 48; 141; 120; 5; 153; 168; 63; 136; 16; 250; 164; 69; 32; 135; 63; 32; 135; 63; 32; 135;
      63; 72; 104; 234; 136; 208; 241; 32; 68; 57; 176; 35; 165; 45; 240; 21; 169; 16; 197; 69; 165; 69; 233; 1; 133; 69; 201; 5; 176; 17; 56; 96; 32;
      68; 57; 176; 5; 32; 220; 56; 144; 28; 206; 120; 5; 208; 241; 32; 68; 57; 176; 11; 165; 45; 201; 15; 208; 5; 32; 220; 56; 144; 140; 206; 120; 5;
      208; 235; 56; 96; 164; 45; 185; 168; 63; 48; 221; 169; 255; 153; 168; 63; 198; 63; 16; 202; 165; 68; 208; 10; 165; 69; 201; 16; 144; 229; 198;
      69; 198; 69; 24; 96; 0; 0; 0; 0; 0; 0; 0; 0; 0; 0; 0; 0; 0; 0; 0; 0; 0; 13; 11; 9; 7; 5; 3; 1; 14; 12; 10; 8; 6; 4; 2; 15; 32; 147; 254; 173;
      129; 192; 173; 129; 192; 169; 0; 141; 0; 224; 32; 118; 58; 76; 68; 55; 141; 99; 42; 141; 112; 42; 141; 113; 42; 96; 32; 91; 39; 140; 183; 42; 96;
      32; 126; 46; 174; 155; 51; 154; 32; 22; 35; 186; 142; 155; 51; 169; 9; 76; 133; 51]);
  (10, [76; 132; 29; 169; 191; 133; 65; 162; 0; 134; 64; 160; 0; 161; 64; 133; 38; 152; 69; 38; 133; 38; 152; 65; 64; 129; 64; 197; 38; 208; 5; 200; 208; 239;
      240; 4; 198; 65; 208; 227; 165; 65; 41; 223; 133; 67; 134; 66; 161; 66; 72; 133; 38; 152; 69; 38; 133; 38; 152; 65; 64; 129; 66; 197; 38; 208; 9;
      200; 208; 239; 164; 67; 104; 76; 81; 27; 104; 129; 66; 164; 65; 200; 140; 125; 28; 56; 152; 237; 126; 28; 141; 124; 28; 56; 237; 122; 28; 240;
      157; 141; 127; 28; 173; 122; 28; 141; 13; 29; 169; 29; 141; 73; 55; 169; 132; 141; 72; 55; 162; 0; 134; 64; 189; 41; 28; 168; 189; 42; 28; 133;
      65; 76; 147; 27; 24; 177; 64; 109; 127; 28; 145; 64; 200; 208; 2; 230; 65; 200; 208; 2; 230; 65; 165; 65; 221; 44; 28; 144; 231; 152; 221; 43;
      28; 144; 225; 138; 24; 105; 4; 170; 236; 40; 28; 144; 203; 162; 0; 142; 156; 51; 189; 90; 28; 133; 64; 189; 91; 28; 133; 65; 162; 0; 161; 64; 32;
      142; 248; 164; 47; 192; 2; 208; 17; 177; 64; 205; 122; 28; 144; 10; 205; 123; 28; 176; 5; 109; 127; 28; 145; 64; 56; 165; 47; 101; 64; 133; 64;
      169; 0; 101; 65; 133; 65; 174; 156; 51; 221; 93; 28; 144; 205; 165; 64; 221; 92; 28; 144; 198; 138; 24; 105; 4; 170; 236; 89; 28]);
  (11, [144; 175; 169; 63; 133; 65; 172; 125; 28; 136; 132; 67; 169; 0; 133; 64; 133; 66; 168; 177; 64; 145; 66; 200; 208; 249; 206; 128; 28; 240; 6; 198; 65;
      198; 67; 208; 238; 76; 84; 30; 36; 0; 29; 86; 29; 88; 29; 90; 29; 100; 29; 102; 29; 108; 29; 112; 29; 120; 29; 124; 29; 126; 29; 128; 29; 193;
      42; 253; 42; 228; 55; 232; 55; 238; 55; 240; 55; 0; 0; 0; 0; 0; 0; 0; 0; 0; 0; 0; 0; 32; 132; 29; 132; 40; 253; 42; 151; 51; 93; 54; 224; 55; 86;
      60; 223; 60; 0; 56; 17; 58; 105; 58; 148; 58; 0; 61; 168; 63; 200; 63; 255; 63; 29; 64; 0; 0; 35; 0; 35; 252; 253; 253; 253; 252; 253; 252; 252;
      252; 254; 254; 252; 254; 252; 252; 253; 254; 252; 255; 252; 253; 252; 252; 252; 255; 252; 255; 252; 254; 255; 255; 255; 255; 253; 254; 252; 253;
      252; 252; 252; 252; 253; 252; 254; 254; 254; 252; 253; 255; 252; 252; 252; 254; 252; 253; 252; 252; 252; 254; 252; 253; 252; 252; 252; 253; 252;
      253; 253; 252; 252; 252; 253; 253; 252; 254; 252; 252; 254; 252; 252; 253; 253; 252; 255; 254; 252; 255; 252; 252; 253; 252; 253; 254; 252; 252;
      253; 252; 255; 252; 254; 255; 255; 255; 253; 252; 254; 254; 252; 252; 254; 252; 252; 254; 252; 254; 252; 254; 254; 252; 254; 254; 252; 252; 254;
      252; 253; 253]);
  (12, [211; 28; 129; 30; 189; 30; 117; 42; 147; 42; 96; 42; 0; 27; 187; 53; 234; 30; 17; 31; 34; 31; 46; 31; 81; 31; 96; 31; 112; 31; 78; 37; 18; 36; 150; 35;
      208; 36; 239; 36; 98; 34; 112; 34; 116; 34; 233; 34; 26; 37; 197; 37; 15; 37; 220; 37; 162; 34; 151; 34; 128; 34; 109; 37; 50; 34; 60; 34; 40;
      34; 45; 34; 80; 34; 121; 37; 157; 37; 48; 35; 92; 35; 141; 35; 124; 34; 54; 232; 229; 36; 227; 227; 0; 224; 3; 224; 0; 0; 54; 232; 229; 36; 227;
      227; 0; 224; 3; 224; 252; 36; 252; 36; 101; 216; 0; 224; 60; 212; 242; 212; 6; 37; 6; 37; 103; 16; 132; 29; 60; 12; 242; 12; 173; 233; 55; 74;
      74; 74; 74; 141; 106; 42; 173; 234; 55; 141; 104; 42; 173; 0; 224; 73; 32; 208; 17; 141; 182; 42; 162; 10; 189; 97; 29; 157; 85; 29; 202; 208;
      247; 76; 188; 29; 169; 64; 141; 182; 42; 162; 12; 189; 107; 29; 157; 85; 29; 202; 208; 247; 56; 176; 18; 173; 182; 42; 208; 4; 169; 32; 208; 5;
      10; 16; 5; 169; 76; 32; 178; 37; 24; 8; 32; 81; 40; 169; 0; 141; 94; 42; 141; 82; 42; 40; 106; 141; 81; 42; 48; 3; 108; 94; 29; 108; 92; 29; 10;
      16; 25; 141; 182; 42; 162; 12; 189; 119; 29; 157; 85; 29; 202; 208; 247; 162; 29; 189; 147; 42]);
  (13, [157; 117; 42; 202; 16; 247; 173; 177; 42; 141; 87; 42; 32; 212; 39; 173; 179; 42; 240; 9; 72; 32; 157; 38; 104; 160; 0; 145; 64; 32; 91; 39; 173; 95;
      42; 208; 32; 162; 47; 189; 81; 30; 157; 208; 3; 202; 16; 247; 173; 83; 30; 141; 243; 3; 73; 165; 141; 244; 3; 173; 82; 30; 141; 242; 3; 169; 6;
      208; 5; 173; 98; 42; 240; 6; 141; 95; 42; 76; 128; 33; 96; 76; 191; 29; 76; 132; 29; 76; 253; 42; 76; 181; 55; 173; 15; 29; 172; 14; 29; 96; 173;
      194; 42; 172; 193; 42; 96; 76; 81; 40; 234; 234; 76; 89; 250; 76; 101; 255; 76; 88; 255; 76; 101; 255; 76; 101; 255; 101; 255; 32; 209; 30; 173;
      81; 42; 240; 21; 72; 173; 92; 42; 145; 40; 104; 48; 3; 76; 38; 38; 32; 234; 29; 164; 36; 169; 96; 145; 40; 173; 179; 42; 240; 3; 32; 130; 38;
      169; 3; 141; 82; 42; 32; 186; 31; 32; 186; 30; 141; 92; 42; 142; 90; 42; 76; 179; 31; 108; 56; 0; 32; 209; 30; 173; 82; 42; 10; 170; 189; 17; 29;
      72; 189; 16; 29; 72; 173; 92; 42; 96; 141; 92; 42; 142; 90; 42; 140; 91; 42; 186; 232; 232; 142; 89; 42; 162; 3; 189; 83; 42; 149; 54; 202; 16;
      248; 96; 174; 183; 42; 240; 3; 76; 120; 31; 174; 81; 42; 240; 8; 201; 191; 240; 117; 197; 51; 240; 39]);
  (14, [162; 2; 142; 82; 42; 205; 178; 42; 208; 25; 202; 142; 82; 42; 202; 142; 93; 42; 174; 93; 42; 157; 0; 2; 232; 142; 93; 42; 201; 141; 208; 117; 76; 205;
      31; 201; 141; 208; 125; 162; 0; 142; 82; 42; 76; 164; 31; 162; 0; 142; 82; 42; 201; 141; 240; 7; 173; 179; 42; 240; 103; 208; 94; 72; 56; 173;
      179; 42; 208; 3; 32; 94; 38; 104; 144; 236; 174; 90; 42; 76; 21; 31; 201; 141; 208; 5; 169; 5; 141; 82; 42; 32; 14; 38; 76; 153; 31; 205; 178;
      42; 240; 133; 201; 138; 240; 241; 162; 4; 142; 82; 42; 208; 225; 169; 0; 141; 82; 42; 240; 37; 169; 0; 141; 183; 42; 32; 81; 40; 76; 220; 36;
      173; 0; 2; 205; 178; 42; 240; 10; 169; 141; 141; 0; 2; 162; 0; 142; 90; 42; 169; 64; 208; 6; 169; 16; 208; 2; 169; 32; 45; 94; 42; 240; 15; 32;
      186; 31; 32; 197; 31; 141; 92; 42; 140; 91; 42; 142; 90; 42; 32; 81; 40; 174; 89; 42; 154; 173; 92; 42; 172; 91; 42; 174; 90; 42; 56; 96; 108;
      54; 0; 169; 141; 76; 197; 31; 160; 255; 140; 95; 42; 200; 140; 98; 42; 238; 95; 42; 162; 0; 8; 189; 0; 2; 205; 178; 42; 208; 1; 232; 142; 93; 42;
      32; 164; 33; 41; 127; 89; 132; 40; 200; 10; 240; 2; 104; 8; 144; 240; 40; 240; 32; 185; 132; 40; 208; 214]);
  (15, [173; 0; 2; 205; 178; 42; 240; 3; 76; 164; 31; 173; 1; 2; 201; 141; 208; 6; 32; 91; 39; 76; 149; 31; 76; 196; 38; 14; 95; 42; 172; 95; 42; 32; 94; 38;
      144; 12; 169; 2; 57; 9; 41; 240; 5; 169; 15; 76; 210; 38; 192; 6; 208; 2; 132; 51; 169; 32; 57; 9; 41; 240; 97; 32; 149; 32; 8; 32; 164; 33; 240;
      30; 10; 144; 5; 48; 3; 76; 0; 32; 106; 76; 89; 32; 32; 147; 33; 240; 13; 153; 117; 42; 200; 192; 60; 144; 243; 32; 147; 33; 208; 251; 40; 208;
      15; 172; 95; 42; 169; 16; 57; 9; 41; 240; 12; 160; 30; 8; 208; 203; 173; 147; 42; 201; 160; 240; 19; 173; 117; 42; 201; 160; 208; 75; 172; 95;
      42; 169; 192; 57; 9; 41; 240; 2; 16; 63; 76; 0; 32; 160; 60; 169; 160; 153; 116; 42; 136; 208; 250; 96; 141; 117; 42; 169; 12; 57; 9; 41; 240;
      39; 32; 185; 33; 176; 31; 168; 208; 23; 224; 17; 176; 19; 172; 95; 42; 169; 8; 57; 9; 41; 240; 6; 224; 8; 176; 206; 144; 11; 138; 208; 8; 169; 2;
      76; 210; 38; 76; 196; 38; 169; 0; 141; 101; 42; 141; 116; 42; 141; 102; 42; 141; 108; 42; 141; 109; 42; 32; 220; 63; 173; 93; 42; 32; 164; 33;
      208; 31; 201; 141; 208; 247; 174; 95; 42; 173; 101; 42; 29; 10; 41; 93; 10; 41; 208; 147; 174]);
  (16, [99; 42; 240; 118; 141; 99; 42; 142; 93; 42; 208; 220; 162; 10; 221; 64; 41; 240; 5; 202; 208; 248; 240; 182; 189; 74; 41; 48; 71; 13; 101; 42; 141;
      101; 42; 202; 142; 100; 42; 32; 185; 33; 176; 162; 173; 100; 42; 10; 10; 168; 165; 69; 208; 9; 165; 68; 217; 85; 41; 144; 140; 165; 69; 217; 88;
      41; 144; 11; 208; 131; 165; 68; 217; 87; 41; 144; 2; 208; 245; 173; 99; 42; 208; 148; 152; 74; 168; 165; 69; 153; 103; 42; 165; 68; 153; 102; 42;
      76; 232; 32; 72; 169; 128; 13; 101; 42; 141; 101; 42; 104; 41; 127; 13; 116; 42; 141; 116; 42; 208; 233; 240; 156; 32; 128; 33; 76; 131; 31; 32;
      91; 39; 32; 174; 33; 173; 95; 42; 170; 189; 31; 29; 72; 189; 30; 29; 72; 96; 174; 93; 42; 189; 0; 2; 201; 141; 240; 6; 232; 142; 93; 42; 201;
      172; 96; 32; 147; 33; 240; 250; 201; 160; 240; 247; 96; 169; 0; 160; 22; 153; 186; 53; 136; 208; 250; 96; 169; 0; 133; 68; 133; 69; 32; 164; 33;
      8; 201; 164; 240; 60; 40; 76; 206; 33; 32; 164; 33; 208; 6; 166; 68; 165; 69; 24; 96; 56; 233; 176; 48; 33; 201; 10; 176; 29; 32; 254; 33; 101;
      68; 170; 169; 0; 101; 69; 168; 32; 254; 33; 32; 254; 33; 138; 101; 68; 133; 68; 152; 101; 69; 133; 69; 144; 207; 56; 96; 6; 68]);
  (17, [38; 69; 96; 40; 32; 164; 33; 240; 197; 56; 233; 176; 48; 238; 201; 10; 144; 8; 233; 7; 48; 230; 201; 16; 176; 226; 162; 4; 32; 254; 33; 202; 208; 250;
      5; 68; 133; 68; 76; 4; 34; 165; 68; 76; 149; 254; 165; 68; 76; 139; 254; 173; 94; 42; 13; 116; 42; 141; 94; 42; 96; 44; 116; 42; 80; 3; 32; 200;
      31; 169; 112; 77; 116; 42; 45; 94; 42; 141; 94; 42; 96; 169; 0; 141; 179; 42; 165; 68; 72; 32; 22; 35; 104; 141; 87; 42; 76; 212; 39; 169; 5; 32;
      170; 34; 32; 100; 39; 160; 0; 152; 145; 64; 96; 169; 7; 208; 2; 169; 8; 32; 170; 34; 76; 234; 34; 169; 12; 208; 246; 173; 8; 29; 141; 189; 53;
      173; 9; 29; 141; 190; 53; 169; 9; 141; 99; 42; 32; 200; 34; 76; 234; 34; 32; 163; 34; 32; 140; 38; 208; 251; 76; 113; 54; 169; 0; 76; 213; 35;
      169; 1; 141; 99; 42; 173; 108; 42; 208; 10; 173; 109; 42; 208; 5; 169; 1; 141; 108; 42; 173; 108; 42; 141; 189; 53; 173; 109; 42; 141; 190; 53;
      32; 234; 34; 165; 69; 208; 3; 76; 200; 38; 133; 65; 165; 68; 133; 64; 32; 67; 39; 32; 78; 39; 32; 26; 39; 173; 99; 42; 141; 187; 53; 76; 168; 38;
      173; 117; 42; 201; 160; 240; 37; 32; 100; 39; 176; 58; 32; 252; 34; 76; 234; 34; 32; 175; 39; 208]);
  (18, [5; 169; 0; 141; 179; 42; 160; 0; 152; 145; 64; 32; 78; 39; 169; 2; 141; 187; 53; 76; 168; 38; 32; 146; 39; 208; 5; 32; 154; 39; 240; 16; 32; 175; 39;
      240; 246; 32; 170; 39; 240; 241; 32; 252; 34; 76; 22; 35; 96; 169; 9; 45; 101; 42; 201; 9; 240; 3; 76; 0; 32; 169; 4; 32; 213; 35; 173; 115; 42;
      172; 114; 42; 32; 224; 35; 173; 109; 42; 172; 108; 42; 32; 224; 35; 173; 115; 42; 172; 114; 42; 76; 255; 35; 32; 168; 34; 169; 127; 45; 194; 53;
      201; 4; 240; 3; 76; 208; 38; 169; 4; 32; 213; 35; 32; 122; 36; 170; 173; 101; 42; 41; 1; 208; 6; 142; 114; 42; 140; 115; 42; 32; 122; 36; 174;
      114; 42; 172; 115; 42; 76; 113; 36; 32; 93; 35; 32; 81; 40; 108; 114; 42; 173; 182; 42; 240; 32; 165; 214; 16; 3; 76; 204; 38; 169; 2; 32; 213;
      35; 56; 165; 175; 229; 103; 168; 165; 176; 229; 104; 32; 224; 35; 165; 104; 164; 103; 76; 255; 35; 169; 1; 32; 213; 35; 56; 165; 76; 229; 202;
      168; 165; 77; 229; 203; 32; 224; 35; 165; 203; 164; 202; 76; 255; 35; 141; 194; 53; 72; 32; 168; 34; 104; 76; 196; 39; 140; 193; 53; 140; 195;
      53; 141; 194; 53; 169; 4; 141; 187; 53; 169; 1; 141; 188; 53; 32; 168; 38; 173; 194; 53; 141; 195; 53; 76; 168; 38; 140]);
  (19, [195; 53; 141; 196; 53; 169; 2; 76; 134; 54; 32; 168; 38; 76; 234; 34; 76; 208; 38; 32; 22; 35; 32; 168; 34; 169; 35; 45; 194; 53; 240; 240; 141; 194;
      53; 173; 182; 42; 240; 40; 169; 2; 32; 177; 36; 32; 122; 36; 24; 101; 103; 170; 152; 101; 104; 197; 116; 176; 112; 133; 176; 133; 106; 134; 175;
      134; 105; 166; 103; 164; 104; 32; 113; 36; 32; 81; 40; 108; 96; 29; 169; 1; 32; 177; 36; 32; 122; 36; 56; 165; 76; 237; 96; 42; 170; 165; 77;
      237; 97; 42; 144; 69; 168; 196; 75; 144; 64; 240; 62; 132; 203; 134; 202; 142; 195; 53; 140; 196; 53; 76; 10; 36; 173; 10; 29; 141; 195; 53; 173;
      11; 29; 141; 196; 53; 169; 0; 141; 194; 53; 169; 2; 141; 193; 53; 169; 3; 141; 187; 53; 169; 2; 141; 188; 53; 32; 168; 38; 173; 97; 42; 141; 194;
      53; 168; 173; 96; 42; 141; 193; 53; 96; 32; 234; 34; 76; 204; 38; 205; 194; 53; 240; 26; 174; 95; 42; 142; 98; 42; 74; 240; 3; 76; 158; 37; 162;
      29; 189; 117; 42; 157; 147; 42; 202; 16; 247; 76; 122; 37; 96; 173; 182; 42; 240; 3; 141; 183; 42; 32; 19; 36; 32; 200; 31; 32; 81; 40; 108; 88;
      29; 165; 74; 133; 204; 165; 75; 133; 205; 108; 86; 29; 32; 22; 36; 32; 200; 31; 32; 81; 40; 108; 86; 29; 32; 101; 214; 133]);
  (20, [51; 133; 216; 76; 210; 215; 32; 101; 14; 133; 51; 133; 216; 76; 212; 15; 32; 38; 37; 169; 5; 141; 82; 42; 76; 131; 31; 32; 38; 37; 169; 1; 141; 81; 42;
      76; 131; 31; 32; 100; 39; 144; 6; 32; 163; 34; 76; 52; 37; 32; 78; 39; 173; 101; 42; 41; 6; 240; 19; 162; 3; 189; 110; 42; 157; 189; 53; 202; 16;
      247; 169; 10; 141; 187; 53; 32; 168; 38; 96; 169; 64; 45; 101; 42; 240; 5; 173; 102; 42; 208; 5; 169; 254; 141; 102; 42; 173; 13; 29; 141; 188;
      53; 169; 11; 32; 170; 34; 76; 151; 35; 169; 6; 32; 170; 34; 173; 191; 53; 141; 102; 42; 96; 169; 76; 32; 178; 37; 240; 46; 169; 0; 141; 182; 42;
      160; 30; 32; 151; 32; 162; 9; 189; 183; 42; 157; 116; 42; 202; 208; 247; 169; 192; 141; 81; 42; 76; 209; 36; 169; 32; 32; 178; 37; 240; 5; 169;
      1; 76; 210; 38; 169; 0; 141; 183; 42; 76; 132; 29; 205; 0; 224; 240; 14; 141; 128; 192; 205; 0; 224; 240; 6; 141; 129; 192; 205; 0; 224; 96; 32;
      163; 34; 173; 79; 42; 141; 180; 42; 173; 80; 42; 141; 181; 42; 173; 117; 42; 141; 179; 42; 208; 14; 32; 100; 39; 144; 6; 32; 163; 34; 76; 235;
      37; 32; 78; 39; 173; 101; 42; 41; 4; 240; 27; 173; 110; 42; 208; 8; 174; 111; 42; 240; 17; 206; 111; 42; 206]);
  (21, [110; 42; 32; 140; 38; 240; 56; 201; 141; 208; 247; 240; 229; 96; 32; 94; 38; 176; 102; 173; 92; 42; 141; 195; 53; 169; 4; 141; 187; 53; 169; 1; 141;
      188; 53; 76; 168; 38; 32; 94; 38; 176; 78; 169; 6; 141; 82; 42; 32; 140; 38; 208; 15; 32; 252; 34; 169; 3; 205; 82; 42; 240; 206; 169; 5; 76;
      210; 38; 201; 224; 144; 2; 41; 127; 141; 92; 42; 174; 90; 42; 240; 9; 202; 189; 0; 2; 9; 128; 157; 0; 2; 76; 179; 31; 72; 173; 182; 42; 240; 14;
      166; 118; 232; 240; 13; 166; 51; 224; 221; 240; 7; 104; 24; 96; 165; 217; 48; 249; 104; 56; 96; 32; 252; 34; 32; 91; 39; 76; 179; 31; 32; 157;
      38; 32; 78; 39; 169; 3; 208; 161; 169; 3; 141; 187; 53; 169; 1; 141; 188; 53; 32; 168; 38; 173; 195; 53; 96; 173; 181; 42; 133; 65; 173; 180; 42;
      133; 64; 96; 32; 6; 43; 144; 22; 173; 197; 53; 201; 5; 240; 3; 76; 94; 54; 76; 146; 54; 234; 32; 105; 58; 162; 0; 142; 195; 53; 96; 169; 11; 208;
      10; 169; 12; 208; 6; 169; 14; 208; 2; 169; 13; 141; 92; 42; 32; 230; 63; 173; 182; 42; 240; 4; 165; 216; 48; 14; 162; 0; 32; 2; 39; 174; 92; 42;
      32; 2; 39; 32; 200; 31; 32; 81; 40; 32; 94; 38; 174; 92; 42; 169; 3; 176; 3; 108; 90; 29; 108]);
  (22, [94; 29; 189; 63; 42; 170; 142; 99; 42; 189; 113; 41; 72; 9; 128; 32; 197; 31; 174; 99; 42; 232; 104; 16; 237; 96; 173; 102; 42; 141; 191; 53; 173; 104;
      42; 141; 192; 53; 173; 106; 42; 141; 193; 53; 173; 6; 29; 141; 195; 53; 173; 7; 29; 141; 196; 53; 165; 64; 141; 79; 42; 165; 65; 141; 80; 42; 96;
      160; 29; 185; 117; 42; 145; 64; 136; 16; 248; 96; 160; 30; 177; 64; 153; 169; 53; 200; 192; 38; 208; 246; 96; 160; 0; 140; 81; 42; 140; 82; 42;
      96; 169; 0; 133; 69; 32; 146; 39; 76; 115; 39; 32; 154; 39; 240; 29; 32; 170; 39; 208; 10; 165; 64; 133; 68; 165; 65; 133; 69; 208; 236; 160; 29;
      177; 64; 217; 117; 42; 208; 227; 136; 16; 246; 24; 96; 56; 96; 173; 0; 29; 174; 1; 29; 208; 10; 160; 37; 177; 64; 240; 9; 170; 136; 177; 64; 134;
      65; 133; 64; 138; 96; 160; 0; 177; 64; 96; 173; 179; 42; 240; 14; 173; 180; 42; 197; 64; 208; 8; 173; 181; 42; 197; 65; 240; 1; 202; 96; 77; 194;
      53; 240; 10; 41; 127; 240; 6; 32; 234; 34; 76; 208; 38; 96; 56; 173; 0; 29; 133; 64; 173; 1; 29; 133; 65; 173; 87; 42; 141; 99; 42; 160; 0; 152;
      145; 64; 160; 30; 56; 165; 64; 233; 45; 145; 64; 72; 165; 65; 233; 0; 200; 145; 64; 170; 202; 104; 72; 200]);
  (23, [145; 64; 138; 200; 145; 64; 170; 202; 104; 72; 200; 145; 64; 200; 138; 145; 64; 206; 99; 42; 240; 23; 170; 104; 56; 233; 38; 200; 145; 64; 72; 138;
      233; 0; 200; 145; 64; 133; 65; 104; 133; 64; 76; 229; 39; 72; 169; 0; 200; 145; 64; 200; 145; 64; 173; 182; 42; 240; 11; 104; 133; 116; 133; 112;
      104; 133; 115; 133; 111; 96; 104; 133; 77; 133; 203; 104; 133; 76; 133; 202; 96; 165; 57; 205; 3; 29; 240; 18; 141; 86; 42; 165; 56; 141; 85; 42;
      173; 2; 29; 133; 56; 173; 3; 29; 133; 57; 165; 55; 205; 5; 29; 240; 18; 141; 84; 42; 165; 54; 141; 83; 42; 173; 4; 29; 133; 54; 173; 5; 29; 133;
      55; 96; 73; 78; 73; 212; 76; 79; 65; 196; 83; 65; 86; 197; 82; 85; 206; 67; 72; 65; 73; 206; 68; 69; 76; 69; 84; 197; 76; 79; 67; 203; 85; 78;
      76; 79; 67; 203; 67; 76; 79; 83; 197; 82; 69; 65; 196; 69; 88; 69; 195; 87; 82; 73; 84; 197; 80; 79; 83; 73; 84; 73; 79; 206; 79; 80; 69; 206;
      65; 80; 80; 69; 78; 196; 82; 69; 78; 65; 77; 197; 67; 65; 84; 65; 76; 79; 199; 77; 79; 206; 78; 79; 77; 79; 206; 80; 82; 163; 73; 78; 163; 77;
      65; 88; 70; 73; 76; 69; 211; 70; 208; 73; 78; 212; 66; 83; 65; 86; 197; 66; 76; 79; 65; 196; 66; 82]);
  (24, [85; 206; 86; 69; 82; 73; 70; 217; 0; 33; 112; 160; 112; 161; 112; 160; 112; 32; 112; 32; 112; 32; 112; 32; 112; 96; 0; 34; 6; 32; 116; 34; 6; 34; 4;
      35; 120; 34; 112; 48; 112; 64; 112; 64; 128; 64; 128; 8; 0; 8; 0; 4; 0; 64; 112; 64; 0; 33; 121; 32; 113; 32; 113; 32; 112; 214; 196; 211; 204;
      210; 194; 193; 195; 201; 207; 64; 32; 16; 8; 4; 2; 1; 192; 160; 144; 0; 0; 254; 0; 1; 0; 2; 0; 1; 0; 7; 0; 1; 0; 255; 127; 0; 0; 255; 127; 0; 0;
      255; 127; 0; 0; 255; 255; 13; 7; 141; 76; 65; 78; 71; 85; 65; 71; 69; 32; 78; 79; 84; 32; 65; 86; 65; 73; 76; 65; 66; 76; 197; 82; 65; 78; 71;
      69; 32; 69; 82; 82; 79; 210; 87; 82; 73; 84; 69; 32; 80; 82; 79; 84; 69; 67; 84; 69; 196; 69; 78; 68; 32; 79; 70; 32; 68; 65; 84; 193; 70; 73;
      76; 69; 32; 78; 79; 84; 32; 70; 79; 85; 78; 196; 86; 79; 76; 85; 77; 69; 32; 77; 73; 83; 77; 65; 84; 67; 200; 73; 47; 79; 32; 69; 82; 82; 79;
      210; 68; 73; 83; 75; 32; 70; 85; 76; 204; 70; 73; 76; 69; 32; 76; 79; 67; 75; 69; 196; 83; 89; 78; 84; 65; 88; 32; 69; 82; 82; 79; 210; 78; 79;
      32; 66; 85; 70; 70; 69; 82; 83; 32]);
  (25, [65; 86; 65; 73; 76; 65; 66; 76; 197; 70; 73; 76; 69; 32; 84; 89; 80; 69; 32; 77; 73; 83; 77; 65; 84; 67; 200; 80; 82; 79; 71; 82; 65; 77; 32; 84; 79;
      79; 32; 76; 65; 82; 71; 197; 78; 79; 84; 32; 68; 73; 82; 69; 67; 84; 32; 67; 79; 77; 77; 65; 78; 196; 141; 0; 3; 25; 25; 36; 51; 62; 76; 91; 100;
      109; 120; 132; 152; 170; 187; 0; 0; 0; 0; 0; 0; 0; 0; 0; 3; 0; 0; 0; 0; 0; 0; 0; 0; 0; 0; 0; 0; 0; 0; 0; 0; 0; 0; 0; 1; 0; 0; 0; 0; 0; 0; 0; 0;
      200; 197; 204; 204; 207; 160; 160; 160; 160; 160; 160; 160; 160; 160; 160; 160; 160; 160; 160; 160; 160; 160; 160; 160; 160; 160; 160; 160; 160;
      160; 160; 160; 160; 160; 160; 160; 160; 160; 160; 160; 160; 160; 160; 160; 160; 160; 160; 160; 160; 160; 160; 160; 160; 160; 160; 160; 160; 160;
      160; 160; 3; 132; 0; 0; 0; 0; 0; 193; 208; 208; 204; 197; 211; 207; 198; 212; 232; 55; 187; 51; 187; 52; 0; 64; 126; 51; 33; 43; 5; 44; 87; 44;
      111; 44; 42; 45; 151; 45; 238; 44; 245; 44; 57; 44; 17; 45; 141; 46; 23; 45; 126; 51; 126; 51; 137; 44; 149; 44; 134; 44; 146; 44; 126; 51; 126;
      51; 189; 44; 201; 44; 186; 44; 198; 44; 126; 51; 224; 0; 240]);
  (26, [2; 162; 2; 142; 95; 42; 186; 142; 155; 51; 32; 106; 46; 173; 187; 53; 201; 13; 176; 11; 10; 170; 189; 202; 42; 72; 189; 201; 42; 72; 96; 76; 99; 51;
      32; 40; 43; 76; 127; 51; 32; 220; 43; 169; 1; 141; 227; 53; 174; 190; 53; 173; 189; 53; 208; 5; 224; 0; 208; 1; 232; 141; 232; 53; 142; 233; 53;
      32; 201; 49; 144; 94; 142; 156; 51; 174; 95; 42; 189; 9; 41; 174; 156; 51; 74; 176; 13; 173; 81; 42; 201; 192; 208; 3; 76; 95; 51; 76; 115; 51;
      169; 0; 157; 232; 52; 169; 1; 157; 231; 52; 142; 156; 51; 32; 68; 50; 174; 156; 51; 157; 199; 52; 141; 210; 53; 141; 212; 53; 173; 241; 53; 157;
      198; 52; 141; 209; 53; 141; 211; 53; 173; 194; 53; 157; 200; 52; 32; 55; 48; 32; 12; 47; 32; 214; 55; 32; 58; 47; 174; 156; 51; 169; 6; 141; 197;
      53; 189; 198; 52; 141; 209; 53; 189; 199; 52; 141; 210; 53; 189; 200; 52; 141; 194; 53; 141; 246; 53; 189; 231; 52; 141; 238; 53; 189; 232; 52;
      141; 239; 53; 142; 217; 53; 169; 255; 141; 224; 53; 141; 225; 53; 173; 226; 51; 141; 218; 53; 24; 76; 94; 47; 169; 0; 170; 157; 209; 53; 232;
      224; 45; 208; 248; 173; 191; 53; 73; 255; 141; 249; 53; 173; 192; 53; 141; 248; 53; 173; 193; 53; 10; 10; 10; 10; 170; 142; 247; 53]);
  (27, [169; 17; 141; 250; 53; 96; 32; 29; 47; 32; 52; 47; 32; 195; 50; 169; 2; 45; 213; 53; 240; 33; 32; 247; 47; 169; 0; 24; 32; 17; 48; 56; 206; 216; 53;
      208; 247; 174; 217; 53; 173; 238; 53; 157; 231; 52; 173; 239; 53; 157; 232; 52; 32; 55; 48; 76; 127; 51; 32; 40; 43; 173; 246; 53; 48; 43; 173;
      189; 53; 133; 66; 173; 190; 53; 133; 67; 174; 156; 51; 32; 28; 50; 32; 55; 48; 76; 127; 51; 173; 188; 53; 201; 5; 176; 11; 10; 170; 189; 230; 42;
      72; 189; 229; 42; 72; 96; 76; 103; 51; 76; 123; 51; 173; 246; 53; 48; 248; 173; 188; 53; 201; 5; 176; 238; 10; 170; 189; 242; 42; 72; 189; 241;
      42; 72; 96; 32; 0; 51; 32; 168; 44; 141; 195; 53; 76; 127; 51; 32; 0; 51; 32; 181; 49; 32; 168; 44; 72; 32; 162; 49; 160; 0; 104; 145; 66; 76;
      150; 44; 32; 182; 48; 176; 11; 177; 66; 72; 32; 91; 49; 32; 148; 49; 104; 96; 76; 111; 51; 32; 0; 51; 173; 195; 53; 32; 218; 44; 76; 127; 51; 32;
      0; 51; 32; 162; 49; 160; 0; 177; 66; 32; 218; 44; 32; 181; 49; 76; 202; 44; 72; 32; 182; 48; 104; 145; 66; 169; 64; 13; 213; 53; 141; 213; 53;
      32; 91; 49; 76; 148; 49; 169; 128; 141; 158; 51; 208; 5; 169; 0; 141; 158; 51; 32; 40; 43; 174; 156]);
  (28, [51; 189; 200; 52; 41; 127; 13; 158; 51; 157; 200; 52; 32; 55; 48; 76; 127; 51; 32; 0; 51; 76; 127; 51; 32; 40; 43; 32; 182; 48; 176; 239; 238; 228; 53;
      208; 246; 238; 229; 53; 76; 27; 45; 32; 40; 43; 174; 156; 51; 189; 200; 52; 16; 3; 76; 123; 51; 174; 156; 51; 189; 198; 52; 141; 209; 53; 157;
      230; 52; 169; 255; 157; 198; 52; 188; 199; 52; 140; 210; 53; 32; 55; 48; 24; 32; 94; 47; 176; 42; 32; 12; 47; 160; 12; 140; 156; 51; 177; 66; 48;
      11; 240; 9; 72; 200; 177; 66; 168; 104; 32; 137; 45; 172; 156; 51; 200; 200; 208; 231; 173; 211; 53; 172; 212; 53; 32; 137; 45; 56; 176; 209; 32;
      251; 47; 76; 127; 51; 56; 32; 221; 50; 169; 0; 162; 5; 157; 240; 53; 202; 16; 250; 96; 32; 220; 43; 169; 255; 141; 249; 53; 32; 247; 47; 169; 22;
      141; 157; 51; 32; 47; 46; 32; 47; 46; 162; 11; 189; 175; 51; 32; 237; 253; 202; 16; 247; 134; 69; 173; 246; 55; 133; 68; 32; 66; 46; 32; 47; 46;
      32; 47; 46; 24; 32; 17; 48; 176; 93; 162; 0; 142; 156; 51; 189; 198; 52; 240; 83; 48; 74; 160; 160; 189; 200; 52; 16; 2; 160; 170; 152; 32; 237;
      253; 189; 200; 52; 41; 127; 160; 7; 10; 10; 176; 3; 136; 208; 250; 185; 167; 51; 32; 237; 253; 169; 160; 32; 237]);
  (29, [253; 189; 231; 52; 133; 68; 189; 232; 52; 133; 69; 32; 66; 46; 169; 160; 32; 237; 253; 232; 232; 232; 160; 29; 189; 198; 52; 32; 237; 253; 232; 136;
      16; 246; 32; 47; 46; 32; 48; 50; 144; 167; 176; 158; 76; 127; 51; 169; 141; 32; 237; 253; 206; 157; 51; 208; 8; 32; 12; 253; 169; 21; 141; 157;
      51; 96; 160; 2; 169; 0; 72; 165; 68; 217; 164; 51; 144; 18; 249; 164; 51; 133; 68; 165; 69; 233; 0; 133; 69; 104; 105; 0; 72; 76; 71; 46; 104; 9;
      176; 32; 237; 253; 136; 16; 219; 96; 32; 8; 47; 160; 0; 140; 197; 53; 177; 66; 153; 209; 53; 200; 192; 45; 208; 246; 24; 96; 32; 8; 47; 160; 0;
      185; 209; 53; 145; 66; 200; 192; 45; 208; 246; 96; 32; 220; 43; 169; 4; 32; 88; 48; 173; 249; 53; 73; 255; 141; 193; 51; 169; 17; 141; 235; 51;
      169; 1; 141; 236; 51; 162; 56; 169; 0; 157; 187; 51; 232; 208; 250; 162; 12; 224; 140; 240; 20; 160; 3; 185; 160; 51; 157; 243; 51; 232; 136; 16;
      246; 224; 68; 208; 236; 162; 72; 208; 232; 32; 251; 47; 162; 0; 138; 157; 187; 52; 232; 208; 250; 32; 69; 48; 169; 17; 172; 240; 51; 136; 136;
      141; 236; 55; 141; 188; 52; 140; 189; 52; 200; 140; 237; 55; 169; 2; 32; 88; 48; 172; 189; 52; 136; 48; 5; 208; 236; 152; 240; 230; 32]);
  (30, [194; 55; 32; 74; 55; 76; 127; 51; 162; 0; 240; 6; 162; 2; 208; 2; 162; 4; 189; 199; 53; 133; 66; 189; 200; 53; 133; 67; 96; 44; 213; 53; 112; 1; 96;
      32; 228; 47; 169; 2; 32; 82; 48; 169; 191; 45; 213; 53; 141; 213; 53; 96; 173; 213; 53; 48; 1; 96; 32; 75; 47; 169; 2; 32; 82; 48; 169; 127; 45;
      213; 53; 141; 213; 53; 96; 173; 201; 53; 141; 240; 55; 173; 202; 53; 141; 241; 55; 174; 211; 53; 172; 212; 53; 96; 8; 32; 52; 47; 32; 75; 47; 32;
      12; 47; 40; 176; 9; 174; 209; 53; 172; 210; 53; 76; 181; 47; 160; 1; 177; 66; 240; 8; 170; 200; 177; 66; 168; 76; 181; 47; 173; 187; 53; 201; 4;
      240; 2; 56; 96; 32; 68; 50; 160; 2; 145; 66; 72; 136; 173; 241; 53; 145; 66; 72; 32; 58; 47; 32; 214; 55; 160; 5; 173; 222; 53; 145; 66; 200;
      173; 223; 53; 145; 66; 104; 170; 104; 168; 169; 2; 208; 2; 169; 1; 142; 211; 53; 140; 212; 53; 32; 82; 48; 160; 5; 177; 66; 141; 220; 53; 24;
      109; 218; 53; 141; 222; 53; 200; 177; 66; 141; 221; 53; 109; 219; 53; 141; 223; 53; 24; 96; 32; 228; 47; 169; 1; 76; 82; 48; 172; 203; 53; 173;
      204; 53; 140; 240; 55; 141; 241; 55; 174; 214; 53; 172; 215; 53; 96; 169; 1; 208; 2; 169; 2; 172; 195; 42]);
  (31, [140; 240; 55; 172; 196; 42; 140; 241; 55; 174; 250; 53; 160; 0; 76; 82; 48; 8; 32; 69; 48; 40; 176; 8; 172; 189; 51; 174; 188; 51; 208; 10; 174; 188;
      52; 208; 2; 56; 96; 172; 189; 52; 142; 151; 51; 140; 152; 51; 169; 1; 32; 82; 48; 24; 96; 32; 69; 48; 174; 151; 51; 172; 152; 51; 169; 2; 76; 82;
      48; 173; 197; 42; 141; 240; 55; 173; 198; 42; 141; 241; 55; 96; 142; 236; 55; 140; 237; 55; 141; 244; 55; 201; 2; 208; 6; 13; 213; 53; 141; 213;
      53; 173; 249; 53; 73; 255; 141; 235; 55; 173; 247; 53; 141; 233; 55; 173; 248; 53; 141; 234; 55; 173; 226; 53; 141; 242; 55; 173; 227; 53; 141;
      243; 55; 169; 1; 141; 232; 55; 172; 193; 42; 173; 194; 42; 32; 181; 55; 173; 246; 55; 141; 191; 53; 169; 255; 141; 235; 55; 176; 1; 96; 173; 245;
      55; 160; 7; 201; 32; 240; 8; 160; 4; 201; 16; 240; 2; 160; 8; 152; 76; 133; 51; 173; 228; 53; 205; 224; 53; 208; 8; 173; 229; 53; 205; 225; 53;
      240; 102; 32; 29; 47; 173; 229; 53; 205; 221; 53; 144; 28; 208; 8; 173; 228; 53; 205; 220; 53; 144; 18; 173; 229; 53; 205; 223; 53; 144; 16; 208;
      8; 173; 228; 53; 205; 222; 53; 144; 6; 32; 94; 47; 144; 215; 96; 56; 173; 228; 53; 237; 220; 53; 10; 105; 12; 168; 32; 12]);
  (32, [47; 177; 66; 208; 15; 173; 187; 53; 201; 4; 240; 2; 56; 96; 32; 52; 49; 76; 32; 49; 141; 214; 53; 200; 177; 66; 141; 215; 53; 32; 220; 47; 173; 228;
      53; 141; 224; 53; 173; 229; 53; 141; 225; 53; 32; 16; 47; 172; 230; 53; 24; 96; 140; 157; 51; 32; 68; 50; 172; 157; 51; 200; 145; 66; 141; 215;
      53; 136; 173; 241; 53; 145; 66; 141; 214; 53; 32; 16; 47; 32; 214; 55; 169; 192; 13; 213; 53; 141; 213; 53; 96; 174; 234; 53; 142; 189; 53; 174;
      235; 53; 142; 190; 53; 174; 236; 53; 172; 237; 53; 142; 191; 53; 140; 192; 53; 232; 208; 1; 200; 204; 233; 53; 208; 17; 236; 232; 53; 208; 12;
      162; 0; 160; 0; 238; 234; 53; 208; 3; 238; 235; 53; 142; 236; 53; 140; 237; 53; 96; 238; 230; 53; 208; 8; 238; 228; 53; 208; 3; 238; 229; 53; 96;
      172; 195; 53; 174; 196; 53; 132; 66; 134; 67; 238; 195; 53; 208; 3; 238; 196; 53; 96; 172; 193; 53; 208; 8; 174; 194; 53; 240; 7; 206; 194; 53;
      206; 193; 53; 96; 76; 127; 51; 32; 247; 47; 173; 195; 53; 133; 66; 173; 196; 53; 133; 67; 169; 1; 141; 157; 51; 169; 0; 141; 216; 53; 24; 238;
      216; 53; 32; 17; 48; 176; 81; 162; 0; 142; 156; 51; 189; 198; 52; 240; 31; 48; 34; 160; 0; 232; 232; 232; 177; 66; 221; 198; 52; 208]);
  (33, [10; 200; 192; 30; 208; 243; 174; 156; 51; 24; 96; 32; 48; 50; 144; 219; 176; 207; 172; 157; 51; 208; 193; 172; 157; 51; 208; 239; 160; 0; 232; 232;
      232; 177; 66; 157; 198; 52; 200; 192; 30; 208; 245; 174; 156; 51; 56; 96; 24; 173; 156; 51; 105; 35; 170; 224; 245; 96; 169; 0; 172; 157; 51;
      208; 151; 76; 119; 51; 173; 241; 53; 240; 33; 206; 240; 53; 48; 23; 24; 162; 4; 62; 241; 53; 202; 208; 250; 144; 240; 238; 238; 53; 208; 3; 238;
      239; 53; 173; 240; 53; 96; 169; 0; 141; 241; 53; 169; 0; 141; 158; 51; 32; 247; 47; 24; 173; 235; 51; 109; 236; 51; 240; 9; 205; 239; 51; 144;
      20; 169; 255; 208; 10; 173; 158; 51; 208; 55; 169; 1; 141; 158; 51; 141; 236; 51; 24; 105; 17; 141; 235; 51; 141; 241; 53; 168; 10; 10; 168; 162;
      4; 24; 185; 246; 51; 157; 241; 53; 240; 6; 56; 169; 0; 153; 246; 51; 136; 202; 208; 238; 144; 189; 32; 251; 47; 173; 240; 51; 141; 240; 53; 208;
      137; 76; 119; 51; 173; 241; 53; 208; 1; 96; 72; 32; 247; 47; 172; 240; 53; 104; 24; 32; 221; 50; 169; 0; 141; 241; 53; 76; 251; 47; 162; 252;
      126; 246; 52; 232; 208; 250; 200; 204; 240; 51; 208; 242; 10; 10; 168; 240; 15; 162; 4; 189; 241; 53; 25; 246; 51; 153; 246; 51; 136; 202; 208;
      243; 96]);
  (34, [173; 189; 53; 141; 230; 53; 141; 234; 53; 173; 190; 53; 141; 228; 53; 141; 235; 53; 169; 0; 141; 229; 53; 160; 16; 170; 173; 230; 53; 74; 176; 3; 138;
      144; 14; 24; 173; 229; 53; 109; 232; 53; 141; 229; 53; 138; 109; 233; 53; 106; 110; 229; 53; 110; 228; 53; 110; 230; 53; 136; 208; 219; 24; 173;
      191; 53; 141; 236; 53; 109; 230; 53; 141; 230; 53; 173; 192; 53; 141; 237; 53; 109; 228; 53; 141; 228; 53; 144; 3; 238; 229; 53; 96; 0; 0; 169;
      1; 208; 34; 169; 2; 208; 30; 169; 3; 208; 26; 169; 4; 208; 22; 169; 5; 208; 18; 169; 6; 208; 14; 76; 237; 63; 234; 169; 10; 208; 6; 173; 197; 53;
      24; 144; 1; 56; 8; 141; 197; 53; 169; 0; 133; 72; 32; 126; 46; 40; 174; 155; 51; 154; 96; 0; 0; 0; 0; 0; 0; 0; 0; 0; 0; 0; 255; 255; 1; 10; 100;
      212; 201; 193; 194; 211; 210; 193; 194; 160; 197; 205; 213; 204; 207; 214; 160; 203; 211; 201; 196; 4; 17; 15; 4; 0; 0; 254; 252; 254; 252; 252;
      254; 252; 252; 253; 255; 252; 255; 252; 252; 253; 252; 255; 254; 252; 253; 254; 252; 252; 253; 252; 255; 252; 252; 255; 255; 254; 252; 252; 122;
      252; 252; 252; 253; 252; 252; 254; 252; 17; 1; 0; 0; 35; 16; 0; 1; 255; 253; 252; 252; 253; 252; 252; 253; 253; 252; 253; 254; 252]);
  (35, [254; 255; 252; 253; 254; 252; 254; 252; 252; 253; 255; 252; 255; 255; 253; 255; 252; 255; 252; 252; 253; 252; 252; 252; 253; 252; 255; 252; 252; 255;
      255; 253; 253; 252; 254; 253; 252; 252; 254; 252; 252; 252; 252; 254; 253; 254; 252; 252; 254; 253; 252; 252; 252; 252; 253; 252; 252; 252; 253;
      252; 253; 254; 255; 254; 253; 255; 252; 252; 254; 254; 252; 254; 253; 252; 253; 253; 252; 255; 252; 252; 253; 252; 254; 252; 252; 253; 252; 252;
      252; 253; 252; 255; 253; 254; 255; 254; 253; 252; 252; 255; 255; 252; 252; 253; 252; 252; 253; 252; 254; 253; 254; 255; 255; 253; 253; 252; 252;
      253; 252; 253; 253; 252; 252; 253; 255; 252; 253; 254; 255; 254; 254; 254; 252; 253; 252; 252; 255; 252; 253; 255; 252; 253; 252; 252; 253; 254;
      252; 252; 255; 252; 255; 252; 254; 255; 252; 252; 255; 254; 254; 254; 255; 252; 252; 252; 252; 255; 252; 252; 254; 252; 252; 252; 252; 254; 253;
      254; 253; 252; 255; 253; 252; 252; 253; 252; 253; 255; 252; 2; 253; 252; 252; 252; 253; 252; 253; 253; 252; 252; 252; 255; 252; 252; 253; 252;
      252; 252; 254; 252; 255; 252; 252; 255; 255; 253; 255; 255; 254; 255; 253; 252; 254; 252; 252; 252; 252; 254; 254; 254; 252; 253; 252; 254; 252;
      254; 252; 252; 255; 252; 252; 252; 253; 252; 253; 253; 252; 252; 255; 252; 253; 253; 255; 253; 254; 252; 253; 253]);
  (36, [252; 254; 255; 252; 253; 255; 252; 255; 254; 253; 254; 252; 252; 253; 252; 253; 254; 252; 252; 252; 252; 255; 253; 252; 255; 252; 252; 252; 252; 255;
      252; 252; 252; 253; 252; 252; 253; 252; 254; 255; 254; 252; 252; 252; 255; 252; 252; 252; 252; 253; 252; 252; 252; 252; 252; 253; 254; 254; 253;
      254; 253; 255; 252; 254; 254; 252; 254; 253; 252; 253; 253; 254; 255; 254; 252; 255; 252; 255; 252; 252; 253; 252; 252; 255; 252; 255; 255; 252;
      252; 252; 253; 252; 254; 252; 252; 253; 252; 254; 252; 254; 252; 253; 252; 252; 253; 252; 254; 253; 253; 252; 252; 252; 252; 252; 253; 255; 255;
      252; 253; 253; 252; 252; 254; 252; 252; 255; 252; 252; 254; 253; 252; 254; 254; 252; 253; 252; 252; 255; 253; 253; 255; 252; 252; 255; 252; 253;
      254; 252; 252; 255; 252; 255; 252; 252; 255; 252; 252; 253; 252; 254; 253; 252; 252; 252; 252; 252; 253; 252; 254; 254; 254; 253; 254; 255; 254;
      252; 252; 252; 252; 253; 252; 252; 252; 253; 252; 253; 254; 253; 253; 253; 252; 252; 253; 255; 253; 252; 253; 253; 253; 255; 252; 252; 252; 252;
      252; 255; 252; 252; 252; 252; 252; 255; 252; 252; 255; 255; 254; 252; 252; 254; 252; 252; 255; 252; 254; 252; 254; 252; 252; 252; 252; 253; 252;
      255; 252; 252; 252; 255; 252; 252; 253; 252; 254; 254; 255; 252; 253; 255; 252; 254; 253; 252; 253; 252; 253; 254]);
  (48, [48; 0; 7; 8; 10; 0; 145; 0; 21; 8; 15; 0; 185; 201; 49; 54; 51; 48; 50; 44; 48; 0; 47; 8; 20; 0; 186; 231; 40; 52; 41; 59; 34; 66; 82; 85; 78; 32; 65;
      85; 84; 79; 66; 82; 85; 78; 34; 0; 0; 0; 206]);
  (49, [0; 0; 0; 0; 0; 0; 0; 0; 0; 0; 0; 0; 3]);
  (50, [253; 31; 246; 78; 76; 0; 96; 144; 160; 192; 136; 128; 130; 128; 136; 145; 128; 128; 128; 128; 168; 213; 162; 128; 128; 128; 128; 128; 128; 128; 128;
      209; 170; 133; 128; 128; 128; 128; 128; 128; 162; 196; 136; 128; 162; 196; 136; 128; 160; 196; 128; 145; 162; 196; 136; 145; 162; 208; 170; 213;
      128; 128; 192; 247; 255; 255; 239; 253; 255; 223; 143; 128; 128; 212; 170; 213; 162; 196; 136; 145; 162; 196; 136; 145; 130; 128; 128; 128; 128;
      128; 128; 128; 128; 128; 128; 128; 170; 213; 136; 192; 142; 128; 128; 128; 128; 128; 128; 128; 128; 128; 128; 128; 128; 220; 128; 193; 170; 149;
      128; 128; 128; 128; 128; 128; 128; 128; 136; 159; 191; 255; 255; 204; 179; 140; 135; 145; 162; 196; 136; 128; 128; 196; 136; 145; 128; 196; 128;
      213; 170; 149; 130; 128; 128; 196; 136; 145; 162; 128; 128; 145; 170; 213; 138; 144; 162; 196; 136; 145; 162; 192; 136; 128; 130; 128; 136; 144;
      128; 192; 136; 145; 160; 196; 136; 145; 162; 212; 131; 128; 128; 128; 168; 213; 170; 213; 254; 215; 170; 213; 170; 133; 128; 128; 128; 240; 170;
      196; 136; 129; 130; 132; 136; 128; 128; 192; 136; 145; 162; 128; 128; 128; 128; 128; 160; 196; 128; 212; 128; 193; 142; 128; 128; 128; 192; 221;
      223; 223; 155; 128; 128; 128; 128; 220; 128; 193; 138; 192; 136; 133; 128; 128; 128; 128; 128; 128; 128; 29]);
  (51, [128; 239; 248; 18; 128; 143; 191; 144; 130; 196; 136; 129; 162; 132; 136; 145; 162; 196; 168; 213; 138; 145; 128; 128; 162; 213; 170; 213; 170; 196;
      128; 128; 160; 208; 170; 145; 162; 196; 136; 145; 162; 196; 128; 145; 162; 196; 136; 128; 160; 132; 136; 129; 160; 196; 136; 145; 162; 212; 131;
      128; 128; 128; 128; 128; 128; 128; 144; 130; 128; 128; 128; 128; 128; 128; 128; 240; 170; 132; 136; 128; 128; 128; 128; 128; 160; 128; 136; 128;
      128; 128; 160; 197; 128; 209; 162; 196; 136; 212; 128; 193; 142; 128; 128; 128; 192; 136; 145; 162; 196; 128; 128; 128; 128; 220; 136; 192; 138;
      196; 136; 145; 162; 196; 170; 129; 128; 128; 128; 221; 4; 255; 204; 179; 204; 179; 204; 128; 128; 192; 136; 145; 162; 196; 136; 145; 160; 132;
      170; 213; 136; 128; 128; 144; 170; 245; 254; 223; 171; 197; 136; 128; 152; 196; 170; 149; 162; 192; 128; 128; 162; 192; 136; 129; 162; 196; 136;
      144; 130; 196; 136; 145; 162; 132; 128; 145; 162; 212; 130; 128; 192; 128; 140; 132; 138; 128; 241; 162; 128; 148; 136; 140; 128; 128; 128; 208;
      138; 128; 128; 128; 128; 128; 128; 128; 160; 192; 136; 208; 170; 213; 162; 196; 136; 129; 162; 212; 138; 212; 128; 192; 138; 128; 128; 128; 196;
      186; 128; 128; 213; 136; 128; 128; 128; 212; 136; 192; 138; 213; 136; 129; 162; 197; 136; 145; 162; 196; 130; 230]);
  (52, [153; 230; 153; 13; 128; 192; 243; 145; 162; 196; 136; 145; 160; 128; 136; 144; 162; 196; 170; 197; 136; 128; 128; 209; 170; 255; 255; 255; 187; 213;
      136; 128; 128; 196; 168; 213; 162; 196; 128; 145; 160; 196; 128; 144; 160; 196; 136; 144; 160; 196; 128; 128; 128; 128; 128; 128; 130; 212; 130;
      128; 196; 170; 151; 162; 220; 171; 209; 162; 213; 139; 145; 238; 213; 128; 128; 208; 138; 128; 128; 128; 128; 128; 128; 128; 128; 132; 128; 196;
      128; 149; 162; 196; 170; 145; 128; 212; 170; 212; 128; 192; 138; 128; 128; 128; 128; 128; 128; 128; 128; 128; 128; 128; 128; 212; 136; 208; 138;
      213; 138; 144; 170; 197; 136; 145; 130; 196; 136; 143; 143; 142; 143; 159; 159; 159; 135; 145; 162; 196; 136; 145; 162; 196; 136; 145; 162; 212;
      170; 197; 128; 128; 128; 223; 187; 240; 255; 191; 186; 247; 139; 128; 128; 192; 170; 213; 170; 196; 136; 145; 162; 196; 136; 145; 162; 196; 136;
      128; 160; 132; 128; 128; 128; 128; 128; 128; 160; 212; 250; 128; 128; 136; 209; 170; 197; 168; 209; 162; 197; 168; 149; 162; 132; 128; 128; 215;
      138; 196; 136; 129; 128; 128; 136; 145; 162; 196; 128; 196; 136; 129; 162; 196; 136; 213; 170; 132; 170; 209; 138; 193; 138; 128; 128; 128; 128;
      128; 128; 128; 128; 128; 128; 128; 128; 212; 128; 213; 162; 133; 136; 213; 162; 196; 138; 144; 162; 197; 136; 204]);
  (53, [14; 128; 249; 249; 240; 176; 240; 145; 162; 196; 128; 128; 162; 196; 136; 145; 162; 212; 170; 197; 128; 128; 128; 128; 128; 211; 254; 221; 140; 128;
      128; 128; 128; 192; 168; 213; 162; 196; 136; 145; 162; 196; 136; 145; 162; 196; 136; 144; 162; 192; 128; 128; 128; 192; 136; 145; 162; 148; 170;
      245; 129; 128; 208; 130; 156; 168; 245; 170; 133; 152; 208; 170; 128; 192; 171; 149; 138; 128; 128; 128; 160; 128; 136; 128; 162; 128; 136; 196;
      168; 149; 130; 212; 170; 209; 170; 213; 136; 212; 168; 213; 138; 128; 128; 128; 128; 128; 128; 128; 128; 128; 128; 128; 128; 212; 170; 197; 162;
      212; 170; 213; 170; 133; 136; 209; 170; 196; 136; 131; 159; 157; 191; 253; 247; 221; 247; 129; 128; 128; 136; 145; 162; 196; 136; 145; 162; 213;
      170; 197; 128; 128; 128; 209; 170; 217; 238; 221; 169; 213; 136; 128; 128; 192; 168; 213; 170; 196; 136; 145; 162; 196; 136; 145; 162; 196; 128;
      128; 128; 132; 136; 129; 162; 192; 128; 128; 128; 212; 136; 212; 142; 128; 145; 128; 128; 128; 128; 128; 128; 128; 128; 162; 128; 220; 138; 208;
      170; 132; 128; 128; 128; 128; 128; 129; 128; 192; 136; 196; 168; 213; 170; 197; 128; 213; 170; 213; 170; 149; 130; 208; 138; 128; 128; 128; 128;
      128; 128; 128; 128; 128; 128; 128; 128; 212; 130; 144; 170; 213; 170; 149; 160; 196; 170; 149; 170; 213; 136; 159]);
  (54, [189; 191; 4; 159; 141; 159; 159; 192; 136; 145; 130; 196; 128; 144; 128; 132; 128; 128; 128; 128; 170; 213; 136; 129; 128; 128; 128; 128; 128; 128;
      160; 196; 170; 149; 128; 128; 128; 128; 128; 128; 136; 145; 162; 128; 128; 145; 162; 128; 128; 128; 128; 128; 128; 128; 128; 128; 128; 192; 170;
      213; 138; 128; 128; 196; 170; 213; 186; 215; 170; 149; 162; 128; 160; 213; 170; 213; 128; 145; 162; 196; 136; 145; 162; 196; 128; 128; 128; 128;
      128; 128; 128; 128; 128; 128; 128; 192; 170; 213; 162; 192; 142; 128; 128; 128; 128; 128; 128; 128; 128; 128; 128; 128; 128; 220; 128; 192; 170;
      213; 128; 128; 128; 128; 128; 128; 128; 128; 128; 240; 184; 254; 187; 252; 6; 240; 176; 196; 136; 145; 162; 192; 136; 128; 130; 196; 136; 145;
      130; 212; 170; 197; 136; 128; 128; 145; 162; 196; 136; 128; 128; 196; 168; 213; 170; 196; 136; 144; 162; 196; 136; 129; 160; 128; 136; 144; 162;
      128; 128; 128; 128; 128; 128; 128; 128; 128; 128; 212; 131; 128; 128; 128; 128; 128; 168; 213; 170; 213; 170; 129; 128; 128; 128; 128; 128; 240;
      138; 144; 162; 192; 136; 129; 128; 128; 128; 128; 128; 128; 128; 128; 128; 128; 128; 128; 136; 145; 130; 212; 162; 196; 142; 128; 128; 128; 132;
      220; 223; 223; 129; 130; 128; 128; 128; 220; 128; 192; 138; 144; 162; 133; 128; 128; 128; 128; 128; 128; 128; 128]);
  (55, [252; 187; 238; 240; 192; 44; 128; 196; 136; 145; 130; 128; 136; 129; 160; 196; 136; 145; 162; 213; 162; 132; 128; 192; 136; 213; 170; 213; 138; 145;
      130; 128; 128; 216; 170; 197; 136; 145; 162; 196; 136; 145; 130; 196; 136; 145; 130; 128; 128; 128; 128; 128; 128; 128; 128; 128; 128; 212; 131;
      128; 128; 128; 128; 128; 128; 128; 196; 136; 128; 128; 128; 128; 128; 128; 128; 240; 138; 128; 128; 128; 128; 128; 128; 128; 128; 128; 128; 128;
      128; 128; 160; 145; 130; 208; 136; 145; 130; 212; 130; 192; 142; 128; 128; 128; 144; 162; 196; 136; 145; 130; 128; 128; 128; 220; 160; 196; 138;
      148; 162; 148; 128; 145; 170; 129; 128; 128; 128; 248; 240; 224; 240; 240; 224; 224; 7; 132; 136; 144; 160; 196; 136; 145; 162; 192; 128; 128;
      170; 149; 162; 128; 128; 196; 170; 221; 255; 255; 174; 149; 162; 128; 140; 145; 170; 213; 136; 145; 162; 196; 136; 129; 130; 192; 136; 145; 162;
      128; 128; 128; 128; 128; 128; 128; 128; 128; 128; 212; 131; 128; 144; 130; 176; 192; 131; 160; 213; 171; 129; 176; 128; 131; 128; 128; 128; 240;
      138; 128; 128; 128; 128; 128; 128; 128; 128; 128; 128; 213; 162; 212; 136; 209; 162; 132; 136; 209; 138; 212; 162; 192; 142; 128; 128; 128; 145;
      170; 128; 128; 151; 162; 128; 128; 128; 220; 128; 192; 138; 149; 162; 132; 136; 149; 162; 212; 136; 145; 170; 249]);
  (56, [216; 177; 248; 176; 184; 184; 4; 196; 136; 144; 162; 196; 136; 129; 160; 196; 128; 209; 170; 149; 130; 128; 128; 196; 234; 255; 255; 255; 175; 149;
      162; 128; 128; 144; 170; 213; 136; 145; 162; 196; 136; 145; 162; 192; 128; 145; 160; 128; 128; 128; 128; 128; 128; 128; 128; 128; 128; 212; 131;
      128; 208; 234; 221; 170; 247; 170; 212; 170; 213; 174; 213; 187; 213; 130; 128; 240; 138; 128; 128; 128; 128; 128; 128; 128; 128; 128; 128; 145;
      130; 197; 136; 145; 162; 197; 128; 209; 170; 212; 130; 192; 142; 128; 128; 128; 128; 128; 128; 128; 128; 128; 128; 128; 128; 220; 128; 196; 138;
      213; 130; 196; 170; 145; 162; 196; 128; 145; 162; 248; 184; 236; 188; 232; 184; 240; 248; 196; 136; 145; 130; 196; 136; 145; 162; 196; 136; 209;
      170; 149; 130; 128; 240; 247; 142; 244; 131; 252; 200; 221; 191; 128; 128; 213; 170; 213; 136; 145; 162; 196; 136; 145; 162; 196; 136; 145; 162;
      128; 128; 128; 128; 128; 128; 128; 128; 128; 128; 212; 234; 129; 128; 162; 196; 170; 145; 160; 212; 138; 129; 162; 213; 136; 128; 128; 192; 215;
      138; 128; 128; 128; 128; 128; 128; 128; 128; 128; 128; 145; 162; 132; 136; 145; 170; 213; 138; 145; 168; 197; 170; 196; 142; 128; 128; 128; 128;
      128; 128; 128; 128; 128; 128; 128; 128; 220; 160; 213; 160; 133; 162; 213; 170; 149; 162; 192; 136; 149; 162; 177]);
  (57, [15; 128; 135; 129; 45; 128; 129; 196; 136; 145; 128; 128; 128; 144; 162; 196; 136; 209; 170; 145; 130; 128; 240; 255; 255; 211; 251; 215; 236; 255;
      255; 131; 128; 144; 162; 213; 138; 145; 162; 196; 136; 145; 162; 196; 136; 145; 162; 128; 128; 128; 128; 128; 128; 128; 128; 128; 128; 148; 168;
      213; 131; 128; 212; 136; 151; 170; 212; 139; 149; 170; 196; 170; 128; 224; 171; 149; 138; 128; 128; 128; 128; 128; 128; 128; 128; 128; 128; 145;
      162; 197; 136; 144; 170; 213; 170; 213; 162; 208; 168; 213; 142; 128; 128; 128; 128; 128; 128; 128; 128; 128; 128; 128; 128; 220; 170; 197; 128;
      209; 170; 213; 170; 129; 160; 212; 138; 145; 162; 255; 192; 49; 128; 255; 11; 128; 129; 128; 128; 128; 128; 128; 128; 128; 128; 128; 136; 213;
      170; 145; 130; 128; 128; 128; 128; 216; 186; 215; 129; 128; 160; 128; 128; 144; 162; 213; 170; 145; 162; 196; 136; 145; 162; 196; 136; 145; 128;
      128; 128; 128; 128; 128; 128; 128; 128; 128; 128; 212; 162; 208; 142; 128; 132; 128; 128; 128; 128; 128; 128; 128; 128; 136; 128; 220; 138; 196;
      138; 128; 128; 128; 128; 128; 128; 128; 128; 128; 128; 145; 170; 213; 170; 149; 130; 212; 170; 213; 170; 213; 136; 192; 142; 128; 128; 128; 128;
      128; 128; 128; 128; 128; 128; 128; 128; 220; 130; 196; 170; 213; 170; 133; 136; 209; 170; 213; 168; 209; 162; 131]);
  (58, [129; 129; 131; 159; 158; 19; 128; 145; 162; 196; 136; 128; 162; 196; 136; 129; 128; 128; 128; 128; 170; 213; 162; 128; 128; 128; 128; 128; 128; 128;
      128; 209; 170; 149; 128; 144; 128; 128; 128; 128; 128; 196; 128; 144; 162; 196; 136; 128; 136; 145; 160; 196; 136; 145; 162; 196; 136; 133; 170;
      213; 170; 133; 128; 209; 170; 213; 255; 223; 170; 213; 136; 208; 170; 213; 170; 133; 168; 196; 136; 145; 162; 196; 136; 145; 128; 128; 160; 128;
      128; 129; 128; 128; 128; 128; 128; 208; 138; 212; 136; 193; 142; 128; 128; 128; 128; 128; 128; 128; 128; 128; 128; 128; 128; 220; 128; 209; 138;
      212; 130; 128; 128; 128; 128; 128; 128; 128; 160; 143; 135; 135; 134; 135; 135; 131; 131; 144; 162; 196; 128; 129; 128; 192; 136; 145; 160; 196;
      136; 213; 170; 149; 130; 128; 160; 196; 136; 145; 162; 128; 128; 144; 170; 213; 138; 145; 162; 196; 136; 145; 130; 196; 128; 144; 162; 192; 136;
      128; 128; 144; 162; 196; 128; 145; 162; 196; 136; 213; 131; 128; 128; 128; 128; 128; 128; 128; 128; 128; 128; 128; 128; 128; 128; 128; 128; 240;
      138; 193; 136; 132; 128; 128; 128; 128; 128; 145; 128; 132; 128; 128; 128; 128; 128; 128; 168; 196; 128; 212; 136; 192; 142; 128; 128; 128; 212;
      138; 143; 143; 213; 130; 128; 128; 128; 220; 128; 209; 138; 192; 136; 133; 128; 128; 128; 128; 128; 128; 128; 222]);
  (59, [246; 254; 252; 252; 240; 240; 248; 128; 162; 196; 136; 145; 162; 196; 136; 145; 162; 132; 168; 213; 136; 129; 128; 144; 162; 213; 170; 213; 170; 196;
      128; 128; 128; 196; 170; 149; 162; 196; 136; 145; 162; 196; 128; 129; 162; 196; 136; 192; 136; 129; 162; 132; 136; 145; 162; 196; 136; 213; 131;
      128; 128; 128; 128; 128; 128; 128; 208; 130; 128; 128; 128; 128; 128; 128; 128; 240; 138; 129; 128; 132; 128; 128; 128; 196; 128; 128; 162; 128;
      128; 128; 168; 196; 136; 148; 162; 196; 138; 212; 136; 193; 138; 128; 128; 128; 196; 136; 145; 162; 196; 136; 128; 128; 128; 212; 136; 193; 138;
      212; 136; 209; 160; 196; 168; 133; 128; 128; 128; 255; 255; 247; 223; 246; 222; 252; 248; 128; 130; 192; 136; 145; 162; 196; 136; 145; 162; 132;
      170; 197; 136; 128; 128; 145; 170; 247; 255; 223; 171; 197; 136; 128; 132; 196; 168; 149; 130; 132; 128; 145; 162; 132; 128; 145; 128; 192; 136;
      192; 136; 145; 162; 196; 128; 144; 128; 196; 136; 213; 130; 128; 192; 136; 128; 255; 128; 168; 241; 162; 133; 192; 191; 128; 196; 128; 128; 208;
      138; 128; 128; 128; 128; 128; 128; 128; 128; 128; 160; 213; 136; 145; 162; 196; 136; 129; 162; 196; 138; 212; 128; 193; 142; 128; 128; 128; 196;
      138; 128; 128; 212; 136; 128; 128; 128; 220; 136; 209; 138; 213; 138; 129; 162; 212; 136; 209; 160; 196; 168; 248]);
  (60, [205; 205; 253; 140; 140; 20; 128; 145; 162; 196; 136; 145; 162; 132; 136; 145; 162; 196; 170; 197; 136; 128; 128; 209; 234; 255; 255; 255; 175; 213;
      136; 128; 128; 196; 168; 213; 162; 196; 136; 145; 130; 196; 136; 145; 130; 196; 136; 132; 136; 145; 162; 128; 128; 128; 128; 192; 136; 213; 130;
      128; 192; 170; 247; 234; 221; 170; 209; 162; 213; 186; 245; 175; 213; 136; 128; 208; 138; 128; 128; 132; 136; 128; 128; 128; 128; 144; 160; 196;
      136; 145; 162; 196; 168; 149; 130; 212; 170; 212; 136; 193; 138; 128; 128; 128; 128; 128; 128; 128; 128; 128; 128; 128; 128; 212; 136; 208; 138;
      213; 130; 209; 170; 196; 136; 145; 160; 196; 136; 143; 135; 135; 187; 255; 251; 207; 143; 145; 162; 196; 136; 145; 162; 196; 136; 145; 162; 132;
      170; 213; 170; 128; 252; 213; 131; 253; 252; 243; 131; 246; 254; 128; 175; 213; 170; 145; 160; 196; 136; 145; 162; 196; 136; 145; 162; 196; 136;
      128; 136; 128; 160; 128; 128; 144; 128; 132; 128; 212; 234; 131; 128; 128; 209; 170; 132; 136; 209; 162; 132; 136; 245; 162; 128; 128; 224; 213;
      138; 144; 128; 128; 128; 128; 160; 132; 136; 145; 160; 196; 136; 145; 160; 196; 168; 213; 170; 132; 168; 197; 170; 193; 138; 128; 128; 128; 128;
      128; 128; 128; 128; 128; 128; 128; 128; 212; 136; 213; 160; 197; 168; 213; 162; 213; 136; 144; 162; 196; 136; 196]);
  (61, [213; 213; 149; 196; 209; 212; 149; 145; 162; 132; 128; 192; 136; 193; 136; 145; 162; 212; 170; 197; 128; 128; 128; 209; 170; 212; 254; 221; 162; 213;
      136; 128; 128; 192; 168; 213; 162; 196; 136; 145; 162; 196; 136; 145; 162; 196; 136; 192; 136; 128; 160; 132; 136; 144; 162; 132; 128; 212; 168;
      213; 135; 128; 145; 130; 141; 136; 213; 170; 132; 184; 208; 162; 128; 240; 170; 133; 138; 128; 128; 128; 128; 128; 130; 192; 136; 128; 130; 196;
      168; 149; 162; 192; 170; 213; 170; 213; 138; 193; 168; 213; 138; 128; 128; 128; 128; 128; 128; 128; 128; 128; 128; 128; 128; 212; 170; 129; 160;
      212; 170; 213; 170; 128; 136; 213; 162; 196; 136; 135; 131; 129; 129; 8; 128; 131; 135; 128; 128; 128; 162; 192; 136; 145; 162; 196; 160; 213;
      170; 197; 128; 128; 128; 241; 255; 249; 238; 245; 249; 255; 136; 128; 128; 192; 168; 213; 170; 196; 136; 145; 162; 196; 136; 145; 162; 196; 160;
      128; 128; 144; 162; 196; 136; 128; 128; 128; 128; 212; 136; 208; 142; 128; 145; 128; 128; 128; 128; 128; 128; 128; 128; 160; 128; 220; 130; 208;
      138; 128; 128; 128; 128; 128; 128; 128; 128; 144; 162; 196; 168; 209; 170; 213; 136; 208; 170; 213; 170; 213; 162; 128; 138; 128; 128; 128; 128;
      128; 128; 128; 128; 128; 128; 128; 128; 212; 128; 209; 170; 213; 170; 129; 162; 212; 170; 213; 162; 197; 138; 135]);
  (62, [199; 231; 247; 255; 255; 239; 199; 196; 136; 145; 162; 132; 136; 128; 162; 132; 128; 128; 128; 192; 170; 213; 136; 129; 128; 128; 128; 128; 128; 128;
      160; 196; 170; 213; 160; 132; 128; 128; 160; 128; 136; 145; 128; 192; 136; 145; 162; 128; 128; 128; 128; 128; 128; 128; 128; 128; 128; 148; 168;
      145; 170; 253; 191; 196; 170; 253; 255; 255; 171; 149; 250; 255; 170; 145; 162; 129; 138; 145; 162; 196; 136; 145; 162; 132; 128; 128; 128; 128;
      128; 128; 128; 128; 128; 128; 128; 212; 130; 212; 130; 192; 142; 128; 128; 128; 128; 128; 128; 128; 128; 128; 128; 128; 128; 220; 160; 192; 138;
      208; 138; 128; 128; 128; 128; 128; 128; 128; 128; 152; 159; 159; 4; 128; 192; 184; 254; 128; 136; 145; 128; 192; 136; 129; 162; 192; 136; 128;
      130; 213; 170; 197; 128; 128; 136; 145; 162; 196; 136; 129; 128; 192; 168; 213; 170; 196; 136; 145; 160; 196; 136; 144; 162; 132; 128; 128; 162;
      128; 128; 128; 128; 128; 128; 128; 128; 128; 128; 212; 131; 128; 128; 128; 128; 128; 128; 128; 128; 128; 128; 128; 128; 128; 128; 128; 128; 240;
      138; 128; 130; 128; 128; 128; 128; 128; 128; 128; 128; 128; 128; 128; 128; 128; 170; 213; 138; 145; 130; 212; 130; 192; 142; 128; 128; 128; 212;
      170; 213; 170; 213; 130; 128; 128; 128; 220; 128; 196; 138; 144; 162; 212; 170; 149; 128; 128; 128; 128; 128; 7]);
  (63, [248; 240; 224; 224; 224; 240; 240; 132; 136; 145; 162; 196; 136; 145; 162; 196; 136; 145; 168; 213; 162; 128; 128; 192; 168; 213; 170; 213; 170; 145;
      130; 128; 128; 210; 170; 197; 136; 145; 162; 196; 136; 129; 128; 196; 136; 145; 162; 128; 128; 128; 128; 128; 128; 128; 128; 128; 128; 212; 131;
      128; 128; 128; 128; 128; 128; 128; 196; 136; 128; 128; 128; 128; 128; 128; 128; 240; 138; 128; 128; 128; 128; 128; 128; 128; 128; 128; 128; 128;
      128; 128; 136; 145; 130; 196; 136; 213; 130; 212; 130; 196; 142; 128; 128; 128; 128; 130; 128; 128; 144; 128; 128; 128; 128; 220; 128; 192; 138;
      212; 162; 196; 128; 145; 162; 133; 128; 128; 128; 129; 145; 145; 209; 0; 8; 145; 149; 192; 136; 145; 160; 132; 136; 129; 162; 196; 128; 144; 170;
      149; 162; 128; 128; 196; 170; 253; 255; 255; 174; 149; 162; 128; 130; 145; 170; 213; 136; 145; 160; 196; 128; 145; 162; 192; 136; 145; 128; 128;
      128; 128; 128; 128; 128; 128; 128; 128; 128; 212; 131; 128; 128; 162; 132; 128; 128; 162; 213; 171; 129; 128; 128; 136; 145; 130; 128; 240; 138;
      128; 128; 128; 128; 128; 128; 128; 128; 128; 128; 149; 162; 208; 136; 209; 170; 132; 136; 209; 138; 212; 162; 196; 142; 128; 128; 128; 145; 138;
      128; 128; 148; 162; 128; 128; 128; 220; 160; 192; 138; 149; 170; 192; 168; 145; 162; 196; 128; 145; 162; 170]);
  (64, [170; 0; 5; 162; 160; 170; 0; 196; 136; 145; 162; 196; 136; 145; 162; 192; 136; 209; 170; 149; 130; 128; 128; 196; 250; 255; 175; 255; 191; 149; 162;
      128; 128; 144; 170; 213; 136; 145; 162; 196; 136; 145; 162; 196; 128; 145; 162; 128; 128; 128; 128; 128; 128; 128; 128; 128; 128; 212; 131; 128;
      208; 234; 221; 170; 215; 162; 212; 138; 213; 238; 245; 171; 149; 130; 128; 240; 138; 128; 128; 128; 128; 128; 128; 128; 128; 128; 128; 145; 130;
      196; 136; 145; 162; 213; 136; 212; 170; 212; 130; 196; 142; 128; 128; 128; 128; 128; 128; 128; 128; 128; 128; 128; 128; 220; 128; 212; 138; 213;
      130; 212; 138; 145; 162; 132; 136; 145; 162; 162; 130; 0; 11; 128; 130; 170; 170; 196; 136; 145; 162; 196; 136; 145; 162; 196; 136; 145; 168;
      213; 234; 255; 191; 149; 160; 157; 251; 207; 139; 208; 250; 255; 171; 213; 130; 128; 138; 145; 162; 196; 136; 145; 162; 196; 136; 145; 162; 128;
      128; 128; 128; 128; 128; 128; 128; 128; 128; 212; 170; 135; 128; 160; 212; 138; 129; 162; 212; 138; 145; 160; 212; 139; 129; 128; 240; 213; 138;
      128; 128; 128; 128; 128; 128; 128; 128; 128; 128; 145; 170; 132; 136; 145; 170; 212; 170; 145; 160; 197; 170; 196; 142; 128; 128; 128; 128; 128;
      128; 128; 128; 128; 128; 128; 128; 220; 160; 213; 168; 129; 170; 213; 170; 145; 130; 196; 138; 145; 162; 128]);
  (65, [130; 160; 0; 9; 162; 160; 0; 196; 136; 129; 128; 128; 128; 128; 162; 196; 136; 209; 170; 145; 130; 128; 128; 128; 128; 214; 251; 215; 134; 128; 128;
      128; 128; 144; 162; 213; 138; 145; 162; 196; 136; 145; 162; 196; 136; 145; 162; 128; 128; 128; 128; 128; 128; 128; 128; 128; 128; 212; 160; 213;
      143; 128; 212; 128; 149; 162; 212; 138; 145; 170; 192; 138; 128; 248; 170; 197; 138; 128; 128; 128; 128; 128; 128; 128; 128; 128; 128; 145; 162;
      213; 136; 193; 162; 213; 170; 213; 170; 196; 160; 213; 142; 128; 128; 128; 128; 128; 128; 128; 128; 128; 128; 128; 128; 220; 170; 129; 136; 213;
      170; 213; 138; 128; 162; 213; 136; 145; 162; 213; 213; 213; 212; 197; 208; 128; 129; 128; 128; 128; 128; 128; 128; 128; 128; 128; 128; 213; 170;
      149; 130; 128; 128; 196; 170; 229; 187; 191; 170; 149; 162; 128; 128; 144; 170; 213; 170; 145; 162; 196; 136; 145; 162; 196; 136; 145; 128; 128;
      128; 128; 128; 128; 128; 128; 128; 128; 128; 212; 130; 192; 142; 128; 128; 128; 128; 128; 128; 128; 128; 128; 128; 136; 128; 220; 130; 196; 138;
      128; 128; 128; 128; 128; 128; 128; 128; 128; 128; 145; 162; 212; 170; 149; 162; 192; 170; 213; 170; 213; 138; 128; 142; 128; 128; 128; 128; 128;
      128; 128; 128; 128; 128; 128; 128; 156; 160; 212; 170; 213; 170; 192; 136; 213; 170; 197; 170; 209; 162; 132]);
  (66, [132; 196; 192; 196; 192; 128; 0; 145; 160; 196; 136; 145; 160; 128; 128; 144; 160; 132; 128; 193; 170; 213; 162; 128; 128; 128; 128; 128; 128; 128;
      128; 209; 170; 213; 136; 145; 160; 128; 136; 129; 162; 196; 136; 128; 128; 196; 136; 128; 162; 192; 136; 145; 162; 196; 136; 145; 162; 212; 128;
      197; 128; 213; 234; 255; 255; 255; 255; 255; 255; 255; 175; 213; 130; 192; 138; 192; 170; 196; 136; 145; 162; 196; 136; 129; 128; 192; 136; 144;
      130; 128; 128; 128; 128; 128; 128; 212; 128; 212; 128; 193; 142; 128; 128; 128; 128; 128; 128; 128; 128; 128; 128; 128; 128; 220; 136; 208; 138;
      192; 138; 128; 128; 128; 128; 128; 128; 128; 128; 136; 170; 168; 162; 170; 136; 136; 0; 145; 130; 192; 128; 128; 162; 196; 128; 128; 162; 196;
      128; 213; 170; 145; 130; 128; 160; 196; 170; 149; 162; 132; 128; 144; 162; 133; 170; 145; 160; 196; 136; 145; 162; 132; 128; 145; 128; 196; 136;
      128; 128; 196; 136; 145; 160; 196; 136; 145; 162; 212; 131; 128; 128; 128; 128; 128; 128; 128; 128; 128; 128; 128; 128; 128; 128; 128; 128; 240;
      170; 132; 136; 128; 160; 128; 128; 128; 160; 132; 128; 129; 128; 128; 128; 208; 170; 213; 170; 196; 128; 212; 136; 193; 142; 128; 128; 128; 212;
      170; 213; 170; 213; 130; 128; 128; 128; 220; 128; 209; 138; 196; 136; 213; 170; 213; 130; 128; 128; 128; 128; 192]);
  (67, [132; 192; 0; 5; 196; 192; 0; 128; 160; 196; 136; 145; 162; 196; 136; 145; 162; 132; 168; 213; 136; 128; 128; 144; 170; 213; 238; 221; 170; 197; 136;
      128; 128; 197; 170; 149; 162; 196; 136; 145; 162; 132; 136; 128; 162; 196; 136; 144; 162; 192; 136; 129; 162; 196; 136; 145; 162; 212; 130; 128;
      128; 192; 130; 128; 128; 128; 208; 130; 128; 128; 128; 208; 128; 128; 128; 208; 138; 196; 128; 128; 128; 128; 128; 128; 128; 192; 136; 128; 128;
      128; 162; 196; 136; 144; 162; 212; 138; 212; 136; 193; 142; 128; 128; 128; 192; 128; 128; 128; 192; 128; 128; 128; 128; 220; 128; 209; 138; 212;
      136; 193; 160; 196; 136; 149; 128; 128; 128; 128; 128; 128; 128; 128; 128; 128; 128; 144; 130; 196; 128; 145; 130; 132; 128; 145; 130; 128; 170;
      197; 136; 128; 128; 209; 170; 247; 255; 255; 171; 213; 136; 128; 129; 196; 168; 149; 130; 196; 128; 145; 162; 132; 136; 128; 160; 192; 136; 144;
      160; 196; 136; 129; 130; 196; 128; 129; 162; 212; 130; 128; 196; 138; 149; 128; 192; 168; 241; 162; 197; 128; 128; 170; 196; 136; 128; 208; 138;
      128; 128; 128; 128; 128; 128; 128; 128; 192; 136; 196; 136; 149; 162; 196; 168; 145; 160; 196; 138; 212; 128; 193; 138; 128; 128; 128; 196; 136;
      128; 128; 196; 136; 128; 128; 128; 212; 136; 208; 138; 213; 168; 144; 162; 197; 136; 209; 162; 196; 136; 128]);
  (68, [128; 128; 128; 128; 128; 128; 128; 145; 162; 196; 136; 145; 162; 196; 128; 145; 162; 212; 170; 197; 136; 128; 128; 209; 254; 255; 251; 253; 255; 213;
      136; 128; 128; 196; 168; 213; 162; 196; 136; 145; 162; 196; 136; 144; 162; 196; 136; 128; 160; 128; 128; 144; 128; 128; 128; 128; 160; 212; 134;
      128; 196; 168; 149; 174; 213; 168; 209; 162; 213; 186; 213; 170; 197; 128; 128; 208; 138; 128; 136; 145; 128; 128; 136; 144; 162; 128; 128; 196;
      136; 144; 162; 196; 168; 149; 162; 208; 170; 212; 138; 193; 138; 128; 128; 128; 128; 128; 128; 128; 128; 128; 128; 128; 128; 212; 128; 208; 138;
      213; 128; 209; 170; 196; 136; 145; 160; 196; 136; 128; 128; 128; 128; 128; 128; 128; 128; 145; 162; 196; 136; 145; 162; 196; 136; 145; 162; 148;
      160; 213; 170; 253; 175; 129; 168; 207; 254; 157; 175; 192; 234; 223; 170; 213; 128; 208; 162; 196; 136; 145; 162; 196; 136; 145; 162; 196; 136;
      128; 162; 132; 128; 128; 128; 128; 128; 144; 160; 212; 170; 143; 128; 136; 209; 170; 144; 168; 245; 170; 133; 128; 209; 162; 128; 128; 184; 213;
      138; 128; 128; 128; 160; 128; 136; 145; 160; 132; 136; 196; 138; 145; 160; 196; 136; 213; 170; 197; 160; 197; 170; 193; 138; 128; 128; 128; 128;
      128; 128; 128; 128; 128; 128; 128; 128; 212; 168; 213; 168; 193; 168; 149; 170; 197; 128; 145; 170; 196; 136; 128]);
  (69, [128; 128; 128; 128; 128; 128; 128; 145; 162; 128; 136; 128; 162; 196; 136; 145; 162; 212; 170; 197; 128; 128; 192; 255; 191; 212; 238; 221; 226; 255;
      255; 128; 128; 192; 168; 213; 162; 196; 136; 145; 162; 196; 136; 145; 162; 196; 136; 128; 162; 132; 136; 144; 130; 192; 136; 128; 128; 212; 160;
      213; 142; 128; 145; 162; 213; 128; 208; 130; 192; 170; 145; 162; 128; 252; 170; 193; 138; 128; 128; 128; 130; 128; 128; 145; 130; 192; 136; 196;
      136; 213; 162; 132; 170; 213; 170; 213; 170; 145; 160; 213; 138; 128; 128; 128; 128; 128; 128; 128; 128; 128; 128; 128; 128; 212; 170; 128; 162;
      213; 170; 213; 130; 192; 168; 213; 162; 196; 136; 128; 128; 128; 128; 128; 128; 128; 128; 144; 128; 192; 136; 144; 162; 196; 136; 145; 162; 213;
      170; 213; 128; 128; 128; 145; 128; 224; 255; 191; 128; 192; 136; 128; 128; 208; 168; 213; 170; 196; 136; 145; 162; 196; 136; 145; 162; 132; 128;
      128; 128; 128; 136; 129; 162; 128; 128; 128; 128; 212; 128; 193; 142; 128; 128; 128; 128; 128; 128; 128; 128; 128; 128; 160; 128; 220; 128; 209;
      138; 128; 128; 128; 128; 128; 128; 128; 128; 196; 136; 196; 170; 213; 170; 213; 136; 129; 170; 213; 170; 213; 170; 128; 128; 128; 128; 128; 128;
      128; 128; 128; 128; 128; 128; 128; 128; 128; 136; 213; 170; 213; 138; 144; 162; 213; 170; 213; 170; 197; 138; 128]);
  (70, [128; 128; 128; 128; 128; 128; 128; 196; 136; 145; 162; 192; 128; 145; 130; 196; 128; 129; 128; 208; 170; 213; 136; 128; 128; 128; 128; 128; 128; 128;
      128; 196; 170; 213; 130; 192; 128; 128; 128; 192; 136; 145; 130; 192; 128; 144; 162; 128; 128; 128; 128; 128; 128; 128; 128; 128; 128; 212; 131;
      208; 130; 128; 160; 213; 250; 255; 255; 255; 191; 213; 170; 128; 128; 208; 128; 240; 138; 145; 162; 196; 136; 129; 162; 128; 128; 128; 128; 128;
      128; 128; 128; 128; 128; 128; 128; 149; 130; 212; 128; 192; 142; 128; 128; 128; 128; 128; 240; 129; 128; 128; 128; 128; 128; 220; 128; 192; 138;
      144; 170; 128; 128; 128; 128; 128; 128; 128; 128; 128; 128; 128; 128; 128; 128; 128; 128; 192; 136; 144; 130; 128; 136; 128; 162; 128; 136; 145;
      162; 213; 170; 196; 128; 128; 136; 209; 170; 213; 136; 145; 128; 192; 136; 197; 170; 196; 136; 145; 162; 196; 136; 145; 160; 196; 136; 145; 162;
      128; 128; 128; 128; 128; 128; 128; 128; 128; 128; 212; 131; 128; 128; 128; 128; 128; 128; 128; 128; 128; 128; 128; 128; 128; 128; 128; 128; 240;
      138; 128; 128; 128; 128; 128; 128; 128; 128; 128; 128; 128; 128; 128; 128; 212; 170; 212; 138; 145; 130; 212; 162; 192; 142; 128; 128; 128; 208;
      234; 221; 187; 213; 128; 128; 128; 128; 220; 128; 196; 138; 208; 162; 196; 170; 213; 138; 128; 128; 128; 128; 128]);
  (71, [128; 128; 128; 128; 128; 128; 128; 128; 128; 144; 162; 196; 136; 145; 162; 196; 136; 145; 168; 149; 162; 128; 128; 196; 168; 213; 187; 247; 170; 145;
      130; 128; 192; 145; 170; 197; 136; 145; 162; 196; 136; 145; 162; 192; 136; 145; 162; 128; 128; 128; 128; 128; 128; 128; 128; 128; 128; 212; 131;
      128; 128; 192; 130; 128; 128; 128; 212; 138; 128; 128; 128; 208; 128; 128; 128; 240; 138; 128; 128; 128; 128; 128; 128; 128; 128; 128; 128; 128;
      128; 208; 138; 145; 162; 192; 136; 209; 130; 212; 130; 192; 142; 128; 128; 128; 128; 130; 128; 128; 144; 128; 128; 128; 128; 220; 160; 192; 138;
      213; 162; 132; 136; 145; 162; 212; 130; 128; 128; 128; 128; 128; 128; 128; 128; 128; 128; 196; 128; 144; 162; 132; 136; 144; 162; 196; 136; 145;
      170; 149; 130; 128; 128; 196; 234; 253; 255; 255; 174; 149; 162; 128; 128; 144; 170; 149; 136; 129; 162; 196; 136; 145; 162; 196; 128; 129; 162;
      128; 128; 128; 128; 128; 128; 128; 128; 128; 128; 212; 131; 128; 145; 170; 212; 128; 144; 174; 213; 171; 149; 130; 192; 138; 149; 130; 128; 240;
      138; 128; 128; 128; 128; 128; 128; 128; 128; 128; 128; 149; 162; 196; 136; 145; 170; 132; 136; 149; 170; 212; 130; 196; 142; 128; 128; 128; 144;
      130; 128; 128; 144; 130; 128; 128; 128; 220; 128; 196; 138; 213; 162; 192; 136; 145; 162; 196; 130; 144; 162; 128]);
  (72, [128; 128; 128; 128; 128; 128; 128; 196; 136; 145; 130; 196; 136; 145; 162; 192; 136; 213; 170; 145; 130; 128; 128; 196; 255; 255; 254; 247; 255; 151;
      162; 128; 128; 144; 162; 213; 138; 145; 162; 196; 128; 145; 160; 192; 136; 145; 130; 128; 128; 128; 128; 128; 128; 128; 128; 128; 128; 212; 142;
      128; 144; 170; 213; 187; 213; 170; 212; 138; 213; 234; 213; 170; 145; 130; 128; 248; 138; 128; 128; 128; 128; 128; 128; 128; 128; 128; 128; 145;
      162; 192; 136; 145; 162; 213; 136; 208; 170; 208; 130; 192; 142; 128; 128; 128; 128; 128; 128; 128; 128; 128; 128; 128; 128; 220; 128; 212; 130;
      213; 160; 212; 138; 145; 162; 132; 136; 145; 162; 128; 128; 128; 128; 128; 128; 128; 128; 196; 136; 145; 162; 196; 136; 145; 162; 196; 136; 209;
      128; 208; 170; 213; 170; 128; 128; 207; 251; 151; 143; 128; 168; 213; 170; 133; 160; 213; 138; 145; 162; 196; 136; 145; 162; 196; 136; 145; 162;
      128; 128; 128; 128; 128; 128; 128; 128; 128; 128; 212; 170; 157; 128; 128; 212; 138; 144; 170; 212; 139; 149; 130; 212; 138; 129; 128; 188; 213;
      138; 128; 128; 128; 128; 128; 128; 128; 128; 128; 128; 209; 162; 196; 128; 145; 170; 213; 170; 149; 162; 149; 170; 197; 142; 128; 128; 128; 128;
      128; 128; 128; 128; 128; 128; 128; 128; 220; 168; 149; 170; 144; 170; 213; 170; 213; 130; 196; 168; 145; 162; 128]);
  (73, [128; 128; 128; 128; 128; 128; 128; 196; 128; 128; 128; 128; 128; 128; 160; 196; 136; 209; 170; 145; 130; 128; 128; 196; 170; 214; 187; 215; 166; 149;
      162; 128; 128; 144; 162; 213; 138; 145; 162; 196; 136; 145; 162; 196; 136; 145; 162; 128; 128; 128; 128; 128; 128; 128; 128; 128; 128; 212; 130;
      213; 142; 128; 212; 128; 133; 128; 196; 136; 192; 170; 192; 136; 128; 220; 170; 193; 138; 128; 128; 128; 128; 128; 128; 128; 128; 128; 128; 145;
      162; 213; 138; 145; 168; 213; 170; 213; 170; 133; 128; 213; 142; 128; 128; 128; 128; 128; 128; 128; 128; 128; 128; 128; 128; 220; 170; 192; 168;
      213; 170; 213; 130; 144; 170; 213; 138; 145; 162; 128; 128; 128; 128; 128; 128; 128; 128; 128; 128; 128; 128; 128; 128; 128; 128; 128; 128; 213;
      170; 209; 138; 128; 128; 196; 226; 159; 254; 199; 191; 148; 162; 128; 160; 149; 162; 213; 170; 145; 162; 196; 136; 145; 162; 196; 136; 129; 128;
      128; 128; 128; 128; 128; 128; 128; 128; 128; 128; 212; 162; 196; 142; 128; 128; 128; 128; 128; 128; 128; 128; 128; 128; 128; 128; 220; 128; 192;
      138; 128; 128; 128; 128; 128; 128; 128; 128; 128; 128; 209; 170; 212; 170; 213; 162; 132; 170; 213; 170; 213; 170; 129; 128; 128; 128; 128; 128;
      128; 128; 128; 128; 128; 128; 128; 128; 128; 162; 213; 170; 213; 130; 196; 170; 213; 170; 213; 170; 149; 162; 128]);
  (74, [128; 128; 128; 128; 128; 128; 128; 144; 162; 196; 136; 145; 128; 196; 128; 144; 130; 192; 136; 208; 170; 149; 162; 128; 128; 192; 136; 145; 128; 128;
      128; 209; 170; 213; 138; 145; 128; 128; 136; 129; 162; 196; 136; 144; 160; 196; 136; 192; 128; 128; 162; 196; 128; 145; 162; 196; 136; 213; 131;
      128; 170; 128; 128; 209; 170; 253; 255; 255; 171; 213; 136; 128; 128; 149; 128; 240; 170; 196; 136; 145; 162; 196; 128; 129; 128; 128; 162; 196;
      128; 128; 128; 128; 128; 128; 128; 197; 128; 212; 136; 192; 142; 128; 128; 128; 128; 192; 255; 223; 128; 128; 128; 128; 128; 220; 136; 193; 138;
      192; 168; 129; 128; 128; 128; 128; 128; 128; 128; 128; 128; 128; 128; 128; 128; 128; 128; 145; 162; 132; 128; 145; 162; 196; 128; 145; 162; 196;
      168; 213; 138; 145; 128; 128; 162; 212; 170; 213; 162; 196; 128; 128; 162; 192; 170; 145; 162; 196; 136; 145; 162; 132; 136; 145; 162; 132; 136;
      128; 128; 145; 162; 132; 128; 145; 162; 196; 136; 213; 131; 128; 128; 128; 128; 128; 128; 128; 128; 128; 128; 128; 128; 128; 128; 128; 128; 240;
      138; 145; 130; 128; 128; 128; 128; 128; 128; 128; 160; 128; 128; 128; 128; 212; 138; 209; 162; 212; 128; 212; 136; 192; 138; 128; 128; 128; 192;
      170; 247; 174; 213; 128; 128; 128; 128; 212; 136; 208; 138; 212; 136; 149; 162; 212; 138; 128; 128; 128; 128; 128]);
  (75, [128; 128; 128; 128; 128; 128; 128; 129; 162; 196; 136; 145; 162; 196; 136; 145; 162; 128; 168; 213; 136; 128; 128; 144; 170; 245; 238; 221; 170; 197;
      136; 128; 160; 196; 170; 149; 162; 196; 136; 144; 162; 196; 128; 144; 162; 196; 136; 192; 136; 144; 162; 196; 136; 144; 162; 192; 136; 213; 131;
      128; 128; 192; 134; 132; 168; 128; 241; 162; 128; 133; 136; 216; 128; 128; 128; 240; 138; 145; 128; 128; 128; 128; 128; 128; 128; 144; 162; 128;
      160; 213; 162; 196; 136; 129; 162; 212; 138; 212; 128; 193; 138; 128; 128; 128; 192; 136; 128; 128; 196; 128; 128; 128; 128; 212; 128; 193; 138;
      213; 136; 145; 160; 196; 136; 209; 170; 129; 128; 128; 128; 128; 128; 128; 128; 128; 128; 145; 162; 196; 136; 145; 130; 196; 136; 145; 162; 132;
      170; 197; 136; 128; 128; 209; 170; 247; 255; 255; 187; 213; 136; 128; 128; 196; 168; 149; 162; 196; 136; 145; 162; 192; 136; 144; 160; 196; 136;
      132; 128; 145; 130; 128; 128; 128; 160; 128; 136; 213; 130; 128; 196; 186; 209; 162; 196; 171; 241; 162; 213; 136; 209; 226; 213; 136; 128; 208;
      138; 128; 128; 128; 128; 128; 128; 128; 136; 144; 162; 196; 128; 148; 162; 196; 138; 145; 160; 213; 170; 212; 136; 192; 138; 128; 128; 128; 192;
      128; 128; 128; 192; 128; 128; 128; 128; 212; 136; 209; 138; 197; 138; 144; 170; 196; 136; 145; 138; 196; 136; 128]);
  (76, [128; 128; 128; 128; 128; 128; 128; 145; 162; 196; 136; 144; 162; 196; 136; 145; 162; 212; 170; 197; 136; 128; 128; 241; 255; 223; 254; 215; 255; 223;
      136; 128; 128; 196; 168; 213; 170; 196; 136; 145; 162; 196; 136; 145; 162; 196; 136; 128; 136; 145; 128; 128; 128; 128; 128; 128; 136; 212; 158;
      128; 192; 168; 213; 174; 213; 170; 209; 162; 213; 170; 151; 170; 197; 128; 128; 220; 138; 144; 130; 132; 128; 128; 130; 132; 136; 145; 130; 196;
      136; 129; 162; 196; 136; 213; 162; 192; 170; 209; 138; 192; 138; 128; 128; 128; 128; 128; 128; 128; 128; 128; 128; 128; 128; 212; 136; 213; 162;
      149; 136; 213; 170; 196; 136; 129; 162; 196; 136; 128; 128; 128; 128; 128; 128; 128; 128; 145; 162; 196; 136; 129; 162; 196; 136; 145; 162; 212;
      138; 128; 160; 213; 138; 192; 255; 211; 254; 221; 252; 159; 160; 213; 128; 128; 168; 213; 162; 196; 136; 145; 162; 196; 136; 145; 162; 196; 136;
      192; 136; 129; 128; 128; 128; 128; 160; 192; 136; 213; 170; 189; 128; 128; 208; 162; 148; 168; 245; 170; 133; 138; 209; 138; 128; 128; 174; 213;
      138; 128; 160; 128; 136; 129; 160; 128; 136; 129; 160; 196; 168; 145; 130; 212; 138; 213; 170; 197; 136; 149; 170; 197; 138; 128; 128; 128; 128;
      128; 128; 128; 128; 128; 128; 128; 128; 212; 168; 149; 138; 196; 170; 213; 170; 213; 128; 145; 162; 196; 136; 128]);
  (77, [128; 128; 128; 128; 128; 128; 128; 145; 128; 128; 128; 192; 136; 145; 130; 145; 162; 212; 170; 197; 128; 128; 128; 128; 128; 214; 238; 221; 134; 128;
      128; 128; 128; 192; 168; 213; 162; 196; 136; 145; 162; 196; 136; 145; 162; 196; 136; 128; 136; 144; 162; 196; 136; 128; 130; 128; 128; 212; 136;
      213; 142; 128; 145; 160; 128; 128; 128; 128; 128; 136; 129; 170; 128; 220; 170; 208; 138; 128; 128; 128; 128; 128; 160; 132; 128; 128; 130; 196;
      136; 213; 170; 196; 160; 213; 170; 213; 170; 149; 128; 213; 138; 128; 128; 128; 128; 128; 128; 128; 128; 128; 128; 128; 128; 212; 138; 128; 170;
      213; 170; 213; 128; 196; 170; 149; 170; 196; 136; 128; 128; 128; 128; 128; 128; 128; 128; 128; 128; 145; 130; 196; 136; 145; 162; 196; 136; 213;
      170; 197; 168; 149; 128; 209; 138; 212; 252; 209; 130; 213; 136; 192; 170; 192; 168; 213; 170; 196; 136; 145; 162; 196; 136; 145; 162; 128; 128;
      128; 136; 145; 128; 128; 128; 128; 128; 128; 128; 212; 128; 193; 142; 128; 128; 128; 128; 128; 128; 128; 128; 128; 128; 128; 128; 220; 128; 192;
      138; 128; 128; 128; 128; 128; 128; 128; 128; 145; 162; 212; 136; 213; 170; 213; 138; 145; 168; 213; 170; 213; 170; 133; 128; 128; 128; 128; 128;
      128; 128; 128; 128; 128; 128; 128; 128; 192; 168; 213; 170; 213; 128; 209; 170; 213; 170; 213; 170; 212; 136; 128]);
  (78, [128; 128; 128; 128; 128; 128; 128; 192; 136; 129; 162; 132; 128; 128; 128; 192; 136; 145; 162; 212; 170; 213; 136; 128; 128; 144; 162; 196; 136; 128;
      128; 196; 170; 213; 162; 196; 136; 128; 128; 132; 136; 145; 130; 192; 128; 144; 162; 128; 128; 128; 128; 128; 128; 128; 128; 128; 128; 212; 131;
      128; 160; 213; 138; 196; 170; 245; 255; 255; 170; 149; 162; 212; 170; 129; 128; 240; 138; 145; 162; 196; 128; 145; 130; 128; 128; 128; 128; 128;
      128; 128; 128; 128; 128; 128; 128; 145; 130; 212; 160; 196; 142; 128; 128; 128; 192; 221; 223; 223; 155; 128; 128; 128; 128; 220; 128; 196; 138;
      144; 162; 129; 128; 128; 128; 128; 128; 128; 128; 128; 128; 128; 128; 128; 128; 128; 128; 196; 128; 145; 162; 192; 128; 145; 130; 196; 136; 145;
      162; 213; 162; 132; 128; 192; 136; 213; 170; 213; 138; 145; 128; 128; 136; 192; 170; 197; 136; 145; 162; 196; 136; 144; 162; 132; 136; 129; 162;
      128; 128; 128; 128; 128; 128; 128; 128; 128; 128; 212; 131; 128; 128; 128; 128; 128; 128; 128; 128; 128; 128; 128; 128; 128; 128; 128; 128; 240;
      138; 128; 128; 128; 128; 128; 128; 128; 128; 128; 128; 128; 128; 128; 128; 149; 130; 196; 136; 213; 130; 212; 130; 196; 142; 128; 128; 128; 144;
      162; 213; 170; 145; 130; 128; 128; 128; 220; 160; 192; 138; 148; 162; 212; 136; 209; 170; 128; 128; 128; 128; 128]);
  (79, [128; 128; 128; 128; 128; 128; 128; 192; 128; 144; 162; 196; 136; 145; 162; 196; 136; 144; 170; 149; 162; 128; 128; 196; 170; 221; 187; 247; 170; 149;
      130; 128; 176; 145; 170; 213; 136; 129; 162; 192; 136; 129; 162; 192; 128; 145; 162; 128; 128; 128; 128; 128; 128; 128; 128; 128; 128; 212; 131;
      128; 128; 128; 134; 142; 136; 128; 213; 171; 128; 132; 156; 152; 128; 128; 128; 240; 138; 128; 128; 128; 128; 128; 128; 128; 128; 128; 128; 192;
      170; 213; 136; 145; 162; 192; 136; 209; 138; 212; 130; 192; 142; 128; 128; 128; 144; 174; 128; 128; 151; 130; 128; 128; 128; 220; 128; 196; 138;
      149; 162; 132; 136; 145; 162; 212; 170; 213; 128; 128; 128; 128; 128; 128; 128; 128; 128; 196; 136; 144; 162; 132; 136; 145; 130; 196; 136; 144;
      170; 149; 130; 128; 128; 196; 234; 253; 255; 255; 174; 149; 162; 128; 128; 144; 170; 149; 128; 145; 162; 196; 136; 145; 162; 132; 136; 145; 130;
      128; 128; 128; 128; 128; 128; 128; 128; 128; 128; 212; 131; 128; 209; 234; 197; 136; 241; 174; 213; 171; 245; 162; 196; 184; 213; 130; 128; 240;
      138; 128; 128; 128; 128; 128; 128; 128; 128; 128; 128; 145; 160; 196; 136; 145; 162; 197; 160; 145; 170; 212; 162; 196; 142; 128; 128; 128; 128;
      128; 128; 128; 128; 128; 128; 128; 128; 220; 128; 192; 138; 209; 138; 196; 170; 145; 162; 196; 136; 145; 162; 128]);
  (80, [128; 128; 128; 128; 128; 128; 128; 192; 136; 145; 162; 192; 136; 145; 162; 196; 136; 213; 170; 145; 130; 128; 128; 252; 239; 211; 255; 223; 254; 253;
      162; 128; 128; 144; 162; 213; 138; 145; 162; 196; 136; 145; 162; 196; 136; 145; 130; 128; 128; 128; 128; 128; 128; 128; 128; 128; 128; 212; 186;
      128; 128; 162; 197; 171; 149; 162; 212; 138; 145; 170; 213; 136; 145; 128; 128; 222; 138; 128; 128; 128; 128; 128; 128; 128; 128; 128; 128; 145;
      162; 192; 136; 145; 162; 212; 138; 129; 170; 209; 170; 192; 142; 128; 128; 128; 128; 128; 128; 128; 128; 128; 128; 128; 128; 220; 128; 212; 162;
      149; 160; 213; 168; 209; 162; 192; 168; 145; 162; 128; 128; 128; 128; 128; 128; 128; 128; 196; 136; 145; 162; 128; 128; 145; 162; 196; 136; 209;
      170; 129; 128; 128; 128; 212; 170; 211; 251; 215; 172; 213; 130; 128; 128; 144; 162; 213; 138; 145; 162; 196; 136; 145; 162; 196; 136; 145; 162;
      128; 128; 128; 128; 128; 128; 128; 128; 128; 128; 212; 170; 245; 128; 128; 196; 136; 148; 170; 212; 139; 149; 138; 196; 138; 128; 128; 175; 213;
      138; 128; 128; 128; 128; 128; 128; 128; 128; 128; 128; 145; 170; 197; 128; 208; 162; 213; 170; 149; 130; 148; 170; 213; 142; 128; 128; 128; 128;
      128; 128; 128; 128; 128; 128; 128; 128; 220; 170; 149; 130; 209; 170; 213; 170; 149; 160; 212; 136; 145; 162; 128]);
  (81, [128; 128; 128; 128; 128; 128; 128; 132; 128; 128; 128; 128; 128; 128; 128; 196; 136; 213; 170; 145; 130; 128; 128; 254; 255; 217; 187; 215; 249; 255;
      175; 128; 128; 144; 162; 213; 138; 145; 162; 196; 136; 145; 162; 196; 136; 145; 130; 128; 128; 128; 128; 128; 128; 128; 128; 128; 128; 212; 130;
      212; 142; 128; 196; 128; 128; 128; 128; 128; 128; 128; 192; 136; 128; 220; 170; 196; 138; 128; 128; 128; 128; 128; 128; 128; 128; 128; 128; 145;
      162; 213; 170; 145; 128; 213; 170; 213; 170; 197; 128; 212; 142; 128; 128; 128; 128; 128; 128; 128; 128; 128; 128; 128; 128; 220; 138; 192; 170;
      213; 170; 149; 128; 209; 170; 213; 138; 149; 162; 128; 128; 128; 128; 128; 128; 128; 128; 128; 128; 128; 128; 128; 128; 128; 128; 128; 128; 212;
      170; 149; 130; 208; 174; 197; 170; 129; 128; 128; 168; 149; 170; 215; 128; 144; 170; 213; 138; 145; 162; 196; 136; 145; 162; 196; 136; 128; 128;
      128; 128; 128; 128; 128; 128; 128; 128; 128; 168; 213; 130; 192; 142; 128; 128; 128; 128; 128; 128; 128; 128; 128; 128; 128; 128; 220; 160; 196;
      170; 133; 128; 128; 128; 128; 128; 128; 128; 128; 128; 145; 170; 197; 170; 213; 170; 197; 160; 213; 170; 213; 170; 149; 128; 128; 128; 128; 128;
      128; 128; 128; 128; 128; 128; 128; 128; 128; 170; 213; 170; 149; 128; 213; 170; 213; 170; 213; 170; 149; 162; 128]);
  (82, [128; 128; 128; 128; 128; 128; 128]);
  (114, [0; 0; 0; 0; 0; 0; 0; 32; 200; 96; 173; 195; 96; 10; 170; 189; 98; 101; 133; 28; 189; 97; 101; 133; 27; 160; 1; 177; 27; 133; 7; 160; 0; 177; 27; 133;
      6; 189; 77; 101; 133; 8; 189; 78; 101; 133; 9; 32; 210; 96; 32; 105; 103; 206; 195; 96; 48; 3; 76; 3; 96; 169; 9; 141; 195; 96; 32; 167; 96; 32;
      167; 96; 173; 195; 96; 10; 170; 189; 98; 101; 133; 28; 189; 97; 101; 133; 27; 160; 1; 177; 27; 133; 7; 160; 0; 177; 27; 133; 6; 189; 77; 101;
      133; 8; 189; 78; 101; 133; 9; 32; 75; 97; 206; 195; 96; 48; 3; 76; 65; 96; 169; 9; 141; 195; 96; 173; 195; 96; 10; 170; 189; 98; 101; 133; 28;
      189; 97; 101; 133; 27; 160; 0; 177; 27; 24; 105; 2; 201; 132; 240; 10; 145; 27; 206; 195; 96; 48; 7; 76; 118; 96; 169; 0; 240; 242; 169; 9; 141;
      195; 96; 76; 3; 96; 96; 72; 138; 72; 152; 72; 160; 6; 162; 255; 234; 234; 234; 234; 234; 234; 234; 202; 208; 246; 136; 208; 241; 104; 168; 104;
      170; 104; 96; 9; 75; 79; 76; 0; 173; 80; 192; 173; 87; 192; 173; 88; 192; 96; 72; 138; 72; 152; 72; 160; 0; 169; 0; 72; 24; 104; 72; 101; 7; 170;
      189; 13; 99; 141; 20; 97; 141; 27; 97; 141; 34; 97; 141; 41; 97; 141; 48; 97; 141; 55; 97; 189; 205]);
  (115, [99; 141; 19; 97; 141; 26; 97; 141; 33; 97; 141; 40; 97; 141; 47; 97; 141; 54; 97; 166; 6; 189; 245; 97; 170; 189; 0; 32; 145; 8; 200; 232; 189; 0; 32;
      145; 8; 200; 232; 189; 0; 32; 145; 8; 200; 232; 189; 0; 32; 145; 8; 200; 232; 189; 0; 32; 145; 8; 200; 232; 189; 0; 32; 145; 8; 200; 104; 24;
      105; 1; 72; 192; 48; 208; 152; 104; 104; 168; 104; 170; 104; 96; 72; 138; 72; 152; 72; 160; 0; 169; 0; 72; 24; 104; 72; 101; 7; 170; 189; 13; 99;
      141; 143; 97; 141; 150; 97; 141; 157; 97; 141; 164; 97; 141; 171; 97; 141; 178; 97; 189; 205; 99; 141; 142; 97; 141; 149; 97; 141; 156; 97; 141;
      163; 97; 141; 170; 97; 141; 177; 97; 166; 6; 189; 245; 97; 170; 177; 8; 157; 0; 32; 200; 232; 177; 8; 157; 0; 32; 200; 232; 177; 8; 157; 0; 32;
      200; 232; 177; 8; 157; 0; 32; 200; 232; 177; 8; 157; 0; 32; 200; 232; 177; 8; 157; 0; 32; 200; 104; 24; 105; 1; 72; 192; 48; 208; 152; 104; 104;
      168; 104; 170; 104; 96; 162; 0; 72; 189; 13; 99; 141; 216; 97; 189; 205; 99; 141; 215; 97; 104; 160; 39; 153; 0; 32; 136; 16; 250; 232; 224; 192;
      208; 229; 96; 162; 63; 142; 235; 97; 160; 0; 153; 0; 32; 200; 208; 250; 202; 224; 31; 208; 240; 96]);
  (116, [0; 0; 0; 2; 2; 2; 2; 2; 2; 2; 4; 4; 4; 4; 4; 4; 4; 6; 6; 6; 6; 6; 6; 6; 8; 8; 8; 8; 8; 8; 8; 10; 10; 10; 10; 10; 10; 10; 12; 12; 12; 12; 12; 12; 12;
      14; 14; 14; 14; 14; 14; 14; 16; 16; 16; 16; 16; 16; 16; 18; 18; 18; 18; 18; 18; 18; 20; 20; 20; 20; 20; 20; 20; 22; 22; 22; 22; 22; 22; 22; 24;
      24; 24; 24; 24; 24; 24; 26; 26; 26; 26; 26; 26; 26; 28; 28; 28; 28; 28; 28; 28; 30; 30; 30; 30; 30; 30; 30; 32; 32; 32; 32; 32; 32; 32; 34; 34;
      34; 34; 34; 34; 34; 36; 36; 36; 36; 36; 36; 36; 38; 38; 38; 38; 38; 38; 38; 0; 2; 4; 6; 8; 10; 12; 0; 2; 4; 6; 8; 10; 12; 0; 2; 4; 6; 8; 10; 12;
      0; 2; 4; 6; 8; 10; 12; 0; 2; 4; 6; 8; 10; 12; 0; 2; 4; 6; 8; 10; 12; 0; 2; 4; 6; 8; 10; 12; 0; 2; 4; 6; 8; 10; 12; 0; 2; 4; 6; 8; 10; 12; 0; 2;
      4; 6; 8; 10; 12; 0; 2; 4; 6; 8; 10; 12; 0; 2; 4; 6; 8; 10; 12; 0; 2; 4; 6; 8; 10; 12; 0; 2; 4; 6; 8; 10; 12; 0; 2; 4; 6; 8; 10; 12; 0; 2; 4; 6;
      8; 10; 12; 0; 2; 4; 6; 8; 10; 12]);
  (117, [2; 4; 6; 8; 10; 12; 0; 2; 4; 6; 8; 10; 12; 0; 2; 4; 6; 8; 10; 12; 32; 36; 40; 44; 48; 52; 56; 60; 32; 36; 40; 44; 48; 52; 56; 60; 33; 37; 41; 45; 49;
      53; 57; 61; 33; 37; 41; 45; 49; 53; 57; 61; 34; 38; 42; 46; 50; 54; 58; 62; 34; 38; 42; 46; 50; 54; 58; 62; 35; 39; 43; 47; 51; 55; 59; 63; 35;
      39; 43; 47; 51; 55; 59; 63; 32; 36; 40; 44; 48; 52; 56; 60; 32; 36; 40; 44; 48; 52; 56; 60; 33; 37; 41; 45; 49; 53; 57; 61; 33; 37; 41; 45; 49;
      53; 57; 61; 34; 38; 42; 46; 50; 54; 58; 62; 34; 38; 42; 46; 50; 54; 58; 62; 35; 39; 43; 47; 51; 55; 59; 63; 35; 39; 43; 47; 51; 55; 59; 63; 32;
      36; 40; 44; 48; 52; 56; 60; 32; 36; 40; 44; 48; 52; 56; 60; 33; 37; 41; 45; 49; 53; 57; 61; 33; 37; 41; 45; 49; 53; 57; 61; 34; 38; 42; 46; 50;
      54; 58; 62; 34; 38; 42; 46; 50; 54; 58; 62; 35; 39; 43; 47; 51; 55; 59; 63; 35; 39; 43; 47; 51; 55; 59; 63; 0; 0; 0; 0; 0; 0; 0; 0; 128; 128;
      128; 128; 128; 128; 128; 128; 0; 0; 0; 0; 0; 0; 0; 0; 128; 128; 128; 128; 128; 128; 128; 128; 0; 0; 0; 0; 0; 0; 0; 0; 128; 128; 128; 128]);
  (118, [128; 128; 128; 128; 0; 0; 0; 0; 0; 0; 0; 0; 128; 128; 128; 128; 128; 128; 128; 128; 40; 40; 40; 40; 40; 40; 40; 40; 168; 168; 168; 168; 168; 168; 168;
      168; 40; 40; 40; 40; 40; 40; 40; 40; 168; 168; 168; 168; 168; 168; 168; 168; 40; 40; 40; 40; 40; 40; 40; 40; 168; 168; 168; 168; 168; 168; 168;
      168; 40; 40; 40; 40; 40; 40; 40; 40; 168; 168; 168; 168; 168; 168; 168; 168; 80; 80; 80; 80; 80; 80; 80; 80; 208; 208; 208; 208; 208; 208; 208;
      208; 80; 80; 80; 80; 80; 80; 80; 80; 208; 208; 208; 208; 208; 208; 208; 208; 80; 80; 80; 80; 80; 80; 80; 80; 208; 208; 208; 208; 208; 208; 208;
      208; 80; 80; 80; 80; 80; 80; 80; 80; 208; 208; 208; 208; 208; 208; 208; 208; 64; 68; 72; 76; 80; 84; 88; 92; 64; 68; 72; 76; 80; 84; 88; 92; 65;
      69; 73; 77; 81; 85; 89; 93; 65; 69; 73; 77; 81; 85; 89; 93; 66; 70; 74; 78; 82; 86; 90; 94; 66; 70; 74; 78; 82; 86; 90; 94; 67; 71; 75; 79; 83;
      87; 91; 95; 67; 71; 75; 79; 83; 87; 91; 95; 64; 68; 72; 76; 80; 84; 88; 92; 64; 68; 72; 76; 80; 84; 88; 92; 65; 69; 73; 77; 81; 85; 89; 93; 65;
      69; 73; 77; 81; 85; 89; 93; 66; 70; 74; 78; 82; 86; 90; 94; 66; 70; 74; 78]);
  (119, [82; 86; 90; 94; 67; 71; 75; 79; 83; 87; 91; 95; 67; 71; 75; 79; 83; 87; 91; 95; 64; 68; 72; 76; 80; 84; 88; 92; 64; 68; 72; 76; 80; 84; 88; 92; 65; 69;
      73; 77; 81; 85; 89; 93; 65; 69; 73; 77; 81; 85; 89; 93; 66; 70; 74; 78; 82; 86; 90; 94; 66; 70; 74; 78; 82; 86; 90; 94; 67; 71; 75; 79; 83; 87;
      91; 95; 67; 71; 75; 79; 83; 87; 91; 95; 137; 101; 185; 101; 233; 101; 25; 102; 73; 102; 121; 102; 169; 102; 217; 102; 9; 103; 57; 103; 117; 101;
      119; 101; 121; 101; 123; 101; 125; 101; 127; 101; 129; 101; 131; 101; 133; 101; 135; 101; 0; 0; 0; 10; 0; 20; 0; 30; 0; 40; 0; 50; 0; 60; 0; 70;
      0; 80; 0; 90]);
  (121, [0; 0; 0; 0; 0; 0; 0; 0; 0; 0; 0; 0; 0; 0; 0; 0; 0; 0; 0; 0; 0; 0; 0; 0; 0; 0; 0; 0; 0; 0; 0; 0; 0; 0; 0; 0; 0; 0; 0; 0; 0; 0; 0; 0; 0; 0; 0; 0; 0; 0;
      0; 0; 0; 0; 0; 0; 0; 0; 0; 0; 0; 0; 0; 0; 0; 0; 0; 0; 0; 0; 0; 0; 0; 0; 0; 0; 0; 0; 0; 0; 0; 0; 0; 0; 0; 0; 0; 0; 0; 0; 0; 0; 0; 0; 0; 0; 0; 0;
      0; 0; 0; 0; 0; 0; 0; 0; 0; 0; 0; 0; 0; 0; 72; 138; 72; 152; 72; 164; 6; 190; 129; 98; 189; 125; 103; 72; 189; 124; 103; 72; 96; 137; 103; 152;
      104; 167; 105; 182; 106; 197; 107; 212; 108; 227; 109; 166; 7; 189; 13; 99; 133; 26; 189; 205; 99; 133; 25; 164; 6; 185; 245; 97; 168; 169; 85;
      145; 25; 200; 169; 42; 145; 25; 200; 169; 1; 145; 25; 200; 200; 200; 232; 189; 13; 99; 133; 26; 189; 205; 99; 133; 25; 164; 6; 185; 245; 97; 168;
      169; 1; 145; 25; 200; 200; 169; 1; 145; 25; 200; 200; 200; 232; 189; 13; 99; 133; 26; 189; 205; 99; 133; 25; 164; 6; 185; 245; 97; 168; 169; 81;
      145; 25; 200; 169; 10; 145; 25; 200; 169; 1; 145; 25; 200; 200; 200; 232; 189; 13; 99; 133; 26; 189; 205; 99; 133; 25; 164]);
  (122, [6; 185; 245; 97; 168; 169; 17; 145; 25; 200; 169; 8; 145; 25; 200; 169; 1; 145; 25; 200; 200; 200; 232; 189; 13; 99; 133; 26; 189; 205; 99; 133; 25;
      164; 6; 185; 245; 97; 168; 169; 17; 145; 25; 200; 169; 8; 145; 25; 200; 169; 1; 145; 25; 200; 200; 200; 232; 189; 13; 99; 133; 26; 189; 205; 99;
      133; 25; 164; 6; 185; 245; 97; 168; 169; 81; 145; 25; 200; 169; 10; 145; 25; 200; 169; 1; 145; 25; 200; 200; 200; 232; 189; 13; 99; 133; 26; 189;
      205; 99; 133; 25; 164; 6; 185; 245; 97; 168; 169; 1; 145; 25; 200; 200; 169; 1; 145; 25; 200; 200; 200; 232; 189; 13; 99; 133; 26; 189; 205; 99;
      133; 25; 164; 6; 185; 245; 97; 168; 169; 85; 145; 25; 200; 169; 42; 145; 25; 200; 169; 1; 145; 25; 200; 200; 200; 104; 168; 104; 170; 104; 96;
      166; 7; 189; 13; 99; 133; 26; 189; 205; 99; 133; 25; 164; 6; 185; 245; 97; 168; 169; 84; 145; 25; 200; 169; 42; 145; 25; 200; 169; 5; 145; 25;
      200; 200; 200; 232; 189; 13; 99; 133; 26; 189; 205; 99; 133; 25; 164; 6; 185; 245; 97; 168; 169; 4; 145; 25; 200; 200; 169; 4; 145; 25; 200; 200;
      200; 232; 189; 13; 99; 133; 26; 189; 205; 99; 133; 25; 164; 6; 185; 245; 97; 168; 169; 68; 145; 25; 200; 169; 42; 145; 25; 200; 169; 4; 145; 25]);
  (123, [200; 200; 200; 232; 189; 13; 99; 133; 26; 189; 205; 99; 133; 25; 164; 6; 185; 245; 97; 168; 169; 68; 145; 25; 200; 169; 32; 145; 25; 200; 169; 4; 145;
      25; 200; 200; 200; 232; 189; 13; 99; 133; 26; 189; 205; 99; 133; 25; 164; 6; 185; 245; 97; 168; 169; 68; 145; 25; 200; 169; 32; 145; 25; 200;
      169; 4; 145; 25; 200; 200; 200; 232; 189; 13; 99; 133; 26; 189; 205; 99; 133; 25; 164; 6; 185; 245; 97; 168; 169; 68; 145; 25; 200; 169; 42; 145;
      25; 200; 169; 4; 145; 25; 200; 200; 200; 232; 189; 13; 99; 133; 26; 189; 205; 99; 133; 25; 164; 6; 185; 245; 97; 168; 169; 4; 145; 25; 200; 200;
      169; 4; 145; 25; 200; 200; 200; 232; 189; 13; 99; 133; 26; 189; 205; 99; 133; 25; 164; 6; 185; 245; 97; 168; 169; 84; 145; 25; 200; 169; 42; 145;
      25; 200; 169; 5; 145; 25; 200; 200; 200; 104; 168; 104; 170; 104; 96; 166; 7; 189; 13; 99; 133; 26; 189; 205; 99; 133; 25; 164; 6; 185; 245; 97;
      168; 169; 80; 145; 25; 200; 169; 42; 145; 25; 200; 169; 21; 145; 25; 200; 200; 200; 232; 189; 13; 99; 133; 26; 189; 205; 99; 133; 25; 164; 6;
      185; 245; 97; 168; 169; 16; 145; 25; 200; 200; 169; 16; 145; 25; 200; 200; 200; 232; 189; 13; 99; 133; 26; 189; 205; 99; 133; 25; 164; 6; 185;
      245; 97]);
  (124, [168; 169; 16; 145; 25; 200; 169; 42; 145; 25; 200; 169; 17; 145; 25; 200; 200; 200; 232; 189; 13; 99; 133; 26; 189; 205; 99; 133; 25; 164; 6; 185; 245;
      97; 168; 169; 16; 145; 25; 200; 169; 2; 145; 25; 200; 169; 17; 145; 25; 200; 200; 200; 232; 189; 13; 99; 133; 26; 189; 205; 99; 133; 25; 164; 6;
      185; 245; 97; 168; 169; 16; 145; 25; 200; 169; 2; 145; 25; 200; 169; 17; 145; 25; 200; 200; 200; 232; 189; 13; 99; 133; 26; 189; 205; 99; 133;
      25; 164; 6; 185; 245; 97; 168; 169; 16; 145; 25; 200; 169; 42; 145; 25; 200; 169; 17; 145; 25; 200; 200; 200; 232; 189; 13; 99; 133; 26; 189;
      205; 99; 133; 25; 164; 6; 185; 245; 97; 168; 169; 16; 145; 25; 200; 200; 169; 16; 145; 25; 200; 200; 200; 232; 189; 13; 99; 133; 26; 189; 205;
      99; 133; 25; 164; 6; 185; 245; 97; 168; 169; 80; 145; 25; 200; 169; 42; 145; 25; 200; 169; 21; 145; 25; 200; 200; 200; 104; 168; 104; 170; 104;
      96; 166; 7; 189; 13; 99; 133; 26; 189; 205; 99; 133; 25; 164; 6; 185; 245; 97; 168; 169; 64; 145; 25; 200; 169; 42; 145; 25; 200; 169; 85; 145;
      25; 200; 200; 200; 232; 189; 13; 99; 133; 26; 189; 205; 99; 133; 25; 164; 6; 185; 245; 97; 168; 169; 64; 145; 25; 200; 200; 169; 64; 145; 25;
      200; 200; 200; 232]);
  (125, [189; 13; 99; 133; 26; 189; 205; 99; 133; 25; 164; 6; 185; 245; 97; 168; 169; 64; 145; 25; 200; 169; 40; 145; 25; 200; 169; 69; 145; 25; 200; 200; 200;
      232; 189; 13; 99; 133; 26; 189; 205; 99; 133; 25; 164; 6; 185; 245; 97; 168; 169; 64; 145; 25; 200; 169; 8; 145; 25; 200; 169; 68; 145; 25; 200;
      200; 200; 232; 189; 13; 99; 133; 26; 189; 205; 99; 133; 25; 164; 6; 185; 245; 97; 168; 169; 64; 145; 25; 200; 169; 8; 145; 25; 200; 169; 68; 145;
      25; 200; 200; 200; 232; 189; 13; 99; 133; 26; 189; 205; 99; 133; 25; 164; 6; 185; 245; 97; 168; 169; 64; 145; 25; 200; 169; 40; 145; 25; 200;
      169; 69; 145; 25; 200; 200; 200; 232; 189; 13; 99; 133; 26; 189; 205; 99; 133; 25; 164; 6; 185; 245; 97; 168; 169; 64; 145; 25; 200; 200; 169;
      64; 145; 25; 200; 200; 200; 232; 189; 13; 99; 133; 26; 189; 205; 99; 133; 25; 164; 6; 185; 245; 97; 168; 169; 64; 145; 25; 200; 169; 42; 145; 25;
      200; 169; 85; 145; 25; 200; 200; 200; 104; 168; 104; 170; 104; 96; 166; 7; 189; 13; 99; 133; 26; 189; 205; 99; 133; 25; 164; 6; 185; 245; 97;
      168; 200; 169; 42; 145; 25; 200; 169; 85; 145; 25; 200; 169; 2; 145; 25; 200; 200; 232; 189; 13; 99; 133; 26; 189; 205; 99; 133; 25; 164; 6; 185;
      245; 97]);
  (126, [168; 200; 169; 2; 145; 25; 200; 200; 169; 2; 145; 25; 200; 200; 232; 189; 13; 99; 133; 26; 189; 205; 99; 133; 25; 164; 6; 185; 245; 97; 168; 200; 169;
      34; 145; 25; 200; 169; 21; 145; 25; 200; 169; 2; 145; 25; 200; 200; 232; 189; 13; 99; 133; 26; 189; 205; 99; 133; 25; 164; 6; 185; 245; 97; 168;
      200; 169; 34; 145; 25; 200; 169; 16; 145; 25; 200; 169; 2; 145; 25; 200; 200; 232; 189; 13; 99; 133; 26; 189; 205; 99; 133; 25; 164; 6; 185; 245;
      97; 168; 200; 169; 34; 145; 25; 200; 169; 16; 145; 25; 200; 169; 2; 145; 25; 200; 200; 232; 189; 13; 99; 133; 26; 189; 205; 99; 133; 25; 164; 6;
      185; 245; 97; 168; 200; 169; 34; 145; 25; 200; 169; 21; 145; 25; 200; 169; 2; 145; 25; 200; 200; 232; 189; 13; 99; 133; 26; 189; 205; 99; 133;
      25; 164; 6; 185; 245; 97; 168; 200; 169; 2; 145; 25; 200; 200; 169; 2; 145; 25; 200; 200; 232; 189; 13; 99; 133; 26; 189; 205; 99; 133; 25; 164;
      6; 185; 245; 97; 168; 200; 169; 42; 145; 25; 200; 169; 85; 145; 25; 200; 169; 2; 145; 25; 200; 200; 104; 168; 104; 170; 104; 96; 166; 7; 189; 13;
      99; 133; 26; 189; 205; 99; 133; 25; 164; 6; 185; 245; 97; 168; 200; 169; 40; 145; 25; 200; 169; 85; 145; 25; 200; 169; 10; 145; 25; 200; 200;
      232]);
  (127, [189; 13; 99; 133; 26; 189; 205; 99; 133; 25; 164; 6; 185; 245; 97; 168; 200; 169; 8; 145; 25; 200; 200; 169; 8; 145; 25; 200; 200; 232; 189; 13; 99;
      133; 26; 189; 205; 99; 133; 25; 164; 6; 185; 245; 97; 168; 200; 169; 8; 145; 25; 200; 169; 85; 145; 25; 200; 169; 8; 145; 25; 200; 200; 232; 189;
      13; 99; 133; 26; 189; 205; 99; 133; 25; 164; 6; 185; 245; 97; 168; 200; 169; 8; 145; 25; 200; 169; 65; 145; 25; 200; 169; 8; 145; 25; 200; 200;
      232; 189; 13; 99; 133; 26; 189; 205; 99; 133; 25; 164; 6; 185; 245; 97; 168; 200; 169; 8; 145; 25; 200; 169; 65; 145; 25; 200; 169; 8; 145; 25;
      200; 200; 232; 189; 13; 99; 133; 26; 189; 205; 99; 133; 25; 164; 6; 185; 245; 97; 168; 200; 169; 8; 145; 25; 200; 169; 85; 145; 25; 200; 169; 8;
      145; 25; 200; 200; 232; 189; 13; 99; 133; 26; 189; 205; 99; 133; 25; 164; 6; 185; 245; 97; 168; 200; 169; 8; 145; 25; 200; 200; 169; 8; 145; 25;
      200; 200; 232; 189; 13; 99; 133; 26; 189; 205; 99; 133; 25; 164; 6; 185; 245; 97; 168; 200; 169; 40; 145; 25; 200; 169; 85; 145; 25; 200; 169;
      10; 145; 25; 200; 200; 104; 168; 104; 170; 104; 96; 166; 7; 189; 13; 99; 133; 26; 189; 205; 99; 133; 25; 164; 6; 185; 245; 97; 168; 200; 169; 32]);
  (128, [145; 25; 200; 169; 85; 145; 25; 200; 169; 42; 145; 25; 200; 200; 232; 189; 13; 99; 133; 26; 189; 205; 99; 133; 25; 164; 6; 185; 245; 97; 168; 200; 169;
      32; 145; 25; 200; 200; 169; 32; 145; 25; 200; 200; 232; 189; 13; 99; 133; 26; 189; 205; 99; 133; 25; 164; 6; 185; 245; 97; 168; 200; 169; 32;
      145; 25; 200; 169; 84; 145; 25; 200; 169; 34; 145; 25; 200; 200; 232; 189; 13; 99; 133; 26; 189; 205; 99; 133; 25; 164; 6; 185; 245; 97; 168;
      200; 169; 32; 145; 25; 200; 169; 4; 145; 25; 200; 169; 34; 145; 25; 200; 200; 232; 189; 13; 99; 133; 26; 189; 205; 99; 133; 25; 164; 6; 185; 245;
      97; 168; 200; 169; 32; 145; 25; 200; 169; 4; 145; 25; 200; 169; 34; 145; 25; 200; 200; 232; 189; 13; 99; 133; 26; 189; 205; 99; 133; 25; 164; 6;
      185; 245; 97; 168; 200; 169; 32; 145; 25; 200; 169; 84; 145; 25; 200; 169; 34; 145; 25; 200; 200; 232; 189; 13; 99; 133; 26; 189; 205; 99; 133;
      25; 164; 6; 185; 245; 97; 168; 200; 169; 32; 145; 25; 200; 200; 169; 32; 145; 25; 200; 200; 232; 189; 13; 99; 133; 26; 189; 205; 99; 133; 25;
      164; 6; 185; 245; 97; 168; 200; 169; 32; 145; 25; 200; 169; 85; 145; 25; 200; 169; 42; 145; 25; 200; 200; 104; 168; 104; 170; 104; 96]);
  (129, [0; 0; 0; 0; 0; 0; 0; 0; 0; 0; 0; 0; 3; 2; 3; 3; 3; 4; 3; 5; 3; 6; 3; 7; 3; 8; 3; 9; 3; 10; 3; 11; 3; 12; 3; 13; 3; 14; 3; 15; 4; 0; 4; 1; 4; 2; 4; 3;
      4; 4; 4; 5; 4; 6; 4; 7; 4; 8; 4; 9; 4; 10; 4; 11; 4; 12; 4; 13; 4; 14; 4; 15; 5; 0; 5; 1; 5; 2; 5; 3; 5; 4; 5; 5; 5; 6; 5; 7; 5; 8; 5; 9; 5; 10;
      5; 11; 5; 12; 5; 13; 5; 14; 5; 15; 6; 0; 6; 1; 6; 2; 6; 3; 6; 4; 6; 5; 6; 6; 6; 7; 6; 8; 6; 9; 6; 10; 6; 11; 6; 12; 6; 13; 6; 14; 6; 15; 7; 0; 7;
      1; 7; 2; 7; 3; 7; 4; 7; 5; 7; 6; 7; 7; 7; 8; 7; 9; 7; 10; 7; 11; 7; 12; 7; 13; 7; 14; 7; 15; 8]);
  (272, [4; 17; 15; 3; 0; 0; 1; 0; 0; 0; 0; 0; 0; 0; 0; 0; 0; 0; 0; 0; 0; 0; 0; 0; 0; 0; 0; 0; 0; 0; 0; 0; 0; 0; 0; 0; 0; 0; 0; 122; 0; 0; 0; 0; 0; 0; 0; 0; 11;
      255; 0; 0; 35; 16; 0; 1; 0; 0; 0; 0; 0; 0; 0; 0; 0; 0; 0; 0; 255; 252; 0; 0; 255; 255; 0; 0; 255; 255; 0; 0; 255; 255; 0; 0; 255; 255; 0; 0; 255;
      255; 0; 0; 255; 255; 0; 0; 255; 255; 0; 0; 255; 255; 0; 0; 255; 255; 0; 0; 255; 255; 0; 0; 255; 255; 0; 0; 255; 255; 0; 0; 255; 255; 0; 0; 0; 0;
      0; 0; 255; 255; 0; 0; 255; 255; 0; 0; 255; 255; 0; 0; 255; 255; 0; 0; 255; 255; 0; 0; 255; 255; 0; 0; 255; 255; 0; 0; 255; 255; 0; 0; 255; 255;
      0; 0; 255; 255; 0; 0; 255; 255; 0; 0; 255; 255; 0; 0; 255; 255; 0; 0; 255; 255; 0; 0; 255; 255; 0; 0; 255; 255; 0; 0; 255; 255]);
  (274, [0; 17; 1]);
  (275, [0; 17; 2]);
  (276, [0; 17; 3]);
  (277, [0; 17; 4]);
  (278, [0; 17; 5]);
  (279, [0; 17; 6]);
  (280, [0; 17; 7]);
  (281, [0; 17; 8]);
  (282, [0; 17; 9]);
  (283, [0; 17; 10]);
  (284, [0; 17; 11]);
  (285, [0; 17; 12]);
  (286, [0; 17; 13]);
  (287, [0; 17; 14; 0; 0; 0; 0; 0; 0; 0; 0; 3; 1; 2; 200; 197; 204; 204; 207; 160; 160; 160; 160; 160; 160; 160; 160; 160; 160; 160; 160; 160; 160; 160; 160;
      160; 160; 160; 160; 160; 160; 160; 160; 160; 2; 0; 255; 1; 255; 199; 193; 205; 197; 160; 160; 160; 160; 160; 160; 160; 160; 160; 160; 160; 160;
      160; 160; 160; 160; 160; 160; 160; 160; 160; 160; 160; 160; 160; 8; 80])].
Definition dos33_autobrun : list Z := disk_of (tsec 256 dos33_autobrun_tab).
