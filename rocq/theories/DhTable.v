(* DhTable.v - the built-in Diffie-Hellman groups; generated by
   tools/gen_groups.py from src/internal.c 5735-5880. *)
From Verif Require Import Base.
From Coq Require Import List NArith.
Import ListNotations.
Open Scope N_scope.

(* src/internal.c:5738-5738 *)
Definition dhGenerator : bytes :=
  [
   2].

(* src/internal.c:5743-5761 *)
Definition dhPrimeGroup1 : bytes :=
  [
   255; 255; 255; 255; 255; 255; 255; 255; 201; 15; 218; 162; 33; 104; 194; 52;
   196; 198; 98; 139; 128; 220; 28; 209; 41; 2; 78; 8; 138; 103; 204; 116;
   2; 11; 190; 166; 59; 19; 155; 34; 81; 74; 8; 121; 142; 52; 4; 221;
   239; 149; 25; 179; 205; 58; 67; 27; 48; 43; 10; 109; 242; 95; 20; 55;
   79; 225; 53; 109; 109; 81; 194; 69; 228; 133; 181; 118; 98; 94; 126; 198;
   244; 76; 66; 233; 166; 55; 237; 107; 11; 255; 92; 182; 244; 6; 183; 237;
   238; 56; 107; 251; 90; 137; 159; 165; 174; 159; 36; 17; 124; 75; 31; 230;
   73; 40; 102; 81; 236; 230; 83; 129; 255; 255; 255; 255; 255; 255; 255; 255].

(* src/internal.c:5768-5802 *)
Definition dhPrimeGroup14 : bytes :=
  [
   255; 255; 255; 255; 255; 255; 255; 255; 201; 15; 218; 162; 33; 104; 194; 52;
   196; 198; 98; 139; 128; 220; 28; 209; 41; 2; 78; 8; 138; 103; 204; 116;
   2; 11; 190; 166; 59; 19; 155; 34; 81; 74; 8; 121; 142; 52; 4; 221;
   239; 149; 25; 179; 205; 58; 67; 27; 48; 43; 10; 109; 242; 95; 20; 55;
   79; 225; 53; 109; 109; 81; 194; 69; 228; 133; 181; 118; 98; 94; 126; 198;
   244; 76; 66; 233; 166; 55; 237; 107; 11; 255; 92; 182; 244; 6; 183; 237;
   238; 56; 107; 251; 90; 137; 159; 165; 174; 159; 36; 17; 124; 75; 31; 230;
   73; 40; 102; 81; 236; 228; 91; 61; 194; 0; 124; 184; 161; 99; 191; 5;
   152; 218; 72; 54; 28; 85; 211; 154; 105; 22; 63; 168; 253; 36; 207; 95;
   131; 101; 93; 35; 220; 163; 173; 150; 28; 98; 243; 86; 32; 133; 82; 187;
   158; 213; 41; 7; 112; 150; 150; 109; 103; 12; 53; 78; 74; 188; 152; 4;
   241; 116; 108; 8; 202; 24; 33; 124; 50; 144; 94; 70; 46; 54; 206; 59;
   227; 158; 119; 44; 24; 14; 134; 3; 155; 39; 131; 162; 236; 7; 162; 143;
   181; 197; 93; 240; 111; 76; 82; 201; 222; 43; 203; 246; 149; 88; 23; 24;
   57; 149; 73; 124; 234; 149; 106; 229; 21; 210; 38; 24; 152; 250; 5; 16;
   21; 114; 142; 90; 138; 172; 170; 104; 255; 255; 255; 255; 255; 255; 255; 255].

(* src/internal.c:5807-5873 *)
Definition dhPrimeGroup16 : bytes :=
  [
   255; 255; 255; 255; 255; 255; 255; 255; 201; 15; 218; 162; 33; 104; 194; 52;
   196; 198; 98; 139; 128; 220; 28; 209; 41; 2; 78; 8; 138; 103; 204; 116;
   2; 11; 190; 166; 59; 19; 155; 34; 81; 74; 8; 121; 142; 52; 4; 221;
   239; 149; 25; 179; 205; 58; 67; 27; 48; 43; 10; 109; 242; 95; 20; 55;
   79; 225; 53; 109; 109; 81; 194; 69; 228; 133; 181; 118; 98; 94; 126; 198;
   244; 76; 66; 233; 166; 55; 237; 107; 11; 255; 92; 182; 244; 6; 183; 237;
   238; 56; 107; 251; 90; 137; 159; 165; 174; 159; 36; 17; 124; 75; 31; 230;
   73; 40; 102; 81; 236; 228; 91; 61; 194; 0; 124; 184; 161; 99; 191; 5;
   152; 218; 72; 54; 28; 85; 211; 154; 105; 22; 63; 168; 253; 36; 207; 95;
   131; 101; 93; 35; 220; 163; 173; 150; 28; 98; 243; 86; 32; 133; 82; 187;
   158; 213; 41; 7; 112; 150; 150; 109; 103; 12; 53; 78; 74; 188; 152; 4;
   241; 116; 108; 8; 202; 24; 33; 124; 50; 144; 94; 70; 46; 54; 206; 59;
   227; 158; 119; 44; 24; 14; 134; 3; 155; 39; 131; 162; 236; 7; 162; 143;
   181; 197; 93; 240; 111; 76; 82; 201; 222; 43; 203; 246; 149; 88; 23; 24;
   57; 149; 73; 124; 234; 149; 106; 229; 21; 210; 38; 24; 152; 250; 5; 16;
   21; 114; 142; 90; 138; 170; 196; 45; 173; 51; 23; 13; 4; 80; 122; 51;
   168; 85; 33; 171; 223; 28; 186; 100; 236; 251; 133; 4; 88; 219; 239; 10;
   138; 234; 113; 87; 93; 6; 12; 125; 179; 151; 15; 133; 166; 225; 228; 199;
   171; 245; 174; 140; 219; 9; 51; 215; 30; 140; 148; 224; 74; 37; 97; 157;
   206; 227; 210; 38; 26; 210; 238; 107; 241; 47; 250; 6; 217; 138; 8; 100;
   216; 118; 2; 115; 62; 200; 106; 100; 82; 31; 43; 24; 23; 123; 32; 12;
   187; 225; 23; 87; 122; 97; 93; 108; 119; 9; 136; 192; 186; 217; 70; 226;
   8; 226; 79; 160; 116; 229; 171; 49; 67; 219; 91; 252; 224; 253; 16; 142;
   75; 130; 209; 32; 169; 33; 8; 1; 26; 114; 60; 18; 167; 135; 230; 215;
   136; 113; 154; 16; 189; 186; 91; 38; 153; 195; 39; 24; 106; 244; 226; 60;
   26; 148; 104; 52; 182; 21; 11; 218; 37; 131; 233; 202; 42; 212; 76; 232;
   219; 187; 194; 219; 4; 222; 142; 249; 46; 142; 252; 20; 31; 190; 202; 166;
   40; 124; 89; 71; 78; 107; 192; 93; 153; 178; 150; 79; 160; 144; 195; 162;
   35; 59; 161; 134; 81; 91; 231; 237; 31; 97; 41; 112; 206; 226; 215; 175;
   184; 27; 221; 118; 33; 112; 72; 28; 208; 6; 145; 39; 213; 176; 90; 169;
   147; 180; 234; 152; 141; 143; 221; 193; 134; 255; 183; 220; 144; 166; 192; 143;
   77; 244; 53; 201; 52; 6; 49; 153; 255; 255; 255; 255; 255; 255; 255; 255].
