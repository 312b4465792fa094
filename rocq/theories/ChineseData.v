(** The array chinese_calendar_data[30004] of /repo/chinese.h, byte by byte
    (generated from that file; 100 bytes per row). *)
From Verif Require Import CBase.

Definition chinese_row_0 : list Z :=
  [16; 39; 149; 254; 100; 135; 178; 73; 71; 159; 147; 118; 140; 85; 70; 173; 173; 66; 152; 109;
   37; 133; 117; 69; 166; 106; 75; 150; 178; 75; 180; 164; 203; 162; 73; 27; 144; 74; 203; 176;
   85; 202; 155; 181; 210; 136; 182; 194; 169; 181; 5; 152; 217; 5; 182; 210; 139; 164; 164; 155;
   147; 164; 77; 180; 74; 77; 159; 150; 106; 140; 91; 138; 171; 218; 2; 154; 213; 37; 133; 233;
   70; 166; 210; 77; 150; 82; 7; 182; 165; 14; 161; 74; 13; 144; 77; 5; 175; 171; 202; 155].
Definition chinese_row_1 : list Z :=
  [106; 211; 136; 116; 195; 169; 105; 7; 152; 169; 203; 183; 82; 135; 164; 165; 214; 145; 165; 138;
   178; 85; 69; 159; 173; 170; 138; 181; 138; 171; 180; 3; 154; 169; 235; 134; 169; 75; 166; 146;
   59; 150; 82; 13; 182; 166; 202; 162; 85; 85; 142; 90; 5; 175; 218; 202; 155; 212; 149; 138;
   212; 197; 169; 201; 13; 152; 201; 206; 183; 146; 77; 166; 170; 234; 145; 171; 202; 176; 90; 69;
   159; 218; 74; 140; 234; 138; 171; 228; 6; 154; 201; 238; 134; 73; 7; 168; 147; 118; 148; 85].
Definition chinese_row_2 : list Z :=
  [70; 180; 173; 2; 161; 109; 69; 142; 117; 69; 173; 114; 203; 155; 100; 151; 138; 164; 139; 171;
   73; 139; 150; 149; 118; 131; 149; 138; 164; 181; 244; 145; 214; 194; 176; 181; 133; 157; 178; 107;
   140; 210; 75; 173; 164; 11; 154; 73; 27; 135; 74; 13; 168; 150; 10; 150; 107; 138; 178; 218;
   2; 161; 217; 37; 142; 233; 6; 175; 210; 206; 155; 164; 142; 138; 165; 206; 169; 74; 205; 153;
   77; 5; 182; 173; 202; 162; 106; 211; 145; 116; 131; 178; 105; 135; 157; 82; 119; 140; 82; 71].
Definition chinese_row_3 : list Z :=
  [173; 165; 6; 154; 75; 85; 133; 85; 69; 166; 173; 106; 148; 181; 74; 180; 180; 5; 161; 169;
   75; 142; 169; 11; 175; 146; 139; 157; 165; 218; 136; 170; 202; 169; 86; 133; 150; 181; 106; 131;
   218; 202; 162; 212; 245; 145; 212; 133; 178; 201; 77; 159; 146; 125; 140; 146; 77; 173; 170; 10;
   154; 86; 229; 134; 107; 133; 164; 218; 138; 148; 234; 74; 180; 228; 198; 162; 201; 78; 142; 73;
   7; 175; 149; 198; 155; 43; 205; 136; 173; 2; 168; 109; 69; 150; 117; 5; 182; 114; 139; 164].
Definition chinese_row_4 : list Z :=
  [100; 183; 146; 164; 139; 178; 73; 75; 159; 149; 118; 140; 149; 138; 171; 181; 68; 152; 181; 37;
   133; 181; 69; 166; 178; 139; 148; 210; 77; 180; 164; 205; 162; 73; 27; 144; 74; 13; 175; 150;
   202; 155; 86; 213; 136; 218; 194; 169; 217; 69; 150; 233; 6; 182; 210; 141; 164; 164; 174; 147;
   165; 206; 176; 74; 77; 159; 170; 106; 140; 173; 138; 171; 106; 67; 152; 233; 38; 133; 105; 71;
   166; 83; 71; 150; 82; 71; 180; 165; 6; 161; 75; 85; 142; 85; 5; 175; 173; 10; 154; 108].
Definition chinese_row_5 : list Z :=
  [213; 136; 180; 197; 169; 169; 139; 150; 82; 119; 131; 146; 139; 164; 165; 250; 145; 170; 138; 178;
   86; 133; 157; 181; 170; 138; 218; 138; 171; 212; 5; 154; 169; 75; 133; 201; 77; 166; 147; 77;
   150; 146; 13; 182; 170; 12; 161; 86; 69; 142; 107; 69; 173; 218; 202; 155; 212; 213; 136; 228;
   198; 169; 201; 142; 150; 146; 46; 133; 149; 198; 162; 43; 77; 144; 173; 196; 176; 109; 133; 157;
   106; 171; 138; 114; 139; 171; 100; 7; 154; 73; 23; 135; 73; 75; 166; 149; 118; 148; 149; 74].
Definition chinese_row_6 : list Z :=
  [180; 181; 4; 161; 181; 133; 140; 181; 69; 173; 178; 203; 155; 164; 155; 138; 164; 205; 169; 74;
   139; 150; 149; 122; 131; 150; 138; 164; 86; 53; 144; 218; 194; 176; 217; 133; 157; 210; 109; 140;
   210; 141; 171; 164; 14; 154; 74; 13; 135; 75; 69; 166; 171; 202; 146; 173; 138; 178; 106; 5;
   161; 233; 70; 142; 105; 71; 173; 82; 199; 155; 165; 238; 136; 165; 198; 169; 83; 197; 148; 171;
   170; 129; 173; 202; 162; 108; 53; 146; 180; 197; 176; 169; 139; 157; 82; 119; 140; 146; 75; 173].
Definition chinese_row_7 : list Z :=
  [37; 75; 152; 85; 85; 133; 86; 69; 166; 181; 138; 148; 218; 138; 178; 212; 5; 161; 169; 75;
   142; 209; 13; 175; 146; 205; 155; 42; 219; 136; 170; 204; 169; 90; 9; 152; 107; 69; 180; 234;
   202; 162; 212; 181; 146; 232; 134; 178; 209; 142; 157; 146; 110; 140; 149; 134; 171; 43; 69; 152;
   91; 137; 131; 109; 133; 164; 106; 139; 148; 114; 75; 180; 104; 7; 161; 81; 87; 142; 74; 11;
   175; 149; 198; 155; 45; 53; 135; 181; 4; 168; 181; 201; 148; 114; 107; 131; 178; 203; 162; 168].
Definition chinese_row_8 : list Z :=
  [251; 145; 164; 141; 178; 74; 75; 159; 149; 186; 138; 170; 138; 171; 86; 69; 152; 181; 73; 133;
   217; 133; 164; 210; 141; 148; 210; 70; 180; 165; 14; 161; 74; 77; 142; 83; 69; 173; 171; 10;
   154; 90; 213; 136; 106; 5; 168; 233; 202; 148; 210; 118; 131; 82; 135; 164; 165; 238; 144; 165;
   198; 176; 85; 133; 157; 171; 202; 138; 181; 202; 169; 108; 69; 152; 105; 75; 133; 169; 75; 166;
   98; 7; 147; 69; 247; 127; 41; 11; 161; 85; 117; 142; 86; 69; 173; 182; 10; 154; 180; 213].
Definition chinese_row_9 : list Z :=
  [136; 212; 197; 169; 209; 203; 148; 162; 123; 131; 162; 141; 164; 42; 27; 146; 42; 205; 176; 90;
   137; 157; 218; 178; 138; 234; 138; 171; 212; 69; 152; 209; 77; 133; 209; 78; 166; 162; 78; 150;
   149; 134; 178; 43; 69; 159; 91; 169; 140; 109; 73; 173; 106; 11; 154; 228; 246; 136; 104; 199;
   169; 81; 135; 150; 165; 182; 129; 149; 202; 162; 45; 85; 144; 214; 196; 176; 181; 201; 155; 114;
   171; 138; 180; 139; 171; 168; 11; 154; 81; 91; 133; 82; 77; 166; 165; 138; 148; 170; 74; 180].
Definition chinese_row_10 : list Z :=
  [86; 69; 159; 181; 137; 140; 217; 69; 173; 212; 205; 155; 168; 205; 136; 169; 14; 168; 82; 141;
   150; 166; 106; 131; 171; 10; 161; 90; 245; 144; 108; 197; 176; 234; 138; 157; 212; 182; 138; 98;
   135; 171; 201; 78; 152; 82; 13; 135; 85; 133; 164; 171; 202; 146; 181; 138; 178; 116; 5; 161;
   106; 139; 140; 169; 75; 173; 162; 199; 155; 69; 247; 136; 41; 11; 168; 85; 198; 148; 173; 170;
   129; 182; 194; 162; 181; 37; 143; 213; 5; 175; 209; 139; 157; 162; 123; 140; 162; 77; 173; 42].
Definition chinese_row_11 : list Z :=
  [13; 154; 85; 26; 135; 90; 73; 166; 219; 130; 148; 234; 74; 180; 216; 197; 162; 209; 77; 142;
   209; 14; 175; 164; 142; 157; 74; 173; 138; 43; 5; 168; 107; 201; 148; 218; 114; 131; 106; 139;
   164; 232; 182; 146; 168; 135; 178; 81; 71; 159; 165; 150; 140; 165; 138; 171; 77; 69; 152; 173;
   74; 133; 181; 73; 166; 114; 139; 148; 212; 75; 180; 168; 203; 162; 82; 59; 144; 82; 13; 175;
   165; 202; 155; 85; 245; 136; 86; 197; 169; 181; 202; 148; 180; 117; 131; 212; 133; 164; 169; 205].
Definition chinese_row_12 : list Z :=
  [146; 169; 206; 176; 82; 77; 159; 166; 138; 140; 171; 138; 171; 90; 69; 152; 217; 74; 133; 234;
   74; 166; 212; 198; 148; 201; 238; 127; 201; 6; 161; 83; 117; 142; 85; 5; 175; 171; 10; 154;
   106; 229; 136; 117; 5; 168; 106; 139; 150; 100; 119; 131; 164; 135; 164; 73; 183; 146; 73; 139;
   178; 85; 134; 157; 173; 210; 138; 182; 130; 171; 181; 69; 152; 170; 75; 133; 210; 75; 166; 164;
   203; 148; 73; 187; 129; 74; 13; 161; 86; 122; 142; 90; 9; 175; 218; 194; 155; 213; 37; 135].
Definition chinese_row_13 : list Z :=
  [233; 5; 168; 210; 141; 150; 164; 61; 133; 164; 142; 164; 74; 173; 146; 75; 197; 176; 107; 137;
   157; 218; 210; 138; 106; 131; 171; 233; 70; 152; 81; 15; 135; 82; 71; 166; 165; 6; 147; 75;
   245; 127; 77; 5; 161; 173; 170; 140; 181; 73; 173; 116; 195; 155; 169; 231; 136; 169; 11; 168;
   82; 139; 150; 165; 122; 131; 165; 138; 164; 85; 245; 144; 90; 197; 176; 181; 138; 157; 180; 117;
   140; 212; 133; 171; 169; 77; 152; 146; 29; 135; 82; 13; 168; 166; 138; 148; 171; 138; 178; 90].
Definition chinese_row_14 : list Z :=
  [5; 161; 218; 106; 142; 234; 74; 173; 212; 198; 155; 201; 238; 136; 201; 198; 169; 147; 198; 148;
   171; 202; 129; 173; 194; 162; 107; 229; 144; 117; 5; 175; 106; 139; 157; 100; 151; 140; 164; 71;
   173; 73; 71; 152; 149; 86; 133; 85; 70; 166; 173; 130; 148; 182; 130; 178; 181; 69; 159; 178;
   107; 142; 210; 11; 175; 164; 203; 155; 73; 251; 136; 74; 205; 169; 86; 138; 150; 182; 178; 129;
   218; 194; 162; 213; 5; 145; 233; 197; 176; 210; 141; 157; 164; 141; 140; 165; 142; 171; 74; 13].
Definition chinese_row_15 : list Z :=
  [154; 150; 106; 133; 107; 138; 164; 218; 2; 147; 217; 230; 127; 233; 70; 159; 82; 111; 142; 82;
   7; 175; 165; 198; 155; 75; 53; 135; 85; 5; 168; 173; 202; 148; 106; 147; 131; 180; 195; 162;
   169; 7; 145; 169; 203; 176; 82; 75; 159; 165; 218; 138; 165; 138; 171; 85; 69; 152; 181; 74;
   133; 182; 138; 164; 180; 5; 147; 169; 235; 127; 201; 13; 161; 146; 125; 142; 82; 13; 175; 170;
   202; 155; 86; 245; 136; 90; 5; 168; 218; 202; 148; 212; 117; 131; 228; 134; 164; 201; 14; 145].
Definition chinese_row_16 : list Z :=
  [201; 198; 176; 147; 134; 157; 171; 204; 138; 173; 194; 169; 109; 133; 150; 234; 74; 133; 106; 75;
   166; 100; 7; 147; 73; 239; 127; 73; 7; 161; 149; 118; 142; 85; 74; 173; 181; 2; 154; 109;
   37; 135; 181; 5; 168; 178; 203; 148; 164; 119; 131; 164; 139; 164; 73; 203; 146; 74; 205; 176;
   86; 138; 157; 182; 212; 138; 218; 130; 171; 213; 133; 150; 210; 75; 133; 210; 77; 166; 164; 205;
   148; 74; 253; 127; 74; 13; 161; 154; 106; 142; 107; 74; 173; 106; 3; 154; 217; 38; 135; 233].
Definition chinese_row_17 : list Z :=
  [6; 168; 82; 135; 150; 165; 206; 129; 165; 198; 162; 75; 245; 144; 85; 197; 176; 173; 202; 155;
   106; 211; 138; 180; 131; 171; 169; 71; 152; 82; 87; 133; 82; 75; 166; 165; 10; 147; 77; 245;
   127; 85; 69; 159; 181; 202; 140; 186; 74; 173; 180; 197; 155; 169; 43; 135; 201; 13; 168; 146;
   141; 150; 37; 155; 131; 170; 202; 162; 87; 5; 145; 90; 197; 176; 218; 138; 157; 212; 213; 138;
   228; 134; 171; 201; 78; 152; 146; 45; 135; 147; 134; 164; 171; 76; 145; 90; 229; 127; 109; 69].
Definition chinese_row_18 : list Z :=
  [159; 234; 170; 140; 106; 75; 173; 100; 199; 155; 73; 239; 136; 73; 7; 168; 149; 198; 148; 171;
   212; 129; 181; 194; 162; 117; 69; 143; 181; 5; 175; 178; 139; 157; 164; 151; 140; 164; 139; 171;
   73; 75; 152; 149; 122; 133; 150; 74; 166; 214; 68; 145; 181; 37; 126; 217; 69; 159; 210; 109;
   142; 210; 77; 173; 164; 205; 155; 74; 29; 137; 74; 205; 169; 154; 202; 148; 86; 213; 129; 106;
   195; 162; 233; 6; 145; 233; 6; 175; 82; 135; 157; 165; 206; 138; 165; 134; 171; 75; 133; 150].
Definition chinese_row_19 : list Z :=
  [171; 170; 131; 173; 138; 164; 106; 5; 147; 105; 39; 126; 169; 75; 159; 82; 55; 143; 82; 11;
   175; 165; 10; 154; 85; 53; 135; 86; 5; 168; 181; 202; 148; 180; 181; 129; 212; 197; 162; 169;
   11; 145; 201; 205; 176; 146; 141; 157; 37; 219; 138; 170; 138; 171; 86; 69; 152; 182; 170; 131;
   218; 138; 164; 212; 5; 147; 201; 237; 127; 201; 78; 159; 146; 110; 142; 149; 70; 173; 171; 12;
   154; 90; 69; 135; 109; 69; 166; 234; 202; 148; 228; 150; 131; 100; 199; 162; 73; 7; 145; 73].
Definition chinese_row_20 : list Z :=
  [199; 176; 149; 134; 157; 43; 21; 137; 181; 196; 169; 181; 133; 150; 106; 75; 133; 178; 139; 164;
   164; 7; 147; 73; 247; 127; 74; 11; 161; 149; 218; 140; 150; 74; 173; 214; 4; 154; 181; 37;
   135; 217; 69; 166; 210; 205; 148; 164; 155; 131; 164; 142; 164; 74; 141; 143; 149; 122; 124; 170;
   138; 157; 90; 245; 138; 106; 195; 169; 233; 134; 150; 210; 109; 133; 82; 71; 166; 165; 78; 145;
   74; 13; 128; 75; 69; 159; 171; 202; 140; 173; 138; 171; 108; 5; 154; 105; 43; 135; 169; 11].
Definition chinese_row_21 : list Z :=
  [168; 82; 199; 148; 165; 214; 129; 165; 202; 162; 85; 5; 145; 86; 5; 175; 181; 202; 155; 180;
   213; 138; 212; 133; 171; 169; 139; 150; 146; 123; 133; 146; 77; 166; 37; 11; 147; 85; 53; 126;
   86; 69; 159; 182; 202; 140; 218; 74; 173; 212; 5; 154; 201; 77; 135; 201; 14; 168; 146; 142;
   150; 42; 205; 129; 43; 13; 161; 90; 9; 145; 109; 5; 175; 234; 202; 155; 228; 214; 138; 100;
   135; 171; 73; 71; 152; 147; 182; 131; 149; 134; 164; 43; 69; 145; 107; 41; 126; 181; 133; 157].
Definition chinese_row_22 : list Z :=
  [106; 139; 141; 178; 75; 173; 164; 203; 155; 73; 87; 135; 74; 11; 168; 149; 202; 148; 45; 213;
   129; 86; 5; 161; 181; 69; 143; 217; 5; 175; 210; 141; 157; 164; 219; 138; 164; 141; 171; 74;
   77; 152; 150; 106; 133; 171; 202; 162; 90; 69; 145; 213; 42; 126; 233; 70; 159; 210; 142; 141;
   82; 71; 173; 165; 14; 154; 74; 13; 137; 83; 69; 166; 171; 10; 147; 90; 213; 129; 108; 197;
   162; 105; 75; 143; 169; 11; 175; 82; 135; 157; 37; 215; 138; 165; 202; 169; 85; 133; 150; 173].
Definition chinese_row_23 : list Z :=
  [170; 131; 181; 138; 164; 180; 69; 145; 169; 43; 126; 169; 75; 159; 162; 155; 142; 146; 77; 173;
   41; 11; 154; 85; 89; 135; 90; 9; 168; 214; 10; 147; 180; 213; 129; 212; 197; 162; 209; 141;
   143; 162; 125; 124; 146; 142; 157; 42; 237; 138; 43; 197; 169; 91; 201; 148; 218; 170; 131; 234;
   138; 164; 228; 6; 147; 209; 78; 126; 81; 71; 159; 149; 118; 141; 149; 70; 173; 45; 69; 152;
   107; 137; 133; 181; 69; 166; 114; 203; 148; 100; 215; 129; 168; 203; 162; 73; 135; 143; 149; 118].
Definition chinese_row_24 : list Z :=
  [124; 149; 202; 155; 85; 53; 137; 86; 197; 169; 181; 137; 150; 178; 171; 131; 210; 141; 164; 168;
   11; 147; 74; 29; 128; 74; 77; 159; 166; 202; 140; 171; 138; 171; 90; 5; 154; 213; 138; 133;
   233; 70; 166; 210; 198; 148; 165; 238; 129; 165; 14; 161; 74; 13; 145; 85; 5; 175; 171; 202;
   155; 106; 53; 137; 108; 197; 169; 105; 139; 150; 82; 119; 133; 98; 135; 164; 69; 71; 145; 83;
   86; 126; 85; 69; 159; 173; 170; 139; 182; 138; 171; 180; 5; 154; 169; 75; 135; 177; 75; 166].
Definition chinese_row_25 : list Z :=
  [162; 203; 148; 69; 251; 129; 42; 203; 162; 85; 202; 141; 181; 178; 122; 218; 194; 155; 213; 53;
   137; 212; 197; 169; 209; 141; 150; 162; 125; 133; 164; 78; 166; 42; 77; 145; 86; 74; 126; 91;
   137; 157; 218; 114; 141; 234; 138; 171; 232; 6; 154; 209; 78; 135; 81; 7; 168; 165; 6; 147;
   43; 13; 128; 45; 5; 161; 173; 73; 143; 181; 73; 173; 114; 203; 155; 104; 215; 138; 168; 139;
   171; 81; 139; 150; 165; 182; 131; 165; 138; 164; 85; 69; 145; 173; 106; 124; 181; 137; 157; 178].
Definition chinese_row_26 : list Z :=
  [139; 141; 212; 77; 173; 168; 13; 154; 82; 93; 135; 82; 13; 168; 166; 202; 148; 86; 53; 128;
   90; 5; 161; 217; 202; 141; 212; 117; 124; 212; 198; 155; 201; 46; 137; 201; 206; 169; 82; 77;
   152; 170; 170; 131; 171; 202; 162; 106; 69; 145; 234; 74; 126; 106; 139; 157; 99; 135; 141; 98;
   71; 173; 73; 7; 154; 83; 150; 133; 85; 69; 166; 173; 10; 147; 108; 197; 129; 181; 69; 159;
   170; 203; 141; 162; 119; 124; 162; 139; 157; 73; 59; 137; 42; 205; 169; 85; 138; 150; 181; 178].
Definition chinese_row_27 : list Z :=
  [131; 218; 194; 162; 213; 133; 143; 178; 75; 126; 209; 77; 159; 163; 141; 141; 164; 78; 173; 74;
   13; 154; 86; 74; 135; 107; 137; 164; 218; 2; 147; 213; 38; 128; 233; 6; 161; 209; 206; 141;
   162; 110; 124; 165; 198; 155; 75; 53; 137; 45; 5; 168; 173; 202; 148; 106; 179; 131; 116; 131;
   164; 105; 135; 143; 81; 87; 126; 82; 75; 159; 165; 26; 141; 165; 138; 171; 85; 69; 152; 173;
   138; 133; 181; 74; 166; 180; 3; 147; 169; 11; 128; 169; 11; 161; 82; 141; 143; 165; 186; 122].
Definition chinese_row_28 : list Z :=
  [166; 202; 155; 86; 53; 137; 90; 197; 169; 217; 202; 148; 212; 181; 131; 212; 134; 164; 201; 78;
   145; 146; 77; 126; 83; 141; 157; 170; 138; 141; 171; 138; 171; 106; 69; 152; 234; 138; 133; 106;
   75; 166; 100; 199; 148; 73; 15; 128; 73; 7; 161; 147; 198; 141; 171; 172; 122; 173; 2; 154;
   109; 133; 135; 181; 5; 168; 170; 139; 150; 164; 183; 131; 164; 139; 164; 73; 75; 145; 149; 90;
   126; 86; 138; 157; 181; 178; 139; 218; 130; 171; 213; 69; 152; 210; 139; 133; 210; 77; 166; 164].
Definition chinese_row_29 : list Z :=
  [205; 148; 74; 253; 129; 74; 13; 161; 86; 202; 141; 214; 178; 122; 218; 194; 155; 213; 38; 136;
   233; 6; 168; 210; 142; 150; 164; 110; 133; 165; 198; 162; 75; 133; 143; 155; 138; 124; 173; 138;
   157; 107; 195; 139; 116; 131; 171; 105; 71; 152; 82; 87; 135; 82; 75; 166; 165; 10; 147; 75;
   53; 128; 85; 5; 161; 181; 10; 140; 106; 181; 122; 180; 197; 155; 169; 43; 137; 169; 13; 168;
   146; 141; 150; 165; 218; 131; 166; 138; 164; 86; 133; 143; 181; 138; 124; 218; 138; 157; 213; 133].
Definition chinese_row_30 : list Z :=
  [141; 212; 134; 171; 201; 78; 152; 146; 77; 135; 147; 69; 166; 171; 74; 145; 90; 37; 128; 107;
   69; 159; 234; 202; 141; 212; 182; 122; 100; 199; 155; 73; 47; 137; 73; 199; 169; 149; 198; 148;
   171; 20; 130; 173; 194; 162; 109; 133; 143; 106; 139; 124; 178; 139; 157; 164; 7; 140; 73; 247;
   120; 73; 75; 152; 149; 186; 133; 86; 74; 166; 182; 2; 147; 181; 101; 126; 213; 69; 159; 210;
   203; 141; 164; 123; 124; 164; 205; 155; 74; 61; 137; 74; 205; 169; 150; 138; 150; 214; 242; 129].
Definition chinese_row_31 : list Z :=
  [218; 194; 162; 217; 134; 143; 210; 77; 126; 210; 142; 157; 164; 142; 141; 165; 134; 171; 75; 69;
   152; 171; 202; 131; 173; 138; 164; 106; 3; 147; 233; 6; 128; 105; 71; 159; 82; 199; 141; 165;
   182; 122; 165; 202; 155; 77; 117; 135; 85; 5; 168; 181; 202; 148; 108; 213; 131; 180; 197; 162;
   169; 139; 143; 82; 91; 126; 146; 77; 159; 165; 74; 138; 85; 53; 119; 86; 69; 152; 181; 170;
   133; 218; 138; 164; 212; 5; 147; 201; 45; 128; 201; 14; 161; 146; 205; 141; 38; 173; 122; 171].
Definition chinese_row_32 : list Z :=
  [10; 154; 90; 101; 137; 109; 69; 166; 234; 202; 148; 212; 182; 131; 100; 135; 164; 73; 143; 143;
   146; 78; 126; 149; 134; 157; 171; 196; 139; 173; 194; 169; 109; 133; 150; 106; 139; 133; 178; 75;
   166; 164; 7; 147; 73; 55; 128; 73; 11; 161; 149; 202; 141; 45; 245; 120; 182; 2; 154; 181;
   37; 136; 213; 5; 168; 210; 203; 148; 164; 219; 131; 164; 141; 164; 74; 77; 145; 149; 154; 124;
   154; 138; 157; 87; 197; 139; 218; 130; 171; 217; 134; 150; 210; 141; 133; 210; 70; 166; 165; 14].
Definition chinese_row_33 : list Z :=
  [147; 74; 45; 128; 75; 69; 159; 171; 10; 140; 90; 181; 122; 106; 3; 154; 233; 38; 136; 169;
   11; 168; 82; 135; 150; 165; 22; 130; 165; 202; 162; 77; 133; 143; 171; 138; 124; 181; 202; 155;
   116; 69; 138; 105; 43; 119; 169; 75; 152; 146; 187; 133; 146; 77; 166; 37; 11; 147; 85; 53;
   128; 86; 69; 159; 181; 10; 140; 180; 181; 122; 212; 197; 155; 201; 77; 136; 201; 14; 168; 146;
   141; 150; 38; 205; 131; 171; 12; 161; 90; 133; 143; 218; 138; 124; 234; 138; 157; 212; 70; 138].
Definition chinese_row_34 : list Z :=
  [201; 46; 119; 73; 71; 152; 147; 174; 133; 149; 134; 164; 171; 68; 145; 107; 105; 126; 117; 69;
   159; 106; 11; 140; 100; 183; 122; 164; 199; 155; 73; 247; 137; 73; 11; 168; 149; 202; 148; 45;
   21; 130; 214; 196; 162; 181; 197; 141; 178; 139; 124; 210; 139; 157; 164; 11; 140; 73; 59; 119;
   74; 77; 152; 149; 186; 133; 170; 74; 166; 90; 69; 145; 213; 102; 126; 233; 70; 159; 210; 205;
   141; 164; 174; 122; 165; 14; 154; 74; 109; 137; 75; 5; 168; 171; 10; 147; 90; 21; 130; 108].
Definition chinese_row_35 : list Z :=
  [197; 162; 233; 134; 143; 82; 151; 124; 82; 135; 157; 165; 70; 138; 75; 53; 119; 85; 133; 150;
   173; 234; 131; 181; 138; 164; 116; 5; 147; 169; 107; 126; 169; 75; 159; 146; 203; 141; 37; 219;
   122; 37; 11; 154; 85; 53; 136; 86; 5; 168; 182; 202; 148; 180; 21; 130; 212; 197; 162; 201;
   141; 143; 146; 93; 126; 146; 142; 157; 42; 205; 139; 171; 204; 169; 90; 69; 152; 218; 234; 131;
   234; 138; 164; 228; 6; 147; 201; 46; 128; 73; 71; 159; 147; 14; 140; 42; 205; 122; 43; 5].
Definition chinese_row_36 : list Z :=
  [154; 107; 73; 134; 117; 69; 166; 106; 203; 148; 100; 215; 131; 164; 199; 162; 73; 135; 143; 149;
   182; 124; 149; 138; 157; 45; 133; 136; 173; 105; 117; 181; 133; 150; 178; 171; 133; 210; 141; 164;
   164; 11; 147; 73; 59; 128; 74; 13; 161; 150; 10; 140; 85; 21; 121; 90; 5; 154; 213; 70;
   136; 233; 70; 166; 210; 205; 148; 164; 206; 131; 165; 206; 162; 74; 141; 143; 150; 170; 124; 171;
   202; 155; 90; 69; 138; 217; 106; 117; 233; 138; 150; 82; 183; 133; 82; 71; 166; 165; 70; 145].
Definition chinese_row_37 : list Z :=
  [75; 149; 126; 85; 69; 159; 173; 10; 140; 106; 21; 121; 180; 5; 154; 169; 75; 136; 169; 11;
   168; 162; 203; 148; 37; 27; 130; 41; 203; 162; 85; 133; 143; 173; 234; 122; 214; 202; 155; 180;
   69; 138; 169; 43; 119; 201; 141; 150; 162; 189; 133; 146; 78; 166; 42; 13; 147; 86; 122; 126;
   90; 73; 159; 218; 10; 140; 212; 181; 122; 228; 6; 154; 201; 78; 136; 73; 7; 168; 147; 198;
   148; 43; 77; 128; 45; 5; 161; 107; 201; 141; 106; 139; 124; 106; 203; 155; 100; 71; 138; 73].
Definition chinese_row_38 : list Z :=
  [55; 119; 73; 71; 152; 149; 246; 131; 149; 138; 164; 45; 69; 145; 173; 138; 126; 181; 133; 157;
   178; 11; 140; 164; 219; 122; 164; 203; 155; 75; 75; 136; 74; 13; 168; 150; 202; 148; 86; 21;
   130; 90; 5; 161; 213; 202; 141; 210; 141; 124; 210; 141; 157; 164; 78; 138; 74; 61; 119; 74;
   77; 152; 166; 202; 133; 171; 202; 162; 90; 69; 145; 217; 106; 126; 105; 75; 159; 82; 7; 140;
   197; 14; 121; 37; 7; 154; 75; 53; 136; 85; 69; 166; 173; 10; 147; 106; 21; 130; 180; 197].
Definition chinese_row_39 : list Z :=
  [162; 169; 203; 141; 82; 183; 124; 162; 139; 157; 69; 75; 138; 83; 150; 117; 85; 137; 150; 181;
   18; 132; 214; 138; 164; 180; 69; 145; 169; 107; 126; 209; 77; 159; 162; 205; 141; 69; 29; 121;
   42; 13; 154; 86; 202; 135; 91; 73; 166; 218; 10; 147; 212; 21; 130; 228; 198; 162; 209; 142;
   143; 162; 174; 124; 165; 198; 155; 43; 141; 136; 90; 42; 119; 107; 201; 148; 106; 235; 131; 114;
   139; 164; 104; 7; 147; 81; 119; 126; 81; 71; 159; 165; 6; 140; 75; 21; 121; 85; 69; 152].
Definition chinese_row_40 : list Z :=
  [173; 138; 134; 181; 73; 166; 178; 203; 148; 168; 27; 130; 168; 203; 162; 82; 139; 143; 165; 186;
   124; 166; 202; 155; 86; 133; 136; 181; 106; 117; 217; 138; 150; 210; 237; 131; 212; 133; 164; 169;
   78; 145; 74; 93; 128; 82; 77; 159; 170; 10; 140; 86; 21; 121; 106; 5; 154; 217; 138; 134;
   105; 75; 166; 82; 199; 148; 197; 14; 130; 69; 7; 161; 83; 198; 141; 171; 234; 122; 173; 202;
   155; 108; 133; 136; 105; 107; 117; 169; 139; 150; 98; 119; 134; 162; 139; 164; 73; 75; 145; 85].
Definition chinese_row_41 : list Z :=
  [150; 126; 85; 74; 159; 181; 66; 138; 181; 69; 119; 213; 69; 152; 177; 75; 136; 209; 77; 166;
   162; 205; 148; 73; 29; 130; 42; 205; 162; 86; 202; 141; 214; 242; 122; 218; 194; 155; 213; 133;
   136; 209; 109; 117; 209; 142; 150; 162; 174; 133; 165; 134; 164; 75; 133; 143; 91; 202; 124; 173;
   137; 157; 106; 3; 140; 229; 86; 119; 104; 7; 154; 81; 199; 134; 165; 174; 115; 165; 6; 147;
   75; 117; 128; 85; 5; 161; 173; 202; 141; 106; 243; 122; 180; 195; 155; 169; 139; 136; 81; 87].
Definition chinese_row_42 : list Z :=
  [119; 82; 141; 150; 165; 26; 132; 166; 138; 164; 86; 69; 145; 181; 170; 124; 217; 138; 157; 212;
   5; 140; 169; 13; 121; 201; 78; 152; 146; 205; 134; 165; 186; 115; 170; 202; 148; 86; 117; 128;
   106; 5; 161; 234; 202; 141; 212; 182; 124; 100; 199; 155; 201; 142; 136; 146; 78; 119; 83; 134;
   150; 171; 74; 130; 173; 194; 162; 109; 133; 143; 106; 139; 126; 170; 139; 157; 164; 7; 140; 73;
   23; 121; 73; 11; 154; 149; 134; 134; 86; 74; 166; 181; 2; 147; 181; 101; 128; 213; 69; 159].
Definition chinese_row_43 : list Z :=
  [210; 203; 141; 164; 187; 124; 164; 141; 157; 73; 141; 136; 149; 122; 117; 86; 138; 150; 214; 18;
   132; 218; 194; 162; 213; 133; 143; 210; 109; 126; 210; 78; 159; 164; 14; 140; 74; 13; 121; 75;
   69; 152; 155; 138; 134; 173; 138; 164; 106; 3; 147; 233; 70; 128; 105; 7; 161; 82; 199; 141;
   165; 246; 122; 165; 202; 155; 75; 133; 136; 171; 202; 115; 173; 202; 148; 106; 51; 132; 180; 131;
   164; 169; 139; 143; 82; 151; 126; 82; 77; 159; 165; 10; 140; 77; 85; 119; 86; 69; 152; 181].
Definition chinese_row_44 : list Z :=
  [138; 134; 218; 74; 166; 212; 5; 147; 169; 75; 128; 201; 14; 161; 146; 141; 143; 165; 250; 122;
   170; 202; 155; 90; 133; 136; 213; 106; 117; 234; 202; 148; 212; 182; 132; 100; 135; 164; 73; 79;
   145; 146; 142; 126; 147; 134; 157; 171; 76; 138; 90; 5; 121; 109; 133; 150; 106; 139; 134; 178;
   75; 166; 164; 199; 148; 73; 119; 128; 73; 11; 161; 149; 202; 141; 173; 244; 122; 181; 2; 154;
   181; 197; 134; 170; 139; 117; 210; 139; 150; 164; 27; 132; 164; 141; 164; 74; 77; 145; 149; 154].
Definition chinese_row_45 : list Z :=
  [126; 86; 138; 157; 214; 68; 138; 181; 69; 119; 217; 70; 152; 210; 13; 133; 164; 189; 115; 164;
   206; 148; 74; 45; 130; 75; 69; 159; 171; 10; 140; 90; 245; 122; 106; 195; 155; 233; 198; 134;
   210; 142; 117; 82; 135; 150; 165; 182; 132; 165; 202; 162; 75; 133; 143; 171; 202; 124; 181; 138;
   157; 106; 69; 138; 105; 75; 119; 169; 75; 152; 82; 199; 134; 37; 251; 113; 165; 10; 147; 85;
   117; 128; 86; 5; 161; 181; 10; 140; 180; 245; 122; 212; 197; 155; 169; 141; 136; 146; 157; 117].
Definition chinese_row_46 : list Z :=
  [146; 141; 150; 38; 11; 132; 171; 202; 162; 90; 133; 143; 214; 202; 124; 234; 138; 157; 212; 6;
   140; 201; 78; 119; 73; 79; 152; 146; 206; 134; 42; 173; 115; 171; 68; 145; 91; 165; 126; 109;
   69; 159; 106; 203; 141; 100; 247; 122; 164; 199; 155; 73; 135; 136; 147; 150; 117; 149; 202; 148;
   173; 148; 130; 182; 194; 162; 181; 133; 143; 170; 203; 124; 210; 139; 157; 164; 11; 140; 73; 27;
   121; 74; 77; 152; 149; 10; 133; 45; 245; 113; 214; 4; 147; 181; 165; 126; 217; 70; 159; 210].
Definition chinese_row_47 : list Z :=
  [205; 141; 164; 189; 124; 164; 206; 155; 74; 141; 136; 150; 138; 117; 171; 202; 148; 90; 245; 130;
   106; 195; 162; 233; 134; 143; 210; 142; 126; 82; 135; 157; 165; 70; 138; 75; 117; 119; 77; 69;
   152; 171; 202; 132; 181; 138; 164; 116; 5; 147; 105; 107; 128; 169; 75; 159; 82; 203; 141; 37;
   251; 122; 37; 203; 155; 85; 197; 134; 173; 202; 115; 181; 202; 148; 180; 181; 132; 212; 197; 162;
   201; 141; 143; 146; 157; 126; 146; 77; 159; 38; 77; 138; 86; 117; 119; 90; 69; 152; 218; 10].
Definition chinese_row_48 : list Z :=
  [133; 212; 245; 113; 212; 6; 147; 201; 110; 128; 73; 15; 161; 146; 206; 141; 42; 13; 123; 171;
   4; 154; 107; 197; 134; 218; 202; 115; 106; 203; 148; 101; 199; 132; 164; 135; 164; 73; 135; 143;
   147; 214; 124; 149; 138; 157; 45; 69; 138; 109; 169; 117; 181; 133; 150; 170; 11; 133; 164; 183;
   115; 164; 11; 147; 73; 123; 128; 74; 13; 161; 149; 202; 141; 53; 53; 121; 90; 5; 154; 213;
   197; 134; 178; 141; 117; 210; 205; 148; 164; 205; 132; 165; 206; 162; 74; 77; 145; 150; 234; 124].
Definition chinese_row_49 : list Z :=
  [171; 202; 155; 90; 69; 138; 217; 70; 119; 233; 134; 150; 82; 7; 133; 165; 238; 113; 165; 6;
   147; 75; 181; 126; 85; 69; 159; 173; 10; 140; 106; 21; 123; 116; 5; 154; 105; 203; 134; 82;
   151; 117; 146; 139; 150; 37; 123; 130; 37; 203; 162; 85; 133; 143; 173; 202; 124; 181; 202; 155;
   180; 69; 138; 169; 75; 119; 201; 77; 152; 146; 13; 133; 37; 251; 113; 42; 13; 147; 86; 121;
   128; 90; 69; 159; 218; 10; 140; 212; 245; 122; 212; 198; 155; 201; 206; 134; 146; 142; 117; 147].
Definition chinese_row_50 : list Z :=
  [206; 148; 42; 205; 132; 171; 4; 161; 107; 201; 141; 234; 202; 124; 106; 139; 157; 100; 71; 138;
   73; 111; 119; 73; 71; 152; 149; 6; 133; 43; 53; 112; 45; 69; 145; 173; 201; 126; 181; 69;
   159; 178; 11; 140; 164; 247; 122; 164; 203; 155; 73; 139; 136; 149; 218; 115; 149; 202; 148; 85;
   245; 130; 90; 197; 162; 213; 198; 141; 210; 205; 124; 210; 141; 157; 164; 14; 140; 74; 125; 119;
   74; 77; 152; 150; 10; 133; 86; 245; 113; 90; 69; 145; 217; 170; 126; 233; 70; 159; 82; 199].
Definition chinese_row_51 : list Z :=
  [141; 165; 78; 121; 165; 6; 154; 75; 197; 134; 171; 202; 115; 173; 10; 147; 107; 5; 131; 116;
   197; 162; 105; 139; 143; 82; 215; 124; 146; 139; 157; 37; 75; 138; 75; 118; 119; 85; 133; 150;
   173; 74; 131; 108; 245; 113; 180; 5; 147; 169; 171; 126; 201; 77; 159; 146; 205; 141; 37; 27;
   123; 42; 13; 154; 86; 201; 134; 181; 210; 115; 218; 202; 148; 212; 133; 129; 201; 109; 110; 201;
   142; 143; 146; 174; 126; 147; 206; 155; 42; 77; 138; 86; 106; 119; 107; 137; 150; 234; 74; 131].
Definition chinese_row_52 : list Z :=
  [212; 246; 113; 100; 7; 147; 73; 111; 128; 73; 71; 159; 149; 6; 140; 43; 85; 121; 45; 5;
   154; 173; 9; 133; 106; 203; 115; 178; 203; 148; 164; 75; 131; 73; 119; 110; 73; 139; 143; 149;
   250; 124; 150; 138; 157; 86; 133; 136; 181; 170; 117; 213; 138; 150; 210; 13; 133; 164; 251; 113;
   164; 14; 147; 74; 125; 128; 74; 13; 161; 166; 10; 140; 86; 85; 121; 90; 5; 154; 217; 202;
   134; 210; 213; 115; 82; 199; 148; 165; 14; 131; 37; 199; 162; 75; 198; 141; 171; 42; 123; 173].
Definition chinese_row_53 : list Z :=
  [202; 155; 106; 69; 138; 105; 171; 117; 169; 139; 150; 82; 7; 133; 69; 247; 113; 37; 75; 145;
   83; 214; 126; 85; 69; 159; 173; 10; 140; 172; 85; 121; 180; 5; 154; 169; 203; 134; 162; 155;
   117; 162; 205; 148; 37; 141; 129; 85; 122; 110; 86; 138; 143; 182; 50; 123; 218; 202; 155; 212;
   69; 138; 201; 109; 119; 209; 142; 150; 162; 14; 133; 74; 13; 114; 43; 77; 145; 90; 234; 126;
   107; 137; 157; 106; 11; 140; 212; 22; 123; 100; 7; 154; 81; 199; 134; 163; 238; 115; 165; 198].
Definition chinese_row_54 : list Z :=
  [148; 43; 53; 129; 53; 5; 161; 173; 202; 141; 106; 211; 124; 178; 203; 155; 164; 75; 138; 81;
   119; 119; 82; 75; 152; 165; 74; 131; 77; 53; 112; 86; 69; 145; 181; 202; 126; 217; 138; 157;
   210; 5; 140; 165; 75; 121; 165; 14; 154; 74; 205; 134; 165; 250; 115; 170; 202; 148; 87; 5;
   131; 90; 5; 161; 217; 202; 141; 210; 246; 124; 82; 135; 157; 197; 142; 136; 138; 142; 119; 83;
   134; 150; 171; 74; 131; 90; 85; 112; 108; 69; 145; 105; 203; 126; 169; 75; 159; 98; 7; 140].
Definition chinese_row_55 : list Z :=
  [69; 87; 121; 69; 11; 154; 85; 198; 134; 171; 20; 114; 181; 2; 147; 181; 69; 129; 181; 5;
   161; 169; 203; 141; 162; 219; 124; 162; 141; 157; 73; 77; 138; 85; 186; 117; 86; 138; 150; 182;
   66; 131; 181; 37; 112; 213; 133; 143; 209; 173; 126; 209; 78; 159; 162; 206; 141; 74; 77; 121;
   75; 77; 152; 90; 202; 134; 218; 210; 115; 106; 3; 147; 229; 198; 127; 209; 110; 110; 81; 135;
   143; 165; 46; 123; 165; 198; 155; 75; 133; 136; 171; 170; 117; 173; 202; 148; 106; 67; 131; 105].
Definition chinese_row_56 : list Z :=
  [55; 112; 168; 11; 147; 81; 119; 127; 82; 75; 159; 165; 10; 140; 77; 85; 121; 86; 69; 152;
   181; 10; 133; 178; 213; 115; 212; 197; 148; 169; 203; 127; 82; 125; 110; 146; 141; 143; 165; 250;
   124; 170; 202; 155; 86; 133; 136; 213; 170; 117; 233; 138; 150; 212; 70; 131; 169; 78; 112; 201;
   78; 145; 146; 142; 128; 83; 134; 157; 171; 74; 138; 90; 69; 121; 109; 69; 152; 106; 11; 133;
   84; 247; 115; 100; 199; 148; 73; 135; 129; 147; 182; 108; 149; 198; 141; 171; 52; 123; 181; 194].
Definition chinese_row_57 : list Z :=
  [155; 181; 197; 134; 106; 171; 117; 178; 139; 150; 164; 11; 133; 73; 91; 112; 73; 77; 145; 149;
   218; 126; 86; 74; 159; 214; 66; 138; 181; 133; 119; 213; 69; 152; 210; 205; 134; 162; 253; 115;
   164; 206; 148; 74; 13; 131; 75; 5; 161; 155; 10; 140; 90; 51; 123; 106; 195; 155; 233; 134;
   136; 210; 174; 117; 81; 135; 150; 165; 78; 131; 74; 13; 114; 75; 133; 143; 171; 10; 125; 173;
   138; 157; 106; 3; 140; 105; 135; 119; 169; 75; 152; 82; 199; 134; 165; 250; 115; 165; 10; 147].
Definition chinese_row_58 : list Z :=
  [77; 197; 127; 173; 170; 108; 181; 202; 141; 180; 53; 123; 212; 197; 155; 169; 139; 136; 146; 125;
   119; 146; 141; 150; 165; 74; 131; 85; 85; 112; 86; 69; 145; 213; 74; 125; 234; 138; 157; 212;
   6; 140; 201; 78; 121; 201; 78; 152; 146; 206; 134; 38; 237; 115; 171; 12; 147; 90; 69; 129;
   109; 69; 159; 106; 203; 141; 84; 247; 124; 164; 199; 155; 73; 135; 136; 147; 182; 117; 149; 134;
   150; 173; 132; 129; 107; 133; 110; 181; 133; 143; 170; 139; 127; 210; 139; 157; 164; 11; 140; 73].
Definition chinese_row_59 : list Z :=
  [91; 121; 73; 13; 154; 149; 10; 133; 173; 52; 114; 214; 2; 147; 181; 197; 127; 170; 171; 108;
   210; 205; 141; 164; 253; 124; 164; 142; 157; 74; 141; 136; 150; 202; 117; 155; 202; 148; 90; 69;
   131; 213; 134; 110; 233; 134; 143; 210; 142; 127; 82; 71; 159; 165; 70; 138; 75; 149; 119; 75;
   69; 152; 171; 10; 133; 106; 53; 114; 106; 5; 147; 105; 203; 127; 82; 119; 110; 82; 199; 141;
   165; 58; 123; 165; 202; 155; 85; 133; 136; 173; 10; 116; 181; 202; 148; 180; 69; 131; 169; 75].
Definition chinese_row_60 : list Z :=
  [112; 169; 139; 143; 146; 221; 126; 146; 77; 159; 38; 11; 140; 85; 181; 119; 90; 69; 152; 214;
   10; 133; 212; 245; 115; 212; 6; 147; 201; 206; 127; 146; 158; 110; 146; 142; 143; 42; 77; 123;
   171; 12; 154; 90; 133; 136; 218; 202; 117; 106; 203; 148; 100; 71; 131; 73; 79; 112; 73; 71;
   145; 147; 182; 125; 149; 138; 157; 173; 68; 138; 107; 133; 119; 181; 133; 150; 170; 11; 133; 164;
   247; 115; 164; 203; 148; 73; 203; 127; 149; 186; 108; 149; 202; 141; 45; 85; 123; 214; 4; 154].
Definition chinese_row_61 : list Z :=
  [181; 197; 134; 178; 173; 117; 210; 141; 150; 164; 77; 131; 73; 93; 112; 74; 77; 145; 150; 10;
   127; 171; 202; 155; 90; 69; 138; 213; 166; 119; 233; 70; 152; 210; 14; 133; 164; 238; 115; 165;
   6; 147; 75; 197; 127; 151; 234; 106; 171; 10; 140; 106; 85; 123; 116; 197; 155; 105; 203; 134;
   82; 183; 117; 146; 135; 150; 37; 75; 131; 75; 149; 110; 85; 133; 143; 173; 202; 125; 181; 138;
   157; 180; 69; 138; 169; 139; 119; 169; 77; 152; 146; 205; 134; 37; 59; 114; 38; 11; 147; 86].
Definition chinese_row_62 : list Z :=
  [197; 127; 181; 170; 108; 218; 10; 140; 212; 53; 123; 212; 198; 155; 201; 142; 136; 146; 222; 117;
   146; 142; 150; 42; 77; 131; 86; 105; 112; 107; 197; 141; 218; 202; 125; 106; 139; 157; 100; 7;
   140; 73; 143; 119; 73; 71; 152; 147; 6; 133; 43; 53; 114; 45; 69; 145; 109; 9; 126; 106;
   171; 108; 170; 203; 141; 164; 55; 123; 164; 203; 155; 73; 139; 136; 149; 218; 117; 149; 202; 148;
   53; 133; 129; 173; 137; 110; 181; 133; 143; 178; 205; 125; 210; 141; 157; 164; 13; 140; 74; 125].
Definition chinese_row_63 : list Z :=
  [121; 74; 77; 152; 150; 10; 133; 86; 53; 114; 90; 5; 147; 213; 10; 126; 210; 205; 108; 210;
   198; 141; 165; 78; 123; 165; 6; 154; 75; 197; 134; 155; 10; 116; 173; 202; 148; 106; 133; 129;
   233; 138; 110; 105; 139; 143; 82; 7; 126; 37; 55; 105; 37; 75; 138; 75; 182; 119; 85; 69;
   152; 173; 74; 131; 108; 53; 114; 180; 5; 147; 169; 203; 127; 146; 219; 108; 146; 205; 141; 37;
   91; 123; 42; 205; 155; 86; 201; 134; 181; 10; 116; 218; 202; 148; 212; 69; 131; 201; 141; 110].
Definition chinese_row_64 : list Z :=
  [201; 142; 143; 146; 14; 126; 37; 253; 106; 42; 77; 138; 86; 170; 119; 107; 137; 150; 218; 10;
   133; 212; 54; 114; 100; 7; 147; 73; 207; 127; 146; 142; 110; 147; 6; 140; 43; 149; 121; 45;
   5; 154; 173; 201; 134; 106; 11; 116; 178; 203; 148; 164; 71; 131; 73; 87; 112; 73; 139; 143;
   149; 90; 125; 149; 138; 157; 53; 69; 138; 181; 234; 117; 213; 133; 150; 210; 13; 133; 164; 251;
   115; 164; 13; 147; 74; 205; 127; 149; 218; 108; 150; 202; 141; 86; 149; 121; 90; 5; 154; 217].
Definition chinese_row_65 : list Z :=
  [202; 134; 210; 205; 117; 210; 198; 148; 165; 142; 129; 74; 109; 112; 75; 133; 143; 171; 10; 124;
   173; 202; 155; 106; 69; 138; 233; 138; 119; 105; 139; 150; 82; 7; 133; 37; 55; 114; 37; 11;
   147; 75; 6; 126; 171; 10; 107; 173; 10; 140; 108; 117; 123; 180; 5; 154; 169; 203; 134; 146;
   219; 117; 146; 141; 150; 37; 139; 129; 85; 186; 110; 86; 138; 143; 181; 194; 125; 218; 202; 155;
   212; 69; 138; 201; 173; 119; 201; 78; 152; 146; 14; 133; 38; 93; 114; 42; 13; 147; 86; 202].
Definition chinese_row_66 : list Z :=
  [127; 214; 18; 107; 234; 10; 140; 212; 246; 123; 100; 199; 155; 73; 207; 134; 146; 206; 117; 149;
   198; 148; 43; 133; 129; 91; 202; 108; 173; 201; 141; 106; 75; 124; 100; 247; 106; 164; 71; 138;
   73; 183; 119; 73; 75; 152; 149; 10; 133; 43; 149; 112; 85; 69; 145; 181; 10; 126; 170; 213;
   108; 210; 13; 140; 164; 91; 123; 164; 205; 155; 74; 141; 136; 149; 58; 116; 166; 202; 148; 86;
   133; 129; 181; 170; 110; 217; 202; 141; 210; 69; 124; 165; 46; 105; 165; 78; 138; 74; 174; 119].
Definition chinese_row_67 : list Z :=
  [75; 133; 150; 171; 74; 131; 90; 53; 114; 106; 69; 145; 233; 10; 126; 210; 214; 108; 82; 199;
   141; 69; 151; 121; 69; 11; 154; 83; 198; 134; 171; 18; 116; 173; 2; 147; 109; 197; 127; 105;
   139; 110; 169; 139; 143; 162; 75; 124; 69; 59; 105; 69; 75; 138; 85; 186; 119; 86; 138; 150;
   182; 66; 131; 181; 117; 112; 212; 5; 147; 201; 13; 126; 162; 221; 108; 162; 206; 141; 42; 77;
   123; 43; 77; 152; 86; 202; 134; 214; 18; 116; 106; 195; 148; 213; 198; 127; 209; 174; 110; 81].
Definition chinese_row_68 : list Z :=
  [143; 143; 162; 14; 126; 42; 45; 105; 43; 133; 136; 155; 234; 117; 173; 137; 150; 106; 67; 131;
   101; 119; 112; 168; 11; 147; 81; 199; 127; 165; 22; 107; 149; 10; 140; 77; 181; 121; 86; 5;
   154; 181; 10; 133; 170; 21; 116; 210; 205; 148; 168; 75; 131; 82; 189; 110; 74; 141; 143; 165;
   74; 124; 85; 53; 105; 86; 133; 136; 181; 10; 118; 217; 138; 150; 210; 5; 133; 165; 142; 112;
   197; 78; 145; 138; 206; 127; 166; 204; 108; 171; 74; 138; 90; 181; 121; 106; 5; 154; 106; 203].
Definition chinese_row_69 : list Z :=
  [134; 82; 23; 116; 98; 199; 148; 69; 135; 129; 147; 182; 110; 85; 198; 141; 171; 132; 122; 107;
   101; 103; 173; 133; 136; 106; 235; 117; 169; 139; 150; 162; 11; 133; 69; 91; 114; 73; 77; 145;
   85; 10; 126; 173; 20; 107; 182; 2; 140; 181; 101; 120; 213; 69; 152; 209; 205; 134; 162; 221;
   117; 162; 206; 148; 74; 141; 129; 86; 186; 110; 90; 138; 143; 218; 130; 122; 213; 102; 103; 229;
   134; 136; 209; 174; 119; 81; 135; 150; 163; 78; 131; 74; 77; 114; 75; 69; 145; 171; 74; 124].
Definition chinese_row_70 : list Z :=
  [90; 21; 107; 106; 3; 140; 105; 71; 122; 169; 75; 152; 81; 199; 134; 165; 22; 116; 165; 202;
   148; 77; 197; 127; 173; 234; 108; 181; 202; 141; 178; 69; 124; 169; 107; 103; 169; 139; 136; 146;
   189; 119; 146; 77; 152; 165; 74; 131; 85; 149; 112; 86; 69; 145; 181; 10; 126; 180; 21; 107;
   212; 5; 140; 201; 78; 122; 201; 14; 154; 146; 206; 134; 166; 12; 116; 171; 10; 147; 90; 133;
   129; 218; 234; 108; 106; 203; 141; 84; 71; 124; 73; 47; 105; 73; 135; 136; 147; 246; 117; 149].
Definition chinese_row_71 : list Z :=
  [134; 150; 171; 68; 131; 107; 197; 110; 181; 133; 143; 106; 11; 126; 100; 215; 108; 164; 11; 140;
   73; 187; 121; 73; 13; 154; 149; 202; 134; 173; 116; 114; 182; 2; 147; 181; 197; 127; 170; 171;
   110; 210; 205; 141; 164; 77; 124; 73; 61; 105; 74; 77; 138; 150; 10; 118; 155; 202; 148; 90;
   69; 131; 213; 134; 112; 233; 134; 143; 210; 14; 126; 164; 206; 108; 165; 14; 140; 74; 173; 121;
   75; 69; 152; 171; 10; 133; 90; 53; 116; 106; 5; 147; 105; 199; 127; 82; 183; 110; 82; 135].
Definition chinese_row_72 : list Z :=
  [143; 165; 134; 122; 75; 149; 103; 77; 133; 136; 173; 10; 118; 181; 202; 148; 180; 69; 131; 169;
   139; 112; 169; 75; 145; 146; 13; 126; 37; 59; 107; 165; 10; 140; 85; 53; 122; 86; 69; 152;
   213; 10; 133; 212; 53; 116; 212; 198; 148; 201; 206; 127; 146; 189; 110; 146; 142; 143; 38; 77;
   124; 86; 121; 103; 90; 133; 136; 218; 234; 117; 106; 139; 150; 84; 71; 131; 73; 143; 112; 73;
   71; 145; 147; 6; 126; 43; 85; 105; 173; 68; 138; 107; 101; 120; 181; 69; 152; 106; 11; 133].
Definition chinese_row_73 : list Z :=
  [100; 23; 116; 164; 203; 148; 73; 139; 129; 149; 250; 108; 149; 202; 141; 173; 132; 122; 173; 105;
   103; 181; 197; 134; 178; 13; 118; 210; 141; 150; 164; 13; 133; 73; 157; 112; 74; 77; 145; 150;
   10; 126; 54; 53; 107; 90; 69; 138; 213; 134; 120; 233; 70; 152; 210; 206; 134; 164; 14; 116;
   165; 6; 147; 75; 197; 127; 151; 234; 108; 171; 10; 140; 90; 133; 122; 213; 106; 103; 105; 139;
   136; 82; 247; 117; 82; 135; 150; 37; 75; 131; 75; 149; 112; 85; 133; 143; 173; 74; 124; 106].
Definition chinese_row_74 : list Z :=
  [21; 107; 180; 5; 140; 169; 139; 120; 169; 77; 152; 146; 205; 134; 37; 59; 116; 38; 11; 147;
   85; 197; 127; 181; 234; 108; 214; 202; 141; 212; 133; 122; 169; 109; 103; 201; 142; 136; 146; 222;
   119; 146; 142; 150; 42; 77; 131; 86; 137; 112; 91; 133; 143; 218; 74; 124; 212; 22; 107; 100;
   7; 140; 73; 79; 122; 73; 71; 152; 147; 6; 133; 43; 117; 114; 45; 5; 147; 109; 5; 126;
   106; 235; 108; 170; 203; 141; 164; 71; 124; 73; 151; 103; 73; 139; 136; 149; 26; 118; 149; 138].
Definition chinese_row_75 : list Z :=
  [150; 45; 133; 129; 173; 201; 110; 181; 133; 143; 178; 13; 126; 164; 59; 107; 164; 13; 140; 73;
   205; 120; 149; 186; 101; 150; 10; 133; 86; 117; 114; 90; 5; 147; 213; 198; 127; 210; 237; 108;
   210; 206; 141; 164; 78; 124; 74; 77; 105; 75; 197; 134; 155; 74; 116; 171; 202; 148; 106; 69;
   131; 217; 202; 110; 105; 139; 143; 82; 7; 126; 165; 54; 107; 37; 75; 138; 75; 117; 120; 85;
   69; 152; 173; 10; 133; 106; 117; 114; 180; 5; 147; 169; 203; 127; 146; 187; 110; 146; 205; 141].
Definition chinese_row_76 : list Z :=
  [37; 139; 122; 77; 154; 103; 86; 137; 136; 181; 74; 116; 218; 202; 148; 212; 69; 131; 169; 141;
   112; 201; 142; 143; 146; 14; 126; 37; 61; 107; 42; 13; 140; 86; 73; 120; 91; 133; 150; 218;
   10; 133; 212; 54; 116; 100; 7; 147; 73; 207; 127; 146; 174; 110; 147; 198; 141; 43; 197; 120;
   91; 202; 101; 109; 201; 134; 106; 11; 118; 170; 203; 148; 164; 71; 131; 73; 151; 112; 73; 75;
   145; 149; 74; 124; 43; 117; 105; 53; 69; 138; 173; 138; 120; 181; 133; 150; 178; 13; 133; 164].
Definition chinese_row_77 : list Z :=
  [59; 116; 164; 205; 148; 74; 205; 127; 149; 26; 109; 150; 202; 141; 86; 133; 122; 181; 170; 101;
   213; 202; 134; 210; 13; 118; 210; 134; 150; 165; 142; 129; 74; 141; 112; 75; 133; 143; 171; 74;
   124; 86; 117; 105; 106; 69; 138; 233; 138; 120; 105; 75; 152; 82; 7; 133; 37; 119; 114; 37;
   11; 147; 75; 198; 127; 171; 74; 107; 173; 10; 140; 106; 133; 122; 105; 139; 103; 169; 203; 134;
   146; 27; 118; 146; 141; 150; 37; 75; 131; 77; 250; 110; 86; 137; 143; 181; 74; 124; 180; 53].
Definition chinese_row_78 : list Z :=
  [107; 212; 69; 138; 169; 13; 119; 146; 189; 101; 146; 206; 134; 37; 125; 114; 42; 13; 147; 86;
   202; 127; 214; 242; 108; 218; 10; 140; 212; 134; 122; 201; 142; 103; 73; 143; 136; 146; 14; 118;
   149; 198; 148; 43; 133; 129; 91; 234; 110; 109; 201; 141; 106; 75; 124; 100; 55; 107; 164; 7;
   140; 73; 7; 119; 147; 22; 100; 149; 10; 133; 43; 149; 114; 85; 69; 145; 173; 10; 126; 170;
   21; 109; 178; 205; 141; 164; 139; 122; 73; 155; 103; 74; 141; 136; 149; 26; 118; 150; 202; 148].
Definition chinese_row_79 : list Z :=
  [86; 133; 129; 181; 202; 110; 217; 138; 143; 210; 69; 124; 165; 109; 105; 165; 78; 138; 74; 205;
   120; 150; 234; 99; 171; 74; 131; 90; 117; 114; 106; 5; 147; 233; 10; 126; 210; 246; 108; 82;
   199; 141; 37; 135; 122; 75; 214; 101; 75; 198; 134; 171; 74; 116; 173; 202; 148; 108; 133; 129;
   105; 203; 110; 169; 139; 143; 146; 11; 126; 37; 123; 105; 37; 75; 138; 85; 10; 119; 173; 244;
   99; 181; 66; 131; 181; 213; 112; 212; 5; 147; 201; 205; 127; 162; 29; 109; 146; 206; 141; 38].
Definition chinese_row_80 : list Z :=
  [141; 122; 85; 154; 103; 86; 202; 134; 214; 146; 116; 234; 202; 148; 212; 70; 131; 201; 206; 110;
   73; 143; 143; 146; 14; 126; 42; 45; 107; 43; 133; 136; 91; 202; 118; 173; 137; 150; 106; 3;
   133; 101; 183; 112; 164; 11; 147; 73; 199; 127; 147; 22; 109; 149; 10; 140; 43; 197; 120; 171;
   202; 101; 181; 202; 134; 170; 85; 116; 210; 205; 148; 164; 75; 131; 73; 187; 112; 74; 141; 143;
   149; 74; 124; 77; 117; 105; 86; 69; 138; 181; 74; 117; 178; 245; 99; 210; 5; 133; 165; 109].
Definition chinese_row_81 : list Z :=
  [114; 197; 78; 145; 74; 205; 127; 166; 12; 109; 171; 10; 140; 90; 197; 120; 213; 202; 101; 233;
   202; 134; 210; 182; 118; 82; 199; 148; 69; 135; 129; 139; 246; 110; 83; 134; 143; 171; 140; 122;
   90; 101; 105; 109; 133; 136; 105; 11; 119; 82; 23; 100; 162; 11; 133; 69; 123; 114; 69; 13;
   147; 85; 10; 126; 173; 84; 107; 181; 2; 140; 181; 197; 120; 170; 203; 101; 201; 205; 134; 162;
   29; 118; 162; 142; 150; 74; 141; 129; 85; 250; 110; 90; 138; 143; 214; 66; 124; 213; 166; 103].
Definition chinese_row_82 : list Z :=
  [213; 134; 136; 209; 14; 119; 162; 206; 101; 163; 78; 131; 74; 109; 114; 43; 69; 145; 107; 10;
   126; 90; 85; 107; 106; 3; 140; 101; 199; 120; 81; 151; 103; 81; 199; 134; 165; 246; 116; 165;
   202; 148; 77; 133; 129; 171; 42; 109; 181; 202; 141; 170; 69; 124; 169; 107; 105; 169; 139; 136;
   82; 11; 119; 165; 250; 99; 165; 10; 133; 85; 213; 112; 86; 69; 145; 181; 10; 126; 178; 21;
   109; 212; 5; 140; 169; 206; 120; 138; 157; 103; 138; 142; 136; 166; 140; 116; 171; 10; 147; 90].
Definition chinese_row_83 : list Z :=
  [133; 129; 213; 234; 110; 106; 203; 141; 84; 71; 124; 201; 110; 105; 69; 71; 138; 139; 70; 117;
   171; 76; 98; 171; 68; 131; 107; 197; 112; 109; 133; 143; 106; 11; 126; 84; 23; 109; 162; 203;
   141; 69; 203; 120; 147; 250; 101; 149; 202; 134; 173; 148; 116; 182; 2; 147; 181; 197; 127; 170;
   235; 110; 209; 141; 143; 162; 77; 124; 69; 125; 105; 74; 77; 138; 150; 10; 119; 181; 52; 98;
   214; 68; 131; 213; 166; 112; 229; 70; 145; 209; 14; 126; 162; 14; 109; 165; 14; 140; 74; 141].
Definition chinese_row_84 : list Z :=
  [122; 150; 234; 101; 171; 10; 133; 90; 245; 116; 106; 195; 148; 105; 199; 127; 82; 247; 110; 82;
   135; 143; 165; 70; 124; 75; 213; 103; 77; 133; 136; 173; 74; 117; 106; 21; 100; 178; 69; 131;
   169; 203; 112; 169; 75; 145; 146; 205; 127; 37; 91; 107; 165; 10; 140; 85; 197; 120; 173; 202;
   101; 213; 10; 133; 181; 5; 117; 212; 198; 148; 201; 142; 129; 146; 253; 110; 146; 142; 143; 38;
   77; 124; 86; 117; 105; 90; 133; 136; 218; 74; 117; 212; 246; 99; 84; 7; 133; 201; 174; 112].
Definition chinese_row_85 : list Z :=
  [73; 71; 145; 147; 6; 126; 43; 77; 107; 171; 68; 138; 107; 5; 119; 106; 203; 101; 106; 203;
   134; 100; 135; 115; 73; 119; 96; 73; 139; 129; 147; 250; 110; 149; 202; 141; 173; 132; 122; 173;
   197; 103; 181; 133; 136; 170; 75; 117; 164; 251; 99; 164; 13; 133; 73; 157; 114; 74; 77; 145;
   150; 10; 126; 54; 85; 107; 90; 5; 140; 213; 6; 119; 210; 205; 101; 210; 206; 134; 164; 206;
   118; 165; 14; 147; 74; 141; 129; 150; 234; 110; 171; 202; 141; 90; 133; 122; 213; 170; 103; 105].
Definition chinese_row_86 : list Z :=
  [139; 136; 82; 7; 119; 165; 78; 98; 165; 70; 131; 75; 213; 112; 77; 69; 145; 173; 74; 124;
   106; 85; 107; 180; 5; 140; 169; 203; 120; 82; 247; 101; 146; 205; 134; 37; 123; 116; 37; 203;
   148; 85; 197; 127; 173; 42; 109; 213; 202; 141; 212; 69; 124; 169; 173; 103; 201; 142; 136; 146;
   13; 119; 37; 29; 100; 38; 77; 131; 86; 249; 112; 90; 69; 145; 218; 10; 126; 212; 86; 107;
   84; 7; 140; 73; 207; 120; 146; 174; 103; 147; 6; 133; 43; 53; 115; 173; 4; 147; 107; 197].
Definition chinese_row_87 : list Z :=
  [127; 106; 43; 109; 170; 203; 141; 100; 71; 124; 73; 151; 105; 73; 139; 136; 147; 74; 117; 43;
   85; 98; 45; 69; 131; 173; 9; 111; 181; 133; 143; 178; 11; 126; 164; 27; 109; 164; 13; 140;
   73; 205; 120; 149; 250; 101; 150; 202; 134; 54; 53; 115; 90; 5; 147; 213; 198; 127; 210; 237;
   110; 210; 206; 141; 164; 78; 124; 74; 141; 105; 75; 133; 136; 151; 138; 115; 86; 85; 98; 90;
   69; 131; 217; 202; 112; 105; 139; 143; 82; 7; 126; 165; 78; 107; 37; 11; 140; 75; 5; 119].
Definition chinese_row_88 : list Z :=
  [171; 42; 100; 173; 10; 133; 106; 133; 115; 105; 171; 94; 169; 203; 127; 82; 247; 110; 146; 141;
   143; 37; 139; 122; 77; 214; 103; 85; 137; 136; 181; 74; 117; 172; 53; 98; 212; 69; 131; 169;
   205; 112; 201; 78; 145; 146; 14; 126; 37; 93; 107; 42; 13; 140; 86; 201; 120; 182; 42; 100;
   218; 10; 133; 212; 134; 115; 201; 110; 96; 73; 207; 127; 146; 238; 110; 147; 198; 141; 43; 133;
   122; 91; 10; 102; 107; 201; 134; 106; 75; 117; 84; 23; 100; 164; 71; 131; 73; 215; 112; 73].
Definition chinese_row_89 : list Z :=
  [75; 145; 149; 10; 126; 43; 181; 105; 45; 69; 138; 173; 9; 119; 106; 235; 101; 178; 13; 133;
   164; 139; 115; 73; 123; 96; 73; 141; 129; 149; 58; 109; 150; 202; 141; 86; 133; 122; 181; 170;
   103; 213; 202; 134; 210; 77; 117; 164; 29; 100; 164; 14; 133; 74; 237; 112; 75; 133; 143; 151;
   74; 124; 86; 117; 107; 106; 69; 138; 233; 10; 119; 210; 246; 101; 82; 199; 134; 37; 207; 113;
   74; 118; 96; 75; 198; 127; 171; 74; 109; 173; 10; 140; 106; 133; 122; 105; 203; 103; 169; 139].
Definition chinese_row_90 : list Z :=
  [136; 146; 75; 117; 37; 91; 98; 37; 75; 131; 77; 250; 112; 86; 137; 143; 181; 74; 124; 180;
   85; 107; 212; 5; 140; 169; 13; 119; 146; 253; 101; 146; 206; 134; 37; 141; 115; 85; 186; 94;
   86; 202; 127; 182; 82; 109; 218; 202; 141; 212; 134; 122; 201; 206; 103; 73; 143; 136; 146; 14;
   119; 38; 109; 98; 43; 133; 129; 91; 42; 111; 109; 137; 143; 106; 75; 124; 84; 119; 107; 164;
   7; 140; 73; 199; 120; 147; 54; 100; 149; 10; 133; 43; 197; 113; 107; 170; 94; 173; 10; 126].
Definition chinese_row_91 : list Z :=
  [106; 75; 109; 178; 205; 141; 164; 75; 124; 73; 219; 103; 74; 141; 136; 149; 74; 117; 45; 85;
   98; 86; 133; 129; 181; 42; 111; 213; 138; 143; 210; 5; 126; 165; 141; 105; 165; 78; 138; 74;
   205; 120; 150; 234; 101; 171; 74; 131; 90; 197; 113; 213; 170; 94; 233; 202; 127; 210; 54; 109;
   82; 199; 141; 37; 135; 122; 75; 214; 103; 75; 198; 134; 171; 138; 115; 90; 85; 98; 108; 69;
   131; 105; 43; 111; 169; 139; 143; 146; 11; 126; 37; 123; 107; 37; 75; 138; 85; 10; 119; 173].
Definition chinese_row_92 : list Z :=
  [52; 100; 181; 2; 133; 181; 5; 112; 169; 171; 94; 201; 205; 127; 146; 253; 110; 146; 206; 141;
   37; 141; 122; 85; 218; 103; 86; 138; 136; 214; 130; 115; 181; 149; 96; 212; 70; 131; 201; 206;
   112; 73; 143; 143; 146; 14; 126; 42; 109; 107; 43; 69; 138; 91; 74; 117; 90; 53; 100; 106;
   11; 133; 100; 135; 115; 73; 175; 94; 73; 199; 127; 147; 86; 109; 149; 202; 141; 43; 197; 120;
   171; 10; 102; 181; 202; 134; 170; 69; 117; 101; 155; 96; 164; 75; 131; 73; 251; 112; 74; 77].
Definition chinese_row_93 : list Z :=
  [145; 149; 74; 124; 77; 181; 105; 86; 69; 138; 181; 10; 119; 178; 53; 100; 210; 5; 133; 165;
   205; 113; 74; 157; 96; 74; 205; 127; 150; 74; 109; 171; 10; 140; 90; 133; 122; 213; 10; 102;
   233; 202; 134; 210; 70; 117; 165; 110; 98; 69; 135; 129; 139; 22; 111; 83; 134; 143; 171; 68;
   124; 91; 245; 103; 108; 69; 138; 105; 11; 119; 82; 247; 101; 146; 11; 133; 69; 203; 113; 139;
   214; 94; 85; 202; 127; 173; 148; 107; 181; 2; 140; 181; 197; 120; 169; 203; 103; 201; 205; 134].
Definition chinese_row_94 : list Z :=
  [162; 77; 117; 69; 125; 98; 70; 77; 131; 85; 58; 111; 86; 138; 143; 214; 66; 124; 213; 166;
   105; 213; 134; 136; 209; 14; 119; 162; 254; 101; 162; 206; 134; 74; 205; 113; 86; 202; 94; 91;
   10; 126; 90; 85; 109; 106; 3; 140; 101; 199; 120; 81; 215; 103; 81; 135; 136; 149; 134; 115;
   43; 181; 96; 77; 133; 129; 171; 74; 111; 181; 202; 141; 170; 69; 124; 165; 187; 105; 168; 11;
   140; 82; 11; 119; 149; 58; 100; 149; 10; 133; 77; 197; 113; 173; 234; 92; 181; 10; 126; 178].
Definition chinese_row_95 : list Z :=
  [85; 109; 210; 197; 141; 165; 206; 120; 138; 221; 103; 138; 142; 136; 166; 76; 117; 86; 181; 96;
   90; 133; 129; 213; 74; 111; 233; 138; 143; 210; 70; 124; 197; 174; 105; 69; 71; 138; 139; 6;
   119; 167; 140; 98; 171; 68; 131; 91; 5; 112; 218; 170; 94; 106; 11; 126; 82; 87; 109; 162;
   203; 141; 69; 139; 122; 147; 26; 102; 149; 202; 134; 173; 132; 115; 109; 133; 96; 181; 197; 127;
   170; 203; 111; 209; 141; 143; 162; 13; 126; 69; 189; 105; 74; 77; 138; 150; 10; 119; 173; 84].
Definition chinese_row_96 : list Z :=
  [100; 214; 66; 131; 213; 6; 112; 170; 205; 94; 209; 206; 127; 162; 78; 109; 165; 14; 140; 74;
   141; 122; 150; 234; 103; 155; 10; 133; 90; 133; 115; 213; 166; 96; 101; 135; 129; 82; 71; 110;
   163; 46; 91; 165; 70; 124; 75; 181; 105; 77; 133; 136; 173; 74; 117; 106; 85; 100; 170; 5;
   133; 169; 11; 112; 82; 215; 94; 82; 205; 127; 37; 91; 109; 165; 10; 140; 85; 197; 120; 173;
   10; 102; 181; 202; 134; 180; 133; 115; 169; 139; 96; 201; 142; 129; 146; 253; 112; 146; 142; 143].
Definition chinese_row_97 : list Z :=
  [166; 76; 124; 86; 185; 105; 90; 69; 138; 218; 74; 117; 212; 54; 100; 84; 7; 133; 201; 206;
   113; 146; 206; 94; 147; 6; 126; 43; 141; 107; 171; 4; 140; 107; 5; 119; 90; 43; 102; 106;
   203; 134; 100; 71; 117; 73; 183; 96; 73; 139; 129; 147; 90; 111; 149; 138; 143; 173; 132; 122;
   109; 229; 103; 181; 133; 136; 170; 11; 119; 164; 59; 100; 164; 13; 133; 73; 205; 113; 149; 218;
   94; 150; 10; 126; 53; 149; 107; 90; 5; 140; 213; 198; 120; 210; 13; 102; 210; 206; 134; 164].
Definition chinese_row_98 : list Z :=
  [78; 117; 74; 125; 98; 74; 141; 129; 150; 74; 111; 171; 202; 141; 90; 69; 124; 213; 234; 103;
   105; 135; 136; 82; 7; 119; 165; 78; 100; 165; 70; 131; 75; 5; 112; 155; 10; 93; 173; 10;
   126; 106; 181; 107; 180; 5; 140; 169; 203; 120; 82; 215; 103; 146; 205; 134; 37; 139; 115; 75;
   181; 96; 85; 133; 129; 173; 10; 110; 181; 202; 141; 180; 69; 124; 169; 173; 105; 201; 142; 136;
   146; 13; 119; 37; 93; 100; 38; 13; 133; 86; 9; 112; 181; 10; 93; 218; 10; 126; 212; 86].
Definition chinese_row_99 : list Z :=
  [109; 84; 7; 140; 73; 207; 120; 146; 238; 103; 147; 198; 134; 43; 197; 113; 87; 233; 94; 107;
   201; 127; 106; 75; 110; 212; 54; 91; 100; 71; 124; 73; 183; 105; 73; 75; 138; 147; 74; 117;
   43; 149; 98; 45; 69; 131; 173; 9; 112; 106; 11; 93; 170; 13; 126; 164; 91; 109; 164; 205;
   141; 73; 205; 120; 149; 58; 102; 150; 202; 134; 54; 133; 115; 181; 234; 94; 213; 198; 127; 210;
   77; 110; 164; 253; 92; 164; 78; 124; 74; 189; 105; 74; 69; 138; 151; 74; 117; 86; 149; 98].
Definition chinese_row_100 : list Z :=
  [90; 69; 131; 213; 10; 112; 210; 214; 94; 82; 7; 126; 165; 142; 107; 37; 7; 140; 75; 197;
   120; 155; 106; 100; 173; 10; 133; 106; 133; 115; 105; 171; 96; 169; 203; 127; 82; 71; 110; 37;
   59; 91; 37; 75; 124; 75; 246; 103; 85; 133; 136; 173; 74; 117; 172; 85; 100; 212; 69; 131;
   169; 13; 112; 146; 221; 94; 146; 206; 127; 37; 157; 107; 38; 13; 140; 86; 201; 120; 182; 42;
   102; 218; 10; 133; 212; 134; 115; 201; 174; 96; 73; 143; 129; 146; 78; 110; 38; 45; 91; 43].
Definition chinese_row_101 : list Z :=
  [133; 122; 91; 10; 104; 107; 201; 134; 106; 75; 117; 84; 87; 100; 100; 7; 133; 73; 7; 112;
   147; 22; 93; 149; 10; 126; 43; 181; 107; 45; 69; 138; 173; 9; 119; 106; 11; 102; 178; 205;
   134; 164; 139; 115; 73; 187; 96; 73; 141; 129; 149; 74; 110; 45; 117; 89; 86; 133; 122; 181;
   10; 104; 213; 138; 136; 210; 77; 117; 164; 93; 100; 164; 14; 133; 74; 205; 113; 150; 42; 93;
   151; 74; 124; 86; 181; 107; 90; 5; 140; 217; 10; 119; 210; 54; 102; 82; 199; 134; 165; 142].
Definition chinese_row_102 : list Z :=
  [115; 74; 214; 96; 75; 198; 127; 171; 138; 108; 90; 53; 91; 106; 133; 122; 105; 235; 103; 169;
   139; 136; 146; 11; 119; 37; 155; 98; 37; 75; 131; 77; 10; 112; 173; 18; 93; 181; 74; 124;
   172; 181; 107; 212; 5; 140; 169; 205; 120; 146; 61; 102; 146; 206; 134; 37; 141; 115; 85; 186;
   96; 86; 202; 127; 182; 130; 108; 181; 117; 89; 212; 70; 124; 201; 238; 103; 73; 143; 136; 146;
   14; 119; 38; 77; 100; 43; 133; 129; 91; 74; 110; 218; 18; 93; 106; 11; 126; 84; 55; 108].
Definition chinese_row_103 : list Z :=
  [164; 7; 140; 73; 199; 120; 147; 54; 102; 149; 10; 133; 43; 197; 113; 107; 234; 94; 173; 202;
   127; 106; 141; 108; 100; 59; 91; 164; 75; 124; 73; 187; 105; 74; 141; 136; 149; 74; 117; 45;
   149; 98; 86; 69; 131; 181; 74; 110; 170; 21; 93; 210; 13; 126; 164; 77; 109; 165; 78; 138;
   74; 205; 120; 150; 42; 102; 171; 10; 133; 86; 197; 113; 213; 234; 94; 217; 202; 127; 210; 70;
   110; 165; 110; 89; 37; 135; 122; 75; 22; 104; 75; 134; 136; 171; 138; 115; 90; 149; 98; 106].
Definition chinese_row_104 : list Z :=
  [69; 131; 105; 11; 112; 82; 23; 93; 146; 11; 126; 37; 187; 107; 37; 11; 140; 77; 10; 119;
   173; 116; 100; 181; 2; 133; 181; 197; 113; 169; 235; 94; 169; 205; 127; 146; 77; 110; 37; 93;
   91; 37; 141; 122; 85; 26; 104; 86; 138; 136; 214; 66; 117; 181; 213; 96; 212; 70; 131; 201;
   14; 112; 146; 254; 94; 146; 14; 126; 38; 173; 107; 43; 69; 138; 91; 10; 119; 218; 116; 100;
   106; 11; 133; 100; 135; 115; 73; 207; 96; 73; 199; 127; 147; 134; 108; 43; 149; 89; 43; 133].
Definition chinese_row_105 : list Z :=
  [122; 171; 74; 102; 173; 202; 134; 106; 69; 117; 101; 155; 98; 164; 75; 131; 73; 11; 112; 149;
   58; 93; 149; 10; 126; 45; 245; 105; 86; 69; 138; 181; 10; 119; 178; 53; 102; 210; 5; 133;
   165; 205; 113; 74; 221; 96; 74; 142; 129; 150; 138; 108; 86; 117; 89; 86; 133; 122; 213; 10;
   104; 233; 202; 134; 210; 70; 117; 165; 142; 98; 37; 71; 131; 75; 70; 110; 151; 108; 91; 171;
   74; 124; 90; 37; 108; 109; 133; 136; 105; 11; 119; 82; 55; 102; 146; 203; 134; 69; 203; 113].
Definition chinese_row_106 : list Z :=
  [75; 22; 95; 85; 202; 127; 173; 132; 108; 107; 197; 87; 181; 197; 120; 169; 11; 104; 201; 141;
   136; 162; 77; 117; 69; 157; 98; 38; 77; 131; 85; 10; 112; 173; 116; 91; 214; 66; 124; 181;
   101; 106; 213; 70; 138; 201; 14; 119; 162; 62; 102; 162; 206; 134; 42; 141; 115; 86; 10; 95;
   91; 10; 126; 90; 133; 108; 213; 102; 89; 101; 199; 120; 73; 23; 104; 81; 135; 136; 149; 70;
   117; 43; 213; 96; 43; 133; 129; 171; 74; 110; 106; 21; 93; 170; 69; 124; 165; 235; 105; 165].
Definition chinese_row_107 : list Z :=
  [75; 138; 73; 203; 120; 149; 122; 100; 149; 10; 133; 77; 197; 113; 173; 10; 95; 181; 10; 126;
   178; 133; 108; 165; 139; 89; 165; 141; 122; 138; 29; 104; 138; 142; 136; 166; 76; 117; 86; 181;
   98; 90; 133; 129; 213; 74; 110; 212; 53; 93; 210; 6; 126; 197; 142; 106; 69; 71; 138; 139;
   6; 119; 167; 108; 100; 171; 68; 131; 91; 5; 112; 218; 10; 95; 106; 203; 127; 82; 135; 108;
   69; 151; 89; 69; 139; 122; 139; 26; 104; 85; 202; 134; 173; 132; 115; 109; 197; 96; 181; 133].
Definition chinese_row_108 : list Z :=
  [129; 170; 75; 110; 146; 59; 93; 162; 13; 126; 69; 189; 107; 74; 77; 138; 85; 10; 119; 173;
   148; 100; 214; 4; 133; 213; 6; 112; 170; 13; 95; 210; 206; 127; 162; 78; 110; 70; 189; 89;
   74; 141; 122; 150; 10; 104; 155; 202; 134; 90; 133; 115; 213; 230; 96; 101; 135; 129; 82; 7;
   112; 163; 110; 91; 165; 70; 124; 75; 245; 105; 77; 69; 138; 171; 74; 117; 106; 117; 100; 170;
   5; 133; 169; 203; 113; 82; 247; 94; 82; 203; 127; 37; 139; 108; 75; 149; 89; 85; 197; 120].
Definition chinese_row_109 : list Z :=
  [173; 74; 102; 181; 202; 134; 180; 69; 117; 169; 203; 96; 169; 142; 129; 146; 13; 112; 37; 61;
   93; 166; 76; 124; 86; 57; 106; 90; 69; 138; 214; 10; 119; 212; 118; 100; 84; 7; 133; 201;
   206; 113; 138; 206; 96; 147; 6; 126; 39; 205; 106; 86; 137; 89; 91; 197; 120; 90; 107; 102;
   106; 203; 134; 84; 71; 117; 73; 151; 98; 69; 139; 129; 147; 74; 110; 43; 117; 91; 173; 68;
   124; 109; 137; 104; 181; 133; 136; 170; 11; 119; 164; 59; 102; 164; 13; 133; 73; 205; 113; 149].
Definition chinese_row_110 : list Z :=
  [26; 95; 150; 202; 127; 53; 197; 106; 173; 202; 87; 213; 198; 120; 170; 13; 104; 210; 206; 134;
   164; 78; 117; 74; 189; 98; 74; 77; 131; 150; 74; 110; 86; 117; 91; 90; 69; 124; 213; 138;
   106; 105; 135; 136; 82; 7; 119; 165; 110; 100; 165; 6; 133; 75; 5; 112; 155; 74; 93; 173;
   10; 126; 106; 133; 108; 101; 203; 87; 169; 203; 120; 82; 55; 104; 146; 139; 136; 37; 139; 115;
   75; 246; 96; 85; 133; 129; 173; 74; 110; 106; 117; 91; 180; 69; 124; 169; 13; 105; 146; 189].
Definition chinese_row_111 : list Z :=
  [87; 146; 13; 119; 37; 157; 100; 38; 13; 133; 86; 201; 113; 181; 74; 93; 218; 10; 126; 212;
   134; 108; 169; 142; 89; 201; 206; 120; 146; 14; 104; 147; 198; 134; 43; 141; 115; 86; 233; 96;
   107; 201; 127; 106; 75; 110; 212; 54; 93; 100; 71; 124; 73; 7; 105; 147; 22; 86; 147; 10;
   119; 43; 213; 98; 45; 69; 131; 173; 9; 112; 106; 11; 95; 170; 13; 126; 164; 139; 108; 73;
   155; 89; 73; 141; 122; 149; 90; 102; 150; 202; 134; 54; 133; 115; 181; 234; 96; 213; 198; 127].
Definition chinese_row_112 : list Z :=
  [210; 77; 110; 164; 61; 93; 164; 14; 126; 74; 13; 105; 149; 250; 85; 150; 10; 119; 86; 149;
   100; 90; 69; 131; 213; 10; 112; 210; 22; 95; 82; 199; 127; 165; 206; 106; 74; 142; 89; 75;
   198; 120; 155; 106; 102; 173; 10; 133; 106; 133; 115; 105; 203; 96; 169; 139; 129; 82; 71; 110;
   37; 123; 91; 37; 75; 124; 75; 6; 105; 171; 74; 84; 173; 74; 117; 172; 149; 100; 180; 5;
   133; 169; 13; 112; 146; 29; 95; 146; 205; 127; 37; 141; 108; 77; 250; 87; 86; 201; 120; 181].
Definition chinese_row_113 : list Z :=
  [138; 102; 218; 202; 134; 212; 134; 115; 201; 238; 96; 73; 143; 129; 146; 14; 112; 38; 141; 91;
   43; 133; 122; 87; 202; 104; 107; 137; 136; 106; 75; 117; 212; 150; 100; 100; 7; 133; 73; 199;
   113; 147; 86; 93; 147; 10; 126; 43; 197; 106; 91; 202; 87; 173; 10; 119; 106; 107; 102; 170;
   205; 134; 164; 75; 117; 73; 251; 96; 73; 141; 129; 149; 74; 110; 45; 149; 91; 54; 133; 122;
   181; 74; 103; 170; 245; 85; 210; 13; 119; 164; 157; 100; 164; 14; 133; 74; 205; 113; 149; 42].
Definition chinese_row_114 : list Z :=
  [95; 151; 74; 124; 86; 197; 106; 181; 234; 87; 217; 202; 120; 210; 118; 102; 82; 199; 134; 165;
   142; 115; 74; 182; 98; 75; 198; 127; 171; 138; 108; 90; 117; 91; 106; 69; 124; 105; 75; 103;
   82; 23; 86; 82; 7; 119; 37; 155; 100; 37; 75; 131; 75; 10; 112; 171; 82; 93; 173; 10;
   126; 172; 197; 106; 169; 203; 87; 169; 205; 120; 146; 29; 104; 146; 206; 134; 37; 141; 115; 85;
   250; 96; 86; 138; 129; 182; 130; 108; 181; 181; 89; 212; 70; 124; 201; 14; 105; 146; 30; 86].
Definition chinese_row_115 : list Z :=
  [146; 14; 119; 38; 141; 100; 43; 69; 131; 91; 74; 110; 214; 82; 93; 106; 11; 126; 84; 135;
   108; 73; 207; 87; 73; 199; 120; 147; 118; 102; 149; 202; 134; 43; 197; 113; 91; 42; 95; 173;
   202; 127; 106; 77; 110; 100; 123; 91; 164; 75; 124; 73; 11; 105; 149; 26; 86; 149; 74; 117;
   45; 213; 98; 86; 69; 131; 181; 10; 112; 170; 85; 93; 210; 13; 126; 164; 141; 108; 74; 189;
   89; 74; 205; 120; 150; 138; 102; 151; 10; 133; 86; 133; 115; 213; 42; 95; 217; 202; 127; 210].
Definition chinese_row_116 : list Z :=
  [70; 110; 165; 142; 91; 37; 143; 122; 74; 6; 105; 151; 76; 84; 171; 74; 117; 90; 213; 98;
   106; 69; 131; 105; 11; 112; 82; 23; 95; 146; 7; 126; 37; 203; 106; 75; 246; 87; 77; 202;
   120; 173; 212; 100; 181; 2; 133; 173; 197; 113; 169; 235; 96; 169; 205; 127; 146; 77; 110; 37;
   157; 91; 37; 77; 124; 85; 74; 103; 173; 52; 84; 182; 66; 117; 181; 213; 98; 212; 70; 131;
   201; 14; 112; 146; 62; 95; 146; 206; 127; 38; 205; 106; 86; 234; 87; 91; 10; 119; 218; 146].
Definition chinese_row_117 : list Z :=
  [102; 106; 3; 133; 85; 199; 113; 73; 239; 96; 73; 135; 129; 147; 134; 108; 43; 213; 89; 43;
   133; 122; 171; 74; 103; 90; 85; 84; 106; 69; 117; 101; 219; 98; 164; 11; 133; 73; 11; 112;
   149; 122; 93; 149; 10; 126; 45; 197; 106; 173; 42; 86; 181; 10; 119; 170; 245; 102; 210; 197;
   134; 165; 205; 113; 74; 253; 96; 74; 142; 129; 150; 76; 110; 86; 213; 89; 86; 133; 122; 213;
   74; 103; 210; 21; 86; 210; 70; 117; 165; 206; 98; 37; 71; 131; 75; 6; 112; 151; 172; 91].
Definition chinese_row_118 : list Z :=
  [171; 76; 124; 90; 197; 106; 218; 202; 87; 105; 11; 119; 82; 247; 102; 146; 203; 134; 69; 139;
   115; 75; 58; 95; 85; 202; 127; 173; 132; 108; 107; 197; 89; 181; 197; 120; 170; 75; 103; 146;
   27; 86; 162; 13; 119; 69; 221; 98; 37; 77; 131; 85; 10; 112; 173; 116; 93; 214; 66; 124;
   181; 5; 105; 170; 237; 87; 201; 206; 120; 162; 158; 102; 162; 206; 134; 42; 141; 115; 86; 234;
   96; 91; 10; 126; 90; 133; 108; 213; 198; 89; 101; 135; 122; 73; 71; 103; 147; 78; 84; 147].
Definition chinese_row_119 : list Z :=
  [70; 117; 43; 213; 98; 43; 133; 129; 171; 74; 110; 90; 117; 93; 106; 5; 126; 101; 11; 105;
   74; 247; 87; 74; 203; 120; 149; 154; 102; 149; 10; 133; 77; 197; 113; 173; 74; 95; 181; 202;
   127; 178; 133; 108; 165; 203; 89; 165; 141; 122; 138; 13; 105; 21; 125; 84; 166; 76; 117; 86;
   245; 98; 90; 69; 131; 213; 74; 110; 210; 117; 93; 210; 6; 126; 165; 206; 106; 138; 238; 87;
   139; 6; 119; 167; 204; 100; 171; 4; 133; 91; 5; 112; 218; 42; 95; 106; 203; 127; 82; 71].
Definition chinese_row_120 : list Z :=
  [110; 69; 215; 89; 69; 139; 122; 139; 74; 103; 171; 84; 84; 173; 132; 115; 107; 37; 97; 181;
   133; 129; 170; 11; 112; 146; 123; 93; 162; 13; 126; 69; 205; 106; 149; 250; 87; 85; 10; 119;
   173; 52; 101; 214; 4; 133; 181; 198; 113; 170; 77; 95; 210; 206; 127; 162; 78; 110; 70; 157;
   91; 74; 141; 122; 150; 74; 103; 54; 85; 84; 90; 69; 117; 213; 42; 97; 101; 135; 129; 82;
   7; 112; 165; 78; 93; 165; 70; 124; 75; 5; 105; 151; 42; 86; 171; 10; 119; 106; 53; 101].
Definition chinese_row_121 : list Z :=
  [170; 5; 133; 169; 203; 113; 82; 247; 96; 82; 203; 127; 37; 139; 108; 75; 213; 89; 77; 133;
   122; 173; 138; 101; 106; 85; 84; 178; 69; 117; 169; 203; 98; 169; 142; 129; 146; 13; 112; 37;
   125; 93; 38; 13; 126; 86; 9; 105; 181; 42; 86; 214; 10; 119; 212; 134; 101; 169; 173; 80;
   201; 206; 113; 146; 14; 97; 147; 198; 127; 39; 205; 106; 86; 201; 89; 91; 197; 120; 218; 74;
   103; 212; 86; 84; 84; 71; 117; 73; 215; 98; 73; 75; 131; 147; 74; 110; 43; 181; 91; 173].
Definition chinese_row_122 : list Z :=
  [68; 124; 109; 9; 105; 106; 43; 86; 170; 11; 119; 164; 139; 101; 73; 123; 82; 73; 205; 113;
   149; 90; 95; 150; 202; 127; 45; 133; 108; 173; 10; 88; 213; 198; 120; 170; 77; 103; 164; 61;
   86; 164; 78; 117; 74; 253; 98; 74; 77; 131; 150; 10; 112; 86; 181; 91; 90; 69; 124; 213;
   10; 105; 210; 246; 87; 82; 7; 119; 165; 206; 99; 74; 141; 82; 75; 197; 113; 155; 138; 93;
   173; 10; 126; 106; 133; 108; 85; 203; 89; 169; 203; 120; 82; 71; 103; 37; 123; 84; 37; 75].
Definition chinese_row_123 : list Z :=
  [117; 75; 54; 97; 85; 133; 129; 173; 74; 110; 106; 117; 93; 180; 69; 124; 169; 11; 105; 146;
   253; 87; 146; 205; 120; 37; 253; 100; 38; 13; 133; 86; 201; 113; 181; 74; 95; 218; 10; 126;
   212; 134; 108; 169; 205; 89; 201; 142; 122; 146; 78; 103; 38; 109; 84; 43; 141; 115; 86; 234;
   98; 91; 201; 127; 90; 75; 110; 212; 118; 93; 100; 7; 126; 73; 7; 105; 147; 54; 86; 147;
   10; 119; 43; 53; 101; 45; 69; 131; 173; 9; 112; 106; 75; 95; 170; 203; 127; 164; 139; 108].
Definition chinese_row_124 : list Z :=
  [73; 219; 89; 73; 141; 122; 149; 74; 103; 45; 181; 82; 54; 133; 115; 173; 42; 97; 213; 134;
   129; 210; 77; 110; 164; 125; 93; 164; 14; 126; 74; 205; 106; 149; 90; 86; 150; 10; 119; 86;
   197; 99; 181; 170; 80; 213; 10; 112; 210; 86; 95; 82; 199; 127; 165; 142; 108; 74; 214; 89;
   75; 198; 120; 155; 138; 101; 90; 85; 84; 106; 133; 115; 105; 43; 97; 169; 139; 129; 82; 7;
   112; 37; 187; 91; 37; 75; 124; 75; 10; 105; 171; 82; 86; 173; 74; 117; 108; 197; 99; 105].
Definition chinese_row_125 : list Z :=
  [171; 80; 169; 205; 113; 146; 93; 95; 146; 205; 127; 37; 141; 108; 77; 250; 89; 86; 202; 120;
   181; 130; 101; 181; 181; 82; 212; 70; 117; 169; 46; 97; 73; 143; 129; 146; 14; 112; 38; 109;
   93; 43; 133; 122; 87; 74; 103; 214; 50; 86; 106; 11; 119; 212; 198; 99; 201; 206; 80; 73;
   199; 113; 147; 86; 95; 147; 10; 126; 43; 197; 106; 91; 42; 88; 173; 202; 120; 106; 141; 101;
   84; 123; 84; 164; 75; 117; 73; 251; 98; 73; 141; 129; 149; 74; 110; 45; 213; 91; 54; 69].
Definition chinese_row_126 : list Z :=
  [124; 181; 74; 103; 170; 85; 86; 210; 13; 119; 164; 141; 101; 73; 221; 80; 74; 205; 113; 150;
   74; 95; 151; 10; 126; 86; 197; 106; 181; 10; 88; 217; 202; 120; 210; 70; 103; 165; 174; 82;
   165; 142; 115; 74; 246; 98; 75; 134; 129; 171; 138; 108; 90; 181; 91; 106; 69; 124; 105; 11;
   105; 82; 55; 86; 82; 7; 119; 37; 203; 99; 75; 214; 80; 75; 10; 112; 171; 146; 93; 173;
   2; 126; 173; 197; 106; 105; 11; 88; 169; 205; 120; 146; 77; 103; 37; 125; 84; 37; 141; 115].
Definition chinese_row_127 : list Z :=
  [77; 58; 97; 86; 138; 129; 182; 66; 110; 181; 21; 90; 212; 70; 124; 201; 14; 105; 146; 30;
   88; 146; 14; 119; 38; 205; 99; 86; 202; 80; 87; 10; 112; 214; 146; 93; 106; 11; 126; 212;
   134; 108; 201; 206; 89; 73; 199; 120; 147; 134; 101; 43; 181; 82; 43; 133; 115; 91; 138; 95;
   173; 202; 127; 106; 69; 110; 101; 187; 91; 164; 75; 124; 73; 11; 105; 149; 90; 86; 149; 10;
   119; 45; 5; 98; 173; 234; 78; 181; 10; 112; 170; 85; 95; 210; 5; 126; 165; 205; 106; 74].
Definition chinese_row_128 : list Z :=
  [253; 89; 74; 141; 122; 150; 138; 101; 46; 181; 82; 86; 133; 115; 181; 74; 97; 217; 202; 127;
   210; 70; 110; 165; 174; 91; 37; 79; 124; 74; 6; 105; 151; 140; 84; 171; 74; 117; 90; 197;
   99; 213; 10; 79; 105; 11; 112; 82; 87; 95; 146; 203; 127; 37; 203; 106; 75; 54; 88; 77;
   202; 120; 173; 132; 101; 91; 229; 80; 173; 197; 113; 169; 75; 97; 169; 141; 129; 146; 77; 110;
   37; 221; 91; 37; 77; 124; 85; 10; 105; 173; 148; 84; 182; 66; 117; 181; 5; 98; 170; 205].
Definition chinese_row_129 : list Z :=
  [80; 201; 14; 112; 146; 94; 95; 146; 206; 127; 38; 141; 108; 86; 42; 88; 91; 10; 119; 90;
   133; 101; 213; 166; 82; 85; 199; 113; 73; 183; 97; 73; 135; 129; 147; 70; 110; 43; 21; 90;
   43; 133; 122; 91; 74; 103; 90; 85; 86; 106; 69; 117; 101; 11; 98; 74; 215; 80; 73; 203;
   113; 149; 154; 93; 149; 10; 126; 45; 197; 106; 173; 42; 88; 181; 10; 119; 170; 133; 101; 165;
   171; 82; 165; 141; 115; 74; 61; 97; 74; 142; 129; 150; 76; 110; 86; 213; 91; 86; 133; 122].
Definition chinese_row_130 : list Z :=
  [213; 74; 103; 178; 85; 86; 210; 6; 119; 165; 14; 98; 138; 206; 80; 75; 6; 112; 151; 140;
   93; 171; 68; 124; 91; 5; 105; 218; 42; 88; 106; 203; 120; 82; 135; 101; 37; 183; 82; 69;
   139; 115; 139; 90; 97; 85; 202; 127; 173; 132; 108; 107; 5; 90; 181; 133; 122; 170; 75; 103;
   82; 91; 86; 146; 13; 119; 69; 205; 99; 139; 58; 79; 85; 10; 112; 173; 180; 93; 214; 4;
   126; 181; 6; 105; 170; 45; 88; 201; 206; 120; 146; 78; 103; 69; 189; 82; 42; 141; 115; 86].
Definition chinese_row_131 : list Z :=
  [74; 97; 91; 202; 127; 90; 133; 108; 213; 230; 89; 101; 135; 122; 74; 7; 105; 147; 142; 84;
   149; 70; 117; 43; 5; 98; 151; 42; 79; 171; 74; 110; 90; 181; 93; 106; 5; 126; 101; 203;
   106; 74; 55; 88; 74; 203; 120; 149; 138; 101; 43; 213; 82; 77; 197; 113; 173; 138; 95; 181;
   202; 127; 178; 69; 110; 165; 11; 90; 165; 141; 122; 138; 13; 105; 21; 93; 86; 166; 76; 117;
   86; 9; 98; 173; 10; 79; 213; 10; 112; 212; 181; 93; 212; 6; 126; 165; 206; 106; 138; 238].
Definition chinese_row_132 : list Z :=
  [89; 139; 6; 119; 39; 205; 99; 86; 169; 82; 91; 197; 113; 218; 10; 96; 106; 203; 127; 84;
   71; 110; 69; 183; 91; 69; 139; 122; 139; 74; 103; 43; 149; 84; 173; 68; 117; 107; 73; 96;
   106; 11; 79; 170; 11; 112; 148; 91; 95; 162; 13; 126; 69; 205; 106; 149; 58; 88; 149; 202;
   120; 173; 196; 99; 173; 9; 81; 181; 198; 113; 170; 77; 96; 164; 61; 77; 162; 78; 110; 74;
   221; 91; 74; 77; 124; 150; 74; 103; 54; 149; 84; 90; 69; 117; 213; 10; 98; 202; 22; 79].
Definition chinese_row_133 : list Z :=
  [82; 7; 112; 165; 142; 93; 165; 6; 126; 75; 5; 105; 151; 106; 86; 171; 10; 119; 106; 133;
   101; 85; 235; 80; 105; 203; 113; 82; 71; 96; 165; 58; 77; 37; 139; 108; 75; 22; 90; 77;
   133; 122; 173; 74; 103; 106; 149; 84; 180; 69; 117; 169; 11; 98; 82; 253; 80; 146; 13; 112;
   37; 189; 93; 38; 13; 126; 86; 201; 106; 181; 106; 86; 214; 10; 119; 212; 134; 101; 169; 173;
   82; 201; 206; 113; 146; 78; 96; 38; 45; 77; 39; 141; 108; 86; 9; 90; 91; 201; 120; 90].
Definition chinese_row_134 : list Z :=
  [75; 103; 212; 86; 86; 84; 71; 117; 73; 7; 98; 147; 54; 79; 147; 10; 112; 43; 245; 91;
   45; 69; 124; 109; 9; 105; 106; 43; 88; 170; 11; 119; 164; 139; 101; 73; 219; 82; 73; 141;
   115; 149; 154; 95; 149; 202; 127; 45; 133; 108; 173; 10; 90; 213; 198; 120; 170; 77; 103; 164;
   93; 86; 164; 14; 119; 74; 13; 98; 149; 58; 79; 150; 10; 112; 54; 181; 93; 90; 69; 124;
   213; 10; 105; 210; 54; 88; 82; 199; 120; 165; 206; 99; 74; 205; 82; 75; 197; 113; 155; 202].
Definition chinese_row_135 : list Z :=
  [95; 173; 10; 126; 106; 133; 108; 89; 11; 90; 169; 139; 122; 82; 71; 103; 37; 155; 84; 37;
   75; 117; 75; 10; 98; 171; 114; 77; 173; 74; 110; 106; 181; 93; 180; 5; 126; 169; 13; 105;
   146; 61; 88; 146; 205; 120; 37; 141; 101; 77; 26; 81; 86; 202; 113; 181; 138; 94; 180; 53;
   77; 212; 134; 108; 169; 14; 90; 201; 142; 122; 146; 14; 105; 38; 141; 84; 43; 133; 115; 87;
   74; 96; 182; 50; 79; 90; 75; 110; 212; 214; 93; 100; 7; 126; 73; 199; 106; 147; 118; 86].
Definition chinese_row_136 : list Z :=
  [147; 10; 119; 43; 197; 99; 91; 10; 81; 109; 10; 112; 106; 139; 94; 84; 59; 77; 164; 75;
   110; 73; 27; 90; 73; 141; 122; 149; 74; 103; 45; 181; 84; 54; 133; 115; 173; 74; 96; 170;
   53; 79; 178; 13; 112; 164; 189; 93; 164; 14; 126; 74; 205; 106; 149; 42; 88; 151; 74; 117;
   86; 197; 99; 181; 10; 81; 213; 202; 113; 210; 134; 94; 165; 110; 75; 165; 142; 108; 74; 214;
   91; 75; 198; 120; 155; 138; 101; 90; 181; 84; 106; 69; 117; 105; 75; 96; 82; 55; 79; 82].
Definition chinese_row_137 : list Z :=
  [7; 112; 37; 187; 93; 37; 75; 124; 75; 10; 105; 171; 146; 86; 173; 10; 119; 108; 197; 99;
   105; 11; 81; 169; 205; 113; 146; 77; 96; 37; 157; 75; 37; 141; 108; 77; 58; 90; 86; 138;
   122; 182; 130; 101; 181; 245; 82; 212; 70; 117; 169; 14; 98; 146; 62; 79; 146; 14; 112; 38;
   173; 93; 43; 69; 124; 87; 74; 103; 214; 114; 86; 106; 11; 119; 212; 134; 101; 201; 14; 81;
   73; 199; 113; 147; 134; 94; 43; 149; 75; 43; 197; 106; 91; 106; 88; 173; 202; 120; 106; 69].
Definition chinese_row_138 : list Z :=
  [103; 101; 219; 82; 164; 75; 117; 73; 11; 98; 147; 58; 79; 149; 74; 110; 45; 245; 91; 86;
   69; 124; 181; 10; 105; 170; 149; 86; 210; 5; 119; 165; 205; 99; 74; 221; 82; 74; 205; 113;
   150; 138; 94; 46; 149; 75; 86; 133; 108; 181; 74; 88; 213; 202; 120; 210; 70; 103; 165; 142;
   84; 37; 143; 115; 74; 6; 98; 151; 108; 77; 155; 74; 110; 90; 21; 92; 106; 69; 124; 105;
   11; 105; 82; 55; 88; 82; 11; 119; 37; 203; 99; 75; 22; 81; 77; 202; 113; 171; 196; 92].
Definition chinese_row_139 : list Z :=
  [91; 197; 73; 173; 197; 106; 105; 43; 90; 169; 205; 120; 146; 77; 103; 37; 189; 84; 37; 77;
   117; 85; 74; 96; 173; 116; 77; 182; 66; 110; 181; 101; 92; 213; 134; 122; 201; 14; 105; 146;
   62; 88; 146; 206; 120; 38; 205; 99; 86; 10; 81; 87; 10; 112; 214; 132; 94; 213; 166; 73;
   213; 198; 106; 201; 22; 90; 73; 135; 122; 147; 134; 101; 43; 245; 82; 43; 133; 115; 91; 74;
   96; 90; 117; 77; 106; 69; 110; 101; 27; 92; 164; 11; 126; 73; 11; 105; 149; 154; 86; 149].
Definition chinese_row_140 : list Z :=
  [10; 119; 45; 197; 99; 173; 74; 79; 181; 10; 112; 170; 133; 94; 165; 139; 75; 165; 205; 106;
   74; 61; 90; 74; 142; 122; 150; 76; 103; 46; 245; 82; 86; 133; 115; 181; 74; 96; 178; 53;
   79; 210; 70; 110; 165; 14; 92; 37; 71; 124; 75; 6; 105; 151; 204; 84; 171; 76; 117; 90;
   197; 99; 214; 10; 81; 105; 11; 112; 82; 135; 94; 37; 183; 75; 37; 139; 108; 75; 122; 88;
   77; 202; 120; 171; 132; 101; 91; 229; 82; 173; 197; 113; 170; 75; 96; 82; 59; 79; 146; 13].
Definition chinese_row_141 : list Z :=
  [112; 37; 253; 91; 37; 77; 124; 85; 10; 105; 173; 148; 86; 182; 68; 117; 181; 6; 98; 170;
   13; 81; 201; 206; 113; 146; 142; 94; 37; 189; 75; 38; 141; 108; 86; 42; 90; 91; 10; 119;
   90; 133; 101; 213; 230; 82; 85; 135; 115; 73; 71; 96; 147; 110; 77; 147; 70; 110; 43; 21;
   92; 43; 133; 122; 155; 74; 103; 90; 149; 86; 106; 5; 119; 101; 11; 98; 74; 23; 81; 74;
   203; 113; 149; 138; 94; 43; 213; 73; 45; 197; 106; 173; 106; 88; 181; 202; 120; 170; 133; 101].
Definition chinese_row_142 : list Z :=
  [165; 235; 82; 165; 141; 115; 74; 13; 98; 21; 157; 77; 150; 76; 110; 86; 57; 92; 86; 69;
   124; 213; 74; 103; 178; 149; 86; 210; 6; 119; 165; 206; 99; 138; 14; 81; 139; 6; 112; 151;
   204; 92; 86; 169; 75; 91; 5; 105; 218; 106; 88; 106; 203; 120; 82; 71; 103; 37; 247; 82;
   69; 139; 115; 139; 74; 96; 171; 148; 77; 173; 132; 108; 107; 105; 90; 181; 133; 122; 170; 11;
   105; 82; 155; 86; 162; 13; 119; 69; 205; 99; 141; 58; 81; 85; 10; 112; 173; 196; 92; 173].
Definition chinese_row_143 : list Z :=
  [201; 73; 181; 198; 106; 170; 109; 88; 202; 206; 120; 162; 78; 103; 70; 189; 84; 74; 141; 115;
   150; 74; 96; 54; 117; 77; 90; 69; 110; 213; 138; 90; 101; 139; 122; 82; 7; 105; 163; 142;
   86; 149; 70; 117; 75; 5; 98; 151; 106; 79; 171; 10; 112; 90; 197; 92; 213; 234; 73; 101;
   203; 106; 82; 55; 90; 82; 203; 120; 21; 139; 101; 43; 21; 83; 77; 133; 115; 173; 138; 94;
   106; 149; 77; 178; 69; 110; 169; 11; 91; 82; 29; 72; 138; 13; 105; 21; 157; 86; 38; 13].
Definition chinese_row_144 : list Z :=
  [119; 86; 9; 98; 173; 74; 79; 214; 10; 112; 212; 133; 94; 169; 205; 73; 169; 206; 106; 138;
   14; 90; 139; 198; 120; 39; 205; 99; 86; 233; 82; 91; 201; 113; 218; 74; 96; 212; 118; 77;
   84; 71; 110; 69; 7; 91; 139; 22; 72; 147; 74; 103; 43; 213; 84; 173; 68; 117; 109; 9;
   98; 106; 75; 79; 170; 11; 112; 164; 139; 94; 69; 187; 75; 69; 205; 106; 149; 122; 88; 149;
   202; 120; 45; 133; 101; 173; 42; 81; 181; 202; 113; 170; 77; 96; 164; 93; 79; 162; 78; 110].
Definition chinese_row_145 : list Z :=
  [74; 61; 92; 74; 77; 124; 150; 10; 105; 54; 213; 84; 90; 69; 117; 213; 10; 98; 202; 22;
   81; 82; 7; 112; 165; 206; 92; 74; 173; 75; 75; 197; 106; 151; 170; 86; 171; 10; 119; 90;
   133; 101; 85; 235; 82; 169; 203; 113; 82; 71; 96; 165; 154; 77; 37; 75; 110; 75; 90; 90;
   77; 137; 122; 173; 74; 103; 106; 181; 86; 180; 69; 117; 169; 11; 98; 82; 61; 81; 146; 205;
   113; 37; 205; 92; 77; 250; 73; 86; 201; 106; 181; 138; 88; 214; 10; 119; 212; 134; 101; 169].
Definition chinese_row_146 : list Z :=
  [237; 82; 201; 142; 115; 146; 78; 96; 38; 141; 77; 39; 133; 108; 87; 138; 90; 91; 201; 120;
   90; 75; 103; 212; 150; 86; 84; 7; 119; 73; 7; 98; 147; 118; 79; 147; 10; 112; 43; 197;
   92; 91; 42; 72; 109; 10; 105; 106; 107; 88; 170; 205; 120; 164; 139; 101; 73; 251; 82; 73;
   141; 115; 149; 74; 96; 43; 213; 75; 45; 133; 108; 173; 74; 89; 106; 21; 72; 170; 77; 103;
   164; 157; 86; 164; 14; 119; 74; 205; 99; 149; 122; 79; 150; 10; 112; 86; 197; 92; 181; 234].
Definition chinese_row_147 : list Z :=
  [73; 213; 10; 105; 210; 150; 88; 82; 199; 120; 165; 142; 101; 74; 246; 82; 75; 198; 113; 155;
   138; 94; 86; 149; 77; 106; 133; 108; 89; 75; 89; 82; 23; 72; 82; 7; 105; 37; 219; 84;
   37; 75; 117; 75; 10; 98; 171; 114; 79; 173; 74; 110; 106; 197; 92; 105; 203; 73; 169; 205;
   106; 146; 125; 88; 146; 205; 120; 37; 141; 101; 77; 250; 82; 86; 202; 113; 182; 130; 94; 181;
   213; 75; 212; 70; 110; 169; 78; 89; 146; 30; 72; 146; 14; 105; 38; 141; 86; 43; 133; 115].
Definition chinese_row_148 : list Z :=
  [87; 74; 96; 182; 114; 79; 90; 11; 112; 212; 198; 92; 201; 238; 73; 73; 199; 106; 147; 118;
   88; 147; 10; 119; 43; 197; 99; 91; 74; 81; 173; 202; 113; 106; 133; 94; 85; 219; 75; 164;
   75; 110; 73; 11; 91; 147; 90; 70; 149; 74; 103; 45; 245; 84; 54; 69; 117; 173; 74; 96;
   170; 117; 79; 178; 5; 112; 165; 205; 92; 74; 253; 73; 74; 205; 106; 149; 138; 88; 151; 10;
   119; 86; 197; 99; 181; 74; 81; 213; 202; 113; 210; 70; 96; 165; 206; 75; 165; 142; 108; 74].
Definition chinese_row_149 : list Z :=
  [6; 91; 151; 108; 70; 155; 138; 101; 90; 245; 84; 106; 69; 117; 105; 11; 98; 82; 119; 79;
   82; 11; 112; 37; 203; 92; 75; 22; 74; 75; 10; 105; 171; 212; 86; 173; 2; 119; 109; 197;
   99; 105; 75; 81; 169; 205; 113; 146; 77; 96; 37; 157; 77; 37; 141; 108; 77; 154; 90; 86;
   138; 122; 182; 66; 103; 181; 5; 83; 213; 134; 115; 169; 14; 98; 146; 62; 81; 146; 14; 112;
   38; 205; 92; 86; 234; 73; 87; 10; 105; 214; 212; 86; 90; 3; 119; 213; 198; 99; 201; 246].
Definition chinese_row_150 : list Z :=
  [82; 73; 199; 113; 147; 134; 94; 43; 213; 75; 43; 133; 108; 91; 138; 87; 90; 85; 70; 106;
   69; 103; 85; 251; 84; 164; 75; 117; 73; 11; 98; 147; 122; 79; 149; 10; 112; 45; 5; 91;
   173; 74; 72; 181; 10; 105; 170; 181; 88; 210; 5; 119; 165; 205; 99; 74; 29; 83; 74; 141;
   115; 149; 140; 94; 46; 213; 75; 86; 133; 108; 181; 74; 89; 178; 85; 70; 210; 70; 103; 165;
   206; 84; 37; 71; 117; 75; 70; 96; 151; 172; 77; 171; 76; 110; 90; 197; 92; 214; 42; 72].
Definition chinese_row_151 : list Z :=
  [105; 11; 105; 82; 247; 88; 82; 203; 120; 37; 203; 99; 75; 90; 81; 75; 202; 113; 171; 132;
   94; 91; 37; 74; 173; 197; 106; 106; 75; 89; 82; 27; 72; 146; 77; 103; 37; 253; 84; 37;
   77; 117; 85; 10; 98; 173; 180; 77; 182; 68; 110; 181; 5; 91; 170; 237; 73; 201; 14; 105;
   146; 158; 88; 146; 206; 120; 38; 141; 101; 86; 74; 81; 87; 10; 112; 214; 132; 94; 213; 198;
   75; 85; 199; 106; 73; 71; 89; 147; 110; 70; 147; 70; 103; 43; 53; 83; 43; 133; 115; 91].
Definition chinese_row_152 : list Z :=
  [74; 96; 90; 117; 79; 106; 69; 110; 101; 11; 91; 74; 23; 74; 74; 203; 106; 149; 218; 86;
   149; 10; 119; 45; 197; 99; 173; 74; 81; 181; 10; 112; 170; 133; 94; 165; 203; 75; 165; 141;
   108; 74; 77; 89; 149; 124; 70; 150; 76; 103; 78; 249; 84; 86; 133; 115; 181; 74; 96; 178;
   117; 79; 210; 6; 112; 165; 14; 91; 74; 14; 74; 139; 6; 105; 151; 204; 86; 171; 68; 117;
   91; 5; 98; 214; 74; 81; 106; 203; 113; 82; 135; 94; 37; 215; 75; 37; 139; 108; 139; 74].
Definition chinese_row_153 : list Z :=
  [89; 155; 148; 68; 171; 132; 101; 91; 41; 83; 173; 133; 115; 170; 75; 96; 82; 123; 79; 146;
   13; 112; 37; 205; 92; 75; 90; 72; 85; 10; 105; 173; 244; 86; 182; 4; 119; 181; 6; 98;
   170; 77; 81; 201; 206; 113; 146; 78; 96; 38; 221; 75; 42; 141; 108; 86; 74; 89; 182; 116;
   70; 86; 133; 101; 213; 42; 83; 85; 139; 115; 74; 7; 98; 147; 174; 77; 149; 70; 110; 43;
   5; 91; 87; 74; 72; 155; 74; 103; 90; 53; 87; 106; 5; 119; 101; 203; 99; 74; 87; 81].
Definition chinese_row_154 : list Z :=
  [74; 203; 113; 149; 138; 94; 43; 245; 75; 77; 197; 106; 173; 138; 87; 106; 85; 70; 170; 69;
   103; 165; 43; 83; 165; 141; 115; 74; 13; 98; 21; 125; 79; 22; 77; 110; 78; 9; 91; 173;
   74; 72; 214; 10; 105; 180; 53; 87; 210; 6; 119; 165; 206; 99; 138; 14; 83; 139; 6; 112;
   23; 205; 92; 86; 233; 75; 91; 201; 106; 218; 138; 87; 212; 118; 70; 84; 71; 103; 69; 247;
   84; 69; 139; 115; 139; 74; 96; 43; 213; 77; 173; 68; 110; 107; 73; 89; 90; 75; 72; 170].
Definition chinese_row_155 : list Z :=
  [13; 105; 84; 219; 88; 162; 13; 119; 69; 205; 99; 149; 90; 81; 149; 202; 113; 45; 197; 92;
   173; 41; 74; 181; 202; 106; 170; 77; 89; 164; 125; 70; 162; 78; 103; 70; 253; 84; 74; 77;
   117; 150; 74; 96; 54; 213; 77; 90; 69; 110; 213; 10; 91; 202; 86; 72; 82; 7; 105; 165;
   206; 85; 74; 141; 68; 75; 5; 98; 151; 138; 79; 171; 10; 112; 90; 133; 94; 213; 42; 74;
   101; 203; 106; 82; 71; 89; 165; 122; 70; 37; 139; 101; 75; 58; 83; 77; 137; 115; 173; 74].
Definition chinese_row_156 : list Z :=
  [96; 106; 213; 77; 180; 69; 110; 169; 11; 91; 82; 27; 74; 146; 13; 105; 37; 253; 86; 38;
   13; 119; 86; 201; 99; 173; 146; 79; 214; 10; 112; 212; 134; 94; 169; 205; 75; 201; 206; 106;
   146; 78; 89; 38; 109; 70; 39; 133; 101; 87; 106; 81; 91; 201; 113; 218; 74; 96; 212; 118;
   79; 84; 71; 110; 73; 7; 91; 139; 86; 72; 147; 10; 105; 43; 53; 85; 45; 69; 117; 109;
   9; 98; 106; 107; 81; 170; 13; 112; 164; 139; 94; 73; 251; 75; 73; 141; 108; 149; 138; 87].
Definition chinese_row_157 : list Z :=
  [43; 181; 68; 45; 133; 101; 173; 74; 83; 181; 202; 113; 170; 77; 96; 164; 125; 79; 164; 14;
   112; 74; 13; 91; 149; 90; 72; 150; 10; 105; 54; 53; 87; 90; 69; 117; 213; 10; 98; 210;
   86; 81; 82; 199; 113; 165; 206; 92; 74; 246; 75; 75; 198; 106; 151; 138; 87; 86; 181; 68;
   90; 133; 101; 85; 43; 83; 169; 139; 115; 82; 71; 96; 37; 219; 77; 37; 75; 110; 75; 10;
   91; 155; 180; 70; 173; 74; 103; 106; 197; 85; 105; 171; 66; 169; 13; 98; 82; 125; 81; 146].
Definition chinese_row_158 : list Z :=
  [205; 113; 37; 141; 94; 77; 58; 74; 86; 202; 106; 181; 130; 87; 173; 181; 68; 212; 134; 101;
   169; 77; 83; 201; 142; 115; 146; 14; 98; 38; 205; 77; 39; 133; 108; 87; 74; 89; 182; 82;
   72; 90; 75; 103; 212; 198; 85; 169; 206; 66; 73; 199; 99; 147; 150; 79; 147; 10; 112; 43;
   197; 92; 91; 42; 74; 109; 10; 105; 106; 133; 87; 85; 187; 68; 164; 75; 103; 73; 59; 83;
   73; 141; 115; 149; 74; 96; 45; 213; 77; 46; 133; 108; 173; 74; 89; 106; 85; 72; 178; 5].
Definition chinese_row_159 : list Z :=
  [105; 165; 13; 84; 74; 221; 66; 74; 205; 99; 149; 74; 81; 151; 74; 110; 86; 197; 92; 181;
   42; 74; 213; 202; 106; 210; 134; 87; 165; 174; 68; 165; 142; 101; 74; 246; 84; 75; 198; 113;
   155; 138; 94; 86; 213; 77; 106; 69; 110; 89; 75; 89; 82; 87; 72; 82; 11; 105; 37; 27;
   87; 37; 75; 117; 75; 10; 98; 171; 180; 79; 173; 2; 112; 109; 5; 91; 105; 43; 74; 169;
   205; 106; 146; 77; 89; 37; 189; 68; 37; 141; 101; 77; 90; 83; 86; 138; 115; 182; 130; 94].
Definition chinese_row_160 : list Z :=
  [173; 5; 76; 213; 134; 108; 169; 14; 91; 146; 93; 72; 146; 14; 105; 38; 205; 85; 86; 234;
   66; 87; 74; 96; 182; 180; 79; 90; 3; 112; 213; 198; 92; 201; 54; 74; 73; 199; 106; 147;
   134; 87; 39; 213; 68; 43; 197; 99; 91; 138; 81; 173; 202; 113; 106; 69; 96; 85; 27; 76;
   164; 75; 110; 73; 11; 91; 147; 122; 72; 149; 74; 103; 45; 5; 84; 93; 234; 64; 173; 10;
   98; 170; 181; 79; 210; 5; 112; 165; 205; 92; 74; 253; 75; 74; 205; 106; 149; 140; 87; 46].
Definition chinese_row_161 : list Z :=
  [213; 68; 86; 133; 101; 181; 138; 81; 213; 202; 113; 210; 70; 96; 165; 206; 77; 165; 142; 108;
   74; 6; 91; 151; 172; 70; 155; 76; 103; 90; 5; 84; 214; 10; 65; 105; 11; 98; 82; 119;
   81; 82; 11; 112; 37; 203; 92; 75; 58; 74; 75; 202; 106; 171; 196; 85; 91; 5; 67; 109;
   197; 99; 106; 139; 83; 169; 205; 113; 146; 77; 96; 37; 221; 77; 37; 77; 110; 77; 74; 89;
   173; 148; 70; 182; 68; 103; 181; 5; 84; 170; 13; 65; 169; 14; 98; 146; 94; 81; 146; 206].
Definition chinese_row_162 : list Z :=
  [113; 38; 205; 92; 86; 42; 74; 87; 10; 105; 214; 132; 87; 181; 230; 66; 213; 198; 99; 201;
   86; 83; 73; 135; 115; 147; 134; 94; 43; 21; 76; 43; 133; 108; 91; 74; 89; 90; 181; 70;
   106; 69; 103; 85; 11; 84; 74; 215; 66; 73; 11; 98; 149; 186; 79; 149; 10; 112; 45; 197;
   92; 173; 106; 72; 181; 10; 105; 170; 133; 87; 165; 171; 68; 165; 205; 99; 74; 93; 83; 74;
   142; 115; 150; 76; 96; 46; 25; 76; 86; 133; 108; 181; 74; 89; 178; 85; 72; 210; 70; 103].
Definition chinese_row_163 : list Z :=
  [165; 14; 84; 74; 238; 66; 75; 6; 98; 151; 236; 77; 171; 68; 110; 91; 5; 91; 214; 42;
   74; 106; 11; 105; 82; 135; 87; 37; 215; 68; 37; 139; 101; 75; 154; 81; 75; 202; 113; 171;
   132; 94; 91; 41; 76; 173; 197; 106; 106; 75; 89; 82; 123; 72; 146; 13; 105; 37; 13; 84;
   75; 58; 65; 85; 10; 98; 173; 212; 79; 182; 68; 110; 181; 6; 91; 170; 45; 74; 201; 206;
   106; 146; 142; 87; 38; 221; 68; 38; 141; 101; 86; 74; 83; 87; 10; 112; 86; 133; 94; 213].
Definition chinese_row_164 : list Z :=
  [10; 76; 85; 139; 108; 74; 71; 89; 147; 174; 70; 147; 70; 103; 43; 5; 84; 87; 106; 63;
   155; 74; 96; 90; 181; 79; 106; 5; 112; 101; 11; 91; 74; 55; 74; 74; 203; 106; 149; 138;
   87; 43; 21; 67; 45; 197; 99; 173; 202; 81; 181; 202; 113; 170; 133; 94; 165; 11; 76; 165;
   141; 108; 74; 13; 91; 21; 189; 70; 150; 76; 103; 78; 9; 84; 173; 42; 65; 181; 74; 96;
   180; 181; 79; 210; 6; 112; 165; 206; 92; 74; 46; 74; 139; 6; 105; 23; 205; 85; 86; 201].
Definition chinese_row_165 : list Z :=
  [68; 91; 9; 98; 214; 202; 81; 106; 203; 113; 84; 71; 96; 37; 23; 76; 69; 139; 108; 139;
   74; 89; 27; 181; 70; 173; 132; 101; 91; 73; 82; 90; 11; 65; 170; 13; 98; 84; 187; 79;
   162; 13; 112; 69; 205; 92; 141; 58; 74; 149; 10; 105; 173; 196; 85; 109; 9; 67; 181; 202;
   99; 170; 141; 80; 148; 61; 63; 162; 78; 96; 70; 221; 77; 42; 141; 108; 150; 74; 89; 54;
   181; 70; 86; 69; 103; 213; 74; 82; 170; 54; 65; 74; 7; 98; 165; 174; 79; 165; 70; 110].
Definition chinese_row_166 : list Z :=
  [43; 5; 91; 151; 138; 72; 155; 10; 105; 90; 197; 85; 213; 10; 67; 101; 203; 99; 82; 71;
   82; 165; 122; 61; 21; 139; 94; 43; 58; 76; 77; 137; 108; 173; 138; 87; 106; 181; 70; 170;
   69; 103; 169; 11; 84; 82; 59; 65; 146; 13; 98; 21; 189; 79; 22; 13; 112; 86; 9; 91;
   173; 146; 72; 182; 10; 105; 180; 133; 87; 169; 13; 67; 169; 206; 99; 138; 78; 83; 139; 198;
   113; 39; 197; 92; 87; 106; 74; 91; 201; 106; 218; 74; 89; 212; 182; 70; 84; 71; 103; 73].
Definition chinese_row_167 : list Z :=
  [7; 84; 139; 86; 65; 147; 74; 96; 43; 245; 77; 45; 69; 110; 109; 9; 91; 90; 147; 72;
   170; 13; 105; 84; 139; 87; 73; 219; 68; 69; 205; 99; 149; 186; 81; 149; 202; 113; 45; 133;
   94; 173; 74; 74; 181; 202; 106; 170; 77; 89; 164; 93; 72; 164; 78; 103; 74; 13; 84; 149;
   58; 65; 150; 10; 98; 54; 245; 77; 90; 69; 110; 213; 10; 91; 202; 54; 74; 82; 7; 105;
   165; 206; 85; 74; 213; 68; 75; 198; 99; 151; 10; 80; 171; 10; 112; 90; 133; 94; 213; 42].
Definition chinese_row_168 : list Z :=
  [76; 105; 203; 106; 82; 71; 89; 37; 187; 70; 37; 75; 103; 75; 74; 82; 155; 116; 63; 173;
   66; 96; 107; 21; 78; 180; 69; 110; 169; 13; 91; 82; 91; 74; 146; 205; 106; 37; 205; 85;
   77; 26; 67; 86; 202; 99; 173; 242; 81; 214; 10; 112; 180; 134; 94; 169; 13; 76; 201; 142;
   108; 146; 78; 89; 38; 173; 70; 39; 133; 101; 87; 74; 82; 182; 114; 63; 218; 74; 96; 212;
   214; 79; 84; 7; 112; 73; 7; 91; 147; 150; 72; 147; 10; 105; 43; 197; 85; 91; 106; 65].
Definition chinese_row_169 : list Z :=
  [109; 10; 98; 106; 133; 80; 85; 123; 61; 164; 139; 94; 73; 59; 76; 73; 141; 108; 149; 74;
   89; 43; 245; 68; 45; 133; 101; 173; 74; 82; 106; 53; 65; 170; 69; 96; 165; 13; 78; 165;
   78; 110; 74; 205; 92; 149; 138; 72; 151; 74; 103; 54; 197; 85; 181; 10; 67; 213; 10; 98;
   210; 134; 80; 165; 142; 61; 165; 142; 94; 74; 54; 76; 75; 198; 106; 151; 140; 87; 86; 181;
   70; 90; 133; 101; 89; 75; 82; 210; 54; 65; 82; 11; 98; 37; 251; 77; 37; 75; 110; 75].
Definition chinese_row_170 : list Z :=
  [10; 91; 155; 148; 72; 173; 66; 103; 107; 5; 84; 105; 11; 67; 169; 205; 99; 82; 141; 80;
   37; 189; 61; 37; 141; 94; 77; 58; 76; 86; 202; 106; 174; 130; 87; 173; 229; 68; 213; 134;
   101; 169; 77; 82; 146; 61; 65; 146; 14; 98; 38; 173; 79; 43; 133; 108; 87; 74; 89; 182;
   148; 72; 90; 3; 105; 213; 6; 84; 201; 22; 67; 73; 199; 99; 147; 134; 80; 39; 245; 59;
   43; 197; 92; 91; 106; 74; 109; 202; 106; 106; 133; 87; 85; 251; 68; 164; 75; 103; 73; 11].
Definition chinese_row_171 : list Z :=
  [84; 147; 122; 63; 149; 74; 96; 45; 21; 78; 46; 69; 110; 173; 74; 89; 106; 149; 72; 178;
   5; 105; 165; 205; 85; 74; 29; 67; 74; 205; 99; 149; 140; 80; 46; 181; 61; 86; 197; 92;
   181; 106; 74; 213; 202; 106; 210; 70; 89; 165; 238; 68; 165; 142; 101; 74; 6; 84; 151; 140;
   63; 155; 132; 94; 91; 101; 76; 107; 133; 108; 89; 11; 91; 82; 151; 72; 82; 11; 105; 37;
   203; 85; 75; 58; 67; 75; 10; 98; 171; 52; 80; 173; 2; 112; 109; 197; 92; 106; 107; 74].
Definition chinese_row_172 : list Z :=
  [169; 205; 106; 146; 77; 89; 37; 189; 70; 37; 141; 101; 77; 74; 82; 173; 148; 63; 182; 68;
   96; 173; 101; 76; 213; 134; 108; 169; 14; 91; 146; 93; 74; 146; 14; 105; 38; 205; 85; 86;
   42; 67; 87; 10; 98; 182; 196; 78; 181; 202; 59; 213; 198; 92; 202; 54; 76; 73; 199; 106;
   147; 134; 87; 43; 21; 69; 43; 133; 101; 91; 138; 80; 90; 149; 63; 106; 69; 96; 85; 11;
   78; 165; 139; 108; 74; 11; 91; 149; 154; 72; 149; 10; 105; 45; 5; 84; 109; 106; 65; 173].
Definition chinese_row_173 : list Z :=
  [10; 98; 170; 133; 80; 101; 235; 59; 165; 205; 92; 74; 61; 76; 74; 142; 108; 150; 140; 87;
   46; 25; 69; 86; 133; 101; 181; 74; 82; 170; 149; 63; 210; 70; 96; 165; 14; 78; 37; 71;
   110; 75; 70; 89; 151; 204; 70; 155; 68; 103; 91; 9; 84; 214; 106; 65; 106; 11; 98; 82;
   135; 80; 165; 182; 61; 37; 203; 92; 75; 122; 74; 75; 202; 106; 171; 132; 87; 91; 73; 67;
   109; 197; 99; 106; 75; 82; 82; 59; 65; 146; 77; 96; 37; 29; 78; 37; 77; 110; 85; 10].
Definition chinese_row_174 : list Z :=
  [91; 173; 212; 70; 182; 68; 103; 181; 6; 84; 170; 13; 67; 170; 14; 98; 146; 142; 80; 38;
   189; 61; 38; 141; 94; 86; 106; 74; 87; 10; 105; 214; 132; 87; 181; 10; 69; 213; 202; 99;
   202; 70; 82; 147; 142; 63; 147; 70; 96; 43; 117; 76; 43; 133; 108; 91; 74; 89; 90; 181;
   72; 106; 69; 103; 101; 11; 84; 74; 55; 67; 74; 203; 99; 149; 202; 78; 43; 245; 59; 45;
   201; 92; 173; 138; 74; 181; 10; 105; 170; 133; 87; 165; 235; 68; 165; 141; 101; 74; 77; 82].
Definition chinese_row_175 : list Z :=
  [21; 157; 63; 150; 76; 96; 46; 57; 78; 86; 137; 108; 181; 74; 89; 180; 149; 72; 210; 6;
   105; 165; 14; 84; 74; 46; 67; 139; 6; 98; 151; 196; 78; 87; 41; 58; 91; 9; 91; 214;
   138; 74; 106; 203; 106; 84; 135; 87; 37; 23; 69; 37; 139; 101; 139; 74; 82; 155; 244; 61;
   171; 132; 94; 91; 105; 76; 173; 133; 108; 106; 77; 89; 84; 155; 72; 146; 13; 105; 37; 205;
   85; 77; 122; 65; 85; 10; 98; 173; 196; 78; 109; 233; 59; 181; 10; 91; 170; 109; 74; 202].
Definition chinese_row_176 : list Z :=
  [206; 106; 146; 78; 89; 38; 29; 69; 42; 141; 101; 86; 74; 82; 46; 149; 63; 86; 133; 94;
   213; 138; 76; 213; 138; 108; 202; 6; 91; 149; 206; 70; 149; 70; 103; 43; 5; 84; 87; 106;
   65; 155; 74; 96; 90; 197; 78; 213; 234; 59; 101; 203; 92; 74; 119; 74; 74; 205; 106; 21;
   139; 87; 43; 26; 69; 77; 201; 99; 173; 138; 80; 106; 149; 63; 170; 69; 96; 165; 139; 76;
   165; 141; 108; 74; 13; 91; 21; 157; 72; 22; 77; 103; 78; 9; 84; 173; 114; 65; 182; 10].
Definition chinese_row_177 : list Z :=
  [98; 180; 197; 78; 169; 237; 59; 165; 206; 92; 138; 46; 76; 139; 6; 105; 23; 197; 85; 87;
   74; 67; 91; 201; 99; 218; 138; 80; 212; 150; 63; 84; 71; 96; 69; 119; 78; 69; 139; 108;
   139; 74; 89; 43; 245; 70; 45; 69; 103; 91; 73; 82; 90; 115; 65; 170; 13; 98; 84; 139;
   80; 73; 251; 59; 69; 205; 92; 149; 154; 74; 149; 202; 106; 45; 197; 85; 109; 74; 67; 181;
   202; 99; 170; 69; 82; 149; 205; 61; 165; 142; 94; 74; 61; 78; 74; 77; 110; 150; 74; 89].
Definition chinese_row_178 : list Z :=
  [54; 245; 70; 90; 69; 103; 213; 10; 84; 170; 118; 65; 82; 7; 98; 165; 206; 78; 74; 213;
   61; 75; 6; 91; 151; 202; 72; 155; 10; 105; 90; 133; 87; 213; 74; 67; 105; 203; 99; 82;
   71; 82; 165; 154; 63; 37; 139; 94; 75; 90; 76; 77; 138; 108; 173; 66; 89; 107; 53; 69;
   172; 69; 103; 169; 13; 84; 82; 59; 67; 146; 13; 98; 37; 205; 78; 77; 26; 60; 86; 202;
   92; 173; 210; 72; 182; 10; 105; 180; 134; 87; 169; 13; 69; 201; 206; 99; 146; 78; 82; 38].
Definition chinese_row_179 : list Z :=
  [141; 63; 39; 133; 94; 87; 202; 74; 91; 201; 106; 218; 66; 89; 213; 246; 70; 84; 71; 103;
   73; 7; 84; 147; 118; 65; 147; 10; 98; 43; 5; 77; 91; 42; 58; 109; 10; 91; 90; 149;
   74; 170; 13; 105; 84; 139; 87; 73; 27; 69; 73; 141; 101; 149; 138; 80; 43; 213; 61; 45;
   133; 94; 173; 138; 76; 181; 202; 106; 170; 69; 89; 165; 205; 70; 165; 78; 103; 74; 13; 84;
   149; 106; 65; 151; 74; 96; 54; 197; 78; 181; 42; 58; 213; 10; 91; 210; 150; 74; 82; 199].
Definition chinese_row_180 : list Z :=
  [106; 165; 206; 85; 74; 22; 69; 75; 198; 99; 151; 132; 80; 87; 37; 60; 91; 197; 92; 213;
   74; 75; 210; 22; 58; 82; 75; 89; 37; 251; 70; 37; 75; 103; 75; 10; 84; 155; 180; 63;
   173; 66; 96; 107; 5; 77; 105; 235; 59; 169; 13; 91; 82; 157; 74; 146; 206; 106; 37; 141;
   87; 77; 90; 67; 86; 202; 99; 174; 132; 80; 173; 197; 61; 213; 198; 92; 169; 77; 75; 146;
   29; 58; 146; 14; 91; 38; 237; 70; 39; 133; 101; 87; 74; 82; 182; 148; 65; 90; 67; 96].
Definition chinese_row_181 : list Z :=
  [213; 6; 77; 169; 22; 60; 73; 199; 92; 147; 214; 72; 147; 10; 105; 43; 197; 85; 91; 106;
   67; 109; 10; 98; 106; 133; 80; 85; 235; 61; 165; 139; 94; 73; 75; 75; 147; 122; 56; 149;
   74; 89; 45; 245; 70; 46; 133; 101; 173; 74; 82; 106; 117; 65; 170; 5; 98; 165; 13; 77;
   74; 29; 60; 74; 205; 92; 149; 140; 74; 151; 76; 103; 54; 197; 85; 181; 74; 67; 213; 202;
   99; 210; 134; 80; 165; 206; 61; 165; 142; 94; 74; 118; 78; 75; 198; 106; 151; 132; 87; 87].
Definition chinese_row_182 : list Z :=
  [37; 69; 91; 133; 101; 89; 75; 82; 210; 118; 65; 82; 11; 98; 37; 203; 78; 75; 90; 58;
   75; 10; 91; 155; 212; 72; 173; 4; 105; 109; 5; 84; 106; 75; 67; 169; 205; 99; 146; 77;
   82; 37; 221; 61; 37; 141; 94; 77; 154; 76; 86; 138; 108; 174; 132; 87; 173; 37; 69; 213;
   134; 101; 169; 13; 84; 146; 125; 65; 146; 14; 98; 38; 205; 78; 86; 10; 60; 87; 74; 89;
   182; 244; 72; 90; 5; 105; 213; 202; 85; 202; 86; 67; 73; 199; 99; 147; 134; 80; 43; 245].
Definition chinese_row_183 : list Z :=
  [61; 43; 197; 92; 91; 138; 73; 90; 85; 56; 106; 69; 89; 85; 43; 69; 165; 139; 101; 74;
   11; 84; 149; 154; 65; 149; 74; 96; 45; 5; 77; 93; 74; 58; 173; 10; 91; 106; 245; 72;
   178; 5; 105; 165; 205; 85; 74; 29; 69; 74; 206; 99; 150; 140; 80; 46; 249; 61; 86; 133;
   94; 181; 138; 73; 170; 85; 56; 210; 70; 89; 165; 238; 70; 165; 134; 101; 75; 70; 82; 151;
   204; 63; 155; 68; 96; 91; 73; 75; 182; 74; 58; 90; 11; 91; 82; 151; 74; 82; 11; 105].
Definition chinese_row_184 : list Z :=
  [37; 203; 85; 75; 122; 67; 75; 202; 99; 171; 196; 78; 91; 41; 60; 109; 197; 92; 106; 75;
   75; 84; 123; 56; 146; 77; 89; 37; 253; 70; 37; 77; 103; 77; 74; 82; 173; 212; 63; 182;
   68; 96; 181; 10; 77; 170; 77; 58; 170; 14; 91; 146; 142; 74; 147; 14; 105; 38; 205; 85;
   86; 106; 67; 87; 10; 98; 182; 132; 80; 181; 42; 60; 213; 202; 92; 202; 70; 75; 149; 110;
   56; 147; 134; 87; 43; 53; 69; 43; 133; 101; 91; 74; 82; 90; 213; 63; 106; 69; 96; 85].
Definition chinese_row_185 : list Z :=
  [11; 77; 74; 23; 60; 74; 11; 91; 149; 218; 72; 149; 12; 105; 45; 201; 85; 173; 138; 65;
   173; 10; 98; 170; 133; 80; 101; 203; 61; 165; 205; 92; 74; 77; 75; 149; 124; 56; 150; 76;
   89; 46; 57; 69; 86; 137; 101; 182; 74; 82; 180; 149; 65; 210; 70; 96; 165; 14; 77; 74;
   14; 60; 139; 6; 91; 151; 52; 71; 171; 68; 103; 91; 9; 84; 214; 106; 67; 106; 11; 98;
   84; 135; 80; 165; 246; 61; 37; 139; 94; 139; 138; 73; 155; 180; 54; 171; 132; 87; 91; 73].
Definition chinese_row_186 : list Z :=
  [69; 109; 201; 99; 106; 77; 82; 84; 155; 65; 146; 13; 98; 37; 13; 77; 77; 90; 58; 85;
   10; 91; 173; 244; 72; 182; 68; 103; 181; 10; 84; 170; 77; 67; 202; 206; 99; 148; 142; 80;
   38; 253; 61; 42; 141; 94; 86; 74; 75; 174; 212; 54; 86; 133; 87; 181; 74; 69; 213; 138;
   101; 202; 70; 82; 149; 206; 63; 149; 70; 96; 43; 5; 77; 87; 170; 56; 155; 74; 89; 90;
   245; 72; 106; 5; 105; 101; 11; 84; 74; 119; 67; 74; 205; 99; 21; 139; 80; 43; 58; 60].
Definition chinese_row_187 : list Z :=
  [45; 201; 92; 173; 130; 73; 91; 181; 54; 170; 133; 87; 169; 75; 69; 169; 141; 101; 74; 13;
   84; 21; 221; 63; 22; 77; 96; 78; 9; 77; 173; 82; 58; 182; 74; 89; 180; 53; 73; 212;
   6; 105; 169; 206; 85; 138; 78; 67; 139; 6; 98; 23; 197; 78; 87; 42; 60; 91; 9; 91;
   218; 130; 73; 213; 182; 54; 84; 71; 89; 41; 55; 69; 69; 139; 101; 139; 74; 82; 43; 213;
   63; 45; 133; 94; 91; 73; 75; 90; 83; 58; 106; 13; 91; 84; 27; 73; 164; 13; 105; 69].
Definition chinese_row_188 : list Z :=
  [205; 85; 149; 90; 67; 149; 10; 98; 45; 197; 78; 109; 42; 60; 181; 202; 92; 170; 133; 73;
   149; 173; 54; 165; 142; 87; 74; 253; 70; 74; 141; 101; 150; 74; 82; 46; 213; 63; 86; 69;
   96; 213; 74; 75; 170; 86; 58; 82; 7; 91; 165; 206; 71; 74; 213; 52; 75; 6; 84; 151;
   172; 65; 155; 10; 98; 90; 197; 78; 213; 42; 60; 105; 203; 92; 82; 75; 75; 165; 186; 54;
   37; 139; 87; 75; 90; 69; 77; 138; 101; 173; 130; 80; 107; 21; 62; 172; 69; 96; 169; 13].
Definition chinese_row_189 : list Z :=
  [77; 82; 91; 58; 146; 13; 91; 37; 253; 72; 38; 13; 105; 86; 10; 84; 174; 178; 65; 182;
   2; 98; 181; 198; 78; 169; 45; 60; 169; 206; 92; 146; 78; 75; 38; 141; 56; 39; 197; 85;
   87; 138; 67; 91; 202; 99; 218; 66; 82; 213; 22; 62; 84; 75; 96; 73; 7; 77; 147; 118;
   58; 147; 74; 89; 43; 53; 71; 45; 69; 103; 93; 10; 84; 90; 181; 65; 170; 5; 98; 85;
   203; 78; 73; 251; 61; 73; 205; 92; 149; 138; 73; 43; 213; 54; 45; 133; 87; 109; 138; 67].
Definition chinese_row_190 : list Z :=
  [181; 202; 99; 170; 69; 82; 165; 205; 63; 165; 142; 94; 74; 13; 77; 149; 106; 58; 151; 74;
   89; 54; 117; 71; 90; 69; 103; 213; 10; 84; 178; 118; 67; 82; 7; 98; 165; 198; 78; 75;
   54; 60; 75; 198; 92; 151; 196; 71; 87; 229; 52; 91; 197; 85; 213; 74; 69; 105; 203; 99;
   82; 75; 82; 37; 219; 63; 37; 75; 96; 75; 74; 75; 155; 180; 56; 173; 68; 89; 107; 133;
   71; 181; 133; 101; 169; 13; 84; 82; 125; 67; 146; 205; 99; 37; 205; 78; 77; 58; 60; 86].
Definition chinese_row_191 : list Z :=
  [202; 92; 174; 132; 73; 109; 5; 53; 181; 198; 85; 169; 109; 69; 201; 142; 101; 146; 78; 82;
   38; 205; 63; 39; 133; 94; 87; 74; 75; 182; 180; 56; 218; 68; 89; 213; 10; 70; 169; 214;
   52; 73; 7; 84; 147; 182; 65; 147; 10; 98; 43; 197; 78; 91; 138; 58; 109; 10; 91; 106;
   133; 73; 85; 171; 54; 101; 203; 85; 73; 91; 69; 74; 141; 101; 149; 74; 82; 45; 21; 62;
   46; 133; 94; 173; 74; 75; 106; 85; 58; 170; 69; 89; 165; 13; 70; 74; 221; 52; 74; 205].
Definition chinese_row_192 : list Z :=
  [85; 149; 172; 65; 151; 76; 96; 54; 197; 78; 181; 74; 60; 213; 10; 91; 210; 134; 73; 165;
   206; 54; 165; 134; 87; 75; 150; 67; 75; 198; 99; 151; 132; 80; 87; 41; 62; 91; 197; 92;
   218; 74; 75; 210; 118; 58; 82; 11; 91; 37; 91; 71; 37; 77; 103; 75; 10; 84; 155; 212;
   65; 173; 68; 96; 109; 5; 77; 106; 43; 60; 169; 205; 92; 82; 141; 73; 37; 221; 54; 37;
   141; 87; 77; 90; 69; 86; 202; 99; 174; 132; 80; 173; 5; 62; 213; 134; 94; 170; 77; 75].
Definition chinese_row_193 : list Z :=
  [146; 125; 58; 146; 14; 91; 38; 205; 71; 86; 42; 51; 87; 74; 82; 182; 212; 65; 90; 5;
   98; 213; 10; 77; 202; 54; 60; 73; 199; 92; 147; 134; 73; 43; 21; 53; 43; 197; 85; 91;
   138; 67; 173; 202; 99; 106; 133; 80; 85; 43; 62; 165; 139; 94; 74; 11; 77; 149; 186; 56;
   149; 74; 89; 45; 89; 71; 46; 69; 103; 173; 74; 82; 106; 181; 65; 178; 5; 98; 165; 205;
   78; 74; 61; 60; 74; 206; 92; 150; 140; 73; 46; 217; 54; 86; 201; 85; 182; 170; 67; 214].
Definition chinese_row_194 : list Z :=
  [202; 99; 210; 70; 82; 165; 14; 62; 165; 134; 94; 75; 70; 75; 151; 180; 56; 155; 132; 87;
   91; 201; 69; 91; 133; 101; 90; 11; 84; 84; 183; 65; 82; 11; 98; 37; 203; 78; 75; 90;
   60; 75; 10; 91; 171; 196; 71; 91; 9; 53; 109; 197; 85; 106; 203; 67; 170; 205; 99; 146;
   77; 82; 37; 221; 63; 37; 141; 94; 77; 74; 75; 173; 180; 56; 182; 68; 89; 173; 73; 68;
   170; 13; 51; 170; 14; 84; 146; 110; 67; 147; 78; 96; 38; 205; 78; 86; 74; 60; 87; 10].
Definition chinese_row_195 : list Z :=
  [91; 182; 196; 71; 181; 10; 53; 213; 202; 85; 202; 86; 69; 74; 199; 99; 147; 134; 80; 43;
   53; 62; 43; 133; 94; 91; 138; 73; 90; 181; 56; 106; 69; 89; 85; 11; 70; 74; 55; 51;
   74; 11; 84; 149; 218; 65; 149; 12; 98; 45; 9; 77; 93; 146; 58; 173; 10; 91; 106; 133;
   73; 101; 11; 53; 165; 205; 85; 74; 125; 69; 74; 142; 101; 150; 140; 80; 46; 57; 62; 86;
   137; 94; 182; 74; 75; 180; 181; 56; 212; 70; 89; 165; 14; 70; 74; 238; 52; 75; 70; 82].
Definition chinese_row_196 : list Z :=
  [151; 20; 64; 171; 68; 96; 91; 9; 77; 214; 146; 58; 90; 11; 91; 84; 135; 73; 165; 214;
   54; 37; 203; 85; 75; 154; 67; 77; 202; 99; 171; 132; 80; 91; 105; 60; 109; 201; 92; 106;
   77; 75; 84; 123; 58; 148; 77; 89; 37; 13; 70; 77; 90; 51; 85; 10; 84; 173; 20; 64;
   182; 68; 96; 181; 10; 77; 170; 85; 60; 170; 14; 91; 148; 142; 73; 38; 221; 54; 42; 141;
   87; 86; 170; 67; 87; 10; 98; 86; 133; 80; 181; 42; 62; 213; 202; 92; 202; 70; 75; 149].
Definition chinese_row_197 : list Z :=
  [174; 56; 149; 70; 89; 43; 69; 68; 87; 106; 49; 155; 74; 82; 90; 213; 65; 106; 69; 96;
   101; 11; 77; 74; 87; 60; 74; 205; 92; 21; 203; 71; 43; 26; 53; 45; 201; 85; 173; 210;
   67; 173; 10; 98; 172; 133; 80; 105; 43; 62; 169; 141; 94; 74; 77; 75; 21; 189; 56; 22;
   77; 89; 78; 9; 70; 174; 146; 49; 182; 66; 82; 181; 21; 64; 212; 6; 98; 169; 14; 77;
   74; 78; 60; 139; 6; 91; 23; 197; 71; 87; 106; 51; 91; 9; 84; 214; 210; 67; 106; 203].
Definition chinese_row_198 : list Z :=
  [99; 84; 139; 80; 169; 54; 62; 69; 139; 94; 139; 74; 75; 43; 21; 55; 45; 133; 87; 91;
   73; 68; 90; 51; 51; 106; 69; 82; 85; 27; 64; 164; 13; 98; 73; 205; 78; 149; 154; 58;
   149; 10; 91; 45; 197; 71; 109; 10; 53; 181; 10; 84; 170; 245; 67; 202; 198; 99; 165; 142;
   80; 74; 61; 62; 74; 141; 94; 150; 74; 75; 46; 213; 56; 86; 133; 87; 181; 74; 68; 170;
   53; 51; 210; 6; 84; 165; 14; 64; 165; 74; 96; 75; 6; 77; 151; 148; 58; 155; 66; 89].
Definition chinese_row_199 : list Z :=
  [91; 5; 70; 213; 42; 53; 105; 203; 85; 82; 219; 67; 82; 205; 99; 37; 139; 80; 75; 58;
   62; 77; 202; 92; 173; 130; 73; 107; 229; 54; 173; 133; 87; 169; 77; 68; 82; 59; 51; 146;
   13; 84; 37; 189; 65; 38; 77; 96; 78; 10; 77; 174; 146; 58; 182; 2; 91; 181; 5; 70;
   169; 13; 53; 169; 206; 85; 146; 110; 69; 147; 6; 98; 39; 197; 78; 87; 106; 60; 91; 202;
   92; 218; 130; 73; 213; 246; 54; 84; 75; 89; 73; 7; 70; 147; 118; 49; 147; 74; 82; 43].
Definition chinese_row_200 : list Z :=
  [21; 64; 45; 69; 96; 93; 74; 75; 90; 149; 58; 106; 5; 91; 85; 203; 71; 73; 27; 53;
   73; 205; 85; 149; 218; 67; 149; 202; 99; 45; 197; 78; 109; 106; 60; 181; 202; 92; 170; 69;
   75; 165; 237; 54; 165; 142; 87; 74; 13; 70; 149; 76; 51; 151; 140; 80; 54; 21; 64; 90;
   69; 96; 213; 10; 77; 178; 150; 58; 82; 7; 91; 165; 198; 71; 75; 54; 53; 75; 6; 84;
   151; 244; 65; 155; 4; 98; 91; 197; 78; 217; 138; 60; 105; 203; 92; 82; 75; 75; 37; 219].
Definition chinese_row_201 : list Z :=
  [56; 37; 139; 87; 75; 74; 68; 155; 148; 49; 173; 68; 82; 109; 101; 62; 181; 133; 94; 169;
   13; 77; 82; 93; 60; 146; 13; 91; 37; 205; 71; 77; 58; 53; 86; 202; 85; 174; 52; 66;
   182; 2; 98; 181; 198; 78; 169; 45; 62; 201; 206; 92; 146; 78; 75; 38; 205; 56; 39; 133;
   87; 87; 138; 66; 182; 148; 49; 218; 68; 82; 213; 10; 64; 85; 139; 94; 73; 7; 77; 147;
   150; 58; 147; 10; 91; 43; 5; 70; 91; 106; 51; 109; 10; 84; 90; 245; 67; 170; 5; 98].
Definition chinese_row_202 : list Z :=
  [101; 203; 78; 74; 59; 62; 74; 141; 94; 149; 138; 73; 45; 21; 55; 46; 133; 87; 173; 74;
   68; 106; 149; 49; 170; 69; 82; 165; 45; 64; 165; 78; 96; 74; 13; 77; 150; 140; 58; 151;
   76; 89; 54; 201; 71; 182; 106; 51; 213; 10; 84; 210; 134; 66; 165; 174; 47; 165; 198; 78;
   75; 118; 60; 75; 198; 92; 151; 132; 73; 87; 73; 53; 91; 197; 85; 218; 74; 68; 210; 54;
   51; 82; 75; 82; 37; 27; 64; 37; 77; 96; 75; 10; 77; 155; 212; 56; 173; 68; 89; 109].
Definition chinese_row_203 : list Z :=
  [5; 70; 106; 11; 53; 169; 13; 84; 82; 141; 66; 37; 189; 47; 37; 141; 80; 77; 122; 60;
   86; 202; 92; 174; 132; 73; 173; 9; 55; 181; 198; 85; 170; 77; 68; 146; 77; 51; 147; 78;
   82; 38; 13; 64; 43; 133; 94; 87; 74; 75; 182; 180; 58; 90; 69; 89; 213; 10; 70; 170;
   54; 53; 73; 199; 85; 147; 198; 64; 43; 245; 45; 43; 197; 78; 91; 138; 60; 109; 10; 91;
   106; 133; 73; 85; 11; 55; 165; 139; 87; 74; 75; 68; 149; 154; 49; 149; 76; 82; 45; 57].
Definition chinese_row_204 : list Z :=
  [64; 46; 133; 94; 173; 74; 75; 106; 181; 58; 178; 5; 91; 165; 13; 70; 74; 61; 53; 74;
   206; 85; 150; 12; 68; 151; 76; 96; 54; 201; 78; 182; 138; 60; 214; 202; 92; 210; 134; 73;
   165; 14; 55; 165; 134; 87; 75; 70; 68; 151; 244; 47; 155; 132; 80; 87; 105; 62; 91; 133;
   94; 90; 75; 75; 212; 182; 58; 82; 11; 91; 37; 203; 71; 75; 122; 51; 75; 10; 84; 171;
   52; 66; 173; 4; 98; 109; 9; 77; 106; 139; 60; 170; 205; 92; 146; 77; 75; 37; 29; 55].
Definition chinese_row_205 : list Z :=
  [37; 141; 87; 77; 74; 68; 173; 148; 49; 174; 132; 80; 173; 105; 62; 213; 138; 94; 170; 5;
   77; 149; 205; 56; 147; 78; 89; 38; 205; 71; 86; 42; 53; 87; 74; 82; 182; 196; 64; 181;
   234; 45; 213; 202; 78; 202; 150; 60; 74; 199; 92; 149; 134; 73; 43; 21; 55; 43; 197; 85;
   91; 138; 66; 90; 149; 49; 106; 69; 82; 85; 139; 62; 165; 139; 94; 74; 11; 77; 149; 186;
   58; 149; 76; 89; 45; 9; 70; 93; 114; 51; 173; 10; 84; 106; 197; 64; 105; 203; 45; 165].
Definition chinese_row_206 : list Z :=
  [205; 78; 74; 61; 62; 74; 206; 92; 150; 140; 73; 46; 25; 55; 86; 137; 87; 182; 138; 66;
   180; 149; 49; 212; 70; 82; 165; 46; 64; 37; 135; 94; 75; 70; 75; 151; 244; 56; 171; 68;
   89; 91; 73; 68; 182; 146; 51; 90; 11; 84; 84; 135; 66; 169; 246; 45; 37; 203; 78; 139;
   154; 60; 77; 202; 92; 171; 196; 71; 91; 73; 53; 109; 201; 85; 106; 77; 68; 84; 155; 49;
   148; 77; 82; 37; 61; 64; 38; 77; 96; 85; 74; 75; 173; 244; 56; 182; 68; 89; 181; 10].
Definition chinese_row_207 : list Z :=
  [70; 170; 117; 51; 170; 6; 84; 149; 206; 64; 42; 189; 47; 42; 197; 78; 87; 202; 58; 87;
   10; 91; 54; 133; 73; 181; 74; 53; 213; 202; 85; 202; 70; 68; 149; 174; 49; 149; 138; 80;
   43; 117; 62; 43; 137; 94; 155; 66; 75; 91; 53; 55; 106; 69; 89; 85; 11; 70; 82; 59;
   53; 74; 11; 84; 21; 203; 64; 43; 26; 46; 45; 201; 78; 173; 210; 58; 173; 2; 91; 109;
   197; 71; 105; 11; 55; 169; 205; 85; 74; 77; 68; 21; 189; 49; 22; 77; 82; 78; 106; 62].
Definition chinese_row_208 : list Z :=
  [87; 201; 92; 182; 66; 75; 181; 245; 56; 212; 70; 89; 169; 14; 70; 74; 46; 53; 139; 6;
   84; 23; 5; 63; 87; 42; 44; 91; 9; 77; 214; 146; 60; 106; 11; 91; 84; 139; 73; 169;
   22; 55; 73; 139; 87; 139; 138; 66; 27; 245; 47; 43; 133; 80; 91; 137; 62; 173; 202; 92;
   106; 69; 75; 85; 251; 56; 164; 13; 91; 73; 13; 70; 149; 122; 51; 149; 10; 84; 46; 197;
   64; 109; 74; 44; 181; 10; 77; 170; 149; 60; 202; 198; 92; 165; 206; 71; 74; 29; 55; 74].
Definition chinese_row_209 : list Z :=
  [133; 87; 151; 138; 66; 46; 245; 47; 86; 133; 80; 181; 138; 62; 213; 138; 94; 210; 70; 75;
   165; 246; 56; 165; 74; 89; 75; 6; 70; 151; 212; 49; 155; 66; 82; 91; 5; 63; 214; 234;
   45; 105; 11; 77; 82; 155; 60; 82; 205; 92; 37; 139; 73; 75; 90; 53; 77; 202; 85; 173;
   130; 66; 93; 229; 47; 173; 197; 78; 169; 109; 62; 169; 141; 94; 146; 13; 77; 37; 253; 56;
   38; 77; 89; 78; 10; 70; 174; 148; 51; 182; 66; 82; 181; 5; 63; 170; 13; 46; 169; 198].
Definition chinese_row_210 : list Z :=
  [78; 147; 206; 58; 147; 6; 91; 39; 197; 71; 87; 106; 53; 91; 10; 84; 218; 130; 66; 213;
   230; 47; 85; 139; 80; 73; 183; 62; 73; 139; 94; 147; 74; 75; 43; 245; 56; 45; 133; 87;
   93; 74; 68; 90; 149; 51; 106; 5; 84; 85; 11; 63; 74; 27; 46; 74; 205; 78; 149; 154;
   60; 149; 10; 91; 46; 197; 71; 109; 106; 53; 181; 202; 85; 170; 133; 66; 165; 205; 47; 165;
   142; 80; 74; 45; 64; 75; 198; 92; 151; 140; 73; 54; 249; 56; 90; 69; 89; 181; 74; 68].
Definition chinese_row_211 : list Z :=
  [178; 150; 51; 82; 7; 84; 165; 198; 64; 75; 86; 44; 75; 10; 77; 151; 212; 58; 155; 4;
   91; 91; 5; 70; 218; 106; 53; 105; 203; 85; 82; 75; 68; 165; 250; 47; 37; 141; 80; 75;
   154; 62; 77; 138; 94; 173; 132; 73; 109; 37; 55; 173; 133; 87; 170; 13; 70; 82; 123; 51;
   146; 13; 84; 37; 205; 64; 77; 26; 46; 86; 10; 77; 174; 244; 58; 182; 4; 91; 181; 198;
   71; 170; 77; 53; 201; 198; 85; 147; 142; 66; 38; 173; 49; 39; 197; 78; 87; 202; 60; 91].
Definition chinese_row_212 : list Z :=
  [202; 92; 218; 68; 75; 213; 74; 55; 85; 139; 87; 74; 7; 70; 147; 150; 51; 147; 74; 82;
   43; 5; 63; 91; 74; 44; 93; 10; 77; 90; 245; 58; 106; 5; 91; 101; 203; 71; 74; 27;
   55; 74; 205; 85; 149; 138; 66; 45; 249; 47; 46; 137; 80; 173; 202; 60; 181; 202; 92; 170;
   69; 75; 165; 237; 56; 165; 142; 87; 74; 13; 70; 150; 140; 51; 151; 76; 82; 54; 9; 63;
   182; 74; 44; 214; 10; 77; 178; 150; 60; 82; 7; 91; 165; 198; 71; 75; 118; 53; 75; 202].
Definition chinese_row_213 : list Z :=
  [85; 151; 196; 64; 87; 41; 46; 91; 201; 78; 218; 74; 61; 212; 54; 42; 82; 75; 75; 37;
   251; 56; 37; 77; 89; 75; 74; 68; 155; 212; 49; 173; 68; 82; 109; 9; 63; 106; 75; 44;
   170; 13; 77; 82; 189; 60; 146; 206; 92; 37; 205; 71; 77; 122; 53; 86; 202; 85; 174; 132;
   66; 109; 41; 46; 181; 202; 78; 170; 69; 61; 147; 109; 42; 147; 142; 73; 38; 237; 56; 43;
   133; 87; 87; 74; 68; 182; 212; 49; 90; 69; 82; 213; 10; 63; 170; 22; 46; 74; 7; 77].
Definition chinese_row_214 : list Z :=
  [149; 214; 58; 149; 10; 91; 43; 197; 71; 91; 170; 51; 109; 10; 84; 90; 133; 66; 85; 235;
   47; 101; 203; 78; 74; 75; 61; 149; 122; 42; 149; 76; 75; 45; 57; 55; 46; 137; 87; 173;
   74; 68; 106; 149; 51; 178; 69; 82; 165; 13; 63; 74; 29; 46; 74; 206; 78; 150; 236; 58;
   151; 76; 89; 54; 201; 71; 182; 114; 53; 214; 10; 84; 212; 134; 66; 165; 238; 47; 165; 134;
   80; 75; 246; 60; 75; 202; 92; 155; 132; 73; 87; 73; 55; 91; 201; 85; 90; 75; 68; 212].
Definition chinese_row_215 : list Z :=
  [150; 51; 82; 11; 84; 37; 11; 63; 75; 90; 44; 75; 10; 77; 171; 244; 58; 173; 68; 89;
   109; 9; 70; 106; 107; 53; 170; 205; 85; 148; 141; 66; 37; 253; 47; 38; 141; 80; 77; 154;
   62; 86; 202; 92; 174; 132; 73; 173; 74; 55; 181; 138; 87; 170; 69; 68; 149; 205; 49; 147;
   78; 82; 38; 197; 64; 87; 170; 42; 87; 74; 75; 182; 244; 58; 90; 5; 91; 213; 10; 70;
   202; 118; 53; 74; 199; 85; 149; 138; 66; 43; 85; 46; 43; 201; 78; 91; 242; 60; 173; 202].
Definition chinese_row_216 : list Z :=
  [92; 106; 133; 73; 85; 75; 55; 165; 139; 87; 74; 11; 70; 149; 218; 49; 149; 76; 82; 45;
   9; 63; 93; 114; 44; 173; 66; 75; 109; 53; 57; 180; 5; 91; 165; 205; 71; 74; 125; 53;
   74; 206; 85; 150; 140; 66; 46; 9; 48; 87; 9; 77; 182; 130; 59; 181; 117; 40; 212; 70;
   75; 169; 78; 55; 37; 135; 87; 139; 70; 68; 151; 212; 49; 155; 132; 80; 91; 73; 61; 182;
   114; 44; 90; 11; 77; 212; 26; 59; 84; 11; 91; 37; 203; 71; 139; 122; 53; 77; 10; 84].
Definition chinese_row_217 : list Z :=
  [171; 196; 64; 91; 41; 46; 109; 201; 78; 106; 133; 59; 85; 187; 40; 148; 77; 75; 37; 29;
   57; 70; 141; 87; 85; 74; 68; 174; 212; 49; 182; 68; 82; 181; 74; 61; 170; 85; 44; 170;
   6; 77; 149; 238; 58; 149; 78; 89; 42; 197; 71; 87; 170; 51; 87; 10; 84; 54; 197; 64;
   181; 74; 46; 213; 202; 78; 202; 70; 61; 149; 174; 40; 149; 138; 73; 43; 86; 55; 43; 137;
   87; 155; 130; 66; 91; 37; 48; 107; 133; 80; 89; 11; 63; 82; 91; 44; 82; 11; 77; 21].
Definition chinese_row_218 : list Z :=
  [251; 58; 21; 13; 91; 45; 10; 70; 173; 178; 51; 173; 2; 84; 109; 197; 64; 105; 45; 46;
   169; 205; 78; 82; 77; 61; 21; 157; 42; 22; 141; 73; 78; 74; 55; 87; 201; 85; 182; 66;
   68; 181; 21; 48; 212; 70; 82; 169; 14; 63; 82; 46; 46; 139; 70; 75; 23; 53; 57; 43;
   69; 89; 91; 9; 70; 218; 210; 51; 90; 3; 84; 85; 203; 64; 169; 22; 48; 73; 203; 78;
   139; 138; 59; 43; 213; 40; 45; 133; 73; 93; 138; 53; 109; 202; 85; 106; 69; 68; 85; 203].
Definition chinese_row_219 : list Z :=
  [49; 165; 141; 80; 74; 13; 63; 149; 122; 44; 149; 10; 77; 46; 53; 57; 54; 69; 89; 181;
   10; 70; 170; 117; 53; 170; 6; 84; 165; 206; 64; 74; 253; 47; 74; 134; 80; 151; 204; 57;
   46; 213; 40; 86; 133; 73; 181; 74; 55; 213; 202; 85; 210; 70; 68; 165; 214; 49; 165; 74;
   82; 75; 70; 61; 151; 180; 42; 155; 68; 75; 91; 101; 57; 107; 133; 87; 105; 11; 70; 82;
   123; 53; 82; 205; 85; 37; 203; 64; 75; 58; 46; 77; 202; 78; 173; 132; 59; 93; 5; 39].
Definition chinese_row_220 : list Z :=
  [173; 197; 71; 106; 109; 55; 169; 141; 87; 146; 77; 68; 37; 221; 49; 38; 77; 82; 78; 10;
   63; 174; 180; 42; 182; 66; 75; 181; 101; 57; 213; 70; 89; 169; 6; 70; 147; 174; 51; 147;
   6; 84; 39; 197; 64; 87; 138; 44; 91; 10; 77; 218; 132; 59; 213; 170; 40; 85; 203; 71;
   74; 87; 55; 73; 139; 87; 147; 74; 68; 43; 53; 48; 45; 133; 80; 93; 74; 61; 90; 117;
   44; 106; 69; 75; 85; 75; 57; 165; 77; 89; 74; 205; 71; 149; 186; 51; 150; 12; 84; 46].
Definition chinese_row_221 : list Z :=
  [197; 64; 109; 74; 46; 181; 10; 77; 170; 133; 59; 165; 205; 40; 165; 142; 73; 74; 77; 55;
   75; 198; 85; 151; 140; 66; 54; 233; 49; 91; 197; 78; 182; 74; 61; 178; 118; 44; 210; 6;
   77; 165; 118; 57; 37; 75; 89; 75; 10; 70; 151; 212; 51; 155; 68; 82; 91; 5; 63; 218;
   74; 46; 106; 203; 78; 82; 139; 59; 165; 218; 40; 37; 141; 73; 75; 90; 55; 77; 202; 85;
   173; 132; 66; 109; 41; 48; 173; 133; 80; 170; 77; 61; 82; 123; 44; 146; 13; 77; 37; 253].
Definition chinese_row_222 : list Z :=
  [58; 38; 77; 89; 86; 10; 70; 174; 212; 51; 182; 4; 84; 181; 6; 63; 170; 77; 46; 170;
   198; 78; 147; 142; 59; 38; 205; 40; 39; 197; 71; 87; 138; 53; 91; 202; 85; 218; 132; 66;
   213; 42; 48; 85; 139; 80; 74; 7; 63; 149; 182; 42; 149; 74; 75; 43; 117; 57; 45; 69;
   89; 93; 74; 68; 90; 213; 51; 106; 5; 84; 101; 203; 64; 74; 91; 46; 74; 205; 78; 149;
   138; 59; 45; 217; 40; 46; 201; 71; 173; 170; 53; 181; 202; 85; 170; 69; 68; 165; 13; 48].
Definition chinese_row_223 : list Z :=
  [165; 142; 80; 74; 13; 63; 150; 108; 44; 151; 132; 73; 55; 137; 55; 91; 137; 87; 182; 10;
   70; 180; 214; 51; 82; 7; 84; 165; 198; 64; 75; 86; 46; 75; 10; 77; 151; 196; 57; 87;
   9; 39; 91; 201; 71; 218; 170; 53; 106; 203; 85; 82; 75; 68; 37; 251; 49; 37; 141; 80;
   75; 74; 61; 155; 180; 42; 173; 68; 75; 109; 137; 55; 181; 133; 87; 170; 13; 70; 84; 125;
   53; 146; 14; 84; 38; 205; 64; 77; 90; 46; 86; 202; 78; 174; 196; 57; 109; 9; 39; 181].
Definition chinese_row_224 : list Z :=
  [202; 71; 170; 117; 55; 202; 198; 85; 147; 142; 66; 38; 237; 49; 43; 133; 80; 87; 138; 59;
   182; 212; 42; 90; 69; 75; 213; 10; 56; 170; 22; 37; 74; 7; 70; 149; 214; 51; 149; 10;
   84; 43; 5; 63; 91; 146; 44; 109; 10; 77; 90; 133; 59; 213; 10; 39; 101; 203; 71; 74;
   123; 55; 74; 141; 87; 149; 140; 66; 45; 57; 48; 46; 137; 80; 173; 66; 61; 109; 245; 40;
   180; 69; 75; 165; 13; 56; 74; 253; 38; 74; 14; 70; 150; 204; 51; 151; 68; 82; 55; 9].
Definition chinese_row_225 : list Z :=
  [63; 182; 146; 44; 214; 10; 77; 212; 134; 59; 165; 206; 40; 165; 198; 71; 75; 150; 53; 75;
   202; 85; 155; 132; 66; 87; 105; 46; 91; 201; 78; 218; 66; 61; 213; 186; 42; 84; 75; 75;
   37; 11; 56; 75; 90; 37; 77; 10; 70; 171; 20; 50; 173; 68; 82; 109; 9; 63; 106; 85;
   46; 170; 13; 77; 84; 141; 59; 37; 221; 40; 38; 141; 73; 85; 186; 53; 86; 202; 85; 174;
   132; 66; 173; 42; 48; 181; 202; 78; 170; 69; 61; 149; 173; 42; 149; 78; 75; 42; 117; 57].
Definition chinese_row_226 : list Z :=
  [43; 133; 87; 87; 74; 68; 182; 212; 51; 90; 69; 82; 213; 10; 63; 202; 86; 46; 74; 203;
   78; 149; 202; 57; 43; 21; 39; 43; 201; 71; 91; 178; 53; 173; 2; 84; 91; 197; 64; 85;
   43; 48; 165; 139; 80; 74; 75; 61; 149; 186; 42; 149; 76; 75; 45; 89; 57; 46; 137; 87;
   173; 66; 68; 109; 21; 50; 180; 5; 84; 169; 13; 63; 74; 93; 46; 74; 206; 78; 22; 141;
   59; 46; 41; 39; 87; 9; 70; 182; 210; 53; 218; 194; 85; 213; 198; 64; 169; 46; 48; 37].
Definition chinese_row_227 : list Z :=
  [135; 80; 139; 70; 61; 23; 21; 41; 171; 132; 73; 91; 73; 54; 186; 18; 37; 90; 67; 68;
   213; 26; 50; 84; 11; 84; 41; 203; 64; 139; 154; 44; 141; 10; 77; 171; 196; 57; 91; 41;
   39; 109; 10; 70; 106; 181; 53; 170; 197; 85; 149; 141; 66; 74; 61; 48; 70; 141; 80; 85;
   74; 61; 174; 212; 42; 54; 133; 73; 181; 74; 54; 106; 53; 37; 170; 6; 70; 149; 14; 50;
   165; 70; 82; 75; 5; 63; 87; 170; 44; 87; 66; 75; 55; 5; 56; 181; 42; 39; 213; 202].
Definition chinese_row_228 : list Z :=
  [71; 210; 246; 53; 82; 203; 85; 165; 138; 66; 43; 54; 48; 43; 202; 78; 155; 132; 59; 91;
   5; 41; 107; 133; 73; 89; 75; 54; 82; 59; 37; 82; 11; 70; 21; 219; 51; 21; 77; 82;
   77; 10; 63; 173; 148; 44; 174; 2; 77; 109; 5; 56; 106; 13; 39; 169; 205; 71; 82; 125;
   55; 138; 206; 85; 22; 141; 66; 78; 42; 48; 87; 202; 78; 182; 130; 59; 181; 5; 41; 213;
   134; 73; 169; 6; 56; 147; 110; 35; 139; 70; 68; 23; 21; 50; 43; 69; 82; 91; 74; 61].
Definition chinese_row_229 : list Z :=
  [186; 180; 44; 90; 5; 77; 85; 203; 57; 169; 54; 39; 73; 203; 71; 147; 186; 53; 149; 202;
   85; 45; 197; 64; 93; 106; 46; 109; 202; 78; 106; 69; 61; 85; 235; 40; 165; 141; 73; 74;
   13; 56; 149; 90; 37; 150; 74; 68; 46; 21; 50; 54; 69; 82; 181; 10; 63; 170; 149; 44;
   178; 6; 77; 165; 206; 57; 74; 237; 40; 75; 6; 70; 151; 236; 51; 151; 4; 84; 87; 197;
   64; 182; 138; 46; 213; 202; 78; 210; 70; 61; 165; 214; 42; 165; 138; 73; 75; 74; 54; 151].
Definition chinese_row_230 : list Z :=
  [148; 35; 155; 68; 68; 91; 101; 48; 109; 133; 80; 106; 11; 63; 82; 123; 46; 82; 13; 77;
   37; 205; 57; 75; 58; 39; 77; 202; 71; 173; 244; 51; 174; 4; 84; 173; 197; 64; 106; 45;
   48; 169; 205; 78; 146; 77; 61; 37; 221; 42; 38; 77; 75; 78; 74; 54; 174; 148; 35; 182;
   68; 68; 181; 41; 50; 213; 138; 80; 169; 6; 63; 147; 142; 44; 147; 6; 77; 39; 5; 56;
   87; 106; 37; 91; 10; 70; 218; 244; 53; 106; 5; 84; 85; 203; 64; 202; 86; 48; 73; 139].
Definition chinese_row_231 : list Z :=
  [80; 149; 138; 59; 43; 21; 41; 45; 133; 73; 93; 74; 54; 90; 149; 35; 106; 69; 68; 85;
   43; 50; 165; 77; 82; 74; 13; 63; 149; 154; 44; 150; 12; 77; 46; 201; 57; 109; 106; 37;
   181; 10; 70; 170; 245; 53; 210; 198; 85; 165; 206; 64; 74; 45; 48; 75; 198; 78; 151; 140;
   59; 54; 9; 41; 91; 197; 71; 182; 74; 54; 180; 53; 37; 210; 70; 68; 165; 22; 50; 37;
   75; 82; 75; 10; 63; 151; 244; 42; 155; 68; 75; 91; 9; 56; 218; 42; 39; 106; 11; 70].
Definition chinese_row_232 : list Z :=
  [82; 219; 53; 82; 205; 85; 37; 141; 66; 75; 154; 46; 77; 202; 78; 173; 132; 59; 93; 9;
   41; 173; 197; 71; 170; 77; 54; 84; 91; 37; 146; 13; 70; 38; 61; 50; 38; 77; 82; 86;
   10; 63; 174; 180; 44; 182; 68; 75; 181; 10; 56; 170; 53; 39; 202; 198; 71; 147; 78; 52;
   147; 10; 84; 43; 197; 64; 87; 138; 46; 91; 10; 77; 218; 132; 59; 213; 10; 41; 85; 139;
   73; 74; 71; 54; 149; 150; 35; 149; 74; 68; 43; 57; 50; 45; 137; 80; 93; 74; 61; 90].
Definition chinese_row_233 : list Z :=
  [181; 44; 106; 5; 77; 101; 11; 56; 74; 59; 39; 74; 205; 71; 149; 188; 53; 150; 12; 84;
   46; 201; 64; 109; 146; 46; 182; 202; 78; 172; 133; 59; 165; 13; 41; 165; 142; 73; 74; 13;
   56; 150; 172; 35; 151; 132; 66; 55; 105; 48; 91; 137; 80; 182; 74; 61; 180; 182; 44; 84;
   7; 77; 165; 198; 57; 75; 118; 37; 75; 10; 70; 151; 52; 52; 171; 4; 84; 91; 9; 63;
   218; 138; 46; 106; 203; 78; 84; 75; 61; 37; 27; 41; 37; 141; 73; 77; 74; 54; 155; 180].
Definition chinese_row_234 : list Z :=
  [35; 173; 132; 66; 109; 105; 48; 181; 137; 80; 170; 13; 63; 84; 189; 44; 146; 14; 77; 38;
   205; 57; 77; 42; 39; 87; 74; 68; 174; 52; 52; 182; 4; 84; 181; 202; 64; 170; 149; 46;
   202; 198; 78; 149; 142; 59; 42; 213; 42; 43; 197; 71; 87; 138; 52; 182; 180; 35; 90; 69;
   68; 213; 106; 48; 85; 139; 80; 74; 7; 63; 149; 182; 44; 149; 74; 75; 43; 9; 56; 91;
   146; 37; 109; 2; 70; 91; 5; 49; 213; 170; 31; 101; 203; 64; 74; 91; 48; 74; 205; 78].
Definition chinese_row_235 : list Z :=
  [149; 140; 59; 45; 25; 41; 46; 137; 73; 174; 130; 52; 109; 213; 33; 180; 69; 68; 169; 45;
   50; 165; 142; 80; 74; 14; 63; 150; 172; 44; 151; 68; 75; 87; 73; 54; 182; 146; 37; 214;
   2; 70; 213; 198; 50; 169; 206; 31; 165; 198; 64; 75; 150; 46; 75; 202; 78; 155; 196; 57;
   91; 105; 39; 91; 201; 71; 218; 66; 54; 213; 218; 33; 84; 75; 68; 41; 59; 50; 37; 77;
   82; 77; 74; 61; 171; 244; 42; 174; 68; 75; 109; 9; 56; 106; 117; 37; 170; 5; 70; 85].
Definition chinese_row_236 : list Z :=
  [205; 50; 42; 157; 33; 42; 205; 64; 85; 138; 46; 87; 10; 77; 174; 132; 59; 173; 74; 39;
   181; 202; 71; 170; 69; 54; 149; 173; 35; 149; 134; 66; 43; 117; 48; 43; 133; 80; 87; 74;
   61; 54; 229; 42; 91; 133; 73; 213; 10; 56; 202; 54; 39; 74; 11; 70; 149; 202; 50; 43;
   21; 32; 43; 202; 64; 91; 210; 44; 173; 2; 77; 91; 197; 57; 89; 43; 41; 169; 205; 71;
   82; 75; 54; 149; 186; 35; 21; 77; 68; 45; 122; 48; 46; 138; 80; 174; 66; 61; 109; 229].
Definition chinese_row_237 : list Z :=
  [42; 181; 133; 73; 169; 13; 56; 82; 61; 39; 74; 206; 71; 22; 205; 50; 46; 10; 32; 87;
   10; 63; 182; 146; 46; 218; 2; 77; 213; 198; 57; 169; 22; 41; 41; 135; 73; 139; 134; 52;
   23; 245; 33; 43; 133; 66; 91; 138; 48; 93; 201; 78; 90; 67; 61; 213; 10; 43; 85; 75;
   75; 73; 11; 56; 147; 154; 37; 149; 10; 70; 45; 197; 50; 93; 234; 29; 109; 10; 63; 106;
   181; 46; 170; 197; 78; 149; 205; 57; 74; 29; 41; 74; 141; 73; 150; 74; 54; 46; 245; 33].
Definition chinese_row_238 : list Z :=
  [54; 133; 66; 181; 138; 48; 181; 138; 80; 170; 70; 61; 165; 237; 42; 165; 70; 75; 75; 5;
   56; 151; 204; 35; 151; 68; 68; 55; 133; 50; 91; 69; 82; 213; 10; 63; 210; 150; 46; 82;
   203; 78; 165; 138; 59; 75; 118; 39; 75; 202; 71; 155; 132; 52; 91; 229; 33; 109; 197; 64;
   90; 139; 48; 169; 141; 80; 82; 11; 63; 37; 251; 42; 37; 77; 75; 77; 10; 56; 173; 148;
   37; 174; 68; 68; 109; 5; 49; 106; 205; 31; 169; 205; 64; 82; 141; 46; 147; 14; 77; 38].
Definition chinese_row_239 : list Z :=
  [141; 59; 78; 42; 41; 87; 10; 70; 182; 132; 52; 181; 233; 33; 213; 134; 66; 170; 150; 48;
   73; 135; 80; 147; 70; 61; 39; 245; 42; 43; 133; 73; 91; 74; 54; 186; 148; 37; 90; 5;
   70; 213; 10; 49; 170; 22; 32; 74; 203; 64; 149; 154; 46; 149; 10; 77; 45; 197; 57; 93;
   106; 39; 109; 202; 71; 106; 133; 52; 85; 235; 33; 165; 141; 66; 74; 61; 50; 74; 141; 80;
   150; 76; 61; 46; 249; 42; 54; 69; 75; 181; 74; 54; 170; 149; 37; 178; 6; 70; 165; 206].
Definition chinese_row_240 : list Z :=
  [50; 74; 13; 32; 75; 6; 63; 151; 212; 44; 151; 4; 77; 87; 9; 56; 182; 106; 39; 218;
   202; 71; 210; 70; 54; 165; 246; 33; 37; 139; 66; 75; 154; 48; 75; 138; 80; 155; 132; 59;
   91; 73; 41; 109; 133; 73; 106; 11; 56; 82; 155; 37; 82; 13; 70; 37; 205; 50; 75; 26;
   32; 77; 10; 63; 173; 244; 44; 174; 4; 77; 109; 201; 57; 106; 109; 39; 170; 205; 71; 146;
   77; 54; 38; 189; 35; 38; 141; 66; 86; 138; 48; 87; 202; 78; 182; 68; 61; 181; 73; 41].
Definition chinese_row_241 : list Z :=
  [213; 138; 73; 170; 6; 56; 147; 142; 37; 147; 70; 68; 43; 5; 49; 87; 74; 30; 91; 10;
   63; 218; 244; 44; 90; 5; 77; 85; 203; 57; 202; 54; 41; 74; 203; 71; 149; 138; 52; 43;
   245; 33; 45; 137; 66; 93; 202; 46; 173; 202; 78; 106; 69; 61; 85; 11; 43; 165; 141; 73;
   74; 13; 56; 149; 156; 37; 150; 12; 70; 46; 9; 49; 109; 82; 30; 182; 10; 63; 172; 181;
   46; 210; 6; 77; 165; 206; 57; 74; 45; 41; 75; 198; 71; 151; 196; 50; 55; 73; 32; 91].
Definition chinese_row_242 : list Z :=
  [201; 64; 182; 202; 48; 218; 202; 78; 212; 70; 61; 165; 22; 43; 37; 75; 75; 75; 74; 54;
   155; 212; 35; 155; 68; 68; 91; 9; 49; 218; 82; 30; 106; 11; 63; 84; 187; 46; 82; 205;
   78; 37; 205; 57; 77; 122; 39; 77; 202; 71; 173; 132; 52; 93; 41; 32; 173; 201; 64; 170;
   181; 48; 170; 133; 80; 147; 141; 59; 38; 253; 42; 38; 69; 75; 87; 74; 54; 174; 212; 35;
   182; 68; 68; 181; 10; 49; 170; 21; 32; 202; 6; 63; 149; 206; 44; 149; 10; 77; 43; 197].
Definition chinese_row_243 : list Z :=
  [57; 87; 170; 37; 91; 10; 70; 90; 133; 52; 213; 234; 33; 85; 203; 64; 74; 183; 48; 74;
   139; 80; 149; 74; 61; 43; 89; 41; 45; 137; 73; 93; 66; 54; 91; 213; 35; 108; 69; 68;
   101; 11; 49; 74; 27; 32; 74; 205; 64; 149; 252; 44; 150; 12; 77; 46; 201; 57; 174; 114;
   39; 182; 10; 70; 172; 133; 52; 169; 237; 33; 165; 142; 66; 74; 205; 48; 75; 198; 78; 151;
   132; 59; 55; 73; 41; 91; 201; 71; 182; 66; 54; 181; 214; 35; 84; 7; 70; 165; 6; 49].
Definition chinese_row_244 : list Z :=
  [75; 86; 30; 75; 10; 63; 155; 244; 44; 171; 68; 75; 91; 9; 56; 218; 146; 39; 106; 205;
   71; 84; 139; 52; 41; 27; 34; 37; 141; 66; 77; 154; 48; 85; 202; 78; 174; 132; 59; 109;
   73; 41; 181; 138; 73; 170; 69; 54; 85; 205; 35; 149; 78; 68; 38; 205; 50; 78; 106; 30;
   87; 74; 61; 174; 244; 44; 182; 4; 77; 181; 10; 56; 170; 117; 39; 202; 198; 71; 149; 134;
   52; 43; 85; 32; 43; 197; 64; 87; 242; 46; 91; 194; 78; 91; 197; 57; 213; 74; 41; 85].
Definition chinese_row_245 : list Z :=
  [139; 73; 74; 11; 56; 149; 218; 35; 149; 74; 68; 43; 9; 49; 91; 114; 30; 173; 66; 61;
   91; 37; 43; 109; 69; 75; 105; 203; 57; 82; 123; 39; 74; 205; 71; 149; 140; 52; 45; 26;
   34; 46; 201; 64; 174; 242; 46; 182; 194; 78; 181; 133; 59; 169; 77; 41; 169; 142; 73; 74;
   14; 56; 22; 141; 37; 23; 133; 66; 87; 73; 47; 182; 114; 30; 218; 2; 63; 181; 86; 43;
   84; 11; 77; 169; 198; 57; 75; 118; 39; 139; 10; 70; 27; 197; 50; 91; 73; 32; 93; 201].
Definition chinese_row_246 : list Z :=
  [64; 218; 242; 46; 106; 197; 78; 85; 139; 59; 41; 27; 43; 41; 141; 73; 77; 74; 54; 173;
   244; 35; 174; 68; 68; 109; 73; 47; 106; 85; 30; 170; 5; 63; 85; 237; 44; 149; 78; 75;
   42; 205; 57; 86; 106; 39; 87; 10; 70; 174; 196; 50; 173; 74; 32; 181; 202; 64; 170; 69;
   47; 165; 173; 26; 165; 134; 59; 43; 85; 41; 43; 134; 73; 87; 132; 52; 55; 37; 34; 91;
   133; 66; 214; 10; 49; 210; 86; 30; 82; 11; 63; 165; 250; 44; 21; 11; 77; 43; 10; 56].
Definition chinese_row_247 : list Z :=
  [91; 212; 37; 173; 2; 70; 93; 197; 50; 90; 75; 32; 105; 205; 64; 82; 75; 47; 165; 122;
   28; 21; 141; 59; 45; 90; 41; 78; 138; 73; 174; 66; 54; 109; 37; 34; 181; 133; 66; 170;
   13; 49; 82; 45; 32; 147; 78; 61; 22; 237; 44; 23; 69; 75; 87; 10; 56; 182; 212; 37;
   218; 2; 70; 213; 202; 50; 170; 22; 34; 41; 199; 64; 147; 134; 45; 39; 213; 26; 43; 133;
   59; 91; 138; 39; 93; 202; 71; 90; 69; 54; 213; 234; 35; 85; 139; 66; 74; 11; 49; 149].
Definition chinese_row_248 : list Z :=
  [122; 30; 149; 10; 63; 45; 53; 43; 46; 69; 75; 109; 10; 56; 106; 117; 39; 170; 5; 70;
   165; 205; 50; 74; 253; 33; 74; 141; 66; 150; 12; 47; 151; 12; 77; 54; 133; 59; 182; 74;
   41; 182; 202; 71; 170; 70; 54; 165; 205; 35; 165; 70; 68; 75; 69; 47; 151; 180; 28; 151;
   68; 61; 55; 73; 43; 91; 133; 73; 218; 10; 56; 210; 150; 39; 82; 203; 71; 165; 202; 50;
   75; 90; 32; 75; 202; 64; 155; 244; 46; 173; 4; 77; 109; 197; 57; 90; 107; 41; 170; 141].
Definition chinese_row_249 : list Z :=
  [73; 82; 77; 54; 37; 251; 35; 37; 77; 68; 77; 10; 49; 173; 180; 28; 174; 68; 61; 109;
   101; 43; 181; 70; 75; 170; 13; 56; 82; 109; 39; 147; 14; 70; 38; 133; 52; 79; 138; 30;
   87; 10; 63; 182; 132; 45; 181; 169; 26; 213; 202; 57; 170; 86; 41; 74; 135; 73; 147; 70;
   54; 43; 53; 34; 43; 133; 66; 91; 74; 47; 186; 148; 30; 90; 69; 61; 213; 74; 43; 85;
   75; 75; 74; 203; 57; 149; 218; 37; 149; 10; 70; 45; 201; 50; 93; 82; 32; 109; 10; 63].
Definition chinese_row_250 : list Z :=
  [106; 133; 45; 85; 171; 26; 165; 141; 59; 74; 125; 41; 74; 141; 73; 150; 76; 54; 46; 233;
   35; 55; 201; 64; 182; 74; 47; 172; 117; 30; 178; 6; 63; 165; 78; 43; 165; 70; 75; 75;
   6; 56; 151; 212; 37; 151; 68; 68; 87; 9; 49; 182; 74; 32; 218; 202; 64; 212; 134; 45;
   165; 214; 26; 37; 139; 59; 75; 90; 41; 75; 202; 71; 155; 132; 52; 91; 41; 34; 109; 137;
   66; 106; 75; 47; 84; 123; 30; 82; 13; 63; 37; 253; 44; 38; 77; 75; 77; 10; 56; 174].
Definition chinese_row_251 : list Z :=
  [212; 37; 174; 4; 70; 109; 9; 49; 106; 85; 32; 170; 197; 64; 149; 141; 45; 38; 221; 26;
   38; 133; 59; 87; 138; 39; 87; 202; 71; 182; 132; 52; 181; 42; 34; 213; 138; 66; 170; 6;
   49; 149; 174; 28; 149; 74; 61; 43; 85; 43; 43; 69; 75; 91; 74; 54; 218; 212; 37; 90;
   5; 70; 85; 203; 50; 202; 86; 32; 74; 203; 64; 149; 138; 45; 43; 217; 26; 45; 201; 57;
   93; 178; 39; 173; 202; 71; 106; 69; 54; 101; 43; 34; 165; 141; 66; 74; 13; 49; 149; 124].
Definition chinese_row_252 : list Z :=
  [30; 150; 76; 61; 46; 73; 43; 55; 137; 73; 182; 2; 56; 173; 21; 36; 212; 6; 70; 165;
   206; 50; 74; 13; 34; 75; 6; 63; 151; 196; 43; 55; 41; 25; 91; 201; 57; 182; 178; 39;
   218; 202; 71; 212; 70; 54; 165; 246; 35; 37; 139; 66; 75; 74; 47; 155; 212; 28; 157; 68;
   61; 93; 137; 41; 109; 137; 73; 106; 3; 56; 85; 219; 37; 84; 13; 70; 37; 205; 50; 77;
   90; 32; 77; 202; 64; 174; 196; 43; 93; 41; 25; 173; 201; 57; 106; 117; 41; 170; 197; 71].
Definition chinese_row_253 : list Z :=
  [149; 141; 52; 38; 237; 35; 43; 133; 66; 87; 138; 45; 174; 212; 28; 182; 68; 61; 181; 138;
   43; 213; 138; 73; 202; 6; 56; 149; 214; 37; 149; 10; 70; 43; 5; 49; 87; 178; 30; 91;
   2; 63; 91; 197; 43; 213; 10; 25; 85; 203; 57; 74; 123; 41; 74; 139; 73; 149; 138; 52;
   43; 57; 34; 45; 137; 66; 93; 66; 47; 93; 229; 26; 109; 133; 59; 105; 139; 43; 165; 77;
   75; 74; 13; 56; 149; 220; 37; 150; 12; 70; 46; 201; 50; 174; 146; 30; 182; 2; 63; 181].
Definition chinese_row_254 : list Z :=
  [197; 43; 169; 205; 26; 169; 198; 57; 75; 173; 39; 75; 198; 71; 151; 132; 52; 55; 105; 32;
   91; 201; 64; 186; 66; 47; 181; 198; 28; 213; 138; 59; 169; 118; 43; 37; 75; 75; 75; 10;
   56; 155; 20; 36; 173; 68; 68; 93; 9; 49; 218; 114; 32; 106; 5; 63; 85; 203; 43; 42;
   219; 26; 38; 141; 59; 77; 186; 39; 86; 202; 71; 174; 132; 52; 109; 41; 34; 181; 202; 64;
   170; 69; 47; 85; 173; 28; 149; 78; 61; 42; 141; 43; 43; 133; 73; 87; 74; 54; 174; 212].
Definition chinese_row_255 : list Z :=
  [37; 54; 69; 68; 181; 10; 49; 170; 85; 32; 202; 198; 64; 149; 198; 43; 43; 53; 25; 43;
   197; 57; 87; 178; 39; 91; 2; 70; 91; 197; 50; 214; 74; 34; 89; 139; 66; 82; 75; 47;
   149; 218; 28; 149; 74; 61; 43; 90; 43; 45; 138; 73; 173; 66; 54; 93; 37; 36; 109; 69;
   68; 105; 13; 49; 82; 123; 32; 82; 205; 64; 21; 141; 45; 45; 58; 25; 46; 202; 57; 174;
   210; 39; 182; 194; 71; 181; 197; 50; 170; 45; 34; 169; 134; 66; 83; 78; 47; 22; 205; 28].
Definition chinese_row_256 : list Z :=
  [23; 133; 59; 87; 202; 41; 91; 137; 73; 218; 66; 54; 181; 10; 36; 85; 75; 68; 169; 198;
   50; 147; 150; 30; 139; 10; 63; 43; 197; 43; 91; 42; 25; 93; 9; 56; 218; 180; 39; 106;
   197; 71; 85; 139; 52; 42; 59; 34; 74; 141; 66; 149; 74; 47; 45; 213; 28; 46; 133; 59;
   109; 202; 41; 181; 138; 73; 170; 5; 56; 85; 45; 36; 165; 78; 68; 74; 205; 50; 150; 74;
   32; 151; 76; 61; 46; 197; 43; 174; 42; 25; 182; 202; 57; 170; 213; 39; 210; 198; 71; 165].
Definition chinese_row_257 : list Z :=
  [134; 52; 75; 53; 34; 75; 202; 64; 151; 132; 45; 55; 9; 27; 91; 133; 59; 218; 74; 40;
   210; 54; 23; 82; 11; 56; 165; 218; 37; 37; 77; 68; 75; 10; 49; 155; 180; 30; 173; 4;
   63; 93; 5; 42; 90; 43; 25; 106; 205; 57; 82; 155; 41; 82; 205; 71; 38; 141; 52; 77;
   90; 34; 78; 138; 66; 174; 132; 45; 109; 5; 27; 181; 133; 59; 170; 5; 42; 83; 109; 21;
   147; 78; 54; 38; 205; 37; 39; 69; 68; 87; 74; 47; 182; 180; 30; 218; 4; 63; 213; 202].
Definition chinese_row_258 : list Z :=
  [43; 170; 54; 25; 74; 199; 57; 147; 214; 39; 149; 202; 71; 43; 197; 50; 91; 138; 32; 93;
   202; 64; 90; 69; 47; 213; 10; 27; 85; 139; 59; 74; 11; 42; 149; 58; 23; 149; 74; 54;
   45; 57; 36; 46; 73; 68; 109; 10; 49; 106; 181; 30; 170; 5; 63; 165; 205; 43; 74; 253;
   26; 74; 205; 57; 150; 172; 39; 151; 4; 70; 55; 201; 50; 182; 138; 32; 182; 202; 64; 180;
   70; 47; 165; 205; 28; 165; 134; 59; 75; 70; 40; 151; 148; 21; 155; 68; 54; 55; 105; 34].
Definition chinese_row_259 : list Z :=
  [91; 133; 66; 218; 10; 49; 212; 118; 32; 82; 11; 63; 165; 202; 43; 75; 58; 25; 75; 202;
   57; 155; 244; 37; 173; 4; 70; 109; 201; 50; 90; 75; 34; 170; 205; 64; 82; 77; 47; 37;
   219; 28; 38; 77; 61; 77; 202; 41; 87; 202; 71; 174; 68; 54; 109; 41; 36; 181; 138; 66;
   170; 5; 49; 149; 141; 30; 147; 6; 63; 39; 5; 42; 87; 106; 23; 87; 10; 56; 182; 212;
   39; 218; 4; 70; 213; 202; 50; 170; 86; 34; 74; 135; 66; 149; 134; 45; 43; 21; 27; 43].
Definition chinese_row_260 : list Z :=
  [133; 59; 91; 178; 41; 93; 202; 71; 90; 69; 54; 213; 42; 36; 101; 75; 68; 74; 11; 49;
   149; 186; 30; 149; 12; 63; 45; 201; 43; 93; 114; 23; 109; 10; 56; 108; 245; 39; 172; 197;
   71; 165; 205; 50; 74; 93; 34; 74; 141; 66; 150; 76; 47; 46; 9; 27; 55; 201; 57; 182;
   66; 40; 109; 149; 21; 180; 70; 54; 165; 14; 36; 165; 70; 68; 75; 6; 49; 151; 244; 28;
   155; 68; 61; 91; 9; 42; 182; 82; 25; 218; 10; 56; 212; 246; 39; 84; 203; 71; 37; 139].
Definition chinese_row_261 : list Z :=
  [52; 75; 154; 32; 77; 202; 64; 155; 132; 45; 93; 41; 27; 109; 201; 57; 106; 67; 40; 85;
   123; 21; 84; 13; 56; 38; 61; 36; 38; 77; 68; 78; 10; 49; 174; 180; 30; 174; 68; 61;
   109; 9; 42; 106; 53; 25; 170; 197; 57; 149; 77; 38; 149; 6; 70; 43; 197; 50; 87; 138;
   32; 87; 10; 63; 182; 132; 45; 181; 10; 27; 213; 138; 59; 170; 70; 40; 149; 150; 21; 149;
   74; 54; 43; 53; 36; 43; 137; 66; 91; 66; 47; 219; 4; 29; 91; 69; 61; 85; 11; 42].
Definition chinese_row_262 : list Z :=
  [202; 54; 25; 74; 203; 57; 149; 218; 39; 149; 12; 70; 45; 201; 50; 93; 146; 32; 174; 194;
   64; 109; 197; 43; 105; 11; 27; 169; 141; 59; 74; 13; 42; 149; 188; 21; 150; 76; 54; 46;
   41; 36; 87; 137; 66; 182; 66; 47; 181; 229; 28; 213; 70; 61; 169; 198; 43; 75; 109; 23;
   75; 6; 56; 151; 20; 38; 155; 4; 70; 91; 9; 49; 186; 146; 32; 218; 194; 64; 213; 138;
   45; 169; 22; 27; 37; 139; 59; 75; 74; 40; 155; 180; 21; 173; 132; 52; 93; 105; 34; 109].
Definition chinese_row_263 : list Z :=
  [137; 66; 106; 5; 49; 85; 235; 28; 85; 77; 61; 42; 205; 43; 77; 58; 25; 86; 10; 56;
   174; 52; 38; 174; 4; 70; 173; 202; 50; 106; 149; 32; 170; 197; 64; 149; 141; 45; 42; 205;
   28; 43; 197; 57; 87; 138; 38; 174; 164; 21; 183; 132; 52; 182; 138; 34; 213; 138; 66; 202;
   6; 49; 149; 182; 30; 149; 74; 61; 43; 5; 42; 87; 148; 23; 91; 2; 56; 91; 101; 36;
   109; 69; 68; 89; 203; 50; 82; 91; 34; 82; 205; 64; 149; 138; 45; 43; 58; 27; 45; 138].
Definition chinese_row_264 : list Z :=
  [59; 93; 130; 38; 93; 229; 19; 109; 133; 52; 106; 75; 36; 169; 141; 66; 82; 13; 49; 149;
   188; 30; 22; 13; 63; 46; 10; 42; 174; 146; 23; 182; 2; 56; 181; 69; 38; 213; 70; 68;
   169; 198; 50; 83; 142; 32; 139; 198; 64; 23; 197; 43; 87; 106; 25; 91; 201; 57; 186; 66;
   40; 181; 198; 19; 213; 138; 52; 170; 54; 36; 73; 75; 68; 147; 74; 47; 171; 20; 29; 173;
   68; 61; 93; 10; 42; 218; 148; 23; 106; 5; 56; 85; 75; 38; 149; 13; 70; 74; 205; 50].
Definition chinese_row_265 : list Z :=
  [149; 154; 32; 86; 202; 64; 174; 132; 45; 109; 106; 25; 181; 202; 57; 170; 69; 40; 85; 173;
   21; 165; 142; 52; 74; 45; 36; 75; 133; 66; 87; 76; 47; 174; 8; 29; 55; 133; 59; 182;
   10; 42; 178; 85; 25; 210; 6; 56; 165; 54; 38; 165; 10; 70; 75; 202; 50; 87; 212; 30;
   155; 4; 63; 91; 197; 43; 218; 42; 27; 90; 203; 57; 82; 75; 40; 165; 154; 21; 37; 75;
   54; 75; 122; 34; 77; 138; 66; 173; 68; 47; 93; 5; 29; 109; 133; 59; 106; 13; 42; 82].
Definition chinese_row_266 : list Z :=
  [91; 25; 82; 205; 57; 38; 205; 36; 77; 170; 17; 79; 10; 49; 174; 180; 32; 182; 4; 63;
   181; 197; 43; 170; 13; 27; 170; 134; 59; 147; 142; 38; 38; 173; 21; 39; 133; 52; 87; 138;
   34; 91; 202; 64; 218; 68; 47; 181; 10; 29; 85; 75; 61; 170; 6; 42; 149; 150; 23; 149;
   10; 56; 43; 53; 38; 45; 69; 68; 93; 10; 49; 218; 180; 32; 106; 197; 64; 85; 203; 43;
   74; 59; 27; 74; 141; 59; 149; 74; 40; 45; 249; 19; 46; 137; 52; 109; 138; 34; 181; 138].
Definition chinese_row_267 : list Z :=
  [66; 170; 69; 47; 101; 13; 29; 165; 78; 61; 74; 205; 43; 150; 140; 23; 151; 68; 54; 55;
   137; 36; 91; 73; 68; 182; 10; 49; 180; 181; 32; 210; 198; 64; 165; 134; 45; 75; 118; 25;
   75; 202; 57; 151; 132; 38; 55; 9; 20; 91; 201; 50; 218; 138; 34; 106; 139; 66; 82; 11;
   49; 165; 26; 29; 37; 77; 61; 77; 10; 42; 157; 148; 23; 174; 68; 54; 93; 137; 36; 173;
   69; 68; 106; 205; 50; 84; 187; 32; 146; 205; 64; 38; 141; 45; 77; 42; 27; 87; 10; 56].
Definition chinese_row_268 : list Z :=
  [174; 132; 38; 109; 233; 19; 181; 138; 52; 170; 149; 34; 170; 134; 66; 147; 78; 47; 38; 181;
   30; 43; 133; 59; 87; 74; 40; 182; 148; 23; 218; 4; 56; 213; 10; 35; 170; 214; 17; 74;
   199; 50; 149; 150; 32; 149; 10; 63; 43; 197; 43; 91; 114; 25; 93; 202; 57; 90; 133; 38;
   213; 234; 19; 101; 139; 52; 74; 91; 36; 74; 141; 66; 149; 76; 47; 45; 25; 29; 46; 73;
   61; 110; 66; 40; 109; 213; 21; 172; 5; 56; 165; 205; 36; 74; 29; 18; 74; 205; 50; 150].
Definition chinese_row_269 : list Z :=
  [172; 32; 151; 4; 63; 55; 9; 42; 182; 114; 25; 182; 202; 57; 180; 70; 40; 165; 237; 19;
   165; 134; 52; 75; 150; 34; 75; 138; 66; 155; 132; 45; 59; 73; 27; 93; 137; 59; 218; 2;
   42; 213; 214; 21; 84; 11; 56; 165; 202; 36; 75; 26; 18; 77; 10; 49; 157; 244; 30; 174;
   4; 63; 109; 201; 43; 106; 115; 25; 170; 197; 57; 85; 141; 38; 38; 187; 21; 38; 141; 52;
   78; 138; 34; 87; 202; 64; 174; 68; 47; 109; 73; 27; 181; 138; 59; 170; 5; 42; 149; 141].
Definition chinese_row_270 : list Z :=
  [23; 149; 70; 54; 43; 5; 35; 87; 74; 16; 87; 10; 49; 182; 244; 30; 90; 5; 63; 213;
   202; 43; 170; 54; 27; 74; 203; 57; 149; 138; 38; 43; 21; 20; 43; 137; 52; 91; 210; 32;
   93; 194; 64; 91; 133; 45; 217; 10; 29; 101; 139; 59; 74; 11; 42; 149; 154; 23; 149; 12;
   56; 45; 9; 35; 93; 114; 16; 174; 2; 49; 109; 245; 30; 180; 5; 63; 169; 205; 43; 74;
   61; 27; 74; 142; 59; 150; 140; 38; 46; 9; 20; 55; 201; 50; 182; 146; 34; 186; 194; 64].
Definition chinese_row_271 : list Z :=
  [181; 134; 45; 169; 22; 29; 165; 70; 61; 75; 70; 40; 151; 212; 21; 155; 68; 54; 91; 9;
   35; 186; 18; 16; 218; 2; 49; 213; 250; 30; 84; 203; 64; 41; 203; 43; 75; 122; 25; 77;
   202; 57; 173; 132; 38; 93; 73; 18; 109; 201; 50; 106; 181; 34; 170; 133; 66; 85; 141; 45;
   42; 29; 29; 38; 77; 61; 86; 10; 42; 174; 244; 21; 174; 68; 54; 109; 9; 35; 106; 21;
   18; 170; 5; 49; 149; 237; 30; 149; 6; 63; 43; 197; 43; 87; 170; 23; 87; 2; 56; 183].
Definition chinese_row_272 : list Z :=
  [196; 36; 182; 10; 20; 213; 202; 50; 170; 182; 34; 74; 139; 66; 149; 74; 47; 43; 85; 27;
   43; 137; 59; 91; 66; 40; 91; 229; 21; 93; 133; 52; 90; 11; 35; 210; 250; 17; 82; 203;
   50; 149; 250; 30; 149; 12; 63; 45; 201; 43; 93; 146; 25; 174; 2; 56; 109; 197; 36; 106;
   235; 19; 169; 141; 52; 82; 205; 34; 75; 206; 64; 22; 77; 47; 46; 9; 29; 87; 201; 57;
   182; 66; 40; 181; 197; 21; 213; 70; 54; 169; 6; 35; 83; 77; 16; 75; 6; 49; 23; 245].
Definition chinese_row_273 : list Z :=
  [30; 155; 68; 61; 91; 9; 42; 186; 146; 25; 218; 194; 57; 213; 202; 36; 170; 22; 20; 41;
   139; 52; 85; 154; 34; 77; 202; 64; 173; 132; 45; 93; 105; 27; 109; 137; 59; 106; 69; 40;
   85; 235; 21; 149; 77; 54; 42; 205; 36; 85; 122; 16; 86; 10; 49; 174; 244; 30; 182; 4;
   63; 181; 10; 42; 106; 149; 25; 170; 197; 57; 165; 141; 38; 74; 237; 19; 43; 197; 50; 87;
   204; 32; 87; 194; 64; 55; 197; 43; 182; 74; 27; 214; 138; 59; 210; 6; 42; 165; 214; 21].
Definition chinese_row_274 : list Z :=
  [165; 74; 54; 43; 10; 35; 87; 116; 16; 155; 68; 47; 91; 37; 29; 109; 69; 61; 90; 203;
   43; 82; 123; 25; 82; 205; 57; 165; 138; 38; 43; 26; 20; 45; 202; 50; 157; 244; 32; 174;
   194; 64; 109; 133; 45; 106; 107; 27; 170; 141; 59; 82; 13; 42; 38; 189; 23; 22; 77; 54;
   46; 10; 35; 174; 116; 16; 182; 2; 49; 181; 69; 29; 213; 74; 61; 170; 198; 43; 83; 110;
   25; 147; 6; 56; 43; 197; 36; 87; 74; 18; 91; 202; 50; 186; 244; 32; 90; 197; 64; 213].
Definition chinese_row_275 : list Z :=
  [138; 45; 170; 22; 29; 74; 139; 59; 149; 74; 40; 43; 245; 21; 45; 69; 54; 93; 74; 33;
   218; 116; 16; 106; 5; 49; 85; 11; 31; 165; 77; 61; 74; 205; 43; 149; 154; 25; 150; 204;
   57; 46; 201; 36; 109; 74; 18; 182; 202; 50; 172; 69; 33; 101; 109; 12; 165; 142; 45; 74;
   45; 29; 75; 134; 59; 151; 132; 38; 55; 41; 20; 59; 137; 52; 182; 10; 35; 180; 117; 16;
   210; 6; 49; 165; 22; 31; 165; 10; 63; 75; 10; 42; 151; 212; 23; 155; 4; 56; 91; 201].
Definition chinese_row_276 : list Z :=
  [36; 218; 74; 18; 106; 203; 50; 84; 75; 33; 165; 122; 14; 37; 141; 45; 77; 90; 27; 77;
   138; 59; 174; 68; 40; 93; 41; 20; 109; 133; 52; 106; 13; 35; 84; 43; 18; 147; 77; 47;
   38; 237; 30; 39; 69; 61; 87; 10; 42; 174; 212; 23; 182; 4; 56; 181; 201; 36; 170; 21;
   20; 170; 198; 50; 149; 246; 32; 147; 202; 64; 43; 133; 45; 87; 138; 25; 91; 202; 57; 218;
   68; 40; 181; 234; 21; 85; 139; 52; 202; 6; 35; 149; 118; 16; 149; 10; 49; 43; 53; 29].
Definition chinese_row_277 : list Z :=
  [45; 73; 61; 93; 2; 42; 91; 213; 23; 106; 5; 56; 85; 203; 36; 74; 27; 20; 74; 141;
   52; 149; 138; 31; 45; 121; 12; 46; 137; 45; 110; 114; 27; 182; 202; 57; 172; 69; 40; 105;
   237; 21; 165; 78; 54; 74; 13; 35; 150; 108; 16; 151; 68; 47; 55; 73; 29; 91; 137; 59;
   182; 10; 42; 180; 149; 25; 212; 198; 57; 165; 198; 36; 75; 86; 18; 75; 202; 50; 155; 244;
   32; 157; 4; 63; 93; 201; 43; 218; 114; 27; 106; 139; 59; 84; 75; 40; 165; 250; 21; 37].
Definition chinese_row_278 : list Z :=
  [77; 54; 77; 10; 35; 157; 180; 14; 174; 68; 47; 109; 73; 29; 181; 73; 61; 106; 5; 42;
   85; 205; 23; 149; 13; 56; 38; 141; 38; 78; 74; 18; 87; 10; 49; 174; 132; 31; 109; 105;
   12; 181; 202; 43; 170; 117; 27; 170; 134; 59; 149; 70; 40; 43; 53; 20; 43; 133; 52; 87;
   66; 33; 183; 196; 14; 219; 132; 45; 213; 74; 29; 85; 75; 61; 74; 203; 43; 149; 218; 23;
   149; 10; 56; 43; 201; 36; 91; 114; 18; 93; 2; 49; 93; 69; 31; 109; 5; 63; 105; 139].
Definition chinese_row_279 : list Z :=
  [45; 74; 123; 27; 74; 141; 59; 149; 76; 40; 45; 249; 21; 46; 137; 52; 174; 66; 33; 109;
   165; 14; 181; 69; 47; 169; 77; 29; 165; 78; 61; 74; 205; 43; 150; 140; 25; 151; 68; 54;
   55; 9; 35; 182; 82; 18; 186; 194; 50; 181; 198; 29; 169; 149; 12; 169; 134; 45; 75; 86;
   27; 75; 202; 57; 155; 132; 38; 91; 41; 20; 93; 137; 52; 218; 66; 33; 213; 170; 14; 85;
   75; 47; 41; 27; 31; 38; 77; 61; 77; 10; 42; 173; 212; 23; 174; 4; 56; 109; 9; 35].
Definition chinese_row_280 : list Z :=
  [106; 115; 18; 170; 197; 50; 85; 141; 31; 42; 221; 12; 42; 141; 45; 86; 106; 27; 87; 202;
   57; 174; 132; 38; 109; 41; 20; 181; 138; 52; 170; 5; 35; 149; 173; 14; 149; 70; 47; 43;
   85; 29; 43; 69; 61; 87; 66; 40; 183; 4; 22; 91; 69; 54; 214; 202; 36; 170; 86; 18;
   74; 203; 50; 149; 138; 31; 43; 213; 12; 43; 201; 43; 91; 178; 25; 93; 194; 57; 93; 133;
   38; 218; 74; 20; 105; 139; 52; 82; 11; 35; 149; 154; 16; 149; 76; 47; 45; 89; 29; 46].
Definition chinese_row_281 : list Z :=
  [73; 61; 174; 2; 42; 109; 37; 22; 181; 69; 54; 169; 205; 36; 82; 45; 20; 75; 14; 49;
   150; 140; 31; 46; 233; 12; 55; 201; 43; 182; 210; 25; 186; 194; 57; 181; 134; 38; 170; 246;
   21; 169; 134; 52; 75; 70; 33; 151; 212; 14; 155; 68; 47; 91; 137; 27; 93; 137; 59; 218;
   2; 42; 213; 202; 23; 85; 75; 54; 42; 203; 36; 85; 122; 18; 85; 202; 50; 173; 196; 29;
   93; 41; 11; 109; 201; 43; 106; 117; 27; 170; 197; 57; 85; 141; 38; 42; 253; 21; 42; 77].
Definition chinese_row_282 : list Z :=
  [54; 86; 74; 33; 174; 212; 14; 182; 68; 47; 118; 106; 29; 181; 138; 59; 170; 5; 42; 165;
   237; 23; 149; 6; 56; 43; 5; 35; 87; 178; 16; 87; 4; 49; 183; 196; 29; 182; 10; 11;
   218; 202; 43; 210; 150; 27; 82; 139; 59; 165; 138; 38; 43; 53; 20; 43; 138; 52; 91; 68;
   33; 91; 5; 13; 109; 133; 45; 90; 139; 29; 106; 77; 61; 82; 11; 42; 165; 218; 23; 22;
   13; 56; 46; 202; 36; 158; 180; 16; 174; 2; 49; 109; 197; 29; 106; 203; 12; 170; 205; 43].
Definition chinese_row_283 : list Z :=
  [82; 109; 27; 147; 206; 57; 22; 69; 40; 79; 138; 18; 87; 202; 50; 182; 68; 33; 181; 201;
   14; 213; 138; 45; 170; 118; 29; 42; 71; 61; 147; 6; 42; 43; 21; 22; 43; 69; 54; 91;
   10; 35; 186; 116; 18; 90; 5; 49; 213; 202; 29; 170; 214; 12; 74; 139; 45; 149; 186; 25;
   149; 202; 57; 45; 133; 38; 93; 74; 20; 109; 202; 50; 106; 69; 33; 85; 203; 14; 165; 77;
   47; 74; 13; 28; 149; 250; 8; 150; 12; 42; 46; 233; 23; 55; 137; 52; 182; 10; 35; 108].
Definition chinese_row_284 : list Z :=
  [117; 18; 178; 198; 50; 165; 205; 29; 74; 237; 12; 75; 198; 43; 151; 180; 25; 155; 4; 56;
   59; 201; 36; 182; 74; 20; 218; 138; 52; 212; 70; 33; 165; 214; 14; 165; 74; 47; 75; 90;
   29; 77; 138; 59; 157; 68; 40; 93; 41; 22; 109; 69; 54; 106; 11; 35; 84; 123; 18; 82;
   205; 50; 37; 141; 31; 77; 58; 11; 78; 202; 43; 174; 180; 25; 174; 196; 57; 109; 201; 36;
   106; 85; 20; 170; 133; 52; 83; 77; 33; 38; 205; 14; 39; 133; 45; 87; 170; 27; 87; 138].
Definition chinese_row_285 : list Z :=
  [59; 182; 68; 40; 181; 41; 22; 213; 74; 54; 170; 198; 36; 149; 150; 16; 149; 10; 49; 43;
   197; 29; 87; 42; 11; 91; 10; 42; 186; 212; 25; 90; 197; 57; 213; 138; 38; 202; 86; 20;
   74; 139; 52; 149; 74; 33; 43; 217; 14; 45; 137; 45; 93; 178; 27; 109; 138; 59; 108; 5;
   42; 85; 43; 22; 165; 77; 54; 74; 205; 36; 149; 122; 18; 150; 12; 49; 46; 201; 29; 110;
   50; 11; 182; 202; 43; 172; 213; 25; 180; 198; 57; 165; 142; 38; 74; 13; 22; 75; 198; 50].
Definition chinese_row_286 : list Z :=
  [151; 132; 31; 55; 9; 13; 91; 137; 45; 186; 178; 27; 218; 138; 59; 212; 6; 42; 165; 214;
   23; 165; 74; 54; 75; 10; 35; 155; 180; 16; 157; 4; 49; 93; 9; 28; 218; 50; 11; 106;
   203; 43; 84; 155; 27; 84; 205; 57; 38; 141; 38; 77; 90; 20; 78; 138; 52; 174; 132; 31;
   93; 41; 13; 109; 137; 45; 106; 5; 28; 85; 43; 7; 149; 77; 40; 38; 237; 23; 39; 69;
   54; 87; 74; 33; 174; 180; 16; 182; 4; 49; 181; 202; 29; 170; 53; 11; 170; 198; 43; 149].
Definition chinese_row_287 : list Z :=
  [214; 25; 149; 202; 57; 43; 197; 36; 87; 146; 18; 91; 194; 50; 219; 132; 31; 181; 10; 13;
   85; 139; 45; 202; 6; 28; 149; 54; 9; 149; 74; 40; 43; 57; 22; 45; 73; 54; 93; 2;
   35; 93; 229; 14; 109; 69; 47; 105; 203; 29; 74; 251; 12; 74; 205; 43; 149; 188; 25; 150;
   204; 57; 46; 137; 38; 110; 146; 18; 182; 194; 50; 181; 133; 31; 169; 205; 14; 169; 134; 45;
   75; 77; 26; 150; 76; 9; 151; 68; 40; 55; 105; 20; 91; 137; 52; 186; 2; 35; 181; 165].
Definition chinese_row_288 : list Z :=
  [16; 213; 74; 47; 169; 198; 29; 75; 54; 11; 75; 202; 43; 155; 20; 24; 173; 4; 56; 93;
   201; 36; 218; 82; 20; 106; 197; 50; 85; 139; 31; 170; 218; 14; 42; 77; 47; 77; 74; 26;
   173; 52; 7; 174; 68; 40; 109; 41; 22; 181; 137; 52; 106; 5; 35; 85; 173; 16; 149; 13;
   49; 42; 205; 29; 86; 42; 11; 87; 10; 42; 174; 196; 25; 183; 68; 54; 181; 202; 36; 170;
   85; 20; 202; 134; 52; 149; 134; 31; 43; 21; 13; 43; 133; 45; 87; 178; 27; 91; 194; 57].
Definition chinese_row_289 : list Z :=
  [91; 133; 38; 214; 42; 22; 89; 75; 54; 82; 11; 35; 149; 186; 16; 149; 10; 49; 43; 201;
   29; 91; 146; 9; 93; 2; 42; 93; 37; 24; 109; 5; 56; 105; 203; 36; 82; 91; 20; 74;
   141; 52; 150; 76; 33; 45; 57; 13; 46; 137; 45; 174; 66; 26; 109; 37; 7; 181; 133; 38;
   170; 45; 22; 169; 70; 54; 83; 14; 35; 150; 204; 16; 151; 68; 47; 55; 9; 28; 182; 82;
   11; 186; 2; 42; 181; 38; 24; 213; 10; 56; 169; 134; 38; 83; 150; 18; 77; 202; 50; 155].
Definition chinese_row_290 : list Z :=
  [132; 31; 91; 41; 13; 93; 201; 43; 218; 66; 26; 213; 106; 7; 85; 75; 40; 42; 59; 22;
   42; 77; 54; 85; 10; 35; 173; 212; 16; 174; 68; 47; 109; 9; 28; 106; 53; 11; 170; 197;
   43; 85; 45; 24; 149; 14; 56; 42; 141; 38; 86; 74; 20; 87; 10; 49; 182; 132; 31; 118;
   42; 13; 182; 138; 45; 170; 69; 26; 165; 141; 7; 165; 70; 40; 43; 53; 22; 43; 138; 52;
   91; 68; 33; 187; 4; 15; 91; 69; 47; 218; 10; 28; 212; 54; 11; 82; 203; 43; 165; 218].
Definition chinese_row_291 : list Z :=
  [25; 149; 12; 56; 45; 202; 36; 93; 148; 18; 173; 194; 50; 93; 197; 29; 218; 42; 13; 106;
   141; 45; 82; 11; 28; 165; 154; 7; 38; 77; 40; 46; 42; 22; 55; 138; 52; 174; 68; 33;
   109; 5; 15; 181; 69; 47; 170; 197; 29; 85; 109; 9; 83; 6; 42; 39; 21; 24; 43; 5;
   56; 87; 10; 35; 182; 180; 18; 218; 194; 50; 181; 138; 31; 170; 22; 13; 170; 134; 45; 149;
   70; 26; 43; 149; 7; 43; 133; 38; 91; 138; 20; 93; 138; 52; 218; 4; 35; 213; 10; 15].
Definition chinese_row_292 : list Z :=
  [85; 75; 47; 74; 203; 29; 149; 90; 11; 149; 10; 42; 45; 25; 24; 46; 9; 56; 109; 202;
   36; 108; 181; 18; 170; 197; 50; 165; 141; 31; 74; 253; 14; 74; 141; 45; 150; 76; 26; 46;
   169; 7; 55; 137; 38; 182; 138; 20; 182; 138; 52; 180; 5; 35; 165; 205; 16; 165; 70; 47;
   75; 5; 28; 151; 148; 9; 155; 4; 42; 59; 73; 22; 91; 69; 54; 218; 202; 36; 212; 86;
   20; 82; 203; 50; 165; 138; 31; 75; 58; 13; 77; 138; 45; 157; 132; 24; 93; 233; 5; 109].
Definition chinese_row_293 : list Z :=
  [137; 38; 90; 75; 22; 106; 141; 52; 84; 11; 35; 37; 187; 16; 38; 13; 49; 78; 10; 28;
   174; 148; 9; 174; 4; 42; 109; 41; 24; 181; 74; 54; 170; 197; 36; 85; 173; 18; 147; 198;
   50; 39; 197; 29; 87; 106; 11; 87; 202; 43; 182; 68; 26; 181; 201; 5; 213; 138; 38; 170;
   86; 22; 74; 71; 54; 149; 70; 33; 43; 245; 14; 43; 69; 47; 91; 2; 28; 187; 212; 7;
   90; 5; 42; 213; 74; 24; 85; 11; 56; 74; 203; 36; 149; 154; 18; 149; 202; 50; 45; 137].
Definition chinese_row_294 : list Z :=
  [31; 93; 114; 11; 110; 194; 43; 109; 133; 24; 89; 171; 7; 165; 141; 38; 74; 61; 22; 74;
   77; 54; 150; 12; 35; 46; 9; 15; 55; 137; 45; 182; 2; 28; 109; 149; 9; 180; 6; 42;
   169; 77; 24; 165; 6; 56; 75; 198; 36; 151; 244; 16; 155; 4; 49; 91; 201; 29; 186; 50;
   13; 218; 202; 43; 212; 70; 26; 169; 150; 7; 165; 74; 40; 75; 154; 20; 77; 138; 52; 157;
   68; 33; 93; 9; 15; 109; 137; 45; 106; 3; 28; 85; 139; 9; 85; 13; 42; 38; 205; 22].
Definition chinese_row_295 : list Z :=
  [77; 186; 3; 78; 202; 36; 174; 180; 18; 174; 4; 49; 109; 201; 29; 106; 53; 13; 170; 133;
   45; 85; 141; 24; 42; 173; 7; 43; 133; 38; 87; 138; 20; 87; 202; 50; 182; 68; 33; 181;
   9; 15; 213; 74; 47; 170; 6; 28; 149; 150; 9; 149; 10; 42; 43; 53; 24; 43; 73; 54;
   91; 2; 35; 219; 228; 16; 91; 5; 49; 213; 202; 29; 202; 54; 13; 74; 139; 45; 149; 74;
   26; 43; 25; 6; 45; 137; 38; 93; 146; 20; 174; 130; 52; 109; 133; 31; 105; 11; 15; 169].
Definition chinese_row_296 : list Z :=
  [77; 47; 74; 205; 29; 150; 156; 9; 150; 12; 42; 46; 41; 24; 55; 73; 54; 182; 2; 35;
   181; 229; 16; 213; 6; 49; 169; 134; 31; 75; 109; 11; 75; 198; 43; 151; 132; 24; 55; 9;
   6; 91; 201; 36; 186; 146; 20; 218; 130; 52; 213; 74; 33; 169; 22; 15; 37; 75; 47; 75;
   10; 28; 155; 148; 9; 173; 68; 40; 93; 137; 22; 109; 73; 54; 106; 195; 36; 85; 235; 16;
   85; 13; 49; 42; 141; 31; 85; 58; 13; 86; 202; 43; 174; 132; 24; 109; 233; 5; 117; 137].
Definition chinese_row_297 : list Z :=
  [38; 106; 181; 20; 170; 133; 52; 149; 77; 33; 42; 205; 16; 43; 133; 45; 87; 74; 26; 174;
   164; 9; 187; 68; 40; 182; 138; 22; 213; 74; 54; 202; 198; 36; 149; 182; 18; 149; 10; 49;
   43; 197; 29; 87; 114; 11; 93; 194; 43; 219; 196; 22; 218; 234; 5; 90; 139; 38; 82; 91;
   22; 74; 139; 52; 149; 74; 33; 45; 25; 15; 46; 73; 47; 93; 66; 26; 93; 229; 7; 109;
   69; 40; 106; 203; 22; 82; 219; 3; 82; 205; 36; 150; 172; 18; 151; 4; 49; 47; 9; 28].
Definition chinese_row_298 : list Z :=
  [174; 146; 11; 182; 194; 43; 181; 133; 24; 170; 237; 5; 169; 134; 38; 83; 141; 20; 75; 134;
   52; 151; 132; 31; 55; 105; 13; 91; 137; 45; 186; 2; 28; 181; 198; 7; 213; 74; 40; 170;
   198; 22; 85; 182; 3; 77; 10; 35; 171; 244; 16; 173; 4; 49; 93; 201; 29; 218; 146; 11;
   106; 197; 43; 85; 139; 24; 42; 219; 7; 42; 141; 38; 85; 154; 20; 86; 138; 52; 174; 68;
   33; 109; 105; 13; 181; 138; 45; 106; 5; 28; 85; 173; 9; 149; 78; 40; 42; 205; 22; 86].
Definition chinese_row_299 : list Z :=
  [10; 4; 87; 2; 35; 183; 36; 15; 187; 68; 47; 182; 202; 29; 180; 85; 13; 210; 198; 43;
   165; 134; 24; 43; 21; 6; 43; 137; 38; 91; 212; 18; 93; 194; 50; 91; 133; 31; 218; 10;
   15; 90; 139; 45; 82; 11; 28; 165; 154; 9; 149; 10; 42; 45; 10; 21; 93; 244; 1; 174;
   2; 35; 93; 229; 16; 109; 69; 47; 106; 205; 29; 82; 59; 13; 82; 141; 45; 38; 141; 24;
   46; 10; 6; 79; 202; 36; 174; 178; 20; 182; 194; 50; 181; 133; 31; 170; 53; 15; 170; 70].
Definition chinese_row_300 : list Z :=
  [47; 83; 78; 26].

Definition chinese_bytes : list Z := concat
  [chinese_row_0; chinese_row_1; chinese_row_2; chinese_row_3; chinese_row_4;
   chinese_row_5; chinese_row_6; chinese_row_7; chinese_row_8; chinese_row_9;
   chinese_row_10; chinese_row_11; chinese_row_12; chinese_row_13; chinese_row_14;
   chinese_row_15; chinese_row_16; chinese_row_17; chinese_row_18; chinese_row_19;
   chinese_row_20; chinese_row_21; chinese_row_22; chinese_row_23; chinese_row_24;
   chinese_row_25; chinese_row_26; chinese_row_27; chinese_row_28; chinese_row_29;
   chinese_row_30; chinese_row_31; chinese_row_32; chinese_row_33; chinese_row_34;
   chinese_row_35; chinese_row_36; chinese_row_37; chinese_row_38; chinese_row_39;
   chinese_row_40; chinese_row_41; chinese_row_42; chinese_row_43; chinese_row_44;
   chinese_row_45; chinese_row_46; chinese_row_47; chinese_row_48; chinese_row_49;
   chinese_row_50; chinese_row_51; chinese_row_52; chinese_row_53; chinese_row_54;
   chinese_row_55; chinese_row_56; chinese_row_57; chinese_row_58; chinese_row_59;
   chinese_row_60; chinese_row_61; chinese_row_62; chinese_row_63; chinese_row_64;
   chinese_row_65; chinese_row_66; chinese_row_67; chinese_row_68; chinese_row_69;
   chinese_row_70; chinese_row_71; chinese_row_72; chinese_row_73; chinese_row_74;
   chinese_row_75; chinese_row_76; chinese_row_77; chinese_row_78; chinese_row_79;
   chinese_row_80; chinese_row_81; chinese_row_82; chinese_row_83; chinese_row_84;
   chinese_row_85; chinese_row_86; chinese_row_87; chinese_row_88; chinese_row_89;
   chinese_row_90; chinese_row_91; chinese_row_92; chinese_row_93; chinese_row_94;
   chinese_row_95; chinese_row_96; chinese_row_97; chinese_row_98; chinese_row_99;
   chinese_row_100; chinese_row_101; chinese_row_102; chinese_row_103; chinese_row_104;
   chinese_row_105; chinese_row_106; chinese_row_107; chinese_row_108; chinese_row_109;
   chinese_row_110; chinese_row_111; chinese_row_112; chinese_row_113; chinese_row_114;
   chinese_row_115; chinese_row_116; chinese_row_117; chinese_row_118; chinese_row_119;
   chinese_row_120; chinese_row_121; chinese_row_122; chinese_row_123; chinese_row_124;
   chinese_row_125; chinese_row_126; chinese_row_127; chinese_row_128; chinese_row_129;
   chinese_row_130; chinese_row_131; chinese_row_132; chinese_row_133; chinese_row_134;
   chinese_row_135; chinese_row_136; chinese_row_137; chinese_row_138; chinese_row_139;
   chinese_row_140; chinese_row_141; chinese_row_142; chinese_row_143; chinese_row_144;
   chinese_row_145; chinese_row_146; chinese_row_147; chinese_row_148; chinese_row_149;
   chinese_row_150; chinese_row_151; chinese_row_152; chinese_row_153; chinese_row_154;
   chinese_row_155; chinese_row_156; chinese_row_157; chinese_row_158; chinese_row_159;
   chinese_row_160; chinese_row_161; chinese_row_162; chinese_row_163; chinese_row_164;
   chinese_row_165; chinese_row_166; chinese_row_167; chinese_row_168; chinese_row_169;
   chinese_row_170; chinese_row_171; chinese_row_172; chinese_row_173; chinese_row_174;
   chinese_row_175; chinese_row_176; chinese_row_177; chinese_row_178; chinese_row_179;
   chinese_row_180; chinese_row_181; chinese_row_182; chinese_row_183; chinese_row_184;
   chinese_row_185; chinese_row_186; chinese_row_187; chinese_row_188; chinese_row_189;
   chinese_row_190; chinese_row_191; chinese_row_192; chinese_row_193; chinese_row_194;
   chinese_row_195; chinese_row_196; chinese_row_197; chinese_row_198; chinese_row_199;
   chinese_row_200; chinese_row_201; chinese_row_202; chinese_row_203; chinese_row_204;
   chinese_row_205; chinese_row_206; chinese_row_207; chinese_row_208; chinese_row_209;
   chinese_row_210; chinese_row_211; chinese_row_212; chinese_row_213; chinese_row_214;
   chinese_row_215; chinese_row_216; chinese_row_217; chinese_row_218; chinese_row_219;
   chinese_row_220; chinese_row_221; chinese_row_222; chinese_row_223; chinese_row_224;
   chinese_row_225; chinese_row_226; chinese_row_227; chinese_row_228; chinese_row_229;
   chinese_row_230; chinese_row_231; chinese_row_232; chinese_row_233; chinese_row_234;
   chinese_row_235; chinese_row_236; chinese_row_237; chinese_row_238; chinese_row_239;
   chinese_row_240; chinese_row_241; chinese_row_242; chinese_row_243; chinese_row_244;
   chinese_row_245; chinese_row_246; chinese_row_247; chinese_row_248; chinese_row_249;
   chinese_row_250; chinese_row_251; chinese_row_252; chinese_row_253; chinese_row_254;
   chinese_row_255; chinese_row_256; chinese_row_257; chinese_row_258; chinese_row_259;
   chinese_row_260; chinese_row_261; chinese_row_262; chinese_row_263; chinese_row_264;
   chinese_row_265; chinese_row_266; chinese_row_267; chinese_row_268; chinese_row_269;
   chinese_row_270; chinese_row_271; chinese_row_272; chinese_row_273; chinese_row_274;
   chinese_row_275; chinese_row_276; chinese_row_277; chinese_row_278; chinese_row_279;
   chinese_row_280; chinese_row_281; chinese_row_282; chinese_row_283; chinese_row_284;
   chinese_row_285; chinese_row_286; chinese_row_287; chinese_row_288; chinese_row_289;
   chinese_row_290; chinese_row_291; chinese_row_292; chinese_row_293; chinese_row_294;
   chinese_row_295; chinese_row_296; chinese_row_297; chinese_row_298; chinese_row_299;
   chinese_row_300].
