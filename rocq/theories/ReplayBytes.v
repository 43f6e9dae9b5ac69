(** * Bytes of /repo/assets/2023-04-08-2v2AI.SC2Replay, written by tools/gen_replay_bytes.py *)
From Verif Require Import Base.
(** The user header of /repo/assets/2023-04-08-2v2AI.SC2Replay. *)
Definition rb_user_0 : list Z := [5; 18; 0; 2; 44; 83; 116; 97; 114; 67; 114; 97; 102; 116; 32; 73; 73; 32; 114; 101; 112; 108; 97; 121; 27; 49; 49; 2; 5; 12; 0; 9; 2; 2; 9; 10; 4; 9; 0; 6; 9; 22; 8; 9; 240; 249; 10; 10; 9; 240; 249; 10; 4; 9; 4; 6; 9; 210; 202; 2; 8; 6; 1; 10; 5; 2; 2; 2; 32; 211; 113; 212; 215; 209; 230; 193; 49; 178; 74; 9; 252; 14; 117; 133; 71; 12; 9; 240; 249; 10; 14; 5; 2; 2; 2; 32; 0; 0; 0; 0; 0; 0; 0; 0; 0; 0; 0; 0; 0; 0; 0; 0; 16; 6; 0].
Definition rb_user : list Z := rb_user_0.
(** Its sector replay.details. *)
Definition rb_details_0 : list Z := [5; 36; 0; 4; 1; 0; 8; 5; 22; 0; 2; 24; 108; 108; 108; 108; 108; 108; 108; 108; 108; 108; 108; 108; 2; 5; 8; 0; 9; 4; 2; 7; 0; 0; 83; 50; 4; 9; 2; 8; 9; 222; 203; 170; 9; 4; 2; 12; 84; 101; 114; 114; 97; 110; 6; 5; 8; 0; 9; 254; 3; 2; 9; 232; 2; 4; 9; 40; 6; 9; 60; 8; 9; 4; 10; 9; 0; 12; 9; 200; 1; 14; 9; 0; 16; 9; 2; 18; 4; 1; 9; 0; 20; 2; 0; 5; 22; 0; 2; 46; 38; 108; 116; 59; 99; 104; 101; 122; 115; 38; 103; 116; 59; 60; 115; 112; 47; 62; 83; 97; 122; 101; 100; 2; 5; 8; 0; 9; 4; 2; 7; 0; 0; 83; 50; 4; 9; 2; 8; 9; 234; 218; 136; 8; 4; 2; 8; 90; 101; 114; 103; 6; 5; 8; 0; 9; 254; 3; 2; 9; 0; 4; 9; 132; 1; 6; 9; 254; 3; 8; 9; 4; 10; 9; 0; 12; 9; 200; 1; 14; 9; 0; 16; 9; 2; 18; 4; 1; 9; 2; 20; 2; 0; 5; 22; 0; 2; 36; 65; 46; 73; 46; 32; 50; 32; 40; 86; 101; 114; 121; 32; 72; 97; 114; 100; 41; 2; 5; 8; 0; 9; 0; 2; 7; 0; 0; 0; 0; 4; 9; 0; 8; 9; 0; 4; 2; 14; 80; 114; 111; 116; 111; 115; 115; 6; 5; 8; 0; 9; 254; 3; 2; 9; 56; 4; 9; 206; 2; 6; 9; 212; 3; 8; 9; 6; 10; 9; 2; 12; 9; 200; 1; 14; 9; 0; 16; 9; 4; 18; 4; 1; 9; 4; 20; 2; 0; 5; 22; 0; 2; 28; 65; 46; 73; 46; 32; 51; 32; 40; 69; 108; 105; 116; 101; 41; 2; 5; 8; 0; 9; 0; 2; 7; 0; 0; 0; 0; 4; 9; 0; 8; 9; 0; 4; 2; 8; 90; 101; 114; 103; 6; 5; 8; 0; 9; 254; 3; 2; 9; 168; 1; 4; 9; 0; 6; 9; 130; 2; 8; 9; 6; 10; 9; 2; 12; 9; 200; 1; 14; 9; 0; 16; 9; 4; 18; 4; 1; 9; 6; 20; 2; 0; 2; 2; 28; 82; 104; 111; 115; 107; 97; 108; 108; 105; 97; 110; 32; 76; 69; 4; 2; 0; 6; 5; 2; 0; 2; 22; 77; 105].
Definition rb_details_1 : list Z := [110; 105; 109; 97; 112; 46; 116; 103; 97; 8; 6; 1; 10; 9; 218; 133; 209; 218; 151; 143; 181; 217; 3; 12; 9; 128; 192; 198; 184; 152; 4; 14; 2; 0; 16; 2; 0; 18; 2; 0; 20; 4; 1; 0; 14; 2; 80; 115; 50; 109; 97; 0; 0; 69; 85; 109; 228; 21; 3; 186; 204; 208; 86; 86; 54; 11; 111; 2; 125; 184; 129; 105; 250; 25; 137; 187; 99; 87; 177; 178; 21; 162; 84; 121; 57; 245; 251; 2; 80; 115; 50; 109; 97; 0; 0; 69; 85; 66; 28; 138; 160; 243; 97; 155; 101; 45; 35; 162; 115; 93; 254; 232; 18; 171; 100; 66; 40; 35; 94; 122; 121; 126; 222; 207; 232; 182; 125; 163; 14; 2; 80; 115; 50; 109; 97; 0; 0; 69; 85; 102; 9; 56; 50; 18; 132; 83; 239; 255; 187; 120; 124; 128; 183; 211; 238; 193; 173; 129; 189; 229; 92; 131; 201; 48; 222; 167; 156; 78; 80; 90; 4; 2; 80; 115; 50; 109; 97; 0; 0; 69; 85; 217; 45; 252; 72; 196; 132; 197; 145; 84; 39; 11; 146; 74; 215; 213; 116; 132; 242; 171; 154; 71; 98; 28; 122; 177; 100; 49; 191; 102; 197; 59; 64; 2; 80; 115; 50; 109; 97; 0; 0; 69; 85; 53; 148; 166; 107; 192; 177; 245; 110; 151; 226; 181; 180; 102; 156; 110; 219; 62; 251; 213; 79; 38; 124; 97; 33; 130; 217; 187; 103; 167; 201; 210; 199; 2; 80; 115; 50; 109; 97; 0; 0; 69; 85; 101; 142; 82; 10; 165; 222; 180; 136; 102; 220; 43; 33; 176; 35; 218; 169; 162; 145; 190; 76; 242; 47; 217; 215; 133; 202; 103; 241; 120; 19; 42; 135; 2; 80; 115; 50; 109; 97; 0; 0; 69; 85; 110; 172; 65; 44; 30; 59; 192; 65; 52; 186; 63; 50; 187; 83; 54; 100; 20; 215; 183; 179; 12; 125; 245; 59; 27; 188; 217; 197; 164; 21; 106; 121; 22; 6; 0; 24; 9; 8; 26; 9; 6; 28; 4; 0; 30; 9; 0; 32; 4; 1; 6; 0; 34; 6; 0].
Definition rb_details : list Z := rb_details_0 ++ rb_details_1.
(** Its sector replay.initData. *)
Definition rb_init_0 : list Z := [16; 12; 108; 108; 108; 108; 108; 108; 108; 108; 108; 108; 108; 108; 1; 0; 2; 4; 0; 0; 0; 0; 0; 0; 0; 0; 0; 0; 0; 0; 0; 0; 0; 0; 0; 0; 0; 127; 255; 184; 232; 4; 1; 83; 97; 122; 101; 100; 5; 1; 99; 104; 101; 122; 115; 2; 4; 0; 0; 0; 0; 0; 0; 0; 0; 0; 0; 0; 0; 0; 0; 0; 0; 0; 0; 0; 127; 255; 184; 232; 0; 0; 1; 0; 2; 252; 255; 255; 255; 7; 0; 0; 0; 0; 0; 0; 0; 0; 0; 0; 0; 0; 0; 0; 0; 0; 0; 1; 0; 2; 252; 255; 255; 255; 7; 0; 0; 0; 0; 0; 0; 0; 0; 0; 0; 0; 0; 0; 0; 0; 0; 0; 1; 0; 2; 252; 255; 255; 255; 7; 0; 0; 0; 0; 0; 0; 0; 0; 0; 0; 0; 0; 0; 0; 0; 0; 0; 1; 0; 2; 252; 255; 255; 255; 7; 0; 0; 0; 0; 0; 0; 0; 0; 0; 0; 0; 0; 0; 0; 0; 0; 0; 1; 0; 2; 252; 255; 255; 255; 7; 0; 0; 0; 0; 0; 0; 0; 0; 0; 0; 0; 0; 0; 0; 0; 0; 0; 1; 0; 2; 252; 255; 255; 255; 7; 0; 0; 0; 0; 0; 0; 0; 0; 0; 0; 0; 0; 0; 0; 0; 0; 0; 1; 0; 2; 252; 255; 255; 255; 7; 0; 0; 0; 0; 0; 0; 0; 0; 0; 0; 0; 0; 0; 0; 0; 0; 0; 1; 0; 2; 252; 255; 255; 255; 7; 0; 0; 0; 0; 0; 0; 0; 0; 0; 0; 0; 0; 0; 0; 0; 0; 0; 1; 0; 2; 252; 255; 255; 255; 7; 0; 0; 0; 0; 0; 0; 0; 0; 0; 0; 0; 0; 0; 0; 0; 0; 0; 1; 0; 2; 252; 255; 255; 255; 7; 0; 0; 0; 0; 0; 0; 0; 0; 0; 0; 0; 0; 0; 0; 0; 0; 0; 1; 0; 2; 252; 255; 255; 255; 7; 0; 0; 0; 0; 0; 0; 0; 0; 0; 0; 0; 0; 0; 0; 0; 0; 0; 1; 0; 2; 252; 255; 255; 255; 7; 0; 0; 0; 0; 0; 0; 0; 0; 0; 0; 0; 0; 0; 0; 0; 0; 0; 1; 0; 2; 252; 255; 255; 255; 7; 0; 0; 0; 0; 0; 0; 0; 0; 0; 0].
Definition rb_init_1 : list Z := [0; 0; 0; 0; 0; 0; 0; 1; 0; 2; 252; 255; 255; 255; 7; 0; 0; 0; 0; 0; 0; 0; 0; 0; 0; 0; 0; 0; 0; 0; 102; 138; 48; 214; 0; 4; 68; 102; 108; 116; 49; 5; 0; 0; 0; 0; 0; 0; 0; 132; 17; 100; 16; 67; 2; 0; 185; 192; 204; 85; 216; 211; 0; 0; 13; 50; 45; 83; 50; 45; 49; 45; 49; 54; 53; 50; 53; 49; 123; 143; 245; 64; 80; 248; 223; 7; 187; 240; 224; 112; 0; 240; 255; 255; 255; 255; 255; 255; 255; 255; 255; 255; 255; 255; 255; 255; 255; 255; 255; 255; 255; 255; 255; 255; 255; 255; 255; 255; 255; 255; 255; 255; 255; 255; 255; 255; 125; 0; 0; 192; 1; 127; 60; 0; 192; 3; 31; 28; 0; 192; 7; 31; 28; 0; 0; 0; 0; 0; 0; 0; 0; 0; 0; 0; 0; 0; 0; 0; 240; 247; 31; 227; 224; 248; 28; 0; 192; 255; 255; 255; 255; 255; 255; 255; 255; 255; 255; 255; 255; 255; 255; 255; 255; 255; 255; 255; 255; 255; 255; 255; 255; 255; 255; 255; 255; 255; 255; 255; 255; 255; 255; 127; 64; 0; 48; 0; 95; 207; 0; 192; 0; 199; 199; 0; 48; 1; 199; 31; 0; 0; 0; 0; 0; 0; 0; 0; 0; 0; 0; 0; 0; 0; 0; 160; 253; 127; 131; 131; 254; 7; 0; 0; 255; 255; 255; 255; 255; 255; 255; 255; 255; 255; 255; 255; 255; 255; 255; 255; 255; 255; 255; 255; 255; 255; 255; 255; 255; 255; 255; 255; 255; 255; 255; 255; 255; 255; 127; 208; 0; 12; 0; 23; 243; 192; 192; 0; 49; 241; 12; 12; 0; 113; 31; 192; 0; 0; 0; 0; 0; 0; 0; 0; 0; 0; 0; 0; 0; 0; 64; 254; 127; 3; 143; 252; 129; 192; 0; 252; 255; 255; 255; 255; 255; 255; 255; 255; 255; 255; 255; 255; 255; 255; 255; 255; 255; 255; 255; 255; 255; 255; 255; 255; 255; 255; 255; 255; 255; 255; 255; 255; 255; 127; 244; 0; 3; 0; 5; 252; 240; 192; 0; 12; 124; 28; 3; 0; 28; 31; 112; 0; 0; 0; 0; 0; 0; 0; 0; 0; 0; 0; 0; 0; 0; 64; 0; 32; 0; 131; 240; 224; 112; 0; 240; 15; 112; 0; 0; 0; 0; 0].
Definition rb_init_2 : list Z := [0; 0; 0; 0; 0; 0; 0; 0; 0; 0; 0; 0; 0; 0; 0; 0; 0; 0; 0; 0; 0; 0; 0; 0; 0; 248; 255; 125; 0; 0; 192; 1; 127; 60; 0; 192; 3; 31; 28; 0; 192; 7; 31; 28; 0; 0; 0; 0; 0; 0; 0; 0; 0; 0; 0; 0; 0; 0; 0; 16; 8; 0; 3; 224; 248; 28; 0; 192; 63; 28; 0; 0; 0; 0; 0; 0; 0; 0; 0; 0; 0; 0; 0; 0; 0; 0; 0; 0; 0; 0; 0; 0; 0; 0; 0; 0; 0; 0; 0; 0; 224; 255; 127; 64; 0; 48; 0; 95; 207; 0; 192; 0; 199; 199; 0; 48; 1; 199; 31; 0; 0; 0; 0; 0; 0; 0; 0; 0; 0; 0; 0; 0; 0; 0; 32; 2; 0; 3; 128; 254; 7; 0; 0; 255; 7; 0; 0; 0; 0; 0; 0; 0; 0; 0; 0; 0; 0; 0; 0; 0; 0; 0; 0; 0; 0; 0; 0; 0; 0; 0; 0; 0; 0; 0; 0; 128; 255; 127; 208; 0; 12; 0; 23; 243; 192; 192; 0; 49; 241; 12; 12; 0; 113; 31; 192; 0; 0; 0; 0; 0; 0; 0; 0; 0; 0; 0; 0; 0; 0; 64; 0; 128; 2; 129; 252; 129; 192; 0; 252; 7; 192; 0; 0; 0; 0; 0; 0; 0; 0; 0; 0; 0; 0; 0; 0; 0; 0; 0; 0; 0; 0; 0; 0; 0; 0; 0; 0; 0; 0; 0; 0; 254; 127; 244; 0; 3; 0; 5; 252; 240; 192; 0; 12; 124; 28; 3; 0; 28; 31; 112; 0; 0; 0; 0; 0; 0; 0; 0; 0; 0; 0; 0; 0; 0; 64; 0; 32; 0; 131; 240; 224; 112; 0; 240; 15; 112; 0; 0; 0; 0; 0; 0; 0; 0; 0; 0; 0; 0; 0; 0; 0; 0; 0; 0; 0; 0; 0; 0; 0; 0; 0; 0; 0; 0; 0; 0; 248; 255; 125; 0; 0; 192; 1; 127; 60; 0; 192; 3; 31; 28; 0; 192; 7; 31; 28; 0; 0; 0; 0; 0; 0; 0; 0; 0; 0; 0; 0; 0; 0; 0; 16; 8; 0; 3; 224; 248; 28; 0; 192; 63; 28; 0; 0; 0; 0; 0; 0; 0; 0; 0; 0; 0; 0; 0; 0; 0; 0; 0; 0; 0; 0; 0; 0; 0; 0; 0; 0; 0; 0; 0].
Definition rb_init_3 : list Z := [0; 224; 255; 127; 64; 0; 48; 0; 95; 207; 0; 192; 0; 199; 199; 0; 48; 1; 199; 31; 0; 0; 0; 0; 0; 0; 0; 0; 0; 0; 0; 0; 0; 0; 0; 32; 2; 0; 3; 128; 254; 7; 0; 0; 255; 7; 0; 0; 0; 0; 0; 0; 0; 0; 0; 0; 0; 0; 0; 0; 0; 0; 0; 0; 0; 0; 0; 0; 0; 0; 0; 0; 0; 0; 0; 0; 128; 255; 127; 208; 0; 12; 0; 23; 243; 192; 192; 0; 49; 241; 12; 12; 0; 113; 31; 192; 0; 0; 0; 0; 0; 0; 0; 0; 0; 0; 0; 0; 0; 0; 64; 0; 128; 2; 129; 252; 129; 192; 0; 252; 7; 192; 0; 0; 0; 0; 0; 0; 0; 0; 0; 0; 0; 0; 0; 0; 0; 0; 0; 0; 0; 0; 0; 0; 0; 0; 0; 0; 0; 0; 0; 0; 254; 127; 244; 0; 3; 0; 5; 252; 240; 192; 0; 12; 124; 28; 3; 0; 28; 31; 112; 0; 0; 0; 0; 0; 0; 0; 0; 0; 0; 0; 0; 0; 0; 64; 0; 32; 0; 131; 240; 224; 112; 0; 240; 15; 112; 0; 0; 0; 0; 0; 0; 0; 0; 0; 0; 0; 0; 0; 0; 0; 0; 0; 0; 0; 0; 0; 0; 0; 0; 0; 0; 0; 0; 0; 0; 248; 255; 125; 0; 0; 192; 1; 127; 60; 0; 192; 3; 31; 28; 0; 192; 7; 31; 28; 0; 0; 0; 0; 0; 0; 0; 0; 0; 0; 0; 0; 0; 0; 0; 16; 8; 0; 3; 224; 248; 28; 0; 192; 63; 28; 0; 0; 0; 0; 0; 0; 0; 0; 0; 0; 0; 0; 0; 0; 0; 0; 0; 0; 0; 0; 0; 0; 0; 0; 0; 0; 0; 0; 0; 0; 224; 255; 127; 64; 0; 48; 0; 95; 207; 0; 192; 0; 199; 199; 0; 48; 1; 199; 31; 0; 0; 0; 0; 0; 0; 0; 0; 0; 0; 0; 0; 0; 0; 0; 32; 2; 0; 3; 128; 254; 7; 0; 0; 255; 7; 0; 0; 0; 0; 0; 0; 0; 0; 0; 0; 0; 0; 0; 0; 0; 0; 0; 0; 0; 0; 0; 0; 0; 0; 0; 0; 0; 0; 0; 0; 128; 255; 127; 208; 0; 12; 0; 23; 243; 192; 192; 0; 49; 241; 12; 12; 0; 113; 31; 192; 0; 0; 0].
Definition rb_init_4 : list Z := [0; 0; 0; 0; 0; 0; 0; 0; 0; 0; 0; 64; 0; 128; 2; 129; 252; 129; 192; 0; 252; 7; 192; 0; 0; 0; 0; 0; 0; 0; 0; 0; 0; 0; 0; 0; 0; 0; 0; 0; 0; 0; 0; 0; 0; 0; 0; 0; 0; 0; 0; 0; 0; 254; 127; 244; 0; 3; 0; 5; 252; 240; 192; 0; 12; 124; 28; 3; 0; 28; 31; 112; 0; 0; 0; 0; 0; 0; 0; 0; 0; 0; 0; 0; 0; 0; 0; 3; 24; 1; 115; 50; 109; 97; 0; 0; 69; 85; 109; 228; 21; 3; 186; 204; 208; 86; 86; 54; 11; 111; 2; 125; 184; 129; 105; 250; 25; 137; 187; 99; 87; 177; 178; 21; 162; 84; 121; 57; 245; 251; 115; 50; 109; 97; 0; 0; 69; 85; 66; 28; 138; 160; 243; 97; 155; 101; 45; 35; 162; 115; 93; 254; 232; 18; 171; 100; 66; 40; 35; 94; 122; 121; 126; 222; 207; 232; 182; 125; 163; 14; 115; 50; 109; 97; 0; 0; 69; 85; 102; 9; 56; 50; 18; 132; 83; 239; 255; 187; 120; 124; 128; 183; 211; 238; 193; 173; 129; 189; 229; 92; 131; 201; 48; 222; 167; 156; 78; 80; 90; 4; 115; 50; 109; 97; 0; 0; 69; 85; 217; 45; 252; 72; 196; 132; 197; 145; 84; 39; 11; 146; 74; 215; 213; 116; 132; 242; 171; 154; 71; 98; 28; 122; 177; 100; 49; 191; 102; 197; 59; 64; 115; 50; 109; 97; 0; 0; 69; 85; 53; 148; 166; 107; 192; 177; 245; 110; 151; 226; 181; 180; 102; 156; 110; 219; 62; 251; 213; 79; 38; 124; 97; 33; 130; 217; 187; 103; 167; 201; 210; 199; 115; 50; 109; 97; 0; 0; 69; 85; 101; 142; 82; 10; 165; 222; 180; 136; 102; 220; 43; 33; 176; 35; 218; 169; 162; 145; 190; 76; 242; 47; 217; 215; 133; 202; 103; 241; 120; 19; 42; 135; 115; 50; 109; 97; 0; 0; 69; 85; 110; 172; 65; 44; 30; 59; 192; 65; 52; 186; 63; 50; 187; 83; 54; 100; 20; 215; 183; 179; 12; 125; 245; 59; 27; 188; 217; 197; 164; 21; 106; 121; 4; 72; 132; 2; 1; 6; 1; 0; 0; 0; 1; 36; 0; 0; 0; 0; 0; 0; 0; 0; 0; 0; 3; 0; 0; 0; 0; 0; 1; 0].
Definition rb_init_5 : list Z := [32; 59; 69; 114; 32; 114; 203; 254; 125; 32; 122; 198; 187; 219; 135; 226; 151; 45; 239; 15; 70; 135; 31; 201; 0; 31; 199; 128; 211; 131; 170; 218; 108; 133; 192; 233; 70; 120; 200; 49; 126; 103; 77; 72; 43; 59; 235; 251; 58; 54; 174; 186; 153; 175; 87; 18; 176; 108; 234; 36; 154; 106; 217; 173; 148; 227; 61; 56; 119; 254; 127; 100; 215; 74; 12; 249; 155; 53; 195; 56; 6; 165; 97; 170; 42; 250; 20; 27; 42; 144; 92; 96; 204; 229; 213; 81; 95; 218; 108; 230; 109; 11; 3; 92; 50; 68; 169; 135; 249; 221; 74; 143; 168; 239; 78; 50; 64; 35; 142; 107; 76; 190; 175; 4; 123; 203; 168; 51; 201; 108; 170; 231; 109; 50; 213; 56; 233; 87; 215; 177; 130; 231; 45; 137; 101; 119; 93; 135; 101; 212; 63; 120; 235; 96; 206; 187; 64; 26; 47; 74; 21; 125; 90; 247; 17; 38; 46; 115; 31; 104; 26; 190; 99; 155; 95; 118; 68; 163; 8; 182; 20; 167; 178; 193; 28; 193; 228; 193; 242; 146; 9; 57; 210; 2; 223; 162; 58; 226; 68; 234; 182; 130; 202; 3; 200; 0; 0; 0; 0; 220; 161; 72; 201; 53; 27; 186; 87; 203; 5; 206; 252; 240; 41; 100; 118; 115; 67; 120; 10; 242; 242; 162; 122; 210; 174; 109; 73; 9; 137; 209; 33; 19; 0; 117; 174; 3; 0; 0; 0; 108; 28; 97; 118; 129; 245; 80; 151; 123; 181; 83; 78; 2; 0; 0; 0; 16; 245; 111; 208; 132; 180; 39; 129; 159; 71; 238; 5; 18; 145; 75; 158; 133; 209; 228; 232; 229; 72; 118; 164; 130; 101; 16; 248; 199; 178; 44; 13; 87; 118; 56; 216; 77; 224; 4; 0; 0; 0; 0; 0; 124; 122; 132; 183; 196; 36; 127; 60; 214; 90; 221; 248; 165; 246; 88; 152; 214; 6; 244; 59; 41; 151; 69; 18; 37; 168; 187; 229; 119; 248; 247; 10; 147; 46; 85; 11; 224; 46; 235; 211; 197; 177; 13; 219; 147; 100; 89; 49; 28; 249; 27; 70; 34; 129; 167; 14; 106; 228; 150; 113; 30; 249; 215; 249; 5; 98; 51; 87; 235; 134; 64; 124; 150; 140; 205; 230; 239; 186; 169; 131; 162; 226; 226; 87; 183; 175; 8; 60; 236; 9; 39].
Definition rb_init_6 : list Z := [184; 175; 154; 29; 110; 230; 142; 25; 123; 87; 95; 122; 150; 50; 116; 243; 147; 151; 243; 149; 140; 103; 88; 231; 110; 218; 149; 248; 105; 154; 248; 56; 112; 149; 6; 204; 169; 199; 35; 123; 165; 202; 100; 153; 93; 199; 92; 224; 198; 190; 178; 108; 46; 41; 93; 37; 17; 219; 147; 215; 215; 16; 251; 146; 41; 179; 213; 214; 74; 221; 155; 120; 23; 154; 147; 23; 229; 98; 57; 47; 117; 154; 74; 105; 232; 147; 243; 137; 227; 132; 236; 75; 61; 147; 14; 208; 25; 201; 188; 168; 51; 177; 91; 166; 63; 231; 35; 83; 105; 255; 50; 134; 190; 64; 204; 251; 183; 53; 212; 251; 38; 122; 190; 238; 101; 29; 0; 50; 45; 83; 50; 45; 49; 45; 57; 55; 56; 54; 48; 57; 53; 0; 2; 0; 0; 1; 3; 0; 0; 1; 5; 0; 0; 0; 0; 0; 1; 2; 0; 0; 0; 192; 0; 0; 0; 0; 0; 0; 0; 0; 0; 0; 0; 0; 0; 0; 0; 0; 0; 0; 0; 0; 0; 0; 0; 0; 0; 0; 0; 0; 1; 0; 87; 25; 92; 156; 2; 0; 83; 136; 237; 14; 84; 136; 142; 14; 84; 137; 172; 46; 90; 76; 174; 76; 7; 0; 82; 164; 198; 230; 87; 164; 247; 102; 92; 7; 38; 247; 4; 0; 67; 130; 131; 203; 76; 130; 27; 99; 83; 130; 211; 99; 20; 0; 0; 0; 128; 0; 0; 0; 0; 0; 0; 0; 0; 0; 0; 0; 0; 0; 0; 0; 0; 0; 0; 0; 0; 0; 0; 0; 0; 0; 0; 0; 0; 2; 3; 138; 1; 1; 0; 0; 0; 1; 36; 0; 0; 0; 0; 0; 0; 0; 0; 0; 0; 3; 0; 0; 0; 0; 0; 1; 1; 31; 57; 69; 114; 32; 114; 203; 254; 125; 32; 122; 198; 187; 219; 135; 226; 151; 45; 239; 15; 70; 91; 91; 141; 55; 29; 199; 128; 211; 15; 23; 196; 124; 135; 192; 233; 70; 120; 200; 49; 126; 103; 77; 72; 43; 247; 194; 153; 48; 54; 174; 186; 153; 175; 87; 18; 176; 108; 234; 36; 154; 94; 44; 133; 201; 224; 61; 56; 119; 2; 71; 115; 13; 72; 12; 249; 155; 53; 195; 56; 6; 165; 97; 170; 42; 250; 20; 27; 42; 144; 92; 96; 204; 229; 213; 81; 95].
Definition rb_init_7 : list Z := [118; 240; 38; 41; 9; 3; 92; 50; 68; 169; 135; 249; 221; 74; 143; 168; 239; 78; 50; 64; 35; 142; 107; 76; 106; 176; 147; 86; 216; 188; 170; 227; 108; 170; 231; 109; 50; 213; 56; 233; 143; 237; 251; 132; 37; 198; 167; 163; 116; 93; 135; 101; 212; 63; 120; 235; 96; 206; 187; 64; 26; 47; 74; 21; 125; 90; 247; 17; 38; 46; 115; 31; 104; 26; 190; 99; 155; 95; 118; 68; 163; 8; 182; 20; 167; 178; 193; 28; 193; 228; 193; 242; 146; 9; 57; 210; 2; 223; 162; 58; 226; 68; 234; 182; 130; 202; 3; 200; 0; 0; 0; 0; 220; 161; 72; 201; 53; 27; 186; 87; 203; 5; 206; 252; 240; 41; 100; 118; 115; 67; 120; 10; 54; 18; 57; 92; 208; 174; 109; 73; 9; 137; 209; 33; 19; 0; 117; 174; 3; 0; 0; 0; 108; 28; 97; 118; 129; 245; 80; 151; 107; 51; 166; 193; 0; 0; 0; 0; 168; 8; 33; 204; 135; 180; 39; 129; 159; 71; 238; 5; 18; 145; 75; 158; 133; 209; 228; 232; 229; 72; 118; 164; 170; 143; 120; 13; 197; 178; 44; 13; 35; 27; 153; 201; 79; 224; 4; 0; 0; 0; 0; 0; 124; 122; 132; 183; 196; 36; 127; 60; 142; 106; 226; 40; 166; 246; 88; 152; 214; 6; 244; 59; 217; 183; 79; 204; 38; 168; 187; 229; 223; 208; 203; 87; 144; 46; 85; 11; 0; 60; 38; 150; 199; 177; 13; 219; 147; 100; 89; 49; 28; 249; 27; 70; 34; 129; 167; 14; 106; 228; 150; 113; 30; 249; 215; 249; 5; 98; 51; 87; 235; 134; 64; 124; 142; 41; 174; 177; 237; 186; 169; 131; 162; 226; 226; 87; 183; 175; 8; 60; 236; 9; 39; 184; 175; 154; 29; 110; 230; 142; 25; 123; 87; 95; 122; 150; 50; 116; 243; 147; 151; 243; 149; 140; 103; 88; 231; 110; 218; 149; 248; 105; 154; 248; 56; 112; 149; 6; 204; 169; 199; 35; 123; 165; 202; 100; 153; 93; 199; 92; 224; 198; 190; 178; 108; 46; 41; 93; 37; 17; 219; 147; 215; 215; 16; 251; 146; 41; 139; 169; 142; 19; 73; 108; 134; 145; 153; 147; 23; 229; 98; 57; 47; 117; 154; 74; 105; 232; 207; 3; 159; 245; 133; 236; 75; 61; 231; 35; 83; 105].
Definition rb_init_8 : list Z := [123; 190; 238; 101; 29; 0; 50; 45; 83; 50; 45; 49; 45; 56; 52; 53; 57; 57; 53; 55; 0; 0; 0; 0; 0; 0; 0; 1; 6; 0; 0; 0; 192; 0; 0; 0; 0; 0; 0; 0; 0; 0; 0; 0; 0; 0; 0; 0; 0; 0; 0; 0; 0; 0; 0; 0; 0; 0; 0; 0; 0; 1; 0; 0; 0; 0; 0; 16; 0; 0; 0; 0; 0; 0; 0; 0; 0; 0; 0; 0; 0; 0; 0; 0; 0; 0; 0; 0; 0; 0; 0; 0; 0; 0; 0; 0; 3; 29; 12; 0; 0; 0; 0; 100; 0; 0; 0; 0; 0; 0; 0; 0; 0; 0; 3; 0; 0; 0; 0; 0; 3; 0; 0; 0; 0; 0; 0; 0; 0; 0; 0; 0; 1; 10; 0; 0; 0; 192; 0; 0; 0; 0; 0; 0; 0; 0; 0; 0; 0; 0; 0; 0; 0; 0; 0; 0; 0; 0; 0; 0; 0; 0; 0; 0; 0; 0; 0; 0; 0; 0; 0; 0; 16; 0; 0; 0; 0; 0; 0; 0; 0; 0; 0; 0; 0; 0; 0; 0; 0; 0; 0; 0; 0; 0; 0; 0; 0; 0; 0; 0; 0; 3; 37; 1; 15; 0; 0; 0; 0; 100; 0; 0; 0; 0; 0; 0; 0; 0; 0; 0; 3; 0; 0; 0; 0; 0; 3; 1; 0; 0; 0; 0; 0; 0; 0; 0; 0; 0; 1; 14; 0; 0; 0; 192; 0; 0; 0; 0; 0; 0; 0; 0; 0; 0; 0; 0; 0; 0; 0; 0; 0; 0; 0; 0; 0; 0; 0; 0; 0; 0; 0; 0; 0; 0; 0; 0; 0; 0; 16; 0; 0; 0; 0; 0; 0; 0; 0; 0; 0; 0; 0; 0; 0; 0; 0; 0; 0; 0; 0; 0; 0; 0; 0; 0; 0; 0; 0; 1; 4; 1; 2; 0; 0; 0; 0; 100; 1; 0; 0; 0; 0; 0; 0; 0; 0; 0; 3; 0; 0; 0; 0; 0; 15; 1; 0; 0; 0; 0; 0; 0; 0; 0; 0; 0; 1; 0; 0; 0; 0; 24; 0; 0; 0; 0; 0; 0; 0; 0; 0; 0; 0; 0; 0; 0; 0; 0; 0; 0; 0; 0; 0; 0; 0; 0; 0; 0; 0; 0; 0; 0; 0; 0; 0; 128; 0; 0; 0; 0; 0; 0; 0; 0; 0; 0; 0; 0; 0; 0; 0; 0].
Definition rb_init_9 : list Z := [0; 0; 0; 0; 0; 0; 0; 0; 0; 0; 0; 0; 0; 65; 16; 0; 1; 0; 0; 0; 12; 12; 0; 0; 0; 0; 0; 0; 0; 0; 0; 3; 0; 0; 0; 0; 0; 15; 0; 0; 0; 0; 0; 0; 0; 0; 0; 0; 0; 1; 0; 0; 0; 0; 24; 0; 0; 0; 0; 0; 0; 0; 0; 0; 0; 0; 0; 0; 0; 0; 0; 0; 0; 0; 0; 0; 0; 0; 0; 0; 0; 0; 0; 0; 0; 0; 0; 0; 128; 0; 0; 0; 0; 0; 0; 0; 0; 0; 0; 0; 0; 0; 0; 0; 0; 0; 0; 0; 0; 0; 0; 0; 0; 0; 0; 0; 0; 0; 65; 16; 0; 1; 0; 0; 0; 12; 12; 0; 0; 0; 0; 0; 0; 0; 0; 0; 3; 0; 0; 0; 0; 0; 13; 1; 0; 0; 0; 0; 0; 0; 0; 0; 0; 0; 1; 0; 0; 0; 0; 24; 0; 0; 0; 0; 0; 0; 0; 0; 0; 0; 0; 0; 0; 0; 0; 0; 0; 0; 0; 0; 0; 0; 0; 0; 0; 0; 0; 0; 0; 0; 0; 0; 0; 128; 0; 0; 0; 0; 0; 0; 0; 0; 0; 0; 0; 0; 0; 0; 0; 0; 0; 0; 0; 0; 0; 0; 0; 0; 0; 0; 0; 0; 0; 65; 16; 0; 1; 0; 0; 0; 12; 12; 0; 0; 0; 0; 0; 0; 0; 0; 0; 3; 0; 0; 0; 0; 0; 13; 0; 0; 0; 0; 0; 0; 0; 0; 0; 0; 0; 1; 0; 0; 0; 0; 24; 0; 0; 0; 0; 0; 0; 0; 0; 0; 0; 0; 0; 0; 0; 0; 0; 0; 0; 0; 0; 0; 0; 0; 0; 0; 0; 0; 0; 0; 0; 0; 0; 0; 128; 0; 0; 0; 0; 0; 0; 0; 0; 0; 0; 0; 0; 0; 0; 0; 0; 0; 0; 0; 0; 0; 0; 0; 0; 0; 0; 0; 0; 0; 65; 16; 0; 1; 0; 0; 0; 12; 12; 0; 0; 0; 0; 0; 0; 0; 0; 0; 3; 0; 0; 0; 0; 0; 11; 1; 0; 0; 0; 0; 0; 0; 0; 0; 0; 0; 1; 0; 0; 0; 0; 24; 0; 0; 0; 0; 0; 0; 0; 0; 0; 0; 0; 0; 0; 0; 0; 0; 0; 0; 0; 0; 0; 0; 0; 0; 0; 0; 0; 0; 0; 0].
Definition rb_init_10 : list Z := [0; 0; 0; 128; 0; 0; 0; 0; 0; 0; 0; 0; 0; 0; 0; 0; 0; 0; 0; 0; 0; 0; 0; 0; 0; 0; 0; 0; 0; 0; 0; 0; 0; 65; 16; 0; 1; 0; 0; 0; 12; 12; 0; 0; 0; 0; 0; 0; 0; 0; 0; 3; 0; 0; 0; 0; 0; 11; 0; 0; 0; 0; 0; 0; 0; 0; 0; 0; 0; 1; 0; 0; 0; 0; 24; 0; 0; 0; 0; 0; 0; 0; 0; 0; 0; 0; 0; 0; 0; 0; 0; 0; 0; 0; 0; 0; 0; 0; 0; 0; 0; 0; 0; 0; 0; 0; 0; 0; 128; 0; 0; 0; 0; 0; 0; 0; 0; 0; 0; 0; 0; 0; 0; 0; 0; 0; 0; 0; 0; 0; 0; 0; 0; 0; 0; 0; 0; 0; 65; 16; 0; 1; 0; 0; 0; 12; 12; 0; 0; 0; 0; 0; 0; 0; 0; 0; 3; 0; 0; 0; 0; 0; 9; 1; 0; 0; 0; 0; 0; 0; 0; 0; 0; 0; 1; 0; 0; 0; 0; 24; 0; 0; 0; 0; 0; 0; 0; 0; 0; 0; 0; 0; 0; 0; 0; 0; 0; 0; 0; 0; 0; 0; 0; 0; 0; 0; 0; 0; 0; 0; 0; 0; 0; 128; 0; 0; 0; 0; 0; 0; 0; 0; 0; 0; 0; 0; 0; 0; 0; 0; 0; 0; 0; 0; 0; 0; 0; 0; 0; 0; 0; 0; 0; 65; 16; 0; 1; 0; 0; 0; 12; 12; 0; 0; 0; 0; 0; 0; 0; 0; 0; 3; 0; 0; 0; 0; 0; 9; 0; 0; 0; 0; 0; 0; 0; 0; 0; 0; 0; 1; 0; 0; 0; 0; 24; 0; 0; 0; 0; 0; 0; 0; 0; 0; 0; 0; 0; 0; 0; 0; 0; 0; 0; 0; 0; 0; 0; 0; 0; 0; 0; 0; 0; 0; 0; 0; 0; 0; 128; 0; 0; 0; 0; 0; 0; 0; 0; 0; 0; 0; 0; 0; 0; 0; 0; 0; 0; 0; 0; 0; 0; 0; 0; 0; 0; 0; 0; 0; 65; 16; 0; 1; 0; 0; 0; 12; 12; 0; 0; 0; 0; 0; 0; 0; 0; 0; 3; 0; 0; 0; 0; 0; 7; 1; 0; 0; 0; 0; 0; 0; 0; 0; 0; 0; 1; 0; 0; 0; 0; 24; 0; 0; 0; 0; 0; 0; 0; 0; 0; 0].
Definition rb_init_11 : list Z := [0; 0; 0; 0; 0; 0; 0; 0; 0; 0; 0; 0; 0; 0; 0; 0; 0; 0; 0; 0; 0; 0; 0; 128; 0; 0; 0; 0; 0; 0; 0; 0; 0; 0; 0; 0; 0; 0; 0; 0; 0; 0; 0; 0; 0; 0; 0; 0; 0; 0; 0; 0; 0; 65; 16; 0; 1; 0; 0; 0; 12; 12; 0; 0; 0; 0; 0; 0; 0; 0; 0; 3; 0; 0; 0; 0; 0; 7; 0; 0; 0; 0; 0; 0; 0; 0; 0; 0; 0; 1; 0; 0; 0; 0; 24; 0; 0; 0; 0; 0; 0; 0; 0; 0; 0; 0; 0; 0; 0; 0; 0; 0; 0; 0; 0; 0; 0; 0; 0; 0; 0; 0; 0; 0; 0; 0; 0; 0; 128; 0; 0; 0; 0; 0; 0; 0; 0; 0; 0; 0; 0; 0; 0; 0; 0; 0; 0; 0; 0; 0; 0; 0; 0; 0; 0; 0; 0; 0; 65; 16; 0; 1; 0; 0; 0; 12; 12; 0; 0; 0; 0; 0; 0; 0; 0; 0; 3; 0; 0; 0; 0; 0; 5; 1; 0; 0; 0; 0; 0; 0; 0; 0; 0; 0; 1; 0; 0; 0; 0; 24; 0; 0; 0; 0; 0; 0; 0; 0; 0; 0; 0; 0; 0; 0; 0; 0; 0; 0; 0; 0; 0; 0; 0; 0; 0; 0; 0; 0; 0; 0; 0; 0; 0; 128; 0; 0; 0; 0; 0; 0; 0; 0; 0; 0; 0; 0; 0; 0; 0; 0; 0; 0; 0; 0; 0; 0; 0; 0; 0; 0; 0; 0; 0; 65; 16; 0; 1; 0; 0; 0; 12; 12; 0; 0; 0; 0; 0; 0; 0; 0; 0; 3; 0; 0; 0; 0; 0; 5; 0; 0; 0; 0; 0; 0; 0; 0; 0; 0; 0; 1; 0; 0; 0; 0; 24; 0; 0; 0; 0; 0; 0; 0; 0; 0; 0; 0; 0; 0; 0; 0; 0; 0; 0; 0; 0; 0; 0; 0; 0; 0; 0; 0; 0; 0; 0; 0; 0; 0; 128; 0; 0; 0; 0; 0; 0; 0; 0; 0; 0; 0; 0; 0; 0; 0; 0; 0; 0; 0; 0; 0; 0; 0; 0; 0; 0; 0; 0; 102; 138; 48; 214; 0; 0; 0; 0; 0; 8; 1; 0].
Definition rb_init : list Z := rb_init_0 ++ rb_init_1 ++ rb_init_2 ++ rb_init_3 ++ rb_init_4 ++ rb_init_5 ++ rb_init_6 ++ rb_init_7 ++ rb_init_8 ++ rb_init_9 ++ rb_init_10 ++ rb_init_11.
(** Its sector replay.message.events. *)
Definition rb_messages_0 : list Z := [0; 33; 128; 0; 0; 5; 1; 0; 33; 128; 0; 0; 9; 1; 0; 32; 128; 0; 0; 12; 0; 0; 33; 128; 0; 0; 12; 0; 0; 32; 128; 0; 0; 17; 1; 0; 33; 128; 0; 0; 15; 0; 0; 33; 128; 0; 0; 17; 1; 0; 33; 128; 0; 0; 23; 0; 0; 33; 128; 0; 0; 25; 1; 0; 33; 128; 0; 0; 37; 1; 0; 33; 128; 0; 0; 49; 1; 0; 32; 128; 0; 0; 25; 1; 0; 32; 128; 0; 0; 37; 1; 0; 32; 128; 0; 0; 49; 1; 0; 1; 2; 4; 103; 108; 103; 108; 0; 0; 2; 4; 117; 50; 117; 50; 5; 112; 0; 2; 16; 119; 104; 97; 116; 39; 115; 32; 116; 104; 101; 32; 112; 108; 97; 110; 63; 1; 186; 0; 2; 17; 99; 111; 109; 109; 97; 110; 100; 32; 109; 101; 32; 40; 114; 111; 102; 108; 41; 136; 1; 2; 10; 78; 111; 32; 105; 100; 101; 97; 46; 46; 46; 5; 49; 0; 2; 5; 97; 110; 100; 32; 109; 1; 151; 0; 2; 8; 97; 110; 100; 32; 110; 111; 119; 63; 104; 1; 2; 13; 71; 104; 111; 115; 116; 32; 97; 103; 97; 105; 110; 63; 95; 1; 115; 0; 2; 6; 40; 114; 111; 102; 108; 41; 1; 93; 0; 2; 11; 110; 111; 112; 101; 32; 40; 114; 111; 102; 108; 41; 1; 75; 0; 2; 6; 98; 117; 116; 46; 46; 46; 1; 126; 0; 2; 9; 104; 111; 108; 121; 32; 115; 104; 105; 116; 200; 0; 2; 8; 119; 104; 121; 32; 110; 111; 116; 63; 17; 64; 0; 2; 38; 116; 114; 105; 112; 108; 101; 32; 110; 117; 108; 101; 115; 32; 119; 111; 117; 108; 100; 32; 98; 101; 32; 97; 119; 101; 115; 111; 109; 101; 44; 32; 73; 32; 116; 104; 105; 110; 107; 1; 159; 1; 0; 10; 79; 111; 111; 111; 104; 32; 121; 101; 97; 33; 21; 185; 1; 131; 0; 37; 252; 137; 0; 148; 83; 4; 1; 110; 0; 2; 5; 105; 32; 115; 101; 101; 77; 248; 1; 2; 8; 119; 79; 79; 79; 79; 79; 79; 87; 5; 150; 0; 2; 6; 40; 114; 111; 102; 108; 41; 1; 93; 1; 2; 10; 72; 97; 104; 97; 32; 110; 105; 99; 101; 33; 17; 205; 0; 131; 0; 34].
Definition rb_messages_1 : list Z := [230; 142; 0; 153; 247; 15; 12; 0; 131; 0; 34; 230; 140; 0; 153; 243; 2; 1; 244; 1; 2; 2; 108; 111; 21; 158; 0; 2; 13; 66; 73; 71; 32; 66; 65; 68; 65; 66; 79; 79; 77; 33; 1; 152; 1; 0; 4; 72; 97; 104; 97; 5; 33; 0; 2; 12; 53; 116; 104; 32; 101; 108; 101; 109; 101; 110; 116; 104; 1; 99; 0; 2; 14; 100; 111; 32; 117; 32; 114; 101; 109; 101; 109; 98; 101; 114; 63; 1; 109; 1; 0; 15; 66; 101; 115; 116; 32; 109; 111; 118; 105; 101; 32; 101; 118; 101; 114; 1; 87; 0; 2; 6; 40; 114; 111; 102; 108; 41; 124; 1; 2; 10; 98; 122; 122; 122; 122; 122; 122; 122; 122; 116; 172; 0; 2; 14; 116; 111; 116; 97; 108; 108; 121; 32; 97; 103; 114; 101; 101; 100; 25; 188; 1; 2; 16; 76; 111; 108; 32; 110; 105; 99; 101; 32; 122; 111; 110; 105; 110; 103; 33; 61; 224; 1; 2; 22; 72; 111; 119; 32; 109; 97; 110; 121; 32; 110; 117; 107; 101; 115; 63; 32; 40; 114; 111; 102; 108; 41; 1; 86; 0; 2; 3; 101; 109; 44; 1; 75; 0; 2; 3; 49; 53; 63; 1; 240; 0; 2; 21; 117; 32; 109; 101; 97; 110; 32; 115; 117; 109; 109; 97; 114; 121; 32; 114; 105; 103; 104; 116; 63; 112; 1; 2; 15; 83; 117; 112; 101; 114; 32; 99; 111; 111; 108; 32; 109; 97; 110; 33; 5; 6; 0; 2; 16; 115; 117; 112; 101; 114; 32; 102; 117; 110; 32; 40; 114; 111; 102; 108; 41].
Definition rb_messages : list Z := rb_messages_0 ++ rb_messages_1.
(** Of its sector replay.tracker.events the bytes 0 to 537 and 38892 to 40366: 17 and 26 events. *)
Definition rb_tracker_0 : list Z := [3; 0; 9; 0; 9; 18; 5; 8; 0; 9; 2; 2; 9; 2; 4; 4; 1; 9; 0; 6; 4; 1; 9; 0; 3; 0; 9; 0; 9; 18; 5; 8; 0; 9; 4; 2; 9; 2; 4; 4; 1; 9; 2; 6; 4; 1; 9; 2; 3; 0; 9; 0; 9; 18; 5; 8; 0; 9; 6; 2; 9; 4; 4; 4; 0; 6; 4; 1; 9; 4; 3; 0; 9; 0; 9; 18; 5; 8; 0; 9; 8; 2; 9; 4; 4; 4; 0; 6; 4; 1; 9; 6; 3; 0; 9; 0; 9; 10; 5; 6; 0; 9; 2; 2; 2; 28; 71; 104; 111; 115; 116; 65; 108; 116; 101; 114; 110; 97; 116; 101; 4; 9; 2; 3; 0; 9; 0; 9; 10; 5; 6; 0; 9; 2; 2; 2; 38; 82; 101; 119; 97; 114; 100; 68; 97; 110; 99; 101; 79; 118; 101; 114; 108; 111; 114; 100; 4; 9; 2; 3; 0; 9; 0; 9; 10; 5; 6; 0; 9; 2; 2; 2; 36; 82; 101; 119; 97; 114; 100; 68; 97; 110; 99; 101; 83; 116; 97; 108; 107; 101; 114; 4; 9; 2; 3; 0; 9; 0; 9; 10; 5; 6; 0; 9; 2; 2; 2; 32; 82; 101; 119; 97; 114; 100; 68; 97; 110; 99; 101; 71; 104; 111; 115; 116; 4; 9; 2; 3; 0; 9; 0; 9; 10; 5; 6; 0; 9; 2; 2; 2; 38; 82; 101; 119; 97; 114; 100; 68; 97; 110; 99; 101; 67; 111; 108; 111; 115; 115; 117; 115; 4; 9; 2; 3; 0; 9; 0; 9; 10; 5; 6; 0; 9; 2; 2; 2; 32; 82; 101; 119; 97; 114; 100; 68; 97; 110; 99; 101; 82; 111; 97; 99; 104; 4; 9; 2; 3; 0; 9; 0; 9; 10; 5; 6; 0; 9; 2; 2; 2; 34; 82; 101; 119; 97; 114; 100; 68; 97; 110; 99; 101; 79; 114; 97; 99; 108; 101; 4; 9; 2; 3; 0; 9; 0; 9; 10; 5; 6; 0; 9; 2; 2; 2; 30; 82; 101; 119; 97; 114; 100; 68; 97; 110; 99; 101; 77; 117; 108; 101; 4; 9; 2; 3; 0; 9; 0; 9; 10; 5; 6; 0; 9; 2; 2; 2; 34; 82; 101; 119; 97; 114; 100; 68; 97; 110; 99; 101; 86; 105; 107; 105; 110; 103; 4; 9; 2; 3; 0; 9; 0].
Definition rb_tracker_1 : list Z := [9; 10; 5; 6; 0; 9; 2; 2; 2; 38; 82; 101; 119; 97; 114; 100; 68; 97; 110; 99; 101; 73; 110; 102; 101; 115; 116; 111; 114; 4; 9; 2; 3; 0; 9; 0; 9; 10; 5; 6; 0; 9; 4; 2; 2; 38; 82; 101; 119; 97; 114; 100; 68; 97; 110; 99; 101; 79; 118; 101; 114; 108; 111; 114; 100; 4; 9; 2; 3; 0; 9; 0; 9; 10; 5; 6; 0; 9; 4; 2; 2; 32; 82; 101; 119; 97; 114; 100; 68; 97; 110; 99; 101; 82; 111; 97; 99; 104; 4; 9; 2; 3; 0; 9; 0; 9; 10; 5; 6; 0; 9; 4; 2; 2; 38; 82; 101; 119; 97; 114; 100; 68; 97; 110; 99; 101; 73; 110; 102; 101; 115; 116; 111; 114; 4; 9; 2; 3; 0; 9; 10; 9; 16; 5; 4; 0; 9; 232; 4; 2; 0; 12; 9; 0; 9; 136; 2; 9; 150; 1; 9; 150; 1; 9; 132; 2; 9; 154; 1; 3; 0; 9; 78; 9; 2; 5; 20; 0; 9; 212; 6; 2; 9; 2; 4; 2; 10; 68; 114; 111; 110; 101; 6; 9; 4; 8; 9; 4; 10; 9; 180; 2; 12; 9; 106; 14; 4; 1; 9; 198; 6; 16; 4; 1; 9; 2; 18; 4; 1; 2; 20; 76; 97; 114; 118; 97; 84; 114; 97; 105; 110; 3; 0; 9; 0; 9; 8; 5; 6; 0; 9; 198; 6; 2; 9; 2; 4; 2; 10; 76; 97; 114; 118; 97; 3; 0; 9; 0; 9; 4; 5; 14; 0; 9; 198; 6; 2; 9; 2; 4; 4; 0; 6; 9; 180; 2; 8; 9; 106; 10; 4; 0; 12; 4; 0; 3; 0; 9; 24; 9; 2; 5; 20; 0; 9; 198; 6; 2; 9; 4; 4; 2; 10; 76; 97; 114; 118; 97; 6; 9; 8; 8; 9; 8; 10; 9; 68; 12; 9; 172; 2; 14; 4; 1; 9; 178; 5; 16; 4; 1; 9; 2; 18; 4; 1; 2; 0; 3; 0; 9; 8; 9; 12; 5; 14; 0; 9; 214; 6; 2; 9; 2; 4; 2; 22; 65; 115; 115; 105; 109; 105; 108; 97; 116; 111; 114; 6; 9; 6; 8; 9; 6; 10; 9; 154; 1; 12; 9; 182; 2; 3; 0; 9; 34; 9; 2; 5; 20; 0; 9; 216; 6; 2; 9; 2; 4; 2; 6; 83; 67].
Definition rb_tracker_2 : list Z := [86; 6; 9; 2; 8; 9; 2; 10; 9; 228; 1; 12; 9; 52; 14; 4; 1; 9; 220; 4; 16; 4; 1; 9; 2; 18; 4; 1; 2; 36; 67; 111; 109; 109; 97; 110; 100; 67; 101; 110; 116; 101; 114; 84; 114; 97; 105; 110; 3; 0; 9; 4; 9; 2; 5; 20; 0; 9; 218; 6; 2; 9; 2; 4; 2; 10; 76; 97; 114; 118; 97; 6; 9; 4; 8; 9; 4; 10; 9; 170; 2; 12; 9; 54; 14; 4; 1; 9; 246; 4; 16; 4; 1; 9; 2; 18; 4; 1; 2; 0; 3; 0; 9; 2; 9; 2; 5; 20; 0; 9; 220; 6; 2; 9; 2; 4; 2; 16; 90; 101; 114; 103; 108; 105; 110; 103; 6; 9; 8; 8; 9; 8; 10; 9; 68; 12; 9; 172; 2; 14; 4; 1; 9; 142; 6; 16; 4; 1; 9; 6; 18; 4; 1; 2; 20; 76; 97; 114; 118; 97; 84; 114; 97; 105; 110; 3; 0; 9; 0; 9; 2; 5; 20; 0; 9; 222; 6; 2; 9; 2; 4; 2; 16; 90; 101; 114; 103; 108; 105; 110; 103; 6; 9; 8; 8; 9; 8; 10; 9; 68; 12; 9; 170; 2; 14; 4; 1; 9; 142; 6; 16; 4; 1; 9; 6; 18; 4; 1; 2; 20; 76; 97; 114; 118; 97; 84; 114; 97; 105; 110; 3; 0; 9; 0; 9; 8; 5; 6; 0; 9; 142; 6; 2; 9; 6; 4; 2; 10; 76; 97; 114; 118; 97; 3; 0; 9; 0; 9; 4; 5; 14; 0; 9; 142; 6; 2; 9; 6; 4; 4; 0; 6; 9; 68; 8; 9; 172; 2; 10; 4; 0; 12; 4; 0; 3; 0; 9; 0; 9; 2; 5; 20; 0; 9; 224; 6; 2; 9; 2; 4; 2; 16; 90; 101; 114; 103; 108; 105; 110; 103; 6; 9; 4; 8; 9; 4; 10; 9; 170; 2; 12; 9; 54; 14; 4; 1; 9; 190; 6; 16; 4; 1; 9; 2; 18; 4; 1; 2; 20; 76; 97; 114; 118; 97; 84; 114; 97; 105; 110; 3; 0; 9; 0; 9; 2; 5; 20; 0; 9; 226; 6; 2; 9; 2; 4; 2; 16; 90; 101; 114; 103; 108; 105; 110; 103; 6; 9; 4; 8; 9; 4; 10; 9; 170; 2; 12; 9; 52; 14; 4; 1; 9; 190; 6; 16; 4; 1; 9; 2; 18].
Definition rb_tracker_3 : list Z := [4; 1; 2; 20; 76; 97; 114; 118; 97; 84; 114; 97; 105; 110; 3; 0; 9; 0; 9; 8; 5; 6; 0; 9; 190; 6; 2; 9; 2; 4; 2; 10; 76; 97; 114; 118; 97; 3; 0; 9; 0; 9; 4; 5; 14; 0; 9; 190; 6; 2; 9; 2; 4; 4; 0; 6; 9; 170; 2; 8; 9; 54; 10; 4; 0; 12; 4; 0; 3; 0; 9; 10; 9; 0; 5; 4; 0; 9; 2; 2; 5; 78; 0; 9; 190; 1; 2; 9; 158; 4; 4; 9; 246; 10; 6; 9; 158; 5; 8; 9; 44; 10; 9; 0; 12; 9; 204; 8; 14; 9; 100; 16; 9; 0; 18; 9; 0; 20; 9; 50; 22; 9; 0; 24; 9; 244; 28; 26; 9; 172; 2; 28; 9; 0; 30; 9; 0; 32; 9; 0; 34; 9; 0; 36; 9; 0; 38; 9; 0; 40; 9; 0; 42; 9; 0; 44; 9; 0; 46; 9; 0; 48; 9; 0; 50; 9; 0; 52; 9; 0; 54; 9; 0; 56; 9; 0; 58; 9; 128; 128; 11; 60; 9; 128; 192; 15; 62; 9; 0; 64; 9; 0; 66; 9; 0; 68; 9; 0; 70; 9; 0; 72; 9; 0; 74; 9; 0; 76; 9; 0; 3; 0; 9; 0; 9; 0; 5; 4; 0; 9; 4; 2; 5; 78; 0; 9; 154; 3; 2; 9; 24; 4; 9; 238; 14; 6; 9; 140; 2; 8; 9; 42; 10; 9; 216; 4; 12; 9; 0; 14; 9; 0; 16; 9; 0; 18; 9; 0; 20; 9; 0; 22; 9; 100; 24; 9; 154; 33; 26; 9; 244; 3; 28; 9; 0; 30; 9; 0; 32; 9; 0; 34; 9; 0; 36; 9; 0; 38; 9; 0; 40; 9; 0; 42; 9; 0; 44; 9; 0; 46; 9; 0; 48; 9; 0; 50; 9; 0; 52; 9; 0; 54; 9; 0; 56; 9; 0; 58; 9; 128; 128; 13; 60; 9; 128; 128; 18; 62; 9; 100; 64; 9; 0; 66; 9; 0; 68; 9; 0; 70; 9; 0; 72; 9; 0; 74; 9; 0; 76; 9; 0; 3; 0; 9; 0; 9; 0; 5; 4; 0; 9; 6; 2; 5; 78; 0; 9; 144; 3; 2; 9; 84; 4; 9; 238; 14; 6; 9; 230; 2; 8; 9; 50; 10; 9; 200; 1; 12; 9; 194; 3; 14; 9; 172; 2; 16; 9; 0; 18; 9].
Definition rb_tracker_4 : list Z := [0; 20; 9; 0; 22; 9; 200; 1; 24; 9; 138; 30; 26; 9; 216; 4; 28; 9; 0; 30; 9; 0; 32; 9; 0; 34; 9; 0; 36; 9; 0; 38; 9; 0; 40; 9; 0; 42; 9; 0; 44; 9; 0; 46; 9; 0; 48; 9; 0; 50; 9; 0; 52; 9; 0; 54; 9; 0; 56; 9; 0; 58; 9; 128; 128; 15; 60; 9; 128; 192; 15; 62; 9; 200; 1; 64; 9; 0; 66; 9; 0; 68; 9; 0; 70; 9; 0; 72; 9; 0; 74; 9; 0; 76; 9; 0; 3; 0; 9; 0; 9; 0; 5; 4; 0; 9; 8; 2; 5; 78; 0; 9; 210; 1; 2; 9; 128; 3; 4; 9; 238; 7; 6; 9; 242; 4; 8; 9; 38; 10; 9; 172; 2; 12; 9; 160; 6; 14; 9; 0; 16; 9; 0; 18; 9; 0; 20; 9; 0; 22; 9; 100; 24; 9; 172; 27; 26; 9; 244; 3; 28; 9; 0; 30; 9; 0; 32; 9; 0; 34; 9; 0; 36; 9; 0; 38; 9; 0; 40; 9; 0; 42; 9; 0; 44; 9; 0; 46; 9; 0; 48; 9; 0; 50; 9; 0; 52; 9; 0; 54; 9; 0; 56; 9; 0; 58; 9; 128; 192; 11; 60; 9; 128; 128; 15; 62; 9; 100; 64; 9; 0; 66; 9; 0; 68; 9; 0; 70; 9; 0; 72; 9; 0; 74; 9; 0; 76; 9; 0; 3; 0; 9; 42; 9; 2; 5; 20; 0; 9; 142; 6; 2; 9; 8; 4; 2; 10; 68; 114; 111; 110; 101; 6; 9; 8; 8; 9; 8; 10; 9; 68; 12; 9; 172; 2; 14; 4; 1; 9; 184; 6; 16; 4; 1; 9; 4; 18; 4; 1; 2; 20; 76; 97; 114; 118; 97; 84; 114; 97; 105; 110; 3; 0; 9; 0; 9; 8; 5; 6; 0; 9; 184; 6; 2; 9; 4; 4; 2; 10; 76; 97; 114; 118; 97; 3; 0; 9; 0; 9; 4; 5; 14; 0; 9; 184; 6; 2; 9; 4; 4; 4; 0; 6; 9; 68; 8; 9; 172; 2; 10; 4; 0; 12; 4; 0; 3; 0; 9; 8; 9; 14; 5; 4; 0; 9; 196; 6; 2; 9; 2; 3; 0; 9; 2; 9; 14; 5; 4; 0; 9; 148; 6; 2; 9; 2; 3; 0; 9; 0; 9; 10; 5; 6; 0; 9; 8; 2; 2; 18; 83].
Definition rb_tracker_5 : list Z := [112; 114; 97; 121; 90; 101; 114; 103; 4; 9; 2].
Definition rb_tracker : list Z := rb_tracker_0 ++ rb_tracker_1 ++ rb_tracker_2 ++ rb_tracker_3 ++ rb_tracker_4 ++ rb_tracker_5.
(** The first 60 events of its sector replay.game.events. *)
Definition rb_game_0 : list Z := [0; 240; 100; 67; 25; 189; 12; 0; 96; 216; 6; 4; 167; 124; 33; 211; 93; 7; 71; 46; 19; 236; 103; 188; 186; 216; 23; 146; 237; 174; 216; 166; 245; 209; 163; 49; 138; 233; 63; 165; 95; 48; 50; 184; 181; 62; 148; 173; 132; 0; 139; 22; 159; 239; 253; 63; 41; 61; 4; 66; 181; 245; 60; 213; 98; 84; 173; 194; 199; 39; 102; 49; 133; 88; 124; 158; 238; 27; 255; 69; 38; 153; 102; 164; 72; 6; 44; 255; 156; 79; 84; 158; 145; 241; 222; 30; 83; 186; 33; 139; 218; 18; 36; 248; 151; 61; 13; 40; 84; 68; 234; 116; 61; 27; 95; 62; 13; 154; 79; 123; 58; 103; 203; 105; 26; 149; 99; 255; 252; 17; 4; 56; 196; 78; 75; 243; 241; 248; 191; 35; 2; 249; 63; 116; 113; 127; 201; 93; 56; 3; 49; 141; 187; 203; 112; 145; 0; 179; 237; 26; 38; 26; 95; 161; 242; 171; 248; 24; 95; 45; 24; 236; 214; 166; 39; 229; 35; 68; 60; 162; 177; 168; 144; 71; 49; 87; 65; 160; 170; 40; 6; 126; 3; 151; 16; 207; 116; 242; 149; 121; 187; 180; 96; 136; 123; 97; 250; 174; 68; 184; 219; 165; 54; 247; 166; 65; 136; 127; 227; 226; 158; 216; 8; 228; 200; 8; 14; 68; 168; 59; 195; 249; 116; 149; 156; 3; 224; 177; 101; 68; 242; 253; 249; 65; 69; 60; 19; 35; 29; 144; 141; 254; 152; 36; 66; 163; 227; 12; 119; 78; 236; 55; 60; 41; 27; 23; 17; 185; 91; 44; 94; 5; 17; 196; 254; 78; 63; 196; 197; 175; 27; 167; 89; 245; 1; 203; 210; 19; 92; 17; 80; 159; 16; 85; 46; 56; 129; 9; 231; 5; 87; 180; 245; 21; 35; 121; 214; 241; 188; 35; 173; 170; 230; 149; 165; 189; 50; 185; 27; 228; 177; 209; 200; 204; 144; 159; 214; 175; 239; 61; 159; 253; 135; 164; 32; 211; 83; 91; 154; 215; 100; 151; 122; 64; 169; 164; 185; 86; 160; 107; 221; 5; 71; 227; 41; 183; 107; 24; 27; 132; 172; 193; 94; 103; 8; 136; 18; 196; 155; 9; 165; 184; 21; 4; 135; 135; 84; 159; 233; 123; 169; 59; 187; 38; 83; 111; 177; 143; 193; 157; 72; 59; 50; 105; 255; 5; 11; 247; 33; 150].
Definition rb_game_1 : list Z := [146; 241; 164; 83; 64; 0; 111; 218; 10; 214; 62; 92; 179; 72; 214; 42; 253; 157; 210; 70; 124; 22; 86; 129; 96; 139; 146; 241; 33; 148; 237; 246; 27; 29; 7; 209; 55; 64; 129; 151; 57; 121; 162; 30; 23; 149; 197; 154; 241; 196; 220; 2; 0; 4; 163; 2; 0; 4; 148; 2; 0; 1; 48; 0; 0; 1; 18; 3; 0; 24; 93; 3; 0; 9; 85; 0; 0; 21; 51; 1; 0; 14; 156; 1; 0; 13; 102; 2; 0; 3; 161; 2; 0; 1; 14; 2; 0; 4; 175; 1; 0; 4; 216; 0; 0; 3; 228; 2; 0; 4; 85; 0; 0; 4; 43; 3; 0; 4; 67; 1; 0; 4; 209; 0; 0; 4; 123; 3; 0; 4; 56; 3; 0; 4; 232; 3; 0; 2; 6; 3; 0; 1; 132; 3; 0; 1; 231; 2; 0; 1; 216; 0; 0; 2; 70; 0; 0; 2; 60; 1; 0; 2; 136; 0; 0; 2; 163; 0; 0; 2; 173; 2; 0; 2; 169; 2; 0; 9; 223; 2; 0; 9; 207; 3; 0; 3; 238; 3; 0; 4; 51; 1; 0; 3; 132; 2; 0; 4; 89; 1; 0; 3; 166; 1; 0; 3; 169; 3; 0; 4; 47; 1; 0; 4; 23; 2; 0; 3; 156; 2; 0; 3; 236; 1; 0; 3; 36; 3; 0; 2; 196; 2; 0; 2; 130; 2; 0; 2; 212; 1; 0; 2; 170; 2; 0; 2; 151; 0; 0; 2; 120; 2; 0; 2; 250; 2; 0; 2; 217; 2; 0; 2; 143; 0; 0; 3; 234; 2; 0; 3; 99; 3; 0; 2; 252; 1; 0; 3; 147; 1; 0; 3; 145; 3; 0; 3; 13; 3; 0; 2; 24; 2; 0; 2; 94; 2; 0; 2; 51; 0; 0; 2; 24; 3; 0; 9; 170; 2; 0; 9; 192; 0; 0; 3; 78; 1; 0; 4; 107; 0; 0; 6; 65; 0; 0; 0; 65; 3; 0; 0; 150; 1; 0; 0; 52; 2; 0; 0; 58; 2; 0; 0; 200; 0; 0; 0; 195; 2; 0; 0; 173; 2; 0; 1; 10; 3; 0; 0; 110; 0; 0; 0; 91; 3; 0; 0; 87; 3; 0; 4; 51; 0; 0; 0; 177; 0; 0; 0; 195; 2; 0; 0; 237; 3; 0; 1; 15; 1; 0; 1; 15; 2; 0; 1; 32; 3; 0; 1; 74; 2].
Definition rb_game_2 : list Z := [0; 1; 84; 2; 0; 1; 101; 2; 0; 2; 84; 2; 0; 2; 56; 1; 0; 2; 237; 2; 0; 2; 150; 1; 0; 2; 63; 2; 0; 1; 235; 2; 0; 1; 174; 1; 0; 1; 139; 3; 0; 1; 185; 0; 0; 1; 140; 2; 0; 1; 117; 0; 0; 1; 189; 0; 0; 1; 85; 3; 0; 1; 73; 1; 0; 1; 85; 0; 0; 1; 145; 2; 0; 1; 211; 2; 0; 1; 131; 3; 0; 1; 156; 3; 0; 0; 177; 1; 0; 0; 209; 0; 0; 96; 40; 127; 115; 32; 219; 126; 4; 213; 175; 87; 128; 224; 142; 161; 173; 148; 171; 18; 107; 207; 146; 140; 201; 116; 25; 149; 181; 173; 239; 178; 171; 87; 234; 74; 122; 190; 171; 104; 42; 80; 43; 191; 236; 164; 30; 38; 225; 130; 41; 47; 86; 42; 179; 36; 218; 156; 124; 190; 182; 89; 137; 172; 230; 233; 253; 219; 134; 197; 122; 221; 128; 40; 27; 176; 194; 20; 95; 72; 124; 132; 179; 179; 97; 172; 241; 173; 131; 36; 20; 0; 161; 102; 117; 43; 3; 0; 0; 173; 3; 0; 0; 250; 1; 0; 0; 254; 2; 0; 1; 25; 3; 0; 0; 140; 1; 0; 0; 132; 1; 0; 0; 99; 2; 0; 0; 120; 0; 0; 0; 102; 2; 0; 0; 120; 0; 0; 0; 138; 1; 0; 0; 125; 3; 0; 0; 123; 1; 0; 0; 179; 1; 0; 1; 19; 1; 0; 1; 66; 3; 0; 1; 20; 3; 0; 1; 46; 3; 0; 1; 100; 0; 0; 10; 73; 3; 0; 1; 230; 0; 0; 1; 230; 0; 0; 2; 41; 1; 0; 0; 23; 0; 0; 5; 121; 56; 0; 5; 121; 56; 0; 0; 0; 0; 8; 60; 99; 117; 115; 116; 111; 109; 62; 0; 97; 216; 6; 4; 167; 124; 33; 211; 93; 7; 71; 46; 19; 236; 103; 188; 186; 216; 23; 146; 237; 174; 216; 166; 245; 209; 163; 49; 138; 233; 63; 165; 95; 48; 50; 184; 181; 62; 148; 173; 132; 0; 139; 22; 159; 239; 253; 63; 41; 61; 4; 66; 181; 245; 60; 213; 98; 84; 173; 194; 199; 39; 102; 49; 133; 88; 124; 158; 238; 27; 255; 69; 38; 153; 102; 164; 72; 6; 44; 255; 156; 79; 84; 158; 145; 241; 222; 30; 83; 186; 33; 139; 218].
Definition rb_game_3 : list Z := [18; 36; 248; 151; 61; 13; 40; 84; 68; 234; 116; 61; 27; 95; 62; 13; 154; 79; 123; 58; 103; 203; 105; 26; 149; 99; 255; 252; 17; 4; 56; 196; 78; 75; 243; 241; 248; 191; 35; 2; 249; 63; 116; 113; 127; 201; 93; 56; 3; 49; 141; 187; 203; 112; 145; 0; 179; 237; 26; 38; 26; 95; 161; 242; 171; 248; 24; 95; 45; 24; 236; 214; 166; 39; 229; 35; 68; 60; 162; 177; 168; 144; 71; 49; 87; 65; 160; 170; 40; 6; 126; 3; 151; 16; 207; 116; 242; 149; 121; 187; 180; 96; 136; 123; 97; 250; 174; 68; 184; 219; 165; 54; 247; 166; 65; 136; 127; 227; 226; 158; 216; 8; 228; 200; 8; 14; 68; 168; 59; 195; 249; 116; 149; 156; 3; 224; 177; 101; 68; 242; 253; 249; 65; 69; 60; 19; 35; 29; 144; 141; 254; 152; 36; 66; 163; 227; 12; 119; 78; 236; 55; 60; 41; 27; 23; 17; 185; 91; 44; 94; 5; 17; 196; 254; 78; 63; 196; 197; 175; 27; 167; 89; 245; 1; 203; 210; 19; 92; 17; 80; 159; 16; 85; 46; 56; 129; 9; 231; 5; 87; 180; 245; 21; 35; 121; 214; 241; 188; 35; 173; 170; 230; 149; 165; 189; 50; 185; 27; 228; 177; 209; 200; 204; 144; 159; 214; 175; 239; 61; 159; 253; 135; 164; 32; 211; 83; 91; 154; 215; 100; 151; 122; 64; 169; 164; 185; 86; 160; 107; 221; 5; 71; 227; 41; 183; 107; 24; 27; 132; 172; 193; 94; 103; 8; 136; 18; 196; 155; 9; 165; 184; 21; 4; 135; 135; 84; 159; 233; 123; 169; 59; 187; 38; 83; 111; 177; 143; 193; 157; 72; 59; 50; 105; 255; 5; 11; 247; 33; 150; 146; 241; 164; 83; 64; 0; 111; 218; 10; 214; 62; 92; 179; 72; 214; 42; 253; 157; 210; 70; 124; 22; 86; 129; 96; 139; 146; 241; 33; 148; 237; 246; 27; 29; 7; 209; 55; 64; 129; 151; 57; 121; 162; 30; 23; 149; 197; 154; 241; 196; 220; 2; 0; 4; 163; 2; 0; 4; 148; 2; 0; 1; 48; 0; 0; 1; 18; 3; 0; 24; 93; 3; 0; 9; 85; 0; 0; 21; 51; 1; 0; 14; 156; 1; 0; 13; 102; 2; 0; 3; 161; 2; 0; 1; 14; 2; 0; 4; 175; 1; 0].
Definition rb_game_4 : list Z := [4; 216; 0; 0; 3; 228; 2; 0; 4; 85; 0; 0; 4; 43; 3; 0; 4; 67; 1; 0; 4; 209; 0; 0; 4; 123; 3; 0; 4; 56; 3; 0; 4; 232; 3; 0; 2; 6; 3; 0; 1; 132; 3; 0; 1; 231; 2; 0; 1; 216; 0; 0; 2; 70; 0; 0; 2; 60; 1; 0; 2; 136; 0; 0; 2; 163; 0; 0; 2; 173; 2; 0; 2; 169; 2; 0; 9; 223; 2; 0; 9; 207; 3; 0; 3; 238; 3; 0; 4; 51; 1; 0; 3; 132; 2; 0; 4; 89; 1; 0; 3; 166; 1; 0; 3; 169; 3; 0; 4; 47; 1; 0; 4; 23; 2; 0; 3; 156; 2; 0; 3; 236; 1; 0; 3; 36; 3; 0; 2; 196; 2; 0; 2; 130; 2; 0; 2; 212; 1; 0; 2; 170; 2; 0; 2; 151; 0; 0; 2; 120; 2; 0; 2; 250; 2; 0; 2; 217; 2; 0; 2; 143; 0; 0; 3; 234; 2; 0; 3; 99; 3; 0; 2; 252; 1; 0; 3; 147; 1; 0; 3; 145; 3; 0; 3; 13; 3; 0; 2; 24; 2; 0; 2; 94; 2; 0; 2; 51; 0; 0; 2; 24; 3; 0; 9; 170; 2; 0; 9; 192; 0; 0; 3; 78; 1; 0; 4; 107; 0; 0; 6; 65; 0; 0; 0; 65; 3; 0; 0; 150; 1; 0; 0; 52; 2; 0; 0; 58; 2; 0; 0; 200; 0; 0; 0; 195; 2; 0; 0; 173; 2; 0; 1; 10; 3; 0; 0; 110; 0; 0; 0; 91; 3; 0; 0; 87; 3; 0; 4; 51; 0; 0; 0; 177; 0; 0; 0; 195; 2; 0; 0; 237; 3; 0; 1; 15; 1; 0; 1; 15; 2; 0; 1; 32; 3; 0; 1; 74; 2; 0; 1; 84; 2; 0; 1; 101; 2; 0; 2; 84; 2; 0; 2; 56; 1; 0; 2; 237; 2; 0; 2; 150; 1; 0; 2; 63; 2; 0; 1; 235; 2; 0; 1; 174; 1; 0; 1; 139; 3; 0; 1; 185; 0; 0; 1; 140; 2; 0; 1; 117; 0; 0; 1; 189; 0; 0; 1; 85; 3; 0; 1; 73; 1; 0; 1; 85; 0; 0; 1; 145; 2; 0; 1; 211; 2; 0; 1; 131; 3; 0; 1; 156; 3; 0; 0; 177; 1; 0; 0; 209; 0; 0; 97; 40; 127; 115; 32; 219; 126; 4].
Definition rb_game_5 : list Z := [213; 175; 87; 128; 224; 142; 161; 173; 148; 171; 18; 107; 207; 146; 140; 201; 116; 25; 149; 181; 173; 239; 178; 171; 87; 234; 74; 122; 190; 171; 104; 42; 80; 43; 191; 236; 164; 30; 38; 225; 130; 41; 47; 86; 42; 179; 36; 218; 156; 124; 190; 182; 89; 137; 172; 230; 233; 253; 219; 134; 197; 122; 221; 128; 40; 27; 176; 194; 20; 95; 72; 124; 132; 179; 179; 97; 172; 241; 173; 131; 36; 20; 0; 161; 102; 117; 43; 3; 0; 0; 173; 3; 0; 0; 250; 1; 0; 0; 254; 2; 0; 1; 25; 3; 0; 0; 140; 1; 0; 0; 132; 1; 0; 0; 99; 2; 0; 0; 120; 0; 0; 0; 102; 2; 0; 0; 120; 0; 0; 0; 138; 1; 0; 0; 125; 3; 0; 0; 123; 1; 0; 0; 179; 1; 0; 1; 19; 1; 0; 1; 66; 3; 0; 1; 20; 3; 0; 1; 46; 3; 0; 1; 100; 0; 0; 10; 73; 3; 0; 1; 230; 0; 0; 1; 230; 0; 0; 2; 41; 1; 0; 1; 23; 0; 0; 5; 121; 56; 0; 5; 121; 56; 0; 0; 0; 0; 8; 60; 99; 117; 115; 116; 111; 109; 62; 0; 16; 5; 0; 240; 101; 67; 25; 190; 10; 0; 161; 136; 0; 4; 155; 0; 12; 97; 145; 186; 0; 220; 2; 0; 4; 96; 113; 142; 0; 204; 2; 0; 16; 33; 172; 0; 0; 1; 6; 29; 12; 1; 1; 1; 19; 176; 0; 1; 0; 33; 172; 0; 6; 0; 1; 5; 61; 26; 1; 3; 3; 9; 224; 0; 1; 9; 232; 0; 1; 9; 240; 0; 1; 0; 33; 11; 0; 2; 128; 0; 195; 0; 0; 0; 0; 0; 0; 12; 33; 172; 0; 2; 17; 1; 1; 62; 54; 1; 1; 1; 4; 240; 0; 1; 12; 32; 172; 0; 0; 1; 2; 39; 0; 1; 1; 1; 18; 224; 0; 1; 0; 32; 11; 0; 2; 128; 0; 157; 0; 0; 0; 0; 0; 0; 0; 33; 172; 0; 6; 0; 1; 3; 63; 28; 1; 3; 3; 10; 40; 0; 1; 10; 56; 0; 1; 10; 72; 0; 1; 24; 32; 172; 0; 6; 0; 1; 2; 36; 26; 1; 2; 2; 9; 200; 0; 1; 9; 208; 0; 1; 0; 32; 11; 0; 2; 8; 117; 145; 8; 109; 145; 128; 0; 47].
Definition rb_game_6 : list Z := [248; 0; 0; 0; 0; 1; 0; 33; 11; 0; 2; 8; 2; 27; 3; 0; 117; 0; 0; 1; 136; 133; 144; 80; 0; 24; 128; 128; 0; 11; 254; 0; 0; 0; 0; 1; 16; 192; 9; 6; 15; 0; 39; 192; 0; 1; 34; 17; 66; 220; 0; 24; 32; 128; 0; 2; 255; 32; 0; 192; 87; 0; 0; 0; 2; 16; 192; 9; 6; 15; 0; 39; 192; 0; 1; 34; 17; 66; 220; 0; 24; 32; 128; 0; 2; 255; 32; 0; 192; 87; 0; 0; 0; 3; 12; 192; 9; 6; 15; 0; 39; 192; 0; 1; 34; 17; 66; 220; 0; 24; 32; 128; 0; 2; 255; 32; 0; 192; 87; 0; 0; 0; 4; 12; 33; 172; 0; 6; 0; 1; 3; 63; 28; 1; 3; 3; 10; 48; 0; 1; 10; 64; 0; 1; 10; 80; 0; 1; 20; 193; 9; 6; 15; 0; 11; 128; 0; 1; 34; 17; 130; 112; 0; 28; 160; 128; 0; 2; 255; 32; 0; 193; 87; 0; 0; 0; 2; 8; 32; 172; 0; 6; 0; 1; 1; 39; 0; 1; 1; 1; 9; 112; 0; 1; 44; 32; 93; 0; 16; 33; 172; 0; 6; 0; 1; 4; 65; 8; 1; 1; 1; 10; 88; 0; 1; 0; 193; 136; 165; 88; 37; 170; 140; 0; 11; 254; 0; 0; 193; 87; 0; 0; 0; 3; 28; 33; 45; 0; 52; 33; 11; 2; 2; 8; 29; 234; 96; 208; 158; 131; 0; 34; 77; 3; 0; 0; 1; 0; 4; 192; 9; 6; 15; 0; 49; 64; 0; 1; 34; 17; 66; 208; 0; 20; 224; 128; 0; 2; 255; 32; 0; 192; 87; 0; 0; 0; 5; 52; 33; 172; 0; 6; 0; 1; 3; 13; 28; 1; 1; 1; 9; 216; 0; 1; 20; 33; 29; 0; 64; 1; 142; 46; 64; 55; 2; 44; 97; 145; 172; 0; 230; 2; 0; 12; 1; 142; 43; 0; 57; 66; 92; 97; 145; 217; 60; 202; 4; 0; 4; 97; 145; 224; 32; 183; 9; 0; 0; 1; 158; 56; 0; 109; 105; 24; 97; 145; 217; 92; 96; 30; 0; 8; 1; 174; 54; 60; 152; 30; 68; 97; 145; 224; 96; 1; 6; 0; 12; 1; 190; 56; 0; 192; 38; 40; 97; 113; 213; 127; 203; 28; 0; 0; 97; 145; 13; 117; 236; 27; 0; 12].
Definition rb_game_7 : list Z := [97; 145; 18; 106; 255; 23; 0; 40; 1; 206; 4; 74; 255; 119; 12; 97; 145; 217; 124; 213; 9; 0; 12; 1; 222; 54; 60; 245; 41; 20; 97; 145; 224; 128; 225; 30; 0; 8; 1; 238; 56; 128; 56; 62].
Definition rb_game : list Z := rb_game_0 ++ rb_game_1 ++ rb_game_2 ++ rb_game_3 ++ rb_game_4 ++ rb_game_5 ++ rb_game_6 ++ rb_game_7.
