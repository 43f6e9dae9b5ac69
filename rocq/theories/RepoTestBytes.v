(** * The byte vectors of the unit tests of /repo, written by tools/gen_repo_tests.py *)
From Verif Require Import Base.
#[local] Open Scope Z_scope.
(** /repo/src/bit_packed_decoder.rs *)
Definition rt_bits_game : list Z := [0; 240; 100; 43; 75; 164; 12; 0].
(** /repo/src/bit_packed_decoder.rs *)
Definition rt_bits_init : list Z := [7; 117; 38; 122; 80; 248; 223; 7; 187; 240; 224; 112; 0; 240; 255; 255; 255; 255; 255; 255; 255; 255; 255; 255; 255; 255; 255; 255; 255; 255; 255; 255; 255; 255; 255; 255; 255; 255; 255; 255; 255; 255; 255; 255; 255; 255; 255; 255; 125; 0; 0; 192; 1; 127; 60; 0; 192; 3; 31; 28; 0; 192; 7; 31; 28; 0; 0; 0; 0; 0; 0; 0; 0; 0; 0; 0; 0; 0; 0; 0].
(** /repo/src/lib.rs *)
Definition rt_vlq_plain : list Z := [18; 44; 0; 0; 0; 0; 0; 0; 0; 0; 0; 0].
(** /repo/src/lib.rs *)
Definition rt_vlq_build : list Z := [172; 218; 10; 0; 0; 0; 0; 0; 0; 0; 0; 0].
(** /repo/src/lib.rs *)
Definition rt_vlq_tagged : list Z := [9; 172; 218; 10; 0; 0; 0; 0; 0; 0; 0; 0].
(** /repo/src/cache_handles/map_info.rs *)
Definition rt_map_info : list Z := [73; 112; 97; 77; 39; 0; 0; 0; 195; 56; 1; 0; 0; 0; 0; 0; 168; 0; 0; 0; 168; 0; 0; 0; 1; 0; 0; 0; 1; 0; 0; 0; 0; 0; 4; 0; 0; 0; 0; 0; 0; 0; 68; 97; 114; 107; 0; 90; 101; 114; 117; 115; 0; 14; 0; 0; 0; 14; 0; 0; 0; 154; 0; 0; 0; 154; 0; 0; 0; 0; 120; 0; 0; 0; 0; 0; 0; 0; 0; 0; 0; 0; 0; 0; 255; 255; 255; 255; 0; 0; 0; 0; 0; 0; 0; 0; 32; 3; 0; 0; 88; 2; 0; 0; 0; 0; 0; 0; 0; 0; 64; 0; 0; 0; 0; 0; 0; 0; 0; 0; 0; 0; 32; 0; 0; 189; 198; 10; 104; 167; 198; 10; 104; 16; 0; 0; 0; 0; 0; 0; 4; 0; 0; 0; 0; 3; 0; 0; 0; 0; 0; 0; 0; 0; 0; 0; 0; 0; 0; 0; 0; 0; 0; 0; 0; 0; 0; 1; 1; 0; 0; 0; 255; 255; 255; 255; 0; 0; 0; 0; 0; 0; 0; 0; 0; 0; 0; 0; 0; 0; 2; 1; 0; 0; 0; 255; 255; 255; 255; 0; 0; 0; 0; 0; 0; 0; 0; 0; 0; 0; 0; 0; 0; 15; 4; 0; 0; 0; 0; 0; 0; 0; 0; 0; 0; 0; 0; 0; 0; 0; 0; 0; 0; 0; 0; 0; 0; 0; 0; 0; 0; 0; 0; 0; 0; 0; 0; 0; 0; 0; 0; 0; 0; 0; 0; 0; 0; 0; 0; 0; 0; 0; 0; 0; 2; 0; 0; 0; 0; 0; 0; 0; 0; 0; 0; 0; 0; 0; 0; 0; 0; 0; 0; 0; 0; 0; 0; 0; 0; 0; 0; 0].
(** /repo/src/cache_handles/t3_height_map.rs *)
Definition rt_height_map : list Z := [72; 77; 65; 80; 101; 0; 0; 0; 169; 0; 0; 0; 169; 0; 0; 0; 0; 0; 0; 0; 0; 0; 0; 0; 0; 0; 0; 0; 0; 0; 0; 0; 197; 241; 115; 156; 2; 0; 197; 241; 115; 156; 2; 0; 197; 241; 115; 156; 2; 0; 197; 241; 115; 156; 2; 0; 197; 241; 115; 156; 2; 0; 197; 241; 115; 156; 2; 0; 197; 241; 115; 156; 2; 0; 197; 241; 115; 156; 2; 0; 197; 241; 57; 14; 0; 0; 197; 241; 57; 14; 0; 0; 197; 241; 57; 14; 0; 0; 197; 241; 57; 14; 0; 0; 197; 241; 57; 14; 0; 0; 197; 241; 1; 128; 1; 0; 197; 241; 1; 128; 1; 0; 197; 241; 1; 128; 1; 0; 197; 241; 1; 128; 1; 0; 197; 241; 1; 128; 1; 0; 197; 241; 57; 14; 0; 0; 197; 241; 57; 14; 0; 0; 197; 241; 57; 14; 0; 0; 197; 241; 57; 14; 0; 0; 197; 241; 57; 14; 0; 0; 197; 241; 57; 14; 0; 0; 197; 241; 57; 14; 0; 0; 197; 241; 230; 184; 3; 0; 197; 241; 230; 184; 3; 0; 197; 241; 230; 184; 3; 0].
(** /repo/src/cache_handles/document_header.rs *)
Definition rt_document : list Z := [72; 50; 67; 83; 8; 0; 0; 0; 50; 83; 0; 0; 1; 5; 0; 14; 149; 108; 1; 0; 149; 108; 1; 0; 0; 0; 0; 0; 231; 156; 197; 88; 231; 156; 197; 88; 2; 0; 0; 0; 0; 0; 0; 0; 1; 0; 0; 0; 98; 110; 101; 116; 58; 86; 111; 105; 100; 32; 40; 77; 111; 100; 41; 47; 48; 46; 48; 47; 57; 57; 57; 44; 102; 105; 108; 101; 58; 77; 111; 100; 115; 47; 86; 111; 105; 100; 46; 83; 67; 50; 77; 111; 100; 0; 7; 0; 0; 0; 12; 0; 68; 111; 99; 73; 110; 102; 111; 47; 78; 97; 109; 101; 83; 85; 110; 101; 10; 0; 84; 111; 107; 97; 109; 97; 107; 32; 76; 69; 21; 0; 77; 97; 112; 73; 110; 102; 111; 47; 80; 108; 97; 121; 101; 114; 48; 51; 47; 78; 97; 109; 101; 83; 85; 110; 101; 7; 0; 72; 111; 115; 116; 105; 108; 101; 16; 0; 68; 111; 99; 73; 110; 102; 111; 47; 68; 101; 115; 99; 76; 111; 110; 103; 83; 85; 110; 101; 209; 0; 87; 105; 100; 101; 32; 109; 97; 99; 114; 111; 32; 109; 97; 112; 32; 119; 105; 116; 99; 104; 32; 49; 54; 32; 98; 97; 115; 101; 115; 46; 32; 84; 104; 101; 114; 101; 32; 97; 114; 101; 32; 116; 119; 111; 32; 104; 121; 98; 114; 105; 100; 32; 98; 97; 115; 101; 115; 32; 119; 105; 116; 104; 32; 109; 105; 110; 101; 114; 97; 108; 115; 32; 98; 108; 111; 99; 107; 105; 110; 103; 32; 97; 32; 112; 97; 116; 104; 46; 32; 84; 104; 101; 32; 112; 97; 116; 104; 32; 99; 97; 110; 32; 98; 101; 32; 111; 112; 101; 110; 32; 98; 121; 32; 109; 105; 110; 105; 110; 103; 32; 111; 114; 32; 98; 121; 32; 100; 101; 115; 116; 114; 111; 121; 105; 110; 103; 32; 116; 104; 101; 32; 99; 111; 111; 108; 105; 110; 103; 32; 116; 111; 119; 101; 114; 115; 32; 98; 101; 104; 105; 110; 100; 32; 116; 104; 101; 32; 98; 97; 115; 101; 32; 119; 104; 105; 99; 104; 32; 99; 114; 117; 115; 104; 101; 115; 32; 97; 108; 108; 32; 98; 108; 117; 101; 32; 109; 105; 110; 101; 114; 97; 108; 32; 110; 111; 100; 101; 115; 46; 21; 0; 77; 97; 112; 73; 110; 102; 111; 47; 80; 108; 97; 121; 101; 114; 48; 48; 47; 78; 97; 109; 101; 83; 85; 110; 101; 7; 0; 78; 101; 117; 116; 114; 97; 108; 21; 0; 77; 97; 112; 73; 110; 102; 111; 47; 80; 108; 97; 121; 101; 114; 48; 50; 47; 78; 97; 109; 101; 83; 85; 110; 101; 8; 0; 80; 108; 97; 121; 101; 114; 32; 50; 17; 0; 68; 111; 99; 73; 110; 102; 111; 47; 68; 101; 115; 99; 83; 104; 111; 114; 116; 83; 85; 110; 101; 1; 0; 50; 21; 0; 77; 97; 112; 73; 110; 102; 111; 47; 80; 108; 97; 121; 101; 114; 48; 49; 47; 78; 97; 109; 101; 83; 85; 110; 101; 8; 0; 80; 108; 97; 121; 101; 114; 32; 49; 0].
(** /repo/src/versions/mod.rs *)
Definition rt_tracker : list Z := [3; 0; 9; 0; 9; 18; 5; 8; 0; 9; 2; 2; 9; 2; 4; 4; 1; 9; 0; 6; 4; 1; 9; 0; 3; 0; 9; 0; 9; 18; 5; 8; 0; 9; 4; 2; 9; 2; 4; 4; 1; 9; 2; 6; 4; 1; 9; 2; 3; 0; 9; 0; 9; 18; 5; 8; 0; 9; 6; 2; 9; 4; 4; 4; 0; 6; 4; 1; 9; 4].
