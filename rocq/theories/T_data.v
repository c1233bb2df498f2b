(** GENERATED by tools/gen_testdata.py from the unit tests of /repo: byte strings as lists
    of bytes, texts as lists of char. Only data; used by Conformance.v. *)
From Verif Require Import Prelude.

(** tests/data/mod.rs:3-16 *)
Definition T_PAT : list N := [
  71; 64; 0; 16; 0; 0; 176; 37; 0; 1; 195; 0; 0; 0; 0; 224; 16; 0; 1; 228; 7; 0; 2; 228; 8; 0; 3; 228; 9; 0; 4;
  228; 10; 0; 5; 228; 11; 0; 6; 228; 12; 178; 209; 184; 222; 255; 255; 255; 255; 255; 255; 255; 255; 255; 255;
  255; 255; 255; 255; 255; 255; 255; 255; 255; 255; 255; 255; 255; 255; 255; 255; 255; 255; 255; 255; 255; 255;
  255; 255; 255; 255; 255; 255; 255; 255; 255; 255; 255; 255; 255; 255; 255; 255; 255; 255; 255; 255; 255; 255;
  255; 255; 255; 255; 255; 255; 255; 255; 255; 255; 255; 255; 255; 255; 255; 255; 255; 255; 255; 255; 255; 255;
  255; 255; 255; 255; 255; 255; 255; 255; 255; 255; 255; 255; 255; 255; 255; 255; 255; 255; 255; 255; 255; 255;
  255; 255; 255; 255; 255; 255; 255; 255; 255; 255; 255; 255; 255; 255; 255; 255; 255; 255; 255; 255; 255; 255;
  255; 255; 255; 255; 255; 255; 255; 255; 255; 255; 255; 255; 255; 255; 255; 255; 255; 255; 255; 255; 255; 255;
  255].
(** tests/data/mod.rs:18-31 *)
Definition T_PMT : list N := [
  71; 65; 22; 16; 0; 2; 176; 51; 197; 23; 195; 0; 0; 233; 14; 240; 0; 2; 233; 14; 240; 14; 14; 3; 193; 46; 188;
  9; 4; 9; 99; 229; 1; 82; 1; 1; 4; 233; 15; 240; 14; 14; 3; 193; 46; 188; 10; 4; 101; 110; 103; 1; 82; 1; 2;
  6; 27; 56; 106; 255; 255; 255; 255; 255; 255; 255; 255; 255; 255; 255; 255; 255; 255; 255; 255; 255; 255;
  255; 255; 255; 255; 255; 255; 255; 255; 255; 255; 255; 255; 255; 255; 255; 255; 255; 255; 255; 255; 255; 255;
  255; 255; 255; 255; 255; 255; 255; 255; 255; 255; 255; 255; 255; 255; 255; 255; 255; 255; 255; 255; 255; 255;
  255; 255; 255; 255; 255; 255; 255; 255; 255; 255; 255; 255; 255; 255; 255; 255; 255; 255; 255; 255; 255; 255;
  255; 255; 255; 255; 255; 255; 255; 255; 255; 255; 255; 255; 255; 255; 255; 255; 255; 255; 255; 255; 255; 255;
  255; 255; 255; 255; 255; 255; 255; 255; 255; 255; 255; 255; 255; 255; 255; 255; 255; 255; 255; 255; 255; 255;
  255].
(** tests/data/mod.rs:33-46 *)
Definition T_NIT_DVBS : list N := [
  71; 64; 16; 31; 0; 64; 240; 133; 0; 85; 215; 0; 0; 240; 0; 240; 120; 32; 208; 1; 62; 240; 19; 67; 11; 1; 35;
  128; 0; 1; 48; 161; 2; 117; 0; 3; 131; 4; 11; 198; 192; 45; 49; 56; 1; 62; 240; 13; 67; 11; 1; 16; 52; 0; 1;
  48; 161; 2; 117; 0; 3; 2; 188; 1; 62; 240; 13; 67; 11; 1; 19; 23; 0; 1; 48; 161; 2; 117; 0; 3; 34; 196; 1;
  62; 240; 13; 67; 11; 1; 36; 118; 0; 1; 48; 134; 2; 153; 0; 3; 36; 184; 1; 62; 240; 13; 67; 11; 1; 37; 151; 0;
  1; 48; 161; 2; 117; 0; 3; 60; 240; 1; 62; 240; 13; 67; 11; 1; 22; 35; 0; 1; 48; 161; 2; 117; 0; 3; 31; 129;
  67; 37; 255; 255; 255; 255; 255; 255; 255; 255; 255; 255; 255; 255; 255; 255; 255; 255; 255; 255; 255; 255;
  255; 255; 255; 255; 255; 255; 255; 255; 255; 255; 255; 255; 255; 255; 255; 255; 255; 255; 255; 255; 255; 255;
  255; 255; 255; 255; 255].
(** tests/data/mod.rs:48-73 *)
Definition T_SDT : list N := [
  71; 64; 17; 26; 0; 66; 240; 213; 0; 1; 195; 0; 0; 0; 1; 255; 0; 1; 253; 128; 29; 72; 27; 1; 6; 65; 118; 97;
  108; 112; 97; 18; 65; 118; 97; 108; 112; 97; 49; 58; 32; 77; 80; 69; 71; 50; 32; 77; 72; 80; 0; 2; 253; 128;
  31; 72; 29; 1; 6; 65; 118; 97; 108; 112; 97; 20; 65; 118; 97; 108; 112; 97; 50; 58; 32; 77; 80; 69; 71; 50;
  32; 77; 72; 69; 71; 53; 0; 3; 253; 128; 31; 72; 29; 1; 6; 65; 118; 97; 108; 112; 97; 20; 65; 118; 97; 108;
  112; 97; 51; 58; 32; 77; 80; 69; 71; 50; 32; 72; 66; 66; 84; 86; 0; 4; 253; 128; 29; 72; 27; 1; 6; 65; 118;
  97; 108; 112; 97; 18; 65; 118; 97; 108; 112; 97; 52; 58; 32; 77; 80; 69; 71; 50; 32; 84; 88; 84; 0; 5; 253;
  128; 24; 72; 22; 22; 6; 65; 118; 97; 108; 112; 97; 13; 65; 118; 97; 108; 112; 97; 53; 58; 32; 72; 50; 54; 52;
  0; 6; 253; 71; 0; 17; 27; 128; 27; 72; 25; 25; 6; 65; 118; 97; 108; 112; 97; 16; 65; 118; 97; 108; 112; 97;
  54; 58; 32; 72; 68; 32; 72; 50; 54; 52; 81; 65; 228; 117; 255; 255; 255; 255; 255; 255; 255; 255; 255; 255;
  255; 255; 255; 255; 255; 255; 255; 255; 255; 255; 255; 255; 255; 255; 255; 255; 255; 255; 255; 255; 255; 255;
  255; 255; 255; 255; 255; 255; 255; 255; 255; 255; 255; 255; 255; 255; 255; 255; 255; 255; 255; 255; 255; 255;
  255; 255; 255; 255; 255; 255; 255; 255; 255; 255; 255; 255; 255; 255; 255; 255; 255; 255; 255; 255; 255; 255;
  255; 255; 255; 255; 255; 255; 255; 255; 255; 255; 255; 255; 255; 255; 255; 255; 255; 255; 255; 255; 255; 255;
  255; 255; 255; 255; 255; 255; 255; 255; 255; 255; 255; 255; 255; 255; 255; 255; 255; 255; 255; 255; 255; 255;
  255; 255; 255; 255; 255; 255; 255; 255; 255; 255; 255; 255; 255; 255; 255; 255; 255; 255; 255; 255; 255; 255;
  255; 255; 255; 255; 255; 255; 255; 255; 255].
(** tests/data/mod.rs:75-88 *)
Definition T_EIT_4E : list N := [
  71; 64; 18; 16; 0; 78; 240; 167; 0; 6; 195; 0; 0; 0; 1; 0; 1; 0; 78; 0; 1; 217; 40; 0; 0; 0; 32; 0; 0; 128;
  140; 77; 138; 105; 116; 97; 16; 72; 50; 54; 52; 32; 72; 68; 32; 49; 48; 56; 48; 32; 50; 52; 112; 117; 101;
  108; 101; 109; 101; 110; 116; 97; 114; 121; 32; 118; 105; 100; 101; 111; 32; 98; 105; 116; 32; 114; 97; 116;
  101; 32; 105; 115; 32; 55; 46; 50; 77; 98; 112; 115; 44; 32; 97; 117; 100; 105; 111; 32; 97; 99; 51; 32; 53;
  46; 49; 44; 32; 110; 111; 116; 101; 58; 32; 50; 52; 112; 32; 105; 115; 32; 110; 111; 116; 32; 99; 117; 114;
  114; 101; 110; 116; 108; 121; 47; 111; 102; 102; 105; 99; 105; 97; 108; 108; 121; 32; 115; 117; 112; 112;
  111; 114; 116; 101; 100; 32; 98; 121; 32; 68; 86; 66; 32; 115; 116; 97; 110; 100; 97; 114; 100; 115; 48; 130;
  219; 6; 255; 255; 255; 255; 255; 255; 255; 255; 255; 255; 255; 255; 255].
(** tests/data/mod.rs:90-219 *)
Definition T_EIT_50 : list N := [
  71; 64; 18; 20; 0; 80; 240; 15; 28; 207; 235; 0; 56; 28; 232; 0; 1; 0; 80; 227; 56; 178; 184; 255; 255; 255;
  255; 255; 255; 255; 255; 255; 255; 255; 255; 255; 255; 255; 255; 255; 255; 255; 255; 255; 255; 255; 255; 255;
  255; 255; 255; 255; 255; 255; 255; 255; 255; 255; 255; 255; 255; 255; 255; 255; 255; 255; 255; 255; 255; 255;
  255; 255; 255; 255; 255; 255; 255; 255; 255; 255; 255; 255; 255; 255; 255; 255; 255; 255; 255; 255; 255; 255;
  255; 255; 255; 255; 255; 255; 255; 255; 255; 255; 255; 255; 255; 255; 255; 255; 255; 255; 255; 255; 255; 255;
  255; 255; 255; 255; 255; 255; 255; 255; 255; 255; 255; 255; 255; 255; 255; 255; 255; 255; 255; 255; 255; 255;
  255; 255; 255; 255; 255; 255; 255; 255; 255; 255; 255; 255; 255; 255; 255; 255; 255; 255; 255; 255; 255; 255;
  255; 255; 255; 255; 255; 255; 255; 255; 255; 255; 255; 255; 255; 255; 255; 255; 255; 255; 255; 255; 255; 255;
  255; 255; 255; 255; 255; 255; 255; 255; 71; 64; 18; 21; 0; 80; 240; 15; 28; 207; 235; 8; 56; 28; 232; 0; 1;
  8; 80; 189; 252; 44; 212; 255; 255; 255; 255; 255; 255; 255; 255; 255; 255; 255; 255; 255; 255; 255; 255;
  255; 255; 255; 255; 255; 255; 255; 255; 255; 255; 255; 255; 255; 255; 255; 255; 255; 255; 255; 255; 255; 255;
  255; 255; 255; 255; 255; 255; 255; 255; 255; 255; 255; 255; 255; 255; 255; 255; 255; 255; 255; 255; 255; 255;
  255; 255; 255; 255; 255; 255; 255; 255; 255; 255; 255; 255; 255; 255; 255; 255; 255; 255; 255; 255; 255; 255;
  255; 255; 255; 255; 255; 255; 255; 255; 255; 255; 255; 255; 255; 255; 255; 255; 255; 255; 255; 255; 255; 255;
  255; 255; 255; 255; 255; 255; 255; 255; 255; 255; 255; 255; 255; 255; 255; 255; 255; 255; 255; 255; 255; 255;
  255; 255; 255; 255; 255; 255; 255; 255; 255; 255; 255; 255; 255; 255; 255; 255; 255; 255; 255; 255; 255; 255;
  255; 255; 255; 255; 255; 255; 255; 255; 255; 255; 255; 255; 255; 255; 255; 255; 255; 71; 64; 18; 22; 0; 80;
  240; 15; 28; 207; 235; 16; 56; 28; 232; 0; 1; 16; 80; 94; 177; 142; 96; 255; 255; 255; 255; 255; 255; 255;
  255; 255; 255; 255; 255; 255; 255; 255; 255; 255; 255; 255; 255; 255; 255; 255; 255; 255; 255; 255; 255; 255;
  255; 255; 255; 255; 255; 255; 255; 255; 255; 255; 255; 255; 255; 255; 255; 255; 255; 255; 255; 255; 255; 255;
  255; 255; 255; 255; 255; 255; 255; 255; 255; 255; 255; 255; 255; 255; 255; 255; 255; 255; 255; 255; 255; 255;
  255; 255; 255; 255; 255; 255; 255; 255; 255; 255; 255; 255; 255; 255; 255; 255; 255; 255; 255; 255; 255; 255;
  255; 255; 255; 255; 255; 255; 255; 255; 255; 255; 255; 255; 255; 255; 255; 255; 255; 255; 255; 255; 255; 255;
  255; 255; 255; 255; 255; 255; 255; 255; 255; 255; 255; 255; 255; 255; 255; 255; 255; 255; 255; 255; 255; 255;
  255; 255; 255; 255; 255; 255; 255; 255; 255; 255; 255; 255; 255; 255; 255; 255; 255; 255; 255; 255; 255; 255;
  255; 255; 255; 255; 71; 64; 18; 23; 0; 80; 240; 15; 28; 207; 235; 24; 56; 28; 232; 0; 1; 24; 80; 0; 117; 16;
  12; 255; 255; 255; 255; 255; 255; 255; 255; 255; 255; 255; 255; 255; 255; 255; 255; 255; 255; 255; 255; 255;
  255; 255; 255; 255; 255; 255; 255; 255; 255; 255; 255; 255; 255; 255; 255; 255; 255; 255; 255; 255; 255; 255;
  255; 255; 255; 255; 255; 255; 255; 255; 255; 255; 255; 255; 255; 255; 255; 255; 255; 255; 255; 255; 255; 255;
  255; 255; 255; 255; 255; 255; 255; 255; 255; 255; 255; 255; 255; 255; 255; 255; 255; 255; 255; 255; 255; 255;
  255; 255; 255; 255; 255; 255; 255; 255; 255; 255; 255; 255; 255; 255; 255; 255; 255; 255; 255; 255; 255; 255;
  255; 255; 255; 255; 255; 255; 255; 255; 255; 255; 255; 255; 255; 255; 255; 255; 255; 255; 255; 255; 255; 255;
  255; 255; 255; 255; 255; 255; 255; 255; 255; 255; 255; 255; 255; 255; 255; 255; 255; 255; 255; 255; 255; 255;
  255; 255; 255; 255; 255; 255; 255; 255; 255; 255; 255; 255; 71; 64; 18; 24; 0; 80; 240; 15; 28; 207; 235; 32;
  56; 28; 232; 0; 1; 32; 80; 156; 235; 214; 191; 255; 255; 255; 255; 255; 255; 255; 255; 255; 255; 255; 255;
  255; 255; 255; 255; 255; 255; 255; 255; 255; 255; 255; 255; 255; 255; 255; 255; 255; 255; 255; 255; 255; 255;
  255; 255; 255; 255; 255; 255; 255; 255; 255; 255; 255; 255; 255; 255; 255; 255; 255; 255; 255; 255; 255; 255;
  255; 255; 255; 255; 255; 255; 255; 255; 255; 255; 255; 255; 255; 255; 255; 255; 255; 255; 255; 255; 255; 255;
  255; 255; 255; 255; 255; 255; 255; 255; 255; 255; 255; 255; 255; 255; 255; 255; 255; 255; 255; 255; 255; 255;
  255; 255; 255; 255; 255; 255; 255; 255; 255; 255; 255; 255; 255; 255; 255; 255; 255; 255; 255; 255; 255; 255;
  255; 255; 255; 255; 255; 255; 255; 255; 255; 255; 255; 255; 255; 255; 255; 255; 255; 255; 255; 255; 255; 255;
  255; 255; 255; 255; 255; 255; 255; 255; 255; 255; 255; 255; 255; 255; 255; 255; 255; 255; 255; 255; 255; 71;
  64; 18; 25; 0; 80; 240; 15; 28; 207; 235; 40; 56; 28; 232; 0; 1; 40; 80; 194; 47; 72; 211; 255; 255; 255;
  255; 255; 255; 255; 255; 255; 255; 255; 255; 255; 255; 255; 255; 255; 255; 255; 255; 255; 255; 255; 255; 255;
  255; 255; 255; 255; 255; 255; 255; 255; 255; 255; 255; 255; 255; 255; 255; 255; 255; 255; 255; 255; 255; 255;
  255; 255; 255; 255; 255; 255; 255; 255; 255; 255; 255; 255; 255; 255; 255; 255; 255; 255; 255; 255; 255; 255;
  255; 255; 255; 255; 255; 255; 255; 255; 255; 255; 255; 255; 255; 255; 255; 255; 255; 255; 255; 255; 255; 255;
  255; 255; 255; 255; 255; 255; 255; 255; 255; 255; 255; 255; 255; 255; 255; 255; 255; 255; 255; 255; 255; 255;
  255; 255; 255; 255; 255; 255; 255; 255; 255; 255; 255; 255; 255; 255; 255; 255; 255; 255; 255; 255; 255; 255;
  255; 255; 255; 255; 255; 255; 255; 255; 255; 255; 255; 255; 255; 255; 255; 255; 255; 255; 255; 255; 255; 255;
  255; 255; 255; 255; 255; 255; 255; 255; 71; 64; 18; 26; 0; 80; 240; 15; 28; 207; 235; 48; 56; 28; 232; 0; 1;
  48; 80; 33; 98; 234; 103; 255; 255; 255; 255; 255; 255; 255; 255; 255; 255; 255; 255; 255; 255; 255; 255;
  255; 255; 255; 255; 255; 255; 255; 255; 255; 255; 255; 255; 255; 255; 255; 255; 255; 255; 255; 255; 255; 255;
  255; 255; 255; 255; 255; 255; 255; 255; 255; 255; 255; 255; 255; 255; 255; 255; 255; 255; 255; 255; 255; 255;
  255; 255; 255; 255; 255; 255; 255; 255; 255; 255; 255; 255; 255; 255; 255; 255; 255; 255; 255; 255; 255; 255;
  255; 255; 255; 255; 255; 255; 255; 255; 255; 255; 255; 255; 255; 255; 255; 255; 255; 255; 255; 255; 255; 255;
  255; 255; 255; 255; 255; 255; 255; 255; 255; 255; 255; 255; 255; 255; 255; 255; 255; 255; 255; 255; 255; 255;
  255; 255; 255; 255; 255; 255; 255; 255; 255; 255; 255; 255; 255; 255; 255; 255; 255; 255; 255; 255; 255; 255;
  255; 255; 255; 255; 255; 255; 255; 255; 255; 255; 255; 255; 255; 255; 255; 255; 255; 71; 64; 18; 27; 0; 80;
  242; 33; 28; 207; 235; 56; 56; 28; 232; 0; 1; 56; 80; 124; 204; 227; 231; 24; 16; 0; 0; 48; 0; 18; 6; 77; 44;
  112; 111; 108; 39; 16; 0; 2; 79; 115; 116; 97; 116; 110; 105; 32; 112; 114; 97; 119; 100; 122; 105; 119; 121;
  32; 109; 234; 191; 99; 122; 121; 122; 110; 97; 32; 52; 58; 32; 111; 100; 99; 46; 53; 0; 78; 254; 1; 112; 111;
  108; 0; 248; 16; 0; 2; 115; 101; 114; 105; 97; 108; 32; 107; 111; 109; 101; 100; 105; 111; 119; 121; 32; 40;
  85; 83; 65; 44; 32; 50; 48; 49; 52; 41; 32; 111; 100; 99; 46; 53; 44; 32; 83; 122; 107; 111; 108; 110; 97;
  32; 102; 117; 122; 106; 97; 63; 87; 121; 115; 116; 234; 112; 117; 106; 177; 58; 32; 84; 105; 109; 32; 65;
  108; 108; 101; 110; 44; 32; 78; 97; 110; 99; 121; 32; 84; 114; 97; 118; 105; 115; 44; 32; 77; 111; 108; 108;
  121; 32; 69; 112; 104; 114; 97; 105; 109; 63; 71; 0; 18; 28; 77; 105; 107; 101; 32; 105; 32; 67; 104; 117;
  99; 107; 32; 100; 101; 98; 97; 116; 117; 106; 177; 32; 110; 97; 32; 116; 101; 109; 97; 116; 32; 122; 97; 108;
  101; 116; 32; 108; 111; 107; 97; 108; 110; 101; 103; 111; 32; 114; 101; 102; 101; 114; 101; 110; 100; 117;
  109; 32; 111; 32; 112; 111; 179; 177; 99; 122; 101; 110; 105; 117; 32; 105; 99; 104; 32; 101; 107; 115; 107;
  108; 117; 122; 121; 119; 110; 101; 106; 32; 115; 122; 107; 111; 179; 121; 32; 182; 114; 101; 100; 110; 105;
  101; 106; 32; 122; 32; 115; 177; 115; 105; 101; 100; 122; 116; 119; 97; 32; 122; 32; 112; 108; 97; 99; 243;
  119; 107; 177; 32; 122; 101; 32; 182; 114; 243; 100; 109; 105; 101; 182; 99; 105; 97; 46; 32; 90; 78; 208;
  17; 112; 111; 108; 0; 202; 16; 0; 2; 32; 111; 107; 97; 122; 106; 105; 32; 72; 97; 108; 108; 111; 119; 101;
  101; 110; 44; 32; 82; 121; 97; 110; 32; 112; 114; 122; 101; 71; 0; 18; 29; 98; 105; 101; 114; 97; 32; 66;
  111; 121; 100; 97; 32; 122; 97; 32; 98; 114; 121; 179; 234; 32; 119; 234; 103; 108; 97; 46; 32; 77; 97; 32;
  116; 111; 32; 98; 121; 230; 32; 107; 111; 108; 101; 106; 110; 121; 109; 32; 112; 114; 122; 121; 112; 111;
  109; 110; 105; 101; 110; 105; 101; 109; 32; 100; 108; 97; 32; 86; 97; 110; 101; 115; 115; 121; 44; 32; 191;
  101; 32; 106; 101; 106; 32; 112; 114; 97; 99; 97; 32; 106; 97; 107; 111; 32; 103; 101; 111; 108; 111; 103;
  97; 32; 109; 111; 191; 101; 32; 115; 122; 107; 111; 100; 122; 105; 230; 32; 182; 114; 111; 100; 111; 119;
  105; 115; 107; 117; 32; 110; 97; 116; 117; 114; 97; 108; 110; 101; 109; 117; 46; 63; 82; 101; 191; 121; 115;
  101; 114; 58; 32; 74; 111; 104; 110; 32; 80; 97; 115; 113; 117; 105; 110; 63; 79; 100; 32; 108; 97; 116; 58;
  32; 49; 50; 85; 4; 80; 76; 32; 9; 248; 50; 19; 17; 255; 255; 255].
(** tests/data/mod.rs:221-234 *)
Definition T_TDT : list N := [
  71; 64; 20; 19; 0; 112; 112; 5; 228; 124; 24; 16; 18; 255; 255; 255; 255; 255; 255; 255; 255; 255; 255; 255;
  255; 255; 255; 255; 255; 255; 255; 255; 255; 255; 255; 255; 255; 255; 255; 255; 255; 255; 255; 255; 255; 255;
  255; 255; 255; 255; 255; 255; 255; 255; 255; 255; 255; 255; 255; 255; 255; 255; 255; 255; 255; 255; 255; 255;
  255; 255; 255; 255; 255; 255; 255; 255; 255; 255; 255; 255; 255; 255; 255; 255; 255; 255; 255; 255; 255; 255;
  255; 255; 255; 255; 255; 255; 255; 255; 255; 255; 255; 255; 255; 255; 255; 255; 255; 255; 255; 255; 255; 255;
  255; 255; 255; 255; 255; 255; 255; 255; 255; 255; 255; 255; 255; 255; 255; 255; 255; 255; 255; 255; 255; 255;
  255; 255; 255; 255; 255; 255; 255; 255; 255; 255; 255; 255; 255; 255; 255; 255; 255; 255; 255; 255; 255; 255;
  255; 255; 255; 255; 255; 255; 255; 255; 255; 255; 255; 255; 255; 255; 255; 255; 255; 255; 255; 255; 255; 255;
  255; 255; 255; 255; 255; 255; 255; 255; 255; 255].
(** tests/data/mod.rs:236-249 *)
Definition T_TOT : list N := [
  71; 64; 20; 20; 0; 115; 112; 23; 228; 124; 24; 16; 18; 240; 12; 154; 10; 228; 184; 2; 0; 0; 229; 166; 2; 0;
  0; 158; 185; 192; 190; 255; 255; 255; 255; 255; 255; 255; 255; 255; 255; 255; 255; 255; 255; 255; 255; 255;
  255; 255; 255; 255; 255; 255; 255; 255; 255; 255; 255; 255; 255; 255; 255; 255; 255; 255; 255; 255; 255; 255;
  255; 255; 255; 255; 255; 255; 255; 255; 255; 255; 255; 255; 255; 255; 255; 255; 255; 255; 255; 255; 255; 255;
  255; 255; 255; 255; 255; 255; 255; 255; 255; 255; 255; 255; 255; 255; 255; 255; 255; 255; 255; 255; 255; 255;
  255; 255; 255; 255; 255; 255; 255; 255; 255; 255; 255; 255; 255; 255; 255; 255; 255; 255; 255; 255; 255; 255;
  255; 255; 255; 255; 255; 255; 255; 255; 255; 255; 255; 255; 255; 255; 255; 255; 255; 255; 255; 255; 255; 255;
  255; 255; 255; 255; 255; 255; 255; 255; 255; 255; 255; 255; 255; 255; 255; 255; 255; 255; 255; 255; 255; 255;
  255; 255; 255; 255; 255; 255; 255; 255].
(** tests/psi.rs:22-47 *)
Definition T_TWO_PSI : list N := [
  71; 64; 20; 30; 3; 255; 255; 255; 112; 112; 180; 227; 197; 34; 22; 0; 255; 255; 255; 255; 255; 255; 255; 255;
  255; 255; 255; 255; 255; 255; 255; 255; 255; 255; 255; 255; 255; 255; 255; 255; 255; 255; 255; 255; 255; 255;
  255; 255; 255; 255; 255; 255; 255; 255; 255; 255; 255; 255; 255; 255; 255; 255; 255; 255; 255; 255; 255; 255;
  255; 255; 255; 255; 255; 255; 255; 255; 255; 255; 255; 255; 255; 255; 255; 255; 255; 255; 255; 255; 255; 255;
  255; 255; 255; 255; 255; 255; 255; 255; 255; 255; 255; 255; 255; 255; 255; 255; 255; 255; 255; 255; 255; 255;
  255; 255; 255; 255; 255; 255; 255; 255; 255; 255; 255; 255; 255; 255; 255; 255; 255; 255; 255; 255; 255; 255;
  255; 255; 255; 255; 255; 255; 255; 255; 255; 255; 255; 255; 255; 255; 255; 255; 255; 255; 255; 255; 255; 255;
  255; 255; 255; 255; 255; 255; 255; 255; 255; 255; 255; 255; 255; 255; 255; 255; 255; 255; 255; 255; 255; 255;
  255; 255; 255; 255; 255; 255; 255; 255; 255; 24; 71; 64; 20; 31; 3; 177; 22; 91; 112; 112; 9; 227; 197; 34;
  22; 0; 148; 152; 74; 56; 255; 255; 255; 255; 255; 255; 255; 255; 255; 255; 255; 255; 255; 255; 255; 255; 255;
  255; 255; 255; 255; 255; 255; 255; 255; 255; 255; 255; 255; 255; 255; 255; 255; 255; 255; 255; 255; 255; 255;
  255; 255; 255; 255; 255; 255; 255; 255; 255; 255; 255; 255; 255; 255; 255; 255; 255; 255; 255; 255; 255; 255;
  255; 255; 255; 255; 255; 255; 255; 255; 255; 255; 255; 255; 255; 255; 255; 255; 255; 255; 255; 255; 255; 255;
  255; 255; 255; 255; 255; 255; 255; 255; 255; 255; 255; 255; 255; 255; 255; 255; 255; 255; 255; 255; 255; 255;
  255; 255; 255; 255; 255; 255; 255; 255; 255; 255; 255; 255; 255; 255; 255; 255; 255; 255; 255; 255; 255; 255;
  255; 255; 255; 255; 255; 255; 255; 255; 255; 255; 255; 255; 255; 255; 255; 255; 255; 255; 255; 255; 255; 255;
  255; 255; 255; 255; 255; 255; 255; 255; 255; 255; 255; 255; 255; 255; 255; 255; 255; 255; 255].
(** tests/psi.rs:63-88 *)
Definition T_SMALL_HEADER_PSI : list N := [
  71; 64; 20; 30; 181; 255; 255; 255; 255; 255; 255; 255; 255; 255; 255; 255; 255; 255; 255; 255; 255; 255;
  255; 255; 255; 255; 255; 255; 255; 255; 255; 255; 255; 255; 255; 255; 255; 255; 255; 255; 255; 255; 255; 255;
  255; 255; 255; 255; 255; 255; 255; 255; 255; 255; 255; 255; 255; 255; 255; 255; 255; 255; 255; 255; 255; 255;
  255; 255; 255; 255; 255; 255; 255; 255; 255; 255; 255; 255; 255; 255; 255; 255; 255; 255; 255; 255; 255; 255;
  255; 255; 255; 255; 255; 255; 255; 255; 255; 255; 255; 255; 255; 255; 255; 255; 255; 255; 255; 255; 255; 255;
  255; 255; 255; 255; 255; 255; 255; 255; 255; 255; 255; 255; 255; 255; 255; 255; 255; 255; 255; 255; 255; 255;
  255; 255; 255; 255; 255; 255; 255; 255; 255; 255; 255; 255; 255; 255; 255; 255; 255; 255; 255; 255; 255; 255;
  255; 255; 255; 255; 255; 255; 255; 255; 255; 255; 255; 255; 255; 255; 255; 255; 255; 255; 255; 255; 255; 255;
  255; 255; 255; 255; 255; 255; 255; 255; 255; 255; 0; 176; 71; 0; 20; 31; 37; 0; 1; 195; 0; 0; 0; 0; 224; 16;
  0; 1; 228; 7; 0; 2; 228; 8; 0; 3; 228; 9; 0; 4; 228; 10; 0; 5; 228; 11; 0; 6; 228; 12; 178; 209; 184; 222;
  255; 255; 255; 255; 255; 255; 255; 255; 255; 255; 255; 255; 255; 255; 255; 255; 255; 255; 255; 255; 255; 255;
  255; 255; 255; 255; 255; 255; 255; 255; 255; 255; 255; 255; 255; 255; 255; 255; 255; 255; 255; 255; 255; 255;
  255; 255; 255; 255; 255; 255; 255; 255; 255; 255; 255; 255; 255; 255; 255; 255; 255; 255; 255; 255; 255; 255;
  255; 255; 255; 255; 255; 255; 255; 255; 255; 255; 255; 255; 255; 255; 255; 255; 255; 255; 255; 255; 255; 255;
  255; 255; 255; 255; 255; 255; 255; 255; 255; 255; 255; 255; 255; 255; 255; 255; 255; 255; 255; 255; 255; 255;
  255; 255; 255; 255; 255; 255; 255; 255; 255; 255; 255; 255; 255; 255; 255; 255; 255; 255; 255; 255; 255; 255;
  255; 255; 255; 255; 255; 255; 255; 255; 255; 255; 255; 255; 255; 255].
(** tests/pes.rs:4-8 *)
Definition T_PES_DATA : list N := [
  0; 0; 1; 224; 66; 218; 128; 192; 10; 49; 0; 13; 223; 137; 17; 0; 13; 200; 19].
(** src/psi/descriptors/x09.rs:77-77 *)
Definition T_DATA_09 : list N := [
  9; 4; 9; 99; 229; 1].
(** src/psi/descriptors/x0a.rs:92-92 *)
Definition T_DATA_0A : list N := [
  10; 4; 101; 110; 103; 1].
(** src/psi/descriptors/x0e.rs:70-70 *)
Definition T_DATA_0E : list N := [
  14; 3; 193; 46; 188].
(** src/psi/descriptors/x40.rs:66-66 *)
Definition T_DATA_40 : list N := [
  64; 6; 1; 67; 101; 115; 98; 111].
(** src/psi/descriptors/x41.rs:93-93 *)
Definition T_DATA_41 : list N := [
  65; 6; 33; 133; 1; 33; 134; 1].
(** src/psi/descriptors/x43.rs:109-109 *)
Definition T_DATA_43 : list N := [
  67; 11; 1; 35; 128; 0; 1; 48; 161; 2; 117; 0; 3].
(** src/psi/descriptors/x44.rs:92-93 *)
Definition T_DATA_44 : list N := [
  68; 11; 3; 70; 0; 0; 255; 240; 5; 0; 104; 117; 0].
(** src/psi/descriptors/x4d.rs:89-91 *)
Definition T_DATA_4D : list N := [
  77; 24; 114; 117; 115; 19; 1; 193; 226; 224; 222; 217; 218; 208; 32; 221; 208; 32; 176; 219; 239; 225; 218;
  213; 46; 0].
(** src/psi/descriptors/x4e.rs:134-137 *)
Definition T_DATA_4E : list N := [
  78; 32; 0; 114; 117; 115; 0; 26; 1; 183; 216; 220; 208; 32; 209; 235; 225; 226; 224; 222; 32; 223; 224; 216;
  209; 219; 216; 214; 208; 213; 226; 225; 239; 46].
(** src/psi/descriptors/x52.rs:66-66 *)
Definition T_DATA_52 : list N := [
  82; 1; 2].
(** src/psi/descriptors/x58.rs:120-123 *)
Definition T_DATA_58 : list N := [
  88; 26; 71; 66; 82; 2; 0; 0; 218; 203; 0; 89; 89; 1; 0; 73; 82; 76; 2; 0; 0; 218; 203; 0; 89; 89; 1; 0].
(** src/psi/descriptors/x5a.rs:131-132 *)
Definition T_DATA_5A : list N := [
  90; 11; 2; 250; 240; 128; 31; 129; 26; 255; 255; 255; 255].
(** src/psi/descriptors/x83.rs:100-100 *)
Definition T_DATA_83 : list N := [
  131; 8; 33; 133; 252; 25; 33; 134; 252; 43].
(** src/textcode/tests.rs:6 *)
Definition txt_hello : list N := [
  72; 101; 108; 108; 111].
(** src/textcode/tests.rs:21 *)
Definition txt_hello_x : list N := [
  72; 101; 108; 108; 111; 33].
(** src/textcode/tests.rs:65 *)
Definition txt_hello_w : list N := [
  72; 101; 108; 108; 111; 44; 32; 119; 111; 114; 108; 100; 33; 33; 33].
(** src/textcode/tests.rs:67 *)
Definition txt_hello_d : list N := [
  72; 101; 108; 108; 111; 46; 46; 46].
(** src/textcode/tests.rs:10 *)
Definition txt_privet : list N := [
  1055; 1088; 1080; 1074; 1077; 1090].
(** src/textcode/tests.rs:30 *)
Definition txt_privet_x : list N := [
  1055; 1088; 1080; 1074; 1077; 1090; 33].
(** src/psi/descriptors/x40.rs:74 *)
Definition txt_cesbo : list N := [
  67; 101; 115; 98; 111].
(** src/psi/descriptors/x4e.rs:148 *)
Definition txt_rus : list N := [
  114; 117; 115].
(** src/psi/descriptors/x4e.rs:149 *)
Definition txt_zima : list N := [
  1047; 1080; 1084; 1072; 32; 1073; 1099; 1089; 1090; 1088; 1086; 32; 1087; 1088; 1080; 1073; 1083; 1080; 1078;
  1072; 1077; 1090; 1089; 1103; 46].
(** src/psi/descriptors/x4d.rs:101 *)
Definition txt_strojka : list N := [
  1057; 1090; 1088; 1086; 1081; 1082; 1072; 32; 1085; 1072; 32; 1040; 1083; 1103; 1089; 1082; 1077; 46].
(** src/psi/descriptors/x0a.rs:101 *)
Definition txt_eng : list N := [
  101; 110; 103].
(** src/psi/descriptors/x58.rs:134 *)
Definition txt_gbr : list N := [
  71; 66; 82].
(** src/psi/descriptors/x58.rs:142 *)
Definition txt_irl : list N := [
  73; 82; 76].
(** tests/eit.rs:6 *)
Definition txt_ita : list N := [
  105; 116; 97].
(** tests/eit.rs:7 *)
Definition txt_4e_name : list N := [
  72; 50; 54; 52; 32; 72; 68; 32; 49; 48; 56; 48; 32; 50; 52; 112].
(** tests/eit.rs:8 *)
Definition txt_4e_text : list N := [
  101; 108; 101; 109; 101; 110; 116; 97; 114; 121; 32; 118; 105; 100; 101; 111; 32; 98; 105; 116; 32; 114; 97;
  116; 101; 32; 105; 115; 32; 55; 46; 50; 77; 98; 112; 115; 44; 32; 97; 117; 100; 105; 111; 32; 97; 99; 51; 32;
  53; 46; 49; 44; 32; 110; 111; 116; 101; 58; 32; 50; 52; 112; 32; 105; 115; 32; 110; 111; 116; 32; 99; 117;
  114; 114; 101; 110; 116; 108; 121; 47; 111; 102; 102; 105; 99; 105; 97; 108; 108; 121; 32; 115; 117; 112;
  112; 111; 114; 116; 101; 100; 32; 98; 121; 32; 68; 86; 66; 32; 115; 116; 97; 110; 100; 97; 114; 100; 115].
(** tests/eit.rs:115 *)
Definition txt_pol : list N := [
  112; 111; 108].
(** tests/eit.rs:116 *)
Definition txt_50_name : list N := [
  79; 115; 116; 97; 116; 110; 105; 32; 112; 114; 97; 119; 100; 122; 105; 119; 121; 32; 109; 281; 380; 99; 122;
  121; 122; 110; 97; 32; 52; 58; 32; 111; 100; 99; 46; 53].
(** tests/eit.rs:125 *)
Definition txt_50_text1 : list N := [
  115; 101; 114; 105; 97; 108; 32; 107; 111; 109; 101; 100; 105; 111; 119; 121; 32; 40; 85; 83; 65; 44; 32; 50;
  48; 49; 52; 41; 32; 111; 100; 99; 46; 53; 44; 32; 83; 122; 107; 111; 108; 110; 97; 32; 102; 117; 122; 106;
  97; 63; 87; 121; 115; 116; 281; 112; 117; 106; 261; 58; 32; 84; 105; 109; 32; 65; 108; 108; 101; 110; 44; 32;
  78; 97; 110; 99; 121; 32; 84; 114; 97; 118; 105; 115; 44; 32; 77; 111; 108; 108; 121; 32; 69; 112; 104; 114;
  97; 105; 109; 63; 77; 105; 107; 101; 32; 105; 32; 67; 104; 117; 99; 107; 32; 100; 101; 98; 97; 116; 117; 106;
  261; 32; 110; 97; 32; 116; 101; 109; 97; 116; 32; 122; 97; 108; 101; 116; 32; 108; 111; 107; 97; 108; 110;
  101; 103; 111; 32; 114; 101; 102; 101; 114; 101; 110; 100; 117; 109; 32; 111; 32; 112; 111; 322; 261; 99;
  122; 101; 110; 105; 117; 32; 105; 99; 104; 32; 101; 107; 115; 107; 108; 117; 122; 121; 119; 110; 101; 106;
  32; 115; 122; 107; 111; 322; 121; 32; 347; 114; 101; 100; 110; 105; 101; 106; 32; 122; 32; 115; 261; 115;
  105; 101; 100; 122; 116; 119; 97; 32; 122; 32; 112; 108; 97; 99; 243; 119; 107; 261; 32; 122; 101; 32; 347;
  114; 243; 100; 109; 105; 101; 347; 99; 105; 97; 46; 32; 90].
(** tests/eit.rs:133 *)
Definition txt_50_text2 : list N := [
  32; 111; 107; 97; 122; 106; 105; 32; 72; 97; 108; 108; 111; 119; 101; 101; 110; 44; 32; 82; 121; 97; 110; 32;
  112; 114; 122; 101; 98; 105; 101; 114; 97; 32; 66; 111; 121; 100; 97; 32; 122; 97; 32; 98; 114; 121; 322;
  281; 32; 119; 281; 103; 108; 97; 46; 32; 77; 97; 32; 116; 111; 32; 98; 121; 263; 32; 107; 111; 108; 101; 106;
  110; 121; 109; 32; 112; 114; 122; 121; 112; 111; 109; 110; 105; 101; 110; 105; 101; 109; 32; 100; 108; 97;
  32; 86; 97; 110; 101; 115; 115; 121; 44; 32; 380; 101; 32; 106; 101; 106; 32; 112; 114; 97; 99; 97; 32; 106;
  97; 107; 111; 32; 103; 101; 111; 108; 111; 103; 97; 32; 109; 111; 380; 101; 32; 115; 122; 107; 111; 100; 122;
  105; 263; 32; 347; 114; 111; 100; 111; 119; 105; 115; 107; 117; 32; 110; 97; 116; 117; 114; 97; 108; 110;
  101; 109; 117; 46; 63; 82; 101; 380; 121; 115; 101; 114; 58; 32; 74; 111; 104; 110; 32; 80; 97; 115; 113;
  117; 105; 110; 63; 79; 100; 32; 108; 97; 116; 58; 32; 49; 50].
(** tests/sdt.rs:5-13 *)
Definition T_SDT_DATA : list (N * N * list N) := [
  (1, 1, [65; 118; 97; 108; 112; 97; 49; 58; 32; 77; 80; 69; 71; 50; 32; 77; 72; 80]);
  (2, 1, [65; 118; 97; 108; 112; 97; 50; 58; 32; 77; 80; 69; 71; 50; 32; 77; 72; 69; 71; 53]);
  (3, 1, [65; 118; 97; 108; 112; 97; 51; 58; 32; 77; 80; 69; 71; 50; 32; 72; 66; 66; 84; 86]);
  (4, 1, [65; 118; 97; 108; 112; 97; 52; 58; 32; 77; 80; 69; 71; 50; 32; 84; 88; 84]);
  (5, 22, [65; 118; 97; 108; 112; 97; 53; 58; 32; 72; 50; 54; 52]);
  (6, 25, [65; 118; 97; 108; 112; 97; 54; 58; 32; 72; 68; 32; 72; 50; 54; 52])].
(** tests/sdt.rs:40 *)
Definition txt_avalpa : list N := [
  65; 118; 97; 108; 112; 97].
