(* Generated by tools/gen_data.py from /repo/tests/data; used only in Examples. *)
From Coq Require Import NArith List.
Import ListNotations.
Local Open Scope N_scope.

(* tests/data/dmidecode.bin, 2768 bytes *)
Definition dmidecode_bin : list N := [
  95; 83; 77; 95; 240; 31; 2; 7; 138; 0; 0; 0; 0; 0; 0; 0; 95; 68; 77; 73; 95; 34; 176; 10;
  32; 0; 0; 0; 69; 0; 39; 0; 134; 16; 0; 0; 0; 83; 84; 77; 32; 1; 1; 0; 0; 3; 1; 2;
  84; 80; 77; 32; 73; 78; 70; 79; 0; 83; 121; 115; 116; 101; 109; 32; 82; 101; 115; 101; 114; 118; 101; 100;
  0; 0; 4; 42; 1; 0; 4; 3; 205; 2; 169; 6; 3; 0; 255; 251; 235; 191; 1; 137; 100; 0; 40; 10;
  40; 10; 65; 33; 3; 0; 4; 0; 5; 0; 3; 5; 6; 2; 2; 4; 4; 0; 205; 0; 73; 110; 116; 101;
  108; 40; 82; 41; 32; 67; 111; 114; 101; 40; 84; 77; 41; 32; 105; 53; 45; 51; 51; 50; 48; 77; 32; 67;
  80; 85; 32; 64; 32; 50; 46; 54; 48; 71; 72; 122; 0; 73; 110; 116; 101; 108; 40; 82; 41; 32; 67; 111;
  114; 112; 111; 114; 97; 116; 105; 111; 110; 0; 78; 111; 110; 101; 0; 67; 80; 85; 32; 83; 111; 99; 107; 101;
  116; 32; 45; 32; 85; 51; 69; 49; 0; 78; 111; 110; 101; 0; 78; 111; 110; 101; 0; 0; 7; 19; 2; 0;
  1; 128; 0; 32; 0; 32; 0; 2; 0; 2; 0; 0; 4; 4; 7; 76; 49; 45; 67; 97; 99; 104; 101; 0;
  0; 7; 19; 3; 0; 1; 128; 0; 32; 0; 32; 0; 2; 0; 2; 0; 0; 4; 3; 7; 76; 49; 45; 67;
  97; 99; 104; 101; 0; 0; 7; 19; 4; 0; 1; 129; 0; 0; 1; 0; 1; 2; 0; 2; 0; 0; 6; 5;
  7; 76; 50; 45; 67; 97; 99; 104; 101; 0; 0; 7; 19; 5; 0; 1; 130; 1; 0; 12; 0; 12; 2; 0;
  2; 0; 0; 6; 5; 9; 76; 51; 45; 67; 97; 99; 104; 101; 0; 0; 129; 8; 6; 0; 1; 1; 2; 1;
  73; 110; 116; 101; 108; 95; 65; 83; 70; 0; 73; 110; 116; 101; 108; 95; 65; 83; 70; 95; 48; 48; 49; 0;
  0; 16; 23; 7; 0; 3; 3; 3; 0; 0; 0; 1; 254; 255; 2; 0; 0; 0; 0; 0; 0; 0; 0; 0;
  0; 0; 17; 34; 8; 0; 7; 0; 254; 255; 64; 0; 64; 0; 0; 16; 13; 0; 1; 2; 24; 128; 0; 64;
  6; 3; 4; 5; 6; 0; 0; 0; 0; 0; 64; 6; 67; 104; 97; 110; 110; 101; 108; 65; 45; 68; 73; 77;
  77; 48; 0; 66; 65; 78; 75; 32; 48; 0; 72; 121; 110; 105; 120; 47; 72; 121; 117; 110; 100; 97; 105; 0;
  48; 54; 67; 49; 55; 56; 54; 55; 0; 78; 111; 110; 101; 0; 72; 77; 84; 51; 53; 49; 83; 54; 67; 70;
  82; 56; 67; 45; 80; 66; 32; 32; 0; 0; 17; 34; 9; 0; 7; 0; 254; 255; 64; 0; 64; 0; 0; 16;
  13; 0; 1; 2; 24; 128; 0; 64; 6; 3; 4; 5; 6; 0; 0; 0; 0; 0; 64; 6; 67; 104; 97; 110;
  110; 101; 108; 66; 45; 68; 73; 77; 77; 48; 0; 66; 65; 78; 75; 32; 50; 0; 72; 121; 110; 105; 120; 47;
  72; 121; 117; 110; 100; 97; 105; 0; 48; 54; 67; 49; 55; 56; 48; 49; 0; 78; 111; 110; 101; 0; 72; 77;
  84; 51; 53; 49; 83; 54; 67; 70; 82; 56; 67; 45; 80; 66; 32; 32; 0; 0; 20; 35; 10; 0; 0; 0;
  0; 0; 255; 255; 127; 0; 8; 0; 12; 0; 1; 1; 2; 0; 0; 0; 0; 0; 0; 0; 0; 0; 0; 0;
  0; 0; 0; 0; 0; 0; 0; 20; 35; 11; 0; 0; 0; 0; 0; 255; 255; 127; 0; 8; 0; 12; 0; 1;
  2; 2; 0; 0; 0; 0; 0; 0; 0; 0; 0; 0; 0; 0; 0; 0; 0; 0; 0; 0; 19; 31; 12; 0;
  0; 0; 0; 0; 255; 255; 127; 0; 7; 0; 2; 0; 0; 0; 0; 0; 0; 0; 0; 0; 0; 0; 0; 0;
  0; 0; 0; 0; 0; 134; 13; 13; 0; 23; 8; 18; 32; 0; 0; 0; 0; 0; 0; 0; 0; 24; 14; 0;
  1; 2; 0; 224; 3; 191; 128; 154; 9; 125; 0; 0; 18; 0; 3; 13; 1; 20; 1; 7; 76; 69; 78; 79;
  86; 79; 0; 71; 49; 69; 84; 52; 53; 87; 87; 32; 40; 49; 46; 50; 48; 32; 41; 0; 48; 56; 47; 48;
  55; 47; 50; 48; 49; 50; 0; 0; 1; 27; 15; 0; 1; 2; 3; 4; 129; 216; 195; 180; 146; 81; 203; 17;
  170; 25; 230; 147; 38; 53; 188; 139; 6; 5; 6; 76; 69; 78; 79; 86; 79; 0; 50; 51; 52; 55; 65; 52;
  57; 0; 84; 104; 105; 110; 107; 80; 97; 100; 32; 84; 52; 51; 48; 0; 80; 66; 75; 71; 78; 69; 68; 0;
  76; 69; 78; 79; 86; 79; 95; 77; 84; 95; 50; 51; 52; 55; 0; 84; 104; 105; 110; 107; 80; 97; 100; 32;
  84; 52; 51; 48; 0; 0; 2; 15; 16; 0; 1; 2; 3; 4; 5; 9; 6; 0; 0; 10; 0; 76; 69; 78;
  79; 86; 79; 0; 50; 51; 52; 55; 65; 52; 57; 0; 78; 111; 116; 32; 68; 101; 102; 105; 110; 101; 100; 0;
  49; 90; 76; 77; 66; 50; 55; 82; 48; 86; 50; 0; 78; 111; 116; 32; 65; 118; 97; 105; 108; 97; 98; 108;
  101; 0; 78; 111; 116; 32; 65; 118; 97; 105; 108; 97; 98; 108; 101; 0; 0; 3; 22; 17; 0; 1; 10; 2;
  3; 4; 2; 2; 2; 2; 0; 0; 0; 0; 0; 0; 0; 0; 5; 76; 69; 78; 79; 86; 79; 0; 78; 111;
  116; 32; 65; 118; 97; 105; 108; 97; 98; 108; 101; 0; 80; 66; 75; 71; 78; 69; 68; 0; 78; 111; 32; 65;
  115; 115; 101; 116; 32; 73; 110; 102; 111; 114; 109; 97; 116; 105; 111; 110; 0; 76; 69; 78; 79; 86; 79; 95;
  77; 84; 95; 50; 51; 52; 55; 0; 0; 8; 9; 18; 0; 1; 0; 2; 7; 28; 78; 111; 116; 32; 65; 118;
  97; 105; 108; 97; 98; 108; 101; 0; 69; 120; 116; 101; 114; 110; 97; 108; 32; 77; 111; 110; 105; 116; 111; 114;
  0; 0; 8; 9; 19; 0; 1; 0; 2; 255; 28; 78; 111; 116; 32; 65; 118; 97; 105; 108; 97; 98; 108; 101;
  0; 77; 105; 110; 105; 32; 68; 105; 115; 112; 108; 97; 121; 80; 111; 114; 116; 0; 0; 126; 9; 20; 0; 1;
  0; 2; 255; 28; 78; 111; 116; 32; 65; 118; 97; 105; 108; 97; 98; 108; 101; 0; 68; 105; 115; 112; 108; 97;
  121; 80; 111; 114; 116; 47; 68; 86; 73; 45; 68; 32; 49; 0; 0; 126; 9; 21; 0; 1; 0; 2; 255; 28;
  78; 111; 116; 32; 65; 118; 97; 105; 108; 97; 98; 108; 101; 0; 68; 105; 115; 112; 108; 97; 121; 80; 111; 114;
  116; 47; 68; 86; 73; 45; 68; 32; 50; 0; 0; 8; 9; 22; 0; 1; 0; 2; 31; 29; 78; 111; 116; 32;
  65; 118; 97; 105; 108; 97; 98; 108; 101; 0; 72; 101; 97; 100; 112; 104; 111; 110; 101; 47; 77; 105; 99; 114;
  111; 112; 104; 111; 110; 101; 32; 67; 111; 109; 98; 111; 32; 74; 97; 99; 107; 0; 0; 126; 9; 23; 0; 1;
  0; 2; 31; 29; 78; 111; 116; 32; 65; 118; 97; 105; 108; 97; 98; 108; 101; 0; 72; 101; 97; 100; 112; 104;
  111; 110; 101; 32; 74; 97; 99; 107; 0; 0; 126; 9; 24; 0; 1; 0; 2; 31; 29; 78; 111; 116; 32; 65;
  118; 97; 105; 108; 97; 98; 108; 101; 0; 77; 105; 99; 114; 111; 112; 104; 111; 110; 101; 32; 74; 97; 99; 107;
  0; 0; 8; 9; 25; 0; 1; 0; 2; 11; 31; 78; 111; 116; 32; 65; 118; 97; 105; 108; 97; 98; 108; 101;
  0; 69; 116; 104; 101; 114; 110; 101; 116; 0; 0; 126; 9; 26; 0; 1; 0; 2; 10; 30; 78; 111; 116; 32;
  65; 118; 97; 105; 108; 97; 98; 108; 101; 0; 77; 111; 100; 101; 109; 0; 0; 8; 9; 27; 0; 1; 0; 2;
  18; 16; 78; 111; 116; 32; 65; 118; 97; 105; 108; 97; 98; 108; 101; 0; 85; 83; 66; 32; 49; 0; 0; 8;
  9; 28; 0; 1; 0; 2; 18; 16; 78; 111; 116; 32; 65; 118; 97; 105; 108; 97; 98; 108; 101; 0; 85; 83;
  66; 32; 50; 0; 0; 8; 9; 29; 0; 1; 0; 2; 18; 16; 78; 111; 116; 32; 65; 118; 97; 105; 108; 97;
  98; 108; 101; 0; 85; 83; 66; 32; 51; 0; 0; 8; 9; 30; 0; 1; 0; 2; 18; 16; 78; 111; 116; 32;
  65; 118; 97; 105; 108; 97; 98; 108; 101; 0; 85; 83; 66; 32; 52; 0; 0; 126; 9; 31; 0; 1; 0; 2;
  18; 16; 78; 111; 116; 32; 65; 118; 97; 105; 108; 97; 98; 108; 101; 0; 85; 83; 66; 32; 53; 0; 0; 126;
  9; 32; 0; 1; 0; 2; 18; 16; 78; 111; 116; 32; 65; 118; 97; 105; 108; 97; 98; 108; 101; 0; 85; 83;
  66; 32; 54; 0; 0; 126; 9; 33; 0; 1; 0; 2; 18; 16; 78; 111; 116; 32; 65; 118; 97; 105; 108; 97;
  98; 108; 101; 0; 85; 83; 66; 32; 55; 0; 0; 126; 9; 34; 0; 1; 0; 2; 18; 16; 78; 111; 116; 32;
  65; 118; 97; 105; 108; 97; 98; 108; 101; 0; 85; 83; 66; 32; 56; 0; 0; 126; 9; 35; 0; 1; 0; 2;
  18; 16; 78; 111; 116; 32; 65; 118; 97; 105; 108; 97; 98; 108; 101; 0; 85; 83; 66; 32; 57; 0; 0; 126;
  9; 36; 0; 1; 0; 2; 18; 16; 78; 111; 116; 32; 65; 118; 97; 105; 108; 97; 98; 108; 101; 0; 85; 83;
  66; 32; 49; 48; 0; 0; 126; 9; 37; 0; 1; 0; 2; 18; 16; 78; 111; 116; 32; 65; 118; 97; 105; 108;
  97; 98; 108; 101; 0; 85; 83; 66; 32; 49; 49; 0; 0; 126; 9; 38; 0; 1; 0; 2; 33; 17; 78; 111;
  116; 32; 65; 118; 97; 105; 108; 97; 98; 108; 101; 0; 73; 69; 69; 69; 49; 51; 57; 52; 0; 0; 126; 9;
  39; 0; 1; 0; 2; 34; 32; 78; 111; 116; 32; 65; 118; 97; 105; 108; 97; 98; 108; 101; 0; 101; 83; 65;
  84; 65; 0; 0; 9; 17; 40; 0; 1; 165; 8; 3; 1; 1; 0; 0; 2; 0; 0; 0; 0; 69; 120; 112;
  114; 101; 115; 115; 67; 97; 114; 100; 32; 83; 108; 111; 116; 0; 0; 9; 17; 41; 0; 1; 1; 1; 3; 1;
  2; 0; 0; 2; 0; 0; 0; 0; 77; 101; 100; 105; 97; 32; 67; 97; 114; 100; 32; 83; 108; 111; 116; 0;
  0; 126; 17; 42; 0; 1; 1; 1; 3; 1; 3; 0; 0; 2; 0; 0; 0; 0; 83; 109; 97; 114; 116; 67;
  97; 114; 100; 32; 83; 108; 111; 116; 0; 0; 10; 6; 43; 0; 129; 1; 73; 66; 77; 32; 69; 109; 98; 101;
  100; 100; 101; 100; 32; 83; 101; 99; 117; 114; 105; 116; 121; 32; 104; 97; 114; 100; 119; 97; 114; 101; 0; 0;
  12; 5; 44; 0; 0; 0; 0; 13; 22; 45; 0; 1; 1; 0; 0; 0; 0; 0; 0; 0; 0; 0; 0; 0;
  0; 0; 0; 0; 1; 101; 110; 45; 85; 83; 0; 0; 22; 26; 46; 0; 1; 2; 0; 0; 3; 2; 144; 18;
  48; 42; 4; 255; 49; 9; 27; 65; 5; 10; 0; 0; 0; 0; 82; 101; 97; 114; 0; 83; 65; 78; 89; 79;
  0; 52; 53; 78; 49; 48; 48; 49; 0; 48; 51; 46; 48; 49; 0; 76; 73; 79; 78; 0; 0; 126; 26; 47;
  0; 1; 2; 0; 0; 3; 2; 0; 0; 0; 0; 4; 255; 0; 0; 0; 0; 5; 10; 0; 0; 0; 0; 0;
  0; 18; 23; 48; 0; 3; 2; 2; 0; 0; 0; 0; 0; 0; 0; 128; 0; 0; 0; 128; 0; 0; 0; 128;
  0; 0; 21; 7; 49; 0; 5; 4; 3; 0; 0; 21; 7; 50; 0; 7; 4; 2; 0; 0; 131; 22; 51; 0;
  1; 0; 0; 0; 0; 0; 0; 0; 0; 0; 0; 0; 0; 0; 0; 0; 0; 1; 84; 86; 84; 45; 69; 110;
  97; 98; 108; 101; 109; 101; 110; 116; 0; 0; 136; 6; 52; 0; 90; 90; 0; 0; 130; 20; 53; 0; 36; 65;
  77; 84; 1; 1; 1; 1; 1; 165; 255; 2; 0; 0; 1; 0; 0; 0; 131; 64; 54; 0; 63; 0; 0; 0;
  8; 0; 0; 0; 0; 0; 63; 0; 248; 0; 85; 30; 255; 255; 255; 255; 9; 224; 0; 0; 0; 0; 8; 0;
  218; 5; 12; 0; 0; 0; 0; 0; 200; 0; 2; 21; 0; 0; 0; 0; 0; 0; 0; 0; 102; 0; 0; 0;
  118; 80; 114; 111; 0; 0; 0; 0; 0; 0; 135; 74; 55; 0; 84; 80; 7; 2; 66; 65; 89; 32; 73; 47;
  79; 32; 3; 0; 6; 255; 0; 0; 0; 0; 0; 0; 0; 255; 0; 0; 0; 0; 0; 0; 0; 255; 0; 0;
  0; 0; 0; 0; 0; 255; 0; 0; 0; 0; 0; 0; 0; 255; 0; 0; 0; 0; 0; 0; 0; 255; 0; 0;
  0; 0; 0; 0; 0; 6; 0; 2; 4; 255; 3; 255; 0; 0; 133; 5; 56; 0; 1; 75; 72; 79; 73; 72;
  71; 73; 85; 67; 67; 72; 72; 73; 73; 0; 0; 15; 81; 57; 0; 66; 0; 0; 0; 16; 0; 4; 1; 3;
  0; 0; 0; 240; 0; 0; 0; 1; 29; 2; 1; 3; 2; 3; 3; 0; 4; 0; 5; 0; 6; 0; 7; 0;
  8; 4; 9; 0; 10; 0; 11; 0; 12; 0; 13; 0; 14; 0; 16; 0; 17; 0; 18; 0; 19; 0; 20; 0;
  21; 0; 22; 0; 23; 0; 128; 0; 129; 0; 130; 0; 131; 0; 132; 0; 133; 0; 134; 0; 0; 0; 140; 67;
  58; 0; 76; 69; 78; 79; 86; 79; 11; 0; 1; 69; 100; 162; 204; 81; 250; 68; 135; 139; 216; 105; 39; 107;
  191; 8; 58; 1; 0; 0; 0; 0; 0; 0; 0; 0; 0; 0; 0; 0; 0; 0; 0; 0; 0; 0; 0; 0;
  0; 0; 0; 0; 0; 0; 0; 0; 0; 0; 0; 0; 0; 0; 0; 0; 0; 0; 0; 140; 47; 59; 0; 76;
  69; 78; 79; 86; 79; 11; 1; 1; 41; 0; 220; 106; 41; 20; 111; 153; 73; 110; 241; 224; 248; 22; 92; 224;
  150; 218; 0; 0; 0; 0; 16; 0; 16; 0; 16; 1; 208; 0; 32; 1; 0; 1; 0; 0; 140; 63; 60; 0;
  76; 69; 78; 79; 86; 79; 11; 2; 1; 0; 0; 0; 0; 0; 0; 0; 0; 0; 0; 0; 0; 0; 0; 0;
  0; 0; 0; 0; 0; 0; 0; 0; 0; 0; 0; 0; 0; 0; 0; 0; 0; 0; 0; 0; 0; 0; 0; 0;
  0; 0; 0; 0; 0; 0; 0; 0; 0; 0; 0; 0; 0; 140; 17; 61; 0; 76; 69; 78; 79; 86; 79; 11;
  3; 1; 0; 0; 0; 0; 0; 0; 140; 19; 62; 0; 76; 69; 78; 79; 86; 79; 11; 4; 1; 178; 0; 77;
  83; 32; 0; 0; 0; 24; 5; 63; 0; 34; 0; 0; 132; 7; 64; 0; 1; 216; 54; 0; 0; 135; 18; 65;
  0; 84; 80; 7; 1; 1; 210; 0; 0; 0; 0; 0; 0; 0; 0; 0; 0; 140; 15; 66; 0; 76; 69; 78;
  79; 86; 79; 11; 7; 1; 1; 2; 71; 49; 72; 84; 50; 57; 87; 87; 0; 48; 53; 47; 50; 53; 47; 50;
  48; 49; 50; 0; 0; 140; 43; 67; 0; 76; 69; 78; 79; 86; 79; 11; 8; 1; 255; 255; 255; 255; 255; 255;
  255; 255; 255; 255; 255; 255; 255; 255; 255; 255; 255; 255; 255; 255; 255; 255; 255; 255; 255; 255; 255; 255; 255; 255;
  0; 0; 127; 4; 255; 254; 0; 0
].

(* tests/data/entry.bin, 31 bytes *)
Definition entry_bin : list N := [
  95; 83; 77; 95; 240; 31; 2; 7; 138; 0; 0; 0; 0; 0; 0; 0; 95; 68; 77; 73; 95; 239; 176; 10;
  0; 208; 169; 218; 69; 0; 39
].

(* tests/data/dmi.bin, 2736 bytes *)
Definition dmi_bin : list N := [
  134; 16; 0; 0; 0; 83; 84; 77; 32; 1; 1; 0; 0; 3; 1; 2; 84; 80; 77; 32; 73; 78; 70; 79;
  0; 83; 121; 115; 116; 101; 109; 32; 82; 101; 115; 101; 114; 118; 101; 100; 0; 0; 4; 42; 1; 0; 4; 3;
  205; 2; 169; 6; 3; 0; 255; 251; 235; 191; 1; 137; 100; 0; 40; 10; 40; 10; 65; 33; 3; 0; 4; 0;
  5; 0; 3; 5; 6; 2; 2; 4; 4; 0; 205; 0; 73; 110; 116; 101; 108; 40; 82; 41; 32; 67; 111; 114;
  101; 40; 84; 77; 41; 32; 105; 53; 45; 51; 51; 50; 48; 77; 32; 67; 80; 85; 32; 64; 32; 50; 46; 54;
  48; 71; 72; 122; 0; 73; 110; 116; 101; 108; 40; 82; 41; 32; 67; 111; 114; 112; 111; 114; 97; 116; 105; 111;
  110; 0; 78; 111; 110; 101; 0; 67; 80; 85; 32; 83; 111; 99; 107; 101; 116; 32; 45; 32; 85; 51; 69; 49;
  0; 78; 111; 110; 101; 0; 78; 111; 110; 101; 0; 0; 7; 19; 2; 0; 1; 128; 0; 32; 0; 32; 0; 2;
  0; 2; 0; 0; 4; 4; 7; 76; 49; 45; 67; 97; 99; 104; 101; 0; 0; 7; 19; 3; 0; 1; 128; 0;
  32; 0; 32; 0; 2; 0; 2; 0; 0; 4; 3; 7; 76; 49; 45; 67; 97; 99; 104; 101; 0; 0; 7; 19;
  4; 0; 1; 129; 0; 0; 1; 0; 1; 2; 0; 2; 0; 0; 6; 5; 7; 76; 50; 45; 67; 97; 99; 104;
  101; 0; 0; 7; 19; 5; 0; 1; 130; 1; 0; 12; 0; 12; 2; 0; 2; 0; 0; 6; 5; 9; 76; 51;
  45; 67; 97; 99; 104; 101; 0; 0; 129; 8; 6; 0; 1; 1; 2; 1; 73; 110; 116; 101; 108; 95; 65; 83;
  70; 0; 73; 110; 116; 101; 108; 95; 65; 83; 70; 95; 48; 48; 49; 0; 0; 16; 23; 7; 0; 3; 3; 3;
  0; 0; 0; 1; 254; 255; 2; 0; 0; 0; 0; 0; 0; 0; 0; 0; 0; 0; 17; 34; 8; 0; 7; 0;
  254; 255; 64; 0; 64; 0; 0; 16; 13; 0; 1; 2; 24; 128; 0; 64; 6; 3; 4; 5; 6; 0; 0; 0;
  0; 0; 64; 6; 67; 104; 97; 110; 110; 101; 108; 65; 45; 68; 73; 77; 77; 48; 0; 66; 65; 78; 75; 32;
  48; 0; 72; 121; 110; 105; 120; 47; 72; 121; 117; 110; 100; 97; 105; 0; 48; 54; 67; 49; 55; 56; 54; 55;
  0; 78; 111; 110; 101; 0; 72; 77; 84; 51; 53; 49; 83; 54; 67; 70; 82; 56; 67; 45; 80; 66; 32; 32;
  0; 0; 17; 34; 9; 0; 7; 0; 254; 255; 64; 0; 64; 0; 0; 16; 13; 0; 1; 2; 24; 128; 0; 64;
  6; 3; 4; 5; 6; 0; 0; 0; 0; 0; 64; 6; 67; 104; 97; 110; 110; 101; 108; 66; 45; 68; 73; 77;
  77; 48; 0; 66; 65; 78; 75; 32; 50; 0; 72; 121; 110; 105; 120; 47; 72; 121; 117; 110; 100; 97; 105; 0;
  48; 54; 67; 49; 55; 56; 48; 49; 0; 78; 111; 110; 101; 0; 72; 77; 84; 51; 53; 49; 83; 54; 67; 70;
  82; 56; 67; 45; 80; 66; 32; 32; 0; 0; 20; 35; 10; 0; 0; 0; 0; 0; 255; 255; 127; 0; 8; 0;
  12; 0; 1; 1; 2; 0; 0; 0; 0; 0; 0; 0; 0; 0; 0; 0; 0; 0; 0; 0; 0; 0; 0; 20;
  35; 11; 0; 0; 0; 0; 0; 255; 255; 127; 0; 8; 0; 12; 0; 1; 2; 2; 0; 0; 0; 0; 0; 0;
  0; 0; 0; 0; 0; 0; 0; 0; 0; 0; 0; 0; 19; 31; 12; 0; 0; 0; 0; 0; 255; 255; 127; 0;
  7; 0; 2; 0; 0; 0; 0; 0; 0; 0; 0; 0; 0; 0; 0; 0; 0; 0; 0; 0; 0; 134; 13; 13;
  0; 23; 8; 18; 32; 0; 0; 0; 0; 0; 0; 0; 0; 24; 14; 0; 1; 2; 0; 224; 3; 191; 128; 154;
  9; 125; 0; 0; 18; 0; 3; 13; 1; 20; 1; 7; 76; 69; 78; 79; 86; 79; 0; 71; 49; 69; 84; 52;
  53; 87; 87; 32; 40; 49; 46; 50; 48; 32; 41; 0; 48; 56; 47; 48; 55; 47; 50; 48; 49; 50; 0; 0;
  1; 27; 15; 0; 1; 2; 3; 4; 129; 216; 195; 180; 146; 81; 203; 17; 170; 25; 230; 147; 38; 53; 188; 139;
  6; 5; 6; 76; 69; 78; 79; 86; 79; 0; 50; 51; 52; 55; 65; 52; 57; 0; 84; 104; 105; 110; 107; 80;
  97; 100; 32; 84; 52; 51; 48; 0; 80; 66; 75; 71; 78; 69; 68; 0; 76; 69; 78; 79; 86; 79; 95; 77;
  84; 95; 50; 51; 52; 55; 0; 84; 104; 105; 110; 107; 80; 97; 100; 32; 84; 52; 51; 48; 0; 0; 2; 15;
  16; 0; 1; 2; 3; 4; 5; 9; 6; 0; 0; 10; 0; 76; 69; 78; 79; 86; 79; 0; 50; 51; 52; 55;
  65; 52; 57; 0; 78; 111; 116; 32; 68; 101; 102; 105; 110; 101; 100; 0; 49; 90; 76; 77; 66; 50; 55; 82;
  48; 86; 50; 0; 78; 111; 116; 32; 65; 118; 97; 105; 108; 97; 98; 108; 101; 0; 78; 111; 116; 32; 65; 118;
  97; 105; 108; 97; 98; 108; 101; 0; 0; 3; 22; 17; 0; 1; 10; 2; 3; 4; 2; 2; 2; 2; 0; 0;
  0; 0; 0; 0; 0; 0; 5; 76; 69; 78; 79; 86; 79; 0; 78; 111; 116; 32; 65; 118; 97; 105; 108; 97;
  98; 108; 101; 0; 80; 66; 75; 71; 78; 69; 68; 0; 78; 111; 32; 65; 115; 115; 101; 116; 32; 73; 110; 102;
  111; 114; 109; 97; 116; 105; 111; 110; 0; 76; 69; 78; 79; 86; 79; 95; 77; 84; 95; 50; 51; 52; 55; 0;
  0; 8; 9; 18; 0; 1; 0; 2; 7; 28; 78; 111; 116; 32; 65; 118; 97; 105; 108; 97; 98; 108; 101; 0;
  69; 120; 116; 101; 114; 110; 97; 108; 32; 77; 111; 110; 105; 116; 111; 114; 0; 0; 8; 9; 19; 0; 1; 0;
  2; 255; 28; 78; 111; 116; 32; 65; 118; 97; 105; 108; 97; 98; 108; 101; 0; 77; 105; 110; 105; 32; 68; 105;
  115; 112; 108; 97; 121; 80; 111; 114; 116; 0; 0; 126; 9; 20; 0; 1; 0; 2; 255; 28; 78; 111; 116; 32;
  65; 118; 97; 105; 108; 97; 98; 108; 101; 0; 68; 105; 115; 112; 108; 97; 121; 80; 111; 114; 116; 47; 68; 86;
  73; 45; 68; 32; 49; 0; 0; 126; 9; 21; 0; 1; 0; 2; 255; 28; 78; 111; 116; 32; 65; 118; 97; 105;
  108; 97; 98; 108; 101; 0; 68; 105; 115; 112; 108; 97; 121; 80; 111; 114; 116; 47; 68; 86; 73; 45; 68; 32;
  50; 0; 0; 8; 9; 22; 0; 1; 0; 2; 31; 29; 78; 111; 116; 32; 65; 118; 97; 105; 108; 97; 98; 108;
  101; 0; 72; 101; 97; 100; 112; 104; 111; 110; 101; 47; 77; 105; 99; 114; 111; 112; 104; 111; 110; 101; 32; 67;
  111; 109; 98; 111; 32; 74; 97; 99; 107; 0; 0; 126; 9; 23; 0; 1; 0; 2; 31; 29; 78; 111; 116; 32;
  65; 118; 97; 105; 108; 97; 98; 108; 101; 0; 72; 101; 97; 100; 112; 104; 111; 110; 101; 32; 74; 97; 99; 107;
  0; 0; 126; 9; 24; 0; 1; 0; 2; 31; 29; 78; 111; 116; 32; 65; 118; 97; 105; 108; 97; 98; 108; 101;
  0; 77; 105; 99; 114; 111; 112; 104; 111; 110; 101; 32; 74; 97; 99; 107; 0; 0; 8; 9; 25; 0; 1; 0;
  2; 11; 31; 78; 111; 116; 32; 65; 118; 97; 105; 108; 97; 98; 108; 101; 0; 69; 116; 104; 101; 114; 110; 101;
  116; 0; 0; 126; 9; 26; 0; 1; 0; 2; 10; 30; 78; 111; 116; 32; 65; 118; 97; 105; 108; 97; 98; 108;
  101; 0; 77; 111; 100; 101; 109; 0; 0; 8; 9; 27; 0; 1; 0; 2; 18; 16; 78; 111; 116; 32; 65; 118;
  97; 105; 108; 97; 98; 108; 101; 0; 85; 83; 66; 32; 49; 0; 0; 8; 9; 28; 0; 1; 0; 2; 18; 16;
  78; 111; 116; 32; 65; 118; 97; 105; 108; 97; 98; 108; 101; 0; 85; 83; 66; 32; 50; 0; 0; 8; 9; 29;
  0; 1; 0; 2; 18; 16; 78; 111; 116; 32; 65; 118; 97; 105; 108; 97; 98; 108; 101; 0; 85; 83; 66; 32;
  51; 0; 0; 8; 9; 30; 0; 1; 0; 2; 18; 16; 78; 111; 116; 32; 65; 118; 97; 105; 108; 97; 98; 108;
  101; 0; 85; 83; 66; 32; 52; 0; 0; 126; 9; 31; 0; 1; 0; 2; 18; 16; 78; 111; 116; 32; 65; 118;
  97; 105; 108; 97; 98; 108; 101; 0; 85; 83; 66; 32; 53; 0; 0; 126; 9; 32; 0; 1; 0; 2; 18; 16;
  78; 111; 116; 32; 65; 118; 97; 105; 108; 97; 98; 108; 101; 0; 85; 83; 66; 32; 54; 0; 0; 126; 9; 33;
  0; 1; 0; 2; 18; 16; 78; 111; 116; 32; 65; 118; 97; 105; 108; 97; 98; 108; 101; 0; 85; 83; 66; 32;
  55; 0; 0; 126; 9; 34; 0; 1; 0; 2; 18; 16; 78; 111; 116; 32; 65; 118; 97; 105; 108; 97; 98; 108;
  101; 0; 85; 83; 66; 32; 56; 0; 0; 126; 9; 35; 0; 1; 0; 2; 18; 16; 78; 111; 116; 32; 65; 118;
  97; 105; 108; 97; 98; 108; 101; 0; 85; 83; 66; 32; 57; 0; 0; 126; 9; 36; 0; 1; 0; 2; 18; 16;
  78; 111; 116; 32; 65; 118; 97; 105; 108; 97; 98; 108; 101; 0; 85; 83; 66; 32; 49; 48; 0; 0; 126; 9;
  37; 0; 1; 0; 2; 18; 16; 78; 111; 116; 32; 65; 118; 97; 105; 108; 97; 98; 108; 101; 0; 85; 83; 66;
  32; 49; 49; 0; 0; 126; 9; 38; 0; 1; 0; 2; 33; 17; 78; 111; 116; 32; 65; 118; 97; 105; 108; 97;
  98; 108; 101; 0; 73; 69; 69; 69; 49; 51; 57; 52; 0; 0; 126; 9; 39; 0; 1; 0; 2; 34; 32; 78;
  111; 116; 32; 65; 118; 97; 105; 108; 97; 98; 108; 101; 0; 101; 83; 65; 84; 65; 0; 0; 9; 17; 40; 0;
  1; 165; 8; 3; 1; 1; 0; 0; 2; 0; 0; 0; 0; 69; 120; 112; 114; 101; 115; 115; 67; 97; 114; 100;
  32; 83; 108; 111; 116; 0; 0; 9; 17; 41; 0; 1; 1; 1; 3; 1; 2; 0; 0; 2; 0; 0; 0; 0;
  77; 101; 100; 105; 97; 32; 67; 97; 114; 100; 32; 83; 108; 111; 116; 0; 0; 126; 17; 42; 0; 1; 1; 1;
  3; 1; 3; 0; 0; 2; 0; 0; 0; 0; 83; 109; 97; 114; 116; 67; 97; 114; 100; 32; 83; 108; 111; 116;
  0; 0; 10; 6; 43; 0; 129; 1; 73; 66; 77; 32; 69; 109; 98; 101; 100; 100; 101; 100; 32; 83; 101; 99;
  117; 114; 105; 116; 121; 32; 104; 97; 114; 100; 119; 97; 114; 101; 0; 0; 12; 5; 44; 0; 0; 0; 0; 13;
  22; 45; 0; 1; 1; 0; 0; 0; 0; 0; 0; 0; 0; 0; 0; 0; 0; 0; 0; 0; 1; 101; 110; 45;
  85; 83; 0; 0; 22; 26; 46; 0; 1; 2; 0; 0; 3; 2; 144; 18; 48; 42; 4; 255; 49; 9; 27; 65;
  5; 10; 0; 0; 0; 0; 82; 101; 97; 114; 0; 83; 65; 78; 89; 79; 0; 52; 53; 78; 49; 48; 48; 49;
  0; 48; 51; 46; 48; 49; 0; 76; 73; 79; 78; 0; 0; 126; 26; 47; 0; 1; 2; 0; 0; 3; 2; 0;
  0; 0; 0; 4; 255; 0; 0; 0; 0; 5; 10; 0; 0; 0; 0; 0; 0; 18; 23; 48; 0; 3; 2; 2;
  0; 0; 0; 0; 0; 0; 0; 128; 0; 0; 0; 128; 0; 0; 0; 128; 0; 0; 21; 7; 49; 0; 5; 4;
  3; 0; 0; 21; 7; 50; 0; 7; 4; 2; 0; 0; 131; 22; 51; 0; 1; 0; 0; 0; 0; 0; 0; 0;
  0; 0; 0; 0; 0; 0; 0; 0; 0; 1; 84; 86; 84; 45; 69; 110; 97; 98; 108; 101; 109; 101; 110; 116;
  0; 0; 136; 6; 52; 0; 90; 90; 0; 0; 130; 20; 53; 0; 36; 65; 77; 84; 1; 1; 1; 1; 1; 165;
  255; 2; 0; 0; 1; 0; 0; 0; 131; 64; 54; 0; 63; 0; 0; 0; 8; 0; 0; 0; 0; 0; 63; 0;
  248; 0; 85; 30; 255; 255; 255; 255; 9; 224; 0; 0; 0; 0; 8; 0; 218; 5; 12; 0; 0; 0; 0; 0;
  200; 0; 2; 21; 0; 0; 0; 0; 0; 0; 0; 0; 102; 0; 0; 0; 118; 80; 114; 111; 0; 0; 0; 0;
  0; 0; 135; 74; 55; 0; 84; 80; 7; 2; 66; 65; 89; 32; 73; 47; 79; 32; 3; 0; 6; 255; 0; 0;
  0; 0; 0; 0; 0; 255; 0; 0; 0; 0; 0; 0; 0; 255; 0; 0; 0; 0; 0; 0; 0; 255; 0; 0;
  0; 0; 0; 0; 0; 255; 0; 0; 0; 0; 0; 0; 0; 255; 0; 0; 0; 0; 0; 0; 0; 6; 0; 2;
  4; 255; 3; 255; 0; 0; 133; 5; 56; 0; 1; 75; 72; 79; 73; 72; 71; 73; 85; 67; 67; 72; 72; 73;
  73; 0; 0; 15; 81; 57; 0; 66; 0; 0; 0; 16; 0; 4; 1; 3; 0; 0; 0; 240; 0; 0; 0; 1;
  29; 2; 1; 3; 2; 3; 3; 0; 4; 0; 5; 0; 6; 0; 7; 0; 8; 4; 9; 0; 10; 0; 11; 0;
  12; 0; 13; 0; 14; 0; 16; 0; 17; 0; 18; 0; 19; 0; 20; 0; 21; 0; 22; 0; 23; 0; 128; 0;
  129; 0; 130; 0; 131; 0; 132; 0; 133; 0; 134; 0; 0; 0; 140; 67; 58; 0; 76; 69; 78; 79; 86; 79;
  11; 0; 1; 69; 100; 162; 204; 81; 250; 68; 135; 139; 216; 105; 39; 107; 191; 8; 58; 1; 0; 0; 0; 0;
  0; 0; 0; 0; 0; 0; 0; 0; 0; 0; 0; 0; 0; 0; 0; 0; 0; 0; 0; 0; 0; 0; 0; 0;
  0; 0; 0; 0; 0; 0; 0; 0; 0; 0; 0; 140; 47; 59; 0; 76; 69; 78; 79; 86; 79; 11; 1; 1;
  41; 0; 220; 106; 41; 20; 111; 153; 73; 110; 241; 224; 248; 22; 92; 224; 150; 218; 0; 0; 0; 0; 16; 0;
  16; 0; 16; 1; 208; 0; 32; 1; 0; 1; 0; 0; 140; 63; 60; 0; 76; 69; 78; 79; 86; 79; 11; 2;
  1; 0; 0; 0; 0; 0; 0; 0; 0; 0; 0; 0; 0; 0; 0; 0; 0; 0; 0; 0; 0; 0; 0; 0;
  0; 0; 0; 0; 0; 0; 0; 0; 0; 0; 0; 0; 0; 0; 0; 0; 0; 0; 0; 0; 0; 0; 0; 0;
  0; 0; 0; 0; 0; 140; 17; 61; 0; 76; 69; 78; 79; 86; 79; 11; 3; 1; 0; 0; 0; 0; 0; 0;
  140; 19; 62; 0; 76; 69; 78; 79; 86; 79; 11; 4; 1; 178; 0; 77; 83; 32; 0; 0; 0; 24; 5; 63;
  0; 34; 0; 0; 132; 7; 64; 0; 1; 216; 54; 0; 0; 135; 18; 65; 0; 84; 80; 7; 1; 1; 210; 0;
  0; 0; 0; 0; 0; 0; 0; 0; 0; 140; 15; 66; 0; 76; 69; 78; 79; 86; 79; 11; 7; 1; 1; 2;
  71; 49; 72; 84; 50; 57; 87; 87; 0; 48; 53; 47; 50; 53; 47; 50; 48; 49; 50; 0; 0; 140; 43; 67;
  0; 76; 69; 78; 79; 86; 79; 11; 8; 1; 255; 255; 255; 255; 255; 255; 255; 255; 255; 255; 255; 255; 255; 255;
  255; 255; 255; 255; 255; 255; 255; 255; 255; 255; 255; 255; 255; 255; 255; 255; 0; 0; 127; 4; 255; 254; 0; 0
].

(* tests/data/entry_v3.bin, 24 bytes *)
Definition entry_v3_bin : list N := [
  95; 83; 77; 51; 95; 237; 24; 3; 0; 0; 1; 0; 149; 21; 0; 0; 0; 174; 14; 0; 0; 0; 0; 0
].

(* tests/data/dmi_v3.bin, 5525 bytes *)
Definition dmi_v3_bin : list N := [
  0; 24; 0; 0; 1; 2; 0; 240; 3; 255; 128; 154; 137; 63; 0; 0; 23; 0; 3; 15; 2; 1; 255; 255;
  68; 101; 108; 108; 32; 73; 110; 99; 46; 0; 50; 46; 49; 46; 57; 0; 48; 49; 47; 50; 52; 47; 50; 48;
  49; 55; 0; 0; 1; 27; 1; 0; 2; 3; 0; 5; 68; 69; 76; 76; 75; 0; 16; 78; 128; 90; 183; 192;
  79; 66; 72; 50; 6; 4; 1; 80; 114; 101; 99; 105; 115; 105; 111; 110; 0; 68; 101; 108; 108; 32; 73; 110;
  99; 46; 0; 80; 114; 101; 99; 105; 115; 105; 111; 110; 32; 84; 111; 119; 101; 114; 32; 51; 54; 50; 48; 0;
  48; 54; 66; 55; 0; 55; 75; 78; 90; 66; 72; 50; 0; 0; 2; 15; 2; 0; 1; 2; 3; 4; 0; 9;
  0; 3; 0; 10; 0; 68; 101; 108; 108; 32; 73; 110; 99; 46; 0; 48; 57; 87; 72; 53; 52; 0; 65; 48;
  49; 0; 47; 55; 75; 78; 90; 66; 72; 50; 47; 67; 78; 55; 50; 50; 48; 48; 54; 67; 70; 48; 49; 76;
  88; 47; 0; 0; 3; 22; 3; 0; 1; 3; 0; 2; 0; 3; 3; 3; 3; 0; 0; 0; 0; 0; 1; 0;
  3; 3; 68; 101; 108; 108; 32; 73; 110; 99; 46; 0; 55; 75; 78; 90; 66; 72; 50; 0; 68; 101; 115; 107;
  116; 111; 112; 0; 0; 11; 5; 4; 0; 6; 68; 101; 108; 108; 32; 83; 121; 115; 116; 101; 109; 0; 49; 91;
  48; 54; 66; 55; 93; 0; 51; 91; 49; 46; 48; 93; 0; 49; 50; 91; 119; 119; 119; 46; 100; 101; 108; 108;
  46; 99; 111; 109; 93; 0; 49; 52; 91; 49; 93; 0; 49; 53; 91; 51; 93; 0; 0; 12; 5; 5; 0; 1;
  68; 101; 102; 97; 117; 108; 116; 32; 115; 116; 114; 105; 110; 103; 0; 0; 15; 35; 6; 0; 4; 0; 0; 0;
  2; 0; 2; 0; 0; 0; 0; 0; 106; 4; 108; 4; 0; 6; 2; 255; 255; 255; 255; 255; 255; 255; 255; 255;
  255; 255; 255; 0; 0; 25; 9; 7; 0; 0; 0; 0; 0; 0; 0; 0; 32; 20; 8; 0; 0; 0; 0; 0;
  0; 0; 0; 0; 0; 0; 0; 0; 0; 0; 0; 0; 0; 0; 16; 23; 9; 0; 3; 3; 3; 0; 0; 0;
  4; 254; 255; 4; 0; 0; 0; 0; 0; 0; 0; 0; 0; 0; 0; 17; 40; 10; 0; 9; 0; 254; 255; 64;
  0; 64; 0; 0; 32; 9; 0; 1; 0; 26; 128; 0; 85; 8; 2; 3; 4; 5; 2; 0; 0; 0; 0; 85;
  8; 0; 0; 0; 0; 176; 4; 68; 73; 77; 77; 49; 0; 56; 48; 65; 68; 48; 48; 48; 48; 56; 48; 65;
  68; 0; 50; 56; 50; 50; 49; 57; 51; 67; 0; 48; 49; 49; 54; 52; 53; 48; 48; 0; 72; 77; 65; 52;
  49; 71; 85; 54; 65; 70; 82; 56; 78; 45; 84; 70; 32; 32; 32; 32; 0; 0; 17; 40; 11; 0; 9; 0;
  254; 255; 64; 0; 64; 0; 0; 32; 9; 0; 1; 0; 26; 128; 0; 85; 8; 2; 3; 4; 5; 2; 0; 0;
  0; 0; 85; 8; 0; 0; 0; 0; 176; 4; 68; 73; 77; 77; 50; 0; 56; 48; 65; 68; 48; 48; 48; 48;
  56; 48; 65; 68; 0; 50; 56; 50; 50; 49; 57; 50; 56; 0; 48; 49; 49; 54; 52; 53; 48; 48; 0; 72;
  77; 65; 52; 49; 71; 85; 54; 65; 70; 82; 56; 78; 45; 84; 70; 32; 32; 32; 32; 0; 0; 17; 40; 12;
  0; 9; 0; 254; 255; 255; 255; 255; 255; 0; 0; 2; 0; 1; 0; 2; 0; 0; 0; 0; 0; 0; 0; 0;
  0; 0; 0; 0; 0; 0; 0; 0; 0; 0; 0; 0; 0; 68; 73; 77; 77; 51; 0; 0; 17; 40; 13; 0;
  9; 0; 254; 255; 255; 255; 255; 255; 0; 0; 2; 0; 1; 0; 2; 0; 0; 0; 0; 0; 0; 0; 0; 0;
  0; 0; 0; 0; 0; 0; 0; 0; 0; 0; 0; 0; 68; 73; 77; 77; 52; 0; 0; 19; 31; 14; 0; 0;
  0; 0; 0; 255; 255; 255; 0; 9; 0; 2; 0; 0; 0; 0; 0; 0; 0; 0; 0; 0; 0; 0; 0; 0;
  0; 0; 0; 0; 7; 19; 15; 0; 1; 128; 1; 0; 1; 0; 1; 32; 0; 32; 0; 0; 4; 5; 7; 76;
  49; 32; 67; 97; 99; 104; 101; 0; 0; 7; 19; 16; 0; 1; 129; 1; 0; 4; 0; 4; 32; 0; 32; 0;
  0; 5; 5; 5; 76; 50; 32; 67; 97; 99; 104; 101; 0; 0; 7; 19; 17; 0; 1; 130; 1; 0; 32; 0;
  32; 32; 0; 32; 0; 0; 6; 5; 8; 76; 51; 32; 67; 97; 99; 104; 101; 0; 0; 4; 48; 18; 0; 1;
  3; 179; 2; 227; 6; 5; 0; 255; 251; 235; 191; 3; 139; 100; 0; 48; 17; 228; 12; 65; 1; 15; 0; 16;
  0; 17; 0; 4; 5; 6; 4; 4; 4; 236; 0; 179; 0; 4; 0; 4; 0; 4; 0; 85; 51; 69; 49; 0;
  73; 110; 116; 101; 108; 40; 82; 41; 32; 67; 111; 114; 112; 111; 114; 97; 116; 105; 111; 110; 0; 73; 110; 116;
  101; 108; 40; 82; 41; 32; 88; 101; 111; 110; 40; 82; 41; 32; 67; 80; 85; 32; 69; 51; 45; 49; 50; 50;
  53; 32; 118; 53; 32; 64; 32; 51; 46; 51; 48; 71; 72; 122; 0; 84; 111; 32; 66; 101; 32; 70; 105; 108;
  108; 101; 100; 32; 66; 121; 32; 79; 46; 69; 46; 77; 46; 0; 84; 111; 32; 66; 101; 32; 70; 105; 108; 108;
  101; 100; 32; 66; 121; 32; 79; 46; 69; 46; 77; 46; 0; 84; 111; 32; 66; 101; 32; 70; 105; 108; 108; 101;
  100; 32; 66; 121; 32; 79; 46; 69; 46; 77; 46; 0; 0; 8; 9; 19; 0; 0; 0; 1; 15; 14; 80; 83;
  50; 77; 111; 117; 115; 101; 0; 0; 8; 9; 20; 0; 0; 0; 1; 15; 13; 80; 83; 50; 75; 101; 121; 98;
  111; 97; 114; 100; 0; 0; 8; 9; 21; 0; 0; 0; 1; 11; 31; 76; 65; 78; 0; 0; 8; 9; 22; 0;
  0; 0; 1; 255; 28; 72; 68; 77; 73; 0; 0; 8; 9; 23; 0; 0; 0; 1; 255; 28; 68; 105; 115; 112;
  108; 97; 121; 80; 111; 114; 116; 32; 49; 0; 0; 8; 9; 24; 0; 0; 0; 1; 255; 28; 68; 105; 115; 112;
  108; 97; 121; 80; 111; 114; 116; 32; 50; 0; 0; 8; 9; 25; 0; 0; 0; 1; 8; 9; 83; 101; 114; 105;
  97; 108; 0; 0; 8; 9; 26; 0; 0; 0; 1; 31; 29; 76; 105; 110; 101; 45; 111; 117; 116; 0; 0; 8;
  9; 27; 0; 0; 0; 1; 31; 29; 76; 105; 110; 101; 45; 105; 110; 47; 77; 105; 99; 0; 0; 8; 9; 28;
  0; 0; 0; 1; 18; 16; 82; 101; 97; 114; 32; 85; 83; 66; 32; 51; 46; 48; 0; 0; 8; 9; 29; 0;
  0; 0; 1; 18; 16; 82; 101; 97; 114; 32; 85; 83; 66; 32; 51; 46; 48; 0; 0; 8; 9; 30; 0; 0;
  0; 1; 18; 16; 82; 101; 97; 114; 32; 85; 83; 66; 32; 51; 46; 48; 0; 0; 8; 9; 31; 0; 0; 0;
  1; 18; 16; 82; 101; 97; 114; 32; 85; 83; 66; 32; 51; 46; 48; 0; 0; 8; 9; 32; 0; 0; 0; 1;
  18; 16; 82; 101; 97; 114; 32; 85; 83; 66; 32; 50; 46; 48; 0; 0; 8; 9; 33; 0; 0; 0; 1; 18;
  16; 82; 101; 97; 114; 32; 85; 83; 66; 32; 50; 46; 48; 0; 0; 8; 9; 34; 0; 1; 34; 0; 0; 32;
  83; 65; 84; 65; 48; 0; 0; 8; 9; 35; 0; 1; 34; 0; 0; 32; 83; 65; 84; 65; 49; 0; 0; 8;
  9; 36; 0; 1; 34; 0; 0; 32; 83; 65; 84; 65; 50; 0; 0; 8; 9; 37; 0; 1; 34; 0; 0; 32;
  83; 65; 84; 65; 51; 0; 0; 8; 9; 38; 0; 1; 255; 0; 0; 255; 70; 65; 78; 95; 67; 80; 85; 0;
  0; 8; 9; 39; 0; 1; 255; 0; 0; 255; 70; 65; 78; 95; 83; 89; 83; 0; 0; 8; 9; 40; 0; 1;
  255; 0; 0; 255; 73; 78; 84; 82; 85; 68; 69; 82; 0; 0; 8; 9; 41; 0; 1; 255; 0; 0; 255; 73;
  78; 84; 95; 83; 80; 75; 82; 0; 0; 8; 9; 42; 0; 1; 255; 0; 0; 255; 84; 72; 82; 77; 95; 50;
  0; 0; 8; 9; 43; 0; 1; 18; 0; 0; 16; 73; 78; 84; 95; 85; 83; 66; 0; 0; 8; 9; 44; 0;
  1; 255; 2; 31; 29; 70; 82; 79; 78; 84; 80; 65; 78; 69; 76; 0; 77; 105; 99; 114; 111; 112; 104; 111;
  110; 101; 0; 0; 8; 9; 45; 0; 1; 255; 2; 31; 29; 70; 82; 79; 78; 84; 80; 65; 78; 69; 76; 0;
  72; 101; 97; 100; 112; 104; 111; 110; 101; 0; 0; 8; 9; 46; 0; 1; 255; 2; 18; 16; 70; 82; 79; 78;
  84; 80; 65; 78; 69; 76; 0; 70; 114; 111; 110; 116; 32; 85; 83; 66; 32; 50; 46; 48; 0; 0; 8; 9;
  47; 0; 1; 255; 2; 18; 16; 70; 82; 79; 78; 84; 80; 65; 78; 69; 76; 0; 70; 114; 111; 110; 116; 32;
  85; 83; 66; 32; 50; 46; 48; 0; 0; 8; 9; 48; 0; 1; 255; 2; 18; 16; 85; 83; 66; 51; 95; 70;
  82; 79; 78; 84; 0; 70; 114; 111; 110; 116; 32; 85; 83; 66; 32; 51; 46; 48; 0; 0; 8; 9; 49; 0;
  1; 255; 2; 18; 16; 85; 83; 66; 51; 95; 70; 82; 79; 78; 84; 0; 70; 114; 111; 110; 116; 32; 85; 83;
  66; 32; 51; 46; 48; 0; 0; 9; 17; 50; 0; 1; 177; 13; 4; 4; 1; 0; 4; 1; 0; 0; 1; 0;
  83; 76; 79; 84; 49; 0; 0; 9; 17; 51; 0; 1; 6; 8; 3; 4; 2; 0; 4; 1; 0; 0; 255; 255;
  83; 76; 79; 84; 50; 0; 0; 9; 17; 52; 0; 1; 165; 5; 3; 3; 3; 0; 4; 1; 0; 0; 255; 255;
  83; 76; 79; 84; 51; 0; 0; 9; 17; 53; 0; 1; 176; 10; 4; 4; 4; 0; 4; 1; 0; 0; 5; 0;
  83; 76; 79; 84; 52; 0; 0; 9; 17; 54; 0; 1; 23; 9; 4; 1; 5; 0; 4; 1; 0; 0; 2; 0;
  83; 76; 79; 84; 53; 0; 0; 10; 6; 55; 0; 3; 1; 34; 73; 110; 116; 101; 108; 32; 72; 68; 32; 71;
  114; 97; 112; 104; 105; 99; 115; 34; 0; 0; 10; 6; 56; 0; 133; 1; 34; 73; 110; 116; 101; 108; 32; 76;
  79; 77; 34; 0; 0; 10; 6; 57; 0; 135; 1; 34; 73; 110; 116; 101; 108; 32; 72; 68; 32; 65; 117; 100;
  105; 111; 34; 0; 0; 41; 11; 58; 0; 1; 3; 1; 0; 0; 0; 16; 73; 110; 116; 101; 108; 32; 72; 68;
  32; 71; 114; 97; 112; 104; 105; 99; 115; 0; 0; 41; 11; 59; 0; 1; 133; 1; 0; 0; 0; 152; 73; 110;
  116; 101; 108; 32; 76; 79; 77; 0; 0; 41; 11; 60; 0; 1; 135; 1; 0; 0; 0; 216; 73; 110; 116; 101;
  108; 32; 72; 68; 32; 65; 117; 100; 105; 111; 0; 0; 41; 11; 61; 0; 1; 137; 1; 0; 0; 0; 250; 79;
  110; 98; 111; 97; 114; 100; 32; 83; 65; 84; 65; 32; 35; 49; 0; 0; 41; 11; 62; 0; 1; 9; 2; 0;
  0; 0; 253; 79; 110; 98; 111; 97; 114; 100; 32; 83; 65; 84; 65; 32; 35; 50; 0; 0; 20; 35; 63; 0;
  0; 0; 0; 0; 255; 255; 127; 0; 10; 0; 14; 0; 1; 1; 2; 0; 0; 0; 0; 0; 0; 0; 0; 0;
  0; 0; 0; 0; 0; 0; 0; 0; 0; 20; 35; 64; 0; 0; 0; 128; 0; 255; 255; 255; 0; 11; 0; 14;
  0; 1; 2; 2; 0; 0; 0; 0; 0; 0; 0; 0; 0; 0; 0; 0; 0; 0; 0; 0; 0; 0; 27; 15;
  0; 27; 0; 28; 101; 0; 0; 221; 0; 0; 112; 23; 1; 67; 80; 85; 32; 70; 97; 110; 0; 0; 27; 15;
  1; 27; 1; 28; 102; 0; 1; 221; 0; 0; 112; 23; 1; 77; 111; 116; 104; 101; 114; 98; 111; 97; 114; 100;
  32; 70; 97; 110; 0; 0; 28; 22; 0; 28; 1; 99; 246; 4; 10; 251; 232; 3; 0; 128; 0; 128; 0; 220;
  0; 0; 100; 0; 67; 80; 85; 32; 84; 104; 101; 114; 109; 97; 108; 32; 80; 114; 111; 98; 101; 0; 0; 28;
  22; 1; 28; 1; 103; 246; 4; 10; 251; 232; 3; 0; 128; 0; 128; 1; 220; 0; 0; 100; 0; 84; 114; 117;
  101; 32; 65; 109; 98; 105; 101; 110; 116; 0; 0; 177; 12; 0; 177; 2; 0; 0; 0; 0; 0; 0; 0; 0;
  0; 178; 80; 0; 178; 7; 1; 12; 0; 8; 1; 10; 0; 9; 1; 11; 0; 10; 1; 18; 0; 59; 0; 32;
  0; 48; 0; 36; 0; 66; 0; 24; 0; 72; 0; 20; 0; 80; 0; 19; 0; 16; 0; 255; 0; 17; 0; 255;
  0; 18; 0; 255; 0; 19; 0; 255; 0; 20; 0; 255; 0; 30; 0; 255; 0; 31; 0; 255; 0; 32; 0; 255;
  0; 33; 0; 255; 0; 34; 0; 255; 0; 32; 32; 32; 32; 32; 32; 32; 32; 32; 32; 32; 32; 32; 32; 32;
  32; 32; 32; 32; 32; 32; 32; 32; 32; 32; 32; 32; 32; 32; 32; 32; 32; 32; 32; 32; 32; 32; 32; 32;
  32; 32; 32; 32; 32; 0; 0; 208; 16; 0; 208; 3; 10; 254; 0; 183; 6; 1; 2; 0; 0; 0; 0; 50;
  48; 49; 55; 48; 50; 48; 56; 0; 50; 48; 49; 55; 48; 50; 49; 52; 0; 0; 210; 12; 0; 210; 248; 3;
  4; 3; 6; 128; 4; 3; 0; 0; 216; 9; 0; 216; 1; 2; 1; 136; 0; 34; 73; 110; 116; 101; 108; 32;
  67; 111; 114; 112; 46; 34; 0; 34; 50; 48; 56; 57; 34; 0; 0; 218; 251; 0; 218; 178; 0; 4; 239; 30;
  182; 0; 5; 0; 5; 0; 3; 0; 6; 0; 6; 0; 5; 0; 15; 0; 15; 0; 0; 0; 17; 0; 17; 0;
  2; 0; 18; 0; 18; 0; 4; 0; 30; 0; 30; 0; 0; 0; 34; 0; 34; 0; 1; 0; 35; 0; 35; 0;
  0; 0; 40; 0; 40; 0; 0; 0; 41; 0; 41; 0; 1; 0; 42; 0; 42; 0; 2; 0; 43; 0; 43; 0;
  255; 255; 44; 0; 44; 0; 255; 255; 45; 0; 45; 0; 2; 0; 46; 0; 46; 0; 0; 0; 66; 0; 66; 0;
  1; 0; 67; 0; 67; 0; 0; 0; 80; 0; 80; 0; 1; 0; 85; 0; 85; 0; 0; 0; 92; 0; 92; 0;
  1; 0; 93; 0; 93; 0; 0; 0; 109; 0; 109; 0; 5; 0; 110; 0; 110; 0; 1; 0; 144; 0; 144; 0;
  1; 0; 145; 0; 145; 0; 0; 0; 146; 0; 146; 0; 2; 0; 147; 0; 147; 0; 1; 0; 148; 0; 148; 0;
  0; 0; 151; 0; 151; 0; 1; 0; 152; 0; 152; 0; 0; 0; 155; 0; 155; 0; 1; 0; 157; 0; 157; 0;
  1; 0; 158; 0; 158; 0; 0; 0; 159; 0; 159; 0; 0; 0; 160; 0; 160; 0; 1; 0; 161; 0; 161; 0;
  0; 0; 162; 0; 162; 0; 2; 0; 163; 0; 163; 0; 1; 0; 237; 0; 237; 0; 0; 0; 255; 255; 255; 255;
  0; 0; 0; 0; 218; 251; 1; 218; 178; 0; 4; 239; 30; 182; 0; 240; 0; 240; 0; 1; 0; 245; 0; 245;
  0; 4; 0; 246; 0; 246; 0; 0; 0; 9; 1; 9; 1; 0; 0; 23; 1; 23; 1; 0; 0; 24; 1; 24;
  1; 1; 0; 25; 1; 25; 1; 0; 0; 26; 1; 26; 1; 1; 0; 27; 1; 27; 1; 0; 0; 28; 1; 28;
  1; 1; 0; 29; 1; 29; 1; 0; 0; 30; 1; 30; 1; 1; 0; 31; 1; 31; 1; 0; 0; 32; 1; 32;
  1; 1; 0; 43; 1; 43; 1; 1; 0; 44; 1; 44; 1; 0; 0; 53; 1; 53; 1; 255; 0; 56; 1; 56;
  1; 1; 0; 57; 1; 57; 1; 2; 0; 64; 1; 64; 1; 0; 0; 65; 1; 65; 1; 1; 0; 68; 1; 68;
  1; 0; 0; 69; 1; 69; 1; 1; 0; 70; 1; 70; 1; 0; 0; 71; 1; 71; 1; 1; 0; 74; 1; 74;
  1; 0; 0; 75; 1; 75; 1; 1; 0; 76; 1; 76; 1; 1; 0; 77; 1; 77; 1; 0; 0; 78; 1; 78;
  1; 0; 0; 79; 1; 79; 1; 1; 0; 84; 1; 84; 1; 0; 0; 85; 1; 85; 1; 1; 0; 104; 1; 104;
  1; 0; 0; 105; 1; 105; 1; 1; 0; 117; 1; 117; 1; 2; 0; 118; 1; 118; 1; 1; 0; 152; 1; 152;
  1; 4; 0; 155; 1; 155; 1; 0; 0; 255; 255; 255; 255; 0; 0; 0; 0; 218; 251; 2; 218; 178; 0; 4;
  239; 30; 182; 0; 156; 1; 156; 1; 1; 0; 161; 1; 161; 1; 0; 0; 162; 1; 162; 1; 1; 0; 163; 1;
  163; 1; 0; 0; 164; 1; 164; 1; 1; 0; 165; 1; 165; 1; 0; 0; 166; 1; 166; 1; 1; 0; 167; 1;
  167; 1; 0; 0; 168; 1; 168; 1; 1; 0; 169; 1; 169; 1; 0; 0; 170; 1; 170; 1; 1; 0; 171; 1;
  171; 1; 0; 0; 172; 1; 172; 1; 1; 0; 222; 1; 222; 1; 0; 0; 223; 1; 223; 1; 1; 0; 232; 1;
  232; 1; 0; 0; 233; 1; 233; 1; 1; 0; 234; 1; 234; 1; 0; 0; 235; 1; 235; 1; 1; 0; 2; 2;
  2; 2; 0; 0; 3; 2; 3; 2; 1; 0; 4; 2; 4; 2; 0; 0; 5; 2; 5; 2; 1; 0; 22; 2;
  22; 2; 6; 0; 45; 2; 45; 2; 1; 0; 46; 2; 46; 2; 0; 0; 50; 2; 50; 2; 2; 0; 51; 2;
  51; 2; 1; 0; 53; 2; 53; 2; 1; 0; 54; 2; 54; 2; 0; 0; 74; 2; 74; 2; 1; 0; 75; 2;
  75; 2; 1; 0; 76; 2; 76; 2; 0; 0; 100; 2; 100; 2; 1; 0; 101; 2; 101; 2; 0; 0; 102; 2;
  102; 2; 1; 0; 103; 2; 103; 2; 0; 0; 104; 2; 104; 2; 1; 0; 105; 2; 105; 2; 0; 0; 255; 255;
  255; 255; 0; 0; 0; 0; 218; 251; 3; 218; 178; 0; 4; 239; 30; 182; 0; 108; 2; 108; 2; 1; 0; 109;
  2; 109; 2; 0; 0; 110; 2; 110; 2; 0; 0; 167; 2; 167; 2; 1; 0; 168; 2; 168; 2; 0; 0; 185;
  2; 185; 2; 1; 0; 186; 2; 186; 2; 0; 0; 189; 2; 189; 2; 1; 0; 190; 2; 190; 2; 0; 0; 205;
  2; 205; 2; 1; 0; 216; 2; 216; 2; 255; 255; 217; 2; 217; 2; 255; 255; 218; 2; 218; 2; 255; 255; 219;
  2; 219; 2; 255; 255; 220; 2; 220; 2; 255; 255; 221; 2; 221; 2; 255; 255; 222; 2; 222; 2; 255; 255; 223;
  2; 223; 2; 255; 255; 227; 2; 227; 2; 1; 0; 228; 2; 228; 2; 0; 0; 229; 2; 229; 2; 1; 0; 244;
  2; 244; 2; 1; 0; 245; 2; 245; 2; 0; 0; 253; 2; 253; 2; 1; 0; 254; 2; 254; 2; 0; 0; 15;
  3; 15; 3; 2; 0; 18; 3; 18; 3; 3; 0; 19; 3; 19; 3; 1; 0; 20; 3; 20; 3; 0; 0; 21;
  3; 21; 3; 1; 0; 22; 3; 22; 3; 0; 0; 23; 3; 23; 3; 1; 0; 24; 3; 24; 3; 0; 0; 25;
  3; 25; 3; 1; 0; 26; 3; 26; 3; 0; 0; 27; 3; 27; 3; 1; 0; 28; 3; 28; 3; 0; 0; 29;
  3; 29; 3; 1; 0; 30; 3; 30; 3; 0; 0; 255; 255; 255; 255; 0; 0; 0; 0; 218; 251; 4; 218; 178;
  0; 4; 239; 30; 182; 0; 31; 3; 31; 3; 1; 0; 32; 3; 32; 3; 0; 0; 37; 3; 37; 3; 1; 0;
  38; 3; 38; 3; 1; 0; 45; 3; 45; 3; 1; 0; 46; 3; 46; 3; 0; 0; 79; 3; 79; 3; 1; 0;
  80; 3; 80; 3; 0; 0; 87; 3; 87; 3; 0; 0; 88; 3; 88; 3; 1; 0; 93; 3; 93; 3; 1; 0;
  94; 3; 94; 3; 0; 0; 95; 3; 95; 3; 1; 0; 96; 3; 96; 3; 0; 0; 97; 3; 97; 3; 1; 0;
  98; 3; 98; 3; 0; 0; 105; 3; 105; 3; 0; 0; 106; 3; 106; 3; 1; 0; 107; 3; 107; 3; 2; 0;
  111; 3; 111; 3; 255; 255; 131; 3; 131; 3; 7; 0; 162; 3; 162; 3; 1; 0; 163; 3; 163; 3; 0; 0;
  190; 3; 190; 3; 255; 255; 193; 3; 193; 3; 2; 0; 194; 3; 194; 3; 3; 0; 195; 3; 195; 3; 4; 0;
  197; 3; 197; 3; 1; 0; 201; 3; 201; 3; 1; 0; 202; 3; 202; 3; 0; 0; 226; 3; 226; 3; 0; 0;
  227; 3; 227; 3; 1; 0; 228; 3; 228; 3; 0; 0; 229; 3; 229; 3; 1; 0; 230; 3; 230; 3; 0; 0;
  231; 3; 231; 3; 1; 0; 232; 3; 232; 3; 0; 0; 233; 3; 233; 3; 1; 0; 246; 3; 246; 3; 1; 0;
  255; 255; 255; 255; 0; 0; 0; 0; 218; 233; 5; 218; 178; 0; 4; 239; 30; 182; 0; 247; 3; 247; 3; 0;
  0; 252; 3; 252; 3; 1; 0; 253; 3; 253; 3; 0; 0; 26; 4; 26; 4; 1; 0; 27; 4; 27; 4; 0;
  0; 30; 4; 30; 4; 1; 0; 31; 4; 31; 4; 0; 0; 32; 4; 32; 4; 255; 255; 43; 4; 43; 4; 255;
  255; 49; 4; 49; 4; 255; 255; 50; 4; 50; 4; 1; 0; 51; 4; 51; 4; 0; 0; 54; 4; 54; 4; 1;
  0; 55; 4; 55; 4; 0; 0; 58; 4; 58; 4; 1; 0; 59; 4; 59; 4; 0; 0; 97; 4; 97; 4; 1;
  0; 98; 4; 98; 4; 0; 0; 125; 4; 125; 4; 1; 0; 126; 4; 126; 4; 0; 0; 133; 4; 133; 4; 1;
  0; 134; 4; 134; 4; 0; 0; 62; 64; 62; 64; 0; 0; 63; 64; 63; 64; 1; 0; 0; 128; 0; 128; 0;
  0; 2; 128; 2; 128; 2; 0; 3; 128; 3; 128; 3; 0; 12; 128; 12; 128; 0; 0; 13; 128; 13; 128; 0;
  0; 17; 128; 17; 128; 255; 255; 0; 160; 0; 160; 1; 0; 4; 160; 4; 160; 1; 0; 0; 240; 0; 240; 85;
  0; 2; 240; 2; 240; 3; 0; 5; 240; 5; 240; 127; 0; 6; 240; 6; 240; 0; 0; 255; 255; 255; 255; 0;
  0; 0; 0; 218; 65; 6; 218; 178; 0; 4; 239; 30; 182; 0; 0; 241; 0; 241; 1; 0; 2; 241; 2; 241;
  1; 0; 16; 241; 16; 241; 1; 0; 18; 241; 18; 241; 1; 0; 0; 246; 0; 246; 1; 0; 1; 246; 1; 246;
  1; 0; 16; 246; 16; 246; 1; 0; 17; 246; 17; 246; 1; 0; 255; 255; 255; 255; 0; 0; 0; 0; 220; 22;
  0; 220; 0; 241; 0; 0; 2; 241; 0; 0; 0; 0; 0; 0; 0; 0; 0; 0; 0; 0; 0; 0; 220; 22;
  1; 220; 16; 241; 0; 0; 18; 241; 0; 0; 0; 0; 0; 0; 0; 0; 0; 0; 0; 0; 0; 0; 221; 19;
  0; 221; 2; 1; 0; 0; 246; 1; 246; 0; 0; 0; 0; 0; 0; 0; 0; 0; 0; 221; 19; 1; 221; 2;
  1; 0; 16; 246; 17; 246; 0; 0; 0; 0; 0; 0; 0; 0; 0; 0; 222; 16; 0; 222; 1; 4; 0; 0;
  23; 5; 9; 25; 57; 1; 0; 0; 0; 0; 130; 20; 35; 240; 36; 65; 77; 84; 1; 1; 1; 1; 1; 165;
  175; 2; 128; 0; 1; 0; 0; 0; 131; 64; 36; 240; 63; 0; 0; 0; 11; 0; 0; 0; 0; 0; 8; 0;
  248; 0; 73; 161; 0; 0; 0; 0; 9; 192; 0; 0; 6; 0; 11; 0; 188; 4; 13; 0; 0; 0; 0; 0;
  254; 0; 183; 21; 0; 0; 0; 0; 0; 0; 0; 0; 38; 0; 0; 0; 118; 80; 114; 111; 0; 0; 0; 0;
  0; 0; 237; 26; 37; 240; 3; 1; 0; 1; 0; 4; 0; 0; 2; 0; 0; 0; 0; 160; 0; 3; 0; 0;
  5; 0; 0; 0; 82; 101; 102; 101; 114; 101; 110; 99; 101; 32; 67; 111; 100; 101; 32; 45; 32; 67; 80; 85;
  0; 117; 67; 111; 100; 101; 32; 86; 101; 114; 115; 105; 111; 110; 0; 84; 88; 84; 32; 65; 67; 77; 32; 118;
  101; 114; 115; 105; 111; 110; 0; 0; 237; 26; 38; 240; 3; 1; 0; 1; 0; 4; 0; 0; 2; 0; 11; 0;
  0; 8; 0; 3; 4; 11; 6; 13; 188; 4; 82; 101; 102; 101; 114; 101; 110; 99; 101; 32; 67; 111; 100; 101;
  32; 45; 32; 77; 69; 32; 49; 49; 46; 48; 0; 77; 69; 66; 120; 32; 118; 101; 114; 115; 105; 111; 110; 0;
  77; 69; 32; 70; 105; 114; 109; 119; 97; 114; 101; 32; 86; 101; 114; 115; 105; 111; 110; 0; 67; 111; 114; 112;
  111; 114; 97; 116; 101; 32; 83; 75; 85; 0; 0; 237; 68; 39; 240; 9; 1; 0; 1; 0; 4; 0; 0; 2;
  3; 255; 255; 255; 255; 255; 4; 0; 255; 255; 255; 49; 0; 5; 0; 255; 255; 255; 49; 0; 6; 0; 255; 255;
  255; 255; 255; 7; 0; 62; 0; 0; 0; 0; 8; 0; 52; 0; 0; 0; 0; 9; 0; 62; 0; 0; 0; 0;
  10; 0; 52; 0; 0; 0; 0; 82; 101; 102; 101; 114; 101; 110; 99; 101; 32; 67; 111; 100; 101; 32; 45; 32;
  83; 75; 76; 32; 80; 67; 72; 0; 80; 67; 72; 45; 67; 82; 73; 68; 32; 83; 116; 97; 116; 117; 115; 0;
  68; 105; 115; 97; 98; 108; 101; 100; 0; 80; 67; 72; 45; 67; 82; 73; 68; 32; 79; 114; 105; 103; 105; 110;
  97; 108; 32; 86; 97; 108; 117; 101; 0; 80; 67; 72; 45; 67; 82; 73; 68; 32; 78; 101; 119; 32; 86; 97;
  108; 117; 101; 0; 79; 80; 82; 79; 77; 32; 45; 32; 82; 83; 84; 32; 45; 32; 82; 65; 73; 68; 0; 83;
  75; 76; 32; 80; 67; 72; 32; 72; 32; 66; 120; 32; 72; 115; 105; 111; 32; 86; 101; 114; 115; 105; 111; 110;
  0; 83; 75; 76; 32; 80; 67; 72; 32; 72; 32; 68; 120; 32; 72; 115; 105; 111; 32; 86; 101; 114; 115; 105;
  111; 110; 0; 83; 75; 76; 32; 80; 67; 72; 32; 76; 80; 32; 66; 120; 32; 72; 115; 105; 111; 32; 86; 101;
  114; 115; 105; 111; 110; 0; 83; 75; 76; 32; 80; 67; 72; 32; 76; 80; 32; 67; 120; 32; 72; 115; 105; 111;
  32; 86; 101; 114; 115; 105; 111; 110; 0; 0; 237; 54; 40; 240; 7; 1; 0; 1; 0; 4; 0; 0; 2; 0;
  2; 0; 0; 6; 0; 3; 0; 1; 0; 4; 0; 0; 4; 5; 255; 255; 255; 255; 255; 6; 0; 255; 255; 255;
  7; 0; 7; 0; 255; 255; 255; 7; 0; 8; 0; 255; 255; 255; 2; 3; 82; 101; 102; 101; 114; 101; 110; 99;
  101; 32; 67; 111; 100; 101; 32; 45; 32; 83; 65; 32; 45; 32; 83; 121; 115; 116; 101; 109; 32; 65; 103; 101;
  110; 116; 0; 82; 101; 102; 101; 114; 101; 110; 99; 101; 32; 67; 111; 100; 101; 32; 45; 32; 77; 82; 67; 0;
  83; 65; 32; 45; 32; 80; 67; 73; 101; 32; 86; 101; 114; 115; 105; 111; 110; 0; 83; 65; 45; 67; 82; 73;
  68; 32; 83; 116; 97; 116; 117; 115; 0; 68; 105; 115; 97; 98; 108; 101; 100; 0; 83; 65; 45; 67; 82; 73;
  68; 32; 79; 114; 105; 103; 105; 110; 97; 108; 32; 86; 97; 108; 117; 101; 0; 83; 65; 45; 67; 82; 73; 68;
  32; 78; 101; 119; 32; 86; 97; 108; 117; 101; 0; 79; 80; 82; 79; 77; 32; 45; 32; 86; 66; 73; 79; 83;
  0; 0; 237; 103; 41; 240; 14; 1; 0; 0; 0; 0; 166; 0; 2; 0; 255; 255; 255; 255; 255; 3; 4; 255;
  255; 255; 255; 255; 5; 6; 255; 255; 255; 255; 255; 7; 8; 255; 255; 255; 255; 255; 9; 0; 0; 0; 0; 0;
  0; 10; 0; 255; 255; 255; 255; 255; 11; 0; 255; 255; 0; 0; 0; 12; 0; 255; 255; 255; 255; 255; 13; 0;
  2; 0; 0; 0; 0; 14; 0; 255; 255; 255; 255; 255; 15; 0; 255; 255; 255; 255; 255; 16; 17; 1; 3; 3;
  1; 0; 18; 0; 0; 7; 3; 0; 0; 76; 97; 110; 32; 80; 104; 121; 32; 86; 101; 114; 115; 105; 111; 110;
  0; 83; 101; 110; 115; 111; 114; 32; 70; 105; 114; 109; 119; 97; 114; 101; 32; 86; 101; 114; 115; 105; 111; 110;
  0; 68; 101; 98; 117; 103; 32; 77; 111; 100; 101; 32; 83; 116; 97; 116; 117; 115; 0; 68; 105; 115; 97; 98;
  108; 101; 100; 0; 80; 101; 114; 102; 111; 114; 109; 97; 110; 99; 101; 32; 77; 111; 100; 101; 32; 83; 116; 97;
  116; 117; 115; 0; 68; 105; 115; 97; 98; 108; 101; 100; 0; 68; 101; 98; 117; 103; 32; 85; 115; 101; 32; 85;
  83; 66; 40; 68; 105; 115; 97; 98; 108; 101; 100; 58; 83; 101; 114; 105; 97; 108; 41; 0; 68; 105; 115; 97;
  98; 108; 101; 100; 0; 73; 67; 67; 32; 79; 118; 101; 114; 99; 108; 111; 99; 107; 105; 110; 103; 32; 86; 101;
  114; 115; 105; 111; 110; 0; 85; 78; 68; 73; 32; 86; 101; 114; 115; 105; 111; 110; 0; 69; 67; 32; 70; 87;
  32; 86; 101; 114; 115; 105; 111; 110; 0; 71; 79; 80; 32; 86; 101; 114; 115; 105; 111; 110; 0; 66; 73; 79;
  83; 32; 71; 117; 97; 114; 100; 32; 86; 101; 114; 115; 105; 111; 110; 0; 66; 97; 115; 101; 32; 69; 67; 32;
  70; 87; 32; 86; 101; 114; 115; 105; 111; 110; 0; 69; 67; 45; 69; 67; 32; 80; 114; 111; 116; 111; 99; 111;
  108; 32; 86; 101; 114; 115; 105; 111; 110; 0; 82; 111; 121; 97; 108; 32; 80; 97; 114; 107; 32; 86; 101; 114;
  115; 105; 111; 110; 0; 66; 80; 49; 46; 51; 46; 51; 46; 48; 95; 82; 80; 48; 49; 0; 80; 108; 97; 116;
  102; 111; 114; 109; 32; 86; 101; 114; 115; 105; 111; 110; 0; 0; 136; 6; 54; 240; 90; 90; 0; 0; 14; 20;
  55; 240; 1; 237; 37; 240; 237; 38; 240; 237; 39; 240; 237; 40; 240; 237; 41; 240; 70; 105; 114; 109; 119; 97;
  114; 101; 32; 86; 101; 114; 115; 105; 111; 110; 32; 73; 110; 102; 111; 0; 0; 13; 22; 56; 240; 2; 0; 0;
  0; 0; 0; 0; 0; 0; 0; 0; 0; 0; 0; 0; 0; 0; 1; 101; 110; 124; 85; 83; 124; 105; 115; 111;
  56; 56; 53; 57; 45; 49; 0; 0; 14; 8; 57; 240; 1; 235; 0; 0; 36; 77; 69; 73; 0; 0; 235; 81;
  58; 240; 1; 3; 1; 69; 2; 0; 148; 6; 129; 16; 137; 48; 0; 0; 0; 0; 64; 8; 0; 1; 31; 0;
  0; 201; 11; 192; 71; 2; 255; 255; 255; 255; 255; 255; 255; 255; 255; 255; 255; 255; 255; 255; 255; 255; 255; 255;
  255; 255; 255; 255; 255; 255; 3; 0; 0; 0; 128; 0; 0; 0; 0; 0; 0; 0; 0; 0; 0; 0; 0; 0;
  0; 0; 0; 0; 0; 0; 0; 77; 69; 73; 49; 0; 77; 69; 73; 50; 0; 77; 69; 73; 51; 0; 0; 127;
  4; 59; 240; 0; 0
].

(* tests/data/entry_v3_short.bin, 24 bytes *)
Definition entry_v3_short_bin : list N := [
  95; 83; 77; 51; 95; 100; 24; 3; 0; 0; 1; 0; 59; 29; 0; 0; 176; 217; 14; 0; 0; 0; 0; 0
].

(* tests/data/dmi_v3_short.bin, 3894 bytes *)
Definition dmi_v3_short_bin : list N := [
  0; 24; 0; 0; 1; 2; 0; 240; 3; 255; 128; 152; 139; 63; 1; 0; 0; 0; 3; 13; 5; 6; 255; 255;
  65; 109; 101; 114; 105; 99; 97; 110; 32; 77; 101; 103; 97; 116; 114; 101; 110; 100; 115; 32; 73; 110; 99; 46;
  0; 50; 46; 48; 0; 49; 50; 47; 49; 56; 47; 50; 48; 49; 53; 0; 0; 1; 27; 1; 0; 1; 2; 3;
  4; 0; 0; 0; 0; 0; 0; 0; 0; 0; 0; 12; 196; 122; 121; 57; 186; 6; 5; 6; 83; 117; 112; 101;
  114; 109; 105; 99; 114; 111; 0; 83; 117; 112; 101; 114; 32; 83; 101; 114; 118; 101; 114; 0; 48; 49; 50; 51;
  52; 53; 54; 55; 56; 57; 0; 48; 49; 50; 51; 52; 53; 54; 55; 56; 57; 0; 68; 101; 102; 97; 117; 108;
  116; 32; 115; 116; 114; 105; 110; 103; 0; 68; 101; 102; 97; 117; 108; 116; 32; 115; 116; 114; 105; 110; 103; 0;
  0; 2; 15; 2; 0; 1; 2; 3; 4; 5; 9; 6; 3; 0; 10; 0; 83; 117; 112; 101; 114; 109; 105; 99;
  114; 111; 0; 88; 49; 48; 68; 65; 76; 45; 105; 0; 49; 46; 48; 50; 0; 90; 77; 49; 53; 57; 83; 48;
  49; 55; 52; 52; 51; 0; 68; 101; 102; 97; 117; 108; 116; 32; 115; 116; 114; 105; 110; 103; 0; 68; 101; 102;
  97; 117; 108; 116; 32; 115; 116; 114; 105; 110; 103; 0; 0; 3; 22; 3; 0; 1; 17; 2; 3; 4; 3; 3;
  3; 3; 0; 0; 0; 0; 0; 1; 0; 3; 5; 83; 117; 112; 101; 114; 109; 105; 99; 114; 111; 0; 48; 49;
  50; 51; 52; 53; 54; 55; 56; 57; 0; 48; 49; 50; 51; 52; 53; 54; 55; 56; 57; 0; 68; 101; 102; 97;
  117; 108; 116; 32; 115; 116; 114; 105; 110; 103; 0; 68; 101; 102; 97; 117; 108; 116; 32; 115; 116; 114; 105; 110;
  103; 0; 0; 8; 9; 4; 0; 1; 0; 2; 15; 14; 74; 49; 65; 49; 0; 80; 83; 50; 77; 111; 117; 115;
  101; 0; 0; 8; 9; 5; 0; 1; 0; 2; 15; 13; 74; 49; 65; 49; 0; 75; 101; 121; 98; 111; 97; 114;
  100; 0; 0; 8; 9; 6; 0; 1; 0; 2; 29; 255; 74; 50; 65; 49; 0; 84; 86; 32; 79; 117; 116; 0;
  0; 8; 9; 7; 0; 1; 0; 2; 8; 9; 74; 50; 65; 50; 65; 0; 67; 79; 77; 32; 65; 0; 0; 8;
  9; 8; 0; 1; 0; 2; 7; 28; 74; 50; 65; 50; 66; 0; 86; 105; 100; 101; 111; 0; 0; 8; 9; 9;
  0; 1; 0; 2; 18; 16; 74; 51; 65; 49; 0; 85; 83; 66; 49; 0; 0; 8; 9; 10; 0; 1; 0; 2;
  18; 16; 74; 51; 65; 49; 0; 85; 83; 66; 50; 0; 0; 8; 9; 11; 0; 1; 0; 2; 18; 16; 74; 51;
  65; 49; 0; 85; 83; 66; 51; 0; 0; 8; 9; 12; 0; 1; 255; 0; 0; 255; 74; 57; 65; 49; 32; 45;
  32; 84; 80; 77; 32; 72; 68; 82; 0; 0; 8; 9; 13; 0; 1; 255; 0; 0; 255; 74; 57; 67; 49; 32;
  45; 32; 80; 67; 73; 69; 32; 68; 79; 67; 75; 73; 78; 71; 32; 67; 79; 78; 78; 0; 0; 8; 9; 14;
  0; 1; 255; 0; 0; 255; 74; 50; 66; 51; 32; 45; 32; 67; 80; 85; 32; 70; 65; 78; 0; 0; 8; 9;
  15; 0; 1; 255; 0; 0; 255; 74; 54; 67; 50; 32; 45; 32; 69; 88; 84; 32; 72; 68; 77; 73; 0; 0;
  8; 9; 16; 0; 1; 255; 0; 0; 255; 74; 51; 67; 49; 32; 45; 32; 71; 77; 67; 72; 32; 70; 65; 78;
  0; 0; 8; 9; 17; 0; 1; 255; 0; 0; 255; 74; 49; 68; 49; 32; 45; 32; 73; 84; 80; 0; 0; 8;
  9; 18; 0; 1; 255; 0; 0; 255; 74; 57; 69; 50; 32; 45; 32; 77; 68; 67; 32; 73; 78; 84; 80; 83;
  82; 0; 0; 8; 9; 19; 0; 1; 255; 0; 0; 255; 74; 57; 69; 52; 32; 45; 32; 77; 68; 67; 32; 73;
  78; 84; 80; 83; 82; 0; 0; 8; 9; 20; 0; 1; 255; 0; 0; 255; 74; 57; 69; 51; 32; 45; 32; 76;
  80; 67; 32; 72; 79; 84; 32; 68; 79; 67; 75; 73; 78; 71; 0; 0; 8; 9; 21; 0; 1; 255; 0; 0;
  255; 74; 57; 69; 49; 32; 45; 32; 83; 67; 65; 78; 32; 77; 65; 84; 82; 73; 88; 0; 0; 8; 9; 22;
  0; 1; 255; 0; 0; 255; 74; 57; 71; 49; 32; 45; 32; 76; 80; 67; 32; 83; 73; 68; 69; 32; 66; 65;
  78; 68; 0; 0; 8; 9; 23; 0; 1; 255; 0; 0; 255; 74; 56; 70; 49; 32; 45; 32; 85; 78; 73; 70;
  73; 69; 68; 0; 0; 8; 9; 24; 0; 1; 255; 0; 0; 255; 74; 54; 70; 49; 32; 45; 32; 76; 86; 68;
  83; 0; 0; 8; 9; 25; 0; 1; 255; 0; 0; 255; 74; 50; 70; 49; 32; 45; 32; 76; 65; 73; 32; 70;
  65; 78; 0; 0; 8; 9; 26; 0; 1; 255; 0; 0; 255; 74; 50; 71; 49; 32; 45; 32; 71; 70; 88; 32;
  86; 73; 68; 0; 0; 8; 9; 27; 0; 1; 255; 0; 0; 255; 74; 49; 71; 54; 32; 45; 32; 65; 67; 32;
  74; 65; 67; 75; 0; 0; 9; 17; 28; 0; 1; 182; 11; 4; 3; 1; 0; 12; 1; 0; 0; 1; 0; 67;
  80; 85; 49; 32; 83; 76; 79; 84; 49; 32; 80; 67; 73; 45; 69; 32; 51; 46; 48; 32; 88; 56; 32; 40;
  73; 78; 32; 88; 49; 54; 41; 0; 0; 9; 17; 29; 0; 1; 181; 10; 3; 3; 2; 0; 12; 1; 0; 0;
  255; 0; 67; 80; 85; 50; 32; 83; 76; 79; 84; 50; 32; 80; 67; 73; 45; 69; 32; 51; 46; 48; 32; 88;
  52; 32; 40; 73; 78; 32; 88; 56; 41; 0; 0; 9; 17; 30; 0; 1; 182; 13; 4; 3; 3; 0; 12; 1;
  0; 0; 2; 0; 67; 80; 85; 49; 32; 83; 76; 79; 84; 51; 32; 80; 67; 73; 45; 69; 32; 51; 46; 48;
  32; 88; 49; 54; 0; 0; 9; 17; 31; 0; 1; 182; 13; 3; 3; 5; 0; 12; 1; 0; 0; 3; 0; 67;
  80; 85; 49; 32; 83; 76; 79; 84; 53; 32; 80; 67; 73; 45; 69; 32; 51; 46; 48; 32; 88; 49; 54; 0;
  0; 9; 17; 32; 0; 1; 175; 10; 3; 3; 6; 0; 12; 1; 0; 0; 255; 0; 80; 67; 72; 32; 83; 76;
  79; 84; 54; 32; 80; 67; 73; 45; 69; 32; 50; 46; 48; 32; 88; 52; 32; 40; 73; 78; 32; 88; 56; 41;
  0; 0; 11; 5; 33; 0; 2; 73; 110; 116; 101; 108; 32; 72; 97; 115; 119; 101; 108; 108; 47; 87; 101; 108;
  108; 115; 98; 117; 114; 103; 47; 71; 114; 97; 110; 116; 108; 101; 121; 0; 83; 117; 112; 101; 114; 109; 105; 99;
  114; 111; 32; 109; 111; 116; 104; 101; 114; 98; 111; 97; 114; 100; 45; 88; 49; 48; 32; 83; 101; 114; 105; 101;
  115; 0; 0; 12; 5; 34; 0; 1; 68; 101; 102; 97; 117; 108; 116; 32; 115; 116; 114; 105; 110; 103; 0; 0;
  32; 20; 35; 0; 0; 0; 0; 0; 0; 0; 0; 0; 0; 0; 0; 0; 0; 0; 0; 0; 0; 0; 34; 11;
  36; 0; 1; 2; 0; 0; 0; 0; 2; 85; 78; 75; 78; 79; 87; 78; 0; 0; 26; 22; 37; 0; 1; 0;
  0; 128; 0; 128; 0; 128; 0; 128; 0; 128; 0; 0; 0; 0; 0; 128; 76; 77; 55; 56; 65; 0; 0; 36;
  16; 38; 0; 1; 0; 2; 0; 3; 0; 4; 0; 5; 0; 6; 0; 0; 0; 35; 11; 39; 0; 1; 36; 0;
  36; 0; 37; 0; 68; 101; 102; 97; 117; 108; 116; 32; 115; 116; 114; 105; 110; 103; 0; 0; 28; 22; 40; 0;
  1; 0; 0; 128; 0; 128; 0; 128; 0; 128; 0; 128; 0; 0; 0; 0; 0; 128; 76; 77; 55; 56; 65; 0;
  0; 36; 16; 41; 0; 1; 0; 2; 0; 3; 0; 4; 0; 5; 0; 6; 0; 0; 0; 35; 11; 42; 0; 1;
  36; 0; 39; 0; 40; 0; 68; 101; 102; 97; 117; 108; 116; 32; 115; 116; 114; 105; 110; 103; 0; 0; 27; 15;
  43; 0; 40; 0; 18; 1; 0; 0; 0; 0; 0; 128; 1; 67; 111; 111; 108; 105; 110; 103; 32; 68; 101; 118;
  32; 49; 0; 0; 36; 16; 44; 0; 1; 0; 2; 0; 3; 0; 4; 0; 5; 0; 6; 0; 0; 0; 35; 11;
  45; 0; 1; 36; 0; 42; 0; 43; 0; 68; 101; 102; 97; 117; 108; 116; 32; 115; 116; 114; 105; 110; 103; 0;
  0; 27; 15; 46; 0; 40; 0; 18; 1; 0; 0; 0; 0; 0; 128; 0; 0; 0; 36; 16; 47; 0; 1; 0;
  2; 0; 3; 0; 4; 0; 5; 0; 6; 0; 0; 0; 35; 11; 48; 0; 1; 36; 0; 45; 0; 46; 0; 68;
  101; 102; 97; 117; 108; 116; 32; 115; 116; 114; 105; 110; 103; 0; 0; 29; 22; 49; 0; 1; 0; 0; 128; 0;
  128; 0; 128; 0; 128; 0; 128; 0; 0; 0; 0; 0; 128; 65; 66; 67; 0; 0; 36; 16; 50; 0; 0; 128;
  0; 128; 0; 128; 0; 128; 0; 128; 0; 128; 0; 0; 35; 11; 51; 0; 1; 36; 0; 48; 0; 46; 0; 68;
  101; 102; 97; 117; 108; 116; 32; 115; 116; 114; 105; 110; 103; 0; 0; 34; 16; 52; 0; 1; 2; 0; 0; 0;
  0; 2; 85; 78; 75; 78; 79; 87; 78; 45; 50; 0; 0; 26; 22; 53; 0; 1; 0; 0; 128; 0; 128; 0;
  128; 0; 128; 0; 128; 0; 0; 0; 0; 0; 128; 76; 77; 55; 56; 66; 0; 0; 36; 16; 54; 0; 7; 0;
  8; 0; 8; 0; 10; 0; 11; 0; 12; 0; 0; 0; 35; 11; 55; 0; 1; 52; 0; 52; 0; 53; 0; 68;
  101; 102; 97; 117; 108; 116; 32; 115; 116; 114; 105; 110; 103; 0; 0; 26; 22; 56; 0; 1; 0; 0; 128; 0;
  128; 0; 128; 0; 128; 0; 128; 0; 0; 0; 0; 0; 128; 76; 77; 55; 56; 66; 0; 0; 36; 16; 57; 0;
  13; 0; 14; 0; 15; 0; 16; 0; 17; 0; 18; 0; 0; 0; 35; 11; 58; 0; 1; 52; 0; 55; 0; 56;
  0; 68; 101; 102; 97; 117; 108; 116; 32; 115; 116; 114; 105; 110; 103; 0; 0; 28; 22; 59; 0; 1; 0; 0;
  128; 0; 128; 0; 128; 0; 128; 0; 128; 0; 0; 0; 0; 0; 128; 76; 77; 55; 56; 66; 0; 0; 36; 16;
  60; 0; 1; 0; 2; 0; 3; 0; 4; 0; 5; 0; 6; 0; 0; 0; 35; 11; 61; 0; 1; 52; 0; 58;
  0; 59; 0; 68; 101; 102; 97; 117; 108; 116; 32; 115; 116; 114; 105; 110; 103; 0; 0; 27; 15; 62; 0; 59;
  0; 18; 1; 0; 0; 0; 0; 0; 128; 1; 67; 111; 111; 108; 105; 110; 103; 32; 68; 101; 118; 32; 50; 0;
  0; 36; 16; 63; 0; 1; 0; 2; 0; 3; 0; 4; 0; 5; 0; 6; 0; 0; 0; 35; 11; 64; 0; 1;
  52; 0; 61; 0; 62; 0; 68; 101; 102; 97; 117; 108; 116; 32; 115; 116; 114; 105; 110; 103; 0; 0; 28; 22;
  65; 0; 1; 0; 0; 128; 0; 128; 0; 128; 0; 128; 0; 128; 0; 0; 0; 0; 0; 128; 76; 77; 55; 56;
  66; 0; 0; 36; 16; 66; 0; 1; 0; 2; 0; 3; 0; 4; 0; 5; 0; 6; 0; 0; 0; 35; 11; 67;
  0; 1; 52; 0; 64; 0; 65; 0; 68; 101; 102; 97; 117; 108; 116; 32; 115; 116; 114; 105; 110; 103; 0; 0;
  27; 15; 68; 0; 65; 0; 18; 1; 0; 0; 0; 0; 0; 128; 1; 67; 111; 111; 108; 105; 110; 103; 32; 68;
  101; 118; 32; 50; 0; 0; 36; 16; 69; 0; 1; 0; 2; 0; 3; 0; 4; 0; 5; 0; 6; 0; 0; 0;
  35; 11; 70; 0; 1; 52; 0; 67; 0; 68; 0; 68; 101; 102; 97; 117; 108; 116; 32; 115; 116; 114; 105; 110;
  103; 0; 0; 29; 22; 71; 0; 1; 0; 0; 128; 0; 128; 0; 128; 0; 128; 0; 128; 0; 0; 0; 0; 0;
  128; 68; 69; 70; 0; 0; 36; 16; 72; 0; 0; 128; 0; 128; 0; 128; 0; 128; 0; 128; 0; 128; 0; 0;
  35; 11; 73; 0; 1; 52; 0; 70; 0; 68; 0; 68; 101; 102; 97; 117; 108; 116; 32; 115; 116; 114; 105; 110;
  103; 0; 0; 29; 22; 74; 0; 1; 0; 0; 128; 0; 128; 0; 128; 0; 128; 0; 128; 0; 0; 0; 0; 0;
  128; 71; 72; 73; 0; 0; 36; 16; 75; 0; 0; 128; 0; 128; 0; 128; 0; 128; 0; 128; 0; 128; 0; 0;
  35; 11; 76; 0; 1; 52; 0; 73; 0; 68; 0; 68; 101; 102; 97; 117; 108; 116; 32; 115; 116; 114; 105; 110;
  103; 0; 0; 41; 11; 77; 0; 1; 133; 1; 0; 0; 5; 0; 73; 110; 116; 101; 108; 32; 69; 116; 104; 101;
  114; 110; 101; 116; 32; 105; 50; 49; 48; 32; 35; 49; 0; 0; 41; 11; 78; 0; 1; 133; 2; 0; 0; 6;
  0; 73; 110; 116; 101; 108; 32; 69; 116; 104; 101; 114; 110; 101; 116; 32; 105; 50; 49; 48; 32; 35; 50; 0;
  0; 16; 23; 79; 0; 3; 3; 6; 0; 0; 0; 16; 254; 255; 4; 0; 0; 0; 0; 0; 0; 0; 0; 0;
  0; 0; 17; 40; 80; 0; 79; 0; 254; 255; 72; 0; 64; 0; 0; 64; 9; 0; 1; 2; 26; 128; 0; 85;
  8; 3; 4; 5; 6; 2; 0; 0; 0; 0; 64; 6; 0; 0; 0; 0; 0; 0; 80; 49; 45; 68; 73; 77;
  77; 65; 49; 0; 80; 48; 95; 78; 111; 100; 101; 48; 95; 67; 104; 97; 110; 110; 101; 108; 48; 95; 68; 105;
  109; 109; 48; 0; 83; 97; 109; 115; 117; 110; 103; 0; 55; 50; 57; 48; 55; 70; 57; 52; 0; 80; 49; 45;
  68; 73; 77; 77; 65; 49; 95; 65; 115; 115; 101; 116; 84; 97; 103; 32; 40; 100; 97; 116; 101; 58; 49; 53;
  47; 50; 53; 41; 0; 77; 51; 57; 51; 65; 50; 71; 52; 48; 68; 66; 48; 45; 67; 80; 66; 32; 32; 32;
  0; 0; 17; 40; 81; 0; 79; 0; 254; 255; 0; 0; 0; 0; 0; 0; 9; 0; 1; 2; 26; 128; 0; 0;
  0; 3; 4; 5; 6; 0; 0; 0; 0; 0; 0; 0; 0; 0; 0; 0; 0; 0; 80; 49; 45; 68; 73; 77;
  77; 66; 49; 0; 80; 48; 95; 78; 111; 100; 101; 48; 95; 67; 104; 97; 110; 110; 101; 108; 49; 95; 68; 105;
  109; 109; 48; 0; 78; 79; 32; 68; 73; 77; 77; 0; 78; 79; 32; 68; 73; 77; 77; 0; 78; 79; 32; 68;
  73; 77; 77; 0; 78; 79; 32; 68; 73; 77; 77; 0; 0; 17; 40; 82; 0; 79; 0; 254; 255; 0; 0; 0;
  0; 0; 0; 9; 0; 1; 2; 26; 128; 0; 0; 0; 3; 4; 5; 6; 0; 0; 0; 0; 0; 0; 0; 0;
  0; 0; 0; 0; 0; 80; 49; 45; 68; 73; 77; 77; 67; 49; 0; 80; 48; 95; 78; 111; 100; 101; 48; 95;
  67; 104; 97; 110; 110; 101; 108; 50; 95; 68; 105; 109; 109; 48; 0; 78; 79; 32; 68; 73; 77; 77; 0; 78;
  79; 32; 68; 73; 77; 77; 0; 78; 79; 32; 68; 73; 77; 77; 0; 78; 79; 32; 68; 73; 77; 77; 0; 0;
  17; 40; 83; 0; 79; 0; 254; 255; 0; 0; 0; 0; 0; 0; 9; 0; 1; 2; 26; 128; 0; 0; 0; 3;
  4; 5; 6; 0; 0; 0; 0; 0; 0; 0; 0; 0; 0; 0; 0; 0; 80; 49; 45; 68; 73; 77; 77; 68;
  49; 0; 80; 48; 95; 78; 111; 100; 101; 48; 95; 67; 104; 97; 110; 110; 101; 108; 51; 95; 68; 105; 109; 109;
  48; 0; 78; 79; 32; 68; 73; 77; 77; 0; 78; 79; 32; 68; 73; 77; 77; 0; 78; 79; 32; 68; 73; 77;
  77; 0; 78; 79; 32; 68; 73; 77; 77; 0; 0; 16; 23; 84; 0; 3; 3; 6; 0; 0; 0; 16; 254; 255;
  4; 0; 0; 0; 0; 0; 0; 0; 0; 0; 0; 0; 17; 40; 85; 0; 84; 0; 254; 255; 0; 0; 0; 0;
  0; 0; 9; 0; 1; 2; 26; 128; 0; 0; 0; 3; 4; 5; 6; 0; 0; 0; 0; 0; 0; 0; 0; 0;
  0; 0; 0; 0; 80; 50; 45; 68; 73; 77; 77; 69; 49; 0; 80; 49; 95; 78; 111; 100; 101; 49; 95; 67;
  104; 97; 110; 110; 101; 108; 48; 95; 68; 105; 109; 109; 48; 0; 78; 79; 32; 68; 73; 77; 77; 0; 78; 79;
  32; 68; 73; 77; 77; 0; 78; 79; 32; 68; 73; 77; 77; 0; 78; 79; 32; 68; 73; 77; 77; 0; 0; 17;
  40; 86; 0; 84; 0; 254; 255; 0; 0; 0; 0; 0; 0; 9; 0; 1; 2; 26; 128; 0; 0; 0; 3; 4;
  5; 6; 0; 0; 0; 0; 0; 0; 0; 0; 0; 0; 0; 0; 0; 80; 50; 45; 68; 73; 77; 77; 70; 49;
  0; 80; 49; 95; 78; 111; 100; 101; 49; 95; 67; 104; 97; 110; 110; 101; 108; 49; 95; 68; 105; 109; 109; 48;
  0; 78; 79; 32; 68; 73; 77; 77; 0; 78; 79; 32; 68; 73; 77; 77; 0; 78; 79; 32; 68; 73; 77; 77;
  0; 78; 79; 32; 68; 73; 77; 77; 0; 0; 17; 40; 87; 0; 84; 0; 254; 255; 0; 0; 0; 0; 0; 0;
  9; 0; 1; 2; 26; 128; 0; 0; 0; 3; 4; 5; 6; 0; 0; 0; 0; 0; 0; 0; 0; 0; 0; 0;
  0; 0; 80; 50; 45; 68; 73; 77; 77; 71; 49; 0; 80; 49; 95; 78; 111; 100; 101; 49; 95; 67; 104; 97;
  110; 110; 101; 108; 50; 95; 68; 105; 109; 109; 48; 0; 78; 79; 32; 68; 73; 77; 77; 0; 78; 79; 32; 68;
  73; 77; 77; 0; 78; 79; 32; 68; 73; 77; 77; 0; 78; 79; 32; 68; 73; 77; 77; 0; 0; 17; 40; 88;
  0; 84; 0; 254; 255; 0; 0; 0; 0; 0; 0; 9; 0; 1; 2; 26; 128; 0; 0; 0; 3; 4; 5; 6;
  0; 0; 0; 0; 0; 0; 0; 0; 0; 0; 0; 0; 0; 80; 50; 45; 68; 73; 77; 77; 72; 49; 0; 80;
  49; 95; 78; 111; 100; 101; 49; 95; 67; 104; 97; 110; 110; 101; 108; 51; 95; 68; 105; 109; 109; 48; 0; 78;
  79; 32; 68; 73; 77; 77; 0; 78; 79; 32; 68; 73; 77; 77; 0; 78; 79; 32; 68; 73; 77; 77; 0; 78;
  79; 32; 68; 73; 77; 77; 0; 0; 19; 31; 89; 0; 0; 0; 0; 0; 255; 255; 255; 0; 79; 0; 1; 0;
  0; 0; 0; 0; 0; 0; 0; 0; 0; 0; 0; 0; 0; 0; 0; 0; 0; 20; 35; 90; 0; 0; 0; 0;
  0; 255; 255; 255; 0; 80; 0; 89; 0; 1; 0; 0; 0; 0; 0; 0; 0; 0; 0; 0; 0; 0; 0; 0;
  0; 0; 0; 0; 0; 0; 15; 73; 91; 0; 255; 255; 0; 0; 16; 0; 3; 1; 1; 0; 0; 0; 0; 0;
  84; 255; 1; 25; 2; 1; 3; 2; 3; 3; 0; 4; 0; 5; 0; 6; 0; 7; 0; 8; 4; 9; 3; 10;
  3; 11; 0; 12; 0; 13; 0; 14; 0; 16; 0; 17; 0; 18; 0; 19; 0; 20; 0; 21; 0; 22; 0; 23;
  0; 255; 0; 224; 224; 225; 225; 0; 0; 7; 19; 92; 0; 1; 128; 1; 128; 1; 128; 1; 2; 0; 2; 0;
  0; 4; 1; 7; 67; 80; 85; 32; 73; 110; 116; 101; 114; 110; 97; 108; 32; 76; 49; 0; 0; 7; 19; 93;
  0; 1; 129; 1; 0; 6; 0; 6; 2; 0; 2; 0; 0; 5; 5; 7; 67; 80; 85; 32; 73; 110; 116; 101;
  114; 110; 97; 108; 32; 76; 50; 0; 0; 7; 19; 94; 0; 1; 130; 1; 0; 60; 0; 60; 2; 0; 2; 0;
  0; 5; 5; 14; 67; 80; 85; 32; 73; 110; 116; 101; 114; 110; 97; 108; 32; 76; 51; 0; 0; 4; 42; 95;
  0; 1; 3; 179; 2; 242; 6; 3; 0; 255; 251; 235; 191; 3; 146; 100; 0; 160; 15; 64; 6; 65; 43; 92;
  0; 93; 0; 94; 0; 0; 0; 0; 6; 6; 6; 236; 0; 179; 0; 67; 80; 85; 49; 0; 73; 110; 116; 101;
  108; 0; 73; 110; 116; 101; 108; 40; 82; 41; 32; 88; 101; 111; 110; 40; 82; 41; 32; 67; 80; 85; 32; 69;
  53; 45; 50; 54; 48; 51; 32; 118; 51; 32; 64; 32; 49; 46; 54; 48; 71; 72; 122; 0; 0; 7; 19; 96;
  0; 1; 128; 1; 128; 1; 128; 1; 2; 0; 2; 0; 0; 4; 1; 7; 67; 80; 85; 32; 73; 110; 116; 101;
  114; 110; 97; 108; 32; 76; 49; 0; 0; 7; 19; 97; 0; 1; 129; 1; 0; 6; 0; 6; 2; 0; 2; 0;
  0; 5; 5; 7; 67; 80; 85; 32; 73; 110; 116; 101; 114; 110; 97; 108; 32; 76; 50; 0; 0; 7; 19; 98;
  0; 1; 130; 1; 0; 60; 0; 60; 2; 0; 2; 0; 0; 5; 5; 14; 67; 80; 85; 32; 73; 110; 116; 101;
  114; 110; 97; 108; 32; 76; 51; 0; 0; 4; 42; 99; 0; 1; 3; 179; 2; 242; 6; 3; 0; 255; 251; 235;
  191; 3; 146; 100; 0; 160; 15; 64; 6; 65; 43; 96; 0; 97; 0; 98; 0; 0; 0; 0; 6; 6; 6; 236;
  0; 179; 0; 67; 80; 85; 50; 0; 73; 110; 116; 101; 108; 0; 73; 110; 116; 101; 108; 40; 82; 41; 32; 88;
  101; 111; 110; 40; 82; 41; 32; 67; 80; 85; 32; 69; 53; 45; 50; 54; 48; 51; 32; 118; 51; 32; 64; 32;
  49; 46; 54; 48; 71; 72; 122; 0; 0; 13; 22; 100; 0; 1; 0; 0; 0; 0; 0; 0; 0; 0; 0; 0;
  0; 0; 0; 0; 0; 0; 1; 101; 110; 124; 85; 83; 124; 105; 115; 111; 56; 56; 53; 57; 45; 49; 0; 0;
  127; 4; 101; 0; 0; 0
].

(* tests/data/dmi.0.bin, 4901 bytes *)
Definition dmi_0_bin : list N := [
  95; 83; 77; 51; 95; 25; 24; 3; 2; 0; 1; 0; 5; 19; 0; 0; 32; 0; 0; 0; 0; 0; 0; 0;
  0; 0; 0; 0; 0; 0; 0; 0; 218; 17; 0; 218; 178; 0; 23; 32; 14; 16; 3; 255; 255; 0; 0; 0;
  0; 0; 0; 0; 26; 0; 0; 1; 2; 0; 240; 3; 255; 144; 154; 233; 89; 0; 0; 31; 0; 3; 15; 2;
  8; 255; 255; 32; 0; 68; 101; 108; 108; 32; 73; 110; 99; 46; 0; 50; 46; 56; 46; 50; 0; 48; 56; 47;
  50; 55; 47; 50; 48; 50; 48; 0; 0; 1; 27; 0; 1; 1; 2; 0; 3; 51; 34; 17; 0; 85; 68; 119;
  102; 136; 153; 170; 187; 204; 221; 238; 255; 6; 5; 4; 68; 101; 108; 108; 32; 73; 110; 99; 46; 0; 80; 111;
  119; 101; 114; 69; 100; 103; 101; 32; 82; 55; 55; 55; 115; 100; 0; 88; 88; 88; 88; 88; 88; 88; 0; 80;
  111; 119; 101; 114; 69; 100; 103; 101; 0; 83; 75; 85; 61; 48; 55; 55; 55; 59; 77; 111; 100; 101; 108; 78;
  97; 109; 101; 61; 80; 111; 119; 101; 114; 69; 100; 103; 101; 32; 82; 55; 55; 55; 115; 100; 0; 0; 2; 8;
  0; 2; 1; 2; 3; 4; 68; 101; 108; 108; 32; 73; 110; 99; 46; 0; 48; 56; 56; 56; 56; 56; 0; 77;
  48; 51; 0; 46; 88; 88; 88; 88; 88; 88; 88; 46; 88; 88; 88; 88; 88; 88; 88; 88; 88; 88; 88; 88;
  88; 88; 46; 0; 0; 3; 28; 0; 3; 1; 151; 0; 2; 0; 3; 3; 3; 2; 1; 1; 1; 1; 2; 2;
  2; 3; 145; 1; 2; 3; 255; 0; 3; 68; 101; 108; 108; 32; 73; 110; 99; 46; 0; 88; 88; 88; 88; 88;
  88; 88; 0; 83; 75; 85; 32; 78; 117; 109; 98; 101; 114; 0; 0; 4; 48; 0; 4; 1; 3; 179; 2; 84;
  6; 5; 0; 255; 251; 235; 191; 3; 146; 160; 40; 160; 15; 152; 8; 65; 38; 0; 7; 1; 7; 2; 7; 0;
  0; 0; 14; 14; 28; 252; 0; 179; 0; 14; 0; 14; 0; 28; 0; 67; 80; 85; 49; 0; 73; 110; 116; 101;
  108; 0; 73; 110; 116; 101; 108; 40; 82; 41; 32; 88; 101; 111; 110; 40; 82; 41; 32; 71; 111; 108; 100; 32;
  53; 49; 50; 48; 32; 67; 80; 85; 32; 64; 32; 50; 46; 50; 48; 71; 72; 122; 0; 0; 4; 48; 1; 4;
  1; 3; 179; 2; 84; 6; 5; 0; 255; 251; 235; 191; 3; 146; 160; 40; 160; 15; 152; 8; 65; 38; 3; 7;
  4; 7; 5; 7; 0; 0; 0; 14; 14; 28; 252; 0; 179; 0; 14; 0; 14; 0; 28; 0; 67; 80; 85; 50;
  0; 73; 110; 116; 101; 108; 0; 73; 110; 116; 101; 108; 40; 82; 41; 32; 88; 101; 111; 110; 40; 82; 41; 32;
  71; 111; 108; 100; 32; 53; 49; 50; 48; 32; 67; 80; 85; 32; 64; 32; 50; 46; 50; 48; 71; 72; 122; 0;
  0; 7; 27; 0; 7; 0; 128; 1; 128; 3; 128; 3; 2; 0; 2; 0; 0; 4; 5; 7; 0; 0; 0; 0;
  0; 0; 0; 0; 0; 0; 7; 27; 1; 7; 0; 129; 1; 0; 56; 0; 56; 2; 0; 2; 0; 0; 5; 5;
  8; 0; 0; 0; 0; 0; 0; 0; 0; 0; 0; 7; 27; 2; 7; 0; 130; 1; 0; 77; 0; 77; 2; 0;
  2; 0; 0; 5; 5; 6; 0; 0; 0; 0; 0; 0; 0; 0; 0; 0; 7; 27; 3; 7; 0; 128; 1; 128;
  3; 128; 3; 2; 0; 2; 0; 0; 4; 5; 7; 0; 0; 0; 0; 0; 0; 0; 0; 0; 0; 7; 27; 4;
  7; 0; 129; 1; 0; 56; 0; 56; 2; 0; 2; 0; 0; 5; 5; 8; 0; 0; 0; 0; 0; 0; 0; 0;
  0; 0; 7; 27; 5; 7; 0; 130; 1; 0; 77; 0; 77; 2; 0; 2; 0; 0; 5; 5; 6; 0; 0; 0;
  0; 0; 0; 0; 0; 0; 0; 8; 9; 0; 8; 1; 18; 0; 0; 16; 73; 110; 116; 101; 114; 110; 97; 108;
  32; 85; 83; 66; 32; 112; 111; 114; 116; 32; 49; 0; 0; 8; 9; 1; 8; 0; 0; 1; 18; 16; 70; 114;
  111; 110; 116; 32; 85; 83; 66; 32; 112; 111; 114; 116; 32; 49; 0; 0; 8; 9; 2; 8; 0; 0; 1; 18;
  16; 66; 97; 99; 107; 32; 85; 83; 66; 32; 112; 111; 114; 116; 32; 49; 0; 0; 8; 9; 3; 8; 0; 0;
  1; 18; 16; 70; 114; 111; 110; 116; 32; 85; 83; 66; 32; 112; 111; 114; 116; 32; 50; 0; 0; 8; 9; 4;
  8; 0; 0; 1; 18; 16; 66; 97; 99; 107; 32; 85; 83; 66; 32; 112; 111; 114; 116; 32; 50; 0; 0; 8;
  9; 5; 8; 0; 0; 1; 7; 28; 86; 105; 100; 101; 111; 32; 112; 111; 114; 116; 32; 49; 0; 0; 8; 9;
  6; 8; 0; 0; 1; 8; 9; 83; 101; 114; 105; 97; 108; 32; 112; 111; 114; 116; 32; 49; 0; 0; 8; 9;
  7; 8; 0; 0; 1; 11; 31; 49; 0; 0; 8; 9; 8; 8; 0; 0; 1; 11; 31; 50; 0; 0; 8; 9;
  9; 8; 0; 0; 1; 11; 31; 51; 0; 0; 8; 9; 10; 8; 0; 0; 1; 11; 31; 52; 0; 0; 9; 17;
  0; 9; 1; 182; 11; 3; 4; 1; 0; 4; 1; 255; 255; 255; 255; 80; 67; 73; 101; 32; 83; 108; 111; 116;
  32; 49; 0; 0; 9; 17; 1; 9; 1; 182; 11; 3; 4; 2; 0; 4; 1; 255; 255; 255; 255; 80; 67; 73;
  101; 32; 83; 108; 111; 116; 32; 50; 0; 0; 9; 17; 2; 9; 1; 182; 11; 3; 4; 3; 0; 4; 1; 255;
  255; 255; 255; 80; 67; 73; 101; 32; 83; 108; 111; 116; 32; 51; 0; 0; 9; 17; 3; 9; 1; 177; 13; 4;
  4; 4; 0; 4; 1; 0; 0; 175; 0; 80; 67; 73; 101; 32; 83; 108; 111; 116; 32; 52; 0; 0; 11; 5;
  0; 11; 9; 68; 101; 108; 108; 32; 83; 121; 115; 116; 101; 109; 0; 53; 91; 48; 48; 48; 48; 93; 0; 49;
  52; 91; 49; 93; 0; 50; 54; 91; 48; 93; 0; 49; 55; 91; 50; 48; 49; 48; 54; 56; 54; 53; 69; 56;
  53; 65; 69; 55; 53; 66; 93; 0; 49; 55; 91; 50; 48; 49; 53; 53; 57; 69; 53; 53; 66; 69; 52; 50;
  56; 50; 65; 93; 0; 49; 56; 91; 48; 93; 0; 49; 57; 91; 49; 93; 0; 49; 57; 91; 49; 93; 0; 0;
  12; 5; 0; 12; 2; 78; 86; 82; 65; 77; 95; 67; 76; 82; 58; 32; 67; 108; 101; 97; 114; 32; 117; 115;
  101; 114; 32; 115; 101; 116; 116; 97; 98; 108; 101; 32; 78; 86; 82; 65; 77; 32; 97; 114; 101; 97; 115; 32;
  97; 110; 100; 32; 115; 101; 116; 32; 100; 101; 102; 97; 117; 108; 116; 115; 0; 80; 87; 82; 68; 95; 69; 78;
  58; 32; 67; 108; 111; 115; 101; 32; 116; 111; 32; 101; 110; 97; 98; 108; 101; 32; 112; 97; 115; 115; 119; 111;
  114; 100; 0; 0; 13; 22; 0; 13; 1; 0; 0; 0; 0; 0; 0; 0; 0; 0; 0; 0; 0; 0; 0; 0;
  0; 1; 101; 110; 124; 85; 83; 124; 105; 115; 111; 56; 56; 53; 57; 45; 49; 0; 0; 16; 23; 0; 16; 3;
  3; 6; 0; 0; 0; 128; 254; 255; 24; 0; 0; 0; 0; 0; 128; 7; 0; 0; 0; 0; 17; 84; 0; 17;
  0; 16; 254; 255; 72; 0; 64; 0; 0; 64; 9; 1; 1; 0; 26; 128; 32; 85; 8; 2; 3; 4; 5; 2;
  0; 0; 0; 0; 85; 8; 176; 4; 176; 4; 176; 4; 3; 8; 0; 0; 0; 0; 0; 0; 0; 0; 0; 0;
  0; 0; 0; 0; 0; 0; 0; 0; 0; 0; 0; 0; 4; 0; 0; 0; 0; 0; 0; 0; 0; 0; 0; 0;
  0; 0; 0; 0; 0; 0; 0; 0; 65; 49; 0; 48; 48; 65; 68; 48; 48; 66; 51; 48; 48; 65; 68; 0;
  88; 88; 88; 88; 88; 88; 88; 88; 0; 48; 49; 49; 53; 51; 57; 51; 48; 0; 72; 77; 65; 52; 50; 71;
  82; 55; 77; 70; 82; 52; 78; 45; 84; 70; 0; 0; 17; 84; 1; 17; 0; 16; 254; 255; 72; 0; 64; 0;
  0; 64; 9; 1; 1; 0; 26; 128; 32; 85; 8; 2; 3; 4; 5; 2; 0; 0; 0; 0; 85; 8; 176; 4;
  176; 4; 176; 4; 3; 8; 0; 0; 0; 0; 0; 0; 0; 0; 0; 0; 0; 0; 0; 0; 0; 0; 0; 0;
  0; 0; 0; 0; 4; 0; 0; 0; 0; 0; 0; 0; 0; 0; 0; 0; 0; 0; 0; 0; 0; 0; 0; 0;
  65; 50; 0; 48; 48; 65; 68; 48; 48; 66; 51; 48; 48; 65; 68; 0; 88; 88; 88; 88; 88; 88; 88; 88;
  0; 48; 49; 49; 54; 48; 51; 51; 48; 0; 72; 77; 65; 52; 50; 71; 82; 55; 77; 70; 82; 52; 78; 45;
  84; 70; 0; 0; 17; 84; 2; 17; 0; 16; 254; 255; 72; 0; 64; 0; 0; 64; 9; 1; 1; 0; 26; 128;
  32; 85; 8; 2; 3; 4; 5; 2; 0; 0; 0; 0; 85; 8; 176; 4; 176; 4; 176; 4; 3; 8; 0; 0;
  0; 0; 0; 0; 0; 0; 0; 0; 0; 0; 0; 0; 0; 0; 0; 0; 0; 0; 0; 0; 4; 0; 0; 0;
  0; 0; 0; 0; 0; 0; 0; 0; 0; 0; 0; 0; 0; 0; 0; 0; 65; 51; 0; 48; 48; 50; 67; 48;
  48; 66; 51; 48; 48; 50; 67; 0; 88; 88; 88; 88; 88; 88; 88; 88; 0; 48; 70; 49; 52; 52; 57; 51;
  48; 0; 51; 54; 65; 83; 70; 50; 71; 55; 50; 80; 90; 45; 50; 71; 49; 65; 50; 0; 0; 17; 84; 3;
  17; 0; 16; 254; 255; 72; 0; 64; 0; 0; 64; 9; 1; 1; 0; 26; 128; 32; 85; 8; 2; 3; 4; 5;
  2; 0; 0; 0; 0; 85; 8; 176; 4; 176; 4; 176; 4; 3; 8; 0; 0; 0; 0; 0; 0; 0; 0; 0;
  0; 0; 0; 0; 0; 0; 0; 0; 0; 0; 0; 0; 0; 4; 0; 0; 0; 0; 0; 0; 0; 0; 0; 0;
  0; 0; 0; 0; 0; 0; 0; 0; 0; 65; 52; 0; 48; 48; 50; 67; 48; 48; 66; 51; 48; 48; 50; 67;
  0; 88; 88; 88; 88; 88; 88; 88; 88; 0; 48; 70; 49; 53; 50; 55; 51; 48; 0; 51; 54; 65; 83; 70;
  50; 71; 55; 50; 80; 90; 45; 50; 71; 49; 65; 50; 0; 0; 17; 84; 4; 17; 0; 16; 254; 255; 0; 0;
  0; 0; 0; 0; 2; 1; 1; 0; 2; 0; 0; 0; 0; 0; 0; 0; 0; 0; 0; 0; 0; 0; 0; 0;
  0; 0; 0; 0; 0; 0; 0; 0; 0; 0; 0; 0; 0; 0; 0; 0; 0; 0; 0; 0; 0; 0; 0; 0;
  0; 0; 0; 0; 0; 0; 0; 0; 0; 0; 0; 0; 0; 0; 0; 0; 0; 0; 0; 0; 0; 0; 0; 0;
  0; 0; 65; 53; 0; 0; 17; 84; 5; 17; 0; 16; 254; 255; 0; 0; 0; 0; 0; 0; 2; 1; 1; 0;
  2; 0; 0; 0; 0; 0; 0; 0; 0; 0; 0; 0; 0; 0; 0; 0; 0; 0; 0; 0; 0; 0; 0; 0;
  0; 0; 0; 0; 0; 0; 0; 0; 0; 0; 0; 0; 0; 0; 0; 0; 0; 0; 0; 0; 0; 0; 0; 0;
  0; 0; 0; 0; 0; 0; 0; 0; 0; 0; 0; 0; 0; 0; 0; 0; 0; 0; 65; 54; 0; 0; 17; 84;
  6; 17; 0; 16; 254; 255; 0; 0; 0; 0; 0; 0; 2; 2; 1; 0; 2; 0; 0; 0; 0; 0; 0; 0;
  0; 0; 0; 0; 0; 0; 0; 0; 0; 0; 0; 0; 0; 0; 0; 0; 0; 0; 0; 0; 0; 0; 0; 0;
  0; 0; 0; 0; 0; 0; 0; 0; 0; 0; 0; 0; 0; 0; 0; 0; 0; 0; 0; 0; 0; 0; 0; 0;
  0; 0; 0; 0; 0; 0; 0; 0; 0; 0; 65; 55; 0; 0; 17; 84; 7; 17; 0; 16; 254; 255; 0; 0;
  0; 0; 0; 0; 2; 2; 1; 0; 2; 0; 0; 0; 0; 0; 0; 0; 0; 0; 0; 0; 0; 0; 0; 0;
  0; 0; 0; 0; 0; 0; 0; 0; 0; 0; 0; 0; 0; 0; 0; 0; 0; 0; 0; 0; 0; 0; 0; 0;
  0; 0; 0; 0; 0; 0; 0; 0; 0; 0; 0; 0; 0; 0; 0; 0; 0; 0; 0; 0; 0; 0; 0; 0;
  0; 0; 65; 56; 0; 0; 17; 84; 8; 17; 0; 16; 254; 255; 0; 0; 0; 0; 0; 0; 2; 2; 1; 0;
  2; 0; 0; 0; 0; 0; 0; 0; 0; 0; 0; 0; 0; 0; 0; 0; 0; 0; 0; 0; 0; 0; 0; 0;
  0; 0; 0; 0; 0; 0; 0; 0; 0; 0; 0; 0; 0; 0; 0; 0; 0; 0; 0; 0; 0; 0; 0; 0;
  0; 0; 0; 0; 0; 0; 0; 0; 0; 0; 0; 0; 0; 0; 0; 0; 0; 0; 65; 57; 0; 0; 17; 84;
  9; 17; 0; 16; 254; 255; 0; 0; 0; 0; 0; 0; 2; 2; 1; 0; 2; 0; 0; 0; 0; 0; 0; 0;
  0; 0; 0; 0; 0; 0; 0; 0; 0; 0; 0; 0; 0; 0; 0; 0; 0; 0; 0; 0; 0; 0; 0; 0;
  0; 0; 0; 0; 0; 0; 0; 0; 0; 0; 0; 0; 0; 0; 0; 0; 0; 0; 0; 0; 0; 0; 0; 0;
  0; 0; 0; 0; 0; 0; 0; 0; 0; 0; 65; 49; 48; 0; 0; 17; 84; 10; 17; 0; 16; 254; 255; 0;
  0; 0; 0; 0; 0; 2; 2; 1; 0; 2; 0; 0; 0; 0; 0; 0; 0; 0; 0; 0; 0; 0; 0; 0;
  0; 0; 0; 0; 0; 0; 0; 0; 0; 0; 0; 0; 0; 0; 0; 0; 0; 0; 0; 0; 0; 0; 0; 0;
  0; 0; 0; 0; 0; 0; 0; 0; 0; 0; 0; 0; 0; 0; 0; 0; 0; 0; 0; 0; 0; 0; 0; 0;
  0; 0; 0; 65; 49; 49; 0; 0; 17; 84; 11; 17; 0; 16; 254; 255; 0; 0; 0; 0; 0; 0; 2; 2;
  1; 0; 2; 0; 0; 0; 0; 0; 0; 0; 0; 0; 0; 0; 0; 0; 0; 0; 0; 0; 0; 0; 0; 0;
  0; 0; 0; 0; 0; 0; 0; 0; 0; 0; 0; 0; 0; 0; 0; 0; 0; 0; 0; 0; 0; 0; 0; 0;
  0; 0; 0; 0; 0; 0; 0; 0; 0; 0; 0; 0; 0; 0; 0; 0; 0; 0; 0; 0; 65; 49; 50; 0;
  0; 17; 84; 12; 17; 0; 16; 254; 255; 72; 0; 64; 0; 0; 64; 9; 3; 1; 0; 26; 128; 32; 85; 8;
  2; 3; 4; 5; 2; 0; 0; 0; 0; 85; 8; 176; 4; 176; 4; 176; 4; 3; 8; 0; 0; 0; 0; 0;
  0; 0; 0; 0; 0; 0; 0; 0; 0; 0; 0; 0; 0; 0; 0; 0; 0; 4; 0; 0; 0; 0; 0; 0;
  0; 0; 0; 0; 0; 0; 0; 0; 0; 0; 0; 0; 0; 66; 49; 0; 48; 48; 65; 68; 48; 48; 66; 51;
  48; 48; 65; 68; 0; 88; 88; 88; 88; 88; 88; 88; 88; 0; 48; 49; 49; 53; 51; 57; 51; 48; 0; 72;
  77; 65; 52; 50; 71; 82; 55; 77; 70; 82; 52; 78; 45; 84; 70; 0; 0; 17; 84; 13; 17; 0; 16; 254;
  255; 72; 0; 64; 0; 0; 64; 9; 3; 1; 0; 26; 128; 32; 85; 8; 2; 3; 4; 5; 2; 0; 0; 0;
  0; 85; 8; 176; 4; 176; 4; 176; 4; 3; 8; 0; 0; 0; 0; 0; 0; 0; 0; 0; 0; 0; 0; 0;
  0; 0; 0; 0; 0; 0; 0; 0; 0; 4; 0; 0; 0; 0; 0; 0; 0; 0; 0; 0; 0; 0; 0; 0;
  0; 0; 0; 0; 0; 66; 50; 0; 48; 48; 50; 67; 48; 48; 66; 51; 48; 48; 50; 67; 0; 88; 88; 88;
  88; 88; 88; 88; 88; 0; 48; 70; 49; 53; 50; 54; 51; 48; 0; 51; 54; 65; 83; 70; 50; 71; 55; 50;
  80; 90; 45; 50; 71; 49; 65; 50; 0; 0; 17; 84; 14; 17; 0; 16; 254; 255; 72; 0; 64; 0; 0; 64;
  9; 3; 1; 0; 26; 128; 32; 85; 8; 2; 3; 4; 5; 2; 0; 0; 0; 0; 85; 8; 176; 4; 176; 4;
  176; 4; 3; 8; 0; 0; 0; 0; 0; 0; 0; 0; 0; 0; 0; 0; 0; 0; 0; 0; 0; 0; 0; 0;
  0; 0; 4; 0; 0; 0; 0; 0; 0; 0; 0; 0; 0; 0; 0; 0; 0; 0; 0; 0; 0; 0; 66; 51;
  0; 48; 48; 65; 68; 48; 48; 66; 51; 48; 48; 65; 68; 0; 88; 88; 88; 88; 88; 88; 88; 88; 0; 48;
  49; 49; 53; 51; 55; 51; 48; 0; 72; 77; 65; 52; 50; 71; 82; 55; 77; 70; 82; 52; 78; 45; 84; 70;
  0; 0; 17; 84; 15; 17; 0; 16; 254; 255; 72; 0; 64; 0; 0; 64; 9; 3; 1; 0; 26; 128; 32; 85;
  8; 2; 3; 4; 5; 2; 0; 0; 0; 0; 85; 8; 176; 4; 176; 4; 176; 4; 3; 8; 0; 0; 0; 0;
  0; 0; 0; 0; 0; 0; 0; 0; 0; 0; 0; 0; 0; 0; 0; 0; 0; 0; 4; 0; 0; 0; 0; 0;
  0; 0; 0; 0; 0; 0; 0; 0; 0; 0; 0; 0; 0; 0; 66; 52; 0; 48; 48; 65; 68; 48; 48; 66;
  51; 48; 48; 65; 68; 0; 88; 88; 88; 88; 88; 88; 88; 88; 0; 48; 49; 49; 53; 51; 56; 51; 48; 0;
  72; 77; 65; 52; 50; 71; 82; 55; 77; 70; 82; 52; 78; 45; 84; 70; 0; 0; 17; 84; 16; 17; 0; 16;
  254; 255; 0; 0; 0; 0; 0; 0; 2; 3; 1; 0; 2; 0; 0; 0; 0; 0; 0; 0; 0; 0; 0; 0;
  0; 0; 0; 0; 0; 0; 0; 0; 0; 0; 0; 0; 0; 0; 0; 0; 0; 0; 0; 0; 0; 0; 0; 0;
  0; 0; 0; 0; 0; 0; 0; 0; 0; 0; 0; 0; 0; 0; 0; 0; 0; 0; 0; 0; 0; 0; 0; 0;
  0; 0; 0; 0; 0; 0; 66; 53; 0; 0; 17; 84; 17; 17; 0; 16; 254; 255; 0; 0; 0; 0; 0; 0;
  2; 3; 1; 0; 2; 0; 0; 0; 0; 0; 0; 0; 0; 0; 0; 0; 0; 0; 0; 0; 0; 0; 0; 0;
  0; 0; 0; 0; 0; 0; 0; 0; 0; 0; 0; 0; 0; 0; 0; 0; 0; 0; 0; 0; 0; 0; 0; 0;
  0; 0; 0; 0; 0; 0; 0; 0; 0; 0; 0; 0; 0; 0; 0; 0; 0; 0; 0; 0; 0; 0; 66; 54;
  0; 0; 17; 84; 18; 17; 0; 16; 254; 255; 0; 0; 0; 0; 0; 0; 2; 4; 1; 0; 2; 0; 0; 0;
  0; 0; 0; 0; 0; 0; 0; 0; 0; 0; 0; 0; 0; 0; 0; 0; 0; 0; 0; 0; 0; 0; 0; 0;
  0; 0; 0; 0; 0; 0; 0; 0; 0; 0; 0; 0; 0; 0; 0; 0; 0; 0; 0; 0; 0; 0; 0; 0;
  0; 0; 0; 0; 0; 0; 0; 0; 0; 0; 0; 0; 0; 0; 66; 55; 0; 0; 17; 84; 19; 17; 0; 16;
  254; 255; 0; 0; 0; 0; 0; 0; 2; 4; 1; 0; 2; 0; 0; 0; 0; 0; 0; 0; 0; 0; 0; 0;
  0; 0; 0; 0; 0; 0; 0; 0; 0; 0; 0; 0; 0; 0; 0; 0; 0; 0; 0; 0; 0; 0; 0; 0;
  0; 0; 0; 0; 0; 0; 0; 0; 0; 0; 0; 0; 0; 0; 0; 0; 0; 0; 0; 0; 0; 0; 0; 0;
  0; 0; 0; 0; 0; 0; 66; 56; 0; 0; 17; 84; 20; 17; 0; 16; 254; 255; 0; 0; 0; 0; 0; 0;
  2; 4; 1; 0; 2; 0; 0; 0; 0; 0; 0; 0; 0; 0; 0; 0; 0; 0; 0; 0; 0; 0; 0; 0;
  0; 0; 0; 0; 0; 0; 0; 0; 0; 0; 0; 0; 0; 0; 0; 0; 0; 0; 0; 0; 0; 0; 0; 0;
  0; 0; 0; 0; 0; 0; 0; 0; 0; 0; 0; 0; 0; 0; 0; 0; 0; 0; 0; 0; 0; 0; 66; 57;
  0; 0; 17; 84; 21; 17; 0; 16; 254; 255; 0; 0; 0; 0; 0; 0; 2; 4; 1; 0; 2; 0; 0; 0;
  0; 0; 0; 0; 0; 0; 0; 0; 0; 0; 0; 0; 0; 0; 0; 0; 0; 0; 0; 0; 0; 0; 0; 0;
  0; 0; 0; 0; 0; 0; 0; 0; 0; 0; 0; 0; 0; 0; 0; 0; 0; 0; 0; 0; 0; 0; 0; 0;
  0; 0; 0; 0; 0; 0; 0; 0; 0; 0; 0; 0; 0; 0; 66; 49; 48; 0; 0; 17; 84; 22; 17; 0;
  16; 254; 255; 0; 0; 0; 0; 0; 0; 2; 4; 1; 0; 2; 0; 0; 0; 0; 0; 0; 0; 0; 0; 0;
  0; 0; 0; 0; 0; 0; 0; 0; 0; 0; 0; 0; 0; 0; 0; 0; 0; 0; 0; 0; 0; 0; 0; 0;
  0; 0; 0; 0; 0; 0; 0; 0; 0; 0; 0; 0; 0; 0; 0; 0; 0; 0; 0; 0; 0; 0; 0; 0;
  0; 0; 0; 0; 0; 0; 0; 66; 49; 49; 0; 0; 17; 84; 23; 17; 0; 16; 254; 255; 0; 0; 0; 0;
  0; 0; 2; 4; 1; 0; 2; 0; 0; 0; 0; 0; 0; 0; 0; 0; 0; 0; 0; 0; 0; 0; 0; 0;
  0; 0; 0; 0; 0; 0; 0; 0; 0; 0; 0; 0; 0; 0; 0; 0; 0; 0; 0; 0; 0; 0; 0; 0;
  0; 0; 0; 0; 0; 0; 0; 0; 0; 0; 0; 0; 0; 0; 0; 0; 0; 0; 0; 0; 0; 0; 0; 0;
  66; 49; 50; 0; 0; 19; 31; 0; 19; 0; 0; 0; 0; 255; 255; 31; 0; 0; 16; 2; 0; 0; 0; 0;
  0; 0; 0; 0; 0; 0; 0; 0; 0; 0; 0; 0; 0; 0; 19; 31; 1; 19; 0; 0; 64; 0; 255; 255;
  31; 8; 0; 16; 2; 0; 0; 0; 0; 0; 0; 0; 0; 0; 0; 0; 0; 0; 0; 0; 0; 0; 0; 32;
  11; 0; 32; 0; 0; 0; 0; 0; 0; 0; 0; 0; 38; 18; 0; 38; 1; 32; 32; 255; 169; 12; 0; 0;
  0; 0; 0; 0; 74; 10; 0; 0; 39; 22; 0; 39; 0; 0; 1; 2; 3; 0; 4; 0; 76; 4; 19; 9;
  255; 255; 255; 255; 255; 255; 80; 87; 82; 32; 83; 80; 76; 89; 44; 49; 49; 48; 48; 87; 44; 82; 68; 78;
  84; 44; 68; 69; 76; 84; 65; 32; 32; 32; 32; 32; 0; 68; 69; 76; 76; 0; 88; 88; 88; 88; 88; 88;
  88; 88; 88; 88; 88; 88; 88; 88; 0; 48; 89; 50; 54; 75; 88; 65; 48; 50; 0; 0; 39; 22; 1; 39;
  0; 0; 1; 2; 3; 0; 4; 0; 76; 4; 19; 9; 255; 255; 255; 255; 255; 255; 80; 87; 82; 32; 83; 80;
  76; 89; 44; 49; 49; 48; 48; 87; 44; 82; 68; 78; 84; 44; 68; 69; 76; 84; 65; 32; 32; 32; 32; 32;
  0; 68; 69; 76; 76; 0; 88; 88; 88; 88; 88; 88; 88; 88; 88; 88; 88; 88; 88; 88; 0; 48; 89; 50;
  54; 75; 88; 65; 48; 50; 0; 0; 41; 11; 0; 41; 1; 133; 1; 0; 0; 24; 0; 73; 110; 116; 101; 103;
  114; 97; 116; 101; 100; 32; 78; 73; 67; 32; 49; 0; 0; 41; 11; 1; 41; 1; 133; 2; 0; 0; 24; 1;
  73; 110; 116; 101; 103; 114; 97; 116; 101; 100; 32; 78; 73; 67; 32; 50; 0; 0; 41; 11; 2; 41; 1; 133;
  3; 0; 0; 25; 0; 73; 110; 116; 101; 103; 114; 97; 116; 101; 100; 32; 78; 73; 67; 32; 51; 0; 0; 41;
  11; 3; 41; 1; 133; 4; 0; 0; 25; 1; 73; 110; 116; 101; 103; 114; 97; 116; 101; 100; 32; 78; 73; 67;
  32; 52; 0; 0; 41; 11; 4; 41; 1; 138; 1; 0; 0; 59; 0; 73; 110; 116; 101; 103; 114; 97; 116; 101;
  100; 32; 82; 65; 73; 68; 0; 0; 41; 11; 5; 41; 1; 131; 1; 0; 0; 3; 0; 69; 109; 98; 101; 100;
  100; 101; 100; 32; 86; 105; 100; 101; 111; 0; 0; 177; 12; 0; 177; 2; 2; 0; 0; 0; 0; 0; 0; 0;
  0; 208; 16; 0; 208; 3; 11; 254; 0; 55; 7; 0; 0; 0; 1; 0; 0; 0; 0; 210; 12; 0; 210; 248;
  2; 3; 3; 6; 128; 4; 5; 0; 0; 212; 27; 0; 212; 112; 0; 113; 0; 0; 0; 0; 0; 92; 0; 120;
  254; 1; 93; 0; 120; 254; 0; 255; 255; 255; 255; 255; 0; 0; 216; 9; 0; 216; 1; 2; 0; 240; 3; 77;
  97; 116; 114; 111; 120; 0; 123; 42; 32; 67; 111; 110; 116; 101; 110; 116; 32; 84; 66; 68; 32; 42; 125; 0;
  0; 222; 16; 0; 222; 0; 128; 0; 0; 32; 9; 21; 21; 51; 3; 0; 1; 0; 0; 225; 13; 0; 225; 1;
  1; 0; 4; 0; 2; 1; 4; 0; 67; 80; 85; 46; 83; 111; 99; 107; 101; 116; 46; 49; 0; 67; 80; 85;
  46; 83; 111; 99; 107; 101; 116; 46; 50; 0; 0; 225; 101; 1; 225; 1; 1; 0; 17; 0; 2; 1; 17; 0;
  3; 2; 17; 0; 4; 3; 17; 0; 5; 4; 17; 0; 6; 5; 17; 0; 7; 6; 17; 0; 8; 7; 17; 0;
  9; 8; 17; 0; 10; 9; 17; 0; 11; 10; 17; 0; 12; 11; 17; 0; 13; 12; 17; 0; 14; 13; 17; 0;
  15; 14; 17; 0; 16; 15; 17; 0; 17; 16; 17; 0; 18; 17; 17; 0; 19; 18; 17; 0; 20; 19; 17; 0;
  21; 20; 17; 0; 22; 21; 17; 0; 23; 22; 17; 0; 24; 23; 17; 0; 68; 73; 77; 77; 46; 83; 111; 99;
  107; 101; 116; 46; 65; 49; 0; 68; 73; 77; 77; 46; 83; 111; 99; 107; 101; 116; 46; 65; 50; 0; 68; 73;
  77; 77; 46; 83; 111; 99; 107; 101; 116; 46; 65; 51; 0; 68; 73; 77; 77; 46; 83; 111; 99; 107; 101; 116;
  46; 65; 52; 0; 68; 73; 77; 77; 46; 83; 111; 99; 107; 101; 116; 46; 65; 53; 0; 68; 73; 77; 77; 46;
  83; 111; 99; 107; 101; 116; 46; 65; 54; 0; 68; 73; 77; 77; 46; 83; 111; 99; 107; 101; 116; 46; 65; 55;
  0; 68; 73; 77; 77; 46; 83; 111; 99; 107; 101; 116; 46; 65; 56; 0; 68; 73; 77; 77; 46; 83; 111; 99;
  107; 101; 116; 46; 65; 57; 0; 68; 73; 77; 77; 46; 83; 111; 99; 107; 101; 116; 46; 65; 49; 48; 0; 68;
  73; 77; 77; 46; 83; 111; 99; 107; 101; 116; 46; 65; 49; 49; 0; 68; 73; 77; 77; 46; 83; 111; 99; 107;
  101; 116; 46; 65; 49; 50; 0; 68; 73; 77; 77; 46; 83; 111; 99; 107; 101; 116; 46; 66; 49; 0; 68; 73;
  77; 77; 46; 83; 111; 99; 107; 101; 116; 46; 66; 50; 0; 68; 73; 77; 77; 46; 83; 111; 99; 107; 101; 116;
  46; 66; 51; 0; 68; 73; 77; 77; 46; 83; 111; 99; 107; 101; 116; 46; 66; 52; 0; 68; 73; 77; 77; 46;
  83; 111; 99; 107; 101; 116; 46; 66; 53; 0; 68; 73; 77; 77; 46; 83; 111; 99; 107; 101; 116; 46; 66; 54;
  0; 68; 73; 77; 77; 46; 83; 111; 99; 107; 101; 116; 46; 66; 55; 0; 68; 73; 77; 77; 46; 83; 111; 99;
  107; 101; 116; 46; 66; 56; 0; 68; 73; 77; 77; 46; 83; 111; 99; 107; 101; 116; 46; 66; 57; 0; 68; 73;
  77; 77; 46; 83; 111; 99; 107; 101; 116; 46; 66; 49; 48; 0; 68; 73; 77; 77; 46; 83; 111; 99; 107; 101;
  116; 46; 66; 49; 49; 0; 68; 73; 77; 77; 46; 83; 111; 99; 107; 101; 116; 46; 66; 49; 50; 0; 0; 127;
  4; 255; 254; 0; 0
].

(* tests/data/02daadcd/entries/15-0/bin, 79 bytes *)
Definition type15_bin : list N := [
  15; 77; 54; 0; 255; 63; 0; 0; 16; 0; 3; 1; 1; 0; 0; 0; 0; 0; 196; 255; 1; 27; 2; 1;
  0; 2; 0; 3; 0; 4; 0; 5; 0; 6; 0; 7; 0; 8; 4; 9; 0; 10; 0; 11; 0; 12; 0; 13;
  0; 14; 0; 16; 0; 17; 0; 18; 0; 19; 0; 20; 0; 21; 0; 22; 0; 23; 0; 255; 0; 176; 176; 177;
  177; 224; 224; 225; 225; 0; 0
].

(* tests/data/caf65269/entries/18-0/bin, 25 bytes *)
Definition type18_bin : list N := [
  18; 23; 227; 1; 3; 2; 2; 0; 0; 0; 0; 0; 0; 0; 128; 0; 0; 0; 128; 0; 0; 0; 128; 0;
  0
].

(* tests/data/02daadcd/entries/19-0/bin, 33 bytes *)
Definition type19_bin : list N := [
  19; 31; 39; 0; 0; 0; 0; 0; 0; 192; 7; 2; 38; 0; 255; 0; 0; 0; 0; 0; 0; 0; 0; 0;
  0; 0; 0; 0; 0; 0; 0; 0; 0
].

(* tests/data/02daadcd/entries/20-0/bin, 37 bytes *)
Definition type20_bin : list N := [
  20; 35; 41; 0; 0; 0; 0; 0; 255; 255; 255; 0; 40; 0; 39; 0; 0; 255; 255; 0; 0; 0; 0; 0;
  0; 0; 0; 0; 0; 0; 0; 0; 0; 0; 0; 0; 0
].

(* tests/data/________/entries/21-0/bin, 9 bytes *)
Definition type21_bin : list N := [
  21; 7; 170; 170; 3; 3; 3; 0; 0
].

(* tests/data/________/entries/22-0/bin, 58 bytes *)
Definition type22_bin : list N := [
  22; 26; 40; 0; 1; 2; 0; 0; 3; 2; 236; 19; 40; 60; 4; 255; 139; 5; 225; 80; 5; 10; 0; 0;
  0; 0; 70; 114; 111; 110; 116; 0; 76; 71; 67; 0; 53; 66; 49; 48; 87; 49; 51; 57; 51; 48; 0; 48;
  51; 46; 48; 49; 0; 76; 105; 80; 0; 0
].
