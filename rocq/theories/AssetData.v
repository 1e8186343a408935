(** Generated by tools/gen_assets.py from /repo/assets/test: the bytes of the
    golden files. *)
From Coq Require Import ZArith List.
Import ListNotations.
Open Scope Z_scope.

(** bool.npy *)
Definition asset_bool_npy : list Z :=
  [ 147; 78; 85; 77; 80; 89; 1; 0; 118; 0; 123; 39; 100; 101; 115; 99; 114; 39; 58; 32;
    39; 124; 98; 49; 39; 44; 32; 39; 102; 111; 114; 116; 114; 97; 110; 95; 111; 114; 100; 101;
    114; 39; 58; 32; 70; 97; 108; 115; 101; 44; 32; 39; 115; 104; 97; 112; 101; 39; 58; 32;
    40; 53; 44; 32; 50; 44; 32; 53; 41; 44; 32; 125; 32; 32; 32; 32; 32; 32; 32; 32;
    32; 32; 32; 32; 32; 32; 32; 32; 32; 32; 32; 32; 32; 32; 32; 32; 32; 32; 32; 32;
    32; 32; 32; 32; 32; 32; 32; 32; 32; 32; 32; 32; 32; 32; 32; 32; 32; 32; 32; 32;
    32; 32; 32; 32; 32; 32; 32; 10; 0; 1; 0; 1; 0; 1; 0; 1; 0; 1; 0; 1;
    0; 1; 0; 1; 0; 1; 0; 1; 0; 1; 0; 1; 0; 1; 0; 1; 0; 1; 0; 1;
    0; 1; 0; 1; 0; 1; 0; 1; 0; 1; 0; 1; 0; 1; 0; 1; 0; 1 ].

(** complex128.npy *)
Definition asset_complex128_npy : list Z :=
  [ 147; 78; 85; 77; 80; 89; 1; 0; 118; 0; 123; 39; 100; 101; 115; 99; 114; 39; 58; 32;
    39; 60; 99; 49; 54; 39; 44; 32; 39; 102; 111; 114; 116; 114; 97; 110; 95; 111; 114; 100;
    101; 114; 39; 58; 32; 70; 97; 108; 115; 101; 44; 32; 39; 115; 104; 97; 112; 101; 39; 58;
    32; 40; 53; 44; 32; 50; 44; 32; 53; 41; 44; 32; 125; 32; 32; 32; 32; 32; 32; 32;
    32; 32; 32; 32; 32; 32; 32; 32; 32; 32; 32; 32; 32; 32; 32; 32; 32; 32; 32; 32;
    32; 32; 32; 32; 32; 32; 32; 32; 32; 32; 32; 32; 32; 32; 32; 32; 32; 32; 32; 32;
    32; 32; 32; 32; 32; 32; 32; 10; 0; 0; 0; 0; 0; 0; 0; 0; 0; 0; 0; 0;
    0; 0; 0; 0; 0; 0; 0; 0; 0; 0; 240; 63; 0; 0; 0; 0; 0; 0; 0; 0;
    0; 0; 0; 0; 0; 0; 0; 64; 0; 0; 0; 0; 0; 0; 0; 0; 0; 0; 0; 0;
    0; 0; 8; 64; 0; 0; 0; 0; 0; 0; 0; 0; 0; 0; 0; 0; 0; 0; 16; 64;
    0; 0; 0; 0; 0; 0; 0; 0; 0; 0; 0; 0; 0; 0; 20; 64; 0; 0; 0; 0;
    0; 0; 0; 0; 0; 0; 0; 0; 0; 0; 24; 64; 0; 0; 0; 0; 0; 0; 0; 0;
    0; 0; 0; 0; 0; 0; 28; 64; 0; 0; 0; 0; 0; 0; 0; 0; 0; 0; 0; 0;
    0; 0; 32; 64; 0; 0; 0; 0; 0; 0; 0; 0; 0; 0; 0; 0; 0; 0; 34; 64;
    0; 0; 0; 0; 0; 0; 0; 0; 0; 0; 0; 0; 0; 0; 36; 64; 0; 0; 0; 0;
    0; 0; 0; 0; 0; 0; 0; 0; 0; 0; 38; 64; 0; 0; 0; 0; 0; 0; 0; 0;
    0; 0; 0; 0; 0; 0; 40; 64; 0; 0; 0; 0; 0; 0; 0; 0; 0; 0; 0; 0;
    0; 0; 42; 64; 0; 0; 0; 0; 0; 0; 0; 0; 0; 0; 0; 0; 0; 0; 44; 64;
    0; 0; 0; 0; 0; 0; 0; 0; 0; 0; 0; 0; 0; 0; 46; 64; 0; 0; 0; 0;
    0; 0; 0; 0; 0; 0; 0; 0; 0; 0; 48; 64; 0; 0; 0; 0; 0; 0; 0; 0;
    0; 0; 0; 0; 0; 0; 49; 64; 0; 0; 0; 0; 0; 0; 0; 0; 0; 0; 0; 0;
    0; 0; 50; 64; 0; 0; 0; 0; 0; 0; 0; 0; 0; 0; 0; 0; 0; 0; 51; 64;
    0; 0; 0; 0; 0; 0; 0; 0; 0; 0; 0; 0; 0; 0; 52; 64; 0; 0; 0; 0;
    0; 0; 0; 0; 0; 0; 0; 0; 0; 0; 53; 64; 0; 0; 0; 0; 0; 0; 0; 0;
    0; 0; 0; 0; 0; 0; 54; 64; 0; 0; 0; 0; 0; 0; 0; 0; 0; 0; 0; 0;
    0; 0; 55; 64; 0; 0; 0; 0; 0; 0; 0; 0; 0; 0; 0; 0; 0; 0; 56; 64;
    0; 0; 0; 0; 0; 0; 0; 0; 0; 0; 0; 0; 0; 0; 57; 64; 0; 0; 0; 0;
    0; 0; 0; 0; 0; 0; 0; 0; 0; 0; 58; 64; 0; 0; 0; 0; 0; 0; 0; 0;
    0; 0; 0; 0; 0; 0; 59; 64; 0; 0; 0; 0; 0; 0; 0; 0; 0; 0; 0; 0;
    0; 0; 60; 64; 0; 0; 0; 0; 0; 0; 0; 0; 0; 0; 0; 0; 0; 0; 61; 64;
    0; 0; 0; 0; 0; 0; 0; 0; 0; 0; 0; 0; 0; 0; 62; 64; 0; 0; 0; 0;
    0; 0; 0; 0; 0; 0; 0; 0; 0; 0; 63; 64; 0; 0; 0; 0; 0; 0; 0; 0;
    0; 0; 0; 0; 0; 0; 64; 64; 0; 0; 0; 0; 0; 0; 0; 0; 0; 0; 0; 0;
    0; 128; 64; 64; 0; 0; 0; 0; 0; 0; 0; 0; 0; 0; 0; 0; 0; 0; 65; 64;
    0; 0; 0; 0; 0; 0; 0; 0; 0; 0; 0; 0; 0; 128; 65; 64; 0; 0; 0; 0;
    0; 0; 0; 0; 0; 0; 0; 0; 0; 0; 66; 64; 0; 0; 0; 0; 0; 0; 0; 0;
    0; 0; 0; 0; 0; 128; 66; 64; 0; 0; 0; 0; 0; 0; 0; 0; 0; 0; 0; 0;
    0; 0; 67; 64; 0; 0; 0; 0; 0; 0; 0; 0; 0; 0; 0; 0; 0; 128; 67; 64;
    0; 0; 0; 0; 0; 0; 0; 0; 0; 0; 0; 0; 0; 0; 68; 64; 0; 0; 0; 0;
    0; 0; 0; 0; 0; 0; 0; 0; 0; 128; 68; 64; 0; 0; 0; 0; 0; 0; 0; 0;
    0; 0; 0; 0; 0; 0; 69; 64; 0; 0; 0; 0; 0; 0; 0; 0; 0; 0; 0; 0;
    0; 128; 69; 64; 0; 0; 0; 0; 0; 0; 0; 0; 0; 0; 0; 0; 0; 0; 70; 64;
    0; 0; 0; 0; 0; 0; 0; 0; 0; 0; 0; 0; 0; 128; 70; 64; 0; 0; 0; 0;
    0; 0; 0; 0; 0; 0; 0; 0; 0; 0; 71; 64; 0; 0; 0; 0; 0; 0; 0; 0;
    0; 0; 0; 0; 0; 128; 71; 64; 0; 0; 0; 0; 0; 0; 0; 0; 0; 0; 0; 0;
    0; 0; 72; 64; 0; 0; 0; 0; 0; 0; 0; 0; 0; 0; 0; 0; 0; 128; 72; 64;
    0; 0; 0; 0; 0; 0; 0; 0 ].

(** complex64.npy *)
Definition asset_complex64_npy : list Z :=
  [ 147; 78; 85; 77; 80; 89; 1; 0; 118; 0; 123; 39; 100; 101; 115; 99; 114; 39; 58; 32;
    39; 60; 99; 56; 39; 44; 32; 39; 102; 111; 114; 116; 114; 97; 110; 95; 111; 114; 100; 101;
    114; 39; 58; 32; 70; 97; 108; 115; 101; 44; 32; 39; 115; 104; 97; 112; 101; 39; 58; 32;
    40; 53; 44; 32; 50; 44; 32; 53; 41; 44; 32; 125; 32; 32; 32; 32; 32; 32; 32; 32;
    32; 32; 32; 32; 32; 32; 32; 32; 32; 32; 32; 32; 32; 32; 32; 32; 32; 32; 32; 32;
    32; 32; 32; 32; 32; 32; 32; 32; 32; 32; 32; 32; 32; 32; 32; 32; 32; 32; 32; 32;
    32; 32; 32; 32; 32; 32; 32; 10; 0; 0; 0; 0; 0; 0; 0; 0; 0; 0; 128; 63;
    0; 0; 0; 0; 0; 0; 0; 64; 0; 0; 0; 0; 0; 0; 64; 64; 0; 0; 0; 0;
    0; 0; 128; 64; 0; 0; 0; 0; 0; 0; 160; 64; 0; 0; 0; 0; 0; 0; 192; 64;
    0; 0; 0; 0; 0; 0; 224; 64; 0; 0; 0; 0; 0; 0; 0; 65; 0; 0; 0; 0;
    0; 0; 16; 65; 0; 0; 0; 0; 0; 0; 32; 65; 0; 0; 0; 0; 0; 0; 48; 65;
    0; 0; 0; 0; 0; 0; 64; 65; 0; 0; 0; 0; 0; 0; 80; 65; 0; 0; 0; 0;
    0; 0; 96; 65; 0; 0; 0; 0; 0; 0; 112; 65; 0; 0; 0; 0; 0; 0; 128; 65;
    0; 0; 0; 0; 0; 0; 136; 65; 0; 0; 0; 0; 0; 0; 144; 65; 0; 0; 0; 0;
    0; 0; 152; 65; 0; 0; 0; 0; 0; 0; 160; 65; 0; 0; 0; 0; 0; 0; 168; 65;
    0; 0; 0; 0; 0; 0; 176; 65; 0; 0; 0; 0; 0; 0; 184; 65; 0; 0; 0; 0;
    0; 0; 192; 65; 0; 0; 0; 0; 0; 0; 200; 65; 0; 0; 0; 0; 0; 0; 208; 65;
    0; 0; 0; 0; 0; 0; 216; 65; 0; 0; 0; 0; 0; 0; 224; 65; 0; 0; 0; 0;
    0; 0; 232; 65; 0; 0; 0; 0; 0; 0; 240; 65; 0; 0; 0; 0; 0; 0; 248; 65;
    0; 0; 0; 0; 0; 0; 0; 66; 0; 0; 0; 0; 0; 0; 4; 66; 0; 0; 0; 0;
    0; 0; 8; 66; 0; 0; 0; 0; 0; 0; 12; 66; 0; 0; 0; 0; 0; 0; 16; 66;
    0; 0; 0; 0; 0; 0; 20; 66; 0; 0; 0; 0; 0; 0; 24; 66; 0; 0; 0; 0;
    0; 0; 28; 66; 0; 0; 0; 0; 0; 0; 32; 66; 0; 0; 0; 0; 0; 0; 36; 66;
    0; 0; 0; 0; 0; 0; 40; 66; 0; 0; 0; 0; 0; 0; 44; 66; 0; 0; 0; 0;
    0; 0; 48; 66; 0; 0; 0; 0; 0; 0; 52; 66; 0; 0; 0; 0; 0; 0; 56; 66;
    0; 0; 0; 0; 0; 0; 60; 66; 0; 0; 0; 0; 0; 0; 64; 66; 0; 0; 0; 0;
    0; 0; 68; 66; 0; 0; 0; 0 ].

(** float32.npy *)
Definition asset_float32_npy : list Z :=
  [ 147; 78; 85; 77; 80; 89; 1; 0; 118; 0; 123; 39; 100; 101; 115; 99; 114; 39; 58; 32;
    39; 60; 102; 52; 39; 44; 32; 39; 102; 111; 114; 116; 114; 97; 110; 95; 111; 114; 100; 101;
    114; 39; 58; 32; 70; 97; 108; 115; 101; 44; 32; 39; 115; 104; 97; 112; 101; 39; 58; 32;
    40; 53; 44; 32; 50; 44; 32; 53; 41; 44; 32; 125; 32; 32; 32; 32; 32; 32; 32; 32;
    32; 32; 32; 32; 32; 32; 32; 32; 32; 32; 32; 32; 32; 32; 32; 32; 32; 32; 32; 32;
    32; 32; 32; 32; 32; 32; 32; 32; 32; 32; 32; 32; 32; 32; 32; 32; 32; 32; 32; 32;
    32; 32; 32; 32; 32; 32; 32; 10; 0; 0; 0; 0; 0; 0; 128; 63; 0; 0; 0; 64;
    0; 0; 64; 64; 0; 0; 128; 64; 0; 0; 160; 64; 0; 0; 192; 64; 0; 0; 224; 64;
    0; 0; 0; 65; 0; 0; 16; 65; 0; 0; 32; 65; 0; 0; 48; 65; 0; 0; 64; 65;
    0; 0; 80; 65; 0; 0; 96; 65; 0; 0; 112; 65; 0; 0; 128; 65; 0; 0; 136; 65;
    0; 0; 144; 65; 0; 0; 152; 65; 0; 0; 160; 65; 0; 0; 168; 65; 0; 0; 176; 65;
    0; 0; 184; 65; 0; 0; 192; 65; 0; 0; 200; 65; 0; 0; 208; 65; 0; 0; 216; 65;
    0; 0; 224; 65; 0; 0; 232; 65; 0; 0; 240; 65; 0; 0; 248; 65; 0; 0; 0; 66;
    0; 0; 4; 66; 0; 0; 8; 66; 0; 0; 12; 66; 0; 0; 16; 66; 0; 0; 20; 66;
    0; 0; 24; 66; 0; 0; 28; 66; 0; 0; 32; 66; 0; 0; 36; 66; 0; 0; 40; 66;
    0; 0; 44; 66; 0; 0; 48; 66; 0; 0; 52; 66; 0; 0; 56; 66; 0; 0; 60; 66;
    0; 0; 64; 66; 0; 0; 68; 66 ].

(** float64.npy *)
Definition asset_float64_npy : list Z :=
  [ 147; 78; 85; 77; 80; 89; 1; 0; 118; 0; 123; 39; 100; 101; 115; 99; 114; 39; 58; 32;
    39; 60; 102; 56; 39; 44; 32; 39; 102; 111; 114; 116; 114; 97; 110; 95; 111; 114; 100; 101;
    114; 39; 58; 32; 70; 97; 108; 115; 101; 44; 32; 39; 115; 104; 97; 112; 101; 39; 58; 32;
    40; 53; 44; 32; 50; 44; 32; 53; 41; 44; 32; 125; 32; 32; 32; 32; 32; 32; 32; 32;
    32; 32; 32; 32; 32; 32; 32; 32; 32; 32; 32; 32; 32; 32; 32; 32; 32; 32; 32; 32;
    32; 32; 32; 32; 32; 32; 32; 32; 32; 32; 32; 32; 32; 32; 32; 32; 32; 32; 32; 32;
    32; 32; 32; 32; 32; 32; 32; 10; 0; 0; 0; 0; 0; 0; 0; 0; 0; 0; 0; 0;
    0; 0; 240; 63; 0; 0; 0; 0; 0; 0; 0; 64; 0; 0; 0; 0; 0; 0; 8; 64;
    0; 0; 0; 0; 0; 0; 16; 64; 0; 0; 0; 0; 0; 0; 20; 64; 0; 0; 0; 0;
    0; 0; 24; 64; 0; 0; 0; 0; 0; 0; 28; 64; 0; 0; 0; 0; 0; 0; 32; 64;
    0; 0; 0; 0; 0; 0; 34; 64; 0; 0; 0; 0; 0; 0; 36; 64; 0; 0; 0; 0;
    0; 0; 38; 64; 0; 0; 0; 0; 0; 0; 40; 64; 0; 0; 0; 0; 0; 0; 42; 64;
    0; 0; 0; 0; 0; 0; 44; 64; 0; 0; 0; 0; 0; 0; 46; 64; 0; 0; 0; 0;
    0; 0; 48; 64; 0; 0; 0; 0; 0; 0; 49; 64; 0; 0; 0; 0; 0; 0; 50; 64;
    0; 0; 0; 0; 0; 0; 51; 64; 0; 0; 0; 0; 0; 0; 52; 64; 0; 0; 0; 0;
    0; 0; 53; 64; 0; 0; 0; 0; 0; 0; 54; 64; 0; 0; 0; 0; 0; 0; 55; 64;
    0; 0; 0; 0; 0; 0; 56; 64; 0; 0; 0; 0; 0; 0; 57; 64; 0; 0; 0; 0;
    0; 0; 58; 64; 0; 0; 0; 0; 0; 0; 59; 64; 0; 0; 0; 0; 0; 0; 60; 64;
    0; 0; 0; 0; 0; 0; 61; 64; 0; 0; 0; 0; 0; 0; 62; 64; 0; 0; 0; 0;
    0; 0; 63; 64; 0; 0; 0; 0; 0; 0; 64; 64; 0; 0; 0; 0; 0; 128; 64; 64;
    0; 0; 0; 0; 0; 0; 65; 64; 0; 0; 0; 0; 0; 128; 65; 64; 0; 0; 0; 0;
    0; 0; 66; 64; 0; 0; 0; 0; 0; 128; 66; 64; 0; 0; 0; 0; 0; 0; 67; 64;
    0; 0; 0; 0; 0; 128; 67; 64; 0; 0; 0; 0; 0; 0; 68; 64; 0; 0; 0; 0;
    0; 128; 68; 64; 0; 0; 0; 0; 0; 0; 69; 64; 0; 0; 0; 0; 0; 128; 69; 64;
    0; 0; 0; 0; 0; 0; 70; 64; 0; 0; 0; 0; 0; 128; 70; 64; 0; 0; 0; 0;
    0; 0; 71; 64; 0; 0; 0; 0; 0; 128; 71; 64; 0; 0; 0; 0; 0; 0; 72; 64;
    0; 0; 0; 0; 0; 128; 72; 64 ].

(** int16.npy *)
Definition asset_int16_npy : list Z :=
  [ 147; 78; 85; 77; 80; 89; 1; 0; 118; 0; 123; 39; 100; 101; 115; 99; 114; 39; 58; 32;
    39; 60; 105; 50; 39; 44; 32; 39; 102; 111; 114; 116; 114; 97; 110; 95; 111; 114; 100; 101;
    114; 39; 58; 32; 70; 97; 108; 115; 101; 44; 32; 39; 115; 104; 97; 112; 101; 39; 58; 32;
    40; 53; 44; 32; 50; 44; 32; 53; 41; 44; 32; 125; 32; 32; 32; 32; 32; 32; 32; 32;
    32; 32; 32; 32; 32; 32; 32; 32; 32; 32; 32; 32; 32; 32; 32; 32; 32; 32; 32; 32;
    32; 32; 32; 32; 32; 32; 32; 32; 32; 32; 32; 32; 32; 32; 32; 32; 32; 32; 32; 32;
    32; 32; 32; 32; 32; 32; 32; 10; 0; 0; 1; 0; 2; 0; 3; 0; 4; 0; 5; 0;
    6; 0; 7; 0; 8; 0; 9; 0; 10; 0; 11; 0; 12; 0; 13; 0; 14; 0; 15; 0;
    16; 0; 17; 0; 18; 0; 19; 0; 20; 0; 21; 0; 22; 0; 23; 0; 24; 0; 25; 0;
    26; 0; 27; 0; 28; 0; 29; 0; 30; 0; 31; 0; 32; 0; 33; 0; 34; 0; 35; 0;
    36; 0; 37; 0; 38; 0; 39; 0; 40; 0; 41; 0; 42; 0; 43; 0; 44; 0; 45; 0;
    46; 0; 47; 0; 48; 0; 49; 0 ].

(** int32.npy *)
Definition asset_int32_npy : list Z :=
  [ 147; 78; 85; 77; 80; 89; 1; 0; 118; 0; 123; 39; 100; 101; 115; 99; 114; 39; 58; 32;
    39; 60; 105; 52; 39; 44; 32; 39; 102; 111; 114; 116; 114; 97; 110; 95; 111; 114; 100; 101;
    114; 39; 58; 32; 70; 97; 108; 115; 101; 44; 32; 39; 115; 104; 97; 112; 101; 39; 58; 32;
    40; 53; 44; 32; 50; 44; 32; 53; 41; 44; 32; 125; 32; 32; 32; 32; 32; 32; 32; 32;
    32; 32; 32; 32; 32; 32; 32; 32; 32; 32; 32; 32; 32; 32; 32; 32; 32; 32; 32; 32;
    32; 32; 32; 32; 32; 32; 32; 32; 32; 32; 32; 32; 32; 32; 32; 32; 32; 32; 32; 32;
    32; 32; 32; 32; 32; 32; 32; 10; 0; 0; 0; 0; 1; 0; 0; 0; 2; 0; 0; 0;
    3; 0; 0; 0; 4; 0; 0; 0; 5; 0; 0; 0; 6; 0; 0; 0; 7; 0; 0; 0;
    8; 0; 0; 0; 9; 0; 0; 0; 10; 0; 0; 0; 11; 0; 0; 0; 12; 0; 0; 0;
    13; 0; 0; 0; 14; 0; 0; 0; 15; 0; 0; 0; 16; 0; 0; 0; 17; 0; 0; 0;
    18; 0; 0; 0; 19; 0; 0; 0; 20; 0; 0; 0; 21; 0; 0; 0; 22; 0; 0; 0;
    23; 0; 0; 0; 24; 0; 0; 0; 25; 0; 0; 0; 26; 0; 0; 0; 27; 0; 0; 0;
    28; 0; 0; 0; 29; 0; 0; 0; 30; 0; 0; 0; 31; 0; 0; 0; 32; 0; 0; 0;
    33; 0; 0; 0; 34; 0; 0; 0; 35; 0; 0; 0; 36; 0; 0; 0; 37; 0; 0; 0;
    38; 0; 0; 0; 39; 0; 0; 0; 40; 0; 0; 0; 41; 0; 0; 0; 42; 0; 0; 0;
    43; 0; 0; 0; 44; 0; 0; 0; 45; 0; 0; 0; 46; 0; 0; 0; 47; 0; 0; 0;
    48; 0; 0; 0; 49; 0; 0; 0 ].

(** int32_array.npy *)
Definition asset_int32_array_npy : list Z :=
  [ 147; 78; 85; 77; 80; 89; 1; 0; 118; 0; 123; 39; 100; 101; 115; 99; 114; 39; 58; 32;
    39; 60; 105; 52; 39; 44; 32; 39; 102; 111; 114; 116; 114; 97; 110; 95; 111; 114; 100; 101;
    114; 39; 58; 32; 70; 97; 108; 115; 101; 44; 32; 39; 115; 104; 97; 112; 101; 39; 58; 32;
    40; 50; 53; 44; 41; 44; 32; 125; 32; 32; 32; 32; 32; 32; 32; 32; 32; 32; 32; 32;
    32; 32; 32; 32; 32; 32; 32; 32; 32; 32; 32; 32; 32; 32; 32; 32; 32; 32; 32; 32;
    32; 32; 32; 32; 32; 32; 32; 32; 32; 32; 32; 32; 32; 32; 32; 32; 32; 32; 32; 32;
    32; 32; 32; 32; 32; 32; 32; 10; 0; 0; 0; 0; 1; 0; 0; 0; 2; 0; 0; 0;
    3; 0; 0; 0; 4; 0; 0; 0; 5; 0; 0; 0; 6; 0; 0; 0; 7; 0; 0; 0;
    8; 0; 0; 0; 9; 0; 0; 0; 10; 0; 0; 0; 11; 0; 0; 0; 12; 0; 0; 0;
    13; 0; 0; 0; 14; 0; 0; 0; 15; 0; 0; 0; 16; 0; 0; 0; 17; 0; 0; 0;
    18; 0; 0; 0; 19; 0; 0; 0; 20; 0; 0; 0; 21; 0; 0; 0; 22; 0; 0; 0;
    23; 0; 0; 0; 24; 0; 0; 0 ].

(** int32_big.npy *)
Definition asset_int32_big_npy : list Z :=
  [ 147; 78; 85; 77; 80; 89; 1; 0; 118; 0; 123; 39; 100; 101; 115; 99; 114; 39; 58; 32;
    39; 62; 105; 52; 39; 44; 32; 39; 102; 111; 114; 116; 114; 97; 110; 95; 111; 114; 100; 101;
    114; 39; 58; 32; 70; 97; 108; 115; 101; 44; 32; 39; 115; 104; 97; 112; 101; 39; 58; 32;
    40; 53; 44; 32; 50; 44; 32; 53; 41; 44; 32; 125; 32; 32; 32; 32; 32; 32; 32; 32;
    32; 32; 32; 32; 32; 32; 32; 32; 32; 32; 32; 32; 32; 32; 32; 32; 32; 32; 32; 32;
    32; 32; 32; 32; 32; 32; 32; 32; 32; 32; 32; 32; 32; 32; 32; 32; 32; 32; 32; 32;
    32; 32; 32; 32; 32; 32; 32; 10; 0; 0; 0; 0; 0; 0; 0; 1; 0; 0; 0; 2;
    0; 0; 0; 3; 0; 0; 0; 4; 0; 0; 0; 5; 0; 0; 0; 6; 0; 0; 0; 7;
    0; 0; 0; 8; 0; 0; 0; 9; 0; 0; 0; 10; 0; 0; 0; 11; 0; 0; 0; 12;
    0; 0; 0; 13; 0; 0; 0; 14; 0; 0; 0; 15; 0; 0; 0; 16; 0; 0; 0; 17;
    0; 0; 0; 18; 0; 0; 0; 19; 0; 0; 0; 20; 0; 0; 0; 21; 0; 0; 0; 22;
    0; 0; 0; 23; 0; 0; 0; 24; 0; 0; 0; 25; 0; 0; 0; 26; 0; 0; 0; 27;
    0; 0; 0; 28; 0; 0; 0; 29; 0; 0; 0; 30; 0; 0; 0; 31; 0; 0; 0; 32;
    0; 0; 0; 33; 0; 0; 0; 34; 0; 0; 0; 35; 0; 0; 0; 36; 0; 0; 0; 37;
    0; 0; 0; 38; 0; 0; 0; 39; 0; 0; 0; 40; 0; 0; 0; 41; 0; 0; 0; 42;
    0; 0; 0; 43; 0; 0; 0; 44; 0; 0; 0; 45; 0; 0; 0; 46; 0; 0; 0; 47;
    0; 0; 0; 48; 0; 0; 0; 49 ].

(** int32_scalar.npy *)
Definition asset_int32_scalar_npy : list Z :=
  [ 147; 78; 85; 77; 80; 89; 1; 0; 118; 0; 123; 39; 100; 101; 115; 99; 114; 39; 58; 32;
    39; 60; 105; 52; 39; 44; 32; 39; 102; 111; 114; 116; 114; 97; 110; 95; 111; 114; 100; 101;
    114; 39; 58; 32; 70; 97; 108; 115; 101; 44; 32; 39; 115; 104; 97; 112; 101; 39; 58; 32;
    40; 41; 44; 32; 125; 32; 32; 32; 32; 32; 32; 32; 32; 32; 32; 32; 32; 32; 32; 32;
    32; 32; 32; 32; 32; 32; 32; 32; 32; 32; 32; 32; 32; 32; 32; 32; 32; 32; 32; 32;
    32; 32; 32; 32; 32; 32; 32; 32; 32; 32; 32; 32; 32; 32; 32; 32; 32; 32; 32; 32;
    32; 32; 32; 32; 32; 32; 32; 10; 42; 0; 0; 0 ].

(** int64.npy *)
Definition asset_int64_npy : list Z :=
  [ 147; 78; 85; 77; 80; 89; 1; 0; 118; 0; 123; 39; 100; 101; 115; 99; 114; 39; 58; 32;
    39; 60; 105; 56; 39; 44; 32; 39; 102; 111; 114; 116; 114; 97; 110; 95; 111; 114; 100; 101;
    114; 39; 58; 32; 70; 97; 108; 115; 101; 44; 32; 39; 115; 104; 97; 112; 101; 39; 58; 32;
    40; 53; 44; 32; 50; 44; 32; 53; 41; 44; 32; 125; 32; 32; 32; 32; 32; 32; 32; 32;
    32; 32; 32; 32; 32; 32; 32; 32; 32; 32; 32; 32; 32; 32; 32; 32; 32; 32; 32; 32;
    32; 32; 32; 32; 32; 32; 32; 32; 32; 32; 32; 32; 32; 32; 32; 32; 32; 32; 32; 32;
    32; 32; 32; 32; 32; 32; 32; 10; 0; 0; 0; 0; 0; 0; 0; 0; 1; 0; 0; 0;
    0; 0; 0; 0; 2; 0; 0; 0; 0; 0; 0; 0; 3; 0; 0; 0; 0; 0; 0; 0;
    4; 0; 0; 0; 0; 0; 0; 0; 5; 0; 0; 0; 0; 0; 0; 0; 6; 0; 0; 0;
    0; 0; 0; 0; 7; 0; 0; 0; 0; 0; 0; 0; 8; 0; 0; 0; 0; 0; 0; 0;
    9; 0; 0; 0; 0; 0; 0; 0; 10; 0; 0; 0; 0; 0; 0; 0; 11; 0; 0; 0;
    0; 0; 0; 0; 12; 0; 0; 0; 0; 0; 0; 0; 13; 0; 0; 0; 0; 0; 0; 0;
    14; 0; 0; 0; 0; 0; 0; 0; 15; 0; 0; 0; 0; 0; 0; 0; 16; 0; 0; 0;
    0; 0; 0; 0; 17; 0; 0; 0; 0; 0; 0; 0; 18; 0; 0; 0; 0; 0; 0; 0;
    19; 0; 0; 0; 0; 0; 0; 0; 20; 0; 0; 0; 0; 0; 0; 0; 21; 0; 0; 0;
    0; 0; 0; 0; 22; 0; 0; 0; 0; 0; 0; 0; 23; 0; 0; 0; 0; 0; 0; 0;
    24; 0; 0; 0; 0; 0; 0; 0; 25; 0; 0; 0; 0; 0; 0; 0; 26; 0; 0; 0;
    0; 0; 0; 0; 27; 0; 0; 0; 0; 0; 0; 0; 28; 0; 0; 0; 0; 0; 0; 0;
    29; 0; 0; 0; 0; 0; 0; 0; 30; 0; 0; 0; 0; 0; 0; 0; 31; 0; 0; 0;
    0; 0; 0; 0; 32; 0; 0; 0; 0; 0; 0; 0; 33; 0; 0; 0; 0; 0; 0; 0;
    34; 0; 0; 0; 0; 0; 0; 0; 35; 0; 0; 0; 0; 0; 0; 0; 36; 0; 0; 0;
    0; 0; 0; 0; 37; 0; 0; 0; 0; 0; 0; 0; 38; 0; 0; 0; 0; 0; 0; 0;
    39; 0; 0; 0; 0; 0; 0; 0; 40; 0; 0; 0; 0; 0; 0; 0; 41; 0; 0; 0;
    0; 0; 0; 0; 42; 0; 0; 0; 0; 0; 0; 0; 43; 0; 0; 0; 0; 0; 0; 0;
    44; 0; 0; 0; 0; 0; 0; 0; 45; 0; 0; 0; 0; 0; 0; 0; 46; 0; 0; 0;
    0; 0; 0; 0; 47; 0; 0; 0; 0; 0; 0; 0; 48; 0; 0; 0; 0; 0; 0; 0;
    49; 0; 0; 0; 0; 0; 0; 0 ].

(** int8.npy *)
Definition asset_int8_npy : list Z :=
  [ 147; 78; 85; 77; 80; 89; 1; 0; 118; 0; 123; 39; 100; 101; 115; 99; 114; 39; 58; 32;
    39; 124; 105; 49; 39; 44; 32; 39; 102; 111; 114; 116; 114; 97; 110; 95; 111; 114; 100; 101;
    114; 39; 58; 32; 70; 97; 108; 115; 101; 44; 32; 39; 115; 104; 97; 112; 101; 39; 58; 32;
    40; 53; 44; 32; 50; 44; 32; 53; 41; 44; 32; 125; 32; 32; 32; 32; 32; 32; 32; 32;
    32; 32; 32; 32; 32; 32; 32; 32; 32; 32; 32; 32; 32; 32; 32; 32; 32; 32; 32; 32;
    32; 32; 32; 32; 32; 32; 32; 32; 32; 32; 32; 32; 32; 32; 32; 32; 32; 32; 32; 32;
    32; 32; 32; 32; 32; 32; 32; 10; 0; 1; 2; 3; 4; 5; 6; 7; 8; 9; 10; 11;
    12; 13; 14; 15; 16; 17; 18; 19; 20; 21; 22; 23; 24; 25; 26; 27; 28; 29; 30; 31;
    32; 33; 34; 35; 36; 37; 38; 39; 40; 41; 42; 43; 44; 45; 46; 47; 48; 49 ].

(** test.npz *)
Definition asset_test_npz : list Z :=
  [ 80; 75; 3; 4; 20; 0; 0; 0; 0; 0; 0; 0; 33; 0; 245; 64; 207; 197; 203; 0;
    0; 0; 203; 0; 0; 0; 9; 0; 0; 0; 99; 111; 108; 111; 114; 46; 110; 112; 121; 147;
    78; 85; 77; 80; 89; 1; 0; 118; 0; 123; 39; 100; 101; 115; 99; 114; 39; 58; 32; 39;
    124; 117; 49; 39; 44; 32; 39; 102; 111; 114; 116; 114; 97; 110; 95; 111; 114; 100; 101; 114;
    39; 58; 32; 70; 97; 108; 115; 101; 44; 32; 39; 115; 104; 97; 112; 101; 39; 58; 32; 40;
    53; 44; 32; 53; 44; 32; 51; 41; 44; 32; 125; 32; 32; 32; 32; 32; 32; 32; 32; 32;
    32; 32; 32; 32; 32; 32; 32; 32; 32; 32; 32; 32; 32; 32; 32; 32; 32; 32; 32; 32;
    32; 32; 32; 32; 32; 32; 32; 32; 32; 32; 32; 32; 32; 32; 32; 32; 32; 32; 32; 32;
    32; 32; 32; 32; 32; 32; 10; 0; 1; 2; 3; 4; 5; 6; 7; 8; 9; 10; 11; 12;
    13; 14; 15; 16; 17; 18; 19; 20; 21; 22; 23; 24; 25; 26; 27; 28; 29; 30; 31; 32;
    33; 34; 35; 36; 37; 38; 39; 40; 41; 42; 43; 44; 45; 46; 47; 48; 49; 50; 51; 52;
    53; 54; 55; 56; 57; 58; 59; 60; 61; 62; 63; 64; 65; 66; 67; 68; 69; 70; 71; 72;
    73; 74; 80; 75; 3; 4; 20; 0; 0; 0; 0; 0; 0; 0; 33; 0; 40; 233; 206; 241;
    228; 0; 0; 0; 228; 0; 0; 0; 9; 0; 0; 0; 100; 101; 112; 116; 104; 46; 110; 112;
    121; 147; 78; 85; 77; 80; 89; 1; 0; 118; 0; 123; 39; 100; 101; 115; 99; 114; 39; 58;
    32; 39; 60; 102; 52; 39; 44; 32; 39; 102; 111; 114; 116; 114; 97; 110; 95; 111; 114; 100;
    101; 114; 39; 58; 32; 70; 97; 108; 115; 101; 44; 32; 39; 115; 104; 97; 112; 101; 39; 58;
    32; 40; 53; 44; 32; 53; 41; 44; 32; 125; 32; 32; 32; 32; 32; 32; 32; 32; 32; 32;
    32; 32; 32; 32; 32; 32; 32; 32; 32; 32; 32; 32; 32; 32; 32; 32; 32; 32; 32; 32;
    32; 32; 32; 32; 32; 32; 32; 32; 32; 32; 32; 32; 32; 32; 32; 32; 32; 32; 32; 32;
    32; 32; 32; 32; 32; 32; 32; 32; 10; 0; 0; 0; 0; 0; 0; 128; 63; 0; 0; 0;
    64; 0; 0; 64; 64; 0; 0; 128; 64; 0; 0; 160; 64; 0; 0; 192; 64; 0; 0; 224;
    64; 0; 0; 0; 65; 0; 0; 16; 65; 0; 0; 32; 65; 0; 0; 48; 65; 0; 0; 64;
    65; 0; 0; 80; 65; 0; 0; 96; 65; 0; 0; 112; 65; 0; 0; 128; 65; 0; 0; 136;
    65; 0; 0; 144; 65; 0; 0; 152; 65; 0; 0; 160; 65; 0; 0; 168; 65; 0; 0; 176;
    65; 0; 0; 184; 65; 0; 0; 192; 65; 80; 75; 3; 4; 20; 0; 0; 0; 0; 0; 0;
    0; 33; 0; 85; 36; 39; 182; 16; 2; 0; 0; 16; 2; 0; 0; 11; 0; 0; 0; 117;
    110; 105; 99; 111; 100; 101; 46; 110; 112; 121; 147; 78; 85; 77; 80; 89; 1; 0; 118; 0;
    123; 39; 100; 101; 115; 99; 114; 39; 58; 32; 39; 60; 85; 50; 39; 44; 32; 39; 102; 111;
    114; 116; 114; 97; 110; 95; 111; 114; 100; 101; 114; 39; 58; 32; 70; 97; 108; 115; 101; 44;
    32; 39; 115; 104; 97; 112; 101; 39; 58; 32; 40; 53; 44; 32; 50; 44; 32; 53; 41; 44;
    32; 125; 32; 32; 32; 32; 32; 32; 32; 32; 32; 32; 32; 32; 32; 32; 32; 32; 32; 32;
    32; 32; 32; 32; 32; 32; 32; 32; 32; 32; 32; 32; 32; 32; 32; 32; 32; 32; 32; 32;
    32; 32; 32; 32; 32; 32; 32; 32; 32; 32; 32; 32; 32; 32; 32; 32; 32; 10; 48; 0;
    0; 0; 0; 0; 0; 0; 49; 0; 0; 0; 0; 0; 0; 0; 50; 0; 0; 0; 0; 0;
    0; 0; 51; 0; 0; 0; 0; 0; 0; 0; 52; 0; 0; 0; 0; 0; 0; 0; 53; 0;
    0; 0; 0; 0; 0; 0; 54; 0; 0; 0; 0; 0; 0; 0; 55; 0; 0; 0; 0; 0;
    0; 0; 56; 0; 0; 0; 0; 0; 0; 0; 57; 0; 0; 0; 0; 0; 0; 0; 49; 0;
    0; 0; 48; 0; 0; 0; 49; 0; 0; 0; 49; 0; 0; 0; 49; 0; 0; 0; 50; 0;
    0; 0; 49; 0; 0; 0; 51; 0; 0; 0; 49; 0; 0; 0; 52; 0; 0; 0; 49; 0;
    0; 0; 53; 0; 0; 0; 49; 0; 0; 0; 54; 0; 0; 0; 49; 0; 0; 0; 55; 0;
    0; 0; 49; 0; 0; 0; 56; 0; 0; 0; 49; 0; 0; 0; 57; 0; 0; 0; 50; 0;
    0; 0; 48; 0; 0; 0; 50; 0; 0; 0; 49; 0; 0; 0; 50; 0; 0; 0; 50; 0;
    0; 0; 50; 0; 0; 0; 51; 0; 0; 0; 50; 0; 0; 0; 52; 0; 0; 0; 50; 0;
    0; 0; 53; 0; 0; 0; 50; 0; 0; 0; 54; 0; 0; 0; 50; 0; 0; 0; 55; 0;
    0; 0; 50; 0; 0; 0; 56; 0; 0; 0; 50; 0; 0; 0; 57; 0; 0; 0; 51; 0;
    0; 0; 48; 0; 0; 0; 51; 0; 0; 0; 49; 0; 0; 0; 51; 0; 0; 0; 50; 0;
    0; 0; 51; 0; 0; 0; 51; 0; 0; 0; 51; 0; 0; 0; 52; 0; 0; 0; 51; 0;
    0; 0; 53; 0; 0; 0; 51; 0; 0; 0; 54; 0; 0; 0; 51; 0; 0; 0; 55; 0;
    0; 0; 51; 0; 0; 0; 56; 0; 0; 0; 51; 0; 0; 0; 57; 0; 0; 0; 52; 0;
    0; 0; 48; 0; 0; 0; 52; 0; 0; 0; 49; 0; 0; 0; 52; 0; 0; 0; 50; 0;
    0; 0; 52; 0; 0; 0; 51; 0; 0; 0; 52; 0; 0; 0; 52; 0; 0; 0; 52; 0;
    0; 0; 53; 0; 0; 0; 52; 0; 0; 0; 54; 0; 0; 0; 52; 0; 0; 0; 55; 0;
    0; 0; 52; 0; 0; 0; 56; 0; 0; 0; 52; 0; 0; 0; 57; 0; 0; 0; 80; 75;
    1; 2; 20; 0; 20; 0; 0; 0; 0; 0; 0; 0; 33; 0; 245; 64; 207; 197; 203; 0;
    0; 0; 203; 0; 0; 0; 9; 0; 0; 0; 0; 0; 0; 0; 0; 0; 0; 0; 128; 1;
    0; 0; 0; 0; 99; 111; 108; 111; 114; 46; 110; 112; 121; 80; 75; 1; 2; 20; 0; 20;
    0; 0; 0; 0; 0; 0; 0; 33; 0; 40; 233; 206; 241; 228; 0; 0; 0; 228; 0; 0;
    0; 9; 0; 0; 0; 0; 0; 0; 0; 0; 0; 0; 0; 128; 1; 242; 0; 0; 0; 100;
    101; 112; 116; 104; 46; 110; 112; 121; 80; 75; 1; 2; 20; 0; 20; 0; 0; 0; 0; 0;
    0; 0; 33; 0; 85; 36; 39; 182; 16; 2; 0; 0; 16; 2; 0; 0; 11; 0; 0; 0;
    0; 0; 0; 0; 0; 0; 0; 0; 128; 1; 253; 1; 0; 0; 117; 110; 105; 99; 111; 100;
    101; 46; 110; 112; 121; 80; 75; 5; 6; 0; 0; 0; 0; 3; 0; 3; 0; 167; 0; 0;
    0; 54; 4; 0; 0; 0; 0 ].

(** test_compressed.npz *)
Definition asset_test_compressed_npz : list Z :=
  [ 80; 75; 3; 4; 20; 0; 0; 0; 8; 0; 0; 0; 33; 0; 245; 64; 207; 197; 162; 0;
    0; 0; 203; 0; 0; 0; 9; 0; 0; 0; 99; 111; 108; 111; 114; 46; 110; 112; 121; 157;
    136; 199; 18; 193; 80; 0; 0; 19; 93; 244; 222; 121; 234; 75; 136; 18; 17; 37; 122; 139;
    50; 195; 184; 56; 56; 153; 140; 196; 56; 24; 49; 9; 46; 248; 10; 63; 44; 126; 193; 206;
    94; 118; 63; 235; 237; 106; 179; 67; 145; 7; 242; 132; 130; 168; 28; 100; 200; 2; 248; 186;
    83; 144; 4; 240; 40; 201; 55; 153; 191; 236; 37; 89; 16; 127; 159; 227; 207; 138; 168; 126;
    229; 196; 95; 69; 181; 113; 134; 4; 170; 52; 65; 130; 55; 248; 15; 12; 65; 53; 90; 157;
    222; 96; 52; 153; 49; 139; 213; 102; 119; 56; 93; 110; 143; 215; 231; 15; 4; 67; 225; 72;
    52; 22; 79; 128; 100; 42; 157; 201; 230; 32; 78; 228; 11; 100; 177; 84; 174; 80; 85; 186;
    198; 212; 27; 205; 22; 219; 238; 116; 123; 253; 193; 112; 52; 158; 76; 185; 217; 124; 177; 252;
    2; 80; 75; 3; 4; 20; 0; 0; 0; 8; 0; 0; 0; 33; 0; 40; 233; 206; 241; 140;
    0; 0; 0; 228; 0; 0; 0; 9; 0; 0; 0; 100; 101; 112; 116; 104; 46; 110; 112; 121;
    157; 200; 33; 14; 194; 64; 16; 133; 225; 197; 162; 56; 194; 184; 133; 164; 2; 65; 13; 33;
    161; 53; 56; 72; 13; 2; 5; 27; 186; 13; 130; 208; 102; 151; 96; 8; 201; 74; 36; 9;
    6; 89; 137; 68; 34; 123; 20; 142; 194; 15; 71; 232; 203; 124; 147; 188; 119; 95; 44; 231;
    217; 170; 163; 78; 234; 172; 115; 235; 183; 78; 143; 69; 79; 138; 145; 142; 68; 23; 165; 59;
    58; 115; 88; 151; 46; 183; 191; 125; 102; 246; 222; 178; 251; 157; 169; 44; 189; 31; 71; 18;
    15; 34; 185; 72; 235; 116; 213; 63; 97; 202; 75; 56; 4; 212; 104; 240; 129; 74; 149; 234;
    65; 48; 68; 130; 12; 27; 84; 8; 184; 226; 134; 7; 106; 60; 241; 194; 27; 77; 250; 5;
    80; 75; 3; 4; 20; 0; 0; 0; 8; 0; 0; 0; 33; 0; 85; 36; 39; 182; 185; 0;
    0; 0; 16; 2; 0; 0; 11; 0; 0; 0; 117; 110; 105; 99; 111; 100; 101; 46; 110; 112;
    121; 157; 207; 189; 10; 194; 48; 20; 64; 225; 186; 250; 20; 217; 162; 144; 65; 171; 241; 15;
    103; 55; 197; 165; 131; 147; 4; 27; 113; 16; 43; 137; 184; 136; 79; 225; 11; 219; 131; 247;
    130; 115; 3; 151; 67; 67; 243; 145; 124; 118; 213; 118; 127; 232; 21; 207; 226; 101; 235; 152;
    79; 201; 174; 140; 93; 87; 165; 117; 198; 158; 155; 244; 72; 225; 118; 108; 82; 29; 217; 223;
    132; 107; 142; 237; 126; 190; 132; 123; 108; 191; 7; 222; 153; 210; 25; 63; 116; 230; 109; 186;
    173; 254; 168; 248; 173; 177; 180; 148; 78; 164; 83; 169; 151; 206; 164; 115; 233; 66; 186; 252;
    115; 48; 169; 14; 38; 197; 164; 152; 20; 147; 98; 82; 76; 138; 73; 49; 57; 139; 167; 6;
    213; 193; 163; 120; 20; 143; 226; 81; 60; 138; 71; 241; 56; 131; 167; 119; 81; 131; 234; 224;
    81; 60; 138; 71; 241; 40; 30; 197; 227; 95; 60; 125; 147; 222; 69; 13; 170; 131; 71; 241;
    40; 30; 197; 163; 120; 95; 80; 75; 1; 2; 20; 0; 20; 0; 0; 0; 8; 0; 0; 0;
    33; 0; 245; 64; 207; 197; 162; 0; 0; 0; 203; 0; 0; 0; 9; 0; 0; 0; 0; 0;
    0; 0; 0; 0; 0; 0; 128; 1; 0; 0; 0; 0; 99; 111; 108; 111; 114; 46; 110; 112;
    121; 80; 75; 1; 2; 20; 0; 20; 0; 0; 0; 8; 0; 0; 0; 33; 0; 40; 233; 206;
    241; 140; 0; 0; 0; 228; 0; 0; 0; 9; 0; 0; 0; 0; 0; 0; 0; 0; 0; 0;
    0; 128; 1; 201; 0; 0; 0; 100; 101; 112; 116; 104; 46; 110; 112; 121; 80; 75; 1; 2;
    20; 0; 20; 0; 0; 0; 8; 0; 0; 0; 33; 0; 85; 36; 39; 182; 185; 0; 0; 0;
    16; 2; 0; 0; 11; 0; 0; 0; 0; 0; 0; 0; 0; 0; 0; 0; 128; 1; 124; 1;
    0; 0; 117; 110; 105; 99; 111; 100; 101; 46; 110; 112; 121; 80; 75; 5; 6; 0; 0; 0;
    0; 3; 0; 3; 0; 167; 0; 0; 0; 94; 2; 0; 0; 0; 0 ].

(** uint16.npy *)
Definition asset_uint16_npy : list Z :=
  [ 147; 78; 85; 77; 80; 89; 1; 0; 118; 0; 123; 39; 100; 101; 115; 99; 114; 39; 58; 32;
    39; 60; 117; 50; 39; 44; 32; 39; 102; 111; 114; 116; 114; 97; 110; 95; 111; 114; 100; 101;
    114; 39; 58; 32; 70; 97; 108; 115; 101; 44; 32; 39; 115; 104; 97; 112; 101; 39; 58; 32;
    40; 53; 44; 32; 50; 44; 32; 53; 41; 44; 32; 125; 32; 32; 32; 32; 32; 32; 32; 32;
    32; 32; 32; 32; 32; 32; 32; 32; 32; 32; 32; 32; 32; 32; 32; 32; 32; 32; 32; 32;
    32; 32; 32; 32; 32; 32; 32; 32; 32; 32; 32; 32; 32; 32; 32; 32; 32; 32; 32; 32;
    32; 32; 32; 32; 32; 32; 32; 10; 0; 0; 1; 0; 2; 0; 3; 0; 4; 0; 5; 0;
    6; 0; 7; 0; 8; 0; 9; 0; 10; 0; 11; 0; 12; 0; 13; 0; 14; 0; 15; 0;
    16; 0; 17; 0; 18; 0; 19; 0; 20; 0; 21; 0; 22; 0; 23; 0; 24; 0; 25; 0;
    26; 0; 27; 0; 28; 0; 29; 0; 30; 0; 31; 0; 32; 0; 33; 0; 34; 0; 35; 0;
    36; 0; 37; 0; 38; 0; 39; 0; 40; 0; 41; 0; 42; 0; 43; 0; 44; 0; 45; 0;
    46; 0; 47; 0; 48; 0; 49; 0 ].

(** uint32.npy *)
Definition asset_uint32_npy : list Z :=
  [ 147; 78; 85; 77; 80; 89; 1; 0; 118; 0; 123; 39; 100; 101; 115; 99; 114; 39; 58; 32;
    39; 60; 117; 52; 39; 44; 32; 39; 102; 111; 114; 116; 114; 97; 110; 95; 111; 114; 100; 101;
    114; 39; 58; 32; 70; 97; 108; 115; 101; 44; 32; 39; 115; 104; 97; 112; 101; 39; 58; 32;
    40; 53; 44; 32; 50; 44; 32; 53; 41; 44; 32; 125; 32; 32; 32; 32; 32; 32; 32; 32;
    32; 32; 32; 32; 32; 32; 32; 32; 32; 32; 32; 32; 32; 32; 32; 32; 32; 32; 32; 32;
    32; 32; 32; 32; 32; 32; 32; 32; 32; 32; 32; 32; 32; 32; 32; 32; 32; 32; 32; 32;
    32; 32; 32; 32; 32; 32; 32; 10; 0; 0; 0; 0; 1; 0; 0; 0; 2; 0; 0; 0;
    3; 0; 0; 0; 4; 0; 0; 0; 5; 0; 0; 0; 6; 0; 0; 0; 7; 0; 0; 0;
    8; 0; 0; 0; 9; 0; 0; 0; 10; 0; 0; 0; 11; 0; 0; 0; 12; 0; 0; 0;
    13; 0; 0; 0; 14; 0; 0; 0; 15; 0; 0; 0; 16; 0; 0; 0; 17; 0; 0; 0;
    18; 0; 0; 0; 19; 0; 0; 0; 20; 0; 0; 0; 21; 0; 0; 0; 22; 0; 0; 0;
    23; 0; 0; 0; 24; 0; 0; 0; 25; 0; 0; 0; 26; 0; 0; 0; 27; 0; 0; 0;
    28; 0; 0; 0; 29; 0; 0; 0; 30; 0; 0; 0; 31; 0; 0; 0; 32; 0; 0; 0;
    33; 0; 0; 0; 34; 0; 0; 0; 35; 0; 0; 0; 36; 0; 0; 0; 37; 0; 0; 0;
    38; 0; 0; 0; 39; 0; 0; 0; 40; 0; 0; 0; 41; 0; 0; 0; 42; 0; 0; 0;
    43; 0; 0; 0; 44; 0; 0; 0; 45; 0; 0; 0; 46; 0; 0; 0; 47; 0; 0; 0;
    48; 0; 0; 0; 49; 0; 0; 0 ].

(** uint64.npy *)
Definition asset_uint64_npy : list Z :=
  [ 147; 78; 85; 77; 80; 89; 1; 0; 118; 0; 123; 39; 100; 101; 115; 99; 114; 39; 58; 32;
    39; 60; 117; 56; 39; 44; 32; 39; 102; 111; 114; 116; 114; 97; 110; 95; 111; 114; 100; 101;
    114; 39; 58; 32; 70; 97; 108; 115; 101; 44; 32; 39; 115; 104; 97; 112; 101; 39; 58; 32;
    40; 53; 44; 32; 50; 44; 32; 53; 41; 44; 32; 125; 32; 32; 32; 32; 32; 32; 32; 32;
    32; 32; 32; 32; 32; 32; 32; 32; 32; 32; 32; 32; 32; 32; 32; 32; 32; 32; 32; 32;
    32; 32; 32; 32; 32; 32; 32; 32; 32; 32; 32; 32; 32; 32; 32; 32; 32; 32; 32; 32;
    32; 32; 32; 32; 32; 32; 32; 10; 0; 0; 0; 0; 0; 0; 0; 0; 1; 0; 0; 0;
    0; 0; 0; 0; 2; 0; 0; 0; 0; 0; 0; 0; 3; 0; 0; 0; 0; 0; 0; 0;
    4; 0; 0; 0; 0; 0; 0; 0; 5; 0; 0; 0; 0; 0; 0; 0; 6; 0; 0; 0;
    0; 0; 0; 0; 7; 0; 0; 0; 0; 0; 0; 0; 8; 0; 0; 0; 0; 0; 0; 0;
    9; 0; 0; 0; 0; 0; 0; 0; 10; 0; 0; 0; 0; 0; 0; 0; 11; 0; 0; 0;
    0; 0; 0; 0; 12; 0; 0; 0; 0; 0; 0; 0; 13; 0; 0; 0; 0; 0; 0; 0;
    14; 0; 0; 0; 0; 0; 0; 0; 15; 0; 0; 0; 0; 0; 0; 0; 16; 0; 0; 0;
    0; 0; 0; 0; 17; 0; 0; 0; 0; 0; 0; 0; 18; 0; 0; 0; 0; 0; 0; 0;
    19; 0; 0; 0; 0; 0; 0; 0; 20; 0; 0; 0; 0; 0; 0; 0; 21; 0; 0; 0;
    0; 0; 0; 0; 22; 0; 0; 0; 0; 0; 0; 0; 23; 0; 0; 0; 0; 0; 0; 0;
    24; 0; 0; 0; 0; 0; 0; 0; 25; 0; 0; 0; 0; 0; 0; 0; 26; 0; 0; 0;
    0; 0; 0; 0; 27; 0; 0; 0; 0; 0; 0; 0; 28; 0; 0; 0; 0; 0; 0; 0;
    29; 0; 0; 0; 0; 0; 0; 0; 30; 0; 0; 0; 0; 0; 0; 0; 31; 0; 0; 0;
    0; 0; 0; 0; 32; 0; 0; 0; 0; 0; 0; 0; 33; 0; 0; 0; 0; 0; 0; 0;
    34; 0; 0; 0; 0; 0; 0; 0; 35; 0; 0; 0; 0; 0; 0; 0; 36; 0; 0; 0;
    0; 0; 0; 0; 37; 0; 0; 0; 0; 0; 0; 0; 38; 0; 0; 0; 0; 0; 0; 0;
    39; 0; 0; 0; 0; 0; 0; 0; 40; 0; 0; 0; 0; 0; 0; 0; 41; 0; 0; 0;
    0; 0; 0; 0; 42; 0; 0; 0; 0; 0; 0; 0; 43; 0; 0; 0; 0; 0; 0; 0;
    44; 0; 0; 0; 0; 0; 0; 0; 45; 0; 0; 0; 0; 0; 0; 0; 46; 0; 0; 0;
    0; 0; 0; 0; 47; 0; 0; 0; 0; 0; 0; 0; 48; 0; 0; 0; 0; 0; 0; 0;
    49; 0; 0; 0; 0; 0; 0; 0 ].

(** uint8.npy *)
Definition asset_uint8_npy : list Z :=
  [ 147; 78; 85; 77; 80; 89; 1; 0; 118; 0; 123; 39; 100; 101; 115; 99; 114; 39; 58; 32;
    39; 124; 117; 49; 39; 44; 32; 39; 102; 111; 114; 116; 114; 97; 110; 95; 111; 114; 100; 101;
    114; 39; 58; 32; 70; 97; 108; 115; 101; 44; 32; 39; 115; 104; 97; 112; 101; 39; 58; 32;
    40; 53; 44; 32; 50; 44; 32; 53; 41; 44; 32; 125; 32; 32; 32; 32; 32; 32; 32; 32;
    32; 32; 32; 32; 32; 32; 32; 32; 32; 32; 32; 32; 32; 32; 32; 32; 32; 32; 32; 32;
    32; 32; 32; 32; 32; 32; 32; 32; 32; 32; 32; 32; 32; 32; 32; 32; 32; 32; 32; 32;
    32; 32; 32; 32; 32; 32; 32; 10; 0; 1; 2; 3; 4; 5; 6; 7; 8; 9; 10; 11;
    12; 13; 14; 15; 16; 17; 18; 19; 20; 21; 22; 23; 24; 25; 26; 27; 28; 29; 30; 31;
    32; 33; 34; 35; 36; 37; 38; 39; 40; 41; 42; 43; 44; 45; 46; 47; 48; 49 ].

(** uint8_fortran.npy *)
Definition asset_uint8_fortran_npy : list Z :=
  [ 147; 78; 85; 77; 80; 89; 1; 0; 118; 0; 123; 39; 100; 101; 115; 99; 114; 39; 58; 32;
    39; 124; 117; 49; 39; 44; 32; 39; 102; 111; 114; 116; 114; 97; 110; 95; 111; 114; 100; 101;
    114; 39; 58; 32; 84; 114; 117; 101; 44; 32; 39; 115; 104; 97; 112; 101; 39; 58; 32; 40;
    53; 44; 32; 50; 44; 32; 53; 41; 44; 32; 125; 32; 32; 32; 32; 32; 32; 32; 32; 32;
    32; 32; 32; 32; 32; 32; 32; 32; 32; 32; 32; 32; 32; 32; 32; 32; 32; 32; 32; 32;
    32; 32; 32; 32; 32; 32; 32; 32; 32; 32; 32; 32; 32; 32; 32; 32; 32; 32; 32; 32;
    32; 32; 32; 32; 32; 32; 32; 10; 0; 10; 20; 30; 40; 5; 15; 25; 35; 45; 1; 11;
    21; 31; 41; 6; 16; 26; 36; 46; 2; 12; 22; 32; 42; 7; 17; 27; 37; 47; 3; 13;
    23; 33; 43; 8; 18; 28; 38; 48; 4; 14; 24; 34; 44; 9; 19; 29; 39; 49 ].

(** unicode.npy *)
Definition asset_unicode_npy : list Z :=
  [ 147; 78; 85; 77; 80; 89; 1; 0; 118; 0; 123; 39; 100; 101; 115; 99; 114; 39; 58; 32;
    39; 60; 85; 50; 39; 44; 32; 39; 102; 111; 114; 116; 114; 97; 110; 95; 111; 114; 100; 101;
    114; 39; 58; 32; 70; 97; 108; 115; 101; 44; 32; 39; 115; 104; 97; 112; 101; 39; 58; 32;
    40; 53; 44; 32; 50; 44; 32; 53; 41; 44; 32; 125; 32; 32; 32; 32; 32; 32; 32; 32;
    32; 32; 32; 32; 32; 32; 32; 32; 32; 32; 32; 32; 32; 32; 32; 32; 32; 32; 32; 32;
    32; 32; 32; 32; 32; 32; 32; 32; 32; 32; 32; 32; 32; 32; 32; 32; 32; 32; 32; 32;
    32; 32; 32; 32; 32; 32; 32; 10; 48; 0; 0; 0; 0; 0; 0; 0; 49; 0; 0; 0;
    0; 0; 0; 0; 50; 0; 0; 0; 0; 0; 0; 0; 51; 0; 0; 0; 0; 0; 0; 0;
    52; 0; 0; 0; 0; 0; 0; 0; 53; 0; 0; 0; 0; 0; 0; 0; 54; 0; 0; 0;
    0; 0; 0; 0; 55; 0; 0; 0; 0; 0; 0; 0; 56; 0; 0; 0; 0; 0; 0; 0;
    57; 0; 0; 0; 0; 0; 0; 0; 49; 0; 0; 0; 48; 0; 0; 0; 49; 0; 0; 0;
    49; 0; 0; 0; 49; 0; 0; 0; 50; 0; 0; 0; 49; 0; 0; 0; 51; 0; 0; 0;
    49; 0; 0; 0; 52; 0; 0; 0; 49; 0; 0; 0; 53; 0; 0; 0; 49; 0; 0; 0;
    54; 0; 0; 0; 49; 0; 0; 0; 55; 0; 0; 0; 49; 0; 0; 0; 56; 0; 0; 0;
    49; 0; 0; 0; 57; 0; 0; 0; 50; 0; 0; 0; 48; 0; 0; 0; 50; 0; 0; 0;
    49; 0; 0; 0; 50; 0; 0; 0; 50; 0; 0; 0; 50; 0; 0; 0; 51; 0; 0; 0;
    50; 0; 0; 0; 52; 0; 0; 0; 50; 0; 0; 0; 53; 0; 0; 0; 50; 0; 0; 0;
    54; 0; 0; 0; 50; 0; 0; 0; 55; 0; 0; 0; 50; 0; 0; 0; 56; 0; 0; 0;
    50; 0; 0; 0; 57; 0; 0; 0; 51; 0; 0; 0; 48; 0; 0; 0; 51; 0; 0; 0;
    49; 0; 0; 0; 51; 0; 0; 0; 50; 0; 0; 0; 51; 0; 0; 0; 51; 0; 0; 0;
    51; 0; 0; 0; 52; 0; 0; 0; 51; 0; 0; 0; 53; 0; 0; 0; 51; 0; 0; 0;
    54; 0; 0; 0; 51; 0; 0; 0; 55; 0; 0; 0; 51; 0; 0; 0; 56; 0; 0; 0;
    51; 0; 0; 0; 57; 0; 0; 0; 52; 0; 0; 0; 48; 0; 0; 0; 52; 0; 0; 0;
    49; 0; 0; 0; 52; 0; 0; 0; 50; 0; 0; 0; 52; 0; 0; 0; 51; 0; 0; 0;
    52; 0; 0; 0; 52; 0; 0; 0; 52; 0; 0; 0; 53; 0; 0; 0; 52; 0; 0; 0;
    54; 0; 0; 0; 52; 0; 0; 0; 55; 0; 0; 0; 52; 0; 0; 0; 56; 0; 0; 0;
    52; 0; 0; 0; 57; 0; 0; 0 ].
