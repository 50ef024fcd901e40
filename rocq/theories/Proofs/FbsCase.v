(** Generated by tools/gen_fbs_case.py: small files in the format of the bundled Legends Arceus
    files, with two encounter tables of area 1 (resources/encount/la) and the entries of
    their species. *)
From Coq Require Import NArith List.
From Verif Require Import Spec.FlatbufSpec.
Import ListNotations.
Open Scope N_scope.

Definition misc_case_bytes : list N :=
  [12; 0; 0; 0; 6; 0; 8; 0; 4; 0; 170; 170; 8; 0; 0; 0; 4; 0; 0; 0; 3; 0; 0; 0; 32; 0; 0; 0; 60; 0;
  0; 0; 88; 0; 0; 0; 18; 0; 12; 0; 8; 0; 0; 0; 0; 0; 0; 0; 0; 0; 0; 0; 4; 0; 170; 170; 20; 0; 0; 0;
  2; 0; 0; 0; 77; 0; 0; 0; 18; 0; 12; 0; 8; 0; 0; 0; 0; 0; 0; 0; 0; 0; 0; 0; 4; 0; 170; 170; 20; 0;
  0; 0; 1; 0; 0; 0; 140; 1; 0; 0; 18; 0; 12; 0; 8; 0; 0; 0; 0; 0; 0; 0; 0; 0; 0; 0; 4; 0; 170; 170;
  20; 0; 0; 0; 1; 0; 0; 0; 143; 1; 0; 0].
Definition misc_case_root : obj :=
  Obj [Some (FVec [Obj [Some (FScalar 4 77); None; None; None; None; None; Some (FScalar 4 2)]; Obj
  [Some (FScalar 4 396); None; None; None; None; None; Some (FScalar 4 1)]; Obj [Some (FScalar 4
  399); None; None; None; None; None; Some (FScalar 4 1)]])].

Definition mult_case_bytes : list N :=
  [12; 0; 0; 0; 6; 0; 8; 0; 4; 0; 170; 170; 8; 0; 0; 0; 4; 0; 0; 0; 3; 0; 0; 0; 40; 0; 0; 0; 104; 0;
  0; 0; 188; 0; 0; 0; 26; 0; 36; 0; 32; 0; 0; 0; 28; 0; 24; 0; 20; 0; 16; 0; 12; 0; 8; 0; 0; 0; 0;
  0; 4; 0; 170; 170; 28; 0; 0; 0; 0; 0; 192; 63; 0; 0; 0; 63; 154; 153; 153; 63; 0; 0; 128; 191; 0;
  0; 128; 191; 0; 0; 128; 191; 0; 0; 128; 191; 77; 0; 0; 0; 32; 0; 56; 0; 52; 0; 0; 0; 48; 0; 44; 0;
  40; 0; 36; 0; 32; 0; 28; 0; 24; 0; 20; 0; 16; 0; 12; 0; 8; 0; 4; 0; 32; 0; 0; 0; 0; 0; 128; 191;
  0; 0; 128; 191; 0; 0; 128; 191; 0; 0; 128; 191; 0; 0; 128; 191; 0; 0; 128; 191; 0; 0; 128; 191; 0;
  0; 128; 191; 0; 0; 128; 191; 0; 0; 128; 191; 0; 0; 128; 191; 0; 0; 128; 191; 140; 1; 0; 0; 32; 0;
  56; 0; 52; 0; 0; 0; 48; 0; 44; 0; 40; 0; 36; 0; 32; 0; 28; 0; 24; 0; 20; 0; 16; 0; 12; 0; 8; 0; 4;
  0; 32; 0; 0; 0; 0; 0; 128; 191; 0; 0; 128; 191; 0; 0; 128; 191; 0; 0; 128; 191; 0; 0; 128; 191;
  154; 153; 153; 63; 0; 0; 128; 191; 0; 0; 128; 191; 0; 0; 128; 191; 0; 0; 128; 191; 0; 0; 128; 191;
  0; 0; 128; 191; 143; 1; 0; 0].
Definition mult_case_root : obj :=
  Obj [Some (FVec [Obj [Some (FScalar 4 77); None; Some (FScalar 4 3212836864); Some (FScalar 4
  3212836864); Some (FScalar 4 3212836864); Some (FScalar 4 3212836864); Some (FScalar 4
  1067030938); Some (FScalar 4 1056964608); None; None; Some (FScalar 4 1069547520)]; Obj [Some
  (FScalar 4 396); None; Some (FScalar 4 3212836864); Some (FScalar 4 3212836864); Some (FScalar 4
  3212836864); Some (FScalar 4 3212836864); Some (FScalar 4 3212836864); Some (FScalar 4
  3212836864); Some (FScalar 4 3212836864); Some (FScalar 4 3212836864); Some (FScalar 4
  3212836864); Some (FScalar 4 3212836864); Some (FScalar 4 3212836864); Some (FScalar 4
  3212836864)]; Obj [Some (FScalar 4 399); None; Some (FScalar 4 3212836864); Some (FScalar 4
  3212836864); Some (FScalar 4 3212836864); Some (FScalar 4 3212836864); Some (FScalar 4
  3212836864); Some (FScalar 4 3212836864); Some (FScalar 4 1067030938); Some (FScalar 4
  3212836864); Some (FScalar 4 3212836864); Some (FScalar 4 3212836864); Some (FScalar 4
  3212836864); Some (FScalar 4 3212836864)]])].

Definition enc_case_bytes : list N :=
  [12; 0; 0; 0; 6; 0; 8; 0; 4; 0; 170; 170; 8; 0; 0; 0; 4; 0; 0; 0; 2; 0; 0; 0; 20; 0; 0; 0; 220; 1;
  0; 0; 12; 0; 24; 0; 16; 0; 12; 0; 8; 0; 4; 0; 12; 0; 0; 0; 20; 0; 0; 0; 8; 0; 0; 0; 4; 0; 0; 0; 1;
  33; 182; 40; 191; 97; 100; 106; 2; 0; 0; 0; 108; 0; 0; 0; 52; 1; 0; 0; 98; 0; 24; 0; 20; 0; 0; 0;
  16; 0; 0; 0; 0; 0; 0; 0; 0; 0; 0; 0; 0; 0; 0; 0; 0; 0; 0; 0; 0; 0; 0; 0; 0; 0; 0; 0; 0; 0; 0; 0;
  0; 0; 0; 0; 0; 0; 0; 0; 0; 0; 0; 0; 0; 0; 0; 0; 0; 0; 0; 0; 0; 0; 12; 0; 0; 0; 0; 0; 0; 0; 0; 0;
  0; 0; 0; 0; 0; 0; 0; 0; 0; 0; 0; 0; 0; 0; 0; 0; 0; 0; 0; 0; 0; 0; 8; 0; 4; 0; 170; 170; 100; 0; 0;
  0; 24; 0; 0; 0; 64; 0; 0; 0; 100; 0; 0; 0; 255; 255; 255; 255; 77; 0; 0; 0; 4; 0; 4; 0; 4; 0; 0;
  0; 38; 0; 32; 0; 0; 0; 0; 0; 0; 0; 0; 0; 0; 0; 0; 0; 0; 0; 28; 0; 24; 0; 20; 0; 0; 0; 16; 0; 12;
  0; 0; 0; 0; 0; 8; 0; 4; 0; 170; 170; 40; 0; 0; 0; 0; 0; 128; 191; 0; 0; 0; 64; 0; 0; 128; 191; 0;
  0; 128; 191; 0; 0; 128; 191; 0; 0; 128; 191; 0; 0; 128; 191; 98; 0; 24; 0; 20; 0; 0; 0; 16; 0; 0;
  0; 0; 0; 0; 0; 0; 0; 0; 0; 0; 0; 0; 0; 0; 0; 0; 0; 0; 0; 0; 0; 0; 0; 0; 0; 0; 0; 0; 0; 0; 0; 0; 0;
  0; 0; 0; 0; 0; 0; 0; 0; 0; 0; 0; 0; 0; 0; 0; 0; 0; 0; 12; 0; 0; 0; 0; 0; 0; 0; 0; 0; 0; 0; 0; 0;
  0; 0; 0; 0; 0; 0; 0; 0; 0; 0; 0; 0; 0; 0; 0; 0; 0; 0; 8; 0; 4; 0; 170; 170; 100; 0; 0; 0; 24; 0;
  0; 0; 68; 0; 0; 0; 100; 0; 0; 0; 255; 255; 255; 255; 143; 1; 0; 0; 4; 0; 4; 0; 4; 0; 0; 0; 42; 0;
  32; 0; 0; 0; 0; 0; 0; 0; 0; 0; 0; 0; 0; 0; 0; 0; 28; 0; 24; 0; 20; 0; 0; 0; 0; 0; 0; 0; 16; 0; 12;
  0; 0; 0; 0; 0; 8; 0; 4; 0; 170; 170; 44; 0; 0; 0; 0; 0; 160; 64; 0; 0; 160; 64; 0; 0; 160; 64; 0;
  0; 160; 64; 0; 0; 128; 191; 0; 0; 128; 191; 0; 0; 128; 191; 12; 0; 24; 0; 16; 0; 12; 0; 8; 0; 4;
  0; 12; 0; 0; 0; 20; 0; 0; 0; 4; 0; 0; 0; 2; 0; 0; 0; 151; 109; 202; 201; 3; 145; 163; 188; 2; 0;
  0; 0; 108; 0; 0; 0; 72; 1; 0; 0; 98; 0; 24; 0; 20; 0; 0; 0; 16; 0; 0; 0; 0; 0; 0; 0; 0; 0; 0; 0;
  0; 0; 0; 0; 0; 0; 0; 0; 0; 0; 0; 0; 0; 0; 0; 0; 0; 0; 0; 0; 0; 0; 0; 0; 0; 0; 0; 0; 0; 0; 0; 0; 0;
  0; 0; 0; 0; 0; 0; 0; 0; 0; 12; 0; 0; 0; 0; 0; 0; 0; 0; 0; 0; 0; 0; 0; 0; 0; 0; 0; 0; 0; 0; 0; 0;
  0; 0; 0; 0; 0; 0; 0; 0; 0; 8; 0; 4; 0; 170; 170; 100; 0; 0; 0; 24; 0; 0; 0; 68; 0; 0; 0; 100; 0;
  0; 0; 255; 255; 255; 255; 140; 1; 0; 0; 4; 0; 4; 0; 4; 0; 0; 0; 42; 0; 48; 0; 0; 0; 0; 0; 0; 0; 0;
  0; 0; 0; 0; 0; 0; 0; 44; 0; 40; 0; 36; 0; 0; 0; 32; 0; 28; 0; 24; 0; 20; 0; 16; 0; 12; 0; 8; 0; 4;
  0; 170; 170; 44; 0; 0; 0; 0; 0; 128; 191; 0; 0; 128; 191; 0; 0; 128; 191; 0; 0; 128; 191; 0; 0;
  128; 191; 0; 0; 128; 191; 0; 0; 128; 191; 0; 0; 128; 191; 0; 0; 128; 191; 0; 0; 128; 191; 0; 0;
  128; 191; 98; 0; 28; 0; 24; 0; 0; 0; 20; 0; 0; 0; 0; 0; 0; 0; 0; 0; 0; 0; 0; 0; 0; 0; 0; 0; 0; 0;
  0; 0; 0; 0; 0; 0; 0; 0; 0; 0; 0; 0; 0; 0; 0; 0; 0; 0; 0; 0; 0; 0; 0; 0; 0; 0; 16; 0; 0; 0; 0; 0;
  0; 0; 12; 0; 0; 0; 0; 0; 0; 0; 0; 0; 0; 0; 0; 0; 0; 0; 0; 0; 0; 0; 0; 0; 0; 0; 0; 0; 0; 0; 0; 0;
  0; 0; 8; 0; 4; 0; 170; 170; 100; 0; 0; 0; 32; 0; 0; 0; 80; 0; 0; 0; 2; 0; 0; 0; 3; 0; 0; 0; 255;
  255; 255; 255; 140; 1; 0; 0; 6; 0; 5; 0; 4; 0; 170; 170; 8; 0; 0; 0; 1; 0; 0; 0; 42; 0; 48; 0; 0;
  0; 0; 0; 0; 0; 0; 0; 0; 0; 0; 0; 0; 0; 44; 0; 40; 0; 36; 0; 0; 0; 32; 0; 28; 0; 24; 0; 20; 0; 16;
  0; 12; 0; 8; 0; 4; 0; 170; 170; 44; 0; 0; 0; 0; 0; 128; 191; 0; 0; 128; 191; 0; 0; 128; 191; 0; 0;
  128; 191; 0; 0; 128; 191; 0; 0; 128; 191; 0; 0; 128; 191; 0; 0; 128; 191; 0; 0; 128; 191; 0; 0;
  128; 191; 0; 0; 128; 191].
Definition enc_case_root : obj :=
  Obj [Some (FVec [Obj [Some (FScalar 8 7666359939341099265); Some (FScalar 4 4); Some (FScalar 4
  8); Some (FVec [Obj [Some (FScalar 4 77); None; Some (FScalar 4 4294967295); None; None; None;
  None; None; None; None; None; None; None; None; None; None; None; None; None; None; None; None;
  None; None; None; None; None; None; None; Some (FScalar 4 100); None; None; None; None; None;
  None; None; None; None; None; None; None; None; None; None; Some (FRef (Obj [None; None; None;
  None; None; None; None; Some (FScalar 4 3212836864); Some (FScalar 4 3212836864); Some (FScalar 4
  3212836864); None; Some (FScalar 4 3212836864); Some (FScalar 4 3212836864); None; None; Some
  (FScalar 4 1073741824); Some (FScalar 4 3212836864)])); Some (FRef (Obj []))]; Obj [Some (FScalar
  4 399); None; Some (FScalar 4 4294967295); None; None; None; None; None; None; None; None; None;
  None; None; None; None; None; None; None; None; None; None; None; None; None; None; None; None;
  None; Some (FScalar 4 100); None; None; None; None; None; None; None; None; None; None; None;
  None; None; None; None; Some (FRef (Obj [None; None; None; None; None; None; None; Some (FScalar 4
  3212836864); Some (FScalar 4 3212836864); Some (FScalar 4 3212836864); None; None; None; Some
  (FScalar 4 1084227584); Some (FScalar 4 1084227584); None; None; Some (FScalar 4 1084227584); Some
  (FScalar 4 1084227584)])); Some (FRef (Obj []))]])]; Obj [Some (FScalar 8 13592867545790705047);
  Some (FScalar 4 2); Some (FScalar 4 4); Some (FVec [Obj [Some (FScalar 4 396); None; Some (FScalar
  4 4294967295); None; None; None; None; None; None; None; None; None; None; None; None; None; None;
  None; None; None; None; None; None; None; None; None; None; None; None; Some (FScalar 4 100);
  None; None; None; None; None; None; None; None; None; None; None; None; None; None; None; Some
  (FRef (Obj [None; None; None; None; None; None; None; Some (FScalar 4 3212836864); Some (FScalar 4
  3212836864); Some (FScalar 4 3212836864); None; Some (FScalar 4 3212836864); Some (FScalar 4
  3212836864); Some (FScalar 4 3212836864); Some (FScalar 4 3212836864); Some (FScalar 4
  3212836864); Some (FScalar 4 3212836864); Some (FScalar 4 3212836864); Some (FScalar 4
  3212836864)])); Some (FRef (Obj []))]; Obj [Some (FScalar 4 396); None; Some (FScalar 4
  4294967295); None; None; None; None; None; None; None; None; None; None; None; None; None; None;
  None; None; None; None; None; None; None; None; Some (FScalar 4 3); None; None; None; Some
  (FScalar 4 2); None; None; None; None; None; None; None; None; None; None; None; None; None; None;
  None; Some (FRef (Obj [None; None; None; None; None; None; None; Some (FScalar 4 3212836864); Some
  (FScalar 4 3212836864); Some (FScalar 4 3212836864); None; Some (FScalar 4 3212836864); Some
  (FScalar 4 3212836864); Some (FScalar 4 3212836864); Some (FScalar 4 3212836864); Some (FScalar 4
  3212836864); Some (FScalar 4 3212836864); Some (FScalar 4 3212836864); Some (FScalar 4
  3212836864)])); Some (FRef (Obj [Some (FScalar 1 1)]))]])]])].

Definition str_case_bytes : list N :=
  [16; 0; 0; 0; 12; 0; 16; 0; 12; 0; 0; 0; 8; 0; 4; 0; 12; 0; 0; 0; 24; 0; 0; 0; 36; 0; 0; 0; 7; 0;
  0; 0; 10; 0; 16; 0; 12; 0; 8; 0; 4; 0; 170; 170; 12; 0; 0; 0; 0; 0; 0; 0; 0; 0; 0; 192; 0; 0; 128;
  63; 6; 0; 0; 0; 75; 97; 109; 97; 100; 111].
Definition str_case_root : obj :=
  Obj [Some (FScalar 4 7); None; Some (FStr [75; 97; 109; 97; 100; 111]); Some (FRef (Obj [Some
  (FScalar 4 1065353216); Some (FScalar 4 3221225472); Some (FScalar 4 0)]))].
