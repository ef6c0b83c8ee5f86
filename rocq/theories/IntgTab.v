(** IntgTab.v — all integrand functions and their entry points, transcribed from the C sources by a
    script into the syntax of IntgModel.v: every function of src/autocode/*.c, those of
    cint1e_a.c, cint3c1e_a.c and breit.c, and the plain ones of cint1e.c, cint2e.c (the version
    without SSE3) and g1e_grids.c.  Above every definition: file and line of the function.

    Transcription: g_ops lists the G1E_/G2E_/G1E_GRIDS_ macro calls and the loops g[ix] += g'[ix] in
    order; dri, drj, drk, drl are always r? - env[PTR_COMMON_ORIG+.], rirj = ri - rj,
    rkrl = rk - rl (checked by the script); the branches "gout_empty" (=) and else (+=) have the
    same right-hand sides (checked by the script).  Simplification: the hand-written functions
    accumulate their products in one variable; here every product is an entry of s and its integer
    factor is in the row. *)
From Coq Require Import String.
From Coq Require Import QArith.
From Verif Require Import Base EnvModel OpSpec IntgModel IntgSpec.
Local Open Scope string_scope.
Local Open Scope nat_scope.

Local Notation o := (@None Z).
Local Notation p0 := (Some 0%Z).
Local Notation p1 := (Some 1%Z).
Local Notation p2 := (Some 2%Z).
Local Notation p3 := (Some 3%Z).
Local Notation p4 := (Some 4%Z).
Local Notation p5 := (Some 5%Z).
Local Notation p6 := (Some 6%Z).

(* autocode/breit1.c:19 *)
Definition f_2e_int2e_gauge_r1_ssp1ssp2 := mkg "CINTgout2e_int2e_gauge_r1_ssp1ssp2" K2 16
  [GD CL 1 0 (mka p1 p3 p0 p0); GD CJ 2 0 (mka p0 p0 p0 p0); GD CJ 3 1 (mka p0 p0 p0 p0);
  GX CJ false 4 0 (mka p0 p1 p0 p0); GX CJ false 5 1 (mka p0 p1 p0 p0); GD CJ 6 4 (mka p0 p0 p0 p0);
  GD CJ 7 5 (mka p0 p0 p0 p0); GD CJ 8 0 (mka p0 p2 p0 p0); GD CI 9 0 (mka p0 p2 p0 p0); GSum 8 9;
  GD CJ 9 1 (mka p0 p2 p0 p0); GD CI 10 1 (mka p0 p2 p0 p0); GSum 9 10; GD CJ 10 8 (mka p0 p0 p0 p0);
  GD CJ 11 9 (mka p0 p0 p0 p0); GX CJ false 12 8 (mka p0 p1 p0 p0); GX CJ false 13 9 (mka p0 p1 p0 p0);
  GD CJ 14 12 (mka p0 p0 p0 p0); GD CJ 15 13 (mka p0 p0 p0 p0)]
  []
  [(15, 0, 0); (14, 1, 0); (14, 0, 1); (13, 2, 0); (12, 3, 0); (12, 2, 1); (13, 0, 2); (12, 1, 2); (12, 0, 3);
  (11, 4, 0); (10, 5, 0); (10, 4, 1); (9, 6, 0); (8, 7, 0); (8, 6, 1); (9, 4, 2); (8, 5, 2); (8, 4, 3); (11, 0, 4);
  (10, 1, 4); (10, 0, 5); (9, 2, 4); (8, 3, 4); (8, 2, 5); (9, 0, 6); (8, 1, 6); (8, 0, 7); (7, 8, 0); (6, 9, 0);
  (6, 8, 1); (5, 10, 0); (4, 11, 0); (4, 10, 1); (5, 8, 2); (4, 9, 2); (4, 8, 3); (3, 12, 0); (2, 13, 0); (2, 12, 1);
  (1, 14, 0); (0, 15, 0); (0, 14, 1); (1, 12, 2); (0, 13, 2); (0, 12, 3); (3, 8, 4); (2, 9, 4); (2, 8, 5);
  (1, 10, 4); (0, 11, 4); (0, 10, 5); (1, 8, 6); (0, 9, 6); (0, 8, 7); (7, 0, 8); (6, 1, 8); (6, 0, 9); (5, 2, 8);
  (4, 3, 8); (4, 2, 9); (5, 0, 10); (4, 1, 10); (4, 0, 11); (3, 4, 8); (2, 5, 8); (2, 4, 9); (1, 6, 8); (0, 7, 8);
  (0, 6, 9); (1, 4, 10); (0, 5, 10); (0, 4, 11); (3, 0, 12); (2, 1, 12); (2, 0, 13); (1, 2, 12); (0, 3, 12);
  (0, 2, 13); (1, 0, 14); (0, 1, 14); (0, 0, 15)]
  [[tm 1 44; tm (-1) 68; tm (-1) 52; tm 1 76]; [tm 1 65; tm (-1) 17; tm (-1) 73; tm 1 25];
  [tm 1 14; tm (-1) 38; tm (-1) 22; tm 1 46]; [tm 1 11; tm 1 41; tm 1 71; tm (-1) 19; tm (-1) 49; tm (-1) 79];
  [tm (-1) 35; tm 1 59; tm 1 51; tm (-1) 75]; [tm (-1) 56; tm 1 8; tm 1 72; tm (-1) 24];
  [tm (-1) 5; tm 1 29; tm 1 21; tm (-1) 45]; [tm (-1) 2; tm (-1) 32; tm (-1) 62; tm 1 18; tm 1 48; tm 1 78];
  [tm 1 34; tm (-1) 58; tm (-1) 42; tm 1 66]; [tm 1 55; tm (-1) 7; tm (-1) 63; tm 1 15];
  [tm 1 4; tm (-1) 28; tm (-1) 12; tm 1 36]; [tm 1 1; tm 1 31; tm 1 61; tm (-1) 9; tm (-1) 39; tm (-1) 69];
  [tm 1 33; tm (-1) 57; tm 1 43; tm (-1) 67; tm 1 53; tm (-1) 77];
  [tm 1 54; tm (-1) 6; tm 1 64; tm (-1) 16; tm 1 74; tm (-1) 26];
  [tm 1 3; tm (-1) 27; tm 1 13; tm (-1) 37; tm 1 23; tm (-1) 47];
  [tm 1 0; tm 1 30; tm 1 60; tm 1 10; tm 1 40; tm 1 70; tm 1 20; tm 1 50; tm 1 80]].

(* autocode/breit1.c:217 *)
Definition f_2e_int2e_gauge_r1_ssp1sps2 := mkg "CINTgout2e_int2e_gauge_r1_ssp1sps2" K2 16
  [GD CK 1 0 (mka p1 p3 p0 p0); GD CJ 2 0 (mka p0 p0 p0 p0); GD CJ 3 1 (mka p0 p0 p0 p0);
  GX CJ false 4 0 (mka p0 p1 p0 p0); GX CJ false 5 1 (mka p0 p1 p0 p0); GD CJ 6 4 (mka p0 p0 p0 p0);
  GD CJ 7 5 (mka p0 p0 p0 p0); GD CJ 8 0 (mka p0 p2 p0 p0); GD CI 9 0 (mka p0 p2 p0 p0); GSum 8 9;
  GD CJ 9 1 (mka p0 p2 p0 p0); GD CI 10 1 (mka p0 p2 p0 p0); GSum 9 10; GD CJ 10 8 (mka p0 p0 p0 p0);
  GD CJ 11 9 (mka p0 p0 p0 p0); GX CJ false 12 8 (mka p0 p1 p0 p0); GX CJ false 13 9 (mka p0 p1 p0 p0);
  GD CJ 14 12 (mka p0 p0 p0 p0); GD CJ 15 13 (mka p0 p0 p0 p0)]
  []
  [(15, 0, 0); (14, 1, 0); (14, 0, 1); (13, 2, 0); (12, 3, 0); (12, 2, 1); (13, 0, 2); (12, 1, 2); (12, 0, 3);
  (11, 4, 0); (10, 5, 0); (10, 4, 1); (9, 6, 0); (8, 7, 0); (8, 6, 1); (9, 4, 2); (8, 5, 2); (8, 4, 3); (11, 0, 4);
  (10, 1, 4); (10, 0, 5); (9, 2, 4); (8, 3, 4); (8, 2, 5); (9, 0, 6); (8, 1, 6); (8, 0, 7); (7, 8, 0); (6, 9, 0);
  (6, 8, 1); (5, 10, 0); (4, 11, 0); (4, 10, 1); (5, 8, 2); (4, 9, 2); (4, 8, 3); (3, 12, 0); (2, 13, 0); (2, 12, 1);
  (1, 14, 0); (0, 15, 0); (0, 14, 1); (1, 12, 2); (0, 13, 2); (0, 12, 3); (3, 8, 4); (2, 9, 4); (2, 8, 5);
  (1, 10, 4); (0, 11, 4); (0, 10, 5); (1, 8, 6); (0, 9, 6); (0, 8, 7); (7, 0, 8); (6, 1, 8); (6, 0, 9); (5, 2, 8);
  (4, 3, 8); (4, 2, 9); (5, 0, 10); (4, 1, 10); (4, 0, 11); (3, 4, 8); (2, 5, 8); (2, 4, 9); (1, 6, 8); (0, 7, 8);
  (0, 6, 9); (1, 4, 10); (0, 5, 10); (0, 4, 11); (3, 0, 12); (2, 1, 12); (2, 0, 13); (1, 2, 12); (0, 3, 12);
  (0, 2, 13); (1, 0, 14); (0, 1, 14); (0, 0, 15)]
  [[tm 1 44; tm (-1) 68; tm (-1) 52; tm 1 76]; [tm 1 65; tm (-1) 17; tm (-1) 73; tm 1 25];
  [tm 1 14; tm (-1) 38; tm (-1) 22; tm 1 46]; [tm 1 11; tm 1 41; tm 1 71; tm (-1) 19; tm (-1) 49; tm (-1) 79];
  [tm (-1) 35; tm 1 59; tm 1 51; tm (-1) 75]; [tm (-1) 56; tm 1 8; tm 1 72; tm (-1) 24];
  [tm (-1) 5; tm 1 29; tm 1 21; tm (-1) 45]; [tm (-1) 2; tm (-1) 32; tm (-1) 62; tm 1 18; tm 1 48; tm 1 78];
  [tm 1 34; tm (-1) 58; tm (-1) 42; tm 1 66]; [tm 1 55; tm (-1) 7; tm (-1) 63; tm 1 15];
  [tm 1 4; tm (-1) 28; tm (-1) 12; tm 1 36]; [tm 1 1; tm 1 31; tm 1 61; tm (-1) 9; tm (-1) 39; tm (-1) 69];
  [tm (-1) 33; tm 1 57; tm (-1) 43; tm 1 67; tm (-1) 53; tm 1 77];
  [tm (-1) 54; tm 1 6; tm (-1) 64; tm 1 16; tm (-1) 74; tm 1 26];
  [tm (-1) 3; tm 1 27; tm (-1) 13; tm 1 37; tm (-1) 23; tm 1 47];
  [tm (-1) 0; tm (-1) 30; tm (-1) 60; tm (-1) 10; tm (-1) 40; tm (-1) 70; tm (-1) 20; tm (-1) 50; tm (-1) 80]].

(* autocode/breit1.c:415 *)
Definition f_2e_int2e_gauge_r1_sps1ssp2 := mkg "CINTgout2e_int2e_gauge_r1_sps1ssp2" K2 16
  [GD CL 1 0 (mka p2 p2 p0 p0); GX CJ false 2 0 (mka p1 p0 p0 p0); GX CJ false 3 1 (mka p1 p0 p0 p0);
  GD CJ 4 0 (mka p1 p1 p0 p0); GD CI 5 0 (mka p1 p1 p0 p0); GSum 4 5; GD CJ 5 1 (mka p1 p1 p0 p0);
  GD CI 6 1 (mka p1 p1 p0 p0); GSum 5 6; GX CJ false 6 4 (mka p1 p0 p0 p0); GX CJ false 7 5 (mka p1 p0 p0 p0);
  GD CI 8 0 (mka p0 p0 p0 p0); GD CI 9 1 (mka p0 p0 p0 p0); GD CI 10 2 (mka p0 p0 p0 p0);
  GD CI 11 3 (mka p0 p0 p0 p0); GD CI 12 4 (mka p0 p0 p0 p0); GD CI 13 5 (mka p0 p0 p0 p0);
  GD CI 14 6 (mka p0 p0 p0 p0); GD CI 15 7 (mka p0 p0 p0 p0)]
  []
  [(15, 0, 0); (14, 1, 0); (14, 0, 1); (13, 2, 0); (12, 3, 0); (12, 2, 1); (13, 0, 2); (12, 1, 2); (12, 0, 3);
  (11, 4, 0); (10, 5, 0); (10, 4, 1); (9, 6, 0); (8, 7, 0); (8, 6, 1); (9, 4, 2); (8, 5, 2); (8, 4, 3); (11, 0, 4);
  (10, 1, 4); (10, 0, 5); (9, 2, 4); (8, 3, 4); (8, 2, 5); (9, 0, 6); (8, 1, 6); (8, 0, 7); (7, 8, 0); (6, 9, 0);
  (6, 8, 1); (5, 10, 0); (4, 11, 0); (4, 10, 1); (5, 8, 2); (4, 9, 2); (4, 8, 3); (3, 12, 0); (2, 13, 0); (2, 12, 1);
  (1, 14, 0); (0, 15, 0); (0, 14, 1); (1, 12, 2); (0, 13, 2); (0, 12, 3); (3, 8, 4); (2, 9, 4); (2, 8, 5);
  (1, 10, 4); (0, 11, 4); (0, 10, 5); (1, 8, 6); (0, 9, 6); (0, 8, 7); (7, 0, 8); (6, 1, 8); (6, 0, 9); (5, 2, 8);
  (4, 3, 8); (4, 2, 9); (5, 0, 10); (4, 1, 10); (4, 0, 11); (3, 4, 8); (2, 5, 8); (2, 4, 9); (1, 6, 8); (0, 7, 8);
  (0, 6, 9); (1, 4, 10); (0, 5, 10); (0, 4, 11); (3, 0, 12); (2, 1, 12); (2, 0, 13); (1, 2, 12); (0, 3, 12);
  (0, 2, 13); (1, 0, 14); (0, 1, 14); (0, 0, 15)]
  [[tm (-1) 50; tm 1 68; tm 1 52; tm (-1) 70]; [tm (-1) 59; tm 1 23; tm 1 61; tm (-1) 25];
  [tm (-1) 14; tm 1 32; tm 1 16; tm (-1) 34]; [tm (-1) 5; tm (-1) 41; tm (-1) 77; tm 1 7; tm 1 43; tm 1 79];
  [tm 1 47; tm (-1) 65; tm (-1) 51; tm 1 69]; [tm 1 56; tm (-1) 20; tm (-1) 60; tm 1 24];
  [tm 1 11; tm (-1) 29; tm (-1) 15; tm 1 33]; [tm 1 2; tm 1 38; tm 1 74; tm (-1) 6; tm (-1) 42; tm (-1) 78];
  [tm (-1) 46; tm 1 64; tm 1 48; tm (-1) 66]; [tm (-1) 55; tm 1 19; tm 1 57; tm (-1) 21];
  [tm (-1) 10; tm 1 28; tm 1 12; tm (-1) 30]; [tm (-1) 1; tm (-1) 37; tm (-1) 73; tm 1 3; tm 1 39; tm 1 75];
  [tm (-1) 45; tm 1 63; tm (-1) 49; tm 1 67; tm (-1) 53; tm 1 71];
  [tm (-1) 54; tm 1 18; tm (-1) 58; tm 1 22; tm (-1) 62; tm 1 26];
  [tm (-1) 9; tm 1 27; tm (-1) 13; tm 1 31; tm (-1) 17; tm 1 35];
  [tm (-1) 0; tm (-1) 36; tm (-1) 72; tm (-1) 4; tm (-1) 40; tm (-1) 76; tm (-1) 8; tm (-1) 44; tm (-1) 80]].

(* autocode/breit1.c:613 *)
Definition f_2e_int2e_gauge_r1_sps1sps2 := mkg "CINTgout2e_int2e_gauge_r1_sps1sps2" K2 16
  [GD CK 1 0 (mka p2 p2 p0 p0); GX CJ false 2 0 (mka p1 p0 p0 p0); GX CJ false 3 1 (mka p1 p0 p0 p0);
  GD CJ 4 0 (mka p1 p1 p0 p0); GD CI 5 0 (mka p1 p1 p0 p0); GSum 4 5; GD CJ 5 1 (mka p1 p1 p0 p0);
  GD CI 6 1 (mka p1 p1 p0 p0); GSum 5 6; GX CJ false 6 4 (mka p1 p0 p0 p0); GX CJ false 7 5 (mka p1 p0 p0 p0);
  GD CI 8 0 (mka p0 p0 p0 p0); GD CI 9 1 (mka p0 p0 p0 p0); GD CI 10 2 (mka p0 p0 p0 p0);
  GD CI 11 3 (mka p0 p0 p0 p0); GD CI 12 4 (mka p0 p0 p0 p0); GD CI 13 5 (mka p0 p0 p0 p0);
  GD CI 14 6 (mka p0 p0 p0 p0); GD CI 15 7 (mka p0 p0 p0 p0)]
  []
  [(15, 0, 0); (14, 1, 0); (14, 0, 1); (13, 2, 0); (12, 3, 0); (12, 2, 1); (13, 0, 2); (12, 1, 2); (12, 0, 3);
  (11, 4, 0); (10, 5, 0); (10, 4, 1); (9, 6, 0); (8, 7, 0); (8, 6, 1); (9, 4, 2); (8, 5, 2); (8, 4, 3); (11, 0, 4);
  (10, 1, 4); (10, 0, 5); (9, 2, 4); (8, 3, 4); (8, 2, 5); (9, 0, 6); (8, 1, 6); (8, 0, 7); (7, 8, 0); (6, 9, 0);
  (6, 8, 1); (5, 10, 0); (4, 11, 0); (4, 10, 1); (5, 8, 2); (4, 9, 2); (4, 8, 3); (3, 12, 0); (2, 13, 0); (2, 12, 1);
  (1, 14, 0); (0, 15, 0); (0, 14, 1); (1, 12, 2); (0, 13, 2); (0, 12, 3); (3, 8, 4); (2, 9, 4); (2, 8, 5);
  (1, 10, 4); (0, 11, 4); (0, 10, 5); (1, 8, 6); (0, 9, 6); (0, 8, 7); (7, 0, 8); (6, 1, 8); (6, 0, 9); (5, 2, 8);
  (4, 3, 8); (4, 2, 9); (5, 0, 10); (4, 1, 10); (4, 0, 11); (3, 4, 8); (2, 5, 8); (2, 4, 9); (1, 6, 8); (0, 7, 8);
  (0, 6, 9); (1, 4, 10); (0, 5, 10); (0, 4, 11); (3, 0, 12); (2, 1, 12); (2, 0, 13); (1, 2, 12); (0, 3, 12);
  (0, 2, 13); (1, 0, 14); (0, 1, 14); (0, 0, 15)]
  [[tm (-1) 50; tm 1 68; tm 1 52; tm (-1) 70]; [tm (-1) 59; tm 1 23; tm 1 61; tm (-1) 25];
  [tm (-1) 14; tm 1 32; tm 1 16; tm (-1) 34]; [tm (-1) 5; tm (-1) 41; tm (-1) 77; tm 1 7; tm 1 43; tm 1 79];
  [tm 1 47; tm (-1) 65; tm (-1) 51; tm 1 69]; [tm 1 56; tm (-1) 20; tm (-1) 60; tm 1 24];
  [tm 1 11; tm (-1) 29; tm (-1) 15; tm 1 33]; [tm 1 2; tm 1 38; tm 1 74; tm (-1) 6; tm (-1) 42; tm (-1) 78];
  [tm (-1) 46; tm 1 64; tm 1 48; tm (-1) 66]; [tm (-1) 55; tm 1 19; tm 1 57; tm (-1) 21];
  [tm (-1) 10; tm 1 28; tm 1 12; tm (-1) 30]; [tm (-1) 1; tm (-1) 37; tm (-1) 73; tm 1 3; tm 1 39; tm 1 75];
  [tm 1 45; tm (-1) 63; tm 1 49; tm (-1) 67; tm 1 53; tm (-1) 71];
  [tm 1 54; tm (-1) 18; tm 1 58; tm (-1) 22; tm 1 62; tm (-1) 26];
  [tm 1 9; tm (-1) 27; tm 1 13; tm (-1) 31; tm 1 17; tm (-1) 35];
  [tm 1 0; tm 1 36; tm 1 72; tm 1 4; tm 1 40; tm 1 76; tm 1 8; tm 1 44; tm 1 80]].

(* autocode/breit1.c:811 *)
Definition f_2e_int2e_gauge_r2_ssp1ssp2 := mkg "CINTgout2e_int2e_gauge_r2_ssp1ssp2" K2 16
  [GD CL 1 0 (mka p1 p2 p0 p0); GX CL false 2 0 (mka p1 p2 p0 p1); GD CL 3 2 (mka p1 p2 p0 p0);
  GD CJ 4 0 (mka p0 p0 p0 p0); GD CJ 5 1 (mka p0 p0 p0 p0); GD CJ 6 2 (mka p0 p0 p0 p0); GD CJ 7 3 (mka p0 p0 p0 p0);
  GD CJ 8 0 (mka p0 p1 p0 p0); GD CI 9 0 (mka p0 p1 p0 p0); GSum 8 9; GD CJ 9 1 (mka p0 p1 p0 p0);
  GD CI 10 1 (mka p0 p1 p0 p0); GSum 9 10; GD CJ 10 2 (mka p0 p1 p0 p0); GD CI 11 2 (mka p0 p1 p0 p0); GSum 10 11;
  GD CJ 11 3 (mka p0 p1 p0 p0); GD CI 12 3 (mka p0 p1 p0 p0); GSum 11 12; GD CJ 12 8 (mka p0 p0 p0 p0);
  GD CJ 13 9 (mka p0 p0 p0 p0); GD CJ 14 10 (mka p0 p0 p0 p0); GD CJ 15 11 (mka p0 p0 p0 p0)]
  []
  [(15, 0, 0); (14, 1, 0); (14, 0, 1); (13, 2, 0); (12, 3, 0); (12, 2, 1); (13, 0, 2); (12, 1, 2); (12, 0, 3);
  (11, 4, 0); (10, 5, 0); (10, 4, 1); (9, 6, 0); (8, 7, 0); (8, 6, 1); (9, 4, 2); (8, 5, 2); (8, 4, 3); (11, 0, 4);
  (10, 1, 4); (10, 0, 5); (9, 2, 4); (8, 3, 4); (8, 2, 5); (9, 0, 6); (8, 1, 6); (8, 0, 7); (7, 8, 0); (6, 9, 0);
  (6, 8, 1); (5, 10, 0); (4, 11, 0); (4, 10, 1); (5, 8, 2); (4, 9, 2); (4, 8, 3); (3, 12, 0); (2, 13, 0); (2, 12, 1);
  (1, 14, 0); (0, 15, 0); (0, 14, 1); (1, 12, 2); (0, 13, 2); (0, 12, 3); (3, 8, 4); (2, 9, 4); (2, 8, 5);
  (1, 10, 4); (0, 11, 4); (0, 10, 5); (1, 8, 6); (0, 9, 6); (0, 8, 7); (7, 0, 8); (6, 1, 8); (6, 0, 9); (5, 2, 8);
  (4, 3, 8); (4, 2, 9); (5, 0, 10); (4, 1, 10); (4, 0, 11); (3, 4, 8); (2, 5, 8); (2, 4, 9); (1, 6, 8); (0, 7, 8);
  (0, 6, 9); (1, 4, 10); (0, 5, 10); (0, 4, 11); (3, 0, 12); (2, 1, 12); (2, 0, 13); (1, 2, 12); (0, 3, 12);
  (0, 2, 13); (1, 0, 14); (0, 1, 14); (0, 0, 15)]
  [[tm 1 50; tm (-1) 68; tm (-1) 52; tm 1 70]; [tm 1 59; tm (-1) 23; tm (-1) 61; tm 1 25];
  [tm 1 14; tm (-1) 32; tm (-1) 16; tm 1 34]; [tm 1 5; tm 1 41; tm 1 77; tm (-1) 7; tm (-1) 43; tm (-1) 79];
  [tm 1 51; tm (-1) 69; tm (-1) 47; tm 1 65]; [tm 1 60; tm (-1) 24; tm (-1) 56; tm 1 20];
  [tm 1 15; tm (-1) 33; tm (-1) 11; tm 1 29]; [tm 1 6; tm 1 42; tm 1 78; tm (-1) 2; tm (-1) 38; tm (-1) 74];
  [tm 1 46; tm (-1) 64; tm (-1) 48; tm 1 66]; [tm 1 55; tm (-1) 19; tm (-1) 57; tm 1 21];
  [tm 1 10; tm (-1) 28; tm (-1) 12; tm 1 30]; [tm 1 1; tm 1 37; tm 1 73; tm (-1) 3; tm (-1) 39; tm (-1) 75];
  [tm 1 45; tm (-1) 63; tm 1 49; tm (-1) 67; tm 1 53; tm (-1) 71];
  [tm 1 54; tm (-1) 18; tm 1 58; tm (-1) 22; tm 1 62; tm (-1) 26];
  [tm 1 9; tm (-1) 27; tm 1 13; tm (-1) 31; tm 1 17; tm (-1) 35];
  [tm 1 0; tm 1 36; tm 1 72; tm 1 4; tm 1 40; tm 1 76; tm 1 8; tm 1 44; tm 1 80]].

(* autocode/breit1.c:1013 *)
Definition f_2e_int2e_gauge_r2_ssp1sps2 := mkg "CINTgout2e_int2e_gauge_r2_ssp1sps2" K2 16
  [GX CL false 1 0 (mka p1 p2 p1 p0); GD CK 2 0 (mka p1 p2 p0 p0); GD CK 3 1 (mka p1 p2 p0 p0);
  GD CJ 4 0 (mka p0 p0 p0 p0); GD CJ 5 1 (mka p0 p0 p0 p0); GD CJ 6 2 (mka p0 p0 p0 p0); GD CJ 7 3 (mka p0 p0 p0 p0);
  GD CJ 8 0 (mka p0 p1 p0 p0); GD CI 9 0 (mka p0 p1 p0 p0); GSum 8 9; GD CJ 9 1 (mka p0 p1 p0 p0);
  GD CI 10 1 (mka p0 p1 p0 p0); GSum 9 10; GD CJ 10 2 (mka p0 p1 p0 p0); GD CI 11 2 (mka p0 p1 p0 p0); GSum 10 11;
  GD CJ 11 3 (mka p0 p1 p0 p0); GD CI 12 3 (mka p0 p1 p0 p0); GSum 11 12; GD CJ 12 8 (mka p0 p0 p0 p0);
  GD CJ 13 9 (mka p0 p0 p0 p0); GD CJ 14 10 (mka p0 p0 p0 p0); GD CJ 15 11 (mka p0 p0 p0 p0)]
  []
  [(15, 0, 0); (14, 1, 0); (14, 0, 1); (13, 2, 0); (12, 3, 0); (12, 2, 1); (13, 0, 2); (12, 1, 2); (12, 0, 3);
  (11, 4, 0); (10, 5, 0); (10, 4, 1); (9, 6, 0); (8, 7, 0); (8, 6, 1); (9, 4, 2); (8, 5, 2); (8, 4, 3); (11, 0, 4);
  (10, 1, 4); (10, 0, 5); (9, 2, 4); (8, 3, 4); (8, 2, 5); (9, 0, 6); (8, 1, 6); (8, 0, 7); (7, 8, 0); (6, 9, 0);
  (6, 8, 1); (5, 10, 0); (4, 11, 0); (4, 10, 1); (5, 8, 2); (4, 9, 2); (4, 8, 3); (3, 12, 0); (2, 13, 0); (2, 12, 1);
  (1, 14, 0); (0, 15, 0); (0, 14, 1); (1, 12, 2); (0, 13, 2); (0, 12, 3); (3, 8, 4); (2, 9, 4); (2, 8, 5);
  (1, 10, 4); (0, 11, 4); (0, 10, 5); (1, 8, 6); (0, 9, 6); (0, 8, 7); (7, 0, 8); (6, 1, 8); (6, 0, 9); (5, 2, 8);
  (4, 3, 8); (4, 2, 9); (5, 0, 10); (4, 1, 10); (4, 0, 11); (3, 4, 8); (2, 5, 8); (2, 4, 9); (1, 6, 8); (0, 7, 8);
  (0, 6, 9); (1, 4, 10); (0, 5, 10); (0, 4, 11); (3, 0, 12); (2, 1, 12); (2, 0, 13); (1, 2, 12); (0, 3, 12);
  (0, 2, 13); (1, 0, 14); (0, 1, 14); (0, 0, 15)]
  [[tm (-1) 50; tm 1 68; tm 1 52; tm (-1) 70]; [tm (-1) 59; tm 1 23; tm 1 61; tm (-1) 25];
  [tm (-1) 14; tm 1 32; tm 1 16; tm (-1) 34]; [tm (-1) 5; tm (-1) 41; tm (-1) 77; tm 1 7; tm 1 43; tm 1 79];
  [tm (-1) 51; tm 1 69; tm 1 47; tm (-1) 65]; [tm (-1) 60; tm 1 24; tm 1 56; tm (-1) 20];
  [tm (-1) 15; tm 1 33; tm 1 11; tm (-1) 29]; [tm (-1) 6; tm (-1) 42; tm (-1) 78; tm 1 2; tm 1 38; tm 1 74];
  [tm (-1) 46; tm 1 64; tm 1 48; tm (-1) 66]; [tm (-1) 55; tm 1 19; tm 1 57; tm (-1) 21];
  [tm (-1) 10; tm 1 28; tm 1 12; tm (-1) 30]; [tm (-1) 1; tm (-1) 37; tm (-1) 73; tm 1 3; tm 1 39; tm 1 75];
  [tm (-1) 45; tm 1 63; tm (-1) 49; tm 1 67; tm (-1) 53; tm 1 71];
  [tm (-1) 54; tm 1 18; tm (-1) 58; tm 1 22; tm (-1) 62; tm 1 26];
  [tm (-1) 9; tm 1 27; tm (-1) 13; tm 1 31; tm (-1) 17; tm 1 35];
  [tm (-1) 0; tm (-1) 36; tm (-1) 72; tm (-1) 4; tm (-1) 40; tm (-1) 76; tm (-1) 8; tm (-1) 44; tm (-1) 80]].

(* autocode/breit1.c:1215 *)
Definition f_2e_int2e_gauge_r2_sps1ssp2 := mkg "CINTgout2e_int2e_gauge_r2_sps1ssp2" K2 16
  [GD CL 1 0 (mka p2 p1 p0 p0); GX CL false 2 0 (mka p2 p1 p0 p1); GD CL 3 2 (mka p2 p1 p0 p0);
  GD CJ 4 0 (mka p1 p0 p0 p0); GD CI 5 0 (mka p1 p0 p0 p0); GSum 4 5; GD CJ 5 1 (mka p1 p0 p0 p0);
  GD CI 6 1 (mka p1 p0 p0 p0); GSum 5 6; GD CJ 6 2 (mka p1 p0 p0 p0); GD CI 7 2 (mka p1 p0 p0 p0); GSum 6 7;
  GD CJ 7 3 (mka p1 p0 p0 p0); GD CI 8 3 (mka p1 p0 p0 p0); GSum 7 8; GD CI 8 0 (mka p0 p0 p0 p0);
  GD CI 9 1 (mka p0 p0 p0 p0); GD CI 10 2 (mka p0 p0 p0 p0); GD CI 11 3 (mka p0 p0 p0 p0);
  GD CI 12 4 (mka p0 p0 p0 p0); GD CI 13 5 (mka p0 p0 p0 p0); GD CI 14 6 (mka p0 p0 p0 p0);
  GD CI 15 7 (mka p0 p0 p0 p0)]
  []
  [(15, 0, 0); (14, 1, 0); (14, 0, 1); (13, 2, 0); (12, 3, 0); (12, 2, 1); (13, 0, 2); (12, 1, 2); (12, 0, 3);
  (11, 4, 0); (10, 5, 0); (10, 4, 1); (9, 6, 0); (8, 7, 0); (8, 6, 1); (9, 4, 2); (8, 5, 2); (8, 4, 3); (11, 0, 4);
  (10, 1, 4); (10, 0, 5); (9, 2, 4); (8, 3, 4); (8, 2, 5); (9, 0, 6); (8, 1, 6); (8, 0, 7); (7, 8, 0); (6, 9, 0);
  (6, 8, 1); (5, 10, 0); (4, 11, 0); (4, 10, 1); (5, 8, 2); (4, 9, 2); (4, 8, 3); (3, 12, 0); (2, 13, 0); (2, 12, 1);
  (1, 14, 0); (0, 15, 0); (0, 14, 1); (1, 12, 2); (0, 13, 2); (0, 12, 3); (3, 8, 4); (2, 9, 4); (2, 8, 5);
  (1, 10, 4); (0, 11, 4); (0, 10, 5); (1, 8, 6); (0, 9, 6); (0, 8, 7); (7, 0, 8); (6, 1, 8); (6, 0, 9); (5, 2, 8);
  (4, 3, 8); (4, 2, 9); (5, 0, 10); (4, 1, 10); (4, 0, 11); (3, 4, 8); (2, 5, 8); (2, 4, 9); (1, 6, 8); (0, 7, 8);
  (0, 6, 9); (1, 4, 10); (0, 5, 10); (0, 4, 11); (3, 0, 12); (2, 1, 12); (2, 0, 13); (1, 2, 12); (0, 3, 12);
  (0, 2, 13); (1, 0, 14); (0, 1, 14); (0, 0, 15)]
  [[tm (-1) 50; tm 1 68; tm 1 52; tm (-1) 70]; [tm (-1) 59; tm 1 23; tm 1 61; tm (-1) 25];
  [tm (-1) 14; tm 1 32; tm 1 16; tm (-1) 34]; [tm (-1) 5; tm (-1) 41; tm (-1) 77; tm 1 7; tm 1 43; tm 1 79];
  [tm (-1) 51; tm 1 69; tm 1 47; tm (-1) 65]; [tm (-1) 60; tm 1 24; tm 1 56; tm (-1) 20];
  [tm (-1) 15; tm 1 33; tm 1 11; tm (-1) 29]; [tm (-1) 6; tm (-1) 42; tm (-1) 78; tm 1 2; tm 1 38; tm 1 74];
  [tm (-1) 46; tm 1 64; tm 1 48; tm (-1) 66]; [tm (-1) 55; tm 1 19; tm 1 57; tm (-1) 21];
  [tm (-1) 10; tm 1 28; tm 1 12; tm (-1) 30]; [tm (-1) 1; tm (-1) 37; tm (-1) 73; tm 1 3; tm 1 39; tm 1 75];
  [tm (-1) 45; tm 1 63; tm (-1) 49; tm 1 67; tm (-1) 53; tm 1 71];
  [tm (-1) 54; tm 1 18; tm (-1) 58; tm 1 22; tm (-1) 62; tm 1 26];
  [tm (-1) 9; tm 1 27; tm (-1) 13; tm 1 31; tm (-1) 17; tm 1 35];
  [tm (-1) 0; tm (-1) 36; tm (-1) 72; tm (-1) 4; tm (-1) 40; tm (-1) 76; tm (-1) 8; tm (-1) 44; tm (-1) 80]].

(* autocode/breit1.c:1417 *)
Definition f_2e_int2e_gauge_r2_sps1sps2 := mkg "CINTgout2e_int2e_gauge_r2_sps1sps2" K2 16
  [GX CL false 1 0 (mka p2 p1 p1 p0); GD CK 2 0 (mka p2 p1 p0 p0); GD CK 3 1 (mka p2 p1 p0 p0);
  GD CJ 4 0 (mka p1 p0 p0 p0); GD CI 5 0 (mka p1 p0 p0 p0); GSum 4 5; GD CJ 5 1 (mka p1 p0 p0 p0);
  GD CI 6 1 (mka p1 p0 p0 p0); GSum 5 6; GD CJ 6 2 (mka p1 p0 p0 p0); GD CI 7 2 (mka p1 p0 p0 p0); GSum 6 7;
  GD CJ 7 3 (mka p1 p0 p0 p0); GD CI 8 3 (mka p1 p0 p0 p0); GSum 7 8; GD CI 8 0 (mka p0 p0 p0 p0);
  GD CI 9 1 (mka p0 p0 p0 p0); GD CI 10 2 (mka p0 p0 p0 p0); GD CI 11 3 (mka p0 p0 p0 p0);
  GD CI 12 4 (mka p0 p0 p0 p0); GD CI 13 5 (mka p0 p0 p0 p0); GD CI 14 6 (mka p0 p0 p0 p0);
  GD CI 15 7 (mka p0 p0 p0 p0)]
  []
  [(15, 0, 0); (14, 1, 0); (14, 0, 1); (13, 2, 0); (12, 3, 0); (12, 2, 1); (13, 0, 2); (12, 1, 2); (12, 0, 3);
  (11, 4, 0); (10, 5, 0); (10, 4, 1); (9, 6, 0); (8, 7, 0); (8, 6, 1); (9, 4, 2); (8, 5, 2); (8, 4, 3); (11, 0, 4);
  (10, 1, 4); (10, 0, 5); (9, 2, 4); (8, 3, 4); (8, 2, 5); (9, 0, 6); (8, 1, 6); (8, 0, 7); (7, 8, 0); (6, 9, 0);
  (6, 8, 1); (5, 10, 0); (4, 11, 0); (4, 10, 1); (5, 8, 2); (4, 9, 2); (4, 8, 3); (3, 12, 0); (2, 13, 0); (2, 12, 1);
  (1, 14, 0); (0, 15, 0); (0, 14, 1); (1, 12, 2); (0, 13, 2); (0, 12, 3); (3, 8, 4); (2, 9, 4); (2, 8, 5);
  (1, 10, 4); (0, 11, 4); (0, 10, 5); (1, 8, 6); (0, 9, 6); (0, 8, 7); (7, 0, 8); (6, 1, 8); (6, 0, 9); (5, 2, 8);
  (4, 3, 8); (4, 2, 9); (5, 0, 10); (4, 1, 10); (4, 0, 11); (3, 4, 8); (2, 5, 8); (2, 4, 9); (1, 6, 8); (0, 7, 8);
  (0, 6, 9); (1, 4, 10); (0, 5, 10); (0, 4, 11); (3, 0, 12); (2, 1, 12); (2, 0, 13); (1, 2, 12); (0, 3, 12);
  (0, 2, 13); (1, 0, 14); (0, 1, 14); (0, 0, 15)]
  [[tm 1 50; tm (-1) 68; tm (-1) 52; tm 1 70]; [tm 1 59; tm (-1) 23; tm (-1) 61; tm 1 25];
  [tm 1 14; tm (-1) 32; tm (-1) 16; tm 1 34]; [tm 1 5; tm 1 41; tm 1 77; tm (-1) 7; tm (-1) 43; tm (-1) 79];
  [tm 1 51; tm (-1) 69; tm (-1) 47; tm 1 65]; [tm 1 60; tm (-1) 24; tm (-1) 56; tm 1 20];
  [tm 1 15; tm (-1) 33; tm (-1) 11; tm 1 29]; [tm 1 6; tm 1 42; tm 1 78; tm (-1) 2; tm (-1) 38; tm (-1) 74];
  [tm 1 46; tm (-1) 64; tm (-1) 48; tm 1 66]; [tm 1 55; tm (-1) 19; tm (-1) 57; tm 1 21];
  [tm 1 10; tm (-1) 28; tm (-1) 12; tm 1 30]; [tm 1 1; tm 1 37; tm 1 73; tm (-1) 3; tm (-1) 39; tm (-1) 75];
  [tm 1 45; tm (-1) 63; tm 1 49; tm (-1) 67; tm 1 53; tm (-1) 71];
  [tm 1 54; tm (-1) 18; tm 1 58; tm (-1) 22; tm 1 62; tm (-1) 26];
  [tm 1 9; tm (-1) 27; tm 1 13; tm (-1) 31; tm 1 17; tm (-1) 35];
  [tm 1 0; tm 1 36; tm 1 72; tm 1 4; tm 1 40; tm 1 76; tm 1 8; tm 1 44; tm 1 80]].

(* autocode/deriv3.c:18 *)
Definition f_1e_int1e_ipipipnuc := mkg "CINTgout1e_int1e_ipipipnuc" K2 8
  [GD CI 1 0 (mka p2 p0 o o); GD CI 2 0 (mka p1 p0 o o); GD CI 3 1 (mka p1 p0 o o); GD CI 4 0 (mka p0 p0 o o);
  GD CI 5 1 (mka p0 p0 o o); GD CI 6 2 (mka p0 p0 o o); GD CI 7 3 (mka p0 p0 o o)]
  []
  [(7, 0, 0); (6, 1, 0); (6, 0, 1); (5, 2, 0); (4, 3, 0); (4, 2, 1); (5, 0, 2); (4, 1, 2); (4, 0, 3); (3, 4, 0);
  (2, 5, 0); (2, 4, 1); (1, 6, 0); (0, 7, 0); (0, 6, 1); (1, 4, 2); (0, 5, 2); (0, 4, 3); (3, 0, 4); (2, 1, 4);
  (2, 0, 5); (1, 2, 4); (0, 3, 4); (0, 2, 5); (1, 0, 6); (0, 1, 6); (0, 0, 7)]
  [[tm 1 0]; [tm 1 9]; [tm 1 18]; [tm 1 3]; [tm 1 12]; [tm 1 21]; [tm 1 6]; [tm 1 15]; [tm 1 24]; [tm 1 1];
  [tm 1 10]; [tm 1 19]; [tm 1 4]; [tm 1 13]; [tm 1 22]; [tm 1 7]; [tm 1 16]; [tm 1 25]; [tm 1 2]; [tm 1 11];
  [tm 1 20]; [tm 1 5]; [tm 1 14]; [tm 1 23]; [tm 1 8]; [tm 1 17]; [tm 1 26]].

(* autocode/deriv3.c:160 *)
Definition f_1e_int1e_ipipiprinv := mkg "CINTgout1e_int1e_ipipiprinv" K2 8
  [GD CI 1 0 (mka p2 p0 o o); GD CI 2 0 (mka p1 p0 o o); GD CI 3 1 (mka p1 p0 o o); GD CI 4 0 (mka p0 p0 o o);
  GD CI 5 1 (mka p0 p0 o o); GD CI 6 2 (mka p0 p0 o o); GD CI 7 3 (mka p0 p0 o o)]
  []
  [(7, 0, 0); (6, 1, 0); (6, 0, 1); (5, 2, 0); (4, 3, 0); (4, 2, 1); (5, 0, 2); (4, 1, 2); (4, 0, 3); (3, 4, 0);
  (2, 5, 0); (2, 4, 1); (1, 6, 0); (0, 7, 0); (0, 6, 1); (1, 4, 2); (0, 5, 2); (0, 4, 3); (3, 0, 4); (2, 1, 4);
  (2, 0, 5); (1, 2, 4); (0, 3, 4); (0, 2, 5); (1, 0, 6); (0, 1, 6); (0, 0, 7)]
  [[tm 1 0]; [tm 1 9]; [tm 1 18]; [tm 1 3]; [tm 1 12]; [tm 1 21]; [tm 1 6]; [tm 1 15]; [tm 1 24]; [tm 1 1];
  [tm 1 10]; [tm 1 19]; [tm 1 4]; [tm 1 13]; [tm 1 22]; [tm 1 7]; [tm 1 16]; [tm 1 25]; [tm 1 2]; [tm 1 11];
  [tm 1 20]; [tm 1 5]; [tm 1 14]; [tm 1 23]; [tm 1 8]; [tm 1 17]; [tm 1 26]].

(* autocode/deriv3.c:302 *)
Definition f_1e_int1e_ipipnucip := mkg "CINTgout1e_int1e_ipipnucip" K2 8
  [GD CJ 1 0 (mka p2 p0 o o); GD CI 2 0 (mka p1 p0 o o); GD CI 3 1 (mka p1 p0 o o); GD CI 4 0 (mka p0 p0 o o);
  GD CI 5 1 (mka p0 p0 o o); GD CI 6 2 (mka p0 p0 o o); GD CI 7 3 (mka p0 p0 o o)]
  []
  [(7, 0, 0); (6, 1, 0); (6, 0, 1); (5, 2, 0); (4, 3, 0); (4, 2, 1); (5, 0, 2); (4, 1, 2); (4, 0, 3); (3, 4, 0);
  (2, 5, 0); (2, 4, 1); (1, 6, 0); (0, 7, 0); (0, 6, 1); (1, 4, 2); (0, 5, 2); (0, 4, 3); (3, 0, 4); (2, 1, 4);
  (2, 0, 5); (1, 2, 4); (0, 3, 4); (0, 2, 5); (1, 0, 6); (0, 1, 6); (0, 0, 7)]
  [[tm 1 0]; [tm 1 1]; [tm 1 2]; [tm 1 9]; [tm 1 10]; [tm 1 11]; [tm 1 18]; [tm 1 19]; [tm 1 20]; [tm 1 3]; [tm 1 4];
  [tm 1 5]; [tm 1 12]; [tm 1 13]; [tm 1 14]; [tm 1 21]; [tm 1 22]; [tm 1 23]; [tm 1 6]; [tm 1 7]; [tm 1 8];
  [tm 1 15]; [tm 1 16]; [tm 1 17]; [tm 1 24]; [tm 1 25]; [tm 1 26]].

(* autocode/deriv3.c:444 *)
Definition f_1e_int1e_ipiprinvip := mkg "CINTgout1e_int1e_ipiprinvip" K2 8
  [GD CJ 1 0 (mka p2 p0 o o); GD CI 2 0 (mka p1 p0 o o); GD CI 3 1 (mka p1 p0 o o); GD CI 4 0 (mka p0 p0 o o);
  GD CI 5 1 (mka p0 p0 o o); GD CI 6 2 (mka p0 p0 o o); GD CI 7 3 (mka p0 p0 o o)]
  []
  [(7, 0, 0); (6, 1, 0); (6, 0, 1); (5, 2, 0); (4, 3, 0); (4, 2, 1); (5, 0, 2); (4, 1, 2); (4, 0, 3); (3, 4, 0);
  (2, 5, 0); (2, 4, 1); (1, 6, 0); (0, 7, 0); (0, 6, 1); (1, 4, 2); (0, 5, 2); (0, 4, 3); (3, 0, 4); (2, 1, 4);
  (2, 0, 5); (1, 2, 4); (0, 3, 4); (0, 2, 5); (1, 0, 6); (0, 1, 6); (0, 0, 7)]
  [[tm 1 0]; [tm 1 1]; [tm 1 2]; [tm 1 9]; [tm 1 10]; [tm 1 11]; [tm 1 18]; [tm 1 19]; [tm 1 20]; [tm 1 3]; [tm 1 4];
  [tm 1 5]; [tm 1 12]; [tm 1 13]; [tm 1 14]; [tm 1 21]; [tm 1 22]; [tm 1 23]; [tm 1 6]; [tm 1 7]; [tm 1 8];
  [tm 1 15]; [tm 1 16]; [tm 1 17]; [tm 1 24]; [tm 1 25]; [tm 1 26]].

(* autocode/deriv4.c:18 *)
Definition f_1e_int1e_ipiprinvipip := mkg "CINTgout1e_int1e_ipiprinvipip" K2 16
  [GD CJ 1 0 (mka p2 p0 o o); GD CJ 2 0 (mka p2 p1 o o); GD CJ 3 2 (mka p2 p0 o o); GD CI 4 0 (mka p1 p0 o o);
  GD CI 5 1 (mka p1 p0 o o); GD CI 6 2 (mka p1 p0 o o); GD CI 7 3 (mka p1 p0 o o); GD CI 8 0 (mka p0 p0 o o);
  GD CI 9 1 (mka p0 p0 o o); GD CI 10 2 (mka p0 p0 o o); GD CI 11 3 (mka p0 p0 o o); GD CI 12 4 (mka p0 p0 o o);
  GD CI 13 5 (mka p0 p0 o o); GD CI 14 6 (mka p0 p0 o o); GD CI 15 7 (mka p0 p0 o o)]
  []
  [(15, 0, 0); (14, 1, 0); (14, 0, 1); (13, 2, 0); (12, 3, 0); (12, 2, 1); (13, 0, 2); (12, 1, 2); (12, 0, 3);
  (11, 4, 0); (10, 5, 0); (10, 4, 1); (9, 6, 0); (8, 7, 0); (8, 6, 1); (9, 4, 2); (8, 5, 2); (8, 4, 3); (11, 0, 4);
  (10, 1, 4); (10, 0, 5); (9, 2, 4); (8, 3, 4); (8, 2, 5); (9, 0, 6); (8, 1, 6); (8, 0, 7); (7, 8, 0); (6, 9, 0);
  (6, 8, 1); (5, 10, 0); (4, 11, 0); (4, 10, 1); (5, 8, 2); (4, 9, 2); (4, 8, 3); (3, 12, 0); (2, 13, 0); (2, 12, 1);
  (1, 14, 0); (0, 15, 0); (0, 14, 1); (1, 12, 2); (0, 13, 2); (0, 12, 3); (3, 8, 4); (2, 9, 4); (2, 8, 5);
  (1, 10, 4); (0, 11, 4); (0, 10, 5); (1, 8, 6); (0, 9, 6); (0, 8, 7); (7, 0, 8); (6, 1, 8); (6, 0, 9); (5, 2, 8);
  (4, 3, 8); (4, 2, 9); (5, 0, 10); (4, 1, 10); (4, 0, 11); (3, 4, 8); (2, 5, 8); (2, 4, 9); (1, 6, 8); (0, 7, 8);
  (0, 6, 9); (1, 4, 10); (0, 5, 10); (0, 4, 11); (3, 0, 12); (2, 1, 12); (2, 0, 13); (1, 2, 12); (0, 3, 12);
  (0, 2, 13); (1, 0, 14); (0, 1, 14); (0, 0, 15)]
  [[tm 1 0]; [tm 1 1]; [tm 1 2]; [tm 1 3]; [tm 1 4]; [tm 1 5]; [tm 1 6]; [tm 1 7]; [tm 1 8]; [tm 1 27]; [tm 1 28];
  [tm 1 29]; [tm 1 30]; [tm 1 31]; [tm 1 32]; [tm 1 33]; [tm 1 34]; [tm 1 35]; [tm 1 54]; [tm 1 55]; [tm 1 56];
  [tm 1 57]; [tm 1 58]; [tm 1 59]; [tm 1 60]; [tm 1 61]; [tm 1 62]; [tm 1 9]; [tm 1 10]; [tm 1 11]; [tm 1 12];
  [tm 1 13]; [tm 1 14]; [tm 1 15]; [tm 1 16]; [tm 1 17]; [tm 1 36]; [tm 1 37]; [tm 1 38]; [tm 1 39]; [tm 1 40];
  [tm 1 41]; [tm 1 42]; [tm 1 43]; [tm 1 44]; [tm 1 63]; [tm 1 64]; [tm 1 65]; [tm 1 66]; [tm 1 67]; [tm 1 68];
  [tm 1 69]; [tm 1 70]; [tm 1 71]; [tm 1 18]; [tm 1 19]; [tm 1 20]; [tm 1 21]; [tm 1 22]; [tm 1 23]; [tm 1 24];
  [tm 1 25]; [tm 1 26]; [tm 1 45]; [tm 1 46]; [tm 1 47]; [tm 1 48]; [tm 1 49]; [tm 1 50]; [tm 1 51]; [tm 1 52];
  [tm 1 53]; [tm 1 72]; [tm 1 73]; [tm 1 74]; [tm 1 75]; [tm 1 76]; [tm 1 77]; [tm 1 78]; [tm 1 79]; [tm 1 80]].

(* autocode/deriv4.c:338 *)
Definition f_1e_int1e_ipipiprinvip := mkg "CINTgout1e_int1e_ipipiprinvip" K2 16
  [GD CJ 1 0 (mka p3 p0 o o); GD CI 2 0 (mka p2 p0 o o); GD CI 3 1 (mka p2 p0 o o); GD CI 4 0 (mka p1 p0 o o);
  GD CI 5 1 (mka p1 p0 o o); GD CI 6 2 (mka p1 p0 o o); GD CI 7 3 (mka p1 p0 o o); GD CI 8 0 (mka p0 p0 o o);
  GD CI 9 1 (mka p0 p0 o o); GD CI 10 2 (mka p0 p0 o o); GD CI 11 3 (mka p0 p0 o o); GD CI 12 4 (mka p0 p0 o o);
  GD CI 13 5 (mka p0 p0 o o); GD CI 14 6 (mka p0 p0 o o); GD CI 15 7 (mka p0 p0 o o)]
  []
  [(15, 0, 0); (14, 1, 0); (14, 0, 1); (13, 2, 0); (12, 3, 0); (12, 2, 1); (13, 0, 2); (12, 1, 2); (12, 0, 3);
  (11, 4, 0); (10, 5, 0); (10, 4, 1); (9, 6, 0); (8, 7, 0); (8, 6, 1); (9, 4, 2); (8, 5, 2); (8, 4, 3); (11, 0, 4);
  (10, 1, 4); (10, 0, 5); (9, 2, 4); (8, 3, 4); (8, 2, 5); (9, 0, 6); (8, 1, 6); (8, 0, 7); (7, 8, 0); (6, 9, 0);
  (6, 8, 1); (5, 10, 0); (4, 11, 0); (4, 10, 1); (5, 8, 2); (4, 9, 2); (4, 8, 3); (3, 12, 0); (2, 13, 0); (2, 12, 1);
  (1, 14, 0); (0, 15, 0); (0, 14, 1); (1, 12, 2); (0, 13, 2); (0, 12, 3); (3, 8, 4); (2, 9, 4); (2, 8, 5);
  (1, 10, 4); (0, 11, 4); (0, 10, 5); (1, 8, 6); (0, 9, 6); (0, 8, 7); (7, 0, 8); (6, 1, 8); (6, 0, 9); (5, 2, 8);
  (4, 3, 8); (4, 2, 9); (5, 0, 10); (4, 1, 10); (4, 0, 11); (3, 4, 8); (2, 5, 8); (2, 4, 9); (1, 6, 8); (0, 7, 8);
  (0, 6, 9); (1, 4, 10); (0, 5, 10); (0, 4, 11); (3, 0, 12); (2, 1, 12); (2, 0, 13); (1, 2, 12); (0, 3, 12);
  (0, 2, 13); (1, 0, 14); (0, 1, 14); (0, 0, 15)]
  [[tm 1 0]; [tm 1 1]; [tm 1 2]; [tm 1 27]; [tm 1 28]; [tm 1 29]; [tm 1 54]; [tm 1 55]; [tm 1 56]; [tm 1 9];
  [tm 1 10]; [tm 1 11]; [tm 1 36]; [tm 1 37]; [tm 1 38]; [tm 1 63]; [tm 1 64]; [tm 1 65]; [tm 1 18]; [tm 1 19];
  [tm 1 20]; [tm 1 45]; [tm 1 46]; [tm 1 47]; [tm 1 72]; [tm 1 73]; [tm 1 74]; [tm 1 3]; [tm 1 4]; [tm 1 5];
  [tm 1 30]; [tm 1 31]; [tm 1 32]; [tm 1 57]; [tm 1 58]; [tm 1 59]; [tm 1 12]; [tm 1 13]; [tm 1 14]; [tm 1 39];
  [tm 1 40]; [tm 1 41]; [tm 1 66]; [tm 1 67]; [tm 1 68]; [tm 1 21]; [tm 1 22]; [tm 1 23]; [tm 1 48]; [tm 1 49];
  [tm 1 50]; [tm 1 75]; [tm 1 76]; [tm 1 77]; [tm 1 6]; [tm 1 7]; [tm 1 8]; [tm 1 33]; [tm 1 34]; [tm 1 35];
  [tm 1 60]; [tm 1 61]; [tm 1 62]; [tm 1 15]; [tm 1 16]; [tm 1 17]; [tm 1 42]; [tm 1 43]; [tm 1 44]; [tm 1 69];
  [tm 1 70]; [tm 1 71]; [tm 1 24]; [tm 1 25]; [tm 1 26]; [tm 1 51]; [tm 1 52]; [tm 1 53]; [tm 1 78]; [tm 1 79];
  [tm 1 80]].

(* autocode/deriv4.c:658 *)
Definition f_1e_int1e_ipipipiprinv := mkg "CINTgout1e_int1e_ipipipiprinv" K2 16
  [GD CI 1 0 (mka p3 p0 o o); GD CI 2 0 (mka p2 p0 o o); GD CI 3 1 (mka p2 p0 o o); GD CI 4 0 (mka p1 p0 o o);
  GD CI 5 1 (mka p1 p0 o o); GD CI 6 2 (mka p1 p0 o o); GD CI 7 3 (mka p1 p0 o o); GD CI 8 0 (mka p0 p0 o o);
  GD CI 9 1 (mka p0 p0 o o); GD CI 10 2 (mka p0 p0 o o); GD CI 11 3 (mka p0 p0 o o); GD CI 12 4 (mka p0 p0 o o);
  GD CI 13 5 (mka p0 p0 o o); GD CI 14 6 (mka p0 p0 o o); GD CI 15 7 (mka p0 p0 o o)]
  []
  [(15, 0, 0); (14, 1, 0); (14, 0, 1); (13, 2, 0); (12, 3, 0); (12, 2, 1); (13, 0, 2); (12, 1, 2); (12, 0, 3);
  (11, 4, 0); (10, 5, 0); (10, 4, 1); (9, 6, 0); (8, 7, 0); (8, 6, 1); (9, 4, 2); (8, 5, 2); (8, 4, 3); (11, 0, 4);
  (10, 1, 4); (10, 0, 5); (9, 2, 4); (8, 3, 4); (8, 2, 5); (9, 0, 6); (8, 1, 6); (8, 0, 7); (7, 8, 0); (6, 9, 0);
  (6, 8, 1); (5, 10, 0); (4, 11, 0); (4, 10, 1); (5, 8, 2); (4, 9, 2); (4, 8, 3); (3, 12, 0); (2, 13, 0); (2, 12, 1);
  (1, 14, 0); (0, 15, 0); (0, 14, 1); (1, 12, 2); (0, 13, 2); (0, 12, 3); (3, 8, 4); (2, 9, 4); (2, 8, 5);
  (1, 10, 4); (0, 11, 4); (0, 10, 5); (1, 8, 6); (0, 9, 6); (0, 8, 7); (7, 0, 8); (6, 1, 8); (6, 0, 9); (5, 2, 8);
  (4, 3, 8); (4, 2, 9); (5, 0, 10); (4, 1, 10); (4, 0, 11); (3, 4, 8); (2, 5, 8); (2, 4, 9); (1, 6, 8); (0, 7, 8);
  (0, 6, 9); (1, 4, 10); (0, 5, 10); (0, 4, 11); (3, 0, 12); (2, 1, 12); (2, 0, 13); (1, 2, 12); (0, 3, 12);
  (0, 2, 13); (1, 0, 14); (0, 1, 14); (0, 0, 15)]
  [[tm 1 0]; [tm 1 27]; [tm 1 54]; [tm 1 9]; [tm 1 36]; [tm 1 63]; [tm 1 18]; [tm 1 45]; [tm 1 72]; [tm 1 3];
  [tm 1 30]; [tm 1 57]; [tm 1 12]; [tm 1 39]; [tm 1 66]; [tm 1 21]; [tm 1 48]; [tm 1 75]; [tm 1 6]; [tm 1 33];
  [tm 1 60]; [tm 1 15]; [tm 1 42]; [tm 1 69]; [tm 1 24]; [tm 1 51]; [tm 1 78]; [tm 1 1]; [tm 1 28]; [tm 1 55];
  [tm 1 10]; [tm 1 37]; [tm 1 64]; [tm 1 19]; [tm 1 46]; [tm 1 73]; [tm 1 4]; [tm 1 31]; [tm 1 58]; [tm 1 13];
  [tm 1 40]; [tm 1 67]; [tm 1 22]; [tm 1 49]; [tm 1 76]; [tm 1 7]; [tm 1 34]; [tm 1 61]; [tm 1 16]; [tm 1 43];
  [tm 1 70]; [tm 1 25]; [tm 1 52]; [tm 1 79]; [tm 1 2]; [tm 1 29]; [tm 1 56]; [tm 1 11]; [tm 1 38]; [tm 1 65];
  [tm 1 20]; [tm 1 47]; [tm 1 74]; [tm 1 5]; [tm 1 32]; [tm 1 59]; [tm 1 14]; [tm 1 41]; [tm 1 68]; [tm 1 23];
  [tm 1 50]; [tm 1 77]; [tm 1 8]; [tm 1 35]; [tm 1 62]; [tm 1 17]; [tm 1 44]; [tm 1 71]; [tm 1 26]; [tm 1 53];
  [tm 1 80]].

(* autocode/dkb.c:18 *)
Definition f_1e_int1e_spspsp := mkg "CINTgout1e_int1e_spspsp" K1 8
  [GD CJ 1 0 (mka p1 p0 o o); GD CJ 2 0 (mka p1 p1 o o); GD CJ 3 2 (mka p1 p0 o o); GD CI 4 0 (mka p0 p0 o o);
  GD CI 5 1 (mka p0 p0 o o); GD CI 6 2 (mka p0 p0 o o); GD CI 7 3 (mka p0 p0 o o)]
  []
  [(7, 0, 0); (6, 1, 0); (6, 0, 1); (5, 2, 0); (4, 3, 0); (4, 2, 1); (5, 0, 2); (4, 1, 2); (4, 0, 3); (3, 4, 0);
  (2, 5, 0); (2, 4, 1); (1, 6, 0); (0, 7, 0); (0, 6, 1); (1, 4, 2); (0, 5, 2); (0, 4, 3); (3, 0, 4); (2, 1, 4);
  (2, 0, 5); (1, 2, 4); (0, 3, 4); (0, 2, 5); (1, 0, 6); (0, 1, 6); (0, 0, 7)]
  [[tm (-1) 0; tm (-1) 12; tm (-1) 24]; [tm (-1) 1; tm (-1) 13; tm (-1) 25]; [tm (-1) 2; tm (-1) 14; tm (-1) 26]; []].

(* autocode/dkb.c:110 *)
Definition f_1e_int1e_spnuc := mkg "CINTgout1e_int1e_spnuc" K2 2
  [GD CI 1 0 (mka p0 p0 o o)]
  []
  [(1, 0, 0); (0, 1, 0); (0, 0, 1)]
  [[tm 1 0]; [tm 1 1]; [tm 1 2]; []].

(* autocode/dkb.c:171 *)
Definition f_2e_int2e_spv1 := mkg "CINTgout2e_int2e_spv1" K2 2
  [GD CI 1 0 (mka p0 p0 p0 p0)]
  []
  [(1, 0, 0); (0, 1, 0); (0, 0, 1)]
  [[tm 1 0]; [tm 1 1]; [tm 1 2]; []].

(* autocode/dkb.c:255 *)
Definition f_2e_int2e_vsp1 := mkg "CINTgout2e_int2e_vsp1" K2 2
  [GD CJ 1 0 (mka p0 p0 p0 p0)]
  []
  [(1, 0, 0); (0, 1, 0); (0, 0, 1)]
  [[tm (-1) 0]; [tm (-1) 1]; [tm (-1) 2]; []].

(* autocode/dkb.c:339 *)
Definition f_2e_int2e_spsp2 := mkg "CINTgout2e_int2e_spsp2" K2 4
  [GD CL 1 0 (mka p0 p0 p1 p0); GD CK 2 0 (mka p0 p0 p0 p0); GD CK 3 1 (mka p0 p0 p0 p0)]
  []
  [(3, 0, 0); (2, 1, 0); (2, 0, 1); (1, 2, 0); (0, 3, 0); (0, 2, 1); (1, 0, 2); (0, 1, 2); (0, 0, 3)]
  [[tm 1 5; tm (-1) 7]; [tm 1 6; tm (-1) 2]; [tm 1 1; tm (-1) 3]; [tm 1 0; tm 1 4; tm 1 8]].

(* autocode/dkb.c:411 *)
Definition f_2e_int2e_spv1spv2 := mkg "CINTgout2e_int2e_spv1spv2" K2 4
  [GD CK 1 0 (mka p1 p0 p0 p0); GD CI 2 0 (mka p0 p0 p0 p0); GD CI 3 1 (mka p0 p0 p0 p0)]
  []
  [(3, 0, 0); (2, 1, 0); (2, 0, 1); (1, 2, 0); (0, 3, 0); (0, 2, 1); (1, 0, 2); (0, 1, 2); (0, 0, 3)]
  [[tm 1 0]; [tm 1 3]; [tm 1 6]; []; [tm 1 1]; [tm 1 4]; [tm 1 7]; []; [tm 1 2]; [tm 1 5]; [tm 1 8]; []; []; []; [];
  []].

(* autocode/dkb.c:507 *)
Definition f_2e_int2e_vsp1spv2 := mkg "CINTgout2e_int2e_vsp1spv2" K2 4
  [GD CK 1 0 (mka p0 p1 p0 p0); GD CJ 2 0 (mka p0 p0 p0 p0); GD CJ 3 1 (mka p0 p0 p0 p0)]
  []
  [(3, 0, 0); (2, 1, 0); (2, 0, 1); (1, 2, 0); (0, 3, 0); (0, 2, 1); (1, 0, 2); (0, 1, 2); (0, 0, 3)]
  [[tm (-1) 0]; [tm (-1) 3]; [tm (-1) 6]; []; [tm (-1) 1]; [tm (-1) 4]; [tm (-1) 7]; []; [tm (-1) 2]; [tm (-1) 5];
  [tm (-1) 8]; []; []; []; []; []].

(* autocode/dkb.c:603 *)
Definition f_2e_int2e_spv1vsp2 := mkg "CINTgout2e_int2e_spv1vsp2" K2 4
  [GD CL 1 0 (mka p1 p0 p0 p0); GD CI 2 0 (mka p0 p0 p0 p0); GD CI 3 1 (mka p0 p0 p0 p0)]
  []
  [(3, 0, 0); (2, 1, 0); (2, 0, 1); (1, 2, 0); (0, 3, 0); (0, 2, 1); (1, 0, 2); (0, 1, 2); (0, 0, 3)]
  [[tm (-1) 0]; [tm (-1) 3]; [tm (-1) 6]; []; [tm (-1) 1]; [tm (-1) 4]; [tm (-1) 7]; []; [tm (-1) 2]; [tm (-1) 5];
  [tm (-1) 8]; []; []; []; []; []].

(* autocode/dkb.c:699 *)
Definition f_2e_int2e_vsp1vsp2 := mkg "CINTgout2e_int2e_vsp1vsp2" K2 4
  [GD CL 1 0 (mka p0 p1 p0 p0); GD CJ 2 0 (mka p0 p0 p0 p0); GD CJ 3 1 (mka p0 p0 p0 p0)]
  []
  [(3, 0, 0); (2, 1, 0); (2, 0, 1); (1, 2, 0); (0, 3, 0); (0, 2, 1); (1, 0, 2); (0, 1, 2); (0, 0, 3)]
  [[tm 1 0]; [tm 1 3]; [tm 1 6]; []; [tm 1 1]; [tm 1 4]; [tm 1 7]; []; [tm 1 2]; [tm 1 5]; [tm 1 8]; []; []; []; [];
  []].

(* autocode/dkb.c:795 *)
Definition f_2e_int2e_spv1spsp2 := mkg "CINTgout2e_int2e_spv1spsp2" K2 8
  [GD CL 1 0 (mka p1 p0 p1 p0); GD CK 2 0 (mka p1 p0 p0 p0); GD CK 3 1 (mka p1 p0 p0 p0);
  GD CI 4 0 (mka p0 p0 p0 p0); GD CI 5 1 (mka p0 p0 p0 p0); GD CI 6 2 (mka p0 p0 p0 p0); GD CI 7 3 (mka p0 p0 p0 p0)]
  []
  [(7, 0, 0); (6, 1, 0); (6, 0, 1); (5, 2, 0); (4, 3, 0); (4, 2, 1); (5, 0, 2); (4, 1, 2); (4, 0, 3); (3, 4, 0);
  (2, 5, 0); (2, 4, 1); (1, 6, 0); (0, 7, 0); (0, 6, 1); (1, 4, 2); (0, 5, 2); (0, 4, 3); (3, 0, 4); (2, 1, 4);
  (2, 0, 5); (1, 2, 4); (0, 3, 4); (0, 2, 5); (1, 0, 6); (0, 1, 6); (0, 0, 7)]
  [[tm 1 5; tm (-1) 7]; [tm 1 14; tm (-1) 16]; [tm 1 23; tm (-1) 25]; []; [tm 1 6; tm (-1) 2]; [tm 1 15; tm (-1) 11];
  [tm 1 24; tm (-1) 20]; []; [tm 1 1; tm (-1) 3]; [tm 1 10; tm (-1) 12]; [tm 1 19; tm (-1) 21]; [];
  [tm 1 0; tm 1 4; tm 1 8]; [tm 1 9; tm 1 13; tm 1 17]; [tm 1 18; tm 1 22; tm 1 26]; []].

(* autocode/dkb.c:917 *)
Definition f_2e_int2e_vsp1spsp2 := mkg "CINTgout2e_int2e_vsp1spsp2" K2 8
  [GD CL 1 0 (mka p0 p1 p1 p0); GD CK 2 0 (mka p0 p1 p0 p0); GD CK 3 1 (mka p0 p1 p0 p0);
  GD CJ 4 0 (mka p0 p0 p0 p0); GD CJ 5 1 (mka p0 p0 p0 p0); GD CJ 6 2 (mka p0 p0 p0 p0); GD CJ 7 3 (mka p0 p0 p0 p0)]
  []
  [(7, 0, 0); (6, 1, 0); (6, 0, 1); (5, 2, 0); (4, 3, 0); (4, 2, 1); (5, 0, 2); (4, 1, 2); (4, 0, 3); (3, 4, 0);
  (2, 5, 0); (2, 4, 1); (1, 6, 0); (0, 7, 0); (0, 6, 1); (1, 4, 2); (0, 5, 2); (0, 4, 3); (3, 0, 4); (2, 1, 4);
  (2, 0, 5); (1, 2, 4); (0, 3, 4); (0, 2, 5); (1, 0, 6); (0, 1, 6); (0, 0, 7)]
  [[tm (-1) 5; tm 1 7]; [tm (-1) 14; tm 1 16]; [tm (-1) 23; tm 1 25]; []; [tm (-1) 6; tm 1 2]; [tm (-1) 15; tm 1 11];
  [tm (-1) 24; tm 1 20]; []; [tm (-1) 1; tm 1 3]; [tm (-1) 10; tm 1 12]; [tm (-1) 19; tm 1 21]; [];
  [tm (-1) 0; tm (-1) 4; tm (-1) 8]; [tm (-1) 9; tm (-1) 13; tm (-1) 17]; [tm (-1) 18; tm (-1) 22; tm (-1) 26]; []].

(* autocode/gaunt1.c:19 *)
Definition f_2e_int2e_ssp1ssp2 := mkg "CINTgout2e_int2e_ssp1ssp2" K2 4
  [GD CL 1 0 (mka p0 p1 p0 p0); GD CJ 2 0 (mka p0 p0 p0 p0); GD CJ 3 1 (mka p0 p0 p0 p0)]
  []
  [(3, 0, 0); (2, 1, 0); (2, 0, 1); (1, 2, 0); (0, 3, 0); (0, 2, 1); (1, 0, 2); (0, 1, 2); (0, 0, 3)]
  [[tm 1 8; tm 1 4]; [tm (-1) 1]; [tm (-1) 2]; [tm 1 5; tm (-1) 7]; [tm (-1) 3]; [tm 1 8; tm 1 0]; [tm (-1) 5];
  [tm (-1) 2; tm 1 6]; [tm (-1) 6]; [tm (-1) 7]; [tm 1 4; tm 1 0]; [tm 1 1; tm (-1) 3]; [tm 1 7; tm (-1) 5];
  [tm (-1) 6; tm 1 2]; [tm 1 3; tm (-1) 1]; [tm 1 0; tm 1 4; tm 1 8]].

(* autocode/gaunt1.c:117 *)
Definition f_2e_int2e_ssp1sps2 := mkg "CINTgout2e_int2e_ssp1sps2" K2 4
  [GD CK 1 0 (mka p0 p1 p0 p0); GD CJ 2 0 (mka p0 p0 p0 p0); GD CJ 3 1 (mka p0 p0 p0 p0)]
  []
  [(3, 0, 0); (2, 1, 0); (2, 0, 1); (1, 2, 0); (0, 3, 0); (0, 2, 1); (1, 0, 2); (0, 1, 2); (0, 0, 3)]
  [[tm 1 8; tm 1 4]; [tm (-1) 1]; [tm (-1) 2]; [tm 1 5; tm (-1) 7]; [tm (-1) 3]; [tm 1 8; tm 1 0]; [tm (-1) 5];
  [tm (-1) 2; tm 1 6]; [tm (-1) 6]; [tm (-1) 7]; [tm 1 4; tm 1 0]; [tm 1 1; tm (-1) 3]; [tm (-1) 7; tm 1 5];
  [tm 1 6; tm (-1) 2]; [tm (-1) 3; tm 1 1]; [tm (-1) 0; tm (-1) 4; tm (-1) 8]].

(* autocode/gaunt1.c:215 *)
Definition f_2e_int2e_sps1ssp2 := mkg "CINTgout2e_int2e_sps1ssp2" K2 4
  [GD CL 1 0 (mka p1 p0 p0 p0); GD CI 2 0 (mka p0 p0 p0 p0); GD CI 3 1 (mka p0 p0 p0 p0)]
  []
  [(3, 0, 0); (2, 1, 0); (2, 0, 1); (1, 2, 0); (0, 3, 0); (0, 2, 1); (1, 0, 2); (0, 1, 2); (0, 0, 3)]
  [[tm 1 8; tm 1 4]; [tm (-1) 1]; [tm (-1) 2]; [tm (-1) 5; tm 1 7]; [tm (-1) 3]; [tm 1 8; tm 1 0]; [tm (-1) 5];
  [tm 1 2; tm (-1) 6]; [tm (-1) 6]; [tm (-1) 7]; [tm 1 4; tm 1 0]; [tm (-1) 1; tm 1 3]; [tm 1 7; tm (-1) 5];
  [tm (-1) 6; tm 1 2]; [tm 1 3; tm (-1) 1]; [tm (-1) 0; tm (-1) 4; tm (-1) 8]].

(* autocode/gaunt1.c:313 *)
Definition f_2e_int2e_sps1sps2 := mkg "CINTgout2e_int2e_sps1sps2" K2 4
  [GD CK 1 0 (mka p1 p0 p0 p0); GD CI 2 0 (mka p0 p0 p0 p0); GD CI 3 1 (mka p0 p0 p0 p0)]
  []
  [(3, 0, 0); (2, 1, 0); (2, 0, 1); (1, 2, 0); (0, 3, 0); (0, 2, 1); (1, 0, 2); (0, 1, 2); (0, 0, 3)]
  [[tm 1 8; tm 1 4]; [tm (-1) 1]; [tm (-1) 2]; [tm (-1) 5; tm 1 7]; [tm (-1) 3]; [tm 1 8; tm 1 0]; [tm (-1) 5];
  [tm 1 2; tm (-1) 6]; [tm (-1) 6]; [tm (-1) 7]; [tm 1 4; tm 1 0]; [tm (-1) 1; tm 1 3]; [tm (-1) 7; tm 1 5];
  [tm 1 6; tm (-1) 2]; [tm (-1) 3; tm 1 1]; [tm 1 0; tm 1 4; tm 1 8]].

(* autocode/gaunt1.c:411 *)
Definition f_2e_int2e_cg_ssa10ssp2 := mkg "CINTgout2e_int2e_cg_ssa10ssp2" K2 4
  [GD CL 1 0 (mka p1 p0 p0 p0); GX CI true 2 0 (mka p0 p0 p0 p0); GX CI true 3 1 (mka p0 p0 p0 p0)]
  []
  [(3, 0, 0); (2, 1, 0); (2, 0, 1); (1, 2, 0); (0, 3, 0); (0, 2, 1); (1, 0, 2); (0, 1, 2); (0, 0, 3)]
  [[tm 1 5; tm (-1) 7]; []; []; [tm 1 8; tm 1 4]; [tm 1 6]; [tm 1 5]; [tm 1 8]; [tm (-1) 3]; [tm (-1) 3];
  [tm (-1) 4]; [tm (-1) 7]; [tm (-1) 6]; [tm 1 4; tm 1 8]; [tm (-1) 3]; [tm (-1) 6]; [tm 1 7; tm (-1) 5];
  [tm (-1) 2]; [tm (-1) 7]; [tm (-1) 8]; [tm (-1) 1]; []; [tm (-1) 2; tm 1 6]; []; [tm 1 8; tm 1 0]; [tm 1 0];
  [tm 1 1]; [tm 1 6]; [tm (-1) 7]; [tm (-1) 1]; [tm 1 0; tm 1 8]; [tm (-1) 7]; [tm (-1) 6; tm 1 2]; [tm 1 1];
  [tm 1 4]; [tm 1 5]; [tm (-1) 2]; [tm (-1) 0]; [tm (-1) 3]; [tm (-1) 2]; [tm (-1) 5]; []; []; [tm 1 1; tm (-1) 3];
  [tm 1 4; tm 1 0]; [tm (-1) 2]; [tm (-1) 5]; [tm 1 0; tm 1 4]; [tm 1 3; tm (-1) 1]].

(* autocode/gaunt1.c:575 *)
Definition f_2e_int2e_giao_ssa10ssp2 := mkg "CINTgout2e_int2e_giao_ssa10ssp2" K2 4
  [GD CL 1 0 (mka p1 p0 p0 p0); GShift CI 2 0; GShift CI 3 1]
  []
  [(3, 0, 0); (2, 1, 0); (2, 0, 1); (1, 2, 0); (0, 3, 0); (0, 2, 1); (1, 0, 2); (0, 1, 2); (0, 0, 3)]
  [[tm 1 5; tm (-1) 7]; []; []; [tm 1 8; tm 1 4]; [tm 1 6]; [tm 1 5]; [tm 1 8]; [tm (-1) 3]; [tm (-1) 3];
  [tm (-1) 4]; [tm (-1) 7]; [tm (-1) 6]; [tm 1 4; tm 1 8]; [tm (-1) 3]; [tm (-1) 6]; [tm 1 7; tm (-1) 5];
  [tm (-1) 2]; [tm (-1) 7]; [tm (-1) 8]; [tm (-1) 1]; []; [tm (-1) 2; tm 1 6]; []; [tm 1 8; tm 1 0]; [tm 1 0];
  [tm 1 1]; [tm 1 6]; [tm (-1) 7]; [tm (-1) 1]; [tm 1 0; tm 1 8]; [tm (-1) 7]; [tm (-1) 6; tm 1 2]; [tm 1 1];
  [tm 1 4]; [tm 1 5]; [tm (-1) 2]; [tm (-1) 0]; [tm (-1) 3]; [tm (-1) 2]; [tm (-1) 5]; []; []; [tm 1 1; tm (-1) 3];
  [tm 1 4; tm 1 0]; [tm (-1) 2]; [tm (-1) 5]; [tm 1 0; tm 1 4]; [tm 1 3; tm (-1) 1]].

(* autocode/gaunt1.c:735 *)
Definition f_2e_int2e_gssp1ssp2 := mkg "CINTgout2e_int2e_gssp1ssp2" K2 8
  [GD CL 1 0 (mka p1 p1 p0 p0); GD CJ 2 0 (mka p1 p0 p0 p0); GD CJ 3 1 (mka p1 p0 p0 p0);
  GX CI false 4 0 (mka p0 p0 p0 p0); GX CI false 5 1 (mka p0 p0 p0 p0); GX CI false 6 2 (mka p0 p0 p0 p0);
  GX CI false 7 3 (mka p0 p0 p0 p0)]
  [[rij 0]; [rij 1]; [rij 2]]
  [(7, 0, 0); (6, 1, 0); (6, 0, 1); (5, 2, 0); (4, 3, 0); (4, 2, 1); (5, 0, 2); (4, 1, 2); (4, 0, 3); (3, 4, 0);
  (2, 5, 0); (2, 4, 1); (1, 6, 0); (0, 7, 0); (0, 6, 1); (1, 4, 2); (0, 5, 2); (0, 4, 3); (3, 0, 4); (2, 1, 4);
  (2, 0, 5); (1, 2, 4); (0, 3, 4); (0, 2, 5); (1, 0, 6); (0, 1, 6); (0, 0, 7)]
  [[tc (-1) 1 26; tc 1 2 17; tc (-1) 1 22; tc 1 2 13]; [tc 1 1 19; tc (-1) 2 10]; [tc 1 1 20; tc (-1) 2 11];
  [tc (-1) 1 23; tc 1 2 14; tc 1 1 25; tc (-1) 2 16]; [tc 1 1 21; tc (-1) 2 12];
  [tc (-1) 1 26; tc 1 2 17; tc (-1) 1 18; tc 1 2 9]; [tc 1 1 23; tc (-1) 2 14];
  [tc 1 1 20; tc (-1) 2 11; tc (-1) 1 24; tc 1 2 15]; [tc 1 1 24; tc (-1) 2 15]; [tc 1 1 25; tc (-1) 2 16];
  [tc (-1) 1 22; tc 1 2 13; tc (-1) 1 18; tc 1 2 9]; [tc (-1) 1 19; tc 1 2 10; tc 1 1 21; tc (-1) 2 12];
  [tc (-1) 1 25; tc 1 2 16; tc 1 1 23; tc (-1) 2 14]; [tc 1 1 24; tc (-1) 2 15; tc (-1) 1 20; tc 1 2 11];
  [tc (-1) 1 21; tc 1 2 12; tc 1 1 19; tc (-1) 2 10];
  [tc (-1) 1 18; tc 1 2 9; tc (-1) 1 22; tc 1 2 13; tc (-1) 1 26; tc 1 2 17];
  [tc (-1) 2 8; tc 1 0 26; tc (-1) 2 4; tc 1 0 22]; [tc 1 2 1; tc (-1) 0 19]; [tc 1 2 2; tc (-1) 0 20];
  [tc (-1) 2 5; tc 1 0 23; tc 1 2 7; tc (-1) 0 25]; [tc 1 2 3; tc (-1) 0 21];
  [tc (-1) 2 8; tc 1 0 26; tc (-1) 2 0; tc 1 0 18]; [tc 1 2 5; tc (-1) 0 23];
  [tc 1 2 2; tc (-1) 0 20; tc (-1) 2 6; tc 1 0 24]; [tc 1 2 6; tc (-1) 0 24]; [tc 1 2 7; tc (-1) 0 25];
  [tc (-1) 2 4; tc 1 0 22; tc (-1) 2 0; tc 1 0 18]; [tc (-1) 2 1; tc 1 0 19; tc 1 2 3; tc (-1) 0 21];
  [tc (-1) 2 7; tc 1 0 25; tc 1 2 5; tc (-1) 0 23]; [tc 1 2 6; tc (-1) 0 24; tc (-1) 2 2; tc 1 0 20];
  [tc (-1) 2 3; tc 1 0 21; tc 1 2 1; tc (-1) 0 19];
  [tc (-1) 2 0; tc 1 0 18; tc (-1) 2 4; tc 1 0 22; tc (-1) 2 8; tc 1 0 26];
  [tc (-1) 0 17; tc 1 1 8; tc (-1) 0 13; tc 1 1 4]; [tc 1 0 10; tc (-1) 1 1]; [tc 1 0 11; tc (-1) 1 2];
  [tc (-1) 0 14; tc 1 1 5; tc 1 0 16; tc (-1) 1 7]; [tc 1 0 12; tc (-1) 1 3];
  [tc (-1) 0 17; tc 1 1 8; tc (-1) 0 9; tc 1 1 0]; [tc 1 0 14; tc (-1) 1 5];
  [tc 1 0 11; tc (-1) 1 2; tc (-1) 0 15; tc 1 1 6]; [tc 1 0 15; tc (-1) 1 6]; [tc 1 0 16; tc (-1) 1 7];
  [tc (-1) 0 13; tc 1 1 4; tc (-1) 0 9; tc 1 1 0]; [tc (-1) 0 10; tc 1 1 1; tc 1 0 12; tc (-1) 1 3];
  [tc (-1) 0 16; tc 1 1 7; tc 1 0 14; tc (-1) 1 5]; [tc 1 0 15; tc (-1) 1 6; tc (-1) 0 11; tc 1 1 2];
  [tc (-1) 0 12; tc 1 1 3; tc 1 0 10; tc (-1) 1 1];
  [tc (-1) 0 9; tc 1 1 0; tc (-1) 0 13; tc 1 1 4; tc (-1) 0 17; tc 1 1 8]].

(* autocode/grad1.c:18 *)
Definition f_1e_int1e_ipovlp := mkg "CINTgout1e_int1e_ipovlp" K1 2
  [GD CI 1 0 (mka p0 p0 o o)]
  []
  [(1, 0, 0); (0, 1, 0); (0, 0, 1)]
  [[tm 1 0]; [tm 1 1]; [tm 1 2]].

(* autocode/grad1.c:72 *)
Definition f_1e_int1e_ovlpip := mkg "CINTgout1e_int1e_ovlpip" K1 2
  [GD CJ 1 0 (mka p0 p0 o o)]
  []
  [(1, 0, 0); (0, 1, 0); (0, 0, 1)]
  [[tm 1 0]; [tm 1 1]; [tm 1 2]].

(* autocode/grad1.c:126 *)
Definition f_1e_int1e_ipkin := mkg "CINTgout1e_int1e_ipkin" K1 8
  [GD CJ 1 0 (mka p1 p0 o o); GD CJ 2 0 (mka p1 p1 o o); GD CJ 3 2 (mka p1 p0 o o); GD CI 4 0 (mka p0 p0 o o);
  GD CI 5 1 (mka p0 p0 o o); GD CI 6 2 (mka p0 p0 o o); GD CI 7 3 (mka p0 p0 o o)]
  []
  [(7, 0, 0); (6, 1, 0); (6, 0, 1); (5, 2, 0); (4, 3, 0); (4, 2, 1); (5, 0, 2); (4, 1, 2); (4, 0, 3); (3, 4, 0);
  (2, 5, 0); (2, 4, 1); (1, 6, 0); (0, 7, 0); (0, 6, 1); (1, 4, 2); (0, 5, 2); (0, 4, 3); (3, 0, 4); (2, 1, 4);
  (2, 0, 5); (1, 2, 4); (0, 3, 4); (0, 2, 5); (1, 0, 6); (0, 1, 6); (0, 0, 7)]
  [[tm (-1) 0; tm (-1) 4; tm (-1) 8]; [tm (-1) 9; tm (-1) 13; tm (-1) 17]; [tm (-1) 18; tm (-1) 22; tm (-1) 26]].

(* autocode/grad1.c:219 *)
Definition f_1e_int1e_kinip := mkg "CINTgout1e_int1e_kinip" K1 8
  [GD CJ 1 0 (mka p0 p0 o o); GD CJ 2 0 (mka p0 p1 o o); GD CJ 3 2 (mka p0 p0 o o); GD CJ 4 0 (mka p0 p2 o o);
  GD CJ 5 4 (mka p0 p0 o o); GD CJ 6 4 (mka p0 p1 o o); GD CJ 7 6 (mka p0 p0 o o)]
  []
  [(7, 0, 0); (6, 1, 0); (6, 0, 1); (5, 2, 0); (4, 3, 0); (4, 2, 1); (5, 0, 2); (4, 1, 2); (4, 0, 3); (3, 4, 0);
  (2, 5, 0); (2, 4, 1); (1, 6, 0); (0, 7, 0); (0, 6, 1); (1, 4, 2); (0, 5, 2); (0, 4, 3); (3, 0, 4); (2, 1, 4);
  (2, 0, 5); (1, 2, 4); (0, 3, 4); (0, 2, 5); (1, 0, 6); (0, 1, 6); (0, 0, 7)]
  [[tm (-1) 0; tm (-1) 12; tm (-1) 24]; [tm (-1) 1; tm (-1) 13; tm (-1) 25]; [tm (-1) 2; tm (-1) 14; tm (-1) 26]].

(* autocode/grad1.c:312 *)
Definition f_1e_int1e_ipnuc := mkg "CINTgout1e_int1e_ipnuc" K2 2
  [GD CI 1 0 (mka p0 p0 o o)]
  []
  [(1, 0, 0); (0, 1, 0); (0, 0, 1)]
  [[tm 1 0]; [tm 1 1]; [tm 1 2]].

(* autocode/grad1.c:370 *)
Definition f_1e_int1e_iprinv := mkg "CINTgout1e_int1e_iprinv" K2 2
  [GD CI 1 0 (mka p0 p0 o o)]
  []
  [(1, 0, 0); (0, 1, 0); (0, 0, 1)]
  [[tm 1 0]; [tm 1 1]; [tm 1 2]].

(* autocode/grad1.c:428 *)
Definition f_1e_int1e_ipspnucsp := mkg "CINTgout1e_int1e_ipspnucsp" K2 8
  [GD CJ 1 0 (mka p2 p0 o o); GD CI 2 0 (mka p1 p0 o o); GD CI 3 1 (mka p1 p0 o o); GD CI 4 0 (mka p0 p0 o o);
  GD CI 5 1 (mka p0 p0 o o); GD CI 6 2 (mka p0 p0 o o); GD CI 7 3 (mka p0 p0 o o)]
  []
  [(7, 0, 0); (6, 1, 0); (6, 0, 1); (5, 2, 0); (4, 3, 0); (4, 2, 1); (5, 0, 2); (4, 1, 2); (4, 0, 3); (3, 4, 0);
  (2, 5, 0); (2, 4, 1); (1, 6, 0); (0, 7, 0); (0, 6, 1); (1, 4, 2); (0, 5, 2); (0, 4, 3); (3, 0, 4); (2, 1, 4);
  (2, 0, 5); (1, 2, 4); (0, 3, 4); (0, 2, 5); (1, 0, 6); (0, 1, 6); (0, 0, 7)]
  [[tm 1 11; tm (-1) 19]; [tm 1 18; tm (-1) 2]; [tm 1 1; tm (-1) 9]; [tm 1 0; tm 1 10; tm 1 20];
  [tm 1 14; tm (-1) 22]; [tm 1 21; tm (-1) 5]; [tm 1 4; tm (-1) 12]; [tm 1 3; tm 1 13; tm 1 23];
  [tm 1 17; tm (-1) 25]; [tm 1 24; tm (-1) 8]; [tm 1 7; tm (-1) 15]; [tm 1 6; tm 1 16; tm 1 26]].

(* autocode/grad1.c:540 *)
Definition f_1e_int1e_ipsprinvsp := mkg "CINTgout1e_int1e_ipsprinvsp" K2 8
  [GD CJ 1 0 (mka p2 p0 o o); GD CI 2 0 (mka p1 p0 o o); GD CI 3 1 (mka p1 p0 o o); GD CI 4 0 (mka p0 p0 o o);
  GD CI 5 1 (mka p0 p0 o o); GD CI 6 2 (mka p0 p0 o o); GD CI 7 3 (mka p0 p0 o o)]
  []
  [(7, 0, 0); (6, 1, 0); (6, 0, 1); (5, 2, 0); (4, 3, 0); (4, 2, 1); (5, 0, 2); (4, 1, 2); (4, 0, 3); (3, 4, 0);
  (2, 5, 0); (2, 4, 1); (1, 6, 0); (0, 7, 0); (0, 6, 1); (1, 4, 2); (0, 5, 2); (0, 4, 3); (3, 0, 4); (2, 1, 4);
  (2, 0, 5); (1, 2, 4); (0, 3, 4); (0, 2, 5); (1, 0, 6); (0, 1, 6); (0, 0, 7)]
  [[tm 1 11; tm (-1) 19]; [tm 1 18; tm (-1) 2]; [tm 1 1; tm (-1) 9]; [tm 1 0; tm 1 10; tm 1 20];
  [tm 1 14; tm (-1) 22]; [tm 1 21; tm (-1) 5]; [tm 1 4; tm (-1) 12]; [tm 1 3; tm 1 13; tm 1 23];
  [tm 1 17; tm (-1) 25]; [tm 1 24; tm (-1) 8]; [tm 1 7; tm (-1) 15]; [tm 1 6; tm 1 16; tm 1 26]].

(* autocode/grad1.c:652 *)
Definition f_1e_int1e_ippnucp := mkg "CINTgout1e_int1e_ippnucp" K2 8
  [GD CJ 1 0 (mka p2 p0 o o); GD CI 2 0 (mka p1 p0 o o); GD CI 3 1 (mka p1 p0 o o); GD CI 4 0 (mka p0 p0 o o);
  GD CI 5 1 (mka p0 p0 o o); GD CI 6 2 (mka p0 p0 o o); GD CI 7 3 (mka p0 p0 o o)]
  []
  [(7, 0, 0); (6, 1, 0); (6, 0, 1); (5, 2, 0); (4, 3, 0); (4, 2, 1); (5, 0, 2); (4, 1, 2); (4, 0, 3); (3, 4, 0);
  (2, 5, 0); (2, 4, 1); (1, 6, 0); (0, 7, 0); (0, 6, 1); (1, 4, 2); (0, 5, 2); (0, 4, 3); (3, 0, 4); (2, 1, 4);
  (2, 0, 5); (1, 2, 4); (0, 3, 4); (0, 2, 5); (1, 0, 6); (0, 1, 6); (0, 0, 7)]
  [[tm 1 0; tm 1 4; tm 1 8]; [tm 1 9; tm 1 13; tm 1 17]; [tm 1 18; tm 1 22; tm 1 26]].

(* autocode/grad1.c:746 *)
Definition f_1e_int1e_ipprinvp := mkg "CINTgout1e_int1e_ipprinvp" K2 8
  [GD CJ 1 0 (mka p2 p0 o o); GD CI 2 0 (mka p1 p0 o o); GD CI 3 1 (mka p1 p0 o o); GD CI 4 0 (mka p0 p0 o o);
  GD CI 5 1 (mka p0 p0 o o); GD CI 6 2 (mka p0 p0 o o); GD CI 7 3 (mka p0 p0 o o)]
  []
  [(7, 0, 0); (6, 1, 0); (6, 0, 1); (5, 2, 0); (4, 3, 0); (4, 2, 1); (5, 0, 2); (4, 1, 2); (4, 0, 3); (3, 4, 0);
  (2, 5, 0); (2, 4, 1); (1, 6, 0); (0, 7, 0); (0, 6, 1); (1, 4, 2); (0, 5, 2); (0, 4, 3); (3, 0, 4); (2, 1, 4);
  (2, 0, 5); (1, 2, 4); (0, 3, 4); (0, 2, 5); (1, 0, 6); (0, 1, 6); (0, 0, 7)]
  [[tm 1 0; tm 1 4; tm 1 8]; [tm 1 9; tm 1 13; tm 1 17]; [tm 1 18; tm 1 22; tm 1 26]].

(* autocode/grad2.c:19 *)
Definition f_2e_int2e_ip1 := mkg "CINTgout2e_int2e_ip1" K2 2
  [GD CI 1 0 (mka p0 p0 p0 p0)]
  []
  [(1, 0, 0); (0, 1, 0); (0, 0, 1)]
  [[tm 1 0]; [tm 1 1]; [tm 1 2]].

(* autocode/grad2.c:101 *)
Definition f_2e_int2e_ip2 := mkg "CINTgout2e_int2e_ip2" K2 2
  [GD CK 1 0 (mka p0 p0 p0 p0)]
  []
  [(1, 0, 0); (0, 1, 0); (0, 0, 1)]
  [[tm 1 0]; [tm 1 1]; [tm 1 2]].

(* autocode/grad2.c:183 *)
Definition f_2e_int2e_ipspsp1 := mkg "CINTgout2e_int2e_ipspsp1" K2 8
  [GD CJ 1 0 (mka p2 p0 p0 p0); GD CI 2 0 (mka p1 p0 p0 p0); GD CI 3 1 (mka p1 p0 p0 p0);
  GD CI 4 0 (mka p0 p0 p0 p0); GD CI 5 1 (mka p0 p0 p0 p0); GD CI 6 2 (mka p0 p0 p0 p0); GD CI 7 3 (mka p0 p0 p0 p0)]
  []
  [(7, 0, 0); (6, 1, 0); (6, 0, 1); (5, 2, 0); (4, 3, 0); (4, 2, 1); (5, 0, 2); (4, 1, 2); (4, 0, 3); (3, 4, 0);
  (2, 5, 0); (2, 4, 1); (1, 6, 0); (0, 7, 0); (0, 6, 1); (1, 4, 2); (0, 5, 2); (0, 4, 3); (3, 0, 4); (2, 1, 4);
  (2, 0, 5); (1, 2, 4); (0, 3, 4); (0, 2, 5); (1, 0, 6); (0, 1, 6); (0, 0, 7)]
  [[tm 1 11; tm (-1) 19]; [tm 1 18; tm (-1) 2]; [tm 1 1; tm (-1) 9]; [tm 1 0; tm 1 10; tm 1 20];
  [tm 1 14; tm (-1) 22]; [tm 1 21; tm (-1) 5]; [tm 1 4; tm (-1) 12]; [tm 1 3; tm 1 13; tm 1 23];
  [tm 1 17; tm (-1) 25]; [tm 1 24; tm (-1) 8]; [tm 1 7; tm (-1) 15]; [tm 1 6; tm 1 16; tm 1 26]].

(* autocode/grad2.c:297 *)
Definition f_2e_int2e_ip1spsp2 := mkg "CINTgout2e_int2e_ip1spsp2" K2 8
  [GD CL 1 0 (mka p1 p0 p1 p0); GD CK 2 0 (mka p1 p0 p0 p0); GD CK 3 1 (mka p1 p0 p0 p0);
  GD CI 4 0 (mka p0 p0 p0 p0); GD CI 5 1 (mka p0 p0 p0 p0); GD CI 6 2 (mka p0 p0 p0 p0); GD CI 7 3 (mka p0 p0 p0 p0)]
  []
  [(7, 0, 0); (6, 1, 0); (6, 0, 1); (5, 2, 0); (4, 3, 0); (4, 2, 1); (5, 0, 2); (4, 1, 2); (4, 0, 3); (3, 4, 0);
  (2, 5, 0); (2, 4, 1); (1, 6, 0); (0, 7, 0); (0, 6, 1); (1, 4, 2); (0, 5, 2); (0, 4, 3); (3, 0, 4); (2, 1, 4);
  (2, 0, 5); (1, 2, 4); (0, 3, 4); (0, 2, 5); (1, 0, 6); (0, 1, 6); (0, 0, 7)]
  [[tm 1 5; tm (-1) 7]; [tm 1 6; tm (-1) 2]; [tm 1 1; tm (-1) 3]; [tm 1 0; tm 1 4; tm 1 8]; [tm 1 14; tm (-1) 16];
  [tm 1 15; tm (-1) 11]; [tm 1 10; tm (-1) 12]; [tm 1 9; tm 1 13; tm 1 17]; [tm 1 23; tm (-1) 25];
  [tm 1 24; tm (-1) 20]; [tm 1 19; tm (-1) 21]; [tm 1 18; tm 1 22; tm 1 26]].

(* autocode/grad2.c:411 *)
Definition f_2e_int2e_ipspsp1spsp2 := mkg "CINTgout2e_int2e_ipspsp1spsp2" K2 32
  [GD CL 1 0 (mka p2 p1 p1 p0); GD CK 2 0 (mka p2 p1 p0 p0); GD CK 3 1 (mka p2 p1 p0 p0);
  GD CJ 4 0 (mka p2 p0 p0 p0); GD CJ 5 1 (mka p2 p0 p0 p0); GD CJ 6 2 (mka p2 p0 p0 p0); GD CJ 7 3 (mka p2 p0 p0 p0);
  GD CI 8 0 (mka p1 p0 p0 p0); GD CI 9 1 (mka p1 p0 p0 p0); GD CI 10 2 (mka p1 p0 p0 p0);
  GD CI 11 3 (mka p1 p0 p0 p0); GD CI 12 4 (mka p1 p0 p0 p0); GD CI 13 5 (mka p1 p0 p0 p0);
  GD CI 14 6 (mka p1 p0 p0 p0); GD CI 15 7 (mka p1 p0 p0 p0); GD CI 16 0 (mka p0 p0 p0 p0);
  GD CI 17 1 (mka p0 p0 p0 p0); GD CI 18 2 (mka p0 p0 p0 p0); GD CI 19 3 (mka p0 p0 p0 p0);
  GD CI 20 4 (mka p0 p0 p0 p0); GD CI 21 5 (mka p0 p0 p0 p0); GD CI 22 6 (mka p0 p0 p0 p0);
  GD CI 23 7 (mka p0 p0 p0 p0); GD CI 24 8 (mka p0 p0 p0 p0); GD CI 25 9 (mka p0 p0 p0 p0);
  GD CI 26 10 (mka p0 p0 p0 p0); GD CI 27 11 (mka p0 p0 p0 p0); GD CI 28 12 (mka p0 p0 p0 p0);
  GD CI 29 13 (mka p0 p0 p0 p0); GD CI 30 14 (mka p0 p0 p0 p0); GD CI 31 15 (mka p0 p0 p0 p0)]
  []
  [(31, 0, 0); (30, 1, 0); (30, 0, 1); (29, 2, 0); (28, 3, 0); (28, 2, 1); (29, 0, 2); (28, 1, 2); (28, 0, 3);
  (27, 4, 0); (26, 5, 0); (26, 4, 1); (25, 6, 0); (24, 7, 0); (24, 6, 1); (25, 4, 2); (24, 5, 2); (24, 4, 3);
  (27, 0, 4); (26, 1, 4); (26, 0, 5); (25, 2, 4); (24, 3, 4); (24, 2, 5); (25, 0, 6); (24, 1, 6); (24, 0, 7);
  (23, 8, 0); (22, 9, 0); (22, 8, 1); (21, 10, 0); (20, 11, 0); (20, 10, 1); (21, 8, 2); (20, 9, 2); (20, 8, 3);
  (19, 12, 0); (18, 13, 0); (18, 12, 1); (17, 14, 0); (16, 15, 0); (16, 14, 1); (17, 12, 2); (16, 13, 2);
  (16, 12, 3); (19, 8, 4); (18, 9, 4); (18, 8, 5); (17, 10, 4); (16, 11, 4); (16, 10, 5); (17, 8, 6); (16, 9, 6);
  (16, 8, 7); (23, 0, 8); (22, 1, 8); (22, 0, 9); (21, 2, 8); (20, 3, 8); (20, 2, 9); (21, 0, 10); (20, 1, 10);
  (20, 0, 11); (19, 4, 8); (18, 5, 8); (18, 4, 9); (17, 6, 8); (16, 7, 8); (16, 6, 9); (17, 4, 10); (16, 5, 10);
  (16, 4, 11); (19, 0, 12); (18, 1, 12); (18, 0, 13); (17, 2, 12); (16, 3, 12); (16, 2, 13); (17, 0, 14);
  (16, 1, 14); (16, 0, 15); (15, 16, 0); (14, 17, 0); (14, 16, 1); (13, 18, 0); (12, 19, 0); (12, 18, 1);
  (13, 16, 2); (12, 17, 2); (12, 16, 3); (11, 20, 0); (10, 21, 0); (10, 20, 1); (9, 22, 0); (8, 23, 0); (8, 22, 1);
  (9, 20, 2); (8, 21, 2); (8, 20, 3); (11, 16, 4); (10, 17, 4); (10, 16, 5); (9, 18, 4); (8, 19, 4); (8, 18, 5);
  (9, 16, 6); (8, 17, 6); (8, 16, 7); (7, 24, 0); (6, 25, 0); (6, 24, 1); (5, 26, 0); (4, 27, 0); (4, 26, 1);
  (5, 24, 2); (4, 25, 2); (4, 24, 3); (3, 28, 0); (2, 29, 0); (2, 28, 1); (1, 30, 0); (0, 31, 0); (0, 30, 1);
  (1, 28, 2); (0, 29, 2); (0, 28, 3); (3, 24, 4); (2, 25, 4); (2, 24, 5); (1, 26, 4); (0, 27, 4); (0, 26, 5);
  (1, 24, 6); (0, 25, 6); (0, 24, 7); (7, 16, 8); (6, 17, 8); (6, 16, 9); (5, 18, 8); (4, 19, 8); (4, 18, 9);
  (5, 16, 10); (4, 17, 10); (4, 16, 11); (3, 20, 8); (2, 21, 8); (2, 20, 9); (1, 22, 8); (0, 23, 8); (0, 22, 9);
  (1, 20, 10); (0, 21, 10); (0, 20, 11); (3, 16, 12); (2, 17, 12); (2, 16, 13); (1, 18, 12); (0, 19, 12);
  (0, 18, 13); (1, 16, 14); (0, 17, 14); (0, 16, 15); (15, 0, 16); (14, 1, 16); (14, 0, 17); (13, 2, 16);
  (12, 3, 16); (12, 2, 17); (13, 0, 18); (12, 1, 18); (12, 0, 19); (11, 4, 16); (10, 5, 16); (10, 4, 17); (9, 6, 16);
  (8, 7, 16); (8, 6, 17); (9, 4, 18); (8, 5, 18); (8, 4, 19); (11, 0, 20); (10, 1, 20); (10, 0, 21); (9, 2, 20);
  (8, 3, 20); (8, 2, 21); (9, 0, 22); (8, 1, 22); (8, 0, 23); (7, 8, 16); (6, 9, 16); (6, 8, 17); (5, 10, 16);
  (4, 11, 16); (4, 10, 17); (5, 8, 18); (4, 9, 18); (4, 8, 19); (3, 12, 16); (2, 13, 16); (2, 12, 17); (1, 14, 16);
  (0, 15, 16); (0, 14, 17); (1, 12, 18); (0, 13, 18); (0, 12, 19); (3, 8, 20); (2, 9, 20); (2, 8, 21); (1, 10, 20);
  (0, 11, 20); (0, 10, 21); (1, 8, 22); (0, 9, 22); (0, 8, 23); (7, 0, 24); (6, 1, 24); (6, 0, 25); (5, 2, 24);
  (4, 3, 24); (4, 2, 25); (5, 0, 26); (4, 1, 26); (4, 0, 27); (3, 4, 24); (2, 5, 24); (2, 4, 25); (1, 6, 24);
  (0, 7, 24); (0, 6, 25); (1, 4, 26); (0, 5, 26); (0, 4, 27); (3, 0, 28); (2, 1, 28); (2, 0, 29); (1, 2, 28);
  (0, 3, 28); (0, 2, 29); (1, 0, 30); (0, 1, 30); (0, 0, 31)]
  [[tm 1 104; tm (-1) 176; tm (-1) 106; tm 1 178]; [tm 1 167; tm (-1) 23; tm (-1) 169; tm 1 25];
  [tm 1 14; tm (-1) 86; tm (-1) 16; tm 1 88]; [tm 1 5; tm 1 95; tm 1 185; tm (-1) 7; tm (-1) 97; tm (-1) 187];
  [tm 1 105; tm (-1) 177; tm (-1) 101; tm 1 173]; [tm 1 168; tm (-1) 24; tm (-1) 164; tm 1 20];
  [tm 1 15; tm (-1) 87; tm (-1) 11; tm 1 83]; [tm 1 6; tm 1 96; tm 1 186; tm (-1) 2; tm (-1) 92; tm (-1) 182];
  [tm 1 100; tm (-1) 172; tm (-1) 102; tm 1 174]; [tm 1 163; tm (-1) 19; tm (-1) 165; tm 1 21];
  [tm 1 10; tm (-1) 82; tm (-1) 12; tm 1 84]; [tm 1 1; tm 1 91; tm 1 181; tm (-1) 3; tm (-1) 93; tm (-1) 183];
  [tm 1 99; tm (-1) 171; tm 1 103; tm (-1) 175; tm 1 107; tm (-1) 179];
  [tm 1 162; tm (-1) 18; tm 1 166; tm (-1) 22; tm 1 170; tm (-1) 26];
  [tm 1 9; tm (-1) 81; tm 1 13; tm (-1) 85; tm 1 17; tm (-1) 89];
  [tm 1 0; tm 1 90; tm 1 180; tm 1 4; tm 1 94; tm 1 184; tm 1 8; tm 1 98; tm 1 188];
  [tm 1 131; tm (-1) 203; tm (-1) 133; tm 1 205]; [tm 1 194; tm (-1) 50; tm (-1) 196; tm 1 52];
  [tm 1 41; tm (-1) 113; tm (-1) 43; tm 1 115]; [tm 1 32; tm 1 122; tm 1 212; tm (-1) 34; tm (-1) 124; tm (-1) 214];
  [tm 1 132; tm (-1) 204; tm (-1) 128; tm 1 200]; [tm 1 195; tm (-1) 51; tm (-1) 191; tm 1 47];
  [tm 1 42; tm (-1) 114; tm (-1) 38; tm 1 110]; [tm 1 33; tm 1 123; tm 1 213; tm (-1) 29; tm (-1) 119; tm (-1) 209];
  [tm 1 127; tm (-1) 199; tm (-1) 129; tm 1 201]; [tm 1 190; tm (-1) 46; tm (-1) 192; tm 1 48];
  [tm 1 37; tm (-1) 109; tm (-1) 39; tm 1 111]; [tm 1 28; tm 1 118; tm 1 208; tm (-1) 30; tm (-1) 120; tm (-1) 210];
  [tm 1 126; tm (-1) 198; tm 1 130; tm (-1) 202; tm 1 134; tm (-1) 206];
  [tm 1 189; tm (-1) 45; tm 1 193; tm (-1) 49; tm 1 197; tm (-1) 53];
  [tm 1 36; tm (-1) 108; tm 1 40; tm (-1) 112; tm 1 44; tm (-1) 116];
  [tm 1 27; tm 1 117; tm 1 207; tm 1 31; tm 1 121; tm 1 211; tm 1 35; tm 1 125; tm 1 215];
  [tm 1 158; tm (-1) 230; tm (-1) 160; tm 1 232]; [tm 1 221; tm (-1) 77; tm (-1) 223; tm 1 79];
  [tm 1 68; tm (-1) 140; tm (-1) 70; tm 1 142]; [tm 1 59; tm 1 149; tm 1 239; tm (-1) 61; tm (-1) 151; tm (-1) 241];
  [tm 1 159; tm (-1) 231; tm (-1) 155; tm 1 227]; [tm 1 222; tm (-1) 78; tm (-1) 218; tm 1 74];
  [tm 1 69; tm (-1) 141; tm (-1) 65; tm 1 137]; [tm 1 60; tm 1 150; tm 1 240; tm (-1) 56; tm (-1) 146; tm (-1) 236];
  [tm 1 154; tm (-1) 226; tm (-1) 156; tm 1 228]; [tm 1 217; tm (-1) 73; tm (-1) 219; tm 1 75];
  [tm 1 64; tm (-1) 136; tm (-1) 66; tm 1 138]; [tm 1 55; tm 1 145; tm 1 235; tm (-1) 57; tm (-1) 147; tm (-1) 237];
  [tm 1 153; tm (-1) 225; tm 1 157; tm (-1) 229; tm 1 161; tm (-1) 233];
  [tm 1 216; tm (-1) 72; tm 1 220; tm (-1) 76; tm 1 224; tm (-1) 80];
  [tm 1 63; tm (-1) 135; tm 1 67; tm (-1) 139; tm 1 71; tm (-1) 143];
  [tm 1 54; tm 1 144; tm 1 234; tm 1 58; tm 1 148; tm 1 238; tm 1 62; tm 1 152; tm 1 242]].

(* autocode/grad2.c:861 *)
Definition f_2e_int2e_ipsrsr1 := mkg "CINTgout2e_int2e_ipsrsr1" K2 8
  [GShift CJ 1 0; GD CI 2 0 (mka p1 p0 p0 p0); GD CI 3 1 (mka p1 p0 p0 p0); GShift CI 4 0; GShift CI 5 1;
  GShift CI 6 2; GShift CI 7 3]
  []
  [(7, 0, 0); (6, 1, 0); (6, 0, 1); (5, 2, 0); (4, 3, 0); (4, 2, 1); (5, 0, 2); (4, 1, 2); (4, 0, 3); (3, 4, 0);
  (2, 5, 0); (2, 4, 1); (1, 6, 0); (0, 7, 0); (0, 6, 1); (1, 4, 2); (0, 5, 2); (0, 4, 3); (3, 0, 4); (2, 1, 4);
  (2, 0, 5); (1, 2, 4); (0, 3, 4); (0, 2, 5); (1, 0, 6); (0, 1, 6); (0, 0, 7)]
  [[tm 1 11; tm (-1) 19]; [tm 1 18; tm (-1) 2]; [tm 1 1; tm (-1) 9]; [tm 1 0; tm 1 10; tm 1 20];
  [tm 1 14; tm (-1) 22]; [tm 1 21; tm (-1) 5]; [tm 1 4; tm (-1) 12]; [tm 1 3; tm 1 13; tm 1 23];
  [tm 1 17; tm (-1) 25]; [tm 1 24; tm (-1) 8]; [tm 1 7; tm (-1) 15]; [tm 1 6; tm 1 16; tm 1 26]].

(* autocode/grad2.c:975 *)
Definition f_2e_int2e_ip1srsr2 := mkg "CINTgout2e_int2e_ip1srsr2" K2 8
  [GShift CL 1 0; GShift CK 2 0; GShift CK 3 1; GD CI 4 0 (mka p0 p0 p0 p0); GD CI 5 1 (mka p0 p0 p0 p0);
  GD CI 6 2 (mka p0 p0 p0 p0); GD CI 7 3 (mka p0 p0 p0 p0)]
  []
  [(7, 0, 0); (6, 1, 0); (6, 0, 1); (5, 2, 0); (4, 3, 0); (4, 2, 1); (5, 0, 2); (4, 1, 2); (4, 0, 3); (3, 4, 0);
  (2, 5, 0); (2, 4, 1); (1, 6, 0); (0, 7, 0); (0, 6, 1); (1, 4, 2); (0, 5, 2); (0, 4, 3); (3, 0, 4); (2, 1, 4);
  (2, 0, 5); (1, 2, 4); (0, 3, 4); (0, 2, 5); (1, 0, 6); (0, 1, 6); (0, 0, 7)]
  [[tm 1 5; tm (-1) 7]; [tm 1 6; tm (-1) 2]; [tm 1 1; tm (-1) 3]; [tm 1 0; tm 1 4; tm 1 8]; [tm 1 14; tm (-1) 16];
  [tm 1 15; tm (-1) 11]; [tm 1 10; tm (-1) 12]; [tm 1 9; tm 1 13; tm 1 17]; [tm 1 23; tm (-1) 25];
  [tm 1 24; tm (-1) 20]; [tm 1 19; tm (-1) 21]; [tm 1 18; tm 1 22; tm 1 26]].

(* autocode/grad2.c:1089 *)
Definition f_2e_int2e_ipsrsr1srsr2 := mkg "CINTgout2e_int2e_ipsrsr1srsr2" K2 32
  [GShift CL 1 0; GShift CK 2 0; GShift CK 3 1; GShift CJ 4 0; GShift CJ 5 1; GShift CJ 6 2; GShift CJ 7 3;
  GD CI 8 0 (mka p1 p0 p0 p0); GD CI 9 1 (mka p1 p0 p0 p0); GD CI 10 2 (mka p1 p0 p0 p0);
  GD CI 11 3 (mka p1 p0 p0 p0); GD CI 12 4 (mka p1 p0 p0 p0); GD CI 13 5 (mka p1 p0 p0 p0);
  GD CI 14 6 (mka p1 p0 p0 p0); GD CI 15 7 (mka p1 p0 p0 p0); GShift CI 16 0; GShift CI 17 1; GShift CI 18 2;
  GShift CI 19 3; GShift CI 20 4; GShift CI 21 5; GShift CI 22 6; GShift CI 23 7; GShift CI 24 8; GShift CI 25 9;
  GShift CI 26 10; GShift CI 27 11; GShift CI 28 12; GShift CI 29 13; GShift CI 30 14; GShift CI 31 15]
  []
  [(31, 0, 0); (30, 1, 0); (30, 0, 1); (29, 2, 0); (28, 3, 0); (28, 2, 1); (29, 0, 2); (28, 1, 2); (28, 0, 3);
  (27, 4, 0); (26, 5, 0); (26, 4, 1); (25, 6, 0); (24, 7, 0); (24, 6, 1); (25, 4, 2); (24, 5, 2); (24, 4, 3);
  (27, 0, 4); (26, 1, 4); (26, 0, 5); (25, 2, 4); (24, 3, 4); (24, 2, 5); (25, 0, 6); (24, 1, 6); (24, 0, 7);
  (23, 8, 0); (22, 9, 0); (22, 8, 1); (21, 10, 0); (20, 11, 0); (20, 10, 1); (21, 8, 2); (20, 9, 2); (20, 8, 3);
  (19, 12, 0); (18, 13, 0); (18, 12, 1); (17, 14, 0); (16, 15, 0); (16, 14, 1); (17, 12, 2); (16, 13, 2);
  (16, 12, 3); (19, 8, 4); (18, 9, 4); (18, 8, 5); (17, 10, 4); (16, 11, 4); (16, 10, 5); (17, 8, 6); (16, 9, 6);
  (16, 8, 7); (23, 0, 8); (22, 1, 8); (22, 0, 9); (21, 2, 8); (20, 3, 8); (20, 2, 9); (21, 0, 10); (20, 1, 10);
  (20, 0, 11); (19, 4, 8); (18, 5, 8); (18, 4, 9); (17, 6, 8); (16, 7, 8); (16, 6, 9); (17, 4, 10); (16, 5, 10);
  (16, 4, 11); (19, 0, 12); (18, 1, 12); (18, 0, 13); (17, 2, 12); (16, 3, 12); (16, 2, 13); (17, 0, 14);
  (16, 1, 14); (16, 0, 15); (15, 16, 0); (14, 17, 0); (14, 16, 1); (13, 18, 0); (12, 19, 0); (12, 18, 1);
  (13, 16, 2); (12, 17, 2); (12, 16, 3); (11, 20, 0); (10, 21, 0); (10, 20, 1); (9, 22, 0); (8, 23, 0); (8, 22, 1);
  (9, 20, 2); (8, 21, 2); (8, 20, 3); (11, 16, 4); (10, 17, 4); (10, 16, 5); (9, 18, 4); (8, 19, 4); (8, 18, 5);
  (9, 16, 6); (8, 17, 6); (8, 16, 7); (7, 24, 0); (6, 25, 0); (6, 24, 1); (5, 26, 0); (4, 27, 0); (4, 26, 1);
  (5, 24, 2); (4, 25, 2); (4, 24, 3); (3, 28, 0); (2, 29, 0); (2, 28, 1); (1, 30, 0); (0, 31, 0); (0, 30, 1);
  (1, 28, 2); (0, 29, 2); (0, 28, 3); (3, 24, 4); (2, 25, 4); (2, 24, 5); (1, 26, 4); (0, 27, 4); (0, 26, 5);
  (1, 24, 6); (0, 25, 6); (0, 24, 7); (7, 16, 8); (6, 17, 8); (6, 16, 9); (5, 18, 8); (4, 19, 8); (4, 18, 9);
  (5, 16, 10); (4, 17, 10); (4, 16, 11); (3, 20, 8); (2, 21, 8); (2, 20, 9); (1, 22, 8); (0, 23, 8); (0, 22, 9);
  (1, 20, 10); (0, 21, 10); (0, 20, 11); (3, 16, 12); (2, 17, 12); (2, 16, 13); (1, 18, 12); (0, 19, 12);
  (0, 18, 13); (1, 16, 14); (0, 17, 14); (0, 16, 15); (15, 0, 16); (14, 1, 16); (14, 0, 17); (13, 2, 16);
  (12, 3, 16); (12, 2, 17); (13, 0, 18); (12, 1, 18); (12, 0, 19); (11, 4, 16); (10, 5, 16); (10, 4, 17); (9, 6, 16);
  (8, 7, 16); (8, 6, 17); (9, 4, 18); (8, 5, 18); (8, 4, 19); (11, 0, 20); (10, 1, 20); (10, 0, 21); (9, 2, 20);
  (8, 3, 20); (8, 2, 21); (9, 0, 22); (8, 1, 22); (8, 0, 23); (7, 8, 16); (6, 9, 16); (6, 8, 17); (5, 10, 16);
  (4, 11, 16); (4, 10, 17); (5, 8, 18); (4, 9, 18); (4, 8, 19); (3, 12, 16); (2, 13, 16); (2, 12, 17); (1, 14, 16);
  (0, 15, 16); (0, 14, 17); (1, 12, 18); (0, 13, 18); (0, 12, 19); (3, 8, 20); (2, 9, 20); (2, 8, 21); (1, 10, 20);
  (0, 11, 20); (0, 10, 21); (1, 8, 22); (0, 9, 22); (0, 8, 23); (7, 0, 24); (6, 1, 24); (6, 0, 25); (5, 2, 24);
  (4, 3, 24); (4, 2, 25); (5, 0, 26); (4, 1, 26); (4, 0, 27); (3, 4, 24); (2, 5, 24); (2, 4, 25); (1, 6, 24);
  (0, 7, 24); (0, 6, 25); (1, 4, 26); (0, 5, 26); (0, 4, 27); (3, 0, 28); (2, 1, 28); (2, 0, 29); (1, 2, 28);
  (0, 3, 28); (0, 2, 29); (1, 0, 30); (0, 1, 30); (0, 0, 31)]
  [[tm 1 104; tm (-1) 176; tm (-1) 106; tm 1 178]; [tm 1 167; tm (-1) 23; tm (-1) 169; tm 1 25];
  [tm 1 14; tm (-1) 86; tm (-1) 16; tm 1 88]; [tm 1 5; tm 1 95; tm 1 185; tm (-1) 7; tm (-1) 97; tm (-1) 187];
  [tm 1 105; tm (-1) 177; tm (-1) 101; tm 1 173]; [tm 1 168; tm (-1) 24; tm (-1) 164; tm 1 20];
  [tm 1 15; tm (-1) 87; tm (-1) 11; tm 1 83]; [tm 1 6; tm 1 96; tm 1 186; tm (-1) 2; tm (-1) 92; tm (-1) 182];
  [tm 1 100; tm (-1) 172; tm (-1) 102; tm 1 174]; [tm 1 163; tm (-1) 19; tm (-1) 165; tm 1 21];
  [tm 1 10; tm (-1) 82; tm (-1) 12; tm 1 84]; [tm 1 1; tm 1 91; tm 1 181; tm (-1) 3; tm (-1) 93; tm (-1) 183];
  [tm 1 99; tm (-1) 171; tm 1 103; tm (-1) 175; tm 1 107; tm (-1) 179];
  [tm 1 162; tm (-1) 18; tm 1 166; tm (-1) 22; tm 1 170; tm (-1) 26];
  [tm 1 9; tm (-1) 81; tm 1 13; tm (-1) 85; tm 1 17; tm (-1) 89];
  [tm 1 0; tm 1 90; tm 1 180; tm 1 4; tm 1 94; tm 1 184; tm 1 8; tm 1 98; tm 1 188];
  [tm 1 131; tm (-1) 203; tm (-1) 133; tm 1 205]; [tm 1 194; tm (-1) 50; tm (-1) 196; tm 1 52];
  [tm 1 41; tm (-1) 113; tm (-1) 43; tm 1 115]; [tm 1 32; tm 1 122; tm 1 212; tm (-1) 34; tm (-1) 124; tm (-1) 214];
  [tm 1 132; tm (-1) 204; tm (-1) 128; tm 1 200]; [tm 1 195; tm (-1) 51; tm (-1) 191; tm 1 47];
  [tm 1 42; tm (-1) 114; tm (-1) 38; tm 1 110]; [tm 1 33; tm 1 123; tm 1 213; tm (-1) 29; tm (-1) 119; tm (-1) 209];
  [tm 1 127; tm (-1) 199; tm (-1) 129; tm 1 201]; [tm 1 190; tm (-1) 46; tm (-1) 192; tm 1 48];
  [tm 1 37; tm (-1) 109; tm (-1) 39; tm 1 111]; [tm 1 28; tm 1 118; tm 1 208; tm (-1) 30; tm (-1) 120; tm (-1) 210];
  [tm 1 126; tm (-1) 198; tm 1 130; tm (-1) 202; tm 1 134; tm (-1) 206];
  [tm 1 189; tm (-1) 45; tm 1 193; tm (-1) 49; tm 1 197; tm (-1) 53];
  [tm 1 36; tm (-1) 108; tm 1 40; tm (-1) 112; tm 1 44; tm (-1) 116];
  [tm 1 27; tm 1 117; tm 1 207; tm 1 31; tm 1 121; tm 1 211; tm 1 35; tm 1 125; tm 1 215];
  [tm 1 158; tm (-1) 230; tm (-1) 160; tm 1 232]; [tm 1 221; tm (-1) 77; tm (-1) 223; tm 1 79];
  [tm 1 68; tm (-1) 140; tm (-1) 70; tm 1 142]; [tm 1 59; tm 1 149; tm 1 239; tm (-1) 61; tm (-1) 151; tm (-1) 241];
  [tm 1 159; tm (-1) 231; tm (-1) 155; tm 1 227]; [tm 1 222; tm (-1) 78; tm (-1) 218; tm 1 74];
  [tm 1 69; tm (-1) 141; tm (-1) 65; tm 1 137]; [tm 1 60; tm 1 150; tm 1 240; tm (-1) 56; tm (-1) 146; tm (-1) 236];
  [tm 1 154; tm (-1) 226; tm (-1) 156; tm 1 228]; [tm 1 217; tm (-1) 73; tm (-1) 219; tm 1 75];
  [tm 1 64; tm (-1) 136; tm (-1) 66; tm 1 138]; [tm 1 55; tm 1 145; tm 1 235; tm (-1) 57; tm (-1) 147; tm (-1) 237];
  [tm 1 153; tm (-1) 225; tm 1 157; tm (-1) 229; tm 1 161; tm (-1) 233];
  [tm 1 216; tm (-1) 72; tm 1 220; tm (-1) 76; tm 1 224; tm (-1) 80];
  [tm 1 63; tm (-1) 135; tm 1 67; tm (-1) 139; tm 1 71; tm (-1) 143];
  [tm 1 54; tm 1 144; tm 1 234; tm 1 58; tm 1 148; tm 1 238; tm 1 62; tm 1 152; tm 1 242]].

(* autocode/hess.c:18 *)
Definition f_1e_int1e_ipipovlp := mkg "CINTgout1e_int1e_ipipovlp" K1 4
  [GD CI 1 0 (mka p1 p0 o o); GD CI 2 0 (mka p0 p0 o o); GD CI 3 1 (mka p0 p0 o o)]
  []
  [(3, 0, 0); (2, 1, 0); (2, 0, 1); (1, 2, 0); (0, 3, 0); (0, 2, 1); (1, 0, 2); (0, 1, 2); (0, 0, 3)]
  [[tm 1 0]; [tm 1 3]; [tm 1 6]; [tm 1 1]; [tm 1 4]; [tm 1 7]; [tm 1 2]; [tm 1 5]; [tm 1 8]].

(* autocode/hess.c:94 *)
Definition f_1e_int1e_ipovlpip := mkg "CINTgout1e_int1e_ipovlpip" K1 4
  [GD CJ 1 0 (mka p1 p0 o o); GD CI 2 0 (mka p0 p0 o o); GD CI 3 1 (mka p0 p0 o o)]
  []
  [(3, 0, 0); (2, 1, 0); (2, 0, 1); (1, 2, 0); (0, 3, 0); (0, 2, 1); (1, 0, 2); (0, 1, 2); (0, 0, 3)]
  [[tm 1 0]; [tm 1 1]; [tm 1 2]; [tm 1 3]; [tm 1 4]; [tm 1 5]; [tm 1 6]; [tm 1 7]; [tm 1 8]].

(* autocode/hess.c:170 *)
Definition f_1e_int1e_ipipkin := mkg "CINTgout1e_int1e_ipipkin" K1 16
  [GD CJ 1 0 (mka p2 p0 o o); GD CJ 2 0 (mka p2 p1 o o); GD CJ 3 2 (mka p2 p0 o o); GD CI 4 0 (mka p1 p0 o o);
  GD CI 5 1 (mka p1 p0 o o); GD CI 6 2 (mka p1 p0 o o); GD CI 7 3 (mka p1 p0 o o); GD CI 8 0 (mka p0 p0 o o);
  GD CI 9 1 (mka p0 p0 o o); GD CI 10 2 (mka p0 p0 o o); GD CI 11 3 (mka p0 p0 o o); GD CI 12 4 (mka p0 p0 o o);
  GD CI 13 5 (mka p0 p0 o o); GD CI 14 6 (mka p0 p0 o o); GD CI 15 7 (mka p0 p0 o o)]
  []
  [(15, 0, 0); (14, 1, 0); (14, 0, 1); (13, 2, 0); (12, 3, 0); (12, 2, 1); (13, 0, 2); (12, 1, 2); (12, 0, 3);
  (11, 4, 0); (10, 5, 0); (10, 4, 1); (9, 6, 0); (8, 7, 0); (8, 6, 1); (9, 4, 2); (8, 5, 2); (8, 4, 3); (11, 0, 4);
  (10, 1, 4); (10, 0, 5); (9, 2, 4); (8, 3, 4); (8, 2, 5); (9, 0, 6); (8, 1, 6); (8, 0, 7); (7, 8, 0); (6, 9, 0);
  (6, 8, 1); (5, 10, 0); (4, 11, 0); (4, 10, 1); (5, 8, 2); (4, 9, 2); (4, 8, 3); (3, 12, 0); (2, 13, 0); (2, 12, 1);
  (1, 14, 0); (0, 15, 0); (0, 14, 1); (1, 12, 2); (0, 13, 2); (0, 12, 3); (3, 8, 4); (2, 9, 4); (2, 8, 5);
  (1, 10, 4); (0, 11, 4); (0, 10, 5); (1, 8, 6); (0, 9, 6); (0, 8, 7); (7, 0, 8); (6, 1, 8); (6, 0, 9); (5, 2, 8);
  (4, 3, 8); (4, 2, 9); (5, 0, 10); (4, 1, 10); (4, 0, 11); (3, 4, 8); (2, 5, 8); (2, 4, 9); (1, 6, 8); (0, 7, 8);
  (0, 6, 9); (1, 4, 10); (0, 5, 10); (0, 4, 11); (3, 0, 12); (2, 1, 12); (2, 0, 13); (1, 2, 12); (0, 3, 12);
  (0, 2, 13); (1, 0, 14); (0, 1, 14); (0, 0, 15)]
  [[tm (-1) 0; tm (-1) 4; tm (-1) 8]; [tm (-1) 27; tm (-1) 31; tm (-1) 35]; [tm (-1) 54; tm (-1) 58; tm (-1) 62];
  [tm (-1) 9; tm (-1) 13; tm (-1) 17]; [tm (-1) 36; tm (-1) 40; tm (-1) 44]; [tm (-1) 63; tm (-1) 67; tm (-1) 71];
  [tm (-1) 18; tm (-1) 22; tm (-1) 26]; [tm (-1) 45; tm (-1) 49; tm (-1) 53]; [tm (-1) 72; tm (-1) 76; tm (-1) 80]].

(* autocode/hess.c:345 *)
Definition f_1e_int1e_ipkinip := mkg "CINTgout1e_int1e_ipkinip" K1 16
  [GD CJ 1 0 (mka p1 p0 o o); GD CJ 2 0 (mka p1 p1 o o); GD CJ 3 2 (mka p1 p0 o o); GD CJ 4 0 (mka p1 p2 o o);
  GD CJ 5 4 (mka p1 p0 o o); GD CJ 6 4 (mka p1 p1 o o); GD CJ 7 6 (mka p1 p0 o o); GD CI 8 0 (mka p0 p0 o o);
  GD CI 9 1 (mka p0 p0 o o); GD CI 10 2 (mka p0 p0 o o); GD CI 11 3 (mka p0 p0 o o); GD CI 12 4 (mka p0 p0 o o);
  GD CI 13 5 (mka p0 p0 o o); GD CI 14 6 (mka p0 p0 o o); GD CI 15 7 (mka p0 p0 o o)]
  []
  [(15, 0, 0); (14, 1, 0); (14, 0, 1); (13, 2, 0); (12, 3, 0); (12, 2, 1); (13, 0, 2); (12, 1, 2); (12, 0, 3);
  (11, 4, 0); (10, 5, 0); (10, 4, 1); (9, 6, 0); (8, 7, 0); (8, 6, 1); (9, 4, 2); (8, 5, 2); (8, 4, 3); (11, 0, 4);
  (10, 1, 4); (10, 0, 5); (9, 2, 4); (8, 3, 4); (8, 2, 5); (9, 0, 6); (8, 1, 6); (8, 0, 7); (7, 8, 0); (6, 9, 0);
  (6, 8, 1); (5, 10, 0); (4, 11, 0); (4, 10, 1); (5, 8, 2); (4, 9, 2); (4, 8, 3); (3, 12, 0); (2, 13, 0); (2, 12, 1);
  (1, 14, 0); (0, 15, 0); (0, 14, 1); (1, 12, 2); (0, 13, 2); (0, 12, 3); (3, 8, 4); (2, 9, 4); (2, 8, 5);
  (1, 10, 4); (0, 11, 4); (0, 10, 5); (1, 8, 6); (0, 9, 6); (0, 8, 7); (7, 0, 8); (6, 1, 8); (6, 0, 9); (5, 2, 8);
  (4, 3, 8); (4, 2, 9); (5, 0, 10); (4, 1, 10); (4, 0, 11); (3, 4, 8); (2, 5, 8); (2, 4, 9); (1, 6, 8); (0, 7, 8);
  (0, 6, 9); (1, 4, 10); (0, 5, 10); (0, 4, 11); (3, 0, 12); (2, 1, 12); (2, 0, 13); (1, 2, 12); (0, 3, 12);
  (0, 2, 13); (1, 0, 14); (0, 1, 14); (0, 0, 15)]
  [[tm (-1) 0; tm (-1) 12; tm (-1) 24]; [tm (-1) 1; tm (-1) 13; tm (-1) 25]; [tm (-1) 2; tm (-1) 14; tm (-1) 26];
  [tm (-1) 27; tm (-1) 39; tm (-1) 51]; [tm (-1) 28; tm (-1) 40; tm (-1) 52]; [tm (-1) 29; tm (-1) 41; tm (-1) 53];
  [tm (-1) 54; tm (-1) 66; tm (-1) 78]; [tm (-1) 55; tm (-1) 67; tm (-1) 79]; [tm (-1) 56; tm (-1) 68; tm (-1) 80]].

(* autocode/hess.c:520 *)
Definition f_1e_int1e_ipipnuc := mkg "CINTgout1e_int1e_ipipnuc" K2 4
  [GD CI 1 0 (mka p1 p0 o o); GD CI 2 0 (mka p0 p0 o o); GD CI 3 1 (mka p0 p0 o o)]
  []
  [(3, 0, 0); (2, 1, 0); (2, 0, 1); (1, 2, 0); (0, 3, 0); (0, 2, 1); (1, 0, 2); (0, 1, 2); (0, 0, 3)]
  [[tm 1 0]; [tm 1 3]; [tm 1 6]; [tm 1 1]; [tm 1 4]; [tm 1 7]; [tm 1 2]; [tm 1 5]; [tm 1 8]].

(* autocode/hess.c:600 *)
Definition f_1e_int1e_ipnucip := mkg "CINTgout1e_int1e_ipnucip" K2 4
  [GD CJ 1 0 (mka p1 p0 o o); GD CI 2 0 (mka p0 p0 o o); GD CI 3 1 (mka p0 p0 o o)]
  []
  [(3, 0, 0); (2, 1, 0); (2, 0, 1); (1, 2, 0); (0, 3, 0); (0, 2, 1); (1, 0, 2); (0, 1, 2); (0, 0, 3)]
  [[tm 1 0]; [tm 1 1]; [tm 1 2]; [tm 1 3]; [tm 1 4]; [tm 1 5]; [tm 1 6]; [tm 1 7]; [tm 1 8]].

(* autocode/hess.c:680 *)
Definition f_1e_int1e_ipiprinv := mkg "CINTgout1e_int1e_ipiprinv" K2 4
  [GD CI 1 0 (mka p1 p0 o o); GD CI 2 0 (mka p0 p0 o o); GD CI 3 1 (mka p0 p0 o o)]
  []
  [(3, 0, 0); (2, 1, 0); (2, 0, 1); (1, 2, 0); (0, 3, 0); (0, 2, 1); (1, 0, 2); (0, 1, 2); (0, 0, 3)]
  [[tm 1 0]; [tm 1 3]; [tm 1 6]; [tm 1 1]; [tm 1 4]; [tm 1 7]; [tm 1 2]; [tm 1 5]; [tm 1 8]].

(* autocode/hess.c:760 *)
Definition f_1e_int1e_iprinvip := mkg "CINTgout1e_int1e_iprinvip" K2 4
  [GD CJ 1 0 (mka p1 p0 o o); GD CI 2 0 (mka p0 p0 o o); GD CI 3 1 (mka p0 p0 o o)]
  []
  [(3, 0, 0); (2, 1, 0); (2, 0, 1); (1, 2, 0); (0, 3, 0); (0, 2, 1); (1, 0, 2); (0, 1, 2); (0, 0, 3)]
  [[tm 1 0]; [tm 1 1]; [tm 1 2]; [tm 1 3]; [tm 1 4]; [tm 1 5]; [tm 1 6]; [tm 1 7]; [tm 1 8]].

(* autocode/hess.c:840 *)
Definition f_1e_int1e_ipipr := mkg "CINTgout1e_int1e_ipipr" K1 8
  [GX CJ true 1 0 (mka p2 p0 o o); GD CI 2 0 (mka p1 p0 o o); GD CI 3 1 (mka p1 p0 o o); GD CI 4 0 (mka p0 p0 o o);
  GD CI 5 1 (mka p0 p0 o o); GD CI 6 2 (mka p0 p0 o o); GD CI 7 3 (mka p0 p0 o o)]
  []
  [(7, 0, 0); (6, 1, 0); (6, 0, 1); (5, 2, 0); (4, 3, 0); (4, 2, 1); (5, 0, 2); (4, 1, 2); (4, 0, 3); (3, 4, 0);
  (2, 5, 0); (2, 4, 1); (1, 6, 0); (0, 7, 0); (0, 6, 1); (1, 4, 2); (0, 5, 2); (0, 4, 3); (3, 0, 4); (2, 1, 4);
  (2, 0, 5); (1, 2, 4); (0, 3, 4); (0, 2, 5); (1, 0, 6); (0, 1, 6); (0, 0, 7)]
  [[tm 1 0]; [tm 1 1]; [tm 1 2]; [tm 1 9]; [tm 1 10]; [tm 1 11]; [tm 1 18]; [tm 1 19]; [tm 1 20]; [tm 1 3]; [tm 1 4];
  [tm 1 5]; [tm 1 12]; [tm 1 13]; [tm 1 14]; [tm 1 21]; [tm 1 22]; [tm 1 23]; [tm 1 6]; [tm 1 7]; [tm 1 8];
  [tm 1 15]; [tm 1 16]; [tm 1 17]; [tm 1 24]; [tm 1 25]; [tm 1 26]].

(* autocode/hess.c:982 *)
Definition f_1e_int1e_iprip := mkg "CINTgout1e_int1e_iprip" K1 8
  [GD CJ 1 0 (mka p1 p0 o o); GX CJ true 2 0 (mka p1 p1 o o); GD CJ 3 2 (mka p1 p0 o o); GD CI 4 0 (mka p0 p0 o o);
  GD CI 5 1 (mka p0 p0 o o); GD CI 6 2 (mka p0 p0 o o); GD CI 7 3 (mka p0 p0 o o)]
  []
  [(7, 0, 0); (6, 1, 0); (6, 0, 1); (5, 2, 0); (4, 3, 0); (4, 2, 1); (5, 0, 2); (4, 1, 2); (4, 0, 3); (3, 4, 0);
  (2, 5, 0); (2, 4, 1); (1, 6, 0); (0, 7, 0); (0, 6, 1); (1, 4, 2); (0, 5, 2); (0, 4, 3); (3, 0, 4); (2, 1, 4);
  (2, 0, 5); (1, 2, 4); (0, 3, 4); (0, 2, 5); (1, 0, 6); (0, 1, 6); (0, 0, 7)]
  [[tm 1 0]; [tm 1 1]; [tm 1 2]; [tm 1 3]; [tm 1 4]; [tm 1 5]; [tm 1 6]; [tm 1 7]; [tm 1 8]; [tm 1 9]; [tm 1 10];
  [tm 1 11]; [tm 1 12]; [tm 1 13]; [tm 1 14]; [tm 1 15]; [tm 1 16]; [tm 1 17]; [tm 1 18]; [tm 1 19]; [tm 1 20];
  [tm 1 21]; [tm 1 22]; [tm 1 23]; [tm 1 24]; [tm 1 25]; [tm 1 26]].

(* autocode/hess.c:1125 *)
Definition f_2e_int2e_ipip1 := mkg "CINTgout2e_int2e_ipip1" K2 4
  [GD CI 1 0 (mka p1 p0 p0 p0); GD CI 2 0 (mka p0 p0 p0 p0); GD CI 3 1 (mka p0 p0 p0 p0)]
  []
  [(3, 0, 0); (2, 1, 0); (2, 0, 1); (1, 2, 0); (0, 3, 0); (0, 2, 1); (1, 0, 2); (0, 1, 2); (0, 0, 3)]
  [[tm 1 0]; [tm 1 3]; [tm 1 6]; [tm 1 1]; [tm 1 4]; [tm 1 7]; [tm 1 2]; [tm 1 5]; [tm 1 8]].

(* autocode/hess.c:1207 *)
Definition f_2e_int2e_ipvip1 := mkg "CINTgout2e_int2e_ipvip1" K2 4
  [GD CJ 1 0 (mka p1 p0 p0 p0); GD CI 2 0 (mka p0 p0 p0 p0); GD CI 3 1 (mka p0 p0 p0 p0)]
  []
  [(3, 0, 0); (2, 1, 0); (2, 0, 1); (1, 2, 0); (0, 3, 0); (0, 2, 1); (1, 0, 2); (0, 1, 2); (0, 0, 3)]
  [[tm 1 0]; [tm 1 1]; [tm 1 2]; [tm 1 3]; [tm 1 4]; [tm 1 5]; [tm 1 6]; [tm 1 7]; [tm 1 8]].

(* autocode/hess.c:1289 *)
Definition f_2e_int2e_ip1ip2 := mkg "CINTgout2e_int2e_ip1ip2" K2 4
  [GD CK 1 0 (mka p1 p0 p0 p0); GD CI 2 0 (mka p0 p0 p0 p0); GD CI 3 1 (mka p0 p0 p0 p0)]
  []
  [(3, 0, 0); (2, 1, 0); (2, 0, 1); (1, 2, 0); (0, 3, 0); (0, 2, 1); (1, 0, 2); (0, 1, 2); (0, 0, 3)]
  [[tm 1 0]; [tm 1 1]; [tm 1 2]; [tm 1 3]; [tm 1 4]; [tm 1 5]; [tm 1 6]; [tm 1 7]; [tm 1 8]].

(* autocode/hess.c:1370 *)
Definition f_1e_int1e_ipippnucp := mkg "CINTgout1e_int1e_ipippnucp" K2 16
  [GD CJ 1 0 (mka p3 p0 o o); GD CI 2 0 (mka p2 p0 o o); GD CI 3 1 (mka p2 p0 o o); GD CI 4 0 (mka p1 p0 o o);
  GD CI 5 1 (mka p1 p0 o o); GD CI 6 2 (mka p1 p0 o o); GD CI 7 3 (mka p1 p0 o o); GD CI 8 0 (mka p0 p0 o o);
  GD CI 9 1 (mka p0 p0 o o); GD CI 10 2 (mka p0 p0 o o); GD CI 11 3 (mka p0 p0 o o); GD CI 12 4 (mka p0 p0 o o);
  GD CI 13 5 (mka p0 p0 o o); GD CI 14 6 (mka p0 p0 o o); GD CI 15 7 (mka p0 p0 o o)]
  []
  [(15, 0, 0); (14, 1, 0); (14, 0, 1); (13, 2, 0); (12, 3, 0); (12, 2, 1); (13, 0, 2); (12, 1, 2); (12, 0, 3);
  (11, 4, 0); (10, 5, 0); (10, 4, 1); (9, 6, 0); (8, 7, 0); (8, 6, 1); (9, 4, 2); (8, 5, 2); (8, 4, 3); (11, 0, 4);
  (10, 1, 4); (10, 0, 5); (9, 2, 4); (8, 3, 4); (8, 2, 5); (9, 0, 6); (8, 1, 6); (8, 0, 7); (7, 8, 0); (6, 9, 0);
  (6, 8, 1); (5, 10, 0); (4, 11, 0); (4, 10, 1); (5, 8, 2); (4, 9, 2); (4, 8, 3); (3, 12, 0); (2, 13, 0); (2, 12, 1);
  (1, 14, 0); (0, 15, 0); (0, 14, 1); (1, 12, 2); (0, 13, 2); (0, 12, 3); (3, 8, 4); (2, 9, 4); (2, 8, 5);
  (1, 10, 4); (0, 11, 4); (0, 10, 5); (1, 8, 6); (0, 9, 6); (0, 8, 7); (7, 0, 8); (6, 1, 8); (6, 0, 9); (5, 2, 8);
  (4, 3, 8); (4, 2, 9); (5, 0, 10); (4, 1, 10); (4, 0, 11); (3, 4, 8); (2, 5, 8); (2, 4, 9); (1, 6, 8); (0, 7, 8);
  (0, 6, 9); (1, 4, 10); (0, 5, 10); (0, 4, 11); (3, 0, 12); (2, 1, 12); (2, 0, 13); (1, 2, 12); (0, 3, 12);
  (0, 2, 13); (1, 0, 14); (0, 1, 14); (0, 0, 15)]
  [[tm 1 0; tm 1 4; tm 1 8]; [tm 1 27; tm 1 31; tm 1 35]; [tm 1 54; tm 1 58; tm 1 62]; [tm 1 9; tm 1 13; tm 1 17];
  [tm 1 36; tm 1 40; tm 1 44]; [tm 1 63; tm 1 67; tm 1 71]; [tm 1 18; tm 1 22; tm 1 26]; [tm 1 45; tm 1 49; tm 1 53];
  [tm 1 72; tm 1 76; tm 1 80]].

(* autocode/hess.c:1546 *)
Definition f_1e_int1e_ippnucpip := mkg "CINTgout1e_int1e_ippnucpip" K2 16
  [GD CJ 1 0 (mka p2 p0 o o); GD CJ 2 0 (mka p2 p1 o o); GD CJ 3 2 (mka p2 p0 o o); GD CI 4 0 (mka p1 p0 o o);
  GD CI 5 1 (mka p1 p0 o o); GD CI 6 2 (mka p1 p0 o o); GD CI 7 3 (mka p1 p0 o o); GD CI 8 0 (mka p0 p0 o o);
  GD CI 9 1 (mka p0 p0 o o); GD CI 10 2 (mka p0 p0 o o); GD CI 11 3 (mka p0 p0 o o); GD CI 12 4 (mka p0 p0 o o);
  GD CI 13 5 (mka p0 p0 o o); GD CI 14 6 (mka p0 p0 o o); GD CI 15 7 (mka p0 p0 o o)]
  []
  [(15, 0, 0); (14, 1, 0); (14, 0, 1); (13, 2, 0); (12, 3, 0); (12, 2, 1); (13, 0, 2); (12, 1, 2); (12, 0, 3);
  (11, 4, 0); (10, 5, 0); (10, 4, 1); (9, 6, 0); (8, 7, 0); (8, 6, 1); (9, 4, 2); (8, 5, 2); (8, 4, 3); (11, 0, 4);
  (10, 1, 4); (10, 0, 5); (9, 2, 4); (8, 3, 4); (8, 2, 5); (9, 0, 6); (8, 1, 6); (8, 0, 7); (7, 8, 0); (6, 9, 0);
  (6, 8, 1); (5, 10, 0); (4, 11, 0); (4, 10, 1); (5, 8, 2); (4, 9, 2); (4, 8, 3); (3, 12, 0); (2, 13, 0); (2, 12, 1);
  (1, 14, 0); (0, 15, 0); (0, 14, 1); (1, 12, 2); (0, 13, 2); (0, 12, 3); (3, 8, 4); (2, 9, 4); (2, 8, 5);
  (1, 10, 4); (0, 11, 4); (0, 10, 5); (1, 8, 6); (0, 9, 6); (0, 8, 7); (7, 0, 8); (6, 1, 8); (6, 0, 9); (5, 2, 8);
  (4, 3, 8); (4, 2, 9); (5, 0, 10); (4, 1, 10); (4, 0, 11); (3, 4, 8); (2, 5, 8); (2, 4, 9); (1, 6, 8); (0, 7, 8);
  (0, 6, 9); (1, 4, 10); (0, 5, 10); (0, 4, 11); (3, 0, 12); (2, 1, 12); (2, 0, 13); (1, 2, 12); (0, 3, 12);
  (0, 2, 13); (1, 0, 14); (0, 1, 14); (0, 0, 15)]
  [[tm 1 0; tm 1 12; tm 1 24]; [tm 1 27; tm 1 39; tm 1 51]; [tm 1 54; tm 1 66; tm 1 78]; [tm 1 1; tm 1 13; tm 1 25];
  [tm 1 28; tm 1 40; tm 1 52]; [tm 1 55; tm 1 67; tm 1 79]; [tm 1 2; tm 1 14; tm 1 26]; [tm 1 29; tm 1 41; tm 1 53];
  [tm 1 56; tm 1 68; tm 1 80]].

(* autocode/hess.c:1722 *)
Definition f_1e_int1e_ipipprinvp := mkg "CINTgout1e_int1e_ipipprinvp" K2 16
  [GD CJ 1 0 (mka p3 p0 o o); GD CI 2 0 (mka p2 p0 o o); GD CI 3 1 (mka p2 p0 o o); GD CI 4 0 (mka p1 p0 o o);
  GD CI 5 1 (mka p1 p0 o o); GD CI 6 2 (mka p1 p0 o o); GD CI 7 3 (mka p1 p0 o o); GD CI 8 0 (mka p0 p0 o o);
  GD CI 9 1 (mka p0 p0 o o); GD CI 10 2 (mka p0 p0 o o); GD CI 11 3 (mka p0 p0 o o); GD CI 12 4 (mka p0 p0 o o);
  GD CI 13 5 (mka p0 p0 o o); GD CI 14 6 (mka p0 p0 o o); GD CI 15 7 (mka p0 p0 o o)]
  []
  [(15, 0, 0); (14, 1, 0); (14, 0, 1); (13, 2, 0); (12, 3, 0); (12, 2, 1); (13, 0, 2); (12, 1, 2); (12, 0, 3);
  (11, 4, 0); (10, 5, 0); (10, 4, 1); (9, 6, 0); (8, 7, 0); (8, 6, 1); (9, 4, 2); (8, 5, 2); (8, 4, 3); (11, 0, 4);
  (10, 1, 4); (10, 0, 5); (9, 2, 4); (8, 3, 4); (8, 2, 5); (9, 0, 6); (8, 1, 6); (8, 0, 7); (7, 8, 0); (6, 9, 0);
  (6, 8, 1); (5, 10, 0); (4, 11, 0); (4, 10, 1); (5, 8, 2); (4, 9, 2); (4, 8, 3); (3, 12, 0); (2, 13, 0); (2, 12, 1);
  (1, 14, 0); (0, 15, 0); (0, 14, 1); (1, 12, 2); (0, 13, 2); (0, 12, 3); (3, 8, 4); (2, 9, 4); (2, 8, 5);
  (1, 10, 4); (0, 11, 4); (0, 10, 5); (1, 8, 6); (0, 9, 6); (0, 8, 7); (7, 0, 8); (6, 1, 8); (6, 0, 9); (5, 2, 8);
  (4, 3, 8); (4, 2, 9); (5, 0, 10); (4, 1, 10); (4, 0, 11); (3, 4, 8); (2, 5, 8); (2, 4, 9); (1, 6, 8); (0, 7, 8);
  (0, 6, 9); (1, 4, 10); (0, 5, 10); (0, 4, 11); (3, 0, 12); (2, 1, 12); (2, 0, 13); (1, 2, 12); (0, 3, 12);
  (0, 2, 13); (1, 0, 14); (0, 1, 14); (0, 0, 15)]
  [[tm 1 0; tm 1 4; tm 1 8]; [tm 1 27; tm 1 31; tm 1 35]; [tm 1 54; tm 1 58; tm 1 62]; [tm 1 9; tm 1 13; tm 1 17];
  [tm 1 36; tm 1 40; tm 1 44]; [tm 1 63; tm 1 67; tm 1 71]; [tm 1 18; tm 1 22; tm 1 26]; [tm 1 45; tm 1 49; tm 1 53];
  [tm 1 72; tm 1 76; tm 1 80]].

(* autocode/hess.c:1898 *)
Definition f_1e_int1e_ipprinvpip := mkg "CINTgout1e_int1e_ipprinvpip" K2 16
  [GD CJ 1 0 (mka p2 p0 o o); GD CJ 2 0 (mka p2 p1 o o); GD CJ 3 2 (mka p2 p0 o o); GD CI 4 0 (mka p1 p0 o o);
  GD CI 5 1 (mka p1 p0 o o); GD CI 6 2 (mka p1 p0 o o); GD CI 7 3 (mka p1 p0 o o); GD CI 8 0 (mka p0 p0 o o);
  GD CI 9 1 (mka p0 p0 o o); GD CI 10 2 (mka p0 p0 o o); GD CI 11 3 (mka p0 p0 o o); GD CI 12 4 (mka p0 p0 o o);
  GD CI 13 5 (mka p0 p0 o o); GD CI 14 6 (mka p0 p0 o o); GD CI 15 7 (mka p0 p0 o o)]
  []
  [(15, 0, 0); (14, 1, 0); (14, 0, 1); (13, 2, 0); (12, 3, 0); (12, 2, 1); (13, 0, 2); (12, 1, 2); (12, 0, 3);
  (11, 4, 0); (10, 5, 0); (10, 4, 1); (9, 6, 0); (8, 7, 0); (8, 6, 1); (9, 4, 2); (8, 5, 2); (8, 4, 3); (11, 0, 4);
  (10, 1, 4); (10, 0, 5); (9, 2, 4); (8, 3, 4); (8, 2, 5); (9, 0, 6); (8, 1, 6); (8, 0, 7); (7, 8, 0); (6, 9, 0);
  (6, 8, 1); (5, 10, 0); (4, 11, 0); (4, 10, 1); (5, 8, 2); (4, 9, 2); (4, 8, 3); (3, 12, 0); (2, 13, 0); (2, 12, 1);
  (1, 14, 0); (0, 15, 0); (0, 14, 1); (1, 12, 2); (0, 13, 2); (0, 12, 3); (3, 8, 4); (2, 9, 4); (2, 8, 5);
  (1, 10, 4); (0, 11, 4); (0, 10, 5); (1, 8, 6); (0, 9, 6); (0, 8, 7); (7, 0, 8); (6, 1, 8); (6, 0, 9); (5, 2, 8);
  (4, 3, 8); (4, 2, 9); (5, 0, 10); (4, 1, 10); (4, 0, 11); (3, 4, 8); (2, 5, 8); (2, 4, 9); (1, 6, 8); (0, 7, 8);
  (0, 6, 9); (1, 4, 10); (0, 5, 10); (0, 4, 11); (3, 0, 12); (2, 1, 12); (2, 0, 13); (1, 2, 12); (0, 3, 12);
  (0, 2, 13); (1, 0, 14); (0, 1, 14); (0, 0, 15)]
  [[tm 1 0; tm 1 12; tm 1 24]; [tm 1 27; tm 1 39; tm 1 51]; [tm 1 54; tm 1 66; tm 1 78]; [tm 1 1; tm 1 13; tm 1 25];
  [tm 1 28; tm 1 40; tm 1 52]; [tm 1 55; tm 1 67; tm 1 79]; [tm 1 2; tm 1 14; tm 1 26]; [tm 1 29; tm 1 41; tm 1 53];
  [tm 1 56; tm 1 68; tm 1 80]].

(* autocode/hess.c:2074 *)
Definition f_1e_int1e_ipipspnucsp := mkg "CINTgout1e_int1e_ipipspnucsp" K2 16
  [GD CJ 1 0 (mka p3 p0 o o); GD CI 2 0 (mka p2 p0 o o); GD CI 3 1 (mka p2 p0 o o); GD CI 4 0 (mka p1 p0 o o);
  GD CI 5 1 (mka p1 p0 o o); GD CI 6 2 (mka p1 p0 o o); GD CI 7 3 (mka p1 p0 o o); GD CI 8 0 (mka p0 p0 o o);
  GD CI 9 1 (mka p0 p0 o o); GD CI 10 2 (mka p0 p0 o o); GD CI 11 3 (mka p0 p0 o o); GD CI 12 4 (mka p0 p0 o o);
  GD CI 13 5 (mka p0 p0 o o); GD CI 14 6 (mka p0 p0 o o); GD CI 15 7 (mka p0 p0 o o)]
  []
  [(15, 0, 0); (14, 1, 0); (14, 0, 1); (13, 2, 0); (12, 3, 0); (12, 2, 1); (13, 0, 2); (12, 1, 2); (12, 0, 3);
  (11, 4, 0); (10, 5, 0); (10, 4, 1); (9, 6, 0); (8, 7, 0); (8, 6, 1); (9, 4, 2); (8, 5, 2); (8, 4, 3); (11, 0, 4);
  (10, 1, 4); (10, 0, 5); (9, 2, 4); (8, 3, 4); (8, 2, 5); (9, 0, 6); (8, 1, 6); (8, 0, 7); (7, 8, 0); (6, 9, 0);
  (6, 8, 1); (5, 10, 0); (4, 11, 0); (4, 10, 1); (5, 8, 2); (4, 9, 2); (4, 8, 3); (3, 12, 0); (2, 13, 0); (2, 12, 1);
  (1, 14, 0); (0, 15, 0); (0, 14, 1); (1, 12, 2); (0, 13, 2); (0, 12, 3); (3, 8, 4); (2, 9, 4); (2, 8, 5);
  (1, 10, 4); (0, 11, 4); (0, 10, 5); (1, 8, 6); (0, 9, 6); (0, 8, 7); (7, 0, 8); (6, 1, 8); (6, 0, 9); (5, 2, 8);
  (4, 3, 8); (4, 2, 9); (5, 0, 10); (4, 1, 10); (4, 0, 11); (3, 4, 8); (2, 5, 8); (2, 4, 9); (1, 6, 8); (0, 7, 8);
  (0, 6, 9); (1, 4, 10); (0, 5, 10); (0, 4, 11); (3, 0, 12); (2, 1, 12); (2, 0, 13); (1, 2, 12); (0, 3, 12);
  (0, 2, 13); (1, 0, 14); (0, 1, 14); (0, 0, 15)]
  [[tm 1 29; tm (-1) 55]; [tm 1 54; tm (-1) 2]; [tm 1 1; tm (-1) 27]; [tm 1 0; tm 1 28; tm 1 56];
  [tm 1 32; tm (-1) 58]; [tm 1 57; tm (-1) 5]; [tm 1 4; tm (-1) 30]; [tm 1 3; tm 1 31; tm 1 59];
  [tm 1 35; tm (-1) 61]; [tm 1 60; tm (-1) 8]; [tm 1 7; tm (-1) 33]; [tm 1 6; tm 1 34; tm 1 62];
  [tm 1 38; tm (-1) 64]; [tm 1 63; tm (-1) 11]; [tm 1 10; tm (-1) 36]; [tm 1 9; tm 1 37; tm 1 65];
  [tm 1 41; tm (-1) 67]; [tm 1 66; tm (-1) 14]; [tm 1 13; tm (-1) 39]; [tm 1 12; tm 1 40; tm 1 68];
  [tm 1 44; tm (-1) 70]; [tm 1 69; tm (-1) 17]; [tm 1 16; tm (-1) 42]; [tm 1 15; tm 1 43; tm 1 71];
  [tm 1 47; tm (-1) 73]; [tm 1 72; tm (-1) 20]; [tm 1 19; tm (-1) 45]; [tm 1 18; tm 1 46; tm 1 74];
  [tm 1 50; tm (-1) 76]; [tm 1 75; tm (-1) 23]; [tm 1 22; tm (-1) 48]; [tm 1 21; tm 1 49; tm 1 77];
  [tm 1 53; tm (-1) 79]; [tm 1 78; tm (-1) 26]; [tm 1 25; tm (-1) 51]; [tm 1 24; tm 1 52; tm 1 80]].

(* autocode/hess.c:2304 *)
Definition f_1e_int1e_ipspnucspip := mkg "CINTgout1e_int1e_ipspnucspip" K2 16
  [GD CJ 1 0 (mka p2 p0 o o); GD CJ 2 0 (mka p2 p1 o o); GD CJ 3 2 (mka p2 p0 o o); GD CI 4 0 (mka p1 p0 o o);
  GD CI 5 1 (mka p1 p0 o o); GD CI 6 2 (mka p1 p0 o o); GD CI 7 3 (mka p1 p0 o o); GD CI 8 0 (mka p0 p0 o o);
  GD CI 9 1 (mka p0 p0 o o); GD CI 10 2 (mka p0 p0 o o); GD CI 11 3 (mka p0 p0 o o); GD CI 12 4 (mka p0 p0 o o);
  GD CI 13 5 (mka p0 p0 o o); GD CI 14 6 (mka p0 p0 o o); GD CI 15 7 (mka p0 p0 o o)]
  []
  [(15, 0, 0); (14, 1, 0); (14, 0, 1); (13, 2, 0); (12, 3, 0); (12, 2, 1); (13, 0, 2); (12, 1, 2); (12, 0, 3);
  (11, 4, 0); (10, 5, 0); (10, 4, 1); (9, 6, 0); (8, 7, 0); (8, 6, 1); (9, 4, 2); (8, 5, 2); (8, 4, 3); (11, 0, 4);
  (10, 1, 4); (10, 0, 5); (9, 2, 4); (8, 3, 4); (8, 2, 5); (9, 0, 6); (8, 1, 6); (8, 0, 7); (7, 8, 0); (6, 9, 0);
  (6, 8, 1); (5, 10, 0); (4, 11, 0); (4, 10, 1); (5, 8, 2); (4, 9, 2); (4, 8, 3); (3, 12, 0); (2, 13, 0); (2, 12, 1);
  (1, 14, 0); (0, 15, 0); (0, 14, 1); (1, 12, 2); (0, 13, 2); (0, 12, 3); (3, 8, 4); (2, 9, 4); (2, 8, 5);
  (1, 10, 4); (0, 11, 4); (0, 10, 5); (1, 8, 6); (0, 9, 6); (0, 8, 7); (7, 0, 8); (6, 1, 8); (6, 0, 9); (5, 2, 8);
  (4, 3, 8); (4, 2, 9); (5, 0, 10); (4, 1, 10); (4, 0, 11); (3, 4, 8); (2, 5, 8); (2, 4, 9); (1, 6, 8); (0, 7, 8);
  (0, 6, 9); (1, 4, 10); (0, 5, 10); (0, 4, 11); (3, 0, 12); (2, 1, 12); (2, 0, 13); (1, 2, 12); (0, 3, 12);
  (0, 2, 13); (1, 0, 14); (0, 1, 14); (0, 0, 15)]
  [[tm 1 33; tm (-1) 57]; [tm 1 54; tm (-1) 6]; [tm 1 3; tm (-1) 27]; [tm 1 0; tm 1 30; tm 1 60];
  [tm 1 34; tm (-1) 58]; [tm 1 55; tm (-1) 7]; [tm 1 4; tm (-1) 28]; [tm 1 1; tm 1 31; tm 1 61];
  [tm 1 35; tm (-1) 59]; [tm 1 56; tm (-1) 8]; [tm 1 5; tm (-1) 29]; [tm 1 2; tm 1 32; tm 1 62];
  [tm 1 42; tm (-1) 66]; [tm 1 63; tm (-1) 15]; [tm 1 12; tm (-1) 36]; [tm 1 9; tm 1 39; tm 1 69];
  [tm 1 43; tm (-1) 67]; [tm 1 64; tm (-1) 16]; [tm 1 13; tm (-1) 37]; [tm 1 10; tm 1 40; tm 1 70];
  [tm 1 44; tm (-1) 68]; [tm 1 65; tm (-1) 17]; [tm 1 14; tm (-1) 38]; [tm 1 11; tm 1 41; tm 1 71];
  [tm 1 51; tm (-1) 75]; [tm 1 72; tm (-1) 24]; [tm 1 21; tm (-1) 45]; [tm 1 18; tm 1 48; tm 1 78];
  [tm 1 52; tm (-1) 76]; [tm 1 73; tm (-1) 25]; [tm 1 22; tm (-1) 46]; [tm 1 19; tm 1 49; tm 1 79];
  [tm 1 53; tm (-1) 77]; [tm 1 74; tm (-1) 26]; [tm 1 23; tm (-1) 47]; [tm 1 20; tm 1 50; tm 1 80]].

(* autocode/hess.c:2534 *)
Definition f_1e_int1e_ipipsprinvsp := mkg "CINTgout1e_int1e_ipipsprinvsp" K2 16
  [GD CJ 1 0 (mka p3 p0 o o); GD CI 2 0 (mka p2 p0 o o); GD CI 3 1 (mka p2 p0 o o); GD CI 4 0 (mka p1 p0 o o);
  GD CI 5 1 (mka p1 p0 o o); GD CI 6 2 (mka p1 p0 o o); GD CI 7 3 (mka p1 p0 o o); GD CI 8 0 (mka p0 p0 o o);
  GD CI 9 1 (mka p0 p0 o o); GD CI 10 2 (mka p0 p0 o o); GD CI 11 3 (mka p0 p0 o o); GD CI 12 4 (mka p0 p0 o o);
  GD CI 13 5 (mka p0 p0 o o); GD CI 14 6 (mka p0 p0 o o); GD CI 15 7 (mka p0 p0 o o)]
  []
  [(15, 0, 0); (14, 1, 0); (14, 0, 1); (13, 2, 0); (12, 3, 0); (12, 2, 1); (13, 0, 2); (12, 1, 2); (12, 0, 3);
  (11, 4, 0); (10, 5, 0); (10, 4, 1); (9, 6, 0); (8, 7, 0); (8, 6, 1); (9, 4, 2); (8, 5, 2); (8, 4, 3); (11, 0, 4);
  (10, 1, 4); (10, 0, 5); (9, 2, 4); (8, 3, 4); (8, 2, 5); (9, 0, 6); (8, 1, 6); (8, 0, 7); (7, 8, 0); (6, 9, 0);
  (6, 8, 1); (5, 10, 0); (4, 11, 0); (4, 10, 1); (5, 8, 2); (4, 9, 2); (4, 8, 3); (3, 12, 0); (2, 13, 0); (2, 12, 1);
  (1, 14, 0); (0, 15, 0); (0, 14, 1); (1, 12, 2); (0, 13, 2); (0, 12, 3); (3, 8, 4); (2, 9, 4); (2, 8, 5);
  (1, 10, 4); (0, 11, 4); (0, 10, 5); (1, 8, 6); (0, 9, 6); (0, 8, 7); (7, 0, 8); (6, 1, 8); (6, 0, 9); (5, 2, 8);
  (4, 3, 8); (4, 2, 9); (5, 0, 10); (4, 1, 10); (4, 0, 11); (3, 4, 8); (2, 5, 8); (2, 4, 9); (1, 6, 8); (0, 7, 8);
  (0, 6, 9); (1, 4, 10); (0, 5, 10); (0, 4, 11); (3, 0, 12); (2, 1, 12); (2, 0, 13); (1, 2, 12); (0, 3, 12);
  (0, 2, 13); (1, 0, 14); (0, 1, 14); (0, 0, 15)]
  [[tm 1 29; tm (-1) 55]; [tm 1 54; tm (-1) 2]; [tm 1 1; tm (-1) 27]; [tm 1 0; tm 1 28; tm 1 56];
  [tm 1 32; tm (-1) 58]; [tm 1 57; tm (-1) 5]; [tm 1 4; tm (-1) 30]; [tm 1 3; tm 1 31; tm 1 59];
  [tm 1 35; tm (-1) 61]; [tm 1 60; tm (-1) 8]; [tm 1 7; tm (-1) 33]; [tm 1 6; tm 1 34; tm 1 62];
  [tm 1 38; tm (-1) 64]; [tm 1 63; tm (-1) 11]; [tm 1 10; tm (-1) 36]; [tm 1 9; tm 1 37; tm 1 65];
  [tm 1 41; tm (-1) 67]; [tm 1 66; tm (-1) 14]; [tm 1 13; tm (-1) 39]; [tm 1 12; tm 1 40; tm 1 68];
  [tm 1 44; tm (-1) 70]; [tm 1 69; tm (-1) 17]; [tm 1 16; tm (-1) 42]; [tm 1 15; tm 1 43; tm 1 71];
  [tm 1 47; tm (-1) 73]; [tm 1 72; tm (-1) 20]; [tm 1 19; tm (-1) 45]; [tm 1 18; tm 1 46; tm 1 74];
  [tm 1 50; tm (-1) 76]; [tm 1 75; tm (-1) 23]; [tm 1 22; tm (-1) 48]; [tm 1 21; tm 1 49; tm 1 77];
  [tm 1 53; tm (-1) 79]; [tm 1 78; tm (-1) 26]; [tm 1 25; tm (-1) 51]; [tm 1 24; tm 1 52; tm 1 80]].

(* autocode/hess.c:2764 *)
Definition f_1e_int1e_ipsprinvspip := mkg "CINTgout1e_int1e_ipsprinvspip" K2 16
  [GD CJ 1 0 (mka p2 p0 o o); GD CJ 2 0 (mka p2 p1 o o); GD CJ 3 2 (mka p2 p0 o o); GD CI 4 0 (mka p1 p0 o o);
  GD CI 5 1 (mka p1 p0 o o); GD CI 6 2 (mka p1 p0 o o); GD CI 7 3 (mka p1 p0 o o); GD CI 8 0 (mka p0 p0 o o);
  GD CI 9 1 (mka p0 p0 o o); GD CI 10 2 (mka p0 p0 o o); GD CI 11 3 (mka p0 p0 o o); GD CI 12 4 (mka p0 p0 o o);
  GD CI 13 5 (mka p0 p0 o o); GD CI 14 6 (mka p0 p0 o o); GD CI 15 7 (mka p0 p0 o o)]
  []
  [(15, 0, 0); (14, 1, 0); (14, 0, 1); (13, 2, 0); (12, 3, 0); (12, 2, 1); (13, 0, 2); (12, 1, 2); (12, 0, 3);
  (11, 4, 0); (10, 5, 0); (10, 4, 1); (9, 6, 0); (8, 7, 0); (8, 6, 1); (9, 4, 2); (8, 5, 2); (8, 4, 3); (11, 0, 4);
  (10, 1, 4); (10, 0, 5); (9, 2, 4); (8, 3, 4); (8, 2, 5); (9, 0, 6); (8, 1, 6); (8, 0, 7); (7, 8, 0); (6, 9, 0);
  (6, 8, 1); (5, 10, 0); (4, 11, 0); (4, 10, 1); (5, 8, 2); (4, 9, 2); (4, 8, 3); (3, 12, 0); (2, 13, 0); (2, 12, 1);
  (1, 14, 0); (0, 15, 0); (0, 14, 1); (1, 12, 2); (0, 13, 2); (0, 12, 3); (3, 8, 4); (2, 9, 4); (2, 8, 5);
  (1, 10, 4); (0, 11, 4); (0, 10, 5); (1, 8, 6); (0, 9, 6); (0, 8, 7); (7, 0, 8); (6, 1, 8); (6, 0, 9); (5, 2, 8);
  (4, 3, 8); (4, 2, 9); (5, 0, 10); (4, 1, 10); (4, 0, 11); (3, 4, 8); (2, 5, 8); (2, 4, 9); (1, 6, 8); (0, 7, 8);
  (0, 6, 9); (1, 4, 10); (0, 5, 10); (0, 4, 11); (3, 0, 12); (2, 1, 12); (2, 0, 13); (1, 2, 12); (0, 3, 12);
  (0, 2, 13); (1, 0, 14); (0, 1, 14); (0, 0, 15)]
  [[tm 1 33; tm (-1) 57]; [tm 1 54; tm (-1) 6]; [tm 1 3; tm (-1) 27]; [tm 1 0; tm 1 30; tm 1 60];
  [tm 1 34; tm (-1) 58]; [tm 1 55; tm (-1) 7]; [tm 1 4; tm (-1) 28]; [tm 1 1; tm 1 31; tm 1 61];
  [tm 1 35; tm (-1) 59]; [tm 1 56; tm (-1) 8]; [tm 1 5; tm (-1) 29]; [tm 1 2; tm 1 32; tm 1 62];
  [tm 1 42; tm (-1) 66]; [tm 1 63; tm (-1) 15]; [tm 1 12; tm (-1) 36]; [tm 1 9; tm 1 39; tm 1 69];
  [tm 1 43; tm (-1) 67]; [tm 1 64; tm (-1) 16]; [tm 1 13; tm (-1) 37]; [tm 1 10; tm 1 40; tm 1 70];
  [tm 1 44; tm (-1) 68]; [tm 1 65; tm (-1) 17]; [tm 1 14; tm (-1) 38]; [tm 1 11; tm 1 41; tm 1 71];
  [tm 1 51; tm (-1) 75]; [tm 1 72; tm (-1) 24]; [tm 1 21; tm (-1) 45]; [tm 1 18; tm 1 48; tm 1 78];
  [tm 1 52; tm (-1) 76]; [tm 1 73; tm (-1) 25]; [tm 1 22; tm (-1) 46]; [tm 1 19; tm 1 49; tm 1 79];
  [tm 1 53; tm (-1) 77]; [tm 1 74; tm (-1) 26]; [tm 1 23; tm (-1) 47]; [tm 1 20; tm 1 50; tm 1 80]].

(* autocode/hess.c:2995 *)
Definition f_2e_int2e_ipip1ipip2 := mkg "CINTgout2e_int2e_ipip1ipip2" K2 16
  [GD CK 1 0 (mka p2 p0 p1 p0); GD CK 2 0 (mka p2 p0 p0 p0); GD CK 3 1 (mka p2 p0 p0 p0);
  GD CI 4 0 (mka p1 p0 p0 p0); GD CI 5 1 (mka p1 p0 p0 p0); GD CI 6 2 (mka p1 p0 p0 p0); GD CI 7 3 (mka p1 p0 p0 p0);
  GD CI 8 0 (mka p0 p0 p0 p0); GD CI 9 1 (mka p0 p0 p0 p0); GD CI 10 2 (mka p0 p0 p0 p0);
  GD CI 11 3 (mka p0 p0 p0 p0); GD CI 12 4 (mka p0 p0 p0 p0); GD CI 13 5 (mka p0 p0 p0 p0);
  GD CI 14 6 (mka p0 p0 p0 p0); GD CI 15 7 (mka p0 p0 p0 p0)]
  []
  [(15, 0, 0); (14, 1, 0); (14, 0, 1); (13, 2, 0); (12, 3, 0); (12, 2, 1); (13, 0, 2); (12, 1, 2); (12, 0, 3);
  (11, 4, 0); (10, 5, 0); (10, 4, 1); (9, 6, 0); (8, 7, 0); (8, 6, 1); (9, 4, 2); (8, 5, 2); (8, 4, 3); (11, 0, 4);
  (10, 1, 4); (10, 0, 5); (9, 2, 4); (8, 3, 4); (8, 2, 5); (9, 0, 6); (8, 1, 6); (8, 0, 7); (7, 8, 0); (6, 9, 0);
  (6, 8, 1); (5, 10, 0); (4, 11, 0); (4, 10, 1); (5, 8, 2); (4, 9, 2); (4, 8, 3); (3, 12, 0); (2, 13, 0); (2, 12, 1);
  (1, 14, 0); (0, 15, 0); (0, 14, 1); (1, 12, 2); (0, 13, 2); (0, 12, 3); (3, 8, 4); (2, 9, 4); (2, 8, 5);
  (1, 10, 4); (0, 11, 4); (0, 10, 5); (1, 8, 6); (0, 9, 6); (0, 8, 7); (7, 0, 8); (6, 1, 8); (6, 0, 9); (5, 2, 8);
  (4, 3, 8); (4, 2, 9); (5, 0, 10); (4, 1, 10); (4, 0, 11); (3, 4, 8); (2, 5, 8); (2, 4, 9); (1, 6, 8); (0, 7, 8);
  (0, 6, 9); (1, 4, 10); (0, 5, 10); (0, 4, 11); (3, 0, 12); (2, 1, 12); (2, 0, 13); (1, 2, 12); (0, 3, 12);
  (0, 2, 13); (1, 0, 14); (0, 1, 14); (0, 0, 15)]
  [[tm 1 0]; [tm 1 3]; [tm 1 6]; [tm 1 1]; [tm 1 4]; [tm 1 7]; [tm 1 2]; [tm 1 5]; [tm 1 8]; [tm 1 27]; [tm 1 30];
  [tm 1 33]; [tm 1 28]; [tm 1 31]; [tm 1 34]; [tm 1 29]; [tm 1 32]; [tm 1 35]; [tm 1 54]; [tm 1 57]; [tm 1 60];
  [tm 1 55]; [tm 1 58]; [tm 1 61]; [tm 1 56]; [tm 1 59]; [tm 1 62]; [tm 1 9]; [tm 1 12]; [tm 1 15]; [tm 1 10];
  [tm 1 13]; [tm 1 16]; [tm 1 11]; [tm 1 14]; [tm 1 17]; [tm 1 36]; [tm 1 39]; [tm 1 42]; [tm 1 37]; [tm 1 40];
  [tm 1 43]; [tm 1 38]; [tm 1 41]; [tm 1 44]; [tm 1 63]; [tm 1 66]; [tm 1 69]; [tm 1 64]; [tm 1 67]; [tm 1 70];
  [tm 1 65]; [tm 1 68]; [tm 1 71]; [tm 1 18]; [tm 1 21]; [tm 1 24]; [tm 1 19]; [tm 1 22]; [tm 1 25]; [tm 1 20];
  [tm 1 23]; [tm 1 26]; [tm 1 45]; [tm 1 48]; [tm 1 51]; [tm 1 46]; [tm 1 49]; [tm 1 52]; [tm 1 47]; [tm 1 50];
  [tm 1 53]; [tm 1 72]; [tm 1 75]; [tm 1 78]; [tm 1 73]; [tm 1 76]; [tm 1 79]; [tm 1 74]; [tm 1 77]; [tm 1 80]].

(* autocode/hess.c:3317 *)
Definition f_2e_int2e_ipvip1ipvip2 := mkg "CINTgout2e_int2e_ipvip1ipvip2" K2 16
  [GD CL 1 0 (mka p1 p1 p1 p0); GD CK 2 0 (mka p1 p1 p0 p0); GD CK 3 1 (mka p1 p1 p0 p0);
  GD CJ 4 0 (mka p1 p0 p0 p0); GD CJ 5 1 (mka p1 p0 p0 p0); GD CJ 6 2 (mka p1 p0 p0 p0); GD CJ 7 3 (mka p1 p0 p0 p0);
  GD CI 8 0 (mka p0 p0 p0 p0); GD CI 9 1 (mka p0 p0 p0 p0); GD CI 10 2 (mka p0 p0 p0 p0);
  GD CI 11 3 (mka p0 p0 p0 p0); GD CI 12 4 (mka p0 p0 p0 p0); GD CI 13 5 (mka p0 p0 p0 p0);
  GD CI 14 6 (mka p0 p0 p0 p0); GD CI 15 7 (mka p0 p0 p0 p0)]
  []
  [(15, 0, 0); (14, 1, 0); (14, 0, 1); (13, 2, 0); (12, 3, 0); (12, 2, 1); (13, 0, 2); (12, 1, 2); (12, 0, 3);
  (11, 4, 0); (10, 5, 0); (10, 4, 1); (9, 6, 0); (8, 7, 0); (8, 6, 1); (9, 4, 2); (8, 5, 2); (8, 4, 3); (11, 0, 4);
  (10, 1, 4); (10, 0, 5); (9, 2, 4); (8, 3, 4); (8, 2, 5); (9, 0, 6); (8, 1, 6); (8, 0, 7); (7, 8, 0); (6, 9, 0);
  (6, 8, 1); (5, 10, 0); (4, 11, 0); (4, 10, 1); (5, 8, 2); (4, 9, 2); (4, 8, 3); (3, 12, 0); (2, 13, 0); (2, 12, 1);
  (1, 14, 0); (0, 15, 0); (0, 14, 1); (1, 12, 2); (0, 13, 2); (0, 12, 3); (3, 8, 4); (2, 9, 4); (2, 8, 5);
  (1, 10, 4); (0, 11, 4); (0, 10, 5); (1, 8, 6); (0, 9, 6); (0, 8, 7); (7, 0, 8); (6, 1, 8); (6, 0, 9); (5, 2, 8);
  (4, 3, 8); (4, 2, 9); (5, 0, 10); (4, 1, 10); (4, 0, 11); (3, 4, 8); (2, 5, 8); (2, 4, 9); (1, 6, 8); (0, 7, 8);
  (0, 6, 9); (1, 4, 10); (0, 5, 10); (0, 4, 11); (3, 0, 12); (2, 1, 12); (2, 0, 13); (1, 2, 12); (0, 3, 12);
  (0, 2, 13); (1, 0, 14); (0, 1, 14); (0, 0, 15)]
  [[tm 1 0]; [tm 1 1]; [tm 1 2]; [tm 1 3]; [tm 1 4]; [tm 1 5]; [tm 1 6]; [tm 1 7]; [tm 1 8]; [tm 1 9]; [tm 1 10];
  [tm 1 11]; [tm 1 12]; [tm 1 13]; [tm 1 14]; [tm 1 15]; [tm 1 16]; [tm 1 17]; [tm 1 18]; [tm 1 19]; [tm 1 20];
  [tm 1 21]; [tm 1 22]; [tm 1 23]; [tm 1 24]; [tm 1 25]; [tm 1 26]; [tm 1 27]; [tm 1 28]; [tm 1 29]; [tm 1 30];
  [tm 1 31]; [tm 1 32]; [tm 1 33]; [tm 1 34]; [tm 1 35]; [tm 1 36]; [tm 1 37]; [tm 1 38]; [tm 1 39]; [tm 1 40];
  [tm 1 41]; [tm 1 42]; [tm 1 43]; [tm 1 44]; [tm 1 45]; [tm 1 46]; [tm 1 47]; [tm 1 48]; [tm 1 49]; [tm 1 50];
  [tm 1 51]; [tm 1 52]; [tm 1 53]; [tm 1 54]; [tm 1 55]; [tm 1 56]; [tm 1 57]; [tm 1 58]; [tm 1 59]; [tm 1 60];
  [tm 1 61]; [tm 1 62]; [tm 1 63]; [tm 1 64]; [tm 1 65]; [tm 1 66]; [tm 1 67]; [tm 1 68]; [tm 1 69]; [tm 1 70];
  [tm 1 71]; [tm 1 72]; [tm 1 73]; [tm 1 74]; [tm 1 75]; [tm 1 76]; [tm 1 77]; [tm 1 78]; [tm 1 79]; [tm 1 80]].

(* autocode/int1e_grids1.c:18 *)
Definition f_1e_int1e_grids_ip := mkg "CINTgout1e_int1e_grids_ip" KG 2
  [GD CI 1 0 (mka p0 p0 o o)]
  []
  [(1, 0, 0); (0, 1, 0); (0, 0, 1)]
  [[tm 1 0]; [tm 1 1]; [tm 1 2]].

(* autocode/int1e_grids1.c:82 *)
Definition f_1e_int1e_grids_ipvip := mkg "CINTgout1e_int1e_grids_ipvip" KG 4
  [GD CJ 1 0 (mka p1 p0 o o); GD CI 2 0 (mka p0 p0 o o); GD CI 3 1 (mka p0 p0 o o)]
  []
  [(3, 0, 0); (2, 1, 0); (2, 0, 1); (1, 2, 0); (0, 3, 0); (0, 2, 1); (1, 0, 2); (0, 1, 2); (0, 0, 3)]
  [[tm 1 0]; [tm 1 1]; [tm 1 2]; [tm 1 3]; [tm 1 4]; [tm 1 5]; [tm 1 6]; [tm 1 7]; [tm 1 8]].

(* autocode/int1e_grids1.c:168 *)
Definition f_1e_int1e_grids_spvsp := mkg "CINTgout1e_int1e_grids_spvsp" KG 4
  [GD CJ 1 0 (mka p1 p0 o o); GD CI 2 0 (mka p0 p0 o o); GD CI 3 1 (mka p0 p0 o o)]
  []
  [(3, 0, 0); (2, 1, 0); (2, 0, 1); (1, 2, 0); (0, 3, 0); (0, 2, 1); (1, 0, 2); (0, 1, 2); (0, 0, 3)]
  [[tm 1 5; tm (-1) 7]; [tm 1 6; tm (-1) 2]; [tm 1 1; tm (-1) 3]; [tm 1 0; tm 1 4; tm 1 8]].

(* autocode/int1e_grids1.c:244 *)
Definition f_1e_int1e_grids_ipip := mkg "CINTgout1e_int1e_grids_ipip" KG 4
  [GD CI 1 0 (mka p1 p0 o o); GD CI 2 0 (mka p0 p0 o o); GD CI 3 1 (mka p0 p0 o o)]
  []
  [(3, 0, 0); (2, 1, 0); (2, 0, 1); (1, 2, 0); (0, 3, 0); (0, 2, 1); (1, 0, 2); (0, 1, 2); (0, 0, 3)]
  [[tm 1 0]; [tm 1 3]; [tm 1 6]; [tm 1 1]; [tm 1 4]; [tm 1 7]; [tm 1 2]; [tm 1 5]; [tm 1 8]].

(* autocode/int3c1e.c:17 *)
Definition f_1e_int3c1e_p2 := mkg "CINTgout1e_int3c1e_p2" K1 4
  [GD CK 1 0 (mka p0 p0 p1 o); GD CK 2 0 (mka p0 p0 p0 o); GD CK 3 1 (mka p0 p0 p0 o)]
  []
  [(3, 0, 0); (2, 1, 0); (2, 0, 1); (1, 2, 0); (0, 3, 0); (0, 2, 1); (1, 0, 2); (0, 1, 2); (0, 0, 3)]
  [[tm (-1) 0; tm (-1) 4; tm (-1) 8]].

(* autocode/int3c1e.c:78 *)
Definition f_1e_int3c1e_iprinv := mkg "CINTgout1e_int3c1e_iprinv" K1 2
  [GD CI 1 0 (mka p0 p0 p0 o)]
  []
  [(1, 0, 0); (0, 1, 0); (0, 0, 1)]
  [[tm 1 0]; [tm 1 1]; [tm 1 2]].

(* autocode/int3c1e.c:133 *)
Definition f_1e_int3c1e_ip1 := mkg "CINTgout1e_int3c1e_ip1" K1 2
  [GD CI 1 0 (mka p0 p0 p0 o)]
  []
  [(1, 0, 0); (0, 1, 0); (0, 0, 1)]
  [[tm 1 0]; [tm 1 1]; [tm 1 2]].

(* autocode/int3c2e.c:18 *)
Definition f_2e_int3c2e_ip1 := mkg "CINTgout2e_int3c2e_ip1" K2 2
  [GD CI 1 0 (mka p0 p0 p0 o)]
  []
  [(1, 0, 0); (0, 1, 0); (0, 0, 1)]
  [[tm 1 0]; [tm 1 1]; [tm 1 2]].

(* autocode/int3c2e.c:99 *)
Definition f_2e_int3c2e_ip2 := mkg "CINTgout2e_int3c2e_ip2" K2 2
  [GD CK 1 0 (mka p0 p0 p0 o)]
  []
  [(1, 0, 0); (0, 1, 0); (0, 0, 1)]
  [[tm 1 0]; [tm 1 1]; [tm 1 2]].

(* autocode/int3c2e.c:180 *)
Definition f_2e_int3c2e_pvp1 := mkg "CINTgout2e_int3c2e_pvp1" K2 4
  [GD CJ 1 0 (mka p1 p0 p0 o); GD CI 2 0 (mka p0 p0 p0 o); GD CI 3 1 (mka p0 p0 p0 o)]
  []
  [(3, 0, 0); (2, 1, 0); (2, 0, 1); (1, 2, 0); (0, 3, 0); (0, 2, 1); (1, 0, 2); (0, 1, 2); (0, 0, 3)]
  [[tm 1 0; tm 1 4; tm 1 8]].

(* autocode/int3c2e.c:245 *)
Definition f_2e_int3c2e_pvxp1 := mkg "CINTgout2e_int3c2e_pvxp1" K2 4
  [GD CJ 1 0 (mka p1 p0 p0 o); GD CI 2 0 (mka p0 p0 p0 o); GD CI 3 1 (mka p0 p0 p0 o)]
  []
  [(3, 0, 0); (2, 1, 0); (2, 0, 1); (1, 2, 0); (0, 3, 0); (0, 2, 1); (1, 0, 2); (0, 1, 2); (0, 0, 3)]
  [[tm 1 5; tm (-1) 7]; [tm 1 6; tm (-1) 2]; [tm 1 1; tm (-1) 3]].

(* autocode/int3c2e.c:314 *)
Definition f_2e_int2c2e_ip1 := mkg "CINTgout2e_int2c2e_ip1" K2 2
  [GD CI 1 0 (mka p0 o p0 o)]
  []
  [(1, 0, 0); (0, 1, 0); (0, 0, 1)]
  [[tm 1 0]; [tm 1 1]; [tm 1 2]].

(* autocode/int3c2e.c:392 *)
Definition f_2e_int2c2e_ip2 := mkg "CINTgout2e_int2c2e_ip2" K2 2
  [GD CK 1 0 (mka p0 o p0 o)]
  []
  [(1, 0, 0); (0, 1, 0); (0, 0, 1)]
  [[tm 1 0]; [tm 1 1]; [tm 1 2]].

(* autocode/int3c2e.c:470 *)
Definition f_2e_int3c2e_ig1 := mkg "CINTgout2e_int3c2e_ig1" K2 2
  [GX CI false 1 0 (mka p0 p0 p0 o)]
  [[rij 0]; [rij 1]; [rij 2]]
  [(1, 0, 0); (0, 1, 0); (0, 0, 1)]
  [[tc (-1) 1 2; tc 1 2 1]; [tc (-1) 2 0; tc 1 0 2]; [tc (-1) 0 1; tc 1 1 0]].

(* autocode/int3c2e.c:597 *)
Definition f_2e_int3c2e_spsp1 := mkg "CINTgout2e_int3c2e_spsp1" K2 4
  [GD CJ 1 0 (mka p1 p0 p0 o); GD CI 2 0 (mka p0 p0 p0 o); GD CI 3 1 (mka p0 p0 p0 o)]
  []
  [(3, 0, 0); (2, 1, 0); (2, 0, 1); (1, 2, 0); (0, 3, 0); (0, 2, 1); (1, 0, 2); (0, 1, 2); (0, 0, 3)]
  [[tm 1 5; tm (-1) 7]; [tm 1 6; tm (-1) 2]; [tm 1 1; tm (-1) 3]; [tm 1 0; tm 1 4; tm 1 8]].

(* autocode/int3c2e.c:668 *)
Definition f_2e_int3c2e_ipspsp1 := mkg "CINTgout2e_int3c2e_ipspsp1" K2 8
  [GD CJ 1 0 (mka p2 p0 p0 o); GD CI 2 0 (mka p1 p0 p0 o); GD CI 3 1 (mka p1 p0 p0 o); GD CI 4 0 (mka p0 p0 p0 o);
  GD CI 5 1 (mka p0 p0 p0 o); GD CI 6 2 (mka p0 p0 p0 o); GD CI 7 3 (mka p0 p0 p0 o)]
  []
  [(7, 0, 0); (6, 1, 0); (6, 0, 1); (5, 2, 0); (4, 3, 0); (4, 2, 1); (5, 0, 2); (4, 1, 2); (4, 0, 3); (3, 4, 0);
  (2, 5, 0); (2, 4, 1); (1, 6, 0); (0, 7, 0); (0, 6, 1); (1, 4, 2); (0, 5, 2); (0, 4, 3); (3, 0, 4); (2, 1, 4);
  (2, 0, 5); (1, 2, 4); (0, 3, 4); (0, 2, 5); (1, 0, 6); (0, 1, 6); (0, 0, 7)]
  [[tm 1 11; tm (-1) 19]; [tm 1 18; tm (-1) 2]; [tm 1 1; tm (-1) 9]; [tm 1 0; tm 1 10; tm 1 20];
  [tm 1 14; tm (-1) 22]; [tm 1 21; tm (-1) 5]; [tm 1 4; tm (-1) 12]; [tm 1 3; tm 1 13; tm 1 23];
  [tm 1 17; tm (-1) 25]; [tm 1 24; tm (-1) 8]; [tm 1 7; tm (-1) 15]; [tm 1 6; tm 1 16; tm 1 26]].

(* autocode/int3c2e.c:781 *)
Definition f_2e_int3c2e_spsp1ip2 := mkg "CINTgout2e_int3c2e_spsp1ip2" K2 8
  [GD CK 1 0 (mka p1 p1 p0 o); GD CJ 2 0 (mka p1 p0 p0 o); GD CJ 3 1 (mka p1 p0 p0 o); GD CI 4 0 (mka p0 p0 p0 o);
  GD CI 5 1 (mka p0 p0 p0 o); GD CI 6 2 (mka p0 p0 p0 o); GD CI 7 3 (mka p0 p0 p0 o)]
  []
  [(7, 0, 0); (6, 1, 0); (6, 0, 1); (5, 2, 0); (4, 3, 0); (4, 2, 1); (5, 0, 2); (4, 1, 2); (4, 0, 3); (3, 4, 0);
  (2, 5, 0); (2, 4, 1); (1, 6, 0); (0, 7, 0); (0, 6, 1); (1, 4, 2); (0, 5, 2); (0, 4, 3); (3, 0, 4); (2, 1, 4);
  (2, 0, 5); (1, 2, 4); (0, 3, 4); (0, 2, 5); (1, 0, 6); (0, 1, 6); (0, 0, 7)]
  [[tm 1 15; tm (-1) 21]; [tm 1 18; tm (-1) 6]; [tm 1 3; tm (-1) 9]; [tm 1 0; tm 1 12; tm 1 24];
  [tm 1 16; tm (-1) 22]; [tm 1 19; tm (-1) 7]; [tm 1 4; tm (-1) 10]; [tm 1 1; tm 1 13; tm 1 25];
  [tm 1 17; tm (-1) 23]; [tm 1 20; tm (-1) 8]; [tm 1 5; tm (-1) 11]; [tm 1 2; tm 1 14; tm 1 26]].

(* autocode/int3c2e.c:894 *)
Definition f_2e_int3c2e_ipip1 := mkg "CINTgout2e_int3c2e_ipip1" K2 4
  [GD CI 1 0 (mka p1 p0 p0 o); GD CI 2 0 (mka p0 p0 p0 o); GD CI 3 1 (mka p0 p0 p0 o)]
  []
  [(3, 0, 0); (2, 1, 0); (2, 0, 1); (1, 2, 0); (0, 3, 0); (0, 2, 1); (1, 0, 2); (0, 1, 2); (0, 0, 3)]
  [[tm 1 0]; [tm 1 3]; [tm 1 6]; [tm 1 1]; [tm 1 4]; [tm 1 7]; [tm 1 2]; [tm 1 5]; [tm 1 8]].

(* autocode/int3c2e.c:975 *)
Definition f_2e_int3c2e_ipip2 := mkg "CINTgout2e_int3c2e_ipip2" K2 4
  [GD CK 1 0 (mka p0 p0 p1 o); GD CK 2 0 (mka p0 p0 p0 o); GD CK 3 1 (mka p0 p0 p0 o)]
  []
  [(3, 0, 0); (2, 1, 0); (2, 0, 1); (1, 2, 0); (0, 3, 0); (0, 2, 1); (1, 0, 2); (0, 1, 2); (0, 0, 3)]
  [[tm 1 0]; [tm 1 3]; [tm 1 6]; [tm 1 1]; [tm 1 4]; [tm 1 7]; [tm 1 2]; [tm 1 5]; [tm 1 8]].

(* autocode/int3c2e.c:1056 *)
Definition f_2e_int3c2e_ipvip1 := mkg "CINTgout2e_int3c2e_ipvip1" K2 4
  [GD CJ 1 0 (mka p1 p0 p0 o); GD CI 2 0 (mka p0 p0 p0 o); GD CI 3 1 (mka p0 p0 p0 o)]
  []
  [(3, 0, 0); (2, 1, 0); (2, 0, 1); (1, 2, 0); (0, 3, 0); (0, 2, 1); (1, 0, 2); (0, 1, 2); (0, 0, 3)]
  [[tm 1 0]; [tm 1 1]; [tm 1 2]; [tm 1 3]; [tm 1 4]; [tm 1 5]; [tm 1 6]; [tm 1 7]; [tm 1 8]].

(* autocode/int3c2e.c:1137 *)
Definition f_2e_int3c2e_ip1ip2 := mkg "CINTgout2e_int3c2e_ip1ip2" K2 4
  [GD CK 1 0 (mka p1 p0 p0 o); GD CI 2 0 (mka p0 p0 p0 o); GD CI 3 1 (mka p0 p0 p0 o)]
  []
  [(3, 0, 0); (2, 1, 0); (2, 0, 1); (1, 2, 0); (0, 3, 0); (0, 2, 1); (1, 0, 2); (0, 1, 2); (0, 0, 3)]
  [[tm 1 0]; [tm 1 1]; [tm 1 2]; [tm 1 3]; [tm 1 4]; [tm 1 5]; [tm 1 6]; [tm 1 7]; [tm 1 8]].

(* autocode/int3c2e.c:1218 *)
Definition f_2e_int2c2e_ipip1 := mkg "CINTgout2e_int2c2e_ipip1" K2 4
  [GD CI 1 0 (mka p1 o p0 o); GD CI 2 0 (mka p0 o p0 o); GD CI 3 1 (mka p0 o p0 o)]
  []
  [(3, 0, 0); (2, 1, 0); (2, 0, 1); (1, 2, 0); (0, 3, 0); (0, 2, 1); (1, 0, 2); (0, 1, 2); (0, 0, 3)]
  [[tm 1 0]; [tm 1 3]; [tm 1 6]; [tm 1 1]; [tm 1 4]; [tm 1 7]; [tm 1 2]; [tm 1 5]; [tm 1 8]].

(* autocode/int3c2e.c:1296 *)
Definition f_2e_int2c2e_ip1ip2 := mkg "CINTgout2e_int2c2e_ip1ip2" K2 4
  [GD CK 1 0 (mka p1 o p0 o); GD CI 2 0 (mka p0 o p0 o); GD CI 3 1 (mka p0 o p0 o)]
  []
  [(3, 0, 0); (2, 1, 0); (2, 0, 1); (1, 2, 0); (0, 3, 0); (0, 2, 1); (1, 0, 2); (0, 1, 2); (0, 0, 3)]
  [[tm 1 0]; [tm 1 1]; [tm 1 2]; [tm 1 3]; [tm 1 4]; [tm 1 5]; [tm 1 6]; [tm 1 7]; [tm 1 8]].

(* autocode/intor1.c:18 *)
Definition f_1e_int1e_kin := mkg "CINTgout1e_int1e_kin" K1 4
  [GD CJ 1 0 (mka p0 p0 o o); GD CJ 2 0 (mka p0 p1 o o); GD CJ 3 2 (mka p0 p0 o o)]
  []
  [(3, 0, 0); (2, 1, 0); (2, 0, 1); (1, 2, 0); (0, 3, 0); (0, 2, 1); (1, 0, 2); (0, 1, 2); (0, 0, 3)]
  [[tm (-1) 0; tm (-1) 4; tm (-1) 8]].

(* autocode/intor1.c:81 *)
Definition f_1e_int1e_ia01p := mkg "CINTgout1e_int1e_ia01p" K2 4
  [GD CJ 1 0 (mka p0 p0 o o); GD CJ 2 0 (mka p0 p1 o o); GD CI 3 0 (mka p0 p1 o o); GSum 2 3;
  GD CJ 3 2 (mka p0 p0 o o)]
  []
  [(3, 0, 0); (2, 1, 0); (2, 0, 1); (1, 2, 0); (0, 3, 0); (0, 2, 1); (1, 0, 2); (0, 1, 2); (0, 0, 3)]
  [[tm 1 5; tm (-1) 7]; [tm 1 6; tm (-1) 2]; [tm 1 1; tm (-1) 3]].

(* autocode/intor1.c:151 *)
Definition f_1e_int1e_giao_irjxp := mkg "CINTgout1e_int1e_giao_irjxp" K1 4
  [GD CJ 1 0 (mka p0 p0 o o); GShift CJ 2 0; GD CJ 3 2 (mka p0 p0 o o)]
  []
  [(3, 0, 0); (2, 1, 0); (2, 0, 1); (1, 2, 0); (0, 3, 0); (0, 2, 1); (1, 0, 2); (0, 1, 2); (0, 0, 3)]
  [[tm 1 5; tm (-1) 7]; [tm 1 6; tm (-1) 2]; [tm 1 1; tm (-1) 3]].

(* autocode/intor1.c:215 *)
Definition f_1e_int1e_cg_irxp := mkg "CINTgout1e_int1e_cg_irxp" K1 4
  [GD CJ 1 0 (mka p0 p0 o o); GX CJ true 2 0 (mka p0 p1 o o); GD CJ 3 2 (mka p0 p0 o o)]
  []
  [(3, 0, 0); (2, 1, 0); (2, 0, 1); (1, 2, 0); (0, 3, 0); (0, 2, 1); (1, 0, 2); (0, 1, 2); (0, 0, 3)]
  [[tm 1 5; tm (-1) 7]; [tm 1 6; tm (-1) 2]; [tm 1 1; tm (-1) 3]].

(* autocode/intor1.c:283 *)
Definition f_1e_int1e_giao_a11part := mkg "CINTgout1e_int1e_giao_a11part" K2 4
  [GShift CJ 1 0; GD CJ 2 0 (mka p0 p1 o o); GD CI 3 0 (mka p0 p1 o o); GSum 2 3; GShift CJ 3 2]
  []
  [(3, 0, 0); (2, 1, 0); (2, 0, 1); (1, 2, 0); (0, 3, 0); (0, 2, 1); (1, 0, 2); (0, 1, 2); (0, 0, 3)]
  [[tm 1 0]; [tm 1 1]; [tm 1 2]; [tm 1 3]; [tm 1 4]; [tm 1 5]; [tm 1 6]; [tm 1 7]; [tm 1 8]].

(* autocode/intor1.c:368 *)
Definition f_1e_int1e_cg_a11part := mkg "CINTgout1e_int1e_cg_a11part" K2 4
  [GX CJ true 1 0 (mka p0 p0 o o); GD CJ 2 0 (mka p0 p1 o o); GD CI 3 0 (mka p0 p1 o o); GSum 2 3;
  GX CJ true 3 2 (mka p0 p0 o o)]
  []
  [(3, 0, 0); (2, 1, 0); (2, 0, 1); (1, 2, 0); (0, 3, 0); (0, 2, 1); (1, 0, 2); (0, 1, 2); (0, 0, 3)]
  [[tm 1 0]; [tm 1 1]; [tm 1 2]; [tm 1 3]; [tm 1 4]; [tm 1 5]; [tm 1 6]; [tm 1 7]; [tm 1 8]].

(* autocode/intor1.c:457 *)
Definition f_1e_int1e_a01gp := mkg "CINTgout1e_int1e_a01gp" K2 8
  [GD CJ 1 0 (mka p2 p0 o o); GD CJ 2 0 (mka p1 p1 o o); GD CI 3 0 (mka p1 p1 o o); GSum 2 3;
  GD CJ 3 2 (mka p2 p0 o o); GX CI false 4 0 (mka p0 p0 o o); GX CI false 5 1 (mka p0 p0 o o);
  GX CI false 6 2 (mka p0 p0 o o); GX CI false 7 3 (mka p0 p0 o o)]
  [[rij 0]; [rij 1]; [rij 2]]
  [(7, 0, 0); (6, 1, 0); (6, 0, 1); (5, 2, 0); (4, 3, 0); (4, 2, 1); (5, 0, 2); (4, 1, 2); (4, 0, 3); (3, 4, 0);
  (2, 5, 0); (2, 4, 1); (1, 6, 0); (0, 7, 0); (0, 6, 1); (1, 4, 2); (0, 5, 2); (0, 4, 3); (3, 0, 4); (2, 1, 4);
  (2, 0, 5); (1, 2, 4); (0, 3, 4); (0, 2, 5); (1, 0, 6); (0, 1, 6); (0, 0, 7)]
  [[tc 1 1 23; tc (-1) 2 14; tc (-1) 1 25; tc 1 2 16]; [tc 1 1 24; tc (-1) 2 15; tc (-1) 1 20; tc 1 2 11];
  [tc 1 1 19; tc (-1) 2 10; tc (-1) 1 21; tc 1 2 12]; [tc 1 2 5; tc (-1) 0 23; tc (-1) 2 7; tc 1 0 25];
  [tc 1 2 6; tc (-1) 0 24; tc (-1) 2 2; tc 1 0 20]; [tc 1 2 1; tc (-1) 0 19; tc (-1) 2 3; tc 1 0 21];
  [tc 1 0 14; tc (-1) 1 5; tc (-1) 0 16; tc 1 1 7]; [tc 1 0 15; tc (-1) 1 6; tc (-1) 0 11; tc 1 1 2];
  [tc 1 0 10; tc (-1) 1 1; tc (-1) 0 12; tc 1 1 3]].

(* autocode/intor1.c:611 *)
Definition f_1e_int1e_igkin := mkg "CINTgout1e_int1e_igkin" K1 8
  [GD CJ 1 0 (mka p1 p0 o o); GD CJ 2 0 (mka p1 p1 o o); GD CJ 3 2 (mka p1 p0 o o); GX CI false 4 0 (mka p0 p0 o o);
  GX CI false 5 1 (mka p0 p0 o o); GX CI false 6 2 (mka p0 p0 o o); GX CI false 7 3 (mka p0 p0 o o)]
  [[rij 0]; [rij 1]; [rij 2]]
  [(7, 0, 0); (6, 1, 0); (6, 0, 1); (5, 2, 0); (4, 3, 0); (4, 2, 1); (5, 0, 2); (4, 1, 2); (4, 0, 3); (3, 4, 0);
  (2, 5, 0); (2, 4, 1); (1, 6, 0); (0, 7, 0); (0, 6, 1); (1, 4, 2); (0, 5, 2); (0, 4, 3); (3, 0, 4); (2, 1, 4);
  (2, 0, 5); (1, 2, 4); (0, 3, 4); (0, 2, 5); (1, 0, 6); (0, 1, 6); (0, 0, 7)]
  [[tc 1 1 18; tc (-1) 2 9; tc 1 1 22; tc (-1) 2 13; tc 1 1 26; tc (-1) 2 17];
  [tc 1 2 0; tc (-1) 0 18; tc 1 2 4; tc (-1) 0 22; tc 1 2 8; tc (-1) 0 26];
  [tc 1 0 9; tc (-1) 1 0; tc 1 0 13; tc (-1) 1 4; tc 1 0 17; tc (-1) 1 8]].

(* autocode/intor1.c:747 *)
Definition f_1e_int1e_igovlp := mkg "CINTgout1e_int1e_igovlp" K1 2
  [GX CI false 1 0 (mka p0 p0 o o)]
  [[rij 0]; [rij 1]; [rij 2]]
  [(1, 0, 0); (0, 1, 0); (0, 0, 1)]
  [[tc (-1) 1 2; tc 1 2 1]; [tc (-1) 2 0; tc 1 0 2]; [tc (-1) 0 1; tc 1 1 0]].

(* autocode/intor1.c:847 *)
Definition f_1e_int1e_ignuc := mkg "CINTgout1e_int1e_ignuc" K2 2
  [GX CI false 1 0 (mka p0 p0 o o)]
  [[rij 0]; [rij 1]; [rij 2]]
  [(1, 0, 0); (0, 1, 0); (0, 0, 1)]
  [[tc (-1) 1 2; tc 1 2 1]; [tc (-1) 2 0; tc 1 0 2]; [tc (-1) 0 1; tc 1 1 0]].

(* autocode/intor1.c:951 *)
Definition f_1e_int1e_pnucp := mkg "CINTgout1e_int1e_pnucp" K2 4
  [GD CJ 1 0 (mka p1 p0 o o); GD CI 2 0 (mka p0 p0 o o); GD CI 3 1 (mka p0 p0 o o)]
  []
  [(3, 0, 0); (2, 1, 0); (2, 0, 1); (1, 2, 0); (0, 3, 0); (0, 2, 1); (1, 0, 2); (0, 1, 2); (0, 0, 3)]
  [[tm 1 0; tm 1 4; tm 1 8]].

(* autocode/intor1.c:1015 *)
Definition f_1e_int1e_z := mkg "CINTgout1e_int1e_z" K1 2
  [GX CJ true 1 0 (mka p0 p0 o o)]
  []
  [(1, 0, 0); (0, 1, 0); (0, 0, 1)]
  [[tm 1 2]].

(* autocode/intor1.c:1069 *)
Definition f_1e_int1e_zz := mkg "CINTgout1e_int1e_zz" K1 4
  [GX CJ true 1 0 (mka p0 p0 o o); GX CJ true 2 0 (mka p0 p1 o o); GX CJ true 3 2 (mka p0 p0 o o)]
  []
  [(3, 0, 0); (2, 1, 0); (2, 0, 1); (1, 2, 0); (0, 3, 0); (0, 2, 1); (1, 0, 2); (0, 1, 2); (0, 0, 3)]
  [[tm 1 8]].

(* autocode/intor1.c:1133 *)
Definition f_1e_int1e_r := mkg "CINTgout1e_int1e_r" K1 2
  [GX CJ true 1 0 (mka p0 p0 o o)]
  []
  [(1, 0, 0); (0, 1, 0); (0, 0, 1)]
  [[tm 1 0]; [tm 1 1]; [tm 1 2]].

(* autocode/intor1.c:1191 *)
Definition f_1e_int1e_r2 := mkg "CINTgout1e_int1e_r2" K1 4
  [GX CJ true 1 0 (mka p0 p0 o o); GX CJ true 2 0 (mka p0 p1 o o); GX CJ true 3 2 (mka p0 p0 o o)]
  []
  [(3, 0, 0); (2, 1, 0); (2, 0, 1); (1, 2, 0); (0, 3, 0); (0, 2, 1); (1, 0, 2); (0, 1, 2); (0, 0, 3)]
  [[tm 1 0; tm 1 4; tm 1 8]].

(* autocode/intor1.c:1255 *)
Definition f_1e_int1e_r4 := mkg "CINTgout1e_int1e_r4" K1 16
  [GX CJ true 1 0 (mka p0 p0 o o); GX CJ true 2 0 (mka p0 p1 o o); GX CJ true 3 2 (mka p0 p0 o o);
  GX CJ true 4 0 (mka p0 p2 o o); GX CJ true 5 4 (mka p0 p0 o o); GX CJ true 6 4 (mka p0 p1 o o);
  GX CJ true 7 6 (mka p0 p0 o o); GX CJ true 8 0 (mka p0 p3 o o); GX CJ true 9 8 (mka p0 p0 o o);
  GX CJ true 10 8 (mka p0 p1 o o); GX CJ true 11 10 (mka p0 p0 o o); GX CJ true 12 8 (mka p0 p2 o o);
  GX CJ true 13 12 (mka p0 p0 o o); GX CJ true 14 12 (mka p0 p1 o o); GX CJ true 15 14 (mka p0 p0 o o)]
  []
  [(15, 0, 0); (14, 1, 0); (14, 0, 1); (13, 2, 0); (12, 3, 0); (12, 2, 1); (13, 0, 2); (12, 1, 2); (12, 0, 3);
  (11, 4, 0); (10, 5, 0); (10, 4, 1); (9, 6, 0); (8, 7, 0); (8, 6, 1); (9, 4, 2); (8, 5, 2); (8, 4, 3); (11, 0, 4);
  (10, 1, 4); (10, 0, 5); (9, 2, 4); (8, 3, 4); (8, 2, 5); (9, 0, 6); (8, 1, 6); (8, 0, 7); (7, 8, 0); (6, 9, 0);
  (6, 8, 1); (5, 10, 0); (4, 11, 0); (4, 10, 1); (5, 8, 2); (4, 9, 2); (4, 8, 3); (3, 12, 0); (2, 13, 0); (2, 12, 1);
  (1, 14, 0); (0, 15, 0); (0, 14, 1); (1, 12, 2); (0, 13, 2); (0, 12, 3); (3, 8, 4); (2, 9, 4); (2, 8, 5);
  (1, 10, 4); (0, 11, 4); (0, 10, 5); (1, 8, 6); (0, 9, 6); (0, 8, 7); (7, 0, 8); (6, 1, 8); (6, 0, 9); (5, 2, 8);
  (4, 3, 8); (4, 2, 9); (5, 0, 10); (4, 1, 10); (4, 0, 11); (3, 4, 8); (2, 5, 8); (2, 4, 9); (1, 6, 8); (0, 7, 8);
  (0, 6, 9); (1, 4, 10); (0, 5, 10); (0, 4, 11); (3, 0, 12); (2, 1, 12); (2, 0, 13); (1, 2, 12); (0, 3, 12);
  (0, 2, 13); (1, 0, 14); (0, 1, 14); (0, 0, 15)]
  [[tm 1 0; tm 2 4; tm 2 8; tm 1 40; tm 2 44; tm 1 80]].

(* autocode/intor1.c:1415 *)
Definition f_1e_int1e_rr := mkg "CINTgout1e_int1e_rr" K1 4
  [GX CJ true 1 0 (mka p0 p0 o o); GX CJ true 2 0 (mka p0 p1 o o); GX CJ true 3 2 (mka p0 p0 o o)]
  []
  [(3, 0, 0); (2, 1, 0); (2, 0, 1); (1, 2, 0); (0, 3, 0); (0, 2, 1); (1, 0, 2); (0, 1, 2); (0, 0, 3)]
  [[tm 1 0]; [tm 1 1]; [tm 1 2]; [tm 1 3]; [tm 1 4]; [tm 1 5]; [tm 1 6]; [tm 1 7]; [tm 1 8]].

(* autocode/intor1.c:1495 *)
Definition f_1e_int1e_rrr := mkg "CINTgout1e_int1e_rrr" K1 8
  [GX CJ true 1 0 (mka p0 p0 o o); GX CJ true 2 0 (mka p0 p1 o o); GX CJ true 3 2 (mka p0 p0 o o);
  GX CJ true 4 0 (mka p0 p2 o o); GX CJ true 5 4 (mka p0 p0 o o); GX CJ true 6 4 (mka p0 p1 o o);
  GX CJ true 7 6 (mka p0 p0 o o)]
  []
  [(7, 0, 0); (6, 1, 0); (6, 0, 1); (5, 2, 0); (4, 3, 0); (4, 2, 1); (5, 0, 2); (4, 1, 2); (4, 0, 3); (3, 4, 0);
  (2, 5, 0); (2, 4, 1); (1, 6, 0); (0, 7, 0); (0, 6, 1); (1, 4, 2); (0, 5, 2); (0, 4, 3); (3, 0, 4); (2, 1, 4);
  (2, 0, 5); (1, 2, 4); (0, 3, 4); (0, 2, 5); (1, 0, 6); (0, 1, 6); (0, 0, 7)]
  [[tm 1 0]; [tm 1 1]; [tm 1 2]; [tm 1 3]; [tm 1 4]; [tm 1 5]; [tm 1 6]; [tm 1 7]; [tm 1 8]; [tm 1 9]; [tm 1 10];
  [tm 1 11]; [tm 1 12]; [tm 1 13]; [tm 1 14]; [tm 1 15]; [tm 1 16]; [tm 1 17]; [tm 1 18]; [tm 1 19]; [tm 1 20];
  [tm 1 21]; [tm 1 22]; [tm 1 23]; [tm 1 24]; [tm 1 25]; [tm 1 26]].

(* autocode/intor1.c:1637 *)
Definition f_1e_int1e_rrrr := mkg "CINTgout1e_int1e_rrrr" K1 16
  [GX CJ true 1 0 (mka p0 p0 o o); GX CJ true 2 0 (mka p0 p1 o o); GX CJ true 3 2 (mka p0 p0 o o);
  GX CJ true 4 0 (mka p0 p2 o o); GX CJ true 5 4 (mka p0 p0 o o); GX CJ true 6 4 (mka p0 p1 o o);
  GX CJ true 7 6 (mka p0 p0 o o); GX CJ true 8 0 (mka p0 p3 o o); GX CJ true 9 8 (mka p0 p0 o o);
  GX CJ true 10 8 (mka p0 p1 o o); GX CJ true 11 10 (mka p0 p0 o o); GX CJ true 12 8 (mka p0 p2 o o);
  GX CJ true 13 12 (mka p0 p0 o o); GX CJ true 14 12 (mka p0 p1 o o); GX CJ true 15 14 (mka p0 p0 o o)]
  []
  [(15, 0, 0); (14, 1, 0); (14, 0, 1); (13, 2, 0); (12, 3, 0); (12, 2, 1); (13, 0, 2); (12, 1, 2); (12, 0, 3);
  (11, 4, 0); (10, 5, 0); (10, 4, 1); (9, 6, 0); (8, 7, 0); (8, 6, 1); (9, 4, 2); (8, 5, 2); (8, 4, 3); (11, 0, 4);
  (10, 1, 4); (10, 0, 5); (9, 2, 4); (8, 3, 4); (8, 2, 5); (9, 0, 6); (8, 1, 6); (8, 0, 7); (7, 8, 0); (6, 9, 0);
  (6, 8, 1); (5, 10, 0); (4, 11, 0); (4, 10, 1); (5, 8, 2); (4, 9, 2); (4, 8, 3); (3, 12, 0); (2, 13, 0); (2, 12, 1);
  (1, 14, 0); (0, 15, 0); (0, 14, 1); (1, 12, 2); (0, 13, 2); (0, 12, 3); (3, 8, 4); (2, 9, 4); (2, 8, 5);
  (1, 10, 4); (0, 11, 4); (0, 10, 5); (1, 8, 6); (0, 9, 6); (0, 8, 7); (7, 0, 8); (6, 1, 8); (6, 0, 9); (5, 2, 8);
  (4, 3, 8); (4, 2, 9); (5, 0, 10); (4, 1, 10); (4, 0, 11); (3, 4, 8); (2, 5, 8); (2, 4, 9); (1, 6, 8); (0, 7, 8);
  (0, 6, 9); (1, 4, 10); (0, 5, 10); (0, 4, 11); (3, 0, 12); (2, 1, 12); (2, 0, 13); (1, 2, 12); (0, 3, 12);
  (0, 2, 13); (1, 0, 14); (0, 1, 14); (0, 0, 15)]
  [[tm 1 0]; [tm 1 1]; [tm 1 2]; [tm 1 3]; [tm 1 4]; [tm 1 5]; [tm 1 6]; [tm 1 7]; [tm 1 8]; [tm 1 9]; [tm 1 10];
  [tm 1 11]; [tm 1 12]; [tm 1 13]; [tm 1 14]; [tm 1 15]; [tm 1 16]; [tm 1 17]; [tm 1 18]; [tm 1 19]; [tm 1 20];
  [tm 1 21]; [tm 1 22]; [tm 1 23]; [tm 1 24]; [tm 1 25]; [tm 1 26]; [tm 1 27]; [tm 1 28]; [tm 1 29]; [tm 1 30];
  [tm 1 31]; [tm 1 32]; [tm 1 33]; [tm 1 34]; [tm 1 35]; [tm 1 36]; [tm 1 37]; [tm 1 38]; [tm 1 39]; [tm 1 40];
  [tm 1 41]; [tm 1 42]; [tm 1 43]; [tm 1 44]; [tm 1 45]; [tm 1 46]; [tm 1 47]; [tm 1 48]; [tm 1 49]; [tm 1 50];
  [tm 1 51]; [tm 1 52]; [tm 1 53]; [tm 1 54]; [tm 1 55]; [tm 1 56]; [tm 1 57]; [tm 1 58]; [tm 1 59]; [tm 1 60];
  [tm 1 61]; [tm 1 62]; [tm 1 63]; [tm 1 64]; [tm 1 65]; [tm 1 66]; [tm 1 67]; [tm 1 68]; [tm 1 69]; [tm 1 70];
  [tm 1 71]; [tm 1 72]; [tm 1 73]; [tm 1 74]; [tm 1 75]; [tm 1 76]; [tm 1 77]; [tm 1 78]; [tm 1 79]; [tm 1 80]].

(* autocode/intor1.c:1957 *)
Definition f_1e_int1e_z_origj := mkg "CINTgout1e_int1e_z_origj" K1 2
  [GShift CJ 1 0]
  []
  [(1, 0, 0); (0, 1, 0); (0, 0, 1)]
  [[tm 1 2]].

(* autocode/intor1.c:2007 *)
Definition f_1e_int1e_zz_origj := mkg "CINTgout1e_int1e_zz_origj" K1 4
  [GShift CJ 1 0; GShift CJ 2 0; GShift CJ 3 2]
  []
  [(3, 0, 0); (2, 1, 0); (2, 0, 1); (1, 2, 0); (0, 3, 0); (0, 2, 1); (1, 0, 2); (0, 1, 2); (0, 0, 3)]
  [[tm 1 8]].

(* autocode/intor1.c:2067 *)
Definition f_1e_int1e_r_origj := mkg "CINTgout1e_int1e_r_origj" K1 2
  [GShift CJ 1 0]
  []
  [(1, 0, 0); (0, 1, 0); (0, 0, 1)]
  [[tm 1 0]; [tm 1 1]; [tm 1 2]].

(* autocode/intor1.c:2121 *)
Definition f_1e_int1e_rr_origj := mkg "CINTgout1e_int1e_rr_origj" K1 4
  [GShift CJ 1 0; GShift CJ 2 0; GShift CJ 3 2]
  []
  [(3, 0, 0); (2, 1, 0); (2, 0, 1); (1, 2, 0); (0, 3, 0); (0, 2, 1); (1, 0, 2); (0, 1, 2); (0, 0, 3)]
  [[tm 1 0]; [tm 1 1]; [tm 1 2]; [tm 1 3]; [tm 1 4]; [tm 1 5]; [tm 1 6]; [tm 1 7]; [tm 1 8]].

(* autocode/intor1.c:2197 *)
Definition f_1e_int1e_r2_origj := mkg "CINTgout1e_int1e_r2_origj" K1 4
  [GShift CJ 1 0; GShift CJ 2 0; GShift CJ 3 2]
  []
  [(3, 0, 0); (2, 1, 0); (2, 0, 1); (1, 2, 0); (0, 3, 0); (0, 2, 1); (1, 0, 2); (0, 1, 2); (0, 0, 3)]
  [[tm 1 0; tm 1 4; tm 1 8]].

(* autocode/intor1.c:2257 *)
Definition f_1e_int1e_r4_origj := mkg "CINTgout1e_int1e_r4_origj" K1 16
  [GShift CJ 1 0; GShift CJ 2 0; GShift CJ 3 2; GShift CJ 4 0; GShift CJ 5 4; GShift CJ 6 4; GShift CJ 7 6;
  GShift CJ 8 0; GShift CJ 9 8; GShift CJ 10 8; GShift CJ 11 10; GShift CJ 12 8; GShift CJ 13 12; GShift CJ 14 12;
  GShift CJ 15 14]
  []
  [(15, 0, 0); (14, 1, 0); (14, 0, 1); (13, 2, 0); (12, 3, 0); (12, 2, 1); (13, 0, 2); (12, 1, 2); (12, 0, 3);
  (11, 4, 0); (10, 5, 0); (10, 4, 1); (9, 6, 0); (8, 7, 0); (8, 6, 1); (9, 4, 2); (8, 5, 2); (8, 4, 3); (11, 0, 4);
  (10, 1, 4); (10, 0, 5); (9, 2, 4); (8, 3, 4); (8, 2, 5); (9, 0, 6); (8, 1, 6); (8, 0, 7); (7, 8, 0); (6, 9, 0);
  (6, 8, 1); (5, 10, 0); (4, 11, 0); (4, 10, 1); (5, 8, 2); (4, 9, 2); (4, 8, 3); (3, 12, 0); (2, 13, 0); (2, 12, 1);
  (1, 14, 0); (0, 15, 0); (0, 14, 1); (1, 12, 2); (0, 13, 2); (0, 12, 3); (3, 8, 4); (2, 9, 4); (2, 8, 5);
  (1, 10, 4); (0, 11, 4); (0, 10, 5); (1, 8, 6); (0, 9, 6); (0, 8, 7); (7, 0, 8); (6, 1, 8); (6, 0, 9); (5, 2, 8);
  (4, 3, 8); (4, 2, 9); (5, 0, 10); (4, 1, 10); (4, 0, 11); (3, 4, 8); (2, 5, 8); (2, 4, 9); (1, 6, 8); (0, 7, 8);
  (0, 6, 9); (1, 4, 10); (0, 5, 10); (0, 4, 11); (3, 0, 12); (2, 1, 12); (2, 0, 13); (1, 2, 12); (0, 3, 12);
  (0, 2, 13); (1, 0, 14); (0, 1, 14); (0, 0, 15)]
  [[tm 1 0; tm 2 4; tm 2 8; tm 1 40; tm 2 44; tm 1 80]].

(* autocode/intor1.c:2413 *)
Definition f_1e_int1e_p4 := mkg "CINTgout1e_int1e_p4" K1 16
  [GD CJ 1 0 (mka p2 p0 o o); GD CJ 2 0 (mka p2 p1 o o); GD CJ 3 2 (mka p2 p0 o o); GD CI 4 0 (mka p1 p0 o o);
  GD CI 5 1 (mka p1 p0 o o); GD CI 6 2 (mka p1 p0 o o); GD CI 7 3 (mka p1 p0 o o); GD CI 8 0 (mka p0 p0 o o);
  GD CI 9 1 (mka p0 p0 o o); GD CI 10 2 (mka p0 p0 o o); GD CI 11 3 (mka p0 p0 o o); GD CI 12 4 (mka p0 p0 o o);
  GD CI 13 5 (mka p0 p0 o o); GD CI 14 6 (mka p0 p0 o o); GD CI 15 7 (mka p0 p0 o o)]
  []
  [(15, 0, 0); (14, 1, 0); (14, 0, 1); (13, 2, 0); (12, 3, 0); (12, 2, 1); (13, 0, 2); (12, 1, 2); (12, 0, 3);
  (11, 4, 0); (10, 5, 0); (10, 4, 1); (9, 6, 0); (8, 7, 0); (8, 6, 1); (9, 4, 2); (8, 5, 2); (8, 4, 3); (11, 0, 4);
  (10, 1, 4); (10, 0, 5); (9, 2, 4); (8, 3, 4); (8, 2, 5); (9, 0, 6); (8, 1, 6); (8, 0, 7); (7, 8, 0); (6, 9, 0);
  (6, 8, 1); (5, 10, 0); (4, 11, 0); (4, 10, 1); (5, 8, 2); (4, 9, 2); (4, 8, 3); (3, 12, 0); (2, 13, 0); (2, 12, 1);
  (1, 14, 0); (0, 15, 0); (0, 14, 1); (1, 12, 2); (0, 13, 2); (0, 12, 3); (3, 8, 4); (2, 9, 4); (2, 8, 5);
  (1, 10, 4); (0, 11, 4); (0, 10, 5); (1, 8, 6); (0, 9, 6); (0, 8, 7); (7, 0, 8); (6, 1, 8); (6, 0, 9); (5, 2, 8);
  (4, 3, 8); (4, 2, 9); (5, 0, 10); (4, 1, 10); (4, 0, 11); (3, 4, 8); (2, 5, 8); (2, 4, 9); (1, 6, 8); (0, 7, 8);
  (0, 6, 9); (1, 4, 10); (0, 5, 10); (0, 4, 11); (3, 0, 12); (2, 1, 12); (2, 0, 13); (1, 2, 12); (0, 3, 12);
  (0, 2, 13); (1, 0, 14); (0, 1, 14); (0, 0, 15)]
  [[tm 1 0; tm 2 4; tm 2 8; tm 1 40; tm 2 44; tm 1 80]].

(* autocode/intor1.c:2569 *)
Definition f_1e_int1e_prinvp := mkg "CINTgout1e_int1e_prinvp" K2 4
  [GD CJ 1 0 (mka p1 p0 o o); GD CI 2 0 (mka p0 p0 o o); GD CI 3 1 (mka p0 p0 o o)]
  []
  [(3, 0, 0); (2, 1, 0); (2, 0, 1); (1, 2, 0); (0, 3, 0); (0, 2, 1); (1, 0, 2); (0, 1, 2); (0, 0, 3)]
  [[tm 1 0; tm 1 4; tm 1 8]].

(* autocode/intor1.c:2633 *)
Definition f_1e_int1e_prinvxp := mkg "CINTgout1e_int1e_prinvxp" K2 4
  [GD CJ 1 0 (mka p1 p0 o o); GD CI 2 0 (mka p0 p0 o o); GD CI 3 1 (mka p0 p0 o o)]
  []
  [(3, 0, 0); (2, 1, 0); (2, 0, 1); (1, 2, 0); (0, 3, 0); (0, 2, 1); (1, 0, 2); (0, 1, 2); (0, 0, 3)]
  [[tm 1 5; tm (-1) 7]; [tm 1 6; tm (-1) 2]; [tm 1 1; tm (-1) 3]].

(* autocode/intor1.c:2701 *)
Definition f_1e_int1e_pnucxp := mkg "CINTgout1e_int1e_pnucxp" K2 4
  [GD CJ 1 0 (mka p1 p0 o o); GD CI 2 0 (mka p0 p0 o o); GD CI 3 1 (mka p0 p0 o o)]
  []
  [(3, 0, 0); (2, 1, 0); (2, 0, 1); (1, 2, 0); (0, 3, 0); (0, 2, 1); (1, 0, 2); (0, 1, 2); (0, 0, 3)]
  [[tm 1 5; tm (-1) 7]; [tm 1 6; tm (-1) 2]; [tm 1 1; tm (-1) 3]].

(* autocode/intor1.c:2769 *)
Definition f_1e_int1e_irp := mkg "CINTgout1e_int1e_irp" K1 4
  [GD CJ 1 0 (mka p0 p0 o o); GX CJ true 2 0 (mka p0 p1 o o); GD CJ 3 2 (mka p0 p0 o o)]
  []
  [(3, 0, 0); (2, 1, 0); (2, 0, 1); (1, 2, 0); (0, 3, 0); (0, 2, 1); (1, 0, 2); (0, 1, 2); (0, 0, 3)]
  [[tm 1 0]; [tm 1 1]; [tm 1 2]; [tm 1 3]; [tm 1 4]; [tm 1 5]; [tm 1 6]; [tm 1 7]; [tm 1 8]].

(* autocode/intor1.c:2849 *)
Definition f_1e_int1e_irrp := mkg "CINTgout1e_int1e_irrp" K1 8
  [GD CJ 1 0 (mka p0 p0 o o); GX CJ true 2 0 (mka p0 p1 o o); GD CJ 3 2 (mka p0 p0 o o);
  GX CJ true 4 0 (mka p0 p2 o o); GD CJ 5 4 (mka p0 p0 o o); GX CJ true 6 4 (mka p0 p1 o o);
  GD CJ 7 6 (mka p0 p0 o o)]
  []
  [(7, 0, 0); (6, 1, 0); (6, 0, 1); (5, 2, 0); (4, 3, 0); (4, 2, 1); (5, 0, 2); (4, 1, 2); (4, 0, 3); (3, 4, 0);
  (2, 5, 0); (2, 4, 1); (1, 6, 0); (0, 7, 0); (0, 6, 1); (1, 4, 2); (0, 5, 2); (0, 4, 3); (3, 0, 4); (2, 1, 4);
  (2, 0, 5); (1, 2, 4); (0, 3, 4); (0, 2, 5); (1, 0, 6); (0, 1, 6); (0, 0, 7)]
  [[tm 1 0]; [tm 1 1]; [tm 1 2]; [tm 1 3]; [tm 1 4]; [tm 1 5]; [tm 1 6]; [tm 1 7]; [tm 1 8]; [tm 1 9]; [tm 1 10];
  [tm 1 11]; [tm 1 12]; [tm 1 13]; [tm 1 14]; [tm 1 15]; [tm 1 16]; [tm 1 17]; [tm 1 18]; [tm 1 19]; [tm 1 20];
  [tm 1 21]; [tm 1 22]; [tm 1 23]; [tm 1 24]; [tm 1 25]; [tm 1 26]].

(* autocode/intor1.c:2991 *)
Definition f_1e_int1e_irpr := mkg "CINTgout1e_int1e_irpr" K1 8
  [GX CJ true 1 0 (mka p0 p0 o o); GD CJ 2 0 (mka p0 p1 o o); GX CJ true 3 2 (mka p0 p0 o o);
  GX CJ true 4 0 (mka p0 p2 o o); GX CJ true 5 4 (mka p0 p0 o o); GD CJ 6 4 (mka p0 p1 o o);
  GX CJ true 7 6 (mka p0 p0 o o)]
  []
  [(7, 0, 0); (6, 1, 0); (6, 0, 1); (5, 2, 0); (4, 3, 0); (4, 2, 1); (5, 0, 2); (4, 1, 2); (4, 0, 3); (3, 4, 0);
  (2, 5, 0); (2, 4, 1); (1, 6, 0); (0, 7, 0); (0, 6, 1); (1, 4, 2); (0, 5, 2); (0, 4, 3); (3, 0, 4); (2, 1, 4);
  (2, 0, 5); (1, 2, 4); (0, 3, 4); (0, 2, 5); (1, 0, 6); (0, 1, 6); (0, 0, 7)]
  [[tm 1 0]; [tm 1 1]; [tm 1 2]; [tm 1 3]; [tm 1 4]; [tm 1 5]; [tm 1 6]; [tm 1 7]; [tm 1 8]; [tm 1 9]; [tm 1 10];
  [tm 1 11]; [tm 1 12]; [tm 1 13]; [tm 1 14]; [tm 1 15]; [tm 1 16]; [tm 1 17]; [tm 1 18]; [tm 1 19]; [tm 1 20];
  [tm 1 21]; [tm 1 22]; [tm 1 23]; [tm 1 24]; [tm 1 25]; [tm 1 26]].

(* autocode/intor1.c:3133 *)
Definition f_1e_int1e_ggovlp := mkg "CINTgout1e_int1e_ggovlp" K1 4
  [GX CJ false 1 0 (mka p0 p0 o o); GX CJ false 2 0 (mka p0 p1 o o); GX CJ false 3 2 (mka p0 p0 o o)]
  [[rij 0; rij 0]; [rij 0; rij 1]; [rij 0; rij 2]; [rij 1; rij 0]; [rij 1; rij 1]; [rij 1; rij 2]; [rij 2; rij 0];
  [rij 2; rij 1]; [rij 2; rij 2]]
  [(3, 0, 0); (2, 1, 0); (2, 0, 1); (1, 2, 0); (0, 3, 0); (0, 2, 1); (1, 0, 2); (0, 1, 2); (0, 0, 3)]
  [[tc (-1) 4 8; tc 2 5 7; tc (-1) 8 4]; [tc (-1) 5 6; tc 1 8 3; tc 1 3 8; tc (-1) 6 5];
  [tc (-1) 3 7; tc 1 6 4; tc 1 4 6; tc (-1) 7 3]; [tc (-1) 7 2; tc 1 1 8; tc 1 8 1; tc (-1) 2 7];
  [tc (-1) 8 0; tc 2 6 2; tc (-1) 0 8]; [tc (-1) 6 1; tc 1 0 7; tc 1 7 0; tc (-1) 1 6];
  [tc (-1) 1 5; tc 1 4 2; tc 1 2 4; tc (-1) 5 1]; [tc (-1) 2 3; tc 1 5 0; tc 1 0 5; tc (-1) 3 2];
  [tc (-1) 0 4; tc 2 1 3; tc (-1) 4 0]].

(* autocode/intor1.c:3225 *)
Definition f_1e_int1e_ggkin := mkg "CINTgout1e_int1e_ggkin" K1 16
  [GD CJ 1 0 (mka p0 p0 o o); GD CJ 2 0 (mka p0 p1 o o); GD CJ 3 2 (mka p0 p0 o o); GX CJ false 4 0 (mka p0 p2 o o);
  GD CJ 5 4 (mka p0 p0 o o); GD CJ 6 4 (mka p0 p1 o o); GD CJ 7 6 (mka p0 p0 o o); GX CJ false 8 0 (mka p0 p3 o o);
  GD CJ 9 8 (mka p0 p0 o o); GD CJ 10 8 (mka p0 p1 o o); GD CJ 11 10 (mka p0 p0 o o);
  GX CJ false 12 8 (mka p0 p2 o o); GD CJ 13 12 (mka p0 p0 o o); GD CJ 14 12 (mka p0 p1 o o);
  GD CJ 15 14 (mka p0 p0 o o)]
  [[rij 0; rij 0]; [rij 0; rij 1]; [rij 0; rij 2]; [rij 1; rij 0]; [rij 1; rij 1]; [rij 1; rij 2]; [rij 2; rij 0];
  [rij 2; rij 1]; [rij 2; rij 2]]
  [(15, 0, 0); (14, 1, 0); (14, 0, 1); (13, 2, 0); (12, 3, 0); (12, 2, 1); (13, 0, 2); (12, 1, 2); (12, 0, 3);
  (11, 4, 0); (10, 5, 0); (10, 4, 1); (9, 6, 0); (8, 7, 0); (8, 6, 1); (9, 4, 2); (8, 5, 2); (8, 4, 3); (11, 0, 4);
  (10, 1, 4); (10, 0, 5); (9, 2, 4); (8, 3, 4); (8, 2, 5); (9, 0, 6); (8, 1, 6); (8, 0, 7); (7, 8, 0); (6, 9, 0);
  (6, 8, 1); (5, 10, 0); (4, 11, 0); (4, 10, 1); (5, 8, 2); (4, 9, 2); (4, 8, 3); (3, 12, 0); (2, 13, 0); (2, 12, 1);
  (1, 14, 0); (0, 15, 0); (0, 14, 1); (1, 12, 2); (0, 13, 2); (0, 12, 3); (3, 8, 4); (2, 9, 4); (2, 8, 5);
  (1, 10, 4); (0, 11, 4); (0, 10, 5); (1, 8, 6); (0, 9, 6); (0, 8, 7); (7, 0, 8); (6, 1, 8); (6, 0, 9); (5, 2, 8);
  (4, 3, 8); (4, 2, 9); (5, 0, 10); (4, 1, 10); (4, 0, 11); (3, 4, 8); (2, 5, 8); (2, 4, 9); (1, 6, 8); (0, 7, 8);
  (0, 6, 9); (1, 4, 10); (0, 5, 10); (0, 4, 11); (3, 0, 12); (2, 1, 12); (2, 0, 13); (1, 2, 12); (0, 3, 12);
  (0, 2, 13); (1, 0, 14); (0, 1, 14); (0, 0, 15)]
  [[tc 1 4 72; tc (-2) 5 63; tc 1 8 36; tc 1 4 76; tc (-2) 5 67; tc 1 8 40; tc 1 4 80; tc (-2) 5 71; tc 1 8 44];
  [tc 1 5 54; tc (-1) 8 27; tc (-1) 3 72; tc 1 6 45; tc 1 5 58; tc (-1) 8 31; tc (-1) 3 76; tc 1 6 49; tc 1 5 62; tc (-1) 8 35; tc (-1) 3 80; tc 1 6 53];
  [tc 1 3 63; tc (-1) 6 36; tc (-1) 4 54; tc 1 7 27; tc 1 3 67; tc (-1) 6 40; tc (-1) 4 58; tc 1 7 31; tc 1 3 71; tc (-1) 6 44; tc (-1) 4 62; tc 1 7 35];
  [tc 1 7 18; tc (-1) 1 72; tc (-1) 8 9; tc 1 2 63; tc 1 7 22; tc (-1) 1 76; tc (-1) 8 13; tc 1 2 67; tc 1 7 26; tc (-1) 1 80; tc (-1) 8 17; tc 1 2 71];
  [tc 1 8 0; tc (-2) 6 18; tc 1 0 72; tc 1 8 4; tc (-2) 6 22; tc 1 0 76; tc 1 8 8; tc (-2) 6 26; tc 1 0 80];
  [tc 1 6 9; tc (-1) 0 63; tc (-1) 7 0; tc 1 1 54; tc 1 6 13; tc (-1) 0 67; tc (-1) 7 4; tc 1 1 58; tc 1 6 17; tc (-1) 0 71; tc (-1) 7 8; tc 1 1 62];
  [tc 1 1 45; tc (-1) 4 18; tc (-1) 2 36; tc 1 5 9; tc 1 1 49; tc (-1) 4 22; tc (-1) 2 40; tc 1 5 13; tc 1 1 53; tc (-1) 4 26; tc (-1) 2 44; tc 1 5 17];
  [tc 1 2 27; tc (-1) 5 0; tc (-1) 0 45; tc 1 3 18; tc 1 2 31; tc (-1) 5 4; tc (-1) 0 49; tc 1 3 22; tc 1 2 35; tc (-1) 5 8; tc (-1) 0 53; tc 1 3 26];
  [tc 1 0 36; tc (-2) 1 27; tc 1 4 0; tc 1 0 40; tc (-2) 1 31; tc 1 4 4; tc 1 0 44; tc (-2) 1 35; tc 1 4 8]].

(* autocode/intor1.c:3413 *)
Definition f_1e_int1e_ggnuc := mkg "CINTgout1e_int1e_ggnuc" K2 4
  [GX CJ false 1 0 (mka p0 p0 o o); GX CJ false 2 0 (mka p0 p1 o o); GX CJ false 3 2 (mka p0 p0 o o)]
  [[rij 0; rij 0]; [rij 0; rij 1]; [rij 0; rij 2]; [rij 1; rij 0]; [rij 1; rij 1]; [rij 1; rij 2]; [rij 2; rij 0];
  [rij 2; rij 1]; [rij 2; rij 2]]
  [(3, 0, 0); (2, 1, 0); (2, 0, 1); (1, 2, 0); (0, 3, 0); (0, 2, 1); (1, 0, 2); (0, 1, 2); (0, 0, 3)]
  [[tc (-1) 4 8; tc 2 5 7; tc (-1) 8 4]; [tc (-1) 5 6; tc 1 8 3; tc 1 3 8; tc (-1) 6 5];
  [tc (-1) 3 7; tc 1 6 4; tc 1 4 6; tc (-1) 7 3]; [tc (-1) 7 2; tc 1 1 8; tc 1 8 1; tc (-1) 2 7];
  [tc (-1) 8 0; tc 2 6 2; tc (-1) 0 8]; [tc (-1) 6 1; tc 1 0 7; tc 1 7 0; tc (-1) 1 6];
  [tc (-1) 1 5; tc 1 4 2; tc 1 2 4; tc (-1) 5 1]; [tc (-1) 2 3; tc 1 5 0; tc 1 0 5; tc (-1) 3 2];
  [tc (-1) 0 4; tc 2 1 3; tc (-1) 4 0]].

(* autocode/intor1.c:3509 *)
Definition f_1e_int1e_grjxp := mkg "CINTgout1e_int1e_grjxp" K1 8
  [GD CJ 1 0 (mka p0 p0 o o); GShift CJ 2 0; GD CJ 3 2 (mka p0 p0 o o); GX CJ false 4 0 (mka p0 p2 o o);
  GD CJ 5 4 (mka p0 p0 o o); GShift CJ 6 4; GD CJ 7 6 (mka p0 p0 o o)]
  [[rij 0]; [rij 1]; [rij 2]]
  [(7, 0, 0); (6, 1, 0); (6, 0, 1); (5, 2, 0); (4, 3, 0); (4, 2, 1); (5, 0, 2); (4, 1, 2); (4, 0, 3); (3, 4, 0);
  (2, 5, 0); (2, 4, 1); (1, 6, 0); (0, 7, 0); (0, 6, 1); (1, 4, 2); (0, 5, 2); (0, 4, 3); (3, 0, 4); (2, 1, 4);
  (2, 0, 5); (1, 2, 4); (0, 3, 4); (0, 2, 5); (1, 0, 6); (0, 1, 6); (0, 0, 7)]
  [[tc 1 1 23; tc (-1) 2 14; tc (-1) 1 25; tc 1 2 16]; [tc 1 1 24; tc (-1) 2 15; tc (-1) 1 20; tc 1 2 11];
  [tc 1 1 19; tc (-1) 2 10; tc (-1) 1 21; tc 1 2 12]; [tc 1 2 5; tc (-1) 0 23; tc (-1) 2 7; tc 1 0 25];
  [tc 1 2 6; tc (-1) 0 24; tc (-1) 2 2; tc 1 0 20]; [tc 1 2 1; tc (-1) 0 19; tc (-1) 2 3; tc 1 0 21];
  [tc 1 0 14; tc (-1) 1 5; tc (-1) 0 16; tc 1 1 7]; [tc 1 0 15; tc (-1) 1 6; tc (-1) 0 11; tc 1 1 2];
  [tc 1 0 10; tc (-1) 1 1; tc (-1) 0 12; tc 1 1 3]].

(* autocode/intor1.c:3621 *)
Definition f_1e_int1e_rinv := mkg "CINTgout1e_int1e_rinv" K2 1
  []
  []
  [(0, 0, 0)]
  [[tm 1 0]].

(* autocode/intor1.c:3671 *)
Definition f_1e_int1e_drinv := mkg "CINTgout1e_int1e_drinv" K2 3
  [GD CJ 1 0 (mka p0 p0 o o); GD CI 2 0 (mka p0 p0 o o); GSum 1 2]
  []
  [(1, 0, 0); (0, 1, 0); (0, 0, 1)]
  [[tm 1 0]; [tm 1 1]; [tm 1 2]].

(* autocode/intor2.c:19 *)
Definition f_2e_int2e_ig1 := mkg "CINTgout2e_int2e_ig1" K2 2
  [GX CI false 1 0 (mka p0 p0 p0 p0)]
  [[rij 0]; [rij 1]; [rij 2]]
  [(1, 0, 0); (0, 1, 0); (0, 0, 1)]
  [[tc (-1) 1 2; tc 1 2 1]; [tc (-1) 2 0; tc 1 0 2]; [tc (-1) 0 1; tc 1 1 0]].

(* autocode/intor2.c:148 *)
Definition f_2e_int2e_gg1 := mkg "CINTgout2e_int2e_gg1" K2 4
  [GX CI false 1 0 (mka p1 p0 p0 p0); GX CI false 2 0 (mka p0 p0 p0 p0); GX CI false 3 1 (mka p0 p0 p0 p0)]
  [[rij 0; rij 0]; [rij 0; rij 1]; [rij 0; rij 2]; [rij 1; rij 0]; [rij 1; rij 1]; [rij 1; rij 2]; [rij 2; rij 0];
  [rij 2; rij 1]; [rij 2; rij 2]]
  [(3, 0, 0); (2, 1, 0); (2, 0, 1); (1, 2, 0); (0, 3, 0); (0, 2, 1); (1, 0, 2); (0, 1, 2); (0, 0, 3)]
  [[tc (-1) 4 8; tc 2 5 7; tc (-1) 8 4]; [tc (-1) 7 2; tc 1 1 8; tc 1 8 1; tc (-1) 2 7];
  [tc (-1) 1 5; tc 1 4 2; tc 1 2 4; tc (-1) 5 1]; [tc (-1) 5 6; tc 1 8 3; tc 1 3 8; tc (-1) 6 5];
  [tc (-1) 8 0; tc 2 6 2; tc (-1) 0 8]; [tc (-1) 2 3; tc 1 5 0; tc 1 0 5; tc (-1) 3 2];
  [tc (-1) 3 7; tc 1 6 4; tc 1 4 6; tc (-1) 7 3]; [tc (-1) 6 1; tc 1 0 7; tc 1 7 0; tc (-1) 1 6];
  [tc (-1) 0 4; tc 2 1 3; tc (-1) 4 0]].

(* autocode/intor2.c:283 *)
Definition f_2e_int2e_g1g2 := mkg "CINTgout2e_int2e_g1g2" K2 4
  [GX CK false 1 0 (mka p1 p0 p0 p0); GX CI false 2 0 (mka p0 p0 p0 p0); GX CI false 3 1 (mka p0 p0 p0 p0)]
  [[rij 0; rkl 0]; [rij 0; rkl 1]; [rij 0; rkl 2]; [rij 1; rkl 0]; [rij 1; rkl 1]; [rij 1; rkl 2]; [rij 2; rkl 0];
  [rij 2; rkl 1]; [rij 2; rkl 2]]
  [(3, 0, 0); (2, 1, 0); (2, 0, 1); (1, 2, 0); (0, 3, 0); (0, 2, 1); (1, 0, 2); (0, 1, 2); (0, 0, 3)]
  [[tc 1 4 8; tc (-1) 7 5; tc (-1) 5 7; tc 1 8 4]; [tc 1 5 6; tc (-1) 8 3; tc (-1) 3 8; tc 1 6 5];
  [tc 1 3 7; tc (-1) 6 4; tc (-1) 4 6; tc 1 7 3]; [tc 1 7 2; tc (-1) 1 8; tc (-1) 8 1; tc 1 2 7];
  [tc 1 8 0; tc (-1) 2 6; tc (-1) 6 2; tc 1 0 8]; [tc 1 6 1; tc (-1) 0 7; tc (-1) 7 0; tc 1 1 6];
  [tc 1 1 5; tc (-1) 4 2; tc (-1) 2 4; tc 1 5 1]; [tc 1 2 3; tc (-1) 5 0; tc (-1) 0 5; tc 1 3 2];
  [tc 1 0 4; tc (-1) 3 1; tc (-1) 1 3; tc 1 4 0]].

(* autocode/intor2.c:452 *)
Definition f_2e_int2e_p1vxp1 := mkg "CINTgout2e_int2e_p1vxp1" K2 4
  [GD CJ 1 0 (mka p1 p0 p0 p0); GD CI 2 0 (mka p0 p0 p0 p0); GD CI 3 1 (mka p0 p0 p0 p0)]
  []
  [(3, 0, 0); (2, 1, 0); (2, 0, 1); (1, 2, 0); (0, 3, 0); (0, 2, 1); (1, 0, 2); (0, 1, 2); (0, 0, 3)]
  [[tm 1 5; tm (-1) 7]; [tm 1 6; tm (-1) 2]; [tm 1 1; tm (-1) 3]].

(* autocode/intor2.c:522 *)
Definition f_2e_int2e_ip1v_rc1 := mkg "CINTgout2e_int2e_ip1v_rc1" K2 4
  [GX CJ true 1 0 (mka p0 p0 p0 p0); GD CJ 2 0 (mka p0 p1 p0 p0); GD CI 3 0 (mka p0 p1 p0 p0); GSum 2 3;
  GX CJ true 3 2 (mka p0 p0 p0 p0)]
  []
  [(3, 0, 0); (2, 1, 0); (2, 0, 1); (1, 2, 0); (0, 3, 0); (0, 2, 1); (1, 0, 2); (0, 1, 2); (0, 0, 3)]
  [[tm 1 0]; [tm 1 1]; [tm 1 2]; [tm 1 3]; [tm 1 4]; [tm 1 5]; [tm 1 6]; [tm 1 7]; [tm 1 8]].

(* autocode/intor2.c:610 *)
Definition f_2e_int2e_ip1v_r1 := mkg "CINTgout2e_int2e_ip1v_r1" K2 4
  [GShift CJ 1 0; GD CJ 2 0 (mka p0 p1 p0 p0); GD CI 3 0 (mka p0 p1 p0 p0); GSum 2 3; GShift CJ 3 2]
  []
  [(3, 0, 0); (2, 1, 0); (2, 0, 1); (1, 2, 0); (0, 3, 0); (0, 2, 1); (1, 0, 2); (0, 1, 2); (0, 0, 3)]
  [[tm 1 0]; [tm 1 1]; [tm 1 2]; [tm 1 3]; [tm 1 4]; [tm 1 5]; [tm 1 6]; [tm 1 7]; [tm 1 8]].

(* autocode/intor2.c:694 *)
Definition f_2e_int2e_ipvg1_xp1 := mkg "CINTgout2e_int2e_ipvg1_xp1" K2 8
  [GD CJ 1 0 (mka p2 p0 p0 p0); GD CJ 2 0 (mka p1 p1 p0 p0); GD CI 3 0 (mka p1 p1 p0 p0); GSum 2 3;
  GD CJ 3 2 (mka p2 p0 p0 p0); GX CI false 4 0 (mka p0 p0 p0 p0); GX CI false 5 1 (mka p0 p0 p0 p0);
  GX CI false 6 2 (mka p0 p0 p0 p0); GX CI false 7 3 (mka p0 p0 p0 p0)]
  [[rij 0]; [rij 1]; [rij 2]]
  [(7, 0, 0); (6, 1, 0); (6, 0, 1); (5, 2, 0); (4, 3, 0); (4, 2, 1); (5, 0, 2); (4, 1, 2); (4, 0, 3); (3, 4, 0);
  (2, 5, 0); (2, 4, 1); (1, 6, 0); (0, 7, 0); (0, 6, 1); (1, 4, 2); (0, 5, 2); (0, 4, 3); (3, 0, 4); (2, 1, 4);
  (2, 0, 5); (1, 2, 4); (0, 3, 4); (0, 2, 5); (1, 0, 6); (0, 1, 6); (0, 0, 7)]
  [[tc 1 1 23; tc (-1) 2 14; tc (-1) 1 25; tc 1 2 16]; [tc 1 1 24; tc (-1) 2 15; tc (-1) 1 20; tc 1 2 11];
  [tc 1 1 19; tc (-1) 2 10; tc (-1) 1 21; tc 1 2 12]; [tc 1 2 5; tc (-1) 0 23; tc (-1) 2 7; tc 1 0 25];
  [tc 1 2 6; tc (-1) 0 24; tc (-1) 2 2; tc 1 0 20]; [tc 1 2 1; tc (-1) 0 19; tc (-1) 2 3; tc 1 0 21];
  [tc 1 0 14; tc (-1) 1 5; tc (-1) 0 16; tc 1 1 7]; [tc 1 0 15; tc (-1) 1 6; tc (-1) 0 11; tc 1 1 2];
  [tc 1 0 10; tc (-1) 1 1; tc (-1) 0 12; tc 1 1 3]].

(* autocode/intor2.c:851 *)
Definition f_2e_int2e_ipvg2_xp1 := mkg "CINTgout2e_int2e_ipvg2_xp1" K2 8
  [GX CK false 1 0 (mka p1 p1 p0 p0); GD CJ 2 0 (mka p1 p0 p0 p0); GD CJ 3 1 (mka p1 p0 p0 p0);
  GD CJ 4 0 (mka p0 p1 p0 p0); GD CI 5 0 (mka p0 p1 p0 p0); GSum 4 5; GD CJ 5 1 (mka p0 p1 p0 p0);
  GD CI 6 1 (mka p0 p1 p0 p0); GSum 5 6; GD CJ 6 4 (mka p1 p0 p0 p0); GD CJ 7 5 (mka p1 p0 p0 p0)]
  [[rkl 0]; [rkl 1]; [rkl 2]]
  [(7, 0, 0); (6, 1, 0); (6, 0, 1); (5, 2, 0); (4, 3, 0); (4, 2, 1); (5, 0, 2); (4, 1, 2); (4, 0, 3); (3, 4, 0);
  (2, 5, 0); (2, 4, 1); (1, 6, 0); (0, 7, 0); (0, 6, 1); (1, 4, 2); (0, 5, 2); (0, 4, 3); (3, 0, 4); (2, 1, 4);
  (2, 0, 5); (1, 2, 4); (0, 3, 4); (0, 2, 5); (1, 0, 6); (0, 1, 6); (0, 0, 7)]
  [[tc (-1) 1 17; tc 1 1 23; tc 1 2 16; tc (-1) 2 22]; [tc (-1) 2 15; tc 1 2 21; tc 1 0 17; tc (-1) 0 23];
  [tc (-1) 0 16; tc 1 0 22; tc 1 1 15; tc (-1) 1 21]; [tc (-1) 1 20; tc 1 1 8; tc 1 2 19; tc (-1) 2 7];
  [tc (-1) 2 18; tc 1 2 6; tc 1 0 20; tc (-1) 0 8]; [tc (-1) 0 19; tc 1 0 7; tc 1 1 18; tc (-1) 1 6];
  [tc (-1) 1 5; tc 1 1 11; tc 1 2 4; tc (-1) 2 10]; [tc (-1) 2 3; tc 1 2 9; tc 1 0 5; tc (-1) 0 11];
  [tc (-1) 0 4; tc 1 0 10; tc 1 1 3; tc (-1) 1 9]].

(* autocode/intor2.c:1009 *)
Definition f_1e_int1e_inuc_rcxp := mkg "CINTgout1e_int1e_inuc_rcxp" K2 4
  [GD CJ 1 0 (mka p0 p0 o o); GX CJ true 2 0 (mka p0 p1 o o); GD CJ 3 2 (mka p0 p0 o o)]
  []
  [(3, 0, 0); (2, 1, 0); (2, 0, 1); (1, 2, 0); (0, 3, 0); (0, 2, 1); (1, 0, 2); (0, 1, 2); (0, 0, 3)]
  [[tm 1 5; tm (-1) 7]; [tm 1 6; tm (-1) 2]; [tm 1 1; tm (-1) 3]].

(* autocode/intor2.c:1081 *)
Definition f_1e_int1e_inuc_rxp := mkg "CINTgout1e_int1e_inuc_rxp" K2 4
  [GD CJ 1 0 (mka p0 p0 o o); GShift CJ 2 0; GD CJ 3 2 (mka p0 p0 o o)]
  []
  [(3, 0, 0); (2, 1, 0); (2, 0, 1); (1, 2, 0); (0, 3, 0); (0, 2, 1); (1, 0, 2); (0, 1, 2); (0, 0, 3)]
  [[tm 1 5; tm (-1) 7]; [tm 1 6; tm (-1) 2]; [tm 1 1; tm (-1) 3]].

(* autocode/intor3.c:18 *)
Definition f_1e_int1e_sigma := mkg "CINTgout1e_int1e_sigma" K1 1
  []
  []
  [(0, 0, 0)]
  [[tm (-1) 0]; []; []; []; []; [tm (-1) 0]; []; []; []; []; [tm (-1) 0]; []].

(* autocode/intor3.c:86 *)
Definition f_1e_int1e_spsigmasp := mkg "CINTgout1e_int1e_spsigmasp" K1 4
  [GD CJ 1 0 (mka p1 p0 o o); GD CI 2 0 (mka p0 p0 o o); GD CI 3 1 (mka p0 p0 o o)]
  []
  [(3, 0, 0); (2, 1, 0); (2, 0, 1); (1, 2, 0); (0, 3, 0); (0, 2, 1); (1, 0, 2); (0, 1, 2); (0, 0, 3)]
  [[tm (-1) 0; tm 1 8; tm 1 4]; [tm (-2) 3]; [tm (-2) 6]; []; [tm (-2) 1]; [tm (-1) 4; tm 1 0; tm 1 8]; [tm (-2) 7];
  []; [tm (-2) 2]; [tm (-2) 5]; [tm (-1) 8; tm 1 4; tm 1 0]; []].

(* autocode/intor3.c:168 *)
Definition f_1e_int1e_srsr := mkg "CINTgout1e_int1e_srsr" K1 4
  [GShift CJ 1 0; GShift CI 2 0; GShift CI 3 1]
  []
  [(3, 0, 0); (2, 1, 0); (2, 0, 1); (1, 2, 0); (0, 3, 0); (0, 2, 1); (1, 0, 2); (0, 1, 2); (0, 0, 3)]
  [[tm 1 5; tm (-1) 7]; [tm 1 6; tm (-1) 2]; [tm 1 1; tm (-1) 3]; [tm 1 0; tm 1 4; tm 1 8]].

(* autocode/intor3.c:234 *)
Definition f_1e_int1e_sr := mkg "CINTgout1e_int1e_sr" K1 2
  [GShift CI 1 0]
  []
  [(1, 0, 0); (0, 1, 0); (0, 0, 1)]
  [[tm (-1) 0]; [tm (-1) 1]; [tm (-1) 2]; []].

(* autocode/intor3.c:290 *)
Definition f_1e_int1e_srsp := mkg "CINTgout1e_int1e_srsp" K1 4
  [GD CJ 1 0 (mka p1 p0 o o); GShift CI 2 0; GShift CI 3 1]
  []
  [(3, 0, 0); (2, 1, 0); (2, 0, 1); (1, 2, 0); (0, 3, 0); (0, 2, 1); (1, 0, 2); (0, 1, 2); (0, 0, 3)]
  [[tm (-1) 5; tm 1 7]; [tm (-1) 6; tm 1 2]; [tm (-1) 1; tm 1 3]; [tm (-1) 0; tm (-1) 4; tm (-1) 8]].

(* autocode/intor3.c:356 *)
Definition f_1e_int1e_spsp := mkg "CINTgout1e_int1e_spsp" K1 4
  [GD CJ 1 0 (mka p1 p0 o o); GD CI 2 0 (mka p0 p0 o o); GD CI 3 1 (mka p0 p0 o o)]
  []
  [(3, 0, 0); (2, 1, 0); (2, 0, 1); (1, 2, 0); (0, 3, 0); (0, 2, 1); (1, 0, 2); (0, 1, 2); (0, 0, 3)]
  [[tm 1 0; tm 1 4; tm 1 8]].

(* autocode/intor3.c:416 *)
Definition f_1e_int1e_sp := mkg "CINTgout1e_int1e_sp" K1 2
  [GD CI 1 0 (mka p0 p0 o o)]
  []
  [(1, 0, 0); (0, 1, 0); (0, 0, 1)]
  [[tm 1 0]; [tm 1 1]; [tm 1 2]; []].

(* autocode/intor3.c:472 *)
Definition f_1e_int1e_spnucsp := mkg "CINTgout1e_int1e_spnucsp" K2 4
  [GD CJ 1 0 (mka p1 p0 o o); GD CI 2 0 (mka p0 p0 o o); GD CI 3 1 (mka p0 p0 o o)]
  []
  [(3, 0, 0); (2, 1, 0); (2, 0, 1); (1, 2, 0); (0, 3, 0); (0, 2, 1); (1, 0, 2); (0, 1, 2); (0, 0, 3)]
  [[tm 1 5; tm (-1) 7]; [tm 1 6; tm (-1) 2]; [tm 1 1; tm (-1) 3]; [tm 1 0; tm 1 4; tm 1 8]].

(* autocode/intor3.c:542 *)
Definition f_1e_int1e_sprinvsp := mkg "CINTgout1e_int1e_sprinvsp" K2 4
  [GD CJ 1 0 (mka p1 p0 o o); GD CI 2 0 (mka p0 p0 o o); GD CI 3 1 (mka p0 p0 o o)]
  []
  [(3, 0, 0); (2, 1, 0); (2, 0, 1); (1, 2, 0); (0, 3, 0); (0, 2, 1); (1, 0, 2); (0, 1, 2); (0, 0, 3)]
  [[tm 1 5; tm (-1) 7]; [tm 1 6; tm (-1) 2]; [tm 1 1; tm (-1) 3]; [tm 1 0; tm 1 4; tm 1 8]].

(* autocode/intor3.c:612 *)
Definition f_1e_int1e_srnucsr := mkg "CINTgout1e_int1e_srnucsr" K2 4
  [GShift CJ 1 0; GShift CI 2 0; GShift CI 3 1]
  []
  [(3, 0, 0); (2, 1, 0); (2, 0, 1); (1, 2, 0); (0, 3, 0); (0, 2, 1); (1, 0, 2); (0, 1, 2); (0, 0, 3)]
  [[tm 1 5; tm (-1) 7]; [tm 1 6; tm (-1) 2]; [tm 1 1; tm (-1) 3]; [tm 1 0; tm 1 4; tm 1 8]].

(* autocode/intor3.c:682 *)
Definition f_1e_int1e_sprsp := mkg "CINTgout1e_int1e_sprsp" K1 8
  [GD CJ 1 0 (mka p1 p0 o o); GX CJ true 2 0 (mka p1 p1 o o); GD CJ 3 2 (mka p1 p0 o o); GD CI 4 0 (mka p0 p0 o o);
  GD CI 5 1 (mka p0 p0 o o); GD CI 6 2 (mka p0 p0 o o); GD CI 7 3 (mka p0 p0 o o)]
  []
  [(7, 0, 0); (6, 1, 0); (6, 0, 1); (5, 2, 0); (4, 3, 0); (4, 2, 1); (5, 0, 2); (4, 1, 2); (4, 0, 3); (3, 4, 0);
  (2, 5, 0); (2, 4, 1); (1, 6, 0); (0, 7, 0); (0, 6, 1); (1, 4, 2); (0, 5, 2); (0, 4, 3); (3, 0, 4); (2, 1, 4);
  (2, 0, 5); (1, 2, 4); (0, 3, 4); (0, 2, 5); (1, 0, 6); (0, 1, 6); (0, 0, 7)]
  [[]; [tm 1 18; tm (-1) 2]; [tm 1 1; tm (-1) 9]; [tm 1 0; tm 1 10; tm 1 20]; [tm 1 14; tm (-1) 22]; [];
  [tm 1 4; tm (-1) 12]; [tm 1 3; tm 1 13; tm 1 23]; [tm 1 17; tm (-1) 25]; [tm 1 24; tm (-1) 8]; [];
  [tm 1 6; tm 1 16; tm 1 26]].

(* autocode/intor3.c:794 *)
Definition f_1e_int1e_govlp := mkg "CINTgout1e_int1e_govlp" K1 2
  [GX CI false 1 0 (mka p0 p0 o o)]
  [[rij 0]; [rij 1]; [rij 2]]
  [(1, 0, 0); (0, 1, 0); (0, 0, 1)]
  [[tc 1 1 2; tc (-1) 2 1]; [tc 1 2 0; tc (-1) 0 2]; [tc 1 0 1; tc (-1) 1 0]].

(* autocode/intor3.c:894 *)
Definition f_1e_int1e_gnuc := mkg "CINTgout1e_int1e_gnuc" K2 2
  [GX CI false 1 0 (mka p0 p0 o o)]
  [[rij 0]; [rij 1]; [rij 2]]
  [(1, 0, 0); (0, 1, 0); (0, 0, 1)]
  [[tc 1 1 2; tc (-1) 2 1]; [tc 1 2 0; tc (-1) 0 2]; [tc 1 0 1; tc (-1) 1 0]].

(* autocode/intor3.c:998 *)
Definition f_1e_int1e_cg_sa10sa01 := mkg "CINTgout1e_int1e_cg_sa10sa01" K2 4
  [GD CJ 1 0 (mka p1 p0 o o); GD CI 2 0 (mka p1 p0 o o); GSum 1 2; GX CI true 2 0 (mka p0 p0 o o);
  GX CI true 3 1 (mka p0 p0 o o)]
  []
  [(3, 0, 0); (2, 1, 0); (2, 0, 1); (1, 2, 0); (0, 3, 0); (0, 2, 1); (1, 0, 2); (0, 1, 2); (0, 0, 3)]
  [[tm (-1) 7; tm 1 5]; []; []; [tm 1 8; tm 1 4]; [tm 1 6]; [tm 1 5]; [tm 1 8]; [tm (-1) 3]; [tm (-1) 3];
  [tm (-1) 4]; [tm (-1) 7]; [tm (-1) 6]; [tm (-1) 2]; [tm (-1) 7]; [tm (-1) 8]; [tm (-1) 1]; []; [tm (-1) 2; tm 1 6];
  []; [tm 1 8; tm 1 0]; [tm 1 0]; [tm 1 1]; [tm 1 6]; [tm (-1) 7]; [tm 1 1]; [tm 1 4]; [tm 1 5]; [tm (-1) 2];
  [tm (-1) 0]; [tm (-1) 3]; [tm (-1) 2]; [tm (-1) 5]; []; []; [tm (-1) 3; tm 1 1]; [tm 1 4; tm 1 0]].

(* autocode/intor3.c:1141 *)
Definition f_1e_int1e_cg_sa10sp := mkg "CINTgout1e_int1e_cg_sa10sp" K1 4
  [GD CJ 1 0 (mka p1 p0 o o); GX CI true 2 0 (mka p0 p0 o o); GX CI true 3 1 (mka p0 p0 o o)]
  []
  [(3, 0, 0); (2, 1, 0); (2, 0, 1); (1, 2, 0); (0, 3, 0); (0, 2, 1); (1, 0, 2); (0, 1, 2); (0, 0, 3)]
  [[tm 1 8; tm 1 4]; [tm (-1) 3]; [tm (-1) 6]; [tm 1 7; tm (-1) 5]; [tm (-1) 1]; [tm 1 0; tm 1 8]; [tm (-1) 7];
  [tm (-1) 6; tm 1 2]; [tm (-1) 2]; [tm (-1) 5]; [tm 1 4; tm 1 0]; [tm 1 3; tm (-1) 1]].

(* autocode/intor3.c:1230 *)
Definition f_1e_int1e_cg_sa10nucsp := mkg "CINTgout1e_int1e_cg_sa10nucsp" K2 4
  [GD CJ 1 0 (mka p1 p0 o o); GX CI true 2 0 (mka p0 p0 o o); GX CI true 3 1 (mka p0 p0 o o)]
  []
  [(3, 0, 0); (2, 1, 0); (2, 0, 1); (1, 2, 0); (0, 3, 0); (0, 2, 1); (1, 0, 2); (0, 1, 2); (0, 0, 3)]
  [[tm 1 8; tm 1 4]; [tm (-1) 3]; [tm (-1) 6]; [tm 1 7; tm (-1) 5]; [tm (-1) 1]; [tm 1 0; tm 1 8]; [tm (-1) 7];
  [tm (-1) 6; tm 1 2]; [tm (-1) 2]; [tm (-1) 5]; [tm 1 4; tm 1 0]; [tm 1 3; tm (-1) 1]].

(* autocode/intor3.c:1323 *)
Definition f_1e_int1e_giao_sa10sa01 := mkg "CINTgout1e_int1e_giao_sa10sa01" K2 4
  [GD CJ 1 0 (mka p1 p0 o o); GD CI 2 0 (mka p1 p0 o o); GSum 1 2; GShift CI 2 0; GShift CI 3 1]
  []
  [(3, 0, 0); (2, 1, 0); (2, 0, 1); (1, 2, 0); (0, 3, 0); (0, 2, 1); (1, 0, 2); (0, 1, 2); (0, 0, 3)]
  [[tm (-1) 7; tm 1 5]; []; []; [tm 1 8; tm 1 4]; [tm 1 6]; [tm 1 5]; [tm 1 8]; [tm (-1) 3]; [tm (-1) 3];
  [tm (-1) 4]; [tm (-1) 7]; [tm (-1) 6]; [tm (-1) 2]; [tm (-1) 7]; [tm (-1) 8]; [tm (-1) 1]; []; [tm (-1) 2; tm 1 6];
  []; [tm 1 8; tm 1 0]; [tm 1 0]; [tm 1 1]; [tm 1 6]; [tm (-1) 7]; [tm 1 1]; [tm 1 4]; [tm 1 5]; [tm (-1) 2];
  [tm (-1) 0]; [tm (-1) 3]; [tm (-1) 2]; [tm (-1) 5]; []; []; [tm (-1) 3; tm 1 1]; [tm 1 4; tm 1 0]].

(* autocode/intor3.c:1462 *)
Definition f_1e_int1e_giao_sa10sp := mkg "CINTgout1e_int1e_giao_sa10sp" K1 4
  [GD CJ 1 0 (mka p1 p0 o o); GShift CI 2 0; GShift CI 3 1]
  []
  [(3, 0, 0); (2, 1, 0); (2, 0, 1); (1, 2, 0); (0, 3, 0); (0, 2, 1); (1, 0, 2); (0, 1, 2); (0, 0, 3)]
  [[tm 1 8; tm 1 4]; [tm (-1) 3]; [tm (-1) 6]; [tm 1 7; tm (-1) 5]; [tm (-1) 1]; [tm 1 0; tm 1 8]; [tm (-1) 7];
  [tm (-1) 6; tm 1 2]; [tm (-1) 2]; [tm (-1) 5]; [tm 1 4; tm 1 0]; [tm 1 3; tm (-1) 1]].

(* autocode/intor3.c:1547 *)
Definition f_1e_int1e_giao_sa10nucsp := mkg "CINTgout1e_int1e_giao_sa10nucsp" K2 4
  [GD CJ 1 0 (mka p1 p0 o o); GShift CI 2 0; GShift CI 3 1]
  []
  [(3, 0, 0); (2, 1, 0); (2, 0, 1); (1, 2, 0); (0, 3, 0); (0, 2, 1); (1, 0, 2); (0, 1, 2); (0, 0, 3)]
  [[tm 1 8; tm 1 4]; [tm (-1) 3]; [tm (-1) 6]; [tm 1 7; tm (-1) 5]; [tm (-1) 1]; [tm 1 0; tm 1 8]; [tm (-1) 7];
  [tm (-1) 6; tm 1 2]; [tm (-1) 2]; [tm (-1) 5]; [tm 1 4; tm 1 0]; [tm 1 3; tm (-1) 1]].

(* autocode/intor3.c:1636 *)
Definition f_1e_int1e_sa01sp := mkg "CINTgout1e_int1e_sa01sp" K2 4
  [GD CJ 1 0 (mka p0 p0 o o); GD CJ 2 0 (mka p0 p1 o o); GD CI 3 0 (mka p0 p1 o o); GSum 2 3;
  GD CJ 3 2 (mka p0 p0 o o)]
  []
  [(3, 0, 0); (2, 1, 0); (2, 0, 1); (1, 2, 0); (0, 3, 0); (0, 2, 1); (1, 0, 2); (0, 1, 2); (0, 0, 3)]
  [[tm 1 8; tm 1 4]; [tm (-1) 3]; [tm (-1) 6]; [tm 1 7; tm (-1) 5]; [tm (-1) 1]; [tm 1 0; tm 1 8]; [tm (-1) 7];
  [tm (-1) 6; tm 1 2]; [tm (-1) 2]; [tm (-1) 5]; [tm 1 4; tm 1 0]; [tm 1 3; tm (-1) 1]].

(* autocode/intor3.c:1724 *)
Definition f_1e_int1e_spgsp := mkg "CINTgout1e_int1e_spgsp" K1 8
  [GD CJ 1 0 (mka p2 p0 o o); GX CI false 2 0 (mka p1 p0 o o); GX CI false 3 1 (mka p1 p0 o o);
  GD CI 4 0 (mka p0 p0 o o); GD CI 5 1 (mka p0 p0 o o); GD CI 6 2 (mka p0 p0 o o); GD CI 7 3 (mka p0 p0 o o)]
  [[rij 0]; [rij 1]; [rij 2]]
  [(7, 0, 0); (6, 1, 0); (6, 0, 1); (5, 2, 0); (4, 3, 0); (4, 2, 1); (5, 0, 2); (4, 1, 2); (4, 0, 3); (3, 4, 0);
  (2, 5, 0); (2, 4, 1); (1, 6, 0); (0, 7, 0); (0, 6, 1); (1, 4, 2); (0, 5, 2); (0, 4, 3); (3, 0, 4); (2, 1, 4);
  (2, 0, 5); (1, 2, 4); (0, 3, 4); (0, 2, 5); (1, 0, 6); (0, 1, 6); (0, 0, 7)]
  [[tc 1 1 17; tc (-1) 2 14; tc (-1) 1 25; tc 1 2 22]; [tc 1 1 24; tc (-1) 1 8]; [tc (-1) 2 4; tc 1 2 12];
  [tc 1 1 6; tc (-1) 2 3; tc 1 1 16; tc (-1) 2 13; tc 1 1 26; tc (-1) 2 23]; [tc (-1) 0 17; tc 1 0 25];
  [tc 1 2 18; tc (-1) 0 24; tc (-1) 2 2; tc 1 0 8]; [tc 1 2 1; tc (-1) 2 9];
  [tc 1 2 0; tc (-1) 0 6; tc 1 2 10; tc (-1) 0 16; tc 1 2 20; tc (-1) 0 26]; [tc 1 0 14; tc (-1) 0 22];
  [tc (-1) 1 18; tc 1 1 2]; [tc 1 0 4; tc (-1) 1 1; tc (-1) 0 12; tc 1 1 9];
  [tc 1 0 3; tc (-1) 1 0; tc 1 0 13; tc (-1) 1 10; tc 1 0 23; tc (-1) 1 20]].

(* autocode/intor3.c:1878 *)
Definition f_1e_int1e_spgnucsp := mkg "CINTgout1e_int1e_spgnucsp" K2 8
  [GD CJ 1 0 (mka p2 p0 o o); GX CI false 2 0 (mka p1 p0 o o); GX CI false 3 1 (mka p1 p0 o o);
  GD CI 4 0 (mka p0 p0 o o); GD CI 5 1 (mka p0 p0 o o); GD CI 6 2 (mka p0 p0 o o); GD CI 7 3 (mka p0 p0 o o)]
  [[rij 0]; [rij 1]; [rij 2]]
  [(7, 0, 0); (6, 1, 0); (6, 0, 1); (5, 2, 0); (4, 3, 0); (4, 2, 1); (5, 0, 2); (4, 1, 2); (4, 0, 3); (3, 4, 0);
  (2, 5, 0); (2, 4, 1); (1, 6, 0); (0, 7, 0); (0, 6, 1); (1, 4, 2); (0, 5, 2); (0, 4, 3); (3, 0, 4); (2, 1, 4);
  (2, 0, 5); (1, 2, 4); (0, 3, 4); (0, 2, 5); (1, 0, 6); (0, 1, 6); (0, 0, 7)]
  [[tc 1 1 17; tc (-1) 2 14; tc (-1) 1 25; tc 1 2 22]; [tc 1 1 24; tc (-1) 2 21; tc (-1) 1 8; tc 1 2 5];
  [tc 1 1 7; tc (-1) 2 4; tc (-1) 1 15; tc 1 2 12];
  [tc 1 1 6; tc (-1) 2 3; tc 1 1 16; tc (-1) 2 13; tc 1 1 26; tc (-1) 2 23];
  [tc 1 2 11; tc (-1) 0 17; tc (-1) 2 19; tc 1 0 25]; [tc 1 2 18; tc (-1) 0 24; tc (-1) 2 2; tc 1 0 8];
  [tc 1 2 1; tc (-1) 0 7; tc (-1) 2 9; tc 1 0 15];
  [tc 1 2 0; tc (-1) 0 6; tc 1 2 10; tc (-1) 0 16; tc 1 2 20; tc (-1) 0 26];
  [tc 1 0 14; tc (-1) 1 11; tc (-1) 0 22; tc 1 1 19]; [tc 1 0 21; tc (-1) 1 18; tc (-1) 0 5; tc 1 1 2];
  [tc 1 0 4; tc (-1) 1 1; tc (-1) 0 12; tc 1 1 9];
  [tc 1 0 3; tc (-1) 1 0; tc 1 0 13; tc (-1) 1 10; tc 1 0 23; tc (-1) 1 20]].

(* autocode/intor3.c:2036 *)
Definition f_1e_int1e_spgsa01 := mkg "CINTgout1e_int1e_spgsa01" K2 8
  [GD CJ 1 0 (mka p2 p0 o o); GD CI 2 0 (mka p2 p0 o o); GSum 1 2; GX CI false 2 0 (mka p1 p0 o o);
  GX CI false 3 1 (mka p1 p0 o o); GD CI 4 0 (mka p0 p0 o o); GD CI 5 1 (mka p0 p0 o o); GD CI 6 2 (mka p0 p0 o o);
  GD CI 7 3 (mka p0 p0 o o)]
  [[rij 0]; [rij 1]; [rij 2]]
  [(7, 0, 0); (6, 1, 0); (6, 0, 1); (5, 2, 0); (4, 3, 0); (4, 2, 1); (5, 0, 2); (4, 1, 2); (4, 0, 3); (3, 4, 0);
  (2, 5, 0); (2, 4, 1); (1, 6, 0); (0, 7, 0); (0, 6, 1); (1, 4, 2); (0, 5, 2); (0, 4, 3); (3, 0, 4); (2, 1, 4);
  (2, 0, 5); (1, 2, 4); (0, 3, 4); (0, 2, 5); (1, 0, 6); (0, 1, 6); (0, 0, 7)]
  [[tc (-1) 1 16; tc 1 2 13; tc (-1) 1 26; tc 1 2 23]; [tc 1 1 7; tc (-1) 2 4]; [tc 1 1 8; tc (-1) 2 5];
  [tc 1 1 17; tc (-1) 2 14; tc (-1) 1 25; tc 1 2 22]; [tc 1 1 15; tc (-1) 2 12];
  [tc (-1) 1 26; tc 1 2 23; tc (-1) 1 6; tc 1 2 3]; [tc 1 1 17; tc (-1) 2 14];
  [tc (-1) 1 8; tc 1 2 5; tc 1 1 24; tc (-1) 2 21]; [tc 1 1 24; tc (-1) 2 21]; [tc 1 1 25; tc (-1) 2 22];
  [tc (-1) 1 6; tc 1 2 3; tc (-1) 1 16; tc 1 2 13]; [tc 1 1 7; tc (-1) 2 4; tc (-1) 1 15; tc 1 2 12];
  [tc (-1) 2 10; tc 1 0 16; tc (-1) 2 20; tc 1 0 26]; [tc 1 2 1; tc (-1) 0 7]; [tc 1 2 2; tc (-1) 0 8];
  [tc 1 2 11; tc (-1) 0 17; tc (-1) 2 19; tc 1 0 25]; [tc 1 2 9; tc (-1) 0 15];
  [tc (-1) 2 20; tc 1 0 26; tc (-1) 2 0; tc 1 0 6]; [tc 1 2 11; tc (-1) 0 17];
  [tc (-1) 2 2; tc 1 0 8; tc 1 2 18; tc (-1) 0 24]; [tc 1 2 18; tc (-1) 0 24]; [tc 1 2 19; tc (-1) 0 25];
  [tc (-1) 2 0; tc 1 0 6; tc (-1) 2 10; tc 1 0 16]; [tc 1 2 1; tc (-1) 0 7; tc (-1) 2 9; tc 1 0 15];
  [tc (-1) 0 13; tc 1 1 10; tc (-1) 0 23; tc 1 1 20]; [tc 1 0 4; tc (-1) 1 1]; [tc 1 0 5; tc (-1) 1 2];
  [tc 1 0 14; tc (-1) 1 11; tc (-1) 0 22; tc 1 1 19]; [tc 1 0 12; tc (-1) 1 9];
  [tc (-1) 0 23; tc 1 1 20; tc (-1) 0 3; tc 1 1 0]; [tc 1 0 14; tc (-1) 1 11];
  [tc (-1) 0 5; tc 1 1 2; tc 1 0 21; tc (-1) 1 18]; [tc 1 0 21; tc (-1) 1 18]; [tc 1 0 22; tc (-1) 1 19];
  [tc (-1) 0 3; tc 1 1 0; tc (-1) 0 13; tc 1 1 10]; [tc 1 0 4; tc (-1) 1 1; tc (-1) 0 12; tc 1 1 9]].

(* autocode/intor4.c:19 *)
Definition f_2e_int2e_spsp1 := mkg "CINTgout2e_int2e_spsp1" K2 4
  [GD CJ 1 0 (mka p1 p0 p0 p0); GD CI 2 0 (mka p0 p0 p0 p0); GD CI 3 1 (mka p0 p0 p0 p0)]
  []
  [(3, 0, 0); (2, 1, 0); (2, 0, 1); (1, 2, 0); (0, 3, 0); (0, 2, 1); (1, 0, 2); (0, 1, 2); (0, 0, 3)]
  [[tm 1 5; tm (-1) 7]; [tm 1 6; tm (-1) 2]; [tm 1 1; tm (-1) 3]; [tm 1 0; tm 1 4; tm 1 8]].

(* autocode/intor4.c:91 *)
Definition f_2e_int2e_spsp1spsp2 := mkg "CINTgout2e_int2e_spsp1spsp2" K2 16
  [GD CL 1 0 (mka p1 p1 p1 p0); GD CK 2 0 (mka p1 p1 p0 p0); GD CK 3 1 (mka p1 p1 p0 p0);
  GD CJ 4 0 (mka p1 p0 p0 p0); GD CJ 5 1 (mka p1 p0 p0 p0); GD CJ 6 2 (mka p1 p0 p0 p0); GD CJ 7 3 (mka p1 p0 p0 p0);
  GD CI 8 0 (mka p0 p0 p0 p0); GD CI 9 1 (mka p0 p0 p0 p0); GD CI 10 2 (mka p0 p0 p0 p0);
  GD CI 11 3 (mka p0 p0 p0 p0); GD CI 12 4 (mka p0 p0 p0 p0); GD CI 13 5 (mka p0 p0 p0 p0);
  GD CI 14 6 (mka p0 p0 p0 p0); GD CI 15 7 (mka p0 p0 p0 p0)]
  []
  [(15, 0, 0); (14, 1, 0); (14, 0, 1); (13, 2, 0); (12, 3, 0); (12, 2, 1); (13, 0, 2); (12, 1, 2); (12, 0, 3);
  (11, 4, 0); (10, 5, 0); (10, 4, 1); (9, 6, 0); (8, 7, 0); (8, 6, 1); (9, 4, 2); (8, 5, 2); (8, 4, 3); (11, 0, 4);
  (10, 1, 4); (10, 0, 5); (9, 2, 4); (8, 3, 4); (8, 2, 5); (9, 0, 6); (8, 1, 6); (8, 0, 7); (7, 8, 0); (6, 9, 0);
  (6, 8, 1); (5, 10, 0); (4, 11, 0); (4, 10, 1); (5, 8, 2); (4, 9, 2); (4, 8, 3); (3, 12, 0); (2, 13, 0); (2, 12, 1);
  (1, 14, 0); (0, 15, 0); (0, 14, 1); (1, 12, 2); (0, 13, 2); (0, 12, 3); (3, 8, 4); (2, 9, 4); (2, 8, 5);
  (1, 10, 4); (0, 11, 4); (0, 10, 5); (1, 8, 6); (0, 9, 6); (0, 8, 7); (7, 0, 8); (6, 1, 8); (6, 0, 9); (5, 2, 8);
  (4, 3, 8); (4, 2, 9); (5, 0, 10); (4, 1, 10); (4, 0, 11); (3, 4, 8); (2, 5, 8); (2, 4, 9); (1, 6, 8); (0, 7, 8);
  (0, 6, 9); (1, 4, 10); (0, 5, 10); (0, 4, 11); (3, 0, 12); (2, 1, 12); (2, 0, 13); (1, 2, 12); (0, 3, 12);
  (0, 2, 13); (1, 0, 14); (0, 1, 14); (0, 0, 15)]
  [[tm 1 50; tm (-1) 68; tm (-1) 52; tm 1 70]; [tm 1 59; tm (-1) 23; tm (-1) 61; tm 1 25];
  [tm 1 14; tm (-1) 32; tm (-1) 16; tm 1 34]; [tm 1 5; tm 1 41; tm 1 77; tm (-1) 7; tm (-1) 43; tm (-1) 79];
  [tm 1 51; tm (-1) 69; tm (-1) 47; tm 1 65]; [tm 1 60; tm (-1) 24; tm (-1) 56; tm 1 20];
  [tm 1 15; tm (-1) 33; tm (-1) 11; tm 1 29]; [tm 1 6; tm 1 42; tm 1 78; tm (-1) 2; tm (-1) 38; tm (-1) 74];
  [tm 1 46; tm (-1) 64; tm (-1) 48; tm 1 66]; [tm 1 55; tm (-1) 19; tm (-1) 57; tm 1 21];
  [tm 1 10; tm (-1) 28; tm (-1) 12; tm 1 30]; [tm 1 1; tm 1 37; tm 1 73; tm (-1) 3; tm (-1) 39; tm (-1) 75];
  [tm 1 45; tm (-1) 63; tm 1 49; tm (-1) 67; tm 1 53; tm (-1) 71];
  [tm 1 54; tm (-1) 18; tm 1 58; tm (-1) 22; tm 1 62; tm (-1) 26];
  [tm 1 9; tm (-1) 27; tm 1 13; tm (-1) 31; tm 1 17; tm (-1) 35];
  [tm 1 0; tm 1 36; tm 1 72; tm 1 4; tm 1 40; tm 1 76; tm 1 8; tm 1 44; tm 1 80]].

(* autocode/intor4.c:283 *)
Definition f_2e_int2e_srsr1 := mkg "CINTgout2e_int2e_srsr1" K2 4
  [GShift CJ 1 0; GShift CI 2 0; GShift CI 3 1]
  []
  [(3, 0, 0); (2, 1, 0); (2, 0, 1); (1, 2, 0); (0, 3, 0); (0, 2, 1); (1, 0, 2); (0, 1, 2); (0, 0, 3)]
  [[tm 1 5; tm (-1) 7]; [tm 1 6; tm (-1) 2]; [tm 1 1; tm (-1) 3]; [tm 1 0; tm 1 4; tm 1 8]].

(* autocode/intor4.c:355 *)
Definition f_2e_int2e_srsr1srsr2 := mkg "CINTgout2e_int2e_srsr1srsr2" K2 16
  [GShift CL 1 0; GShift CK 2 0; GShift CK 3 1; GShift CJ 4 0; GShift CJ 5 1; GShift CJ 6 2; GShift CJ 7 3;
  GShift CI 8 0; GShift CI 9 1; GShift CI 10 2; GShift CI 11 3; GShift CI 12 4; GShift CI 13 5; GShift CI 14 6;
  GShift CI 15 7]
  []
  [(15, 0, 0); (14, 1, 0); (14, 0, 1); (13, 2, 0); (12, 3, 0); (12, 2, 1); (13, 0, 2); (12, 1, 2); (12, 0, 3);
  (11, 4, 0); (10, 5, 0); (10, 4, 1); (9, 6, 0); (8, 7, 0); (8, 6, 1); (9, 4, 2); (8, 5, 2); (8, 4, 3); (11, 0, 4);
  (10, 1, 4); (10, 0, 5); (9, 2, 4); (8, 3, 4); (8, 2, 5); (9, 0, 6); (8, 1, 6); (8, 0, 7); (7, 8, 0); (6, 9, 0);
  (6, 8, 1); (5, 10, 0); (4, 11, 0); (4, 10, 1); (5, 8, 2); (4, 9, 2); (4, 8, 3); (3, 12, 0); (2, 13, 0); (2, 12, 1);
  (1, 14, 0); (0, 15, 0); (0, 14, 1); (1, 12, 2); (0, 13, 2); (0, 12, 3); (3, 8, 4); (2, 9, 4); (2, 8, 5);
  (1, 10, 4); (0, 11, 4); (0, 10, 5); (1, 8, 6); (0, 9, 6); (0, 8, 7); (7, 0, 8); (6, 1, 8); (6, 0, 9); (5, 2, 8);
  (4, 3, 8); (4, 2, 9); (5, 0, 10); (4, 1, 10); (4, 0, 11); (3, 4, 8); (2, 5, 8); (2, 4, 9); (1, 6, 8); (0, 7, 8);
  (0, 6, 9); (1, 4, 10); (0, 5, 10); (0, 4, 11); (3, 0, 12); (2, 1, 12); (2, 0, 13); (1, 2, 12); (0, 3, 12);
  (0, 2, 13); (1, 0, 14); (0, 1, 14); (0, 0, 15)]
  [[tm 1 50; tm (-1) 68; tm (-1) 52; tm 1 70]; [tm 1 59; tm (-1) 23; tm (-1) 61; tm 1 25];
  [tm 1 14; tm (-1) 32; tm (-1) 16; tm 1 34]; [tm 1 5; tm 1 41; tm 1 77; tm (-1) 7; tm (-1) 43; tm (-1) 79];
  [tm 1 51; tm (-1) 69; tm (-1) 47; tm 1 65]; [tm 1 60; tm (-1) 24; tm (-1) 56; tm 1 20];
  [tm 1 15; tm (-1) 33; tm (-1) 11; tm 1 29]; [tm 1 6; tm 1 42; tm 1 78; tm (-1) 2; tm (-1) 38; tm (-1) 74];
  [tm 1 46; tm (-1) 64; tm (-1) 48; tm 1 66]; [tm 1 55; tm (-1) 19; tm (-1) 57; tm 1 21];
  [tm 1 10; tm (-1) 28; tm (-1) 12; tm 1 30]; [tm 1 1; tm 1 37; tm 1 73; tm (-1) 3; tm (-1) 39; tm (-1) 75];
  [tm 1 45; tm (-1) 63; tm 1 49; tm (-1) 67; tm 1 53; tm (-1) 71];
  [tm 1 54; tm (-1) 18; tm 1 58; tm (-1) 22; tm 1 62; tm (-1) 26];
  [tm 1 9; tm (-1) 27; tm 1 13; tm (-1) 31; tm 1 17; tm (-1) 35];
  [tm 1 0; tm 1 36; tm 1 72; tm 1 4; tm 1 40; tm 1 76; tm 1 8; tm 1 44; tm 1 80]].

(* autocode/intor4.c:547 *)
Definition f_2e_int2e_cg_sa10sp1 := mkg "CINTgout2e_int2e_cg_sa10sp1" K2 4
  [GD CJ 1 0 (mka p1 p0 p0 p0); GX CI true 2 0 (mka p0 p0 p0 p0); GX CI true 3 1 (mka p0 p0 p0 p0)]
  []
  [(3, 0, 0); (2, 1, 0); (2, 0, 1); (1, 2, 0); (0, 3, 0); (0, 2, 1); (1, 0, 2); (0, 1, 2); (0, 0, 3)]
  [[tm 1 8; tm 1 4]; [tm (-1) 3]; [tm (-1) 6]; [tm 1 7; tm (-1) 5]; [tm (-1) 1]; [tm 1 0; tm 1 8]; [tm (-1) 7];
  [tm (-1) 6; tm 1 2]; [tm (-1) 2]; [tm (-1) 5]; [tm 1 4; tm 1 0]; [tm 1 3; tm (-1) 1]].

(* autocode/intor4.c:642 *)
Definition f_2e_int2e_cg_sa10sp1spsp2 := mkg "CINTgout2e_int2e_cg_sa10sp1spsp2" K2 16
  [GD CL 1 0 (mka p1 p1 p1 p0); GD CK 2 0 (mka p1 p1 p0 p0); GD CK 3 1 (mka p1 p1 p0 p0);
  GD CJ 4 0 (mka p1 p0 p0 p0); GD CJ 5 1 (mka p1 p0 p0 p0); GD CJ 6 2 (mka p1 p0 p0 p0); GD CJ 7 3 (mka p1 p0 p0 p0);
  GX CI true 8 0 (mka p0 p0 p0 p0); GX CI true 9 1 (mka p0 p0 p0 p0); GX CI true 10 2 (mka p0 p0 p0 p0);
  GX CI true 11 3 (mka p0 p0 p0 p0); GX CI true 12 4 (mka p0 p0 p0 p0); GX CI true 13 5 (mka p0 p0 p0 p0);
  GX CI true 14 6 (mka p0 p0 p0 p0); GX CI true 15 7 (mka p0 p0 p0 p0)]
  []
  [(15, 0, 0); (14, 1, 0); (14, 0, 1); (13, 2, 0); (12, 3, 0); (12, 2, 1); (13, 0, 2); (12, 1, 2); (12, 0, 3);
  (11, 4, 0); (10, 5, 0); (10, 4, 1); (9, 6, 0); (8, 7, 0); (8, 6, 1); (9, 4, 2); (8, 5, 2); (8, 4, 3); (11, 0, 4);
  (10, 1, 4); (10, 0, 5); (9, 2, 4); (8, 3, 4); (8, 2, 5); (9, 0, 6); (8, 1, 6); (8, 0, 7); (7, 8, 0); (6, 9, 0);
  (6, 8, 1); (5, 10, 0); (4, 11, 0); (4, 10, 1); (5, 8, 2); (4, 9, 2); (4, 8, 3); (3, 12, 0); (2, 13, 0); (2, 12, 1);
  (1, 14, 0); (0, 15, 0); (0, 14, 1); (1, 12, 2); (0, 13, 2); (0, 12, 3); (3, 8, 4); (2, 9, 4); (2, 8, 5);
  (1, 10, 4); (0, 11, 4); (0, 10, 5); (1, 8, 6); (0, 9, 6); (0, 8, 7); (7, 0, 8); (6, 1, 8); (6, 0, 9); (5, 2, 8);
  (4, 3, 8); (4, 2, 9); (5, 0, 10); (4, 1, 10); (4, 0, 11); (3, 4, 8); (2, 5, 8); (2, 4, 9); (1, 6, 8); (0, 7, 8);
  (0, 6, 9); (1, 4, 10); (0, 5, 10); (0, 4, 11); (3, 0, 12); (2, 1, 12); (2, 0, 13); (1, 2, 12); (0, 3, 12);
  (0, 2, 13); (1, 0, 14); (0, 1, 14); (0, 0, 15)]
  [[tm 1 77; tm 1 41; tm (-1) 79; tm (-1) 43]; [tm (-1) 32; tm 1 34]; [tm (-1) 59; tm 1 61];
  [tm 1 68; tm (-1) 50; tm (-1) 70; tm 1 52]; [tm 1 78; tm 1 42; tm (-1) 74; tm (-1) 38]; [tm (-1) 33; tm 1 29];
  [tm (-1) 60; tm 1 56]; [tm 1 69; tm (-1) 51; tm (-1) 65; tm 1 47]; [tm 1 73; tm 1 37; tm (-1) 75; tm (-1) 39];
  [tm (-1) 28; tm 1 30]; [tm (-1) 55; tm 1 57]; [tm 1 64; tm (-1) 46; tm (-1) 66; tm 1 48];
  [tm 1 72; tm 1 36; tm 1 76; tm 1 40; tm 1 80; tm 1 44]; [tm (-1) 27; tm (-1) 31; tm (-1) 35];
  [tm (-1) 54; tm (-1) 58; tm (-1) 62]; [tm 1 63; tm (-1) 45; tm 1 67; tm (-1) 49; tm 1 71; tm (-1) 53];
  [tm (-1) 14; tm 1 16]; [tm 1 5; tm 1 77; tm (-1) 7; tm (-1) 79]; [tm (-1) 68; tm 1 70];
  [tm (-1) 59; tm 1 23; tm 1 61; tm (-1) 25]; [tm (-1) 15; tm 1 11]; [tm 1 6; tm 1 78; tm (-1) 2; tm (-1) 74];
  [tm (-1) 69; tm 1 65]; [tm (-1) 60; tm 1 24; tm 1 56; tm (-1) 20]; [tm (-1) 10; tm 1 12];
  [tm 1 1; tm 1 73; tm (-1) 3; tm (-1) 75]; [tm (-1) 64; tm 1 66]; [tm (-1) 55; tm 1 19; tm 1 57; tm (-1) 21];
  [tm (-1) 9; tm (-1) 13; tm (-1) 17]; [tm 1 0; tm 1 72; tm 1 4; tm 1 76; tm 1 8; tm 1 80];
  [tm (-1) 63; tm (-1) 67; tm (-1) 71]; [tm (-1) 54; tm 1 18; tm (-1) 58; tm 1 22; tm (-1) 62; tm 1 26];
  [tm (-1) 23; tm 1 25]; [tm (-1) 50; tm 1 52]; [tm 1 41; tm 1 5; tm (-1) 43; tm (-1) 7];
  [tm 1 32; tm (-1) 14; tm (-1) 34; tm 1 16]; [tm (-1) 24; tm 1 20]; [tm (-1) 51; tm 1 47];
  [tm 1 42; tm 1 6; tm (-1) 38; tm (-1) 2]; [tm 1 33; tm (-1) 15; tm (-1) 29; tm 1 11]; [tm (-1) 19; tm 1 21];
  [tm (-1) 46; tm 1 48]; [tm 1 37; tm 1 1; tm (-1) 39; tm (-1) 3]; [tm 1 28; tm (-1) 10; tm (-1) 30; tm 1 12];
  [tm (-1) 18; tm (-1) 22; tm (-1) 26]; [tm (-1) 45; tm (-1) 49; tm (-1) 53];
  [tm 1 36; tm 1 0; tm 1 40; tm 1 4; tm 1 44; tm 1 8]; [tm 1 27; tm (-1) 9; tm 1 31; tm (-1) 13; tm 1 35; tm (-1) 17]].

(* autocode/intor4.c:905 *)
Definition f_2e_int2e_giao_sa10sp1 := mkg "CINTgout2e_int2e_giao_sa10sp1" K2 4
  [GD CJ 1 0 (mka p1 p0 p0 p0); GShift CI 2 0; GShift CI 3 1]
  []
  [(3, 0, 0); (2, 1, 0); (2, 0, 1); (1, 2, 0); (0, 3, 0); (0, 2, 1); (1, 0, 2); (0, 1, 2); (0, 0, 3)]
  [[tm 1 8; tm 1 4]; [tm (-1) 3]; [tm (-1) 6]; [tm 1 7; tm (-1) 5]; [tm (-1) 1]; [tm 1 0; tm 1 8]; [tm (-1) 7];
  [tm (-1) 6; tm 1 2]; [tm (-1) 2]; [tm (-1) 5]; [tm 1 4; tm 1 0]; [tm 1 3; tm (-1) 1]].

(* autocode/intor4.c:996 *)
Definition f_2e_int2e_giao_sa10sp1spsp2 := mkg "CINTgout2e_int2e_giao_sa10sp1spsp2" K2 16
  [GD CL 1 0 (mka p1 p1 p1 p0); GD CK 2 0 (mka p1 p1 p0 p0); GD CK 3 1 (mka p1 p1 p0 p0);
  GD CJ 4 0 (mka p1 p0 p0 p0); GD CJ 5 1 (mka p1 p0 p0 p0); GD CJ 6 2 (mka p1 p0 p0 p0); GD CJ 7 3 (mka p1 p0 p0 p0);
  GShift CI 8 0; GShift CI 9 1; GShift CI 10 2; GShift CI 11 3; GShift CI 12 4; GShift CI 13 5; GShift CI 14 6;
  GShift CI 15 7]
  []
  [(15, 0, 0); (14, 1, 0); (14, 0, 1); (13, 2, 0); (12, 3, 0); (12, 2, 1); (13, 0, 2); (12, 1, 2); (12, 0, 3);
  (11, 4, 0); (10, 5, 0); (10, 4, 1); (9, 6, 0); (8, 7, 0); (8, 6, 1); (9, 4, 2); (8, 5, 2); (8, 4, 3); (11, 0, 4);
  (10, 1, 4); (10, 0, 5); (9, 2, 4); (8, 3, 4); (8, 2, 5); (9, 0, 6); (8, 1, 6); (8, 0, 7); (7, 8, 0); (6, 9, 0);
  (6, 8, 1); (5, 10, 0); (4, 11, 0); (4, 10, 1); (5, 8, 2); (4, 9, 2); (4, 8, 3); (3, 12, 0); (2, 13, 0); (2, 12, 1);
  (1, 14, 0); (0, 15, 0); (0, 14, 1); (1, 12, 2); (0, 13, 2); (0, 12, 3); (3, 8, 4); (2, 9, 4); (2, 8, 5);
  (1, 10, 4); (0, 11, 4); (0, 10, 5); (1, 8, 6); (0, 9, 6); (0, 8, 7); (7, 0, 8); (6, 1, 8); (6, 0, 9); (5, 2, 8);
  (4, 3, 8); (4, 2, 9); (5, 0, 10); (4, 1, 10); (4, 0, 11); (3, 4, 8); (2, 5, 8); (2, 4, 9); (1, 6, 8); (0, 7, 8);
  (0, 6, 9); (1, 4, 10); (0, 5, 10); (0, 4, 11); (3, 0, 12); (2, 1, 12); (2, 0, 13); (1, 2, 12); (0, 3, 12);
  (0, 2, 13); (1, 0, 14); (0, 1, 14); (0, 0, 15)]
  [[tm 1 77; tm 1 41; tm (-1) 79; tm (-1) 43]; [tm (-1) 32; tm 1 34]; [tm (-1) 59; tm 1 61];
  [tm 1 68; tm (-1) 50; tm (-1) 70; tm 1 52]; [tm 1 78; tm 1 42; tm (-1) 74; tm (-1) 38]; [tm (-1) 33; tm 1 29];
  [tm (-1) 60; tm 1 56]; [tm 1 69; tm (-1) 51; tm (-1) 65; tm 1 47]; [tm 1 73; tm 1 37; tm (-1) 75; tm (-1) 39];
  [tm (-1) 28; tm 1 30]; [tm (-1) 55; tm 1 57]; [tm 1 64; tm (-1) 46; tm (-1) 66; tm 1 48];
  [tm 1 72; tm 1 36; tm 1 76; tm 1 40; tm 1 80; tm 1 44]; [tm (-1) 27; tm (-1) 31; tm (-1) 35];
  [tm (-1) 54; tm (-1) 58; tm (-1) 62]; [tm 1 63; tm (-1) 45; tm 1 67; tm (-1) 49; tm 1 71; tm (-1) 53];
  [tm (-1) 14; tm 1 16]; [tm 1 5; tm 1 77; tm (-1) 7; tm (-1) 79]; [tm (-1) 68; tm 1 70];
  [tm (-1) 59; tm 1 23; tm 1 61; tm (-1) 25]; [tm (-1) 15; tm 1 11]; [tm 1 6; tm 1 78; tm (-1) 2; tm (-1) 74];
  [tm (-1) 69; tm 1 65]; [tm (-1) 60; tm 1 24; tm 1 56; tm (-1) 20]; [tm (-1) 10; tm 1 12];
  [tm 1 1; tm 1 73; tm (-1) 3; tm (-1) 75]; [tm (-1) 64; tm 1 66]; [tm (-1) 55; tm 1 19; tm 1 57; tm (-1) 21];
  [tm (-1) 9; tm (-1) 13; tm (-1) 17]; [tm 1 0; tm 1 72; tm 1 4; tm 1 76; tm 1 8; tm 1 80];
  [tm (-1) 63; tm (-1) 67; tm (-1) 71]; [tm (-1) 54; tm 1 18; tm (-1) 58; tm 1 22; tm (-1) 62; tm 1 26];
  [tm (-1) 23; tm 1 25]; [tm (-1) 50; tm 1 52]; [tm 1 41; tm 1 5; tm (-1) 43; tm (-1) 7];
  [tm 1 32; tm (-1) 14; tm (-1) 34; tm 1 16]; [tm (-1) 24; tm 1 20]; [tm (-1) 51; tm 1 47];
  [tm 1 42; tm 1 6; tm (-1) 38; tm (-1) 2]; [tm 1 33; tm (-1) 15; tm (-1) 29; tm 1 11]; [tm (-1) 19; tm 1 21];
  [tm (-1) 46; tm 1 48]; [tm 1 37; tm 1 1; tm (-1) 39; tm (-1) 3]; [tm 1 28; tm (-1) 10; tm (-1) 30; tm 1 12];
  [tm (-1) 18; tm (-1) 22; tm (-1) 26]; [tm (-1) 45; tm (-1) 49; tm (-1) 53];
  [tm 1 36; tm 1 0; tm 1 40; tm 1 4; tm 1 44; tm 1 8]; [tm 1 27; tm (-1) 9; tm 1 31; tm (-1) 13; tm 1 35; tm (-1) 17]].

(* autocode/intor4.c:1255 *)
Definition f_2e_int2e_g1 := mkg "CINTgout2e_int2e_g1" K2 2
  [GX CI false 1 0 (mka p0 p0 p0 p0)]
  [[rij 0]; [rij 1]; [rij 2]]
  [(1, 0, 0); (0, 1, 0); (0, 0, 1)]
  [[tc 1 1 2; tc (-1) 2 1]; [tc 1 2 0; tc (-1) 0 2]; [tc 1 0 1; tc (-1) 1 0]].

(* autocode/intor4.c:1384 *)
Definition f_2e_int2e_spgsp1 := mkg "CINTgout2e_int2e_spgsp1" K2 8
  [GD CJ 1 0 (mka p2 p0 p0 p0); GX CI false 2 0 (mka p1 p0 p0 p0); GX CI false 3 1 (mka p1 p0 p0 p0);
  GD CI 4 0 (mka p0 p0 p0 p0); GD CI 5 1 (mka p0 p0 p0 p0); GD CI 6 2 (mka p0 p0 p0 p0); GD CI 7 3 (mka p0 p0 p0 p0)]
  [[rij 0]; [rij 1]; [rij 2]]
  [(7, 0, 0); (6, 1, 0); (6, 0, 1); (5, 2, 0); (4, 3, 0); (4, 2, 1); (5, 0, 2); (4, 1, 2); (4, 0, 3); (3, 4, 0);
  (2, 5, 0); (2, 4, 1); (1, 6, 0); (0, 7, 0); (0, 6, 1); (1, 4, 2); (0, 5, 2); (0, 4, 3); (3, 0, 4); (2, 1, 4);
  (2, 0, 5); (1, 2, 4); (0, 3, 4); (0, 2, 5); (1, 0, 6); (0, 1, 6); (0, 0, 7)]
  [[tc 1 1 17; tc (-1) 2 14; tc (-1) 1 25; tc 1 2 22]; [tc 1 1 24; tc (-1) 2 21; tc (-1) 1 8; tc 1 2 5];
  [tc 1 1 7; tc (-1) 2 4; tc (-1) 1 15; tc 1 2 12];
  [tc 1 1 6; tc (-1) 2 3; tc 1 1 16; tc (-1) 2 13; tc 1 1 26; tc (-1) 2 23];
  [tc 1 2 11; tc (-1) 0 17; tc (-1) 2 19; tc 1 0 25]; [tc 1 2 18; tc (-1) 0 24; tc (-1) 2 2; tc 1 0 8];
  [tc 1 2 1; tc (-1) 0 7; tc (-1) 2 9; tc 1 0 15];
  [tc 1 2 0; tc (-1) 0 6; tc 1 2 10; tc (-1) 0 16; tc 1 2 20; tc (-1) 0 26];
  [tc 1 0 14; tc (-1) 1 11; tc (-1) 0 22; tc 1 1 19]; [tc 1 0 21; tc (-1) 1 18; tc (-1) 0 5; tc 1 1 2];
  [tc 1 0 4; tc (-1) 1 1; tc (-1) 0 12; tc 1 1 9];
  [tc 1 0 3; tc (-1) 1 0; tc 1 0 13; tc (-1) 1 10; tc 1 0 23; tc (-1) 1 20]].

(* autocode/intor4.c:1545 *)
Definition f_2e_int2e_g1spsp2 := mkg "CINTgout2e_int2e_g1spsp2" K2 8
  [GD CL 1 0 (mka p1 p0 p1 p0); GD CK 2 0 (mka p1 p0 p0 p0); GD CK 3 1 (mka p1 p0 p0 p0);
  GX CI false 4 0 (mka p0 p0 p0 p0); GX CI false 5 1 (mka p0 p0 p0 p0); GX CI false 6 2 (mka p0 p0 p0 p0);
  GX CI false 7 3 (mka p0 p0 p0 p0)]
  [[rij 0]; [rij 1]; [rij 2]]
  [(7, 0, 0); (6, 1, 0); (6, 0, 1); (5, 2, 0); (4, 3, 0); (4, 2, 1); (5, 0, 2); (4, 1, 2); (4, 0, 3); (3, 4, 0);
  (2, 5, 0); (2, 4, 1); (1, 6, 0); (0, 7, 0); (0, 6, 1); (1, 4, 2); (0, 5, 2); (0, 4, 3); (3, 0, 4); (2, 1, 4);
  (2, 0, 5); (1, 2, 4); (0, 3, 4); (0, 2, 5); (1, 0, 6); (0, 1, 6); (0, 0, 7)]
  [[tc 1 1 23; tc (-1) 2 14; tc (-1) 1 25; tc 1 2 16]; [tc 1 1 24; tc (-1) 2 15; tc (-1) 1 20; tc 1 2 11];
  [tc 1 1 19; tc (-1) 2 10; tc (-1) 1 21; tc 1 2 12];
  [tc 1 1 18; tc (-1) 2 9; tc 1 1 22; tc (-1) 2 13; tc 1 1 26; tc (-1) 2 17];
  [tc 1 2 5; tc (-1) 0 23; tc (-1) 2 7; tc 1 0 25]; [tc 1 2 6; tc (-1) 0 24; tc (-1) 2 2; tc 1 0 20];
  [tc 1 2 1; tc (-1) 0 19; tc (-1) 2 3; tc 1 0 21];
  [tc 1 2 0; tc (-1) 0 18; tc 1 2 4; tc (-1) 0 22; tc 1 2 8; tc (-1) 0 26];
  [tc 1 0 14; tc (-1) 1 5; tc (-1) 0 16; tc 1 1 7]; [tc 1 0 15; tc (-1) 1 6; tc (-1) 0 11; tc 1 1 2];
  [tc 1 0 10; tc (-1) 1 1; tc (-1) 0 12; tc 1 1 3];
  [tc 1 0 9; tc (-1) 1 0; tc 1 0 13; tc (-1) 1 4; tc 1 0 17; tc (-1) 1 8]].

(* autocode/intor4.c:1706 *)
Definition f_2e_int2e_spgsp1spsp2 := mkg "CINTgout2e_int2e_spgsp1spsp2" K2 32
  [GD CL 1 0 (mka p2 p1 p1 p0); GD CK 2 0 (mka p2 p1 p0 p0); GD CK 3 1 (mka p2 p1 p0 p0);
  GD CJ 4 0 (mka p2 p0 p0 p0); GD CJ 5 1 (mka p2 p0 p0 p0); GD CJ 6 2 (mka p2 p0 p0 p0); GD CJ 7 3 (mka p2 p0 p0 p0);
  GX CI false 8 0 (mka p1 p0 p0 p0); GX CI false 9 1 (mka p1 p0 p0 p0); GX CI false 10 2 (mka p1 p0 p0 p0);
  GX CI false 11 3 (mka p1 p0 p0 p0); GX CI false 12 4 (mka p1 p0 p0 p0); GX CI false 13 5 (mka p1 p0 p0 p0);
  GX CI false 14 6 (mka p1 p0 p0 p0); GX CI false 15 7 (mka p1 p0 p0 p0); GD CI 16 0 (mka p0 p0 p0 p0);
  GD CI 17 1 (mka p0 p0 p0 p0); GD CI 18 2 (mka p0 p0 p0 p0); GD CI 19 3 (mka p0 p0 p0 p0);
  GD CI 20 4 (mka p0 p0 p0 p0); GD CI 21 5 (mka p0 p0 p0 p0); GD CI 22 6 (mka p0 p0 p0 p0);
  GD CI 23 7 (mka p0 p0 p0 p0); GD CI 24 8 (mka p0 p0 p0 p0); GD CI 25 9 (mka p0 p0 p0 p0);
  GD CI 26 10 (mka p0 p0 p0 p0); GD CI 27 11 (mka p0 p0 p0 p0); GD CI 28 12 (mka p0 p0 p0 p0);
  GD CI 29 13 (mka p0 p0 p0 p0); GD CI 30 14 (mka p0 p0 p0 p0); GD CI 31 15 (mka p0 p0 p0 p0)]
  [[rij 0]; [rij 1]; [rij 2]]
  [(31, 0, 0); (30, 1, 0); (30, 0, 1); (29, 2, 0); (28, 3, 0); (28, 2, 1); (29, 0, 2); (28, 1, 2); (28, 0, 3);
  (27, 4, 0); (26, 5, 0); (26, 4, 1); (25, 6, 0); (24, 7, 0); (24, 6, 1); (25, 4, 2); (24, 5, 2); (24, 4, 3);
  (27, 0, 4); (26, 1, 4); (26, 0, 5); (25, 2, 4); (24, 3, 4); (24, 2, 5); (25, 0, 6); (24, 1, 6); (24, 0, 7);
  (23, 8, 0); (22, 9, 0); (22, 8, 1); (21, 10, 0); (20, 11, 0); (20, 10, 1); (21, 8, 2); (20, 9, 2); (20, 8, 3);
  (19, 12, 0); (18, 13, 0); (18, 12, 1); (17, 14, 0); (16, 15, 0); (16, 14, 1); (17, 12, 2); (16, 13, 2);
  (16, 12, 3); (19, 8, 4); (18, 9, 4); (18, 8, 5); (17, 10, 4); (16, 11, 4); (16, 10, 5); (17, 8, 6); (16, 9, 6);
  (16, 8, 7); (23, 0, 8); (22, 1, 8); (22, 0, 9); (21, 2, 8); (20, 3, 8); (20, 2, 9); (21, 0, 10); (20, 1, 10);
  (20, 0, 11); (19, 4, 8); (18, 5, 8); (18, 4, 9); (17, 6, 8); (16, 7, 8); (16, 6, 9); (17, 4, 10); (16, 5, 10);
  (16, 4, 11); (19, 0, 12); (18, 1, 12); (18, 0, 13); (17, 2, 12); (16, 3, 12); (16, 2, 13); (17, 0, 14);
  (16, 1, 14); (16, 0, 15); (15, 16, 0); (14, 17, 0); (14, 16, 1); (13, 18, 0); (12, 19, 0); (12, 18, 1);
  (13, 16, 2); (12, 17, 2); (12, 16, 3); (11, 20, 0); (10, 21, 0); (10, 20, 1); (9, 22, 0); (8, 23, 0); (8, 22, 1);
  (9, 20, 2); (8, 21, 2); (8, 20, 3); (11, 16, 4); (10, 17, 4); (10, 16, 5); (9, 18, 4); (8, 19, 4); (8, 18, 5);
  (9, 16, 6); (8, 17, 6); (8, 16, 7); (7, 24, 0); (6, 25, 0); (6, 24, 1); (5, 26, 0); (4, 27, 0); (4, 26, 1);
  (5, 24, 2); (4, 25, 2); (4, 24, 3); (3, 28, 0); (2, 29, 0); (2, 28, 1); (1, 30, 0); (0, 31, 0); (0, 30, 1);
  (1, 28, 2); (0, 29, 2); (0, 28, 3); (3, 24, 4); (2, 25, 4); (2, 24, 5); (1, 26, 4); (0, 27, 4); (0, 26, 5);
  (1, 24, 6); (0, 25, 6); (0, 24, 7); (7, 16, 8); (6, 17, 8); (6, 16, 9); (5, 18, 8); (4, 19, 8); (4, 18, 9);
  (5, 16, 10); (4, 17, 10); (4, 16, 11); (3, 20, 8); (2, 21, 8); (2, 20, 9); (1, 22, 8); (0, 23, 8); (0, 22, 9);
  (1, 20, 10); (0, 21, 10); (0, 20, 11); (3, 16, 12); (2, 17, 12); (2, 16, 13); (1, 18, 12); (0, 19, 12);
  (0, 18, 13); (1, 16, 14); (0, 17, 14); (0, 16, 15); (15, 0, 16); (14, 1, 16); (14, 0, 17); (13, 2, 16);
  (12, 3, 16); (12, 2, 17); (13, 0, 18); (12, 1, 18); (12, 0, 19); (11, 4, 16); (10, 5, 16); (10, 4, 17); (9, 6, 16);
  (8, 7, 16); (8, 6, 17); (9, 4, 18); (8, 5, 18); (8, 4, 19); (11, 0, 20); (10, 1, 20); (10, 0, 21); (9, 2, 20);
  (8, 3, 20); (8, 2, 21); (9, 0, 22); (8, 1, 22); (8, 0, 23); (7, 8, 16); (6, 9, 16); (6, 8, 17); (5, 10, 16);
  (4, 11, 16); (4, 10, 17); (5, 8, 18); (4, 9, 18); (4, 8, 19); (3, 12, 16); (2, 13, 16); (2, 12, 17); (1, 14, 16);
  (0, 15, 16); (0, 14, 17); (1, 12, 18); (0, 13, 18); (0, 12, 19); (3, 8, 20); (2, 9, 20); (2, 8, 21); (1, 10, 20);
  (0, 11, 20); (0, 10, 21); (1, 8, 22); (0, 9, 22); (0, 8, 23); (7, 0, 24); (6, 1, 24); (6, 0, 25); (5, 2, 24);
  (4, 3, 24); (4, 2, 25); (5, 0, 26); (4, 1, 26); (4, 0, 27); (3, 4, 24); (2, 5, 24); (2, 4, 25); (1, 6, 24);
  (0, 7, 24); (0, 6, 25); (1, 4, 26); (0, 5, 26); (0, 4, 27); (3, 0, 28); (2, 1, 28); (2, 0, 29); (1, 2, 28);
  (0, 3, 28); (0, 2, 29); (1, 0, 30); (0, 1, 30); (0, 0, 31)]
  [[tc 1 1 158; tc (-1) 2 131; tc (-1) 1 230; tc 1 2 203; tc (-1) 1 160; tc 1 2 133; tc 1 1 232; tc (-1) 2 205];
  [tc 1 1 221; tc (-1) 2 194; tc (-1) 1 77; tc 1 2 50; tc (-1) 1 223; tc 1 2 196; tc 1 1 79; tc (-1) 2 52];
  [tc 1 1 68; tc (-1) 2 41; tc (-1) 1 140; tc 1 2 113; tc (-1) 1 70; tc 1 2 43; tc 1 1 142; tc (-1) 2 115];
  [tc 1 1 59; tc (-1) 2 32; tc 1 1 149; tc (-1) 2 122; tc 1 1 239; tc (-1) 2 212; tc (-1) 1 61; tc 1 2 34; tc (-1) 1 151; tc 1 2 124; tc (-1) 1 241; tc 1 2 214];
  [tc 1 1 159; tc (-1) 2 132; tc (-1) 1 231; tc 1 2 204; tc (-1) 1 155; tc 1 2 128; tc 1 1 227; tc (-1) 2 200];
  [tc 1 1 222; tc (-1) 2 195; tc (-1) 1 78; tc 1 2 51; tc (-1) 1 218; tc 1 2 191; tc 1 1 74; tc (-1) 2 47];
  [tc 1 1 69; tc (-1) 2 42; tc (-1) 1 141; tc 1 2 114; tc (-1) 1 65; tc 1 2 38; tc 1 1 137; tc (-1) 2 110];
  [tc 1 1 60; tc (-1) 2 33; tc 1 1 150; tc (-1) 2 123; tc 1 1 240; tc (-1) 2 213; tc (-1) 1 56; tc 1 2 29; tc (-1) 1 146; tc 1 2 119; tc (-1) 1 236; tc 1 2 209];
  [tc 1 1 154; tc (-1) 2 127; tc (-1) 1 226; tc 1 2 199; tc (-1) 1 156; tc 1 2 129; tc 1 1 228; tc (-1) 2 201];
  [tc 1 1 217; tc (-1) 2 190; tc (-1) 1 73; tc 1 2 46; tc (-1) 1 219; tc 1 2 192; tc 1 1 75; tc (-1) 2 48];
  [tc 1 1 64; tc (-1) 2 37; tc (-1) 1 136; tc 1 2 109; tc (-1) 1 66; tc 1 2 39; tc 1 1 138; tc (-1) 2 111];
  [tc 1 1 55; tc (-1) 2 28; tc 1 1 145; tc (-1) 2 118; tc 1 1 235; tc (-1) 2 208; tc (-1) 1 57; tc 1 2 30; tc (-1) 1 147; tc 1 2 120; tc (-1) 1 237; tc 1 2 210];
  [tc 1 1 153; tc (-1) 2 126; tc (-1) 1 225; tc 1 2 198; tc 1 1 157; tc (-1) 2 130; tc (-1) 1 229; tc 1 2 202; tc 1 1 161; tc (-1) 2 134; tc (-1) 1 233; tc 1 2 206];
  [tc 1 1 216; tc (-1) 2 189; tc (-1) 1 72; tc 1 2 45; tc 1 1 220; tc (-1) 2 193; tc (-1) 1 76; tc 1 2 49; tc 1 1 224; tc (-1) 2 197; tc (-1) 1 80; tc 1 2 53];
  [tc 1 1 63; tc (-1) 2 36; tc (-1) 1 135; tc 1 2 108; tc 1 1 67; tc (-1) 2 40; tc (-1) 1 139; tc 1 2 112; tc 1 1 71; tc (-1) 2 44; tc (-1) 1 143; tc 1 2 116];
  [tc 1 1 54; tc (-1) 2 27; tc 1 1 144; tc (-1) 2 117; tc 1 1 234; tc (-1) 2 207; tc 1 1 58; tc (-1) 2 31; tc 1 1 148; tc (-1) 2 121; tc 1 1 238; tc (-1) 2 211; tc 1 1 62; tc (-1) 2 35; tc 1 1 152; tc (-1) 2 125; tc 1 1 242; tc (-1) 2 215];
  [tc 1 2 104; tc (-1) 0 158; tc (-1) 2 176; tc 1 0 230; tc (-1) 2 106; tc 1 0 160; tc 1 2 178; tc (-1) 0 232];
  [tc 1 2 167; tc (-1) 0 221; tc (-1) 2 23; tc 1 0 77; tc (-1) 2 169; tc 1 0 223; tc 1 2 25; tc (-1) 0 79];
  [tc 1 2 14; tc (-1) 0 68; tc (-1) 2 86; tc 1 0 140; tc (-1) 2 16; tc 1 0 70; tc 1 2 88; tc (-1) 0 142];
  [tc 1 2 5; tc (-1) 0 59; tc 1 2 95; tc (-1) 0 149; tc 1 2 185; tc (-1) 0 239; tc (-1) 2 7; tc 1 0 61; tc (-1) 2 97; tc 1 0 151; tc (-1) 2 187; tc 1 0 241];
  [tc 1 2 105; tc (-1) 0 159; tc (-1) 2 177; tc 1 0 231; tc (-1) 2 101; tc 1 0 155; tc 1 2 173; tc (-1) 0 227];
  [tc 1 2 168; tc (-1) 0 222; tc (-1) 2 24; tc 1 0 78; tc (-1) 2 164; tc 1 0 218; tc 1 2 20; tc (-1) 0 74];
  [tc 1 2 15; tc (-1) 0 69; tc (-1) 2 87; tc 1 0 141; tc (-1) 2 11; tc 1 0 65; tc 1 2 83; tc (-1) 0 137];
  [tc 1 2 6; tc (-1) 0 60; tc 1 2 96; tc (-1) 0 150; tc 1 2 186; tc (-1) 0 240; tc (-1) 2 2; tc 1 0 56; tc (-1) 2 92; tc 1 0 146; tc (-1) 2 182; tc 1 0 236];
  [tc 1 2 100; tc (-1) 0 154; tc (-1) 2 172; tc 1 0 226; tc (-1) 2 102; tc 1 0 156; tc 1 2 174; tc (-1) 0 228];
  [tc 1 2 163; tc (-1) 0 217; tc (-1) 2 19; tc 1 0 73; tc (-1) 2 165; tc 1 0 219; tc 1 2 21; tc (-1) 0 75];
  [tc 1 2 10; tc (-1) 0 64; tc (-1) 2 82; tc 1 0 136; tc (-1) 2 12; tc 1 0 66; tc 1 2 84; tc (-1) 0 138];
  [tc 1 2 1; tc (-1) 0 55; tc 1 2 91; tc (-1) 0 145; tc 1 2 181; tc (-1) 0 235; tc (-1) 2 3; tc 1 0 57; tc (-1) 2 93; tc 1 0 147; tc (-1) 2 183; tc 1 0 237];
  [tc 1 2 99; tc (-1) 0 153; tc (-1) 2 171; tc 1 0 225; tc 1 2 103; tc (-1) 0 157; tc (-1) 2 175; tc 1 0 229; tc 1 2 107; tc (-1) 0 161; tc (-1) 2 179; tc 1 0 233];
  [tc 1 2 162; tc (-1) 0 216; tc (-1) 2 18; tc 1 0 72; tc 1 2 166; tc (-1) 0 220; tc (-1) 2 22; tc 1 0 76; tc 1 2 170; tc (-1) 0 224; tc (-1) 2 26; tc 1 0 80];
  [tc 1 2 9; tc (-1) 0 63; tc (-1) 2 81; tc 1 0 135; tc 1 2 13; tc (-1) 0 67; tc (-1) 2 85; tc 1 0 139; tc 1 2 17; tc (-1) 0 71; tc (-1) 2 89; tc 1 0 143];
  [tc 1 2 0; tc (-1) 0 54; tc 1 2 90; tc (-1) 0 144; tc 1 2 180; tc (-1) 0 234; tc 1 2 4; tc (-1) 0 58; tc 1 2 94; tc (-1) 0 148; tc 1 2 184; tc (-1) 0 238; tc 1 2 8; tc (-1) 0 62; tc 1 2 98; tc (-1) 0 152; tc 1 2 188; tc (-1) 0 242];
  [tc 1 0 131; tc (-1) 1 104; tc (-1) 0 203; tc 1 1 176; tc (-1) 0 133; tc 1 1 106; tc 1 0 205; tc (-1) 1 178];
  [tc 1 0 194; tc (-1) 1 167; tc (-1) 0 50; tc 1 1 23; tc (-1) 0 196; tc 1 1 169; tc 1 0 52; tc (-1) 1 25];
  [tc 1 0 41; tc (-1) 1 14; tc (-1) 0 113; tc 1 1 86; tc (-1) 0 43; tc 1 1 16; tc 1 0 115; tc (-1) 1 88];
  [tc 1 0 32; tc (-1) 1 5; tc 1 0 122; tc (-1) 1 95; tc 1 0 212; tc (-1) 1 185; tc (-1) 0 34; tc 1 1 7; tc (-1) 0 124; tc 1 1 97; tc (-1) 0 214; tc 1 1 187];
  [tc 1 0 132; tc (-1) 1 105; tc (-1) 0 204; tc 1 1 177; tc (-1) 0 128; tc 1 1 101; tc 1 0 200; tc (-1) 1 173];
  [tc 1 0 195; tc (-1) 1 168; tc (-1) 0 51; tc 1 1 24; tc (-1) 0 191; tc 1 1 164; tc 1 0 47; tc (-1) 1 20];
  [tc 1 0 42; tc (-1) 1 15; tc (-1) 0 114; tc 1 1 87; tc (-1) 0 38; tc 1 1 11; tc 1 0 110; tc (-1) 1 83];
  [tc 1 0 33; tc (-1) 1 6; tc 1 0 123; tc (-1) 1 96; tc 1 0 213; tc (-1) 1 186; tc (-1) 0 29; tc 1 1 2; tc (-1) 0 119; tc 1 1 92; tc (-1) 0 209; tc 1 1 182];
  [tc 1 0 127; tc (-1) 1 100; tc (-1) 0 199; tc 1 1 172; tc (-1) 0 129; tc 1 1 102; tc 1 0 201; tc (-1) 1 174];
  [tc 1 0 190; tc (-1) 1 163; tc (-1) 0 46; tc 1 1 19; tc (-1) 0 192; tc 1 1 165; tc 1 0 48; tc (-1) 1 21];
  [tc 1 0 37; tc (-1) 1 10; tc (-1) 0 109; tc 1 1 82; tc (-1) 0 39; tc 1 1 12; tc 1 0 111; tc (-1) 1 84];
  [tc 1 0 28; tc (-1) 1 1; tc 1 0 118; tc (-1) 1 91; tc 1 0 208; tc (-1) 1 181; tc (-1) 0 30; tc 1 1 3; tc (-1) 0 120; tc 1 1 93; tc (-1) 0 210; tc 1 1 183];
  [tc 1 0 126; tc (-1) 1 99; tc (-1) 0 198; tc 1 1 171; tc 1 0 130; tc (-1) 1 103; tc (-1) 0 202; tc 1 1 175; tc 1 0 134; tc (-1) 1 107; tc (-1) 0 206; tc 1 1 179];
  [tc 1 0 189; tc (-1) 1 162; tc (-1) 0 45; tc 1 1 18; tc 1 0 193; tc (-1) 1 166; tc (-1) 0 49; tc 1 1 22; tc 1 0 197; tc (-1) 1 170; tc (-1) 0 53; tc 1 1 26];
  [tc 1 0 36; tc (-1) 1 9; tc (-1) 0 108; tc 1 1 81; tc 1 0 40; tc (-1) 1 13; tc (-1) 0 112; tc 1 1 85; tc 1 0 44; tc (-1) 1 17; tc (-1) 0 116; tc 1 1 89];
  [tc 1 0 27; tc (-1) 1 0; tc 1 0 117; tc (-1) 1 90; tc 1 0 207; tc (-1) 1 180; tc 1 0 31; tc (-1) 1 4; tc 1 0 121; tc (-1) 1 94; tc 1 0 211; tc (-1) 1 184; tc 1 0 35; tc (-1) 1 8; tc 1 0 125; tc (-1) 1 98; tc 1 0 215; tc (-1) 1 188]].

(* autocode/intor4.c:2203 *)
Definition f_2e_int2e_pp1 := mkg "CINTgout2e_int2e_pp1" K2 4
  [GD CJ 1 0 (mka p1 p0 p0 p0); GD CI 2 0 (mka p0 p0 p0 p0); GD CI 3 1 (mka p0 p0 p0 p0)]
  []
  [(3, 0, 0); (2, 1, 0); (2, 0, 1); (1, 2, 0); (0, 3, 0); (0, 2, 1); (1, 0, 2); (0, 1, 2); (0, 0, 3)]
  [[tm 1 0; tm 1 4; tm 1 8]].

(* autocode/intor4.c:2269 *)
Definition f_2e_int2e_pp2 := mkg "CINTgout2e_int2e_pp2" K2 4
  [GD CL 1 0 (mka p0 p0 p1 p0); GD CK 2 0 (mka p0 p0 p0 p0); GD CK 3 1 (mka p0 p0 p0 p0)]
  []
  [(3, 0, 0); (2, 1, 0); (2, 0, 1); (1, 2, 0); (0, 3, 0); (0, 2, 1); (1, 0, 2); (0, 1, 2); (0, 0, 3)]
  [[tm 1 0; tm 1 4; tm 1 8]].

(* autocode/intor4.c:2335 *)
Definition f_2e_int2e_pp1pp2 := mkg "CINTgout2e_int2e_pp1pp2" K2 16
  [GD CL 1 0 (mka p1 p1 p1 p0); GD CK 2 0 (mka p1 p1 p0 p0); GD CK 3 1 (mka p1 p1 p0 p0);
  GD CJ 4 0 (mka p1 p0 p0 p0); GD CJ 5 1 (mka p1 p0 p0 p0); GD CJ 6 2 (mka p1 p0 p0 p0); GD CJ 7 3 (mka p1 p0 p0 p0);
  GD CI 8 0 (mka p0 p0 p0 p0); GD CI 9 1 (mka p0 p0 p0 p0); GD CI 10 2 (mka p0 p0 p0 p0);
  GD CI 11 3 (mka p0 p0 p0 p0); GD CI 12 4 (mka p0 p0 p0 p0); GD CI 13 5 (mka p0 p0 p0 p0);
  GD CI 14 6 (mka p0 p0 p0 p0); GD CI 15 7 (mka p0 p0 p0 p0)]
  []
  [(15, 0, 0); (14, 1, 0); (14, 0, 1); (13, 2, 0); (12, 3, 0); (12, 2, 1); (13, 0, 2); (12, 1, 2); (12, 0, 3);
  (11, 4, 0); (10, 5, 0); (10, 4, 1); (9, 6, 0); (8, 7, 0); (8, 6, 1); (9, 4, 2); (8, 5, 2); (8, 4, 3); (11, 0, 4);
  (10, 1, 4); (10, 0, 5); (9, 2, 4); (8, 3, 4); (8, 2, 5); (9, 0, 6); (8, 1, 6); (8, 0, 7); (7, 8, 0); (6, 9, 0);
  (6, 8, 1); (5, 10, 0); (4, 11, 0); (4, 10, 1); (5, 8, 2); (4, 9, 2); (4, 8, 3); (3, 12, 0); (2, 13, 0); (2, 12, 1);
  (1, 14, 0); (0, 15, 0); (0, 14, 1); (1, 12, 2); (0, 13, 2); (0, 12, 3); (3, 8, 4); (2, 9, 4); (2, 8, 5);
  (1, 10, 4); (0, 11, 4); (0, 10, 5); (1, 8, 6); (0, 9, 6); (0, 8, 7); (7, 0, 8); (6, 1, 8); (6, 0, 9); (5, 2, 8);
  (4, 3, 8); (4, 2, 9); (5, 0, 10); (4, 1, 10); (4, 0, 11); (3, 4, 8); (2, 5, 8); (2, 4, 9); (1, 6, 8); (0, 7, 8);
  (0, 6, 9); (1, 4, 10); (0, 5, 10); (0, 4, 11); (3, 0, 12); (2, 1, 12); (2, 0, 13); (1, 2, 12); (0, 3, 12);
  (0, 2, 13); (1, 0, 14); (0, 1, 14); (0, 0, 15)]
  [[tm 1 0; tm 1 36; tm 1 72; tm 1 4; tm 1 40; tm 1 76; tm 1 8; tm 1 44; tm 1 80]].

(* autocode/lresc.c:18 *)
Definition f_1e_int1e_iprinvr := mkg "CINTgout1e_int1e_iprinvr" K2 4
  [GShift CJ 1 0; GD CI 2 0 (mka p0 p0 o o); GD CI 3 1 (mka p0 p0 o o)]
  []
  [(3, 0, 0); (2, 1, 0); (2, 0, 1); (1, 2, 0); (0, 3, 0); (0, 2, 1); (1, 0, 2); (0, 1, 2); (0, 0, 3)]
  [[tm 1 0]; [tm 1 1]; [tm 1 2]; [tm 1 3]; [tm 1 4]; [tm 1 5]; [tm 1 6]; [tm 1 7]; [tm 1 8]].

(* autocode/lresc.c:98 *)
Definition f_1e_int1e_iprinviprip := mkg "CINTgout1e_int1e_iprinviprip" K2 16
  [GD CJ 1 0 (mka p1 p0 o o); GShift CJ 2 0; GD CJ 3 2 (mka p1 p0 o o); GD CJ 4 0 (mka p1 p2 o o);
  GD CJ 5 4 (mka p1 p0 o o); GShift CJ 6 4; GD CJ 7 6 (mka p1 p0 o o); GD CI 8 0 (mka p0 p0 o o);
  GD CI 9 1 (mka p0 p0 o o); GD CI 10 2 (mka p0 p0 o o); GD CI 11 3 (mka p0 p0 o o); GD CI 12 4 (mka p0 p0 o o);
  GD CI 13 5 (mka p0 p0 o o); GD CI 14 6 (mka p0 p0 o o); GD CI 15 7 (mka p0 p0 o o)]
  []
  [(15, 0, 0); (14, 1, 0); (14, 0, 1); (13, 2, 0); (12, 3, 0); (12, 2, 1); (13, 0, 2); (12, 1, 2); (12, 0, 3);
  (11, 4, 0); (10, 5, 0); (10, 4, 1); (9, 6, 0); (8, 7, 0); (8, 6, 1); (9, 4, 2); (8, 5, 2); (8, 4, 3); (11, 0, 4);
  (10, 1, 4); (10, 0, 5); (9, 2, 4); (8, 3, 4); (8, 2, 5); (9, 0, 6); (8, 1, 6); (8, 0, 7); (7, 8, 0); (6, 9, 0);
  (6, 8, 1); (5, 10, 0); (4, 11, 0); (4, 10, 1); (5, 8, 2); (4, 9, 2); (4, 8, 3); (3, 12, 0); (2, 13, 0); (2, 12, 1);
  (1, 14, 0); (0, 15, 0); (0, 14, 1); (1, 12, 2); (0, 13, 2); (0, 12, 3); (3, 8, 4); (2, 9, 4); (2, 8, 5);
  (1, 10, 4); (0, 11, 4); (0, 10, 5); (1, 8, 6); (0, 9, 6); (0, 8, 7); (7, 0, 8); (6, 1, 8); (6, 0, 9); (5, 2, 8);
  (4, 3, 8); (4, 2, 9); (5, 0, 10); (4, 1, 10); (4, 0, 11); (3, 4, 8); (2, 5, 8); (2, 4, 9); (1, 6, 8); (0, 7, 8);
  (0, 6, 9); (1, 4, 10); (0, 5, 10); (0, 4, 11); (3, 0, 12); (2, 1, 12); (2, 0, 13); (1, 2, 12); (0, 3, 12);
  (0, 2, 13); (1, 0, 14); (0, 1, 14); (0, 0, 15)]
  [[tm 1 0]; [tm 1 1]; [tm 1 2]; [tm 1 3]; [tm 1 4]; [tm 1 5]; [tm 1 6]; [tm 1 7]; [tm 1 8]; [tm 1 9]; [tm 1 10];
  [tm 1 11]; [tm 1 12]; [tm 1 13]; [tm 1 14]; [tm 1 15]; [tm 1 16]; [tm 1 17]; [tm 1 18]; [tm 1 19]; [tm 1 20];
  [tm 1 21]; [tm 1 22]; [tm 1 23]; [tm 1 24]; [tm 1 25]; [tm 1 26]; [tm 1 27]; [tm 1 28]; [tm 1 29]; [tm 1 30];
  [tm 1 31]; [tm 1 32]; [tm 1 33]; [tm 1 34]; [tm 1 35]; [tm 1 36]; [tm 1 37]; [tm 1 38]; [tm 1 39]; [tm 1 40];
  [tm 1 41]; [tm 1 42]; [tm 1 43]; [tm 1 44]; [tm 1 45]; [tm 1 46]; [tm 1 47]; [tm 1 48]; [tm 1 49]; [tm 1 50];
  [tm 1 51]; [tm 1 52]; [tm 1 53]; [tm 1 54]; [tm 1 55]; [tm 1 56]; [tm 1 57]; [tm 1 58]; [tm 1 59]; [tm 1 60];
  [tm 1 61]; [tm 1 62]; [tm 1 63]; [tm 1 64]; [tm 1 65]; [tm 1 66]; [tm 1 67]; [tm 1 68]; [tm 1 69]; [tm 1 70];
  [tm 1 71]; [tm 1 72]; [tm 1 73]; [tm 1 74]; [tm 1 75]; [tm 1 76]; [tm 1 77]; [tm 1 78]; [tm 1 79]; [tm 1 80]].

(* autocode/lresc.c:418 *)
Definition f_1e_int1e_rinvipiprip := mkg "CINTgout1e_int1e_rinvipiprip" K2 16
  [GD CJ 1 0 (mka p0 p0 o o); GShift CJ 2 0; GD CJ 3 2 (mka p0 p0 o o); GD CJ 4 0 (mka p0 p2 o o);
  GD CJ 5 4 (mka p0 p0 o o); GShift CJ 6 4; GD CJ 7 6 (mka p0 p0 o o); GD CJ 8 0 (mka p0 p3 o o);
  GD CJ 9 8 (mka p0 p0 o o); GShift CJ 10 8; GD CJ 11 10 (mka p0 p0 o o); GD CJ 12 8 (mka p0 p2 o o);
  GD CJ 13 12 (mka p0 p0 o o); GShift CJ 14 12; GD CJ 15 14 (mka p0 p0 o o)]
  []
  [(15, 0, 0); (14, 1, 0); (14, 0, 1); (13, 2, 0); (12, 3, 0); (12, 2, 1); (13, 0, 2); (12, 1, 2); (12, 0, 3);
  (11, 4, 0); (10, 5, 0); (10, 4, 1); (9, 6, 0); (8, 7, 0); (8, 6, 1); (9, 4, 2); (8, 5, 2); (8, 4, 3); (11, 0, 4);
  (10, 1, 4); (10, 0, 5); (9, 2, 4); (8, 3, 4); (8, 2, 5); (9, 0, 6); (8, 1, 6); (8, 0, 7); (7, 8, 0); (6, 9, 0);
  (6, 8, 1); (5, 10, 0); (4, 11, 0); (4, 10, 1); (5, 8, 2); (4, 9, 2); (4, 8, 3); (3, 12, 0); (2, 13, 0); (2, 12, 1);
  (1, 14, 0); (0, 15, 0); (0, 14, 1); (1, 12, 2); (0, 13, 2); (0, 12, 3); (3, 8, 4); (2, 9, 4); (2, 8, 5);
  (1, 10, 4); (0, 11, 4); (0, 10, 5); (1, 8, 6); (0, 9, 6); (0, 8, 7); (7, 0, 8); (6, 1, 8); (6, 0, 9); (5, 2, 8);
  (4, 3, 8); (4, 2, 9); (5, 0, 10); (4, 1, 10); (4, 0, 11); (3, 4, 8); (2, 5, 8); (2, 4, 9); (1, 6, 8); (0, 7, 8);
  (0, 6, 9); (1, 4, 10); (0, 5, 10); (0, 4, 11); (3, 0, 12); (2, 1, 12); (2, 0, 13); (1, 2, 12); (0, 3, 12);
  (0, 2, 13); (1, 0, 14); (0, 1, 14); (0, 0, 15)]
  [[tm 1 0]; [tm 1 1]; [tm 1 2]; [tm 1 3]; [tm 1 4]; [tm 1 5]; [tm 1 6]; [tm 1 7]; [tm 1 8]; [tm 1 9]; [tm 1 10];
  [tm 1 11]; [tm 1 12]; [tm 1 13]; [tm 1 14]; [tm 1 15]; [tm 1 16]; [tm 1 17]; [tm 1 18]; [tm 1 19]; [tm 1 20];
  [tm 1 21]; [tm 1 22]; [tm 1 23]; [tm 1 24]; [tm 1 25]; [tm 1 26]; [tm 1 27]; [tm 1 28]; [tm 1 29]; [tm 1 30];
  [tm 1 31]; [tm 1 32]; [tm 1 33]; [tm 1 34]; [tm 1 35]; [tm 1 36]; [tm 1 37]; [tm 1 38]; [tm 1 39]; [tm 1 40];
  [tm 1 41]; [tm 1 42]; [tm 1 43]; [tm 1 44]; [tm 1 45]; [tm 1 46]; [tm 1 47]; [tm 1 48]; [tm 1 49]; [tm 1 50];
  [tm 1 51]; [tm 1 52]; [tm 1 53]; [tm 1 54]; [tm 1 55]; [tm 1 56]; [tm 1 57]; [tm 1 58]; [tm 1 59]; [tm 1 60];
  [tm 1 61]; [tm 1 62]; [tm 1 63]; [tm 1 64]; [tm 1 65]; [tm 1 66]; [tm 1 67]; [tm 1 68]; [tm 1 69]; [tm 1 70];
  [tm 1 71]; [tm 1 72]; [tm 1 73]; [tm 1 74]; [tm 1 75]; [tm 1 76]; [tm 1 77]; [tm 1 78]; [tm 1 79]; [tm 1 80]].

(* autocode/lresc.c:738 *)
Definition f_1e_int1e_ipiprinvrip := mkg "CINTgout1e_int1e_ipiprinvrip" K2 16
  [GD CJ 1 0 (mka p2 p0 o o); GShift CJ 2 0; GD CJ 3 2 (mka p2 p0 o o); GD CI 4 0 (mka p1 p0 o o);
  GD CI 5 1 (mka p1 p0 o o); GD CI 6 2 (mka p1 p0 o o); GD CI 7 3 (mka p1 p0 o o); GD CI 8 0 (mka p0 p0 o o);
  GD CI 9 1 (mka p0 p0 o o); GD CI 10 2 (mka p0 p0 o o); GD CI 11 3 (mka p0 p0 o o); GD CI 12 4 (mka p0 p0 o o);
  GD CI 13 5 (mka p0 p0 o o); GD CI 14 6 (mka p0 p0 o o); GD CI 15 7 (mka p0 p0 o o)]
  []
  [(15, 0, 0); (14, 1, 0); (14, 0, 1); (13, 2, 0); (12, 3, 0); (12, 2, 1); (13, 0, 2); (12, 1, 2); (12, 0, 3);
  (11, 4, 0); (10, 5, 0); (10, 4, 1); (9, 6, 0); (8, 7, 0); (8, 6, 1); (9, 4, 2); (8, 5, 2); (8, 4, 3); (11, 0, 4);
  (10, 1, 4); (10, 0, 5); (9, 2, 4); (8, 3, 4); (8, 2, 5); (9, 0, 6); (8, 1, 6); (8, 0, 7); (7, 8, 0); (6, 9, 0);
  (6, 8, 1); (5, 10, 0); (4, 11, 0); (4, 10, 1); (5, 8, 2); (4, 9, 2); (4, 8, 3); (3, 12, 0); (2, 13, 0); (2, 12, 1);
  (1, 14, 0); (0, 15, 0); (0, 14, 1); (1, 12, 2); (0, 13, 2); (0, 12, 3); (3, 8, 4); (2, 9, 4); (2, 8, 5);
  (1, 10, 4); (0, 11, 4); (0, 10, 5); (1, 8, 6); (0, 9, 6); (0, 8, 7); (7, 0, 8); (6, 1, 8); (6, 0, 9); (5, 2, 8);
  (4, 3, 8); (4, 2, 9); (5, 0, 10); (4, 1, 10); (4, 0, 11); (3, 4, 8); (2, 5, 8); (2, 4, 9); (1, 6, 8); (0, 7, 8);
  (0, 6, 9); (1, 4, 10); (0, 5, 10); (0, 4, 11); (3, 0, 12); (2, 1, 12); (2, 0, 13); (1, 2, 12); (0, 3, 12);
  (0, 2, 13); (1, 0, 14); (0, 1, 14); (0, 0, 15)]
  [[tm 1 0]; [tm 1 1]; [tm 1 2]; [tm 1 3]; [tm 1 4]; [tm 1 5]; [tm 1 6]; [tm 1 7]; [tm 1 8]; [tm 1 27]; [tm 1 28];
  [tm 1 29]; [tm 1 30]; [tm 1 31]; [tm 1 32]; [tm 1 33]; [tm 1 34]; [tm 1 35]; [tm 1 54]; [tm 1 55]; [tm 1 56];
  [tm 1 57]; [tm 1 58]; [tm 1 59]; [tm 1 60]; [tm 1 61]; [tm 1 62]; [tm 1 9]; [tm 1 10]; [tm 1 11]; [tm 1 12];
  [tm 1 13]; [tm 1 14]; [tm 1 15]; [tm 1 16]; [tm 1 17]; [tm 1 36]; [tm 1 37]; [tm 1 38]; [tm 1 39]; [tm 1 40];
  [tm 1 41]; [tm 1 42]; [tm 1 43]; [tm 1 44]; [tm 1 63]; [tm 1 64]; [tm 1 65]; [tm 1 66]; [tm 1 67]; [tm 1 68];
  [tm 1 69]; [tm 1 70]; [tm 1 71]; [tm 1 18]; [tm 1 19]; [tm 1 20]; [tm 1 21]; [tm 1 22]; [tm 1 23]; [tm 1 24];
  [tm 1 25]; [tm 1 26]; [tm 1 45]; [tm 1 46]; [tm 1 47]; [tm 1 48]; [tm 1 49]; [tm 1 50]; [tm 1 51]; [tm 1 52];
  [tm 1 53]; [tm 1 72]; [tm 1 73]; [tm 1 74]; [tm 1 75]; [tm 1 76]; [tm 1 77]; [tm 1 78]; [tm 1 79]; [tm 1 80]].

(* cint1e_a.c:19 *)
Definition f_1e_int1e_r2_origi := mkg "CINTgout1e_int1e_r2_origi" K1 4
  [GShift CI 1 0; GShift CI 3 1]
  []
  [(3, 0, 0); (0, 3, 0); (0, 0, 3)]
  [[tm 1 0; tm 1 1; tm 1 2]].

(* cint1e_a.c:76 *)
Definition f_1e_int1e_r4_origi := mkg "CINTgout1e_int1e_r4_origi" K1 16
  [GShift CI 1 0; GShift CI 3 1; GShift CI 4 0; GShift CI 7 3; GShift CI 12 4; GShift CI 15 7]
  []
  [(15, 0, 0); (12, 3, 0); (12, 0, 3); (0, 15, 0); (0, 12, 3); (0, 0, 15)]
  [[tm 1 0; tm 2 1; tm 2 2; tm 1 3; tm 2 4; tm 1 5]].

(* cint1e_a.c:151 *)
Definition f_1e_int1e_r2_origi_ip2 := mkg "CINTgout1e_int1e_r2_origi_ip2" K1 8
  [GD CJ 1 0 (mka p2 p0 o o); GShift CI 2 0; GShift CI 3 1; GShift CI 6 2; GShift CI 7 3]
  []
  [(7, 0, 0); (1, 6, 0); (1, 0, 6); (6, 1, 0); (0, 7, 0); (0, 1, 6); (6, 0, 1); (0, 6, 1); (0, 0, 7)]
  [[tm 1 0; tm 1 1; tm 1 2]; [tm 1 3; tm 1 4; tm 1 5]; [tm 1 6; tm 1 7; tm 1 8]].

(* cint1e_a.c:218 *)
Definition f_1e_int1e_r4_origi_ip2 := mkg "CINTgout1e_int1e_r4_origi_ip2" K1 32
  [GD CJ 1 0 (mka p4 p0 o o); GShift CI 2 0; GShift CI 3 1; GShift CI 6 2; GShift CI 7 3; GShift CI 8 0;
  GShift CI 9 1; GShift CI 14 6; GShift CI 15 7; GShift CI 24 8; GShift CI 25 9; GShift CI 30 14; GShift CI 31 15]
  []
  [(31, 0, 0); (25, 6, 0); (25, 0, 6); (1, 30, 0); (1, 24, 6); (1, 0, 30); (30, 1, 0); (24, 7, 0); (24, 1, 6);
  (0, 31, 0); (0, 25, 6); (0, 1, 30); (30, 0, 1); (24, 6, 1); (24, 0, 7); (0, 30, 1); (0, 24, 7); (0, 0, 31)]
  [[tm 1 0; tm 2 1; tm 2 2; tm 1 3; tm 2 4; tm 1 5]; [tm 1 6; tm 2 7; tm 2 8; tm 1 9; tm 2 10; tm 1 11];
  [tm 1 12; tm 2 13; tm 2 14; tm 1 15; tm 2 16; tm 1 17]].

(* cint3c1e_a.c:18 *)
Definition f_1e_int3c1e_r2_origk := mkg "CINTgout1e_int3c1e_r2_origk" K1 4
  [GShift CK 1 0; GShift CK 3 1]
  []
  [(3, 0, 0); (0, 3, 0); (0, 0, 3)]
  [[tm 1 0; tm 1 1; tm 1 2]].

(* cint3c1e_a.c:77 *)
Definition f_1e_int3c1e_r4_origk := mkg "CINTgout1e_int3c1e_r4_origk" K1 16
  [GShift CK 1 0; GShift CK 3 1; GShift CK 4 0; GShift CK 7 3; GShift CK 12 4; GShift CK 15 7]
  []
  [(15, 0, 0); (12, 3, 0); (12, 0, 3); (0, 15, 0); (0, 12, 3); (0, 0, 15)]
  [[tm 1 0; tm 2 1; tm 2 2; tm 1 3; tm 2 4; tm 1 5]].

(* cint3c1e_a.c:155 *)
Definition f_1e_int3c1e_r6_origk := mkg "CINTgout1e_int3c1e_r6_origk" K1 64
  [GShift CK 1 0; GShift CK 3 1; GShift CK 4 0; GShift CK 7 3; GShift CK 12 4; GShift CK 15 7; GShift CK 16 0;
  GShift CK 28 12; GShift CK 31 15; GShift CK 48 16; GShift CK 60 28; GShift CK 63 31]
  []
  [(63, 0, 0); (60, 3, 0); (60, 0, 3); (48, 15, 0); (48, 12, 3); (48, 0, 15); (0, 63, 0); (0, 60, 3); (0, 48, 15);
  (0, 0, 63)]
  [[tm 1 0; tm 3 1; tm 3 2; tm 3 3; tm 6 4; tm 3 5; tm 1 6; tm 3 7; tm 3 8; tm 1 9]].

(* cint3c1e_a.c:291 *)
Definition f_1e_int3c1e_ip1_r2_origk := mkg "CINTgout1e_int3c1e_ip1_r2_origk" K1 8
  [GShift CK 1 0; GShift CK 3 1; GD CI 4 0 (mka p0 p0 p0 o); GD CI 7 3 (mka p0 p0 p0 o)]
  []
  [(7, 0, 0); (4, 3, 0); (4, 0, 3); (3, 4, 0); (0, 7, 0); (0, 4, 3); (3, 0, 4); (0, 3, 4); (0, 0, 7)]
  [[tm 1 0; tm 1 1; tm 1 2]; [tm 1 3; tm 1 4; tm 1 5]; [tm 1 6; tm 1 7; tm 1 8]].

(* cint3c1e_a.c:364 *)
Definition f_1e_int3c1e_ip1_r4_origk := mkg "CINTgout1e_int3c1e_ip1_r4_origk" K1 32
  [GShift CK 1 0; GShift CK 3 1; GShift CK 4 0; GShift CK 7 3; GShift CK 12 4; GShift CK 15 7;
  GD CI 16 0 (mka p0 p0 p0 o); GD CI 19 3 (mka p0 p0 p0 o); GD CI 28 12 (mka p0 p0 p0 o);
  GD CI 31 15 (mka p0 p0 p0 o)]
  []
  [(31, 0, 0); (28, 3, 0); (28, 0, 3); (16, 15, 0); (16, 12, 3); (16, 0, 15); (15, 16, 0); (12, 19, 0); (12, 16, 3);
  (0, 31, 0); (0, 28, 3); (0, 16, 15); (15, 0, 16); (12, 3, 16); (12, 0, 19); (0, 15, 16); (0, 12, 19); (0, 0, 31)]
  [[tm 1 0; tm 2 1; tm 2 2; tm 1 3; tm 2 4; tm 1 5]; [tm 1 6; tm 2 7; tm 2 8; tm 1 9; tm 2 10; tm 1 11];
  [tm 1 12; tm 2 13; tm 2 14; tm 1 15; tm 2 16; tm 1 17]].

(* cint3c1e_a.c:467 *)
Definition f_1e_int3c1e_ip1_r6_origk := mkg "CINTgout1e_int3c1e_ip1_r6_origk" K1 128
  [GShift CK 1 0; GShift CK 3 1; GShift CK 4 0; GShift CK 7 3; GShift CK 12 4; GShift CK 15 7; GShift CK 16 0;
  GShift CK 28 12; GShift CK 31 15; GShift CK 48 16; GShift CK 60 28; GShift CK 63 31; GD CI 64 0 (mka p0 p0 p0 o);
  GD CI 67 3 (mka p0 p0 p0 o); GD CI 79 15 (mka p0 p0 p0 o); GD CI 112 48 (mka p0 p0 p0 o);
  GD CI 124 60 (mka p0 p0 p0 o); GD CI 127 63 (mka p0 p0 p0 o)]
  []
  [(127, 0, 0); (124, 3, 0); (124, 0, 3); (112, 15, 0); (112, 12, 3); (112, 0, 15); (64, 63, 0); (64, 60, 3);
  (64, 48, 15); (64, 0, 63); (63, 64, 0); (60, 67, 0); (60, 64, 3); (48, 79, 0); (48, 76, 3); (48, 64, 15);
  (0, 127, 0); (0, 124, 3); (0, 112, 15); (0, 64, 63); (63, 0, 64); (60, 3, 64); (60, 0, 67); (48, 15, 64);
  (48, 12, 67); (48, 0, 79); (0, 63, 64); (0, 60, 67); (0, 48, 79); (0, 0, 127)]
  [[tm 1 0; tm 3 1; tm 3 2; tm 3 3; tm 6 4; tm 3 5; tm 1 6; tm 3 7; tm 3 8; tm 1 9];
  [tm 1 10; tm 3 11; tm 3 12; tm 3 13; tm 6 14; tm 3 15; tm 1 16; tm 3 17; tm 3 18; tm 1 19];
  [tm 1 20; tm 3 21; tm 3 22; tm 3 23; tm 6 24; tm 3 25; tm 1 26; tm 3 27; tm 3 28; tm 1 29]].

(* breit.c:143 *)
Definition f_2e_int2e_breit_r1p2 := mkg "CINTgout2e_int2e_breit_r1p2" K2 16
  [GD CL 1 0 (mka p2 p2 p0 p0); GX CJ false 3 1 (mka p1 p0 p0 p0); GD CJ 4 0 (mka p1 p1 p0 p0);
  GD CI 5 0 (mka p1 p1 p0 p0); GSum 4 5; GD CJ 5 1 (mka p1 p1 p0 p0); GD CI 6 1 (mka p1 p1 p0 p0); GSum 5 6;
  GX CJ false 7 5 (mka p1 p0 p0 p0); GD CI 12 4 (mka p0 p0 p0 p0); GD CI 15 7 (mka p0 p0 p0 p0)]
  []
  [(15, 0, 0); (12, 3, 0); (12, 0, 3); (3, 12, 0); (0, 15, 0); (0, 12, 3); (3, 0, 12); (0, 3, 12); (0, 0, 15)]
  [[tm 1 0; tm 1 1; tm 1 2; tm 1 3; tm 1 4; tm 1 5; tm 1 6; tm 1 7; tm 1 8]].

(* breit.c:233 *)
Definition f_2e_int2e_breit_r2p2 := mkg "CINTgout2e_int2e_breit_r2p2" K2 16
  [GX CL false 2 0 (mka p2 p1 p0 p1); GD CL 3 2 (mka p2 p1 p0 p0); GD CJ 4 0 (mka p1 p0 p0 p0);
  GD CI 5 0 (mka p1 p0 p0 p0); GSum 4 5; GD CJ 7 3 (mka p1 p0 p0 p0); GD CI 8 3 (mka p1 p0 p0 p0); GSum 7 8;
  GD CI 12 4 (mka p0 p0 p0 p0); GD CI 15 7 (mka p0 p0 p0 p0)]
  []
  [(15, 0, 0); (12, 3, 0); (12, 0, 3); (3, 12, 0); (0, 15, 0); (0, 12, 3); (3, 0, 12); (0, 3, 12); (0, 0, 15)]
  [[tm 1 0; tm 1 1; tm 1 2; tm 1 3; tm 1 4; tm 1 5; tm 1 6; tm 1 7; tm 1 8]].

(* cint1e.c:306 *)
Definition f_1e := mkg "CINTgout1e" K1 1
  []
  []
  [(0, 0, 0)]
  [[tm 1 0]].

(* cint1e.c:327 *)
Definition f_1e_nuc := mkg "CINTgout1e_nuc" K2 1
  []
  []
  [(0, 0, 0)]
  [[tm 1 0]].

(* cint2e.c:961 *)
Definition f_2e := mkg "CINTgout2e" K2 1
  []
  []
  [(0, 0, 0)]
  [[tm 1 0]].

(* g1e_grids.c:292 *)
Definition f_1e_grids := mkg "CINTgout1e_grids" KG 1
  []
  []
  [(0, 0, 0)]
  [[tm 1 0]].

(** ** Entry points *)

(** Operators between the two electrons that are not products of one-electron operators.
    "gaunt" is sigma_1 . sigma_2 / r12; "breit-r1" and "breit-r2" are the two parts
    (sigma_1 . grad_1 (1/r12)) (r_1 . sigma_2) and (sigma_1 . grad_1 (1/r12)) (sigma_2 . r_2) of the
    gauge term; "breit_r1p2", "breit_r2p2" the same with gradients instead of the spin matrices.
    One pair per Cartesian component. *)
Definition comps {T} (f : nat -> T) : list T := [f 0; f 1; f 2].
Definition mid_gaunt := comps (fun x => ([FS VSigma x], [FS VSigma x])).
Definition mid_breit1 := comps (fun x => ([FDot VSigma (VGrad CI CJ); FS (VPos CJ Zero) x], [FS VSigma x])).
Definition mid_breit2 := comps (fun x => ([FDot VSigma (VGrad CI CJ)], [FS VSigma x; FS (VPos CL Zero) x])).
Definition mid_r1p2 := comps (fun x => ([FDot (VNabla CI) (VGrad CI CJ); FS (VPos CJ Zero) x], [FS (VNabla CL) x])).
Definition mid_r2p2 := comps (fun x => ([FDot (VNabla CI) (VGrad CI CJ)], [FS (VPos CL Zero) x; FS (VNabla CL) x])).

(** an entry point, its integrand and its documented expression (scripts/auto_intor.cl, or the
    comment above the function for the hand-written ones); the comment quotes the expression *)
Record ent := mkent { t_e : gentry; t_f : gfun; t_d : doc }.

(* cint1e.c:360  int1e_ovlp  | *)
Definition e_int1e_ovlp := mkent
  (mke "int1e_ovlp" "CINTgout1e" F1e
    [mkng 0 0 0 0 0 1 1 1; mkng 0 0 0 0 0 1 1 1; mkng 0 0 0 0 0 1 1 1]
    (Some (fr 1 1)) (Some (fr 1 1)) (Some (fr 1 1)) (Some (mkc false false)) (None))
  f_1e
  (mkd cq1 ([], [], []) ([], [], []) []).

(* cint1e.c:396  int1e_nuc  | nuc | *)
Definition e_int1e_nuc := mkent
  (mke "int1e_nuc" "CINTgout1e_nuc" F1nuc
    [mkng 0 0 0 0 0 1 0 1; mkng 0 0 0 0 0 1 0 1; mkng 0 0 0 0 0 1 0 1]
    (Some (fr 1 1)) (Some (fr 1 1)) (Some (fr 1 1)) (Some (mkc false false)) (None))
  f_1e_nuc
  (mkd cq1 ([], [], []) ([], [], []) []).

(* cint2e.c:1186  int2e  , | , *)
Definition e_int2e := mkent
  (mke "int2e" "CINTgout2e" F2e
    [mkng 0 0 0 0 0 1 1 1; mkng 0 0 0 0 0 1 1 1; mkng 0 0 0 0 0 1 1 1; mkng 0 0 0 0 0 1 1 1]
    (Some (fr 1 1)) (Some (fr 1 1)) (Some (fr 1 1)) (Some (mkc false false)) (Some (mkc false false)))
  f_2e
  (mkd cq1 ([], [], []) ([], [], []) []).

(* cint3c1e.c:459  int3c1e  , , *)
Definition e_int3c1e := mkent
  (mke "int3c1e" "CINTgout1e" F3c1e
    [mkng 0 0 0 0 0 1 1 1; mkng 0 0 0 0 0 1 1 1; mkng 0 0 0 0 0 1 1 1]
    (Some (fr 1 1)) (Some (fr 1 1)) (Some (fr 1 1)) (Some (mkc false false)) (None))
  f_1e
  (mkd cq1 ([], [], []) ([], [], []) []).

(* cint3c1e.c:494  int3c1e_rinv  , , *)
Definition e_int3c1e_rinv := mkent
  (mke "int3c1e_rinv" "CINTgout1e" F3c1e
    [mkng 0 0 0 0 0 1 1 1; mkng 0 0 0 0 0 1 1 1; mkng 0 0 0 0 0 1 1 1]
    (Some (fr 1 1)) (Some (fr 1 1)) (Some (fr 1 1)) (Some (mkc false false)) (None))
  f_1e
  (mkd cq1 ([], [], []) ([], [], []) []).

(* cint3c2e.c:693  int3c2e  , | *)
Definition e_int3c2e := mkent
  (mke "int3c2e" "CINTgout2e" F3c2e
    [mkng 0 0 0 0 0 1 1 1; mkng 0 0 0 0 0 1 1 1; mkng 0 0 0 0 0 1 1 1; mkng 0 0 0 0 0 1 1 1]
    (Some (fr 1 1)) (Some (fr 1 1)) (Some (fr 1 1)) (Some (mkc false false)) (None))
  f_2e
  (mkd cq1 ([], [], []) ([], [], []) []).

(* cint2c2e.c:351  int2c2e  | r12 | *)
Definition e_int2c2e := mkent
  (mke "int2c2e" "CINTgout2e" F2c2e
    [mkng 0 0 0 0 0 1 1 1; mkng 0 0 0 0 0 1 1 1; mkng 0 0 0 0 0 1 1 1; mkng 0 0 0 0 0 1 1 1]
    (Some (fr 1 1)) (Some (fr 1 1)) (Some (fr 1 1)) (Some (mkc false false)) (None))
  f_2e
  (mkd cq1 ([], [], []) ([], [], []) []).

(* cint4c1e.c:324  int4c1e  , | , *)
Definition e_int4c1e := mkent
  (mke "int4c1e" "CINTgout1e" F4c1e
    [mkng 0 0 0 0 0 1 1 1; mkng 0 0 0 0 0 1 1 1]
    (Some (fr 1 1)) (Some (fr 1 1)) (None) (None) (None))
  f_1e
  (mkd cq1 ([], [], []) ([], [], []) []).

(* cint1e_grids.c:331  int1e_grids  | grids | *)
Definition e_int1e_grids := mkent
  (mke "int1e_grids" "CINTgout1e_grids" Fgrids
    [mkng 0 0 0 0 0 1 0 1; mkng 0 0 0 0 0 1 0 1; mkng 0 0 0 0 0 1 0 1]
    (Some (fr 1 1)) (Some (fr 1 1)) (Some (fr 1 1)) (Some (mkc false false)) (None))
  f_1e_grids
  (mkd cq1 ([], [], []) ([], [], []) []).

(* cint1e_a.c:43  int1e_r2_origi  r dot r | *)
Definition e_int1e_r2_origi := mkent
  (mke "int1e_r2_origi" "CINTgout1e_int1e_r2_origi" F1e
    [mkng 2 0 0 0 2 1 1 1; mkng 2 0 0 0 2 1 1 1; mkng 2 0 0 0 2 1 1 1; mkng 2 0 0 0 2 1 1 1]
    (Some (fr 1 1)) (Some (fr 1 1)) (Some (fr 1 1)) (Some (mkc false false)) (None))
  f_1e_int1e_r2_origi
  (mkd cq1 ([r_; dot; r_], [], []) ([], [], []) []).

(* cint1e_a.c:119  int1e_r4_origi  r dot r r dot r | *)
Definition e_int1e_r4_origi := mkent
  (mke "int1e_r4_origi" "CINTgout1e_int1e_r4_origi" F1e
    [mkng 4 0 0 0 4 1 1 1; mkng 4 0 0 0 4 1 1 1; mkng 4 0 0 0 4 1 1 1; mkng 4 0 0 0 4 1 1 1]
    (Some (fr 1 1)) (Some (fr 1 1)) (Some (fr 1 1)) (Some (mkc false false)) (None))
  f_1e_int1e_r4_origi
  (mkd cq1 ([r_; dot; r_; r_; dot; r_], [], []) ([], [], []) []).

(* cint1e_a.c:186  int1e_r2_origi_ip2  r dot r | nabla *)
Definition e_int1e_r2_origi_ip2 := mkent
  (mke "int1e_r2_origi_ip2" "CINTgout1e_int1e_r2_origi_ip2" F1e
    [mkng 2 1 0 0 3 1 1 3; mkng 2 1 0 0 3 1 1 3; mkng 2 1 0 0 3 1 1 3; mkng 2 1 0 0 3 1 1 3]
    (Some (fr 1 1)) (Some (fr 1 1)) (Some (fr 1 1)) (Some (mkc false false)) (None))
  f_1e_int1e_r2_origi_ip2
  (mkd cq1 ([r_; dot; r_], [], [nabla]) ([], [], []) []).

(* cint1e_a.c:288  int1e_r4_origi_ip2  r dot r r dot r | nabla *)
Definition e_int1e_r4_origi_ip2 := mkent
  (mke "int1e_r4_origi_ip2" "CINTgout1e_int1e_r4_origi_ip2" F1e
    [mkng 4 1 0 0 5 1 1 3; mkng 4 1 0 0 5 1 1 3; mkng 4 1 0 0 5 1 1 3; mkng 4 1 0 0 5 1 1 3]
    (Some (fr 1 1)) (Some (fr 1 1)) (Some (fr 1 1)) (Some (mkc false false)) (None))
  f_1e_int1e_r4_origi_ip2
  (mkd cq1 ([r_; dot; r_; r_; dot; r_], [], [nabla]) ([], [], []) []).

(* cint3c1e_a.c:43  int3c1e_r2_origk  , , r dot r *)
Definition e_int3c1e_r2_origk := mkent
  (mke "int3c1e_r2_origk" "CINTgout1e_int3c1e_r2_origk" F3c1e
    [mkng 0 0 2 0 2 1 1 1; mkng 0 0 2 0 2 1 1 1; mkng 0 0 2 0 2 1 1 1; mkng 0 0 2 0 2 1 1 1]
    (Some (fr 1 1)) (Some (fr 1 1)) (Some (fr 1 1)) (Some (mkc false false)) (None))
  f_1e_int3c1e_r2_origk
  (mkd cq1 ([], [], []) ([r_; dot; r_], [], []) []).

(* cint3c1e_a.c:121  int3c1e_r4_origk  , , r dot r r dot r *)
Definition e_int3c1e_r4_origk := mkent
  (mke "int3c1e_r4_origk" "CINTgout1e_int3c1e_r4_origk" F3c1e
    [mkng 0 0 4 0 4 1 1 1; mkng 0 0 4 0 4 1 1 1; mkng 0 0 4 0 4 1 1 1; mkng 0 0 4 0 4 1 1 1]
    (Some (fr 1 1)) (Some (fr 1 1)) (Some (fr 1 1)) (Some (mkc false false)) (None))
  f_1e_int3c1e_r4_origk
  (mkd cq1 ([], [], []) ([r_; dot; r_; r_; dot; r_], [], []) []).

(* cint3c1e_a.c:257  int3c1e_r6_origk  , , r dot r r dot r r dot r *)
Definition e_int3c1e_r6_origk := mkent
  (mke "int3c1e_r6_origk" "CINTgout1e_int3c1e_r6_origk" F3c1e
    [mkng 0 0 6 0 6 1 1 1; mkng 0 0 6 0 6 1 1 1; mkng 0 0 6 0 6 1 1 1; mkng 0 0 6 0 6 1 1 1]
    (Some (fr 1 1)) (Some (fr 1 1)) (Some (fr 1 1)) (Some (mkc false false)) (None))
  f_1e_int3c1e_r6_origk
  (mkd cq1 ([], [], []) ([r_; dot; r_; r_; dot; r_; r_; dot; r_], [], []) []).

(* cint3c1e_a.c:329  int3c1e_ip1_r2_origk  nabla , , r dot r *)
Definition e_int3c1e_ip1_r2_origk := mkent
  (mke "int3c1e_ip1_r2_origk" "CINTgout1e_int3c1e_ip1_r2_origk" F3c1e
    [mkng 1 0 2 0 3 1 1 3; mkng 1 0 2 0 3 1 1 3; mkng 1 0 2 0 3 1 1 3; mkng 1 0 2 0 3 1 1 3]
    (Some (fr 1 1)) (Some (fr 1 1)) (Some (fr 1 1)) (Some (mkc false false)) (None))
  f_1e_int3c1e_ip1_r2_origk
  (mkd cq1 ([nabla], [], []) ([r_; dot; r_], [], []) []).

(* cint3c1e_a.c:432  int3c1e_ip1_r4_origk  nabla , , r dot r r dot r *)
Definition e_int3c1e_ip1_r4_origk := mkent
  (mke "int3c1e_ip1_r4_origk" "CINTgout1e_int3c1e_ip1_r4_origk" F3c1e
    [mkng 1 0 4 0 5 1 1 3; mkng 1 0 4 0 5 1 1 3; mkng 1 0 4 0 5 1 1 3; mkng 1 0 4 0 5 1 1 3]
    (Some (fr 1 1)) (Some (fr 1 1)) (Some (fr 1 1)) (Some (mkc false false)) (None))
  f_1e_int3c1e_ip1_r4_origk
  (mkd cq1 ([nabla], [], []) ([r_; dot; r_; r_; dot; r_], [], []) []).

(* cint3c1e_a.c:645  int3c1e_ip1_r6_origk  nabla , , r dot r r dot r r dot r *)
Definition e_int3c1e_ip1_r6_origk := mkent
  (mke "int3c1e_ip1_r6_origk" "CINTgout1e_int3c1e_ip1_r6_origk" F3c1e
    [mkng 1 0 6 0 7 1 1 3; mkng 1 0 6 0 7 1 1 3; mkng 1 0 6 0 7 1 1 3; mkng 1 0 6 0 7 1 1 3]
    (Some (fr 1 1)) (Some (fr 1 1)) (Some (fr 1 1)) (Some (mkc false false)) (None))
  f_1e_int3c1e_ip1_r6_origk
  (mkd cq1 ([nabla], [], []) ([r_; dot; r_; r_; dot; r_; r_; dot; r_], [], []) []).

(* breit.c:199  int2e_breit_r1p2  , | breit-r1p2 | , *)
Definition e_int2e_breit_r1p2 := mkent
  (mke "int2e_breit_r1p2" "CINTgout2e_int2e_breit_r1p2" F2e
    [mkng 2 2 0 1 4 1 1 1; mkng 2 2 0 1 4 1 1 1; mkng 2 2 0 1 4 1 1 1; mkng 2 2 0 1 4 1 1 1]
    (Some (fr 1 1)) (Some (fr 1 1)) (Some (fr 1 1)) (Some (mkc false true)) (Some (mkc false true)))
  f_2e_int2e_breit_r1p2
  (mkd cq1 ([], [], []) ([], [], []) mid_r1p2).

(* breit.c:288  int2e_breit_r2p2  , | breit-r2p2 | , *)
Definition e_int2e_breit_r2p2 := mkent
  (mke "int2e_breit_r2p2" "CINTgout2e_int2e_breit_r2p2" F2e
    [mkng 2 1 0 2 4 1 1 1; mkng 2 1 0 2 4 1 1 1; mkng 2 1 0 2 4 1 1 1; mkng 2 1 0 2 4 1 1 1]
    (Some (fr 1 1)) (Some (fr 1 1)) (Some (fr 1 1)) (Some (mkc false true)) (Some (mkc false true)))
  f_2e_int2e_breit_r2p2
  (mkd cq1 ([], [], []) ([], [], []) mid_r2p2).

(* cint2e_f12.c:12  int2e_stg  , | , *)
Definition e_int2e_stg := mkent
  (mke "int2e_stg" "CINTgout2e" F2yp
    [mkng 0 0 0 0 0 1 1 1; mkng 0 0 0 0 0 1 1 1]
    (None) (Some (fr 1 1)) (None) (None) (None))
  f_2e
  (mkd cq1 ([], [], []) ([], [], []) []).

(* cint2e_f12.c:28  int2e_yp  , | , *)
Definition e_int2e_yp := mkent
  (mke "int2e_yp" "CINTgout2e" F2yp
    [mkng 0 0 0 0 0 1 1 1; mkng 0 0 0 0 0 1 1 1]
    (None) (Some (fr 1 1)) (None) (None) (None))
  f_2e
  (mkd cq1 ([], [], []) ([], [], []) []).

(* cint2e_f12.c:65  int2e_yp_ip1  nabla , | , *)
Definition e_int2e_yp_ip1 := mkent
  (mke "int2e_yp_ip1" "CINTgout2e_int2e_ip1" F2yp
    [mkng 1 0 0 0 1 1 1 3; mkng 1 0 0 0 1 1 1 3]
    (None) (Some (fr 1 1)) (None) (None) (None))
  f_2e_int2e_ip1
  (mkd cq1 ([nabla], [], []) ([], [], []) []).

(* cint2e_f12.c:80  int2e_stg_ip1  nabla , | , *)
Definition e_int2e_stg_ip1 := mkent
  (mke "int2e_stg_ip1" "CINTgout2e_int2e_ip1" F2yp
    [mkng 1 0 0 0 1 1 1 3; mkng 1 0 0 0 1 1 1 3]
    (None) (Some (fr 1 1)) (None) (None) (None))
  f_2e_int2e_ip1
  (mkd cq1 ([nabla], [], []) ([], [], []) []).

(* cint2e_f12.c:101  int2e_yp_ipip1  nabla nabla , | , *)
Definition e_int2e_yp_ipip1 := mkent
  (mke "int2e_yp_ipip1" "CINTgout2e_int2e_ipip1" F2yp
    [mkng 2 0 0 0 2 1 1 9; mkng 2 0 0 0 2 1 1 9]
    (None) (Some (fr 1 1)) (None) (None) (None))
  f_2e_int2e_ipip1
  (mkd cq1 ([nabla; nabla], [], []) ([], [], []) []).

(* cint2e_f12.c:116  int2e_stg_ipip1  nabla nabla , | , *)
Definition e_int2e_stg_ipip1 := mkent
  (mke "int2e_stg_ipip1" "CINTgout2e_int2e_ipip1" F2yp
    [mkng 2 0 0 0 2 1 1 9; mkng 2 0 0 0 2 1 1 9]
    (None) (Some (fr 1 1)) (None) (None) (None))
  f_2e_int2e_ipip1
  (mkd cq1 ([nabla; nabla], [], []) ([], [], []) []).

(* cint2e_f12.c:137  int2e_yp_ipvip1  nabla , nabla | , *)
Definition e_int2e_yp_ipvip1 := mkent
  (mke "int2e_yp_ipvip1" "CINTgout2e_int2e_ipvip1" F2yp
    [mkng 1 1 0 0 2 1 1 9; mkng 1 1 0 0 2 1 1 9]
    (None) (Some (fr 1 1)) (None) (None) (None))
  f_2e_int2e_ipvip1
  (mkd cq1 ([nabla], [], [nabla]) ([], [], []) []).

(* cint2e_f12.c:152  int2e_stg_ipvip1  nabla , nabla | , *)
Definition e_int2e_stg_ipvip1 := mkent
  (mke "int2e_stg_ipvip1" "CINTgout2e_int2e_ipvip1" F2yp
    [mkng 1 1 0 0 2 1 1 9; mkng 1 1 0 0 2 1 1 9]
    (None) (Some (fr 1 1)) (None) (None) (None))
  f_2e_int2e_ipvip1
  (mkd cq1 ([nabla], [], [nabla]) ([], [], []) []).

(* cint2e_f12.c:173  int2e_yp_ip1ip2  nabla , | nabla , *)
Definition e_int2e_yp_ip1ip2 := mkent
  (mke "int2e_yp_ip1ip2" "CINTgout2e_int2e_ip1ip2" F2yp
    [mkng 1 0 1 0 2 1 1 9; mkng 1 0 1 0 2 1 1 9]
    (None) (Some (fr 1 1)) (None) (None) (None))
  f_2e_int2e_ip1ip2
  (mkd cq1 ([nabla], [], []) ([nabla], [], []) []).

(* cint2e_f12.c:188  int2e_stg_ip1ip2  nabla , | nabla , *)
Definition e_int2e_stg_ip1ip2 := mkent
  (mke "int2e_stg_ip1ip2" "CINTgout2e_int2e_ip1ip2" F2yp
    [mkng 1 0 1 0 2 1 1 9; mkng 1 0 1 0 2 1 1 9]
    (None) (Some (fr 1 1)) (None) (None) (None))
  f_2e_int2e_ip1ip2
  (mkd cq1 ([nabla], [], []) ([nabla], [], []) []).

(* autocode/breit1.c:183  int2e_gauge_r1_ssp1ssp2  , sigma dot p | breit-r1 | , sigma dot p *)
Definition e_int2e_gauge_r1_ssp1ssp2 := mkent
  (mke "int2e_gauge_r1_ssp1ssp2" "CINTgout2e_int2e_gauge_r1_ssp1ssp2" F2e
    [mkng 1 3 0 1 4 4 4 1; mkng 1 3 0 1 4 4 4 1; mkng 1 3 0 1 4 4 4 1; mkng 1 3 0 1 4 4 4 1]
    (Some (fr (-1) 1)) (Some (fr (-1) 1)) (Some (fr 1 1)) (Some (mkc true true)) (Some (mkc true true)))
  f_2e_int2e_gauge_r1_ssp1ssp2
  (mkd cq1 ([], [], [sigma; dot; p_]) ([], [], [sigma; dot; p_]) mid_breit1).

(* autocode/breit1.c:381  int2e_gauge_r1_ssp1sps2  , sigma dot p | breit-r1 | sigma dot p , *)
Definition e_int2e_gauge_r1_ssp1sps2 := mkent
  (mke "int2e_gauge_r1_ssp1sps2" "CINTgout2e_int2e_gauge_r1_ssp1sps2" F2e
    [mkng 1 3 1 0 4 4 4 1; mkng 1 3 1 0 4 4 4 1; mkng 1 3 1 0 4 4 4 1; mkng 1 3 1 0 4 4 4 1]
    (Some (fr (-1) 1)) (Some (fr (-1) 1)) (Some (fr 1 1)) (Some (mkc true true)) (Some (mkc true true)))
  f_2e_int2e_gauge_r1_ssp1sps2
  (mkd cq1 ([], [], [sigma; dot; p_]) ([sigma; dot; p_], [], []) mid_breit1).

(* autocode/breit1.c:579  int2e_gauge_r1_sps1ssp2  sigma dot p , | breit-r1 | , sigma dot p *)
Definition e_int2e_gauge_r1_sps1ssp2 := mkent
  (mke "int2e_gauge_r1_sps1ssp2" "CINTgout2e_int2e_gauge_r1_sps1ssp2" F2e
    [mkng 2 2 0 1 4 4 4 1; mkng 2 2 0 1 4 4 4 1; mkng 2 2 0 1 4 4 4 1; mkng 2 2 0 1 4 4 4 1]
    (Some (fr (-1) 1)) (Some (fr (-1) 1)) (Some (fr 1 1)) (Some (mkc true true)) (Some (mkc true true)))
  f_2e_int2e_gauge_r1_sps1ssp2
  (mkd cq1 ([sigma; dot; p_], [], []) ([], [], [sigma; dot; p_]) mid_breit1).

(* autocode/breit1.c:777  int2e_gauge_r1_sps1sps2  sigma dot p , | breit-r1 | sigma dot p , *)
Definition e_int2e_gauge_r1_sps1sps2 := mkent
  (mke "int2e_gauge_r1_sps1sps2" "CINTgout2e_int2e_gauge_r1_sps1sps2" F2e
    [mkng 2 2 1 0 4 4 4 1; mkng 2 2 1 0 4 4 4 1; mkng 2 2 1 0 4 4 4 1; mkng 2 2 1 0 4 4 4 1]
    (Some (fr (-1) 1)) (Some (fr (-1) 1)) (Some (fr 1 1)) (Some (mkc true true)) (Some (mkc true true)))
  f_2e_int2e_gauge_r1_sps1sps2
  (mkd cq1 ([sigma; dot; p_], [], []) ([sigma; dot; p_], [], []) mid_breit1).

(* autocode/breit1.c:979  int2e_gauge_r2_ssp1ssp2  , sigma dot p | breit-r2 | , sigma dot p *)
Definition e_int2e_gauge_r2_ssp1ssp2 := mkent
  (mke "int2e_gauge_r2_ssp1ssp2" "CINTgout2e_int2e_gauge_r2_ssp1ssp2" F2e
    [mkng 1 2 0 2 4 4 4 1; mkng 1 2 0 2 4 4 4 1; mkng 1 2 0 2 4 4 4 1; mkng 1 2 0 2 4 4 4 1]
    (Some (fr (-1) 1)) (Some (fr (-1) 1)) (Some (fr 1 1)) (Some (mkc true true)) (Some (mkc true true)))
  f_2e_int2e_gauge_r2_ssp1ssp2
  (mkd cq1 ([], [], [sigma; dot; p_]) ([], [], [sigma; dot; p_]) mid_breit2).

(* autocode/breit1.c:1181  int2e_gauge_r2_ssp1sps2  , sigma dot p | breit-r2 | sigma dot p , *)
Definition e_int2e_gauge_r2_ssp1sps2 := mkent
  (mke "int2e_gauge_r2_ssp1sps2" "CINTgout2e_int2e_gauge_r2_ssp1sps2" F2e
    [mkng 1 2 1 1 4 4 4 1; mkng 1 2 1 1 4 4 4 1; mkng 1 2 1 1 4 4 4 1; mkng 1 2 1 1 4 4 4 1]
    (Some (fr (-1) 1)) (Some (fr (-1) 1)) (Some (fr 1 1)) (Some (mkc true true)) (Some (mkc true true)))
  f_2e_int2e_gauge_r2_ssp1sps2
  (mkd cq1 ([], [], [sigma; dot; p_]) ([sigma; dot; p_], [], []) mid_breit2).

(* autocode/breit1.c:1383  int2e_gauge_r2_sps1ssp2  sigma dot p , | breit-r2 | , sigma dot p *)
Definition e_int2e_gauge_r2_sps1ssp2 := mkent
  (mke "int2e_gauge_r2_sps1ssp2" "CINTgout2e_int2e_gauge_r2_sps1ssp2" F2e
    [mkng 2 1 0 2 4 4 4 1; mkng 2 1 0 2 4 4 4 1; mkng 2 1 0 2 4 4 4 1; mkng 2 1 0 2 4 4 4 1]
    (Some (fr (-1) 1)) (Some (fr (-1) 1)) (Some (fr 1 1)) (Some (mkc true true)) (Some (mkc true true)))
  f_2e_int2e_gauge_r2_sps1ssp2
  (mkd cq1 ([sigma; dot; p_], [], []) ([], [], [sigma; dot; p_]) mid_breit2).

(* autocode/breit1.c:1585  int2e_gauge_r2_sps1sps2  sigma dot p , | breit-r2 | sigma dot p , *)
Definition e_int2e_gauge_r2_sps1sps2 := mkent
  (mke "int2e_gauge_r2_sps1sps2" "CINTgout2e_int2e_gauge_r2_sps1sps2" F2e
    [mkng 2 1 1 1 4 4 4 1; mkng 2 1 1 1 4 4 4 1; mkng 2 1 1 1 4 4 4 1; mkng 2 1 1 1 4 4 4 1]
    (Some (fr (-1) 1)) (Some (fr (-1) 1)) (Some (fr 1 1)) (Some (mkc true true)) (Some (mkc true true)))
  f_2e_int2e_gauge_r2_sps1sps2
  (mkd cq1 ([sigma; dot; p_], [], []) ([sigma; dot; p_], [], []) mid_breit2).

(* autocode/deriv3.c:129  int1e_ipipipnuc  nabla nabla nabla | nuc | *)
Definition e_int1e_ipipipnuc := mkent
  (mke "int1e_ipipipnuc" "CINTgout1e_int1e_ipipipnuc" F1nuc
    [mkng 3 0 0 0 3 1 0 27; mkng 3 0 0 0 3 1 0 27; mkng 3 0 0 0 3 1 0 27; mkng 3 0 0 0 3 1 0 27]
    (Some (fr 1 1)) (Some (fr 1 1)) (Some (fr 1 1)) (Some (mkc false false)) (None))
  f_1e_int1e_ipipipnuc
  (mkd cq1 ([nabla; nabla; nabla], [], []) ([], [], []) []).

(* autocode/deriv3.c:271  int1e_ipipiprinv  nabla nabla nabla | rinv | *)
Definition e_int1e_ipipiprinv := mkent
  (mke "int1e_ipipiprinv" "CINTgout1e_int1e_ipipiprinv" F1rinv
    [mkng 3 0 0 0 3 1 0 27; mkng 3 0 0 0 3 1 0 27; mkng 3 0 0 0 3 1 0 27; mkng 3 0 0 0 3 1 0 27]
    (Some (fr 1 1)) (Some (fr 1 1)) (Some (fr 1 1)) (Some (mkc false false)) (None))
  f_1e_int1e_ipipiprinv
  (mkd cq1 ([nabla; nabla; nabla], [], []) ([], [], []) []).

(* autocode/deriv3.c:413  int1e_ipipnucip  nabla nabla | nuc | nabla *)
Definition e_int1e_ipipnucip := mkent
  (mke "int1e_ipipnucip" "CINTgout1e_int1e_ipipnucip" F1nuc
    [mkng 2 1 0 0 3 1 0 27; mkng 2 1 0 0 3 1 0 27; mkng 2 1 0 0 3 1 0 27; mkng 2 1 0 0 3 1 0 27]
    (Some (fr 1 1)) (Some (fr 1 1)) (Some (fr 1 1)) (Some (mkc false false)) (None))
  f_1e_int1e_ipipnucip
  (mkd cq1 ([nabla; nabla], [], [nabla]) ([], [], []) []).

(* autocode/deriv3.c:555  int1e_ipiprinvip  nabla nabla | rinv | nabla *)
Definition e_int1e_ipiprinvip := mkent
  (mke "int1e_ipiprinvip" "CINTgout1e_int1e_ipiprinvip" F1rinv
    [mkng 2 1 0 0 3 1 0 27; mkng 2 1 0 0 3 1 0 27; mkng 2 1 0 0 3 1 0 27; mkng 2 1 0 0 3 1 0 27]
    (Some (fr 1 1)) (Some (fr 1 1)) (Some (fr 1 1)) (Some (mkc false false)) (None))
  f_1e_int1e_ipiprinvip
  (mkd cq1 ([nabla; nabla], [], [nabla]) ([], [], []) []).

(* autocode/deriv4.c:307  int1e_ipiprinvipip  nabla nabla | rinv | nabla nabla *)
Definition e_int1e_ipiprinvipip := mkent
  (mke "int1e_ipiprinvipip" "CINTgout1e_int1e_ipiprinvipip" F1rinv
    [mkng 2 2 0 0 4 1 0 81; mkng 2 2 0 0 4 1 0 81; mkng 2 2 0 0 4 1 0 81; mkng 2 2 0 0 4 1 0 81]
    (Some (fr 1 1)) (Some (fr 1 1)) (Some (fr 1 1)) (Some (mkc false false)) (None))
  f_1e_int1e_ipiprinvipip
  (mkd cq1 ([nabla; nabla], [], [nabla; nabla]) ([], [], []) []).

(* autocode/deriv4.c:627  int1e_ipipiprinvip  nabla nabla nabla | rinv | nabla *)
Definition e_int1e_ipipiprinvip := mkent
  (mke "int1e_ipipiprinvip" "CINTgout1e_int1e_ipipiprinvip" F1rinv
    [mkng 3 1 0 0 4 1 0 81; mkng 3 1 0 0 4 1 0 81; mkng 3 1 0 0 4 1 0 81; mkng 3 1 0 0 4 1 0 81]
    (Some (fr 1 1)) (Some (fr 1 1)) (Some (fr 1 1)) (Some (mkc false false)) (None))
  f_1e_int1e_ipipiprinvip
  (mkd cq1 ([nabla; nabla; nabla], [], [nabla]) ([], [], []) []).

(* autocode/deriv4.c:947  int1e_ipipipiprinv  nabla nabla nabla nabla | rinv | *)
Definition e_int1e_ipipipiprinv := mkent
  (mke "int1e_ipipipiprinv" "CINTgout1e_int1e_ipipipiprinv" F1rinv
    [mkng 4 0 0 0 4 1 0 81; mkng 4 0 0 0 4 1 0 81; mkng 4 0 0 0 4 1 0 81; mkng 4 0 0 0 4 1 0 81]
    (Some (fr 1 1)) (Some (fr 1 1)) (Some (fr 1 1)) (Some (mkc false false)) (None))
  f_1e_int1e_ipipipiprinv
  (mkd cq1 ([nabla; nabla; nabla; nabla], [], []) ([], [], []) []).

(* autocode/dkb.c:79  int1e_spspsp  sigma dot p | sigma dot p sigma dot p *)
Definition e_int1e_spspsp := mkent
  (mke "int1e_spspsp" "CINTgout1e_int1e_spspsp" F1e
    [mkng 1 2 0 0 3 4 1 1; mkng 1 2 0 0 3 4 1 1; mkng 1 2 0 0 3 4 1 1; mkng 1 2 0 0 3 4 1 1]
    (Some (fr 1 1)) (Some (fr 1 1)) (Some (fr 1 1)) (Some (mkc true false)) (None))
  f_1e_int1e_spspsp
  (mkd cq1 ([sigma; dot; p_], [], [sigma; dot; p_; sigma; dot; p_]) ([], [], []) []).

(* autocode/dkb.c:139  int1e_spnuc  sigma dot p | nuc | *)
Definition e_int1e_spnuc := mkent
  (mke "int1e_spnuc" "CINTgout1e_int1e_spnuc" F1nuc
    [mkng 1 0 0 0 1 4 0 1; mkng 1 0 0 0 1 4 0 1; mkng 1 0 0 0 1 4 0 1; mkng 1 0 0 0 1 4 0 1]
    (Some (fr 1 1)) (Some (fr 1 1)) (Some (fr 1 1)) (Some (mkc true false)) (None))
  f_1e_int1e_spnuc
  (mkd cq1 ([sigma; dot; p_], [], []) ([], [], []) []).

(* autocode/dkb.c:223  int2e_spv1  sigma dot p , | , *)
Definition e_int2e_spv1 := mkent
  (mke "int2e_spv1" "CINTgout2e_int2e_spv1" F2e
    [mkng 1 0 0 0 1 4 1 1; mkng 1 0 0 0 1 4 1 1; mkng 1 0 0 0 1 4 1 1; mkng 1 0 0 0 1 4 1 1]
    (Some (fr 1 1)) (Some (fr 1 1)) (Some (fr 1 1)) (Some (mkc true false)) (Some (mkc false false)))
  f_2e_int2e_spv1
  (mkd cq1 ([sigma; dot; p_], [], []) ([], [], []) []).

(* autocode/dkb.c:307  int2e_vsp1  , sigma dot p | , *)
Definition e_int2e_vsp1 := mkent
  (mke "int2e_vsp1" "CINTgout2e_int2e_vsp1" F2e
    [mkng 0 1 0 0 1 4 1 1; mkng 0 1 0 0 1 4 1 1; mkng 0 1 0 0 1 4 1 1; mkng 0 1 0 0 1 4 1 1]
    (Some (fr 1 1)) (Some (fr 1 1)) (Some (fr 1 1)) (Some (mkc true false)) (Some (mkc false false)))
  f_2e_int2e_vsp1
  (mkd cq1 ([], [], [sigma; dot; p_]) ([], [], []) []).

(* autocode/dkb.c:379  int2e_spsp2  , | sigma dot p , sigma dot p *)
Definition e_int2e_spsp2 := mkent
  (mke "int2e_spsp2" "CINTgout2e_int2e_spsp2" F2e
    [mkng 0 0 1 1 2 1 4 1; mkng 0 0 1 1 2 1 4 1; mkng 0 0 1 1 2 1 4 1; mkng 0 0 1 1 2 1 4 1]
    (Some (fr 1 1)) (Some (fr 1 1)) (Some (fr 1 1)) (Some (mkc false false)) (Some (mkc true false)))
  f_2e_int2e_spsp2
  (mkd cq1 ([], [], []) ([sigma; dot; p_], [], [sigma; dot; p_]) []).

(* autocode/dkb.c:475  int2e_spv1spv2  sigma dot p , | sigma dot p , *)
Definition e_int2e_spv1spv2 := mkent
  (mke "int2e_spv1spv2" "CINTgout2e_int2e_spv1spv2" F2e
    [mkng 1 0 1 0 2 4 4 1; mkng 1 0 1 0 2 4 4 1; mkng 1 0 1 0 2 4 4 1; mkng 1 0 1 0 2 4 4 1]
    (Some (fr 1 1)) (Some (fr 1 1)) (Some (fr 1 1)) (Some (mkc true false)) (Some (mkc true false)))
  f_2e_int2e_spv1spv2
  (mkd cq1 ([sigma; dot; p_], [], []) ([sigma; dot; p_], [], []) []).

(* autocode/dkb.c:571  int2e_vsp1spv2  , sigma dot p | sigma dot p , *)
Definition e_int2e_vsp1spv2 := mkent
  (mke "int2e_vsp1spv2" "CINTgout2e_int2e_vsp1spv2" F2e
    [mkng 0 1 1 0 2 4 4 1; mkng 0 1 1 0 2 4 4 1; mkng 0 1 1 0 2 4 4 1; mkng 0 1 1 0 2 4 4 1]
    (Some (fr 1 1)) (Some (fr 1 1)) (Some (fr 1 1)) (Some (mkc true false)) (Some (mkc true false)))
  f_2e_int2e_vsp1spv2
  (mkd cq1 ([], [], [sigma; dot; p_]) ([sigma; dot; p_], [], []) []).

(* autocode/dkb.c:667  int2e_spv1vsp2  sigma dot p , | , sigma dot p *)
Definition e_int2e_spv1vsp2 := mkent
  (mke "int2e_spv1vsp2" "CINTgout2e_int2e_spv1vsp2" F2e
    [mkng 1 0 0 1 2 4 4 1; mkng 1 0 0 1 2 4 4 1; mkng 1 0 0 1 2 4 4 1; mkng 1 0 0 1 2 4 4 1]
    (Some (fr 1 1)) (Some (fr 1 1)) (Some (fr 1 1)) (Some (mkc true false)) (Some (mkc true false)))
  f_2e_int2e_spv1vsp2
  (mkd cq1 ([sigma; dot; p_], [], []) ([], [], [sigma; dot; p_]) []).

(* autocode/dkb.c:763  int2e_vsp1vsp2  , sigma dot p | , sigma dot p *)
Definition e_int2e_vsp1vsp2 := mkent
  (mke "int2e_vsp1vsp2" "CINTgout2e_int2e_vsp1vsp2" F2e
    [mkng 0 1 0 1 2 4 4 1; mkng 0 1 0 1 2 4 4 1; mkng 0 1 0 1 2 4 4 1; mkng 0 1 0 1 2 4 4 1]
    (Some (fr 1 1)) (Some (fr 1 1)) (Some (fr 1 1)) (Some (mkc true false)) (Some (mkc true false)))
  f_2e_int2e_vsp1vsp2
  (mkd cq1 ([], [], [sigma; dot; p_]) ([], [], [sigma; dot; p_]) []).

(* autocode/dkb.c:885  int2e_spv1spsp2  sigma dot p , | sigma dot p , sigma dot p *)
Definition e_int2e_spv1spsp2 := mkent
  (mke "int2e_spv1spsp2" "CINTgout2e_int2e_spv1spsp2" F2e
    [mkng 1 0 1 1 3 4 4 1; mkng 1 0 1 1 3 4 4 1; mkng 1 0 1 1 3 4 4 1; mkng 1 0 1 1 3 4 4 1]
    (Some (fr 1 1)) (Some (fr 1 1)) (Some (fr 1 1)) (Some (mkc true false)) (Some (mkc true false)))
  f_2e_int2e_spv1spsp2
  (mkd cq1 ([sigma; dot; p_], [], []) ([sigma; dot; p_], [], [sigma; dot; p_]) []).

(* autocode/dkb.c:1007  int2e_vsp1spsp2  , sigma dot p | sigma dot p , sigma dot p *)
Definition e_int2e_vsp1spsp2 := mkent
  (mke "int2e_vsp1spsp2" "CINTgout2e_int2e_vsp1spsp2" F2e
    [mkng 0 1 1 1 3 4 4 1; mkng 0 1 1 1 3 4 4 1; mkng 0 1 1 1 3 4 4 1; mkng 0 1 1 1 3 4 4 1]
    (Some (fr 1 1)) (Some (fr 1 1)) (Some (fr 1 1)) (Some (mkc true false)) (Some (mkc true false)))
  f_2e_int2e_vsp1spsp2
  (mkd cq1 ([], [], [sigma; dot; p_]) ([sigma; dot; p_], [], [sigma; dot; p_]) []).

(* autocode/gaunt1.c:83  int2e_ssp1ssp2  , sigma dot p | gaunt | , sigma dot p *)
Definition e_int2e_ssp1ssp2 := mkent
  (mke "int2e_ssp1ssp2" "CINTgout2e_int2e_ssp1ssp2" F2e
    [mkng 0 1 0 1 2 4 4 1; mkng 0 1 0 1 2 4 4 1; mkng 0 1 0 1 2 4 4 1; mkng 0 1 0 1 2 4 4 1]
    (Some (fr (-1) 1)) (Some (fr (-1) 1)) (Some (fr 1 1)) (Some (mkc true true)) (Some (mkc true true)))
  f_2e_int2e_ssp1ssp2
  (mkd cq1 ([], [], [sigma; dot; p_]) ([], [], [sigma; dot; p_]) mid_gaunt).

(* autocode/gaunt1.c:181  int2e_ssp1sps2  , sigma dot p | gaunt | sigma dot p , *)
Definition e_int2e_ssp1sps2 := mkent
  (mke "int2e_ssp1sps2" "CINTgout2e_int2e_ssp1sps2" F2e
    [mkng 0 1 1 0 2 4 4 1; mkng 0 1 1 0 2 4 4 1; mkng 0 1 1 0 2 4 4 1; mkng 0 1 1 0 2 4 4 1]
    (Some (fr (-1) 1)) (Some (fr (-1) 1)) (Some (fr 1 1)) (Some (mkc true true)) (Some (mkc true true)))
  f_2e_int2e_ssp1sps2
  (mkd cq1 ([], [], [sigma; dot; p_]) ([sigma; dot; p_], [], []) mid_gaunt).

(* autocode/gaunt1.c:279  int2e_sps1ssp2  sigma dot p , | gaunt | , sigma dot p *)
Definition e_int2e_sps1ssp2 := mkent
  (mke "int2e_sps1ssp2" "CINTgout2e_int2e_sps1ssp2" F2e
    [mkng 1 0 0 1 2 4 4 1; mkng 1 0 0 1 2 4 4 1; mkng 1 0 0 1 2 4 4 1; mkng 1 0 0 1 2 4 4 1]
    (Some (fr (-1) 1)) (Some (fr (-1) 1)) (Some (fr 1 1)) (Some (mkc true true)) (Some (mkc true true)))
  f_2e_int2e_sps1ssp2
  (mkd cq1 ([sigma; dot; p_], [], []) ([], [], [sigma; dot; p_]) mid_gaunt).

(* autocode/gaunt1.c:377  int2e_sps1sps2  sigma dot p , | gaunt | sigma dot p , *)
Definition e_int2e_sps1sps2 := mkent
  (mke "int2e_sps1sps2" "CINTgout2e_int2e_sps1sps2" F2e
    [mkng 1 0 1 0 2 4 4 1; mkng 1 0 1 0 2 4 4 1; mkng 1 0 1 0 2 4 4 1; mkng 1 0 1 0 2 4 4 1]
    (Some (fr (-1) 1)) (Some (fr (-1) 1)) (Some (fr 1 1)) (Some (mkc true true)) (Some (mkc true true)))
  f_2e_int2e_sps1sps2
  (mkd cq1 ([sigma; dot; p_], [], []) ([sigma; dot; p_], [], []) mid_gaunt).

(* autocode/gaunt1.c:543  int2e_cg_ssa10ssp2  rc cross sigma , | gaunt | , sigma dot p *)
Definition e_int2e_cg_ssa10ssp2 := mkent
  (mke "int2e_cg_ssa10ssp2" "CINTgout2e_int2e_cg_ssa10ssp2" F2e
    [mkng 1 0 0 1 2 4 4 3; mkng 1 0 0 1 2 4 4 3; mkng 1 0 0 1 2 4 4 3; mkng 1 0 0 1 2 4 4 3]
    (Some (fr 1 1)) (Some (fr 1 1)) (Some (fr 1 1)) (Some (mkc true false)) (Some (mkc true true)))
  f_2e_int2e_cg_ssa10ssp2
  (mkd cq1 ([rc; cross; sigma], [], []) ([], [], [sigma; dot; p_]) mid_gaunt).

(* autocode/gaunt1.c:703  int2e_giao_ssa10ssp2  r cross sigma , | gaunt | , sigma dot p *)
Definition e_int2e_giao_ssa10ssp2 := mkent
  (mke "int2e_giao_ssa10ssp2" "CINTgout2e_int2e_giao_ssa10ssp2" F2e
    [mkng 1 0 0 1 2 4 4 3; mkng 1 0 0 1 2 4 4 3; mkng 1 0 0 1 2 4 4 3; mkng 1 0 0 1 2 4 4 3]
    (Some (fr 1 1)) (Some (fr 1 1)) (Some (fr 1 1)) (Some (mkc true false)) (Some (mkc true true)))
  f_2e_int2e_giao_ssa10ssp2
  (mkd cq1 ([r_; cross; sigma], [], []) ([], [], [sigma; dot; p_]) mid_gaunt).

(* autocode/gaunt1.c:897  int2e_gssp1ssp2  g , sigma dot p | gaunt | , sigma dot p *)
Definition e_int2e_gssp1ssp2 := mkent
  (mke "int2e_gssp1ssp2" "CINTgout2e_int2e_gssp1ssp2" F2e
    [mkng 1 1 0 1 3 4 4 3; mkng 1 1 0 1 3 4 4 3; mkng 1 1 0 1 3 4 4 3; mkng 1 1 0 1 3 4 4 3]
    (Some (fr 1 2)) (Some (fr 1 2)) (Some (fr 1 2)) (Some (mkc true false)) (Some (mkc true true)))
  f_2e_int2e_gssp1ssp2
  (mkd cq1 ([g_], [], [sigma; dot; p_]) ([], [], [sigma; dot; p_]) mid_gaunt).

(* autocode/grad1.c:41  int1e_ipovlp  nabla | *)
Definition e_int1e_ipovlp := mkent
  (mke "int1e_ipovlp" "CINTgout1e_int1e_ipovlp" F1e
    [mkng 1 0 0 0 1 1 1 3; mkng 1 0 0 0 1 1 1 3; mkng 1 0 0 0 1 1 1 3; mkng 1 0 0 0 1 1 1 3]
    (Some (fr 1 1)) (Some (fr 1 1)) (Some (fr 1 1)) (Some (mkc false false)) (None))
  f_1e_int1e_ipovlp
  (mkd cq1 ([nabla], [], []) ([], [], []) []).

(* autocode/grad1.c:95  int1e_ovlpip  | nabla *)
Definition e_int1e_ovlpip := mkent
  (mke "int1e_ovlpip" "CINTgout1e_int1e_ovlpip" F1e
    [mkng 0 1 0 0 1 1 1 3; mkng 0 1 0 0 1 1 1 3; mkng 0 1 0 0 1 1 1 3; mkng 0 1 0 0 1 1 1 3]
    (Some (fr 1 1)) (Some (fr 1 1)) (Some (fr 1 1)) (Some (mkc false false)) (None))
  f_1e_int1e_ovlpip
  (mkd cq1 ([], [], [nabla]) ([], [], []) []).

(* autocode/grad1.c:185  int1e_ipkin  .5 nabla | p dot p *)
Definition e_int1e_ipkin := mkent
  (mke "int1e_ipkin" "CINTgout1e_int1e_ipkin" F1e
    [mkng 1 2 0 0 3 1 1 3; mkng 1 2 0 0 3 1 1 3; mkng 1 2 0 0 3 1 1 3; mkng 1 2 0 0 3 1 1 3]
    (Some (fr 1 2)) (Some (fr 1 2)) (Some (fr 1 2)) (Some (mkc false false)) (None))
  f_1e_int1e_ipkin
  (mkd ((1 # 2)%Q, (0 # 1)%Q) ([nabla], [], [p_; dot; p_]) ([], [], []) []).

(* autocode/grad1.c:278  int1e_kinip  .5 | p dot p nabla *)
Definition e_int1e_kinip := mkent
  (mke "int1e_kinip" "CINTgout1e_int1e_kinip" F1e
    [mkng 0 3 0 0 3 1 1 3; mkng 0 3 0 0 3 1 1 3; mkng 0 3 0 0 3 1 1 3; mkng 0 3 0 0 3 1 1 3]
    (Some (fr 1 2)) (Some (fr 1 2)) (Some (fr 1 2)) (Some (mkc false false)) (None))
  f_1e_int1e_kinip
  (mkd ((1 # 2)%Q, (0 # 1)%Q) ([], [], [p_; dot; p_; nabla]) ([], [], []) []).

(* autocode/grad1.c:339  int1e_ipnuc  nabla | nuc | *)
Definition e_int1e_ipnuc := mkent
  (mke "int1e_ipnuc" "CINTgout1e_int1e_ipnuc" F1nuc
    [mkng 1 0 0 0 1 1 0 3; mkng 1 0 0 0 1 1 0 3; mkng 1 0 0 0 1 1 0 3; mkng 1 0 0 0 1 1 0 3]
    (Some (fr 1 1)) (Some (fr 1 1)) (Some (fr 1 1)) (Some (mkc false false)) (None))
  f_1e_int1e_ipnuc
  (mkd cq1 ([nabla], [], []) ([], [], []) []).

(* autocode/grad1.c:397  int1e_iprinv  nabla | rinv | *)
Definition e_int1e_iprinv := mkent
  (mke "int1e_iprinv" "CINTgout1e_int1e_iprinv" F1rinv
    [mkng 1 0 0 0 1 1 0 3; mkng 1 0 0 0 1 1 0 3; mkng 1 0 0 0 1 1 0 3; mkng 1 0 0 0 1 1 0 3]
    (Some (fr 1 1)) (Some (fr 1 1)) (Some (fr 1 1)) (Some (mkc false false)) (None))
  f_1e_int1e_iprinv
  (mkd cq1 ([nabla], [], []) ([], [], []) []).

(* autocode/grad1.c:509  int1e_ipspnucsp  nabla sigma dot p | nuc | sigma dot p *)
Definition e_int1e_ipspnucsp := mkent
  (mke "int1e_ipspnucsp" "CINTgout1e_int1e_ipspnucsp" F1nuc
    [mkng 2 1 0 0 3 4 0 3; mkng 2 1 0 0 3 4 0 3; mkng 2 1 0 0 3 4 0 3; mkng 2 1 0 0 3 4 0 3]
    (Some (fr 1 1)) (Some (fr 1 1)) (Some (fr 1 1)) (Some (mkc true false)) (None))
  f_1e_int1e_ipspnucsp
  (mkd cq1 ([nabla; sigma; dot; p_], [], [sigma; dot; p_]) ([], [], []) []).

(* autocode/grad1.c:621  int1e_ipsprinvsp  nabla sigma dot p | rinv | sigma dot p *)
Definition e_int1e_ipsprinvsp := mkent
  (mke "int1e_ipsprinvsp" "CINTgout1e_int1e_ipsprinvsp" F1rinv
    [mkng 2 1 0 0 3 4 0 3; mkng 2 1 0 0 3 4 0 3; mkng 2 1 0 0 3 4 0 3; mkng 2 1 0 0 3 4 0 3]
    (Some (fr 1 1)) (Some (fr 1 1)) (Some (fr 1 1)) (Some (mkc true false)) (None))
  f_1e_int1e_ipsprinvsp
  (mkd cq1 ([nabla; sigma; dot; p_], [], [sigma; dot; p_]) ([], [], []) []).

(* autocode/grad1.c:715  int1e_ippnucp  p* nabla | nuc dot p | *)
Definition e_int1e_ippnucp := mkent
  (mke "int1e_ippnucp" "CINTgout1e_int1e_ippnucp" F1nuc
    [mkng 2 1 0 0 3 1 0 3; mkng 2 1 0 0 3 1 0 3; mkng 2 1 0 0 3 1 0 3; mkng 2 1 0 0 3 1 0 3]
    (Some (fr 1 1)) (Some (fr 1 1)) (Some (fr 1 1)) (Some (mkc false false)) (None))
  f_1e_int1e_ippnucp
  (mkd cq1 ([p_; nabla], [dot; p_], []) ([], [], []) []).

(* autocode/grad1.c:809  int1e_ipprinvp  p* nabla | rinv dot p | *)
Definition e_int1e_ipprinvp := mkent
  (mke "int1e_ipprinvp" "CINTgout1e_int1e_ipprinvp" F1rinv
    [mkng 2 1 0 0 3 1 0 3; mkng 2 1 0 0 3 1 0 3; mkng 2 1 0 0 3 1 0 3; mkng 2 1 0 0 3 1 0 3]
    (Some (fr 1 1)) (Some (fr 1 1)) (Some (fr 1 1)) (Some (mkc false false)) (None))
  f_1e_int1e_ipprinvp
  (mkd cq1 ([p_; nabla], [dot; p_], []) ([], [], []) []).

(* autocode/grad2.c:69  int2e_ip1  nabla , | r12 | , *)
Definition e_int2e_ip1 := mkent
  (mke "int2e_ip1" "CINTgout2e_int2e_ip1" F2e
    [mkng 1 0 0 0 1 1 1 3; mkng 1 0 0 0 1 1 1 3; mkng 1 0 0 0 1 1 1 3; mkng 1 0 0 0 1 1 1 3]
    (Some (fr 1 1)) (Some (fr 1 1)) (Some (fr 1 1)) (Some (mkc false false)) (Some (mkc false false)))
  f_2e_int2e_ip1
  (mkd cq1 ([nabla], [], []) ([], [], []) []).

(* autocode/grad2.c:151  int2e_ip2  , | nabla , *)
Definition e_int2e_ip2 := mkent
  (mke "int2e_ip2" "CINTgout2e_int2e_ip2" F2e
    [mkng 0 0 1 0 1 1 1 3; mkng 0 0 1 0 1 1 1 3; mkng 0 0 1 0 1 1 1 3; mkng 0 0 1 0 1 1 1 3]
    (Some (fr 1 1)) (Some (fr 1 1)) (Some (fr 1 1)) (Some (mkc false false)) (Some (mkc false false)))
  f_2e_int2e_ip2
  (mkd cq1 ([], [], []) ([nabla], [], []) []).

(* autocode/grad2.c:265  int2e_ipspsp1  nabla sigma dot p , sigma dot p | , *)
Definition e_int2e_ipspsp1 := mkent
  (mke "int2e_ipspsp1" "CINTgout2e_int2e_ipspsp1" F2e
    [mkng 2 1 0 0 3 4 1 3; mkng 2 1 0 0 3 4 1 3; mkng 2 1 0 0 3 4 1 3; mkng 2 1 0 0 3 4 1 3]
    (Some (fr 1 1)) (Some (fr 1 1)) (Some (fr 1 1)) (Some (mkc true false)) (Some (mkc false false)))
  f_2e_int2e_ipspsp1
  (mkd cq1 ([nabla; sigma; dot; p_], [], [sigma; dot; p_]) ([], [], []) []).

(* autocode/grad2.c:379  int2e_ip1spsp2  nabla , | sigma dot p , sigma dot p *)
Definition e_int2e_ip1spsp2 := mkent
  (mke "int2e_ip1spsp2" "CINTgout2e_int2e_ip1spsp2" F2e
    [mkng 1 0 1 1 3 1 4 3; mkng 1 0 1 1 3 1 4 3; mkng 1 0 1 1 3 1 4 3; mkng 1 0 1 1 3 1 4 3]
    (Some (fr 1 1)) (Some (fr 1 1)) (Some (fr 1 1)) (Some (mkc false false)) (Some (mkc true false)))
  f_2e_int2e_ip1spsp2
  (mkd cq1 ([nabla], [], []) ([sigma; dot; p_], [], [sigma; dot; p_]) []).

(* autocode/grad2.c:829  int2e_ipspsp1spsp2  nabla sigma dot p , sigma dot p | sigma dot p , sigma dot p *)
Definition e_int2e_ipspsp1spsp2 := mkent
  (mke "int2e_ipspsp1spsp2" "CINTgout2e_int2e_ipspsp1spsp2" F2e
    [mkng 2 1 1 1 5 4 4 3; mkng 2 1 1 1 5 4 4 3; mkng 2 1 1 1 5 4 4 3; mkng 2 1 1 1 5 4 4 3]
    (Some (fr 1 1)) (Some (fr 1 1)) (Some (fr 1 1)) (Some (mkc true false)) (Some (mkc true false)))
  f_2e_int2e_ipspsp1spsp2
  (mkd cq1 ([nabla; sigma; dot; p_], [], [sigma; dot; p_]) ([sigma; dot; p_], [], [sigma; dot; p_]) []).

(* autocode/grad2.c:943  int2e_ipsrsr1  nabla sigma dot r , sigma dot r | , *)
Definition e_int2e_ipsrsr1 := mkent
  (mke "int2e_ipsrsr1" "CINTgout2e_int2e_ipsrsr1" F2e
    [mkng 2 1 0 0 3 4 1 3; mkng 2 1 0 0 3 4 1 3; mkng 2 1 0 0 3 4 1 3; mkng 2 1 0 0 3 4 1 3]
    (Some (fr 1 1)) (Some (fr 1 1)) (Some (fr 1 1)) (Some (mkc true false)) (Some (mkc false false)))
  f_2e_int2e_ipsrsr1
  (mkd cq1 ([nabla; sigma; dot; r_], [], [sigma; dot; r_]) ([], [], []) []).

(* autocode/grad2.c:1057  int2e_ip1srsr2  nabla , | sigma dot r , sigma dot r *)
Definition e_int2e_ip1srsr2 := mkent
  (mke "int2e_ip1srsr2" "CINTgout2e_int2e_ip1srsr2" F2e
    [mkng 1 0 1 1 3 1 4 3; mkng 1 0 1 1 3 1 4 3; mkng 1 0 1 1 3 1 4 3; mkng 1 0 1 1 3 1 4 3]
    (Some (fr 1 1)) (Some (fr 1 1)) (Some (fr 1 1)) (Some (mkc false false)) (Some (mkc true false)))
  f_2e_int2e_ip1srsr2
  (mkd cq1 ([nabla], [], []) ([sigma; dot; r_], [], [sigma; dot; r_]) []).

(* autocode/grad2.c:1507  int2e_ipsrsr1srsr2  nabla sigma dot r , sigma dot r | sigma dot r , sigma dot r *)
Definition e_int2e_ipsrsr1srsr2 := mkent
  (mke "int2e_ipsrsr1srsr2" "CINTgout2e_int2e_ipsrsr1srsr2" F2e
    [mkng 2 1 1 1 5 4 4 3; mkng 2 1 1 1 5 4 4 3; mkng 2 1 1 1 5 4 4 3; mkng 2 1 1 1 5 4 4 3]
    (Some (fr 1 1)) (Some (fr 1 1)) (Some (fr 1 1)) (Some (mkc true false)) (Some (mkc true false)))
  f_2e_int2e_ipsrsr1srsr2
  (mkd cq1 ([nabla; sigma; dot; r_], [], [sigma; dot; r_]) ([sigma; dot; r_], [], [sigma; dot; r_]) []).

(* autocode/hess.c:63  int1e_ipipovlp  nabla nabla | *)
Definition e_int1e_ipipovlp := mkent
  (mke "int1e_ipipovlp" "CINTgout1e_int1e_ipipovlp" F1e
    [mkng 2 0 0 0 2 1 1 9; mkng 2 0 0 0 2 1 1 9; mkng 2 0 0 0 2 1 1 9; mkng 2 0 0 0 2 1 1 9]
    (Some (fr 1 1)) (Some (fr 1 1)) (Some (fr 1 1)) (Some (mkc false false)) (None))
  f_1e_int1e_ipipovlp
  (mkd cq1 ([nabla; nabla], [], []) ([], [], []) []).

(* autocode/hess.c:139  int1e_ipovlpip  nabla | nabla *)
Definition e_int1e_ipovlpip := mkent
  (mke "int1e_ipovlpip" "CINTgout1e_int1e_ipovlpip" F1e
    [mkng 1 1 0 0 2 1 1 9; mkng 1 1 0 0 2 1 1 9; mkng 1 1 0 0 2 1 1 9; mkng 1 1 0 0 2 1 1 9]
    (Some (fr 1 1)) (Some (fr 1 1)) (Some (fr 1 1)) (Some (mkc false false)) (None))
  f_1e_int1e_ipovlpip
  (mkd cq1 ([nabla], [], [nabla]) ([], [], []) []).

(* autocode/hess.c:311  int1e_ipipkin  .5 nabla nabla | p dot p | *)
Definition e_int1e_ipipkin := mkent
  (mke "int1e_ipipkin" "CINTgout1e_int1e_ipipkin" F1e
    [mkng 2 2 0 0 4 1 1 9; mkng 2 2 0 0 4 1 1 9; mkng 2 2 0 0 4 1 1 9; mkng 2 2 0 0 4 1 1 9]
    (Some (fr 1 2)) (Some (fr 1 2)) (Some (fr 1 2)) (Some (mkc false false)) (None))
  f_1e_int1e_ipipkin
  (mkd ((1 # 2)%Q, (0 # 1)%Q) ([nabla; nabla], [p_; dot; p_], []) ([], [], []) []).

(* autocode/hess.c:486  int1e_ipkinip  .5 nabla | p dot p | nabla *)
Definition e_int1e_ipkinip := mkent
  (mke "int1e_ipkinip" "CINTgout1e_int1e_ipkinip" F1e
    [mkng 1 3 0 0 4 1 1 9; mkng 1 3 0 0 4 1 1 9; mkng 1 3 0 0 4 1 1 9; mkng 1 3 0 0 4 1 1 9]
    (Some (fr 1 2)) (Some (fr 1 2)) (Some (fr 1 2)) (Some (mkc false false)) (None))
  f_1e_int1e_ipkinip
  (mkd ((1 # 2)%Q, (0 # 1)%Q) ([nabla], [p_; dot; p_], [nabla]) ([], [], []) []).

(* autocode/hess.c:569  int1e_ipipnuc  nabla nabla | nuc | *)
Definition e_int1e_ipipnuc := mkent
  (mke "int1e_ipipnuc" "CINTgout1e_int1e_ipipnuc" F1nuc
    [mkng 2 0 0 0 2 1 0 9; mkng 2 0 0 0 2 1 0 9; mkng 2 0 0 0 2 1 0 9; mkng 2 0 0 0 2 1 0 9]
    (Some (fr 1 1)) (Some (fr 1 1)) (Some (fr 1 1)) (Some (mkc false false)) (None))
  f_1e_int1e_ipipnuc
  (mkd cq1 ([nabla; nabla], [], []) ([], [], []) []).

(* autocode/hess.c:649  int1e_ipnucip  nabla | nuc | nabla *)
Definition e_int1e_ipnucip := mkent
  (mke "int1e_ipnucip" "CINTgout1e_int1e_ipnucip" F1nuc
    [mkng 1 1 0 0 2 1 0 9; mkng 1 1 0 0 2 1 0 9; mkng 1 1 0 0 2 1 0 9; mkng 1 1 0 0 2 1 0 9]
    (Some (fr 1 1)) (Some (fr 1 1)) (Some (fr 1 1)) (Some (mkc false false)) (None))
  f_1e_int1e_ipnucip
  (mkd cq1 ([nabla], [], [nabla]) ([], [], []) []).

(* autocode/hess.c:729  int1e_ipiprinv  nabla nabla | rinv | *)
Definition e_int1e_ipiprinv := mkent
  (mke "int1e_ipiprinv" "CINTgout1e_int1e_ipiprinv" F1rinv
    [mkng 2 0 0 0 2 1 0 9; mkng 2 0 0 0 2 1 0 9; mkng 2 0 0 0 2 1 0 9; mkng 2 0 0 0 2 1 0 9]
    (Some (fr 1 1)) (Some (fr 1 1)) (Some (fr 1 1)) (Some (mkc false false)) (None))
  f_1e_int1e_ipiprinv
  (mkd cq1 ([nabla; nabla], [], []) ([], [], []) []).

(* autocode/hess.c:809  int1e_iprinvip  nabla | rinv | nabla *)
Definition e_int1e_iprinvip := mkent
  (mke "int1e_iprinvip" "CINTgout1e_int1e_iprinvip" F1rinv
    [mkng 1 1 0 0 2 1 0 9; mkng 1 1 0 0 2 1 0 9; mkng 1 1 0 0 2 1 0 9; mkng 1 1 0 0 2 1 0 9]
    (Some (fr 1 1)) (Some (fr 1 1)) (Some (fr 1 1)) (Some (mkc false false)) (None))
  f_1e_int1e_iprinvip
  (mkd cq1 ([nabla], [], [nabla]) ([], [], []) []).

(* autocode/hess.c:951  int1e_ipipr  nabla nabla | rc | *)
Definition e_int1e_ipipr := mkent
  (mke "int1e_ipipr" "CINTgout1e_int1e_ipipr" F1e
    [mkng 2 1 0 0 3 1 1 27; mkng 2 1 0 0 3 1 1 27; mkng 2 1 0 0 3 1 1 27; mkng 2 1 0 0 3 1 1 27]
    (Some (fr 1 1)) (Some (fr 1 1)) (Some (fr 1 1)) (Some (mkc false false)) (None))
  f_1e_int1e_ipipr
  (mkd cq1 ([nabla; nabla], [rc], []) ([], [], []) []).

(* autocode/hess.c:1093  int1e_iprip  nabla | rc | nabla *)
Definition e_int1e_iprip := mkent
  (mke "int1e_iprip" "CINTgout1e_int1e_iprip" F1e
    [mkng 1 2 0 0 3 1 1 27; mkng 1 2 0 0 3 1 1 27; mkng 1 2 0 0 3 1 1 27; mkng 1 2 0 0 3 1 1 27]
    (Some (fr 1 1)) (Some (fr 1 1)) (Some (fr 1 1)) (Some (mkc false false)) (None))
  f_1e_int1e_iprip
  (mkd cq1 ([nabla], [rc], [nabla]) ([], [], []) []).

(* autocode/hess.c:1175  int2e_ipip1  nabla nabla , | , *)
Definition e_int2e_ipip1 := mkent
  (mke "int2e_ipip1" "CINTgout2e_int2e_ipip1" F2e
    [mkng 2 0 0 0 2 1 1 9; mkng 2 0 0 0 2 1 1 9; mkng 2 0 0 0 2 1 1 9; mkng 2 0 0 0 2 1 1 9]
    (Some (fr 1 1)) (Some (fr 1 1)) (Some (fr 1 1)) (Some (mkc false false)) (Some (mkc false false)))
  f_2e_int2e_ipip1
  (mkd cq1 ([nabla; nabla], [], []) ([], [], []) []).

(* autocode/hess.c:1257  int2e_ipvip1  nabla , nabla | , *)
Definition e_int2e_ipvip1 := mkent
  (mke "int2e_ipvip1" "CINTgout2e_int2e_ipvip1" F2e
    [mkng 1 1 0 0 2 1 1 9; mkng 1 1 0 0 2 1 1 9; mkng 1 1 0 0 2 1 1 9; mkng 1 1 0 0 2 1 1 9]
    (Some (fr 1 1)) (Some (fr 1 1)) (Some (fr 1 1)) (Some (mkc false false)) (Some (mkc false false)))
  f_2e_int2e_ipvip1
  (mkd cq1 ([nabla], [], [nabla]) ([], [], []) []).

(* autocode/hess.c:1339  int2e_ip1ip2  nabla , | nabla , *)
Definition e_int2e_ip1ip2 := mkent
  (mke "int2e_ip1ip2" "CINTgout2e_int2e_ip1ip2" F2e
    [mkng 1 0 1 0 2 1 1 9; mkng 1 0 1 0 2 1 1 9; mkng 1 0 1 0 2 1 1 9; mkng 1 0 1 0 2 1 1 9]
    (Some (fr 1 1)) (Some (fr 1 1)) (Some (fr 1 1)) (Some (mkc false false)) (Some (mkc false false)))
  f_2e_int2e_ip1ip2
  (mkd cq1 ([nabla], [], []) ([nabla], [], []) []).

(* autocode/hess.c:1515  int1e_ipippnucp  p* nabla nabla | nuc dot p | *)
Definition e_int1e_ipippnucp := mkent
  (mke "int1e_ipippnucp" "CINTgout1e_int1e_ipippnucp" F1nuc
    [mkng 3 1 0 0 4 1 0 9; mkng 3 1 0 0 4 1 0 9; mkng 3 1 0 0 4 1 0 9; mkng 3 1 0 0 4 1 0 9]
    (Some (fr 1 1)) (Some (fr 1 1)) (Some (fr 1 1)) (Some (mkc false false)) (None))
  f_1e_int1e_ipippnucp
  (mkd cq1 ([p_; nabla; nabla], [dot; p_], []) ([], [], []) []).

(* autocode/hess.c:1691  int1e_ippnucpip  p* nabla | nuc dot p | nabla *)
Definition e_int1e_ippnucpip := mkent
  (mke "int1e_ippnucpip" "CINTgout1e_int1e_ippnucpip" F1nuc
    [mkng 2 2 0 0 4 1 0 9; mkng 2 2 0 0 4 1 0 9; mkng 2 2 0 0 4 1 0 9; mkng 2 2 0 0 4 1 0 9]
    (Some (fr 1 1)) (Some (fr 1 1)) (Some (fr 1 1)) (Some (mkc false false)) (None))
  f_1e_int1e_ippnucpip
  (mkd cq1 ([p_; nabla], [dot; p_], [nabla]) ([], [], []) []).

(* autocode/hess.c:1867  int1e_ipipprinvp  p* nabla nabla | rinv dot p | *)
Definition e_int1e_ipipprinvp := mkent
  (mke "int1e_ipipprinvp" "CINTgout1e_int1e_ipipprinvp" F1rinv
    [mkng 3 1 0 0 4 1 0 9; mkng 3 1 0 0 4 1 0 9; mkng 3 1 0 0 4 1 0 9; mkng 3 1 0 0 4 1 0 9]
    (Some (fr 1 1)) (Some (fr 1 1)) (Some (fr 1 1)) (Some (mkc false false)) (None))
  f_1e_int1e_ipipprinvp
  (mkd cq1 ([p_; nabla; nabla], [dot; p_], []) ([], [], []) []).

(* autocode/hess.c:2043  int1e_ipprinvpip  p* nabla | rinv dot p | nabla *)
Definition e_int1e_ipprinvpip := mkent
  (mke "int1e_ipprinvpip" "CINTgout1e_int1e_ipprinvpip" F1rinv
    [mkng 2 2 0 0 4 1 0 9; mkng 2 2 0 0 4 1 0 9; mkng 2 2 0 0 4 1 0 9; mkng 2 2 0 0 4 1 0 9]
    (Some (fr 1 1)) (Some (fr 1 1)) (Some (fr 1 1)) (Some (mkc false false)) (None))
  f_1e_int1e_ipprinvpip
  (mkd cq1 ([p_; nabla], [dot; p_], [nabla]) ([], [], []) []).

(* autocode/hess.c:2273  int1e_ipipspnucsp  nabla nabla sigma dot p | nuc sigma dot p | *)
Definition e_int1e_ipipspnucsp := mkent
  (mke "int1e_ipipspnucsp" "CINTgout1e_int1e_ipipspnucsp" F1nuc
    [mkng 3 1 0 0 4 4 0 9; mkng 3 1 0 0 4 4 0 9; mkng 3 1 0 0 4 4 0 9; mkng 3 1 0 0 4 4 0 9]
    (Some (fr 1 1)) (Some (fr 1 1)) (Some (fr 1 1)) (Some (mkc true false)) (None))
  f_1e_int1e_ipipspnucsp
  (mkd cq1 ([nabla; nabla; sigma; dot; p_], [sigma; dot; p_], []) ([], [], []) []).

(* autocode/hess.c:2503  int1e_ipspnucspip  nabla sigma dot p | nuc sigma dot p | nabla *)
Definition e_int1e_ipspnucspip := mkent
  (mke "int1e_ipspnucspip" "CINTgout1e_int1e_ipspnucspip" F1nuc
    [mkng 2 2 0 0 4 4 0 9; mkng 2 2 0 0 4 4 0 9; mkng 2 2 0 0 4 4 0 9; mkng 2 2 0 0 4 4 0 9]
    (Some (fr 1 1)) (Some (fr 1 1)) (Some (fr 1 1)) (Some (mkc true false)) (None))
  f_1e_int1e_ipspnucspip
  (mkd cq1 ([nabla; sigma; dot; p_], [sigma; dot; p_], [nabla]) ([], [], []) []).

(* autocode/hess.c:2733  int1e_ipipsprinvsp  nabla nabla sigma dot p | rinv sigma dot p | *)
Definition e_int1e_ipipsprinvsp := mkent
  (mke "int1e_ipipsprinvsp" "CINTgout1e_int1e_ipipsprinvsp" F1rinv
    [mkng 3 1 0 0 4 4 0 9; mkng 3 1 0 0 4 4 0 9; mkng 3 1 0 0 4 4 0 9; mkng 3 1 0 0 4 4 0 9]
    (Some (fr 1 1)) (Some (fr 1 1)) (Some (fr 1 1)) (Some (mkc true false)) (None))
  f_1e_int1e_ipipsprinvsp
  (mkd cq1 ([nabla; nabla; sigma; dot; p_], [sigma; dot; p_], []) ([], [], []) []).

(* autocode/hess.c:2963  int1e_ipsprinvspip  nabla sigma dot p | rinv sigma dot p | nabla *)
Definition e_int1e_ipsprinvspip := mkent
  (mke "int1e_ipsprinvspip" "CINTgout1e_int1e_ipsprinvspip" F1rinv
    [mkng 2 2 0 0 4 4 0 9; mkng 2 2 0 0 4 4 0 9; mkng 2 2 0 0 4 4 0 9; mkng 2 2 0 0 4 4 0 9]
    (Some (fr 1 1)) (Some (fr 1 1)) (Some (fr 1 1)) (Some (mkc true false)) (None))
  f_1e_int1e_ipsprinvspip
  (mkd cq1 ([nabla; sigma; dot; p_], [sigma; dot; p_], [nabla]) ([], [], []) []).

(* autocode/hess.c:3285  int2e_ipip1ipip2  nabla nabla , | nabla nabla , *)
Definition e_int2e_ipip1ipip2 := mkent
  (mke "int2e_ipip1ipip2" "CINTgout2e_int2e_ipip1ipip2" F2e
    [mkng 2 0 2 0 4 1 1 81; mkng 2 0 2 0 4 1 1 81; mkng 2 0 2 0 4 1 1 81; mkng 2 0 2 0 4 1 1 81]
    (Some (fr 1 1)) (Some (fr 1 1)) (Some (fr 1 1)) (Some (mkc false false)) (Some (mkc false false)))
  f_2e_int2e_ipip1ipip2
  (mkd cq1 ([nabla; nabla], [], []) ([nabla; nabla], [], []) []).

(* autocode/hess.c:3607  int2e_ipvip1ipvip2  nabla , nabla | nabla , nabla *)
Definition e_int2e_ipvip1ipvip2 := mkent
  (mke "int2e_ipvip1ipvip2" "CINTgout2e_int2e_ipvip1ipvip2" F2e
    [mkng 1 1 1 1 4 1 1 81; mkng 1 1 1 1 4 1 1 81; mkng 1 1 1 1 4 1 1 81; mkng 1 1 1 1 4 1 1 81]
    (Some (fr 1 1)) (Some (fr 1 1)) (Some (fr 1 1)) (Some (mkc false false)) (Some (mkc false false)))
  f_2e_int2e_ipvip1ipvip2
  (mkd cq1 ([nabla], [], [nabla]) ([nabla], [], [nabla]) []).

(* autocode/int1e_grids1.c:51  int1e_grids_ip  nabla | grids | *)
Definition e_int1e_grids_ip := mkent
  (mke "int1e_grids_ip" "CINTgout1e_int1e_grids_ip" Fgrids
    [mkng 1 0 0 0 1 1 0 3; mkng 1 0 0 0 1 1 0 3; mkng 1 0 0 0 1 1 0 3; mkng 1 0 0 0 1 1 0 3]
    (Some (fr 1 1)) (Some (fr 1 1)) (Some (fr 1 1)) (Some (mkc false false)) (None))
  f_1e_int1e_grids_ip
  (mkd cq1 ([nabla], [], []) ([], [], []) []).

(* autocode/int1e_grids1.c:137  int1e_grids_ipvip  nabla | grids | nabla *)
Definition e_int1e_grids_ipvip := mkent
  (mke "int1e_grids_ipvip" "CINTgout1e_int1e_grids_ipvip" Fgrids
    [mkng 1 1 0 0 2 1 0 9; mkng 1 1 0 0 2 1 0 9; mkng 1 1 0 0 2 1 0 9; mkng 1 1 0 0 2 1 0 9]
    (Some (fr 1 1)) (Some (fr 1 1)) (Some (fr 1 1)) (Some (mkc false false)) (None))
  f_1e_int1e_grids_ipvip
  (mkd cq1 ([nabla], [], [nabla]) ([], [], []) []).

(* autocode/int1e_grids1.c:213  int1e_grids_spvsp  sigma dot p | grids | sigma dot p *)
Definition e_int1e_grids_spvsp := mkent
  (mke "int1e_grids_spvsp" "CINTgout1e_int1e_grids_spvsp" Fgrids
    [mkng 1 1 0 0 2 4 0 1; mkng 1 1 0 0 2 4 0 1; mkng 1 1 0 0 2 4 0 1; mkng 1 1 0 0 2 4 0 1]
    (Some (fr 1 1)) (Some (fr 1 1)) (Some (fr 1 1)) (Some (mkc true false)) (None))
  f_1e_int1e_grids_spvsp
  (mkd cq1 ([sigma; dot; p_], [], [sigma; dot; p_]) ([], [], []) []).

(* autocode/int1e_grids1.c:299  int1e_grids_ipip  nabla nabla | grids | *)
Definition e_int1e_grids_ipip := mkent
  (mke "int1e_grids_ipip" "CINTgout1e_int1e_grids_ipip" Fgrids
    [mkng 2 0 0 0 2 1 0 9; mkng 2 0 0 0 2 1 0 9; mkng 2 0 0 0 2 1 0 9; mkng 2 0 0 0 2 1 0 9]
    (Some (fr 1 1)) (Some (fr 1 1)) (Some (fr 1 1)) (Some (mkc false false)) (None))
  f_1e_int1e_grids_ipip
  (mkd cq1 ([nabla; nabla], [], []) ([], [], []) []).

(* autocode/int3c1e.c:47  int3c1e_p2  , , p dot p *)
Definition e_int3c1e_p2 := mkent
  (mke "int3c1e_p2" "CINTgout1e_int3c1e_p2" F3c1e
    [mkng 0 0 2 0 2 1 1 1; mkng 0 0 2 0 2 1 1 1; mkng 0 0 2 0 2 1 1 1; mkng 0 0 2 0 2 1 1 1]
    (Some (fr 1 1)) (Some (fr 1 1)) (Some (fr 1 1)) (Some (mkc false false)) (None))
  f_1e_int3c1e_p2
  (mkd cq1 ([], [], []) ([p_; dot; p_], [], []) []).

(* autocode/int3c1e.c:102  int3c1e_iprinv  p , | rinv | *)
Definition e_int3c1e_iprinv := mkent
  (mke "int3c1e_iprinv" "CINTgout1e_int3c1e_iprinv" F3c1e
    [mkng 1 0 0 0 1 1 0 3; mkng 1 0 0 0 1 1 0 3; mkng 1 0 0 0 1 1 0 3; mkng 1 0 0 0 1 1 0 3]
    (Some (fr 1 1)) (Some (fr 1 1)) (Some (fr 1 1)) (Some (mkc false true)) (None))
  f_1e_int3c1e_iprinv
  (mkd cq1 ([p_], [], []) ([], [], []) []).

(* autocode/int3c1e.c:157  int3c1e_ip1  nabla , , *)
Definition e_int3c1e_ip1 := mkent
  (mke "int3c1e_ip1" "CINTgout1e_int3c1e_ip1" F3c1e
    [mkng 1 0 0 0 1 1 1 3; mkng 1 0 0 0 1 1 1 3; mkng 1 0 0 0 1 1 1 3; mkng 1 0 0 0 1 1 1 3]
    (Some (fr 1 1)) (Some (fr 1 1)) (Some (fr 1 1)) (Some (mkc false false)) (None))
  f_1e_int3c1e_ip1
  (mkd cq1 ([nabla], [], []) ([], [], []) []).

(* autocode/int3c2e.c:68  int3c2e_ip1  nabla , | *)
Definition e_int3c2e_ip1 := mkent
  (mke "int3c2e_ip1" "CINTgout2e_int3c2e_ip1" F3c2e
    [mkng 1 0 0 0 1 1 1 3; mkng 1 0 0 0 1 1 1 3; mkng 1 0 0 0 1 1 1 3; mkng 1 0 0 0 1 1 1 3]
    (Some (fr 1 1)) (Some (fr 1 1)) (Some (fr 1 1)) (Some (mkc false false)) (None))
  f_2e_int3c2e_ip1
  (mkd cq1 ([nabla], [], []) ([], [], []) []).

(* autocode/int3c2e.c:149  int3c2e_ip2  , | nabla *)
Definition e_int3c2e_ip2 := mkent
  (mke "int3c2e_ip2" "CINTgout2e_int3c2e_ip2" F3c2e
    [mkng 0 0 1 0 1 1 1 3; mkng 0 0 1 0 1 1 1 3; mkng 0 0 1 0 1 1 1 3; mkng 0 0 1 0 1 1 1 3]
    (Some (fr 1 1)) (Some (fr 1 1)) (Some (fr 1 1)) (Some (mkc false false)) (None))
  f_2e_int3c2e_ip2
  (mkd cq1 ([], [], []) ([nabla], [], []) []).

(* autocode/int3c2e.c:214  int3c2e_pvp1  p* , dot p | *)
Definition e_int3c2e_pvp1 := mkent
  (mke "int3c2e_pvp1" "CINTgout2e_int3c2e_pvp1" F3c2e
    [mkng 1 1 0 0 2 1 1 1; mkng 1 1 0 0 2 1 1 1; mkng 1 1 0 0 2 1 1 1; mkng 1 1 0 0 2 1 1 1]
    (Some (fr 1 1)) (Some (fr 1 1)) (Some (fr 1 1)) (Some (mkc false false)) (None))
  f_2e_int3c2e_pvp1
  (mkd cq1 ([p_], [], [dot; p_]) ([], [], []) []).

(* autocode/int3c2e.c:283  int3c2e_pvxp1  p* , cross p | *)
Definition e_int3c2e_pvxp1 := mkent
  (mke "int3c2e_pvxp1" "CINTgout2e_int3c2e_pvxp1" F3c2e
    [mkng 1 1 0 0 2 1 1 3; mkng 1 1 0 0 2 1 1 3; mkng 1 1 0 0 2 1 1 3; mkng 1 1 0 0 2 1 1 3]
    (Some (fr 1 1)) (Some (fr 1 1)) (Some (fr 1 1)) (Some (mkc false false)) (None))
  f_2e_int3c2e_pvxp1
  (mkd cq1 ([p_], [], [cross; p_]) ([], [], []) []).

(* autocode/int3c2e.c:364  int2c2e_ip1  nabla | r12 | *)
Definition e_int2c2e_ip1 := mkent
  (mke "int2c2e_ip1" "CINTgout2e_int2c2e_ip1" F2c2e
    [mkng 1 0 0 0 1 1 1 3; mkng 1 0 0 0 1 1 1 3; mkng 1 0 0 0 1 1 1 3]
    (Some (fr 1 1)) (Some (fr 1 1)) (None) (None) (None))
  f_2e_int2c2e_ip1
  (mkd cq1 ([nabla], [], []) ([], [], []) []).

(* autocode/int3c2e.c:442  int2c2e_ip2  | r12 | nabla *)
Definition e_int2c2e_ip2 := mkent
  (mke "int2c2e_ip2" "CINTgout2e_int2c2e_ip2" F2c2e
    [mkng 0 0 1 0 1 1 1 3; mkng 0 0 1 0 1 1 1 3; mkng 0 0 1 0 1 1 1 3]
    (Some (fr 1 1)) (Some (fr 1 1)) (None) (None) (None))
  f_2e_int2c2e_ip2
  (mkd cq1 ([], [], []) ([nabla], [], []) []).

(* autocode/int3c2e.c:527  int3c2e_ig1  #C(0 1) g , | *)
Definition e_int3c2e_ig1 := mkent
  (mke "int3c2e_ig1" "CINTgout2e_int3c2e_ig1" F3c2e
    [mkng 1 0 0 0 1 1 1 3; mkng 1 0 0 0 1 1 1 3; mkng 1 0 0 0 1 1 1 3; mkng 1 0 0 0 1 1 1 3]
    (Some (fr 1 2)) (Some (fr 1 2)) (Some (fr 1 2)) (Some (mkc false false)) (None))
  f_2e_int3c2e_ig1
  (mkd ((0 # 1)%Q, (1 # 1)%Q) ([g_], [], []) ([], [], []) []).

(* autocode/int3c2e.c:637  int3c2e_spsp1  sigma dot p , sigma dot p | *)
Definition e_int3c2e_spsp1 := mkent
  (mke "int3c2e_spsp1" "CINTgout2e_int3c2e_spsp1" F3c2e
    [mkng 1 1 0 0 2 4 1 1; mkng 1 1 0 0 2 4 1 1; mkng 1 1 0 0 2 4 1 1; mkng 1 1 0 0 2 4 1 1]
    (Some (fr 1 1)) (Some (fr 1 1)) (Some (fr 1 1)) (Some (mkc true false)) (None))
  f_2e_int3c2e_spsp1
  (mkd cq1 ([sigma; dot; p_], [], [sigma; dot; p_]) ([], [], []) []).

(* autocode/int3c2e.c:750  int3c2e_ipspsp1  nabla sigma dot p , sigma dot p | *)
Definition e_int3c2e_ipspsp1 := mkent
  (mke "int3c2e_ipspsp1" "CINTgout2e_int3c2e_ipspsp1" F3c2e
    [mkng 2 1 0 0 3 4 1 3; mkng 2 1 0 0 3 4 1 3; mkng 2 1 0 0 3 4 1 3; mkng 2 1 0 0 3 4 1 3]
    (Some (fr 1 1)) (Some (fr 1 1)) (Some (fr 1 1)) (Some (mkc true false)) (None))
  f_2e_int3c2e_ipspsp1
  (mkd cq1 ([nabla; sigma; dot; p_], [], [sigma; dot; p_]) ([], [], []) []).

(* autocode/int3c2e.c:863  int3c2e_spsp1ip2  sigma dot p , sigma dot p | nabla *)
Definition e_int3c2e_spsp1ip2 := mkent
  (mke "int3c2e_spsp1ip2" "CINTgout2e_int3c2e_spsp1ip2" F3c2e
    [mkng 1 1 1 0 3 4 1 3; mkng 1 1 1 0 3 4 1 3; mkng 1 1 1 0 3 4 1 3; mkng 1 1 1 0 3 4 1 3]
    (Some (fr 1 1)) (Some (fr 1 1)) (Some (fr 1 1)) (Some (mkc true false)) (None))
  f_2e_int3c2e_spsp1ip2
  (mkd cq1 ([sigma; dot; p_], [], [sigma; dot; p_]) ([nabla], [], []) []).

(* autocode/int3c2e.c:944  int3c2e_ipip1  nabla nabla , | *)
Definition e_int3c2e_ipip1 := mkent
  (mke "int3c2e_ipip1" "CINTgout2e_int3c2e_ipip1" F3c2e
    [mkng 2 0 0 0 2 1 1 9; mkng 2 0 0 0 2 1 1 9; mkng 2 0 0 0 2 1 1 9; mkng 2 0 0 0 2 1 1 9]
    (Some (fr 1 1)) (Some (fr 1 1)) (Some (fr 1 1)) (Some (mkc false false)) (None))
  f_2e_int3c2e_ipip1
  (mkd cq1 ([nabla; nabla], [], []) ([], [], []) []).

(* autocode/int3c2e.c:1025  int3c2e_ipip2  , | nabla nabla *)
Definition e_int3c2e_ipip2 := mkent
  (mke "int3c2e_ipip2" "CINTgout2e_int3c2e_ipip2" F3c2e
    [mkng 0 0 2 0 2 1 1 9; mkng 0 0 2 0 2 1 1 9; mkng 0 0 2 0 2 1 1 9; mkng 0 0 2 0 2 1 1 9]
    (Some (fr 1 1)) (Some (fr 1 1)) (Some (fr 1 1)) (Some (mkc false false)) (None))
  f_2e_int3c2e_ipip2
  (mkd cq1 ([], [], []) ([nabla; nabla], [], []) []).

(* autocode/int3c2e.c:1106  int3c2e_ipvip1  nabla , nabla | *)
Definition e_int3c2e_ipvip1 := mkent
  (mke "int3c2e_ipvip1" "CINTgout2e_int3c2e_ipvip1" F3c2e
    [mkng 1 1 0 0 2 1 1 9; mkng 1 1 0 0 2 1 1 9; mkng 1 1 0 0 2 1 1 9; mkng 1 1 0 0 2 1 1 9]
    (Some (fr 1 1)) (Some (fr 1 1)) (Some (fr 1 1)) (Some (mkc false false)) (None))
  f_2e_int3c2e_ipvip1
  (mkd cq1 ([nabla], [], [nabla]) ([], [], []) []).

(* autocode/int3c2e.c:1187  int3c2e_ip1ip2  nabla , | nabla *)
Definition e_int3c2e_ip1ip2 := mkent
  (mke "int3c2e_ip1ip2" "CINTgout2e_int3c2e_ip1ip2" F3c2e
    [mkng 1 0 1 0 2 1 1 9; mkng 1 0 1 0 2 1 1 9; mkng 1 0 1 0 2 1 1 9; mkng 1 0 1 0 2 1 1 9]
    (Some (fr 1 1)) (Some (fr 1 1)) (Some (fr 1 1)) (Some (mkc false false)) (None))
  f_2e_int3c2e_ip1ip2
  (mkd cq1 ([nabla], [], []) ([nabla], [], []) []).

(* autocode/int3c2e.c:1268  int2c2e_ipip1  nabla nabla | r12 | *)
Definition e_int2c2e_ipip1 := mkent
  (mke "int2c2e_ipip1" "CINTgout2e_int2c2e_ipip1" F2c2e
    [mkng 2 0 0 0 2 1 1 9; mkng 2 0 0 0 2 1 1 9; mkng 2 0 0 0 2 1 1 9]
    (Some (fr 1 1)) (Some (fr 1 1)) (None) (None) (None))
  f_2e_int2c2e_ipip1
  (mkd cq1 ([nabla; nabla], [], []) ([], [], []) []).

(* autocode/int3c2e.c:1346  int2c2e_ip1ip2  nabla | r12 | nabla *)
Definition e_int2c2e_ip1ip2 := mkent
  (mke "int2c2e_ip1ip2" "CINTgout2e_int2c2e_ip1ip2" F2c2e
    [mkng 1 0 1 0 2 1 1 9; mkng 1 0 1 0 2 1 1 9; mkng 1 0 1 0 2 1 1 9]
    (Some (fr 1 1)) (Some (fr 1 1)) (None) (None) (None))
  f_2e_int2c2e_ip1ip2
  (mkd cq1 ([nabla], [], []) ([nabla], [], []) []).

(* autocode/intor1.c:47  int1e_kin  .5 | p dot p *)
Definition e_int1e_kin := mkent
  (mke "int1e_kin" "CINTgout1e_int1e_kin" F1e
    [mkng 0 2 0 0 2 1 1 1; mkng 0 2 0 0 2 1 1 1; mkng 0 2 0 0 2 1 1 1; mkng 0 2 0 0 2 1 1 1]
    (Some (fr 1 2)) (Some (fr 1 2)) (Some (fr 1 2)) (Some (mkc false false)) (None))
  f_1e_int1e_kin
  (mkd ((1 # 2)%Q, (0 # 1)%Q) ([], [], [p_; dot; p_]) ([], [], []) []).

(* autocode/intor1.c:120  int1e_ia01p  #C(0 1) | nabla-rinv | cross p *)
Definition e_int1e_ia01p := mkent
  (mke "int1e_ia01p" "CINTgout1e_int1e_ia01p" F1rinv
    [mkng 1 2 0 0 2 1 0 3; mkng 1 2 0 0 2 1 0 3; mkng 1 2 0 0 2 1 0 3; mkng 1 2 0 0 2 1 0 3]
    (Some (fr 1 1)) (Some (fr 1 1)) (Some (fr 1 1)) (Some (mkc false false)) (None))
  f_1e_int1e_ia01p
  (mkd ((0 # 1)%Q, (1 # 1)%Q) ([], [grad], [cross; p_]) ([], [], []) []).

(* autocode/intor1.c:184  int1e_giao_irjxp  #C(0 1) | r cross p *)
Definition e_int1e_giao_irjxp := mkent
  (mke "int1e_giao_irjxp" "CINTgout1e_int1e_giao_irjxp" F1e
    [mkng 0 2 0 0 2 1 1 3; mkng 0 2 0 0 2 1 1 3; mkng 0 2 0 0 2 1 1 3; mkng 0 2 0 0 2 1 1 3]
    (Some (fr 1 1)) (Some (fr 1 1)) (Some (fr 1 1)) (Some (mkc false false)) (None))
  f_1e_int1e_giao_irjxp
  (mkd ((0 # 1)%Q, (1 # 1)%Q) ([], [], [r_; cross; p_]) ([], [], []) []).

(* autocode/intor1.c:252  int1e_cg_irxp  #C(0 1) | rc cross p *)
Definition e_int1e_cg_irxp := mkent
  (mke "int1e_cg_irxp" "CINTgout1e_int1e_cg_irxp" F1e
    [mkng 0 2 0 0 2 1 1 3; mkng 0 2 0 0 2 1 1 3; mkng 0 2 0 0 2 1 1 3; mkng 0 2 0 0 2 1 1 3]
    (Some (fr 1 1)) (Some (fr 1 1)) (Some (fr 1 1)) (Some (mkc false false)) (None))
  f_1e_int1e_cg_irxp
  (mkd ((0 # 1)%Q, (1 # 1)%Q) ([], [], [rc; cross; p_]) ([], [], []) []).

(* autocode/intor1.c:334  int1e_giao_a11part  -.5 | nabla-rinv | r *)
Definition e_int1e_giao_a11part := mkent
  (mke "int1e_giao_a11part" "CINTgout1e_int1e_giao_a11part" F1rinv
    [mkng 1 2 0 0 2 1 0 9; mkng 1 2 0 0 2 1 0 9; mkng 1 2 0 0 2 1 0 9; mkng 1 2 0 0 2 1 0 9]
    (Some (fr (-1) 2)) (Some (fr (-1) 2)) (Some (fr (-1) 2)) (Some (mkc false false)) (None))
  f_1e_int1e_giao_a11part
  (mkd (((-1) # 2)%Q, (0 # 1)%Q) ([], [grad], [r_]) ([], [], []) []).

(* autocode/intor1.c:423  int1e_cg_a11part  -.5 | nabla-rinv | rc *)
Definition e_int1e_cg_a11part := mkent
  (mke "int1e_cg_a11part" "CINTgout1e_int1e_cg_a11part" F1rinv
    [mkng 1 2 0 0 2 1 0 9; mkng 1 2 0 0 2 1 0 9; mkng 1 2 0 0 2 1 0 9; mkng 1 2 0 0 2 1 0 9]
    (Some (fr (-1) 2)) (Some (fr (-1) 2)) (Some (fr (-1) 2)) (Some (mkc false false)) (None))
  f_1e_int1e_cg_a11part
  (mkd (((-1) # 2)%Q, (0 # 1)%Q) ([], [grad], [rc]) ([], [], []) []).

(* autocode/intor1.c:541  int1e_a01gp  g | nabla-rinv cross p | *)
Definition e_int1e_a01gp := mkent
  (mke "int1e_a01gp" "CINTgout1e_int1e_a01gp" F1rinv
    [mkng 2 2 0 0 3 1 0 9; mkng 2 2 0 0 3 1 0 9; mkng 2 2 0 0 3 1 0 9; mkng 2 2 0 0 3 1 0 9]
    (Some (fr 1 2)) (Some (fr 1 2)) (Some (fr 1 2)) (Some (mkc false false)) (None))
  f_1e_int1e_a01gp
  (mkd cq1 ([g_], [grad; cross; p_], []) ([], [], []) []).

(* autocode/intor1.c:677  int1e_igkin  #C(0 .5) g | p dot p *)
Definition e_int1e_igkin := mkent
  (mke "int1e_igkin" "CINTgout1e_int1e_igkin" F1e
    [mkng 1 2 0 0 3 1 1 3; mkng 1 2 0 0 3 1 1 3; mkng 1 2 0 0 3 1 1 3; mkng 1 2 0 0 3 1 1 3]
    (Some (fr 1 4)) (Some (fr 1 4)) (Some (fr 1 4)) (Some (mkc false false)) (None))
  f_1e_int1e_igkin
  (mkd ((0 # 1)%Q, (1 # 2)%Q) ([g_], [], [p_; dot; p_]) ([], [], []) []).

(* autocode/intor1.c:777  int1e_igovlp  #C(0 1) g | *)
Definition e_int1e_igovlp := mkent
  (mke "int1e_igovlp" "CINTgout1e_int1e_igovlp" F1e
    [mkng 1 0 0 0 1 1 1 3; mkng 1 0 0 0 1 1 1 3; mkng 1 0 0 0 1 1 1 3; mkng 1 0 0 0 1 1 1 3]
    (Some (fr 1 2)) (Some (fr 1 2)) (Some (fr 1 2)) (Some (mkc false false)) (None))
  f_1e_int1e_igovlp
  (mkd ((0 # 1)%Q, (1 # 1)%Q) ([g_], [], []) ([], [], []) []).

(* autocode/intor1.c:881  int1e_ignuc  #C(0 1) g | nuc | *)
Definition e_int1e_ignuc := mkent
  (mke "int1e_ignuc" "CINTgout1e_int1e_ignuc" F1nuc
    [mkng 1 0 0 0 1 1 0 3; mkng 1 0 0 0 1 1 0 3; mkng 1 0 0 0 1 1 0 3; mkng 1 0 0 0 1 1 0 3]
    (Some (fr 1 2)) (Some (fr 1 2)) (Some (fr 1 2)) (Some (mkc false false)) (None))
  f_1e_int1e_ignuc
  (mkd ((0 # 1)%Q, (1 # 1)%Q) ([g_], [], []) ([], [], []) []).

(* autocode/intor1.c:984  int1e_pnucp  p* | nuc dot p | *)
Definition e_int1e_pnucp := mkent
  (mke "int1e_pnucp" "CINTgout1e_int1e_pnucp" F1nuc
    [mkng 1 1 0 0 2 1 0 1; mkng 1 1 0 0 2 1 0 1; mkng 1 1 0 0 2 1 0 1; mkng 1 1 0 0 2 1 0 1]
    (Some (fr 1 1)) (Some (fr 1 1)) (Some (fr 1 1)) (Some (mkc false false)) (None))
  f_1e_int1e_pnucp
  (mkd cq1 ([p_], [dot; p_], []) ([], [], []) []).

(* autocode/intor1.c:1038  int1e_z  | zc | *)
Definition e_int1e_z := mkent
  (mke "int1e_z" "CINTgout1e_int1e_z" F1e
    [mkng 0 1 0 0 1 1 1 1; mkng 0 1 0 0 1 1 1 1; mkng 0 1 0 0 1 1 1 1; mkng 0 1 0 0 1 1 1 1]
    (Some (fr 1 1)) (Some (fr 1 1)) (Some (fr 1 1)) (Some (mkc false false)) (None))
  f_1e_int1e_z
  (mkd cq1 ([], [zc], []) ([], [], []) []).

(* autocode/intor1.c:1102  int1e_zz  | zc zc | *)
Definition e_int1e_zz := mkent
  (mke "int1e_zz" "CINTgout1e_int1e_zz" F1e
    [mkng 0 2 0 0 2 1 1 1; mkng 0 2 0 0 2 1 1 1; mkng 0 2 0 0 2 1 1 1; mkng 0 2 0 0 2 1 1 1]
    (Some (fr 1 1)) (Some (fr 1 1)) (Some (fr 1 1)) (Some (mkc false false)) (None))
  f_1e_int1e_zz
  (mkd cq1 ([], [zc; zc], []) ([], [], []) []).

(* autocode/intor1.c:1160  int1e_r  | rc | *)
Definition e_int1e_r := mkent
  (mke "int1e_r" "CINTgout1e_int1e_r" F1e
    [mkng 0 1 0 0 1 1 1 3; mkng 0 1 0 0 1 1 1 3; mkng 0 1 0 0 1 1 1 3; mkng 0 1 0 0 1 1 1 3]
    (Some (fr 1 1)) (Some (fr 1 1)) (Some (fr 1 1)) (Some (mkc false false)) (None))
  f_1e_int1e_r
  (mkd cq1 ([], [rc], []) ([], [], []) []).

(* autocode/intor1.c:1224  int1e_r2  | rc dot rc | *)
Definition e_int1e_r2 := mkent
  (mke "int1e_r2" "CINTgout1e_int1e_r2" F1e
    [mkng 0 2 0 0 2 1 1 1; mkng 0 2 0 0 2 1 1 1; mkng 0 2 0 0 2 1 1 1; mkng 0 2 0 0 2 1 1 1]
    (Some (fr 1 1)) (Some (fr 1 1)) (Some (fr 1 1)) (Some (mkc false false)) (None))
  f_1e_int1e_r2
  (mkd cq1 ([], [rc; dot; rc], []) ([], [], []) []).

(* autocode/intor1.c:1384  int1e_r4  | rc dot rc rc dot rc | *)
Definition e_int1e_r4 := mkent
  (mke "int1e_r4" "CINTgout1e_int1e_r4" F1e
    [mkng 0 4 0 0 4 1 1 1; mkng 0 4 0 0 4 1 1 1; mkng 0 4 0 0 4 1 1 1; mkng 0 4 0 0 4 1 1 1]
    (Some (fr 1 1)) (Some (fr 1 1)) (Some (fr 1 1)) (Some (mkc false false)) (None))
  f_1e_int1e_r4
  (mkd cq1 ([], [rc; dot; rc; rc; dot; rc], []) ([], [], []) []).

(* autocode/intor1.c:1464  int1e_rr  | rc rc | *)
Definition e_int1e_rr := mkent
  (mke "int1e_rr" "CINTgout1e_int1e_rr" F1e
    [mkng 0 2 0 0 2 1 1 9; mkng 0 2 0 0 2 1 1 9; mkng 0 2 0 0 2 1 1 9; mkng 0 2 0 0 2 1 1 9]
    (Some (fr 1 1)) (Some (fr 1 1)) (Some (fr 1 1)) (Some (mkc false false)) (None))
  f_1e_int1e_rr
  (mkd cq1 ([], [rc; rc], []) ([], [], []) []).

(* autocode/intor1.c:1606  int1e_rrr  | rc rc rc | *)
Definition e_int1e_rrr := mkent
  (mke "int1e_rrr" "CINTgout1e_int1e_rrr" F1e
    [mkng 0 3 0 0 3 1 1 27; mkng 0 3 0 0 3 1 1 27; mkng 0 3 0 0 3 1 1 27; mkng 0 3 0 0 3 1 1 27]
    (Some (fr 1 1)) (Some (fr 1 1)) (Some (fr 1 1)) (Some (mkc false false)) (None))
  f_1e_int1e_rrr
  (mkd cq1 ([], [rc; rc; rc], []) ([], [], []) []).

(* autocode/intor1.c:1926  int1e_rrrr  | rc rc rc rc | *)
Definition e_int1e_rrrr := mkent
  (mke "int1e_rrrr" "CINTgout1e_int1e_rrrr" F1e
    [mkng 0 4 0 0 4 1 1 81; mkng 0 4 0 0 4 1 1 81; mkng 0 4 0 0 4 1 1 81; mkng 0 4 0 0 4 1 1 81]
    (Some (fr 1 1)) (Some (fr 1 1)) (Some (fr 1 1)) (Some (mkc false false)) (None))
  f_1e_int1e_rrrr
  (mkd cq1 ([], [rc; rc; rc; rc], []) ([], [], []) []).

(* autocode/intor1.c:1976  int1e_z_origj  | z | *)
Definition e_int1e_z_origj := mkent
  (mke "int1e_z_origj" "CINTgout1e_int1e_z_origj" F1e
    [mkng 0 1 0 0 1 1 1 1; mkng 0 1 0 0 1 1 1 1; mkng 0 1 0 0 1 1 1 1; mkng 0 1 0 0 1 1 1 1]
    (Some (fr 1 1)) (Some (fr 1 1)) (Some (fr 1 1)) (Some (mkc false false)) (None))
  f_1e_int1e_z_origj
  (mkd cq1 ([], [z_], []) ([], [], []) []).

(* autocode/intor1.c:2036  int1e_zz_origj  | z z | *)
Definition e_int1e_zz_origj := mkent
  (mke "int1e_zz_origj" "CINTgout1e_int1e_zz_origj" F1e
    [mkng 0 2 0 0 2 1 1 1; mkng 0 2 0 0 2 1 1 1; mkng 0 2 0 0 2 1 1 1; mkng 0 2 0 0 2 1 1 1]
    (Some (fr 1 1)) (Some (fr 1 1)) (Some (fr 1 1)) (Some (mkc false false)) (None))
  f_1e_int1e_zz_origj
  (mkd cq1 ([], [z_; z_], []) ([], [], []) []).

(* autocode/intor1.c:2090  int1e_r_origj  | r | *)
Definition e_int1e_r_origj := mkent
  (mke "int1e_r_origj" "CINTgout1e_int1e_r_origj" F1e
    [mkng 0 1 0 0 1 1 1 3; mkng 0 1 0 0 1 1 1 3; mkng 0 1 0 0 1 1 1 3; mkng 0 1 0 0 1 1 1 3]
    (Some (fr 1 1)) (Some (fr 1 1)) (Some (fr 1 1)) (Some (mkc false false)) (None))
  f_1e_int1e_r_origj
  (mkd cq1 ([], [r_], []) ([], [], []) []).

(* autocode/intor1.c:2166  int1e_rr_origj  | r r | *)
Definition e_int1e_rr_origj := mkent
  (mke "int1e_rr_origj" "CINTgout1e_int1e_rr_origj" F1e
    [mkng 0 2 0 0 2 1 1 9; mkng 0 2 0 0 2 1 1 9; mkng 0 2 0 0 2 1 1 9; mkng 0 2 0 0 2 1 1 9]
    (Some (fr 1 1)) (Some (fr 1 1)) (Some (fr 1 1)) (Some (mkc false false)) (None))
  f_1e_int1e_rr_origj
  (mkd cq1 ([], [r_; r_], []) ([], [], []) []).

(* autocode/intor1.c:2226  int1e_r2_origj  | r dot r | *)
Definition e_int1e_r2_origj := mkent
  (mke "int1e_r2_origj" "CINTgout1e_int1e_r2_origj" F1e
    [mkng 0 2 0 0 2 1 1 1; mkng 0 2 0 0 2 1 1 1; mkng 0 2 0 0 2 1 1 1; mkng 0 2 0 0 2 1 1 1]
    (Some (fr 1 1)) (Some (fr 1 1)) (Some (fr 1 1)) (Some (mkc false false)) (None))
  f_1e_int1e_r2_origj
  (mkd cq1 ([], [r_; dot; r_], []) ([], [], []) []).

(* autocode/intor1.c:2382  int1e_r4_origj  | r dot r r dot r *)
Definition e_int1e_r4_origj := mkent
  (mke "int1e_r4_origj" "CINTgout1e_int1e_r4_origj" F1e
    [mkng 0 4 0 0 4 1 1 1; mkng 0 4 0 0 4 1 1 1; mkng 0 4 0 0 4 1 1 1; mkng 0 4 0 0 4 1 1 1]
    (Some (fr 1 1)) (Some (fr 1 1)) (Some (fr 1 1)) (Some (mkc false false)) (None))
  f_1e_int1e_r4_origj
  (mkd cq1 ([], [], [r_; dot; r_; r_; dot; r_]) ([], [], []) []).

(* autocode/intor1.c:2538  int1e_p4  p dot p | p dot p *)
Definition e_int1e_p4 := mkent
  (mke "int1e_p4" "CINTgout1e_int1e_p4" F1e
    [mkng 2 2 0 0 4 1 1 1; mkng 2 2 0 0 4 1 1 1; mkng 2 2 0 0 4 1 1 1; mkng 2 2 0 0 4 1 1 1]
    (Some (fr 1 1)) (Some (fr 1 1)) (Some (fr 1 1)) (Some (mkc false false)) (None))
  f_1e_int1e_p4
  (mkd cq1 ([p_; dot; p_], [], [p_; dot; p_]) ([], [], []) []).

(* autocode/intor1.c:2602  int1e_prinvp  p* | rinv dot p | *)
Definition e_int1e_prinvp := mkent
  (mke "int1e_prinvp" "CINTgout1e_int1e_prinvp" F1rinv
    [mkng 1 1 0 0 2 1 0 1; mkng 1 1 0 0 2 1 0 1; mkng 1 1 0 0 2 1 0 1; mkng 1 1 0 0 2 1 0 1]
    (Some (fr 1 1)) (Some (fr 1 1)) (Some (fr 1 1)) (Some (mkc false false)) (None))
  f_1e_int1e_prinvp
  (mkd cq1 ([p_], [dot; p_], []) ([], [], []) []).

(* autocode/intor1.c:2670  int1e_prinvxp  p* | rinv cross p | *)
Definition e_int1e_prinvxp := mkent
  (mke "int1e_prinvxp" "CINTgout1e_int1e_prinvxp" F1rinv
    [mkng 1 1 0 0 2 1 0 3; mkng 1 1 0 0 2 1 0 3; mkng 1 1 0 0 2 1 0 3; mkng 1 1 0 0 2 1 0 3]
    (Some (fr 1 1)) (Some (fr 1 1)) (Some (fr 1 1)) (Some (mkc false false)) (None))
  f_1e_int1e_prinvxp
  (mkd cq1 ([p_], [cross; p_], []) ([], [], []) []).

(* autocode/intor1.c:2738  int1e_pnucxp  p* | nuc cross p | *)
Definition e_int1e_pnucxp := mkent
  (mke "int1e_pnucxp" "CINTgout1e_int1e_pnucxp" F1nuc
    [mkng 1 1 0 0 2 1 0 3; mkng 1 1 0 0 2 1 0 3; mkng 1 1 0 0 2 1 0 3; mkng 1 1 0 0 2 1 0 3]
    (Some (fr 1 1)) (Some (fr 1 1)) (Some (fr 1 1)) (Some (mkc false false)) (None))
  f_1e_int1e_pnucxp
  (mkd cq1 ([p_], [cross; p_], []) ([], [], []) []).

(* autocode/intor1.c:2818  int1e_irp  | rc nabla | *)
Definition e_int1e_irp := mkent
  (mke "int1e_irp" "CINTgout1e_int1e_irp" F1e
    [mkng 0 2 0 0 2 1 1 9; mkng 0 2 0 0 2 1 1 9; mkng 0 2 0 0 2 1 1 9; mkng 0 2 0 0 2 1 1 9]
    (Some (fr 1 1)) (Some (fr 1 1)) (Some (fr 1 1)) (Some (mkc false false)) (None))
  f_1e_int1e_irp
  (mkd cq1 ([], [rc; nabla], []) ([], [], []) []).

(* autocode/intor1.c:2960  int1e_irrp  | rc rc nabla | *)
Definition e_int1e_irrp := mkent
  (mke "int1e_irrp" "CINTgout1e_int1e_irrp" F1e
    [mkng 0 3 0 0 3 1 1 27; mkng 0 3 0 0 3 1 1 27; mkng 0 3 0 0 3 1 1 27; mkng 0 3 0 0 3 1 1 27]
    (Some (fr 1 1)) (Some (fr 1 1)) (Some (fr 1 1)) (Some (mkc false false)) (None))
  f_1e_int1e_irrp
  (mkd cq1 ([], [rc; rc; nabla], []) ([], [], []) []).

(* autocode/intor1.c:3102  int1e_irpr  | rc nabla rc | *)
Definition e_int1e_irpr := mkent
  (mke "int1e_irpr" "CINTgout1e_int1e_irpr" F1e
    [mkng 0 3 0 0 3 1 1 27; mkng 0 3 0 0 3 1 1 27; mkng 0 3 0 0 3 1 1 27; mkng 0 3 0 0 3 1 1 27]
    (Some (fr 1 1)) (Some (fr 1 1)) (Some (fr 1 1)) (Some (mkc false false)) (None))
  f_1e_int1e_irpr
  (mkd cq1 ([], [rc; nabla; rc], []) ([], [], []) []).

(* autocode/intor1.c:3191  int1e_ggovlp  | g g | *)
Definition e_int1e_ggovlp := mkent
  (mke "int1e_ggovlp" "CINTgout1e_int1e_ggovlp" F1e
    [mkng 0 2 0 0 2 1 1 9; mkng 0 2 0 0 2 1 1 9; mkng 0 2 0 0 2 1 1 9; mkng 0 2 0 0 2 1 1 9]
    (Some (fr 1 4)) (Some (fr 1 4)) (Some (fr 1 4)) (Some (mkc false false)) (None))
  f_1e_int1e_ggovlp
  (mkd cq1 ([], [g_; g_], []) ([], [], []) []).

(* autocode/intor1.c:3379  int1e_ggkin  .5 | g g p dot p | *)
Definition e_int1e_ggkin := mkent
  (mke "int1e_ggkin" "CINTgout1e_int1e_ggkin" F1e
    [mkng 0 4 0 0 4 1 1 9; mkng 0 4 0 0 4 1 1 9; mkng 0 4 0 0 4 1 1 9; mkng 0 4 0 0 4 1 1 9]
    (Some (fr 1 8)) (Some (fr 1 8)) (Some (fr 1 8)) (Some (mkc false false)) (None))
  f_1e_int1e_ggkin
  (mkd ((1 # 2)%Q, (0 # 1)%Q) ([], [g_; g_; p_; dot; p_], []) ([], [], []) []).

(* autocode/intor1.c:3475  int1e_ggnuc  | g g nuc | *)
Definition e_int1e_ggnuc := mkent
  (mke "int1e_ggnuc" "CINTgout1e_int1e_ggnuc" F1nuc
    [mkng 0 2 0 0 2 1 0 9; mkng 0 2 0 0 2 1 0 9; mkng 0 2 0 0 2 1 0 9; mkng 0 2 0 0 2 1 0 9]
    (Some (fr 1 4)) (Some (fr 1 4)) (Some (fr 1 4)) (Some (mkc false false)) (None))
  f_1e_int1e_ggnuc
  (mkd cq1 ([], [g_; g_], []) ([], [], []) []).

(* autocode/intor1.c:3587  int1e_grjxp  | g r cross p | *)
Definition e_int1e_grjxp := mkent
  (mke "int1e_grjxp" "CINTgout1e_int1e_grjxp" F1e
    [mkng 0 3 0 0 3 1 1 9; mkng 0 3 0 0 3 1 1 9; mkng 0 3 0 0 3 1 1 9; mkng 0 3 0 0 3 1 1 9]
    (Some (fr 1 2)) (Some (fr 1 2)) (Some (fr 1 2)) (Some (mkc false false)) (None))
  f_1e_int1e_grjxp
  (mkd cq1 ([], [g_; r_; cross; p_], []) ([], [], []) []).

(* autocode/intor1.c:3640  int1e_rinv  | rinv | *)
Definition e_int1e_rinv := mkent
  (mke "int1e_rinv" "CINTgout1e_int1e_rinv" F1rinv
    [mkng 0 0 0 0 0 1 0 1; mkng 0 0 0 0 0 1 0 1; mkng 0 0 0 0 0 1 0 1; mkng 0 0 0 0 0 1 0 1]
    (Some (fr 1 1)) (Some (fr 1 1)) (Some (fr 1 1)) (Some (mkc false false)) (None))
  f_1e_int1e_rinv
  (mkd cq1 ([], [], []) ([], [], []) []).

(* autocode/intor1.c:3701  int1e_drinv  | nabla-rinv | *)
Definition e_int1e_drinv := mkent
  (mke "int1e_drinv" "CINTgout1e_int1e_drinv" F1rinv
    [mkng 1 1 0 0 1 1 0 3; mkng 1 1 0 0 1 1 0 3; mkng 1 1 0 0 1 1 0 3; mkng 1 1 0 0 1 1 0 3]
    (Some (fr 1 1)) (Some (fr 1 1)) (Some (fr 1 1)) (Some (mkc false false)) (None))
  f_1e_int1e_drinv
  (mkd cq1 ([], [grad], []) ([], [], []) []).

(* autocode/intor2.c:77  int2e_ig1  #C(0 1) g , | , *)
Definition e_int2e_ig1 := mkent
  (mke "int2e_ig1" "CINTgout2e_int2e_ig1" F2e
    [mkng 1 0 0 0 1 1 1 3; mkng 1 0 0 0 1 1 1 3; mkng 1 0 0 0 1 1 1 3; mkng 1 0 0 0 1 1 1 3]
    (Some (fr 1 2)) (Some (fr 1 2)) (Some (fr 1 2)) (Some (mkc false false)) (Some (mkc false false)))
  f_2e_int2e_ig1
  (mkd ((0 # 1)%Q, (1 # 1)%Q) ([g_], [], []) ([], [], []) []).

(* autocode/intor2.c:212  int2e_gg1  g g , | , *)
Definition e_int2e_gg1 := mkent
  (mke "int2e_gg1" "CINTgout2e_int2e_gg1" F2e
    [mkng 2 0 0 0 2 1 1 9; mkng 2 0 0 0 2 1 1 9; mkng 2 0 0 0 2 1 1 9; mkng 2 0 0 0 2 1 1 9]
    (Some (fr 1 4)) (Some (fr 1 4)) (Some (fr 1 4)) (Some (mkc false false)) (Some (mkc false false)))
  f_2e_int2e_gg1
  (mkd cq1 ([g_; g_], [], []) ([], [], []) []).

(* autocode/intor2.c:351  int2e_g1g2  -1 g , | g , *)
Definition e_int2e_g1g2 := mkent
  (mke "int2e_g1g2" "CINTgout2e_int2e_g1g2" F2e
    [mkng 1 0 1 0 2 1 1 9; mkng 1 0 1 0 2 1 1 9; mkng 1 0 1 0 2 1 1 9; mkng 1 0 1 0 2 1 1 9]
    (Some (fr (-1) 4)) (Some (fr (-1) 4)) (Some (fr (-1) 4)) (Some (mkc false true)) (Some (mkc false true)))
  f_2e_int2e_g1g2
  (mkd (((-1) # 1)%Q, (0 # 1)%Q) ([g_], [], []) ([g_], [], []) []).

(* autocode/intor2.c:490  int2e_p1vxp1  p* , cross p | , *)
Definition e_int2e_p1vxp1 := mkent
  (mke "int2e_p1vxp1" "CINTgout2e_int2e_p1vxp1" F2e
    [mkng 1 1 0 0 2 1 1 3; mkng 1 1 0 0 2 1 1 3; mkng 1 1 0 0 2 1 1 3; mkng 1 1 0 0 2 1 1 3]
    (Some (fr 1 1)) (Some (fr 1 1)) (Some (fr 1 1)) (Some (mkc false false)) (Some (mkc false false)))
  f_2e_int2e_p1vxp1
  (mkd cq1 ([p_], [], [cross; p_]) ([], [], []) []).

(* autocode/intor2.c:578  int2e_ip1v_rc1  , rc | nabla-r12 | , *)
Definition e_int2e_ip1v_rc1 := mkent
  (mke "int2e_ip1v_rc1" "CINTgout2e_int2e_ip1v_rc1" F2e
    [mkng 1 2 0 0 2 1 1 9; mkng 1 2 0 0 2 1 1 9; mkng 1 2 0 0 2 1 1 9; mkng 1 2 0 0 2 1 1 9]
    (Some (fr 1 1)) (Some (fr 1 1)) (Some (fr 1 1)) (Some (mkc false false)) (Some (mkc false false)))
  f_2e_int2e_ip1v_rc1
  (mkd cq1 ([], [grad], [rc]) ([], [], []) []).

(* autocode/intor2.c:662  int2e_ip1v_r1  , r | nabla-r12 | , *)
Definition e_int2e_ip1v_r1 := mkent
  (mke "int2e_ip1v_r1" "CINTgout2e_int2e_ip1v_r1" F2e
    [mkng 1 2 0 0 2 1 1 9; mkng 1 2 0 0 2 1 1 9; mkng 1 2 0 0 2 1 1 9; mkng 1 2 0 0 2 1 1 9]
    (Some (fr 1 1)) (Some (fr 1 1)) (Some (fr 1 1)) (Some (mkc false false)) (Some (mkc false false)))
  f_2e_int2e_ip1v_r1
  (mkd cq1 ([], [grad], [r_]) ([], [], []) []).

(* autocode/intor2.c:780  int2e_ipvg1_xp1  g , | nabla-r12 cross p | , *)
Definition e_int2e_ipvg1_xp1 := mkent
  (mke "int2e_ipvg1_xp1" "CINTgout2e_int2e_ipvg1_xp1" F2e
    [mkng 2 1 0 0 3 1 1 9; mkng 2 1 0 0 3 1 1 9; mkng 2 1 0 0 3 1 1 9; mkng 2 1 0 0 3 1 1 9]
    (Some (fr 1 2)) (Some (fr 1 2)) (Some (fr 1 2)) (Some (mkc false false)) (Some (mkc false false)))
  f_2e_int2e_ipvg1_xp1
  (mkd cq1 ([g_], [grad; cross; p_], []) ([], [], []) []).

(* autocode/intor2.c:939  int2e_ipvg2_xp1  , | nabla-r12 cross p | g , *)
Definition e_int2e_ipvg2_xp1 := mkent
  (mke "int2e_ipvg2_xp1" "CINTgout2e_int2e_ipvg2_xp1" F2e
    [mkng 1 1 1 0 3 1 1 9; mkng 1 1 1 0 3 1 1 9; mkng 1 1 1 0 3 1 1 9; mkng 1 1 1 0 3 1 1 9]
    (Some (fr 1 2)) (Some (fr 1 2)) (Some (fr 1 2)) (Some (mkc false true)) (Some (mkc false true)))
  f_2e_int2e_ipvg2_xp1
  (mkd cq1 ([], [grad; cross; p_], []) ([g_], [], []) []).

(* autocode/intor2.c:1050  int1e_inuc_rcxp  #C(0 1) | nuc | rc cross p *)
Definition e_int1e_inuc_rcxp := mkent
  (mke "int1e_inuc_rcxp" "CINTgout1e_int1e_inuc_rcxp" F1nuc
    [mkng 0 2 0 0 2 1 0 3; mkng 0 2 0 0 2 1 0 3; mkng 0 2 0 0 2 1 0 3; mkng 0 2 0 0 2 1 0 3]
    (Some (fr 1 1)) (Some (fr 1 1)) (Some (fr 1 1)) (Some (mkc false false)) (None))
  f_1e_int1e_inuc_rcxp
  (mkd ((0 # 1)%Q, (1 # 1)%Q) ([], [], [rc; cross; p_]) ([], [], []) []).

(* autocode/intor2.c:1118  int1e_inuc_rxp  #C(0 1) | nuc | r cross p *)
Definition e_int1e_inuc_rxp := mkent
  (mke "int1e_inuc_rxp" "CINTgout1e_int1e_inuc_rxp" F1nuc
    [mkng 0 2 0 0 2 1 0 3; mkng 0 2 0 0 2 1 0 3; mkng 0 2 0 0 2 1 0 3; mkng 0 2 0 0 2 1 0 3]
    (Some (fr 1 1)) (Some (fr 1 1)) (Some (fr 1 1)) (Some (mkc false false)) (None))
  f_1e_int1e_inuc_rxp
  (mkd ((0 # 1)%Q, (1 # 1)%Q) ([], [], [r_; cross; p_]) ([], [], []) []).

(* autocode/intor3.c:55  int1e_sigma  | sigma *)
Definition e_int1e_sigma := mkent
  (mke "int1e_sigma" "CINTgout1e_int1e_sigma" F1e
    [mkng 0 0 0 0 0 4 1 3; mkng 0 0 0 0 0 4 1 3; mkng 0 0 0 0 0 4 1 3; mkng 0 0 0 0 0 4 1 3]
    (Some (fr 1 1)) (Some (fr 1 1)) (Some (fr 1 1)) (Some (mkc true true)) (None))
  f_1e_int1e_sigma
  (mkd cq1 ([], [], [sigma]) ([], [], []) []).

(* autocode/intor3.c:137  int1e_spsigmasp  sigma dot p | sigma sigma dot p *)
Definition e_int1e_spsigmasp := mkent
  (mke "int1e_spsigmasp" "CINTgout1e_int1e_spsigmasp" F1e
    [mkng 1 1 0 0 2 4 1 3; mkng 1 1 0 0 2 4 1 3; mkng 1 1 0 0 2 4 1 3; mkng 1 1 0 0 2 4 1 3]
    (Some (fr 1 1)) (Some (fr 1 1)) (Some (fr 1 1)) (Some (mkc true true)) (None))
  f_1e_int1e_spsigmasp
  (mkd cq1 ([sigma; dot; p_], [], [sigma; sigma; dot; p_]) ([], [], []) []).

(* autocode/intor3.c:203  int1e_srsr  sigma dot r | sigma dot r *)
Definition e_int1e_srsr := mkent
  (mke "int1e_srsr" "CINTgout1e_int1e_srsr" F1e
    [mkng 1 1 0 0 2 4 1 1; mkng 1 1 0 0 2 4 1 1; mkng 1 1 0 0 2 4 1 1; mkng 1 1 0 0 2 4 1 1]
    (Some (fr 1 1)) (Some (fr 1 1)) (Some (fr 1 1)) (Some (mkc true false)) (None))
  f_1e_int1e_srsr
  (mkd cq1 ([sigma; dot; r_], [], [sigma; dot; r_]) ([], [], []) []).

(* autocode/intor3.c:259  int1e_sr  sigma dot r | *)
Definition e_int1e_sr := mkent
  (mke "int1e_sr" "CINTgout1e_int1e_sr" F1e
    [mkng 1 0 0 0 1 4 1 1; mkng 1 0 0 0 1 4 1 1; mkng 1 0 0 0 1 4 1 1; mkng 1 0 0 0 1 4 1 1]
    (Some (fr 1 1)) (Some (fr 1 1)) (Some (fr 1 1)) (Some (mkc true true)) (None))
  f_1e_int1e_sr
  (mkd cq1 ([sigma; dot; r_], [], []) ([], [], []) []).

(* autocode/intor3.c:325  int1e_srsp  sigma dot r | sigma dot p *)
Definition e_int1e_srsp := mkent
  (mke "int1e_srsp" "CINTgout1e_int1e_srsp" F1e
    [mkng 1 1 0 0 2 4 1 1; mkng 1 1 0 0 2 4 1 1; mkng 1 1 0 0 2 4 1 1; mkng 1 1 0 0 2 4 1 1]
    (Some (fr 1 1)) (Some (fr 1 1)) (Some (fr 1 1)) (Some (mkc true true)) (None))
  f_1e_int1e_srsp
  (mkd cq1 ([sigma; dot; r_], [], [sigma; dot; p_]) ([], [], []) []).

(* autocode/intor3.c:385  int1e_spsp  sigma dot p | sigma dot p *)
Definition e_int1e_spsp := mkent
  (mke "int1e_spsp" "CINTgout1e_int1e_spsp" F1e
    [mkng 1 1 0 0 2 1 1 1; mkng 1 1 0 0 2 1 1 1; mkng 1 1 0 0 2 1 1 1; mkng 1 1 0 0 2 1 1 1]
    (Some (fr 1 1)) (Some (fr 1 1)) (Some (fr 1 1)) (Some (mkc false false)) (None))
  f_1e_int1e_spsp
  (mkd cq1 ([sigma; dot; p_], [], [sigma; dot; p_]) ([], [], []) []).

(* autocode/intor3.c:441  int1e_sp  sigma dot p | *)
Definition e_int1e_sp := mkent
  (mke "int1e_sp" "CINTgout1e_int1e_sp" F1e
    [mkng 1 0 0 0 1 4 1 1; mkng 1 0 0 0 1 4 1 1; mkng 1 0 0 0 1 4 1 1; mkng 1 0 0 0 1 4 1 1]
    (Some (fr 1 1)) (Some (fr 1 1)) (Some (fr 1 1)) (Some (mkc true false)) (None))
  f_1e_int1e_sp
  (mkd cq1 ([sigma; dot; p_], [], []) ([], [], []) []).

(* autocode/intor3.c:511  int1e_spnucsp  sigma dot p | nuc | sigma dot p *)
Definition e_int1e_spnucsp := mkent
  (mke "int1e_spnucsp" "CINTgout1e_int1e_spnucsp" F1nuc
    [mkng 1 1 0 0 2 4 0 1; mkng 1 1 0 0 2 4 0 1; mkng 1 1 0 0 2 4 0 1; mkng 1 1 0 0 2 4 0 1]
    (Some (fr 1 1)) (Some (fr 1 1)) (Some (fr 1 1)) (Some (mkc true false)) (None))
  f_1e_int1e_spnucsp
  (mkd cq1 ([sigma; dot; p_], [], [sigma; dot; p_]) ([], [], []) []).

(* autocode/intor3.c:581  int1e_sprinvsp  sigma dot p | rinv | sigma dot p *)
Definition e_int1e_sprinvsp := mkent
  (mke "int1e_sprinvsp" "CINTgout1e_int1e_sprinvsp" F1rinv
    [mkng 1 1 0 0 2 4 0 1; mkng 1 1 0 0 2 4 0 1; mkng 1 1 0 0 2 4 0 1; mkng 1 1 0 0 2 4 0 1]
    (Some (fr 1 1)) (Some (fr 1 1)) (Some (fr 1 1)) (Some (mkc true false)) (None))
  f_1e_int1e_sprinvsp
  (mkd cq1 ([sigma; dot; p_], [], [sigma; dot; p_]) ([], [], []) []).

(* autocode/intor3.c:651  int1e_srnucsr  sigma dot r | nuc | sigma dot r *)
Definition e_int1e_srnucsr := mkent
  (mke "int1e_srnucsr" "CINTgout1e_int1e_srnucsr" F1nuc
    [mkng 1 1 0 0 2 4 0 1; mkng 1 1 0 0 2 4 0 1; mkng 1 1 0 0 2 4 0 1; mkng 1 1 0 0 2 4 0 1]
    (Some (fr 1 1)) (Some (fr 1 1)) (Some (fr 1 1)) (Some (mkc true false)) (None))
  f_1e_int1e_srnucsr
  (mkd cq1 ([sigma; dot; r_], [], [sigma; dot; r_]) ([], [], []) []).

(* autocode/intor3.c:763  int1e_sprsp  sigma dot p | rc | sigma dot p *)
Definition e_int1e_sprsp := mkent
  (mke "int1e_sprsp" "CINTgout1e_int1e_sprsp" F1e
    [mkng 1 2 0 0 3 4 1 3; mkng 1 2 0 0 3 4 1 3; mkng 1 2 0 0 3 4 1 3; mkng 1 2 0 0 3 4 1 3]
    (Some (fr 1 1)) (Some (fr 1 1)) (Some (fr 1 1)) (Some (mkc true false)) (None))
  f_1e_int1e_sprsp
  (mkd cq1 ([sigma; dot; p_], [rc], [sigma; dot; p_]) ([], [], []) []).

(* autocode/intor3.c:824  int1e_govlp  g | *)
Definition e_int1e_govlp := mkent
  (mke "int1e_govlp" "CINTgout1e_int1e_govlp" F1e
    [mkng 1 0 0 0 1 1 1 3; mkng 1 0 0 0 1 1 1 3; mkng 1 0 0 0 1 1 1 3; mkng 1 0 0 0 1 1 1 3]
    (Some (fr 1 2)) (Some (fr 1 2)) (Some (fr 1 2)) (Some (mkc false true)) (None))
  f_1e_int1e_govlp
  (mkd cq1 ([g_], [], []) ([], [], []) []).

(* autocode/intor3.c:928  int1e_gnuc  g | nuc | *)
Definition e_int1e_gnuc := mkent
  (mke "int1e_gnuc" "CINTgout1e_int1e_gnuc" F1nuc
    [mkng 1 0 0 0 1 1 0 3; mkng 1 0 0 0 1 1 0 3; mkng 1 0 0 0 1 1 0 3; mkng 1 0 0 0 1 1 0 3]
    (Some (fr 1 2)) (Some (fr 1 2)) (Some (fr 1 2)) (Some (mkc false true)) (None))
  f_1e_int1e_gnuc
  (mkd cq1 ([g_], [], []) ([], [], []) []).

(* autocode/intor3.c:1107  int1e_cg_sa10sa01  .5 sigma cross rc | sigma cross nabla-rinv | *)
Definition e_int1e_cg_sa10sa01 := mkent
  (mke "int1e_cg_sa10sa01" "CINTgout1e_int1e_cg_sa10sa01" F1rinv
    [mkng 2 1 0 0 2 4 0 9; mkng 2 1 0 0 2 4 0 9; mkng 2 1 0 0 2 4 0 9; mkng 2 1 0 0 2 4 0 9]
    (Some (fr 1 2)) (Some (fr 1 2)) (Some (fr 1 2)) (Some (mkc true false)) (None))
  f_1e_int1e_cg_sa10sa01
  (mkd ((1 # 2)%Q, (0 # 1)%Q) ([sigma; cross; rc], [sigma; cross; grad], []) ([], [], []) []).

(* autocode/intor3.c:1196  int1e_cg_sa10sp  .5 rc cross sigma | sigma dot p *)
Definition e_int1e_cg_sa10sp := mkent
  (mke "int1e_cg_sa10sp" "CINTgout1e_int1e_cg_sa10sp" F1e
    [mkng 1 1 0 0 2 4 1 3; mkng 1 1 0 0 2 4 1 3; mkng 1 1 0 0 2 4 1 3; mkng 1 1 0 0 2 4 1 3]
    (Some (fr 1 2)) (Some (fr 1 2)) (Some (fr 1 2)) (Some (mkc true true)) (None))
  f_1e_int1e_cg_sa10sp
  (mkd ((1 # 2)%Q, (0 # 1)%Q) ([rc; cross; sigma], [], [sigma; dot; p_]) ([], [], []) []).

(* autocode/intor3.c:1289  int1e_cg_sa10nucsp  .5 rc cross sigma | nuc | sigma dot p *)
Definition e_int1e_cg_sa10nucsp := mkent
  (mke "int1e_cg_sa10nucsp" "CINTgout1e_int1e_cg_sa10nucsp" F1nuc
    [mkng 1 1 0 0 2 4 0 3; mkng 1 1 0 0 2 4 0 3; mkng 1 1 0 0 2 4 0 3; mkng 1 1 0 0 2 4 0 3]
    (Some (fr 1 2)) (Some (fr 1 2)) (Some (fr 1 2)) (Some (mkc true true)) (None))
  f_1e_int1e_cg_sa10nucsp
  (mkd ((1 # 2)%Q, (0 # 1)%Q) ([rc; cross; sigma], [], [sigma; dot; p_]) ([], [], []) []).

(* autocode/intor3.c:1428  int1e_giao_sa10sa01  .5 sigma cross r | sigma cross nabla-rinv | *)
Definition e_int1e_giao_sa10sa01 := mkent
  (mke "int1e_giao_sa10sa01" "CINTgout1e_int1e_giao_sa10sa01" F1rinv
    [mkng 2 1 0 0 2 4 0 9; mkng 2 1 0 0 2 4 0 9; mkng 2 1 0 0 2 4 0 9; mkng 2 1 0 0 2 4 0 9]
    (Some (fr 1 2)) (Some (fr 1 2)) (Some (fr 1 2)) (Some (mkc true false)) (None))
  f_1e_int1e_giao_sa10sa01
  (mkd ((1 # 2)%Q, (0 # 1)%Q) ([sigma; cross; r_], [sigma; cross; grad], []) ([], [], []) []).

(* autocode/intor3.c:1513  int1e_giao_sa10sp  .5 r cross sigma | sigma dot p *)
Definition e_int1e_giao_sa10sp := mkent
  (mke "int1e_giao_sa10sp" "CINTgout1e_int1e_giao_sa10sp" F1e
    [mkng 1 1 0 0 2 4 1 3; mkng 1 1 0 0 2 4 1 3; mkng 1 1 0 0 2 4 1 3; mkng 1 1 0 0 2 4 1 3]
    (Some (fr 1 2)) (Some (fr 1 2)) (Some (fr 1 2)) (Some (mkc true true)) (None))
  f_1e_int1e_giao_sa10sp
  (mkd ((1 # 2)%Q, (0 # 1)%Q) ([r_; cross; sigma], [], [sigma; dot; p_]) ([], [], []) []).

(* autocode/intor3.c:1602  int1e_giao_sa10nucsp  .5 r cross sigma | nuc | sigma dot p *)
Definition e_int1e_giao_sa10nucsp := mkent
  (mke "int1e_giao_sa10nucsp" "CINTgout1e_int1e_giao_sa10nucsp" F1nuc
    [mkng 1 1 0 0 2 4 0 3; mkng 1 1 0 0 2 4 0 3; mkng 1 1 0 0 2 4 0 3; mkng 1 1 0 0 2 4 0 3]
    (Some (fr 1 2)) (Some (fr 1 2)) (Some (fr 1 2)) (Some (mkc true true)) (None))
  f_1e_int1e_giao_sa10nucsp
  (mkd ((1 # 2)%Q, (0 # 1)%Q) ([r_; cross; sigma], [], [sigma; dot; p_]) ([], [], []) []).

(* autocode/intor3.c:1693  int1e_sa01sp  | nabla-rinv cross sigma | sigma dot p *)
Definition e_int1e_sa01sp := mkent
  (mke "int1e_sa01sp" "CINTgout1e_int1e_sa01sp" F1rinv
    [mkng 1 2 0 0 2 4 0 3; mkng 1 2 0 0 2 4 0 3; mkng 1 2 0 0 2 4 0 3; mkng 1 2 0 0 2 4 0 3]
    (Some (fr 1 1)) (Some (fr 1 1)) (Some (fr 1 1)) (Some (mkc true true)) (None))
  f_1e_int1e_sa01sp
  (mkd cq1 ([], [grad; cross; sigma], [sigma; dot; p_]) ([], [], []) []).

(* autocode/intor3.c:1808  int1e_spgsp  g sigma dot p | sigma dot p *)
Definition e_int1e_spgsp := mkent
  (mke "int1e_spgsp" "CINTgout1e_int1e_spgsp" F1e
    [mkng 2 1 0 0 3 4 1 3; mkng 2 1 0 0 3 4 1 3; mkng 2 1 0 0 3 4 1 3; mkng 2 1 0 0 3 4 1 3]
    (Some (fr 1 2)) (Some (fr 1 2)) (Some (fr 1 2)) (Some (mkc true true)) (None))
  f_1e_int1e_spgsp
  (mkd cq1 ([g_; sigma; dot; p_], [], [sigma; dot; p_]) ([], [], []) []).

(* autocode/intor3.c:1966  int1e_spgnucsp  g sigma dot p | nuc | sigma dot p *)
Definition e_int1e_spgnucsp := mkent
  (mke "int1e_spgnucsp" "CINTgout1e_int1e_spgnucsp" F1nuc
    [mkng 2 1 0 0 3 4 0 3; mkng 2 1 0 0 3 4 0 3; mkng 2 1 0 0 3 4 0 3; mkng 2 1 0 0 3 4 0 3]
    (Some (fr 1 2)) (Some (fr 1 2)) (Some (fr 1 2)) (Some (mkc true true)) (None))
  f_1e_int1e_spgnucsp
  (mkd cq1 ([g_; sigma; dot; p_], [], [sigma; dot; p_]) ([], [], []) []).

(* autocode/intor3.c:2174  int1e_spgsa01  g sigma dot p | nabla-rinv cross sigma | *)
Definition e_int1e_spgsa01 := mkent
  (mke "int1e_spgsa01" "CINTgout1e_int1e_spgsa01" F1rinv
    [mkng 3 1 0 0 3 4 0 9; mkng 3 1 0 0 3 4 0 9; mkng 3 1 0 0 3 4 0 9; mkng 3 1 0 0 3 4 0 9]
    (Some (fr 1 2)) (Some (fr 1 2)) (Some (fr 1 2)) (Some (mkc true false)) (None))
  f_1e_int1e_spgsa01
  (mkd cq1 ([g_; sigma; dot; p_], [grad; cross; sigma], []) ([], [], []) []).

(* autocode/intor4.c:59  int2e_spsp1  sigma dot p , sigma dot p | , *)
Definition e_int2e_spsp1 := mkent
  (mke "int2e_spsp1" "CINTgout2e_int2e_spsp1" F2e
    [mkng 1 1 0 0 2 4 1 1; mkng 1 1 0 0 2 4 1 1; mkng 1 1 0 0 2 4 1 1; mkng 1 1 0 0 2 4 1 1]
    (Some (fr 1 1)) (Some (fr 1 1)) (Some (fr 1 1)) (Some (mkc true false)) (Some (mkc false false)))
  f_2e_int2e_spsp1
  (mkd cq1 ([sigma; dot; p_], [], [sigma; dot; p_]) ([], [], []) []).

(* autocode/intor4.c:251  int2e_spsp1spsp2  sigma dot p , sigma dot p | sigma dot p , sigma dot p *)
Definition e_int2e_spsp1spsp2 := mkent
  (mke "int2e_spsp1spsp2" "CINTgout2e_int2e_spsp1spsp2" F2e
    [mkng 1 1 1 1 4 4 4 1; mkng 1 1 1 1 4 4 4 1; mkng 1 1 1 1 4 4 4 1; mkng 1 1 1 1 4 4 4 1]
    (Some (fr 1 1)) (Some (fr 1 1)) (Some (fr 1 1)) (Some (mkc true false)) (Some (mkc true false)))
  f_2e_int2e_spsp1spsp2
  (mkd cq1 ([sigma; dot; p_], [], [sigma; dot; p_]) ([sigma; dot; p_], [], [sigma; dot; p_]) []).

(* autocode/intor4.c:323  int2e_srsr1  sigma dot r , sigma dot r | , *)
Definition e_int2e_srsr1 := mkent
  (mke "int2e_srsr1" "CINTgout2e_int2e_srsr1" F2e
    [mkng 1 1 0 0 2 4 1 1; mkng 1 1 0 0 2 4 1 1; mkng 1 1 0 0 2 4 1 1; mkng 1 1 0 0 2 4 1 1]
    (Some (fr 1 1)) (Some (fr 1 1)) (Some (fr 1 1)) (Some (mkc true false)) (Some (mkc false false)))
  f_2e_int2e_srsr1
  (mkd cq1 ([sigma; dot; r_], [], [sigma; dot; r_]) ([], [], []) []).

(* autocode/intor4.c:515  int2e_srsr1srsr2  sigma dot r , sigma dot r | sigma dot r , sigma dot r *)
Definition e_int2e_srsr1srsr2 := mkent
  (mke "int2e_srsr1srsr2" "CINTgout2e_int2e_srsr1srsr2" F2e
    [mkng 1 1 1 1 4 4 4 1; mkng 1 1 1 1 4 4 4 1; mkng 1 1 1 1 4 4 4 1; mkng 1 1 1 1 4 4 4 1]
    (Some (fr 1 1)) (Some (fr 1 1)) (Some (fr 1 1)) (Some (mkc true false)) (Some (mkc true false)))
  f_2e_int2e_srsr1srsr2
  (mkd cq1 ([sigma; dot; r_], [], [sigma; dot; r_]) ([sigma; dot; r_], [], [sigma; dot; r_]) []).

(* autocode/intor4.c:607  int2e_cg_sa10sp1  .5 rc cross sigma , sigma dot p | , *)
Definition e_int2e_cg_sa10sp1 := mkent
  (mke "int2e_cg_sa10sp1" "CINTgout2e_int2e_cg_sa10sp1" F2e
    [mkng 1 1 0 0 2 4 1 3; mkng 1 1 0 0 2 4 1 3; mkng 1 1 0 0 2 4 1 3; mkng 1 1 0 0 2 4 1 3]
    (Some (fr 1 2)) (Some (fr 1 2)) (Some (fr 1 2)) (Some (mkc true true)) (Some (mkc false false)))
  f_2e_int2e_cg_sa10sp1
  (mkd ((1 # 2)%Q, (0 # 1)%Q) ([rc; cross; sigma], [], [sigma; dot; p_]) ([], [], []) []).

(* autocode/intor4.c:870  int2e_cg_sa10sp1spsp2  .5 rc cross sigma , sigma dot p | sigma dot p , sigma dot p *)
Definition e_int2e_cg_sa10sp1spsp2 := mkent
  (mke "int2e_cg_sa10sp1spsp2" "CINTgout2e_int2e_cg_sa10sp1spsp2" F2e
    [mkng 1 1 1 1 4 4 4 3; mkng 1 1 1 1 4 4 4 3; mkng 1 1 1 1 4 4 4 3; mkng 1 1 1 1 4 4 4 3]
    (Some (fr 1 2)) (Some (fr 1 2)) (Some (fr 1 2)) (Some (mkc true true)) (Some (mkc true false)))
  f_2e_int2e_cg_sa10sp1spsp2
  (mkd ((1 # 2)%Q, (0 # 1)%Q) ([rc; cross; sigma], [], [sigma; dot; p_]) ([sigma; dot; p_], [], [sigma; dot; p_]) []).

(* autocode/intor4.c:961  int2e_giao_sa10sp1  .5 r cross sigma , sigma dot p | , *)
Definition e_int2e_giao_sa10sp1 := mkent
  (mke "int2e_giao_sa10sp1" "CINTgout2e_int2e_giao_sa10sp1" F2e
    [mkng 1 1 0 0 2 4 1 3; mkng 1 1 0 0 2 4 1 3; mkng 1 1 0 0 2 4 1 3; mkng 1 1 0 0 2 4 1 3]
    (Some (fr 1 2)) (Some (fr 1 2)) (Some (fr 1 2)) (Some (mkc true true)) (Some (mkc false false)))
  f_2e_int2e_giao_sa10sp1
  (mkd ((1 # 2)%Q, (0 # 1)%Q) ([r_; cross; sigma], [], [sigma; dot; p_]) ([], [], []) []).

(* autocode/intor4.c:1220  int2e_giao_sa10sp1spsp2  .5 r cross sigma , sigma dot p | sigma dot p , sigma dot p *)
Definition e_int2e_giao_sa10sp1spsp2 := mkent
  (mke "int2e_giao_sa10sp1spsp2" "CINTgout2e_int2e_giao_sa10sp1spsp2" F2e
    [mkng 1 1 1 1 4 4 4 3; mkng 1 1 1 1 4 4 4 3; mkng 1 1 1 1 4 4 4 3; mkng 1 1 1 1 4 4 4 3]
    (Some (fr 1 2)) (Some (fr 1 2)) (Some (fr 1 2)) (Some (mkc true true)) (Some (mkc true false)))
  f_2e_int2e_giao_sa10sp1spsp2
  (mkd ((1 # 2)%Q, (0 # 1)%Q) ([r_; cross; sigma], [], [sigma; dot; p_]) ([sigma; dot; p_], [], [sigma; dot; p_]) []).

(* autocode/intor4.c:1313  int2e_g1  g , | , *)
Definition e_int2e_g1 := mkent
  (mke "int2e_g1" "CINTgout2e_int2e_g1" F2e
    [mkng 1 0 0 0 1 1 1 3; mkng 1 0 0 0 1 1 1 3; mkng 1 0 0 0 1 1 1 3; mkng 1 0 0 0 1 1 1 3]
    (Some (fr 1 2)) (Some (fr 1 2)) (Some (fr 1 2)) (Some (mkc false true)) (Some (mkc false false)))
  f_2e_int2e_g1
  (mkd cq1 ([g_], [], []) ([], [], []) []).

(* autocode/intor4.c:1474  int2e_spgsp1  g sigma dot p , sigma dot p | , *)
Definition e_int2e_spgsp1 := mkent
  (mke "int2e_spgsp1" "CINTgout2e_int2e_spgsp1" F2e
    [mkng 2 1 0 0 3 4 1 3; mkng 2 1 0 0 3 4 1 3; mkng 2 1 0 0 3 4 1 3; mkng 2 1 0 0 3 4 1 3]
    (Some (fr 1 2)) (Some (fr 1 2)) (Some (fr 1 2)) (Some (mkc true true)) (Some (mkc false false)))
  f_2e_int2e_spgsp1
  (mkd cq1 ([g_; sigma; dot; p_], [], [sigma; dot; p_]) ([], [], []) []).

(* autocode/intor4.c:1635  int2e_g1spsp2  g , | sigma dot p , sigma dot p *)
Definition e_int2e_g1spsp2 := mkent
  (mke "int2e_g1spsp2" "CINTgout2e_int2e_g1spsp2" F2e
    [mkng 1 0 1 1 3 1 4 3; mkng 1 0 1 1 3 1 4 3; mkng 1 0 1 1 3 1 4 3; mkng 1 0 1 1 3 1 4 3]
    (Some (fr 1 2)) (Some (fr 1 2)) (Some (fr 1 2)) (Some (mkc false true)) (Some (mkc true false)))
  f_2e_int2e_g1spsp2
  (mkd cq1 ([g_], [], []) ([sigma; dot; p_], [], [sigma; dot; p_]) []).

(* autocode/intor4.c:2132  int2e_spgsp1spsp2  g sigma dot p , sigma dot p | sigma dot p , sigma dot p *)
Definition e_int2e_spgsp1spsp2 := mkent
  (mke "int2e_spgsp1spsp2" "CINTgout2e_int2e_spgsp1spsp2" F2e
    [mkng 2 1 1 1 5 4 4 3; mkng 2 1 1 1 5 4 4 3; mkng 2 1 1 1 5 4 4 3; mkng 2 1 1 1 5 4 4 3]
    (Some (fr 1 2)) (Some (fr 1 2)) (Some (fr 1 2)) (Some (mkc true true)) (Some (mkc true false)))
  f_2e_int2e_spgsp1spsp2
  (mkd cq1 ([g_; sigma; dot; p_], [], [sigma; dot; p_]) ([sigma; dot; p_], [], [sigma; dot; p_]) []).

(* autocode/intor4.c:2237  int2e_pp1  p* , dot p | , *)
Definition e_int2e_pp1 := mkent
  (mke "int2e_pp1" "CINTgout2e_int2e_pp1" F2e
    [mkng 1 1 0 0 2 1 1 1; mkng 1 1 0 0 2 1 1 1; mkng 1 1 0 0 2 1 1 1; mkng 1 1 0 0 2 1 1 1]
    (Some (fr 1 1)) (Some (fr 1 1)) (Some (fr 1 1)) (Some (mkc false false)) (Some (mkc false false)))
  f_2e_int2e_pp1
  (mkd cq1 ([p_], [], [dot; p_]) ([], [], []) []).

(* autocode/intor4.c:2303  int2e_pp2  , | p* , dot p *)
Definition e_int2e_pp2 := mkent
  (mke "int2e_pp2" "CINTgout2e_int2e_pp2" F2e
    [mkng 0 0 1 1 2 1 1 1; mkng 0 0 1 1 2 1 1 1; mkng 0 0 1 1 2 1 1 1; mkng 0 0 1 1 2 1 1 1]
    (Some (fr 1 1)) (Some (fr 1 1)) (Some (fr 1 1)) (Some (mkc false false)) (Some (mkc false false)))
  f_2e_int2e_pp2
  (mkd cq1 ([], [], []) ([p_], [], [dot; p_]) []).

(* autocode/intor4.c:2465  int2e_pp1pp2  p* , dot p | p* , dot p *)
Definition e_int2e_pp1pp2 := mkent
  (mke "int2e_pp1pp2" "CINTgout2e_int2e_pp1pp2" F2e
    [mkng 1 1 1 1 4 1 1 1; mkng 1 1 1 1 4 1 1 1; mkng 1 1 1 1 4 1 1 1; mkng 1 1 1 1 4 1 1 1]
    (Some (fr 1 1)) (Some (fr 1 1)) (Some (fr 1 1)) (Some (mkc false false)) (Some (mkc false false)))
  f_2e_int2e_pp1pp2
  (mkd cq1 ([p_], [], [dot; p_]) ([p_], [], [dot; p_]) []).

(* autocode/lresc.c:67  int1e_iprinvr  nabla | rinv | r *)
Definition e_int1e_iprinvr := mkent
  (mke "int1e_iprinvr" "CINTgout1e_int1e_iprinvr" F1rinv
    [mkng 1 1 0 0 2 1 0 9; mkng 1 1 0 0 2 1 0 9; mkng 1 1 0 0 2 1 0 9; mkng 1 1 0 0 2 1 0 9]
    (Some (fr 1 1)) (Some (fr 1 1)) (Some (fr 1 1)) (Some (mkc false false)) (None))
  f_1e_int1e_iprinvr
  (mkd cq1 ([nabla], [], [r_]) ([], [], []) []).

(* autocode/lresc.c:387  int1e_iprinviprip  nabla | rinv | nabla r nabla *)
Definition e_int1e_iprinviprip := mkent
  (mke "int1e_iprinviprip" "CINTgout1e_int1e_iprinviprip" F1rinv
    [mkng 1 3 0 0 4 1 0 81; mkng 1 3 0 0 4 1 0 81; mkng 1 3 0 0 4 1 0 81; mkng 1 3 0 0 4 1 0 81]
    (Some (fr 1 1)) (Some (fr 1 1)) (Some (fr 1 1)) (Some (mkc false false)) (None))
  f_1e_int1e_iprinviprip
  (mkd cq1 ([nabla], [], [nabla; r_; nabla]) ([], [], []) []).

(* autocode/lresc.c:707  int1e_rinvipiprip  | rinv | nabla nabla r nabla *)
Definition e_int1e_rinvipiprip := mkent
  (mke "int1e_rinvipiprip" "CINTgout1e_int1e_rinvipiprip" F1rinv
    [mkng 0 4 0 0 4 1 0 81; mkng 0 4 0 0 4 1 0 81; mkng 0 4 0 0 4 1 0 81; mkng 0 4 0 0 4 1 0 81]
    (Some (fr 1 1)) (Some (fr 1 1)) (Some (fr 1 1)) (Some (mkc false false)) (None))
  f_1e_int1e_rinvipiprip
  (mkd cq1 ([], [], [nabla; nabla; r_; nabla]) ([], [], []) []).

(* autocode/lresc.c:1027  int1e_ipiprinvrip  nabla nabla | rinv | r nabla *)
Definition e_int1e_ipiprinvrip := mkent
  (mke "int1e_ipiprinvrip" "CINTgout1e_int1e_ipiprinvrip" F1rinv
    [mkng 2 2 0 0 4 1 0 81; mkng 2 2 0 0 4 1 0 81; mkng 2 2 0 0 4 1 0 81; mkng 2 2 0 0 4 1 0 81]
    (Some (fr 1 1)) (Some (fr 1 1)) (Some (fr 1 1)) (Some (mkc false false)) (None))
  f_1e_int1e_ipiprinvrip
  (mkd cq1 ([nabla; nabla], [], [r_; nabla]) ([], [], []) []).

Definition catalogue : list ent :=
  [e_int1e_ovlp;
   e_int1e_nuc;
   e_int2e;
   e_int3c1e;
   e_int3c1e_rinv;
   e_int3c2e;
   e_int2c2e;
   e_int4c1e;
   e_int1e_grids;
   e_int1e_r2_origi;
   e_int1e_r4_origi;
   e_int1e_r2_origi_ip2;
   e_int1e_r4_origi_ip2;
   e_int3c1e_r2_origk;
   e_int3c1e_r4_origk;
   e_int3c1e_r6_origk;
   e_int3c1e_ip1_r2_origk;
   e_int3c1e_ip1_r4_origk;
   e_int3c1e_ip1_r6_origk;
   e_int2e_breit_r1p2;
   e_int2e_breit_r2p2;
   e_int2e_stg;
   e_int2e_yp;
   e_int2e_yp_ip1;
   e_int2e_stg_ip1;
   e_int2e_yp_ipip1;
   e_int2e_stg_ipip1;
   e_int2e_yp_ipvip1;
   e_int2e_stg_ipvip1;
   e_int2e_yp_ip1ip2;
   e_int2e_stg_ip1ip2;
   e_int2e_gauge_r1_ssp1ssp2;
   e_int2e_gauge_r1_ssp1sps2;
   e_int2e_gauge_r1_sps1ssp2;
   e_int2e_gauge_r1_sps1sps2;
   e_int2e_gauge_r2_ssp1ssp2;
   e_int2e_gauge_r2_ssp1sps2;
   e_int2e_gauge_r2_sps1ssp2;
   e_int2e_gauge_r2_sps1sps2;
   e_int1e_ipipipnuc;
   e_int1e_ipipiprinv;
   e_int1e_ipipnucip;
   e_int1e_ipiprinvip;
   e_int1e_ipiprinvipip;
   e_int1e_ipipiprinvip;
   e_int1e_ipipipiprinv;
   e_int1e_spspsp;
   e_int1e_spnuc;
   e_int2e_spv1;
   e_int2e_vsp1;
   e_int2e_spsp2;
   e_int2e_spv1spv2;
   e_int2e_vsp1spv2;
   e_int2e_spv1vsp2;
   e_int2e_vsp1vsp2;
   e_int2e_spv1spsp2;
   e_int2e_vsp1spsp2;
   e_int2e_ssp1ssp2;
   e_int2e_ssp1sps2;
   e_int2e_sps1ssp2;
   e_int2e_sps1sps2;
   e_int2e_cg_ssa10ssp2;
   e_int2e_giao_ssa10ssp2;
   e_int2e_gssp1ssp2;
   e_int1e_ipovlp;
   e_int1e_ovlpip;
   e_int1e_ipkin;
   e_int1e_kinip;
   e_int1e_ipnuc;
   e_int1e_iprinv;
   e_int1e_ipspnucsp;
   e_int1e_ipsprinvsp;
   e_int1e_ippnucp;
   e_int1e_ipprinvp;
   e_int2e_ip1;
   e_int2e_ip2;
   e_int2e_ipspsp1;
   e_int2e_ip1spsp2;
   e_int2e_ipspsp1spsp2;
   e_int2e_ipsrsr1;
   e_int2e_ip1srsr2;
   e_int2e_ipsrsr1srsr2;
   e_int1e_ipipovlp;
   e_int1e_ipovlpip;
   e_int1e_ipipkin;
   e_int1e_ipkinip;
   e_int1e_ipipnuc;
   e_int1e_ipnucip;
   e_int1e_ipiprinv;
   e_int1e_iprinvip;
   e_int1e_ipipr;
   e_int1e_iprip;
   e_int2e_ipip1;
   e_int2e_ipvip1;
   e_int2e_ip1ip2;
   e_int1e_ipippnucp;
   e_int1e_ippnucpip;
   e_int1e_ipipprinvp;
   e_int1e_ipprinvpip;
   e_int1e_ipipspnucsp;
   e_int1e_ipspnucspip;
   e_int1e_ipipsprinvsp;
   e_int1e_ipsprinvspip;
   e_int2e_ipip1ipip2;
   e_int2e_ipvip1ipvip2;
   e_int1e_grids_ip;
   e_int1e_grids_ipvip;
   e_int1e_grids_spvsp;
   e_int1e_grids_ipip;
   e_int3c1e_p2;
   e_int3c1e_iprinv;
   e_int3c1e_ip1;
   e_int3c2e_ip1;
   e_int3c2e_ip2;
   e_int3c2e_pvp1;
   e_int3c2e_pvxp1;
   e_int2c2e_ip1;
   e_int2c2e_ip2;
   e_int3c2e_ig1;
   e_int3c2e_spsp1;
   e_int3c2e_ipspsp1;
   e_int3c2e_spsp1ip2;
   e_int3c2e_ipip1;
   e_int3c2e_ipip2;
   e_int3c2e_ipvip1;
   e_int3c2e_ip1ip2;
   e_int2c2e_ipip1;
   e_int2c2e_ip1ip2;
   e_int1e_kin;
   e_int1e_ia01p;
   e_int1e_giao_irjxp;
   e_int1e_cg_irxp;
   e_int1e_giao_a11part;
   e_int1e_cg_a11part;
   e_int1e_a01gp;
   e_int1e_igkin;
   e_int1e_igovlp;
   e_int1e_ignuc;
   e_int1e_pnucp;
   e_int1e_z;
   e_int1e_zz;
   e_int1e_r;
   e_int1e_r2;
   e_int1e_r4;
   e_int1e_rr;
   e_int1e_rrr;
   e_int1e_rrrr;
   e_int1e_z_origj;
   e_int1e_zz_origj;
   e_int1e_r_origj;
   e_int1e_rr_origj;
   e_int1e_r2_origj;
   e_int1e_r4_origj;
   e_int1e_p4;
   e_int1e_prinvp;
   e_int1e_prinvxp;
   e_int1e_pnucxp;
   e_int1e_irp;
   e_int1e_irrp;
   e_int1e_irpr;
   e_int1e_ggovlp;
   e_int1e_ggkin;
   e_int1e_ggnuc;
   e_int1e_grjxp;
   e_int1e_rinv;
   e_int1e_drinv;
   e_int2e_ig1;
   e_int2e_gg1;
   e_int2e_g1g2;
   e_int2e_p1vxp1;
   e_int2e_ip1v_rc1;
   e_int2e_ip1v_r1;
   e_int2e_ipvg1_xp1;
   e_int2e_ipvg2_xp1;
   e_int1e_inuc_rcxp;
   e_int1e_inuc_rxp;
   e_int1e_sigma;
   e_int1e_spsigmasp;
   e_int1e_srsr;
   e_int1e_sr;
   e_int1e_srsp;
   e_int1e_spsp;
   e_int1e_sp;
   e_int1e_spnucsp;
   e_int1e_sprinvsp;
   e_int1e_srnucsr;
   e_int1e_sprsp;
   e_int1e_govlp;
   e_int1e_gnuc;
   e_int1e_cg_sa10sa01;
   e_int1e_cg_sa10sp;
   e_int1e_cg_sa10nucsp;
   e_int1e_giao_sa10sa01;
   e_int1e_giao_sa10sp;
   e_int1e_giao_sa10nucsp;
   e_int1e_sa01sp;
   e_int1e_spgsp;
   e_int1e_spgnucsp;
   e_int1e_spgsa01;
   e_int2e_spsp1;
   e_int2e_spsp1spsp2;
   e_int2e_srsr1;
   e_int2e_srsr1srsr2;
   e_int2e_cg_sa10sp1;
   e_int2e_cg_sa10sp1spsp2;
   e_int2e_giao_sa10sp1;
   e_int2e_giao_sa10sp1spsp2;
   e_int2e_g1;
   e_int2e_spgsp1;
   e_int2e_g1spsp2;
   e_int2e_spgsp1spsp2;
   e_int2e_pp1;
   e_int2e_pp2;
   e_int2e_pp1pp2;
   e_int1e_iprinvr;
   e_int1e_iprinviprip;
   e_int1e_rinvipiprip;
   e_int1e_ipiprinvrip].
