(** UnrTabSr.v — written by a script from the text of g2e.c; see UnrModel.v.
    One list per kernel; the switch at the end. *)
From Verif Require Import Base UnrModel.

(** g2e.c:2066-2074 *)
Definition srg0_2d4d_0000 : list ustmt :=
  [g[ 0 ]= UK 1;
   g[ 1 ]= UK 1;
   g[ 2 ]= UK 1;
   g[ 3 ]= UK 1].
(** g2e.c:2076-2093 *)
Definition srg0_2d4d_0001 : list ustmt :=
  [g[ 0 ]= UK 1;
   g[ 1 ]= UK 1;
   g[ 2 ]= cpx 0;
   g[ 3 ]= cpx 1;
   g[ 4 ]= UK 1;
   g[ 5 ]= UK 1;
   g[ 6 ]= cpy 0;
   g[ 7 ]= cpy 1;
   g[ 10 ]= cpz 0 * g_ 8;
   g[ 11 ]= cpz 1 * g_ 9].
(** g2e.c:2095-2137 *)
Definition srg0_2d4d_0002 : list ustmt :=
  [g[ 0 ]= UK 1;
   g[ 1 ]= UK 1;
   g[ 2 ]= UK 1;
   g[ 3 ]= UK 1;
   g[ 4 ]= cpx 0;
   g[ 5 ]= cpx 1;
   g[ 6 ]= cpx 2;
   g[ 7 ]= cpx 3;
   g[ 8 ]= cpx 0 * cpx 0 + b01_ 0;
   g[ 9 ]= cpx 1 * cpx 1 + b01_ 1;
   g[ 10 ]= cpx 2 * cpx 2 + b01_ 2;
   g[ 11 ]= cpx 3 * cpx 3 + b01_ 3;
   g[ 12 ]= UK 1;
   g[ 13 ]= UK 1;
   g[ 14 ]= UK 1;
   g[ 15 ]= UK 1;
   g[ 16 ]= cpy 0;
   g[ 17 ]= cpy 1;
   g[ 18 ]= cpy 2;
   g[ 19 ]= cpy 3;
   g[ 20 ]= cpy 0 * cpy 0 + b01_ 0;
   g[ 21 ]= cpy 1 * cpy 1 + b01_ 1;
   g[ 22 ]= cpy 2 * cpy 2 + b01_ 2;
   g[ 23 ]= cpy 3 * cpy 3 + b01_ 3;
   g[ 28 ]= cpz 0 * g_ 24;
   g[ 29 ]= cpz 1 * g_ 25;
   g[ 30 ]= cpz 2 * g_ 26;
   g[ 31 ]= cpz 3 * g_ 27;
   g[ 32 ]= cpz 0 * g_ 28 + b01_ 0 * g_ 24;
   g[ 33 ]= cpz 1 * g_ 29 + b01_ 1 * g_ 25;
   g[ 34 ]= cpz 2 * g_ 30 + b01_ 2 * g_ 26;
   g[ 35 ]= cpz 3 * g_ 31 + b01_ 3 * g_ 27].
(** g2e.c:2139-2193 *)
Definition srg0_2d4d_0003 : list ustmt :=
  [g[ 0 ]= UK 1;
   g[ 1 ]= UK 1;
   g[ 2 ]= UK 1;
   g[ 3 ]= UK 1;
   g[ 4 ]= cpx 0;
   g[ 5 ]= cpx 1;
   g[ 6 ]= cpx 2;
   g[ 7 ]= cpx 3;
   g[ 8 ]= cpx 0 * cpx 0 + b01_ 0;
   g[ 9 ]= cpx 1 * cpx 1 + b01_ 1;
   g[ 10 ]= cpx 2 * cpx 2 + b01_ 2;
   g[ 11 ]= cpx 3 * cpx 3 + b01_ 3;
   g[ 12 ]= cpx 0 * (g_ 8 + UK 2 * b01_ 0);
   g[ 13 ]= cpx 1 * (g_ 9 + UK 2 * b01_ 1);
   g[ 14 ]= cpx 2 * (g_ 10 + UK 2 * b01_ 2);
   g[ 15 ]= cpx 3 * (g_ 11 + UK 2 * b01_ 3);
   g[ 16 ]= UK 1;
   g[ 17 ]= UK 1;
   g[ 18 ]= UK 1;
   g[ 19 ]= UK 1;
   g[ 20 ]= cpy 0;
   g[ 21 ]= cpy 1;
   g[ 22 ]= cpy 2;
   g[ 23 ]= cpy 3;
   g[ 24 ]= cpy 0 * cpy 0 + b01_ 0;
   g[ 25 ]= cpy 1 * cpy 1 + b01_ 1;
   g[ 26 ]= cpy 2 * cpy 2 + b01_ 2;
   g[ 27 ]= cpy 3 * cpy 3 + b01_ 3;
   g[ 28 ]= cpy 0 * (g_ 24 + UK 2 * b01_ 0);
   g[ 29 ]= cpy 1 * (g_ 25 + UK 2 * b01_ 1);
   g[ 30 ]= cpy 2 * (g_ 26 + UK 2 * b01_ 2);
   g[ 31 ]= cpy 3 * (g_ 27 + UK 2 * b01_ 3);
   g[ 36 ]= cpz 0 * g_ 32;
   g[ 37 ]= cpz 1 * g_ 33;
   g[ 38 ]= cpz 2 * g_ 34;
   g[ 39 ]= cpz 3 * g_ 35;
   g[ 40 ]= cpz 0 * g_ 36 + b01_ 0 * g_ 32;
   g[ 41 ]= cpz 1 * g_ 37 + b01_ 1 * g_ 33;
   g[ 42 ]= cpz 2 * g_ 38 + b01_ 2 * g_ 34;
   g[ 43 ]= cpz 3 * g_ 39 + b01_ 3 * g_ 35;
   g[ 44 ]= cpz 0 * g_ 40 + UK 2 * b01_ 0 * g_ 36;
   g[ 45 ]= cpz 1 * g_ 41 + UK 2 * b01_ 1 * g_ 37;
   g[ 46 ]= cpz 2 * g_ 42 + UK 2 * b01_ 2 * g_ 38;
   g[ 47 ]= cpz 3 * g_ 43 + UK 2 * b01_ 3 * g_ 39].
(** g2e.c:2195-2212 *)
Definition srg0_2d4d_0010 : list ustmt :=
  [g[ 0 ]= UK 1;
   g[ 1 ]= UK 1;
   g[ 2 ]= cpx 0;
   g[ 3 ]= cpx 1;
   g[ 4 ]= UK 1;
   g[ 5 ]= UK 1;
   g[ 6 ]= cpy 0;
   g[ 7 ]= cpy 1;
   g[ 10 ]= cpz 0 * g_ 8;
   g[ 11 ]= cpz 1 * g_ 9].
(** g2e.c:2214-2271 *)
Definition srg0_2d4d_0011 : list ustmt :=
  [g[ 0 ]= UK 1;
   g[ 1 ]= UK 1;
   g[ 2 ]= UK 1;
   g[ 3 ]= UK 1;
   g[ 8 ]= cpx 0;
   g[ 9 ]= cpx 1;
   g[ 10 ]= cpx 2;
   g[ 11 ]= cpx 3;
   g[ 12 ]= cpx 0 * (xkxl + cpx 0) + b01_ 0;
   g[ 13 ]= cpx 1 * (xkxl + cpx 1) + b01_ 1;
   g[ 14 ]= cpx 2 * (xkxl + cpx 2) + b01_ 2;
   g[ 15 ]= cpx 3 * (xkxl + cpx 3) + b01_ 3;
   g[ 4 ]= xkxl + cpx 0;
   g[ 5 ]= xkxl + cpx 1;
   g[ 6 ]= xkxl + cpx 2;
   g[ 7 ]= xkxl + cpx 3;
   g[ 24 ]= UK 1;
   g[ 25 ]= UK 1;
   g[ 26 ]= UK 1;
   g[ 27 ]= UK 1;
   g[ 32 ]= cpy 0;
   g[ 33 ]= cpy 1;
   g[ 34 ]= cpy 2;
   g[ 35 ]= cpy 3;
   g[ 36 ]= cpy 0 * (ykyl + cpy 0) + b01_ 0;
   g[ 37 ]= cpy 1 * (ykyl + cpy 1) + b01_ 1;
   g[ 38 ]= cpy 2 * (ykyl + cpy 2) + b01_ 2;
   g[ 39 ]= cpy 3 * (ykyl + cpy 3) + b01_ 3;
   g[ 28 ]= ykyl + cpy 0;
   g[ 29 ]= ykyl + cpy 1;
   g[ 30 ]= ykyl + cpy 2;
   g[ 31 ]= ykyl + cpy 3;
   g[ 56 ]= cpz 0 * g_ 48;
   g[ 57 ]= cpz 1 * g_ 49;
   g[ 58 ]= cpz 2 * g_ 50;
   g[ 59 ]= cpz 3 * g_ 51;
   g[ 60 ]= g_ 56 * (zkzl + cpz 0) + b01_ 0 * g_ 48;
   g[ 61 ]= g_ 57 * (zkzl + cpz 1) + b01_ 1 * g_ 49;
   g[ 62 ]= g_ 58 * (zkzl + cpz 2) + b01_ 2 * g_ 50;
   g[ 63 ]= g_ 59 * (zkzl + cpz 3) + b01_ 3 * g_ 51;
   g[ 52 ]= g_ 48 * (zkzl + cpz 0);
   g[ 53 ]= g_ 49 * (zkzl + cpz 1);
   g[ 54 ]= g_ 50 * (zkzl + cpz 2);
   g[ 55 ]= g_ 51 * (zkzl + cpz 3)].
(** g2e.c:2273-2354 *)
Definition srg0_2d4d_0012 : list ustmt :=
  [g[ 0 ]= UK 1;
   g[ 1 ]= UK 1;
   g[ 2 ]= UK 1;
   g[ 3 ]= UK 1;
   g[ 8 ]= cpx 0;
   g[ 9 ]= cpx 1;
   g[ 10 ]= cpx 2;
   g[ 11 ]= cpx 3;
   g[ 16 ]= cpx 0 * cpx 0 + b01_ 0;
   g[ 17 ]= cpx 1 * cpx 1 + b01_ 1;
   g[ 18 ]= cpx 2 * cpx 2 + b01_ 2;
   g[ 19 ]= cpx 3 * cpx 3 + b01_ 3;
   g[ 20 ]= g_ 16 * (xkxl + cpx 0) + cpx 0 * UK 2 * b01_ 0;
   g[ 21 ]= g_ 17 * (xkxl + cpx 1) + cpx 1 * UK 2 * b01_ 1;
   g[ 22 ]= g_ 18 * (xkxl + cpx 2) + cpx 2 * UK 2 * b01_ 2;
   g[ 23 ]= g_ 19 * (xkxl + cpx 3) + cpx 3 * UK 2 * b01_ 3;
   g[ 12 ]= cpx 0 * (xkxl + cpx 0) + b01_ 0;
   g[ 13 ]= cpx 1 * (xkxl + cpx 1) + b01_ 1;
   g[ 14 ]= cpx 2 * (xkxl + cpx 2) + b01_ 2;
   g[ 15 ]= cpx 3 * (xkxl + cpx 3) + b01_ 3;
   g[ 4 ]= xkxl + cpx 0;
   g[ 5 ]= xkxl + cpx 1;
   g[ 6 ]= xkxl + cpx 2;
   g[ 7 ]= xkxl + cpx 3;
   g[ 32 ]= UK 1;
   g[ 33 ]= UK 1;
   g[ 34 ]= UK 1;
   g[ 35 ]= UK 1;
   g[ 40 ]= cpy 0;
   g[ 41 ]= cpy 1;
   g[ 42 ]= cpy 2;
   g[ 43 ]= cpy 3;
   g[ 48 ]= cpy 0 * cpy 0 + b01_ 0;
   g[ 49 ]= cpy 1 * cpy 1 + b01_ 1;
   g[ 50 ]= cpy 2 * cpy 2 + b01_ 2;
   g[ 51 ]= cpy 3 * cpy 3 + b01_ 3;
   g[ 52 ]= g_ 48 * (ykyl + cpy 0) + cpy 0 * UK 2 * b01_ 0;
   g[ 53 ]= g_ 49 * (ykyl + cpy 1) + cpy 1 * UK 2 * b01_ 1;
   g[ 54 ]= g_ 50 * (ykyl + cpy 2) + cpy 2 * UK 2 * b01_ 2;
   g[ 55 ]= g_ 51 * (ykyl + cpy 3) + cpy 3 * UK 2 * b01_ 3;
   g[ 44 ]= cpy 0 * (ykyl + cpy 0) + b01_ 0;
   g[ 45 ]= cpy 1 * (ykyl + cpy 1) + b01_ 1;
   g[ 46 ]= cpy 2 * (ykyl + cpy 2) + b01_ 2;
   g[ 47 ]= cpy 3 * (ykyl + cpy 3) + b01_ 3;
   g[ 36 ]= ykyl + cpy 0;
   g[ 37 ]= ykyl + cpy 1;
   g[ 38 ]= ykyl + cpy 2;
   g[ 39 ]= ykyl + cpy 3;
   g[ 72 ]= cpz 0 * g_ 64;
   g[ 73 ]= cpz 1 * g_ 65;
   g[ 74 ]= cpz 2 * g_ 66;
   g[ 75 ]= cpz 3 * g_ 67;
   g[ 80 ]= cpz 0 * g_ 72 + b01_ 0 * g_ 64;
   g[ 81 ]= cpz 1 * g_ 73 + b01_ 1 * g_ 65;
   g[ 82 ]= cpz 2 * g_ 74 + b01_ 2 * g_ 66;
   g[ 83 ]= cpz 3 * g_ 75 + b01_ 3 * g_ 67;
   g[ 84 ]= g_ 80 * (zkzl + cpz 0) + UK 2 * b01_ 0 * g_ 72;
   g[ 85 ]= g_ 81 * (zkzl + cpz 1) + UK 2 * b01_ 1 * g_ 73;
   g[ 86 ]= g_ 82 * (zkzl + cpz 2) + UK 2 * b01_ 2 * g_ 74;
   g[ 87 ]= g_ 83 * (zkzl + cpz 3) + UK 2 * b01_ 3 * g_ 75;
   g[ 76 ]= g_ 72 * (zkzl + cpz 0) + b01_ 0 * g_ 64;
   g[ 77 ]= g_ 73 * (zkzl + cpz 1) + b01_ 1 * g_ 65;
   g[ 78 ]= g_ 74 * (zkzl + cpz 2) + b01_ 2 * g_ 66;
   g[ 79 ]= g_ 75 * (zkzl + cpz 3) + b01_ 3 * g_ 67;
   g[ 68 ]= g_ 64 * (zkzl + cpz 0);
   g[ 69 ]= g_ 65 * (zkzl + cpz 1);
   g[ 70 ]= g_ 66 * (zkzl + cpz 2);
   g[ 71 ]= g_ 67 * (zkzl + cpz 3)].
(** g2e.c:2356-2398 *)
Definition srg0_2d4d_0020 : list ustmt :=
  [g[ 0 ]= UK 1;
   g[ 1 ]= UK 1;
   g[ 2 ]= UK 1;
   g[ 3 ]= UK 1;
   g[ 4 ]= cpx 0;
   g[ 5 ]= cpx 1;
   g[ 6 ]= cpx 2;
   g[ 7 ]= cpx 3;
   g[ 8 ]= cpx 0 * cpx 0 + b01_ 0;
   g[ 9 ]= cpx 1 * cpx 1 + b01_ 1;
   g[ 10 ]= cpx 2 * cpx 2 + b01_ 2;
   g[ 11 ]= cpx 3 * cpx 3 + b01_ 3;
   g[ 12 ]= UK 1;
   g[ 13 ]= UK 1;
   g[ 14 ]= UK 1;
   g[ 15 ]= UK 1;
   g[ 16 ]= cpy 0;
   g[ 17 ]= cpy 1;
   g[ 18 ]= cpy 2;
   g[ 19 ]= cpy 3;
   g[ 20 ]= cpy 0 * cpy 0 + b01_ 0;
   g[ 21 ]= cpy 1 * cpy 1 + b01_ 1;
   g[ 22 ]= cpy 2 * cpy 2 + b01_ 2;
   g[ 23 ]= cpy 3 * cpy 3 + b01_ 3;
   g[ 28 ]= cpz 0 * g_ 24;
   g[ 29 ]= cpz 1 * g_ 25;
   g[ 30 ]= cpz 2 * g_ 26;
   g[ 31 ]= cpz 3 * g_ 27;
   g[ 32 ]= cpz 0 * g_ 28 + b01_ 0 * g_ 24;
   g[ 33 ]= cpz 1 * g_ 29 + b01_ 1 * g_ 25;
   g[ 34 ]= cpz 2 * g_ 30 + b01_ 2 * g_ 26;
   g[ 35 ]= cpz 3 * g_ 31 + b01_ 3 * g_ 27].
(** g2e.c:2400-2481 *)
Definition srg0_2d4d_0021 : list ustmt :=
  [g[ 0 ]= UK 1;
   g[ 1 ]= UK 1;
   g[ 2 ]= UK 1;
   g[ 3 ]= UK 1;
   g[ 4 ]= cpx 0;
   g[ 5 ]= cpx 1;
   g[ 6 ]= cpx 2;
   g[ 7 ]= cpx 3;
   g[ 8 ]= cpx 0 * cpx 0 + b01_ 0;
   g[ 9 ]= cpx 1 * cpx 1 + b01_ 1;
   g[ 10 ]= cpx 2 * cpx 2 + b01_ 2;
   g[ 11 ]= cpx 3 * cpx 3 + b01_ 3;
   g[ 16 ]= xkxl + cpx 0;
   g[ 17 ]= xkxl + cpx 1;
   g[ 18 ]= xkxl + cpx 2;
   g[ 19 ]= xkxl + cpx 3;
   g[ 20 ]= cpx 0 * (xkxl + cpx 0) + b01_ 0;
   g[ 21 ]= cpx 1 * (xkxl + cpx 1) + b01_ 1;
   g[ 22 ]= cpx 2 * (xkxl + cpx 2) + b01_ 2;
   g[ 23 ]= cpx 3 * (xkxl + cpx 3) + b01_ 3;
   g[ 24 ]= g_ 8 * (xkxl + cpx 0) + cpx 0 * UK 2 * b01_ 0;
   g[ 25 ]= g_ 9 * (xkxl + cpx 1) + cpx 1 * UK 2 * b01_ 1;
   g[ 26 ]= g_ 10 * (xkxl + cpx 2) + cpx 2 * UK 2 * b01_ 2;
   g[ 27 ]= g_ 11 * (xkxl + cpx 3) + cpx 3 * UK 2 * b01_ 3;
   g[ 32 ]= UK 1;
   g[ 33 ]= UK 1;
   g[ 34 ]= UK 1;
   g[ 35 ]= UK 1;
   g[ 36 ]= cpy 0;
   g[ 37 ]= cpy 1;
   g[ 38 ]= cpy 2;
   g[ 39 ]= cpy 3;
   g[ 40 ]= cpy 0 * cpy 0 + b01_ 0;
   g[ 41 ]= cpy 1 * cpy 1 + b01_ 1;
   g[ 42 ]= cpy 2 * cpy 2 + b01_ 2;
   g[ 43 ]= cpy 3 * cpy 3 + b01_ 3;
   g[ 48 ]= ykyl + cpy 0;
   g[ 49 ]= ykyl + cpy 1;
   g[ 50 ]= ykyl + cpy 2;
   g[ 51 ]= ykyl + cpy 3;
   g[ 52 ]= cpy 0 * (ykyl + cpy 0) + b01_ 0;
   g[ 53 ]= cpy 1 * (ykyl + cpy 1) + b01_ 1;
   g[ 54 ]= cpy 2 * (ykyl + cpy 2) + b01_ 2;
   g[ 55 ]= cpy 3 * (ykyl + cpy 3) + b01_ 3;
   g[ 56 ]= g_ 40 * (ykyl + cpy 0) + cpy 0 * UK 2 * b01_ 0;
   g[ 57 ]= g_ 41 * (ykyl + cpy 1) + cpy 1 * UK 2 * b01_ 1;
   g[ 58 ]= g_ 42 * (ykyl + cpy 2) + cpy 2 * UK 2 * b01_ 2;
   g[ 59 ]= g_ 43 * (ykyl + cpy 3) + cpy 3 * UK 2 * b01_ 3;
   g[ 68 ]= cpz 0 * g_ 64;
   g[ 69 ]= cpz 1 * g_ 65;
   g[ 70 ]= cpz 2 * g_ 66;
   g[ 71 ]= cpz 3 * g_ 67;
   g[ 72 ]= cpz 0 * g_ 68 + b01_ 0 * g_ 64;
   g[ 73 ]= cpz 1 * g_ 69 + b01_ 1 * g_ 65;
   g[ 74 ]= cpz 2 * g_ 70 + b01_ 2 * g_ 66;
   g[ 75 ]= cpz 3 * g_ 71 + b01_ 3 * g_ 67;
   g[ 80 ]= g_ 64 * (zkzl + cpz 0);
   g[ 81 ]= g_ 65 * (zkzl + cpz 1);
   g[ 82 ]= g_ 66 * (zkzl + cpz 2);
   g[ 83 ]= g_ 67 * (zkzl + cpz 3);
   g[ 84 ]= g_ 68 * (zkzl + cpz 0) + b01_ 0 * g_ 64;
   g[ 85 ]= g_ 69 * (zkzl + cpz 1) + b01_ 1 * g_ 65;
   g[ 86 ]= g_ 70 * (zkzl + cpz 2) + b01_ 2 * g_ 66;
   g[ 87 ]= g_ 71 * (zkzl + cpz 3) + b01_ 3 * g_ 67;
   g[ 88 ]= g_ 72 * (zkzl + cpz 0) + UK 2 * b01_ 0 * g_ 68;
   g[ 89 ]= g_ 73 * (zkzl + cpz 1) + UK 2 * b01_ 1 * g_ 69;
   g[ 90 ]= g_ 74 * (zkzl + cpz 2) + UK 2 * b01_ 2 * g_ 70;
   g[ 91 ]= g_ 75 * (zkzl + cpz 3) + UK 2 * b01_ 3 * g_ 71].
(** g2e.c:2483-2537 *)
Definition srg0_2d4d_0030 : list ustmt :=
  [g[ 0 ]= UK 1;
   g[ 1 ]= UK 1;
   g[ 2 ]= UK 1;
   g[ 3 ]= UK 1;
   g[ 4 ]= cpx 0;
   g[ 5 ]= cpx 1;
   g[ 6 ]= cpx 2;
   g[ 7 ]= cpx 3;
   g[ 8 ]= cpx 0 * cpx 0 + b01_ 0;
   g[ 9 ]= cpx 1 * cpx 1 + b01_ 1;
   g[ 10 ]= cpx 2 * cpx 2 + b01_ 2;
   g[ 11 ]= cpx 3 * cpx 3 + b01_ 3;
   g[ 12 ]= cpx 0 * (g_ 8 + UK 2 * b01_ 0);
   g[ 13 ]= cpx 1 * (g_ 9 + UK 2 * b01_ 1);
   g[ 14 ]= cpx 2 * (g_ 10 + UK 2 * b01_ 2);
   g[ 15 ]= cpx 3 * (g_ 11 + UK 2 * b01_ 3);
   g[ 16 ]= UK 1;
   g[ 17 ]= UK 1;
   g[ 18 ]= UK 1;
   g[ 19 ]= UK 1;
   g[ 20 ]= cpy 0;
   g[ 21 ]= cpy 1;
   g[ 22 ]= cpy 2;
   g[ 23 ]= cpy 3;
   g[ 24 ]= cpy 0 * cpy 0 + b01_ 0;
   g[ 25 ]= cpy 1 * cpy 1 + b01_ 1;
   g[ 26 ]= cpy 2 * cpy 2 + b01_ 2;
   g[ 27 ]= cpy 3 * cpy 3 + b01_ 3;
   g[ 28 ]= cpy 0 * (g_ 24 + UK 2 * b01_ 0);
   g[ 29 ]= cpy 1 * (g_ 25 + UK 2 * b01_ 1);
   g[ 30 ]= cpy 2 * (g_ 26 + UK 2 * b01_ 2);
   g[ 31 ]= cpy 3 * (g_ 27 + UK 2 * b01_ 3);
   g[ 36 ]= cpz 0 * g_ 32;
   g[ 37 ]= cpz 1 * g_ 33;
   g[ 38 ]= cpz 2 * g_ 34;
   g[ 39 ]= cpz 3 * g_ 35;
   g[ 40 ]= cpz 0 * g_ 36 + b01_ 0 * g_ 32;
   g[ 41 ]= cpz 1 * g_ 37 + b01_ 1 * g_ 33;
   g[ 42 ]= cpz 2 * g_ 38 + b01_ 2 * g_ 34;
   g[ 43 ]= cpz 3 * g_ 39 + b01_ 3 * g_ 35;
   g[ 44 ]= cpz 0 * g_ 40 + UK 2 * b01_ 0 * g_ 36;
   g[ 45 ]= cpz 1 * g_ 41 + UK 2 * b01_ 1 * g_ 37;
   g[ 46 ]= cpz 2 * g_ 42 + UK 2 * b01_ 2 * g_ 38;
   g[ 47 ]= cpz 3 * g_ 43 + UK 2 * b01_ 3 * g_ 39].
(** g2e.c:2539-2556 *)
Definition srg0_2d4d_0100 : list ustmt :=
  [g[ 0 ]= UK 1;
   g[ 1 ]= UK 1;
   g[ 2 ]= c0x 0;
   g[ 3 ]= c0x 1;
   g[ 4 ]= UK 1;
   g[ 5 ]= UK 1;
   g[ 6 ]= c0y 0;
   g[ 7 ]= c0y 1;
   g[ 10 ]= c0z 0 * g_ 8;
   g[ 11 ]= c0z 1 * g_ 9].
(** g2e.c:2558-2615 *)
Definition srg0_2d4d_0101 : list ustmt :=
  [g[ 0 ]= UK 1;
   g[ 1 ]= UK 1;
   g[ 2 ]= UK 1;
   g[ 3 ]= UK 1;
   g[ 4 ]= cpx 0;
   g[ 5 ]= cpx 1;
   g[ 6 ]= cpx 2;
   g[ 7 ]= cpx 3;
   g[ 8 ]= c0x 0;
   g[ 9 ]= c0x 1;
   g[ 10 ]= c0x 2;
   g[ 11 ]= c0x 3;
   g[ 12 ]= cpx 0 * c0x 0 + b00_ 0;
   g[ 13 ]= cpx 1 * c0x 1 + b00_ 1;
   g[ 14 ]= cpx 2 * c0x 2 + b00_ 2;
   g[ 15 ]= cpx 3 * c0x 3 + b00_ 3;
   g[ 16 ]= UK 1;
   g[ 17 ]= UK 1;
   g[ 18 ]= UK 1;
   g[ 19 ]= UK 1;
   g[ 20 ]= cpy 0;
   g[ 21 ]= cpy 1;
   g[ 22 ]= cpy 2;
   g[ 23 ]= cpy 3;
   g[ 24 ]= c0y 0;
   g[ 25 ]= c0y 1;
   g[ 26 ]= c0y 2;
   g[ 27 ]= c0y 3;
   g[ 28 ]= cpy 0 * c0y 0 + b00_ 0;
   g[ 29 ]= cpy 1 * c0y 1 + b00_ 1;
   g[ 30 ]= cpy 2 * c0y 2 + b00_ 2;
   g[ 31 ]= cpy 3 * c0y 3 + b00_ 3;
   g[ 36 ]= cpz 0 * g_ 32;
   g[ 37 ]= cpz 1 * g_ 33;
   g[ 38 ]= cpz 2 * g_ 34;
   g[ 39 ]= cpz 3 * g_ 35;
   g[ 40 ]= c0z 0 * g_ 32;
   g[ 41 ]= c0z 1 * g_ 33;
   g[ 42 ]= c0z 2 * g_ 34;
   g[ 43 ]= c0z 3 * g_ 35;
   g[ 44 ]= cpz 0 * g_ 40 + b00_ 0 * g_ 32;
   g[ 45 ]= cpz 1 * g_ 41 + b00_ 1 * g_ 33;
   g[ 46 ]= cpz 2 * g_ 42 + b00_ 2 * g_ 34;
   g[ 47 ]= cpz 3 * g_ 43 + b00_ 3 * g_ 35].
(** g2e.c:2617-2699 *)
Definition srg0_2d4d_0102 : list ustmt :=
  [g[ 0 ]= UK 1;
   g[ 1 ]= UK 1;
   g[ 2 ]= UK 1;
   g[ 3 ]= UK 1;
   g[ 4 ]= cpx 0;
   g[ 5 ]= cpx 1;
   g[ 6 ]= cpx 2;
   g[ 7 ]= cpx 3;
   g[ 12 ]= c0x 0;
   g[ 13 ]= c0x 1;
   g[ 14 ]= c0x 2;
   g[ 15 ]= c0x 3;
   g[ 8 ]= cpx 0 * cpx 0 + b01_ 0;
   g[ 9 ]= cpx 1 * cpx 1 + b01_ 1;
   g[ 10 ]= cpx 2 * cpx 2 + b01_ 2;
   g[ 11 ]= cpx 3 * cpx 3 + b01_ 3;
   g[ 16 ]= cpx 0 * c0x 0 + b00_ 0;
   g[ 17 ]= cpx 1 * c0x 1 + b00_ 1;
   g[ 18 ]= cpx 2 * c0x 2 + b00_ 2;
   g[ 19 ]= cpx 3 * c0x 3 + b00_ 3;
   g[ 20 ]= cpx 0 * (g_ 16 + b00_ 0) + b01_ 0 * c0x 0;
   g[ 21 ]= cpx 1 * (g_ 17 + b00_ 1) + b01_ 1 * c0x 1;
   g[ 22 ]= cpx 2 * (g_ 18 + b00_ 2) + b01_ 2 * c0x 2;
   g[ 23 ]= cpx 3 * (g_ 19 + b00_ 3) + b01_ 3 * c0x 3;
   g[ 24 ]= UK 1;
   g[ 25 ]= UK 1;
   g[ 26 ]= UK 1;
   g[ 27 ]= UK 1;
   g[ 28 ]= cpy 0;
   g[ 29 ]= cpy 1;
   g[ 30 ]= cpy 2;
   g[ 31 ]= cpy 3;
   g[ 36 ]= c0y 0;
   g[ 37 ]= c0y 1;
   g[ 38 ]= c0y 2;
   g[ 39 ]= c0y 3;
   g[ 32 ]= cpy 0 * cpy 0 + b01_ 0;
   g[ 33 ]= cpy 1 * cpy 1 + b01_ 1;
   g[ 34 ]= cpy 2 * cpy 2 + b01_ 2;
   g[ 35 ]= cpy 3 * cpy 3 + b01_ 3;
   g[ 40 ]= cpy 0 * c0y 0 + b00_ 0;
   g[ 41 ]= cpy 1 * c0y 1 + b00_ 1;
   g[ 42 ]= cpy 2 * c0y 2 + b00_ 2;
   g[ 43 ]= cpy 3 * c0y 3 + b00_ 3;
   g[ 44 ]= cpy 0 * (g_ 40 + b00_ 0) + b01_ 0 * c0y 0;
   g[ 45 ]= cpy 1 * (g_ 41 + b00_ 1) + b01_ 1 * c0y 1;
   g[ 46 ]= cpy 2 * (g_ 42 + b00_ 2) + b01_ 2 * c0y 2;
   g[ 47 ]= cpy 3 * (g_ 43 + b00_ 3) + b01_ 3 * c0y 3;
   g[ 52 ]= cpz 0 * g_ 48;
   g[ 53 ]= cpz 1 * g_ 49;
   g[ 54 ]= cpz 2 * g_ 50;
   g[ 55 ]= cpz 3 * g_ 51;
   g[ 60 ]= c0z 0 * g_ 48;
   g[ 61 ]= c0z 1 * g_ 49;
   g[ 62 ]= c0z 2 * g_ 50;
   g[ 63 ]= c0z 3 * g_ 51;
   g[ 56 ]= cpz 0 * g_ 52 + b01_ 0 * g_ 48;
   g[ 57 ]= cpz 1 * g_ 53 + b01_ 1 * g_ 49;
   g[ 58 ]= cpz 2 * g_ 54 + b01_ 2 * g_ 50;
   g[ 59 ]= cpz 3 * g_ 55 + b01_ 3 * g_ 51;
   g[ 64 ]= cpz 0 * g_ 60 + b00_ 0 * g_ 48;
   g[ 65 ]= cpz 1 * g_ 61 + b00_ 1 * g_ 49;
   g[ 66 ]= cpz 2 * g_ 62 + b00_ 2 * g_ 50;
   g[ 67 ]= cpz 3 * g_ 63 + b00_ 3 * g_ 51;
   g[ 68 ]= cpz 0 * g_ 64 + b01_ 0 * g_ 60 + b00_ 0 * g_ 52;
   g[ 69 ]= cpz 1 * g_ 65 + b01_ 1 * g_ 61 + b00_ 1 * g_ 53;
   g[ 70 ]= cpz 2 * g_ 66 + b01_ 2 * g_ 62 + b00_ 2 * g_ 54;
   g[ 71 ]= cpz 3 * g_ 67 + b01_ 3 * g_ 63 + b00_ 3 * g_ 55].
(** g2e.c:2701-2758 *)
Definition srg0_2d4d_0110 : list ustmt :=
  [g[ 0 ]= UK 1;
   g[ 1 ]= UK 1;
   g[ 2 ]= UK 1;
   g[ 3 ]= UK 1;
   g[ 4 ]= cpx 0;
   g[ 5 ]= cpx 1;
   g[ 6 ]= cpx 2;
   g[ 7 ]= cpx 3;
   g[ 8 ]= c0x 0;
   g[ 9 ]= c0x 1;
   g[ 10 ]= c0x 2;
   g[ 11 ]= c0x 3;
   g[ 12 ]= cpx 0 * c0x 0 + b00_ 0;
   g[ 13 ]= cpx 1 * c0x 1 + b00_ 1;
   g[ 14 ]= cpx 2 * c0x 2 + b00_ 2;
   g[ 15 ]= cpx 3 * c0x 3 + b00_ 3;
   g[ 16 ]= UK 1;
   g[ 17 ]= UK 1;
   g[ 18 ]= UK 1;
   g[ 19 ]= UK 1;
   g[ 20 ]= cpy 0;
   g[ 21 ]= cpy 1;
   g[ 22 ]= cpy 2;
   g[ 23 ]= cpy 3;
   g[ 24 ]= c0y 0;
   g[ 25 ]= c0y 1;
   g[ 26 ]= c0y 2;
   g[ 27 ]= c0y 3;
   g[ 28 ]= cpy 0 * c0y 0 + b00_ 0;
   g[ 29 ]= cpy 1 * c0y 1 + b00_ 1;
   g[ 30 ]= cpy 2 * c0y 2 + b00_ 2;
   g[ 31 ]= cpy 3 * c0y 3 + b00_ 3;
   g[ 36 ]= cpz 0 * g_ 32;
   g[ 37 ]= cpz 1 * g_ 33;
   g[ 38 ]= cpz 2 * g_ 34;
   g[ 39 ]= cpz 3 * g_ 35;
   g[ 40 ]= c0z 0 * g_ 32;
   g[ 41 ]= c0z 1 * g_ 33;
   g[ 42 ]= c0z 2 * g_ 34;
   g[ 43 ]= c0z 3 * g_ 35;
   g[ 44 ]= cpz 0 * g_ 40 + b00_ 0 * g_ 32;
   g[ 45 ]= cpz 1 * g_ 41 + b00_ 1 * g_ 33;
   g[ 46 ]= cpz 2 * g_ 42 + b00_ 2 * g_ 34;
   g[ 47 ]= cpz 3 * g_ 43 + b00_ 3 * g_ 35].
(** g2e.c:2760-2869 *)
Definition srg0_2d4d_0111 : list ustmt :=
  [g[ 0 ]= UK 1;
   g[ 1 ]= UK 1;
   g[ 2 ]= UK 1;
   g[ 3 ]= UK 1;
   g[ 24 ]= c0x 0;
   g[ 25 ]= c0x 1;
   g[ 26 ]= c0x 2;
   g[ 27 ]= c0x 3;
   g[ 8 ]= cpx 0;
   g[ 9 ]= cpx 1;
   g[ 10 ]= cpx 2;
   g[ 11 ]= cpx 3;
   g[ 32 ]= cpx 0 * c0x 0 + b00_ 0;
   g[ 33 ]= cpx 1 * c0x 1 + b00_ 1;
   g[ 34 ]= cpx 2 * c0x 2 + b00_ 2;
   g[ 35 ]= cpx 3 * c0x 3 + b00_ 3;
   g[ 12 ]= cpx 0 * (xkxl + cpx 0) + b01_ 0;
   g[ 13 ]= cpx 1 * (xkxl + cpx 1) + b01_ 1;
   g[ 14 ]= cpx 2 * (xkxl + cpx 2) + b01_ 2;
   g[ 15 ]= cpx 3 * (xkxl + cpx 3) + b01_ 3;
   g[ 36 ]= g_ 32 * (xkxl + cpx 0) + cpx 0 * b00_ 0 + b01_ 0 * c0x 0;
   g[ 37 ]= g_ 33 * (xkxl + cpx 1) + cpx 1 * b00_ 1 + b01_ 1 * c0x 1;
   g[ 38 ]= g_ 34 * (xkxl + cpx 2) + cpx 2 * b00_ 2 + b01_ 2 * c0x 2;
   g[ 39 ]= g_ 35 * (xkxl + cpx 3) + cpx 3 * b00_ 3 + b01_ 3 * c0x 3;
   g[ 4 ]= xkxl + cpx 0;
   g[ 5 ]= xkxl + cpx 1;
   g[ 6 ]= xkxl + cpx 2;
   g[ 7 ]= xkxl + cpx 3;
   g[ 28 ]= c0x 0 * (xkxl + cpx 0) + b00_ 0;
   g[ 29 ]= c0x 1 * (xkxl + cpx 1) + b00_ 1;
   g[ 30 ]= c0x 2 * (xkxl + cpx 2) + b00_ 2;
   g[ 31 ]= c0x 3 * (xkxl + cpx 3) + b00_ 3;
   g[ 48 ]= UK 1;
   g[ 49 ]= UK 1;
   g[ 50 ]= UK 1;
   g[ 51 ]= UK 1;
   g[ 72 ]= c0y 0;
   g[ 73 ]= c0y 1;
   g[ 74 ]= c0y 2;
   g[ 75 ]= c0y 3;
   g[ 56 ]= cpy 0;
   g[ 57 ]= cpy 1;
   g[ 58 ]= cpy 2;
   g[ 59 ]= cpy 3;
   g[ 80 ]= cpy 0 * c0y 0 + b00_ 0;
   g[ 81 ]= cpy 1 * c0y 1 + b00_ 1;
   g[ 82 ]= cpy 2 * c0y 2 + b00_ 2;
   g[ 83 ]= cpy 3 * c0y 3 + b00_ 3;
   g[ 60 ]= cpy 0 * (ykyl + cpy 0) + b01_ 0;
   g[ 61 ]= cpy 1 * (ykyl + cpy 1) + b01_ 1;
   g[ 62 ]= cpy 2 * (ykyl + cpy 2) + b01_ 2;
   g[ 63 ]= cpy 3 * (ykyl + cpy 3) + b01_ 3;
   g[ 84 ]= g_ 80 * (ykyl + cpy 0) + cpy 0 * b00_ 0 + b01_ 0 * c0y 0;
   g[ 85 ]= g_ 81 * (ykyl + cpy 1) + cpy 1 * b00_ 1 + b01_ 1 * c0y 1;
   g[ 86 ]= g_ 82 * (ykyl + cpy 2) + cpy 2 * b00_ 2 + b01_ 2 * c0y 2;
   g[ 87 ]= g_ 83 * (ykyl + cpy 3) + cpy 3 * b00_ 3 + b01_ 3 * c0y 3;
   g[ 52 ]= ykyl + cpy 0;
   g[ 53 ]= ykyl + cpy 1;
   g[ 54 ]= ykyl + cpy 2;
   g[ 55 ]= ykyl + cpy 3;
   g[ 76 ]= c0y 0 * (ykyl + cpy 0) + b00_ 0;
   g[ 77 ]= c0y 1 * (ykyl + cpy 1) + b00_ 1;
   g[ 78 ]= c0y 2 * (ykyl + cpy 2) + b00_ 2;
   g[ 79 ]= c0y 3 * (ykyl + cpy 3) + b00_ 3;
   g[ 120 ]= c0z 0 * g_ 96;
   g[ 121 ]= c0z 1 * g_ 97;
   g[ 122 ]= c0z 2 * g_ 98;
   g[ 123 ]= c0z 3 * g_ 99;
   g[ 104 ]= cpz 0 * g_ 96;
   g[ 105 ]= cpz 1 * g_ 97;
   g[ 106 ]= cpz 2 * g_ 98;
   g[ 107 ]= cpz 3 * g_ 99;
   g[ 128 ]= cpz 0 * g_ 120 + b00_ 0 * g_ 96;
   g[ 129 ]= cpz 1 * g_ 121 + b00_ 1 * g_ 97;
   g[ 130 ]= cpz 2 * g_ 122 + b00_ 2 * g_ 98;
   g[ 131 ]= cpz 3 * g_ 123 + b00_ 3 * g_ 99;
   g[ 108 ]= g_ 104 * (zkzl + cpz 0) + b01_ 0 * g_ 96;
   g[ 109 ]= g_ 105 * (zkzl + cpz 1) + b01_ 1 * g_ 97;
   g[ 110 ]= g_ 106 * (zkzl + cpz 2) + b01_ 2 * g_ 98;
   g[ 111 ]= g_ 107 * (zkzl + cpz 3) + b01_ 3 * g_ 99;
   g[ 132 ]= g_ 128 * (zkzl + cpz 0) + b01_ 0 * g_ 120 + b00_ 0 * g_ 104;
   g[ 133 ]= g_ 129 * (zkzl + cpz 1) + b01_ 1 * g_ 121 + b00_ 1 * g_ 105;
   g[ 134 ]= g_ 130 * (zkzl + cpz 2) + b01_ 2 * g_ 122 + b00_ 2 * g_ 106;
   g[ 135 ]= g_ 131 * (zkzl + cpz 3) + b01_ 3 * g_ 123 + b00_ 3 * g_ 107;
   g[ 100 ]= g_ 96 * (zkzl + cpz 0);
   g[ 101 ]= g_ 97 * (zkzl + cpz 1);
   g[ 102 ]= g_ 98 * (zkzl + cpz 2);
   g[ 103 ]= g_ 99 * (zkzl + cpz 3);
   g[ 124 ]= g_ 120 * (zkzl + cpz 0) + b00_ 0 * g_ 96;
   g[ 125 ]= g_ 121 * (zkzl + cpz 1) + b00_ 1 * g_ 97;
   g[ 126 ]= g_ 122 * (zkzl + cpz 2) + b00_ 2 * g_ 98;
   g[ 127 ]= g_ 123 * (zkzl + cpz 3) + b00_ 3 * g_ 99].
(** g2e.c:2871-2953 *)
Definition srg0_2d4d_0120 : list ustmt :=
  [g[ 0 ]= UK 1;
   g[ 1 ]= UK 1;
   g[ 2 ]= UK 1;
   g[ 3 ]= UK 1;
   g[ 4 ]= cpx 0;
   g[ 5 ]= cpx 1;
   g[ 6 ]= cpx 2;
   g[ 7 ]= cpx 3;
   g[ 12 ]= c0x 0;
   g[ 13 ]= c0x 1;
   g[ 14 ]= c0x 2;
   g[ 15 ]= c0x 3;
   g[ 8 ]= cpx 0 * cpx 0 + b01_ 0;
   g[ 9 ]= cpx 1 * cpx 1 + b01_ 1;
   g[ 10 ]= cpx 2 * cpx 2 + b01_ 2;
   g[ 11 ]= cpx 3 * cpx 3 + b01_ 3;
   g[ 16 ]= cpx 0 * c0x 0 + b00_ 0;
   g[ 17 ]= cpx 1 * c0x 1 + b00_ 1;
   g[ 18 ]= cpx 2 * c0x 2 + b00_ 2;
   g[ 19 ]= cpx 3 * c0x 3 + b00_ 3;
   g[ 20 ]= cpx 0 * (g_ 16 + b00_ 0) + b01_ 0 * c0x 0;
   g[ 21 ]= cpx 1 * (g_ 17 + b00_ 1) + b01_ 1 * c0x 1;
   g[ 22 ]= cpx 2 * (g_ 18 + b00_ 2) + b01_ 2 * c0x 2;
   g[ 23 ]= cpx 3 * (g_ 19 + b00_ 3) + b01_ 3 * c0x 3;
   g[ 24 ]= UK 1;
   g[ 25 ]= UK 1;
   g[ 26 ]= UK 1;
   g[ 27 ]= UK 1;
   g[ 28 ]= cpy 0;
   g[ 29 ]= cpy 1;
   g[ 30 ]= cpy 2;
   g[ 31 ]= cpy 3;
   g[ 36 ]= c0y 0;
   g[ 37 ]= c0y 1;
   g[ 38 ]= c0y 2;
   g[ 39 ]= c0y 3;
   g[ 32 ]= cpy 0 * cpy 0 + b01_ 0;
   g[ 33 ]= cpy 1 * cpy 1 + b01_ 1;
   g[ 34 ]= cpy 2 * cpy 2 + b01_ 2;
   g[ 35 ]= cpy 3 * cpy 3 + b01_ 3;
   g[ 40 ]= cpy 0 * c0y 0 + b00_ 0;
   g[ 41 ]= cpy 1 * c0y 1 + b00_ 1;
   g[ 42 ]= cpy 2 * c0y 2 + b00_ 2;
   g[ 43 ]= cpy 3 * c0y 3 + b00_ 3;
   g[ 44 ]= cpy 0 * (g_ 40 + b00_ 0) + b01_ 0 * c0y 0;
   g[ 45 ]= cpy 1 * (g_ 41 + b00_ 1) + b01_ 1 * c0y 1;
   g[ 46 ]= cpy 2 * (g_ 42 + b00_ 2) + b01_ 2 * c0y 2;
   g[ 47 ]= cpy 3 * (g_ 43 + b00_ 3) + b01_ 3 * c0y 3;
   g[ 52 ]= cpz 0 * g_ 48;
   g[ 53 ]= cpz 1 * g_ 49;
   g[ 54 ]= cpz 2 * g_ 50;
   g[ 55 ]= cpz 3 * g_ 51;
   g[ 60 ]= c0z 0 * g_ 48;
   g[ 61 ]= c0z 1 * g_ 49;
   g[ 62 ]= c0z 2 * g_ 50;
   g[ 63 ]= c0z 3 * g_ 51;
   g[ 56 ]= cpz 0 * g_ 52 + b01_ 0 * g_ 48;
   g[ 57 ]= cpz 1 * g_ 53 + b01_ 1 * g_ 49;
   g[ 58 ]= cpz 2 * g_ 54 + b01_ 2 * g_ 50;
   g[ 59 ]= cpz 3 * g_ 55 + b01_ 3 * g_ 51;
   g[ 64 ]= cpz 0 * g_ 60 + b00_ 0 * g_ 48;
   g[ 65 ]= cpz 1 * g_ 61 + b00_ 1 * g_ 49;
   g[ 66 ]= cpz 2 * g_ 62 + b00_ 2 * g_ 50;
   g[ 67 ]= cpz 3 * g_ 63 + b00_ 3 * g_ 51;
   g[ 68 ]= cpz 0 * g_ 64 + b01_ 0 * g_ 60 + b00_ 0 * g_ 52;
   g[ 69 ]= cpz 1 * g_ 65 + b01_ 1 * g_ 61 + b00_ 1 * g_ 53;
   g[ 70 ]= cpz 2 * g_ 66 + b01_ 2 * g_ 62 + b00_ 2 * g_ 54;
   g[ 71 ]= cpz 3 * g_ 67 + b01_ 3 * g_ 63 + b00_ 3 * g_ 55].
(** g2e.c:2955-2997 *)
Definition srg0_2d4d_0200 : list ustmt :=
  [g[ 0 ]= UK 1;
   g[ 1 ]= UK 1;
   g[ 2 ]= UK 1;
   g[ 3 ]= UK 1;
   g[ 4 ]= c0x 0;
   g[ 5 ]= c0x 1;
   g[ 6 ]= c0x 2;
   g[ 7 ]= c0x 3;
   g[ 8 ]= c0x 0 * c0x 0 + b10_ 0;
   g[ 9 ]= c0x 1 * c0x 1 + b10_ 1;
   g[ 10 ]= c0x 2 * c0x 2 + b10_ 2;
   g[ 11 ]= c0x 3 * c0x 3 + b10_ 3;
   g[ 12 ]= UK 1;
   g[ 13 ]= UK 1;
   g[ 14 ]= UK 1;
   g[ 15 ]= UK 1;
   g[ 16 ]= c0y 0;
   g[ 17 ]= c0y 1;
   g[ 18 ]= c0y 2;
   g[ 19 ]= c0y 3;
   g[ 20 ]= c0y 0 * c0y 0 + b10_ 0;
   g[ 21 ]= c0y 1 * c0y 1 + b10_ 1;
   g[ 22 ]= c0y 2 * c0y 2 + b10_ 2;
   g[ 23 ]= c0y 3 * c0y 3 + b10_ 3;
   g[ 28 ]= c0z 0 * g_ 24;
   g[ 29 ]= c0z 1 * g_ 25;
   g[ 30 ]= c0z 2 * g_ 26;
   g[ 31 ]= c0z 3 * g_ 27;
   g[ 32 ]= c0z 0 * g_ 28 + b10_ 0 * g_ 24;
   g[ 33 ]= c0z 1 * g_ 29 + b10_ 1 * g_ 25;
   g[ 34 ]= c0z 2 * g_ 30 + b10_ 2 * g_ 26;
   g[ 35 ]= c0z 3 * g_ 31 + b10_ 3 * g_ 27].
(** g2e.c:2999-3081 *)
Definition srg0_2d4d_0201 : list ustmt :=
  [g[ 0 ]= UK 1;
   g[ 1 ]= UK 1;
   g[ 2 ]= UK 1;
   g[ 3 ]= UK 1;
   g[ 8 ]= c0x 0;
   g[ 9 ]= c0x 1;
   g[ 10 ]= c0x 2;
   g[ 11 ]= c0x 3;
   g[ 16 ]= c0x 0 * c0x 0 + b10_ 0;
   g[ 17 ]= c0x 1 * c0x 1 + b10_ 1;
   g[ 18 ]= c0x 2 * c0x 2 + b10_ 2;
   g[ 19 ]= c0x 3 * c0x 3 + b10_ 3;
   g[ 4 ]= cpx 0;
   g[ 5 ]= cpx 1;
   g[ 6 ]= cpx 2;
   g[ 7 ]= cpx 3;
   g[ 12 ]= cpx 0 * c0x 0 + b00_ 0;
   g[ 13 ]= cpx 1 * c0x 1 + b00_ 1;
   g[ 14 ]= cpx 2 * c0x 2 + b00_ 2;
   g[ 15 ]= cpx 3 * c0x 3 + b00_ 3;
   g[ 20 ]= c0x 0 * (g_ 12 + b00_ 0) + b10_ 0 * cpx 0;
   g[ 21 ]= c0x 1 * (g_ 13 + b00_ 1) + b10_ 1 * cpx 1;
   g[ 22 ]= c0x 2 * (g_ 14 + b00_ 2) + b10_ 2 * cpx 2;
   g[ 23 ]= c0x 3 * (g_ 15 + b00_ 3) + b10_ 3 * cpx 3;
   g[ 24 ]= UK 1;
   g[ 25 ]= UK 1;
   g[ 26 ]= UK 1;
   g[ 27 ]= UK 1;
   g[ 32 ]= c0y 0;
   g[ 33 ]= c0y 1;
   g[ 34 ]= c0y 2;
   g[ 35 ]= c0y 3;
   g[ 40 ]= c0y 0 * c0y 0 + b10_ 0;
   g[ 41 ]= c0y 1 * c0y 1 + b10_ 1;
   g[ 42 ]= c0y 2 * c0y 2 + b10_ 2;
   g[ 43 ]= c0y 3 * c0y 3 + b10_ 3;
   g[ 28 ]= cpy 0;
   g[ 29 ]= cpy 1;
   g[ 30 ]= cpy 2;
   g[ 31 ]= cpy 3;
   g[ 36 ]= cpy 0 * c0y 0 + b00_ 0;
   g[ 37 ]= cpy 1 * c0y 1 + b00_ 1;
   g[ 38 ]= cpy 2 * c0y 2 + b00_ 2;
   g[ 39 ]= cpy 3 * c0y 3 + b00_ 3;
   g[ 44 ]= c0y 0 * (g_ 36 + b00_ 0) + b10_ 0 * cpy 0;
   g[ 45 ]= c0y 1 * (g_ 37 + b00_ 1) + b10_ 1 * cpy 1;
   g[ 46 ]= c0y 2 * (g_ 38 + b00_ 2) + b10_ 2 * cpy 2;
   g[ 47 ]= c0y 3 * (g_ 39 + b00_ 3) + b10_ 3 * cpy 3;
   g[ 56 ]= c0z 0 * g_ 48;
   g[ 57 ]= c0z 1 * g_ 49;
   g[ 58 ]= c0z 2 * g_ 50;
   g[ 59 ]= c0z 3 * g_ 51;
   g[ 64 ]= c0z 0 * g_ 56 + b10_ 0 * g_ 48;
   g[ 65 ]= c0z 1 * g_ 57 + b10_ 1 * g_ 49;
   g[ 66 ]= c0z 2 * g_ 58 + b10_ 2 * g_ 50;
   g[ 67 ]= c0z 3 * g_ 59 + b10_ 3 * g_ 51;
   g[ 52 ]= cpz 0 * g_ 48;
   g[ 53 ]= cpz 1 * g_ 49;
   g[ 54 ]= cpz 2 * g_ 50;
   g[ 55 ]= cpz 3 * g_ 51;
   g[ 60 ]= cpz 0 * g_ 56 + b00_ 0 * g_ 48;
   g[ 61 ]= cpz 1 * g_ 57 + b00_ 1 * g_ 49;
   g[ 62 ]= cpz 2 * g_ 58 + b00_ 2 * g_ 50;
   g[ 63 ]= cpz 3 * g_ 59 + b00_ 3 * g_ 51;
   g[ 68 ]= c0z 0 * g_ 60 + b10_ 0 * g_ 52 + b00_ 0 * g_ 56;
   g[ 69 ]= c0z 1 * g_ 61 + b10_ 1 * g_ 53 + b00_ 1 * g_ 57;
   g[ 70 ]= c0z 2 * g_ 62 + b10_ 2 * g_ 54 + b00_ 2 * g_ 58;
   g[ 71 ]= c0z 3 * g_ 63 + b10_ 3 * g_ 55 + b00_ 3 * g_ 59].
(** g2e.c:3083-3165 *)
Definition srg0_2d4d_0210 : list ustmt :=
  [g[ 0 ]= UK 1;
   g[ 1 ]= UK 1;
   g[ 2 ]= UK 1;
   g[ 3 ]= UK 1;
   g[ 4 ]= cpx 0;
   g[ 5 ]= cpx 1;
   g[ 6 ]= cpx 2;
   g[ 7 ]= cpx 3;
   g[ 8 ]= c0x 0;
   g[ 9 ]= c0x 1;
   g[ 10 ]= c0x 2;
   g[ 11 ]= c0x 3;
   g[ 12 ]= cpx 0 * c0x 0 + b00_ 0;
   g[ 13 ]= cpx 1 * c0x 1 + b00_ 1;
   g[ 14 ]= cpx 2 * c0x 2 + b00_ 2;
   g[ 15 ]= cpx 3 * c0x 3 + b00_ 3;
   g[ 16 ]= c0x 0 * c0x 0 + b10_ 0;
   g[ 17 ]= c0x 1 * c0x 1 + b10_ 1;
   g[ 18 ]= c0x 2 * c0x 2 + b10_ 2;
   g[ 19 ]= c0x 3 * c0x 3 + b10_ 3;
   g[ 20 ]= c0x 0 * (g_ 12 + b00_ 0) + b10_ 0 * cpx 0;
   g[ 21 ]= c0x 1 * (g_ 13 + b00_ 1) + b10_ 1 * cpx 1;
   g[ 22 ]= c0x 2 * (g_ 14 + b00_ 2) + b10_ 2 * cpx 2;
   g[ 23 ]= c0x 3 * (g_ 15 + b00_ 3) + b10_ 3 * cpx 3;
   g[ 24 ]= UK 1;
   g[ 25 ]= UK 1;
   g[ 26 ]= UK 1;
   g[ 27 ]= UK 1;
   g[ 28 ]= cpy 0;
   g[ 29 ]= cpy 1;
   g[ 30 ]= cpy 2;
   g[ 31 ]= cpy 3;
   g[ 32 ]= c0y 0;
   g[ 33 ]= c0y 1;
   g[ 34 ]= c0y 2;
   g[ 35 ]= c0y 3;
   g[ 36 ]= cpy 0 * c0y 0 + b00_ 0;
   g[ 37 ]= cpy 1 * c0y 1 + b00_ 1;
   g[ 38 ]= cpy 2 * c0y 2 + b00_ 2;
   g[ 39 ]= cpy 3 * c0y 3 + b00_ 3;
   g[ 40 ]= c0y 0 * c0y 0 + b10_ 0;
   g[ 41 ]= c0y 1 * c0y 1 + b10_ 1;
   g[ 42 ]= c0y 2 * c0y 2 + b10_ 2;
   g[ 43 ]= c0y 3 * c0y 3 + b10_ 3;
   g[ 44 ]= c0y 0 * (g_ 36 + b00_ 0) + b10_ 0 * cpy 0;
   g[ 45 ]= c0y 1 * (g_ 37 + b00_ 1) + b10_ 1 * cpy 1;
   g[ 46 ]= c0y 2 * (g_ 38 + b00_ 2) + b10_ 2 * cpy 2;
   g[ 47 ]= c0y 3 * (g_ 39 + b00_ 3) + b10_ 3 * cpy 3;
   g[ 52 ]= cpz 0 * g_ 48;
   g[ 53 ]= cpz 1 * g_ 49;
   g[ 54 ]= cpz 2 * g_ 50;
   g[ 55 ]= cpz 3 * g_ 51;
   g[ 56 ]= c0z 0 * g_ 48;
   g[ 57 ]= c0z 1 * g_ 49;
   g[ 58 ]= c0z 2 * g_ 50;
   g[ 59 ]= c0z 3 * g_ 51;
   g[ 60 ]= cpz 0 * g_ 56 + b00_ 0 * g_ 48;
   g[ 61 ]= cpz 1 * g_ 57 + b00_ 1 * g_ 49;
   g[ 62 ]= cpz 2 * g_ 58 + b00_ 2 * g_ 50;
   g[ 63 ]= cpz 3 * g_ 59 + b00_ 3 * g_ 51;
   g[ 64 ]= c0z 0 * g_ 56 + b10_ 0 * g_ 48;
   g[ 65 ]= c0z 1 * g_ 57 + b10_ 1 * g_ 49;
   g[ 66 ]= c0z 2 * g_ 58 + b10_ 2 * g_ 50;
   g[ 67 ]= c0z 3 * g_ 59 + b10_ 3 * g_ 51;
   g[ 68 ]= c0z 0 * g_ 60 + b10_ 0 * g_ 52 + b00_ 0 * g_ 56;
   g[ 69 ]= c0z 1 * g_ 61 + b10_ 1 * g_ 53 + b00_ 1 * g_ 57;
   g[ 70 ]= c0z 2 * g_ 62 + b10_ 2 * g_ 54 + b00_ 2 * g_ 58;
   g[ 71 ]= c0z 3 * g_ 63 + b10_ 3 * g_ 55 + b00_ 3 * g_ 59].
(** g2e.c:3167-3221 *)
Definition srg0_2d4d_0300 : list ustmt :=
  [g[ 0 ]= UK 1;
   g[ 1 ]= UK 1;
   g[ 2 ]= UK 1;
   g[ 3 ]= UK 1;
   g[ 4 ]= c0x 0;
   g[ 5 ]= c0x 1;
   g[ 6 ]= c0x 2;
   g[ 7 ]= c0x 3;
   g[ 8 ]= c0x 0 * c0x 0 + b10_ 0;
   g[ 9 ]= c0x 1 * c0x 1 + b10_ 1;
   g[ 10 ]= c0x 2 * c0x 2 + b10_ 2;
   g[ 11 ]= c0x 3 * c0x 3 + b10_ 3;
   g[ 12 ]= c0x 0 * (g_ 8 + UK 2 * b10_ 0);
   g[ 13 ]= c0x 1 * (g_ 9 + UK 2 * b10_ 1);
   g[ 14 ]= c0x 2 * (g_ 10 + UK 2 * b10_ 2);
   g[ 15 ]= c0x 3 * (g_ 11 + UK 2 * b10_ 3);
   g[ 16 ]= UK 1;
   g[ 17 ]= UK 1;
   g[ 18 ]= UK 1;
   g[ 19 ]= UK 1;
   g[ 20 ]= c0y 0;
   g[ 21 ]= c0y 1;
   g[ 22 ]= c0y 2;
   g[ 23 ]= c0y 3;
   g[ 24 ]= c0y 0 * c0y 0 + b10_ 0;
   g[ 25 ]= c0y 1 * c0y 1 + b10_ 1;
   g[ 26 ]= c0y 2 * c0y 2 + b10_ 2;
   g[ 27 ]= c0y 3 * c0y 3 + b10_ 3;
   g[ 28 ]= c0y 0 * (g_ 24 + UK 2 * b10_ 0);
   g[ 29 ]= c0y 1 * (g_ 25 + UK 2 * b10_ 1);
   g[ 30 ]= c0y 2 * (g_ 26 + UK 2 * b10_ 2);
   g[ 31 ]= c0y 3 * (g_ 27 + UK 2 * b10_ 3);
   g[ 36 ]= c0z 0 * g_ 32;
   g[ 37 ]= c0z 1 * g_ 33;
   g[ 38 ]= c0z 2 * g_ 34;
   g[ 39 ]= c0z 3 * g_ 35;
   g[ 40 ]= c0z 0 * g_ 36 + b10_ 0 * g_ 32;
   g[ 41 ]= c0z 1 * g_ 37 + b10_ 1 * g_ 33;
   g[ 42 ]= c0z 2 * g_ 38 + b10_ 2 * g_ 34;
   g[ 43 ]= c0z 3 * g_ 39 + b10_ 3 * g_ 35;
   g[ 44 ]= c0z 0 * g_ 40 + UK 2 * b10_ 0 * g_ 36;
   g[ 45 ]= c0z 1 * g_ 41 + UK 2 * b10_ 1 * g_ 37;
   g[ 46 ]= c0z 2 * g_ 42 + UK 2 * b10_ 2 * g_ 38;
   g[ 47 ]= c0z 3 * g_ 43 + UK 2 * b10_ 3 * g_ 39].
(** g2e.c:3223-3240 *)
Definition srg0_2d4d_1000 : list ustmt :=
  [g[ 0 ]= UK 1;
   g[ 1 ]= UK 1;
   g[ 2 ]= c0x 0;
   g[ 3 ]= c0x 1;
   g[ 4 ]= UK 1;
   g[ 5 ]= UK 1;
   g[ 6 ]= c0y 0;
   g[ 7 ]= c0y 1;
   g[ 10 ]= c0z 0 * g_ 8;
   g[ 11 ]= c0z 1 * g_ 9].
(** g2e.c:3242-3299 *)
Definition srg0_2d4d_1001 : list ustmt :=
  [g[ 0 ]= UK 1;
   g[ 1 ]= UK 1;
   g[ 2 ]= UK 1;
   g[ 3 ]= UK 1;
   g[ 4 ]= c0x 0;
   g[ 5 ]= c0x 1;
   g[ 6 ]= c0x 2;
   g[ 7 ]= c0x 3;
   g[ 8 ]= cpx 0;
   g[ 9 ]= cpx 1;
   g[ 10 ]= cpx 2;
   g[ 11 ]= cpx 3;
   g[ 12 ]= cpx 0 * c0x 0 + b00_ 0;
   g[ 13 ]= cpx 1 * c0x 1 + b00_ 1;
   g[ 14 ]= cpx 2 * c0x 2 + b00_ 2;
   g[ 15 ]= cpx 3 * c0x 3 + b00_ 3;
   g[ 16 ]= UK 1;
   g[ 17 ]= UK 1;
   g[ 18 ]= UK 1;
   g[ 19 ]= UK 1;
   g[ 20 ]= c0y 0;
   g[ 21 ]= c0y 1;
   g[ 22 ]= c0y 2;
   g[ 23 ]= c0y 3;
   g[ 24 ]= cpy 0;
   g[ 25 ]= cpy 1;
   g[ 26 ]= cpy 2;
   g[ 27 ]= cpy 3;
   g[ 28 ]= cpy 0 * c0y 0 + b00_ 0;
   g[ 29 ]= cpy 1 * c0y 1 + b00_ 1;
   g[ 30 ]= cpy 2 * c0y 2 + b00_ 2;
   g[ 31 ]= cpy 3 * c0y 3 + b00_ 3;
   g[ 36 ]= c0z 0 * g_ 32;
   g[ 37 ]= c0z 1 * g_ 33;
   g[ 38 ]= c0z 2 * g_ 34;
   g[ 39 ]= c0z 3 * g_ 35;
   g[ 40 ]= cpz 0 * g_ 32;
   g[ 41 ]= cpz 1 * g_ 33;
   g[ 42 ]= cpz 2 * g_ 34;
   g[ 43 ]= cpz 3 * g_ 35;
   g[ 44 ]= cpz 0 * g_ 36 + b00_ 0 * g_ 32;
   g[ 45 ]= cpz 1 * g_ 37 + b00_ 1 * g_ 33;
   g[ 46 ]= cpz 2 * g_ 38 + b00_ 2 * g_ 34;
   g[ 47 ]= cpz 3 * g_ 39 + b00_ 3 * g_ 35].
(** g2e.c:3301-3383 *)
Definition srg0_2d4d_1002 : list ustmt :=
  [g[ 0 ]= UK 1;
   g[ 1 ]= UK 1;
   g[ 2 ]= UK 1;
   g[ 3 ]= UK 1;
   g[ 4 ]= c0x 0;
   g[ 5 ]= c0x 1;
   g[ 6 ]= c0x 2;
   g[ 7 ]= c0x 3;
   g[ 8 ]= cpx 0;
   g[ 9 ]= cpx 1;
   g[ 10 ]= cpx 2;
   g[ 11 ]= cpx 3;
   g[ 12 ]= cpx 0 * c0x 0 + b00_ 0;
   g[ 13 ]= cpx 1 * c0x 1 + b00_ 1;
   g[ 14 ]= cpx 2 * c0x 2 + b00_ 2;
   g[ 15 ]= cpx 3 * c0x 3 + b00_ 3;
   g[ 16 ]= cpx 0 * cpx 0 + b01_ 0;
   g[ 17 ]= cpx 1 * cpx 1 + b01_ 1;
   g[ 18 ]= cpx 2 * cpx 2 + b01_ 2;
   g[ 19 ]= cpx 3 * cpx 3 + b01_ 3;
   g[ 20 ]= cpx 0 * (g_ 12 + b00_ 0) + b01_ 0 * c0x 0;
   g[ 21 ]= cpx 1 * (g_ 13 + b00_ 1) + b01_ 1 * c0x 1;
   g[ 22 ]= cpx 2 * (g_ 14 + b00_ 2) + b01_ 2 * c0x 2;
   g[ 23 ]= cpx 3 * (g_ 15 + b00_ 3) + b01_ 3 * c0x 3;
   g[ 24 ]= UK 1;
   g[ 25 ]= UK 1;
   g[ 26 ]= UK 1;
   g[ 27 ]= UK 1;
   g[ 28 ]= c0y 0;
   g[ 29 ]= c0y 1;
   g[ 30 ]= c0y 2;
   g[ 31 ]= c0y 3;
   g[ 32 ]= cpy 0;
   g[ 33 ]= cpy 1;
   g[ 34 ]= cpy 2;
   g[ 35 ]= cpy 3;
   g[ 36 ]= cpy 0 * c0y 0 + b00_ 0;
   g[ 37 ]= cpy 1 * c0y 1 + b00_ 1;
   g[ 38 ]= cpy 2 * c0y 2 + b00_ 2;
   g[ 39 ]= cpy 3 * c0y 3 + b00_ 3;
   g[ 40 ]= cpy 0 * cpy 0 + b01_ 0;
   g[ 41 ]= cpy 1 * cpy 1 + b01_ 1;
   g[ 42 ]= cpy 2 * cpy 2 + b01_ 2;
   g[ 43 ]= cpy 3 * cpy 3 + b01_ 3;
   g[ 44 ]= cpy 0 * (g_ 36 + b00_ 0) + b01_ 0 * c0y 0;
   g[ 45 ]= cpy 1 * (g_ 37 + b00_ 1) + b01_ 1 * c0y 1;
   g[ 46 ]= cpy 2 * (g_ 38 + b00_ 2) + b01_ 2 * c0y 2;
   g[ 47 ]= cpy 3 * (g_ 39 + b00_ 3) + b01_ 3 * c0y 3;
   g[ 52 ]= c0z 0 * g_ 48;
   g[ 53 ]= c0z 1 * g_ 49;
   g[ 54 ]= c0z 2 * g_ 50;
   g[ 55 ]= c0z 3 * g_ 51;
   g[ 56 ]= cpz 0 * g_ 48;
   g[ 57 ]= cpz 1 * g_ 49;
   g[ 58 ]= cpz 2 * g_ 50;
   g[ 59 ]= cpz 3 * g_ 51;
   g[ 60 ]= cpz 0 * g_ 52 + b00_ 0 * g_ 48;
   g[ 61 ]= cpz 1 * g_ 53 + b00_ 1 * g_ 49;
   g[ 62 ]= cpz 2 * g_ 54 + b00_ 2 * g_ 50;
   g[ 63 ]= cpz 3 * g_ 55 + b00_ 3 * g_ 51;
   g[ 64 ]= cpz 0 * g_ 56 + b01_ 0 * g_ 48;
   g[ 65 ]= cpz 1 * g_ 57 + b01_ 1 * g_ 49;
   g[ 66 ]= cpz 2 * g_ 58 + b01_ 2 * g_ 50;
   g[ 67 ]= cpz 3 * g_ 59 + b01_ 3 * g_ 51;
   g[ 68 ]= cpz 0 * g_ 60 + b01_ 0 * g_ 52 + b00_ 0 * g_ 56;
   g[ 69 ]= cpz 1 * g_ 61 + b01_ 1 * g_ 53 + b00_ 1 * g_ 57;
   g[ 70 ]= cpz 2 * g_ 62 + b01_ 2 * g_ 54 + b00_ 2 * g_ 58;
   g[ 71 ]= cpz 3 * g_ 63 + b01_ 3 * g_ 55 + b00_ 3 * g_ 59].
(** g2e.c:3385-3442 *)
Definition srg0_2d4d_1010 : list ustmt :=
  [g[ 0 ]= UK 1;
   g[ 1 ]= UK 1;
   g[ 2 ]= UK 1;
   g[ 3 ]= UK 1;
   g[ 4 ]= c0x 0;
   g[ 5 ]= c0x 1;
   g[ 6 ]= c0x 2;
   g[ 7 ]= c0x 3;
   g[ 8 ]= cpx 0;
   g[ 9 ]= cpx 1;
   g[ 10 ]= cpx 2;
   g[ 11 ]= cpx 3;
   g[ 12 ]= cpx 0 * c0x 0 + b00_ 0;
   g[ 13 ]= cpx 1 * c0x 1 + b00_ 1;
   g[ 14 ]= cpx 2 * c0x 2 + b00_ 2;
   g[ 15 ]= cpx 3 * c0x 3 + b00_ 3;
   g[ 16 ]= UK 1;
   g[ 17 ]= UK 1;
   g[ 18 ]= UK 1;
   g[ 19 ]= UK 1;
   g[ 20 ]= c0y 0;
   g[ 21 ]= c0y 1;
   g[ 22 ]= c0y 2;
   g[ 23 ]= c0y 3;
   g[ 24 ]= cpy 0;
   g[ 25 ]= cpy 1;
   g[ 26 ]= cpy 2;
   g[ 27 ]= cpy 3;
   g[ 28 ]= cpy 0 * c0y 0 + b00_ 0;
   g[ 29 ]= cpy 1 * c0y 1 + b00_ 1;
   g[ 30 ]= cpy 2 * c0y 2 + b00_ 2;
   g[ 31 ]= cpy 3 * c0y 3 + b00_ 3;
   g[ 36 ]= c0z 0 * g_ 32;
   g[ 37 ]= c0z 1 * g_ 33;
   g[ 38 ]= c0z 2 * g_ 34;
   g[ 39 ]= c0z 3 * g_ 35;
   g[ 40 ]= cpz 0 * g_ 32;
   g[ 41 ]= cpz 1 * g_ 33;
   g[ 42 ]= cpz 2 * g_ 34;
   g[ 43 ]= cpz 3 * g_ 35;
   g[ 44 ]= cpz 0 * g_ 36 + b00_ 0 * g_ 32;
   g[ 45 ]= cpz 1 * g_ 37 + b00_ 1 * g_ 33;
   g[ 46 ]= cpz 2 * g_ 38 + b00_ 2 * g_ 34;
   g[ 47 ]= cpz 3 * g_ 39 + b00_ 3 * g_ 35].
(** g2e.c:3444-3553 *)
Definition srg0_2d4d_1011 : list ustmt :=
  [g[ 0 ]= UK 1;
   g[ 1 ]= UK 1;
   g[ 2 ]= UK 1;
   g[ 3 ]= UK 1;
   g[ 4 ]= c0x 0;
   g[ 5 ]= c0x 1;
   g[ 6 ]= c0x 2;
   g[ 7 ]= c0x 3;
   g[ 16 ]= cpx 0;
   g[ 17 ]= cpx 1;
   g[ 18 ]= cpx 2;
   g[ 19 ]= cpx 3;
   g[ 20 ]= cpx 0 * c0x 0 + b00_ 0;
   g[ 21 ]= cpx 1 * c0x 1 + b00_ 1;
   g[ 22 ]= cpx 2 * c0x 2 + b00_ 2;
   g[ 23 ]= cpx 3 * c0x 3 + b00_ 3;
   g[ 24 ]= cpx 0 * (xkxl + cpx 0) + b01_ 0;
   g[ 25 ]= cpx 1 * (xkxl + cpx 1) + b01_ 1;
   g[ 26 ]= cpx 2 * (xkxl + cpx 2) + b01_ 2;
   g[ 27 ]= cpx 3 * (xkxl + cpx 3) + b01_ 3;
   g[ 28 ]= g_ 20 * (xkxl + cpx 0) + cpx 0 * b00_ 0 + b01_ 0 * c0x 0;
   g[ 29 ]= g_ 21 * (xkxl + cpx 1) + cpx 1 * b00_ 1 + b01_ 1 * c0x 1;
   g[ 30 ]= g_ 22 * (xkxl + cpx 2) + cpx 2 * b00_ 2 + b01_ 2 * c0x 2;
   g[ 31 ]= g_ 23 * (xkxl + cpx 3) + cpx 3 * b00_ 3 + b01_ 3 * c0x 3;
   g[ 8 ]= xkxl + cpx 0;
   g[ 9 ]= xkxl + cpx 1;
   g[ 10 ]= xkxl + cpx 2;
   g[ 11 ]= xkxl + cpx 3;
   g[ 12 ]= c0x 0 * (xkxl + cpx 0) + b00_ 0;
   g[ 13 ]= c0x 1 * (xkxl + cpx 1) + b00_ 1;
   g[ 14 ]= c0x 2 * (xkxl + cpx 2) + b00_ 2;
   g[ 15 ]= c0x 3 * (xkxl + cpx 3) + b00_ 3;
   g[ 48 ]= UK 1;
   g[ 49 ]= UK 1;
   g[ 50 ]= UK 1;
   g[ 51 ]= UK 1;
   g[ 52 ]= c0y 0;
   g[ 53 ]= c0y 1;
   g[ 54 ]= c0y 2;
   g[ 55 ]= c0y 3;
   g[ 64 ]= cpy 0;
   g[ 65 ]= cpy 1;
   g[ 66 ]= cpy 2;
   g[ 67 ]= cpy 3;
   g[ 68 ]= cpy 0 * c0y 0 + b00_ 0;
   g[ 69 ]= cpy 1 * c0y 1 + b00_ 1;
   g[ 70 ]= cpy 2 * c0y 2 + b00_ 2;
   g[ 71 ]= cpy 3 * c0y 3 + b00_ 3;
   g[ 72 ]= cpy 0 * (ykyl + cpy 0) + b01_ 0;
   g[ 73 ]= cpy 1 * (ykyl + cpy 1) + b01_ 1;
   g[ 74 ]= cpy 2 * (ykyl + cpy 2) + b01_ 2;
   g[ 75 ]= cpy 3 * (ykyl + cpy 3) + b01_ 3;
   g[ 76 ]= g_ 68 * (ykyl + cpy 0) + cpy 0 * b00_ 0 + b01_ 0 * c0y 0;
   g[ 77 ]= g_ 69 * (ykyl + cpy 1) + cpy 1 * b00_ 1 + b01_ 1 * c0y 1;
   g[ 78 ]= g_ 70 * (ykyl + cpy 2) + cpy 2 * b00_ 2 + b01_ 2 * c0y 2;
   g[ 79 ]= g_ 71 * (ykyl + cpy 3) + cpy 3 * b00_ 3 + b01_ 3 * c0y 3;
   g[ 56 ]= ykyl + cpy 0;
   g[ 57 ]= ykyl + cpy 1;
   g[ 58 ]= ykyl + cpy 2;
   g[ 59 ]= ykyl + cpy 3;
   g[ 60 ]= c0y 0 * (ykyl + cpy 0) + b00_ 0;
   g[ 61 ]= c0y 1 * (ykyl + cpy 1) + b00_ 1;
   g[ 62 ]= c0y 2 * (ykyl + cpy 2) + b00_ 2;
   g[ 63 ]= c0y 3 * (ykyl + cpy 3) + b00_ 3;
   g[ 100 ]= c0z 0 * g_ 96;
   g[ 101 ]= c0z 1 * g_ 97;
   g[ 102 ]= c0z 2 * g_ 98;
   g[ 103 ]= c0z 3 * g_ 99;
   g[ 112 ]= cpz 0 * g_ 96;
   g[ 113 ]= cpz 1 * g_ 97;
   g[ 114 ]= cpz 2 * g_ 98;
   g[ 115 ]= cpz 3 * g_ 99;
   g[ 116 ]= cpz 0 * g_ 100 + b00_ 0 * g_ 96;
   g[ 117 ]= cpz 1 * g_ 101 + b00_ 1 * g_ 97;
   g[ 118 ]= cpz 2 * g_ 102 + b00_ 2 * g_ 98;
   g[ 119 ]= cpz 3 * g_ 103 + b00_ 3 * g_ 99;
   g[ 120 ]= g_ 112 * (zkzl + cpz 0) + b01_ 0 * g_ 96;
   g[ 121 ]= g_ 113 * (zkzl + cpz 1) + b01_ 1 * g_ 97;
   g[ 122 ]= g_ 114 * (zkzl + cpz 2) + b01_ 2 * g_ 98;
   g[ 123 ]= g_ 115 * (zkzl + cpz 3) + b01_ 3 * g_ 99;
   g[ 124 ]= g_ 116 * (zkzl + cpz 0) + b01_ 0 * g_ 100 + b00_ 0 * g_ 112;
   g[ 125 ]= g_ 117 * (zkzl + cpz 1) + b01_ 1 * g_ 101 + b00_ 1 * g_ 113;
   g[ 126 ]= g_ 118 * (zkzl + cpz 2) + b01_ 2 * g_ 102 + b00_ 2 * g_ 114;
   g[ 127 ]= g_ 119 * (zkzl + cpz 3) + b01_ 3 * g_ 103 + b00_ 3 * g_ 115;
   g[ 104 ]= g_ 96 * (zkzl + cpz 0);
   g[ 105 ]= g_ 97 * (zkzl + cpz 1);
   g[ 106 ]= g_ 98 * (zkzl + cpz 2);
   g[ 107 ]= g_ 99 * (zkzl + cpz 3);
   g[ 108 ]= g_ 100 * (zkzl + cpz 0) + b00_ 0 * g_ 96;
   g[ 109 ]= g_ 101 * (zkzl + cpz 1) + b00_ 1 * g_ 97;
   g[ 110 ]= g_ 102 * (zkzl + cpz 2) + b00_ 2 * g_ 98;
   g[ 111 ]= g_ 103 * (zkzl + cpz 3) + b00_ 3 * g_ 99].
(** g2e.c:3555-3637 *)
Definition srg0_2d4d_1020 : list ustmt :=
  [g[ 0 ]= UK 1;
   g[ 1 ]= UK 1;
   g[ 2 ]= UK 1;
   g[ 3 ]= UK 1;
   g[ 4 ]= c0x 0;
   g[ 5 ]= c0x 1;
   g[ 6 ]= c0x 2;
   g[ 7 ]= c0x 3;
   g[ 8 ]= cpx 0;
   g[ 9 ]= cpx 1;
   g[ 10 ]= cpx 2;
   g[ 11 ]= cpx 3;
   g[ 12 ]= cpx 0 * c0x 0 + b00_ 0;
   g[ 13 ]= cpx 1 * c0x 1 + b00_ 1;
   g[ 14 ]= cpx 2 * c0x 2 + b00_ 2;
   g[ 15 ]= cpx 3 * c0x 3 + b00_ 3;
   g[ 16 ]= cpx 0 * cpx 0 + b01_ 0;
   g[ 17 ]= cpx 1 * cpx 1 + b01_ 1;
   g[ 18 ]= cpx 2 * cpx 2 + b01_ 2;
   g[ 19 ]= cpx 3 * cpx 3 + b01_ 3;
   g[ 20 ]= cpx 0 * (g_ 12 + b00_ 0) + b01_ 0 * c0x 0;
   g[ 21 ]= cpx 1 * (g_ 13 + b00_ 1) + b01_ 1 * c0x 1;
   g[ 22 ]= cpx 2 * (g_ 14 + b00_ 2) + b01_ 2 * c0x 2;
   g[ 23 ]= cpx 3 * (g_ 15 + b00_ 3) + b01_ 3 * c0x 3;
   g[ 24 ]= UK 1;
   g[ 25 ]= UK 1;
   g[ 26 ]= UK 1;
   g[ 27 ]= UK 1;
   g[ 28 ]= c0y 0;
   g[ 29 ]= c0y 1;
   g[ 30 ]= c0y 2;
   g[ 31 ]= c0y 3;
   g[ 32 ]= cpy 0;
   g[ 33 ]= cpy 1;
   g[ 34 ]= cpy 2;
   g[ 35 ]= cpy 3;
   g[ 36 ]= cpy 0 * c0y 0 + b00_ 0;
   g[ 37 ]= cpy 1 * c0y 1 + b00_ 1;
   g[ 38 ]= cpy 2 * c0y 2 + b00_ 2;
   g[ 39 ]= cpy 3 * c0y 3 + b00_ 3;
   g[ 40 ]= cpy 0 * cpy 0 + b01_ 0;
   g[ 41 ]= cpy 1 * cpy 1 + b01_ 1;
   g[ 42 ]= cpy 2 * cpy 2 + b01_ 2;
   g[ 43 ]= cpy 3 * cpy 3 + b01_ 3;
   g[ 44 ]= cpy 0 * (g_ 36 + b00_ 0) + b01_ 0 * c0y 0;
   g[ 45 ]= cpy 1 * (g_ 37 + b00_ 1) + b01_ 1 * c0y 1;
   g[ 46 ]= cpy 2 * (g_ 38 + b00_ 2) + b01_ 2 * c0y 2;
   g[ 47 ]= cpy 3 * (g_ 39 + b00_ 3) + b01_ 3 * c0y 3;
   g[ 52 ]= c0z 0 * g_ 48;
   g[ 53 ]= c0z 1 * g_ 49;
   g[ 54 ]= c0z 2 * g_ 50;
   g[ 55 ]= c0z 3 * g_ 51;
   g[ 56 ]= cpz 0 * g_ 48;
   g[ 57 ]= cpz 1 * g_ 49;
   g[ 58 ]= cpz 2 * g_ 50;
   g[ 59 ]= cpz 3 * g_ 51;
   g[ 60 ]= cpz 0 * g_ 52 + b00_ 0 * g_ 48;
   g[ 61 ]= cpz 1 * g_ 53 + b00_ 1 * g_ 49;
   g[ 62 ]= cpz 2 * g_ 54 + b00_ 2 * g_ 50;
   g[ 63 ]= cpz 3 * g_ 55 + b00_ 3 * g_ 51;
   g[ 64 ]= cpz 0 * g_ 56 + b01_ 0 * g_ 48;
   g[ 65 ]= cpz 1 * g_ 57 + b01_ 1 * g_ 49;
   g[ 66 ]= cpz 2 * g_ 58 + b01_ 2 * g_ 50;
   g[ 67 ]= cpz 3 * g_ 59 + b01_ 3 * g_ 51;
   g[ 68 ]= cpz 0 * g_ 60 + b01_ 0 * g_ 52 + b00_ 0 * g_ 56;
   g[ 69 ]= cpz 1 * g_ 61 + b01_ 1 * g_ 53 + b00_ 1 * g_ 57;
   g[ 70 ]= cpz 2 * g_ 62 + b01_ 2 * g_ 54 + b00_ 2 * g_ 58;
   g[ 71 ]= cpz 3 * g_ 63 + b01_ 3 * g_ 55 + b00_ 3 * g_ 59].
(** g2e.c:3639-3696 *)
Definition srg0_2d4d_1100 : list ustmt :=
  [g[ 0 ]= UK 1;
   g[ 1 ]= UK 1;
   g[ 2 ]= UK 1;
   g[ 3 ]= UK 1;
   g[ 8 ]= c0x 0;
   g[ 9 ]= c0x 1;
   g[ 10 ]= c0x 2;
   g[ 11 ]= c0x 3;
   g[ 12 ]= c0x 0 * (xixj + c0x 0) + b10_ 0;
   g[ 13 ]= c0x 1 * (xixj + c0x 1) + b10_ 1;
   g[ 14 ]= c0x 2 * (xixj + c0x 2) + b10_ 2;
   g[ 15 ]= c0x 3 * (xixj + c0x 3) + b10_ 3;
   g[ 4 ]= xixj + c0x 0;
   g[ 5 ]= xixj + c0x 1;
   g[ 6 ]= xixj + c0x 2;
   g[ 7 ]= xixj + c0x 3;
   g[ 24 ]= UK 1;
   g[ 25 ]= UK 1;
   g[ 26 ]= UK 1;
   g[ 27 ]= UK 1;
   g[ 32 ]= c0y 0;
   g[ 33 ]= c0y 1;
   g[ 34 ]= c0y 2;
   g[ 35 ]= c0y 3;
   g[ 36 ]= c0y 0 * (yiyj + c0y 0) + b10_ 0;
   g[ 37 ]= c0y 1 * (yiyj + c0y 1) + b10_ 1;
   g[ 38 ]= c0y 2 * (yiyj + c0y 2) + b10_ 2;
   g[ 39 ]= c0y 3 * (yiyj + c0y 3) + b10_ 3;
   g[ 28 ]= yiyj + c0y 0;
   g[ 29 ]= yiyj + c0y 1;
   g[ 30 ]= yiyj + c0y 2;
   g[ 31 ]= yiyj + c0y 3;
   g[ 56 ]= c0z 0 * g_ 48;
   g[ 57 ]= c0z 1 * g_ 49;
   g[ 58 ]= c0z 2 * g_ 50;
   g[ 59 ]= c0z 3 * g_ 51;
   g[ 60 ]= g_ 56 * (zizj + c0z 0) + b10_ 0 * g_ 48;
   g[ 61 ]= g_ 57 * (zizj + c0z 1) + b10_ 1 * g_ 49;
   g[ 62 ]= g_ 58 * (zizj + c0z 2) + b10_ 2 * g_ 50;
   g[ 63 ]= g_ 59 * (zizj + c0z 3) + b10_ 3 * g_ 51;
   g[ 52 ]= g_ 48 * (zizj + c0z 0);
   g[ 53 ]= g_ 49 * (zizj + c0z 1);
   g[ 54 ]= g_ 50 * (zizj + c0z 2);
   g[ 55 ]= g_ 51 * (zizj + c0z 3)].
(** g2e.c:3698-3807 *)
Definition srg0_2d4d_1101 : list ustmt :=
  [g[ 0 ]= UK 1;
   g[ 1 ]= UK 1;
   g[ 2 ]= UK 1;
   g[ 3 ]= UK 1;
   g[ 16 ]= c0x 0;
   g[ 17 ]= c0x 1;
   g[ 18 ]= c0x 2;
   g[ 19 ]= c0x 3;
   g[ 8 ]= cpx 0;
   g[ 9 ]= cpx 1;
   g[ 10 ]= cpx 2;
   g[ 11 ]= cpx 3;
   g[ 24 ]= cpx 0 * c0x 0 + b00_ 0;
   g[ 25 ]= cpx 1 * c0x 1 + b00_ 1;
   g[ 26 ]= cpx 2 * c0x 2 + b00_ 2;
   g[ 27 ]= cpx 3 * c0x 3 + b00_ 3;
   g[ 20 ]= c0x 0 * (xixj + c0x 0) + b10_ 0;
   g[ 21 ]= c0x 1 * (xixj + c0x 1) + b10_ 1;
   g[ 22 ]= c0x 2 * (xixj + c0x 2) + b10_ 2;
   g[ 23 ]= c0x 3 * (xixj + c0x 3) + b10_ 3;
   g[ 4 ]= xixj + c0x 0;
   g[ 5 ]= xixj + c0x 1;
   g[ 6 ]= xixj + c0x 2;
   g[ 7 ]= xixj + c0x 3;
   g[ 28 ]= g_ 24 * (xixj + c0x 0) + c0x 0 * b00_ 0 + b10_ 0 * cpx 0;
   g[ 29 ]= g_ 25 * (xixj + c0x 1) + c0x 1 * b00_ 1 + b10_ 1 * cpx 1;
   g[ 30 ]= g_ 26 * (xixj + c0x 2) + c0x 2 * b00_ 2 + b10_ 2 * cpx 2;
   g[ 31 ]= g_ 27 * (xixj + c0x 3) + c0x 3 * b00_ 3 + b10_ 3 * cpx 3;
   g[ 12 ]= cpx 0 * (xixj + c0x 0) + b00_ 0;
   g[ 13 ]= cpx 1 * (xixj + c0x 1) + b00_ 1;
   g[ 14 ]= cpx 2 * (xixj + c0x 2) + b00_ 2;
   g[ 15 ]= cpx 3 * (xixj + c0x 3) + b00_ 3;
   g[ 48 ]= UK 1;
   g[ 49 ]= UK 1;
   g[ 50 ]= UK 1;
   g[ 51 ]= UK 1;
   g[ 64 ]= c0y 0;
   g[ 65 ]= c0y 1;
   g[ 66 ]= c0y 2;
   g[ 67 ]= c0y 3;
   g[ 56 ]= cpy 0;
   g[ 57 ]= cpy 1;
   g[ 58 ]= cpy 2;
   g[ 59 ]= cpy 3;
   g[ 72 ]= cpy 0 * c0y 0 + b00_ 0;
   g[ 73 ]= cpy 1 * c0y 1 + b00_ 1;
   g[ 74 ]= cpy 2 * c0y 2 + b00_ 2;
   g[ 75 ]= cpy 3 * c0y 3 + b00_ 3;
   g[ 68 ]= c0y 0 * (yiyj + c0y 0) + b10_ 0;
   g[ 69 ]= c0y 1 * (yiyj + c0y 1) + b10_ 1;
   g[ 70 ]= c0y 2 * (yiyj + c0y 2) + b10_ 2;
   g[ 71 ]= c0y 3 * (yiyj + c0y 3) + b10_ 3;
   g[ 52 ]= yiyj + c0y 0;
   g[ 53 ]= yiyj + c0y 1;
   g[ 54 ]= yiyj + c0y 2;
   g[ 55 ]= yiyj + c0y 3;
   g[ 76 ]= g_ 72 * (yiyj + c0y 0) + c0y 0 * b00_ 0 + b10_ 0 * cpy 0;
   g[ 77 ]= g_ 73 * (yiyj + c0y 1) + c0y 1 * b00_ 1 + b10_ 1 * cpy 1;
   g[ 78 ]= g_ 74 * (yiyj + c0y 2) + c0y 2 * b00_ 2 + b10_ 2 * cpy 2;
   g[ 79 ]= g_ 75 * (yiyj + c0y 3) + c0y 3 * b00_ 3 + b10_ 3 * cpy 3;
   g[ 60 ]= cpy 0 * (yiyj + c0y 0) + b00_ 0;
   g[ 61 ]= cpy 1 * (yiyj + c0y 1) + b00_ 1;
   g[ 62 ]= cpy 2 * (yiyj + c0y 2) + b00_ 2;
   g[ 63 ]= cpy 3 * (yiyj + c0y 3) + b00_ 3;
   g[ 112 ]= c0z 0 * g_ 96;
   g[ 113 ]= c0z 1 * g_ 97;
   g[ 114 ]= c0z 2 * g_ 98;
   g[ 115 ]= c0z 3 * g_ 99;
   g[ 104 ]= cpz 0 * g_ 96;
   g[ 105 ]= cpz 1 * g_ 97;
   g[ 106 ]= cpz 2 * g_ 98;
   g[ 107 ]= cpz 3 * g_ 99;
   g[ 120 ]= cpz 0 * g_ 112 + b00_ 0 * g_ 96;
   g[ 121 ]= cpz 1 * g_ 113 + b00_ 1 * g_ 97;
   g[ 122 ]= cpz 2 * g_ 114 + b00_ 2 * g_ 98;
   g[ 123 ]= cpz 3 * g_ 115 + b00_ 3 * g_ 99;
   g[ 116 ]= g_ 112 * (zizj + c0z 0) + b10_ 0 * g_ 96;
   g[ 117 ]= g_ 113 * (zizj + c0z 1) + b10_ 1 * g_ 97;
   g[ 118 ]= g_ 114 * (zizj + c0z 2) + b10_ 2 * g_ 98;
   g[ 119 ]= g_ 115 * (zizj + c0z 3) + b10_ 3 * g_ 99;
   g[ 100 ]= g_ 96 * (zizj + c0z 0);
   g[ 101 ]= g_ 97 * (zizj + c0z 1);
   g[ 102 ]= g_ 98 * (zizj + c0z 2);
   g[ 103 ]= g_ 99 * (zizj + c0z 3);
   g[ 124 ]= g_ 120 * (zizj + c0z 0) + b10_ 0 * g_ 104 + b00_ 0 * g_ 112;
   g[ 125 ]= g_ 121 * (zizj + c0z 1) + b10_ 1 * g_ 105 + b00_ 1 * g_ 113;
   g[ 126 ]= g_ 122 * (zizj + c0z 2) + b10_ 2 * g_ 106 + b00_ 2 * g_ 114;
   g[ 127 ]= g_ 123 * (zizj + c0z 3) + b10_ 3 * g_ 107 + b00_ 3 * g_ 115;
   g[ 108 ]= zizj * g_ 104 + cpz 0 * g_ 112 + b00_ 0 * g_ 96;
   g[ 109 ]= zizj * g_ 105 + cpz 1 * g_ 113 + b00_ 1 * g_ 97;
   g[ 110 ]= zizj * g_ 106 + cpz 2 * g_ 114 + b00_ 2 * g_ 98;
   g[ 111 ]= zizj * g_ 107 + cpz 3 * g_ 115 + b00_ 3 * g_ 99].
(** g2e.c:3809-3918 *)
Definition srg0_2d4d_1110 : list ustmt :=
  [g[ 0 ]= UK 1;
   g[ 1 ]= UK 1;
   g[ 2 ]= UK 1;
   g[ 3 ]= UK 1;
   g[ 16 ]= c0x 0;
   g[ 17 ]= c0x 1;
   g[ 18 ]= c0x 2;
   g[ 19 ]= c0x 3;
   g[ 8 ]= cpx 0;
   g[ 9 ]= cpx 1;
   g[ 10 ]= cpx 2;
   g[ 11 ]= cpx 3;
   g[ 24 ]= cpx 0 * c0x 0 + b00_ 0;
   g[ 25 ]= cpx 1 * c0x 1 + b00_ 1;
   g[ 26 ]= cpx 2 * c0x 2 + b00_ 2;
   g[ 27 ]= cpx 3 * c0x 3 + b00_ 3;
   g[ 20 ]= c0x 0 * (xixj + c0x 0) + b10_ 0;
   g[ 21 ]= c0x 1 * (xixj + c0x 1) + b10_ 1;
   g[ 22 ]= c0x 2 * (xixj + c0x 2) + b10_ 2;
   g[ 23 ]= c0x 3 * (xixj + c0x 3) + b10_ 3;
   g[ 4 ]= xixj + c0x 0;
   g[ 5 ]= xixj + c0x 1;
   g[ 6 ]= xixj + c0x 2;
   g[ 7 ]= xixj + c0x 3;
   g[ 28 ]= g_ 24 * (xixj + c0x 0) + c0x 0 * b00_ 0 + b10_ 0 * cpx 0;
   g[ 29 ]= g_ 25 * (xixj + c0x 1) + c0x 1 * b00_ 1 + b10_ 1 * cpx 1;
   g[ 30 ]= g_ 26 * (xixj + c0x 2) + c0x 2 * b00_ 2 + b10_ 2 * cpx 2;
   g[ 31 ]= g_ 27 * (xixj + c0x 3) + c0x 3 * b00_ 3 + b10_ 3 * cpx 3;
   g[ 12 ]= cpx 0 * (xixj + c0x 0) + b00_ 0;
   g[ 13 ]= cpx 1 * (xixj + c0x 1) + b00_ 1;
   g[ 14 ]= cpx 2 * (xixj + c0x 2) + b00_ 2;
   g[ 15 ]= cpx 3 * (xixj + c0x 3) + b00_ 3;
   g[ 48 ]= UK 1;
   g[ 49 ]= UK 1;
   g[ 50 ]= UK 1;
   g[ 51 ]= UK 1;
   g[ 64 ]= c0y 0;
   g[ 65 ]= c0y 1;
   g[ 66 ]= c0y 2;
   g[ 67 ]= c0y 3;
   g[ 56 ]= cpy 0;
   g[ 57 ]= cpy 1;
   g[ 58 ]= cpy 2;
   g[ 59 ]= cpy 3;
   g[ 72 ]= cpy 0 * c0y 0 + b00_ 0;
   g[ 73 ]= cpy 1 * c0y 1 + b00_ 1;
   g[ 74 ]= cpy 2 * c0y 2 + b00_ 2;
   g[ 75 ]= cpy 3 * c0y 3 + b00_ 3;
   g[ 68 ]= c0y 0 * (yiyj + c0y 0) + b10_ 0;
   g[ 69 ]= c0y 1 * (yiyj + c0y 1) + b10_ 1;
   g[ 70 ]= c0y 2 * (yiyj + c0y 2) + b10_ 2;
   g[ 71 ]= c0y 3 * (yiyj + c0y 3) + b10_ 3;
   g[ 52 ]= yiyj + c0y 0;
   g[ 53 ]= yiyj + c0y 1;
   g[ 54 ]= yiyj + c0y 2;
   g[ 55 ]= yiyj + c0y 3;
   g[ 76 ]= g_ 72 * (yiyj + c0y 0) + c0y 0 * b00_ 0 + b10_ 0 * cpy 0;
   g[ 77 ]= g_ 73 * (yiyj + c0y 1) + c0y 1 * b00_ 1 + b10_ 1 * cpy 1;
   g[ 78 ]= g_ 74 * (yiyj + c0y 2) + c0y 2 * b00_ 2 + b10_ 2 * cpy 2;
   g[ 79 ]= g_ 75 * (yiyj + c0y 3) + c0y 3 * b00_ 3 + b10_ 3 * cpy 3;
   g[ 60 ]= cpy 0 * (yiyj + c0y 0) + b00_ 0;
   g[ 61 ]= cpy 1 * (yiyj + c0y 1) + b00_ 1;
   g[ 62 ]= cpy 2 * (yiyj + c0y 2) + b00_ 2;
   g[ 63 ]= cpy 3 * (yiyj + c0y 3) + b00_ 3;
   g[ 112 ]= c0z 0 * g_ 96;
   g[ 113 ]= c0z 1 * g_ 97;
   g[ 114 ]= c0z 2 * g_ 98;
   g[ 115 ]= c0z 3 * g_ 99;
   g[ 104 ]= cpz 0 * g_ 96;
   g[ 105 ]= cpz 1 * g_ 97;
   g[ 106 ]= cpz 2 * g_ 98;
   g[ 107 ]= cpz 3 * g_ 99;
   g[ 120 ]= cpz 0 * g_ 112 + b00_ 0 * g_ 96;
   g[ 121 ]= cpz 1 * g_ 113 + b00_ 1 * g_ 97;
   g[ 122 ]= cpz 2 * g_ 114 + b00_ 2 * g_ 98;
   g[ 123 ]= cpz 3 * g_ 115 + b00_ 3 * g_ 99;
   g[ 116 ]= g_ 112 * (zizj + c0z 0) + b10_ 0 * g_ 96;
   g[ 117 ]= g_ 113 * (zizj + c0z 1) + b10_ 1 * g_ 97;
   g[ 118 ]= g_ 114 * (zizj + c0z 2) + b10_ 2 * g_ 98;
   g[ 119 ]= g_ 115 * (zizj + c0z 3) + b10_ 3 * g_ 99;
   g[ 100 ]= g_ 96 * (zizj + c0z 0);
   g[ 101 ]= g_ 97 * (zizj + c0z 1);
   g[ 102 ]= g_ 98 * (zizj + c0z 2);
   g[ 103 ]= g_ 99 * (zizj + c0z 3);
   g[ 124 ]= g_ 120 * (zizj + c0z 0) + b10_ 0 * g_ 104 + b00_ 0 * g_ 112;
   g[ 125 ]= g_ 121 * (zizj + c0z 1) + b10_ 1 * g_ 105 + b00_ 1 * g_ 113;
   g[ 126 ]= g_ 122 * (zizj + c0z 2) + b10_ 2 * g_ 106 + b00_ 2 * g_ 114;
   g[ 127 ]= g_ 123 * (zizj + c0z 3) + b10_ 3 * g_ 107 + b00_ 3 * g_ 115;
   g[ 108 ]= zizj * g_ 104 + cpz 0 * g_ 112 + b00_ 0 * g_ 96;
   g[ 109 ]= zizj * g_ 105 + cpz 1 * g_ 113 + b00_ 1 * g_ 97;
   g[ 110 ]= zizj * g_ 106 + cpz 2 * g_ 114 + b00_ 2 * g_ 98;
   g[ 111 ]= zizj * g_ 107 + cpz 3 * g_ 115 + b00_ 3 * g_ 99].
(** g2e.c:3920-4001 *)
Definition srg0_2d4d_1200 : list ustmt :=
  [g[ 0 ]= UK 1;
   g[ 1 ]= UK 1;
   g[ 2 ]= UK 1;
   g[ 3 ]= UK 1;
   g[ 8 ]= c0x 0;
   g[ 9 ]= c0x 1;
   g[ 10 ]= c0x 2;
   g[ 11 ]= c0x 3;
   g[ 16 ]= c0x 0 * c0x 0 + b10_ 0;
   g[ 17 ]= c0x 1 * c0x 1 + b10_ 1;
   g[ 18 ]= c0x 2 * c0x 2 + b10_ 2;
   g[ 19 ]= c0x 3 * c0x 3 + b10_ 3;
   g[ 20 ]= g_ 16 * (xixj + c0x 0) + c0x 0 * UK 2 * b10_ 0;
   g[ 21 ]= g_ 17 * (xixj + c0x 1) + c0x 1 * UK 2 * b10_ 1;
   g[ 22 ]= g_ 18 * (xixj + c0x 2) + c0x 2 * UK 2 * b10_ 2;
   g[ 23 ]= g_ 19 * (xixj + c0x 3) + c0x 3 * UK 2 * b10_ 3;
   g[ 12 ]= c0x 0 * (xixj + c0x 0) + b10_ 0;
   g[ 13 ]= c0x 1 * (xixj + c0x 1) + b10_ 1;
   g[ 14 ]= c0x 2 * (xixj + c0x 2) + b10_ 2;
   g[ 15 ]= c0x 3 * (xixj + c0x 3) + b10_ 3;
   g[ 4 ]= xixj + c0x 0;
   g[ 5 ]= xixj + c0x 1;
   g[ 6 ]= xixj + c0x 2;
   g[ 7 ]= xixj + c0x 3;
   g[ 32 ]= UK 1;
   g[ 33 ]= UK 1;
   g[ 34 ]= UK 1;
   g[ 35 ]= UK 1;
   g[ 40 ]= c0y 0;
   g[ 41 ]= c0y 1;
   g[ 42 ]= c0y 2;
   g[ 43 ]= c0y 3;
   g[ 48 ]= c0y 0 * c0y 0 + b10_ 0;
   g[ 49 ]= c0y 1 * c0y 1 + b10_ 1;
   g[ 50 ]= c0y 2 * c0y 2 + b10_ 2;
   g[ 51 ]= c0y 3 * c0y 3 + b10_ 3;
   g[ 52 ]= g_ 48 * (yiyj + c0y 0) + c0y 0 * UK 2 * b10_ 0;
   g[ 53 ]= g_ 49 * (yiyj + c0y 1) + c0y 1 * UK 2 * b10_ 1;
   g[ 54 ]= g_ 50 * (yiyj + c0y 2) + c0y 2 * UK 2 * b10_ 2;
   g[ 55 ]= g_ 51 * (yiyj + c0y 3) + c0y 3 * UK 2 * b10_ 3;
   g[ 44 ]= c0y 0 * (yiyj + c0y 0) + b10_ 0;
   g[ 45 ]= c0y 1 * (yiyj + c0y 1) + b10_ 1;
   g[ 46 ]= c0y 2 * (yiyj + c0y 2) + b10_ 2;
   g[ 47 ]= c0y 3 * (yiyj + c0y 3) + b10_ 3;
   g[ 36 ]= yiyj + c0y 0;
   g[ 37 ]= yiyj + c0y 1;
   g[ 38 ]= yiyj + c0y 2;
   g[ 39 ]= yiyj + c0y 3;
   g[ 72 ]= c0z 0 * g_ 64;
   g[ 73 ]= c0z 1 * g_ 65;
   g[ 74 ]= c0z 2 * g_ 66;
   g[ 75 ]= c0z 3 * g_ 67;
   g[ 80 ]= c0z 0 * g_ 72 + b10_ 0 * g_ 64;
   g[ 81 ]= c0z 1 * g_ 73 + b10_ 1 * g_ 65;
   g[ 82 ]= c0z 2 * g_ 74 + b10_ 2 * g_ 66;
   g[ 83 ]= c0z 3 * g_ 75 + b10_ 3 * g_ 67;
   g[ 84 ]= g_ 80 * (zizj + c0z 0) + UK 2 * b10_ 0 * g_ 72;
   g[ 85 ]= g_ 81 * (zizj + c0z 1) + UK 2 * b10_ 1 * g_ 73;
   g[ 86 ]= g_ 82 * (zizj + c0z 2) + UK 2 * b10_ 2 * g_ 74;
   g[ 87 ]= g_ 83 * (zizj + c0z 3) + UK 2 * b10_ 3 * g_ 75;
   g[ 76 ]= g_ 72 * (zizj + c0z 0) + b10_ 0 * g_ 64;
   g[ 77 ]= g_ 73 * (zizj + c0z 1) + b10_ 1 * g_ 65;
   g[ 78 ]= g_ 74 * (zizj + c0z 2) + b10_ 2 * g_ 66;
   g[ 79 ]= g_ 75 * (zizj + c0z 3) + b10_ 3 * g_ 67;
   g[ 68 ]= g_ 64 * (zizj + c0z 0);
   g[ 69 ]= g_ 65 * (zizj + c0z 1);
   g[ 70 ]= g_ 66 * (zizj + c0z 2);
   g[ 71 ]= g_ 67 * (zizj + c0z 3)].
(** g2e.c:4003-4045 *)
Definition srg0_2d4d_2000 : list ustmt :=
  [g[ 0 ]= UK 1;
   g[ 1 ]= UK 1;
   g[ 2 ]= UK 1;
   g[ 3 ]= UK 1;
   g[ 4 ]= c0x 0;
   g[ 5 ]= c0x 1;
   g[ 6 ]= c0x 2;
   g[ 7 ]= c0x 3;
   g[ 8 ]= c0x 0 * c0x 0 + b10_ 0;
   g[ 9 ]= c0x 1 * c0x 1 + b10_ 1;
   g[ 10 ]= c0x 2 * c0x 2 + b10_ 2;
   g[ 11 ]= c0x 3 * c0x 3 + b10_ 3;
   g[ 12 ]= UK 1;
   g[ 13 ]= UK 1;
   g[ 14 ]= UK 1;
   g[ 15 ]= UK 1;
   g[ 16 ]= c0y 0;
   g[ 17 ]= c0y 1;
   g[ 18 ]= c0y 2;
   g[ 19 ]= c0y 3;
   g[ 20 ]= c0y 0 * c0y 0 + b10_ 0;
   g[ 21 ]= c0y 1 * c0y 1 + b10_ 1;
   g[ 22 ]= c0y 2 * c0y 2 + b10_ 2;
   g[ 23 ]= c0y 3 * c0y 3 + b10_ 3;
   g[ 28 ]= c0z 0 * g_ 24;
   g[ 29 ]= c0z 1 * g_ 25;
   g[ 30 ]= c0z 2 * g_ 26;
   g[ 31 ]= c0z 3 * g_ 27;
   g[ 32 ]= c0z 0 * g_ 28 + b10_ 0 * g_ 24;
   g[ 33 ]= c0z 1 * g_ 29 + b10_ 1 * g_ 25;
   g[ 34 ]= c0z 2 * g_ 30 + b10_ 2 * g_ 26;
   g[ 35 ]= c0z 3 * g_ 31 + b10_ 3 * g_ 27].
(** g2e.c:4047-4129 *)
Definition srg0_2d4d_2001 : list ustmt :=
  [g[ 0 ]= UK 1;
   g[ 1 ]= UK 1;
   g[ 2 ]= UK 1;
   g[ 3 ]= UK 1;
   g[ 4 ]= c0x 0;
   g[ 5 ]= c0x 1;
   g[ 6 ]= c0x 2;
   g[ 7 ]= c0x 3;
   g[ 8 ]= c0x 0 * c0x 0 + b10_ 0;
   g[ 9 ]= c0x 1 * c0x 1 + b10_ 1;
   g[ 10 ]= c0x 2 * c0x 2 + b10_ 2;
   g[ 11 ]= c0x 3 * c0x 3 + b10_ 3;
   g[ 12 ]= cpx 0;
   g[ 13 ]= cpx 1;
   g[ 14 ]= cpx 2;
   g[ 15 ]= cpx 3;
   g[ 16 ]= cpx 0 * c0x 0 + b00_ 0;
   g[ 17 ]= cpx 1 * c0x 1 + b00_ 1;
   g[ 18 ]= cpx 2 * c0x 2 + b00_ 2;
   g[ 19 ]= cpx 3 * c0x 3 + b00_ 3;
   g[ 20 ]= c0x 0 * (g_ 16 + b00_ 0) + b10_ 0 * cpx 0;
   g[ 21 ]= c0x 1 * (g_ 17 + b00_ 1) + b10_ 1 * cpx 1;
   g[ 22 ]= c0x 2 * (g_ 18 + b00_ 2) + b10_ 2 * cpx 2;
   g[ 23 ]= c0x 3 * (g_ 19 + b00_ 3) + b10_ 3 * cpx 3;
   g[ 24 ]= UK 1;
   g[ 25 ]= UK 1;
   g[ 26 ]= UK 1;
   g[ 27 ]= UK 1;
   g[ 28 ]= c0y 0;
   g[ 29 ]= c0y 1;
   g[ 30 ]= c0y 2;
   g[ 31 ]= c0y 3;
   g[ 32 ]= c0y 0 * c0y 0 + b10_ 0;
   g[ 33 ]= c0y 1 * c0y 1 + b10_ 1;
   g[ 34 ]= c0y 2 * c0y 2 + b10_ 2;
   g[ 35 ]= c0y 3 * c0y 3 + b10_ 3;
   g[ 36 ]= cpy 0;
   g[ 37 ]= cpy 1;
   g[ 38 ]= cpy 2;
   g[ 39 ]= cpy 3;
   g[ 40 ]= cpy 0 * c0y 0 + b00_ 0;
   g[ 41 ]= cpy 1 * c0y 1 + b00_ 1;
   g[ 42 ]= cpy 2 * c0y 2 + b00_ 2;
   g[ 43 ]= cpy 3 * c0y 3 + b00_ 3;
   g[ 44 ]= c0y 0 * (g_ 40 + b00_ 0) + b10_ 0 * cpy 0;
   g[ 45 ]= c0y 1 * (g_ 41 + b00_ 1) + b10_ 1 * cpy 1;
   g[ 46 ]= c0y 2 * (g_ 42 + b00_ 2) + b10_ 2 * cpy 2;
   g[ 47 ]= c0y 3 * (g_ 43 + b00_ 3) + b10_ 3 * cpy 3;
   g[ 52 ]= c0z 0 * g_ 48;
   g[ 53 ]= c0z 1 * g_ 49;
   g[ 54 ]= c0z 2 * g_ 50;
   g[ 55 ]= c0z 3 * g_ 51;
   g[ 56 ]= c0z 0 * g_ 52 + b10_ 0 * g_ 48;
   g[ 57 ]= c0z 1 * g_ 53 + b10_ 1 * g_ 49;
   g[ 58 ]= c0z 2 * g_ 54 + b10_ 2 * g_ 50;
   g[ 59 ]= c0z 3 * g_ 55 + b10_ 3 * g_ 51;
   g[ 60 ]= cpz 0 * g_ 48;
   g[ 61 ]= cpz 1 * g_ 49;
   g[ 62 ]= cpz 2 * g_ 50;
   g[ 63 ]= cpz 3 * g_ 51;
   g[ 64 ]= cpz 0 * g_ 52 + b00_ 0 * g_ 48;
   g[ 65 ]= cpz 1 * g_ 53 + b00_ 1 * g_ 49;
   g[ 66 ]= cpz 2 * g_ 54 + b00_ 2 * g_ 50;
   g[ 67 ]= cpz 3 * g_ 55 + b00_ 3 * g_ 51;
   g[ 68 ]= c0z 0 * g_ 64 + b10_ 0 * g_ 60 + b00_ 0 * g_ 52;
   g[ 69 ]= c0z 1 * g_ 65 + b10_ 1 * g_ 61 + b00_ 1 * g_ 53;
   g[ 70 ]= c0z 2 * g_ 66 + b10_ 2 * g_ 62 + b00_ 2 * g_ 54;
   g[ 71 ]= c0z 3 * g_ 67 + b10_ 3 * g_ 63 + b00_ 3 * g_ 55].
(** g2e.c:4131-4213 *)
Definition srg0_2d4d_2010 : list ustmt :=
  [g[ 0 ]= UK 1;
   g[ 1 ]= UK 1;
   g[ 2 ]= UK 1;
   g[ 3 ]= UK 1;
   g[ 4 ]= c0x 0;
   g[ 5 ]= c0x 1;
   g[ 6 ]= c0x 2;
   g[ 7 ]= c0x 3;
   g[ 8 ]= c0x 0 * c0x 0 + b10_ 0;
   g[ 9 ]= c0x 1 * c0x 1 + b10_ 1;
   g[ 10 ]= c0x 2 * c0x 2 + b10_ 2;
   g[ 11 ]= c0x 3 * c0x 3 + b10_ 3;
   g[ 12 ]= cpx 0;
   g[ 13 ]= cpx 1;
   g[ 14 ]= cpx 2;
   g[ 15 ]= cpx 3;
   g[ 16 ]= cpx 0 * c0x 0 + b00_ 0;
   g[ 17 ]= cpx 1 * c0x 1 + b00_ 1;
   g[ 18 ]= cpx 2 * c0x 2 + b00_ 2;
   g[ 19 ]= cpx 3 * c0x 3 + b00_ 3;
   g[ 20 ]= c0x 0 * (g_ 16 + b00_ 0) + b10_ 0 * cpx 0;
   g[ 21 ]= c0x 1 * (g_ 17 + b00_ 1) + b10_ 1 * cpx 1;
   g[ 22 ]= c0x 2 * (g_ 18 + b00_ 2) + b10_ 2 * cpx 2;
   g[ 23 ]= c0x 3 * (g_ 19 + b00_ 3) + b10_ 3 * cpx 3;
   g[ 24 ]= UK 1;
   g[ 25 ]= UK 1;
   g[ 26 ]= UK 1;
   g[ 27 ]= UK 1;
   g[ 28 ]= c0y 0;
   g[ 29 ]= c0y 1;
   g[ 30 ]= c0y 2;
   g[ 31 ]= c0y 3;
   g[ 32 ]= c0y 0 * c0y 0 + b10_ 0;
   g[ 33 ]= c0y 1 * c0y 1 + b10_ 1;
   g[ 34 ]= c0y 2 * c0y 2 + b10_ 2;
   g[ 35 ]= c0y 3 * c0y 3 + b10_ 3;
   g[ 36 ]= cpy 0;
   g[ 37 ]= cpy 1;
   g[ 38 ]= cpy 2;
   g[ 39 ]= cpy 3;
   g[ 40 ]= cpy 0 * c0y 0 + b00_ 0;
   g[ 41 ]= cpy 1 * c0y 1 + b00_ 1;
   g[ 42 ]= cpy 2 * c0y 2 + b00_ 2;
   g[ 43 ]= cpy 3 * c0y 3 + b00_ 3;
   g[ 44 ]= c0y 0 * (g_ 40 + b00_ 0) + b10_ 0 * cpy 0;
   g[ 45 ]= c0y 1 * (g_ 41 + b00_ 1) + b10_ 1 * cpy 1;
   g[ 46 ]= c0y 2 * (g_ 42 + b00_ 2) + b10_ 2 * cpy 2;
   g[ 47 ]= c0y 3 * (g_ 43 + b00_ 3) + b10_ 3 * cpy 3;
   g[ 52 ]= c0z 0 * g_ 48;
   g[ 53 ]= c0z 1 * g_ 49;
   g[ 54 ]= c0z 2 * g_ 50;
   g[ 55 ]= c0z 3 * g_ 51;
   g[ 56 ]= c0z 0 * g_ 52 + b10_ 0 * g_ 48;
   g[ 57 ]= c0z 1 * g_ 53 + b10_ 1 * g_ 49;
   g[ 58 ]= c0z 2 * g_ 54 + b10_ 2 * g_ 50;
   g[ 59 ]= c0z 3 * g_ 55 + b10_ 3 * g_ 51;
   g[ 60 ]= cpz 0 * g_ 48;
   g[ 61 ]= cpz 1 * g_ 49;
   g[ 62 ]= cpz 2 * g_ 50;
   g[ 63 ]= cpz 3 * g_ 51;
   g[ 64 ]= cpz 0 * g_ 52 + b00_ 0 * g_ 48;
   g[ 65 ]= cpz 1 * g_ 53 + b00_ 1 * g_ 49;
   g[ 66 ]= cpz 2 * g_ 54 + b00_ 2 * g_ 50;
   g[ 67 ]= cpz 3 * g_ 55 + b00_ 3 * g_ 51;
   g[ 68 ]= c0z 0 * g_ 64 + b10_ 0 * g_ 60 + b00_ 0 * g_ 52;
   g[ 69 ]= c0z 1 * g_ 65 + b10_ 1 * g_ 61 + b00_ 1 * g_ 53;
   g[ 70 ]= c0z 2 * g_ 66 + b10_ 2 * g_ 62 + b00_ 2 * g_ 54;
   g[ 71 ]= c0z 3 * g_ 67 + b10_ 3 * g_ 63 + b00_ 3 * g_ 55].
(** g2e.c:4215-4296 *)
Definition srg0_2d4d_2100 : list ustmt :=
  [g[ 0 ]= UK 1;
   g[ 1 ]= UK 1;
   g[ 2 ]= UK 1;
   g[ 3 ]= UK 1;
   g[ 4 ]= c0x 0;
   g[ 5 ]= c0x 1;
   g[ 6 ]= c0x 2;
   g[ 7 ]= c0x 3;
   g[ 8 ]= c0x 0 * c0x 0 + b10_ 0;
   g[ 9 ]= c0x 1 * c0x 1 + b10_ 1;
   g[ 10 ]= c0x 2 * c0x 2 + b10_ 2;
   g[ 11 ]= c0x 3 * c0x 3 + b10_ 3;
   g[ 24 ]= g_ 8 * (xixj + c0x 0) + c0x 0 * UK 2 * b10_ 0;
   g[ 25 ]= g_ 9 * (xixj + c0x 1) + c0x 1 * UK 2 * b10_ 1;
   g[ 26 ]= g_ 10 * (xixj + c0x 2) + c0x 2 * UK 2 * b10_ 2;
   g[ 27 ]= g_ 11 * (xixj + c0x 3) + c0x 3 * UK 2 * b10_ 3;
   g[ 20 ]= c0x 0 * (xixj + c0x 0) + b10_ 0;
   g[ 21 ]= c0x 1 * (xixj + c0x 1) + b10_ 1;
   g[ 22 ]= c0x 2 * (xixj + c0x 2) + b10_ 2;
   g[ 23 ]= c0x 3 * (xixj + c0x 3) + b10_ 3;
   g[ 16 ]= xixj + c0x 0;
   g[ 17 ]= xixj + c0x 1;
   g[ 18 ]= xixj + c0x 2;
   g[ 19 ]= xixj + c0x 3;
   g[ 32 ]= UK 1;
   g[ 33 ]= UK 1;
   g[ 34 ]= UK 1;
   g[ 35 ]= UK 1;
   g[ 36 ]= c0y 0;
   g[ 37 ]= c0y 1;
   g[ 38 ]= c0y 2;
   g[ 39 ]= c0y 3;
   g[ 40 ]= c0y 0 * c0y 0 + b10_ 0;
   g[ 41 ]= c0y 1 * c0y 1 + b10_ 1;
   g[ 42 ]= c0y 2 * c0y 2 + b10_ 2;
   g[ 43 ]= c0y 3 * c0y 3 + b10_ 3;
   g[ 56 ]= g_ 40 * (yiyj + c0y 0) + c0y 0 * UK 2 * b10_ 0;
   g[ 57 ]= g_ 41 * (yiyj + c0y 1) + c0y 1 * UK 2 * b10_ 1;
   g[ 58 ]= g_ 42 * (yiyj + c0y 2) + c0y 2 * UK 2 * b10_ 2;
   g[ 59 ]= g_ 43 * (yiyj + c0y 3) + c0y 3 * UK 2 * b10_ 3;
   g[ 52 ]= c0y 0 * (yiyj + c0y 0) + b10_ 0;
   g[ 53 ]= c0y 1 * (yiyj + c0y 1) + b10_ 1;
   g[ 54 ]= c0y 2 * (yiyj + c0y 2) + b10_ 2;
   g[ 55 ]= c0y 3 * (yiyj + c0y 3) + b10_ 3;
   g[ 48 ]= yiyj + c0y 0;
   g[ 49 ]= yiyj + c0y 1;
   g[ 50 ]= yiyj + c0y 2;
   g[ 51 ]= yiyj + c0y 3;
   g[ 68 ]= c0z 0 * g_ 64;
   g[ 69 ]= c0z 1 * g_ 65;
   g[ 70 ]= c0z 2 * g_ 66;
   g[ 71 ]= c0z 3 * g_ 67;
   g[ 72 ]= c0z 0 * g_ 68 + b10_ 0 * g_ 64;
   g[ 73 ]= c0z 1 * g_ 69 + b10_ 1 * g_ 65;
   g[ 74 ]= c0z 2 * g_ 70 + b10_ 2 * g_ 66;
   g[ 75 ]= c0z 3 * g_ 71 + b10_ 3 * g_ 67;
   g[ 88 ]= g_ 72 * (zizj + c0z 0) + UK 2 * b10_ 0 * g_ 68;
   g[ 89 ]= g_ 73 * (zizj + c0z 1) + UK 2 * b10_ 1 * g_ 69;
   g[ 90 ]= g_ 74 * (zizj + c0z 2) + UK 2 * b10_ 2 * g_ 70;
   g[ 91 ]= g_ 75 * (zizj + c0z 3) + UK 2 * b10_ 3 * g_ 71;
   g[ 84 ]= g_ 68 * (zizj + c0z 0) + b10_ 0 * g_ 64;
   g[ 85 ]= g_ 69 * (zizj + c0z 1) + b10_ 1 * g_ 65;
   g[ 86 ]= g_ 70 * (zizj + c0z 2) + b10_ 2 * g_ 66;
   g[ 87 ]= g_ 71 * (zizj + c0z 3) + b10_ 3 * g_ 67;
   g[ 80 ]= g_ 64 * (zizj + c0z 0);
   g[ 81 ]= g_ 65 * (zizj + c0z 1);
   g[ 82 ]= g_ 66 * (zizj + c0z 2);
   g[ 83 ]= g_ 67 * (zizj + c0z 3)].
(** g2e.c:4298-4352 *)
Definition srg0_2d4d_3000 : list ustmt :=
  [g[ 0 ]= UK 1;
   g[ 1 ]= UK 1;
   g[ 2 ]= UK 1;
   g[ 3 ]= UK 1;
   g[ 4 ]= c0x 0;
   g[ 5 ]= c0x 1;
   g[ 6 ]= c0x 2;
   g[ 7 ]= c0x 3;
   g[ 8 ]= c0x 0 * c0x 0 + b10_ 0;
   g[ 9 ]= c0x 1 * c0x 1 + b10_ 1;
   g[ 10 ]= c0x 2 * c0x 2 + b10_ 2;
   g[ 11 ]= c0x 3 * c0x 3 + b10_ 3;
   g[ 12 ]= c0x 0 * (g_ 8 + UK 2 * b10_ 0);
   g[ 13 ]= c0x 1 * (g_ 9 + UK 2 * b10_ 1);
   g[ 14 ]= c0x 2 * (g_ 10 + UK 2 * b10_ 2);
   g[ 15 ]= c0x 3 * (g_ 11 + UK 2 * b10_ 3);
   g[ 16 ]= UK 1;
   g[ 17 ]= UK 1;
   g[ 18 ]= UK 1;
   g[ 19 ]= UK 1;
   g[ 20 ]= c0y 0;
   g[ 21 ]= c0y 1;
   g[ 22 ]= c0y 2;
   g[ 23 ]= c0y 3;
   g[ 24 ]= c0y 0 * c0y 0 + b10_ 0;
   g[ 25 ]= c0y 1 * c0y 1 + b10_ 1;
   g[ 26 ]= c0y 2 * c0y 2 + b10_ 2;
   g[ 27 ]= c0y 3 * c0y 3 + b10_ 3;
   g[ 28 ]= c0y 0 * (g_ 24 + UK 2 * b10_ 0);
   g[ 29 ]= c0y 1 * (g_ 25 + UK 2 * b10_ 1);
   g[ 30 ]= c0y 2 * (g_ 26 + UK 2 * b10_ 2);
   g[ 31 ]= c0y 3 * (g_ 27 + UK 2 * b10_ 3);
   g[ 36 ]= c0z 0 * g_ 32;
   g[ 37 ]= c0z 1 * g_ 33;
   g[ 38 ]= c0z 2 * g_ 34;
   g[ 39 ]= c0z 3 * g_ 35;
   g[ 40 ]= c0z 0 * g_ 36 + b10_ 0 * g_ 32;
   g[ 41 ]= c0z 1 * g_ 37 + b10_ 1 * g_ 33;
   g[ 42 ]= c0z 2 * g_ 38 + b10_ 2 * g_ 34;
   g[ 43 ]= c0z 3 * g_ 39 + b10_ 3 * g_ 35;
   g[ 44 ]= c0z 0 * g_ 40 + UK 2 * b10_ 0 * g_ 36;
   g[ 45 ]= c0z 1 * g_ 41 + UK 2 * b10_ 1 * g_ 37;
   g[ 46 ]= c0z 2 * g_ 42 + UK 2 * b10_ 2 * g_ 38;
   g[ 47 ]= c0z 3 * g_ 43 + UK 2 * b10_ 3 * g_ 39].

(** g2e.c:4354-4398 CINTsrg0_2e_2d4d_unrolled: the switch on type_ijkl.  None: no case matches (a message is
    printed and nothing is done). *)
Definition srg0_unrolled_switch (type_ijkl : Z) : option (list ustmt) :=
  match type_ijkl with
  | 0 (* 0b00000000 *) => Some srg0_2d4d_0000
  | 1 (* 0b00000001 *) => Some srg0_2d4d_0001
  | 2 (* 0b00000010 *) => Some srg0_2d4d_0002
  | 3 (* 0b00000011 *) => Some srg0_2d4d_0003
  | 4 (* 0b00000100 *) => Some srg0_2d4d_0010
  | 5 (* 0b00000101 *) => Some srg0_2d4d_0011
  | 6 (* 0b00000110 *) => Some srg0_2d4d_0012
  | 8 (* 0b00001000 *) => Some srg0_2d4d_0020
  | 9 (* 0b00001001 *) => Some srg0_2d4d_0021
  | 12 (* 0b00001100 *) => Some srg0_2d4d_0030
  | 16 (* 0b00010000 *) => Some srg0_2d4d_0100
  | 17 (* 0b00010001 *) => Some srg0_2d4d_0101
  | 18 (* 0b00010010 *) => Some srg0_2d4d_0102
  | 20 (* 0b00010100 *) => Some srg0_2d4d_0110
  | 21 (* 0b00010101 *) => Some srg0_2d4d_0111
  | 24 (* 0b00011000 *) => Some srg0_2d4d_0120
  | 32 (* 0b00100000 *) => Some srg0_2d4d_0200
  | 33 (* 0b00100001 *) => Some srg0_2d4d_0201
  | 36 (* 0b00100100 *) => Some srg0_2d4d_0210
  | 48 (* 0b00110000 *) => Some srg0_2d4d_0300
  | 64 (* 0b01000000 *) => Some srg0_2d4d_1000
  | 65 (* 0b01000001 *) => Some srg0_2d4d_1001
  | 66 (* 0b01000010 *) => Some srg0_2d4d_1002
  | 68 (* 0b01000100 *) => Some srg0_2d4d_1010
  | 69 (* 0b01000101 *) => Some srg0_2d4d_1011
  | 72 (* 0b01001000 *) => Some srg0_2d4d_1020
  | 80 (* 0b01010000 *) => Some srg0_2d4d_1100
  | 81 (* 0b01010001 *) => Some srg0_2d4d_1101
  | 84 (* 0b01010100 *) => Some srg0_2d4d_1110
  | 96 (* 0b01100000 *) => Some srg0_2d4d_1200
  | 128 (* 0b10000000 *) => Some srg0_2d4d_2000
  | 129 (* 0b10000001 *) => Some srg0_2d4d_2001
  | 132 (* 0b10000100 *) => Some srg0_2d4d_2010
  | 144 (* 0b10010000 *) => Some srg0_2d4d_2100
  | 192 (* 0b11000000 *) => Some srg0_2d4d_3000
  | _ => None
  end.
