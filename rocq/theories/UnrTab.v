(** UnrTab.v — written by a script from the text of g2e.c; see UnrModel.v.
    One list per kernel; the switch at the end. *)
From Verif Require Import Base UnrModel.

(** g2e.c:695-700 *)
Definition g0_2d4d_0000 : list ustmt :=
  [g[ 0 ]= UK 1;
   g[ 1 ]= UK 1].
(** g2e.c:702-713 *)
Definition g0_2d4d_0001 : list ustmt :=
  [g[ 0 ]= UK 1;
   g[ 1 ]= cpx 0;
   g[ 2 ]= UK 1;
   g[ 3 ]= cpy 0;
   g[ 5 ]= cpz 0 * g_ 4].
(** g2e.c:715-739 *)
Definition g0_2d4d_0002 : list ustmt :=
  [g[ 0 ]= UK 1;
   g[ 1 ]= UK 1;
   g[ 2 ]= cpx 0;
   g[ 3 ]= cpx 1;
   g[ 4 ]= cpx 0 * cpx 0 + b01_ 0;
   g[ 5 ]= cpx 1 * cpx 1 + b01_ 1;
   g[ 6 ]= UK 1;
   g[ 7 ]= UK 1;
   g[ 8 ]= cpy 0;
   g[ 9 ]= cpy 1;
   g[ 10 ]= cpy 0 * cpy 0 + b01_ 0;
   g[ 11 ]= cpy 1 * cpy 1 + b01_ 1;
   g[ 14 ]= cpz 0 * g_ 12;
   g[ 15 ]= cpz 1 * g_ 13;
   g[ 16 ]= cpz 0 * g_ 14 + b01_ 0 * g_ 12;
   g[ 17 ]= cpz 1 * g_ 15 + b01_ 1 * g_ 13].
(** g2e.c:741-771 *)
Definition g0_2d4d_0003 : list ustmt :=
  [g[ 0 ]= UK 1;
   g[ 1 ]= UK 1;
   g[ 2 ]= cpx 0;
   g[ 3 ]= cpx 1;
   g[ 4 ]= cpx 0 * cpx 0 + b01_ 0;
   g[ 5 ]= cpx 1 * cpx 1 + b01_ 1;
   g[ 6 ]= cpx 0 * (g_ 4 + UK 2 * b01_ 0);
   g[ 7 ]= cpx 1 * (g_ 5 + UK 2 * b01_ 1);
   g[ 8 ]= UK 1;
   g[ 9 ]= UK 1;
   g[ 10 ]= cpy 0;
   g[ 11 ]= cpy 1;
   g[ 12 ]= cpy 0 * cpy 0 + b01_ 0;
   g[ 13 ]= cpy 1 * cpy 1 + b01_ 1;
   g[ 14 ]= cpy 0 * (g_ 12 + UK 2 * b01_ 0);
   g[ 15 ]= cpy 1 * (g_ 13 + UK 2 * b01_ 1);
   g[ 18 ]= cpz 0 * g_ 16;
   g[ 19 ]= cpz 1 * g_ 17;
   g[ 20 ]= cpz 0 * g_ 18 + b01_ 0 * g_ 16;
   g[ 21 ]= cpz 1 * g_ 19 + b01_ 1 * g_ 17;
   g[ 22 ]= cpz 0 * g_ 20 + UK 2 * b01_ 0 * g_ 18;
   g[ 23 ]= cpz 1 * g_ 21 + UK 2 * b01_ 1 * g_ 19].
(** g2e.c:773-784 *)
Definition g0_2d4d_0010 : list ustmt :=
  [g[ 0 ]= UK 1;
   g[ 1 ]= cpx 0;
   g[ 2 ]= UK 1;
   g[ 3 ]= cpy 0;
   g[ 5 ]= cpz 0 * g_ 4].
(** g2e.c:786-819 *)
Definition g0_2d4d_0011 : list ustmt :=
  [g[ 0 ]= UK 1;
   g[ 1 ]= UK 1;
   g[ 4 ]= cpx 0;
   g[ 5 ]= cpx 1;
   g[ 6 ]= cpx 0 * (xkxl + cpx 0) + b01_ 0;
   g[ 7 ]= cpx 1 * (xkxl + cpx 1) + b01_ 1;
   g[ 2 ]= xkxl + cpx 0;
   g[ 3 ]= xkxl + cpx 1;
   g[ 12 ]= UK 1;
   g[ 13 ]= UK 1;
   g[ 16 ]= cpy 0;
   g[ 17 ]= cpy 1;
   g[ 18 ]= cpy 0 * (ykyl + cpy 0) + b01_ 0;
   g[ 19 ]= cpy 1 * (ykyl + cpy 1) + b01_ 1;
   g[ 14 ]= ykyl + cpy 0;
   g[ 15 ]= ykyl + cpy 1;
   g[ 28 ]= cpz 0 * g_ 24;
   g[ 29 ]= cpz 1 * g_ 25;
   g[ 30 ]= g_ 28 * (zkzl + cpz 0) + b01_ 0 * g_ 24;
   g[ 31 ]= g_ 29 * (zkzl + cpz 1) + b01_ 1 * g_ 25;
   g[ 26 ]= g_ 24 * (zkzl + cpz 0);
   g[ 27 ]= g_ 25 * (zkzl + cpz 1)].
(** g2e.c:821-866 *)
Definition g0_2d4d_0012 : list ustmt :=
  [g[ 0 ]= UK 1;
   g[ 1 ]= UK 1;
   g[ 4 ]= cpx 0;
   g[ 5 ]= cpx 1;
   g[ 8 ]= cpx 0 * cpx 0 + b01_ 0;
   g[ 9 ]= cpx 1 * cpx 1 + b01_ 1;
   g[ 10 ]= g_ 8 * (xkxl + cpx 0) + cpx 0 * UK 2 * b01_ 0;
   g[ 11 ]= g_ 9 * (xkxl + cpx 1) + cpx 1 * UK 2 * b01_ 1;
   g[ 6 ]= cpx 0 * (xkxl + cpx 0) + b01_ 0;
   g[ 7 ]= cpx 1 * (xkxl + cpx 1) + b01_ 1;
   g[ 2 ]= xkxl + cpx 0;
   g[ 3 ]= xkxl + cpx 1;
   g[ 16 ]= UK 1;
   g[ 17 ]= UK 1;
   g[ 20 ]= cpy 0;
   g[ 21 ]= cpy 1;
   g[ 24 ]= cpy 0 * cpy 0 + b01_ 0;
   g[ 25 ]= cpy 1 * cpy 1 + b01_ 1;
   g[ 26 ]= g_ 24 * (ykyl + cpy 0) + cpy 0 * UK 2 * b01_ 0;
   g[ 27 ]= g_ 25 * (ykyl + cpy 1) + cpy 1 * UK 2 * b01_ 1;
   g[ 22 ]= cpy 0 * (ykyl + cpy 0) + b01_ 0;
   g[ 23 ]= cpy 1 * (ykyl + cpy 1) + b01_ 1;
   g[ 18 ]= ykyl + cpy 0;
   g[ 19 ]= ykyl + cpy 1;
   g[ 36 ]= cpz 0 * g_ 32;
   g[ 37 ]= cpz 1 * g_ 33;
   g[ 40 ]= cpz 0 * g_ 36 + b01_ 0 * g_ 32;
   g[ 41 ]= cpz 1 * g_ 37 + b01_ 1 * g_ 33;
   g[ 42 ]= g_ 40 * (zkzl + cpz 0) + UK 2 * b01_ 0 * g_ 36;
   g[ 43 ]= g_ 41 * (zkzl + cpz 1) + UK 2 * b01_ 1 * g_ 37;
   g[ 38 ]= g_ 36 * (zkzl + cpz 0) + b01_ 0 * g_ 32;
   g[ 39 ]= g_ 37 * (zkzl + cpz 1) + b01_ 1 * g_ 33;
   g[ 34 ]= g_ 32 * (zkzl + cpz 0);
   g[ 35 ]= g_ 33 * (zkzl + cpz 1)].
(** g2e.c:868-892 *)
Definition g0_2d4d_0020 : list ustmt :=
  [g[ 0 ]= UK 1;
   g[ 1 ]= UK 1;
   g[ 2 ]= cpx 0;
   g[ 3 ]= cpx 1;
   g[ 4 ]= cpx 0 * cpx 0 + b01_ 0;
   g[ 5 ]= cpx 1 * cpx 1 + b01_ 1;
   g[ 6 ]= UK 1;
   g[ 7 ]= UK 1;
   g[ 8 ]= cpy 0;
   g[ 9 ]= cpy 1;
   g[ 10 ]= cpy 0 * cpy 0 + b01_ 0;
   g[ 11 ]= cpy 1 * cpy 1 + b01_ 1;
   g[ 14 ]= cpz 0 * g_ 12;
   g[ 15 ]= cpz 1 * g_ 13;
   g[ 16 ]= cpz 0 * g_ 14 + b01_ 0 * g_ 12;
   g[ 17 ]= cpz 1 * g_ 15 + b01_ 1 * g_ 13].
(** g2e.c:894-939 *)
Definition g0_2d4d_0021 : list ustmt :=
  [g[ 0 ]= UK 1;
   g[ 1 ]= UK 1;
   g[ 2 ]= cpx 0;
   g[ 3 ]= cpx 1;
   g[ 4 ]= cpx 0 * cpx 0 + b01_ 0;
   g[ 5 ]= cpx 1 * cpx 1 + b01_ 1;
   g[ 8 ]= xkxl + cpx 0;
   g[ 9 ]= xkxl + cpx 1;
   g[ 10 ]= cpx 0 * (xkxl + cpx 0) + b01_ 0;
   g[ 11 ]= cpx 1 * (xkxl + cpx 1) + b01_ 1;
   g[ 12 ]= g_ 4 * (xkxl + cpx 0) + cpx 0 * UK 2 * b01_ 0;
   g[ 13 ]= g_ 5 * (xkxl + cpx 1) + cpx 1 * UK 2 * b01_ 1;
   g[ 16 ]= UK 1;
   g[ 17 ]= UK 1;
   g[ 18 ]= cpy 0;
   g[ 19 ]= cpy 1;
   g[ 20 ]= cpy 0 * cpy 0 + b01_ 0;
   g[ 21 ]= cpy 1 * cpy 1 + b01_ 1;
   g[ 24 ]= ykyl + cpy 0;
   g[ 25 ]= ykyl + cpy 1;
   g[ 26 ]= cpy 0 * (ykyl + cpy 0) + b01_ 0;
   g[ 27 ]= cpy 1 * (ykyl + cpy 1) + b01_ 1;
   g[ 28 ]= g_ 20 * (ykyl + cpy 0) + cpy 0 * UK 2 * b01_ 0;
   g[ 29 ]= g_ 21 * (ykyl + cpy 1) + cpy 1 * UK 2 * b01_ 1;
   g[ 34 ]= cpz 0 * g_ 32;
   g[ 35 ]= cpz 1 * g_ 33;
   g[ 36 ]= cpz 0 * g_ 34 + b01_ 0 * g_ 32;
   g[ 37 ]= cpz 1 * g_ 35 + b01_ 1 * g_ 33;
   g[ 40 ]= g_ 32 * (zkzl + cpz 0);
   g[ 41 ]= g_ 33 * (zkzl + cpz 1);
   g[ 42 ]= g_ 34 * (zkzl + cpz 0) + b01_ 0 * g_ 32;
   g[ 43 ]= g_ 35 * (zkzl + cpz 1) + b01_ 1 * g_ 33;
   g[ 44 ]= g_ 36 * (zkzl + cpz 0) + UK 2 * b01_ 0 * g_ 34;
   g[ 45 ]= g_ 37 * (zkzl + cpz 1) + UK 2 * b01_ 1 * g_ 35].
(** g2e.c:941-971 *)
Definition g0_2d4d_0030 : list ustmt :=
  [g[ 0 ]= UK 1;
   g[ 1 ]= UK 1;
   g[ 2 ]= cpx 0;
   g[ 3 ]= cpx 1;
   g[ 4 ]= cpx 0 * cpx 0 + b01_ 0;
   g[ 5 ]= cpx 1 * cpx 1 + b01_ 1;
   g[ 6 ]= cpx 0 * (g_ 4 + UK 2 * b01_ 0);
   g[ 7 ]= cpx 1 * (g_ 5 + UK 2 * b01_ 1);
   g[ 8 ]= UK 1;
   g[ 9 ]= UK 1;
   g[ 10 ]= cpy 0;
   g[ 11 ]= cpy 1;
   g[ 12 ]= cpy 0 * cpy 0 + b01_ 0;
   g[ 13 ]= cpy 1 * cpy 1 + b01_ 1;
   g[ 14 ]= cpy 0 * (g_ 12 + UK 2 * b01_ 0);
   g[ 15 ]= cpy 1 * (g_ 13 + UK 2 * b01_ 1);
   g[ 18 ]= cpz 0 * g_ 16;
   g[ 19 ]= cpz 1 * g_ 17;
   g[ 20 ]= cpz 0 * g_ 18 + b01_ 0 * g_ 16;
   g[ 21 ]= cpz 1 * g_ 19 + b01_ 1 * g_ 17;
   g[ 22 ]= cpz 0 * g_ 20 + UK 2 * b01_ 0 * g_ 18;
   g[ 23 ]= cpz 1 * g_ 21 + UK 2 * b01_ 1 * g_ 19].
(** g2e.c:973-984 *)
Definition g0_2d4d_0100 : list ustmt :=
  [g[ 0 ]= UK 1;
   g[ 1 ]= c0x 0;
   g[ 2 ]= UK 1;
   g[ 3 ]= c0y 0;
   g[ 5 ]= c0z 0 * g_ 4].
(** g2e.c:986-1019 *)
Definition g0_2d4d_0101 : list ustmt :=
  [g[ 0 ]= UK 1;
   g[ 1 ]= UK 1;
   g[ 2 ]= cpx 0;
   g[ 3 ]= cpx 1;
   g[ 4 ]= c0x 0;
   g[ 5 ]= c0x 1;
   g[ 6 ]= cpx 0 * c0x 0 + b00_ 0;
   g[ 7 ]= cpx 1 * c0x 1 + b00_ 1;
   g[ 8 ]= UK 1;
   g[ 9 ]= UK 1;
   g[ 10 ]= cpy 0;
   g[ 11 ]= cpy 1;
   g[ 12 ]= c0y 0;
   g[ 13 ]= c0y 1;
   g[ 14 ]= cpy 0 * c0y 0 + b00_ 0;
   g[ 15 ]= cpy 1 * c0y 1 + b00_ 1;
   g[ 18 ]= cpz 0 * g_ 16;
   g[ 19 ]= cpz 1 * g_ 17;
   g[ 20 ]= c0z 0 * g_ 16;
   g[ 21 ]= c0z 1 * g_ 17;
   g[ 22 ]= cpz 0 * g_ 20 + b00_ 0 * g_ 16;
   g[ 23 ]= cpz 1 * g_ 21 + b00_ 1 * g_ 17].
(** g2e.c:1021-1067 *)
Definition g0_2d4d_0102 : list ustmt :=
  [g[ 0 ]= UK 1;
   g[ 1 ]= UK 1;
   g[ 2 ]= cpx 0;
   g[ 3 ]= cpx 1;
   g[ 6 ]= c0x 0;
   g[ 7 ]= c0x 1;
   g[ 4 ]= cpx 0 * cpx 0 + b01_ 0;
   g[ 5 ]= cpx 1 * cpx 1 + b01_ 1;
   g[ 8 ]= cpx 0 * c0x 0 + b00_ 0;
   g[ 9 ]= cpx 1 * c0x 1 + b00_ 1;
   g[ 10 ]= cpx 0 * (g_ 8 + b00_ 0) + b01_ 0 * c0x 0;
   g[ 11 ]= cpx 1 * (g_ 9 + b00_ 1) + b01_ 1 * c0x 1;
   g[ 12 ]= UK 1;
   g[ 13 ]= UK 1;
   g[ 14 ]= cpy 0;
   g[ 15 ]= cpy 1;
   g[ 18 ]= c0y 0;
   g[ 19 ]= c0y 1;
   g[ 16 ]= cpy 0 * cpy 0 + b01_ 0;
   g[ 17 ]= cpy 1 * cpy 1 + b01_ 1;
   g[ 20 ]= cpy 0 * c0y 0 + b00_ 0;
   g[ 21 ]= cpy 1 * c0y 1 + b00_ 1;
   g[ 22 ]= cpy 0 * (g_ 20 + b00_ 0) + b01_ 0 * c0y 0;
   g[ 23 ]= cpy 1 * (g_ 21 + b00_ 1) + b01_ 1 * c0y 1;
   g[ 26 ]= cpz 0 * g_ 24;
   g[ 27 ]= cpz 1 * g_ 25;
   g[ 30 ]= c0z 0 * g_ 24;
   g[ 31 ]= c0z 1 * g_ 25;
   g[ 28 ]= cpz 0 * g_ 26 + b01_ 0 * g_ 24;
   g[ 29 ]= cpz 1 * g_ 27 + b01_ 1 * g_ 25;
   g[ 32 ]= cpz 0 * g_ 30 + b00_ 0 * g_ 24;
   g[ 33 ]= cpz 1 * g_ 31 + b00_ 1 * g_ 25;
   g[ 34 ]= cpz 0 * g_ 32 + b01_ 0 * g_ 30 + b00_ 0 * g_ 26;
   g[ 35 ]= cpz 1 * g_ 33 + b01_ 1 * g_ 31 + b00_ 1 * g_ 27].
(** g2e.c:1069-1102 *)
Definition g0_2d4d_0110 : list ustmt :=
  [g[ 0 ]= UK 1;
   g[ 1 ]= UK 1;
   g[ 2 ]= cpx 0;
   g[ 3 ]= cpx 1;
   g[ 4 ]= c0x 0;
   g[ 5 ]= c0x 1;
   g[ 6 ]= cpx 0 * c0x 0 + b00_ 0;
   g[ 7 ]= cpx 1 * c0x 1 + b00_ 1;
   g[ 8 ]= UK 1;
   g[ 9 ]= UK 1;
   g[ 10 ]= cpy 0;
   g[ 11 ]= cpy 1;
   g[ 12 ]= c0y 0;
   g[ 13 ]= c0y 1;
   g[ 14 ]= cpy 0 * c0y 0 + b00_ 0;
   g[ 15 ]= cpy 1 * c0y 1 + b00_ 1;
   g[ 18 ]= cpz 0 * g_ 16;
   g[ 19 ]= cpz 1 * g_ 17;
   g[ 20 ]= c0z 0 * g_ 16;
   g[ 21 ]= c0z 1 * g_ 17;
   g[ 22 ]= cpz 0 * g_ 20 + b00_ 0 * g_ 16;
   g[ 23 ]= cpz 1 * g_ 21 + b00_ 1 * g_ 17].
(** g2e.c:1104-1165 *)
Definition g0_2d4d_0111 : list ustmt :=
  [g[ 0 ]= UK 1;
   g[ 1 ]= UK 1;
   g[ 12 ]= c0x 0;
   g[ 13 ]= c0x 1;
   g[ 4 ]= cpx 0;
   g[ 5 ]= cpx 1;
   g[ 16 ]= cpx 0 * c0x 0 + b00_ 0;
   g[ 17 ]= cpx 1 * c0x 1 + b00_ 1;
   g[ 6 ]= cpx 0 * (xkxl + cpx 0) + b01_ 0;
   g[ 7 ]= cpx 1 * (xkxl + cpx 1) + b01_ 1;
   g[ 18 ]= g_ 16 * (xkxl + cpx 0) + cpx 0 * b00_ 0 + b01_ 0 * c0x 0;
   g[ 19 ]= g_ 17 * (xkxl + cpx 1) + cpx 1 * b00_ 1 + b01_ 1 * c0x 1;
   g[ 2 ]= xkxl + cpx 0;
   g[ 3 ]= xkxl + cpx 1;
   g[ 14 ]= c0x 0 * (xkxl + cpx 0) + b00_ 0;
   g[ 15 ]= c0x 1 * (xkxl + cpx 1) + b00_ 1;
   g[ 24 ]= UK 1;
   g[ 25 ]= UK 1;
   g[ 36 ]= c0y 0;
   g[ 37 ]= c0y 1;
   g[ 28 ]= cpy 0;
   g[ 29 ]= cpy 1;
   g[ 40 ]= cpy 0 * c0y 0 + b00_ 0;
   g[ 41 ]= cpy 1 * c0y 1 + b00_ 1;
   g[ 30 ]= cpy 0 * (ykyl + cpy 0) + b01_ 0;
   g[ 31 ]= cpy 1 * (ykyl + cpy 1) + b01_ 1;
   g[ 42 ]= g_ 40 * (ykyl + cpy 0) + cpy 0 * b00_ 0 + b01_ 0 * c0y 0;
   g[ 43 ]= g_ 41 * (ykyl + cpy 1) + cpy 1 * b00_ 1 + b01_ 1 * c0y 1;
   g[ 26 ]= ykyl + cpy 0;
   g[ 27 ]= ykyl + cpy 1;
   g[ 38 ]= c0y 0 * (ykyl + cpy 0) + b00_ 0;
   g[ 39 ]= c0y 1 * (ykyl + cpy 1) + b00_ 1;
   g[ 60 ]= c0z 0 * g_ 48;
   g[ 61 ]= c0z 1 * g_ 49;
   g[ 52 ]= cpz 0 * g_ 48;
   g[ 53 ]= cpz 1 * g_ 49;
   g[ 64 ]= cpz 0 * g_ 60 + b00_ 0 * g_ 48;
   g[ 65 ]= cpz 1 * g_ 61 + b00_ 1 * g_ 49;
   g[ 54 ]= g_ 52 * (zkzl + cpz 0) + b01_ 0 * g_ 48;
   g[ 55 ]= g_ 53 * (zkzl + cpz 1) + b01_ 1 * g_ 49;
   g[ 66 ]= g_ 64 * (zkzl + cpz 0) + b01_ 0 * g_ 60 + b00_ 0 * g_ 52;
   g[ 67 ]= g_ 65 * (zkzl + cpz 1) + b01_ 1 * g_ 61 + b00_ 1 * g_ 53;
   g[ 50 ]= g_ 48 * (zkzl + cpz 0);
   g[ 51 ]= g_ 49 * (zkzl + cpz 1);
   g[ 62 ]= g_ 60 * (zkzl + cpz 0) + b00_ 0 * g_ 48;
   g[ 63 ]= g_ 61 * (zkzl + cpz 1) + b00_ 1 * g_ 49].
(** g2e.c:1167-1213 *)
Definition g0_2d4d_0120 : list ustmt :=
  [g[ 0 ]= UK 1;
   g[ 1 ]= UK 1;
   g[ 2 ]= cpx 0;
   g[ 3 ]= cpx 1;
   g[ 6 ]= c0x 0;
   g[ 7 ]= c0x 1;
   g[ 4 ]= cpx 0 * cpx 0 + b01_ 0;
   g[ 5 ]= cpx 1 * cpx 1 + b01_ 1;
   g[ 8 ]= cpx 0 * c0x 0 + b00_ 0;
   g[ 9 ]= cpx 1 * c0x 1 + b00_ 1;
   g[ 10 ]= cpx 0 * (g_ 8 + b00_ 0) + b01_ 0 * c0x 0;
   g[ 11 ]= cpx 1 * (g_ 9 + b00_ 1) + b01_ 1 * c0x 1;
   g[ 12 ]= UK 1;
   g[ 13 ]= UK 1;
   g[ 14 ]= cpy 0;
   g[ 15 ]= cpy 1;
   g[ 18 ]= c0y 0;
   g[ 19 ]= c0y 1;
   g[ 16 ]= cpy 0 * cpy 0 + b01_ 0;
   g[ 17 ]= cpy 1 * cpy 1 + b01_ 1;
   g[ 20 ]= cpy 0 * c0y 0 + b00_ 0;
   g[ 21 ]= cpy 1 * c0y 1 + b00_ 1;
   g[ 22 ]= cpy 0 * (g_ 20 + b00_ 0) + b01_ 0 * c0y 0;
   g[ 23 ]= cpy 1 * (g_ 21 + b00_ 1) + b01_ 1 * c0y 1;
   g[ 26 ]= cpz 0 * g_ 24;
   g[ 27 ]= cpz 1 * g_ 25;
   g[ 30 ]= c0z 0 * g_ 24;
   g[ 31 ]= c0z 1 * g_ 25;
   g[ 28 ]= cpz 0 * g_ 26 + b01_ 0 * g_ 24;
   g[ 29 ]= cpz 1 * g_ 27 + b01_ 1 * g_ 25;
   g[ 32 ]= cpz 0 * g_ 30 + b00_ 0 * g_ 24;
   g[ 33 ]= cpz 1 * g_ 31 + b00_ 1 * g_ 25;
   g[ 34 ]= cpz 0 * g_ 32 + b01_ 0 * g_ 30 + b00_ 0 * g_ 26;
   g[ 35 ]= cpz 1 * g_ 33 + b01_ 1 * g_ 31 + b00_ 1 * g_ 27].
(** g2e.c:1215-1239 *)
Definition g0_2d4d_0200 : list ustmt :=
  [g[ 0 ]= UK 1;
   g[ 1 ]= UK 1;
   g[ 2 ]= c0x 0;
   g[ 3 ]= c0x 1;
   g[ 4 ]= c0x 0 * c0x 0 + b10_ 0;
   g[ 5 ]= c0x 1 * c0x 1 + b10_ 1;
   g[ 6 ]= UK 1;
   g[ 7 ]= UK 1;
   g[ 8 ]= c0y 0;
   g[ 9 ]= c0y 1;
   g[ 10 ]= c0y 0 * c0y 0 + b10_ 0;
   g[ 11 ]= c0y 1 * c0y 1 + b10_ 1;
   g[ 14 ]= c0z 0 * g_ 12;
   g[ 15 ]= c0z 1 * g_ 13;
   g[ 16 ]= c0z 0 * g_ 14 + b10_ 0 * g_ 12;
   g[ 17 ]= c0z 1 * g_ 15 + b10_ 1 * g_ 13].
(** g2e.c:1241-1287 *)
Definition g0_2d4d_0201 : list ustmt :=
  [g[ 0 ]= UK 1;
   g[ 1 ]= UK 1;
   g[ 4 ]= c0x 0;
   g[ 5 ]= c0x 1;
   g[ 8 ]= c0x 0 * c0x 0 + b10_ 0;
   g[ 9 ]= c0x 1 * c0x 1 + b10_ 1;
   g[ 2 ]= cpx 0;
   g[ 3 ]= cpx 1;
   g[ 6 ]= cpx 0 * c0x 0 + b00_ 0;
   g[ 7 ]= cpx 1 * c0x 1 + b00_ 1;
   g[ 10 ]= c0x 0 * (g_ 6 + b00_ 0) + b10_ 0 * cpx 0;
   g[ 11 ]= c0x 1 * (g_ 7 + b00_ 1) + b10_ 1 * cpx 1;
   g[ 12 ]= UK 1;
   g[ 13 ]= UK 1;
   g[ 16 ]= c0y 0;
   g[ 17 ]= c0y 1;
   g[ 20 ]= c0y 0 * c0y 0 + b10_ 0;
   g[ 21 ]= c0y 1 * c0y 1 + b10_ 1;
   g[ 14 ]= cpy 0;
   g[ 15 ]= cpy 1;
   g[ 18 ]= cpy 0 * c0y 0 + b00_ 0;
   g[ 19 ]= cpy 1 * c0y 1 + b00_ 1;
   g[ 22 ]= c0y 0 * (g_ 18 + b00_ 0) + b10_ 0 * cpy 0;
   g[ 23 ]= c0y 1 * (g_ 19 + b00_ 1) + b10_ 1 * cpy 1;
   g[ 28 ]= c0z 0 * g_ 24;
   g[ 29 ]= c0z 1 * g_ 25;
   g[ 32 ]= c0z 0 * g_ 28 + b10_ 0 * g_ 24;
   g[ 33 ]= c0z 1 * g_ 29 + b10_ 1 * g_ 25;
   g[ 26 ]= cpz 0 * g_ 24;
   g[ 27 ]= cpz 1 * g_ 25;
   g[ 30 ]= cpz 0 * g_ 28 + b00_ 0 * g_ 24;
   g[ 31 ]= cpz 1 * g_ 29 + b00_ 1 * g_ 25;
   g[ 34 ]= c0z 0 * g_ 30 + b10_ 0 * g_ 26 + b00_ 0 * g_ 28;
   g[ 35 ]= c0z 1 * g_ 31 + b10_ 1 * g_ 27 + b00_ 1 * g_ 29].
(** g2e.c:1289-1335 *)
Definition g0_2d4d_0210 : list ustmt :=
  [g[ 0 ]= UK 1;
   g[ 1 ]= UK 1;
   g[ 2 ]= cpx 0;
   g[ 3 ]= cpx 1;
   g[ 4 ]= c0x 0;
   g[ 5 ]= c0x 1;
   g[ 6 ]= cpx 0 * c0x 0 + b00_ 0;
   g[ 7 ]= cpx 1 * c0x 1 + b00_ 1;
   g[ 8 ]= c0x 0 * c0x 0 + b10_ 0;
   g[ 9 ]= c0x 1 * c0x 1 + b10_ 1;
   g[ 10 ]= c0x 0 * (g_ 6 + b00_ 0) + b10_ 0 * cpx 0;
   g[ 11 ]= c0x 1 * (g_ 7 + b00_ 1) + b10_ 1 * cpx 1;
   g[ 12 ]= UK 1;
   g[ 13 ]= UK 1;
   g[ 14 ]= cpy 0;
   g[ 15 ]= cpy 1;
   g[ 16 ]= c0y 0;
   g[ 17 ]= c0y 1;
   g[ 18 ]= cpy 0 * c0y 0 + b00_ 0;
   g[ 19 ]= cpy 1 * c0y 1 + b00_ 1;
   g[ 20 ]= c0y 0 * c0y 0 + b10_ 0;
   g[ 21 ]= c0y 1 * c0y 1 + b10_ 1;
   g[ 22 ]= c0y 0 * (g_ 18 + b00_ 0) + b10_ 0 * cpy 0;
   g[ 23 ]= c0y 1 * (g_ 19 + b00_ 1) + b10_ 1 * cpy 1;
   g[ 26 ]= cpz 0 * g_ 24;
   g[ 27 ]= cpz 1 * g_ 25;
   g[ 28 ]= c0z 0 * g_ 24;
   g[ 29 ]= c0z 1 * g_ 25;
   g[ 30 ]= cpz 0 * g_ 28 + b00_ 0 * g_ 24;
   g[ 31 ]= cpz 1 * g_ 29 + b00_ 1 * g_ 25;
   g[ 32 ]= c0z 0 * g_ 28 + b10_ 0 * g_ 24;
   g[ 33 ]= c0z 1 * g_ 29 + b10_ 1 * g_ 25;
   g[ 34 ]= c0z 0 * g_ 30 + b10_ 0 * g_ 26 + b00_ 0 * g_ 28;
   g[ 35 ]= c0z 1 * g_ 31 + b10_ 1 * g_ 27 + b00_ 1 * g_ 29].
(** g2e.c:1337-1367 *)
Definition g0_2d4d_0300 : list ustmt :=
  [g[ 0 ]= UK 1;
   g[ 1 ]= UK 1;
   g[ 2 ]= c0x 0;
   g[ 3 ]= c0x 1;
   g[ 4 ]= c0x 0 * c0x 0 + b10_ 0;
   g[ 5 ]= c0x 1 * c0x 1 + b10_ 1;
   g[ 6 ]= c0x 0 * (g_ 4 + UK 2 * b10_ 0);
   g[ 7 ]= c0x 1 * (g_ 5 + UK 2 * b10_ 1);
   g[ 8 ]= UK 1;
   g[ 9 ]= UK 1;
   g[ 10 ]= c0y 0;
   g[ 11 ]= c0y 1;
   g[ 12 ]= c0y 0 * c0y 0 + b10_ 0;
   g[ 13 ]= c0y 1 * c0y 1 + b10_ 1;
   g[ 14 ]= c0y 0 * (g_ 12 + UK 2 * b10_ 0);
   g[ 15 ]= c0y 1 * (g_ 13 + UK 2 * b10_ 1);
   g[ 18 ]= c0z 0 * g_ 16;
   g[ 19 ]= c0z 1 * g_ 17;
   g[ 20 ]= c0z 0 * g_ 18 + b10_ 0 * g_ 16;
   g[ 21 ]= c0z 1 * g_ 19 + b10_ 1 * g_ 17;
   g[ 22 ]= c0z 0 * g_ 20 + UK 2 * b10_ 0 * g_ 18;
   g[ 23 ]= c0z 1 * g_ 21 + UK 2 * b10_ 1 * g_ 19].
(** g2e.c:1369-1380 *)
Definition g0_2d4d_1000 : list ustmt :=
  [g[ 0 ]= UK 1;
   g[ 1 ]= c0x 0;
   g[ 2 ]= UK 1;
   g[ 3 ]= c0y 0;
   g[ 5 ]= c0z 0 * g_ 4].
(** g2e.c:1382-1415 *)
Definition g0_2d4d_1001 : list ustmt :=
  [g[ 0 ]= UK 1;
   g[ 1 ]= UK 1;
   g[ 2 ]= c0x 0;
   g[ 3 ]= c0x 1;
   g[ 4 ]= cpx 0;
   g[ 5 ]= cpx 1;
   g[ 6 ]= cpx 0 * c0x 0 + b00_ 0;
   g[ 7 ]= cpx 1 * c0x 1 + b00_ 1;
   g[ 8 ]= UK 1;
   g[ 9 ]= UK 1;
   g[ 10 ]= c0y 0;
   g[ 11 ]= c0y 1;
   g[ 12 ]= cpy 0;
   g[ 13 ]= cpy 1;
   g[ 14 ]= cpy 0 * c0y 0 + b00_ 0;
   g[ 15 ]= cpy 1 * c0y 1 + b00_ 1;
   g[ 18 ]= c0z 0 * g_ 16;
   g[ 19 ]= c0z 1 * g_ 17;
   g[ 20 ]= cpz 0 * g_ 16;
   g[ 21 ]= cpz 1 * g_ 17;
   g[ 22 ]= cpz 0 * g_ 18 + b00_ 0 * g_ 16;
   g[ 23 ]= cpz 1 * g_ 19 + b00_ 1 * g_ 17].
(** g2e.c:1417-1463 *)
Definition g0_2d4d_1002 : list ustmt :=
  [g[ 0 ]= UK 1;
   g[ 1 ]= UK 1;
   g[ 2 ]= c0x 0;
   g[ 3 ]= c0x 1;
   g[ 4 ]= cpx 0;
   g[ 5 ]= cpx 1;
   g[ 6 ]= cpx 0 * c0x 0 + b00_ 0;
   g[ 7 ]= cpx 1 * c0x 1 + b00_ 1;
   g[ 8 ]= cpx 0 * cpx 0 + b01_ 0;
   g[ 9 ]= cpx 1 * cpx 1 + b01_ 1;
   g[ 10 ]= cpx 0 * (g_ 6 + b00_ 0) + b01_ 0 * c0x 0;
   g[ 11 ]= cpx 1 * (g_ 7 + b00_ 1) + b01_ 1 * c0x 1;
   g[ 12 ]= UK 1;
   g[ 13 ]= UK 1;
   g[ 14 ]= c0y 0;
   g[ 15 ]= c0y 1;
   g[ 16 ]= cpy 0;
   g[ 17 ]= cpy 1;
   g[ 18 ]= cpy 0 * c0y 0 + b00_ 0;
   g[ 19 ]= cpy 1 * c0y 1 + b00_ 1;
   g[ 20 ]= cpy 0 * cpy 0 + b01_ 0;
   g[ 21 ]= cpy 1 * cpy 1 + b01_ 1;
   g[ 22 ]= cpy 0 * (g_ 18 + b00_ 0) + b01_ 0 * c0y 0;
   g[ 23 ]= cpy 1 * (g_ 19 + b00_ 1) + b01_ 1 * c0y 1;
   g[ 26 ]= c0z 0 * g_ 24;
   g[ 27 ]= c0z 1 * g_ 25;
   g[ 28 ]= cpz 0 * g_ 24;
   g[ 29 ]= cpz 1 * g_ 25;
   g[ 30 ]= cpz 0 * g_ 26 + b00_ 0 * g_ 24;
   g[ 31 ]= cpz 1 * g_ 27 + b00_ 1 * g_ 25;
   g[ 32 ]= cpz 0 * g_ 28 + b01_ 0 * g_ 24;
   g[ 33 ]= cpz 1 * g_ 29 + b01_ 1 * g_ 25;
   g[ 34 ]= cpz 0 * g_ 30 + b01_ 0 * g_ 26 + b00_ 0 * g_ 28;
   g[ 35 ]= cpz 1 * g_ 31 + b01_ 1 * g_ 27 + b00_ 1 * g_ 29].
(** g2e.c:1465-1498 *)
Definition g0_2d4d_1010 : list ustmt :=
  [g[ 0 ]= UK 1;
   g[ 1 ]= UK 1;
   g[ 2 ]= c0x 0;
   g[ 3 ]= c0x 1;
   g[ 4 ]= cpx 0;
   g[ 5 ]= cpx 1;
   g[ 6 ]= cpx 0 * c0x 0 + b00_ 0;
   g[ 7 ]= cpx 1 * c0x 1 + b00_ 1;
   g[ 8 ]= UK 1;
   g[ 9 ]= UK 1;
   g[ 10 ]= c0y 0;
   g[ 11 ]= c0y 1;
   g[ 12 ]= cpy 0;
   g[ 13 ]= cpy 1;
   g[ 14 ]= cpy 0 * c0y 0 + b00_ 0;
   g[ 15 ]= cpy 1 * c0y 1 + b00_ 1;
   g[ 18 ]= c0z 0 * g_ 16;
   g[ 19 ]= c0z 1 * g_ 17;
   g[ 20 ]= cpz 0 * g_ 16;
   g[ 21 ]= cpz 1 * g_ 17;
   g[ 22 ]= cpz 0 * g_ 18 + b00_ 0 * g_ 16;
   g[ 23 ]= cpz 1 * g_ 19 + b00_ 1 * g_ 17].
(** g2e.c:1500-1561 *)
Definition g0_2d4d_1011 : list ustmt :=
  [g[ 0 ]= UK 1;
   g[ 1 ]= UK 1;
   g[ 2 ]= c0x 0;
   g[ 3 ]= c0x 1;
   g[ 8 ]= cpx 0;
   g[ 9 ]= cpx 1;
   g[ 10 ]= cpx 0 * c0x 0 + b00_ 0;
   g[ 11 ]= cpx 1 * c0x 1 + b00_ 1;
   g[ 12 ]= cpx 0 * (xkxl + cpx 0) + b01_ 0;
   g[ 13 ]= cpx 1 * (xkxl + cpx 1) + b01_ 1;
   g[ 14 ]= g_ 10 * (xkxl + cpx 0) + cpx 0 * b00_ 0 + b01_ 0 * c0x 0;
   g[ 15 ]= g_ 11 * (xkxl + cpx 1) + cpx 1 * b00_ 1 + b01_ 1 * c0x 1;
   g[ 4 ]= xkxl + cpx 0;
   g[ 5 ]= xkxl + cpx 1;
   g[ 6 ]= c0x 0 * (xkxl + cpx 0) + b00_ 0;
   g[ 7 ]= c0x 1 * (xkxl + cpx 1) + b00_ 1;
   g[ 24 ]= UK 1;
   g[ 25 ]= UK 1;
   g[ 26 ]= c0y 0;
   g[ 27 ]= c0y 1;
   g[ 32 ]= cpy 0;
   g[ 33 ]= cpy 1;
   g[ 34 ]= cpy 0 * c0y 0 + b00_ 0;
   g[ 35 ]= cpy 1 * c0y 1 + b00_ 1;
   g[ 36 ]= cpy 0 * (ykyl + cpy 0) + b01_ 0;
   g[ 37 ]= cpy 1 * (ykyl + cpy 1) + b01_ 1;
   g[ 38 ]= g_ 34 * (ykyl + cpy 0) + cpy 0 * b00_ 0 + b01_ 0 * c0y 0;
   g[ 39 ]= g_ 35 * (ykyl + cpy 1) + cpy 1 * b00_ 1 + b01_ 1 * c0y 1;
   g[ 28 ]= ykyl + cpy 0;
   g[ 29 ]= ykyl + cpy 1;
   g[ 30 ]= c0y 0 * (ykyl + cpy 0) + b00_ 0;
   g[ 31 ]= c0y 1 * (ykyl + cpy 1) + b00_ 1;
   g[ 50 ]= c0z 0 * g_ 48;
   g[ 51 ]= c0z 1 * g_ 49;
   g[ 56 ]= cpz 0 * g_ 48;
   g[ 57 ]= cpz 1 * g_ 49;
   g[ 58 ]= cpz 0 * g_ 50 + b00_ 0 * g_ 48;
   g[ 59 ]= cpz 1 * g_ 51 + b00_ 1 * g_ 49;
   g[ 60 ]= g_ 56 * (zkzl + cpz 0) + b01_ 0 * g_ 48;
   g[ 61 ]= g_ 57 * (zkzl + cpz 1) + b01_ 1 * g_ 49;
   g[ 62 ]= g_ 58 * (zkzl + cpz 0) + b01_ 0 * g_ 50 + b00_ 0 * g_ 56;
   g[ 63 ]= g_ 59 * (zkzl + cpz 1) + b01_ 1 * g_ 51 + b00_ 1 * g_ 57;
   g[ 52 ]= g_ 48 * (zkzl + cpz 0);
   g[ 53 ]= g_ 49 * (zkzl + cpz 1);
   g[ 54 ]= g_ 50 * (zkzl + cpz 0) + b00_ 0 * g_ 48;
   g[ 55 ]= g_ 51 * (zkzl + cpz 1) + b00_ 1 * g_ 49].
(** g2e.c:1563-1609 *)
Definition g0_2d4d_1020 : list ustmt :=
  [g[ 0 ]= UK 1;
   g[ 1 ]= UK 1;
   g[ 2 ]= c0x 0;
   g[ 3 ]= c0x 1;
   g[ 4 ]= cpx 0;
   g[ 5 ]= cpx 1;
   g[ 6 ]= cpx 0 * c0x 0 + b00_ 0;
   g[ 7 ]= cpx 1 * c0x 1 + b00_ 1;
   g[ 8 ]= cpx 0 * cpx 0 + b01_ 0;
   g[ 9 ]= cpx 1 * cpx 1 + b01_ 1;
   g[ 10 ]= cpx 0 * (g_ 6 + b00_ 0) + b01_ 0 * c0x 0;
   g[ 11 ]= cpx 1 * (g_ 7 + b00_ 1) + b01_ 1 * c0x 1;
   g[ 12 ]= UK 1;
   g[ 13 ]= UK 1;
   g[ 14 ]= c0y 0;
   g[ 15 ]= c0y 1;
   g[ 16 ]= cpy 0;
   g[ 17 ]= cpy 1;
   g[ 18 ]= cpy 0 * c0y 0 + b00_ 0;
   g[ 19 ]= cpy 1 * c0y 1 + b00_ 1;
   g[ 20 ]= cpy 0 * cpy 0 + b01_ 0;
   g[ 21 ]= cpy 1 * cpy 1 + b01_ 1;
   g[ 22 ]= cpy 0 * (g_ 18 + b00_ 0) + b01_ 0 * c0y 0;
   g[ 23 ]= cpy 1 * (g_ 19 + b00_ 1) + b01_ 1 * c0y 1;
   g[ 26 ]= c0z 0 * g_ 24;
   g[ 27 ]= c0z 1 * g_ 25;
   g[ 28 ]= cpz 0 * g_ 24;
   g[ 29 ]= cpz 1 * g_ 25;
   g[ 30 ]= cpz 0 * g_ 26 + b00_ 0 * g_ 24;
   g[ 31 ]= cpz 1 * g_ 27 + b00_ 1 * g_ 25;
   g[ 32 ]= cpz 0 * g_ 28 + b01_ 0 * g_ 24;
   g[ 33 ]= cpz 1 * g_ 29 + b01_ 1 * g_ 25;
   g[ 34 ]= cpz 0 * g_ 30 + b01_ 0 * g_ 26 + b00_ 0 * g_ 28;
   g[ 35 ]= cpz 1 * g_ 31 + b01_ 1 * g_ 27 + b00_ 1 * g_ 29].
(** g2e.c:1611-1644 *)
Definition g0_2d4d_1100 : list ustmt :=
  [g[ 0 ]= UK 1;
   g[ 1 ]= UK 1;
   g[ 4 ]= c0x 0;
   g[ 5 ]= c0x 1;
   g[ 6 ]= c0x 0 * (xixj + c0x 0) + b10_ 0;
   g[ 7 ]= c0x 1 * (xixj + c0x 1) + b10_ 1;
   g[ 2 ]= xixj + c0x 0;
   g[ 3 ]= xixj + c0x 1;
   g[ 12 ]= UK 1;
   g[ 13 ]= UK 1;
   g[ 16 ]= c0y 0;
   g[ 17 ]= c0y 1;
   g[ 18 ]= c0y 0 * (yiyj + c0y 0) + b10_ 0;
   g[ 19 ]= c0y 1 * (yiyj + c0y 1) + b10_ 1;
   g[ 14 ]= yiyj + c0y 0;
   g[ 15 ]= yiyj + c0y 1;
   g[ 28 ]= c0z 0 * g_ 24;
   g[ 29 ]= c0z 1 * g_ 25;
   g[ 30 ]= g_ 28 * (zizj + c0z 0) + b10_ 0 * g_ 24;
   g[ 31 ]= g_ 29 * (zizj + c0z 1) + b10_ 1 * g_ 25;
   g[ 26 ]= g_ 24 * (zizj + c0z 0);
   g[ 27 ]= g_ 25 * (zizj + c0z 1)].
(** g2e.c:1646-1707 *)
Definition g0_2d4d_1101 : list ustmt :=
  [g[ 0 ]= UK 1;
   g[ 1 ]= UK 1;
   g[ 8 ]= c0x 0;
   g[ 9 ]= c0x 1;
   g[ 4 ]= cpx 0;
   g[ 5 ]= cpx 1;
   g[ 12 ]= cpx 0 * c0x 0 + b00_ 0;
   g[ 13 ]= cpx 1 * c0x 1 + b00_ 1;
   g[ 10 ]= c0x 0 * (xixj + c0x 0) + b10_ 0;
   g[ 11 ]= c0x 1 * (xixj + c0x 1) + b10_ 1;
   g[ 2 ]= xixj + c0x 0;
   g[ 3 ]= xixj + c0x 1;
   g[ 14 ]= g_ 12 * (xixj + c0x 0) + c0x 0 * b00_ 0 + b10_ 0 * cpx 0;
   g[ 15 ]= g_ 13 * (xixj + c0x 1) + c0x 1 * b00_ 1 + b10_ 1 * cpx 1;
   g[ 6 ]= cpx 0 * (xixj + c0x 0) + b00_ 0;
   g[ 7 ]= cpx 1 * (xixj + c0x 1) + b00_ 1;
   g[ 24 ]= UK 1;
   g[ 25 ]= UK 1;
   g[ 32 ]= c0y 0;
   g[ 33 ]= c0y 1;
   g[ 28 ]= cpy 0;
   g[ 29 ]= cpy 1;
   g[ 36 ]= cpy 0 * c0y 0 + b00_ 0;
   g[ 37 ]= cpy 1 * c0y 1 + b00_ 1;
   g[ 34 ]= c0y 0 * (yiyj + c0y 0) + b10_ 0;
   g[ 35 ]= c0y 1 * (yiyj + c0y 1) + b10_ 1;
   g[ 26 ]= yiyj + c0y 0;
   g[ 27 ]= yiyj + c0y 1;
   g[ 38 ]= g_ 36 * (yiyj + c0y 0) + c0y 0 * b00_ 0 + b10_ 0 * cpy 0;
   g[ 39 ]= g_ 37 * (yiyj + c0y 1) + c0y 1 * b00_ 1 + b10_ 1 * cpy 1;
   g[ 30 ]= cpy 0 * (yiyj + c0y 0) + b00_ 0;
   g[ 31 ]= cpy 1 * (yiyj + c0y 1) + b00_ 1;
   g[ 56 ]= c0z 0 * g_ 48;
   g[ 57 ]= c0z 1 * g_ 49;
   g[ 52 ]= cpz 0 * g_ 48;
   g[ 53 ]= cpz 1 * g_ 49;
   g[ 60 ]= cpz 0 * g_ 56 + b00_ 0 * g_ 48;
   g[ 61 ]= cpz 1 * g_ 57 + b00_ 1 * g_ 49;
   g[ 58 ]= g_ 56 * (zizj + c0z 0) + b10_ 0 * g_ 48;
   g[ 59 ]= g_ 57 * (zizj + c0z 1) + b10_ 1 * g_ 49;
   g[ 50 ]= g_ 48 * (zizj + c0z 0);
   g[ 51 ]= g_ 49 * (zizj + c0z 1);
   g[ 62 ]= g_ 60 * (zizj + c0z 0) + b10_ 0 * g_ 52 + b00_ 0 * g_ 56;
   g[ 63 ]= g_ 61 * (zizj + c0z 1) + b10_ 1 * g_ 53 + b00_ 1 * g_ 57;
   g[ 54 ]= zizj * g_ 52 + cpz 0 * g_ 56 + b00_ 0 * g_ 48;
   g[ 55 ]= zizj * g_ 53 + cpz 1 * g_ 57 + b00_ 1 * g_ 49].
(** g2e.c:1709-1770 *)
Definition g0_2d4d_1110 : list ustmt :=
  [g[ 0 ]= UK 1;
   g[ 1 ]= UK 1;
   g[ 8 ]= c0x 0;
   g[ 9 ]= c0x 1;
   g[ 4 ]= cpx 0;
   g[ 5 ]= cpx 1;
   g[ 12 ]= cpx 0 * c0x 0 + b00_ 0;
   g[ 13 ]= cpx 1 * c0x 1 + b00_ 1;
   g[ 10 ]= c0x 0 * (xixj + c0x 0) + b10_ 0;
   g[ 11 ]= c0x 1 * (xixj + c0x 1) + b10_ 1;
   g[ 2 ]= xixj + c0x 0;
   g[ 3 ]= xixj + c0x 1;
   g[ 14 ]= g_ 12 * (xixj + c0x 0) + c0x 0 * b00_ 0 + b10_ 0 * cpx 0;
   g[ 15 ]= g_ 13 * (xixj + c0x 1) + c0x 1 * b00_ 1 + b10_ 1 * cpx 1;
   g[ 6 ]= cpx 0 * (xixj + c0x 0) + b00_ 0;
   g[ 7 ]= cpx 1 * (xixj + c0x 1) + b00_ 1;
   g[ 24 ]= UK 1;
   g[ 25 ]= UK 1;
   g[ 32 ]= c0y 0;
   g[ 33 ]= c0y 1;
   g[ 28 ]= cpy 0;
   g[ 29 ]= cpy 1;
   g[ 36 ]= cpy 0 * c0y 0 + b00_ 0;
   g[ 37 ]= cpy 1 * c0y 1 + b00_ 1;
   g[ 34 ]= c0y 0 * (yiyj + c0y 0) + b10_ 0;
   g[ 35 ]= c0y 1 * (yiyj + c0y 1) + b10_ 1;
   g[ 26 ]= yiyj + c0y 0;
   g[ 27 ]= yiyj + c0y 1;
   g[ 38 ]= g_ 36 * (yiyj + c0y 0) + c0y 0 * b00_ 0 + b10_ 0 * cpy 0;
   g[ 39 ]= g_ 37 * (yiyj + c0y 1) + c0y 1 * b00_ 1 + b10_ 1 * cpy 1;
   g[ 30 ]= cpy 0 * (yiyj + c0y 0) + b00_ 0;
   g[ 31 ]= cpy 1 * (yiyj + c0y 1) + b00_ 1;
   g[ 56 ]= c0z 0 * g_ 48;
   g[ 57 ]= c0z 1 * g_ 49;
   g[ 52 ]= cpz 0 * g_ 48;
   g[ 53 ]= cpz 1 * g_ 49;
   g[ 60 ]= cpz 0 * g_ 56 + b00_ 0 * g_ 48;
   g[ 61 ]= cpz 1 * g_ 57 + b00_ 1 * g_ 49;
   g[ 58 ]= g_ 56 * (zizj + c0z 0) + b10_ 0 * g_ 48;
   g[ 59 ]= g_ 57 * (zizj + c0z 1) + b10_ 1 * g_ 49;
   g[ 50 ]= g_ 48 * (zizj + c0z 0);
   g[ 51 ]= g_ 49 * (zizj + c0z 1);
   g[ 62 ]= g_ 60 * (zizj + c0z 0) + b10_ 0 * g_ 52 + b00_ 0 * g_ 56;
   g[ 63 ]= g_ 61 * (zizj + c0z 1) + b10_ 1 * g_ 53 + b00_ 1 * g_ 57;
   g[ 54 ]= zizj * g_ 52 + cpz 0 * g_ 56 + b00_ 0 * g_ 48;
   g[ 55 ]= zizj * g_ 53 + cpz 1 * g_ 57 + b00_ 1 * g_ 49].
(** g2e.c:1772-1817 *)
Definition g0_2d4d_1200 : list ustmt :=
  [g[ 0 ]= UK 1;
   g[ 1 ]= UK 1;
   g[ 4 ]= c0x 0;
   g[ 5 ]= c0x 1;
   g[ 8 ]= c0x 0 * c0x 0 + b10_ 0;
   g[ 9 ]= c0x 1 * c0x 1 + b10_ 1;
   g[ 10 ]= g_ 8 * (xixj + c0x 0) + c0x 0 * UK 2 * b10_ 0;
   g[ 11 ]= g_ 9 * (xixj + c0x 1) + c0x 1 * UK 2 * b10_ 1;
   g[ 6 ]= c0x 0 * (xixj + c0x 0) + b10_ 0;
   g[ 7 ]= c0x 1 * (xixj + c0x 1) + b10_ 1;
   g[ 2 ]= xixj + c0x 0;
   g[ 3 ]= xixj + c0x 1;
   g[ 16 ]= UK 1;
   g[ 17 ]= UK 1;
   g[ 20 ]= c0y 0;
   g[ 21 ]= c0y 1;
   g[ 24 ]= c0y 0 * c0y 0 + b10_ 0;
   g[ 25 ]= c0y 1 * c0y 1 + b10_ 1;
   g[ 26 ]= g_ 24 * (yiyj + c0y 0) + c0y 0 * UK 2 * b10_ 0;
   g[ 27 ]= g_ 25 * (yiyj + c0y 1) + c0y 1 * UK 2 * b10_ 1;
   g[ 22 ]= c0y 0 * (yiyj + c0y 0) + b10_ 0;
   g[ 23 ]= c0y 1 * (yiyj + c0y 1) + b10_ 1;
   g[ 18 ]= yiyj + c0y 0;
   g[ 19 ]= yiyj + c0y 1;
   g[ 36 ]= c0z 0 * g_ 32;
   g[ 37 ]= c0z 1 * g_ 33;
   g[ 40 ]= c0z 0 * g_ 36 + b10_ 0 * g_ 32;
   g[ 41 ]= c0z 1 * g_ 37 + b10_ 1 * g_ 33;
   g[ 42 ]= g_ 40 * (zizj + c0z 0) + UK 2 * b10_ 0 * g_ 36;
   g[ 43 ]= g_ 41 * (zizj + c0z 1) + UK 2 * b10_ 1 * g_ 37;
   g[ 38 ]= g_ 36 * (zizj + c0z 0) + b10_ 0 * g_ 32;
   g[ 39 ]= g_ 37 * (zizj + c0z 1) + b10_ 1 * g_ 33;
   g[ 34 ]= g_ 32 * (zizj + c0z 0);
   g[ 35 ]= g_ 33 * (zizj + c0z 1)].
(** g2e.c:1819-1843 *)
Definition g0_2d4d_2000 : list ustmt :=
  [g[ 0 ]= UK 1;
   g[ 1 ]= UK 1;
   g[ 2 ]= c0x 0;
   g[ 3 ]= c0x 1;
   g[ 4 ]= c0x 0 * c0x 0 + b10_ 0;
   g[ 5 ]= c0x 1 * c0x 1 + b10_ 1;
   g[ 6 ]= UK 1;
   g[ 7 ]= UK 1;
   g[ 8 ]= c0y 0;
   g[ 9 ]= c0y 1;
   g[ 10 ]= c0y 0 * c0y 0 + b10_ 0;
   g[ 11 ]= c0y 1 * c0y 1 + b10_ 1;
   g[ 14 ]= c0z 0 * g_ 12;
   g[ 15 ]= c0z 1 * g_ 13;
   g[ 16 ]= c0z 0 * g_ 14 + b10_ 0 * g_ 12;
   g[ 17 ]= c0z 1 * g_ 15 + b10_ 1 * g_ 13].
(** g2e.c:1845-1891 *)
Definition g0_2d4d_2001 : list ustmt :=
  [g[ 0 ]= UK 1;
   g[ 1 ]= UK 1;
   g[ 2 ]= c0x 0;
   g[ 3 ]= c0x 1;
   g[ 4 ]= c0x 0 * c0x 0 + b10_ 0;
   g[ 5 ]= c0x 1 * c0x 1 + b10_ 1;
   g[ 6 ]= cpx 0;
   g[ 7 ]= cpx 1;
   g[ 8 ]= cpx 0 * c0x 0 + b00_ 0;
   g[ 9 ]= cpx 1 * c0x 1 + b00_ 1;
   g[ 10 ]= c0x 0 * (g_ 8 + b00_ 0) + b10_ 0 * cpx 0;
   g[ 11 ]= c0x 1 * (g_ 9 + b00_ 1) + b10_ 1 * cpx 1;
   g[ 12 ]= UK 1;
   g[ 13 ]= UK 1;
   g[ 14 ]= c0y 0;
   g[ 15 ]= c0y 1;
   g[ 16 ]= c0y 0 * c0y 0 + b10_ 0;
   g[ 17 ]= c0y 1 * c0y 1 + b10_ 1;
   g[ 18 ]= cpy 0;
   g[ 19 ]= cpy 1;
   g[ 20 ]= cpy 0 * c0y 0 + b00_ 0;
   g[ 21 ]= cpy 1 * c0y 1 + b00_ 1;
   g[ 22 ]= c0y 0 * (g_ 20 + b00_ 0) + b10_ 0 * cpy 0;
   g[ 23 ]= c0y 1 * (g_ 21 + b00_ 1) + b10_ 1 * cpy 1;
   g[ 26 ]= c0z 0 * g_ 24;
   g[ 27 ]= c0z 1 * g_ 25;
   g[ 28 ]= c0z 0 * g_ 26 + b10_ 0 * g_ 24;
   g[ 29 ]= c0z 1 * g_ 27 + b10_ 1 * g_ 25;
   g[ 30 ]= cpz 0 * g_ 24;
   g[ 31 ]= cpz 1 * g_ 25;
   g[ 32 ]= cpz 0 * g_ 26 + b00_ 0 * g_ 24;
   g[ 33 ]= cpz 1 * g_ 27 + b00_ 1 * g_ 25;
   g[ 34 ]= c0z 0 * g_ 32 + b10_ 0 * g_ 30 + b00_ 0 * g_ 26;
   g[ 35 ]= c0z 1 * g_ 33 + b10_ 1 * g_ 31 + b00_ 1 * g_ 27].
(** g2e.c:1893-1939 *)
Definition g0_2d4d_2010 : list ustmt :=
  [g[ 0 ]= UK 1;
   g[ 1 ]= UK 1;
   g[ 2 ]= c0x 0;
   g[ 3 ]= c0x 1;
   g[ 4 ]= c0x 0 * c0x 0 + b10_ 0;
   g[ 5 ]= c0x 1 * c0x 1 + b10_ 1;
   g[ 6 ]= cpx 0;
   g[ 7 ]= cpx 1;
   g[ 8 ]= cpx 0 * c0x 0 + b00_ 0;
   g[ 9 ]= cpx 1 * c0x 1 + b00_ 1;
   g[ 10 ]= c0x 0 * (g_ 8 + b00_ 0) + b10_ 0 * cpx 0;
   g[ 11 ]= c0x 1 * (g_ 9 + b00_ 1) + b10_ 1 * cpx 1;
   g[ 12 ]= UK 1;
   g[ 13 ]= UK 1;
   g[ 14 ]= c0y 0;
   g[ 15 ]= c0y 1;
   g[ 16 ]= c0y 0 * c0y 0 + b10_ 0;
   g[ 17 ]= c0y 1 * c0y 1 + b10_ 1;
   g[ 18 ]= cpy 0;
   g[ 19 ]= cpy 1;
   g[ 20 ]= cpy 0 * c0y 0 + b00_ 0;
   g[ 21 ]= cpy 1 * c0y 1 + b00_ 1;
   g[ 22 ]= c0y 0 * (g_ 20 + b00_ 0) + b10_ 0 * cpy 0;
   g[ 23 ]= c0y 1 * (g_ 21 + b00_ 1) + b10_ 1 * cpy 1;
   g[ 26 ]= c0z 0 * g_ 24;
   g[ 27 ]= c0z 1 * g_ 25;
   g[ 28 ]= c0z 0 * g_ 26 + b10_ 0 * g_ 24;
   g[ 29 ]= c0z 1 * g_ 27 + b10_ 1 * g_ 25;
   g[ 30 ]= cpz 0 * g_ 24;
   g[ 31 ]= cpz 1 * g_ 25;
   g[ 32 ]= cpz 0 * g_ 26 + b00_ 0 * g_ 24;
   g[ 33 ]= cpz 1 * g_ 27 + b00_ 1 * g_ 25;
   g[ 34 ]= c0z 0 * g_ 32 + b10_ 0 * g_ 30 + b00_ 0 * g_ 26;
   g[ 35 ]= c0z 1 * g_ 33 + b10_ 1 * g_ 31 + b00_ 1 * g_ 27].
(** g2e.c:1941-1986 *)
Definition g0_2d4d_2100 : list ustmt :=
  [g[ 0 ]= UK 1;
   g[ 1 ]= UK 1;
   g[ 2 ]= c0x 0;
   g[ 3 ]= c0x 1;
   g[ 4 ]= c0x 0 * c0x 0 + b10_ 0;
   g[ 5 ]= c0x 1 * c0x 1 + b10_ 1;
   g[ 12 ]= g_ 4 * (xixj + c0x 0) + c0x 0 * UK 2 * b10_ 0;
   g[ 13 ]= g_ 5 * (xixj + c0x 1) + c0x 1 * UK 2 * b10_ 1;
   g[ 10 ]= c0x 0 * (xixj + c0x 0) + b10_ 0;
   g[ 11 ]= c0x 1 * (xixj + c0x 1) + b10_ 1;
   g[ 8 ]= xixj + c0x 0;
   g[ 9 ]= xixj + c0x 1;
   g[ 16 ]= UK 1;
   g[ 17 ]= UK 1;
   g[ 18 ]= c0y 0;
   g[ 19 ]= c0y 1;
   g[ 20 ]= c0y 0 * c0y 0 + b10_ 0;
   g[ 21 ]= c0y 1 * c0y 1 + b10_ 1;
   g[ 28 ]= g_ 20 * (yiyj + c0y 0) + c0y 0 * UK 2 * b10_ 0;
   g[ 29 ]= g_ 21 * (yiyj + c0y 1) + c0y 1 * UK 2 * b10_ 1;
   g[ 26 ]= c0y 0 * (yiyj + c0y 0) + b10_ 0;
   g[ 27 ]= c0y 1 * (yiyj + c0y 1) + b10_ 1;
   g[ 24 ]= yiyj + c0y 0;
   g[ 25 ]= yiyj + c0y 1;
   g[ 34 ]= c0z 0 * g_ 32;
   g[ 35 ]= c0z 1 * g_ 33;
   g[ 36 ]= c0z 0 * g_ 34 + b10_ 0 * g_ 32;
   g[ 37 ]= c0z 1 * g_ 35 + b10_ 1 * g_ 33;
   g[ 44 ]= g_ 36 * (zizj + c0z 0) + UK 2 * b10_ 0 * g_ 34;
   g[ 45 ]= g_ 37 * (zizj + c0z 1) + UK 2 * b10_ 1 * g_ 35;
   g[ 42 ]= g_ 34 * (zizj + c0z 0) + b10_ 0 * g_ 32;
   g[ 43 ]= g_ 35 * (zizj + c0z 1) + b10_ 1 * g_ 33;
   g[ 40 ]= g_ 32 * (zizj + c0z 0);
   g[ 41 ]= g_ 33 * (zizj + c0z 1)].
(** g2e.c:1988-2018 *)
Definition g0_2d4d_3000 : list ustmt :=
  [g[ 0 ]= UK 1;
   g[ 1 ]= UK 1;
   g[ 2 ]= c0x 0;
   g[ 3 ]= c0x 1;
   g[ 4 ]= c0x 0 * c0x 0 + b10_ 0;
   g[ 5 ]= c0x 1 * c0x 1 + b10_ 1;
   g[ 6 ]= c0x 0 * (g_ 4 + UK 2 * b10_ 0);
   g[ 7 ]= c0x 1 * (g_ 5 + UK 2 * b10_ 1);
   g[ 8 ]= UK 1;
   g[ 9 ]= UK 1;
   g[ 10 ]= c0y 0;
   g[ 11 ]= c0y 1;
   g[ 12 ]= c0y 0 * c0y 0 + b10_ 0;
   g[ 13 ]= c0y 1 * c0y 1 + b10_ 1;
   g[ 14 ]= c0y 0 * (g_ 12 + UK 2 * b10_ 0);
   g[ 15 ]= c0y 1 * (g_ 13 + UK 2 * b10_ 1);
   g[ 18 ]= c0z 0 * g_ 16;
   g[ 19 ]= c0z 1 * g_ 17;
   g[ 20 ]= c0z 0 * g_ 18 + b10_ 0 * g_ 16;
   g[ 21 ]= c0z 1 * g_ 19 + b10_ 1 * g_ 17;
   g[ 22 ]= c0z 0 * g_ 20 + UK 2 * b10_ 0 * g_ 18;
   g[ 23 ]= c0z 1 * g_ 21 + UK 2 * b10_ 1 * g_ 19].

(** g2e.c:2020-2064 CINTg0_2e_2d4d_unrolled: the switch on type_ijkl.  None: no case matches (a message is
    printed and nothing is done). *)
Definition g0_unrolled_switch (type_ijkl : Z) : option (list ustmt) :=
  match type_ijkl with
  | 0 (* 0b00000000 *) => Some g0_2d4d_0000
  | 1 (* 0b00000001 *) => Some g0_2d4d_0001
  | 2 (* 0b00000010 *) => Some g0_2d4d_0002
  | 3 (* 0b00000011 *) => Some g0_2d4d_0003
  | 4 (* 0b00000100 *) => Some g0_2d4d_0010
  | 5 (* 0b00000101 *) => Some g0_2d4d_0011
  | 6 (* 0b00000110 *) => Some g0_2d4d_0012
  | 8 (* 0b00001000 *) => Some g0_2d4d_0020
  | 9 (* 0b00001001 *) => Some g0_2d4d_0021
  | 12 (* 0b00001100 *) => Some g0_2d4d_0030
  | 16 (* 0b00010000 *) => Some g0_2d4d_0100
  | 17 (* 0b00010001 *) => Some g0_2d4d_0101
  | 18 (* 0b00010010 *) => Some g0_2d4d_0102
  | 20 (* 0b00010100 *) => Some g0_2d4d_0110
  | 21 (* 0b00010101 *) => Some g0_2d4d_0111
  | 24 (* 0b00011000 *) => Some g0_2d4d_0120
  | 32 (* 0b00100000 *) => Some g0_2d4d_0200
  | 33 (* 0b00100001 *) => Some g0_2d4d_0201
  | 36 (* 0b00100100 *) => Some g0_2d4d_0210
  | 48 (* 0b00110000 *) => Some g0_2d4d_0300
  | 64 (* 0b01000000 *) => Some g0_2d4d_1000
  | 65 (* 0b01000001 *) => Some g0_2d4d_1001
  | 66 (* 0b01000010 *) => Some g0_2d4d_1002
  | 68 (* 0b01000100 *) => Some g0_2d4d_1010
  | 69 (* 0b01000101 *) => Some g0_2d4d_1011
  | 72 (* 0b01001000 *) => Some g0_2d4d_1020
  | 80 (* 0b01010000 *) => Some g0_2d4d_1100
  | 81 (* 0b01010001 *) => Some g0_2d4d_1101
  | 84 (* 0b01010100 *) => Some g0_2d4d_1110
  | 96 (* 0b01100000 *) => Some g0_2d4d_1200
  | 128 (* 0b10000000 *) => Some g0_2d4d_2000
  | 129 (* 0b10000001 *) => Some g0_2d4d_2001
  | 132 (* 0b10000100 *) => Some g0_2d4d_2010
  | 144 (* 0b10010000 *) => Some g0_2d4d_2100
  | 192 (* 0b11000000 *) => Some g0_2d4d_3000
  | _ => None
  end.
