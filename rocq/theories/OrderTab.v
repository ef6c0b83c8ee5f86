(** OrderTab.v — the table JACOBI_COEF_ORDER (src/rys_wheeler.c:3168-3233), copied row by row. *)
From Coq Require Import ZArith List.
Import ListNotations.
Open Scope Z_scope.
Definition order_rows : list (list Z) := [
[0];
[0; 1];
[0; 1; 2];
[0; 1; 3; 2];
[0; 1; 4; 2; 3];
[0; 1; 2; 5; 3; 4];
[0; 1; 2; 6; 3; 5; 4];
[0; 1; 2; 3; 7; 4; 6; 5];
[0; 1; 2; 3; 8; 4; 7; 5; 6];
[0; 1; 2; 3; 9; 4; 8; 5; 6; 7];
[0; 1; 2; 3; 4; 10; 5; 9; 6; 8; 7];
[0; 1; 2; 3; 4; 11; 5; 10; 6; 9; 7; 8];
[0; 1; 2; 3; 4; 12; 5; 6; 11; 7; 10; 8; 9];
[0; 1; 2; 3; 4; 5; 13; 6; 12; 7; 11; 8; 10; 9];
[0; 1; 2; 3; 4; 5; 14; 6; 13; 7; 8; 12; 9; 11; 10];
[0; 1; 2; 3; 4; 5; 15; 6; 7; 14; 8; 13; 9; 12; 10; 11];
[0; 1; 2; 3; 4; 5; 6; 16; 7; 15; 8; 14; 9; 13; 10; 12; 11];
[0; 1; 2; 3; 4; 5; 6; 17; 7; 16; 8; 9; 15; 10; 14; 11; 13; 12];
[0; 1; 2; 3; 4; 5; 6; 18; 7; 8; 17; 9; 16; 10; 15; 11; 14; 12; 13];
[0; 1; 2; 3; 4; 5; 6; 7; 19; 8; 18; 9; 17; 10; 11; 16; 12; 15; 13; 14];
[0; 1; 2; 3; 4; 5; 6; 7; 20; 8; 9; 19; 10; 18; 11; 17; 12; 16; 13; 15; 14];
[0; 1; 2; 3; 4; 5; 6; 7; 21; 8; 9; 20; 10; 19; 11; 18; 12; 17; 13; 14; 16; 15];
[0; 1; 2; 3; 4; 5; 6; 7; 8; 22; 9; 21; 10; 11; 20; 12; 19; 13; 18; 14; 17; 15; 16];
[0; 1; 2; 3; 4; 5; 6; 7; 8; 23; 9; 10; 22; 11; 21; 12; 20; 13; 19; 14; 18; 15; 17; 16];
[0; 1; 2; 3; 4; 5; 6; 7; 8; 24; 9; 10; 23; 11; 22; 12; 21; 13; 14; 20; 15; 19; 16; 18; 17];
[0; 1; 2; 3; 4; 5; 6; 7; 8; 9; 25; 10; 24; 11; 12; 23; 13; 22; 14; 21; 15; 20; 16; 19; 17; 18];
[0; 1; 2; 3; 4; 5; 6; 7; 8; 9; 26; 10; 11; 25; 12; 24; 13; 23; 14; 22; 15; 16; 21; 17; 20; 18; 19];
[0; 1; 2; 3; 4; 5; 6; 7; 8; 9; 27; 10; 11; 26; 12; 25; 13; 14; 24; 15; 23; 16; 22; 17; 21; 18; 20; 19];
[0; 1; 2; 3; 4; 5; 6; 7; 8; 9; 10; 28; 11; 27; 12; 13; 26; 14; 25; 15; 24; 16; 23; 17; 22; 18; 21; 19; 20];
[0; 1; 2; 3; 4; 5; 6; 7; 8; 9; 10; 29; 11; 12; 28; 13; 27; 14; 26; 15; 16; 25; 17; 24; 18; 23; 19; 22; 20; 21];
[0; 1; 2; 3; 4; 5; 6; 7; 8; 9; 10; 30; 11; 12; 29; 13; 28; 14; 15; 27; 16; 26; 17; 25; 18; 24; 19; 23; 20; 22; 21];
[0; 1; 2; 3; 4; 5; 6; 7; 8; 9; 10; 11; 31; 12; 30; 13; 14; 29; 15; 28; 16; 27; 17; 26; 18; 19; 25; 20; 24; 21; 23; 22];
[0; 1; 2; 3; 4; 5; 6; 7; 8; 9; 10; 11; 32; 12; 13; 31; 14; 30; 15; 29; 16; 17; 28; 18; 27; 19; 26; 20; 25; 21; 24; 22; 23];
[0; 1; 2; 3; 4; 5; 6; 7; 8; 9; 10; 11; 33; 12; 13; 32; 14; 15; 31; 16; 30; 17; 29; 18; 28; 19; 27; 20; 26; 21; 25; 22; 23; 24];
[0; 1; 2; 3; 4; 5; 6; 7; 8; 9; 10; 11; 12; 34; 13; 33; 14; 15; 32; 16; 31; 17; 30; 18; 19; 29; 20; 28; 21; 27; 22; 26; 23; 25; 24];
[0; 1; 2; 3; 4; 5; 6; 7; 8; 9; 10; 11; 12; 35; 13; 14; 34; 15; 33; 16; 17; 32; 18; 31; 19; 30; 20; 29; 21; 28; 22; 27; 23; 26; 24; 25];
[0; 1; 2; 3; 4; 5; 6; 7; 8; 9; 10; 11; 12; 36; 13; 14; 35; 15; 16; 34; 17; 33; 18; 32; 19; 31; 20; 21; 30; 22; 29; 23; 28; 24; 27; 25; 26];
[0; 1; 2; 3; 4; 5; 6; 7; 8; 9; 10; 11; 12; 13; 37; 14; 15; 36; 16; 35; 17; 34; 18; 19; 33; 20; 32; 21; 31; 22; 30; 23; 29; 24; 28; 25; 27; 26];
[0; 1; 2; 3; 4; 5; 6; 7; 8; 9; 10; 11; 12; 13; 38; 14; 15; 37; 16; 36; 17; 18; 35; 19; 34; 20; 33; 21; 32; 22; 31; 23; 30; 24; 25; 29; 26; 28; 27];
[0; 1; 2; 3; 4; 5; 6; 7; 8; 9; 10; 11; 12; 13; 14; 39; 15; 38; 16; 17; 37; 18; 36; 19; 35; 20; 34; 21; 22; 33; 23; 32; 24; 31; 25; 30; 26; 29; 27; 28];
[0; 1; 2; 3; 4; 5; 6; 7; 8; 9; 10; 11; 12; 13; 14; 40; 15; 16; 39; 17; 38; 18; 37; 19; 20; 36; 21; 35; 22; 34; 23; 33; 24; 32; 25; 31; 26; 30; 27; 29; 28];
[0; 1; 2; 3; 4; 5; 6; 7; 8; 9; 10; 11; 12; 13; 14; 41; 15; 16; 40; 17; 39; 18; 19; 38; 20; 37; 21; 36; 22; 35; 23; 24; 34; 25; 33; 26; 32; 27; 31; 28; 30; 29];
[0; 1; 2; 3; 4; 5; 6; 7; 8; 9; 10; 11; 12; 13; 14; 15; 42; 16; 41; 17; 18; 40; 19; 39; 20; 38; 21; 22; 37; 23; 36; 24; 35; 25; 34; 26; 33; 27; 32; 28; 31; 29; 30];
[0; 1; 2; 3; 4; 5; 6; 7; 8; 9; 10; 11; 12; 13; 14; 15; 43; 16; 17; 42; 18; 41; 19; 40; 20; 21; 39; 22; 38; 23; 37; 24; 36; 25; 35; 26; 27; 34; 28; 33; 29; 32; 30; 31];
[0; 1; 2; 3; 4; 5; 6; 7; 8; 9; 10; 11; 12; 13; 14; 15; 44; 16; 17; 43; 18; 42; 19; 20; 41; 21; 40; 22; 39; 23; 24; 38; 25; 37; 26; 36; 27; 35; 28; 34; 29; 33; 30; 32; 31];
[0; 1; 2; 3; 4; 5; 6; 7; 8; 9; 10; 11; 12; 13; 14; 15; 16; 45; 17; 44; 18; 19; 43; 20; 42; 21; 41; 22; 23; 40; 24; 39; 25; 38; 26; 37; 27; 36; 28; 35; 29; 34; 30; 33; 31; 32];
[0; 1; 2; 3; 4; 5; 6; 7; 8; 9; 10; 11; 12; 13; 14; 15; 16; 46; 17; 18; 45; 19; 44; 20; 21; 43; 22; 42; 23; 41; 24; 40; 25; 39; 26; 27; 38; 28; 37; 29; 36; 30; 35; 31; 34; 32; 33];
[0; 1; 2; 3; 4; 5; 6; 7; 8; 9; 10; 11; 12; 13; 14; 15; 16; 47; 17; 18; 46; 19; 45; 20; 21; 44; 22; 43; 23; 42; 24; 25; 41; 26; 40; 27; 39; 28; 38; 29; 37; 30; 36; 31; 35; 32; 34; 33];
[0; 1; 2; 3; 4; 5; 6; 7; 8; 9; 10; 11; 12; 13; 14; 15; 16; 17; 48; 18; 47; 19; 20; 46; 21; 45; 22; 23; 44; 24; 43; 25; 42; 26; 41; 27; 40; 28; 39; 29; 30; 38; 31; 37; 32; 36; 33; 35; 34];
[0; 1; 2; 3; 4; 5; 6; 7; 8; 9; 10; 11; 12; 13; 14; 15; 16; 17; 49; 18; 19; 48; 20; 47; 21; 22; 46; 23; 45; 24; 44; 25; 43; 26; 27; 42; 28; 41; 29; 40; 30; 39; 31; 38; 32; 37; 33; 36; 34; 35];
[0; 1; 2; 3; 4; 5; 6; 7; 8; 9; 10; 11; 12; 13; 14; 15; 16; 17; 50; 18; 19; 49; 20; 21; 48; 22; 47; 23; 46; 24; 25; 45; 26; 44; 27; 43; 28; 42; 29; 41; 30; 40; 31; 39; 32; 33; 38; 34; 37; 35; 36];
[0; 1; 2; 3; 4; 5; 6; 7; 8; 9; 10; 11; 12; 13; 14; 15; 16; 17; 18; 51; 19; 50; 20; 21; 49; 22; 48; 23; 24; 47; 25; 46; 26; 45; 27; 44; 28; 29; 43; 30; 42; 31; 41; 32; 40; 33; 39; 34; 38; 35; 37; 36];
[0; 1; 2; 3; 4; 5; 6; 7; 8; 9; 10; 11; 12; 13; 14; 15; 16; 17; 18; 52; 19; 20; 51; 21; 50; 22; 23; 49; 24; 48; 25; 47; 26; 27; 46; 28; 45; 29; 44; 30; 43; 31; 42; 32; 41; 33; 40; 34; 39; 35; 38; 36; 37];
[0; 1; 2; 3; 4; 5; 6; 7; 8; 9; 10; 11; 12; 13; 14; 15; 16; 17; 18; 53; 19; 20; 52; 21; 22; 51; 23; 50; 24; 49; 25; 26; 48; 27; 47; 28; 46; 29; 45; 30; 44; 31; 32; 43; 33; 42; 34; 41; 35; 40; 36; 39; 37; 38];
[0; 1; 2; 3; 4; 5; 6; 7; 8; 9; 10; 11; 12; 13; 14; 15; 16; 17; 18; 19; 54; 20; 53; 21; 22; 52; 23; 51; 24; 25; 50; 26; 49; 27; 48; 28; 47; 29; 30; 46; 31; 45; 32; 44; 33; 43; 34; 42; 35; 41; 36; 40; 37; 39; 38];
[0; 1; 2; 3; 4; 5; 6; 7; 8; 9; 10; 11; 12; 13; 14; 15; 16; 17; 18; 19; 55; 20; 21; 54; 22; 53; 23; 24; 52; 25; 51; 26; 50; 27; 28; 49; 29; 48; 30; 47; 31; 46; 32; 45; 33; 44; 34; 35; 43; 36; 42; 37; 41; 38; 40; 39];
[0; 1; 2; 3; 4; 5; 6; 7; 8; 9; 10; 11; 12; 13; 14; 15; 16; 17; 18; 19; 56; 20; 21; 55; 22; 23; 54; 24; 53; 25; 52; 26; 27; 51; 28; 50; 29; 49; 30; 48; 31; 32; 47; 33; 46; 34; 45; 35; 44; 36; 43; 37; 42; 38; 41; 39; 40];
[0; 1; 2; 3; 4; 5; 6; 7; 8; 9; 10; 11; 12; 13; 14; 15; 16; 17; 18; 19; 20; 57; 21; 56; 22; 23; 55; 24; 54; 25; 26; 53; 27; 52; 28; 51; 29; 30; 50; 31; 49; 32; 48; 33; 47; 34; 46; 35; 45; 36; 44; 37; 43; 38; 42; 39; 41; 40];
[0; 1; 2; 3; 4; 5; 6; 7; 8; 9; 10; 11; 12; 13; 14; 15; 16; 17; 18; 19; 20; 58; 21; 22; 57; 23; 56; 24; 25; 55; 26; 54; 27; 53; 28; 29; 52; 30; 51; 31; 50; 32; 49; 33; 48; 34; 35; 47; 36; 46; 37; 45; 38; 44; 39; 43; 40; 42; 41];
[0; 1; 2; 3; 4; 5; 6; 7; 8; 9; 10; 11; 12; 13; 14; 15; 16; 17; 18; 19; 20; 59; 21; 22; 58; 23; 24; 57; 25; 56; 26; 27; 55; 28; 54; 29; 53; 30; 52; 31; 32; 51; 33; 50; 34; 49; 35; 48; 36; 47; 37; 46; 38; 45; 39; 44; 40; 43; 41; 42];
[0; 1; 2; 3; 4; 5; 6; 7; 8; 9; 10; 11; 12; 13; 14; 15; 16; 17; 18; 19; 20; 21; 60; 22; 59; 23; 24; 58; 25; 26; 57; 27; 56; 28; 55; 29; 54; 30; 31; 53; 32; 52; 33; 51; 34; 50; 35; 49; 36; 48; 37; 38; 47; 39; 46; 40; 45; 41; 44; 42; 43];
[0; 1; 2; 3; 4; 5; 6; 7; 8; 9; 10; 11; 12; 13; 14; 15; 16; 17; 18; 19; 20; 21; 61; 22; 23; 60; 24; 59; 25; 26; 58; 27; 57; 28; 29; 56; 30; 55; 31; 54; 32; 53; 33; 52; 34; 35; 51; 36; 50; 37; 49; 38; 48; 39; 47; 40; 46; 41; 45; 42; 44; 43];
[0; 1; 2; 3; 4; 5; 6; 7; 8; 9; 10; 11; 12; 13; 14; 15; 16; 17; 18; 19; 20; 21; 62; 22; 23; 61; 24; 25; 60; 26; 59; 27; 28; 58; 29; 57; 30; 56; 31; 55; 32; 33; 54; 34; 53; 35; 52; 36; 51; 37; 50; 38; 49; 39; 48; 40; 47; 41; 42; 46; 43; 45; 44];
[0; 1; 2; 3; 4; 5; 6; 7; 8; 9; 10; 11; 12; 13; 14; 15; 16; 17; 18; 19; 20; 21; 22; 63; 23; 62; 24; 25; 61; 26; 27; 60; 28; 59; 29; 58; 30; 31; 57; 32; 56; 33; 55; 34; 54; 35; 53; 36; 37; 52; 38; 51; 39; 50; 40; 49; 41; 48; 42; 47; 43; 46; 44; 45]].
