(** TabModel.v — the coefficient tables as real numbers.

    Entry q of a table is the real number its decimal literal denotes.  Simplification:
    the compiler's rounding of each literal to the nearest double (a relative change of
    at most 2^-53) is not modelled. *)
From Verif Require Import Base OutModel TabSph TabJR TabJI.
From Coq Require Import Reals.

(** the literal p / 10^18 *)
Definition unitR (p : Z) : R := (IZR p / 10 ^ 18)%R.

(** The tables read at index q (cart2sph.c:21-806, 813-2172, 2176-3535).  Reads outside
    a table are the business of the transforms, which check them. *)
Definition sph_coef (q : Z) : R := unitR (nth (Z.to_nat q) g_trans_cart2sph_dec 0).
Definition jR_coef (q : Z) : R := unitR (nth (Z.to_nat q) g_trans_cart2jR_dec 0).
Definition jI_coef (q : Z) : R := unitR (nth (Z.to_nat q) g_trans_cart2jI_dec 0).

(** g1e.c:565-572 *)
Definition CINTcommon_fac_sp (l : Z) : R :=
  if l =? 0 then unitR 282094791773878143
  else if l =? 1 then unitR 488602511902919921 else 1%R.
