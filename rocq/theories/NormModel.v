(** NormModel.v — radial normalisation of a Gaussian (/repo/src/misc.c), over the reals. *)
From Coq Require Import Reals ZArith.
Local Open Scope R_scope.

Section Norm.
  (** the C library's log-gamma *)
  Variable lgamma : R -> R.

  (** misc.c 72-76, [_gaussian_int]; alpha > 0, so pow is [Rpower]; FINT overflow of n+1 and
      rounding are not modelled *)
  Definition gaussian_int (n : Z) (alpha : R) : R :=
    let n1 := IZR (n + 1) * (5 / 10) in
    exp (lgamma n1) / (2 * Rpower alpha n1).

  (** misc.c 86-93, [CINTgto_norm] *)
  Definition CINTgto_norm (n : Z) (a : R) : R :=
    1 / sqrt (gaussian_int (n * 2 + 2) (2 * a)).
End Norm.
