(** TabSpec.v — what the coefficient table should contain: real solid harmonics.

    Row m of block l gives a polynomial in x, y, z: the coefficients of the degree-l
    monomials in the order of the Cartesian components (C03).  Nothing here mentions
    the model's transforms. *)
From Verif Require Import Base BasSpec OutSpec.
From Coq Require Import Reals.
From Coquelicot Require Import Coquelicot.
Local Open Scope R_scope.

Definition mono (t : triple) (x y z : R) : R :=
  x ^ Z.to_nat (fst (fst t)) * y ^ Z.to_nat (snd (fst t)) * z ^ Z.to_nat (snd t).

(** the polynomial with coefficients [c] *)
Definition row_poly (l : Z) (c : Z -> R) (x y z : R) : R :=
  lsum 0 Rplus ((l + 1) * (l + 2) / 2)%Z
    (fun a => c a * mono (nth (Z.to_nat a) (cart_list l) (0, 0, 0)%Z) x y z).

Definition laplacian (f : R -> R -> R -> R) (x y z : R) : R :=
  Derive_n (fun t => f t y z) 2 x + Derive_n (fun t => f x t z) 2 y + Derive_n (fun t => f x y t) 2 z.

(** [f] integrated over the unit sphere *)
Definition over_sphere (f : R -> R -> R -> R) : R :=
  RInt (fun th => RInt (fun ph => f (sin th * cos ph) (sin th * sin ph) (cos th) * sin th) 0 (2 * PI)) 0 PI.
