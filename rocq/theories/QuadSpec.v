(** QuadSpec.v — what a quadrature of the Rys type is for, and the integrals over the operators
    1/r, erf(omega r)/r and erfc(omega r)/r written with Gaussians. *)
From Coq Require Import Reals.
From Coquelicot Require Import Coquelicot.
From Verif Require Import Base GaussInt Gauss2Int.
Local Open Scope R_scope.

Notation rsumz := (lsum 0 Rplus).

(** n nodes (t^2) and weights that give the moments of exp(-X t^2) on [lo,1] up to the order
    2n-1: what the root finders promise. *)
Definition rule (n : Z) (X lo : R) (t2 w : Z -> R) : Prop :=
  forall m : nat, (Z.of_nat m <= 2 * n - 1)%Z ->
    rsumz n (fun k => w k * t2 k ^ m) = RInt (fun t => t ^ (2 * m) * exp (- (X * (t * t)))) lo 1.

(** The operators: the function of s is integrated over [0,oo), [0,omega] and [omega,oo).  With
    f s = 2/sqrt(pi) exp(-s^2 r^2) this gives 1/r, erf(omega r)/r and erfc(omega r)/r. *)
Inductive coul := Coulomb | Erf (omega : R) | Erfc (omega : R).
Definition over_s (op : coul) (f : R -> R) (V : R) : Prop :=
  match op with
  | Coulomb => is_RInt_gen f (at_point 0) (Rbar_locally p_infty) V
  | Erf omega => is_RInt f 0 omega V
  | Erfc omega => is_RInt_gen f (at_point omega) (Rbar_locally p_infty) V
  end.

(** Two electrons: V is the integral of f_0(x_0,y_0) f_1(x_1,y_1) f_2(x_2,y_2) op(|x-y|), the integral
    over s (of the Gaussian representation of op) being done last. *)
Definition coul2 (op : coul) (f : Z -> R -> R -> R) (V : R) : Prop :=
  exists I : Z -> R -> R,
    (forall ax s, (0 <= ax < 3)%Z -> RIntPlane (fun x y => f ax x y * exp (- (s * s * ((x - y) * (x - y))))) (I ax s)) /\
    over_s op (fun s => 2 / sqrt PI * (I 0%Z s * I 1%Z s * I 2%Z s)) V.

(** One electron in the field of a centre at C. *)
Definition coul1 (op : coul) (C : Z -> R) (f : Z -> R -> R) (V : R) : Prop :=
  exists I : Z -> R -> R,
    (forall ax s, (0 <= ax < 3)%Z -> RIntLine (fun x => f ax x * exp (- (s * s * ((x - C ax) * (x - C ax))))) (I ax s)) /\
    over_s op (fun s => 2 / sqrt PI * (I 0%Z s * I 1%Z s * I 2%Z s)) V.

(** The product of four Gaussian functions with powers of the distances from their centres, on one
    axis; the powers are given by centre (0-3: i, j, k, l). *)
Definition four (ai aj ak al A B C D : R) (i j k l : nat) (x y : R) : R :=
  (x - A) ^ i * (x - B) ^ j * ((y - C) ^ k * (y - D) ^ l) *
  exp (- (ai * ((x - A) * (x - A))) - aj * ((x - B) * (x - B)) - ak * ((y - C) * (y - C)) - al * ((y - D) * (y - D))).

Definition dist2 (A B : Z -> R) : R :=
  (A 0%Z - B 0%Z) * (A 0%Z - B 0%Z) + (A 1%Z - B 1%Z) * (A 1%Z - B 1%Z) + (A 2%Z - B 2%Z) * (A 2%Z - B 2%Z).
(** prefactor exp(-a b/(a+b) |A-B|^2) of a product of two Gaussians *)
Definition overlap_factor (a b : R) (A B : Z -> R) : R := exp (- (a * b / (a + b) * dist2 A B)).

(** t^2 of a root u *)
Definition t2_of (u : R) : R := u / (1 + u).

(** The operator selected by the range-separation parameter *)
Definition op_of (omega : R) : coul :=
  if Req_EM_T omega 0 then Coulomb else if Rlt_dec 0 omega then Erf omega else Erfc (- omega).

(** The root finders used for an array with nr roots (ro in each of the two sets if they differ)
    give the moments: rys for [0,1], srys for a positive lower limit.  x is the exponent. *)
Definition rules_2e (rys : Z -> R -> (Z -> R) * (Z -> R)) (srys : Z -> R -> R -> (Z -> R) * (Z -> R))
    (nr ro : Z) (omega a0 x : R) : Prop :=
  let good n y lo (uw : (Z -> R) * (Z -> R)) := rule n y lo (fun k => t2_of (fst uw k)) (snd uw) in
  let theta := omega * omega / (omega * omega + a0) in
  (omega = 0 -> good nr x 0 (rys nr x)) /\
  (0 < omega -> good nr (theta * x) 0 (rys nr (theta * x))) /\
  (omega < 0 -> ro = nr -> good nr x (sqrt theta) (srys nr x (sqrt theta))) /\
  (omega < 0 -> ro <> nr -> good ro x 0 (rys ro x) /\ good ro (theta * x) 0 (rys ro (theta * x))).

(** The product of two Gaussian functions with powers, on one axis. *)
Definition two (ai aj A B : R) (i j : nat) (x : R) : R :=
  (x - A) ^ i * (x - B) ^ j * exp (- (ai * ((x - A) * (x - A))) - aj * ((x - B) * (x - B))).

(** The potential of a unit charge: a point, or a Gaussian distribution of exponent zeta. *)
Definition nuc_op (zeta : R) : coul := if Rlt_dec 0 zeta then Erf (sqrt zeta) else Coulomb.
