(** OpSpec.v — what the derivative and position operators are supposed to do, in terms of
    improper integrals over the real line. *)
From Coq Require Import Reals.
From Coquelicot Require Import Coquelicot.
From Verif Require Import Base EnvModel RecModel GaussInt.
Local Open Scope R_scope.

(** the radial-free one-dimensional Gaussian function of order [i] at centre [A] *)
Definition phi (a A : R) (i : nat) (x : R) : R := (x - A) ^ i * exp (- (a * ((x - A) * (x - A)))).

Inductive centre := CI | CJ | CK | CL.
Definition own {T} (c : centre) (i j k l : T) : T :=
  match c with CI => i | CJ => j | CK => k | CL => l end.
Definition others {T} (c : centre) (i j k l : T) : T * T * T :=
  match c with CI => (j, k, l) | CJ => (i, k, l) | CK => (i, j, l) | CL => (i, j, k) end.
Definition more (c c' : centre) : Z :=
  match c, c' with CI, CI => 1 | CJ, CJ => 1 | CK, CK => 1 | CL, CL => 1 | _, _ => 0 end%Z.

(** Block [o] of [m] holds, on all three axes, for [nr] roots and all orders up to [li..ll] (with
    [x] = 1 one more order of centre [c]), the integral of f_(own order) * rest, where [f] is the
    function on centre [c] and [rest] collects everything else (the functions on the other
    centres, the operator, the integral over the other electron, constants). *)
Definition held (gs : Z) (addr : Z -> Z -> Z -> Z -> Z -> Z) (nr : Z) (c : centre) (x : Z) (li lj lk ll : Z)
    (f : Z -> nat -> R -> R) (rest : Z -> Z -> nat * nat * nat -> R -> R) (o : Z) (m : arr R) : Prop :=
  forall ax n i j k l, (0 <= ax < 3)%Z -> (0 <= n < nr)%Z ->
    (Z.of_nat i <= li + x * more c CI)%Z -> (Z.of_nat j <= lj + x * more c CJ)%Z ->
    (Z.of_nat k <= lk + x * more c CK)%Z -> (Z.of_nat l <= ll + x * more c CL)%Z ->
    exists v, rd m (ax * gs + (o + addr n (Z.of_nat i) (Z.of_nat j) (Z.of_nat k) (Z.of_nat l)))%Z = Some v /\
      RIntLine (fun x => f ax (own c i j k l) x * rest ax n (others c i j k l) x) v.

(** [f'] is the derivative of [f] *)
Definition derivative (f f' : Z -> nat -> R -> R) : Prop := forall ax i x, is_derive (f ax i) x (f' ax i x).

(** Environments the one-electron operators are used with, and the largest orders of i, j, k. *)
Inductive env1 : envs -> Z -> Z -> Z -> Prop :=
| env1_1e ng li lj ci cj : (0 <= li + IINC ng)%Z -> (0 <= lj + JINC ng)%Z -> POS_E2 ng = 1%Z ->
    env1 (init_int1e ng li lj ci cj) (li + IINC ng)%Z (lj + JINC ng)%Z 0%Z
| env1_3c1e ng li lj lk ci cj ck : (0 <= li + IINC ng)%Z -> (0 <= lj + JINC ng)%Z -> (0 <= lk + KINC ng)%Z ->
    env1 (init_int3c1e ng li lj lk ci cj ck) (li + IINC ng)%Z (lj + JINC ng)%Z (lk + KINC ng)%Z.

(** The same for the two-electron operators (which the nuclear-attraction integrals use too). *)
Inductive env2 : envs -> Z -> Z -> Z -> Z -> Prop :=
| env2_2e om ng li lj lk ll ci cj ck cl :
    (0 <= li + IINC ng)%Z -> (0 <= lj + JINC ng)%Z -> (0 <= lk + KINC ng)%Z -> (0 <= ll + LINC ng)%Z ->
    env2 (init_int2e om ng li lj lk ll ci cj ck cl)
         (li + IINC ng)%Z (lj + JINC ng)%Z (lk + KINC ng)%Z (ll + LINC ng)%Z
| env2_yp ng li lj lk ll ci cj ck cl :
    (0 <= li + IINC ng)%Z -> (0 <= lj + JINC ng)%Z -> (0 <= lk + KINC ng)%Z -> (0 <= ll + LINC ng)%Z ->
    env2 (init_int2e_yp ng li lj lk ll ci cj ck cl)
         (li + IINC ng)%Z (lj + JINC ng)%Z (lk + KINC ng)%Z (ll + LINC ng)%Z
| env2_4c1e ng li lj lk ll ci cj ck cl :
    (0 <= li + IINC ng)%Z -> (0 <= lj + JINC ng)%Z -> (0 <= lk + KINC ng)%Z -> (0 <= ll + LINC ng)%Z ->
    env2 (init_int4c1e ng li lj lk ll ci cj ck cl)
         (li + IINC ng)%Z (lj + JINC ng)%Z (lk + KINC ng)%Z (ll + LINC ng)%Z
| env2_3c2e om ng li lj lk ci cj ck :
    (0 <= li + IINC ng)%Z -> (0 <= lj + JINC ng)%Z -> (0 <= lk + KINC ng)%Z ->
    env2 (init_int3c2e om ng li lj lk ci cj ck) (li + IINC ng)%Z (lj + JINC ng)%Z (lk + KINC ng)%Z 0%Z
| env2_2c2e om ng li lk ci ck : (0 <= li + IINC ng)%Z -> (0 <= lk + KINC ng)%Z ->
    env2 (init_int2c2e om ng li lk ci ck) (li + IINC ng)%Z 0%Z (lk + KINC ng)%Z 0%Z
| env2_1e ng li lj ci cj : (0 <= li + IINC ng)%Z -> (0 <= lj + JINC ng)%Z ->
    env2 (init_int1e ng li lj ci cj) (li + IINC ng)%Z (lj + JINC ng)%Z 0%Z 0%Z.

(** The modelled operators over the reals, by centre (g2e.c:4550-4886, g1e.c:320-495).  The C
    code computes the factor -2*exponent itself from envs->ai[0] etc.; the exponent is a parameter
    here. *)
Definition R_nabla_2e (c : centre) (a : R) (e : envs) : Z -> Z -> Z -> Z -> Z -> Z -> arr R -> option (arr R) :=
  match c with
  | CI => nabla1i_2e Rplus Rmult IZR e (-2 * a)
  | CJ => nabla1j_2e Rplus Rmult IZR e (-2 * a)
  | CK => nabla1k_2e Rplus Rmult IZR e (-2 * a)
  | CL => nabla1l_2e Rplus Rmult IZR e (-2 * a)
  end.
Definition R_x1_2e (c : centre) (r : Z -> R) (e : envs) : Z -> Z -> Z -> Z -> Z -> Z -> arr R -> option (arr R) :=
  match c with
  | CI => x1i_2e Rplus Rmult e r
  | CJ => x1j_2e Rplus Rmult e r
  | CK => x1k_2e Rplus Rmult e r
  | CL => x1l_2e Rplus Rmult e r
  end.
Definition addr2 (e : envs) (n i j k l : Z) : Z :=
  (n + g_stride_i e * i + g_stride_k e * k + g_stride_l e * l + g_stride_j e * j)%Z.

(** one-electron routines have no operator on a fourth centre *)
Definition R_nabla_1e (c : centre) (a : R) (e : envs) : Z -> Z -> Z -> Z -> Z -> arr R -> option (arr R) :=
  match c with
  | CI => nabla1i_1e Rplus Rmult IZR e (-2 * a)
  | CJ => nabla1j_1e Rplus Rmult IZR e (-2 * a)
  | CK => nabla1k_1e Rplus Rmult IZR e (-2 * a)
  | CL => fun _ _ _ _ _ _ => None
  end.
Definition R_x1_1e (c : centre) (r : Z -> R) (e : envs) : Z -> Z -> Z -> Z -> Z -> arr R -> option (arr R) :=
  match c with
  | CI => x1i_1e Rplus Rmult e r
  | CJ => x1j_1e Rplus Rmult e r
  | CK => x1k_1e Rplus Rmult e r
  | CL => fun _ _ _ _ _ _ => None
  end.
Definition addr1 (e : envs) (n i j k l : Z) : Z := (i + g_stride_j e * j + g_stride_k e * k)%Z.

(** Blocks of grid points (g1e_grids.c:340-481): only the two basis functions are differentiated. *)
Definition R_nabla_grids (c : centre) (a : R) (e : envs) (bg : Z) : Z -> Z -> Z -> Z -> arr R -> option (arr R) :=
  match c with
  | CI => nabla1i_grids Rplus Rmult IZR e bg (-2 * a)
  | CJ => nabla1j_grids Rplus Rmult IZR e bg (-2 * a)
  | _ => fun _ _ _ _ _ => None
  end.
Definition R_x1_grids (c : centre) (r : Z -> R) (e : envs) (bg : Z) : Z -> Z -> Z -> Z -> arr R -> option (arr R) :=
  match c with
  | CI => x1i_grids Rplus Rmult e bg r
  | CJ => x1j_grids Rplus Rmult e bg r
  | _ => fun _ _ _ _ _ => None
  end.
(** cell of grid point [g] of the block; points are innermost, then roots *)
Definition addrg (e : envs) (g n i j k l : Z) : Z :=
  (g + 104 * n + g_stride_i e * i + g_stride_j e * j)%Z.
