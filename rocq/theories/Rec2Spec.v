(** Rec2Spec.v — what the two-electron arrays should hold. *)
From Coq Require Import Reals.
From Verif Require Import Base EnvModel RecSpec Gauss2Int.
Local Open Scope R_scope.

(** a cell of the array and its orders on the four centres *)
Definition adrs (e : envs) (n i j k l : Z) : Z :=
  (n + g_stride_i e * i + g_stride_k e * k + g_stride_l e * l + g_stride_j e * j)%Z.
Definition inbox (e : envs) (n i j k l : Z) : Prop :=
  (0 <= n < nrys_roots e /\ 0 <= i <= li_ceil e /\ 0 <= j <= lj_ceil e /\ 0 <= k <= lk_ceil e /\ 0 <= l <= ll_ceil e)%Z.

(** [RIntPlane f l] (Gauss2Int): the iterated improper integral of f over the plane is l. *)
Definition eri_weight (ai aj ak al r A B C D x y : R) : R :=
  exp (- (ai * ((x - A) * (x - A))) - aj * ((x - B) * (x - B)) - ak * ((y - C) * (y - C)) - al * ((y - D) * (y - D))
       - r * ((x - y) * (x - y))).

(** Every cell of axis ax, root n, orders (i,j,k,l) is the axis' origin value times the normalised
    plane integral of (x-A)^i (x-B)^j (y-C)^k (y-D)^l under the Gaussian weight coupling the two
    coordinates by r = a0*u_n. *)
Definition eri_cells (e : envs) (ai aj ak al : R) (A B C D : Z -> R) (u w : Z -> R) (g : arr R) : Prop :=
  forall ax n i j k l, (0 <= ax < 3)%Z ->
    inbox e n (Z.of_nat i) (Z.of_nat j) (Z.of_nat k) (Z.of_nat l) ->
    let r := (ai + aj) * (ak + al) / ((ai + aj) + (ak + al)) * u n in
    let E := eri_weight ai aj ak al r (A ax) (B ax) (C ax) (D ax) in
    exists v I0 I,
      rd g (ax * g_size e + adrs e n (Z.of_nat i) (Z.of_nat j) (Z.of_nat k) (Z.of_nat l))%Z = Some v /\
      RIntPlane E I0 /\ 0 < I0 /\
      RIntPlane (fun x y => (x - A ax) ^ i * (x - B ax) ^ j * ((y - C ax) ^ k * (y - D ax) ^ l) * E x y) I /\
      v = origin 1 (w n) ax / I0 * I.

(** The coupling of a damped node: t^2 = u/(1+u) is multiplied by theta. *)
Definition shrunk (theta u u' : R) : Prop := 0 <= u' /\ u' / (1 + u') = theta * (u / (1 + u)).

(** Nodes U and weights W for the operators 1/r (omega = 0), erf(omega r)/r (omega > 0) and
    erfc(omega r)/r (omega < 0), given root finders rys (argument n, x) and srys (n, x, lower
    limit). *)
Definition nodes_2e (e : envs) (ai aj ak al : R) (rij rkl : Z -> R) (rys : Z -> R -> (Z -> R) * (Z -> R))
    (srys : Z -> R -> R -> (Z -> R) * (Z -> R))
    (omega fac : R) (U W : Z -> R) : Prop :=
  let aij := ai + aj in
  let akl := ak + al in
  let a0 := aij * akl / (aij + akl) in
  let x := a0 * ((rij 0%Z - rkl 0%Z) * (rij 0%Z - rkl 0%Z) + (rij 1%Z - rkl 1%Z) * (rij 1%Z - rkl 1%Z)
                 + (rij 2%Z - rkl 2%Z) * (rij 2%Z - rkl 2%Z)) in
  let c := fac / (aij * akl * sqrt (aij + akl)) in
  let nr := nrys_roots e in
  let ro := rys_order e in
  let theta := omega * omega / (omega * omega + a0) in
  forall n, (0 <= n < nr)%Z ->
    (omega = 0 -> U n = fst (rys nr x) n /\ W n = c * snd (rys nr x) n) /\
    (0 < omega -> shrunk theta (fst (rys nr (theta * x)) n) (U n) /\
                  W n = c * sqrt theta * snd (rys nr (theta * x)) n) /\
    (omega < 0 -> ro = nr -> U n = fst (srys nr x (sqrt theta)) n /\ W n = c * snd (srys nr x (sqrt theta)) n) /\
    (omega < 0 -> ro <> nr ->
       ((n < ro)%Z -> U n = fst (rys ro x) n /\ W n = c * snd (rys ro x) n) /\
       ((ro <= n)%Z -> shrunk theta (fst (rys ro (theta * x)) (n - ro)%Z) (U n) /\
                       W n = - (c * sqrt theta * snd (rys ro (theta * x)) (n - ro)%Z))).

(** Nodes for exp(-zeta r)/r (yp) and exp(-zeta r) (otherwise); stg takes (n, x, ua) and returns
    t^2. *)
Definition nodes_f12 (e : envs) (ai aj ak al : R) (rij rkl : Z -> R) (rys : Z -> R -> (Z -> R) * (Z -> R))
    (stg : Z -> R -> R -> (Z -> R) * (Z -> R))
    (yp : bool) (zeta fac : R) (U W : Z -> R) : Prop :=
  let aij := ai + aj in
  let akl := ak + al in
  let a0 := aij * akl / (aij + akl) in
  let x := a0 * ((rij 0%Z - rkl 0%Z) * (rij 0%Z - rkl 0%Z) + (rij 1%Z - rkl 1%Z) * (rij 1%Z - rkl 1%Z)
                 + (rij 2%Z - rkl 2%Z) * (rij 2%Z - rkl 2%Z)) in
  let c := fac / (aij * akl * sqrt (aij + akl)) in
  let nr := nrys_roots e in
  let ua := zeta * zeta / (4 * a0) in
  forall n, (0 <= n < nr)%Z ->
    (0 < zeta -> 0 <= U n /\ U n / (1 + U n) = fst (stg nr x ua) n /\
       W n = c * snd (stg nr x ua) n *
             (if yp then fst (stg nr x ua) n else (1 - fst (stg nr x ua) n) * (zeta / (2 * a0)))) /\
    (zeta <= 0 -> U n = fst (rys nr x) n /\ W n = c * snd (rys nr x) n).
