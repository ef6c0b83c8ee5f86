(** RecRModel.v — the real-valued parameters handed to the one-electron recurrences. *)
From Coq Require Import Reals.
From Verif Require Import Base EnvModel RecModel.
Local Open Scope R_scope.

(** optimizer.c:321-331 CINTset_pairdata: centre and prefactor of a primitive pair
    that is not screened.  [rr] is SQUARE(rirj). *)
Definition pair_rij (ai aj : R) (ri rj : Z -> R) (ax : Z) : R :=
  ri ax + aj * (1 / (ai + aj)) * (rj ax - ri ax).
Definition pair_eij (rr ai aj : R) : R := exp (- (rr * ai * aj * (1 / (ai + aj)))).

(** misc.h:13 SQUARE of the difference of two centres *)
Definition square3 (r : Z -> R) : R := r 0%Z * r 0%Z + r 1%Z * r 1%Z + r 2%Z * r 2%Z.

(** g1e.c:124-183 with the values of lines 129-133 and 153: SQRTPI and M_PI are the
    exact constants. *)
Definition R_ovlp (e : envs) (fac ai aj : R) (ri rj : Z -> R) (g : arr R) : option (arr R) :=
  let aij := ai + aj in
  g1e_ovlp 1 Rplus Rmult Rminus IZR e (fac * sqrt PI * PI / (aij * sqrt aij)) (/ 2 / aij)
    (pair_rij ai aj ri rj) ri rj g.

(** g1e.c:189-205 CINTnuc_mod as a function of the charge distribution's exponent. *)
Definition nuc_mod (aij zeta : R) : R :=
  if Rlt_dec 0 zeta then sqrt (zeta / (aij + zeta)) else 1.

(** g1e.c:207-319: [chg] is 1, minus the fractional charge or minus the nuclear charge,
    [cr] the nucleus, [u] the roots of CINTrys_roots; the weights are in gz on entry. *)
Definition R_nuc (e : envs) (chg zeta fac ai aj : R) (u : Z -> R) (cr ri rj : Z -> R) (g : arr R) : option (arr R) :=
  let aij := ai + aj in
  let tau := nuc_mod aij zeta in
  let rij := pair_rij ai aj ri rj in
  g1e_nuc 1 Rplus Rmult Rminus IZR e (2 * PI * chg * fac * tau / aij) (/ 2 / aij)
    (fun n => tau * tau * u n / (1 + u n)) (fun ax => cr ax - rij ax) rij ri rj g.
