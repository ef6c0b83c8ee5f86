(** Rec3RModel.v — the real-valued parameters handed to the three- and four-centre
    one-electron recurrences. *)
From Coq Require Import Reals.
From Verif Require Import Base EnvModel RecModel RecRModel Rec2Final.
Local Open Scope R_scope.

(** cint3c1e.c:150-172: the exponent [eijk] of a primitive triple and the factor [dijk] *)
Definition triple_e (ai aj ak : R) (ri rj rk : Z -> R) : R :=
  (ai * aj * square3 (fun ax => ri ax - rj ax) + ai * ak * square3 (fun ax => ri ax - rk ax)
   + aj * ak * square3 (fun ax => rj ax - rk ax)) / (ai + aj + ak).
Definition triple_fac (c ai aj ak : R) (ri rj rk : Z -> R) : R :=
  c * exp (- triple_e ai aj ak ri rj rk) / ((ai + aj + ak) * sqrt (ai + aj + ak)).

(** g3c1e.c:123-188 with the values of lines 142-158; rirj is ri - rj (line 64-66). *)
Definition R_g3c1e (e : envs) (fac ai aj ak : R) (ri rj rk : Z -> R) (g : arr R) : option (arr R) :=
  let aijk := ai + aj + ak in
  g3c1e_ovlp 1 Rplus Rmult Rminus Ropp IZR e fac (/ 2 / aijk)
    (fun ax => rj ax - (ai * ri ax + aj * rj ax + ak * rk ax) / aijk)
    (fun ax => ri ax - rj ax) (fun ax => rj ax - rk ax) g.

(** cint4c1e.c:168-220: pair centres, and the factor of a primitive quadruple *)
Definition mean_pair (ai aj : R) (ri rj : Z -> R) (ax : Z) : R := (ai * ri ax + aj * rj ax) / (ai + aj).
Definition quad_fac (c ai aj ak al : R) (ri rj rk rl : Z -> R) : R :=
  let aij := ai + aj in let akl := ak + al in
  let eij := square3 (fun ax => ri ax - rj ax) * ai * aj / aij in
  let ekl := square3 (fun ax => rk ax - rl ax) * ak * al / akl in
  let a0 := aij * akl / (aij + akl) in
  let eijkl := a0 * square3 (fun ax => mean_pair ai aj ri rj ax - mean_pair ak al rk rl ax) in
  c * exp (- (eijkl + (eij + ekl))).

(** g4c1e.c:144-258 with the values of lines 155-190 and 222-228; the base centres
    rx_in_rijrx, rx_in_rklrx and the differences rirj, rkrl of lines 95-119. *)
Definition R_g4c1e (e : envs) (fac ai aj ak al : R) (ri rj rk rl : Z -> R) (g buf : arr R) : option (arr R) :=
  let aij := ai + aj in let akl := ak + al in let aijkl := aij + akl in
  let rij := mean_pair ai aj ri rj in let rkl := mean_pair ak al rk rl in
  let rx1 := if li_ceil e >? lj_ceil e then ri else rj in
  let rx2 := if lk_ceil e >? ll_ceil e then rk else rl in
  let big := li_ceil e + lj_ceil e >=? lk_ceil e + ll_ceil e in
  g4c1e_ovlp 1 Rplus Rmult Rminus Ropp e (fac / (aijkl * sqrt aijkl)) (fun i => / 2 * IZR i / aijkl)
    (fun ax => (if big then rx1 ax else rx2 ax) - (aij * rij ax + akl * rkl ax) / aijkl)
    (fun ax => if big then rx1 ax - rx2 ax else rx2 ax - rx1 ax)
    (base_diff Rminus (li_ceil e >? lj_ceil e) ri rj) (base_diff Rminus (lk_ceil e >? ll_ceil e) rk rl) g buf.
