(** WholeSpec.v — vocabulary for the theorems about whole entry points: contracted integrals between
    shells read from the tables. *)
From Coq Require Import Reals.
From Coquelicot Require Import Coquelicot.
From Verif Require Import Base BasSpec IdxSpec OptSpec OptPair OpSpec IntgSpec IntgModel IntgTab IntgReal QuadSpec OperSpec.
Local Open Scope R_scope.

Definition csumz (n : Z) (f : Z -> C) : C := lsum (RtoC 0) Cplus n f.

(** the exponents and centres of the primitives ip of shell i and jp of shell j, the gauge origin env[PTR_COMMON_ORIG] *)
Definition exps2 (V : view) (ev : Z -> R) (i j ip jp : Z) (c : centre) : R :=
  match c with CI => ex V ev i ip | CJ => ex V ev j jp | _ => 0 end.
Definition centres2 (V : view) (ev : Z -> R) (i j : Z) (c : centre) (ax : Z) : R :=
  match c with CI => ctr V ev i ax | CJ => ctr V ev j ax | _ => 0 end.
Definition gauge_origin (ev : Z -> R) (ax : Z) : R := ev (1 + ax)%Z.

(** [charge_at at_ ev ia chg zeta C]: a charge [chg] at [C], smeared out with exponent [zeta] if that is positive.
    Atom ia >= 0: slots of atm are 0 charge, 1 coordinates, 2 nuclear model (2 Gaussian, 3 fractional charge), 3 exponent, 4 fractional charge.
    ia = -1: the operator 1/|r - R| of the rinv integrals, R in env[4..6], exponent in env[7]. *)
Definition charge_at (at_ : Z -> Z -> Z) (ev : Z -> R) (ia : Z) (chg zeta : R) (P : Z -> R) : Prop :=
  ((ia = -1)%Z -> chg = 1 /\ zeta = ev 7%Z /\ forall ax, P ax = ev (4 + ax)%Z) /\
  ((0 <= ia)%Z -> (forall ax, P ax = ev (at_ 1 ia + ax)%Z) /\
     (at_ 2%Z ia = 3%Z -> chg = - ev (at_ 4%Z ia)) /\ (at_ 2%Z ia <> 3%Z -> chg = - Rabs (IZR (at_ 0%Z ia))) /\
     (at_ 2%Z ia = 2%Z -> zeta = ev (at_ 3%Z ia)) /\ (at_ 2%Z ia <> 2%Z -> zeta = 0)).
(** the operator [q] between two functions, in the potential of charge ia *)
Definition in_potential (at_ : Z -> Z -> Z) (ev : Z -> R) (a : centre -> R) (A : centre -> Z -> R) (ia : Z) (ti tj : triple) (q : poly) (D : C) : Prop :=
  exists chg zeta P W, charge_at at_ ev ia chg zeta P /\
    value (term1 a A (gauge_origin ev) (powers ti tj) (nuc_op zeta) P) q W /\ D = (RtoC chg * W)%C.

(** the integral of the operator [q] of an entry point of family [fam] between the Cartesian functions ti of primitive ip and
    tj of primitive jp *)
Definition prim_integral (V : view) (ev : Z -> R) (at_ : Z -> Z -> Z) (natm : Z) (fam : gfam) (i j ip jp : Z) (ti tj : triple) (q : poly) (D : C) : Prop :=
  let a := exps2 V ev i j ip jp in let A := centres2 V ev i j in
  match fam with
  | F1e => D = den a A (gauge_origin ev) overlap [0%Z] (powers ti tj) q
  | F1rinv => in_potential at_ ev a A (-1) ti tj q D
  | F1nuc => exists Di, (forall ia, (0 <= ia < natm)%Z -> in_potential at_ ev a A ia ti tj q (Di ia)) /\ D = csumz natm Di
  | _ => False
  end.

(** Contraction ic of shell i, jc of shell j: the sum over the primitive pairs for which [keep] holds of the product of the
    contraction coefficients and the primitive integral *)
Definition contracted2 (V : view) (ev : Z -> R) (keep : Z -> Z -> Prop) (i j ic jc : Z) (prim : Z -> Z -> C -> Prop) (S : C) : Prop :=
  exists D K, (forall ip jp, (0 <= ip < v_np V i)%Z -> (0 <= jp < v_np V j)%Z -> prim ip jp (D ip jp) /\ (K ip jp = true <-> keep ip jp)) /\
    S = csumz (v_np V j) (fun jp => csumz (v_np V i) (fun ip => if K ip jp then (RtoC (cf V ev j jp jc * cf V ev i ip ic) * D ip jp)%C else RtoC 0)).

(** what the drivers need of CINTrys_roots: for every argument y >= 0 it returns non-negative numbers u (roots as
    t^2/(1-t^2)) and weights of a quadrature rule with n nodes for exp(-y t^2) on [0,1] *)
Definition finds_roots (rys : Z -> R -> (Z -> R) * (Z -> R)) (n : Z) : Prop := forall y, 0 <= y ->
  rule n y 0 (fun k => t2_of (fst (rys n y) k)) (snd (rys n y)) /\ forall k, (0 <= k < n)%Z -> 0 <= fst (rys n y) k.
