(** Whole2Spec.v — vocabulary for the theorems about the two-electron entry points: contracted integrals
    over two, three and four shells read from the tables. *)
From Coq Require Import Reals.
From Coquelicot Require Import Coquelicot.
From Verif Require Import Base BasSpec IdxSpec OptSpec OptPair OpSpec IntgSpec IntgModel IntgTab IntgReal QuadSpec OperSpec Oper2e ScreenSpec WholeSpec.
Local Open Scope R_scope.

(** exponents and centres of four primitives; a centre that is absent (two and three shells) has exponent 0 *)
Definition exps4 (ai aj ak al : R) (c : centre) : R := match c with CI => ai | CJ => aj | CK => ak | CL => al end.
Definition centres4 (Ri Rj Rk Rl : Z -> R) (c : centre) : Z -> R := match c with CI => Ri | CJ => Rj | CK => Rk | CL => Rl end.
(** the Cartesian function of an absent centre is 1 *)
Definition no_power : triple := (0, 0, 0)%Z.

(** the integral of the operator [q] of an entry point over four primitive functions ti, tj of electron 1 and tk, tl of
    electron 2: 1/r12, erf(w r12)/r12 or erfc(|w| r12)/r12 as env[PTR_RANGE_OMEGA] says *)
Definition eri4 (V : view) (ev : Z -> R) (i j k l ip jp kp lp : Z) (ti tj tk tl : triple) (q : poly) (D : C) : Prop :=
  value (term2 (exps4 (ex V ev i ip) (ex V ev j jp) (ex V ev k kp) (ex V ev l lp))
               (centres4 (ctr V ev i) (ctr V ev j) (ctr V ev k) (ctr V ev l)) (gauge_origin ev) (powers4 ti tj tk tl) (op_of (ev 8%Z))) q D.
(** over three functions, ti and tj of electron 1 and tk of electron 2 *)
Definition eri3 (V : view) (ev : Z -> R) (i j k ip jp kp : Z) (ti tj tk : triple) (q : poly) (D : C) : Prop :=
  value (term2 (exps4 (ex V ev i ip) (ex V ev j jp) (ex V ev k kp) 0)
               (centres4 (ctr V ev i) (ctr V ev j) (ctr V ev k) (ctr V ev k)) (gauge_origin ev) (powers4 ti tj tk no_power) (op_of (ev 8%Z))) q D.
(** over two functions, ti of electron 1 and tk of electron 2 *)
Definition eri2 (V : view) (ev : Z -> R) (i k ip kp : Z) (ti tk : triple) (q : poly) (D : C) : Prop :=
  value (term2 (exps4 (ex V ev i ip) 0 (ex V ev k kp) 0)
               (centres4 (ctr V ev i) (ctr V ev i) (ctr V ev k) (ctr V ev k)) (gauge_origin ev) (powers4 ti no_power tk no_power) (op_of (ev 8%Z))) q D.

(** Contraction ic of shell i, ...: the sum over the primitives for which [keep] holds of the product of the contraction
    coefficients and the primitive integral *)
Definition summed4 (V : view) (ev : Z -> R) (keep : Z -> Z -> Z -> Z -> Prop) (i j k l ic jc kc lc : Z) (prim : Z -> Z -> Z -> Z -> C -> Prop) (S : C) : Prop :=
  exists D K, (forall ip jp kp lp, (0 <= ip < v_np V i)%Z -> (0 <= jp < v_np V j)%Z -> (0 <= kp < v_np V k)%Z -> (0 <= lp < v_np V l)%Z ->
                 (K ip jp kp lp = true <-> keep ip jp kp lp) /\ (keep ip jp kp lp -> prim ip jp kp lp (D ip jp kp lp))) /\
    S = csumz (v_np V l) (fun lp => csumz (v_np V k) (fun kp => csumz (v_np V j) (fun jp => csumz (v_np V i) (fun ip =>
          if K ip jp kp lp then (RtoC (cf V ev l lp lc * cf V ev k kp kc * cf V ev j jp jc * cf V ev i ip ic) * D ip jp kp lp)%C else RtoC 0)))).
Definition summed3 (V : view) (ev : Z -> R) (keep : Z -> Z -> Z -> Prop) (i j k ic jc kc : Z) (prim : Z -> Z -> Z -> C -> Prop) (S : C) : Prop :=
  exists D K, (forall ip jp kp, (0 <= ip < v_np V i)%Z -> (0 <= jp < v_np V j)%Z -> (0 <= kp < v_np V k)%Z ->
                 (K ip jp kp = true <-> keep ip jp kp) /\ (keep ip jp kp -> prim ip jp kp (D ip jp kp))) /\
    S = csumz (v_np V k) (fun kp => csumz (v_np V j) (fun jp => csumz (v_np V i) (fun ip =>
          if K ip jp kp then (RtoC (cf V ev k kp kc * cf V ev j jp jc * cf V ev i ip ic) * D ip jp kp)%C else RtoC 0))).
Definition summed2 (V : view) (ev : Z -> R) (keep : Z -> Z -> Prop) (i k ic kc : Z) (prim : Z -> Z -> C -> Prop) (S : C) : Prop :=
  exists D K, (forall ip kp, (0 <= ip < v_np V i)%Z -> (0 <= kp < v_np V k)%Z ->
                 (K ip kp = true <-> keep ip kp) /\ (keep ip kp -> prim ip kp (D ip kp))) /\
    S = csumz (v_np V k) (fun kp => csumz (v_np V i) (fun ip =>
          if K ip kp then (RtoC (cf V ev k kp kc * cf V ev i ip ic) * D ip kp)%C else RtoC 0)).

(** what the drivers need of the root finders for nr roots (ro in each set when there are two): the numbers u they return for
    roots t^2/(1-t^2) are not negative, and with the weights they make a quadrature rule for the moments, at every exponent *)
Definition finds_roots_2e (rys : Z -> R -> (Z -> R) * (Z -> R)) (srys : Z -> R -> R -> (Z -> R) * (Z -> R)) (nr ro : Z) (omega : R) : Prop :=
  (forall m y n, (0 <= n < m)%Z -> 0 <= y -> 0 <= fst (rys m y) n) /\
  (forall m y z n, (0 <= n < m)%Z -> 0 <= y -> 0 <= fst (srys m y z) n) /\
  forall a0 x, 0 < a0 -> 0 <= x -> rules_2e rys srys nr ro omega a0 x.

(** primitives of a two-centre integral that are computed: all of them for 1/r12 and erf(w r12)/r12; for erfc(|w| r12)/r12
    those whose exponent theta w^2/(w^2+theta) |Ri-Rk|^2, theta = ai ak/(ai+ak), exceeds neither the cutoff nor 40 *)
Definition short_kept (V : view) (ev : Z -> R) (i k ip kp : Z) : Prop :=
  let w := ev 8%Z in let theta := ex V ev i ip * ex V ev k kp / (ex V ev i ip + ex V ev k kp) in
  let x := w * w / (w * w + theta) * (theta * dist2 (ctr V ev i) (ctr V ev k)) in
  0 <= w \/ (x <= user_cutoff (ev 0%Z) /\ x <= 40).

(** ** What the screening keeps for three and four shells *)
(** centre of the product of two primitives *)
Definition product_centre (a b : R) (A B : Z -> R) : Z -> R := fun ax => (a * A ax + b * B ax) / (a + b).
(** the cutoff C as the loops use it for a pair of shells i, j with polynomial degree L: for the short-range operator and a
    total degree of two or more (order = degree/2+1 > 1) it is raised with the degree *)
Definition raised (V : view) (ev : Z -> R) (i j L order : Z) (C : R) : R :=
  if Rlt_dec (ev 8%Z) 0 then
    if ((1 <? order) && (0 <? L))%Z then
      let w2 := ev 8%Z * ev 8%Z in let d := sqrt (dist_sq (ctr V ev i) (ctr V ev j)) in
      C + IZR L * ln ((d + w2 / (w2 + (last_ex V ev i + last_ex V ev j)) * 8 + 1) / (d + 1))
    else C
  else C.
(** the test for erfc(|w| r12)/r12 on two charge distributions with exponents p, q and centres P, Q: with theta = pq/(p+q),
    theta w^2/(w^2+theta) |P-Q|^2 exceeds neither 40 nor what is left of the cutoff *)
Definition near_enough (w p q : R) (P Q : Z -> R) (left : R) : Prop :=
  let theta := p * q / (p + q) in let x := w * w / (w * w + theta) * (theta * dist2 P Q) in
  0 <= w \/ (x <= left /\ x <= 40).
(** degree that counts in the size estimate of the second pair of four shells: for the short-range operator none when the
    total degree is below two *)
Definition degree_kl (ev : Z -> R) (L order : Z) : Z := if Rlt_dec (ev 8%Z) 0 then if (1 <? order)%Z then L else 0%Z else L.
