(** PropsQuad.v — C59: enough roots: the sums over the roots are the Coulomb integrals.

    The arrays of C07, C10 and C11 hold, for each root, three one-dimensional (or, with two
    electrons, two-dimensional) integrals.  Here: if the root finders return what a Rys quadrature
    with the requested number of roots is (nodes and weights exact for the polynomials of degree up
    to 2n-1 with the weight exp(-X t^2)), then the sum over the roots of the products of the three
    is the integral with 1/r, erf(omega r)/r or erfc(omega r)/r, for all powers whose sum is at most
    the sum of the l + increment.  The number of roots chosen by the init functions is enough, the
    argument given to the root finder, the factors sqrt(theta) and tau and the sign of the second
    set of roots are right.

    The operators are used through their Gaussian representation 2/sqrt(pi) int exp(-s^2 r^2) ds,
    and the integral over s is done after those over space (QuadSpec).  C59_kernel says what the
    representation is of.  The results of the root finders are hypotheses; nothing is said about
    how close the ones in src/ come.  Rounding is not in the model: real numbers. *)
From Coq Require Import Reals Lra.
From Coquelicot Require Import Coquelicot.
From Verif Require Import Base EnvModel RecModel RecRModel RecSpec GaussInt Rec1Real Gauss2Int Rec2RModel Rec2Spec Rec2Kern UnrEnv
  QuadSpec QuadPoly Quad2e Quad1e QuadMain QuadFinal.
Local Open Scope R_scope.

(** Two electrons, CINTg0_2e with any of the init functions for 2, 3 and 4 centres and the
    kernel it selects (unrolled, short-range unrolled or generic), with and without range separation. *)
Theorem C59_coulomb e (A B C D bi bk : Z -> R) kern ai aj ak al (rij rkl : Z -> R) :
  0 < ai + aj -> 0 < ak + al ->
  (forall ax, (0 <= ax < 3)%Z -> rij ax = (ai * A ax + aj * B ax) / (ai + aj)) ->
  (forall ax, (0 <= ax < 3)%Z -> rkl ax = (ak * C ax + al * D ax) / (ak + al)) ->
  (nrys_roots e <= 32)%Z -> coulomb_setup e A B C D bi bk kern ->
  forall rys srys, (forall m y n, (0 <= n < m)%Z -> 0 <= y -> 0 <= fst (rys m y) n) ->
  (forall m y z n, (0 <= n < m)%Z -> 0 <= y -> 0 <= fst (srys m y z) n) ->
  forall omega, let a0 := (ai + aj) * (ak + al) / (ai + aj + (ak + al)) in
  rules_2e rys srys (nrys_roots e) (rys_order e) omega a0 (a0 * dist2 rij rkl) ->
  forall cutoff c0 g, (4 * g_size e <= asize g)%Z ->
  let fac := c0 * (2 * (PI * PI * PI) / sqrt PI) * (overlap_factor ai aj A B * overlap_factor ak al C D) in
  wp (R_g0_2e rys srys kern e omega cutoff fac ai aj ak al rij rkl bi bk g) (fun bg => fst bg = true ->
    forall oi oj ok ol : Z -> nat,
      (forall ax, (0 <= ax < 3)%Z -> (Z.of_nat (oi ax) <= li_ceil e /\ Z.of_nat (oj ax) <= lj_ceil e /\
         Z.of_nat (ok ax) <= lk_ceil e /\ Z.of_nat (ol ax) <= ll_ceil e)%Z) ->
      (Z.of_nat (oi 0%Z + oj 0%Z + (ok 0%Z + ol 0%Z) + (oi 1%Z + oj 1%Z + (ok 1%Z + ol 1%Z)) + (oi 2%Z + oj 2%Z + (ok 2%Z + ol 2%Z)))
       <= li_ceil e + lj_ceil e + lk_ceil e + ll_ceil e)%Z ->
    exists v V,
      (forall ax n, (0 <= ax < 3)%Z -> (0 <= n < nrys_roots e)%Z ->
         rd (snd bg) (ax * g_size e + adrs e n (Z.of_nat (oi ax)) (Z.of_nat (oj ax)) (Z.of_nat (ok ax)) (Z.of_nat (ol ax)))%Z = Some (v ax n)) /\
      coul2 (op_of omega) (fun ax => four ai aj ak al (A ax) (B ax) (C ax) (D ax) (oi ax) (oj ax) (ok ax) (ol ax)) V /\
      rsumz (nrys_roots e) (fun n => v 0%Z n * v 1%Z n * v 2%Z n) = c0 * V).
Proof.
  intros Hij Hkl Hrij Hrkl Hnr Hs rys srys Hrys Hsr omega a0 HR cutoff c0 g Hsz fac.
  eapply wp_mono; [exact (coulomb_sum e A B C D bi bk kern ai aj ak al rij rkl Hij Hkl Hrij Hrkl Hnr Hs rys srys Hrys Hsr omega HR cutoff c0 g Hsz)|].
  intros bg H Hb oi oj ok ol H1 H2. apply (H Hb oi oj ok ol). split; [exact H1|]. unfold deg3, degs, total. lia.
Qed.
Print Assumptions C59_coulomb.

(** One electron, CINTg1e_nuc: a charge chg at C, a point or a Gaussian distribution (zeta > 0). *)
Theorem C59_nuclear ng li lj ci cj (A B C : Z -> R) chg zeta c0 ai aj (u w : Z -> R) g :
  (0 <= li + IINC ng)%Z -> (0 <= lj + JINC ng)%Z -> POS_E2 ng = 0%Z -> 0 < ai -> 0 < aj ->
  let e := init_int1e ng li lj ci cj in
  let P ax := (ai * A ax + aj * B ax) / (ai + aj) in
  (forall n, (0 <= n < nrys_roots e)%Z -> 0 <= u n) -> (3 * g_size e <= asize g)%Z ->
  (forall n, (0 <= n < nrys_roots e)%Z -> rd g (g_size e * 2 + n) = Some (w n)) ->
  rule (nrys_roots e) ((ai + aj) * (nuc_mod (ai + aj) zeta * nuc_mod (ai + aj) zeta) * dist2 C P) 0 (fun n => t2_of (u n)) w ->
  wp (R_nuc e chg zeta (c0 * overlap_factor ai aj A B) ai aj u C A B g) (fun g' =>
    forall oi oj : Z -> nat,
      (forall ax, (0 <= ax < 3)%Z -> (Z.of_nat (oi ax) <= li_ceil e /\ Z.of_nat (oj ax) <= lj_ceil e)%Z) ->
      (Z.of_nat (oi 0%Z + oj 0%Z + (oi 1%Z + oj 1%Z) + (oi 2%Z + oj 2%Z)) <= li_ceil e + lj_ceil e)%Z ->
    exists v V,
      (forall ax n, (0 <= ax < 3)%Z -> (0 <= n < nrys_roots e)%Z ->
        rd g' (ax * g_size e + (n + Z.of_nat (oi ax) * g_stride_i e + Z.of_nat (oj ax) * g_stride_j e)) = Some (v ax n)) /\
      coul1 (nuc_op zeta) C (fun ax => two ai aj (A ax) (B ax) (oi ax) (oj ax)) V /\
      rsumz (nrys_roots e) (fun n => v 0%Z n * v 1%Z n * v 2%Z n) = c0 * chg * V).
Proof. exact (nuc_sum ng li lj ci cj A B C chg zeta c0 ai aj u w g). Qed.
Print Assumptions C59_nuclear.

(** The representation: 1/r, and the two ranges add up to it. *)
Theorem C59_kernel :
  (forall r, 0 < r -> over_s Coulomb (fun s => 2 / sqrt PI * exp (- (s * s * (r * r)))) (/ r)) /\
  (forall omega f V W, over_s (Erf omega) f V -> over_s (Erfc omega) f W -> over_s Coulomb f (V + W)).
Proof. exact (conj kernel_coulomb kernel_split). Qed.
Print Assumptions C59_kernel.

(** For concentric functions the one-point rule is t^2 = 1/3 (root u = 1/2), weight 1; it gives
    int exp(-2 r^2)/r d^3r = pi. *)
Example C59_rule : rule 1 0 0 (fun _ => t2_of (1 / 2)) (fun _ => 1).
Proof.
  intros m Hm. assert (m = 0 \/ m = 1)%nat as [-> | ->] by lia.
  - transitivity 1; [change (0 + 1 * 1 = 1); ring|]. symmetry. apply (is_RInt_unique (V := R_CompleteNormedModule)).
    assert (H : is_RInt (fun t : R => 1) 0 1 (1 - 0)).
    { apply (is_RInt_derive (V := R_CompleteNormedModule) (fun t => t)); intros t _.
      - auto_derive; [exact I|ring].
      - apply continuous_const. }
    replace 1 with (1 - 0) at 2 by ring. eapply is_RInt_ext; [|exact H].
    intros t _. cbn. rewrite Rmult_0_l, Ropp_0, exp_0. ring.
  - transitivity (1 / 3); [change (0 + 1 * (t2_of (1 / 2) * 1) = 1 / 3); unfold t2_of; field|]. symmetry. apply (is_RInt_unique (V := R_CompleteNormedModule)).
    assert (H : is_RInt (fun t : R => t * t) 0 1 (1 / 3)).
    { replace (1 / 3) with ((fun t : R => t * t * t / 3) 1 - (fun t : R => t * t * t / 3) 0) by field.
      apply (is_RInt_derive (V := R_CompleteNormedModule) (fun t : R => t * t * t / 3)); intros t _.
      - auto_derive; [exact I|field].
      - apply (ex_derive_continuous (K := R_AbsRing) (V := R_NormedModule)). auto_derive. exact I. }
    eapply is_RInt_ext; [|exact H].
    intros t _. cbn. rewrite Rmult_0_l, Ropp_0, exp_0. ring.
Qed.
Example C59_example : coul1 Coulomb (fun _ => 0) (fun _ => two 1 1 0 0 0 0) PI.
Proof.
  destruct (sum1_is_int 1 1 (fun _ => 0) (fun _ => 0) (fun _ => 0) ltac:(lra) _ _ _
              (two_moments 1 1 (fun _ => 0) (fun _ => 0) (fun _ => 0) ltac:(lra) (fun _ => 0%nat) (fun _ => 0%nat)) 0 1%Z
              (fun _ => 1 / 2) (fun _ => 1)) as (V & HV & E).
  - cbn. lia.
  - intros m Hm. rewrite (C59_rule m Hm).
    replace ((1 + 1) * (nuc_mod (1 + 1) 0 * nuc_mod (1 + 1) 0) * dist2 (fun _ => 0) (fun ax => (1 * 0 + 1 * 0) / (1 + 1))) with 0; [reflexivity|].
    unfold dist2. field.
  - assert (En : nuc_op 0 = Coulomb) by (unfold nuc_op; destruct (Rlt_dec 0 0); [lra|reflexivity]).
    assert (Et : nuc_mod (1 + 1) 0 = 1) by (unfold nuc_mod; destruct (Rlt_dec 0 0); [lra|reflexivity]).
    rewrite En in HV. replace PI with V; [exact HV|]. rewrite <- E. rewrite Et.
    change (0 + cc1 1 1 (fun _ => 0) (fun _ => 0) * (1 * 1) * (1 * 1 * 1) = PI).
    unfold cc1, overlap_factor, dist2.
    replace (1 * 1 / (1 + 1) * ((0 - 0) * (0 - 0) + (0 - 0) * (0 - 0) + (0 - 0) * (0 - 0))) with 0 by field.
    rewrite Ropp_0, exp_0. field.
Qed.
