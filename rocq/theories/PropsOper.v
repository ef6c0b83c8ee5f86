(** PropsOper.v — C60: the Coulomb-type entries compute their documented integrals.

    C57 says what an integrand function leaves in gout in terms of the array it is given; C10, C11
    and C59 say what the array is and what the sums over its roots are.  Here the functions of a
    primitive call are composed: the init function chosen by the entry, the index table, CINTg0_2e
    with the kernel selected by the init function (or CINTg1e_nuc) and the integrand, on any large
    enough buffers.  What is added to gout, times the entry's constant factor, is the integral of
    the documented operators applied to the Gaussian functions with 1/r, erf(omega r)/r,
    erfc(omega r)/r or the potential of the charge, times the prefactor c0.  The root finders'
    results are hypotheses, as in C59; real numbers instead of doubles. *)
From Coq Require Import Reals Lra QArith Qreals String.
From Coquelicot Require Import Coquelicot.
From Verif Require Import Base BasModel BasSpec EnvModel IdxModel IdxSpec OpSpec RecModel RecRModel RecSpec GaussInt Gauss2Int Rec1Real Rec2RModel Rec2Spec
  IntgModel IntgSpec IntgTab IntgStmt IntgCheck IntgStep IntgSem IntgFinal IntgAll IntgEx IntgOvlp IntgReal QuadSpec QuadPoly QuadSub Quad2e Quad1e QuadMain OperSpec OperModel OperNuc Oper2e PropsQuad.
Local Open Scope R_scope.

(** Nuclear attraction and 1/|r-C| entries. *)
Theorem C60_nuclear t ng li lj ci cj c0 chg zeta (u w : Z -> R) (C : Z -> R) (a : centre -> R) (A : centre -> Z -> R) (O : Z -> R) idx g gout empty :
  In t catalogue -> en_fam (t_e t) = F1nuc \/ en_fam (t_e t) = F1rinv -> ~ In (en_name (t_e t)) except_names -> ent_ng t = Some ng ->
  (0 <= li <= 15)%Z -> (0 <= lj <= 15)%Z -> 0 < a CI -> 0 < a CJ ->
  let e := init_int1e ng li lj ci cj in let x := mkgin e 0 a A O in let nc := Z.of_nat (length (g_rows (t_f t))) in
  let p := a CI + a CJ in
  let P ax := (a CI * A CI ax + a CJ * A CJ ax) / p in
  (forall n, (0 <= n < nrys_roots e)%Z -> 0 <= u n /\ rd g (g_size e * 2 + n) = Some (w n)) ->
  rule (nrys_roots e) (p * (nuc_mod p zeta * nuc_mod p zeta) * dist2 C P) 0 (fun n => t2_of (u n)) w ->
  (3 * nf e <= asize idx)%Z -> ((2 ^ GSHIFT ng + 1) * (3 * g_size e) <= asize g)%Z -> filled g ->
  (nf e * nc <= asize gout)%Z -> (empty = false -> filled gout) ->
  exists idx' g' gout' f,
    CINTg1e_index_xyz e idx = Some idx' /\
    R_nuc e chg zeta (c0 * overlap_factor (a CI) (a CJ) (A CI) (A CJ)) (a CI) (a CJ) u C (A CI) (A CJ) g = Some g' /\
    run_gout 0 1 Rplus Rmult Rminus IZR x (t_f t) empty idx' g' gout = Some gout' /\
    factor (t_e t) = Some f /\ Frame (fun q => 0 <= q < nf e * nc)%Z gout gout' /\
    forall (i j k : nat) ti tj s1 s2 q, nth_error (cart_list li) i = Some ti -> nth_error (cart_list lj) j = Some tj ->
      nth_error (components (t_d t) (sis (en_c2s1 (t_e t))) (sis (en_c2s2 (t_e t)))) k = Some (s1, s2, q) ->
      let pos := ((Z.of_nat j * Z.of_nat (length (cart_list li)) + Z.of_nat i) * nc + Z.of_nat k)%Z in
      exists v old V, rd gout' pos = Some (old + v) /\ (if empty then old = 0 else rd gout pos = Some old) /\
        value (term1 a A O (powers ti tj) (nuc_op zeta) C) q V /\
        (cval (cqmul (qfac f) (phase (t_e t) s1 s2)) * RtoC v)%C = (RtoC (c0 * chg) * V)%C.
Proof. exact (nuc_operator t ng li lj ci cj c0 chg zeta u w C a A O idx g gout empty). Qed.
Print Assumptions C60_nuclear.

(** Two-electron entries with two, three and four centres. *)
Theorem C60_coulomb t ng om (l ctr : centre -> Z) (a : centre -> R) (A : centre -> Z -> R) (O : Z -> R) (rij rkl : Z -> R) rys srys omega cutoff c0 idx g gout empty :
  In t catalogue -> en_fam (t_e t) = F2e \/ en_fam (t_e t) = F3c2e \/ en_fam (t_e t) = F2c2e -> ~ In (en_name (t_e t)) except_names -> ent_ng t = Some ng ->
  let fam := en_fam (t_e t) in
  (forall c, 0 <= l c <= 15)%Z -> (forall c, used fam c = false -> l c = 0)%Z -> partners fam A ->
  0 < a CI + a CJ -> 0 < a CK + a CL ->
  (forall ax, (0 <= ax < 3)%Z -> rij ax = (a CI * A CI ax + a CJ * A CJ ax) / (a CI + a CJ)) ->
  (forall ax, (0 <= ax < 3)%Z -> rkl ax = (a CK * A CK ax + a CL * A CL ax) / (a CK + a CL)) ->
  let e := fam_env fam om ng l ctr in let x := mkgin e 0 a A O in let nc := Z.of_nat (length (g_rows (t_f t))) in
  let a0 := (a CI + a CJ) * (a CK + a CL) / (a CI + a CJ + (a CK + a CL)) in
  (nrys_roots e <= 32)%Z ->
  (forall m y n, (0 <= n < m)%Z -> 0 <= y -> 0 <= fst (rys m y) n) ->
  (forall m y z n, (0 <= n < m)%Z -> 0 <= y -> 0 <= fst (srys m y z) n) ->
  rules_2e rys srys (nrys_roots e) (rys_order e) omega a0 (a0 * dist2 rij rkl) ->
  (3 * nf e <= asize idx)%Z -> ((2 ^ GSHIFT ng + 1) * (3 * g_size e) <= asize g)%Z -> (4 * g_size e <= asize g)%Z -> filled g ->
  (nf e * nc <= asize gout)%Z -> (empty = false -> filled gout) ->
  let fac := c0 * (2 * (PI * PI * PI) / sqrt PI) * (overlap_factor (a CI) (a CJ) (A CI) (A CJ) * overlap_factor (a CK) (a CL) (A CK) (A CL)) in
  let theta := omega * omega / (omega * omega + a0) in
  exists idx' b g', index_fun fam e idx = Some idx' /\
    R_g0_2e rys srys (kernel fam ng l e A) e omega cutoff fac (a CI) (a CJ) (a CK) (a CL) rij rkl (rx_ij fam ng l A) (rx_kl fam ng l A) g = Some (b, g') /\
    (b = false <-> omega < 0 /\ (cutoff < theta * (a0 * dist2 rij rkl) \/ 40 < theta * (a0 * dist2 rij rkl))) /\
    (b = true -> exists gout' f,
      run_gout 0 1 Rplus Rmult Rminus IZR x (t_f t) empty idx' g' gout = Some gout' /\
      factor (t_e t) = Some f /\ Frame (fun q => 0 <= q < nf e * nc)%Z gout gout' /\
      forall (i j k n kk : nat) ti tj tk tl s1 s2 q, nth_error (cart_list (l CI)) i = Some ti -> nth_error (cart_list (l CJ)) j = Some tj ->
        nth_error (cart_list (l CK)) k = Some tk -> nth_error (cart_list (l CL)) n = Some tl ->
        nth_error (components (t_d t) (sis (en_c2s1 (t_e t))) (sis (en_c2s2 (t_e t)))) kk = Some (s1, s2, q) ->
        let p := ((((Z.of_nat j * Z.of_nat (length (cart_list (l CL))) + Z.of_nat n) * Z.of_nat (length (cart_list (l CK))) + Z.of_nat k)
                  * Z.of_nat (length (cart_list (l CI))) + Z.of_nat i) * nc + Z.of_nat kk)%Z in
        exists v old V, rd gout' p = Some (old + v) /\ (if empty then old = 0 else rd gout p = Some old) /\
          value (term2 a A O (powers4 ti tj tk tl) (op_of omega)) q V /\
          (cval (cqmul (qfac f) (phase (t_e t) s1 s2)) * RtoC v)%C = (RtoC c0 * V)%C).
Proof. exact (eri_operator t ng om l ctr a A O rij rkl rys srys omega cutoff c0 idx g gout empty). Qed.
Print Assumptions C60_coulomb.

(** The integrals are determined by the expression, the functions and the operator. *)
Theorem C60_unique a A O pw op C (q : poly) :
  (forall V W, value (term1 a A O pw op C) q V -> value (term1 a A O pw op C) q W -> V = W) /\
  (forall V W, value (term2 a A O pw op) q V -> value (term2 a A O pw op) q W -> V = W).
Proof. split; intros V W; apply value_unique; [exact (term1_unique a A O pw op C)|exact (term2_unique a A O pw op)]. Qed.
Print Assumptions C60_unique.

(** int1e_nuc of two s functions of exponent 1 on the nucleus: the integral is pi. *)
Example C60_example : exists s1 s2 q,
  nth_error (components (t_d e_int1e_nuc) (sis (en_c2s1 (t_e e_int1e_nuc))) (sis (en_c2s2 (t_e e_int1e_nuc)))) 0 = Some (s1, s2, q) /\
  value (term1 (fun _ => 1) (fun _ _ => 0) (fun _ => 0) (powers (0, 0, 0)%Z (0, 0, 0)%Z) Coulomb (fun _ => 0)) q (RtoC PI).
Proof.
  do 3 eexists. split; [vm_compute; reflexivity|].
  replace (RtoC PI) with (cval (((1 # 1)%Q, (0 # 1)%Q)) * RtoC PI + RtoC 0)%C by (unfold cval; cbn; rewrite RMicromega.Q2R_1, RMicromega.Q2R_0; change (1, 0) with (RtoC 1); ring).
  constructor; [|constructor].
  exists PI. split; [|unfold rpow, kpow; simpl; ring].
  destruct C59_example as (I & H1 & H2). exists I. split; [|exact H2].
  intros ax s Hax. eapply line_ext; [|exact (H1 ax s Hax)]. intros x.
  assert (Hax3 : ax = 0%Z \/ ax = 1%Z \/ ax = 2%Z) by lia.
  unfold fun_at, base, phi, two. destruct Hax3 as [-> | [-> | ->]]; simpl; unfold Rminus at 1; rewrite exp_plus; ring.
Qed.

(** int2e of four s functions of exponent 1 on one point: 2 pi^(5/2) / (p q sqrt(p+q)) with p = q = 2. *)
Example C60_example2 : exists s1 s2 q,
  nth_error (components (t_d e_int2e) (sis (en_c2s1 (t_e e_int2e))) (sis (en_c2s2 (t_e e_int2e)))) 0 = Some (s1, s2, q) /\
  value (term2 (fun _ => 1) (fun _ _ => 0) (fun _ => 0) (powers4 (0, 0, 0)%Z (0, 0, 0)%Z (0, 0, 0)%Z (0, 0, 0)%Z) Coulomb) q
    (RtoC (2 * (PI * PI * sqrt PI) / 8)).
Proof.
  do 3 eexists. split; [vm_compute; reflexivity|].
  set (w := 2 * (PI * PI * sqrt PI) / 8).
  replace (RtoC w) with (cval (((1 # 1)%Q, (0 # 1)%Q)) * RtoC w + RtoC 0)%C by (unfold cval; cbn; rewrite RMicromega.Q2R_1, RMicromega.Q2R_0; change (1, 0) with (RtoC 1); ring).
  constructor; [|constructor].
  exists w. split; [|unfold rpow, kpow; simpl; ring].
  set (z := fun _ : Z => 0). set (z0 := fun _ : Z => 0%nat).
  assert (HV : coul2 Coulomb (fun ax => four 1 1 1 1 (z ax) (z ax) (z ax) (z ax) (z0 ax) (z0 ax) (z0 ax) (z0 ax)) w).
  { assert (Hm := four_moments 1 1 1 1 z z z z ltac:(lra) ltac:(lra) z0 z0 z0 z0).
    refine (coul2_s 1 1 1 1 z z z z ltac:(lra) ltac:(lra) _ _ _ Hm Coulomb w _).
    set (a0 := (1 + 1) * (1 + 1) / (1 + 1 + (1 + 1))). set (X := a0 * dist2 _ _).
    replace w with (cc2 1 1 1 1 z z z z * rsumz 1 (fun k => (fun _ : Z => 1) k * prod3 (mom4 1 1 1 1 z z z z z0 z0 z0 z0) ((fun _ : Z => t2_of (1 / 2)) k))).
    - refine (quad_coulomb a0 _ X _ _ ltac:(unfold a0; lra) (prod3_pol 1 1 1 1 z z z z _ _ _ Hm) 1 (fun _ => t2_of (1 / 2)) (fun _ => 1) _ _); [cbn; lia|].
      replace X with 0; [exact C59_rule|]. unfold X, a0, dist2, z. field.
    - change (cc2 1 1 1 1 z z z z * (0 + 1 * (1 * 1 * 1)) = w). unfold cc2, overlap_factor, dist2, z, w.
      replace (1 * 1 / (1 + 1) * ((0 - 0) * (0 - 0) + (0 - 0) * (0 - 0) + (0 - 0) * (0 - 0))) with 0 by field.
      rewrite Ropp_0, exp_0. replace (1 + 1 + (1 + 1)) with (2 * 2) by ring. rewrite sqrt_square by lra.
      pose proof PI_RGT_0. assert (Hs : sqrt PI <> 0) by (apply Rgt_not_eq, sqrt_lt_R0; lra).
      assert (E : PI = sqrt PI * sqrt PI) by (symmetry; apply sqrt_sqrt; lra).
      rewrite E at 1. field. exact Hs. }
  destruct HV as (I & H1 & H2). exists I. split; [|exact H2].
  intros ax s Hax. eapply plane_ext; [|exact (H1 ax s Hax)]. intros x y. unfold z, z0.
  assert (Hax3 : ax = 0%Z \/ ax = 1%Z \/ ax = 2%Z) by lia.
  unfold fun_at, base, phi, four. destruct Hax3 as [-> | [-> | ->]]; simpl; unfold Rminus at 1 2 3; rewrite !exp_plus; ring.
Qed.
