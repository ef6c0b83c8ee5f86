(** Quad1e.v — root sums over the one-electron arrays. *)
From Coq Require Import Reals Lra Psatz FunctionalExtensionality.
From Coquelicot Require Import Coquelicot.
From Verif Require Import Base EnvModel RecModel RecRModel RecSpec RecMoments GaussInt Rec1Real Gauss2Int
  QuadSpec QuadPoly QuadSub Quad2e QuadMain.
Local Open Scope R_scope.

Section Axis1.
  Variables (ai aj A B C : R).
  Let p := ai + aj.
  Hypothesis Hp : 0 < p.
  Let P := (ai * A + aj * B) / p.
  Definition tab1 (t : R) : Z -> Z -> Z -> Z -> R :=
    S4 0 Rplus Rmult Rminus IZR (/ (2 * p) * (1 - t)) 0 0 (P + t * (C - P) - A) (P + t * (C - P) - B) 0 0 1.
  Definition mom1 (i j : nat) (t : R) : R := tab1 t (Z.of_nat i) (Z.of_nat j) (Z.of_nat 0) (Z.of_nat 0).
  Lemma mom1_pol i j : pol (i + j) (mom1 i j).
  Proof.
    replace (i + j)%nat with (i + j + 0 + 0)%nat by lia.
    apply (tab_pol (fun t => / (2 * p) * (1 - t)) (fun _ => 0) (fun _ => 0) (fun t => P + t * (C - P) - A) (fun t => P + t * (C - P) - B)
      (fun _ => 0) (fun _ => 0)) with (S := tab1) (N := (i + j)%nat); try (apply pol_zero); try lia.
    - eapply pol_ext; [apply (pol_lin (/ (2 * p)) (- / (2 * p)))|]. intros t; cbv beta. ring.
    - eapply pol_ext; [apply (pol_lin (P - A) (C - P))|]. intros t; cbv beta. ring.
    - eapply pol_ext; [apply (pol_lin (P - B) (C - P))|]. intros t; cbv beta. ring.
    - intros t. exact (S4_ok 0 1 Rplus Rmult Rminus Ropp IZR RTheory eq_refl IZR_S _ _ _ _ _ _ _ _).
    - intros t. reflexivity.
  Qed.
  Definition nrm1 (t2 : R) : R := exp (- (ai * aj / p * ((A - B) * (A - B)))) * exp (- (p * ((C - P) * (C - P)) * t2)) * sqrt (PI / (p / (1 - t2))).

  Lemma mom1_int s t2 : 0 <= t2 < 1 -> s = p * t2 / (1 - t2) ->
    RIntLine (nucfun s ai aj A B C) (nrm1 t2) /\ 0 < nrm1 t2 /\
    forall i j, RIntLine (fun x => (x - A) ^ i * (x - B) ^ j * nucfun s ai aj A B C x) (nrm1 t2 * mom1 i j t2).
  Proof.
    intros Ht Es. pose proof PI_RGT_0 as HPI.
    assert (Hps : p + s = p / (1 - t2)) by (rewrite Es; field; lra).
    assert (Hpos : 0 < p / (1 - t2)) by (apply Rdiv_lt_0_compat; lra).
    set (K := exp (- (ai * aj / p * ((A - B) * (A - B)))) * exp (- (p * ((C - P) * (C - P)) * t2))).
    assert (HK : 0 < K) by (apply Rmult_lt_0_compat; apply exp_pos).
    assert (HE : forall x, nucfun s ai aj A B C x = K * wgt (p / (1 - t2)) (P + t2 * (C - P)) x).
    { intros x. unfold nucfun, pairfun. rewrite gauss_product by (unfold p in *; lra). fold p P. unfold K, wgt.
      rewrite !Rmult_assoc. f_equal. rewrite <- !exp_plus. f_equal. rewrite <- Hps, Es. field. lra. }
    assert (Hn : 0 < nrm1 t2).
    { unfold nrm1. apply Rmult_lt_0_compat; [exact HK|]. apply sqrt_lt_R0, Rdiv_lt_0_compat; lra. }
    assert (H0 : RIntLine (nucfun s ai aj A B C) (nrm1 t2)).
    { eapply line_ext; [|exact (line_scal _ K _ (line_gauss (p / (1 - t2)) (P + t2 * (C - P)) Hpos))].
      intros x. rewrite HE. reflexivity. }
    split; [exact H0|]. split; [exact Hn|]. intros i j.
    destruct (table_is_integral (p / (1 - t2)) (P + t2 * (C - P)) K (nucfun s ai aj A B C) A B
      (fun i j => tab1 t2 i j 0%Z 0%Z) 1 Hpos HK HE) with (i := i) (j := j) as (I0 & I & J0 & Jp & JI & JE).
    - replace (/ (2 * (p / (1 - t2)))) with (/ (2 * p) * (1 - t2)) by (field; lra).
      exact (gauss1_tab_ok 0 1 Rplus Rmult Rminus Ropp IZR RTheory eq_refl IZR_S _ _ _ _).
    - reflexivity.
    - change (tab1 t2 (Z.of_nat i) (Z.of_nat j) 0%Z 0%Z) with (mom1 i j t2) in JE.
      rewrite (line_unique _ _ _ J0 H0) in JE. replace (nrm1 t2 * mom1 i j t2) with I; [exact JI|]. rewrite JE. field. lra.
  Qed.
End Axis1.

Section Three1.
  Variables (ai aj : R) (A B C : Z -> R).
  Let p := ai + aj.
  Hypothesis (Hp : 0 < p).
  Let P ax := (ai * A ax + aj * B ax) / p.
  Variables (f m : Z -> R -> R).
  Definition moments1 (d : Z -> nat) : Prop := forall ax, (0 <= ax < 3)%Z -> pol (d ax) (m ax) /\
    forall s t2, 0 <= t2 < 1 -> s = p * t2 / (1 - t2) ->
      RIntLine (fun x => f ax x * exp (- (s * ((x - C ax) * (x - C ax))))) (nrm1 ai aj (A ax) (B ax) (C ax) t2 * m ax t2).
  Lemma prod3_pol1 d : moments1 d -> pol (d 0%Z + d 1%Z + d 2%Z) (prod3 m).
  Proof. intros H. unfold prod3. repeat apply pol_mul; apply H; lia. Qed.
  Variable d : Z -> nat.
  Hypothesis Hm : moments1 d.
  Definition cc1 : R := 2 * PI / p * overlap_factor ai aj A B.
  Let X := p * dist2 C P.

  Lemma coul1_s op V : over_s op (fun s => cc1 * (dtt p s * (prod3 m (tt p s * tt p s) * exp (- (X * (tt p s * tt p s)))))) V ->
    coul1 op C f V.
  Proof.
    intros HV.
    assert (Ht2 : forall s, 0 <= tt p s * tt p s < 1).
    { intros s. rewrite (tt_sq p Hp). pose proof (as_pos p Hp s). split.
      - apply Rmult_le_pos; [nra|]. apply Rlt_le, Rinv_0_lt_compat; lra.
      - apply (Rmult_lt_reg_r (p + s * s)); [lra|]. unfold Rdiv. rewrite Rmult_assoc, Rinv_l; nra. }
    exists (fun ax s => nrm1 ai aj (A ax) (B ax) (C ax) (tt p s * tt p s) * m ax (tt p s * tt p s)). split.
    - intros ax s Hax. destruct (Hm ax Hax) as [_ HI]. apply (HI (s * s) (tt p s * tt p s) (Ht2 s)).
      rewrite (tt_sq p Hp). pose proof (as_pos p Hp s). field. split; lra.
    - match goal with H : over_s op ?f V |- over_s op ?g V => replace g with f; [exact H|] end.
      apply functional_extensionality. intros s. specialize (Ht2 s).
      pose proof (tt_sq p Hp s) as Et. set (t2 := tt p s * tt p s) in *.
      pose proof (as_pos p Hp s) as Has. pose proof (root_pos p Hp s) as Hrt.
      assert (Hd : p / (1 - t2) = p + s * s) by (rewrite Et; field; split; lra).
      unfold prod3, nrm1. fold p. fold (P 0%Z) (P 1%Z) (P 2%Z). rewrite Hd.
      assert (Hs4 : 0 < sqrt PI) by (apply sqrt_lt_R0, PI_RGT_0).
      pose proof PI_RGT_0 as HPI.
      rewrite sqrt_div by lra.
      assert (Ek : exp (- (ai * aj / p * ((A 0%Z - B 0%Z) * (A 0%Z - B 0%Z)))) * exp (- (ai * aj / p * ((A 1%Z - B 1%Z) * (A 1%Z - B 1%Z))))
         * exp (- (ai * aj / p * ((A 2%Z - B 2%Z) * (A 2%Z - B 2%Z)))) = overlap_factor ai aj A B).
      { unfold overlap_factor, dist2. fold p. rewrite <- !exp_plus. f_equal. unfold Rdiv. ring. }
      assert (Ee : exp (- (X * t2)) = exp (- (p * ((C 0%Z - P 0%Z) * (C 0%Z - P 0%Z)) * t2)) * exp (- (p * ((C 1%Z - P 1%Z) * (C 1%Z - P 1%Z)) * t2))
                   * exp (- (p * ((C 2%Z - P 2%Z) * (C 2%Z - P 2%Z)) * t2))).
      { rewrite <- !exp_plus. f_equal. unfold X, dist2. ring. }
      rewrite Ee. unfold cc1, dtt. fold p. rewrite <- Ek.
      assert (Hs1 : sqrt PI * sqrt PI = PI) by (apply sqrt_sqrt; lra).
      assert (Hs2 : sqrt (p + s * s) * sqrt (p + s * s) = p + s * s) by (apply sqrt_sqrt; lra).
      generalize dependent (sqrt (p + s * s)). intros r2 L2 E2. generalize dependent (sqrt PI). intros r1 L1 E1.
      rewrite <- E1, <- E2. field. repeat split; try lra.
  Qed.

  (** the quadrature for a nucleus *)
  Variables (zeta : R) (n : Z) (u w : Z -> R).
  Let tau := nuc_mod p zeta.
  Hypothesis Hd : (Z.of_nat (d 0%Z + d 1%Z + d 2%Z) <= 2 * n - 1)%Z.
  Hypothesis HR : rule n (p * (tau * tau) * dist2 C P) 0 (fun k => t2_of (u k)) w.
  Lemma sum1_is_int : exists V, coul1 (nuc_op zeta) C f V /\
    rsumz n (fun k => cc1 * (tau * w k) * prod3 m (tau * tau * t2_of (u k))) = V.
  Proof.
    unfold nuc_op. unfold nuc_mod in tau. destruct (Rlt_dec 0 zeta) as [Hz|Hz].
    - assert (Hs : 0 < sqrt zeta) by (apply sqrt_lt_R0, Hz).
      assert (Ht : tau = tt p (sqrt zeta)).
      { rewrite (tt_sqrt p Hp) by lra. rewrite sqrt_sqrt by lra. reflexivity. }
      replace (p * (tau * tau) * dist2 C P) with (tau * tau * X) in HR by (unfold X; ring). rewrite Ht in *.
      eexists. split; [apply coul1_s, (quad_erf p cc1 X (prod3 m) _ Hp (prod3_pol1 d Hm) n _ _ Hd (sqrt zeta) HR)|].
      rewrite <- !rsumz_scal. apply rsumz_ext. intros k Hk. ring.
    - replace (p * (tau * tau) * dist2 C P) with X in HR by (unfold X, tau; ring).
      eexists. split; [apply coul1_s, (quad_coulomb p cc1 X (prod3 m) _ Hp (prod3_pol1 d Hm) n _ _ Hd HR)|].
      rewrite <- !rsumz_scal. apply rsumz_ext. intros k Hk. unfold tau. rewrite !Rmult_1_l. ring.
  Qed.
End Three1.

Section Powers1.
  Variables (ai aj : R) (A B C : Z -> R).
  Hypothesis Hp : 0 < ai + aj.
  Variables (oi oj : Z -> nat).
  Definition mom11 ax := mom1 ai aj (A ax) (B ax) (C ax) (oi ax) (oj ax).
  Lemma two_moments : moments1 ai aj A B C (fun ax => two ai aj (A ax) (B ax) (oi ax) (oj ax)) mom11 (fun ax => oi ax + oj ax)%nat.
  Proof.
    intros ax Hax. split; [apply mom1_pol; assumption|]. intros s t2 Ht Es.
    destruct (mom1_int ai aj (A ax) (B ax) (C ax) Hp s t2 Ht Es) as (_ & _ & HI).
    eapply line_ext; [|exact (HI (oi ax) (oj ax))].
    intros x. cbv beta. unfold two, nucfun, pairfun. ring.
  Qed.
End Powers1.
