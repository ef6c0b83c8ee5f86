(** QuadSub.v — from the variable s of the Gaussian representation to t = s/sqrt(a+s^2) in [0,1). *)
From Coq Require Import Reals Lra Psatz.
From Coquelicot Require Import Coquelicot.
From Verif Require Import Base GaussInt Gauss2Int QuadSpec QuadPoly.
Local Open Scope R_scope.

Section Sub.
  Variable a : R.
  Hypothesis Ha : 0 < a.
  Definition tt (s : R) : R := s / sqrt (a + s * s).
  Definition dtt (s : R) : R := a / ((a + s * s) * sqrt (a + s * s)).

  Lemma as_pos s : 0 < a + s * s. Proof. nra. Qed.
  Lemma root_pos s : 0 < sqrt (a + s * s). Proof. apply sqrt_lt_R0, as_pos. Qed.

  Lemma tt_derive s : is_derive tt s (dtt s).
  Proof.
    unfold tt, dtt. pose proof (as_pos s) as H1. pose proof (root_pos s) as H2.
    pose proof (sqrt_sqrt (a + s * s) ltac:(lra)) as H3.
    auto_derive; [split; [lra|split; [|exact I]]; lra|].
    set (r := sqrt (a + s * s)) in *. rewrite <- H3. clearbody r.
    replace a with (r * r - s * s) by lra. field. lra.
  Qed.
  Lemma dtt_cont s : continuous dtt s.
  Proof.
    apply (ex_derive_continuous (K := R_AbsRing) (V := R_NormedModule)). unfold dtt.
    pose proof (as_pos s) as H1. pose proof (root_pos s) as H2.
    auto_derive. repeat split; try lra. apply Rgt_not_eq, Rmult_lt_0_compat; assumption.
  Qed.
  Lemma tt_sq s : tt s * tt s = s * s / (a + s * s).
  Proof.
    unfold tt. pose proof (as_pos s) as H1. pose proof (root_pos s) as H2.
    rewrite <- (sqrt_sqrt (a + s * s)) at 3 by lra. field. lra.
  Qed.
  Lemma tt_nonneg s : 0 <= s -> 0 <= tt s.
  Proof. intros H. unfold tt. apply Rmult_le_pos; [exact H|]. apply Rlt_le, Rinv_0_lt_compat, root_pos. Qed.
  Lemma tt_0 : tt 0 = 0. Proof. unfold tt, Rdiv. ring. Qed.
  Lemma tt_sqrt s : 0 <= s -> tt s = sqrt (s * s / (a + s * s)).
  Proof. intros H. rewrite <- tt_sq. symmetry. apply sqrt_square, tt_nonneg, H. Qed.

  Lemma tt_lim : filterlim tt (Rbar_locally p_infty) (locally 1).
  Proof.
    (** 0 <= 1 - t <= 1 - t^2 = a/(a+s^2) <= a/s *)
    intros P [eps HP]. exists (Rmax 1 (a / eps)). intros s Hs. apply HP.
    assert (H1 : 1 < s) by (eapply Rle_lt_trans; [apply Rmax_l|exact Hs]).
    assert (H2 : a / eps < s) by (eapply Rle_lt_trans; [apply Rmax_r|exact Hs]).
    pose proof (cond_pos eps) as He.
    assert (H3 : a < s * eps).
    { apply (Rmult_lt_compat_r eps) in H2; [|exact He]. unfold Rdiv in H2. rewrite Rmult_assoc, Rinv_l in H2 by lra. lra. }
    pose proof (tt_sq s) as E. pose proof (tt_nonneg s ltac:(lra)) as T0. pose proof (as_pos s) as H4.
    assert (E2 : 1 - tt s * tt s = a / (a + s * s)) by (rewrite E; field; lra).
    assert (E3 : 0 < a / (a + s * s)) by (apply Rdiv_lt_0_compat; lra).
    assert (E4 : a / (a + s * s) < eps).
    { apply (Rmult_lt_reg_r (a + s * s)); [lra|]. unfold Rdiv. rewrite Rmult_assoc, Rinv_l by lra.
      assert (a * 1 < s * eps * s) by nra. nra. }
    set (t := tt s) in *. change (Rabs (t - 1) < eps). rewrite Rabs_left1; nra.
  Qed.

  Variable f : R -> R.
  Hypothesis Hf : forall t, continuous f t.
  Let F s := dtt s * f (tt s).

  Lemma sub_fin x y : is_RInt F x y (RInt f (tt x) (tt y)).
  Proof.
    apply (is_RInt_comp (V := R_CompleteNormedModule) f tt dtt x y).
    - intros s _. apply Hf.
    - intros s _. split; [apply tt_derive|apply dtt_cont].
  Qed.
  Lemma sub_inf x : is_RInt_gen F (at_point x) (Rbar_locally p_infty) (RInt f (tt x) 1).
  Proof.
    intros P HP.
    assert (HC : continuous (fun b => RInt f (tt x) b) 1).
    { apply (continuous_RInt_1 (V := R_CompleteNormedModule) f (tt x) 1).
      apply filter_forall. intros z. apply (RInt_correct (V := R_CompleteNormedModule)), cont_ex, Hf. }
    pose proof (tt_lim _ (HC P HP)) as HL.
    exists (fun z => z = x) (fun b => P (RInt f (tt x) (tt b))).
    - reflexivity.
    - exact HL.
    - intros z b -> Hb. exists (RInt f (tt x) (tt b)). split; [apply sub_fin|exact Hb].
  Qed.
End Sub.

(** the integral over s of c t'(s) M(t^2) exp(-X t^2) *)
Section Ops.
  Variables (a c X : R) (M : R -> R) (d : nat).
  Hypothesis (Ha : 0 < a) (HM : pol d M).
  Let f t := M (t * t) * exp (- (X * (t * t))).
  Let G s := c * (dtt a s * f (tt a s)).
  Let fc : forall t, continuous f t := wcont X M (fun t => pol_cont d M t HM).

  Lemma ops_coulomb : over_s Coulomb G (c * RInt f 0 1).
  Proof.
    cbn. apply (is_RInt_gen_scal (V := R_NormedModule) (fun s => dtt a s * f (tt a s)) c).
    pose proof (sub_inf a Ha f fc 0) as H. rewrite tt_0 in H. exact H.
  Qed.
  Lemma ops_erf w : over_s (Erf w) G (c * RInt f 0 (tt a w)).
  Proof.
    cbn. apply (is_RInt_scal (V := R_NormedModule) (fun s => dtt a s * f (tt a s)) 0 w c).
    pose proof (sub_fin a Ha f fc 0 w) as H. rewrite tt_0 in H. exact H.
  Qed.
  Lemma ops_erfc w : over_s (Erfc w) G (c * RInt f (tt a w) 1).
  Proof. cbn. apply (is_RInt_gen_scal (V := R_NormedModule) (fun s => dtt a s * f (tt a s)) c), (sub_inf a Ha f fc w). Qed.

  Lemma pol_shrink k : pol d (fun t => M (k * t)).
  Proof.
    clear f G fc. induction HM.
    - apply pol_const.
    - apply (pol_add _ (fun t => f (k * t)) (fun t => g (k * t))); auto.
    - eapply pol_ext; [apply (pol_scal _ (fun t => t * f (k * t)) k), pol_X; auto|]. intros; cbn; ring.
    - apply pol_up; auto.
    - eapply pol_ext; [apply IHp; auto|]. intros; cbn. apply H.
  Qed.
  Lemma int_shrink tau : RInt f 0 tau = tau * RInt (fun t => M (tau * tau * (t * t)) * exp (- (tau * tau * X * (t * t)))) 0 1.
  Proof.
    pose proof (RInt_comp_lin (V := R_CompleteNormedModule) f tau 0 0 1) as H.
    replace (tau * 0 + 0) with 0 in H by ring. replace (tau * 1 + 0) with tau in H by ring.
    rewrite <- H by (apply cont_ex, fc).
    rewrite <- RInt_mul.
    - apply RInt_ex. intros t. cbn. unfold scal, f. cbn. unfold mult. cbn. f_equal. f_equal; f_equal; ring.
    - apply cont_ex. intros t. apply (wcont (tau * tau * X) (fun t => M (tau * tau * t))). intros z. eapply pol_cont. apply pol_shrink.
  Qed.

  Variables (n : Z) (t2 w : Z -> R).
  Hypothesis Hd : (Z.of_nat d <= 2 * n - 1)%Z.
  Lemma quad_coulomb : rule n X 0 t2 w -> over_s Coulomb G (c * rsumz n (fun k => w k * M (t2 k))).
  Proof. intros H. rewrite (rule_pol n X 0 t2 w d M H HM Hd). apply ops_coulomb. Qed.
  Lemma quad_full tau : rule n (tau * tau * X) 0 t2 w ->
    RInt f 0 tau = tau * rsumz n (fun k => w k * M (tau * tau * t2 k)).
  Proof. intros H. rewrite int_shrink. f_equal. symmetry. apply (rule_pol n (tau * tau * X) 0 t2 w d (fun t => M (tau * tau * t)) H (pol_shrink _) Hd). Qed.
  Lemma quad_erf om : rule n (tt a om * tt a om * X) 0 t2 w ->
    over_s (Erf om) G (c * (tt a om * rsumz n (fun k => w k * M (tt a om * tt a om * t2 k)))).
  Proof. intros H. rewrite <- (quad_full _ H). apply ops_erf. Qed.
  Lemma quad_erfc om : rule n X (tt a om) t2 w -> over_s (Erfc om) G (c * rsumz n (fun k => w k * M (t2 k))).
  Proof. intros H. rewrite (rule_pol n X (tt a om) t2 w d M H HM Hd). apply ops_erfc. Qed.
  Lemma quad_erfc2 om t2' w' : rule n X 0 t2 w -> rule n (tt a om * tt a om * X) 0 t2' w' ->
    over_s (Erfc om) G (c * (rsumz n (fun k => w k * M (t2 k)) - tt a om * rsumz n (fun k => w' k * M (tt a om * tt a om * t2' k)))).
  Proof.
    intros H H'.
    assert (E : RInt f 0 (tt a om) = tt a om * rsumz n (fun k => w' k * M (tt a om * tt a om * t2' k))).
    { rewrite int_shrink. f_equal. symmetry. apply (rule_pol n _ 0 t2' w' d (fun t => M (tt a om * tt a om * t)) H' (pol_shrink _) Hd). }
    rewrite <- E. rewrite (rule_pol n X 0 t2 w d M H HM Hd).
    change (fun t => M (t * t) * exp (- (X * (t * t)))) with f.
    replace (RInt f 0 1 - RInt f 0 (tt a om)) with (RInt f (tt a om) 1); [apply ops_erfc|].
    rewrite <- (RInt_Chasles (V := R_CompleteNormedModule) f 0 (tt a om) 1) by (apply cont_ex, fc).
    unfold plus. cbn. ring.
  Qed.
End Ops.
