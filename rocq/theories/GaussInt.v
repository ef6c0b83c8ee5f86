(** GaussInt.v — one-dimensional Gaussian integrals over the real line. *)
From Coq Require Import Reals Lra Lia Psatz ZArith.
From Coquelicot Require Import Coquelicot.
From Verif Require Import Base RecSpec RecMoments.
Local Open Scope R_scope.

(** ** decay *)
Definition unbounded (Fl : (R -> Prop) -> Prop) : Prop :=
  forall M, Fl (fun x => M < Rabs x).

Lemma unbounded_p : unbounded (Rbar_locally p_infty).
Proof. intros M. exists (Rmax M 0). intros x Hx. pose proof (Rmax_l M 0). pose proof (Rmax_r M 0). rewrite Rabs_pos_eq; lra. Qed.
Lemma unbounded_m : unbounded (Rbar_locally m_infty).
Proof. intros M. exists (Rmin (-M) 0). intros x Hx. pose proof (Rmin_l (-M) 0). pose proof (Rmin_r (-M) 0).
  rewrite Rabs_left; lra. Qed.

Lemma exp_ge_1 y : 1 + y <= exp y.
Proof. destruct (Req_dec y 0) as [->|H]; [rewrite exp_0; lra|]. pose proof (exp_ineq1 y H). lra. Qed.

Lemma decay0 Fl {FF : Filter Fl} a : unbounded Fl -> 0 < a ->
  filterlim (fun x => exp (- (a * (x * x)))) Fl (locally 0).
Proof.
  intros U Ha. apply filterlim_locally. intros eps.
  specialize (U (1 + / (a * eps))). revert U. apply filter_imp. intros x Hx.
  change (Rabs (exp (- (a * (x * x))) - 0) < eps). rewrite Rminus_0_r, Rabs_pos_eq by apply Rlt_le, exp_pos.
  rewrite exp_Ropp. pose proof (cond_pos eps) as He.
  assert (Hae : 0 < a * eps) by (apply Rmult_lt_0_compat; lra).
  pose proof (Rinv_0_lt_compat _ Hae) as Hi.
  assert (Hxx : x * x = Rabs x * Rabs x) by (rewrite <- Rabs_mult, Rabs_pos_eq; nra).
  assert (H1 : / (a * eps) < x * x) by (rewrite Hxx; nra).
  assert (H2 : / eps < a * (x * x)).
  { apply Rmult_lt_compat_l with (r := a) in H1; [|lra].
    replace (a * / (a * eps)) with (/ eps) in H1; [lra|field; lra]. }
  pose proof (exp_ge_1 (a * (x * x))) as H3.
  assert (0 < / eps) by (apply Rinv_0_lt_compat; lra).
  rewrite <- (Rinv_inv eps). apply Rinv_lt_contravar; [apply Rmult_lt_0_compat|]; lra.
Qed.

Lemma decay1 Fl {FF : Filter Fl} a : unbounded Fl -> 0 < a ->
  filterlim (fun x => x * exp (- (a * (x * x)))) Fl (locally 0).
Proof.
  intros U Ha. apply filterlim_locally. intros eps.
  specialize (U (1 + / (a * eps))). revert U. apply filter_imp. intros x Hx.
  change (Rabs (x * exp (- (a * (x * x))) - 0) < eps). rewrite Rminus_0_r, Rabs_mult.
  rewrite (Rabs_pos_eq (exp _)) by apply Rlt_le, exp_pos.
  rewrite exp_Ropp. pose proof (cond_pos eps) as He.
  assert (Hae : 0 < a * eps) by (apply Rmult_lt_0_compat; lra).
  pose proof (Rinv_0_lt_compat _ Hae) as Hi.
  assert (Hxx : x * x = Rabs x * Rabs x) by (rewrite <- Rabs_mult, Rabs_pos_eq; nra).
  assert (H1 : / (a * eps) * Rabs x < x * x) by (rewrite Hxx; apply Rmult_lt_compat_r; lra).
  assert (H2 : / eps * Rabs x < a * (x * x)).
  { apply Rmult_lt_compat_l with (r := a) in H1; [|lra].
    replace (a * (/ (a * eps) * Rabs x)) with (/ eps * Rabs x) in H1; [lra|field; lra]. }
  pose proof (exp_ge_1 (a * (x * x))) as H3.
  apply (Rmult_lt_reg_r (exp (a * (x * x)))); [apply exp_pos|].
  rewrite Rmult_assoc, Rinv_l by (pose proof (exp_pos (a * (x * x))); lra). rewrite Rmult_1_r.
  apply (Rmult_lt_reg_l (/ eps)); [apply Rinv_0_lt_compat; lra|].
  rewrite <- Rmult_assoc, Rinv_l by lra. lra.
Qed.

Lemma filterlim_0_mult Fl {FF : Filter Fl} (f g : R -> R) :
  filterlim f Fl (locally 0) -> filterlim g Fl (locally 0) ->
  filterlim (fun x => f x * g x) Fl (locally 0).
Proof.
  intros Hf Hg. replace 0 with (0 * 0) by ring.
  apply (filterlim_comp_2 f g Rmult Hf Hg). apply (filterlim_mult (K := R_AbsRing) 0 0).
Qed.

Lemma decay_pow Fl {FF : Filter Fl} (h : R -> R) n :
  filterlim h Fl (locally 0) -> filterlim (fun x => h x ^ S n) Fl (locally 0).
Proof.
  intros H. induction n as [|n IH].
  - eapply filterlim_ext; [|exact H]. intros x. cbn. ring.
  - eapply filterlim_ext; [|exact (filterlim_0_mult Fl _ _ H IH)]. intros x. cbn. ring.
Qed.

Lemma exp_pow x n : exp x ^ n = exp (INR n * x).
Proof.
  induction n as [|n IH]; [cbn; rewrite Rmult_0_l, exp_0; reflexivity|].
  rewrite S_INR. cbn [pow]. rewrite IH, <- exp_plus. f_equal. ring.
Qed.

Lemma decay Fl {FF : Filter Fl} a n : unbounded Fl -> 0 < a ->
  filterlim (fun x => x ^ n * exp (- (a * (x * x)))) Fl (locally 0).
Proof.
  intros U Ha. destruct n as [|n].
  - eapply filterlim_ext; [|exact (decay0 Fl a U Ha)]. intros x. cbn. ring.
  - assert (Hn : 0 < INR (S n)) by (apply lt_0_INR; lia).
    assert (Ha' : 0 < a / INR (S n)) by (apply Rdiv_lt_0_compat; assumption).
    eapply filterlim_ext; [|exact (decay_pow Fl _ n (decay1 Fl _ U Ha'))]. intros x.
    cbv beta. rewrite Rpow_mult_distr, exp_pow. f_equal. f_equal. field. lra.
Qed.

Lemma unbounded_shift (Fl : (R -> Prop) -> Prop) {FF : Filter Fl} A : unbounded Fl -> unbounded (fun P => Fl (fun x => P (x - A))).
Proof.
  intros U M. specialize (U (M + Rabs A)). revert U. apply filter_imp. intros x Hx.
  pose proof (Rabs_triang (x - A) A) as T. replace (x - A + A) with x in T by ring. lra.
Qed.

Lemma decay_shift Fl {FF : Filter Fl} a A n : unbounded Fl -> 0 < a ->
  filterlim (fun x => (x - A) ^ n * exp (- (a * ((x - A) * (x - A))))) Fl (locally 0).
Proof.
  intros U Ha.
  set (Fl' := fun P : R -> Prop => Fl (fun x => P (x - A))).
  assert (FF' : Filter Fl').
  { split; unfold Fl'.
    - apply filter_true.
    - intros P Q. apply filter_and.
    - intros P Q HPQ. apply filter_imp. auto. }
  exact (decay Fl' a n (unbounded_shift Fl A U) Ha).
Qed.

Lemma cont_d (f : R -> R) x : ex_derive f x -> continuous f x.
Proof. exact (ex_derive_continuous (V := R_NormedModule) f x). Qed.
Lemma int_d (f : R -> R) a b : (forall x, ex_derive f x) -> ex_RInt f a b.
Proof.
  intros H. apply (ex_RInt_continuous (V := R_CompleteNormedModule)). intros x _. exact (cont_d f x (H x)).
Qed.

(** ** the Gaussian integral *)
Definition g1 (x : R) : R := exp (- (x * x)).
Definition Phi (t : R) : R := RInt g1 0 t.
Definition hh (t x : R) : R := exp (- (t * t * (1 + x * x))) / (1 + x * x).
Definition HH (t : R) : R := RInt (hh t) 0 1.

Lemma g1_cont x : continuous g1 x.
Proof. apply (cont_d g1). unfold g1. auto_derive. exact I. Qed.
Lemma Phi_derive t : is_derive Phi t (g1 t).
Proof.
  unfold Phi. apply (is_derive_RInt g1 _ 0 t).
  - apply filter_forall. intros b. apply (RInt_correct (V := R_CompleteNormedModule) g1). apply (ex_RInt_continuous (V := R_CompleteNormedModule) g1). intros; apply g1_cont.
  - apply g1_cont.
Qed.

Lemma sq1 x : 0 < 1 + x * x. Proof. nra. Qed.

Lemma hh_derive t x : is_derive (fun u => hh u x) t (- (2 * t) * exp (- (t * t * (1 + x * x)))).
Proof.
  unfold hh. auto_derive; [pose proof (sq1 x); lra|]. pose proof (sq1 x). field. lra.
Qed.

Lemma hh_cont t x : continuous (hh t) x.
Proof. apply (cont_d (hh t)). unfold hh. auto_derive. pose proof (sq1 x). lra. Qed.

Lemma HH_derive t : is_derive HH t (- (2 * t) * RInt (fun x => exp (- (t * t * (1 + x * x)))) 0 1).
Proof.
  assert (E : - (2 * t) * RInt (fun x => exp (- (t * t * (1 + x * x)))) 0 1 =
              RInt (fun x => Derive (fun u => hh u x) t) 0 1).
  { change (- (2 * t) * RInt (fun x => exp (- (t * t * (1 + x * x)))) 0 1) with
      (scal (- (2 * t)) (RInt (fun x => exp (- (t * t * (1 + x * x)))) 0 1)).
    rewrite <- (RInt_scal (fun x => exp (- (t * t * (1 + x * x))))).
    - apply RInt_ext. intros x _. symmetry. apply is_derive_unique. apply hh_derive.
    - apply int_d. intros x. auto_derive. exact I. }
  rewrite E. unfold HH. apply is_derive_RInt_param.
  - apply filter_forall. intros u x _. eexists. apply hh_derive.
  - intros x _. apply continuity_2d_pt_ext with (fun u v => - (2 * u) * exp (- (u * u * (1 + v * v)))).
    { intros u v. symmetry. apply is_derive_unique. apply hh_derive. }
    apply continuity_2d_pt_mult.
    + apply continuity_1d_2d_pt_comp with (f := fun u => - (2 * u)) (g := fun u _ => u).
      * reg.
      * apply continuity_2d_pt_id1.
    + apply continuity_1d_2d_pt_comp with (f := exp) (g := fun u v => - (u * u * (1 + v * v))).
      * reg.
      * apply continuity_2d_pt_opp. repeat apply continuity_2d_pt_mult; try apply continuity_2d_pt_id1.
        apply continuity_2d_pt_plus; [apply continuity_2d_pt_const|].
        apply continuity_2d_pt_mult; apply continuity_2d_pt_id2.
  - apply filter_forall. intros u. apply (ex_RInt_continuous (V := R_CompleteNormedModule) (hh u)). intros; apply hh_cont.
Qed.

Lemma HH_derive' t : is_derive HH t (- (2 * g1 t * Phi t)).
Proof.
  replace (- (2 * g1 t * Phi t)) with (- (2 * t) * RInt (fun x => exp (- (t * t * (1 + x * x)))) 0 1);
    [apply HH_derive|].
  assert (X : RInt (fun x => scal t (g1 (t * x + 0))) 0 1 = Phi t).
  { transitivity (RInt g1 (t * 0 + 0) (t * 1 + 0)).
    2:{ unfold Phi. f_equal; ring. }
    apply (RInt_comp_lin (V := R_CompleteNormedModule) g1 t 0 0 1).
    apply (ex_RInt_continuous (V := R_CompleteNormedModule) g1). intros; apply g1_cont. }
  rewrite <- X.
  assert (Y : RInt (fun x => scal (t * g1 t) (exp (- (t * t * (x * x))))) 0 1 =
             g1 t * RInt (fun x => scal t (g1 (t * x + 0))) 0 1).
  { change (g1 t * RInt (fun x => scal t (g1 (t * x + 0))) 0 1) with
      (scal (g1 t) (RInt (fun x => scal t (g1 (t * x + 0))) 0 1)).
    rewrite <- (RInt_scal (fun x => scal t (g1 (t * x + 0)))).
    - apply RInt_ext. intros x _. change (t * g1 t * exp (- (t * t * (x * x))) = g1 t * (t * g1 (t * x + 0))).
      unfold g1. replace (- ((t * x + 0) * (t * x + 0))) with (- (t * t * (x * x))) by ring. ring.
    - apply int_d. intros x. change (ex_derive (fun x => t * g1 (t * x + 0)) x).
      unfold g1. auto_derive. exact I. }
  transitivity (- 2 * (g1 t * RInt (fun x => scal t (g1 (t * x + 0))) 0 1)); [|ring].
  rewrite <- Y.
  assert (W : RInt (fun x => scal (t * g1 t) (exp (- (t * t * (x * x))))) 0 1 =
              t * RInt (fun x => exp (- (t * t * (1 + x * x)))) 0 1).
  { change (t * RInt (fun x => exp (- (t * t * (1 + x * x)))) 0 1) with
      (scal t (RInt (fun x => exp (- (t * t * (1 + x * x)))) 0 1)).
    rewrite <- (RInt_scal (fun x => exp (- (t * t * (1 + x * x))))).
    - apply RInt_ext. intros x _.
      change (t * g1 t * exp (- (t * t * (x * x))) = t * exp (- (t * t * (1 + x * x)))).
      unfold g1. rewrite Rmult_assoc, <- exp_plus. f_equal. f_equal. ring.
    - apply int_d. intros x. auto_derive. exact I. }
  rewrite W. ring.
Qed.

Lemma sum_const t : Phi t * Phi t + HH t = PI / 4.
Proof.
  assert (H0 : Phi 0 * Phi 0 + HH 0 = PI / 4).
  { unfold Phi, HH. rewrite RInt_point. change (zero : R) with 0. rewrite Rmult_0_l, Rplus_0_l.
    apply is_RInt_unique. apply (is_RInt_ext (fun x => / (1 + x ^ 2))).
    { intros x _. unfold hh. rewrite !Rmult_0_l, Ropp_0, exp_0. cbn. field. pose proof (sq1 x). lra. }
    replace (PI / 4) with (minus (atan 1) (atan 0)).
    2:{ rewrite atan_1, atan_0. change (PI / 4 + - 0 = PI / 4). ring. }
    apply (is_RInt_derive atan (fun x => / (1 + x ^ 2))).
    - intros x _. rewrite is_derive_Reals. pose proof (derivable_pt_lim_atan x) as X.
      exact X.
    - intros x _. apply cont_d. auto_derive. pose proof (sq1 x). nra. }
  rewrite <- H0.
  assert (D : forall x, is_derive (fun t => Phi t * Phi t + HH t) x 0).
  { intros x. replace 0 with (plus (g1 x * Phi x + Phi x * g1 x) (- (2 * g1 x * Phi x))).
    2:{ change (g1 x * Phi x + Phi x * g1 x + - (2 * g1 x * Phi x) = 0). ring. }
    apply (is_derive_plus (fun t => Phi t * Phi t) HH); [|apply HH_derive'].
    apply (is_derive_mult Phi Phi x); [apply Phi_derive|apply Phi_derive|].
    intros; apply Rmult_comm. }
  destruct (MVT_gen (fun t => Phi t * Phi t + HH t) 0 t (fun _ => 0)) as (c & _ & E).
  - intros; apply D.
  - intros x _. apply continuity_pt_filterlim. apply (cont_d (fun t => Phi t * Phi t + HH t)). eexists; apply D.
  - lra.
Qed.

Lemma HH_bound t : 0 <= HH t <= g1 t.
Proof.
  unfold HH. split.
  - apply RInt_ge_0; [lra|apply (ex_RInt_continuous (V := R_CompleteNormedModule) (hh t)); intros; apply hh_cont|].
    intros x _. unfold hh. apply Rlt_le, Rdiv_lt_0_compat; [apply exp_pos|apply sq1].
  - replace (g1 t) with (RInt (fun _ => g1 t) 0 1).
    2:{ rewrite RInt_const. change ((1 - 0) * g1 t = g1 t). ring. }
    apply RInt_le; [lra|apply (ex_RInt_continuous (V := R_CompleteNormedModule) (hh t)); intros; apply hh_cont
                    |apply ex_RInt_const|].
    intros x _. unfold hh, g1. pose proof (sq1 x). pose proof (exp_pos (- (t * t))).
    assert (exp (- (t * t * (1 + x * x))) <= exp (- (t * t))).
    { destruct (Req_dec (t * t * (1 + x * x)) (t * t)) as [->|Hne]; [lra|].
      apply Rlt_le, exp_increasing.
      assert (0 <= t * t * (x * x)) by nra. lra. }
    apply (Rmult_le_reg_r (1 + x * x)); [lra|]. unfold Rdiv. rewrite Rmult_assoc, Rinv_l by lra. nra.
Qed.

Lemma Phi_lim : filterlim Phi (Rbar_locally p_infty) (locally (sqrt PI / 2)).
Proof.
  assert (Hp := PI_RGT_0).
  apply (filterlim_ext_loc (fun t => sqrt (PI / 4 - HH t))).
  { exists 0. intros t Ht. rewrite <- (sum_const t).
    replace (Phi t * Phi t + HH t - HH t) with (Phi t * Phi t) by ring.
    apply sqrt_square. unfold Phi. apply RInt_ge_0; [lra| |].
    - apply (ex_RInt_continuous (V := R_CompleteNormedModule) g1). intros; apply g1_cont.
    - intros; apply Rlt_le, exp_pos. }
  assert (E : sqrt PI / 2 = sqrt (PI / 4 - 0)).
  { rewrite Rminus_0_r. unfold Rdiv. rewrite sqrt_mult by lra.
    replace (/ 4) with (/ 2 * / 2) by field. rewrite sqrt_square by lra. reflexivity. }
  rewrite E.
  apply (filterlim_comp _ _ _ (fun t => PI / 4 - HH t) sqrt _ (locally (PI / 4 - 0))).
  - apply (filterlim_comp _ _ _ HH (fun h => PI / 4 - h) _ (locally 0)).
    + apply filterlim_locally. intros eps.
      pose proof (decay0 (Rbar_locally p_infty) 1 unbounded_p ltac:(lra)) as X.
      rewrite filterlim_locally in X. specialize (X eps). revert X. apply filter_imp. intros t Ht.
      change (Rabs (exp (- (1 * (t * t))) - 0) < eps) in Ht. change (Rabs (HH t - 0) < eps).
      rewrite Rminus_0_r in *. pose proof (HH_bound t) as [B1 B2]. rewrite Rabs_pos_eq by lra.
      rewrite Rabs_pos_eq in Ht by apply Rlt_le, exp_pos. rewrite Rmult_1_l in Ht. unfold g1 in B2. lra.
    + apply (cont_d (fun h => PI / 4 - h)). auto_derive. exact I.
  - apply continuous_sqrt.
Qed.

Lemma Phi_odd t : Phi (- t) = - Phi t.
Proof.
  assert (X : RInt (fun x => scal (-1) (g1 (-1 * x + 0))) 0 t = Phi (- t)).
  { transitivity (RInt g1 (-1 * 0 + 0) (-1 * t + 0)).
    2:{ unfold Phi. f_equal; ring. }
    apply (RInt_comp_lin (V := R_CompleteNormedModule) g1 (-1) 0 0 t).
    apply (ex_RInt_continuous (V := R_CompleteNormedModule) g1). intros; apply g1_cont. }
  rewrite <- X. unfold Phi. change (- RInt g1 0 t) with (opp (RInt g1 0 t)).
  rewrite <- (RInt_opp g1).
  - apply RInt_ext. intros x _. change (-1 * g1 (-1 * x + 0) = - g1 x). unfold g1.
    replace (- ((-1 * x + 0) * (-1 * x + 0))) with (- (x * x)) by ring. ring.
  - apply (ex_RInt_continuous (V := R_CompleteNormedModule) g1). intros; apply g1_cont.
Qed.

Lemma Phi_lim_m : filterlim Phi (Rbar_locally m_infty) (locally (- (sqrt PI / 2))).
Proof.
  apply (filterlim_ext (fun t => - Phi (- t))).
  { intros t. rewrite Phi_odd. ring. }
  apply (filterlim_comp _ _ _ (fun t => Phi (- t)) Ropp _ (locally (sqrt PI / 2))).
  - apply (filterlim_comp _ _ _ Ropp Phi _ (Rbar_locally p_infty)).
    + intros P [M HM]. exists (- M). intros x Hx. apply HM. lra.
    + apply Phi_lim.
  - apply (filterlim_opp (K := R_AbsRing) (V := R_NormedModule) (sqrt PI / 2)).
Qed.

(** Integral over the whole real line *)
Definition RIntLine (f : R -> R) (l : R) : Prop :=
  is_RInt_gen f (Rbar_locally m_infty) (Rbar_locally p_infty) l.

Lemma line_derive (f F : R -> R) la lb :
  (forall x, is_derive F x (f x)) -> (forall x, continuous f x) ->
  filterlim F (Rbar_locally m_infty) (locally la) ->
  filterlim F (Rbar_locally p_infty) (locally lb) -> RIntLine f (lb - la).
Proof.
  intros HF Hc Ha Hb. unfold RIntLine.
  apply (is_RInt_gen_ext (Derive F)).
  { apply filter_forall. intros ab x _. apply is_derive_unique, HF. }
  apply is_RInt_gen_Derive; try assumption; try (apply filter_forall; intros ab x _).
  - eexists. apply HF.
  - apply (continuous_ext f); [|apply Hc]. intros y. symmetry. apply is_derive_unique, HF.
Qed.

Lemma line_plus f g a b : RIntLine f a -> RIntLine g b -> RIntLine (fun x => f x + g x) (a + b).
Proof. intros. apply (is_RInt_gen_plus f g a b); assumption. Qed.
Lemma line_scal f k a : RIntLine f a -> RIntLine (fun x => k * f x) (k * a).
Proof. intros. apply (is_RInt_gen_scal f k a); assumption. Qed.
Lemma line_ext f g a : (forall x, f x = g x) -> RIntLine f a -> RIntLine g a.
Proof. intros E. apply is_RInt_gen_ext. apply filter_forall. intros; apply E. Qed.
Lemma line_unique f a b : RIntLine f a -> RIntLine f b -> a = b.
Proof.
  intros Ha Hb. unfold RIntLine in *.
  rewrite <- (is_RInt_gen_unique (Fa := Rbar_locally m_infty) (Fb := Rbar_locally p_infty) f a Ha).
  exact (is_RInt_gen_unique (Fa := Rbar_locally m_infty) (Fb := Rbar_locally p_infty) f b Hb).
Qed.

Lemma line_gauss p P : 0 < p -> RIntLine (fun x => exp (- (p * ((x - P) * (x - P))))) (sqrt (PI / p)).
Proof.
  intros Hp. assert (Hs : 0 < sqrt p) by (apply sqrt_lt_R0; lra).
  assert (Hpi := PI_RGT_0).
  replace (sqrt (PI / p)) with (/ sqrt p * (sqrt PI / 2) - / sqrt p * (- (sqrt PI / 2))).
  2:{ rewrite sqrt_div by lra. field. lra. }
  apply (line_derive _ (fun x => / sqrt p * Phi (sqrt p * (x - P)))).
  - intros x.
    replace (exp (- (p * ((x - P) * (x - P))))) with (scal (/ sqrt p) (scal (sqrt p) (g1 (sqrt p * (x - P))))).
    + apply (is_derive_scal (fun x => Phi (sqrt p * (x - P)))).
      apply (is_derive_comp Phi (fun x => sqrt p * (x - P))); [apply Phi_derive|].
      auto_derive; [exact I|ring].
    + change (/ sqrt p * (sqrt p * g1 (sqrt p * (x - P))) = exp (- (p * ((x - P) * (x - P))))).
      rewrite <- Rmult_assoc, Rinv_l, Rmult_1_l by lra. unfold g1. f_equal. f_equal.
      rewrite <- (sqrt_sqrt p) at 3 by lra. ring.
  - intros x. apply (cont_d (fun x => exp (- (p * ((x - P) * (x - P)))))). auto_derive. exact I.
  - apply (filterlim_comp _ _ _ (fun x => Phi (sqrt p * (x - P))) (Rmult (/ sqrt p)) _ (locally (- (sqrt PI / 2)))).
    + apply (filterlim_comp _ _ _ (fun x => sqrt p * (x - P)) Phi _ (Rbar_locally m_infty)); [|apply Phi_lim_m].
      intros Q [M HM]. exists (P + M / sqrt p). intros x Hx. apply HM.
      apply (Rmult_lt_reg_l (/ sqrt p)); [apply Rinv_0_lt_compat; lra|].
      rewrite <- Rmult_assoc, Rinv_l, Rmult_1_l by lra. unfold Rdiv in Hx. lra.
    + apply (filterlim_scal_r (K := R_AbsRing) (V := R_NormedModule) (/ sqrt p) (- (sqrt PI / 2))).
  - apply (filterlim_comp _ _ _ (fun x => Phi (sqrt p * (x - P))) (Rmult (/ sqrt p)) _ (locally (sqrt PI / 2))).
    + apply (filterlim_comp _ _ _ (fun x => sqrt p * (x - P)) Phi _ (Rbar_locally p_infty)); [|apply Phi_lim].
      intros Q [M HM]. exists (P + M / sqrt p). intros x Hx. apply HM.
      apply (Rmult_lt_reg_l (/ sqrt p)); [apply Rinv_0_lt_compat; lra|].
      rewrite <- Rmult_assoc, Rinv_l, Rmult_1_l by lra. unfold Rdiv in Hx. lra.
    + apply (filterlim_scal_r (K := R_AbsRing) (V := R_NormedModule) (/ sqrt p) (sqrt PI / 2)).
Qed.

(** ** moments of a one-dimensional Gaussian *)
Section Moments.
  Variables (p P : R).
  Hypothesis Hp : 0 < p.
  Definition wgt (x : R) : R := exp (- (p * ((x - P) * (x - P)))).

  Lemma wgt_pow_lim Fl {FF : ProperFilter Fl} A n : unbounded Fl ->
    filterlim (fun x => (x - A) ^ n * wgt x) Fl (locally 0).
  Proof.
    intros U.
    (* (x-A)^n as a polynomial in x-P, by induction: multiply by (x-P) + (P-A) *)
    assert (X : forall n m, filterlim (fun x => (x - A) ^ n * ((x - P) ^ m * wgt x)) Fl (locally 0)).
    { induction n0 as [|k IH]; intros m.
      - eapply filterlim_ext; [|exact (decay_shift Fl p P m U Hp)]. intros x. cbn. unfold wgt. ring.
      - pose proof (IH (S m)) as H1. pose proof (IH m) as H2.
        assert (H3 : filterlim (fun x => (P - A) * ((x - A) ^ k * ((x - P) ^ m * wgt x))) Fl (locally 0)).
        { replace 0 with ((P - A) * 0) by ring.
          apply (filterlim_comp _ _ _ (fun x => (x - A) ^ k * ((x - P) ^ m * wgt x)) (Rmult (P - A)) _ (locally 0)); [exact H2|].
          apply (filterlim_scal_r (K := R_AbsRing) (V := R_NormedModule) (P - A) 0). }
        replace 0 with (0 + 0) by ring.
        eapply filterlim_ext; [|exact (filterlim_comp_2 _ _ Rplus H1 H3
             (filterlim_plus (K := R_AbsRing) (V := R_NormedModule) 0 0))].
        intros x. cbn. ring. }
    eapply filterlim_ext; [|exact (X n 0%nat)]. intros x. cbn. ring.
  Qed.

  Lemma wgt_pow_derive A n x : is_derive (fun x => (x - A) ^ n * wgt x) x
    (INR n * (x - A) ^ pred n * wgt x - 2 * p * (x - P) * ((x - A) ^ n * wgt x)).
  Proof.
    unfold wgt. auto_derive; [exact I|]. unfold Rminus.
    generalize (exp (- (p * ((x + - P) * (x + - P))))) ((x + - A) ^ Nat.pred n) ((x + - A) ^ n).
    intros; ring.
  Qed.

  Lemma line_parts A n :
    RIntLine (fun x => INR n * (x - A) ^ pred n * wgt x - 2 * p * (x - P) * ((x - A) ^ n * wgt x)) 0.
  Proof.
    replace 0 with (0 - 0) by ring.
    apply (line_derive _ (fun x => (x - A) ^ n * wgt x)).
    - intros x. apply wgt_pow_derive.
    - intros x. apply cont_d. unfold wgt. auto_derive. exact I.
    - exact (wgt_pow_lim (Rbar_locally m_infty) A n unbounded_m).
    - exact (wgt_pow_lim (Rbar_locally p_infty) A n unbounded_p).
  Qed.

  Lemma line_raise A n I0 I1 :
    RIntLine (fun x => (x - A) ^ n * wgt x) I0 ->
    RIntLine (fun x => (x - A) ^ pred n * wgt x) I1 ->
    RIntLine (fun x => (x - A) ^ S n * wgt x) ((P - A) * I0 + / (2 * p) * (INR n * I1)).
  Proof.
    intros H0 H1.
    replace ((P - A) * I0 + / (2 * p) * (INR n * I1)) with
      ((P - A) * I0 + (/ (2 * p) * INR n * I1 + - / (2 * p) * 0)) by ring.
    eapply line_ext; [|exact (line_plus _ _ _ _ (line_scal _ (P - A) _ H0)
       (line_plus _ _ _ _ (line_scal _ (/ (2 * p) * INR n) _ H1)
          (line_scal _ (- / (2 * p)) _ (line_parts A n))))].
    intros x. cbn [pow]. field. lra.
  Qed.

  (** Moment table on the real line: [S] satisfies the identities of RecSpec with
      b = 1/(2p), so it is, up to the value at the origin, the table of integrals. *)
  Lemma line_moments A B S :
    gauss1 Rplus Rmult IZR (/ (2 * p)) (P - A) (P - B) S ->
    RIntLine wgt (S 0%Z 0%Z) ->
    forall i j, RIntLine (fun x => (x - A) ^ i * (x - B) ^ j * wgt x) (S (Z.of_nat i) (Z.of_nat j)).
  Proof.
    intros G H0.
    assert (X : forall i, RIntLine (fun x => (x - A) ^ i * wgt x) (S (Z.of_nat i) 0%Z) /\
                          RIntLine (fun x => (x - A) ^ Datatypes.S i * wgt x) (S (Z.of_nat (Datatypes.S i)) 0%Z)).
    { induction i as [|i [IH1 IH2]].
      - assert (X0 : RIntLine (fun x => (x - A) ^ 0 * wgt x) (S 0%Z 0%Z)).
        { eapply line_ext; [|exact H0]. intros x. cbn. ring. }
        split; [exact X0|].
        pose proof (line_raise A 0 _ _ X0 X0) as R.
        change (Z.of_nat 1) with (0 + 1)%Z. rewrite (g1_i _ _ _ _ _ _ _ G) by lia.
        cbn [INR] in R. replace (_ + _) with ((P - A) * S 0%Z 0%Z + / (2 * p) * (0 * S 0%Z 0%Z)) by ring.
        exact R.
      - split; [exact IH2|].
        pose proof (line_raise A (Datatypes.S i) _ _ IH2 IH1) as R.
        replace (Z.of_nat (Datatypes.S (Datatypes.S i))) with (Z.of_nat (Datatypes.S i) + 1)%Z by lia.
        rewrite (g1_i _ _ _ _ _ _ _ G) by lia.
        replace (Z.of_nat (Datatypes.S i) - 1)%Z with (Z.of_nat i) by lia.
        rewrite INR_IZR_INZ in R.
        replace (_ + _) with ((P - A) * S (Z.of_nat (Datatypes.S i)) 0%Z
            + / (2 * p) * (IZR (Z.of_nat (Datatypes.S i)) * S (Z.of_nat i) 0%Z)) by ring.
        exact R. }
    intros i j. revert i. induction j as [|j IH]; intros i.
    - eapply line_ext; [|exact (proj1 (X i))]. intros x. cbn. ring.
    - replace (Z.of_nat (Datatypes.S j)) with (Z.of_nat j + 1)%Z by lia.
      replace (S (Z.of_nat i) (Z.of_nat j + 1)%Z) with
        (S (Z.of_nat (Datatypes.S i)) (Z.of_nat j) + (A - B) * S (Z.of_nat i) (Z.of_nat j)).
      + eapply line_ext; [|exact (line_plus _ _ _ _ (IH (Datatypes.S i)) (line_scal _ (A - B) _ (IH i)))].
        intros x. cbn [pow]. ring.
      + replace (Z.of_nat (Datatypes.S i)) with (Z.of_nat i + 1)%Z by lia.
        rewrite (g1_i _ _ _ _ _ _ _ G), (g1_j _ _ _ _ _ _ _ G) by lia. ring.
  Qed.

  Lemma line_moments_scaled A B S w :
    gauss1 Rplus Rmult IZR (/ (2 * p)) (P - A) (P - B) S -> S 0%Z 0%Z = w ->
    forall i j, RIntLine (fun x => (x - A) ^ i * (x - B) ^ j * (w / sqrt (PI / p) * wgt x)) (S (Z.of_nat i) (Z.of_nat j)).
  Proof.
    intros G E i j. pose proof PI_RGT_0.
    assert (Hs : 0 < sqrt (PI / p)) by (apply sqrt_lt_R0, Rdiv_lt_0_compat; lra).
    destruct (Req_dec w 0) as [Hw|Hw].
    - assert (Z0 : forall i j, (0 <= i)%Z -> (0 <= j)%Z -> S i j = 0 * S i j).
      { apply (gauss1_unique 0 1 Rplus Rmult Rminus Ropp IZR RTheory eq_refl (/ (2 * p)) (P - A) (P - B) S (fun i j => 0 * S i j) G).
        - split; intros; ring.
        - rewrite E, Hw. cbn. ring. }
      rewrite Z0 by lia. rewrite Hw.
      replace (0 * S (Z.of_nat i) (Z.of_nat j)) with (0 * sqrt (PI / p)) by ring.
      eapply line_ext; [|exact (line_scal _ 0 _ (line_gauss p P Hp))]. intros x. unfold Rdiv. ring.
    - set (S' := fun i j => sqrt (PI / p) / w * S i j).
      assert (G' : gauss1 Rplus Rmult IZR (/ (2 * p)) (P - A) (P - B) S').
      { split; intros a b Ha Hb; unfold S'.
        - rewrite (g1_i _ _ _ _ _ _ _ G) by assumption. ring.
        - rewrite (g1_j _ _ _ _ _ _ _ G) by assumption. ring. }
      assert (H0 : RIntLine wgt (S' 0%Z 0%Z)).
      { unfold S'. rewrite E. replace (sqrt (PI / p) / w * w) with (sqrt (PI / p)) by (field; lra).
        apply line_gauss, Hp. }
      replace (S (Z.of_nat i) (Z.of_nat j)) with (w / sqrt (PI / p) * S' (Z.of_nat i) (Z.of_nat j)).
      2:{ unfold S'. field. split; lra. }
      eapply line_ext; [|exact (line_scal _ (w / sqrt (PI / p)) _ (line_moments A B S' G' H0 i j))].
      intros x. cbv beta. ring.
  Qed.
End Moments.

(** Product of two Gaussians *)
Lemma gauss_product a c A B x : a + c <> 0 ->
  exp (- (a * ((x - A) * (x - A))) - c * ((x - B) * (x - B))) =
  exp (- (a * c / (a + c) * ((A - B) * (A - B)))) * wgt (a + c) ((a * A + c * B) / (a + c)) x.
Proof. intros H. unfold wgt. rewrite <- exp_plus. f_equal. field. exact H. Qed.

(** A table with the moments' identities is the table of integrals of the weight
    [E], scaled to the table's own value at the origin. *)
Lemma table_is_integral p P K (E : R -> R) A B S w :
  0 < p -> 0 < K -> (forall x, E x = K * wgt p P x) ->
  gauss1 Rplus Rmult IZR (/ (2 * p)) (P - A) (P - B) S -> S 0%Z 0%Z = w ->
  forall i j, exists I0 I,
    RIntLine E I0 /\ 0 < I0 /\ RIntLine (fun x => (x - A) ^ i * (x - B) ^ j * E x) I /\
    S (Z.of_nat i) (Z.of_nat j) = w / I0 * I.
Proof.
  intros Hp HK HE G E0 i j. pose proof PI_RGT_0 as Hpi.
  assert (Hs : 0 < sqrt (PI / p)) by (apply sqrt_lt_R0, Rdiv_lt_0_compat; lra).
  assert (injS : forall i, (0 <= i)%Z -> IZR (i + 1) = IZR i + 1) by (intros; apply plus_IZR).
  destruct (gauss1_exist 0 1 Rplus Rmult Rminus Ropp IZR RTheory eq_refl injS (/ (2 * p)) (P - A) (P - B) (sqrt (PI / p)))
    as (T & GT & T0).
  exists (K * sqrt (PI / p)), (K * T (Z.of_nat i) (Z.of_nat j)). repeat split.
  - eapply line_ext; [|exact (line_scal _ K _ (line_gauss p P Hp))]. intros x. rewrite HE. reflexivity.
  - apply Rmult_lt_0_compat; assumption.
  - eapply line_ext; [|refine (line_scal _ K _ (line_moments p P Hp A B T GT _ i j))].
    + intros x. rewrite HE. ring.
    + rewrite T0. apply line_gauss, Hp.
  - rewrite (gauss1_unique 0 1 Rplus Rmult Rminus Ropp IZR RTheory eq_refl _ _ _ S
       (fun i j => w / (K * sqrt (PI / p)) * (K * T i j)) G); try lia.
    + reflexivity.
    + split; intros a b Ha Hb.
      * rewrite (g1_i _ _ _ _ _ _ _ GT) by assumption. ring.
      * rewrite (g1_j _ _ _ _ _ _ _ GT) by assumption. ring.
    + rewrite E0, T0. field. split; lra.
Qed.
