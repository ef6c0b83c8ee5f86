(** NormProof.v — half-line Gaussian moments and the gamma function at half integers. *)
From Coq Require Import Reals ZArith Lra Lia Factorial.
From Coquelicot Require Import Coquelicot.
From Verif Require Import GaussInt NormModel.
Local Open Scope R_scope.

Definition Half (f : R -> R) (l : R) : Prop := is_RInt_gen f (at_point 0) (Rbar_locally p_infty) l.

Lemma half_derive (f F : R -> R) l :
  (forall x, is_derive F x (f x)) -> (forall x, continuous f x) ->
  filterlim F (Rbar_locally p_infty) (locally l) -> Half f (l - F 0).
Proof.
  intros HF Hf Hl. unfold Half, is_RInt_gen.
  intros P HP.
  assert (Hl' : filterlim (fun b => F b - F 0) (Rbar_locally p_infty) (locally (l - F 0))).
  { apply (filterlim_comp_2 (F := Rbar_locally p_infty) (G := locally l) (H := locally (- F 0)) F (fun _ => - F 0) Rplus).
    - exact Hl.
    - apply filterlim_const.
    - exact (filterlim_plus (V := R_NormedModule) l (- F 0)). }
  apply (Filter_prod _ _ _ (fun x => x = 0) (fun b => P (F b - F 0))).
  - unfold at_point. reflexivity.
  - apply Hl'. exact HP.
  - intros x b -> Hb. exists (F b - F 0). split; [|exact Hb]. cbn.
    apply (is_RInt_derive F f 0 b); intros; [apply HF|apply Hf].
Qed.

Lemma half_plus f g a b : Half f a -> Half g b -> Half (fun x => f x + g x) (a + b).
Proof. intros. apply (is_RInt_gen_plus f g a b); assumption. Qed.
Lemma half_scal f k a : Half f a -> Half (fun x => k * f x) (k * a).
Proof. intros. apply (is_RInt_gen_scal f k a); assumption. Qed.
Lemma half_ext f g a : (forall x, f x = g x) -> Half f a -> Half g a.
Proof. intros E. apply is_RInt_gen_ext. apply filter_forall. intros; apply E. Qed.
Lemma half_unique f a b : Half f a -> Half f b -> a = b.
Proof.
  intros Ha Hb. pose proof (is_RInt_gen_unique f a Ha). pose proof (is_RInt_gen_unique f b Hb). congruence.
Qed.

Lemma der_eq (f : R -> R) x a b : a = b -> is_derive f x a -> is_derive f x b.
Proof. intros ->. auto. Qed.

(** antiderivatives of r^(2m) exp (- b r^2) *)
Definition mono (b : R) (m : nat) (r : R) : R := r ^ (2 * m) * exp (- (b * (r * r))).
Lemma mono_d b m x : ex_derive (mono b m) x.
Proof. unfold mono. auto_derive. exact I. Qed.
Definition anti (b : R) (m : nat) (r : R) : R := RInt (mono b m) 0 r.
Lemma anti_d b m r : is_derive (anti b m) r (mono b m r).
Proof.
  unfold anti. apply (is_derive_RInt (mono b m) _ 0 r).
  - apply filter_forall. intros x. apply (RInt_correct (V := R_CompleteNormedModule) (mono b m)).
    apply int_d. intros; apply mono_d.
  - apply cont_d, mono_d.
Qed.
Lemma anti_0 b m : anti b m 0 = 0.
Proof. unfold anti. rewrite RInt_point. reflexivity. Qed.

(** the odd double factorials (2m-1)!! as a real *)
Fixpoint odd2 (m : nat) : R := match m with O => 1 | S m => INR (2 * m + 1) * odd2 m end.
Definition moment (b : R) (m : nat) : R := odd2 m / (2 * b) ^ m * (sqrt PI / (2 * sqrt b)).

Lemma anti_step b m r : 0 < b ->
  anti b (S m) r = INR (2 * m + 1) / (2 * b) * anti b m r - r ^ (2 * m + 1) * exp (- (b * (r * r))) / (2 * b).
Proof.
  intros Hb.
  set (g := fun r => anti b (S m) r - (INR (2 * m + 1) / (2 * b) * anti b m r - r ^ (2 * m + 1) * exp (- (b * (r * r))) / (2 * b))).
  assert (D : forall x, is_derive g x 0).
  { intros x. unfold g.
    assert (D3 : is_derive (fun r => r ^ (2 * m + 1) * exp (- (b * (r * r))) / (2 * b)) x
       (INR (2 * m + 1) / (2 * b) * mono b m x - mono b (S m) x)).
    { unfold mono. auto_derive; [exact I|].
      change (m + (m + 0))%nat with (2 * m)%nat.
      change (Init.Nat.pred (2 * m + 1)) with (pred (2 * m + 1)).
      replace (pred (2 * m + 1)) with (2 * m)%nat by lia.
      replace (x ^ (2 * S m)) with (x * x * x ^ (2 * m)) by (replace (2 * S m)%nat with (S (S (2 * m))) by lia; cbn [pow]; ring).
      replace (x ^ (2 * m + 1)) with (x * x ^ (2 * m)) by (replace (2 * m + 1)%nat with (S (2 * m)) by lia; cbn [pow]; ring).
      field. lra. }
    pose proof (anti_d b (S m) x) as D1. pose proof (anti_d b m x) as D2.
    pose proof (is_derive_scal (anti b m) x (INR (2 * m + 1) / (2 * b)) _ D2) as D2'.
    pose proof (is_derive_minus _ _ _ _ _ D2' D3) as D4.
    pose proof (is_derive_minus _ _ _ _ _ D1 D4) as D5.
    eapply der_eq; [|exact D5]. unfold minus, plus, opp. cbn.
    unfold Rdiv. ring. }
  assert (E : g r = g 0).
  { destruct (Rlt_le_dec 0 r) as [H|H].
    - symmetry. apply (eq_is_derive g 0 r); [intros; apply D|exact H].
    - destruct (Req_dec r 0) as [->|H']; [reflexivity|].
      apply (eq_is_derive g r 0); [intros; apply D|lra]. }
  assert (E0 : g 0 = 0).
  { unfold g. rewrite !anti_0. replace (0 ^ (2 * m + 1)) with 0 by (rewrite pow_i; [reflexivity|lia]). field. lra. }
  rewrite E0 in E. unfold g in E. lra.
Qed.

Lemma anti0_eq b r : 0 < b -> anti b 0 r = / sqrt b * Phi (sqrt b * r).
Proof.
  intros Hb. pose proof (sqrt_lt_R0 b Hb) as Hs.
  assert (E : RInt (fun x => scal (sqrt b) (g1 (sqrt b * x + 0))) 0 r = Phi (sqrt b * r)).
  { transitivity (RInt g1 (sqrt b * 0 + 0) (sqrt b * r + 0)).
    - apply (RInt_comp_lin (V := R_CompleteNormedModule) g1 (sqrt b) 0 0 r). apply (ex_RInt_continuous (V := R_CompleteNormedModule) g1). intros; apply g1_cont.
    - unfold Phi. f_equal; ring. }
  rewrite <- E.
  assert (E2 : RInt (fun x => scal (sqrt b) (g1 (sqrt b * x + 0))) 0 r = sqrt b * anti b 0 r).
  { unfold anti. change (sqrt b * RInt (mono b 0) 0 r) with (scal (sqrt b) (RInt (mono b 0) 0 r)).
    rewrite <- (RInt_scal (V := R_CompleteNormedModule) (mono b 0) 0 r (sqrt b)).
    - apply RInt_ext. intros x _. unfold mono, g1, scal. cbn. unfold mult; cbn. rewrite Rmult_1_l. f_equal. f_equal.
      replace ((sqrt b * x + 0) * (sqrt b * x + 0)) with (sqrt b * sqrt b * (x * x)) by ring.
      rewrite sqrt_sqrt by lra. reflexivity.
    - apply int_d. intros; apply mono_d. }
  rewrite E2. field. lra.
Qed.

Lemma anti_lim b m : 0 < b -> filterlim (anti b m) (Rbar_locally p_infty) (locally (moment b m)).
Proof.
  intros Hb. pose proof (sqrt_lt_R0 b Hb) as Hs. induction m as [|m IH].
  - apply (filterlim_ext (fun r => / sqrt b * Phi (sqrt b * r))); [intros; symmetry; apply anti0_eq; lra|].
    replace (moment b 0) with (/ sqrt b * (sqrt PI / 2)) by (unfold moment; cbn; field; lra).
    apply (filterlim_comp _ _ _ (fun r => Phi (sqrt b * r)) (fun y => / sqrt b * y) _ (locally (sqrt PI / 2))).
    + apply (filterlim_comp _ _ _ (fun r => sqrt b * r) Phi _ (Rbar_locally p_infty)).
      * intros P [M HM]. exists (M / sqrt b). intros x Hx. apply HM.
        apply (Rmult_lt_compat_l (sqrt b)) in Hx; [|lra]. replace (sqrt b * (M / sqrt b)) with M in Hx by (field; lra). exact Hx.
      * exact Phi_lim.
    + exact (filterlim_scal_r (V := R_NormedModule) (/ sqrt b) (sqrt PI / 2)).
  - apply (filterlim_ext (fun r => INR (2 * m + 1) / (2 * b) * anti b m r + - / (2 * b) * (r ^ (2 * m + 1) * exp (- (b * (r * r)))))).
    { intros r. rewrite (anti_step b m r Hb). field. lra. }
    replace (moment b (S m)) with (INR (2 * m + 1) / (2 * b) * moment b m + - / (2 * b) * 0).
    2:{ unfold moment. cbn [odd2 pow]. field. split; [lra|]. split; [apply pow_nonzero; lra|lra]. }
    apply (filterlim_comp_2 (F := Rbar_locally p_infty)
             (G := locally (INR (2 * m + 1) / (2 * b) * moment b m)) (H := locally (- / (2 * b) * 0))
             (fun r => INR (2 * m + 1) / (2 * b) * anti b m r)
             (fun r => - / (2 * b) * (r ^ (2 * m + 1) * exp (- (b * (r * r))))) Rplus).
    + eapply (filterlim_comp _ _ _ (anti b m) (fun y => INR (2 * m + 1) / (2 * b) * y) _ (locally (moment b m))); [exact IH|].
      exact (filterlim_scal_r (V := R_NormedModule) (INR (2 * m + 1) / (2 * b)) (moment b m)).
    + eapply (filterlim_comp _ _ _ (fun r => r ^ (2 * m + 1) * exp (- (b * (r * r)))) (fun y => - / (2 * b) * y) _ (locally 0)).
      * apply (decay (Rbar_locally p_infty) b (2 * m + 1) unbounded_p Hb).
      * exact (filterlim_scal_r (V := R_NormedModule) (- / (2 * b)) 0).
    + exact (filterlim_plus (V := R_NormedModule) _ _).
Qed.

Lemma half_moment b m : 0 < b -> Half (fun r => r ^ (2 * m) * exp (- (b * (r * r)))) (moment b m).
Proof.
  intros Hb. replace (moment b m) with (moment b m - anti b m 0) by (rewrite anti_0; ring).
  apply (half_derive (mono b m) (anti b m)).
  - intros. apply anti_d.
  - intros. apply cont_d, mono_d.
  - apply anti_lim; exact Hb.
Qed.

Lemma odd2_pos m : 0 < odd2 m.
Proof.
  induction m as [|m IH]; cbn [odd2]; [lra|]. apply Rmult_lt_0_compat; [|exact IH]. apply lt_0_INR. lia.
Qed.
Lemma moment_pos b m : 0 < b -> 0 < moment b m.
Proof.
  intros Hb. unfold moment. pose proof (odd2_pos m). pose proof PI_RGT_0.
  apply Rmult_lt_0_compat; apply Rdiv_lt_0_compat; auto using sqrt_lt_R0.
  - apply pow_lt. lra.
  - pose proof (sqrt_lt_R0 b Hb). lra.
Qed.

(** The gamma integral at m + 3/2 *)
Definition euler (x : R) (t : R) : R := Rpower t (x - 1) * exp (- t).

Lemma euler_half m t : 0 < t -> euler (INR m + 3 / 2) t = / sqrt t * mono 1 (S m) (sqrt t).
Proof.
  intros Ht. pose proof (sqrt_lt_R0 t Ht) as Hs. unfold euler, mono.
  replace (1 * (sqrt t * sqrt t)) with t by (rewrite sqrt_sqrt by lra; ring).
  rewrite <- Rmult_assoc. f_equal.
  replace (2 * S m)%nat with (S (S (2 * m))) by lia. rewrite pow_mult || idtac.
  replace (INR m + 3 / 2 - 1) with (INR m + / 2) by lra.
  rewrite Rpower_plus, Rpower_pow, Rpower_sqrt by exact Ht.
  cbn [pow]. rewrite pow_mult.
  replace (sqrt t ^ 2) with t by (cbn; rewrite Rmult_1_r; symmetry; apply sqrt_sqrt; lra).
  field. lra.
Qed.

Lemma euler_int m : is_RInt_gen (euler (INR m + 3 / 2)) (at_right 0) (Rbar_locally p_infty) (2 * moment 1 (S m)).
Proof.
  set (F := fun t => 2 * anti 1 (S m) (sqrt t)).
  assert (D : forall t, 0 < t -> is_derive F t (euler (INR m + 3 / 2) t)).
  { intros t Ht. pose proof (sqrt_lt_R0 t Ht) as Hs. unfold F.
    assert (D1 : is_derive sqrt t (/ (2 * sqrt t))).
    { replace (/ (2 * sqrt t)) with (1 / (2 * sqrt t)) by (field; lra). auto_derive; [lra|]. field. lra. }
    pose proof (is_derive_comp (anti 1 (S m)) sqrt t _ _ (anti_d 1 (S m) (sqrt t)) D1) as D2.
    pose proof (is_derive_scal _ _ 2 _ D2) as D3. eapply der_eq; [|exact D3].
    rewrite euler_half by exact Ht. unfold scal; cbn; unfold mult; cbn. field. lra. }
  assert (Fr : filterlim F (at_right 0) (locally 0)).
  { apply (filterlim_filter_le_1 (F := locally 0)).
    { intros P [e He]. exists e. intros y Hy _. apply He. exact Hy. }
    replace 0 with (F 0) at 2.
    2:{ unfold F. rewrite sqrt_0, anti_0. ring. }
    apply (continuous_scal_r (V := R_NormedModule) 2 (fun t => anti 1 (S m) (sqrt t)) 0).
    apply (continuous_comp sqrt (anti 1 (S m))).
    - apply continuity_pt_filterlim. apply continuity_pt_sqrt. lra.
    - apply (ex_derive_continuous (V := R_NormedModule)). eexists. apply anti_d. }
  assert (Fi : filterlim F (Rbar_locally p_infty) (locally (2 * moment 1 (S m)))).
  { unfold F. eapply (filterlim_comp _ _ _ (fun t => anti 1 (S m) (sqrt t)) (fun y => 2 * y) _ (locally (moment 1 (S m)))).
    - apply (filterlim_comp _ _ _ sqrt (anti 1 (S m)) _ (Rbar_locally p_infty)); [|apply anti_lim; lra].
      exact filterlim_sqrt_p.
    - exact (filterlim_scal_r (V := R_NormedModule) 2 _). }
  intros P HP.
  assert (G : filterlim (fun q : R * R => F (snd q) - F (fst q)) (filter_prod (at_right 0) (Rbar_locally p_infty)) (locally (2 * moment 1 (S m)))).
  { replace (2 * moment 1 (S m)) with (2 * moment 1 (S m) + - 0) by ring.
    apply (filterlim_comp_2 (G := locally (2 * moment 1 (S m))) (H := locally (- 0)) (fun q : R * R => F (snd q)) (fun q => - F (fst q)) Rplus).
    - apply (filterlim_comp _ _ _ snd F _ (Rbar_locally p_infty)); [apply filterlim_snd|exact Fi].
    - apply (filterlim_comp _ _ _ (fun q : R * R => F (fst q)) Ropp _ (locally 0)).
      + apply (filterlim_comp _ _ _ fst F _ (at_right 0)); [apply filterlim_fst|exact Fr].
      + exact (filterlim_opp (V := R_NormedModule) 0).
    - exact (filterlim_plus (V := R_NormedModule) _ _). }
  assert (Hpos : filter_prod (at_right 0) (Rbar_locally p_infty) (fun q : R * R => 0 < fst q /\ 0 < snd q)).
  { apply (Filter_prod _ _ _ (fun x => 0 < x) (fun y => 0 < y)).
    - exists (mkposreal 1 Rlt_0_1). intros y _ Hy. exact Hy.
    - exists 0. intros; assumption.
    - intros x y; cbn; auto. }
  specialize (G P HP). unfold filtermap in G. unfold filtermapi.
  generalize (filter_and _ _ G Hpos). apply filter_imp. intros [u v] [H1 [H2 H3]]. cbn [fst snd] in *.
  exists (F v - F u). split; [|exact H1].
  assert (PM : 0 < Rmin u v) by (apply Rmin_glb_lt; assumption).
  apply (is_RInt_derive F (euler (INR m + 3 / 2)) u v).
  - intros x Hx. apply D. lra.
  - intros x Hx. apply (continuous_ext_loc _ (fun t => / sqrt t * mono 1 (S m) (sqrt t))).
    + assert (Px : 0 < x) by lra. exists (mkposreal x Px). intros y Hy. unfold ball in Hy; cbn in Hy. unfold AbsRing_ball in Hy; cbn in Hy.
      unfold abs, minus, plus, opp in Hy; cbn in Hy. symmetry. apply euler_half.
      apply Rabs_def2 in Hy. lra.
    + apply (ex_derive_continuous (V := R_NormedModule) (fun t => / sqrt t * mono 1 (S m) (sqrt t))).
      assert (Px : 0 < x) by lra. pose proof (sqrt_lt_R0 x Px). unfold mono. auto_derive. repeat split; lra.
Qed.

(** ** The code's normalisation *)
Section N.
  Variable lgamma : R -> R.
  Hypothesis LG : forall m : nat,
    is_RInt_gen (fun t => Rpower t (INR m + 3 / 2 - 1) * exp (- t)) (at_right 0) (Rbar_locally p_infty) (exp (lgamma (INR m + 3 / 2))).

  Lemma gamma_val m : exp (lgamma (INR m + 3 / 2)) = 2 * moment 1 (S m).
  Proof.
    pose proof (euler_int m) as H. pose proof (LG m) as H'.
    pose proof (is_RInt_gen_unique _ _ H) as E. pose proof (is_RInt_gen_unique _ _ H') as E'.
    unfold euler in E. congruence.
  Qed.

  Lemma gint_val m b : 0 < b -> gaussian_int lgamma (Z.of_nat m * 2 + 2) b = moment b (S m).
  Proof.
    intros Hb. pose proof (sqrt_lt_R0 b Hb) as Hs. unfold gaussian_int. cbv zeta.
    replace (IZR (Z.of_nat m * 2 + 2 + 1) * (5 / 10)) with (INR m + 3 / 2).
    2:{ rewrite !plus_IZR, mult_IZR, <- INR_IZR_INZ. field. }
    rewrite gamma_val.
    replace (INR m + 3 / 2) with (INR (S m) + / 2) by (rewrite S_INR; lra).
    rewrite Rpower_plus, Rpower_pow, Rpower_sqrt by exact Hb.
    unfold moment. rewrite sqrt_1.
    replace ((2 * 1) ^ S m) with (2 ^ S m) by (f_equal; ring).
    rewrite Rpow_mult_distr. pose proof (pow_nonzero b (S m)). pose proof (pow_nonzero 2 (S m)).
    field. repeat split; auto; try lra; try (apply pow_nonzero; lra).
  Qed.

  Lemma norm_ok (n : nat) a : 0 < a ->
    let c := CINTgto_norm lgamma (Z.of_nat n) a in
    0 < c /\ Half (fun r => r ^ 2 * (c * r ^ n * exp (- (a * r ^ 2))) ^ 2) 1 /\
    forall c', 0 < c' -> Half (fun r => r ^ 2 * (c' * r ^ n * exp (- (a * r ^ 2))) ^ 2) 1 -> c' = c.
  Proof.
    intros Ha c. assert (Hb : 0 < 2 * a) by lra.
    pose proof (moment_pos (2 * a) (S n) Hb) as HM. set (M := moment (2 * a) (S n)) in *.
    assert (Ec : c = / sqrt M).
    { unfold c, CINTgto_norm. rewrite gint_val by lra. fold M. unfold Rdiv. ring. }
    pose proof (sqrt_lt_R0 M HM) as Hs.
    assert (Hc : 0 < c) by (rewrite Ec; apply Rinv_0_lt_compat; exact Hs).
    assert (I : forall c', Half (fun r => r ^ 2 * (c' * r ^ n * exp (- (a * r ^ 2))) ^ 2) (c' * c' * M)).
    { intros c'. eapply half_ext; [|apply (half_scal _ (c' * c') _ (half_moment (2 * a) (S n) Hb))].
      intros r. cbv beta.
      replace (- (2 * a * (r * r))) with (- (a * r ^ 2) + - (a * r ^ 2)) by ring. rewrite exp_plus.
      replace (2 * S n)%nat with (2 + (n + n))%nat by lia. rewrite !pow_add. cbn [pow]. ring. }
    assert (S1 : sqrt M * sqrt M = M) by (apply sqrt_sqrt; lra).
    split; [exact Hc|]. split.
    - replace 1 with (c * c * M); [apply I|]. rewrite Ec. transitivity (/ sqrt M * / sqrt M * (sqrt M * sqrt M)); [rewrite S1; reflexivity|]. field. lra.
    - intros c' Hc' H. pose proof (half_unique _ _ _ H (I c')) as E.
      assert (E1 : (c' * sqrt M) * (c' * sqrt M) = 1) by (rewrite E; transitivity (c' * c' * (sqrt M * sqrt M)); [ring|rewrite S1; reflexivity]).
      assert (P : 0 < c' * sqrt M) by (apply Rmult_lt_0_compat; assumption).
      assert (E2 : c' * sqrt M = 1) by nra.
      rewrite Ec. apply (Rmult_eq_reg_r (sqrt M)); [|lra]. rewrite E2. field. lra.
  Qed.

  (** the closed form in the comment of misc.c *)
  Lemma odd2_fact m : odd2 (S m) = INR (fact (2 * m + 2)) / (2 ^ (m + 1) * INR (fact (m + 1))).
  Proof.
    induction m as [|m IH].
    - cbn. field.
    - replace (odd2 (S (S m))) with (INR (2 * (S m) + 1) * odd2 (S m)) by reflexivity. rewrite IH.
      replace (2 * S m + 2)%nat with (S (S (2 * m + 2))) by lia.
      replace (S m + 1)%nat with (S (m + 1)) by lia.
      rewrite !fact_simpl, !mult_INR. cbn [pow].
      replace (INR (S (S (2 * m + 2)))) with (2 * INR (S (m + 1))).
      2:{ replace (S (S (2 * m + 2))) with (2 * S (m + 1))%nat by lia. rewrite mult_INR. reflexivity. }
      replace (2 * S m + 1)%nat with (S (2 * m + 2)) by lia.
      pose proof (INR_fact_neq_0 (m + 1)). pose proof (not_0_INR (S (m + 1)) ltac:(lia)).
      field. repeat split; auto. apply pow_nonzero; lra.
  Qed.

  Lemma norm_closed (n : nat) a : 0 < a ->
    CINTgto_norm lgamma (Z.of_nat n) a =
    sqrt (2 ^ (2 * n + 3) * INR (fact (n + 1)) * Rpower (2 * a) (INR n + 3 / 2) / (INR (fact (2 * n + 2)) * sqrt PI)).
  Proof.
    intros Ha. assert (Hb : 0 < 2 * a) by lra. unfold CINTgto_norm. rewrite gint_val by exact Hb.
    pose proof (moment_pos (2 * a) (S n) Hb) as HM.
    replace (1 / sqrt (moment (2 * a) (S n))) with (sqrt (/ moment (2 * a) (S n))).
    2:{ rewrite sqrt_inv. unfold Rdiv. ring. }
    f_equal. pose proof (sqrt_lt_R0 (2 * a) Hb) as Hs. pose proof (sqrt_lt_R0 PI PI_RGT_0) as Hp.
    replace (INR n + 3 / 2) with (INR (S n) + / 2) by (rewrite S_INR; lra).
    rewrite Rpower_plus, Rpower_pow, Rpower_sqrt by exact Hb.
    unfold moment. rewrite odd2_fact.
    replace (n + 1)%nat with (S n) by lia.
    replace (2 ^ (2 * n + 3)) with (2 * (2 ^ S n * 2 ^ S n)).
    2:{ rewrite <- pow_add. change (2 * 2 ^ (S n + S n)) with (2 ^ S (S n + S n)). f_equal. lia. }
    rewrite (Rpow_mult_distr 2 (2 * a)).
    pose proof (INR_fact_neq_0 (S n)) as K1. pose proof (INR_fact_neq_0 (2 * n + 2)) as K2.
    pose proof (pow_nonzero 2 (S n) ltac:(lra)) as K3.
    pose proof (pow_nonzero (2 * a) (S n) ltac:(lra)) as K4.
    generalize dependent ((2 * a) ^ S n). generalize dependent (2 ^ S n).
    generalize dependent (INR (fact (S n))). generalize dependent (INR (fact (2 * n + 2))).
    generalize dependent (sqrt (2 * a)). generalize dependent (sqrt PI).
    intros. field. repeat split; auto; lra.
  Qed.
End N.

Lemma lgamma_exists : exists lgamma : R -> R, forall m : nat,
  is_RInt_gen (fun t => Rpower t (INR m + 3 / 2 - 1) * exp (- t)) (at_right 0) (Rbar_locally p_infty) (exp (lgamma (INR m + 3 / 2))).
Proof.
  exists (fun x => ln (2 * moment 1 (S (Z.to_nat (up (x - 2)))))). intros m.
  replace (Z.to_nat (up (INR m + 3 / 2 - 2))) with m.
  - rewrite exp_ln.
    + exact (euler_int m).
    + pose proof (moment_pos 1 (S m) Rlt_0_1). lra.
  - replace (up (INR m + 3 / 2 - 2)) with (Z.of_nat m); [rewrite Nat2Z.id; reflexivity|].
    apply tech_up; rewrite <- INR_IZR_INZ; lra.
Qed.
