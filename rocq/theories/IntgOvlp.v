(** IntgOvlp.v — the integrals over one variable meant by the integrands are integrals over the real
    line: products of polynomial-times-Gaussian functions are integrable, the integral is linear in
    every factor and can be integrated by parts. *)
From Coq Require Import Reals Lra QArith String FunctionalExtensionality.
From Coquelicot Require Import Coquelicot.
From Verif Require Import Base EnvModel OpSpec OpReal RecModel GaussInt IntgModel IntgSpec IntgSem.
Local Open Scope R_scope.

Lemma gp_scal a A s f : gpoly a A f -> gpoly a A (fun x => s * f x).
Proof. intros H. eapply gp_ext; [|exact (gp_lin a A s 0 f f H H)]. intros x. cbn beta. ring. Qed.
Lemma gp_poly a A B P f : gpoly a A f -> gpoly a A (fun x => peval P (x - B) * f x).
Proof.
  intros H. induction P as [|c P IH].
  - eapply gp_ext; [|exact (gp_scal a A 0 f H)]. intros x. cbn. ring.
  - eapply gp_ext; [|exact (gp_lin a A c 1 _ _ H (gp_pos a A B _ IH))]. intros x. cbn. ring.
Qed.
Lemma gp_gauss a A : gpoly a A (fun x => exp (- (a * ((x - A) * (x - A))))).
Proof. exists [1]. intros x. cbn. ring. Qed.

(** product of two *)
Lemma gp_mult a c A B f g : a + c <> 0 -> gpoly a A f -> gpoly c B g ->
  gpoly (a + c) ((a * A + c * B) / (a + c)) (fun x => f x * g x).
Proof.
  intros Hp [P HP] [Q HQ].
  eapply gp_ext; [|exact (gp_poly _ _ A P _ (gp_poly _ _ B Q _ (gp_scal _ _ (exp (- (a * c / (a + c) * ((A - B) * (A - B))))) _
    (gp_gauss (a + c) ((a * A + c * B) / (a + c))))))].
  intros x. cbn beta. rewrite HP, HQ.
  change (exp (- ((a + c) * ((x - (a * A + c * B) / (a + c)) * (x - (a * A + c * B) / (a + c)))))) with (wgt (a + c) ((a * A + c * B) / (a + c)) x).
  rewrite <- gauss_product by exact Hp.
  replace (- (a * ((x - A) * (x - A))) - c * ((x - B) * (x - B))) with (- (a * ((x - A) * (x - A))) + - (c * ((x - B) * (x - B)))) by ring.
  rewrite exp_plus. ring.
Qed.

Section One.
  Variables (p P : R).
  Hypothesis Hp : 0 < p.

  Lemma gp_int f : gpoly p P f -> exists v, RIntLine f v.
  Proof.
    intros [Q HQ].
    assert (M : forall n, exists v, RIntLine (fun x => (x - P) ^ n * wgt p P x) v).
    { intros n.
      assert (X : (exists v, RIntLine (fun x => (x - P) ^ n * wgt p P x) v) /\ exists v, RIntLine (fun x => (x - P) ^ S n * wgt p P x) v).
      { induction n as [|n [[v IH] [w IH']]].
        - assert (W : RIntLine (wgt p P) (sqrt (PI / p))) by apply (line_gauss p P Hp).
          split.
          + exists (sqrt (PI / p)). eapply line_ext; [|exact W]. intros x. cbn. ring.
          + exists (/ (-2 * p) * 0). eapply line_ext; [|exact (line_scal _ (/ (-2 * p)) _ (line_parts p P Hp P 0))].
            intros x. cbn. field. lra.
        - split; [exists w; exact IH'|].
          exists (/ (-2 * p) * (0 + - INR (S n) * v)).
          eapply line_ext; [|exact (line_scal _ (/ (-2 * p)) _ (line_plus _ _ _ _ (line_parts p P Hp P (S n)) (line_scal _ (- INR (S n)) _ IH)))].
          intros x. cbn beta. change (pred (S n)) with n. cbn [pow]. field. lra. }
      apply X. }
    assert (G : forall n, exists v, RIntLine (fun x => (x - P) ^ n * (peval Q (x - P) * wgt p P x)) v).
    { clear f HQ. induction Q as [|c Q IH]; intros n.
      - exists (0 * sqrt (PI / p)). eapply line_ext; [|exact (line_scal _ 0 _ (line_gauss p P Hp))]. intros x. cbn. ring.
      - destruct (IH (S n)) as [v Hv]. destruct (M n) as [w Hw]. exists (c * w + v).
        eapply line_ext; [|exact (line_plus _ _ _ _ (line_scal _ c _ Hw) Hv)]. intros x. cbn. ring. }
    destruct (G 0%nat) as [v Hv]. exists v. eapply line_ext; [|exact Hv]. intros x. rewrite HQ. unfold wgt. cbn. ring.
  Qed.

  Lemma gp_lim Fl {FF : ProperFilter Fl} f : unbounded Fl -> gpoly p P f -> filterlim f Fl (locally 0).
  Proof.
    intros U [Q HQ].
    assert (G : forall n, filterlim (fun x => (x - P) ^ n * (peval Q (x - P) * wgt p P x)) Fl (locally 0)).
    { clear f HQ. induction Q as [|c Q IH]; intros n.
      - apply (filterlim_ext (fun _ => 0)); [intros x; cbn; ring|]. apply filterlim_const.
      - pose proof (IH (S n)) as H1. pose proof (wgt_pow_lim p P Hp Fl P n U) as H2.
        assert (H3 : filterlim (fun x => c * ((x - P) ^ n * wgt p P x)) Fl (locally 0)).
        { replace 0 with (c * 0) by ring.
          apply (filterlim_comp _ _ _ (fun x => (x - P) ^ n * wgt p P x) (Rmult c) _ (locally 0)); [exact H2|].
          apply (filterlim_scal_r (K := R_AbsRing) (V := R_NormedModule) c 0). }
        replace 0 with (0 + 0) by ring.
        eapply filterlim_ext; [|exact (filterlim_comp_2 _ _ Rplus H1 H3 (filterlim_plus (K := R_AbsRing) (V := R_NormedModule) 0 0))].
        intros x. cbn. ring. }
    eapply filterlim_ext; [|exact (G 0%nat)]. intros x. rewrite HQ. unfold wgt. cbn. ring.
  Qed.

  Lemma gp_parts f : gpoly p P f -> RIntLine (Derive f) 0.
  Proof.
    intros H. destruct (gp_derive p P f H) as [E1 H1]. destruct (gp_derive p P _ H1) as [E2 _].
    replace 0 with (0 - 0) by ring. apply (line_derive _ f).
    - intros x. apply Derive_correct, E1.
    - intros x. apply cont_d, E2.
    - exact (gp_lim (Rbar_locally m_infty) f unbounded_m H).
    - exact (gp_lim (Rbar_locally p_infty) f unbounded_p H).
  Qed.
End One.

(** the integral over the line *)
Definition line (f : R -> R) : R := RInt_gen f (Rbar_locally m_infty) (Rbar_locally p_infty).
Lemma line_val f v : RIntLine f v -> line f = v.
Proof. intros H. apply (is_RInt_gen_unique (Fa := Rbar_locally m_infty) (Fb := Rbar_locally p_infty) f v H). Qed.
Lemma line_is p P f : 0 < p -> gpoly p P f -> RIntLine f (line f).
Proof. intros Hp H. destruct (gp_int p P Hp f H) as [v Hv]. rewrite (line_val _ _ Hv). exact Hv. Qed.
Lemma line_ext' f g : (forall x, f x = g x) -> line f = line g.
Proof. intros H. f_equal. extensionality x. apply H. Qed.

Section Two.
  (** product of the functions on i and j times a Gaussian of exponent [c o] >= 0 at [C ax] (0 for
      overlap, else the factor from the transformed Coulomb potential) *)
  Variables (a : centre -> R) (A : centre -> Z -> R) (w : Z -> Z -> R) (c : Z -> R) (C : Z -> R).
  Hypothesis (Hi : 0 < a CI) (Hj : 0 < a CJ) (Hc : forall o, 0 <= c o).
  Definition pair_int (ax o : Z) (F : funs) : R :=
    w ax o * line (fun x => F CI x * F CJ x * exp (- (c o * ((x - C ax) * (x - C ax))))).

  Lemma prod_gp ax o f g : gpoly (a CI) (A CI ax) f -> gpoly (a CJ) (A CJ ax) g ->
    exists P, gpoly (a CI + a CJ + c o) P (fun x => f x * g x * exp (- (c o * ((x - C ax) * (x - C ax))))).
  Proof.
    intros Hf Hg. eexists. specialize (Hc o).
    refine (gp_mult (a CI + a CJ) (c o) _ (C ax) (fun x => f x * g x) _ _ (gp_mult _ _ _ _ f g _ Hf Hg) (gp_gauss _ _)); lra.
  Qed.
  Lemma prod_int ax o f g : gpoly (a CI) (A CI ax) f -> gpoly (a CJ) (A CJ ax) g ->
    let h x := f x * g x * exp (- (c o * ((x - C ax) * (x - C ax)))) in RIntLine h (line h).
  Proof.
    intros Hf Hg h. destruct (prod_gp ax o f g Hf Hg) as [P H]. apply (line_is (a CI + a CJ + c o) P); [|exact H].
    specialize (Hc o). lra.
  Qed.

  Lemma pair_linear cc : (cc = CI \/ cc = CJ) -> linear_in a A pair_int cc.
  Proof.
    intros Hcc ax o F f g s t HF Hf Hg. unfold pair_int.
    destruct Hcc as [-> | ->]; cbn [updf].
    - pose proof (prod_int ax o f (F CJ) Hf (HF CJ)) as H1. pose proof (prod_int ax o g (F CJ) Hg (HF CJ)) as H2. cbv zeta in H1, H2.
      pose proof (line_plus _ _ _ _ (line_scal _ s _ H1) (line_scal _ t _ H2)) as H3.
      rewrite (line_val _ (s * line (fun x => f x * F CJ x * exp (- (c o * ((x - C ax) * (x - C ax))))) +
                           t * line (fun x => g x * F CJ x * exp (- (c o * ((x - C ax) * (x - C ax))))))).
      { ring. }
      eapply line_ext; [|exact H3]. intros x. cbn beta. ring.
    - pose proof (prod_int ax o (F CI) f (HF CI) Hf) as H1. pose proof (prod_int ax o (F CI) g (HF CI) Hg) as H2. cbv zeta in H1, H2.
      pose proof (line_plus _ _ _ _ (line_scal _ s _ H1) (line_scal _ t _ H2)) as H3.
      rewrite (line_val _ (s * line (fun x => F CI x * f x * exp (- (c o * ((x - C ax) * (x - C ax))))) +
                           t * line (fun x => F CI x * g x * exp (- (c o * ((x - C ax) * (x - C ax))))))).
      { ring. }
      eapply line_ext; [|exact H3]. intros x. cbn beta. ring.
  Qed.

  Lemma pair_parts : (forall o, c o = 0) -> by_parts a A pair_int.
  Proof.
    intros H0 ax o F HF. unfold pair_int. cbn [updf]. split.
    - destruct (gp_derive _ _ _ (HF CI)) as [Ei Gi]. destruct (gp_derive _ _ _ (HF CJ)) as [Ej Gj].
      pose proof (prod_int ax o _ _ Gi (HF CJ)) as H1. pose proof (prod_int ax o _ _ (HF CI) Gj) as H2. cbv zeta in H1, H2.
      pose proof (gp_parts (a CI + a CJ) _ (Rplus_lt_0_compat _ _ Hi Hj) _ (gp_mult (a CI) (a CJ) _ _ _ _ (Rgt_not_eq _ _ (Rplus_lt_0_compat _ _ Hi Hj)) (HF CI) (HF CJ))) as H3.
      pose proof (line_plus _ _ _ _ H1 H2) as H4.
      assert (E : line (fun x => Derive (F CI) x * F CJ x * exp (- (c o * ((x - C ax) * (x - C ax))))) +
                  line (fun x => F CI x * Derive (F CJ) x * exp (- (c o * ((x - C ax) * (x - C ax))))) = 0).
      { eapply line_unique; [exact H4|]. eapply line_ext; [|exact H3]. intros x. cbn beta.
        rewrite H0, Rmult_0_l, Ropp_0, exp_0. rewrite Derive_mult by auto. ring. }
      match type of E with ?u + ?v = 0 => replace u with (- v) by lra end. ring.
    - intros x0. f_equal. apply line_ext'. intros x. ring.
  Qed.
End Two.
