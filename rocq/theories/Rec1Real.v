(** Rec1Real.v — the one-electron recurrences fill arrays of Gaussian integrals. *)
From Coq Require Import Reals Lra.
From Verif Require Import Base EnvModel RecModel RecSpec RecLay RecMoments Rec1Proof Rec1Final GaussInt RecRModel.
Local Open Scope R_scope.

Lemma IZR_S i : (0 <= i)%Z -> IZR (i + 1) = IZR i + 1.
Proof. intros _. apply plus_IZR. Qed.

(** basis-function product on one axis *)
Definition pairfun (ai aj A B x : R) : R := exp (- (ai * ((x - A) * (x - A))) - aj * ((x - B) * (x - B))).

Lemma rij_mean ai aj A B ax : 0 < ai + aj ->
  pair_rij ai aj A B ax = (ai * A ax + aj * B ax) / (ai + aj).
Proof. intros H. unfold pair_rij. field. lra. Qed.

Lemma half_inv p : 0 < p -> / 2 / p = / (2 * p).
Proof. intros. field. lra. Qed.

Section One.
  Variables (ng : ngT) (li lj ci cj : Z).
  Hypothesis (Hi : (0 <= li + IINC ng)%Z) (Hj : (0 <= lj + JINC ng)%Z).
  Let e := init_int1e ng li lj ci cj.

  Lemma R_ovlp_cells fac ai aj A B g : 0 < ai -> 0 < aj -> (3 * g_size e <= asize g)%Z ->
    wp (R_ovlp e fac ai aj A B g) (fun g' =>
      Frame (fun p => (0 <= p < 3 * g_size e)%Z) g g' /\
      forall ax i j, (0 <= ax < 3)%Z -> (Z.of_nat i <= li_ceil e)%Z -> (Z.of_nat j <= lj_ceil e)%Z ->
        exists v I0 I,
          rd g' (ax * g_size e + (Z.of_nat i * g_stride_i e + Z.of_nat j * g_stride_j e)) = Some v /\
          RIntLine (pairfun ai aj (A ax) (B ax)) I0 /\ 0 < I0 /\
          RIntLine (fun x => (x - A ax) ^ i * (x - B ax) ^ j * pairfun ai aj (A ax) (B ax) x) I /\
          v = origin 1 (fac * sqrt PI * PI / ((ai + aj) * sqrt (ai + aj))) ax / I0 * I).
  Proof.
    intros Ha Hb Hs. unfold R_ovlp. set (z0 := fac * sqrt PI * PI / _).
    rewrite half_inv by lra.
    set (T := fun ax => gauss1_tab 0 Rplus Rmult Rminus IZR (/ (2 * (ai + aj)))
      (pair_rij ai aj A B ax - A ax) (pair_rij ai aj A B ax - B ax) (origin 1 z0 ax)).
    assert (GT : forall ax, gauss1 Rplus Rmult IZR (/ (2 * (ai + aj)))
         (pair_rij ai aj A B ax - A ax) (pair_rij ai aj A B ax - B ax) (T ax)).
    { intros ax. exact (gauss1_tab_ok 0 1 Rplus Rmult Rminus Ropp IZR RTheory eq_refl IZR_S _ _ _ _). }
    assert (T0 : forall ax, T ax 0%Z 0%Z = origin 1 z0 ax) by reflexivity.
    clearbody T.
    eapply wp_mono; [eapply (g1e_ovlp_ok 0 1 Rplus Rmult Rminus Ropp IZR RTheory eq_refl e _ (lay1_init ng li lj ci cj Hi Hj)
        z0 (/ (2 * (ai + aj))) (pair_rij ai aj A B) A B T g GT T0 Hs)|].
    intros g' [F1 F2]. split; [exact F2|]. intros ax i j Hax Hi' Hj'.
    specialize (F1 ax 0%Z (Z.of_nat i) (Z.of_nat j) Hax eq_refl ltac:(lia) ltac:(lia)).
    rewrite Z.add_0_l in F1.
    set (P := (ai * A ax + aj * B ax) / (ai + aj)).
    destruct (table_is_integral (ai + aj) P
      (exp (- (ai * aj / (ai + aj) * ((A ax - B ax) * (A ax - B ax))))) (pairfun ai aj (A ax) (B ax)) (A ax) (B ax) (T ax) (origin 1 z0 ax))
      with (i := i) (j := j) as (I0 & I & HI0 & Hpos & HI & HE).
    - lra.
    - apply exp_pos.
    - intros x. apply gauss_product. lra.
    - unfold P. rewrite <- rij_mean by lra. apply GT.
    - apply T0.
    - exists (T ax (Z.of_nat i) (Z.of_nat j)), I0, I. repeat split; auto.
  Qed.

  Lemma pair_norm ai aj A B : 0 < ai -> 0 < aj ->
    RIntLine (pairfun ai aj A B) (exp (- (ai * aj / (ai + aj) * ((A - B) * (A - B)))) * sqrt (PI / (ai + aj))).
  Proof.
    intros Ha Hb.
    eapply line_ext; [|refine (line_scal _ _ _ (line_gauss (ai + aj) ((ai * A + aj * B) / (ai + aj)) _))].
    - intros x. symmetry. apply gauss_product. lra.
    - lra.
  Qed.

  (** the product of the three axes is the three-dimensional overlap integral *)
  Lemma R_ovlp_product c0 ai aj A B g : 0 < ai -> 0 < aj -> (3 * g_size e <= asize g)%Z ->
    wp (R_ovlp e (c0 * pair_eij (square3 (fun ax => A ax - B ax)) ai aj) ai aj A B g) (fun g' =>
      forall i j : Z -> nat,
        (forall ax, (0 <= ax < 3)%Z -> (Z.of_nat (i ax) <= li_ceil e)%Z /\ (Z.of_nat (j ax) <= lj_ceil e)%Z) ->
        exists v I : Z -> R,
          (forall ax, (0 <= ax < 3)%Z ->
             rd g' (ax * g_size e + (Z.of_nat (i ax) * g_stride_i e + Z.of_nat (j ax) * g_stride_j e)) = Some (v ax) /\
             RIntLine (fun x => (x - A ax) ^ i ax * (x - B ax) ^ j ax * pairfun ai aj (A ax) (B ax) x) (I ax)) /\
          v 0%Z * v 1%Z * v 2%Z = c0 * (I 0%Z * I 1%Z * I 2%Z)).
  Proof.
    intros Ha Hb Hs. eapply wp_mono; [apply (R_ovlp_cells _ ai aj A B g Ha Hb Hs)|].
    intros g' [_ H] i j Hij.
    destruct (H 0%Z (i 0%Z) (j 0%Z)) as (v0 & N0 & I0 & R0 & L0 & P0 & M0 & E0); [lia| | |]; try (apply Hij; lia).
    destruct (H 1%Z (i 1%Z) (j 1%Z)) as (v1 & N1 & I1 & R1 & L1 & P1 & M1 & E1); [lia| | |]; try (apply Hij; lia).
    destruct (H 2%Z (i 2%Z) (j 2%Z)) as (v2 & N2 & I2 & R2 & L2 & P2 & M2 & E2); [lia| | |]; try (apply Hij; lia).
    exists (fun ax => if (ax =? 0)%Z then v0 else if (ax =? 1)%Z then v1 else v2).
    exists (fun ax => if (ax =? 0)%Z then I0 else if (ax =? 1)%Z then I1 else I2).
    split.
    - intros ax Hax. assert (ax = 0 \/ ax = 1 \/ ax = 2)%Z as [->|[->| ->]] by lia; cbn [Z.eqb]; auto.
    - cbn [Z.eqb].
      rewrite (line_unique _ _ _ L0 (pair_norm ai aj _ _ Ha Hb)) in *.
      rewrite (line_unique _ _ _ L1 (pair_norm ai aj _ _ Ha Hb)) in *.
      rewrite (line_unique _ _ _ L2 (pair_norm ai aj _ _ Ha Hb)) in *.
      rewrite E0, E1, E2. unfold origin. cbn [Z.eqb].
      unfold pair_eij, square3.
      replace (- (((A 0%Z - B 0%Z) * (A 0%Z - B 0%Z) + (A 1%Z - B 1%Z) * (A 1%Z - B 1%Z)
         + (A 2%Z - B 2%Z) * (A 2%Z - B 2%Z)) * ai * aj * (1 / (ai + aj)))) with
        (- (ai * aj / (ai + aj) * ((A 0%Z - B 0%Z) * (A 0%Z - B 0%Z)))
         + (- (ai * aj / (ai + aj) * ((A 1%Z - B 1%Z) * (A 1%Z - B 1%Z)))
         + - (ai * aj / (ai + aj) * ((A 2%Z - B 2%Z) * (A 2%Z - B 2%Z))))) by (field; lra).
      rewrite !exp_plus.
      pose proof PI_RGT_0 as Hpi. rewrite !(sqrt_div PI) by lra.
      assert (Hsp : sqrt PI * sqrt PI = PI) by (apply sqrt_sqrt; lra).
      assert (Hsa : sqrt (ai + aj) * sqrt (ai + aj) = ai + aj) by (apply sqrt_sqrt; lra).
      assert (Hp1 : 0 < sqrt PI) by (apply sqrt_lt_R0; lra).
      assert (Hp2 : 0 < sqrt (ai + aj)) by (apply sqrt_lt_R0; lra).
      pose proof (exp_pos (- (ai * aj / (ai + aj) * ((A 0%Z - B 0%Z) * (A 0%Z - B 0%Z))))) as X0.
      pose proof (exp_pos (- (ai * aj / (ai + aj) * ((A 1%Z - B 1%Z) * (A 1%Z - B 1%Z))))) as X1.
      pose proof (exp_pos (- (ai * aj / (ai + aj) * ((A 2%Z - B 2%Z) * (A 2%Z - B 2%Z))))) as X2.
      revert X0 X1 X2 Hsp Hsa Hp1 Hp2.
      generalize (exp (- (ai * aj / (ai + aj) * ((A 0%Z - B 0%Z) * (A 0%Z - B 0%Z))))).
      generalize (exp (- (ai * aj / (ai + aj) * ((A 1%Z - B 1%Z) * (A 1%Z - B 1%Z))))).
      generalize (exp (- (ai * aj / (ai + aj) * ((A 2%Z - B 2%Z) * (A 2%Z - B 2%Z))))).
      generalize (sqrt PI) (sqrt (ai + aj)). intros sp sa x2 x1 x0 X0 X1 X2 Hsp Hsa Hp1 Hp2.
      rewrite <- Hsp, <- Hsa. cbn [Pos.eqb]. field. repeat split; lra.
  Qed.

  (** t^2 of a root *)
  Definition tsq (zeta ai aj u : R) : R := nuc_mod (ai + aj) zeta * nuc_mod (ai + aj) zeta * u / (1 + u).

  Lemma nuc_mod_sq aij zeta : 0 < aij -> 0 < nuc_mod aij zeta * nuc_mod aij zeta <= 1.
  Proof.
    intros Ha. unfold nuc_mod. destruct (Rlt_dec 0 zeta) as [Hz|]; [|lra].
    assert (0 < zeta / (aij + zeta)) by (apply Rdiv_lt_0_compat; lra).
    rewrite sqrt_sqrt by lra. split; [assumption|].
    apply (Rmult_le_reg_r (aij + zeta)); [lra|]. unfold Rdiv. rewrite Rmult_assoc, Rinv_l; lra.
  Qed.

  Lemma tsq_range zeta ai aj u : 0 < ai + aj -> 0 <= u -> 0 <= tsq zeta ai aj u < 1.
  Proof.
    intros Ha Hu. unfold tsq. pose proof (nuc_mod_sq (ai + aj) zeta Ha).
    set (m := nuc_mod (ai + aj) zeta * nuc_mod (ai + aj) zeta) in *. clearbody m.
    split.
    - apply Rmult_le_pos; [nra|]. apply Rlt_le, Rinv_0_lt_compat; lra.
    - apply (Rmult_lt_reg_r (1 + u)); [lra|]. unfold Rdiv. rewrite Rmult_assoc, Rinv_l; nra.
  Qed.

  (** the pair times the Gaussian exp(-s(x-C)^2) that the root stands for *)
  Definition nucfun (s ai aj A B C x : R) : R := pairfun ai aj A B x * exp (- (s * ((x - C) * (x - C)))).

  Lemma R_nuc_cells chg zeta fac ai aj (u w : Z -> R) C A B g :
    0 < ai -> 0 < aj -> (forall n, (0 <= n < nrys_roots e)%Z -> 0 <= u n) -> (3 * g_size e <= asize g)%Z ->
    (forall n, (0 <= n < nrys_roots e)%Z -> rd g (g_size e * 2 + n) = Some (w n)) ->
    wp (R_nuc e chg zeta fac ai aj u C A B g) (fun g' =>
      Frame (fun p => (0 <= p < 3 * g_size e)%Z) g g' /\
      forall ax n i j, (0 <= ax < 3)%Z -> (0 <= n < nrys_roots e)%Z ->
        (Z.of_nat i <= li_ceil e)%Z -> (Z.of_nat j <= lj_ceil e)%Z ->
        let t2 := tsq zeta ai aj (u n) in
        let E := nucfun ((ai + aj) * t2 / (1 - t2)) ai aj (A ax) (B ax) (C ax) in
        exists v I0 I,
          rd g' (ax * g_size e + (n + Z.of_nat i * g_stride_i e + Z.of_nat j * g_stride_j e)) = Some v /\
          RIntLine E I0 /\ 0 < I0 /\
          RIntLine (fun x => (x - A ax) ^ i * (x - B ax) ^ j * E x) I /\
          v = origin 1 (w n * (2 * PI * chg * fac * nuc_mod (ai + aj) zeta / (ai + aj))) ax / I0 * I).
  Proof.
    intros Ha Hb Hu Hs Hw. unfold R_nuc. set (fac1 := 2 * PI * chg * fac * _ / _).
    rewrite half_inv by lra.
    set (rij := pair_rij ai aj A B).
    set (ru := fun n => nuc_mod (ai + aj) zeta * nuc_mod (ai + aj) zeta * u n / (1 + u n)).
    assert (Hru : forall n, ru n = tsq zeta ai aj (u n)) by reflexivity.
    set (P := fun ax n => rij ax + ru n * (C ax - rij ax)).
    set (T := fun ax n => gauss1_tab 0 Rplus Rmult Rminus IZR (/ (2 * (ai + aj)) * (1 - ru n))
      (P ax n - A ax) (P ax n - B ax) (origin 1 (w n * fac1) ax)).
    assert (GT : forall ax n, gauss1 Rplus Rmult IZR (/ (2 * (ai + aj)) * (1 - ru n))
         (P ax n - A ax) (P ax n - B ax) (T ax n)).
    { intros ax n. exact (gauss1_tab_ok 0 1 Rplus Rmult Rminus Ropp IZR RTheory eq_refl IZR_S _ _ _ _). }
    assert (T0 : forall ax n, T ax n 0%Z 0%Z = origin 1 (w n * fac1) ax) by reflexivity.
    clearbody T.
    eapply wp_mono; [eapply (g1e_nuc_ok 0 1 Rplus Rmult Rminus Ropp IZR RTheory eq_refl e _ (lay1_init ng li lj ci cj Hi Hj)
        fac1 (/ (2 * (ai + aj))) w ru (fun ax => C ax - rij ax) rij A B T g eq_refl (fun ax n _ => GT ax n) (fun ax n _ => T0 ax n) Hs Hw)|].
    intros g' [F1 F2]. split; [exact F2|]. intros ax n i j Hax Hn Hi' Hj'.
    set (t2 := tsq zeta ai aj (u n)). set (E := nucfun ((ai + aj) * t2 / (1 - t2)) ai aj (A ax) (B ax) (C ax)).
    specialize (F1 ax n (Z.of_nat i) (Z.of_nat j) Hax Hn ltac:(lia) ltac:(lia)).
    pose proof (tsq_range zeta ai aj (u n) ltac:(lra) (Hu n Hn)) as Ht. fold t2 in Ht.
    set (s := (ai + aj) * t2 / (1 - t2)) in *.
    assert (Hs0 : 0 <= s).
    { unfold s. apply Rmult_le_pos; [nra|]. apply Rlt_le, Rinv_0_lt_compat; lra. }
    assert (Hps : ai + aj + s = (ai + aj) / (1 - t2)) by (unfold s; field; lra).
    set (Pm := (ai * A ax + aj * B ax) / (ai + aj)).
    assert (HPm : rij ax = Pm) by (apply rij_mean; lra).
    assert (HP : P ax n = Pm + t2 * (C ax - Pm)) by (unfold P; rewrite HPm, Hru; reflexivity).
    destruct (table_is_integral (ai + aj + s) (P ax n)
      (exp (- (ai * aj / (ai + aj) * ((A ax - B ax) * (A ax - B ax))))
       * exp (- ((ai + aj) * t2 * ((C ax - Pm) * (C ax - Pm))))) E (A ax) (B ax) (T ax n) (origin 1 (w n * fac1) ax))
      with (i := i) (j := j) as (I0 & I & HI0 & Hpos & HI & HE).
    - lra.
    - apply Rmult_lt_0_compat; apply exp_pos.
    - intros x. unfold E, nucfun, pairfun. rewrite gauss_product by lra. fold Pm.
      rewrite !Rmult_assoc. f_equal. unfold wgt. rewrite <- !exp_plus. f_equal.
      rewrite Hps, HP. unfold s. field. lra.
    - replace (/ (2 * (ai + aj + s))) with (/ (2 * (ai + aj)) * (1 - ru n)).
      + apply GT.
      + rewrite Hps, Hru. fold t2. field. lra.
    - apply T0.
    - exists (T ax n (Z.of_nat i) (Z.of_nat j)), I0, I. repeat split; auto.
  Qed.
End One.

Lemma second_moment : RIntLine (fun x => x ^ 2 * exp (- (x * x))) (sqrt PI / 2).
Proof.
  assert (H0 : RIntLine (fun x => (x - 0) ^ 0 * wgt 1 0 x) (sqrt PI)).
  { replace (sqrt PI) with (sqrt (PI / 1)) by (f_equal; field).
    eapply line_ext; [|exact (line_gauss 1 0 Rlt_0_1)]. intros x. cbn. unfold wgt. ring. }
  pose proof (line_raise 1 0 Rlt_0_1 0 0 _ _ H0 H0) as H1.
  pose proof (line_raise 1 0 Rlt_0_1 0 1 _ _ H1 H0) as H2.
  replace (sqrt PI / 2) with ((0 - 0) * ((0 - 0) * sqrt PI + / (2 * 1) * (INR 0 * sqrt PI)) + / (2 * 1) * (INR 1 * sqrt PI)).
  - eapply line_ext; [|exact H2]. intros x. unfold wgt. f_equal; [ring|f_equal; ring].
  - cbn. field.
Qed.
