(** Quad2e.v — the moments of the coupled Gaussian are polynomials in t^2; the root sums are the
    integrals over the Coulomb-type operators. *)
From Coq Require Import Reals Lra Psatz FunctionalExtensionality.
From Coquelicot Require Import Coquelicot.
From Verif Require Import Base EnvModel RecModel RecSpec RecMoments GaussInt Rec1Real Gauss2Int Rec2RModel Rec2Spec Rec2Real
  QuadSpec QuadPoly QuadSub.
Local Open Scope R_scope.

(** ** Tables whose coefficients are linear in t *)
Section Pol.
  Variables (b10 b01 b00 cA cB cC cD : R -> R).
  Hypothesis (P10 : pol 1 b10) (P01 : pol 1 b01) (P00 : pol 1 b00) (PA : pol 1 cA) (PB : pol 1 cB) (PC : pol 1 cC) (PD : pol 1 cD).
  Variable S : R -> Z -> Z -> Z -> Z -> R.
  Hypothesis HS : forall t, gauss2 Rplus Rmult IZR (b10 t) (b01 t) (b00 t) (cA t) (cB t) (cC t) (cD t) (S t).
  Hypothesis H0 : forall t, S t 0%Z 0%Z 0%Z 0%Z = 1.

  Lemma pol_inj (n : nat) (d : nat) f : (forall m, n = Datatypes.S m -> pol d f) -> pol d (fun t => IZR (Z.of_nat n) * f t).
  Proof.
    intros H. destruct n as [|m].
    - eapply pol_ext; [apply pol_zero|]. intros; cbn. ring.
    - apply pol_scal, (H m eq_refl).
  Qed.

  Lemma tab_pol N : forall i j k l, (i + j + k + l <= N)%nat ->
    pol (i + j + k + l) (fun t => S t (Z.of_nat i) (Z.of_nat j) (Z.of_nat k) (Z.of_nat l)).
  Proof.
    induction N as [|N IH]; intros i j k l HN.
    { destruct i, j, k, l; try lia. cbn. eapply pol_ext; [apply (pol_const 1)|]. intros t. symmetry. apply H0. }
    assert (L1 : forall c i j k l d, pol 1 c -> (i + j + k + l <= N)%nat -> Datatypes.S (i + j + k + l) = d ->
       pol d (fun t => c t * S t (Z.of_nat i) (Z.of_nat j) (Z.of_nat k) (Z.of_nat l))).
    { intros c i' j' k' l' d Hc Hn <-. apply (pol_mul 1 c _ _ Hc). apply IH. exact Hn. }
    assert (L2 : forall c f g d, pol 1 c -> pol d f -> pol d g -> pol (Datatypes.S d) (fun t => c t * (f t + g t))).
    { intros c f g d Hc Hf Hg. apply (pol_mul 1 c d (fun t => f t + g t) Hc). apply pol_add; assumption. }
    assert (Li : forall i j k l d, (i + j + k + l <= N)%nat -> (i + j + k + l <= Datatypes.S d)%nat ->
       pol d (fun t => IZR (Z.of_nat i) * S t (Z.of_nat i - 1)%Z (Z.of_nat j) (Z.of_nat k) (Z.of_nat l))).
    { intros i' j' k' l' d Hn Hd. apply (pol_inj i' d (fun t => S t (Z.of_nat i' - 1)%Z (Z.of_nat j') (Z.of_nat k') (Z.of_nat l'))).
      intros m ->. eapply pol_ext; [apply (pol_le (m + j' + k' + l')); [lia|apply IH; lia]|].
      intros t. cbv beta. do 2 f_equal; lia. }
    assert (Lj : forall i j k l d, (i + j + k + l <= N)%nat -> (i + j + k + l <= Datatypes.S d)%nat ->
       pol d (fun t => IZR (Z.of_nat j) * S t (Z.of_nat i) (Z.of_nat j - 1)%Z (Z.of_nat k) (Z.of_nat l))).
    { intros i' j' k' l' d Hn Hd. apply (pol_inj j' d (fun t => S t (Z.of_nat i') (Z.of_nat j' - 1)%Z (Z.of_nat k') (Z.of_nat l'))).
      intros m ->. eapply pol_ext; [apply (pol_le (i' + m + k' + l')); [lia|apply IH; lia]|].
      intros t. cbv beta. do 2 f_equal; lia. }
    assert (Lk : forall i j k l d, (i + j + k + l <= N)%nat -> (i + j + k + l <= Datatypes.S d)%nat ->
       pol d (fun t => IZR (Z.of_nat k) * S t (Z.of_nat i) (Z.of_nat j) (Z.of_nat k - 1)%Z (Z.of_nat l))).
    { intros i' j' k' l' d Hn Hd. apply (pol_inj k' d (fun t => S t (Z.of_nat i') (Z.of_nat j') (Z.of_nat k' - 1)%Z (Z.of_nat l'))).
      intros m ->. eapply pol_ext; [apply (pol_le (i' + j' + m + l')); [lia|apply IH; lia]|].
      intros t. cbv beta. do 2 f_equal; lia. }
    assert (Ll : forall i j k l d, (i + j + k + l <= N)%nat -> (i + j + k + l <= Datatypes.S d)%nat ->
       pol d (fun t => IZR (Z.of_nat l) * S t (Z.of_nat i) (Z.of_nat j) (Z.of_nat k) (Z.of_nat l - 1)%Z)).
    { intros i' j' k' l' d Hn Hd. apply (pol_inj l' d (fun t => S t (Z.of_nat i') (Z.of_nat j') (Z.of_nat k') (Z.of_nat l' - 1)%Z)).
      intros m ->. eapply pol_ext; [apply (pol_le (i' + j' + k' + m)); [lia|apply IH; lia]|].
      intros t. cbv beta. f_equal; lia. }
    (** raising any of the four orders *)
    assert (G : forall c p q i j k l, pol 1 c -> pol 1 p -> pol 1 q -> (i + j + k + l <= N)%nat ->
      pol (Datatypes.S (i + j + k + l)) (fun t =>
        c t * S t (Z.of_nat i) (Z.of_nat j) (Z.of_nat k) (Z.of_nat l)
        + p t * (IZR (Z.of_nat i) * S t (Z.of_nat i - 1)%Z (Z.of_nat j) (Z.of_nat k) (Z.of_nat l) + IZR (Z.of_nat j) * S t (Z.of_nat i) (Z.of_nat j - 1)%Z (Z.of_nat k) (Z.of_nat l))
        + q t * (IZR (Z.of_nat k) * S t (Z.of_nat i) (Z.of_nat j) (Z.of_nat k - 1)%Z (Z.of_nat l) + IZR (Z.of_nat l) * S t (Z.of_nat i) (Z.of_nat j) (Z.of_nat k) (Z.of_nat l - 1)%Z))).
    { intros c p q i' j' k' l' Hc Hp Hq Hn. repeat apply pol_add.
      - apply L1; auto.
      - apply (L2 p (fun t => IZR (Z.of_nat i') * S t (Z.of_nat i' - 1)%Z (Z.of_nat j') (Z.of_nat k') (Z.of_nat l'))
          (fun t => IZR (Z.of_nat j') * S t (Z.of_nat i') (Z.of_nat j' - 1)%Z (Z.of_nat k') (Z.of_nat l'))); [exact Hp|apply Li; lia|apply Lj; lia].
      - apply (L2 q (fun t => IZR (Z.of_nat k') * S t (Z.of_nat i') (Z.of_nat j') (Z.of_nat k' - 1)%Z (Z.of_nat l'))
          (fun t => IZR (Z.of_nat l') * S t (Z.of_nat i') (Z.of_nat j') (Z.of_nat k') (Z.of_nat l' - 1)%Z)); [exact Hq|apply Lk; lia|apply Ll; lia]. }
    destruct i as [|i].
    1: destruct j as [|j].
    1: destruct k as [|k].
    1: destruct l as [|l].
    - cbn. eapply pol_ext; [apply (pol_const 1)|]. intros t. symmetry. apply H0.
    - eapply pol_ext; [apply (pol_le (Datatypes.S (0 + 0 + 0 + l))); [|apply (G cD b00 b01 0%nat 0%nat 0%nat l); auto; lia]; lia|].
      intros t. cbv beta. replace (Z.of_nat (Datatypes.S l)) with (Z.of_nat l + 1)%Z by lia.
      rewrite (g2_l _ _ _ _ _ _ _ _ _ _ _ (HS t)) by lia. ring.
    - eapply pol_ext; [apply (pol_le (Datatypes.S (0 + 0 + k + l))); [|apply (G cC b00 b01 0%nat 0%nat k l); auto; lia]; lia|].
      intros t. cbv beta. replace (Z.of_nat (Datatypes.S k)) with (Z.of_nat k + 1)%Z by lia.
      rewrite (g2_k _ _ _ _ _ _ _ _ _ _ _ (HS t)) by lia. ring.
    - eapply pol_ext; [apply (pol_le (Datatypes.S (0 + j + k + l))); [|apply (G cB b10 b00 0%nat j k l); auto; lia]; lia|].
      intros t. cbv beta. replace (Z.of_nat (Datatypes.S j)) with (Z.of_nat j + 1)%Z by lia.
      rewrite (g2_j _ _ _ _ _ _ _ _ _ _ _ (HS t)) by lia. ring.
    - eapply pol_ext; [apply (pol_le (Datatypes.S (i + j + k + l))); [|apply (G cA b10 b00 i j k l); auto; lia]; lia|].
      intros t. cbv beta. replace (Z.of_nat (Datatypes.S i)) with (Z.of_nat i + 1)%Z by lia.
      rewrite (g2_i _ _ _ _ _ _ _ _ _ _ _ (HS t)) by lia. ring.
  Qed.
End Pol.

(** ** One axis *)
Section Axis.
  Variables (ai aj ak al A B C D : R).
  Let p := ai + aj.
  Let q := ak + al.
  Hypothesis (Hp : 0 < p) (Hq : 0 < q).
  Let P := (ai * A + aj * B) / p.
  Let Q := (ak * C + al * D) / q.
  Let a0 := p * q / (p + q).

  Definition tabt (t : R) : Z -> Z -> Z -> Z -> R :=
    S4 0 Rplus Rmult Rminus IZR ((q * (1 - t) + a0 * t) / (2 * (p * q))) ((p * (1 - t) + a0 * t) / (2 * (p * q))) (a0 * t / (2 * (p * q)))
      (P - a0 * t * (P - Q) / p - A) (P - a0 * t * (P - Q) / p - B) (Q + a0 * t * (P - Q) / q - C) (Q + a0 * t * (P - Q) / q - D)
      1.
  Definition mom (i j k l : nat) (t : R) : R := tabt t (Z.of_nat i) (Z.of_nat j) (Z.of_nat k) (Z.of_nat l).

  Lemma mom_pol i j k l : pol (i + j + k + l) (mom i j k l).
  Proof.
    unfold mom.
    apply (tab_pol (fun t => (q * (1 - t) + a0 * t) / (2 * (p * q))) (fun t => (p * (1 - t) + a0 * t) / (2 * (p * q))) (fun t => a0 * t / (2 * (p * q)))
      (fun t => P - a0 * t * (P - Q) / p - A) (fun t => P - a0 * t * (P - Q) / p - B)
      (fun t => Q + a0 * t * (P - Q) / q - C) (fun t => Q + a0 * t * (P - Q) / q - D)) with (S := tabt) (N := (i + j + k + l)%nat); auto.
    - eapply pol_ext; [apply (pol_lin (q / (2 * (p * q))) ((a0 - q) / (2 * (p * q))))|]. intros t; cbv beta. unfold Rdiv. ring.
    - eapply pol_ext; [apply (pol_lin (p / (2 * (p * q))) ((a0 - p) / (2 * (p * q))))|]. intros t; cbv beta. unfold Rdiv. ring.
    - eapply pol_ext; [apply (pol_lin 0 (a0 / (2 * (p * q))))|]. intros t; cbv beta. unfold Rdiv. ring.
    - eapply pol_ext; [apply (pol_lin (P - A) (- a0 * (P - Q) / p))|]. intros t; cbv beta. unfold Rdiv. ring.
    - eapply pol_ext; [apply (pol_lin (P - B) (- a0 * (P - Q) / p))|]. intros t; cbv beta. unfold Rdiv. ring.
    - eapply pol_ext; [apply (pol_lin (Q - C) (a0 * (P - Q) / q))|]. intros t; cbv beta. unfold Rdiv. ring.
    - eapply pol_ext; [apply (pol_lin (Q - D) (a0 * (P - Q) / q))|]. intros t; cbv beta. unfold Rdiv. ring.
    - intros t. exact (S4_ok 0 1 Rplus Rmult Rminus Ropp IZR RTheory eq_refl IZR_S _ _ _ _ _ _ _ _).
  Qed.

  Definition pairk : R := exp (- (ai * aj / p * ((A - B) * (A - B)))) * exp (- (ak * al / q * ((C - D) * (C - D)))).
  Definition nrm (t2 : R) : R := pairk * (exp (- (a0 * ((P - Q) * (P - Q)) * t2)) * (PI / sqrt (p * q / (1 - t2)))).

  Lemma a0p : 0 < a0. Proof. unfold a0. apply Rdiv_lt_0_compat; nra. Qed.

  Lemma mom_int r t2 : 0 <= t2 < 1 -> r = a0 * (t2 / (1 - t2)) ->
    RIntPlane (eri_weight ai aj ak al r A B C D) (nrm t2) /\ 0 < nrm t2 /\
    forall i j k l, RIntPlane (fun x y => (x - A) ^ i * (x - B) ^ j * ((y - C) ^ k * (y - D) ^ l) * eri_weight ai aj ak al r A B C D x y)
      (nrm t2 * mom i j k l t2).
  Proof.
    intros Ht Er. pose proof a0p as H0.
    assert (Hr : 0 <= r).
    { rewrite Er. apply Rmult_le_pos; [lra|]. apply Rmult_le_pos; [lra|]. apply Rlt_le, Rinv_0_lt_compat; lra. }
    assert (Hpq : p * q = a0 * (p + q)) by (unfold a0; field; lra).
    assert (Hdet : det2 p q r = p * q / (1 - t2)).
    { unfold det2. rewrite Er. replace (a0 * (t2 / (1 - t2)) * (p + q)) with (a0 * (p + q) * (t2 / (1 - t2))) by ring.
      rewrite <- Hpq. field. lra. }
    assert (Hdp : 0 < p * q / (1 - t2)) by (apply Rdiv_lt_0_compat; nra).
    destruct (plane_is_table p q r P Q Hp Hq Hr pairk (eri_weight ai aj ak al r A B C D) A B C D
      (tabt t2) 1)
      as (I0 & Hpos & HI).
    - apply Rmult_lt_0_compat; apply exp_pos.
    - intros x y. unfold pairk, eri_weight, wgt2, form2. rewrite <- !exp_plus. f_equal. unfold P, Q, p, q in *. field. lra.
    - replace (var11 p q r) with ((q * (1 - t2) + a0 * t2) / (2 * (p * q))).
      2:{ unfold var11. rewrite Hdet, Er. field. repeat split; lra. }
      replace (var22 p q r) with ((p * (1 - t2) + a0 * t2) / (2 * (p * q))).
      2:{ unfold var22. rewrite Hdet, Er. field. repeat split; lra. }
      replace (var12 p q r) with (a0 * t2 / (2 * (p * q))).
      2:{ unfold var12. rewrite Hdet, Er. field. repeat split; lra. }
      replace (mean1 p q r P Q) with (P - a0 * t2 * (P - Q) / p).
      2:{ unfold mean1. rewrite Hdet, Er. field. repeat split; lra. }
      replace (mean2 p q r P Q) with (Q + a0 * t2 * (P - Q) / q).
      2:{ unfold mean2. rewrite Hdet, Er. field. repeat split; lra. }
      exact (S4_ok 0 1 Rplus Rmult Rminus Ropp IZR RTheory eq_refl IZR_S _ _ _ _ _ _ _ _).
    - reflexivity.
    - assert (En : pairk * norm2 p q r P Q = nrm t2).
      { unfold nrm, norm2. f_equal. rewrite Rmult_assoc. f_equal.
        - f_equal. f_equal. rewrite Hdet, Er. replace (p * q * (a0 * (t2 / (1 - t2))) / (p * q / (1 - t2))) with (a0 * t2) by (field; repeat split; lra). ring.
        - rewrite Hdet. set (dd := p * q / (1 - t2)) in *. assert (Hqr : 0 < q + r) by lra. pose proof PI_RGT_0 as HPI.
          rewrite <- sqrt_mult; [|apply Rlt_le, Rdiv_lt_0_compat; lra|apply Rlt_le, Rdiv_lt_0_compat; [lra|apply Rdiv_lt_0_compat; lra]].
          replace (PI / (q + r) * (PI / (dd / (q + r)))) with (PI * PI / dd) by (field; lra).
          rewrite sqrt_div by nra. rewrite sqrt_square by lra. reflexivity. }
      rewrite En in *. split; [exact I0|]. split; [exact Hpos|].
      intros i j k l. destruct (HI i j k l) as (I & H1 & H2). fold (mom i j k l t2) in H2.
      replace (nrm t2 * mom i j k l t2) with I; [exact H1|]. rewrite H2. field. lra.
  Qed.
End Axis.

(** ** Three axes *)
Section Three.
  Variables (ai aj ak al : R) (A B C D : Z -> R).
  Let p := ai + aj.
  Let q := ak + al.
  Hypothesis (Hp : 0 < p) (Hq : 0 < q).
  Let P ax := (ai * A ax + aj * B ax) / p.
  Let Q ax := (ak * C ax + al * D ax) / q.
  Let a0 := p * q / (p + q).
  (** the integrands by axis, and their moments: normalisation times a polynomial in t^2 *)
  Variables (f : Z -> R -> R -> R) (m : Z -> R -> R).
  Definition moments2 (d : Z -> nat) : Prop := forall ax, (0 <= ax < 3)%Z -> pol (d ax) (m ax) /\
    forall r t2, 0 <= t2 < 1 -> r = a0 * (t2 / (1 - t2)) ->
      RIntPlane (fun x y => f ax x y * exp (- (r * ((x - y) * (x - y))))) (nrm ai aj ak al (A ax) (B ax) (C ax) (D ax) t2 * m ax t2).
  Definition prod3 (t : R) : R := m 0%Z t * m 1%Z t * m 2%Z t.
  Lemma prod3_pol d : moments2 d -> pol (d 0%Z + d 1%Z + d 2%Z) prod3.
  Proof. intros H. unfold prod3. repeat apply pol_mul; apply H; lia. Qed.
  Variable d : Z -> nat.
  Hypothesis Hm : moments2 d.

  Definition cc2 : R := 2 * (PI * PI * PI) / sqrt PI * (overlap_factor ai aj A B * overlap_factor ak al C D) / (p * q * sqrt (p + q)).
  Let X := a0 * dist2 P Q.

  Lemma coul2_s op V : over_s op (fun s => cc2 * (dtt a0 s * (prod3 (tt a0 s * tt a0 s) * exp (- (X * (tt a0 s * tt a0 s)))))) V ->
    coul2 op f V.
  Proof.
    intros HV. pose proof (a0p ai aj ak al Hp Hq) as H0. fold p q a0 in H0.
    assert (Ht2 : forall s, 0 <= tt a0 s * tt a0 s < 1).
    { intros s. rewrite (tt_sq a0 H0). pose proof (as_pos a0 H0 s). split.
      - apply Rmult_le_pos; [nra|]. apply Rlt_le, Rinv_0_lt_compat; lra.
      - apply (Rmult_lt_reg_r (a0 + s * s)); [lra|]. unfold Rdiv. rewrite Rmult_assoc, Rinv_l; nra. }
    exists (fun ax s => nrm ai aj ak al (A ax) (B ax) (C ax) (D ax) (tt a0 s * tt a0 s) * m ax (tt a0 s * tt a0 s)). split.
    - intros ax s Hax. destruct (Hm ax Hax) as [_ HI]. apply (HI (s * s) (tt a0 s * tt a0 s) (Ht2 s)).
      rewrite (tt_sq a0 H0). pose proof (as_pos a0 H0 s). field. split; lra.
    - match goal with H : over_s op ?f V |- over_s op ?g V => replace g with f; [exact H|] end.
      apply functional_extensionality. intros s. specialize (Ht2 s).
      pose proof (tt_sq a0 H0 s) as Et. set (t2 := tt a0 s * tt a0 s) in *.
      pose proof (as_pos a0 H0 s) as Has. pose proof (root_pos a0 H0 s) as Hrt.
      assert (Hpq : p * q = a0 * (p + q)) by (unfold a0; field; lra).
      assert (Hpp : 0 < p + q) by lra.
      assert (Hd : p * q / (1 - t2) = (p + q) * (a0 + s * s)).
      { rewrite Et, Hpq. field. split; lra. }
      unfold prod3, nrm. fold p q. fold a0. fold (P 0%Z) (P 1%Z) (P 2%Z) (Q 0%Z) (Q 1%Z) (Q 2%Z). rewrite Hd.
      rewrite sqrt_mult by lra.
      assert (Ek : pairk ai aj ak al (A 0%Z) (B 0%Z) (C 0%Z) (D 0%Z) * pairk ai aj ak al (A 1%Z) (B 1%Z) (C 1%Z) (D 1%Z)
                   * pairk ai aj ak al (A 2%Z) (B 2%Z) (C 2%Z) (D 2%Z) = overlap_factor ai aj A B * overlap_factor ak al C D).
      { unfold pairk, overlap_factor, dist2. rewrite <- !exp_plus. f_equal. unfold Rdiv. ring. }
      assert (Ee : exp (- (X * t2)) = exp (- (a0 * ((P 0%Z - Q 0%Z) * (P 0%Z - Q 0%Z)) * t2)) * exp (- (a0 * ((P 1%Z - Q 1%Z) * (P 1%Z - Q 1%Z)) * t2))
                   * exp (- (a0 * ((P 2%Z - Q 2%Z) * (P 2%Z - Q 2%Z)) * t2))).
      { rewrite <- !exp_plus. f_equal. unfold X, dist2. ring. }
      rewrite Ee. unfold cc2, dtt. rewrite <- Ek. fold p q.
      assert (Hs1 : sqrt (p + q) * sqrt (p + q) = p + q) by (apply sqrt_sqrt; lra).
      assert (Hs2 : sqrt (a0 + s * s) * sqrt (a0 + s * s) = a0 + s * s) by (apply sqrt_sqrt; lra).
      assert (Hs3 : 0 < sqrt (p + q)) by (apply sqrt_lt_R0; lra).
      assert (Hs4 : 0 < sqrt PI) by (apply sqrt_lt_R0, PI_RGT_0).
      rewrite Hpq.
      generalize dependent (sqrt (p + q)). intros r1 E1 L1. generalize dependent (sqrt (a0 + s * s)). intros r2 L2 E2.
      rewrite <- E2, <- E1. field. repeat split; try lra; apply Rgt_not_eq; nra.
  Qed.
End Three.

(** powers of the distances from the centres *)
Section Powers.
  Variables (ai aj ak al : R) (A B C D : Z -> R).
  Hypothesis (Hp : 0 < ai + aj) (Hq : 0 < ak + al).
  Variables (oi oj ok ol : Z -> nat).
  Definition mom4 ax := mom ai aj ak al (A ax) (B ax) (C ax) (D ax) (oi ax) (oj ax) (ok ax) (ol ax).
  Definition mom3 : R -> R := prod3 mom4.
  Definition degs ax : nat := (oi ax + oj ax + ok ax + ol ax)%nat.
  Definition deg3 : nat := (degs 0%Z + degs 1%Z + degs 2%Z)%nat.
  Lemma four_moments : moments2 ai aj ak al A B C D (fun ax => four ai aj ak al (A ax) (B ax) (C ax) (D ax) (oi ax) (oj ax) (ok ax) (ol ax)) mom4 degs.
  Proof.
    intros ax Hax. split; [apply mom_pol; assumption|]. intros r t2 Ht Er.
    destruct (mom_int ai aj ak al (A ax) (B ax) (C ax) (D ax) Hp Hq r t2 Ht Er) as (_ & _ & HI).
    eapply plane_ext; [|exact (HI (oi ax) (oj ax) (ok ax) (ol ax))].
    intros x y. cbv beta. unfold four, eri_weight. rewrite (Rmult_assoc _ (exp _) (exp _)), <- exp_plus. reflexivity.
  Qed.
End Powers.
