(** Gauss2Int.v — iterated integrals over the plane of products of powers with a Gaussian coupling
    of two coordinates; a table with the two-coordinate identities is the table of these integrals. *)
From Coq Require Import Reals Lra Psatz.
From Coquelicot Require Import Coquelicot.
From Verif Require Import Base RecSpec RecMoments GaussInt Rec1Real.
Local Open Scope R_scope.

(** iterated integral: over y for every x, then over x *)
Definition RIntPlane (f : R -> R -> R) (l : R) : Prop :=
  exists h, (forall x, RIntLine (f x) (h x)) /\ RIntLine h l.

Lemma plane_ext f g l : (forall x y, f x y = g x y) -> RIntPlane f l -> RIntPlane g l.
Proof.
  intros E (h & H1 & H2). exists h. split; [|exact H2]. intros x. eapply line_ext; [|apply H1]. intros; apply E.
Qed.
Lemma plane_scal f k l : RIntPlane f l -> RIntPlane (fun x y => k * f x y) (k * l).
Proof.
  intros (h & H1 & H2). exists (fun x => k * h x). split; [|apply line_scal, H2].
  intros x. apply line_scal, H1.
Qed.
Lemma plane_unique f a b : RIntPlane f a -> RIntPlane f b -> a = b.
Proof.
  intros (h & H1 & H2) (h' & H1' & H2'). apply (line_unique h); [exact H2|].
  eapply line_ext; [|exact H2']. intros x. apply (line_unique (f x)); auto.
Qed.

Lemma line_zero f : (forall x, f x = 0) -> RIntLine f 0.
Proof.
  intros H. rewrite <- (Rmult_0_l (sqrt (PI / 1))).
  eapply line_ext; [|exact (line_scal _ 0 _ (line_gauss 1 0 Rlt_0_1))]. intros x. rewrite H. ring.
Qed.

(** exp(-(p (x-P)^2 + q (y-Q)^2 + r (x-y)^2)) *)
Definition form2 (p q r P Q x y : R) : R :=
  p * ((x - P) * (x - P)) + q * ((y - Q) * (y - Q)) + r * ((x - y) * (x - y)).
Definition wgt2 p q r P Q x y : R := exp (- form2 p q r P Q x y).

Section Plane.
  Variables (p q r P Q : R).
  Hypothesis (Hp : 0 < p) (Hq : 0 < q) (Hr : 0 <= r).
  Definition det2 : R := p * q + r * (p + q).
  Definition mean1 : R := P - r * q * (P - Q) / det2.
  Definition mean2 : R := Q + r * p * (P - Q) / det2.
  Definition var11 : R := (q + r) / (2 * det2).
  Definition var22 : R := (p + r) / (2 * det2).
  Definition var12 : R := r / (2 * det2).
  Lemma det2_pos : 0 < det2. Proof. unfold det2. nra. Qed.

  (** value of the integral of the weight itself *)
  Definition norm2 : R := exp (- (p * q * r / det2 * ((P - Q) * (P - Q)))) * sqrt (PI / (q + r)) * sqrt (PI / (det2 / (q + r))).
  Lemma norm2_pos : 0 < norm2.
  Proof.
    pose proof det2_pos. pose proof PI_RGT_0. unfold norm2.
    repeat apply Rmult_lt_0_compat; [apply exp_pos|apply sqrt_lt_R0|apply sqrt_lt_R0];
      repeat apply Rdiv_lt_0_compat; lra.
  Qed.

  Let s := q + r.
  Let mu x := (q * Q + r * x) / s.
  Let N x := exp (- (p * ((x - P) * (x - P)) + q * r / s * ((x - Q) * (x - Q)))) * sqrt (PI / s).

  Section Tab.
    Variables (A B C D : R).
    Let h k l x := gauss1_tab 0 Rplus Rmult Rminus IZR (/ (2 * s)) (mu x - C) (mu x - D) (N x) (Z.of_nat k) (Z.of_nat l).

    Let hG x : gauss1 Rplus Rmult IZR (/ (2 * s)) (mu x - C) (mu x - D)
        (gauss1_tab 0 Rplus Rmult Rminus IZR (/ (2 * s)) (mu x - C) (mu x - D) (N x)) :=
      gauss1_tab_ok 0 1 Rplus Rmult Rminus Ropp IZR RTheory eq_refl IZR_S _ _ _ _.

    Lemma inner_int k l x : RIntLine (fun y => (y - C) ^ k * (y - D) ^ l * wgt2 p q r P Q x y) (h k l x).
    Proof.
      assert (Hs : 0 < s) by (unfold s; lra). pose proof PI_RGT_0 as Hpi.
      assert (Hq' : 0 < sqrt (PI / s)) by (apply sqrt_lt_R0, Rdiv_lt_0_compat; lra).
      eapply line_ext; [|exact (line_moments_scaled s (mu x) Hs C D _ (N x) (hG x) eq_refl k l)].
      intros y. cbv beta. f_equal. unfold N, wgt, wgt2, form2.
      replace (exp (- (p * ((x - P) * (x - P)) + q * r / s * ((x - Q) * (x - Q)))) * sqrt (PI / s) / sqrt (PI / s))
        with (exp (- (p * ((x - P) * (x - P)) + q * r / s * ((x - Q) * (x - Q))))) by (field; lra).
      rewrite <- exp_plus. f_equal. unfold mu. unfold s. field. unfold s in Hs. lra.
    Qed.

    Variable T : Z -> Z -> Z -> Z -> R.
    Hypothesis GT : gauss2 Rplus Rmult IZR var11 var22 var12 (mean1 - A) (mean1 - B) (mean2 - C) (mean2 - D) T.
    Hypothesis T0 : T 0%Z 0%Z 0%Z 0%Z = norm2.

    Lemma outer_int i j k l :
      RIntLine (fun x => (x - A) ^ i * (x - B) ^ j * h k l x) (T (Z.of_nat i) (Z.of_nat j) (Z.of_nat k) (Z.of_nat l)).
    Proof.
      assert (Hs : 0 < s) by (unfold s; lra). pose proof PI_RGT_0 as Hpi. pose proof det2_pos as Hd.
      assert (Hps : 0 < det2 / s) by (apply Rdiv_lt_0_compat; lra).
      assert (Hq' : 0 < sqrt (PI / (det2 / s))) by (apply sqrt_lt_R0, Rdiv_lt_0_compat; lra).
      (* l = 0 *)
      assert (K0 : forall k, (forall i j, RIntLine (fun x => (x - A) ^ i * (x - B) ^ j * h k 0 x) (T (Z.of_nat i) (Z.of_nat j) (Z.of_nat k) 0%Z)) /\
                   (forall i j, RIntLine (fun x => (x - A) ^ i * (x - B) ^ j * h (S k) 0 x) (T (Z.of_nat i) (Z.of_nat j) (Z.of_nat (S k)) 0%Z))).
      { assert (Hraise : forall k, (forall i j, RIntLine (fun x => (x - A) ^ i * (x - B) ^ j * h k 0 x) (T (Z.of_nat i) (Z.of_nat j) (Z.of_nat k) 0%Z)) ->
          (k = 0%nat \/ forall i j, RIntLine (fun x => (x - A) ^ i * (x - B) ^ j * h (pred k) 0 x) (T (Z.of_nat i) (Z.of_nat j) (Z.of_nat (pred k)) 0%Z)) ->
          forall i j, RIntLine (fun x => (x - A) ^ i * (x - B) ^ j * h (S k) 0 x) (T (Z.of_nat i) (Z.of_nat j) (Z.of_nat (S k)) 0%Z)).
        { intros k1 H1 H2 i1 j1.
          assert (H2' : RIntLine (fun x => INR k1 * ((x - A) ^ i1 * (x - B) ^ j1 * h (pred k1) 0 x))
                          (INR k1 * T (Z.of_nat i1) (Z.of_nat j1) (Z.of_nat k1 - 1)%Z 0%Z)).
          { destruct H2 as [->|H2].
            - cbn [INR]. rewrite Rmult_0_l. apply line_zero. intros x. ring.
            - destruct k1 as [|k2].
              + cbn [INR]. rewrite Rmult_0_l. apply line_zero. intros x. ring.
              + cbn [pred] in *. replace (Z.of_nat (S k2) - 1)%Z with (Z.of_nat k2) by lia. apply line_scal, H2. }
          eapply line_ext; [|
            replace (T (Z.of_nat i1) (Z.of_nat j1) (Z.of_nat (S k1)) 0%Z) with
              (r / s * T (Z.of_nat (S i1)) (Z.of_nat j1) (Z.of_nat k1) 0%Z
               + ((q * (Q - C) + r * (A - C)) / s * T (Z.of_nat i1) (Z.of_nat j1) (Z.of_nat k1) 0%Z
                  + / (2 * s) * (INR k1 * T (Z.of_nat i1) (Z.of_nat j1) (Z.of_nat k1 - 1)%Z 0%Z)));
            [exact (line_plus _ _ _ _ (line_scal _ (r / s) _ (H1 (S i1) j1))
                     (line_plus _ _ _ _ (line_scal _ ((q * (Q - C) + r * (A - C)) / s) _ (H1 i1 j1))
                        (line_scal _ (/ (2 * s)) _ H2')))|]].
          - intros x. cbv beta. unfold h. replace (Z.of_nat (S k1)) with (Z.of_nat k1 + 1)%Z by lia.
            change (Z.of_nat 0) with 0%Z.
            rewrite (g1_i _ _ _ _ _ _ _ (hG x) (Z.of_nat k1) 0%Z) by lia.
            rewrite INR_IZR_INZ.
            generalize (gauss1_tab 0 Rplus Rmult Rminus IZR (/ (2 * s)) (mu x - C) (mu x - D) (N x)). intros G1.
            destruct k1 as [|k2].
            + cbn [Z.of_nat]. unfold mu, s. unfold s in Hs. cbn [pow]. field. lra.
            + cbn [pred]. replace (Z.of_nat (S k2) - 1)%Z with (Z.of_nat k2) by lia. unfold mu, s. unfold s in Hs. cbn [pow]. field. lra.
          - rewrite INR_IZR_INZ.
            replace (Z.of_nat (S i1)) with (Z.of_nat i1 + 1)%Z by lia. replace (Z.of_nat (S k1)) with (Z.of_nat k1 + 1)%Z by lia.
            rewrite (g2_i _ _ _ _ _ _ _ _ _ _ _ GT), (g2_k _ _ _ _ _ _ _ _ _ _ _ GT) by lia.
            generalize (T (Z.of_nat i1) (Z.of_nat j1) (Z.of_nat k1) 0%Z) (T (Z.of_nat i1 - 1)%Z (Z.of_nat j1) (Z.of_nat k1) 0%Z)
              (T (Z.of_nat i1) (Z.of_nat j1 - 1)%Z (Z.of_nat k1) 0%Z) (T (Z.of_nat i1) (Z.of_nat j1) (Z.of_nat k1 - 1)%Z 0%Z)
              (T (Z.of_nat i1) (Z.of_nat j1) (Z.of_nat k1) (0 - 1)%Z). intros t0 t1 t2 t3 t4.
            unfold var11, var12, var22, mean1, mean2, s, det2. unfold s in Hs. unfold det2 in Hd. field. lra. }
        assert (X0 : forall i j, RIntLine (fun x => (x - A) ^ i * (x - B) ^ j * h 0 0 x) (T (Z.of_nat i) (Z.of_nat j) (Z.of_nat 0) 0%Z)).
        { intros i1 j1.
          assert (G0 : gauss1 Rplus Rmult IZR (/ (2 * (det2 / s))) (mean1 - A) (mean1 - B) (fun i j => T i j 0%Z 0%Z)).
          { replace (/ (2 * (det2 / s))) with var11 by (unfold var11, s; field; unfold s in Hs; lra).
            split; intros a b Ha Hb.
            - rewrite (g2_i _ _ _ _ _ _ _ _ _ _ _ GT) by lia. cbn [IZR]. ring.
            - rewrite (g2_j _ _ _ _ _ _ _ _ _ _ _ GT) by lia. cbn [IZR]. ring. }
          eapply line_ext; [|exact (line_moments_scaled (det2 / s) mean1 Hps A B _ norm2 G0 T0 i1 j1)].
          intros x. cbv beta. f_equal. unfold h. change (Z.of_nat 0) with 0%Z.
          change (gauss1_tab 0 Rplus Rmult Rminus IZR (/ (2 * s)) (mu x - C) (mu x - D) (N x) 0 0) with (N x).
          unfold norm2, N, wgt. fold s.
          replace (exp (- (p * q * r / det2 * ((P - Q) * (P - Q)))) * sqrt (PI / s) * sqrt (PI / (det2 / s)) / sqrt (PI / (det2 / s)))
            with (exp (- (p * q * r / det2 * ((P - Q) * (P - Q)))) * sqrt (PI / s)) by (field; lra).
          replace (exp (- (p * q * r / det2 * ((P - Q) * (P - Q)))) * sqrt (PI / s) * exp (- (det2 / s * ((x - mean1) * (x - mean1)))))
            with ((exp (- (p * q * r / det2 * ((P - Q) * (P - Q)))) * exp (- (det2 / s * ((x - mean1) * (x - mean1))))) * sqrt (PI / s)) by ring.
          rewrite <- exp_plus. f_equal. f_equal. unfold mean1, s, det2. unfold s in Hs. unfold det2 in Hd. field. lra. }
        induction k0 as [|k0 [IH1 IH2]].
        - split; [exact X0|]. apply (Hraise 0%nat X0). left. reflexivity.
        - split; [exact IH2|]. apply (Hraise (S k0) IH2). right. exact IH1. }
      revert i j k. induction l as [|l IH]; intros i j k.
      - apply (proj1 (K0 k)).
      - replace (Z.of_nat (S l)) with (Z.of_nat l + 1)%Z by lia.
        rewrite (gauss2_transfer_kl 0 1 Rplus Rmult Rminus Ropp IZR RTheory _ _ _ _ _ _ _ _ _ _ _ _ GT) by lia.
        replace (Z.of_nat k + 1)%Z with (Z.of_nat (S k)) by lia.
        replace (mean2 - D - (mean2 - C)) with (C - D) by ring.
        eapply line_ext; [|exact (line_plus _ _ _ _ (IH i j (S k)) (line_scal _ (C - D) _ (IH i j k)))].
        intros x. cbv beta. unfold h.
        replace (Z.of_nat (S l)) with (Z.of_nat l + 1)%Z by lia.
        rewrite (gauss1_transfer 0 1 Rplus Rmult Rminus Ropp IZR RTheory _ _ _ _ (Z.of_nat k) (Z.of_nat l) (hG x)) by lia.
        replace (Z.of_nat (S k)) with (Z.of_nat k + 1)%Z by lia. ring.
    Qed.

    Lemma plane_table i j k l :
      RIntPlane (fun x y => (x - A) ^ i * (x - B) ^ j * ((y - C) ^ k * (y - D) ^ l) * wgt2 p q r P Q x y)
        (T (Z.of_nat i) (Z.of_nat j) (Z.of_nat k) (Z.of_nat l)).
    Proof.
      exists (fun x => (x - A) ^ i * (x - B) ^ j * h k l x). split; [|apply outer_int].
      intros x. eapply line_ext; [|exact (line_scal _ ((x - A) ^ i * (x - B) ^ j) _ (inner_int k l x))].
      intros y. cbv beta. ring.
    Qed.
  End Tab.

  Lemma plane_norm : RIntPlane (wgt2 p q r P Q) norm2.
  Proof.
    destruct (gauss2_exist 0 1 Rplus Rmult Rminus Ropp IZR RTheory eq_refl IZR_S var11 var22 var12
       (mean1 - 0) (mean1 - 0) (mean2 - 0) (mean2 - 0) norm2) as (T & GT & T0).
    eapply plane_ext; [|rewrite <- T0; exact (plane_table 0 0 0 0 T GT T0 0 0 0 0)].
    intros x y. cbn. ring.
  Qed.

  (** a table is, up to its value at the origin, the table of integrals *)
  Lemma plane_is_table K (E : R -> R -> R) A B C D S w : 0 < K -> (forall x y, E x y = K * wgt2 p q r P Q x y) ->
    gauss2 Rplus Rmult IZR var11 var22 var12 (mean1 - A) (mean1 - B) (mean2 - C) (mean2 - D) S ->
    S 0%Z 0%Z 0%Z 0%Z = w ->
    RIntPlane E (K * norm2) /\ 0 < K * norm2 /\
    forall i j k l, exists I,
      RIntPlane (fun x y => (x - A) ^ i * (x - B) ^ j * ((y - C) ^ k * (y - D) ^ l) * E x y) I /\
      S (Z.of_nat i) (Z.of_nat j) (Z.of_nat k) (Z.of_nat l) = w / (K * norm2) * I.
  Proof.
    intros HK HE G E0. pose proof norm2_pos as Hn. split; [|split].
    - eapply plane_ext; [|exact (plane_scal _ K _ plane_norm)]. intros x y. rewrite HE. reflexivity.
    - apply Rmult_lt_0_compat; assumption.
    - intros i j k l.
      destruct (gauss2_exist 0 1 Rplus Rmult Rminus Ropp IZR RTheory eq_refl IZR_S var11 var22 var12
       (mean1 - A) (mean1 - B) (mean2 - C) (mean2 - D) norm2) as (T & GT & T0).
      exists (K * T (Z.of_nat i) (Z.of_nat j) (Z.of_nat k) (Z.of_nat l)). split.
      + eapply plane_ext; [|exact (plane_scal _ K _ (plane_table A B C D T GT T0 i j k l))].
        intros x y. cbv beta. rewrite HE. ring.
      + rewrite (gauss2_unique 0 1 Rplus Rmult Rminus Ropp IZR RTheory eq_refl _ _ _ _ _ _ _ S
           (fun i j k l => w / (K * norm2) * (K * T i j k l)) G); try lia.
        * reflexivity.
        * split; intros a b c d Ha Hb Hc Hd.
          -- rewrite (g2_i _ _ _ _ _ _ _ _ _ _ _ GT) by assumption. ring.
          -- rewrite (g2_j _ _ _ _ _ _ _ _ _ _ _ GT) by assumption. ring.
          -- rewrite (g2_k _ _ _ _ _ _ _ _ _ _ _ GT) by assumption. ring.
          -- rewrite (g2_l _ _ _ _ _ _ _ _ _ _ _ GT) by assumption. ring.
        * rewrite E0, T0. field. split; lra.
  Qed.
End Plane.
