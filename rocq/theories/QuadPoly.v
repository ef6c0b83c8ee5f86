(** QuadPoly.v — a rule is exact for polynomials of its degree. *)
From Coq Require Import Reals Lra Psatz.
From Coquelicot Require Import Coquelicot.
From Verif Require Import Base GaussInt Gauss2Int QuadSpec.
Local Open Scope R_scope.

(** polynomials of degree at most d *)
Inductive pol : nat -> (R -> R) -> Prop :=
| pol_const c : pol 0 (fun _ => c)
| pol_add d f g : pol d f -> pol d g -> pol d (fun t => f t + g t)
| pol_X d f : pol d f -> pol (S d) (fun t => t * f t)
| pol_up d f : pol d f -> pol (S d) f
| pol_ext d f g : pol d f -> (forall t, f t = g t) -> pol d g.

Lemma pol_le d d' f : (d <= d')%nat -> pol d f -> pol d' f.
Proof. induction 1; [auto|]. intros. apply pol_up. auto. Qed.
Lemma pol_scal d f c : pol d f -> pol d (fun t => c * f t).
Proof.
  induction 1.
  - apply (pol_const (c * c0)).
  - eapply pol_ext; [exact (pol_add _ _ _ IHpol1 IHpol2)|]. intros; cbn; ring.
  - eapply pol_ext; [exact (pol_X _ _ IHpol)|]. intros; cbn; ring.
  - apply pol_up, IHpol.
  - eapply pol_ext; [exact IHpol|]. intros; cbn. rewrite H0. ring.
Qed.
Lemma pol_zero d : pol d (fun _ => 0).
Proof. apply (pol_le 0); [lia|apply pol_const]. Qed.
Lemma pol_mul d f d' g : pol d f -> pol d' g -> pol (d + d') (fun t => f t * g t).
Proof.
  intros H. revert d' g. induction H; intros d' g' H'.
  - apply pol_scal, H'.
  - eapply pol_ext; [exact (pol_add _ _ _ (IHpol1 _ _ H') (IHpol2 _ _ H'))|]. intros; cbn; ring.
  - eapply pol_ext; [exact (pol_X _ _ (IHpol _ _ H'))|]. intros; cbn; ring.
  - cbn. apply pol_up. auto.
  - eapply pol_ext; [exact (IHpol _ _ H')|]. intros; cbn. rewrite H0. ring.
Qed.
(** a + b t *)
Lemma pol_lin a b : pol 1 (fun t => a + b * t).
Proof.
  eapply pol_ext; [apply (pol_add 1 (fun _ => a) (fun t => t * b))|intros; cbn; ring].
  - apply pol_up, pol_const.
  - apply pol_X, pol_const.
Qed.

Lemma pol_cont d f t : pol d f -> continuous f t.
Proof.
  intros H. revert t. induction H; intros t.
  - apply continuous_const.
  - apply (continuous_plus (V := R_NormedModule)); auto.
  - apply (continuous_mult (K := R_AbsRing)); [apply continuous_id|auto].
  - auto.
  - eapply continuous_ext; [exact H0|auto].
Qed.

Lemma wcont X f : (forall t, continuous f t) -> forall t, continuous (fun t => f (t * t) * exp (- (X * (t * t)))) t.
Proof.
  intros Hf t. apply (continuous_mult (K := R_AbsRing)).
  - apply (continuous_comp (fun t => t * t) f); [apply (continuous_mult (K := R_AbsRing)); apply continuous_id|apply Hf].
  - apply (continuous_comp (fun t => - (X * (t * t))) exp).
    + apply (ex_derive_continuous (K := R_AbsRing) (V := R_NormedModule)). auto_derive. exact I.
    + apply (ex_derive_continuous (K := R_AbsRing) (V := R_NormedModule)). auto_derive. exact I.
Qed.
Lemma cont_ex (f : R -> R) a b : (forall t, continuous f t) -> ex_RInt f a b.
Proof. intros H. apply (ex_RInt_continuous (V := R_CompleteNormedModule)). intros; apply H. Qed.
Lemma RInt_ex (f g : R -> R) a b : (forall t, f t = g t) -> RInt f a b = RInt g a b.
Proof. intros H. apply RInt_ext. intros t _. apply H. Qed.
Lemma RInt_mul (f : R -> R) c a b : ex_RInt f a b -> RInt (fun t => c * f t) a b = c * RInt f a b.
Proof. intros H. exact (RInt_scal f a b c H). Qed.
Lemma RInt_add (f g : R -> R) a b : ex_RInt f a b -> ex_RInt g a b -> RInt (fun t => f t + g t) a b = RInt f a b + RInt g a b.
Proof. intros H H'. exact (RInt_plus f g a b H H'). Qed.

Lemma rsumz_ext n f g : (forall k, (0 <= k < n)%Z -> f k = g k) -> rsumz n f = rsumz n g.
Proof. intros H. apply lsum_ext. exact H. Qed.

Lemma rsumz_add n f g : rsumz n (fun k => f k + g k) = rsumz n f + rsumz n g.
Proof. unfold lsum. induction (Z.to_nat n); cbn; [ring|]. rewrite IHn0. ring. Qed.
Lemma rsumz_scal n c f : rsumz n (fun k => c * f k) = c * rsumz n f.
Proof. unfold lsum. induction (Z.to_nat n); cbn; [ring|]. rewrite IHn0. ring. Qed.

Lemma rule_pol n X lo t2 w d f : rule n X lo t2 w -> pol d f -> (Z.of_nat d <= 2 * n - 1)%Z ->
  rsumz n (fun k => w k * f (t2 k)) = RInt (fun t => f (t * t) * exp (- (X * (t * t)))) lo 1.
Proof.
  intros HR Hf Hd.
  assert (G : forall m, (Z.of_nat (m + d) <= 2 * n - 1)%Z ->
    rsumz n (fun k => w k * (t2 k ^ m * f (t2 k))) = RInt (fun t => ((t * t) ^ m * f (t * t)) * exp (- (X * (t * t)))) lo 1).
  { clear Hd. induction Hf; intros m Hm.
    - transitivity (c * rsumz n (fun k => w k * t2 k ^ m)).
      { rewrite <- rsumz_scal. apply rsumz_ext. intros; ring. }
      rewrite (HR m) by lia. rewrite <- RInt_mul.
      + apply RInt_ex. intros t. rewrite pow_mult. replace (t ^ 2) with (t * t) by ring. ring.
      + apply cont_ex. intros t. apply (ex_derive_continuous (K := R_AbsRing) (V := R_NormedModule)). auto_derive. exact I.
    - transitivity (rsumz n (fun k => w k * (t2 k ^ m * f (t2 k))) + rsumz n (fun k => w k * (t2 k ^ m * g (t2 k)))).
      { rewrite <- rsumz_add. apply rsumz_ext. intros; ring. }
      rewrite IHHf1, IHHf2 by lia. rewrite <- RInt_add.
      + apply RInt_ex. intros t. ring.
      + apply cont_ex. apply (wcont X (fun t => t ^ m * f t)). intros t. apply (continuous_mult (K := R_AbsRing));
          [|apply (pol_cont _ _ _ Hf1)]. apply (ex_derive_continuous (K := R_AbsRing) (V := R_NormedModule)). auto_derive. exact I.
      + apply cont_ex. apply (wcont X (fun t => t ^ m * g t)). intros t. apply (continuous_mult (K := R_AbsRing));
          [|apply (pol_cont _ _ _ Hf2)]. apply (ex_derive_continuous (K := R_AbsRing) (V := R_NormedModule)). auto_derive. exact I.
    - transitivity (rsumz n (fun k => w k * (t2 k ^ S m * f (t2 k)))).
      { apply rsumz_ext. intros; cbn; ring. }
      rewrite (IHHf (S m)) by lia. apply RInt_ex. intros t. cbn. ring.
    - apply IHHf. lia.
    - transitivity (rsumz n (fun k => w k * (t2 k ^ m * f (t2 k)))).
      { apply rsumz_ext. intros; rewrite H; ring. }
      rewrite IHHf by lia. apply RInt_ex. intros t. rewrite H. reflexivity. }
  specialize (G 0%nat Hd). cbn [pow] in G.
  transitivity (rsumz n (fun k => w k * (1 * f (t2 k)))). { apply rsumz_ext. intros; ring. }
  rewrite G. apply RInt_ex. intros t. ring.
Qed.
