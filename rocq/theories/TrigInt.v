(** TrigInt.v — integrals of products of powers of sine and cosine over half and whole
    turns, and the integral of a monomial over the unit sphere. *)
From Coq Require Import Reals Lra Lia ZArith.
From Coquelicot Require Import Coquelicot.
Local Open Scope R_scope.

Definition trig (n r : nat) (t : R) : R := sin t ^ n * cos t ^ r.

Lemma trig_cont n r t : continuous (trig n r) t.
Proof. apply (@ex_derive_continuous R_AbsRing R_NormedModule). unfold trig. auto_derive. exact I. Qed.
Lemma trig_ex n r a b : ex_RInt (trig n r) a b.
Proof. apply (@ex_RInt_continuous R_CompleteNormedModule). intros; apply trig_cont. Qed.

Section Turn.
  Variable b : R.
  Hypothesis Hb : sin b = 0.
  Definition I (n r : nat) : R := RInt (trig n r) 0 b.

  Lemma I_split n r : I n r = I (n + 2) r + I n (r + 2).
  Proof.
    unfold I. rewrite <- (RInt_plus (trig (n + 2) r) (trig n (r + 2))) by apply trig_ex.
    apply RInt_ext. intros x _. unfold trig, plus; cbn [AbelianGroup.plus]. cbn.
    rewrite !pow_add. pose proof (sin2_cos2 x) as H. unfold Rsqr in H. cbn [pow].
    transitivity (sin x ^ n * cos x ^ r * (sin x * sin x + cos x * cos x)); [rewrite H; ring|ring].
  Qed.

  Lemma I_parts n r : (INR n + 1) * I n (r + 2) = (INR r + 1) * I (n + 2) r.
  Proof.
    assert (E : is_RInt (fun t => (INR n + 1) * trig n (r + 2) t - (INR r + 1) * trig (n + 2) r t) 0 b
                 (trig (n + 1) (r + 1) b - trig (n + 1) (r + 1) 0)).
    { apply (is_RInt_derive (trig (n + 1) (r + 1))).
      - intros x _. unfold trig. auto_derive; [exact Logic.I|].
        rewrite !plus_INR. replace (Init.Nat.pred (n + 1)) with n by lia.
        replace (Init.Nat.pred (r + 1)) with r by lia. rewrite !pow_add. cbn [INR pow]. ring.
      - intros x _. apply (@ex_derive_continuous R_AbsRing R_NormedModule). unfold trig. auto_derive. exact Logic.I. }
    assert (Z : trig (n + 1) (r + 1) b - trig (n + 1) (r + 1) 0 = 0).
    { unfold trig. rewrite !pow_add, Hb, sin_0. cbn [pow]. ring. }
    rewrite Z in E.
    assert (E2 : is_RInt (fun t => (INR n + 1) * trig n (r + 2) t - (INR r + 1) * trig (n + 2) r t) 0 b
                 ((INR n + 1) * I n (r + 2) - (INR r + 1) * I (n + 2) r)).
    { apply (is_RInt_minus (V := R_NormedModule)); apply (is_RInt_scal (V := R_NormedModule));
        apply (RInt_correct (V := R_CompleteNormedModule)), trig_ex. }
    apply (is_RInt_unique (V := R_CompleteNormedModule)) in E. apply (is_RInt_unique (V := R_CompleteNormedModule)) in E2. rewrite E2 in E. lra.
  Qed.

  Lemma I_cos n r : (INR n + INR r + 2) * I n (r + 2) = (INR r + 1) * I n r.
  Proof. pose proof (I_split n r). pose proof (I_parts n r). nra. Qed.
  Lemma I_sin n r : (INR n + INR r + 2) * I (n + 2) r = (INR n + 1) * I n r.
  Proof. pose proof (I_split n r). pose proof (I_parts n r). nra. Qed.

  Lemma I_cos1 n : I n 1 = 0.
  Proof.
    assert (E : is_RInt (trig n 1) 0 b (/ (INR n + 1) * trig (n + 1) 0 b - / (INR n + 1) * trig (n + 1) 0 0)).
    { pose proof (pos_INR n).
      apply (is_RInt_derive (fun t => / (INR n + 1) * trig (n + 1) 0 t)).
      - intros x _. unfold trig. auto_derive; [exact Logic.I|].
        rewrite !plus_INR. replace (Init.Nat.pred (n + 1)) with n by lia. cbn [INR pow]. field. lra.
      - intros x _. apply trig_cont. }
    apply (is_RInt_unique (V := R_CompleteNormedModule)) in E. unfold I. rewrite E. unfold trig. rewrite !pow_add, Hb, sin_0. cbn [pow]. ring.
  Qed.
  Lemma I_cos_odd n k : I n (2 * k + 1) = 0.
  Proof.
    induction k as [|k IH]; [apply I_cos1|].
    pose proof (I_cos n (2 * k + 1)) as H. rewrite IH in H.
    replace (2 * S k + 1)%nat with (2 * k + 1 + 2)%nat by lia.
    pose proof (pos_INR n). pose proof (pos_INR (2 * k + 1)). nra.
  Qed.
  Lemma I_00 : I 0 0 = b.
  Proof.
    unfold I. rewrite (RInt_ext _ (fun _ => 1)) by (intros; unfold trig; cbn; ring).
    rewrite RInt_const. unfold scal; cbn. unfold mult; cbn. ring.
  Qed.
  Lemma I_10 : I 1 0 = 1 - cos b.
  Proof.
    assert (E : is_RInt (trig 1 0) 0 b (- cos b - - cos 0)).
    { apply (is_RInt_derive (fun t => - cos t)).
      - intros x _. unfold trig. auto_derive; [exact Logic.I|]. cbn [pow]. ring.
      - intros x _. apply trig_cont. }
    apply (is_RInt_unique (V := R_CompleteNormedModule)) in E. unfold I. rewrite E, cos_0. ring.
  Qed.
End Turn.

(** (2k-1)!! and (2k)!! *)
Fixpoint dfo (k : nat) : Z := match k with O => 1 | S k' => (2 * Z.of_nat k' + 1) * dfo k' end%Z.
Fixpoint dfe (k : nat) : Z := match k with O => 1 | S k' => (2 * Z.of_nat k' + 2) * dfe k' end%Z.
Lemma dfo_pos k : (0 < dfo k)%Z. Proof. induction k; cbn [dfo]; nia. Qed.
Lemma dfe_pos k : (0 < dfe k)%Z. Proof. induction k; cbn [dfe]; nia. Qed.
Lemma dfoR k : 0 < IZR (dfo k). Proof. apply (IZR_lt 0), dfo_pos. Qed.
Lemma dfeR k : 0 < IZR (dfe k). Proof. apply (IZR_lt 0), dfe_pos. Qed.
Lemma dfo_S k : IZR (dfo (S k)) = (2 * INR k + 1) * IZR (dfo k).
Proof. cbn [dfo]. rewrite mult_IZR, plus_IZR, mult_IZR, <- INR_IZR_INZ. reflexivity. Qed.
Lemma dfe_S k : IZR (dfe (S k)) = (2 * INR k + 2) * IZR (dfe k).
Proof. cbn [dfe]. rewrite mult_IZR, plus_IZR, mult_IZR, <- INR_IZR_INZ. reflexivity. Qed.
Lemma INR2 k : INR (2 * k) = 2 * INR k.
Proof. rewrite mult_INR. reflexivity. Qed.

(** the whole turn *)
Lemma whole_even k j : I (2 * PI) (2 * k) (2 * j) * IZR (dfe (k + j)) = 2 * PI * (IZR (dfo k) * IZR (dfo j)).
Proof.
  pose proof sin_2PI as S0. induction k as [|k IHk].
  - induction j as [|j IHj].
    + cbn [Nat.mul Nat.add dfe dfo]. rewrite (I_00 (2 * PI)). ring.
    + replace (2 * S j)%nat with (2 * j + 2)%nat by lia.
      pose proof (I_cos _ S0 0 (2 * j)) as H. rewrite INR2 in H. cbn [INR] in H.
      change (2 * 0)%nat with 0%nat in *. change (0 + S j)%nat with (S j). change (0 + j)%nat with j in IHj.
      rewrite dfe_S, (dfo_S j).
      transitivity (((0 + 2 * INR j + 2) * I (2 * PI) 0 (2 * j + 2)) * IZR (dfe j)); [ring|].
      rewrite H.
      transitivity ((2 * INR j + 1) * (I (2 * PI) 0 (2 * j) * IZR (dfe j))); [ring|]. rewrite IHj. ring.
  - replace (2 * S k)%nat with (2 * k + 2)%nat by lia.
    pose proof (I_sin _ S0 (2 * k) (2 * j)) as H. rewrite !INR2 in H.
    cbn [Nat.add]. rewrite dfe_S, dfo_S, plus_INR.
    transitivity (((2 * INR k + 2 * INR j + 2) * I (2 * PI) (2 * k + 2) (2 * j)) * IZR (dfe (k + j))); [ring|].
    rewrite H.
    transitivity ((2 * INR k + 1) * (I (2 * PI) (2 * k) (2 * j) * IZR (dfe (k + j)))); [ring|]. rewrite IHk. ring.
Qed.
Lemma whole_sin_odd k r : I (2 * PI) (2 * k + 1) r = 0.
Proof.
  pose proof sin_2PI as S0.
  assert (B : forall r, I (2 * PI) 1 r = 0).
  { intros r0. destruct (Nat.Even_or_Odd r0) as [[j ->]|[j ->]]; [|apply I_cos_odd; exact S0].
    induction j as [|j IH]; [cbn [Nat.mul]; rewrite I_10, cos_2PI; ring|].
    pose proof (I_cos _ S0 1 (2 * j)) as H. rewrite IH in H.
    replace (2 * S j)%nat with (2 * j + 2)%nat by lia. pose proof (pos_INR (2 * j)). cbn [INR] in H. nra. }
  induction k as [|k IH]; [apply B|].
  pose proof (I_sin _ S0 (2 * k + 1) r) as H. rewrite IH in H.
  replace (2 * S k + 1)%nat with (2 * k + 1 + 2)%nat by lia.
  pose proof (pos_INR (2 * k + 1)). pose proof (pos_INR r). nra.
Qed.

(** the half turn *)
Lemma half_odd k j : I PI (2 * k + 1) (2 * j) * IZR (dfo (k + j + 1)) = 2 * (IZR (dfe k) * IZR (dfo j)).
Proof.
  pose proof sin_PI as S0. induction k as [|k IHk].
  - induction j as [|j IHj].
    + cbn [Nat.mul Nat.add dfe dfo]. rewrite I_10, cos_PI. cbn. ring.
    + replace (2 * S j)%nat with (2 * j + 2)%nat by lia.
      pose proof (I_cos _ S0 (2 * 0 + 1) (2 * j)) as H. rewrite INR2 in H.
      replace (0 + S j + 1)%nat with (S (0 + j + 1)) by lia. rewrite dfo_S, (dfo_S j).
      replace (INR (2 * 0 + 1)) with 1 in H by reflexivity.
      replace (INR (0 + j + 1)) with (INR j + 1) by (rewrite plus_INR; cbn [Nat.add INR]; reflexivity).
      transitivity (((1 + 2 * INR j + 2) * I PI (2 * 0 + 1) (2 * j + 2)) * IZR (dfo (0 + j + 1))); [ring|].
      rewrite H.
      transitivity ((2 * INR j + 1) * (I PI (2 * 0 + 1) (2 * j) * IZR (dfo (0 + j + 1)))); [ring|]. rewrite IHj. ring.
  - replace (2 * S k + 1)%nat with (2 * k + 1 + 2)%nat by lia.
    pose proof (I_sin _ S0 (2 * k + 1) (2 * j)) as H. rewrite plus_INR, !INR2 in H.
    replace (S k + j + 1)%nat with (S (k + j + 1)) by lia. rewrite dfo_S, dfe_S, !plus_INR. cbn [INR] in *.
    transitivity (((2 * INR k + 1 + 2 * INR j + 2) * I PI (2 * k + 1 + 2) (2 * j)) * IZR (dfo (k + j + 1))); [ring|].
    rewrite H.
    transitivity ((2 * INR k + 2) * (I PI (2 * k + 1) (2 * j) * IZR (dfo (k + j + 1)))); [ring|]. rewrite IHk. ring.
Qed.

(** ** The unit sphere, in polar angles *)
Definition sphere (f : R -> R -> R -> R) : R :=
  RInt (fun th => RInt (fun ph => f (sin th * cos ph) (sin th * sin ph) (cos th) * sin th) 0 (2 * PI)) 0 PI.

Definition is_sphere (f : R -> R -> R -> R) (v : R) : Prop :=
  exists g, (forall th, is_RInt (fun ph => f (sin th * cos ph) (sin th * sin ph) (cos th) * sin th) 0 (2 * PI) (g th))
    /\ is_RInt g 0 PI v.

Lemma is_sphere_unique f v : is_sphere f v -> sphere f = v.
Proof.
  intros [g [H1 H2]]. unfold sphere. rewrite (RInt_ext _ g).
  - apply (is_RInt_unique (V := R_CompleteNormedModule)), H2.
  - intros x _. apply (is_RInt_unique (V := R_CompleteNormedModule)), H1.
Qed.
Lemma is_sphere_ext f f' v : (forall x y z, f x y z = f' x y z) -> is_sphere f v -> is_sphere f' v.
Proof.
  intros E [g [H1 H2]]. exists g. split; [|exact H2]. intros th.
  eapply is_RInt_ext; [|apply H1]. intros x _. cbn. rewrite E. reflexivity.
Qed.
Lemma is_sphere_plus f1 f2 v1 v2 : is_sphere f1 v1 -> is_sphere f2 v2 ->
  is_sphere (fun x y z => f1 x y z + f2 x y z) (v1 + v2).
Proof.
  intros [g [H1 H2]] [g' [H1' H2']]. exists (fun t => g t + g' t). split.
  - intros th. eapply is_RInt_ext; [|apply (is_RInt_plus (V := R_NormedModule)); [apply H1|apply H1']].
    intros x _. unfold plus; cbn. ring.
  - apply (is_RInt_plus (V := R_NormedModule)); assumption.
Qed.
Lemma is_sphere_scal c f v : is_sphere f v -> is_sphere (fun x y z => c * f x y z) (c * v).
Proof.
  intros [g [H1 H2]]. exists (fun t => c * g t). split.
  - intros th. eapply is_RInt_ext; [|apply (is_RInt_scal (V := R_NormedModule)); apply H1].
    intros x _. unfold scal; cbn. unfold mult; cbn. ring.
  - apply (is_RInt_scal (V := R_NormedModule)); assumption.
Qed.
Lemma is_RInt_0 a b : is_RInt (fun _ : R => 0) a b 0.
Proof.
  assert (H : is_RInt (fun _ : R => 0) a b (scal (V := R_NormedModule) (b - a) 0))
    by apply (is_RInt_const (V := R_NormedModule)).
  assert (E : scal (V := R_NormedModule) (b - a) 0 = 0) by (unfold scal; cbn; unfold mult; cbn; ring).
  rewrite E in H. exact H.
Qed.
Lemma is_sphere_zero : is_sphere (fun _ _ _ => 0) 0.
Proof.
  exists (fun _ => 0). split; [|apply is_RInt_0]. intros th.
  eapply is_RInt_ext with (f := fun _ => 0); [intros; symmetry; apply Rmult_0_l|apply is_RInt_0].
Qed.

(** closed form: the integral over the sphere of x^p y^q z^r is
    4 PI (p-1)!! (q-1)!! (r-1)!! / (p+q+r+1)!! when p, q, r are even, otherwise 0 *)
Definition even_df (n : nat) : Z := if Nat.even n then dfo (n / 2) else 0%Z.
Lemma even_df_even k : even_df (2 * k) = dfo k.
Proof.
  unfold even_df. replace (Nat.even (2 * k)) with true.
  - rewrite Nat.mul_comm, Nat.div_mul by lia. reflexivity.
  - symmetry. apply Nat.even_spec. exists k. reflexivity.
Qed.
Lemma even_df_odd k : even_df (2 * k + 1) = 0%Z.
Proof.
  unfold even_df. replace (Nat.even (2 * k + 1)) with false; [reflexivity|].
  symmetry. rewrite <- Nat.negb_odd. apply Bool.negb_false_iff. apply Nat.odd_spec. exists k. reflexivity.
Qed.

Lemma monomial_sphere p q r l : (p + q + r = 2 * l)%nat ->
  is_sphere (fun x y z => x ^ p * y ^ q * z ^ r)
    (4 * PI * IZR (even_df p * even_df q * even_df r) / IZR (dfo (l + 1))).
Proof.
  intros E.
  exists (fun th => I (2 * PI) q p * trig (p + q + 1) r th). split.
  - intros th.
    eapply is_RInt_ext with (f := fun ph => trig (p + q + 1) r th * trig q p ph).
    + intros x _. unfold trig. rewrite !Rpow_mult_distr, !pow_add. match goal with |- ?a = ?b => change (@eq R a b) end. cbn [pow]. ring.
    + replace (I (2 * PI) q p * trig (p + q + 1) r th) with (scal (V := R_NormedModule) (trig (p + q + 1) r th) (I (2 * PI) q p))
        by (unfold scal; cbn; unfold mult; cbn; ring).
      apply (is_RInt_scal (V := R_NormedModule)). apply (RInt_correct (V := R_CompleteNormedModule)), trig_ex.
  - assert (H : is_RInt (fun th => I (2 * PI) q p * trig (p + q + 1) r th) 0 PI (I (2 * PI) q p * I PI (p + q + 1) r)).
    { apply (is_RInt_scal (V := R_NormedModule)). apply (RInt_correct (V := R_CompleteNormedModule)), trig_ex. }
    match goal with |- is_RInt _ _ _ ?v => replace v with (I (2 * PI) q p * I PI (p + q + 1) r); [exact H|] end.
    clear H. pose proof (dfoR (l + 1)) as D.
    destruct (Nat.Even_or_Odd q) as [[b ->]|[b ->]];
      [|rewrite whole_sin_odd, even_df_odd, Z.mul_0_r; unfold Rdiv; cbn [Z.mul]; ring].
    destruct (Nat.Even_or_Odd p) as [[a ->]|[a ->]];
      [|rewrite (I_cos_odd _ sin_2PI), even_df_odd; cbn [Z.mul]; unfold Rdiv; ring].
    assert (El : exists c, (r = 2 * c)%nat) by (exists (l - a - b)%nat; lia). destruct El as [c ->].
    replace (2 * a + 2 * b + 1)%nat with (2 * (a + b) + 1)%nat by lia.
    pose proof (whole_even b a) as W. pose proof (half_odd (a + b) c) as V.
    replace (a + b + c + 1)%nat with (l + 1)%nat in V by lia. replace (b + a)%nat with (a + b)%nat in W by lia.
    rewrite !even_df_even, !mult_IZR.
    pose proof (dfeR (a + b)) as De.
    assert (W' : I (2 * PI) (2 * b) (2 * a) = 2 * PI * (IZR (dfo b) * IZR (dfo a)) / IZR (dfe (a + b)))
      by (rewrite <- W; field; lra).
    assert (V' : I PI (2 * (a + b) + 1) (2 * c) = 2 * (IZR (dfe (a + b)) * IZR (dfo c)) / IZR (dfo (l + 1)))
      by (rewrite <- V; field; lra).
    rewrite W', V'. field. split; lra.
Qed.
