(** Rec3Real.v — the cells of the three- and four-centre recurrences are integrals over the line. *)
From Coq Require Import Reals Ring Lra Lia.
From Coquelicot Require Import Coquelicot.
From Verif Require Import Base EnvModel RecModel RecSpec RecMoments Rec2Proof HrrProof Rec2Final Rec3Proof GaussInt RecRModel Rec1Real Rec3RModel.
Local Open Scope R_scope.
Ltac Zify.zify_post_hook ::= Z.div_mod_to_equations.

Lemma line_quad p P A B C D S : 0 < p ->
  gauss2 Rplus Rmult IZR (/ (2 * p)) (/ (2 * p)) (/ (2 * p)) (P - A) (P - B) (P - C) (P - D) S ->
  RIntLine (wgt p P) (S 0 0 0 0)%Z ->
  forall i j k l, RIntLine (fun x => (x - A) ^ i * (x - B) ^ j * (x - C) ^ k * (x - D) ^ l * wgt p P x)
    (S (Z.of_nat i) (Z.of_nat j) (Z.of_nat k) (Z.of_nat l)).
Proof.
  intros Hp G H0.
  assert (G1 : gauss1 Rplus Rmult IZR (/ (2 * p)) (P - A) (P - B) (fun i j => S i j 0 0)%Z).
  { split; intros i j Hi Hj.
    - rewrite (g2_i _ _ _ _ _ _ _ _ _ _ _ G) by lia. ring.
    - rewrite (g2_j _ _ _ _ _ _ _ _ _ _ _ G) by lia. ring. }
  pose proof (line_moments p P Hp A B _ G1 H0) as M.
  assert (K : forall k i j, RIntLine (fun x => (x - A) ^ i * (x - B) ^ j * (x - C) ^ k * wgt p P x)
     (S (Z.of_nat i) (Z.of_nat j) (Z.of_nat k) 0%Z)).
  { induction k as [|k IH]; intros i j.
    - eapply line_ext; [|exact (M i j)]. intros x. cbn [pow]. ring.
    - rewrite Nat2Z.inj_succ, <- Z.add_1_r. rewrite (g2_k _ _ _ _ _ _ _ _ _ _ _ G) by lia.
      pose proof (g2_i _ _ _ _ _ _ _ _ _ _ _ G (Z.of_nat i) (Z.of_nat j) (Z.of_nat k) 0%Z ltac:(lia) ltac:(lia) ltac:(lia) ltac:(lia)) as E.
      replace (_ + _ + _) with (S (Z.of_nat i + 1)%Z (Z.of_nat j) (Z.of_nat k) 0%Z + (A - C) * S (Z.of_nat i) (Z.of_nat j) (Z.of_nat k) 0%Z)
        by (rewrite E; ring).
      specialize (IH (Datatypes.S i) j) as I1. specialize (IH i j) as I2. rewrite Nat2Z.inj_succ, <- Z.add_1_r in I1.
      eapply line_ext; [|exact (line_plus _ _ _ _ I1 (line_scal _ (A - C) _ I2))].
      intros x. cbn [pow]. ring. }
  intros i j k l. revert i j k. induction l as [|l IH]; intros i j k.
  - eapply line_ext; [|exact (K k i j)]. intros x. cbn [pow]. ring.
  - rewrite Nat2Z.inj_succ, <- Z.add_1_r. rewrite (g2_l _ _ _ _ _ _ _ _ _ _ _ G) by lia.
    pose proof (g2_i _ _ _ _ _ _ _ _ _ _ _ G (Z.of_nat i) (Z.of_nat j) (Z.of_nat k) (Z.of_nat l) ltac:(lia) ltac:(lia) ltac:(lia) ltac:(lia)) as E.
    replace (_ + _ + _) with (S (Z.of_nat i + 1)%Z (Z.of_nat j) (Z.of_nat k) (Z.of_nat l) + (A - D) * S (Z.of_nat i) (Z.of_nat j) (Z.of_nat k) (Z.of_nat l))
      by (rewrite E; ring).
    specialize (IH (Datatypes.S i) j k) as I1. specialize (IH i j k) as I2. rewrite Nat2Z.inj_succ, <- Z.add_1_r in I1.
    eapply line_ext; [|exact (line_plus _ _ _ _ I1 (line_scal _ (A - D) _ I2))].
    intros x. cbn [pow]. ring.
Qed.

(** the value at the origin, as a multiple of the integral of the weight *)
Lemma quad_is_integral p P K (E : R -> R) A B C D S w :
  0 < p -> 0 < K -> (forall x, E x = K * wgt p P x) ->
  gauss2 Rplus Rmult IZR (/ (2 * p)) (/ (2 * p)) (/ (2 * p)) (P - A) (P - B) (P - C) (P - D) S -> (S 0 0 0 0)%Z = w ->
  forall i j k l, exists I,
    RIntLine (fun x => (x - A) ^ i * (x - B) ^ j * (x - C) ^ k * (x - D) ^ l * E x) I /\
    S (Z.of_nat i) (Z.of_nat j) (Z.of_nat k) (Z.of_nat l) = w / (K * sqrt (PI / p)) * I.
Proof.
  intros Hp HK HE G E0 i j k l. pose proof PI_RGT_0 as Hpi.
  assert (Hs : 0 < sqrt (PI / p)) by (apply sqrt_lt_R0, Rdiv_lt_0_compat; lra).
  destruct (gauss2_exist 0 1 Rplus Rmult Rminus Ropp IZR RTheory eq_refl IZR_S (/ (2 * p)) (/ (2 * p)) (/ (2 * p))
     (P - A) (P - B) (P - C) (P - D) (sqrt (PI / p))) as (T & GT & T0).
  exists (K * T (Z.of_nat i) (Z.of_nat j) (Z.of_nat k) (Z.of_nat l)). split.
  - eapply line_ext; [|refine (line_scal _ K _ (line_quad p P A B C D T Hp GT _ i j k l))].
    + intros x. rewrite HE. ring.
    + rewrite T0. apply line_gauss, Hp.
  - rewrite (gauss2_unique 0 1 Rplus Rmult Rminus Ropp IZR RTheory eq_refl _ _ _ _ _ _ _ S
       (fun i j k l => w / (K * sqrt (PI / p)) * (K * T i j k l)) G); try lia.
    + reflexivity.
    + split; intros a b c d Ha Hb Hc Hd.
      * rewrite (g2_i _ _ _ _ _ _ _ _ _ _ _ GT) by assumption. ring.
      * rewrite (g2_j _ _ _ _ _ _ _ _ _ _ _ GT) by assumption. ring.
      * rewrite (g2_k _ _ _ _ _ _ _ _ _ _ _ GT) by assumption. ring.
      * rewrite (g2_l _ _ _ _ _ _ _ _ _ _ _ GT) by assumption. ring.
    + rewrite E0, T0. field. split; lra.
Qed.

Lemma norm3 c p e0 e1 e2 : 0 < p ->
  let N e := exp (- e) * sqrt (PI / p) in
  1 / N e0 * (1 / N e1) * (c * (sqrt PI * PI) * exp (- (e0 + e1 + e2)) / (p * sqrt p) / N e2) = c.
Proof.
  intros Hp N. unfold N. clear N. pose proof PI_RGT_0 as Hpi.
  replace (- (e0 + e1 + e2)) with (- e0 + - e1 + - e2) by ring. rewrite !exp_plus.
  rewrite !(sqrt_div PI) by lra.
  assert (Hsp : sqrt PI * sqrt PI = PI) by (apply sqrt_sqrt; lra).
  assert (Hsa : sqrt p * sqrt p = p) by (apply sqrt_sqrt; lra).
  assert (Hp1 : 0 < sqrt PI) by (apply sqrt_lt_R0; lra).
  assert (Hp2 : 0 < sqrt p) by (apply sqrt_lt_R0; lra).
  pose proof (exp_pos (- e0)) as X0. pose proof (exp_pos (- e1)) as X1. pose proof (exp_pos (- e2)) as X2.
  revert X0 X1 X2 Hsp Hsa Hp1 Hp2.
  generalize (exp (- e0)) (exp (- e1)) (exp (- e2)) (sqrt PI) (sqrt p). intros x0 x1 x2 sp sa X0 X1 X2 Hsp Hsa Hp1 Hp2.
  rewrite <- Hsp, <- Hsa. field. repeat split; lra.
Qed.

Definition sc (z0 : R) (N : Z -> R) (ax : Z) : R := origin 1 z0 ax / N ax.

Definition trifun (ai aj ak A B C x : R) : R :=
  exp (- (ai * ((x - A) * (x - A))) - aj * ((x - B) * (x - B)) - ak * ((x - C) * (x - C))).
Definition quadfun (ai aj ak al A B C D x : R) : R :=
  exp (- (ai * ((x - A) * (x - A))) - aj * ((x - B) * (x - B)) - ak * ((x - C) * (x - C)) - al * ((x - D) * (x - D))).

Lemma tri_wgt ai aj ak A B C x : 0 < ai + aj + ak ->
  trifun ai aj ak A B C x =
  exp (- ((ai * aj * ((A - B) * (A - B)) + ai * ak * ((A - C) * (A - C)) + aj * ak * ((B - C) * (B - C))) / (ai + aj + ak)))
  * wgt (ai + aj + ak) ((ai * A + aj * B + ak * C) / (ai + aj + ak)) x.
Proof. intros H. unfold trifun, wgt. rewrite <- exp_plus. f_equal. field. lra. Qed.

Definition quad_e (ai aj ak al A B C D : R) : R :=
  (ai + aj) * (ak + al) / (ai + aj + (ak + al)) *
    (((ai * A + aj * B) / (ai + aj) - (ak * C + al * D) / (ak + al)) *
     ((ai * A + aj * B) / (ai + aj) - (ak * C + al * D) / (ak + al)))
  + (((A - B) * (A - B)) * ai * aj / (ai + aj) + ((C - D) * (C - D)) * ak * al / (ak + al)).
Definition quad_mean (ai aj ak al A B C D : R) : R :=
  ((ai + aj) * ((ai * A + aj * B) / (ai + aj)) + (ak + al) * ((ak * C + al * D) / (ak + al))) / (ai + aj + (ak + al)).
Lemma quad_wgt ai aj ak al A B C D x : 0 < ai + aj -> 0 < ak + al ->
  quadfun ai aj ak al A B C D x =
  exp (- quad_e ai aj ak al A B C D) * wgt (ai + aj + (ak + al)) (quad_mean ai aj ak al A B C D) x.
Proof. intros H1 H2. unfold quadfun, wgt, quad_e, quad_mean. rewrite <- exp_plus. f_equal. field. lra. Qed.

Section Three.
  Variables (ng : ngT) (la lb lc ci cj ck : Z).
  Hypothesis (Hli : (0 <= la + IINC ng)%Z) (Hlj : (0 <= lb + JINC ng)%Z) (Hlk : (0 <= lc + KINC ng)%Z).
  Let e := init_int3c1e ng la lb lc ci cj ck.

  Lemma R_g3c1e_cells c ai aj ak (A B C : Z -> R) g : 0 < ai -> 0 < aj -> 0 < ak -> (3 * g_size e <= asize g)%Z ->
    wp (R_g3c1e e (triple_fac (c * (sqrt PI * PI)) ai aj ak A B C) ai aj ak A B C g) (fun g' =>
      Frame (fun p => (0 <= p < 3 * g_size e)%Z) g g' /\
      exists s : Z -> R, s 0%Z * s 1%Z * s 2%Z = c /\
      forall ax i j k, (0 <= ax < 3)%Z -> (Z.of_nat i <= li_ceil e)%Z -> (Z.of_nat j <= lj_ceil e)%Z -> (Z.of_nat k <= lk_ceil e)%Z ->
        exists I,
          RIntLine (fun x => (x - A ax) ^ i * (x - B ax) ^ j * (x - C ax) ^ k * trifun ai aj ak (A ax) (B ax) (C ax) x) I /\
          rd g' (ax * g_size e + (g_stride_i e * Z.of_nat i + g_stride_j e * Z.of_nat j + g_stride_k e * Z.of_nat k)) = Some (s ax * I)).
  Proof.
    intros Ha Hb Hc Hs. unfold R_g3c1e. set (z0 := triple_fac _ _ _ _ _ _ _). cbv zeta.
    set (p := ai + aj + ak). assert (Hp : 0 < p) by (unfold p; lra).
    rewrite (half_inv p Hp).
    set (P := fun ax => (ai * A ax + aj * B ax + ak * C ax) / p).
    set (T := fun ax => S4 0 Rplus Rmult Rminus IZR (/ (2 * p)) (/ (2 * p)) (/ (2 * p)) (P ax - A ax) (P ax - B ax) (P ax - C ax) (P ax - 0)
        (origin 1 z0 ax)).
    assert (GT : forall ax, gauss2 Rplus Rmult IZR (/ (2 * p)) (/ (2 * p)) (/ (2 * p)) (P ax - A ax) (P ax - B ax) (P ax - C ax) (P ax - 0) (T ax)).
    { intros ax. exact (S4_ok 0 1 Rplus Rmult Rminus Ropp IZR RTheory eq_refl IZR_S _ _ _ _ _ _ _ _). }
    assert (T0 : forall ax, T ax 0%Z 0%Z 0%Z 0%Z = origin 1 z0 ax) by reflexivity.
    clearbody T.
    eapply wp_mono; [apply (g3c1e_ok 0 1 Rplus Rmult Rminus Ropp IZR RTheory eq_refl ng la lb lc ci cj ck Hli Hlj Hlk
        (/ (2 * p)) z0 P A B C (fun ax i j k => T ax i j k 0%Z))|].
    - intros ax _. split; intros i j k Hi Hj Hk.
      + rewrite (g2_i _ _ _ _ _ _ _ _ _ _ _ (GT ax)) by lia. ring.
      + rewrite (g2_j _ _ _ _ _ _ _ _ _ _ _ (GT ax)) by lia. ring.
      + rewrite (g2_k _ _ _ _ _ _ _ _ _ _ _ (GT ax)) by lia. ring.
    - intros ax _. apply T0.
    - reflexivity.
    - reflexivity.
    - reflexivity.
    - exact Hs.
    - intros m [HT HF]. split; [exact HF|].
      set (ee := fun ax => (ai * aj * ((A ax - B ax) * (A ax - B ax)) + ai * ak * ((A ax - C ax) * (A ax - C ax)) + aj * ak * ((B ax - C ax) * (B ax - C ax))) / p).
      exists (sc z0 (fun ax => exp (- ee ax) * sqrt (PI / p))). split.
      + unfold sc, origin. cbn [Z.eqb Pos.eqb]. rewrite <- (norm3 c p (ee 0%Z) (ee 1%Z) (ee 2%Z) Hp) at 1. cbv zeta.
        do 2 f_equal. unfold z0, triple_fac. fold p. do 4 f_equal. unfold triple_e, square3, ee. fold p. field. lra.
      + intros ax i j k Hax Hi Hj Hk.
        destruct (quad_is_integral p (P ax) (exp (- ee ax)) (trifun ai aj ak (A ax) (B ax) (C ax)) (A ax) (B ax) (C ax) 0 (T ax) (origin 1 z0 ax)
          Hp (exp_pos _)) with (i := i) (j := j) (k := k) (l := O) as (I & HI & E).
        * intros x. unfold ee, P, p. apply tri_wgt. exact Hp.
        * apply GT.
        * apply T0.
        * exists I. split; [eapply line_ext; [|exact HI]; intros x; cbn [pow]; ring|].
          fold e in HT. specialize (HT ax (Z.of_nat i) (Z.of_nat j) (Z.of_nat k) Hax ltac:(lia) ltac:(lia) ltac:(lia)).
          change (Z.of_nat 0) with 0%Z in E. rewrite E in HT. exact HT.
  Qed.
End Three.

Section Four.
  Variables (ng : ngT) (la lb lc ld ci cj ck cl : Z).
  Hypothesis (Hli : (0 <= la + IINC ng)%Z) (Hlj : (0 <= lb + JINC ng)%Z) (Hlk : (0 <= lc + KINC ng)%Z) (Hll : (0 <= ld + LINC ng)%Z).
  Let e := init_int4c1e ng la lb lc ld ci cj ck cl.

  Lemma R_g4c1e_cells c ai aj ak al (A B C D : Z -> R) g buf : 0 < ai -> 0 < aj -> 0 < ak -> 0 < al ->
    let nmax := (li_ceil e + lj_ceil e)%Z in let mmax := (lk_ceil e + ll_ceil e)%Z in
    (3 * g_size e <= asize g)%Z -> (3 * ((nmax + mmax + 1) * (Z.max nmax mmax + 1)) <= asize buf)%Z ->
    wp (R_g4c1e e (quad_fac (c * (sqrt PI * PI)) ai aj ak al A B C D) ai aj ak al A B C D g buf) (fun g' =>
      Frame (fun p => (0 <= p < 3 * g_size e)%Z) g g' /\
      exists s : Z -> R, s 0%Z * s 1%Z * s 2%Z = c /\
      forall ax i j k l, (0 <= ax < 3)%Z -> (Z.of_nat i <= li_ceil e)%Z -> (Z.of_nat j <= lj_ceil e)%Z ->
        (Z.of_nat k <= lk_ceil e)%Z -> (Z.of_nat l <= ll_ceil e)%Z ->
        exists I,
          RIntLine (fun x => (x - A ax) ^ i * (x - B ax) ^ j * (x - C ax) ^ k * (x - D ax) ^ l
             * quadfun ai aj ak al (A ax) (B ax) (C ax) (D ax) x) I /\
          rd g' (ax * g_size e + (g_stride_i e * Z.of_nat i + g_stride_k e * Z.of_nat k + g_stride_l e * Z.of_nat l
             + g_stride_j e * Z.of_nat j)) = Some (s ax * I)).
  Proof.
    intros Ha Hb Hc Hd nmax mmax Hs Hbuf. unfold R_g4c1e. set (fac := quad_fac _ _ _ _ _ _ _ _ _). cbv zeta.
    set (p := ai + aj + (ak + al)). assert (Hp : 0 < p) by (unfold p; lra).
    set (z0 := fac / _).
    set (P := fun ax => quad_mean ai aj ak al (A ax) (B ax) (C ax) (D ax)).
    set (T := fun ax => S4 0 Rplus Rmult Rminus IZR (/ (2 * p)) (/ (2 * p)) (/ (2 * p)) (P ax - A ax) (P ax - B ax) (P ax - C ax) (P ax - D ax)
        (origin 1 z0 ax)).
    assert (GT : forall ax, gauss2 Rplus Rmult IZR (/ (2 * p)) (/ (2 * p)) (/ (2 * p)) (P ax - A ax) (P ax - B ax) (P ax - C ax) (P ax - D ax) (T ax)).
    { intros ax. exact (S4_ok 0 1 Rplus Rmult Rminus Ropp IZR RTheory eq_refl IZR_S _ _ _ _ _ _ _ _). }
    assert (T0 : forall ax, T ax 0%Z 0%Z 0%Z 0%Z = origin 1 z0 ax) by reflexivity.
    clearbody T.
    eapply wp_mono; [apply (g4c1e_ok 0 1 Rplus Rmult Rminus Ropp IZR RTheory eq_refl e
        (rlay_4c1e ng la lb lc ld ci cj ck cl Hli Hlj Hlk Hll) eq_refl
        (/ (2 * p)) z0 (fun i => / 2 * IZR i / p) P A B C D T)|].
    - intros i _. cbv beta. field. lra.
    - intros ax _. apply GT.
    - intros ax _. apply T0.
    - intros ax _. fold nmax mmax. unfold ibase, kbase. destruct (nmax >=? mmax)%Z, (li_ceil e >? lj_ceil e)%Z, (lk_ceil e >? ll_ceil e)%Z; reflexivity.
    - intros ax _. fold nmax mmax. unfold ibase, kbase. destruct (nmax >=? mmax)%Z, (li_ceil e >? lj_ceil e)%Z, (lk_ceil e >? ll_ceil e)%Z; reflexivity.
    - reflexivity.
    - reflexivity.
    - exact Hs.
    - exact Hbuf.
    - intros m [HT HF]. split; [exact HF|].
      set (ee := fun ax => quad_e ai aj ak al (A ax) (B ax) (C ax) (D ax)).
      exists (sc z0 (fun ax => exp (- ee ax) * sqrt (PI / p))). split.
      + unfold sc, origin. cbn [Z.eqb Pos.eqb]. rewrite <- (norm3 c p (ee 0%Z) (ee 1%Z) (ee 2%Z) Hp) at 1. cbv zeta.
        do 2 f_equal. unfold z0, fac, quad_fac. fold p. do 4 f_equal. unfold square3, ee, quad_e, mean_pair. fold p. field. repeat split; lra.
      + intros ax i j k l Hax Hi Hj Hk Hl.
        destruct (quad_is_integral p (P ax) (exp (- ee ax)) (quadfun ai aj ak al (A ax) (B ax) (C ax) (D ax)) (A ax) (B ax) (C ax) (D ax) (T ax) (origin 1 z0 ax)
          Hp (exp_pos _)) with (i := i) (j := j) (k := k) (l := l) as (I & HI & E).
        * intros x. unfold ee, P, p. apply quad_wgt; lra.
        * apply GT.
        * apply T0.
        * exists I. split; [exact HI|].
          specialize (HT ax (Z.of_nat i) (Z.of_nat j) (Z.of_nat k) (Z.of_nat l) Hax ltac:(lia) ltac:(lia) ltac:(lia) ltac:(lia)).
          rewrite E in HT. exact HT.
  Qed.
End Four.
