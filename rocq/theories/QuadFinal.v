(** QuadFinal.v — the arrays of CINTg0_2e and CINTg1e_nuc, summed over the roots. *)
From Coq Require Import Reals Lra Psatz FunctionalExtensionality.
From Coquelicot Require Import Coquelicot.
From Verif Require Import Base EnvModel RecModel RecRModel RecSpec RecMoments GaussInt Rec1Real Gauss2Int Rec2RModel Rec2Spec Rec2Real Rec2Kern UnrEnv
  QuadSpec QuadPoly QuadSub Quad2e QuadMain Quad1e.
Local Open Scope R_scope.

Lemma coulomb_sum e (A B C D bi bk : Z -> R) kern ai aj ak al (rij rkl : Z -> R) :
  0 < ai + aj -> 0 < ak + al ->
  (forall ax, (0 <= ax < 3)%Z -> rij ax = (ai * A ax + aj * B ax) / (ai + aj)) ->
  (forall ax, (0 <= ax < 3)%Z -> rkl ax = (ak * C ax + al * D ax) / (ak + al)) ->
  (nrys_roots e <= 32)%Z -> coulomb_setup e A B C D bi bk kern ->
  forall rys srys, (forall m y n, (0 <= n < m)%Z -> 0 <= y -> 0 <= fst (rys m y) n) ->
  (forall m y z n, (0 <= n < m)%Z -> 0 <= y -> 0 <= fst (srys m y z) n) ->
  forall omega, let a0 := (ai + aj) * (ak + al) / (ai + aj + (ak + al)) in
  rules_2e rys srys (nrys_roots e) (rys_order e) omega a0 (a0 * dist2 rij rkl) ->
  forall cutoff c0 g, (4 * g_size e <= asize g)%Z ->
  let fac := c0 * (2 * (PI * PI * PI) / sqrt PI) * (overlap_factor ai aj A B * overlap_factor ak al C D) in
  wp (R_g0_2e rys srys kern e omega cutoff fac ai aj ak al rij rkl bi bk g) (fun bg => fst bg = true ->
    forall oi oj ok ol, orders_in e oi oj ok ol ->
    exists v V,
      (forall ax n, (0 <= ax < 3)%Z -> (0 <= n < nrys_roots e)%Z ->
         rd (snd bg) (ax * g_size e + adrs e n (Z.of_nat (oi ax)) (Z.of_nat (oj ax)) (Z.of_nat (ok ax)) (Z.of_nat (ol ax)))%Z = Some (v ax n)) /\
      coul2 (op_of omega) (fun ax => four ai aj ak al (A ax) (B ax) (C ax) (D ax) (oi ax) (oj ax) (ok ax) (ol ax)) V /\
      rsumz (nrys_roots e) (fun n => v 0%Z n * v 1%Z n * v 2%Z n) = c0 * V).
Proof.
  intros Hij Hkl Hrij Hrkl Hnr Hs rys srys Hrys Hsr omega a0 HR cutoff c0 g Hsz fac.
  destruct (coulomb_ok _ _ _ _ _ _ _ _ Hs) as (L & K & Ho).
  eapply wp_mono; [exact (g0_2e_ok e ai aj ak al A B C D bi bk kern L K Hij Hkl rij rkl Hnr Ho rys srys Hrys Hsr omega cutoff fac g Hsz)|].
  intros bg (_ & _ & H3) Hb oi oj ok ol HO. destruct (H3 Hb) as (HF & U & W & HN & HU & HC).
  pose proof (tabn_cells e ai aj ak al A B C D Hij Hkl rij rkl Hrij Hrkl U W _ HU HC) as HE.
  destruct (cells_mom e ai aj ak al A B C D Hij Hkl U W (snd bg) HU HE oi oj ok ol HO) as [H1 H2].
  destruct (sum_is_int e A B C D bi bk kern ai aj ak al rij rkl Hij Hkl Hrij Hrkl Hs rys srys omega c0 HR Ho
     _ _ _ U W (four_moments ai aj ak al A B C D Hij Hkl oi oj ok ol) (proj2 HO) HN) as (V & HV & E).
  exists (cellv ai aj ak al A B C D U W oi oj ok ol), V. split; [exact H1|]. split; [exact HV|]. rewrite H2. exact E.
Qed.

Lemma nuc_sum ng li lj ci cj (A B C : Z -> R) chg zeta c0 ai aj (u w : Z -> R) g :
  (0 <= li + IINC ng)%Z -> (0 <= lj + JINC ng)%Z -> POS_E2 ng = 0%Z -> 0 < ai -> 0 < aj ->
  let e := init_int1e ng li lj ci cj in
  let P ax := (ai * A ax + aj * B ax) / (ai + aj) in
  (forall n, (0 <= n < nrys_roots e)%Z -> 0 <= u n) -> (3 * g_size e <= asize g)%Z ->
  (forall n, (0 <= n < nrys_roots e)%Z -> rd g (g_size e * 2 + n) = Some (w n)) ->
  rule (nrys_roots e) ((ai + aj) * (nuc_mod (ai + aj) zeta * nuc_mod (ai + aj) zeta) * dist2 C P) 0 (fun n => t2_of (u n)) w ->
  wp (R_nuc e chg zeta (c0 * overlap_factor ai aj A B) ai aj u C A B g) (fun g' =>
    forall oi oj : Z -> nat,
      (forall ax, (0 <= ax < 3)%Z -> (Z.of_nat (oi ax) <= li_ceil e /\ Z.of_nat (oj ax) <= lj_ceil e)%Z) ->
      (Z.of_nat (oi 0%Z + oj 0%Z + (oi 1%Z + oj 1%Z) + (oi 2%Z + oj 2%Z)) <= li_ceil e + lj_ceil e)%Z ->
    exists v V,
      (forall ax n, (0 <= ax < 3)%Z -> (0 <= n < nrys_roots e)%Z ->
        rd g' (ax * g_size e + (n + Z.of_nat (oi ax) * g_stride_i e + Z.of_nat (oj ax) * g_stride_j e)) = Some (v ax n)) /\
      coul1 (nuc_op zeta) C (fun ax => two ai aj (A ax) (B ax) (oi ax) (oj ax)) V /\
      rsumz (nrys_roots e) (fun n => v 0%Z n * v 1%Z n * v 2%Z n) = c0 * chg * V).
Proof.
  intros Hi Hj Hpe Ha Hb e P Hu Hs Hw HR.
  eapply wp_mono; [exact (R_nuc_cells ng li lj ci cj Hi Hj chg zeta _ ai aj u w C A B g Ha Hb Hu Hs Hw)|].
  intros g' [_ HC] oi oj HO HT. fold e in HC.
  set (tau := nuc_mod (ai + aj) zeta) in *.
  set (fac1 := 2 * PI * chg * (c0 * overlap_factor ai aj A B) * tau / (ai + aj)).
  destruct (sum1_is_int ai aj A B C ltac:(lra) _ _ _ (two_moments ai aj A B C ltac:(lra) oi oj) zeta (nrys_roots e) u w) as (V & HV & E).
  - assert (En : nrys_roots e = (Z.quot (li_ceil e + lj_ceil e) 2 + 1)%Z).
    { unfold e, init_int1e. cbn [nrys_roots li_ceil lj_ceil]. rewrite Hpe. reflexivity. }
    rewrite En. pose proof (quot_half (li_ceil e + lj_ceil e)%Z ltac:(unfold e, init_int1e; cbn; lia)) as Q.
    lia.
  - exact HR.
  - exists (fun ax n => RecSpec.origin 1 (w n * fac1) ax * mom1 ai aj (A ax) (B ax) (C ax) (oi ax) (oj ax) (tau * tau * t2_of (u n))), V.
    split; [|split; [exact HV|]].
    + intros ax n Hax Hn. destruct (HO ax Hax) as [O1 O2].
      destruct (HC ax n (oi ax) (oj ax) Hax Hn O1 O2) as (v & I0 & I & Er & J0 & Jp & JI & Ev).
      rewrite Er. f_equal. rewrite Ev. fold fac1.
      pose proof (tsq_range zeta ai aj (u n) ltac:(lra) (Hu n Hn)) as Ht.
      assert (Et : tsq zeta ai aj (u n) = tau * tau * t2_of (u n)) by (unfold tsq, t2_of, tau, Rdiv; ring).
      destruct (mom1_int ai aj (A ax) (B ax) (C ax) ltac:(lra) _ (tsq zeta ai aj (u n)) Ht eq_refl) as (K0 & Kp & KI).
      rewrite (line_unique _ _ _ J0 K0), (line_unique _ _ _ JI (KI _ _)). rewrite <- Et. field. lra.
    + rewrite <- E. rewrite <- rsumz_scal. apply rsumz_ext. intros n Hn.
      unfold RecSpec.origin. cbn [Z.eqb Pos.eqb]. unfold prod3, mom11, cc1, fac1. fold tau. unfold Rdiv. ring.
Qed.

(** ** The kernels *)
Lemma kernel_coulomb r : 0 < r -> over_s Coulomb (fun s => 2 / sqrt PI * exp (- (s * s * (r * r)))) (/ r).
Proof.
  intros Hr. cbn. assert (HPI := PI_RGT_0). assert (Hs : 0 < sqrt PI) by (apply sqrt_lt_R0; lra).
  (** antiderivative 2/(sqrt pi r) Phi (r s) *)
  intros Q HQ.
  assert (HL : filterlim (fun b => 2 / (sqrt PI * r) * Phi (r * b)) (Rbar_locally p_infty) (locally (/ r))).
  { replace (/ r) with (2 / (sqrt PI * r) * (sqrt PI / 2)) by (field; lra).
    apply (filterlim_comp _ _ _ (fun b => Phi (r * b)) (fun z => 2 / (sqrt PI * r) * z) _ (locally (sqrt PI / 2))).
    - apply (filterlim_comp _ _ _ (fun b => r * b) Phi _ (Rbar_locally p_infty)); [|apply Phi_lim].
      intros S [M HM]. exists (M / r). intros b Hb. apply HM.
      apply (Rmult_lt_compat_l r) in Hb; [|exact Hr]. replace (r * (M / r)) with M in Hb by (field; lra). exact Hb.
    - apply (filterlim_scal_r (K := R_AbsRing) (V := R_NormedModule) (2 / (sqrt PI * r)) (sqrt PI / 2)). }
  exists (fun z => z = 0) (fun b => Q (2 / (sqrt PI * r) * Phi (r * b))).
  - reflexivity.
  - exact (HL Q HQ).
  - intros z b -> Hb. exists (2 / (sqrt PI * r) * Phi (r * b)). split; [|exact Hb].
    cbn [fst snd].
    assert (HI : is_RInt (fun s => scal r (g1 (r * s + 0))) 0 b (Phi (r * b))).
    { apply (is_RInt_comp_lin (V := R_NormedModule) g1 r 0 0 b). unfold Phi. rewrite Rmult_0_r, Rplus_0_r, Rplus_0_r.
      apply (RInt_correct (V := R_CompleteNormedModule)). apply cont_ex. intros t.
      apply (ex_derive_continuous (K := R_AbsRing) (V := R_NormedModule)). unfold g1. auto_derive. exact I. }
    pose proof (is_RInt_scal (V := R_NormedModule) _ 0 b (2 / (sqrt PI * r)) _ HI) as HJ.
    eapply is_RInt_ext; [|exact HJ]. intros s _. unfold scal. cbn. unfold mult. cbn. unfold g1.
    replace ((r * s + 0) * (r * s + 0)) with (s * s * (r * r)) by ring. field. lra.
Qed.
Lemma kernel_split omega f V W : over_s (Erf omega) f V -> over_s (Erfc omega) f W -> over_s Coulomb f (V + W).
Proof.
  cbn. intros H1 H2. eapply (is_RInt_gen_Chasles (V := R_NormedModule) (Fa := at_point 0) (Fc := Rbar_locally p_infty) f omega V W); [|exact H2].
  apply is_RInt_gen_at_point. exact H1.
Qed.
