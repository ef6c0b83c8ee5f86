(** Rec2Real.v — the two-electron arrays hold integrals over the plane. *)
From Coq Require Import Reals Lra Psatz.
From Coquelicot Require Import Coquelicot.
From Verif Require Import Base EnvModel RecModel RecSpec RecMoments RecLay FillProof Rec2Proof HrrProof Rec2Final
  GaussInt Rec1Real Gauss2Int Rec2RModel Rec2Spec.
Local Open Scope R_scope.

(** ** coefficients *)
Section Coef.
  Variables (aij akl : R) (u : Z -> R) (rij rkl rx rkx : Z -> R) (n : Z).
  Hypothesis (Hij : 0 < aij) (Hkl : 0 < akl) (Hu : 0 <= u n).
  Let r := aij * akl / (aij + akl) * u n.
  Lemma coef_r : 0 <= r.
  Proof. unfold r. apply Rmult_le_pos; [|exact Hu]. apply Rlt_le, Rdiv_lt_0_compat; nra. Qed.
  Let bc := rys_coef aij akl u rij rkl rx rkx.

  Lemma coef_b : b10 bc n = var11 aij akl r /\ b01 bc n = var22 aij akl r /\ b00 bc n = var12 aij akl r.
  Proof.
    pose proof coef_r as Hr. unfold bc, rys_coef, var11, var22, var12, det2. cbn [b10 b01 b00]. fold r.
    clearbody r. assert (0 < aij * akl + r * (aij + akl)) by nra.
    repeat split; field; lra.
  Qed.
  Lemma coef_c ax : c00 bc ax n = mean1 aij akl r (rij ax) (rkl ax) - rx ax /\
                    c0p bc ax n = mean2 aij akl r (rij ax) (rkl ax) - rkx ax.
  Proof.
    pose proof coef_r as Hr. unfold bc, rys_coef, mean1, mean2, det2. cbn [c00 c0p]. fold r.
    clearbody r. assert (0 < aij * akl + r * (aij + akl)) by nra.
    split; field; lra.
  Qed.

  (** the quadratic form, centred at the means, and its half inverse *)
  Lemma form_centred x y :
    let m1 := c00 bc 0%Z n + rx 0%Z in let m2 := c0p bc 0%Z n + rkx 0%Z in
    form2 aij akl r (rij 0%Z) (rkl 0%Z) x y =
    form2 aij akl r (rij 0%Z) (rkl 0%Z) m1 m2 +
      ((aij + r) * ((x - m1) * (x - m1)) - 2 * r * ((x - m1) * (y - m2)) + (akl + r) * ((y - m2) * (y - m2))).
  Proof.
    cbv zeta. destruct (coef_c 0%Z) as [-> ->]. pose proof coef_r as Hr.
    unfold form2, mean1, mean2, det2. clearbody r. assert (0 < aij * akl + r * (aij + akl)) by nra.
    field. lra.
  Qed.
  Lemma half_inverse :
    2 * ((aij + r) * b10 bc n + - r * b00 bc n) = 1 /\ 2 * ((aij + r) * b00 bc n + - r * b01 bc n) = 0 /\
    2 * (- r * b10 bc n + (akl + r) * b00 bc n) = 0 /\ 2 * (- r * b00 bc n + (akl + r) * b01 bc n) = 1.
  Proof.
    destruct coef_b as (-> & -> & ->). pose proof coef_r as Hr.
    unfold var11, var22, var12, det2. clearbody r. assert (0 < aij * akl + r * (aij + akl)) by nra.
    repeat split; field; lra.
  Qed.
End Coef.

(** ** small loops over the weights *)
Definition Wts (gs n : Z) (w : Z -> R) (g : arr R) : Prop :=
  forall k, (0 <= k < n)%Z -> rd g (gs * 2 + k)%Z = Some (w k).

Lemma put_w_ok gs lo cnt w g (w0 : Z -> R) : (0 <= lo)%Z -> (0 <= cnt)%Z -> (lo + cnt <= gs)%Z -> (3 * gs <= asize g)%Z ->
  Wts gs lo w0 g ->
  wp (put_w gs lo cnt w g) (fun g' => Frame (fun p => (0 <= p < 3 * gs)%Z) g g' /\
    Wts gs (lo + cnt) (fun n => if (n <? lo)%Z then w0 n else w (n - lo)%Z) g').
Proof.
  intros Hlo Hc Hle Hsz H0. unfold put_w.
  apply wp_for with (I := fun i g' => Frame (fun p => (0 <= p < 3 * gs)%Z) g g' /\
    Wts gs (lo + i) (fun n => if (n <? lo)%Z then w0 n else w (n - lo)%Z) g').
  - lia.
  - split; [apply Frame_refl|]. intros k Hk. destruct (Z.ltb_spec k lo); [|lia]. apply H0. lia.
  - intros i g1 Hi [HF HW]. pose proof (proj1 HF) as Hs1.
    apply wp_wr; [lia|]. intros g2 S2 C2. split.
    + eapply Frame_trans; [exact HF|]. split; [lia|]. intros q Hq. rewrite C2.
      destruct (Z.eqb_spec q (gs * 2 + (lo + i))%Z); [exfalso; apply Hq; lia|reflexivity].
    + intros k Hk. apply rd_spec. rewrite C2, S2. destruct (Z.eqb_spec (gs * 2 + k)%Z (gs * 2 + (lo + i))%Z) as [E|E].
      * split; [lia|]. replace k with (lo + i)%Z by lia. destruct (Z.ltb_spec (lo + i)%Z lo); [lia|].
        do 2 f_equal. lia.
      * apply rd_spec. apply HW. lia.
  - intros g1 H1. exact H1.
Qed.

Lemma map_w_ok gs lo hi (f : Z -> R -> R) g n (w : Z -> R) : (0 <= lo)%Z -> (lo <= hi)%Z -> (hi <= n)%Z -> (n <= gs)%Z ->
  (3 * gs <= asize g)%Z -> Wts gs n w g ->
  wp (for_ lo hi (fun k g => v <- rd g (gs * 2 + k)%Z ;; wr g (gs * 2 + k)%Z (f k v)) g)
   (fun g' => Frame (fun p => (0 <= p < 3 * gs)%Z) g g' /\
    Wts gs n (fun k => if (lo <=? k)%Z && (k <? hi)%Z then f k (w k) else w k) g').
Proof.
  intros Hlo Hh Hn Hg Hsz H0.
  apply wp_for with (I := fun i g' => Frame (fun p => (0 <= p < 3 * gs)%Z) g g' /\
    Wts gs n (fun k => if (lo <=? k)%Z && (k <? i)%Z then f k (w k) else w k) g').
  - lia.
  - split; [apply Frame_refl|]. intros k Hk. replace ((lo <=? k)%Z && (k <? lo)%Z) with false by lia. apply H0. lia.
  - intros i g1 Hi [HF HW]. pose proof (proj1 HF) as Hs1.
    assert (Hr := HW i ltac:(lia)). cbv beta in Hr. replace ((lo <=? i)%Z && (i <? i)%Z) with false in Hr by lia.
    rewrite Hr. cbn [bind]. apply wp_wr; [lia|]. intros g2 S2 C2. split.
    + eapply Frame_trans; [exact HF|]. split; [lia|]. intros q Hq. rewrite C2.
      destruct (Z.eqb_spec q (gs * 2 + i)%Z); [exfalso; apply Hq; lia|reflexivity].
    + intros k Hk. apply rd_spec. rewrite C2, S2. destruct (Z.eqb_spec (gs * 2 + k)%Z (gs * 2 + i)%Z) as [E|E].
      * split; [lia|]. replace k with i by lia. cbv beta. replace ((lo <=? i)%Z && (i <? i + 1)%Z) with true by lia. reflexivity.
      * cbv beta. replace ((lo <=? k)%Z && (k <? i + 1)%Z) with ((lo <=? k)%Z && (k <? i)%Z) by lia.
        apply rd_spec. apply HW. lia.
  - intros g1 H1. exact H1.
Qed.

(** ** what the kernel called at the end must do *)
Record lay0 (e : envs) : Prop := mklay0 {
  l0_inj : forall n i j k l n' i' j' k' l', inbox e n i j k l -> inbox e n' i' j' k' l' ->
    adrs e n i j k l = adrs e n' i' j' k' l' -> n = n' /\ i = i' /\ j = j' /\ k = k' /\ l = l';
  l0_bnd : forall n i j k l, inbox e n i j k l -> (0 <= adrs e n i j k l < g_size e)%Z;
  l0_gs : (0 <= g_size e)%Z; l0_nr : (0 < nrys_roots e <= g_size e)%Z;
  l0_i : (0 <= li_ceil e)%Z; l0_j : (0 <= lj_ceil e)%Z; l0_k : (0 <= lk_ceil e)%Z; l0_l : (0 <= ll_ceil e)%Z }.

Definition kspec (e : envs) (A B C D bi bk : Z -> R) (kern : @rys2e R -> arr R -> option (arr R)) : Prop :=
  forall (bc : @rys2e R) (P Q : Z -> Z -> R) (q10 q01 q00 : Z -> R) (S : Z -> Z -> Z -> Z -> Z -> Z -> R) w m0,
    (forall ax n, (0 <= ax < 3)%Z -> (0 <= n < nrys_roots e)%Z ->
      gauss2 Rplus Rmult IZR (q10 n) (q01 n) (q00 n) (P ax n - A ax) (P ax n - B ax) (Q ax n - C ax) (Q ax n - D ax) (S ax n)) ->
    (forall n, (0 <= n < nrys_roots e)%Z -> b10 bc n = q10 n /\ b01 bc n = q01 n /\ b00 bc n = q00 n) ->
    (forall ax n, (0 <= ax < 3)%Z -> (0 <= n < nrys_roots e)%Z ->
       c00 bc ax n = P ax n - bi ax /\ c0p bc ax n = Q ax n - bk ax /\
       S ax n 0%Z 0%Z 0%Z 0%Z = origin 1 (w n) ax) ->
    (4 * g_size e <= asize m0)%Z ->
    Wts (g_size e) (nrys_roots e) w m0 ->
    wp (kern bc m0) (fun m =>
      (forall ax n i j k l, (0 <= ax < 3)%Z -> inbox e n i j k l ->
         rd m (ax * g_size e + adrs e n i j k l)%Z = Some (S ax n i j k l)) /\
      Frame (fun p => (0 <= p < 3 * g_size e)%Z) m0 m).

Section Finish.
  Variables (e : envs) (ai aj ak al : R) (A B C D bi bk : Z -> R) (kern : @rys2e R -> arr R -> option (arr R)).
  Hypothesis (L : lay0 e) (K : kspec e A B C D bi bk kern).
  Let aij := ai + aj.
  Let akl := ak + al.
  Hypothesis (Hij : 0 < aij) (Hkl : 0 < akl).
  Variables (rij rkl : Z -> R).
  Hypothesis (Hrij : forall ax, (0 <= ax < 3)%Z -> rij ax = (ai * A ax + aj * B ax) / (ai + aj)).
  Hypothesis (Hrkl : forall ax, (0 <= ax < 3)%Z -> rkl ax = (ak * C ax + al * D ax) / (ak + al)).
  Let rho (u : Z -> R) n := aij * akl / (aij + akl) * u n.

  Definition tabn (u w : Z -> R) (ax n : Z) : Z -> Z -> Z -> Z -> R :=
    S4 0 Rplus Rmult Rminus IZR (var11 aij akl (rho u n)) (var22 aij akl (rho u n)) (var12 aij akl (rho u n))
      (mean1 aij akl (rho u n) (rij ax) (rkl ax) - A ax) (mean1 aij akl (rho u n) (rij ax) (rkl ax) - B ax)
      (mean2 aij akl (rho u n) (rij ax) (rkl ax) - C ax) (mean2 aij akl (rho u n) (rij ax) (rkl ax) - D ax)
      (origin 1 (w n) ax).

  Definition tcells u w (g : arr R) : Prop :=
    forall ax n i j k l, (0 <= ax < 3)%Z -> inbox e n i j k l ->
         rd g (ax * g_size e + adrs e n i j k l)%Z = Some (tabn u w ax n i j k l).
  Lemma tabn_cells u w g : (forall n, (0 <= n < nrys_roots e)%Z -> 0 <= u n) ->
    tcells u w g ->
    eri_cells e ai aj ak al A B C D u w g.
  Proof.
    intros Hu H ax n i j k l Hax Hb. cbv zeta. fold aij akl. fold (rho u n).
    assert (Hn : (0 <= n < nrys_roots e)%Z) by (unfold inbox in Hb; lia).
    assert (Hr : 0 <= rho u n).
    { unfold rho. apply Rmult_le_pos; [|apply Hu; exact Hn]. apply Rlt_le, Rdiv_lt_0_compat; nra. }
    destruct (plane_is_table aij akl (rho u n) (rij ax) (rkl ax) Hij Hkl Hr
       (exp (- (ai * aj / (ai + aj) * ((A ax - B ax) * (A ax - B ax)))) * exp (- (ak * al / (ak + al) * ((C ax - D ax) * (C ax - D ax)))))
       (eri_weight ai aj ak al (rho u n) (A ax) (B ax) (C ax) (D ax)) (A ax) (B ax) (C ax) (D ax)
       (tabn u w ax n) (origin 1 (w n) ax)) as (H0 & Hpos & HI).
    - apply Rmult_lt_0_compat; apply exp_pos.
    - intros x y. unfold eri_weight, wgt2, form2. rewrite <- !exp_plus. f_equal.
      rewrite Hrij, Hrkl by exact Hax. unfold aij, akl in *. field. lra.
    - unfold tabn. exact (S4_ok 0 1 Rplus Rmult Rminus Ropp IZR RTheory eq_refl IZR_S _ _ _ _ _ _ _ _).
    - reflexivity.
    - destruct (HI i j k l) as (I & H1 & H2).
      eexists _, _, I. split; [apply H; assumption|]. split; [exact H0|]. split; [exact Hpos|]. split; [exact H1|exact H2].
  Qed.

  Lemma finish_ok fac1 u w g : (forall n, (0 <= n < nrys_roots e)%Z -> 0 <= u n) ->
    (4 * g_size e <= asize g)%Z -> Wts (g_size e) (nrys_roots e) w g ->
    wp (finish_2e kern e fac1 aij akl u rij rkl bi bk g) (fun bg => fst bg = true /\
      tcells u (fun n => w n * fac1) (snd bg) /\
      Frame (fun p => (0 <= p < 3 * g_size e)%Z) g (snd bg)).
  Proof.
    intros Hu Hsz HW. destruct (L) as []. unfold finish_2e.
    destruct (Z.eqb_spec (g_size e) 1) as [E1|E1].
    - apply wp_bind. apply wp_wr; [lia|]. intros g1 S1 C1.
      apply wp_bind. apply wp_wr; [lia|]. intros g2 S2 C2.
      assert (nrys_roots e = 1)%Z by lia.
      assert (R2 : rd g2 2%Z = Some (w 0%Z)).
      { specialize (HW 0%Z ltac:(lia)). rewrite E1 in HW. apply rd_spec in HW. apply rd_spec. rewrite C2, C1, S2, S1. exact HW. }
      rewrite R2. cbn [bind]. apply wp_bind. apply wp_wr; [lia|]. intros g3 S3 C3. apply wp_ret. cbn [fst snd].
      split; [reflexivity|]. split.
      + intros ax n i j k l Hax Hb.
        assert (Hz : inbox e 0 0 0 0 0) by (unfold inbox; lia).
        pose proof (l0_bnd0 _ _ _ _ _ Hb) as Hb1. pose proof (l0_bnd0 _ _ _ _ _ Hz) as Hb2.
        destruct (l0_inj0 _ _ _ _ _ _ _ _ _ _ Hb Hz ltac:(lia)) as (-> & -> & -> & -> & ->).
        change (tabn u (fun n => w n * fac1) ax 0 0 0 0 0) with (origin 1 (w 0%Z * fac1) ax).
        apply rd_spec. rewrite C3, C2, C1, S3, S2, S1.
        assert (ax = 0 \/ ax = 1 \/ ax = 2)%Z as [->|[->| ->]] by lia.
        * destruct (Z.eqb_spec (0 * g_size e + adrs e 0 0 0 0 0) 2); [lia|].
          destruct (Z.eqb_spec (0 * g_size e + adrs e 0 0 0 0 0) 1); [lia|].
          destruct (Z.eqb_spec (0 * g_size e + adrs e 0 0 0 0 0) 0); [|lia]. split; [lia|reflexivity].
        * destruct (Z.eqb_spec (1 * g_size e + adrs e 0 0 0 0 0) 2); [lia|].
          destruct (Z.eqb_spec (1 * g_size e + adrs e 0 0 0 0 0) 1); [|lia]. split; [lia|reflexivity].
        * destruct (Z.eqb_spec (2 * g_size e + adrs e 0 0 0 0 0) 2); [|lia]. split; [lia|reflexivity].
      + split; [lia|]. intros q Hq. rewrite C3, C2, C1.
        destruct (Z.eqb_spec q 2); [exfalso; apply Hq; lia|]. destruct (Z.eqb_spec q 1); [exfalso; apply Hq; lia|].
        destruct (Z.eqb_spec q 0); [exfalso; apply Hq; lia|reflexivity].
    - apply wp_bind. eapply wp_mono; [unfold scale_w; apply (map_w_ok (g_size e) 0 (nrys_roots e) (fun _ v => v * fac1) g (nrys_roots e) w)|]; try lia; [exact HW|].
      intros g1 [HF1 HW1]. apply wp_bind.
      eapply wp_mono; [apply (K (rys_coef aij akl u rij rkl bi bk)
          (fun ax n => mean1 aij akl (rho u n) (rij ax) (rkl ax)) (fun ax n => mean2 aij akl (rho u n) (rij ax) (rkl ax))
          (fun n => var11 aij akl (rho u n)) (fun n => var22 aij akl (rho u n)) (fun n => var12 aij akl (rho u n))
          (tabn u (fun n => w n * fac1)) (fun n => w n * fac1))|].
      + intros ax n Hax Hn. exact (S4_ok 0 1 Rplus Rmult Rminus Ropp IZR RTheory eq_refl IZR_S _ _ _ _ _ _ _ _).
      + intros n Hn. apply coef_b; auto.
      + intros ax n Hax Hn. destruct (coef_c aij akl u rij rkl bi bk n Hij Hkl (Hu n Hn) ax) as [E2 E3].
        split; [exact E2|]. split; [exact E3|reflexivity].
      + rewrite (proj1 HF1). lia.
      + intros n Hn. specialize (HW1 n Hn). rewrite HW1.
        replace ((0 <=? n)%Z && (n <? nrys_roots e)%Z) with true by lia. reflexivity.
      + intros g2 [H2 HF2]. apply wp_ret. cbn [fst snd]. split; [reflexivity|]. split.
        * exact H2.
        * eapply Frame_trans; eassumption.
  Qed.
End Finish.

(** ** the nodes *)
Lemma damp_ok theta u : 0 < theta <= 1 -> 0 <= u -> shrunk theta u (damp theta u).
Proof.
  intros Ht Hu. unfold shrunk, damp. assert (0 < u + 1 - u * theta) by nra. split.
  - apply Rdiv_le_0_compat; [nra|assumption].
  - field. repeat split; nra.
Qed.

Lemma theta_bnd omega a0 : omega <> 0 -> 0 < a0 -> 0 < omega * omega / (omega * omega + a0) <= 1.
Proof.
  intros Ho Ha. assert (0 < omega * omega) by nra. split.
  - apply Rdiv_lt_0_compat; lra.
  - apply Rmult_le_reg_r with (omega * omega + a0); [lra|]. unfold Rdiv. rewrite Rmult_assoc, Rinv_l by lra. lra.
Qed.

Lemma fac_norm aij akl : 0 < aij -> 0 < akl ->
  sqrt (aij * akl / (aij + akl) / (aij * akl * (aij * akl) * (aij * akl))) = / (aij * akl * sqrt (aij + akl)).
Proof.
  intros Hi Hk. assert (Hp : 0 < aij * akl) by nra.
  replace (aij * akl / (aij + akl) / (aij * akl * (aij * akl) * (aij * akl)))
    with (/ (Rsqr (aij * akl) * (aij + akl))) by (unfold Rsqr; field; repeat split; lra).
  rewrite <- inv_sqrt_depr.
  - rewrite sqrt_mult by (try apply Rle_0_sqr; lra). rewrite sqrt_Rsqr by lra. reflexivity.
  - apply Rmult_lt_0_compat; [apply Rsqr_pos_lt; lra|lra].
Qed.

Section Nodes.
  Variables (e : envs) (ai aj ak al : R) (A B C D bi bk : Z -> R) (kern : @rys2e R -> arr R -> option (arr R)).
  Hypothesis (L : lay0 e) (K : kspec e A B C D bi bk kern).
  Let aij := ai + aj.
  Let akl := ak + al.
  Hypothesis (Hij : 0 < aij) (Hkl : 0 < akl).
  Variables (rij rkl : Z -> R).
  Hypothesis (Hrij : forall ax, (0 <= ax < 3)%Z -> rij ax = (ai * A ax + aj * B ax) / (ai + aj)).
  Hypothesis (Hrkl : forall ax, (0 <= ax < 3)%Z -> rkl ax = (ak * C ax + al * D ax) / (ak + al)).
  Let a0 := aij * akl / (aij + akl).
  Let x := a0 * rr3 rij rkl.
  Let nr := nrys_roots e.
  Let ro := rys_order e.
  Hypothesis (Hnr : (nr <= 32)%Z) (Hro : ro = nr \/ (nr = ro + ro)%Z).
  Variables (rys : Z -> R -> nodes) (srys : Z -> R -> R -> nodes).
  Hypothesis (Hrys : forall m y n, (0 <= n < m)%Z -> 0 <= y -> 0 <= fst (rys m y) n).
  Hypothesis (Hsrys : forall m y z n, (0 <= n < m)%Z -> 0 <= y -> 0 <= fst (srys m y z) n).

  Let c fac := fac / (aij * akl * sqrt (aij + akl)).
  Local Notation nodes_2e := (nodes_2e e ai aj ak al rij rkl rys srys).

  Lemma nodes_2e_eq omega fac U W :
    (let theta := omega * omega / (omega * omega + a0) in
     forall n, (0 <= n < nr)%Z ->
      (omega = 0 -> U n = fst (rys nr x) n /\ W n = c fac * snd (rys nr x) n) /\
      (0 < omega -> shrunk theta (fst (rys nr (theta * x)) n) (U n) /\
                    W n = c fac * sqrt theta * snd (rys nr (theta * x)) n) /\
      (omega < 0 -> ro = nr -> U n = fst (srys nr x (sqrt theta)) n /\ W n = c fac * snd (srys nr x (sqrt theta)) n) /\
      (omega < 0 -> ro <> nr ->
         ((n < ro)%Z -> U n = fst (rys ro x) n /\ W n = c fac * snd (rys ro x) n) /\
         ((ro <= n)%Z -> shrunk theta (fst (rys ro (theta * x)) (n - ro)%Z) (U n) /\
                         W n = - (c fac * sqrt theta * snd (rys ro (theta * x)) (n - ro)%Z)))) ->
    nodes_2e omega fac U W.
  Proof. exact (fun H => H). Qed.

  Lemma a0_pos : 0 < a0.
  Proof. unfold a0. apply Rdiv_lt_0_compat; nra. Qed.
  Lemma x_nonneg : 0 <= x.
  Proof. pose proof a0_pos. unfold x, rr3. apply Rmult_le_pos; [lra|].
    pose proof (Rle_0_sqr (rij 0%Z - rkl 0%Z)). pose proof (Rle_0_sqr (rij 1%Z - rkl 1%Z)). pose proof (Rle_0_sqr (rij 2%Z - rkl 2%Z)).
    unfold Rsqr in *. lra. Qed.

  Local Notation tc := (tcells e ai aj ak al A B C D rij rkl).
  Lemma tcells_W u w w' g : (forall n, (0 <= n < nr)%Z -> w n = w' n) -> tc u w g -> tc u w' g.
  Proof.
    intros E H ax n i j k l Hax Hb. rewrite (H ax n i j k l Hax Hb). unfold tabn.
    rewrite E by (unfold inbox in Hb; unfold nr; lia). reflexivity.
  Qed.

  Lemma g0_2e_ok omega cutoff fac g : (4 * g_size e <= asize g)%Z ->
    wp (R_g0_2e rys srys kern e omega cutoff fac ai aj ak al rij rkl bi bk g) (fun bg =>
      let theta := omega * omega / (omega * omega + a0) in
      (fst bg = false <-> omega < 0 /\ (cutoff < theta * x \/ 40 < theta * x)) /\
      (fst bg = false -> snd bg = g) /\
      (fst bg = true -> Frame (fun p => (0 <= p < 3 * g_size e)%Z) g (snd bg) /\
         exists U W, nodes_2e omega fac U W /\ (forall n, (0 <= n < nr)%Z -> 0 <= U n) /\ tc U W (snd bg))).
  Proof.
    intros Hsz. pose proof a0_pos as Ha0. pose proof x_nonneg as Hx. pose proof (l0_nr e L) as Hn0. pose proof (l0_gs e L) as Hg0.
    unfold R_g0_2e. fold nr ro. destruct (Z.ltb_spec 32 nr); [lia|]. fold nr in Hn0. fold aij akl a0 x.
    pose proof (fac_norm aij akl Hij Hkl) as Efac. fold a0 in Efac. rewrite Efac. clear Efac.
    destruct (Req_EM_T omega 0) as [E0|E0].
    { destruct (rys nr x) as [u w] eqn:Er. apply wp_bind.
      eapply wp_mono; [apply (put_w_ok _ 0 nr w g (fun _ => 0)); try lia; intros k Hk; lia|].
      intros g1 [HF1 HW1].
      assert (Hu : forall n, (0 <= n < nr)%Z -> 0 <= u n).
      { intros n Hn. pose proof (Hrys nr x n Hn Hx) as Hp. rewrite Er in Hp. exact Hp. }
      eapply wp_mono; [apply (finish_ok e ai aj ak al A B C D bi bk kern L K Hij Hkl rij rkl)|].
      - exact Hu.
      - rewrite (proj1 HF1). exact Hsz.
      - exact HW1.
      - intros [b g2] (Eb & HC & HF2). cbn [fst snd] in *. subst b. cbv zeta.
        split; [split; [discriminate|lra]|]. split; [discriminate|]. intros _. split; [eapply Frame_trans; eassumption|].
        exists u, (fun n => c fac * w n). split.
        + apply nodes_2e_eq. intros theta' n Hn. subst theta'. rewrite Er. cbn [fst snd]. split; [auto|]. split; [lra|]. split; lra.
        + split; [eassumption|]. eapply tcells_W; [|exact HC]. intros n Hn. cbv beta. destruct (Z.ltb_spec n 0); [lia|].
          rewrite Z.sub_0_r. unfold c. field. repeat split; try lra. assert (0 < sqrt (aij + akl)) by (apply sqrt_lt_R0; lra). lra. }
    set (theta := omega * omega / (omega * omega + a0)).
    pose proof (theta_bnd omega a0 E0 Ha0) as Ht. fold theta in Ht.
    assert (Htx : 0 <= theta * x) by nra.
    assert (Hsq : 0 < sqrt (aij + akl)) by (apply sqrt_lt_R0; lra).
    destruct (Rlt_dec omega 0) as [En|En].
    2:{ rewrite (Rmult_comm x theta). destruct (rys nr (theta * x)) as [u w] eqn:Er. apply wp_bind.
      eapply wp_mono; [apply (put_w_ok _ 0 nr w g (fun _ => 0)); try lia; intros k Hk; lia|].
      intros g1 [HF1 HW1].
      assert (Hu : forall n, (0 <= n < nr)%Z -> 0 <= u n).
      { intros n Hn. pose proof (Hrys nr (theta * x) n Hn Htx) as Hp. rewrite Er in Hp. exact Hp. }
      eapply wp_mono; [apply (finish_ok e ai aj ak al A B C D bi bk kern L K Hij Hkl rij rkl)|].
      - intros n Hn. apply damp_ok; auto.
      - rewrite (proj1 HF1). exact Hsz.
      - exact HW1.
      - intros [b g2] (Eb & HC & HF2). cbn [fst snd] in *. subst b. cbv zeta.
        split; [split; [discriminate|lra]|]. split; [discriminate|]. intros _. split; [eapply Frame_trans; eassumption|].
        exists (fun n => damp theta (u n)), (fun n => c fac * sqrt theta * w n). split.
        + apply nodes_2e_eq. intros theta' n Hn. subst theta'. fold theta. rewrite Er. cbn [fst snd]. split; [lra|]. split; [|split; lra].
          intros _. split; [apply damp_ok; auto|reflexivity].
        + split; [intros n Hn; apply damp_ok; auto|]. eapply tcells_W; [|exact HC]. intros n Hn. cbv beta. destruct (Z.ltb_spec n 0); [lia|].
          rewrite Z.sub_0_r. unfold c. field. repeat split; lra. }
    destruct (Rlt_dec cutoff (theta * x)) as [Ec|Ec].
    { apply wp_ret. cbn [fst snd]. split; [split; auto|]. split; [reflexivity|discriminate]. }
    destruct (Rlt_dec 40 (theta * x)) as [Ed|Ed].
    { apply wp_ret. cbn [fst snd]. split; [split; auto|]. split; [reflexivity|discriminate]. }
    assert (Efl : forall b : bool, b = true -> (b = false <-> omega < 0 /\ (cutoff < theta * x \/ 40 < theta * x))).
    { intros b ->. split; [discriminate|]. intros [_ [?|?]]; contradiction. }
    destruct (Z.eqb_spec ro nr) as [Eo|Eo].
    { destruct (srys nr x (sqrt theta)) as [u w] eqn:Er. apply wp_bind.
      eapply wp_mono; [apply (put_w_ok _ 0 nr w g (fun _ => 0)); try lia; intros k Hk; lia|].
      intros g1 [HF1 HW1].
      assert (Hu : forall n, (0 <= n < nr)%Z -> 0 <= u n).
      { intros n Hn. pose proof (Hsrys nr x (sqrt theta) n Hn Hx) as Hp. rewrite Er in Hp. exact Hp. }
      eapply wp_mono; [apply (finish_ok e ai aj ak al A B C D bi bk kern L K Hij Hkl rij rkl)|].
      - exact Hu.
      - rewrite (proj1 HF1). exact Hsz.
      - exact HW1.
      - intros [b g2] (Eb & HC & HF2). cbn [fst snd] in *. subst b. cbv zeta.
        split; [apply Efl; reflexivity|]. split; [discriminate|]. intros _. split; [eapply Frame_trans; eassumption|].
        exists u, (fun n => c fac * w n). split.
        + apply nodes_2e_eq. intros theta' n Hn. subst theta'. fold theta. rewrite Er. cbn [fst snd]. split; [lra|]. split; [lra|].
          split; [auto|]. intros _ Hne. congruence.
        + split; [eassumption|]. eapply tcells_W; [|exact HC]. intros n Hn. cbv beta. destruct (Z.ltb_spec n 0); [lia|].
          rewrite Z.sub_0_r. unfold c. field. repeat split; lra. }
    assert (Hd : (nr = ro + ro)%Z) by lia. clear Hro.
    destruct (rys ro x) as [u1 w1] eqn:Er1. destruct (rys ro (theta * x)) as [u2 w2] eqn:Er2.
    apply wp_bind.
    eapply wp_mono; [apply (put_w_ok _ 0 ro w1 g (fun _ => 0)); try lia; intros k Hk; lia|].
    intros g1 [HF1 HW1]. rewrite Z.add_0_l in HW1. apply wp_bind.
    eapply wp_mono; [apply (put_w_ok _ ro ro w2 g1 _) with (5 := HW1); try lia; rewrite (proj1 HF1); lia|].
    intros g2 [HF2 HW2]. rewrite <- Hd in HW2.
    assert (HF12 := Frame_trans _ _ _ _ HF1 HF2). clear HF1 HF2 HW1 g1.
    pose (W0 := fun n => if (n <? ro)%Z then w1 n else w2 (n - ro)%Z).
    assert (HW : Wts (g_size e) nr W0 g2).
    { intros n Hn. rewrite (HW2 n Hn). unfold W0. destruct (Z.ltb_spec n ro); [|reflexivity].
      destruct (Z.ltb_spec n 0); [lia|]. rewrite Z.sub_0_r. reflexivity. }
    clear HW2.
    assert (Hu1 : forall n, (0 <= n < ro)%Z -> 0 <= u1 n).
    { intros n Hn. pose proof (Hrys ro x n Hn Hx) as Hp. rewrite Er1 in Hp. exact Hp. }
    assert (Hu2 : forall n, (0 <= n < ro)%Z -> 0 <= u2 n).
    { intros n Hn. pose proof (Hrys ro (theta * x) n Hn Htx) as Hp. rewrite Er2 in Hp. exact Hp. }
    pose (U := fun n => if (n <? ro)%Z then u1 n else damp theta (u2 (n - ro)%Z)).
    pose (W := fun n => if (n <? ro)%Z then c fac * w1 n else - (c fac * sqrt theta * w2 (n - ro)%Z)).
    assert (HU : forall n, (0 <= n < nr)%Z -> 0 <= U n).
    { intros n Hn. unfold U. destruct (Z.ltb_spec n ro); [apply Hu1; lia|]. apply damp_ok; [exact Ht|apply Hu2; lia]. }
    assert (HN : nodes_2e omega fac U W).
    { apply nodes_2e_eq. intros theta' n Hn. subst theta'. fold theta. rewrite Er1, Er2. cbn [fst snd]. split; [lra|]. split; [lra|]. split; [intros _ Hne; congruence|].
      intros _ _. unfold U, W. destruct (Z.ltb_spec n ro).
      - split; [auto|lia].
      - split; [lia|]. intros _. split; [apply damp_ok; [exact Ht|apply Hu2; lia]|reflexivity]. }
    destruct (Z.eqb_spec (g_size e) 2) as [E2|E2].
    - apply wp_bind. apply wp_wr; [rewrite (proj1 HF12); lia|]. intros h0 S0 C0.
      apply wp_bind. apply wp_wr; [rewrite S0, (proj1 HF12); lia|]. intros h1 S1 C1.
      apply wp_bind. apply wp_wr; [rewrite S1, S0, (proj1 HF12); lia|]. intros h2 S2 C2.
      apply wp_bind. apply wp_wr; [rewrite S2, S1, S0, (proj1 HF12); lia|]. intros h3 S3 C3.
      assert (Hsz0 : asize h3 = asize g) by (rewrite S3, S2, S1, S0; apply (proj1 HF12)).
      assert (R4 : rd h3 4%Z = Some (W0 0%Z)).
      { specialize (HW 0%Z ltac:(lia)). rewrite E2 in HW. apply rd_spec in HW. apply rd_spec. rewrite C3, C2, C1, C0, S3, S2, S1, S0. exact HW. }
      rewrite R4. cbn [bind]. apply wp_bind. apply wp_wr; [lia|]. intros h4 S4 C4.
      assert (R5 : rd h4 5%Z = Some (W0 1%Z)).
      { specialize (HW 1%Z ltac:(lia)). rewrite E2 in HW. apply rd_spec in HW. apply rd_spec. rewrite C4, C3, C2, C1, C0, S4, S3, S2, S1, S0. exact HW. }
      rewrite R5. cbn [bind]. apply wp_bind. apply wp_wr; [lia|]. intros h5 S5 C5.
      apply wp_ret. cbn [fst snd]. cbv zeta.
      split; [apply Efl; reflexivity|]. split; [discriminate|]. intros _. split.
      { eapply Frame_trans; [exact HF12|]. split; [lia|]. intros q Hq. rewrite C5, C4, C3, C2, C1, C0.
        destruct (Z.eqb_spec q 5); [exfalso; apply Hq; lia|]. destruct (Z.eqb_spec q 4); [exfalso; apply Hq; lia|].
        destruct (Z.eqb_spec q 3); [exfalso; apply Hq; lia|]. destruct (Z.eqb_spec q 2); [exfalso; apply Hq; lia|].
        destruct (Z.eqb_spec q 1); [exfalso; apply Hq; lia|]. destruct (Z.eqb_spec q 0); [exfalso; apply Hq; lia|reflexivity]. }
      exists U, W. split; [exact HN|]. split; [exact HU|].
      intros ax n i j k l Hax Hb.
      assert (N2 : nr = 2%Z) by lia. assert (R1 : ro = 1%Z) by lia.
      pose proof (l0_bnd e L _ _ _ _ _ Hb) as Hb1.
      assert (Hz : inbox e (adrs e n i j k l) 0 0 0 0).
      { unfold inbox. fold nr. pose proof (l0_i e L). pose proof (l0_j e L). pose proof (l0_k e L). pose proof (l0_l e L). lia. }
      destruct (l0_inj e L _ _ _ _ _ _ _ _ _ _ Hb Hz) as (En0 & -> & -> & -> & ->).
      { unfold adrs. lia. }
      assert (Ead : adrs e n 0 0 0 0 = n) by (unfold adrs; lia). rewrite Ead, E2. rewrite Ead, E2 in Hb1.
      change (tabn ai aj ak al A B C D rij rkl U W ax n 0 0 0 0) with (origin 1 (W n) ax).
      assert (Evw : W 0%Z = W0 0%Z * (/ (aij * akl * sqrt (aij + akl)) * fac) /\
                    W 1%Z = W0 1%Z * (/ (aij * akl * sqrt (aij + akl)) * fac * - sqrt theta)).
      { unfold W, W0. rewrite R1. split; [destruct (Z.ltb_spec 0 1); [|lia]|destruct (Z.ltb_spec 1 1); [lia|]]; unfold c; field; repeat split; lra. }
      destruct Evw as [Ev0 Ev1].
      apply rd_spec. split; [lia|]. rewrite C5, C4, C3, C2, C1, C0.
      assert (n = 0 \/ n = 1)%Z as [->| ->] by lia; assert (ax = 0 \/ ax = 1 \/ ax = 2)%Z as [->|[->| ->]] by lia;
        cbn [Z.mul Z.add Z.eqb Pos.mul Pos.add Pos.eqb Pos.succ origin]; try reflexivity; unfold origin; cbn [Z.eqb Pos.eqb]; congruence.
    - apply wp_bind. eapply wp_mono; [unfold scale_w; apply (map_w_ok (g_size e) ro nr (fun _ v => v * - sqrt theta) g2 nr W0)|]; try lia.
      + rewrite (proj1 HF12). lia.
      + exact HW.
      + intros g3 [HF3 HW3].
        eapply wp_mono; [apply (finish_ok e ai aj ak al A B C D bi bk kern L K Hij Hkl rij rkl)|].
        * exact HU.
        * rewrite (proj1 HF3), (proj1 HF12). exact Hsz.
        * exact HW3.
        * intros [b g4] (Eb & HC & HF4). cbn [fst snd] in *. subst b. cbv zeta.
          split; [apply Efl; reflexivity|]. split; [discriminate|]. intros _.
          split; [eapply Frame_trans; [exact HF12|]; eapply Frame_trans; eassumption|].
          exists U, W. split; [exact HN|]. split; [exact HU|].
          eapply tcells_W; [|exact HC]. intros n Hn. cbv beta. unfold W, W0.
          destruct (Z.ltb_spec n ro).
          { replace ((ro <=? n)%Z && (n <? nr)%Z) with false by lia. unfold c. field. repeat split; lra. }
          { replace ((ro <=? n)%Z && (n <? nr)%Z) with true by lia. unfold c. field. repeat split; lra. }
  Qed.

  (** Yukawa and Slater kernels *)
  Variable stg : Z -> R -> R -> nodes.
  Hypothesis (Hstg : forall m y z n, (0 <= n < m)%Z -> 0 <= y -> 0 < z -> 0 <= fst (stg m y z) n < 1).
  Local Notation nodes_f12 := (nodes_f12 e ai aj ak al rij rkl rys stg).

  Lemma nodes_f12_eq (yp : bool) zeta fac U W :
    (let ua := zeta * zeta / (4 * a0) in
    forall n, (0 <= n < nr)%Z ->
      (0 < zeta -> 0 <= U n /\ U n / (1 + U n) = fst (stg nr x ua) n /\
         W n = c fac * snd (stg nr x ua) n *
               (if yp then fst (stg nr x ua) n else (1 - fst (stg nr x ua) n) * (zeta / (2 * a0)))) /\
      (zeta <= 0 -> U n = fst (rys nr x) n /\ W n = c fac * snd (rys nr x) n)) ->
    nodes_f12 yp zeta fac U W.
  Proof. exact (fun H => H). Qed.

  Lemma g0_2e_f12_ok yp zeta fac g : (4 * g_size e <= asize g)%Z ->
    wp (R_g0_2e_f12 yp rys stg kern e zeta fac ai aj ak al rij rkl bi bk g) (fun bg =>
      fst bg = true /\ Frame (fun p => (0 <= p < 3 * g_size e)%Z) g (snd bg) /\
      exists U W, nodes_f12 yp zeta fac U W /\ (forall n, (0 <= n < nr)%Z -> 0 <= U n) /\ tc U W (snd bg)).
  Proof.
    intros Hsz. pose proof a0_pos as Ha0. pose proof x_nonneg as Hx. pose proof (l0_nr e L) as Hn0. pose proof (l0_gs e L) as Hg0.
    unfold R_g0_2e_f12. fold nr ro. destruct (Z.ltb_spec 32 nr); [lia|]. fold nr in Hn0. fold aij akl a0 x.
    assert (Hsq : 0 < sqrt (aij + akl)) by (apply sqrt_lt_R0; lra).
    destruct (Rlt_dec 0 zeta) as [Ez|Ez].
    - replace (/ 4 * zeta * zeta / a0) with (zeta * zeta / (4 * a0)) by (field; lra).
      set (ua := zeta * zeta / (4 * a0)).
      assert (Hua : 0 < ua) by (apply Rdiv_lt_0_compat; nra).
      destruct (stg nr x ua) as [u w] eqn:Er.
      assert (Hu : forall n, (0 <= n < nr)%Z -> 0 <= u n < 1).
      { intros n Hn. pose proof (Hstg nr x ua n Hn Hx Hua) as Hp. rewrite Er in Hp. exact Hp. }
      apply wp_bind.
      eapply wp_mono; [apply (put_w_ok _ 0 nr w g (fun _ => 0)); try lia; intros k Hk; lia|].
      intros g1 [HF1 HW1].
      rewrite Z.add_0_l in HW1.
      assert (HW : Wts (g_size e) nr w g1).
      { intros n Hn. rewrite (HW1 n Hn). destruct (Z.ltb_spec n 0); [lia|]. rewrite Z.sub_0_r. reflexivity. }
      apply wp_bind.
      eapply wp_mono; [apply (map_w_ok (g_size e) 0 nr (fun n v => if yp then v * u n else v * ((1 - u n) * (2 * ua / zeta))) g1 nr w)|]; try lia.
      { rewrite (proj1 HF1). lia. }
      { exact HW. }
      intros g2 [HF2 HW2].
      assert (HU : forall n, (0 <= n < nr)%Z -> 0 <= u n / (1 - u n)).
      { intros n Hn. specialize (Hu n Hn). apply Rdiv_le_0_compat; lra. }
      eapply wp_mono; [apply (finish_ok e ai aj ak al A B C D bi bk kern L K Hij Hkl rij rkl)|].
      + exact HU.
      + rewrite (proj1 HF2), (proj1 HF1). exact Hsz.
      + exact HW2.
      + intros [b g3] (Eb & HC & HF3). cbn [fst snd] in *. split; [exact Eb|].
        split; [eapply Frame_trans; [exact HF1|]; eapply Frame_trans; eassumption|].
        exists (fun n => u n / (1 - u n)), (fun n => c fac * w n * (if yp then u n else (1 - u n) * (zeta / (2 * a0)))). split.
        * apply nodes_f12_eq. intros ua' n Hn. subst ua'. fold ua. rewrite Er. cbn [fst snd]. split; [|lra]. intros _. split; [auto|].
          split; [|reflexivity]. specialize (Hu n Hn). field. lra.
        * split; [eassumption|]. eapply tcells_W; [|exact HC]. intros n Hn. cbv beta.
          replace ((0 <=? n)%Z && (n <? nr)%Z) with true by lia. unfold c.
          destruct yp; [field; repeat split; lra|]. unfold ua. field. repeat split; lra.
    - destruct (rys nr x) as [u w] eqn:Er. apply wp_bind.
      eapply wp_mono; [apply (put_w_ok _ 0 nr w g (fun _ => 0)); try lia; intros k Hk; lia|].
      intros g1 [HF1 HW1].
      assert (Hu : forall n, (0 <= n < nr)%Z -> 0 <= u n).
      { intros n Hn. pose proof (Hrys nr x n Hn Hx) as Hp. rewrite Er in Hp. exact Hp. }
      eapply wp_mono; [apply (finish_ok e ai aj ak al A B C D bi bk kern L K Hij Hkl rij rkl)|].
      + exact Hu.
      + rewrite (proj1 HF1). exact Hsz.
      + exact HW1.
      + intros [b g2] (Eb & HC & HF2). cbn [fst snd] in *. split; [exact Eb|]. split; [eapply Frame_trans; eassumption|].
        exists u, (fun n => c fac * w n). split.
        * apply nodes_f12_eq. intros ua' n Hn. subst ua'. rewrite Er. cbn [fst snd]. split; [lra|auto].
        * split; [eassumption|]. eapply tcells_W; [|exact HC]. intros n Hn. cbv beta. destruct (Z.ltb_spec n 0); [lia|].
          rewrite Z.sub_0_r. unfold c. field. repeat split; lra.
  Qed.
End Nodes.
