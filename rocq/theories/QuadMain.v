(** QuadMain.v — root sums over the two-electron arrays. *)
From Coq Require Import Reals Lra Psatz.
From Coquelicot Require Import Coquelicot.
From Verif Require Import Base EnvModel RecModel RecSpec RecMoments GaussInt Rec1Real Gauss2Int Rec2RModel Rec2Spec Rec2Real Rec2Kern UnrEnv
  QuadSpec QuadPoly QuadSub Quad2e.
Local Open Scope R_scope.

Lemma rsumz_split n m f : (0 <= n)%Z -> (0 <= m)%Z -> rsumz (n + m) f = rsumz n f + rsumz m (fun k => f (n + k)%Z).
Proof.
  intros Hn Hm. replace m with (Z.of_nat (Z.to_nat m)) by lia. generalize (Z.to_nat m). clear Hm m. intros m.
  induction m as [|m IH].
  - cbn. rewrite Z.add_0_r. unfold lsum. cbn. ring.
  - replace (Z.of_nat (S m)) with (Z.of_nat m + 1)%Z by lia. rewrite Z.add_assoc.
    rewrite !lsum_succ by lia. rewrite IH. ring.
Qed.

Lemma t2_range u : 0 <= u -> 0 <= t2_of u < 1.
Proof.
  intros H. unfold t2_of. split.
  - apply Rmult_le_pos; [lra|]. apply Rlt_le, Rinv_0_lt_compat; lra.
  - apply (Rmult_lt_reg_r (1 + u)); [lra|]. unfold Rdiv. rewrite Rmult_assoc, Rinv_l; lra.
Qed.

(** ** Enough roots *)
Definition total (e : envs) : Z := (li_ceil e + lj_ceil e + lk_ceil e + ll_ceil e)%Z.
Lemma quot_half L : (0 <= L)%Z -> (L <= 2 * (Z.quot L 2 + 1) - 1)%Z.
Proof. intros H. pose proof (Z.quot_rem L 2 ltac:(lia)). pose proof (Z.rem_bound_pos L 2 H ltac:(lia)). lia. Qed.
Lemma enough e A B C D bi bk kern : coulomb_setup e A B C D bi bk kern ->
  (total e <= 2 * rys_order e - 1)%Z /\ (total e <= 2 * nrys_roots e - 1)%Z.
Proof.
  intros H. inversion H; subst; unfold total, e0, init_int2e, init_int3c2e, init_int2c2e, init_4c; cbn [li_ceil lj_ceil lk_ceil ll_ceil rys_order nrys_roots].
  - pose proof (quot_half (li + IINC ng + (lj + JINC ng) + (lk + KINC ng) + (ll + LINC ng)) ltac:(lia)) as Q.
    destruct (sr_roots_cases om (Z.quot (li + IINC ng + (lj + JINC ng) + (lk + KINC ng) + (ll + LINC ng)) 2 + 1)) as [->| ->]; lia.
  - pose proof (quot_half (li + IINC ng + (lj + JINC ng) + (lk + KINC ng)) ltac:(lia)) as Q.
    destruct (sr_roots_cases om (Z.quot (li + IINC ng + (lj + JINC ng) + (lk + KINC ng)) 2 + 1)) as [->| ->]; lia.
  - pose proof (quot_half (li + IINC ng + (lk + KINC ng)) ltac:(lia)) as Q.
    destruct (sr_roots_cases om (Z.quot (li + IINC ng + (lk + KINC ng)) 2 + 1)) as [->| ->]; lia.
Qed.

Definition orders_in (e : envs) (oi oj ok ol : Z -> nat) : Prop :=
  (forall ax, (0 <= ax < 3)%Z -> (Z.of_nat (oi ax) <= li_ceil e /\ Z.of_nat (oj ax) <= lj_ceil e /\
     Z.of_nat (ok ax) <= lk_ceil e /\ Z.of_nat (ol ax) <= ll_ceil e)%Z) /\
  (Z.of_nat (deg3 oi oj ok ol) <= total e)%Z.

Section Cells.
  Variables (e : envs) (ai aj ak al : R) (A B C D : Z -> R).
  Hypothesis (Hp : 0 < ai + aj) (Hq : 0 < ak + al).
  Variables (U W : Z -> R) (g : arr R).
  Hypothesis (HU : forall n, (0 <= n < nrys_roots e)%Z -> 0 <= U n).
  Hypothesis HC : eri_cells e ai aj ak al A B C D U W g.

  Definition cellv (oi oj ok ol : Z -> nat) (ax n : Z) : R :=
    RecSpec.origin 1 (W n) ax * mom ai aj ak al (A ax) (B ax) (C ax) (D ax) (oi ax) (oj ax) (ok ax) (ol ax) (t2_of (U n)).
  Lemma cells_mom oi oj ok ol : orders_in e oi oj ok ol ->
    (forall ax n, (0 <= ax < 3)%Z -> (0 <= n < nrys_roots e)%Z ->
      rd g (ax * g_size e + adrs e n (Z.of_nat (oi ax)) (Z.of_nat (oj ax)) (Z.of_nat (ok ax)) (Z.of_nat (ol ax)))%Z = Some (cellv oi oj ok ol ax n)) /\
    rsumz (nrys_roots e) (fun n => cellv oi oj ok ol 0 n * cellv oi oj ok ol 1 n * cellv oi oj ok ol 2 n) =
    rsumz (nrys_roots e) (fun n => W n * mom3 ai aj ak al A B C D oi oj ok ol (t2_of (U n))).
  Proof.
    intros [HO _]. split.
    - intros ax n Hax Hn. specialize (HO ax Hax).
      destruct (HC ax n (oi ax) (oj ax) (ok ax) (ol ax) Hax ltac:(unfold inbox; lia)) as (v & I0 & I & E & H0 & Hpos & HI & Ev).
      rewrite E. f_equal. rewrite Ev. unfold cellv.
      destruct (mom_int ai aj ak al (A ax) (B ax) (C ax) (D ax) Hp Hq ((ai + aj) * (ak + al) / (ai + aj + (ak + al)) * U n) (t2_of (U n)))
        as (J0 & Jpos & JI).
      { apply t2_range, HU, Hn. }
      { unfold t2_of. specialize (HU n Hn). field. split; lra. }
      rewrite (plane_unique _ _ _ H0 J0), (plane_unique _ _ _ HI (JI _ _ _ _)). field. lra.
    - apply rsumz_ext. intros n Hn. unfold cellv, mom3, prod3, mom4, RecSpec.origin. cbn [Z.eqb Pos.eqb]. ring.
  Qed.
End Cells.

Section Main.
  Variables (e : envs) (A B C D bi bk : Z -> R) (kern : @rys2e R -> arr R -> option (arr R)) (ai aj ak al : R) (rij rkl : Z -> R).
  Hypothesis (Hp : 0 < ai + aj) (Hq : 0 < ak + al).
  Hypothesis (Hrij : forall ax, (0 <= ax < 3)%Z -> rij ax = (ai * A ax + aj * B ax) / (ai + aj)).
  Hypothesis (Hrkl : forall ax, (0 <= ax < 3)%Z -> rkl ax = (ak * C ax + al * D ax) / (ak + al)).
  Hypothesis HS : coulomb_setup e A B C D bi bk kern.
  Variables (rys : Z -> R -> nodes) (srys : Z -> R -> R -> nodes) (omega c0 : R).
  Let a0 := (ai + aj) * (ak + al) / (ai + aj + (ak + al)).
  Let x := a0 * dist2 rij rkl.
  Hypothesis HR : rules_2e rys srys (nrys_roots e) (rys_order e) omega a0 x.
  Let fac := c0 * (2 * (PI * PI * PI) / sqrt PI) * (overlap_factor ai aj A B * overlap_factor ak al C D).
  Hypothesis (Hro : rys_order e = nrys_roots e \/ (nrys_roots e = rys_order e + rys_order e)%Z).

  Lemma sum_is_int f m d U W : moments2 ai aj ak al A B C D f m d -> (Z.of_nat (d 0%Z + d 1%Z + d 2%Z) <= total e)%Z ->
    nodes_2e e ai aj ak al rij rkl rys srys omega fac U W ->
    exists V, coul2 (op_of omega) f V /\
      rsumz (nrys_roots e) (fun n => W n * prod3 m (t2_of (U n))) = c0 * V.
  Proof.
    intros HM HD HN. destruct (enough e A B C D bi bk kern HS) as [E1 E2].
    pose proof (prod3_pol ai aj ak al A B C D f m d HM) as PM. set (M := prod3 m) in *.
    set (cc := cc2 ai aj ak al A B C D).
    pose proof (a0p ai aj ak al Hp Hq) as H0. fold a0 in H0.
    assert (Hc : fac / ((ai + aj) * (ak + al) * sqrt (ai + aj + (ak + al))) = c0 * cc).
    { assert (0 < sqrt PI) by (apply sqrt_lt_R0, PI_RGT_0).
      assert (0 < sqrt (ai + aj + (ak + al))) by (apply sqrt_lt_R0; lra).
      unfold fac, cc, cc2. field. repeat split; lra. }
    assert (Hx : a0 * dist2 (fun ax => (ai * A ax + aj * B ax) / (ai + aj)) (fun ax => (ak * C ax + al * D ax) / (ak + al)) = x).
    { unfold x, dist2. rewrite !Hrij, !Hrkl by lia. reflexivity. }
    assert (HG : forall V, over_s (op_of omega) (fun s => cc * (dtt a0 s * (M (tt a0 s * tt a0 s) * exp (- (x * (tt a0 s * tt a0 s)))))) V ->
      coul2 (op_of omega) f V).
    { intros V HV. apply (coul2_s ai aj ak al A B C D Hp Hq f m d HM). fold a0. rewrite Hx. exact HV. }
    unfold nodes_2e in HN. cbv zeta in HN. rewrite Hc in HN. fold a0 in HN.
    change (a0 * ((rij 0%Z - rkl 0%Z) * (rij 0%Z - rkl 0%Z) + (rij 1%Z - rkl 1%Z) * (rij 1%Z - rkl 1%Z) + (rij 2%Z - rkl 2%Z) * (rij 2%Z - rkl 2%Z))) with x in HN.
    destruct HR as (R1 & R2 & R3 & R4). unfold op_of in *.
    set (nr := nrys_roots e) in *. set (ro := rys_order e) in *. set (theta := omega * omega / (omega * omega + a0)) in *.
    assert (Ht : forall w, w * w = omega * omega -> tt a0 w * tt a0 w = theta).
    { intros w Ew. rewrite (tt_sq a0 H0), Ew. rewrite (Rplus_comm a0). reflexivity. }
    assert (Hst : forall w, 0 <= w -> w * w = omega * omega -> sqrt theta = tt a0 w).
    { intros w Hw Ew. rewrite (tt_sqrt a0 H0 w Hw), Ew. rewrite (Rplus_comm a0). reflexivity. }
    destruct (Req_EM_T omega 0) as [Z0|N0].
    - exists (cc * rsumz nr (fun k => snd (rys nr x) k * M (t2_of (fst (rys nr x) k)))). split.
      + apply HG. apply (quad_coulomb a0 cc x M _ H0 PM nr (fun k => t2_of (fst (rys nr x) k)) (snd (rys nr x))); [lia|]. exact (R1 Z0).
      + rewrite <- !rsumz_scal. apply rsumz_ext. intros k Hk. destruct (HN k Hk) as [N1 _]. destruct (N1 Z0) as [-> ->]. ring.
    - destruct (Rlt_dec 0 omega) as [Hpos|Hneg].
      + pose proof (R2 Hpos) as Rr. rewrite <- (Ht omega eq_refl) in Rr.
        eexists. split.
        * apply HG. apply (quad_erf a0 cc x M _ H0 PM nr _ _ ltac:(lia) omega Rr).
        * rewrite (Ht omega eq_refl), <- (Hst omega) by lra.
          rewrite <- !rsumz_scal. apply rsumz_ext. intros k Hk. destruct (HN k Hk) as (_ & N2 & _). destruct (N2 Hpos) as [[_ Es] ->].
          unfold t2_of at 1. rewrite Es. fold (t2_of (fst (rys nr (theta * x)) k)). ring.
      + assert (Hlt : omega < 0) by lra.
        assert (Ew : - omega * - omega = omega * omega) by ring.
        destruct (Z.eq_dec ro nr) as [Er|Er].
        * pose proof (R3 Hlt Er) as Rr. pose proof (Hst (- omega) ltac:(lra) Ew) as Es. rewrite Es in *.
          eexists. split.
          -- apply HG. apply (quad_erfc a0 cc x M _ H0 PM nr _ _ ltac:(lia) (- omega) Rr).
          -- rewrite <- !rsumz_scal. apply rsumz_ext. intros k Hk. destruct (HN k Hk) as (_ & _ & N3 & _). destruct (N3 Hlt Er) as [-> ->]. ring.
        * destruct (R4 Hlt Er) as [Ra Rb]. rewrite <- (Ht (- omega) Ew) in Rb.
          assert (Enr : (nr = ro + ro)%Z) by (destruct Hro; [congruence|assumption]).
          eexists. split.
          -- apply HG. apply (quad_erfc2 a0 cc x M _ H0 PM ro _ _ ltac:(lia) (- omega) _ _ Ra Rb).
          -- rewrite (Ht (- omega) Ew), <- (Hst (- omega)) by lra.
             rewrite Enr, rsumz_split by lia.
             transitivity (c0 * (cc * rsumz ro (fun k => snd (rys ro x) k * M (t2_of (fst (rys ro x) k))))
               + c0 * (cc * (- sqrt theta * rsumz ro (fun k => snd (rys ro (theta * x)) k * M (theta * t2_of (fst (rys ro (theta * x)) k)))))); [|ring].
             f_equal.
             ++ rewrite <- !rsumz_scal. apply rsumz_ext. intros k Hk. destruct (HN k ltac:(lia)) as (_ & _ & _ & N4).
                destruct (N4 Hlt Er) as [N5 _]. destruct (N5 ltac:(lia)) as [-> ->]. ring.
             ++ rewrite <- !rsumz_scal. apply rsumz_ext. intros k Hk. destruct (HN (ro + k)%Z ltac:(lia)) as (_ & _ & _ & N4).
                destruct (N4 Hlt Er) as [_ N5]. destruct (N5 ltac:(lia)) as [[_ Es] ->]. replace (ro + k - ro)%Z with k in * by lia.
                unfold t2_of at 1. rewrite Es. fold (t2_of (fst (rys ro (theta * x)) k)). ring.
  Qed.
End Main.
