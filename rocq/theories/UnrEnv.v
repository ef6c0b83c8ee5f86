(** UnrEnv.v — the entry points of the unrolled kernels in the environments that select them, and
    the kernel each initialiser selects. *)
From Coq Require Import Reals Ring.
From Verif Require Import Base EnvModel RecModel RecSpec RecMoments RecLay UnrModel UnrTab UnrTabSr UnrKern UnrProof UnrFinal
  GaussInt Rec1Real Gauss2Int Rec2RModel Rec2Spec Rec2Real Rec2Final Rec2Kern.
Open Scope Z_scope.

Lemma quot_le3 s : 0 <= s -> (Z.quot s 2 + 1 <= 2 <-> s <= 3).
Proof. intros H. rewrite Z.quot_div_nonneg by lia. split; intros; pose proof (Z.div_mod s 2); pose proof (Z.mod_pos_bound s 2); lia. Qed.

Section Gen.
  Context {F : Type} (zero one : F) (add mul sub : F -> F -> F) (opp : F -> F) (inj : Z -> F).
  Hypothesis RT : ring_theory zero one add mul sub opp (@eq F).
  Hypothesis inj0 : inj 0 = zero.
  Hypothesis injS : forall i, 0 <= i -> inj (i + 1) = add (inj i) one.
  Add Ring Fring3 : RT.

  (** either entry point, on the momenta it is meant for *)
  Lemma unrolled_ok e (A B C D : Z -> F) (P Q : Z -> Z -> F) (S : Z -> Z -> Z -> Z -> Z -> Z -> F) (bc : @rys2e F) rirj rkrl w (g : arr F) :
    unr_env e -> rys_order e <= 2 ->
    let iB := li_ceil e >? lj_ceil e in
    let kB := lk_ceil e >? ll_ceil e in
    (forall ax n, 0 <= ax < 3 -> 0 <= n < nrys_roots e ->
      gauss2 add mul inj (b10 bc n) (b01 bc n) (b00 bc n)
        (sub (P ax n) (A ax)) (sub (P ax n) (B ax)) (sub (Q ax n) (C ax)) (sub (Q ax n) (D ax)) (S ax n)) ->
    (forall ax n, 0 <= ax < 3 -> 0 <= n < nrys_roots e ->
       c00 bc ax n = sub (P ax n) (if iB then A ax else B ax) /\
       c0p bc ax n = sub (Q ax n) (if kB then C ax else D ax) /\
       S ax n 0 0 0 0 = origin one (w n) ax) ->
    (0 < li_ceil e -> 0 < lj_ceil e -> forall ax, 0 <= ax < 3 -> rirj ax = if iB then sub (A ax) (B ax) else sub (B ax) (A ax)) ->
    (0 < lk_ceil e -> 0 < ll_ceil e -> forall ax, 0 <= ax < 3 -> rkrl ax = if kB then sub (C ax) (D ax) else sub (D ax) (C ax)) ->
    3 * g_size e <= asize g ->
    (forall n, 0 <= n < nrys_roots e -> rd g (2 * g_size e + n) = Some (w n)) ->
    wp (if rys_order e =? nrys_roots e then g0_2e_2d4d_unrolled add mul inj e bc rirj rkrl g
        else srg0_2e_2d4d_unrolled add mul inj e bc rirj rkrl g) (fun g' =>
      (forall ax n i j k l, 0 <= ax < 3 -> inbox e n i j k l ->
         rd g' (ax * g_size e + adrs e n i j k l) = Some (S ax n i j k l)) /\
      Frame (fun p => 0 <= p < 3 * g_size e) g g').
  Proof.
    intros He Ho iB kB HS Hc Hij Hkl Hsz Hw.
    destruct (layout_of e He) as (Ha & Hb & Hcc & Hd & Eo & En & Eg & Ead).
    assert (Hs : li_ceil e + lj_ceil e + lk_ceil e + ll_ceil e <= 3) by (apply quot_le3; [lia|rewrite Eo in Ho; exact Ho]).
    assert (Hpos : 0 < rys_order e) by (rewrite Eo; unfold order4; pose proof (Z.quot_pos (li_ceil e + lj_ceil e + lk_ceil e + ll_ceil e) 2); lia).
    set (sr := negb (rys_order e =? nrys_roots e)).
    destruct (checked sr (li_ceil e) (lj_ceil e) (lk_ceil e) (ll_ceil e) Ha Hb Hcc Hd Hs) as (k & Ek & Ck).
    assert (Enr : roots_of sr (li_ceil e) (lj_ceil e) (lk_ceil e) (ll_ceil e) = nrys_roots e).
    { unfold roots_of. rewrite <- Eo. unfold sr. destruct (rys_order e =? nrys_roots e) eqn:E; cbn [negb]; lia. }
    rewrite Enr in Ck.
    assert (Erun : (if rys_order e =? nrys_roots e then g0_2e_2d4d_unrolled add mul inj e bc rirj rkrl g
        else srg0_2e_2d4d_unrolled add mul inj e bc rirj rkrl g) = run add mul inj bc rirj rkrl k g).
    { unfold g0_2e_2d4d_unrolled, srg0_2e_2d4d_unrolled, type_ijkl. unfold switch_of, code, sr in Ek.
      destruct (rys_order e =? nrys_roots e); cbn [negb] in Ek; rewrite Ek; reflexivity. }
    rewrite Erun. rewrite Eg in *.
    eapply wp_mono; [apply (kernel_ok zero one add mul sub opp inj RT inj0 injS k (nrys_roots e) (li_ceil e) (lj_ceil e) (lk_ceil e) (ll_ceil e) bc rirj rkrl A B C D P Q S w g Ck HS Hc Hij Hkl Hsz Hw)|].
    cbv beta. intros g' [H1 H2]. split; [|exact H2]. intros ax n i j kk l Hax Hb'. rewrite (Ead n i j kk l Hb').
    destruct Hb' as (B1 & B2 & B3 & B4 & B5). apply H1; assumption.
  Qed.

  (** the generic algorithm computes the same cells *)
  Lemma wp_some {A} (m : option A) (Q : A -> Prop) : wp m Q -> exists v, m = Some v /\ Q v.
  Proof. destruct m as [v|]; cbn [wp]; [intros H; exists v; auto|intros []]. Qed.

  Definition sameCells (e : envs) (g1 g2 : arr F) : Prop :=
    forall ax n i j k l, 0 <= ax < 3 -> inbox e n i j k l ->
      exists v, rd g1 (ax * g_size e + adrs e n i j k l) = Some v /\ rd g2 (ax * g_size e + adrs e n i j k l) = Some v.

  Lemma unr_lay e : unr_env e -> lay0 e.
  Proof.
    intros [om ng li lj lk ll ci cj ck cl H1 H2 H3 H4|om ng li lj lk ci cj ck H1 H2 H3|om ng li lk ci ck H1 H2].
    - apply rlay_lay0; [apply rlay_2e; assumption|]. unfold init_int2e, init_4c. cbn [nrys_roots]. apply sr_roots_pos.
      pose proof (Z.quot_pos (li + IINC ng + (lj + JINC ng) + (lk + KINC ng) + (ll + LINC ng)) 2). lia.
    - apply rlay_lay0; [apply rlay_3c2e; assumption|]. unfold init_int3c2e. cbn [nrys_roots]. apply sr_roots_pos.
      pose proof (Z.quot_pos (li + IINC ng + (lj + JINC ng) + (lk + KINC ng)) 2). lia.
    - apply lay0_2c2e; assumption.
  Qed.

  Section Same.
    Variables (e : envs) (bc : @rys2e F) (rirj rkrl w : Z -> F) (g : arr F).
    Hypothesis (He : unr_env e) (Ho : rys_order e <= 2) (Hsz : 4 * g_size e <= asize g).
    Hypothesis (Hw : forall n, 0 <= n < nrys_roots e -> rd g (2 * g_size e + n) = Some (w n)).
    Let iB := li_ceil e >? lj_ceil e.
    Let kB := lk_ceil e >? ll_ceil e.

    Lemma same_four : four_env e ->
      exists g1 g2,
        (g <- g0_2e_2d one add mul inj e bc g ;; g0_2d_4d add mul e rirj rkrl g) = Some g1 /\
        (if rys_order e =? nrys_roots e then g0_2e_2d4d_unrolled add mul inj e bc rirj rkrl g
         else srg0_2e_2d4d_unrolled add mul inj e bc rirj rkrl g) = Some g2 /\
        sameCells e g1 g2 /\
        Frame (fun p => 0 <= p < 3 * g_size e) g g1 /\ Frame (fun p => 0 <= p < 3 * g_size e) g g2.
    Proof.
      intros H4.
      set (A := fun ax => if iB then rirj ax else zero). set (B := fun ax => if iB then zero else rirj ax).
      set (C := fun ax => if kB then rkrl ax else zero). set (D := fun ax => if kB then zero else rkrl ax).
      set (P := fun ax n => add (c00 bc ax n) (if iB then A ax else B ax)).
      set (Q := fun ax n => add (c0p bc ax n) (if kB then C ax else D ax)).
      set (S := fun ax n => S4 zero add mul sub inj (b10 bc n) (b01 bc n) (b00 bc n)
                  (sub (P ax n) (A ax)) (sub (P ax n) (B ax)) (sub (Q ax n) (C ax)) (sub (Q ax n) (D ax)) (origin one (w n) ax)).
      assert (HS : forall ax n, 0 <= ax < 3 -> 0 <= n < nrys_roots e -> gauss2 add mul inj (b10 bc n) (b01 bc n) (b00 bc n)
                  (sub (P ax n) (A ax)) (sub (P ax n) (B ax)) (sub (Q ax n) (C ax)) (sub (Q ax n) (D ax)) (S ax n)).
      { intros ax n _ _. exact (S4_ok zero one add mul sub opp inj RT inj0 injS _ _ _ _ _ _ _ _). }
      assert (Hc : forall ax n, 0 <= ax < 3 -> 0 <= n < nrys_roots e ->
         c00 bc ax n = sub (P ax n) (if iB then A ax else B ax) /\
         c0p bc ax n = sub (Q ax n) (if kB then C ax else D ax) /\ S ax n 0 0 0 0 = origin one (w n) ax).
      { intros ax n _ _. unfold P, Q. split; [ring|]. split; [ring|reflexivity]. }
      assert (Hij : forall ax, 0 <= ax < 3 -> rirj ax = if iB then sub (A ax) (B ax) else sub (B ax) (A ax)).
      { intros ax _. unfold A, B. destruct iB; ring. }
      assert (Hkl : forall ax, 0 <= ax < 3 -> rkrl ax = if kB then sub (C ax) (D ax) else sub (D ax) (C ax)).
      { intros ax _. unfold C, D. destruct kB; ring. }
      pose proof (l0_gs e (unr_lay e He)) as Hgs.
      destruct (wp_some _ _ (rys_full_ok zero one add mul sub opp inj RT inj0 injS e (four_rlay e H4) A B C D P Q (b10 bc) (b01 bc) (b00 bc) S HS bc rirj rkrl w g
         (fun n _ => conj eq_refl (conj eq_refl eq_refl)) Hc Hij (fun _ => Hkl) Hsz Hw)) as (g1 & E1 & C1 & F1).
      destruct (wp_some _ _ (unrolled_ok e A B C D P Q S bc rirj rkrl w g He Ho HS Hc (fun _ _ => Hij) (fun _ _ => Hkl) ltac:(lia) Hw)) as (g2 & E2 & C2 & F2).
      exists g1, g2. repeat (split; [assumption|]). split; [|split; assumption].
      intros ax n i j k l Hax Hb. exists (S ax n i j k l). split; [|apply C2; assumption].
      destruct Hb as (B1 & B2 & B3 & B4 & B5). apply C1; assumption.
    Qed.

    Lemma same_two om ng li lk ci ck : e = init_int2c2e om ng li lk ci ck -> 0 <= li + IINC ng -> 0 <= lk + KINC ng ->
      exists g1 g2,
        g0_2e_2d one add mul inj e bc g = Some g1 /\
        (if rys_order e =? nrys_roots e then g0_2e_2d4d_unrolled add mul inj e bc rirj rkrl g
         else srg0_2e_2d4d_unrolled add mul inj e bc rirj rkrl g) = Some g2 /\
        sameCells e g1 g2 /\
        Frame (fun p => 0 <= p < 3 * g_size e) g g1 /\ Frame (fun p => 0 <= p < 3 * g_size e) g g2.
    Proof.
      intros Ee Hi Hk.
      set (A := fun _ : Z => zero).
      set (P := fun ax n => c00 bc ax n). set (Q := fun ax n => c0p bc ax n).
      set (S := fun ax n => S4 zero add mul sub inj (b10 bc n) (b01 bc n) (b00 bc n)
                  (sub (P ax n) (A ax)) (sub (P ax n) (A ax)) (sub (Q ax n) (A ax)) (sub (Q ax n) (A ax)) (origin one (w n) ax)).
      assert (HS : forall ax n, 0 <= ax < 3 -> 0 <= n < nrys_roots e -> gauss2 add mul inj (b10 bc n) (b01 bc n) (b00 bc n)
                  (sub (P ax n) (A ax)) (sub (P ax n) (A ax)) (sub (Q ax n) (A ax)) (sub (Q ax n) (A ax)) (S ax n)).
      { intros ax n _ _. exact (S4_ok zero one add mul sub opp inj RT inj0 injS _ _ _ _ _ _ _ _). }
      assert (Hc : forall ax n, 0 <= ax < 3 -> 0 <= n < nrys_roots e ->
         c00 bc ax n = sub (P ax n) (if iB then A ax else A ax) /\
         c0p bc ax n = sub (Q ax n) (if kB then A ax else A ax) /\ S ax n 0 0 0 0 = origin one (w n) ax).
      { intros ax n _ _. unfold P, Q, A. split; [destruct iB; ring|]. split; [destruct kB; ring|reflexivity]. }
      assert (Zj : lj_ceil e = 0 /\ ll_ceil e = 0) by (rewrite Ee; split; reflexivity). destruct Zj as [Zj Zl].
      pose proof (l0_gs e (unr_lay e He)) as Hgs.
      destruct (wp_some _ _ (unrolled_ok e A A A A P Q S bc rirj rkrl w g He Ho HS Hc
        ltac:(intros; rewrite Zj in *; lia) ltac:(intros; rewrite Zl in *; lia) ltac:(lia) Hw)) as (g2 & E2 & C2 & F2).
      assert (HM : forall ax n, 0 <= ax < 3 -> 0 <= n < nrys_roots e ->
        moments2 add mul inj (b10 bc n) (b01 bc n) (b00 bc n) (c00 bc ax n) (c0p bc ax n) (fun a b => S ax n a 0 b 0) /\
        S ax n 0 0 0 0 = origin one (w n) ax).
      { intros ax n Hax Hn. split; [|reflexivity]. pose proof (gauss2_ik zero one add mul sub opp inj RT inj0 _ _ _ _ _ _ _ _ (HS ax n Hax Hn)) as G.
        unfold P, Q, A in G. replace (sub (c00 bc ax n) zero) with (c00 bc ax n) in G by ring. replace (sub (c0p bc ax n) zero) with (c0p bc ax n) in G by ring. exact G. }
      assert (Re : rec_env e) by (rewrite Ee; apply re_2c2e; assumption).
      destruct (wp_some _ _ (rec_env_2d zero one add mul sub opp inj RT inj0 injS e bc (fun ax n a b => S ax n a 0 b 0) w g Re HM Hsz Hw)) as (g1 & E1 & C1 & F1).
      exists g1, g2. repeat (split; [assumption|]). split; [|split; assumption].
      intros ax n i j k l Hax Hb. exists (S ax n i j k l). split; [|apply C2; assumption].
      destruct Hb as (B1 & B2 & B3 & B4 & B5). rewrite Zj in B3. rewrite Zl in B5.
      assert (j = 0) as -> by lia. assert (l = 0) as -> by lia.
      rewrite <- (C1 ax n i k Hax B1) by lia. unfold adrs. rewrite Ee. unfold init_int2c2e. cbv zeta.
      cbn [g_size g_stride_i g_stride_k g_stride_l g_stride_j g2d_ijmax g2d_klmax]. f_equal. ring.
    Qed.
  End Same.
End Gen.

(** ** Over the reals: CINTg0_2e with the kernel its initialiser selects *)
Local Open Scope R_scope.
(** The environments, centres, base centres (rx_in_rijrx, rx_in_rklrx) and envs->f_g0_2d4d with
    rirj and rkrl as each initialiser sets them: g2e.c:127-170, g3c2e.c:98-130 (rkrl = rk),
    g2c2e.c:76-103 (rirj = ri, rkrl = rk). *)
Inductive coulomb_setup : envs -> (Z -> R) -> (Z -> R) -> (Z -> R) -> (Z -> R) -> (Z -> R) -> (Z -> R) ->
    (@rys2e R -> arr R -> option (arr R)) -> Prop :=
| cs_2e om ng li lj lk ll ci cj ck cl A B C D :
    (0 <= li + IINC ng)%Z -> (0 <= lj + JINC ng)%Z -> (0 <= lk + KINC ng)%Z -> (0 <= ll + LINC ng)%Z ->
    let e := init_int2e om ng li lj lk ll ci cj ck cl in
    let ibase := (li + IINC ng >? lj + JINC ng)%Z in
    let kbase := (lk + KINC ng >? ll + LINC ng)%Z in
    coulomb_setup e A B C D (if ibase then A else B) (if kbase then C else D)
      (fun bc => f_g0_2d4d 1 Rplus Rmult IZR e bc (base_diff Rminus ibase A B) (base_diff Rminus kbase C D))
| cs_3c2e om ng li lj lk ci cj ck A B C :
    (0 <= li + IINC ng)%Z -> (0 <= lj + JINC ng)%Z -> (0 <= lk + KINC ng)%Z ->
    let e := init_int3c2e om ng li lj lk ci cj ck in
    let ibase := (li + IINC ng >? lj + JINC ng)%Z in
    coulomb_setup e A B C C (if ibase then A else B) C
      (fun bc => f_g0_2d4d 1 Rplus Rmult IZR e bc (base_diff Rminus ibase A B) C)
| cs_2c2e om ng li lk ci ck A C :
    (0 <= li + IINC ng)%Z -> (0 <= lk + KINC ng)%Z ->
    let e := init_int2c2e om ng li lk ci ck in
    coulomb_setup e A A C C A C (fun bc => f_g0_2d4d_2c 1 Rplus Rmult IZR e bc A C).

Lemma unrolled_kspec e A B C D bi bk rirj rkrl : unr_env e -> (rys_order e <= 2)%Z ->
  (bi = (if (li_ceil e >? lj_ceil e)%Z then A else B) \/ A = B /\ bi = A) ->
  (bk = (if (lk_ceil e >? ll_ceil e)%Z then C else D) \/ C = D /\ bk = C) ->
  ((0 < li_ceil e)%Z -> (0 < lj_ceil e)%Z -> rirj = base_diff Rminus (li_ceil e >? lj_ceil e)%Z A B) ->
  ((0 < lk_ceil e)%Z -> (0 < ll_ceil e)%Z -> rkrl = base_diff Rminus (lk_ceil e >? ll_ceil e)%Z C D) ->
  kspec e A B C D bi bk (fun bc g => if (rys_order e =? nrys_roots e)%Z then g0_2e_2d4d_unrolled Rplus Rmult IZR e bc rirj rkrl g
      else srg0_2e_2d4d_unrolled Rplus Rmult IZR e bc rirj rkrl g).
Proof.
  intros He Ho Hbi Hbk Hij Hkl bc P Q q10 q01 q00 S w m0 HS Hq Hc Hsz HW.
  assert (HS' : forall ax n, (0 <= ax < 3)%Z -> (0 <= n < nrys_roots e)%Z ->
      gauss2 Rplus Rmult IZR (b10 bc n) (b01 bc n) (b00 bc n) (P ax n - A ax) (P ax n - B ax) (Q ax n - C ax) (Q ax n - D ax) (S ax n)).
  { intros ax n Hax Hn. destruct (Hq n Hn) as (-> & -> & ->). apply HS; assumption. }
  pose proof (l0_gs e (unr_lay e He)) as Hgs.
  apply (unrolled_ok 0 1 Rplus Rmult Rminus Ropp IZR RTheory eq_refl IZR_S e A B C D P Q S bc rirj rkrl w m0 He Ho HS').
  - intros ax n Hax Hn. destruct (Hc ax n Hax Hn) as (E1 & E2 & E3). split; [|split; [|exact E3]].
    + rewrite E1. destruct Hbi as [->|[-> ->]]; destruct (li_ceil e >? lj_ceil e)%Z; reflexivity.
    + rewrite E2. destruct Hbk as [->|[-> ->]]; destruct (lk_ceil e >? ll_ceil e)%Z; reflexivity.
  - intros H1 H2 ax _. rewrite (Hij H1 H2). reflexivity.
  - intros H1 H2 ax _. rewrite (Hkl H1 H2). reflexivity.
  - lia.
  - intros n Hn. rewrite <- (HW n Hn). f_equal. lia.
Qed.

Lemma coulomb_ok e A B C D bi bk kern : coulomb_setup e A B C D bi bk kern ->
  lay0 e /\ kspec e A B C D bi bk kern /\ (rys_order e = nrys_roots e \/ nrys_roots e = rys_order e + rys_order e)%Z.
Proof.
  intros [om ng li lj lk ll ci cj ck cl A' B' C' D' H1 H2 H3 H4 e' ib kb|om ng li lj lk ci cj ck A' B' C' H1 H2 H3 e' ib|om ng li lk ci ck A' C' H1 H2 e'].
  - destruct (setup_ok _ _ _ _ _ _ _ _ _ (setup_2e om ng li lj lk ll ci cj ck cl A' B' C' D' H1 H2 H3 H4)) as (L & K & O).
    split; [exact L|]. split; [|exact (O eq_refl)]. unfold f_g0_2d4d. fold e' in K.
    destruct (rys_order e' <=? 2)%Z eqn:E; [|exact K].
    apply (unrolled_kspec e' A' B' C' D'); [apply ue_2e; assumption|lia|left; reflexivity|left; reflexivity|reflexivity|reflexivity].
  - destruct (setup_ok _ _ _ _ _ _ _ _ _ (setup_3c2e om ng li lj lk ci cj ck A' B' C' H1 H2 H3)) as (L & K & O).
    split; [exact L|]. split; [|exact (O eq_refl)]. unfold f_g0_2d4d. fold e' in K.
    destruct (rys_order e' <=? 2)%Z eqn:E.
    + apply (unrolled_kspec e' A' B' C' C'); [apply ue_3c2e; assumption|lia|left; reflexivity|right; split; reflexivity|reflexivity|].
      change (lk_ceil e') with 0%Z. lia.
    + intros bc P Q q10 q01 q00 S w m0 HS Hq Hc Hsz HW.
      eapply wp_mono; [apply (rys_full_ok 0 1 Rplus Rmult Rminus Ropp IZR RTheory eq_refl IZR_S e' (rlay_3c2e om ng li lj lk ci cj ck H1 H2 H3) A' B' C' C' P Q q10 q01 q00 S HS bc (base_diff Rminus ib A' B') C' w m0 Hq); try assumption|].
      * intros ax n Hax Hn. destruct (Hc ax n Hax Hn) as (E1 & E2 & E3). split; [rewrite E1; change (ibase e') with ib; destruct ib; reflexivity|].
        split; [rewrite E2; destruct (kbase e'); reflexivity|exact E3].
      * reflexivity.
      * change (lk_ceil e') with 0%Z. lia.
      * intros n Hn. rewrite <- (HW n Hn). f_equal. lia.
      * intros m [M1 M2]. split; [|exact M2]. intros ax n i j k l Hax (B1 & B2 & B3 & B4 & B5). apply M1; assumption.
  - destruct (setup_ok _ _ _ _ _ _ _ _ _ (setup_2c2e om ng li lk ci ck A' C' H1 H2)) as (L & K & O).
    split; [exact L|]. split; [|exact (O eq_refl)]. unfold f_g0_2d4d_2c. fold e' in K.
    destruct (rys_order e' <=? 2)%Z eqn:E; [|exact K].
    apply (unrolled_kspec e' A' A' C' C'); [apply ue_2c2e; assumption|lia|right; split; reflexivity|right; split; reflexivity| |].
    + change (lj_ceil e') with 0%Z. lia.
    + change (ll_ceil e') with 0%Z. lia.
Qed.

Section Int.
  Variables (e : envs) (A B C D bi bk : Z -> R) (kern : @rys2e R -> arr R -> option (arr R)).
  Variables (ai aj ak al : R) (rij rkl : Z -> R).
  Hypothesis (Hij : 0 < ai + aj) (Hkl : 0 < ak + al).
  Hypothesis (Hrij : forall ax, (0 <= ax < 3)%Z -> rij ax = (ai * A ax + aj * B ax) / (ai + aj)).
  Hypothesis (Hrkl : forall ax, (0 <= ax < 3)%Z -> rkl ax = (ak * C ax + al * D ax) / (ak + al)).
  Hypothesis (Hnr : (nrys_roots e <= 32)%Z).
  Variables (rys : Z -> R -> nodes).
  Hypothesis (Hrys : forall m y n, (0 <= n < m)%Z -> 0 <= y -> 0 <= fst (rys m y) n).

  Lemma selected_int srys : coulomb_setup e A B C D bi bk kern ->
    (forall m y z n, (0 <= n < m)%Z -> 0 <= y -> 0 <= fst (srys m y z) n) ->
    forall omega cutoff fac g, (4 * g_size e <= asize g)%Z ->
    wp (R_g0_2e rys srys kern e omega cutoff fac ai aj ak al rij rkl bi bk g) (fun bg =>
      let a0 := (ai + aj) * (ak + al) / ((ai + aj) + (ak + al)) in
      let x := a0 * rr3 rij rkl in
      let theta := omega * omega / (omega * omega + a0) in
      (fst bg = false <-> omega < 0 /\ (cutoff < theta * x \/ 40 < theta * x)) /\
      (fst bg = false -> snd bg = g) /\
      (fst bg = true -> Frame (fun p => (0 <= p < 3 * g_size e)%Z) g (snd bg) /\
         exists U W, nodes_2e e ai aj ak al rij rkl rys srys omega fac U W /\
           eri_cells e ai aj ak al A B C D U W (snd bg))).
  Proof.
    intros Hs Hsr omega cutoff fac g Hsz. destruct (coulomb_ok _ _ _ _ _ _ _ _ Hs) as (L & K & Ho).
    eapply wp_mono; [exact (g0_2e_ok e ai aj ak al A B C D bi bk kern L K Hij Hkl rij rkl Hnr Ho rys srys Hrys Hsr omega cutoff fac g Hsz)|].
    intros bg (H1 & H2 & H3). cbv zeta in *. split; [exact H1|]. split; [exact H2|]. intros Hb.
    destruct (H3 Hb) as (HF & U & W & HN & HU & HC). split; [exact HF|]. exists U, W. split; [exact HN|].
    exact (tabn_cells e ai aj ak al A B C D Hij Hkl rij rkl Hrij Hrkl U W _ HU HC).
  Qed.
End Int.
