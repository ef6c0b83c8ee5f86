(** Rec2Kern.v — the environments of the two-electron drivers and what their kernels compute. *)
From Coq Require Import Reals Lra Psatz.
From Verif Require Import Base EnvModel RecModel RecSpec RecMoments RecLay FillProof Rec2Proof HrrProof Rec2Final
  GaussInt Rec1Real Gauss2Int Rec2RModel Rec2Spec Rec2Real OpProof OpSpec OpReal.
Local Open Scope R_scope.

(** CINTg0_2e_lj2d4d, _kj2d4d, _il2d4d, _ik2d4d (g2e.c:4400-4422) with rirj and rkrl as the
    initialisers set them (g2e.c:97-171, g3c2e.c:98-131, g2e_f12.c:95-158). *)
Definition rys_kern (e : envs) (A B C D : Z -> R) (bc : @rys2e R) (g : arr R) : option (arr R) :=
  g <- g0_2e_2d 1 Rplus Rmult IZR e bc g ;;
  g0_2d_4d Rplus Rmult e (base_diff Rminus (ibase e) A B) (base_diff Rminus (kbase e) C D) g.

(** The environments that run the Rys recurrences, with the centres of the four index slots, the
    centres rx_in_rijrx, rx_in_rklrx and the generic kernel.  The auxiliary shell of a 3c2e
    integral sits in slot l (its s-type partner in slot k has the same centre, g3c2e.c:98-131); a
    2c2e integral uses slots i and k and no transfer (g2c2e.c:60-120).  The flag marks the environment of
    the Yukawa and Slater kernels, which never sets rys_order (g2e_f12.c:21-153). *)
Inductive rys_setup : bool -> envs -> (Z -> R) -> (Z -> R) -> (Z -> R) -> (Z -> R) -> (Z -> R) -> (Z -> R) ->
    (@rys2e R -> arr R -> option (arr R)) -> Prop :=
| setup_2e om ng li lj lk ll ci cj ck cl A B C D :
    (0 <= li + IINC ng)%Z -> (0 <= lj + JINC ng)%Z -> (0 <= lk + KINC ng)%Z -> (0 <= ll + LINC ng)%Z ->
    let e := init_int2e om ng li lj lk ll ci cj ck cl in
    rys_setup false e A B C D (if (li + IINC ng >? lj + JINC ng)%Z then A else B)
                        (if (lk + KINC ng >? ll + LINC ng)%Z then C else D) (rys_kern e A B C D)
| setup_yp ng li lj lk ll ci cj ck cl A B C D :
    (0 <= li + IINC ng)%Z -> (0 <= lj + JINC ng)%Z -> (0 <= lk + KINC ng)%Z -> (0 <= ll + LINC ng)%Z ->
    let e := init_int2e_yp ng li lj lk ll ci cj ck cl in
    rys_setup true e A B C D (if (li + IINC ng >? lj + JINC ng)%Z then A else B)
                        (if (lk + KINC ng >? ll + LINC ng)%Z then C else D) (rys_kern e A B C D)
| setup_3c2e om ng li lj lk ci cj ck A B C :
    (0 <= li + IINC ng)%Z -> (0 <= lj + JINC ng)%Z -> (0 <= lk + KINC ng)%Z ->
    let e := init_int3c2e om ng li lj lk ci cj ck in
    rys_setup false e A B C C (if (li + IINC ng >? lj + JINC ng)%Z then A else B) C (rys_kern e A B C C)
| setup_2c2e om ng li lk ci ck A C :
    (0 <= li + IINC ng)%Z -> (0 <= lk + KINC ng)%Z ->
    let e := init_int2c2e om ng li lk ci ck in
    rys_setup false e A A C C A C (g0_2e_2d 1 Rplus Rmult IZR e).

Lemma sr_roots_cases om x : sr_roots om x = x \/ sr_roots om x = (x + x)%Z.
Proof. unfold sr_roots. destruct (om && (x <=? 3)%Z); lia. Qed.

Lemma sr_roots_pos om x : (0 < x)%Z -> (0 < sr_roots om x)%Z.
Proof. destruct (sr_roots_cases om x) as [->| ->]; lia. Qed.


Lemma rlay_lay0 e : rlay e -> (0 < nrys_roots e)%Z -> lay0 e.
Proof.
  intros [] Hn.
  assert (HB : forall n i j k l, inbox e n i j k l -> box4 e (top_i e) (top_k e) (top_l e) (top_j e) (n, i, k, l, j)).
  { intros n i j k l (H1 & H2 & H3 & H4 & H5). unfold box4, top_i, top_j, top_k, top_l. destruct (ibase e), (kbase e); lia. }
  assert (HA : forall n i j k l, adr4 e (n, i, k, l, j) = adrs e n i j k l) by (intros; unfold adr4, adrs; lia).
  split; try assumption.
  - intros n i j k l n' i' j' k' l' H H' E. rewrite <- !HA in E.
    specialize (rl_inj _ _ (HB _ _ _ _ _ H) (HB _ _ _ _ _ H') E). injection rl_inj. auto.
  - intros n i j k l H. rewrite <- HA. apply rl_bnd, HB, H.
  - split; [exact Hn|].
    assert (H : inbox e (nrys_roots e - 1) 0 0 0 0) by (unfold inbox; lia).
    specialize (rl_bnd _ (HB _ _ _ _ _ H)). unfold adr4 in rl_bnd. lia.
Qed.

Lemma rlay_kspec e A B C D bi bk : rlay e ->
  bi = (if ibase e then A else B) -> bk = (if kbase e then C else D) ->
  kspec e A B C D bi bk (rys_kern e A B C D).
Proof.
  intros L -> -> bc P Q q10 q01 q00 S w m0 HS Hq Hc Hsz HW. unfold rys_kern.
  eapply wp_mono; [apply (rys_full_ok 0 1 Rplus Rmult Rminus Ropp IZR RTheory eq_refl IZR_S e L A B C D P Q q10 q01 q00 S HS bc _ _ w m0)|].
  - exact Hq.
  - intros ax n Hax Hn. destruct (Hc ax n Hax Hn) as (E1 & E2 & E3).
    split; [rewrite E1; destruct (ibase e); reflexivity|]. split; [rewrite E2; destruct (kbase e); reflexivity|exact E3].
  - reflexivity.
  - reflexivity.
  - exact Hsz.
  - intros n Hn. rewrite <- (HW n Hn). f_equal. lia.
  - intros m [H1 H2]. split; [|exact H2]. intros ax n i j k l Hax (B1 & B2 & B3 & B4 & B5). unfold adrs. apply H1; assumption.
Qed.

Section TwoC.
  Variables (om : bool) (ng : ngT) (li lk ci ck : Z).
  Hypothesis (Hi : (0 <= li + IINC ng)%Z) (Hk : (0 <= lk + KINC ng)%Z).
  Let e := init_int2c2e om ng li lk ci ck.

  Lemma nr2c_pos : (0 < nrys_roots e)%Z.
  Proof. unfold e, init_int2c2e. cbn [nrys_roots]. apply sr_roots_pos. pose proof (Z.quot_pos (li + IINC ng + (lk + KINC ng)) 2). lia. Qed.

  Lemma lay0_2c2e : lay0 e.
  Proof.
    pose proof nr2c_pos as Hn. unfold e, init_int2c2e in *. cbv zeta in *. cbn [nrys_roots] in Hn.
    set (nr := sr_roots _ _) in *. clearbody nr. set (di := (li + IINC ng + 1)%Z) in *. set (dk := (lk + KINC ng + 1)%Z) in *.
    assert (1 <= di /\ 1 <= dk)%Z by lia.
    assert (G1 : (nr <= nr * di)%Z) by nia. assert (G2 : (nr * di <= nr * di * dk)%Z) by nia.
    split; cbn [li_ceil lj_ceil lk_ceil ll_ceil g_size nrys_roots]; try lia; try nia.
    - intros n i j k l n' i' j' k' l'. unfold inbox, adrs. cbn [li_ceil lj_ceil lk_ceil ll_ceil g_size nrys_roots g_stride_i g_stride_j g_stride_k g_stride_l].
      intros (H1 & H2 & H3 & H4 & H5) (H1' & H2' & H3' & H4' & H5') E.
      assert (j = 0 /\ l = 0 /\ j' = 0 /\ l' = 0)%Z as (-> & -> & -> & ->) by lia.
      destruct (radix5_inj nr di dk 1 n i k 0 0 n' i' k' 0 0) as (-> & -> & -> & _ & _); try lia; auto.
    - intros n i j k l. unfold inbox, adrs. cbn [li_ceil lj_ceil lk_ceil ll_ceil g_size nrys_roots g_stride_i g_stride_j g_stride_k g_stride_l].
      intros (H1 & H2 & H3 & H4 & H5). assert (j = 0 /\ l = 0)%Z as (-> & ->) by lia.
      pose proof (radix5_bound nr di dk 1 1 n i k 0 0). lia.
  Qed.

  Lemma kspec_2c2e A C : kspec e A A C C A C (g0_2e_2d 1 Rplus Rmult IZR e).
  Proof.
    intros bc P Q q10 q01 q00 S w m0 HS Hq Hc Hsz HW. destruct (lay0_2c2e) as [].
    eapply wp_mono; [apply (g0_2e_2d_ok 0 1 Rplus Rmult Rminus Ropp IZR RTheory eq_refl IZR_S e bc) with (w := w) (S := fun ax n a b => S ax n a 0%Z b 0%Z)|].
    - intros [[n a] b] [[n' a'] b'] (H1 & H2 & H3) (H1' & H2' & H3') E.
      destruct (l0_inj n a 0%Z b 0%Z n' a' 0%Z b' 0%Z) as (-> & -> & _ & -> & _); auto.
      + unfold inbox, e, init_int2c2e in *. cbn [li_ceil lj_ceil lk_ceil ll_ceil nrys_roots] in *. lia.
      + unfold inbox, e, init_int2c2e in *. cbn [li_ceil lj_ceil lk_ceil ll_ceil nrys_roots] in *. lia.
      + unfold adr2d in E. unfold adrs, e, init_int2c2e in *. cbn [g_stride_i g_stride_k g_stride_l g_stride_j g2d_ijmax g2d_klmax] in *. lia.
    - intros [[n a] b] (H1 & H2 & H3). specialize (l0_bnd n a 0%Z b 0%Z).
      unfold inbox, adrs, adr2d, e, init_int2c2e in *. cbn [li_ceil lj_ceil lk_ceil ll_ceil nrys_roots g_stride_i g_stride_k g_stride_l g_stride_j g2d_ijmax g2d_klmax g_size] in *. lia.
    - lia.
    - lia.
    - exact l0_gs.
    - change (g2d_ijmax e) with (nrys_roots e). lia.
    - intros ax n Hax Hn. destruct (Hq n Hn) as (-> & -> & ->). destruct (Hc ax n Hax Hn) as (-> & -> & E). split; [|exact E].
      exact (gauss2_ik 0 1 Rplus Rmult Rminus Ropp IZR RTheory eq_refl _ _ _ _ _ _ _ _ (HS ax n Hax Hn)).
    - exact Hsz.
    - intros n Hn. rewrite <- (HW n Hn). f_equal. lia.
    - intros m [H1 H2]. split; [|exact H2]. intros ax n i j k l Hax (B1 & B2 & B3 & B4 & B5).
      change (lj_ceil e) with 0%Z in *. change (ll_ceil e) with 0%Z in *.
      assert (j = 0 /\ l = 0)%Z as (-> & ->) by lia.
      rewrite <- (H1 ax n i k Hax B1) by lia. f_equal. unfold adrs.
      change (g2d_ijmax e) with (g_stride_i e). change (g2d_klmax e) with (g_stride_k e). lia.
  Qed.
End TwoC.

Lemma setup_ok f12 e A B C D bi bk kern : rys_setup f12 e A B C D bi bk kern ->
  lay0 e /\ kspec e A B C D bi bk kern /\ (f12 = false -> rys_order e = nrys_roots e \/ nrys_roots e = rys_order e + rys_order e)%Z.
Proof.
  intros [om ng li lj lk ll ci cj ck cl A' B' C' D' H1 H2 H3 H4 e'|ng li lj lk ll ci cj ck cl A' B' C' D' H1 H2 H3 H4 e'
         |om ng li lj lk ci cj ck A' B' C' H1 H2 H3 e'|om ng li lk ci ck A' C' H1 H2 e'].
  - pose proof (rlay_2e om ng li lj lk ll ci cj ck cl H1 H2 H3 H4) as L. fold e' in L. split; [|split].
    + apply rlay_lay0; [exact L|]. unfold e', init_int2e, init_4c. cbn [nrys_roots]. apply sr_roots_pos.
      pose proof (Z.quot_pos (li + IINC ng + (lj + JINC ng) + (lk + KINC ng) + (ll + LINC ng)) 2). lia.
    + apply rlay_kspec; [exact L|reflexivity|reflexivity].
    + unfold e', init_int2e, init_4c. cbn [nrys_roots rys_order]. destruct (sr_roots_cases om (Z.quot (li + IINC ng + (lj + JINC ng) + (lk + KINC ng) + (ll + LINC ng)) 2 + 1)) as [E|E]; intros _; rewrite E; auto.
  - pose proof (rlay_yp ng li lj lk ll ci cj ck cl H1 H2 H3 H4) as L. fold e' in L. split; [|split].
    + apply rlay_lay0; [exact L|]. unfold e', init_int2e_yp, init_4c. cbn [nrys_roots].
      pose proof (Z.quot_pos (li + IINC ng + (lj + JINC ng) + (lk + KINC ng) + (ll + LINC ng) + 3) 2).
      pose proof (Z.quot_str_pos (li + IINC ng + (lj + JINC ng) + (lk + KINC ng) + (ll + LINC ng) + 3) 2). lia.
    + apply rlay_kspec; [exact L|reflexivity|reflexivity].
    + discriminate.
  - pose proof (rlay_3c2e om ng li lj lk ci cj ck H1 H2 H3) as L. fold e' in L. split; [|split].
    + apply rlay_lay0; [exact L|]. unfold e', init_int3c2e. cbn [nrys_roots]. apply sr_roots_pos.
      pose proof (Z.quot_pos (li + IINC ng + (lj + JINC ng) + (lk + KINC ng)) 2). lia.
    + apply rlay_kspec; [exact L|reflexivity|destruct (kbase e'); reflexivity].
    + unfold e', init_int3c2e. cbn [nrys_roots rys_order]. destruct (sr_roots_cases om (Z.quot (li + IINC ng + (lj + JINC ng) + (lk + KINC ng)) 2 + 1)) as [E|E]; intros _; rewrite E; auto.
  - split; [|split].
    + apply lay0_2c2e; assumption.
    + apply kspec_2c2e; assumption.
    + unfold e', init_int2c2e. cbn [nrys_roots rys_order]. destruct (sr_roots_cases om (Z.quot (li + IINC ng + (lk + KINC ng)) 2 + 1)) as [E|E]; intros _; rewrite E; auto.
Qed.

(** ** Statements used by PropsRec2 *)
Local Open Scope Z_scope.
(** environments with four (or, for 3c2e, three) index slots and a transfer step *)
Inductive four_env : envs -> Prop :=
| fe_2e om ng li lj lk ll ci cj ck cl :
    0 <= li + IINC ng -> 0 <= lj + JINC ng -> 0 <= lk + KINC ng -> 0 <= ll + LINC ng ->
    four_env (init_int2e om ng li lj lk ll ci cj ck cl)
| fe_yp ng li lj lk ll ci cj ck cl :
    0 <= li + IINC ng -> 0 <= lj + JINC ng -> 0 <= lk + KINC ng -> 0 <= ll + LINC ng ->
    four_env (init_int2e_yp ng li lj lk ll ci cj ck cl)
| fe_4c1e ng li lj lk ll ci cj ck cl :
    0 <= li + IINC ng -> 0 <= lj + JINC ng -> 0 <= lk + KINC ng -> 0 <= ll + LINC ng ->
    four_env (init_int4c1e ng li lj lk ll ci cj ck cl)
| fe_3c2e om ng li lj lk ci cj ck :
    0 <= li + IINC ng -> 0 <= lj + JINC ng -> 0 <= lk + KINC ng ->
    four_env (init_int3c2e om ng li lj lk ci cj ck).
Lemma four_rlay e : four_env e -> rlay e.
Proof. intros []; [apply rlay_2e|apply rlay_yp|apply rlay_4c1e|apply rlay_3c2e]; assumption. Qed.
(** all environments that run the two-index recurrence *)
Inductive rec_env : envs -> Prop :=
| re_four e : four_env e -> rec_env e
| re_2c2e om ng li lk ci ck : 0 <= li + IINC ng -> 0 <= lk + KINC ng -> rec_env (init_int2c2e om ng li lk ci ck).

Section Gen.
  Context {F : Type} (zero one : F) (add mul sub : F -> F -> F) (opp : F -> F) (inj : Z -> F).
  Hypothesis RT : ring_theory zero one add mul sub opp (@eq F).
  Hypothesis inj0 : inj 0 = zero.
  Hypothesis injS : forall i, 0 <= i -> inj (i + 1) = add (inj i) one.

  Lemma rec_env_2d e (bc : @rys2e F) S w (m0 : arr F) : rec_env e ->
    (forall ax n, 0 <= ax < 3 -> 0 <= n < nrys_roots e ->
       moments2 add mul inj (b10 bc n) (b01 bc n) (b00 bc n) (c00 bc ax n) (c0p bc ax n) (S ax n) /\
       S ax n 0 0 = origin one (w n) ax) ->
    4 * g_size e <= asize m0 ->
    (forall n, 0 <= n < nrys_roots e -> rd m0 (2 * g_size e + n) = Some (w n)) ->
    wp (g0_2e_2d one add mul inj e bc m0) (fun m =>
      (forall ax n a b, 0 <= ax < 3 -> 0 <= n < nrys_roots e -> 0 <= a <= li_ceil e + lj_ceil e -> 0 <= b <= lk_ceil e + ll_ceil e ->
         rd m (ax * g_size e + (n + g2d_ijmax e * a + g2d_klmax e * b)) = Some (S ax n a b)) /\
      Frame (fun p => 0 <= p < 3 * g_size e) m0 m).
  Proof.
    intros [e' H|om ng li lk ci ck Hi Hk] HS Hsz Hw.
    - apply (rys_2d_ok zero one add mul sub opp inj RT inj0 injS e' (four_rlay e' H) bc S w m0); assumption.
    - destruct (lay0_2c2e om ng li lk ci ck Hi Hk) as [].
      apply (g0_2e_2d_ok zero one add mul sub opp inj RT inj0 injS (init_int2c2e om ng li lk ci ck) bc) with (w := w); try assumption.
      + intros [[n a] b] [[n' a'] b'] (H1 & H2 & H3) (H1' & H2' & H3') E.
        destruct (l0_inj n a 0 b 0 n' a' 0 b' 0) as (-> & -> & _ & -> & _); auto.
        * unfold inbox, init_int2c2e in *. cbn [li_ceil lj_ceil lk_ceil ll_ceil nrys_roots] in *. lia.
        * unfold inbox, init_int2c2e in *. cbn [li_ceil lj_ceil lk_ceil ll_ceil nrys_roots] in *. lia.
        * unfold adr2d in E. unfold adrs, init_int2c2e in *. cbn [g_stride_i g_stride_k g_stride_l g_stride_j g2d_ijmax g2d_klmax] in *. lia.
      + intros [[n a] b] (H1 & H2 & H3). specialize (l0_bnd n a 0 b 0).
        unfold inbox, adrs, adr2d, init_int2c2e in *. cbn [li_ceil lj_ceil lk_ceil ll_ceil nrys_roots g_stride_i g_stride_k g_stride_l g_stride_j g2d_ijmax g2d_klmax g_size] in *. lia.
      + lia.
      + lia.
      + change (g2d_ijmax (init_int2c2e om ng li lk ci ck)) with (nrys_roots (init_int2c2e om ng li lk ci ck)). lia.
  Qed.
End Gen.

Local Open Scope R_scope.
Section Fin.
  Variables (e : envs) (A B C D bi bk : Z -> R) (kern : @rys2e R -> arr R -> option (arr R)).
  Variables (ai aj ak al : R) (rij rkl : Z -> R).
  Hypothesis (Hij : 0 < ai + aj) (Hkl : 0 < ak + al).
  Hypothesis (Hrij : forall ax, (0 <= ax < 3)%Z -> rij ax = (ai * A ax + aj * B ax) / (ai + aj)).
  Hypothesis (Hrkl : forall ax, (0 <= ax < 3)%Z -> rkl ax = (ak * C ax + al * D ax) / (ak + al)).
  Hypothesis (Hnr : (nrys_roots e <= 32)%Z).
  Variables (rys : Z -> R -> nodes).
  Hypothesis (Hrys : forall m y n, (0 <= n < m)%Z -> 0 <= y -> 0 <= fst (rys m y) n).

  Lemma g0_2e_int srys : rys_setup false e A B C D bi bk kern ->
    (forall m y z n, (0 <= n < m)%Z -> 0 <= y -> 0 <= fst (srys m y z) n) ->
    forall omega cutoff fac g, (4 * g_size e <= asize g)%Z ->
    wp (R_g0_2e rys srys kern e omega cutoff fac ai aj ak al rij rkl bi bk g) (fun bg =>
      let a0 := (ai + aj) * (ak + al) / ((ai + aj) + (ak + al)) in
      let x := a0 * rr3 rij rkl in
      let theta := omega * omega / (omega * omega + a0) in
      (fst bg = false <-> omega < 0 /\ (cutoff < theta * x \/ 40 < theta * x)) /\
      (fst bg = false -> snd bg = g) /\
      (fst bg = true -> Frame (fun p => (0 <= p < 3 * g_size e)%Z) g (snd bg) /\
         exists U W, nodes_2e e ai aj ak al rij rkl rys srys omega fac U W /\
           eri_cells e ai aj ak al A B C D U W (snd bg))).
  Proof.
    intros Hs Hsr omega cutoff fac g Hsz. destruct (setup_ok _ _ _ _ _ _ _ _ _ Hs) as (L & K & Ho).
    eapply wp_mono; [exact (g0_2e_ok e ai aj ak al A B C D bi bk kern L K Hij Hkl rij rkl Hnr (Ho eq_refl) rys srys Hrys Hsr omega cutoff fac g Hsz)|].
    intros bg (H1 & H2 & H3). cbv zeta in *. split; [exact H1|]. split; [exact H2|]. intros Hb.
    destruct (H3 Hb) as (HF & U & W & HN & HU & HC). split; [exact HF|]. exists U, W. split; [exact HN|].
    exact (tabn_cells e ai aj ak al A B C D Hij Hkl rij rkl Hrij Hrkl U W _ HU HC).
  Qed.

  Lemma g0_2e_f12_int stg f12 : rys_setup f12 e A B C D bi bk kern ->
    (forall m y z n, (0 <= n < m)%Z -> 0 <= y -> 0 < z -> 0 <= fst (stg m y z) n < 1) ->
    forall yp zeta fac g, (4 * g_size e <= asize g)%Z ->
    wp (R_g0_2e_f12 yp rys stg kern e zeta fac ai aj ak al rij rkl bi bk g) (fun bg =>
      fst bg = true /\ Frame (fun p => (0 <= p < 3 * g_size e)%Z) g (snd bg) /\
      exists U W, nodes_f12 e ai aj ak al rij rkl rys stg yp zeta fac U W /\
           eri_cells e ai aj ak al A B C D U W (snd bg)).
  Proof.
    intros Hs Hsr yp zeta fac g Hsz. destruct (setup_ok _ _ _ _ _ _ _ _ _ Hs) as (L & K & _).
    eapply wp_mono; [exact (g0_2e_f12_ok e ai aj ak al A B C D bi bk kern L K Hij Hkl rij rkl Hnr rys Hrys stg Hsr yp zeta fac g Hsz)|].
    intros bg (H1 & HF & U & W & HN & HU & HC). split; [exact H1|]. split; [exact HF|]. exists U, W. split; [exact HN|].
    exact (tabn_cells e ai aj ak al A B C D Hij Hkl rij rkl Hrij Hrkl U W _ HU HC).
  Qed.
End Fin.
