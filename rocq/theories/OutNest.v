(** OutNest.v — the contraction loops of the output routines, and the blocked grid loop. *)
From Verif Require Import Base BasModel EnvModel OutModel OutSpec OutRules OutProof.

Section N.
  Context {A S : Type}.
  Variable sz : Z.
  Variable V : Z -> A -> Prop.
  Variable J : Z -> S -> Prop.
  Variables ci cj ck cl : Z.
  Hypothesis Hci : 0 <= ci.
  Hypothesis Hcj : 0 <= cj.
  Hypothesis Hck : 0 <= ck.
  Hypothesis Hcl : 0 <= cl.
  Variable step : Z.

  Lemma nest2 (P : Z -> Z -> Z -> Prop) p body :
    (forall jc ic, 0 <= jc < cj -> 0 <= ic < ci ->
       putsS sz V (P jc ic) (J (p + step * (jc * ci + ic))) (J (p + step * (jc * ci + ic) + step)) (body jc ic)) ->
    putsS sz V (fun x => exists jc, 0 <= jc < cj /\ exists ic, 0 <= ic < ci /\ P jc ic x)
      (J p) (J (p + step * ci * cj)) (fun s => for_ 0 cj (fun jc s => for_ 0 ci (fun ic s => body jc ic s) s) s).
  Proof.
    intros H. apply (nest sz V J (fun jc x => exists ic, 0 <= ic < ci /\ P jc ic x)); [exact Hcj|].
    intros jc Hjc. eapply putsS_conv; [|reflexivity|].
    - apply (nest sz V J (fun ic x => P jc ic x)) with (step := step); [exact Hci|].
      intros ic Hic. eapply putsS_conv; [apply H; auto|ring|ring].
    - ring.
  Qed.

  Lemma nest3 (P : Z -> Z -> Z -> Z -> Prop) body :
    (forall kc jc ic, 0 <= kc < ck -> 0 <= jc < cj -> 0 <= ic < ci ->
       let q := (kc * cj + jc) * ci + ic in
       putsS sz V (P kc jc ic) (J (step * q)) (J (step * q + step)) (body kc jc ic)) ->
    putsS sz V (fun x => exists kc, 0 <= kc < ck /\ exists jc, 0 <= jc < cj /\ exists ic, 0 <= ic < ci /\ P kc jc ic x)
      (J 0) (J (step * ci * cj * ck))
      (fun s => for_ 0 ck (fun kc s => for_ 0 cj (fun jc s => for_ 0 ci (fun ic s => body kc jc ic s) s) s) s).
  Proof.
    intros H. eapply putsS_conv; [|reflexivity|symmetry; apply Z.add_0_l].
    apply (nest sz V J (fun kc x => exists jc, 0 <= jc < cj /\ exists ic, 0 <= ic < ci /\ P kc jc ic x)); [exact Hck|].
    intros kc Hkc. eapply putsS_conv; [|reflexivity|].
    - apply (nest2 (P kc) (0 + step * ci * cj * kc) (body kc)).
      intros jc ic Hjc Hic. eapply putsS_conv; [apply H; auto|ring|ring].
    - ring.
  Qed.

  Lemma nest4 (P : Z -> Z -> Z -> Z -> Z -> Prop) body :
    (forall lc kc jc ic, 0 <= lc < cl -> 0 <= kc < ck -> 0 <= jc < cj -> 0 <= ic < ci ->
       let q := ((lc * ck + kc) * cj + jc) * ci + ic in
       putsS sz V (P lc kc jc ic) (J (step * q)) (J (step * q + step)) (body lc kc jc ic)) ->
    putsS sz V (fun x => exists lc, 0 <= lc < cl /\ exists kc, 0 <= kc < ck /\ exists jc, 0 <= jc < cj /\
                  exists ic, 0 <= ic < ci /\ P lc kc jc ic x)
      (J 0) (J (step * ci * cj * ck * cl))
      (fun s => for_ 0 cl (fun lc s => for_ 0 ck (fun kc s => for_ 0 cj (fun jc s => for_ 0 ci (fun ic s =>
         body lc kc jc ic s) s) s) s) s).
  Proof.
    intros H. eapply putsS_conv; [|reflexivity|symmetry; apply Z.add_0_l].
    apply (nest sz V J (fun lc x => exists kc, 0 <= kc < ck /\ exists jc, 0 <= jc < cj /\
       exists ic, 0 <= ic < ci /\ P lc kc jc ic x)); [exact Hcl|].
    intros lc Hlc.
    apply putsS_conv with (p := 0 + step * ci * cj * ck * lc) (q := 0 + step * ci * cj * ck * lc + step * ci * cj * ck); [|reflexivity|ring].
    apply (nest sz V J (fun kc x => exists jc, 0 <= jc < cj /\ exists ic, 0 <= ic < ci /\ P lc kc jc ic x)); [exact Hck|].
    intros kc Hkc. eapply putsS_conv; [|reflexivity|].
    - apply (nest2 (P lc kc) (0 + step * ci * cj * ck * lc + step * ci * cj * kc) (body lc kc)).
      intros jc ic Hjc Hic. eapply putsS_conv; [apply H; auto|ring|ring].
    - ring.
  Qed.
End N.

(** Blocks of [B] grid points: the blocks cover 0..ngrids-1. *)
Lemma blocks_cover B N g : 0 < B -> 
  0 <= g < N <-> exists t, 0 <= t < for_by_count 0 N B /\ exists m, 0 <= m < Z.min (N - (0 + B * t)) B /\ g = (0 + B * t) + m.
Proof.
  intros HB. unfold for_by_count. split.
  - intros Hg. exists (g / B). pose proof (Z.div_mod g B ltac:(lia)). pose proof (Z.mod_pos_bound g B HB).
    assert (0 <= g / B) by (apply Z.div_pos; lia).
    split.
    + split; [lia|]. apply Z.lt_le_trans with (m := (N - 0 + B - 1) / B); [|lia].
      apply Z.le_succ_l. apply Z.div_le_lower_bound; [lia|]. unfold Z.succ. nia.
    + exists (g mod B). split; [|lia]. nia.
  - intros [t [Ht [m [Hm ->]]]]. nia.
Qed.

Lemma block_start B N t : 0 < B -> 0 <= t < for_by_count 0 N B -> 0 <= B * t < N.
Proof.
  intros HB Ht. unfold for_by_count in Ht.
  assert (E : t < (N - 0 + B - 1) / B) by lia.
  assert (B * ((N - 0 + B - 1) / B) <= N - 0 + B - 1) by (apply Z.mul_div_le; lia). nia.
Qed.

(** pointer after [t] blocks *)
Definition gdone (B N t : Z) : Z := Z.min (B * t) N.

Lemma gdone_step B N t : 0 < B -> 0 <= t < for_by_count 0 N B ->
  gdone B N t = B * t /\ gdone B N (t + 1) = B * t + Z.min (N - (0 + B * t)) B.
Proof. intros HB Ht. pose proof (block_start B N t HB Ht). unfold gdone. lia. Qed.

Section Grids.
  Context {A S : Type}.
  Variable sz : Z.
  Variable V : Z -> A -> Prop.
  Variable J : Z -> S -> Prop.
  Variables ci cj N : Z.
  Hypothesis Hci : 0 <= ci.
  Hypothesis Hcj : 0 <= cj.
  Hypothesis HN : 0 <= N.
  Variable unit_ : Z.       (* elements per grid point and contraction *)

  Lemma nest_grids (P : Z -> Z -> Z -> Z -> Prop) body :
    (forall t jc ic, 0 <= t < for_by_count 0 N GRID_BLKSIZE -> 0 <= jc < cj -> 0 <= ic < ci ->
       let go := 0 + GRID_BLKSIZE * t in
       let bg := Z.min (N - go) GRID_BLKSIZE in
       let q := go * unit_ * ci * cj + bg * unit_ * (jc * ci + ic) in
       putsS sz V (P t jc ic) (J q) (J (q + bg * unit_)) (body go jc ic)) ->
    putsS sz V (fun x => exists t, 0 <= t < for_by_count 0 N GRID_BLKSIZE /\
                  exists jc, 0 <= jc < cj /\ exists ic, 0 <= ic < ci /\ P t jc ic x)
      (J 0) (J (gdone GRID_BLKSIZE N (for_by_count 0 N GRID_BLKSIZE) * unit_ * ci * cj))
      (fun s => for_by 0 N GRID_BLKSIZE (fun go s => for_ 0 cj (fun jc s => for_ 0 ci (fun ic s =>
         body go jc ic s) s) s) s).
  Proof.
    intros H. unfold for_by.
    apply putsS_conv with (p := gdone GRID_BLKSIZE N 0 * unit_ * ci * cj)
      (q := gdone GRID_BLKSIZE N (for_by_count 0 N GRID_BLKSIZE) * unit_ * ci * cj);
      [|unfold gdone; rewrite Z.mul_0_r, Z.min_l by lia; reflexivity|reflexivity].
    apply (putsS_for sz V (fun t x => exists jc, 0 <= jc < cj /\ exists ic, 0 <= ic < ci /\ P t jc ic x)
             (fun t => J (gdone GRID_BLKSIZE N t * unit_ * ci * cj))).
    - unfold for_by_count. lia.
    - intros t Ht. destruct (gdone_step GRID_BLKSIZE N t ltac:(reflexivity) Ht) as [E1 E2].
      rewrite E1, E2. set (bg := Z.min (N - (0 + GRID_BLKSIZE * t)) GRID_BLKSIZE).
      eapply putsS_conv; [|reflexivity|].
      + apply (nest2 sz V J ci cj Hci Hcj (bg * unit_) (P t) (GRID_BLKSIZE * t * unit_ * ci * cj) (body (0 + GRID_BLKSIZE * t))).
        intros jc ic Hjc Hic. eapply putsS_conv; [apply H; auto| |]; rewrite Z.add_0_l; reflexivity.
      + ring.
  Qed.
End Grids.

(** the cells of a grid block: (n; j, i, g) *)
Lemma blkO_grids o Ng ni nj d1 d2 ci cj N x : 0 <= d1 -> 0 <= d2 ->
  blkO o Ng ni nj N (d1 * ci) (d2 * cj) 1 x <->
  exists t, 0 <= t < for_by_count 0 N GRID_BLKSIZE /\
    exists jc, 0 <= jc < cj /\ exists ic, 0 <= ic < ci /\
    exists j, 0 <= j < d2 /\ exists i, 0 <= i < d1 /\
    exists m, 0 <= m < Z.min (N - (0 + GRID_BLKSIZE * t)) GRID_BLKSIZE /\
      x = (o + Ng * (ni * d2 * jc + d1 * ic) + (0 + GRID_BLKSIZE * t)) + ((j * ni + i) * Ng + m).
Proof.
  intros P1 P2. unfold blkO. split.
  - intros [i4 [H4 [i3 [H3 [i2 [H2 [g [H1 ->]]]]]]]].
    apply split_idx in H2; [|assumption]. apply split_idx in H3; [|assumption].
    apply (blocks_cover GRID_BLKSIZE) in H1; [|reflexivity].
    destruct H1 as [t [? [m [? ->]]]]. destruct H2 as [ic [? [i [? ->]]]].
    destruct H3 as [jc [? [j [? ->]]]].
    exists t; split; [assumption|]. exists jc; split; [assumption|]. exists ic; split; [assumption|].
    exists j; split; [assumption|]. exists i; split; [assumption|]. exists m; split; [assumption|].
    replace i4 with 0 by lia. ring.
  - intros [t [? [jc [? [ic [? [j [? [i [? [m [? ->]]]]]]]]]]]].
    exists 0; split; [lia|]. exists (jc * d2 + j); split; [apply split_idx; [assumption|eauto]|].
    exists (ic * d1 + i); split; [apply split_idx; [assumption|eauto]|].
    exists (0 + GRID_BLKSIZE * t + m); split; [apply (blocks_cover GRID_BLKSIZE); [reflexivity|eauto]|]. ring.
Qed.

Section CartGrids.
  Context {A : Type}.
  Variable sz : Z.
  Variable V : Z -> A -> Prop.
  Variable e : envs.
  Variable dims : arr Z.
  Variables ni nj Ng ngrids : Z.
  Hypothesis D0 : rd dims 0 = Some ni.
  Hypothesis D1 : rd dims 1 = Some nj.
  Hypothesis D2 : rd dims 2 = Some Ng.
  Variable gctr : arr A.
  Variable y : Z -> A.
  Hypothesis Hci : 0 <= i_ctr e.
  Hypothesis Hcj : 0 <= j_ctr e.
  Hypothesis Pfi : 0 <= nfi e.
  Hypothesis Pfj : 0 <= nfj e.
  Hypothesis PN : 0 <= ngrids.

  Lemma gr_bound go bg ci cj u q0 : 0 <= go -> 0 <= bg -> go + bg <= ngrids -> 0 <= ci -> 0 <= cj -> 0 <= u ->
    0 <= q0 < ci * cj ->
    0 <= go * u * ci * cj + bg * u * q0 /\
    go * u * ci * cj + bg * u * q0 + bg * u <= ngrids * u * ci * cj.
  Proof.
    intros Hgo Hbg Hs Pci Pcj Pu Hq.
    assert (0 <= ci * cj) by nia. set (C := ci * cj) in *.
    replace (go * u * ci * cj) with (go * u * C) by (unfold C; ring).
    replace (ngrids * u * ci * cj) with (ngrids * u * C) by (unfold C; ring).
    assert (H0 : 0 <= go * u) by nia. assert (H1 : 0 <= bg * u) by nia.
    assert (H2 : go * u + bg * u <= ngrids * u) by nia.
    set (gu := go * u) in *. set (bu := bg * u) in *. set (nu := ngrids * u) in *. clearbody gu bu nu.
    assert (bu * q0 + bu <= bu * C) by nia. nia.
  Qed.

  Lemma c2s_cart_1e_grids_puts o :
    nf e = nfi e * nfj e ->
    reads gctr (ngrids * nf e * i_ctr e * j_ctr e) y ->
    (forall t jc ic j i m, 0 <= t < for_by_count 0 ngrids GRID_BLKSIZE ->
       0 <= jc < j_ctr e -> 0 <= ic < i_ctr e -> 0 <= j < nfj e -> 0 <= i < nfi e ->
       let go := GRID_BLKSIZE * t in
       let bg := Z.min (ngrids - go) GRID_BLKSIZE in
       0 <= m < bg ->
       let x := o + (((jc * nfj e + j) * ni + (ic * nfi e + i)) * Ng + (go + m)) in
       0 <= x < sz /\ V x (y (go * nf e * i_ctr e * j_ctr e + bg * nf e * (jc * i_ctr e + ic) + ((j * nfi e + i) * bg + m)))) ->
    puts sz V (blkO o Ng ni nj ngrids (nfi e * i_ctr e) (nfj e * j_ctr e) 1)
      (fun out => c2s_cart_1e_grids out o gctr dims ngrids e).
  Proof.
    intros Hnf Hy H. unfold c2s_cart_1e_grids. rewrite D0, D1, D2. cbn [bind]. cbv zeta.
    assert (Pnf : 0 <= nf e) by (rewrite Hnf; apply Z.mul_nonneg_nonneg; assumption).
    eapply puts_run with (I := fun s => s = 0); [|reflexivity].
    eapply putsS_iff; [|intros x; apply (blkO_grids o Ng ni nj (nfi e) (nfj e) (i_ctr e) (j_ctr e) ngrids x Pfi Pfj)].
    apply (nest_grids sz V (fun p s => s = p) (i_ctr e) (j_ctr e) ngrids Hci Hcj PN (nf e)
       (fun t jc ic x => exists j, 0 <= j < nfj e /\ exists i, 0 <= i < nfi e /\
          exists m, 0 <= m < Z.min (ngrids - (0 + GRID_BLKSIZE * t)) GRID_BLKSIZE /\
          x = (o + Ng * (ni * nfj e * jc + nfi e * ic) + (0 + GRID_BLKSIZE * t)) + ((j * ni + i) * Ng + m))
       (fun go jc ic s => let '(out, pg) := s in
          out <- dcopy_grids_ij out (o + Ng * (ni * nfj e * jc + nfi e * ic) + go) (sub gctr pg)
                      Ng ni nj (Z.min (ngrids - go) GRID_BLKSIZE) (nfi e) (nfj e) ;;
          Some (out, pg + Z.min (ngrids - go) GRID_BLKSIZE * nf e))).
    intros t jc ic Ht Hjc Hic. cbv zeta. intros a s Ha ->. apply wp_bind.
    pose proof (block_start GRID_BLKSIZE ngrids t ltac:(reflexivity) Ht) as Hgo.
    set (go := 0 + GRID_BLKSIZE * t) in *. set (bg := Z.min (ngrids - go) GRID_BLKSIZE) in *.
    assert (Ego : GRID_BLKSIZE * t = go) by (unfold go; ring).
    assert (Hbg : 0 <= bg /\ go + bg <= ngrids) by (unfold bg, GRID_BLKSIZE in *; lia).
    destruct (gr_bound go bg (i_ctr e) (j_ctr e) (nf e) (jc * i_ctr e + ic)) as [B1 B2];
      try lia; [nia|].
    eapply wp_mono.
    - eapply (dcopy_grids_puts sz V); [exact Pfj| | |exact Ha].
      + eapply reads_sub; [exact B1| |exact Hy].
        replace (bg * nfi e * nfj e) with (bg * nf e) by (rewrite Hnf; ring). exact B2.
      + intros j i m Hj Hi Hm. cbv beta.
        specialize (H t jc ic j i m Ht Hjc Hic Hj Hi). cbv zeta in H. rewrite Ego in H.
        fold bg in H. specialize (H Hm).
        match goal with |- 0 <= ?a < _ /\ _ =>
          replace a with (o + (((jc * nfj e + j) * ni + (ic * nfi e + i)) * Ng + (go + m))) by ring end.
        exact H.
    - intros b Hb. cbn [wp fst snd]. split; [exact Hb|reflexivity].
  Qed.
End CartGrids.
