(** SphOut2.v — spherical output on grids and with a Cartesian third index. *)
From Coq Require Import Ring.
From Verif Require Import Base BasModel FblasModel FblasSpec EnvModel OutModel OutSpec OutRules OutProof OutNest SphProof SphOut.

Lemma Pf f l : 0 <= l <= 15 -> f = len_cart l -> 1 <= f /\ 1 <= l * 2 + 1 <= f.
Proof. intros Hl ->. pose proof (sph_le_cart l Hl). lia. Qed.

Section S.
  Context {F : Type} (zero one : F) (add mul sub_ : F -> F -> F) (opp : F -> F).
  Hypothesis Rth : ring_theory zero one add mul sub_ opp eq.
  Context (coef : Z -> F).
  Hypothesis Htab : table_ok zero one coef.
  Notation app := (apply_T zero add mul coef c2s_off len_cart).
  Notation Sssc := (sph_ssc zero add mul coef c2s_off len_cart).
  Notation Sgrid := (sph_grid zero add mul coef c2s_off len_cart).

  Variable sz : Z.
  Variable V : Z -> F -> Prop.
  Variable e : envs.
  Variable dims : arr Z.
  Variables ni nj nk : Z.
  Variable gctr : arr F.
  Variable y : Z -> F.
  Hypothesis Li : 0 <= i_l e <= 15.
  Hypothesis Lj : 0 <= j_l e <= 15.
  Hypothesis Ei : nfi e = len_cart (i_l e).
  Hypothesis Ej : nfj e = len_cart (j_l e).
  Hypothesis Hci : 0 <= i_ctr e.
  Hypothesis Hcj : 0 <= j_ctr e.

  Notation di := (i_l e * 2 + 1).
  Notation dj := (j_l e * 2 + 1).

  (** ** Grids *)
  Section G.
    Variables Ng ngrids : Z.
    Hypothesis D0 : rd dims 0 = Some ni.
    Hypothesis D1 : rd dims 1 = Some nj.
    Hypothesis D2 : rd dims 2 = Some Ng.
    Hypothesis PN : 0 <= ngrids.

    Lemma block_grid {B} bg (K : arr F -> arr F -> arr F -> option B) Q (b1 b2 g : arr F) x :
      let bl := GRID_BLKSIZE * nfi e * dj in
      0 <= bg <= GRID_BLKSIZE ->
      reads g (bg * nf e) x -> nf e = nfi e * nfj e -> asize b1 = bl -> asize b2 = bl ->
      (forall b1' b2' t z, asize b1' = bl -> asize b2' = bl -> reads t (bg * di * dj) z ->
         (forall mi mj m, 0 <= mi < di -> 0 <= mj < dj -> 0 <= m < bg ->
            z ((mj * di + mi) * bg + m) = Sgrid (i_l e) (j_l e) bg x mi mj m) ->
         wp (K b1' b2' t) Q) ->
      wp (ket <- c2s_ket_sph zero add mul coef (j_l e) ;;
          '(b1, t) <- ket b1 g (bg * nfi e) (bg * nfi e) (j_l e) ;;
          '(b2, t) <- sph2e_inner zero add mul coef b2 t (i_l e) bg dj (bg * di) (bg * nfi e) ;; K b1 b2 t) Q.
    Proof.
      intros bl Hbg Hx Hnf S1 S2 HK.
      destruct (Pf _ _ Li Ei) as [P1 P2]. destruct (Pf _ _ Lj Ej) as [P3 P4].
      apply bind_wp2. eapply wp_mono.
      - apply (ket_ok zero one add mul sub_ opp Rth coef Htab (j_l e) (bg * nfi e) x g b1); auto.
        + apply Z.mul_nonneg_nonneg; lia.
        + rewrite <- Ej. replace (bg * nfi e * nfj e) with (bg * nf e) by (rewrite Hnf; ring). exact Hx.
        + intros _. rewrite S1. unfold bl. apply mul_mono; [apply mul_mono; lia|lia].
      - intros [b1' t1] [Hs1 [y1 [Hy1 Hv1]]]. cbn [fst snd] in *.
        apply wp_bind. eapply wp_mono.
        + apply (inner_ok zero one add mul sub_ opp Rth coef Htab (i_l e) bg dj y1 t1 b2); auto; try lia.
          * rewrite <- Ei. exact Hy1.
          * intros _. rewrite S2. unfold bl. apply mul_mono; [apply mul_mono; lia|lia].
        + intros [b2' t2] [Hs2 [y2 [Hy2 Hv2]]]. cbn [fst snd] in *.
          apply (HK b1' b2' t2 y2); try congruence; [exact Hy2|].
          intros mi mj m Hmi Hmj Hm. rewrite Hv2 by lia. unfold sph_grid.
          apply (app_ext zero add mul). intros a Ha. rewrite <- Ei in *.
          replace ((mj * nfi e + a) * bg + m) with (mj * (bg * nfi e) + (a * bg + m)) by ring.
          rewrite Hv1; [|apply rb; lia|lia]. apply (app_ext zero add mul). intros b Hb. f_equal. ring.
    Qed.

    Lemma c2s_sph_1e_grids_puts o :
      nf e = nfi e * nfj e ->
      reads gctr (ngrids * nf e * i_ctr e * j_ctr e) y ->
      (forall t jc ic mj mi m, 0 <= t < for_by_count 0 ngrids GRID_BLKSIZE ->
         0 <= jc < j_ctr e -> 0 <= ic < i_ctr e -> 0 <= mj < dj -> 0 <= mi < di ->
         let go := GRID_BLKSIZE * t in
         let bg := Z.min (ngrids - go) GRID_BLKSIZE in
         0 <= m < bg ->
         let x := o + (((jc * dj + mj) * ni + (ic * di + mi)) * Ng + (go + m)) in
         0 <= x < sz /\ V x (Sgrid (i_l e) (j_l e) bg
           (fun q => y (go * nf e * i_ctr e * j_ctr e + bg * nf e * (jc * i_ctr e + ic) + q)) mi mj m)) ->
      puts sz V (blkO o Ng ni nj ngrids (di * i_ctr e) (dj * j_ctr e) 1)
        (fun out => c2s_sph_1e_grids zero add mul coef out o gctr dims ngrids e).
    Proof.
      intros Hnf Hy H. unfold c2s_sph_1e_grids. rewrite D0, D1, D2. cbn [bind]. cbv zeta.
      destruct (Pf _ _ Li Ei) as [P1 P2]. destruct (Pf _ _ Lj Ej) as [P3 P4].
      assert (Pnf : 0 <= nf e) by (rewrite Hnf; apply Z.mul_nonneg_nonneg; lia).
      set (bl := GRID_BLKSIZE * nfi e * dj).
      pose (J := fun p (s : Z * (arr F * arr F)) => fst s = p /\ asize (fst (snd s)) = bl /\ asize (snd (snd s)) = bl).
      apply puts_run with (I := J 0)
        (J := J (gdone GRID_BLKSIZE ngrids (for_by_count 0 ngrids GRID_BLKSIZE) * nf e * i_ctr e * j_ctr e));
        [|unfold J; cbn; auto].
      eapply putsS_iff; [|intros x; apply (blkO_grids o Ng ni nj di dj (i_ctr e) (j_ctr e) ngrids x); lia].
      apply (nest_grids sz V J (i_ctr e) (j_ctr e) ngrids Hci Hcj PN (nf e)
         (fun t jc ic x => exists j, 0 <= j < dj /\ exists i, 0 <= i < di /\
            exists m, 0 <= m < Z.min (ngrids - (0 + GRID_BLKSIZE * t)) GRID_BLKSIZE /\
            x = (o + Ng * (ni * dj * jc + di * ic) + (0 + GRID_BLKSIZE * t)) + ((j * ni + i) * Ng + m))).
      intros t jc ic Ht Hjc Hic. cbv zeta. intros a [pg [b1 b2]] Ha [Epg [S1 S2]]. cbn [fst snd] in *.
      pose proof (block_start GRID_BLKSIZE ngrids t ltac:(reflexivity) Ht) as Hgo.
      set (go := 0 + GRID_BLKSIZE * t) in *. set (bg := Z.min (ngrids - go) GRID_BLKSIZE) in *.
      assert (Ego : GRID_BLKSIZE * t = go) by (unfold go; ring).
      assert (Hbg : 0 <= bg <= GRID_BLKSIZE /\ go + bg <= ngrids) by (unfold bg, GRID_BLKSIZE in *; lia).
      assert (Hq : 0 <= jc * i_ctr e + ic < i_ctr e * j_ctr e) by (apply rb; lia).
      destruct (gr_bound ngrids go bg (i_ctr e) (j_ctr e) (nf e) (jc * i_ctr e + ic)) as [B1 B2];
        try assumption; try lia.
      eapply (block_grid bg (fun b1 b2 t => r <- dcopy_grids_ij a (o + Ng * (ni * dj * jc + di * ic) + go) t Ng ni nj bg di dj ;;
                 Some (r, (pg + bg * nf e, (b1, b2)))) _ b1 b2 (sub gctr pg) (fun r => y (pg + r))); auto; [lia| |].
      - subst pg. eapply reads_sub; [exact B1|exact B2|exact Hy].
      - intros b1' b2' t' z S1' S2' Ht' Hz. apply wp_bind. eapply wp_mono.
        + apply (dcopy_grids_puts sz V (o + Ng * (ni * dj * jc + di * ic) + go) t' Ng ni nj bg di dj z); [lia|exact Ht'| |exact Ha].
          intros j i m Hj Hi Hm. rewrite Hz by auto.
          specialize (H t jc ic j i m Ht Hjc Hic Hj Hi). cbv zeta in H. rewrite Ego in H. fold bg in H. specialize (H Hm).
          match goal with |- 0 <= ?a < _ /\ _ =>
            replace a with (o + (((jc * dj + j) * ni + (ic * di + i)) * Ng + (go + m))) by ring end.
          rewrite Epg. exact H.
        + intros r Hr. cbn [wp fst snd]. split; [exact Hr|]. unfold J; cbn [fst snd]. split; [lia|auto].
    Qed.
  End G.

  (** ** Cartesian third index; one contraction on i, packed output *)
  Section C.
    Hypothesis Lk : 0 <= k_l e <= 15.
    Hypothesis Ek : nfk e = len_cart (k_l e).
    Hypothesis Hck : 0 <= k_ctr e.
    Hypothesis C1 : i_ctr e = 1.

    Lemma block_ssc {B} (K : arr F -> arr F -> arr F -> option B) Q (b1 b2 g : arr F) x :
      let bl := nfi e * nfk e * dj in
      reads g (nfi e * nfk e * nfj e) x -> asize b1 = bl -> asize b2 = bl ->
      (forall b1' b2' t z, asize b1' = bl -> asize b2' = bl -> reads t (di * nfk e * dj) z ->
         (forall mi mj c, 0 <= mi < di -> 0 <= mj < dj -> 0 <= c < nfk e ->
            z ((mj * nfk e + c) * di + mi) = Sssc (i_l e) (j_l e) (k_l e) x mi mj c) ->
         wp (K b1' b2' t) Q) ->
      wp (ket <- c2s_ket_sph zero add mul coef (j_l e) ;;
          '(b1, t) <- ket b1 g (nfi e * nfk e) (nfi e * nfk e) (j_l e) ;;
          bra <- c2s_bra_sph zero add mul coef (i_l e) ;;
          '(b2, t) <- bra b2 (nfk e * dj) t (i_l e) ;; K b1 b2 t) Q.
    Proof.
      intros bl Hx S1 S2 HK.
      destruct (Pf _ _ Li Ei) as [P1 P2]. destruct (Pf _ _ Lj Ej) as [P3 P4]. destruct (Pf _ _ Lk Ek) as [P5 P6].
      apply bind_wp2. eapply wp_mono.
      - apply (ket_ok zero one add mul sub_ opp Rth coef Htab (j_l e) (nfi e * nfk e) x g b1); auto;
          [nia|rewrite <- Ej; exact Hx|unfold bl in *; lia].
      - intros [b1' t1] [Hs1 [y1 [Hy1 Hv1]]]. cbn [fst snd] in *.
        apply bind_wp2. eapply wp_mono.
        + apply (bra_ok zero one add mul sub_ opp Rth coef Htab (i_l e) (nfk e * dj) y1 t1 b2); auto.
          * apply Z.mul_nonneg_nonneg; lia.
          * rewrite <- Ei. replace (nfi e * (nfk e * dj)) with (nfi e * nfk e * dj) by ring. exact Hy1.
          * intros _. rewrite S2. unfold bl. rewrite Z.mul_assoc. apply mul_mono; [apply mul_mono; lia|lia].
        + intros [b2' t2] [Hs2 [y2 [Hy2 Hv2]]]. cbn [fst snd] in *.
          apply (HK b1' b2' t2 y2); try congruence.
          { rewrite <- Z.mul_assoc. exact Hy2. }
          intros mi mj c Hmi Hmj Hc. rewrite Hv2; [|lia|apply rb; lia]. unfold sph_ssc.
          apply (app_ext zero add mul). intros a Ha. rewrite <- Ei, <- Ek in *.
          replace ((mj * nfk e + c) * nfi e + a) with (mj * (nfi e * nfk e) + (c * nfi e + a)) by ring.
          rewrite Hv1; [|apply rb; lia|lia]. apply (app_ext zero add mul). intros b Hb. f_equal. ring.
    Qed.

    Lemma c2s_sph_ssc_puts o (d : arr Z) :
      nf e = nfi e * nfk e * nfj e ->
      reads gctr (nf e * i_ctr e * j_ctr e * k_ctr e) y ->
      (forall kc jc mk mj mi, 0 <= kc < k_ctr e -> 0 <= jc < j_ctr e ->
         0 <= mk < nfk e -> 0 <= mj < dj -> 0 <= mi < di ->
         let x := o + (((kc * nfk e + mk) * (dj * j_ctr e) + (jc * dj + mj)) * (di * i_ctr e) + mi) in
         0 <= x < sz /\ V x (Sssc (i_l e) (j_l e) (k_l e)
            (fun q => y ((kc * j_ctr e + jc) * nf e + q)) mi mj mk)) ->
      puts sz V (blkO o (di * i_ctr e) (dj * j_ctr e) (nfk e * k_ctr e) (di * i_ctr e) (dj * j_ctr e) (nfk e * k_ctr e) 1)
        (fun out => c2s_sph_3c2e1_ssc zero add mul coef out o gctr d e).
    Proof.
      intros Hnf Hy H. unfold c2s_sph_3c2e1_ssc. cbv zeta.
      destruct (Pf _ _ Li Ei) as [P1 P2]. destruct (Pf _ _ Lj Ej) as [P3 P4]. destruct (Pf _ _ Lk Ek) as [P5 P6].
      assert (Pnf : 0 <= nf e) by (rewrite Hnf; repeat apply Z.mul_nonneg_nonneg; lia).
      set (Ni := di * i_ctr e) in *. set (Nj := dj * j_ctr e) in *. set (Nk := nfk e * k_ctr e) in *.
      set (bl := nfi e * nfk e * dj).
      pose (J := fun p (s : Z * (arr F * arr F)) => fst s = p /\ asize (fst (snd s)) = bl /\ asize (snd (snd s)) = bl).
      apply puts_run with (I := J 0) (J := J (nf e * i_ctr e * j_ctr e * k_ctr e)); [|unfold J; cbn; auto].
      eapply putsS_iff.
      - apply (nest3 sz V J (i_ctr e) (j_ctr e) (k_ctr e) Hci Hcj Hck (nf e)
           (fun kc jc ic x => exists l, 0 <= l < 1 /\ exists k, 0 <= k < nfk e /\ exists j, 0 <= j < dj /\ exists i, 0 <= i < di /\
                  x = o + Ni * Nj * nfk e * kc + Ni * dj * jc + nfi e * ic + (((l * Nk + k) * Nj + j) * Ni + i))).
        intros kc jc ic Hkc Hjc Hic q a [pg [b1 b2]] Ha [Epg [S1 S2]]. cbn [fst snd] in *.
        assert (B : 0 <= q < i_ctr e * j_ctr e * k_ctr e).
        { unfold q. rewrite <- Z.mul_assoc. apply rb; [lia|]. apply rb; lia. }
        assert (B0 : 0 <= pg /\ pg + nfi e * nfk e * nfj e <= nf e * i_ctr e * j_ctr e * k_ctr e).
        { rewrite <- Hnf. replace (nf e * i_ctr e * j_ctr e * k_ctr e) with (nf e * (i_ctr e * j_ctr e * k_ctr e)) by ring.
          apply (pb pg q); [lia|exact Pnf|exact B]. }
        destruct B0 as [B1 B2].
        eapply (block_ssc (fun b1 b2 t => r <- dcopy_iklj a (o + Ni * Nj * nfk e * kc + Ni * dj * jc + nfi e * ic) t Ni Nj Nk 1 di dj (nfk e) 1 ;;
                   Some (r, (pg + nf e, (b1, b2)))) _ b1 b2 (sub gctr pg) (fun r => y (pg + r))); auto.
        + eapply reads_sub; [exact B1|exact B2|exact Hy].
        + intros b1' b2' t z S1' S2' Ht Hz. apply wp_bind. eapply wp_mono.
          * apply (dcopy_iklj_puts sz V (o + Ni * Nj * nfk e * kc + Ni * dj * jc + nfi e * ic) t Ni Nj Nk 1 di dj (nfk e) 1 z); [lia| | |exact Ha].
            -- replace (di * nfk e * 1 * dj) with (di * nfk e * dj) by ring. exact Ht.
            -- intros l k j i Hl Hk Hj Hi. replace l with 0 by lia.
               replace ((j * 1 + 0) * nfk e + k) with (j * nfk e + k) by ring. rewrite Hz by auto.
               specialize (H kc jc k j i Hkc Hjc Hk Hj Hi). cbv zeta in H.
               assert (ic = 0) by lia. subst ic.
               match goal with |- 0 <= ?a < _ /\ _ => replace a with
                  (o + (((kc * nfk e + k) * Nj + (jc * dj + j)) * Ni + i)) by ring end.
               replace pg with ((kc * j_ctr e + jc) * nf e) by (rewrite Epg; unfold q; rewrite C1; ring). exact H.
          * intros r Hr. cbn [wp fst snd]. split; [exact Hr|]. unfold J; cbn [fst snd]. split; [lia|auto].
      - intros x. unfold Ni at 2. unfold Nj at 2. unfold Nk at 2.
        replace (blkO o Ni Nj Nk (di * i_ctr e) (dj * j_ctr e) (nfk e * k_ctr e) 1 x) with
          (blkO o Ni Nj Nk (di * i_ctr e) (dj * j_ctr e) (nfk e * k_ctr e) (1 * 1) x) by reflexivity.
        rewrite blkO_split by lia. split.
        + intros [lc [? [kc [? [jc [? [ic [? [l [? [k [? [j [? [i [? ->]]]]]]]]]]]]]]]].
          exists kc; split; [assumption|]. exists jc; split; [assumption|]. exists ic; split; [assumption|].
          exists l; split; [assumption|]. exists k; split; [assumption|].
          exists j; split; [assumption|]. exists i; split; [assumption|]. replace lc with 0 by lia.
          replace ic with 0 by lia. ring.
        + intros [kc [? [jc [? [ic [? [l [? [k [? [j [? [i [? ->]]]]]]]]]]]]]].
          exists 0; split; [lia|]. exists kc; split; [assumption|]. exists jc; split; [assumption|].
          exists ic; split; [assumption|]. exists l; split; [assumption|]. exists k; split; [assumption|].
          exists j; split; [assumption|]. exists i; split; [assumption|]. replace ic with 0 by lia. ring.
    Qed.
  End C.
End S.
