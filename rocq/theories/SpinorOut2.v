(** SpinorOut2.v — spinor output of three-centre integrals with spherical k, and the two
    stages of the two-electron integrals. *)
From Coq Require Import Ring.
From Verif Require Import Base BasModel EnvModel OutModel OutSpec OutRules OutProof OutNest SphProof SphOut OutFinal OutBad
  SpinorModel SpinorSpec SpinorFill SpinorBra SpinorKet SpinorConv SpinorOut.

Section O2.
  Context {F : Type} (zero one : F) (add mul sub_ : F -> F -> F) (opp : F -> F).
  Hypothesis Rth : ring_theory zero one add mul sub_ opp eq.
  Context (tJR tJI : Z -> F) (isz : F -> bool).
  Hypothesis Hisz : forall x, isz x = true -> x = zero.
  Notation Bra := (bra_spinor zero one add mul sub_ opp tJR tJI).
  Notation Ket := (ket_spinor zero add mul sub_ tJR tJI).
  Notation Pair := (spinor_pair zero one add mul sub_ opp tJR tJI).
  Notation Phase := (with_phase zero one add mul sub_).
  Notation BraY := (braY zero one add mul sub_ opp tJR tJI).
  Notation real_in := (real_in zero).
  Notation cr := (cre zero).

  Lemma pair_ext kpi li kpj lj mi mj v w :
    (forall a b, 0 <= a < ncart li -> 0 <= b < ncart lj -> v a b = w a b) ->
    Pair kpi li kpj lj mi mj v = Pair kpi li kpj lj mi mj w.
  Proof.
    intros H. unfold spinor_pair, ket_spinor, bra_spinor. apply csum_ext. intros b Hb. apply csum_ext. intros s Hs. f_equal.
    apply csum_ext. intros c Hc. apply csum_ext. intros s' Hs'. rewrite H by assumption. reflexivity.
  Qed.

  (** ** bra transforms of separate component arrays *)
  Section Sep.
    Variables (kappa l nket : Z).
    Hypothesis Hl : 0 <= l <= 12.
    Hypothesis Hnk : 0 <= nket.
    Let nf := len_cart l.
    Let nd := len_spinor kappa l.

    Lemma fill_reads v aR aI (c : option (arr F * arr F)) :
      nd * (nket * 2) <= asize aR -> nd * (nket * 2) <= asize aI ->
      wp c (Fill (get4 (nket * (nd * 1))) emb4 (dom4 (nket * (nd * 1))) (rest4 (nket * (nd * 1))) (fun x => 0 <= x < nket * (nd * 1))
           (bsum zero add kappa l 1 (bT zero one add mul sub_ opp tJR tJI kappa l v) nf) (aR, aI)) ->
      wp c (fun r => asize (fst r) = asize aR /\ asize (snd r) = asize aI /\
              reads2 (fst r) (snd r) (nd * (nket * 2)) (BraY kappa l 1 nket v)).
    Proof.
      intros S1 S2 H. eapply wp_mono; [exact H|]. intros [rR rI] Hr. cbn [fst snd].
      apply (bra_reads zero one add mul sub_ opp tJR tJI kappa l 1 nket) in Hr; auto; [|lia|fold nd; lia|fold nd; lia].
      fold nd in Hr. replace (nd * (nket * 2)) with (nket * (nd * 1) * 2) by ring. tauto.
    Qed.

    Lemma bra_si_reads gx gy gz g1 X Y Z1 A1 aR aI :
      reads gx (nket * nf) X -> reads gy (nket * nf) Y -> reads gz (nket * nf) Z1 -> reads g1 (nket * nf) A1 ->
      nd * (nket * 2) <= asize aR -> nd * (nket * 2) <= asize aI ->
      wp (a_bra_cart2spinor_si zero add mul sub_ opp tJR tJI aR aI gx gy gz g1 nket kappa l)
         (fun r => asize (fst r) = asize aR /\ asize (snd r) = asize aI /\
            reads2 (fst r) (snd r) (nd * (nket * 2))
              (BraY kappa l 1 nket (fun q => mkcomps (cr (X q)) (cr (Y q)) (cr (Z1 q)) (cr (A1 q))))).
    Proof.
      intros H1 H2 H3 H4 S1 S2. apply fill_reads; try assumption.
      apply (bra_fill zero add tJR tJI); auto; [|fold nd; lia|fold nd; lia]. intros i n q Hi Hn Hq.
      apply (si_ok zero one add mul sub_ opp Rth tJR tJI kappa l 1 nket); auto; try (rewrite Z.mul_1_r; assumption); lia.
    Qed.
    Lemma bra_sf_reads g1 A1 aR aI : reads g1 (nket * nf) A1 ->
      nd * (nket * 2) <= asize aR -> nd * (nket * 2) <= asize aI ->
      wp (a_bra_cart2spinor_sf zero add mul opp tJR tJI aR aI g1 nket kappa l)
         (fun r => asize (fst r) = asize aR /\ asize (snd r) = asize aI /\
            reads2 (fst r) (snd r) (nd * (nket * 2)) (BraY kappa l 1 nket (fun q => scalar zero (cr (A1 q))))).
    Proof.
      intros H4 S1 S2. apply fill_reads; try assumption.
      apply (bra_fill zero add tJR tJI); auto; [|fold nd; lia|fold nd; lia]. intros i n q Hi Hn Hq.
      apply (sf_ok zero one add mul sub_ opp Rth tJR tJI kappa l 1 nket); auto; try (rewrite Z.mul_1_r; assumption); lia.
    Qed.
  End Sep.

  Context (coef : Z -> F).
  Hypothesis Htab : table_ok zero one coef.
  Notation app := (apply_T zero add mul coef c2s_off len_cart).
  (** input with the k index made spherical *)
  Definition sphk_in (spin : bool) (y : Z -> F) (pg dist lk fi a k b : Z) : comps (F := F) :=
    let T p := cr (app lk k (fun c => y (p + ((b * len_cart lk + c) * fi + a)))) in
    if spin then mkcomps (T pg) (T (pg + dist)) (T (pg + dist + dist)) (T (pg + dist + dist + dist)) else scalar zero (T pg).

  Variable sz : Z.
  Variable V : Z -> F -> Prop.
  Variable e : envs.
  Variables (spin phase : bool) (i_kp j_kp : Z).
  Variable dims : arr Z.
  Variables ni nj nk nl : Z.
  Hypothesis D0 : rd dims 0 = Some ni.
  Hypothesis D1 : rd dims 1 = Some nj.
  Variable gctr : arr F.
  Variable y : Z -> F.
  Hypothesis Li : 0 <= i_l e <= 12.
  Hypothesis Lj : 0 <= j_l e <= 12.
  Hypothesis Ei : nfi e = len_cart (i_l e).
  Hypothesis Ej : nfj e = len_cart (j_l e).
  Hypothesis Hci : 0 <= i_ctr e.
  Hypothesis Hcj : 0 <= j_ctr e.
  Notation di := (len_spinor i_kp (i_l e)).
  Notation dj := (len_spinor j_kp (j_l e)).
  Notation dk := (k_l e * 2 + 1).
  Hypothesis D2 : rd dims 2 = Some nk.
  Hypothesis Hck : 0 <= k_ctr e.
  Hypothesis Lk : 0 <= k_l e <= 15.
  Hypothesis Ek : nfk e = len_cart (k_l e).

  Definition k1 (p : Z) (z : Z -> F) : Prop :=
    forall a k b, 0 <= a < nfi e -> 0 <= k < dk -> 0 <= b < nfj e ->
      z ((b * dk + k) * nfi e + a) = app (k_l e) k (fun c => y (p + ((b * len_cart (k_l e) + c) * nfi e + a))).

  Lemma run_inner {B} (K : arr F -> arr F -> option B) Q buf p size :
    reads gctr size y -> 0 <= p -> p + nfi e * nfk e * nfj e <= size -> asize buf = nfi e * dk * nfj e ->
    (forall buf' px z, asize buf' = asize buf -> reads px (dk * nfj e * nfi e) z -> k1 p z -> wp (K buf' px) Q) ->
    wp (' r <- sph2e_inner zero add mul coef buf (sub gctr p) (k_l e) (nfi e) (nfj e) (nfi e * dk) (nfi e * nfk e) ;;
        let '(buf, px) := r in K buf px) Q.
  Proof.
    intros Hy Hp Hs Hb HK. pose proof (lc_pos _ Li) as P1. pose proof (lc_pos _ Lj) as P2. rewrite <- Ei in P1. rewrite <- Ej in P2.
    apply wp_bind. eapply wp_mono.
    - apply (inner_ok zero one add mul sub_ opp Rth coef Htab (k_l e) (nfi e) (nfj e) (fun q => y (p + q))); try lia.
      rewrite <- Ek. eapply reads_sub; [exact Hp|exact Hs|exact Hy].
    - intros [buf' px] [A1 [z [A2 A3]]]. cbn [fst snd] in *. apply (HK buf' px z); [exact A1| |].
      + replace (dk * nfj e * nfi e) with (nfi e * dk * nfj e) by ring. exact A2.
      + intros a k b Ha Hk Hb'. apply A3; assumption.
  Qed.

  Lemma c2s_spinor_3c2e1_puts o :
    nf e = nfi e * nfk e * nfj e ->
    reads gctr (nspin spin * (nf e * (i_ctr e * j_ctr e * k_ctr e))) y ->
    (forall kc jc ic mk mj mi, 0 <= kc < k_ctr e -> 0 <= jc < j_ctr e -> 0 <= ic < i_ctr e ->
       0 <= mk < dk -> 0 <= mj < dj -> 0 <= mi < di ->
       zok sz V (o + (((kc * dk + mk) * nj + (jc * dj + mj)) * ni + (ic * di + mi)))
         (Phase phase (Pair i_kp (i_l e) j_kp (j_l e) mi mj (fun a b =>
            sphk_in spin y (nf e * ((kc * j_ctr e + jc) * i_ctr e + ic)) (nf e * (i_ctr e * j_ctr e * k_ctr e))
              (k_l e) (nfi e) a mk b)))) ->
    puts sz V (blkO (o * 2) (ni * 2) nj nk (di * i_ctr e * 2) (dj * j_ctr e) (dk * k_ctr e) 1)
      (fun out => c2s_spinor_3c2e1 zero add mul sub_ opp isz tJR tJI coef spin phase i_kp j_kp out o gctr dims e).
  Proof.
    intros Hnf Hy H. unfold c2s_spinor_3c2e1. rewrite D0, D1, D2. cbn [bind]. cbv zeta.
    pose proof (lc_pos _ Li) as P1. pose proof (lc_pos _ Lj) as P2. rewrite <- Ei in P1. rewrite <- Ej in P2.
    assert (P3 : 0 < nfk e). { rewrite Ek, len_cart_ncart by lia. apply ncart_pos. lia. }
    assert (Pdi : 0 <= di) by (apply len_spinor_nonneg; lia). assert (Pdj : 0 <= dj) by (apply len_spinor_nonneg; lia).
    assert (Pnf : 0 <= nf e) by (rewrite Hnf; repeat apply Z.mul_nonneg_nonneg; lia).
    set (bl := nfi e * dk * nfj e). set (l1 := di * dk * (nfj e + nfj e)). set (l2 := di * dk * dj).
    pose (J := fun p (s : Z * (arr F * arr F * arr F * arr F) * (arr F * arr F * arr F * arr F)) =>
       let '(q, (x1, x2, x3, x4), (a, b, c, d)) := s in
       q = p /\ (asize x1 = bl /\ asize x2 = bl /\ asize x3 = bl /\ asize x4 = bl) /\
       asize a = l1 /\ asize b = l1 /\ asize c = l2 /\ asize d = l2).
    apply puts_run with (I := J 0) (J := J (nf e * i_ctr e * j_ctr e * k_ctr e)); [|unfold J; cbn; auto 10].
    eapply putsS_iff; [|intros x; apply zblk3; lia].
    apply (nest3 sz V J (i_ctr e) (j_ctr e) (k_ctr e) Hci Hcj Hck (nf e)
         (fun kc jc ic x => exists l, 0 <= l < 1 /\ exists k, 0 <= k < dk /\ exists j, 0 <= j < dj /\ exists i, 0 <= i < di /\
            exists b, 0 <= b < 2 /\
                x = (o + (ni * nj * dk * kc + ni * dj * jc + di * ic) + (((l * nk + k) * nj + j) * ni + i)) * 2 + b)).
    intros kc jc ic Hkc Hjc Hic q a [[pg [[[bx by_] bz] b1]] [[[t1R t1I] t2R] t2I]] Ha [Epg [[X1 [X2 [X3 X4]]] [S1 [S2 [S3 S4]]]]]. cbn [fst snd] in *.
    assert (B : 0 <= q < i_ctr e * j_ctr e * k_ctr e).
    { unfold q. rewrite <- Z.mul_assoc. apply rb; [lia|]. apply rb; lia. }
    set (dist := nf e * i_ctr e * j_ctr e * k_ctr e) in *.
    assert (Ed : dist = nf e * (i_ctr e * j_ctr e * k_ctr e)) by (unfold dist; ring).
    assert (Rc : in_reach spin pg dist (nf e) (nspin spin * dist)).
    { rewrite Ed. apply (reach spin pg q); auto. }
    rewrite <- Ed in Hy, H. clearbody dist.
    assert (S1' : di * (dk * nfj e * 2) = l1) by (unfold l1; ring).
    apply wp_bind.
    assert (G : wp (if spin then
                ' p <- sph2e_inner zero add mul coef bx (sub gctr pg) (k_l e) (nfi e) (nfj e) (nfi e * dk) (nfi e * nfk e) ;; let '(bx, px) := p in
                ' p <- sph2e_inner zero add mul coef by_ (sub gctr (pg + dist)) (k_l e) (nfi e) (nfj e) (nfi e * dk) (nfi e * nfk e) ;; let '(by_, py) := p in
                ' p <- sph2e_inner zero add mul coef bz (sub gctr (pg + dist + dist)) (k_l e) (nfi e) (nfj e) (nfi e * dk) (nfi e * nfk e) ;; let '(bz, pz) := p in
                ' p <- sph2e_inner zero add mul coef b1 (sub gctr (pg + dist + dist + dist)) (k_l e) (nfi e) (nfj e) (nfi e * dk) (nfi e * nfk e) ;; let '(b1, p1) := p in
                t <- a_bra_cart2spinor_si zero add mul sub_ opp tJR tJI t1R t1I px py pz p1 (dk * nfj e) i_kp (i_l e) ;;
                Some ((bx, by_, bz, b1), t)
              else
                ' p <- sph2e_inner zero add mul coef bx (sub gctr pg) (k_l e) (nfi e) (nfj e) (nfi e * dk) (nfi e * nfk e) ;; let '(bx, p) := p in
                t <- a_bra_cart2spinor_sf zero add mul opp tJR tJI t1R t1I p (dk * nfj e) i_kp (i_l e) ;;
                Some ((bx, by_, bz, b1), t))
       (fun r => (let '(x1, x2, x3, x4) := fst r in asize x1 = bl /\ asize x2 = bl /\ asize x3 = bl /\ asize x4 = bl) /\
          asize (fst (snd r)) = l1 /\ asize (snd (snd r)) = l1 /\
          exists v, reads2 (fst (snd r)) (snd (snd r)) (di * (dk * nfj e * 2)) (BraY i_kp (i_l e) 1 (dk * nfj e) v) /\
            forall a k b, 0 <= a < nfi e -> 0 <= k < dk -> 0 <= b < nfj e ->
              v ((b * dk + k) * nfi e + a) = sphk_in spin y pg dist (k_l e) (nfi e) a k b)).
    { unfold in_reach, nspin in *. destruct spin.
      - eapply run_inner; [exact Hy|lia|rewrite <- Hnf; lia|exact X1|]. intros bx' px Xx Y1 R1 E1.
        eapply run_inner; [exact Hy|lia|rewrite <- Hnf; lia|exact X2|]. intros by' py Xy Y2 R2 E2.
        eapply run_inner; [exact Hy|lia|rewrite <- Hnf; lia|exact X3|]. intros bz' pz Xz Y3 R3 E3.
        eapply run_inner; [exact Hy|lia|rewrite <- Hnf; lia|exact X4|]. intros b1' p1 X0 Y4 R4 E4.
        apply wp_bind. eapply wp_mono.
        + apply (bra_si_reads i_kp (i_l e) (dk * nfj e) Li ltac:(apply Z.mul_nonneg_nonneg; lia) px py pz p1 Xx Xy Xz X0); try (rewrite <- Ei; assumption).
          * rewrite S1, S1'. lia.
          * rewrite S2, S1'. lia.
        + intros [rR rI] [A1 [A2 A3]]. cbn [wp fst snd] in *. split; [repeat split; congruence|]. split; [congruence|]. split; [congruence|].
          eexists. split; [exact A3|]. intros a' k b Ha' Hk Hb. cbv beta. rewrite E1, E2, E3, E4 by assumption. reflexivity.
      - eapply run_inner; [exact Hy|lia|rewrite <- Hnf; lia|exact X1|]. intros bx' px Xx Y1 R1 E1.
        apply wp_bind. eapply wp_mono.
        + apply (bra_sf_reads i_kp (i_l e) (dk * nfj e) Li ltac:(apply Z.mul_nonneg_nonneg; lia) px Xx); try (rewrite <- Ei; assumption).
          * rewrite S1, S1'. lia.
          * rewrite S2, S1'. lia.
        + intros [rR rI] [A1 [A2 A3]]. cbn [wp fst snd] in *. split; [repeat split; congruence|]. split; [congruence|]. split; [congruence|].
          eexists. split; [exact A3|]. intros a' k b Ha' Hk Hb. cbv beta. rewrite E1 by assumption. reflexivity. }
    eapply wp_mono; [exact G|]. clear G.
    intros [[[[x1 x2] x3] x4] [u1R u1I]] [[Y1 [Y2 [Y3 Y4]]] [U1 [U2 [v [Hv Ev]]]]]. cbn [fst snd] in *.
    apply (run_ket zero one add mul sub_ opp Rth tJR tJI isz Hisz e phase i_kp j_kp y Li Lj Ei Ej
       (fun u2R u2I => r <- zcopy_iklj a (o + (ni * nj * dk * kc + ni * dj * jc + di * ic)) u2R u2I ni nj nk 1 di dj dk 1 ;;
        Some (r, (pg + nf e, (x1, x2, x3, x4), (u1R, u1I, u2R, u2I)))) _ u1R u1I t2R t2I v dk (di * dk)); try assumption; try lia;
      try (unfold l2 in *; lia).
    intros u2R u2I Z0 T3 T4 HZ _ HZv. apply wp_bind. eapply wp_mono.
    - apply (zcopy_iklj_puts sz V (o + (ni * nj * dk * kc + ni * dj * jc + di * ic)) u2R u2I ni nj nk 1 di dj dk 1 Z0); [lia| | |exact Ha].
      + replace (di * dk * 1 * dj) with (dj * (di * dk)) by ring. exact HZ.
      + intros l k j i Hl Hk Hj Hi. replace l with 0 by lia.
        replace ((j * 1 + 0) * dk + k) with (j * dk + k) by ring. rewrite HZv by auto.
        specialize (H kc jc ic k j i Hkc Hjc Hic Hk Hj Hi). fold q in H.
        replace (o + (ni * nj * dk * kc + ni * dj * jc + di * ic) + (((0 * nk + k) * nj + j) * ni + i))
          with (o + (((kc * dk + k) * nj + (jc * dj + j)) * ni + (ic * di + i))) by ring.
        rewrite <- Epg in H.
        rewrite (pair_ext i_kp (i_l e) j_kp (j_l e) i j _ (fun a b => sphk_in spin y pg dist (k_l e) (nfi e) a k b)); [exact H|].
        intros a' b Ha' Hb. apply Ev; [rewrite Ei, len_cart_ncart by lia; exact Ha'|exact Hk|rewrite Ej, len_cart_ncart by lia; exact Hb].
    - intros r Hr. cbn [wp fst snd]. split; [exact Hr|]. unfold J. repeat split; first [congruence|lia].
  Qed.
End O2.
