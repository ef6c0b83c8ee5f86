(** SphOut.v — the spherical output routines. *)
From Coq Require Import Ring.
From Verif Require Import Base BasModel FblasModel FblasSpec EnvModel OutModel OutSpec OutRules OutProof OutNest SphProof.

Lemma mul_mono a b c d : 0 <= a <= b -> 0 <= c <= d -> 0 <= a * c <= b * d.
Proof. intros [A1 A2] [C1 C2]. split; [nia|]. apply Z.mul_le_mono_nonneg; assumption. Qed.

Lemma rb a b A B : 0 <= a < A -> 0 <= b < B -> 0 <= b * A + a < A * B.
Proof. intros. nia. Qed.
Lemma pb p q n N : p = n * q -> 0 <= n -> 0 <= q < N -> 0 <= p /\ p + n <= n * N.
Proof. intros -> Hn Hq. nia. Qed.

Section S.
  Context {F : Type} (zero one : F) (add mul sub_ : F -> F -> F) (opp : F -> F).
  Hypothesis Rth : ring_theory zero one add mul sub_ opp eq.
  Context (coef : Z -> F).
  Hypothesis Htab : table_ok zero one coef.
  Notation app := (apply_T zero add mul coef c2s_off len_cart).
  Notation Sij := (sph_ij zero add mul coef c2s_off len_cart).
  Notation Sijk := (sph_ijk zero add mul coef c2s_off len_cart).
  Notation Sijkl := (sph_ijkl zero add mul coef c2s_off len_cart).
  Notation Sssc := (sph_ssc zero add mul coef c2s_off len_cart).
  Notation Sgrid := (sph_grid zero add mul coef c2s_off len_cart).

  Lemma app_ext l m x y : (forall a, 0 <= a < len_cart l -> x a = y a) -> app l m x = app l m y.
  Proof. intros H. unfold apply_T. apply lsum_ext. intros a Ha. rewrite H by exact Ha. reflexivity. Qed.

  Variable sz : Z.
  Variable V : Z -> F -> Prop.
  Variable e : envs.
  Variable dims : arr Z.
  Variables ni nj nk nl : Z.
  Hypothesis D0 : rd dims 0 = Some ni.
  Hypothesis D1 : rd dims 1 = Some nj.
  Variable gctr : arr F.
  Variable y : Z -> F.
  Hypothesis Li : 0 <= i_l e <= 15.
  Hypothesis Lj : 0 <= j_l e <= 15.
  Hypothesis Ei : nfi e = len_cart (i_l e).
  Hypothesis Ej : nfj e = len_cart (j_l e).
  Hypothesis Hci : 0 <= i_ctr e.
  Hypothesis Hcj : 0 <= j_ctr e.

  Notation di := (i_l e * 2 + 1).
  Notation dj := (j_l e * 2 + 1).
  Notation dk := (k_l e * 2 + 1).
  Notation dl := (l_l e * 2 + 1).


  Lemma Pfi : 1 <= nfi e /\ 1 <= di <= nfi e.
  Proof. rewrite Ei. pose proof (sph_le_cart (i_l e) Li). lia. Qed.
  Lemma Pfj : 1 <= nfj e /\ 1 <= dj <= nfj e.
  Proof. rewrite Ej. pose proof (sph_le_cart (j_l e) Lj). lia. Qed.

  (** ** Two indices *)
  Lemma block_ij {B} (K : arr F -> arr F -> arr F -> option B) Q (b1 b2 g : arr F) x :
    reads g (nfi e * nfj e) x -> asize b1 = nfi e * dj -> asize b2 = nfi e * dj ->
    (forall b1' b2' t z, asize b1' = asize b1 -> asize b2' = asize b2 -> reads t (di * dj) z ->
       (forall mi mj, 0 <= mi < di -> 0 <= mj < dj -> z (mj * di + mi) = Sij (i_l e) (j_l e) x mi mj) ->
       wp (K b1' b2' t) Q) ->
    wp (ket <- c2s_ket_sph zero add mul coef (j_l e) ;;
        '(b1, t) <- ket b1 g (nfi e) (nfi e) (j_l e) ;;
        bra <- c2s_bra_sph zero add mul coef (i_l e) ;;
        '(b2, t) <- bra b2 dj t (i_l e) ;; K b1 b2 t) Q.
  Proof.
    intros Hx S1 S2 HK. destruct Pfi as [P1 P2]. destruct Pfj as [P3 P4].
    apply bind_wp2. eapply wp_mono.
    - apply (ket_ok zero one add mul sub_ opp Rth coef Htab (j_l e) (nfi e) x g b1); auto; [lia|rewrite <- Ej; exact Hx|lia].
    - intros [b1' t1] [Hs1 [y1 [Hy1 Hv1]]]. cbn [fst snd] in *.
      apply bind_wp2. eapply wp_mono.
      + apply (bra_ok zero one add mul sub_ opp Rth coef Htab (i_l e) dj y1 t1 b2); auto; [lia|rewrite <- Ei; exact Hy1|].
        intros _. rewrite S2. apply mul_mono; lia.
      + intros [b2' t2] [Hs2 [y2 [Hy2 Hv2]]]. cbn [fst snd] in *.
        apply (HK b1' b2' t2 y2); auto. intros mi mj Hmi Hmj. rewrite Hv2 by auto. unfold sph_ij.
        apply app_ext. intros a Ha. rewrite <- Ei in *. rewrite Hv1 by lia. reflexivity.
  Qed.

  Lemma c2s_sph_1e_puts o :
    nf e = nfi e * nfj e ->
    reads gctr (nf e * i_ctr e * j_ctr e) y ->
    (forall jc ic mj mi, 0 <= jc < j_ctr e -> 0 <= ic < i_ctr e -> 0 <= mj < dj -> 0 <= mi < di ->
       let x := o + ((jc * dj + mj) * ni + (ic * di + mi)) in
       0 <= x < sz /\ V x (Sij (i_l e) (j_l e) (fun q => y ((jc * i_ctr e + ic) * nf e + q)) mi mj)) ->
    puts sz V (blkO o ni nj nk (di * i_ctr e) (dj * j_ctr e) 1 1)
      (fun out => c2s_sph_1e zero add mul coef out o gctr dims e).
  Proof.
    intros Hnf Hy H. unfold c2s_sph_1e. rewrite D0, D1. cbn [bind]. cbv zeta.
    destruct Pfi as [P1 P2]. destruct Pfj as [P3 P4].
    assert (Pnf : 0 <= nf e) by (rewrite Hnf; apply Z.mul_nonneg_nonneg; lia).
    set (bl := nfi e * dj).
    eapply puts_run with (I := fun s : Z * (arr F * arr F) => fst s = 0 /\ asize (fst (snd s)) = bl /\ asize (snd (snd s)) = bl);
      [|cbn; auto].
    eapply putsS_iff.
    - apply (nest2 sz V (fun p (s : Z * (arr F * arr F)) => fst s = p /\ asize (fst (snd s)) = bl /\ asize (snd (snd s)) = bl)
         (i_ctr e) (j_ctr e) Hci Hcj (nf e)
         (fun jc ic x => exists j, 0 <= j < dj /\ exists i, 0 <= i < di /\
                x = o + ni * dj * jc + di * ic + (j * ni + i)) 0).
      intros jc ic Hjc Hic a [pg [b1 b2]] Ha [Epg [S1 S2]]. cbn [fst snd] in *.
      assert (B : 0 <= jc * i_ctr e + ic < i_ctr e * j_ctr e) by (apply rb; lia).
      set (q := jc * i_ctr e + ic) in *. 
      assert (B0 : 0 <= pg /\ pg + nfi e * nfj e <= nf e * i_ctr e * j_ctr e).
      { rewrite <- Hnf. replace (nf e * i_ctr e * j_ctr e) with (nf e * (i_ctr e * j_ctr e)) by ring. apply (pb pg q); [lia|exact Pnf|exact B]. }
      destruct B0 as [B1 B2].
      eapply (block_ij (fun b1 b2 t => r <- dcopy_ij a (o + ni * dj * jc + di * ic) t ni nj di dj ;;
                 Some (r, (pg + nf e, (b1, b2)))) _ b1 b2 (sub gctr pg) (fun r => y (pg + r))); auto.
      + eapply reads_sub; [exact B1|exact B2|exact Hy].
      + intros b1' b2' t z S1' S2' Ht Hz. apply wp_bind. eapply wp_mono.
        * apply (dcopy_ij_puts sz V (o + ni * dj * jc + di * ic) t ni nj di dj z); [exact Ht| |exact Ha].
          intros j i Hj Hi. rewrite Hz by auto.
          specialize (H jc ic j i Hjc Hic Hj Hi). cbv zeta in H. fold q in H.
          replace (o + ni * dj * jc + di * ic + (j * ni + i)) with (o + ((jc * dj + j) * ni + (ic * di + i))) by ring.
          replace pg with (q * nf e) by lia. exact H.
        * intros r Hr. cbn [wp fst snd]. split; [exact Hr|]. split; [lia|]. split; congruence.
    - intros x. replace (blkO o ni nj nk (di * i_ctr e) (dj * j_ctr e) 1 1 x) with
        (blkO o ni nj nk (di * i_ctr e) (dj * j_ctr e) (1 * 1) (1 * 1) x) by reflexivity.
      rewrite blkO_split by lia. split.
      + intros [lc [? [kc [? [jc [? [ic [? [l [? [k [? [j [? [i [? ->]]]]]]]]]]]]]]]].
        exists jc; split; [assumption|]. exists ic; split; [assumption|]. exists j; split; [assumption|].
        exists i; split; [assumption|]. replace lc with 0 by lia. replace kc with 0 by lia.
        replace l with 0 by lia. replace k with 0 by lia. ring.
      + intros [jc [? [ic [? [j [? [i [? ->]]]]]]]].
        exists 0; split; [lia|]. exists 0; split; [lia|]. exists jc; split; [assumption|].
        exists ic; split; [assumption|]. exists 0; split; [lia|]. exists 0; split; [lia|].
        exists j; split; [assumption|]. exists i; split; [assumption|]. ring.
  Qed.

  (** ** Three indices *)
  Hypothesis D2 : rd dims 2 = Some nk.
  Hypothesis Lk : 0 <= k_l e <= 15.
  Hypothesis Ek : nfk e = len_cart (k_l e).
  Hypothesis Hck : 0 <= k_ctr e.
  Lemma Pfk : 1 <= nfk e /\ 1 <= dk <= nfk e.
  Proof. rewrite Ek. pose proof (sph_le_cart (k_l e) Lk). lia. Qed.

  Lemma block_ijk {B} (K : arr F -> arr F -> arr F -> arr F -> option B) Q (b1 b2 b3 g : arr F) x :
    let bl := nfi e * nfk e * dj in
    reads g (nfi e * nfk e * nfj e) x -> asize b1 = bl -> asize b2 = bl -> asize b3 = bl ->
    (forall b1' b2' b3' t z, asize b1' = bl -> asize b2' = bl -> asize b3' = bl -> reads t (di * dk * dj) z ->
       (forall mi mj mk, 0 <= mi < di -> 0 <= mj < dj -> 0 <= mk < dk ->
          z ((mj * dk + mk) * di + mi) = Sijk (i_l e) (j_l e) (k_l e) x mi mj mk) ->
       wp (K b1' b2' b3' t) Q) ->
    wp (ket <- c2s_ket_sph zero add mul coef (j_l e) ;;
        '(b1, t) <- ket b1 g (nfi e * nfk e) (nfi e * nfk e) (j_l e) ;;
        '(b2, t) <- sph2e_inner zero add mul coef b2 t (k_l e) (nfi e) dj (nfi e * dk) (nfi e * nfk e) ;;
        bra <- c2s_bra_sph zero add mul coef (i_l e) ;;
        '(b3, t) <- bra b3 (dk * dj) t (i_l e) ;; K b1 b2 b3 t) Q.
  Proof.
    intros bl Hx S1 S2 S3 HK. destruct Pfi as [P1 P2]. destruct Pfj as [P3 P4]. destruct Pfk as [P5 P6].
    apply bind_wp2. eapply wp_mono.
    - apply (ket_ok zero one add mul sub_ opp Rth coef Htab (j_l e) (nfi e * nfk e) x g b1); auto; [nia|rewrite <- Ej; exact Hx|unfold bl in *; lia].
    - intros [b1' t1] [Hs1 [y1 [Hy1 Hv1]]]. cbn [fst snd] in *.
      apply wp_bind. eapply wp_mono.
      + apply (inner_ok zero one add mul sub_ opp Rth coef Htab (k_l e) (nfi e) dj y1 t1 b2); auto; try lia.
        * rewrite <- Ek. exact Hy1.
        * intros _. rewrite S2. unfold bl. apply mul_mono; [apply mul_mono; lia|lia].
      + intros [b2' t2] [Hs2 [y2 [Hy2 Hv2]]]. cbn [fst snd] in *.
        apply bind_wp2. eapply wp_mono.
        * apply (bra_ok zero one add mul sub_ opp Rth coef Htab (i_l e) (dk * dj) y2 t2 b3); auto; [nia| |].
          -- rewrite <- Ei. replace (nfi e * (dk * dj)) with (nfi e * dk * dj) by ring. exact Hy2.
          -- intros _. rewrite S3. unfold bl. rewrite Z.mul_assoc. apply mul_mono; [apply mul_mono; lia|lia].
        * intros [b3' t3] [Hs3 [y3 [Hy3 Hv3]]]. cbn [fst snd] in *.
          apply (HK b1' b2' b3' t3 y3); try congruence.
          { rewrite <- Z.mul_assoc. exact Hy3. }
          intros mi mj mk Hmi Hmj Hmk. rewrite Hv3; [|lia|apply rb; lia]. unfold sph_ijk.
          apply app_ext. intros a Ha. rewrite <- Ei in *. rewrite Hv2 by lia.
          apply app_ext. intros c Hc. rewrite <- Ek in *.
          replace ((mj * nfk e + c) * nfi e + a) with (mj * (nfi e * nfk e) + (c * nfi e + a)) by ring.
          rewrite Hv1; [|apply rb; lia|lia]. apply app_ext. intros b Hb. f_equal. ring.
  Qed.

  Lemma c2s_sph_3c2e1_puts o :
    nf e = nfi e * nfk e * nfj e ->
    reads gctr (nf e * i_ctr e * j_ctr e * k_ctr e) y ->
    (forall kc jc ic mk mj mi, 0 <= kc < k_ctr e -> 0 <= jc < j_ctr e -> 0 <= ic < i_ctr e ->
       0 <= mk < dk -> 0 <= mj < dj -> 0 <= mi < di ->
       let x := o + (((kc * dk + mk) * nj + (jc * dj + mj)) * ni + (ic * di + mi)) in
       0 <= x < sz /\ V x (Sijk (i_l e) (j_l e) (k_l e)
          (fun q => y (((kc * j_ctr e + jc) * i_ctr e + ic) * nf e + q)) mi mj mk)) ->
    puts sz V (blkO o ni nj nk (di * i_ctr e) (dj * j_ctr e) (dk * k_ctr e) 1)
      (fun out => c2s_sph_3c2e1 zero add mul coef out o gctr dims e).
  Proof.
    intros Hnf Hy H. unfold c2s_sph_3c2e1. rewrite D0, D1, D2. cbn [bind]. cbv zeta.
    destruct Pfi as [P1 P2]. destruct Pfj as [P3 P4]. destruct Pfk as [P5 P6].
    assert (Pnf : 0 <= nf e) by (rewrite Hnf; repeat apply Z.mul_nonneg_nonneg; lia).
    set (bl := nfi e * nfk e * dj).
    pose (J := fun p (s : Z * (arr F * (arr F * arr F))) => fst s = p /\ asize (fst (snd s)) = bl /\
       asize (fst (snd (snd s))) = bl /\ asize (snd (snd (snd s))) = bl).
    apply puts_run with (I := J 0) (J := J (nf e * i_ctr e * j_ctr e * k_ctr e)); [|unfold J; cbn; auto 10].
    eapply putsS_iff.
    - apply (nest3 sz V J (i_ctr e) (j_ctr e) (k_ctr e) Hci Hcj Hck (nf e)
         (fun kc jc ic x => exists l, 0 <= l < 1 /\ exists k, 0 <= k < dk /\ exists j, 0 <= j < dj /\ exists i, 0 <= i < di /\
                x = o + ni * nj * dk * kc + ni * dj * jc + di * ic + (((l * nk + k) * nj + j) * ni + i))).
      intros kc jc ic Hkc Hjc Hic q a [pg [b1 [b2 b3]]] Ha [Epg [S1 [S2 S3]]]. cbn [fst snd] in *.
      assert (B : 0 <= q < i_ctr e * j_ctr e * k_ctr e).
      { unfold q. rewrite <- Z.mul_assoc. apply rb; [lia|]. apply rb; lia. }
      assert (B0 : 0 <= pg /\ pg + nfi e * nfk e * nfj e <= nf e * i_ctr e * j_ctr e * k_ctr e).
      { rewrite <- Hnf. replace (nf e * i_ctr e * j_ctr e * k_ctr e) with (nf e * (i_ctr e * j_ctr e * k_ctr e)) by ring. apply (pb pg q); [lia|exact Pnf|exact B]. }
      destruct B0 as [B1 B2].
      eapply (block_ijk (fun b1 b2 b3 t => r <- dcopy_iklj a (o + ni * nj * dk * kc + ni * dj * jc + di * ic) t ni nj nk 1 di dj dk 1 ;;
                 Some (r, (pg + nf e, (b1, (b2, b3))))) _ b1 b2 b3 (sub gctr pg) (fun r => y (pg + r))); auto.
      + eapply reads_sub; [exact B1|exact B2|exact Hy].
      + intros b1' b2' b3' t z S1' S2' S3' Ht Hz. apply wp_bind. eapply wp_mono.
        * apply (dcopy_iklj_puts sz V (o + ni * nj * dk * kc + ni * dj * jc + di * ic) t ni nj nk 1 di dj dk 1 z); [lia| | |exact Ha].
          -- replace (di * dk * 1 * dj) with (di * dk * dj) by ring. exact Ht.
          -- intros l k j i Hl Hk Hj Hi. replace l with 0 by lia.
             replace ((j * 1 + 0) * dk + k) with (j * dk + k) by ring. rewrite Hz by auto.
             specialize (H kc jc ic k j i Hkc Hjc Hic Hk Hj Hi). cbv zeta in H. fold q in H.
             replace (o + ni * nj * dk * kc + ni * dj * jc + di * ic + (((0 * nk + k) * nj + j) * ni + i))
               with (o + (((kc * dk + k) * nj + (jc * dj + j)) * ni + (ic * di + i))) by ring.
             replace pg with (q * nf e) by lia. exact H.
        * intros r Hr. cbn [wp fst snd]. split; [exact Hr|]. unfold J; cbn [fst snd]. split; [lia|auto].
    - intros x. replace (blkO o ni nj nk (di * i_ctr e) (dj * j_ctr e) (dk * k_ctr e) 1 x) with
        (blkO o ni nj nk (di * i_ctr e) (dj * j_ctr e) (dk * k_ctr e) (1 * 1) x) by reflexivity.
      rewrite blkO_split by lia. split.
      + intros [lc [? [kc [? [jc [? [ic [? [l [? [k [? [j [? [i [? ->]]]]]]]]]]]]]]]].
        exists kc; split; [assumption|]. exists jc; split; [assumption|]. exists ic; split; [assumption|].
        exists l; split; [assumption|]. exists k; split; [assumption|].
        exists j; split; [assumption|]. exists i; split; [assumption|]. replace lc with 0 by lia. ring.
      + intros [kc [? [jc [? [ic [? [l [? [k [? [j [? [i [? ->]]]]]]]]]]]]]].
        exists 0; split; [lia|]. exists kc; split; [assumption|]. exists jc; split; [assumption|].
        exists ic; split; [assumption|]. exists l; split; [assumption|]. exists k; split; [assumption|].
        exists j; split; [assumption|]. exists i; split; [assumption|]. ring.
  Qed.

  (** ** Four indices *)
  Hypothesis D3 : rd dims 3 = Some nl.
  Hypothesis Ll : 0 <= l_l e <= 15.
  Hypothesis El : nfl e = len_cart (l_l e).
  Hypothesis Hcl : 0 <= l_ctr e.
  Lemma Pfl : 1 <= nfl e /\ 1 <= dl <= nfl e.
  Proof. rewrite El. pose proof (sph_le_cart (l_l e) Ll). lia. Qed.

  Lemma block_ijkl {B} (K : arr F -> arr F -> arr F -> arr F -> arr F -> option B) Q (b1 b2 b3 b4 g : arr F) x :
    let bl := nfi e * nfk e * nfl e * dj in
    reads g (nfi e * nfk e * nfl e * nfj e) x -> asize b1 = bl -> asize b2 = bl -> asize b3 = bl -> asize b4 = bl ->
    (forall b1' b2' b3' b4' t z, asize b1' = bl -> asize b2' = bl -> asize b3' = bl -> asize b4' = bl ->
       reads t (di * dk * dl * dj) z ->
       (forall mi mj mk ml, 0 <= mi < di -> 0 <= mj < dj -> 0 <= mk < dk -> 0 <= ml < dl ->
          z (((mj * dl + ml) * dk + mk) * di + mi) = Sijkl (i_l e) (j_l e) (k_l e) (l_l e) x mi mj mk ml) ->
       wp (K b1' b2' b3' b4' t) Q) ->
    wp (ket <- c2s_ket_sph zero add mul coef (j_l e) ;;
        '(b1, t) <- ket b1 g (nfi e * nfk e * nfl e) (nfi e * nfk e * nfl e) (j_l e) ;;
        '(b2, t) <- sph2e_inner zero add mul coef b2 t (l_l e) (nfi e * nfk e) dj (nfi e * nfk e * dl) (nfi e * nfk e * nfl e) ;;
        '(b3, t) <- sph2e_inner zero add mul coef b3 t (k_l e) (nfi e) (dl * dj) (nfi e * dk) (nfi e * nfk e) ;;
        bra <- c2s_bra_sph zero add mul coef (i_l e) ;;
        '(b4, t) <- bra b4 (dk * (dl * dj)) t (i_l e) ;; K b1 b2 b3 b4 t) Q.
  Proof.
    intros bl Hx S1 S2 S3 S4 HK. destruct Pfi as [P1 P2]. destruct Pfj as [P3 P4]. destruct Pfk as [P5 P6]. destruct Pfl as [P7 P8].
    assert (Pik : 0 <= nfi e * nfk e) by nia.
    apply bind_wp2. eapply wp_mono.
    - apply (ket_ok zero one add mul sub_ opp Rth coef Htab (j_l e) (nfi e * nfk e * nfl e) x g b1); auto;
        [apply Z.mul_nonneg_nonneg; lia|rewrite <- Ej; exact Hx|unfold bl in *; lia].
    - intros [b1' t1] [Hs1 [y1 [Hy1 Hv1]]]. cbn [fst snd] in *.
      apply wp_bind. eapply wp_mono.
      + apply (inner_ok zero one add mul sub_ opp Rth coef Htab (l_l e) (nfi e * nfk e) dj y1 t1 b2); auto; try lia.
        * rewrite <- El. exact Hy1.
        * intros _. rewrite S2. unfold bl. apply mul_mono; [apply mul_mono; lia|lia].
      + intros [b2' t2] [Hs2 [y2 [Hy2 Hv2]]]. cbn [fst snd] in *.
        apply wp_bind. eapply wp_mono.
        * apply (inner_ok zero one add mul sub_ opp Rth coef Htab (k_l e) (nfi e) (dl * dj) y2 t2 b3); auto; try lia.
          -- rewrite <- Ek. rewrite Z.mul_assoc. exact Hy2.
          -- intros _. rewrite S3. unfold bl. rewrite Z.mul_assoc.
             apply mul_mono; [apply mul_mono; [apply mul_mono; lia|lia]|lia].
        * intros [b3' t3] [Hs3 [y3 [Hy3 Hv3]]]. cbn [fst snd] in *.
          apply bind_wp2. eapply wp_mono.
          -- apply (bra_ok zero one add mul sub_ opp Rth coef Htab (i_l e) (dk * (dl * dj)) y3 t3 b4); auto.
             ++ repeat apply Z.mul_nonneg_nonneg; lia.
             ++ rewrite <- Ei. replace (nfi e * (dk * (dl * dj))) with (nfi e * dk * (dl * dj)) by ring. exact Hy3.
             ++ intros _. rewrite S4. unfold bl. rewrite !Z.mul_assoc.
                apply mul_mono; [apply mul_mono; [apply mul_mono; lia|lia]|lia].
          -- intros [b4' t4] [Hs4 [y4 [Hy4 Hv4]]]. cbn [fst snd] in *.
             apply (HK b1' b2' b3' b4' t4 y4); try congruence.
             { replace (di * dk * dl * dj) with (di * (dk * (dl * dj))) by ring. exact Hy4. }
             intros mi mj mk ml Hmi Hmj Hmk Hml.
             assert (B1 : 0 <= mj * dl + ml < dl * dj) by (apply rb; lia).
             assert (B2 : 0 <= (mj * dl + ml) * dk + mk < dk * (dl * dj))
               by (apply rb; assumption).
             rewrite Hv4; [|lia|exact B2]. unfold sph_ijkl.
             apply app_ext. intros a Ha. rewrite <- Ei in *. rewrite Hv3; [|lia|lia|exact B1].
             apply app_ext. intros c Hc. rewrite <- Ek in *.
             replace (((mj * dl + ml) * nfk e + c) * nfi e + a) with ((mj * dl + ml) * (nfi e * nfk e) + (c * nfi e + a)) by ring.
             rewrite Hv2; [|apply rb; lia|lia|lia]. apply app_ext. intros d Hd. rewrite <- El in *.
             assert (B3 : 0 <= c * nfi e + a < nfi e * nfk e) by (apply rb; lia).
             replace ((mj * nfl e + d) * (nfi e * nfk e) + (c * nfi e + a)) with
               (mj * (nfi e * nfk e * nfl e) + (d * (nfi e * nfk e) + (c * nfi e + a))) by ring.
             rewrite Hv1; [|apply rb; [exact B3|lia]|lia].
             apply app_ext. intros b Hb. f_equal. ring.
  Qed.

  Lemma c2s_sph_2e1_puts o :
    nf e = nfi e * nfk e * nfl e * nfj e ->
    reads gctr (nf e * i_ctr e * j_ctr e * k_ctr e * l_ctr e) y ->
    (forall lc kc jc ic ml mk mj mi, 0 <= lc < l_ctr e -> 0 <= kc < k_ctr e -> 0 <= jc < j_ctr e -> 0 <= ic < i_ctr e ->
       0 <= ml < dl -> 0 <= mk < dk -> 0 <= mj < dj -> 0 <= mi < di ->
       let x := o + ((((lc * dl + ml) * nk + (kc * dk + mk)) * nj + (jc * dj + mj)) * ni + (ic * di + mi)) in
       0 <= x < sz /\ V x (Sijkl (i_l e) (j_l e) (k_l e) (l_l e)
          (fun q => y ((((lc * k_ctr e + kc) * j_ctr e + jc) * i_ctr e + ic) * nf e + q)) mi mj mk ml)) ->
    puts sz V (blkO o ni nj nk (di * i_ctr e) (dj * j_ctr e) (dk * k_ctr e) (dl * l_ctr e))
      (fun out => c2s_sph_2e1 zero add mul coef out o gctr dims e).
  Proof.
    intros Hnf Hy H. unfold c2s_sph_2e1. rewrite D0, D1, D2, D3. cbn [bind]. cbv zeta.
    destruct Pfi as [P1 P2]. destruct Pfj as [P3 P4]. destruct Pfk as [P5 P6]. destruct Pfl as [P7 P8].
    assert (Pnf : 0 <= nf e) by (rewrite Hnf; repeat apply Z.mul_nonneg_nonneg; lia).
    set (bl := nfi e * nfk e * nfl e * dj).
    pose (J := fun p (s : Z * ((arr F * arr F) * (arr F * arr F))) => fst s = p /\ asize (fst (fst (snd s))) = bl /\
       asize (snd (fst (snd s))) = bl /\ asize (fst (snd (snd s))) = bl /\ asize (snd (snd (snd s))) = bl).
    apply puts_run with (I := J 0) (J := J (nf e * i_ctr e * j_ctr e * k_ctr e * l_ctr e)); [|unfold J; cbn; auto 10].
    eapply putsS_iff.
    - apply (nest4 sz V J (i_ctr e) (j_ctr e) (k_ctr e) (l_ctr e) Hci Hcj Hck Hcl (nf e)
         (fun lc kc jc ic x => exists l, 0 <= l < dl /\ exists k, 0 <= k < dk /\ exists j, 0 <= j < dj /\ exists i, 0 <= i < di /\
                x = o + ni * nj * nk * dl * lc + ni * nj * dk * kc + ni * dj * jc + di * ic + (((l * nk + k) * nj + j) * ni + i))).
      intros lc kc jc ic Hlc Hkc Hjc Hic q a [pg [[b1 b2] [b3 b4]]] Ha [Epg [S1 [S2 [S3 S4]]]]. cbn [fst snd] in *.
      assert (B : 0 <= q < i_ctr e * j_ctr e * k_ctr e * l_ctr e).
      { unfold q. rewrite <- !Z.mul_assoc. apply rb; [lia|]. apply rb; [lia|]. apply rb; lia. }
      assert (B0 : 0 <= pg /\ pg + nfi e * nfk e * nfl e * nfj e <= nf e * i_ctr e * j_ctr e * k_ctr e * l_ctr e).
      { rewrite <- Hnf. replace (nf e * i_ctr e * j_ctr e * k_ctr e * l_ctr e) with (nf e * (i_ctr e * j_ctr e * k_ctr e * l_ctr e)) by ring. apply (pb pg q); [lia|exact Pnf|exact B]. }
      destruct B0 as [B1 B2].
      eapply (block_ijkl (fun b1 b2 b3 b4 t => r <- dcopy_iklj a (o + ni * nj * nk * dl * lc + ni * nj * dk * kc + ni * dj * jc + di * ic) t ni nj nk nl di dj dk dl ;;
                 Some (r, (pg + nf e, ((b1, b2), (b3, b4))))) _ b1 b2 b3 b4 (sub gctr pg) (fun r => y (pg + r))); auto.
      + eapply reads_sub; [exact B1|exact B2|exact Hy].
      + intros b1' b2' b3' b4' t z S1' S2' S3' S4' Ht Hz. apply wp_bind. eapply wp_mono.
        * apply (dcopy_iklj_puts sz V (o + ni * nj * nk * dl * lc + ni * nj * dk * kc + ni * dj * jc + di * ic) t ni nj nk nl di dj dk dl z); [lia|exact Ht| |exact Ha].
          intros l k j i Hl Hk Hj Hi. rewrite Hz by auto.
          specialize (H lc kc jc ic l k j i Hlc Hkc Hjc Hic Hl Hk Hj Hi). cbv zeta in H. fold q in H.
          match goal with |- 0 <= ?a < _ /\ _ => replace a with
            (o + ((((lc * dl + l) * nk + (kc * dk + k)) * nj + (jc * dj + j)) * ni + (ic * di + i))) by ring end.
          replace pg with (q * nf e) by lia. exact H.
        * intros r Hr. cbn [wp fst snd]. split; [exact Hr|]. unfold J; cbn [fst snd]. split; [lia|auto].
    - intros x. rewrite blkO_split by lia. reflexivity.
  Qed.
End S.
