(** SpinorTwo.v — the two stages of the two-electron spinor output. *)
From Coq Require Import Ring.
From Verif Require Import Base BasModel EnvModel OutModel OutSpec OutRules OutProof OutNest SphProof SphOut OutFinal OutBad
  SpinorModel SpinorSpec SpinorFill SpinorBra SpinorKet SpinorConv SpinorOut SpinorOut2.

Section O2.
  Context {F : Type} (zero one : F) (add mul sub_ : F -> F -> F) (opp : F -> F).
  Hypothesis Rth : ring_theory zero one add mul sub_ opp eq.
  Context (tJR tJI : Z -> F) (isz : F -> bool).
  Hypothesis Hisz : forall x, isz x = true -> x = zero.
  Notation Bra := (bra_spinor zero one add mul sub_ opp tJR tJI).
  Notation Ket := (ket_spinor zero add mul sub_ tJR tJI).
  Notation Pair := (spinor_pair zero one add mul sub_ opp tJR tJI).
  Notation Phase := (with_phase zero one add mul sub_).
  Notation BraY := (braY zero one add mul sub_ opp tJR tJI).
  Notation real_in := (real_in zero).
  Notation cplx_in := (cplx_in zero).

  Variable e : envs.
  Section First.
  Variables (spin phase : bool) (i_kp j_kp : Z).
  Variable gctr : arr F.
  Variable y : Z -> F.
  Hypothesis Li : 0 <= i_l e <= 12.
  Hypothesis Lj : 0 <= j_l e <= 12.
  Hypothesis Ei : nfi e = len_cart (i_l e).
  Hypothesis Ej : nfj e = len_cart (j_l e).
  Hypothesis Pk : 0 <= nfk e.
  Hypothesis Pl : 0 <= nfl e.
  Notation di := (len_spinor i_kp (i_l e)).
  Notation dj := (len_spinor j_kp (j_l e)).
  Notation no := (di * nfk e * nfl e * dj).
  Notation ncall := (i_ctr e * j_ctr e * k_ctr e * l_ctr e).
  Notation st := (nfk e * nfl e).

  (** element x of block q after the first stage *)
  Definition stage1 (q x : Z) : cplx (F := F) :=
    Phase phase (Pair i_kp (i_l e) j_kp (j_l e) (x mod di) (x / di / st)
      (fun a b => real_in spin y (nf e * q) (nf e * ncall) ((b * st + (x / di) mod st) * nfi e + a))).
  Lemma stage1_at q mj kl mi : 0 <= kl < st -> 0 <= mi < di ->
    stage1 q ((mj * st + kl) * di + mi) =
    Phase phase (Pair i_kp (i_l e) j_kp (j_l e) mi mj
      (fun a b => real_in spin y (nf e * q) (nf e * ncall) ((b * st + kl) * nfi e + a))).
  Proof.
    intros Hk Hi. unfold stage1. destruct (dec2 di (mj * st + kl) mi Hi) as [-> ->].
    destruct (dec2 st mj kl Hk) as [-> ->]. reflexivity.
  Qed.

  Definition holds1 (o n : Z) (r : arr F) : Prop :=
    forall q x, 0 <= q < n -> 0 <= x < no ->
      acell r (o + no * 2 * q + x) = Some (fst (stage1 q x)) /\
      acell r (o + no * 2 * q + no + x) = Some (snd (stage1 q x)).

  Lemma rd_win (a : arr F) o n : asize (win a o n) = n.
  Proof. reflexivity. Qed.

  Lemma c2s_spinor_2e1_ok opij o : 0 <= ncall -> 0 <= o -> o + no * 2 * ncall <= asize opij ->
    nf e = nfi e * nfk e * nfl e * nfj e ->
    reads gctr (nspin spin * (nf e * ncall)) y ->
    wp (c2s_spinor_2e1 zero add mul sub_ opp isz tJR tJI spin phase i_kp j_kp opij o gctr e)
       (fun r => asize r = asize opij /\
          (forall x, ~ o <= x < o + no * 2 * ncall -> acell r x = acell opij x) /\ holds1 o ncall r).
  Proof.
    intros Hn Ho Hsz Hnf Hy. unfold c2s_spinor_2e1. cbv zeta.
    pose proof (lc_pos _ Li) as P1. pose proof (lc_pos _ Lj) as P2. rewrite <- Ei in P1. rewrite <- Ej in P2.
    assert (Pdi : 0 <= di) by (apply len_spinor_nonneg; lia). assert (Pdj : 0 <= dj) by (apply len_spinor_nonneg; lia).
    assert (Pnf : 0 <= nf e) by (rewrite Hnf; repeat apply Z.mul_nonneg_nonneg; lia).
    assert (Pno : 0 <= no) by (repeat apply Z.mul_nonneg_nonneg; lia).
    assert (Pst : 0 <= st) by (apply Z.mul_nonneg_nonneg; lia).
    set (bl := di * nfk e * nfl e * (nfj e + nfj e)).
    apply wp_bind. set (N := ncall) in *.
    apply (wp_for (fun i s => let '(r, (po, pg, t1R, t1I)) := s in
        po = o + no * 2 * i /\ pg = nf e * i /\ asize t1R = bl /\ asize t1I = bl /\
        asize r = asize opij /\ (forall x, ~ o <= x < o + no * 2 * i -> acell r x = acell opij x) /\ holds1 o i r)).
    - exact Hn.
    - split; [ring|]. split; [ring|]. split; [reflexivity|]. split; [reflexivity|]. split; [reflexivity|].
      split; [reflexivity|]. intros q x Hq. lia.
    - intros i [r [[[po pg] t1R] t1I]] Hi [Epo [Epg [S1 [S2 [S3 [Hfr Hh]]]]]].
      assert (Ed : nf e * i_ctr e * j_ctr e * k_ctr e * l_ctr e = nf e * N) by (unfold N; ring). rewrite Ed.
      assert (Bn : no * 2 * i + no * 2 <= no * 2 * N) by (clear - Pno Hi; nia).
      assert (Bi : 0 <= no * 2 * i) by (clear - Pno Hi; nia).
      apply wp_bind. eapply wp_mono.
      + apply (bra_of_reads zero one add mul sub_ opp Rth tJR tJI i_kp (i_l e) (st * nfj e) Li ltac:(apply Z.mul_nonneg_nonneg; lia) spin gctr pg (nf e * N) (nspin spin * (nf e * N)) y Hy).
        * rewrite <- Ei. replace (st * nfj e * nfi e) with (nf e) by (rewrite Hnf; ring). apply (reach spin pg i); auto; lia.
        * rewrite S1. unfold bl. lia.
        * rewrite S2. unfold bl. lia.
      + intros [u1R u1I] [A1 [A2 [A3 _]]]. cbn [fst snd] in *.
        unfold window at 1. replace ((0 <=? po) && (po + no <=? asize r)) with true by (symmetry; apply andb_true_intro; lia).
        cbn [bind]. unfold window at 1. replace ((0 <=? po + no) && (po + no + no <=? asize r)) with true by (symmetry; apply andb_true_intro; lia).
        cbn [bind].
        apply (run_ket zero one add mul sub_ opp Rth tJR tJI isz Hisz e phase i_kp j_kp y Li Lj Ei Ej
          (fun wR wI => Some (put (put r po no wR) (po + no) no wI, (po + no * 2, pg + nf e, u1R, u1I)))
          _ u1R u1I (win r po no) (win r (po + no) no) (real_in spin y pg (nf e * N)) st (di * nfk e * nfl e)); try assumption; try lia.
        * rewrite rd_win. lia.
        * rewrite rd_win. lia.
        * intros wR wI Z0 W1 W2 HZ _ HZv. cbn [wp].
          split; [lia|]. split; [lia|]. split; [congruence|]. split; [congruence|]. split; [exact S3|].
          rewrite rd_win in W1, W2.
          assert (EN : dj * (di * nfk e * nfl e) = no) by ring. rewrite EN in HZ.
          assert (KZ : forall x, 0 <= x < no -> Z0 x = stage1 i x).
          { intros x Hx. assert (Np : 0 < di /\ 0 < st /\ 0 < dj).
            { assert (E0 : no = di * st * dj) by ring. rewrite E0 in Hx. clear - Hx Pdi Pdj Pst. nia. }
            assert (E : exists mj kl mi, 0 <= mj < dj /\ 0 <= kl < st /\ 0 <= mi < di /\ x = (mj * st + kl) * di + mi).
            { exists (x / di / st), ((x / di) mod st), (x mod di).
              pose proof (Z.div_mod x di ltac:(lia)). pose proof (Z.div_mod (x / di) st ltac:(lia)).
              split; [|split; [apply Z.mod_pos_bound; lia|split; [apply Z.mod_pos_bound; lia|lia]]].
              split; [repeat apply Z.div_pos; lia|]. apply Z.div_lt_upper_bound; [lia|]. apply Z.div_lt_upper_bound; [lia|]. lia. }
            destruct E as [mj [kl [mi [Hj [Hk [Hm ->]]]]]]. rewrite stage1_at by assumption. rewrite HZv by assumption.
            rewrite Epg. reflexivity. }
          destruct HZ as [HZR HZI].
          assert (CR : forall x, 0 <= x < no -> acell wR x = Some (fst (stage1 i x))).
          { intros x Hx. specialize (HZR x Hx). cbv beta in HZR. rewrite KZ in HZR by exact Hx. apply rd_spec in HZR. tauto. }
          assert (CI : forall x, 0 <= x < no -> acell wI x = Some (snd (stage1 i x))).
          { intros x Hx. specialize (HZI x Hx). cbv beta in HZI. rewrite KZ in HZI by exact Hx. apply rd_spec in HZI. tauto. }
          assert (Old : forall x, ~ po <= x < po + no * 2 -> acell (put (put r po no wR) (po + no) no wI) x = acell r x).
          { intros x Hx. unfold put. cbn [acell asize].
            replace ((po + no <=? x) && (x <? po + no + no)) with false by (symmetry; apply andb_false_iff; lia).
            replace ((po <=? x) && (x <? po + no)) with false by (symmetry; apply andb_false_iff; lia). reflexivity. }
          split.
          -- intros x Hx. rewrite Old by lia. apply Hfr. lia.
          -- intros q x Hq Hx. destruct (Z.eq_dec q i) as [Eq|Nq].
             ++ subst q. rewrite <- Epo. split.
                ** unfold put. cbn [acell asize].
                   replace ((po + no <=? po + x) && (po + x <? po + no + no)) with false by (symmetry; apply andb_false_iff; lia).
                   replace ((po <=? po + x) && (po + x <? po + no)) with true by (symmetry; apply andb_true_intro; lia).
                   replace (po + x - po) with x by ring. apply CR. exact Hx.
                ** unfold put. cbn [acell asize].
                   replace ((po + no <=? po + no + x) && (po + no + x <? po + no + no)) with true by (symmetry; apply andb_true_intro; lia).
                   replace (po + no + x - (po + no)) with x by ring. apply CI. exact Hx.
             ++ assert (Bq : no * 2 * q + no * 2 <= no * 2 * i) by (clear - Pno Hq Nq; nia).
                assert (B0 : 0 <= no * 2 * q) by (clear - Pno Hq; nia).
                rewrite !Old by lia. apply Hh; lia.
    - intros [r [[[po pg] t1R] t1I]] [_ [_ [_ [_ [S3 [Hfr Hh]]]]]]. cbn [wp fst]. auto.
  Qed.
  End First.

  (** ** Second stage *)
  Lemma pair1_block kpk lk kpl ll ng nc (v : Z -> comps (F := F)) t1R t1I t2R t2I phase nbra :
    0 <= lk <= 12 -> 0 <= ll <= 12 -> 0 <= ng -> 0 <= nc ->
    nbra = ng * len_spinor kpk lk ->
    reads2 t1R t1I (len_cart ll * nc * (len_spinor kpk lk * ng) * 2) (BraY kpk lk ng (len_cart ll * nc) v) ->
    len_spinor kpl ll * nbra * nc <= asize t2R -> len_spinor kpl ll * nbra * nc <= asize t2I ->
    wp (ket1_of zero add mul sub_ opp tJR tJI phase t2R t2I t1R t1I nbra nc kpl ll)
       (fun r => asize (fst r) = asize t2R /\ asize (snd r) = asize t2I /\
          exists Z0, reads2 (fst r) (snd r) (len_spinor kpl ll * nbra * nc) Z0 /\
            forall c ml mk m, 0 <= c < nc -> 0 <= ml < len_spinor kpl ll -> 0 <= mk < len_spinor kpk lk -> 0 <= m < ng ->
              Z0 (((c * len_spinor kpl ll + ml) * len_spinor kpk lk + mk) * ng + m) =
              Phase phase (Pair kpk lk kpl ll mk ml (fun a b => v (((c * ncart ll + b) * ncart lk + a) * ng + m)))).
  Proof.
    intros Hlk Hll Hng Hnc En HY S2R S2I.
    set (dk := len_spinor kpk lk) in *. set (dl := len_spinor kpl ll) in *. set (fl := len_cart ll) in *.
    assert (Pd : 0 <= dk) by (apply len_spinor_nonneg; lia).
    assert (Pn : 0 <= nbra) by (rewrite En; repeat apply Z.mul_nonneg_nonneg; lia).
    eapply wp_mono.
    - apply (ket1_of_fill zero one add mul sub_ opp Rth tJR tJI isz Hisz kpl ll nbra Hll Pn t1R t1I (BraY kpk lk ng (fl * nc) v)); try assumption.
      fold fl. replace (fl * nbra * nc * 2) with (fl * nc * (dk * ng) * 2) by (rewrite En; ring). exact HY.
    - intros [rR rI] [[S1 S2] H]. cbn [fst snd] in *. split; [exact S1|]. split; [exact S2|].
      eexists. split.
      + split; intros q Hq; apply rd_spec; (split; [fold dl in Hq; lia|]);
          destruct (H q Logic.I) as [A _]; specialize (A Hq); unfold get2, emb2 in A; cbn [fst snd] in A;
          injection A as A1 A2; [exact A1|exact A2].
      + intros c ml mk m Hc Hml Hmk Hm. cbv beta. f_equal.
        assert (J0 : 0 <= mk * ng + m < nbra) by (rewrite En; clear - Hmk Hm; nia).
        replace (((c * dl + ml) * dk + mk) * ng + m) with ((c * dl + ml) * nbra + (mk * ng + m)) by (rewrite En; ring).
        unfold dl. rewrite (k1sum_spec zero one add mul sub_ opp Rth tJR tJI kpl ll nbra nc Hll) by assumption.
        unfold spinor_pair, ket_spinor. apply csum_ext. intros n Hn. apply csum_ext. intros t Ht. f_equal.
        assert (Ef : ncart ll = fl) by (unfold fl; rewrite len_cart_ncart by lia; reflexivity). rewrite Ef in *.
        replace (((t * nc + c) * fl + n) * nbra + (mk * ng + m)) with (((t * (fl * nc) + (c * fl + n)) * dk + mk) * ng + m)
          by (rewrite En; ring).
        unfold dk. rewrite braY_at; [reflexivity| | |]; try assumption. clear - Hn Hc. nia.
  Qed.

  Variable sz : Z.
  Variable V : Z -> F -> Prop.
  Variables (spin phase : bool) (i_kp j_kp k_kp l_kp : Z).
  Variable dims : arr Z.
  Variables ni nj nk nl : Z.
  Hypothesis D0 : rd dims 0 = Some ni.
  Hypothesis D1 : rd dims 1 = Some nj.
  Hypothesis D2 : rd dims 2 = Some nk.
  Hypothesis D3 : rd dims 3 = Some nl.
  Variable opij : arr F.
  Variable y : Z -> F.
  Hypothesis Li : 0 <= i_l e.
  Hypothesis Lj : 0 <= j_l e.
  Hypothesis Lk : 0 <= k_l e <= 12.
  Hypothesis Ll : 0 <= l_l e <= 12.
  Hypothesis Ek : nfk e = len_cart (k_l e).
  Hypothesis El : nfl e = len_cart (l_l e).
  Hypothesis Hci : 0 <= i_ctr e.
  Hypothesis Hcj : 0 <= j_ctr e.
  Hypothesis Hck : 0 <= k_ctr e.
  Hypothesis Hcl : 0 <= l_ctr e.
  Notation di := (len_spinor i_kp (i_l e)).
  Notation dj := (len_spinor j_kp (j_l e)).
  Notation dk := (len_spinor k_kp (k_l e)).
  Notation dl := (len_spinor l_kp (l_l e)).
  Notation no := (di * nfk e * nfl e * dj).
  Notation ncall := (i_ctr e * j_ctr e * k_ctr e * l_ctr e).

  Lemma zblk4 o x : 0 <= di -> 0 <= dj -> 0 <= dk -> 0 <= dl ->
    blkO (o * 2) (ni * 2) nj nk (di * i_ctr e * 2) (dj * j_ctr e) (dk * k_ctr e) (dl * l_ctr e) x <->
    exists lc, 0 <= lc < l_ctr e /\ exists kc, 0 <= kc < k_ctr e /\ exists jc, 0 <= jc < j_ctr e /\ exists ic, 0 <= ic < i_ctr e /\
      exists l, 0 <= l < dl /\ exists k, 0 <= k < dk /\ exists j, 0 <= j < dj /\ exists i, 0 <= i < di /\
      exists b, 0 <= b < 2 /\
        x = (o + (ni * nj * nk * dl * lc + ni * nj * dk * kc + ni * dj * jc + di * ic) + (((l * nk + k) * nj + j) * ni + i)) * 2 + b.
  Proof. intros. apply zblk_split; assumption. Qed.

  Lemma c2s_spinor_2e2_puts o :
    reads opij (nspin spin * (no * 2 * ncall)) y ->
    (forall lc kc jc ic ml mk mj mi, 0 <= lc < l_ctr e -> 0 <= kc < k_ctr e -> 0 <= jc < j_ctr e -> 0 <= ic < i_ctr e ->
       0 <= ml < dl -> 0 <= mk < dk -> 0 <= mj < dj -> 0 <= mi < di ->
       zok sz V (o + ((((lc * dl + ml) * nk + (kc * dk + mk)) * nj + (jc * dj + mj)) * ni + (ic * di + mi)))
         (Phase phase (Pair k_kp (k_l e) l_kp (l_l e) mk ml (fun c d =>
            cplx_in (k_l e) di (nfl e * dj) spin y (no * 2 * (((lc * k_ctr e + kc) * j_ctr e + jc) * i_ctr e + ic)) (no * 2 * ncall)
              (((mj * nfl e + d) * nfk e + c) * di + mi))))) ->
    puts sz V (blkO (o * 2) (ni * 2) nj nk (di * i_ctr e * 2) (dj * j_ctr e) (dk * k_ctr e) (dl * l_ctr e))
      (fun out => c2s_spinor_2e2 zero add mul sub_ opp tJR tJI spin phase i_kp j_kp k_kp l_kp out o opij dims e).
  Proof.
    intros Hy H. unfold c2s_spinor_2e2. rewrite D0, D1, D2, D3. cbn [bind]. cbv zeta.
    pose proof (lc_pos _ Lk) as P1. pose proof (lc_pos _ Ll) as P2. rewrite <- Ek in P1. rewrite <- El in P2.
    assert (Pdi : 0 <= di) by (apply len_spinor_nonneg; lia). assert (Pdj : 0 <= dj) by (apply len_spinor_nonneg; lia).
    assert (Pdk : 0 <= dk) by (apply len_spinor_nonneg; lia). assert (Pdl : 0 <= dl) by (apply len_spinor_nonneg; lia).
    assert (Pno : 0 <= no) by (repeat apply Z.mul_nonneg_nonneg; lia).
    set (l1 := di * dk * (nfl e + nfl e) * dj). set (l2 := if spin then l1 else di * dk * dl * dj).
    assert (L2 : dl * (di * dk) * dj <= l2).
    { unfold l2, l1. destruct spin; [|lia]. pose proof (spinor_le l_kp (l_l e) Ll) as L. rewrite <- El in L.
      assert (0 <= di * dk) by (apply Z.mul_nonneg_nonneg; lia). assert (0 <= di * dk * dj) by (apply Z.mul_nonneg_nonneg; lia).
      replace (dl * (di * dk) * dj) with ((di * dk * dj) * dl) by ring.
      replace (di * dk * (nfl e + nfl e) * dj) with ((di * dk * dj) * (nfl e + nfl e)) by ring.
      apply Z.mul_le_mono_nonneg_l; assumption. }
    pose (J := fun p (s : Z * (arr F * arr F * arr F * arr F)) => let '(q, (a, b, c, d)) := s in
       q = p /\ asize a = l1 /\ asize b = l1 /\ asize c = l2 /\ asize d = l2).
    apply puts_run with (I := J 0) (J := J (no * 2 * i_ctr e * j_ctr e * k_ctr e * l_ctr e)); [|unfold J; cbn; auto 10].
    eapply putsS_iff; [|intros x; apply zblk4; assumption].
    apply (nest4 sz V J (i_ctr e) (j_ctr e) (k_ctr e) (l_ctr e) Hci Hcj Hck Hcl (no * 2)
         (fun lc kc jc ic x => exists l, 0 <= l < dl /\ exists k, 0 <= k < dk /\ exists j, 0 <= j < dj /\ exists i, 0 <= i < di /\
            exists b, 0 <= b < 2 /\
                x = (o + (ni * nj * nk * dl * lc + ni * nj * dk * kc + ni * dj * jc + di * ic) + (((l * nk + k) * nj + j) * ni + i)) * 2 + b)).
    intros lc kc jc ic Hlc Hkc Hjc Hic q a [po [[[t1R t1I] t2R] t2I]] Ha [Epo [S1 [S2 [S3 S4]]]]. cbn [fst snd] in *.
    assert (B : 0 <= q < ncall).
    { unfold q. rewrite <- Z.mul_assoc. rewrite <- Z.mul_assoc. apply rb; [lia|]. rewrite Z.mul_assoc. rewrite <- Z.mul_assoc. apply rb; [lia|]. apply rb; lia. }
    assert (Ed : no * 2 * i_ctr e * j_ctr e * k_ctr e * l_ctr e = no * 2 * ncall) by ring. rewrite Ed.
    assert (EN : nfl e * dj * nfk e * di * 2 = no * 2) by ring.
    apply wp_bind. eapply wp_mono.
    - apply (braz_of_reads zero one add mul sub_ opp Rth tJR tJI k_kp (k_l e) di (nfl e * dj) Lk Pdi ltac:(apply Z.mul_nonneg_nonneg; lia)
        spin opij po (no * 2 * ncall) _ y Hy).
      + rewrite <- Ek, EN. apply (reach spin po q); [lia|exact Epo|exact B].
      + rewrite S1. unfold l1. lia.
      + rewrite S2. unfold l1. lia.
    - intros [u1R u1I] [A1 [A2 A3]]. cbn [fst snd] in *. apply wp_bind. eapply wp_mono.
      + apply (pair1_block k_kp (k_l e) l_kp (l_l e) di dj (cplx_in (k_l e) di (nfl e * dj) spin y po (no * 2 * ncall))
          u1R u1I t2R t2I phase (di * dk)); try assumption.
        * reflexivity.
        * rewrite <- El. exact A3.
        * rewrite S3. exact L2.
        * rewrite S4. exact L2.
      + intros [u2R u2I] [B1 [B2 [Z0 [B4 B5]]]]. cbn [fst snd] in *. apply wp_bind. eapply wp_mono.
        * apply (zcopy_iklj_puts sz V (o + (ni * nj * nk * dl * lc + ni * nj * dk * kc + ni * dj * jc + di * ic)) u2R u2I ni nj nk nl di dj dk dl Z0); [exact Pdl| | |exact Ha].
          -- replace (di * dk * dl * dj) with (dl * (di * dk) * dj) by ring. exact B4.
          -- intros l k j i Hl Hk Hj Hi. rewrite B5 by assumption.
             specialize (H lc kc jc ic l k j i Hlc Hkc Hjc Hic Hl Hk Hj Hi). fold q in H.
             replace (o + (ni * nj * nk * dl * lc + ni * nj * dk * kc + ni * dj * jc + di * ic) + (((l * nk + k) * nj + j) * ni + i))
               with (o + ((((lc * dl + l) * nk + (kc * dk + k)) * nj + (jc * dj + j)) * ni + (ic * di + i))) by ring.
             rewrite <- Epo in H. rewrite <- !len_cart_ncart, <- Ek, <- El by lia. exact H.
        * intros r Hr. cbn [wp fst snd]. split; [exact Hr|]. unfold J. repeat split; first [congruence|lia].
  Qed.
End O2.
