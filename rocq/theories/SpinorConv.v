(** SpinorConv.v — the transforms in terms of complex matrix products. *)
From Verif Require Import Base OutModel OutSpec OutProof SpinorModel SpinorSpec SpinorFill SpinorBra SpinorKet.
From Coq Require Import ZifyBool Ring.
Ltac Zify.zify_post_hook ::= Z.div_mod_to_equations.

Section K.
  Context {F : Type} (zero one : F) (add mul sub_ : F -> F -> F) (opp : F -> F).
  Hypothesis Rth : ring_theory zero one add mul sub_ opp eq.
  Context (tJR tJI : Z -> F).
  Add Ring Fr : Rth.

  Notation Cjm := (Cj tJR tJI).
  Notation Cadd := (cadd add).
  Notation Cmul := (cmul add mul sub_).
  Notation C0 := (c0 zero).
  Notation Csum := (csum zero add).
  Notation Bra := (bra_spinor zero one add mul sub_ opp tJR tJI).
  Notation Ket := (ket_spinor zero add mul sub_ tJR tJI).
  Notation Phase := (with_phase zero one add mul sub_).
  Notation Fill2 := (Fill get2 emb2 all_ rest2).

  (** ** ket transforms of a stack of matrices *)
  Section Ket1.
    Variables (kappa l nbra counts : Z).
    Hypothesis Hl : 0 <= l <= 12.
    Hypothesis Hnb : 0 <= nbra.
    Hypothesis Hnc : 0 <= counts.
    Variables GR GI : arr F.
    Variable Y : Z -> cplx (F := F).
    Let nf := len_cart l.
    Let nd := len_spinor kappa l.
    Hypothesis HY : reads2 GR GI (nf * nbra * counts * 2) Y.

    Definition k1term (k i j n : Z) : cplx :=
      Cadd (Cmul (Y ((k * nf + n) * nbra + j)) (Cjm kappa l i 0 n))
           (Cmul (Y (nf * nbra * counts + ((k * nf + n) * nbra + j))) (Cjm kappa l i 1 n)).
    Definition k1sum (m x : Z) : cplx :=
      Csum m (k1term (x / nbra / nd) (x / nbra mod nd) (x mod nbra)).

    Lemma k1sum_at m k i j : 0 <= i < nd -> 0 <= j < nbra ->
      k1sum m ((k * nd + i) * nbra + j) = Csum m (k1term k i j).
    Proof.
      intros Hi Hj. unfold k1sum. destruct (dec2 nbra (k * nd + i) j Hj) as [-> ->].
      destruct (dec2 nd k i Hi) as [-> ->]. reflexivity.
    Qed.

    Let W (i x : Z) : Prop := exists k, 0 <= k < counts /\ (k * nd + i) * nbra <= x < (k * nd + i) * nbra + nbra.
    Lemma W_disj i i' x : 0 <= i < nd -> 0 <= i' < nd -> W i x -> W i' x -> i = i'.
    Proof.
      intros Hi Hi' [k [Hk Hx]] [k' [Hk' Hx']].
      assert (E : k * nd + i = k' * nd + i') by (clear - Hx Hx'; nia).
      clear - E Hi Hi'. assert (k = k') by nia. subst. lia.
    Qed.

    Lemma ket1_fill aR aI : nd * nbra * counts <= asize aR -> nd * nbra * counts <= asize aI ->
      wp (a_ket1_cart2spinor zero add mul sub_ tJR tJI aR aI GR GI nbra counts kappa l)
         (Fill2 (fun x => 0 <= x < nd * nbra * counts) (k1sum nf) (aR, aI)).
    Proof.
      intros SR SI. unfold a_ket1_cart2spinor. destruct (cart2j_ok zero add tJR tJI kappa l Hl) as [c [E1 [E2 _]]]. rewrite E1. cbn [bind].
      fold nf nd in E2 |- *.
      assert (Pd : 0 <= nd) by (apply len_spinor_nonneg; lia).
      assert (Pf : 0 < nf) by (unfold nf; rewrite len_cart_ncart by lia; apply ncart_pos; lia).
      eapply wp_mono; [apply (Fill_loop get2 emb2 all_ rest2 rest2_refl rest2_trans nd W (k1sum nf))|].
      - exact Pd.
      - intros m m' x Hm Hm' _. apply W_disj; assumption.
      - intros i s Hi [Sa Sb] _. cbn [fst snd] in Sa, Sb.
        assert (Ib : forall k, 0 <= k < counts -> 0 <= (k * nd + i) * nbra /\ (k * nd + i) * nbra + nbra <= nd * nbra * counts).
        { intros k Hk. clear - Hi Hk Hnb. assert (0 <= k * nd + i /\ k * nd + i + 1 <= nd * counts) by nia. nia. }
        assert (Dk : forall k k' x, 0 <= k < counts -> 0 <= k' < counts ->
            (k * nd + i) * nbra <= x < (k * nd + i) * nbra + nbra -> (k' * nd + i) * nbra <= x < (k' * nd + i) * nbra + nbra -> k = k').
        { intros k k' x Hk Hk' A B. clear - A B Hi. assert (k * nd + i = k' * nd + i) by nia. nia. }
        apply wp_bind.
        eapply wp_mono.
        { apply (Fill_loop get2 emb2 all_ rest2 rest2_refl rest2_trans counts
                   (fun k x => (k * nd + i) * nbra <= x < (k * nd + i) * nbra + nbra) (fun _ => C0)).
          - exact Hnc.
          - intros k k' x Hk Hk' _. apply (Dk k k' x Hk Hk').
          - intros k t Hk [Ta Tb] _. cbn [fst snd] in *. pose proof (Ib k Hk).
            eapply wp_mono.
            { apply (Fill_seq get2 emb2 all_ rest2 rest2_refl rest2_trans nbra (fun j => (k * nd + i) * nbra + j) (fun _ => C0)).
              - exact Hnb.
              - intros; lia.
              - intros j u Hj [Ua Ub] _. destruct u as [uR uI]. cbn [fst snd] in *.
                replace (k * (nd * nbra) + j + i * nbra) with ((k * nd + i) * nbra + j) by ring.
                eapply wp_mono; [apply (wr2 uR uI ((k * nd + i) * nbra + j) zero zero (fun _ => C0)); [lia|lia|reflexivity]|].
                intros r Hr. eapply Fill_ext; [exact Hr| |reflexivity]. intros x _. cbv beta. lia. }
            intros r Hr. cbv beta in Hr. eapply Fill_ext; [exact Hr| |reflexivity]. intros x _. cbv beta. lia. }
        intros s1 Z1. cbv beta in Z1. fold (W i) in Z1.
        eapply (Fill_acc get2 emb2 all_ rest2 nf (W i) k1sum _ s s1).
        + lia.
        + eapply Fill_ext; [exact Z1|reflexivity|]. intros x _ _. unfold k1sum. apply csum_nil. lia.
        + intros n t Hn Ht. assert (Rt : rest2 s t) by apply Ht. destruct Rt as [Ta Tb].
          assert (E3 := E2 i n Hi Hn). unfold coef4 in E3.
          replace (i * (nf * 2) + n) with (i * nf * 2 + n) by ring.
          replace (i * (nf * 2) + nf + n) with (i * nf * 2 + nf + n) by ring.
          destruct (rd (fst c) (i * nf * 2 + n)) as [c1|]; [|discriminate E3]. cbn [bind] in E3 |- *.
          destruct (rd (snd c) (i * nf * 2 + n)) as [c2|]; [|discriminate E3]. cbn [bind] in E3 |- *.
          destruct (rd (fst c) (i * nf * 2 + nf + n)) as [c3|]; [|discriminate E3]. cbn [bind] in E3 |- *.
          destruct (rd (snd c) (i * nf * 2 + nf + n)) as [c4|]; [|discriminate E3]. cbn [bind] in E3 |- *.
          unfold C4 in E3. remember (Cjm kappa l i 0 n) as z0 eqn:Ez0. remember (Cjm kappa l i 1 n) as z1 eqn:Ez1. injection E3 as -> -> -> ->.
          eapply wp_mono.
          { apply (Fill_loop get2 emb2 all_ rest2 rest2_refl rest2_trans counts
                   (fun k x => (k * nd + i) * nbra <= x < (k * nd + i) * nbra + nbra) (k1sum (n + 1))).
            - exact Hnc.
            - intros k k' x Hk Hk' _. apply (Dk k k' x Hk Hk').
            - intros k u Hk [Ua Ub] Gu. cbn [fst snd] in *. pose proof (Ib k Hk).
              eapply wp_mono.
              { apply (Fill_seq get2 emb2 all_ rest2 rest2_refl rest2_trans nbra (fun j => (k * nd + i) * nbra + j) (k1sum (n + 1))).
                - exact Hnb.
                - intros; lia.
                - intros j v Hj [Va Vb] Gv. destruct v as [vR vI]. cbn [fst snd] in *.
                  replace (k * (nd * nbra) + j + i * nbra) with ((k * nd + i) * nbra + j) by ring.
                  replace (k * (nf * nbra) + j + n * nbra) with ((k * nf + n) * nbra + j) by ring.
                  assert (Q : 0 <= (k * nf + n) * nbra + j < nf * nbra * counts).
                  { clear - Hk Hn Hj. assert (0 <= k * nf + n /\ k * nf + n + 1 <= nf * counts) by nia. nia. }
                  destruct HY as [Y1 Y2].
                  rewrite (Y1 ((k * nf + n) * nbra + j)), (Y2 ((k * nf + n) * nbra + j)) by lia. cbn [bind].
                  rewrite (Y1 (nf * nbra * counts + ((k * nf + n) * nbra + j))),
                          (Y2 (nf * nbra * counts + ((k * nf + n) * nbra + j))) by lia. cbn [bind].
                  eapply wp_mono.
                  { apply (inc2 add vR vI ((k * nd + i) * nbra + j) (k1sum n ((k * nd + i) * nbra + j)) _ _ (k1sum (n + 1))); [lia|lia| |].
                    - rewrite Gv by (try exact Logic.I; lia). rewrite Gu by (try exact Logic.I; lia).
                      apply Ht; [exact Logic.I|]. exists k. split; [exact Hk|lia].
                    - rewrite !k1sum_at by assumption. rewrite csum_succ by lia. f_equal. unfold k1term. rewrite <- Ez0, <- Ez1. unfold cadd, cmul.
                      cbn [fst snd]. f_equal; ring. }
                  intros r Hr. eapply Fill_ext; [exact Hr| |reflexivity]. intros x _. cbv beta. lia. }
              intros r Hr. cbv beta in Hr. eapply Fill_ext; [exact Hr| |reflexivity]. intros x _. cbv beta. lia. }
          intros u Hu. cbv beta in Hu. fold (W i) in Hu. eapply Fill_over; [apply rest2_trans|exact Ht|exact Hu|auto].
      - intros r Hr. eapply Fill_ext; [exact Hr| |reflexivity]. intros x _. unfold W. split.
        + intros Hx. destruct (Z.eq_dec nbra 0) as [->|Nb]; [lia|]. destruct (Z.eq_dec nd 0) as [E0|Nd]; [rewrite E0 in Hx; lia|].
          exists ((x / nbra) mod nd). split; [apply Z.mod_pos_bound; lia|]. exists (x / nbra / nd).
          pose proof (Z.div_mod x nbra ltac:(lia)). pose proof (Z.mod_pos_bound x nbra ltac:(lia)).
          assert (Q0 : 0 <= x / nbra < counts * nd).
          { split; [apply Z.div_pos; lia|apply Z.div_lt_upper_bound; [lia|]]. lia. }
          pose proof (Z.div_mod (x / nbra) nd ltac:(lia)).
          split; [split; [apply Z.div_pos; lia|apply Z.div_lt_upper_bound; lia]|].
          replace (x / nbra / nd * nd + (x / nbra) mod nd) with (x / nbra) by lia. lia.
        + intros [i [Hi [k [Hk Hx]]]]. clear - Hi Hk Hx Hnb.
          assert (0 <= k * nd + i /\ k * nd + i + 1 <= nd * counts) by nia. nia.
    Qed.

    Lemma k1sum_spec k i j : 0 <= i < nd -> 0 <= j < nbra ->
      k1sum nf ((k * nd + i) * nbra + j) =
      Ket kappa l i (fun t n => Y (((t * counts + k) * ncart l + n) * nbra + j)).
    Proof.
      intros Hi Hj. rewrite k1sum_at by assumption. unfold ket_spinor.
      assert (En : ncart l = nf) by (unfold nf; rewrite len_cart_ncart by lia; reflexivity). rewrite En.
      apply csum_ext. intros n Hn. rewrite (csum_2 zero one add mul sub_ opp Rth).
      unfold k1term. replace (((0 * counts + k) * nf + n) * nbra + j) with ((k * nf + n) * nbra + j) by ring.
      replace (((1 * counts + k) * nf + n) * nbra + j) with (nf * nbra * counts + ((k * nf + n) * nbra + j)) by ring.
      reflexivity.
    Qed.
  End Ket1.

  (** ** the 'i' variants *)
  Lemma phase_fill N v (run : arr F -> arr F -> option (arr F * arr F)) aR aI :
    0 <= N <= asize aR ->
    (wp (run aI aR) (Fill2 (fun x => 0 <= x < N) v (aI, aR))) ->
    wp (' p <- run aI aR ;; let '(aI, aR) := p in aR <- negate opp aR N ;; Some (aR, aI))
       (Fill2 (fun x => 0 <= x < N) (fun x => Cmul (ci zero one) (v x)) (aR, aI)).
  Proof.
    intros HN H. apply wp_bind. eapply wp_mono; [exact H|]. intros [rI rR] [[S1 S2] H2]. cbn [fst snd] in *.
    apply wp_bind. eapply wp_mono.
    - apply (negate_ok opp rR N (fun x => snd (v x))); [lia|]. intros x Hx.
      destruct (H2 x Logic.I) as [A _]. specialize (A Hx). unfold get2, emb2 in A. cbn [fst snd] in A. congruence.
    - intros rR' [S3 C3]. cbn [wp]. split; [split; cbn [fst snd]; congruence|].
      intros x _. destruct (H2 x Logic.I) as [A B]. unfold get2, emb2 in *. cbn [fst snd] in *. split.
      + intros Hx. specialize (A Hx). rewrite C3. replace ((0 <=? x) && (x <? N)) with true by lia.
        injection A as A1 A2. rewrite A1. unfold cmul, ci. cbn [fst snd]. f_equal; f_equal; ring.
      + intros Hx. specialize (B Hx). rewrite C3. replace ((0 <=? x) && (x <? N)) with false by lia.
        injection B as B1 B2. rewrite B1, B2. reflexivity.
  Qed.

  Section KetOf.
    Context (isz : F -> bool).
    Hypothesis Hisz : forall x, isz x = true -> x = zero.
    Variables (kappa l nbra : Z).
    Hypothesis Hl : 0 <= l <= 12.
    Hypothesis Hnb : 0 <= nbra.
    Variables GR GI : arr F.
    Variable Y : Z -> cplx (F := F).
    Let nf := len_cart l.
    Let nd := len_spinor kappa l.

    Lemma ket_of_fill phase aR aI :
      reads2 GR GI (nf * 2 * nbra) Y -> nd * nbra <= asize aR -> nd * nbra <= asize aI ->
      wp (ket_of zero add mul sub_ opp isz tJR tJI phase aR aI GR GI nbra kappa l)
         (Fill2 (fun x => 0 <= x < nd * nbra)
            (fun x => Phase phase (ksum zero add mul sub_ tJR tJI kappa l nbra Y (nf * 2) x)) (aR, aI)).
    Proof.
      intros HY SR SI. assert (Pd : 0 <= nd) by (apply len_spinor_nonneg; lia).
      destruct phase; cbn [ket_of with_phase].
      - unfold a_iket_cart2spinor. apply (phase_fill (nd * nbra) _ (fun a b => a_ket_cart2spinor zero add mul sub_ opp isz tJR tJI a b GR GI nbra kappa l)); [fold nd; nia|].
        apply (ket_fill zero one add mul sub_ opp Rth tJR tJI isz Hisz kappa l nbra Hl Hnb GR GI Y HY); assumption.
      - apply (ket_fill zero one add mul sub_ opp Rth tJR tJI isz Hisz kappa l nbra Hl Hnb GR GI Y HY); assumption.
    Qed.

    Lemma ket1_of_fill phase counts aR aI : 0 <= counts ->
      reads2 GR GI (nf * nbra * counts * 2) Y -> nd * nbra * counts <= asize aR -> nd * nbra * counts <= asize aI ->
      wp (ket1_of zero add mul sub_ opp tJR tJI phase aR aI GR GI nbra counts kappa l)
         (Fill2 (fun x => 0 <= x < nd * nbra * counts)
            (fun x => Phase phase (k1sum kappa l nbra counts Y nf x)) (aR, aI)).
    Proof.
      intros Hc HY SR SI. assert (Pd : 0 <= nd) by (apply len_spinor_nonneg; lia).
      destruct phase; cbn [ket1_of with_phase].
      - unfold a_iket1_cart2spinor. apply (phase_fill (nd * nbra * counts) _ (fun a b => a_ket1_cart2spinor zero add mul sub_ tJR tJI a b GR GI nbra counts kappa l)); [fold nd; clear - Pd Hnb Hc SR; split; [repeat apply Z.mul_nonneg_nonneg; lia|exact SR]|].
        apply (ket1_fill kappa l nbra counts Hl Hnb Hc GR GI Y HY); assumption.
      - apply (ket1_fill kappa l nbra counts Hl Hnb Hc GR GI Y HY); assumption.
    Qed.
  End KetOf.

  (** ** bra transforms *)
  Section BraOf.
    Variables (kappa l ng nket : Z).
    Hypothesis Hl : 0 <= l <= 12.
    Hypothesis Hng : 0 <= ng.
    Hypothesis Hnk : 0 <= nket.
    Let nf := len_cart l.
    Let nd := len_spinor kappa l.
    Let N := nket * nf * ng.

    (** contribution of one component *)
    Definition bterm (i n t : Z) (w : comps (F := F)) : cplx :=
      Csum 2 (fun s => Cmul (conj opp (Cjm kappa l i s n)) (spin_op zero one add mul sub_ opp w s t)).
    Definition bT (v : Z -> comps (F := F)) (i n q : Z) : V4 := q4 (bterm i n 0 (v q)) (bterm i n 1 (v q)).

    Ltac four := unfold bT, q4, bterm; rewrite !(csum_2 zero one add mul sub_ opp Rth);
      unfold spin_op, one2, sigma_x, sigma_y, sigma_z, scalar, cre;
      change (0 =? 0) with true; change (1 =? 1) with true; change (0 =? 1) with false; change (1 =? 0) with false;
      cbv iota; unfold cadd, cmul, conj, copp, ci, c0, c1; cbn [fst snd op_x op_y op_z op_1];
      f_equal; f_equal; [f_equal; [f_equal|]|]; ring.

    Lemma si_ok gx gy gz g1 X Y Z1 A1 i n q : reads gx N X -> reads gy N Y -> reads gz N Z1 -> reads g1 N A1 -> 0 <= q < N ->
      si_term add mul sub_ opp gx gy gz g1 (C4 tJR tJI kappa l i n) q =
      Some (bT (fun q => mkcomps (cre zero (X q)) (cre zero (Y q)) (cre zero (Z1 q)) (cre zero (A1 q))) i n q).
    Proof.
      intros Hx Hy Hz H1 Hq. unfold si_term, C4. rewrite (H1 q Hq), (Hx q Hq), (Hy q Hq), (Hz q Hq). cbn [bind].
      four.
    Qed.
    Lemma sf_ok g1 A1 i n q : reads g1 N A1 -> 0 <= q < N ->
      sf_term mul opp g1 (C4 tJR tJI kappa l i n) q = Some (bT (fun q => scalar zero (cre zero (A1 q))) i n q).
    Proof.
      intros H1 Hq. unfold sf_term, C4. rewrite (H1 q Hq). cbn [bind]. four.
    Qed.

    (** complex input: real parts in the first N cells, imaginary parts in the next *)
    Definition zreads (g : arr F) (X : Z -> cplx (F := F)) : Prop :=
      forall q, 0 <= q < N -> rd g q = Some (fst (X q)) /\ rd g (N + q) = Some (snd (X q)).
    Lemma zi_ok gx gy gz g1 X Y Z1 A1 i n q : zreads gx X -> zreads gy Y -> zreads gz Z1 -> zreads g1 A1 -> 0 <= q < N ->
      zi_term add mul sub_ opp N gx gy gz g1 (C4 tJR tJI kappa l i n) q =
      Some (bT (fun q => mkcomps (X q) (Y q) (Z1 q) (A1 q)) i n q).
    Proof.
      intros Hx Hy Hz H1 Hq. unfold zi_term, C4.
      destruct (H1 q Hq) as [-> ->], (Hx q Hq) as [-> ->], (Hy q Hq) as [-> ->], (Hz q Hq) as [-> ->]. cbn [bind].
      four.
    Qed.
    Lemma zf_ok g1 A1 i n q : zreads g1 A1 -> 0 <= q < N ->
      zf_term add mul sub_ N g1 (C4 tJR tJI kappa l i n) q = Some (bT (fun q => scalar zero (A1 q)) i n q).
    Proof.
      intros H1 Hq. unfold zf_term, C4. destruct (H1 q Hq) as [-> ->]. cbn [bind]. four.
    Qed.

    Lemma bsum_spec v j i m : 0 <= i < nd -> 0 <= m < ng ->
      bsum zero add kappa l ng (bT v) nf ((j * nd + i) * ng + m) =
      q4 (Bra kappa l i 0 (fun n => v ((j * ncart l + n) * ng + m)))
         (Bra kappa l i 1 (fun n => v ((j * ncart l + n) * ng + m))).
    Proof.
      intros Hi Hm. unfold nd. rewrite bsum_at by assumption. unfold bra_spinor.
      assert (En : ncart l = nf) by (unfold nf; rewrite len_cart_ncart by lia; reflexivity). rewrite En.
      apply (lsum_q4 zero add). intros n Hn. reflexivity.
    Qed.

    (** the output as one function of the address: spin slowest, then ket index, spinor, grid *)
    Definition braY (v : Z -> comps (F := F)) (x : Z) : cplx :=
      Bra kappa l ((x / ng) mod nd) (x / ng / nd / nket)
        (fun n => v (((x / ng / nd) mod nket * ncart l + n) * ng + x mod ng)).
    Lemma braY_at v t j i m : 0 <= j < nket -> 0 <= i < nd -> 0 <= m < ng ->
      braY v (((t * nket + j) * nd + i) * ng + m) = Bra kappa l i t (fun n => v ((j * ncart l + n) * ng + m)).
    Proof.
      intros Hj Hi Hm. unfold braY. destruct (dec2 ng ((t * nket + j) * nd + i) m Hm) as [-> ->].
      destruct (dec2 nd (t * nket + j) i Hi) as [-> ->]. destruct (dec2 nket t j Hj) as [-> ->]. reflexivity.
    Qed.

    Let b := nket * (nd * ng).
    Lemma bra_reads v aR aI rR rI : b * 2 <= asize aR -> b * 2 <= asize aI ->
      Fill (get4 b) emb4 (dom4 b) (rest4 b) (fun x => 0 <= x < b) (bsum zero add kappa l ng (bT v) nf) (aR, aI) (rR, rI) ->
      asize rR = asize aR /\ asize rI = asize aI /\ reads2 rR rI (b * 2) (braY v) /\
      forall x, ~ 0 <= x < b * 2 -> acell rR x = acell aR x /\ acell rI x = acell aI x.
    Proof.
      intros SR SI [[[S1 S2] HR] H]. cbn [fst snd] in *. split; [exact S1|]. split; [exact S2|]. split.
      2:{ intros x Hx. apply HR. lia. }
      assert (Pd : 0 <= nd) by (apply len_spinor_nonneg; lia).
      assert (K : forall x, 0 <= x < b * 2 -> acell rR x = Some (fst (braY v x)) /\ acell rI x = Some (snd (braY v x))).
      { intros x Hx.
        assert (Np : 0 < nket /\ 0 < nd /\ 0 < ng).
        { assert (0 < b) by lia. unfold b in *. clear - Hng Hnk Pd H0. nia. }
        assert (E : exists t j i m, 0 <= t < 2 /\ 0 <= j < nket /\ 0 <= i < nd /\ 0 <= m < ng /\ x = ((t * nket + j) * nd + i) * ng + m).
        { exists (x / ng / nd / nket), ((x / ng / nd) mod nket), ((x / ng) mod nd), (x mod ng).
          pose proof (Z.div_mod x ng ltac:(lia)). pose proof (Z.div_mod (x / ng) nd ltac:(lia)).
          pose proof (Z.div_mod (x / ng / nd) nket ltac:(lia)).
          split; [|split; [apply Z.mod_pos_bound; lia|split; [apply Z.mod_pos_bound; lia|split; [apply Z.mod_pos_bound; lia|]]]].
          - split; [repeat apply Z.div_pos; lia|]. apply Z.div_lt_upper_bound; [lia|]. apply Z.div_lt_upper_bound; [lia|].
            apply Z.div_lt_upper_bound; [lia|]. unfold b in Hx. lia.
          - lia. }
        destruct E as [t [j [i [m [Ht [Hj [Hi [Hm ->]]]]]]]]. rewrite braY_at by assumption.
        set (x0 := (j * nd + i) * ng + m).
        assert (X0 : 0 <= x0 < b).
        { unfold x0, b. clear - Hj Hi Hm. assert (0 <= j * nd + i /\ j * nd + i + 1 <= nket * nd) by nia. nia. }
        destruct (H x0 X0) as [A _]. specialize (A X0). unfold x0 in A. rewrite bsum_spec in A by assumption. fold x0 in A.
        unfold get4, emb4, q4 in A. cbn [fst snd] in A. injection A as A1 A2 A3 A4.
        assert (Et : t = 0 \/ t = 1) by lia. destruct Et as [Et|Et]; subst t.
        - replace (((0 * nket + j) * nd + i) * ng + m) with x0 by (unfold x0; ring). auto.
        - replace (((1 * nket + j) * nd + i) * ng + m) with (b + x0) by (unfold x0, b; ring). auto. }
      split; intros q Hq; apply rd_spec; (split; [lia|]); apply K; exact Hq.
    Qed.

  End BraOf.

  (** the input of [bra_of]: one or four real components in one array *)
  Definition real_in (spin : bool) (y : Z -> F) (pg dist : Z) (q : Z) : comps (F := F) :=
    if spin then mkcomps (cre zero (y (pg + q))) (cre zero (y (pg + dist + q)))
                         (cre zero (y (pg + dist + dist + q))) (cre zero (y (pg + dist + dist + dist + q)))
    else scalar zero (cre zero (y (pg + q))).
  Definition in_reach (spin : bool) (pg dist n size : Z) : Prop :=
    0 <= pg /\ 0 <= dist /\ (if spin then pg + dist + dist + dist + n else pg + n) <= size.

  Lemma rsub (g : arr F) n y p k : 0 <= p -> p + k <= n -> reads g n y -> reads (OutModel.sub g p) k (fun q => y (p + q)).
  Proof. apply reads_sub. Qed.

  Section BraRun.
    Variables (kappa l nket : Z).
    Hypothesis Hl : 0 <= l <= 12.
    Hypothesis Hnk : 0 <= nket.
    Let nf := len_cart l.
    Let nd := len_spinor kappa l.
    Variables (spin : bool) (gctr : arr F) (pg dist size : Z) (y : Z -> F).
    Hypothesis Hy : reads gctr size y.

    Lemma bra_of_reads aR aI : in_reach spin pg dist (nket * nf) size ->
      nd * (nket * 2) <= asize aR -> nd * (nket * 2) <= asize aI ->
      wp (bra_of zero add mul sub_ opp tJR tJI spin aR aI gctr pg dist nket kappa l)
         (fun r => asize (fst r) = asize aR /\ asize (snd r) = asize aI /\
            reads2 (fst r) (snd r) (nd * (nket * 2)) (braY kappa l 1 nket (real_in spin y pg dist)) /\
            forall x, ~ 0 <= x < nd * (nket * 2) -> acell (fst r) x = acell aR x /\ acell (snd r) x = acell aI x).
    Proof.
      intros [P1 [P2 P3]] SR SI.
      assert (G : wp (bra_of zero add mul sub_ opp tJR tJI spin aR aI gctr pg dist nket kappa l)
        (Fill (get4 (nket * (nd * 1))) emb4 (dom4 (nket * (nd * 1))) (rest4 (nket * (nd * 1))) (fun x => 0 <= x < nket * (nd * 1))
           (bsum zero add kappa l 1 (bT kappa l (real_in spin y pg dist)) nf) (aR, aI))).
      { destruct spin; cbn [bra_of real_in].
        - apply (bra_fill zero add tJR tJI); auto; [|lia|lia]. intros i n q Hi Hn Hq.
          apply (si_ok kappa l 1 nket); auto; apply rsub with (n := size); auto; fold nf; lia.
        - apply (bra_fill zero add tJR tJI); auto; [|lia|lia]. intros i n q Hi Hn Hq.
          apply (sf_ok kappa l 1 nket); auto; apply rsub with (n := size); auto; fold nf; lia. }
      eapply wp_mono; [exact G|]. intros [rR rI] Hr. cbn [fst snd].
      apply (bra_reads kappa l 1 nket) in Hr; auto; [|fold nd; lia|fold nd; lia|lia].
      fold nd in Hr. replace (nd * (nket * 2)) with (nket * (nd * 1) * 2) by ring. exact Hr.
    Qed.

    Variable ng : Z.
    Hypothesis Hng : 0 <= ng.
    Lemma bra1_of_reads aR aI : in_reach spin pg dist (nket * nf * ng) size ->
      nket * (nd * ng) * 2 <= asize aR -> nket * (nd * ng) * 2 <= asize aI ->
      wp (bra1_of zero add mul sub_ opp tJR tJI spin aR aI gctr pg dist ng nket kappa l)
         (fun r => asize (fst r) = asize aR /\ asize (snd r) = asize aI /\
            reads2 (fst r) (snd r) (nket * (nd * ng) * 2) (braY kappa l ng nket (real_in spin y pg dist)) /\
            forall x, ~ 0 <= x < nket * (nd * ng) * 2 -> acell (fst r) x = acell aR x /\ acell (snd r) x = acell aI x).
    Proof.
      intros [P1 [P2 P3]] SR SI.
      assert (G : wp (bra1_of zero add mul sub_ opp tJR tJI spin aR aI gctr pg dist ng nket kappa l)
        (Fill (get4 (nket * (nd * ng))) emb4 (dom4 (nket * (nd * ng))) (rest4 (nket * (nd * ng))) (fun x => 0 <= x < nket * (nd * ng))
           (bsum zero add kappa l ng (bT kappa l (real_in spin y pg dist)) nf) (aR, aI))).
      { destruct spin; cbn [bra1_of real_in].
        - apply (bra1_fill zero add tJR tJI); auto. intros i n q Hi Hn Hq.
          apply (si_ok kappa l ng nket); auto; apply rsub with (n := size); auto; fold nf; lia.
        - apply (bra1_fill zero add tJR tJI); auto. intros i n q Hi Hn Hq.
          apply (sf_ok kappa l ng nket); auto; apply rsub with (n := size); auto; fold nf; lia. }
      eapply wp_mono; [exact G|]. intros [rR rI] Hr. cbn [fst snd].
      apply (bra_reads kappa l ng nket) in Hr; auto.
    Qed.
  End BraRun.

  (** complex input of the second electron: block p holds [n] real parts and then [n] imaginary parts *)
  Section Braz.
    Variables (kappa l ng nket : Z).
    Hypothesis Hl : 0 <= l <= 12.
    Hypothesis Hng : 0 <= ng.
    Hypothesis Hnk : 0 <= nket.
    Let nf := len_cart l.
    Let nd := len_spinor kappa l.
    Let N := nket * nf * ng.
    Definition zval (y : Z -> F) (p q : Z) : cplx := (y (p + q), y (p + N + q)).
    Definition cplx_in (spin : bool) (y : Z -> F) (po dist : Z) (q : Z) : comps (F := F) :=
      if spin then mkcomps (zval y po q) (zval y (po + dist) q) (zval y (po + dist + dist) q) (zval y (po + dist + dist + dist) q)
      else scalar zero (zval y po q).
    Lemma zreads_sub g size y p : 0 <= p -> 0 <= N -> p + N * 2 <= size -> reads g size y ->
      zreads l ng nket (OutModel.sub g p) (zval y p) .
    Proof.
      intros Hp HN Hs Hy q Hq. fold nf in Hq |- *. fold N in Hq |- *. unfold zval. cbn [fst snd].
      rewrite !OutProof.rd_sub by lia. rewrite !Hy by lia. split; f_equal; f_equal; ring.
    Qed.
    Variables (spin : bool) (opij : arr F) (po dist size : Z) (y : Z -> F).
    Hypothesis Hy : reads opij size y.
    Lemma braz_of_reads aR aI : in_reach spin po dist (N * 2) size ->
      nket * (nd * ng) * 2 <= asize aR -> nket * (nd * ng) * 2 <= asize aI ->
      wp (braz_of zero add mul sub_ opp tJR tJI spin aR aI opij po dist ng nket kappa l)
         (fun r => asize (fst r) = asize aR /\ asize (snd r) = asize aI /\
            reads2 (fst r) (snd r) (nket * (nd * ng) * 2) (braY kappa l ng nket (cplx_in spin y po dist))).
    Proof.
      intros [P1 [P2 P3]] SR SI.
      assert (PN : 0 <= N). { unfold N, nf. rewrite len_cart_ncart by lia. pose proof (ncart_pos l). nia. }
      assert (G : wp (braz_of zero add mul sub_ opp tJR tJI spin aR aI opij po dist ng nket kappa l)
        (Fill (get4 (nket * (nd * ng))) emb4 (dom4 (nket * (nd * ng))) (rest4 (nket * (nd * ng))) (fun x => 0 <= x < nket * (nd * ng))
           (bsum zero add kappa l ng (bT kappa l (cplx_in spin y po dist)) nf) (aR, aI))).
      { destruct spin; cbn [braz_of cplx_in].
        - apply (bra1_fill zero add tJR tJI); auto. intros i n q Hi Hn Hq.
          apply (zi_ok kappa l ng nket); auto; apply (zreads_sub _ size); auto; lia.
        - apply (bra1_fill zero add tJR tJI); auto. intros i n q Hi Hn Hq.
          apply (zf_ok kappa l ng nket); auto; apply (zreads_sub _ size); auto; lia. }
      eapply wp_mono; [exact G|]. intros [rR rI] Hr. cbn [fst snd].
      apply (bra_reads kappa l ng nket) in Hr; auto. tauto.
    Qed.
  End Braz.
End K.
