(** SpinorKet.v — the register version of the bra transforms, the ket transforms, and the
    step from sums in the order of the code to complex matrix products. *)
From Verif Require Import Base OutModel OutSpec SpinorModel SpinorSpec SpinorFill SpinorBra.
From Coq Require Import ZifyBool Ring.
Ltac Zify.zify_post_hook ::= Z.div_mod_to_equations.

Section K.
  Context {F : Type} (zero one : F) (add mul sub_ : F -> F -> F) (opp : F -> F).
  Hypothesis Rth : ring_theory zero one add mul sub_ opp eq.
  Add Ring Fr : Rth.

  Notation Cadd := (cadd add).
  Notation Cmul := (cmul add mul sub_).
  Notation C0 := (c0 zero).
  Notation Csum := (csum zero add).
  Notation st := (arr F * arr F)%type.

  Lemma csum_succ n f : 0 <= n -> Csum (n + 1) f = Cadd (Csum n f) (f n).
  Proof. intros H. unfold csum. apply lsum_succ. exact H. Qed.
  Lemma csum_ext n f g : (forall i, 0 <= i < n -> f i = g i) -> Csum n f = Csum n g.
  Proof. apply lsum_ext. Qed.
  Lemma csum_nil n f : n <= 0 -> Csum n f = C0.
  Proof. apply lsum_0. Qed.
  Lemma csum_2 f : Csum 2 f = Cadd (f 0) (f 1).
  Proof.
    change 2 with (0 + 1 + 1). rewrite !csum_succ by lia. rewrite csum_nil by lia.
    change (0 + 1) with 1. unfold cadd, c0. cbn [fst snd]. f_equal; ring.
  Qed.
  Lemma cadd_assoc a b c : Cadd a (Cadd b c) = Cadd (Cadd a b) c.
  Proof. unfold cadd. cbn [fst snd]. f_equal; ring. Qed.
  Lemma csum_add n f g : Csum n (fun i => Cadd (f i) (g i)) = Cadd (Csum n f) (Csum n g).
  Proof.
    destruct (Z_le_gt_dec n 0) as [E|E]; [rewrite !csum_nil by lia; unfold cadd, c0; cbn [fst snd]; f_equal; ring|].
    replace n with (Z.of_nat (Z.to_nat n)) by lia. induction (Z.to_nat n) as [|k IH].
    - rewrite !csum_nil by lia. unfold cadd, c0; cbn [fst snd]; f_equal; ring.
    - replace (Z.of_nat (S k)) with (Z.of_nat k + 1) by lia. rewrite !csum_succ by lia. rewrite IH.
      unfold cadd. cbn [fst snd]. f_equal; ring.
  Qed.
  Lemma csum_split a b f : 0 <= a -> 0 <= b -> Csum (a + b) f = Cadd (Csum a f) (Csum b (fun i => f (a + i))).
  Proof.
    intros Ha Hb. replace b with (Z.of_nat (Z.to_nat b)) by lia. induction (Z.to_nat b) as [|k IH].
    - rewrite Z.add_0_r, (csum_nil 0) by lia. unfold cadd, c0. cbn [fst snd]. destruct (Csum a f). cbn [fst snd]. f_equal; ring.
    - replace (Z.of_nat (S k)) with (Z.of_nat k + 1) by lia. rewrite Z.add_assoc, !csum_succ by lia. rewrite IH.
      symmetry. apply cadd_assoc.
  Qed.

  (** two complex numbers as a quadruple *)
  Definition q4 (a b : cplx (F := F)) : V4 := (fst a, snd a, fst b, snd b).
  Lemma lsum_q4 n (T : Z -> V4) A B : (forall i, 0 <= i < n -> T i = q4 (A i) (B i)) ->
    lsum (z4 zero) (qadd add) n T = q4 (Csum n A) (Csum n B).
  Proof.
    intros H. rewrite (lsum_ext (z4 zero) (qadd add) n T (fun i => q4 (A i) (B i)) H). clear H.
    destruct (Z_le_gt_dec n 0) as [E|E]; [rewrite lsum_0, !csum_nil by lia; reflexivity|].
    replace n with (Z.of_nat (Z.to_nat n)) by lia. induction (Z.to_nat n) as [|k IH].
    - rewrite lsum_0, !csum_nil by lia. reflexivity.
    - replace (Z.of_nat (S k)) with (Z.of_nat k + 1) by lia. rewrite lsum_succ, !csum_succ by lia. rewrite IH.
      reflexivity.
  Qed.

  Notation Fill2 := (Fill get2 emb2 all_ rest2).

  Lemma inc2 (a i : arr F) x (w : cplx) p q (u : Z -> cplx) :
    0 <= x < asize a -> 0 <= x < asize i -> get2 (a, i) x = emb2 w -> u x = Cadd w (p, q) ->
    wp (a <- inc add a x p ;; i <- inc add i x q ;; Some (a, i)) (Fill2 (fun y => y = x) u (a, i)).
  Proof.
    intros Ha Hi Hg Hu. unfold get2, emb2 in Hg. cbn [fst snd] in Hg. injection Hg as G1 G2.
    unfold inc.
    assert (R1 : rd a x = Some (fst w)) by (apply rd_spec; auto).
    assert (R2 : rd i x = Some (snd w)) by (apply rd_spec; auto).
    rewrite R1. cbn [bind]. 
    eapply wp_mono; [|intros r h; exact h].
    apply wp_bind. apply wp_wr; [exact Ha|]. intros a' S1 C1. rewrite R2. cbn [bind].
    apply wp_bind. apply wp_wr; [exact Hi|]. intros i' S2 C2. cbn [wp]. split; [split; cbn [fst snd]; auto|].
    intros y _. unfold get2. cbn [fst snd]. rewrite C1, C2. split.
    - intros ->. rewrite Z.eqb_refl, Hu. reflexivity.
    - intros h. replace (y =? x) with false by lia. reflexivity.
  Qed.

  (** the sign loop *)
  Lemma negate_ok (a : arr F) n (v : Z -> F) : 0 <= n <= asize a -> (forall x, 0 <= x < n -> acell a x = Some (v x)) ->
    wp (negate opp a n) (fun r => asize r = asize a /\
      forall x, acell r x = if (0 <=? x) && (x <? n) then Some (opp (v x)) else acell a x).
  Proof.
    intros Hn Hv. unfold negate.
    eapply (wp_for (fun i r => asize r = asize a /\
      forall x, acell r x = if (0 <=? x) && (x <? i) then Some (opp (v x)) else acell a x)).
    - lia.
    - split; [reflexivity|]. intros x. replace ((0 <=? x) && (x <? 0)) with false by lia. reflexivity.
    - intros i r Hi [Hs Hc]. assert (Rr : rd r i = Some (v i)).
      { apply rd_spec. split; [lia|]. rewrite Hc. replace ((0 <=? i) && (i <? i)) with false by lia. apply Hv. lia. }
      rewrite Rr. cbn [bind]. apply wp_wr; [lia|]. intros r' Hs' Hc'. split; [congruence|].
      intros x. rewrite Hc', Hc. destruct (x =? i) eqn:E.
      + replace ((0 <=? x) && (x <? i + 1)) with true by lia. replace x with i by lia. reflexivity.
      + replace ((0 <=? x) && (x <? i + 1)) with ((0 <=? x) && (x <? i)) by lia. reflexivity.
    - intros r H. exact H.
  Qed.

  Context (tJR tJI : Z -> F).
  Notation Cjm := (Cj tJR tJI).

  (** ** register version of the bra loops *)
  Section Bra.
    Variables (kappa l nket : Z).
    Hypothesis Hl : 0 <= l <= 12.
    Hypothesis Hnk : 0 <= nket.
    Variable term : V4 (F := F) -> Z -> option (V4 (F := F)).
    Variable T : Z -> Z -> Z -> V4 (F := F).
    Let nf := len_cart l.
    Let nd := len_spinor kappa l.
    Hypothesis HT : forall i n q, 0 <= i < nd -> 0 <= n < nf -> 0 <= q < nket * nf * 1 ->
      term (C4 tJR tJI kappa l i n) q = Some (T i n q).
    Let b := nket * (nd * 1).
    Notation Fill4 := (Fill (get4 b) emb4 (dom4 b) (rest4 b)).
    Notation bs := (bsum zero add kappa l 1 T nf).

    Lemma bra_fill aR aI : b * 2 <= asize aR -> b * 2 <= asize aI ->
      wp (bra_loops zero add tJR tJI term aR aI nket kappa l)
         (Fill4 (fun x => 0 <= x < b) bs (aR, aI)).
    Proof.
      intros SR SI. unfold bra_loops. destruct (cart2j_ok zero add tJR tJI kappa l Hl) as [c [E1 [E2 _]]]. rewrite E1. cbn [bind].
      fold nf nd in E2 |- *. assert (Eb : nket * nd = b) by (unfold b; ring). rewrite Eb.
      assert (Pd : 0 <= nd) by (apply len_spinor_nonneg; lia).
      assert (Pf : 0 < nf) by (unfold nf; rewrite len_cart_ncart by lia; apply ncart_pos; lia).
      eapply wp_mono; [apply (Fill_seq (get4 b) emb4 (dom4 b) (rest4 b) (rest4_refl b) (rest4_trans b) nket (fun j => j * nd) bs)|].
      - exact Hnk.
      - intros j Hj. lia.
      - intros j s Hj [[Sa Sb] _] _. cbn [fst snd] in Sa, Sb.
        eapply wp_mono; [apply (Fill_seq (get4 b) emb4 (dom4 b) (rest4 b) (rest4_refl b) (rest4_trans b) nd (fun i => j * nd + i) bs)|].
        + exact Pd.
        + intros; lia.
        + intros i t Hi [[Ta Tb] _] _. destruct t as [tR tI]. cbn [fst snd] in *.
          assert (Ib : 0 <= j * nd + i < b) by (rewrite <- Eb; clear - Hi Hj; nia).
          apply wp_bind.
          eapply (wp_for (fun n a => a = lsum (z4 zero) (qadd add) n (fun n => T i n ((j * nf + n) * 1 + 0)))).
          * lia.
          * rewrite lsum_0 by lia. reflexivity.
          * intros n a Hn ->. destruct (lsum (z4 zero) (qadd add) n (fun n => T i n ((j * nf + n) * 1 + 0))) as [[[sa sb] sc] sd] eqn:Es.
            rewrite (E2 i n Hi Hn). cbn [bind].
            assert (Q : 0 <= j * nf + n < nket * nf * 1) by (clear - Hn Hj; nia).
            rewrite (HT i n _ Hi Hn Q). cbn [bind].
            rewrite lsum_succ by lia. rewrite Es. replace ((j * nf + n) * 1 + 0) with (j * nf + n) by ring.
            destruct (T i n (j * nf + n)) as [[[ta tb] tc] td]. reflexivity.
          * intros a Ea.
            assert (Ev : bs (j * nd + i) = a).
            { replace (j * nd + i) with ((j * nd + i) * 1 + 0) by ring. unfold nd. rewrite bsum_at by (fold nd; lia).
              symmetry. exact Ea. }
            destruct a as [[[sa sb] sc] sd]. 
            eapply wp_mono; [apply (wr4 b tR tI (j * nd + i) sa sb sc sd bs); [lia|lia|lia|exact Ev]|].
            intros r Hr. eapply Fill_ext; [exact Hr| |reflexivity]. intros x _. cbv beta. lia.
        + intros r Hr. cbv beta in Hr. eapply Fill_ext; [exact Hr| |reflexivity]. intros x _. cbv beta. lia.
      - intros r Hr. cbv beta in Hr. eapply Fill_ext; [exact Hr| |reflexivity]. intros x _. cbv beta. rewrite <- Eb. lia.
    Qed.
  End Bra.

  (** ** ket transforms *)
  Context (isz : F -> bool).
  Hypothesis Hisz : forall x, isz x = true -> x = zero.


  Section Ket.
    Variables (kappa l nbra : Z).
    Hypothesis Hl : 0 <= l <= 12.
    Hypothesis Hnb : 0 <= nbra.
    Variables GR GI : arr F.
    Variable Y : Z -> cplx (F := F).
    Let nf := len_cart l.
    Let nd := len_spinor kappa l.
    Hypothesis HY : reads2 GR GI (nf * 2 * nbra) Y.

    (** the first k terms of the sum for output cell x *)
    Definition ksum (k x : Z) : cplx :=
      Csum k (fun n => Cmul (Y (x mod nbra + n * nbra)) (Cjm kappa l (x / nbra) (n / nf) (n mod nf))).

    Lemma ksum_at k i j : 0 <= j < nbra ->
      ksum k (i * nbra + j) = Csum k (fun n => Cmul (Y (j + n * nbra)) (Cjm kappa l i (n / nf) (n mod nf))).
    Proof. intros Hj. unfold ksum. destruct (dec2 nbra i j Hj) as [-> ->]. reflexivity. Qed.

    Lemma ket_fill aR aI : nd * nbra <= asize aR -> nd * nbra <= asize aI ->
      wp (a_ket_cart2spinor zero add mul sub_ opp isz tJR tJI aR aI GR GI nbra kappa l)
         (Fill2 (fun x => 0 <= x < nd * nbra) (ksum (nf * 2)) (aR, aI)).
    Proof.
      intros SR SI. unfold a_ket_cart2spinor. destruct (cart2j_ok zero add tJR tJI kappa l Hl) as [c [E1 [_ E2]]]. rewrite E1. cbn [bind].
      fold nf nd in E2 |- *.
      assert (Pd : 0 <= nd) by (apply len_spinor_nonneg; lia).
      assert (Pf : 0 < nf) by (unfold nf; rewrite len_cart_ncart by lia; apply ncart_pos; lia).
      eapply wp_mono; [apply (Fill_seq get2 emb2 all_ rest2 rest2_refl rest2_trans nd (fun i => i * nbra) (ksum (nf * 2)))|].
      - exact Pd.
      - intros i Hi. lia.
      - intros i s Hi [Sa Sb] _. cbn [fst snd] in Sa, Sb.
        assert (Ib : 0 <= i * nbra /\ i * nbra + nbra <= nd * nbra) by (clear - Hi Hnb; nia).
        apply wp_bind.
        eapply wp_mono.
        { apply (Fill_seq get2 emb2 all_ rest2 rest2_refl rest2_trans nbra (fun j => i * nbra + j) (fun _ => C0)).
          - exact Hnb.
          - intros; lia.
          - intros j t Hj [Ta Tb] _. destruct t as [tR tI]. cbn [fst snd] in *.
            replace (j + i * nbra) with (i * nbra + j) by ring.
            eapply wp_mono; [apply (wr2 tR tI (i * nbra + j) zero zero (fun _ => C0)); [lia|lia|reflexivity]|].
            intros r Hr. eapply Fill_ext; [exact Hr| |reflexivity]. intros x _. cbv beta. lia. }
        intros s1 Z1. cbv beta in Z1.
        eapply wp_mono.
        { apply (Fill_acc get2 emb2 all_ rest2 (nf * 2) (fun x => i * nbra <= x < i * nbra + nbra) ksum _ s s1).
          - lia.
          - eapply Fill_ext; [exact Z1| |].
            + intros x _. cbv beta. lia.
            + intros x _ _. unfold ksum. rewrite csum_nil by lia. reflexivity.
          - intros n t Hn Ht. assert (Rt : rest2 s t) by apply Ht. destruct Rt as [Ta Tb].
            destruct (E2 i n Hi Hn) as [A1 A2]. rewrite A1, A2. cbn [bind]. cbv zeta.
            set (z := Cjm kappa l i (n / nf) (n mod nf)) in *.
            assert (Row : forall f : F -> F -> cplx, (forall y : cplx, f (fst y) (snd y) = Cmul y z) ->
              wp (for_ 0 nbra (fun j s => let '(aR, aI) := s in
                     gR <- rd GR (j + n * nbra) ;; gI <- rd GI (j + n * nbra) ;;
                     aR <- inc add aR (j + i * nbra) (fst (f gR gI)) ;;
                     aI <- inc add aI (j + i * nbra) (snd (f gR gI)) ;; Some (aR, aI)) t)
                 (Fill2 (fun x => i * nbra <= x < i * nbra + nbra) (ksum (n + 1)) s)).
            { intros f Hf.
              eapply wp_mono.
              { apply (Fill_seq get2 emb2 all_ rest2 rest2_refl rest2_trans nbra (fun j => i * nbra + j) (ksum (n + 1))).
                - exact Hnb.
                - intros; lia.
                - intros j u Hj [Ua Ub] Gu. destruct u as [uR uI]. cbn [fst snd] in *.
                  assert (Q : 0 <= j + n * nbra < nf * 2 * nbra) by (clear - Hj Hn; nia).
                  destruct HY as [Y1 Y2]. rewrite (Y1 _ Q), (Y2 _ Q). cbn [bind].
                  replace (j + i * nbra) with (i * nbra + j) by ring.
                  eapply wp_mono.
                  { apply (inc2 uR uI (i * nbra + j) (ksum n (i * nbra + j)) _ _ (ksum (n + 1))); [lia|lia| |].
                    - rewrite Gu by (try exact Logic.I; lia). apply Ht; [exact I|lia].
                    - rewrite !ksum_at by exact Hj. rewrite csum_succ by lia. f_equal.
                      fold z. rewrite <- Hf. destruct (f _ _); reflexivity. }
                  intros r Hr. eapply Fill_ext; [exact Hr| |reflexivity]. intros x _. cbv beta. lia. }
              intros u Hu. cbv beta in Hu. eapply Fill_over; [apply rest2_trans|exact Ht| |].
              - eapply Fill_ext; [exact Hu| |reflexivity]. intros x _. cbv beta. lia.
              - auto. }
            destruct (isz (fst z)) eqn:Zr, (isz (snd z)) eqn:Zi; cbn [negb].
            + cbn [wp]. eapply Fill_ext; [exact Ht|reflexivity|].
              intros x _ Hx. cbv beta in Hx. replace x with (i * nbra + (x - i * nbra)) by ring.
              rewrite !ksum_at by lia. rewrite csum_succ by lia. fold z.
              apply Hisz in Zr, Zi. unfold cadd, cmul. rewrite Zr, Zi.
              destruct (Csum n _) as [c1 c2]. cbn [fst snd]. f_equal; ring.
            + apply Row. intros y. apply Hisz in Zr. unfold cmul. rewrite Zr. f_equal; ring.
            + apply Row. intros y. apply Hisz in Zi. unfold cmul. rewrite Zi. f_equal; ring.
            + apply Row. intros y. unfold cmul. f_equal; ring. }
        intros r Hr. eapply Fill_ext; [exact Hr| |reflexivity]. intros x _. cbv beta. lia.
      - intros r Hr. cbv beta in Hr. eapply Fill_ext; [exact Hr| |reflexivity]. intros x _. cbv beta. lia.
    Qed.

    (** the value as a product with the coefficient matrix: input cell j + (t*nf + n)*nbra holds
        component n with spin t *)
    Lemma ksum_spec i j : 0 <= j < nbra ->
      ksum (nf * 2) (i * nbra + j) =
      ket_spinor zero add mul sub_ tJR tJI kappa l i (fun t n => Y ((t * ncart l + n) * nbra + j)).
    Proof.
      intros Hj. rewrite ksum_at by exact Hj. unfold ket_spinor.
      assert (Pf : 0 < nf) by (unfold nf; rewrite len_cart_ncart by lia; apply ncart_pos; lia).
      assert (En : ncart l = nf) by (unfold nf; rewrite len_cart_ncart by lia; reflexivity). rewrite En.
      replace (nf * 2) with (nf + nf) by ring. rewrite csum_split by lia. rewrite <- csum_add.
      apply csum_ext. intros n Hn. rewrite csum_2.
      assert (D1 : n / nf = 0 /\ n mod nf = n) by (split; [apply Z.div_small|apply Z.mod_small]; lia).
      assert (D2 : (nf + n) / nf = 1 /\ (nf + n) mod nf = n).
      { pose proof (dec2 nf 1 n Hn) as D. replace (1 * nf + n) with (nf + n) in D by ring. exact D. }
      destruct D1 as [-> ->], D2 as [-> ->].
      replace (j + n * nbra) with ((0 * nf + n) * nbra + j) by ring.
      replace (j + (nf + n) * nbra) with ((1 * nf + n) * nbra + j) by ring. reflexivity.
    Qed.
  End Ket.

End K.
