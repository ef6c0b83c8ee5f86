(** SpinorOne.v — the one-index spinor transforms, array by array. *)
From Verif Require Import Base OutModel OutSpec OutProof SpinorModel SpinorSpec SpinorFill SpinorBra SpinorKet SpinorConv SpinorOut2.
From Coq Require Import Ring.

Section B.
  Context {F : Type} (zero one : F) (add mul sub_ : F -> F -> F) (opp : F -> F).
  Hypothesis Rth : ring_theory zero one add mul sub_ opp eq.
  Context (tJR tJI : Z -> F).
  Notation Bra := (bra_spinor zero one add mul sub_ opp tJR tJI).
  Notation Ket := (ket_spinor zero add mul sub_ tJR tJI).
  Variables (kappa l ng nket : Z).
  Hypothesis Hl : 0 <= l <= 12.
  Hypothesis Hng : 0 <= ng.
  Hypothesis Hnk : 0 <= nket.
  Notation nd := (nspinor kappa l).
  Notation nf := (ncart l).
  Variables aR aI : arr F.

  Lemma fill_holds v r : 2 * nket * nd * ng <= asize aR -> 2 * nket * nd * ng <= asize aI ->
    wp r (Fill (get4 (nket * (len_spinor kappa l * ng))) emb4 (dom4 (nket * (len_spinor kappa l * ng))) (rest4 (nket * (len_spinor kappa l * ng)))
            (fun x : Z => 0 <= x < nket * (len_spinor kappa l * ng))
            (bsum zero add kappa l ng (bT zero one add mul sub_ opp tJR tJI kappa l v) (len_cart l)) (aR, aI)) ->
    exists rR rI, r = Some (rR, rI) /\
      holds4 aR aI rR rI 2 nket nd ng (fun t j i m => Bra kappa l i t (fun n => v ((j * nf + n) * ng + m))).
  Proof.
    intros SR SI H. destruct r as [[rR rI]|]; [|elim H]. exists rR, rI. split; [reflexivity|]. cbn [wp] in H.
    rewrite <- len_nspinor in *. set (d := len_spinor kappa l) in *.
    assert (E : nket * (d * ng) * 2 = 2 * nket * d * ng) by ring.
    apply bra_reads in H; auto; try (fold d; rewrite E; assumption).
    fold d in H. rewrite E in H. destruct H as [S1 [S2 [[RR RI] H]]]. split; [exact S1|split; [exact S2|split; [|exact H]]].
    intros t j i m Ht Hj Hi Hm.
    assert (B : 0 <= ((t * nket + j) * d + i) * ng + m < 2 * nket * d * ng).
    { clear - Ht Hj Hi Hm. assert (0 <= t * nket + j /\ t * nket + j + 1 <= 2 * nket) by nia.
      assert (0 <= (t * nket + j) * d + i /\ (t * nket + j) * d + i + 1 <= 2 * nket * d) by nia. nia. }
    pose proof (RR _ B) as R1. pose proof (RI _ B) as R2. cbv beta in R1, R2.
    unfold d in R1, R2. rewrite braY_at in R1, R2 by assumption. apply rd_spec in R1, R2. tauto.
  Qed.
End B.

Section C.
  Context {F : Type} (zero one : F) (add mul sub_ : F -> F -> F) (opp : F -> F).
  Hypothesis Rth : ring_theory zero one add mul sub_ opp eq.
  Context (tJR tJI : Z -> F).
  Notation Bra := (bra_spinor zero one add mul sub_ opp tJR tJI).
  Notation Ket := (ket_spinor zero add mul sub_ tJR tJI).
  Variables (kappa l : Z).
  Hypothesis Hl : 0 <= l <= 12.
  Notation nd := (nspinor kappa l).
  Notation nf := (ncart l).
  Notation cr := (cre zero).

  Lemma lcl : len_cart l = ncart l. Proof. apply len_cart_ncart. lia. Qed.

  Lemma bra_si nket (gspR gspI gx gy gz g1 : arr F) X Y W A : 0 <= nket ->
    reads gx (nket * nf) X -> reads gy (nket * nf) Y -> reads gz (nket * nf) W -> reads g1 (nket * nf) A ->
    2 * nket * nd * 1 <= asize gspR -> 2 * nket * nd * 1 <= asize gspI ->
    exists rR rI, a_bra_cart2spinor_si zero add mul sub_ opp tJR tJI gspR gspI gx gy gz g1 nket kappa l = Some (rR, rI) /\
      holds4 gspR gspI rR rI 2 nket nd 1 (fun t j i m => Bra kappa l i t (fun n =>
        (fun q => mkcomps (cr (X q)) (cr (Y q)) (cr (W q)) (cr (A q))) ((j * nf + n) * 1 + m))).
  Proof.
    intros Hn Hx Hy Hz H1 SR SI. apply fill_holds; auto; [lia|]. unfold a_bra_cart2spinor_si. rewrite <- lcl in *. rewrite <- len_nspinor in *.
    apply (bra_fill zero add tJR tJI); auto; try lia. intros i n q Hi Hn' Hq.
    apply si_ok with (ng := 1) (nket := nket); auto; rewrite Z.mul_1_r; assumption.
  Qed.
  Lemma bra_sf nket (gspR gspI g1 : arr F) A : 0 <= nket ->
    reads g1 (nket * nf) A ->
    2 * nket * nd * 1 <= asize gspR -> 2 * nket * nd * 1 <= asize gspI ->
    exists rR rI, a_bra_cart2spinor_sf zero add mul opp tJR tJI gspR gspI g1 nket kappa l = Some (rR, rI) /\
      holds4 gspR gspI rR rI 2 nket nd 1 (fun t j i m => Bra kappa l i t (fun n =>
        (fun q => scalar zero (cr (A q))) ((j * nf + n) * 1 + m))).
  Proof.
    intros Hn H1 SR SI. apply fill_holds; auto; [lia|]. unfold a_bra_cart2spinor_sf. rewrite <- lcl in *. rewrite <- len_nspinor in *.
    apply (bra_fill zero add tJR tJI); auto; try lia. intros i n q Hi Hn' Hq.
    apply sf_ok with (add := add) (sub_ := sub_) (ng := 1) (nket := nket); auto; rewrite Z.mul_1_r; assumption.
  Qed.

  Section G.
  Variables ng nket : Z.
  Hypothesis Hg : 0 <= ng.
  Hypothesis Hn : 0 <= nket.
  Notation N := (nket * nf * ng).
  Notation room2 a := (2 * nket * nd * ng <= asize a).
  Lemma bra1_si (gspR gspI gx gy gz g1 : arr F) X Y W A :
    reads gx N X -> reads gy N Y -> reads gz N W -> reads g1 N A -> room2 gspR -> room2 gspI ->
    exists rR rI, a_bra1_cart2spinor_si zero add mul sub_ opp tJR tJI gspR gspI gx gy gz g1 ng nket kappa l = Some (rR, rI) /\
      holds4 gspR gspI rR rI 2 nket nd ng (fun t j i m => Bra kappa l i t (fun n =>
        (fun q => mkcomps (cr (X q)) (cr (Y q)) (cr (W q)) (cr (A q))) ((j * nf + n) * ng + m))).
  Proof.
    intros Hx Hy Hz H1 SR SI. apply fill_holds; auto. unfold a_bra1_cart2spinor_si. rewrite <- lcl in *. rewrite <- len_nspinor in *.
    apply (bra1_fill zero add tJR tJI); auto; try lia. intros i n q Hi Hn' Hq.
    apply si_ok with (ng := ng) (nket := nket); auto.
  Qed.
  Lemma bra1_sf (gspR gspI g1 : arr F) A :
    reads g1 N A -> room2 gspR -> room2 gspI ->
    exists rR rI, a_bra1_cart2spinor_sf zero add mul opp tJR tJI gspR gspI g1 ng nket kappa l = Some (rR, rI) /\
      holds4 gspR gspI rR rI 2 nket nd ng (fun t j i m => Bra kappa l i t (fun n =>
        (fun q => scalar zero (cr (A q))) ((j * nf + n) * ng + m))).
  Proof.
    intros H1 SR SI. apply fill_holds; auto. unfold a_bra1_cart2spinor_sf. rewrite <- lcl in *. rewrite <- len_nspinor in *.
    apply (bra1_fill zero add tJR tJI); auto; try lia. intros i n q Hi Hn' Hq.
    apply sf_ok with (add := add) (sub_ := sub_) (ng := ng) (nket := nket); auto.
  Qed.

  Lemma zreads_of (g : arr F) x : reads g (N * 2) x -> zreads l ng nket g (fun q => (x q, x (N + q))).
  Proof. intros H q Hq. rewrite lcl in *. cbn [fst snd]. split; apply H; lia. Qed.

  Lemma bra1_zi (gspR gspI gx gy gz g1 : arr F) X Y W A :
    reads gx (N * 2) X -> reads gy (N * 2) Y -> reads gz (N * 2) W -> reads g1 (N * 2) A -> room2 gspR -> room2 gspI ->
    exists rR rI, a_bra1_cart2spinor_zi zero add mul sub_ opp tJR tJI gspR gspI gx gy gz g1 ng nket kappa l = Some (rR, rI) /\
      holds4 gspR gspI rR rI 2 nket nd ng (fun t j i m => Bra kappa l i t (fun n =>
        (fun q => mkcomps (X q, X (N + q)) (Y q, Y (N + q)) (W q, W (N + q)) (A q, A (N + q))) ((j * nf + n) * ng + m))).
  Proof.
    intros Hx Hy Hz H1 SR SI. apply fill_holds; auto. unfold a_bra1_cart2spinor_zi.
    apply zreads_of in Hx, Hy, Hz, H1. rewrite <- len_nspinor in *.
    apply (bra1_fill zero add tJR tJI); auto; try lia. intros i n q Hi Hn' Hq.
    rewrite (zi_ok zero one add mul sub_ opp Rth tJR tJI kappa l ng nket gx gy gz g1 _ _ _ _ i n q Hx Hy Hz H1 Hq). reflexivity.
  Qed.
  Lemma bra1_zf (gspR gspI g1 : arr F) A :
    reads g1 (N * 2) A -> room2 gspR -> room2 gspI ->
    exists rR rI, a_bra1_cart2spinor_zf zero add mul sub_ tJR tJI gspR gspI g1 ng nket kappa l = Some (rR, rI) /\
      holds4 gspR gspI rR rI 2 nket nd ng (fun t j i m => Bra kappa l i t (fun n =>
        (fun q => scalar zero (A q, A (N + q))) ((j * nf + n) * ng + m))).
  Proof.
    intros H1 SR SI. apply fill_holds; auto. unfold a_bra1_cart2spinor_zf.
    apply zreads_of in H1. rewrite <- len_nspinor in *.
    apply (bra1_fill zero add tJR tJI); auto; try lia. intros i n q Hi Hn' Hq.
    rewrite (zf_ok zero one add mul sub_ opp Rth tJR tJI kappa l ng nket g1 _ i n q H1 Hq). reflexivity.
  Qed.
  End G.

  Section K.
  Context (isz : F -> bool).
  Hypothesis Hisz : forall x, isz x = true -> x = zero.
  Variable nbra : Z.
  Hypothesis Hnb : 0 <= nbra.
  Variables (gspR gspI gcR gcI : arr F) (X Y : Z -> F).
  Notation Phase := (with_phase zero one add mul sub_).

  Lemma ket_holds phase : reads gcR (2 * nf * nbra) X -> reads gcI (2 * nf * nbra) Y ->
    nd * nbra <= asize gspR -> nd * nbra <= asize gspI ->
    exists rR rI, ket_of zero add mul sub_ opp isz tJR tJI phase gspR gspI gcR gcI nbra kappa l = Some (rR, rI) /\
      holds4 gspR gspI rR rI 1 1 nd nbra (fun _ _ i j =>
        Phase phase (Ket kappa l i (fun t n => (fun q => (X q, Y q)) ((t * nf + n) * nbra + j)))).
  Proof.
    intros HX HY SR SI. rewrite <- len_nspinor in *. set (d := len_spinor kappa l) in *.
    pose proof (ket_of_fill zero one add mul sub_ opp Rth tJR tJI isz Hisz kappa l nbra Hl Hnb gcR gcI (fun q => (X q, Y q)) phase gspR gspI) as H.
    rewrite lcl in H. fold d in H. replace (nf * 2 * nbra) with (2 * nf * nbra) in H by ring.
    specialize (H (Logic.conj HX HY) SR SI).
    destruct (ket_of zero add mul sub_ opp isz tJR tJI phase gspR gspI gcR gcI nbra kappa l) as [[rR rI]|]; [|elim H].
    cbn [wp] in H. destruct H as [[S1 S2] H]. cbn [fst snd] in *. exists rR, rI. split; [reflexivity|].
    split; [congruence|split; [congruence|split]].
    - intros a b i j Ha Hb Hi Hj. replace (((a * 1 + b) * d + i) * nbra + j) with (i * nbra + j) by (assert (a = 0) by lia; assert (b = 0) by lia; subst; ring).
      assert (B : 0 <= i * nbra + j < d * nbra) by (clear - Hi Hj; nia).
      destruct (H (i * nbra + j) Logic.I) as [T _]. specialize (T B). rewrite <- lcl in T.
      rewrite (ksum_spec zero one add mul sub_ opp Rth tJR tJI isz Hisz kappa l nbra Hl (fun q => (X q, Y q)) i j Hj) in T.
      unfold get2, emb2 in T. cbn [fst snd] in T. injection T as T1 T2. auto.
    - intros q Hq. destruct (H q Logic.I) as [_ T]. specialize (T ltac:(lia)). unfold get2 in T. cbn [fst snd] in T. injection T as T1 T2. auto.
  Qed.

  Lemma ket1_holds phase counts : 0 <= counts -> reads gcR (2 * counts * nf * nbra) X -> reads gcI (2 * counts * nf * nbra) Y ->
    counts * nd * nbra <= asize gspR -> counts * nd * nbra <= asize gspI ->
    exists rR rI, ket1_of zero add mul sub_ opp tJR tJI phase gspR gspI gcR gcI nbra counts kappa l = Some (rR, rI) /\
      holds4 gspR gspI rR rI 1 counts nd nbra (fun _ k i j =>
        Phase phase (Ket kappa l i (fun t n => (fun q => (X q, Y q)) (((t * counts + k) * nf + n) * nbra + j)))).
  Proof.
    intros Hc HX HY SR SI. rewrite <- len_nspinor in *. set (d := len_spinor kappa l) in *.
    pose proof (ket1_of_fill zero one add mul sub_ opp Rth tJR tJI isz Hisz kappa l nbra Hl Hnb gcR gcI (fun q => (X q, Y q)) phase counts gspR gspI Hc) as H.
    rewrite lcl in H. fold d in H. replace (nf * nbra * counts * 2) with (2 * counts * nf * nbra) in H by ring.
    replace (d * nbra * counts) with (counts * d * nbra) in H by ring.
    specialize (H (Logic.conj HX HY) SR SI).
    destruct (ket1_of zero add mul sub_ opp tJR tJI phase gspR gspI gcR gcI nbra counts kappa l) as [[rR rI]|]; [|elim H].
    cbn [wp] in H. destruct H as [[S1 S2] H]. cbn [fst snd] in *. exists rR, rI. split; [reflexivity|].
    split; [congruence|split; [congruence|split]].
    - intros a k i j Ha Hk Hi Hj. replace (((a * counts + k) * d + i) * nbra + j) with ((k * d + i) * nbra + j) by (assert (a = 0) by lia; subst; ring).
      assert (B : 0 <= (k * d + i) * nbra + j < counts * d * nbra).
      { clear - Hk Hi Hj. assert (0 <= k * d + i /\ k * d + i + 1 <= counts * d) by nia. nia. }
      destruct (H ((k * d + i) * nbra + j) Logic.I) as [T _]. specialize (T B). rewrite <- lcl in T. unfold d in T.
      rewrite (k1sum_spec zero one add mul sub_ opp Rth tJR tJI kappa l nbra counts Hl (fun q => (X q, Y q)) k i j Hi Hj) in T.
      unfold get2, emb2 in T. cbn [fst snd] in T. injection T as T1 T2. auto.
    - intros q Hq. destruct (H q Logic.I) as [_ T]. specialize (T ltac:(lia)). unfold get2 in T. cbn [fst snd] in T. injection T as T1 T2. auto.
  Qed.
  End K.
End C.

(** ** Shells the tables do not cover *)
Lemma for_none {S} lo hi (body : Z -> S -> option S) s : lo < hi -> body lo s = None -> for_ lo hi body s = None.
Proof.
  intros H E. unfold for_. destruct (Z.to_nat (hi - lo)) eqn:K; [lia|]. cbn [forN]. rewrite E. reflexivity.
Qed.
Lemma len_cart_high l : 13 <= l <= 15 -> 0 < len_cart l.
Proof. intros H. assert (E : l = 13 \/ l = 14 \/ l = 15) by lia. destruct E as [->|[->| ->]]; reflexivity. Qed.
Section H.
  Context {F : Type} (zero : F) (add : F -> F -> F) (tJR tJI : Z -> F).
  Lemma no_table kappa l : 13 <= l <= 15 -> cart2j tJR tJI kappa l = Some (uninit 0, uninit 0).
  Proof.
    intros H. assert (E : l = 13 \/ l = 14 \/ l = 15) by lia.
    destruct E as [->|[->| ->]]; unfold cart2j; destruct (kappa <? 0); reflexivity.
  Qed.
  Lemma bra_none term aR aI nket kappa l : 13 <= l <= 15 -> 0 < nket -> 
    bra_loops zero add tJR tJI term aR aI nket kappa l = None.
  Proof.
    intros Hl Hn. unfold bra_loops. rewrite no_table by exact Hl. cbn [bind].
    apply for_none; [exact Hn|]. apply for_none; [unfold len_spinor; destruct (0 =? kappa), (kappa <? 0); lia|].
    rewrite for_none; [reflexivity|apply len_cart_high; exact Hl|].
    unfold coef4. cbn [fst snd]. unfold rd at 1. unfold inb. cbn [asize uninit].
    replace ((0 <=? 0 * len_cart l * 2 + 0) && (0 * len_cart l * 2 + 0 <? 0)) with false by lia. reflexivity.
  Qed.
End H.
