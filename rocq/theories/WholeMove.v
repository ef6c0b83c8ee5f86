(** WholeMove.v — moving all shells by the same vector. *)
From Coq Require Import Reals Lra Psatz QArith Qreals String.
From Coquelicot Require Import Coquelicot.
From Verif Require Import Base BasModel BasSpec EnvModel IdxModel IdxSpec CtrModel
  OptModel OptSpec OptPair ScreenSpec ScreenProof ScreenFinal OutModel OutSpec TabModel
  OpSpec RecModel RecSpec RecMoments GaussInt Rec1Real Gauss2Int IntgModel IntgSpec IntgTab IntgStmt IntgAll IntgReal QuadSpec OperSpec OperModel Oper2e
  WholeModel WholeSpec WholeBatch Whole1e Whole2Model Whole2Batch Whole2Spec Whole4c Whole3c Whole2c WholeOptModel WholeOptSpec WholeSame PropsWhole5 WholePerm WholeFlip.
Local Open Scope R_scope.

(** Two env arrays with the same cutoff, range-separation parameter, exponents and coefficients; the centres of all shells differ by the vector d. *)
Definition moved (nbas : Z) (V : view) (ev ev' : Z -> R) (d : Z -> R) : Prop :=
  ev' 0%Z = ev 0%Z /\ ev' 8%Z = ev 8%Z /\ forall i, (0 <= i < nbas)%Z ->
    (forall ax, (0 <= ax < 3)%Z -> ctr V ev' i ax = ctr V ev i ax + d ax) /\
    (forall p, (0 <= p < v_np V i)%Z -> ex V ev' i p = ex V ev i p) /\
    forall p c, (0 <= p < v_np V i)%Z -> (0 <= c < v_nc V i)%Z -> cf V ev' i p c = cf V ev i p c.

Lemma good_moved nbas V ev ev' d lm : moved nbas V ev ev' d -> good_shells nbas V ev lm -> good_shells nbas V ev' lm.
Proof.
  intros (_ & _ & H) G i p Hi Hp. destruct (H i Hi) as (_ & H1 & H2). destruct (G i p Hi Hp) as (G1 & v & G2 & G3 & (c & G4 & G5) & G6).
  split; [rewrite H1 by assumption; exact G1|]. exists v. split; [exact G2|]. split; [intros x Hx; rewrite H2 by assumption; apply G3, Hx|].
  split; [|exact G6]. exists c. split; [exact G4|]. rewrite H2 by assumption. exact G5.
Qed.

(** ** The integrals *)
Section Shift.
  Variables (p q r P Q s : R).
  Hypothesis (Hp : 0 < p) (Hq : 0 < q) (Hr : 0 <= r).
  Lemma plane_move A B C D i j k l I :
    RIntPlane (fun x y => (x - (A + s)) ^ i * (x - (B + s)) ^ j * ((y - (C + s)) ^ k * (y - (D + s)) ^ l) * wgt2 p q r (P + s) (Q + s) x y) I ->
    RIntPlane (fun x y => (x - A) ^ i * (x - B) ^ j * ((y - C) ^ k * (y - D) ^ l) * wgt2 p q r P Q x y) I.
  Proof.
    intros H.
    destruct (gauss2_exist 0 1 Rplus Rmult Rminus Ropp IZR RTheory eq_refl IZR_S (var11 p q r) (var22 p q r) (var12 p q r)
       (mean1 p q r P Q - A) (mean1 p q r P Q - B) (mean2 p q r P Q - C) (mean2 p q r P Q - D) (Gauss2Int.norm2 p q r P Q)) as (T & GT & T0).
    assert (E : (P + s) - (Q + s) = P - Q) by ring.
    assert (E1 : mean1 p q r (P + s) (Q + s) = mean1 p q r P Q + s) by (unfold mean1; rewrite E; ring).
    assert (E2 : mean2 p q r (P + s) (Q + s) = mean2 p q r P Q + s) by (unfold mean2; rewrite E; ring).
    assert (E3 : Gauss2Int.norm2 p q r (P + s) (Q + s) = Gauss2Int.norm2 p q r P Q) by (unfold Gauss2Int.norm2; rewrite E; reflexivity).
    rewrite (plane_unique _ _ _ H (plane_table p q r (P + s) (Q + s) Hp Hq Hr (A + s) (B + s) (C + s) (D + s) T ltac:(
      rewrite E1, E2; replace (mean1 p q r P Q + s - (A + s)) with (mean1 p q r P Q - A) by ring; replace (mean1 p q r P Q + s - (B + s)) with (mean1 p q r P Q - B) by ring;
      replace (mean2 p q r P Q + s - (C + s)) with (mean2 p q r P Q - C) by ring; replace (mean2 p q r P Q + s - (D + s)) with (mean2 p q r P Q - D) by ring; exact GT) ltac:(rewrite E3; exact T0) i j k l)).
    exact (plane_table p q r P Q Hp Hq Hr A B C D T GT T0 i j k l).
  Qed.
End Shift.
Lemma phi_move ai aj ak al A B C D i j k l s t I : 0 < ai + aj -> 0 < ak + al ->
  RIntPlane (fun x y => phi ai (A + t) i x * phi aj (B + t) j x * (phi ak (C + t) k y * phi al (D + t) l y) * exp (- (s * s * ((x - y) * (x - y))))) I ->
  RIntPlane (fun x y => phi ai A i x * phi aj B j x * (phi ak C k y * phi al D l y) * exp (- (s * s * ((x - y) * (x - y))))) I.
Proof.
  intros H1 H2 H. assert (N1 : ai + aj <> 0) by lra. assert (N2 : ak + al <> 0) by lra.
  set (K := exp (- (ai * aj / (ai + aj) * ((A - B) * (A - B)))) * exp (- (ak * al / (ak + al) * ((C - D) * (C - D))))).
  assert (HK : K <> 0). { unfold K. pose proof (exp_pos (- (ai * aj / (ai + aj) * ((A - B) * (A - B))))). pose proof (exp_pos (- (ak * al / (ak + al) * ((C - D) * (C - D))))). nra. }
  assert (H3 : RIntPlane (fun x y => (x - (A + t)) ^ i * (x - (B + t)) ^ j * ((y - (C + t)) ^ k * (y - (D + t)) ^ l) * wgt2 (ai + aj) (ak + al) (s * s) ((ai * A + aj * B) / (ai + aj) + t) ((ak * C + al * D) / (ak + al) + t) x y) (/ K * I)).
  { eapply plane_ext; [|exact (plane_scal _ (/ K) _ H)]. intros x y. cbv beta. rewrite four_phi by assumption.
    replace ((A + t) - (B + t)) with (A - B) by ring. replace ((C + t) - (D + t)) with (C - D) by ring.
    replace ((ai * (A + t) + aj * (B + t)) / (ai + aj)) with ((ai * A + aj * B) / (ai + aj) + t) by (field; exact N1).
    replace ((ak * (C + t) + al * (D + t)) / (ak + al)) with ((ak * C + al * D) / (ak + al) + t) by (field; exact N2).
    fold K. rewrite <- Rmult_assoc, Rinv_l, Rmult_1_l by exact HK. reflexivity. }
  apply plane_move in H3; [|exact H1|exact H2|nra].
  replace I with (K * (/ K * I)) by (field; exact HK).
  eapply plane_ext; [|exact (plane_scal _ K _ H3)]. intros x y. cbv beta. rewrite (four_phi ai aj ak al A B C D i j k l s x y N1 N2). unfold K. ring.
Qed.
Lemma term2_move ai aj ak al (A B C D A' B' C' D' : Z -> R) d O O' pw op v : 0 < ai + aj -> 0 < ak + al ->
  (forall ax, (0 <= ax < 3)%Z -> A' ax = A ax + d ax /\ B' ax = B ax + d ax /\ C' ax = C ax + d ax /\ D' ax = D ax + d ax) ->
  term2 (exps4 ai aj ak al) (centres4 A' B' C' D') O' pw op m_one v -> term2 (exps4 ai aj ak al) (centres4 A B C D) O pw op m_one v.
Proof.
  intros H1 H2 E (W & (I & X1 & X2) & ->). exists W. split; [|rewrite !rpow_one; reflexivity]. exists I. split; [|exact X2]. intros ax s Hax. specialize (X1 ax s Hax).
  rewrite !fun_one in X1 |- *. unfold base in *. cbn [exps4 centres4] in *. destruct (E ax Hax) as (E1 & E2 & E3 & E4). rewrite E1, E2, E3, E4 in X1. eapply phi_move; eassumption.
Qed.

Section Moved.
  Variables (nbas : Z) (V : view) (ev ev' : Z -> R) (d : Z -> R) (lm : Z -> Z -> R) (i j k l : Z).
  Hypothesis (HM : moved nbas V ev ev' d).
  Hypothesis (Hi : (0 <= i < nbas)%Z) (Hj : (0 <= j < nbas)%Z) (Hk : (0 <= k < nbas)%Z) (Hl : (0 <= l < nbas)%Z).
  Hypothesis (Pi : exps_pos V ev i) (Pj : exps_pos V ev j) (Pk : exps_pos V ev k) (Pl : exps_pos V ev l).
  Lemma ex_moved s p : (0 <= s < nbas)%Z -> (0 <= p < v_np V s)%Z -> ex V ev' s p = ex V ev s p.
  Proof. intros Hs Hp. destruct HM as (_ & _ & H). apply (H s Hs), Hp. Qed.
  Lemma ctr_moved s ax : (0 <= s < nbas)%Z -> (0 <= ax < 3)%Z -> ctr V ev' s ax = ctr V ev s ax + d ax.
  Proof. intros Hs Hx. destruct HM as (_ & _ & H). apply (H s Hs), Hx. Qed.
  Lemma last_moved s p : (0 <= s < nbas)%Z -> (0 <= p < v_np V s)%Z -> last_ex V ev' s = last_ex V ev s.
  Proof. intros Hs Hp. apply ex_moved; [exact Hs|lia]. Qed.
  Lemma dist_moved s t : (0 <= s < nbas)%Z -> (0 <= t < nbas)%Z -> dist_sq (ctr V ev' s) (ctr V ev' t) = dist_sq (ctr V ev s) (ctr V ev t).
  Proof. intros Hs Ht. unfold dist_sq. rewrite !(ctr_moved s), !(ctr_moved t) by (assumption || lia). ring. Qed.
  Lemma est_moved s t L p q : (0 <= s < nbas)%Z -> (0 <= t < nbas)%Z -> (0 <= p < v_np V s)%Z -> (0 <= q < v_np V t)%Z -> pair_est V ev' lm s t L p q = pair_est V ev lm s t L p q.
  Proof.
    intros Hs Ht Hp Hq. unfold pair_est. rewrite dist_moved, !(ex_moved s), !(ex_moved t), (last_moved s p), (last_moved t q) by assumption. destruct HM as (_ & -> & _). reflexivity.
  Qed.
  Lemma near_moved a b c e A B C D A' B' C' D' w x : a + b <> 0 -> c + e <> 0 ->
    (forall ax, (0 <= ax < 3)%Z -> A' ax = A ax + d ax /\ B' ax = B ax + d ax /\ C' ax = C ax + d ax /\ D' ax = D ax + d ax) ->
    (near_enough w (a + b) (c + e) (product_centre a b A' B') (product_centre c e C' D') x <-> near_enough w (a + b) (c + e) (product_centre a b A B) (product_centre c e C D) x).
  Proof.
    intros N1 N2 E. unfold near_enough.
    assert (EP : forall ax, (0 <= ax < 3)%Z -> product_centre a b A' B' ax = product_centre a b A B ax + d ax /\ product_centre c e C' D' ax = product_centre c e C D ax + d ax).
    { intros ax Hax. destruct (E ax Hax) as (E1 & E2 & E3 & E4). unfold product_centre. rewrite E1, E2, E3, E4. split; field; assumption. }
    replace (QuadSpec.dist2 (product_centre a b A' B') (product_centre c e C' D')) with (QuadSpec.dist2 (product_centre a b A B) (product_centre c e C D)); [tauto|].
    unfold QuadSpec.dist2. destruct (EP 0%Z ltac:(lia)) as [-> ->]. destruct (EP 1%Z ltac:(lia)) as [-> ->]. destruct (EP 2%Z ltac:(lia)) as [-> ->]. ring.
  Qed.
  Lemma ctrs_moved ax : (0 <= ax < 3)%Z -> ctr V ev' i ax = ctr V ev i ax + d ax /\ ctr V ev' j ax = ctr V ev j ax + d ax /\ ctr V ev' k ax = ctr V ev k ax + d ax /\ ctr V ev' l ax = ctr V ev l ax + d ax.
  Proof. intros Hx. rewrite !ctr_moved by assumption. auto. Qed.
  Lemma raised_moved L o C p q : (0 <= p < v_np V i)%Z -> (0 <= q < v_np V j)%Z -> raised V ev' i j L o C = raised V ev i j L o C.
  Proof. intros Hp Hq. unfold raised. rewrite dist_moved, (last_moved i p), (last_moved j q) by assumption. destruct HM as (_ & -> & _). reflexivity. Qed.
  Lemma kept_moved ng o md ip jp kp lp : (0 <= ip < v_np V i)%Z -> (0 <= jp < v_np V j)%Z -> (0 <= kp < v_np V k)%Z -> (0 <= lp < v_np V l)%Z ->
    (kept4 V ev' lm ng o md i j k l ip jp kp lp <-> kept4 V ev lm ng o md i j k l ip jp kp lp).
  Proof.
    intros H1 H2 H3 H4. specialize (Pi ip H1). specialize (Pj jp H2). specialize (Pk kp H3). specialize (Pl lp H4).
    unfold kept4. cbv zeta. rewrite !ex_moved by assumption. unfold degree_kl. rewrite (raised_moved _ _ _ ip jp) by assumption.
    destruct HM as (M0 & M8 & _). rewrite M0, M8.
    destruct md as [|stored]; rewrite !(est_moved i j), !(est_moved k l) by assumption;
      rewrite (near_moved _ _ _ _ (ctr V ev i) (ctr V ev j) (ctr V ev k) (ctr V ev l)) by (lra || exact ctrs_moved); reflexivity.
  Qed.
  Lemma eri4_moved ip jp kp lp ti tj tk tl c D : (0 <= ip < v_np V i)%Z -> (0 <= jp < v_np V j)%Z -> (0 <= kp < v_np V k)%Z -> (0 <= lp < v_np V l)%Z ->
    eri4 V ev' i j k l ip jp kp lp ti tj tk tl [(c, m_one)] D -> eri4 V ev i j k l ip jp kp lp ti tj tk tl [(c, m_one)] D.
  Proof.
    intros H1 H2 H3 H4. specialize (Pi ip H1). specialize (Pj jp H2). specialize (Pk kp H3). specialize (Pl lp H4).
    unfold eri4. rewrite !ex_moved by assumption. destruct HM as (_ & -> & _). apply value_one. intros v. apply (term2_move _ _ _ _ _ _ _ _ _ _ _ _ d); [lra|lra|exact ctrs_moved].
  Qed.
  Lemma Y_moved f o md c Y1 Y2 : factor (t_e e_int2e) = Some f ->
    (0 <= v_l V i <= 15)%Z -> (0 <= v_l V j <= 15)%Z -> (0 <= v_l V k <= 15)%Z -> (0 <= v_l V l <= 15)%Z ->
    ok4 V ev e_int2e f i j k l c (kept4 V ev lm ng0 o md i j k l) Y1 -> ok4 V ev' e_int2e f i j k l c (kept4 V ev' lm ng0 o md i j k l) Y2 ->
    forall ic jc kc lc a b c' e, (0 <= ic < v_nc V i)%Z -> (0 <= jc < v_nc V j)%Z -> (0 <= kc < v_nc V k)%Z -> (0 <= lc < v_nc V l)%Z ->
      (0 <= a < CINTlen_cart (v_l V i))%Z -> (0 <= b < CINTlen_cart (v_l V j))%Z -> (0 <= c' < CINTlen_cart (v_l V k))%Z -> (0 <= e < CINTlen_cart (v_l V l))%Z ->
      Y1 0%Z ic jc kc lc a b c' e = Y2 0%Z ic jc kc lc a b c' e.
  Proof.
    intros Ef Li Lj Lk Ll O1 O2 ic jc kc lc a b c' e Ci Cj Ck Cl Ha Hb Hc He.
    destruct (cart_nth _ _ (proj1 Li) Ha) as [ti E1]. destruct (cart_nth _ _ (proj1 Lj) Hb) as [tj E2]. destruct (cart_nth _ _ (proj1 Lk) Hc) as [tk E3]. destruct (cart_nth _ _ (proj1 Ll) He) as [tl E4].
    assert (E5 : nth_error (components (t_d e_int2e) (sis (en_c2s1 (t_e e_int2e))) (sis (en_c2s2 (t_e e_int2e)))) 0 = Some (S1, S1, [(cq1, m_one)])) by reflexivity.
    destruct (O1 _ _ _ _ 0%nat ic jc kc lc _ _ _ _ _ _ _ E1 E2 E3 E4 E5) as (S & X1 & X2). destruct (O2 _ _ _ _ 0%nat ic jc kc lc _ _ _ _ _ _ _ E1 E2 E3 E4 E5) as (S' & X3 & X4).
    assert (ES : S = S').
    { refine (summed4_unique V ev _ i j k l ic jc kc lc ti tj tk tl _ S S' X1 _). destruct X3 as (D & K & Z1 & ->). exists D, K. split.
      - intros ip jp kp lp H1 H2 H3 H4. destruct (Z1 ip jp kp lp H1 H2 H3 H4) as [Z2 Z3]. rewrite <- (kept_moved ng0 o md ip jp kp lp H1 H2 H3 H4). split; [exact Z2|].
        intros X. apply eri4_moved; try assumption. apply Z3, X.
      - destruct HM as (_ & _ & H). apply csumz_ext. intros lp H4. apply csumz_ext. intros kp H3. apply csumz_ext. intros jp H2. apply csumz_ext. intros ip H1.
        destruct (H i Hi) as (_ & _ & ->); [|assumption..]. destruct (H j Hj) as (_ & _ & ->); [|assumption..]. destruct (H k Hk) as (_ & _ & ->); [|assumption..]. destruct (H l Hl) as (_ & _ & ->); [|assumption..]. reflexivity. }
    rewrite !Z2Nat.id in X2, X4 by lia. cbn [Z.of_nat] in X2, X4. rewrite ES, <- X4 in X2. apply C_cancel in X2; [|apply front_no0; [exact cat_2e|exact Ef]]. apply (f_equal fst) in X2. exact X2.
  Qed.
End Moved.
