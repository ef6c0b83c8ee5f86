(** WholeFlip.v — exchanging the two electrons. *)
From Coq Require Import Reals Lra Psatz QArith Qreals String.
From Coquelicot Require Import Coquelicot.
From Verif Require Import Base BasModel BasSpec EnvModel IdxModel IdxSpec CtrModel
  OptModel OptSpec OptPair ScreenSpec ScreenProof ScreenFinal OutModel OutSpec TabModel
  OpSpec RecModel RecSpec RecMoments GaussInt Rec1Real Gauss2Int IntgModel IntgSpec IntgTab IntgStmt IntgAll IntgReal QuadSpec OperSpec OperModel Oper2e
  WholeModel WholeSpec WholeBatch Whole1e Whole2Model Whole2Batch Whole2Spec Whole4c Whole3c Whole2c WholeOptModel WholeOptSpec WholeSame PropsWhole5 WholePerm.
Local Open Scope R_scope.

(** ** The order of integration does not matter *)
Section Fubini.
  Variables (p q r P Q : R).
  Hypothesis (Hp : 0 < p) (Hq : 0 < q) (Hr : 0 <= r).
  Lemma det2_flip : det2 q p r = det2 p q r. Proof. unfold det2. ring. Qed.
  Lemma norm2_flip : Gauss2Int.norm2 q p r Q P = Gauss2Int.norm2 p q r P Q.
  Proof.
    pose proof (det2_pos p q r Hp Hq Hr) as Hd. pose proof PI_RGT_0 as Hpi. unfold Gauss2Int.norm2. rewrite det2_flip. rewrite !Rmult_assoc. f_equal.
    - f_equal. f_equal. field. lra.
    - assert (E : forall u, 0 < u -> sqrt (PI / u) * sqrt (PI / (det2 p q r / u)) = sqrt (PI * PI / det2 p q r)).
      { intros u Hu. rewrite <- sqrt_mult; [f_equal; field; lra| |]; apply Rlt_le; repeat apply Rdiv_lt_0_compat; lra. }
      rewrite !E by lra. reflexivity.
  Qed.
  Lemma mean1_flip : mean1 q p r Q P = mean2 p q r P Q.
  Proof. pose proof (det2_pos p q r Hp Hq Hr) as Hd. unfold mean1, mean2. rewrite det2_flip. field. lra. Qed.
  Lemma mean2_flip : mean2 q p r Q P = mean1 p q r P Q.
  Proof. pose proof (det2_pos p q r Hp Hq Hr) as Hd. unfold mean1, mean2. rewrite det2_flip. field. lra. Qed.
  Lemma plane_flip A B C D i j k l I :
    RIntPlane (fun x y => (x - A) ^ i * (x - B) ^ j * ((y - C) ^ k * (y - D) ^ l) * wgt2 p q r P Q x y) I ->
    RIntPlane (fun x y => (x - C) ^ k * (x - D) ^ l * ((y - A) ^ i * (y - B) ^ j) * wgt2 q p r Q P x y) I.
  Proof.
    intros H.
    destruct (gauss2_exist 0 1 Rplus Rmult Rminus Ropp IZR RTheory eq_refl IZR_S (var11 p q r) (var22 p q r) (var12 p q r)
       (mean1 p q r P Q - A) (mean1 p q r P Q - B) (mean2 p q r P Q - C) (mean2 p q r P Q - D) (Gauss2Int.norm2 p q r P Q)) as (T & GT & T0).
    rewrite (plane_unique _ _ _ H (plane_table p q r P Q Hp Hq Hr A B C D T GT T0 i j k l)).
    apply (plane_table q p r Q P Hq Hp Hr C D A B (fun a b c d => T c d a b)).
    - rewrite mean1_flip, mean2_flip. replace (var11 q p r) with (var22 p q r) by (unfold var11, var22; rewrite det2_flip; reflexivity).
      replace (var22 q p r) with (var11 p q r) by (unfold var11, var22; rewrite det2_flip; reflexivity).
      replace (var12 q p r) with (var12 p q r) by (unfold var12; rewrite det2_flip; reflexivity).
      split; intros a b c d Ha Hb Hc Hd.
      + rewrite (g2_k _ _ _ _ _ _ _ _ _ _ _ GT) by assumption. ring.
      + rewrite (g2_l _ _ _ _ _ _ _ _ _ _ _ GT) by assumption. ring.
      + rewrite (g2_i _ _ _ _ _ _ _ _ _ _ _ GT) by assumption. ring.
      + rewrite (g2_j _ _ _ _ _ _ _ _ _ _ _ GT) by assumption. ring.
    - rewrite norm2_flip. exact T0.
  Qed.
End Fubini.

(** four Gaussian functions and the coupling exp(-s^2 (x-y)^2) *)
Lemma four_phi ai aj ak al A B C D i j k l s x y : ai + aj <> 0 -> ak + al <> 0 ->
  phi ai A i x * phi aj B j x * (phi ak C k y * phi al D l y) * exp (- (s * s * ((x - y) * (x - y)))) =
  exp (- (ai * aj / (ai + aj) * ((A - B) * (A - B)))) * exp (- (ak * al / (ak + al) * ((C - D) * (C - D)))) *
  ((x - A) ^ i * (x - B) ^ j * ((y - C) ^ k * (y - D) ^ l) * wgt2 (ai + aj) (ak + al) (s * s) ((ai * A + aj * B) / (ai + aj)) ((ak * C + al * D) / (ak + al)) x y).
Proof.
  intros H1 H2. unfold phi, wgt2, form2.
  set (X1 := (x - A) ^ i). set (X2 := (x - B) ^ j). set (X3 := (y - C) ^ k). set (X4 := (y - D) ^ l).
  transitivity (X1 * X2 * (X3 * X4) * (exp (- (ai * ((x - A) * (x - A)))) * exp (- (aj * ((x - B) * (x - B)))) * (exp (- (ak * ((y - C) * (y - C)))) * exp (- (al * ((y - D) * (y - D))))) * exp (- (s * s * ((x - y) * (x - y)))))); [ring|].
  transitivity (X1 * X2 * (X3 * X4) * (exp (- (ai * aj / (ai + aj) * ((A - B) * (A - B)))) * exp (- (ak * al / (ak + al) * ((C - D) * (C - D)))) *
    exp (- ((ai + aj) * ((x - (ai * A + aj * B) / (ai + aj)) * (x - (ai * A + aj * B) / (ai + aj))) + (ak + al) * ((y - (ak * C + al * D) / (ak + al)) * (y - (ak * C + al * D) / (ak + al))) + s * s * ((x - y) * (x - y)))))); [|ring].
  f_equal. rewrite <- !exp_plus. f_equal. field. split; assumption.
Qed.
Lemma phi_flip ai aj ak al A B C D i j k l s I : 0 < ai + aj -> 0 < ak + al ->
  RIntPlane (fun x y => phi ai A i x * phi aj B j x * (phi ak C k y * phi al D l y) * exp (- (s * s * ((x - y) * (x - y))))) I ->
  RIntPlane (fun x y => phi ak C k x * phi al D l x * (phi ai A i y * phi aj B j y) * exp (- (s * s * ((x - y) * (x - y))))) I.
Proof.
  intros H1 H2 H. assert (N1 : ai + aj <> 0) by lra. assert (N2 : ak + al <> 0) by lra.
  set (K := exp (- (ai * aj / (ai + aj) * ((A - B) * (A - B)))) * exp (- (ak * al / (ak + al) * ((C - D) * (C - D))))).
  assert (HK : K <> 0). { unfold K. pose proof (exp_pos (- (ai * aj / (ai + aj) * ((A - B) * (A - B))))). pose proof (exp_pos (- (ak * al / (ak + al) * ((C - D) * (C - D))))). nra. }
  assert (H3 : RIntPlane (fun x y => (x - A) ^ i * (x - B) ^ j * ((y - C) ^ k * (y - D) ^ l) * wgt2 (ai + aj) (ak + al) (s * s) ((ai * A + aj * B) / (ai + aj)) ((ak * C + al * D) / (ak + al)) x y) (/ K * I)).
  { eapply plane_ext; [|exact (plane_scal _ (/ K) _ H)]. intros x y. cbv beta. rewrite four_phi by assumption. fold K. rewrite <- Rmult_assoc, Rinv_l, Rmult_1_l by exact HK. reflexivity. }
  apply plane_flip in H3; [|exact H1|exact H2|nra].
  replace I with (K * (/ K * I)) by (field; exact HK).
  eapply plane_ext; [|exact (plane_scal _ K _ H3)]. intros x y. cbv beta. rewrite (four_phi ak al ai aj C D A B k l i j s x y N2 N1). unfold K. ring.
Qed.
Lemma term2_flip ai aj ak al (A B C D : Z -> R) O pw pw' op v : 0 < ai + aj -> 0 < ak + al ->
  (forall ax, pw' ax CI = pw ax CK /\ pw' ax CJ = pw ax CL /\ pw' ax CK = pw ax CI /\ pw' ax CL = pw ax CJ) ->
  term2 (exps4 ai aj ak al) (centres4 A B C D) O pw op m_one v -> term2 (exps4 ak al ai aj) (centres4 C D A B) O pw' op m_one v.
Proof.
  intros H1 H2 E (W & (I & X1 & X2) & ->). exists W. split; [|rewrite !rpow_one; reflexivity]. exists I. split; [|exact X2]. intros ax s Hax. specialize (X1 ax s Hax).
  rewrite !fun_one in X1 |- *. unfold base in *. cbn [exps4 centres4] in *. destruct (E ax) as (-> & -> & -> & ->). apply phi_flip; assumption.
Qed.
Lemma eri4_flip V ev i j k l ip jp kp lp ti tj tk tl c D : 0 < ex V ev i ip + ex V ev j jp -> 0 < ex V ev k kp + ex V ev l lp ->
  eri4 V ev k l i j kp lp ip jp tk tl ti tj [(c, m_one)] D -> eri4 V ev i j k l ip jp kp lp ti tj tk tl [(c, m_one)] D.
Proof. intros H1 H2. unfold eri4. apply value_one. intros v. apply term2_flip; [exact H2|exact H1|]. intros ax. cbn. auto. Qed.
Lemma eri2_flip V ev i k ip kp ti tk c D : 0 < ex V ev i ip -> 0 < ex V ev k kp ->
  eri2 V ev k i kp ip tk ti [(c, m_one)] D -> eri2 V ev i k ip kp ti tk [(c, m_one)] D.
Proof. intros H1 H2. unfold eri2. apply value_one. intros v. apply term2_flip; [lra|lra|]. intros ax. cbn. auto. Qed.

(** ** The contracted integrals *)
Lemma csumz4_flip a b c d (F : Z -> Z -> Z -> Z -> C) :
  csumz d (fun w => csumz c (fun z => csumz b (fun y => csumz a (fun x => F x y z w)))) = csumz b (fun y => csumz a (fun x => csumz d (fun w => csumz c (fun z => F x y z w)))).
Proof.
  transitivity (csumz d (fun w => csumz b (fun y => csumz a (fun x => csumz c (fun z => F x y z w))))).
  - apply csumz_ext. intros w _. rewrite csumz_swap. apply csumz_ext. intros y _. apply csumz_swap.
  - rewrite csumz_swap. apply csumz_ext. intros y _. apply csumz_swap.
Qed.
Lemma summed4_flip V ev keep i j k l ic jc kc lc (p q : Z -> Z -> Z -> Z -> C -> Prop) S :
  (forall ip jp kp lp D, (0 <= ip < v_np V i)%Z -> (0 <= jp < v_np V j)%Z -> (0 <= kp < v_np V k)%Z -> (0 <= lp < v_np V l)%Z -> p kp lp ip jp D -> q ip jp kp lp D) ->
  summed4 V ev keep k l i j kc lc ic jc p S -> summed4 V ev (fun ip jp kp lp => keep kp lp ip jp) i j k l ic jc kc lc q S.
Proof.
  intros H (D & K & X & ->). exists (fun ip jp kp lp => D kp lp ip jp), (fun ip jp kp lp => K kp lp ip jp). split.
  - intros ip jp kp lp H1 H2 H3 H4. destruct (X kp lp ip jp H3 H4 H1 H2) as [X1 X2]. split; [exact X1|]. intros Y. apply H; try assumption. apply X2, Y.
  - rewrite csumz4_flip. apply csumz_ext. intros lp _. apply csumz_ext. intros kp _. apply csumz_ext. intros jp _. apply csumz_ext. intros ip _.
    destruct (K kp lp ip jp); [|reflexivity]. f_equal. f_equal. ring.
Qed.
Lemma summed2_flip V ev keep i k ic kc (p q : Z -> Z -> C -> Prop) S :
  (forall ip kp D, (0 <= ip < v_np V i)%Z -> (0 <= kp < v_np V k)%Z -> p kp ip D -> q ip kp D) ->
  summed2 V ev keep k i kc ic p S -> summed2 V ev (fun ip kp => keep kp ip) i k ic kc q S.
Proof.
  intros H (D & K & X & ->). exists (fun ip kp => D kp ip), (fun ip kp => K kp ip). split.
  - intros ip kp H1 H3. destruct (X kp ip H3 H1) as [X1 X2]. split; [exact X1|]. intros Y. apply H; try assumption. apply X2, Y.
  - rewrite csumz_swap. apply csumz_ext. intros kp _. apply csumz_ext. intros ip _. destruct (K kp ip); [|reflexivity]. f_equal. f_equal. ring.
Qed.
Definition exps_pos (V : view) (ev : Z -> R) (i : Z) : Prop := forall p, (0 <= p < v_np V i)%Z -> 0 < ex V ev i p.
Lemma ok4_flip V ev t f i j k l c keep Y : plain t -> exps_pos V ev i -> exps_pos V ev j -> exps_pos V ev k -> exps_pos V ev l ->
  ok4 V ev t f k l i j c keep Y ->
  ok4 V ev t f i j k l c (fun ip jp kp lp => keep kp lp ip jp) (fun n ic jc kc lc a b c d => Y n kc lc ic jc c d a b).
Proof.
  intros Hp Pi Pj Pk Pl H a b c' d kk ic jc kc lc ti tj tk tl s1 s2 q E1 E2 E3 E4 E5. destruct (H c' d a b kk kc lc ic jc tk tl ti tj s1 s2 q E3 E4 E1 E2 E5) as (S & X1 & X2).
  exists S. split; [|exact X2]. rewrite (plain_nth _ _ _ _ _ Hp E5) in *. eapply summed4_flip; [|exact X1]. intros ip jp kp lp D H1 H2 H3 H4. cbv beta.
  specialize (Pi ip H1). specialize (Pj jp H2). specialize (Pk kp H3). specialize (Pl lp H4).
  exact (eri4_flip V ev i j k l ip jp kp lp ti tj tk tl cq1 D ltac:(lra) ltac:(lra)).
Qed.

(** ** The screening *)
Lemma near_flip w p q P Q x : near_enough w p q P Q x <-> near_enough w q p Q P x.
Proof.
  unfold near_enough. cbv zeta. rewrite (Rmult_comm q p), (Rplus_comm q p). replace (QuadSpec.dist2 Q P) with (QuadSpec.dist2 P Q) by (unfold QuadSpec.dist2; ring). tauto.
Qed.
Lemma kept4_flip V ev lm o stored i j k l ip jp kp lp : kept4 V ev lm ng0 o (Opt stored) k l i j kp lp ip jp <-> kept4 V ev lm ng0 o (Opt stored) i j k l ip jp kp lp.
Proof.
  unfold kept4, pair_degree. cbn [IINC JINC KINC LINC ng0]. cbv zeta.
  set (e1 := pair_est V ev lm k l _ kp lp). set (e2 := pair_est V ev lm i j _ ip jp).
  replace (cutoff_2e false (ev 0%Z) - e2 - e1) with (cutoff_2e false (ev 0%Z) - e1 - e2) by ring. rewrite near_flip, (Rplus_comm e1 e2). tauto.
Qed.
Lemma env_flip s li lj lk ll ci cj ck cl ci' cj' ck' cl' :
  rys_order (init_int2e s ng0 lk ll li lj ci' cj' ck' cl') = rys_order (init_int2e s ng0 li lj lk ll ci cj ck cl) /\
  nrys_roots (init_int2e s ng0 lk ll li lj ci' cj' ck' cl') = nrys_roots (init_int2e s ng0 li lj lk ll ci cj ck cl).
Proof.
  unfold init_int2e, init_4c. cbn [rys_order nrys_roots IINC JINC KINC LINC ng0]. rewrite !Z.add_0_r. replace (lk + ll + li + lj)%Z with (li + lj + lk + ll)%Z by ring. split; reflexivity.
Qed.
Lemma Y_flip4 V ev lm f o md i j k l c Y1 Y2 : factor (t_e e_int2e) = Some f ->
  (0 <= v_l V i <= 15)%Z -> (0 <= v_l V j <= 15)%Z -> (0 <= v_l V k <= 15)%Z -> (0 <= v_l V l <= 15)%Z ->
  exps_pos V ev i -> exps_pos V ev j -> exps_pos V ev k -> exps_pos V ev l ->
  (md = NoOpt -> forall ip jp kp lp, (0 <= ip < v_np V i)%Z -> (0 <= jp < v_np V j)%Z -> (0 <= kp < v_np V k)%Z -> (0 <= lp < v_np V l)%Z ->
     (kept4 V ev lm ng0 o md i j k l ip jp kp lp <-> kept4 V ev lm ng0 o md k l i j kp lp ip jp)) ->
  ok4 V ev e_int2e f i j k l c (kept4 V ev lm ng0 o md i j k l) Y1 -> ok4 V ev e_int2e f k l i j c (kept4 V ev lm ng0 o md k l i j) Y2 ->
  forall ic jc kc lc a b c' d, (0 <= a < CINTlen_cart (v_l V i))%Z -> (0 <= b < CINTlen_cart (v_l V j))%Z -> (0 <= c' < CINTlen_cart (v_l V k))%Z -> (0 <= d < CINTlen_cart (v_l V l))%Z ->
    Y1 0%Z ic jc kc lc a b c' d = Y2 0%Z kc lc ic jc c' d a b.
Proof.
  intros Ef Hi Hj Hk Hl Pi Pj Pk Pl HK O1 O2 ic jc kc lc a b c' d Ha Hb Hc Hd. pose proof (ok4_flip _ _ _ _ _ _ _ _ _ _ _ plain_2e Pi Pj Pk Pl O2) as O3.
  refine (Y_same4 V ev e_int2e f i j k l c _ _ Y1 _ cat_2e (or_introl eq_refl) Ef Hi Hj Hk Hl _ O1 O3 0%Z ic jc kc lc a b c' d _ Ha Hb Hc Hd).
  - intros ip jp kp lp H1 H2 H3 H4. cbv beta. destruct md as [|stored]; [exact (HK eq_refl ip jp kp lp H1 H2 H3 H4)|]. rewrite (kept4_flip V ev lm o stored i j k l). reflexivity.
  - split; [apply Z.le_refl|reflexivity].
Qed.
Lemma TT_flip li lj lk ll I J K L (y : Z -> Z -> Z -> Z -> R) :
  TT li I (fun a => TT lk K (fun c => TT ll L (fun d => TT lj J (fun b => y a b c d)))) =
  TT lk K (fun c => TT li I (fun a => TT lj J (fun b => TT ll L (fun d => y a b c d)))).
Proof. rewrite T_swap. apply TT_ext. intros c _. apply TT_ext. intros a _. apply T_swap. Qed.

(** ** Two shells *)
Lemma plain_2c : plain e_int2c2e. Proof. reflexivity. Qed.
Lemma cat_2c : In e_int2c2e catalogue. Proof. apply (nth_error_In catalogue 6). reflexivity. Qed.
Lemma name_2c : ~ In (en_name (t_e e_int2c2e)) except_names.
Proof. intros H. cbn in H. repeat (destruct H as [H|H]; [discriminate H|]). exact H. Qed.
Lemma short_flip V ev i k ip kp : short_kept V ev k i kp ip <-> short_kept V ev i k ip kp.
Proof.
  unfold short_kept. cbv zeta. rewrite (Rmult_comm (ex V ev k kp)), (Rplus_comm (ex V ev k kp)).
  replace (QuadSpec.dist2 (ctr V ev k) (ctr V ev i)) with (QuadSpec.dist2 (ctr V ev i) (ctr V ev k)) by (unfold QuadSpec.dist2; ring). tauto.
Qed.
Lemma env_flip2 s li lk ci ck ci' ck' :
  rys_order (init_int2c2e s ng0 lk li ci' ck') = rys_order (init_int2c2e s ng0 li lk ci ck) /\ nrys_roots (init_int2c2e s ng0 lk li ci' ck') = nrys_roots (init_int2c2e s ng0 li lk ci ck).
Proof. unfold init_int2c2e. cbn [rys_order nrys_roots IINC JINC KINC LINC ng0]. rewrite !Z.add_0_r, (Z.add_comm lk li). split; reflexivity. Qed.
Definition ok2c (V : view) (ev : Z -> R) (t : ent) (f : Z * positive) (i k : Z) (c : R) (Y : Z -> Z -> Z -> Z -> Z -> R) : Prop :=
  forall (a c' kk : nat) ic kc ti tk s1 s2 q,
    nth_error (cart_list (v_l V i)) a = Some ti -> nth_error (cart_list (v_l V k)) c' = Some tk ->
    nth_error (components (t_d t) (sis (en_c2s1 (t_e t))) (sis (en_c2s2 (t_e t)))) kk = Some (s1, s2, q) ->
    exists S, summed2 V ev (short_kept V ev i k) i k ic kc (fun ip kp => eri2 V ev i k ip kp ti tk q) S /\
      (cval (cqmul (qfac f) (phase (t_e t) s1 s2)) * RtoC (Y (Z.of_nat kk) ic kc (Z.of_nat a) (Z.of_nat c')) = RtoC c * S)%C.
Lemma Y_flip2 V ev f i k c Y1 Y2 : factor (t_e e_int2c2e) = Some f -> (0 <= v_l V i <= 15)%Z -> (0 <= v_l V k <= 15)%Z -> exps_pos V ev i -> exps_pos V ev k ->
  ok2c V ev e_int2c2e f i k c Y1 -> ok2c V ev e_int2c2e f k i c Y2 ->
  forall ic kc a b, (0 <= a < CINTlen_cart (v_l V i))%Z -> (0 <= b < CINTlen_cart (v_l V k))%Z -> Y1 0%Z ic kc a b = Y2 0%Z kc ic b a.
Proof.
  intros Ef Hi Hk Pi Pk O1 O2 ic kc a b Ha Hb.
  destruct (cart_nth _ _ (proj1 Hi) Ha) as [ti E1]. destruct (cart_nth _ _ (proj1 Hk) Hb) as [tk E2].
  assert (E3 : nth_error (components (t_d e_int2c2e) (sis (en_c2s1 (t_e e_int2c2e))) (sis (en_c2s2 (t_e e_int2c2e)))) 0 = Some (S1, S1, [(cq1, m_one)])) by reflexivity.
  destruct (O1 _ _ 0%nat ic kc _ _ _ _ _ E1 E2 E3) as (S & X1 & X2). destruct (O2 _ _ 0%nat kc ic _ _ _ _ _ E2 E1 E3) as (S' & X3 & X4).
  assert (ES : S = S').
  { refine (Whole2c.summed2_unique V ev (short_kept V ev i k) i k ic kc ti tk [(cq1, m_one)] S S' X1 _).
    destruct (summed2_flip V ev _ i k ic kc _ (fun ip kp => eri2 V ev i k ip kp ti tk [(cq1, m_one)]) S' (fun ip kp D H1 H2 => eri2_flip V ev i k ip kp ti tk cq1 D (Pi ip H1) (Pk kp H2)) X3) as (D & K & Z1 & Z2).
    exists D, K. split; [|exact Z2]. intros ip kp H1 H2. destruct (Z1 ip kp H1 H2) as [Z3 Z4]. rewrite <- (short_flip V ev i k). split; [exact Z3|exact Z4]. }
  rewrite !Z2Nat.id in X2, X4 by lia. cbn [Z.of_nat] in X2, X4. rewrite ES, <- X4 in X2. apply C_cancel in X2; [|apply front_no0; [exact cat_2c|exact Ef]]. apply (f_equal fst) in X2. exact X2.
Qed.
