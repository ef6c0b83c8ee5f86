(** Whole2Zero.v — the two-electron primitive computation with prefactor 0, for arbitrary pair centres: it runs
    and adds nothing.  (The pair data hold the centre (1e18, 1e18, 1e18) and the factor 0 for the
    pairs CINTset_pairdata discards; the four-centre loop can still reach them.) *)
From Coq Require Import Reals Lra QArith Qreals String FunctionalExtensionality.
From Coquelicot Require Import Coquelicot.
From Verif Require Import Base BasModel BasSpec BasProof EnvModel IdxModel IdxSpec IdxProof OpSpec OpReal RecModel RecRModel RecSpec RecMoments GaussInt Gauss2Int Rec1Real
  Rec2RModel Rec2Spec Rec2Real Rec2Kern UnrEnv IntgModel IntgSpec IntgTab IntgStmt IntgCheck IntgStep IntgSem IntgFinal IntgAll IntgEx IntgOvlp IntgReal
  QuadSpec QuadPoly QuadSub Quad2e QuadMain OperSpec OperModel OperDeg OperNuc OperKeep Oper2e GiaoProof.
Local Open Scope R_scope.

Lemma exp_cancel s : exp (- s) * exp s = 1.
Proof. rewrite <- exp_plus. replace (- s + s) with 0 by ring. apply exp_0. Qed.

Section Zint.
  Variables (a : centre -> R) (A : centre -> Z -> R) (rij rkl : Z -> R) (U W : Z -> R).
  Hypothesis (Hp : 0 < a CI + a CJ) (Hq : 0 < a CK + a CL).
  Let p := a CI + a CJ.
  Let q := a CK + a CL.
  Definition zrho (o : Z) : R := p * q / (p + q) * node U o.
  Definition up (c : centre) (ax : Z) (x : R) : R := exp (a c * ((x - A c ax) * (x - A c ax))).
  Definition zw (ax o : Z) (x y : R) : R :=
    up CI ax x * up CJ ax x * (up CK ax y * up CL ax y) * wgt2 p q (zrho o) (rij ax) (rkl ax) x y.
  Definition zint (ax o : Z) (F : funs) : R :=
    RecSpec.origin 1 (W o) ax / (1 * Gauss2Int.norm2 p q (zrho o) (rij ax) (rkl ax)) *
    plane (fun x y => F CI x * F CJ x * (F CK y * F CL y) * zw ax o x y).

  Lemma zrho_pos o : 0 <= zrho o.
  Proof. unfold zrho. apply Rmult_le_pos; [|apply node_pos]. apply Rlt_le, Rdiv_lt_0_compat; unfold p, q; nra. Qed.
  Definition ztab (ax o : Z) (w : R) : Z -> Z -> Z -> Z -> R :=
    S4 0 Rplus Rmult Rminus IZR (var11 p q (zrho o)) (var22 p q (zrho o)) (var12 p q (zrho o))
      (mean1 p q (zrho o) (rij ax) (rkl ax) - A CI ax) (mean1 p q (zrho o) (rij ax) (rkl ax) - A CJ ax)
      (mean2 p q (zrho o) (rij ax) (rkl ax) - A CK ax) (mean2 p q (zrho o) (rij ax) (rkl ax) - A CL ax) w.
  Lemma mono_is ax o w i j k l : exists v,
    RIntPlane (fun x y => (x - A CI ax) ^ i * (x - A CJ ax) ^ j * ((y - A CK ax) ^ k * (y - A CL ax) ^ l) * wgt2 p q (zrho o) (rij ax) (rkl ax) x y) v /\
    ztab ax o w (Z.of_nat i) (Z.of_nat j) (Z.of_nat k) (Z.of_nat l) = w / (1 * Gauss2Int.norm2 p q (zrho o) (rij ax) (rkl ax)) * v.
  Proof.
    destruct (plane_is_table p q (zrho o) (rij ax) (rkl ax) Hp Hq (zrho_pos o) 1 (wgt2 p q (zrho o) (rij ax) (rkl ax))
      (A CI ax) (A CJ ax) (A CK ax) (A CL ax) (ztab ax o w) w) as (_ & _ & HI).
    - lra.
    - intros. ring.
    - unfold ztab. exact (S4_ok 0 1 Rplus Rmult Rminus Ropp IZR RTheory eq_refl IZR_S _ _ _ _ _ _ _ _).
    - reflexivity.
    - exact (HI i j k l).
  Qed.

  Section Has.
    Variables (ax o : Z).
    Let G := wgt2 p q (zrho o) (rij ax) (rkl ax).
    Definition hasz (d : nat) (f : R * R -> R) : Prop := exists v, RIntPlane (fun x y => f (x, y) * G x y) v.
    Lemma hasz_ext d f g : (forall x, f x = g x) -> hasz d f -> hasz d g.
    Proof. intros E (v & H). exists v. eapply plane_ext; [|exact H]. intros x y. cbv beta. rewrite E. reflexivity. Qed.
    Lemma hasz_up d d' f : (d <= d')%nat -> hasz d f -> hasz d' f.
    Proof. intros _ H. exact H. Qed.
    Lemma hasz_any d d' f : hasz d f -> hasz d' f.
    Proof. intros H. exact H. Qed.
    Lemma hasz_add d f g : hasz d f -> hasz d g -> hasz d (fun x => f x + g x).
    Proof. intros (u & H1) (v & H2). exists (u + v). eapply plane_ext; [|exact (plane_plus _ _ _ _ H1 H2)]. intros x y. cbv beta. ring. Qed.
    Lemma hasz_scal d c f : hasz d f -> hasz d (fun x => c * f x).
    Proof. intros (u & H1). exists (c * u). eapply plane_ext; [|exact (plane_scal _ c _ H1)]. intros x y. cbv beta. ring. Qed.
    Let polyz := has_poly (R * R) hasz hasz_ext hasz_up hasz_add hasz_scal.
    Lemma hasz_four P Q P' Q' : hasz 0 (fun z => peval Q' (snd z - A CL ax) * (peval P' (snd z - A CK ax) * (peval Q (fst z - A CJ ax) * (peval P (fst z - A CI ax) * 1)))).
    Proof.
      apply (hasz_any (0 + length Q')%nat). apply (polyz (fun z => snd z - A CL ax) Q' 0 (length Q') _ ltac:(lia)). intros l _.
      apply (hasz_ext _ (fun z => peval P' (snd z - A CK ax) * ((snd z - A CL ax) ^ l * (peval Q (fst z - A CJ ax) * (peval P (fst z - A CI ax) * 1))))); [intros; cbv beta; ring|].
      apply (hasz_any (0 + length P')%nat). apply (polyz (fun z => snd z - A CK ax) P' 0 (length P') _ ltac:(lia)). intros k _.
      apply (hasz_ext _ (fun z => peval Q (fst z - A CJ ax) * ((snd z - A CK ax) ^ k * ((snd z - A CL ax) ^ l * (peval P (fst z - A CI ax) * 1))))); [intros; cbv beta; ring|].
      apply (hasz_any (0 + length Q)%nat). apply (polyz (fun z => fst z - A CJ ax) Q 0 (length Q) _ ltac:(lia)). intros j _.
      apply (hasz_ext _ (fun z => peval P (fst z - A CI ax) * ((fst z - A CJ ax) ^ j * ((snd z - A CK ax) ^ k * (snd z - A CL ax) ^ l)))); [intros; cbv beta; ring|].
      apply (hasz_any (0 + length P)%nat). apply (polyz (fun z => fst z - A CI ax) P 0 (length P) _ ltac:(lia)). intros i _.
      destruct (mono_is ax o 0 i j k l) as (v & Hv & _). exists v. eapply plane_ext; [|exact Hv]. intros x y. cbn [fst snd]. fold G. ring.
    Qed.
  End Has.

  Lemma zprod_is ax o F : (forall c, gpoly (a c) (A c ax) (F c)) ->
    RIntPlane (fun x y => F CI x * F CJ x * (F CK y * F CL y) * zw ax o x y) (plane (fun x y => F CI x * F CJ x * (F CK y * F CL y) * zw ax o x y)).
  Proof.
    intros HF. destruct (HF CI) as (P & HP). destruct (HF CJ) as (Q & HQ). destruct (HF CK) as (P' & HP'). destruct (HF CL) as (Q' & HQ').
    destruct (hasz_four ax o P Q P' Q') as (v & Hv). cbn [fst snd] in Hv.
    assert (HM : RIntPlane (fun x y => F CI x * F CJ x * (F CK y * F CL y) * zw ax o x y) v).
    { eapply plane_ext; [|exact Hv]. intros x y. cbv beta. rewrite HP, HQ, HP', HQ'. unfold zw, up.
      set (e1 := a CI * _). set (e2 := a CJ * _). set (e3 := a CK * _). set (e4 := a CL * _). set (w := wgt2 _ _ _ _ _ _ _).
      transitivity (peval P (x - A CI ax) * peval Q (x - A CJ ax) * (peval P' (y - A CK ax) * peval Q' (y - A CL ax)) *
        ((exp (- e1) * exp e1) * (exp (- e2) * exp e2) * ((exp (- e3) * exp e3) * (exp (- e4) * exp e4))) * w); [rewrite !exp_cancel; ring|ring]. }
    rewrite (plane_val _ _ HM). exact HM.
  Qed.
  Lemma zint_linear c : linear_in a A zint c.
  Proof.
    intros ax o F f g s t HF Hf Hg. unfold zint.
    assert (Gf : forall c', gpoly (a c') (A c' ax) (updf F c f c')) by (intros c'; unfold updf; destruct c, c'; auto).
    assert (Gg : forall c', gpoly (a c') (A c' ax) (updf F c g c')) by (intros c'; unfold updf; destruct c, c'; auto).
    pose proof (zprod_is ax o _ Gf) as H1. pose proof (zprod_is ax o _ Gg) as H2.
    pose proof (plane_plus _ _ _ _ (plane_scal _ s _ H1) (plane_scal _ t _ H2)) as H3.
    match type of H3 with RIntPlane _ ?v => set (val := v) in * end.
    match goal with |- _ * plane ?h = _ => assert (E : plane h = val) end.
    { apply plane_val. eapply plane_ext; [|exact H3]. intros x y. cbv beta. destruct c; cbn [updf]; ring. }
    rewrite E. unfold val. ring.
  Qed.
  Lemma zcell ax o i j k l :
    ztab ax o (RecSpec.origin 1 (W o) ax) (Z.of_nat i) (Z.of_nat j) (Z.of_nat k) (Z.of_nat l) =
    zint ax o (fun c => phi (a c) (A c ax) (match c with CI => i | CJ => j | CK => k | CL => l end)).
  Proof.
    destruct (mono_is ax o (RecSpec.origin 1 (W o) ax) i j k l) as (v & Hv & ->). unfold zint. f_equal. symmetry. apply plane_val.
    eapply plane_ext; [|exact Hv]. intros x y. cbv beta. unfold zw, up, phi.
    set (e1 := a CI * _). set (e2 := a CJ * _). set (e3 := a CK * _). set (e4 := a CL * _). set (w := wgt2 _ _ _ _ _ _ _).
    transitivity ((x - A CI ax) ^ i * (x - A CJ ax) ^ j * ((y - A CK ax) ^ k * (y - A CL ax) ^ l) *
        ((exp (- e1) * exp e1) * (exp (- e2) * exp e2) * ((exp (- e3) * exp e3) * (exp (- e4) * exp e4))) * w); [rewrite !exp_cancel; ring|ring].
  Qed.
  Lemma zint_swap ax o n : A CL = A CK ->
    zint ax o (fun c => phi (a c) (A c ax) (match c with CI => n CI | CJ => n CJ | CK => O | CL => n CK end)) =
    zint ax o (fun c => phi (a c) (A c ax) (match c with CI => n CI | CJ => n CJ | CK => n CK | CL => O end)).
  Proof. intros E. unfold zint. f_equal. f_equal. extensionality x. extensionality y. unfold zw, up. rewrite E. unfold phi. ring. Qed.
End Zint.

Lemma zcells_fam fam om ng (l ctr : centre -> Z) a A rij rkl U W g' : fam = F2e \/ fam = F3c2e \/ fam = F2c2e -> ng_ok ng -> (forall c, 0 <= l c)%Z -> partners fam A ->
  0 < a CI + a CJ -> 0 < a CK + a CL ->
  let e := fam_env fam om ng l ctr in
  (forall n, (0 <= n < nrys_roots e)%Z -> 0 <= U n) ->
  tcells e (a CI) (a CJ) (a CK) (a CL) (A CI) (A CJ) (A CK) (A CL) rij rkl U W g' ->
  forall ax o n, (0 <= ax < 3)%Z -> (0 <= o < nrys_roots e)%Z -> (forall c, 0 <= n c <= top fam ng l c)%Z ->
    rd g' (ax * g_size e + IntgStmt.cell e o n)%Z = Some (zint a A rij rkl U W ax o (fun c => phi (a c) (A c ax) (Z.to_nat (n c)))).
Proof.
  intros Hfam (N1 & N2 & N3 & N4 & _) Hl HP Hp Hq e HU HE ax o n Hax Hoo Hn. pose proof (HU o Hoo) as HUo.
  pose proof (Hn CI) as NI. pose proof (Hn CJ) as NJ. pose proof (Hn CK) as NK. pose proof (Hn CL) as NL. clear Hn.
  assert (EF : (fun c => phi (a c) (A c ax) (Z.to_nat (n c))) =
    (fun c => phi (a c) (A c ax) (match c with CI => Z.to_nat (n CI) | CJ => Z.to_nat (n CJ) | CK => Z.to_nat (n CK) | CL => Z.to_nat (n CL) end))).
  { extensionality c. destruct c; reflexivity. }
  rewrite EF. clear EF.
  assert (HX : forall i j k m : Z, inbox e o i j k m ->
     rd g' (ax * g_size e + adrs e o i j k m)%Z = Some (zint a A rij rkl U W ax o (fun c => phi (a c) (A c ax) (match c with CI => Z.to_nat i | CJ => Z.to_nat j | CK => Z.to_nat k | CL => Z.to_nat m end)))).
  { intros i j k m Hb. pose proof Hb as (B0 & B1 & B2 & B3 & B4). rewrite (HE ax o i j k m Hax Hb). f_equal.
    rewrite <- (zcell a A rij rkl U W Hp Hq ax o (Z.to_nat i) (Z.to_nat j) (Z.to_nat k) (Z.to_nat m)). rewrite !Z2Nat.id by lia.
    unfold tabn, ztab, zrho. rewrite (node_eq U o HUo). reflexivity. }
  unfold top in NI, NJ, NK, NL. destruct HP as [P1 P2].
  destruct Hfam as [-> | [-> | ->]]; unfold incr in NI, NJ, NK, NL; cbn in NI, NJ, NK, NL.
  - replace (IntgStmt.cell e o n) with (adrs e o (n CI) (n CJ) (n CK) (n CL)) by (unfold adrs, IntgStmt.cell; ring).
    apply HX. repeat split; try lia; unfold e; cbn; lia.
  - replace (IntgStmt.cell e o n) with (adrs e o (n CI) (n CJ) 0 (n CK)).
    2:{ replace (n CL) with 0%Z by lia. unfold adrs, IntgStmt.cell. replace (n CL) with 0%Z by lia. replace (g_stride_l e) with (g_stride_k e) by reflexivity. ring. }
    rewrite HX.
    + f_equal. replace (n CL) with 0%Z by lia. exact (zint_swap a A rij rkl U W ax o (fun c => Z.to_nat (n c)) (P2 eq_refl)).
    + repeat split; try lia; unfold e; cbn; lia.
  - replace (IntgStmt.cell e o n) with (adrs e o (n CI) (n CJ) (n CK) (n CL)) by (unfold adrs, IntgStmt.cell; ring).
    apply HX. repeat split; try lia; unfold e; cbn; lia.
Qed.

Lemma zmval a A O I rts pw m : (forall o F, In o rts -> I 2%Z o F = 0) -> mval a A O I rts pw m = 0.
Proof.
  intros H. unfold mval. assert (E : forall (f : Z -> R) l, (forall o, In o l -> f o = 0) -> rsum (map f l) = 0).
  { intros f l. induction l as [|o l IH]; intros Hf; [reflexivity|]. cbn [map]. rewrite rsum_cons, (Hf o (or_introl eq_refl)), (IH (fun o' Ho => Hf o' (or_intror Ho))). ring. }
  rewrite E; [ring|]. intros o Ho. assert (term a A O I pw m o 2 = 0) as -> by (unfold term; apply H; exact Ho). ring.
Qed.
Lemma zden a A O I rts pw q : (forall o F, In o rts -> I 2%Z o F = 0) -> den a A O I rts pw q = RtoC 0.
Proof.
  intros H. induction q as [|[c m] q IH]; [reflexivity|].
  change (den a A O I rts pw ((c, m) :: q)) with (cval c * RtoC (mval a A O I rts pw m) + den a A O I rts pw q)%C.
  rewrite IH, zmval by exact H. ring.
Qed.

Lemma eri_zero t ng om (l ctr : centre -> Z) (a : centre -> R) (A : centre -> Z -> R) (O : Z -> R) (rij rkl : Z -> R) rys srys omega cutoff idx idx' g gout empty :
  In t catalogue -> en_fam (t_e t) = F2e \/ en_fam (t_e t) = F3c2e \/ en_fam (t_e t) = F2c2e -> ~ In (en_name (t_e t)) except_names -> ent_ng t = Some ng ->
  let fam := en_fam (t_e t) in
  (forall c, 0 <= l c <= 15)%Z -> (forall c, used fam c = false -> l c = 0)%Z -> partners fam A ->
  0 < a CI + a CJ -> 0 < a CK + a CL ->
  let e := fam_env fam om ng l ctr in let x := mkgin e 0 a A O in let nc := Z.of_nat (length (g_rows (t_f t))) in
  (nrys_roots e <= 32)%Z ->
  (forall m y n, (0 <= n < m)%Z -> 0 <= y -> 0 <= fst (rys m y) n) ->
  (forall m y z n, (0 <= n < m)%Z -> 0 <= y -> 0 <= fst (srys m y z) n) ->
  (3 * nf e <= asize idx)%Z -> index_fun fam e idx = Some idx' -> ((2 ^ GSHIFT ng + 1) * (3 * g_size e) <= asize g)%Z -> (4 * g_size e <= asize g)%Z -> filled g ->
  (nf e * nc <= asize gout)%Z -> (empty = false -> filled gout) ->
  let a0 := (a CI + a CJ) * (a CK + a CL) / (a CI + a CJ + (a CK + a CL)) in
  let tx := omega * omega / (omega * omega + a0) * (a0 * dist2 rij rkl) in
  exists b g', R_g0_2e rys srys (kernel fam ng l e A) e omega cutoff 0 (a CI) (a CJ) (a CK) (a CL) rij rkl (rx_ij fam ng l A) (rx_kl fam ng l A) g = Some (b, g') /\
    filled g' /\ asize g' = asize g /\ (b = false <-> omega < 0 /\ (cutoff < tx \/ 40 < tx)) /\
    (b = true -> exists gout', run_gout 0 1 Rplus Rmult Rminus IZR x (t_f t) empty idx' g' gout = Some gout' /\
      Frame (fun q => 0 <= q < nf e * nc)%Z gout gout' /\
      forall (i j k n kk : nat) ti tj tk tl s1 s2 q, nth_error (cart_list (l CI)) i = Some ti -> nth_error (cart_list (l CJ)) j = Some tj ->
        nth_error (cart_list (l CK)) k = Some tk -> nth_error (cart_list (l CL)) n = Some tl ->
        nth_error (components (t_d t) (sis (en_c2s1 (t_e t))) (sis (en_c2s2 (t_e t)))) kk = Some (s1, s2, q) ->
        let p := ((((Z.of_nat j * Z.of_nat (length (cart_list (l CL))) + Z.of_nat n) * Z.of_nat (length (cart_list (l CK))) + Z.of_nat k)
                  * Z.of_nat (length (cart_list (l CI))) + Z.of_nat i) * nc + Z.of_nat kk)%Z in
        exists old, rd gout' p = Some old /\ (if empty then old = 0 else rd gout p = Some old)).
Proof.
  intros Ht Hfam Hex En fam Hl Hu HP Hp Hq e x nc Hnr Hrys Hsr Hidx Ei Hs Hs4 Hg Ho Hold a0 tx.
  assert (Hf4 : four_fam fam) by (unfold four_fam, fam; tauto).
  destruct (two_facts t ng Ht Hf4 En) as (EK & Hng & Hparts & HJ & HL).
  destruct (idx_four fam om ng l ctr idx Hf4 Hng Hl Hu Hidx) as (idx2 & Ei2 & HT & Hnf & _). fold e in Ei2, HT, Hnf.
  rewrite Ei in Ei2. injection Ei2 as <-.
  pose proof (setup_of fam om ng l ctr A Hfam Hng ltac:(intros c; specialize (Hl c); lia) HP) as HSet. cbv zeta in HSet. fold e in HSet.
  destruct (coulomb_ok _ _ _ _ _ _ _ _ HSet) as (LY & KS & Hro).
  pose proof (g0_2e_ok e (a CI) (a CJ) (a CK) (a CL) (A CI) (A CJ) (A CK) (A CL) _ _ _ LY KS Hp Hq rij rkl Hnr Hro rys srys Hrys Hsr omega cutoff 0 g Hs4) as HG.
  destruct (proj1 (wp_exists _ _) HG) as ([b g'] & Eg & H1 & H2 & H3). cbv zeta in H1, H3. cbn [fst snd] in H1, H2, H3.
  exists b, g'. split; [exact Eg|].
  assert (Hg' : filled g').
  { eapply grow_filled; [|exact Hg]. exact (g0_2e_keeps _ e (fun bc => setup_keeps _ _ _ _ _ _ _ _ bc HSet) rys srys omega cutoff 0 _ _ _ _ _ _ _ _ g (b, g') Eg). }
  split; [exact Hg'|]. split; [destruct b; [exact (proj1 (proj1 (H3 eq_refl)))|rewrite (H2 eq_refl); reflexivity]|].
  split; [exact H1|]. intros Hb. destruct (H3 Hb) as (HF & U & W & HN & HU & HC).
  assert (HW : forall n, (0 <= n < nrys_roots e)%Z -> W n = 0).
  { intros n Hn. destruct (HN n Hn) as (W1 & W2 & W3 & W4). unfold Rdiv in W1, W2, W3, W4. rewrite Rmult_0_l in W1, W2, W3, W4.
    destruct (Rtotal_order omega 0) as [E|[E|E]].
    - destruct (Z.eq_dec (rys_order e) (nrys_roots e)) as [Er|Er]; [rewrite (proj2 (W3 E Er)); ring|].
      destruct (W4 E Er) as [W5 W6]. destruct (Z_lt_ge_dec n (rys_order e)) as [L|L]; [rewrite (proj2 (W5 L))|rewrite (proj2 (W6 ltac:(lia)))]; ring.
    - rewrite (proj2 (W1 E)). ring.
    - rewrite (proj2 (W2 E)). ring. }
  pose proof (zcells_fam fam om ng l ctr a A rij rkl U W g' Hfam Hng ltac:(intros c; specialize (Hl c); lia) HP Hp Hq HU HC) as Hcell. fold e in Hcell.
  pose proof (call4 t ng om l ctr a A O (zint a A rij rkl U W) empty idx' g' gout EK En Hl Hu Hnf HT) as CALL. fold fam e in CALL.
  specialize (CALL ltac:(rewrite (proj1 HF); exact Hs) Hg' (zint_linear a A rij rkl U W Hp Hq) Hcell Ho Hold).
  assert (C4 : named except_names t = false).
  { unfold named. apply Bool.not_true_iff_false. intros E. apply existsb_exists in E. destruct E as (s & Hs' & E).
    apply String.eqb_eq in E. apply Hex. rewrite E. exact Hs'. }
  pose proof (ent_of_all t Ht C4) as EO. rewrite Hparts in EO.
  pose proof (ent_ok_sound _ _ _ _ EO _ _ _ _ _ _ _ _ _ _ _ CALL ltac:(discriminate)) as HComp.
  destruct (computes4 t ng om l ctr a A O (zint a A rij rkl U W) empty idx' g' gout EK Hl Hu Hnf (zint_linear a A rij rkl U W Hp Hq) Hcell _ HComp) as (gout' & f & Er & Ef & Hfr & Hv).
  exists gout'. split; [exact Er|]. split; [exact Hfr|].
  intros i j k n kk ti tj tk tl s1 s2 q E1 E2 E3 E4 E5 p. destruct (Hv i j k n kk ti tj tk tl s1 s2 q E1 E2 E3 E4 E5) as (v & old & V1 & V2 & V3).
  rewrite EK in V3. cbn [roots] in V3. fold fam e in V3.
  rewrite zden in V3.
  2:{ intros o F Hin. apply in_map_iff in Hin. destruct Hin as (k' & <- & Hk'). apply in_seq in Hk'. unfold zint, RecSpec.origin.
      rewrite HW by lia. cbn [Z.eqb Pos.eqb]. unfold Rdiv. ring. }
  exists old. split; [|exact V2]. unfold p, nc. fold fam in V1. rewrite V1. f_equal.
  destruct (Req_dec v 0) as [->|Hv0]; [ring|]. exfalso. revert V3. apply Cmult_neq_0.
  - rewrite <- cmul1. apply factor_ne; assumption.
  - intros X. apply Hv0. injection X as X. exact X.
Qed.
