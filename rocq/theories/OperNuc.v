(** OperNuc.v — one-electron integrals in the field of a charge: recurrence, index table, integrand
    and quadrature together. *)
From Coq Require Import Reals Lra QArith Qreals String FunctionalExtensionality.
From Coquelicot Require Import Coquelicot.
From Verif Require Import Base BasModel BasSpec BasProof EnvModel IdxModel IdxSpec IdxProof OpSpec OpReal RecModel RecRModel GaussInt Gauss2Int Rec1Real
  IntgModel IntgSpec IntgTab IntgStmt IntgCheck IntgStep IntgSem IntgFinal IntgAll IntgEx IntgOvlp IntgReal
  QuadSpec QuadPoly QuadSub Quad2e Quad1e QuadMain OperSpec OperDeg.
Local Open Scope R_scope.

(** ** One-electron entries have no increments on shells k and l *)
Definition kl_ok (t : ent) : bool :=
  match en_fam (t_e t) with
  | F1rinv | F1nuc => match hd_error (en_ng (t_e t)) with Some g => (KINC g =? 0)%Z && (LINC g =? 0)%Z && (POS_E2 g =? 0)%Z && (0 <=? IINC g)%Z && (0 <=? JINC g)%Z | None => false end
  | _ => true
  end.
Lemma kl_checked : forallb kl_ok catalogue = true.
Proof. vm_cast_no_check (eq_refl true). Qed.
Lemma kl_zero t ng : In t catalogue -> en_fam (t_e t) = F1nuc \/ en_fam (t_e t) = F1rinv -> ent_ng t = Some ng ->
  POS_E2 ng = 0%Z /\ (0 <= IINC ng /\ 0 <= JINC ng)%Z /\ (KINC ng = 0 /\ LINC ng = 0)%Z.
Proof.
  intros Ht Hf En. pose proof (proj1 (forallb_forall _ _) kl_checked t Ht) as E. unfold kl_ok in E. unfold ent_ng in En.
  rewrite En in E. destruct Hf as [-> | ->] in E; lia.
Qed.

(** ** Enough orders for every entry *)
Definition incs (g : ngT) : Z := (IINC g + JINC g + KINC g + LINC g)%Z.
Definition let_ok (t : ent) : bool := match hd_error (en_ng (t_e t)) with Some g => (Z.of_nat (dlet (t_d t)) <=? incs g)%Z | None => false end.
Lemma let_checked : forallb let_ok catalogue = true.
Proof. vm_cast_no_check (eq_refl true). Qed.
Lemma enough_letters t ng si1 si2 s1 s2 q tm : In t catalogue -> ent_ng t = Some ng -> In (s1, s2, q) (components (t_d t) si1 si2) -> In tm q ->
  (Z.of_nat (letters (snd tm)) <= incs ng)%Z.
Proof.
  intros Ht En Hq Htm. pose proof (proj1 (forallb_forall _ _) let_checked t Ht) as E. unfold let_ok in E. unfold ent_ng in En. rewrite En in E.
  pose proof (components_let _ _ _ _ _ _ Hq tm Htm). lia.
Qed.

Lemma letters_at m : (length (word_at m 0 CI) + length (word_at m 0 CJ) + length (word_at m 0 CK) + length (word_at m 0 CL) +
  (length (word_at m 1 CI) + length (word_at m 1 CJ) + length (word_at m 1 CK) + length (word_at m 1 CL)) +
  (length (word_at m 2 CI) + length (word_at m 2 CJ) + length (word_at m 2 CK) + length (word_at m 2 CL)) <= letters m)%nat.
Proof.
  unfold letters, word_at. destruct m as [k w].
  do 12 (destruct w as [|? w]; [simpl; lia|]). simpl. lia.
Qed.

Lemma coord_sum l k t : (0 <= l)%Z -> nth_error (cart_list l) k = Some t -> (coord 0 t + coord 1 t + coord 2 t = l /\ 0 <= coord 0 t /\ 0 <= coord 1 t /\ 0 <= coord 2 t)%Z.
Proof.
  intros Hl E. apply nth_error_In in E. apply cart_list_In in E; [|exact Hl]. destruct t as [[x y] z]. unfold nonneg, degree, coord in *. cbn. lia.
Qed.

Lemma rsum_rsumz n f : rsum (map f (map Z.of_nat (seq 0 (Z.to_nat n)))) = rsumz n f.
Proof.
  unfold rsum.
  assert (E : forall N, fold_right Rplus 0 (map f (map Z.of_nat (seq 0 N))) = rsumz (Z.of_nat N) f).
  { induction N as [|N IH]; [reflexivity|]. rewrite seq_S, !map_app, fold_right_app. cbn [map fold_right Nat.add].
    replace (Z.of_nat (S N)) with (Z.of_nat N + 1)%Z by lia. rewrite lsum_succ by lia. rewrite <- IH.
    assert (G : forall l x, fold_right Rplus x l = fold_right Rplus 0 l + x) by (induction l as [|y l IHl]; intros x; cbn; [ring|rewrite IHl; ring]).
    rewrite G. ring. }
  rewrite E. destruct (Z.leb_spec 0 n).
  - rewrite Z2Nat.id by lia. reflexivity.
  - replace (Z.to_nat n) with 0%nat by lia. unfold lsum. replace (Z.to_nat n) with 0%nat by lia. reflexivity.
Qed.

(** three functions by axis *)
Lemma choose3 {T} (P : Z -> T -> Prop) : (forall ax, (0 <= ax < 3)%Z -> exists v, P ax v) -> exists f, forall ax, (0 <= ax < 3)%Z -> P ax (f ax).
Proof.
  intros H. destruct (H 0%Z ltac:(lia)) as [v0 H0]. destruct (H 1%Z ltac:(lia)) as [v1 H1]. destruct (H 2%Z ltac:(lia)) as [v2 H2].
  exists (fun ax => if (ax =? 0)%Z then v0 else if (ax =? 1)%Z then v1 else v2). intros ax Hax.
  assert (ax = 0 \/ ax = 1 \/ ax = 2)%Z as [-> | [-> | ->]] by lia; assumption.
Qed.

Section Nuc.
  Variables (a : centre -> R) (A : centre -> Z -> R) (O C : Z -> R) (pw : Z -> centre -> Z) (zeta : R) (n : Z) (u w : Z -> R).
  Let p := a CI + a CJ.
  Hypothesis (Ha : 0 < a CI) (Hb : 0 < a CJ).
  Let P ax := (a CI * A CI ax + a CJ * A CJ ax) / p.
  Let t2 k := tsq zeta (a CI) (a CJ) (u k).
  Let tau := nuc_mod p zeta.
  Let kappa k := nuc_weight p (t2 k) (square3 (fun ax => C ax - P ax)) tau (w k).
  Hypothesis Hu : forall k, (0 <= k < n)%Z -> 0 <= u k.
  Hypothesis HR : rule n (p * (tau * tau) * dist2 C P) 0 (fun k => t2_of (u k)) w.

  Lemma term_sum m : (forall ax c, (0 <= ax < 3)%Z -> 0 <= pw ax c)%Z ->
    (Z.of_nat (letters m) + (pw 0 CI + pw 1 CI + pw 2 CI + (pw 0 CJ + pw 1 CJ + pw 2 CJ)) <= 2 * n - 1)%Z ->
    term1 a A O pw (nuc_op zeta) C m
      (mval a A O (attraction (fun k => gauss_s p (t2 k)) kappa C) (map Z.of_nat (seq 0 (Z.to_nat n))) pw m).
  Proof.
    intros Hpw Hd.
    set (f := fun ax x => fun_at a A O pw m ax CI x * fun_at a A O pw m ax CJ x).
    set (d := fun ax => (length (word_at m ax CI) + Z.to_nat (pw ax CI) + (length (word_at m ax CJ) + Z.to_nat (pw ax CJ)))%nat).
    destruct (choose3 (fun ax M => pol (d ax) M /\ forall s t2, 0 <= t2 < 1 -> s = p * t2 / (1 - t2) ->
        RIntLine (fun x => f ax x * exp (- (s * ((x - C ax) * (x - C ax))))) (nrm1 (a CI) (a CJ) (A CI ax) (A CJ ax) (C ax) t2 * M t2))) as [M HM].
    { intros ax Hax. exact (has1_pair (a CI) (a CJ) (A CI ax) (A CJ ax) (C ax) ltac:(lra) _ _ _ _
        (gpd_fun_at a A O pw m ax CI) (gpd_fun_at a A O pw m ax CJ)). }
    destruct (sum1_is_int (a CI) (a CJ) (A CI) (A CJ) C ltac:(lra) f M d HM zeta n u w) as (V & HV & E).
    { pose proof (letters_at m). pose proof (Hpw 0%Z CI ltac:(lia)). pose proof (Hpw 1%Z CI ltac:(lia)). pose proof (Hpw 2%Z CI ltac:(lia)).
      pose proof (Hpw 0%Z CJ ltac:(lia)). pose proof (Hpw 1%Z CJ ltac:(lia)). pose proof (Hpw 2%Z CJ ltac:(lia)). unfold d. lia. }
    { exact HR. }
    exists V. split; [exact HV|]. unfold mval. fold (rpow A m). f_equal. rewrite rsum_rsumz, <- E. apply rsumz_ext. intros k Hk.
    assert (Ht : 0 <= t2 k < 1) by (apply tsq_range; [lra|apply Hu, Hk]).
    assert (Et : tau * tau * t2_of (u k) = t2 k) by (unfold t2, tsq, t2_of, tau, Rdiv; fold p; ring).
    fold p tau. rewrite Et.
    assert (EL : forall ax, (0 <= ax < 3)%Z -> line (fun x => f ax x * exp (- (gauss_s p (t2 k) * ((x - C ax) * (x - C ax))))) =
       nrm1 (a CI) (a CJ) (A CI ax) (A CJ ax) (C ax) (t2 k) * M ax (t2 k)).
    { intros ax Hax. apply line_val. apply (proj2 (HM ax Hax)); [exact Ht|reflexivity]. }
    unfold term, attraction. cbn [Z.eqb Pos.eqb]. fold (fun_at a A O pw m).
    change (fun x => fun_at a A O pw m 0 CI x * fun_at a A O pw m 0 CJ x * exp (- (gauss_s p (t2 k) * ((x - C 0%Z) * (x - C 0%Z)))))
      with (fun x => f 0%Z x * exp (- (gauss_s p (t2 k) * ((x - C 0%Z) * (x - C 0%Z))))).
    change (fun x => word_fun A O 0 (word_at m 0 CI) (base a A pw 0 CI) x * word_fun A O 0 (word_at m 0 CJ) (base a A pw 0 CJ) x * exp (- (gauss_s p (t2 k) * ((x - C 0%Z) * (x - C 0%Z)))))
      with (fun x => f 0%Z x * exp (- (gauss_s p (t2 k) * ((x - C 0%Z) * (x - C 0%Z))))).
    change (fun x => word_fun A O 1 (word_at m 1 CI) (base a A pw 1 CI) x * word_fun A O 1 (word_at m 1 CJ) (base a A pw 1 CJ) x * exp (- (gauss_s p (t2 k) * ((x - C 1%Z) * (x - C 1%Z)))))
      with (fun x => f 1%Z x * exp (- (gauss_s p (t2 k) * ((x - C 1%Z) * (x - C 1%Z))))).
    change (fun x => word_fun A O 2 (word_at m 2 CI) (base a A pw 2 CI) x * word_fun A O 2 (word_at m 2 CJ) (base a A pw 2 CJ) x * exp (- (gauss_s p (t2 k) * ((x - C 2%Z) * (x - C 2%Z)))))
      with (fun x => f 2%Z x * exp (- (gauss_s p (t2 k) * ((x - C 2%Z) * (x - C 2%Z))))).
    rewrite !EL by lia. unfold prod3.
    pose proof (fac_nuc_ok (a CI) (a CJ) (A CI) (A CJ) C 1 1 tau (w k) (t2 k) Ha Hb Ht) as EF. cbv zeta in EF.
    fold p in EF. change (fun ax : Z => C ax - (a CI * A CI ax + a CJ * A CJ ax) / p) with (fun ax : Z => C ax - P ax) in EF.
    unfold RecSpec.origin in EF. cbn [Z.eqb Pos.eqb] in EF.
    assert (EN : forall ax, exp (- (a CI * a CJ / p * ((A CI ax - A CJ ax) * (A CI ax - A CJ ax)))) *
        exp (- (p * t2 k * ((C ax - P ax) * (C ax - P ax)))) * sqrt (PI * (1 - t2 k) / p) = nrm1 (a CI) (a CJ) (A CI ax) (A CJ ax) (C ax) (t2 k)).
    { intros ax. unfold nrm1. fold p. fold (P ax). f_equal; [f_equal; f_equal; ring|]. f_equal. field. unfold p; lra. }
    unfold P in EN. rewrite !EN in EF. fold (kappa k) in EF.
    assert (EO : pair_eij (square3 (fun ax => A CI ax - A CJ ax)) (a CI) (a CJ) = overlap_factor (a CI) (a CJ) (A CI) (A CJ)).
    { unfold pair_eij, square3, overlap_factor, dist2. f_equal. f_equal. field. lra. }
    assert (HN : forall ax, nrm1 (a CI) (a CJ) (A CI ax) (A CJ ax) (C ax) (t2 k) <> 0).
    { intros ax. destruct (mom1_int (a CI) (a CJ) (A CI ax) (A CJ ax) (C ax) ltac:(lra) _ (t2 k) Ht eq_refl) as (_ & Hn & _). lra. }
    pose proof (HN 0%Z) as N0. pose proof (HN 1%Z) as N1. pose proof (HN 2%Z) as N2.
    unfold cc1. fold p. rewrite EO in EF.
    set (n0 := nrm1 (a CI) (a CJ) (A CI 0%Z) (A CJ 0%Z) (C 0%Z) (t2 k)) in *.
    set (n1 := nrm1 (a CI) (a CJ) (A CI 1%Z) (A CJ 1%Z) (C 1%Z) (t2 k)) in *.
    set (n2 := nrm1 (a CI) (a CJ) (A CI 2%Z) (A CJ 2%Z) (C 2%Z) (t2 k)) in *.
    change (nuc_weight p (t2 k) (square3 (fun ax : Z => C ax - (a CI * A CI ax + a CJ * A CJ ax) / p)) tau (w k)) with (kappa k) in EF.
    match type of EF with ?l = 1 * 1 * kappa k => assert (EK : kappa k = l) by (rewrite EF; ring) end.
    rewrite EK.
    field. repeat split; try assumption. unfold p; lra.
  Qed.
End Nuc.

Lemma value_den (tv : mono -> R -> Prop) a A O I rts pw (q : poly) : (forall t, In t q -> tv (snd t) (mval a A O I rts pw (snd t))) -> value tv q (den a A O I rts pw q).
Proof.
  induction q as [|[c m] q IH]; intros H; [constructor|].
  change (den a A O I rts pw ((c, m) :: q)) with (cval c * RtoC (mval a A O I rts pw m) + den a A O I rts pw q)%C.
  constructor; [exact (H (c, m) (or_introl eq_refl))|]. apply IH. intros t Ht. apply H. right. exact Ht.
Qed.

(** the value is determined *)
Lemma over_s_unique op f V W : over_s op f V -> over_s op f W -> V = W.
Proof.
  destruct op; cbn; intros H1 H2.
  - rewrite <- (is_RInt_gen_unique (V := R_CompleteNormedModule) f V H1). apply (is_RInt_gen_unique (V := R_CompleteNormedModule) f W H2).
  - rewrite <- (is_RInt_unique (V := R_CompleteNormedModule) f _ _ V H1). apply (is_RInt_unique (V := R_CompleteNormedModule) f _ _ W H2).
  - rewrite <- (is_RInt_gen_unique (V := R_CompleteNormedModule) f V H1). apply (is_RInt_gen_unique (V := R_CompleteNormedModule) f W H2).
Qed.
Lemma over_s_ext op f g V : (forall s, f s = g s) -> over_s op f V -> over_s op g V.
Proof. intros E H. replace g with f; [exact H|]. extensionality s. apply E. Qed.
Lemma coul1_unique op C f V W : coul1 op C f V -> coul1 op C f W -> V = W.
Proof.
  intros (I & H1 & H2) (J & H3 & H4). apply (over_s_unique op _ V W H2). eapply over_s_ext; [|exact H4].
  intros s. cbv beta.
  rewrite (line_unique _ _ _ (H3 0%Z s ltac:(lia)) (H1 0%Z s ltac:(lia))), (line_unique _ _ _ (H3 1%Z s ltac:(lia)) (H1 1%Z s ltac:(lia))),
    (line_unique _ _ _ (H3 2%Z s ltac:(lia)) (H1 2%Z s ltac:(lia))). reflexivity.
Qed.
Lemma coul2_unique op f V W : coul2 op f V -> coul2 op f W -> V = W.
Proof.
  intros (I & H1 & H2) (J & H3 & H4). apply (over_s_unique op _ V W H2). eapply over_s_ext; [|exact H4].
  intros s. cbv beta.
  rewrite (plane_unique _ _ _ (H3 0%Z s ltac:(lia)) (H1 0%Z s ltac:(lia))), (plane_unique _ _ _ (H3 1%Z s ltac:(lia)) (H1 1%Z s ltac:(lia))),
    (plane_unique _ _ _ (H3 2%Z s ltac:(lia)) (H1 2%Z s ltac:(lia))). reflexivity.
Qed.
Lemma value_unique (tv : mono -> R -> Prop) (q : poly) (V W : C) : (forall m v w, tv m v -> tv m w -> v = w) -> value tv q V -> value tv q W -> V = W.
Proof.
  intros H HV. revert W. induction HV as [|c m q v V Hv HV IH]; intros W HW; inversion HW; subst; [reflexivity|].
  f_equal; [|auto]. f_equal. f_equal. eauto.
Qed.
Lemma term1_unique a A O pw op C m v w : term1 a A O pw op C m v -> term1 a A O pw op C m w -> v = w.
Proof. intros (V & H1 & ->) (W & H2 & ->). f_equal. exact (coul1_unique _ _ _ _ _ H1 H2). Qed.
Lemma term2_unique a A O pw op m v w : term2 a A O pw op m v -> term2 a A O pw op m w -> v = w.
Proof. intros (V & H1 & ->) (W & H2 & ->). f_equal. exact (coul2_unique _ _ _ _ H1 H2). Qed.

Lemma nuc_operator t ng li lj ci cj c0 chg zeta (u w : Z -> R) (C : Z -> R) (a : centre -> R) (A : centre -> Z -> R) (O : Z -> R) idx g gout empty :
  In t catalogue -> en_fam (t_e t) = F1nuc \/ en_fam (t_e t) = F1rinv -> ~ In (en_name (t_e t)) except_names -> ent_ng t = Some ng ->
  (0 <= li <= 15)%Z -> (0 <= lj <= 15)%Z -> 0 < a CI -> 0 < a CJ ->
  let e := init_int1e ng li lj ci cj in let x := mkgin e 0 a A O in let nc := Z.of_nat (length (g_rows (t_f t))) in
  let p := a CI + a CJ in
  let P ax := (a CI * A CI ax + a CJ * A CJ ax) / p in
  (forall n, (0 <= n < nrys_roots e)%Z -> 0 <= u n /\ rd g (g_size e * 2 + n) = Some (w n)) ->
  rule (nrys_roots e) (p * (nuc_mod p zeta * nuc_mod p zeta) * dist2 C P) 0 (fun n => t2_of (u n)) w ->
  (3 * nf e <= asize idx)%Z -> ((2 ^ GSHIFT ng + 1) * (3 * g_size e) <= asize g)%Z -> filled g ->
  (nf e * nc <= asize gout)%Z -> (empty = false -> filled gout) ->
  exists idx' g' gout' f,
    CINTg1e_index_xyz e idx = Some idx' /\
    R_nuc e chg zeta (c0 * overlap_factor (a CI) (a CJ) (A CI) (A CJ)) (a CI) (a CJ) u C (A CI) (A CJ) g = Some g' /\
    run_gout 0 1 Rplus Rmult Rminus IZR x (t_f t) empty idx' g' gout = Some gout' /\
    factor (t_e t) = Some f /\ Frame (fun q => 0 <= q < nf e * nc)%Z gout gout' /\
    forall (i j k : nat) ti tj s1 s2 q, nth_error (cart_list li) i = Some ti -> nth_error (cart_list lj) j = Some tj ->
      nth_error (components (t_d t) (sis (en_c2s1 (t_e t))) (sis (en_c2s2 (t_e t)))) k = Some (s1, s2, q) ->
      let pos := ((Z.of_nat j * Z.of_nat (length (cart_list li)) + Z.of_nat i) * nc + Z.of_nat k)%Z in
      exists v old V, rd gout' pos = Some (old + v) /\ (if empty then old = 0 else rd gout pos = Some old) /\
        value (term1 a A O (powers ti tj) (nuc_op zeta) C) q V /\
        (cval (cqmul (qfac f) (phase (t_e t) s1 s2)) * RtoC v)%C = (RtoC (c0 * chg) * V)%C.
Proof.
  intros Ht Hfam Hex En Hi Hj Ha Hb e x nc p P Hu HR Hidx Hs Hf Ho Hold.
  assert (EO : overlap_factor (a CI) (a CJ) (A CI) (A CJ) = pair_eij (square3 (fun ax => A CI ax - A CJ ax)) (a CI) (a CJ)).
  { unfold pair_eij, square3, overlap_factor, dist2. f_equal. f_equal. field. lra. }
  destruct (nuc_real t ng li lj ci cj c0 chg zeta u w C a A O idx g gout empty Ht Hfam Hex En Hi Hj Ha Hb Hu Hidx Hs Hf Ho Hold)
    as (idx' & g' & gout' & f & E1 & E2 & E3 & E4 & E5 & HV).
  exists idx', g', gout', f. rewrite EO. repeat (split; [assumption|]).
  intros i j k ti tj s1 s2 q Ei Ej Ek pos. destruct (HV i j k ti tj s1 s2 q Ei Ej Ek) as (v & old & V1 & V2 & V3).
  eexists v, old, _. split; [exact V1|]. split; [exact V2|]. split; [|exact V3].
  apply value_den. intros tm Htm.
  pose proof (coord_sum li i ti ltac:(lia) Ei) as Ci. pose proof (coord_sum lj j tj ltac:(lia) Ej) as Cj.
  assert (Hpe : POS_E2 ng = 0%Z /\ (0 <= IINC ng /\ 0 <= JINC ng)%Z /\ (KINC ng = 0 /\ LINC ng = 0)%Z).
  { exact (kl_zero t ng Ht Hfam En). }
  apply term_sum; try assumption.
  - intros k0 Hk0. apply Hu, Hk0.
  - intros ax c Hax. unfold powers. destruct c; try lia; assert (ax = 0 \/ ax = 1 \/ ax = 2)%Z as [-> | [-> | ->]] by lia; lia.
  - pose proof (enough_letters t ng _ _ s1 s2 q tm Ht En (nth_error_In _ _ Ek) Htm) as HL. unfold incs in HL.
    destruct Hpe as (Hpe & HI & HK).
    assert (Enr : nrys_roots e = (Z.quot (li + IINC ng + (lj + JINC ng)) 2 + 1)%Z).
    { unfold e, init_int1e. cbn [nrys_roots]. rewrite Hpe. reflexivity. }
    unfold e in Enr. rewrite Enr. pose proof (quot_half (li + IINC ng + (lj + JINC ng)) ltac:(lia)). unfold powers. lia.
Qed.
