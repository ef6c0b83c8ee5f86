(** Oper2e.v — two-electron integrals: recurrence, index table, integrand and quadrature together. *)
From Coq Require Import Reals Lra QArith Qreals String FunctionalExtensionality.
From Coquelicot Require Import Coquelicot.
From Verif Require Import Base BasModel BasSpec BasProof EnvModel IdxModel IdxSpec IdxProof OpSpec OpReal RecModel RecRModel RecSpec GaussInt Gauss2Int Rec1Real
  Rec2RModel Rec2Spec Rec2Real Rec2Kern UnrEnv IntgModel IntgSpec IntgTab IntgStmt IntgCheck IntgStep IntgSem IntgFinal IntgAll IntgEx IntgOvlp IntgReal
  QuadSpec QuadPoly QuadSub Quad2e QuadMain OperSpec OperModel OperDeg OperNuc OperKeep.
Local Open Scope R_scope.

(** ** The integral over the plane *)
Definition plane (f : R -> R -> R) : R := line (fun x => line (fun y => f x y)).
Lemma plane_val f v : RIntPlane f v -> plane f = v.
Proof.
  intros (h & H1 & H2). unfold plane. apply line_val. replace (fun x => line (fun y => f x y)) with h; [exact H2|].
  extensionality x. symmetry. apply line_val. exact (H1 x).
Qed.

Lemma gp_gpd a A f : gpoly a A f -> exists d, gpd a A d f.
Proof. intros (P & HP). exists (length P). exists P. split; [lia|exact HP]. Qed.

Lemma exp5 u v w z r : exp (u - v - w - z - r) = exp u * exp (- v) * (exp (- w) * exp (- z)) * exp (- r).
Proof. rewrite <- !exp_plus. f_equal. ring. Qed.

Section Int2.
  Variables (a : centre -> R) (A : centre -> Z -> R) (U W : Z -> R).
  Hypothesis (Hp : 0 < a CI + a CJ) (Hq : 0 < a CK + a CL).
  Let a0 := (a CI + a CJ) * (a CK + a CL) / (a CI + a CJ + (a CK + a CL)).
  (** the node, and 0 where there is none *)
  Definition node (o : Z) : R := Rmax 0 (U o).
  Definition norm2 (ax : Z) (t2 : R) : R := nrm (a CI) (a CJ) (a CK) (a CL) (A CI ax) (A CJ ax) (A CK ax) (A CL ax) t2.
  Definition int2 (ax o : Z) (F : funs) : R :=
    RecSpec.origin 1 (W o) ax / norm2 ax (t2_of (node o)) *
    plane (fun x y => F CI x * F CJ x * (F CK y * F CL y) * exp (- (a0 * node o * ((x - y) * (x - y))))).

  Lemma node_pos o : 0 <= node o. Proof. apply Rmax_l. Qed.
  Lemma node_eq o : 0 <= U o -> node o = U o. Proof. apply Rmax_right. Qed.
  Lemma node_r u : 0 <= u -> a0 * u = a0 * (t2_of u / (1 - t2_of u)).
  Proof. intros H. f_equal. unfold t2_of. field. split; lra. Qed.
  Lemma norm2_pos ax t2 : 0 <= t2 < 1 -> 0 < norm2 ax t2.
  Proof. intros Ht. apply (mom_int (a CI) (a CJ) (a CK) (a CL) (A CI ax) (A CJ ax) (A CK ax) (A CL ax) Hp Hq _ t2 Ht eq_refl). Qed.

  Lemma prod_is ax o F : (forall c, gpoly (a c) (A c ax) (F c)) ->
    RIntPlane (fun x y => F CI x * F CJ x * (F CK y * F CL y) * exp (- (a0 * node o * ((x - y) * (x - y)))))
      (plane (fun x y => F CI x * F CJ x * (F CK y * F CL y) * exp (- (a0 * node o * ((x - y) * (x - y)))))).
  Proof.
    intros HF. destruct (gp_gpd _ _ _ (HF CI)) as [di Hi]. destruct (gp_gpd _ _ _ (HF CJ)) as [dj Hj].
    destruct (gp_gpd _ _ _ (HF CK)) as [dk Hk]. destruct (gp_gpd _ _ _ (HF CL)) as [dl Hl].
    destruct (has2_four (a CI) (a CJ) (a CK) (a CL) (A CI ax) (A CJ ax) (A CK ax) (A CL ax) Hp Hq _ _ _ _ _ _ _ _ Hi Hj Hk Hl) as (M & _ & HM).
    specialize (HM _ (t2_of (node o)) (t2_range _ (node_pos o)) (node_r _ (node_pos o))). fold a0 in HM. cbn [fst snd] in HM.
    rewrite (plane_val _ _ HM). exact HM.
  Qed.

  Lemma int2_linear c : linear_in a A int2 c.
  Proof.
    intros ax o F f g s t HF Hf Hg. unfold int2.
    assert (Gf : forall c', gpoly (a c') (A c' ax) (updf F c f c')) by (intros c'; unfold updf; destruct c, c'; auto).
    assert (Gg : forall c', gpoly (a c') (A c' ax) (updf F c g c')) by (intros c'; unfold updf; destruct c, c'; auto).
    pose proof (prod_is ax o _ Gf) as H1. pose proof (prod_is ax o _ Gg) as H2.
    pose proof (plane_plus _ _ _ _ (plane_scal _ s _ H1) (plane_scal _ t _ H2)) as H3.
    match type of H3 with RIntPlane _ ?v => set (val := v) in * end.
    match goal with |- _ * plane ?h = _ => assert (E : plane h = val) end.
    { apply plane_val. eapply plane_ext; [|exact H3]. intros x y. cbv beta. destruct c; cbn [updf]; ring. }
    rewrite E. unfold val. ring.
  Qed.

  (** a cell *)
  Lemma cell_int2 ax o i j k l v I0 I : 0 <= U o ->
    let E := eri_weight (a CI) (a CJ) (a CK) (a CL) (a0 * U o) (A CI ax) (A CJ ax) (A CK ax) (A CL ax) in
    RIntPlane E I0 -> RIntPlane (fun x y => (x - A CI ax) ^ i * (x - A CJ ax) ^ j * ((y - A CK ax) ^ k * (y - A CL ax) ^ l) * E x y) I ->
    v = RecSpec.origin 1 (W o) ax / I0 * I ->
    v = int2 ax o (fun c => phi (a c) (A c ax) (match c with CI => i | CJ => j | CK => k | CL => l end)).
  Proof.
    intros Ho E H0 H1 ->. unfold int2. rewrite (node_eq o Ho).
    destruct (mom_int (a CI) (a CJ) (a CK) (a CL) (A CI ax) (A CJ ax) (A CK ax) (A CL ax) Hp Hq (a0 * U o) (t2_of (U o)) (t2_range _ Ho) (node_r _ Ho)) as (J0 & _ & _).
    rewrite (plane_unique _ _ _ H0 J0). unfold norm2. f_equal. symmetry. apply plane_val. eapply plane_ext; [|exact H1].
    intros x y. cbv beta. unfold E, eri_weight, phi.
    rewrite exp5. ring.
  Qed.
End Int2.

Section Sum2.
  Variables (e : envs) (a : centre -> R) (A : centre -> Z -> R) (O : Z -> R) (bi bk : Z -> R) (kern : @rys2e R -> arr R -> option (arr R)) (rij rkl : Z -> R).
  Hypothesis (Hp : 0 < a CI + a CJ) (Hq : 0 < a CK + a CL).
  Hypothesis (Hrij : forall ax, (0 <= ax < 3)%Z -> rij ax = (a CI * A CI ax + a CJ * A CJ ax) / (a CI + a CJ)).
  Hypothesis (Hrkl : forall ax, (0 <= ax < 3)%Z -> rkl ax = (a CK * A CK ax + a CL * A CL ax) / (a CK + a CL)).
  Hypothesis HS : coulomb_setup e (A CI) (A CJ) (A CK) (A CL) bi bk kern.
  Variables (rys : Z -> R -> nodes) (srys : Z -> R -> R -> nodes) (omega c0 : R).
  Let a0 := (a CI + a CJ) * (a CK + a CL) / (a CI + a CJ + (a CK + a CL)).
  Hypothesis HR : rules_2e rys srys (nrys_roots e) (rys_order e) omega a0 (a0 * dist2 rij rkl).
  Let fac := c0 * (2 * (PI * PI * PI) / sqrt PI) * (overlap_factor (a CI) (a CJ) (A CI) (A CJ) * overlap_factor (a CK) (a CL) (A CK) (A CL)).
  Variables (U W : Z -> R).
  Hypothesis HU : forall n, (0 <= n < nrys_roots e)%Z -> 0 <= U n.
  Hypothesis HN : nodes_2e e (a CI) (a CJ) (a CK) (a CL) rij rkl rys srys omega fac U W.
  Variable pw : Z -> centre -> Z.

  Definition psum (c : centre) : Z := (pw 0 c + pw 1 c + pw 2 c)%Z.
  Lemma term_sum2 m : (forall ax c, (0 <= ax < 3)%Z -> 0 <= pw ax c)%Z ->
    (Z.of_nat (letters m) + (psum CI + psum CJ + psum CK + psum CL) <= total e)%Z ->
    exists v, term2 a A O pw (op_of omega) m v /\
      mval a A O (int2 a A U W) (map Z.of_nat (seq 0 (Z.to_nat (nrys_roots e)))) pw m = c0 * v.
  Proof.
    intros Hpw Hd.
    set (f := fun ax x y => fun_at a A O pw m ax CI x * fun_at a A O pw m ax CJ x * (fun_at a A O pw m ax CK y * fun_at a A O pw m ax CL y)).
    set (dg := fun ax c => (length (word_at m ax c) + Z.to_nat (pw ax c))%nat).
    set (d := fun ax => (dg ax CI + dg ax CJ + dg ax CK + dg ax CL)%nat).
    destruct (choose3 (fun ax M => pol (d ax) M /\ forall r t2, 0 <= t2 < 1 -> r = a0 * (t2 / (1 - t2)) ->
        RIntPlane (fun x y => f ax x y * exp (- (r * ((x - y) * (x - y))))) (nrm (a CI) (a CJ) (a CK) (a CL) (A CI ax) (A CJ ax) (A CK ax) (A CL ax) t2 * M t2))) as [M HM].
    { intros ax Hax. exact (has2_four (a CI) (a CJ) (a CK) (a CL) (A CI ax) (A CJ ax) (A CK ax) (A CL ax) Hp Hq _ _ _ _ _ _ _ _
        (gpd_fun_at a A O pw m ax CI) (gpd_fun_at a A O pw m ax CJ) (gpd_fun_at a A O pw m ax CK) (gpd_fun_at a A O pw m ax CL)). }
    destruct (coulomb_ok _ _ _ _ _ _ _ _ HS) as (_ & _ & Ho).
    destruct (sum_is_int e (A CI) (A CJ) (A CK) (A CL) bi bk kern (a CI) (a CJ) (a CK) (a CL) rij rkl Hp Hq Hrij Hrkl HS rys srys omega c0 HR Ho
      f M d U W HM) as (V & HV & E).
    { pose proof (letters_at m).
      assert (P1 : forall c, (0 <= pw 0 c /\ 0 <= pw 1 c /\ 0 <= pw 2 c)%Z) by (intros c; repeat split; apply Hpw; lia).
      pose proof (P1 CI). pose proof (P1 CJ). pose proof (P1 CK). pose proof (P1 CL). unfold d, dg, psum in *. lia. }
    { exact HN. }
    exists (rpow A m * V). split; [exists V; split; [exact HV|reflexivity]|].
    unfold mval. fold (rpow A m). rewrite rsum_rsumz.
    transitivity (rpow A m * (c0 * V)); [|ring]. f_equal. rewrite <- E. apply rsumz_ext. intros k Hk.
    assert (ET : forall ax, (0 <= ax < 3)%Z -> term a A O (int2 a A U W) pw m k ax = RecSpec.origin 1 (W k) ax * M ax (t2_of (U k))).
    { intros ax Hax. unfold term, int2. rewrite (node_eq U k (HU k Hk)).
      pose proof (t2_range _ (HU k Hk)) as Ht.
      pose proof (norm2_pos a A Hp Hq ax _ Ht) as HN2.
      change (plane _) with (plane (fun x y => f ax x y * exp (- (a0 * U k * ((x - y) * (x - y)))))).
      rewrite (plane_val _ _ (proj2 (HM ax Hax) (a0 * U k) (t2_of (U k)) Ht (node_r a (U k) (HU k Hk)))).
      fold (norm2 a A ax (t2_of (U k))). field. lra. }
    rewrite !ET by lia. unfold prod3, RecSpec.origin. cbn [Z.eqb Pos.eqb]. ring.
  Qed.
End Sum2.

(** ** The index tables of the three families in one form *)
Definition four_fam (fam : gfam) : Prop := fam = F2e \/ fam = F2yp \/ fam = F3c2e \/ fam = F2c2e.
Lemma cart0 : cart_list 0 = [(0, 0, 0)%Z]. Proof. reflexivity. Qed.
Lemma idx_four fam om ng (l ctr : centre -> Z) idx : four_fam fam -> ng_ok ng ->
  (forall c, 0 <= l c <= 15)%Z -> (forall c, used fam c = false -> l c = 0%Z) ->
  let e := fam_env fam om ng l ctr in (3 * nf e <= asize idx)%Z ->
  exists idx', index_fun fam e idx = Some idx' /\
    table4 idx' (l CI) (l CJ) (l CK) (l CL) (g_size e) (g_stride_i e) (g_stride_j e) (g_stride_k e) (g_stride_l e) /\
    nf e = (CINTlen_cart (l CI) * CINTlen_cart (l CK) * CINTlen_cart (l CL) * CINTlen_cart (l CJ))%Z /\
    Frame (fun x => 0 <= x < 3 * nf e)%Z idx idx'.
Proof.
  intros Hf Hng Hl Hu e Hs. destruct Hf as [-> | [-> | [-> | ->]]]; cbn [index_fun fam_env] in *.
  - destruct (idx_4c _ _ ng (l CI) (l CJ) (l CK) (l CL) (ctr CI) (ctr CJ) (ctr CK) (ctr CL) idx Hng (Hl CI) (Hl CJ) (Hl CK) (Hl CL) Hs) as (idx' & H1 & H2 & H3 & _).
    exists idx'. split; [exact H1|]. split; [exact H2|]. split; [|exact H3]. unfold e, init_int2e, init_4c. cbn [nf]. ring.
  - destruct (idx_4c _ _ ng (l CI) (l CJ) (l CK) (l CL) (ctr CI) (ctr CJ) (ctr CK) (ctr CL) idx Hng (Hl CI) (Hl CJ) (Hl CK) (Hl CL) Hs) as (idx' & H1 & H2 & H3 & _).
    exists idx'. split; [exact H1|]. split; [exact H2|]. split; [|exact H3]. unfold e, init_int2e_yp, init_4c. cbn [nf]. ring.
  - destruct (idx_int3c2e om ng (l CI) (l CJ) (l CK) (ctr CI) (ctr CJ) (ctr CK) idx Hng (Hl CI) (Hl CJ) (Hl CK) Hs) as (idx' & H1 & H2 & H3 & _).
    exists idx'. split; [exact H1|]. rewrite (Hu CL eq_refl). split; [exact H2|]. split; [|exact H3].
    unfold e, init_int3c2e. cbn [nf]. change (CINTlen_cart 0) with 1%Z. ring.
  - destruct (idx_int2c2e om ng (l CI) (l CK) (ctr CI) (ctr CK) idx Hng (Hl CI) (Hl CK) Hs) as (idx' & H1 & H2 & H3 & _).
    exists idx'. split; [exact H1|]. rewrite (Hu CL eq_refl), (Hu CJ eq_refl). split; [|split; [|exact H3]].
    + intros i j k q ti tj tk tq d Ei Ej Ek Eq Hd. rewrite cart0 in *. cbn [length].
      destruct j as [|j]; [|destruct j; discriminate]. destruct q as [|q]; [|destruct q; discriminate].
      injection Ej as <-. injection Eq as <-. pose proof (H2 i k ti tk d Ei Ek Hd) as E.
      replace (3 * (((Z.of_nat 0 * Z.of_nat 1 + Z.of_nat 0) * Z.of_nat (length (cart_list (l CK))) + Z.of_nat k) * Z.of_nat (length (cart_list (l CI))) + Z.of_nat i) + d)%Z
        with (3 * (Z.of_nat k * Z.of_nat (length (cart_list (l CI))) + Z.of_nat i) + d)%Z by lia.
      rewrite E. f_equal. unfold IdxSpec.cell.
      assert (coord d (0, 0, 0)%Z = 0%Z) as -> by (unfold coord; destruct (d =? 0)%Z, (d =? 1)%Z; reflexivity).
      change (g_stride_k (init_int2c2e om ng (l CI) (l CK) (ctr CI) (ctr CK))) with (g_stride_k e).
      change (g_stride_i (init_int2c2e om ng (l CI) (l CK) (ctr CI) (ctr CK))) with (g_stride_i e). change (g_size (init_int2c2e om ng (l CI) (l CK) (ctr CI) (ctr CK))) with (g_size e). ring.
    + unfold e, init_int2c2e. cbn [nf]. change (CINTlen_cart 0) with 1%Z. ring.
Qed.

Definition pow4 (l : centre -> Z) (n ax : Z) (c : centre) : Z :=
  let nfi := CINTlen_cart (l CI) in let nfk := CINTlen_cart (l CK) in let nfl := CINTlen_cart (l CL) in
  match c with
  | CI => expo (l CI) (n mod nfi) ax
  | CK => expo (l CK) ((n / nfi) mod nfk) ax
  | CL => expo (l CL) ((n / nfi / nfk) mod nfl) ax
  | CJ => expo (l CJ) (n / nfi / nfk / nfl) ax
  end%Z.
(** powers of the Cartesian functions on the four shells *)
Definition powers4 (ti tj tk tl : triple) (ax : Z) (c : centre) : Z :=
  match c with CI => coord ax ti | CJ => coord ax tj | CK => coord ax tk | CL => coord ax tl end.

Local Open Scope Z_scope.
Lemma mix n a b : 0 < n -> 0 <= b < n -> (a * n + b) mod n = b /\ (a * n + b) / n = a.
Proof. intros Hn Hb. rewrite Z.add_comm, Z_mod_plus_full, Z.div_add, Z.mod_small, Z.div_small by lia. lia. Qed.

Lemma pow4_at l (i j k q : nat) ti tj tk tl ax c : (forall c, 0 <= l c <= 15) -> 0 <= ax < 3 ->
  nth_error (cart_list (l CI)) i = Some ti -> nth_error (cart_list (l CJ)) j = Some tj ->
  nth_error (cart_list (l CK)) k = Some tk -> nth_error (cart_list (l CL)) q = Some tl ->
  pow4 l (((Z.of_nat j * CINTlen_cart (l CL) + Z.of_nat q) * CINTlen_cart (l CK) + Z.of_nat k) * CINTlen_cart (l CI) + Z.of_nat i) ax c =
  powers4 ti tj tk tl ax c.
Proof.
  intros Hl Hax Ei Ej Ek El.
  assert (B : forall c n t, nth_error (cart_list (l c)) n = Some t -> 0 <= Z.of_nat n < CINTlen_cart (l c)).
  { intros c0 n t E. specialize (Hl c0). rewrite len_cart_list by lia. assert (n < length (cart_list (l c0)))%nat by (apply nth_error_Some; congruence). lia. }
  pose proof (B CI _ _ Ei) as Bi. pose proof (B CK _ _ Ek) as Bk. pose proof (B CL _ _ El) as Bl.
  unfold pow4. cbv zeta.
  destruct (mix (CINTlen_cart (l CI)) ((Z.of_nat j * CINTlen_cart (l CL) + Z.of_nat q) * CINTlen_cart (l CK) + Z.of_nat k) _ ltac:(lia) Bi) as [-> ->].
  destruct (mix (CINTlen_cart (l CK)) (Z.of_nat j * CINTlen_cart (l CL) + Z.of_nat q) _ ltac:(lia) Bk) as [-> ->].
  destruct (mix (CINTlen_cart (l CL)) (Z.of_nat j) _ ltac:(lia) Bl) as [-> ->].
  destruct c; cbn [powers4]; apply expo_nth; auto; apply Hl.
Qed.

Lemma unmix (l : centre -> Z) n : (forall c, 0 <= l c <= 15) ->
  0 <= n < CINTlen_cart (l CI) * CINTlen_cart (l CK) * CINTlen_cart (l CL) * CINTlen_cart (l CJ) ->
  exists (i j k q : nat) ti tj tk tl, nth_error (cart_list (l CI)) i = Some ti /\ nth_error (cart_list (l CJ)) j = Some tj /\
    nth_error (cart_list (l CK)) k = Some tk /\ nth_error (cart_list (l CL)) q = Some tl /\
    n = ((Z.of_nat j * CINTlen_cart (l CL) + Z.of_nat q) * CINTlen_cart (l CK) + Z.of_nat k) * CINTlen_cart (l CI) + Z.of_nat i.
Proof.
  intros Hl Hn.
  assert (P : forall c, 0 < CINTlen_cart (l c)) by (intros c; apply cart_pos; specialize (Hl c); lia).
  pose proof (P CI) as Pi. pose proof (P CJ) as Pj. pose proof (P CK) as Pk. pose proof (P CL) as Pl.
  set (nfi := CINTlen_cart (l CI)) in *. set (nfj := CINTlen_cart (l CJ)) in *. set (nfk := CINTlen_cart (l CK)) in *. set (nfl := CINTlen_cart (l CL)) in *.
  pose proof (Z.div_mod n nfi ltac:(lia)) as D1. pose proof (Z.mod_pos_bound n nfi Pi) as M1. set (n1 := n / nfi) in *.
  pose proof (Z.div_mod n1 nfk ltac:(lia)) as D2. pose proof (Z.mod_pos_bound n1 nfk Pk) as M2. set (n2 := n1 / nfk) in *.
  pose proof (Z.div_mod n2 nfl ltac:(lia)) as D3. pose proof (Z.mod_pos_bound n2 nfl Pl) as M3. set (n3 := n2 / nfl) in *.
  assert (N1 : 0 <= n1 < nfk * nfl * nfj) by (unfold n1; split; [apply Z.div_pos; lia|apply Z.div_lt_upper_bound; nia]).
  assert (N2 : 0 <= n2 < nfl * nfj) by (unfold n2; split; [apply Z.div_pos; lia|apply Z.div_lt_upper_bound; nia]).
  assert (N3 : 0 <= n3 < nfj) by (unfold n3; split; [apply Z.div_pos; lia|apply Z.div_lt_upper_bound; nia]).
  destruct (cart_nth (l CI) (n mod nfi) ltac:(specialize (Hl CI); lia) M1) as [ti Ei].
  destruct (cart_nth (l CK) (n1 mod nfk) ltac:(specialize (Hl CK); lia) M2) as [tk Ek].
  destruct (cart_nth (l CL) (n2 mod nfl) ltac:(specialize (Hl CL); lia) M3) as [tl El].
  destruct (cart_nth (l CJ) n3 ltac:(specialize (Hl CJ); lia) N3) as [tj Ej].
  eexists _, _, _, _, ti, tj, tk, tl. split; [exact Ei|]. split; [exact Ej|]. split; [exact Ek|]. split; [exact El|].
  rewrite !Z2Nat.id by lia. lia.
Qed.

(** the centres of the slots without a shell: those of their partners (ak rk + al rl with al = 0) *)
Definition partners (fam : gfam) (A : centre -> Z -> R) : Prop :=
  (used fam CJ = false -> A CJ = A CI) /\ (used fam CL = false -> A CL = A CK).

Lemma setup_of fam om ng l ctr A : fam = F2e \/ fam = F3c2e \/ fam = F2c2e -> ng_ok ng -> (forall c, 0 <= l c) -> partners fam A ->
  let e := fam_env fam om ng l ctr in
  coulomb_setup e (A CI) (A CJ) (A CK) (A CL) (rx_ij fam ng l A) (rx_kl fam ng l A) (kernel fam ng l e A).
Proof.
  intros Hf (N1 & N2 & N3 & N4 & _) Hl [P1 P2] e. pose proof (Hl CI). pose proof (Hl CJ). pose proof (Hl CK). pose proof (Hl CL).
  destruct Hf as [-> | [-> | ->]]; cbn [fam_env rx_ij rx_kl] in *.
  - apply (cs_2e om ng (l CI) (l CJ) (l CK) (l CL) (ctr CI) (ctr CJ) (ctr CK) (ctr CL) (A CI) (A CJ) (A CK) (A CL)); lia.
  - rewrite (P2 eq_refl). apply (cs_3c2e om ng (l CI) (l CJ) (l CK) (ctr CI) (ctr CJ) (ctr CK) (A CI) (A CJ) (A CK)); lia.
  - rewrite (P1 eq_refl), (P2 eq_refl). apply (cs_2c2e om ng (l CI) (l CK) (ctr CI) (ctr CK) (A CI) (A CK)); lia.
Qed.

(** ** The call *)
Section Call4.
  Variables (t : ent) (ng : ngT) (om : bool) (l ctr : centre -> Z) (a : centre -> R) (A : centre -> Z -> R) (O : Z -> R) (I : Z -> Z -> funs -> R).
  Variables (empty : bool) (idx : arr Z) (m gout : arr R).
  Let fam := en_fam (t_e t).
  Let e := fam_env fam om ng l ctr.
  Let x := mkgin e 0 a A O.
  Let nc := Z.of_nat (length (g_rows (t_f t))).
  Hypothesis (HK : g_kind (t_f t) = K2) (En : ent_ng t = Some ng) (Hl : forall c, 0 <= l c <= 15) (Hu : forall c, used fam c = false -> l c = 0).
  Hypothesis Hnf : nf e = CINTlen_cart (l CI) * CINTlen_cart (l CK) * CINTlen_cart (l CL) * CINTlen_cart (l CJ).
  Hypothesis HT : table4 idx (l CI) (l CJ) (l CK) (l CL) (g_size e) (g_stride_i e) (g_stride_j e) (g_stride_k e) (g_stride_l e).
  Hypothesis Hs : (2 ^ GSHIFT ng + 1) * (3 * g_size e) <= asize m.
  Hypothesis Hm : filled m.
  Hypothesis Hlin : forall c, linear_in a A I c.
  Hypothesis Hcell : forall ax o n, 0 <= ax < 3 -> 0 <= o < nrys_roots e -> (forall c, 0 <= n c <= top fam ng l c) ->
    rd m (ax * g_size e + IntgStmt.cell e o n) = Some (I ax o (fun c => phi (a c) (A c ax) (Z.to_nat (n c)))).
  Hypothesis Ho : nf e * nc <= asize gout.
  Hypothesis Hold : empty = false -> filled gout.

  Lemma call4 : call t ng om l ctr x I (pow4 l) empty idx m gout.
  Proof.
    constructor; fold fam; rewrite ?HK.
    - exact En.
    - reflexivity.
    - intros c _. apply Hl.
    - discriminate.
    - exact Hs.
    - exact Hm.
    - intros c _. apply Hlin.
    - intros ax o n Hax Hofs Hn. apply Hcell; assumption.
    - intros n ax Hn Hax. cbn [x_env x] in *. rewrite Hnf in Hn.
      destruct (unmix l n Hl Hn) as (i & j & k & q & ti & tj & tk & tl & Ei & Ej & Ek & El & ->).
      assert (Ep : forall c, pow4 l (((Z.of_nat j * CINTlen_cart (l CL) + Z.of_nat q) * CINTlen_cart (l CK) + Z.of_nat k) * CINTlen_cart (l CI) + Z.of_nat i) ax c = powers4 ti tj tk tl ax c).
      { intros c. apply pow4_at; assumption. }
      assert (L : forall c, CINTlen_cart (l c) = Z.of_nat (length (cart_list (l c)))) by (intros c; apply len_cart_list; specialize (Hl c); lia).
      split.
      + specialize (HT i j k q ti tj tk tl ax Ei Ej Ek El Hax). rewrite <- !L in HT.
        rewrite Z.mul_comm, HT. f_equal. unfold IdxSpec.cell, IntgStmt.cell. rewrite !Ep. cbn [powers4]. ring.
      + intros c. rewrite Ep.
        assert (R : forall c n t0, nth_error (cart_list (l c)) n = Some t0 -> 0 <= coord ax t0 <= l c) by (intros c0 n t0; apply coord_range; specialize (Hl c0); lia).
        pose proof (R CI _ _ Ei). pose proof (R CJ _ _ Ej). pose proof (R CK _ _ Ek). pose proof (R CL _ _ El).
        pose proof (Hu c). destruct c; cbn [powers4]; destruct (used fam _); lia.
    - unfold points. cbn [x_env x]. fold nc. lia.
    - exact Hold.
  Qed.

  Lemma computes4 comps : computes cq1 comps t x I (pow4 l) empty idx m gout ->
    exists gout' f, run_gout 0%R 1%R Rplus Rmult Rminus IZR x (t_f t) empty idx m gout = Some gout' /\ factor (t_e t) = Some f /\
    Frame (fun q => 0 <= q < nf e * nc) gout gout' /\
    forall (i j k n kk : nat) ti tj tk tl s1 s2 q, nth_error (cart_list (l CI)) i = Some ti -> nth_error (cart_list (l CJ)) j = Some tj ->
      nth_error (cart_list (l CK)) k = Some tk -> nth_error (cart_list (l CL)) n = Some tl -> nth_error comps kk = Some (s1, s2, q) ->
      let p := (((Z.of_nat j * Z.of_nat (length (cart_list (l CL))) + Z.of_nat n) * Z.of_nat (length (cart_list (l CK))) + Z.of_nat k)
                * Z.of_nat (length (cart_list (l CI))) + Z.of_nat i) * nc + Z.of_nat kk in
      exists v old, rd gout' p = Some (old + v)%R /\ (if empty then old = 0%R else rd gout p = Some old) /\
        (cval (cqmul (qfac f) (phase (t_e t) s1 s2)) * RtoC v)%C =
        den a A O I (roots (g_kind (t_f t)) e 0) (powers4 ti tj tk tl) q.
  Proof.
    intros (Hlen & f & gout' & Ef & Er & Hfr & Hv). exists gout', f. split; [exact Er|]. split; [exact Ef|].
    assert (Hp : points x (g_kind (t_f t)) = 1) by (rewrite HK; reflexivity).
    split.
    { destruct Hfr as [F1 F2]. split; [exact F1|]. intros q Hq. apply F2. intros (n & ig & k & (Vn & Vi & Vk) & ->). apply Hq.
      unfold pos. rewrite Hp in *. cbn [x_env x] in Vn. fold nc in Vk |- *. assert (ig = 0) by lia. subst ig. nia. }
    intros i j k n kk ti tj tk tl s1 s2 q Ei Ej Ek El Ekk p.
    assert (L : forall c, CINTlen_cart (l c) = Z.of_nat (length (cart_list (l c)))) by (intros c; apply len_cart_list; specialize (Hl c); lia).
    assert (B : forall c n t0, nth_error (cart_list (l c)) n = Some t0 -> 0 <= Z.of_nat n < CINTlen_cart (l c)).
    { intros c0 n0 t0 E. rewrite L. assert (n0 < length (cart_list (l c0)))%nat by (apply nth_error_Some; congruence). lia. }
    pose proof (B CI _ _ Ei) as Bi. pose proof (B CJ _ _ Ej) as Bj. pose proof (B CK _ _ Ek) as Bk. pose proof (B CL _ _ El) as Bl.
    assert (Bkk : (kk < length comps)%nat) by (apply nth_error_Some; congruence).
    unfold p. rewrite <- !L. set (N := ((Z.of_nat j * CINTlen_cart (l CL) + Z.of_nat n) * CINTlen_cart (l CK) + Z.of_nat k) * CINTlen_cart (l CI) + Z.of_nat i) in *.
    specialize (Hv N 0 (Z.of_nat kk) s1 s2 q). rewrite Nat2Z.id in Hv.
    destruct Hv as (v & old & E1 & E2 & E3).
    - unfold valid. rewrite Hp. cbn [x_env x]. rewrite Hnf. split; [|split; lia].
      set (nfi := CINTlen_cart (l CI)) in *. set (nfj := CINTlen_cart (l CJ)) in *. set (nfk := CINTlen_cart (l CK)) in *. set (nfl := CINTlen_cart (l CL)) in *.
      assert (0 <= Z.of_nat j * nfl + Z.of_nat n < nfl * nfj) by nia.
      assert (0 <= (Z.of_nat j * nfl + Z.of_nat n) * nfk + Z.of_nat k < nfk * nfl * nfj) by nia.
      unfold N. nia.
    - exact Ekk.
    - assert (Epos : pos x t N 0 (Z.of_nat kk) = N * nc + Z.of_nat kk) by (unfold pos; rewrite Hp; fold nc; ring).
      rewrite Epos in *. exists v, old. split; [exact E1|]. split; [exact E2|].
      unfold x in E3. cbn [x_env x_a x_R x_C] in E3. rewrite cmul1 in E3. rewrite E3.
      assert (Epw : forall ax c, 0 <= ax < 3 -> pow4 l N ax c = powers4 ti tj tk tl ax c).
      { intros ax c Hax. unfold N. apply pow4_at; assumption. }
      unfold den. f_equal. apply map_ext. intros u. f_equal. f_equal. unfold mval. f_equal. f_equal. apply map_ext. intros o.
      assert (ET : forall ax, 0 <= ax < 3 -> term a A O I (pow4 l N) (snd u) o ax = term a A O I (powers4 ti tj tk tl) (snd u) o ax).
      { intros ax Hax. unfold term. f_equal. extensionality cc. f_equal. unfold base. rewrite Epw by exact Hax. reflexivity. }
      rewrite !ET by lia. reflexivity.
  Qed.
End Call4.

(** ** The entries of the two-electron families *)
Definition two_ok (t : ent) : bool :=
  match en_fam (t_e t) with
  | F2e | F2yp | F3c2e | F2c2e =>
      match g_kind (t_f t), hd_error (en_ng (t_e t)) with
      | K2, Some g => ng_okb g && (used (en_fam (t_e t)) CJ || (JINC g =? 0)) && (used (en_fam (t_e t)) CL || (LINC g =? 0))
      | _, _ => false
      end && negb (named parts_names t)
  | _ => true
  end%bool.
Lemma two_checked : forallb two_ok catalogue = true.
Proof. vm_cast_no_check (eq_refl true). Qed.
Lemma two_facts t ng : In t catalogue -> four_fam (en_fam (t_e t)) -> ent_ng t = Some ng ->
  g_kind (t_f t) = K2 /\ ng_ok ng /\ named parts_names t = false /\
  (used (en_fam (t_e t)) CJ = false -> JINC ng = 0) /\ (used (en_fam (t_e t)) CL = false -> LINC ng = 0).
Proof.
  intros Ht Hf En. pose proof (proj1 (forallb_forall _ _) two_checked t Ht) as C1. unfold two_ok in C1. unfold ent_ng in En. rewrite En in C1.
  assert (C2 : (match g_kind (t_f t), Some ng with
      | K2, Some g => ng_okb g && (used (en_fam (t_e t)) CJ || (JINC g =? 0)) && (used (en_fam (t_e t)) CL || (LINC g =? 0))
      | _, _ => false
      end && negb (named parts_names t))%bool = true) by (destruct Hf as [E|[E|[E|E]]]; rewrite E in *; exact C1).
  clear C1. destruct (g_kind (t_f t)); try discriminate. apply andb_true_iff in C2. destruct C2 as [C2 C3]. apply negb_true_iff in C3.
  apply andb_true_iff in C2. destruct C2 as [C2 C5]. apply andb_true_iff in C2. destruct C2 as [C2 C4].
  split; [reflexivity|]. split; [apply ng_okb_ok, C2|]. split; [exact C3|]. split; intros E; rewrite E in *; cbn in C4, C5; lia.
Qed.

Local Open Scope R_scope.
Lemma int2_swap a A U W ax o n : A CL = A CK ->
  int2 a A U W ax o (fun c => phi (a c) (A c ax) (match c with CI => n CI | CJ => n CJ | CK => O | CL => n CK end)) =
  int2 a A U W ax o (fun c => phi (a c) (A c ax) (match c with CI => n CI | CJ => n CJ | CK => n CK | CL => O end)).
Proof.
  intros E. unfold int2. f_equal. f_equal. extensionality x. extensionality y. rewrite E. unfold phi. ring.
Qed.

Lemma cells_fam fam om ng (l ctr : centre -> Z) a A U W g' : fam = F2e \/ fam = F3c2e \/ fam = F2c2e -> ng_ok ng -> (forall c, 0 <= l c)%Z -> partners fam A ->
  0 < a CI + a CJ -> 0 < a CK + a CL ->
  let e := fam_env fam om ng l ctr in
  (forall n, (0 <= n < nrys_roots e)%Z -> 0 <= U n) ->
  eri_cells e (a CI) (a CJ) (a CK) (a CL) (A CI) (A CJ) (A CK) (A CL) U W g' ->
  forall ax o n, (0 <= ax < 3)%Z -> (0 <= o < nrys_roots e)%Z -> (forall c, 0 <= n c <= top fam ng l c)%Z ->
    rd g' (ax * g_size e + IntgStmt.cell e o n)%Z = Some (int2 a A U W ax o (fun c => phi (a c) (A c ax) (Z.to_nat (n c)))).
Proof.
  intros Hfam (N1 & N2 & N3 & N4 & _) Hl HP Hp Hq e HU HE ax o n Hax Hoo Hn. pose proof (HU o Hoo) as HUo.
  pose proof (Hn CI) as NI. pose proof (Hn CJ) as NJ. pose proof (Hn CK) as NK. pose proof (Hn CL) as NL. clear Hn.
  assert (EF : (fun c => phi (a c) (A c ax) (Z.to_nat (n c))) =
    (fun c => phi (a c) (A c ax) (match c with CI => Z.to_nat (n CI) | CJ => Z.to_nat (n CJ) | CK => Z.to_nat (n CK) | CL => Z.to_nat (n CL) end))).
  { extensionality c. destruct c; reflexivity. }
  rewrite EF. clear EF.
  assert (HX : forall i j k m : Z, inbox e o i j k m ->
     rd g' (ax * g_size e + adrs e o i j k m)%Z = Some (int2 a A U W ax o (fun c => phi (a c) (A c ax) (match c with CI => Z.to_nat i | CJ => Z.to_nat j | CK => Z.to_nat k | CL => Z.to_nat m end)))).
  { intros i j k m Hb. pose proof Hb as (B0 & B1 & B2 & B3 & B4).
    destruct (HE ax o (Z.to_nat i) (Z.to_nat j) (Z.to_nat k) (Z.to_nat m) Hax) as (v & I0 & I & Ev & HI0 & _ & HI & EV);
      [rewrite !Z2Nat.id by lia; exact Hb|].
    rewrite !Z2Nat.id in Ev by lia. rewrite Ev. f_equal. exact (cell_int2 a A U W Hp Hq ax o _ _ _ _ v I0 I HUo HI0 HI EV). }
  unfold top in NI, NJ, NK, NL. destruct HP as [P1 P2].
  destruct Hfam as [-> | [-> | ->]]; unfold incr in NI, NJ, NK, NL; cbn in NI, NJ, NK, NL.
  - replace (IntgStmt.cell e o n) with (adrs e o (n CI) (n CJ) (n CK) (n CL)) by (unfold adrs, IntgStmt.cell; ring).
    apply HX. repeat split; try lia; unfold e; cbn; lia.
  - replace (IntgStmt.cell e o n) with (adrs e o (n CI) (n CJ) 0 (n CK)).
    2:{ replace (n CL) with 0%Z by lia. unfold adrs, IntgStmt.cell. replace (n CL) with 0%Z by lia. replace (g_stride_l e) with (g_stride_k e) by reflexivity. ring. }
    rewrite HX.
    + f_equal. replace (n CL) with 0%Z by lia. exact (int2_swap a A U W ax o (fun c => Z.to_nat (n c)) (P2 eq_refl)).
    + repeat split; try lia; unfold e; cbn; lia.
  - replace (IntgStmt.cell e o n) with (adrs e o (n CI) (n CJ) (n CK) (n CL)) by (unfold adrs, IntgStmt.cell; ring).
    apply HX. repeat split; try lia; unfold e; cbn; lia.
Qed.

Lemma incs_total fam om ng (l ctr : centre -> Z) : fam = F2e \/ fam = F3c2e \/ fam = F2c2e -> (forall c, used fam c = false -> l c = 0)%Z ->
  (used fam CJ = false -> JINC ng = 0)%Z -> (used fam CL = false -> LINC ng = 0)%Z ->
  (incs ng + (l CI + l CJ + l CK + l CL) = total (fam_env fam om ng l ctr))%Z.
Proof.
  intros [-> | [-> | ->]] Hu HJ HL; unfold total, incs; cbn.
  - lia.
  - rewrite (Hu CL eq_refl), (HL eq_refl). lia.
  - rewrite (Hu CL eq_refl), (HL eq_refl), (Hu CJ eq_refl), (HJ eq_refl). lia.
Qed.

Lemma value_scaled (tv : mono -> R -> Prop) a A O I rts pw c0 (q : poly) :
  (forall t, In t q -> exists v, tv (snd t) v /\ mval a A O I rts pw (snd t) = c0 * v) ->
  exists V, value tv q V /\ den a A O I rts pw q = (RtoC c0 * V)%C.
Proof.
  induction q as [|[c m] q IH]; intros H; [exists (RtoC 0); split; [constructor|]; cbn; ring|].
  destruct (H (c, m) (or_introl eq_refl)) as (v & Hv & Ev). destruct IH as (V & HV & EV); [intros t Ht; apply H; right; exact Ht|].
  exists (cval c * RtoC v + V)%C. split; [constructor; assumption|].
  change (den a A O I rts pw ((c, m) :: q)) with (cval c * RtoC (mval a A O I rts pw m) + den a A O I rts pw q)%C.
  cbn [snd] in Ev. rewrite EV, Ev, RtoC_mult. ring.
Qed.

Lemma eri_operator t ng om (l ctr : centre -> Z) (a : centre -> R) (A : centre -> Z -> R) (O : Z -> R) (rij rkl : Z -> R) rys srys omega cutoff c0 idx g gout empty :
  In t catalogue -> en_fam (t_e t) = F2e \/ en_fam (t_e t) = F3c2e \/ en_fam (t_e t) = F2c2e -> ~ In (en_name (t_e t)) except_names -> ent_ng t = Some ng ->
  let fam := en_fam (t_e t) in
  (forall c, 0 <= l c <= 15)%Z -> (forall c, used fam c = false -> l c = 0)%Z -> partners fam A ->
  0 < a CI + a CJ -> 0 < a CK + a CL ->
  (forall ax, (0 <= ax < 3)%Z -> rij ax = (a CI * A CI ax + a CJ * A CJ ax) / (a CI + a CJ)) ->
  (forall ax, (0 <= ax < 3)%Z -> rkl ax = (a CK * A CK ax + a CL * A CL ax) / (a CK + a CL)) ->
  let e := fam_env fam om ng l ctr in let x := mkgin e 0 a A O in let nc := Z.of_nat (length (g_rows (t_f t))) in
  let a0 := (a CI + a CJ) * (a CK + a CL) / (a CI + a CJ + (a CK + a CL)) in
  (nrys_roots e <= 32)%Z ->
  (forall m y n, (0 <= n < m)%Z -> 0 <= y -> 0 <= fst (rys m y) n) ->
  (forall m y z n, (0 <= n < m)%Z -> 0 <= y -> 0 <= fst (srys m y z) n) ->
  rules_2e rys srys (nrys_roots e) (rys_order e) omega a0 (a0 * dist2 rij rkl) ->
  (3 * nf e <= asize idx)%Z -> ((2 ^ GSHIFT ng + 1) * (3 * g_size e) <= asize g)%Z -> (4 * g_size e <= asize g)%Z -> filled g ->
  (nf e * nc <= asize gout)%Z -> (empty = false -> filled gout) ->
  let fac := c0 * (2 * (PI * PI * PI) / sqrt PI) * (overlap_factor (a CI) (a CJ) (A CI) (A CJ) * overlap_factor (a CK) (a CL) (A CK) (A CL)) in
  let theta := omega * omega / (omega * omega + a0) in
  exists idx' b g', index_fun fam e idx = Some idx' /\
    R_g0_2e rys srys (kernel fam ng l e A) e omega cutoff fac (a CI) (a CJ) (a CK) (a CL) rij rkl (rx_ij fam ng l A) (rx_kl fam ng l A) g = Some (b, g') /\
    (b = false <-> omega < 0 /\ (cutoff < theta * (a0 * dist2 rij rkl) \/ 40 < theta * (a0 * dist2 rij rkl))) /\
    (b = true -> exists gout' f,
      run_gout 0 1 Rplus Rmult Rminus IZR x (t_f t) empty idx' g' gout = Some gout' /\
      factor (t_e t) = Some f /\ Frame (fun q => 0 <= q < nf e * nc)%Z gout gout' /\
      forall (i j k n kk : nat) ti tj tk tl s1 s2 q, nth_error (cart_list (l CI)) i = Some ti -> nth_error (cart_list (l CJ)) j = Some tj ->
        nth_error (cart_list (l CK)) k = Some tk -> nth_error (cart_list (l CL)) n = Some tl ->
        nth_error (components (t_d t) (sis (en_c2s1 (t_e t))) (sis (en_c2s2 (t_e t)))) kk = Some (s1, s2, q) ->
        let p := ((((Z.of_nat j * Z.of_nat (length (cart_list (l CL))) + Z.of_nat n) * Z.of_nat (length (cart_list (l CK))) + Z.of_nat k)
                  * Z.of_nat (length (cart_list (l CI))) + Z.of_nat i) * nc + Z.of_nat kk)%Z in
        exists v old V, rd gout' p = Some (old + v) /\ (if empty then old = 0 else rd gout p = Some old) /\
          value (term2 a A O (powers4 ti tj tk tl) (op_of omega)) q V /\
          (cval (cqmul (qfac f) (phase (t_e t) s1 s2)) * RtoC v)%C = (RtoC c0 * V)%C).
Proof.
  intros Ht Hfam Hex En fam Hl Hu HP Hp Hq Hrij Hrkl e x nc a0 Hnr Hrys Hsr HR Hidx Hs Hs4 Hg Ho Hold fac theta.
  assert (Hf4 : four_fam fam) by (unfold four_fam, fam; tauto).
  destruct (two_facts t ng Ht Hf4 En) as (EK & Hng & Hparts & HJ & HL).
  destruct (idx_four fam om ng l ctr idx Hf4 Hng Hl Hu Hidx) as (idx' & Ei & HT & Hnf & _). fold e in Ei, HT, Hnf.
  pose proof (setup_of fam om ng l ctr A Hfam Hng ltac:(intros c; specialize (Hl c); lia) HP) as HSet. cbv zeta in HSet. fold e in HSet.
  destruct (coulomb_ok _ _ _ _ _ _ _ _ HSet) as (LY & KS & Hro).
  pose proof (g0_2e_ok e (a CI) (a CJ) (a CK) (a CL) (A CI) (A CJ) (A CK) (A CL) _ _ _ LY KS Hp Hq rij rkl Hnr Hro rys srys Hrys Hsr omega cutoff fac g Hs4) as HG.
  destruct (proj1 (wp_exists _ _) HG) as ([b g'] & Eg & H1 & _ & H3). cbv zeta in H1, H3. cbn [fst snd] in H1, H3.
  exists idx', b, g'. split; [exact Ei|]. split; [exact Eg|]. split; [exact H1|].
  intros Hb. destruct (H3 Hb) as (HF & U & W & HN & HU & HC).
  pose proof (tabn_cells e (a CI) (a CJ) (a CK) (a CL) (A CI) (A CJ) (A CK) (A CL) Hp Hq rij rkl Hrij Hrkl U W _ HU HC) as HE.
  assert (Hg' : filled g').
  { eapply grow_filled; [|exact Hg]. exact (g0_2e_keeps _ e (fun bc => setup_keeps _ _ _ _ _ _ _ _ bc HSet) rys srys omega cutoff fac _ _ _ _ _ _ _ _ g (b, g') Eg). }
  pose proof (cells_fam fam om ng l ctr a A U W g' Hfam Hng ltac:(intros c; specialize (Hl c); lia) HP Hp Hq HU HE) as Hcell. fold e in Hcell.
  pose proof (call4 t ng om l ctr a A O (int2 a A U W) empty idx' g' gout EK En Hl Hu Hnf HT) as CALL. fold fam e in CALL.
  specialize (CALL ltac:(rewrite (proj1 HF); exact Hs) Hg' (int2_linear a A U W Hp Hq) Hcell Ho Hold).
  assert (C4 : named except_names t = false).
  { unfold named. apply Bool.not_true_iff_false. intros E. apply existsb_exists in E. destruct E as (s & Hs' & E).
    apply String.eqb_eq in E. apply Hex. rewrite E. exact Hs'. }
  pose proof (ent_of_all t Ht C4) as EO. rewrite Hparts in EO.
  pose proof (ent_ok_sound _ _ _ _ EO _ _ _ _ _ _ _ _ _ _ _ CALL ltac:(discriminate)) as HComp.
  destruct (computes4 t ng om l ctr a A O (int2 a A U W) empty idx' g' gout EK Hl Hu Hnf (int2_linear a A U W Hp Hq) Hcell _ HComp) as (gout' & f & Er & Ef & Hfr & Hv).
  exists gout', f. split; [exact Er|]. split; [exact Ef|]. split; [exact Hfr|].
  intros i j k n kk ti tj tk tl s1 s2 q E1 E2 E3 E4 E5 p. destruct (Hv i j k n kk ti tj tk tl s1 s2 q E1 E2 E3 E4 E5) as (v & old & V1 & V2 & V3).
  rewrite EK in V3. cbn [roots] in V3. fold fam e in V3.
  assert (HV : exists V, value (term2 a A O (powers4 ti tj tk tl) (op_of omega)) q V /\
     den a A O (int2 a A U W) (map Z.of_nat (seq 0 (Z.to_nat (nrys_roots e)))) (powers4 ti tj tk tl) q = (RtoC c0 * V)%C).
  { apply value_scaled. intros tm Htm. pose proof (enough_letters t ng _ _ _ _ _ tm Ht En (nth_error_In _ _ E5) Htm) as HLt.
    destruct (coord_sum _ _ _ (proj1 (Hl CI)) E1) as (S1 & P1). destruct (coord_sum _ _ _ (proj1 (Hl CJ)) E2) as (S2 & P2).
    destruct (coord_sum _ _ _ (proj1 (Hl CK)) E3) as (S3 & P3). destruct (coord_sum _ _ _ (proj1 (Hl CL)) E4) as (S4 & P4).
    refine (term_sum2 e a A O _ _ _ rij rkl Hp Hq Hrij Hrkl HSet rys srys omega c0 HR U W HU HN (powers4 ti tj tk tl) (snd tm) _ _).
    - intros ax c Hax. assert (Hax3 : ax = 0%Z \/ ax = 1%Z \/ ax = 2%Z) by lia. destruct Hax3 as [-> | [-> | ->]]; destruct c; cbn [powers4]; lia.
    - unfold psum. cbn [powers4]. pose proof (incs_total fam om ng l ctr Hfam Hu HJ HL) as ET. fold e in ET. lia. }
  destruct HV as (V & HV & EV). exists v, old, V. split; [exact V1|]. split; [exact V2|]. split; [exact HV|]. rewrite V3. exact EV.
Qed.
