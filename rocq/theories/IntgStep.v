(** IntgStep.v — one statement of an integrand function: layouts and operators of all families in
    one form. *)
From Coq Require Import Reals Lra String.
From Verif Require Import Base EnvModel RecModel RecLay OpProof OpSpec OpReal IntgModel IntgSpec IntgTab IntgStmt.
Local Open Scope Z_scope.

(** ** No routine forgets a cell *)
Definition grow {F} (m m' : arr F) : Prop :=
  asize m' = asize m /\ forall p, acell m p <> None -> acell m' p <> None.
Lemma grow_refl {F} (m : arr F) : grow m m. Proof. split; auto. Qed.
Lemma grow_trans {F} (a b c : arr F) : grow a b -> grow b c -> grow a c.
Proof. intros [H1 H2] [H3 H4]. split; [congruence|auto]. Qed.
Definition keeps {F} (c : arr F -> option (arr F)) : Prop := forall m m', c m = Some m' -> grow m m'.

Lemma keeps_forN {F} (body : Z -> arr F -> option (arr F)) : (forall i, keeps (body i)) ->
  forall n lo, keeps (forN n lo body).
Proof.
  intros H n. induction n as [|n IH]; intros lo m m' E; cbn in E.
  - injection E as <-. apply grow_refl.
  - destruct (body lo m) as [m1|] eqn:E1; cbn in E; [|discriminate].
    eapply grow_trans; [exact (H _ _ _ E1)|exact (IH _ _ _ E)].
Qed.
Lemma keeps_for {F} lo hi (body : Z -> arr F -> option (arr F)) : (forall i, keeps (body i)) -> keeps (for_ lo hi body).
Proof. intros H. apply keeps_forN. exact H. Qed.
Lemma keeps_seq {F} (a b : arr F -> option (arr F)) : keeps a -> keeps b -> keeps (fun m => m <- a m ;; b m).
Proof.
  intros Ha Hb m m' E. destruct (a m) as [m1|] eqn:E1; cbn in E; [|discriminate].
  eapply grow_trans; [exact (Ha _ _ E1)|exact (Hb _ _ E)].
Qed.
Lemma keeps_wr {F} (p : Z) (v : arr F -> option F) : keeps (fun m => w <- v m ;; wr m p w).
Proof.
  intros m m' E. destruct (v m) as [w|]; cbn in E; [|discriminate].
  unfold wr in E. destruct (inb m p); [|discriminate]. injection E as <-. split; [reflexivity|].
  cbn. intros q H. destruct (q =? p); [discriminate|exact H].
Qed.
Lemma keeps_st3 {F} gs p (body : Z -> arr F -> option F) : keeps (fun m => st3 gs m p body).
Proof. unfold st3. apply keeps_for. intros ax. apply keeps_wr. Qed.

Ltac keep := repeat first [apply keeps_for; intros ? | apply keeps_st3 | apply keeps_wr | apply keeps_seq].

Section Keep.
  Context {F : Type} (add mul sub : F -> F -> F) (inj : Z -> F) (x : gin F).
  Lemma keeps_op_D K c fo go a : keeps (op_D add mul inj x K c fo go a).
  Proof.
    unfold op_D. destruct K, c; cbv zeta;
      try (intros m m' E; discriminate E);
      first [unfold nabla1i_1e|unfold nabla1j_1e|unfold nabla1k_1e|unfold nabla1i_2e|unfold nabla1j_2e|unfold nabla1k_2e|
             unfold nabla1l_2e|unfold nabla1i_grids|unfold nabla1j_grids]; cbv zeta; keep.
  Qed.
  Lemma keeps_op_X K c com fo go a : keeps (op_X add mul sub x K c com fo go a).
  Proof.
    unfold op_X. destruct K, c; cbv zeta;
      try (intros m m' E; discriminate E);
      unfold x1i_1e, x1j_1e, x1k_1e, x1i_2e, x1j_2e, x1k_2e, x1l_2e, x1i_grids, x1j_grids, x1_1e, x1_2e, x1_grids; cbv zeta; keep.
  Qed.
End Keep.

(** ** Addresses *)
Definition kfits (fam : gfam) (ng : ngT) (K : gkind) : Prop :=
  match fam, K with
  | F1e, K1 => POS_E2 ng = 1
  | (F3c1e | F4c1e), K1 => True
  | Fgrids, KG => True
  | (F1rinv | F1nuc | F2e | F2yp | F3c2e | F2c2e), K2 => True
  | _, _ => False
  end.

Definition lhyp (fam : gfam) (ng : ngT) (l : centre -> Z) (bg : Z) (K : gkind) : Prop :=
  (forall c, used fam c = true -> 0 <= l c) /\ (forall c, 0 <= incr ng c) /\
  (K = KG -> 0 <= bg <= GRID_BLKSIZE) /\ kfits fam ng K.

Lemma env2_of fam om ng l ctr bg K : lhyp fam ng l bg K -> K = K2 \/ fam = F4c1e ->
  let tp := top fam ng l in env2 (fam_env fam om ng l ctr) (tp CI) (tp CJ) (tp CK) (tp CL).
Proof.
  intros (Hl & Hi & Hbg & HK) HK2 tp. pose proof (Hi CI). pose proof (Hi CJ). pose proof (Hi CK). pose proof (Hi CL). cbn in *.
  unfold tp, top.
  destruct fam, K; cbn in HK; try contradiction; try (destruct HK2; discriminate); cbn [fam_env used incr own];
    pose proof (Hl CI eq_refl); try pose proof (Hl CJ eq_refl); try pose proof (Hl CK eq_refl); try pose proof (Hl CL eq_refl);
    constructor; cbn in *; lia.
Qed.
Lemma env1_of fam om ng l ctr bg K : lhyp fam ng l bg K -> K = K1 -> fam <> F4c1e ->
  let tp := top fam ng l in let e := fam_env fam om ng l ctr in
  env1 e (tp CI) (tp CJ) (tp CK) /\ tp CL = 0 /\ g_stride_i e = 1.
Proof.
  intros (Hl & Hi & Hbg & HK) HK2 Hf tp e. pose proof (Hi CI). pose proof (Hi CJ). pose proof (Hi CK). pose proof (Hi CL). cbn in *.
  unfold e, tp, top.
  destruct fam, K; cbn in HK; try contradiction; try discriminate; try congruence; cbn [fam_env used incr own];
    pose proof (Hl CI eq_refl); try pose proof (Hl CJ eq_refl); try pose proof (Hl CK eq_refl);
    (split; [constructor; cbn in *; lia|]); split; try reflexivity.
  unfold init_int1e. cbn [g_stride_i]. rewrite HK. reflexivity.
Qed.

Lemma cell_bound fam om ng l ctr bg K : lhyp fam ng l bg K -> let e := fam_env fam om ng l ctr in
  forall o n, ofs K e bg o -> (forall c, 0 <= n c <= top fam ng l c) -> 0 <= cell e o n < g_size e.
Proof.
  cbv zeta. intros H o n Ho Hn. pose proof (Hn CI). pose proof (Hn CJ). pose proof (Hn CK). pose proof (Hn CL).
  destruct K eqn:EK.
  - destruct (match fam with F4c1e => true | _ => false end) eqn:Ef.
    + destruct fam; try discriminate.
      pose proof (env2_lay _ _ _ _ _ (env2_of _ om _ _ ctr _ _ H (or_intror eq_refl)) (top F4c1e ng l CI) (top F4c1e ng l CJ)
        (top F4c1e ng l CK) (top F4c1e ng l CL) 0 0 0 0 ltac:(lia) ltac:(lia) ltac:(lia) ltac:(lia)) as [_ L].
      cbn in Ho. subst o. specialize (L (0, n CI, n CJ, n CK, n CL)). unfold box2, adr2 in L. unfold cell.
      apply L. change (nrys_roots (fam_env F4c1e om ng l ctr)) with 1. lia.
    + assert (Hf : fam <> F4c1e) by (intros ->; discriminate).
      destruct (env1_of _ om _ _ ctr _ _ H eq_refl Hf) as (E1 & TL & Si).
      pose proof (env1_lay _ _ _ _ E1 (top fam ng l CI) (top fam ng l CJ) (top fam ng l CK) 0 0 0 ltac:(lia) ltac:(lia) ltac:(lia)) as [_ L].
      cbn in Ho. subst o. specialize (L (n CI, n CJ, n CK)). unfold box1, adr1 in L. unfold cell. rewrite Si.
      assert (n CL = 0) as -> by lia. lia.
  - pose proof (env2_lay _ _ _ _ _ (env2_of _ om _ _ ctr _ _ H (or_introl eq_refl)) (top fam ng l CI) (top fam ng l CJ)
        (top fam ng l CK) (top fam ng l CL) 0 0 0 0 ltac:(lia) ltac:(lia) ltac:(lia) ltac:(lia)) as [_ L].
    specialize (L (o, n CI, n CJ, n CK, n CL)). unfold box2, adr2 in L. cbn in Ho. unfold cell. apply L. lia.
  - destruct Ho as (g & k & Hg & Hk & ->). destruct H as (Hl & Hi & Hbg & HK). subst K.
    assert (fam = Fgrids) by (destruct fam; cbn in HK; try contradiction; reflexivity). subst fam.
    pose proof (Hi CI). pose proof (Hi CJ). pose proof (Hl CI eq_refl). pose proof (Hl CJ eq_refl). specialize (Hbg eq_refl). cbn [incr own] in *.
    pose proof (grids_lay om ng (l CI) (l CJ) (ctr CI) (ctr CJ) bg (l CI + IINC ng) (l CJ + JINC ng) 0 0
      ltac:(lia) ltac:(lia) ltac:(lia) ltac:(lia) ltac:(lia)) as [_ L].
    specialize (L (g, k, n CI, n CJ)). unfold boxg, adrg in L. unfold cell.
    change (top Fgrids ng l CI) with (l CI + IINC ng) in *. change (top Fgrids ng l CJ) with (l CJ + JINC ng) in *.
    change (top Fgrids ng l CK) with 0 in *. change (top Fgrids ng l CL) with 0 in *.
    assert (n CK = 0) as -> by lia. assert (n CL = 0) as -> by lia. 
    change (fam_env Fgrids om ng l ctr) with (init_int1e_grids om ng (l CI) (l CJ) (ctr CI) (ctr CJ)) in *.
    set (e := init_int1e_grids om ng (l CI) (l CJ) (ctr CI) (ctr CJ)) in *. clearbody e.
    clear - L H1 H0 Hg Hk. lia.
Qed.

(** ** The operators *)
Definition mk4 (i j k l : Z) : centre -> Z := fun c => own c i j k l.
Lemma cell_mk4 e o n : cell e o (mk4 (n CI) (n CJ) (n CK) (n CL)) = cell e o n.
Proof. reflexivity. Qed.

Lemma more_nn c c' : (0 <= more c c')%Z. Proof. destruct c, c'; cbn; lia. Qed.
Lemma c_cases (c : centre) : c = CI \/ c = CJ \/ c = CK \/ c = CL. Proof. destruct c; auto. Qed.

Section Step.
  Local Open Scope R_scope.
  Variables (fam : gfam) (om : bool) (ng : ngT) (l ctr : centre -> Z) (x : gin R) (K : gkind).
  Hypothesis (H : lhyp fam ng l (x_bg x) K) (He : x_env x = fam_env fam om ng l ctr) (Hf : fam <> F4c1e).
  Local Notation gs := (g_size (x_env x)).
  Local Notation str c := (stride x c).

  Variables (c : centre) (a : gargs) (fo go : Z) (m : arr R).
  Definition argz (c : centre) : Z := arg x c (own c (a_i a) (a_j a) (a_k a) (a_l a)).
  Hypothesis (Ha : forall c', (0 <= argz c' /\ argz c' + more c c' <= top fam ng l c')%Z) (Hc : used fam c = true).
  Hypothesis (Hfo : (0 <= fo)%Z) (Hsz : (fo + 3 * gs <= asize m)%Z) (Hap : apart fo go (3 * gs)).
  Definition readable : Prop := forall ax o n, (0 <= ax < 3)%Z -> ofs K (x_env x) (x_bg x) o ->
    (forall c', (0 <= n c' <= argz c' + more c c')%Z) -> exists v, rd m (ax * gs + (go + cell (x_env x) o n)) = Some v.
  Hypothesis Hrd : readable.

  Definition stepped (V : Z -> Z -> (centre -> Z) -> R) (m' : arr R) : Prop :=
    Frame (fun p => (fo <= p < fo + 3 * gs)%Z) m m' /\
    forall ax o n, (0 <= ax < 3)%Z -> ofs K (x_env x) (x_bg x) o -> (forall c', (0 <= n c' <= argz c')%Z) ->
      rd m' (ax * gs + (fo + cell (x_env x) o n)) = Some (V ax o n).
  Definition at_ (ax o : Z) (n : centre -> Z) : Z := (ax * gs + (go + cell (x_env x) o n))%Z.
  Definition VD (ax o : Z) (n : centre -> Z) : R :=
    if (n c =? 0)%Z then -2 * x_a x c * got m (at_ ax o n + str c)
    else IZR (n c) * got m (at_ ax o n - str c) + -2 * x_a x c * got m (at_ ax o n + str c).
  Definition VX (r : Z -> R) (ax o : Z) (n : centre -> Z) : R :=
    got m (at_ ax o n + str c) + r ax * got m (at_ ax o n).

  Lemma top_unused c' : used fam c' = false -> top fam ng l c' = 0%Z.
  Proof. unfold top. intros ->. reflexivity. Qed.

  (** one-electron *)
  Lemma one_cases : K = K1 -> exists mi mj mk, env1 (x_env x) mi mj mk /\ g_stride_i (x_env x) = 1%Z /\
    mi = top fam ng l CI /\ mj = top fam ng l CJ /\ mk = top fam ng l CK /\ top fam ng l CL = 0%Z.
  Proof.
    intros E. destruct (env1_of fam om ng l ctr _ K H E Hf) as (E1 & TL & Si). rewrite <- He in *. eauto 10.
  Qed.

  Definition G1 (ax i j k : Z) : R := got m (at_ ax 0 (mk4 i j k 0)).
  Lemma hold_1 bi bj bk : K = K1 -> g_stride_i (x_env x) = 1%Z -> bi = more c CI -> bj = more c CJ -> bk = more c CK ->
    argz CL = 0%Z -> more c CL = 0%Z -> holds1 (x_env x) (argz CI) (argz CJ) (argz CK) go bi bj bk G1 m.
  Proof.
    intros E Si -> -> -> EL ML ax i j k Hax Hb. unfold box1 in Hb.
    destruct (Hrd ax 0%Z (mk4 i j k 0) Hax) as [v Hv].
    - rewrite E. reflexivity.
    - intros c'. destruct c'; unfold mk4; cbn [own]; lia.
    - unfold G1, got, at_. rewrite Hv. rewrite <- Hv. f_equal. unfold cell, mk4. cbn [own]. rewrite Si. ring.
  Qed.
  Ltac pos1 := match goal with |- got ?m ?p = got ?m ?q => f_equal end; unfold G1, at_, cell, mk4, stride; cbn [own]; try ring.

  Lemma fin_1 V V' : K = K1 -> g_stride_i (x_env x) = 1%Z -> argz CL = 0%Z ->
    (forall ax n, (0 <= ax < 3)%Z -> (forall c', (0 <= n c' <= argz c')%Z) -> V' ax 0%Z n = V ax (n CI) (n CJ) (n CK)) ->
    forall r, wp r (op1_done (x_env x) fo (argz CI) (argz CJ) (argz CK) m V) -> wp r (stepped V').
  Proof.
    intros E Si EL HV r W. eapply wp_mono; [exact W|]. intros m' [H1 H2]. split; [exact H2|].
    intros ax o n Hax Ho Hn. rewrite E in Ho. cbn in Ho. subst o. rewrite HV by assumption.
    rewrite <- (H1 ax (n CI) (n CJ) (n CK) Hax).
    - f_equal. unfold cell. rewrite Si. pose proof (Hn CL). replace (n CL) with 0%Z by lia. ring.
    - unfold box1. pose proof (Hn CI). pose proof (Hn CJ). pose proof (Hn CK). lia.
  Qed.

  Lemma not_cl_1 : K = K1 -> c <> CL.
  Proof. intros E ->. destruct H as (_ & _ & _ & HK). rewrite E in HK. destruct fam; cbn in *; try contradiction; try discriminate; congruence. Qed.

  Lemma step_D1 : K = K1 -> wp (op_D Rplus Rmult IZR x K c fo go a m) (stepped VD).
  Proof.
    intros E. destruct (one_cases E) as (mi & mj & mk & E1 & Si & -> & -> & -> & TL).
    assert (EL : argz CL = 0%Z). { pose proof (Ha CL) as Q. rewrite TL in Q. pose proof (more_nn c CL). lia. }
    pose proof (Ha CI) as A1. pose proof (Ha CJ) as A2. pose proof (Ha CK) as A3.
    pose proof (not_cl_1 E) as NL.
    pose proof (env1_lay _ _ _ _ E1 (argz CI) (argz CJ) (argz CK) (more c CI) (more c CJ) (more c CK)
      ltac:(lia) ltac:(lia) ltac:(lia)) as L.
    pose proof (hold_1 (more c CI) (more c CJ) (more c CK) E Si eq_refl eq_refl eq_refl EL) as Hd.
    unfold op_D. rewrite E. cbv zeta.
    change (arg x CI (a_i a)) with (argz CI). change (arg x CJ (a_j a)) with (argz CJ).
    change (arg x CK (a_k a)) with (argz CK). change (arg x CL (a_l a)) with (argz CL).
    destruct (c_cases c) as [Ec|[Ec|[Ec|Ec]]]; try congruence; rewrite Ec in L, Hd, A1, A2, A3 |- *; cbn [more] in L, Hd, A1, A2, A3;
      specialize (Hd eq_refl);
      (eapply fin_1; [exact E|exact Si|exact EL| |
        first [apply nabla1i_ok with (G := G1)|apply nabla1j_ok with (G := G1)|apply nabla1k_ok with (G := G1)]; assumption || lia]);
      intros ax n Hax Hn; unfold VD; rewrite Ec; pose proof (Hn CL); assert (NL0 : n CL = 0%Z) by lia.
    all: match goal with |- (if ?b then _ else _) = _ => destruct b end;
      first [apply (f_equal2 Rplus)|idtac];
      apply (f_equal2 Rmult); try reflexivity; unfold G1; pos1; rewrite ?NL0; try ring; cbn [own]; lia.
  Qed.

  Lemma step_X1 com : K = K1 -> wp (op_X Rplus Rmult Rminus x K c com fo go a m)
    (stepped (VX (fun ax => if com then x_R x c ax - x_C x ax else x_R x c ax))).
  Proof.
    intros E. destruct (one_cases E) as (mi & mj & mk & E1 & Si & -> & -> & -> & TL).
    assert (EL : argz CL = 0%Z). { pose proof (Ha CL) as Q. rewrite TL in Q. pose proof (more_nn c CL). lia. }
    pose proof (Ha CI) as A1. pose proof (Ha CJ) as A2. pose proof (Ha CK) as A3.
    pose proof (not_cl_1 E) as NL.
    pose proof (env1_lay _ _ _ _ E1 (argz CI) (argz CJ) (argz CK) (more c CI) (more c CJ) (more c CK)
      ltac:(lia) ltac:(lia) ltac:(lia)) as L.
    pose proof (hold_1 (more c CI) (more c CJ) (more c CK) E Si eq_refl eq_refl eq_refl EL) as Hd.
    unfold op_X. rewrite E. cbv zeta.
    change (arg x CI (a_i a)) with (argz CI). change (arg x CJ (a_j a)) with (argz CJ).
    change (arg x CK (a_k a)) with (argz CK). change (arg x CL (a_l a)) with (argz CL).
    unfold x1i_1e, x1j_1e, x1k_1e.
    destruct (c_cases c) as [Ec|[Ec|[Ec|Ec]]]; try congruence; rewrite Ec in L, Hd, A1, A2, A3 |- *; cbn [more] in L, Hd, A1, A2, A3;
      specialize (Hd eq_refl);
      (eapply fin_1; [exact E|exact Si|exact EL| |
        first [apply (x1_ok) with (G := G1) (bi := 1%Z) (bj := 0%Z) (bk := 0%Z); solve [assumption | lia | unfold unit4, unit2; auto]|
               apply (x1_ok) with (G := G1) (bi := 0%Z) (bj := 1%Z) (bk := 0%Z); solve [assumption | lia | unfold unit4, unit2; auto]|
               apply (x1_ok) with (G := G1) (bi := 0%Z) (bj := 0%Z) (bk := 1%Z); solve [assumption | lia | unfold unit4, unit2; auto]]]);
      intros ax n Hax Hn; unfold VX; rewrite Ec; pose proof (Hn CL); assert (NL0 : n CL = 0%Z) by lia.
    all: apply (f_equal2 Rplus); [|apply (f_equal2 Rmult); [reflexivity|]];
      unfold G1; pos1; rewrite ?NL0; try ring; cbn [own]; lia.
  Qed.

  (** two-electron *)
  Definition G2 (ax o i j k l : Z) : R := got m (at_ ax o (mk4 i j k l)).
  Lemma two_cases : K = K2 -> env2 (x_env x) (top fam ng l CI) (top fam ng l CJ) (top fam ng l CK) (top fam ng l CL).
  Proof. intros E. rewrite He. apply (env2_of fam om ng l ctr _ K H). left. exact E. Qed.
  Lemma hold_2 : K = K2 -> holds2 (x_env x) (argz CI) (argz CJ) (argz CK) (argz CL) go (more c CI) (more c CJ) (more c CK) (more c CL) G2 m.
  Proof.
    intros E ax o i j k ll Hax Hb. unfold box2 in Hb.
    destruct (Hrd ax o (mk4 i j k ll) Hax) as [v Hv].
    - rewrite E. cbn. lia.
    - intros c'. destruct c'; unfold mk4; cbn [own]; lia.
    - unfold G2, got, at_. rewrite Hv. rewrite <- Hv. f_equal.
  Qed.
  Lemma fin_2 V V' : K = K2 ->
    (forall ax o n, (0 <= ax < 3)%Z -> (forall c', (0 <= n c' <= argz c')%Z) -> V' ax o n = V ax o (n CI) (n CJ) (n CK) (n CL)) ->
    forall r, wp r (op2_done (x_env x) fo (argz CI) (argz CJ) (argz CK) (argz CL) m V) -> wp r (stepped V').
  Proof.
    intros E HV r W. eapply wp_mono; [exact W|]. intros m' [H1 H2]. split; [exact H2|].
    intros ax o n Hax Ho Hn. rewrite E in Ho. cbn in Ho. rewrite HV by assumption.
    rewrite <- (H1 ax o (n CI) (n CJ) (n CK) (n CL) Hax).
    - f_equal.
    - unfold box2. pose proof (Hn CI). pose proof (Hn CJ). pose proof (Hn CK). pose proof (Hn CL). lia.
  Qed.

  Ltac two L Hd E :=
    pose proof (Ha CI) as A1; pose proof (Ha CJ) as A2; pose proof (Ha CK) as A3; pose proof (Ha CL) as A4;
    pose proof (env2_lay _ _ _ _ _ (two_cases E) (argz CI) (argz CJ) (argz CK) (argz CL) (more c CI) (more c CJ) (more c CK) (more c CL)
      ltac:(lia) ltac:(lia) ltac:(lia) ltac:(lia)) as L;
    pose proof (hold_2 E) as Hd;
    rewrite E; cbv zeta;
    change (arg x CI (a_i a)) with (argz CI); change (arg x CJ (a_j a)) with (argz CJ);
    change (arg x CK (a_k a)) with (argz CK); change (arg x CL (a_l a)) with (argz CL).

  Lemma step_D2 : K = K2 -> wp (op_D Rplus Rmult IZR x K c fo go a m) (stepped VD).
  Proof.
    intros E. unfold op_D. two L Hd E.
    destruct (c_cases c) as [Ec|[Ec|[Ec|Ec]]]; rewrite Ec in L, Hd, A1, A2, A3, A4 |- *; cbn [more] in L, Hd, A1, A2, A3, A4;
      (eapply fin_2; [exact E| |
        first [apply nabla1i_2e_ok with (G := G2)|apply nabla1j_2e_ok with (G := G2)|apply nabla1k_2e_ok with (G := G2)|
               apply nabla1l_2e_ok with (G := G2)]; assumption || lia]);
      intros ax o n Hax Hn; unfold VD, DV; rewrite Ec; cbv zeta;
      match goal with |- (if (?u =? 0)%Z then _ else _) = (if (?v =? 0)%Z then _ else _) => replace v with u by ring; destruct (u =? 0)%Z end.
    all: first [apply (f_equal2 Rplus)|idtac];
      apply (f_equal2 Rmult); try reflexivity; unfold G2; pos1; cbn [own]; lia.
  Qed.
  Lemma step_X2 com : K = K2 -> wp (op_X Rplus Rmult Rminus x K c com fo go a m)
    (stepped (VX (fun ax => if com then x_R x c ax - x_C x ax else x_R x c ax))).
  Proof.
    intros E. unfold op_X. two L Hd E. unfold x1i_2e, x1j_2e, x1k_2e, x1l_2e.
    destruct (c_cases c) as [Ec|[Ec|[Ec|Ec]]]; rewrite Ec in L, Hd, A1, A2, A3, A4 |- *; cbn [more] in L, Hd, A1, A2, A3, A4;
      (eapply fin_2; [exact E| |
        first [eapply x1_2e_ok with (G := G2) (bi := 1%Z) (bj := 0%Z) (bk := 0%Z) (bl := 0%Z); solve [assumption | lia | unfold unit4, unit2; auto]|
               eapply x1_2e_ok with (G := G2) (bi := 0%Z) (bj := 1%Z) (bk := 0%Z) (bl := 0%Z); solve [assumption | lia | unfold unit4, unit2; auto]|
               eapply x1_2e_ok with (G := G2) (bi := 0%Z) (bj := 0%Z) (bk := 1%Z) (bl := 0%Z); solve [assumption | lia | unfold unit4, unit2; auto]|
               eapply x1_2e_ok with (G := G2) (bi := 0%Z) (bj := 0%Z) (bk := 0%Z) (bl := 1%Z); solve [assumption | lia | unfold unit4, unit2; auto]]]);
      intros ax o n Hax Hn; unfold VX; rewrite Ec.
    all: apply (f_equal2 Rplus); [|apply (f_equal2 Rmult); [reflexivity|]];
      unfold G2; pos1; cbn [own]; lia.
  Qed.

  (** grids *)
  Definition GG (ax g n i j : Z) : R := got m (at_ ax (g + GRID_BLKSIZE * n) (mk4 i j 0 0)).
  Lemma grid_fam : K = KG -> fam = Fgrids.
  Proof. intros E. destruct H as (_ & _ & _ & HK). rewrite E in HK. destruct fam; cbn in HK; try contradiction; reflexivity. Qed.
  Lemma grid_args : K = KG -> argz CK = 0%Z /\ argz CL = 0%Z /\ (c = CI \/ c = CJ).
  Proof.
    intros E. pose proof (grid_fam E) as Ef. pose proof (Ha CK) as A3. pose proof (Ha CL) as A4.
    pose proof (more_nn c CK). pose proof (more_nn c CL). rewrite Ef in A3, A4, Hc. unfold top in A3, A4. cbn [used] in A3, A4.
    split; [lia|]. split; [lia|]. destruct (c_cases c) as [Ec|[Ec|[Ec|Ec]]]; auto; rewrite Ec in Hc; discriminate.
  Qed.
  Lemma grid_lay : K = KG -> lay_okg (x_env x) (x_bg x) (argz CI) (argz CJ) (more c CI) (more c CJ).
  Proof.
    intros E. pose proof (grid_fam E) as Ef. destruct H as (Hl & Hi & Hb & HK). specialize (Hb E).
    pose proof (Ha CI) as A1. pose proof (Ha CJ) as A2. pose proof (Hi CI). pose proof (Hi CJ).
    rewrite He. rewrite Ef in *. unfold top in A1, A2. cbn [used incr own] in *.
    pose proof (Hl CI eq_refl). pose proof (Hl CJ eq_refl).
    apply grids_lay; lia.
  Qed.
  Lemma hold_g : K = KG -> holdsg (x_env x) (x_bg x) (argz CI) (argz CJ) go (more c CI) (more c CJ) GG m.
  Proof.
    intros E ax g n i j Hax Hb. unfold boxg in Hb. destruct (grid_args E) as (EK & EL & Cc).
    destruct (Hrd ax (g + GRID_BLKSIZE * n)%Z (mk4 i j 0 0) Hax) as [v Hv].
    - rewrite E. unfold ofs. exists g, n. lia.
    - intros c'. pose proof (more_nn c c'). destruct c'; unfold mk4; cbn [own]; lia.
    - unfold GG, got, at_. rewrite Hv. rewrite <- Hv. f_equal. unfold cell, mk4. cbn [own]. ring.
  Qed.
  Lemma fin_g V V' : K = KG ->
    (forall ax g k n, (0 <= ax < 3)%Z -> (forall c', (0 <= n c' <= argz c')%Z) ->
       V' ax (g + GRID_BLKSIZE * k)%Z n = V ax g k (n CI) (n CJ)) ->
    forall r, wp r (opg_done (x_env x) (x_bg x) fo (argz CI) (argz CJ) m V) -> wp r (stepped V').
  Proof.
    intros E HV r W. destruct (grid_args E) as (EK & EL & Cc).
    eapply wp_mono; [exact W|]. intros m' [H1 H2]. split; [exact H2|].
    intros ax o n Hax Ho Hn. rewrite E in Ho. unfold ofs in Ho. destruct Ho as (g & k & Hg & Hk & ->). rewrite HV by assumption.
    pose proof (Hn CI). pose proof (Hn CJ). pose proof (Hn CK). pose proof (Hn CL).
    rewrite <- (H1 ax g k (n CI) (n CJ) Hax).
    - f_equal. unfold cell. replace (n CK) with 0%Z by lia. replace (n CL) with 0%Z by lia. ring.
    - unfold boxg. lia.
  Qed.
  Lemma step_DG : K = KG -> wp (op_D Rplus Rmult IZR x K c fo go a m) (stepped VD).
  Proof.
    intros E. unfold op_D. pose proof (Ha CI) as A1. pose proof (Ha CJ) as A2.
    destruct (grid_args E) as (EK & EL & Cc). pose proof (grid_lay E) as L. pose proof (hold_g E) as Hd.
    pose proof (proj1 (proj2 (proj2 H)) E) as Hb.
    rewrite E. cbv zeta.
    change (arg x CI (a_i a)) with (argz CI). change (arg x CJ (a_j a)) with (argz CJ).
    destruct Cc as [Ec|Ec]; rewrite Ec in L, Hd, A1, A2 |- *; cbn [more] in L, Hd, A1, A2;
      (eapply fin_g; [exact E| |
        first [apply nabla1i_grids_ok with (G := GG)|apply nabla1j_grids_ok with (G := GG)]; assumption || lia]);
      intros ax g k n Hax Hn; unfold VD, DVg; rewrite Ec; cbv zeta;
      match goal with |- (if (?u =? 0)%Z then _ else _) = (if (?v =? 0)%Z then _ else _) => replace v with u by ring; destruct (u =? 0)%Z end;
      pose proof (Hn CK); pose proof (Hn CL); assert (N3 : n CK = 0%Z) by lia; assert (N4 : n CL = 0%Z) by lia.
    all: first [apply (f_equal2 Rplus)|idtac];
      apply (f_equal2 Rmult); try reflexivity; unfold GG; pos1; rewrite ?N3, ?N4; cbn [own]; lia.
  Qed.
  Lemma step_XG com : K = KG -> wp (op_X Rplus Rmult Rminus x K c com fo go a m)
    (stepped (VX (fun ax => if com then x_R x c ax - x_C x ax else x_R x c ax))).
  Proof.
    intros E. unfold op_X. pose proof (Ha CI) as A1. pose proof (Ha CJ) as A2.
    destruct (grid_args E) as (EK & EL & Cc). pose proof (grid_lay E) as L. pose proof (hold_g E) as Hd.
    pose proof (proj1 (proj2 (proj2 H)) E) as Hb.
    rewrite E. cbv zeta.
    change (arg x CI (a_i a)) with (argz CI). change (arg x CJ (a_j a)) with (argz CJ).
    unfold x1i_grids, x1j_grids.
    destruct Cc as [Ec|Ec]; rewrite Ec in L, Hd, A1, A2 |- *; cbn [more] in L, Hd, A1, A2;
      (eapply fin_g; [exact E| |
        first [eapply x1_grids_ok with (G := GG) (bi := 1%Z) (bj := 0%Z); solve [assumption | lia | unfold unit4, unit2; auto]|
               eapply x1_grids_ok with (G := GG) (bi := 0%Z) (bj := 1%Z); solve [assumption | lia | unfold unit4, unit2; auto]]]);
      intros ax g k n Hax Hn; unfold VX; rewrite Ec;
      pose proof (Hn CK); pose proof (Hn CL); assert (N3 : n CK = 0%Z) by lia; assert (N4 : n CL = 0%Z) by lia.
    all: apply (f_equal2 Rplus); [|apply (f_equal2 Rmult); [reflexivity|]];
      unfold GG; pos1; rewrite ?N3, ?N4; cbn [own]; lia.
  Qed.

  Lemma K_cases : K = K1 \/ K = K2 \/ K = KG. Proof. destruct K; auto. Qed.
  Lemma step_D : wp (op_D Rplus Rmult IZR x K c fo go a m) (stepped VD).
  Proof. destruct K_cases as [E|[E|E]]; [apply step_D1|apply step_D2|apply step_DG]; exact E. Qed.
  Lemma step_X com : wp (op_X Rplus Rmult Rminus x K c com fo go a m)
    (stepped (VX (fun ax => if com then x_R x c ax - x_C x ax else x_R x c ax))).
  Proof. destruct K_cases as [E|[E|E]]; [apply step_X1|apply step_X2|apply step_XG]; exact E. Qed.
End Step.
