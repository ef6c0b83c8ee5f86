(** WholeOpt4.v — the drivers of the four-centre integrals with optimizer, from the tables to the caller's array. *)
From Coq Require Import Reals Lra QArith Qreals String.
From Coquelicot Require Import Coquelicot.
From Verif Require Import Base BasModel BasSpec EnvModel IdxModel IdxSpec CtrModel Loop2eModel Loop2eSpec LoopSpec Loop2eFinal Loop3Model Loop3Spec Loop3Final
  OptModel OptSpec OptProof OptPair ScreenModel ScreenSpec ScreenProof ScreenFinal ScreenMore OutModel OutSpec OutSetup TabModel
  OpSpec RecModel RecRModel RecSpec GaussInt Gauss2Int Rec1Real Rec2RModel Rec2Real Rec2Spec
  IntgModel IntgSpec IntgTab IntgStmt IntgCheck IntgStep IntgSem IntgFinal IntgAll IntgEx IntgOvlp IntgReal QuadSpec OperSpec OperModel OperKeep OperNuc Oper2e GiaoProof
  WholeModel WholeSim WholeBatch WholeSpec Whole1e Whole2Model Whole2Sim Whole2Zero Whole2Batch Whole2Spec Whole4c WholeOptModel WholeOptSim WholeOptSpec.
From Verif Require SpinorSpec SpinorModel SpinorDrv PropsSpinor WholeSpinSpec WholeSpinAlg WholeSpinModel.
Local Open Scope R_scope.

(** ** Which loop runs *)
Section Dispatch.
  Variables (sz : nat -> Z) (gsz n_comp nf : Z) (si sj sk sl : shl R) (common : R).
  Notation L := (nf * n_comp)%Z.
  Notation sc sz := (opt_scratch4 sz L n_comp (s_ctr si) (s_ctr sj) (s_ctr sk) (s_ctr sl)).
  Hypothesis Hlen : (0 <= L)%Z.
  Lemma any_fits (m : mem R) : sc (fun s => asize (buf m s)) -> LoopSpec.fits m (scratch_any n_comp nf si sj sk sl).
  Proof.
    unfold opt_scratch4, scratch_any, special_scratch. cbv zeta. intros H t n X. unfold scratch_special, scratch_general, needs in X.
    destruct (Z.eqb_spec (s_ctr si) 1) as [E1|E1], (Z.eqb_spec (s_ctr sj) 1) as [E2|E2], (Z.eqb_spec (s_ctr sk) 1) as [E3|E3], (Z.eqb_spec (s_ctr sl) 1) as [E4|E4];
      cbn [negb Nat.eqb app] in X; destruct (Z.eqb_spec n_comp 1) as [E5|E5]; cbn [negb app In] in X;
      repeat (destruct X as [X|X]; [injection X as <- <-; tauto|]); destruct X.
  Qed.
  Variables (run : Z -> Z -> Z -> Z -> qrun) (b : Z -> Z -> Z -> Z -> bool) (B : Z -> Z -> Z -> Z -> Z -> R) (empty : bool)
    (skipkl : Z -> Z -> bool) (skipij : Z -> Z -> Z -> Z -> bool) (eij ekl : Z -> Z -> R).
  Hypothesis Hr : forall ip jp kp lp c, (0 <= ip < s_np si)%Z -> (0 <= jp < s_np sj)%Z -> (0 <= kp < s_np sk)%Z -> (0 <= lp < s_np sl)%Z ->
    adds_at L gsz (b ip jp kp lp) (B ip jp kp lp) (c * eij ip jp * ekl kp lp) (run ip jp kp lp).
  Variables (m m' : mem R) (g : arr R) (hv : bool).
  Hypothesis Hm : sized sz m.
  Hypothesis Hg : holds gsz g.
  Notation q := (Loop2eModel.mkq empty skipkl skipij b eij ekl B).
  Lemma dispatch_sim : (1 <= L /\ 1 <= n_comp /\ 1 <= s_ctr si /\ 1 <= s_ctr sj /\ 1 <= s_ctr sk /\ 1 <= s_ctr sl)%Z ->
    sc sz /\ (L * s_ctr si * s_ctr sj * s_ctr sk * s_ctr sl <= sz 5%nat)%Z ->
    CINT2e_opt_dispatch Rplus Rmult n_comp nf si sj sk sl common q m = Some (m', hv) ->
    CINT2e_opt_run n_comp nf si sj sk sl common run empty skipkl skipij eij ekl m g = Some (m', hv).
  Proof.
    intros (L1 & Hn & Q1 & Q2 & Q3 & Q4) [S S5] E. unfold CINT2e_opt_dispatch in E. unfold CINT2e_opt_run.
    assert (G : (s_ctr si <> 1 -> L <= sz 0%nat)%Z /\ (s_ctr sj <> 1 -> L * s_ctr si <= sz 1%nat)%Z /\ (s_ctr sk <> 1 -> L * s_ctr si * s_ctr sj <= sz 2%nat)%Z /\
      (s_ctr sl <> 1 -> L * s_ctr si * s_ctr sj * s_ctr sk <= sz 3%nat)%Z /\ (n_comp <> 1 -> L * s_ctr si * s_ctr sj * s_ctr sk * s_ctr sl <= sz 4%nat)%Z ->
      CINT2e_loop Rplus Rmult n_comp nf si sj sk sl common q m = Some (m', hv) -> CINT2e_loop_run n_comp nf si sj sk sl common run empty skipkl skipij eij ekl m g = Some (m', hv)).
    { intros (B0 & B1 & B2 & B3 & B4). apply (opt_sim sz gsz n_comp nf si sj sk sl common Hlen run b B empty skipkl skipij eij ekl Hr m m' g hv Hm Hg).
      cbv zeta. exact (scratch4 L (s_ctr si) (s_ctr sj) (s_ctr sk) (s_ctr sl) n_comp sz L1 Q1 Q2 Q3 Q4 B0 B1 B2 B3 B4 S5). }
    unfold opt_scratch4, special_scratch in S. cbv zeta in S.
    destruct (Z.eqb_spec (s_ctr si) 1) as [E1|E1], (Z.eqb_spec (s_ctr sj) 1) as [E2|E2], (Z.eqb_spec (s_ctr sk) 1) as [E3|E3], (Z.eqb_spec (s_ctr sl) 1) as [E4|E4];
      cbn [b2z] in E |- *; cbv [Z.shiftl Z.add Pos.iter Z.mul Pos.mul Pos.add Pos.succ Pos.add_carry CINTf_2e_loop CINTf_2e_loop_run] in E |- *;
      try exact (G S E).
    - refine (sim_1111 sz gsz n_comp nf si sj sk sl common Hlen run b B empty skipkl skipij eij ekl Hr m m' g hv Hm Hg _ E).
      rewrite E1, E2, E3, E4, !Z.mul_1_r in S, S5. apply Z.le_ge. destruct (Z.eqb_spec n_comp 1) as [N|N]; [exact S5|exact (S N)].
    - refine (sim_111n sz gsz n_comp nf si sj sk sl common Hlen run b B empty skipkl skipij eij ekl Hr m m' g hv Hm Hg _ E). apply Z.le_ge, S.
    - refine (sim_11n1 sz gsz n_comp nf si sj sk sl common Hlen run b B empty skipkl skipij eij ekl Hr m m' g hv Hm Hg _ E). apply Z.le_ge, S.
    - refine (sim_1n11 sz gsz n_comp nf si sj sk sl common Hlen run b B empty skipkl skipij eij ekl Hr m m' g hv Hm Hg _ E). apply Z.le_ge, S.
    - refine (sim_n111 sz gsz n_comp nf si sj sk sl common Hlen run b B empty skipkl skipij eij ekl Hr m m' g hv Hm Hg _ E). apply Z.le_ge, S.
  Qed.
End Dispatch.
Lemma near_ext2 w p q P P' Q Q' c : (forall ax, (0 <= ax < 3)%Z -> P ax = P' ax) -> (forall ax, (0 <= ax < 3)%Z -> Q ax = Q' ax) -> near_enough w p q P Q c <-> near_enough w p q P' Q' c.
Proof. intros H H'. unfold near_enough, dist2. rewrite (H 0%Z), (H 1%Z), (H 2%Z), (H' 0%Z), (H' 1%Z), (H' 2%Z) by lia. reflexivity. Qed.

(** ** Pairs *)
Section PairOpt.
  Variables (nbas : Z) (V : view) (ev : Z -> R) (lm : Z -> Z -> R) (ng : ngT) (stored : bool) (i j lic ljc : Z) (cut : R).
  Hypothesis HG : good_shells nbas V ev lm.
  Hypothesis Hi : (0 <= i < nbas)%Z.
  Hypothesis Hj : (0 <= j < nbas)%Z.
  Variables (ip jp : Z).
  Hypothesis P1 : (0 <= ip < v_np V i)%Z.
  Hypothesis P2 : (0 <= jp < v_np V j)%Z.
  Notation D := (pair_degree V ng stored i j (lic + ljc)).
  Notation T := (if stored then user_cutoff (ev 0%Z) else cut).
  Notation p := (pair_opt V ev ng stored i j lic ljc cut ip jp).
  Lemma pair_R : pair_spec (ex V ev i ip) (ex V ev j jp) (ctr V ev i) (ctr V ev j)
    (log_size (last_ex V ev i) (last_ex V ev j) (dist_sq (ctr V ev i) (ctr V ev j)) (ev 8%Z) D) (lm i ip) (lm j jp) T p.
  Proof. unfold pair_degree, pair_opt. destruct stored; [apply (stored_R nbas V ev lm HG)|apply (entry_R nbas V ev lm HG)]; assumption. Qed.
  Lemma pair_cce : cceij p = pair_est V ev lm i j D ip jp.
  Proof. exact (proj1 pair_R). Qed.
  Lemma pair_val : (pair_est V ev lm i j D ip jp < T ->
      eij p = overlap_factor (ex V ev i ip) (ex V ev j jp) (ctr V ev i) (ctr V ev j) /\
      forall ax, (0 <= ax < 3)%Z -> pt (pd_centre p) ax = product_centre (ex V ev i ip) (ex V ev j jp) (ctr V ev i) (ctr V ev j) ax) /\
    (T <= pair_est V ev lm i j D ip jp -> eij p = 0).
  Proof.
    destruct (HG i ip Hi P1) as [H1 _]. destruct (HG j jp Hj P2) as [H2 _].
    destruct pair_R as (_ & X2 & X3). split; [|exact X3]. intros L. destruct (X2 L) as (Y1 & Y2 & Y3 & Y4). split; [rewrite Y4; apply of_E|].
    intros ax Hax. assert (Hax3 : ax = 0%Z \/ ax = 1%Z \/ ax = 2%Z) by lia. unfold pd_centre, pt, product_centre.
    destruct Hax3 as [-> | [-> | ->]]; cbn [Z.eqb Pos.eqb]; [rewrite Y1|rewrite Y2|rewrite Y3]; reflexivity.
  Qed.
End PairOpt.

Section Whole.
  Variables (nbas : Z) (V : view) (ev : Z -> R) (lm : Z -> Z -> R) (rys : Z -> R -> nodes) (srys : Z -> R -> R -> nodes) (t : ent) (ng : ngT) (stored : bool) (i j k l : Z) (f : Z * positive).
  Notation e := (env_o4 V ev t ng i j k l).
  Notation nc := (Z.of_nat (length (g_rows (t_f t)))).
  Notation len := (nf e * nc)%Z.
  Notation fam := (en_fam (t_e t)).
  Notation fi := (CINTlen_cart (v_l V i)).
  Notation fj := (CINTlen_cart (v_l V j)).
  Notation fk := (CINTlen_cart (v_l V k)).
  Notation fl := (CINTlen_cart (v_l V l)).
  Hypothesis HG : good_shells nbas V ev lm.
  Hypothesis Hi : (0 <= i < nbas)%Z.
  Hypothesis Hj : (0 <= j < nbas)%Z.
  Hypothesis Hk : (0 <= k < nbas)%Z.
  Hypothesis Hl : (0 <= l < nbas)%Z.
  Hypothesis Hni : (0 <= v_np V i)%Z /\ (1 <= v_nc V i)%Z.
  Hypothesis Hnj : (0 <= v_np V j)%Z /\ (1 <= v_nc V j)%Z.
  Hypothesis Hnk : (0 <= v_np V k)%Z /\ (1 <= v_nc V k)%Z.
  Hypothesis Hnl : (0 <= v_np V l)%Z /\ (1 <= v_nc V l)%Z.
  Hypothesis Ht : In t catalogue.
  Hypothesis Hfam : fam = F2e.
  Hypothesis Hex : ~ In (en_name (t_e t)) except_names.
  Hypothesis En : ent_ng t = Some ng.
  Hypothesis Ef : factor (t_e t) = Some f.
  Hypothesis Hli : (0 <= v_l V i <= 15)%Z.
  Hypothesis Hlj : (0 <= v_l V j <= 15)%Z.
  Hypothesis Hlk : (0 <= v_l V k <= 15)%Z.
  Hypothesis Hll : (0 <= v_l V l <= 15)%Z.
  Hypothesis Hnr : (nrys_roots e <= 32)%Z.
  Hypothesis HR : finds_roots_2e rys srys (nrys_roots e) (rys_order e) (ev 8%Z).
  Variables (idx idx' : arr Z) (gsz : Z).
  Hypothesis Hidx : (3 * nf e <= asize idx)%Z.
  Hypothesis Eidx : index_fun fam e idx = Some idx'.
  Hypothesis Hgsz : ((2 ^ GSHIFT ng + 1) * (3 * g_size e) <= gsz)%Z.
  Hypothesis Hgsz4 : (4 * g_size e <= gsz)%Z.
  Notation a ip jp kp lp := (a4 V ev i j k l ip jp kp lp).
  Notation A := (A4 V ev i j k l).
  Notation Eij ip jp := (overlap_factor (ex V ev i ip) (ex V ev j jp) (ctr V ev i) (ctr V ev j)).
  Notation Ekl kp lp := (overlap_factor (ex V ev k kp) (ex V ev l lp) (ctr V ev k) (ctr V ev l)).
  Notation run := (run_o4 V ev rys srys t ng stored i j k l idx').
  Definition Bt (ip jp kp lp : Z) : Z -> R := qbatch len gsz (run ip jp kp lp) (eri_const * (Eij ip jp * Ekl kp lp)).
  Notation q0 := (q_o4 V ev ng stored i j k l).
  Notation pij := (pij_o4 V ev ng stored i j).
  Notation pkl := (pkl_o4 V ev ng stored k l).
  Notation Go ip jp kp lp := (goes ev (a ip jp kp lp) (pt (pd_centre (pij ip jp))) (pt (pd_centre (pkl kp lp))) (cut_o4 V ev ng stored i j k l ip jp kp lp)).
  Notation q := (Loop2eModel.mkq (pair_empty q0) (skip_kl q0) (skip_ij q0) (fun ip jp kp lp => Go ip jp kp lp) (e_ij q0) (e_kl q0) Bt).
  Notation C := (cutoff_2e false (ev 0%Z)).
  Notation T := (if stored then user_cutoff (ev 0%Z) else C).
  Notation eij_ ip jp := (pair_est V ev lm i j (pair_degree V ng stored i j (v_l V i + IINC ng + (v_l V j + JINC ng))) ip jp).
  Notation ekl_ kp lp := (pair_est V ev lm k l (pair_degree V ng stored k l (v_l V k + KINC ng + (v_l V l + LINC ng))) kp lp).
  Notation P ip jp := (product_centre (ex V ev i ip) (ex V ev j jp) (ctr V ev i) (ctr V ev j)).
  Notation Q kp lp := (product_centre (ex V ev k kp) (ex V ev l lp) (ctr V ev k) (ctr V ev l)).
  Notation near ip jp kp lp := (near_enough (ev 8%Z) (ex V ev i ip + ex V ev j jp) (ex V ev k kp + ex V ev l lp) (P ip jp) (Q kp lp) (C - ekl_ kp lp - eij_ ip jp)).
  Definition kept4 (ip jp kp lp : Z) : Prop := eij_ ip jp < T /\ ekl_ kp lp < T /\ eij_ ip jp + ekl_ kp lp <= C /\ near ip jp kp lp.
  Definition in4 (ip jp kp lp : Z) : Prop := (0 <= ip < v_np V i)%Z /\ (0 <= jp < v_np V j)%Z /\ (0 <= kp < v_np V k)%Z /\ (0 <= lp < v_np V l)%Z.

  Lemma Hul : forall c, used fam c = false -> l4 V i j k l c = 0%Z.
  Proof. rewrite Hfam. intros c. destruct c; discriminate. Qed.
  Lemma Hlc : forall c, (0 <= l4 V i j k l c <= 15)%Z.
  Proof. intros c. destruct c; assumption. Qed.
  Lemma HPc : partners fam A.
  Proof. rewrite Hfam. split; discriminate. Qed.
  Lemma exs ip jp kp lp : in4 ip jp kp lp -> 0 < ex V ev i ip /\ 0 < ex V ev j jp /\ 0 < ex V ev k kp /\ 0 < ex V ev l lp.
  Proof.
    intros (H1 & H2 & H3 & H4). destruct (HG i ip Hi H1) as [B1 _]. destruct (HG j jp Hj H2) as [B2 _].
    destruct (HG k kp Hk H3) as [B3 _]. destruct (HG l lp Hl H4) as [B4 _]. auto.
  Qed.
  Notation in_ ip jp kp lp := (eij_ ip jp < T /\ ekl_ kp lp < T).
  Lemma p_ij ip jp kp lp : in4 ip jp kp lp -> cceij (pij ip jp) = eij_ ip jp /\
    (eij_ ip jp < T -> e_ij q0 ip jp = Eij ip jp /\ forall ax, (0 <= ax < 3)%Z -> pt (pd_centre (pij ip jp)) ax = P ip jp ax) /\
    (T <= eij_ ip jp -> e_ij q0 ip jp = 0).
  Proof.
    intros (P1 & P2 & _). unfold pij_o4. split; [apply (pair_cce nbas V ev lm); assumption|].
    pose proof (pair_val nbas V ev lm ng stored i j (v_l V i + IINC ng) (v_l V j + JINC ng) (init_expcutoff Rops ev C2e) HG Hi Hj ip jp P1 P2) as X.
    rewrite (cut2e_is ev false) in X |- *. unfold q_o4, int2e_opt, q_opt. cbn [e_ij]. rewrite (cut2e_is ev false). exact X.
  Qed.
  Lemma p_kl ip jp kp lp : in4 ip jp kp lp -> cceij (pkl kp lp) = ekl_ kp lp /\
    (ekl_ kp lp < T -> e_kl q0 kp lp = Ekl kp lp /\ forall ax, (0 <= ax < 3)%Z -> pt (pd_centre (pkl kp lp)) ax = Q kp lp ax) /\
    (T <= ekl_ kp lp -> e_kl q0 kp lp = 0).
  Proof.
    intros (_ & _ & P1 & P2). unfold pkl_o4. split; [apply (pair_cce nbas V ev lm); assumption|].
    pose proof (pair_val nbas V ev lm ng stored k l (v_l V k + KINC ng) (v_l V l + LINC ng) (init_expcutoff Rops ev C2e) HG Hk Hl kp lp P1 P2) as X.
    rewrite (cut2e_is ev false) in X |- *. unfold q_o4, int2e_opt, q_opt. cbn [e_kl]. rewrite (cut2e_is ev false). exact X.
  Qed.
  Lemma cut4_is ip jp kp lp : in4 ip jp kp lp -> cut_o4 V ev ng stored i j k l ip jp kp lp = C - ekl_ kp lp - eij_ ip jp.
  Proof.
    intros H. unfold cut_o4. rewrite (proj1 (p_ij _ _ _ _ H)), (proj1 (p_kl _ _ _ _ H)), (cut2e_is ev false). reflexivity.
  Qed.
  Lemma goes_is ip jp kp lp : in4 ip jp kp lp -> in_ ip jp kp lp -> (Go ip jp kp lp = true <-> near ip jp kp lp).
  Proof.
    intros H [L1 L2]. rewrite goes_near, (cut4_is _ _ _ _ H). cbn [a4]. destruct (p_ij _ _ _ _ H) as (_ & E1 & _). destruct (p_kl _ _ _ _ H) as (_ & E2 & _).
    rewrite (near_ext2 _ _ _ _ (P ip jp) _ (Q kp lp) _ (proj2 (E1 L1)) (proj2 (E2 L2))). reflexivity.
  Qed.
  Lemma T_le : T <= C.
  Proof. destruct stored; [apply (cut2e_ge ev false)|apply Rle_refl]. Qed.
  Lemma tests ip jp kp lp : in4 ip jp kp lp ->
    (survives q ip jp kp lp = true -> ekl_ kp lp <= C /\ eij_ ip jp + ekl_ kp lp <= C /\ Go ip jp kp lp = true) /\
    (in_ ip jp kp lp -> eij_ ip jp + ekl_ kp lp <= C -> Go ip jp kp lp = true -> survives q ip jp kp lp = true).
  Proof.
    intros H. unfold survives. cbn [pair_empty skip_kl skip_ij g0].
    assert (S1 : skip_kl q0 kp lp = Rltb C (ekl_ kp lp)).
    { rewrite <- (cut2e_is ev false), <- (proj1 (p_kl _ _ _ _ H)). reflexivity. }
    assert (S2 : skip_ij q0 ip jp kp lp = Rltb (C - ekl_ kp lp) (eij_ ip jp)).
    { rewrite <- (cut2e_is ev false), <- (proj1 (p_kl _ _ _ _ H)), <- (proj1 (p_ij _ _ _ _ H)). reflexivity. }
    rewrite S1, S2, !andb_true_iff, !negb_true_iff, !ltb_le. split.
    - intros (_ & X1 & X2 & X3). repeat split; [exact X1|lra|exact X3].
    - intros [L1 L2] X2 X3. pose proof T_le as TC. repeat split; [|lra|lra|exact X3].
      destruct H as (P1 & P2 & P3 & P4). unfold q_o4, int2e_opt, q_opt. cbn [pair_empty]. unfold pair_degree in L1, L2. destruct stored; apply orb_false_iff.
      + split; [apply (stored_val nbas V ev lm HG ng i j Hi Hj ip jp P1 P2 L1)|apply (stored_val nbas V ev lm HG ng k l Hk Hl kp lp P3 P4 L2)].
      + rewrite <- (cut2e_is ev false) in L1, L2. split; [apply (nonempty_R nbas V ev lm HG i j _ _ _ Hi Hj ip jp P1 P2 L1)|apply (nonempty_R nbas V ev lm HG k l _ _ _ Hk Hl kp lp P3 P4 L2)].
  Qed.
  Lemma survives_iff ip jp kp lp : in4 ip jp kp lp -> in_ ip jp kp lp -> (survives q ip jp kp lp = true <-> kept4 ip jp kp lp).
  Proof.
    intros H L. destruct (tests _ _ _ _ H) as [T1 T2]. pose proof (goes_is _ _ _ _ H L) as G. unfold kept4. split.
    - intros X. destruct (T1 X) as (X1 & X2 & X3). apply G in X3. destruct L. repeat split; assumption.
    - intros (_ & _ & X2 & X3). apply G in X3. apply T2; assumption.
  Qed.
  Lemma batches ip jp kp lp : in4 ip jp kp lp -> in_ ip jp kp lp ->
    (forall fac, adds_at len gsz (Go ip jp kp lp) (Bt ip jp kp lp) fac (run ip jp kp lp)) /\
    (near ip jp kp lp -> is_batch4 ev t (l4 V i j k l) f (a ip jp kp lp) A (Bt ip jp kp lp)).
  Proof.
    intros H L. destruct (exs _ _ _ _ H) as (H1 & H2 & H3 & H4). destruct HR as (R1 & R2 & R3).
    destruct (p_ij _ _ _ _ H) as (_ & E1 & _). destruct (E1 (proj1 L)) as (_ & Erij). destruct (p_kl _ _ _ _ H) as (_ & E2 & _). destruct (E2 (proj2 L)) as (_ & Erkl).
    pose proof (goes_is _ _ _ _ H L) as EG. set (rij := pt (pd_centre (pij ip jp))) in *. set (rkl := pt (pd_centre (pkl kp lp))) in *.
    pose proof (Rplus_lt_0_compat _ _ H1 H2) as Hp. pose proof (Rplus_lt_0_compat _ _ H3 H4) as Hq.
    assert (Ha0 : 0 < (ex V ev i ip + ex V ev j jp) * (ex V ev k kp + ex V ev l lp) / (ex V ev i ip + ex V ev j jp + (ex V ev k kp + ex V ev l lp))).
    { apply Rdiv_lt_0_compat; [apply Rmult_lt_0_compat; assumption|lra]. }
    destruct (eri_adds ev rys srys t ng (l4 V i j k l) (c4 V i j k l) f Ht (or_introl Hfam) Hex En Ef Hlc Hul Hnr R1 R2 idx idx' gsz Hidx Eidx Hgsz Hgsz4
      (a ip jp kp lp) A rij rkl (cut_o4 V ev ng stored i j k l ip jp kp lp) HPc Hp Hq Erij Erkl) as (B1 & B2).
    - apply R3; [exact Ha0|]. apply Rmult_le_pos; [apply Rlt_le; exact Ha0|apply dist2_nonneg].
    - split; [exact B1|]. intros K. apply EG in K. exact (B2 K).
  Qed.
  Lemma adds0 ip jp kp lp : in4 ip jp kp lp -> adds_at len gsz (Go ip jp kp lp) (Bt ip jp kp lp) 0 (run ip jp kp lp).
  Proof.
    intros H. destruct (exs _ _ _ _ H) as (H1 & H2 & H3 & H4). destruct HR as (R1 & R2 & R3).
    pose proof (Rplus_lt_0_compat _ _ H1 H2) as Hp. pose proof (Rplus_lt_0_compat _ _ H3 H4) as Hq.
    exact (eri_adds0 ev rys srys t ng (l4 V i j k l) (c4 V i j k l) Ht (or_introl Hfam) Hex En Hlc Hul Hnr R1 R2 idx idx' gsz Hidx Eidx Hgsz Hgsz4
      (a ip jp kp lp) A _ _ (cut_o4 V ev ng stored i j k l ip jp kp lp) HPc Hp Hq (Bt ip jp kp lp)).
  Qed.
  Lemma adds ip jp kp lp c : in4 ip jp kp lp -> adds_at len gsz (Go ip jp kp lp) (Bt ip jp kp lp) (c * e_ij q0 ip jp * e_kl q0 kp lp) (run ip jp kp lp).
  Proof.
    intros H. destruct (p_ij _ _ _ _ H) as (_ & _ & E1). destruct (p_kl _ _ _ _ H) as (_ & _ & E2).
    destruct (Rlt_dec (eij_ ip jp) T) as [L1|L1]; [destruct (Rlt_dec (ekl_ kp lp) T) as [L2|L2]|]; [apply batches; auto| |].
    - rewrite (E2 (Rnot_lt_le _ _ L2)), Rmult_0_r. apply adds0. exact H.
    - rewrite (E1 (Rnot_lt_le _ _ L1)), Rmult_0_r, Rmult_0_l. apply adds0. exact H.
  Qed.

  Notation cfi := (fun ic ip => cf V ev i ip ic).
  Notation cfj := (fun jc jp => cf V ev j jp jc).
  Notation cfk := (fun kc kp => cf V ev k kp kc).
  Notation cfl := (fun lc lp => cf V ev l lp lc).
  Definition Yv (common : R) (ic jc kc lc x : Z) : R :=
    common * contract4 0 Rplus Rmult (v_np V i) (v_np V j) (v_np V k) (v_np V l) (survives q) cfi cfj cfk cfl
      (fun ip jp kp lp x => e_ij q0 ip jp * e_kl q0 kp lp * Bt ip jp kp lp x) ic jc kc lc x.

  Lemma Yv_is fv facs ic jc kc lc (n m p o kk : nat) ti tj tk tl s1 s2 w : at4 t (l4 V i j k l) n m p o kk ti tj tk tl s1 s2 w ->
    exists S, summed4 V ev kept4 i j k l ic jc kc lc (fun ip jp kp lp => eri4 V ev i j k l ip jp kp lp ti tj tk tl w) S /\
      (cval (cqmul (qfac f) (phase (t_e t) s1 s2)) * RtoC (Yv (eri_const * facs * fv) ic jc kc lc (pos4 t (l4 V i j k l) n m p o kk)) = RtoC (fv * facs) * S)%C.
  Proof.
    intros F. set (x := pos4 t (l4 V i j k l) n m p o kk).
    set (ph := cval (cqmul (qfac f) (phase (t_e t) s1 s2))).
    set (D := fun ip jp kp lp => (ph * RtoC (eri_const * (Eij ip jp * Ekl kp lp) * Bt ip jp kp lp x))%C).
    set (K := fun ip jp kp lp => Rltb (eij_ ip jp) T && Rltb (ekl_ kp lp) T && survives q ip jp kp lp).
    assert (HK : forall ip jp kp lp, in4 ip jp kp lp -> (K ip jp kp lp = true <-> kept4 ip jp kp lp)).
    { intros ip jp kp lp H. unfold K. rewrite !andb_true_iff, !Rltb_iff. split.
      - intros [L X]. apply (survives_iff _ _ _ _ H L), X.
      - intros X. assert (L : in_ ip jp kp lp) by exact (conj (proj1 X) (proj1 (proj2 X))). split; [exact L|]. apply (survives_iff _ _ _ _ H L), X. }
    eexists. split.
    - exists D, K. split; [|reflexivity]. intros ip jp kp lp Hip Hjp Hkp Hlp. assert (H4 : in4 ip jp kp lp) by (repeat split; tauto). split; [apply HK; exact H4|]. intros Hk4.
      destruct (batches ip jp kp lp H4 (conj (proj1 Hk4) (proj1 (proj2 Hk4)))) as [_ B]. pose proof (proj2 (proj2 (proj2 Hk4))) as Nr.
      destruct (B Nr n m p o kk ti tj tk tl s1 s2 w F) as (D' & D1 & D2). unfold D. unfold ph, x.
      match type of D2 with ?L = _ => match goal with |- eri4 _ _ _ _ _ _ _ _ _ _ _ _ _ _ _ ?R => replace R with L by reflexivity end end.
      rewrite D2. exact D1.
    - unfold Yv, contract4. rewrite !RtoC_mult. rewrite csumz_R.
      match goal with |- (?a * (?b * ?c * ?d * ?S))%C = _ => transitivity (d * c * (a * b * S))%C; [ring|] end.
      f_equal. rewrite csumz_mul. apply csumz_ext. intros lp Hlp. rewrite csumz_R, csumz_mul. apply csumz_ext. intros kp Hkp.
      rewrite csumz_R, csumz_mul. apply csumz_ext. intros jp Hjp. rewrite csumz_R, csumz_mul. apply csumz_ext. intros ip Hip.
      assert (H4 : in4 ip jp kp lp) by (repeat split; tauto).
      destruct (p_ij _ _ _ _ H4) as (_ & E1 & E1'). destruct (p_kl _ _ _ _ H4) as (_ & E2 & E2').
      destruct (Rlt_dec (eij_ ip jp) T) as [L1|L1]; [destruct (Rlt_dec (ekl_ kp lp) T) as [L2|L2]|].
      + pose proof (survives_iff _ _ _ _ H4 (conj L1 L2)) as SI. rewrite <- (HK _ _ _ _ H4) in SI.
        destruct (K ip jp kp lp) eqn:EK.
        * rewrite (proj2 SI eq_refl). rewrite (proj1 (E1 L1)), (proj1 (E2 L2)). unfold D. rewrite !RtoC_mult. ring.
        * destruct (survives q ip jp kp lp); [discriminate (proj1 SI eq_refl)|]. ring.
      + replace (K ip jp kp lp) with false.
        * rewrite (E2' (Rnot_lt_le _ _ L2)). destruct (survives q ip jp kp lp); [|ring].
          match goal with |- (_ * RtoC ?X)%C = _ => replace X with 0 by ring end. ring.
        * symmetry. apply Bool.not_true_iff_false. rewrite (HK _ _ _ _ H4). intros (_ & X & _). contradiction.
      + replace (K ip jp kp lp) with false.
        * rewrite (E1' (Rnot_lt_le _ _ L1)). destruct (survives q ip jp kp lp); [|ring].
          match goal with |- (_ * RtoC ?X)%C = _ => replace X with 0 by ring end. ring.
        * symmetry. apply Bool.not_true_iff_false. rewrite (HK _ _ _ _ H4). intros (X & _). contradiction.
  Qed.

  (** ** The loop *)
  Notation ci := (v_nc V i).
  Notation cj := (v_nc V j).
  Notation ck := (v_nc V k).
  Notation cl := (v_nc V l).
  Notation rows := (nf e * (ci * cj * ck * cl))%Z.
  Lemma nf_is : nf e = (fi * fk * fl * fj)%Z.
  Proof. unfold env_o4, env_2e. rewrite Hfam. reflexivity. Qed.
  Lemma nf_pos : (1 <= nf e)%Z /\ (1 <= fi)%Z /\ (1 <= fj)%Z /\ (1 <= fk)%Z /\ (1 <= fl)%Z.
  Proof.
    pose proof (len_cart_pos _ Hli). pose proof (len_cart_pos _ Hlj). pose proof (len_cart_pos _ Hlk). pose proof (len_cart_pos _ Hll).
    split; [|auto]. rewrite nf_is. repeat apply pos_mul; assumption.
  Qed.
  Lemma nc_pos : (1 <= nc)%Z /\ ncompB ng = nc.
  Proof. destruct (whole2 t Ht (or_introl Hfam)) as (_ & _ & W). destruct (W ng En) as (W1 & W2). rewrite Hfam in W1, W2. unfold ncomp_of in *. unfold ncompB. lia. Qed.

  Definition xv (common : R) (p : Z) : R :=
    let r := (p mod rows)%Z in
    Yv common ((r / nf e) mod ci) ((r / (nf e * ci)) mod cj) ((r / (nf e * ci * cj)) mod ck) (r / (nf e * ci * cj * ck)) (r mod nf e * nc + p / rows)%Z.
  Lemma xv_at common n ic jc kc lc b : (0 <= ic < ci)%Z -> (0 <= jc < cj)%Z -> (0 <= kc < ck)%Z -> (0 <= lc < cl)%Z -> (0 <= b < nf e)%Z ->
    xv common (((((n * cl + lc) * ck + kc) * cj + jc) * ci + ic) * nf e + b) = Yv common ic jc kc lc (b * nc + n)%Z.
  Proof.
    intros H1 H2 H3 H4 Hb. destruct (decode4 (nf e) ci cj ck cl n ic jc kc lc b Hb H1 H2 H3 H4) as (E1 & E2 & E3 & E4 & E5 & E6).
    unfold xv. cbv zeta. rewrite E1, E2, E3, E4, E5, E6. reflexivity.
  Qed.

  Variables (m : mem R) (g : arr R).
  Hypothesis Hm : forall s, filled (buf m s).
  Hypothesis Hg : filled g /\ asize g = gsz.
  Hypothesis Hw : opt_scratch4 (fun s => asize (buf m s)) (nf e * nc) nc ci cj ck cl.
  Hypothesis Hw5 : (rows * nc <= asize (buf m 5))%Z.
  Definition any4 : Prop := some4 (v_np V i) (v_np V j) (v_np V k) (v_np V l) (survives q).

  Lemma loop_value common si sj sk sl :
    mk_shell Risz (v_np V i) (v_nc V i) (coef_arr V ev i) = Some si -> mk_shell Risz (v_np V j) (v_nc V j) (coef_arr V ev j) = Some sj ->
    mk_shell Risz (v_np V k) (v_nc V k) (coef_arr V ev k) = Some sk -> mk_shell Risz (v_np V l) (v_nc V l) (coef_arr V ev l) = Some sl ->
    exists m' ret, CINT2e_opt_run nc (nf e) si sj sk sl common run (pair_empty q0) (skip_kl q0) (skip_ij q0) (e_ij q0) (e_kl q0) (set_flg m 5%nat true) g = Some (m', ret) /\
      (negb (flg m' 5%nat) = true -> reads (buf m' 5%nat) (nc * (nf e * ci * cj * ck * cl)) (xv common)) /\
      (negb (flg m' 5%nat) = true <-> any4).
  Proof.
    intros E1 E2 E3 E4. destruct (shell_at V ev (fun _ _ => 0%Z) ng i j Hli Hlj i Hni) as (si' & E1' & N1 & C1 & S1). destruct (shell_at V ev (fun _ _ => 0%Z) ng i j Hli Hlj j Hnj) as (sj' & E2' & N2 & C2 & S2).
    destruct (shell_at V ev (fun _ _ => 0%Z) ng i j Hli Hlj k Hnk) as (sk' & E3' & N3 & C3 & S3). destruct (shell_at V ev (fun _ _ => 0%Z) ng i j Hli Hlj l Hnl) as (sl' & E4' & N4 & C4 & S4).
    rewrite E1 in E1'. injection E1' as <-. rewrite E2 in E2'. injection E2' as <-. rewrite E3 in E3'. injection E3' as <-. rewrite E4 in E4'. injection E4' as <-.
    destruct nf_pos as [Hn _]. destruct nc_pos as [Hnc _]. set (m0 := set_flg m 5%nat true).
    pose proof (proj2 Hni) as Q1. pose proof (proj2 Hnj) as Q2. pose proof (proj2 Hnk) as Q3. pose proof (proj2 Hnl) as Q4.
    pose proof (pos_mul _ _ Hn Hnc) as Hl0. pose proof (pos_mul _ _ Hl0 Q1) as Hl1. pose proof (pos_mul _ _ Hl1 Q2) as Hl2. pose proof (pos_mul _ _ Hl2 Q3) as Hl3.
    assert (Hlen : (0 <= nf e * nc)%Z) by lia.
    assert (HF : LoopSpec.fits m0 (scratch_any nc (nf e) si sj sk sl)).
    { apply (any_fits nc (nf e) si sj sk sl m0). rewrite C1, C2, C3, C4. exact Hw. }
    assert (H5 : caller_holds m0 (rows4 (nf e) si sj sk sl) nc (fun _ _ => 0)).
    { split; [unfold rows4; rewrite C1, C2, C3, C4; exact Hw5|]. cbn. discriminate. }
    pose proof (dispatch_contracts 0 1 Rplus Rmult Rminus Ropp RTheory Risz Risz_zero nc (nf e) si sj sk sl _ _ _ _ S1 S2 S3 S4 ltac:(lia) Hnc q common m0 (fun _ _ => 0) H5 HF) as HL.
    destruct HL as (m' & ret & EL & _ & P1 & P2 & P3 & P4).
    unfold value4, LoopSpec.batch4, rows4 in P4. rewrite C1, C2, C3, C4, N1, N2, N3, N4 in *. 
    exists m', ret. split; [|split].
    - refine (dispatch_sim (fun s => asize (buf m s)) gsz nc (nf e) si sj sk sl common Hlen run (fun ip jp kp lp => Go ip jp kp lp) Bt (pair_empty q0) (skip_kl q0) (skip_ij q0) (e_ij q0) (e_kl q0) _ m0 m' g ret _ Hg _ _ EL).
      + intros ip jp kp lp c Hip Hjp Hkp Hlp. apply adds. rewrite N1 in Hip. rewrite N2 in Hjp. rewrite N3 in Hkp. rewrite N4 in Hlp. repeat split; tauto.
      + intros s. split; [apply Hm|reflexivity].
      + rewrite C1, C2, C3, C4. exact (conj Hl0 (conj Hnc (conj Q1 (conj Q2 (conj Q3 Q4))))).
      + rewrite C1, C2, C3, C4. split; [exact Hw|]. replace (nf e * nc * ci * cj * ck * cl)%Z with (rows * nc)%Z by ring. exact Hw5.
    - intros Hv p Hp. apply negb_true_iff in Hv.
      assert (Hrw : (1 <= rows)%Z) by (apply pos_mul; [exact Hn|repeat apply pos_mul; assumption]).
      replace (nc * (nf e * ci * cj * ck * cl))%Z with (nc * rows)%Z in Hp by ring.
      destruct (row_split p rows nc Hrw Hp) as (Ep & Hd & Mb). unfold xv. cbv zeta. rewrite Ep at 1.
      rewrite (P4 Hv (p mod rows)%Z (p / rows)%Z Mb Hd). reflexivity.
    - rewrite negb_true_iff, P1. cbn. unfold any4. split; [intros [X|X]; [discriminate X|exact X]|intros X; right; exact X].
  Qed.

  Lemma Yv_none common ic jc kc lc x : ~ any4 -> Yv common ic jc kc lc x = 0.
  Proof.
    intros H. unfold Yv, contract4. rewrite lsum_0R; [ring|]. intros lp Hlp. apply lsum_0R. intros kp Hkp. apply lsum_0R. intros jp Hjp. apply lsum_0R. intros ip Hip.
    destruct (survives q ip jp kp lp) eqn:K; [|reflexivity]. exfalso. apply H. exists ip, jp, kp, lp. repeat split; tauto.
  Qed.
  Lemma kept_some : (exists ip jp kp lp, in4 ip jp kp lp /\ kept4 ip jp kp lp) -> any4.
  Proof.
    intros (ip & jp & kp & lp & H & K). exists ip, jp, kp, lp. pose proof H as (P1 & P2 & P3 & P4). repeat (split; [assumption|]).
    apply (survives_iff _ _ _ _ H (conj (proj1 K) (proj1 (proj2 K)))). exact K.
  Qed.
  Lemma some_kept : any4 -> exists ip jp kp lp, in4 ip jp kp lp /\ ekl_ kp lp <= C /\ eij_ ip jp + ekl_ kp lp <= C.
  Proof.
    intros (ip & jp & kp & lp & P1 & P2 & P3 & P4 & K). exists ip, jp, kp, lp. assert (H : in4 ip jp kp lp) by (repeat split; tauto). split; [exact H|].
    destruct (tests _ _ _ _ H) as [T1 _]. destruct (T1 K) as (X1 & X2 & _). split; assumption.
  Qed.

  (** ** The driver *)
  Notation facs := (CINTcommon_fac_sp (v_l V i) * CINTcommon_fac_sp (v_l V j) * CINTcommon_fac_sp (v_l V k) * CINTcommon_fac_sp (v_l V l)).
  Variables (fv : R) (kd : kind).
  Hypothesis Hkd : kd = CartK \/ kd = SphK.
  Hypothesis Hfv : entry_factor kd (t_e t) = Some fv.
  Notation com := (eri_const * facs * fv).
  Definition Yc (n ic jc kc lc a b c d : Z) : R := Yv com ic jc kc lc ((((b * fl + d) * fk + c) * fi + a) * nc + n)%Z.

  Lemma drv_loop dims out : exists m',
    int2e_drv_opt V ev rys srys t ng stored i j k l kd dims idx g m out =
      (out <- CINT2e_drv_tail 0 Rplus Rmult sph_coef kd (negb (flg m' 5%nat)) dims out (buf m' 5%nat) e ;; Some (out, negb (flg m' 5%nat))) /\
    (negb (flg m' 5%nat) = true -> reads (buf m' 5%nat) (nc * (nf e * ci * cj * ck * cl)) (xv com)) /\
    (negb (flg m' 5%nat) = true <-> any4).
  Proof.
    destruct (shell_at V ev (fun _ _ => 0%Z) ng i j Hli Hlj i Hni) as (si & E1 & _). destruct (shell_at V ev (fun _ _ => 0%Z) ng i j Hli Hlj j Hnj) as (sj & E2 & _).
    destruct (shell_at V ev (fun _ _ => 0%Z) ng i j Hli Hlj k Hnk) as (sk & E3 & _). destruct (shell_at V ev (fun _ _ => 0%Z) ng i j Hli Hlj l Hnl) as (sl & E4 & _).
    destruct (loop_value com si sj sk sl E1 E2 E3 E4) as (m' & ret & EL & R1 & R2). exists m'. split; [|split; assumption].
    unfold int2e_drv_opt. rewrite Hfv. cbn [bind]. rewrite Eidx. cbn [bind]. rewrite E1. cbn [bind]. rewrite E2. cbn [bind]. rewrite E3. cbn [bind]. rewrite E4. cbn [bind].
    destruct nc_pos as [_ Hnc].
    assert (EN : (ncomp_e1 e * ncomp_e2 e * ncomp_tensor e = nc)%Z). { rewrite <- Hnc. unfold env_o4, env_2e. rewrite Hfam. reflexivity. }
    rewrite EN.
    replace (eri_const * CINTcommon_fac_sp (v_l V i) * CINTcommon_fac_sp (v_l V j) * CINTcommon_fac_sp (v_l V k) * CINTcommon_fac_sp (v_l V l) * fv) with com by ring.
    rewrite EL. reflexivity.
  Qed.

  Definition Y_ok (Y : Z -> Z -> Z -> Z -> Z -> Z -> Z -> Z -> Z -> R) : Prop :=
    forall (n m p o kk : nat) ic jc kc lc ti tj tk tl s1 s2 w, nth_error (cart_list (v_l V i)) n = Some ti -> nth_error (cart_list (v_l V j)) m = Some tj ->
      nth_error (cart_list (v_l V k)) p = Some tk -> nth_error (cart_list (v_l V l)) o = Some tl ->
      nth_error (comps t) kk = Some (s1, s2, w) ->
      exists S, summed4 V ev kept4 i j k l ic jc kc lc (fun ip jp kp lp => eri4 V ev i j k l ip jp kp lp ti tj tk tl w) S /\
        (cval (cqmul (qfac f) (phase (t_e t) s1 s2)) * RtoC (Y (Z.of_nat kk) ic jc kc lc (Z.of_nat n) (Z.of_nat m) (Z.of_nat p) (Z.of_nat o)) = RtoC (fv * facs) * S)%C.
  Definition hv_ok (hv : bool) : Prop :=
    ((exists ip jp kp lp, in4 ip jp kp lp /\ kept4 ip jp kp lp) -> hv = true) /\
    (hv = true -> exists ip jp kp lp, in4 ip jp kp lp /\ ekl_ kp lp <= C /\ eij_ ip jp + ekl_ kp lp <= C).
  Lemma Yc_ok : Y_ok Yc.
  Proof.
    intros n m0 p o kk ic jc kc lc ti tj tk tl s1 s2 w F1 F2 F3 F4 F5.
    destruct (Yv_is fv facs ic jc kc lc n m0 p o kk ti tj tk tl s1 s2 w) as (S & S1 & S2); [repeat split; assumption|].
    exists S. split; [exact S1|]. rewrite <- S2. unfold Yc. do 3 f_equal. unfold pos4. cbn [l4]. rewrite !len_cart_list by lia. reflexivity.
  Qed.
  Lemma hv_is hv : (hv = true <-> any4) -> hv_ok hv.
  Proof. intros H. split; [intros X; apply H, kept_some, X|intros X; apply some_kept, H, X]. Qed.
  Lemma env_is : env4 ng (v_l V i) (v_l V j) (v_l V k) (v_l V l) ci cj ck cl e.
  Proof. left. exists (Rltb (ev 8%Z) 0). unfold env_o4, env_2e. rewrite Hfam. reflexivity. Qed.
  Lemma pos_in a b c d : (0 <= a < fi)%Z -> (0 <= b < fj)%Z -> (0 <= c < fk)%Z -> (0 <= d < fl)%Z -> (0 <= ((b * fl + d) * fk + c) * fi + a < nf e)%Z.
  Proof. intros. rewrite nf_is. replace (fi * fk * fl * fj)%Z with (fj * fl * fk * fi)%Z by ring. repeat (apply digit_bound; [assumption|]). assumption. Qed.
  Lemma val_at n ic jc kc lc a b c d : (0 <= ic < ci)%Z -> (0 <= jc < cj)%Z -> (0 <= kc < ck)%Z -> (0 <= lc < cl)%Z ->
    (0 <= a < fi)%Z -> (0 <= b < fj)%Z -> (0 <= c < fk)%Z -> (0 <= d < fl)%Z ->
    OutSpec.batch4 (xv com) (fi * fk * fl * fj) ci cj ck cl n ic jc kc lc (((b * fl + d) * fk + c) * fi + a)%Z = Yc n ic jc kc lc a b c d.
  Proof. intros. unfold OutSpec.batch4. rewrite <- nf_is. unfold Yc. apply xv_at; try assumption. apply pos_in; assumption. Qed.

  Lemma drv_cart dims out n1 n2 n3 n4 : kd = CartK ->
    (fi * ci <= n1)%Z -> (fj * cj <= n2)%Z -> (fk * ck <= n3)%Z -> (fl * cl <= n4)%Z ->
    dims_are dims 4 [n1; n2; n3; n4] [(fi * ci)%Z; (fj * cj)%Z; (fk * ck)%Z; (fl * cl)%Z] ->
    room (asize out) nc n1 n2 n3 n4 (fi * ci) (fj * cj) (fk * ck) (fl * cl) ->
    exists out' hv Y, int2e_drv_opt V ev rys srys t ng stored i j k l CartK dims idx g m out = Some (out', hv) /\
      stored_block out out' nc n1 n2 n3 n4 (fi * ci) (fj * cj) (fk * ck) (fl * cl)
        (fun n I J K L => Y n (I / fi) (J / fj) (K / fk) (L / fl) (I mod fi) (J mod fj) (K mod fk) (L mod fl))%Z /\
      Y_ok Y /\ hv_ok hv.
  Proof.
    intros Ek H1 H2 H3 H4 H5 H6. destruct (drv_loop dims out) as (m' & ED & R1 & R2). rewrite Ek in ED.
    destruct nc_pos as [Hnc1 Hnc]. set (hv := negb (flg m' 5%nat)) in *.
    destruct (out4_cart 0 Rplus Rmult sph_coef ng (v_l V i) (v_l V j) (v_l V k) (v_l V l) ci cj ck cl e hv dims out (buf m' 5%nat) (xv com) n1 n2 n3 n4 env_is Hli Hlj Hlk Hll
      (le01 _ (proj2 Hni)) (le01 _ (proj2 Hnj)) (le01 _ (proj2 Hnk)) (le01 _ (proj2 Hnl)) H1 H2 H3 H4 H5) as (out' & T1 & T2).
    - rewrite Hnc. exact H6.
    - rewrite Hnc. exact R1.
    - exists out', hv, Yc. split; [rewrite ED, T1; reflexivity|]. split; [|split; [exact Yc_ok|exact (hv_is hv R2)]].
      rewrite Hnc in T2. eapply stored_ext; [exact T2|]. intros n I J K L Hn HI HJ HK HL. cbv beta.
      destruct nf_pos as (_ & Hfi & Hfj & Hfk & Hfl).
      destruct (dm I fi ci (Z.lt_le_trans 0 1 _ Z.lt_0_1 Hfi) HI) as [D1 D2]. destruct (dm J fj cj (Z.lt_le_trans 0 1 _ Z.lt_0_1 Hfj) HJ) as [D3 D4].
      destruct (dm K fk ck (Z.lt_le_trans 0 1 _ Z.lt_0_1 Hfk) HK) as [D5 D6]. destruct (dm L fl cl (Z.lt_le_trans 0 1 _ Z.lt_0_1 Hfl) HL) as [D7 D8].
      destruct hv.
      + unfold cart4. apply val_at; assumption.
      + symmetry. apply Yv_none. intros X. apply R2 in X. discriminate.
  Qed.

  Lemma drv_sph dims out n1 n2 n3 n4 : kd = SphK -> let si := (v_l V i * 2 + 1)%Z in let sj := (v_l V j * 2 + 1)%Z in let sk := (v_l V k * 2 + 1)%Z in let sl := (v_l V l * 2 + 1)%Z in
    (si * ci <= n1)%Z -> (sj * cj <= n2)%Z -> (sk * ck <= n3)%Z -> (sl * cl <= n4)%Z ->
    dims_are dims 4 [n1; n2; n3; n4] [(si * ci)%Z; (sj * cj)%Z; (sk * ck)%Z; (sl * cl)%Z] ->
    room (asize out) nc n1 n2 n3 n4 (si * ci) (sj * cj) (sk * ck) (sl * cl) ->
    exists out' hv Y, int2e_drv_opt V ev rys srys t ng stored i j k l SphK dims idx g m out = Some (out', hv) /\
      stored_block out out' nc n1 n2 n3 n4 (si * ci) (sj * cj) (sk * ck) (sl * cl) (fun n I J K L =>
        apply_T 0%R Rplus Rmult sph_coef c2s_off CINTlen_cart (v_l V i) (I mod si) (fun a =>
        apply_T 0%R Rplus Rmult sph_coef c2s_off CINTlen_cart (v_l V k) (K mod sk) (fun c =>
        apply_T 0%R Rplus Rmult sph_coef c2s_off CINTlen_cart (v_l V l) (L mod sl) (fun d =>
        apply_T 0%R Rplus Rmult sph_coef c2s_off CINTlen_cart (v_l V j) (J mod sj) (fun b => Y n (I / si) (J / sj) (K / sk) (L / sl) a b c d)))))%Z /\
      Y_ok Y /\ hv_ok hv.
  Proof.
    intros Ek si sj sk sl H1 H2 H3 H4 H5 H6. destruct (drv_loop dims out) as (m' & ED & R1 & R2). rewrite Ek in ED.
    destruct nc_pos as [Hnc1 Hnc]. set (hv := negb (flg m' 5%nat)) in *.
    destruct (out4_sph ng (v_l V i) (v_l V j) (v_l V k) (v_l V l) ci cj ck cl e hv dims out (buf m' 5%nat) (xv com) n1 n2 n3 n4 env_is Hli Hlj Hlk Hll
      (le01 _ (proj2 Hni)) (le01 _ (proj2 Hnj)) (le01 _ (proj2 Hnk)) (le01 _ (proj2 Hnl)) H1 H2 H3 H4 H5) as (out' & T1 & T2).
    - rewrite Hnc. exact H6.
    - rewrite Hnc. exact R1.
    - exists out', hv, Yc. split; [rewrite ED, T1; reflexivity|]. split; [|split; [exact Yc_ok|exact (hv_is hv R2)]].
      rewrite Hnc in T2. eapply stored_ext; [exact T2|]. intros n I J K L Hn HI HJ HK HL. cbv beta. fold si sj sk sl.
      destruct (dm I si ci (odd_pos _ Hli) HI) as [D1 D2]. destruct (dm J sj cj (odd_pos _ Hlj) HJ) as [D3 D4].
      destruct (dm K sk ck (odd_pos _ Hlk) HK) as [D5 D6]. destruct (dm L sl cl (odd_pos _ Hll) HL) as [D7 D8].
      destruct hv.
      + unfold sph_ijkl, apply_T. apply lsum_ext. intros a Ha. f_equal. apply lsum_ext. intros c Hc. f_equal. apply lsum_ext. intros d Hd. f_equal. apply lsum_ext. intros b Hb. f_equal.
        apply val_at; assumption.
      + symmetry. unfold apply_T. apply lsum_0R. intros a Ha. rewrite lsum_0R; [ring|]. intros c Hc. rewrite lsum_0R; [ring|]. intros d Hd. rewrite lsum_0R; [ring|]. intros b Hb.
        unfold Yc. rewrite Yv_none; [ring|]. intros X. apply R2 in X. discriminate.
  Qed.

  (** ** The spinor driver *)
  Import WholeSpinSpec WholeSpinAlg WholeSpinModel.
  Notation nspinor := SpinorSpec.nspinor.
  Notation ncart := SpinorSpec.ncart.
  Notation part := SpinorSpec.part.
  Notation fQ := (Q2R (Qmake (fst f) (snd f))).
  Definition Ms (u1 u2 : c2s) (n : Z) (c1 c2 : spin) (ic jc kc lc a b c d : Z) : Complex.C :=
    (ipow ((if c_im u2 then 1 else 0) + spin_i c2) * (ipow ((if c_im u1 then 1 else 0) + spin_i c1) *
     RtoC (Yc ((n * POS_E2 ng + comp_no (c_si u2) c2) * POS_E1 ng + comp_no (c_si u1) c1) ic jc kc lc a b c d)))%C.
  Definition M_ok (u1 u2 : c2s) (M : Z -> spin -> spin -> Z -> Z -> Z -> Z -> Z -> Z -> Z -> Z -> Complex.C) : Prop :=
    forall (a b c d n : nat) ic jc kc lc ti tj tk tl qs c1 c2, nth_error (cart_list (v_l V i)) a = Some ti -> nth_error (cart_list (v_l V j)) b = Some tj ->
      nth_error (cart_list (v_l V k)) c = Some tk -> nth_error (cart_list (v_l V l)) d = Some tl ->
      nth_error (spec_pairs (t_d t)) n = Some qs -> In c1 (IntgSpec.stored (c_si u1)) -> In c2 (IntgSpec.stored (c_si u2)) ->
      exists S, summed4 V ev kept4 i j k l ic jc kc lc (fun ip jp kp lp => eri4 V ev i j k l ip jp kp lp ti tj tk tl (spec_of (t_d t) qs c1 c2)) S /\
        M (Z.of_nat n) c1 c2 ic jc kc lc (Z.of_nat a) (Z.of_nat b) (Z.of_nat c) (Z.of_nat d) = (RtoC facs * S)%C.
  Lemma Ys_ok : fv = fQ -> forall (n m p o kk : nat) ic jc kc lc ti tj tk tl s1 s2 w, nth_error (cart_list (v_l V i)) n = Some ti -> nth_error (cart_list (v_l V j)) m = Some tj ->
      nth_error (cart_list (v_l V k)) p = Some tk -> nth_error (cart_list (v_l V l)) o = Some tl ->
      nth_error (comps t) kk = Some (s1, s2, w) ->
      exists S, summed4 V ev kept4 i j k l ic jc kc lc (fun ip jp kp lp => eri4 V ev i j k l ip jp kp lp ti tj tk tl w) S /\
        (cval (phase (t_e t) s1 s2) * RtoC (Yc (Z.of_nat kk) ic jc kc lc (Z.of_nat n) (Z.of_nat m) (Z.of_nat p) (Z.of_nat o)) = RtoC facs * S)%C.
  Proof.
    intros Ev n m0 p o kk ic jc kc lc ti tj tk tl s1 s2 w F1 F2 F3 F4 F5.
    destruct (Yv_is 1 facs ic jc kc lc n m0 p o kk ti tj tk tl s1 s2 w) as (S & A1 & A2); [repeat split; assumption|].
    exists S. split; [exact A1|]. rewrite Rmult_1_l in A2. rewrite <- A2. rewrite cval_mul, cval_qfac.
    assert (EY : Yc (Z.of_nat kk) ic jc kc lc (Z.of_nat n) (Z.of_nat m0) (Z.of_nat p) (Z.of_nat o) = fQ * Yv (eri_const * facs * 1) ic jc kc lc (pos4 t (l4 V i j k l) n m0 p o kk)).
    { unfold Yc, Yv. rewrite Ev. unfold pos4. cbn [l4]. rewrite !len_cart_list by lia. ring. }
    rewrite EY, RtoC_mult. ring.
  Qed.
  Lemma Ms_ok u1 u2 : fv = fQ -> en_c2s1 (t_e t) = Some u1 -> en_c2s2 (t_e t) = Some u2 -> M_ok u1 u2 (Ms u1 u2).
  Proof.
    intros Ev E1 E2 a b c d n ic jc kc lc ti tj tk tl qs c1 c2 F1 F2 F3 F4 F5 F6 F7.
    destruct (comp_at2 t ng n qs c1 c2 Ht En Hfam F5) as (kk & K1 & K2); [rewrite E1; exact F6|rewrite E2; exact F7|].
    destruct (Ys_ok Ev a b c d kk ic jc kc lc ti tj tk tl c1 c2 _ F1 F2 F3 F4 K2) as (S & A1 & A2). exists S. split; [exact A1|].
    rewrite phase_two, K1, E1, E2 in A2. rewrite <- Cmult_assoc in A2. exact A2.
  Qed.
  Lemma drv_spin (tR tI : Z -> R) kpi kpj kpk kpl u1 u2 dims out n1 n2 n3 n4 :
    let di := nspinor kpi (v_l V i) in let dj := nspinor kpj (v_l V j) in let dk := nspinor kpk (v_l V k) in let dl := nspinor kpl (v_l V l) in
    fv = fQ -> en_spinor (t_e t) = Some f -> en_c2s1 (t_e t) = Some u1 -> en_c2s2 (t_e t) = Some u2 ->
    (v_l V i <= 12)%Z -> (v_l V j <= 12)%Z -> (v_l V k <= 12)%Z -> (v_l V l <= 12)%Z ->
    (di * ci <= n1)%Z -> (dj * cj <= n2)%Z -> (dk * ck <= n3)%Z -> (dl * cl <= n4)%Z ->
    dims_are dims 4 [n1; n2; n3; n4] [(di * ci)%Z; (dj * cj)%Z; (dk * ck)%Z; (dl * cl)%Z] ->
    room (asize out) (TENSOR ng) (n1 * 2) n2 n3 n4 (di * ci * 2) (dj * cj) (dk * ck) (dl * cl) ->
    exists out' hv M, int2e_spinor_drv_opt V ev rys srys t ng stored i j k l tR tI kpi kpj kpk kpl dims idx g m out = Some (out', hv) /\
      stored_block out out' (TENSOR ng) (n1 * 2) n2 n3 n4 (di * ci * 2) (dj * cj) (dk * ck) (dl * cl) (fun n p J K L => part (p mod 2)
        (two_comp tR tI kpk (v_l V k) kpl (v_l V l) (K mod dk) (L mod dl) (fun c d s s' => spin_sum (c_si u2) s s' (fun c2 =>
         two_comp tR tI kpi (v_l V i) kpj (v_l V j) ((p / 2) mod di) (J mod dj) (fun a b r r' => spin_sum (c_si u1) r r' (fun c1 =>
          M n c1 c2 ((p / 2) / di) (J / dj) (K / dk) (L / dl) a b c d))))))%Z /\
      M_ok u1 u2 M /\ hv_ok hv.
  Proof.
    intros di dj dk dl Ev Es Eu1 Eu2 L1 L2 L3 L4 H1 H2 H3 H4 H5 H6.
    destruct (shell_at V ev (fun _ _ => 0%Z) ng i j Hli Hlj i Hni) as (si & E1 & _). destruct (shell_at V ev (fun _ _ => 0%Z) ng i j Hli Hlj j Hnj) as (sj & E2 & _).
    destruct (shell_at V ev (fun _ _ => 0%Z) ng i j Hli Hlj k Hnk) as (sk & E3 & _). destruct (shell_at V ev (fun _ _ => 0%Z) ng i j Hli Hlj l Hnl) as (sl & E4 & _).
    destruct (loop_value com si sj sk sl E1 E2 E3 E4) as (m' & ret & EL & R1 & R2).
    destruct nc_pos as [Hnc1 Hnc]. destruct (tab_two t ng Ht En Hfam) as (T1 & T2 & T3). set (hv := negb (flg m' 5%nat)) in *.
    assert (HE1 : ((if c_si u1 then 4 else 1) = POS_E1 ng)%Z) by (rewrite T1, Eu1; cbn [sis]; rewrite stored_len; reflexivity).
    assert (HE2 : ((if c_si u2 then 4 else 1) = POS_E2 ng)%Z) by (rewrite T3, Eu2; cbn [sis]; rewrite stored_len; reflexivity).
    assert (HE : exists w, e = init_int2e w ng (v_l V i) (v_l V j) (v_l V k) (v_l V l) ci cj ck cl).
    { exists (Rltb (ev 8%Z) 0). unfold env_o4, env_2e. rewrite Hfam. reflexivity. }
    destruct (PropsSpinor.C26_2e_driver 0 1 Rplus Rmult Rminus Ropp tR tI Risz ng (v_l V i) (v_l V j) (v_l V k) (v_l V l) kpi kpj kpk kpl ci cj ck cl e hv dims out
      (buf m' 5%nat) (xv com) n1 n2 n3 n4 (c_si u1) (c_im u1) (c_si u2) (c_im u2) RTheory Risz_zero HE (conj (proj1 Hli) L1) (conj (proj1 Hlj) L2) (conj (proj1 Hlk) L3) (conj (proj1 Hll) L4)
      (le01 _ (proj2 Hni)) (le01 _ (proj2 Hnj)) (le01 _ (proj2 Hnk)) (le01 _ (proj2 Hnl)) (Z.eq_le_incl _ _ HE1) (Z.eq_le_incl _ _ HE2)) as (out' & P1 & P2); try assumption.
    - rewrite T2. apply Zle_0_nat.
    - intros Hv p Hp. apply R1; [exact Hv|]. rewrite <- Hnc. revert Hp. apply (rng_eq p). unfold ncompB. ring.
    - exists out', hv, (Ms u1 u2). split; [|split; [|split; [exact (Ms_ok u1 u2 Ev Eu1 Eu2)|exact (hv_is hv R2)]]].
      + unfold int2e_spinor_drv_opt, spinor_factor. rewrite Es, Eu1, Eu2. cbn [bind]. rewrite Eidx. cbn [bind]. rewrite E1. cbn [bind]. rewrite E2. cbn [bind]. rewrite E3. cbn [bind]. rewrite E4. cbn [bind].
        assert (EN : (ncomp_e1 e * ncomp_e2 e * ncomp_tensor e = nc)%Z). { rewrite <- Hnc. unfold env_o4, env_2e. rewrite Hfam. reflexivity. }
        rewrite EN. rewrite <- Ev.
        replace (eri_const * CINTcommon_fac_sp (v_l V i) * CINTcommon_fac_sp (v_l V j) * CINTcommon_fac_sp (v_l V k) * CINTcommon_fac_sp (v_l V l) * fv) with com by ring.
        rewrite EL. cbn [bind]. fold hv. rewrite P1. reflexivity.
      + eapply stored_ext; [exact P2|]. intros n p J K L Hn Hp HJ HK HL. cbv beta. fold di dj dk dl.
        destruct (spin_index p di ci Hp (proj2 Hni)) as [D1 D2]. destruct (spin_index' J dj cj HJ (proj2 Hnj)) as [D3 D4].
        destruct (spin_index' K dk ck HK (proj2 Hnk)) as [D5 D6]. destruct (spin_index' L dl cl HL (proj2 Hnl)) as [D7 D8].
        assert (N1 : ncart (v_l V i) = fi) by (symmetry; apply SpinorDrv.cl_nc; exact Hli). assert (N2 : ncart (v_l V j) = fj) by (symmetry; apply SpinorDrv.cl_nc; exact Hlj).
        assert (N3 : ncart (v_l V k) = fk) by (symmetry; apply SpinorDrv.cl_nc; exact Hlk). assert (N4 : ncart (v_l V l) = fl) by (symmetry; apply SpinorDrv.cl_nc; exact Hll).
        destruct hv.
        * f_equal. rewrite (spin2_value tR tI (c_si u1) (c_im u1) (c_si u2) (c_im u2) kpi (v_l V i) kpj (v_l V j) kpk (v_l V k) kpl (v_l V l) (xv com) ci cj ck cl (POS_E1 ng) (POS_E2 ng) n (p / 2) J K L
            (fun c1 c2 a b c d => Ms u1 u2 n c1 c2 (p / 2 / di) (J / dj) (K / dk) (L / dl) a b c d)); [reflexivity|].
          intros a b c d c1 c2 Ha Hb Hc Hd _ _. unfold Ms. do 3 f_equal. rewrite N1, N2, N3, N4 in *. apply val_at; assumption.
        * symmetry. rewrite two_zero; [apply batch_R0|]. intros c d s s' _ _. apply spin_zero. intros c2 _. apply two_zero. intros a b r r' _ _. apply spin_zero. intros c1 _.
          unfold Ms, Yc. rewrite Yv_none; [ring|]. intros X. apply R2 in X. discriminate.
  Qed.
End Whole.

