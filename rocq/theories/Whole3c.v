(** Whole3c.v — the drivers of the three-centre integrals, from the tables to the caller's array. *)
From Coq Require Import Reals Lra QArith Qreals String.
From Coquelicot Require Import Coquelicot.
From Verif Require Import Base BasModel BasSpec EnvModel IdxModel IdxSpec CtrModel Loop2eModel Loop2eSpec LoopSpec Loop2eFinal Loop3Model Loop3Spec Loop3Final
  OptModel OptSpec OptProof OptPair ScreenModel ScreenSpec ScreenProof ScreenFinal ScreenMore OutModel OutSpec OutSetup TabModel
  OpSpec RecModel RecRModel RecSpec GaussInt Gauss2Int Rec1Real Rec2RModel Rec2Real Rec2Spec
  IntgModel IntgSpec IntgTab IntgStmt IntgCheck IntgStep IntgSem IntgFinal IntgAll IntgEx IntgOvlp IntgReal QuadSpec OperSpec OperModel OperKeep OperNuc Oper2e GiaoProof
  WholeModel WholeSim WholeBatch WholeSpec Whole1e Whole2Model Whole2Sim Whole2Zero Whole2Batch Whole2Spec Whole4c.
From Verif Require SpinorSpec SpinorModel SpinorDrv PropsSpinor WholeSpinSpec WholeSpinAlg WholeSpinModel.
Local Open Scope R_scope.

Lemma decode3 nf ci cj ck n ic jc kc b : (0 <= b < nf -> 0 <= ic < ci -> 0 <= jc < cj -> 0 <= kc < ck ->
   let rows := nf * (ci * cj * ck) in let p := (((n * ck + kc) * cj + jc) * ci + ic) * nf + b in let r := p mod rows in
   p / rows = n /\ (r / nf) mod ci = ic /\ (r / (nf * ci)) mod cj = jc /\ r / (nf * ci * cj) = kc /\ r mod nf = b)%Z.
Proof.
  intros Hb H1 H2 H3. pose proof (decode4 nf ci cj 1 ck n ic jc 0 kc b Hb H1 H2 ltac:(lia) H3) as D. cbv zeta in D |- *. rewrite !Z.mul_1_r, !Z.add_0_r in D.
  destruct D as (D1 & D2 & D3 & _ & D5 & D6). auto.
Qed.
Lemma scratch3b L ci cj ck nc (b : nat -> Z) : (1 <= L -> 1 <= ci -> 1 <= cj -> 1 <= ck ->
  (ci <> 1 -> L <= b 0%nat) -> (cj <> 1 -> L * ci <= b 1%nat) -> (ck <> 1 -> L * ci * cj <= b 2%nat) ->
  (nc <> 1 -> L * ci * cj * ck <= b 3%nat) -> L * ci * cj * ck <= b 5%nat ->
  b (alias ci (alias cj (alias ck (alias nc 5 3) 2) 1) 0)%nat >= L)%Z.
Proof.
  intros H0 H1 H2 H3. pose proof (mul_up L ci H0 H1) as U1. pose proof (pos_mul L ci H0 H1) as P1. pose proof (mul_up _ cj P1 H2) as U2. pose proof (pos_mul _ cj P1 H2) as P2.
  pose proof (mul_up _ ck P2 H3) as U3. intros B0 B1 B2 B3 B5. unfold alias.
  remember (L * ci)%Z as x1. remember (x1 * cj)%Z as x2. remember (x2 * ck)%Z as x3.
  destruct (Z.eqb_spec ci 1) as [?|N]; [|specialize (B0 N); lia]. destruct (Z.eqb_spec cj 1) as [?|N]; [|specialize (B1 N); lia].
  destruct (Z.eqb_spec ck 1) as [?|N]; [|specialize (B2 N); lia]. destruct (Z.eqb_spec nc 1) as [?|N]; [|specialize (B3 N); lia]. lia.
Qed.
Lemma of_absent a A B : overlap_factor a 0 A B = 1.
Proof. unfold overlap_factor. replace (a * 0 / (a + 0) * dist2 A B) with 0 by (unfold Rdiv; ring). rewrite Ropp_0. apply exp_0. Qed.
Lemma no_power_at n t0 : nth_error (cart_list 0) n = Some t0 -> n = 0%nat /\ t0 = no_power.
Proof. rewrite cart0. destruct n as [|n]; cbn; [intros X; injection X as <-; auto|destruct n; discriminate]. Qed.

Section Whole.
  Variables (nbas : Z) (V : view) (ev : Z -> R) (lm : Z -> Z -> R) (rys : Z -> R -> nodes) (srys : Z -> R -> R -> nodes) (t : ent) (ng : ngT) (i j k : Z) (f : Z * positive).
  Notation e := (env_3c V ev t ng i j k).
  Notation nc := (Z.of_nat (length (g_rows (t_f t)))).
  Notation len := (nf e * nc)%Z.
  Notation fam := (en_fam (IntgTab.t_e t)).
  Notation te := (IntgTab.t_e t).
  Notation fi := (CINTlen_cart (v_l V i)).
  Notation fj := (CINTlen_cart (v_l V j)).
  Notation fk := (CINTlen_cart (v_l V k)).
  Hypothesis HG : good_shells nbas V ev lm.
  Hypothesis Hi : (0 <= i < nbas)%Z.
  Hypothesis Hj : (0 <= j < nbas)%Z.
  Hypothesis Hk : (0 <= k < nbas)%Z.
  Hypothesis Hni : (0 <= v_np V i)%Z /\ (1 <= v_nc V i)%Z.
  Hypothesis Hnj : (0 <= v_np V j)%Z /\ (1 <= v_nc V j)%Z.
  Hypothesis Hnk : (0 <= v_np V k)%Z /\ (1 <= v_nc V k)%Z.
  Hypothesis Ht : In t catalogue.
  Hypothesis Hfam : fam = F3c2e.
  Hypothesis Hex : ~ In (en_name te) except_names.
  Hypothesis En : ent_ng t = Some ng.
  Hypothesis Ef : factor te = Some f.
  Hypothesis Hli : (0 <= v_l V i <= 15)%Z.
  Hypothesis Hlj : (0 <= v_l V j <= 15)%Z.
  Hypothesis Hlk : (0 <= v_l V k <= 15)%Z.
  Hypothesis Hnr : (nrys_roots e <= 32)%Z.
  Hypothesis HR : finds_roots_2e rys srys (nrys_roots e) (rys_order e) (ev 8%Z).
  Variables (idx idx' : arr Z) (gsz : Z).
  Hypothesis Hidx : (3 * nf e <= asize idx)%Z.
  Hypothesis Eidx : index_fun fam e idx = Some idx'.
  Hypothesis Hgsz : ((2 ^ GSHIFT ng + 1) * (3 * g_size e) <= gsz)%Z.
  Hypothesis Hgsz4 : (4 * g_size e <= gsz)%Z.
  Notation a ip jp kp := (a3 V ev i j k ip jp kp).
  Notation A := (A3 V ev i j k).
  Notation Eij ip jp := (overlap_factor (ex V ev i ip) (ex V ev j jp) (ctr V ev i) (ctr V ev j)).
  Notation run := (run_3c V ev rys srys t ng i j k idx').
  Definition Bt (ip jp kp : Z) : Z -> R := qbatch len gsz (run ip jp kp) (eri_const * (Eij ip jp * overlap_factor (ex V ev k kp) 0 (ctr V ev k) (ctr V ev k))).
  Notation q0 := (q_3c V ev t ng i j k).
  Notation pd := (pd_3c V ev ng i j).
  Notation Go ip jp kp := (goes ev (a ip jp kp) (pt (pd_centre (pd ip jp))) (ctr V ev k) (cut_3c V ev t ng i j k - cceij (pd ip jp))).
  Notation q := (mkt (t_empty q0) (t_skip q0) (fun ip jp kp => Go ip jp kp) (Loop3Model.t_e q0) Bt).
  Notation U := (user_cutoff (ev 0%Z)).
  Notation est ip jp := (pair_est V ev lm i j (v_l V i + IINC ng + (v_l V j + JINC ng)) ip jp).
  Notation P ip jp := (product_centre (ex V ev i ip) (ex V ev j jp) (ctr V ev i) (ctr V ev j)).
  Notation Cut := (raised V ev i j (v_l V i + IINC ng + (v_l V j + JINC ng)) (rys_order e) U).
  Definition kept3 (ip jp kp : Z) : Prop :=
    est ip jp < U /\ near_enough (ev 8%Z) (ex V ev i ip + ex V ev j jp) (ex V ev k kp) (P ip jp) (ctr V ev k) (Cut - est ip jp).
  Definition in3 (ip jp kp : Z) : Prop := (0 <= ip < v_np V i)%Z /\ (0 <= jp < v_np V j)%Z /\ (0 <= kp < v_np V k)%Z.

  Lemma Hul : forall c, used fam c = false -> l3 V i j k c = 0%Z.
  Proof. rewrite Hfam. intros c. destruct c; try discriminate. reflexivity. Qed.
  Lemma Hlc : forall c, (0 <= l3 V i j k c <= 15)%Z.
  Proof. intros c. destruct c; try assumption. cbn. lia. Qed.
  Lemma HPc : partners fam A.
  Proof. rewrite Hfam. split; [discriminate|reflexivity]. Qed.
  Lemma Hf2 : two_fam fam.
  Proof. right. left. exact Hfam. Qed.
  Lemma exs ip jp kp : in3 ip jp kp -> 0 < ex V ev i ip /\ 0 < ex V ev j jp /\ 0 < ex V ev k kp.
  Proof.
    intros (H1 & H2 & H3). destruct (HG i ip Hi H1) as [B1 _]. destruct (HG j jp Hj H2) as [B2 _]. destruct (HG k kp Hk H3) as [B3 _]. auto.
  Qed.
  Lemma cut_is : cut_3c V ev t ng i j k = Cut.
  Proof.
    unfold cut_3c, expcut_3c2e, raised. cbn [flt f0 fadd Rops]. rewrite init_user by discriminate. unfold Rltb.
    destruct (Rlt_dec (ev 8%Z) 0); [|reflexivity]. cbn [andb]. destruct (1 <? rys_order e)%Z; [|reflexivity]. change (0 <? 0)%Z with false. cbn [andb].
    destruct (0 <? _)%Z; [|reflexivity]. unfold sr_extra. rewrite rr_R. cbn [fadd fmul fdiv fsqrt flog fofZ f1 Rops]. reflexivity.
  Qed.
  Lemma cut_ge ip jp : (0 <= ip < v_np V i)%Z -> (0 <= jp < v_np V j)%Z -> U <= Cut.
  Proof.
    intros P1 P2. rewrite <- cut_is. eapply expcut3_ge.
    - exact (last_pos nbas V ev lm HG (fun _ _ _ _ _ => 0) i ip Hi P1).
    - exact (last_pos nbas V ev lm HG (fun _ _ _ _ _ => 0) j jp Hj P2).
  Qed.
  Lemma ee_ij ip jp kp : in3 ip jp kp ->
    (est ip jp < U -> Loop3Model.t_e q0 ip jp = Eij ip jp /\ (kept_3c2e q ip jp kp = true <-> kept3 ip jp kp) /\ (Go ip jp kp = true <-> kept3 ip jp kp) /\ forall ax, (0 <= ax < 3)%Z ->
       pt (pd_centre (pd ip jp)) ax = P ip jp ax) /\
    (U <= est ip jp -> Loop3Model.t_e q0 ip jp = 0) /\ (kept_3c2e q ip jp kp = true -> est ip jp <= Cut).
  Proof.
    intros H. destruct (exs _ _ _ H) as (H1 & H2 & H3). destruct H as (P1 & P2 & P3).
    change (Loop3Model.t_e q0 ip jp) with (eij (pd ip jp)).
    pose proof (entry_R nbas V ev lm HG i j (v_l V i + IINC ng) (v_l V j + JINC ng) (init_expcutoff Rops ev C3c2e) Hi Hj ip jp P1 P2) as (X1 & X2 & X3).
    pose proof (entry_cce nbas V ev lm HG i j (v_l V i + IINC ng) (v_l V j + JINC ng) (init_expcutoff Rops ev C3c2e) Hi Hj ip jp P1 P2) as X4.
    fold (pd ip jp) in X1, X2, X3, X4.
    assert (Es : t_skip q0 ip jp = Rltb Cut (est ip jp)).
    { rewrite <- cut_is, <- X4. reflexivity. }
    assert (Ee : est ip jp < U -> t_empty q0 = false).
    { intros L. unfold q_3c, int3c2e_nopt, t_nopt, t_of. cbn [t_empty]. apply (nonempty_R nbas V ev lm HG i j _ _ _ Hi Hj ip jp P1 P2). rewrite init_user by discriminate. exact L. }
    rewrite init_user in X2, X3 by discriminate. split; [|split; [exact X3|]].
    - intros L. destruct (X2 L) as (Y1 & Y2 & Y3 & Y4). split; [rewrite Y4; apply of_E|].
      assert (EP : forall ax, (0 <= ax < 3)%Z -> pt (pd_centre (pd ip jp)) ax = P ip jp ax).
      { intros ax Hax. assert (Hax3 : ax = 0%Z \/ ax = 1%Z \/ ax = 2%Z) by lia. unfold pd_centre, pt, product_centre. destruct Hax3 as [-> | [-> | ->]]; cbn [Z.eqb Pos.eqb]; [rewrite Y1|rewrite Y2|rewrite Y3]; field; lra. }
      assert (EG : Go ip jp kp = true <-> kept3 ip jp kp).
      { rewrite goes_near. cbn [a3]. rewrite Rplus_0_r, cut_is, X4. rewrite (near_ext _ _ _ _ (P ip jp) _ _ EP). unfold kept3. tauto. }
      split; [|split; [exact EG|exact EP]]. rewrite <- EG.
      unfold kept_3c2e. cbn [t_empty t_skip t_g0]. rewrite (Ee L), Es. replace (Rltb Cut (est ip jp)) with false; [reflexivity|]. symmetry. apply ltb_le.
      pose proof (cut_ge ip jp P1 P2). lra.
    - unfold kept_3c2e. cbn [t_empty t_skip t_g0]. rewrite Es. intros X. apply andb_true_iff in X. destruct X as [_ X]. apply andb_true_iff in X. destruct X as [X _].
      apply negb_true_iff, ltb_le in X. exact X.
  Qed.

  Lemma batches ip jp kp : in3 ip jp kp -> est ip jp < U ->
    (forall fac, adds_at len gsz (Go ip jp kp) (Bt ip jp kp) fac (run ip jp kp)) /\
    (kept3 ip jp kp -> is_batch4 ev t (l3 V i j k) f (a ip jp kp) A (Bt ip jp kp)).
  Proof.
    intros H L. destruct (exs _ _ _ H) as (H1 & H2 & H3). destruct HR as (R1 & R2 & R3). destruct (ee_ij _ _ _ H) as [E1 _]. destruct (E1 L) as (_ & _ & EG & Erij).
    set (rij := pt (pd_centre (pd ip jp))) in *.
    pose proof (Rplus_lt_0_compat _ _ H1 H2) as Hp. assert (Hq : 0 < ex V ev k kp + 0) by (rewrite Rplus_0_r; exact H3).
    assert (Ha0 : 0 < (ex V ev i ip + ex V ev j jp) * (ex V ev k kp + 0) / (ex V ev i ip + ex V ev j jp + (ex V ev k kp + 0))).
    { apply Rdiv_lt_0_compat; [apply Rmult_lt_0_compat; assumption|lra]. }
    destruct (eri_adds ev rys srys t ng (l3 V i j k) (c3 V i j k) f Ht Hf2 Hex En Ef Hlc Hul Hnr R1 R2 idx idx' gsz Hidx Eidx Hgsz Hgsz4
      (a ip jp kp) A rij (ctr V ev k) (cut_3c V ev t ng i j k - cceij (pd ip jp)) HPc Hp Hq Erij) as (B1 & B2).
    - intros ax Hax. cbn [a3 A3]. field. lra.
    - apply R3; [exact Ha0|]. apply Rmult_le_pos; [apply Rlt_le; exact Ha0|apply dist2_nonneg].
    - split; [exact B1|]. intros K. apply EG in K. exact (B2 K).
  Qed.
  Lemma adds ip jp kp c : in3 ip jp kp -> adds_at len gsz (Go ip jp kp) (Bt ip jp kp) (c * Loop3Model.t_e q0 ip jp) (run ip jp kp).
  Proof.
    intros H. destruct (Rlt_dec (est ip jp) U) as [L|L]; [apply batches; assumption|].
    destruct (ee_ij _ _ _ H) as (_ & E2 & _). rewrite (E2 (Rnot_lt_le _ _ L)), Rmult_0_r.
    destruct (exs _ _ _ H) as (H1 & H2 & H3). destruct HR as (R1 & R2 & R3).
    pose proof (Rplus_lt_0_compat _ _ H1 H2) as Hp. assert (Hq : 0 < ex V ev k kp + 0) by (rewrite Rplus_0_r; exact H3).
    exact (eri_adds0 ev rys srys t ng (l3 V i j k) (c3 V i j k) Ht Hf2 Hex En Hlc Hul Hnr R1 R2 idx idx' gsz Hidx Eidx Hgsz Hgsz4
      (a ip jp kp) A _ _ _ HPc Hp Hq (Bt ip jp kp)).
  Qed.

  Notation cfi := (fun ic ip => cf V ev i ip ic).
  Notation cfj := (fun jc jp => cf V ev j jp jc).
  Notation cfk := (fun kc kp => cf V ev k kp kc).
  Definition Yv (common : R) (ic jc kc x : Z) : R :=
    common * contract3 0 Rplus Rmult (v_np V i) (v_np V j) (v_np V k) (kept_3c2e q) cfi cfj cfk (prim_3c2e Rmult q) ic jc kc x.

  Lemma Yv_is fv facs ic jc kc (n m p kk : nat) ti tj tk s1 s2 w : at4 t (l3 V i j k) n m p 0 kk ti tj tk no_power s1 s2 w ->
    exists S, summed3 V ev kept3 i j k ic jc kc (fun ip jp kp => eri3 V ev i j k ip jp kp ti tj tk w) S /\
      (cval (cqmul (qfac f) (phase te s1 s2)) * RtoC (Yv (eri_const * facs * fv) ic jc kc (pos4 t (l3 V i j k) n m p 0 kk)) = RtoC (fv * facs) * S)%C.
  Proof.
    intros F. set (x := pos4 t (l3 V i j k) n m p 0 kk).
    set (ph := cval (cqmul (qfac f) (phase te s1 s2))).
    set (D := fun ip jp kp => (ph * RtoC (eri_const * (Eij ip jp * overlap_factor (ex V ev k kp) 0 (ctr V ev k) (ctr V ev k)) * Bt ip jp kp x))%C).
    set (K := fun ip jp kp => Rltb (est ip jp) U && Go ip jp kp).
    assert (HK : forall ip jp kp, in3 ip jp kp -> (K ip jp kp = true <-> kept3 ip jp kp)).
    { intros ip jp kp H. unfold K. rewrite andb_true_iff, Rltb_iff. destruct (ee_ij _ _ _ H) as [E1 _]. split.
      - intros [L G]. destruct (E1 L) as (_ & _ & EG & _). apply EG, G.
      - intros X. pose proof (proj1 X) as L. destruct (E1 L) as (_ & _ & EG & _). split; [exact L|apply EG, X]. }
    eexists. split.
    - exists D, K. split; [|reflexivity]. intros ip jp kp Hip Hjp Hkp. assert (H3 : in3 ip jp kp) by (repeat split; tauto). split; [apply HK; exact H3|]. intros Hk3.
      destruct (batches ip jp kp H3 (proj1 Hk3)) as [_ B].
      destruct (B Hk3 n m p 0%nat kk ti tj tk no_power s1 s2 w F) as (D' & D1 & D2). unfold D. unfold ph, x.
      match type of D2 with ?L = _ => match goal with |- eri3 _ _ _ _ _ _ _ _ _ _ _ _ ?R => replace R with L by reflexivity end end.
      rewrite D2. exact D1.
    - unfold Yv, contract3. rewrite !RtoC_mult. rewrite csumz_R.
      match goal with |- (?a * (?b * ?c * ?d * ?S))%C = _ => transitivity (d * c * (a * b * S))%C; [ring|] end.
      f_equal. rewrite csumz_mul. apply csumz_ext. intros kp Hkp.
      rewrite csumz_R, csumz_mul. apply csumz_ext. intros jp Hjp. rewrite csumz_R, csumz_mul. apply csumz_ext. intros ip Hip.
      assert (H3 : in3 ip jp kp) by (repeat split; tauto). destruct (ee_ij _ _ _ H3) as (E1 & E2 & _).
      destruct (Rlt_dec (est ip jp) U) as [L|L].
      + destruct (E1 L) as (X1 & X2 & _ & _). rewrite <- (HK _ _ _ H3) in X2. destruct (K ip jp kp) eqn:EK.
        * rewrite (proj2 X2 eq_refl). unfold prim_3c2e. cbn [Loop3Model.t_e t_base]. rewrite X1. unfold D. rewrite of_absent, !RtoC_mult. ring.
        * destruct (kept_3c2e q ip jp kp); [discriminate (proj1 X2 eq_refl)|]. ring.
      + replace (K ip jp kp) with false.
        * destruct (kept_3c2e q ip jp kp); [|ring]. unfold prim_3c2e. cbn [Loop3Model.t_e t_base]. rewrite (E2 (Rnot_lt_le _ _ L)).
          match goal with |- (_ * RtoC ?X)%C = _ => replace X with 0 by ring end. ring.
        * symmetry. apply Bool.not_true_iff_false. rewrite (HK _ _ _ H3). intros (X & _). contradiction.
  Qed.

  (** ** The loop *)
  Notation ci := (v_nc V i).
  Notation cj := (v_nc V j).
  Notation ck := (v_nc V k).
  Notation rows := (nf e * (ci * cj * ck))%Z.
  Lemma nf_is : nf e = (fi * fk * fj)%Z.
  Proof. unfold env_3c, env_2e. rewrite Hfam. reflexivity. Qed.
  Lemma nf_pos : (1 <= nf e)%Z /\ (1 <= fi)%Z /\ (1 <= fj)%Z /\ (1 <= fk)%Z.
  Proof.
    pose proof (len_cart_pos _ Hli). pose proof (len_cart_pos _ Hlj). pose proof (len_cart_pos _ Hlk).
    split; [|auto]. rewrite nf_is. repeat apply pos_mul; assumption.
  Qed.
  Lemma nc_pos : (1 <= nc)%Z /\ ncompA ng = nc.
  Proof. destruct (whole2 t Ht Hf2) as (_ & _ & W). destruct (W ng En) as (W1 & W2). rewrite Hfam in W1, W2. unfold ncomp_of in *. unfold ncompA. lia. Qed.

  Definition xv (common : R) (p : Z) : R :=
    let r := (p mod rows)%Z in
    Yv common ((r / nf e) mod ci) ((r / (nf e * ci)) mod cj) (r / (nf e * ci * cj)) (r mod nf e * nc + p / rows)%Z.
  Lemma xv_at common n ic jc kc b : (0 <= ic < ci)%Z -> (0 <= jc < cj)%Z -> (0 <= kc < ck)%Z -> (0 <= b < nf e)%Z ->
    xv common ((((n * ck + kc) * cj + jc) * ci + ic) * nf e + b) = Yv common ic jc kc (b * nc + n)%Z.
  Proof.
    intros H1 H2 H3 Hb. destruct (decode3 (nf e) ci cj ck n ic jc kc b Hb H1 H2 H3) as (E1 & E2 & E3 & E4 & E5).
    unfold xv. cbv zeta. rewrite E1, E2, E3, E4, E5. reflexivity.
  Qed.

  Variables (m : mem R) (g : arr R).
  Hypothesis Hm : forall s, filled (buf m s).
  Hypothesis Hg : filled g /\ asize g = gsz.
  Hypothesis Hw0 : (ci <> 1 -> nf e * nc <= asize (buf m 0))%Z.
  Hypothesis Hw1 : (cj <> 1 -> nf e * nc * ci <= asize (buf m 1))%Z.
  Hypothesis Hw2 : (ck <> 1 -> nf e * nc * ci * cj <= asize (buf m 2))%Z.
  Hypothesis Hw3 : (nc <> 1 -> nf e * nc * ci * cj * ck <= asize (buf m 3))%Z.
  Hypothesis Hw5 : (rows * nc <= asize (buf m 5))%Z.
  Definition any3 : Prop := some3 (v_np V i) (v_np V j) (v_np V k) (kept_3c2e q).

  Lemma loop_value common si sj sk :
    mk_shell Risz (v_np V i) (v_nc V i) (coef_arr V ev i) = Some si -> mk_shell Risz (v_np V j) (v_nc V j) (coef_arr V ev j) = Some sj ->
    mk_shell Risz (v_np V k) (v_nc V k) (coef_arr V ev k) = Some sk ->
    exists m' ret, CINT3c2e_loop_run nc (nf e) si sj sk common run (t_empty q0) (t_skip q0) (Loop3Model.t_e q0) (set_flg m 5%nat true) g = Some (m', ret) /\
      (negb (flg m' 5%nat) = true -> reads (buf m' 5%nat) (nc * (nf e * ci * cj * ck)) (xv common)) /\
      (negb (flg m' 5%nat) = true <-> any3).
  Proof.
    intros E1 E2 E3. destruct (shell_at V ev (fun _ _ => 0%Z) ng i j Hli Hlj i Hni) as (si' & E1' & N1 & C1 & S1).
    destruct (shell_at V ev (fun _ _ => 0%Z) ng i j Hli Hlj j Hnj) as (sj' & E2' & N2 & C2 & S2).
    destruct (shell_at V ev (fun _ _ => 0%Z) ng i j Hli Hlj k Hnk) as (sk' & E3' & N3 & C3 & S3).
    rewrite E1 in E1'. injection E1' as <-. rewrite E2 in E2'. injection E2' as <-. rewrite E3 in E3'. injection E3' as <-.
    destruct nf_pos as [Hn _]. destruct nc_pos as [Hnc _]. set (m0 := set_flg m 5%nat true).
    pose proof (proj2 Hni) as Q1. pose proof (proj2 Hnj) as Q2. pose proof (proj2 Hnk) as Q3.
    pose proof (pos_mul _ _ Hn Hnc) as Hl0. assert (Hlen : (0 <= nf e * nc)%Z) by (apply le01; exact Hl0).
    assert (HF : LoopSpec.fits m0 (scratch3 nc (nf e) si sj sk)).
    { intros s z. unfold scratch3, needs. rewrite C1, C2, C3. intros X. repeat (apply in_app_or in X; destruct X as [X|X]);
      match type of X with In _ (if negb (?a =? 1)%Z then _ else _) => destruct (Z.eqb_spec a 1) as [?|D0]; cbn in X; [contradiction|destruct X as [X|[]]; injection X as <- <-; auto] end. }
    assert (H5 : caller_holds m0 (rows3 (nf e) si sj sk) nc (fun _ _ => 0)).
    { split; [unfold rows3; rewrite C1, C2, C3; exact Hw5|]. cbn. discriminate. }
    pose proof (loop_3c2e 0 1 Rplus Rmult Rminus Ropp RTheory Risz Risz_zero nc (nf e) si sj sk _ _ _ S1 S2 S3 (le01 _ Hn) Hnc common q m0 (fun _ _ => 0) H5 HF) as HL.
    destruct HL as (m' & ret & EL & _ & _ & P1 & P2 & P3 & P4).
    unfold LoopSpec.batch3, rows3 in P4. rewrite C1, C2, C3, N1, N2, N3 in *.
    exists m', ret. split; [|split].
    - refine (loop3c_sim (fun s => asize (buf m s)) gsz nc (nf e) si sj sk common Hlen run (fun ip jp kp => Go ip jp kp) Bt (t_empty q0) (t_skip q0) (Loop3Model.t_e q0) m0 g m' ret _ _ _ Hg EL).
      + cbv zeta. rewrite C1, C2, C3.
        refine (scratch3b _ ci cj ck nc (fun s => asize (buf m s)) Hl0 Q1 Q2 Q3 Hw0 Hw1 Hw2 Hw3 _).
        replace (nf e * nc * ci * cj * ck)%Z with (rows * nc)%Z by ring. exact Hw5.
      + intros ip jp kp c Hip Hjp Hkp _ _. apply adds. rewrite N1 in Hip. rewrite N2 in Hjp. rewrite N3 in Hkp. repeat split; tauto.
      + intros s. split; [apply Hm|reflexivity].
    - intros Hv p Hp. apply negb_true_iff in Hv.
      assert (Hrw : (1 <= rows)%Z) by (apply pos_mul; [exact Hn|repeat apply pos_mul; assumption]).
      replace (nc * (nf e * ci * cj * ck))%Z with (nc * rows)%Z in Hp by ring.
      destruct (row_split p rows nc Hrw Hp) as (Ep & Hd & Mb). unfold xv. cbv zeta. rewrite Ep at 1.
      rewrite (P4 Hv (p mod rows)%Z (p / rows)%Z Mb Hd). reflexivity.
    - rewrite negb_true_iff, P1. cbn. unfold any3. split; [intros [X|X]; [discriminate X|exact X]|intros X; right; exact X].
  Qed.

  Lemma Yv_none common ic jc kc x : ~ any3 -> Yv common ic jc kc x = 0.
  Proof.
    intros H. unfold Yv, contract3. rewrite lsum_0R; [ring|]. intros kp Hkp. apply lsum_0R. intros jp Hjp. apply lsum_0R. intros ip Hip.
    destruct (kept_3c2e q ip jp kp) eqn:K; [|reflexivity]. exfalso. apply H. exists ip, jp, kp. repeat split; tauto.
  Qed.
  Lemma kept_some : (exists ip jp kp, in3 ip jp kp /\ kept3 ip jp kp) -> any3.
  Proof.
    intros (ip & jp & kp & H & K). exists ip, jp, kp. destruct (ee_ij _ _ _ H) as (E1 & _). destruct (E1 (proj1 K)) as (_ & X & _). apply X in K. destruct H as (P1 & P2 & P3). auto.
  Qed.
  Lemma some_kept : any3 -> exists ip jp kp, in3 ip jp kp /\ est ip jp <= Cut.
  Proof.
    intros (ip & jp & kp & P1 & P2 & P3 & K). exists ip, jp, kp. assert (H : in3 ip jp kp) by (repeat split; tauto). split; [exact H|].
    destruct (ee_ij _ _ _ H) as (_ & _ & E3). exact (E3 K).
  Qed.

  (** ** The driver *)
  Notation facs := (CINTcommon_fac_sp (v_l V i) * CINTcommon_fac_sp (v_l V j) * CINTcommon_fac_sp (v_l V k)).
  Variables (fv : R) (kd : kind).
  Hypothesis Hfv : entry_factor kd te = Some fv.
  Notation com := (eri_const * facs * fv).
  Definition Yc (n ic jc kc a b c : Z) : R := Yv com ic jc kc (((b * fk + c) * fi + a) * nc + n)%Z.

  Lemma drv_loop dims out : exists m',
    int3c2e_drv V ev rys srys t ng i j k kd dims idx g m out =
      (out <- CINT3c2e_drv_tail 0 Rplus Rmult sph_coef kd false (negb (flg m' 5%nat)) dims out (buf m' 5%nat) e ;; Some (out, negb (flg m' 5%nat))) /\
    (negb (flg m' 5%nat) = true -> reads (buf m' 5%nat) (nc * (nf e * ci * cj * ck)) (xv com)) /\
    (negb (flg m' 5%nat) = true <-> any3).
  Proof.
    destruct (shell_at V ev (fun _ _ => 0%Z) ng i j Hli Hlj i Hni) as (si & E1 & _). destruct (shell_at V ev (fun _ _ => 0%Z) ng i j Hli Hlj j Hnj) as (sj & E2 & _).
    destruct (shell_at V ev (fun _ _ => 0%Z) ng i j Hli Hlj k Hnk) as (sk & E3 & _).
    destruct (loop_value com si sj sk E1 E2 E3) as (m' & ret & EL & R1 & R2). exists m'. split; [|split; assumption].
    unfold int3c2e_drv. rewrite Hfv. cbn [bind]. rewrite Eidx. cbn [bind]. rewrite E1. cbn [bind]. rewrite E2. cbn [bind]. rewrite E3. cbn [bind].
    destruct nc_pos as [_ Hnc].
    assert (EN : (ncomp_e1 e * ncomp_tensor e = nc)%Z). { rewrite <- Hnc. unfold env_3c, env_2e. rewrite Hfam. reflexivity. }
    rewrite EN.
    replace (eri_const * CINTcommon_fac_sp (v_l V i) * CINTcommon_fac_sp (v_l V j) * CINTcommon_fac_sp (v_l V k) * fv) with com by ring.
    rewrite EL. reflexivity.
  Qed.

  Definition Y_ok (Y : Z -> Z -> Z -> Z -> Z -> Z -> Z -> R) : Prop :=
    forall (n m p kk : nat) ic jc kc ti tj tk s1 s2 w, nth_error (cart_list (v_l V i)) n = Some ti -> nth_error (cart_list (v_l V j)) m = Some tj ->
      nth_error (cart_list (v_l V k)) p = Some tk -> nth_error (comps t) kk = Some (s1, s2, w) ->
      exists S, summed3 V ev kept3 i j k ic jc kc (fun ip jp kp => eri3 V ev i j k ip jp kp ti tj tk w) S /\
        (cval (cqmul (qfac f) (phase te s1 s2)) * RtoC (Y (Z.of_nat kk) ic jc kc (Z.of_nat n) (Z.of_nat m) (Z.of_nat p)) = RtoC (fv * facs) * S)%C.
  Definition hv_ok (hv : bool) : Prop :=
    ((exists ip jp kp, in3 ip jp kp /\ kept3 ip jp kp) -> hv = true) /\
    (hv = true -> exists ip jp kp, in3 ip jp kp /\ est ip jp <= Cut).
  Lemma Yc_ok : Y_ok Yc.
  Proof.
    intros n m0 p kk ic jc kc ti tj tk s1 s2 w F1 F2 F3 F5.
    destruct (Yv_is fv facs ic jc kc n m0 p kk ti tj tk s1 s2 w) as (S & S1 & S2); [repeat split; try assumption; reflexivity|].
    exists S. split; [exact S1|]. rewrite <- S2. unfold Yc.
    assert (EP : pos4 t (l3 V i j k) n m0 p 0 kk = (((Z.of_nat m0 * fk + Z.of_nat p) * fi + Z.of_nat n) * nc + Z.of_nat kk)%Z).
    { unfold pos4. cbn [l3]. change (Z.of_nat 0) with 0%Z. rewrite cart0. change (Z.of_nat (Datatypes.length [(0, 0, 0)%Z])) with 1%Z. rewrite !len_cart_list by lia. ring. }
    rewrite EP. reflexivity.
  Qed.
  Lemma hv_is hv : (hv = true <-> any3) -> hv_ok hv.
  Proof. intros H. split; [intros X; apply H, kept_some, X|intros X; apply some_kept, H, X]. Qed.
  Lemma env_is : env3 ng (v_l V i) (v_l V j) (v_l V k) ci cj ck e.
  Proof. left. exists (Rltb (ev 8%Z) 0). unfold env_3c, env_2e. rewrite Hfam. reflexivity. Qed.
  Lemma pos_in a b c : (0 <= a < fi)%Z -> (0 <= b < fj)%Z -> (0 <= c < fk)%Z -> (0 <= (b * fk + c) * fi + a < nf e)%Z.
  Proof. intros. rewrite nf_is. replace (fi * fk * fj)%Z with (fj * fk * fi)%Z by ring. repeat (apply digit_bound; [assumption|]). assumption. Qed.
  Lemma val_at n ic jc kc a b c : (0 <= ic < ci)%Z -> (0 <= jc < cj)%Z -> (0 <= kc < ck)%Z ->
    (0 <= a < fi)%Z -> (0 <= b < fj)%Z -> (0 <= c < fk)%Z ->
    OutSpec.batch3 (xv com) (fi * fk * fj) ci cj ck n ic jc kc ((b * fk + c) * fi + a)%Z = Yc n ic jc kc a b c.
  Proof. intros. unfold OutSpec.batch3. rewrite <- nf_is. unfold Yc. apply xv_at; try assumption. apply pos_in; assumption. Qed.

  Lemma drv_cart dims out n1 n2 n3 : kd = CartK ->
    (fi * ci <= n1)%Z -> (fj * cj <= n2)%Z -> (fk * ck <= n3)%Z ->
    dims_are dims 3 [n1; n2; n3] [(fi * ci)%Z; (fj * cj)%Z; (fk * ck)%Z] ->
    room (asize out) nc n1 n2 n3 1 (fi * ci) (fj * cj) (fk * ck) 1 ->
    exists out' hv Y, int3c2e_drv V ev rys srys t ng i j k CartK dims idx g m out = Some (out', hv) /\
      stored_block out out' nc n1 n2 n3 1 (fi * ci) (fj * cj) (fk * ck) 1
        (fun n I J K _ => Y n (I / fi) (J / fj) (K / fk) (I mod fi) (J mod fj) (K mod fk))%Z /\
      Y_ok Y /\ hv_ok hv.
  Proof.
    intros Ek H1 H2 H3 H5 H6. destruct (drv_loop dims out) as (m' & ED & R1 & R2). rewrite Ek in ED.
    destruct nc_pos as [Hnc1 Hnc]. set (hv := negb (flg m' 5%nat)) in *.
    destruct (out3_cart 0 Rplus Rmult sph_coef ng (v_l V i) (v_l V j) (v_l V k) ci cj ck e hv dims out (buf m' 5%nat) (xv com) n1 n2 n3 env_is Hli Hlj Hlk
      (le01 _ (proj2 Hni)) (le01 _ (proj2 Hnj)) (le01 _ (proj2 Hnk)) H1 H2 H3 H5) as (out' & T1 & T2).
    - rewrite Hnc. exact H6.
    - rewrite Hnc. exact R1.
    - exists out', hv, Yc. split; [rewrite ED, T1; reflexivity|]. split; [|split; [exact Yc_ok|exact (hv_is hv R2)]].
      rewrite Hnc in T2. eapply stored_ext; [exact T2|]. intros n I J K L Hn HI HJ HK HL. cbv beta.
      destruct nf_pos as (_ & Hfi & Hfj & Hfk).
      destruct (dm I fi ci (Z.lt_le_trans 0 1 _ Z.lt_0_1 Hfi) HI) as [D1 D2]. destruct (dm J fj cj (Z.lt_le_trans 0 1 _ Z.lt_0_1 Hfj) HJ) as [D3 D4].
      destruct (dm K fk ck (Z.lt_le_trans 0 1 _ Z.lt_0_1 Hfk) HK) as [D5 D6].
      destruct hv.
      + unfold cart3. apply val_at; assumption.
      + symmetry. apply Yv_none. intros X. apply R2 in X. discriminate.
  Qed.

  Lemma drv_sph dims out n1 n2 n3 : kd = SphK -> let si := (v_l V i * 2 + 1)%Z in let sj := (v_l V j * 2 + 1)%Z in let sk := (v_l V k * 2 + 1)%Z in
    (si * ci <= n1)%Z -> (sj * cj <= n2)%Z -> (sk * ck <= n3)%Z ->
    dims_are dims 3 [n1; n2; n3] [(si * ci)%Z; (sj * cj)%Z; (sk * ck)%Z] ->
    room (asize out) nc n1 n2 n3 1 (si * ci) (sj * cj) (sk * ck) 1 ->
    exists out' hv Y, int3c2e_drv V ev rys srys t ng i j k SphK dims idx g m out = Some (out', hv) /\
      stored_block out out' nc n1 n2 n3 1 (si * ci) (sj * cj) (sk * ck) 1 (fun n I J K _ =>
        apply_T 0%R Rplus Rmult sph_coef c2s_off CINTlen_cart (v_l V i) (I mod si) (fun a =>
        apply_T 0%R Rplus Rmult sph_coef c2s_off CINTlen_cart (v_l V k) (K mod sk) (fun c =>
        apply_T 0%R Rplus Rmult sph_coef c2s_off CINTlen_cart (v_l V j) (J mod sj) (fun b => Y n (I / si) (J / sj) (K / sk) a b c))))%Z /\
      Y_ok Y /\ hv_ok hv.
  Proof.
    intros Ek si sj sk H1 H2 H3 H5 H6. destruct (drv_loop dims out) as (m' & ED & R1 & R2). rewrite Ek in ED.
    destruct nc_pos as [Hnc1 Hnc]. set (hv := negb (flg m' 5%nat)) in *.
    destruct (out3_sph ng (v_l V i) (v_l V j) (v_l V k) ci cj ck e hv dims out (buf m' 5%nat) (xv com) n1 n2 n3 env_is Hli Hlj Hlk
      (le01 _ (proj2 Hni)) (le01 _ (proj2 Hnj)) (le01 _ (proj2 Hnk)) H1 H2 H3 H5) as (out' & T1 & T2).
    - rewrite Hnc. exact H6.
    - rewrite Hnc. exact R1.
    - exists out', hv, Yc. split; [rewrite ED, T1; reflexivity|]. split; [|split; [exact Yc_ok|exact (hv_is hv R2)]].
      rewrite Hnc in T2. eapply stored_ext; [exact T2|]. intros n I J K L Hn HI HJ HK HL. cbv beta. fold si sj sk.
      destruct (dm I si ci (odd_pos _ Hli) HI) as [D1 D2]. destruct (dm J sj cj (odd_pos _ Hlj) HJ) as [D3 D4]. destruct (dm K sk ck (odd_pos _ Hlk) HK) as [D5 D6].
      destruct hv.
      + unfold sph_ijk, apply_T. apply lsum_ext. intros a Ha. f_equal. apply lsum_ext. intros c Hc. f_equal. apply lsum_ext. intros b Hb. f_equal.
        apply val_at; assumption.
      + symmetry. unfold apply_T. apply lsum_0R. intros a Ha. rewrite lsum_0R; [ring|]. intros c Hc. rewrite lsum_0R; [ring|]. intros b Hb.
        unfold Yc. rewrite Yv_none; [ring|]. intros X. apply R2 in X. discriminate.
  Qed.

  (** ** The spinor driver *)
  Import WholeSpinSpec WholeSpinAlg WholeSpinModel.
  Notation nspinor := SpinorSpec.nspinor.
  Notation ncart := SpinorSpec.ncart.
  Notation part := SpinorSpec.part.
  Notation fQ := (Q2R (Qmake (fst f) (snd f))).
  Definition Ms (u : c2s) (n : Z) (s : spin) (ic jc kc a b c : Z) : Complex.C :=
    (ipow ((if c_im u then 1 else 0) + spin_i s) * RtoC (Yc (n * POS_E1 ng + comp_no (c_si u) s) ic jc kc a b c))%C.
  Definition M_ok (u : c2s) (M : Z -> spin -> Z -> Z -> Z -> Z -> Z -> Z -> Complex.C) : Prop :=
    forall (a b c n : nat) ic jc kc ti tj tk qs s, nth_error (cart_list (v_l V i)) a = Some ti -> nth_error (cart_list (v_l V j)) b = Some tj ->
      nth_error (cart_list (v_l V k)) c = Some tk ->
      nth_error (spec_pairs (t_d t)) n = Some qs -> In s (IntgSpec.stored (c_si u)) ->
      exists S, summed3 V ev kept3 i j k ic jc kc (fun ip jp kp => eri3 V ev i j k ip jp kp ti tj tk (spec_of (t_d t) qs s S1)) S /\
        M (Z.of_nat n) s ic jc kc (Z.of_nat a) (Z.of_nat b) (Z.of_nat c) = (RtoC facs * S)%C.
  Lemma Ys_ok : fv = fQ -> forall (n m p kk : nat) ic jc kc ti tj tk s1 s2 w, nth_error (cart_list (v_l V i)) n = Some ti -> nth_error (cart_list (v_l V j)) m = Some tj ->
      nth_error (cart_list (v_l V k)) p = Some tk -> nth_error (comps t) kk = Some (s1, s2, w) ->
      exists S, summed3 V ev kept3 i j k ic jc kc (fun ip jp kp => eri3 V ev i j k ip jp kp ti tj tk w) S /\
        (cval (phase te s1 s2) * RtoC (Yc (Z.of_nat kk) ic jc kc (Z.of_nat n) (Z.of_nat m) (Z.of_nat p)) = RtoC facs * S)%C.
  Proof.
    intros Ev n m0 p kk ic jc kc ti tj tk s1 s2 w F1 F2 F3 F5.
    destruct (Yv_is 1 facs ic jc kc n m0 p kk ti tj tk s1 s2 w) as (S & A1 & A2); [repeat split; try assumption; reflexivity|].
    exists S. split; [exact A1|]. rewrite Rmult_1_l in A2. rewrite <- A2. rewrite cval_mul, cval_qfac.
    assert (EP : pos4 t (l3 V i j k) n m0 p 0 kk = (((Z.of_nat m0 * fk + Z.of_nat p) * fi + Z.of_nat n) * nc + Z.of_nat kk)%Z).
    { unfold pos4. cbn [l3]. change (Z.of_nat 0) with 0%Z. rewrite cart0. change (Z.of_nat (Datatypes.length [(0, 0, 0)%Z])) with 1%Z. rewrite !len_cart_list by lia. ring. }
    assert (EY : Yc (Z.of_nat kk) ic jc kc (Z.of_nat n) (Z.of_nat m0) (Z.of_nat p) = fQ * Yv (eri_const * facs * 1) ic jc kc (pos4 t (l3 V i j k) n m0 p 0 kk)).
    { rewrite EP. unfold Yc, Yv. rewrite Ev. ring. }
    rewrite EY, RtoC_mult. ring.
  Qed.
  Lemma five_fam : en_fam te = F1e \/ en_fam te = F1rinv \/ en_fam te = F1nuc \/ en_fam te = F3c2e \/ en_fam te = F2c2e.
  Proof. tauto. Qed.
  Lemma Ms_ok u : fv = fQ -> en_c2s1 te = Some u -> M_ok u (Ms u).
  Proof.
    intros Ev E1 a b c n ic jc kc ti tj tk qs s F1 F2 F3 F5 F6.
    destruct (comp_at1 t ng n qs s Ht En five_fam F5) as (kk & K1 & K2 & K3); [rewrite E1; exact F6|].
    destruct (Ys_ok Ev a b c kk ic jc kc ti tj tk s S1 _ F1 F2 F3 K2) as (S & A1 & A2). exists S. split; [exact A1|].
    rewrite K3, K1, E1 in A2. exact A2.
  Qed.
  Lemma drv_spin (tR tI : Z -> R) kpi kpj u dims out n1 n2 n3 :
    let di := nspinor kpi (v_l V i) in let dj := nspinor kpj (v_l V j) in let dk := (2 * v_l V k + 1)%Z in
    fv = fQ -> en_spinor te = Some f -> en_c2s1 te = Some u ->
    (v_l V i <= 12)%Z -> (v_l V j <= 12)%Z ->
    (di * ci <= n1)%Z -> (dj * cj <= n2)%Z -> (dk * ck <= n3)%Z ->
    dims_are dims 3 [n1; n2; n3] [(di * ci)%Z; (dj * cj)%Z; (dk * ck)%Z] ->
    room (asize out) (TENSOR ng) (n1 * 2) n2 n3 1 (di * ci * 2) (dj * cj) (dk * ck) 1 ->
    exists out' hv M, int3c2e_spinor_drv V ev rys srys t ng i j k tR tI kpi kpj dims idx g m out = Some (out', hv) /\
      stored_block out out' (TENSOR ng) (n1 * 2) n2 n3 1 (di * ci * 2) (dj * cj) (dk * ck) 1 (fun n p J K _ => part (p mod 2)
        (two_comp tR tI kpi (v_l V i) kpj (v_l V j) ((p / 2) mod di) (J mod dj) (fun a b r r' => spin_sum (c_si u) r r' (fun s =>
          apply_T (RtoC 0) Cplus Cmult (fun q => RtoC (sph_coef q)) c2s_off ncart (v_l V k) (K mod dk) (fun c =>
          M n s ((p / 2) / di) (J / dj) (K / dk) a b c)))))%Z /\
      M_ok u M /\ hv_ok hv.
  Proof.
    intros di dj dk Ev Es Eu L1 L2 H1 H2 H3 H5 H6.
    destruct (shell_at V ev (fun _ _ => 0%Z) ng i j Hli Hlj i Hni) as (si & E1 & _). destruct (shell_at V ev (fun _ _ => 0%Z) ng i j Hli Hlj j Hnj) as (sj & E2 & _).
    destruct (shell_at V ev (fun _ _ => 0%Z) ng i j Hli Hlj k Hnk) as (sk & E3 & _).
    destruct (loop_value com si sj sk E1 E2 E3) as (m' & ret & EL & R1 & R2).
    destruct nc_pos as [Hnc1 Hnc]. destruct (tab_one t ng Ht En five_fam) as ([T1 T2] & _ & _ & T3). specialize (T3 (or_introl Hfam)). set (hv := negb (flg m' 5%nat)) in *.
    assert (HE1 : ((if c_si u then 4 else 1) = POS_E1 ng)%Z) by (rewrite T1, Eu; cbn [sis]; rewrite stored_len; reflexivity).
    assert (HE : e = init_int3c2e (Rltb (ev 8%Z) 0) ng (v_l V i) (v_l V j) (v_l V k) ci cj ck).
    { unfold env_3c, env_2e. rewrite Hfam. reflexivity. }
    assert (HT : (POS_E2 ng * TENSOR ng = TENSOR ng)%Z) by (rewrite T3; apply Z.mul_1_l).
    destruct (PropsSpinor.C26_3c2e_driver tR tI Risz ng (v_l V i) (v_l V j) (v_l V k) kpi kpj ci cj ck e hv dims out
      (buf m' 5%nat) (xv com) n1 n2 n3 (c_si u) (c_im u) (Rltb (ev 8%Z) 0) Risz_zero HE (conj (proj1 Hli) L1) (conj (proj1 Hlj) L2) Hlk
      (le01 _ (proj2 Hni)) (le01 _ (proj2 Hnj)) (le01 _ (proj2 Hnk)) (Z.eq_le_incl _ _ HE1)) as (out' & P1 & P2); rewrite ?HT; try assumption.
    - rewrite T2. apply Zle_0_nat.
    - intros Hv p Hp. apply R1; [exact Hv|]. rewrite <- Hnc. revert Hp. apply (rng_eq p). unfold ncompA. ring.
    - rewrite HT in P2. exists out', hv, (Ms u). split; [|split; [|split; [exact (Ms_ok u Ev Eu)|exact (hv_is hv R2)]]].
      + unfold int3c2e_spinor_drv, spinor_factor. rewrite Es, Eu. cbn [bind]. rewrite Eidx. cbn [bind]. rewrite E1. cbn [bind]. rewrite E2. cbn [bind]. rewrite E3. cbn [bind].
        assert (EN : (ncomp_e1 e * ncomp_tensor e = nc)%Z). { rewrite <- Hnc. unfold env_3c, env_2e. rewrite Hfam. reflexivity. }
        rewrite EN. rewrite <- Ev.
        replace (eri_const * CINTcommon_fac_sp (v_l V i) * CINTcommon_fac_sp (v_l V j) * CINTcommon_fac_sp (v_l V k) * fv) with com by ring.
        rewrite EL. cbn [bind]. fold hv. rewrite P1. reflexivity.
      + eapply stored_ext; [exact P2|]. intros n p J K L Hn Hp HJ HK HL. cbv beta. fold di dj dk.
        destruct (spin_index p di ci Hp (proj2 Hni)) as [D1 D2]. destruct (spin_index' J dj cj HJ (proj2 Hnj)) as [D3 D4].
        destruct (spin_index' K dk ck HK (proj2 Hnk)) as [D5 D6].
        assert (N1 : ncart (v_l V i) = fi) by (symmetry; apply SpinorDrv.cl_nc; exact Hli). assert (N2 : ncart (v_l V j) = fj) by (symmetry; apply SpinorDrv.cl_nc; exact Hlj).
        assert (N3 : ncart (v_l V k) = fk) by (symmetry; apply SpinorDrv.cl_nc; exact Hlk).
        destruct hv.
        * f_equal. rewrite (spin3_value tR tI sph_coef c2s_off (c_si u) (c_im u) kpi (v_l V i) kpj (v_l V j) (v_l V k) (xv com) ci cj ck (POS_E1 ng) n (p / 2) J K
            (fun s a b c => Ms u n s (p / 2 / di) (J / dj) (K / dk) a b c)); [reflexivity|].
          intros a b c s Ha Hb Hc _. unfold Ms. do 2 f_equal. rewrite N1, N2, N3 in *. apply val_at; assumption.
        * symmetry. rewrite two_zero; [apply batch_R0|]. intros a b r r' _ _. apply spin_zero. intros s _. apply cT_zero. intros c.
          unfold Ms, Yc. rewrite Yv_none; [ring|]. intros X. apply R2 in X. discriminate.
  Qed.
End Whole.

Lemma summed3_unique V ev keep i j k ic jc kc ti tj tk w S S' :
  summed3 V ev keep i j k ic jc kc (fun ip jp kp => eri3 V ev i j k ip jp kp ti tj tk w) S ->
  summed3 V ev keep i j k ic jc kc (fun ip jp kp => eri3 V ev i j k ip jp kp ti tj tk w) S' -> S = S'.
Proof.
  intros (D & K & H & ->) (D' & K' & H' & ->). apply csumz_ext. intros kp Hkp. apply csumz_ext. intros jp Hjp. apply csumz_ext. intros ip Hip.
  destruct (H ip jp kp Hip Hjp Hkp) as [A B]. destruct (H' ip jp kp Hip Hjp Hkp) as [A' B'].
  destruct (K ip jp kp) eqn:E; destruct (K' ip jp kp) eqn:E'.
  - f_equal. eapply value_unique; [|exact (B (proj1 A eq_refl))|exact (B' (proj1 A eq_refl))]. intros m v w0. apply term2_unique.
  - discriminate (proj2 A' (proj1 A eq_refl)).
  - discriminate (proj2 A (proj1 A' eq_refl)).
  - reflexivity.
Qed.
