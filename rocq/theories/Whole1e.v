(** Whole1e.v — the one-electron drivers, from the tables to the caller's array. *)
From Coq Require Import Reals Lra QArith Qreals String.
From Coquelicot Require Import Coquelicot.
From Verif Require Import Base BasModel BasSpec EnvModel IdxModel IdxSpec CtrModel Loop2eModel Loop2eSpec LoopSpec Loop2eFinal Loop3Model Loop3Spec Loop3Final
  OptModel OptSpec OptProof OptPair ScreenModel ScreenSpec ScreenProof OutModel OutSpec OutSetup TabModel
  OpSpec RecModel RecRModel RecSpec GaussInt Gauss2Int Rec1Real Rec2RModel Rec2Real Rec2Spec
  IntgModel IntgSpec IntgTab IntgStmt IntgCheck IntgStep IntgSem IntgFinal IntgAll IntgEx IntgOvlp IntgReal QuadSpec OperSpec OperModel OperKeep OperNuc GiaoProof
  WholeModel WholeSim WholeBatch WholeSpec.
From Verif Require SpinorSpec SpinorModel SpinorDrv PropsSpinor WholeSpinSpec WholeSpinAlg WholeSpinModel.
Local Open Scope R_scope.

(** ** Sums *)
Lemma two_digits x y X Y : (0 <= x < X -> 0 <= y < Y -> 0 <= x * Y + y < X * Y)%Z.
Proof. nia. Qed.
Lemma csumz_ext n f g : (forall i, (0 <= i < n)%Z -> f i = g i) -> csumz n f = csumz n g.
Proof. apply lsum_ext. Qed.
Lemma csumz_mul c n f : (c * csumz n f)%C = csumz n (fun i => c * f i)%C.
Proof. unfold csumz, lsum. induction (Z.to_nat n) as [|k IH]; cbn [lsumN]; [ring|]. rewrite <- IH. ring. Qed.
Lemma csumz_R n f : RtoC (lsum 0 Rplus n f) = csumz n (fun i => RtoC (f i)).
Proof. unfold csumz, lsum. induction (Z.to_nat n) as [|k IH]; cbn [lsumN]; [reflexivity|]. rewrite RtoC_plus, IH. reflexivity. Qed.
Lemma lsum_mulR c n f : c * lsum 0 Rplus n f = lsum 0 Rplus n (fun i => c * f i).
Proof. unfold lsum. induction (Z.to_nat n) as [|k IH]; cbn [lsumN]; [ring|]. rewrite <- IH. ring. Qed.
Lemma lsum_0R n f : (forall i, (0 <= i < n)%Z -> f i = 0) -> lsum 0 Rplus n f = 0.
Proof.
  intros H. rewrite (lsum_ext _ _ n f (fun _ => 0) H). unfold lsum. clear H. induction (Z.to_nat n) as [|k IH]; cbn [lsumN]; [reflexivity|]. rewrite IH. lra.
Qed.
Lemma stored_ext {F} (a b : arr F) nc n1 n2 n3 n4 m1 m2 m3 m4 v w : stored_block a b nc n1 n2 n3 n4 m1 m2 m3 m4 v ->
  (forall n i1 i2 i3 i4, (0 <= n < nc)%Z -> (0 <= i1 < m1)%Z -> (0 <= i2 < m2)%Z -> (0 <= i3 < m3)%Z -> (0 <= i4 < m4)%Z -> v n i1 i2 i3 i4 = w n i1 i2 i3 i4) ->
  stored_block a b nc n1 n2 n3 n4 m1 m2 m3 m4 w.
Proof. intros (A & B & D) H. split; [exact A|]. split; [|exact D]. intros. rewrite <- H by assumption. apply B; assumption. Qed.
Lemma Risz_zero c : Risz c = true -> c = 0.
Proof. unfold Risz, Reqb. destruct (Req_EM_T c 0); [auto|discriminate]. Qed.

Lemma nucleus_ok at_ ev ia : (ia = -1 \/ 0 <= ia)%Z -> charge_at at_ ev ia (n_chg (nucleus_of at_ ev ia)) (n_zeta (nucleus_of at_ ev ia)) (n_xyz (nucleus_of at_ ev ia)).
Proof.
  intros H. unfold nucleus_of, charge_at. split; intros Hi.
  - rewrite Hi. cbn. auto.
  - destruct (Z.ltb_spec ia 0); [lia|]. cbn [n_chg n_zeta n_xyz]. split; [reflexivity|].
    destruct (Z.eqb_spec (at_ 2%Z ia) 3); destruct (Z.eqb_spec (at_ 2%Z ia) 2); repeat split; intros; try reflexivity; try contradiction; congruence.
Qed.

Section Whole.
  Variables (nbas : Z) (V : view) (ev : Z -> R) (lm : Z -> Z -> R) (at_ : Z -> Z -> Z) (natm : Z) (rys : Z -> R -> nodes) (t : ent) (ng : ngT) (i j : Z) (f : Z * positive).
  Notation e := (env_1e V ng i j).
  Notation nc := (Z.of_nat (length (g_rows (t_f t)))).
  Notation len := (nf e * nc)%Z.
  Notation fam := (en_fam (t_e t)).
  Notation fi := (CINTlen_cart (v_l V i)).
  Notation fj := (CINTlen_cart (v_l V j)).
  Hypothesis HG : good_shells nbas V ev lm.
  Hypothesis Hi : (0 <= i < nbas)%Z.
  Hypothesis Hj : (0 <= j < nbas)%Z.
  Hypothesis Hni : (0 <= v_np V i)%Z /\ (1 <= v_nc V i)%Z.
  Hypothesis Hnj : (0 <= v_np V j)%Z /\ (1 <= v_nc V j)%Z.
  Hypothesis Ht : In t catalogue.
  Hypothesis En : ent_ng t = Some ng.
  Hypothesis Ef : factor (t_e t) = Some f.
  Hypothesis Hli : (0 <= v_l V i <= 15)%Z.
  Hypothesis Hlj : (0 <= v_l V j <= 15)%Z.
  Hypothesis Hfam : fam = F1e \/ fam = F1rinv \/ fam = F1nuc.
  Hypothesis Hroots : fam <> F1e -> ~ In (en_name (t_e t)) except_names /\ roots_ok V rys ng i j.
  Hypothesis Hnat : fam = F1nuc -> (1 <= natm)%Z.
  Variable ty : Z.
  Hypothesis Hty : int1e_type fam = Some ty.
  Variables (idx idx' : arr Z) (gsz : Z).
  Hypothesis Hidx : (3 * nf e <= asize idx)%Z.
  Hypothesis Eidx : CINTg1e_index_xyz e idx = Some idx'.
  Hypothesis Hgsz : ((2 ^ GSHIFT ng + 1) * (3 * g_size e) <= gsz)%Z.
  Notation E ip jp := (pair_eij (square3 (fun ax => ctr V ev i ax - ctr V ev j ax)) (ex V ev i ip) (ex V ev j jp)).
  Notation run := (run_1e V ev at_ rys t ng i j ty idx').
  Definition Bt (ip jp ia : Z) : Z -> R := batch len gsz (run ip jp ia) (E ip jp).
  Notation cut := (init_expcutoff Rops ev C1e).
  Notation pd := (entry Rops V ev i j (li_ceil e) (lj_ceil e) cut).
  Notation emp := (set_pairdata_empty Rops V ev i j (li_ceil e) (lj_ceil e) cut).
  Notation skip := (fun ip jp => Rltb cut (cceij (pd ip jp))).
  Notation ee := (fun ip jp => eij (pd ip jp)).
  Notation q := (mkp1 emp skip ee natm (fun ip jp => Bt ip jp 0) Bt).
  Notation est ip jp := (pair_est V ev lm i j (li_ceil e + lj_ceil e) ip jp).
  Notation U := (user_cutoff (ev 0%Z)).
  Definition kept2 (ip jp : Z) : Prop := est ip jp < U.

  Lemma ty_range : (0 <= ty <= 2)%Z.
  Proof. revert Hty. destruct Hfam as [->|[->| ->]]; cbn; intros X; injection X as <-; lia. Qed.

  Lemma batches ip jp ia : (0 <= ip < v_np V i)%Z -> (0 <= jp < v_np V j)%Z ->
    adds_batch len gsz (Bt ip jp ia) (run ip jp ia) /\
    is_batch V ev t i j f ip jp (if (ty =? 0)%Z then D_ovlp V ev i j ip jp else D_nuc V ev at_ i j ip jp ia) (Bt ip jp ia).
  Proof.
    intros Hip Hjp. destruct (HG i ip Hi Hip) as [Ha _]. destruct (HG j jp Hj Hjp) as [Hb _]. unfold Bt.
    assert (Hd : fam = F1e \/ fam <> F1e) by (destruct Hfam as [X|[X|X]]; rewrite X; [left|right|right]; congruence).
    destruct Hd as [Hd|Hd].
    - assert (ty = 0)%Z as E0 by (rewrite Hd in Hty; cbn in Hty; congruence). rewrite E0. cbn [Z.eqb].
      exact (ovlp_batch V ev at_ rys t ng i j f Ht En Ef Hli Hlj idx idx' gsz Hidx Eidx Hgsz ip jp ia Hd Ha Hb).
    - assert (ty <> 0)%Z as E0 by (destruct Hfam as [X|[X|X]]; rewrite X in Hty; cbn in Hty; congruence).
      destruct (Z.eqb_spec ty 0) as [?|_]; [contradiction|]. destruct (Hroots Hd) as [R1 R2].
      refine (nuc_batch V ev at_ rys t ng i j f Ht En Ef Hli Hlj idx idx' gsz Hidx Eidx Hgsz ip jp ia ty E0 _ R1 R2 Ha Hb). tauto.
  Qed.

  Lemma ee_R ip jp : (0 <= ip < v_np V i)%Z -> (0 <= jp < v_np V j)%Z ->
    (est ip jp < U -> eij (pd ip jp) = E ip jp /\ emp = false /\ Rltb cut (cceij (pd ip jp)) = false) /\ (U <= est ip jp -> eij (pd ip jp) = 0).
  Proof.
    intros Hip Hjp. destruct (entry_R nbas V ev lm HG i j (li_ceil e) (lj_ceil e) cut Hi Hj ip jp Hip Hjp) as (A & B & D).
    rewrite (init_user ev C1e) in * by discriminate. unfold pair_est. split; [|exact D].
    intros L. destruct (B L) as (_ & _ & _ & ->). split; [|split].
    - unfold pair_eij, dist_sq, square3. f_equal. destruct (HG i ip Hi Hip) as [Ha _]. destruct (HG j jp Hj Hjp) as [Hb _]. field. lra.
    - rewrite <- (init_user ev C1e) in L |- * by discriminate. eapply (nonempty_R nbas V ev lm HG); eauto.
    - rewrite A. unfold Rltb. destruct (Rlt_dec _ _); [lra|reflexivity].
  Qed.

  (** the value of the primitive pair, without the prefactor *)
  Notation PB ip jp x := (match ty with 0%Z => Bt ip jp 0 x | 1%Z => Bt ip jp (-1) x | _ => lsum 0 Rplus natm (fun ia => Bt ip jp ia x) end).

  Lemma in_pot ip jp ia ti tj p D : (ia = -1 \/ 0 <= ia)%Z -> D_nuc V ev at_ i j ip jp ia ti tj p D ->
    in_potential at_ ev (exps2 V ev i j ip jp) (centres2 V ev i j) ia ti tj p D.
  Proof. intros Hia (W & H1 & H2). exists (n_chg (nucleus_of at_ ev ia)), (n_zeta (nucleus_of at_ ev ia)), (n_xyz (nucleus_of at_ ev ia)), W. split; [apply nucleus_ok, Hia|]. split; [exact H1|exact H2]. Qed.

  Lemma prim_is ip jp (n m k : nat) ti tj s1 s2 p : (0 <= ip < v_np V i)%Z -> (0 <= jp < v_np V j)%Z ->
    nth_error (cart_list (v_l V i)) n = Some ti -> nth_error (cart_list (v_l V j)) m = Some tj -> nth_error (comps t) k = Some (s1, s2, p) ->
    prim_integral V ev at_ natm fam i j ip jp ti tj p (cval (cqmul (qfac f) (phase (t_e t) s1 s2)) * RtoC (E ip jp * PB ip jp (pos2 t (v_l V i) n m k)))%C.
  Proof.
    intros Hip Hjp F1 F2 F3.
    assert (HB : forall ia, exists D, (if (ty =? 0)%Z then D_ovlp V ev i j ip jp else D_nuc V ev at_ i j ip jp ia) ti tj p D /\
      (cval (cqmul (qfac f) (phase (t_e t) s1 s2)) * RtoC (E ip jp * Bt ip jp ia (pos2 t (v_l V i) n m k)) = D)%C).
    { intros ia. destruct (batches ip jp ia Hip Hjp) as [_ HB]. exact (HB n m k ti tj s1 s2 p F1 F2 F3). }
    unfold prim_integral. cbv zeta. destruct Hfam as [X|[X|X]]; rewrite X in *; cbn in Hty; injection Hty as Hty'; rewrite <- Hty' in *; cbn [Z.eqb] in HB; cbv beta iota.
    - destruct (HB 0%Z) as (D & D1 & ->). exact D1.
    - destruct (HB (-1)%Z) as (D & D1 & ->). apply in_pot; [left; reflexivity|exact D1].
    - exists (fun ia => cval (cqmul (qfac f) (phase (t_e t) s1 s2)) * RtoC (E ip jp * Bt ip jp ia (pos2 t (v_l V i) n m k)))%C. split.
      + intros ia Hia. destruct (HB ia) as (D & D1 & ->). apply in_pot; [right; lia|exact D1].
      + rewrite lsum_mulR, csumz_R. apply csumz_mul.
  Qed.

  Notation cfi := (fun ic ip => cf V ev i ip ic).
  Notation cfj := (fun jc jp => cf V ev j jp jc).
  Definition Yv (common : R) (ic jc x : Z) : R :=
    common * contract2 0 Rplus Rmult (v_np V i) (v_np V j) (kept_1e q) cfi cfj (prim_1e 0 Rplus Rmult ty q) ic jc x.

  Lemma cval_qfac : cval (qfac f) = RtoC (Q2R (Qmake (fst f) (snd f))).
  Proof. unfold cval, qfac, RtoC. cbn [fst snd]. f_equal. unfold Q2R. cbn. lra. Qed.

  Lemma Yv_is facs ic jc (n m k : nat) ti tj s1 s2 p :
    nth_error (cart_list (v_l V i)) n = Some ti -> nth_error (cart_list (v_l V j)) m = Some tj -> nth_error (comps t) k = Some (s1, s2, p) ->
    exists S, contracted2 V ev kept2 i j ic jc (fun ip jp => prim_integral V ev at_ natm fam i j ip jp ti tj p) S /\
      (cval (phase (t_e t) s1 s2) * RtoC (Yv (Q2R (Qmake (fst f) (snd f)) * facs) ic jc (pos2 t (v_l V i) n m k)) = RtoC facs * S)%C.
  Proof.
    intros F1 F2 F3. set (x := pos2 t (v_l V i) n m k).
    set (D := fun ip jp => (cval (cqmul (qfac f) (phase (t_e t) s1 s2)) * RtoC (E ip jp * PB ip jp x))%C).
    set (K := fun ip jp => Rltb (est ip jp) U).
    eexists. split.
    - exists D, K. split; [|reflexivity]. intros ip jp Hip Hjp. split; [exact (prim_is ip jp n m k ti tj s1 s2 p Hip Hjp F1 F2 F3)|].
      unfold K, kept2, Rltb. destruct (Rlt_dec _ _); split; intros; try reflexivity; try assumption; try discriminate; contradiction.
    - unfold Yv, contract2. rewrite RtoC_mult, RtoC_mult, <- cval_qfac. rewrite csumz_R.
      match goal with |- (?a * (?b * ?c * ?S))%C = _ => transitivity (c * (a * b * S))%C; [ring|] end.
      f_equal. rewrite csumz_mul. apply csumz_ext. intros jp Hjp. rewrite csumz_R, csumz_mul. apply csumz_ext. intros ip Hip.
      destruct (ee_R ip jp Hip Hjp) as [A B]. assert (HK : K ip jp = if Rlt_dec (est ip jp) U then true else false) by reflexivity. rewrite HK. clear HK. destruct (Rlt_dec (est ip jp) U) as [L|L].
      + destruct (A L) as (A1 & A2 & A3). unfold kept_1e. cbn [w_empty w_skip]. cbv beta. rewrite A2, A3. cbn [negb andb].
        unfold prim_1e. cbn [w_e w_ovlp w_nuc w_natm]. rewrite A1. unfold D. rewrite cval_mul, !RtoC_mult. ring.
      + pose proof (B (Rnot_lt_le _ _ L)) as B1.
        unfold prim_1e. cbn [w_e]. rewrite B1. destruct (kept_1e q ip jp); [|ring].
        replace (cf V ev j jp jc * cf V ev i ip ic * _) with 0 by ring. ring.
  Qed.

  (** ** The loop *)
  Lemma shell_at k : (0 <= v_np V k)%Z /\ (1 <= v_nc V k)%Z -> exists s, mk_shell Risz (v_np V k) (v_nc V k) (coef_arr V ev k) = Some s /\
    s_np s = v_np V k /\ s_ctr s = v_nc V k /\ shell_of Risz s (fun c p => cf V ev k p c).
  Proof.
    intros [H1 H2].
    assert (HC : coeffs (coef_arr V ev k) (v_np V k) (v_nc V k) (fun c p => cf V ev k p c)).
    { split; [exact H1|]. split; [exact H2|]. intros c p Hc Hp. unfold coef_arr. rewrite rd_of_fun by nia. unfold cf. do 2 f_equal. lia. }
    pose proof (CtrProof.non0coeff_ok Risz (coef_arr V ev k) (v_np V k) (v_nc V k) (fun c p => cf V ev k p c) (uninit (v_np V k * v_nc V k)) (uninit (v_np V k)) H1 ltac:(lia)
                  ltac:(cbn; lia) ltac:(cbn; lia) (proj2 (proj2 HC))) as K.
    apply wp_exists in K. destruct K as [[a b] [E1 _]].
    assert (EM : mk_shell Risz (v_np V k) (v_nc V k) (coef_arr V ev k) = Some (mkshl (v_np V k) (v_nc V k) (coef_arr V ev k) b a)).
    { unfold mk_shell. rewrite E1. reflexivity. }
    exists (mkshl (v_np V k) (v_nc V k) (coef_arr V ev k) b a). split; [exact EM|]. split; [reflexivity|]. split; [reflexivity|].
    exists (coef_arr V ev k). split; [exact HC|exact EM].
  Qed.

  Notation ci := (v_nc V i).
  Notation cj := (v_nc V j).
  Notation rows := (nf e * (ci * cj))%Z.
  Lemma nf_pos : (1 <= nf e)%Z /\ (1 <= fi)%Z /\ (1 <= fj)%Z.
  Proof.
    assert (Hc : forall l, (0 <= l <= 15)%Z -> (1 <= CINTlen_cart l)%Z).
    { intros l Hl. unfold CINTlen_cart. rewrite Z.quot_div_nonneg by nia. apply Z.div_le_lower_bound; nia. }
    pose proof (Hc _ Hli). pose proof (Hc _ Hlj). change (nf e) with (fi * fj)%Z. split; [nia|]. split; assumption.
  Qed.
  Lemma nc_pos : (1 <= nc)%Z /\ ncompA ng = nc.
  Proof. destruct (whole1 t Ht Hfam) as (_ & _ & _ & W). destruct (W ng En) as (W1 & W2 & _). unfold ncompA. lia. Qed.

  Definition xv (common : R) (p : Z) : R :=
    let r := (p mod rows)%Z in Yv common ((r / nf e) mod ci) (r / (nf e * ci)) (r mod nf e * nc + p / rows)%Z.
  Lemma xv_at common n ic jc b : (0 <= ic < ci)%Z -> (0 <= jc < cj)%Z -> (0 <= b < nf e)%Z ->
    xv common (((n * cj + jc) * ci + ic) * nf e + b) = Yv common ic jc (b * nc + n)%Z.
  Proof.
    intros Hic Hjc Hb. destruct nf_pos as [Hn _]. set (r := ((jc * ci + ic) * nf e + b)%Z).
    assert (Hr : (0 <= r < rows)%Z). { unfold r. assert (jc * ci + ic < ci * cj)%Z by nia. assert (0 <= jc * ci + ic)%Z by nia. nia. }
    assert (Ep : (((n * cj + jc) * ci + ic) * nf e + b = rows * n + r)%Z) by (unfold r; ring).
    rewrite Ep. unfold xv. cbv zeta.
    assert (E1 : ((rows * n + r) mod rows = r)%Z) by (symmetry; apply (Z.mod_unique _ _ n); [left; lia|reflexivity]).
    assert (E2 : ((rows * n + r) / rows = n)%Z) by (symmetry; apply (Z.div_unique _ _ _ r); [left; lia|reflexivity]).
    rewrite E1, E2.
    assert (E3 : (r / nf e = jc * ci + ic)%Z) by (symmetry; apply (Z.div_unique _ _ _ b); [left; lia|unfold r; ring]).
    assert (E4 : (r mod nf e = b)%Z) by (symmetry; apply (Z.mod_unique _ _ (jc * ci + ic)); [left; lia|unfold r; ring]).
    assert (E5 : ((jc * ci + ic) mod ci = ic)%Z) by (symmetry; apply (Z.mod_unique _ _ jc); [left; lia|ring]).
    assert (E6 : (r / (nf e * ci) = jc)%Z) by (symmetry; apply (Z.div_unique _ _ _ (ic * nf e + b)); [left; rewrite (Z.mul_comm (nf e) ci); apply two_digits; lia|unfold r; ring]).
    rewrite E3, E4, E5, E6. reflexivity.
  Qed.

  Variables (m : mem R) (g : arr R).
  Hypothesis Hm : forall s, filled (buf m s).
  Hypothesis Hg : filled g /\ asize g = gsz.
  Hypothesis Hw0 : (ci <> 1 -> nf e * nc <= asize (buf m 0))%Z.
  Hypothesis Hw1 : (cj <> 1 -> nf e * nc * ci <= asize (buf m 1))%Z.
  Hypothesis Hw2 : (nc <> 1 -> nf e * nc * ci * cj <= asize (buf m 2))%Z.
  Hypothesis Hw5 : (rows * nc <= asize (buf m 5))%Z.

  Lemma loop_value common si sj : mk_shell Risz (v_np V i) (v_nc V i) (coef_arr V ev i) = Some si -> mk_shell Risz (v_np V j) (v_nc V j) (coef_arr V ev j) = Some sj ->
    exists m' hv, CINT1e_loop_run run ty natm nc (nf e) si sj common emp skip ee m g = Some (m', hv) /\
      (hv = true -> reads (buf m' 5%nat) (nc * (nf e * ci * cj)) (xv common)) /\
      (hv = true <-> some2 (v_np V i) (v_np V j) (kept_1e q)).
  Proof.
    intros E1 E2. destruct (shell_at i Hni) as (si' & E1' & N1 & C1 & S1). destruct (shell_at j Hnj) as (sj' & E2' & N2 & C2 & S2).
    rewrite E1 in E1'. injection E1' as <-. rewrite E2 in E2'. injection E2' as <-.
    destruct nf_pos as [Hn _]. destruct nc_pos as [Hnc _].
    assert (HF : LoopSpec.fits m (scratch2 nc (nf e) si sj)).
    { intros s z. unfold scratch2, needs. rewrite C1, C2. intros X.
      destruct (Z.eqb_spec ci 1) as [?|D0]; destruct (Z.eqb_spec cj 1) as [?|D1]; destruct (Z.eqb_spec nc 1) as [?|D2]; cbn in X;
        repeat (destruct X as [X|X]; [injection X as <- <-; auto; fail|]); try contradiction;
        repeat match goal with X : _ \/ _ |- _ => destruct X as [X|X] | X : (_, _) = (_, _) |- _ => injection X as <- <- end; try contradiction; auto. }
    assert (H5 : (rows2 (nf e) si sj * nc <= asize (buf m 5))%Z) by (unfold rows2; rewrite C1, C2; exact Hw5).
    assert (Hnat' : (ty = 2 -> 1 <= w_natm q)%Z).
    { intros E0. cbn. apply Hnat. destruct Hfam as [X|[X|X]]; rewrite X in Hty; cbn in Hty; try congruence. }
    pose proof (loop_1e 0 1 Rplus Rmult Rminus Ropp RTheory Risz Risz_zero nc (nf e) si sj si _ _ S1 S2 ltac:(lia) Hnc common ty q m ty_range Hnat' H5 HF) as HL.
    destruct HL as (m' & hv & EL & P1 & P2 & P3 & P4). rewrite C1, N1, N2 in *. 
    exists m', hv. split; [|split].
    - eapply (loop1e_sim (fun s => asize (buf m s)) gsz run Bt ty natm nc (nf e) si sj common emp skip ee); try eassumption.
      + nia.
      + intros ip jp ia Hip Hjp _. apply batches; lia.
      + exact ty_range.
      + cbv zeta. unfold alias. rewrite C1, C2.
        destruct (Z.eqb_spec ci 1); destruct (Z.eqb_spec cj 1); destruct (Z.eqb_spec nc 1); nia.
      + intros s. split; [apply Hm|reflexivity].
    - intros Hv p Hp. unfold rows2 in P4. rewrite C1, C2 in P4.
      assert (Hrw : (0 < rows)%Z) by nia.
      pose proof (Z.div_mod p rows ltac:(lia)) as Dm. pose proof (Z.mod_pos_bound p rows Hrw) as Mb.
      assert (Hd : (0 <= p / rows < nc)%Z). { split; [apply Z.div_pos; lia|]. apply Z.div_lt_upper_bound; [lia|]. nia. }
      replace p with (p / rows * rows + p mod rows)%Z at 1 by lia.
      rewrite (P4 Hv (p mod rows)%Z (p / rows)%Z Mb Hd). reflexivity.
    - exact P1.
  Qed.

  Lemma Yv_none common ic jc x : ~ some2 (v_np V i) (v_np V j) (kept_1e q) -> Yv common ic jc x = 0.
  Proof.
    intros H. unfold Yv, contract2. rewrite lsum_0R; [ring|]. intros jp Hjp. apply lsum_0R. intros ip Hip.
    destruct (kept_1e q ip jp) eqn:K; [|reflexivity]. exfalso. apply H. exists ip, jp. auto.
  Qed.
  Lemma kept_some : (exists ip jp, (0 <= ip < v_np V i)%Z /\ (0 <= jp < v_np V j)%Z /\ est ip jp < U) -> some2 (v_np V i) (v_np V j) (kept_1e q).
  Proof.
    intros (ip & jp & Hip & Hjp & L). exists ip, jp. split; [exact Hip|]. split; [exact Hjp|].
    destruct (ee_R ip jp Hip Hjp) as [A _]. destruct (A L) as (_ & A2 & A3). unfold kept_1e. cbn [w_empty w_skip]. cbv beta. rewrite A2, A3. reflexivity.
  Qed.
  Lemma some_kept : some2 (v_np V i) (v_np V j) (kept_1e q) -> exists ip jp, (0 <= ip < v_np V i)%Z /\ (0 <= jp < v_np V j)%Z /\ est ip jp <= U.
  Proof.
    intros (ip & jp & Hip & Hjp & K). exists ip, jp. split; [exact Hip|]. split; [exact Hjp|].
    unfold kept_1e in K. cbn [w_empty w_skip] in K. apply andb_true_iff in K. destruct K as [_ K]. apply negb_true_iff in K.
    rewrite (entry_cce nbas V ev lm HG i j (li_ceil e) (lj_ceil e) cut Hi Hj ip jp Hip Hjp) in K. rewrite (init_user ev C1e) in K by discriminate.
    unfold Rltb in K. destruct (Rlt_dec _ _); [discriminate|]. lra.
  Qed.

  (** ** The driver *)
  Notation facs := (CINTcommon_fac_sp (v_l V i) * CINTcommon_fac_sp (v_l V j)).
  Notation com := (Q2R (Qmake (fst f) (snd f)) * facs).
  Definition Yc (n ic jc a b : Z) : R := Yv com ic jc ((b * fi + a) * nc + n)%Z.

  Lemma drv_loop k dims out : k = CartK \/ k = SphK -> exists m' hv,
    int1e_drv V ev at_ natm rys t ng i j k dims idx g m out =
      (out <- CINT1e_drv_tail 0 Rplus Rmult sph_coef k hv dims out (buf m' 5%nat) e ;; Some (out, hv)) /\
    (hv = true -> reads (buf m' 5%nat) (nc * (nf e * ci * cj)) (xv com)) /\
    (hv = true <-> some2 (v_np V i) (v_np V j) (kept_1e q)).
  Proof.
    intros Hk. destruct (shell_at i Hni) as (si & E1 & _). destruct (shell_at j Hnj) as (sj & E2 & _).
    destruct (loop_value com si sj E1 E2) as (m' & hv & EL & R1 & R2). exists m', hv. split; [|split; assumption].
    unfold int1e_drv.
    assert (EF : entry_factor k (t_e t) = Some (Q2R (Qmake (fst f) (snd f)))).
    { destruct (whole1 t Ht Hfam) as (W1 & W2 & _). unfold entry_factor. destruct Hk as [-> | ->]; [rewrite <- W1|rewrite <- W2]; rewrite Ef; reflexivity. }
    rewrite EF. cbn [bind]. rewrite Hty. cbn [bind]. rewrite Eidx. cbn [bind]. rewrite E1. cbn [bind]. rewrite E2. cbn [bind].
    destruct nc_pos as [_ Hnc]. change (ncomp_e1 e * ncomp_tensor e)%Z with (ncompA ng). rewrite Hnc.
    change (i_l e) with (v_l V i). change (j_l e) with (v_l V j).
    rewrite Rmult_assoc. rewrite EL. reflexivity.
  Qed.

  Definition Y_ok (Y : Z -> Z -> Z -> Z -> Z -> R) : Prop :=
    forall (n m k : nat) ic jc ti tj s1 s2 p, nth_error (cart_list (v_l V i)) n = Some ti -> nth_error (cart_list (v_l V j)) m = Some tj ->
      nth_error (comps t) k = Some (s1, s2, p) ->
      exists S, contracted2 V ev kept2 i j ic jc (fun ip jp => prim_integral V ev at_ natm fam i j ip jp ti tj p) S /\
        (cval (phase (t_e t) s1 s2) * RtoC (Y (Z.of_nat k) ic jc (Z.of_nat n) (Z.of_nat m)) = RtoC facs * S)%C.
  Definition hv_ok (hv : bool) : Prop :=
    ((exists ip jp, (0 <= ip < v_np V i)%Z /\ (0 <= jp < v_np V j)%Z /\ est ip jp < U) -> hv = true) /\
    (hv = true -> exists ip jp, (0 <= ip < v_np V i)%Z /\ (0 <= jp < v_np V j)%Z /\ est ip jp <= U).
  Lemma Yc_ok : Y_ok Yc.
  Proof.
    intros n m0 k ic jc ti tj s1 s2 p F1 F2 F3. destruct (Yv_is facs ic jc n m0 k ti tj s1 s2 p F1 F2 F3) as (S & S1 & S2).
    exists S. split; [exact S1|]. unfold Yc. rewrite <- S2. do 3 f_equal. unfold pos2. rewrite (len_cart_list (v_l V i)) by lia. reflexivity.
  Qed.
  Lemma hv_is hv : (hv = true <-> some2 (v_np V i) (v_np V j) (kept_1e q)) -> hv_ok hv.
  Proof. intros H. split; [intros X; apply H, kept_some, X|intros X; apply some_kept, H, X]. Qed.

  Lemma divmod_range a d c : (0 < d)%Z -> (0 <= a < d * c)%Z -> (0 <= a / d < c)%Z /\ (0 <= a mod d < d)%Z.
  Proof. intros Hd Ha. split; [split; [apply Z.div_pos; lia|apply Z.div_lt_upper_bound; lia]|apply Z.mod_pos_bound; lia]. Qed.

  Lemma drv_cart dims out n1 n2 :
    (fi * ci <= n1)%Z -> (fj * cj <= n2)%Z -> dims_are dims 2 [n1; n2] [(fi * ci)%Z; (fj * cj)%Z] -> (forall d, dims = Some d -> exists n, rd d 2 = Some n) ->
    room (asize out) nc n1 n2 1 1 (fi * ci) (fj * cj) 1 1 ->
    exists out' hv Y, int1e_drv V ev at_ natm rys t ng i j CartK dims idx g m out = Some (out', hv) /\
      stored_block out out' nc n1 n2 1 1 (fi * ci) (fj * cj) 1 1 (fun n I J _ _ => Y n (I / fi) (J / fj) (I mod fi) (J mod fj))%Z /\
      Y_ok Y /\ hv_ok hv.
  Proof.
    intros H1 H2 H3 H4 H5. destruct (drv_loop CartK dims out (or_introl eq_refl)) as (m' & hv & ED & R1 & R2).
    destruct nc_pos as [Hnc1 Hnc].
    destruct (out1_cart 0 Rplus Rmult sph_coef ng (v_l V i) (v_l V j) ci cj e hv dims out (buf m' 5%nat) (xv com) n1 n2 eq_refl Hli Hlj ltac:(lia) ltac:(lia) H1 H2 H3) as (out' & T1 & T2).
    - intros _. destruct dims; eauto.
    - rewrite Hnc. exact H5.
    - rewrite Hnc. exact R1.
    - exists out', hv, Yc. split; [rewrite ED, T1; reflexivity|]. split; [|split; [exact Yc_ok|exact (hv_is hv R2)]].
      rewrite Hnc in T2. eapply stored_ext; [exact T2|]. intros n I J i3 i4 Hn HI HJ _ _. cbv beta.
      destruct nf_pos as (Hnf & Hfi & Hfj). destruct (divmod_range I fi ci ltac:(lia) HI) as [D1 D2]. destruct (divmod_range J fj cj ltac:(lia) HJ) as [D3 D4].
      unfold Yc. destruct hv.
      + unfold cart2, OutSpec.batch2. change (fi * fj)%Z with (nf e). apply xv_at; try assumption. change (nf e) with (fi * fj)%Z. rewrite (Z.mul_comm fi fj). apply two_digits; assumption.
      + symmetry. apply Yv_none. intros X. apply R2 in X. discriminate.
  Qed.

  Lemma drv_sph dims out n1 n2 : let si := (v_l V i * 2 + 1)%Z in let sj := (v_l V j * 2 + 1)%Z in
    (si * ci <= n1)%Z -> (sj * cj <= n2)%Z -> dims_are dims 2 [n1; n2] [(si * ci)%Z; (sj * cj)%Z] -> (forall d, dims = Some d -> exists n, rd d 2 = Some n) ->
    room (asize out) nc n1 n2 1 1 (si * ci) (sj * cj) 1 1 ->
    exists out' hv Y, int1e_drv V ev at_ natm rys t ng i j SphK dims idx g m out = Some (out', hv) /\
      stored_block out out' nc n1 n2 1 1 (si * ci) (sj * cj) 1 1 (fun n I J _ _ =>
        apply_T 0%R Rplus Rmult sph_coef c2s_off CINTlen_cart (v_l V i) (I mod si) (fun a =>
        apply_T 0%R Rplus Rmult sph_coef c2s_off CINTlen_cart (v_l V j) (J mod sj) (fun b => Y n (I / si) (J / sj) a b)))%Z /\
      Y_ok Y /\ hv_ok hv.
  Proof.
    intros si sj H1 H2 H3 H4 H5. destruct (drv_loop SphK dims out (or_intror eq_refl)) as (m' & hv & ED & R1 & R2).
    destruct nc_pos as [Hnc1 Hnc].
    destruct (out1_sph ng (v_l V i) (v_l V j) ci cj e hv dims out (buf m' 5%nat) (xv com) n1 n2 eq_refl Hli Hlj ltac:(lia) ltac:(lia) H1 H2 H3) as (out' & T1 & T2).
    - intros _. destruct dims; eauto.
    - rewrite Hnc. exact H5.
    - rewrite Hnc. exact R1.
    - exists out', hv, Yc. split; [rewrite ED, T1; reflexivity|]. split; [|split; [exact Yc_ok|exact (hv_is hv R2)]].
      rewrite Hnc in T2. eapply stored_ext; [exact T2|]. intros n I J i3 i4 Hn HI HJ _ _. cbv beta. fold si sj.
      destruct nf_pos as (Hnf & Hfi & Hfj). destruct (divmod_range I si ci ltac:(lia) HI) as [D1 D2]. destruct (divmod_range J sj cj ltac:(lia) HJ) as [D3 D4].
      destruct hv.
      + unfold sph_ij, apply_T. apply lsum_ext. intros a Ha. f_equal. apply lsum_ext. intros b Hb. f_equal.
        unfold Yc, OutSpec.batch2. change (fi * fj)%Z with (nf e). apply xv_at; try assumption. change (nf e) with (fi * fj)%Z. rewrite (Z.mul_comm fi fj). apply two_digits; assumption.
      + symmetry. unfold apply_T. apply lsum_0R. intros a Ha. rewrite lsum_0R; [ring|]. intros b Hb. unfold Yc. rewrite Yv_none; [ring|].
        intros X. apply R2 in X. discriminate.
  Qed.

  (** ** The spinor driver *)
  Import WholeSpinSpec WholeSpinAlg WholeSpinModel.
  Lemma le01' x : (1 <= x -> 0 <= x)%Z.
  Proof. clear. lia. Qed.
  Lemma rng_eq p a b : a = b -> (0 <= p < a -> 0 <= p < b)%Z.
  Proof. intros ->. exact (fun x => x). Qed.
  Notation nspinor := SpinorSpec.nspinor.
  Notation ncart := SpinorSpec.ncart.
  Notation part := SpinorSpec.part.
  Definition Ms (u : c2s) (n : Z) (c : spin) (ic jc a b : Z) : C :=
    (ipow ((if c_im u then 1 else 0) + spin_i c) * RtoC (Yc (n * POS_E1 ng + comp_no (c_si u) c) ic jc a b))%C.
  Definition M_ok (u : c2s) (M : Z -> spin -> Z -> Z -> Z -> Z -> C) : Prop :=
    forall (a b n : nat) ic jc ti tj qs c, nth_error (cart_list (v_l V i)) a = Some ti -> nth_error (cart_list (v_l V j)) b = Some tj ->
      nth_error (spec_pairs (t_d t)) n = Some qs -> In c (IntgSpec.stored (c_si u)) ->
      exists S, contracted2 V ev kept2 i j ic jc (fun ip jp => prim_integral V ev at_ natm fam i j ip jp ti tj (spec_of (t_d t) qs c S1)) S /\
        M (Z.of_nat n) c ic jc (Z.of_nat a) (Z.of_nat b) = (RtoC facs * S)%C.
  Lemma five_fam : fam = F1e \/ fam = F1rinv \/ fam = F1nuc \/ fam = F3c2e \/ fam = F2c2e.
  Proof. tauto. Qed.
  Lemma Ms_ok u : en_c2s1 (t_e t) = Some u -> M_ok u (Ms u).
  Proof.
    intros Eu a b n ic jc ti tj qs c F1 F2 F3 F4.
    destruct (comp_at1 t ng n qs c Ht En five_fam F3) as (k & K1 & K2 & K3); [rewrite Eu; exact F4|].
    destruct (Yc_ok a b k ic jc ti tj c S1 _ F1 F2 K2) as (S & A1 & A2). exists S. split; [exact A1|].
    rewrite K3, K1, Eu in A2. exact A2.
  Qed.
  Lemma drv_spin (tR tI : Z -> R) ki kj u dims out n1 n2 : let di := nspinor ki (v_l V i) in let dj := nspinor kj (v_l V j) in
    en_spinor (t_e t) = Some f -> en_c2s1 (t_e t) = Some u -> (v_l V i <= 12)%Z -> (v_l V j <= 12)%Z ->
    (di * ci <= n1)%Z -> (dj * cj <= n2)%Z -> dims_are dims 2 [n1; n2] [(di * ci)%Z; (dj * cj)%Z] -> (forall d, dims = Some d -> exists n, rd d 2 = Some n) ->
    room (asize out) (TENSOR ng) (n1 * 2) n2 1 1 (di * ci * 2) (dj * cj) 1 1 ->
    exists out' hv M, int1e_spinor_drv V ev at_ natm rys t ng i j tR tI ki kj dims idx g m out = Some (out', hv) /\
      stored_block out out' (TENSOR ng) (n1 * 2) n2 1 1 (di * ci * 2) (dj * cj) 1 1 (fun n p J _ _ => part (p mod 2)
        (two_comp tR tI ki (v_l V i) kj (v_l V j) ((p / 2) mod di) (J mod dj) (fun a b s s' =>
          spin_sum (c_si u) s s' (fun c => M n c ((p / 2) / di) (J / dj) a b))))%Z /\
      M_ok u M /\ hv_ok hv.
  Proof.
    intros di dj Es Eu L1 L2 H1 H2 H3 H4 H5.
    destruct (shell_at i Hni) as (si & E1 & _). destruct (shell_at j Hnj) as (sj & E2 & _).
    destruct (loop_value com si sj E1 E2) as (m' & hv & EL & R1 & R2).
    destruct nc_pos as [Hnc1 Hnc]. destruct (tab_one t ng Ht En five_fam) as ([T1 T2] & _).
    assert (HE : ((if c_si u then 4 else 1) = POS_E1 ng)%Z) by (rewrite T1, Eu; cbn [sis]; rewrite stored_len; reflexivity).
    destruct (PropsSpinor.C26_1e_driver 0 1 Rplus Rmult Rminus Ropp tR tI Risz ng (v_l V i) (v_l V j) ki kj ci cj e hv dims out (buf m' 5%nat) (xv com) n1 n2 0 (c_si u) (c_im u)
      RTheory Risz_zero eq_refl (conj (proj1 Hli) L1) (conj (proj1 Hlj) L2) (le01' _ (proj2 Hni)) (le01' _ (proj2 Hnj)) (Z.eq_le_incl _ _ HE)) as (out' & P1 & P2); try assumption.
    - rewrite T2. apply Zle_0_nat.
    - intros _. destruct dims; eauto.
    - intros Hv p Hp. apply R1; [exact Hv|]. rewrite <- Hnc. revert Hp. apply (rng_eq p). unfold ncompA. ring.
    - exists out', hv, (Ms u). split; [|split; [|split; [exact (Ms_ok u Eu)|exact (hv_is hv R2)]]].
      + unfold int1e_spinor_drv, spinor_factor. rewrite Es, Eu. cbn [bind]. rewrite Hty. cbn [bind]. rewrite Eidx. cbn [bind]. rewrite E1. cbn [bind]. rewrite E2. cbn [bind].
        change (ncomp_e1 e * ncomp_tensor e)%Z with (ncompA ng). rewrite Hnc. change (i_l e) with (v_l V i). change (j_l e) with (v_l V j). rewrite Rmult_assoc. rewrite EL. cbn [bind].
        rewrite P1. reflexivity.
      + eapply stored_ext; [exact P2|]. intros n p J i3 i4 Hn Hp HJ _ _. cbv beta. fold di dj.
        destruct (spin_index p di ci Hp (proj2 Hni)) as [D1 D2]. destruct (spin_index' J dj cj HJ (proj2 Hnj)) as [D3 D4].
        assert (N1 : ncart (v_l V i) = fi) by (symmetry; apply SpinorDrv.cl_nc; lia). assert (N2 : ncart (v_l V j) = fj) by (symmetry; apply SpinorDrv.cl_nc; lia).
        destruct hv.
        * f_equal. rewrite (spin1_value tR tI (c_si u) (c_im u) ki (v_l V i) kj (v_l V j) (xv com) ci cj (POS_E1 ng) n (p / 2) J (fun c a b => Ms u n c (p / 2 / di) (J / dj) a b)); [reflexivity|].
          intros a b c Ha Hb Hc. unfold Ms. do 2 f_equal. rewrite N1, N2 in *. unfold OutSpec.batch2. change (fi * fj)%Z with (nf e). unfold Yc. apply xv_at; try assumption.
          change (nf e) with (fi * fj)%Z. rewrite (Z.mul_comm fi fj). apply two_digits; assumption.
        * symmetry. rewrite two_zero; [apply batch_R0|]. intros a b s s' _ _. apply spin_zero. intros c _. unfold Ms, Yc. rewrite Yv_none; [ring|]. intros X. apply R2 in X. discriminate.
  Qed.
End Whole.

Lemma whole1_f t : In t catalogue -> en_fam (t_e t) = F1e \/ en_fam (t_e t) = F1rinv \/ en_fam (t_e t) = F1nuc -> exists f, factor (t_e t) = Some f.
Proof.
  intros Ht Hf. pose proof (proj1 (forallb_forall _ _) whole1_checked t Ht) as C1. unfold whole1_ok in C1.
  destruct (factor (t_e t)) as [f|]; [eauto|]. destruct Hf as [E|[E|E]]; rewrite E in C1; discriminate.
Qed.
Lemma index_ok t ng li lj ci cj idx : In t catalogue -> en_fam (t_e t) = F1e \/ en_fam (t_e t) = F1rinv \/ en_fam (t_e t) = F1nuc -> ent_ng t = Some ng ->
  (0 <= li <= 15)%Z -> (0 <= lj <= 15)%Z -> (3 * nf (init_int1e ng li lj ci cj) <= asize idx)%Z -> exists idx', CINTg1e_index_xyz (init_int1e ng li lj ci cj) idx = Some idx'.
Proof.
  intros Ht Hf En Hi Hj Hs. destruct (whole1 t Ht Hf) as (_ & _ & _ & W). destruct (W ng En) as (_ & _ & NI & NJ & NE & _ & _ & NK & NL).
  destruct (IdxProof.idx_int1e ng li lj ci cj idx) as (idx' & E & _); [unfold IdxProof.ng_ok; lia|exact Hi|exact Hj|exact Hs|]. eauto.
Qed.
Lemma type_ok fam : fam = F1e \/ fam = F1rinv \/ fam = F1nuc -> exists ty, int1e_type fam = Some ty.
Proof. intros [->|[->| ->]]; cbn; eauto. Qed.

(** ** Uniqueness *)
Lemma charge_unique at_ ev ia c z P c' z' P' : (ia = -1 \/ 0 <= ia)%Z -> charge_at at_ ev ia c z P -> charge_at at_ ev ia c' z' P' -> c = c' /\ z = z' /\ P = P'.
Proof.
  intros Hi (A1 & A2) (B1 & B2). destruct Hi as [Hi|Hi].
  - destruct (A1 Hi) as (-> & -> & X). destruct (B1 Hi) as (-> & -> & Y). split; [reflexivity|]. split; [reflexivity|].
    apply FunctionalExtensionality.functional_extensionality. intros ax. rewrite X, Y. reflexivity.
  - destruct (A2 Hi) as (X & X1 & X2 & X3 & X4). destruct (B2 Hi) as (Y & Y1 & Y2 & Y3 & Y4).
    split; [|split].
    + destruct (Z.eq_dec (at_ 2%Z ia) 3) as [E|E]; [rewrite X1, Y1 by exact E|rewrite X2, Y2 by exact E]; reflexivity.
    + destruct (Z.eq_dec (at_ 2%Z ia) 2) as [E|E]; [rewrite X3, Y3 by exact E|rewrite X4, Y4 by exact E]; reflexivity.
    + apply FunctionalExtensionality.functional_extensionality. intros ax. rewrite X, Y. reflexivity.
Qed.
Lemma potential_unique at_ ev a A ia ti tj q D D' : (ia = -1 \/ 0 <= ia)%Z -> in_potential at_ ev a A ia ti tj q D -> in_potential at_ ev a A ia ti tj q D' -> D = D'.
Proof.
  intros Hi (c & z & P & W & H1 & H2 & ->) (c' & z' & P' & W' & H1' & H2' & ->). destruct (charge_unique _ _ _ _ _ _ _ _ _ Hi H1 H1') as (<- & <- & <-).
  f_equal. eapply value_unique; [|exact H2|exact H2']. intros m v w. apply term1_unique.
Qed.
Lemma prim_unique V ev at_ natm fam i j ip jp ti tj q D D' : prim_integral V ev at_ natm fam i j ip jp ti tj q D -> prim_integral V ev at_ natm fam i j ip jp ti tj q D' -> D = D'.
Proof.
  unfold prim_integral. destruct fam; try contradiction.
  - congruence.
  - apply potential_unique. left. reflexivity.
  - intros (Di & H1 & ->) (Di' & H1' & ->). apply csumz_ext. intros ia Hia. eapply potential_unique; [|exact (H1 ia Hia)|exact (H1' ia Hia)]. lia.
Qed.
Lemma contracted_unique V ev at_ natm fam i j keep ic jc ti tj q S S' :
  contracted2 V ev keep i j ic jc (fun ip jp => prim_integral V ev at_ natm fam i j ip jp ti tj q) S ->
  contracted2 V ev keep i j ic jc (fun ip jp => prim_integral V ev at_ natm fam i j ip jp ti tj q) S' -> S = S'.
Proof.
  intros (D & K & H & ->) (D' & K' & H' & ->). apply csumz_ext. intros jp Hjp. apply csumz_ext. intros ip Hip.
  destruct (H ip jp Hip Hjp) as [A B]. destruct (H' ip jp Hip Hjp) as [A' B']. rewrite (prim_unique _ _ _ _ _ _ _ _ _ _ _ _ _ _ A A').
  replace (K' ip jp) with (K ip jp); [reflexivity|]. destruct (K ip jp), (K' ip jp); try reflexivity; exfalso; assert (X : true = true) by reflexivity.
  - apply B, B' in X. discriminate.
  - apply B', B in X. discriminate.
Qed.
