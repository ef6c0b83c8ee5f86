(** Whole2c.v — the drivers of the two-centre integrals, from the tables to the caller's array. *)
From Coq Require Import Reals Lra QArith Qreals String.
From Coquelicot Require Import Coquelicot.
From Verif Require Import Base BasModel BasSpec EnvModel IdxModel IdxSpec CtrModel Loop2eModel Loop2eSpec LoopSpec Loop2eFinal Loop3Model Loop3Spec Loop3Final
  OptModel OptSpec OptProof OptPair ScreenModel ScreenSpec ScreenProof ScreenFinal OutModel OutSpec OutSetup TabModel
  OpSpec RecModel RecRModel RecSpec GaussInt Gauss2Int Rec1Real Rec2RModel Rec2Real Rec2Spec
  IntgModel IntgSpec IntgTab IntgStmt IntgCheck IntgStep IntgSem IntgFinal IntgAll IntgEx IntgOvlp IntgReal QuadSpec OperSpec OperModel OperKeep OperNuc Oper2e GiaoProof
  WholeModel WholeSim WholeBatch WholeSpec Whole1e Whole2Model Whole2Sim Whole2Zero Whole2Batch Whole2Spec Whole4c Whole3c.
From Verif Require SpinorSpec SpinorModel SpinorDrv PropsSpinor WholeSpinSpec WholeSpinAlg WholeSpinModel.
Local Open Scope R_scope.


Lemma decode2 nf ci ck n ic kc b : (0 <= b < nf -> 0 <= ic < ci -> 0 <= kc < ck ->
   let rows := nf * (ci * ck) in let p := ((n * ck + kc) * ci + ic) * nf + b in let r := p mod rows in
   p / rows = n /\ (r / nf) mod ci = ic /\ r / (nf * ci) = kc /\ r mod nf = b)%Z.
Proof.
  intros Hb H1 H3. pose proof (decode3 nf ci 1 ck n ic 0 kc b Hb H1 ltac:(lia) H3) as D. cbv zeta in D |- *. rewrite !Z.mul_1_r, !Z.add_0_r in D.
  destruct D as (D1 & D2 & _ & D5 & D6). auto.
Qed.
Lemma scratch2b L ci ck nc (b : nat -> Z) : (1 <= L -> 1 <= ci -> 1 <= ck ->
  (ci <> 1 -> L <= b 0%nat) -> (ck <> 1 -> L * ci <= b 1%nat) -> (nc <> 1 -> L * ci * ck <= b 2%nat) -> L * ci * ck <= b 5%nat ->
  b (alias ci (alias ck (alias nc 5 2) 1) 0)%nat >= L)%Z.
Proof.
  intros H0 H1 H2. pose proof (mul_up L ci H0 H1) as U1. pose proof (pos_mul L ci H0 H1) as P1. pose proof (mul_up _ ck P1 H2) as U2.
  intros B0 B1 B2 B5. unfold alias. remember (L * ci)%Z as x1. remember (x1 * ck)%Z as x2.
  destruct (Z.eqb_spec ci 1) as [?|N]; [|specialize (B0 N); lia]. destruct (Z.eqb_spec ck 1) as [?|N]; [|specialize (B1 N); lia].
  destruct (Z.eqb_spec nc 1) as [?|N]; [|specialize (B2 N); lia]. lia.
Qed.

Section Whole.
  Variables (nbas : Z) (V : view) (ev : Z -> R) (lm : Z -> Z -> R) (rys : Z -> R -> nodes) (srys : Z -> R -> R -> nodes) (t : ent) (ng : ngT) (i k : Z) (f : Z * positive).
  Notation e := (env_2c V ev t ng i k).
  Notation nc := (Z.of_nat (length (g_rows (t_f t)))).
  Notation len := (nf e * nc)%Z.
  Notation fam := (en_fam (IntgTab.t_e t)).
  Notation te := (IntgTab.t_e t).
  Notation fi := (CINTlen_cart (v_l V i)).
  Notation fk := (CINTlen_cart (v_l V k)).
  Hypothesis HG : good_shells nbas V ev lm.
  Hypothesis Hi : (0 <= i < nbas)%Z.
  Hypothesis Hk : (0 <= k < nbas)%Z.
  Hypothesis Hni : (0 <= v_np V i)%Z /\ (1 <= v_nc V i)%Z.
  Hypothesis Hnk : (0 <= v_np V k)%Z /\ (1 <= v_nc V k)%Z.
  Hypothesis Ht : In t catalogue.
  Hypothesis Hfam : fam = F2c2e.
  Hypothesis Hex : ~ In (en_name te) except_names.
  Hypothesis En : ent_ng t = Some ng.
  Hypothesis Ef : factor te = Some f.
  Hypothesis Hli : (0 <= v_l V i <= 15)%Z.
  Hypothesis Hlk : (0 <= v_l V k <= 15)%Z.
  Hypothesis Hnr : (nrys_roots e <= 32)%Z.
  Hypothesis HR : finds_roots_2e rys srys (nrys_roots e) (rys_order e) (ev 8%Z).
  Variables (idx idx' : arr Z) (gsz : Z).
  Hypothesis Hidx : (3 * nf e <= asize idx)%Z.
  Hypothesis Eidx : index_fun fam e idx = Some idx'.
  Hypothesis Hgsz : ((2 ^ GSHIFT ng + 1) * (3 * g_size e) <= gsz)%Z.
  Hypothesis Hgsz4 : (4 * g_size e <= gsz)%Z.
  Notation a ip kp := (a2 V ev i k ip kp).
  Notation A := (A2 V ev i k).
  Notation run := (run_2c V ev rys srys t ng i k idx').
  Notation G ip kp := (goes ev (a ip kp) (ctr V ev i) (ctr V ev k) (init_expcutoff Rops ev C2c2e)).
  Definition Bt (ip kp : Z) : Z -> R := qbatch len gsz (run ip kp)
    (eri_const * (overlap_factor (ex V ev i ip) 0 (ctr V ev i) (ctr V ev i) * overlap_factor (ex V ev k kp) 0 (ctr V ev k) (ctr V ev k))).
  Notation U := (user_cutoff (ev 0%Z)).
  Definition in2 (ip kp : Z) : Prop := (0 <= ip < v_np V i)%Z /\ (0 <= kp < v_np V k)%Z.

  Lemma Hul : forall c, used fam c = false -> l2 V i k c = 0%Z.
  Proof. rewrite Hfam. intros c. destruct c; try discriminate; reflexivity. Qed.
  Lemma Hlc : forall c, (0 <= l2 V i k c <= 15)%Z.
  Proof. intros c. destruct c; try assumption; cbn; lia. Qed.
  Lemma HPc : partners fam A.
  Proof. rewrite Hfam. split; reflexivity. Qed.
  Lemma Hf2 : two_fam fam.
  Proof. right. right. exact Hfam. Qed.
  Lemma exs ip kp : in2 ip kp -> 0 < ex V ev i ip /\ 0 < ex V ev k kp.
  Proof. intros (H1 & H3). destruct (HG i ip Hi H1) as [B1 _]. destruct (HG k kp Hk H3) as [B3 _]. auto. Qed.
  Lemma goes_kept ip kp : in2 ip kp -> (G ip kp = true <-> short_kept V ev i k ip kp).
  Proof.
    intros H. destruct (exs _ _ H) as (H1 & H3). unfold short_kept. rewrite <- (init_user _ C2c2e) by discriminate.
    destruct (goes ev (a ip kp) (ctr V ev i) (ctr V ev k) (init_expcutoff Rops ev C2c2e)) eqn:EG.
    - split; [|reflexivity]. intros _. destruct (Rlt_dec (ev 8%Z) 0) as [L|L]; [right|left; lra].
      assert (N : ~ (G ip kp = false)) by (rewrite EG; discriminate). rewrite goes_false in N. cbn [a2] in N. rewrite !Rplus_0_r in N.
      apply Decidable.not_and in N; [|unfold Decidable.decidable; lra]. destruct N as [N|N]; [contradiction|].
      split; apply Rnot_lt_le; intros X; apply N; [left|right]; exact X.
    - split; [discriminate|]. apply goes_false in EG. cbn [a2] in EG. rewrite !Rplus_0_r in EG. destruct EG as [L X]. intros [Y|[Y1 Y2]]; [lra|].
      destruct X as [X|X]; [apply Rle_not_lt in Y1|apply Rle_not_lt in Y2]; contradiction.
  Qed.

  Lemma batches ip kp : in2 ip kp ->
    (forall fac, adds_at len gsz (G ip kp) (Bt ip kp) fac (run ip kp)) /\
    (G ip kp = true -> is_batch4 ev t (l2 V i k) f (a ip kp) A (Bt ip kp)).
  Proof.
    intros H. destruct (exs _ _ H) as (H1 & H3). destruct HR as (R1 & R2 & R3).
    assert (Hp : 0 < ex V ev i ip + 0) by (rewrite Rplus_0_r; exact H1). assert (Hq : 0 < ex V ev k kp + 0) by (rewrite Rplus_0_r; exact H3).
    assert (Ha0 : 0 < (ex V ev i ip + 0) * (ex V ev k kp + 0) / (ex V ev i ip + 0 + (ex V ev k kp + 0))).
    { apply Rdiv_lt_0_compat; [apply Rmult_lt_0_compat; assumption|lra]. }
    apply (eri_adds ev rys srys t ng (l2 V i k) (c2 V i k) f Ht Hf2 Hex En Ef Hlc Hul Hnr R1 R2 idx idx' gsz Hidx Eidx Hgsz Hgsz4
      (a ip kp) A (ctr V ev i) (ctr V ev k) (init_expcutoff Rops ev C2c2e) HPc Hp Hq).
    - intros ax Hax. cbn [a2 A2]. field. lra.
    - intros ax Hax. cbn [a2 A2]. field. lra.
    - apply R3; [exact Ha0|]. apply Rmult_le_pos; [apply Rlt_le; exact Ha0|apply dist2_nonneg].
  Qed.

  Notation cfi := (fun ic ip => cf V ev i ip ic).
  Notation cfk := (fun kc kp => cf V ev k kp kc).
  Definition Yv (common : R) (ic kc x : Z) : R :=
    common * contract2 0 Rplus Rmult (v_np V i) (v_np V k) (fun ip kp => G ip kp) cfi cfk Bt ic kc x.

  Lemma Yv_is fv facs ic kc (n p kk : nat) ti tk s1 s2 w : at4 t (l2 V i k) n 0 p 0 kk ti no_power tk no_power s1 s2 w ->
    exists S, summed2 V ev (short_kept V ev i k) i k ic kc (fun ip kp => eri2 V ev i k ip kp ti tk w) S /\
      (cval (cqmul (qfac f) (phase te s1 s2)) * RtoC (Yv (eri_const * facs * fv) ic kc (pos4 t (l2 V i k) n 0 p 0 kk)) = RtoC (fv * facs) * S)%C.
  Proof.
    intros F. set (x := pos4 t (l2 V i k) n 0 p 0 kk).
    set (ph := cval (cqmul (qfac f) (phase te s1 s2))).
    set (D := fun ip kp => (ph * RtoC (eri_const * (overlap_factor (ex V ev i ip) 0 (ctr V ev i) (ctr V ev i) * overlap_factor (ex V ev k kp) 0 (ctr V ev k) (ctr V ev k)) * Bt ip kp x))%C).
    eexists. split.
    - exists D, (fun ip kp => G ip kp). split; [|reflexivity]. intros ip kp Hip Hkp. assert (H2 : in2 ip kp) by (split; assumption).
      split; [apply goes_kept; exact H2|]. intros K. apply (goes_kept _ _ H2) in K.
      destruct (batches ip kp H2) as [_ B].
      destruct (B K n 0%nat p 0%nat kk ti no_power tk no_power s1 s2 w F) as (D' & D1 & D2). unfold D. unfold ph, x.
      match type of D2 with ?L = _ => match goal with |- eri2 _ _ _ _ _ _ _ _ _ ?R => replace R with L by reflexivity end end.
      rewrite D2. exact D1.
    - unfold Yv, contract2. rewrite !RtoC_mult. rewrite csumz_R.
      match goal with |- (?a * (?b * ?c * ?d * ?S))%C = _ => transitivity (d * c * (a * b * S))%C; [ring|] end.
      f_equal. rewrite csumz_mul. apply csumz_ext. intros kp Hkp. rewrite csumz_R, csumz_mul. apply csumz_ext. intros ip Hip. cbv beta.
      destruct (goes _ _ _ _ _); [|ring]. unfold D. rewrite !of_absent, !RtoC_mult. ring.
  Qed.

  (** ** The loop *)
  Notation ci := (v_nc V i).
  Notation ck := (v_nc V k).
  Notation rows := (nf e * (ci * ck))%Z.
  Lemma nf_is : nf e = (fi * fk)%Z.
  Proof. unfold env_2c, env_2e. rewrite Hfam. reflexivity. Qed.
  Lemma nf_pos : (1 <= nf e)%Z /\ (1 <= fi)%Z /\ (1 <= fk)%Z.
  Proof.
    pose proof (len_cart_pos _ Hli). pose proof (len_cart_pos _ Hlk).
    split; [|auto]. rewrite nf_is. repeat apply pos_mul; assumption.
  Qed.
  Lemma nc_pos : (1 <= nc)%Z /\ ncompB ng = nc.
  Proof. destruct (whole2 t Ht Hf2) as (_ & _ & W). destruct (W ng En) as (W1 & W2). rewrite Hfam in W1, W2. unfold ncomp_of in *. unfold ncompB. lia. Qed.

  Definition xv (common : R) (p : Z) : R :=
    let r := (p mod rows)%Z in
    Yv common ((r / nf e) mod ci) (r / (nf e * ci)) (r mod nf e * nc + p / rows)%Z.
  Lemma xv_at common n ic kc b : (0 <= ic < ci)%Z -> (0 <= kc < ck)%Z -> (0 <= b < nf e)%Z ->
    xv common (((n * ck + kc) * ci + ic) * nf e + b) = Yv common ic kc (b * nc + n)%Z.
  Proof.
    intros H1 H3 Hb. destruct (decode2 (nf e) ci ck n ic kc b Hb H1 H3) as (E1 & E2 & E4 & E5).
    unfold xv. cbv zeta. rewrite E1, E2, E4, E5. reflexivity.
  Qed.

  Variables (m : mem R) (g : arr R).
  Hypothesis Hm : forall s, filled (buf m s).
  Hypothesis Hg : filled g /\ asize g = gsz.
  Hypothesis Hw0 : (ci <> 1 -> nf e * nc <= asize (buf m 0))%Z.
  Hypothesis Hw1 : (ck <> 1 -> nf e * nc * ci <= asize (buf m 1))%Z.
  Hypothesis Hw2 : (nc <> 1 -> nf e * nc * ci * ck <= asize (buf m 2))%Z.
  Hypothesis Hw5 : (rows * nc <= asize (buf m 5))%Z.
  Definition any2 : Prop := some2 (v_np V i) (v_np V k) (fun ip kp => G ip kp).

  Lemma loop_value common si sk :
    mk_shell Risz (v_np V i) (v_nc V i) (coef_arr V ev i) = Some si -> mk_shell Risz (v_np V k) (v_nc V k) (coef_arr V ev k) = Some sk ->
    exists m' ret, CINT2c2e_loop_run nc (nf e) si sk common run (set_flg m 5%nat true) g = Some (m', ret) /\
      (negb (flg m' 5%nat) = true -> reads (buf m' 5%nat) (nc * (nf e * ci * ck)) (xv common)) /\
      (negb (flg m' 5%nat) = true <-> any2).
  Proof.
    intros E1 E3. destruct (shell_at V ev (fun _ _ => 0%Z) ng i k Hli Hlk i Hni) as (si' & E1' & N1 & C1 & S1).
    destruct (shell_at V ev (fun _ _ => 0%Z) ng i k Hli Hlk k Hnk) as (sk' & E3' & N3 & C3 & S3).
    rewrite E1 in E1'. injection E1' as <-. rewrite E3 in E3'. injection E3' as <-.
    destruct nf_pos as [Hn _]. destruct nc_pos as [Hnc _]. set (m0 := set_flg m 5%nat true).
    pose proof (proj2 Hni) as Q1. pose proof (proj2 Hnk) as Q3.
    pose proof (pos_mul _ _ Hn Hnc) as Hl0. assert (Hlen : (0 <= nf e * nc)%Z) by (apply le01; exact Hl0).
    assert (HF : LoopSpec.fits m0 (scratch2 nc (nf e) si sk)).
    { intros s z. unfold scratch2, needs. rewrite C1, C3. intros X. repeat (apply in_app_or in X; destruct X as [X|X]);
      match type of X with In _ (if negb (?a =? 1)%Z then _ else _) => destruct (Z.eqb_spec a 1) as [?|D0]; cbn in X; [contradiction|destruct X as [X|[]]; injection X as <- <-; auto] end. }
    assert (H5 : caller_holds m0 (rows2 (nf e) si sk) nc (fun _ _ => 0)).
    { split; [unfold rows2; rewrite C1, C3; exact Hw5|]. cbn. discriminate. }
    pose proof (loop_2c2e 0 1 Rplus Rmult Rminus Ropp RTheory Risz Risz_zero nc (nf e) si sk sk _ _ S1 S3 (le01 _ Hn) Hnc common (mkp2 (fun ip kp => G ip kp) Bt) m0 (fun _ _ => 0) H5 HF) as HL.
    destruct HL as (m' & ret & EL & _ & _ & P1 & P2 & P3 & P4). cbn [p2_g0 p2_base] in P1, P2, P3, P4.
    unfold LoopSpec.batch2, rows2 in P4. rewrite C1, C3, N1, N3 in *.
    exists m', ret. split; [|split].
    - refine (loop2c_sim (fun s => asize (buf m s)) gsz nc (nf e) si sk common Hlen run (fun ip kp => G ip kp) Bt m0 g m' ret _ _ _ Hg EL).
      + cbv zeta. rewrite C1, C3.
        refine (scratch2b _ ci ck nc (fun s => asize (buf m s)) Hl0 Q1 Q3 Hw0 Hw1 Hw2 _).
        replace (nf e * nc * ci * ck)%Z with (rows * nc)%Z by ring. exact Hw5.
      + intros ip kp fac Hip Hkp. apply batches. rewrite N1 in Hip. rewrite N3 in Hkp. split; assumption.
      + intros s. split; [apply Hm|reflexivity].
    - intros Hv p Hp. apply negb_true_iff in Hv.
      assert (Hrw : (1 <= rows)%Z) by (apply pos_mul; [exact Hn|repeat apply pos_mul; assumption]).
      replace (nc * (nf e * ci * ck))%Z with (nc * rows)%Z in Hp by ring.
      destruct (row_split p rows nc Hrw Hp) as (Ep & Hd & Mb). unfold xv. cbv zeta. rewrite Ep at 1.
      rewrite (P4 Hv (p mod rows)%Z (p / rows)%Z Mb Hd). reflexivity.
    - rewrite negb_true_iff, P1. cbn. unfold any2. split; [intros [X|X]; [discriminate X|exact X]|intros X; right; exact X].
  Qed.

  Lemma Yv_none common ic kc x : ~ any2 -> Yv common ic kc x = 0.
  Proof.
    intros H. unfold Yv, contract2. rewrite lsum_0R; [ring|]. intros kp Hkp. apply lsum_0R. intros ip Hip. cbv beta.
    destruct (goes _ _ _ _ _) eqn:K; [|reflexivity]. exfalso. apply H. exists ip, kp. repeat split; tauto.
  Qed.
  Lemma any_kept : any2 <-> exists ip kp, in2 ip kp /\ short_kept V ev i k ip kp.
  Proof.
    split.
    - intros (ip & kp & P1 & P3 & K). assert (H : in2 ip kp) by (split; assumption). exists ip, kp. split; [exact H|]. apply goes_kept; assumption.
    - intros (ip & kp & H & K). exists ip, kp. apply (goes_kept _ _ H) in K. destruct H as (P1 & P3). auto.
  Qed.

  (** ** The driver *)
  Notation facs := (CINTcommon_fac_sp (v_l V i) * CINTcommon_fac_sp (v_l V k)).
  Variables (fv : R) (kd : kind).
  Hypothesis Hfv : entry_factor kd te = Some fv.
  Notation com := (eri_const * facs * fv).
  Definition Yc (n ic kc a c : Z) : R := Yv com ic kc ((c * fi + a) * nc + n)%Z.

  Lemma drv_loop dims out : exists m',
    int2c2e_drv V ev rys srys t ng i k kd dims idx g m out =
      (out <- CINT2c2e_drv_tail 0 Rplus Rmult sph_coef kd (negb (flg m' 5%nat)) dims out (buf m' 5%nat) e ;; Some (out, negb (flg m' 5%nat))) /\
    (negb (flg m' 5%nat) = true -> reads (buf m' 5%nat) (nc * (nf e * ci * ck)) (xv com)) /\
    (negb (flg m' 5%nat) = true <-> any2).
  Proof.
    destruct (shell_at V ev (fun _ _ => 0%Z) ng i k Hli Hlk i Hni) as (si & E1 & _).
    destruct (shell_at V ev (fun _ _ => 0%Z) ng i k Hli Hlk k Hnk) as (sk & E3 & _).
    destruct (loop_value com si sk E1 E3) as (m' & ret & EL & R1 & R2). exists m'. split; [|split; assumption].
    unfold int2c2e_drv. rewrite Hfv. cbn [bind]. rewrite Eidx. cbn [bind]. rewrite E1. cbn [bind]. rewrite E3. cbn [bind].
    destruct nc_pos as [_ Hnc].
    assert (EN : (ncomp_e1 e * ncomp_e2 e * ncomp_tensor e = nc)%Z). { rewrite <- Hnc. unfold env_2c, env_2e. rewrite Hfam. reflexivity. }
    rewrite EN.
    replace (eri_const * CINTcommon_fac_sp (v_l V i) * CINTcommon_fac_sp (v_l V k) * fv) with com by ring.
    rewrite EL. reflexivity.
  Qed.

  Definition Y_ok (Y : Z -> Z -> Z -> Z -> Z -> R) : Prop :=
    forall (n p kk : nat) ic kc ti tk s1 s2 w, nth_error (cart_list (v_l V i)) n = Some ti ->
      nth_error (cart_list (v_l V k)) p = Some tk -> nth_error (comps t) kk = Some (s1, s2, w) ->
      exists S, summed2 V ev (short_kept V ev i k) i k ic kc (fun ip kp => eri2 V ev i k ip kp ti tk w) S /\
        (cval (cqmul (qfac f) (phase te s1 s2)) * RtoC (Y (Z.of_nat kk) ic kc (Z.of_nat n) (Z.of_nat p)) = RtoC (fv * facs) * S)%C.
  Lemma Yc_ok : Y_ok Yc.
  Proof.
    intros n p kk ic kc ti tk s1 s2 w F1 F3 F5.
    destruct (Yv_is fv facs ic kc n p kk ti tk s1 s2 w) as (S & S1 & S2); [repeat split; try assumption; reflexivity|].
    exists S. split; [exact S1|]. rewrite <- S2. unfold Yc.
    assert (EP : pos4 t (l2 V i k) n 0 p 0 kk = ((Z.of_nat p * fi + Z.of_nat n) * nc + Z.of_nat kk)%Z).
    { unfold pos4. cbn [l2]. change (Z.of_nat 0) with 0%Z. rewrite cart0. change (Z.of_nat (Datatypes.length [(0, 0, 0)%Z])) with 1%Z. rewrite !len_cart_list by lia. ring. }
    rewrite EP. reflexivity.
  Qed.
  Lemma env_is : env2c ng (v_l V i) (v_l V k) ci ck e.
  Proof. exists (Rltb (ev 8%Z) 0). unfold env_2c, env_2e. rewrite Hfam. reflexivity. Qed.
  Lemma val_at n ic kc a c : (0 <= ic < ci)%Z -> (0 <= kc < ck)%Z -> (0 <= a < fi)%Z -> (0 <= c < fk)%Z ->
    OutSpec.batch2 (xv com) (fi * fk) ci ck n ic kc (c * fi + a)%Z = Yc n ic kc a c.
  Proof.
    intros. unfold OutSpec.batch2. rewrite <- nf_is. unfold Yc. apply xv_at; try assumption. rewrite nf_is, (Z.mul_comm fi fk). apply digit_bound; assumption.
  Qed.
  Definition third (dims : option (arr Z)) : Prop :=
    (exists ip kp, in2 ip kp /\ short_kept V ev i k ip kp) \/ match dims with Some d => exists n, rd d 2 = Some n | None => True end.
  Lemma dims_third hv dims : (hv = true <-> any2) -> third dims -> dims_read hv dims 2.
  Proof. intros H [X|X] E; [|exact X]. apply any_kept, H in X. rewrite X in E. discriminate. Qed.

  Lemma drv_cart dims out n1 n2 : kd = CartK ->
    (fi * ci <= n1)%Z -> (fk * ck <= n2)%Z ->
    dims_are dims 2 [n1; n2] [(fi * ci)%Z; (fk * ck)%Z] -> third dims ->
    room (asize out) nc n1 n2 1 1 (fi * ci) (fk * ck) 1 1 ->
    exists out' hv Y, int2c2e_drv V ev rys srys t ng i k CartK dims idx g m out = Some (out', hv) /\
      stored_block out out' nc n1 n2 1 1 (fi * ci) (fk * ck) 1 1
        (fun n I K _ _ => Y n (I / fi) (K / fk) (I mod fi) (K mod fk))%Z /\
      Y_ok Y /\ (hv = true <-> exists ip kp, in2 ip kp /\ short_kept V ev i k ip kp).
  Proof.
    intros Ek H1 H3 H5 HT H6. destruct (drv_loop dims out) as (m' & ED & R1 & R2). rewrite Ek in ED.
    destruct nc_pos as [Hnc1 Hnc]. set (hv := negb (flg m' 5%nat)) in *.
    destruct (out2c_cart 0 Rplus Rmult sph_coef ng (v_l V i) (v_l V k) ci ck e hv dims out (buf m' 5%nat) (xv com) n1 n2 env_is Hli Hlk
      (le01 _ (proj2 Hni)) (le01 _ (proj2 Hnk)) H1 H3 H5 (dims_third hv dims R2 HT)) as (out' & T1 & T2).
    - rewrite Hnc. exact H6.
    - rewrite Hnc. exact R1.
    - exists out', hv, Yc. split; [rewrite ED, T1; reflexivity|]. split; [|split; [exact Yc_ok|rewrite R2; exact any_kept]].
      rewrite Hnc in T2. eapply stored_ext; [exact T2|]. intros n I K J L Hn HI HK HJ HL. cbv beta.
      destruct nf_pos as (_ & Hfi & Hfk).
      destruct (dm I fi ci (Z.lt_le_trans 0 1 _ Z.lt_0_1 Hfi) HI) as [D1 D2].
      destruct (dm K fk ck (Z.lt_le_trans 0 1 _ Z.lt_0_1 Hfk) HK) as [D5 D6].
      destruct hv.
      + unfold cart2. apply val_at; assumption.
      + symmetry. apply Yv_none. intros X. apply R2 in X. discriminate.
  Qed.

  Lemma drv_sph dims out n1 n2 : kd = SphK -> let si := (v_l V i * 2 + 1)%Z in let sk := (v_l V k * 2 + 1)%Z in
    (si * ci <= n1)%Z -> (sk * ck <= n2)%Z ->
    dims_are dims 2 [n1; n2] [(si * ci)%Z; (sk * ck)%Z] -> third dims ->
    room (asize out) nc n1 n2 1 1 (si * ci) (sk * ck) 1 1 ->
    exists out' hv Y, int2c2e_drv V ev rys srys t ng i k SphK dims idx g m out = Some (out', hv) /\
      stored_block out out' nc n1 n2 1 1 (si * ci) (sk * ck) 1 1 (fun n I K _ _ =>
        apply_T 0%R Rplus Rmult sph_coef c2s_off CINTlen_cart (v_l V i) (I mod si) (fun a =>
        apply_T 0%R Rplus Rmult sph_coef c2s_off CINTlen_cart (v_l V k) (K mod sk) (fun c => Y n (I / si) (K / sk) a c)))%Z /\
      Y_ok Y /\ (hv = true <-> exists ip kp, in2 ip kp /\ short_kept V ev i k ip kp).
  Proof.
    intros Ek si sk H1 H3 H5 HT H6. destruct (drv_loop dims out) as (m' & ED & R1 & R2). rewrite Ek in ED.
    destruct nc_pos as [Hnc1 Hnc]. set (hv := negb (flg m' 5%nat)) in *.
    destruct (out2c_sph ng (v_l V i) (v_l V k) ci ck e hv dims out (buf m' 5%nat) (xv com) n1 n2 env_is Hli Hlk
      (le01 _ (proj2 Hni)) (le01 _ (proj2 Hnk)) H1 H3 H5 (dims_third hv dims R2 HT)) as (out' & T1 & T2).
    - rewrite Hnc. exact H6.
    - rewrite Hnc. exact R1.
    - exists out', hv, Yc. split; [rewrite ED, T1; reflexivity|]. split; [|split; [exact Yc_ok|rewrite R2; exact any_kept]].
      rewrite Hnc in T2. eapply stored_ext; [exact T2|]. intros n I K J L Hn HI HK HJ HL. cbv beta. fold si sk.
      destruct (dm I si ci (odd_pos _ Hli) HI) as [D1 D2]. destruct (dm K sk ck (odd_pos _ Hlk) HK) as [D5 D6].
      destruct hv.
      + unfold sph_ij, apply_T. apply lsum_ext. intros a Ha. f_equal. apply lsum_ext. intros c Hc. f_equal. apply val_at; assumption.
      + symmetry. unfold apply_T. apply lsum_0R. intros a Ha. rewrite lsum_0R; [ring|]. intros c Hc.
        unfold Yc. rewrite Yv_none; [ring|]. intros X. apply R2 in X. discriminate.
  Qed.

  (** ** The spinor driver *)
  Import WholeSpinSpec WholeSpinAlg WholeSpinModel.
  Notation nspinor := SpinorSpec.nspinor.
  Notation ncart := SpinorSpec.ncart.
  Notation part := SpinorSpec.part.
  Notation fQ := (Q2R (Qmake (fst f) (snd f))).
  Definition Ms (u : c2s) (n ic kc a c : Z) : Complex.C := (ipow ((if c_im u then 1 else 0) + spin_i S1) * RtoC (Yc n ic kc a c))%C.
  Definition M_ok (M : Z -> Z -> Z -> Z -> Z -> Complex.C) : Prop :=
    forall (a c n : nat) ic kc ti tk qs, nth_error (cart_list (v_l V i)) a = Some ti -> nth_error (cart_list (v_l V k)) c = Some tk ->
      nth_error (spec_pairs (t_d t)) n = Some qs ->
      exists S, summed2 V ev (short_kept V ev i k) i k ic kc (fun ip kp => eri2 V ev i k ip kp ti tk (spec_of (t_d t) qs S1 S1)) S /\
        M (Z.of_nat n) ic kc (Z.of_nat a) (Z.of_nat c) = (RtoC facs * S)%C.
  Lemma Ys_ok : fv = fQ -> forall (n p kk : nat) ic kc ti tk s1 s2 w, nth_error (cart_list (v_l V i)) n = Some ti ->
      nth_error (cart_list (v_l V k)) p = Some tk -> nth_error (comps t) kk = Some (s1, s2, w) ->
      exists S, summed2 V ev (short_kept V ev i k) i k ic kc (fun ip kp => eri2 V ev i k ip kp ti tk w) S /\
        (cval (phase te s1 s2) * RtoC (Yc (Z.of_nat kk) ic kc (Z.of_nat n) (Z.of_nat p)) = RtoC facs * S)%C.
  Proof.
    intros Ev n p kk ic kc ti tk s1 s2 w F1 F3 F5.
    destruct (Yv_is 1 facs ic kc n p kk ti tk s1 s2 w) as (S & A1 & A2); [repeat split; try assumption; reflexivity|].
    exists S. split; [exact A1|]. rewrite Rmult_1_l in A2. rewrite <- A2. rewrite cval_mul, cval_qfac.
    assert (EP : pos4 t (l2 V i k) n 0 p 0 kk = ((Z.of_nat p * fi + Z.of_nat n) * nc + Z.of_nat kk)%Z).
    { unfold pos4. cbn [l2]. change (Z.of_nat 0) with 0%Z. rewrite cart0. change (Z.of_nat (Datatypes.length [(0, 0, 0)%Z])) with 1%Z. rewrite !len_cart_list by lia. ring. }
    assert (EY : Yc (Z.of_nat kk) ic kc (Z.of_nat n) (Z.of_nat p) = fQ * Yv (eri_const * facs * 1) ic kc (pos4 t (l2 V i k) n 0 p 0 kk)).
    { rewrite EP. unfold Yc, Yv. rewrite Ev. ring. }
    rewrite EY, RtoC_mult. ring.
  Qed.
  Lemma five_fam : en_fam te = F1e \/ en_fam te = F1rinv \/ en_fam te = F1nuc \/ en_fam te = F3c2e \/ en_fam te = F2c2e.
  Proof. tauto. Qed.
  Lemma Ms_ok u : fv = fQ -> en_c2s1 te = Some u -> M_ok (Ms u).
  Proof.
    intros Ev E1 a c n ic kc ti tk qs F1 F3 F5. pose proof (tab_2c t Ht Hfam) as E0. destruct (tab_one t ng Ht En five_fam) as ([T1 _] & _). rewrite E0 in T1.
    destruct (comp_at1 t ng n qs S1 Ht En five_fam F5) as (kk & K1 & K2 & K3); [rewrite E0; left; reflexivity|].
    destruct (Ys_ok Ev a c kk ic kc ti tk S1 S1 _ F1 F3 K2) as (S & A1 & A2). exists S. split; [exact A1|].
    rewrite K3, K1, E0, T1, E1 in A2. change (Z.of_nat (Datatypes.length (stored false))) with 1%Z in A2. cbn [comp_no] in A2. rewrite Z.mul_1_r, Z.add_0_r in A2. exact A2.
  Qed.
  Lemma drv_spin (tR tI : Z -> R) kpi kpk u dims out n1 n2 :
    let di := nspinor kpi (v_l V i) in let dk := nspinor kpk (v_l V k) in
    fv = fQ -> en_spinor te = Some f -> en_c2s1 te = Some u ->
    (v_l V i <= 12)%Z -> (v_l V k <= 12)%Z ->
    (di * ci <= n1)%Z -> (dk * ck <= n2)%Z ->
    dims_are dims 2 [n1; n2] [(di * ci)%Z; (dk * ck)%Z] -> third dims ->
    room (asize out) (TENSOR ng) (n1 * 2) n2 1 1 (di * ci * 2) (dk * ck) 1 1 ->
    exists out' hv M, int2c2e_spinor_drv V ev rys srys t ng i k tR tI kpi kpk dims idx g m out = Some (out', hv) /\
      stored_block out out' (TENSOR ng) (n1 * 2) n2 1 1 (di * ci * 2) (dk * ck) 1 1 (fun n p K _ _ => part (p mod 2)
        (two_comp tR tI kpi (v_l V i) kpk (v_l V k) ((p / 2) mod di) (K mod dk) (fun a c r r' => spin_sum false r r' (fun _ =>
          M n ((p / 2) / di) (K / dk) a c))))%Z /\
      M_ok M /\ (hv = true <-> exists ip kp, in2 ip kp /\ short_kept V ev i k ip kp).
  Proof.
    intros di dk Ev Es Eu L1 L3 H1 H3 H5 HT H6.
    destruct (shell_at V ev (fun _ _ => 0%Z) ng i k Hli Hlk i Hni) as (si & E1 & _).
    destruct (shell_at V ev (fun _ _ => 0%Z) ng i k Hli Hlk k Hnk) as (sk & E3 & _).
    destruct (loop_value com si sk E1 E3) as (m' & ret & EL & R1 & R2).
    destruct nc_pos as [Hnc1 Hnc]. destruct (tab_one t ng Ht En five_fam) as ([T1 T2] & _ & _ & T3). specialize (T3 (or_intror Hfam)). set (hv := negb (flg m' 5%nat)) in *.
    pose proof (tab_2c t Ht Hfam) as E0. rewrite E0 in T1. change (Z.of_nat (Datatypes.length (stored false))) with 1%Z in T1.
    assert (E0' : c_si u = false) by (rewrite Eu in E0; exact E0).
    destruct (PropsSpinor.C26_2c2e_driver 0 1 Rplus Rmult Rminus Ropp tR tI Risz ng (v_l V i) (v_l V k) kpi kpk ci ck e hv dims out
      (buf m' 5%nat) (xv com) n1 n2 0 (c_im u) RTheory Risz_zero env_is (conj (proj1 Hli) L1) (conj (proj1 Hlk) L3)
      (le01 _ (proj2 Hni)) (le01 _ (proj2 Hnk)) T1 T3) as (out' & P1 & P2); try assumption.
    - rewrite T2. apply Zle_0_nat.
    - exact (dims_third hv dims R2 HT).
    - intros Hv p Hp. apply R1; [exact Hv|]. rewrite <- Hnc. revert Hp. apply (rng_eq p). unfold ncompB. rewrite T1, T3. ring.
    - exists out', hv, (Ms u). split; [|split; [|split; [exact (Ms_ok u Ev Eu)|rewrite R2; exact any_kept]]].
      + unfold int2c2e_spinor_drv, spinor_factor. rewrite Es, Eu. cbn [bind]. rewrite Eidx. cbn [bind]. rewrite E1. cbn [bind]. rewrite E3. cbn [bind].
        assert (EN : (ncomp_e1 e * ncomp_e2 e * ncomp_tensor e = nc)%Z). { rewrite <- Hnc. unfold env_2c, env_2e. rewrite Hfam. reflexivity. }
        rewrite EN. rewrite <- Ev.
        replace (eri_const * CINTcommon_fac_sp (v_l V i) * CINTcommon_fac_sp (v_l V k) * fv) with com by ring.
        rewrite EL. cbn [bind]. fold hv. rewrite E0', P1. reflexivity.
      + eapply stored_ext; [exact P2|]. intros n p K J L Hn Hp HK HJ HL. cbv beta. fold di dk.
        destruct (spin_index p di ci Hp (proj2 Hni)) as [D1 D2]. destruct (spin_index' K dk ck HK (proj2 Hnk)) as [D5 D6].
        assert (N1 : ncart (v_l V i) = fi) by (symmetry; apply SpinorDrv.cl_nc; exact Hli). assert (N3 : ncart (v_l V k) = fk) by (symmetry; apply SpinorDrv.cl_nc; exact Hlk).
        destruct hv.
        * f_equal. rewrite (spin1_value tR tI false (c_im u) kpi (v_l V i) kpk (v_l V k) (xv com) ci ck 1 n (p / 2) K
            (fun _ a c => Ms u n (p / 2 / di) (K / dk) a c)); [reflexivity|].
          intros a c s Ha Hc Hs. cbn [stored In] in Hs. destruct Hs as [<-|[]]. unfold Ms. do 2 f_equal. cbn [comp_no]. rewrite Z.mul_1_r, Z.add_0_r.
          rewrite N1, N3 in *. apply val_at; assumption.
        * symmetry. rewrite two_zero; [apply batch_R0|]. intros a c r r' _ _. apply spin_zero. intros s _.
          unfold Ms, Yc. rewrite Yv_none; [ring|]. intros X. apply R2 in X. discriminate.
  Qed.
End Whole.

Lemma summed2_unique V ev keep i k ic kc ti tk w S S' :
  summed2 V ev keep i k ic kc (fun ip kp => eri2 V ev i k ip kp ti tk w) S ->
  summed2 V ev keep i k ic kc (fun ip kp => eri2 V ev i k ip kp ti tk w) S' -> S = S'.
Proof.
  intros (D & K & H & ->) (D' & K' & H' & ->). apply csumz_ext. intros kp Hkp. apply csumz_ext. intros ip Hip.
  destruct (H ip kp Hip Hkp) as [A B]. destruct (H' ip kp Hip Hkp) as [A' B'].
  destruct (K ip kp) eqn:E; destruct (K' ip kp) eqn:E'.
  - f_equal. eapply value_unique; [|exact (B (proj1 A eq_refl))|exact (B' (proj1 A eq_refl))]. intros m v w0. apply term2_unique.
  - discriminate (proj2 A' (proj1 A eq_refl)).
  - discriminate (proj2 A (proj1 A' eq_refl)).
  - reflexivity.
Qed.
