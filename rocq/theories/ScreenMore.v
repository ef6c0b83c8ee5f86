(** ScreenMore.v — screening in the other classes; witnesses. *)
From Coq Require Import Reals Lra.
From Verif Require Import Base BasSpec EnvModel CtrModel LoopSpec Loop2eModel Loop2eSpec Loop2eFinal Loop3Model Loop3Spec Loop3Final
  OptModel OptSpec OptProof OptPair ScreenModel ScreenSpec ScreenProof ScreenFinal.

Section More.
  Open Scope R_scope.
  Variables (nbas : Z) (V : view) (ev : Z -> R) (lm : Z -> Z -> R).
  Hypothesis HG : good_shells nbas V ev lm.
  Notation ex := (ex V ev). Notation ctr := (ctr V ev).
  Notation est := (pair_est V ev lm).
  Notation U := (user_cutoff (ev 0%Z)).

  (** ** three-centre two-electron integrals *)
  Lemma sr_extra_nonneg i j lij : 0 < ex i (v_np V i - 1) -> 0 < ex j (v_np V j - 1) -> (0 < lij)%Z -> 0 <= sr_extra Rops V ev i j lij.
  Proof.
    intros H1 H2 H3. unfold sr_extra. rewrite rr_R. cbn [fadd fmul fdiv fsqrt flog fofZ f1 Rops].
    fold (ex i (v_np V i - 1)) in *. unfold ex_. fold (ex i (v_np V i - 1)%Z) (ex j (v_np V j - 1)%Z).
    set (d := sqrt _). assert (D : 0 <= d) by apply sqrt_pos. clearbody d.
    set (a := ex i (v_np V i - 1)%Z) in *. set (b := ex j (v_np V j - 1)%Z) in *. clearbody a b.
    set (o := ev 8%Z * ev 8%Z). assert (O : 0 <= o) by apply Rle_0_sqr. clearbody o.
    apply Rmult_le_pos; [apply IZR_le; lia|].
    assert (T : 0 <= o / (o + (a + b))) by (apply Rmult_le_pos; [exact O|left; apply Rinv_0_lt_compat; lra]).
    assert (X : 1 <= (d + o / (o + (a + b)) * 8 + 1) / (d + 1)).
    { set (t := o / (o + (a + b))) in *. clearbody t. apply (Rmult_le_reg_r (d + 1)); [lra|]. unfold Rdiv.
      rewrite (Rmult_assoc _ (/ (d + 1))), Rinv_l by lra. lra. }
    rewrite <- ln_1. destruct X as [X|X]; [left; apply ln_increasing; [lra|exact X]|rewrite <- X; right; reflexivity].
  Qed.

  Section T3.
    Variables (ng : ngT) (i j k order : Z).
    Variable kern : Z -> Z -> Z -> point (F := R) -> Z -> R.
    Hypothesis Hi : (0 <= i < nbas)%Z.
    Hypothesis Hj : (0 <= j < nbas)%Z.
    Notation t1 := (int3c2e_nopt Rops V ev ng i j k order kern).
    Notation t2 s := (int3c2e_opt Rops V ev s ng i j k order kern).
    Notation Lij := (v_l V i + IINC ng + (v_l V j + JINC ng))%Z.

    Lemma expcut3_ge : 0 < ex i (v_np V i - 1) -> 0 < ex j (v_np V j - 1) ->
      U <= expcut_3c2e Rops V ev i j k (v_l V i + IINC ng) (v_l V j + JINC ng) 0 order (init_expcutoff Rops ev C3c2e).
    Proof.
      intros H1 H2. rewrite init_user by discriminate. unfold expcut_3c2e. cbn [fadd Rops].
      destruct (_ && _); [|lra]. change (0 <? 0)%Z with false. cbv iota.
      destruct (0 <? _)%Z eqn:E; [|lra]. apply Z.ltb_lt in E.
      pose proof (sr_extra_nonneg i j _ H1 H2 E). lra.
    Qed.

    Variables (ip jp kp : Z).
    Hypothesis Pi : (0 <= ip < v_np V i)%Z.
    Hypothesis Pj : (0 <= jp < v_np V j)%Z.

    Lemma last_pos i0 p : (0 <= i0 < nbas)%Z -> (0 <= p < v_np V i0)%Z -> 0 < ex i0 (v_np V i0 - 1).
    Proof. intros A B. apply (ex_pos _ _ _ _ HG); lia. Qed.

    Lemma t1_iff : contributes3 t1 ip jp kp <-> est i j Lij ip jp < U /\ t_g0 t1 ip jp kp = true.
    Proof.
      pose proof (expcut3_ge (last_pos i ip Hi Pi) (last_pos j jp Hj Pj)) as G.
      unfold contributes3, int3c2e_nopt, t_nopt, t_of in *. cbn [t_empty t_skip t_g0 t_e flt Rops].
      rewrite (entry_e _ _ _ _ HG), (entry_cce _ _ _ _ HG) by assumption. rewrite ltb_le.
      rewrite init_user in * by discriminate.
      split; [intros (_ & _ & A & B); split; assumption|intros [A B]].
      split; [|split; [lra|split; assumption]].
      apply (nonempty_R _ _ _ _ HG i j _ _ _ Hi Hj ip jp); assumption.
    Qed.

    Lemma t1_plain : 0 <= ev 8%Z -> (contributes3 t1 ip jp kp <-> est i j Lij ip jp < U).
    Proof.
      intros Hom. rewrite t1_iff. unfold int3c2e_nopt, t_nopt, t_of. cbn [t_g0]. rewrite g0_plain by exact Hom. tauto.
    Qed.

    Lemma t_same s : (KINC ng + LINC ng <= IINC ng + JINC ng)%Z ->
      (contributes3 t1 ip jp kp <-> contributes3 (t2 s) ip jp kp) /\
      (contributes3 t1 ip jp kp -> t_e t1 ip jp = t_e (t2 s) ip jp /\ forall n, t_base t1 ip jp kp n = t_base (t2 s) ip jp kp n).
    Proof.
      intros Hng. destruct s; [|split; [reflexivity|intros _; split; reflexivity]].
      assert (EL : (v_l V i + v_l V j + Z.max (IINC ng + JINC ng) (KINC ng + LINC ng))%Z = Lij) by lia.
      assert (K : est i j Lij ip jp < U ->
        pd_centre (entry Rops V ev i j (v_l V i + IINC ng) (v_l V j + JINC ng) (init_expcutoff Rops ev C3c2e) ip jp) =
        pd_centre (stored_pair Rops V ev ng i j ip jp) /\
        eij (entry Rops V ev i j (v_l V i + IINC ng) (v_l V j + JINC ng) (init_expcutoff Rops ev C3c2e) ip jp) =
        eij (stored_pair Rops V ev ng i j ip jp)).
      { intros Lt.
        destruct (entry_R _ _ _ _ HG i j (v_l V i + IINC ng) (v_l V j + JINC ng) (init_expcutoff Rops ev C3c2e) Hi Hj ip jp Pi Pj) as (_ & A & _).
        destruct (stored_R _ _ _ _ HG ng i j Hi Hj ip jp Pi Pj) as (_ & B & _). rewrite EL in B.
        rewrite init_user in * by discriminate. destruct (A Lt) as (A0 & A1 & A2 & A3). destruct (B Lt) as (B0 & B1 & B2 & B3).
        unfold pd_centre. rewrite A0, A1, A2, A3, B0, B1, B2, B3. split; reflexivity. }
      assert (CE : cceij (stored_pair Rops V ev ng i j ip jp) = est i j Lij ip jp) by (rewrite (stored_cce _ _ _ _ HG) by assumption; rewrite EL; reflexivity).
      assert (EE : eij (stored_pair Rops V ev ng i j ip jp) <> 0 <-> est i j Lij ip jp < U) by (rewrite (stored_e _ _ _ _ HG) by assumption; rewrite EL; reflexivity).
      assert (S : contributes3 t1 ip jp kp <-> contributes3 (t2 true) ip jp kp).
      { rewrite t1_iff. pose proof (expcut3_ge (last_pos i ip Hi Pi) (last_pos j jp Hj Pj)) as G.
        unfold contributes3, int3c2e_opt, t_opt, int3c2e_nopt, t_nopt, t_of in *. cbn [t_empty t_skip t_g0 t_e flt Rops].
        rewrite EE, CE, ltb_le. rewrite (entry_cce _ _ _ _ HG) by assumption.
        split.
        - intros [A B]. destruct (K A) as [K1 _]. rewrite K1 in B. split; [|split; [lra|split; assumption]].
          apply (stored_val _ _ _ _ HG ng i j Hi Hj ip jp Pi Pj). rewrite EL. exact A.
        - intros (_ & _ & A & B). destruct (K B) as [K1 _]. rewrite K1. split; assumption. }
      split; [exact S|]. intros Ct. apply t1_iff in Ct. destruct (K (proj1 Ct)) as [K1 K2].
      unfold int3c2e_opt, t_opt, int3c2e_nopt, t_nopt, t_of. cbn [t_e t_base]. rewrite K1, K2. split; [reflexivity|intros; reflexivity].
    Qed.
  End T3.

  (** ** one-electron integrals *)
  Lemma one_iff c i j lic ljc ip jp : c <> C2e -> (0 <= i < nbas)%Z -> (0 <= j < nbas)%Z ->
    (0 <= ip < v_np V i)%Z -> (0 <= jp < v_np V j)%Z ->
    (reaches_1e Rops V ev c i j lic ljc ip jp = true /\ factor_1e Rops V ev c i j lic ljc ip jp <> 0 <-> est i j (lic + ljc) ip jp < U).
  Proof.
    intros Hc Hi Hj Pi Pj. unfold reaches_1e, factor_1e. cbn [flt Rops].
    rewrite (entry_e _ _ _ _ HG), (entry_cce _ _ _ _ HG) by assumption. rewrite andb_true_iff, !negb_true_iff, ltb_le.
    rewrite init_user by exact Hc. split; [tauto|]. intros A. split; [|exact A]. split; [|lra].
    apply (nonempty_R _ _ _ _ HG i j _ _ _ Hi Hj ip jp); assumption.
  Qed.

  (** ** two-centre integrals *)
  Lemma two_centre i k ip kp : reaches_2c2e Rops V ev i k ip kp = true <->
    (ev 8%Z < 0 ->
       let a0 := ex i ip * ex k kp / (ex i ip + ex k kp) in
       ev 8%Z * ev 8%Z / (ev 8%Z * ev 8%Z + a0) * (a0 * dist_sq (ctr i) (ctr k)) <= 40).
  Proof.
    unfold reaches_2c2e, g0_2e_ret. cbn [feq flt f0 fsub fadd fmul fdiv fofZ Rops]. unfold Reqb.
    destruct (Req_EM_T (ev 8%Z) 0) as [E|N]; [split; [intros _ ?; lra|reflexivity]|].
    unfold Rltb at 1. destruct Rlt_dec as [L|G]; [|split; [intros _ ?; lra|reflexivity]].
    rewrite negb_true_iff, orb_false_iff, !ltb_le. cbv zeta. unfold ex_. fold (ex i ip) (ex k kp).
    pose proof (init_ge40 ev C2c2e) as G40.
    replace ((ev (v_xyz V i + 0)%Z - ev (v_xyz V k + 0)%Z) * (ev (v_xyz V i + 0)%Z - ev (v_xyz V k + 0)%Z) +
      (ev (v_xyz V i + 1)%Z - ev (v_xyz V k + 1)%Z) * (ev (v_xyz V i + 1)%Z - ev (v_xyz V k + 1)%Z) +
      (ev (v_xyz V i + 2)%Z - ev (v_xyz V k + 2)%Z) * (ev (v_xyz V i + 2)%Z - ev (v_xyz V k + 2)%Z)) with (dist_sq (ctr i) (ctr k))
      by (unfold dist_sq, OptPair.ctr; ring).
    split; [intros [_ A] _; exact A|intros A; specialize (A L); split; lra].
  Qed.

  (** ** three- and four-centre one-electron integrals *)
  Lemma three_centre i j k ip jp kp : reaches_3c1e Rops V ev i j k ip jp kp = true <->
    (ex i ip * ex j jp * dist_sq (ctr i) (ctr j) + ex i ip * ex k kp * dist_sq (ctr i) (ctr k) + ex j jp * ex k kp * dist_sq (ctr j) (ctr k))
      / (ex i ip + ex j jp + ex k kp) <= 60.
  Proof. unfold reaches_3c1e. cbn [flt fadd fmul fdiv fofZ Rops]. rewrite negb_true_iff, ltb_le. unfold ex_. rewrite !rr_R. reflexivity. Qed.

  (** centre of charge of two primitives *)
  Definition mid (i j ip jp c : Z) : R := (ex i ip * ctr i c + ex j jp * ctr j c) / (ex i ip + ex j jp).
  Definition pair_exponent (i j ip jp : Z) : R := ex i ip * ex j jp / (ex i ip + ex j jp) * dist_sq (ctr i) (ctr j).

  Lemma four_centre i j k l ip jp kp lp : 0 < ex i ip -> 0 < ex j jp -> 0 < ex k kp -> 0 < ex l lp ->
    (reaches_4c1e Rops V ev i j k l ip jp kp lp = true <->
     pair_exponent i j ip jp + pair_exponent k l kp lp +
       (ex i ip + ex j jp) * (ex k kp + ex l lp) / (ex i ip + ex j jp + (ex k kp + ex l lp)) * dist_sq (mid i j ip jp) (mid k l kp lp) <= 60).
  Proof.
    intros A B C D. unfold reaches_4c1e. cbn [flt fadd fsub fmul fdiv fofZ Rops]. rewrite !rr_R. unfold ex_. cbv zeta.
    fold (ex i ip) (ex j jp) (ex k kp) (ex l lp).
    assert (P : forall a b x, 0 < a -> 0 < b -> x * a * b / (a + b) = a * b / (a + b) * x) by (intros; field; lra).
    rewrite !P by assumption. fold (pair_exponent i j ip jp) (pair_exponent k l kp lp).
    assert (NN : forall a b x, 0 < a -> 0 < b -> 0 <= x -> 0 <= a * b / (a + b) * x).
    { intros a b x a0 b0 x0. apply Rmult_le_pos; [|exact x0]. left. apply Rmult_lt_0_compat; [nra|]. apply Rinv_0_lt_compat. lra. }
    assert (DS : forall x y, 0 <= dist_sq x y) by (intros; unfold dist_sq; repeat apply Rplus_le_le_0_compat; apply pow2_ge_0).
    pose proof (NN _ _ _ A B (DS (ctr i) (ctr j))) as N1. fold (pair_exponent i j ip jp) in N1.
    pose proof (NN _ _ _ C D (DS (ctr k) (ctr l))) as N2. fold (pair_exponent k l kp lp) in N2.
    pose proof (NN (ex i ip + ex j jp) (ex k kp + ex l lp) _ ltac:(lra) ltac:(lra) (DS (mid i j ip jp) (mid k l kp lp))) as N3.
    match goal with |- context [negb (Rltb 60 (?u + _))] => set (x := u) end.
    assert (X : x = (ex i ip + ex j jp) * (ex k kp + ex l lp) / (ex i ip + ex j jp + (ex k kp + ex l lp)) * dist_sq (mid i j ip jp) (mid k l kp lp)).
    { unfold x, dist_sq, mid, centre, ex_. cbn [fadd fmul fdiv Rops]. unfold OptPair.ctr, OptPair.ex. ring. }
    rewrite <- X in *. clearbody x. unfold Rltb. repeat destruct Rlt_dec; split; intros; try reflexivity; try discriminate; try lra.
  Qed.
End More.

(** ** Witnesses: four shells with one primitive each, exponent 1/2, coefficient 1 *)
Definition w_V (la : Z) : view :=
  mkview (fun i => if i <? 2 then la else 0) (fun _ => 1) (fun _ => 1) (fun _ => 32) (fun _ => 33) (fun i => 20 + 3 * i).
Definition w_ev (u om : R) (pts : Z -> Z -> R) (x : Z) : R :=
  if x =? 0 then u else if x =? 8 then om else if x =? 32 then (/ 2)%R else if x =? 33 then 1%R
  else if (20 <=? x) && (x <? 32) then pts ((x - 20) / 3) ((x - 20) mod 3) else 0%R.
Definition at_ (a b c : R) (x : Z) : R := if x =? 0 then a else if x =? 1 then b else c.

Section Witness.
  Open Scope R_scope.
  Variables (la : Z) (u om : R) (pts : Z -> Z -> R).
  Notation V := (w_V la). Notation ev := (w_ev u om pts).

  Lemma w_good : good_shells 4 V ev (fun _ _ => 0).
  Proof.
    intros i p Hi Hp. cbn in Hp. replace p with 0%Z by lia. unfold ex. cbn [w_V v_exp]. change (ev (32 + 0)%Z) with (/ 2).
    split; [lra|]. exists 1. split; [lra|]. split.
    - intros k Hk. cbn in Hk. replace k with 0%Z by lia. change (cf V ev i 0 0) with 1. rewrite Rabs_R1. lra.
    - split; [|symmetry; exact ln_1]. exists 0%Z. split; [cbn; lia|]. change (cf V ev i 0 0) with 1. apply Rabs_R1.
  Qed.
  Lemma w_ctr i c : (0 <= i < 4)%Z -> (0 <= c < 3)%Z -> ctr V ev i c = pts i c.
  Proof.
    intros Hi Hc. unfold ctr. cbn [w_V v_xyz]. unfold w_ev.
    destruct (Z.eqb_spec (20 + 3 * i + c) 0); [lia|]. destruct (Z.eqb_spec (20 + 3 * i + c) 8); [lia|].
    destruct (Z.eqb_spec (20 + 3 * i + c) 32); [lia|]. destruct (Z.eqb_spec (20 + 3 * i + c) 33); [lia|].
    destruct (Z.leb_spec 20 (20 + 3 * i + c)); [|lia]. destruct (Z.ltb_spec (20 + 3 * i + c) 32); [|lia].
    cbn [andb]. replace (20 + 3 * i + c - 20)%Z with (c + i * 3)%Z by lia.
    rewrite Z.div_add, Z.mod_add, Z.div_small, Z.mod_small by lia. reflexivity.
  Qed.
  Lemma w_dist i j : (0 <= i < 4)%Z -> (0 <= j < 4)%Z -> dist_sq (ctr V ev i) (ctr V ev j) = dist_sq (pts i) (pts j).
  Proof. intros Hi Hj. unfold dist_sq. rewrite !w_ctr by lia. reflexivity. Qed.
  Lemma w_est i j L : (0 <= i < 4)%Z -> (0 <= j < 4)%Z -> pair_est V ev (fun _ _ => 0) i j L 0 0 =
    dist_sq (pts i) (pts j) / 4 - 17 / 10 -
    (if (0 <? L)%Z then IZR L * ln (sqrt (dist_sq (pts i) (pts j)) + (if Rlt_dec om 0 then om * om / (om * om + 1) * 8 else 0) + 1) else 0).
  Proof.
    intros Hi Hj. unfold pair_est, estimate, log_size. rewrite w_dist by assumption.
    change (ex V ev i 0) with (/ 2). change (ex V ev j 0) with (/ 2). change (last_ex V ev i) with (/ 2). change (last_ex V ev j) with (/ 2).
    change (ev 8%Z) with om. replace (/ 2 + / 2) with 1 by lra. rewrite ln_1. destruct (0 <? L)%Z; lra.
  Qed.
End Witness.

Definition ng0 : ngT := mkng 0 0 0 0 0 1 1 1.
Definition ng_i : ngT := mkng 1 0 0 0 1 1 1 3.
(** the second shell away from the other three / the fourth on the opposite side of the third *)
Definition w_far (i : Z) : Z -> R := if i =? 1 then at_ 14 3 2 else at_ 0 0 0.
Definition w_opp (i : Z) : Z -> R := if i =? 2 then at_ 7 (7 / 2) 1 else if i =? 3 then at_ (-7) (- (7 / 2)) (-1) else at_ 0 0 0.
Definition kern0 : Z -> Z -> Z -> Z -> point (F := R) -> point (F := R) -> Z -> R := fun _ _ _ _ _ _ _ => 1%R.

Section Facts.
  Open Scope R_scope.
  Lemma far01 : dist_sq (w_far 0) (w_far 1) = 209. Proof. unfold dist_sq. cbn. lra. Qed.
  Lemma far23 : dist_sq (w_far 2) (w_far 3) = 0. Proof. unfold dist_sq. cbn. lra. Qed.
  Lemma opp01 : dist_sq (w_opp 0) (w_opp 1) = 0. Proof. unfold dist_sq. cbn. lra. Qed.
  Lemma opp23 : dist_sq (w_opp 2) (w_opp 3) = 249. Proof. unfold dist_sq. cbn. lra. Qed.
  Lemma cut50 f : cutoff_2e f 50 = if f then 50 else 51.
  Proof. unfold cutoff_2e, user_cutoff. destruct (Req_EM_T 50 0); [lra|]. rewrite Rmax_right by lra. destruct f; lra. Qed.
  Lemma user50 : user_cutoff 50 = 50.
  Proof. unfold user_cutoff. destruct (Req_EM_T 50 0); [lra|]. apply Rmax_right. lra. Qed.
  Lemma user0 : user_cutoff 0 = 60.
  Proof. unfold user_cutoff. destruct (Req_EM_T 0 0); [reflexivity|lra]. Qed.
  Lemma cut0 f : cutoff_2e f 0 = 60.
  Proof. unfold cutoff_2e. rewrite user0. destruct f; [reflexivity|]. destruct (Req_EM_T 0 0); [reflexivity|lra]. Qed.
  Lemma ln5 x : 3 < x -> 1 < ln x.
  Proof. intros H. rewrite <- (ln_exp 1). apply ln_increasing; [apply exp_pos|]. pose proof exp_le_3. lra. Qed.

  Lemma wit_user : contributes (int2e_nopt Rops (w_V 0) (w_ev 50 0 w_far) false ng0 0 1 2 3 1 kern0) 0 0 0 0 /\
    ~ contributes (int2e_opt Rops (w_V 0) (w_ev 50 0 w_far) true false ng0 0 1 2 3 kern0) 0 0 0 0 /\
    user_cutoff 50 < pair_est (w_V 0) (w_ev 50 0 w_far) (fun _ _ => 0) 0 1 0 0 0.
  Proof.
    pose proof (w_good 0 50 0 w_far) as G.
    rewrite (nopt_iff 4 _ _ _ G), (opt_table_iff 4 _ _ _ G) by (cbn; try lia; lra).
    rewrite !w_est by lia. rewrite far01, far23. change (w_ev 50 0 w_far 0%Z) with 50. rewrite cut50, user50. cbn [w_V v_l ng0 IINC JINC KINC LINC].
    cbn. repeat split; lra.
  Qed.

  Lemma wit_deriv : ~ contributes (int2e_nopt Rops (w_V 0) (w_ev 0 0 w_opp) false ng_i 0 1 2 3 1 kern0) 0 0 0 0 /\
    contributes (int2e_opt Rops (w_V 0) (w_ev 0 0 w_opp) true false ng_i 0 1 2 3 kern0) 0 0 0 0.
  Proof.
    pose proof (w_good 0 0 0 w_opp) as G.
    rewrite (nopt_iff 4 _ _ _ G), (opt_table_iff 4 _ _ _ G) by (cbn; try lia; lra).
    rewrite !w_est by lia. rewrite opp01, opp23. change (w_ev 0 0 w_opp 0%Z) with 0. rewrite cut0, user0. cbn [w_V v_l ng_i IINC JINC KINC LINC].
    cbn -[Rlt_dec]. destruct (Rlt_dec 0 0); [lra|]. rewrite sqrt_0, !Rplus_0_r, Rplus_0_l, ln_1.
    assert (3 < sqrt 249 + 1). { assert (3 < sqrt 249); [|lra]. replace 3 with (sqrt (3 * 3)) by (apply sqrt_square; lra). apply sqrt_lt_1; lra. }
    pose proof (ln5 (sqrt 249 + 1) H). repeat split; try lra.
  Qed.
End Facts.

Section Short.
  Open Scope R_scope.
  Notation V := (w_V 1). Notation ev := (w_ev 0 (-1) w_opp).
  Notation lm := (fun _ _ : Z => 0).

  Lemma sr_cc : ccekl_of Rops V ev 2 3 0 0 2 0 0 = 60 + 11 / 20.
  Proof.
    pose proof (w_good 1 0 (-1) w_opp) as G. unfold ccekl_of.
    rewrite (ekl_R 4 _ _ _ G), (lm_is _ _ _ _ G 2 0), (lm_is _ _ _ _ G 3 0) by (cbn; lia).
    rewrite w_dist, opp23 by lia. unfold log_rr_kl, ex_.
    change (ev (v_exp V 2 + (v_np V 2 - 1))%Z) with (/ 2). change (ev (v_exp V 3 + (v_np V 3 - 1))%Z) with (/ 2).
    change (ex V ev 2 0) with (/ 2). change (ex V ev 3 0) with (/ 2). change (ev 8%Z) with (-1).
    change ((1 <? 2)%Z && (0 <? 0 + 0)%Z) with false. change (0 <? 0 + 0)%Z with false.
    cbn [fsub fadd fmul fdiv flog flt f0 f1_7 f1_5 Rops]. replace (/ 2 + / 2) with 1 by lra. rewrite ln_1. destruct (Rltb _ _); lra.
  Qed.
  Lemma sr_ex : sr_extra Rops V ev 0 1 2 = 2 * ln 5.
  Proof.
    unfold sr_extra, ex_. rewrite rr_R, w_dist, opp01 by lia.
    change (ev (v_exp V 0 + (v_np V 0 - 1))%Z) with (/ 2). change (ev (v_exp V 1 + (v_np V 1 - 1))%Z) with (/ 2). change (ev 8%Z) with (-1).
    cbn [fadd fmul fdiv flog fsqrt fofZ f1 Rops]. rewrite sqrt_0. f_equal. f_equal. field.
  Qed.
  Lemma sr_est : pair_est V ev lm 0 1 2 0 0 = - (17 / 10) - 2 * ln 5.
  Proof.
    rewrite w_est by lia. rewrite opp01, sqrt_0. change (0 <? 2)%Z with true. cbv iota. destruct Rlt_dec; [|lra].
    replace (0 + -1 * -1 / (-1 * -1 + 1) * 8 + 1) with 5 by field. lra.
  Qed.

  Lemma wit_short : contributes (int2e_nopt Rops V ev false ng0 0 1 2 3 2 kern0) 0 0 0 0 /\
    ~ contributes (int2e_opt Rops V ev true false ng0 0 1 2 3 kern0) 0 0 0 0.
  Proof.
    pose proof (w_good 1 0 (-1) w_opp) as G. pose proof (ln5 5 ltac:(lra)) as L5.
    assert (CU : init_expcutoff Rops ev (if false then Cf12 else C2e) = 60) by (rewrite (cut2e_is ev false); apply cut0).
    assert (EX : expcut_nopt Rops V ev 0 1 1 1 2 60 = 60 + 2 * ln 5).
    { unfold expcut_nopt. change (ev 8%Z) with (-1). cbn [flt f0 fadd Rops]. replace (Rltb (-1) 0) with true by (unfold Rltb; destruct Rlt_dec; [reflexivity|lra]).
      change (0 <? 1 + 1)%Z with true. change (1 <? 2)%Z with true. cbn [andb]. change (1 + 1)%Z with 2%Z. rewrite sr_ex. reflexivity. }
    split.
    - unfold contributes, survives, int2e_nopt, q_nopt. rewrite CU. cbn [pair_empty skip_kl skip_ij g0 e_ij e_kl].
      change (v_l V 0 + IINC ng0)%Z with 1%Z. change (v_l V 1 + JINC ng0)%Z with 1%Z. change (v_l V 2 + KINC ng0)%Z with 0%Z. change (v_l V 3 + LINC ng0)%Z with 0%Z.
      rewrite sr_cc, EX. rewrite (entry_cce _ _ _ _ G) by (cbn; lia). change (1 + 1)%Z with 2%Z. rewrite sr_est. cbn [flt fsub fexp fneg Rops].
      rewrite prod_nz, (entry_e _ _ _ _ G) by (cbn; lia). change (1 + 1)%Z with 2%Z. rewrite sr_est.
      rewrite !andb_true_iff, !negb_true_iff, !ltb_le.
      split; [|split; [lra|apply Rgt_not_eq, exp_pos]]. split; [|split; [lra|split; [lra|]]].
      + apply (nonempty_R _ _ _ _ G 0 1 _ _ _ ltac:(lia) ltac:(lia) 0 0); [cbn; lia|cbn; lia|]. change (1 + 1)%Z with 2%Z. rewrite sr_est. lra.
      + destruct (entry_R _ _ _ _ G 0 1 1 1 60 ltac:(lia) ltac:(lia) 0 0 ltac:(cbn; lia) ltac:(cbn; lia)) as (_ & A & _).
        specialize (A ltac:(change (pair_est V ev lm 0 1 2 0 0 < 60); rewrite sr_est; lra)). destruct A as (A0 & A1 & A2 & _).
        unfold pd_centre. rewrite A0, A1, A2. rewrite !w_ctr by lia.
        unfold centre, ex_. change (ev (v_exp V 2 + 0)%Z) with (/ 2). change (ev (v_exp V 3 + 0)%Z) with (/ 2).
        fold (ctr V ev 2 0) (ctr V ev 2 1) (ctr V ev 2 2) (ctr V ev 3 0) (ctr V ev 3 1) (ctr V ev 3 2). rewrite !w_ctr by lia.
        unfold g0_2e_ret. change (ev 8%Z) with (-1). cbn [feq flt f0 fsub fadd fmul fdiv fofZ Rops]. unfold Reqb. destruct Req_EM_T; [lra|].
        unfold Rltb at 1. destruct Rlt_dec; [|lra].
        rewrite negb_true_iff, orb_false_iff, !ltb_le.
        change (ev (v_exp V 0 + 0)%Z) with (/ 2). change (ev (v_exp V 1 + 0)%Z) with (/ 2).
        change (ex V ev 0 0) with (/ 2). change (ex V ev 1 0) with (/ 2).
        match goal with |- ?x <= _ /\ _ => replace x with 0 by (cbn; field) end. split; lra.
    - intros [_ N]. apply prod_nz in N. destruct N as [_ N]. unfold int2e_opt, q_opt in N. cbn [e_kl] in N.
      apply (stored_e _ _ _ _ G) in N; [|cbn; lia..]. change (ev 0%Z) with 0 in N. rewrite user0 in N.
      rewrite w_est in N by lia. rewrite opp23 in N. cbn in N. lra.
  Qed.
End Short.

(** ** Loops of three-centre integrals *)
Section Same3.
  Context {F : Type} (zero one : F) (add mul sub : F -> F -> F) (opp : F -> F).
  Hypothesis Rth : ring_theory zero one add mul sub opp (@eq F).
  Variable isz : F -> bool.
  Hypothesis isz_zero : forall c, isz c = true -> c = zero.
  Variables (n_comp nf : Z) (si sj sk : shl F) (cfi cfj cfk : Z -> Z -> F).
  Hypothesis Hi : shell_of isz si cfi.
  Hypothesis Hj : shell_of isz sj cfj.
  Hypothesis Hk : shell_of isz sk cfk.
  Hypothesis Hnf : 0 <= nf.
  Hypothesis Hnc : 1 <= n_comp.
  Variables (q1 q2 : triples F) (common : F) (m : mem F) (T : Z -> Z -> F).
  Hypothesis Hcaller : caller_holds m (rows3 nf si sj sk) n_comp T.
  Hypothesis Hsome : 0 < s_np si /\ 0 < s_np sj /\ 0 < s_np sk.
  Hypothesis Hq : forall ip jp kp, 0 <= ip < s_np si -> 0 <= jp < s_np sj -> 0 <= kp < s_np sk ->
    kept_3c2e q1 ip jp kp = true /\ kept_3c2e q2 ip jp kp = true /\
    t_e q1 ip jp = t_e q2 ip jp /\ forall n, t_base q1 ip jp kp n = t_base q2 ip jp kp n.

  Lemma same_loops3 : fits m (scratch3 n_comp nf si sj sk) -> fits m (scratch3_any n_comp nf si sj sk) ->
    same_added (rows3 nf si sj sk) n_comp
      (CINT3c2e_loop add mul n_comp nf si sj sk common q1 m)
      (CINT3c2e_opt_dispatch add mul n_comp nf si sj sk common q2 m).
  Proof.
    intros Hg Hf.
    destruct (loop_3c2e zero one add mul sub opp Rth isz isz_zero n_comp nf si sj sk cfi cfj cfk Hi Hj Hk Hnf Hnc common q1 m T Hcaller Hg)
      as (m1 & r1 & E1 & R1 & _ & (F1 & S1 & X1 & V1)).
    destruct (dispatch_3c2e zero one add mul sub opp Rth isz isz_zero n_comp nf si sj sk cfi cfj cfk Hi Hj Hk Hnf Hnc common q2 m T Hcaller Hf)
      as (m2 & r2 & E2 & R2 & _ & (F2 & S2 & X2 & V2)).
    destruct (Hq 0 0 0 ltac:(lia) ltac:(lia) ltac:(lia)) as (Z1 & Z2 & _).
    assert (P1 : t_empty q1 = false) by (unfold kept_3c2e in Z1; destruct (t_empty q1); [discriminate|reflexivity]).
    assert (P2 : t_empty q2 = false) by (unfold kept_3c2e in Z2; destruct (t_empty q2); [discriminate|reflexivity]).
    assert (A1 : flg m1 5%nat = false) by (apply F1; right; exists 0, 0, 0; repeat split; try lia; exact Z1).
    assert (A2 : flg m2 5%nat = false) by (apply F2; right; exists 0, 0, 0; repeat split; try lia; exact Z2).
    exists m1, m2, r1, r2. split; [exact E1|]. split; [exact E2|].
    split; [rewrite R1, R2, A1, A2 by assumption; reflexivity|]. split; [congruence|]. split.
    - intros _ r c Hr Hc. rewrite V1, V2 by assumption.
      assert (EV : batch3 zero add mul (s_np si) (s_np sj) (s_np sk) (kept_3c2e q1) cfi cfj cfk (prim_3c2e mul q1) common nf n_comp (s_ctr si) (s_ctr sj) r c =
                   batch3 zero add mul (s_np si) (s_np sj) (s_np sk) (kept_3c2e q2) cfi cfj cfk (prim_3c2e mul q2) common nf n_comp (s_ctr si) (s_ctr sj) r c).
      { unfold batch3, contract3, prim_3c2e. f_equal. apply lsum_ext. intros kp Hkp.
        apply lsum_ext. intros jp Hjp. apply lsum_ext. intros ip Hip.
        destruct (Hq ip jp kp Hip Hjp Hkp) as (-> & -> & -> & ->). reflexivity. }
      rewrite EV. reflexivity.
    - intros x Hx. rewrite X1, X2 by exact Hx. reflexivity.
  Qed.
End Same3.
