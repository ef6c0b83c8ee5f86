(** ScreenFinal.v — screening with and without optimizer. *)
From Coq Require Import Reals Lra.
From Verif Require Import Base BasSpec EnvModel CtrModel LoopSpec Loop2eModel Loop2eSpec Loop2eFinal Loop3Model Loop3Spec Loop3Final
  OptModel OptSpec OptProof OptPair ScreenModel ScreenSpec ScreenProof.

(** the cutoff of the two-electron classes *)
Definition cutoff_2e (f12 : bool) (u : R) : R :=
  (if f12 then user_cutoff u else if Req_EM_T u 0 then 60 else user_cutoff u + 1)%R.

Section Final.
  Open Scope R_scope.
  Variables (nbas : Z) (V : view) (ev : Z -> R) (lm : Z -> Z -> R).
  Hypothesis HG : good_shells nbas V ev lm.
  Notation ex := (ex V ev). Notation ctr := (ctr V ev).
  Notation est := (pair_est V ev lm).
  Notation U := (user_cutoff (ev 0%Z)).

  Lemma cut2e_is (f12 : bool) : init_expcutoff Rops ev (if f12 then Cf12 else C2e) = cutoff_2e f12 (ev 0%Z).
  Proof. destruct f12; [apply init_user; discriminate|apply init_2e]. Qed.
  Lemma cut2e_ge f12 : U <= cutoff_2e f12 (ev 0%Z).
  Proof. unfold cutoff_2e. destruct f12; [lra|]. unfold user_cutoff. destruct Req_EM_T; lra. Qed.

  Lemma g0_plain f12 aij akl rij rkl cut : 0 <= ev 8%Z -> g0_2e_ret Rops ev f12 aij akl rij rkl cut = true.
  Proof.
    intros H. unfold g0_2e_ret. destruct f12; [reflexivity|]. cbn [feq flt f0 Rops]. unfold Reqb, Rltb.
    destruct Req_EM_T; [reflexivity|]. destruct Rlt_dec; [lra|reflexivity].
  Qed.

  Lemma ltb_le a b : Rltb a b = false <-> b <= a.
  Proof. unfold Rltb. destruct Rlt_dec; split; intros; try lra; try discriminate; reflexivity. Qed.

  Lemma prod_nz a b : a * b <> 0 <-> a <> 0 /\ b <> 0.
  Proof.
    split; [|intros [A B] C; destruct (Rmult_integral _ _ C); tauto].
    intros H. split; intros E; apply H; rewrite E; ring.
  Qed.

  Section Quartet.
    Variables (f12 : bool) (ng : ngT) (i j k l order : Z).
    Variable kern : Z -> Z -> Z -> Z -> point (F := R) -> point (F := R) -> Z -> R.
    Hypothesis Hi : (0 <= i < nbas)%Z.
    Hypothesis Hj : (0 <= j < nbas)%Z.
    Hypothesis Hk : (0 <= k < nbas)%Z.
    Hypothesis Hl : (0 <= l < nbas)%Z.
    Variables (ip jp kp lp : Z).
    Hypothesis Pi : (0 <= ip < v_np V i)%Z.
    Hypothesis Pj : (0 <= jp < v_np V j)%Z.
    Hypothesis Pk : (0 <= kp < v_np V k)%Z.
    Hypothesis Pl : (0 <= lp < v_np V l)%Z.
    Notation q1 := (int2e_nopt Rops V ev f12 ng i j k l order kern).
    Notation q2 s := (int2e_opt Rops V ev s f12 ng i j k l kern).
    Notation C := (cutoff_2e f12 (ev 0%Z)).
    Notation Lij := (v_l V i + IINC ng + (v_l V j + JINC ng))%Z.
    Notation Lkl := (v_l V k + KINC ng + (v_l V l + LINC ng))%Z.
    Notation inc := (Z.max (IINC ng + JINC ng) (KINC ng + LINC ng)).

    Lemma ekl_R : ekl_of Rops V ev k l kp lp = ex k kp * ex l lp / (ex k kp + ex l lp) * dist_sq (ctr k) (ctr l).
    Proof.
      unfold ekl_of, ex_. rewrite rr_R. cbn [fadd fmul fdiv Rops].
      pose proof (ex_pos _ _ _ _ HG k kp Hk Pk). pose proof (ex_pos _ _ _ _ HG l lp Hl Pl). unfold OptPair.ex in *. field. lra.
    Qed.
    Lemma ccekl_R : 0 <= ev 8%Z ->
      ccekl_of Rops V ev k l (v_l V k + KINC ng) (v_l V l + LINC ng) order kp lp = est k l Lkl kp lp.
    Proof.
      intros Hom. unfold ccekl_of. rewrite ekl_R, (lm_is _ _ _ _ HG k kp), (lm_is _ _ _ _ HG l lp) by assumption.
      cbn [fsub Rops]. unfold pair_est, estimate. do 3 f_equal.
      unfold log_rr_kl, log_size. rewrite rr_R. cbn [fadd fsub fmul fdiv flog fsqrt flt f0 f1 f1_7 f1_5 fofZ Rops].
      unfold Rltb. destruct Rlt_dec; [lra|]. unfold ex_. destruct (0 <? _)%Z; [|rewrite Rplus_0_r; reflexivity].
      rewrite Rplus_0_r. reflexivity.
    Qed.

    Lemma nopt_iff : 0 <= ev 8%Z ->
      (contributes q1 ip jp kp lp <->
       est i j Lij ip jp < C /\ est k l Lkl kp lp <= C /\ est i j Lij ip jp + est k l Lkl kp lp <= C).
    Proof.
      intros Hom. unfold contributes, survives, int2e_nopt, q_nopt. cbn [pair_empty skip_kl skip_ij g0 e_ij e_kl].
      rewrite cut2e_is. rewrite g0_plain by exact Hom. rewrite ccekl_R by exact Hom.
      rewrite (entry_cce _ _ _ _ HG) by assumption.
      unfold expcut_nopt. cbn [flt f0 fsub fexp fneg Rops]. replace (Rltb (ev 8%Z) 0) with false by (symmetry; apply ltb_le; exact Hom). cbn [andb].
      rewrite prod_nz, (entry_e _ _ _ _ HG) by assumption.
      rewrite !andb_true_iff, !negb_true_iff, !ltb_le.
      split.
      - intros ((_ & H1 & H2 & _) & H3 & _). repeat split; [exact H3|exact H1|lra].
      - intros (H1 & H2 & H3). split; [|split; [exact H1|apply Rgt_not_eq, exp_pos]].
        split; [|split; [exact H2|split; [lra|reflexivity]]].
        apply (nonempty_R _ _ _ _ HG i j _ _ _ Hi Hj ip jp); assumption.
    Qed.

    Lemma opt_table_iff : 0 <= ev 8%Z ->
      (contributes (q2 true) ip jp kp lp <->
       est i j (v_l V i + v_l V j + inc) ip jp < U /\ est k l (v_l V k + v_l V l + inc) kp lp < U /\
       est i j (v_l V i + v_l V j + inc) ip jp + est k l (v_l V k + v_l V l + inc) kp lp <= C).
    Proof.
      intros Hom. unfold contributes, survives, int2e_opt, q_opt. cbn [pair_empty skip_kl skip_ij g0 e_ij e_kl].
      rewrite cut2e_is. rewrite g0_plain by exact Hom.
      rewrite !(stored_cce _ _ _ _ HG) by assumption. cbn [flt fsub Rops].
      rewrite prod_nz, !(stored_e _ _ _ _ HG) by assumption.
      rewrite !andb_true_iff, !negb_true_iff, orb_false_iff, !ltb_le.
      split.
      - intros ((_ & H1 & H2 & _) & H3 & H4). repeat split; [exact H3|exact H4|lra].
      - intros (H1 & H2 & H3). split; [|split; assumption]. pose proof (cut2e_ge f12).
        split; [|split; [lra|split; [lra|reflexivity]]]. split.
        + apply (stored_val _ _ _ _ HG ng i j Hi Hj ip jp); assumption.
        + apply (stored_val _ _ _ _ HG ng k l Hk Hl kp lp); assumption.
    Qed.

    Lemma opt_notable_iff : 0 <= ev 8%Z ->
      (contributes (q2 false) ip jp kp lp <->
       est i j Lij ip jp < C /\ est k l Lkl kp lp < C /\ est i j Lij ip jp + est k l Lkl kp lp <= C).
    Proof.
      intros Hom. unfold contributes, survives, int2e_opt, q_opt. cbn [pair_empty skip_kl skip_ij g0 e_ij e_kl].
      rewrite cut2e_is. rewrite g0_plain by exact Hom.
      rewrite !(entry_cce _ _ _ _ HG) by assumption. cbn [flt fsub Rops].
      rewrite prod_nz, !(entry_e _ _ _ _ HG) by assumption.
      rewrite !andb_true_iff, !negb_true_iff, orb_false_iff, !ltb_le.
      split.
      - intros ((_ & H1 & H2 & _) & H3 & H4). repeat split; [exact H3|exact H4|lra].
      - intros (H1 & H2 & H3). split; [|split; assumption].
        split; [|split; [lra|split; [lra|reflexivity]]]. split.
        + apply (nonempty_R _ _ _ _ HG i j _ _ _ Hi Hj ip jp); assumption.
        + apply (nonempty_R _ _ _ _ HG k l _ _ _ Hk Hl kp lp); assumption.
    Qed.

    (** a quartet that contributes in both paths has the same data in both; any omega *)
    Lemma same_data s : contributes q1 ip jp kp lp -> contributes (q2 s) ip jp kp lp ->
      e_ij q1 ip jp = e_ij (q2 s) ip jp /\ e_kl q1 kp lp = e_kl (q2 s) kp lp /\
      forall n, base q1 ip jp kp lp n = base (q2 s) ip jp kp lp n.
    Proof.
      intros [_ H1] [_ H2]. apply prod_nz in H1, H2. destruct H1 as [H1 _], H2 as [H2 H3].
      unfold int2e_nopt, int2e_opt, q_nopt, q_opt in *. cbn [e_ij e_kl base] in *. cbn [fexp fneg Rops].
      pose proof (ex_pos _ _ _ _ HG i ip Hi Pi). pose proof (ex_pos _ _ _ _ HG j jp Hj Pj).
      pose proof (ex_pos _ _ _ _ HG k kp Hk Pk). pose proof (ex_pos _ _ _ _ HG l lp Hl Pl).
      destruct (entry_R _ _ _ _ HG i j (v_l V i + IINC ng) (v_l V j + JINC ng) (init_expcutoff Rops ev (if f12 then Cf12 else C2e)) Hi Hj ip jp Pi Pj) as (_ & A & _).
      apply (entry_e _ _ _ _ HG) in H1; [|assumption..]. destruct (A H1) as (A0 & A1 & A2 & A3). clear A.
      rewrite ekl_R. unfold pd_centre. rewrite A0, A1, A2, A3. unfold centre, ex_. cbn [fadd fmul fdiv Rops].
      destruct s.
      - destruct (stored_R _ _ _ _ HG ng i j Hi Hj ip jp Pi Pj) as (_ & B & _). apply (stored_e _ _ _ _ HG) in H2; [|assumption..].
        destruct (B H2) as (B0 & B1 & B2 & B3). clear B.
        destruct (stored_R _ _ _ _ HG ng k l Hk Hl kp lp Pk Pl) as (_ & B & _). apply (stored_e _ _ _ _ HG) in H3; [|assumption..].
        destruct (B H3) as (D0 & D1 & D2 & D3). rewrite B0, B1, B2, B3, D0, D1, D2, D3. repeat split; reflexivity.
      - destruct (entry_R _ _ _ _ HG i j (v_l V i + IINC ng) (v_l V j + JINC ng) (init_expcutoff Rops ev (if f12 then Cf12 else C2e)) Hi Hj ip jp Pi Pj) as (_ & B & _).
        destruct (B H1) as (B0 & B1 & B2 & B3). clear B.
        destruct (entry_R _ _ _ _ HG k l (v_l V k + KINC ng) (v_l V l + LINC ng) (init_expcutoff Rops ev (if f12 then Cf12 else C2e)) Hk Hl kp lp Pk Pl) as (_ & B & _).
        apply (entry_e _ _ _ _ HG) in H3; [|assumption..]. destruct (B H3) as (D0 & D1 & D2 & D3).
        rewrite B0, B1, B2, B3, D0, D1, D2, D3. repeat split; reflexivity.
    Qed.
  End Quartet.
End Final.

(** ** Two loops whose quartets all survive and have the same data *)
Section Same.
  Context {F : Type} (zero one : F) (add mul sub : F -> F -> F) (opp : F -> F).
  Hypothesis Rth : ring_theory zero one add mul sub opp (@eq F).
  Variable isz : F -> bool.
  Hypothesis isz_zero : forall c, isz c = true -> c = zero.
  Variables (n_comp nf : Z) (si sj sk sl : shl F) (cfi cfj cfk cfl : Z -> Z -> F).
  Hypothesis Hi : shell_of isz si cfi.
  Hypothesis Hj : shell_of isz sj cfj.
  Hypothesis Hk : shell_of isz sk cfk.
  Hypothesis Hl : shell_of isz sl cfl.
  Hypothesis Hnf : 0 <= nf.
  Hypothesis Hnc : 1 <= n_comp.
  Variables (q1 q2 : quartets F) (common : F) (m : mem F) (T : Z -> Z -> F).
  Hypothesis Hcaller : caller_holds m (rows4 nf si sj sk sl) n_comp T.
  Hypothesis Hsome : 0 < s_np si /\ 0 < s_np sj /\ 0 < s_np sk /\ 0 < s_np sl.
  Hypothesis Hq : forall ip jp kp lp, 0 <= ip < s_np si -> 0 <= jp < s_np sj -> 0 <= kp < s_np sk -> 0 <= lp < s_np sl ->
    survives q1 ip jp kp lp = true /\ survives q2 ip jp kp lp = true /\
    e_ij q1 ip jp = e_ij q2 ip jp /\ e_kl q1 kp lp = e_kl q2 kp lp /\
    forall n, base q1 ip jp kp lp n = base q2 ip jp kp lp n.

  Lemma same_loops : fits m (scratch_general n_comp nf si sj sk sl) -> fits m (scratch_any n_comp nf si sj sk sl) ->
    same_outcome n_comp nf si sj sk sl
      (CINT2e_loop_nopt add mul n_comp nf si sj sk sl common q1 m)
      (CINT2e_opt_dispatch add mul n_comp nf si sj sk sl common q2 m).
  Proof.
    intros Hg Hf.
    destruct (nopt_contracts zero one add mul sub opp Rth isz isz_zero n_comp nf si sj sk sl cfi cfj cfk cfl Hi Hj Hk Hl Hnf Hnc q1 common m T Hcaller Hg)
      as (m1 & r1 & E1 & R1 & (F1 & S1 & X1 & V1)).
    destruct (dispatch_contracts zero one add mul sub opp Rth isz isz_zero n_comp nf si sj sk sl cfi cfj cfk cfl Hi Hj Hk Hl Hnf Hnc q2 common m T Hcaller Hf)
      as (m2 & r2 & E2 & R2 & (F2 & S2 & X2 & V2)).
    destruct (Hq 0 0 0 0 ltac:(lia) ltac:(lia) ltac:(lia) ltac:(lia)) as (Z1 & Z2 & _).
    assert (P1 : pair_empty q1 = false) by (unfold survives in Z1; destruct (pair_empty q1); [discriminate|reflexivity]).
    assert (P2 : pair_empty q2 = false) by (unfold survives in Z2; destruct (pair_empty q2); [discriminate|reflexivity]).
    assert (A1 : flg m1 5%nat = false) by (apply F1; right; exists 0, 0, 0, 0; repeat split; try lia; exact Z1).
    assert (A2 : flg m2 5%nat = false) by (apply F2; right; exists 0, 0, 0, 0; repeat split; try lia; exact Z2).
    exists m1, m2, r1, r2. split; [exact E1|]. split; [exact E2|].
    split; [rewrite R1, R2, A1, A2 by assumption; reflexivity|]. split; [congruence|]. split.
    - intros _ r c Hr Hc. rewrite V1, V2 by assumption.
      assert (EV : value4 zero add mul n_comp nf si sj sk sl cfi cfj cfk cfl q1 common r c =
                   value4 zero add mul n_comp nf si sj sk sl cfi cfj cfk cfl q2 common r c).
      { unfold value4, batch4, contract4. f_equal. apply lsum_ext. intros lp Hlp. apply lsum_ext. intros kp Hkp.
        apply lsum_ext. intros jp Hjp. apply lsum_ext. intros ip Hip.
        destruct (Hq ip jp kp lp Hip Hjp Hkp Hlp) as (-> & -> & -> & -> & ->). reflexivity. }
      rewrite EV. reflexivity.
    - intros x Hx. rewrite X1, X2 by exact Hx. reflexivity.
  Qed.
End Same.
