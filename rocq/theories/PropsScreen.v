(** PropsScreen.v — C38 (batches), C39 and C47: screening of primitives. *)
From Coq Require Import Reals Lra.
From Verif Require Import Base BasSpec EnvModel CtrModel LoopSpec Loop2eModel Loop2eSpec Loop2eFinal Loop3Model Loop3Spec
  OptModel OptSpec OptProof OptPair ScreenModel ScreenSpec ScreenProof ScreenFinal ScreenMore.

(** ** C38: what the loops read from the table of an optimizer *)
Theorem C38_stored {F} (O : fops F) nbas V ev ng t pd : pair_table O nbas V ev ng t pd ->
  forall i j, 0 <= i < nbas -> 0 <= j < nbas ->
    (rd t (i * nbas + j) = Some NoValue /\ stored_novalue O V ev ng i j = true) \/
    (stored_novalue O V ev ng i j = false /\ exists o, rd t (i * nbas + j) = Some (Off o) /\
       forall ip jp, 0 <= ip < v_np V i -> 0 <= jp < v_np V j ->
         rd pd (o + (jp * v_np V i + ip)) = Some (stored_pair O V ev ng i j ip jp)).
Proof. exact (stored_ok O nbas V ev ng t pd). Qed.
Print Assumptions C38_stored.

Section C38.
  Variables (nbas : Z) (V : view) (ev : Z -> R) (lm : Z -> Z -> R).
  Hypothesis HG : good_shells nbas V ev lm.
  Variable isz : R -> bool.
  Hypothesis isz_zero : forall c, isz c = true -> c = 0%R.
  Variables (ng : ngT) (i j k l order n_comp nf : Z).
  Hypothesis Hi : 0 <= i < nbas.
  Hypothesis Hj : 0 <= j < nbas.
  Hypothesis Hk : 0 <= k < nbas.
  Hypothesis Hl : 0 <= l < nbas.
  Hypothesis Hnf : 0 <= nf.
  Hypothesis Hnc : 1 <= n_comp.
  (** the shells as the loops see them *)
  Variables (si sj sk sl : shl R) (cfi cfj cfk cfl : Z -> Z -> R).
  Hypothesis Si : shell_of isz si cfi /\ s_np si = v_np V i /\ 0 < v_np V i.
  Hypothesis Sj : shell_of isz sj cfj /\ s_np sj = v_np V j /\ 0 < v_np V j.
  Hypothesis Sk : shell_of isz sk cfk /\ s_np sk = v_np V k /\ 0 < v_np V k.
  Hypothesis Sl : shell_of isz sl cfl /\ s_np sl = v_np V l /\ 0 < v_np V l.
  Variables (common : R) (m : mem R) (T : Z -> Z -> R).

  (** If every primitive quartet contributes in both paths, the batch, the flags and the return value
      are the same with an optimizer ([stored]: with a table of pair data; the optimizer
      of too large a basis has none) as without. Any omega, any cutoff. *)
  Theorem C38_batch_2e (stored f12 : bool) (kern : Z -> Z -> Z -> Z -> point (F := R) -> point (F := R) -> Z -> R) :
    let q1 := int2e_nopt Rops V ev f12 ng i j k l order kern in
    let q2 := int2e_opt Rops V ev stored f12 ng i j k l kern in
    (forall ip jp kp lp, 0 <= ip < v_np V i -> 0 <= jp < v_np V j -> 0 <= kp < v_np V k -> 0 <= lp < v_np V l ->
       contributes q1 ip jp kp lp /\ contributes q2 ip jp kp lp) ->
    caller_holds m (rows4 nf si sj sk sl) n_comp T ->
    fits m (scratch_general n_comp nf si sj sk sl) -> fits m (scratch_any n_comp nf si sj sk sl) ->
    same_outcome n_comp nf si sj sk sl
      (CINT2e_loop_nopt Rplus Rmult n_comp nf si sj sk sl common q1 m)
      (CINT2e_opt_dispatch Rplus Rmult n_comp nf si sj sk sl common q2 m).
  Proof.
    intros q1 q2 Hq Hc Hg Hf. destruct Si as (Si1 & Ei & Pi), Sj as (Sj1 & Ej & Pj), Sk as (Sk1 & Ek & Pk), Sl as (Sl1 & El & Pl).
    apply (same_loops 0%R 1%R Rplus Rmult Rminus Ropp RTheory isz isz_zero n_comp nf si sj sk sl cfi cfj cfk cfl
             Si1 Sj1 Sk1 Sl1 Hnf Hnc q1 q2 common m T Hc); [lia| |exact Hg|exact Hf].
    rewrite Ei, Ej, Ek, El. intros ip jp kp lp A B C D. destruct (Hq ip jp kp lp A B C D) as [H1 H2].
    split; [exact (proj1 H1)|]. split; [exact (proj1 H2)|].
    exact (same_data nbas V ev lm HG f12 ng i j k l order kern Hi Hj Hk Hl ip jp kp lp A B C D stored H1 H2).
  Qed.

  (** The same for three-centre integrals. *)
  Theorem C38_batch_3c2e (stored : bool) (kern : Z -> Z -> Z -> point (F := R) -> Z -> R) :
    KINC ng + LINC ng <= IINC ng + JINC ng ->
    let q1 := int3c2e_nopt Rops V ev ng i j k order kern in
    let q2 := int3c2e_opt Rops V ev stored ng i j k order kern in
    (forall ip jp kp, 0 <= ip < v_np V i -> 0 <= jp < v_np V j -> 0 <= kp < v_np V k -> contributes3 q1 ip jp kp) ->
    caller_holds m (rows3 nf si sj sk) n_comp T ->
    fits m (scratch3 n_comp nf si sj sk) -> fits m (scratch3_any n_comp nf si sj sk) ->
    same_added (rows3 nf si sj sk) n_comp
      (CINT3c2e_loop Rplus Rmult n_comp nf si sj sk common q1 m)
      (CINT3c2e_opt_dispatch Rplus Rmult n_comp nf si sj sk common q2 m).
  Proof.
    intros Hng q1 q2 Hq Hc Hg Hf. destruct Si as (Si1 & Ei & Pi), Sj as (Sj1 & Ej & Pj), Sk as (Sk1 & Ek & Pk).
    assert (K : forall t ip jp kp, contributes3 t ip jp kp -> kept_3c2e t ip jp kp = true).
    { intros t ip jp kp (A & B & C & _). unfold kept_3c2e. rewrite A, B, C. reflexivity. }
    apply (same_loops3 0%R 1%R Rplus Rmult Rminus Ropp RTheory isz isz_zero n_comp nf si sj sk cfi cfj cfk
             Si1 Sj1 Sk1 Hnf Hnc q1 q2 common m T Hc); [lia| |exact Hg|exact Hf].
    rewrite Ei, Ej, Ek. intros ip jp kp A B C. specialize (Hq ip jp kp A B C).
    destruct (t_same nbas V ev lm HG ng i j k order kern Hi Hj ip jp kp A B stored Hng) as [S D].
    split; [apply K; exact Hq|]. split; [apply K, S; exact Hq|]. exact (D Hq).
  Qed.
End C38.
Print Assumptions C38_batch_2e.
Print Assumptions C38_batch_3c2e.

(** ** C39: the cutoff of every class *)
Theorem C39_init ev c : init_expcutoff Rops ev c =
  (match c with
   | C2e => if Req_EM_T (ev 0%Z) 0 then 60 else Rmax 40 (ev 0%Z) + 1
   | _ => user_cutoff (ev 0%Z)
   end)%R.
Proof.
  destruct c; try (apply init_user; discriminate). rewrite init_2e. unfold user_cutoff. destruct Req_EM_T; reflexivity.
Qed.
Print Assumptions C39_init.

Section C39.
  Variables (nbas : Z) (V : view) (ev : Z -> R) (lm : Z -> Z -> R).
  Hypothesis HG : good_shells nbas V ev lm.
  Notation est := (pair_est V ev lm).
  Notation U := (user_cutoff (ev 0%Z)).

  (** One-electron integrals, on grids as well: exactly the pairs below the documented cutoff contribute. *)
  Theorem C39_1e c (ng : ngT) i j ip jp : c = C1e \/ c = Cgrids ->
    0 <= i < nbas -> 0 <= j < nbas -> 0 <= ip < v_np V i -> 0 <= jp < v_np V j ->
    let lic := v_l V i + IINC ng in let ljc := v_l V j + JINC ng in
    (reaches_1e Rops V ev c i j lic ljc ip jp = true /\ factor_1e Rops V ev c i j lic ljc ip jp <> 0%R <->
     (est i j (lic + ljc)%Z ip jp < U)%R).
  Proof. intros Hc H1 H2 H3 H4 lic ljc. apply (one_iff nbas V ev lm HG); [destruct Hc; congruence|assumption..]. Qed.

  (** Three-centre two-electron integrals of a full-range or long-range operator. *)
  Theorem C39_3c2e (ng : ngT) i j k order kern ip jp kp : (0 <= ev 8%Z)%R ->
    0 <= i < nbas -> 0 <= j < nbas -> 0 <= ip < v_np V i -> 0 <= jp < v_np V j ->
    (contributes3 (int3c2e_nopt Rops V ev ng i j k order kern) ip jp kp <->
     (est i j (v_l V i + IINC ng + (v_l V j + JINC ng))%Z ip jp < U)%R).
  Proof. intros Hom Hi Hj Pi Pj. exact (t1_plain nbas V ev lm HG ng i j k order kern Hi Hj ip jp kp Pi Pj Hom). Qed.

  Section Four.
    Variables (f12 : bool) (ng : ngT) (i j k l order : Z).
    Variable kern : Z -> Z -> Z -> Z -> point (F := R) -> point (F := R) -> Z -> R.
    Hypothesis Hi : 0 <= i < nbas.
    Hypothesis Hj : 0 <= j < nbas.
    Hypothesis Hk : 0 <= k < nbas.
    Hypothesis Hl : 0 <= l < nbas.
    Variables (ip jp kp lp : Z).
    Hypothesis Pi : 0 <= ip < v_np V i.
    Hypothesis Pj : 0 <= jp < v_np V j.
    Hypothesis Pk : 0 <= kp < v_np V k.
    Hypothesis Pl : 0 <= lp < v_np V l.
    Hypothesis Hom : (0 <= ev 8%Z)%R.
    Let q1 := int2e_nopt Rops V ev f12 ng i j k l order kern.
    Let q2 s := int2e_opt Rops V ev s f12 ng i j k l kern.
    Let eij := est i j (v_l V i + IINC ng + (v_l V j + JINC ng))%Z ip jp.
    Let ekl := est k l (v_l V k + KINC ng + (v_l V l + LINC ng))%Z kp lp.
    Let C : R := (if f12 then U else if Req_EM_T (ev 0%Z) 0 then 60 else U + 1)%R.

    (** Four-centre two-electron integrals without optimizer: the documented cutoff for the F12 kernels and
        by default; one more than the user's value otherwise. *)
    Theorem C39_2e : contributes q1 ip jp kp lp <-> (eij < C /\ ekl <= C /\ eij + ekl <= C)%R.
    Proof. exact (nopt_iff nbas V ev lm HG f12 ng i j k l order kern Hi Hj Hk Hl ip jp kp lp Pi Pj Pk Pl Hom). Qed.

    (** ... with an optimizer that has no table of pair data *)
    Theorem C39_2e_notable : contributes (q2 false) ip jp kp lp <-> (eij < C /\ ekl < C /\ eij + ekl <= C)%R.
    Proof. exact (opt_notable_iff nbas V ev lm HG f12 ng i j k l kern Hi Hj Hk Hl ip jp kp lp Pi Pj Pk Pl Hom). Qed.

    (** ... with an optimizer that has one: single pairs are held against the documented cutoff, with the
        larger number of derivatives of the two electrons *)
    Let inc := Z.max (IINC ng + JINC ng) (KINC ng + LINC ng).
    Let eij' := est i j (v_l V i + v_l V j + inc) ip jp.
    Let ekl' := est k l (v_l V k + v_l V l + inc) kp lp.
    Theorem C39_2e_table : contributes (q2 true) ip jp kp lp <-> (eij' < U /\ ekl' < U /\ eij' + ekl' <= C)%R.
    Proof. exact (opt_table_iff nbas V ev lm HG f12 ng i j k l kern Hi Hj Hk Hl ip jp kp lp Pi Pj Pk Pl Hom). Qed.

    (** ** C47: the quartets discarded do not depend on the optimizer ... *)
    (** ... with a table, if both electrons have the same number of derivatives, the user gave no cutoff
        (any, for the F12 kernels), and the second pair is not exactly at the cutoff *)
    Theorem C47_table_partial : f12 = true \/ ev 0%Z = 0%R -> IINC ng + JINC ng = KINC ng + LINC ng -> ekl <> U ->
      (contributes q1 ip jp kp lp <-> contributes (q2 true) ip jp kp lp).
    Proof.
      intros HC Hng Hne. rewrite C39_2e, C39_2e_table.
      assert (E1 : eij' = eij) by (unfold eij', eij; f_equal; unfold inc; lia).
      assert (E2 : ekl' = ekl) by (unfold ekl', ekl; f_equal; unfold inc; lia). rewrite E1, E2.
      assert (EC : C = U). { unfold C. destruct f12; [reflexivity|]. destruct HC as [HC|HC]; [discriminate|]. unfold user_cutoff. destruct Req_EM_T; [reflexivity|contradiction]. }
      rewrite EC. split; intros (H1 & H2 & H3); repeat split; lra.
    Qed.
    (** ... without a table, if the second pair is not exactly at the cutoff *)
    Theorem C47_notable_partial : ekl <> C -> (contributes q1 ip jp kp lp <-> contributes (q2 false) ip jp kp lp).
    Proof. intros Hne. rewrite C39_2e, C39_2e_notable. split; intros (H1 & H2 & H3); repeat split; lra. Qed.
  End Four.

  (** Three-centre integrals, any omega and any cutoff: the optimizer makes no difference unless the operator has more
      derivatives on the third function than on the first pair. *)
  Theorem C47_3c2e (ng : ngT) i j k order kern (stored : bool) ip jp kp : KINC ng + LINC ng <= IINC ng + JINC ng ->
    0 <= i < nbas -> 0 <= j < nbas -> 0 <= ip < v_np V i -> 0 <= jp < v_np V j ->
    (contributes3 (int3c2e_nopt Rops V ev ng i j k order kern) ip jp kp <->
     contributes3 (int3c2e_opt Rops V ev stored ng i j k order kern) ip jp kp).
  Proof. intros Hng Hi Hj Pi Pj. exact (proj1 (t_same nbas V ev lm HG ng i j k order kern Hi Hj ip jp kp Pi Pj stored Hng)). Qed.

  (** Classes on which env[PTR_EXPCUTOFF] has no effect.  Two-centre two-electron integrals: nothing is
      discarded unless the operator is short-range, and then by the constant 40. *)
  Theorem C39_2c2e_ignores i k ip kp : reaches_2c2e Rops V ev i k ip kp = true <->
    (ev 8%Z < 0 ->
       let a0 := ex V ev i ip * ex V ev k kp / (ex V ev i ip + ex V ev k kp) in
       ev 8%Z * ev 8%Z / (ev 8%Z * ev 8%Z + a0) * (a0 * dist_sq (ctr V ev i) (ctr V ev k)) <= 40)%R.
  Proof. exact (two_centre V ev i k ip kp). Qed.

  (** Three- and four-centre one-electron integrals: the exponent of the product of the
      Gaussians at its maximum against the constant 60. *)
  Theorem C39_3c1e_ignores i j k ip jp kp : reaches_3c1e Rops V ev i j k ip jp kp = true <->
    let a := ex V ev i ip in let b := ex V ev j jp in let c := ex V ev k kp in
    ((a * b * dist_sq (ctr V ev i) (ctr V ev j) + a * c * dist_sq (ctr V ev i) (ctr V ev k) + b * c * dist_sq (ctr V ev j) (ctr V ev k))
      / (a + b + c) <= 60)%R.
  Proof. exact (three_centre V ev i j k ip jp kp). Qed.
  Theorem C39_4c1e_ignores i j k l ip jp kp lp :
    0 <= i < nbas -> 0 <= j < nbas -> 0 <= k < nbas -> 0 <= l < nbas ->
    0 <= ip < v_np V i -> 0 <= jp < v_np V j -> 0 <= kp < v_np V k -> 0 <= lp < v_np V l ->
    let a := (ex V ev i ip + ex V ev j jp)%R in let b := (ex V ev k kp + ex V ev l lp)%R in
    (reaches_4c1e Rops V ev i j k l ip jp kp lp = true <->
     (pair_exponent V ev i j ip jp + pair_exponent V ev k l kp lp +
      a * b / (a + b) * dist_sq (mid V ev i j ip jp) (mid V ev k l kp lp) <= 60)%R).
  Proof. intros. apply four_centre; apply (ex_pos _ _ _ _ HG); assumption. Qed.
End C39.
Print Assumptions C39_1e.
Print Assumptions C39_3c2e.
Print Assumptions C39_2e.
Print Assumptions C39_2e_notable.
Print Assumptions C39_2e_table.
Print Assumptions C47_table_partial.
Print Assumptions C47_notable_partial.
Print Assumptions C47_3c2e.
Print Assumptions C39_2c2e_ignores.
Print Assumptions C39_3c1e_ignores.
Print Assumptions C39_4c1e_ignores.

(** The documented cutoff is not what int2e uses: with env[PTR_EXPCUTOFF] = 50 a quartet contributes
    although its first pair is above 50 (estimate 50.55). *)
Theorem C39_int2e_refuted : exists nbas V ev lm kern,
  good_shells nbas V ev lm /\ ev 0%Z = 50%R /\ ev 8%Z = 0%R /\
  contributes (int2e_nopt Rops V ev false ng0 0 1 2 3 1 kern) 0 0 0 0 /\
  (user_cutoff (ev 0%Z) < pair_est V ev lm 0 1 0 0 0)%R.
Proof.
  exists 4, (w_V 0), (w_ev 50 0 w_far), (fun _ _ => 0%R), kern0.
  split; [apply w_good|]. destruct wit_user as (A & _ & B). repeat split; try reflexivity; try apply A. exact B.
Qed.
Print Assumptions C39_int2e_refuted.

(** C47 fails in three ways.  The user gave a cutoff: the quartet above contributes without optimizer and is
    discarded with one. *)
Theorem C47_user_cutoff_refuted : exists nbas V ev lm kern,
  good_shells nbas V ev lm /\ ev 0%Z = 50%R /\ ev 8%Z = 0%R /\
  contributes (int2e_nopt Rops V ev false ng0 0 1 2 3 1 kern) 0 0 0 0 /\
  ~ contributes (int2e_opt Rops V ev true false ng0 0 1 2 3 kern) 0 0 0 0.
Proof.
  exists 4, (w_V 0), (w_ev 50 0 w_far), (fun _ _ => 0%R), kern0.
  split; [apply w_good|]. destruct wit_user as (A & B & _). repeat split; try reflexivity; try apply A. exact B.
Qed.
Print Assumptions C47_user_cutoff_refuted.

(** A derivative on the first electron only: a far-apart second pair is discarded without optimizer and kept with one. *)
Theorem C47_derivative_refuted : exists nbas V ev lm kern,
  good_shells nbas V ev lm /\ ev 0%Z = 0%R /\ ev 8%Z = 0%R /\
  ~ contributes (int2e_nopt Rops V ev false ng_i 0 1 2 3 1 kern) 0 0 0 0 /\
  contributes (int2e_opt Rops V ev true false ng_i 0 1 2 3 kern) 0 0 0 0.
Proof.
  exists 4, (w_V 0), (w_ev 0 0 w_opp), (fun _ _ => 0%R), kern0.
  split; [apply w_good|]. destruct wit_deriv as (A & B). repeat split; try reflexivity; try apply B. exact A.
Qed.
Print Assumptions C47_derivative_refuted.

(** A short-range operator: without optimizer the cutoff of the second pair is enlarged, with optimizer it is not. *)
Theorem C47_short_range_refuted : exists nbas V ev lm kern,
  good_shells nbas V ev lm /\ ev 0%Z = 0%R /\ ev 8%Z = (-1)%R /\
  contributes (int2e_nopt Rops V ev false ng0 0 1 2 3 2 kern) 0 0 0 0 /\
  ~ contributes (int2e_opt Rops V ev true false ng0 0 1 2 3 kern) 0 0 0 0.
Proof.
  exists 4, (w_V 1), (w_ev 0 (-1) w_opp), (fun _ _ => 0%R), kern0.
  split; [apply w_good|]. destruct wit_short as (A & B). repeat split; try reflexivity; try apply A. exact B.
Qed.
Print Assumptions C47_short_range_refuted.

(** Four s functions at the same point: nothing is screened, with or without optimizer and table. *)
Example C38_ex_unscreened : let ev := w_ev 0 0 (fun _ => at_ 0 0 0) in
  good_shells 4 (w_V 0) ev (fun _ _ => 0%R) /\
  contributes (int2e_nopt Rops (w_V 0) ev false ng0 0 1 2 3 1 kern0) 0 0 0 0 /\
  contributes (int2e_opt Rops (w_V 0) ev true false ng0 0 1 2 3 kern0) 0 0 0 0 /\
  contributes (int2e_opt Rops (w_V 0) ev false false ng0 0 1 2 3 kern0) 0 0 0 0.
Proof.
  intros ev. pose proof (w_good 0 0 0 (fun _ => at_ 0 0 0)) as G. split; [exact G|].
  assert (D : dist_sq (at_ 0 0 0) (at_ 0 0 0) = 0%R) by (unfold dist_sq; cbn; lra). unfold ev.
  rewrite (nopt_iff 4 _ _ _ G), (opt_table_iff 4 _ _ _ G), (opt_notable_iff 4 _ _ _ G) by (cbn; try lia; lra).
  rewrite !w_est, D by lia. change (w_ev 0 0 (fun _ => at_ 0 0 0) 0%Z) with 0%R. rewrite cut0, user0. cbn. repeat split; lra.
Qed.
(** The same basis in the one-electron classes; a user's value below 40 acts as 40. *)
Example C39_ex : (user_cutoff 0 = 60 /\ user_cutoff 7 = 40 /\ user_cutoff 50 = 50)%R.
Proof.
  split; [exact user0|]. split; [|exact user50]. unfold user_cutoff. destruct (Req_EM_T 7 0); [lra|]. apply Rmax_left. lra.
Qed.
Example C39_ex_1e (u : R) : let ev := w_ev u 0 w_opp in u <> 0%R ->
  (reaches_1e Rops (w_V 0) ev C1e 2 3 0 0 0 0 = true /\ factor_1e Rops (w_V 0) ev C1e 2 3 0 0 0 0 <> 0%R <-> (60.55 < u)%R).
Proof.
  intros ev Hu. pose proof (w_good 0 u 0 w_opp) as G. unfold ev.
  pose proof (C39_1e 4 _ _ _ G C1e ng0 2 3 0 0 (or_introl eq_refl) ltac:(lia) ltac:(lia) ltac:(cbn; lia) ltac:(cbn; lia)) as H. cbv zeta in H.
  change (v_l (w_V 0) 2 + IINC ng0) with 0 in H. change (v_l (w_V 0) 3 + JINC ng0) with 0 in H. rewrite H.
  rewrite w_est, opp23 by lia. change (0 <? 0 + 0) with false. cbv iota. change (w_ev u 0 w_opp 0%Z) with u.
  unfold user_cutoff. destruct Req_EM_T; [contradiction|]. destruct (Rle_dec u 40); [rewrite Rmax_left by lra|rewrite Rmax_right by lra]; lra.
Qed.
