(** Loop2eFinal.v — the loop lemmas in the vocabulary of Loop2eSpec.v. *)
From Coq Require Import Ring.
From Verif Require Import Base BasSpec FblasModel FblasSpec CtrModel CtrSpec CtrProof LoopSpec LoopProof
  Loop2eModel Loop2eSpec Loop2eProof.

Lemma shell_exists {F} (isz : F -> bool) (c : arr F) np nctr cf :
  coeffs c np nctr cf -> exists s, s_np s = np /\ s_ctr s = nctr /\ shell_of isz s cf.
Proof.
  intros H. pose proof H as (H1 & H2 & H3).
  pose proof (non0coeff_ok isz c np nctr cf (uninit (np * nctr)) (uninit np) H1 ltac:(lia)
                ltac:(cbn; lia) ltac:(cbn; lia) H3) as K.
  apply wp_exists in K. destruct K as [[a b] [E _]].
  exists (mkshl np nctr c b a). cbn. split; [reflexivity|]. split; [reflexivity|].
  exists c. split; [exact H|]. cbn. unfold mk_shell. rewrite E. reflexivity.
Qed.

Section Final2.
  Context {F : Type} (zero one : F) (add mul sub : F -> F -> F) (opp : F -> F).
  Hypothesis Rth : ring_theory zero one add mul sub opp (@eq F).
  Variable isz : F -> bool.
  Hypothesis isz_zero : forall c, isz c = true -> c = zero.

  Lemma shell_of_ok s cf : shell_of isz s cf -> shell_ok isz s cf.
  Proof.
    intros (c & (H1 & H2 & H3) & E).
    pose proof (mk_shell_ok zero one isz isz_zero (s_np s) (s_ctr s) c cf s H1 H2 H3 E). tauto.
  Qed.

  Variables (n_comp nf : Z) (si sj sk sl : shl F) (cfi cfj cfk cfl : Z -> Z -> F).
  Hypothesis Hi : shell_of isz si cfi.
  Hypothesis Hj : shell_of isz sj cfj.
  Hypothesis Hk : shell_of isz sk cfk.
  Hypothesis Hl : shell_of isz sl cfl.
  Hypothesis Hnf : 0 <= nf.
  Hypothesis Hnc : 1 <= n_comp.
  Variables (q : quartets F) (common : F).
  Let Hi' := shell_of_ok si cfi Hi.
  Let Hj' := shell_of_ok sj cfj Hj.
  Let Hk' := shell_of_ok sk cfk Hk.
  Let Hl' := shell_of_ok sl cfl Hl.

  Notation contracts := (contracts zero add mul n_comp nf si sj sk sl cfi cfj cfk cfl q common).
  Notation same_outcome := (same_outcome n_comp nf si sj sk sl).

  Lemma of_res4 m T r :
    wp r (res4 zero add mul n_comp nf si sj sk sl cfi cfj cfk cfl q common
            (fun ip jp kp lp => mul (e_ij q ip jp) (e_kl q kp lp)) m T) -> contracts T m r.
  Proof.
    intros H. apply wp_exists in H. destruct H as [[m' ret] [E [H1 H2]]].
    exists m', ret. split; [exact E|]. split; [exact H1|exact H2].
  Qed.

  Lemma contracts_same m1 m2 T r1 r2 : buf m2 5%nat = buf m1 5%nat -> flg m2 5%nat = flg m1 5%nat ->
    (forall m ret, r1 = Some (m, ret) -> pair_empty q = true -> ret = false) ->
    (forall m ret, r2 = Some (m, ret) -> pair_empty q = true -> ret = false) ->
    contracts T m1 r1 -> contracts T m2 r2 -> same_outcome r1 r2.
  Proof.
    intros Eb Ef Z1 Z2 (a & ra & E1 & R1 & A1 & A2 & A3 & A4) (b & rb & E2 & R2 & B1 & B2 & B3 & B4).
    exists a, b, ra, rb. split; [exact E1|]. split; [exact E2|].
    rewrite Eb, Ef in *.
    assert (Efl : flg a 5%nat = flg b 5%nat).
    { destruct (flg a 5%nat), (flg b 5%nat); try reflexivity.
      - exfalso. assert (true = false); [|discriminate]. apply A1, B1. reflexivity.
      - exfalso. assert (true = false); [|discriminate]. apply B1, A1. reflexivity. }
    split.
    { destruct (pair_empty q) eqn:Ep.
      - rewrite (Z1 _ _ E1 eq_refl), (Z2 _ _ E2 eq_refl). reflexivity.
      - rewrite R1, R2, Efl by reflexivity. reflexivity. }
    split; [exact Efl|]. split.
    - intros H r c Hr Hc. rewrite (A4 H r c Hr Hc). rewrite Efl in H. rewrite (B4 H r c Hr Hc). reflexivity.
    - intros x Hx. rewrite A3, B3 by exact Hx. reflexivity.
  Qed.

  Variables (m : mem F) (T : Z -> Z -> F).
  Hypothesis Hcaller : caller_holds m (rows4 nf si sj sk sl) n_comp T.

  Lemma nopt_contracts : fits m (scratch_general n_comp nf si sj sk sl) ->
    contracts T m (CINT2e_loop_nopt add mul n_comp nf si sj sk sl common q m).
  Proof.
    intros Hf. apply of_res4.
    apply (loop_nopt_ok zero one add mul sub opp Rth isz isz_zero n_comp nf si sj sk sl cfi cfj cfk cfl Hi' Hj' Hk' Hl' Hnf Hnc q common m T Hcaller Hf).
  Qed.
  Lemma opt_contracts : fits m (scratch_general n_comp nf si sj sk sl) ->
    contracts T m (CINT2e_loop add mul n_comp nf si sj sk sl common q m).
  Proof.
    intros Hf. apply of_res4.
    apply (loop_opt_ok zero one add mul sub opp Rth isz isz_zero n_comp nf si sj sk sl cfi cfj cfk cfl Hi' Hj' Hk' Hl' Hnf Hnc q common m T Hcaller Hf).
  Qed.
  Lemma dispatch_contracts : fits m (scratch_any n_comp nf si sj sk sl) ->
    contracts T m (CINT2e_opt_dispatch add mul n_comp nf si sj sk sl common q m).
  Proof.
    intros Hf. apply of_res4.
    apply (dispatch_ok zero one add mul sub opp Rth isz isz_zero n_comp nf si sj sk sl cfi cfj cfk cfl Hi' Hj' Hk' Hl' Hnf Hnc q common m T Hcaller Hf).
  Qed.

  Lemma dispatch_select :
    CINT2e_opt_dispatch add mul n_comp nf si sj sk sl =
      (match s_ctr si =? 1, s_ctr sj =? 1, s_ctr sk =? 1, s_ctr sl =? 1 with
       | true, true, true, true => CINT2e_1111_loop add mul
       | false, true, true, true => CINT2e_n111_loop add mul
       | true, false, true, true => CINT2e_1n11_loop add mul
       | true, true, false, true => CINT2e_11n1_loop add mul
       | true, true, true, false => CINT2e_111n_loop add mul
       | _, _, _, _ => CINT2e_loop add mul
       end) n_comp nf si sj sk sl.
  Proof.
    unfold CINT2e_opt_dispatch.
    destruct (s_ctr si =? 1), (s_ctr sj =? 1), (s_ctr sk =? 1), (s_ctr sl =? 1); reflexivity.
  Qed.

  Lemma pe_nopt (m0 m' : mem F) ret : CINT2e_loop_nopt add mul n_comp nf si sj sk sl common q m0 = Some (m', ret) ->
    pair_empty q = true -> ret = false.
  Proof. unfold CINT2e_loop_nopt. intros H E. rewrite E in H. congruence. Qed.
  Lemma pe_opt (m0 m' : mem F) ret : CINT2e_loop add mul n_comp nf si sj sk sl common q m0 = Some (m', ret) ->
    pair_empty q = true -> ret = false.
  Proof. unfold CINT2e_loop. intros H E. rewrite E in H. congruence. Qed.
  Lemma pe_disp (m0 m' : mem F) ret : CINT2e_opt_dispatch add mul n_comp nf si sj sk sl common q m0 = Some (m', ret) ->
    pair_empty q = true -> ret = false.
  Proof.
    rewrite dispatch_select. intros H E. revert H.
    destruct (s_ctr si =? 1), (s_ctr sj =? 1), (s_ctr sk =? 1), (s_ctr sl =? 1);
      unfold CINT2e_loop, CINT2e_1111_loop, CINT2e_n111_loop, CINT2e_1n11_loop, CINT2e_11n1_loop, CINT2e_111n_loop;
      rewrite E; congruence.
  Qed.

  Lemma dispatch_same : fits m (scratch_any n_comp nf si sj sk sl) -> fits m (scratch_general n_comp nf si sj sk sl) ->
    same_outcome
      (CINT2e_opt_dispatch add mul n_comp nf si sj sk sl common q m)
      (CINT2e_loop add mul n_comp nf si sj sk sl common q m) /\
    same_outcome
      (CINT2e_opt_dispatch add mul n_comp nf si sj sk sl common q m)
      (CINT2e_loop_nopt add mul n_comp nf si sj sk sl common q m).
  Proof.
    intros Hf Hg.
    split; apply (contracts_same m m T); auto.
    - intros; eapply pe_disp; eauto.
    - intros; eapply pe_opt; eauto.
    - apply dispatch_contracts; auto.
    - apply opt_contracts; auto.
    - intros; eapply pe_disp; eauto.
    - intros; eapply pe_nopt; eauto.
    - apply dispatch_contracts; auto.
    - apply nopt_contracts; auto.
  Qed.
End Final2.

Section Scratch.
  Context {F : Type} (zero one : F) (add mul sub : F -> F -> F) (opp : F -> F).
  Hypothesis Rth : ring_theory zero one add mul sub opp (@eq F).
  Variable isz : F -> bool.
  Hypothesis isz_zero : forall c, isz c = true -> c = zero.
  Variables (n_comp nf : Z) (si sj sk sl : shl F) (cfi cfj cfk cfl : Z -> Z -> F).
  Hypothesis Hi : shell_of isz si cfi.
  Hypothesis Hj : shell_of isz sj cfj.
  Hypothesis Hk : shell_of isz sk cfk.
  Hypothesis Hl : shell_of isz sl cfl.
  Hypothesis Hnf : 0 <= nf.
  Hypothesis Hnc : 1 <= n_comp.
  Variables (q : quartets F) (common : F) (m : mem F) (T : Z -> Z -> F).
  Hypothesis Hcaller : caller_holds m (rows4 nf si sj sk sl) n_comp T.

  Lemma scratch_same (m2 : mem F) :
    buf m2 5%nat = buf m 5%nat -> flg m2 5%nat = flg m 5%nat ->
    (fits m (scratch_any n_comp nf si sj sk sl) -> fits m2 (scratch_any n_comp nf si sj sk sl) ->
    same_outcome n_comp nf si sj sk sl
      (CINT2e_opt_dispatch add mul n_comp nf si sj sk sl common q m)
      (CINT2e_opt_dispatch add mul n_comp nf si sj sk sl common q m2)) /\
    (fits m (scratch_general n_comp nf si sj sk sl) -> fits m2 (scratch_general n_comp nf si sj sk sl) ->
    same_outcome n_comp nf si sj sk sl
      (CINT2e_loop_nopt add mul n_comp nf si sj sk sl common q m)
      (CINT2e_loop_nopt add mul n_comp nf si sj sk sl common q m2)).
  Proof.
    intros Eb Ef.
    assert (HC2 : caller_holds m2 (rows4 nf si sj sk sl) n_comp T).
    { unfold caller_holds in *. rewrite Eb, Ef. exact Hcaller. }
    split; intros F1 F2; eapply (contracts_same zero add mul n_comp nf si sj sk sl cfi cfj cfk cfl q common m m2 T); auto.
    - intros; eapply pe_disp; eauto.
    - intros; eapply pe_disp; eauto.
    - eapply dispatch_contracts; eauto.
    - eapply dispatch_contracts; eauto.
    - intros; eapply pe_nopt; eauto.
    - intros; eapply pe_nopt; eauto.
    - eapply nopt_contracts; eauto.
    - eapply nopt_contracts; eauto.
  Qed.
End Scratch.
