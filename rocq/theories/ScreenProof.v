(** ScreenProof.v — proofs about screening. *)
From Coq Require Import Reals Lra.
From Verif Require BasProof.
From Verif Require Import Base BasSpec EnvModel CtrModel Loop2eModel Loop2eSpec Loop3Model OptModel OptSpec OptProof OptPair
  ScreenModel ScreenSpec.

(** ** Law-free part: what the loops read from an optimizer *)
Section Stored.
  Context {F : Type} (O : fops F) (nbas : Z) (V : view) (ev : Z -> F) (ng : ngT).

  Lemma existsb2 (f : Z -> Z -> bool) n m :
    existsb (fun b => existsb (fun a => f a b) (zseq n)) (zseq m) = false <->
    forall a b, 0 <= a < n -> 0 <= b < m -> f a b = false.
  Proof.
    split.
    - intros H a b Ha Hb. destruct (f a b) eqn:E; [|reflexivity]. exfalso.
      assert (X : existsb (fun b => existsb (fun a => f a b) (zseq n)) (zseq m) = true); [|congruence].
      apply existsb_exists. exists b. split; [apply BasProof.zseq_In; lia|]. apply existsb_exists. exists a. split; [apply BasProof.zseq_In; lia|exact E].
    - intros H. destruct (existsb _ _) eqn:E; [|reflexivity]. apply existsb_exists in E. destruct E as (b & Hb & E).
      apply existsb_exists in E. destruct E as (a & Ha & E). apply BasProof.zseq_In in Ha, Hb. rewrite H in E by lia. discriminate.
  Qed.

  Lemma empty_iff i j lic ljc cut : set_pairdata_empty O V ev i j lic ljc cut = true <->
    forall ip jp, 0 <= ip < v_np V i -> 0 <= jp < v_np V j -> keeps O V ev i j lic ljc cut ip jp = false.
  Proof. unfold set_pairdata_empty. rewrite negb_true_iff. apply existsb2. Qed.

  Lemma novalue_iff i j : stored_novalue O V ev ng i j = true <->
    ~ (i = 0 /\ j = 0) /\ all_screened O V ev ng (Z.max i j) (Z.min i j).
  Proof.
    unfold stored_novalue. rewrite andb_true_iff, !negb_true_iff. cbv zeta. rewrite existsb2. unfold all_screened.
    split; intros [H1 H2]; (split; [|exact H2]).
    - intros [-> ->]. discriminate.
    - destruct (i =? 0) eqn:E1, (j =? 0) eqn:E2; cbn; try reflexivity. exfalso. apply H1. lia.
  Qed.

  (** the table CINTOpt_setij builds holds [stored_pair] / [stored_novalue] *)
  Lemma stored_ok t pd : pair_table O nbas V ev ng t pd -> forall i j, 0 <= i < nbas -> 0 <= j < nbas ->
    (rd t (i * nbas + j) = Some NoValue /\ stored_novalue O V ev ng i j = true) \/
    (stored_novalue O V ev ng i j = false /\ exists o, rd t (i * nbas + j) = Some (Off o) /\
       forall ip jp, 0 <= ip < v_np V i -> 0 <= jp < v_np V j ->
         rd pd (o + (jp * v_np V i + ip)) = Some (stored_pair O V ev ng i j ip jp)).
  Proof.
    intros HT i j Hi Hj.
    assert (NV : forall a b, stored_novalue O V ev ng a b = false <-> ~ (~ (a = 0 /\ b = 0) /\ all_screened O V ev ng (Z.max a b) (Z.min a b))).
    { intros a b. rewrite <- novalue_iff. destruct (stored_novalue O V ev ng a b); split; intros; try reflexivity; try congruence; tauto. }
    destruct (Z_le_gt_dec j i) as [L|L].
    - destruct (HT i j ltac:(lia) ltac:(lia)) as [(o1 & o2 & Hs & T1 & T2 & D)|(N & Hs & T1 & T2)].
      + right. split.
        * apply NV. rewrite Z.max_l, Z.min_r by lia. intros [N A]. destruct Hs as [Hs|Hs]; [tauto|]. exact (Hs A).
        * exists o1. split; [exact T1|]. intros ip jp H1 H2. destruct (D ip jp H1 H2) as (_ & _ & D1 & _).
          unfold stored_pair. replace (j <=? i) with true by lia. exact D1.
      + left. split; [exact T1|]. apply novalue_iff. rewrite Z.max_l, Z.min_r by lia. split; assumption.
    - destruct (HT j i ltac:(lia) ltac:(lia)) as [(o1 & o2 & Hs & T1 & T2 & D)|(N & Hs & T1 & T2)].
      + right. split.
        * apply NV. rewrite Z.max_r, Z.min_l by lia. intros [N A]. destruct Hs as [Hs|Hs]; [lia|]. exact (Hs A).
        * exists o2. split; [exact T2|]. intros ip jp H1 H2. destruct (D jp ip H2 H1) as (_ & _ & _ & D2).
          unfold stored_pair. replace (j <=? i) with false by lia. apply D2. lia.
      + left. split; [exact T2|]. apply novalue_iff. rewrite Z.max_r, Z.min_l by lia. split; [lia|assumption].
  Qed.
End Stored.

(** ** Exact arithmetic *)
Section OverR.
  Open Scope R_scope.
  Variables (nbas : Z) (V : view) (ev : Z -> R) (lm : Z -> Z -> R).
  Hypothesis HG : good_shells nbas V ev lm.
  Notation ex := (ex V ev). Notation ctr := (ctr V ev).
  Notation est := (pair_est V ev lm).
  Notation entry := (entry Rops V ev).

  Lemma log_largest_uniq f n m m' : log_largest f n m -> log_largest f n m' -> m = m'.
  Proof.
    intros (v & _ & H1 & (k & Hk & Hv) & ->) (v' & _ & H1' & (k' & Hk' & Hv') & ->). f_equal.
    specialize (H1 k' Hk'). specialize (H1' k Hk). lra.
  Qed.
  Lemma lm_is i p : (0 <= i < nbas)%Z -> (0 <= p < v_np V i)%Z -> lmv Rops V ev i p = lm i p.
  Proof.
    intros Hi Hp. destruct (HG i p Hi Hp) as (_ & HL). refine (log_largest_uniq _ _ _ _ _ HL).
    destruct HL as (v & Hv & H1 & (k & Hk & Ek) & _).
    destruct (maxabs_R (cf V ev i p) (v_nc V i) ltac:(lia)) as (v' & E' & _ & H1' & H2').
    exists v'. split; [|split; [exact H1'|split; [exact H2'|]]].
    - specialize (H1' k Hk). lra.
    - unfold lmv. cbn [flog Rops]. f_equal. exact E'.
  Qed.
  Lemma ex_pos i p : (0 <= i < nbas)%Z -> (0 <= p < v_np V i)%Z -> 0 < ex i p.
  Proof. intros Hi Hp. apply HG; assumption. Qed.

  Lemma lrr_gen i j lic ljc : lrr_of Rops V ev i j lic ljc =
    log_size (last_ex V ev i) (last_ex V ev j) (dist_sq (ctr i) (ctr j)) (ev 8%Z) (lic + ljc).
  Proof.
    unfold lrr_of, log_size, OptPair.last_ex, OptPair.ex. rewrite rr_R. cbn [fadd fsub fmul fdiv flog fsqrt flt f0 f1 f1_7 f1_5 fofZ Rops].
    unfold Rltb. destruct (0 <? _)%Z; [|rewrite Rplus_0_r; reflexivity].
    destruct (Rlt_dec (ev 8%Z) 0); [reflexivity|]. rewrite Rplus_0_r. reflexivity.
  Qed.

  Section Pair.
    Variables (i j lic ljc : Z) (cut : R).
    Hypothesis Hi : (0 <= i < nbas)%Z.
    Hypothesis Hj : (0 <= j < nbas)%Z.
    Lemma entry_R ip jp : (0 <= ip < v_np V i)%Z -> (0 <= jp < v_np V j)%Z ->
      pair_spec (ex i ip) (ex j jp) (ctr i) (ctr j)
        (log_size (last_ex V ev i) (last_ex V ev j) (dist_sq (ctr i) (ctr j)) (ev 8%Z) (lic + ljc)) (lm i ip) (lm j jp) cut
        (entry i j lic ljc cut ip jp).
    Proof.
      intros H1 H2. unfold OptProof.entry. rewrite lrr_gen, (lm_is i ip), (lm_is j jp) by assumption.
      apply (entry_spec (ex i ip) (ex j jp) (ctr i) (ctr j)); [|apply rr_R].
      pose proof (ex_pos i ip Hi H1). pose proof (ex_pos j jp Hj H2). unfold OptPair.ex in *. lra.
    Qed.
    Lemma entry_cce ip jp : (0 <= ip < v_np V i)%Z -> (0 <= jp < v_np V j)%Z ->
      cceij (entry i j lic ljc cut ip jp) = est i j (lic + ljc) ip jp.
    Proof. intros H1 H2. exact (proj1 (entry_R ip jp H1 H2)). Qed.
    Lemma entry_e ip jp : (0 <= ip < v_np V i)%Z -> (0 <= jp < v_np V j)%Z ->
      (eij (entry i j lic ljc cut ip jp) <> 0 <-> est i j (lic + ljc) ip jp < cut).
    Proof.
      intros H1 H2. destruct (entry_R ip jp H1 H2) as (_ & A & B). fold (est i j (lic + ljc) ip jp) in A, B.
      destruct (Rlt_dec (est i j (lic + ljc) ip jp) cut) as [L|L].
      - split; [intros; exact L|intros _]. destruct (A L) as (_ & _ & _ & ->). apply Rgt_not_eq, exp_pos.
      - split; [|intros; lra]. intros N. exfalso. apply N, B. lra.
    Qed.
    Lemma empty_R : set_pairdata_empty Rops V ev i j lic ljc cut = true <->
      forall ip jp, (0 <= ip < v_np V i)%Z -> (0 <= jp < v_np V j)%Z -> cut <= est i j (lic + ljc) ip jp.
    Proof.
      rewrite empty_iff. unfold keeps. cbn [flt Rops]. unfold Rltb.
      split; intros H ip jp H1 H2; specialize (H ip jp H1 H2).
      - rewrite entry_cce in H by assumption. destruct Rlt_dec in H; [discriminate|lra].
      - rewrite entry_cce by assumption. destruct Rlt_dec; [lra|reflexivity].
    Qed.
    Lemma nonempty_R ip jp : (0 <= ip < v_np V i)%Z -> (0 <= jp < v_np V j)%Z -> est i j (lic + ljc) ip jp < cut ->
      set_pairdata_empty Rops V ev i j lic ljc cut = false.
    Proof.
      intros H1 H2 L. destruct (set_pairdata_empty Rops V ev i j lic ljc cut) eqn:E; [|reflexivity].
      pose proof (proj1 empty_R E ip jp H1 H2). lra.
    Qed.
  End Pair.

  Lemma est_sym i j L ip jp : (0 <= i < nbas)%Z -> (0 <= j < nbas)%Z -> (0 <= ip < v_np V i)%Z -> (0 <= jp < v_np V j)%Z ->
    est j i L jp ip = est i j L ip jp.
  Proof.
    intros Hi Hj H1 H2. unfold pair_est, estimate, log_size.
    replace (dist_sq (ctr j) (ctr i)) with (dist_sq (ctr i) (ctr j)) by (unfold dist_sq; ring).
    rewrite (Rplus_comm (last_ex V ev j)). pose proof (ex_pos i ip Hi H1). pose proof (ex_pos j jp Hj H2). field. lra.
  Qed.

  Lemma cut_user : cutv Rops ev = user_cutoff (ev 0%Z).
  Proof. rewrite cut_R. reflexivity. Qed.
  Lemma init_user c : c <> C2e -> init_expcutoff Rops ev c = user_cutoff (ev 0%Z).
  Proof. intros N. rewrite <- cut_user. unfold init_expcutoff, cutv. destruct c; try reflexivity. congruence. Qed.
  Lemma init_2e : init_expcutoff Rops ev C2e = if Req_EM_T (ev 0%Z) 0 then 60 else user_cutoff (ev 0%Z) + 1.
  Proof.
    rewrite <- cut_user. unfold init_expcutoff, cutv. cbn [feq fadd f0 f1 fofZ Rops]. unfold Reqb. destruct Req_EM_T; reflexivity.
  Qed.
  Lemma init_ge40 c : 40 <= init_expcutoff Rops ev c.
  Proof.
    assert (U : 40 <= user_cutoff (ev 0%Z)) by (unfold user_cutoff; destruct Req_EM_T; [lra|apply Rmax_l]).
    destruct c; try (rewrite init_user by discriminate; exact U). rewrite init_2e. destruct Req_EM_T; lra.
  Qed.

  Section StoredR.
    Variable ng : ngT.
    Notation inc := (Z.max (IINC ng + JINC ng) (KINC ng + LINC ng)).
    Notation C := (user_cutoff (ev 0%Z)).
    Variables (i j : Z).
    Hypothesis Hi : (0 <= i < nbas)%Z.
    Hypothesis Hj : (0 <= j < nbas)%Z.
    Notation sp := (stored_pair Rops V ev ng i j).
    Notation L := (v_l V i + v_l V j + inc)%Z.

    Lemma inc_is : (v_l V i + ijkl_inc ng + v_l V j)%Z = L /\ (v_l V j + ijkl_inc ng + v_l V i)%Z = L.
    Proof. unfold ijkl_inc. destruct (KINC ng + LINC ng <? IINC ng + JINC ng)%Z eqn:E; lia. Qed.

    Lemma stored_R ip jp : (0 <= ip < v_np V i)%Z -> (0 <= jp < v_np V j)%Z ->
      pair_spec (ex i ip) (ex j jp) (ctr i) (ctr j)
        (log_size (last_ex V ev i) (last_ex V ev j) (dist_sq (ctr i) (ctr j)) (ev 8%Z) L) (lm i ip) (lm j jp) C (sp ip jp).
    Proof.
      intros H1 H2. unfold stored_pair. destruct (j <=? i)%Z.
      - unfold ent. pose proof (entry_R i j (v_l V i + ijkl_inc ng) (v_l V j) (cutv Rops ev) Hi Hj ip jp H1 H2) as H.
        rewrite (proj1 inc_is), cut_user in H. rewrite cut_user. exact H.
      - unfold ent. pose proof (entry_R j i (v_l V j + ijkl_inc ng) (v_l V i) (cutv Rops ev) Hj Hi jp ip H2 H1) as H.
        rewrite (proj2 inc_is), cut_user in H. rewrite cut_user. apply spec_sym.
        + pose proof (ex_pos i ip Hi H1). pose proof (ex_pos j jp Hj H2). lra.
        + replace (log_size (last_ex V ev i) (last_ex V ev j) (dist_sq (ctr i) (ctr j)) (ev 8%Z) L)
            with (log_size (last_ex V ev j) (last_ex V ev i) (dist_sq (ctr j) (ctr i)) (ev 8%Z) L); [exact H|].
          unfold log_size. rewrite (Rplus_comm (last_ex V ev j)). replace (dist_sq (ctr j) (ctr i)) with (dist_sq (ctr i) (ctr j)) by (unfold dist_sq; ring). reflexivity.
    Qed.
    Lemma stored_cce ip jp : (0 <= ip < v_np V i)%Z -> (0 <= jp < v_np V j)%Z -> cceij (sp ip jp) = est i j L ip jp.
    Proof. intros H1 H2. exact (proj1 (stored_R ip jp H1 H2)). Qed.
    Lemma stored_e ip jp : (0 <= ip < v_np V i)%Z -> (0 <= jp < v_np V j)%Z ->
      (eij (sp ip jp) <> 0 <-> est i j L ip jp < C).
    Proof.
      intros H1 H2. destruct (stored_R ip jp H1 H2) as (_ & A & B). fold (est i j L ip jp) in A, B.
      destruct (Rlt_dec (est i j L ip jp) C) as [Lt|Lt].
      - split; [intros; exact Lt|intros _]. destruct (A Lt) as (_ & _ & _ & ->). apply Rgt_not_eq, exp_pos.
      - split; [|intros; lra]. intros N. exfalso. apply N, B. lra.
    Qed.
    Lemma stored_val ip jp : (0 <= ip < v_np V i)%Z -> (0 <= jp < v_np V j)%Z -> est i j L ip jp < C ->
      stored_novalue Rops V ev ng i j = false.
    Proof.
      intros H1 H2 Lt. destruct (stored_novalue Rops V ev ng i j) eqn:E; [|reflexivity]. exfalso.
      apply novalue_iff in E. destruct E as [_ E]. destruct (Z_le_gt_dec j i) as [G|G].
      - rewrite Z.max_l, Z.min_r in E by lia. specialize (E ip jp H1 H2). unfold kept in E. cbn [flt Rops] in E. unfold Rltb in E.
        destruct Rlt_dec as [|N] in E; [discriminate|]. apply N. rewrite cut_user.
        pose proof (stored_cce ip jp H1 H2) as X. unfold stored_pair in X. replace (j <=? i)%Z with true in X by lia. rewrite X. exact Lt.
      - rewrite Z.max_r, Z.min_l in E by lia. specialize (E jp ip H2 H1). unfold kept in E. cbn [flt Rops] in E. unfold Rltb in E.
        destruct Rlt_dec as [|N] in E; [discriminate|]. apply N. rewrite cut_user.
        pose proof (stored_cce ip jp H1 H2) as X. unfold stored_pair in X. replace (j <=? i)%Z with false in X by lia. rewrite X. exact Lt.
    Qed.
  End StoredR.
End OverR.
