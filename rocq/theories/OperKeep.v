(** OperKeep.v — the two-electron recurrences forget no cell: a buffer that holds a number in every
    cell still does afterwards. *)
From Coq Require Import Reals.
From Verif Require Import Base EnvModel RecModel UnrModel UnrTab UnrTabSr UnrKern UnrEnv Rec2RModel IntgStep IntgReal.
Local Open Scope Z_scope.

Definition post {X} (o : option X) (P : X -> Prop) : Prop := forall x, o = Some x -> P x.
Lemma post_bind {X Y} (o : option X) (f : X -> option Y) P : post o (fun x => post (f x) P) -> post (x <- o ;; f x) P.
Proof. intros H y E. destruct o as [x|]; cbn in E; [|discriminate]. exact (H x eq_refl y E). Qed.
Lemma post_mono {X} (o : option X) (P Q : X -> Prop) : post o P -> (forall x, P x -> Q x) -> post o Q.
Proof. intros H HQ x E. apply HQ, H, E. Qed.
Lemma post_ret {X} (x : X) (P : X -> Prop) : P x -> post (Some x) P.
Proof. intros H y E. injection E as <-. exact H. Qed.
Lemma post_any {X} (o : option X) (P : X -> Prop) : (forall x, P x) -> post o P.
Proof. intros H x _. apply H. Qed.
Lemma post_for {S} (I : S -> Prop) lo hi body (s : S) : I s -> (forall i s, I s -> post (body i s) I) -> post (for_ lo hi body s) I.
Proof.
  intros H0 Hb. unfold for_. generalize (Z.to_nat (hi - lo)). intros n. revert lo s H0.
  induction n as [|n IH]; intros lo s H0; cbn [forN]; [apply post_ret, H0|]. apply post_bind.
  eapply post_mono; [apply Hb, H0|]. intros s' Hs. apply IH, Hs.
Qed.
Lemma post_keep {T} (c : arr T -> option (arr T)) m0 m : keeps c -> grow m0 m -> post (c m) (grow m0).
Proof. intros H G m' E. eapply grow_trans; [exact G|exact (H m m' E)]. Qed.

Section Gen.
  Context {F : Type} (one : F) (add mul sub : F -> F -> F) (inj : Z -> F).

  Lemma keeps_2d e bc : keeps (g0_2e_2d one add mul inj e bc).
  Proof.
    intros m m' E. revert m' E. change (post (g0_2e_2d one add mul inj e bc m) (grow m)).
    assert (HS : forall gs g p (body : Z -> arr F -> option F), grow m g -> post (st3 gs g p body) (grow m)).
    { intros gs g p body. apply (post_keep (fun g => st3 gs g p body)), keeps_st3. }
    set (J := fun st : arr F * (Z -> option F) * (Z -> option F) => grow m (fst (fst st))).
    unfold g0_2e_2d. cbv zeta. apply post_bind. eapply post_mono.
    { apply post_for with (I := grow m); [apply grow_refl|]. intros i g G. apply (post_keep (fun g => g <- wr g i one ;; wr g (g_size e + i) one) m g); [|exact G].
      apply keeps_seq; apply keeps_wr1. }
    intros g G. apply post_for with (I := grow m); [exact G|]. clear g G. intros i g G.
    apply post_bind. eapply post_mono with (P := grow m).
    { destruct (0 <? _); [|apply post_ret, G]. apply post_bind, post_any. intros s0. apply post_bind.
      eapply post_mono; [apply HS, G|]. clear g G. intros g G. apply post_bind. eapply post_mono.
      - apply post_for with (I := J); [exact G|]. intros n [[g1 s1] s2] G1. apply post_bind.
        eapply post_mono; [apply HS, G1|]. intros g2 G2. apply post_ret. exact G2.
      - intros st Hst. apply post_ret, Hst. }
    clear g G. intros g G. apply post_bind. eapply post_mono with (P := grow m).
    { destruct (0 <? _); [|apply post_ret, G]. apply post_bind, post_any. intros s0. apply post_bind.
      eapply post_mono; [apply HS, G|]. clear g G. intros g G. apply post_bind. eapply post_mono.
      - apply post_for with (I := J); [exact G|]. intros n [[g1 s1] s2] G1. apply post_bind.
        eapply post_mono; [apply HS, G1|]. intros g2 G2. apply post_ret. exact G2.
      - intros st Hst. destruct (0 <? _); [|apply post_ret, Hst].
        apply post_bind, post_any. intros s3. apply post_bind. eapply post_mono; [apply HS, Hst|]. clear g G. intros g G. apply post_bind. eapply post_mono.
        + apply post_for with (I := J); [exact G|]. intros n [[g1 s1] s2] G1. apply post_bind.
          eapply post_mono; [apply HS, G1|]. intros g2 G2. apply post_ret. exact G2.
        + intros st' Hst'. apply post_ret, Hst'. }
    clear g G. intros g G. apply post_for with (I := grow m); [exact G|]. clear g G. intros n g G.
    apply post_bind, post_any. intros s0. apply post_bind, post_any. intros s1. apply post_bind. eapply post_mono.
    - apply post_for with (I := J); [exact G|]. intros n' [[g1 s1'] s2] G1. apply post_bind.
      eapply post_mono; [apply HS, G1|]. intros g2 G2. apply post_ret. exact G2.
    - intros st Hst. apply post_ret, Hst.
  Qed.

  Lemma keeps_hrr gs r d1 d2 p n : keeps (hrr_row add mul gs r d1 d2 p n).
  Proof. unfold hrr_row. apply keeps_for. intros i. apply keeps_st3. Qed.
  Lemma keeps_4d e r s : keeps (g0_2d_4d add mul e r s).
  Proof.
    unfold g0_2d_4d, g0_lj2d_4d, g0_kj2d_4d, g0_il2d_4d, g0_ik2d_4d. cbv zeta.
    repeat first [apply keeps_if | apply keeps_ret | apply keeps_seq | apply keeps_for; intros ? | apply keeps_hrr].
    all: apply keeps_wr.
  Qed.
  Lemma keeps_run bc rirj rkrl k : keeps (run add mul inj bc rirj rkrl k).
  Proof.
    induction k as [|s k IH]; cbn [run]; [apply keeps_ret|]. apply keeps_seq; [|exact IH].
    destruct s as [p e]. unfold step. apply (keeps_wr p (fun g => eval add mul inj bc rirj rkrl g e)).
  Qed.
  Lemma keeps_unr e bc rirj rkrl : keeps (g0_2e_2d4d_unrolled add mul inj e bc rirj rkrl) /\ keeps (srg0_2e_2d4d_unrolled add mul inj e bc rirj rkrl).
  Proof.
    unfold g0_2e_2d4d_unrolled, srg0_2e_2d4d_unrolled. split.
    - destruct (g0_unrolled_switch (type_ijkl e)); [apply keeps_run|apply keeps_ret].
    - destruct (srg0_unrolled_switch (type_ijkl e)); [apply keeps_run|apply keeps_ret].
  Qed.
  Lemma keeps_sel e bc rirj rkrl : keeps (f_g0_2d4d one add mul inj e bc rirj rkrl) /\ keeps (f_g0_2d4d_2c one add mul inj e bc rirj rkrl).
  Proof.
    destruct (keeps_unr e bc rirj rkrl) as [H1 H2]. unfold f_g0_2d4d, f_g0_2d4d_2c. split.
    - repeat apply keeps_if; try assumption. apply keeps_seq; [apply keeps_2d|apply keeps_4d].
    - repeat apply keeps_if; try assumption. apply keeps_2d.
  Qed.
End Gen.

Lemma setup_keeps e A B C D bi bk kern bc : coulomb_setup e A B C D bi bk kern -> keeps (kern bc).
Proof. intros H. destruct H; apply keeps_sel. Qed.

Lemma keeps_put gs lo cnt w : keeps (put_w gs lo cnt w).
Proof. unfold put_w. apply keeps_for. intros n. apply keeps_wr1. Qed.
Lemma keeps_scale gs lo hi f : keeps (scale_w gs lo hi f).
Proof. unfold scale_w. apply keeps_for. intros n. apply keeps_upd. Qed.

Section Real.
  Variables (kern : @rys2e R -> arr R -> option (arr R)) (e : envs).
  Hypothesis HK : forall bc, keeps (kern bc).
  Lemma fin_keeps fac1 aij akl u rij rkl rx ry m g : grow m g ->
    post (finish_2e kern e fac1 aij akl u rij rkl rx ry g) (fun bg => grow m (snd bg)).
  Proof.
    intros G. unfold finish_2e. destruct (_ =? 1).
    - apply post_bind. eapply post_mono; [apply (post_keep (fun g => wr g 0 1%R) m g (keeps_wr1 _ _) G)|]. clear g G. intros g G.
      apply post_bind. eapply post_mono; [apply (post_keep (fun g => wr g 1 1%R) m g (keeps_wr1 _ _) G)|]. clear g G. intros g G.
      apply post_bind, post_any. intros v. apply post_bind.
      eapply post_mono; [apply (post_keep (fun g => wr g 2 (v * fac1)%R) m g (keeps_wr1 _ _) G)|]. clear g G. intros g G. apply post_ret, G.
    - apply post_bind. eapply post_mono; [apply (post_keep _ m g (keeps_scale _ _ _ _) G)|]. clear g G. intros g G.
      apply post_bind. eapply post_mono; [apply (post_keep _ m g (HK _) G)|]. clear g G. intros g G. apply post_ret, G.
  Qed.
  Lemma g0_2e_keeps rys srys omega cutoff fac ai aj ak al rij rkl rx ry m :
    post (R_g0_2e rys srys kern e omega cutoff fac ai aj ak al rij rkl rx ry m) (fun bg => grow m (snd bg)).
  Proof.
    unfold R_g0_2e. cbv zeta. destruct (32 <? nrys_roots e); [intros x E; discriminate|].
    assert (PW : forall gs lo n w m1, grow m m1 -> post (put_w gs lo n w m1) (grow m)).
    { intros gs lo n w m1 G. apply (post_keep _ m m1 (keeps_put _ _ _ _) G). }
    assert (WR : forall p (v : R) m1, grow m m1 -> post (wr m1 p v) (grow m)).
    { intros p v m1 G. apply (post_keep (fun m => wr m p v) m m1 (keeps_wr1 _ _) G). }
    destruct (Req_EM_T omega 0).
    { destruct (rys _ _) as [u w]. apply post_bind. eapply post_mono; [apply PW, grow_refl|]. intros g G. apply fin_keeps, G. }
    destruct (Rlt_dec omega 0).
    2:{ destruct (rys _ _) as [u w]. apply post_bind. eapply post_mono; [apply PW, grow_refl|]. intros g G. apply fin_keeps, G. }
    destruct (Rlt_dec cutoff _); [apply post_ret, grow_refl|]. destruct (Rlt_dec 40 _); [apply post_ret, grow_refl|].
    destruct (_ =? _).
    { destruct (srys _ _ _) as [u w]. apply post_bind. eapply post_mono; [apply PW, grow_refl|]. intros g G. apply fin_keeps, G. }
    destruct (rys _ _) as [u1 w1]. apply post_bind. eapply post_mono; [apply PW, grow_refl|]. intros g G.
    destruct (rys _ _) as [u2 w2]. apply post_bind. eapply post_mono; [apply PW, G|]. clear g G. intros g G.
    destruct (_ =? _).
    - do 4 (apply post_bind; eapply post_mono; [apply WR, G|]; clear g G; intros g G).
      apply post_bind, post_any. intros v. apply post_bind. eapply post_mono; [apply WR, G|]. clear g G. intros g G.
      apply post_bind, post_any. intros v'. apply post_bind. eapply post_mono; [apply WR, G|]. clear g G. intros g G. apply post_ret, G.
    - apply post_bind. eapply post_mono; [apply (post_keep _ m g (keeps_scale _ _ _ _) G)|]. clear g G. intros g G. apply fin_keeps, G.
  Qed.
End Real.

Lemma grow_filled {T} (m m' : arr T) : grow m m' -> filled m -> filled m'.
Proof.
  intros [Es Hc] Hf q Hq. rewrite Es in Hq. destruct (Hf q Hq) as [v Hv]. unfold rd, inb in *.
  rewrite Es. destruct (_ && _)%bool; [|discriminate]. destruct (acell m' q) eqn:Ec; [eauto|]. exfalso. apply (Hc q); [congruence|exact Ec].
Qed.
