From Coq Require Import Reals Lra ZifyBool.
From Verif Require Import Base BoysModel BoysSpec BoysProof RysModel RysSpec RysProof.
Ltac Zify.zify_post_hook ::= Z.div_mod_to_equations.

(** ** memory safety of the dispatchers *)
Section Safe.
  Variable run : solver -> Z -> R -> R -> arr R -> arr R -> option res.
  Variables (n : Z) (x l : R).
  Hypothesis Hrun : forall s u w, n <= asize u -> n <= asize w -> wp (run s n x l u w) (okres n u w).

  Definition okd (u w : arr R) (r : Z * dst) : Prop :=
    let '(e, (_, u', w')) := r in more u u' /\ more w w' /\ (e = 0 -> inited u' 0 n /\ inited w' 0 n).

  Lemma call_safe s log u w : n <= asize u -> n <= asize w -> wp (call run s n x l (log, u, w)) (okd u w).
  Proof.
    intros Hu Hw. unfold call. apply wp_bind. eapply wp_mono; [apply Hrun; auto|].
    intros [[e u'] w'] H. exact H.
  Qed.

  Lemma fallback_safe u w r : n <= asize u -> n <= asize w -> okd u w r -> wp (fallback run n x l r) (okd u w).
  Proof.
    intros Hu Hw H. unfold fallback. destruct r as [e [[log u'] w']]. cbn [fst snd]. destruct (negb (e =? 0)); [|exact H].
    destruct H as [M1 [M2 _]]. eapply wp_mono; [apply call_safe; [destruct M1; lia|destruct M2; lia]|].
    intros [e2 [[log2 u2] w2]] [N1 [N2 N3]]. split; [eapply more_trans; eauto|]. split; [eapply more_trans; eauto|exact N3].
  Qed.

  Lemma seg_safe log u w bp f1 f2 : n <= asize u -> n <= asize w -> wp (segment_solve run n x l (log, u, w) bp f1 f2) (okd u w).
  Proof.
    intros Hu Hw. unfold segment_solve. apply wp_bind.
    destruct (Rle_dec x bp); (eapply wp_mono; [apply call_safe; auto|]); intros rr Hr; apply fallback_safe; auto.
  Qed.

  Lemma seg1_safe log u w b1 b2 bp f1 f2 f3 : n <= asize u -> n <= asize w ->
    wp (segment_solve1 run n x l (log, u, w) b1 b2 bp f1 f2 f3) (okd u w).
  Proof.
    intros Hu Hw. unfold segment_solve1. destruct (Rlt_dec l b1); [|destruct (Rlt_dec l b2)].
    - apply wp_bind. destruct (Rle_dec x bp); (eapply wp_mono; [apply call_safe; auto|]); intros rr Hr; apply fallback_safe; auto.
    - apply wp_bind. eapply wp_mono; [apply call_safe; auto|]. intros rr Hr; apply fallback_safe; auto.
    - cbn [wp okd]. split; [apply more_refl|]. split; [apply more_refl|discriminate].
  Qed.

  Lemma fit_safe fit log u w k : n <= asize u -> n <= asize w ->
    (forall log u' w', n <= asize u' -> n <= asize w' -> wp (k (log, u', w')) (okd u' w')) ->
    wp (with_fit run fit n x l (log, u, w) k) (okd u w).
  Proof.
    intros Hu Hw Hk. unfold with_fit. destruct fit; [|apply Hk; auto]. destruct (Rlt_dec l (6 / 10)); [|apply Hk; auto].
    apply wp_bind. eapply wp_mono; [apply call_safe; auto|]. intros [e [[log2 u2] w2]] H. cbn [fst snd].
    destruct (e =? 0); [exact H|]. destruct H as [M1 [M2 _]].
    eapply wp_mono; [apply Hk; [destruct M1; lia|destruct M2; lia]|].
    intros [e3 [[log3 u3] w3]] [N1 [N2 N3]]. split; [eapply more_trans; eauto|]. split; [eapply more_trans; eauto|exact N3].
  Qed.

End Safe.


Lemma sr_default run fit n x l u w : 24 < n -> CINTsr_rys_roots run fit n x l u w = Some (1, ([], u, w)).
Proof.
  intros H. unfold CINTsr_rys_roots. cbv zeta. destruct n as [|p|p]; try lia.
  repeat (destruct p as [p|p|]; try lia; try reflexivity).
Qed.

Section Sr.
  Variable run : solver -> Z -> R -> R -> arr R -> arr R -> option res.
  Lemma sr_safe fit n x l u w :
    (forall s u w, n <= asize u -> n <= asize w -> wp (run s n x l u w) (okres n u w)) ->
    1 <= n -> n <= asize u -> n <= asize w -> wp (CINTsr_rys_roots run fit n x l u w) (okd n u w).
  Proof.
    intros Hrun Hn Hu Hw.
    assert (F : wp (Some (1, ([], u, w) : dst)) (okd n u w)).
    { cbn [wp okd]. split; [apply more_refl|]. split; [apply more_refl|discriminate]. }
    assert (G : forall b1 b2 bp f1 f2 f3, wp (r <- segment_solve1 run n x l ([], u, w) b1 b2 bp f1 f2 f3 ;; Some (1, snd r)) (okd n u w)).
    { intros. apply wp_bind. eapply wp_mono; [apply (seg1_safe run n x l Hrun); auto|]. intros [e [[log2 u2] w2]] [N1 [N2 N3]]. cbn [wp snd okd].
      split; [exact N1|]. split; [exact N2|discriminate]. }
    assert (K : forall a b bp f1 f2 c1 c2 log u w, n <= asize u -> n <= asize w ->
       wp (if Rlt_dec l a then call run c1 n x l (log, u, w) else if Rlt_dec l b then segment_solve run n x l (log, u, w) bp f1 f2 else call run c2 n x l (log, u, w)) (okd n u w)).
    { intros. destruct (Rlt_dec l a); [apply call_safe; auto|]. destruct (Rlt_dec l b); [apply seg_safe; auto|apply call_safe; auto]. }
    assert (K2 : forall a b bp1 bp f3 f4 f1 f2 c2 log u w, n <= asize u -> n <= asize w ->
       wp (if Rlt_dec l a then segment_solve run n x l (log, u, w) bp1 f3 f4 else if Rlt_dec l b then segment_solve run n x l (log, u, w) bp f1 f2 else call run c2 n x l (log, u, w)) (okd n u w)).
    { intros. destruct (Rlt_dec l a); [apply seg_safe; auto|]. destruct (Rlt_dec l b); [apply seg_safe; auto|apply call_safe; auto]. }
    destruct (Z_lt_dec 24 n) as [L|L]; [rewrite sr_default by lia; exact F|].
    assert (C : n = 1 \/ n = 2 \/ n = 3 \/ n = 4 \/ n = 5 \/ n = 6 \/ n = 7 \/ n = 8 \/ n = 9 \/ n = 10 \/ n = 11 \/ n = 12 \/
      n = 13 \/ n = 14 \/ n = 15 \/ n = 16 \/ n = 17 \/ n = 18 \/ n = 19 \/ n = 20 \/ n = 21 \/ n = 22 \/ n = 23 \/ n = 24) by lia.
    clear L Hn.
    assert (D2 : wp (if Rlt_dec l (99 / 100) then call run (Schmidt DP) n x l ([], u, w) else call run (Jacobi QP) n x l ([], u, w)) (okd n u w))
      by (destruct (Rlt_dec l (99 / 100)); apply call_safe; assumption).
    repeat (destruct C as [C|C]; [subst n; unfold CINTsr_rys_roots; cbv beta iota zeta; first
      [exact D2 | apply call_safe; assumption | apply seg1_safe; assumption | apply G
      | apply fit_safe; [assumption|assumption|assumption|intros; first [apply K; assumption|apply K2; assumption]]
      | apply K2; assumption]|]).
    subst n; unfold CINTsr_rys_roots; cbv beta iota zeta. apply seg1_safe; assumption.
  Qed.

  Variables SR0 SR1 SW0 SW1 LRT LWW : arr R.
  Hypothesis T0 : table SR0 496. Hypothesis T1 : table SR1 496.
  Hypothesis T2 : table SW0 496. Hypothesis T3 : table SW1 496.
  Hypothesis T4 : table LRT 496. Hypothesis T5 : table LWW 496.

  Lemma roots_default n : 13 <= n -> forall A (a1 a2 a3 a4 a5 a6 a : A),
    match n with 1 | 2 | 3 | 4 | 5 => a1 | 6 | 7 => a2 | 8 => a3 | 9 => a4 | 10 | 11 => a5 | 12 => a6 | _ => a end = a.
  Proof.
    intros H. destruct n as [|p|p]; try lia.
    repeat (destruct p as [p|p|]; try lia; try reflexivity).
  Qed.

  Lemma roots_safe n x u w :
    (forall s u w, n <= asize u -> n <= asize w -> wp (run s n x 0 u w) (okres n u w)) ->
    1 <= n <= 31 -> n <= asize u -> n <= asize w -> wp (CINTrys_roots run SR0 SR1 SW0 SW1 LRT LWW n x u w) (okd n u w).
  Proof.
    intros Hrun Hn Hu Hw. unfold CINTrys_roots. cbv zeta.
    assert (O : forall i, 0 <= i < n -> 0 <= n * (n - 1) / 2 + i < 496).
    { intros i Hi. pose proof (tri_mono (n - 1) 31 ltac:(lia) i ltac:(lia)) as B. replace (n - 1 + 1) with n in B by lia.
      rewrite (Z.mul_comm (n - 1)) in B. exact B. }
    destruct (Rle_dec x SMALLX_LIMIT); [|destruct (Rle_dec (35 + IZR n * 5) x)].
    - apply wp_bind. apply (wp_for (fun k st => more u (fst st) /\ more w (snd st) /\ inited (fst st) 0 k /\ inited (snd st) 0 k)); [lia| | |].
      + cbn [fst snd]. repeat split; auto; apply inited_nil; lia.
      + intros k [u' w'] Hk (A1 & A2 & A3 & A4). cbn [fst snd] in *. specialize (O k Hk).
        apply wp_bind. apply wpr; [apply T0, O|]. intros ? _. apply wp_bind. apply wpr; [apply T1, O|]. intros ? _.
        apply wp_bind. apply wpw; [destruct A1; lia|]. intros u2 M R.
        apply wp_bind. apply wpr; [apply T2, O|]. intros ? _. apply wp_bind. apply wpr; [apply T3, O|]. intros ? _.
        apply wp_bind. apply wpw; [destruct A2; lia|]. intros w2 M' R'.
        cbn [wp fst snd]. split; [eapply more_trans; eauto|]. split; [eapply more_trans; eauto|].
        split; (apply inited_snoc; [eapply more_inited; eauto|assumption]).
      + intros [u' w'] (A1 & A2 & A3 & A4). cbn [fst snd wp okd] in *. auto.
    - apply wp_bind. apply (wp_for (fun k st => more u (fst st) /\ more w (snd st) /\ inited (fst st) 0 k /\ inited (snd st) 0 k)); [lia| | |].
      + cbn [fst snd]. repeat split; auto; apply inited_nil; lia.
      + intros k [u' w'] Hk (A1 & A2 & A3 & A4). cbn [fst snd] in *. specialize (O k Hk).
        apply wp_bind. apply wpr; [apply T4, O|]. intros ? _. apply wp_bind. apply wpw; [destruct A1; lia|]. intros u2 M R.
        apply wp_bind. apply wpr; [apply T5, O|]. intros ? _. apply wp_bind. apply wpw; [destruct A2; lia|]. intros w2 M' R'.
        cbn [wp fst snd]. split; [eapply more_trans; eauto|]. split; [eapply more_trans; eauto|].
        split; (apply inited_snoc; [eapply more_inited; eauto|assumption]).
      + intros [u' w'] (A1 & A2 & A3 & A4). cbn [fst snd wp okd] in *. auto.
    - clear O. destruct (Z_le_dec 13 n) as [L|L]; [rewrite roots_default by exact L; apply seg_safe; assumption|].
      assert (C : n = 1 \/ n = 2 \/ n = 3 \/ n = 4 \/ n = 5 \/ n = 6 \/ n = 7 \/ n = 8 \/ n = 9 \/ n = 10 \/ n = 11 \/ n = 12) by lia.
      clear L. repeat (destruct C as [C|C]; [subst n; cbv iota; first [apply call_safe; assumption | apply seg_safe; assumption]|]).
      subst n. cbv iota. apply seg_safe; assumption.
  Qed.
End Sr.

(** ** the solvers behind the names *)
Section Lib.
  Variable ord : arr Z.
  Hypothesis Hord : order_table ord 64.
  Variable diagonalize : Z -> (Z -> option R) -> (Z -> option R) -> Z * (Z -> R) * (Z -> R).
  Variable polynomial_roots : (Z -> option R) -> Z -> Z * (Z -> R).
  Variable rys_root : Z -> R -> (Z -> R) * (Z -> R).
  Variable polyfits : Z -> R -> R -> Z * (Z -> R) * (Z -> R).
  Variable tabs : P3 -> prec.

  Lemma three (P : P3 -> nat -> Prop) : (forall p, exists N, forall f, (N <= f)%nat -> P p f) ->
    exists N, forall p f, (N <= f)%nat -> P p f.
  Proof.
    intros H. destruct (H DP) as [a Ha], (H LP) as [b Hb], (H QP) as [c Hc]. exists (a + b + c)%nat.
    intros [] f Hf; [apply Ha|apply Hb|apply Hc]; lia.
  Qed.

  Lemma lib_runs n x l : (quad_build tabs /\ (n <= 14 \/ l <> 0%R) \/ no_quad_build tabs) -> 1 <= n <= 19 ->
    (0 <= x)%R -> (0 <= l <= 1)%R ->
    exists N, forall fuel, (N <= fuel)%nat -> forall s u w, n <= asize u -> n <= asize w ->
      wp (library fuel ord diagonalize polynomial_roots rys_root polyfits tabs s n x l u w) (okres n u w).
  Proof.
    intros B Hn Hx Hl.
    assert (S : forall p, (0 < pSML (tabs p) < 1)%R).
    { assert (forall p rows len extra, has_tables p rows len extra -> (0 < pSML p < 1)%R) as S by (intros ? ? ? ? H; apply H).
      destruct B as [[(H1 & H2 & H3) _]|(H1 & H2 & H3)]; intros []; try rewrite H3; eapply S; eassumption. }
    assert (J : forall p, exists N, forall fuel, (N <= fuel)%nat -> forall u w, n <= asize u -> n <= asize w ->
       wp (rys_jacobi fuel ord diagonalize (tabs p) n x l u w) (okres n u w)).
    { destruct B as [[(H1 & H2 & H3) Hc]|(H1 & H2 & H3)]; intros []; try rewrite H3;
        (eapply (jac_runs diagonalize polynomial_roots); [exact Hord|eassumption|lia|lia|lia|exact Hx|exact Hl|intros E; split; try lia]).
      all: destruct Hc as [Hc|Hc]; [lia|contradiction]. }
    assert (Sc : forall p, exists N, forall fuel, (N <= fuel)%nat -> forall u w, n <= asize u -> n <= asize w ->
       wp (rys_schmidt fuel polynomial_roots (tabs p) n x l u w) (okres n u w)).
    { intros p. apply (sch_runs diagonalize polynomial_roots); auto. }
    apply (three (fun p fuel => forall u w, n <= asize u -> n <= asize w ->
       wp (rys_jacobi fuel ord diagonalize (tabs p) n x l u w) (okres n u w))) in J.
    apply (three (fun p fuel => forall u w, n <= asize u -> n <= asize w ->
       wp (rys_schmidt fuel polynomial_roots (tabs p) n x l u w) (okres n u w))) in Sc.
    destruct J as [N1 J], Sc as [N2 Sc]. exists (N1 + N2)%nat. intros fuel Hf s u w Hu Hw. destruct s as [p|p|p| |]; cbn [library].
    - apply Sc; auto; lia.
    - first [apply (lag_runs diagonalize polynomial_roots)|apply (lag_runs diagonalize)]; auto; lia.
    - apply J; auto; lia.
    - apply wp_bind. eapply wp_mono; [apply wp_fill; lia|]. intros u' [Mu Iu].
      apply wp_bind. eapply wp_mono; [apply wp_fill; lia|]. intros w' [Mw Iw]. cbn [wp okres]. auto.
    - destruct (polyfits n x l) as [[e r] v]. apply wp_bind. eapply wp_mono; [apply wp_fill; lia|]. intros u' [Mu Iu].
      apply wp_bind. eapply wp_mono; [apply wp_fill; lia|]. intros w' [Mw Iw]. cbn [wp okres]. auto.
  Qed.
End Lib.

Lemma okd_good n u w r : wp r (okd n u w) -> good_result n r.
Proof.
  destruct r as [[e [[log u'] w']]|]; [|contradiction]. intros [_ [_ H]]. exists e, log, u', w'. split; [reflexivity|exact H].
Qed.

(** ** the logs *)
Section Log.
  Variable run : solver -> Z -> R -> R -> arr R -> arr R -> option res.
  Definition logok (log0 : list (solver * Z)) (r : option (Z * dst)) : Prop :=
    forall e log u w, r = Some (e, (log, u, w)) ->
      exists d, log = log0 ++ d /\ d <> [] /\ (e <> 0 <-> all_failed d).

  Lemma call_log s n x l log u w : logok log (call run s n x l (log, u, w)).
  Proof.
    intros e log' u' w' E. unfold call in E. destruct (run s n x l u w) as [[[e2 u2] w2]|]; [|discriminate].
    cbn [bind] in E. injection E as <- <- <- <-. exists [(s, e2)]. split; [reflexivity|]. split; [discriminate|].
    unfold all_failed. split; [intros H; constructor; [exact H|constructor]|intros H; inversion H; assumption].
  Qed.

  Lemma fallback_log n x l log0 (m : option (Z * dst)) : logok log0 m -> logok log0 (r <- m ;; fallback run n x l r).
  Proof.
    intros H e log u w E. destruct m as [[e1 [[log1 u1] w1]]|]; [|discriminate]. cbn [bind] in E.
    destruct (H _ _ _ _ eq_refl) as [d [-> [Hd Hf]]]. unfold fallback in E. cbn [fst snd] in E.
    destruct (e1 =? 0) eqn:E1; cbn [negb] in E.
    - injection E as <- <- <- <-. exists d. auto.
    - destruct (call_log (Schmidt QP) n x l (log0 ++ d) u1 w1 _ _ _ _ E) as [d2 [-> [_ Hd2]]].
      exists (d ++ d2). split; [rewrite app_assoc; reflexivity|]. split; [destruct d; [contradiction|discriminate]|].
      unfold all_failed in *. rewrite Forall_app. rewrite Hd2. split; [intros; split; [apply Hf; lia|assumption]|tauto].
  Qed.

  Lemma seg_log n x l log u w bp f1 f2 : logok log (segment_solve run n x l (log, u, w) bp f1 f2).
  Proof. unfold segment_solve. apply fallback_log. destruct (Rle_dec x bp); apply call_log. Qed.

  Lemma seg1_log n x l log u w b1 b2 bp f1 f2 f3 : (b1 <= b2)%R -> (l < b2)%R ->
    logok log (segment_solve1 run n x l (log, u, w) b1 b2 bp f1 f2 f3).
  Proof.
    intros Hb Hl. unfold segment_solve1. destruct (Rlt_dec l b1); [|destruct (Rlt_dec l b2); [|contradiction]].
    - apply fallback_log. destruct (Rle_dec x bp); apply call_log.
    - apply fallback_log. apply call_log.
  Qed.

  Lemma fit_log fit n x l log u w k : (forall log u w, logok log (k (log, u, w))) ->
    logok log (with_fit run fit n x l (log, u, w) k).
  Proof.
    intros Hk. unfold with_fit. destruct fit; [|apply Hk]. destruct (Rlt_dec l (6 / 10)); [|apply Hk].
    intros e log' u' w' E. destruct (call run Polyfit n x l (log, u, w)) as [[e1 [[log1 u1] w1]]|] eqn:C; [|discriminate].
    destruct (call_log _ _ _ _ _ _ _ _ _ _ _ C) as [d [-> [Hd Hf]]]. cbn [bind fst snd] in E. destruct (e1 =? 0) eqn:E1.
    - injection E as <- <- <- <-. exists d. auto.
    - destruct (Hk _ _ _ _ _ _ _ E) as [d2 [-> [_ Hd2]]]. exists (d ++ d2). split; [rewrite app_assoc; reflexivity|].
      split; [destruct d; [contradiction|discriminate]|].
      unfold all_failed in *. rewrite Forall_app. rewrite Hd2. split; [intros; split; [apply Hf; lia|assumption]|tauto].
  Qed.
End Log.

Lemma sr_log run fit n x l u w : 1 <= n <= 24 -> n <> 17 -> n <> 18 -> below_limit n l ->
  logok [] (CINTsr_rys_roots run fit n x l u w).
Proof.
  intros Hn H17 H18 Hb.
  assert (K : forall a b bp f1 f2 c1 c2 log u w,
     logok log (if Rlt_dec l a then call run c1 n x l (log, u, w) else if Rlt_dec l b then segment_solve run n x l (log, u, w) bp f1 f2 else call run c2 n x l (log, u, w))).
  { intros. destruct (Rlt_dec l a); [apply call_log; auto|]. destruct (Rlt_dec l b); [apply seg_log; auto|apply call_log; auto]. }
  assert (K2 : forall a b bp1 bp f3 f4 f1 f2 c2 log u w,
     logok log (if Rlt_dec l a then segment_solve run n x l (log, u, w) bp1 f3 f4 else if Rlt_dec l b then segment_solve run n x l (log, u, w) bp f1 f2 else call run c2 n x l (log, u, w))).
  { intros. destruct (Rlt_dec l a); [apply seg_log; auto|]. destruct (Rlt_dec l b); [apply seg_log; auto|apply call_log; auto]. }
  assert (D2 : forall c1 c2, logok [] (if Rlt_dec l (99 / 100) then call run c1 n x l ([], u, w) else call run c2 n x l ([], u, w)))
      by (intros; destruct (Rlt_dec l (99 / 100)); apply call_log).
  assert (C : n = 1 \/ n = 2 \/ n = 3 \/ n = 4 \/ n = 5 \/ n = 6 \/ n = 7 \/ n = 8 \/ n = 9 \/ n = 10 \/ n = 11 \/ n = 12 \/
      n = 13 \/ n = 14 \/ n = 15 \/ n = 16 \/ n = 19 \/ n = 20 \/ n = 21 \/ n = 22 \/ n = 23 \/ n = 24) by lia.
  clear Hn H17 H18.
  repeat (destruct C as [C|C]; [subst n; unfold CINTsr_rys_roots; cbv beta iota zeta; cbn in Hb; first
      [apply D2 | apply call_log | apply seg1_log; lra | apply fit_log; intros; first [apply K|apply K2]
      | apply K2]|]).
  subst n; unfold CINTsr_rys_roots; cbv beta iota zeta; cbn in Hb; apply seg1_log; lra.
Qed.

Lemma sr_fails run fit n x l u w e log u' w' : 1 <= n <= 24 -> n <> 17 -> n <> 18 -> below_limit n l ->
  CINTsr_rys_roots run fit n x l u w = Some (e, (log, u', w')) -> log <> [] /\ (e <> 0 <-> all_failed log).
Proof.
  intros H1 H2 H3 H4 E. destruct (sr_log run fit n x l u w H1 H2 H3 H4 _ _ _ _ E) as [d [-> [Hd Hf]]]. split; assumption.
Qed.

Lemma roots_log run S0 S1 W0 W1 RT WW n x u w e log u' w' :
  CINTrys_roots run S0 S1 W0 W1 RT WW n x u w = Some (e, (log, u', w')) -> e <> 0 -> log <> [] /\ all_failed log.
Proof.
  unfold CINTrys_roots. cbv zeta. intros E He.
  destruct (Rle_dec x SMALLX_LIMIT); [|destruct (Rle_dec (35 + IZR n * 5) x)].
  1,2: match type of E with (bind ?m _) = _ => destruct m as [[? ?]|]; [|discriminate] end; cbn [bind fst snd] in E; injection E as <- _ _ _; contradiction.
  assert (L : logok [] (Some (e, (log, u', w')))); [|destruct (L _ _ _ _ eq_refl) as [d [-> [Hd Hf]]]; split; [exact Hd|apply Hf, He]].
  rewrite <- E. clear E. destruct n as [|p|p]; try apply seg_log.
  repeat (destruct p as [p|p|]; try apply seg_log; try apply call_log).
Qed.

(** 17 and 18 roots: the result of the solver is dropped. *)
Lemma sr_17 run fit n x l u w u' w' : n = 17 \/ n = 18 -> (65 / 100 <= l)%R \/
   (15 / 100 <= l < 65 / 100)%R /\ (25 / 100 <= l)%R /\ run (Jacobi QP) n x l u w = Some (0, u', w') ->
  exists st, CINTsr_rys_roots run fit n x l u w = Some (1, st).
Proof.
  intros Hn H. destruct Hn as [-> | ->]; unfold CINTsr_rys_roots, segment_solve1; cbv beta iota zeta.
  - destruct (Rlt_dec l (25 / 100)) as [A|A]; [exfalso; lra|]. destruct (Rlt_dec l (65 / 100)).
    + destruct H as [H|[_ [_ H]]]; [exfalso; lra|]. unfold call. rewrite H. cbn. eexists. reflexivity.
    + cbn. eexists. reflexivity.
  - destruct (Rlt_dec l (15 / 100)) as [A|A]; [exfalso; lra|]. destruct (Rlt_dec l (65 / 100)).
    + destruct H as [H|[_ [_ H]]]; [exfalso; lra|]. unfold call. rewrite H. cbn. eexists. reflexivity.
    + cbn. eexists. reflexivity.
Qed.

Lemma sr_17_bad (run : solver -> Z -> R -> R -> arr R -> arr R -> option res) fit n x l u w :
  n = 17 \/ n = 18 -> (forall s u w, run s n x l u w = Some (0, u, w)) -> (0 <= l < 65 / 100)%R ->
  exists s st, CINTsr_rys_roots run fit n x l u w = Some (1, ([(s, 0)], fst st, snd st)).
Proof.
  intros Hn H Hl. destruct Hn as [-> | ->]; unfold CINTsr_rys_roots, segment_solve1; cbv beta iota zeta.
  - destruct (Rlt_dec l (25 / 100)) as [A|A]; [destruct (Rle_dec x 60)|destruct (Rlt_dec l (65 / 100)) as [B|B]; [|exfalso; lra]];
      unfold call; rewrite H; cbn; eexists; exists (u, w); reflexivity.
  - destruct (Rlt_dec l (15 / 100)) as [A|A]; [destruct (Rle_dec x 60)|destruct (Rlt_dec l (65 / 100)) as [B|B]; [|exfalso; lra]];
      unfold call; rewrite H; cbn; eexists; exists (u, w); reflexivity.
Qed.

Lemma sr_no_solver run fit n x l u w b : sr_limit n = Some b -> (b <= l)%R -> 7 <= n <= 24 ->
  CINTsr_rys_roots run fit n x l u w = Some (1, ([], u, w)).
Proof.
  intros Hb Hl Hn.
  assert (C : n = 7 \/ n = 8 \/ n = 9 \/ n = 10 \/ n = 11 \/ n = 12 \/ n = 13 \/ n = 14 \/ n = 15 \/ n = 16 \/ n = 17 \/ n = 18 \/
     n = 19 \/ n = 20 \/ n = 21 \/ n = 22 \/ n = 23 \/ n = 24) by lia.
  clear Hn.
  assert (S : forall b1 bp f1 f2 f3, (b1 <= b)%R -> segment_solve1 run n x l ([], u, w) b1 b bp f1 f2 f3 = Some (1, ([], u, w))).
  { intros b1 bp f1 f2 f3 H. unfold segment_solve1. destruct (Rlt_dec l b1); [exfalso; lra|]. destruct (Rlt_dec l b); [exfalso; lra|reflexivity]. }
  repeat (destruct C as [C|C]; [subst n; cbn in Hb; injection Hb as <-; unfold CINTsr_rys_roots; cbv beta iota zeta;
    rewrite S by lra; reflexivity|]).
  subst n; cbn in Hb; injection Hb as <-; unfold CINTsr_rys_roots; cbv beta iota zeta; rewrite S by lra; reflexivity.
Qed.

(** ** out-of-bounds reads *)
Section Bad.
  Variable fuel : nat.
  Variable ord : arr Z.
  Variable diagonalize : Z -> (Z -> option R) -> (Z -> option R) -> Z * (Z -> R) * (Z -> R).
  Variable polynomial_roots : (Z -> option R) -> Z -> Z * (Z -> R).
  Variable rys_root : Z -> R -> (Z -> R) * (Z -> R).
  Variable polyfits : Z -> R -> R -> Z * (Z -> R) * (Z -> R).
  Variable tabs : P3 -> prec.
  Notation lib := (library fuel ord diagonalize polynomial_roots rys_root polyfits tabs).

  Lemma rd_oob {A} (a : arr A) i : asize a <= i -> rd a i = None.
  Proof. intros H. unfold rd, inb. destruct (i <? asize a) eqn:E; [lia|]. rewrite andb_false_r. reflexivity. Qed.

  Lemma flocke_oob p n t mus : asize (pRN p) <= n - 1 + pEXTRA p -> 1 <= pEXTRA p -> (SMALLX_LIMIT <= t)%R ->
    flocke_jacobi_moments fuel p ord n t mus = None.
  Proof.
    intros Ho He Ht. unfold flocke_jacobi_moments. destruct (Rlt_dec t SMALLX_LIMIT) as [L|_]; [exfalso; lra|].
    cbv zeta. unfold fordown at 1. rewrite for_step by lia. rewrite rd_oob by lia. reflexivity.
  Qed.

  Lemma roots_oob S0 S1 W0 W1 RT WW n x u w : quad_build tabs -> 15 <= n -> (SMALLX_LIMIT < x <= 50)%R ->
    CINTrys_roots lib S0 S1 W0 W1 RT WW n x u w = None.
  Proof.
    intros (_ & _ & Q) Hn Hx. unfold CINTrys_roots. cbv zeta. destruct (Rle_dec x SMALLX_LIMIT) as [L|_]; [exfalso; lra|].
    destruct (Rle_dec (35 + IZR n * 5) x) as [L|_].
    { exfalso. assert (15 <= IZR n)%R by (apply IZR_le; lia). lra. }
    rewrite roots_default by lia. unfold segment_solve. destruct (Rle_dec x 50) as [_|L]; [|exfalso; lra].
    unfold call, library. cbn [bind]. unfold rys_jacobi. destruct (Req_EM_T 0 0) as [_|N]; [|contradiction].
    destruct Q as (_ & _ & [Rn _] & _ & _ & E & _).
    rewrite flocke_oob; [reflexivity|rewrite Rn, E; lia|rewrite E; lia|lra].
  Qed.

  Lemma roots_32 S0 S1 W0 W1 RT WW x u w : table S0 496 -> (x <= SMALLX_LIMIT)%R ->
    CINTrys_roots lib S0 S1 W0 W1 RT WW 32 x u w = None.
  Proof.
    intros [T _] Hx. unfold CINTrys_roots. cbv zeta. destruct (Rle_dec x SMALLX_LIMIT) as [_|L]; [|exfalso; lra].
    rewrite for_step by lia. rewrite rd_oob; [reflexivity|]. rewrite T. change (32 * (32 - 1) / 2) with 496. lia.
  Qed.

  Lemma erfc_oob sml f t l m : 40 <= m -> (t <> 0)%R -> (t * (l * l) <= 200)%R -> fmt_erfc_like sml fuel f t l m = None.
  Proof.
    intros Hm Ht Hb. unfold fmt_erfc_like. destruct (Req_EM_T l 0); [apply turnover_oob; auto|]. cbv zeta.
    destruct (Rlt_dec ERFC_bound (t * (l * l))) as [L|_]; [unfold ERFC_bound in L; exfalso; lra|].
    destruct (Req_EM_T t 0) as [N|_]; [contradiction|]. rewrite rd_oob; [reflexivity|]. cbn. lia.
  Qed.

  Lemma sr_oob fit n x l u w : 21 <= n <= 24 -> (0 < x)%R -> (x * (l * l) <= 200)%R -> (25 / 100 <= l < 35 / 100)%R ->
    CINTsr_rys_roots lib fit n x l u w = None.
  Proof.
    intros Hn Hx Hb Hl.
    assert (J : rys_jacobi fuel ord diagonalize (tabs QP) n x l u w = None).
    { unfold rys_jacobi. destruct (Req_EM_T l 0) as [E|_]; [exfalso; lra|]. unfold naive_jacobi_moments.
      rewrite erfc_oob; [reflexivity|lia|lra|exact Hb]. }
    assert (S : forall b1 b2 bp f1 f2, (b1 <= 25 / 100)%R -> (35 / 100 <= b2)%R -> segment_solve1 lib n x l ([], u, w) b1 b2 bp f1 f2 (Jacobi QP) = None).
    { intros b1 b2 bp f1 f2 H1 H2. unfold segment_solve1. destruct (Rlt_dec l b1); [exfalso; lra|]. destruct (Rlt_dec l b2); [|exfalso; lra].
      unfold call, library. rewrite J. reflexivity. }
    assert (C : n = 21 \/ n = 22 \/ n = 23 \/ n = 24) by lia.
    destruct C as [-> |[-> |[-> | ->]]]; unfold CINTsr_rys_roots; cbv beta iota zeta; apply S; lra.
  Qed.
End Bad.
