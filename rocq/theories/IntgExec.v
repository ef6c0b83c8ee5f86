(** IntgExec.v — the whole integrand function: operator calls, then sums of products. *)
From Coq Require Import Reals Lra QArith Qreals FunctionalExtensionality.
From Coquelicot Require Import Coquelicot.
From Verif Require Import Base EnvModel RecLay OpProof OpSpec OpReal IntgModel IntgSpec IntgTab IntgStmt IntgCheck IntgStep IntgSem IntgRun.
Local Open Scope Z_scope.

Lemma kind3 (K : gkind) : K = K1 \/ K = K2 \/ K = KG. Proof. destruct K; auto. Qed.

Section Exec.
  Variables (fam : gfam) (om : bool) (ng : ngT) (l ctr : centre -> Z) (x : gin R) (K : gkind) (nblk : nat).
  Variable I : Z -> Z -> funs -> R.
  Hypothesis (H : lhyp fam ng l (x_bg x) K) (He : x_env x = fam_env fam om ng l ctr).
  Hypothesis Hlin : forall c, used fam c = true -> linear_in (x_a x) (x_R x) I c.
  Local Notation e := (x_env x).
  Local Notation gs := (g_size (x_env x)).
  Local Notation BV := (bv (x_a x) (x_R x) (x_C x) I).
  Local Notation INV := (Inv fam ng l x K nblk I).

  Lemma gs0 : 0 <= gs.
  Proof.
    assert (B : 0 <= cell e 0 (fun _ => 0) < gs); [|lia].
    rewrite He. apply (cell_bound fam om ng l ctr GRID_BLKSIZE K).
    - destruct H as (H1 & H2 & H3 & H4). repeat split; auto; unfold GRID_BLKSIZE; lia.
    - apply (zero_ofs _ _ _ _ _ _ _ H).
    - intros c. destruct H as (Hl & Hi & _). specialize (Hl c). specialize (Hi c).
      unfold top. destruct (used fam c); [specialize (Hl eq_refl)|]; lia.
  Qed.
  Lemma blk_mono k k' : (k <= k')%nat -> 3 * gs * Z.of_nat k <= 3 * gs * Z.of_nat k'.
  Proof. intros Hk. pose proof gs0. apply Z.mul_le_mono_nonneg_l; lia. Qed.
  Lemma blk_S k : 3 * gs * Z.of_nat (S k) = 3 * gs * Z.of_nat k + 3 * gs. Proof. lia. Qed.

  Lemma look_some st k b sh v ws : look st k = Some (b, sh, (v, ws)) ->
    nth_error (fst st) k = Some (b, sh) /\ nth_error (snd st) b = Some (Some (v, ws)).
  Proof.
    unfold look. intros E. apply bind_some in E. destruct E as ([b' sh'] & E1 & E). cbn [fst snd] in E.
    apply bind_some in E. destruct E as (ob & E2 & E). apply bind_some in E. destruct E as ([v' ws'] & E3 & E).
    injection E as -> -> -> ->. subst ob. auto.
  Qed.

  Lemma sum_ok t s st st' p m : INV st p m -> sym_op fam ng (GSum t s) st = Some st' ->
    exists m', run_op Rplus Rmult Rminus IZR x K (GSum t s) (p, m) = Some (p, m') /\ INV st' p m'.
  Proof.
    intros HI E. cbn [sym_op] in E. apply bind_some in E. destruct E as ([[b sh] [v ws]] & L1 & E).
    apply bind_some in E. destruct E as ([[b' sh'] [v' ws']] & L2 & E). apply bind_some in E. destruct E as (u & C & E).
    apply chk_some in C. apply andb_true_iff in C. destruct C as [C C3]. apply andb_true_iff in C. destruct C as [C1 C2].
    apply Bool.negb_true_iff in C1, C2, C3. apply Nat.eqb_neq in C3.
    destruct (look_some _ _ _ _ _ _ L1) as [P1 B1]. destruct (look_some _ _ _ _ _ _ L2) as [P2 B2].
    injection E as <-. pose proof HI as (N1 & N2 & Sz & Fu & P & B).
    assert (Pz : forall k b sh, nth_error (fst st) k = Some (b, sh) -> shifted sh = false -> (b < nblk)%nat /\ p k = 3 * gs * Z.of_nat b).
    { intros k b0 sh0 E Q. destruct (P _ _ _ E) as (Q1 & Q2 & _). split; [exact Q1|]. rewrite Q2. unfold dot4.
      rewrite (unshifted _ Q CI), (unshifted _ Q CJ), (unshifted _ Q CK), (unshifted _ Q CL). ring. }
    destruct (Pz _ _ _ P1 C1) as [Q1 Es]. destruct (Pz _ _ _ P2 C2) as [Q2 Et].
    pose proof gs0 as G0.
    assert (W : wp (for_ 0 (3 * gs) (fun ix m => v <- rd m (p t + ix) ;; w <- rd m (p s + ix) ;; wr m (p t + ix) (v + w)%R) m)
      (fun m' => Frame (fun q => p t <= q < p t + 3 * gs) m m' /\
         forall ix, 0 <= ix < 3 * gs -> rd m' (p t + ix) = Some (got m (p t + ix) + got m (p s + ix))%R)).
    { pose proof (blk_mono (S b) nblk ltac:(lia)). pose proof (blk_mono (S b') nblk ltac:(lia)).
      pose proof (blk_mono 0 b ltac:(lia)). pose proof (blk_mono 0 b' ltac:(lia)). rewrite !blk_S in *.
      apply sum_loop; try lia; [|exact Fu]. rewrite Es, Et. unfold apart.
      destruct (Nat.lt_ge_cases b b').
      - pose proof (blk_mono (S b) b' ltac:(lia)). rewrite blk_S in *. lia.
      - pose proof (blk_mono (S b') b ltac:(lia)). rewrite blk_S in *. lia. }
    apply wp_exists in W. destruct W as (m' & Em & [Fr HV]). exists m'. split.
    { cbn [run_op]. rewrite Em. reflexivity. }
    assert (G : grow m m').
    { clear HV Fr. eapply keeps_for; [|exact Em]. intros ix m1 m2 E. cbn beta in E.
      destruct (rd m1 (p t + ix)) as [u1|]; cbn in E; [|discriminate]. destruct (rd m1 (p s + ix)) as [u2|]; cbn in E; [|discriminate].
      apply (keeps_wr (p t + ix) (fun _ => Some (u1 + u2)%R) m1 m2). exact E. }
    split; [exact N1|]. split; [cbn; rewrite upd_length; exact N2|].
    split; [destruct G as [-> _]; exact Sz|]. split; [exact (full_grow _ _ Fu G)|]. split; [exact P|].
    cbn [snd]. intros b1 v1 ws1 E. rewrite nth_error_upd in E. destruct (Nat.eqb b1 b') eqn:Eb.
    - apply Nat.eqb_eq in Eb. subst b1. rewrite B2 in E. cbn in E. injection E as <- <-.
      destruct (B _ _ _ B1) as (F1 & V1 & R1). destruct (B _ _ _ B2) as (F2 & V2 & R2).
      split; [apply Forall_app; auto|]. split.
      + intros c U. rewrite vg_map2. specialize (V2 c U). lia.
      + intros ax o n Hax Ho Hn.
        assert (O1 : okn fam l (vg v) n). { intros c. specialize (Hn c). rewrite vg_map2 in Hn. destruct (used fam c); lia. }
        assert (O2 : okn fam l (vg v') n). { intros c. specialize (Hn c). rewrite vg_map2 in Hn. destruct (used fam c); lia. }
        specialize (R1 ax o n Hax Ho O1). specialize (R2 ax o n Hax Ho O2).
        assert (Cb : 0 <= cell e o n < gs).
        { rewrite He in *. apply (cell_bound fam om ng l ctr _ K H o n Ho). apply (okn_top fam ng l (vg v)); assumption. }
        pose proof (axis_bound gs ax _ Cb Hax).
        replace (ax * gs + (3 * gs * Z.of_nat b' + cell e o n)) with (p t + (ax * gs + cell e o n)) by lia.
        rewrite HV by assumption. rewrite bv_app. f_equal. f_equal.
        * apply got_rd. rewrite <- R2. f_equal. lia.
        * apply got_rd. rewrite <- R1. f_equal. lia.
    - apply Nat.eqb_neq in Eb. destruct (B _ _ _ E) as (F1 & V1 & R1). split; [exact F1|]. split; [exact V1|].
      intros ax o n Hax Ho Hn. rewrite (Frame_rd _ _ _ _ Fr); [apply R1; assumption|].
      assert (Cb : 0 <= cell e o n < gs).
      { rewrite He in *. apply (cell_bound fam om ng l ctr _ K H o n Ho). apply (okn_top fam ng l (vg v1)); assumption. }
      pose proof (axis_bound gs ax _ Cb Hax). rewrite Et.
      destruct (Nat.lt_ge_cases b1 b').
      + pose proof (blk_mono (S b1) b' ltac:(lia)). rewrite blk_S in *. lia.
      + pose proof (blk_mono (S b') b1 ltac:(lia)). rewrite blk_S in *. lia.
  Qed.

  Lemma shift_ok c t s st st' p m : INV st p m -> sym_op fam ng (GShift c t s) st = Some st' ->
    INV st' (upd_ptr p t (p s + stride x c)) m.
  Proof.
    intros (N1 & N2 & Sz & Fu & P & B) E. cbn [sym_op] in E. apply bind_some in E. destruct E as ([b sh] & P1 & E).
    apply bind_some in E. destruct E as (u & C & E). apply chk_some in C. apply andb_true_iff in C. destruct C as [C1 C2].
    injection E as <-. split; [cbn; rewrite upd_length; exact N1|]. split; [exact N2|]. split; [exact Sz|]. split; [exact Fu|].
    split; [|exact B]. cbn [fst snd]. intros k b1 sh1 E. rewrite nth_error_upd in E.
    unfold okp, upd_ptr. destruct (Nat.eqb k t) eqn:Ek.
    - destruct (nth_error (fst st) k); [|discriminate]. cbn in E. injection E as <- <-.
      destruct (P _ _ _ P1) as (Q1 & Q2 & Q3). split; [exact Q1|]. split.
      + rewrite dot4_unit, Q2. ring.
      + intros c'. rewrite vg_map2, vg_unit. specialize (Q3 c'). pose proof (more_nn c c'). split; [lia|].
        intros U. assert (more c c' = 0); [|lia]. destruct (c_cases c) as [Ec|[Ec|[Ec|Ec]]]; rewrite Ec in *; destruct c'; cbn; congruence.
    - exact (P _ _ _ E).
  Qed.

  Lemma op_ok o st st' p m : fam <> F4c1e -> INV st p m -> sym_op fam ng o st = Some st' ->
    exists p' m', run_op Rplus Rmult Rminus IZR x K o (p, m) = Some (p', m') /\ INV st' p' m'.
  Proof.
    intros Hf HI E. destruct o as [c t s a|c com t s a|c t s|t s].
    - cbn [sym_op] in E. unfold sym_apply in E. apply bind_some in E. destruct E as ([[b sh] [v ws]] & L1 & E).
      apply bind_some in E. destruct E as (d & Ed & E). apply bind_some in E. destruct E as (u & C & E). apply chk_some in C.
      apply andb_true_iff in C. destruct C as [C C4]. apply andb_true_iff in C. destruct C as [C C3].
      apply andb_true_iff in C. destruct C as [C1 C2]. destruct (look_some _ _ _ _ _ _ L1) as [P1 B1].
      destruct (nth_error (fst st) t) as [[t' sh']|] eqn:Pt; [|discriminate].
      apply andb_true_iff in C4. destruct C4 as [C4 C5]. apply Nat.eqb_eq in C4. subst t'. apply Bool.negb_true_iff in C5.
      injection E as <-.
      destruct (D_ok fam om ng l ctr x K nblk I H He Hlin Hf c t s a st p m b sh v d ws sh' HI P1 B1 Ed C1 C2 C3 Pt C5) as (m' & Em & HI').
      exists p, m'. split; [|exact HI']. cbn [run_op]. rewrite Em. reflexivity.
    - cbn [sym_op] in E. unfold sym_apply in E. apply bind_some in E. destruct E as ([[b sh] [v ws]] & L1 & E).
      apply bind_some in E. destruct E as (d & Ed & E). apply bind_some in E. destruct E as (u & C & E). apply chk_some in C.
      apply andb_true_iff in C. destruct C as [C C4]. apply andb_true_iff in C. destruct C as [C C3].
      apply andb_true_iff in C. destruct C as [C1 C2]. destruct (look_some _ _ _ _ _ _ L1) as [P1 B1].
      destruct (nth_error (fst st) t) as [[t' sh']|] eqn:Pt; [|discriminate].
      apply andb_true_iff in C4. destruct C4 as [C4 C5]. apply Nat.eqb_eq in C4. subst t'. apply Bool.negb_true_iff in C5.
      injection E as <-.
      destruct (X_ok fam om ng l ctr x K nblk I H He Hlin Hf c t s a st p m b sh v d ws sh' HI P1 B1 Ed C1 C2 C3 Pt C5 com) as (m' & Em & HI').
      exists p, m'. split; [|exact HI']. cbn [run_op]. rewrite Em. reflexivity.
    - eexists _, m. split; [reflexivity|]. exact (shift_ok _ _ _ _ _ _ _ HI E).
    - destruct (sum_ok _ _ _ _ _ _ HI E) as (m' & Em & HI'). eauto.
  Qed.
  Lemma ops_ok os : fam <> F4c1e \/ os = [] -> forall st st' p m, INV st p m -> sym_ops fam ng os st = Some st' ->
    exists p' m', run_ops Rplus Rmult Rminus IZR x K os (p, m) = Some (p', m') /\ INV st' p' m'.
  Proof.
    intros Hf. assert (Hf' : os = [] \/ fam <> F4c1e) by tauto. clear Hf. destruct Hf' as [->|Hf].
    - intros st st' p m HI E. injection E as <-. exists p, m. split; [reflexivity|exact HI].
    - induction os as [|o os IH]; intros st st' p m HI E.
      + injection E as <-. exists p, m. split; [reflexivity|exact HI].
      + cbn [sym_ops] in E. apply bind_some in E. destruct E as (st1 & E1 & E).
        destruct (op_ok _ _ _ _ _ Hf HI E1) as (p1 & m1 & R1 & HI1).
        destruct (IH _ _ _ _ HI1 E) as (p2 & m2 & R2 & HI2). exists p2, m2. split; [|exact HI2].
        cbn [run_ops]. rewrite R1. cbn [bind]. exact R2.
  Qed.

  (** block 0 *)
  Definition holds0 (m : arr R) : Prop := forall ax o n, 0 <= ax < 3 -> ofs K e (x_bg x) o ->
    (forall c, 0 <= n c <= top fam ng l c) ->
    rd m (ax * gs + cell e o n) = Some (I ax o (fun c => phi (x_a x c) (x_R x c ax) (Z.to_nat (n c)))).
  Lemma init_ok m : (0 < nblk)%nat -> 3 * gs * Z.of_nat nblk <= asize m -> full m -> holds0 m ->
    INV (sym0 ng nblk) (ptr0 x) m.
  Proof.
    intros Hb Sz Fu H0. split; [cbn; rewrite map_length, seq_length; reflexivity|].
    split; [cbn; rewrite repeat_length; lia|]. split; [exact Sz|]. split; [exact Fu|]. split.
    - intros k b sh E. cbn in E. rewrite nth_error_map in E. destruct (nth_error (seq 0 nblk) k) as [j|] eqn:Ej; [|discriminate].
      cbn in E. injection E as <- <-.
      assert (k < nblk)%nat. { rewrite <- (seq_length nblk 0). apply nth_error_Some. rewrite Ej. discriminate. }
      apply (nth_error_nth _ _ 0%nat) in Ej. rewrite seq_nth in Ej by assumption. cbn in Ej. subst j.
      split; [assumption|]. split.
      + unfold ptr0, dot4. cbn. ring.
      + intros c. destruct c; cbn; lia.
    - intros b v ws E. destruct b as [|b].
      + cbn in E. injection E as <- <-. split; [repeat constructor|]. split; [intros c _; destruct c; cbn; lia|].
        intros ax o n Hax Ho Hn. replace (3 * gs * Z.of_nat 0 + cell e o n) with (cell e o n) by lia.
        rewrite H0; [|assumption|assumption|].
        * f_equal. unfold bv, rsum. cbn [map fold_right]. unfold wv. rewrite Rplus_0_r. f_equal. extensionality c. destruct c; reflexivity.
        * apply (okn_top fam ng l (vg (IINC ng, JINC ng, KINC ng, LINC ng))); [|exact Hn]. intros c _. destruct c; cbn; lia.
      + cbn in E. exfalso. assert (In (Some (v, ws)) (repeat None (nblk - 1))) by (eapply nth_error_In; exact E).
        apply repeat_spec in H1. discriminate.
  Qed.

  (** reading a factor *)
  Lemma roots_ofs ig o : 0 <= ig < points x K -> In o (roots K e ig) -> ofs K e (x_bg x) o.
  Proof.
    unfold roots, points. intros Hg. destruct (kind3 K) as [E|[E|E]]; rewrite E in *; cbn [ofs].
    - intros [<-|[]]. reflexivity.
    - intros Ho. apply in_map_iff in Ho. destruct Ho as (i & <- & Hi). apply in_seq in Hi. lia.
    - intros Ho. apply in_map_iff in Ho. destruct Ho as (i & <- & Hi). apply in_seq in Hi. exists ig, (Z.of_nat i). lia.
  Qed.
  Definition okpw (q : centre -> Z) : Prop := forall c, 0 <= q c /\ (if used fam c then q c <= l c else q c = 0).

  Lemma read_ok st p m k ws : INV st p m -> read_words fam ng st k = Some ws -> Forall four ws /\
    forall ax o q, 0 <= ax < 3 -> ofs K e (x_bg x) o -> okpw q ->
      rd m (p k + (ax * gs + cell e 0 q + o)) = Some (BV ax o ws q).
  Proof.
    intros (N1 & N2 & Sz & Fu & P & B) E. unfold read_words in E. apply bind_some in E. destruct E as ([[b sh] [v ws0]] & L1 & E).
    apply bind_some in E. destruct E as (u & C & E). apply chk_some in C. injection E as <-.
    destruct (look_some _ _ _ _ _ _ L1) as [P1 B1]. destruct (B _ _ _ B1) as (F1 & V1 & R1). destruct (P _ _ _ P1) as (Q1 & Q2 & Q3).
    split.
    { apply Forall_forall. intros w Hw. apply in_map_iff in Hw. destruct Hw as (u0 & <- & Hu).
      apply shift_four. exact (proj1 (Forall_forall _ _) F1 u0 Hu). }
    intros ax o q Hax Ho Hq. rewrite bv_shift; [|exact F1|intros c; apply Hq|intros c; apply Q3].
    rewrite <- (R1 ax o (addv q (vg sh)) Hax Ho).
    - f_equal. rewrite Q2, cell_addv. unfold cell. ring.
    - intros c. pose proof (all4 _ C c) as Cc. cbn beta in Cc. specialize (Hq c). specialize (Q3 c). unfold addv.
      destruct (used fam c); lia.
  Qed.

  Lemma sum_for (f : Z -> option R) (g : Z -> R) n : (forall i, 0 <= i < Z.of_nat n -> f i = Some (g i)) ->
    forall s, for_ 0 (Z.of_nat n) (fun i s => q <- f i ;; Some (s + q)%R) s =
      Some (s + rsum (map (fun i => g (Z.of_nat i)) (seq 0 n)))%R.
  Proof.
    intros Hf s.
    assert (W : wp (for_ 0 (Z.of_nat n) (fun i s => q <- f i ;; Some (s + q)%R) s)
      (fun r => r = (s + rsum (map (fun i => g (Z.of_nat i)) (seq 0 n)))%R)).
    { apply wp_for with (I := fun k r => r = (s + rsum (map (fun i => g (Z.of_nat i)) (seq 0 (Z.to_nat k))))%R).
      - lia.
      - cbn. unfold rsum. cbn. ring.
      - intros k r Hk ->. rewrite Hf by lia. cbn [bind wp].
        replace (Z.to_nat (k + 1)) with (S (Z.to_nat k)) by lia. rewrite seq_S, map_app, rsum_app. cbn [map].
        rewrite rsum_cons. unfold rsum at 3. cbn [fold_right]. replace (Z.of_nat (0 + Z.to_nat k)) with k by lia. ring.
      - intros r ->. rewrite Nat2Z.id. reflexivity. }
    apply wp_exists in W. destruct W as (r & -> & ->). reflexivity.
  Qed.

  Definition pr3 (pw : Z -> centre -> Z) (wx wy wz : list (list word)) (o : Z) : R :=
    (BV 0%Z o wx (pw 0%Z) * BV 1%Z o wy (pw 1%Z) * BV 2%Z o wz (pw 2%Z))%R.
  Definition prod3w (pw : Z -> centre -> Z) (o : Z) (w : list word * list word * list word) : R :=
    let W := wv (x_a x) (x_R x) (x_C x) I in
    (W 0%Z o (pw 0%Z) (fst (fst w)) * W 1%Z o (pw 1%Z) (snd (fst w)) * W 2%Z o (pw 2%Z) (snd w))%R.

  Lemma sval_ok st p m pw ig bx by_ bz wx wy wz : INV st p m ->
    read_words fam ng st bx = Some wx -> read_words fam ng st by_ = Some wy -> read_words fam ng st bz = Some wz ->
    0 <= ig < points x K -> (forall ax, 0 <= ax < 3 -> okpw (pw ax)) ->
    let ix ax := ax * gs + cell e 0 (pw ax) in
    sval 0%R Rplus Rmult x K p m (ix 0) (ix 1) (ix 2) ig (bx, by_, bz) =
    Some (rsum (map (fun o => pr3 pw wx wy wz o) (roots K e ig))).
  Proof.
    intros HI Ex Ey Ez Hig Hpw ix.
    destruct (read_ok _ _ _ _ _ HI Ex) as [_ Rx]. destruct (read_ok _ _ _ _ _ HI Ey) as [_ Ry]. destruct (read_ok _ _ _ _ _ HI Ez) as [_ Rz].
    set (prod := fun o => (u <- rd m (p bx + (ix 0 + o)) ;; v <- rd m (p by_ + (ix 1 + o)) ;; w <- rd m (p bz + (ix 2 + o)) ;; Some (u * v * w)%R)).
    assert (Pr : forall o, ofs K e (x_bg x) o -> prod o = Some (pr3 pw wx wy wz o)).
    { intros o Ho. unfold prod, ix. rewrite Rx by (try exact Ho; try (apply Hpw); lia). cbn [bind]. rewrite Ry by (try exact Ho; try (apply Hpw); lia). cbn [bind].
      rewrite Rz by (try exact Ho; try (apply Hpw); lia). reflexivity. }
    pose proof (fun o => roots_ofs ig o Hig) as RO. unfold roots in *. cbn [sval]. fold ix.
    destruct (kind3 K) as [E|[E|E]]; rewrite E in RO |- *.
    - change (prod 0 = Some (rsum (map (fun o => pr3 pw wx wy wz o) [0]))).
      rewrite Pr by (rewrite E; reflexivity). cbn [map]. rewrite rsum_cons. unfold rsum. cbn. f_equal. ring.
    - change (for_ 0 (nrys_roots e) (fun i s => q <- prod i ;; Some (s + q)%R) 0%R = Some
        (rsum (map (fun o => pr3 pw wx wy wz o) (map Z.of_nat (seq 0 (Z.to_nat (nrys_roots e))))))).
      assert (En : nrys_roots e = Z.of_nat (Z.to_nat (nrys_roots e)) \/ nrys_roots e < 0) by lia.
      destruct En as [En|En].
      + rewrite En at 1. rewrite (sum_for prod (fun o => pr3 pw wx wy wz o)).
        * rewrite map_map. f_equal. ring.
        * intros i Hi. apply Pr. rewrite E. cbn. lia.
      + replace (Z.to_nat (nrys_roots e)) with 0%nat by lia. unfold for_. replace (Z.to_nat (nrys_roots e - 0)) with 0%nat by lia. reflexivity.
    - change (for_ 0 (nrys_roots e) (fun i s => q <- prod (ig + i * GRID_BLKSIZE) ;; Some (s + q)%R) 0%R = Some
        (rsum (map (fun o => pr3 pw wx wy wz o)
          (map (fun i => ig + GRID_BLKSIZE * Z.of_nat i) (seq 0 (Z.to_nat (nrys_roots e))))))).
      assert (En : nrys_roots e = Z.of_nat (Z.to_nat (nrys_roots e)) \/ nrys_roots e < 0) by lia.
      destruct En as [En|En].
      + rewrite En at 1. rewrite (sum_for (fun i => prod (ig + i * GRID_BLKSIZE)) (fun i => let o := ig + GRID_BLKSIZE * i in
          pr3 pw wx wy wz o)).
        * rewrite map_map. f_equal. cbv zeta. ring.
        * intros i Hi. cbv zeta. rewrite (Z.mul_comm i). apply Pr. rewrite E. unfold ofs. exists ig, i.
          unfold points in Hig. rewrite E in Hig. lia.
      + replace (Z.to_nat (nrys_roots e)) with 0%nat by lia. unfold for_. replace (Z.to_nat (nrys_roots e - 0)) with 0%nat by lia. reflexivity.
  Qed.
End Exec.
