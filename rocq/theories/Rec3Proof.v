(** Rec3Proof.v — the three- and four-centre overlap recurrences. *)
From Verif Require Import Base EnvModel RecModel RecSpec RecMoments RecLay FillProof Rec2Proof HrrProof Rec2Final.
From Coq Require Import Ring.

Section Three.
  Context {F : Type} (zero one : F) (add mul sub : F -> F -> F) (opp : F -> F) (inj : Z -> F).
  Hypothesis RT : ring_theory zero one add mul sub opp (@eq F).
  Add Ring FRing3 : RT.
  Hypothesis inj0 : inj 0 = zero.
  Variables (ng : ngT) (la lb lc ci cj ck : Z).
  Let e := init_int3c1e ng la lb lc ci cj ck.
  Let li := li_ceil e.
  Let lj := lj_ceil e.
  Let lk := lk_ceil e.
  Let gs := g_size e.
  Hypothesis (Hli : 0 <= li) (Hlj : 0 <= lj) (Hlk : 0 <= lk).
  Let nmax := li + lj + lk.
  Let mmax := lj + lk.

  Variables (b z0 : F) (P A B C : Z -> F) (S : Z -> Z -> Z -> Z -> F).
  Hypothesis HS : forall ax, 0 <= ax < 3 ->
    gauss3 add mul inj b (sub (P ax) (A ax)) (sub (P ax) (B ax)) (sub (P ax) (C ax)) (S ax).
  Hypothesis HO : forall ax, 0 <= ax < 3 -> S ax 0 0 0 = origin one z0 ax.
  Variables (rjrijk rirj rjrk : Z -> F).
  Hypothesis (H1 : forall ax, 0 <= ax < 3 -> rjrijk ax = sub (B ax) (P ax)).
  Hypothesis (H2 : forall ax, 0 <= ax < 3 -> rirj ax = sub (A ax) (B ax)).
  Hypothesis (H3 : forall ax, 0 <= ax < 3 -> rjrk ax = sub (B ax) (C ax)).

  Local Notation T2 := (Z * Z)%type.
  Local Notation T3 := (Z * Z * Z)%type.
  Let a2 (t : T2) : Z := let '(i, j) := t in i + j * (li + 1).
  Let x2 (t : T2) : Prop := let '(i, j) := t in 0 <= i <= li /\ 0 <= j /\ i + j <= nmax.
  Let v2 (ax : Z) (t : T2) : F := let '(i, j) := t in S ax i j 0.
  Let a3 (t : T3) : Z := let '(i, j, k) := t in i + j * (li + 1) + k * ((li + 1) * (mmax + 1)).
  Let x3 (t : T3) : Prop := let '(i, j, k) := t in 0 <= i <= li /\ 0 <= j /\ 0 <= k <= lk /\ j + k <= mmax.
  Let v3 (ax : Z) (t : T3) : F := let '(i, j, k) := t in S ax i j k.

  Lemma gs3 : (li + 1) * (nmax + 1) <= gs /\ (li + 1) * (mmax + 1) * (lk + 1) <= gs.
  Proof.
    clear HS HO H1 H2 H3. unfold gs, e, init_int3c1e, nmax, mmax, li, lj, lk, e, init_int3c1e in *. cbv zeta in *.
    cbn [g_size li_ceil lj_ceil lk_ceil] in *. split; [|apply Z.le_max_l].
    etransitivity; [|apply Z.le_max_r]. apply Z.eq_le_incl. ring.
  Qed.
  Lemma inj2' t u : x2 t -> x2 u -> a2 t = a2 u -> t = u.
  Proof.
    clear HS HO H1 H2 H3. destruct t as [i j], u as [i' j']. cbn [x2 a2]. intros (X1 & X2 & X3) (X1' & X2' & X3') E.
    assert (j = j') by nia. subst. assert (i = i') by lia. subst. reflexivity.
  Qed.
  Lemma bnd2' t : x2 t -> 0 <= a2 t < gs.
  Proof.
    pose proof gs3 as [G _]. clear HS HO H1 H2 H3. destruct t as [i j]. cbn [x2 a2]. intros (X1 & X2 & X3).
    assert (i + j * (li + 1) <= li + nmax * (li + 1)) by nia. nia.
  Qed.
  Lemma inj3' t u : x3 t -> x3 u -> a3 t = a3 u -> t = u.
  Proof.
    clear HS HO H1 H2 H3. destruct t as [[i j] k], u as [[i' j'] k']. cbn [x3 a3]. intros (X1 & X2 & X3 & X4) (X1' & X2' & X3' & X4') E.
    assert (E' : i + (li + 1) * (j + (mmax + 1) * k) = i' + (li + 1) * (j' + (mmax + 1) * k')) by (clear - E; nia).
    assert (j + (mmax + 1) * k = j' + (mmax + 1) * k') by nia.
    assert (k = k') by nia. subst. assert (j = j') by lia. subst. assert (i = i') by lia. subst. reflexivity.
  Qed.
  Lemma bnd3' t : x3 t -> 0 <= a3 t < gs.
  Proof.
    pose proof gs3 as [_ G]. clear HS HO H1 H2 H3. destruct t as [[i j] k]. cbn [x3 a3]. intros (X1 & X2 & X3 & X4).
    assert (j + (mmax + 1) * k <= mmax + (mmax + 1) * lk) by nia.
    assert (i + j * (li + 1) + k * ((li + 1) * (mmax + 1)) = i + (li + 1) * (j + (mmax + 1) * k)) by ring.
    assert (0 <= j + (mmax + 1) * k) by nia. nia.
  Qed.

  Lemma g3c1e_ok (g : arr F) : 3 * gs <= asize g ->
    wp (g3c1e_ovlp one add mul sub opp inj e z0 b rjrijk rirj rjrk g) (fun m =>
      (forall ax i j k, 0 <= ax < 3 -> 0 <= i <= li -> 0 <= j <= lj -> 0 <= k <= lk ->
         rd m (ax * gs + (g_stride_i e * i + g_stride_j e * j + g_stride_k e * k)) = Some (S ax i j k)) /\
      Frame (fun p => 0 <= p < 3 * gs) g m).
  Proof.
    intros Hsz.
    assert (En : nmax = li + lj + lk) by reflexivity. assert (Em : mmax = lj + lk) by reflexivity.
    assert (Esi : g_stride_i e = 1) by reflexivity. assert (Esj : g_stride_j e = li + 1) by reflexivity.
    assert (Esk : g_stride_k e = (li + 1) * (mmax + 1)) by reflexivity.
    unfold g3c1e_ovlp. fold gs li lj lk. cbv zeta. fold nmax mmax. rewrite Esi, Esj, Esk.
    assert (F0 : fills 0 gs a2 x2 v2 g
       (fun g => g <- wr g 0 one ;; g <- wr g gs one ;; wr g (gs * 2) z0) (fun _ => False) (fun t => t = (0, 0))).
    { intros Q m HA HI.
      pose proof (fills_st3 0 gs a2 x2 inj2' bnd2' ltac:(lia) v2 g (0, 0) 0
        (fun ax _ => Some (if ax =? 0 then one else if ax =? 1 then one else z0)) (fun _ => False)) as HF.
      assert (HF' := HF ltac:(cbn [x2 x3 a2 a3]; lia) ltac:(cbn [x2 x3 a2 a3]; lia)). clear HF.
      specialize (HF' ltac:(intros ax m' Hax _; cbn [v2]; rewrite HO by exact Hax;
        assert (ax = 0 \/ ax = 1 \/ ax = 2) as [->|[->| ->]] by lia; reflexivity) Q m HA HI).
      cbv beta in HF'. rewrite <- (st3_three gs m 0 one one z0) in HF'. rewrite !Z.add_0_r in HF'. exact HF'. }
    assert (Init : wp (g <- wr g 0 one ;; g <- wr g gs one ;; wr g (gs * 2) z0) (fun g1 =>
       (forall ax t, 0 <= ax < 3 -> x2 t -> False \/ t = (0, 0) -> rd g1 (ax * gs + (0 + a2 t)) = Some (v2 ax t)) /\
       Frame (fun p => 0 <= p < 0 + 3 * gs) g g1)).
    { apply (fills_run 0 gs a2 x2 v2 g _ _ _ F0); [lia|]. intros ax t _ _ []. }
    (* re-associate the three writes *)
    assert (Assoc : forall (k : arr F -> option (arr F)) Q,
       wp (g <- wr g 0 one ;; g <- wr g gs one ;; wr g (gs * 2) z0) (fun g1 => wp (k g1) Q) ->
       wp (g <- wr g 0 one ;; g <- wr g gs one ;; g <- wr g (gs * 2) z0 ;; k g) Q).
    { intros k Q. destruct (wr g 0 one) as [h1|]; [|exact (fun H => H)]. cbn [bind].
      destruct (wr h1 gs one) as [h2|]; [|exact (fun H => H)]. cbn [bind].
      intros H. apply wp_bind. exact H. }
    apply Assoc. clear Assoc F0. eapply wp_mono; [exact Init|]. clear Init. intros g1 [HI1 HF1].
    pose proof (proj1 HF1) as Hs1.
    destruct (Z.eqb_spec nmax 0) as [E0|E0].
    { apply wp_ret. split; [|exact HF1]. intros ax i j k Hax Hi Hj Hk.
      assert (i = 0 /\ j = 0 /\ k = 0) as (-> & -> & ->) by lia.
      specialize (HI1 ax (0, 0) Hax ltac:(cbn [x2 x3 a2 a3]; lia) ltac:(auto)). cbn [v2 a2] in HI1.
      rewrite <- HI1. f_equal. lia. }
    (* first two phases *)
    assert (Hn1 : 1 <= nmax) by lia.
    set (A1 := fun t : T2 => False \/ t = (0, 0)).
    assert (F1 : fills 0 gs a2 x2 v2 g1 (fun g =>
       g <- st3 gs g (li + 1) (fun ax g => v <- rd g (ax * gs) ;; Some (mul (opp (rjrijk ax)) v)) ;;
       g <- for_ 1 nmax (fun j g =>
           st3 gs g ((j + 1) * (li + 1)) (fun ax g =>
             v1 <- rd g (ax * gs + (j - 1) * (li + 1)) ;;
             v0 <- rd g (ax * gs + j * (li + 1)) ;;
             Some (sub (mul (mul b (inj j)) v1) (mul (rjrijk ax) v0)))) g ;;
       for_ 1 (li + 1) (fun i g =>
         for_ 0 (nmax - i + 1) (fun j g =>
           st3 gs g (i + j * (li + 1)) (fun ax g =>
             v2 <- rd g (ax * gs + (i - 1 + (j + 1) * (li + 1))) ;;
             v1 <- rd g (ax * gs + (i - 1 + j * (li + 1))) ;;
             Some (sub v2 (mul (rirj ax) v1)))) g) g) A1 x2).
    { eapply fills_sub_A with (A := A1).
      - eapply fills_seq with (B := fun t => t = (0, 1)).
        + apply fills_st3; [exact inj2'|exact bnd2'|lia|cbn [x2 x3 a2 a3]; lia|cbn [x2 x3 a2 a3]; lia|].
          intros ax m Hax Hrd. rewrite (Hrd (0, 0) (ax * gs)); [|cbn [x2 x3 a2 a3]; lia|right; reflexivity|cbn [x2 x3 a2 a3]; lia]. cbn [bind v2].
          pose proof (g3_j _ _ _ _ _ _ _ _ (HS ax Hax) 0 0 0 ltac:(lia) ltac:(lia) ltac:(lia)) as E. change (0 + 1) with 1 in E.
          rewrite E, H1, inj0 by exact Hax. f_equal. ring.
        + eapply fills_seq.
          * apply fills_for with (B := fun j t => t = (0, j + 1)). intros j Hj.
            apply fills_st3; [exact inj2'|exact bnd2'|lia|cbn [x2 x3 a2 a3]; lia|cbn [x2 x3 a2 a3]; lia|].
            intros ax m Hax Hrd.
            rewrite (Hrd (0, j - 1) (ax * gs + (j - 1) * (li + 1))); [|cbn [x2 x3 a2 a3]; lia| |cbn [x2 x3 a2 a3]; lia].
            2:{ destruct (Z.eq_dec j 1) as [->|]; [left; left; right; reflexivity|].
                destruct (Z.eq_dec j 2) as [->|]; [left; right; reflexivity|].
                right. exists (j - 2). split; [lia|]. f_equal. lia. }
            rewrite (Hrd (0, j) (ax * gs + j * (li + 1))); [|cbn [x2 x3 a2 a3]; lia| |cbn [x2 x3 a2 a3]; lia].
            2:{ destruct (Z.eq_dec j 1) as [->|]; [left; right; reflexivity|].
                right. exists (j - 1). split; [lia|]. f_equal. lia. }
            cbn [bind v2].
            rewrite (g3_j _ _ _ _ _ _ _ _ (HS ax Hax) 0 j 0) by lia.
            rewrite H1, inj0 by exact Hax. f_equal. ring.
          * apply fills_for with (B := fun i t => exists j, 0 <= j < nmax - i + 1 /\ t = (i, j)). intros i Hi.
            apply fills_for with (B := fun j t => t = (i, j)). intros j Hj.
            apply fills_st3; [exact inj2'|exact bnd2'|lia|cbn [x2 x3 a2 a3]; lia|cbn [x2 x3 a2 a3]; lia|].
            assert (Have : forall j', 0 <= j' <= nmax - (i - 1) ->
               ((A1 (i - 1, j') \/ (i - 1, j') = (0, 1)) \/ (exists x, 1 <= x < nmax /\ (i - 1, j') = (0, x + 1))) \/
               (exists y, 1 <= y < i /\ exists j0, 0 <= j0 < nmax - y + 1 /\ (i - 1, j') = (y, j0))).
            { intros j' Hj'. destruct (Z.eq_dec i 1) as [->|].
              - left. destruct (Z.eq_dec j' 0) as [->|]; [left; left; right; reflexivity|].
                destruct (Z.eq_dec j' 1) as [->|]; [left; right; reflexivity|].
                right. exists (j' - 1). split; [lia|]. f_equal; lia.
              - right. exists (i - 1). split; [lia|]. exists j'. split; [lia|reflexivity]. }
            intros ax m Hax Hrd.
            rewrite (Hrd (i - 1, j + 1) (ax * gs + (i - 1 + (j + 1) * (li + 1)))); [|cbn [x2 x3 a2 a3]; lia|left; apply Have; lia|cbn [x2 x3 a2 a3]; lia].
            rewrite (Hrd (i - 1, j) (ax * gs + (i - 1 + j * (li + 1)))); [|cbn [x2 x3 a2 a3]; lia|left; apply Have; lia|cbn [x2 x3 a2 a3]; lia].
            cbn [bind v2]. rewrite H2 by exact Hax.
            rewrite (g3_j _ _ _ _ _ _ _ _ (HS ax Hax) (i - 1) j 0) by lia.
            pose proof (g3_i _ _ _ _ _ _ _ _ (HS ax Hax) (i - 1) j 0 ltac:(lia) ltac:(lia) ltac:(lia)) as E. rewrite Z.sub_add in E.
            rewrite E. f_equal. ring.
      - intros [i j] (X1 & X2 & X3) _.
        destruct (Z.eq_dec i 0) as [->|].
        + destruct (Z.eq_dec j 0) as [->|]; [left; right; reflexivity|].
          destruct (Z.eq_dec j 1) as [->|]; [right; left; reflexivity|].
          right; right; left. exists (j - 1). split; [lia|]. f_equal; lia.
        + right; right; right. exists i. split; [lia|]. exists j. split; [lia|reflexivity]. }
    assert (F1' := fills_run 0 gs a2 x2 v2 g1 _ _ _ F1 ltac:(lia) (fun ax t Hax Hb Ht => HI1 ax t Hax Hb Ht)).
    clear F1.
    assert (Assoc : forall (c1 c2 c3 k : arr F -> option (arr F)) Q,
       wp (g <- c1 g1 ;; g <- c2 g ;; c3 g) (fun g1 => wp (k g1) Q) ->
       wp (g <- c1 g1 ;; g <- c2 g ;; g <- c3 g ;; k g) Q).
    { intros c1 c2 c3 k Q. destruct (c1 g1) as [h1|]; [|exact (fun H => H)]. cbn [bind].
      destruct (c2 h1) as [h2|]; [|exact (fun H => H)]. cbn [bind].
      intros H. apply wp_bind. exact H. }
    apply (Assoc (fun g => st3 gs g (li + 1) _) (for_ 1 nmax _) (for_ 1 (li + 1) _)). clear Assoc.
    eapply wp_mono; [exact F1'|]. clear F1'. intros g2 [HI2 HF2]. pose proof (proj1 HF2) as Hs2.
    assert (F3 : fills 0 gs a3 x3 v3 g2 (for_ 1 (lk + 1) (fun k g =>
      for_ 0 (mmax - k + 1) (fun j g =>
      let off := k * ((li + 1) * (mmax + 1)) + j * (li + 1) in
      for_ off (off + li + 1) (fun i g =>
        st3 gs g i (fun ax g =>
          v2 <- rd g (ax * gs + (i + (li + 1) - (li + 1) * (mmax + 1))) ;;
          v1 <- rd g (ax * gs + (i - (li + 1) * (mmax + 1))) ;;
          Some (add v2 (mul (rjrk ax) v1)))) g) g)) (fun t => let '(i, j, k) := t in k = 0) x3).
    { eapply fills_sub_A with (A := fun t : T3 => let '(i, j, k) := t in k = 0).
      - apply fills_for with (B := fun k t => exists j, 0 <= j < mmax - k + 1 /\ exists i, 0 <= i <= li /\ t = (i, j, k)). intros k Hk.
        apply fills_for with (B := fun j t => exists i, 0 <= i <= li /\ t = (i, j, k)). intros j Hj. cbv zeta.
        set (off := k * ((li + 1) * (mmax + 1)) + j * (li + 1)).
        eapply fills_sub_A with (B := fun t => exists x, off <= x < off + li + 1 /\ t = (x - off, j, k)).
        + apply fills_for with (B := fun x t => t = (x - off, j, k)). intros x Hx.
          apply fills_st3; [exact inj3'|exact bnd3'|lia|cbn [x2 x3 a2 a3]; lia|cbn [x2 x3 a2 a3]; unfold off; lia|].
          assert (Have : forall j', 0 <= j' <= mmax - (k - 1) ->
             (fun t : T3 => let '(i, j, k) := t in k = 0) (x - off, j', k - 1) \/
             exists y, 1 <= y < k /\ exists j0, 0 <= j0 < mmax - y + 1 /\ exists i, 0 <= i <= li /\ (x - off, j', k - 1) = (i, j0, y)).
          { intros j' Hj'. destruct (Z.eq_dec k 1) as [->|]; [left; lia|].
            right. exists (k - 1). split; [lia|]. exists j'. split; [lia|]. exists (x - off). split; [lia|reflexivity]. }
          intros ax m Hax Hrd.
          rewrite (Hrd (x - off, j + 1, k - 1) (ax * gs + (x + (li + 1) - (li + 1) * (mmax + 1)))); [|cbn [x2 x3 a2 a3]; lia| |cbn [x2 x3 a2 a3]; unfold off; lia].
          2:{ left. left. apply Have. lia. }
          rewrite (Hrd (x - off, j, k - 1) (ax * gs + (x - (li + 1) * (mmax + 1)))); [|cbn [x2 x3 a2 a3]; lia| |cbn [x2 x3 a2 a3]; unfold off; lia].
          2:{ left. left. apply Have. lia. }
          cbn [bind v3]. rewrite H3 by exact Hax.
          rewrite (g3_j _ _ _ _ _ _ _ _ (HS ax Hax) (x - off) j (k - 1)) by lia.
          pose proof (g3_k _ _ _ _ _ _ _ _ (HS ax Hax) (x - off) j (k - 1) ltac:(lia) ltac:(lia) ltac:(lia)) as E. rewrite Z.sub_add in E.
          rewrite E. f_equal. ring.
        + intros t _ (i & Hi & ->). right. exists (i + off). split; [lia|]. f_equal. f_equal. lia.
      - intros [[i j] k] (X1 & X2 & X3 & X4) _.
        destruct (Z.eq_dec k 0) as [->|]; [left; reflexivity|].
        right. exists k. split; [lia|]. exists j. split; [lia|]. exists i. split; [lia|reflexivity]. }
    eapply wp_mono; [apply (fills_run 0 gs a3 x3 v3 g2 _ _ _ F3)|].
    - lia.
    - intros ax [[i j] k] Hax (X1 & X2 & X3 & X4) ->.
      specialize (HI2 ax (i, j) Hax). cbn [x2 a2 v2 a3 v3] in *. rewrite <- HI2.
      + f_equal. lia.
      + lia.
      + right. lia.
    - intros g3 [HI3 HF3]. split.
      + intros ax i j k Hax Hi Hj Hk. specialize (HI3 ax (i, j, k) Hax). cbn [x3 a3 v3] in HI3.
        rewrite <- HI3; [f_equal; lia|lia|right; lia].
      + eapply Frame_trans; [exact HF1|]. eapply Frame_trans; eassumption.
  Qed.
End Three.

Section Four.
  Context {F : Type} (zero one : F) (add mul sub : F -> F -> F) (opp : F -> F) (inj : Z -> F).
  Hypothesis RT : ring_theory zero one add mul sub opp (@eq F).
  Add Ring FRing4 : RT.
  Hypothesis inj0 : inj 0 = zero.
  Hypothesis injS : forall i, 0 <= i -> inj (i + 1) = add (inj i) one.
  Variable e : envs.
  Hypothesis L : rlay e.
  Hypothesis Hnr : nrys_roots e = 1.
  Let nmax := li_ceil e + lj_ceil e.
  Let mmax := lk_ceil e + ll_ceil e.
  Let N := nmax + mmax.
  Let db := N + 1.
  Let bs := db * (Z.max nmax mmax + 1).
  Let gs := g_size e.
  Variables (b z0 : F) (half : Z -> F) (P A B C D : Z -> F) (S : Z -> Z -> Z -> Z -> Z -> F).
  Hypothesis Hhalf : forall i, 0 <= i -> half i = mul (inj i) b.
  Hypothesis HS : forall ax, 0 <= ax < 3 ->
    gauss2 add mul inj b b b (sub (P ax) (A ax)) (sub (P ax) (B ax)) (sub (P ax) (C ax)) (sub (P ax) (D ax)) (S ax).
  Hypothesis HO : forall ax, 0 <= ax < 3 -> S ax 0 0 0 0 = origin one z0 ax.
  Let r1 ax := if ibase e then A ax else B ax.
  Let r2 ax := if kbase e then C ax else D ax.
  Let big := nmax >=? mmax.
  (** moments about the two base centres; [W] with the longer order first *)
  Let G ax n m := S ax (if ibase e then n else 0) (if ibase e then 0 else n) (if kbase e then m else 0) (if kbase e then 0 else m).
  Let W ax i j := if big then G ax i j else G ax j i.
  Let c1 ax := sub (P ax) (if big then r1 ax else r2 ax).
  Let c2 ax := sub (P ax) (if big then r2 ax else r1 ax).

  Lemma G_mom ax : 0 <= ax < 3 -> moments2 add mul inj b b b (sub (P ax) (r1 ax)) (sub (P ax) (r2 ax)) (G ax).
  Proof.
    intros Hax. specialize (HS ax Hax). unfold G, r1, r2. destruct (ibase e), (kbase e).
    - apply (gauss2_ik zero one add mul sub opp inj RT inj0 _ _ _ _ _ _ _ _ HS).
    - apply (gauss2_il zero one add mul sub opp inj RT inj0 _ _ _ _ _ _ _ _ HS).
    - apply (gauss2_jk zero one add mul sub opp inj RT inj0 _ _ _ _ _ _ _ _ HS).
    - apply (gauss2_jl zero one add mul sub opp inj RT inj0 _ _ _ _ _ _ _ _ HS).
  Qed.
  Lemma W_mom ax : 0 <= ax < 3 -> moments2 add mul inj b b b (c1 ax) (c2 ax) (W ax).
  Proof.
    intros Hax. pose proof (G_mom ax Hax) as M. unfold W, c1, c2. destruct big; [exact M|].
    split; intros n m Hn Hm.
    - rewrite (m2_ket _ _ _ _ _ _ _ _ _ M) by assumption. reflexivity.
    - rewrite (m2_bra _ _ _ _ _ _ _ _ _ M) by assumption. reflexivity.
  Qed.
  Lemma W_transfer ax i j : 0 <= ax < 3 -> 0 <= i -> 0 <= j ->
    W ax i (j + 1) = add (W ax (i + 1) j) (mul (sub (c2 ax) (c1 ax)) (W ax i j)).
  Proof.
    intros Hax Hi Hj. pose proof (W_mom ax Hax) as M.
    rewrite (m2_ket _ _ _ _ _ _ _ _ _ M), (m2_bra _ _ _ _ _ _ _ _ _ M) by assumption. ring.
  Qed.

  Local Notation T2 := (Z * Z)%type.
  Let ab (t : T2) : Z := let '(i, j) := t in i + db * j.
  Let xb (t : T2) : Prop := let '(i, j) := t in 0 <= i /\ 0 <= j <= Z.max nmax mmax /\ i + j <= N.
  Let vb (ax : Z) (t : T2) : F := let '(i, j) := t in W ax i j.
  Lemma injb t u : xb t -> xb u -> ab t = ab u -> t = u.
  Proof.
    clear HS HO Hhalf. destruct t as [i j], u as [i' j']. cbn [xb ab]. unfold db. intros (X1 & X2 & X3) (X1' & X2' & X3') E.
    assert (j = j') by nia. subst. assert (i = i') by lia. subst. reflexivity.
  Qed.
  Lemma bndb t : xb t -> 0 <= ab t < bs.
  Proof.
    clear HS HO Hhalf. destruct t as [i j]. cbn [xb ab]. unfold bs, db. intros (X1 & X2 & X3).
    set (M := Z.max nmax mmax) in *. assert ((N + 1) * j <= (N + 1) * M) by nia. nia.
  Qed.

  Let mm := if big then mmax else nmax.

  Lemma g4c1e_ok (r1r12 r1r2 rirj rkrl : Z -> F) (g buf : arr F) :
    (forall ax, 0 <= ax < 3 -> r1r12 ax = sub (if big then r1 ax else r2 ax) (P ax)) ->
    (forall ax, 0 <= ax < 3 -> r1r2 ax = if big then sub (r1 ax) (r2 ax) else sub (r2 ax) (r1 ax)) ->
    (forall ax, 0 <= ax < 3 -> rirj ax = base_diff sub (ibase e) A B ax) ->
    (0 < lk_ceil e -> forall ax, 0 <= ax < 3 -> rkrl ax = base_diff sub (kbase e) C D ax) ->
    3 * gs <= asize g -> 3 * bs <= asize buf ->
    wp (g4c1e_ovlp one add mul sub opp e z0 half r1r12 r1r2 rirj rkrl g buf) (fun m =>
      (forall ax i j k l, 0 <= ax < 3 -> 0 <= i <= li_ceil e -> 0 <= j <= lj_ceil e ->
         0 <= k <= lk_ceil e -> 0 <= l <= ll_ceil e ->
         rd m (ax * gs + (g_stride_i e * i + g_stride_k e * k + g_stride_l e * l + g_stride_j e * j)) =
           Some (S ax i j k l)) /\
      Frame (fun p => 0 <= p < 3 * gs) g m).
  Proof.
    intros E12 E2 Eij Ekl Hg Hb.
    assert (Hnm : 0 <= nmax /\ 0 <= mmax) by (destruct L; unfold nmax, mmax; lia).
    assert (EN : N = nmax + mmax) by reflexivity. assert (Edb : db = N + 1) by reflexivity.
    assert (HM : nmax <= Z.max nmax mmax /\ mmax <= Z.max nmax mmax) by lia.
    assert (Hmm : 0 <= mm <= N /\ mm <= Z.max nmax mmax) by (unfold mm; destruct big; lia).
    assert (E12' : forall ax, 0 <= ax < 3 -> opp (r1r12 ax) = c1 ax).
    { intros ax Hax. rewrite E12 by exact Hax. unfold c1. destruct big; ring. }
    assert (E2' : forall ax, 0 <= ax < 3 -> r1r2 ax = sub (c2 ax) (c1 ax)).
    { intros ax Hax. rewrite E2 by exact Hax. unfold c1, c2. destruct big; ring. }
    assert (HW0 : forall ax, 0 <= ax < 3 -> W ax 0 0 = origin one z0 ax).
    { intros ax Hax. rewrite <- HO by exact Hax. unfold W, G. destruct big, (ibase e), (kbase e); reflexivity. }
    unfold g4c1e_ovlp. cbv zeta. fold nmax mmax. fold N. fold db. fold bs. fold gs. fold big. fold mm.
    assert (F1 : fills 0 bs ab xb vb buf (fun buf =>
      buf <- wr buf 0 one ;;
      buf <- wr buf bs one ;;
      buf <- wr buf (bs + bs) z0 ;;
      buf <- (if 0 <? N then
              st3 bs buf 1 (fun ax b =>
                v <- rd b (ax * bs) ;; Some (mul (opp (r1r12 ax)) v))
            else Some buf) ;;
      buf <- for_ 1 N (fun i b =>
             st3 bs b (i + 1) (fun ax b =>
               v1 <- rd b (ax * bs + (i - 1)) ;;
               v0 <- rd b (ax * bs + i) ;;
               Some (sub (mul (half i) v1) (mul (r1r12 ax) v0)))) buf ;;
      for_ 1 (mm + 1) (fun j b =>
             let ptr := db * j in
             for_ ptr (ptr + nmax + mmax - j + 1) (fun i b =>
               st3 bs b i (fun ax b =>
                 v2 <- rd b (ax * bs + (i + 1 - db)) ;;
                 v1 <- rd b (ax * bs + (i - db)) ;;
                 Some (add v2 (mul (r1r2 ax) v1)))) b) buf)
      (fun _ => False) (fun t => let '(i, j) := t in j <= mm)).
    { assert (Re : forall x, (buf <- wr x 0 one ;; buf <- wr buf bs one ;; wr buf (bs + bs) z0) =
                 st3 bs x 0 (fun ax _ => Some (if ax =? 0 then one else if ax =? 1 then one else z0))).
      { intros x. rewrite <- st3_three. rewrite !Z.add_0_r. replace (bs * 2) with (bs + bs) by ring. reflexivity. }
      assert (Re' : forall x (k : arr F -> option (arr F)),
        (buf <- wr x 0 one ;; buf <- wr buf bs one ;; buf <- wr buf (bs + bs) z0 ;; k buf) =
        (buf <- st3 bs x 0 (fun ax _ => Some (if ax =? 0 then one else if ax =? 1 then one else z0)) ;; k buf)).
      { intros x k. rewrite <- Re. destruct (wr x 0 one) as [h1|]; [|reflexivity]. cbn [bind].
        destruct (wr h1 bs one); reflexivity. }
      intros Q m HA HI. rewrite Re'. revert Q m HA HI. 
      change (fills 0 bs ab xb vb buf (fun m =>
        buf <- st3 bs m 0 (fun ax _ => Some (if ax =? 0 then one else if ax =? 1 then one else z0)) ;;
        buf <- (if 0 <? N then
              st3 bs buf 1 (fun ax b =>
                v <- rd b (ax * bs) ;; Some (mul (opp (r1r12 ax)) v))
            else Some buf) ;;
        buf <- for_ 1 N (fun i b =>
             st3 bs b (i + 1) (fun ax b =>
               v1 <- rd b (ax * bs + (i - 1)) ;;
               v0 <- rd b (ax * bs + i) ;;
               Some (sub (mul (half i) v1) (mul (r1r12 ax) v0)))) buf ;;
        for_ 1 (mm + 1) (fun j b =>
             let ptr := db * j in
             for_ ptr (ptr + nmax + mmax - j + 1) (fun i b =>
               st3 bs b i (fun ax b =>
                 v2 <- rd b (ax * bs + (i + 1 - db)) ;;
                 v1 <- rd b (ax * bs + (i - db)) ;;
                 Some (add v2 (mul (r1r2 ax) v1)))) b) buf)
        (fun _ => False) (fun t => let '(i, j) := t in j <= mm)).
      eapply fills_sub_A.
      - apply fills_seq with (B := fun t => t = (0, 0)).
        + apply fills_st3; [exact injb|exact bndb|lia|cbn [xb ab]; lia|cbn [xb ab]; lia|].
          intros ax m Hax _. cbn [vb]. rewrite HW0 by exact Hax.
          assert (ax = 0 \/ ax = 1 \/ ax = 2) as [->|[->| ->]] by lia; reflexivity.
        + apply fills_seq with (B := fun t => 0 < N /\ t = (1, 0)).
          * destruct (Z.ltb_spec 0 N).
            -- eapply fills_sub_A; [apply (fills_st3 0 bs ab xb injb bndb) with (t := (1, 0))|].
               ++ lia.
               ++ cbn [xb ab]; lia.
               ++ cbn [xb ab]; lia.
               ++ intros ax m Hax Hrd. rewrite (Hrd (0, 0) (ax * bs)); [|cbn [xb ab]; lia|right; reflexivity|cbn [xb ab]; lia].
                  cbn [bind vb]. rewrite E12' by exact Hax.
                  pose proof (m2_bra _ _ _ _ _ _ _ _ _ (W_mom ax Hax) 0 0 ltac:(lia) ltac:(lia)) as E. change (0 + 1) with 1 in E.
                  rewrite E, inj0. f_equal. ring.
               ++ intros t _ (_ & ->). right. reflexivity.
            -- apply fills_ret. intros t _ (? & _). lia.
          * apply fills_seq with (B := fun t => exists x, 1 <= x < N /\ t = (x + 1, 0)).
            -- apply fills_for with (B := fun x t => t = (x + 1, 0)). intros x Hx.
               apply fills_st3; [exact injb|exact bndb|lia|cbn [xb ab]; lia|cbn [xb ab]; lia|].
               intros ax m Hax Hrd.
               rewrite (Hrd (x - 1, 0) (ax * bs + (x - 1))); [|cbn [xb ab]; lia| |cbn [xb ab]; lia].
               2:{ destruct (Z.eq_dec x 1) as [->|]; [left; left; right; reflexivity|].
                   destruct (Z.eq_dec x 2) as [->|]; [left; right; split; [lia|reflexivity]|].
                   right. exists (x - 2). split; [lia|]. f_equal. lia. }
               rewrite (Hrd (x, 0) (ax * bs + x)); [|cbn [xb ab]; lia| |cbn [xb ab]; lia].
               2:{ destruct (Z.eq_dec x 1) as [->|]; [left; right; split; [lia|reflexivity]|].
                   right. exists (x - 1). split; [lia|]. f_equal. lia. }
               cbn [bind vb]. rewrite (m2_bra _ _ _ _ _ _ _ _ _ (W_mom ax Hax) x 0) by lia.
               rewrite <- E12', Hhalf, inj0 by (exact Hax || lia). f_equal. ring.
            -- apply fills_for with (B := fun j t => exists i, 0 <= i <= N - j /\ t = (i, j)). intros j Hj. cbv zeta.
               set (ptr := db * j).
               eapply fills_sub_A with (B := fun t => exists x, ptr <= x < ptr + nmax + mmax - j + 1 /\ t = (x - ptr, j)).
               ++ apply fills_for with (B := fun x t => t = (x - ptr, j)). intros x Hx.
                  apply fills_st3; [exact injb|exact bndb|lia|cbn [xb ab]; lia|cbn [xb ab]; unfold ptr; lia|].
                  assert (Have : forall i', 0 <= i' <= N - (j - 1) ->
                    (((False \/ (i', j - 1) = (0, 0)) \/ 0 < N /\ (i', j - 1) = (1, 0)) \/
                     (exists x, 1 <= x < N /\ (i', j - 1) = (x + 1, 0))) \/
                    (exists y, 1 <= y < j /\ exists i, 0 <= i <= N - y /\ (i', j - 1) = (i, y))).
                  { intros i' Hi'. destruct (Z.eq_dec j 1) as [->|].
                    - left. destruct (Z.eq_dec i' 0) as [->|]; [left; left; right; reflexivity|].
                      destruct (Z.eq_dec i' 1) as [->|]; [left; right; split; [lia|reflexivity]|].
                      right. exists (i' - 1). split; [lia|]. f_equal; lia.
                    - right. exists (j - 1). split; [lia|]. exists i'. split; [lia|reflexivity]. }
                  intros ax m Hax Hrd.
                  rewrite (Hrd (x - ptr + 1, j - 1) (ax * bs + (x + 1 - db))); [|cbn [xb ab]; lia| |cbn [xb ab]; unfold ptr; lia].
                  2:{ left. apply Have. lia. }
                  rewrite (Hrd (x - ptr, j - 1) (ax * bs + (x - db))); [|cbn [xb ab]; lia| |cbn [xb ab]; unfold ptr; lia].
                  2:{ left. apply Have. lia. }
                  cbn [bind vb]. rewrite E2' by exact Hax.
                  pose proof (W_transfer ax (x - ptr) (j - 1) Hax ltac:(lia) ltac:(lia)) as E. rewrite Z.sub_add in E.
                  rewrite E. reflexivity.
               ++ intros t _ (i & Hi & ->). right. exists (i + ptr). split; [lia|]. f_equal. lia.
      - intros [i j] (X1 & X2 & X3) Hj. right.
        destruct (Z.eq_dec j 0) as [->|].
        + destruct (Z.eq_dec i 0) as [->|]; [left; reflexivity|].
          destruct (Z.eq_dec i 1) as [->|]; [right; left; split; [lia|reflexivity]|].
          right; right; left. exists (i - 1). split; [lia|]. f_equal; lia.
        + right; right; right. exists j. split; [lia|]. exists i. split; [lia|reflexivity]. }
    assert (F1' := fills_run 0 bs ab xb vb buf _ _ _ F1 ltac:(lia) (fun ax t Hax Hb0 (Ht : False) => match Ht with end)). clear F1.
    (* split the program after the scratch table *)
    match goal with |- wp (bind (wr buf 0 one) ?k) ?Q => set (post := Q) end.
    cbv beta in F1'.
    destruct (wr buf 0 one) as [h1|]; [|exact F1']. cbn [bind] in *.
    destruct (wr h1 bs one) as [h2|]; [|exact F1']. cbn [bind] in *.
    destruct (wr h2 (bs + bs) z0) as [h3|]; [|exact F1']. cbn [bind] in *.
    match goal with |- wp (bind ?c _) _ => destruct c as [h4|]; [|exact F1'] end. cbn [bind] in *.
    match goal with |- wp (bind ?c _) _ => destruct c as [h5|]; [|exact F1'] end. cbn [bind] in *.
    match goal with |- wp (bind ?c _) _ => destruct c as [h6|]; [|exact F1'] end. cbn [bind wp] in *.
    destruct F1' as [HT _]. clear h1 h2 h3 h4 h5.
    assert (HT' : forall ax i j, 0 <= ax < 3 -> 0 <= i <= nmax -> 0 <= j <= mmax ->
       rd h6 (ax * bs + (if big then i + j * db else i * db + j)) = Some (G ax i j)).
    { intros ax i j Hax Hi Hj.
      assert (Eb : big = (nmax >=? mmax)) by reflexivity. assert (Em : mm = if big then mmax else nmax) by reflexivity.
      assert (Hb2 : big = true \/ big = false) by (destruct (nmax >=? mmax); auto). destruct Hb2 as [Hbig|Hbig]; rewrite Hbig in *.
      - pose proof (HT ax (i, j) Hax ltac:(unfold xb; lia) ltac:(right; lia)) as E. cbn [vb ab] in E.
        unfold W in E. rewrite Hbig in E. rewrite <- E. f_equal. lia.
      - pose proof (HT ax (j, i) Hax ltac:(unfold xb; lia) ltac:(right; lia)) as E. cbn [vb ab] in E.
        unfold W in E. rewrite Hbig in E. rewrite <- E. f_equal. lia. }
    clear HT.
    (* copy *)
    pose (xg := fun t : T2 => let '(i, j) := t in 0 <= i <= nmax /\ 0 <= j <= mmax).
    pose (ag := fun t : T2 => let '(i, j) := t in g2d_ijmax e * i + g2d_klmax e * j).
    pose (vg := fun ax (t : T2) => let '(i, j) := t in G ax i j).
    assert (injg : forall t u, xg t -> xg u -> ag t = ag u -> t = u).
    { intros [i j] [i' j'] (X1 & X2) (X1' & X2') E.
      assert (EE : emb e (0, i, j) = emb e (0, i', j')).
      { destruct (L). apply rl_inj; try (apply (emb_box e L); unfold box2d; fold nmax mmax; lia).
        rewrite !(emb_adr e L). unfold adr2d. unfold ag in E. lia. }
      unfold emb in EE. injection EE. destruct (ibase e), (kbase e); intros; subst; reflexivity. }
    assert (bndg : forall t, xg t -> 0 <= ag t < gs).
    { intros [i j] (X1 & X2).
      assert (Bx : box2d e (0, i, j)) by (unfold box2d; fold nmax mmax; lia).
      destruct (L). pose proof (rl_bnd _ (emb_box e L _ Bx)) as Hbd. rewrite (emb_adr e L) in Hbd.
      unfold adr2d in Hbd. unfold ag. fold gs in Hbd. lia. }
    assert (FC : fills 0 gs ag xg vg g (for_ 0 (mmax + 1) (fun j g =>
         for_ 0 (nmax + 1) (fun i g =>
           st3 gs g (i * g2d_ijmax e + j * g2d_klmax e) (fun ax _ =>
             rd h6 (ax * bs + (if big then i + j * db else i * db + j)))) g)) (fun _ => False) xg).
    { eapply fills_sub_A.
      - apply fills_for with (B := fun j t => exists i, 0 <= i < nmax + 1 /\ t = (i, j)). intros j Hj.
        apply fills_for with (B := fun i t => t = (i, j)). intros i Hi.
        apply fills_st3; [exact injg|exact bndg|lia|cbn [xg ag]; lia|cbn [xg ag]; lia|].
        intros ax m Hax _. cbn [vg]. apply HT'; lia.
      - intros [i j] (X1 & X2) _. right. exists j. split; [lia|]. exists i. split; [lia|reflexivity]. }
    assert (FC' := fills_run 0 gs ag xg vg g _ _ _ FC ltac:(lia) (fun ax t Hax Hb0 (Ht : False) => match Ht with end)). clear FC.
    apply wp_bind. eapply wp_mono; [exact FC'|]. clear FC'. intros g1 [HG1 HF1].
    eapply wp_mono; [apply (hrr_ok zero one add mul sub opp inj RT inj0 e L A B C D (fun ax _ => P ax) (fun ax _ => P ax)
        (fun _ => b) (fun _ => b) (fun _ => b) (fun ax _ => S ax)) with (rirj := rirj) (rkrl := rkrl)|].
    - intros ax n Hax _. apply HS, Hax.
    - exact Eij.
    - exact Ekl.
    - rewrite (proj1 HF1). exact Hg.
    - intros ax n a c Hax Hn Ha Hc. rewrite Hnr in Hn. assert (n = 0) as -> by lia.
      specialize (HG1 ax (a, c) Hax ltac:(cbn [xg]; unfold nmax, mmax; lia) ltac:(right; cbn [xg]; unfold nmax, mmax; lia)).
      cbn [vg ag] in HG1. fold gs. unfold base_cell. change (S ax (if ibase e then a else 0) (if ibase e then 0 else a)
        (if kbase e then c else 0) (if kbase e then 0 else c)) with (G ax a c). rewrite <- HG1. f_equal; lia.
    - intros m [Hm HFm]. split.
      + intros ax i j k l Hax Hi Hj Hk Hl. rewrite Hnr in Hm.
        rewrite <- (Hm ax 0 i j k l Hax ltac:(lia) Hi Hj Hk Hl). reflexivity.
      + eapply Frame_trans; eassumption.
  Qed.
End Four.
