(** Rec2Proof.v — CINTg0_2e_2d fills the two-index table of every root. *)
From Verif Require Import Base EnvModel RecModel RecSpec RecLay FillProof.
From Coq Require Import Ring.

Section Ladder.
  Context {F T : Type}.
  Variables (fo gs : Z) (addr : T -> Z) (box : T -> Prop).
  Hypothesis (Hinj : forall t u, box t -> box u -> addr t = addr u -> t = u).
  Hypothesis (Hbnd : forall t, box t -> 0 <= addr t < gs).
  Hypothesis (Ho : 0 <= fo).
  Variable V : Z -> T -> F.
  Variable m0 : arr F.
  Local Notation IV := (Inv fo gs addr box V).

  Lemma load3_ok (P : T -> Prop) g p t : IV P m0 g -> box t -> P t -> p = fo + addr t ->
    exists s, load3 gs g p = Some s /\ forall ax, 0 <= ax < 3 -> s ax = Some (V ax t).
  Proof.
    intros HI Hb HP ->. unfold load3.
    assert (HR : forall ax q, 0 <= ax < 3 -> q = ax * gs + (fo + addr t) -> peek g q = Some (Some (V ax t))).
    { intros ax q Hax ->. destruct HI as [HC _]. specialize (HC ax t Hax Hb HP). unfold peek, rd in *.
      destruct (inb g (ax * gs + (fo + addr t))); [|discriminate]. rewrite HC. reflexivity. }
    rewrite (HR 0), (HR 1), (HR 2) by lia. cbn [bind].
    eexists. split; [reflexivity|]. intros ax Hax.
    assert (ax = 0 \/ ax = 1 \/ ax = 2) as [->|[->| ->]] by lia; reflexivity.
  Qed.

  Lemma load3_in (g : arr F) p : 0 <= gs -> 0 <= p -> gs * 2 + p < asize g -> exists s, load3 gs g p = Some s.
  Proof.
    intros Hg Hp Hs. unfold load3, peek, inb.
    replace ((0 <=? p) && (p <? asize g)) with true by lia.
    replace ((0 <=? gs + p) && (gs + p <? asize g)) with true by lia.
    replace ((0 <=? gs * 2 + p) && (gs * 2 + p <? asize g)) with true by lia.
    cbn [bind]. eauto.
  Qed.

  Lemma wp_ladder N (pos : Z -> Z) (step : Z -> arr F -> (Z -> option F) -> (Z -> option F) -> Z -> option F)
      (A : T -> Prop) (cell : Z -> T) (P : T -> Prop) g s0 s1 :
    IV P m0 g -> (forall t, box t -> A t -> P t) ->
    (forall x, 1 <= x < N -> box (cell (x + 1)) /\ pos x = fo + addr (cell (x + 1))) ->
    (1 < N -> forall ax, 0 <= ax < 3 -> s0 ax = Some (V ax (cell 0)) /\ s1 ax = Some (V ax (cell 1))) ->
    (forall x ax g s0 s1, 1 <= x < N -> 0 <= ax < 3 ->
       s0 ax = Some (V ax (cell (x - 1))) -> s1 ax = Some (V ax (cell x)) ->
       (forall u q, box u -> A u -> q = ax * gs + (fo + addr u) -> rd g q = Some (V ax u)) ->
       step x g s0 s1 ax = Some (V ax (cell (x + 1)))) ->
    wp (for_ 1 N (fun x st => let '(g, s0, s1) := st in
          let s2 := fun ax => step x g s0 s1 ax in
          g <- st3 gs g (pos x) (fun ax _ => s2 ax) ;; Some (g, s1, s2)) (g, s0, s1))
       (fun st => IV (fun t => P t \/ exists x, 2 <= x <= N /\ t = cell x) m0 (fst (fst st))).
  Proof.
    intros HI HA Hc Hs Hst. destruct (Z_le_gt_dec N 1) as [Hle|Hgt].
    - rewrite for_nil by lia. apply wp_ret. eapply Inv_mono; [exact HI|].
      intros t _ [Hp|(x & Hx & _)]; [exact Hp|lia].
    - apply wp_for with (I := fun x st =>
        IV (fun t => P t \/ exists y, 2 <= y <= x /\ t = cell y) m0 (fst (fst st)) /\
        forall ax, 0 <= ax < 3 -> snd (fst st) ax = Some (V ax (cell (x - 1))) /\
                                  snd st ax = Some (V ax (cell x))).
      + lia.
      + cbn [fst snd]. split; [|exact (Hs ltac:(lia))].
        eapply Inv_mono; [exact HI|]. intros t _ [Hp|(x & Hx & _)]; [exact Hp|lia].
      + intros x [[g1 t0] t1] Hx [HI1 Hs1]. cbn [fst snd] in *.
        destruct (Hc x Hx) as [Hb Hp].
        assert (HS2 : forall ax, 0 <= ax < 3 -> step x g1 t0 t1 ax = Some (V ax (cell (x + 1)))).
        { intros ax Hax. destruct (Hs1 ax Hax). apply Hst; auto.
          intros u q Hu Hau ->. destruct HI1 as [HC _]. apply HC; auto. }
        apply wp_bind.
        eapply (wp_st3 fo gs addr box Hinj Hbnd Ho V _
                 (fun t => P t \/ exists y, 2 <= y <= x + 1 /\ t = cell y) m0 g1 (cell (x + 1)) (pos x));
          [exact HI1|exact Hb|exact Hp| | |].
        * intros ax m' Hax _ _. apply HS2; exact Hax.
        * intros u _ [HPu|(y & Hy & ->)]; [left; left; exact HPu|].
          destruct (Z.eq_dec y (x + 1)) as [->|]; [right; reflexivity|left; right; exists y; split; [lia|reflexivity]].
        * intros m' HI'. apply wp_ret. cbn [fst snd]. split; [exact HI'|].
          intros ax Hax. rewrite Z.add_simpl_r. split; [apply (Hs1 ax Hax)|apply HS2; exact Hax].
      + intros [[g1 t0] t1] [HI1 _]. exact HI1.
  Qed.
End Ladder.

Section TwoD.
  Context {F : Type} (zero one : F) (add mul sub : F -> F -> F) (opp : F -> F) (inj : Z -> F).
  Hypothesis RT : ring_theory zero one add mul sub opp (@eq F).
  Add Ring FRing2 : RT.
  Hypothesis inj0 : inj 0 = zero.
  Hypothesis injS : forall i, 0 <= i -> inj (i + 1) = add (inj i) one.
  Local Notation T := (Z * Z * Z)%type.

  Variables (e : envs) (bc : @rys2e F).
  Let gs := g_size e.
  Let nr := nrys_roots e.
  Let nmax := li_ceil e + lj_ceil e.
  Let mmax := lk_ceil e + ll_ceil e.
  Let dn := g2d_ijmax e.
  Let dm := g2d_klmax e.

  Definition adr2d (t : T) : Z := let '(n, a, b) := t in n + g2d_ijmax e * a + g2d_klmax e * b.
  Definition box2d (t : T) : Prop := let '(n, a, b) := t in
    0 <= n < nrys_roots e /\ 0 <= a <= li_ceil e + lj_ceil e /\ 0 <= b <= lk_ceil e + ll_ceil e.

  Hypothesis Hinj : forall t u, box2d t -> box2d u -> adr2d t = adr2d u -> t = u.
  Hypothesis Hbnd : forall t, box2d t -> 0 <= adr2d t < gs.
  Hypothesis (Hnm : 0 <= nmax) (Hmm : 0 <= mmax) (Hgs0 : 0 <= gs).
  (** the load of lines 403-405 *)
  Hypothesis (Hdn : 0 <= dn <= gs).

  Variable S : Z -> Z -> Z -> Z -> F. (* axis, root, a, b *)
  Variable w : Z -> F.
  Hypothesis HS : forall ax n, 0 <= ax < 3 -> 0 <= n < nr ->
    moments2 add mul inj (b10 bc n) (b01 bc n) (b00 bc n) (c00 bc ax n) (c0p bc ax n) (S ax n) /\
    S ax n 0 0 = origin one (w n) ax.

  Definition V2d (ax : Z) (t : T) : F := let '(n, a, b) := t in S ax n a b.

  Lemma S_bra ax n a b : 0 <= ax < 3 -> 0 <= n < nr -> 0 <= a -> 0 <= b ->
    S ax n (a + 1) b = add (add (mul (c00 bc ax n) (S ax n a b)) (mul (mul (inj a) (b10 bc n)) (S ax n (a - 1) b)))
                           (mul (mul (inj b) (b00 bc n)) (S ax n a (b - 1))).
  Proof. intros Hx Hn Ha Hb. destruct (HS ax n Hx Hn) as [HM _]. rewrite (m2_bra _ _ _ _ _ _ _ _ _ HM) by lia. ring. Qed.
  Lemma S_ket ax n a b : 0 <= ax < 3 -> 0 <= n < nr -> 0 <= a -> 0 <= b ->
    S ax n a (b + 1) = add (add (mul (c0p bc ax n) (S ax n a b)) (mul (mul (inj b) (b01 bc n)) (S ax n a (b - 1))))
                           (mul (mul (inj a) (b00 bc n)) (S ax n (a - 1) b)).
  Proof. intros Hx Hn Ha Hb. destruct (HS ax n Hx Hn) as [HM _]. rewrite (m2_ket _ _ _ _ _ _ _ _ _ HM) by lia. ring. Qed.
  Lemma S_bra0 ax n b : 0 <= ax < 3 -> 0 <= n < nr -> 0 <= b ->
    S ax n 1 b = add (mul (c00 bc ax n) (S ax n 0 b)) (mul (mul (inj b) (b00 bc n)) (S ax n 0 (b - 1))).
  Proof. intros. pose proof (S_bra ax n 0 b) as H'. change (0 + 1) with 1 in H'. rewrite H' by lia. rewrite inj0. ring. Qed.
  Lemma S_ket0 ax n a : 0 <= ax < 3 -> 0 <= n < nr -> 0 <= a ->
    S ax n a 1 = add (mul (c0p bc ax n) (S ax n a 0)) (mul (mul (inj a) (b00 bc n)) (S ax n (a - 1) 0)).
  Proof. intros. pose proof (S_ket ax n a 0) as H'. change (0 + 1) with 1 in H'. rewrite H' by lia. rewrite inj0. ring. Qed.
  Lemma inj1 : inj 1 = one.
  Proof. change 1 with (0 + 1). rewrite injS by lia. rewrite inj0. ring. Qed.

  Variable m0 : arr F.
  Local Notation IV := (Inv 0 gs adr2d box2d V2d).
  Local Notation col n lo hi b := (fun t : T => let '(n', a', b') := t in n' = n /\ lo <= a' <= hi /\ b' = b).
  Local Notation row n a lo hi := (fun t : T => let '(n', a', b') := t in n' = n /\ a' = a /\ lo <= b' <= hi).


  Lemma g0_2e_2d_ok : 4 * gs <= asize m0 ->
    (forall n, 0 <= n < nr -> rd m0 (2 * gs + n) = Some (w n)) ->
    wp (g0_2e_2d one add mul inj e bc m0) (fun m =>
      (forall ax n a b, 0 <= ax < 3 -> 0 <= n < nr -> 0 <= a <= nmax -> 0 <= b <= mmax ->
         rd m (ax * gs + (n + dn * a + dm * b)) = Some (S ax n a b)) /\
      Frame (fun p => 0 <= p < 3 * gs) m0 m).
  Proof.
    intros Hsz Hw. unfold g0_2e_2d. fold gs nr nmax mmax dn dm.
    assert (B0 : forall n, 0 <= n < nr -> 0 <= n < gs).
    { intros n Hn. specialize (Hbnd (n, 0, 0)). unfold box2d, adr2d in Hbnd. fold nr nmax mmax in Hbnd. lia. }
    apply wp_bind.
    apply wp_mono with (fun m => IV (fun t => let '(n, a, b) := t in a = 0 /\ b = 0) m0 m).
    { destruct (Z_le_gt_dec 0 nr) as [Hnr|Hnr].
      2:{ rewrite for_nil by lia. apply wp_ret. split; [|split; [apply Frame_refl|lia]].
          intros ax [[n a] b] Hax Hb. unfold box2d in Hb. fold nr in Hb. lia. }
      apply wp_for with (I := fun i m => Frame (fun p => 0 <= p < 3 * gs) m0 m /\
        (forall n, 0 <= n < nr -> rd m (2 * gs + n) = Some (w n)) /\
        (forall n, 0 <= n < i -> rd m n = Some one /\ rd m (gs + n) = Some one)).
      - exact Hnr.
      - split; [apply Frame_refl|]. split; [exact Hw|]. intros; lia.
      - intros i m Hi (HF & H2 & H01). pose proof (B0 i Hi) as Hig.
        assert (Hs : asize m = asize m0) by apply HF.
        apply wp_bind. apply wp_wr; [lia|]. intros m1 S1 C1.
        apply wp_wr; [lia|]. intros m2 S2 C2.
        assert (RD : forall q v, rd m q = Some v -> q <> i -> q <> gs + i -> rd m2 q = Some v).
        { intros q v Hq N1 N2. apply rd_spec in Hq. apply rd_spec. rewrite C2, C1. 
          destruct (Z.eqb_spec q (gs + i)); [lia|]. destruct (Z.eqb_spec q i); [lia|].
          rewrite S2, S1. exact Hq. }
        split; [|split].
        + eapply Frame_trans; [exact HF|]. split; [lia|]. intros q Hq. rewrite C2, C1.
          destruct (Z.eqb_spec q (gs + i)); [exfalso; apply Hq; lia|].
          destruct (Z.eqb_spec q i); [exfalso; apply Hq; lia|reflexivity].
        + intros n Hn. pose proof (B0 n Hn). apply RD; [apply H2; exact Hn|lia|lia].
        + intros n Hn. pose proof (B0 n ltac:(lia)). destruct (Z.eq_dec n i) as [->|Hne].
          * split; apply rd_spec; rewrite C2, ?C1; rewrite ?Z.eqb_refl, S2, S1.
            -- destruct (Z.eqb_spec i (gs + i)); split; try reflexivity; lia.
            -- split; [lia|reflexivity].
          * destruct (H01 n ltac:(lia)) as [E0 E1]. split; [apply RD with (1 := E0)|apply RD with (1 := E1)]; lia.
      - intros m (HF & H2 & H01). split; [|split; [exact HF|]].
        + intros ax [[n a] b] Hax (Hn & _ & _) [-> ->]. fold nr in Hn. unfold adr2d, V2d.
          destruct (HS ax n Hax Hn) as [_ ->]. destruct (H01 n Hn) as [E0 E1].
          assert (ax = 0 \/ ax = 1 \/ ax = 2) as [->|[->| ->]] by lia; cbn [origin Z.eqb Pos.eqb].
          * replace (0 * gs + _) with n by lia. exact E0.
          * replace (1 * gs + _) with (gs + n) by lia. exact E1.
          * replace (2 * gs + _) with (2 * gs + n) by lia. apply H2; exact Hn.
        + destruct HF as [-> _]. lia. }
    intros m1 HI1.
    destruct (Z_le_gt_dec 0 nr) as [Hnr|Hnr].
    2:{ rewrite for_nil by lia. apply wp_ret. split; [intros; lia|].
        apply (Inv_frame _ _ _ _ _ _ _ _ HI1). }
    apply wp_for with (I := fun i m => IV (fun t => let '(n, a, b) := t in (a = 0 /\ b = 0) \/ n < i) m0 m).
    - exact Hnr.
    - eapply Inv_mono; [exact HI1|]. intros [[n a] b] (Hn & _) [?|?]; [assumption|lia].
    - clear m1 HI1. intros i m Hi HI. apply wp_bind.
      (* lines 310-336 *)
      apply wp_mono with (fun m => IV (fun t => let '(n, a, b) := t in (a = 0 /\ b = 0) \/ n < i \/ (n = i /\ b = 0)) m0 m).
      { destruct (Z.ltb_spec 0 nmax) as [Hn0|Hn0].
        2:{ apply wp_ret. eapply Inv_mono; [exact HI|]. intros [[n a] b] (_ & Ha & _). fold nmax in Ha. lia. }
        destruct (load3_ok 0 gs adr2d box2d V2d m0 _ m i (i, 0, 0) HI) as (s0 & E0 & Hs0);
          [unfold box2d; fold nr nmax mmax; lia|cbn; lia|unfold adr2d; lia|].
        rewrite E0. cbn [bind]. apply wp_bind.
        assert (HS1 : forall ax, 0 <= ax < 3 -> (v <- s0 ax;; Some (mul (c00 bc ax i) v)) = Some (V2d ax (i, 1, 0))).
        { intros ax Hax. rewrite Hs0 by exact Hax. cbn [bind V2d]. rewrite S_bra0 by (lia || exact Hi).
          rewrite inj0. f_equal. ring. }
        eapply (wp_st3 0 gs adr2d box2d Hinj Hbnd ltac:(lia) V2d _
          (fun t => (let '(n, a, b) := t in (a = 0 /\ b = 0) \/ n < i) \/ t = (i, 1, 0)) m0 m (i, 1, 0));
          [exact HI|unfold box2d; fold nr nmax mmax; lia|unfold adr2d; fold dn dm; lia| |tauto|].
        { intros ax m' Hax _ _. apply HS1; exact Hax. }
        intros m2 HI2. apply wp_bind.
        eapply wp_mono; [refine (wp_ladder 0 gs adr2d box2d Hinj Hbnd ltac:(lia) V2d m0 nmax (fun x => i + (x + 1) * dn)
           (fun x _ s0 s1 ax => v1 <- s1 ax ;; v0 <- s0 ax ;;
              Some (add (mul (c00 bc ax i) v1) (mul (mul (inj x) (b10 bc i)) v0)))
           (fun _ => False) (fun x => (i, x, 0)) _ m2 s0 _ HI2 _ _ _ _)|].
        - tauto.
        - intros x Hx. unfold box2d, adr2d. fold nr nmax mmax dn dm. lia.
        - intros _ ax Hax. split; [apply Hs0|apply HS1]; exact Hax.
        - intros x ax g' t0 t1 Hx Hax E1 E2 _. rewrite E1, E2. cbn [bind V2d].
          rewrite S_bra by (lia || exact Hi). rewrite inj0. f_equal. ring.
        - intros [[m3 ?] ?] HI3. apply wp_ret. cbn [fst] in *. eapply Inv_mono; [exact HI3|].
          intros [[n a] b] (Bn & Ba & Bb) Ht. fold nmax in Ba. fold mmax in Bb.
          destruct (Z_le_gt_dec a 0); [left; left; lia|]. destruct (Z_lt_ge_dec n i); [left; left; right; lia|].
          assert (n = i /\ b = 0) as [-> ->] by lia.
          destruct (Z.eq_dec a 1) as [->|]; [left; right; reflexivity|right; exists a; split; [lia|reflexivity]]. }
      intros m1 HI1. clear m HI. apply wp_bind.
      (* lines 338-392 *)
      apply wp_mono with (fun m => IV (fun t => let '(n, a, b) := t in
        (a = 0 /\ b = 0) \/ n < i \/ (n = i /\ b = 0) \/ (n = i /\ a <= 1)) m0 m).
      { destruct (Z.ltb_spec 0 mmax) as [Hm0|Hm0].
        2:{ apply wp_ret. eapply Inv_mono; [exact HI1|]. intros [[n a] b] (_ & Ha & Hb). fold nmax in Ha. fold mmax in Hb. lia. }
        destruct (load3_ok 0 gs adr2d box2d V2d m0 _ m1 i (i, 0, 0) HI1) as (s0 & E0 & Hs0);
          [unfold box2d; fold nr nmax mmax; lia|cbn; lia|unfold adr2d; lia|].
        rewrite E0. cbn [bind]. apply wp_bind.
        assert (HS1 : forall ax, 0 <= ax < 3 -> (v <- s0 ax;; Some (mul (c0p bc ax i) v)) = Some (V2d ax (i, 0, 1))).
        { intros ax Hax. rewrite Hs0 by exact Hax. cbn [bind V2d]. rewrite S_ket0 by (lia || exact Hi).
          rewrite inj0. f_equal. ring. }
        eapply (wp_st3 0 gs adr2d box2d Hinj Hbnd ltac:(lia) V2d _
          (fun t => (let '(n, a, b) := t in (a = 0 /\ b = 0) \/ n < i \/ (n = i /\ b = 0)) \/ t = (i, 0, 1)) m0 m1 (i, 0, 1));
          [exact HI1|unfold box2d; fold nr nmax mmax; lia|unfold adr2d; fold dn dm; lia| |tauto|].
        { intros ax m' Hax _ _. apply HS1; exact Hax. }
        intros m2 HI2. apply wp_bind.
        eapply wp_mono; [refine (wp_ladder 0 gs adr2d box2d Hinj Hbnd ltac:(lia) V2d m0 mmax (fun x => i + (x + 1) * dm)
           (fun x _ s0 s1 ax => v1 <- s1 ax ;; v0 <- s0 ax ;;
              Some (add (mul (c0p bc ax i) v1) (mul (mul (inj x) (b01 bc i)) v0)))
           (fun _ => False) (fun x => (i, 0, x)) _ m2 s0 _ HI2 _ _ _ _)|].
        - tauto.
        - intros x Hx. unfold box2d, adr2d. fold nr nmax mmax dn dm. lia.
        - intros _ ax Hax. split; [apply Hs0|apply HS1]; exact Hax.
        - intros x ax g' t0 t1 Hx Hax E1 E2 _. rewrite E1, E2. cbn [bind V2d].
          rewrite S_ket by (lia || exact Hi). rewrite inj0. f_equal. ring.
        - intros [[m3 ?] ?] HI3. cbn [fst] in *.
          assert (HI4 : IV (fun t => let '(n, a, b) := t in
             (a = 0 /\ b = 0) \/ n < i \/ (n = i /\ b = 0) \/ (n = i /\ a = 0)) m0 m3).
          { eapply Inv_mono; [exact HI3|].
            intros [[n a] b] (Bn & Ba & Bb) Ht. fold nmax in Ba. fold mmax in Bb.
            destruct (Z_le_gt_dec b 0); [left; left; lia|]. destruct (Z_lt_ge_dec n i); [left; left; lia|].
            assert (n = i /\ a = 0) as [-> ->] by lia.
            destruct (Z.eq_dec b 1) as [->|]; [left; right; reflexivity|right; exists b; split; [lia|reflexivity]]. }
          clear HI3 HI2 HS1 Hs0 s0 E0 m2.
          destruct (Z.ltb_spec 0 nmax) as [Hn0|Hn0].
          2:{ apply wp_ret. eapply Inv_mono; [exact HI4|]. intros [[n a] b] (_ & Ha & Hb). fold nmax in Ha. fold mmax in Hb. lia. }
          destruct (load3_ok 0 gs adr2d box2d V2d m0 _ m3 (i + dn) (i, 1, 0) HI4) as (s0 & E0 & Hs0);
            [unfold box2d; fold nr nmax mmax; lia|cbn; lia|unfold adr2d; fold dn dm; lia|].
          rewrite E0. cbn [bind]. apply wp_bind.
          assert (HS1 : forall ax, 0 <= ax < 3 -> (v0 <- s0 ax;; w0 <- rd m3 (ax * gs + i);;
             Some (add (mul (c0p bc ax i) v0) (mul (b00 bc i) w0))) = Some (V2d ax (i, 1, 1))).
          { intros ax Hax. rewrite Hs0 by exact Hax. cbn [bind].
            rewrite (Inv_rd _ _ _ _ _ _ _ _ ax (i, 0, 0) (ax * gs + i) HI4 Hax);
              [|unfold box2d; fold nr nmax mmax; lia|cbn; lia|unfold adr2d; lia].
            cbn [bind V2d]. rewrite S_ket0 by (lia || exact Hi).
            rewrite inj1. f_equal. change (1 - 1) with 0. ring. }
          eapply (wp_st3 0 gs adr2d box2d Hinj Hbnd ltac:(lia) V2d _
            (fun t => (let '(n, a, b) := t in (a = 0 /\ b = 0) \/ n < i \/ (n = i /\ b = 0) \/ (n = i /\ a = 0)) \/ t = (i, 1, 1)) m0 m3 (i, 1, 1));
            [exact HI4|unfold box2d; fold nr nmax mmax; lia|unfold adr2d; fold dn dm; lia| |tauto|].
          { intros ax m' Hax _ _. apply HS1; exact Hax. }
          intros m2 HI2. apply wp_bind.
          eapply wp_mono; [refine (wp_ladder 0 gs adr2d box2d Hinj Hbnd ltac:(lia) V2d m0 mmax (fun x => i + dn + (x + 1) * dm)
             (fun x g s0 s1 ax => v1 <- s1 ax ;; v0 <- s0 ax ;; w <- rd g (ax * gs + (i + x * dm)) ;;
                Some (add (add (mul (c0p bc ax i) v1) (mul (mul (inj x) (b01 bc i)) v0)) (mul (b00 bc i) w)))
             (fun t => let '(n, a, b) := t in n = i /\ a = 0) (fun x => (i, 1, x)) _ m2 s0 _ HI2 _ _ _ _)|].
          + intros [[n a] b] _ Ht. left. lia.
          + intros x Hx. unfold box2d, adr2d. fold nr nmax mmax dn dm. lia.
          + intros _ ax Hax. split; [apply Hs0|apply HS1]; exact Hax.
          + intros x ax g' t0 t1 Hx Hax E1 E2 HA. rewrite E1, E2. cbn [bind].
            rewrite (HA (i, 0, x)); [|unfold box2d; fold nr nmax mmax; lia|cbn; lia|unfold adr2d; fold dn dm; lia].
            cbn [bind V2d]. rewrite S_ket by (lia || exact Hi). rewrite inj1. f_equal. change (1 - 1) with 0. ring.
          + intros [[m5 ?] ?] HI5. apply wp_ret. cbn [fst] in *. eapply Inv_mono; [exact HI5|].
            intros [[n a] b] (Bn & Ba & Bb) Ht. fold nmax in Ba. fold mmax in Bb.
            destruct (Z_le_gt_dec b 0); [left; left; lia|]. destruct (Z_lt_ge_dec n i); [left; left; lia|].
            destruct (Z.eq_dec a 0); [left; left; lia|].
            assert (n = i /\ a = 1) as [-> ->] by lia.
            destruct (Z.eq_dec b 1) as [->|]; [left; right; reflexivity|right; exists b; split; [lia|reflexivity]]. }
      intros m2 HI2. clear m1 HI1.
      (* lines 394-419 *)
      apply wp_for with (I := fun mm m => IV (fun t => let '(n, a, b) := t in
        (a = 0 /\ b = 0) \/ n < i \/ (n = i /\ b < mm) \/ (n = i /\ a <= 1)) m0 m).
      + lia.
      + eapply Inv_mono; [exact HI2|]. intros [[n a] b] (Bn & Ba & Bb). lia.
      + clear m2 HI2. intros mm m Hm HI.
        destruct (load3_ok 0 gs adr2d box2d V2d m0 _ m (mm * dm + i) (i, 0, mm) HI) as (s0 & E0 & Hs0);
          [unfold box2d; fold nr nmax mmax; lia|cbn; lia|unfold adr2d; fold dn dm; lia|].
        rewrite E0. cbn [bind].
        assert (HS1 : exists s1, load3 gs m (mm * dm + i + dn) = Some s1 /\
          (0 < nmax -> forall ax, 0 <= ax < 3 -> s1 ax = Some (V2d ax (i, 1, mm)))).
        { destruct (Z_lt_ge_dec 0 nmax) as [Hn0|Hn0].
          - destruct (load3_ok 0 gs adr2d box2d V2d m0 _ m (mm * dm + i + dn) (i, 1, mm) HI) as (s1 & E1 & Hs1);
              [unfold box2d; fold nr nmax mmax; lia|cbn; lia|unfold adr2d; fold dn dm; lia|].
            exists s1. split; [exact E1|auto].
          - pose proof (Hbnd (i, 0, mm)) as Hb. unfold box2d, adr2d in Hb. fold nr nmax mmax dm in Hb.
            destruct (load3_in (F := F) gs m (mm * dm + i + dn)) as [s1 E1]; try lia.
            + rewrite (proj2 (Inv_size _ _ _ _ _ _ _ _ HI)). lia.
            + exists s1. split; [exact E1|]. intros; lia. }
        destruct HS1 as (s1 & E1 & Hs1). rewrite E1. cbn [bind]. apply wp_bind.
        eapply wp_mono; [refine (wp_ladder 0 gs adr2d box2d Hinj Hbnd ltac:(lia) V2d m0 nmax (fun x => mm * dm + i + (x + 1) * dn)
           (fun x g s0 s1 ax => v1 <- s1 ax ;; v0 <- s0 ax ;; w <- rd g (ax * gs + (mm * dm + i + x * dn - dm)) ;;
              Some (add (add (mul (c00 bc ax i) v1) (mul (mul (inj x) (b10 bc i)) v0)) (mul (mul (inj mm) (b00 bc i)) w)))
           (fun t => let '(n, a, b) := t in n = i /\ b = mm - 1) (fun x => (i, x, mm)) _ m s0 _ HI _ _ _ _)|].
        * intros [[n a] b] _ Ht. lia.
        * intros x Hx. unfold box2d, adr2d. fold nr nmax mmax dn dm. lia.
        * intros Hn1 ax Hax. split; [apply Hs0|apply Hs1; [lia|]]; exact Hax.
        * intros x ax g' t0 t1 Hx Hax F0 F1 HA. rewrite F0, F1. cbn [bind].
          rewrite (HA (i, x, mm - 1)); [|unfold box2d; fold nr nmax mmax; lia|cbn; lia|unfold adr2d; fold dn dm; lia].
          cbn [bind V2d]. rewrite S_bra by (lia || exact Hi). reflexivity.
        * intros [[m3 ?] ?] HI3. apply wp_ret. cbn [fst] in *. eapply Inv_mono; [exact HI3|].
          intros [[n a] b] (Bn & Ba & Bb) Ht. fold nmax in Ba. fold mmax in Bb.
          destruct (Z_le_gt_dec a 1); [left; lia|]. destruct (Z_lt_ge_dec n i); [left; lia|].
          destruct (Z_lt_ge_dec b mm); [left; lia|].
          assert (n = i /\ b = mm) as [-> ->] by lia. right. exists a. split; [lia|reflexivity].
      + intros m3 HI3. eapply Inv_mono; [exact HI3|].
        intros [[n a] b] (Bn & Ba & Bb) Ht. fold nmax in Ba. fold mmax in Bb. lia.
    - intros m2 HI2. split.
      + intros ax n a b Hax Hn Ha Hb.
        apply (Inv_rd _ _ _ _ _ _ _ _ ax (n, a, b) _ HI2 Hax); [unfold box2d; auto|lia|unfold adr2d; lia].
      + apply (Inv_frame _ _ _ _ _ _ _ _ HI2).
  Qed.
End TwoD.
