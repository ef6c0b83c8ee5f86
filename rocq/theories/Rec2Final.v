(** Rec2Final.v — layouts of the initialisers and the complete two-electron recurrences. *)
From Coq Require Import Ring.
From Verif Require Import Base EnvModel RecModel RecSpec RecMoments RecLay FillProof Rec2Proof HrrProof.

(** What the recurrences need of an environment. *)
Definition ibase (e : envs) : bool := li_ceil e >? lj_ceil e.
Definition kbase (e : envs) : bool := lk_ceil e >? ll_ceil e.
Definition top_i e := if ibase e then li_ceil e + lj_ceil e else li_ceil e.
Definition top_j e := if ibase e then lj_ceil e else li_ceil e + lj_ceil e.
Definition top_k e := if kbase e then lk_ceil e + ll_ceil e else lk_ceil e.
Definition top_l e := if kbase e then ll_ceil e else lk_ceil e + ll_ceil e.

Record rlay (e : envs) : Prop := mkrlay {
  rl_i : 0 <= li_ceil e; rl_j : 0 <= lj_ceil e; rl_k : 0 <= lk_ceil e; rl_l : 0 <= ll_ceil e;
  rl_inj : forall t u, box4 e (top_i e) (top_k e) (top_l e) (top_j e) t ->
     box4 e (top_i e) (top_k e) (top_l e) (top_j e) u -> adr4 e t = adr4 e u -> t = u;
  rl_bnd : forall t, box4 e (top_i e) (top_k e) (top_l e) (top_j e) t -> 0 <= adr4 e t < g_size e;
  rl_si : g_stride_i e = nrys_roots e;
  rl_sk : g_stride_k e = nrys_roots e * (top_i e + 1);
  rl_dn : g2d_ijmax e = if ibase e then g_stride_i e else g_stride_j e;
  rl_dm : g2d_klmax e = if kbase e then g_stride_k e else g_stride_l e;
  rl_gs : 0 <= g_size e;
  rl_dead : 0 <= g2d_ijmax e <= g_size e }.

Lemma rlay_4c nroots order ng a b c d ci cj ck cl : 0 <= nroots ->
  0 <= a + IINC ng -> 0 <= b + JINC ng -> 0 <= c + KINC ng -> 0 <= d + LINC ng ->
  rlay (init_4c nroots order ng a b c d ci cj ck cl).
Proof.
  intros Hn Ha Hb Hc Hd. unfold init_4c. cbv zeta.
  set (li := a + IINC ng) in *. set (lj := b + JINC ng) in *. set (lk := c + KINC ng) in *. set (ll := d + LINC ng) in *.
  set (dlk := if lk >? ll then lk + ll + 1 else lk + 1).
  set (dll := if lk >? ll then ll + 1 else lk + ll + 1).
  set (dli := if li >? lj then li + lj + 1 else li + 1).
  set (dlj := if li >? lj then lj + 1 else li + lj + 1).
  assert (Hs : 1 <= dli /\ 1 <= dlj /\ 1 <= dlk /\ 1 <= dll).
  { unfold dli, dlj, dlk, dll. destruct (li >? lj), (lk >? ll); lia. }
  set (e := mkenvs _ _ _ _ _ _ _ _ _ _ _ _ _ _ _ _ _ _ _ _ _ _ _ _ _ _ _ _ _ _).
  assert (Ti : top_i e + 1 = dli) by (unfold top_i, ibase, dli; cbn [li_ceil lj_ceil e]; destruct (li >? lj); lia).
  assert (Tj : top_j e + 1 = dlj) by (unfold top_j, ibase, dlj; cbn [li_ceil lj_ceil e]; destruct (li >? lj); lia).
  assert (Tk : top_k e + 1 = dlk) by (unfold top_k, kbase, dlk; cbn [lk_ceil ll_ceil e]; destruct (lk >? ll); lia).
  assert (Tl : top_l e + 1 = dll) by (unfold top_l, kbase, dll; cbn [lk_ceil ll_ceil e]; destruct (lk >? ll); lia).
  assert (P1 : nroots <= nroots * dli) by nia.
  assert (P2 : nroots * dli <= nroots * dli * dlk) by nia.
  assert (P3 : nroots * dli * dlk <= nroots * dli * dlk * dll) by nia.
  assert (P4 : nroots * dli * dlk * dll <= nroots * dli * dlk * dll * dlj) by nia.
  split; try assumption.
  - intros [[[[n i] k] l] j] [[[[n' i'] k'] l'] j'] (H1 & H2 & H3 & H4 & H5) (H1' & H2' & H3' & H4' & H5').
    unfold adr4. cbn [g_stride_i g_stride_j g_stride_k g_stride_l nrys_roots e] in *. intros E.
    destruct (radix5_inj nroots dli dlk dll n i k l j n' i' k' l' j') as (-> & -> & -> & -> & ->); try lia. reflexivity.
  - intros [[[[n i] k] l] j] (H1 & H2 & H3 & H4 & H5).
    unfold adr4. cbn [g_stride_i g_stride_j g_stride_k g_stride_l nrys_roots g_size e] in *.
    apply (radix5_bound nroots dli dlk dll dlj n i k l j); lia.
  - reflexivity.
  - cbn [g_stride_k nrys_roots e]. rewrite Ti. reflexivity.
  - reflexivity.
  - reflexivity.
  - cbn [g_size e]. lia.
  - cbn [g2d_ijmax g_size e]. destruct (li >? lj); lia.
Qed.

Lemma sr_roots_nonneg om x : 0 <= x -> 0 <= sr_roots om x.
Proof. unfold sr_roots. destruct (om && (x <=? 3)); lia. Qed.

Lemma rlay_2e om ng a b c d ci cj ck cl :
  0 <= a + IINC ng -> 0 <= b + JINC ng -> 0 <= c + KINC ng -> 0 <= d + LINC ng ->
  rlay (init_int2e om ng a b c d ci cj ck cl).
Proof.
  intros. unfold init_int2e. apply rlay_4c; try assumption. apply sr_roots_nonneg.
  pose proof (Z.quot_pos (a + IINC ng + (b + JINC ng) + (c + KINC ng) + (d + LINC ng)) 2). lia.
Qed.
Lemma rlay_yp ng a b c d ci cj ck cl :
  0 <= a + IINC ng -> 0 <= b + JINC ng -> 0 <= c + KINC ng -> 0 <= d + LINC ng ->
  rlay (init_int2e_yp ng a b c d ci cj ck cl).
Proof.
  intros. unfold init_int2e_yp. apply rlay_4c; try assumption. apply Z.quot_pos; lia.
Qed.
Lemma rlay_4c1e ng a b c d ci cj ck cl :
  0 <= a + IINC ng -> 0 <= b + JINC ng -> 0 <= c + KINC ng -> 0 <= d + LINC ng ->
  rlay (init_int4c1e ng a b c d ci cj ck cl).
Proof. intros. unfold init_int4c1e. apply rlay_4c; try assumption. lia. Qed.

Lemma rlay_3c2e om ng a b c ci cj ck :
  0 <= a + IINC ng -> 0 <= b + JINC ng -> 0 <= c + KINC ng ->
  rlay (init_int3c2e om ng a b c ci cj ck).
Proof.
  intros Ha Hb Hc. unfold init_int3c2e. cbv zeta.
  set (li := a + IINC ng) in *. set (lj := b + JINC ng) in *. set (ll := c + KINC ng) in *.
  set (order := Z.quot (li + lj + ll) 2 + 1).
  set (nroots := sr_roots om order).
  assert (Hn : 0 <= nroots).
  { apply sr_roots_nonneg. unfold order. pose proof (Z.quot_pos (li + lj + ll) 2). lia. }
  clearbody nroots.
  set (dll := ll + 1).
  set (dli := if li >? lj then li + lj + 1 else li + 1).
  set (dlj := if li >? lj then lj + 1 else li + lj + 1).
  assert (Hs : 1 <= dli /\ 1 <= dlj /\ 1 <= dll).
  { unfold dli, dlj, dll. destruct (li >? lj); lia. }
  set (e := mkenvs _ _ _ _ _ _ _ _ _ _ _ _ _ _ _ _ _ _ _ _ _ _ _ _ _ _ _ _ _ _).
  assert (Ti : top_i e + 1 = dli) by (unfold top_i, ibase, dli; cbn [li_ceil lj_ceil e]; destruct (li >? lj); lia).
  assert (Tj : top_j e + 1 = dlj) by (unfold top_j, ibase, dlj; cbn [li_ceil lj_ceil e]; destruct (li >? lj); lia).
  assert (KB : kbase e = false) by (unfold kbase; cbn [lk_ceil ll_ceil e]; lia).
  assert (Tk : top_k e = 0) by (unfold top_k; rewrite KB; reflexivity).
  assert (Tl : top_l e + 1 = dll) by (unfold top_l; rewrite KB; cbn [lk_ceil ll_ceil e]; lia).
  assert (P1 : nroots <= nroots * dli) by nia.
  assert (P2 : nroots * dli <= nroots * dli * dll) by nia.
  assert (P4 : nroots * dli * dll <= nroots * dli * dll * dlj) by nia.
  split; try assumption.
  - cbn [lk_ceil e]. lia.
  - intros [[[[n i] k] l] j] [[[[n' i'] k'] l'] j'] (H1 & H2 & H3 & H4 & H5) (H1' & H2' & H3' & H4' & H5').
    unfold adr4. cbn [g_stride_i g_stride_j g_stride_k g_stride_l nrys_roots e] in *. intros E.
    assert (k = 0) by lia. assert (k' = 0) by lia. subst k k'.
    destruct (radix5_inj nroots dli dll 1 n i l 0 j n' i' l' 0 j') as (-> & -> & -> & _ & ->); try lia. reflexivity.
  - intros [[[[n i] k] l] j] (H1 & H2 & H3 & H4 & H5).
    unfold adr4. cbn [g_stride_i g_stride_j g_stride_k g_stride_l nrys_roots g_size e] in *.
    assert (k = 0) by lia. subst k.
    pose proof (radix5_bound nroots dli dll 1 dlj n i l 0 j). lia.
  - reflexivity.
  - cbn [g_stride_k nrys_roots e]. rewrite Ti. reflexivity.
  - reflexivity.
  - rewrite KB. reflexivity.
  - cbn [g_size e]. lia.
  - cbn [g2d_ijmax g_size e]. destruct (li >? lj); lia.
Qed.

Section Full.
  Context {F : Type} (zero one : F) (add mul sub : F -> F -> F) (opp : F -> F) (inj : Z -> F).
  Hypothesis RT : ring_theory zero one add mul sub opp (@eq F).
  Add Ring FRingF : RT.
  Hypothesis inj0 : inj 0 = zero.
  Hypothesis injS : forall i, 0 <= i -> inj (i + 1) = add (inj i) one.
  Variable e : envs.
  Hypothesis L : rlay e.
  Let gs := g_size e.
  Let nr := nrys_roots e.

  Definition emb (t : Z * Z * Z) : Z * Z * Z * Z * Z := let '(n, a, b) := t in
    (n, (if ibase e then a else 0), (if kbase e then b else 0), (if kbase e then 0 else b), (if ibase e then 0 else a)).
  Lemma emb_box t : box2d e t -> box4 e (top_i e) (top_k e) (top_l e) (top_j e) (emb t).
  Proof.
    destruct t as [[n a] b]. intros (Hn & Ha & Hb). destruct L.
    unfold emb, box4, top_i, top_j, top_k, top_l. destruct (ibase e), (kbase e); lia.
  Qed.
  Lemma emb_adr t : adr4 e (emb t) = adr2d e t.
  Proof.
    destruct t as [[n a] b]. destruct L. unfold emb, adr4, adr2d. rewrite rl_dn0, rl_dm0.
    destruct (ibase e), (kbase e); lia.
  Qed.
  Lemma emb_inj t u : emb t = emb u -> t = u.
  Proof.
    destruct t as [[n a] b], u as [[n' a'] b']. unfold emb. intros E. injection E.
    destruct (ibase e), (kbase e); intros; subst; reflexivity.
  Qed.

  Lemma rys_2d_ok (bc : @rys2e F) S w (m0 : arr F) :
    (forall ax n, 0 <= ax < 3 -> 0 <= n < nr ->
       moments2 add mul inj (b10 bc n) (b01 bc n) (b00 bc n) (c00 bc ax n) (c0p bc ax n) (S ax n) /\
       S ax n 0 0 = origin one (w n) ax) ->
    4 * gs <= asize m0 ->
    (forall n, 0 <= n < nr -> rd m0 (2 * gs + n) = Some (w n)) ->
    wp (g0_2e_2d one add mul inj e bc m0) (fun m =>
      (forall ax n a b, 0 <= ax < 3 -> 0 <= n < nr -> 0 <= a <= li_ceil e + lj_ceil e -> 0 <= b <= lk_ceil e + ll_ceil e ->
         rd m (ax * gs + (n + g2d_ijmax e * a + g2d_klmax e * b)) = Some (S ax n a b)) /\
      Frame (fun p => 0 <= p < 3 * gs) m0 m).
  Proof.
    intros HS Hsz Hw. destruct (L) as [].
    apply (g0_2e_2d_ok zero one add mul sub opp inj RT inj0 injS e bc) with (w := w); auto; try lia.
    - intros t u Ht Hu E. apply emb_inj. apply rl_inj0; auto using emb_box. rewrite !emb_adr. exact E.
    - intros t Ht. rewrite <- emb_adr. apply rl_bnd0, emb_box, Ht.
  Qed.

  Variables (A B C D : Z -> F) (P Q : Z -> Z -> F) (q10 q01 q00 : Z -> F).
  Variable S : Z -> Z -> Z -> Z -> Z -> Z -> F. (* axis, root, i, j, k, l *)
  Hypothesis HS : forall ax n, 0 <= ax < 3 -> 0 <= n < nr ->
    gauss2 add mul inj (q10 n) (q01 n) (q00 n)
      (sub (P ax n) (A ax)) (sub (P ax n) (B ax)) (sub (Q ax n) (C ax)) (sub (Q ax n) (D ax)) (S ax n).

  Definition base_cell ax n a b := S ax n (if ibase e then a else 0) (if ibase e then 0 else a)
                                      (if kbase e then b else 0) (if kbase e then 0 else b).

  Lemma hrr_ok rirj rkrl (m0 : arr F) :
    (forall ax, 0 <= ax < 3 -> rirj ax = base_diff sub (ibase e) A B ax) ->
    (0 < lk_ceil e -> forall ax, 0 <= ax < 3 -> rkrl ax = base_diff sub (kbase e) C D ax) ->
    3 * gs <= asize m0 ->
    (forall ax n a b, 0 <= ax < 3 -> 0 <= n < nr -> 0 <= a <= li_ceil e + lj_ceil e -> 0 <= b <= lk_ceil e + ll_ceil e ->
         rd m0 (ax * gs + (n + g2d_ijmax e * a + g2d_klmax e * b)) = Some (base_cell ax n a b)) ->
    wp (g0_2d_4d add mul e rirj rkrl m0) (fun m =>
      (forall ax n i j k l, 0 <= ax < 3 -> 0 <= n < nr -> 0 <= i <= li_ceil e -> 0 <= j <= lj_ceil e ->
         0 <= k <= lk_ceil e -> 0 <= l <= ll_ceil e ->
         rd m (ax * gs + (n + g_stride_i e * i + g_stride_k e * k + g_stride_l e * l + g_stride_j e * j)) =
           Some (S ax n i j k l)) /\
      Frame (fun p => 0 <= p < 3 * gs) m0 m).
  Proof.
    intros Hij Hkl Hsz Hbase.
    set (A0 := fun t : Z * Z * Z * Z * Z => let '(n, i, k, l, j) := t in
       (if ibase e then j = 0 else i = 0) /\ (if kbase e then l = 0 else k = 0)).
    assert (HF : fills 0 gs (adr4 e) (box4 e (top_i e) (top_k e) (top_l e) (top_j e)) (V4 S) m0
                   (g0_2d_4d add mul e rirj rkrl) A0 (want e)).
    { destruct L.
      assert (TI : ibase e = false -> step_i add mul e rirj S).
      { intros HB ax n i j k l Hax Hn Hi Hj Hk Hl. rewrite Hij by exact Hax. unfold base_diff. rewrite HB.
        pose proof (gauss2_transfer_ij zero one add mul sub opp inj RT _ _ _ _ _ _ _ _ i j k l (HS ax n Hax Hn) Hi Hj Hk Hl) as E.
        rewrite E. ring. }
      assert (TJ : ibase e = true -> step_j add mul e rirj S).
      { intros HB ax n i j k l Hax Hn Hi Hj Hk Hl. rewrite Hij by exact Hax. unfold base_diff. rewrite HB.
        pose proof (gauss2_transfer_ij zero one add mul sub opp inj RT _ _ _ _ _ _ _ _ i j k l (HS ax n Hax Hn) Hi Hj Hk Hl) as E.
        rewrite E. ring. }
      assert (TK : 0 < lk_ceil e -> kbase e = false -> step_k add mul e rkrl S).
      { intros H0 HB ax n i j k l Hax Hn Hi Hj Hk Hl. rewrite (Hkl H0) by exact Hax. unfold base_diff. rewrite HB.
        pose proof (gauss2_transfer_kl zero one add mul sub opp inj RT _ _ _ _ _ _ _ _ i j k l (HS ax n Hax Hn) Hi Hj Hk Hl) as E.
        rewrite E. ring. }
      assert (TL : 0 < lk_ceil e -> kbase e = true -> step_l add mul e rkrl S).
      { intros H0 HB ax n i j k l Hax Hn Hi Hj Hk Hl. rewrite (Hkl H0) by exact Hax. unfold base_diff. rewrite HB.
        pose proof (gauss2_transfer_kl zero one add mul sub opp inj RT _ _ _ _ _ _ _ _ i j k l (HS ax n Hax Hn) Hi Hj Hk Hl) as E.
        rewrite E. ring. }
      unfold g0_2d_4d. fold (kbase e) (ibase e). subst A0.
      assert (KB : kbase e = true -> 0 < lk_ceil e) by (unfold kbase; lia).
      unfold top_i, top_j, top_k, top_l in *.
      destruct (kbase e), (ibase e).
      - apply ik_ok; auto.
      - apply kj_ok; auto.
      - apply il_ok; auto.
      - apply lj_ok; auto. }
    destruct L.
    eapply wp_mono; [apply (fills_run 0 gs _ _ _ _ _ _ _ HF)|].
    - lia.
    - intros ax [[[[n i] k] l] j] Hax (B1 & B2 & B3 & B4 & B5) (H1 & H2).
      unfold V4. replace (S ax n i j k l) with (base_cell ax n (if ibase e then i else j) (if kbase e then k else l)).
      + rewrite <- Hbase; try assumption.
        * f_equal. unfold adr4. rewrite rl_dn0, rl_dm0. destruct (ibase e), (kbase e); subst; lia.
        * unfold top_i, top_j in *. destruct (ibase e); lia.
        * unfold top_k, top_l in *. destruct (kbase e); lia.
      + unfold base_cell. destruct (ibase e), (kbase e); subst; reflexivity.
    - intros m [H1 H2]. split; [|exact H2].
      intros ax n i j k l Hax Hn Hi Hj Hk Hl.
      apply (H1 ax (n, i, k, l, j) Hax).
      + unfold box4, top_i, top_j, top_k, top_l. destruct (ibase e), (kbase e); fold nr; lia.
      + right. unfold want. lia.
  Qed.

  (** Recurrence followed by transfer, with the means relative to the base centres. *)
  Lemma rys_full_ok (bc : @rys2e F) rirj rkrl w (m0 : arr F) :
    (forall n, 0 <= n < nr -> b10 bc n = q10 n /\ b01 bc n = q01 n /\ b00 bc n = q00 n) ->
    (forall ax n, 0 <= ax < 3 -> 0 <= n < nr ->
       c00 bc ax n = sub (P ax n) (if ibase e then A ax else B ax) /\
       c0p bc ax n = sub (Q ax n) (if kbase e then C ax else D ax) /\
       S ax n 0 0 0 0 = origin one (w n) ax) ->
    (forall ax, 0 <= ax < 3 -> rirj ax = base_diff sub (ibase e) A B ax) ->
    (0 < lk_ceil e -> forall ax, 0 <= ax < 3 -> rkrl ax = base_diff sub (kbase e) C D ax) ->
    4 * gs <= asize m0 ->
    (forall n, 0 <= n < nr -> rd m0 (2 * gs + n) = Some (w n)) ->
    wp (g <- g0_2e_2d one add mul inj e bc m0 ;; g0_2d_4d add mul e rirj rkrl g) (fun m =>
      (forall ax n i j k l, 0 <= ax < 3 -> 0 <= n < nr -> 0 <= i <= li_ceil e -> 0 <= j <= lj_ceil e ->
         0 <= k <= lk_ceil e -> 0 <= l <= ll_ceil e ->
         rd m (ax * gs + (n + g_stride_i e * i + g_stride_k e * k + g_stride_l e * l + g_stride_j e * j)) =
           Some (S ax n i j k l)) /\
      Frame (fun p => 0 <= p < 3 * gs) m0 m).
  Proof.
    intros Hq Hc Hij Hkl Hsz Hw. apply wp_bind.
    eapply wp_mono; [apply (rys_2d_ok bc base_cell w)|].
    - intros ax n Hax Hn. destruct (Hq n Hn) as (-> & -> & ->). destruct (Hc ax n Hax Hn) as (-> & -> & E).
      specialize (HS ax n Hax Hn). split.
      + unfold base_cell. destruct (ibase e), (kbase e).
        * apply (gauss2_ik zero one add mul sub opp inj RT inj0 _ _ _ _ _ _ _ _ HS).
        * apply (gauss2_il zero one add mul sub opp inj RT inj0 _ _ _ _ _ _ _ _ HS).
        * apply (gauss2_jk zero one add mul sub opp inj RT inj0 _ _ _ _ _ _ _ _ HS).
        * apply (gauss2_jl zero one add mul sub opp inj RT inj0 _ _ _ _ _ _ _ _ HS).
      + unfold base_cell. destruct (ibase e), (kbase e); exact E.
    - exact Hsz.
    - exact Hw.
    - intros m1 [H1 HF1].
      eapply wp_mono; [apply (hrr_ok rirj rkrl m1 Hij Hkl)|].
      + destruct HF1 as [Hs1 _]. destruct L. fold gs in rl_gs0. lia.
      + exact H1.
      + intros m2 [H2 HF2]. split; [exact H2|]. eapply Frame_trans; eassumption.
  Qed.
End Full.
