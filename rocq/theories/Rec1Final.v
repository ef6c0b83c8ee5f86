(** Rec1Final.v — CINTg1e_ovlp, CINTg1e_nuc and the grid recurrence fill the
    one-coordinate moment table. *)
From Coq Require Import Ring Ring_theory.
From Verif Require Import Base EnvModel RecModel RecSpec RecLay RecMoments Rec1Proof.

(** Layout of the one-electron intermediates: [blk] cells per (i,j). *)
Record lay1 (e : envs) (blk : Z) : Prop := {
  l1_li : 0 <= li_ceil e; l1_lj : 0 <= lj_ceil e; l1_blk : 0 < blk;
  l1_i : g_stride_i e = blk;
  l1_j : g_stride_j e = blk * (if li_ceil e >? lj_ceil e then li_ceil e + lj_ceil e + 1 else li_ceil e + 1);
  l1_gs : g_size e = blk * (if li_ceil e >? lj_ceil e then li_ceil e + lj_ceil e + 1 else li_ceil e + 1)
                     * (if li_ceil e >? lj_ceil e then lj_ceil e + 1 else li_ceil e + lj_ceil e + 1) }.

Lemma lay1_init ng li lj ci cj :
  0 <= li + IINC ng -> 0 <= lj + JINC ng ->
  lay1 (init_int1e ng li lj ci cj) (nrys_roots (init_int1e ng li lj ci cj)).
Proof.
  intros Hi Hj. split; cbn; try reflexivity; try assumption.
  destruct (0 <? POS_E2 ng) eqn:E; [lia|].
  pose proof (Z.quot_pos (li + IINC ng + (lj + JINC ng)) 2). lia.
Qed.

Lemma lay1_grids om ng li lj ci cj :
  0 <= li + IINC ng -> 0 <= lj + JINC ng ->
  lay1 (init_int1e_grids om ng li lj ci cj)
       (GRID_BLKSIZE * nrys_roots (init_int1e_grids om ng li lj ci cj)).
Proof.
  intros Hi Hj. split; cbn [init_int1e_grids init_int1e li_ceil lj_ceil g_stride_i g_stride_j g_size nrys_roots];
    try reflexivity; try assumption.
  set (r := if 0 <? POS_E2 ng then _ else _).
  assert (0 < r).
  { unfold r. destruct (0 <? POS_E2 ng) eqn:E; [lia|].
    pose proof (Z.quot_pos (li + IINC ng + (lj + JINC ng)) 2). lia. }
  unfold sr_roots. destruct (om && (r <=? 3)); unfold GRID_BLKSIZE; lia.
Qed.

Lemma gq_div n ig : 0 <= ig < GRID_BLKSIZE -> (ig + GRID_BLKSIZE * n) / GRID_BLKSIZE = n.
Proof. unfold GRID_BLKSIZE. intros. rewrite Z.mul_comm, Z.div_add, Z.div_small; lia. Qed.
Lemma gq_mod n ig : 0 <= ig < GRID_BLKSIZE -> (ig + GRID_BLKSIZE * n) mod GRID_BLKSIZE = ig.
Proof. unfold GRID_BLKSIZE. intros. rewrite Z.mul_comm, Z.mod_add, Z.mod_small; lia. Qed.

Section Final1.
  Context {F : Type}.
  Variables (zero one : F) (add mul sub : F -> F -> F) (opp : F -> F) (inj : Z -> F).
  Variable Rth : ring_theory zero one add mul sub opp (@eq F).
  Hypothesis (inj0 : inj 0 = zero) (injS : forall i, 0 <= i -> inj (i + 1) = add (inj i) one).
  Add Ring Fring1 : Rth.

  Variables (e : envs) (blk : Z).
  Hypothesis (L : lay1 e blk).

  Local Notation ib := (li_ceil e >? lj_ceil e).
  Local Notation nmax := (li_ceil e + lj_ceil e).
  Definition lmin := if ib then lj_ceil e else li_ceil e.
  Definition sdi := if ib then g_stride_i e else g_stride_j e.
  Definition sdj := if ib then g_stride_j e else g_stride_i e.

  Lemma lay1_inj (pt : Z -> Prop) t u : (forall q, pt q -> 0 <= q < blk) ->
    box3 nmax lmin pt t -> box3 nmax lmin pt u ->
    addr3 sdi sdj t = addr3 sdi sdj u -> t = u.
  Proof.
    intros Hpt. destruct t as [[n a] b], u as [[n' a'] b']. cbn.
    intros (Hn & Ha & Hb) (Hn' & Ha' & Hb') E.
    apply Hpt in Hn. apply Hpt in Hn'. destruct L. unfold sdi, sdj, lmin in *.
    rewrite l1_i0, l1_j0 in E. destruct ib eqn:Eb.
    - destruct (radix3_inj blk (nmax + 1) n a b n' a' b') as (-> & -> & ->); try lia. reflexivity.
    - destruct (radix3_inj blk (li_ceil e + 1) n b a n' b' a') as (-> & -> & ->); try lia. reflexivity.
  Qed.

  Lemma lay1_bnd (pt : Z -> Prop) t : (forall q, pt q -> 0 <= q < blk) ->
    box3 nmax lmin pt t -> 0 <= addr3 sdi sdj t < g_size e.
  Proof.
    intros Hpt. destruct t as [[n a] b]. cbn. intros (Hn & Ha & Hb).
    apply Hpt in Hn. destruct L. unfold sdi, sdj, lmin in *. rewrite l1_i0, l1_j0, l1_gs0.
    destruct ib eqn:Eb.
    - pose proof (radix3_bound blk (nmax + 1) (lj_ceil e + 1) n a b). lia.
    - pose proof (radix3_bound blk (li_ceil e + 1) (nmax + 1) n b a). lia.
  Qed.

  Lemma lmin_ok : 0 <= lmin <= nmax.
  Proof. destruct L. unfold lmin. destruct ib; lia. Qed.

  (** S as a function of running and transferred index *)
  Definition swap {A} (S : Z -> Z -> A) (u v : Z) : A := if ib then S u v else S v u.

  Section Table.
    (** [A ax], [B ax]: centres; mean [P ax q] and second moment [b q] at point q *)
    Variables (A B : Z -> F) (P : Z -> Z -> F) (b : Z -> F) (S : Z -> Z -> Z -> Z -> F).
    Hypothesis (G : forall ax q, gauss1 add mul inj (b q) (sub (P ax q) (A ax)) (sub (P ax q) (B ax)) (S ax q)).
    Definition SS (ax q u v : Z) : F := swap (S ax q) u v.
    Definition rr (ax q : Z) : F := sub (P ax q) (if ib then A ax else B ax).

    Lemma SS_v0 ax q : SS ax q 1 0 = mul (rr ax q) (SS ax q 0 0).
    Proof.
      unfold SS, swap, rr. destruct ib.
      - change 1 with (0 + 1). rewrite (g1_i _ _ _ _ _ _ _ (G ax q)) by lia. rewrite inj0. ring.
      - change 1 with (0 + 1). rewrite (g1_j _ _ _ _ _ _ _ (G ax q)) by lia. rewrite inj0. ring.
    Qed.
    Lemma SS_v ax q u : 0 < u ->
      SS ax q (u + 1) 0 = add (mul (mul (inj u) (b q)) (SS ax q (u - 1) 0)) (mul (rr ax q) (SS ax q u 0)).
    Proof.
      intros Hu. unfold SS, swap, rr. destruct ib.
      - rewrite (g1_i _ _ _ _ _ _ _ (G ax q)) by lia. rewrite inj0. ring.
      - rewrite (g1_j _ _ _ _ _ _ _ (G ax q)) by lia. rewrite inj0. ring.
    Qed.
    Lemma SS_h ax q u v : 0 <= u -> 0 <= v ->
      SS ax q u (v + 1) = add (SS ax q (u + 1) v) (mul (base_diff sub ib A B ax) (SS ax q u v)).
    Proof.
      intros Hu Hv. unfold SS, swap, base_diff. destruct ib.
      - rewrite (g1_j _ _ _ _ _ _ _ (G ax q)), (g1_i _ _ _ _ _ _ _ (G ax q)) by lia. ring.
      - rewrite (g1_j _ _ _ _ _ _ _ (G ax q)), (g1_i _ _ _ _ _ _ _ (G ax q)) by lia. ring.
    Qed.
  End Table.

  (** What the callers read: cell (i,j) of each axis at point q. *)
  Definition filled1 (pt : Z -> Prop) (S : Z -> Z -> Z -> Z -> F) (g : arr F) : Prop :=
    forall ax q i j, 0 <= ax < 3 -> pt q -> 0 <= i <= li_ceil e -> 0 <= j <= lj_ceil e ->
      rd g (ax * g_size e + (q + i * g_stride_i e + j * g_stride_j e)) = Some (S ax q i j).

  Lemma filled1_of (pt : Z -> Prop) S m0 m : (forall q, pt q -> 0 <= q < blk) ->
    Inv 0 (g_size e) (addr3 sdi sdj) (box3 nmax lmin pt) (S3 (SS S)) (Pend nmax) m0 m ->
    filled1 pt S m /\ Frame (fun p => 0 <= p < 3 * g_size e) m0 m.
  Proof.
    intros Hpt HI. split; [|exact (Inv_frame _ _ _ _ _ _ _ _ HI)].
    intros ax q i j Hax Hq Hi Hj. destruct L.
    unfold sdi, sdj, lmin in *.
    pose proof (Inv_rd 0 (g_size e) _ _ _ _ m0 m ax
      (if ib then (q, i, j) else (q, j, i))
      (ax * g_size e + (q + i * g_stride_i e + j * g_stride_j e)) HI Hax) as X.
    unfold SS, swap in X.
    destruct ib eqn:Eb.
    - apply X; cbn; [split; [exact Hq|]; lia|lia|lia].
    - apply X; cbn; [split; [exact Hq|]; lia|lia|lia].
  Qed.

  (** CINTg1e_ovlp *)
  Lemma g1e_ovlp_ok (z0 b : F) (rij ri rj : Z -> F) (S : Z -> Z -> Z -> F) g :
    (forall ax, gauss1 add mul inj b (sub (rij ax) (ri ax)) (sub (rij ax) (rj ax)) (S ax)) ->
    (forall ax, S ax 0 0 = origin one z0 ax) ->
    3 * g_size e <= asize g ->
    wp (g1e_ovlp one add mul sub inj e z0 b rij ri rj g) (fun g' =>
      filled1 (fun q => q = 0) (fun ax _ => S ax) g' /\
      Frame (fun p => 0 <= p < 3 * g_size e) g g').
  Proof.
    intros G E0 Hs. unfold g1e_ovlp.
    set (pt := fun q => q = 0).
    assert (Hpt : forall q, pt q -> 0 <= q < blk) by (intros q ->; destruct L; lia).
    set (SG := SS (fun ax (_ : Z) => S ax)).
    pose proof (fun t u => lay1_inj pt t u Hpt) as HJ.
    pose proof (fun t => lay1_bnd pt t Hpt) as HB.
    pose proof lmin_ok as HL.
    assert (Hgs : 0 < g_size e).
    { specialize (HB (0, 0, 0)). destruct L. cbn in HB. unfold pt in HB. lia. }
    rewrite st3_origin_bind. apply wp_bind.
    eapply (wp_st3 0 (g_size e) (addr3 sdi sdj) (box3 nmax lmin pt) HJ HB (Z.le_refl 0) (S3 SG)
              (fun _ => False) (Pvrr 0 0 0) g g (0, 0, 0)).
    - apply Inv_init; [lia|]. intros; contradiction.
    - destruct L. cbn. unfold pt. lia.
    - cbn. lia.
    - intros ax m' Hax _ _. cbn. unfold SG, SS, swap. destruct ib; rewrite E0; reflexivity.
    - intros [[q u] v] (Hq & Hu & Hv) (Hp & Hp'). right. unfold pt in Hq. f_equal; [f_equal|]; lia.
    - intros g1 HI. cbv zeta. destruct (nmax =? 0) eqn:En.
      + apply wp_ret. apply filled1_of; [exact Hpt|].
        eapply Inv_mono; [exact HI|]. intros [[q u] v] (Hq & Hu & Hv) Hp. cbn in *. lia.
      + assert (H1 : 1 <= nmax) by (destruct L; lia).
        fold lmin sdi sdj. rewrite <- bind_assoc. apply wp_bind.
        set (rx := if ib then ri else rj).
        eapply (wp_vrr_one add mul inj (g_size e) sdi sdj nmax lmin pt ltac:(lia) HL
                  ltac:(intros q ->; lia) HJ HB (fun _ => b)
                  (fun ax _ => sub (rij ax) (rx ax)) SG); try eassumption; try reflexivity; try lia.
        * intros ax n. unfold SG. rewrite (SS_v0 ri rj (fun ax _ => rij ax) (fun _ => b)).
          -- unfold rr, rx. destruct ib; reflexivity.
          -- intros; apply G.
        * intros ax n u Hu. unfold SG. rewrite (SS_v ri rj (fun ax _ => rij ax) (fun _ => b)).
          -- unfold rr, rx. destruct ib; reflexivity.
          -- intros; apply G.
          -- exact Hu.
        * intros g2 HI2.
          eapply (wp_hrr_one add mul (g_size e) sdi sdj nmax lmin pt HL
                  ltac:(intros q ->; lia) HJ HB (base_diff sub ib ri rj) SG); try eassumption; try reflexivity; try lia.
          -- intros ax n u v Hu Hv. unfold SG. rewrite (SS_h ri rj (fun ax _ => rij ax) (fun _ => b)); auto.
          -- intros g3 HI3. apply filled1_of; [exact Hpt|exact HI3].
  Qed.

  Lemma rd_wr_other (g g' : arr F) p q v : wr g p v = Some g' -> q <> p -> rd g' q = rd g q.
  Proof.
    unfold wr. destruct (inb g p) eqn:E; [|discriminate]. intros X Hq. injection X as <-.
    unfold rd, inb. cbn. replace (q =? p) with false by lia. reflexivity.
  Qed.

  Lemma nuc_store (g : arr F) gs i x y (v fac : F) (f : F -> F) :
    0 < gs -> rd g (gs * 2 + i) = Some v ->
    (g <- wr g i x ;; g <- wr g (gs + i) y ;; v <- rd g (gs * 2 + i) ;; wr g (gs * 2 + i) (f v)) =
    st3 gs g i (fun ax _ => Some (if ax =? 0 then x else if ax =? 1 then y else f v)).
  Proof.
    intros Hgs Hv. rewrite <- st3_three.
    destruct (wr g i x) as [g1|] eqn:E1; [|reflexivity]. cbn [bind].
    destruct (wr g1 (gs + i) y) as [g2|] eqn:E2; [|reflexivity]. cbn [bind].
    rewrite (rd_wr_other _ _ _ _ _ E2), (rd_wr_other _ _ _ _ _ E1), Hv by lia. reflexivity.
  Qed.

  Lemma st3_other gs (g g' : arr F) p body : st3 gs g p body = Some g' ->
    forall q, q <> p -> q <> gs + p -> q <> gs * 2 + p -> rd g' q = rd g q.
  Proof.
    unfold st3, for_. change (Z.to_nat (3 - 0)) with 3%nat. cbn [forN bind].
    intros E q H0 H1 H2.
    destruct (body 0 g) as [v0|]; [|discriminate]. cbn [bind] in E.
    destruct (wr g (0 * gs + p) v0) as [g1|] eqn:W0; [|discriminate]. cbn [bind] in E.
    destruct (body (0 + 1) g1) as [v1|]; [|discriminate]. cbn [bind] in E.
    destruct (wr g1 _ v1) as [g2|] eqn:W1; [|discriminate]. cbn [bind] in E.
    destruct (body (0 + 1 + 1) g2) as [v2|]; [|discriminate]. cbn [bind] in E.
    destruct (wr g2 _ v2) as [g3|] eqn:W2; [|discriminate]. cbn [bind] in E.
    injection E as <-.
    rewrite (rd_wr_other _ _ _ _ _ W2), (rd_wr_other _ _ _ _ _ W1), (rd_wr_other _ _ _ _ _ W0) by lia.
    reflexivity.
  Qed.

  (** CINTg1e_nuc: the Rys weights are in gz on entry. *)
  Lemma g1e_nuc_ok (fac b : F) (w ru : Z -> F) (crij rij ri rj : Z -> F) (S : Z -> Z -> Z -> Z -> F) g :
    blk = nrys_roots e ->
    (forall ax q, 0 <= q < nrys_roots e ->
      let P := add (rij ax) (mul (ru q) (crij ax)) in
      gauss1 add mul inj (mul b (sub one (ru q))) (sub P (ri ax)) (sub P (rj ax)) (S ax q)) ->
    (forall ax q, 0 <= q < nrys_roots e -> S ax q 0 0 = origin one (mul (w q) fac) ax) ->
    3 * g_size e <= asize g ->
    (forall q, 0 <= q < nrys_roots e -> rd g (g_size e * 2 + q) = Some (w q)) ->
    wp (g1e_nuc one add mul sub inj e fac b ru crij rij ri rj g) (fun g' =>
      filled1 (fun q => 0 <= q < nrys_roots e) S g' /\
      Frame (fun p => 0 <= p < 3 * g_size e) g g').
  Proof.
    intros Hblk G0 E0 Hs Hw. unfold g1e_nuc.
    set (pt := fun q => 0 <= q < nrys_roots e).
    assert (Hpt : forall q, pt q -> 0 <= q < blk) by (intros q; unfold pt; lia).
    (* outside the roots the table is irrelevant: use one fixed table everywhere *)
    set (clamp := fun q => if (0 <=? q) && (q <? nrys_roots e) then q else 0).
    assert (Hcl : forall q, 0 <= clamp q < nrys_roots e).
    { intros q. unfold clamp. destruct L. destruct ((0 <=? q) && (q <? nrys_roots e)) eqn:E; lia. }
    assert (Hcl' : forall q, pt q -> clamp q = q).
    { intros q Hq. unfold clamp, pt in *. replace ((0 <=? q) && (q <? nrys_roots e)) with true by lia. reflexivity. }
    set (S' := fun ax q => S ax (clamp q)).
    set (P := fun ax q => add (rij ax) (mul (ru (clamp q)) (crij ax))).
    set (bq := fun q => mul b (sub one (ru (clamp q)))).
    assert (G : forall ax q, gauss1 add mul inj (bq q) (sub (P ax q) (ri ax)) (sub (P ax q) (rj ax)) (S' ax q)).
    { intros ax q. apply (G0 ax (clamp q)). apply Hcl. }
    set (SG := SS S').
    pose proof (fun t u => lay1_inj pt t u Hpt) as HJ.
    pose proof (fun t => lay1_bnd pt t Hpt) as HB.
    pose proof lmin_ok as HL.
    assert (Hgs : nrys_roots e <= g_size e).
    { specialize (HB (nrys_roots e - 1, 0, 0)). destruct L. cbn in HB. unfold pt in HB. lia. }
    assert (Hr : 0 < nrys_roots e) by (destruct L; lia).
    apply wp_bind.
    apply wp_for with (I := fun i m =>
      Inv 0 (g_size e) (addr3 sdi sdj) (box3 nmax lmin pt) (S3 SG)
        (fun t => let '(q, u, v) := t in u = 0 /\ v = 0 /\ q < i) g m /\
      (forall q, i <= q < nrys_roots e -> rd m (g_size e * 2 + q) = Some (w q))).
    - lia.
    - split; [|intros; apply Hw; lia]. apply Inv_init; [lia|].
      intros ax [[q u] v] _ (Hq & _) ?. unfold pt in Hq. lia.
    - intros i m1 Hi [HI Hw1].
      assert (X := nuc_store m1 (g_size e) i one one (w i) fac (fun v => mul v fac) ltac:(lia) (Hw1 i ltac:(lia))).
      cbv beta in X. rewrite X. clear X.
      assert (X : wp (st3 (g_size e) m1 i (fun ax _ =>
           Some (if ax =? 0 then one else if ax =? 1 then one else mul (w i) fac)))
         (fun m => Inv 0 (g_size e) (addr3 sdi sdj) (box3 nmax lmin pt) (S3 SG)
           (fun t => let '(q, u, v) := t in u = 0 /\ v = 0 /\ q < i + 1) g m)).
      { eapply (wp_st3 0 (g_size e) (addr3 sdi sdj) (box3 nmax lmin pt) HJ HB (Z.le_refl 0) (S3 SG)
              _ _ g m1 (i, 0, 0)); [exact HI| | | | |intros m' H; exact H].
        - destruct L. cbn. unfold pt. lia.
        - cbn. lia.
        - intros ax m' Hax _ _. cbn. unfold SG, SS, swap, S'. rewrite Hcl' by exact Hi.
          destruct ib; rewrite E0 by lia; reflexivity.
        - intros [[q u] v] _ (-> & -> & ?). destruct (Z.eq_dec q i) as [->|]; [right; reflexivity|left; lia]. }
      apply wp_exists in X. destruct X as (m2 & E2 & HI2). rewrite E2. apply wp_ret.
      split; [exact HI2|]. intros q Hq.
      rewrite (st3_other _ _ _ _ _ E2) by lia. apply Hw1. lia.
    - intros g1 [HI _]. cbv zeta. destruct (nmax =? 0) eqn:En.
      + apply wp_ret.
        assert (X : filled1 pt S' g1 /\ Frame (fun p => 0 <= p < 3 * g_size e) g g1).
        { apply filled1_of; [exact Hpt|].
          eapply Inv_mono; [exact HI|]. intros [[q u] v] (Hq & Hu & Hv) Hp. cbn in *. unfold pt in Hq. lia. }
        destruct X as [X1 X2]. split; [|exact X2]. intros ax q i j Hax Hq Hi Hj.
        rewrite (X1 ax q i j Hax Hq Hi Hj). unfold S'. rewrite Hcl' by exact Hq. reflexivity.
      + assert (H1 : 1 <= nmax) by (destruct L; lia).
        fold lmin sdi sdj. apply wp_bind.
        set (rx := if ib then ri else rj).
        erewrite (for_ext 0 (nrys_roots e)).
        2:{ intros n m Hn.
          assert (Ext : forall g p b1 b2, (forall ax g, b1 ax g = b2 ax g) ->
                    st3 (g_size e) g p b1 = @st3 F (g_size e) g p b2).
          { intros g' p b1 b2 E. unfold st3. apply for_ext. intros ax s _. rewrite E. reflexivity. }
          rewrite (Ext m (n + sdi) _ (fun ax g =>
                  v <- rd g (ax * g_size e + n) ;; Some (mul (rr ri rj P ax n) v))).
          2:{ intros ax g'. destruct (rd g' _); [|reflexivity]. cbn [bind]. f_equal. f_equal.
              unfold rr, P, rx. rewrite Hcl' by exact Hn. destruct ib; ring. }
          f_equal. instantiate (1 := fun n g' =>
            g'' <- st3 (g_size e) g' (n + sdi) (fun ax g =>
                  v <- rd g (ax * g_size e + n) ;; Some (mul (rr ri rj P ax n) v)) ;;
            for_ 1 nmax (fun i g =>
             st3 (g_size e) g (sdi + (n + i * sdi)) (fun ax g =>
               v1 <- rd g (ax * g_size e + (n + i * sdi - sdi)) ;;
               v0 <- rd g (ax * g_size e + (n + i * sdi)) ;;
               Some (add (mul (mul (inj i) (bq n)) v1) (mul (rr ri rj P ax n) v0)))) g'').
          cbv beta. destruct (st3 (g_size e) m (n + sdi) _) as [m'|]; [|reflexivity]. cbn [bind].
          apply for_ext. intros i m'' Hi. apply Ext. intros ax g'.
          destruct (rd g' (ax * g_size e + (n + i * sdi - sdi))); [|reflexivity]. cbn [bind].
          destruct (rd g' (ax * g_size e + (n + i * sdi))); [|reflexivity]. cbn [bind]. f_equal.
          unfold bq, rr, P, rx. rewrite Hcl' by exact Hn. destruct ib; ring. }
        eapply (wp_vrr_roots add mul inj (g_size e) sdi sdj nmax lmin pt ltac:(lia) HL
                  ltac:(unfold pt; lia) HJ HB bq (rr ri rj P) SG).
        * intros ax n. unfold SG. rewrite (SS_v0 ri rj P bq); [reflexivity|exact G].
        * intros ax n u Hu. unfold SG. rewrite (SS_v ri rj P bq); [reflexivity|exact G|exact Hu].
        * exact H1.
        * lia.
        * reflexivity.
        * eapply Inv_mono; [exact HI|]. intros [[q u] v] (Hq & Hu & Hv) Hp. cbn in *. unfold pt in Hq. lia.
        * intros g2 HI2.
          eapply (wp_hrr_roots add mul (g_size e) sdi sdj nmax lmin pt HL
                  ltac:(unfold pt; lia) HJ HB (base_diff sub ib ri rj) SG).
          -- intros ax n u v Hu Hv. unfold SG. rewrite (SS_h ri rj P bq); auto.
          -- exact H1.
          -- reflexivity.
          -- exact HI2.
          -- intros g3 HI3.
             destruct (filled1_of pt S' _ _ Hpt HI3) as [X1 X2]. split; [|exact X2].
             intros ax q i j Hax Hq Hi Hj.
             rewrite (X1 ax q i j Hax Hq Hi Hj). unfold S'. rewrite Hcl' by exact Hq. reflexivity.
  Qed.

  (** cells of [D] hold [val], only cells of [W] were touched *)
  Definition Cells (W D : Z -> Prop) (val : Z -> F) (g m : arr F) : Prop :=
    Frame W g m /\ forall p, D p -> 0 <= p < asize g /\ acell m p = Some (val p).

  Lemma Cells_wr (W D D' : Z -> Prop) val g m p v (Q : arr F -> Prop) :
    Cells W D val g m -> W p -> 0 <= p < asize g -> v = val p ->
    (forall q, D' q -> D q \/ q = p) ->
    (forall m', Cells W D' val g m' -> Q m') -> wp (wr m p v) Q.
  Proof.
    intros [Fr C] Hw Hp -> HD HQ. apply wp_wr; [destruct Fr; lia|].
    intros m' Hs Hc. apply HQ. split; [eapply Frame_step; eauto|].
    intros q Hq. rewrite Hc. destruct (q =? p) eqn:E.
    - apply Z.eqb_eq in E. subst. auto.
    - destruct (HD q Hq) as [Hd|]; [exact (C q Hd)|lia].
  Qed.

  Lemma Cells_mono (W D D' : Z -> Prop) val g m : Cells W D val g m -> (forall q, D' q -> D q) -> Cells W D' val g m.
  Proof. intros [Fr C] H. split; auto. Qed.

  Lemma grids_init_ok bg (w : Z -> Z -> F) g :
    blk = GRID_BLKSIZE * nrys_roots e -> 0 < bg <= GRID_BLKSIZE -> 3 * g_size e <= asize g ->
    wp (g0_grids_init one e bg w g) (fun g' =>
      Frame (fun p => 0 <= p < 3 * g_size e) g g' /\
      (forall ax n ig, 0 <= ax < 3 -> 0 <= n < nrys_roots e -> 0 <= ig < bg ->
         rd g' (ax * g_size e + (ig + GRID_BLKSIZE * n)) = Some (origin one (w n ig) ax))).
  Proof.
    intros Hblk Hbg Hs. unfold g0_grids_init.
    set (B := GRID_BLKSIZE) in *. assert (HB : B = 104) by reflexivity. clearbody B.
    set (N := nrys_roots e) in *.
    set (gs := g_size e) in *.
    assert (HN : 0 < N) by (destruct L; subst N; nia).
    assert (Hgs : B * N <= gs).
    { destruct L. subst gs. rewrite l1_gs0, Hblk. fold N.
      assert (0 < B * N) by nia. generalize dependent (B * N). intros X _ HX.
      destruct ib.
      - assert (1 * 1 <= (li_ceil e + lj_ceil e + 1) * (lj_ceil e + 1)) by (apply Z.mul_le_mono_nonneg; lia). nia.
      - assert (1 * 1 <= (li_ceil e + 1) * (li_ceil e + lj_ceil e + 1)) by (apply Z.mul_le_mono_nonneg; lia). nia. }
    clearbody N gs. clear L Hblk.
    set (val := fun p => if p <? gs * 2 then one else w ((p - gs * 2) / B) ((p - gs * 2) mod B)).
    set (W := fun p => 0 <= p < 3 * gs).
    set (D1 := fun i j p => exists ax n ig, 0 <= ax < 2 /\ 0 <= n < N /\ 0 <= ig < bg /\
            (n < i \/ (n = i /\ ig < j)) /\ p = ax * gs + (ig + B * n)).
    set (D2 := fun i j p => D1 N 0 p \/ exists n ig, 0 <= n < N /\ 0 <= ig < bg /\
            (ig < i \/ (ig = i /\ n < j)) /\ p = gs * 2 + (ig + B * n)).
    assert (Hval : forall p, 0 <= p < gs * 2 -> val p = one).
    { intros p Hp. unfold val. replace (p <? gs * 2) with true by lia. reflexivity. }
    assert (Hval2 : forall n ig, 0 <= n < N -> 0 <= ig < bg -> val (gs * 2 + (ig + B * n)) = w n ig).
    { intros n ig Hn Hig. unfold val.
      replace (gs * 2 + (ig + B * n) <? gs * 2) with false by nia.
      replace (gs * 2 + (ig + B * n) - gs * 2) with (ig + n * B) by lia.
      rewrite Z.div_add, Z.mod_add by lia.
      rewrite Z.div_small, Z.mod_small by lia. f_equal. }
    assert (Hrng : forall n ig, 0 <= n < N -> 0 <= ig < bg -> 0 <= ig + B * n < gs) by (intros; nia).
    clearbody val.
    apply wp_bind.
    apply wp_for with (I := fun i m => Cells W (D1 i 0) val g m); [lia| | |].
    { split; [apply Frame_refl|]. intros p (ax & n & ig & ? & ? & ? & [?|?] & ?); lia. }
    - intros i m Hi HI.
      apply wp_for with (I := fun j m => Cells W (D1 i j) val g m); [lia|exact HI| |].
      + intros j m1 Hj HI1. pose proof (Hrng i j Hi Hj). apply wp_bind.
        eapply (Cells_wr W _ (fun p => D1 i j p \/ p = j + B * i)); [exact HI1|unfold W; lia|lia| |auto|].
        { rewrite Hval; [reflexivity|lia]. }
        intros m2 HI2.
        eapply (Cells_wr W _ (D1 i (j + 1))); [exact HI2|unfold W; lia|lia| | |auto].
        { rewrite Hval; [reflexivity|lia]. }
        intros q (ax & n & ig & Hax & Hn & Hig & Hd & ->).
        destruct (Z.eq_dec n i) as [->|]; [destruct (Z.eq_dec ig j) as [->|]|].
        * assert (ax = 0 \/ ax = 1) as [->| ->] by lia; [left; right; lia|right; lia].
        * left; left. exists ax, i, ig. repeat split; try lia.
        * left; left. exists ax, n, ig. repeat split; try lia.
      + intros m2 HI2. eapply Cells_mono; [exact HI2|].
        intros q (ax & n & ig & Hax & Hn & Hig & Hd & ->). exists ax, n, ig. repeat split; try lia.
    - intros m HI.
      apply wp_for with (I := fun i m => Cells W (D2 i 0) val g m); [lia| | |].
      { eapply Cells_mono; [exact HI|]. intros q [H|(n & ig & ? & ? & ? & ?)]; [exact H|lia]. }
      + intros i m1 Hi HI1.
        apply wp_for with (I := fun j m => Cells W (D2 i j) val g m); [lia|exact HI1| |].
        * intros j m2 Hj HI2. pose proof (Hrng j i Hj Hi).
          eapply (Cells_wr W _ (D2 i (j + 1))); [exact HI2|unfold W; lia|lia| | |auto].
          { rewrite Hval2; [reflexivity|lia|lia]. }
          intros q [H1|(n & ig & Hn & Hig & Hd & ->)]; [left; left; exact H1|].
          destruct (Z.eq_dec ig i) as [->|]; [destruct (Z.eq_dec n j) as [->|]|].
          -- right; reflexivity.
          -- left; right. exists n, i. repeat split; try lia.
          -- left; right. exists n, ig. repeat split; try lia.
        * intros m2 HI2. eapply Cells_mono; [exact HI2|].
          intros q [H1|(n & ig & Hn & Hig & Hd & ->)]; [left; exact H1|].
          right. exists n, ig. repeat split; try lia.
      + intros m1 [Fr C]. split; [exact Fr|].
        intros ax n ig Hax Hn Hig. pose proof (Hrng n ig Hn Hig).
        assert (X : D2 bg 0 (ax * gs + (ig + B * n))).
        { assert (ax < 2 \/ ax = 2) as [H2|H2] by lia.
          - left. exists ax, n, ig. repeat split; lia.
          - right. exists n, ig. repeat split; lia. }
        destruct (C _ X) as [Hb Hc]. destruct Fr as [Fs _].
        unfold rd, inb. replace ((0 <=? _) && _) with true by lia.
        rewrite Hc. f_equal. unfold origin.
        assert (ax = 0 \/ ax = 1 \/ ax = 2) as [->|[->| ->]] by lia; cbn [Z.eqb].
        * apply Hval. lia.
        * apply Hval. lia.
        * replace (2 * gs) with (gs * 2) by lia. apply Hval2; lia.
  Qed.

  Lemma g0_grids_ok bg (w u : Z -> Z -> F) (b : F) (rijrg : Z -> Z -> F) (rij ri rj : Z -> F)
      (S : Z -> Z -> Z -> Z -> Z -> F) g :
    blk = GRID_BLKSIZE * nrys_roots e -> 0 < bg <= GRID_BLKSIZE ->
    (forall ax n ig, 0 <= n < nrys_roots e -> 0 <= ig < bg ->
      let P := add (rij ax) (mul (u n ig) (rijrg ax ig)) in
      gauss1 add mul inj (mul b (sub one (u n ig))) (sub P (ri ax)) (sub P (rj ax)) (S ax n ig)) ->
    (forall ax n ig, 0 <= n < nrys_roots e -> 0 <= ig < bg ->
      S ax n ig 0 0 = origin one (w n ig) ax) ->
    3 * g_size e <= asize g ->
    wp (g <- g0_grids_init one e bg w g ;;
        g0_1e_grids one add mul sub inj e bg b u rijrg rij ri rj g) (fun g' =>
      (forall ax n ig i j, 0 <= ax < 3 -> 0 <= n < nrys_roots e -> 0 <= ig < bg ->
         0 <= i <= li_ceil e -> 0 <= j <= lj_ceil e ->
         rd g' (ax * g_size e + (ig + GRID_BLKSIZE * n + i * g_stride_i e + j * g_stride_j e))
         = Some (S ax n ig i j)) /\
      Frame (fun p => 0 <= p < 3 * g_size e) g g').
  Proof.
    intros Hblk Hbg G0 E0 Hs. apply wp_bind.
    eapply wp_mono; [apply grids_init_ok; assumption|]. intros g1 [Fr1 C1].
    unfold g0_1e_grids.
    set (N := nrys_roots e) in *.
    set (pt := gpt N bg).
    assert (HN : 0 < N) by (destruct L; subst N; unfold GRID_BLKSIZE in *; lia).
    assert (Hpt : forall q, pt q -> 0 <= q < blk).
    { intros q (n & ig & Hn & Hig & ->). rewrite Hblk. unfold GRID_BLKSIZE in *. nia. }
    set (nn := fun q => let n := q / GRID_BLKSIZE in if (0 <=? n) && (n <? N) then n else 0).
    set (gg := fun q => let g := q mod GRID_BLKSIZE in if (g <? bg) then g else 0).
    assert (Hnn : forall q, 0 <= nn q < N).
    { intros q. unfold nn. cbv zeta. destruct ((0 <=? q / GRID_BLKSIZE) && (q / GRID_BLKSIZE <? N)) eqn:E; lia. }
    assert (Hgg : forall q, 0 <= gg q < bg).
    { intros q. unfold gg. cbv zeta. pose proof (Z.mod_pos_bound q GRID_BLKSIZE ltac:(unfold GRID_BLKSIZE; lia)).
      destruct (q mod GRID_BLKSIZE <? bg) eqn:E; lia. }
    assert (Hnn' : forall n ig, 0 <= n < N -> 0 <= ig < bg -> nn (ig + GRID_BLKSIZE * n) = n).
    { intros n ig Hn Hig. unfold nn. cbv zeta.
      rewrite gq_div by lia.
      replace ((0 <=? n) && (n <? N)) with true by lia. reflexivity. }
    assert (Hgg' : forall n ig, 0 <= ig < bg -> gg (ig + GRID_BLKSIZE * n) = ig).
    { intros n ig Hig. unfold gg. cbv zeta.
      rewrite gq_mod by lia.
      replace (ig <? bg) with true by lia. reflexivity. }
    set (S' := fun ax q => S ax (nn q) (gg q)).
    set (P := fun ax q => add (rij ax) (mul (u (nn q) (gg q)) (rijrg ax (gg q)))).
    set (bq := fun q => mul b (sub one (u (nn q) (gg q)))).
    assert (G : forall ax q, gauss1 add mul inj (bq q) (sub (P ax q) (ri ax)) (sub (P ax q) (rj ax)) (S' ax q)).
    { intros ax q. apply (G0 ax (nn q) (gg q)); auto. }
    set (SG := SS S').
    pose proof (fun t u => lay1_inj pt t u Hpt) as HJ.
    pose proof (fun t => lay1_bnd pt t Hpt) as HB.
    pose proof lmin_ok as HL.
    assert (Fin : forall m, filled1 pt S' m -> forall ax n ig i j, 0 <= ax < 3 -> 0 <= n < N -> 0 <= ig < bg ->
         0 <= i <= li_ceil e -> 0 <= j <= lj_ceil e ->
         rd m (ax * g_size e + (ig + GRID_BLKSIZE * n + i * g_stride_i e + j * g_stride_j e))
         = Some (S ax n ig i j)).
    { intros m X ax n ig i j Hax Hn Hig Hi Hj.
      rewrite (X ax (ig + GRID_BLKSIZE * n) i j Hax); auto.
      - unfold S'. rewrite Hnn', Hgg' by assumption. reflexivity.
      - exists n, ig. auto. }
    assert (HI : Inv 0 (g_size e) (addr3 sdi sdj) (box3 nmax lmin pt) (S3 SG) (Pvrr 0 0 0) g1 g1).
    { apply Inv_init; [destruct Fr1; lia|].
      intros ax [[q uu] v] Hax (Hq & Hu & Hv) Hp. cbn in Hp.
      assert (uu = 0 /\ v = 0) as [-> ->].
      { apply Hpt in Hq. lia. }
      destruct Hq as (n & ig & Hn & Hig & ->).
      unfold addr3, S3. replace (ax * g_size e + _) with (ax * g_size e + (ig + GRID_BLKSIZE * n)) by lia.
      rewrite C1 by assumption. f_equal. unfold SG, SS, swap, S'. rewrite Hnn', Hgg' by assumption.
      destruct ib; rewrite E0; auto. }
    cbv zeta. destruct (nmax =? 0) eqn:En.
    - apply wp_ret.
      assert (X : filled1 pt S' g1 /\ Frame (fun p => 0 <= p < 3 * g_size e) g1 g1).
      { apply filled1_of; [exact Hpt|].
        eapply Inv_mono; [exact HI|]. intros [[q uu] v] (Hq & Hu & Hv) Hp. cbn in *. lia. }
      destruct X as [X1 X2]. split; [auto|exact Fr1].
    - assert (H1 : 1 <= nmax) by (destruct L; lia).
      fold lmin sdi sdj. apply wp_bind.
      set (rx := if ib then ri else rj).
      eapply (wp_vrr_grids add mul inj (g_size e) sdi sdj nmax lmin pt ltac:(lia) HL
                  ltac:(intros; apply Hpt; assumption) HJ HB bq (rr ri rj P) SG).
      * intros ax n. unfold SG. rewrite (SS_v0 ri rj P bq); [reflexivity|exact G].
      * intros ax n uu Hu. unfold SG. rewrite (SS_v ri rj P bq); [reflexivity|exact G|exact Hu].
      * exact H1.
      * lia.
      * lia.
      * reflexivity.
      * intros n ig Hn Hig. unfold bq. rewrite Hnn', Hgg' by assumption. reflexivity.
      * intros ax n ig Hn Hig. unfold rr, P, rx. rewrite Hnn', Hgg' by assumption.
        destruct ib; ring.
      * exact HI.
      * intros g2 HI2.
        eapply (wp_hrr_grids add mul (g_size e) sdi sdj nmax lmin pt HL
                  ltac:(intros; apply Hpt; assumption) HJ HB (base_diff sub ib ri rj) SG).
          -- intros ax n uu v Hu Hv. unfold SG. rewrite (SS_h ri rj P bq); auto.
          -- exact H1.
          -- lia.
          -- lia.
          -- reflexivity.
          -- exact HI2.
          -- intros g3 HI3.
             destruct (filled1_of pt S' _ _ Hpt HI3) as [X1 X2]. split; [auto|].
             eapply Frame_trans; eassumption.
  Qed.
End Final1.
