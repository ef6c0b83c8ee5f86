(** GridsProof.v — proofs about the blocked grid loop. *)
From Coq Require Import Ring ZifyBool.
From Verif Require Import Base BasSpec FblasModel CtrModel LoopSpec LoopProof Loop2eModel Loop2eSpec Loop2eProof
  Loop2eFinal Loop3Model Loop3Spec Loop3Proof Loop3Final GridsModel GridsSpec.

Section Part1.
  Context {F : Type} (add mul : F -> F -> F).

  Lemma point_of (t : arr F) ig (x y z : F) : 0 <= ig < 104 -> 312 <= asize t ->
    acell t ig = Some x -> acell t (ig + 104) = Some y -> acell t (ig + 208) = Some z ->
    point t ig = Some (x, y, z).
  Proof.
    intros Hi Hs A B C. unfold point, GRID_BLKSIZE. rewrite (proj2 (rd_spec t (ig + 104 * 0) x)).
    2:{ split; [lia|]. replace (ig + 104 * 0) with ig by lia. exact A. }
    cbn [bind]. rewrite (proj2 (rd_spec t (ig + 104 * 1) y)).
    2:{ split; [lia|]. exact B. }
    cbn [bind]. rewrite (proj2 (rd_spec t (ig + 104 * 2) z)).
    2:{ split; [lia|]. exact C. }
    reflexivity.
  Qed.

  Lemma copy_grids_ok (t grids : arr F) ngrids P off bg :
    grid_points grids ngrids P -> 0 <= off -> 0 <= bg <= 104 -> off + bg <= ngrids -> 312 <= asize t ->
    wp (copy_grids t grids off bg) (fun t' => asize t' = asize t /\
      forall ig, 0 <= ig < bg -> point t' ig = Some (P (off + ig))).
  Proof.
    intros HP Ho Hb Hn Hs. unfold copy_grids, GRID_BLKSIZE.
    apply wp_for with (I := fun i t' => asize t' = asize t /\ forall ig, 0 <= ig < i ->
      acell t' ig = Some (fst (fst (P (off + ig)))) /\ acell t' (ig + 104) = Some (snd (fst (P (off + ig)))) /\
      acell t' (ig + 208) = Some (snd (P (off + ig)))).
    - lia.
    - split; [reflexivity|]. intros; lia.
    - intros i t' Hi [S1 S2]. destruct (HP (off + i) ltac:(lia)) as (X & Y & Z).
      apply wp_bind. replace ((off + i) * 3 + 0) with (3 * (off + i)) by lia. eapply wp_rd; [exact X|].
      apply wp_bind. apply wp_wr; [lia|]. intros a A1 A2.
      apply wp_bind. replace ((off + i) * 3 + 1) with (3 * (off + i) + 1) by lia. eapply wp_rd; [exact Y|].
      apply wp_bind. apply wp_wr; [lia|]. intros b B1 B2.
      apply wp_bind. replace ((off + i) * 3 + 2) with (3 * (off + i) + 2) by lia. eapply wp_rd; [exact Z|].
      apply wp_wr; [lia|]. intros c C1 C2. split; [congruence|].
      intros ig Hig. rewrite !C2, !B2, !A2.
      destruct (Z.eq_dec ig i) as [->|Hne].
      + repeat match goal with |- context[if ?b then _ else _] => first
          [replace b with true by lia|replace b with false by lia] end; auto.
      + destruct (S2 ig ltac:(lia)) as (U & V & W).
        repeat match goal with |- context[if ?b then _ else _] => replace b with false by lia end. auto.
    - intros t' [S1 S2]. split; [exact S1|]. intros ig Hig. destruct (S2 ig Hig) as (U & V & W).
      rewrite (point_of t' ig _ _ _ ltac:(lia) ltac:(lia) U V W).
      destruct (P (off + ig)) as [[? ?] ?]. reflexivity.
  Qed.

  Lemma gout_grids_ok (q : gpairs F) t P bg n_comp len0 ip jp : 0 < bg ->
    (forall ig, 0 <= ig < bg -> point t ig = Some (P ig)) ->
    gout_ok add mul (fun m dst e f => gout_grids add mul q t bg n_comp len0 ip jp m dst e f) len0
      (fun n => x_base q ip jp (P (n mod bg)) ((n / bg) / n_comp) ((n / bg) mod n_comp)).
  Proof.
    intros Hb HP m dst f Hl.
    assert (E : forall e, gout_grids add mul q t bg n_comp len0 ip jp m dst e f =
       f_gout add m dst e len0 (fun n => mul f (x_base q ip jp (P (n mod bg)) ((n / bg) / n_comp) ((n / bg) mod n_comp)))).
    { intros e. unfold gout_grids, f_gout. f_equal. apply for_ext. intros n a Hn.
      rewrite HP by (apply Z.mod_pos_bound; lia). reflexivity. }
    rewrite !E. apply (f_gout_ok f f add mul (fun _ => false) ltac:(discriminate) len0
      (fun n => x_base q ip jp (P (n mod bg)) ((n / bg) / n_comp) ((n / bg) mod n_comp)) m dst f Hl).
  Qed.

  Lemma transpose_comps_ok (a b : arr F) bg dij ngrids n_comp w :
    0 <= bg <= ngrids -> 0 <= dij -> 0 <= n_comp ->
    (forall c n ig, 0 <= c < n_comp -> 0 <= n < dij -> 0 <= ig < bg ->
       rd b ((n * n_comp + c) * bg + ig) = Some (w c n ig) /\ 0 <= c * dij * ngrids + (ig + n * bg) < asize a) ->
    wp (transpose_comps a b bg dij ngrids n_comp) (fun a' => asize a' = asize a /\
      (forall c n ig, 0 <= c < n_comp -> 0 <= n < dij -> 0 <= ig < bg ->
         acell a' (c * dij * ngrids + (ig + n * bg)) = Some (w c n ig)) /\
      (forall x, (forall c n ig, 0 <= c < n_comp -> 0 <= n < dij -> 0 <= ig < bg ->
          c * dij * ngrids + (ig + n * bg) <> x) -> acell a' x = acell a x)).
  Proof.
    intros Hb Hd Hc H.
    set (addr := fun t : Z * Z * Z => fst (fst t) * dij * ngrids + (snd t + snd (fst t) * bg)).
    set (box := fun t : Z * Z * Z => 0 <= fst (fst t) < n_comp /\ 0 <= snd (fst t) < dij /\ 0 <= snd t < bg).
    set (spec := fun t : Z * Z * Z => w (fst (fst t)) (snd (fst t)) (snd t)).
    assert (Hinj : InjBox addr box).
    { intros [[c n] i] [[c' n'] i'] (B1 & B2 & B3) (B1' & B2' & B3') E. unfold addr in E. cbn [fst snd] in *.
      assert (R : forall n i, 0 <= n < dij -> 0 <= i < bg -> 0 <= i + bg * n < dij * ngrids).
      { intros. assert (i0 + bg * n0 < bg * dij) by nia. assert (bg * dij <= dij * ngrids) by nia. nia. }
      destruct (radix2_inj (dij * ngrids) (i + bg * n) c (i' + bg * n') c') as [Er ->]; auto.
      { lia. }
      destruct (radix2_inj bg i n i' n') as [-> ->]; auto. }
    unfold transpose_comps.
    apply wp_for with (I := fun c a' => Upd addr box spec (fun t => fst (fst t) < c) a a').
    - lia.
    - apply Upd_init. intros [[? ?] ?] (B & _ & _) K. cbn [fst snd] in *. lia.
    - intros c a1 Hci H1.
      apply wp_for with (I := fun n a' => Upd addr box spec
        (fun t => fst (fst t) < c \/ fst (fst t) = c /\ snd (fst t) < n) a a').
      + lia.
      + eapply Upd_iff; [exact H1|]. intros [[? ?] ?] (B1 & B2 & B3). cbn [fst snd] in *. lia.
      + intros n a2 Hni H2.
        apply wp_for with (I := fun i a' => Upd addr box spec
          (fun t => fst (fst t) < c \/ fst (fst t) = c /\ (snd (fst t) < n \/ snd (fst t) = n /\ snd t < i)) a a').
        * lia.
        * eapply Upd_iff; [exact H2|]. intros [[? ?] ?] (B1 & B2 & B3). cbn [fst snd] in *. lia.
        * intros i a3 Hii H3. destruct (H c n i Hci Hni Hii) as [Hr Hs].
          apply wp_bind. eapply wp_rd; [exact Hr|].
          change (c * dij * ngrids + (i + n * bg)) with (addr (c, n, i)).
          eapply Upd_wr; [exact Hinj|exact H3|intros a' K; exact K|repeat split; cbn; lia|exact Hs|reflexivity|].
          intros [[c' n'] i'] (B1 & B2 & B3). cbn [fst snd] in *.
          split.
          -- intros K. destruct (Z.eq_dec c' c) as [->|]; [|left; lia].
             destruct (Z.eq_dec n' n) as [->|]; [|left; lia].
             destruct (Z.eq_dec i' i) as [->|]; [right; reflexivity|left; lia].
          -- intros [K|K]; [lia|]. injection K as -> -> ->. lia.
        * intros a' K. eapply Upd_iff; [exact K|]. intros [[? ?] ?] (B1 & B2 & B3). cbn [fst snd] in *. lia.
      + intros a' K. eapply Upd_iff; [exact K|]. intros [[? ?] ?] (B1 & B2 & B3). cbn [fst snd] in *. lia.
    - intros a' (K1 & K2 & K3). split; [exact K1|]. split.
      + intros c n i Hc' Hn Hi. apply (K2 (c, n, i)); [repeat split; cbn; lia|cbn; lia].
      + intros x Hx. apply K3. intros [[c n] i] (B1 & B2 & B3) _. apply (Hx c n i B1 B2 B3).
  Qed.
End Part1.

  Lemma blocks_count ngrids : 0 <= ngrids ->
    let k := for_by_count 0 ngrids 104 in 0 <= k /\ ngrids <= 104 * k /\ (forall t, 0 <= t < k -> 104 * t < ngrids) /\ (0 < k <-> 0 < ngrids).
  Proof.
    intros H. unfold for_by_count. cbn zeta.
    assert (E : (ngrids - 0 + 104 - 1) / 104 = (ngrids + 103) / 104) by (f_equal; lia). rewrite E.
    pose proof (Z.div_mod (ngrids + 103) 104 ltac:(lia)). pose proof (Z.mod_pos_bound (ngrids + 103) 104 ltac:(lia)).
    assert (0 <= (ngrids + 103) / 104) by (apply Z.div_pos; lia).
    rewrite Z.max_r by assumption. split; [assumption|]. split; [lia|]. split; [intros; lia|lia].
  Qed.

Section Part2.
  Context {F : Type} (zero one : F) (add mul sub : F -> F -> F) (opp : F -> F).
  Hypothesis Rth : ring_theory zero one add mul sub opp (@eq F).
  Variable isz : F -> bool.
  Hypothesis isz_zero : forall c, isz c = true -> c = zero.
  Add Ring G2 : Rth.
  Variables (n_comp nf : Z) (si sj : shl F) (cfi cfj : Z -> Z -> F).
  Hypothesis Hi : shell_of isz si cfi.
  Hypothesis Hj : shell_of isz sj cfj.
  Hypothesis Hnf : 0 <= nf.
  Hypothesis Hnc : 1 <= n_comp.
  Variable common : F.
  Let Hi' := shell_of_ok zero one isz isz_zero si cfi Hi.
  Let Hj' := shell_of_ok zero one isz isz_zero sj cfj Hj.
  Let C1 := shell_ctr1 isz si cfi Hi'.
  Let C2 := shell_ctr1 isz sj cfj Hj'.
  Notation ci := (s_ctr si). Notation cj := (s_ctr sj).
  Notation dij := (nf * (ci * cj)).
  Variable q : gpairs F.
  Hypothesis Hq : x_empty q = false.
  Notation an := (any2 si sj (x_skip q) (fun _ _ => true)).
  Notation value := (grid_value zero add mul nf si sj cfi cfj q common).

  Lemma div_3 n c ig bg : 0 < bg -> 0 <= c < n_comp -> 0 <= ig < bg ->
    ((n * n_comp + c) * bg + ig) / bg = n * n_comp + c /\ (n * n_comp + c) / n_comp = n /\
    ((n * n_comp + c) * bg + ig) mod bg = ig /\ (n * n_comp + c) mod n_comp = c.
  Proof.
    intros. repeat split.
    - symmetry. apply Z.div_unique with ig; lia.
    - symmetry. apply Z.div_unique with c; lia.
    - symmetry. apply Z.mod_unique with (n * n_comp + c); lia.
    - symmetry. apply Z.mod_unique with n; lia.
  Qed.

  Lemma block_value (P : Z -> F * F * F) bg c n ig :
    0 <= c < n_comp -> 0 <= n < dij -> 0 <= ig < bg ->
    bfull2 zero add mul n_comp (bg * nf) si sj cfi cfj common (x_skip q) (fun _ _ => true) (x_e q)
      (fun ip jp x => x_base q ip jp (P (x mod bg)) ((x / bg) / n_comp) ((x / bg) mod n_comp))
      ((n * n_comp + c) * bg + ig) = value (P ig) n c.
  Proof.
    intros Hc Hn Hig. unfold bfull2, grid_value. f_equal.
    rewrite (J2_contract zero one add mul sub opp Rth). unfold contract2.
    assert (0 < nf) by nia.
    destruct (div_3 n c ig bg ltac:(lia) Hc Hig) as (D1 & D2 & D3 & D4).
    assert (Hbp : 0 < bg) by lia. assert (Hnz : nf <> 0) by lia.
    assert (0 < bg * nf) by nia. assert (0 < bg * nf * n_comp) by nia.
    assert (E0 : ((n * n_comp + c) * bg + ig) / (bg * nf * n_comp) = n / nf).
    { replace (bg * nf * n_comp) with (bg * (n_comp * nf)) by ring.
      rewrite <- !Z.div_div by nia. rewrite D1, D2. reflexivity. }
    assert (E1 : ((n * n_comp + c) * bg + ig) / (bg * nf * n_comp * ci) = n / (nf * ci)).
    { rewrite <- Z.div_div by lia. rewrite E0. rewrite Z.div_div by lia. reflexivity. }
    assert (E2 : ((n * n_comp + c) * bg + ig) mod (bg * nf * n_comp) = ((n mod nf) * n_comp + c) * bg + ig).
    { rewrite Z.mod_eq by lia. rewrite E0, (Z.mod_eq n nf Hnz). ring. }
    rewrite E0, E1, E2.
    destruct (div_3 (n mod nf) c ig bg Hbp Hc Hig) as (D1' & D2' & D3' & D4').
    apply lsum_ext. intros jp _. apply lsum_ext. intros ip _.
    rewrite D3', D1', D2', D4'. unfold kp2, kept_grids. rewrite Hq, andb_true_r. reflexivity.
  Qed.

  Lemma fits_grids (m : mem F) bg : 0 <= bg <= 104 -> fits m (scratch_grids n_comp nf si sj) ->
    (ci <> 1 -> bg * nf * n_comp <= asize (buf m 0%nat)) /\ (cj <> 1 -> bg * nf * n_comp * ci <= asize (buf m 1%nat)) /\
    (n_comp <> 1 -> bg * nf * n_comp * ci * cj <= asize (buf m 2%nat)).
  Proof.
    intros Hb H. unfold fits, scratch_grids, needs in H.
    assert (A : bg * nf * n_comp <= 104 * nf * n_comp) by (assert (0 <= nf * n_comp) by nia; nia).
    assert (B : bg * nf * n_comp * ci <= 104 * nf * n_comp * ci) by (apply Z.mul_le_mono_nonneg_r; lia).
    assert (C : bg * nf * n_comp * ci * cj <= 104 * nf * n_comp * ci * cj) by (apply Z.mul_le_mono_nonneg_r; lia).
    repeat split; intros E; (etransitivity; [eassumption|]); apply H; apply Z.eqb_neq in E; rewrite E; cbn [negb];
      rewrite !in_app_iff; cbn; auto 10.
  Qed.

  Lemma block_ok ngrids (grids gridsT : arr F) P off m :
    grid_points grids ngrids P -> 0 <= off < ngrids -> 312 <= asize gridsT ->
    dij * ngrids * n_comp <= asize (buf m 5%nat) -> fits m (scratch_grids n_comp nf si sj) ->
    wp (grids_block add mul n_comp nf si sj common q ngrids grids gridsT off m)
      (fun r => asize (fst (fst r)) = asize gridsT /\
        (forall t, asize (buf (snd (fst r)) t) = asize (buf m t)) /\ snd r = negb an /\
        (an = true -> forall c n ig, 0 <= c < n_comp -> 0 <= n < dij -> 0 <= ig < Z.min (ngrids - off) 104 ->
           acell (buf (snd (fst r)) 5%nat) (c * (dij * ngrids) + (off * dij + (n * Z.min (ngrids - off) 104 + ig)))
             = Some (value (P (off + ig)) n c)) /\
        (forall x, (forall c y, 0 <= c < n_comp -> 0 <= y < dij * Z.min (ngrids - off) 104 ->
             c * (dij * ngrids) + (off * dij + y) <> x) ->
           acell (buf (snd (fst r)) 5%nat) x = acell (buf m 5%nat) x)).
  Proof.
    intros HP Ho Ht H5 Hf. unfold grids_block.
    set (bg := Z.min (ngrids - off) 104). fold GRID_BLKSIZE in *.
    change (Z.min (ngrids - off) GRID_BLKSIZE) with bg.
    assert (Hbg : 0 < bg <= 104 /\ off + bg <= ngrids) by (unfold bg, GRID_BLKSIZE; lia).
    destruct (fits_grids m bg ltac:(lia) Hf) as (Z0 & Z1 & Z2).
    apply wp_bind. eapply wp_mono; [apply (copy_grids_ok add mul gridsT grids ngrids P off bg HP); lia|].
    intros t (Et & Hpt). cbn zeta.
    assert (Hd : 0 <= dij) by (assert (0 <= ci * cj) by nia; nia).
    set (o := off * nf * (ci * cj)). assert (Eo : o = off * dij) by (unfold o; ring).
    assert (Ho5 : 0 <= o /\ o + bg * dij <= ngrids * dij) by (rewrite Eo; nia).
    set (m1 := set_buf (set_flags m) 5 (view (buf (set_flags m) 5) o)).
    set (gj := alias n_comp 5 2).
    set (v := fun (ip jp x : Z) => x_base q ip jp (P (off + x mod bg)) ((x / bg) / n_comp) ((x / bg) mod n_comp)).
    set (b := bfull2 zero add mul n_comp (bg * nf) si sj cfi cfj common (x_skip q) (fun _ _ => true) (x_e q) v).
    replace (bg * nf * ci * n_comp) with (bg * nf * n_comp * ci) by ring.
    assert (HA : Acc zero add (negb (ci =? 1)) (fun t => asize (buf m1 t)) 2 gj gj (bg * nf * n_comp * ci * cj)
       (loop2 add mul n_comp (bg * nf) si sj common (x_skip q) (fun _ _ => true)
         (fun ip jp m dst e f => gout_grids add mul q t bg n_comp (bg * nf * n_comp) ip jp m dst e f)
         (fun ip jp f c => mul (mul f c) (x_e q ip jp)) (fun ip jp f => mul f (x_e q ip jp))) an b).
    { apply (loop2_acc zero one add mul sub opp Rth isz isz_zero); auto.
      - nia.
      - intros ip jp. apply (gout_grids_ok add mul q t (fun i => P (off + i))); [lia|exact Hpt]. }
    assert (HM : MInv (negb (ci =? 1)) (fun t => asize (buf m1 t)) m1) by (split; [reflexivity|intros; lia]).
    assert (Elen : bg * nf * n_comp * ci * cj = dij * bg * n_comp) by ring.
    assert (HS : Slot zero m1 gj gj (bg * nf * n_comp * ci * cj) false (fun _ => zero)).
    { split; [|split; [reflexivity|split; [discriminate|reflexivity]]].
      unfold gj, alias. destruct (n_comp =? 1) eqn:En.
      - cbn. rewrite Elen. assert (n_comp = 1) by lia. nia.
      - cbn. apply Z2. lia. }
    apply wp_bind. eapply wp_mono; [exact (HA m1 _ _ HM HS)|].
    intros m' ((S1 & S2 & S3 & S4) & _ & (R1 & R2 & R3 & R4)). cbn [orb] in *.
    assert (Hval : an = true -> forall c n ig, 0 <= c < n_comp -> 0 <= n < dij -> 0 <= ig < bg ->
       acell (buf m' gj) ((n * n_comp + c) * bg + ig) = Some (value (P (off + ig)) n c)).
    { intros Ea c n ig Hc Hn Hig. rewrite S3; auto.
      - f_equal. transitivity (b ((n * n_comp + c) * bg + ig)); [ring|].
        apply (block_value (fun i => P (off + i)) bg c n ig Hc Hn Hig).
      - rewrite Elen. assert (0 <= n * n_comp + c < dij * n_comp) by nia. nia. }
    apply wp_bind.
    apply wp_mono with (P := fun m2 : mem F => (forall t, asize (buf m2 t) = asize (buf m1 t)) /\ flg m2 gj = negb an /\
      (an = true -> forall c n ig, 0 <= c < n_comp -> 0 <= n < dij -> 0 <= ig < bg ->
         acell (buf m2 5%nat) (c * (dij * ngrids) + (n * bg + ig)) = Some (value (P (off + ig)) n c)) /\
      (forall x, (forall c y, 0 <= c < n_comp -> 0 <= y < dij * bg -> c * (dij * ngrids) + y <> x) ->
         acell (buf m2 5%nat) x = acell (buf m1 5%nat) x)).
    - rewrite S2, negb_involutive.
      destruct (n_comp =? 1) eqn:En.
      + assert (E1 : n_comp = 1) by lia. replace (1 <? n_comp) with false by lia. cbn [andb wp].
        assert (Eg : gj = 5%nat) by (unfold gj, alias; rewrite En; reflexivity). rewrite Eg in *.
        split; [exact R1|]. split; [exact S2|]. split.
        * intros Ea c n ig Hc Hn Hig. rewrite <- (Hval Ea c n ig Hc Hn Hig). f_equal. rewrite E1 in *. replace c with 0 by lia. ring.
        * intros x Hx. apply R4. intros K. apply (Hx 0 x); [lia| |ring]. rewrite Elen in K. nia.
      + replace (1 <? n_comp) with true by lia. cbn [andb].
        assert (Eg : gj = 2%nat) by (unfold gj, alias; rewrite En; reflexivity). rewrite Eg in *.
        assert (E5 : buf m' 5%nat = buf m1 5%nat) by (apply R2; lia).
        destruct an eqn:Ea.
        * apply wp_bind.
          eapply wp_mono; [apply (transpose_comps_ok (buf m' 5%nat) (buf m' 2%nat) bg dij ngrids n_comp
             (fun c n ig => value (P (off + ig)) n c)); try lia|].
          -- intros c n ig Hc Hn Hig. split.
             ++ apply rd_spec. split; [|apply Hval; auto]. rewrite R1, Elen in *.
                assert (0 <= n * n_comp + c < dij * n_comp) by nia. cbn in *. nia.
             ++ rewrite E5. cbn. assert (c * dij * ngrids + dij * ngrids <= dij * ngrids * n_comp) by nia.
                assert (0 <= ig + n * bg < dij * bg) by nia. split; [nia|].
                lia.
          -- intros a (A1 & A2 & A3). cbn [wp]. split; [|split; [|split]].
             ++ intros u. cbn [set_buf buf]. destruct (Nat.eqb u 5) eqn:Eu; [|apply R1].
                apply Nat.eqb_eq in Eu. subst u. rewrite A1. apply R1.
             ++ exact S2.
             ++ intros _ c n ig Hc Hn Hig. cbn [set_buf buf]. rewrite Nat.eqb_refl.
                rewrite <- (A2 c n ig Hc Hn Hig). f_equal. ring.
             ++ intros x Hx. cbn [set_buf buf]. rewrite Nat.eqb_refl. rewrite A3; [rewrite E5; reflexivity|].
                intros c n ig Hc Hn Hig K. apply (Hx c (ig + n * bg) Hc); [nia|]. rewrite <- K. ring.
        * cbn [wp]. split; [exact R1|]. split; [exact S2|]. split; [discriminate|].
          intros x Hx. rewrite E5. reflexivity.
    - intros m2 (M1 & M2 & M3 & M4). cbn [wp fst snd]. split; [exact Et|]. split; [|split; [exact M2|split]].
      + intros u. cbn [set_buf buf]. destruct (Nat.eqb u 5) eqn:Eu.
        * apply Nat.eqb_eq in Eu. subst u. reflexivity.
        * rewrite M1. cbn. rewrite Eu. reflexivity.
      + intros Ea c n ig Hc Hn Hig. cbn. rewrite <- Eo.
        assert (0 <= c * (dij * ngrids)) by nia. assert (0 <= n * bg + ig) by nia.
        replace (o <=? c * (dij * ngrids) + (o + (n * bg + ig))) with true by lia.
        rewrite <- (M3 Ea c n ig Hc Hn Hig). f_equal. lia.
      + intros x Hx. cbn. destruct (o <=? x) eqn:Ex; [|reflexivity].
        rewrite M4; [cbn; f_equal; lia|]. intros c y Hc Hy K. apply (Hx c y Hc Hy). rewrite <- Eo. lia.
  Qed.

  Lemma some_grids : an = true <-> some2 (s_np si) (s_np sj) (kept_grids q).
  Proof.
    rewrite any2_some. apply some2_ext. intros ip jp. unfold kp2, kept_grids. rewrite Hq, andb_true_r. reflexivity.
  Qed.

  Lemma loop_grids_run ngrids (grids gridsT : arr F) P m :
    grid_points grids ngrids P -> 0 <= ngrids -> 312 <= asize gridsT ->
    dij * ngrids * n_comp <= asize (buf m 5%nat) -> fits m (scratch_grids n_comp nf si sj) ->
    makes_grids n_comp nf si sj m ngrids (some2 (s_np si) (s_np sj) (kept_grids q))
      (fun g n c => value (P g) n c)
      (CINT1e_grids_loop add mul n_comp nf si sj common q ngrids grids gridsT m).
  Proof.
    intros HP Hng Ht H5 Hf. unfold CINT1e_grids_loop. rewrite Hq.
    assert (Hd : 0 <= dij) by (assert (0 <= ci * cj) by nia; nia).
    destruct (blocks_count ngrids Hng) as (K1 & K2 & K3 & K4). set (k := for_by_count 0 ngrids 104) in *.
    assert (W : wp (for_by 0 ngrids GRID_BLKSIZE (fun grids_offset (st : arr F * mem F * bool) =>
           let '(gridsT, m, all_empty) := st in
           r <- grids_block add mul n_comp nf si sj common q ngrids grids gridsT grids_offset m ;;
           let '(gridsT, m, jempty) := r in
           Some (gridsT, m, all_empty && jempty)) (gridsT, m, true))
      (fun st => (forall t, asize (buf (snd (fst st)) t) = asize (buf m t)) /\
         snd st = negb ((0 <? k) && an) /\
         (an = true -> forall c n g, 0 <= c < n_comp -> 0 <= n < dij -> 0 <= g < ngrids -> g < 104 * k ->
            acell (buf (snd (fst st)) 5%nat) (grid_pos ngrids dij c n g) = Some (value (P g) n c)) /\
         (forall x, ~ (0 <= x < dij * ngrids * n_comp) -> acell (buf (snd (fst st)) 5%nat) x = acell (buf m 5%nat) x))).
    { unfold for_by. change GRID_BLKSIZE with 104. fold k.
      apply wp_for with (I := fun t (st : arr F * mem F * bool) => asize (fst (fst st)) = asize gridsT /\
        (forall u, asize (buf (snd (fst st)) u) = asize (buf m u)) /\
         snd st = negb ((0 <? t) && an) /\
         (an = true -> forall c n g, 0 <= c < n_comp -> 0 <= n < dij -> 0 <= g < ngrids -> g < 104 * t ->
            acell (buf (snd (fst st)) 5%nat) (grid_pos ngrids dij c n g) = Some (value (P g) n c)) /\
         (forall x, ~ (0 <= x < dij * ngrids * n_comp) -> acell (buf (snd (fst st)) 5%nat) x = acell (buf m 5%nat) x)).
      - exact K1.
      - split; [reflexivity|]. split; [reflexivity|]. split; [reflexivity|]. split; [intros; lia|reflexivity].
      - intros t [[T0 m0] e0] Hti (I0 & I1 & I2 & I3 & I4). cbn [fst snd] in *.
        specialize (K3 t Hti). replace (0 + 104 * t) with (104 * t) by lia.
        apply wp_bind. eapply wp_mono; [apply (block_ok ngrids grids T0 P (104 * t) m0 HP)|].
        + lia.
        + lia.
        + rewrite I1. exact H5.
        + intros u n Hu. rewrite I1. exact (Hf u n Hu).
        + intros [[T1 m1] e1] (B0 & B1 & B2 & B3 & B4). cbn [wp fst snd] in *.
          set (bg := Z.min (ngrids - 104 * t) 104) in *.
          assert (Hbg : 0 < bg <= 104 /\ 104 * t + bg <= ngrids) by (unfold bg; lia).
          assert (Hblk : dij * bg + 104 * t * dij <= dij * ngrids) by nia.
          split; [congruence|]. split; [intros u; rewrite B1; apply I1|]. split; [|split].
          * rewrite B2, I2. replace (0 <? t + 1) with true by lia. destruct an, (0 <? t); reflexivity.
          * intros Ea c n g Hc Hn Hg Hgt.
            destruct (Z_lt_ge_dec g (104 * t)) as [Hlt|Hge].
            -- rewrite B4; [apply I3; auto|]. intros c' y Hc' Hy. unfold grid_pos.
               assert (Hgq : 0 <= g / 104 < t) by (split; [apply Z.div_pos; lia|apply Z.div_lt_upper_bound; lia]).
               pose proof (Z.div_mod g 104 ltac:(lia)) as Hgm. pose proof (Z.mod_pos_bound g 104 ltac:(lia)) as Hgb.
               unfold blk_len, blk_start. set (gq := g / 104) in *.
               set (b := Z.min 104 (ngrids - 104 * gq)).
               assert (Hb : b = 104) by (unfold b; lia). rewrite Hb.
               assert (Hr : 0 <= n * 104 + (g - 104 * gq) < dij * 104) by nia.
               assert (Hs : 104 * gq * dij + dij * 104 <= 104 * t * dij) by nia.
               intros K.
               destruct (radix2_inj (dij * ngrids) (104 * t * dij + y) c' (104 * gq * dij + (n * 104 + (g - 104 * gq))) c) as [Er _]; nia.
            -- assert (Hgq : g / 104 = t) by (symmetry; apply Z.div_unique with (g - 104 * t); lia).
               unfold grid_pos, blk_len, blk_start. rewrite Hgq.
               rewrite (Z.min_comm 104). fold bg.
               specialize (B3 Ea c n (g - 104 * t) Hc Hn ltac:(unfold bg; lia)).
               replace (104 * t + (g - 104 * t)) with g in B3 by lia. exact B3.
          * intros x Hx. rewrite B4; [apply I4; exact Hx|]. intros c y Hc Hy K. apply Hx. rewrite <- K.
            assert (0 <= c * (dij * ngrids)) by nia. assert (c * (dij * ngrids) + dij * ngrids <= dij * ngrids * n_comp) by nia.
            assert (0 <= 104 * t * dij) by nia. lia.
      - intros st (_ & X). exact X. }
    apply wp_exists in W. destruct W as [[[T1 m1] e1] [E (W1 & W2 & W3 & W4)]]. cbn [fst snd] in *.
    exists m1, (negb e1). split; [rewrite E; reflexivity|].
    rewrite W2, negb_involutive.
    split; [rewrite <- some_grids, andb_true_iff; split; intros [? ?]; split; auto; lia|].
    split; [apply W1|]. split; [exact W4|].
    intros R c n g Hc Hn Hg. apply andb_true_iff in R. destruct R as [_ R].
    apply rd_spec. split; [|apply W3; auto; lia].
    rewrite W1. unfold grid_pos, blk_len, blk_start.
    pose proof (Z.div_mod g 104 ltac:(lia)) as Hgm. pose proof (Z.mod_pos_bound g 104 ltac:(lia)) as Hgb.
    assert (0 <= g / 104) by (apply Z.div_pos; lia).
    set (gq := g / 104) in *. set (bg := Z.min 104 (ngrids - 104 * gq)).
    assert (Hbg : 0 < bg <= 104 /\ 104 * gq + bg <= ngrids /\ g - 104 * gq < bg) by (unfold bg; lia).
    assert (0 <= n * bg + (g - 104 * gq) < dij * bg) by nia.
    assert (dij * bg + 104 * gq * dij <= dij * ngrids) by nia.
    assert (0 <= c * (dij * ngrids)) by nia. assert (c * (dij * ngrids) + dij * ngrids <= dij * ngrids * n_comp) by nia.
    assert (0 <= 104 * gq * dij) by nia. lia.
  Qed.
End Part2.

Section Part3.
  Context {F : Type} (zero one : F) (add mul sub : F -> F -> F) (opp : F -> F).
  Hypothesis Rth : ring_theory zero one add mul sub opp (@eq F).
  Variable isz : F -> bool.
  Hypothesis isz_zero : forall c, isz c = true -> c = zero.
  Variables (n_comp nf : Z) (si sj : shl F) (cfi cfj : Z -> Z -> F).
  Hypothesis Hi : shell_of isz si cfi.
  Hypothesis Hj : shell_of isz sj cfj.
  Hypothesis Hnf : 0 <= nf.
  Hypothesis Hnc : 1 <= n_comp.
  Variables (common : F) (q : gpairs F).
  Variables (ngrids : Z) (grids : arr F) (P : Z -> F * F * F).
  Hypothesis HP : grid_points grids ngrids P.
  Hypothesis Hng : 0 <= ngrids.
  Notation dij := (nf * (s_ctr si * s_ctr sj)).

  Lemma loop_grids (gridsT : arr F) m : 312 <= asize gridsT ->
    dij * ngrids * n_comp <= asize (buf m 5%nat) -> fits m (scratch_grids n_comp nf si sj) ->
    makes_grids n_comp nf si sj m ngrids (some2 (s_np si) (s_np sj) (kept_grids q))
      (fun g n c => grid_value zero add mul nf si sj cfi cfj q common (P g) n c)
      (CINT1e_grids_loop add mul n_comp nf si sj common q ngrids grids gridsT m).
  Proof.
    intros Ht H5 Hf. destruct (x_empty q) eqn:E.
    - unfold CINT1e_grids_loop. rewrite E. exists m, false. split; [reflexivity|].
      split; [split; [discriminate|]|split; [reflexivity|split; [reflexivity|discriminate]]].
      intros [(ip & jp & _ & _ & K) _]. unfold kept_grids in K. rewrite E in K. discriminate.
    - eapply (loop_grids_run zero one add mul sub opp); eauto.
  Qed.

  Lemma scratch_grids_same (t t2 : arr F) m m2 : 312 <= asize t -> 312 <= asize t2 ->
    dij * ngrids * n_comp <= asize (buf m 5%nat) -> dij * ngrids * n_comp <= asize (buf m2 5%nat) ->
    fits m (scratch_grids n_comp nf si sj) -> fits m2 (scratch_grids n_comp nf si sj) ->
    same_grids n_comp dij ngrids (CINT1e_grids_loop add mul n_comp nf si sj common q ngrids grids t m)
      (CINT1e_grids_loop add mul n_comp nf si sj common q ngrids grids t2 m2).
  Proof.
    intros A1 A2 B1 B2 C1 C2.
    destruct (loop_grids t m A1 B1 C1) as (a & ra & E1 & R1 & _ & _ & V1).
    destruct (loop_grids t2 m2 A2 B2 C2) as (b & rb & E2 & R2 & _ & _ & V2).
    assert (Er : ra = rb).
    { destruct ra, rb; try reflexivity; [symmetry; apply R2, R1|apply R1, R2]; reflexivity. }
    exists a, b, ra, rb. split; [exact E1|]. split; [exact E2|]. split; [exact Er|].
    intros H c n g Hc Hn Hg. rewrite V1 by auto. rewrite V2 by (auto; congruence). reflexivity.
  Qed.
End Part3.

Lemma map_seq_shift {A} (f : nat -> A) n j : forall s, map f (seq (n + s) j) = map (fun i => f (n + i)%nat) (seq s j).
Proof.
  induction j as [|j IH]; intros s; [reflexivity|]. cbn [seq map]. f_equal.
  rewrite <- IH. f_equal. f_equal. lia.
Qed.
Lemma run_of_app lo n k : 0 <= n -> 0 <= k -> run_of lo (n + k) = run_of lo n ++ run_of (lo + n) k.
Proof.
  intros. unfold run_of. rewrite Z2Nat.inj_add by lia. rewrite seq_app, map_app. f_equal.
  replace (0 + Z.to_nat n)%nat with (Z.to_nat n + 0)%nat by lia.
  rewrite map_seq_shift. apply map_ext. intros i. lia.
Qed.

Lemma blocks_visit ngrids : 0 <= ngrids ->
  for_by 0 ngrids GRID_BLKSIZE (fun off l =>
    let bgrids := Z.min (ngrids - off) GRID_BLKSIZE in
    if (1 <=? bgrids) && (bgrids <=? 104) then Some (l ++ run_of off bgrids) else None) []
  = Some (run_of 0 ngrids).
Proof.
  intros H. destruct (blocks_count ngrids H) as (K1 & K2 & K3 & K4).
  assert (W : wp (for_by 0 ngrids GRID_BLKSIZE (fun off l =>
    let bgrids := Z.min (ngrids - off) GRID_BLKSIZE in
    if (1 <=? bgrids) && (bgrids <=? 104) then Some (l ++ run_of off bgrids) else None) [])
    (fun l => l = run_of 0 ngrids)).
  { unfold for_by. change GRID_BLKSIZE with 104.
    apply wp_for with (I := fun t l => l = run_of 0 (Z.min ngrids (104 * t))).
    - exact K1.
    - replace (Z.min ngrids (104 * 0)) with 0 by lia. reflexivity.
    - intros t l Ht ->. specialize (K3 t Ht). cbn zeta. replace (0 + 104 * t) with (104 * t) by lia.
      replace ((1 <=? Z.min (ngrids - 104 * t) 104) && (Z.min (ngrids - 104 * t) 104 <=? 104)) with true by lia.
      cbn [wp]. replace (Z.min ngrids (104 * t)) with (104 * t) by lia.
      rewrite <- (run_of_app 0 (104 * t)) by lia. f_equal. lia.
    - intros l ->. f_equal. lia. }
  apply wp_exists in W. destruct W as [l [E ->]]. exact E.
Qed.

Section Pos.
  Variables ngrids dij n_comp : Z.
  Lemma grid_blk g : 0 <= g < ngrids -> 0 <= blk_start g /\ 0 < blk_len ngrids g <= 104 /\
    blk_start g + blk_len ngrids g <= ngrids /\ 0 <= g - blk_start g < blk_len ngrids g /\
    blk_start g = 104 * (g / 104) /\ blk_len ngrids g = Z.min 104 (ngrids - blk_start g).
  Proof.
    intros Hg. unfold blk_len, blk_start.
    pose proof (Z.div_mod g 104 ltac:(lia)) as Hgm. pose proof (Z.mod_pos_bound g 104 ltac:(lia)) as Hgb.
    assert (0 <= g / 104) by (apply Z.div_pos; lia). set (gq := g / 104) in *. lia.
  Qed.
  Lemma in_blk d n l i : 0 <= n < d -> 0 <= i < l -> 0 <= n * l + i < d * l.
  Proof. intros. nia. Qed.
  Lemma grid_in n g : 0 <= n < dij -> 0 <= g < ngrids ->
    0 <= blk_start g * dij + (n * blk_len ngrids g + (g - blk_start g)) < dij * ngrids.
  Proof.
    intros Hn Hg. destruct (grid_blk g Hg) as (A & B & C & D & _).
    set (s := blk_start g) in *. set (l := blk_len ngrids g) in *. clearbody s l.
    assert (0 <= n * l + (g - s) < dij * l) by nia. assert (s * dij + dij * l <= dij * ngrids) by nia.
    assert (0 <= s * dij) by nia. lia.
  Qed.
  Lemma grid_pos_bound c n g : 0 <= c < n_comp -> 0 <= n < dij -> 0 <= g < ngrids ->
    0 <= grid_pos ngrids dij c n g < dij * ngrids * n_comp.
  Proof.
    intros Hc Hn Hg. unfold grid_pos. pose proof (grid_in n g Hn Hg) as K.
    set (x := blk_start g * dij + _) in *. clearbody x.
    assert (0 < dij * ngrids) by nia. set (d := dij * ngrids) in *. clearbody d. nia.
  Qed.
  Lemma grid_pos_inj c n g c' n' g' : 0 <= c < n_comp -> 0 <= n < dij -> 0 <= g < ngrids ->
     0 <= c' < n_comp -> 0 <= n' < dij -> 0 <= g' < ngrids ->
     grid_pos ngrids dij c n g = grid_pos ngrids dij c' n' g' -> c = c' /\ n = n' /\ g = g'.
  Proof.
    intros Hc Hn Hg Hc' Hn' Hg' E. unfold grid_pos in E.
    pose proof (grid_in n g Hn Hg) as K. pose proof (grid_in n' g' Hn' Hg') as K'.
    destruct (grid_blk g Hg) as (A & B & C & D & Q & L). destruct (grid_blk g' Hg') as (A' & B' & C' & D' & Q' & L').
    set (s := blk_start g) in *. set (l := blk_len ngrids g) in *.
    set (s' := blk_start g') in *. set (l' := blk_len ngrids g') in *. clearbody s l s' l'.
    destruct (radix2_inj (dij * ngrids) (s * dij + (n * l + (g - s))) c (s' * dij + (n' * l' + (g' - s'))) c') as [Er ->]; auto.
    { lia. }
    split; [reflexivity|].
    pose proof (in_blk dij n l (g - s) Hn D) as I. pose proof (in_blk dij n' l' (g' - s') Hn' D') as I'.
    assert (Es : s = s').
    { destruct (Z.lt_trichotomy (g / 104) (g' / 104)) as [H|[H|H]]; [|congruence|].
      - assert (l = 104) by lia. assert (s + 104 <= s') by lia. subst l. exfalso.
        pose proof (Z.mul_le_mono_nonneg_r (s + 104) s' dij ltac:(lia) ltac:(lia)). lia.
      - assert (l' = 104) by lia. assert (s' + 104 <= s) by lia. subst l'. exfalso.
        pose proof (Z.mul_le_mono_nonneg_r (s' + 104) s dij ltac:(lia) ltac:(lia)). lia. }
    subst s'. assert (l = l') by lia. subst l'.
    destruct (radix2_inj l (g - s) n (g' - s) n') as [? ?]; lia.
  Qed.
End Pos.
