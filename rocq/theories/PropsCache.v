(** PropsCache.v — properties C27-C33: the scratch size a query reports covers every block
    the drivers reserve in that buffer.  Statements only; proofs in CacheFinal.v and
    CacheInit.v.

    [safe base size bs]: every block of [bs] lies inside the [size] doubles from byte
    address [base] on, is aligned for doubles, and no two blocks overlap (CacheSpec.v).
    [provides bs need]: the blocks include the buffers, of exactly the lengths, that the
    theorems about the contraction loops (PropsCtr.v, PropsLoop2e.v, PropsLoop3.v,
    PropsGrids.v) ask for; within those buffers the loops are proved not to go out of
    bounds.  A driver runs two phases on the same memory, the contraction loop and the
    transformation; each phase has its own layout. *)
From Coq Require Import Lia.
From Verif Require Import Base BasModel EnvModel CtrModel LoopSpec Loop2eSpec Loop3Spec GridsSpec
  CacheModel CacheSpec CacheProof CacheFinal CacheInit.

Section Sizes.
  (** integer size, address of the caller's buffer, primitives of the shells, operator,
      angular momenta, contractions, kappas *)
  Variables (fsz base : Z) (ip jp kp lp : Z) (ng : ngT) (li lj lk ll ci cj ck cl : Z) (ik jk kk lka : Z).
  Hypothesis Hf : fsz = 4 \/ fsz = 8.
  Hypothesis Hb : base mod 8 = 0.
  Hypothesis (Hip : 0 <= ip) (Hjp : 0 <= jp) (Hkp : 0 <= kp) (Hlp : 0 <= lp).
  Hypothesis Hng : ng_ok ng.
  Hypothesis (Hli : 0 <= li) (Hlj : 0 <= lj) (Hlk : 0 <= lk) (Hll : 0 <= ll).
  Hypothesis (Hci : 1 <= ci) (Hcj : 1 <= cj) (Hck : 1 <= ck) (Hcl : 1 <= cl).

  (** *** one-electron *)
  Theorem C27_int1e :
    let e := init_int1e ng li lj ci cj in
    let size := int1e_cache_size e ip jp in
    safe base size (drv_1e e base (loop_1e fsz e ip jp)) /\
    safe base size (drv_1e e base (c2s_sph_1e e)) /\
    safe base size (drv_1e_spinor e base (loop_1e fsz e ip jp)) /\
    safe base size (drv_1e_spinor e base (c2s_spinor_1e e ik jk)).
  Proof.
    intros e size. destruct (init_1e_sizes ng li lj ci cj Hng Hli Hlj Hci Hcj) as (S1 & Hn & En).
    split; [apply packed_safe; now apply (loop_1e_fits fsz base e ip jp)|].
    split; [apply packed_safe; now apply (c2s_sph_1e_fits base e ip jp)|].
    split; [apply packed_safe; now apply (loop_1e_spinor_fits fsz base e ip jp)|].
    apply packed_safe; now apply (c2s_spinor_1e_fits base e ip jp).
  Qed.
  Theorem C27_buffers {F} (si sj : shl F) : s_ctr si = ci -> s_ctr sj = cj ->
    let e := init_int1e ng li lj ci cj in
    provides (drv_1e e base (loop_1e fsz e ip jp))
      ((5%nat, nf e * ci * cj * (POS_E1 ng * TENSOR ng)) :: scratch2 (POS_E1 ng * TENSOR ng) (nf e) si sj).
  Proof. intros Ei Ej e. exact (loop_1e_provides si sj e fsz base ip jp Ei Ej). Qed.

  (** *** two-electron; [om] the sign of omega, Coulomb or Yukawa/Slater geminal *)
  Theorem C28_int2e (om : bool) no_pd no_idx : 1 <= POS_E2 ng ->
    forall e, e = init_int2e om ng li lj lk ll ci cj ck cl \/ e = init_int2e_yp ng li lj lk ll ci cj ck cl ->
    let size := int2e_cache_size e ip jp kp lp in
    let size_spinor := int2e_spinor_cache_size e ik jk ip jp kp lp in
    safe base size (drv_2e e base (loop_2e_nopt fsz e ip jp kp lp)) /\
    safe base size (drv_2e e base (loop_2e_opt_with (levels_2e_selected e) fsz no_pd no_idx e ip jp kp lp)) /\
    safe base size (drv_2e e base (c2s_sph_2e1 e)) /\
    safe base size_spinor (drv_2e e base (loop_2e_nopt fsz e ip jp kp lp)) /\
    safe base size_spinor (drv_2e e base (loop_2e_opt_with (levels_2e_selected e) fsz no_pd no_idx e ip jp kp lp)) /\
    safe base size_spinor (drv_2e e base (with_opij e ik jk (c2s_spinor_2e1 e ik))) /\
    safe base size_spinor (drv_2e e base (with_opij e ik jk (c2s_sf_2e2 e ik jk kk lka))) /\
    safe base size_spinor (drv_2e e base (with_opij e ik jk (c2s_si_2e2 e ik jk kk lka))).
  Proof.
    intros H2 e He size size_spinor.
    assert (G : exists nr o, 0 <= nr /\ e = init_4c nr o ng li lj lk ll ci cj ck cl).
    { destruct Hng as (N1 & N2 & N3 & N4 & _).
      destruct He as [-> | ->]; eexists; eexists; (split; [|reflexivity]).
      - apply sr_roots_nonneg. pose proof (quot2_nonneg (li + IINC ng + (lj + JINC ng) + (lk + KINC ng) + (ll + LINC ng)) ltac:(lia)). lia.
      - apply quot2_nonneg. lia. }
    destruct G as (nr & o & Hr & Ee).
    destruct (init_4c_sizes nr o ng li lj lk ll ci cj ck cl Hng Hr Hli Hlj Hlk Hll Hci Hcj Hck Hcl) as (S1 & Hn & E4 & Ek & El).
    rewrite <- Ee in *.
    assert (H2e : 1 <= ncomp_e2 e) by (rewrite Ee; exact H2).
    assert (Hc2 : 1 <= ncomp2 e) by (pose proof (so_e1 e S1); pose proof (so_t e S1); unfold ncomp2; nia).
    destruct (loops_2e_first fsz base e ip jp kp lp Hf Hb S1 Hip Hjp Hkp Hlp Hn no_pd no_idx size Hc2 (Z.le_max_l _ _)) as [A B].
    destruct (spinor_2e_fits fsz base e ip jp kp lp Hf Hb S1 Hip Hjp Hkp Hlp Hn ik jk kk lka no_pd no_idx H2e E4 Ek El) as (P1 & P2 & P3 & P4 & P5).
    split; [now apply packed_safe|]. split; [now apply packed_safe|].
    split; [apply packed_safe; now apply c2s_sph_2e1_fits|].
    split; [now apply packed_safe|]. split; [now apply packed_safe|]. split; [now apply packed_safe|].
    split; now apply packed_safe.
  Qed.
  Theorem C28_buffers {F} (si sj sk sl : shl F) (om : bool) no_pd no_idx :
    s_ctr si = ci -> s_ctr sj = cj -> s_ctr sk = ck -> s_ctr sl = cl ->
    forall e, e = init_int2e om ng li lj lk ll ci cj ck cl \/ e = init_int2e_yp ng li lj lk ll ci cj ck cl ->
    let n_comp := POS_E1 ng * POS_E2 ng * TENSOR ng in
    provides (drv_2e e base (loop_2e_nopt fsz e ip jp kp lp))
      ((5%nat, nf e * ci * cj * ck * cl * n_comp) :: scratch_general n_comp (nf e) si sj sk sl) /\
    provides (drv_2e e base (loop_2e_opt_with (levels_2e_selected e) fsz no_pd no_idx e ip jp kp lp))
      ((5%nat, nf e * ci * cj * ck * cl * n_comp) :: scratch_any n_comp (nf e) si sj sk sl).
  Proof.
    intros Ei Ej Ek El e He n_comp.
    assert (G : i_ctr e = ci /\ j_ctr e = cj /\ k_ctr e = ck /\ l_ctr e = cl /\ ncomp2 e = n_comp).
    { destruct He as [-> | ->]; repeat split. }
    destruct G as (G1 & G2 & G3 & G4 & G5).
    assert (N : nf e * ci * cj * ck * cl * n_comp = nc4 e * ncomp2 e) by (unfold nc4; rewrite G1, G2, G3, G4, G5; reflexivity).
    rewrite N, <- G5. rewrite <- G1 in Ei. rewrite <- G2 in Ej. rewrite <- G3 in Ek. rewrite <- G4 in El.
    split; [exact (loop_2e_nopt_provides si sj sk sl _ fsz base ip jp kp lp Ei Ej Ek El)
           |exact (loop_2e_opt_provides si sj sk sl _ fsz base ip jp kp lp Ei Ej Ek El no_pd no_idx)].
  Qed.

  (** *** three-centre two-electron *)
  Theorem C29_int3c2e (om : bool) no_pd no_idx :
    let e := init_int3c2e om ng li lj lk ci cj ck in
    let size := int3c2e_cache_size e ip jp kp in
    safe base size (drv_3c2e e base (loop_3c2e_nopt fsz e ip jp kp)) /\
    safe base size (drv_3c2e e base (loop_3c2e_opt fsz no_pd no_idx e ip jp kp)) /\
    safe base size (drv_3c2e e base (c2s_sph_3c2e1 e)) /\
    safe base size (drv_3c2e e base (c2s_sph_3c2e1_ssc e)).
  Proof.
    intros e size.
    destruct (init_3c2e_sizes om ng li lj lk ci cj ck Hng Hli Hlj Hlk Hci Hcj Hck) as (S1 & Hn & E3 & Ek).
    fold e in S1, Hn, E3, Ek.
    assert (Hs : leng e + nf e * ncomp1 e + nc3 e * ncomp1 e * 2 + nc3 e * ncomp1 e + pdata_size_3c2e e ip jp kp <= size).
    { apply Z.le_trans with (leng e + nf e * ncomp1 e + nc3 e * ncomp1 e * 3 + pdata_size_3c2e e ip jp kp); [lia|apply Z.le_max_l]. }
    destruct (loops_3c2e_first fsz base e ip jp kp Hf Hb S1 Hip Hjp Hkp Hn no_pd no_idx (nc3 e * ncomp1 e) size (Z.le_refl _) Hs) as [A B].
    assert (HN : 0 <= nc3 e * ncomp1 e).
    { pose proof (ncomp1_pos base e Hb S1). pose proof (nc3_nonneg e S1 Hn). nia. }
    destruct (c2s_sph_3c_fits base e Hb S1 Hn (nc3 e * ncomp1 e) size E3 HN (Z.le_max_r _ _)) as [C D].
    repeat match goal with |- _ /\ _ => split end; apply packed_safe; assumption.
  Qed.
  Theorem C29_int3c2e_spinor (om : bool) no_pd no_idx nbuf : 1 <= POS_E2 ng -> (nbuf <= 4)%nat ->
    let e := init_int3c2e om ng li lj lk ci cj ck in
    let size := int3c2e_spinor_cache_size e ip jp kp in
    safe base size (drv_3c2e_spinor e base (loop_3c2e_nopt fsz e ip jp kp)) /\
    safe base size (drv_3c2e_spinor e base (loop_3c2e_opt fsz no_pd no_idx e ip jp kp)) /\
    safe base size (drv_3c2e_spinor e base (c2s_spinor_3c2e1 nbuf e ik jk)).
  Proof.
    intros H2 Hnb e size.
    destruct (init_3c2e_sizes om ng li lj lk ci cj ck Hng Hli Hlj Hlk Hci Hcj Hck) as (S1 & Hn & E3 & Ek).
    fold e in S1, Hn, E3, Ek.
    pose proof (ncomp1_pos base e Hb S1) as H1.
    assert (H12 : ncomp1 e <= ncomp2 e).
    { unfold ncomp1, ncomp2 in *. change (ncomp_e2 e) with (POS_E2 ng). pose proof (so_e1 e S1). pose proof (so_t e S1).
      apply Z.mul_le_mono_nonneg_r; nia. }
    pose proof (nc3_nonneg e S1 Hn) as HN3.
    assert (Hm : nc3 e * ncomp1 e <= nc3 e * ncomp2 e) by (apply Z.mul_le_mono_nonneg_l; lia).
    assert (Hm' : nf e * ncomp1 e <= nf e * ncomp2 e) by (apply Z.mul_le_mono_nonneg_l; lia).
    assert (Hs : leng e + nf e * ncomp1 e + nc3 e * ncomp1 e * 2 + nc3 e * ncomp2 e + pdata_size_3c2e e ip jp kp <= size).
    { apply Z.le_trans with (leng e + nf e * ncomp2 e + nc3 e * ncomp2 e * 3 + pdata_size_3c2e e ip jp kp); [lia|apply Z.le_max_l]. }
    destruct (loops_3c2e_first fsz base e ip jp kp Hf Hb S1 Hip Hjp Hkp Hn no_pd no_idx (nc3 e * ncomp2 e) size Hm Hs) as [A B].
    assert (HN : 0 <= nc3 e * ncomp2 e) by nia.
    pose proof (c2s_spinor_3c_fits base e Hb S1 Hn nbuf ik jk (nc3 e * ncomp2 e) size Hnb E3 Ek HN (Z.le_max_r _ _)) as C.
    repeat match goal with |- _ /\ _ => split end; apply packed_safe; assumption.
  Qed.
  Theorem C29_buffers {F} (si sj sk : shl F) (om : bool) no_pd no_idx :
    s_ctr si = ci -> s_ctr sj = cj -> s_ctr sk = ck ->
    let e := init_int3c2e om ng li lj lk ci cj ck in
    let n_comp := POS_E1 ng * TENSOR ng in
    provides (drv_3c2e e base (loop_3c2e_nopt fsz e ip jp kp))
      ((5%nat, nf e * ci * cj * ck * n_comp) :: scratch3 n_comp (nf e) si sj sk) /\
    provides (drv_3c2e e base (loop_3c2e_opt fsz no_pd no_idx e ip jp kp))
      ((5%nat, nf e * ci * cj * ck * n_comp) :: scratch3_any n_comp (nf e) si sj sk) /\
    provides (drv_3c2e_spinor e base (loop_3c2e_nopt fsz e ip jp kp))
      ((5%nat, nf e * ci * cj * ck * (POS_E1 ng * POS_E2 ng * TENSOR ng)) :: scratch3 n_comp (nf e) si sj sk) /\
    provides (drv_3c2e_spinor e base (loop_3c2e_opt fsz no_pd no_idx e ip jp kp))
      ((5%nat, nf e * ci * cj * ck * (POS_E1 ng * POS_E2 ng * TENSOR ng)) :: scratch3_any n_comp (nf e) si sj sk).
  Proof.
    intros Ei Ej Ek e n_comp.
    split; [exact (loop_3c2e_nopt_provides si sj sk e fsz base ip jp kp Ei Ej Ek _)|].
    split; [exact (loop_3c2e_opt_provides si sj sk e fsz base ip jp kp Ei Ej Ek no_pd no_idx _)|].
    split; [exact (loop_3c2e_nopt_provides si sj sk e fsz base ip jp kp Ei Ej Ek _)|].
    exact (loop_3c2e_opt_provides si sj sk e fsz base ip jp kp Ei Ej Ek no_pd no_idx _).
  Qed.

  (** *** two-centre two-electron: operators with one component in the second electron
      (all operators of this class in the library; see the counterexample below) *)
  Theorem C30_int2c2e (om : bool) : POS_E2 ng = 1 ->
    let e := init_int2c2e om ng li lk ci ck in
    let size := int1e_cache_size e ip kp in
    safe base size (drv_2c2e e base (loop_2c2e_nopt fsz e ip kp)) /\
    safe base size (drv_2c2e e base (loop_2c2e fsz e ip kp)) /\
    safe base size (drv_2c2e e base (c2s_sph_1e e)) /\
    safe base size (drv_2c2e e base (c2s_spinor_1e e ik kk)).
  Proof.
    intros H2 e size. destruct (init_2c2e_sizes om ng li lk ci ck Hng Hli Hlk Hci Hck) as (S1 & Hn & En). fold e in S1, Hn, En.
    split; [apply packed_safe; now apply (loop_2c2e_nopt_fits fsz base e ip kp)|].
    split; [apply packed_safe; now apply (loop_2c2e_fits fsz base e ip kp)|].
    destruct (c2s_2c2e_fits base e ip kp Hb S1 Hn ik kk H2 En). split; now apply packed_safe.
  Qed.
  Theorem C30_buffers {F} (si sk : shl F) (om : bool) : s_ctr si = ci -> s_ctr sk = ck ->
    let e := init_int2c2e om ng li lk ci ck in
    let need := (5%nat, nf e * ci * ck * (POS_E1 ng * POS_E2 ng * TENSOR ng)) :: scratch2 (TENSOR ng) (nf e) si sk in
    provides (drv_2c2e e base (loop_2c2e_nopt fsz e ip kp)) need /\ provides (drv_2c2e e base (loop_2c2e fsz e ip kp)) need.
  Proof.
    intros Ei Ek e need. split;
      [exact (loop_2c2e_nopt_provides si sk e fsz base ip kp Ei Ek)|exact (loop_2c2e_provides si sk e fsz base ip kp Ei Ek)].
  Qed.

  (** *** three-centre one-electron, 32-bit integers (see the counterexample below) *)
  Theorem C31_int3c1e :
    let e := init_int3c1e ng li lj lk ci cj ck in
    let size := int3c1e_cache_size e ip jp kp in
    safe base size (drv_3c2e e base (loop_3c1e 4 e ip jp kp)) /\
    safe base size (drv_3c2e e base (with_buf e (loop_3c1e 4 e ip jp kp))) /\
    safe base size (drv_3c2e e base (c2s_sph_3c2e1 e)).
  Proof.
    intros e size. destruct (init_3c1e_sizes ng li lj lk ci cj ck Hng Hli Hlj Hlk Hci Hcj Hck) as (S1 & Hn & E3).
    fold e in S1, Hn, E3.
    destruct (loop_3c1e_fits 4 base e ip jp kp Hb S1 Hip Hjp Hkp Hn eq_refl) as [A B].
    assert (HN : 0 <= nc3 e * ncomp1 e).
    { pose proof (ncomp1_pos base e Hb S1). pose proof (nc3_nonneg e S1 Hn). nia. }
    destruct (c2s_sph_3c_fits base e Hb S1 Hn (nc3 e * ncomp1 e) size E3 HN (Z.le_max_r _ _)) as [C _].
    repeat match goal with |- _ /\ _ => split end; apply packed_safe; assumption.
  Qed.
  Theorem C31_buffers {F} (si sj sk : shl F) : s_ctr si = ci -> s_ctr sj = cj -> s_ctr sk = ck ->
    let e := init_int3c1e ng li lj lk ci cj ck in
    let n_comp := POS_E1 ng * TENSOR ng in
    let nc := nf e * ci * cj * ck * n_comp in
    provides (drv_3c2e e base (loop_3c1e fsz e ip jp kp)) ((5%nat, nc) :: scratch3 n_comp (nf e) si sj sk) /\
    provides (drv_3c2e e base (with_buf e (loop_3c1e fsz e ip jp kp)))
      ((5%nat, nc) :: (19%nat, nc) :: scratch3 n_comp (nf e) si sj sk).
  Proof.
    intros Ei Ej Ek e n_comp nc. split;
      [exact (loop_3c1e_provides si sj sk e fsz base ip jp kp Ei Ej Ek)|exact (loop_3c1e_nuc_provides si sj sk e fsz base ip jp kp Ei Ej Ek)].
  Qed.

  (** *** grids *)
  Theorem C33_grids (om : bool) ngrids : 0 <= ngrids ->
    let e := init_int1e_grids om ng li lj ci cj in
    let size := int1e_grids_cache_size e ngrids ip jp in
    safe base size (drv_grids e ngrids base (loop_grids fsz e ip jp)) /\
    safe base size (drv_grids e ngrids base (c2s_sph_1e_grids e)) /\
    safe base size (drv_grids e ngrids base (c2s_spinor_1e_grids e ik)).
  Proof.
    intros Hg e size. destruct (init_grids_sizes om ng li lj ci cj Hng Hli Hlj Hci Hcj) as (S1 & Hn & En). fold e in S1, Hn, En.
    split; [apply packed_safe; now apply (loop_grids_fits fsz base e ip jp)|].
    destruct (c2s_grids_fits base e ip jp Hb S1 Hn ngrids ik Hg En). split; now apply packed_safe.
  Qed.
  Theorem C33_buffers {F} (si sj : shl F) (om : bool) ngrids : s_ctr si = ci -> s_ctr sj = cj ->
    let e := init_int1e_grids om ng li lj ci cj in
    let n_comp := POS_E1 ng * TENSOR ng in
    provides (drv_grids e ngrids base (loop_grids fsz e ip jp))
      ((5%nat, ngrids * nf e * ci * cj * n_comp) :: scratch_grids n_comp (nf e) si sj).
  Proof. intros Ei Ej e n_comp. exact (loop_grids_provides si sj e fsz base ip jp Ei Ej ngrids). Qed.
End Sizes.

(** *** four-centre overlap: the full claim is false.  Four s shells of one contraction and
    14 primitives each: 69 doubles are reported; the three buffers of CINTg4c1e_ovlp, which
    it fills unconditionally, lie behind double 69. *)
Theorem C32_refuted :
  let e := init_int4c1e ng_4c1e 0 0 0 0 1 1 1 1 in
  int4c1e_cache_size e 14 14 14 14 = 69 /\
  forall base, base mod 8 = 0 -> exists b,
    In b (drv_2e e base (loop_4c1e 4 e 14 14 14 14)) /\ b_tag b = 16%nat /\ 0 < b_len b /\
    base + 8 * 69 <= b_at b /\ ~ safe base 69 (drv_2e e base (loop_4c1e 4 e 14 14 14 14)).
Proof.
  intros e. split; [reflexivity|]. intros base Hb.
  assert (E : exists b, In b (drv_2e e base (loop_4c1e 4 e 14 14 14 14)) /\ b_tag b = 16%nat /\ b_len b = 8 /\ b_at b = base + 560).
  { unfold drv_2e, after_gctr, loop_4c1e. cbn [instack].
    change (8 * (nc4 e * ncomp2 e)) with 8.
    change (4 * (nf e * 3)) with 12.
    match goal with |- context [mkblk 13 _ ?x] => change x with 448 end.
    match goal with |- context [mkblk 14 _ ?x] => change x with 48 end.
    match goal with |- context [carve _ ?l] => change l with [(true, 4%nat, 1); (true, 3%nat, 1); (true, 2%nat, 1); (true, 1%nat, 1); (true, 0%nat, 1)] end.
    match goal with |- context [mkblk 16 _ ?x] => change x with 8 end.
    change (8 * (leng e + sum_len (levels_2e (ncomp2 e) e))) with 88.
    cbn [carve app]. eexists. split; [do 4 right; left; reflexivity|]. cbn [b_tag b_len b_at]. split; [reflexivity|]. split; [reflexivity|].
    rewrite (align8_id base) by exact Hb.
    rewrite (align8_id (base + 8)) by (rewrite <- Z.add_mod_idemp_l, Hb by lia; reflexivity).
    replace (base + 8 + 12) with (base + 20) by ring. rewrite (align8_add base 20) by exact Hb. change (align 8 20) with 24.
    replace (base + 24 + 448) with (base + 472) by ring. rewrite (align8_add base 472) by exact Hb. change (align 8 472) with 472. match goal with |- _ + 472 + ?x = _ => change x with 88 end. ring. }
  destruct E as (b & Hin & Ht & El & Ea). exists b. repeat split; try assumption; try lia.
  intros [A _]. rewrite Forall_forall in A. destruct (A b Hin) as [(_ & _ & X) _]. lia.
Qed.

(** What does hold: one contraction per shell and at most 44 primitives in all (32-bit
    integers), any angular momenta. *)
Theorem C32_int4c1e_partial base li lj lk ll ip jp kp lp :
  base mod 8 = 0 -> 0 <= li -> 0 <= lj -> 0 <= lk -> 0 <= ll ->
  0 <= ip -> 0 <= jp -> 0 <= kp -> 0 <= lp -> ip + jp + kp + lp <= 44 ->
  let e := init_int4c1e ng_4c1e li lj lk ll 1 1 1 1 in
  safe base (int4c1e_cache_size e ip jp kp lp) (drv_2e e base (loop_4c1e 4 e ip jp kp lp)).
Proof. intros. apply packed_safe. now apply loop_4c1e_fits. Qed.

(** ... and the transformation to spherical functions, for every operator and contraction. *)
Theorem C32_sph base ng li lj lk ll ci cj ck cl ip jp kp lp :
  base mod 8 = 0 -> ng_ok ng -> 1 <= POS_E2 ng -> 0 <= li -> 0 <= lj -> 0 <= lk -> 0 <= ll ->
  1 <= ci -> 1 <= cj -> 1 <= ck -> 1 <= cl ->
  let e := init_int4c1e ng li lj lk ll ci cj ck cl in
  safe base (int4c1e_cache_size e ip jp kp lp) (drv_2e e base (c2s_sph_2e1 e)).
Proof.
  intros Hb Hng H2 Hi Hj Hk Hl Hci Hcj Hck Hcl e.
  destruct (init_4c_sizes 1 0 ng li lj lk ll ci cj ck cl Hng ltac:(lia) Hi Hj Hk Hl Hci Hcj Hck Hcl) as (S1 & Hn & E4 & _ & _).
  change (sizes_ok e) in S1. change (1 <= nf e) in Hn. change (nf_is4 e) in E4.
  pose proof (nfi_ge 0 e S1). pose proof (nfj_ge 0 e S1). assert (HL := so_lj e S1). assert (Hk' := so_nfk e S1). assert (Hl' := so_nfl e S1).
  assert (L : 0 <= nfi e * nfk e * nfl e * (j_l e * 2 + 1) <= nf e).
  { rewrite E4. assert (0 <= nfi e * nfk e * nfl e) by (repeat apply Z.mul_nonneg_nonneg; lia).
    split; [apply Z.mul_nonneg_nonneg; lia|]. apply Z.mul_le_mono_nonneg_l; lia. }
  assert (HN : 0 <= nc4 e * ncomp2 e).
  { pose proof (nc4_nonneg e S1 Hn). assert (1 <= ncomp2 e); [|nia].
    unfold ncomp2. change (ncomp_e2 e) with (POS_E2 ng). pose proof (so_e1 e S1). pose proof (so_t e S1). nia. }
  apply packed_safe. unfold drv_2e. apply after_shape; [exact Hb|exact HN|]. unfold c2s_sph_2e1.
  set (n := nfi e * nfk e * nfl e * (j_l e * 2 + 1)) in *.
  assert (Hs : nc4 e * ncomp2 e + nf e * 32 * 2 <= int4c1e_cache_size e ip jp kp lp) by apply Z.le_max_r.
  assert (M : (base + 8 * (nc4 e * ncomp2 e)) mod 8 = 0) by (rewrite Z.mul_comm, Z.mod_add by lia; exact Hb).
  rewrite align8_id by exact M. cbn [packed b_at b_len].
  set (c := base + 8 * (nc4 e * ncomp2 e)) in *.
  repeat split; lia.
Qed.

(** *** counterexample to C31 in a build with 64-bit integers: s shells, 10 primitives each.
    44 doubles are reported; the index tables alone take 63. *)
Theorem C31_i8_refuted :
  let e := init_int3c1e (mkng 0 0 0 0 0 1 0 1) 0 0 0 1 1 1 in
  int3c1e_cache_size e 10 10 10 = 44 /\
  exists b, In b (drv_3c2e e 0 (loop_3c1e 8 e 10 10 10)) /\ b_tag b = 13%nat /\ 0 <= b_at b /\ 8 * 44 < b_at b + b_len b.
Proof.
  intros e. split; [reflexivity|]. exists (mkblk 13 32 480). repeat split; try (cbn; lia).
  vm_compute. tauto.
Qed.

(** *** counterexample to C30 for an operator with several components in the second electron
    (none exists in the library): s shells of 8 contractions, three components.  The driver's
    batch counts them, the one-electron formula does not; the intermediates end outside. *)
Theorem C30_e2_refuted :
  let e := init_int2c2e false (mkng 0 0 0 0 0 1 3 1) 0 0 8 8 in
  exists b, In b (drv_2c2e e 0 (loop_2c2e_nopt 4 e 1 1)) /\ b_tag b = 14%nat /\
    8 * int1e_cache_size e 1 1 < b_at b + b_len b.
Proof.
  intros e. exists (mkblk 14 1536 48). repeat split; try (vm_compute; reflexivity).
  vm_compute. tauto.
Qed.

Print Assumptions C27_int1e.
Print Assumptions C27_buffers.
Print Assumptions C28_int2e.
Print Assumptions C28_buffers.
Print Assumptions C29_int3c2e.
Print Assumptions C29_int3c2e_spinor.
Print Assumptions C29_buffers.
Print Assumptions C30_int2c2e.
Print Assumptions C30_buffers.
Print Assumptions C30_e2_refuted.
Print Assumptions C31_int3c1e.
Print Assumptions C31_buffers.
Print Assumptions C31_i8_refuted.
Print Assumptions C32_refuted.
Print Assumptions C32_int4c1e_partial.
Print Assumptions C32_sph.
Print Assumptions C33_grids.
Print Assumptions C33_buffers.

(** Concrete layouts.  int1e_ipovlp-like operator (three components, one derivative) on a p
    and an s shell of two contractions; three and two primitives; buffer at address 800. *)
Definition ex_ng1 : ngT := mkng 1 0 0 0 1 1 1 3.
Example C27_ex : let e := init_int1e ex_ng1 1 0 2 1 in
  int1e_cache_size e 3 2 = 183 /\
  map (fun b => (b_tag b, b_at b, b_len b)) (drv_1e e 800 (loop_1e 4 e 3 2)) =
    [(5%nat, 800, 144); (10%nat, 944, 40); (11%nat, 984, 240); (12%nat, 1224, 36); (13%nat, 1264, 52);
     (14%nat, 1320, 216); (2%nat, 1536, 144); (0%nat, 1680, 72)] /\
  1680 + 72 <= 800 + 8 * 183.
Proof. vm_compute. repeat split; congruence. Qed.

(** (ps|ss) with contractions 2,1,1,1: the dispatcher selects the n111 loop. *)
Example C28_ex : let e := init_int2e false (mkng 0 0 0 0 0 1 1 1) 1 0 0 0 2 1 1 1 in
  int2e_cache_size e 2 1 1 1 = 74 /\
  map (fun b => (b_tag b, b_at b, b_len b)) (drv_2e e 800 (loop_2e_opt_with (levels_2e_selected e) 4 true true e 2 1 1 1)) =
    [(5%nat, 800, 48); (11%nat, 848, 120); (12%nat, 968, 36); (14%nat, 1008, 96); (0%nat, 1104, 24)].
Proof. vm_compute. auto. Qed.

(** (ps|d) with two contractions of the p shell: the loop's buffers and the transform's in the same 291 doubles. *)
Example C29_ex : let e := init_int3c2e false (mkng 0 0 0 0 0 1 1 1) 1 0 2 2 1 1 in
  int3c2e_cache_size e 2 1 1 = 291 /\
  map (fun b => (b_tag b, b_at b, b_len b)) (drv_3c2e e 800 (loop_3c2e_nopt 4 e 2 1 1)) =
    [(5%nat, 800, 288); (10%nat, 1088, 24); (11%nat, 1112, 80); (12%nat, 1192, 216); (13%nat, 1408, 40);
     (14%nat, 1448, 576); (0%nat, 2024, 144)] /\
  map (fun b => (b_tag b, b_at b, b_len b)) (drv_3c2e e 800 (c2s_sph_3c2e1 e)) =
    [(5%nat, 800, 288); (20%nat, 1088, 144); (21%nat, 1232, 144); (22%nat, 1376, 144)].
Proof. vm_compute. auto. Qed.

(** Grid integrals at a buffer address that is not a multiple of 64. *)
Example C33_ex : let e := init_int1e_grids false (mkng 0 0 0 0 0 1 0 1) 0 0 1 1 in
  int1e_grids_cache_size e 5 1 1 = 2131 /\
  map (fun b => (b_tag b, b_at b, b_len b)) (drv_grids e 5 808 (loop_grids 4 e 1 1)) =
    [(5%nat, 832, 40); (10%nat, 872, 16); (11%nat, 888, 40); (12%nat, 928, 12); (13%nat, 944, 16);
     (15%nat, 960, 2496); (14%nat, 3456, 4992); (16%nat, 10944, 832); (17%nat, 11776, 2496); (18%nat, 14272, 3328)].
Proof. vm_compute. auto. Qed.
