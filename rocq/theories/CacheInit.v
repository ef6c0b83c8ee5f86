(** CacheInit.v — the initialisers satisfy the hypotheses of CacheFinal.v; contraction
    buffers provided by the layouts; the four-centre overlap; counterexamples. *)
From Coq Require Import Lia.
From Verif Require Import Base BasModel EnvModel CtrModel LoopSpec Loop2eSpec Loop3Spec GridsSpec
  CacheModel CacheSpec CacheProof CacheFinal.
Ltac Zify.zify_post_hook ::= Z.div_mod_to_equations.

(** Operator descriptor with non-negative increments and at least one component. *)
Definition ng_ok (ng : ngT) : Prop :=
  0 <= IINC ng /\ 0 <= JINC ng /\ 0 <= KINC ng /\ 0 <= LINC ng /\ 0 <= GSHIFT ng /\
  1 <= POS_E1 ng /\ 1 <= TENSOR ng.

Lemma len_cart_pos l : 0 <= l -> 1 <= CINTlen_cart l.
Proof. intros H. pose proof (len_cart_ge l H). lia. Qed.

Lemma leng_nonneg e : 0 <= g_size e -> 0 <= leng e.
Proof.
  intros H. unfold leng. assert (0 <= Z.shiftl 1 (gbits e)) by (rewrite Z.shiftl_nonneg; lia). nia.
Qed.
Lemma sr_roots_nonneg b o : 0 <= o -> 0 <= sr_roots b o.
Proof. unfold sr_roots. destruct (_ && _); lia. Qed.
Lemma quot2_nonneg x : 0 <= x -> 0 <= Z.quot x 2.
Proof. intros. apply Z.quot_pos; lia. Qed.
Ltac prods := repeat first [apply Z.mul_nonneg_nonneg | apply Z.add_nonneg_nonneg]; try lia.

Lemma base_dims (b : bool) x y : 0 <= x -> 0 <= y -> 0 <= (if b then x + y + 1 else x + 1) /\ 0 <= (if b then y + 1 else x + y + 1).
Proof. destruct b; lia. Qed.

Lemma init_1e_sizes ng li lj ci cj : ng_ok ng -> 0 <= li -> 0 <= lj -> 1 <= ci -> 1 <= cj ->
  sizes_ok (init_int1e ng li lj ci cj) /\ 1 <= nf (init_int1e ng li lj ci cj) /\
  nf (init_int1e ng li lj ci cj) = nfi (init_int1e ng li lj ci cj) * nfj (init_int1e ng li lj ci cj).
Proof.
  intros (N1 & N2 & N3 & N4 & N5 & N6 & N7) Hi Hj Hci Hcj.
  pose proof (len_cart_pos li Hi). pose proof (len_cart_pos lj Hj).
  assert (R : 0 <= nrys_roots (init_int1e ng li lj ci cj)).
  { cbn. destruct (Z.ltb_spec 0 (POS_E2 ng)); [lia|]. pose proof (quot2_nonneg (li + IINC ng + (lj + JINC ng)) ltac:(lia)). lia. }
  destruct (base_dims (li + IINC ng >? lj + JINC ng) (li + IINC ng) (lj + JINC ng) ltac:(lia) ltac:(lia)) as [D1 D2].
  split; [|split; [cbn; nia|reflexivity]].
  constructor; try exact R; try (cbn; lia).
  apply leng_nonneg. cbn [g_size init_int1e]. cbn [nrys_roots init_int1e] in R. prods.
Qed.

Lemma init_4c_sizes nr o ng li lj lk ll ci cj ck cl : ng_ok ng -> 0 <= nr ->
  0 <= li -> 0 <= lj -> 0 <= lk -> 0 <= ll -> 1 <= ci -> 1 <= cj -> 1 <= ck -> 1 <= cl ->
  let e := init_4c nr o ng li lj lk ll ci cj ck cl in
  sizes_ok e /\ 1 <= nf e /\ nf_is4 e /\ nfk e = CINTlen_cart (k_l e) /\ nfl e = CINTlen_cart (l_l e).
Proof.
  intros (N1 & N2 & N3 & N4 & N5 & N6 & N7) Hr Hi Hj Hk Hl Hci Hcj Hck Hcl e.
  pose proof (len_cart_pos li Hi). pose proof (len_cart_pos lj Hj).
  pose proof (len_cart_pos lk Hk). pose proof (len_cart_pos ll Hl).
  destruct (base_dims (li + IINC ng >? lj + JINC ng) (li + IINC ng) (lj + JINC ng) ltac:(lia) ltac:(lia)) as [D1 D2].
  destruct (base_dims (lk + KINC ng >? ll + LINC ng) (lk + KINC ng) (ll + LINC ng) ltac:(lia) ltac:(lia)) as [D3 D4].
  split; [|split; [|split; [reflexivity|split; reflexivity]]].
  - constructor; try (cbn; lia). apply leng_nonneg. unfold e. cbn [g_size init_4c]. prods.
  - unfold e. cbn [nf init_4c]. assert (1 <= CINTlen_cart li * CINTlen_cart lk) by nia.
    assert (1 <= CINTlen_cart li * CINTlen_cart lk * CINTlen_cart ll) by nia. nia.
Qed.

Lemma init_2c2e_sizes om ng li lk ci ck : ng_ok ng -> 0 <= li -> 0 <= lk -> 1 <= ci -> 1 <= ck ->
  let e := init_int2c2e om ng li lk ci ck in sizes_ok e /\ 1 <= nf e /\ nf e = nfi e * nfj e.
Proof.
  intros (N1 & N2 & N3 & N4 & N5 & N6 & N7) Hi Hk Hci Hck e.
  pose proof (len_cart_pos li Hi). pose proof (len_cart_pos lk Hk).
  assert (R : 0 <= nrys_roots e).
  { apply sr_roots_nonneg. pose proof (quot2_nonneg (li + IINC ng + (lk + KINC ng)) ltac:(lia)). lia. }
  split; [|split; [unfold e; cbn; nia|reflexivity]].
  constructor; try exact R; try (cbn; lia). apply leng_nonneg. unfold e in *.
  cbn [g_size init_int2c2e]. cbn [nrys_roots init_int2c2e] in R. prods.
Qed.

Lemma init_3c2e_sizes om ng li lj lk ci cj ck : ng_ok ng -> 0 <= li -> 0 <= lj -> 0 <= lk -> 1 <= ci -> 1 <= cj -> 1 <= ck ->
  let e := init_int3c2e om ng li lj lk ci cj ck in
  sizes_ok e /\ 1 <= nf e /\ nf_is3 e /\ nfk e = CINTlen_cart (k_l e).
Proof.
  intros (N1 & N2 & N3 & N4 & N5 & N6 & N7) Hi Hj Hk Hci Hcj Hck e.
  pose proof (len_cart_pos li Hi). pose proof (len_cart_pos lj Hj). pose proof (len_cart_pos lk Hk).
  assert (R : 0 <= nrys_roots e).
  { apply sr_roots_nonneg. pose proof (quot2_nonneg (li + IINC ng + (lj + JINC ng) + (lk + KINC ng)) ltac:(lia)). lia. }
  destruct (base_dims (li + IINC ng >? lj + JINC ng) (li + IINC ng) (lj + JINC ng) ltac:(lia) ltac:(lia)) as [D1 D2].
  split; [|split; [|split; reflexivity]].
  - constructor; try exact R; try (cbn; lia). apply leng_nonneg. unfold e in *.
    cbn [g_size init_int3c2e]. cbn [nrys_roots init_int3c2e] in R. prods.
  - unfold e. cbn [nf init_int3c2e]. assert (1 <= CINTlen_cart li * CINTlen_cart lk) by nia. nia.
Qed.

Lemma init_3c1e_sizes ng li lj lk ci cj ck : ng_ok ng -> 0 <= li -> 0 <= lj -> 0 <= lk -> 1 <= ci -> 1 <= cj -> 1 <= ck ->
  let e := init_int3c1e ng li lj lk ci cj ck in sizes_ok e /\ 1 <= nf e /\ nf_is3 e.
Proof.
  intros (N1 & N2 & N3 & N4 & N5 & N6 & N7) Hi Hj Hk Hci Hcj Hck e.
  pose proof (len_cart_pos li Hi). pose proof (len_cart_pos lj Hj). pose proof (len_cart_pos lk Hk).
  split; [|split].
  - constructor; try (cbn; lia).
    + apply leng_nonneg. unfold e. cbn [g_size init_int3c1e]. apply Z.le_trans with ((li + IINC ng + 1) * (lj + JINC ng + (lk + KINC ng) + 1) * (lk + KINC ng + 1)); [prods|lia].
    + unfold e. cbn [nrys_roots init_int3c1e]. pose proof (quot2_nonneg (li + IINC ng + (lj + JINC ng) + (lk + KINC ng)) ltac:(lia)). lia.
  - unfold e. cbn [nf init_int3c1e]. assert (1 <= CINTlen_cart li * CINTlen_cart lj) by nia. nia.
  - unfold e, nf_is3. cbn [nf nfi nfj nfk init_int3c1e]. ring.
Qed.

Lemma init_grids_sizes om ng li lj ci cj : ng_ok ng -> 0 <= li -> 0 <= lj -> 1 <= ci -> 1 <= cj ->
  let e := init_int1e_grids om ng li lj ci cj in sizes_ok e /\ 1 <= nf e /\ nf e = nfi e * nfj e.
Proof.
  intros Hng Hi Hj Hci Hcj e. destruct (init_1e_sizes ng li lj ci cj Hng Hi Hj Hci Hcj) as (S & Hn & En).
  destruct Hng as (N1 & N2 & N3 & N4 & N5 & N6 & N7).
  assert (R : 0 <= nrys_roots e) by (apply sr_roots_nonneg, (so_r _ S)).
  destruct (base_dims (li + IINC ng >? lj + JINC ng) (li + IINC ng) (lj + JINC ng) ltac:(lia) ltac:(lia)) as [D1 D2].
  split; [|split; [exact Hn|exact En]].
  pose proof (len_cart_pos li Hi). pose proof (len_cart_pos lj Hj).
  constructor; try exact R; try (cbn; lia). apply leng_nonneg. unfold e in *.
  cbn [g_size init_int1e_grids li_ceil lj_ceil init_int1e]. cbn [nrys_roots init_int1e_grids] in R. unfold GRID_BLKSIZE. prods.
Qed.

(** ** the buffers the contraction theorems ask for are among the blocks *)
Lemma in_needs (b : bool) t' n' t n : In (t, n) (needs b t' n') -> b = true /\ t = t' /\ n = n'.
Proof. unfold needs. destruct b; cbn; [|easy]. intros [E|[]]. inversion E; auto. Qed.

Lemma provides_drv al N phase base need : provides (phase (align al base + 8 * N)) need ->
  provides (after_gctr al base N phase) ((5%nat, N) :: need).
Proof.
  intros H t n [E|Hn].
  - inversion E; subst. unfold after_gctr. cbn [instack]. eexists. split; [left; reflexivity|]. auto.
  - destruct (H t n Hn) as (b & Hb & E). exists b. split; [|exact E]. unfold after_gctr. cbn [instack]. right. exact Hb.
Qed.

Lemma provides_shape pre G ls cache need :
  (forall t n, In (t, n) need -> exists n', In (false, t, n') ls /\ n' = n) ->
  provides (loop_shape pre G ls cache) need.
Proof. intros H t n Hn. destruct (H t n Hn) as (n' & Hl & <-). now apply loop_shape_provides. Qed.

Ltac one_need H :=
  apply in_needs in H; destruct H as (Hc & -> & ->); apply Bool.negb_true_iff in Hc.

Section Provide.
  Context {F : Type} (si sj sk sl : shl F) (e : envs).
  Hypothesis (Hi : s_ctr si = i_ctr e) (Hj : s_ctr sj = j_ctr e) (Hk : s_ctr sk = k_ctr e) (Hl : s_ctr sl = l_ctr e).

  Lemma levels_2e_provide nn t n : In (t, n) (scratch_general nn (nf e) si sj sk sl) ->
    exists n', In (false, t, n') (levels_2e nn e) /\ n' = n.
  Proof.
    unfold scratch_general, levels_2e. rewrite Hi, Hj, Hk, Hl. intros H.
    repeat (apply in_app_or in H; destruct H as [H|H]); one_need H; rewrite Hc;
      eexists; (split; [cbn; tauto|ring]).
  Qed.
  Lemma levels_3c_provide nn t n : In (t, n) (scratch3 nn (nf e) si sj sk) ->
    exists n', In (false, t, n') (levels_3c nn e) /\ n' = n.
  Proof.
    unfold scratch3, levels_3c. rewrite Hi, Hj, Hk. intros H.
    repeat (apply in_app_or in H; destruct H as [H|H]); one_need H; rewrite Hc;
      eexists; (split; [cbn; tauto|ring]).
  Qed.
  Definition levels_2 (nn : Z) : list (bool * nat * Z) :=
    [(nn =? 1, 2%nat, nf e * (i_ctr e * j_ctr e) * nn); (j_ctr e =? 1, 1%nat, nf e * i_ctr e * nn);
     (i_ctr e =? 1, 0%nat, nf e * nn)].
  Lemma levels_2_provide nn t n : In (t, n) (scratch2 nn (nf e) si sj) ->
    exists n', In (false, t, n') (levels_2 nn) /\ n' = n.
  Proof.
    unfold scratch2, levels_2. rewrite Hi, Hj. intros H.
    repeat (apply in_app_or in H; destruct H as [H|H]); one_need H; rewrite Hc;
      eexists; (split; [cbn; tauto|ring]).
  Qed.
  Lemma levels_4_provide nn t n : In (t, n) (scratch4 nn (nf e) si sj sk sl) ->
    exists n', In (false, t, n') (levels_2e nn e) /\ n' = n.
  Proof.
    unfold scratch4, levels_2e. rewrite Hi, Hj, Hk, Hl. intros H.
    repeat (apply in_app_or in H; destruct H as [H|H]); one_need H; rewrite Hc;
      eexists; (split; [cbn; tauto|ring]).
  Qed.
  Lemma special_provide own nn t n (x : Z) : nf e * nn * i_ctr e * j_ctr e * k_ctr e * l_ctr e = x -> own <> 0%nat ->
    In (t, n) (scratch_special nn (nf e) si sj sk sl own) ->
    exists n', In (false, t, n') [(nn =? 1, own, x); (false, 0%nat, nf e * nn)] /\ n' = n.
  Proof.
    unfold scratch_special. rewrite Hi, Hj, Hk, Hl. intros <- Ho H.
    apply in_app_or in H. destruct H as [H|H]; one_need H; rewrite ?Hc; eexists; (split; [cbn; tauto|ring]).
  Qed.
  Lemma selected_2e_provide t n : In (t, n) (scratch_any (ncomp2 e) (nf e) si sj sk sl) ->
    exists n', In (false, t, n') (levels_2e_selected e) /\ n' = n.
  Proof.
    unfold scratch_any, levels_2e_selected. rewrite Hi, Hj, Hk, Hl.
    destruct (i_ctr e =? 1) eqn:E1, (j_ctr e =? 1) eqn:E2, (k_ctr e =? 1) eqn:E3, (l_ctr e =? 1) eqn:E4;
      cbn [Z.b2z]; match goal with |- context [match ?k with _ => _ end] => change k with (Z.shiftl 0 3 + 0) || (let v := eval vm_compute in k in change k with v) end; cbv iota;
      try (apply levels_2e_provide); rewrite ?Z.eqb_eq in *;
      try (apply special_provide; [rewrite ?E1, ?E2, ?E3, ?E4; ring|lia]).
    unfold scratch_special, levels_1111. rewrite Hi, Hj, Hk, Hl, E1, E2, E3, E4. cbn [Nat.eqb negb needs app]. intros H.
    one_need H. rewrite Hc. eexists; split; [cbn; tauto|ring].
  Qed.
End Provide.

Ltac by_shape L :=
  match goal with |- context [instack 8 ?c ?pre] => exact (provides_shape pre _ _ c _ L) end.

Section ProvideLoops.
  Context {F : Type} (si sj sk sl : shl F) (e : envs) (fsz base ip jp kp lp : Z).
  Hypothesis (Hi : s_ctr si = i_ctr e) (Hj : s_ctr sj = j_ctr e) (Hk : s_ctr sk = k_ctr e) (Hl : s_ctr sl = l_ctr e).

  Lemma provides_app_mid bs1 b bs2 bs3 need : provides bs2 need -> provides (bs1 ++ b :: bs2 ++ bs3) need.
  Proof.
    intros H t n Hn. destruct (H t n Hn) as (x & Hx & E). exists x. split; [|exact E].
    apply in_or_app. right. right. apply in_or_app. auto.
  Qed.
  Lemma provides_carve g1 ls need : (forall t n, In (t, n) need -> exists n', In (false, t, n') ls /\ n' = n) ->
    provides (carve g1 ls) need.
  Proof. intros H t n Hn. destruct (H t n Hn) as (n' & Hl' & <-). now apply carve_in. Qed.

  Lemma loop_1e_provides : provides (drv_1e e base (loop_1e fsz e ip jp))
    ((5%nat, nf e * i_ctr e * j_ctr e * ncomp1 e) :: scratch2 (ncomp1 e) (nf e) si sj).
  Proof. apply provides_drv. unfold loop_1e. by_shape (levels_2_provide si sj e Hi Hj (ncomp1 e)). Qed.
  Lemma loop_2c2e_provides : provides (drv_2c2e e base (loop_2c2e fsz e ip jp))
    ((5%nat, nf e * i_ctr e * j_ctr e * (ncomp_e1 e * ncomp_e2 e * ncomp_tensor e)) :: scratch2 (ncomp_tensor e) (nf e) si sj).
  Proof. apply provides_drv. unfold loop_2c2e. by_shape (levels_2_provide si sj e Hi Hj (ncomp_tensor e)). Qed.
  Lemma loop_2c2e_nopt_provides : provides (drv_2c2e e base (loop_2c2e_nopt fsz e ip jp))
    ((5%nat, nf e * i_ctr e * j_ctr e * (ncomp_e1 e * ncomp_e2 e * ncomp_tensor e)) :: scratch2 (ncomp_tensor e) (nf e) si sj).
  Proof.
    apply provides_drv. unfold loop_2c2e_nopt.
    apply (provides_app_mid []). apply provides_carve. exact (levels_2_provide si sj e Hi Hj (ncomp_tensor e)).
  Qed.
  Lemma loop_2e_nopt_provides : provides (drv_2e e base (loop_2e_nopt fsz e ip jp kp lp))
    ((5%nat, nc4 e * ncomp2 e) :: scratch_general (ncomp2 e) (nf e) si sj sk sl).
  Proof. apply provides_drv. unfold loop_2e_nopt. by_shape (levels_2e_provide si sj sk sl e Hi Hj Hk Hl (ncomp2 e)). Qed.
  Lemma loop_2e_opt_provides no_pd no_idx :
    provides (drv_2e e base (loop_2e_opt_with (levels_2e_selected e) fsz no_pd no_idx e ip jp kp lp))
    ((5%nat, nc4 e * ncomp2 e) :: scratch_any (ncomp2 e) (nf e) si sj sk sl).
  Proof. apply provides_drv. unfold loop_2e_opt_with. by_shape (selected_2e_provide si sj sk sl e Hi Hj Hk Hl). Qed.

  Lemma special3_provide own nn t n (x : Z) : nf e * nn * i_ctr e * j_ctr e * k_ctr e = x -> own <> 0%nat ->
    In (t, n) (scratch3_special nn (nf e) si sj sk own) ->
    exists n', In (false, t, n') [(nn =? 1, own, x); (false, 0%nat, nf e * nn)] /\ n' = n.
  Proof.
    unfold scratch3_special. rewrite Hi, Hj, Hk. intros <- Ho H.
    apply in_app_or in H. destruct H as [H|H]; one_need H; rewrite ?Hc; eexists; (split; [cbn; tauto|ring]).
  Qed.
  Lemma selected_3c_provide t n : In (t, n) (scratch3_any (ncomp1 e) (nf e) si sj sk) ->
    exists n', In (false, t, n') (levels_3c2e_selected e) /\ n' = n.
  Proof.
    unfold scratch3_any, levels_3c2e_selected. rewrite Hi, Hj, Hk.
    destruct (i_ctr e =? 1) eqn:E1, (j_ctr e =? 1) eqn:E2, (k_ctr e =? 1) eqn:E3;
      cbn [Z.b2z]; match goal with |- context [match ?k with _ => _ end] => let v := eval vm_compute in k in change k with v end; cbv iota;
      try (apply (levels_3c_provide si sj sk e Hi Hj Hk)); rewrite ?Z.eqb_eq in *;
      try (apply special3_provide; [rewrite ?E1, ?E2, ?E3; ring|lia]).
    unfold scratch3_special, levels_1111. rewrite Hi, Hj, Hk, E1, E2, E3. cbn [Nat.eqb negb needs app]. intros H.
    one_need H. rewrite Hc. eexists; split; [cbn; tauto|ring].
  Qed.
  Lemma loop_3c2e_nopt_provides N : provides (after_gctr 8 base N (loop_3c2e_nopt fsz e ip jp kp))
    ((5%nat, N) :: scratch3 (ncomp1 e) (nf e) si sj sk).
  Proof. apply provides_drv. unfold loop_3c2e_nopt. by_shape (levels_3c_provide si sj sk e Hi Hj Hk (ncomp1 e)). Qed.
  Lemma loop_3c2e_opt_provides no_pd no_idx N : provides (after_gctr 8 base N (loop_3c2e_opt fsz no_pd no_idx e ip jp kp))
    ((5%nat, N) :: scratch3_any (ncomp1 e) (nf e) si sj sk).
  Proof. apply provides_drv. unfold loop_3c2e_opt. by_shape selected_3c_provide. Qed.
  Lemma loop_3c1e_provides : provides (drv_3c2e e base (loop_3c1e fsz e ip jp kp))
    ((5%nat, nc3 e * ncomp1 e) :: scratch3 (ncomp1 e) (nf e) si sj sk).
  Proof. apply provides_drv. unfold loop_3c1e. by_shape (levels_3c_provide si sj sk e Hi Hj Hk (ncomp1 e)). Qed.
  Lemma loop_3c1e_nuc_provides : provides (drv_3c2e e base (with_buf e (loop_3c1e fsz e ip jp kp)))
    ((5%nat, nc3 e * ncomp1 e) :: (19%nat, nc3 e * ncomp1 e) :: scratch3 (ncomp1 e) (nf e) si sj sk).
  Proof.
    apply provides_drv. unfold with_buf. cbn [instack]. intros t n [E|Hn].
    - inversion E; subst. eexists. split; [left; reflexivity|]. auto.
    - match goal with |- context [loop_3c1e _ _ _ _ _ ?c] =>
        destruct (provides_shape (pre_3c1e fsz e ip jp kp) (leng e) _ c _ (levels_3c_provide si sj sk e Hi Hj Hk (ncomp1 e)) t n Hn) as (b & Hb & E) end.
      exists b. split; [|exact E]. right. exact Hb.
  Qed.
  Lemma loop_4c1e_provides : provides (drv_2e e base (loop_4c1e fsz e ip jp kp lp))
    ((5%nat, nc4 e * ncomp2 e) :: scratch4 (ncomp2 e) (nf e) si sj sk sl).
  Proof.
    apply provides_drv. unfold loop_4c1e. cbn [instack]. apply provides_app_mid. apply provides_carve.
    exact (levels_4_provide si sj sk sl e Hi Hj Hk Hl (ncomp2 e)).
  Qed.
  Lemma loop_grids_provides ngrids : provides (drv_grids e ngrids base (loop_grids fsz e ip jp))
    ((5%nat, ngrids * nf e * i_ctr e * j_ctr e * ncomp1 e) :: scratch_grids (ncomp1 e) (nf e) si sj).
  Proof.
    apply provides_drv. unfold loop_grids. cbn [instack app].
    intros t n Hn.
    match goal with |- context [carve ?g ?ls] => assert (P : provides (carve g ls) (scratch_grids (ncomp1 e) (nf e) si sj)) end.
    { apply provides_carve. intros t' n'. unfold scratch_grids. rewrite Hi, Hj. change GRID_BLKSIZE with 104. intros H.
      repeat (apply in_app_or in H; destruct H as [H|H]); one_need H; rewrite Hc;
        eexists; (split; [cbn [In]; tauto|ring]). }
    destruct (P t n Hn) as (b & Hb & E). exists b. split; [|exact E].
    do 6 right. apply in_or_app. left. exact Hb.
  Qed.
End ProvideLoops.

(** ** the four-centre overlap *)
Lemma len_cart2 l : 0 <= l -> 2 * CINTlen_cart l = (l + 1) * (l + 2).
Proof. intros. unfold CINTlen_cart. rewrite Z.quot_div_nonneg by nia.
  assert (E : ((l + 1) * (l + 2)) mod 2 = 0).
  { rewrite Z.mul_mod by lia. destruct (Z.eq_dec (l mod 2) 0) as [H0|H0].
    - rewrite (Z.add_mod l 2), H0 by lia. change ((0 + 2 mod 2) mod 2) with 0. rewrite Z.mul_0_r. reflexivity.
    - assert (H1 : (l + 1) mod 2 = 0) by lia. rewrite H1. reflexivity. }
  lia.
Qed.
Lemma pair_bounds a b : 0 <= a -> 0 <= b ->
  (a + b + 1) * (Z.min a b + 1) <= CINTlen_cart a * CINTlen_cart b /\
  (a + b + 1) * (a + b + 2) <= 2 * (CINTlen_cart a * CINTlen_cart b).
Proof.
  intros Ha Hb. pose proof (len_cart2 a Ha) as A. pose proof (len_cart2 b Hb) as B.
  set (x := CINTlen_cart a) in *. set (y := CINTlen_cart b) in *.
  assert (E : 4 * (x * y) = (a + 1) * (a + 2) * ((b + 1) * (b + 2))) by (replace (4 * (x * y)) with (2 * x * (2 * y)) by ring; rewrite A, B; ring).
  clearbody x y. clear A B. split.
  - enough (4 * ((a + b + 1) * (Z.min a b + 1)) <= (a + 1) * (a + 2) * ((b + 1) * (b + 2))) by lia.
    assert (G : forall u v, 0 <= v <= u -> 4 * (u + v + 1) <= (u + 1) * (u + 2) * (v + 2)).
    { intros u v H. destruct (Z.eq_dec u 0) as [->|]; [lia|]. destruct (Z.eq_dec u 1) as [->|]; [lia|].
      assert (12 * (v + 2) <= (u + 1) * (u + 2) * (v + 2)) by (apply Z.mul_le_mono_nonneg_r; nia).
      assert ((u + 1) * (u + 2) * 2 <= (u + 1) * (u + 2) * (v + 2)) by (apply Z.mul_le_mono_nonneg_l; nia).
      assert (8 * u <= (u+1) * (u+2) * 2) by nia. nia. }
    destruct (Z.le_ge_cases b a) as [H|H].
    + rewrite Z.min_r by lia. specialize (G a b ltac:(lia)). nia.
    + rewrite Z.min_l by lia. specialize (G b a ltac:(lia)). nia.
  - enough (2 * ((a + b + 1) * (a + b + 2)) <= (a + 1) * (a + 2) * ((b + 1) * (b + 2))) by lia.
    replace ((a + 1) * (a + 2) * ((b + 1) * (b + 2))) with ((a + 1) * (b + 1) * ((a + 2) * (b + 2))) by ring.
    replace (2 * ((a + b + 1) * (a + b + 2))) with ((a + b + 1) * (2 * (a + b + 2))) by ring.
    apply Z.mul_le_mono_nonneg; nia.
Qed.
Lemma b_size_bound n m N M : 0 <= n -> 0 <= m -> (n + 1) * (n + 2) <= 2 * N -> (m + 1) * (m + 2) <= 2 * M ->
  (n + m + 1) * (Z.max n m + 1) <= 2 * (N * M).
Proof.
  intros Hn Hm HN HM.
  assert (E : (n + 1) * (n + 2) * ((m + 1) * (m + 2)) <= 2 * N * (2 * M)) by (apply Z.mul_le_mono_nonneg; nia).
  enough (2 * ((n + m + 1) * (Z.max n m + 1)) <= (n + 1) * (n + 2) * ((m + 1) * (m + 2))) by lia.
  clear HN HM E.
  assert (G : forall u v, 0 <= v <= u -> 2 * ((u + v + 1) * (u + 1)) <= (u + 1) * (u + 2) * ((v + 1) * (v + 2))).
  { intros u v H. assert (2 * (u + v + 1) <= (u + 2) * ((v + 1) * (v + 2))).
    { assert (2 + 3 * v <= (v + 1) * (v + 2)) by nia. nia. }
    nia. }
  destruct (Z.le_ge_cases m n) as [H|H].
  - rewrite Z.max_l by lia. apply G; lia.
  - rewrite Z.max_r by lia. specialize (G m n ltac:(lia)). nia.
Qed.

Lemma align8_quad n : align 8 (4 * n) <= 4 * n + 4.
Proof. rewrite align8_div. lia. Qed.
Lemma tail_4c1e g G n bsz b :
  g mod 8 = 0 -> 0 <= G -> 0 <= n -> 0 <= bsz -> g + 8 * (G + 5 * n) + 8 * bsz * 3 <= b ->
  forall bufx, bufx = g + 8 * (G + (n + (n + (n + (n + (n + 0)))))) ->
  packed g [mkblk 14 g (8 * G); mkblk 16 bufx (8 * bsz); mkblk 17 (bufx + 8 * bsz) (8 * bsz);
            mkblk 18 (bufx + 8 * bsz * 2) (8 * bsz)] b.
Proof.
  intros Hg HG Hn Hbs Hb bufx E. assert (E' : bufx = g + 8 * (G + 5 * n)) by lia. clear E.
  assert (M : bufx mod 8 = 0) by lia. cbn [packed b_at b_len].
  assert (M1 : (bufx + 8 * bsz) mod 8 = 0) by (clear - M; lia).
  assert (M2 : (bufx + 8 * bsz * 2) mod 8 = 0) by (clear - M; lia).
  assert (g <= bufx) by lia. repeat split; try assumption; try lia.
Qed.

(** int4c1e, autocode/intor4.c: the only operator of this class *)
Definition ng_4c1e : ngT := mkng 0 0 0 0 0 1 1 1.

Lemma loop_4c1e_fits base li lj lk ll ip jp kp lp :
  base mod 8 = 0 -> 0 <= li -> 0 <= lj -> 0 <= lk -> 0 <= ll ->
  0 <= ip -> 0 <= jp -> 0 <= kp -> 0 <= lp -> ip + jp + kp + lp <= 44 ->
  let e := init_int4c1e ng_4c1e li lj lk ll 1 1 1 1 in
  packed base (drv_2e e base (loop_4c1e 4 e ip jp kp lp)) (base + 8 * int4c1e_cache_size e ip jp kp lp).
Proof.
  intros Hb Hi Hj Hk Hl Hip Hjp Hkp Hlp Hs e.
  destruct (pair_bounds li lj Hi Hj) as [A1 A2]. destruct (pair_bounds lk ll Hk Hl) as [B1 B2].
  destruct (init_4c_sizes 1 0 ng_4c1e li lj lk ll 1 1 1 1) as (S1 & Hnf & _); try lia.
  { repeat split; cbn; lia. }
  assert (Ee : e = init_4c 1 0 ng_4c1e li lj lk ll 1 1 1 1) by reflexivity. rewrite <- Ee in S1, Hnf.
  assert (En : nf e = CINTlen_cart li * CINTlen_cart lj * (CINTlen_cart lk * CINTlen_cart ll))
    by (unfold e; cbn [nf init_int4c1e init_4c]; ring).
  assert (Eb : (li_ceil e + lj_ceil e + (lk_ceil e + ll_ceil e) + 1) * (Z.max (li_ceil e + lj_ceil e) (lk_ceil e + ll_ceil e) + 1) <= 2 * nf e).
  { rewrite En. unfold e; cbn [li_ceil lj_ceil lk_ceil ll_ceil init_int4c1e init_4c ng_4c1e IINC JINC KINC LINC].
    rewrite !Z.add_0_r. apply b_size_bound; lia. }
  assert (Eg : 0 <= g_size e <= nf e).
  { rewrite En. unfold e; cbn [g_size init_int4c1e init_4c ng_4c1e IINC JINC KINC LINC]. rewrite !Z.add_0_r.
    assert (Da : (if li >? lj then li + lj + 1 else li + 1) * (if li >? lj then lj + 1 else li + lj + 1) = (li + lj + 1) * (Z.min li lj + 1)).
    { destruct (Z.gtb_spec li lj); [rewrite Z.min_r by lia|rewrite Z.min_l by lia]; ring. }
    assert (Db : (if lk >? ll then lk + ll + 1 else lk + 1) * (if lk >? ll then ll + 1 else lk + ll + 1) = (lk + ll + 1) * (Z.min lk ll + 1)).
    { destruct (Z.gtb_spec lk ll); [rewrite Z.min_r by lia|rewrite Z.min_l by lia]; ring. }
    set (x1 := if li >? lj then li + lj + 1 else li + 1) in *. set (x2 := if li >? lj then lj + 1 else li + lj + 1) in *.
    set (y1 := if lk >? ll then lk + ll + 1 else lk + 1) in *. set (y2 := if lk >? ll then ll + 1 else lk + ll + 1) in *.
    replace (1 * x1 * y1 * y2 * x2) with ((x1 * x2) * (y1 * y2)) by ring. rewrite Da, Db. apply mul2; nia. }
  assert (Elg : leng e = 6 * g_size e).
  { unfold leng. change (gbits e) with 0. change (Z.shiftl 1 0 + 1) with 2. ring. }
  assert (Ec : nc4 e * ncomp2 e = nf e).
  { unfold nc4, ncomp2. change (i_ctr e) with 1. change (j_ctr e) with 1. change (k_ctr e) with 1. change (l_ctr e) with 1.
    change (ncomp_e1 e) with 1. change (ncomp_e2 e) with 1. change (ncomp_tensor e) with 1. ring. }
  assert (Esz : nf e * 65 <= int4c1e_cache_size e ip jp kp lp).
  { unfold int4c1e_cache_size. rewrite Ec. lia. }
  set (sz := int4c1e_cache_size e ip jp kp lp) in *. clearbody sz.
  unfold drv_2e. rewrite Ec. apply after_shape; [exact Hb|lia|].
  unfold loop_4c1e. 
  change (i_ctr e) with 1. change (j_ctr e) with 1. change (k_ctr e) with 1. change (l_ctr e) with 1.
  assert (El : levels_2e (ncomp2 e) e = [(true, 4%nat, nf e); (true, 3%nat, nf e); (true, 2%nat, nf e); (true, 1%nat, nf e); (true, 0%nat, nf e)]).
  { unfold levels_2e. change (i_ctr e) with 1. change (j_ctr e) with 1. change (k_ctr e) with 1. change (l_ctr e) with 1.
    change (ncomp2 e) with 1. rewrite ?Z.mul_1_r. reflexivity. }
  rewrite El. cbn [carve sum_len fold_right snd app].
  set (bsz := (li_ceil e + lj_ceil e + (lk_ceil e + ll_ceil e) + 1) * (Z.max (li_ceil e + lj_ceil e) (lk_ceil e + ll_ceil e) + 1)) in *.
  assert (Hbs : 0 <= bsz).
  { unfold bsz, e; cbn [li_ceil lj_ceil lk_ceil ll_ceil init_int4c1e init_4c ng_4c1e IINC JINC KINC LINC]. nia. }
  set (c0 := base + 8 * nf e). assert (Hc0 : c0 mod 8 = 0) by (unfold c0; lia).
  destruct (instack8 [(12%nat, 4 * (nf e * 3)); (13%nat, 4 * (ip + jp + kp + lp + ip * 1 + jp * 1 + kp * 1 + lp * 1))] c0 Hc0) as (P & Q & R).
  { repeat (apply Forall_cons; [cbn [snd]; lia|]); apply Forall_nil. }
  rewrite sum2 in Q, R.
  pose proof (align8_quad (nf e * 3)). pose proof (align8_quad (ip + jp + kp + lp + ip * 1 + jp * 1 + kp * 1 + lp * 1)).
  match type of P with packed _ (fst ?x) _ => destruct x as [bs c] eqn:E end. cbn [fst snd] in *.
  eapply packed_app; [eapply packed_w; [exact P|apply Z.le_refl|exact R]|].
  rewrite Q. set (g := c0 + (align 8 (4 * (nf e * 3)) + align 8 (4 * (ip + jp + kp + lp + ip * 1 + jp * 1 + kp * 1 + lp * 1)))) in *.
  assert (Hg : g mod 8 = 0) by (rewrite <- Q; apply align_up; left; lia).
  assert (Hgb : g <= base + 8 * nf e + 12 * nf e + 8 * 44 + 8) .
  { unfold g, c0. clear - H H0 Hs. lia. }
  clearbody g bsz. rewrite Elg. apply tail_4c1e with (nf e); try reflexivity; clear - Hg Hgb Eb Eg Hbs Esz Hnf; lia.
Qed.

Lemma nc3_nonneg e : sizes_ok e -> 1 <= nf e -> 0 <= nc3 e.
Proof.
  intros [] H. unfold nc3. apply Z.mul_nonneg_nonneg; [|lia]. apply Z.mul_nonneg_nonneg; [|lia]. apply Z.mul_nonneg_nonneg; lia.
Qed.
Lemma nc4_nonneg e : sizes_ok e -> 1 <= nf e -> 0 <= nc4 e.
Proof. intros H Hn. pose proof (nc3_nonneg e H Hn). destruct H. unfold nc4. unfold nc3 in *. nia. Qed.
