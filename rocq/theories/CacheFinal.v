(** CacheFinal.v — the reported size of every integral class against its layout. *)
From Coq Require Import Lia.
From Verif Require Import Base BasModel EnvModel CacheModel CacheSpec CacheProof.
Ltac Zify.zify_post_hook ::= Z.div_mod_to_equations.

(** ** what the initialisers guarantee *)
Record sizes_ok (e : envs) : Prop := {
  so_li : 0 <= i_l e; so_lj : 0 <= j_l e; so_lk : 0 <= k_l e; so_ll : 0 <= l_l e;
  so_nfi : nfi e = CINTlen_cart (i_l e); so_nfj : nfj e = CINTlen_cart (j_l e);
  so_nfk : 1 <= nfk e; so_nfl : 1 <= nfl e;
  so_ci : 1 <= i_ctr e; so_cj : 1 <= j_ctr e; so_ck : 1 <= k_ctr e; so_cl : 1 <= l_ctr e;
  so_e1 : 1 <= ncomp_e1 e; so_t : 1 <= ncomp_tensor e; so_g : 0 <= leng e; so_r : 0 <= nrys_roots e }.

Lemma len_cart_ge l : 0 <= l -> 2 * l + 1 <= CINTlen_cart l.
Proof.
  intros H. unfold CINTlen_cart. rewrite Z.quot_div_nonneg by nia.
  apply Z.div_le_lower_bound; nia.
Qed.
Lemma len_spinor_le kp l : 0 <= l -> 0 <= len_spinor kp l <= 2 * CINTlen_cart l.
Proof.
  intros H. pose proof (len_cart_ge l H). unfold len_spinor.
  destruct (0 =? kp); [lia|]. destruct (kp <? 0); lia.
Qed.

Lemma sum2 t1 n1 t2 n2 : sum_al [(t1, n1); (t2, n2)] = align 8 n1 + align 8 n2.
Proof. cbn. lia. Qed.
Lemma sum4 t1 n1 t2 n2 t3 n3 t4 n4 : sum_al [(t1, n1); (t2, n2); (t3, n3); (t4, n4)] = align 8 n1 + align 8 n2 + align 8 n3 + align 8 n4.
Proof. cbn. lia. Qed.

Lemma align8_40 n : align 8 (40 * n) = 40 * n.
Proof. replace (40 * n) with (8 * (5 * n)) by lia. apply align8_8. Qed.
Lemma align8_16 n : align 8 (16 * n) = 16 * n.
Proof. replace (16 * n) with (8 * (2 * n)) by lia. apply align8_8. Qed.

Lemma mul2 a b A B : 0 <= a <= A -> 0 <= b <= B -> 0 <= a * b <= A * B.
Proof. nia. Qed.

Ltac nn := repeat (apply Forall_cons; [cbn [snd]; nia|]); apply Forall_nil.

Section Classes.
  Variables (fsz base : Z) (e : envs) (ip jp kp lp : Z).
  Hypothesis Hf : fsz = 4 \/ fsz = 8.
  Hypothesis Hb : base mod 8 = 0.
  Hypothesis He : sizes_ok e.
  Hypothesis (Hip : 0 <= ip) (Hjp : 0 <= jp) (Hkp : 0 <= kp) (Hlp : 0 <= lp).

  Lemma nfi_ge : 1 <= nfi e /\ 2 * i_l e + 1 <= nfi e.
  Proof. destruct He. rewrite so_nfi0. pose proof (len_cart_ge _ so_li0). lia. Qed.
  Lemma nfj_ge : 1 <= nfj e /\ 2 * j_l e + 1 <= nfj e.
  Proof. destruct He. rewrite so_nfj0. pose proof (len_cart_ge _ so_lj0). lia. Qed.
  Lemma di_le ik : 0 <= len_spinor ik (i_l e) <= 2 * nfi e.
  Proof. destruct He. rewrite so_nfi0. now apply len_spinor_le. Qed.
  Lemma dj_le jk : 0 <= len_spinor jk (j_l e) <= 2 * nfj e.
  Proof. destruct He. rewrite so_nfj0. now apply len_spinor_le. Qed.

  (** *** one-electron *)
  Hypothesis Hnf : 1 <= nf e.

  Lemma levels2_ok nn : 1 <= nn ->
    let ls := [(nn =? 1, 2%nat, nf e * (i_ctr e * j_ctr e) * nn); (j_ctr e =? 1, 1%nat, nf e * i_ctr e * nn);
     (i_ctr e =? 1, 0%nat, nf e * nn)] in
    nonneg3 ls /\ owned ls <= sum_len ls /\
    owned ls <= 2 * (nf e * i_ctr e * j_ctr e * nn) + nf e * nn.
  Proof.
    intros Hn ls. destruct He.
    set (x0 := nf e * nn). assert (0 <= x0) by (unfold x0; nia).
    set (x1 := x0 * i_ctr e). assert (H1 : 0 <= x0 <= x1) by (apply step_nonneg; lia).
    set (x2 := x1 * j_ctr e). assert (H2 : 0 <= x1 <= x2) by (apply step_nonneg; lia).
    assert (E2 : nf e * (i_ctr e * j_ctr e) * nn = x2) by (unfold x2, x1, x0; ring).
    assert (E1 : nf e * i_ctr e * nn = x1) by (unfold x1, x0; ring).
    assert (E3 : nf e * i_ctr e * j_ctr e * nn = x2) by (unfold x2, x1, x0; ring).
    unfold ls. rewrite E1, E2, E3. fold x0. clear E1 E2 E3.
    pose proof (own_step x1 (j_ctr e) ltac:(lia) ltac:(lia)) as O1. fold x2 in O1.
    pose proof (own_le (nn =? 1) x2 ltac:(lia)). pose proof (own_le (i_ctr e =? 1) x0 ltac:(lia)).
    pose proof (own_le (j_ctr e =? 1) x1 ltac:(lia)).
    clearbody x2 x1 x0. split; [nn|]. unfold owned, sum_len. cbn [fold_right fst snd]. lia.
  Qed.

  Lemma ncomp1_pos : 1 <= ncomp1 e.
  Proof. destruct He. unfold ncomp1. nia. Qed.

  Definition pre_1e : list (nat * Z) :=
    [(10%nat, 8 * (ip + jp)); (11%nat, 40 * (ip * jp)); (12%nat, fsz * (nf e * 3));
     (13%nat, fsz * (ip + jp + ip * i_ctr e + jp * j_ctr e))].
  Lemma pre_1e_ok : nonneg pre_1e /\
    sum_al pre_1e <= 8 * (ip * jp * 5 + ip * i_ctr e + jp * j_ctr e + (ip + jp) * 2 + nf e * 3).
  Proof.
    destruct He. unfold pre_1e. split; [nn|]. rewrite sum4, align8_8, align8_40.
    pose proof (align8_fint fsz (nf e * 3) Hf ltac:(lia)).
    pose proof (align8_fint fsz (ip + jp + ip * i_ctr e + jp * j_ctr e) Hf ltac:(nia)). lia.
  Qed.

  Lemma loop_1e_fits : packed base (drv_1e e base (loop_1e fsz e ip jp)) (base + 8 * int1e_cache_size e ip jp).
  Proof.
    pose proof ncomp1_pos as Hn. destruct (levels2_ok (ncomp1 e) Hn) as (L1 & L2 & L3).
    destruct pre_1e_ok as [P1 P2].
    assert (Hg := so_g e He).
    assert (Hc : 0 <= nf e * i_ctr e * j_ctr e * ncomp1 e).
    { destruct He. apply Z.mul_nonneg_nonneg; [apply Z.mul_nonneg_nonneg; [nia|lia]|lia]. }
    unfold drv_1e. apply after_shape; [exact Hb|exact Hc|].
    apply (loop_shape_packed pre_1e (leng e)); [lia|exact P1|lia|exact L1|].
    eapply Z.le_trans; [|apply Z.add_le_mono_l, Z.mul_le_mono_nonneg_l, Z.le_max_l; lia].
    assert (nf e * i_ctr e * j_ctr e * ncomp1 e <= nf e * (nf e * i_ctr e * j_ctr e) * ncomp1 e).
    { replace (nf e * (nf e * i_ctr e * j_ctr e) * ncomp1 e) with (nf e * (nf e * i_ctr e * j_ctr e * ncomp1 e)) by ring. nia. }
    assert (nf e * (i_ctr e * j_ctr e) * ncomp1 e = nf e * i_ctr e * j_ctr e * ncomp1 e) by ring.
    unfold sum_len in L2. cbn [fold_right snd] in L2. lia.
  Qed.

  Lemma c2s_sph_1e_fits : nf e = nfi e * nfj e ->
    packed base (drv_1e e base (c2s_sph_1e e)) (base + 8 * int1e_cache_size e ip jp).
  Proof.
    intros En. pose proof ncomp1_pos as Hn. pose proof nfi_ge. pose proof nfj_ge.
    assert (Hc : 0 <= nf e * i_ctr e * j_ctr e * ncomp1 e).
    { destruct He. apply Z.mul_nonneg_nonneg; [apply Z.mul_nonneg_nonneg; [nia|lia]|lia]. }
    unfold drv_1e. apply after_shape; [exact Hb|exact Hc|]. unfold c2s_sph_1e.
    assert (HL := so_lj e He).
    apply instack_shape; [lia|nn|].
    eapply Z.le_trans; [|apply Z.add_le_mono_l, Z.mul_le_mono_nonneg_l, Z.le_max_r; lia].
    rewrite sum2, align8_8. assert (nfi e * (j_l e * 2 + 1) <= nf e) by nia. lia.
  Qed.

  Lemma spinor_len_1e ik jk : nf e = nfi e * nfj e ->
    0 <= len_spinor ik (i_l e) * (nfj e + nfj e) <= 4 * nf e /\
    0 <= len_spinor ik (i_l e) * len_spinor jk (j_l e) <= 4 * nf e.
  Proof.
    intros En. pose proof (di_le ik). pose proof (dj_le jk). pose proof nfi_ge. pose proof nfj_ge. rewrite En. nia.
  Qed.

  Lemma c2s_spinor_1e_fits ik jk : nf e = nfi e * nfj e ->
    packed base (drv_1e_spinor e base (c2s_spinor_1e e ik jk)) (base + 8 * int1e_cache_size e ip jp).
  Proof.
    intros En. pose proof ncomp1_pos as Hn. destruct (spinor_len_1e ik jk En).
    assert (Hc : 0 <= nf e * i_ctr e * j_ctr e * ncomp1 e).
    { destruct He. apply Z.mul_nonneg_nonneg; [apply Z.mul_nonneg_nonneg; [nia|lia]|lia]. }
    assert (Ec : nf e * i_ctr e * j_ctr e * ncomp_e1 e * ncomp_tensor e = nf e * i_ctr e * j_ctr e * ncomp1 e) by (unfold ncomp1; ring).
    unfold drv_1e_spinor. rewrite Ec. apply after_shape; [exact Hb|exact Hc|]. unfold c2s_spinor_1e.
    apply instack_shape; [lia|repeat (apply Forall_cons; [cbn [snd]; lia|]); apply Forall_nil|].
    eapply Z.le_trans; [|apply Z.add_le_mono_l, Z.mul_le_mono_nonneg_l, Z.le_max_r; lia].
    rewrite sum4, !align8_8. lia.
  Qed.

  Lemma loop_1e_spinor_fits : packed base (drv_1e_spinor e base (loop_1e fsz e ip jp)) (base + 8 * int1e_cache_size e ip jp).
  Proof.
    assert (Ec : nf e * i_ctr e * j_ctr e * ncomp_e1 e * ncomp_tensor e = nf e * i_ctr e * j_ctr e * ncomp1 e) by (unfold ncomp1; ring).
    pose proof loop_1e_fits as H. unfold drv_1e_spinor. rewrite Ec. exact H.
  Qed.

  (** *** two-centre *)
  Lemma levels_2c2e_ok : nonneg3 (levels_2c2e e) /\ owned (levels_2c2e e) <= sum_len (levels_2c2e e) /\
    sum_len (levels_2c2e e) <= nf e * (nf e * i_ctr e * j_ctr e) * ncomp1 e + nf e * i_ctr e * ncomp1 e + nf e * ncomp1 e.
  Proof.
    assert (Ht := so_t e He). assert (H1 := so_e1 e He). assert (Hci := so_ci e He). assert (Hcj := so_cj e He).
    destruct (levels2_ok (ncomp_tensor e) Ht) as (L1 & L2 & L3).
    split; [exact L1|]. split; [exact L2|]. unfold levels_2c2e, sum_len. cbn [fold_right snd]. unfold ncomp1.
    set (t := ncomp_tensor e) in *. set (c := ncomp_e1 e) in *.
    assert (nf e * t <= nf e * (c * t)) by nia.
    assert (nf e * i_ctr e * t <= nf e * i_ctr e * (c * t)) by nia.
    assert (nf e * i_ctr e * j_ctr e * t <= nf e * (nf e * i_ctr e * j_ctr e) * (c * t)).
    { assert (0 <= nf e * i_ctr e * j_ctr e * t) by (apply Z.mul_nonneg_nonneg; nia).
      replace (nf e * (nf e * i_ctr e * j_ctr e) * (c * t)) with (nf e * c * (nf e * i_ctr e * j_ctr e * t)) by ring.
      assert (1 <= nf e * c) by nia. nia. }
    replace (nf e * (i_ctr e * j_ctr e) * t) with (nf e * i_ctr e * j_ctr e * t) by ring. lia.
  Qed.

  Definition post_2c2e : list (nat * Z) :=
    [(12%nat, fsz * (nf e * 3)); (13%nat, fsz * (ip + jp + ip * i_ctr e + jp * j_ctr e))].
  Lemma post_2c2e_ok : nonneg post_2c2e /\
    sum_al post_2c2e <= 8 * (ip * jp * 5 + ip * i_ctr e + jp * j_ctr e + (ip + jp) * 2 + nf e * 3).
  Proof.
    destruct He. unfold post_2c2e. split; [nn|]. rewrite sum2.
    pose proof (align8_fint fsz (nf e * 3) Hf ltac:(lia)).
    pose proof (align8_fint fsz (ip + jp + ip * i_ctr e + jp * j_ctr e) Hf ltac:(nia)). nia.
  Qed.

  Lemma nc1_nonneg : 0 <= nf e * i_ctr e * j_ctr e * ncomp1 e.
  Proof. pose proof ncomp1_pos. destruct He. apply Z.mul_nonneg_nonneg; [apply Z.mul_nonneg_nonneg; [nia|lia]|lia]. Qed.

  Lemma loop_2c2e_nopt_fits : ncomp_e2 e = 1 ->
    packed base (drv_2c2e e base (loop_2c2e_nopt fsz e ip jp)) (base + 8 * int1e_cache_size e ip jp).
  Proof.
    intros E2. pose proof nc1_nonneg as Hc. destruct levels_2c2e_ok as (L1 & L2 & L3). destruct post_2c2e_ok as [P1 P2].
    assert (Hg := so_g e He).
    assert (Ec : nf e * i_ctr e * j_ctr e * (ncomp_e1 e * ncomp_e2 e * ncomp_tensor e) = nf e * i_ctr e * j_ctr e * ncomp1 e)
      by (rewrite E2; unfold ncomp1; ring).
    unfold drv_2c2e. rewrite Ec. apply after_shape; [exact Hb|exact Hc|]. unfold loop_2c2e_nopt.
    set (c0 := base + 8 * (nf e * i_ctr e * j_ctr e * ncomp1 e)).
    rewrite align8_id by (unfold c0; lia).
    cbn [packed b_at b_len]. repeat split; try (unfold c0; lia).
    eapply packed_app.
    - eapply packed_w; [apply carve_packed; [unfold c0; lia|exact L1]|lia|].
      instantiate (1 := c0 + 8 * (leng e + sum_len (levels_2c2e e))). lia.
    - apply (instack_shape post_2c2e); [unfold c0; lia|exact P1|].
      eapply Z.le_trans; [|apply Z.add_le_mono_l, Z.mul_le_mono_nonneg_l, Z.le_max_l; lia]. unfold c0. lia.
  Qed.

  Lemma loop_2c2e_fits : ncomp_e2 e = 1 ->
    packed base (drv_2c2e e base (loop_2c2e fsz e ip jp)) (base + 8 * int1e_cache_size e ip jp).
  Proof.
    intros E2. pose proof nc1_nonneg as Hc. destruct levels_2c2e_ok as (L1 & L2 & L3).
    assert (Hg := so_g e He).
    assert (Ec : nf e * i_ctr e * j_ctr e * (ncomp_e1 e * ncomp_e2 e * ncomp_tensor e) = nf e * i_ctr e * j_ctr e * ncomp1 e)
      by (rewrite E2; unfold ncomp1; ring).
    unfold drv_2c2e. rewrite Ec. apply after_shape; [exact Hb|exact Hc|].
    assert (Hci := so_ci e He). assert (Hcj := so_cj e He).
    pose proof (align8_fint fsz (ip + jp + ip * i_ctr e + jp * j_ctr e) Hf ltac:(nia)).
    apply (loop_shape_packed [(13%nat, fsz * (ip + jp + ip * i_ctr e + jp * j_ctr e))] (leng e)); [lia|nn|lia|exact L1|].
    eapply Z.le_trans; [|apply Z.add_le_mono_l, Z.mul_le_mono_nonneg_l, Z.le_max_l; lia].
    cbn [sum_al fold_right snd]. nia.
  Qed.

  Lemma c2s_2c2e_fits ik jk : ncomp_e2 e = 1 -> nf e = nfi e * nfj e ->
    packed base (drv_2c2e e base (c2s_sph_1e e)) (base + 8 * int1e_cache_size e ip jp) /\
    packed base (drv_2c2e e base (c2s_spinor_1e e ik jk)) (base + 8 * int1e_cache_size e ip jp).
  Proof.
    intros E2 En.
    assert (Ec : nf e * i_ctr e * j_ctr e * (ncomp_e1 e * ncomp_e2 e * ncomp_tensor e) = nf e * i_ctr e * j_ctr e * ncomp1 e)
      by (rewrite E2; unfold ncomp1; ring).
    assert (Ed : nf e * i_ctr e * j_ctr e * ncomp_e1 e * ncomp_tensor e = nf e * i_ctr e * j_ctr e * ncomp1 e) by (unfold ncomp1; ring).
    pose proof (c2s_sph_1e_fits En) as A. pose proof (c2s_spinor_1e_fits ik jk En) as B.
    unfold drv_2c2e. rewrite Ec. unfold drv_1e in A. unfold drv_1e_spinor in B. rewrite Ed in B. auto.
  Qed.

  (** *** two-electron *)
  Lemma levels_2e_ok nn : 1 <= nn ->
    nonneg3 (levels_2e nn e) /\ owned (levels_2e nn e) <= 2 * (nc4 e * nn) + nf e * nn /\ 0 <= nf e * nn <= nc4 e * nn.
  Proof.
    intros Hn. destruct He. unfold levels_2e, nc4.
    set (x0 := nf e * nn). assert (0 <= x0) by (unfold x0; nia).
    set (x1 := x0 * i_ctr e). assert (H1 : 0 <= x0 <= x1) by (apply step_nonneg; lia).
    set (x2 := x1 * j_ctr e). assert (H2 : 0 <= x1 <= x2) by (apply step_nonneg; lia).
    set (x3 := x2 * k_ctr e). assert (H3 : 0 <= x2 <= x3) by (apply step_nonneg; lia).
    set (x4 := x3 * l_ctr e). assert (H4 : 0 <= x3 <= x4) by (apply step_nonneg; lia).
    replace (nf e * (i_ctr e * j_ctr e * k_ctr e * l_ctr e) * nn) with x4 by (unfold x4, x3, x2, x1, x0; ring).
    replace (nf e * i_ctr e * j_ctr e * k_ctr e * l_ctr e * nn) with x4 by (unfold x4, x3, x2, x1, x0; ring).
    replace (nf e * i_ctr e * j_ctr e * k_ctr e * nn) with x3 by (unfold x3, x2, x1, x0; ring).
    replace (nf e * i_ctr e * j_ctr e * nn) with x2 by (unfold x2, x1, x0; ring).
    replace (nf e * i_ctr e * nn) with x1 by (unfold x1, x0; ring).
    pose proof (own_step x1 (j_ctr e) ltac:(lia) ltac:(lia)) as O1. fold x2 in O1.
    pose proof (own_step x2 (k_ctr e) ltac:(lia) ltac:(lia)) as O2. fold x3 in O2.
    pose proof (own_step x3 (l_ctr e) ltac:(lia) ltac:(lia)) as O3. fold x4 in O3.
    pose proof (own_le (nn =? 1) x4 ltac:(lia)). pose proof (own_le (i_ctr e =? 1) x0 ltac:(lia)).
    clearbody x4 x3 x2 x1 x0. split; [nn|]. unfold owned. cbn [fold_right fst snd]. lia.
  Qed.

  (** special loops: only one shell is contracted *)
  Lemma special_ok t nn x : 1 <= nn -> 0 <= x <= nc4 e * nn ->
    let ls := [(nn =? 1, t, x); (false, 0%nat, nf e * nn)] in
    nonneg3 ls /\ owned ls <= 2 * (nc4 e * nn) + nf e * nn.
  Proof.
    intros Hn Hx ls. pose proof (own_le (nn =? 1) x ltac:(lia)). unfold ls.
    split; [apply Forall_cons; [cbn [snd]; lia|nn]|]. unfold owned. cbn [fold_right fst snd own]. nia.
  Qed.

  Lemma selected_2e_ok : 1 <= ncomp2 e ->
    nonneg3 (levels_2e_selected e) /\ owned (levels_2e_selected e) <= 2 * (nc4 e * ncomp2 e) + nf e * ncomp2 e.
  Proof.
    intros Hn. destruct (levels_2e_ok (ncomp2 e) Hn) as (A & B & C). destruct He.
    assert (Hx : forall c, In c [i_ctr e; j_ctr e; k_ctr e; l_ctr e] -> 0 <= nf e * c * ncomp2 e <= nc4 e * ncomp2 e).
    { assert (Hle : forall c, In c [i_ctr e; j_ctr e; k_ctr e; l_ctr e] -> nf e * c <= nc4 e /\ 0 <= c).
      { assert (P1 : 1 <= i_ctr e * j_ctr e) by nia. assert (P2 : 1 <= k_ctr e * l_ctr e) by nia.
        replace (nc4 e) with (nf e * (i_ctr e * j_ctr e * (k_ctr e * l_ctr e))) by (unfold nc4; ring).
        intros c [<-|[<-|[<-|[<-|[]]]]]; (split; [apply Z.mul_le_mono_nonneg_l; [lia|nia]|lia]). }
      intros c Hc. destruct (Hle c Hc). split; [apply Z.mul_nonneg_nonneg; nia|]. apply Z.mul_le_mono_nonneg_r; lia. }
    unfold levels_2e_selected. remember (2 * (nc4 e * ncomp2 e) + nf e * ncomp2 e) as top eqn:Et.
    destruct (i_ctr e =? 1), (j_ctr e =? 1), (k_ctr e =? 1), (l_ctr e =? 1);
      cbn [Z.b2z Z.shiftl Pos.iter Z.mul Pos.mul Z.add Pos.add Pos.succ];
      try (split; [exact A|exact B]); subst top;
      try (apply special_ok; [exact Hn|apply Hx; cbn; tauto]).
    unfold levels_1111. pose proof (own_le (ncomp2 e =? 1) (nf e * ncomp2 e) ltac:(lia)).
    split; [apply Forall_cons; [cbn [snd]; lia|apply Forall_nil]|]. unfold owned. cbn [fold_right fst snd]. lia.
  Qed.

  Lemma pdata_2e_ok : let pre := [(10%nat, 8 * (ip + jp + kp + lp)); (11%nat, 40 * (ip * jp)); (12%nat, fsz * (nf e * 3));
         (13%nat, fsz * (ip + jp + kp + lp + ip * i_ctr e + jp * j_ctr e + kp * k_ctr e + lp * l_ctr e))] in
    nonneg pre /\ sum_al pre <= 8 * pdata_size_2e e ip jp kp lp.
  Proof.
    destruct He. intros pre. unfold pre, pdata_size_2e.
    assert (0 <= ip * i_ctr e) by nia. assert (0 <= jp * j_ctr e) by nia.
    assert (0 <= kp * k_ctr e) by nia. assert (0 <= lp * l_ctr e) by nia. assert (0 <= kp * lp) by nia.
    assert (0 <= ip * jp) by nia.
    split; [nn|]. rewrite sum4, align8_8, align8_40.
    pose proof (align8_fint fsz (nf e * 3) Hf ltac:(lia)).
    pose proof (align8_fint fsz (ip + jp + kp + lp + ip * i_ctr e + jp * j_ctr e + kp * k_ctr e + lp * l_ctr e) Hf ltac:(lia)). lia.
  Qed.

  Lemma pdata_2e_opt_ok no_pd no_idx : nonneg (opt_blocks_2e fsz no_pd no_idx e ip jp kp lp) /\
    sum_al (opt_blocks_2e fsz no_pd no_idx e ip jp kp lp) <= 8 * pdata_size_2e e ip jp kp lp.
  Proof.
    destruct He. unfold opt_blocks_2e, pdata_size_2e.
    assert (0 <= ip * i_ctr e) by nia. assert (0 <= jp * j_ctr e) by nia.
    assert (0 <= kp * k_ctr e) by nia. assert (0 <= lp * l_ctr e) by nia. assert (0 <= kp * lp) by nia.
    assert (0 <= ip * jp) by nia.
    pose proof (align8_fint fsz (nf e * 3) Hf ltac:(lia)).
    destruct no_pd, no_idx; cbn [app]; (split; [nn|]); rewrite ?sum_al_cons, ?align8_40; cbn [sum_al fold_right]; lia.
  Qed.

  (** common to the two drivers: everything but the transformation fits in the first
      argument of the maximum *)
  Definition first_2e : Z := leng e + nf e * ncomp2 e + nc4 e * ncomp2 e * 3 + pdata_size_2e e ip jp kp lp.

  Lemma loops_2e_first no_pd no_idx size : 1 <= ncomp2 e -> first_2e <= size ->
    packed base (drv_2e e base (loop_2e_nopt fsz e ip jp kp lp)) (base + 8 * size) /\
    packed base (drv_2e e base (loop_2e_opt_with (levels_2e_selected e) fsz no_pd no_idx e ip jp kp lp)) (base + 8 * size).
  Proof.
    intros Hn Hs. destruct (levels_2e_ok (ncomp2 e) Hn) as (A & B & C). destruct (selected_2e_ok Hn) as (D & E).
    destruct pdata_2e_ok as [P1 P2]. destruct (pdata_2e_opt_ok no_pd no_idx) as [Q1 Q2]. assert (Hg := so_g e He).
    unfold first_2e in Hs. split.
    - unfold drv_2e. apply after_shape; [exact Hb|lia|].
      refine (loop_shape_packed _ (leng e) (levels_2e (ncomp2 e) e) _ _ _ P1 Hg A _); lia.
    - unfold drv_2e. apply after_shape; [exact Hb|lia|].
      refine (loop_shape_packed _ (leng e) (levels_2e_selected e) _ _ _ Q1 Hg D _); lia.
  Qed.

  Definition nf_is4 := nf e = nfi e * nfk e * nfl e * nfj e.

  Lemma c2s_sph_2e1_fits : 1 <= ncomp2 e -> nf_is4 ->
    packed base (drv_2e e base (c2s_sph_2e1 e)) (base + 8 * int2e_cache_size e ip jp kp lp).
  Proof.
    intros Hn En. destruct (levels_2e_ok (ncomp2 e) Hn) as (A & B & C).
    pose proof nfi_ge. pose proof nfj_ge. assert (HL := so_lj e He). assert (Hk := so_nfk e He). assert (Hl := so_nfl e He).
    assert (L : 0 <= nfi e * nfk e * nfl e * (j_l e * 2 + 1) <= nf e).
    { rewrite En. assert (0 <= nfi e * nfk e * nfl e) by (repeat apply Z.mul_nonneg_nonneg; lia).
      split; [nia|]. apply Z.mul_le_mono_nonneg_l; lia. }
    unfold drv_2e. apply after_shape; [exact Hb|lia|]. unfold c2s_sph_2e1.
    set (n := nfi e * nfk e * nfl e * (j_l e * 2 + 1)) in *.
    rewrite align8_id by lia. cbn [packed b_at b_len]. unfold int2e_cache_size. repeat split; lia.
  Qed.

  Lemma len4 ik jk kk lk : nf_is4 -> nfk e = CINTlen_cart (k_l e) -> nfl e = CINTlen_cart (l_l e) ->
    let di := len_spinor ik (i_l e) in let dj := len_spinor jk (j_l e) in
    let dk := len_spinor kk (k_l e) in let dl := len_spinor lk (l_l e) in
    0 <= di * nfk e * nfl e * (nfj e + nfj e) <= 4 * nf e /\
    0 <= di * dk * (nfl e + nfl e) * dj <= 16 * nf e /\ 0 <= di * dk * dl * dj <= 16 * nf e.
  Proof.
    intros En Ek El di dj dk dl. pose proof (di_le ik) as D1. pose proof (dj_le jk) as D2.
    pose proof (len_spinor_le kk (k_l e) (so_lk e He)) as D3. pose proof (len_spinor_le lk (l_l e) (so_ll e He)) as D4.
    rewrite <- Ek in D3. rewrite <- El in D4. fold di in D1. fold dj in D2. fold dk in D3. fold dl in D4.
    pose proof nfi_ge. pose proof nfj_ge. assert (Hk := so_nfk e He). assert (Hl := so_nfl e He).
    clearbody di dj dk dl. unfold nf_is4 in En.
    assert (M : forall a b c d A B C D, 0 <= a <= A -> 0 <= b <= B -> 0 <= c <= C -> 0 <= d <= D -> 0 <= a * b * c * d <= A * B * C * D).
    { clear. intros. repeat apply mul2; assumption. }
    rewrite En.
    pose proof (M di (nfk e) (nfl e) (nfj e + nfj e) (2 * nfi e) (nfk e) (nfl e) (2 * nfj e) ltac:(lia) ltac:(lia) ltac:(lia) ltac:(lia)) as M1.
    pose proof (M di dk (nfl e + nfl e) dj (2 * nfi e) (2 * nfk e) (2 * nfl e) (2 * nfj e) ltac:(lia) ltac:(lia) ltac:(lia) ltac:(lia)) as M2.
    pose proof (M di dk dl dj (2 * nfi e) (2 * nfk e) (2 * nfl e) (2 * nfj e) ltac:(lia) ltac:(lia) ltac:(lia) ltac:(lia)) as M3.
    replace (2 * nfi e * nfk e * nfl e * (2 * nfj e)) with (4 * (nfi e * nfk e * nfl e * nfj e)) in M1 by ring.
    replace (2 * nfi e * (2 * nfk e) * (2 * nfl e) * (2 * nfj e)) with (16 * (nfi e * nfk e * nfl e * nfj e)) in M2, M3 by ring.
    lia.
  Qed.

  Lemma n1_nonneg ik jk : 0 <= n1_2e e ik jk.
  Proof.
    unfold n1_2e. destruct He. pose proof (di_le ik). pose proof (dj_le jk).
    repeat apply Z.mul_nonneg_nonneg; lia.
  Qed.

  Lemma spinor_2e_fits ik jk kk lk no_pd no_idx : 1 <= ncomp_e2 e -> nf_is4 ->
    nfk e = CINTlen_cart (k_l e) -> nfl e = CINTlen_cart (l_l e) ->
    let size := int2e_spinor_cache_size e ik jk ip jp kp lp in
    packed base (drv_2e e base (loop_2e_nopt fsz e ip jp kp lp)) (base + 8 * size) /\
    packed base (drv_2e e base (loop_2e_opt_with (levels_2e_selected e) fsz no_pd no_idx e ip jp kp lp)) (base + 8 * size) /\
    packed base (drv_2e e base (with_opij e ik jk (c2s_spinor_2e1 e ik))) (base + 8 * size) /\
    packed base (drv_2e e base (with_opij e ik jk (c2s_sf_2e2 e ik jk kk lk))) (base + 8 * size) /\
    packed base (drv_2e e base (with_opij e ik jk (c2s_si_2e2 e ik jk kk lk))) (base + 8 * size).
  Proof.
    intros H2 En Ek El size.
    assert (Hn : 1 <= ncomp2 e) by (destruct He; unfold ncomp2; nia).
    destruct (levels_2e_ok (ncomp2 e) Hn) as (A & B & C).
    destruct (loops_2e_first no_pd no_idx size Hn (Z.le_max_l _ _)) as [L1 L2].
    split; [exact L1|]. split; [exact L2|].
    destruct (len4 ik jk kk lk En Ek El) as (M1 & M2 & M3). cbv zeta in M1, M2, M3.
    assert (Hn1 : 0 <= n1_2e e ik jk * ncomp_e2 e) by (apply Z.mul_nonneg_nonneg; [apply n1_nonneg|lia]).
    assert (Hs : nc4 e * ncomp2 e + n1_2e e ik jk * ncomp_e2 e * 2 + nf e * 32 * 2 <= size) by apply Z.le_max_r.
    assert (W : forall c2s, (forall cache, cache mod 8 = 0 -> packed cache (c2s cache) (cache + 8 * (nf e * 64))) ->
       packed base (drv_2e e base (with_opij e ik jk c2s)) (base + 8 * size)).
    { intros c2s Hc. unfold drv_2e. apply after_shape; [exact Hb|lia|]. unfold with_opij. cbn [instack].
      rewrite align8_id by lia. cbn [app packed b_at b_len]. repeat split; try lia.
      eapply packed_w; [apply Hc; lia|lia|lia]. }
    split; [|split]; apply W; intros cache Hca.
    - unfold c2s_spinor_2e1. apply instack_shape; [lia|repeat (apply Forall_cons; [cbn [snd]; lia|]); apply Forall_nil|].
      rewrite sum2, !align8_8. lia.
    - unfold c2s_sf_2e2. apply instack_shape; [lia|repeat (apply Forall_cons; [cbn [snd]; lia|]); apply Forall_nil|].
      rewrite sum4, !align8_8. lia.
    - unfold c2s_si_2e2. apply instack_shape; [lia|repeat (apply Forall_cons; [cbn [snd]; lia|]); apply Forall_nil|].
      rewrite sum4, !align8_8. lia.
  Qed.

  (** *** three-centre *)
  Lemma levels_3c_ok nn : 1 <= nn ->
    nonneg3 (levels_3c nn e) /\ owned (levels_3c nn e) <= 2 * (nc3 e * nn) + nf e * nn /\ 0 <= nf e * nn <= nc3 e * nn.
  Proof.
    intros Hn. destruct He. unfold levels_3c, nc3.
    set (x0 := nf e * nn). assert (0 <= x0) by (unfold x0; nia).
    set (x1 := x0 * i_ctr e). assert (H1 : 0 <= x0 <= x1) by (apply step_nonneg; lia).
    set (x2 := x1 * j_ctr e). assert (H2 : 0 <= x1 <= x2) by (apply step_nonneg; lia).
    set (x3 := x2 * k_ctr e). assert (H3 : 0 <= x2 <= x3) by (apply step_nonneg; lia).
    replace (nf e * (i_ctr e * j_ctr e * k_ctr e) * nn) with x3 by (unfold x3, x2, x1, x0; ring).
    replace (nf e * i_ctr e * j_ctr e * k_ctr e * nn) with x3 by (unfold x3, x2, x1, x0; ring).
    replace (nf e * i_ctr e * j_ctr e * nn) with x2 by (unfold x2, x1, x0; ring).
    replace (nf e * i_ctr e * nn) with x1 by (unfold x1, x0; ring).
    pose proof (own_step x1 (j_ctr e) ltac:(lia) ltac:(lia)) as O1. fold x2 in O1.
    pose proof (own_step x2 (k_ctr e) ltac:(lia) ltac:(lia)) as O2. fold x3 in O2.
    pose proof (own_le (nn =? 1) x3 ltac:(lia)). pose proof (own_le (i_ctr e =? 1) x0 ltac:(lia)).
    clearbody x3 x2 x1 x0. split; [nn|]. unfold owned. cbn [fold_right fst snd]. lia.
  Qed.

  Lemma selected_3c_ok : let nn := ncomp1 e in
    nonneg3 (levels_3c2e_selected e) /\ owned (levels_3c2e_selected e) <= 2 * (nc3 e * nn) + nf e * nn.
  Proof.
    intros nn. pose proof ncomp1_pos as Hn. fold nn in Hn. destruct (levels_3c_ok nn Hn) as (A & B & C). destruct He.
    assert (Hx : forall c, In c [i_ctr e; j_ctr e] -> 0 <= nf e * c * nn <= nc3 e * nn).
    { assert (Hle : forall c, In c [i_ctr e; j_ctr e] -> nf e * c <= nc3 e /\ 0 <= c).
      { assert (P1 : 1 <= i_ctr e * j_ctr e) by nia.
        replace (nc3 e) with (nf e * (i_ctr e * j_ctr e * k_ctr e)) by (unfold nc3; ring).
        intros c [<-|[<-|[]]]; (split; [apply Z.mul_le_mono_nonneg_l; [lia|nia]|lia]). }
      intros c Hc. destruct (Hle c Hc). split; [apply Z.mul_nonneg_nonneg; nia|]. apply Z.mul_le_mono_nonneg_r; lia. }
    unfold levels_3c2e_selected. fold nn. remember (2 * (nc3 e * nn) + nf e * nn) as top eqn:Et.
    assert (S : forall t x, 0 <= x <= nc3 e * nn -> let ls := [(nn =? 1, t, x); (false, 0%nat, nf e * nn)] in
       nonneg3 ls /\ owned ls <= top).
    { intros t x Hx0 ls. pose proof (own_le (nn =? 1) x ltac:(lia)). unfold ls.
      split; [apply Forall_cons; [cbn [snd]; lia|apply Forall_cons; [cbn [snd]; lia|apply Forall_nil]]|]. unfold owned. cbn [fold_right fst snd own]. lia. }
    destruct (i_ctr e =? 1), (j_ctr e =? 1), (k_ctr e =? 1);
      cbn [Z.b2z Z.shiftl Pos.iter Z.mul Pos.mul Z.add Pos.add Pos.succ];
      try (split; [exact A|exact B]);
      try (apply S; apply Hx; cbn; tauto).
    unfold levels_1111. pose proof (own_le (nn =? 1) (nf e * nn) ltac:(lia)).
    split; [apply Forall_cons; [cbn [snd]; lia|apply Forall_nil]|]. unfold owned. cbn [fold_right fst snd]. lia.
  Qed.

  Definition pre_3c2e : list (nat * Z) :=
    [(10%nat, 8 * (ip + jp)); (11%nat, 40 * (ip * jp)); (12%nat, fsz * (nf e * 3));
         (13%nat, fsz * (ip + jp + kp + ip * i_ctr e + jp * j_ctr e + kp * k_ctr e))].
  Lemma pre_3c2e_ok no_pd no_idx :
    (nonneg pre_3c2e /\ sum_al pre_3c2e <= 8 * pdata_size_3c2e e ip jp kp) /\
    (nonneg (opt_blocks_3c2e fsz no_pd no_idx e ip jp kp) /\
     sum_al (opt_blocks_3c2e fsz no_pd no_idx e ip jp kp) <= 8 * pdata_size_3c2e e ip jp kp).
  Proof.
    destruct He. unfold pre_3c2e, pdata_size_3c2e, opt_blocks_3c2e.
    assert (0 <= ip * i_ctr e) by nia. assert (0 <= jp * j_ctr e) by nia.
    assert (0 <= kp * k_ctr e) by nia. assert (0 <= ip * jp) by nia.
    pose proof (align8_fint fsz (nf e * 3) Hf ltac:(lia)).
    pose proof (align8_fint fsz (ip + jp + kp + ip * i_ctr e + jp * j_ctr e + kp * k_ctr e) Hf ltac:(lia)).
    pose proof (align8_fint fsz (kp + kp * k_ctr e) Hf ltac:(lia)).
    split.
    - split; [nn|]. rewrite sum4, align8_8, align8_40. lia.
    - destruct no_pd, no_idx; cbn [app]; (split; [nn|]); rewrite ?sum_al_cons, ?align8_40; cbn [sum_al fold_right]; lia.
  Qed.

  Lemma loops_3c2e_first no_pd no_idx N size : nc3 e * ncomp1 e <= N ->
    leng e + nf e * ncomp1 e + nc3 e * ncomp1 e * 2 + N + pdata_size_3c2e e ip jp kp <= size ->
    packed base (after_gctr 8 base N (loop_3c2e_nopt fsz e ip jp kp)) (base + 8 * size) /\
    packed base (after_gctr 8 base N (loop_3c2e_opt fsz no_pd no_idx e ip jp kp)) (base + 8 * size).
  Proof.
    intros HN Hs. destruct (levels_3c_ok _ ncomp1_pos) as (A & B & C). destruct selected_3c_ok as (D & E).
    destruct (pre_3c2e_ok no_pd no_idx) as [[P1 P2] [Q1 Q2]]. assert (Hg := so_g e He). split.
    - apply after_shape; [exact Hb|lia|].
      refine (loop_shape_packed _ (leng e) (levels_3c (ncomp1 e) e) _ _ _ P1 Hg A _); lia.
    - apply after_shape; [exact Hb|lia|].
      refine (loop_shape_packed _ (leng e) (levels_3c2e_selected e) _ _ _ Q1 Hg D _); lia.
  Qed.

  Definition nf_is3 := nf e = nfi e * nfk e * nfj e.

  Lemma sph3_len : nf_is3 -> 0 <= nfi e * nfk e * (j_l e * 2 + 1) <= nf e.
  Proof.
    intros En. pose proof nfi_ge. pose proof nfj_ge. assert (HL := so_lj e He). assert (Hk := so_nfk e He).
    rewrite En. assert (0 <= nfi e * nfk e) by (apply Z.mul_nonneg_nonneg; lia).
    split; [nia|]. apply Z.mul_le_mono_nonneg_l; lia.
  Qed.

  Lemma c2s_sph_3c_fits N size : nf_is3 -> 0 <= N -> N + nf e * 3 <= size ->
    packed base (after_gctr 8 base N (c2s_sph_3c2e1 e)) (base + 8 * size) /\
    packed base (after_gctr 8 base N (c2s_sph_3c2e1_ssc e)) (base + 8 * size).
  Proof.
    intros En HN Hs. pose proof (sph3_len En) as L.
    split; (apply after_shape; [exact Hb|lia|]).
    - unfold c2s_sph_3c2e1. set (n := nfi e * nfk e * (j_l e * 2 + 1)) in *.
      rewrite align8_id by lia. cbn [packed b_at b_len]. repeat split; lia.
    - unfold c2s_sph_3c2e1_ssc. apply instack_shape; [lia|repeat (apply Forall_cons; [cbn [snd]; lia|]); apply Forall_nil|].
      rewrite sum2, !align8_8. lia.
  Qed.

  Lemma len3 nbuf ik jk : nf_is3 -> nfk e = CINTlen_cart (k_l e) ->
    let di := len_spinor ik (i_l e) in let dj := len_spinor jk (j_l e) in
    let dk := match nbuf with O => nfk e | _ => k_l e * 2 + 1 end in
    0 <= nfi e * dk * nfj e <= nf e /\ 0 <= di * dk * (nfj e + nfj e) <= 4 * nf e /\ 0 <= di * dk * dj <= 4 * nf e.
  Proof.
    intros En Ek di dj dk. pose proof (di_le ik) as D1. pose proof (dj_le jk) as D2.
    assert (Hk := so_nfk e He). assert (HL := so_lk e He).
    assert (D3 : 0 <= dk <= nfk e).
    { unfold dk. destruct nbuf; [lia|]. pose proof (len_cart_ge _ HL). lia. }
    pose proof nfi_ge. pose proof nfj_ge.
    fold di in D1. fold dj in D2. clearbody di dj dk. unfold nf_is3 in En. rewrite En.
    assert (M : forall a b c A B C, 0 <= a <= A -> 0 <= b <= B -> 0 <= c <= C -> 0 <= a * b * c <= A * B * C).
    { clear. intros. repeat apply mul2; assumption. }
    pose proof (M (nfi e) dk (nfj e) (nfi e) (nfk e) (nfj e) ltac:(lia) ltac:(lia) ltac:(lia)) as M1.
    pose proof (M di dk (nfj e + nfj e) (2 * nfi e) (nfk e) (2 * nfj e) ltac:(lia) ltac:(lia) ltac:(lia)) as M2.
    pose proof (M di dk dj (2 * nfi e) (nfk e) (2 * nfj e) ltac:(lia) ltac:(lia) ltac:(lia)) as M3.
    replace (2 * nfi e * nfk e * (2 * nfj e)) with (4 * (nfi e * nfk e * nfj e)) in M2, M3 by ring. lia.
  Qed.

  Lemma c2s_spinor_3c_fits nbuf ik jk N size : (nbuf <= 4)%nat -> nf_is3 -> nfk e = CINTlen_cart (k_l e) ->
    0 <= N -> N + nf e * 14 * 2 <= size ->
    packed base (after_gctr 8 base N (c2s_spinor_3c2e1 nbuf e ik jk)) (base + 8 * size).
  Proof.
    intros Hnb En Ek HN Hs. destruct (len3 nbuf ik jk En Ek) as (M1 & M2 & M3). cbv zeta in M1, M2, M3.
    apply after_shape; [exact Hb|lia|]. unfold c2s_spinor_3c2e1.
    set (dk := match nbuf with O => nfk e | _ => k_l e * 2 + 1 end) in *.
    set (bl := nfi e * dk * nfj e) in *. clearbody dk.
    assert (S : forall n ns, nonneg ns -> nonneg (repeat (24%nat, 8 * bl) n ++ ns) /\
       sum_al (repeat (24%nat, 8 * bl) n ++ ns) = 8 * (Z.of_nat n * bl) + sum_al ns).
    { intros n ns Hns. induction n as [|n [IH1 IH2]]; [split; [exact Hns|cbn [repeat app]; lia]|].
      split; [apply Forall_cons; [cbn [snd]; lia|exact IH1]|]. cbn [repeat app]. rewrite sum_al_cons, align8_8, IH2. nia. }
    match goal with |- packed _ (blocks (instack 8 _ (_ ++ ?ns))) _ => destruct (S nbuf ns) as [S1 S2] end.
    { repeat (apply Forall_cons; [cbn [snd]; lia|]); apply Forall_nil. }
    apply instack_shape; [lia|exact S1|]. rewrite S2, sum4, !align8_8.
    assert (Z.of_nat nbuf * bl <= 4 * bl) by nia. lia.
  Qed.

  (** *** three-centre one-electron, 4-byte integers *)
  Definition pre_3c1e : list (nat * Z) :=
    [(12%nat, fsz * (nf e * 3)); (13%nat, fsz * (ip + jp + kp + ip * i_ctr e + jp * j_ctr e + kp * k_ctr e))].
  Lemma align8_4 n : align 8 (4 * n) <= 4 * n + 4.
  Proof. rewrite align8_div. lia. Qed.
  Lemma pre_3c1e_ok : fsz = 4 -> nonneg pre_3c1e /\ sum_al pre_3c1e <= 8 * (ip * i_ctr e + jp * j_ctr e + kp * k_ctr e + nf e * 3).
  Proof.
    intros E4. destruct He. unfold pre_3c1e.
    assert (ip <= ip * i_ctr e) by nia. assert (jp <= jp * j_ctr e) by nia. assert (kp <= kp * k_ctr e) by nia.
    split; [nn|]. rewrite sum2, E4. pose proof (align8_4 (nf e * 3)).
    pose proof (align8_4 (ip + jp + kp + ip * i_ctr e + jp * j_ctr e + kp * k_ctr e)). lia.
  Qed.

  Lemma loop_3c1e_fits : fsz = 4 ->
    packed base (drv_3c2e e base (loop_3c1e fsz e ip jp kp)) (base + 8 * int3c1e_cache_size e ip jp kp) /\
    packed base (drv_3c2e e base (with_buf e (loop_3c1e fsz e ip jp kp))) (base + 8 * int3c1e_cache_size e ip jp kp).
  Proof.
    intros E4. destruct (levels_3c_ok _ ncomp1_pos) as (A & B & C). destruct (pre_3c1e_ok E4) as [P1 P2].
    assert (Hg := so_g e He).
    assert (Hs : leng e + nf e * ncomp1 e + nc3 e * ncomp1 e * 4
         + (ip * i_ctr e + jp * j_ctr e + kp * k_ctr e + nf e * 3) <= int3c1e_cache_size e ip jp kp) by apply Z.le_max_l.
    assert (L : forall cache b, cache mod 8 = 0 -> cache + 8 * (leng e + nf e * ncomp1 e + nc3 e * ncomp1 e * 2
         + (ip * i_ctr e + jp * j_ctr e + kp * k_ctr e + nf e * 3)) <= b -> packed cache (loop_3c1e fsz e ip jp kp cache) b).
    { intros cache b Hc Hcb. refine (loop_shape_packed pre_3c1e (leng e) (levels_3c (ncomp1 e) e) _ _ Hc P1 Hg A _). lia. }
    split; unfold drv_3c2e; (apply after_shape; [exact Hb|lia|]).
    - apply L; lia.
    - unfold with_buf. cbn [instack]. rewrite align8_id by lia. cbn [app packed b_at b_len].
      split; [lia|]. split; [lia|]. split; [lia|]. apply L; lia.
  Qed.

  (** *** grids *)
  Lemma align64_up c : c mod 8 = 0 -> c <= align 64 c <= c + 56 /\ align 64 c mod 64 = 0.
  Proof. rewrite align64_div. lia. Qed.

  Lemma loop_grids_fits ngrids : 0 <= ngrids ->
    packed base (drv_grids e ngrids base (loop_grids fsz e ip jp)) (base + 8 * int1e_grids_cache_size e ngrids ip jp).
  Proof.
    intros Hng. pose proof ncomp1_pos as Hn. destruct pre_1e_ok as [P1 P2]. assert (Hg := so_g e He). assert (Hr := so_r e He).
    set (nn := ncomp1 e) in *.
    set (x0 := GRID_BLKSIZE * nf e * nn). assert (0 <= x0) by (unfold x0, GRID_BLKSIZE; nia).
    assert (Hci := so_ci e He). assert (Hcj := so_cj e He).
    set (x1 := x0 * i_ctr e). assert (H1 : 0 <= x0 <= x1) by (apply step_nonneg; lia).
    set (x2 := x1 * j_ctr e). assert (H2 : 0 <= x1 <= x2) by (apply step_nonneg; lia).
    set (N := ngrids * nf e * i_ctr e * j_ctr e * nn).
    assert (HN : 0 <= N) by (unfold N; apply Z.mul_nonneg_nonneg; [repeat apply Z.mul_nonneg_nonneg; lia|lia]).
    assert (Hs : N + leng e + x0 + x1 + x2 + (ip * jp * 5 + ip * i_ctr e + jp * j_ctr e + (ip + jp) * 2 + nf e * 3)
         + GRID_BLKSIZE * (nrys_roots e + 10) + 32 <= int1e_grids_cache_size e ngrids ip jp).
    { unfold int1e_grids_cache_size. fold nn. fold x0. fold x1. fold x2. fold N. unfold GRID_BLKSIZE. lia. }
    unfold drv_grids, after_gctr. fold nn. fold N. cbn [instack].
    destruct (align64_up base Hb) as [A1 A2]. set (gc := align 64 base) in *.
    cbn [app packed b_at b_len]. split; [lia|]. split; [lia|]. split; [lia|].
    unfold loop_grids. fold nn. fold pre_1e.
    destruct (instack8 pre_1e (gc + 8 * N) ltac:(lia) P1) as (Q1 & Q2 & Q3).
    destruct (instack 8 (gc + 8 * N) pre_1e) as [bs c] eqn:Ei. cbn [fst snd] in *.
    assert (Hc : c <= align 64 c <= gc + 8 * N + sum_al pre_1e + 56 /\ align 64 c mod 64 = 0).
    { rewrite align64_div. rewrite align8_div in Q2. lia. }
    set (gT := align 64 c) in *. clearbody gT.
    replace (GRID_BLKSIZE * nf e * (i_ctr e * j_ctr e) * nn) with x2 by (unfold x2, x1, x0; ring).
    replace (GRID_BLKSIZE * nf e * i_ctr e * nn) with x1 by (unfold x1, x0; ring). fold x0.
    unfold sum_len. cbn [fold_right snd]. clearbody x2 x1 x0 N.
    eapply packed_app; [exact Q1|].
    cbn [packed b_at b_len]. unfold GRID_BLKSIZE in *.
    split; [lia|]. split; [lia|]. split; [lia|]. split; [lia|]. split; [lia|]. split; [lia|].
    eapply packed_app.
    - eapply packed_w; [apply carve_packed; [lia|nn]|lia|].
      instantiate (1 := gT + 8 * (leng e + (x2 + (x1 + (x0 + 0))) + 104 * 3)).
      unfold owned. cbn [fold_right fst snd].
      pose proof (own_le (nn =? 1) x2 ltac:(lia)). pose proof (own_le (j_ctr e =? 1) x1 ltac:(lia)).
      pose proof (own_le (i_ctr e =? 1) x0 ltac:(lia)). lia.
    - cbn [instack blocks fst].
      set (u0 := gT + 8 * (leng e + (x2 + (x1 + (x0 + 0))) + 104 * 3)).
      destruct (align64_up u0 ltac:(unfold u0; lia)) as [U1 U2]. set (u := align 64 u0) in *.
      assert (E2 : align 64 (u + 8 * (104 * nrys_roots e)) = u + 8 * (104 * nrys_roots e)) by (rewrite align64_div; lia).
      rewrite E2.
      assert (E3 : align 64 (u + 8 * (104 * nrys_roots e) + 8 * (104 * 3)) = u + 8 * (104 * nrys_roots e) + 8 * (104 * 3)) by (rewrite align64_div; lia).
      rewrite E3. cbn [packed b_at b_len]. clearbody u. unfold u0 in *. repeat split; lia.
  Qed.

  Lemma c2s_grids_fits ngrids ik : 0 <= ngrids -> nf e = nfi e * nfj e ->
    packed base (drv_grids e ngrids base (c2s_sph_1e_grids e)) (base + 8 * int1e_grids_cache_size e ngrids ip jp) /\
    packed base (drv_grids e ngrids base (c2s_spinor_1e_grids e ik)) (base + 8 * int1e_grids_cache_size e ngrids ip jp).
  Proof.
    intros Hng En. pose proof ncomp1_pos as Hn. pose proof nfi_ge. pose proof nfj_ge. assert (HL := so_lj e He).
    set (N := ngrids * nf e * i_ctr e * j_ctr e * ncomp1 e).
    assert (HN : 0 <= N) by (destruct He; unfold N; apply Z.mul_nonneg_nonneg; [repeat apply Z.mul_nonneg_nonneg; lia|lia]).
    assert (Hs : N + GRID_BLKSIZE * nf e * 8 * 2 + 32 <= int1e_grids_cache_size e ngrids ip jp).
    { unfold int1e_grids_cache_size. fold N. lia. }
    unfold drv_grids, after_gctr. fold N. cbn [instack].
    destruct (align64_up base Hb) as [A1 A2]. set (gc := align 64 base) in *.
    assert (G : forall B, 0 <= B -> 4 * B <= GRID_BLKSIZE * nf e * 8 * 2 -> B mod 8 = 0 ->
        forall bs, bs = [(20%nat, 8 * B); (21%nat, 8 * B)] \/ bs = [(20%nat, 8 * B); (21%nat, 8 * B); (22%nat, 8 * B); (23%nat, 8 * B)] ->
        packed gc ([mkblk 5 gc (8 * N)] ++ blocks (instack 64 (gc + 8 * N) bs)) (base + 8 * int1e_grids_cache_size e ngrids ip jp)).
    { intros B HB0 HB Hm bs Hbs.
      destruct (align64_up (gc + 8 * N) ltac:(lia)) as [U1 U2]. set (u := align 64 (gc + 8 * N)) in *.
      assert (E1 : align 64 (u + 8 * B) = u + 8 * B) by (rewrite align64_div; lia).
      assert (E2 : align 64 (u + 8 * B + 8 * B) = u + 8 * B + 8 * B) by (rewrite align64_div; lia).
      assert (E3 : align 64 (u + 8 * B + 8 * B + 8 * B) = u + 8 * B + 8 * B + 8 * B) by (rewrite align64_div; lia).
      destruct Hbs as [-> | ->]; cbn [instack blocks fst app packed b_at b_len]; fold u; rewrite ?E1, ?E2, ?E3; repeat split; lia. }
    unfold GRID_BLKSIZE in *.
    assert (M1 : 0 <= nfi e * (j_l e * 2 + 1) <= nf e) by nia.
    pose proof (spinor_len_1e ik 0 En) as [M2 _].
    split; (eapply packed_w; [|exact (proj1 A1)|apply Z.le_refl]).
    - unfold c2s_sph_1e_grids, GRID_BLKSIZE. replace (104 * nfi e * (j_l e * 2 + 1)) with (104 * (nfi e * (j_l e * 2 + 1))) by ring.
      apply G with (B := 104 * (nfi e * (j_l e * 2 + 1))); [lia|lia|lia|left; reflexivity].
    - unfold c2s_spinor_1e_grids, GRID_BLKSIZE.
      replace (104 * len_spinor ik (i_l e) * (nfj e + nfj e)) with (104 * (len_spinor ik (i_l e) * (nfj e + nfj e))) by ring.
      apply G with (B := 104 * (len_spinor ik (i_l e) * (nfj e + nfj e))); [lia|lia|lia|right; reflexivity].
  Qed.
End Classes.
