(** OvfLim.v — shells within the documented limits: the fields are in range and the
    sizes bounded. *)
From Verif Require Import Base BasModel EnvModel CacheModel OvfModel OvfSpec OvfProof OvfFinal.
Local Open Scope Z_scope.

Lemma len_cart_range l : 0 <= l <= 15 -> 1 <= CINTlen_cart l <= 136.
Proof.
  intros H. unfold CINTlen_cart. rewrite Z.quot_div_nonneg by nia.
  assert (2 <= (l + 1) * (l + 2) <= 272) by nia.
  split; [apply Z.div_le_lower_bound; lia|apply Z.div_le_upper_bound; lia].
Qed.

Lemma prod_le a b A B : 0 <= a <= A -> 0 <= b <= B -> a * b <= A * B.
Proof. nia. Qed.

(** The two-dimensional index space of a pair with total [s]. *)
Definition pair_dim (x y : Z) : Z :=
  (if x >? y then x + y + 1 else x + 1) * (if x >? y then y + 1 else x + y + 1).

Lemma pair_dim_le x y : 0 <= x -> 0 <= y ->
  1 <= pair_dim x y /\ 2 * pair_dim x y <= (x + y + 1) * (x + y + 2).
Proof. intros Hx Hy. unfold pair_dim. destruct (x >? y) eqn:E; nia. Qed.

Lemma amgm a b m : 0 <= a -> 0 <= b -> a + b <= m -> 4 * (a * b) <= m * m.
Proof.
  intros Ha Hb H. assert (0 <= (a - b) * (a - b)) by apply Z.square_nonneg.
  assert ((a + b) * (a + b) <= m * m) by (apply prod_le; lia). nia.
Qed.

Lemma two_pairs s1 s2 : 0 <= s1 -> 0 <= s2 -> s1 + s2 <= 63 ->
  ((s1 + 1) * (s1 + 2)) * ((s2 + 1) * (s2 + 2)) <= 1184832.
Proof.
  intros H1 H2 H.
  assert (A : (s1 + 1) * (s2 + 1) <= 1056) by (pose proof (amgm (s1 + 1) (s2 + 1) 65); lia).
  assert (B : (s1 + 2) * (s2 + 2) <= 1122) by (pose proof (amgm (s1 + 2) (s2 + 2) 67); lia).
  replace ((s1 + 1) * (s1 + 2) * ((s2 + 1) * (s2 + 2))) with (((s1 + 1) * (s2 + 1)) * ((s1 + 2) * (s2 + 2))) by ring.
  change 1184832 with (1056 * 1122). apply prod_le; nia.
Qed.

Lemma pow_bits b n : 0 <= b <= n -> 1 <= 2 ^ b <= 2 ^ n.
Proof.
  intros H. split; [assert (0 < 2 ^ b) by (apply Z.pow_pos_nonneg; lia); lia|apply Z.pow_le_mono_r; lia].
Qed.

Lemma leng_bound e n b : 0 <= g_size e <= n -> 0 <= gbits e <= b -> 1 <= 2 ^ b -> leng e <= n * 3 * (2 ^ b + 1).
Proof.
  intros H Hb Hp. unfold leng. rewrite Z.shiftl_mul_pow2 by lia. destruct (pow_bits (gbits e) b Hb).
  apply prod_le; lia.
Qed.

Lemma g_bound nr p1 p2 x y : 1 <= nr <= 32 -> 1 <= p1 -> 1 <= p2 -> 2 * p1 <= x -> 2 * p2 <= y ->
  x * y <= 1184832 -> 1 <= nr * (p1 * p2) <= 32 * 296208.
Proof.
  intros Hn H1 H2 Hx Hy H.
  assert (D : (2 * p1) * (2 * p2) <= x * y) by (apply prod_le; lia).
  assert (1 <= p1 * p2) by (apply mul_pos; lia).
  split; [apply mul_pos; lia|apply prod_le; lia].
Qed.

Lemma limits4_good nr o ng li lj lk ll ci cj ck cl ip jp kp lp :
  limits4 ng li lj lk ll ci cj ck cl ip jp kp lp -> 1 <= nr <= 32 ->
  let e := init_4c nr o ng li lj lk ll ci cj ck cl in
  good e /\ leng e < 2 ^ 31 /\ ncomp2 e <= 81 /\ prims_2e e ip jp kp lp <= 57856 /\
  nf e <= 136 * 136 * 136 * 136 /\ nc4 e <= 136 * 136 * 136 * 136 * (64 * 64 * 64 * 64) /\
  (size32 ip /\ size32 jp /\ size32 kp /\ size32 lp).
Proof.
  intros H Hnr e.
  destruct H as [[Hli [Hlj [Hlk Hll]]] [Hci [Hcj [Hck Hcl]]] [Hip [Hjp [Hkp Hlp]]] [Ki [Kj [Kk Kl]]] Hr Hb [C1 [C2 [C3 C4]]]].
  pose proof (len_cart_range li Hli) as Ni. pose proof (len_cart_range lj Hlj) as Nj.
  pose proof (len_cart_range lk Hlk) as Nk. pose proof (len_cart_range ll Hll) as Nl.
  assert (Hg : 1 <= g_size e <= 32 * 296208).
  { destruct (pair_dim_le (li + IINC ng) (lj + JINC ng) ltac:(lia) ltac:(lia)) as [A1 A2].
    destruct (pair_dim_le (lk + KINC ng) (ll + LINC ng) ltac:(lia) ltac:(lia)) as [B1 B2].
    pose proof (two_pairs (li + IINC ng + (lj + JINC ng)) (lk + KINC ng + (ll + LINC ng)) ltac:(lia) ltac:(lia) ltac:(lia)) as P.
    replace (g_size e) with (nr * (pair_dim (li + IINC ng) (lj + JINC ng) * pair_dim (lk + KINC ng) (ll + LINC ng)))
      by (unfold e, pair_dim; cbn; ring).
    apply (g_bound nr _ _ _ _ Hnr A1 B1 A2 B2 P). }
  assert (Hn : 1 <= nf e <= 136 * 136 * 136 * 136).
  { change (nf e) with (CINTlen_cart li * CINTlen_cart lk * CINTlen_cart ll * CINTlen_cart lj).
    split; [repeat apply mul_pos; lia|].
    repeat (apply prod_le; [split; [repeat apply Z.mul_nonneg_nonneg; lia|]|lia]); lia. }
  assert (Hc : 1 <= ci * cj * ck * cl <= 64 * 64 * 64 * 64).
  { split; [repeat apply mul_pos; lia|].
    repeat (apply prod_le; [split; [repeat apply Z.mul_nonneg_nonneg; lia|]|lia]); lia. }
  assert (HE : POS_E1 ng <= 81 /\ POS_E2 ng <= 81 /\ TENSOR ng <= 81).
  { assert (POS_E1 ng <= POS_E1 ng * POS_E2 ng /\ POS_E2 ng <= POS_E1 ng * POS_E2 ng) by nia.
    assert (POS_E1 ng * POS_E2 ng <= POS_E1 ng * POS_E2 ng * TENSOR ng /\ TENSOR ng <= POS_E1 ng * POS_E2 ng * TENSOR ng) by nia. lia. }
  split; [constructor; try (unfold size32; cbn; lia)|].
  - unfold size32. lia.
  - unfold size32. lia.
  - split.
    { eapply Z.le_lt_trans; [apply (leng_bound e (32 * 296208) 6); [lia|exact Hb|lia]|lia]. }
    split; [exact C4|].
    split.
    { unfold prims_2e. change (i_ctr e) with ci. change (j_ctr e) with cj. change (k_ctr e) with ck. change (l_ctr e) with cl.
      assert (ip * jp <= 64 * 64 /\ kp * lp <= 64 * 64 /\ ip * ci <= 64 * 64 /\ jp * cj <= 64 * 64 /\ kp * ck <= 64 * 64 /\ lp * cl <= 64 * 64)
        by (repeat split; apply prod_le; lia). lia. }
    split; [lia|]. split; [|unfold size32; lia].
    unfold nc4. change (i_ctr e) with ci. change (j_ctr e) with cj. change (k_ctr e) with ck. change (l_ctr e) with cl.
    replace (nf e * ci * cj * ck * cl) with (nf e * (ci * cj * ck * cl)) by ring. apply prod_le; lia.
Qed.

Lemma sr_range om n : 0 <= n <= 63 -> 1 <= sr_roots om (Z.quot n 2 + 1) <= 32.
Proof.
  intros H. rewrite Z.quot_div_nonneg by lia. unfold sr_roots.
  assert (0 <= n / 2 <= 31) by (pose proof (Z.div_mod n 2 ltac:(lia)); pose proof (Z.mod_pos_bound n 2 ltac:(lia)); lia).
  destruct (om && _) eqn:E; [apply andb_true_iff in E; lia|lia].
Qed.

Section Int2e.
Context (om : bool) (ng : ngT) (li lj lk ll ci cj ck cl ip jp kp lp : Z).
Hypothesis HL : limits4 ng li lj lk ll ci cj ck cl ip jp kp lp.
Let e := init_int2e om ng li lj lk ll ci cj ck cl.
Let S := int2e_cache_size e ip jp kp lp.

Lemma int2e_lim : good e /\ leng e < 2 ^ 31 /\ ncomp2 e <= 81 /\ prims_2e e ip jp kp lp <= 57856 /\
  nf e <= 136 * 136 * 136 * 136 /\ nc4 e <= 136 * 136 * 136 * 136 * (64 * 64 * 64 * 64) /\
  (size32 ip /\ size32 jp /\ size32 kp /\ size32 lp).
Proof.
  apply limits4_good; [exact HL|]. apply sr_range. pose proof (l_roots _ _ _ _ _ _ _ _ _ _ _ _ _ HL).
  pose proof (l_l _ _ _ _ _ _ _ _ _ _ _ _ _ HL). pose proof (l_inc _ _ _ _ _ _ _ _ _ _ _ _ _ HL). lia.
Qed.

Lemma ncomp2_range : 1 <= ncomp2 e <= 81.
Proof.
  destruct int2e_lim as (G & _ & H & _). split; [|exact H]. unfold ncomp2.
  pose proof (g_e1 e G). pose proof (g_e2 e G). pose proof (g_t e G). sz. repeat apply mul_pos; lia.
Qed.

Lemma pdata_lt : pdata_size_2e e ip jp kp lp < 2 ^ 33.
Proof.
  destruct int2e_lim as (G & _ & _ & HP & Hn & _).
  replace (pdata_size_2e e ip jp kp lp) with (prims_2e e ip jp kp lp + nf e * 3)
    by (unfold pdata_size_2e, prims_2e; lia). lia.
Qed.

Lemma nc4_pos : nf e <= nc4 e.
Proof.
  destruct int2e_lim as (G & _). unfold nc4.
  pose proof (g_nf e G). pose proof (g_ci e G). pose proof (g_cj e G). pose proof (g_ck e G). pose proof (g_cl e G). sz.
  destruct (prod3 (nf e) (i_ctr e) (j_ctr e) (k_ctr e)) as (_ & _ & A); try lia.
  destruct (mul_le (nf e * i_ctr e * j_ctr e * k_ctr e) (l_ctr e)); lia.
Qed.

Lemma S_range : 1 <= S < 2 ^ 61.
Proof.
  destruct int2e_lim as (G & HLg & Hc & HP & Hn & Hnc & _).
  pose proof ncomp2_range as HC. pose proof pdata_lt as HD. pose proof nc4_pos as H4.
  pose proof (g_nf e G) as Hnf. sz. pose proof (leng_pos e (g_g e G) (g_b e G)) as Hl.
  unfold S, int2e_cache_size.
  assert (A : nc4 e * ncomp2 e <= 136 * 136 * 136 * 136 * (64 * 64 * 64 * 64) * 81) by (apply prod_le; lia).
  assert (B : nf e * ncomp2 e <= 136 * 136 * 136 * 136 * 81) by (apply prod_le; lia).
  assert (D : 1 <= nc4 e * ncomp2 e) by (apply mul_pos; lia).
  lia.
Qed.

Lemma size_2e_lim : size_2e I32 e ip jp kp lp = Some S.
Proof.
  destruct int2e_lim as (G & HLg & Hc & HP & Hn & Hnc & K1 & K2 & K3 & K4). pose proof S_range.
  rewrite size_2e_ok by (try assumption; fold S; lia).
  replace (ncomp2 e <? 2 ^ 31) with true by lia. replace (prims_2e e ip jp kp lp <? 2 ^ 31) with true by lia.
  replace (leng e <? 2 ^ 31) with true by lia. reflexivity.
Qed.

Lemma q_int2e_lim : q_int2e I32 I32 e ip jp kp lp = Some (if S <? 2 ^ 31 - 1 then S else 0).
Proof.
  unfold q_int2e. rewrite size_2e_lim. cbn [bind]. pose proof S_range. unfold INT32_MAX.
  destruct (Z.leb_spec (2 ^ 31 - 1) S); destruct (Z.ltb_spec S (2 ^ 31 - 1)); try lia.
  - reflexivity.
  - rewrite conv_id by (cbn [top]; lia). reflexivity.
Qed.

Lemma q_int2e_i8_lim : q_int2e I32 I64 e ip jp kp lp = Some S.
Proof.
  unfold q_int2e. rewrite size_2e_lim. cbn [bind]. pose proof S_range.
  rewrite conv_id by (cbn [top]; lia). reflexivity.
Qed.

Lemma a_int2e_lim : a_int2e I32 e ip jp kp lp = Some (8 * S).
Proof. unfold a_int2e. rewrite size_2e_lim. cbn [bind]. apply alloc8. exact S_range. Qed.

(** spinors; [ni], [nj] the numbers of spinors of the first two shells *)
Lemma q_int2e_spinor_lim ni nj : 1 <= ni <= 3968 -> 1 <= nj <= 3968 ->
  let n1 := ni * nfk e * k_ctr e * nfl e * l_ctr e * nj in
  let S' := Z.max (leng e + nf e * ncomp2 e + nc4 e * ncomp2 e * 3 + pdata_size_2e e ip jp kp lp)
                  (nc4 e * ncomp2 e + n1 * ncomp_e2 e * 2 + nf e * 32 * 2) in
  q_int2e_spinor I32 I32 e ni nj ip jp kp lp =
  if n1 * ncomp_e2 e * 2 <? 2 ^ 31 then Some (if S' <? 2 ^ 31 - 1 then S' else 0) else None.
Proof.
  intros Hi Hj n1 S'.
  destruct int2e_lim as (G & HLg & Hc & HP & Hn & Hnc & K1 & K2 & K3 & K4).
  pose proof S_range as HS. unfold q_int2e_spinor.
  assert (HB : nfk e <= 136 /\ nfl e <= 136 /\ k_ctr e <= 64 /\ l_ctr e <= 64 /\ ncomp_e2 e <= 81).
  { pose proof (len_cart_range lk). pose proof (len_cart_range ll). destruct HL as [A1 A2 _ _ _ _ [C1 [C2 [C3 C4]]]].
    change (nfk e) with (CINTlen_cart lk). change (nfl e) with (CINTlen_cart ll).
    change (k_ctr e) with ck. change (l_ctr e) with cl. change (ncomp_e2 e) with (POS_E2 ng).
    assert (POS_E2 ng <= POS_E1 ng * POS_E2 ng) by nia.
    assert (POS_E1 ng * POS_E2 ng <= POS_E1 ng * POS_E2 ng * TENSOR ng) by nia. lia. }
  pose proof (g_nfk e G) as G1. pose proof (g_nfl e G) as G2. pose proof (g_ck e G) as G3. pose proof (g_cl e G) as G4.
  pose proof (g_e2 e G) as G5. sz.
  assert (Hn1 : 1 <= n1) by (unfold n1; repeat apply mul_pos; lia).
  assert (Hn1' : n1 <= 3968 * 136 * 64 * 136 * 64 * 3968).
  { unfold n1. repeat (apply prod_le; [split; [repeat apply Z.mul_nonneg_nonneg; lia|]|lia]); lia. }
  assert (Hn2 : 1 <= n1 * ncomp_e2 e <= 3968 * 136 * 64 * 136 * 64 * 3968 * 81).
  { split; [apply mul_pos; lia|apply prod_le; lia]. }
  assert (HS' : 1 <= S' < 2 ^ 62).
  { unfold S, int2e_cache_size in HS. unfold S'. pose proof ncomp2_range. pose proof nc4_pos. pose proof (g_nf e G). sz.
    assert (1 <= nc4 e * ncomp2 e) by (apply mul_pos; lia). lia. }
  rewrite size_2e_spinor_ok; try assumption; try (sz; lia). fold n1. fold S'.
  replace (ncomp2 e <? 2 ^ 31) with true by lia. replace (prims_2e e ip jp kp lp <? 2 ^ 31) with true by lia.
  replace (leng e <? 2 ^ 31) with true by lia. cbn [andb].
  destruct (n1 * ncomp_e2 e * 2 <? 2 ^ 31); cbn [bind]; [|reflexivity]. unfold INT32_MAX.
  destruct (Z.leb_spec (2 ^ 31 - 1) S'); destruct (Z.ltb_spec S' (2 ^ 31 - 1)); try lia.
  - reflexivity.
  - rewrite conv_id by (cbn [top]; lia). reflexivity.
Qed.
End Int2e.

(** *** three shells *)
Lemma comp_le a b : 1 <= a -> 1 <= b -> a * b <= 81 -> a <= 81 /\ b <= 81.
Proof. nia. Qed.

Lemma nf3_range li lj lk : 0 <= li <= 15 -> 0 <= lj <= 15 -> 0 <= lk <= 15 ->
  1 <= CINTlen_cart li * CINTlen_cart lj * CINTlen_cart lk <= 136 * 136 * 136.
Proof.
  intros Hi Hj Hk. pose proof (len_cart_range li Hi). pose proof (len_cart_range lj Hj). pose proof (len_cart_range lk Hk).
  split; [repeat apply mul_pos; lia|].
  repeat (apply prod_le; [split; [repeat apply Z.mul_nonneg_nonneg; lia|]|lia]); lia.
Qed.

Lemma g3_bound nr p s t : 1 <= nr <= 32 -> 1 <= p -> 2 * p <= (s + 1) * (s + 2) -> 0 <= s -> 0 <= t -> s + t <= 63 ->
  1 <= nr * (p * (t + 1)) <= 32 * 34320.
Proof.
  intros Hn Hp H Hs Ht Hst.
  assert (1 <= p * (t + 1)) by (apply mul_pos; lia).
  assert (A : (s + 1) * (t + 1) <= 1056) by (pose proof (amgm (s + 1) (t + 1) 65); lia).
  assert (B : (s + 1) * (t + 1) * (s + 2) <= 1056 * 65).
  { apply prod_le; [split; [apply Z.mul_nonneg_nonneg; lia|exact A]|lia]. }
  assert (D : 2 * p * (t + 1) <= (s + 1) * (s + 2) * (t + 1)) by (apply Z.mul_le_mono_nonneg_r; lia).
  assert (E : p * (t + 1) <= 34320) by lia.
  split; [apply mul_pos; lia|apply prod_le; lia].
Qed.

Definition lim3 (e : envs) (ip jp kp : Z) : Prop :=
  good1 e /\ leng e <= 425018880 /\ 1 <= ncomp1 e <= 81 /\ pdata_size_3c2e e ip jp kp < 2 ^ 31 /\
  nf e <= 2515456 /\ nf e <= nc3 e <= 2515456 * (64 * 64 * 64) /\
  (size32 ip /\ size32 jp /\ size32 kp).

Lemma ctr3_range a b c : 1 <= a <= 64 -> 1 <= b <= 64 -> 1 <= c <= 64 -> 1 <= a * b * c <= 64 * 64 * 64.
Proof.
  intros. split; [repeat apply mul_pos; lia|].
  repeat (apply prod_le; [split; [repeat apply Z.mul_nonneg_nonneg; lia|]|lia]); lia.
Qed.

Lemma pd3_bound a b c d e0 f g ip jp kp n : ip <= 64 -> jp <= 64 -> kp <= 64 -> n <= 2515456 ->
  a = ip * jp -> b = ip * e0 -> c = jp * f -> d = kp * g -> 1 <= ip -> 1 <= jp -> 1 <= kp ->
  0 <= e0 <= 64 -> 0 <= f <= 64 -> 0 <= g <= 64 ->
  a * 5 + b + c + d + (ip + jp) * 2 + kp + n * 3 + 16 < 2 ^ 31.
Proof.
  intros. assert (a <= 64 * 64 /\ b <= 64 * 64 /\ c <= 64 * 64 /\ d <= 64 * 64)
    by (subst; repeat split; apply prod_le; lia). lia.
Qed.

Lemma limits3_3c2e om ng li lj lk ci cj ck ip jp kp :
  limits3 ng li lj lk ci cj ck ip jp kp ->
  lim3 (init_int3c2e om ng li lj lk ci cj ck) ip jp kp.
Proof.
  intros H.
  destruct H as [[Hli [Hlj Hlk]] [Hci [Hcj Hck]] [Hip [Hjp Hkp]] [Ki [Kj Kk]] Hr Hb [C1 [C2 C3]]].
  pose proof (nf3_range li lk lj Hli Hlk Hlj) as Nn.
  pose proof (len_cart_range li Hli) as Ni. pose proof (len_cart_range lj Hlj) as Nj. pose proof (len_cart_range lk Hlk) as Nk.
  destruct (comp_le _ _ C1 C2 C3) as [C4 C5].
  pose proof (sr_range om (li + IINC ng + (lj + JINC ng) + (lk + KINC ng)) ltac:(lia)) as Hnr.
  pose proof (ctr3_range ci cj ck Hci Hcj Hck) as Hc3.
  assert (Hg : 1 <= g_size (init_int3c2e om ng li lj lk ci cj ck) <= 32 * 34320).
  { destruct (pair_dim_le (li + IINC ng) (lj + JINC ng) ltac:(lia) ltac:(lia)) as [A1 A2].
    replace (g_size _) with (sr_roots om (Z.quot (li + IINC ng + (lj + JINC ng) + (lk + KINC ng)) 2 + 1)
       * (pair_dim (li + IINC ng) (lj + JINC ng) * (lk + KINC ng + 1))) by (unfold pair_dim; cbn; ring).
    apply (g3_bound _ _ _ _ Hnr A1 A2); lia. }
  set (e := init_int3c2e om ng li lj lk ci cj ck) in *.
  change (CINTlen_cart li * CINTlen_cart lk * CINTlen_cart lj) with (nf e) in Nn.
  unfold lim3. split; [|split; [|split; [|split; [|split; [|split; [|unfold size32; lia]]]]]].
  - constructor; try (unfold size32; change (i_ctr e) with ci; change (j_ctr e) with cj; change (k_ctr e) with ck;
      change (ncomp_e1 e) with (POS_E1 ng); change (ncomp_tensor e) with (TENSOR ng); clearbody e; lia).
    + unfold size32, e. cbn [nrys_roots init_int3c2e]. cbv zeta. lia.
    + change (gbits e) with (GSHIFT ng). lia.
  - eapply Z.le_trans; [apply (leng_bound e (32 * 34320) 7); [clearbody e; lia|exact Hb|lia]|lia].
  - unfold ncomp1. change (ncomp_e1 e) with (POS_E1 ng). change (ncomp_tensor e) with (TENSOR ng).
    split; [apply mul_pos; lia|exact C3].
  - unfold pdata_size_3c2e. change (i_ctr e) with ci. change (j_ctr e) with cj. change (k_ctr e) with ck.
    eapply pd3_bound; try reflexivity; clearbody e; lia.
  - clearbody e; lia.
  - unfold nc3. change (i_ctr e) with ci. change (j_ctr e) with cj. change (k_ctr e) with ck.
    clearbody e. destruct (prod3 (nf e) ci cj ck) as (_ & _ & A); try lia. split; [exact A|].
    replace (nf e * ci * cj * ck) with (nf e * (ci * cj * ck)) by ring. apply prod_le; lia.
Qed.

Lemma limits3_3c1e ng li lj lk ci cj ck ip jp kp :
  limits3 ng li lj lk ci cj ck ip jp kp ->
  lim3 (init_int3c1e ng li lj lk ci cj ck) ip jp kp.
Proof.
  intros H.
  destruct H as [[Hli [Hlj Hlk]] [Hci [Hcj Hck]] [Hip [Hjp Hkp]] [Ki [Kj Kk]] Hr Hb [C1 [C2 C3]]].
  pose proof (nf3_range li lj lk Hli Hlj Hlk) as Nn.
  destruct (comp_le _ _ C1 C2 C3) as [C4 C5].
  pose proof (sr_range false (li + IINC ng + (lj + JINC ng) + (lk + KINC ng)) ltac:(lia)) as Hnr.
  pose proof (ctr3_range ci cj ck Hci Hcj Hck) as Hc3.
  assert (Hg : 1 <= g_size (init_int3c1e ng li lj lk ci cj ck) <= 32 * 34320).
  { cbn [g_size init_int3c1e]. cbv zeta.
    assert (A : (li + IINC ng + 1) * (lj + JINC ng + (lk + KINC ng) + 1) <= 1056)
      by (pose proof (amgm (li + IINC ng + 1) (lj + JINC ng + (lk + KINC ng) + 1) 65); lia).
    assert (A1 : 1 <= (li + IINC ng + 1) * (lj + JINC ng + (lk + KINC ng) + 1)) by (apply mul_pos; lia).
    assert (B : (li + IINC ng + 1) * (lj + JINC ng + (lk + KINC ng) + 1) * (lk + KINC ng + 1) <= 1056 * 64) by (apply prod_le; lia).
    assert (B1 : 1 <= (li + IINC ng + 1) * (lj + JINC ng + (lk + KINC ng) + 1) * (lk + KINC ng + 1)) by (apply mul_pos; lia).
    assert (D : (li + IINC ng + 1) * (li + IINC ng + (lj + JINC ng + (lk + KINC ng) + 1)) <= 64 * 64) by (apply prod_le; lia).
    lia. }
  set (e := init_int3c1e ng li lj lk ci cj ck) in *.
  change (CINTlen_cart li * CINTlen_cart lj * CINTlen_cart lk) with (nf e) in Nn.
  unfold lim3. split; [|split; [|split; [|split; [|split; [|split; [|unfold size32; lia]]]]]].
  - constructor; try (unfold size32; change (i_ctr e) with ci; change (j_ctr e) with cj; change (k_ctr e) with ck;
      change (ncomp_e1 e) with (POS_E1 ng); change (ncomp_tensor e) with (TENSOR ng); clearbody e; lia).
    + unfold size32, e. cbn [nrys_roots init_int3c1e]. cbv zeta. unfold sr_roots in Hnr. cbn [andb] in Hnr. lia.
    + change (gbits e) with (GSHIFT ng). lia.
  - eapply Z.le_trans; [apply (leng_bound e (32 * 34320) 7); [clearbody e; lia|exact Hb|lia]|lia].
  - unfold ncomp1. change (ncomp_e1 e) with (POS_E1 ng). change (ncomp_tensor e) with (TENSOR ng).
    split; [apply mul_pos; lia|exact C3].
  - unfold pdata_size_3c2e. change (i_ctr e) with ci. change (j_ctr e) with cj. change (k_ctr e) with ck.
    eapply pd3_bound; try reflexivity; clearbody e; lia.
  - clearbody e; lia.
  - unfold nc3. change (i_ctr e) with ci. change (j_ctr e) with cj. change (k_ctr e) with ck.
    clearbody e. destruct (prod3 (nf e) ci cj ck) as (_ & _ & A); try lia. split; [exact A|].
    replace (nf e * ci * cj * ck) with (nf e * (ci * cj * ck)) by ring. apply prod_le; lia.
Qed.

Section Three.
Context (e : envs) (ip jp kp : Z).
Hypothesis HL : lim3 e ip jp kp.

Lemma lim3_size : 1 <= int3c2e_cache_size e ip jp kp < 2 ^ 61.
Proof.
  destruct HL as (G & Hl & Hn & Hp & Hf & Hc & _). unfold int3c2e_cache_size.
  pose proof (leng_pos e (h_g e G) (h_b e G)). pose proof (h_nf e G) as Hf1. sz.
  assert (nc3 e * ncomp1 e <= 2515456 * (64 * 64 * 64) * 81) by (apply prod_le; lia).
  assert (1 <= nc3 e * ncomp1 e) by (apply mul_pos; lia).
  assert (nf e * ncomp1 e <= 2515456 * 81) by (apply prod_le; lia). lia.
Qed.

Lemma q_int3c2e_lim C : C <> U64 ->
  q_int3c2e I32 C e ip jp kp =
  if nc3 e <? 2 ^ 31 then Some (conv C (int3c2e_cache_size e ip jp kp)) else None.
Proof.
  intros HC. pose proof lim3_size. destruct HL as (G & Hl & Hn & Hp & Hf & Hc & K1 & K2 & K3).
  assert (nf e * ncomp1 e <= 2515456 * 81) by (pose proof (h_nf e G); sz; apply prod_le; lia).
  rewrite q_int3c2e_ok by (try assumption; lia).
  replace (ncomp1 e <? 2 ^ 31) with true by lia. replace (pdata_size_3c2e e ip jp kp <? 2 ^ 31) with true by lia.
  replace (leng e <? 2 ^ 31) with true by lia. replace (nf e * ncomp1 e <? 2 ^ 31) with true by lia.
  replace (leng e + nf e * ncomp1 e <? 2 ^ 31) with true by lia.
  rewrite !andb_true_r. replace (match C with I32 => true | _ => true end) with true by (destruct C; reflexivity).
  rewrite andb_true_r. reflexivity.
Qed.

Lemma a_int3c2e_lim :
  a_int3c2e I32 e ip jp kp = if nc3 e <? 2 ^ 31 then Some (8 * int3c2e_cache_size e ip jp kp) else None.
Proof.
  pose proof lim3_size. destruct HL as (G & Hl & Hn & Hp & Hf & Hc & K1 & K2 & K3).
  assert (nf e * ncomp1 e <= 2515456 * 81) by (pose proof (h_nf e G); sz; apply prod_le; lia).
  rewrite a_int3c2e_ok by (try assumption; lia).
  replace (ncomp1 e <? 2 ^ 31) with true by lia. replace (pdata_size_3c2e e ip jp kp <? 2 ^ 31) with true by lia.
  replace (leng e <? 2 ^ 31) with true by lia. replace (nf e * ncomp1 e <? 2 ^ 31) with true by lia.
  rewrite !andb_true_r. reflexivity.
Qed.

Lemma size_3c1e_lim :
  size_3c1e I32 e ip jp kp =
  if nc3 e * ncomp1 e * 4 <? 2 ^ 31 then Some (wrap32 (int3c1e_cache_size e ip jp kp)) else None.
Proof.
  destruct HL as (G & Hl & Hn & Hp & Hf & Hc & K1 & K2 & K3).
  pose proof (leng_pos e (h_g e G) (h_b e G)). pose proof (h_nf e G) as Hf1.
  pose proof (h_ci e G) as Hci. pose proof (h_cj e G) as Hcj. pose proof (h_ck e G) as Hck. sz.
  assert (M1 : nc3 e * ncomp1 e <= 2515456 * (64 * 64 * 64) * 81) by (apply prod_le; lia).
  assert (M2 : nf e * ncomp1 e <= 2515456 * 81) by (apply prod_le; lia).
  assert (M3 : nf e <= nc3 e * ncomp1 e).
  { destruct (mul_le (nc3 e) (ncomp1 e)); lia. }
  assert (M4 : ip * i_ctr e + jp * j_ctr e + kp * k_ctr e + nf e * 3 < 2 ^ 31).
  { unfold pdata_size_3c2e in Hp. assert (0 <= ip * jp) by (apply Z.mul_nonneg_nonneg; lia). lia. }
  rewrite size_3c1e_ok; try assumption; [|unfold int3c1e_cache_size; lia].
  replace (ip * i_ctr e + jp * j_ctr e + kp * k_ctr e + nf e * 3 <? 2 ^ 31) with true by lia.
  replace (leng e <? 2 ^ 31) with true by lia. rewrite !andb_true_r.
  replace ((nc3 e * ncomp1 e * 4 <? 2 ^ 31) && (nc3 e * ncomp1 e + nf e * 3 <? 2 ^ 31)) with (nc3 e * ncomp1 e * 4 <? 2 ^ 31) by lia.
  reflexivity.
Qed.
End Three.

(** *** four shells, one electron *)
Lemma q_int4c1e_lim C ng li lj lk ll ci cj ck cl ip jp kp lp : C <> U64 ->
  limits4 ng li lj lk ll ci cj ck cl ip jp kp lp ->
  let e := init_int4c1e ng li lj lk ll ci cj ck cl in
  q_int4c1e I32 C e ip jp kp lp =
  if (nc4 e <? 2 ^ 31) && (nf e * 64 <? 2 ^ 31) &&
     (match C with I32 => leng e | _ => 0 end + nf e * ncomp2 e <? 2 ^ 31)
  then Some (conv C (int4c1e_cache_size e ip jp kp lp)) else None.
Proof.
  intros HC HL e.
  destruct (limits4_good 1 0 ng li lj lk ll ci cj ck cl ip jp kp lp HL ltac:(lia)) as (G & Hl & Hn & Hp & Hf & Hc & K1 & K2 & K3 & K4).
  fold (init_int4c1e ng li lj lk ll ci cj ck cl) in *. fold e in G, Hl, Hn, Hp, Hf, Hc. clearbody e.
  pose proof (leng_pos e (g_g e G) (g_b e G)). pose proof (g_nf e G) as Hf1.
  assert (Hn1 : 1 <= ncomp2 e).
  { pose proof (g_e1 e G). pose proof (g_e2 e G). pose proof (g_t e G). sz. unfold ncomp2. repeat apply mul_pos; lia. }
  assert (H4 : 1 <= nc4 e).
  { pose proof (g_ci e G). pose proof (g_cj e G). pose proof (g_ck e G). pose proof (g_cl e G). sz. unfold nc4. repeat apply mul_pos; lia. }
  pose proof (g_ci e G) as G1. pose proof (g_cj e G) as G2. pose proof (g_ck e G) as G3. pose proof (g_cl e G) as G4.
  assert (M1 : nc4 e * ncomp2 e <= 136 * 136 * 136 * 136 * (64 * 64 * 64 * 64) * 81) by (apply prod_le; lia).
  assert (M2 : nf e * ncomp2 e <= 136 * 136 * 136 * 136 * 81) by (sz; apply prod_le; lia).
  unfold prims_2e in Hp. sz.
  assert (P : 0 <= ip * jp /\ 0 <= kp * lp /\ 0 <= ip * i_ctr e /\ 0 <= jp * j_ctr e /\ 0 <= kp * k_ctr e /\ 0 <= lp * l_ctr e)
    by (repeat split; apply Z.mul_nonneg_nonneg; lia).
  rewrite q_int4c1e_ok; try assumption; [|unfold int4c1e_cache_size; lia].
  replace (ncomp2 e <? 2 ^ 31) with true by lia. replace (leng e <? 2 ^ 31) with true by lia.
  rewrite !andb_true_r.
  match goal with |- (if ?b then _ else _) = (if ?c then _ else _) =>
    replace b with c; [reflexivity|] end.
  destruct C; cbv iota; [lia|lia|congruence].
Qed.

(** *** two shells *)
Lemma limits2_1e ng li lj ci cj ip jp : limits2 ng li lj ci cj ip jp ->
  good1 (init_int1e ng li lj ci cj) /\ size32 ip /\ size32 jp.
Proof.
  intros [[Hli Hlj] [Hci Hcj] [Hip Hjp] [Ki Kj] [Hr Hr2] Hb [C1 [C2 C3]]].
  pose proof (len_cart_range li Hli) as Ni. pose proof (len_cart_range lj Hlj) as Nj.
  destruct (comp_le _ _ C1 C2 C3) as [C4 C5].
  pose proof (sr_range false (li + IINC ng + (lj + JINC ng)) ltac:(lia)) as Hnr. unfold sr_roots in Hnr. cbn [andb] in Hnr.
  assert (Hnn : 1 <= nrys_roots (init_int1e ng li lj ci cj) <= 32).
  { cbn [nrys_roots init_int1e]. cbv zeta. destruct (Z.ltb_spec 0 (POS_E2 ng)); lia. }
  assert (Hg : 1 <= g_size (init_int1e ng li lj ci cj) <= 32 * 34320).
  { destruct (pair_dim_le (li + IINC ng) (lj + JINC ng) ltac:(lia) ltac:(lia)) as [A1 A2].
    replace (g_size _) with (nrys_roots (init_int1e ng li lj ci cj) * (pair_dim (li + IINC ng) (lj + JINC ng) * (0 + 1)))
      by (unfold pair_dim; cbn; ring).
    apply (g3_bound _ _ _ _ Hnn A1 A2); lia. }
  split; [|unfold size32; lia].
  constructor; unfold size32; try lia; cbn [nf i_ctr j_ctr k_ctr ncomp_e1 ncomp_tensor gbits init_int1e]; cbv zeta; try lia.
  assert (CINTlen_cart li * CINTlen_cart lj <= 136 * 136) by (apply prod_le; lia).
  assert (1 <= CINTlen_cart li * CINTlen_cart lj) by (apply mul_pos; lia). lia.
Qed.

Lemma limits2_2c2e om ng li lk ci ck ip kp : limits3 ng li 0 lk ci 1 ck ip 1 kp -> JINC ng = 0 -> GSHIFT ng <= 6 ->
  good1 (init_int2c2e om ng li lk ci ck) /\ size32 ip /\ size32 kp.
Proof.
  intros [[Hli [_ Hlk]] [Hci [_ Hck]] [Hip [_ Hkp]] [Ki [Kj Kk]] Hr Hb [C1 [C2 C3]]] Hj Hb6.
  pose proof (len_cart_range li Hli) as Ni. pose proof (len_cart_range lk Hlk) as Nk.
  destruct (comp_le _ _ C1 C2 C3) as [C4 C5].
  pose proof (sr_range om (li + IINC ng + (lk + KINC ng)) ltac:(lia)) as Hnr.
  assert (Hg : 1 <= g_size (init_int2c2e om ng li lk ci ck) <= 32 * 34320).
  { cbn [g_size init_int2c2e]. cbv zeta. set (nr := sr_roots _ _) in *. clearbody nr.
    pose proof (amgm (li + IINC ng + 1) (lk + KINC ng + 1) 65).
    assert (1 <= nr * (li + IINC ng + 1) * (lk + KINC ng + 1)) by (repeat apply mul_pos; lia).
    assert (nr * ((li + IINC ng + 1) * (lk + KINC ng + 1)) <= 32 * 1056).
    { apply prod_le; [lia|split; [apply Z.mul_nonneg_nonneg; lia|lia]]. }
    lia. }
  split; [|unfold size32; lia].
  constructor; unfold size32; try lia; cbn [nf i_ctr j_ctr k_ctr ncomp_e1 ncomp_tensor gbits nrys_roots init_int2c2e]; cbv zeta; try lia.
  assert (CINTlen_cart li * CINTlen_cart lk <= 136 * 136) by (apply prod_le; lia).
  assert (1 <= CINTlen_cart li * CINTlen_cart lk) by (apply mul_pos; lia). lia.
Qed.

Lemma limits2_grids om ng li lj ci cj ip jp : limits2 ng li lj ci cj ip jp ->
  let e := init_int1e_grids om ng li lj ci cj in
  good1 e /\ size32 ip /\ size32 jp /\ nrys_roots e <= 64 /\ leng e < 2 ^ 40 /\ nf e <= 136 * 136 /\
  1 <= ncomp1 e <= 81 /\ (i_ctr e <= 64 /\ j_ctr e <= 64).
Proof.
  intros [[Hli Hlj] [Hci Hcj] [Hip Hjp] [Ki Kj] [Hr Hr2] Hb [C1 [C2 C3]]] e.
  pose proof (len_cart_range li Hli) as Ni. pose proof (len_cart_range lj Hlj) as Nj.
  destruct (comp_le _ _ C1 C2 C3) as [C4 C5].
  pose proof (sr_range false (li + IINC ng + (lj + JINC ng)) ltac:(lia)) as Hnr. unfold sr_roots in Hnr. cbn [andb] in Hnr.
  assert (Hn1 : 1 <= nrys_roots (init_int1e ng li lj ci cj) <= 32).
  { cbn [nrys_roots init_int1e]. cbv zeta. destruct (Z.ltb_spec 0 (POS_E2 ng)); lia. }
  assert (Hnn : 1 <= nrys_roots e <= 32).
  { change (nrys_roots e) with (sr_roots om (nrys_roots (init_int1e ng li lj ci cj))).
    unfold sr_roots. destruct (om && _) eqn:E; [apply andb_true_iff in E; lia|lia]. }
  assert (Hg : 1 <= g_size e <= 104 * (32 * 34320)).
  { destruct (pair_dim_le (li + IINC ng) (lj + JINC ng) ltac:(lia) ltac:(lia)) as [A1 A2].
    replace (g_size e) with (104 * (nrys_roots e * (pair_dim (li + IINC ng) (lj + JINC ng) * (0 + 1))))
      by (unfold e, pair_dim; cbn [g_size nrys_roots init_int1e_grids init_int1e li_ceil lj_ceil]; cbv zeta; unfold GRID_BLKSIZE; ring).
    pose proof (g3_bound (nrys_roots e) _ (li + IINC ng + (lj + JINC ng)) 0 Hnn A1 A2). lia. }
  assert (Hf : 1 <= nf e <= 136 * 136).
  { change (nf e) with (CINTlen_cart li * CINTlen_cart lj). split; [apply mul_pos; lia|apply prod_le; lia]. }
  assert (Hc : 1 <= ncomp1 e <= 81).
  { unfold ncomp1. change (ncomp_e1 e) with (POS_E1 ng). change (ncomp_tensor e) with (TENSOR ng). split; [apply mul_pos; lia|exact C3]. }
  change (i_ctr e) with ci. change (j_ctr e) with cj.
  split; [|split; [|split; [|split; [|split; [|split; [|split; [exact Hc|]]]]]]]; try (unfold size32; lia); try lia.
  - constructor; try (unfold size32; change (i_ctr e) with ci; change (j_ctr e) with cj; change (k_ctr e) with 1;
      change (ncomp_e1 e) with (POS_E1 ng); change (ncomp_tensor e) with (TENSOR ng); clearbody e; lia).
    change (gbits e) with (GSHIFT ng). lia.
  - eapply Z.le_lt_trans; [apply (leng_bound e (104 * (32 * 34320)) 6); [clearbody e; lia|exact Hb|lia]|lia].
Qed.
