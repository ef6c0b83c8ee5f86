(** PropsOvf.v — C56: integer overflow in the size computations.

    [q_* F C ...] is the size query of a driver evaluated in C integers, FINT = [F] and
    CACHE_SIZE_T = [C]; [None] is signed overflow, undefined behaviour.  [*_cache_size] is
    the same formula over the integers, the size that C29-C32 are about. *)
From Verif Require Import Base BasModel EnvModel CacheModel OvfModel OvfSpec OvfProof OvfFinal OvfLim OvfI8.
From Verif Require Import WrapModel WrapSpec.
Local Open Scope Z_scope.

(** Four-index two-electron integrals within the limits: nothing overflows, the driver's
    own allocation is exact, and the query returns the size or refuses with 0. *)
Theorem C56_int2e om ng li lj lk ll ci cj ck cl ip jp kp lp :
  limits4 ng li lj lk ll ci cj ck cl ip jp kp lp ->
  let e := init_int2e om ng li lj lk ll ci cj ck cl in
  let S := int2e_cache_size e ip jp kp lp in
  q_int2e I32 I32 e ip jp kp lp = Some (if S <? 2 ^ 31 - 1 then S else 0) /\
  q_int2e I32 I64 e ip jp kp lp = Some S /\
  a_int2e I32 e ip jp kp lp = Some (8 * S).
Proof.
  intros H e S. split; [|split].
  - apply q_int2e_lim; exact H.
  - apply q_int2e_i8_lim; exact H.
  - apply a_int2e_lim; exact H.
Qed.
Print Assumptions C56_int2e.

(** The same for any operator and shells, whatever their size: three products are FINT. *)
Theorem C56_int2e_region e ip jp kp lp : good e -> size32 ip -> size32 jp -> size32 kp -> size32 lp ->
  int2e_cache_size e ip jp kp lp < 2 ^ 64 ->
  size_2e I32 e ip jp kp lp =
  if (ncomp2 e <? 2 ^ 31) && (prims_2e e ip jp kp lp <? 2 ^ 31) && (leng e <? 2 ^ 31)
  then Some (int2e_cache_size e ip jp kp lp) else None.
Proof. exact (size_2e_ok e ip jp kp lp). Qed.
Print Assumptions C56_int2e_region.

(** Four-index spinors: the number [n1] of half-transformed functions is a FINT, computed
    before the size is compared with INT32_MAX. *)
Theorem C56_int2e_spinor om ng li lj lk ll ci cj ck cl ip jp kp lp ki kj :
  limits4 ng li lj lk ll ci cj ck cl ip jp kp lp ->
  let e := init_int2e om ng li lj lk ll ci cj ck cl in
  let S := int2e_spinor_cache_size e ki kj ip jp kp lp in
  1 <= len_spinor ki li -> 1 <= len_spinor kj lj ->
  q_int2e_spinor I32 I32 e (len_spinor ki li * ci) (len_spinor kj lj * cj) ip jp kp lp =
  if n1_2e e ki kj * ncomp_e2 e * 2 <? 2 ^ 31 then Some (if S <? 2 ^ 31 - 1 then S else 0) else None.
Proof.
  intros H e S Hi Hj.
  assert (Hb : forall k l c, 0 <= l <= 15 -> 1 <= c <= 64 -> 1 <= len_spinor k l -> 1 <= len_spinor k l * c <= 3968).
  { intros k l c Hl Hc Hk. assert (len_spinor k l <= 62).
    { unfold len_spinor. destruct (0 =? k); [lia|]. destruct (k <? 0); lia. }
    split; [apply mul_pos; lia|]. change 3968 with (62 * 64). apply prod_le; lia. }
  pose proof H as HL. destruct H as [A1 A2 _ _ _ _ _].
  pose proof (q_int2e_spinor_lim om ng li lj lk ll ci cj ck cl ip jp kp lp HL _ _
    (Hb ki li ci ltac:(lia) ltac:(lia) Hi) (Hb kj lj cj ltac:(lia) ltac:(lia) Hj)) as Q.
  cbv zeta in Q. fold e in Q.
  replace (len_spinor ki li * ci * nfk e * k_ctr e * nfl e * l_ctr e * (len_spinor kj lj * cj))
    with (n1_2e e ki kj) in Q by reflexivity.
  exact Q.
Qed.
Print Assumptions C56_int2e_spinor.

(** There are shells within the limits for which it overflows instead of refusing. *)
Theorem C56_int2e_spinor_refuted : exists ng l c p,
  limits4 ng l l l l c c c c p p p p /\
  q_int2e_spinor I32 I32 (init_int2e false ng l l l l c c c c) (len_spinor 0 l * c) (len_spinor 0 l * c) p p p p = None.
Proof.
  exists (mkng 0 0 0 0 0 1 1 1), 4, 20, 20. split; [|vm_compute; reflexivity].
  constructor; cbn; lia.
Qed.
Print Assumptions C56_int2e_spinor_refuted.

(** One-electron and two-index integrals: undefined exactly when the size reaches 2^31. *)
Theorem C56_int1e C ng li lj ci cj ip jp : C <> U64 -> limits2 ng li lj ci cj ip jp ->
  let e := init_int1e ng li lj ci cj in
  q_int1e I32 C e ip jp =
  if int1e_cache_size e ip jp <? 2 ^ 31 then Some (int1e_cache_size e ip jp) else None.
Proof.
  intros HC H e. destruct (limits2_1e _ _ _ _ _ _ _ H) as (G & H1 & H2). apply q_int1e_ok; assumption.
Qed.
Print Assumptions C56_int1e.

Theorem C56_int2c2e C om ng li lk ci ck ip kp : C <> U64 ->
  limits3 ng li 0 lk ci 1 ck ip 1 kp -> JINC ng = 0 -> GSHIFT ng <= 6 ->
  let e := init_int2c2e om ng li lk ci ck in
  q_int1e I32 C e ip kp =
  if int1e_cache_size e ip kp <? 2 ^ 31 then Some (int1e_cache_size e ip kp) else None.
Proof.
  intros HC H Hj Hb e. destruct (limits2_2c2e om _ _ _ _ _ _ _ H Hj Hb) as (G & H1 & H2). apply q_int1e_ok; assumption.
Qed.
Print Assumptions C56_int2c2e.

(** Two contracted k shells with 23 functions each: the formula multiplies the number of
    Cartesian pairs by itself, so it overflows although the integrals take 8.6 MB. *)
Theorem C56_int1e_refuted : exists ng l c p,
  limits2 ng l l c c p p /\
  let e := init_int1e ng l l c c in
  nf e * c * c * ncomp1 e < 2 ^ 21 /\
  q_int1e I32 I32 e p p = None /\ q_int1e I32 I64 e p p = None.
Proof.
  exists (mkng 0 0 0 0 0 1 1 1), 8, 23, 23. split; [constructor; cbn; lia|].
  cbv zeta. split; [vm_compute; reflexivity|]. split; vm_compute; reflexivity.
Qed.
Print Assumptions C56_int1e_refuted.

(** Three-index two-electron integrals: undefined exactly when nf*ci*cj*ck reaches 2^31;
    otherwise the query returns the size cut to CACHE_SIZE_T, never refusing. *)
Theorem C56_int3c2e om ng li lj lk ci cj ck ip jp kp :
  limits3 ng li lj lk ci cj ck ip jp kp ->
  let e := init_int3c2e om ng li lj lk ci cj ck in
  let S := int3c2e_cache_size e ip jp kp in
  q_int3c2e I32 I32 e ip jp kp = (if nc3 e <? 2 ^ 31 then Some (wrap32 S) else None) /\
  q_int3c2e I32 I64 e ip jp kp = (if nc3 e <? 2 ^ 31 then Some S else None) /\
  a_int3c2e I32 e ip jp kp = (if nc3 e <? 2 ^ 31 then Some (8 * S) else None).
Proof.
  intros H e S. pose proof (limits3_3c2e om _ _ _ _ _ _ _ _ _ _ H) as HL. fold e in HL.
  split; [|split].
  - apply (q_int3c2e_lim e ip jp kp HL I32). discriminate.
  - rewrite (q_int3c2e_lim e ip jp kp HL I64) by discriminate.
    pose proof (lim3_size e ip jp kp HL) as HS. rewrite (conv_id I64); [reflexivity|]. cbn [top]. lia.
  - apply a_int3c2e_lim. exact HL.
Qed.
Print Assumptions C56_int3c2e.

(** The returned size can be positive and far too small: a caller that allocates what it
    was told gets a buffer overrun. *)
Theorem C56_int3c2e_refuted : exists ng li lj lk ci cj ck p s,
  limits3 ng li lj lk ci cj ck p p p /\
  let e := init_int3c2e false ng li lj lk ci cj ck in
  q_int3c2e I32 I32 e p p p = Some s /\ 0 < s /\ s + 2 ^ 32 = int3c2e_cache_size e p p p.
Proof.
  exists (mkng 0 0 0 0 0 1 1 1), 15, 15, 15, 24, 24, 1, 24,
    (int3c2e_cache_size (init_int3c2e false (mkng 0 0 0 0 0 1 1 1) 15 15 15 24 24 1) 24 24 24 - 2 ^ 32).
  split; [constructor; cbn; lia|]. cbv zeta. split; [vm_compute; reflexivity|]. split; vm_compute; reflexivity.
Qed.
Print Assumptions C56_int3c2e_refuted.

Theorem C56_int3c2e_spinor C e ip jp kp : C <> U64 -> good e -> size32 ip -> size32 jp -> size32 kp ->
  int3c2e_spinor_cache_size e ip jp kp < 2 ^ 63 ->
  q_int3c2e_spinor I32 C e ip jp kp =
  if (nc3 e * ncomp2 e * 3 <? 2 ^ 31) && (pdata_size_3c2e e ip jp kp <? 2 ^ 31) &&
     (leng e <? 2 ^ 31) && (nc3 e * ncomp2 e + nf e * 28 <? 2 ^ 31)
  then Some (conv C (int3c2e_spinor_cache_size e ip jp kp)) else None.
Proof. exact (q_int3c2e_spinor_ok C e ip jp kp). Qed.
Print Assumptions C56_int3c2e_spinor.

Lemma conv_wrap z : conv I32 (wrap32 z) = wrap32 z.
Proof.
  unfold conv, wrap32. pose proof (Z.mod_pos_bound (z + 2 ^ 31) (2 ^ 32) ltac:(lia)).
  replace ((z + 2 ^ 31) mod 2 ^ 32 - 2 ^ 31 + 2 ^ 31) with ((z + 2 ^ 31) mod 2 ^ 32) by ring.
  rewrite Z.mod_mod by lia. reflexivity.
Qed.

(** Three-index one-electron integrals: cache_size is a FINT; the driver's own malloc sees
    it too. *)
Theorem C56_int3c1e ng li lj lk ci cj ck ip jp kp :
  limits3 ng li lj lk ci cj ck ip jp kp ->
  let e := init_int3c1e ng li lj lk ci cj ck in
  let S := int3c1e_cache_size e ip jp kp in
  q_int3c1e I32 I32 e ip jp kp = (if nc3 e * ncomp1 e * 4 <? 2 ^ 31 then Some (wrap32 S) else None) /\
  a_int3c1e I32 e ip jp kp = (if nc3 e * ncomp1 e * 4 <? 2 ^ 31 then Some (8 * (wrap32 S) mod 2 ^ 64) else None).
Proof.
  intros H e S. pose proof (limits3_3c1e _ _ _ _ _ _ _ _ _ _ H) as HL. fold e in HL.
  unfold q_int3c1e, a_int3c1e. rewrite (size_3c1e_lim e ip jp kp HL). fold S.
  destruct (nc3 e * ncomp1 e * 4 <? 2 ^ 31); cbn [bind]; [|split; reflexivity].
  split; [rewrite conv_wrap; reflexivity|].
  unfold store. cbn [ev ty_of common bind conv result].
  rewrite Z.mod_mod by lia. rewrite Zmult_mod_idemp_r. rewrite Z.mod_small with (a := 8) by lia. reflexivity.
Qed.
Print Assumptions C56_int3c1e.

(** A size between 2^31 and 2^32 becomes negative, and the driver asks malloc for more than
    2^63 bytes; it does not check the result. *)
Theorem C56_int3c1e_refuted : exists ng l c1 c2 c3 p,
  limits3 ng l l l c1 c2 c3 p p p /\
  let e := init_int3c1e ng l l l c1 c2 c3 in
  (exists s, q_int3c1e I32 I32 e p p p = Some s /\ s < 0) /\
  (exists b, a_int3c1e I32 e p p p = Some b /\ 2 ^ 63 < b).
Proof.
  exists (mkng 0 0 0 0 0 1 1 1), 14, 62, 5, 1, 62. split; [constructor; cbn; lia|]. cbv zeta.
  split.
  - eexists. split; [vm_compute; reflexivity|]. vm_compute. reflexivity.
  - eexists. split; [vm_compute; reflexivity|]. vm_compute. reflexivity.
Qed.
Print Assumptions C56_int3c1e_refuted.

(** Four-index one-electron integrals. *)
Theorem C56_int4c1e C ng li lj lk ll ci cj ck cl ip jp kp lp : C <> U64 ->
  limits4 ng li lj lk ll ci cj ck cl ip jp kp lp ->
  let e := init_int4c1e ng li lj lk ll ci cj ck cl in
  q_int4c1e I32 C e ip jp kp lp =
  if (nc4 e <? 2 ^ 31) && (nf e * 64 <? 2 ^ 31) &&
     (match C with I32 => leng e | _ => 0 end + nf e * ncomp2 e <? 2 ^ 31)
  then Some (conv C (int4c1e_cache_size e ip jp kp lp)) else None.
Proof. exact (q_int4c1e_lim C ng li lj lk ll ci cj ck cl ip jp kp lp). Qed.
Print Assumptions C56_int4c1e.

Theorem C56_int4c1e_refuted : exists ng l c p,
  limits4 ng l l l l c c c c p p p p /\
  q_int4c1e I32 I32 (init_int4c1e ng l l l l c c c c) p p p p = None.
Proof.
  exists (mkng 0 0 0 0 0 1 1 1), 4, 15, 15. split; [constructor; cbn; lia|]. vm_compute. reflexivity.
Qed.
Print Assumptions C56_int4c1e_refuted.

(** Integrals on a grid: the number of grid points multiplies a FINT. *)
Theorem C56_grids C om ng li lj ci cj ip jp ngrids : C <> U64 -> 1 <= ngrids < 2 ^ 30 ->
  limits2 ng li lj ci cj ip jp ->
  let e := init_int1e_grids om ng li lj ci cj in
  q_grids I32 C e ngrids ip jp =
  if (ngrids * nf e * ci * cj * ncomp1 e <? 2 ^ 31) &&
     (ip * jp * 5 + ip * ci + jp * cj + (ip + jp) * 2 + nf e * 3 <? 2 ^ 31) &&
     (leng e <? 2 ^ 31) && (104 * nf e * ncomp1 e <? 2 ^ 31) &&
     (ngrids * nf e * ci * cj * ncomp1 e + 104 * nf e * 16 <? 2 ^ 31)
  then Some (conv C (int1e_grids_cache_size e ngrids ip jp)) else None.
Proof.
  intros HC Hg H e. pose proof (n_p _ _ _ _ _ _ _ H) as Hp. destruct (limits2_grids om _ _ _ _ _ _ _ H) as (G & H1 & H2 & H3 & H4 & H5 & H6 & H7 & H8).
  fold e in G, H3, H4, H5, H6, H7, H8. change ci with (i_ctr e). change cj with (j_ctr e). clearbody e.
  apply q_grids_ok; try assumption; [unfold size32; lia|lia|].
  assert (G1 := h_ci e G). assert (G2 := h_cj e G). assert (G3 := h_nf e G). pose proof (leng_pos e (h_g e G) (h_b e G)).
  unfold size32 in *. unfold int1e_grids_cache_size, GRID_BLKSIZE. cbv zeta.
  assert (I0 : 0 <= ngrids * nf e <= 2 ^ 30 * 18496) by (split; [apply Z.mul_nonneg_nonneg; lia|apply prod_le; lia]).
  assert (I1 : 0 <= ngrids * nf e * i_ctr e <= 2 ^ 30 * 18496 * 64) by (split; [apply Z.mul_nonneg_nonneg; lia|apply prod_le; lia]).
  assert (I2 : 0 <= ngrids * nf e * i_ctr e * j_ctr e <= 2 ^ 30 * 18496 * 64 * 64) by (split; [apply Z.mul_nonneg_nonneg; lia|apply prod_le; lia]).
  assert (I3 : 0 <= ngrids * nf e * i_ctr e * j_ctr e * ncomp1 e <= 2 ^ 30 * 18496 * 64 * 64 * 81) by (split; [apply Z.mul_nonneg_nonneg; lia|apply prod_le; lia]).
  assert (J0 : 0 <= 104 * nf e * ncomp1 e <= 104 * 18496 * 81) by (split; [apply Z.mul_nonneg_nonneg; lia|apply prod_le; lia]).
  assert (J1 : 0 <= 104 * nf e * ncomp1 e * i_ctr e <= 104 * 18496 * 81 * 64) by (split; [apply Z.mul_nonneg_nonneg; lia|apply prod_le; lia]).
  assert (J2 : 104 * nf e * ncomp1 e * i_ctr e * j_ctr e <= 104 * 18496 * 81 * 64 * 64) by (apply prod_le; lia).
  assert (K0 : ip * jp <= 64 * 64) by (apply prod_le; lia).
  assert (K1 : ip * i_ctr e <= 64 * 64) by (apply prod_le; lia).
  assert (K2 : jp * j_ctr e <= 64 * 64) by (apply prod_le; lia).
  lia.
Qed.
Print Assumptions C56_grids.

Theorem C56_grids_refuted : exists ng l c p ngrids,
  limits2 ng l l c c p p /\ ngrids < 2 ^ 17 /\
  q_grids I32 I32 (init_int1e_grids false ng l l c c) ngrids p p = None.
Proof.
  exists (mkng 0 0 0 0 0 1 0 1), 1, 50, 50, 100000.
  split; [constructor; cbn; lia|]. split; [lia|]. vm_compute. reflexivity.
Qed.
Print Assumptions C56_grids_refuted.

(** The place of a component in the output, [nout * n] with FINT [nout]: the dimensions of
    a whole basis of 216 functions already overflow it. *)
Theorem C56_output d0 d1 d2 d3 n :
  size32 d0 -> size32 d1 -> size32 d2 -> size32 d3 -> size32 n ->
  off4 I32 d0 d1 d2 d3 n = (if d0 * d1 * d2 * d3 * n <? 2 ^ 31 then Some (d0 * d1 * d2 * d3 * n) else None) /\
  off3 I32 d0 d1 d2 n = (if d0 * d1 * d2 * n <? 2 ^ 31 then Some (d0 * d1 * d2 * n) else None) /\
  off2 I32 d0 d1 n = (if d0 * d1 * n <? 2 ^ 31 then Some (d0 * d1 * n) else None).
Proof.
  intros H0 H1 H2 H3 Hn. unfold size32 in *.
  assert (Hx : forall a, 1 <= a -> forall x : option Z,
    x = (if a <? 2 ^ 31 then Some a else None) ->
    bind x (fun nout => ev (V I32 nout *! V I32 n)) = if a * n <? 2 ^ 31 then Some (a * n) else None).
  { intros a Ha x ->. destruct (mul_le a n) as [M _]; [lia|lia|].
    destruct (Z.ltb_spec a (2 ^ 31)) as [A|A]; cbn [bind].
    - rewrite ev32; [|reflexivity|cbn [pos top]; lia]. reflexivity.
    - destruct (Z.ltb_spec (a * n) (2 ^ 31)); [lia|reflexivity]. }
  split; [|split].
  - apply Hx; [repeat apply mul_pos; lia|]. rewrite store32; [reflexivity|reflexivity|cbn [pos top]; lia].
  - apply Hx; [repeat apply mul_pos; lia|]. rewrite store32; [reflexivity|reflexivity|cbn [pos top]; lia].
  - apply Hx; [repeat apply mul_pos; lia|]. rewrite store32; [reflexivity|reflexivity|cbn [pos top]; lia].
Qed.
Print Assumptions C56_output.

Theorem C56_output_refuted : exists d, d < 2 ^ 8 /\ off4 I32 d d d d 1 = None.
Proof. exists 216. split; [lia|]. vm_compute. reflexivity. Qed.
Print Assumptions C56_output_refuted.

(** Builds with 64-bit integers: every query is exact as long as the size is below 2^63. *)
Theorem C56_i8 :
  (forall e ip jp, good1 e -> gbits e < 30 -> size32 ip -> size32 jp ->
     int1e_cache_size e ip jp < 2 ^ 63 -> q_int1e I64 I64 e ip jp = Some (int1e_cache_size e ip jp)) /\
  (forall e ip jp kp lp, good e -> gbits e < 30 -> size32 ip -> size32 jp -> size32 kp -> size32 lp ->
     int2e_cache_size e ip jp kp lp < 2 ^ 63 ->
     q_int2e I64 I64 e ip jp kp lp = Some (int2e_cache_size e ip jp kp lp)) /\
  (forall e ip jp kp, good1 e -> gbits e < 30 -> size32 ip -> size32 jp -> size32 kp ->
     int3c2e_cache_size e ip jp kp < 2 ^ 63 ->
     q_int3c2e I64 I64 e ip jp kp = Some (int3c2e_cache_size e ip jp kp)) /\
  (forall e ip jp kp, good1 e -> gbits e < 30 -> size32 ip -> size32 jp -> size32 kp ->
     int3c1e_cache_size e ip jp kp < 2 ^ 63 - nc3 e * ncomp1 e ->
     q_int3c1e I64 I64 e ip jp kp = Some (int3c1e_cache_size e ip jp kp)) /\
  (forall e ip jp kp lp, good e -> gbits e < 30 -> size32 ip -> size32 jp -> size32 kp -> size32 lp ->
     int4c1e_cache_size e ip jp kp lp < 2 ^ 63 ->
     q_int4c1e I64 I64 e ip jp kp lp = Some (int4c1e_cache_size e ip jp kp lp)).
Proof.
  repeat split.
  - exact q_int1e_i8.
  - exact q_int2e_i8.
  - exact q_int3c2e_i8.
  - exact q_int3c1e_i8.
  - exact q_int4c1e_i8.
Qed.
Print Assumptions C56_i8.

(** C49: in a CACHE_SIZE_I8 build a legacy entry point returns the size query of the modern
    function through a 32-bit FINT; g functions with 20 contractions suffice. *)
Theorem C49_query_size_refuted : exists (ng : ngT) (l c p n : Z),
  limits4 ng l l l l c c c c p p p p /\
  q_int2e I32 I64 (init_int2e false ng l l l l c c c c) p p p p = Some n /\
  forall m : memory, seen_as 32 Tfint (Some (m, Some (VInt n))) <> Some (m, Some (VInt n)).
Proof.
  exists (mkng 0 0 0 0 0 1 1 1), 4, 20, 20,
    (int2e_cache_size (init_int2e false (mkng 0 0 0 0 0 1 1 1) 4 4 4 4 20 20 20 20) 20 20 20 20).
  split; [constructor; cbn; lia|]. split; [vm_compute; reflexivity|].
  intros m H. vm_compute in H. discriminate H.
Qed.
Print Assumptions C49_query_size_refuted.

(** Four d shells, five contractions of eight primitives: the query returns 2.4 million
    doubles; g shells with 20 contractions are refused. *)
Example C56_ex :
  let ng := mkng 0 0 0 0 0 1 1 1 in
  limits4 ng 2 2 2 2 5 5 5 5 8 8 8 8 /\
  q_int2e I32 I32 (init_int2e false ng 2 2 2 2 5 5 5 5) 8 8 8 8 =
    Some (int2e_cache_size (init_int2e false ng 2 2 2 2 5 5 5 5) 8 8 8 8) /\
  2400000 < int2e_cache_size (init_int2e false ng 2 2 2 2 5 5 5 5) 8 8 8 8 < 2500000 /\
  q_int2e I32 I32 (init_int2e false ng 4 4 4 4 20 20 20 20) 20 20 20 20 = Some 0.
Proof.
  cbv zeta. split; [constructor; cbn; lia|]. split; [vm_compute; reflexivity|].
  split; [vm_compute; split; reflexivity|vm_compute; reflexivity].
Qed.
