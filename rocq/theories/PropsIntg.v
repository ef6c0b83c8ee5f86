(** PropsIntg.v — theorems for C57 (tables of the entry points) and C58 (integrands). *)
From Coq Require Import Reals Lra QArith String.
From Coquelicot Require Import Coquelicot.
From Verif Require Import Base BasSpec EnvModel IdxModel IdxSpec RecRModel Rec1Real OpSpec IntgModel IntgSpec IntgTab IntgStmt IntgCheck IntgFinal IntgAll
  IntgEx IntgOvlp IntgReal IntgProps.
Local Open Scope Z_scope.

(** C57.  All functions of one name use the same ng; the buffer the drivers allocate from its
    GSHIFT holds all blocks the integrand addresses; POS_E1 and POS_E2 are the numbers of
    spin components the spinor transforms read, and POS_E1 * max(1, POS_E2) * TENSOR is the number of results
    the integrand stores per function. *)
Theorem C57_tables t : In t catalogue -> exists g,
  (forall h, In h (en_ng (t_e t)) -> h = g) /\ en_ng (t_e t) <> [] /\
  Z.of_nat (g_nblk (t_f t)) <= 2 ^ GSHIFT g + 1 /\
  POS_E1 g = (if sis (en_c2s1 (t_e t)) then 4 else 1) /\
  Z.max 1 (POS_E2 g) = (if sis (en_c2s2 (t_e t)) then 4 else 1) /\
  Z.of_nat (length (g_rows (t_f t))) = POS_E1 g * Z.max 1 (POS_E2 g) * TENSOR g.
Proof. exact (table_facts t). Qed.
Print Assumptions C57_tables.

(** The Cartesian and spherical functions of a name have the same factor; the spinor function has
    the same one too, except for 12 Gaunt and gauge integrals, where it is the opposite. *)
Theorem C57_factors t : In t catalogue ->
  (forall n d n' d', en_cart (t_e t) = Some (n, d) -> en_sph (t_e t) = Some (n', d') -> n * Z.pos d' = n' * Z.pos d) /\
  (forall n d n' d', en_sph (t_e t) = Some (n, d) -> en_spinor (t_e t) = Some (n', d') ->
     n * Z.pos d' = (if in_dec string_dec (en_name (t_e t)) spinor_flipped then -1 else 1) * n' * Z.pos d).
Proof. exact (factor_facts t). Qed.
Print Assumptions C57_factors.

Example C57_nonvacuous : length catalogue = 218%nat /\ In e_int2e_ip1 catalogue.
Proof. split; [vm_compute; reflexivity|exact in_ip1]. Qed.

(** C58.  Every integrand but the seven of [except_names] computes the components of the expression
    it is documented with (six of them if integration by parts holds, as it does for the overlap-type
    integrals they are used for: C58_overlap). *)
Theorem C58_integrands t : In t catalogue -> ~ In (en_name (t_e t)) except_names ->
  forall ng om l ctr x I pw empty idx m gout, call t ng om l ctr x I pw empty idx m gout ->
  (In (en_name (t_e t)) parts_names -> by_parts (x_a x) (x_R x) I) ->
  computes cq1 (components (t_d t) (sis (en_c2s1 (t_e t))) (sis (en_c2s2 (t_e t)))) t x I pw empty idx m gout.
Proof. exact (integrands_ok t). Qed.
Print Assumptions C58_integrands.

(** Spin components that are not stored are zero. *)
Theorem C58_not_stored t : In t catalogue -> ~ In (en_name (t_e t)) except_names ->
  forall a A O I rts pw qs s1 s2, (In (en_name (t_e t)) parts_names -> by_parts a A I) -> In qs (spec_pairs (t_d t)) ->
  ~ (In s1 (stored (sis (en_c2s1 (t_e t)))) /\ In s2 (stored (sis (en_c2s2 (t_e t))))) ->
  den a A O I rts pw (spec_of (t_d t) qs s1 s2) = RtoC 0.
Proof. exact (not_stored_ok t). Qed.
Print Assumptions C58_not_stored.

(** int1e_ippnucpip and int1e_ipprinvpip store the tensor transposed ... *)
Theorem C58_transposed t : In t [e_int1e_ippnucpip; e_int1e_ipprinvpip] ->
  forall ng om l ctr x I pw empty idx m gout, call t ng om l ctr x I pw empty idx m gout ->
  computes cq1 (transpose (components (t_d t) (sis (en_c2s1 (t_e t))) (sis (en_c2s2 (t_e t))))) t x I pw empty idx m gout.
Proof. exact (transposed_ok t). Qed.
Print Assumptions C58_transposed.

(** ... which is not the same: components 1 and 3 for the functions xx and xy (exponents 0, all
    centres at 0, the functional evaluating at 1) are 2 and 0. *)
Theorem C58_transposed_refuted : exists a A O I rts pw,
  let c := components (t_d e_int1e_ippnucpip) false false in
  exists s1 s2 q s1' s2' q', nth_error c 1 = Some (s1, s2, q) /\ nth_error (transpose c) 1 = Some (s1', s2', q') /\
  den a A O I rts pw q = RtoC 2 /\ den a A O I rts pw q' = RtoC 0.
Proof. exact transposed_refuted. Qed.
Print Assumptions C58_transposed_refuted.

(** The spinor functions of int2e_breit_r1p2 and int2e_breit_r2p2 return minus the value of their expression. *)
Theorem C58_breit_sign t : In t [e_int2e_breit_r1p2; e_int2e_breit_r2p2] ->
  forall ng om l ctr x I pw empty idx m gout, call t ng om l ctr x I pw empty idx m gout ->
  computes (cneg cq1) (components (t_d t) (sis (en_c2s1 (t_e t))) (sis (en_c2s2 (t_e t)))) t x I pw empty idx m gout.
Proof. exact (breit_ok t). Qed.
Print Assumptions C58_breit_sign.

(** int2e_ipvg1_xp1 would be covered if it asked for one more order on j. *)
Theorem C58_ipvg1_more ng om l ctr x I pw empty idx m gout : let t := more_j e_int2e_ipvg1_xp1 in
  call t ng om l ctr x I pw empty idx m gout ->
  computes cq1 (components (t_d t) (sis (en_c2s1 (t_e t))) (sis (en_c2s2 (t_e t)))) t x I pw empty idx m gout.
Proof. exact (ipvg1_ok ng om l ctr x I pw empty idx m gout). Qed.
Print Assumptions C58_ipvg1_more.

(** int3c1e_ip1_r6_origk lacks the statement filling block 76: with it, it is right; ... *)
Theorem C58_r6_repaired ng om l ctr x I pw empty idx m gout : let t := with_g76 e_int3c1e_ip1_r6_origk in
  call t ng om l ctr x I pw empty idx m gout ->
  computes cq1 (components (t_d t) (sis (en_c2s1 (t_e t))) (sis (en_c2s2 (t_e t)))) t x I pw empty idx m gout.
Proof. exact (r6_ok ng om l ctr x I pw empty idx m gout). Qed.
Print Assumptions C58_r6_repaired.

(** ... without it, the result depends on what the buffer held before: two buffers of the size
    the driver allocates, with the same block 0, give different values of component 1 (s functions,
    numbers being integers). *)
Theorem C58_r6_refuted : exists x (m m' : arr Z) idx g g',
  x_env x = fam_env F3c1e false (mkng 1 0 6 0 7 1 1 3) (fun _ => 0) (fun _ => 1) /\
  ent_ng e_int3c1e_ip1_r6_origk = Some (mkng 1 0 6 0 7 1 1 3) /\
  asize m = (2 ^ 7 + 1) * (3 * g_size (x_env x)) /\ asize m' = asize m /\
  (forall q, 0 <= q < 3 * g_size (x_env x) -> rd m q = rd m' q) /\
  run_gout 0 1 Z.add Z.mul Z.sub (fun z => z) x (t_f e_int3c1e_ip1_r6_origk) true idx m (uninit 3) = Some g /\
  run_gout 0 1 Z.add Z.mul Z.sub (fun z => z) x (t_f e_int3c1e_ip1_r6_origk) true idx m' (uninit 3) = Some g' /\
  rd g 1 <> rd g' 1.
Proof. exact r6_refuted. Qed.
Print Assumptions C58_r6_refuted.

(** Recurrence, index table and integrand together, for every integral of overlap type: what is
    stored for the Cartesian functions [ti] and [tj], times factor and phase, is c0 times the documented combination
    of products of integrals over the real line of the functions the operators produce. *)
Theorem C58_overlap t ng li lj ci cj c0 (a : centre -> R) (A : centre -> Z -> R) (O : Z -> R) idx g gout empty :
  In t catalogue -> en_fam (t_e t) = F1e -> ent_ng t = Some ng ->
  (0 <= li <= 15)%Z -> (0 <= lj <= 15)%Z -> (0 < a CI)%R -> (0 < a CJ)%R ->
  let e := init_int1e ng li lj ci cj in let x := mkgin e 0 a A O in let nc := Z.of_nat (length (g_rows (t_f t))) in
  (3 * nf e <= asize idx)%Z -> ((2 ^ GSHIFT ng + 1) * (3 * g_size e) <= asize g)%Z -> filled g ->
  (nf e * nc <= asize gout)%Z -> (empty = false -> filled gout) ->
  exists idx' g' gout' f,
    CINTg1e_index_xyz e idx = Some idx' /\
    R_ovlp e (c0 * pair_eij (square3 (fun ax => A CI ax - A CJ ax)) (a CI) (a CJ))%R (a CI) (a CJ) (A CI) (A CJ) g = Some g' /\
    run_gout 0%R 1%R Rplus Rmult Rminus IZR x (t_f t) empty idx' g' gout = Some gout' /\
    factor (t_e t) = Some f /\ Frame (fun q => 0 <= q < nf e * nc)%Z gout gout' /\
    forall (i j k : nat) ti tj s1 s2 q, nth_error (cart_list li) i = Some ti -> nth_error (cart_list lj) j = Some tj ->
      nth_error (components (t_d t) (sis (en_c2s1 (t_e t))) (sis (en_c2s2 (t_e t)))) k = Some (s1, s2, q) ->
      let p := ((Z.of_nat j * Z.of_nat (length (cart_list li)) + Z.of_nat i) * nc + Z.of_nat k)%Z in
      exists v old, rd gout' p = Some (old + v)%R /\ (if empty then old = 0%R else rd gout p = Some old) /\
        (cval (cqmul (qfac f) (phase (t_e t) s1 s2)) * RtoC v)%C = (RtoC c0 * den a A O overlap [0%Z] (powers ti tj) q)%C.
Proof. exact (overlap_real t ng li lj ci cj c0 a A O idx g gout empty). Qed.
Print Assumptions C58_overlap.

(** The same for one nucleus (or the origin of 1/r): the sum over the roots of the quadrature, with
    the Gaussian exp(-s|r-C|^2) each root stands for. *)
Theorem C58_nuclear t ng li lj ci cj c0 chg zeta (u w : Z -> R) (C : Z -> R) (a : centre -> R) (A : centre -> Z -> R) (O : Z -> R) idx g gout empty :
  In t catalogue -> en_fam (t_e t) = F1nuc \/ en_fam (t_e t) = F1rinv -> ~ In (en_name (t_e t)) except_names -> ent_ng t = Some ng ->
  (0 <= li <= 15)%Z -> (0 <= lj <= 15)%Z -> (0 < a CI)%R -> (0 < a CJ)%R ->
  let e := init_int1e ng li lj ci cj in let x := mkgin e 0 a A O in let nc := Z.of_nat (length (g_rows (t_f t))) in
  (forall n, (0 <= n < nrys_roots e)%Z -> (0 <= u n)%R /\ rd g (g_size e * 2 + n) = Some (w n)) ->
  (3 * nf e <= asize idx)%Z -> ((2 ^ GSHIFT ng + 1) * (3 * g_size e) <= asize g)%Z -> filled g ->
  (nf e * nc <= asize gout)%Z -> (empty = false -> filled gout) ->
  let p := (a CI + a CJ)%R in
  let P ax := ((a CI * A CI ax + a CJ * A CJ ax) / p)%R in
  let t2 n := tsq zeta (a CI) (a CJ) (u n) in
  let kappa n := nuc_weight p (t2 n) (square3 (fun ax => C ax - P ax)%R) (nuc_mod p zeta) (w n) in
  exists idx' g' gout' f,
    CINTg1e_index_xyz e idx = Some idx' /\
    R_nuc e chg zeta (c0 * pair_eij (square3 (fun ax => A CI ax - A CJ ax)) (a CI) (a CJ))%R (a CI) (a CJ) u C (A CI) (A CJ) g = Some g' /\
    run_gout 0%R 1%R Rplus Rmult Rminus IZR x (t_f t) empty idx' g' gout = Some gout' /\
    factor (t_e t) = Some f /\ Frame (fun q => 0 <= q < nf e * nc)%Z gout gout' /\
    forall (i j k : nat) ti tj s1 s2 q, nth_error (cart_list li) i = Some ti -> nth_error (cart_list lj) j = Some tj ->
      nth_error (components (t_d t) (sis (en_c2s1 (t_e t))) (sis (en_c2s2 (t_e t)))) k = Some (s1, s2, q) ->
      let pos := ((Z.of_nat j * Z.of_nat (length (cart_list li)) + Z.of_nat i) * nc + Z.of_nat k)%Z in
      exists v old, rd gout' pos = Some (old + v)%R /\ (if empty then old = 0%R else rd gout pos = Some old) /\
        (cval (cqmul (qfac f) (phase (t_e t) s1 s2)) * RtoC v)%C =
        (RtoC (c0 * chg) * den a A O (attraction (fun n => gauss_s p (t2 n)) kappa C)
          (map Z.of_nat (seq 0 (Z.to_nat (nrys_roots e)))) (powers ti tj) q)%C.
Proof. exact (nuc_real t ng li lj ci cj c0 chg zeta u w C a A O idx g gout empty). Qed.
Print Assumptions C58_nuclear.

(** The x derivative of the overlap of two s functions of exponent 1 at (1,0,0) and (0,0,0): the
    first cell int1e_ipovlp stores. *)
Example C58_nonvacuous : exists idx' g' gout' v,
  let e := init_int1e (mkng 1 0 0 0 1 1 1 3) 0 0 1 1 in
  let a (_ : centre) := 1%R in
  let A c ax := (match c with CI => if ax =? 0 then 1 else 0 | _ => 0 end)%R in
  ent_ng e_int1e_ipovlp = Some (mkng 1 0 0 0 1 1 1 3) /\
  CINTg1e_index_xyz e (uninit 3) = Some idx' /\
  R_ovlp e (1 * pair_eij (square3 (fun ax => A CI ax - A CJ ax)) 1 1)%R 1%R 1%R (A CI) (A CJ) (of_fun 18 (fun _ => 0%R)) = Some g' /\
  run_gout 0%R 1%R Rplus Rmult Rminus IZR (mkgin e 0 a A (fun _ => 0%R)) (t_f e_int1e_ipovlp) true idx' g' (uninit 3) = Some gout' /\
  rd gout' 0 = Some v /\
  v = (line (fun x => Derive (phi 1 1 0) x * phi 1 0 0 x) * line (fun x => phi 1 0 0 x * phi 1 0 0 x) * line (fun x => phi 1 0 0 x * phi 1 0 0 x))%R.
Proof. exact ipovlp_example. Qed.
