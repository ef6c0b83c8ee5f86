(** PropsSpinor.v — property C26 (Cartesian to spinor transforms).

    [bra_spinor], [ket_spinor], [spinor_pair] (complex matrix products with the spinor
    coefficients) and the layout predicates are in SpinorSpec.v.  [tJR], [tJI] are the
    coefficient tables, over an arbitrary commutative ring. *)
From Coq Require Import Reals Ring_theory.
From Verif Require Import Base BasModel EnvModel OutModel OutSpec OutFinal OutSetup OutTab TabSph TabModel
  SpinorModel SpinorSpec SpinorBra SpinorOne SpinorDrv.
Local Open Scope Z_scope.

(** * C26.  Bra transforms: conjugated coefficients times a + i sigma.x *)
Theorem C26_bra_si {F} (zero one : F) add mul sub_ opp (tJR tJI : Z -> F) kappa l nket (gspR gspI gx gy gz g1 : arr F) X Y W A :
  ring_theory zero one add mul sub_ opp eq -> 0 <= l <= 12 -> 0 <= nket ->
  reads gx (nket * ncart l) X -> reads gy (nket * ncart l) Y -> reads gz (nket * ncart l) W -> reads g1 (nket * ncart l) A ->
  2 * nket * nspinor kappa l * 1 <= asize gspR -> 2 * nket * nspinor kappa l * 1 <= asize gspI ->
  exists rR rI, a_bra_cart2spinor_si zero add mul sub_ opp tJR tJI gspR gspI gx gy gz g1 nket kappa l = Some (rR, rI) /\
    holds4 gspR gspI rR rI 2 nket (nspinor kappa l) 1 (fun t j i m =>
      bra_spinor zero one add mul sub_ opp tJR tJI kappa l i t (fun n =>
        (fun q => mkcomps (cre zero (X q)) (cre zero (Y q)) (cre zero (W q)) (cre zero (A q))) ((j * ncart l + n) * 1 + m))).
Proof. intros. apply bra_si; assumption. Qed.
Print Assumptions C26_bra_si.

Theorem C26_bra_sf {F} (zero one : F) add mul sub_ opp (tJR tJI : Z -> F) kappa l nket (gspR gspI g1 : arr F) A :
  ring_theory zero one add mul sub_ opp eq -> 0 <= l <= 12 -> 0 <= nket ->
  reads g1 (nket * ncart l) A ->
  2 * nket * nspinor kappa l * 1 <= asize gspR -> 2 * nket * nspinor kappa l * 1 <= asize gspI ->
  exists rR rI, a_bra_cart2spinor_sf zero add mul opp tJR tJI gspR gspI g1 nket kappa l = Some (rR, rI) /\
    holds4 gspR gspI rR rI 2 nket (nspinor kappa l) 1 (fun t j i m =>
      bra_spinor zero one add mul sub_ opp tJR tJI kappa l i t (fun n =>
        (fun q => scalar zero (cre zero (A q))) ((j * ncart l + n) * 1 + m))).
Proof. intros. apply bra_sf; assumption. Qed.
Print Assumptions C26_bra_sf.

(** the same for [ng] values at a time, the value index fastest *)
Theorem C26_bra1_si {F} (zero one : F) add mul sub_ opp (tJR tJI : Z -> F) kappa l ng nket (gspR gspI gx gy gz g1 : arr F) X Y W A :
  ring_theory zero one add mul sub_ opp eq -> 0 <= l <= 12 -> 0 <= ng -> 0 <= nket ->
  reads gx (nket * ncart l * ng) X -> reads gy (nket * ncart l * ng) Y ->
  reads gz (nket * ncart l * ng) W -> reads g1 (nket * ncart l * ng) A ->
  2 * nket * nspinor kappa l * ng <= asize gspR -> 2 * nket * nspinor kappa l * ng <= asize gspI ->
  exists rR rI, a_bra1_cart2spinor_si zero add mul sub_ opp tJR tJI gspR gspI gx gy gz g1 ng nket kappa l = Some (rR, rI) /\
    holds4 gspR gspI rR rI 2 nket (nspinor kappa l) ng (fun t j i m =>
      bra_spinor zero one add mul sub_ opp tJR tJI kappa l i t (fun n =>
        (fun q => mkcomps (cre zero (X q)) (cre zero (Y q)) (cre zero (W q)) (cre zero (A q))) ((j * ncart l + n) * ng + m))).
Proof. intros. apply bra1_si; assumption. Qed.
Print Assumptions C26_bra1_si.

Theorem C26_bra1_sf {F} (zero one : F) add mul sub_ opp (tJR tJI : Z -> F) kappa l ng nket (gspR gspI g1 : arr F) A :
  ring_theory zero one add mul sub_ opp eq -> 0 <= l <= 12 -> 0 <= ng -> 0 <= nket ->
  reads g1 (nket * ncart l * ng) A ->
  2 * nket * nspinor kappa l * ng <= asize gspR -> 2 * nket * nspinor kappa l * ng <= asize gspI ->
  exists rR rI, a_bra1_cart2spinor_sf zero add mul opp tJR tJI gspR gspI g1 ng nket kappa l = Some (rR, rI) /\
    holds4 gspR gspI rR rI 2 nket (nspinor kappa l) ng (fun t j i m =>
      bra_spinor zero one add mul sub_ opp tJR tJI kappa l i t (fun n =>
        (fun q => scalar zero (cre zero (A q))) ((j * ncart l + n) * ng + m))).
Proof. intros. apply bra1_sf; assumption. Qed.
Print Assumptions C26_bra1_sf.

(** complex input, the imaginary parts stored after all the real parts *)
Theorem C26_bra1_zi {F} (zero one : F) add mul sub_ opp (tJR tJI : Z -> F) kappa l ng nket (gspR gspI gx gy gz g1 : arr F) X Y W A :
  ring_theory zero one add mul sub_ opp eq -> 0 <= l <= 12 -> 0 <= ng -> 0 <= nket ->
  let N := nket * ncart l * ng in
  reads gx (N * 2) X -> reads gy (N * 2) Y -> reads gz (N * 2) W -> reads g1 (N * 2) A ->
  2 * nket * nspinor kappa l * ng <= asize gspR -> 2 * nket * nspinor kappa l * ng <= asize gspI ->
  exists rR rI, a_bra1_cart2spinor_zi zero add mul sub_ opp tJR tJI gspR gspI gx gy gz g1 ng nket kappa l = Some (rR, rI) /\
    holds4 gspR gspI rR rI 2 nket (nspinor kappa l) ng (fun t j i m =>
      bra_spinor zero one add mul sub_ opp tJR tJI kappa l i t (fun n =>
        (fun q => mkcomps (X q, X (N + q)) (Y q, Y (N + q)) (W q, W (N + q)) (A q, A (N + q))) ((j * ncart l + n) * ng + m))).
Proof. intros. apply bra1_zi; assumption. Qed.
Print Assumptions C26_bra1_zi.

Theorem C26_bra1_zf {F} (zero one : F) add mul sub_ opp (tJR tJI : Z -> F) kappa l ng nket (gspR gspI g1 : arr F) A :
  ring_theory zero one add mul sub_ opp eq -> 0 <= l <= 12 -> 0 <= ng -> 0 <= nket ->
  let N := nket * ncart l * ng in
  reads g1 (N * 2) A ->
  2 * nket * nspinor kappa l * ng <= asize gspR -> 2 * nket * nspinor kappa l * ng <= asize gspI ->
  exists rR rI, a_bra1_cart2spinor_zf zero add mul sub_ tJR tJI gspR gspI g1 ng nket kappa l = Some (rR, rI) /\
    holds4 gspR gspI rR rI 2 nket (nspinor kappa l) ng (fun t j i m =>
      bra_spinor zero one add mul sub_ opp tJR tJI kappa l i t (fun n =>
        (fun q => scalar zero (A q, A (N + q))) ((j * ncart l + n) * ng + m))).
Proof. intros. apply bra1_zf; assumption. Qed.
Print Assumptions C26_bra1_zf.

(** * C26.  Ket transforms.  [isz] is the test the code makes before skipping a coefficient. *)
Theorem C26_ket {F} (zero one : F) add mul sub_ opp (tJR tJI : Z -> F) isz kappa l nbra (gspR gspI gcartR gcartI : arr F) X Y :
  ring_theory zero one add mul sub_ opp eq -> (forall x, isz x = true -> x = zero) -> 0 <= l <= 12 -> 0 <= nbra ->
  reads gcartR (2 * ncart l * nbra) X -> reads gcartI (2 * ncart l * nbra) Y ->
  nspinor kappa l * nbra <= asize gspR -> nspinor kappa l * nbra <= asize gspI ->
  exists rR rI, a_ket_cart2spinor zero add mul sub_ opp isz tJR tJI gspR gspI gcartR gcartI nbra kappa l = Some (rR, rI) /\
    holds4 gspR gspI rR rI 1 1 (nspinor kappa l) nbra (fun _ _ i j =>
      ket_spinor zero add mul sub_ tJR tJI kappa l i (fun t n => (fun q => (X q, Y q)) ((t * ncart l + n) * nbra + j))).
Proof. intros Rth Hz **. apply (ket_holds zero one add mul sub_ opp Rth tJR tJI kappa l) with (isz := isz) (phase := false); assumption. Qed.
Print Assumptions C26_ket.

(** the 'i' variant: i times the plain one *)
Theorem C26_iket {F} (zero one : F) add mul sub_ opp (tJR tJI : Z -> F) isz kappa l nbra (gspR gspI gcartR gcartI : arr F) X Y :
  ring_theory zero one add mul sub_ opp eq -> (forall x, isz x = true -> x = zero) -> 0 <= l <= 12 -> 0 <= nbra ->
  reads gcartR (2 * ncart l * nbra) X -> reads gcartI (2 * ncart l * nbra) Y ->
  nspinor kappa l * nbra <= asize gspR -> nspinor kappa l * nbra <= asize gspI ->
  exists rR rI, a_iket_cart2spinor zero add mul sub_ opp isz tJR tJI gspR gspI gcartR gcartI nbra kappa l = Some (rR, rI) /\
    holds4 gspR gspI rR rI 1 1 (nspinor kappa l) nbra (fun _ _ i j =>
      cmul add mul sub_ (ci zero one)
        (ket_spinor zero add mul sub_ tJR tJI kappa l i (fun t n => (fun q => (X q, Y q)) ((t * ncart l + n) * nbra + j)))).
Proof. intros Rth Hz **. apply (ket_holds zero one add mul sub_ opp Rth tJR tJI kappa l) with (isz := isz) (phase := true); assumption. Qed.
Print Assumptions C26_iket.

(** a stack of [counts] matrices *)
Theorem C26_ket1 {F} (zero one : F) add mul sub_ opp (tJR tJI : Z -> F) kappa l nbra counts (gspR gspI gcartR gcartI : arr F) X Y :
  ring_theory zero one add mul sub_ opp eq -> 0 <= l <= 12 -> 0 <= nbra -> 0 <= counts ->
  reads gcartR (2 * counts * ncart l * nbra) X -> reads gcartI (2 * counts * ncart l * nbra) Y ->
  counts * nspinor kappa l * nbra <= asize gspR -> counts * nspinor kappa l * nbra <= asize gspI ->
  exists rR rI, a_ket1_cart2spinor zero add mul sub_ tJR tJI gspR gspI gcartR gcartI nbra counts kappa l = Some (rR, rI) /\
    holds4 gspR gspI rR rI 1 counts (nspinor kappa l) nbra (fun _ k i j =>
      ket_spinor zero add mul sub_ tJR tJI kappa l i (fun t n => (fun q => (X q, Y q)) (((t * counts + k) * ncart l + n) * nbra + j))).
Proof. intros Rth **. apply (ket1_holds zero one add mul sub_ opp Rth tJR tJI kappa l) with (isz := fun _ => false) (phase := false); (assumption || discriminate). Qed.
Print Assumptions C26_ket1.

Theorem C26_iket1 {F} (zero one : F) add mul sub_ opp (tJR tJI : Z -> F) kappa l nbra counts (gspR gspI gcartR gcartI : arr F) X Y :
  ring_theory zero one add mul sub_ opp eq -> 0 <= l <= 12 -> 0 <= nbra -> 0 <= counts ->
  reads gcartR (2 * counts * ncart l * nbra) X -> reads gcartI (2 * counts * ncart l * nbra) Y ->
  counts * nspinor kappa l * nbra <= asize gspR -> counts * nspinor kappa l * nbra <= asize gspI ->
  exists rR rI, a_iket1_cart2spinor zero add mul sub_ opp tJR tJI gspR gspI gcartR gcartI nbra counts kappa l = Some (rR, rI) /\
    holds4 gspR gspI rR rI 1 counts (nspinor kappa l) nbra (fun _ k i j =>
      cmul add mul sub_ (ci zero one)
        (ket_spinor zero add mul sub_ tJR tJI kappa l i (fun t n => (fun q => (X q, Y q)) (((t * counts + k) * ncart l + n) * nbra + j)))).
Proof. intros Rth **. apply (ket1_holds zero one add mul sub_ opp Rth tJR tJI kappa l) with (isz := fun _ => false) (phase := true); (assumption || discriminate). Qed.
Print Assumptions C26_iket1.

(** * C26.  Whole drivers, from the contracted batch to the caller's complex array.
    [spin]: the operator has the four components x, y, z, 1 (else only the scalar one);
    [phase]: the i variants.  With no surviving primitive ([hv] false) the block is zero.
    A complex array is an array of doubles of twice the length: double p of a row is the
    real (p even) or imaginary (p odd) part of element p / 2. *)
Section Drivers.
  Context {F : Type} (zero one : F) (add mul sub_ : F -> F -> F) (opp : F -> F) (tJR tJI : Z -> F) (isz : F -> bool).
  Variables (ng : ngT) (li lj lk ll ki kj kk kl ci cj ck cl : Z) (e : envs).
  Variables (hv : bool) (dims : option (arr Z)) (out gctr : arr F) (x : Z -> F) (n1 n2 n3 n4 : Z).
  Notation di := (nspinor ki li). Notation dj := (nspinor kj lj).
  Notation dk := (nspinor kk lk). Notation dl := (nspinor kl ll).

  Theorem C26_1e_driver (spin phase : bool) :
    ring_theory zero one add mul sub_ opp eq -> (forall x, isz x = true -> x = zero) ->
    env1 ng li lj ci cj e ->
    0 <= li <= 12 -> 0 <= lj <= 12 -> 0 <= ci -> 0 <= cj -> (if spin then 4 else 1) <= POS_E1 ng -> 0 <= TENSOR ng ->
    di * ci <= n1 -> dj * cj <= n2 -> dims_are dims 2 [n1; n2] [di * ci; dj * cj] -> dims_read hv dims 2 ->
    room (asize out) (TENSOR ng) (n1 * 2) n2 1 1 (di * ci * 2) (dj * cj) 1 1 ->
    (hv = true -> reads gctr (TENSOR ng * (nf e * ci * cj * POS_E1 ng)) x) ->
    exists out', CINT1e_spinor_drv_tail zero add mul sub_ opp isz tJR tJI spin phase ki kj hv dims out gctr e = Some out' /\
      stored_block out out' (TENSOR ng) (n1 * 2) n2 1 1 (di * ci * 2) (dj * cj) 1 1
        (fun n p J _ _ => if hv then part (p mod 2)
           (spinor_1e zero one add mul sub_ opp tJR tJI spin phase ki li kj lj x ci cj (POS_E1 ng) n (p / 2) J) else zero).
  Proof.
    intros Rth Hz HE H1 H2 H3 H4 H5 H6. rewrite <- !len_nspinor. intros.
    destruct (env1_ok _ _ _ _ _ _ HE) as [SH [Enf _]].
    assert (E1 : POS_E1 ng = ncomp_e1 e) by (rewrite HE; reflexivity). assert (E2 : TENSOR ng = ncomp_tensor e) by (rewrite HE; reflexivity).
    rewrite E1, E2 in *. rewrite !cl_nc in Enf by lia. apply (spinor_1e_tail zero one add mul sub_ opp Rth tJR tJI isz Hz e li lj 0 0 ci cj 1 1 SH H1 H2 H3 H4 spin phase ki kj hv dims out gctr x n1 n2); assumption.
  Qed.

  (** two-centre two-electron: the driver ends the process for operators with several components per electron *)
  Theorem C26_2c2e_driver (phase : bool) :
    ring_theory zero one add mul sub_ opp eq -> (forall x, isz x = true -> x = zero) ->
    env2c ng li lj ci cj e ->
    0 <= li <= 12 -> 0 <= lj <= 12 -> 0 <= ci -> 0 <= cj -> POS_E1 ng = 1 -> POS_E2 ng = 1 -> 0 <= TENSOR ng ->
    di * ci <= n1 -> dj * cj <= n2 -> dims_are dims 2 [n1; n2] [di * ci; dj * cj] -> dims_read hv dims 2 ->
    room (asize out) (TENSOR ng) (n1 * 2) n2 1 1 (di * ci * 2) (dj * cj) 1 1 ->
    (hv = true -> reads gctr (TENSOR ng * (nf e * ci * cj)) x) ->
    exists out', CINT2c2e_spinor_drv_tail zero add mul sub_ opp isz tJR tJI false phase ki kj hv dims out gctr e = Some out' /\
      stored_block out out' (TENSOR ng) (n1 * 2) n2 1 1 (di * ci * 2) (dj * cj) 1 1
        (fun n p J _ _ => if hv then part (p mod 2)
           (spinor_1e zero one add mul sub_ opp tJR tJI false phase ki li kj lj x ci cj 1 n (p / 2) J) else zero).
  Proof.
    intros Rth Hz HE H1 H2 H3 H4 H5 H6 H7. rewrite <- !len_nspinor. intros.
    destruct (env2c_ok _ _ _ _ _ _ HE) as [SH [Enf _]]. destruct HE as [w HE].
    assert (E1 : POS_E1 ng = ncomp_e1 e) by (rewrite HE; reflexivity). assert (E2 : TENSOR ng = ncomp_tensor e) by (rewrite HE; reflexivity).
    assert (E3 : POS_E2 ng = ncomp_e2 e) by (rewrite HE; reflexivity).
    rewrite E1, E2, E3 in *. rewrite !cl_nc in Enf by lia. apply (spinor_2c_tail zero one add mul sub_ opp Rth tJR tJI isz Hz e li lj lj 0 ci cj 1 1 SH H1 H2 H3 H4 false phase ki kj hv dims out gctr x n1 n2); (assumption || reflexivity).
  Qed.

  (** three-centre, auxiliary index Cartesian *)
  Theorem C26_3c2e_ssc_driver (spin phase : bool) coef omega_neg :
    ring_theory zero one add mul sub_ opp eq -> (forall x, isz x = true -> x = zero) ->
    e = init_int3c2e omega_neg ng li lj lk ci cj ck ->
    0 <= li <= 12 -> 0 <= lj <= 12 -> 0 <= lk <= 15 -> 0 <= ci -> 0 <= cj -> 0 <= ck ->
    (if spin then 4 else 1) <= POS_E1 ng -> 0 <= POS_E2 ng * TENSOR ng ->
    di * ci <= n1 -> dj * cj <= n2 -> ncart lk * ck <= n3 -> dims_are dims 3 [n1; n2; n3] [di * ci; dj * cj; ncart lk * ck] ->
    room (asize out) (POS_E2 ng * TENSOR ng) (n1 * 2) n2 n3 1 (di * ci * 2) (dj * cj) (ncart lk * ck) 1 ->
    (hv = true -> reads gctr (POS_E2 ng * TENSOR ng * (nf e * ci * cj * ck * POS_E1 ng)) x) ->
    exists out', CINT3c2e_spinor_drv_tail zero add mul sub_ opp isz tJR tJI coef true spin phase ki kj hv dims out gctr e = Some out' /\
      stored_block out out' (POS_E2 ng * TENSOR ng) (n1 * 2) n2 n3 1 (di * ci * 2) (dj * cj) (ncart lk * ck) 1
        (fun n p J K _ => if hv then part (p mod 2)
           (spinor_ssc zero one add mul sub_ opp tJR tJI spin phase ki li kj lj lk x ci cj ck (POS_E1 ng) n (p / 2) J K) else zero).
  Proof.
    intros Rth Hz HE H1 H2 H3 H4 H5 H6 H7 H8. rewrite <- !len_nspinor. intros.
    destruct (env3_ok ng li lj lk ci cj ck e) as [SH [Efk [Enf _]]]; [left; eauto|].
    assert (E1 : POS_E1 ng = ncomp_e1 e) by (rewrite HE; reflexivity). assert (E2 : TENSOR ng = ncomp_tensor e) by (rewrite HE; reflexivity).
    assert (E3 : POS_E2 ng = ncomp_e2 e) by (rewrite HE; reflexivity).
    rewrite E1, E2, E3 in *. rewrite (cl_nc li), (cl_nc lk), (cl_nc lj) in Enf by lia. rewrite (cl_nc lk) in Efk by lia. apply (spinor_ssc_tail zero one add mul sub_ opp Rth tJR tJI isz Hz e li lj lk 0 ci cj ck 1 SH H1 H2 H4 H5 spin phase ki kj hv dims out gctr x n1 n2 n3 H6 H3 coef); assumption.
  Qed.

  (** on a grid: the grid index is the fastest *)
  Theorem C26_grids_driver (spin phase : bool) ngrids :
    ring_theory zero one add mul sub_ opp eq -> (forall x, isz x = true -> x = zero) ->
    envg ng li lj ci cj e ->
    0 <= li <= 12 -> 0 <= lj <= 12 -> 0 <= ci -> 0 <= cj -> 0 <= ngrids -> (if spin then 4 else 1) <= POS_E1 ng -> 0 <= TENSOR ng ->
    di * ci <= n1 -> dj * cj <= n2 -> ngrids <= n3 -> dims_are dims 3 [n1; n2; n3] [di * ci; dj * cj; ngrids] -> dims_read hv dims 3 ->
    room (asize out) (TENSOR ng) (n3 * 2) n1 n2 1 (ngrids * 2) (di * ci) (dj * cj) 1 ->
    (hv = true -> reads gctr (TENSOR ng * (ngrids * nf e * ci * cj * POS_E1 ng)) x) ->
    exists out', CINT1e_grids_spinor_drv_tail zero add mul sub_ opp isz tJR tJI spin phase ki kj hv dims ngrids out gctr e = Some out' /\
      stored_block out out' (TENSOR ng) (n3 * 2) n1 n2 1 (ngrids * 2) (di * ci) (dj * cj) 1
        (fun n p I J _ => if hv then part (p mod 2)
           (spinor_grid zero one add mul sub_ opp tJR tJI spin phase ki li kj lj x ci cj ngrids GRID_BLKSIZE (POS_E1 ng) n (p / 2) I J) else zero).
  Proof.
    intros Rth Hz HE H1 H2 H3 H4 H5 H6 H7. rewrite <- !len_nspinor. intros.
    destruct (envg_ok _ _ _ _ _ _ HE) as [SH [Enf _]]. destruct HE as [w HE].
    assert (E1 : POS_E1 ng = ncomp_e1 e) by (rewrite HE; reflexivity). assert (E2 : TENSOR ng = ncomp_tensor e) by (rewrite HE; reflexivity).
    rewrite E1, E2 in *. rewrite !cl_nc in Enf by lia. apply (spinor_grids_tail zero one add mul sub_ opp Rth tJR tJI isz Hz e li lj 0 0 ci cj 1 1 SH H1 H2 H3 H4 spin phase ki kj hv dims out gctr x n1 n2 n3 ngrids H5); assumption.
  Qed.

  (** four-centre two-electron: [s1 p1] for electron 1, [s2 p2] for electron 2 *)
  Theorem C26_2e_driver (s1 p1 s2 p2 : bool) :
    ring_theory zero one add mul sub_ opp eq -> (forall x, isz x = true -> x = zero) ->
    (exists omega_neg, e = init_int2e omega_neg ng li lj lk ll ci cj ck cl) ->
    0 <= li <= 12 -> 0 <= lj <= 12 -> 0 <= lk <= 12 -> 0 <= ll <= 12 -> 0 <= ci -> 0 <= cj -> 0 <= ck -> 0 <= cl ->
    (if s1 then 4 else 1) <= POS_E1 ng -> (if s2 then 4 else 1) <= POS_E2 ng -> 0 <= TENSOR ng ->
    di * ci <= n1 -> dj * cj <= n2 -> dk * ck <= n3 -> dl * cl <= n4 ->
    dims_are dims 4 [n1; n2; n3; n4] [di * ci; dj * cj; dk * ck; dl * cl] ->
    room (asize out) (TENSOR ng) (n1 * 2) n2 n3 n4 (di * ci * 2) (dj * cj) (dk * ck) (dl * cl) ->
    (hv = true -> reads gctr (TENSOR ng * (nf e * ci * cj * ck * cl * POS_E1 ng * POS_E2 ng)) x) ->
    exists out', CINT2e_spinor_drv_tail zero add mul sub_ opp isz tJR tJI s1 p1 s2 p2 ki kj kk kl hv dims out gctr e = Some out' /\
      stored_block out out' (TENSOR ng) (n1 * 2) n2 n3 n4 (di * ci * 2) (dj * cj) (dk * ck) (dl * cl)
        (fun n p J K L => if hv then part (p mod 2)
           (spinor_2e zero one add mul sub_ opp tJR tJI s1 p1 s2 p2 ki li kj lj kk lk kl ll x ci cj ck cl (POS_E1 ng) (POS_E2 ng) n (p / 2) J K L)
         else zero).
  Proof.
    intros Rth Hz HE H1 H2 H3 H4 H5 H6 H7 H8 H9 H10 H11. rewrite <- !len_nspinor. intros.
    destruct (env4_ok ng li lj lk ll ci cj ck cl e) as [SH [Efk [Efl [Enf _]]]]; [left; exact HE|]. destruct HE as [w HE].
    assert (E1 : POS_E1 ng = ncomp_e1 e) by (rewrite HE; reflexivity). assert (E2 : TENSOR ng = ncomp_tensor e) by (rewrite HE; reflexivity).
    assert (E3 : POS_E2 ng = ncomp_e2 e) by (rewrite HE; reflexivity).
    rewrite E1, E2, E3 in *. rewrite (cl_nc li), (cl_nc lk), (cl_nc ll), (cl_nc lj) in Enf by lia. rewrite (cl_nc lk) in Efk by lia. rewrite (cl_nc ll) in Efl by lia. apply (spinor_2e_tail zero one add mul sub_ opp Rth tJR tJI isz Hz e li lj lk ll ci cj ck cl SH H1 H2 H3 H4 H5 H6 H7 H8 Efk Efl s1 p1 s2 p2 ki kj kk kl gctr x Enf H9 H10 hv dims out n1 n2 n3 n4); assumption.
  Qed.
End Drivers.
Print Assumptions C26_1e_driver.
Print Assumptions C26_2c2e_driver.
Print Assumptions C26_3c2e_ssc_driver.
Print Assumptions C26_grids_driver.
Print Assumptions C26_2e_driver.

(** three-centre with spherical auxiliary index, with the spherical table of the code *)
Theorem C26_3c2e_driver (tJR tJI : Z -> R) isz (ng : ngT) li lj lk ki kj ci cj ck e hv dims (out gctr : arr R) x n1 n2 n3 (spin phase : bool) omega_neg :
  (forall x, isz x = true -> x = 0%R) ->
  e = init_int3c2e omega_neg ng li lj lk ci cj ck ->
  0 <= li <= 12 -> 0 <= lj <= 12 -> 0 <= lk <= 15 -> 0 <= ci -> 0 <= cj -> 0 <= ck ->
  (if spin then 4 else 1) <= POS_E1 ng -> 0 <= POS_E2 ng * TENSOR ng ->
  nspinor ki li * ci <= n1 -> nspinor kj lj * cj <= n2 -> (2 * lk + 1) * ck <= n3 ->
  dims_are dims 3 [n1; n2; n3] [nspinor ki li * ci; nspinor kj lj * cj; (2 * lk + 1) * ck] ->
  room (asize out) (POS_E2 ng * TENSOR ng) (n1 * 2) n2 n3 1 (nspinor ki li * ci * 2) (nspinor kj lj * cj) ((2 * lk + 1) * ck) 1 ->
  (hv = true -> reads gctr (POS_E2 ng * TENSOR ng * (nf e * ci * cj * ck * POS_E1 ng)) x) ->
  exists out', CINT3c2e_spinor_drv_tail 0%R Rplus Rmult Rminus Ropp isz tJR tJI sph_coef false spin phase ki kj hv dims out gctr e = Some out' /\
    stored_block out out' (POS_E2 ng * TENSOR ng) (n1 * 2) n2 n3 1 (nspinor ki li * ci * 2) (nspinor kj lj * cj) ((2 * lk + 1) * ck) 1
      (fun n p J K _ => if hv then part (p mod 2)
         (spinor_3c 0%R 1%R Rplus Rmult Rminus Ropp tJR tJI sph_coef c2s_off spin phase ki li kj lj lk x ci cj ck (POS_E1 ng) n (p / 2) J K) else 0%R).
Proof.
  intros Hz HE H1 H2 H3 H4 H5 H6 H7 H8. rewrite <- !len_nspinor. intros.
  destruct (env3_ok ng li lj lk ci cj ck e) as [SH [Efk [Enf _]]]; [left; eauto|].
  assert (E1 : POS_E1 ng = ncomp_e1 e) by (rewrite HE; reflexivity). assert (E2 : TENSOR ng = ncomp_tensor e) by (rewrite HE; reflexivity).
  assert (E3 : POS_E2 ng = ncomp_e2 e) by (rewrite HE; reflexivity).
  rewrite E1, E2, E3 in *. rewrite (cl_nc li), (cl_nc lk), (cl_nc lj) in Enf by lia. rewrite (cl_nc lk) in Efk by lia. apply (spinor_3c_tail 0%R 1%R Rplus Rmult Rminus Ropp RTheory tJR tJI isz Hz e li lj lk 0 ci cj ck 1 SH H1 H2 H4 H5 spin phase ki kj hv dims out gctr x n1 n2 n3 H6 H3 sph_coef sph_table_ok); assumption.
Qed.
Print Assumptions C26_3c2e_driver.

(** * What happens outside
    Shells with l = 13, 14, 15 are accepted (ANG_MAX is 15) but have no spinor coefficients:
    the pointers are NULL and every bra transform dereferences them. *)
Theorem C26_no_table_refuted {F} (zero : F) add mul sub_ opp (tJR tJI : Z -> F) gspR gspI gx gy gz g1 nket kappa l :
  13 <= l <= 15 -> 0 < nket ->
  a_bra_cart2spinor_si zero add mul sub_ opp tJR tJI gspR gspI gx gy gz g1 nket kappa l = None /\
  a_bra_cart2spinor_sf zero add mul opp tJR tJI gspR gspI g1 nket kappa l = None.
Proof. intros Hl Hn. split; apply (bra_none zero add tJR tJI); try exact Hl; exact Hn. Qed.
Print Assumptions C26_no_table_refuted.

(** * Examples *)
Section Ex.
  (* made-up integer tables, enough for l = 0 and 1 *)
  Definition exR (q : Z) : Z := nth (Z.to_nat q) [0; 2; 3; 0; 1; -1; 0; 2; 5; 1; 1; 0; 2; 0; 1; 0; 1; 2; 3] 0.
  Definition exI (q : Z) : Z := nth (Z.to_nat q) [1; 0; -2; 1; 0; 4; 1; 0; 0; 1; 3; 0; 0; 1; 0; 0; 2; 1; 0] 0.
  Definition exA (q : Z) : arr Z := of_fun 1 (fun _ => q).
  (* s shell, kappa = -1: spinor 0 has conjugated coefficients -i (alpha), 2 (beta); the operator
     is [7 + 11 i, i 2 + 3; i 2 - 3, 7 - 11 i] *)
  Example C26_ex_bra : exists rR rI,
    a_bra_cart2spinor_si 0 Z.add Z.mul Z.sub Z.opp exR exI (uninit 4) (uninit 4) (exA 2) (exA 3) (exA 11) (exA 7) 1 (-1) 0 = Some (rR, rI) /\
    (* alpha column: -i (7 + 11 i) + 2 (-3 + 2 i) = 5 - 3 i *)
    rd rR 0 = Some 5 /\ rd rI 0 = Some (-3) /\
    (* beta column: -i (3 + 2 i) + 2 (7 - 11 i) = 16 - 25 i *)
    rd rR 2 = Some 16 /\ rd rI 2 = Some (-25).
  Proof. eexists _, _. split; [vm_compute; reflexivity|]. vm_compute. auto. Qed.
  Example C26_ex_pair :
    spinor_pair 0 1 Z.add Z.mul Z.sub Z.opp exR exI (-1) 0 (-1) 0 0 1
      (fun _ _ => mkcomps (cre 0 2) (cre 0 3) (cre 0 11) (cre 0 7)) =
    (* (5 - 3 i)(3 - 2 i) + (16 - 25 i) i *)
    (34, -3).
  Proof. vm_compute. reflexivity. Qed.
  (* a p-s pair through the driver of a one-electron spin-dependent operator with 1 tensor component *)
  Example C26_ex_driver :
    let e := init_int1e (mkng 0 0 0 0 0 4 1 1) 1 0 1 1 in
    let x := fun q => 3 * q + 1 in
    exists out', CINT1e_spinor_drv_tail 0 Z.add Z.mul Z.sub Z.opp (Z.eqb 0) exR exI true true (-1) (-1) true None
                   (uninit (4 * 2 * 2)) (of_fun 12 x) e = Some out' /\
      rd out' (2 * (1 * 4 + 2)) = Some (fst (spinor_1e 0 1 Z.add Z.mul Z.sub Z.opp exR exI true true (-1) 1 (-1) 0 x 1 1 4 0 2 1)) /\
      rd out' (2 * (1 * 4 + 2) + 1) = Some (snd (spinor_1e 0 1 Z.add Z.mul Z.sub Z.opp exR exI true true (-1) 1 (-1) 0 x 1 1 4 0 2 1)).
  Proof. eexists. split; [vm_compute; reflexivity|]. vm_compute. auto. Qed.
End Ex.
