(** EnvModel.v — integer part of the CINTEnvVars initialisers.

    Inputs are the integers the C initialisers read: angular momenta and numbers
    of contractions of the shells, the operator descriptor [ng] and the sign of
    env[PTR_RANGE_OMEGA].  The pointer and double fields (ri, rij, fac, ...) are
    introduced where they are used (recurrence models).  Assertions are not
    executed here (release builds compile them out); theorems state the range
    conditions they need. *)
From Verif Require Import Base BasModel.

(** Operator descriptor, include/cint.h.in / cint_const.h: slots of [ng]. *)
Record ngT := mkng {
  IINC : Z; JINC : Z; KINC : Z; LINC : Z; GSHIFT : Z; POS_E1 : Z;
  POS_E2 : Z; (* = SLOT_RYS_ROOTS for one-electron integrals *)
  TENSOR : Z }.

Record envs := mkenvs {
  i_l : Z; j_l : Z; k_l : Z; l_l : Z;
  i_ctr : Z; j_ctr : Z; k_ctr : Z; l_ctr : Z;       (* x_ctr[0..3] *)
  nfi : Z; nfj : Z; nfk : Z; nfl : Z; nf : Z;
  gbits : Z; ncomp_e1 : Z; ncomp_e2 : Z; ncomp_tensor : Z;
  li_ceil : Z; lj_ceil : Z; lk_ceil : Z; ll_ceil : Z;
  rys_order : Z; nrys_roots : Z;
  g_stride_i : Z; g_stride_k : Z; g_stride_l : Z; g_stride_j : Z; g_size : Z;
  g2d_ijmax : Z; g2d_klmax : Z }.

(** Common idiom [if (omega < 0 && rys_order <= 3) nrys_roots *= 2]. *)
Definition sr_roots (omega_neg : bool) (order : Z) : Z :=
  if omega_neg && (order <=? 3) then order * 2 else order.

(** g1e.c:15-75.  [rys_order] is not set by the C code (0 here). *)
Definition init_int1e (ng : ngT) (li lj ci cj : Z) : envs :=
  let nfi := CINTlen_cart li in
  let nfj := CINTlen_cart lj in
  let lic := li + IINC ng in
  let ljc := lj + JINC ng in
  let nroots := if 0 <? POS_E2 ng then POS_E2 ng else Z.quot (lic + ljc) 2 + 1 in
  let ibase := lic >? ljc in
  let dli := if ibase then lic + ljc + 1 else lic + 1 in
  let dlj := if ibase then ljc + 1 else lic + ljc + 1 in
  mkenvs li lj 0 0 ci cj 1 1 nfi nfj 1 1 (nfi * nfj)
    (GSHIFT ng) (POS_E1 ng) 0 (TENSOR ng)
    lic ljc 0 0 0 nroots
    nroots (nroots * dli * dlj) (nroots * dli * dlj) (nroots * dli) (nroots * dli * dlj)
    0 0.

(** g2e.c:20-172 (and, with another root count, g2e_f12.c:21-140).  The index
    layout is (roots, i, k, l, j). *)
Definition init_4c (nroots order : Z) (ng : ngT) (li lj lk ll ci cj ck cl : Z) : envs :=
  let nfi := CINTlen_cart li in
  let nfj := CINTlen_cart lj in
  let nfk := CINTlen_cart lk in
  let nfl := CINTlen_cart ll in
  let lic := li + IINC ng in
  let ljc := lj + JINC ng in
  let lkc := lk + KINC ng in
  let llc := ll + LINC ng in
  let ibase := lic >? ljc in
  let kbase := lkc >? llc in
  let dlk := if kbase then lkc + llc + 1 else lkc + 1 in
  let dll := if kbase then llc + 1 else lkc + llc + 1 in
  let dli := if ibase then lic + ljc + 1 else lic + 1 in
  let dlj := if ibase then ljc + 1 else lic + ljc + 1 in
  let si := nroots in
  let sk := nroots * dli in
  let sl := nroots * dli * dlk in
  let sj := nroots * dli * dlk * dll in
  mkenvs li lj lk ll ci cj ck cl nfi nfj nfk nfl (nfi * nfk * nfl * nfj)
    (GSHIFT ng) (POS_E1 ng) (POS_E2 ng) (TENSOR ng)
    lic ljc lkc llc order nroots
    si sk sl sj (nroots * dli * dlk * dll * dlj)
    (if ibase then si else sj) (if kbase then sk else sl).

(** g2e.c:20-172 *)
Definition init_int2e (omega_neg : bool) (ng : ngT) (li lj lk ll ci cj ck cl : Z) : envs :=
  let order := Z.quot (li + IINC ng + (lj + JINC ng) + (lk + KINC ng) + (ll + LINC ng)) 2 + 1 in
  init_4c (sr_roots omega_neg order) order ng li lj lk ll ci cj ck cl.

(** g2e_f12.c:21-140, 142-147 (yp and stg share the integer fields) *)
Definition init_int2e_yp (ng : ngT) (li lj lk ll ci cj ck cl : Z) : envs :=
  let nroots := Z.quot (li + IINC ng + (lj + JINC ng) + (lk + KINC ng) + (ll + LINC ng) + 3) 2 in
  init_4c nroots 0 ng li lj lk ll ci cj ck cl.

(** g4c1e.c:20-136 (nrys_roots = 1) *)
Definition init_int4c1e (ng : ngT) (li lj lk ll ci cj ck cl : Z) : envs :=
  init_4c 1 0 ng li lj lk ll ci cj ck cl.

(** g2c2e.c:15-111.  The second shell is index k; j_l, nfj and g_stride_j are
    overwritten at the end (lines 107-110) because the two-index routines read them. *)
Definition init_int2c2e (omega_neg : bool) (ng : ngT) (li lk ci ck : Z) : envs :=
  let nfi := CINTlen_cart li in
  let nfk := CINTlen_cart lk in
  let lic := li + IINC ng in
  let lkc := lk + KINC ng in
  let order := Z.quot (lic + lkc) 2 + 1 in
  let nroots := sr_roots omega_neg order in
  let dli := lic + 1 in
  let dlk := lkc + 1 in
  mkenvs li lk lk 0 ci ck 1 1 nfi nfk nfk 1 (nfi * nfk)
    (GSHIFT ng) (POS_E1 ng) (POS_E2 ng) (TENSOR ng)
    lic 0 lkc 0 order nroots
    nroots (nroots * dli) (nroots * dli) (nroots * dli) (nroots * dli * dlk)
    nroots (nroots * dli).

(** g3c2e.c:21-132.  The auxiliary shell's order is put in ll_ceil, lk_ceil = 0. *)
Definition init_int3c2e (omega_neg : bool) (ng : ngT) (li lj lk ci cj ck : Z) : envs :=
  let nfi := CINTlen_cart li in
  let nfj := CINTlen_cart lj in
  let nfk := CINTlen_cart lk in
  let lic := li + IINC ng in
  let ljc := lj + JINC ng in
  let llc := lk + KINC ng in
  let order := Z.quot (lic + ljc + llc) 2 + 1 in
  let nroots := sr_roots omega_neg order in
  let ibase := lic >? ljc in
  let dli := if ibase then lic + ljc + 1 else lic + 1 in
  let dlj := if ibase then ljc + 1 else lic + ljc + 1 in
  let dlk := llc + 1 in
  mkenvs li lj lk 0 ci cj ck 1 nfi nfj nfk 1 (nfi * nfk * nfj)
    (GSHIFT ng) (POS_E1 ng) (POS_E2 ng) (TENSOR ng)
    lic ljc 0 llc order nroots
    nroots (nroots * dli) (nroots * dli) (nroots * dli * dlk) (nroots * dli * dlk * dlj)
    (if ibase then nroots else nroots * dli * dlk) (nroots * dli).

(** g3c1e.c:13-77.  nrys_roots is set but the layout has no root index. *)
Definition init_int3c1e (ng : ngT) (li lj lk ci cj ck : Z) : envs :=
  let nfi := CINTlen_cart li in
  let nfj := CINTlen_cart lj in
  let nfk := CINTlen_cart lk in
  let lic := li + IINC ng in
  let ljc := lj + JINC ng in
  let lkc := lk + KINC ng in
  let dli := lic + 1 in
  let dlj := ljc + lkc + 1 in
  let dlk := lkc + 1 in
  let nmax := lic + dlj in
  mkenvs li lj lk 0 ci cj ck 1 nfi nfj nfk 1 (nfi * nfj * nfk)
    (GSHIFT ng) (POS_E1 ng) 0 (TENSOR ng)
    lic ljc lkc 0 0 (Z.quot (lic + ljc + lkc) 2 + 1)
    1 (dli * dlj) (dli * dlj) dli (Z.max (dli * dlj * dlk) (dli * nmax))
    0 0.

(** g1e_grids.c:16-60; GRID_BLKSIZE = 104 (cint_const.h) *)
Definition GRID_BLKSIZE := 104.
Definition init_int1e_grids (omega_neg : bool) (ng : ngT) (li lj ci cj : Z) : envs :=
  let e := init_int1e ng li lj ci cj in
  let order := nrys_roots e in
  let nroots := sr_roots omega_neg order in
  let lic := li_ceil e in
  let ljc := lj_ceil e in
  let ibase := lic >? ljc in
  let dli := if ibase then lic + ljc + 1 else lic + 1 in
  let dlj := if ibase then ljc + 1 else lic + ljc + 1 in
  mkenvs li lj 0 0 ci cj 1 1 (nfi e) (nfj e) 1 1 (nf e)
    (GSHIFT ng) (POS_E1 ng) 0 (TENSOR ng)
    lic ljc 0 0 order nroots
    (GRID_BLKSIZE * nroots) (GRID_BLKSIZE * nroots * dli * dlj)
    (GRID_BLKSIZE * nroots * dli * dlj) (GRID_BLKSIZE * nroots * dli)
    (GRID_BLKSIZE * nroots * dli * dlj) 0 0.
