(** PropsIdx.v — theorems for C04, C05, C06. *)
From Verif Require Import Base BasModel BasSpec EnvModel IdxModel IdxSpec IdxProof.

(** C04.  Two-index tables (plain one-electron, grids, two-centre two-electron):
    table contents, frame, and soundness of the layout for every exponent up to
    the operator-raised maxima and every root. *)
Theorem C04_index_int1e ng li lj ci cj (idx : arr Z) :
  ng_ok ng -> 0 <= li <= 15 -> 0 <= lj <= 15 ->
  let e := init_int1e ng li lj ci cj in
  3 * nf e <= asize idx ->
  exists idx', CINTg1e_index_xyz e idx = Some idx' /\
    table2 idx' li lj (g_size e) (g_stride_i e) (g_stride_j e) /\
    Frame (fun x => 0 <= x < 3 * nf e) idx idx' /\
    layout_ok (g_size e) (g_stride_i e) (g_stride_j e) 0 0 (nrys_roots e)
              (li + IINC ng) (lj + JINC ng) 0 0.
Proof. exact (idx_int1e ng li lj ci cj idx). Qed.
Print Assumptions C04_index_int1e.

Theorem C04_index_int1e_grids om ng li lj ci cj (idx : arr Z) :
  ng_ok ng -> 0 <= li <= 15 -> 0 <= lj <= 15 ->
  let e := init_int1e_grids om ng li lj ci cj in
  3 * nf e <= asize idx ->
  exists idx', CINTg1e_index_xyz e idx = Some idx' /\
    table2 idx' li lj (g_size e) (g_stride_i e) (g_stride_j e) /\
    Frame (fun x => 0 <= x < 3 * nf e) idx idx' /\
    layout_ok (g_size e) (g_stride_i e) (g_stride_j e) 0 0 (104 * nrys_roots e)
              (li + IINC ng) (lj + JINC ng) 0 0.
Proof. exact (idx_int1e_grids om ng li lj ci cj idx). Qed.
Print Assumptions C04_index_int1e_grids.

Theorem C04_index_int2c2e om ng li lk ci ck (idx : arr Z) :
  ng_ok ng -> 0 <= li <= 15 -> 0 <= lk <= 15 ->
  let e := init_int2c2e om ng li lk ci ck in
  3 * nf e <= asize idx ->
  exists idx', CINTg1e_index_xyz e idx = Some idx' /\
    table2 idx' li lk (g_size e) (g_stride_i e) (g_stride_k e) /\
    Frame (fun x => 0 <= x < 3 * nf e) idx idx' /\
    layout_ok (g_size e) (g_stride_i e) (g_stride_k e) 0 0 (nrys_roots e)
              (li + IINC ng) (lk + KINC ng) 0 0.
Proof. exact (idx_int2c2e om ng li lk ci ck idx). Qed.
Print Assumptions C04_index_int2c2e.

(** A p shell against an s shell with one derivative order on the second: blocks of 12 cells, x components
    of p at stride 2. *)
Example C04_ex : exists a,
  CINTg1e_index_xyz (init_int1e (mkng 0 1 0 0 1 1 0 3) 1 0 1 1) (uninit 9) = Some a /\
    map (rd a) [0; 1; 2; 3; 4; 5; 6; 7; 8] =
      [Some 2; Some 12; Some 24; Some 0; Some 14; Some 24; Some 0; Some 12; Some 26].
Proof. eexists. split; [vm_compute; reflexivity|vm_compute; reflexivity]. Qed.

(** The bound l <= 15 is necessary: the component arrays have 136 entries. *)
Theorem C04_l16_refuted :
  CINTg1e_index_xyz (init_int1e (mkng 0 0 0 0 0 1 0 1) 16 0 1 1) (uninit 1000) = None.
Proof. exact idx_int1e_l16_refuted. Qed.
Print Assumptions C04_l16_refuted.

(** C05.  Four-index tables.  [init_4c] is the common integer part of the
    two-electron, F12 and four-centre one-electron initialisers (any root count);
    the i_l = 0, 1, 2 branches of the C code are part of [CINTg2e_index_xyz]. *)
Theorem C05_index_4c nroots order ng li lj lk ll ci cj ck cl (idx : arr Z) :
  ng_ok ng -> 0 <= li <= 15 -> 0 <= lj <= 15 -> 0 <= lk <= 15 -> 0 <= ll <= 15 ->
  let e := init_4c nroots order ng li lj lk ll ci cj ck cl in
  3 * nf e <= asize idx ->
  exists idx', CINTg2e_index_xyz e idx = Some idx' /\
    table4 idx' li lj lk ll (g_size e) (g_stride_i e) (g_stride_j e) (g_stride_k e) (g_stride_l e) /\
    Frame (fun x => 0 <= x < 3 * nf e) idx idx' /\
    layout_ok (g_size e) (g_stride_i e) (g_stride_j e) (g_stride_k e) (g_stride_l e) (nrys_roots e)
              (li + IINC ng) (lj + JINC ng) (lk + KINC ng) (ll + LINC ng).
Proof. exact (idx_4c nroots order ng li lj lk ll ci cj ck cl idx). Qed.
Print Assumptions C05_index_4c.

Theorem C05_index_int3c2e om ng li lj lk ci cj ck (idx : arr Z) :
  ng_ok ng -> 0 <= li <= 15 -> 0 <= lj <= 15 -> 0 <= lk <= 15 ->
  let e := init_int3c2e om ng li lj lk ci cj ck in
  3 * nf e <= asize idx ->
  exists idx', CINTg2e_index_xyz e idx = Some idx' /\
    table4 idx' li lj lk 0 (g_size e) (g_stride_i e) (g_stride_j e) (g_stride_k e) (g_stride_l e) /\
    Frame (fun x => 0 <= x < 3 * nf e) idx idx' /\
    layout_ok (g_size e) (g_stride_i e) (g_stride_j e) (g_stride_k e) (g_stride_l e) (nrys_roots e)
              (li + IINC ng) (lj + JINC ng) (lk + KINC ng) 0.
Proof. exact (idx_int3c2e om ng li lj lk ci cj ck idx). Qed.
Print Assumptions C05_index_int3c2e.

(** Two-electron integrals: component 1 of (d p | p s), with one derivative
    order on the first shell. *)
Example C05_nonvacuous :
  exists a, CINTg2e_index_xyz (init_int2e false (mkng 1 0 0 0 1 1 1 3) 2 1 1 0 1 1 1 1) (uninit 162) = Some a /\
    map (rd a) [3; 4; 5] = [Some 48; Some 63; Some 120].
Proof. exact example_index_int2e. Qed.

(** C06.  Three-centre one-electron integrals: the table used by the loops
    (cint3c1e.c:95,233) and the one stored by the optimizer (g3c1e.c:79). *)
Theorem C06_index_int3c1e_loop ng li lj lk ci cj ck (idx : arr Z) :
  ng_ok ng -> 0 <= li <= 15 -> 0 <= lj <= 15 -> 0 <= lk <= 15 ->
  let e := init_int3c1e ng li lj lk ci cj ck in
  3 * nf e <= asize idx ->
  exists idx', CINTg2e_index_xyz e idx = Some idx' /\
    table4 idx' li lj lk 0 (g_size e) 1 (g_stride_j e) (g_stride_k e) (g_stride_l e) /\
    Frame (fun x => 0 <= x < 3 * nf e) idx idx' /\
    layout_ok (g_size e) 1 (g_stride_j e) (g_stride_k e) (g_stride_l e) 1
              (li + IINC ng) (lj + JINC ng) (lk + KINC ng) 0.
Proof. exact (idx_int3c1e_2e ng li lj lk ci cj ck idx). Qed.
Print Assumptions C06_index_int3c1e_loop.

Theorem C06_index_int3c1e ng li lj lk ci cj ck (idx : arr Z) :
  ng_ok ng -> 0 <= li <= 15 -> 0 <= lj <= 15 -> 0 <= lk <= 15 ->
  let e := init_int3c1e ng li lj lk ci cj ck in
  3 * nf e <= asize idx ->
  exists idx', CINTg3c1e_index_xyz e idx = Some idx' /\
    table3 idx' li lj lk (g_size e) 1 (g_stride_j e) (g_stride_k e) /\
    Frame (fun x => 0 <= x < 3 * nf e) idx idx' /\
    layout_ok (g_size e) 1 (g_stride_j e) (g_stride_k e) (g_stride_l e) 1
              (li + IINC ng) (lj + JINC ng) (lk + KINC ng) 0.
Proof. exact (idx_int3c1e ng li lj lk ci cj ck idx). Qed.
Print Assumptions C06_index_int3c1e.

(** Three p shells: component 5 is (z,y,x) in the optimizer's order and (z,x,y) in the loops'. *)
Example C06_ex : exists a b, let e := init_int3c1e (mkng 0 0 0 0 0 1 0 1) 1 1 1 1 1 1 in
  CINTg3c1e_index_xyz e (uninit 81) = Some a /\ CINTg2e_index_xyz e (uninit 81) = Some b /\
    map (rd a) [0; 1; 2; 15; 16; 17] = [Some 9; Some 12; Some 24; Some 6; Some 14; Some 25] /\
    map (rd b) [0; 1; 2; 15; 16; 17] = [Some 9; Some 12; Some 24; Some 2; Some 18; Some 25].
Proof. do 2 eexists. split; [vm_compute; reflexivity|]. split; vm_compute; [reflexivity|]. split; reflexivity. Qed.
