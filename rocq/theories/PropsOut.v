(** PropsOut.v — properties C19–C25, C46 and C54 (what ends up in the caller's array). *)
From Coq Require Import Reals.
From Verif Require Import Base BasModel FblasModel FblasSpec EnvModel OutModel OutSpec OutMore OutBad OutTab OutSetup TabSph TabModel TabSpec TabProof.
Local Open Scope Z_scope.

(** [env1] … [envg] name the environments built for each family of integrals, [ncompA]/[ncompB]
    the number of tensor components (OutSetup.v); [dims_are dims k n m] says that the leading
    dimensions are [n] — the first k entries of the caller's array, or the block's own extents [m]
    if dims is NULL; [stored_block] and [room] (every element of the block has its place inside the array)
    are in OutSpec.v. *)

(** * C19.  No surviving primitive: every element of the selected block of every component is zero and
    no other cell of the array changes.  The two-index drivers also read dims[2] and the grid driver
    dims[3], so a caller's array must have that entry (see C19_two_entry_dims_refuted). *)
Theorem C19_1e_cart {F} (zero : F) add mul coef (ng : ngT) li lj ci cj e dims (out gctr : arr F) n1 n2 :
  env1 ng li lj ci cj e ->
  0 <= li <= 15 -> 0 <= lj <= 15 -> 0 <= ci -> 0 <= cj ->
  CINTlen_cart li * ci <= n1 -> CINTlen_cart lj * cj <= n2 ->
  dims_are dims 2 [n1; n2] [CINTlen_cart li * ci; CINTlen_cart lj * cj] ->
  (forall d, dims = Some d -> exists n, rd d 2 = Some n) ->
  room (asize out) (ncompA ng) n1 n2 1 1 (CINTlen_cart li * ci) (CINTlen_cart lj * cj) 1 1 ->
  exists out', CINT1e_drv_tail zero add mul coef CartK false dims out gctr e = Some out' /\
    stored_block out out' (ncompA ng) n1 n2 1 1 (CINTlen_cart li * ci) (CINTlen_cart lj * cj) 1 1
      (fun _ _ _ _ _ => zero).
Proof. intros. eapply (out1_cart) with (hv := false) (x := fun _ => zero); eauto; try discriminate. intros _. destruct dims; eauto. Qed.
Print Assumptions C19_1e_cart.

Theorem C19_1e_sph (ng : ngT) li lj ci cj e dims (out gctr : arr R) n1 n2 :
  env1 ng li lj ci cj e ->
  0 <= li <= 15 -> 0 <= lj <= 15 -> 0 <= ci -> 0 <= cj ->
  (li * 2 + 1) * ci <= n1 -> (lj * 2 + 1) * cj <= n2 ->
  dims_are dims 2 [n1; n2] [(li * 2 + 1) * ci; (lj * 2 + 1) * cj] ->
  (forall d, dims = Some d -> exists n, rd d 2 = Some n) ->
  room (asize out) (ncompA ng) n1 n2 1 1 ((li * 2 + 1) * ci) ((lj * 2 + 1) * cj) 1 1 ->
  exists out', CINT1e_drv_tail 0%R Rplus Rmult sph_coef SphK false dims out gctr e = Some out' /\
    stored_block out out' (ncompA ng) n1 n2 1 1 ((li * 2 + 1) * ci) ((lj * 2 + 1) * cj) 1 1
      (fun _ _ _ _ _ => 0%R).
Proof. intros. eapply (out1_sph) with (hv := false) (x := fun _ => 0%R); eauto; try discriminate. intros _. destruct dims; eauto. Qed.
Print Assumptions C19_1e_sph.

Theorem C19_2c2e_cart {F} (zero : F) add mul coef (ng : ngT) li lj ci cj e dims (out gctr : arr F) n1 n2 :
  env2c ng li lj ci cj e ->
  0 <= li <= 15 -> 0 <= lj <= 15 -> 0 <= ci -> 0 <= cj ->
  CINTlen_cart li * ci <= n1 -> CINTlen_cart lj * cj <= n2 ->
  dims_are dims 2 [n1; n2] [CINTlen_cart li * ci; CINTlen_cart lj * cj] ->
  (forall d, dims = Some d -> exists n, rd d 2 = Some n) ->
  room (asize out) (ncompB ng) n1 n2 1 1 (CINTlen_cart li * ci) (CINTlen_cart lj * cj) 1 1 ->
  exists out', CINT2c2e_drv_tail zero add mul coef CartK false dims out gctr e = Some out' /\
    stored_block out out' (ncompB ng) n1 n2 1 1 (CINTlen_cart li * ci) (CINTlen_cart lj * cj) 1 1
      (fun _ _ _ _ _ => zero).
Proof. intros. eapply (out2c_cart) with (hv := false) (x := fun _ => zero); eauto; try discriminate. intros _. destruct dims; eauto. Qed.
Print Assumptions C19_2c2e_cart.

Theorem C19_2c2e_sph (ng : ngT) li lj ci cj e dims (out gctr : arr R) n1 n2 :
  env2c ng li lj ci cj e ->
  0 <= li <= 15 -> 0 <= lj <= 15 -> 0 <= ci -> 0 <= cj ->
  (li * 2 + 1) * ci <= n1 -> (lj * 2 + 1) * cj <= n2 ->
  dims_are dims 2 [n1; n2] [(li * 2 + 1) * ci; (lj * 2 + 1) * cj] ->
  (forall d, dims = Some d -> exists n, rd d 2 = Some n) ->
  room (asize out) (ncompB ng) n1 n2 1 1 ((li * 2 + 1) * ci) ((lj * 2 + 1) * cj) 1 1 ->
  exists out', CINT2c2e_drv_tail 0%R Rplus Rmult sph_coef SphK false dims out gctr e = Some out' /\
    stored_block out out' (ncompB ng) n1 n2 1 1 ((li * 2 + 1) * ci) ((lj * 2 + 1) * cj) 1 1
      (fun _ _ _ _ _ => 0%R).
Proof. intros. eapply (out2c_sph) with (hv := false) (x := fun _ => 0%R); eauto; try discriminate. intros _. destruct dims; eauto. Qed.
Print Assumptions C19_2c2e_sph.

Theorem C19_3c_cart {F} (zero : F) add mul coef (ng : ngT) li lj lk ci cj ck e dims (out gctr : arr F) n1 n2 n3 :
  env3 ng li lj lk ci cj ck e ->
  0 <= li <= 15 -> 0 <= lj <= 15 -> 0 <= lk <= 15 -> 0 <= ci -> 0 <= cj -> 0 <= ck ->
  CINTlen_cart li * ci <= n1 -> CINTlen_cart lj * cj <= n2 -> CINTlen_cart lk * ck <= n3 ->
  dims_are dims 3 [n1; n2; n3] [CINTlen_cart li * ci; CINTlen_cart lj * cj; CINTlen_cart lk * ck] ->
  room (asize out) (ncompA ng) n1 n2 n3 1 (CINTlen_cart li * ci) (CINTlen_cart lj * cj) (CINTlen_cart lk * ck) 1 ->
  exists out', CINT3c2e_drv_tail zero add mul coef CartK false false dims out gctr e = Some out' /\
    stored_block out out' (ncompA ng) n1 n2 n3 1 (CINTlen_cart li * ci) (CINTlen_cart lj * cj) (CINTlen_cart lk * ck) 1
      (fun _ _ _ _ _ => zero).
Proof. intros. eapply (out3_cart) with (hv := false) (x := fun _ => zero); eauto; discriminate. Qed.
Print Assumptions C19_3c_cart.

Theorem C19_3c_sph (ng : ngT) li lj lk ci cj ck e dims (out gctr : arr R) n1 n2 n3 :
  env3 ng li lj lk ci cj ck e ->
  0 <= li <= 15 -> 0 <= lj <= 15 -> 0 <= lk <= 15 -> 0 <= ci -> 0 <= cj -> 0 <= ck ->
  (li * 2 + 1) * ci <= n1 -> (lj * 2 + 1) * cj <= n2 -> (lk * 2 + 1) * ck <= n3 ->
  dims_are dims 3 [n1; n2; n3] [(li * 2 + 1) * ci; (lj * 2 + 1) * cj; (lk * 2 + 1) * ck] ->
  room (asize out) (ncompA ng) n1 n2 n3 1 ((li * 2 + 1) * ci) ((lj * 2 + 1) * cj) ((lk * 2 + 1) * ck) 1 ->
  exists out', CINT3c2e_drv_tail 0%R Rplus Rmult sph_coef SphK false false dims out gctr e = Some out' /\
    stored_block out out' (ncompA ng) n1 n2 n3 1 ((li * 2 + 1) * ci) ((lj * 2 + 1) * cj) ((lk * 2 + 1) * ck) 1
      (fun _ _ _ _ _ => 0%R).
Proof. intros. eapply (out3_sph) with (hv := false) (x := fun _ => 0%R); eauto; discriminate. Qed.
Print Assumptions C19_3c_sph.

Theorem C19_4c_cart {F} (zero : F) add mul coef (ng : ngT) li lj lk ll ci cj ck cl e dims (out gctr : arr F) n1 n2 n3 n4 :
  env4 ng li lj lk ll ci cj ck cl e ->
  0 <= li <= 15 -> 0 <= lj <= 15 -> 0 <= lk <= 15 -> 0 <= ll <= 15 -> 0 <= ci -> 0 <= cj -> 0 <= ck -> 0 <= cl ->
  CINTlen_cart li * ci <= n1 -> CINTlen_cart lj * cj <= n2 -> CINTlen_cart lk * ck <= n3 -> CINTlen_cart ll * cl <= n4 ->
  dims_are dims 4 [n1; n2; n3; n4] [CINTlen_cart li * ci; CINTlen_cart lj * cj; CINTlen_cart lk * ck; CINTlen_cart ll * cl] ->
  room (asize out) (ncompB ng) n1 n2 n3 n4 (CINTlen_cart li * ci) (CINTlen_cart lj * cj) (CINTlen_cart lk * ck) (CINTlen_cart ll * cl) ->
  exists out', CINT2e_drv_tail zero add mul coef CartK false dims out gctr e = Some out' /\
    stored_block out out' (ncompB ng) n1 n2 n3 n4 (CINTlen_cart li * ci) (CINTlen_cart lj * cj) (CINTlen_cart lk * ck) (CINTlen_cart ll * cl)
      (fun _ _ _ _ _ => zero).
Proof. intros. eapply (out4_cart) with (hv := false) (x := fun _ => zero); eauto; discriminate. Qed.
Print Assumptions C19_4c_cart.

Theorem C19_4c_sph (ng : ngT) li lj lk ll ci cj ck cl e dims (out gctr : arr R) n1 n2 n3 n4 :
  env4 ng li lj lk ll ci cj ck cl e ->
  0 <= li <= 15 -> 0 <= lj <= 15 -> 0 <= lk <= 15 -> 0 <= ll <= 15 -> 0 <= ci -> 0 <= cj -> 0 <= ck -> 0 <= cl ->
  (li * 2 + 1) * ci <= n1 -> (lj * 2 + 1) * cj <= n2 -> (lk * 2 + 1) * ck <= n3 -> (ll * 2 + 1) * cl <= n4 ->
  dims_are dims 4 [n1; n2; n3; n4] [(li * 2 + 1) * ci; (lj * 2 + 1) * cj; (lk * 2 + 1) * ck; (ll * 2 + 1) * cl] ->
  room (asize out) (ncompB ng) n1 n2 n3 n4 ((li * 2 + 1) * ci) ((lj * 2 + 1) * cj) ((lk * 2 + 1) * ck) ((ll * 2 + 1) * cl) ->
  exists out', CINT2e_drv_tail 0%R Rplus Rmult sph_coef SphK false dims out gctr e = Some out' /\
    stored_block out out' (ncompB ng) n1 n2 n3 n4 ((li * 2 + 1) * ci) ((lj * 2 + 1) * cj) ((lk * 2 + 1) * ck) ((ll * 2 + 1) * cl)
      (fun _ _ _ _ _ => 0%R).
Proof. intros. eapply (out4_sph) with (hv := false) (x := fun _ => 0%R); eauto; discriminate. Qed.
Print Assumptions C19_4c_sph.

Theorem C19_grids_cart {F} (zero : F) add mul coef (ng : ngT) li lj ci cj e dims (out gctr : arr F) n1 n2 n3 ngrids :
  envg ng li lj ci cj e ->
  0 <= li <= 15 -> 0 <= lj <= 15 -> 0 <= ci -> 0 <= cj -> 0 <= ngrids ->
  CINTlen_cart li * ci <= n1 -> CINTlen_cart lj * cj <= n2 -> ngrids <= n3 ->
  dims_are dims 3 [n1; n2; n3] [CINTlen_cart li * ci; CINTlen_cart lj * cj; ngrids] ->
  (forall d, dims = Some d -> exists n, rd d 3 = Some n) ->
  room (asize out) (ncompA ng) n3 n1 n2 1 ngrids (CINTlen_cart li * ci) (CINTlen_cart lj * cj) 1 ->
  exists out', CINT1e_grids_drv_tail zero add mul coef CartK false dims ngrids out gctr e = Some out' /\
    stored_block out out' (ncompA ng) n3 n1 n2 1 ngrids (CINTlen_cart li * ci) (CINTlen_cart lj * cj) 1
      (fun _ _ _ _ _ => zero).
Proof. intros. eapply (outg_cart) with (hv := false) (x := fun _ => zero); eauto; try discriminate. intros _. destruct dims; eauto. Qed.
Print Assumptions C19_grids_cart.

Theorem C19_grids_sph (ng : ngT) li lj ci cj e dims (out gctr : arr R) n1 n2 n3 ngrids :
  envg ng li lj ci cj e ->
  0 <= li <= 15 -> 0 <= lj <= 15 -> 0 <= ci -> 0 <= cj -> 0 <= ngrids ->
  (li * 2 + 1) * ci <= n1 -> (lj * 2 + 1) * cj <= n2 -> ngrids <= n3 ->
  dims_are dims 3 [n1; n2; n3] [(li * 2 + 1) * ci; (lj * 2 + 1) * cj; ngrids] ->
  (forall d, dims = Some d -> exists n, rd d 3 = Some n) ->
  room (asize out) (ncompA ng) n3 n1 n2 1 ngrids ((li * 2 + 1) * ci) ((lj * 2 + 1) * cj) 1 ->
  exists out', CINT1e_grids_drv_tail 0%R Rplus Rmult sph_coef SphK false dims ngrids out gctr e = Some out' /\
    stored_block out out' (ncompA ng) n3 n1 n2 1 ngrids ((li * 2 + 1) * ci) ((lj * 2 + 1) * cj) 1
      (fun _ _ _ _ _ => 0%R).
Proof. intros. eapply (outg_sph) with (hv := false) (x := fun _ => 0%R); eauto; try discriminate. intros _. destruct dims; eauto. Qed.
Print Assumptions C19_grids_sph.

(** The complex drivers: c2s_zset0 once per component.  A complex number is two doubles, so the block has
    twice the fastest extents.  [n3'] is what dims[2] holds for a two-index block (m4 = 1). *)
Theorem C19_complex {F} (zero : F) n1 n2 n3 n4 m1 m2 m3 m4 ncomp (dims : option (arr Z)) n3' (out : arr F) :
  0 <= m1 <= n1 -> 0 <= m2 <= n2 -> 0 <= m3 <= n3 -> 0 <= m4 <= n4 ->
  let counts := arr4 m1 m2 m3 m4 in
  let d := match dims with None => counts | Some d => d end in
  rd d 0 = Some n1 -> rd d 1 = Some n2 -> rd d 2 = Some n3' -> (n3' = n3 \/ m4 = 1) ->
  room (asize out) ncomp (n1 * 2) n2 n3 n4 (m1 * 2) m2 m3 m4 ->
  exists out', for_ 0 ncomp (fun n out => c2s_zset0 zero out (n1 * n2 * n3 * n4 * n) d counts
                 (match dims with None => true | _ => false end)) out = Some out' /\
    stored_block out out' ncomp (n1 * 2) n2 n3 n4 (m1 * 2) m2 m3 m4 (fun _ _ _ _ _ => zero).
Proof. intros. eapply zset0_tail; eauto. Qed.
Print Assumptions C19_complex.

(** With a dims array of exactly two entries the zero fill of a two-index integral reads past its end
    (cart2sph.c:4711), whatever the shells. *)
Theorem C19_two_entry_dims_refuted {F} (zero : F) add mul coef k e (d : arr Z) out gctr :
  asize d = 2 -> 0 < ncomp_e1 e * ncomp_tensor e ->
  CINT1e_drv_tail zero add mul coef k false (Some d) out gctr e = None.
Proof. exact (two_entry_dims zero add mul coef k e d out gctr). Qed.
Print Assumptions C19_two_entry_dims_refuted.
Theorem C19_three_entry_dims_grids_refuted {F} (zero : F) add mul coef k e (d : arr Z) ngrids out gctr :
  asize d = 3 -> 0 < ncomp_e1 e * ncomp_tensor e ->
  CINT1e_grids_drv_tail zero add mul coef k false (Some d) ngrids out gctr e = None.
Proof. exact (three_entry_dims_grids zero add mul coef k e d ngrids out gctr). Qed.
Print Assumptions C19_three_entry_dims_grids_refuted.

(** p and s shells in a matrix with leading dimension 4: column 0 rows 0..2 cleared, the rest kept *)
Example C19_ex : option_map (fun a => map (acell a) [0;1;2;3;4;5;6;7])
  (CINT1e_drv_tail 0 Z.add Z.mul (fun _ => 0) CartK false (Some (arr4 4 2 1 1)) (of_fun 8 (fun i => i + 1)) (uninit 0)
     (init_int1e (mkng 0 0 0 0 0 1 1 1) 1 0 1 1))
  = Some [Some 0; Some 0; Some 0; Some 4; Some 5; Some 6; Some 7; Some 8].
Proof. vm_compute. reflexivity. Qed.

(** * C20, C21.  Where every element of the contracted block goes; the rest of the array is untouched.
    Cartesian outputs: any scalars. *)
Theorem C20_1e_cart {F} (zero : F) add mul coef (ng : ngT) li lj ci cj e dims (out gctr : arr F) x n1 n2 :
  env1 ng li lj ci cj e ->
  0 <= li <= 15 -> 0 <= lj <= 15 -> 0 <= ci -> 0 <= cj ->
  CINTlen_cart li * ci <= n1 -> CINTlen_cart lj * cj <= n2 ->
  dims_are dims 2 [n1; n2] [CINTlen_cart li * ci; CINTlen_cart lj * cj] ->
  room (asize out) (ncompA ng) n1 n2 1 1 (CINTlen_cart li * ci) (CINTlen_cart lj * cj) 1 1 ->
  reads gctr (ncompA ng * (nf e * ci * cj)) x ->
  exists out', CINT1e_drv_tail zero add mul coef CartK true dims out gctr e = Some out' /\
    stored_block out out' (ncompA ng) n1 n2 1 1 (CINTlen_cart li * ci) (CINTlen_cart lj * cj) 1 1
      (fun n I J _ _ => cart2 x (CINTlen_cart li) (CINTlen_cart lj) ci cj n I J).
Proof. intros. eapply (out1_cart) with (hv := true); eauto; intros; discriminate. Qed.
Print Assumptions C20_1e_cart.

Theorem C20_2c2e_cart {F} (zero : F) add mul coef (ng : ngT) li lj ci cj e dims (out gctr : arr F) x n1 n2 :
  env2c ng li lj ci cj e ->
  0 <= li <= 15 -> 0 <= lj <= 15 -> 0 <= ci -> 0 <= cj ->
  CINTlen_cart li * ci <= n1 -> CINTlen_cart lj * cj <= n2 ->
  dims_are dims 2 [n1; n2] [CINTlen_cart li * ci; CINTlen_cart lj * cj] ->
  room (asize out) (ncompB ng) n1 n2 1 1 (CINTlen_cart li * ci) (CINTlen_cart lj * cj) 1 1 ->
  reads gctr (ncompB ng * (nf e * ci * cj)) x ->
  exists out', CINT2c2e_drv_tail zero add mul coef CartK true dims out gctr e = Some out' /\
    stored_block out out' (ncompB ng) n1 n2 1 1 (CINTlen_cart li * ci) (CINTlen_cart lj * cj) 1 1
      (fun n I J _ _ => cart2 x (CINTlen_cart li) (CINTlen_cart lj) ci cj n I J).
Proof. intros. eapply (out2c_cart) with (hv := true); eauto; intros; discriminate. Qed.
Print Assumptions C20_2c2e_cart.

(** a p shell and two contractions of an s shell, dims 4 2: row 3 of each column is not the block's *)
Example C20_ex : option_map (fun a => map (acell a) [0;1;2;3;4;5;6;7])
  (CINT1e_drv_tail 0 Z.add Z.mul (fun _ => 0) CartK true (Some (arr4 4 2 1 1)) (of_fun 8 (fun _ => 99)) (of_fun 6 (fun i => i))
     (init_int1e (mkng 0 0 0 0 0 1 1 1) 1 0 1 2))
  = Some [Some 0; Some 1; Some 2; Some 99; Some 3; Some 4; Some 5; Some 99].
Proof. vm_compute. reflexivity. Qed.

(** Blocks of one matrix: shell pairs with disjoint row or column ranges occupy disjoint cells. *)
Theorem C20_pairs_disjoint ld i0 m i j0 n j i0' m' i' j0' n' j' :
  0 <= i0 -> i0 + m <= ld -> 0 <= i0' -> i0' + m' <= ld ->
  (i0 + m <= i0' \/ i0' + m' <= i0 \/ j0 + n <= j0' \/ j0' + n' <= j0) ->
  0 <= i < m -> 0 <= j < n -> 0 <= i' < m' -> 0 <= j' < n' ->
  (i0 + ld * j0) + (j * ld + i) <> (i0' + ld * j0') + (j' * ld + i').
Proof. exact (pairs_disjoint ld i0 m i j0 n j i0' m' i' j0' n' j'). Qed.
Print Assumptions C20_pairs_disjoint.

Theorem C21_3c_cart {F} (zero : F) add mul coef (ng : ngT) li lj lk ci cj ck e dims (out gctr : arr F) x n1 n2 n3 :
  env3 ng li lj lk ci cj ck e ->
  0 <= li <= 15 -> 0 <= lj <= 15 -> 0 <= lk <= 15 -> 0 <= ci -> 0 <= cj -> 0 <= ck ->
  CINTlen_cart li * ci <= n1 -> CINTlen_cart lj * cj <= n2 -> CINTlen_cart lk * ck <= n3 ->
  dims_are dims 3 [n1; n2; n3] [CINTlen_cart li * ci; CINTlen_cart lj * cj; CINTlen_cart lk * ck] ->
  room (asize out) (ncompA ng) n1 n2 n3 1 (CINTlen_cart li * ci) (CINTlen_cart lj * cj) (CINTlen_cart lk * ck) 1 ->
  reads gctr (ncompA ng * (nf e * ci * cj * ck)) x ->
  exists out', CINT3c2e_drv_tail zero add mul coef CartK false true dims out gctr e = Some out' /\
    stored_block out out' (ncompA ng) n1 n2 n3 1 (CINTlen_cart li * ci) (CINTlen_cart lj * cj) (CINTlen_cart lk * ck) 1
      (fun n I J K _ => cart3 x (CINTlen_cart li) (CINTlen_cart lj) (CINTlen_cart lk) ci cj ck n I J K).
Proof. intros. eapply (out3_cart) with (hv := true); eauto; intros; discriminate. Qed.
Print Assumptions C21_3c_cart.

Theorem C21_4c_cart {F} (zero : F) add mul coef (ng : ngT) li lj lk ll ci cj ck cl e dims (out gctr : arr F) x n1 n2 n3 n4 :
  env4 ng li lj lk ll ci cj ck cl e ->
  0 <= li <= 15 -> 0 <= lj <= 15 -> 0 <= lk <= 15 -> 0 <= ll <= 15 -> 0 <= ci -> 0 <= cj -> 0 <= ck -> 0 <= cl ->
  CINTlen_cart li * ci <= n1 -> CINTlen_cart lj * cj <= n2 -> CINTlen_cart lk * ck <= n3 -> CINTlen_cart ll * cl <= n4 ->
  dims_are dims 4 [n1; n2; n3; n4] [CINTlen_cart li * ci; CINTlen_cart lj * cj; CINTlen_cart lk * ck; CINTlen_cart ll * cl] ->
  room (asize out) (ncompB ng) n1 n2 n3 n4 (CINTlen_cart li * ci) (CINTlen_cart lj * cj) (CINTlen_cart lk * ck) (CINTlen_cart ll * cl) ->
  reads gctr (ncompB ng * (nf e * ci * cj * ck * cl)) x ->
  exists out', CINT2e_drv_tail zero add mul coef CartK true dims out gctr e = Some out' /\
    stored_block out out' (ncompB ng) n1 n2 n3 n4 (CINTlen_cart li * ci) (CINTlen_cart lj * cj) (CINTlen_cart lk * ck) (CINTlen_cart ll * cl)
      (fun n I J K L => cart4 x (CINTlen_cart li) (CINTlen_cart lj) (CINTlen_cart lk) (CINTlen_cart ll) ci cj ck cl n I J K L).
Proof. intros. eapply (out4_cart) with (hv := true); eauto; intros; discriminate. Qed.
Print Assumptions C21_4c_cart.

Theorem C21_grids_cart {F} (zero : F) add mul coef (ng : ngT) li lj ci cj e dims (out gctr : arr F) x n1 n2 n3 ngrids :
  envg ng li lj ci cj e ->
  0 <= li <= 15 -> 0 <= lj <= 15 -> 0 <= ci -> 0 <= cj -> 0 <= ngrids ->
  CINTlen_cart li * ci <= n1 -> CINTlen_cart lj * cj <= n2 -> ngrids <= n3 ->
  dims_are dims 3 [n1; n2; n3] [CINTlen_cart li * ci; CINTlen_cart lj * cj; ngrids] ->
  room (asize out) (ncompA ng) n3 n1 n2 1 ngrids (CINTlen_cart li * ci) (CINTlen_cart lj * cj) 1 ->
  reads gctr (ncompA ng * (ngrids * nf e * ci * cj)) x ->
  exists out', CINT1e_grids_drv_tail zero add mul coef CartK true dims ngrids out gctr e = Some out' /\
    stored_block out out' (ncompA ng) n3 n1 n2 1 ngrids (CINTlen_cart li * ci) (CINTlen_cart lj * cj) 1
      (fun n g I J _ => cart_grid x (CINTlen_cart li) (CINTlen_cart lj) ci cj ngrids GRID_BLKSIZE n g I J).
Proof. intros. eapply (outg_cart) with (hv := true); eauto; intros; discriminate. Qed.
Print Assumptions C21_grids_cart.

(** two s contractions on each of four shells, dims 3 2 2 2: cells 0,1 of each row of three *)
Example C21_ex : option_map (fun a => map (acell a) [0;1;2;3;4;5;21;22;23])
  (CINT2e_drv_tail 0 Z.add Z.mul (fun _ => 0) CartK true (Some (arr4 3 2 2 2)) (of_fun 24 (fun _ => 99)) (of_fun 16 (fun i => i))
     (init_int2e false (mkng 0 0 0 0 0 1 1 1) 0 0 0 0 2 2 2 2))
  = Some [Some 0; Some 1; Some 99; Some 2; Some 3; Some 99; Some 14; Some 15; Some 99].
Proof. vm_compute. reflexivity. Qed.

(** * C22.  Component n of the block starts at n * n1 n2 n3 n4 and stays inside its part. *)
Theorem C22_component_range n1 n2 n3 n4 n i1 i2 i3 i4 :
  0 <= i1 < n1 -> 0 <= i2 < n2 -> 0 <= i3 < n3 -> 0 <= i4 < n4 ->
  n * (n1 * n2 * n3 * n4) <= place n1 n2 n3 n4 n i1 i2 i3 i4 < (n + 1) * (n1 * n2 * n3 * n4).
Proof. exact (place_range n1 n2 n3 n4 n i1 i2 i3 i4). Qed.
Print Assumptions C22_component_range.
Theorem C22_disjoint n1 n2 n3 n4 n i1 i2 i3 i4 n' j1 j2 j3 j4 :
  0 <= i1 < n1 -> 0 <= i2 < n2 -> 0 <= i3 < n3 -> 0 <= i4 < n4 ->
  0 <= j1 < n1 -> 0 <= j2 < n2 -> 0 <= j3 < n3 -> 0 <= j4 < n4 ->
  place n1 n2 n3 n4 n i1 i2 i3 i4 = place n1 n2 n3 n4 n' j1 j2 j3 j4 ->
  n = n' /\ i1 = j1 /\ i2 = j2 /\ i3 = j3 /\ i4 = j4.
Proof. exact (place_inj n1 n2 n3 n4 n i1 i2 i3 i4 n' j1 j2 j3 j4). Qed.
Print Assumptions C22_disjoint.
(** packed: every cell is the place of an element *)
Theorem C22_packed n1 n2 n3 n4 q : 0 < n1 -> 0 < n2 -> 0 < n3 -> 0 < n4 ->
  exists n i1 i2 i3 i4, 0 <= i1 < n1 /\ 0 <= i2 < n2 /\ 0 <= i3 < n3 /\ 0 <= i4 < n4 /\
    q = place n1 n2 n3 n4 n i1 i2 i3 i4.
Proof. exact (place_onto n1 n2 n3 n4 q). Qed.
Print Assumptions C22_packed.
(** three components of an s-s pair, dims NULL *)
Example C22_ex : option_map (fun a => map (acell a) [0;1;2])
  (CINT1e_drv_tail 0 Z.add Z.mul (fun _ => 0) CartK true None (uninit 3) (of_fun 3 (fun i => i + 5))
     (init_int1e (mkng 0 0 0 0 0 1 1 3) 0 0 1 1)) = Some [Some 5; Some 6; Some 7].
Proof. vm_compute. reflexivity. Qed.

(** * C23.  Spherical outputs: element (I,J,..) of component n is the contraction of the Cartesian block of
    contraction (I / (2 li + 1), ..) with the rows I mod (2 li + 1), .. of the shells' matrices, stored as in
    C20-C22.  Exact arithmetic; the matrices are the decimal literals of g_trans_cart2sph. *)
Theorem C23_1e (ng : ngT) li lj ci cj e dims (out gctr : arr R) x n1 n2 :
  env1 ng li lj ci cj e ->
  0 <= li <= 15 -> 0 <= lj <= 15 -> 0 <= ci -> 0 <= cj ->
  (li * 2 + 1) * ci <= n1 -> (lj * 2 + 1) * cj <= n2 ->
  dims_are dims 2 [n1; n2] [(li * 2 + 1) * ci; (lj * 2 + 1) * cj] ->
  room (asize out) (ncompA ng) n1 n2 1 1 ((li * 2 + 1) * ci) ((lj * 2 + 1) * cj) 1 1 ->
  reads gctr (ncompA ng * (nf e * ci * cj)) x ->
  exists out', CINT1e_drv_tail 0%R Rplus Rmult sph_coef SphK true dims out gctr e = Some out' /\
    stored_block out out' (ncompA ng) n1 n2 1 1 ((li * 2 + 1) * ci) ((lj * 2 + 1) * cj) 1 1
      (fun n I J _ _ => sph_ij 0%R Rplus Rmult sph_coef c2s_off CINTlen_cart li lj
          (batch2 x (CINTlen_cart li * CINTlen_cart lj) ci cj n (I / (li * 2 + 1)) (J / (lj * 2 + 1)))
          (I mod (li * 2 + 1)) (J mod (lj * 2 + 1))).
Proof. intros. eapply (out1_sph) with (hv := true); eauto; intros; discriminate. Qed.
Print Assumptions C23_1e.

Theorem C23_2c2e (ng : ngT) li lj ci cj e dims (out gctr : arr R) x n1 n2 :
  env2c ng li lj ci cj e ->
  0 <= li <= 15 -> 0 <= lj <= 15 -> 0 <= ci -> 0 <= cj ->
  (li * 2 + 1) * ci <= n1 -> (lj * 2 + 1) * cj <= n2 ->
  dims_are dims 2 [n1; n2] [(li * 2 + 1) * ci; (lj * 2 + 1) * cj] ->
  room (asize out) (ncompB ng) n1 n2 1 1 ((li * 2 + 1) * ci) ((lj * 2 + 1) * cj) 1 1 ->
  reads gctr (ncompB ng * (nf e * ci * cj)) x ->
  exists out', CINT2c2e_drv_tail 0%R Rplus Rmult sph_coef SphK true dims out gctr e = Some out' /\
    stored_block out out' (ncompB ng) n1 n2 1 1 ((li * 2 + 1) * ci) ((lj * 2 + 1) * cj) 1 1
      (fun n I J _ _ => sph_ij 0%R Rplus Rmult sph_coef c2s_off CINTlen_cart li lj
          (batch2 x (CINTlen_cart li * CINTlen_cart lj) ci cj n (I / (li * 2 + 1)) (J / (lj * 2 + 1)))
          (I mod (li * 2 + 1)) (J mod (lj * 2 + 1))).
Proof. intros. eapply (out2c_sph) with (hv := true); eauto; intros; discriminate. Qed.
Print Assumptions C23_2c2e.

Theorem C23_3c (ng : ngT) li lj lk ci cj ck e dims (out gctr : arr R) x n1 n2 n3 :
  env3 ng li lj lk ci cj ck e ->
  0 <= li <= 15 -> 0 <= lj <= 15 -> 0 <= lk <= 15 -> 0 <= ci -> 0 <= cj -> 0 <= ck ->
  (li * 2 + 1) * ci <= n1 -> (lj * 2 + 1) * cj <= n2 -> (lk * 2 + 1) * ck <= n3 ->
  dims_are dims 3 [n1; n2; n3] [(li * 2 + 1) * ci; (lj * 2 + 1) * cj; (lk * 2 + 1) * ck] ->
  room (asize out) (ncompA ng) n1 n2 n3 1 ((li * 2 + 1) * ci) ((lj * 2 + 1) * cj) ((lk * 2 + 1) * ck) 1 ->
  reads gctr (ncompA ng * (nf e * ci * cj * ck)) x ->
  exists out', CINT3c2e_drv_tail 0%R Rplus Rmult sph_coef SphK false true dims out gctr e = Some out' /\
    stored_block out out' (ncompA ng) n1 n2 n3 1 ((li * 2 + 1) * ci) ((lj * 2 + 1) * cj) ((lk * 2 + 1) * ck) 1
      (fun n I J K _ => sph_ijk 0%R Rplus Rmult sph_coef c2s_off CINTlen_cart li lj lk
          (batch3 x (CINTlen_cart li * CINTlen_cart lk * CINTlen_cart lj) ci cj ck n (I / (li * 2 + 1)) (J / (lj * 2 + 1)) (K / (lk * 2 + 1)))
          (I mod (li * 2 + 1)) (J mod (lj * 2 + 1)) (K mod (lk * 2 + 1))).
Proof. intros. eapply (out3_sph) with (hv := true); eauto; intros; discriminate. Qed.
Print Assumptions C23_3c.

Theorem C23_4c (ng : ngT) li lj lk ll ci cj ck cl e dims (out gctr : arr R) x n1 n2 n3 n4 :
  env4 ng li lj lk ll ci cj ck cl e ->
  0 <= li <= 15 -> 0 <= lj <= 15 -> 0 <= lk <= 15 -> 0 <= ll <= 15 -> 0 <= ci -> 0 <= cj -> 0 <= ck -> 0 <= cl ->
  (li * 2 + 1) * ci <= n1 -> (lj * 2 + 1) * cj <= n2 -> (lk * 2 + 1) * ck <= n3 -> (ll * 2 + 1) * cl <= n4 ->
  dims_are dims 4 [n1; n2; n3; n4] [(li * 2 + 1) * ci; (lj * 2 + 1) * cj; (lk * 2 + 1) * ck; (ll * 2 + 1) * cl] ->
  room (asize out) (ncompB ng) n1 n2 n3 n4 ((li * 2 + 1) * ci) ((lj * 2 + 1) * cj) ((lk * 2 + 1) * ck) ((ll * 2 + 1) * cl) ->
  reads gctr (ncompB ng * (nf e * ci * cj * ck * cl)) x ->
  exists out', CINT2e_drv_tail 0%R Rplus Rmult sph_coef SphK true dims out gctr e = Some out' /\
    stored_block out out' (ncompB ng) n1 n2 n3 n4 ((li * 2 + 1) * ci) ((lj * 2 + 1) * cj) ((lk * 2 + 1) * ck) ((ll * 2 + 1) * cl)
      (fun n I J K L => sph_ijkl 0%R Rplus Rmult sph_coef c2s_off CINTlen_cart li lj lk ll
          (batch4 x (CINTlen_cart li * CINTlen_cart lk * CINTlen_cart ll * CINTlen_cart lj) ci cj ck cl n (I / (li * 2 + 1)) (J / (lj * 2 + 1)) (K / (lk * 2 + 1)) (L / (ll * 2 + 1)))
          (I mod (li * 2 + 1)) (J mod (lj * 2 + 1)) (K mod (lk * 2 + 1)) (L mod (ll * 2 + 1))).
Proof. intros. eapply (out4_sph) with (hv := true); eauto; intros; discriminate. Qed.
Print Assumptions C23_4c.

Theorem C23_grids (ng : ngT) li lj ci cj e dims (out gctr : arr R) x n1 n2 n3 ngrids :
  envg ng li lj ci cj e ->
  0 <= li <= 15 -> 0 <= lj <= 15 -> 0 <= ci -> 0 <= cj -> 0 <= ngrids ->
  (li * 2 + 1) * ci <= n1 -> (lj * 2 + 1) * cj <= n2 -> ngrids <= n3 ->
  dims_are dims 3 [n1; n2; n3] [(li * 2 + 1) * ci; (lj * 2 + 1) * cj; ngrids] ->
  room (asize out) (ncompA ng) n3 n1 n2 1 ngrids ((li * 2 + 1) * ci) ((lj * 2 + 1) * cj) 1 ->
  reads gctr (ncompA ng * (ngrids * nf e * ci * cj)) x ->
  exists out', CINT1e_grids_drv_tail 0%R Rplus Rmult sph_coef SphK true dims ngrids out gctr e = Some out' /\
    stored_block out out' (ncompA ng) n3 n1 n2 1 ngrids ((li * 2 + 1) * ci) ((lj * 2 + 1) * cj) 1
      (fun n g I J _ => sph_grid 0%R Rplus Rmult sph_coef c2s_off CINTlen_cart li lj
          (Z.min (ngrids - g / GRID_BLKSIZE * GRID_BLKSIZE) GRID_BLKSIZE)
          (batch_grid x (CINTlen_cart li * CINTlen_cart lj) ci cj ngrids GRID_BLKSIZE n (I / (li * 2 + 1)) (J / (lj * 2 + 1)) g) (I mod (li * 2 + 1)) (J mod (lj * 2 + 1)) (g mod GRID_BLKSIZE)).
Proof. intros. eapply (outg_sph) with (hv := true); eauto; intros; discriminate. Qed.
Print Assumptions C23_grids.

Example C23_ex (v : Z -> R) : sph_ij 0%R Rplus Rmult sph_coef c2s_off CINTlen_cart 1 0 v 2 0 = v 2.
Proof. exact (p_shell_sph v). Qed.

(** * C24.  All transforms are the dense product with the table block; for s and p the input itself is handed
    back.  For d, f, g the hand-written routine leaves the same memory as the dense one. *)
Theorem C24_bra l nket X (g buf : arr R) : 0 <= l <= 15 -> 0 <= nket ->
  holds g (CINTlen_cart l) (CINTlen_cart l) nket X -> (2 <= l -> (l * 2 + 1) * nket <= asize buf) ->
  exists b r, CINTc2s_bra_sph 0%R Rplus Rmult sph_coef buf nket g l = Some (b, r) /\
    holds r (l * 2 + 1) (l * 2 + 1) nket (prod 0%R Rplus Rmult (CINTlen_cart l) (Tmat sph_coef c2s_off CINTlen_cart l) X) /\
    (l < 2 -> b = buf /\ r = g) /\
    (2 <= l -> b = r /\ stored_exactly buf r (l * 2 + 1) (l * 2 + 1) nket
                  (prod 0%R Rplus Rmult (CINTlen_cart l) (Tmat sph_coef c2s_off CINTlen_cart l) X)).
Proof. exact (bra_sph l nket X g buf). Qed.
Print Assumptions C24_bra.
Theorem C24_ket l nbra X (g buf : arr R) : 0 <= l <= 15 -> 0 <= nbra ->
  holds g nbra nbra (CINTlen_cart l) X -> (2 <= l -> nbra * (l * 2 + 1) <= asize buf) ->
  exists b r, CINTc2s_ket_sph 0%R Rplus Rmult sph_coef buf nbra g l = Some (b, r) /\
    holds r nbra nbra (l * 2 + 1)
      (prod 0%R Rplus Rmult (CINTlen_cart l) X (fun a m => Tmat sph_coef c2s_off CINTlen_cart l m a)) /\
    (l < 2 -> b = buf /\ r = g) /\
    (2 <= l -> b = r /\ stored_exactly buf r nbra nbra (l * 2 + 1)
                  (prod 0%R Rplus Rmult (CINTlen_cart l) X (fun a m => Tmat sph_coef c2s_off CINTlen_cart l m a))).
Proof. exact (ket_sph l nbra X g buf). Qed.
Print Assumptions C24_ket.
(** with a leading dimension of the result *)
Theorem C24_ket_strided l lds nbra X (g buf : arr R) : 0 <= l <= 15 -> 0 <= nbra <= lds ->
  holds g nbra nbra (CINTlen_cart l) X -> lds * (l * 2) + nbra <= asize buf ->
  exists r, CINTc2s_ket_sph1 0%R Rplus Rmult sph_coef buf g lds nbra l = Some (r, r) /\
    stored_exactly buf r lds nbra (l * 2 + 1)
      (prod 0%R Rplus Rmult (CINTlen_cart l) X (fun a m => Tmat sph_coef c2s_off CINTlen_cart l m a)).
Proof. exact (ket1_sph l lds nbra X g buf). Qed.
Print Assumptions C24_ket_strided.
Theorem C24_bra_dense l nket X (g buf : arr R) : 2 <= l <= 4 -> 0 <= nket ->
  holds g (CINTlen_cart l) (CINTlen_cart l) nket X -> (l * 2 + 1) * nket <= asize buf ->
  exists r s, CINTc2s_bra_sph 0%R Rplus Rmult sph_coef buf nket g l = Some (r, r) /\
    a_bra_cart2spheric 0%R Rplus Rmult sph_coef buf nket g l = Some (s, s) /\
    asize r = asize s /\ forall x, acell r x = acell s x.
Proof. exact (bra_dense_sph l nket X g buf). Qed.
Print Assumptions C24_bra_dense.
Theorem C24_ket_dense l lds nbra X (g buf : arr R) : 2 <= l <= 4 -> 0 <= nbra <= lds ->
  holds g nbra nbra (CINTlen_cart l) X -> lds * (l * 2) + nbra <= asize buf ->
  exists r s, CINTc2s_ket_sph1 0%R Rplus Rmult sph_coef buf g lds nbra l = Some (r, r) /\
    a_ket_cart2spheric 0%R Rplus Rmult sph_coef buf g lds nbra l = Some (s, s) /\
    asize r = asize s /\ forall x, acell r x = acell s x.
Proof. exact (ket_dense_sph l lds nbra X g buf). Qed.
Print Assumptions C24_ket_dense.
(** d bra on one column, integer stand-ins for the table: the five rows of d_rows *)
Example C24_ex : option_map (fun p => map (acell (fst p)) [0;1;2;3;4])
  (d_bra_cart2spheric Z.add Z.mul (fun q => q - 10) (uninit 5) 1 (of_fun 6 (fun i => 10 ^ i)) 2)
  = Some [Some 10; Some 100000; Some 1715012; Some 2000; Some 27024].
Proof. vm_compute. reflexivity. Qed.

(** * C25.  The table: blocks tile it, rows are solid harmonics and orthonormal on the sphere (with the factor
    CINTcommon_fac_sp the integrals apply for s and p).  The bounds compare with the same expression on absolute values. *)
Theorem C25_tiles : c2s_off 0 = 0 /\
  (forall l, 0 <= l < 15 -> c2s_off (l + 1) = c2s_off l + (l * 2 + 1) * CINTlen_cart l) /\
  c2s_off 15 + (15 * 2 + 1) * CINTlen_cart 15 = Z.of_nat (length g_trans_cart2sph_dec).
Proof. exact table_tiles. Qed.
Print Assumptions C25_tiles.
Theorem C25_onto q : 0 <= q < Z.of_nat (length g_trans_cart2sph_dec) ->
  exists l m a, 0 <= l <= 15 /\ 0 <= m < l * 2 + 1 /\ 0 <= a < CINTlen_cart l /\ q = c2s_off l + m * CINTlen_cart l + a.
Proof. exact (table_onto q). Qed.
Print Assumptions C25_onto.
Theorem C25_harmonic l m x y z : 0 <= l <= 15 -> 0 <= m < 2 * l + 1 ->
  let T := Tmat sph_coef c2s_off CINTlen_cart l m in
  (Rabs (laplacian (row_poly l T) x y z)
   <= / 2 ^ 50 * laplacian (row_poly l (fun a => Rabs (T a))) (Rabs x) (Rabs y) (Rabs z))%R.
Proof. exact (rows_harmonic l m x y z). Qed.
Print Assumptions C25_harmonic.
Theorem C25_orthonormal l m m' : 0 <= l <= 15 -> 0 <= m < 2 * l + 1 -> 0 <= m' < 2 * l + 1 ->
  let Y m x y z := (CINTcommon_fac_sp l * row_poly l (Tmat sph_coef c2s_off CINTlen_cart l m) x y z)%R in
  (Rabs (over_sphere (fun x y z => Y m x y z * Y m' x y z) - (if m =? m' then 1 else 0)) <= / 2 ^ 48)%R.
Proof. exact (rows_orthonormal l m m'). Qed.
Print Assumptions C25_orthonormal.

(** the row of d_xy has the single entry 1.0925… at xy *)
Example C25_ex : map (fun a => nth (Z.to_nat (c2s_off 2 + a)) g_trans_cart2sph_dec 0) [0; 1; 2; 3; 4; 5]
  = [0; 1092548430592079070; 0; 0; 0; 0].
Proof. vm_compute. reflexivity. Qed.

(** * C46.  The mixed output is right when packed, with one contraction of shell i and one component … *)
Theorem C46_packed_partial (ng : ngT) li lj lk cj ck omega_neg (out gctr : arr R) x :
  0 <= li <= 15 -> 0 <= lj <= 15 -> 0 <= lk <= 15 -> 0 <= cj -> 0 <= ck ->
  ncompA ng = 1 -> (li * 2 + 1) * ((lj * 2 + 1) * cj) * (CINTlen_cart lk * ck) <= asize out ->
  reads gctr (nf (init_int3c2e omega_neg ng li lj lk 1 cj ck) * cj * ck) x ->
  exists out', CINT3c2e_drv_tail 0%R Rplus Rmult sph_coef SscK true true None out gctr
                 (init_int3c2e omega_neg ng li lj lk 1 cj ck) = Some out' /\
    stored_block out out' 1 (li * 2 + 1) ((lj * 2 + 1) * cj) (CINTlen_cart lk * ck) 1
      (li * 2 + 1) ((lj * 2 + 1) * cj) (CINTlen_cart lk * ck) 1
      (fun _ I J K _ => sph_ssc 0%R Rplus Rmult sph_coef c2s_off CINTlen_cart li lj lk
         (batch3 x (CINTlen_cart li * CINTlen_cart lk * CINTlen_cart lj) 1 cj ck 0 0
            (J / (lj * 2 + 1)) (K / CINTlen_cart lk)) I (J mod (lj * 2 + 1)) (K mod CINTlen_cart lk)).
Proof. exact (ssc_packed ng li lj lk cj ck omega_neg out gctr x). Qed.
Print Assumptions C46_packed_partial.

(** a d shell and two contractions of an s shell, integer stand-ins for the table *)
Example C46_ex : option_map (fun a => map (acell a) [0;1;2;3;4;5;6;7;8;9])
  (CINT3c2e_drv_tail 0 Z.add Z.mul (fun q => q - 10) SscK true true None (uninit 10) (of_fun 12 (fun i => i))
     (init_int3c2e false (mkng 0 0 0 0 0 1 1 1) 2 0 0 1 2 1))
  = Some [Some 1; Some 40; Some 130; Some 40; Some 81; Some 7; Some 100; Some 394; Some 160; Some 387].
Proof. vm_compute. reflexivity. Qed.
(** … but dims is ignored: element (0,1) of a 1 x 2 block with leading dimension 2 is not at cell 2 but at 1 … *)
Theorem C46_dims_refuted {F} (zero : F) add mul coef v :
  exists out', CINT3c2e_drv_tail zero add mul coef SscK true true (Some (arr4 2 2 1 1))
      (uninit 4) (of_fun 2 (fun _ => v)) (init_int3c2e false (mkng 0 0 0 0 0 1 1 1) 0 0 0 1 2 1) = Some out' /\
    rd out' (place 2 2 1 1 0 0 1 0 0) = None /\ acell out' 1 <> None.
Proof. exact (ssc_dims zero add mul coef v). Qed.
Print Assumptions C46_dims_refuted.
(** … two contractions of a d shell write past an output of exactly the documented size … *)
Theorem C46_contractions_refuted {F} (zero : F) add mul coef v :
  CINT3c2e_drv_tail zero add mul coef SscK true true None
      (uninit (10 * 1 * 1)) (of_fun 12 (fun _ => v)) (init_int3c2e false (mkng 0 0 0 0 0 1 1 1) 2 0 0 2 1 1) = None.
Proof. exact (ssc_ctr zero add mul coef v). Qed.
Print Assumptions C46_contractions_refuted.
(** … and so does the zero fill of a d shell, which clears the Cartesian block. *)
Theorem C46_zero_fill_refuted {F} (zero : F) add mul coef v :
  CINT3c2e_drv_tail zero add mul coef SscK true false None
      (uninit (5 * 1 * 1)) (of_fun 6 (fun _ => v)) (init_int3c2e false (mkng 0 0 0 0 0 1 1 1) 2 0 0 1 1 1) = None.
Proof. exact (ssc_zero zero add mul coef v). Qed.
Print Assumptions C46_zero_fill_refuted.

(** * C54.  The back transforms are products with the transposed matrix. *)
Theorem C54_bra l nket Y (gsph gcart : arr R) : 0 <= l <= 15 -> 0 <= nket ->
  holds gsph (l * 2 + 1) (l * 2 + 1) nket Y -> CINTlen_cart l * nket <= asize gcart ->
  exists r, CINTs2c_bra_sph 0%R Rplus Rmult sph_coef gsph nket gcart l = Some r /\
    stored_exactly gcart r (CINTlen_cart l) (CINTlen_cart l) nket
      (prod 0%R Rplus Rmult (l * 2 + 1) (fun a m => Tmat sph_coef c2s_off CINTlen_cart l m a) Y).
Proof. exact (s2c_bra_sph l nket Y gsph gcart). Qed.
Print Assumptions C54_bra.
Theorem C54_ket l nbra Y (gsph gcart : arr R) : 0 <= l <= 15 -> 0 <= nbra ->
  holds gsph nbra nbra (l * 2 + 1) Y -> nbra * CINTlen_cart l <= asize gcart ->
  exists r, CINTs2c_ket_sph 0%R Rplus Rmult sph_coef gsph nbra gcart l = Some r /\
    stored_exactly gcart r nbra nbra (CINTlen_cart l)
      (prod 0%R Rplus Rmult (l * 2 + 1) Y (Tmat sph_coef c2s_off CINTlen_cart l)).
Proof. exact (s2c_ket_sph l nbra Y gsph gcart). Qed.
Print Assumptions C54_ket.
(** d shell, integer stand-ins: column x = e_2 gives row 2 of the matrix *)
Example C54_ex : option_map (fun r => map (acell r) [0;1;2;3;4;5])
  (CINTs2c_bra_sph 0 Z.add Z.mul (fun q => q - 10) (of_fun 5 (fun i => if i =? 2 then 1 else 0)) 1 (uninit 6) 2)
  = Some [Some 12; Some 13; Some 14; Some 15; Some 16; Some 17].
Proof. vm_compute. reflexivity. Qed.
