(** GridsModel.v — the blocked loop over grid points (cint1e_grids.c). *)
From Verif Require Import Base FblasModel CtrModel Loop2eModel Loop3Model.

Definition GRID_BLKSIZE : Z := 104.     (* include/cint.h.in / src/g1e.h *)

(** [view a off]: the array as seen through the pointer a+off; [unview] puts the view back. *)
Definition view {A} (a : arr A) (off : Z) : arr A := mkarr (asize a - off) (fun i => acell a (off + i)).
Definition unview {A} (a : arr A) (off : Z) (b : arr A) : arr A :=
  mkarr (asize a) (fun i => if off <=? i then acell b (i - off) else acell a i).

Section Grids.
  Context {F : Type} (add mul : F -> F -> F).

  Record gpairs := mkgp {
    x_empty : bool;                        (* CINTset_pairdata reported an empty list *)
    x_skip : Z -> Z -> bool;               (* ip jp: cceij > expcutoff *)
    x_e : Z -> Z -> F;                     (* expij *)
    (* ip jp, coordinates of the grid point, Cartesian function, component *)
    x_base : Z -> Z -> F * F * F -> Z -> Z -> F }.

  (** cint1e_grids.c:117-121: grids (AoS) copied to gridsT (SoA) *)
  Definition copy_grids (gridsT grids : arr F) (grids_offset bgrids : Z) : option (arr F) :=
    for_ 0 bgrids (fun i t =>
      v <- rd grids ((grids_offset + i) * 3 + 0) ;; t <- wr t (i + GRID_BLKSIZE * 0) v ;;
      v <- rd grids ((grids_offset + i) * 3 + 1) ;; t <- wr t (i + GRID_BLKSIZE * 1) v ;;
      v <- rd grids ((grids_offset + i) * 3 + 2) ;; wr t (i + GRID_BLKSIZE * 2) v) gridsT.
  Definition point (gridsT : arr F) (ig : Z) : option (F * F * F) :=
    x <- rd gridsT (ig + GRID_BLKSIZE * 0) ;; y <- rd gridsT (ig + GRID_BLKSIZE * 1) ;;
    z <- rd gridsT (ig + GRID_BLKSIZE * 2) ;; Some (x, y, z).

  (** CINTg0_1e_grids + f_gout, abstracted as in CtrModel.f_gout: entry
      n = ig + bgrids*(comp + n_comp*f) of gout gets the contribution of the point whose
      coordinates are read from gridsT (g1e_grids.c:292-: gout[ig+bgrids*n]). *)
  Definition gout_grids (q : gpairs) (gridsT : arr F) (bgrids n_comp len0 ip jp : Z)
      (m : mem F) (dst : nat) (empty : bool) (fac1i : F) : option (mem F) :=
    a <- for_ 0 len0 (fun n a =>
           p <- point gridsT (n mod bgrids) ;;
           let v := mul fac1i (x_base q ip jp p ((n / bgrids) / n_comp) ((n / bgrids) mod n_comp)) in
           if empty then wr a n v else old <- rd a n ;; wr a n (add old v)) (buf m dst) ;;
    Some (set_buf m dst a).

  (** cint1e_grids.c:188-202 *)
  Definition transpose_comps (gctr gctrj : arr F) (bgrids dij ngrids n_comp : Z) : option (arr F) :=
    for_ 0 n_comp (fun ic a =>
      for_ 0 dij (fun n a =>
        for_ 0 bgrids (fun ig a =>
          v <- rd gctrj ((n * n_comp + ic) * bgrids + ig) ;;
          wr a (ic * dij * ngrids + (ig + n * bgrids)) v) a) a) gctr.

  (** One pass of the loop over blocks, cint1e_grids.c:113-183.  The caller's buffer
      (number 5) is used through the pointer gctr+grids_offset*nf*nc: as gctrj (and what
      is aliased to it) when n_comp = 1, as target of _transpose_comps otherwise.
      empty[0..2] are set to 1; flag 5 stands for *jempty when gctrj is the caller's buffer. *)
  Definition grids_block (n_comp nf : Z) (si sj : shl F) (common_factor : F) (q : gpairs)
      (ngrids : Z) (grids gridsT : arr F) (grids_offset : Z) (m : mem F)
      : option (arr F * mem F * bool) :=
    let bgrids := Z.min (ngrids - grids_offset) GRID_BLKSIZE in
    gridsT <- copy_grids gridsT grids grids_offset bgrids ;;
    let m := set_flags m in
    let nc := s_ctr si * s_ctr sj in
    let gctr := buf m 5%nat in
    let off := grids_offset * nf * nc in
    let m := set_buf m 5%nat (view gctr off) in
    let gj := alias n_comp 5 2 in
    let gi := alias (s_ctr sj) gj 1 in
    let gg := alias (s_ctr si) gi 0 in
    m <- for_ 0 (s_np sj) (fun jp m =>
      r <- enter mul sj jp common_factor gi m ;;
      let '(fac1j, m) := r in
      m <- for_ 0 (s_np si) (fun ip m =>
        if x_skip q ip jp then Some m else
        fac1i <- (if s_ctr si =? 1 then c <- rd (s_c si) ip ;; Some (mul (mul fac1j c) (x_e q ip jp))
                  else Some (mul fac1j (x_e q ip jp))) ;;
        m <- gout_grids q gridsT bgrids n_comp (bgrids * nf * n_comp) ip jp m gg (flg m gg) fac1i ;;
        PRIM2CTR add mul si ip gi gi gg (bgrids * nf * n_comp) m) m ;;
      if negb (flg m gi) then PRIM2CTR add mul sj jp gj gj gi (bgrids * nf * s_ctr si * n_comp) m else Some m) m ;;
    m <- (if (1 <? n_comp) && negb (flg m gj)
          then a <- transpose_comps (buf m 5%nat) (buf m gj) bgrids (nf * nc) ngrids n_comp ;;
               Some (set_buf m 5%nat a)
          else Some m) ;;
    Some (gridsT, set_buf m 5%nat (unview gctr off (buf m 5%nat)), flg m gj).

  (** cint1e_grids.c:36-186 *)
  Definition CINT1e_grids_loop (n_comp nf : Z) (si sj : shl F) (common_factor : F) (q : gpairs)
      (ngrids : Z) (grids gridsT : arr F) (m : mem F) : option (mem F * bool) :=
    if x_empty q then Some (m, false) else
    r <- for_by 0 ngrids GRID_BLKSIZE (fun grids_offset (st : arr F * mem F * bool) =>
           let '(gridsT, m, all_empty) := st in
           r <- grids_block n_comp nf si sj common_factor q ngrids grids gridsT grids_offset m ;;
           let '(gridsT, m, jempty) := r in
           Some (gridsT, m, all_empty && jempty)) (gridsT, m, true) ;;
    let '(_, m, all_empty) := r in
    Some (m, negb all_empty).
End Grids.
Arguments gpairs : clear implicits.
