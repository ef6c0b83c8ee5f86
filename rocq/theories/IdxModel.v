(** IdxModel.v — the index-table builders. *)
From Verif Require Import Base BasModel EnvModel.

Definition CART_MAX := 136.   (* cint_const.h *)

(** State of the builders: output array and the running position [n]. *)
Definition ist : Type := (arr Z * Z)%type.

(** [idx[n+0]=x; idx[n+1]=y; idx[n+2]=z; n += 3;] *)
Definition put3 (x y z : Z) (s : ist) : option ist :=
  let '(a, n) := s in
  a <- wr a (n + 0) x ;;
  a <- wr a (n + 1) y ;;
  a <- wr a (n + 2) z ;;
  Some (a, n + 3).

(** Local arrays [x_nx[CART_MAX]] filled by [CINTcart_comp]. *)
Definition comps (l : Z) : option comp_state :=
  CINTcart_comp (uninit CART_MAX) (uninit CART_MAX) (uninit CART_MAX) l.

(** g1e.c:88-121 *)
Definition CINTg1e_index_xyz (e : envs) (idx : arr Z) : option (arr Z) :=
  let di := g_stride_i e in
  let dj := g_stride_j e in
  ic <- comps (i_l e) ;;
  jc <- comps (j_l e) ;;
  let ofx := 0 in let ofy := g_size e in let ofz := g_size e * 2 in
  s <- for_ 0 (nfj e) (fun j s =>
    jx <- rd (c_nx jc) j ;; jy <- rd (c_ny jc) j ;; jz <- rd (c_nz jc) j ;;
    let ofjx := ofx + dj * jx in
    let ofjy := ofy + dj * jy in
    let ofjz := ofz + dj * jz in
    for_ 0 (nfi e) (fun i s =>
      ix <- rd (c_nx ic) i ;; iy <- rd (c_ny ic) i ;; iz <- rd (c_nz ic) i ;;
      put3 (ofjx + di * ix) (ofjy + di * iy) (ofjz + di * iz) s) s) (idx, 0) ;;
  Some (fst s).

(** g2e.c:174-266 *)
Definition CINTg2e_index_xyz (e : envs) (idx : arr Z) : option (arr Z) :=
  let di := g_stride_i e in
  let dk := g_stride_k e in
  let dl := g_stride_l e in
  let dj := g_stride_j e in
  ic <- comps (i_l e) ;;
  jc <- comps (j_l e) ;;
  kc <- comps (k_l e) ;;
  lc <- comps (l_l e) ;;
  let ofx := 0 in let ofy := g_size e in let ofz := g_size e * 2 in
  s <- for_ 0 (nfj e) (fun j s =>
   for_ 0 (nfl e) (fun l s =>
    jx <- rd (c_nx jc) j ;; jy <- rd (c_ny jc) j ;; jz <- rd (c_nz jc) j ;;
    lx <- rd (c_nx lc) l ;; ly <- rd (c_ny lc) l ;; lz <- rd (c_nz lc) l ;;
    let oflx := ofx + dj * jx + dl * lx in
    let ofly := ofy + dj * jy + dl * ly in
    let oflz := ofz + dj * jz + dl * lz in
    for_ 0 (nfk e) (fun k s =>
      kx <- rd (c_nx kc) k ;; ky <- rd (c_ny kc) k ;; kz <- rd (c_nz kc) k ;;
      let ofkx := oflx + dk * kx in
      let ofky := ofly + dk * ky in
      let ofkz := oflz + dk * kz in
      match i_l e with
      | 0 => put3 ofkx ofky ofkz s
      | 1 => s <- put3 (ofkx + di) ofky ofkz s ;;
             s <- put3 ofkx (ofky + di) ofkz s ;;
             put3 ofkx ofky (ofkz + di) s
      | 2 => s <- put3 (ofkx + di * 2) ofky ofkz s ;;
             s <- put3 (ofkx + di) (ofky + di) ofkz s ;;
             s <- put3 (ofkx + di) ofky (ofkz + di) s ;;
             s <- put3 ofkx (ofky + di * 2) ofkz s ;;
             s <- put3 ofkx (ofky + di) (ofkz + di) s ;;
             put3 ofkx ofky (ofkz + di * 2) s
      | _ => for_ 0 (nfi e) (fun i s =>
               ix <- rd (c_nx ic) i ;; iy <- rd (c_ny ic) i ;; iz <- rd (c_nz ic) i ;;
               put3 (ofkx + di * ix) (ofky + di * iy) (ofkz + di * iz) s) s
      end) s) s) (idx, 0) ;;
  Some (fst s).

(** g3c1e.c:79-121 (used by the three-centre optimizer only; the loops call
    CINTg2e_index_xyz, cint3c1e.c:95 and 233) *)
Definition CINTg3c1e_index_xyz (e : envs) (idx : arr Z) : option (arr Z) :=
  let dj := g_stride_j e in
  let dk := g_stride_k e in
  ic <- comps (i_l e) ;;
  jc <- comps (j_l e) ;;
  kc <- comps (k_l e) ;;
  let ofx := 0 in let ofy := g_size e in let ofz := g_size e * 2 in
  s <- for_ 0 (nfk e) (fun k s =>
    kx <- rd (c_nx kc) k ;; ky <- rd (c_ny kc) k ;; kz <- rd (c_nz kc) k ;;
    let ofkx := ofx + dk * kx in
    let ofky := ofy + dk * ky in
    let ofkz := ofz + dk * kz in
    for_ 0 (nfj e) (fun j s =>
      jx <- rd (c_nx jc) j ;; jy <- rd (c_ny jc) j ;; jz <- rd (c_nz jc) j ;;
      let ofjx := ofkx + dj * jx in
      let ofjy := ofky + dj * jy in
      let ofjz := ofkz + dj * jz in
      for_ 0 (nfi e) (fun i s =>
        ix <- rd (c_nx ic) i ;; iy <- rd (c_ny ic) i ;; iz <- rd (c_nz ic) i ;;
        put3 (ofjx + ix) (ofjy + iy) (ofjz + iz) s) s) s) (idx, 0) ;;
  Some (fst s).
