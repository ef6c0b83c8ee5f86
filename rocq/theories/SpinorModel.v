(** SpinorModel.v — Cartesian to spinor transforms of src/cart2sph.c and the spinor
    output routines and driver tails built on them.

    Conventions as in OutModel.v: input pointers are views, work buffers carved out of
    [cache] are separate arrays of the size the C code reserves, a complex array is an
    array of doubles of twice the length, [size_t]/[FINT] arithmetic is unbounded.
    The arithmetic [zero add mul sub opp] and the test [x == 0] ([isz]) are parameters.
    The two tables g_trans_cart2jR, g_trans_cart2jI (cart2sph.c:813-2172, 2176-3535)
    enter through their contents [tJR], [tJI]. *)
From Verif Require Import Base BasModel EnvModel OutModel.

(** A callee that gets the pointer [a + o] and stays within [n] cells of it: it works on
    the window, and the window is put back.  Running outside the window is [None], which
    is stricter than C. *)
Definition win {A} (a : arr A) (o n : Z) : arr A := mkarr n (fun i => acell a (o + i)).
Definition put {A} (a : arr A) (o n : Z) (r : arr A) : arr A :=
  mkarr (asize a) (fun i => if (o <=? i) && (i <? o + n) then acell r (i - o) else acell a i).
Definition window {A} (a : arr A) (o n : Z) : option (arr A) :=
  if (0 <=? o) && (o + n <=? asize a) then Some (win a o n) else None.

(** cart2sph.c:3537-3546 *)
Definition len_spinor (kappa l : Z) : Z :=
  if 0 =? kappa then 4 * l + 2 else if kappa <? 0 then 2 * l + 2 else 2 * l.

(** cart2sph.c:3561-3578, columns 2-3 (j = l - 1/2) and 4-5 (j = l + 1/2) *)
Definition lt_off : list Z := [0; 4; 40; 160; 440; 980; 1904; 3360; 5520; 8580; 12760; 18304; 25480].
Definition gt_off : list Z := [0; 16; 88; 280; 680; 1400; 2576; 4368; 6960; 10560; 15400; 21736; 29848].
Definition jtab_size : Z := 34580.

Section Spinor.
  Context {F : Type} (zero : F) (add mul sub_ : F -> F -> F) (opp : F -> F) (isz : F -> bool).
  Context (tJR tJI : Z -> F).

  (** The pointers coeffR, coeffI every transform starts with (e.g. cart2sph.c:3931-3937).
      For l = 13..15 they are NULL: an array without cells. *)
  Definition cart2j (kappa l : Z) : option (arr F * arr F) :=
    if (0 <=? l) && (l <=? 15) then
      match nth_error (if kappa <? 0 then gt_off else lt_off) (Z.to_nat l) with
      | Some o => Some (sub (of_fun jtab_size tJR) o, sub (of_fun jtab_size tJI) o)
      | None => Some (uninit 0, uninit 0)
      end
    else None.

  (** The four coefficients read at the top of the inner loops (cart2sph.c:3953-3956) *)
  Definition coef4 (c : arr F * arr F) (i nf n : Z) : option (F * F * F * F) :=
    caR <- rd (fst c) (i * nf * 2 + n) ;; caI <- rd (snd c) (i * nf * 2 + n) ;;
    cbR <- rd (fst c) (i * nf * 2 + nf + n) ;; cbI <- rd (snd c) (i * nf * 2 + nf + n) ;;
    Some (caR, caI, cbR, cbI).

  Notation "a +' b" := (add a b) (at level 50, left associativity).
  Notation "a -' b" := (sub_ a b) (at level 50, left associativity).
  Notation "a *' b" := (mul a b) (at level 40, left associativity).
  Notation "-' a" := (opp a) (at level 35, right associativity).

  (** What one Cartesian component [n] adds to (saR, saI, sbR, sbI).
      cart2sph.c:3949-3960, 4049-4056 *)
  Definition si_term (gx gy gz g1 : arr F) (c : F * F * F * F) (q : Z) : option (F * F * F * F) :=
    let '(caR, caI, cbR, cbI) := c in
    v1 <- rd g1 q ;; vx <- rd gx q ;; vy <- rd gy q ;; vz <- rd gz q ;;
    Some (caR *' v1 +' caI *' vz -' cbR *' vy +' cbI *' vx,
          (-' caI) *' v1 +' caR *' vz +' cbI *' vy +' cbR *' vx,
          cbR *' v1 -' cbI *' vz +' caR *' vy +' caI *' vx,
          (-' cbI) *' v1 -' cbR *' vz -' caI *' vy +' caR *' vx).
  (** cart2sph.c:3997-4005, 4105-4109; gx, gy, gz are NULL and not read *)
  Definition sf_term (g1 : arr F) (c : F * F * F * F) (q : Z) : option (F * F * F * F) :=
    let '(caR, caI, cbR, cbI) := c in
    v1 <- rd g1 q ;;
    Some (caR *' v1, (-' caI) *' v1, cbR *' v1, (-' cbI) *' v1).
  (** cart2sph.c:4170-4183; the imaginary parts are [im] cells after the real ones *)
  Definition zi_term (im : Z) (gx gy gz g1 : arr F) (c : F * F * F * F) (q : Z)
      : option (F * F * F * F) :=
    let '(caR, caI, cbR, cbI) := c in
    v1R <- rd g1 q ;; v1I <- rd g1 (im + q) ;; vxR <- rd gx q ;; vxI <- rd gx (im + q) ;;
    vyR <- rd gy q ;; vyI <- rd gy (im + q) ;; vzR <- rd gz q ;; vzI <- rd gz (im + q) ;;
    let v11R := v1R -' vzI in
    let v11I := v1I +' vzR in
    let v12R := vyR -' vxI in
    let v12I := vyI +' vxR in
    let v21R := (-' vyR) -' vxI in
    let v21I := (-' vyI) +' vxR in
    let v22R := v1R +' vzI in
    let v22I := v1I -' vzR in
    Some (caR *' v11R +' caI *' v11I +' cbR *' v21R +' cbI *' v21I,
          caR *' v11I -' caI *' v11R +' cbR *' v21I -' cbI *' v21R,
          caR *' v12R +' caI *' v12I +' cbR *' v22R +' cbI *' v22I,
          caR *' v12I -' caI *' v12R +' cbR *' v22I -' cbI *' v22R).
  (** cart2sph.c:4227-4233 *)
  Definition zf_term (im : Z) (g1 : arr F) (c : F * F * F * F) (q : Z) : option (F * F * F * F) :=
    let '(caR, caI, cbR, cbI) := c in
    v1R <- rd g1 q ;; v1I <- rd g1 (im + q) ;;
    Some (caR *' v1R +' caI *' v1I, caR *' v1I -' caI *' v1R,
          cbR *' v1R +' cbI *' v1I, cbR *' v1I -' cbI *' v1R).

  (** The loops of cart2sph.c:3942-3966 and 3991-4011: sums in registers, then four stores.
      gspbR, gspbI are gspR, gspI + nket*nd. *)
  Definition bra_loops (term : F * F * F * F -> Z -> option (F * F * F * F))
      (aR aI : arr F) (nket kappa l : Z) : option (arr F * arr F) :=
    c <- cart2j kappa l ;;
    let nf := len_cart l in
    let nd := len_spinor kappa l in
    let b := nket * nd in
    for_ 0 nket (fun j s => for_ 0 nd (fun i s =>
      let '(aR, aI) := s in
      '(saR, saI, sbR, sbI) <- for_ 0 nf (fun n a =>
         let '(saR, saI, sbR, sbI) := a in
         cf <- coef4 c i nf n ;;
         '(taR, taI, tbR, tbI) <- term cf (j * nf + n) ;;
         Some (saR +' taR, saI +' taI, sbR +' tbR, sbI +' tbI)) (zero, zero, zero, zero) ;;
      aR <- wr aR (j * nd + i) saR ;; aI <- wr aI (j * nd + i) saI ;;
      aR <- wr aR (b + (j * nd + i)) sbR ;; aI <- wr aI (b + (j * nd + i)) sbI ;;
      Some (aR, aI)) s) (aR, aI).

  (** cart2sph.c:3920-3967 *)
  Definition a_bra_cart2spinor_si (gspR gspI gx gy gz g1 : arr F) (nket kappa l : Z) :=
    bra_loops (si_term gx gy gz g1) gspR gspI nket kappa l.
  (** cart2sph.c:3969-4012 *)
  Definition a_bra_cart2spinor_sf (gspR gspI g1 : arr F) (nket kappa l : Z) :=
    bra_loops (sf_term g1) gspR gspI nket kappa l.

  (** [a[x] += t] *)
  Definition inc (a : arr F) (x : Z) (t : F) : option (arr F) :=
    v <- rd a x ;; wr a x (v +' t).

  (** The loops of cart2sph.c:4035-4062 (and 4089-4114, 4151-4188, 4214-4238): zero a
      group of rows, then add up in memory, [ngrids] values at a time. *)
  Definition bra1_loops (term : F * F * F * F -> Z -> option (F * F * F * F))
      (aR aI : arr F) (ngrids nket kappa l : Z) : option (arr F * arr F) :=
    c <- cart2j kappa l ;;
    let nf := len_cart l in
    let nd := len_spinor kappa l in
    let ndg := nd * ngrids in
    let b := nket * ndg in
    for_ 0 nket (fun j s =>
      s <- for_ 0 ndg (fun i s => let '(aR, aI) := s in
             aR <- wr aR (j * ndg + i) zero ;; aI <- wr aI (j * ndg + i) zero ;;
             aR <- wr aR (b + (j * ndg + i)) zero ;; aI <- wr aI (b + (j * ndg + i)) zero ;;
             Some (aR, aI)) s ;;
      for_ 0 nd (fun i s => for_ 0 nf (fun n s =>
        cf <- coef4 c i nf n ;;
        for_ 0 ngrids (fun m s => let '(aR, aI) := s in
          '(taR, taI, tbR, tbI) <- term cf ((j * nf + n) * ngrids + m) ;;
          aR <- inc aR ((j * nd + i) * ngrids + m) taR ;;
          aI <- inc aI ((j * nd + i) * ngrids + m) taI ;;
          aR <- inc aR (b + ((j * nd + i) * ngrids + m)) tbR ;;
          aI <- inc aI (b + ((j * nd + i) * ngrids + m)) tbI ;;
          Some (aR, aI)) s) s) s) (aR, aI).

  (** cart2sph.c:4014-4063 *)
  Definition a_bra1_cart2spinor_si (gspR gspI gx gy gz g1 : arr F) (ngrids nket kappa l : Z) :=
    bra1_loops (si_term gx gy gz g1) gspR gspI ngrids nket kappa l.
  (** cart2sph.c:4065-4115 *)
  Definition a_bra1_cart2spinor_sf (gspR gspI g1 : arr F) (ngrids nket kappa l : Z) :=
    bra1_loops (sf_term g1) gspR gspI ngrids nket kappa l.
  (** cart2sph.c:4117-4189 *)
  Definition a_bra1_cart2spinor_zi (gspR gspI gx gy gz g1 : arr F) (ngrids nket kappa l : Z) :=
    bra1_loops (zi_term (nket * len_cart l * ngrids) gx gy gz g1) gspR gspI ngrids nket kappa l.
  (** cart2sph.c:4191-4239 *)
  Definition a_bra1_cart2spinor_zf (gspR gspI g1 : arr F) (ngrids nket kappa l : Z) :=
    bra1_loops (zf_term (nket * len_cart l * ngrids) g1) gspR gspI ngrids nket kappa l.

  (** cart2sph.c:4340-4403 *)
  Definition a_ket_cart2spinor (gspR gspI gcartR gcartI : arr F) (nbra kappa l : Z)
      : option (arr F * arr F) :=
    c <- cart2j kappa l ;;
    let nf := len_cart l in
    let nf2 := nf * 2 in
    let nd := len_spinor kappa l in
    for_ 0 nd (fun i s =>
      s <- for_ 0 nbra (fun j s => let '(aR, aI) := s in
             aR <- wr aR (j + i * nbra) zero ;; aI <- wr aI (j + i * nbra) zero ;; Some (aR, aI)) s ;;
      for_ 0 nf2 (fun n s =>
        cR <- rd (fst c) (i * nf2 + n) ;; cI <- rd (snd c) (i * nf2 + n) ;;
        let row (f : F -> F -> F * F) :=
          for_ 0 nbra (fun j s => let '(aR, aI) := s in
            gR <- rd gcartR (j + n * nbra) ;; gI <- rd gcartI (j + n * nbra) ;;
            aR <- inc aR (j + i * nbra) (fst (f gR gI)) ;;
            aI <- inc aI (j + i * nbra) (snd (f gR gI)) ;; Some (aR, aI)) s in
        if negb (isz cR) then
          if negb (isz cI) then row (fun gR gI => (cR *' gR -' cI *' gI, cI *' gR +' cR *' gI))
          else row (fun gR gI => (cR *' gR, cR *' gI))
        else
          if negb (isz cI) then row (fun gR gI => ((-' cI) *' gI, cI *' gR))
          else Some s) s) (gspR, gspI).

  (** the sign loop of the 'i' variants (cart2sph.c:4411-4416, 4471-4476) *)
  Definition negate (a : arr F) (size : Z) : option (arr F) :=
    for_ 0 size (fun i a => v <- rd a i ;; wr a i (-' v)) a.

  (** cart2sph.c:4406-4416 *)
  Definition a_iket_cart2spinor (gspR gspI gcartR gcartI : arr F) (nbra kappa l : Z)
      : option (arr F * arr F) :=
    '(aI, aR) <- a_ket_cart2spinor gspI gspR gcartR gcartI nbra kappa l ;;
    aR <- negate aR (len_spinor kappa l * nbra) ;;
    Some (aR, aI).

  (** cart2sph.c:4418-4463 *)
  Definition a_ket1_cart2spinor (gspR gspI gcartR gcartI : arr F) (nbra counts kappa l : Z)
      : option (arr F * arr F) :=
    c <- cart2j kappa l ;;
    let nf := len_cart l in
    let nf2 := nf * 2 in
    let nd := len_spinor kappa l in
    let nds := nd * nbra in
    let nfs := nf * nbra in
    let b := nfs * counts in
    for_ 0 nd (fun i s =>
      s <- for_ 0 counts (fun k s => for_ 0 nbra (fun j s => let '(aR, aI) := s in
             aR <- wr aR (k * nds + j + i * nbra) zero ;;
             aI <- wr aI (k * nds + j + i * nbra) zero ;; Some (aR, aI)) s) s ;;
      for_ 0 nf (fun n s =>
        caR <- rd (fst c) (i * nf2 + n) ;; caI <- rd (snd c) (i * nf2 + n) ;;
        cbR <- rd (fst c) (i * nf2 + nf + n) ;; cbI <- rd (snd c) (i * nf2 + nf + n) ;;
        for_ 0 counts (fun k s => for_ 0 nbra (fun j s => let '(aR, aI) := s in
          gaR <- rd gcartR (k * nfs + j + n * nbra) ;; gaI <- rd gcartI (k * nfs + j + n * nbra) ;;
          gbR <- rd gcartR (b + (k * nfs + j + n * nbra)) ;;
          gbI <- rd gcartI (b + (k * nfs + j + n * nbra)) ;;
          aR <- inc aR (k * nds + j + i * nbra) (caR *' gaR -' caI *' gaI +' cbR *' gbR -' cbI *' gbI) ;;
          aI <- inc aI (k * nds + j + i * nbra) (caR *' gaI +' caI *' gaR +' cbR *' gbI +' cbI *' gbR) ;;
          Some (aR, aI)) s) s) s) (gspR, gspI).

  (** cart2sph.c:4466-4477 *)
  Definition a_iket1_cart2spinor (gspR gspI gcartR gcartI : arr F) (nbra counts kappa l : Z)
      : option (arr F * arr F) :=
    '(aI, aR) <- a_ket1_cart2spinor gspI gspR gcartR gcartI nbra counts kappa l ;;
    aR <- negate aR (len_spinor kappa l * nbra * counts) ;;
    Some (aR, aI).

  (** ** Copies of complex blocks *)

  (** cart2sph.c:4531-4552; [o] counts complex numbers *)
  Definition zcopy_grids_ij (out : arr F) (o : Z) (gR gI : arr F)
      (ngrids ni nj mgrids mi mj : Z) : option (arr F) :=
    let ngi := ngrids * ni * 2 in
    let mgi := mgrids * mi in
    r <- for_ 0 mj (fun j s => let '(out, (po, pg)) := s in
           out <- for_ 0 mi (fun i out => for_ 0 mgrids (fun m out =>
             vR <- rd gR (pg + (i * mgrids + m)) ;; out <- wr out (po + (i * ngrids + m) * 2) vR ;;
             vI <- rd gI (pg + (i * mgrids + m)) ;; wr out (po + ((i * ngrids + m) * 2 + 1)) vI) out) out ;;
           Some (out, (po + ngi, pg + mgi))) (out, (o * 2, 0)) ;;
    Some (fst r).

  (** cart2sph.c:4676-4705; [o] counts complex numbers *)
  Definition zcopy_iklj (out : arr F) (o : Z) (gR gI : arr F)
      (ni nj nk nl mi mj mk ml : Z) : option (arr F) :=
    let nij := ni * nj in
    let nijk := nij * nk in
    let mik := mi * mk in
    let mikl := mik * ml in
    r <- for_ 0 ml (fun l s => let '(out, (po, pg)) := s in
           out <- for_ 0 mk (fun k out =>
             let pijkl := (po + k * nij) * 2 in
             let pgc := pg + k * mi in
             for_ 0 mj (fun j out => for_ 0 mi (fun i out =>
               vR <- rd gR (pgc + (j * mikl + i)) ;; out <- wr out (pijkl + (j * ni + i) * 2) vR ;;
               vI <- rd gI (pgc + (j * mikl + i)) ;; wr out (pijkl + ((j * ni + i) * 2 + 1)) vI) out) out) out ;;
           Some (out, (po + nijk, pg + mik))) (out, (o, 0)) ;;
    Some (fst r).

  (** ** Output routines.  [spin]: the si routines (four input components x, y, z, 1
      [dist] cells apart), else the sf routines (one component); [phase]: the 'i'
      variants.  The C functions of one group differ in nothing else. *)
  Definition bra_of (spin : bool) (aR aI gctr : arr F) (pg dist nket kappa l : Z) :=
    if spin then a_bra_cart2spinor_si aR aI (sub gctr pg) (sub gctr (pg + dist))
                   (sub gctr (pg + dist + dist)) (sub gctr (pg + dist + dist + dist)) nket kappa l
    else a_bra_cart2spinor_sf aR aI (sub gctr pg) nket kappa l.
  Definition bra1_of (spin : bool) (aR aI gctr : arr F) (pg dist ngrids nket kappa l : Z) :=
    if spin then a_bra1_cart2spinor_si aR aI (sub gctr pg) (sub gctr (pg + dist))
                   (sub gctr (pg + dist + dist)) (sub gctr (pg + dist + dist + dist)) ngrids nket kappa l
    else a_bra1_cart2spinor_sf aR aI (sub gctr pg) ngrids nket kappa l.
  Definition braz_of (spin : bool) (aR aI opij : arr F) (po dist ngrids nket kappa l : Z) :=
    if spin then a_bra1_cart2spinor_zi aR aI (sub opij po) (sub opij (po + dist))
                   (sub opij (po + dist + dist)) (sub opij (po + dist + dist + dist)) ngrids nket kappa l
    else a_bra1_cart2spinor_zf aR aI (sub opij po) ngrids nket kappa l.
  Definition ket_of (phase : bool) := if phase then a_iket_cart2spinor else a_ket_cart2spinor.
  Definition ket1_of (phase : bool) := if phase then a_iket1_cart2spinor else a_ket1_cart2spinor.

  (** c2s_sf_1e cart2sph.c:4869-4904, c2s_sf_1ei 4906-4941, c2s_si_1e 4947-4992,
      c2s_si_1ei 4993-5038.  i_kp, j_kp are the KAPPA_OF slots of the two shells. *)
  Definition c2s_spinor_1e (spin phase : bool) (i_kp j_kp : Z) (opij : arr F) (o : Z) (gctr : arr F)
      (dims : arr Z) (e : envs) : option (arr F) :=
    let di := len_spinor i_kp (i_l e) in
    let dj := len_spinor j_kp (j_l e) in
    ni <- rd dims 0 ;; nj <- rd dims 1 ;;
    let ofj := ni * dj in
    let nf2j := nfj e + nfj e in
    let dist := nf e * i_ctr e * j_ctr e in
    r <- for_ 0 (j_ctr e) (fun jc s => for_ 0 (i_ctr e) (fun ic s =>
           let '(opij, (pg, (t1R, t1I, t2R, t2I))) := s in
           '(t1R, t1I) <- bra_of spin t1R t1I gctr pg dist (nfj e) i_kp (i_l e) ;;
           '(t2R, t2I) <- ket_of phase t2R t2I t1R t1I di j_kp (j_l e) ;;
           opij <- zcopy_ij opij (o + (ofj * jc + di * ic)) t2R t2I ni nj di dj ;;
           Some (opij, (pg + nf e, (t1R, t1I, t2R, t2I)))) s)
         (opij, (0, (uninit (di * nf2j), uninit (di * nf2j), uninit (di * dj), uninit (di * dj)))) ;;
    Some (fst r).

  (** c2s_sf_1e_grids cart2sph.c:5111-5157, c2s_sf_1e_gridsi 5158-5200,
      c2s_si_1e_grids 5205-5260, c2s_si_1e_gridsi 5261-5317 *)
  Definition c2s_spinor_1e_grids (spin phase : bool) (i_kp j_kp : Z) (out : arr F) (o : Z) (gctr : arr F)
      (dims : arr Z) (ngrids : Z) (e : envs) : option (arr F) :=
    let di := len_spinor i_kp (i_l e) in
    let dj := len_spinor j_kp (j_l e) in
    ni <- rd dims 0 ;; nj <- rd dims 1 ;; Ng <- rd dims 2 ;;
    let ofj := ni * dj in
    let nf2j := nfj e + nfj e in
    let buflen := GRID_BLKSIZE * di * nf2j in
    r <- for_by 0 ngrids GRID_BLKSIZE (fun go s =>
           let bgrids := Z.min (ngrids - go) GRID_BLKSIZE in
           let bgrids_di := bgrids * di in
           for_ 0 (j_ctr e) (fun jc s => for_ 0 (i_ctr e) (fun ic s =>
             let '(out, (pg, (t1R, t1I, t2R, t2I))) := s in
             '(t1R, t1I) <- bra1_of spin t1R t1I gctr pg (ngrids * nf e * i_ctr e * j_ctr e)
                              bgrids (nfj e) i_kp (i_l e) ;;
             '(t2R, t2I) <- ket_of phase t2R t2I t1R t1I bgrids_di j_kp (j_l e) ;;
             out <- zcopy_grids_ij out (o + (Ng * (ofj * jc + di * ic) + go)) t2R t2I
                      Ng ni nj bgrids di dj ;;
             Some (out, (pg + bgrids * nf e, (t1R, t1I, t2R, t2I)))) s) s)
         (out, (0, (uninit buflen, uninit buflen, uninit buflen, uninit buflen))) ;;
    Some (fst r).

  (** c2s_sf_2e1 cart2sph.c:5385-5422, c2s_sf_2e1i 5424-5460, c2s_si_2e1 5592-5638,
      c2s_si_2e1i 5639-5685.  The ket transform writes through opij and opij+no, two
      pointers into one array; it is given the two windows of [no] cells.  [o] counts
      doubles. *)
  Definition c2s_spinor_2e1 (spin phase : bool) (i_kp j_kp : Z) (opij : arr F) (o : Z) (gctr : arr F)
      (e : envs) : option (arr F) :=
    let di := len_spinor i_kp (i_l e) in
    let dj := len_spinor j_kp (j_l e) in
    let nf2j := nfj e + nfj e in
    let no := di * nfk e * nfl e * dj in
    let d_i := di * nfk e * nfl e in
    let d_j := nfk e * nfl e * nfj e in
    let buflen := di * nfk e * nfl e * nf2j in
    let ncall := i_ctr e * j_ctr e * k_ctr e * l_ctr e in
    r <- for_ 0 ncall (fun i s =>
           let '(opij, (po, pg, t1R, t1I)) := s in
           '(t1R, t1I) <- bra_of spin t1R t1I gctr pg (nf e * i_ctr e * j_ctr e * k_ctr e * l_ctr e)
                            d_j i_kp (i_l e) ;;
           wR <- window opij po no ;; wI <- window opij (po + no) no ;;
           '(wR, wI) <- ket_of phase wR wI t1R t1I d_i j_kp (j_l e) ;;
           Some (put (put opij po no wR) (po + no) no wI, (po + no * 2, pg + nf e, t1R, t1I)))
         (opij, (o, 0, uninit buflen, uninit buflen)) ;;
    Some (fst r).

  (** c2s_sf_2e2 cart2sph.c:5469-5526, c2s_sf_2e2i 5527-5584, c2s_si_2e2 5687-5750,
      c2s_si_2e2i 5752-5815.  The second pair of buffers has [len2] cells, which the si
      routines take as large as the first. *)
  Definition c2s_spinor_2e2 (spin phase : bool) (i_kp j_kp k_kp l_kp : Z) (fijkl : arr F) (o : Z)
      (opij : arr F) (dims : arr Z) (e : envs) : option (arr F) :=
    let di := len_spinor i_kp (i_l e) in
    let dj := len_spinor j_kp (j_l e) in
    let dk := len_spinor k_kp (k_l e) in
    let dl := len_spinor l_kp (l_l e) in
    ni <- rd dims 0 ;; nj <- rd dims 1 ;; nk <- rd dims 2 ;; nl <- rd dims 3 ;;
    let nf2l := nfl e + nfl e in
    let nop := di * nfk e * nfl e * dj in
    let ofj := ni * dj in
    let ofk := ni * nj * dk in
    let ofl := ni * nj * nk * dl in
    let len1 := di * dk * nf2l * dj in
    let len2 := if spin then len1 else di * dk * dl * dj in
    let dist := nop * 2 * i_ctr e * j_ctr e * k_ctr e * l_ctr e in
    r <- for_ 0 (l_ctr e) (fun lc s => for_ 0 (k_ctr e) (fun kc s =>
         for_ 0 (j_ctr e) (fun jc s => for_ 0 (i_ctr e) (fun ic s =>
           let '(out, (po, (t1R, t1I, t2R, t2I))) := s in
           '(t1R, t1I) <- braz_of spin t1R t1I opij po dist di (nfl e * dj) k_kp (k_l e) ;;
           '(t2R, t2I) <- ket1_of phase t2R t2I t1R t1I (di * dk) dj l_kp (l_l e) ;;
           out <- zcopy_iklj out (o + (ofl * lc + ofk * kc + ofj * jc + di * ic)) t2R t2I
                    ni nj nk nl di dj dk dl ;;
           Some (out, (po + nop * 2, (t1R, t1I, t2R, t2I)))) s) s) s)
         (fijkl, (0, (uninit len1, uninit len1, uninit len2, uninit len2))) ;;
    Some (fst r).

  (** c2s_sf_3c2e1 cart2sph.c:5997-6049, c2s_sf_3c2e1i 6050-6104, c2s_si_3c2e1 6108-6178,
      c2s_si_3c2e1i 6180-6248: k is made spherical first.  The four buffers bufx, bufy,
      bufz, buf1 of the si routines are consecutive pieces of one allocation of
      buflen*4 cells; each is modelled as an array of its own. *)
  Definition c2s_spinor_3c2e1 (coef : Z -> F) (spin phase : bool) (i_kp j_kp : Z) (out : arr F) (o : Z)
      (gctr : arr F) (dims : arr Z) (e : envs) : option (arr F) :=
    let di := len_spinor i_kp (i_l e) in
    let dj := len_spinor j_kp (j_l e) in
    let dk := k_l e * 2 + 1 in
    ni <- rd dims 0 ;; nj <- rd dims 1 ;; nk <- rd dims 2 ;;
    let nf2j := nfj e + nfj e in
    let nfik := nfi e * nfk e in
    let ofj := ni * dj in
    let ofk := ni * nj * dk in
    let buflen := nfi e * dk * nfj e in
    let len1 := di * dk * nf2j in
    let len2 := di * dk * dj in
    let dist := nf e * i_ctr e * j_ctr e * k_ctr e in
    let inner buf p := sph2e_inner zero add mul coef buf (sub gctr p) (k_l e) (nfi e) (nfj e) (nfi e * dk) nfik in
    r <- for_ 0 (k_ctr e) (fun kc s => for_ 0 (j_ctr e) (fun jc s => for_ 0 (i_ctr e) (fun ic s =>
           let '(out, (pg, (bx, by_, bz, b1), (t1R, t1I, t2R, t2I))) := s in
           '(bs, (t1R, t1I)) <-
             (if spin then
                '(bx, px) <- inner bx pg ;; '(by_, py) <- inner by_ (pg + dist) ;;
                '(bz, pz) <- inner bz (pg + dist + dist) ;; '(b1, p1) <- inner b1 (pg + dist + dist + dist) ;;
                t <- a_bra_cart2spinor_si t1R t1I px py pz p1 (dk * nfj e) i_kp (i_l e) ;;
                Some ((bx, by_, bz, b1), t)
              else
                '(bx, p) <- inner bx pg ;;
                t <- a_bra_cart2spinor_sf t1R t1I p (dk * nfj e) i_kp (i_l e) ;;
                Some ((bx, by_, bz, b1), t)) ;;
           '(t2R, t2I) <- ket_of phase t2R t2I t1R t1I (di * dk) j_kp (j_l e) ;;
           out <- zcopy_iklj out (o + (ofk * kc + ofj * jc + di * ic)) t2R t2I ni nj nk 1 di dj dk 1 ;;
           Some (out, (pg + nf e, bs, (t1R, t1I, t2R, t2I)))) s) s)
         (out, (0, (uninit buflen, uninit buflen, uninit buflen, uninit buflen),
                (uninit len1, uninit len1, uninit len2, uninit len2))) ;;
    Some (fst r).

  (** c2s_sf_3c2e1_ssc cart2sph.c:6250-6294, c2s_sf_3c2e1i_ssc 6296-6340,
      c2s_si_3c2e1_ssc 6341-6395, c2s_si_3c2e1i_ssc 6396-6450: k stays Cartesian *)
  Definition c2s_spinor_3c2e1_ssc (spin phase : bool) (i_kp j_kp : Z) (out : arr F) (o : Z)
      (gctr : arr F) (dims : arr Z) (e : envs) : option (arr F) :=
    let di := len_spinor i_kp (i_l e) in
    let dj := len_spinor j_kp (j_l e) in
    ni <- rd dims 0 ;; nj <- rd dims 1 ;; nk <- rd dims 2 ;;
    let nf2j := nfj e + nfj e in
    let ofj := ni * dj in
    let ofk := ni * nj * nfk e in
    let len1 := di * nfk e * nf2j in
    let len2 := di * nfk e * dj in
    let dist := nf e * i_ctr e * j_ctr e * k_ctr e in
    r <- for_ 0 (k_ctr e) (fun kc s => for_ 0 (j_ctr e) (fun jc s => for_ 0 (i_ctr e) (fun ic s =>
           let '(out, (pg, (t1R, t1I, t2R, t2I))) := s in
           '(t1R, t1I) <- bra_of spin t1R t1I gctr pg dist (nfk e * nfj e) i_kp (i_l e) ;;
           '(t2R, t2I) <- ket_of phase t2R t2I t1R t1I (di * nfk e) j_kp (j_l e) ;;
           out <- zcopy_iklj out (o + (ofk * kc + ofj * jc + di * ic)) t2R t2I ni nj nk 1 di dj (nfk e) 1 ;;
           Some (out, (pg + nf e, (t1R, t1I, t2R, t2I)))) s) s)
         (out, (0, (uninit len1, uninit len1, uninit len2, uninit len2))) ;;
    Some (fst r).

  (** ** Last part of the spinor drivers, after the contraction loops.  counts[] come from
      CINTcgto_spinor; [nout] and the offsets count complex numbers. *)

  (** cint1e.c:258-276 *)
  Definition CINT1e_spinor_drv_tail (spin phase : bool) (i_kp j_kp : Z) (has_value : bool)
      (dims : option (arr Z)) (out gctr : arr F) (e : envs) : option (arr F) :=
    let nc := nf e * i_ctr e * j_ctr e * ncomp_e1 e in
    let counts := arr4 (len_spinor i_kp (i_l e) * i_ctr e) (len_spinor j_kp (j_l e) * j_ctr e) 1 1 in
    drv_tail (fun out o g d => c2s_spinor_1e spin phase i_kp j_kp out o g d e)
      (c2s_zset0 zero) has_value (ncomp_tensor e) nc nout2 counts dims out gctr.

  (** cint2c2e.c:294-350.  With ncomp_e1 or ncomp_e2 above one the C code prints a message
      and ends the process ([None] here). *)
  Definition CINT2c2e_spinor_drv_tail (spin phase : bool) (i_kp j_kp : Z) (has_value : bool)
      (dims : option (arr Z)) (out gctr : arr F) (e : envs) : option (arr F) :=
    if (1 <? ncomp_e1 e) || (1 <? ncomp_e2 e) then None else
    let nc := nf e * i_ctr e * j_ctr e in
    let n_comp := ncomp_e1 e * ncomp_e2 e * ncomp_tensor e in
    let counts := arr4 (len_spinor i_kp (i_l e) * i_ctr e) (len_spinor j_kp (j_l e) * j_ctr e) 1 1 in
    drv_tail (fun out o g d => c2s_spinor_1e spin phase i_kp j_kp out o g d e)
      (c2s_zset0 zero) has_value n_comp nc nout2 counts dims out gctr.

  (** cint1e_grids.c:305-326; c2s_grids_zset0 (cart2sph.c:4775-4781) permutes dims and counts *)
  Definition c2s_grids_zset0 (out : arr F) (o : Z) (dims counts : arr Z) : option (arr F) :=
    counts1 <- permuted counts ;; dims1 <- permuted dims ;;
    c2s_zset0 zero out o dims1 counts1 false.
  Definition CINT1e_grids_spinor_drv_tail (spin phase : bool) (i_kp j_kp : Z) (has_value : bool)
      (dims : option (arr Z)) (ngrids : Z) (out gctr : arr F) (e : envs) : option (arr F) :=
    let nc := ngrids * nf e * i_ctr e * j_ctr e * ncomp_e1 e in
    let counts := arr4 (len_spinor i_kp (i_l e) * i_ctr e) (len_spinor j_kp (j_l e) * j_ctr e) ngrids 1 in
    drv_tail (fun out o g d => c2s_spinor_1e_grids spin phase i_kp j_kp out o g d ngrids e)
      (fun out o d c _ => c2s_grids_zset0 out o d c) has_value (ncomp_tensor e) nc nout3 counts dims out gctr.

  (** cint3c2e.c:626-690 after the loops *)
  Definition CINT3c2e_spinor_drv_tail (coef : Z -> F) (ssc spin phase : bool) (i_kp j_kp : Z) (has_value : bool)
      (dims : option (arr Z)) (out gctr : arr F) (e : envs) : option (arr F) :=
    let nc := nf e * i_ctr e * j_ctr e * k_ctr e * ncomp_e1 e in
    let counts := arr4 (len_spinor i_kp (i_l e) * i_ctr e) (len_spinor j_kp (j_l e) * j_ctr e)
                       (if ssc then nfk e * k_ctr e else (k_l e * 2 + 1) * k_ctr e) 1 in
    drv_tail (fun out o g d => if ssc then c2s_spinor_3c2e1_ssc spin phase i_kp j_kp out o g d e
                               else c2s_spinor_3c2e1 coef spin phase i_kp j_kp out o g d e)
      (c2s_zset0 zero) has_value (ncomp_e2 e * ncomp_tensor e) nc nout3 counts dims out gctr.

  (** cint2e.c:871-950 after the loops.  [s1 p1] say which first-electron routine the caller
      passed, [s2 p2] which second-electron one.  opij has n1*ncomp_e2 complex cells. *)
  Definition CINT2e_spinor_drv_tail (s1 p1 s2 p2 : bool) (i_kp j_kp k_kp l_kp : Z) (has_value : bool)
      (dims : option (arr Z)) (out gctr : arr F) (e : envs) : option (arr F) :=
    let c0 := len_spinor i_kp (i_l e) * i_ctr e in
    let c1 := len_spinor j_kp (j_l e) * j_ctr e in
    let c2 := len_spinor k_kp (k_l e) * k_ctr e in
    let c3 := len_spinor l_kp (l_l e) * l_ctr e in
    let counts := arr4 c0 c1 c2 c3 in
    let nc := nf e * i_ctr e * j_ctr e * k_ctr e * l_ctr e in
    let n1 := c0 * nfk e * k_ctr e * nfl e * l_ctr e * c1 in
    let alias := match dims with None => true | Some _ => false end in
    let dims := match dims with None => counts | Some d => d end in
    nout <- nout4 dims ;;
    if has_value then
      r <- for_ 0 (ncomp_tensor e) (fun n s =>
             let '(out, (opij, pg)) := s in
             '(opij, pg) <- for_ 0 (ncomp_e2 e) (fun m s =>
                let '(opij, pg) := s in
                opij <- c2s_spinor_2e1 s1 p1 i_kp j_kp opij (n1 * m * 2) (sub gctr pg) e ;;
                Some (opij, pg + nc * ncomp_e1 e)) (opij, pg) ;;
             out <- c2s_spinor_2e2 s2 p2 i_kp j_kp k_kp l_kp out (nout * n) opij dims e ;;
             Some (out, (opij, pg))) (out, (uninit (n1 * ncomp_e2 e * 2), 0)) ;;
      Some (fst r)
    else
      for_ 0 (ncomp_tensor e) (fun n out => c2s_zset0 zero out (nout * n) dims counts alias) out.
End Spinor.
