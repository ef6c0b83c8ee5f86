(** OutModel.v — how a finished batch gets from the contraction buffer into the
    caller's array: copy and zero-fill routines, Cartesian and spherical output
    routines of src/cart2sph.c, and the last part of the integral drivers.

    Pointers.  An input pointer [p + o] is the view [sub p o] of the array behind
    it; an output pointer is an array together with a base offset.  Work buffers
    carved out of [cache] are separate arrays of the size the C code reserves for
    them (their being disjoint is checked with the cache sizes, not here), so an
    access beyond a buffer is [None].  [size_t]/[FINT] arithmetic is unbounded here.
    Complex arrays are arrays of doubles of twice the length, as the C code itself
    treats them. *)
From Verif Require Import Base BasModel FblasModel EnvModel.

Notation "' p <- m ;; k" := (bind m (fun x => let 'p := x in k))
  (at level 61, p pattern, m at next level, right associativity).

(** pointer arithmetic on a source pointer *)
Definition sub {A} (a : arr A) (o : Z) : arr A :=
  mkarr (asize a - o) (fun i => acell a (o + i)).

(** a callee writing through the pointer [a + o] *)
Definition splice {A} (a : arr A) (o : Z) (r : arr A) : arr A :=
  mkarr (asize a) (fun i => if o <=? i then acell r (i - o) else acell a i).
Definition onsub {A} (a : arr A) (o : Z) (f : arr A -> option (arr A)) : option (arr A) :=
  r <- f (sub a o) ;; Some (splice a o r).

Section Copy.
  Context {F : Type} (zero : F).

  (** cart2sph.c:4488-4497 *)
  Definition dcopy_ij (out : arr F) (o : Z) (gctr : arr F) (ni nj mi mj : Z) : option (arr F) :=
    for_ 0 mj (fun j out => for_ 0 mi (fun i out =>
      v <- rd gctr (j * mi + i) ;; wr out (o + (j * ni + i)) v) out) out.

  (** cart2sph.c:4499-4510; [o] counts complex numbers *)
  Definition zcopy_ij (out : arr F) (o : Z) (gR gI : arr F) (ni nj mi mj : Z) : option (arr F) :=
    for_ 0 mj (fun j out => for_ 0 mi (fun i out =>
      vR <- rd gR (j * mi + i) ;; out <- wr out (o * 2 + (j * ni + i) * 2) vR ;;
      vI <- rd gI (j * mi + i) ;; wr out (o * 2 + ((j * ni + i) * 2 + 1)) vI) out) out.

  (** cart2sph.c:4512-4529; the loop state is the array and the two moving pointers *)
  Definition dcopy_grids_ij (out : arr F) (o : Z) (gctr : arr F)
      (ngrids ni nj mgrids mi mj : Z) : option (arr F) :=
    let ngi := ngrids * ni in
    let mgi := mgrids * mi in
    r <- for_ 0 mj (fun j s => let '(out, (po, pg)) := s in
           out <- for_ 0 mi (fun i out => for_ 0 mgrids (fun m out =>
             v <- rd gctr (pg + (i * mgrids + m)) ;;
             wr out (po + (i * ngrids + m)) v) out) out ;;
           Some (out, (po + ngi, pg + mgi))) (out, (o, 0)) ;;
    Some (fst r).

  (** One row of cart2sph.c:4558-4674.  [row_list is] is an unrolled row with the
      listed offsets, [row_loop] the loop of the default case. *)
  Fixpoint row_list (is : list Z) (gctr : arr F) (pg po : Z) (out : arr F) : option (arr F) :=
    match is with
    | [] => Some out
    | i :: is => v <- rd gctr (pg + i) ;; out <- wr out (po + i) v ;; row_list is gctr pg po out
    end.
  Definition row_loop (mi : Z) (gctr : arr F) (pg po : Z) (out : arr F) : option (arr F) :=
    for_ 0 mi (fun i out => v <- rd gctr (pg + i) ;; wr out (po + i) v) out.

  (** the loops around a row, repeated in every case of cart2sph.c:4571-4673 *)
  Definition iklj_rows (row : arr F -> Z -> Z -> arr F -> option (arr F))
      (out : arr F) (o : Z) (gctr : arr F) (ni nij nijk mi mik mikl mj mk ml : Z) : option (arr F) :=
    r <- for_ 0 ml (fun l s => let '(out, (po, pg)) := s in
           out <- for_ 0 mk (fun k out =>
             for_ 0 mj (fun j out =>
               row gctr ((pg + k * mi) + mikl * j) ((po + k * nij) + ni * j) out) out) out ;;
           Some (out, (po + nijk, pg + mik))) (out, (o, 0)) ;;
    Some (fst r).

  (** cart2sph.c:4558-4674 *)
  Definition dcopy_iklj (out : arr F) (o : Z) (gctr : arr F)
      (ni nj nk nl mi mj mk ml : Z) : option (arr F) :=
    let nij := ni * nj in
    let nijk := nij * nk in
    let mik := mi * mk in
    let mikl := mik * ml in
    let go row := iklj_rows row out o gctr ni nij nijk mi mik mikl mj mk ml in
    match mi with
    | 1 => go (row_list [0])
    | 3 => go (row_list [0; 1; 2])
    | 5 => go (row_list [0; 1; 2; 3; 4])
    | 6 => go (row_list [0; 1; 2; 3; 4; 5])
    | 7 => go (row_list [0; 1; 2; 3; 4; 5; 6])
    | _ => go (row_loop mi)
    end.

  (** cart2sph.c:4707-4736.  [dims] is an array in memory: a missing third entry is
      an out-of-bounds read.  [alias] is the pointer comparison dims == counts. *)
  Definition c2s_dset0 (out : arr F) (o : Z) (dims : arr Z) (counts : arr Z) (alias : bool)
      : option (arr F) :=
    ni <- rd dims 0 ;; nj <- rd dims 1 ;; nk <- rd dims 2 ;;
    let nij := ni * nj in
    let nijk := nij * nk in
    if alias then
      c3 <- rd counts 3 ;;
      for_ 0 (nijk * c3) (fun i out => wr out (o + i) zero) out
    else
      di <- rd counts 0 ;; dj <- rd counts 1 ;; dk <- rd counts 2 ;; dl <- rd counts 3 ;;
      r <- for_ 0 dl (fun l s => let '(out, po) := s in
             out <- for_ 0 dk (fun k out => for_ 0 dj (fun j out => for_ 0 di (fun i out =>
               wr out ((po + k * nij) + (j * ni + i)) zero) out) out) out ;;
             Some (out, po + nijk)) (out, o) ;;
      Some (fst r).

  (** cart2sph.c:4737-4766; one complex store is two double stores, [o] counts complex numbers *)
  Definition zwr0 (out : arr F) (x : Z) : option (arr F) :=
    out <- wr out (x * 2) zero ;; wr out (x * 2 + 1) zero.
  Definition c2s_zset0 (out : arr F) (o : Z) (dims : arr Z) (counts : arr Z) (alias : bool)
      : option (arr F) :=
    ni <- rd dims 0 ;; nj <- rd dims 1 ;; nk <- rd dims 2 ;;
    let nij := ni * nj in
    let nijk := nij * nk in
    if alias then
      c3 <- rd counts 3 ;;
      for_ 0 (nijk * c3) (fun i out => zwr0 out (o + i)) out
    else
      di <- rd counts 0 ;; dj <- rd counts 1 ;; dk <- rd counts 2 ;; dl <- rd counts 3 ;;
      r <- for_ 0 dl (fun l s => let '(out, po) := s in
             out <- for_ 0 dk (fun k out => for_ 0 dj (fun j out => for_ 0 di (fun i out =>
               zwr0 out ((po + k * nij) + (j * ni + i))) out) out) out ;;
             Some (out, po + nijk)) (out, o) ;;
      Some (fst r).

  (** cart2sph.c:4768-4781: two fresh local arrays, so never aliased *)
  Definition arr4 (a b c d : Z) : arr Z :=
    of_fun 4 (fun i => if i =? 0 then a else if i =? 1 then b else if i =? 2 then c else d).
  Definition permuted (x : arr Z) : option (arr Z) :=
    x2 <- rd x 2 ;; x0 <- rd x 0 ;; x1 <- rd x 1 ;; x3 <- rd x 3 ;; Some (arr4 x2 x0 x1 x3).
  Definition c2s_grids_dset0 (out : arr F) (o : Z) (dims counts : arr Z) : option (arr F) :=
    counts1 <- permuted counts ;; dims1 <- permuted dims ;;
    c2s_dset0 out o dims1 counts1 false.

  (** cart2sph.c:5820-5840 *)
  Definition c2s_cart_1e (opij : arr F) (o : Z) (gctr : arr F) (dims : arr Z) (e : envs)
      : option (arr F) :=
    ni <- rd dims 0 ;; nj <- rd dims 1 ;;
    let ofj := ni * nfj e in
    r <- for_ 0 (j_ctr e) (fun jc s => for_ 0 (i_ctr e) (fun ic s =>
           let '(opij, pg) := s in
           opij <- dcopy_ij opij (o + ofj * jc + nfi e * ic) (sub gctr pg) ni nj (nfi e) (nfj e) ;;
           Some (opij, pg + nf e)) s) (opij, 0) ;;
    Some (fst r).

  (** cart2sph.c:5845-5875 *)
  Definition c2s_cart_2e1 (fijkl : arr F) (o : Z) (gctr : arr F) (dims : arr Z) (e : envs)
      : option (arr F) :=
    ni <- rd dims 0 ;; nj <- rd dims 1 ;; nk <- rd dims 2 ;; nl <- rd dims 3 ;;
    let ofj := ni * nfj e in
    let ofk := ni * nj * nfk e in
    let ofl := ni * nj * nk * nfl e in
    r <- for_ 0 (l_ctr e) (fun lc s => for_ 0 (k_ctr e) (fun kc s =>
         for_ 0 (j_ctr e) (fun jc s => for_ 0 (i_ctr e) (fun ic s =>
           let '(out, pg) := s in
           out <- dcopy_iklj out (o + ofl * lc + ofk * kc + ofj * jc + nfi e * ic) (sub gctr pg)
                    ni nj nk nl (nfi e) (nfj e) (nfk e) (nfl e) ;;
           Some (out, pg + nf e)) s) s) s) (fijkl, 0) ;;
    Some (fst r).

  (** cart2sph.c:5926-5951 (and 6464-6468) *)
  Definition c2s_cart_3c2e1 (bufijk : arr F) (o : Z) (gctr : arr F) (dims : arr Z) (e : envs)
      : option (arr F) :=
    ni <- rd dims 0 ;; nj <- rd dims 1 ;; nk <- rd dims 2 ;;
    let ofj := ni * nfj e in
    let ofk := ni * nj * nfk e in
    r <- for_ 0 (k_ctr e) (fun kc s =>
         for_ 0 (j_ctr e) (fun jc s => for_ 0 (i_ctr e) (fun ic s =>
           let '(out, pg) := s in
           out <- dcopy_iklj out (o + ofk * kc + ofj * jc + nfi e * ic) (sub gctr pg)
                    ni nj nk 1 (nfi e) (nfj e) (nfk e) 1 ;;
           Some (out, pg + nf e)) s) s) (bufijk, 0) ;;
    Some (fst r).

  (** cart2sph.c:5080-5109; [ngrids] is env[NGRIDS].  The block loop steps by 104. *)
  Definition c2s_cart_1e_grids (out : arr F) (o : Z) (gctr : arr F) (dims : arr Z)
      (ngrids : Z) (e : envs) : option (arr F) :=
    ni <- rd dims 0 ;; nj <- rd dims 1 ;; Ng <- rd dims 2 ;;
    let ofj := ni * nfj e in
    r <- for_by 0 ngrids GRID_BLKSIZE (fun go s =>
           let bgrids := Z.min (ngrids - go) GRID_BLKSIZE in
           for_ 0 (j_ctr e) (fun jc s => for_ 0 (i_ctr e) (fun ic s =>
             let '(out, pg) := s in
             out <- dcopy_grids_ij out (o + Ng * (ofj * jc + nfi e * ic) + go) (sub gctr pg)
                      Ng ni nj bgrids (nfi e) (nfj e) ;;
             Some (out, pg + bgrids * nf e)) s) s) (out, 0) ;;
    Some (fst r).
End Copy.

Section Sph.
  Context {F : Type} (zero : F) (add mul : F -> F -> F).
  (** contents of g_trans_cart2sph (cart2sph.c:21-1300) *)
  Context (g_trans_cart2sph : Z -> F).

  (** cart2sph.c:3561-3578, first column *)
  Definition c2s_off (l : Z) : Z :=
    nth (Z.to_nat l) [0; 1; 10; 40; 110; 245; 476; 840; 1380; 2145; 3190; 4576; 6370; 8645; 11480; 14960] 0.
  (** cart2sph.c:3548-3550 *)
  Definition len_cart (l : Z) : Z :=
    nth (Z.to_nat l) [1; 3; 6; 10; 15; 21; 28; 36; 45; 55; 66; 78; 91; 105; 120; 136] 0.
  Definition g_trans_size : Z := 19176.
  (** the pointer g_c2s[l].cart2sph *)
  Definition cart2sph (l : Z) : arr F :=
    sub (of_fun g_trans_size g_trans_cart2sph) (c2s_off l).

  (** cart2sph.c:3581-3597 *)
  Definition a_bra_cart2spheric (gsph : arr F) (nket : Z) (gcart : arr F) (l : Z)
      : option (arr F * arr F) :=
    r <- CINTdgemm_TN zero add mul (l * 2 + 1) nket (len_cart l) (cart2sph l) gcart gsph ;;
    Some (r, r).
  Definition a_ket_cart2spheric (gsph gcart : arr F) (lds nbra l : Z) : option (arr F * arr F) :=
    r <- CINTdgemm_NN1 zero add mul nbra (l * 2 + 1) (len_cart l) gcart (cart2sph l) gsph lds ;;
    Some (r, r).

  (** cart2sph.c:3599-3676 without PYPZPX: s and p hand the input pointer back *)
  Definition sp_bra_cart2spheric (gsph : arr F) (nket : Z) (gcart : arr F) (l : Z)
      : option (arr F * arr F) := Some (gsph, gcart).
  Definition sp_ket_cart2spheric (gsph gcart : arr F) (lds nbra l : Z) : option (arr F * arr F) :=
    Some (gsph, gcart).
  Definition s_ket_cart2spheric_copy (gsph gcart : arr F) (lds nbra l : Z) : option (arr F * arr F) :=
    r <- for_ 0 nbra (fun i gsph => v <- rd gcart i ;; wr gsph i v) gsph ;; Some (r, r).
  Definition p_ket_cart2spheric_copy (gsph gcart : arr F) (lds nbra l : Z) : option (arr F * arr F) :=
    r <- for_ 0 nbra (fun i gsph =>
      v <- rd gcart (0 * nbra + i) ;; gsph <- wr gsph (0 * lds + i) v ;;
      v <- rd gcart (1 * nbra + i) ;; gsph <- wr gsph (1 * lds + i) v ;;
      v <- rd gcart (2 * nbra + i) ;; wr gsph (2 * lds + i) v) gsph ;; Some (r, r).

  (** The right-hand sides of cart2sph.c:3679-3856: per row the pairs
      (index into coeff_c2s, Cartesian index) in source order. *)
  Definition d_rows : list (list (Z * Z)) :=
    [ [(1, 1)];
      [(10, 4)];
      [(12, 0); (15, 3); (17, 5)];
      [(20, 2)];
      [(24, 0); (27, 3)] ].
  Definition f_rows : list (list (Z * Z)) :=
    [ [(1, 1); (6, 6)];
      [(14, 4)];
      [(21, 1); (26, 6); (28, 8)];
      [(32, 2); (37, 7); (39, 9)];
      [(40, 0); (43, 3); (45, 5)];
      [(52, 2); (57, 7)];
      [(60, 0); (63, 3)] ].
  Definition g_rows : list (list (Z * Z)) :=
    [ [(1, 1); (6, 6)];
      [(19, 4); (26, 11)];
      [(31, 1); (36, 6); (38, 8)];
      [(49, 4); (56, 11); (58, 13)];
      [(60, 0); (63, 3); (65, 5); (70, 10); (72, 12); (74, 14)];
      [(77, 2); (82, 7); (84, 9)];
      [(90, 0); (95, 5); (100, 10); (102, 12)];
      [(107, 2); (112, 7)];
      [(120, 0); (123, 3); (130, 10)] ].

  (** value of one right-hand side; [at_ a] is the address of Cartesian index [a] *)
  Fixpoint row_more (cs : arr F) (gcart : arr F) (at_ : Z -> Z) (acc : F) (r : list (Z * Z)) : option F :=
    match r with
    | [] => Some acc
    | (ci, a) :: r => c <- rd cs ci ;; x <- rd gcart (at_ a) ;;
                      row_more cs gcart at_ (add acc (mul c x)) r
    end.
  Definition row_val (cs : arr F) (gcart : arr F) (at_ : Z -> Z) (r : list (Z * Z)) : option F :=
    match r with
    | [] => None
    | (ci, a) :: r => c <- rd cs ci ;; x <- rd gcart (at_ a) ;; row_more cs gcart at_ (mul c x) r
    end.
  (** all rows of one column, in order; [to m] is the address of row [m] *)
  Fixpoint rows_from (cs : arr F) (gcart : arr F) (at_ to : Z -> Z) (m : Z) (rs : list (list (Z * Z)))
      (gsph : arr F) : option (arr F) :=
    match rs with
    | [] => Some gsph
    | r :: rs => v <- row_val cs gcart at_ r ;; gsph <- wr gsph (to m) v ;;
                 rows_from cs gcart at_ to (m + 1) rs gsph
    end.
  (** cart2sph.c:3679-3697, 3719-3745, 3775-3812: column i at gsph+i*nd, gcart+i*nf *)
  Definition dfg_bra (l nd nf : Z) (rs : list (list (Z * Z))) (gsph : arr F) (nket : Z) (gcart : arr F)
      : option (arr F * arr F) :=
    r <- for_ 0 nket (fun i gsph =>
           rows_from (cart2sph l) gcart (fun a => i * nf + a) (fun m => i * nd + m) 0 rs gsph) gsph ;;
    Some (r, r).
  (** cart2sph.c:3698-3717, 3746-3773, 3813-3856 *)
  Definition dfg_ket (l : Z) (rs : list (list (Z * Z))) (gsph gcart : arr F) (lds nbra : Z)
      : option (arr F * arr F) :=
    r <- for_ 0 nbra (fun i gsph =>
           rows_from (cart2sph l) gcart (fun a => a * nbra + i) (fun m => m * lds + i) 0 rs gsph) gsph ;;
    Some (r, r).
  Definition d_bra_cart2spheric gsph nket gcart (l : Z) := dfg_bra 2 5 6 d_rows gsph nket gcart.
  Definition f_bra_cart2spheric gsph nket gcart (l : Z) := dfg_bra 3 7 10 f_rows gsph nket gcart.
  Definition g_bra_cart2spheric gsph nket gcart (l : Z) := dfg_bra 4 9 15 g_rows gsph nket gcart.
  Definition d_ket_cart2spheric gsph gcart lds nbra (l : Z) := dfg_ket 2 d_rows gsph gcart lds nbra.
  Definition f_ket_cart2spheric gsph gcart lds nbra (l : Z) := dfg_ket 3 f_rows gsph gcart lds nbra.
  Definition g_ket_cart2spheric gsph gcart lds nbra (l : Z) := dfg_ket 4 g_rows gsph gcart lds nbra.

  (** cart2sph.c:3858-3914, dispatch tables of 16 entries *)
  Definition c2s_bra_sph (l : Z) : option (arr F -> Z -> arr F -> Z -> option (arr F * arr F)) :=
    if (l <? 0) || (15 <? l) then None else Some (
    match l with
    | 0 => sp_bra_cart2spheric | 1 => sp_bra_cart2spheric
    | 2 => d_bra_cart2spheric | 3 => f_bra_cart2spheric | 4 => g_bra_cart2spheric
    | _ => a_bra_cart2spheric
    end).
  Definition c2s_ket_sph (l : Z) : option (arr F -> arr F -> Z -> Z -> Z -> option (arr F * arr F)) :=
    if (l <? 0) || (15 <? l) then None else Some (
    match l with
    | 0 => sp_ket_cart2spheric | 1 => sp_ket_cart2spheric
    | 2 => d_ket_cart2spheric | 3 => f_ket_cart2spheric | 4 => g_ket_cart2spheric
    | _ => a_ket_cart2spheric
    end).
  Definition c2s_ket_sph1 (l : Z) : option (arr F -> arr F -> Z -> Z -> Z -> option (arr F * arr F)) :=
    if (l <? 0) || (15 <? l) then None else Some (
    match l with
    | 0 => s_ket_cart2spheric_copy | 1 => p_ket_cart2spheric_copy
    | 2 => d_ket_cart2spheric | 3 => f_ket_cart2spheric | 4 => g_ket_cart2spheric
    | _ => a_ket_cart2spheric
    end).

  (** cart2sph.c:4789-4828; the result is the new buffer and the array the returned
      pointer points to *)
  Definition inner_calls (ket : arr F -> arr F -> Z -> Z -> Z -> option (arr F * arr F))
      (gsph gcart : arr F) (l nbra ncall sizsph sizcart : Z) : option (arr F * arr F) :=
    r <- for_ 0 ncall (fun n gsph => onsub gsph (n * sizsph) (fun s =>
           q <- ket s (sub gcart (n * sizcart)) nbra nbra l ;; Some (fst q))) gsph ;;
    Some (r, r).
  Definition sph2e_inner (gsph gcart : arr F) (l nbra ncall sizsph sizcart : Z)
      : option (arr F * arr F) :=
    match l with
    | 0 | 1 => Some (gsph, gcart)
    | 2 => inner_calls d_ket_cart2spheric gsph gcart l nbra ncall sizsph sizcart
    | 3 => inner_calls f_ket_cart2spheric gsph gcart l nbra ncall sizsph sizcart
    | 4 => inner_calls g_ket_cart2spheric gsph gcart l nbra ncall sizsph sizcart
    | _ => inner_calls a_ket_cart2spheric gsph gcart l nbra ncall sizsph sizcart
    end.

  (** cart2sph.c:4833-4863.  The work buffers are uninitialised memory. *)
  Definition c2s_sph_1e (opij : arr F) (o : Z) (gctr : arr F) (dims : arr Z) (e : envs)
      : option (arr F) :=
    let di := i_l e * 2 + 1 in
    let dj := j_l e * 2 + 1 in
    ni <- rd dims 0 ;; nj <- rd dims 1 ;;
    let ofj := ni * dj in
    let buflen := nfi e * dj in
    r <- for_ 0 (j_ctr e) (fun jc s => for_ 0 (i_ctr e) (fun ic s =>
           let '(opij, (pg, (buf1, buf2))) := s in
           ket <- c2s_ket_sph (j_l e) ;;
           '(buf1, tmp1) <- ket buf1 (sub gctr pg) (nfi e) (nfi e) (j_l e) ;;
           bra <- c2s_bra_sph (i_l e) ;;
           '(buf2, tmp1) <- bra buf2 dj tmp1 (i_l e) ;;
           opij <- dcopy_ij opij (o + ofj * jc + di * ic) tmp1 ni nj di dj ;;
           Some (opij, (pg + nf e, (buf1, buf2)))) s) (opij, (0, (uninit buflen, uninit buflen))) ;;
    Some (fst r).

  (** cart2sph.c:5324-5378 *)
  Definition c2s_sph_2e1 (out : arr F) (o : Z) (gctr : arr F) (dims : arr Z) (e : envs)
      : option (arr F) :=
    let di := i_l e * 2 + 1 in
    let dj := j_l e * 2 + 1 in
    let dk := k_l e * 2 + 1 in
    let dl := l_l e * 2 + 1 in
    ni <- rd dims 0 ;; nj <- rd dims 1 ;; nk <- rd dims 2 ;; nl <- rd dims 3 ;;
    let nfik := nfi e * nfk e in
    let nfikl := nfik * nfl e in
    let dlj := dl * dj in
    let ofj := ni * dj in
    let ofk := ni * nj * dk in
    let ofl := ni * nj * nk * dl in
    let buflen := nfikl * dj in
    r <- for_ 0 (l_ctr e) (fun lc s => for_ 0 (k_ctr e) (fun kc s =>
         for_ 0 (j_ctr e) (fun jc s => for_ 0 (i_ctr e) (fun ic s =>
           let '(out, (pg, ((buf1, buf2), (buf3, buf4)))) := s in
           ket <- c2s_ket_sph (j_l e) ;;
           '(buf1, tmp1) <- ket buf1 (sub gctr pg) nfikl nfikl (j_l e) ;;
           '(buf2, tmp1) <- sph2e_inner buf2 tmp1 (l_l e) nfik dj (nfik * dl) nfikl ;;
           '(buf3, tmp1) <- sph2e_inner buf3 tmp1 (k_l e) (nfi e) dlj (nfi e * dk) nfik ;;
           bra <- c2s_bra_sph (i_l e) ;;
           '(buf4, tmp1) <- bra buf4 (dk * dlj) tmp1 (i_l e) ;;
           out <- dcopy_iklj out (o + ofl * lc + ofk * kc + ofj * jc + di * ic) tmp1
                    ni nj nk nl di dj dk dl ;;
           Some (out, (pg + nf e, ((buf1, buf2), (buf3, buf4))))) s) s) s)
         (out, (0, ((uninit buflen, uninit buflen), (uninit buflen, uninit buflen)))) ;;
    Some (fst r).

  (** cart2sph.c:5884-5924 (and 6458-6462) *)
  Definition c2s_sph_3c2e1 (bufijk : arr F) (o : Z) (gctr : arr F) (dims : arr Z) (e : envs)
      : option (arr F) :=
    let di := i_l e * 2 + 1 in
    let dj := j_l e * 2 + 1 in
    let dk := k_l e * 2 + 1 in
    ni <- rd dims 0 ;; nj <- rd dims 1 ;; nk <- rd dims 2 ;;
    let nfik := nfi e * nfk e in
    let ofj := ni * dj in
    let ofk := ni * nj * dk in
    let buflen := nfi e * nfk e * dj in
    r <- for_ 0 (k_ctr e) (fun kc s =>
         for_ 0 (j_ctr e) (fun jc s => for_ 0 (i_ctr e) (fun ic s =>
           let '(out, (pg, (buf1, (buf2, buf3)))) := s in
           ket <- c2s_ket_sph (j_l e) ;;
           '(buf1, tmp1) <- ket buf1 (sub gctr pg) nfik nfik (j_l e) ;;
           '(buf2, tmp1) <- sph2e_inner buf2 tmp1 (k_l e) (nfi e) dj (nfi e * dk) nfik ;;
           bra <- c2s_bra_sph (i_l e) ;;
           '(buf3, tmp1) <- bra buf3 (dk * dj) tmp1 (i_l e) ;;
           out <- dcopy_iklj out (o + ofk * kc + ofj * jc + di * ic) tmp1 ni nj nk 1 di dj dk 1 ;;
           Some (out, (pg + nf e, (buf1, (buf2, buf3))))) s) s)
         (bufijk, (0, (uninit buflen, (uninit buflen, uninit buflen)))) ;;
    Some (fst r).

  (** cart2sph.c:5956-5995.  [dims] is a parameter of the C function but never read. *)
  Definition c2s_sph_3c2e1_ssc (bufijk : arr F) (o : Z) (gctr : arr F) (dims : arr Z) (e : envs)
      : option (arr F) :=
    let di := i_l e * 2 + 1 in
    let dj := j_l e * 2 + 1 in
    let ni := di * i_ctr e in
    let nj := dj * j_ctr e in
    let nk := nfk e * k_ctr e in
    let nfik := nfi e * nfk e in
    let ofj := ni * dj in
    let ofk := ni * nj * nfk e in
    let buflen := nfi e * nfk e * dj in
    r <- for_ 0 (k_ctr e) (fun kc s =>
         for_ 0 (j_ctr e) (fun jc s => for_ 0 (i_ctr e) (fun ic s =>
           let '(out, (pg, (buf1, buf2))) := s in
           ket <- c2s_ket_sph (j_l e) ;;
           '(buf1, tmp1) <- ket buf1 (sub gctr pg) nfik nfik (j_l e) ;;
           bra <- c2s_bra_sph (i_l e) ;;
           '(buf2, tmp1) <- bra buf2 (nfk e * dj) tmp1 (i_l e) ;;
           out <- dcopy_iklj out (o + ofk * kc + ofj * jc + nfi e * ic) tmp1
                    ni nj nk 1 di dj (nfk e) 1 ;;
           Some (out, (pg + nf e, (buf1, buf2)))) s) s)
         (bufijk, (0, (uninit buflen, uninit buflen))) ;;
    Some (fst r).

  (** cart2sph.c:5040-5078 *)
  Definition c2s_sph_1e_grids (out : arr F) (o : Z) (gctr : arr F) (dims : arr Z)
      (ngrids : Z) (e : envs) : option (arr F) :=
    let di := i_l e * 2 + 1 in
    let dj := j_l e * 2 + 1 in
    ni <- rd dims 0 ;; nj <- rd dims 1 ;; Ng <- rd dims 2 ;;
    let ofj := ni * dj in
    let buflen := GRID_BLKSIZE * nfi e * dj in
    r <- for_by 0 ngrids GRID_BLKSIZE (fun go s =>
           let bgrids := Z.min (ngrids - go) GRID_BLKSIZE in
           let bgrids_di := bgrids * di in
           let bgrids_nfi := bgrids * nfi e in
           for_ 0 (j_ctr e) (fun jc s => for_ 0 (i_ctr e) (fun ic s =>
             let '(out, (pg, (buf1, buf2))) := s in
             ket <- c2s_ket_sph (j_l e) ;;
             '(buf1, tmp1) <- ket buf1 (sub gctr pg) bgrids_nfi bgrids_nfi (j_l e) ;;
             '(buf2, tmp1) <- sph2e_inner buf2 tmp1 (i_l e) bgrids dj bgrids_di bgrids_nfi ;;
             out <- dcopy_grids_ij out (o + Ng * (ofj * jc + di * ic) + go) tmp1
                      Ng ni nj bgrids di dj ;;
             Some (out, (pg + bgrids * nf e, (buf1, buf2)))) s) s)
         (out, (0, (uninit buflen, uninit buflen))) ;;
    Some (fst r).

  (** cart2sph.c:6476-6487 *)
  Definition CINTc2s_bra_sph (gsph : arr F) (nket : Z) (gcart : arr F) (l : Z) : option (arr F * arr F) :=
    f <- c2s_bra_sph l ;; f gsph nket gcart l.
  Definition CINTc2s_ket_sph (gsph : arr F) (nbra : Z) (gcart : arr F) (l : Z) : option (arr F * arr F) :=
    f <- c2s_ket_sph l ;; f gsph gcart nbra nbra l.
  Definition CINTc2s_ket_sph1 (gsph gcart : arr F) (lds ldc l : Z) : option (arr F * arr F) :=
    f <- c2s_ket_sph1 l ;; f gsph gcart lds ldc l.

  (** cart2sph.c:6965-6978 *)
  Definition CINTs2c_bra_sph (gsph : arr F) (nket : Z) (gcart : arr F) (l : Z) : option (arr F) :=
    let nf := CINTlen_cart l in
    let nd := l * 2 + 1 in
    CINTdgemm_NN1 zero add mul nf nket nd (cart2sph l) gsph gcart nf.
  Definition CINTs2c_ket_sph (gsph : arr F) (nbra : Z) (gcart : arr F) (l : Z) : option (arr F) :=
    let nf := CINTlen_cart l in
    let nd := l * 2 + 1 in
    CINTdgemm_NT zero add mul nbra nf nd gsph (cart2sph l) gcart.

  (** Last part of the drivers: everything after the contraction loops.
      [has_value] is the loops' verdict, [dims] is NULL ([None]) or the caller's
      array.  The C code compares the function pointer f_c2s; here [kind] says which
      output routine the caller passed. *)
  Inductive kind := SphK | CartK | SscK.

  Definition drv_tail (f_c2s : arr F -> Z -> arr F -> arr Z -> option (arr F))
      (set0 : arr F -> Z -> arr Z -> arr Z -> bool -> option (arr F))
      (has_value : bool) (n_comp nc : Z) (nout : arr Z -> option Z) (counts : arr Z)
      (dims : option (arr Z)) (out gctr : arr F) : option (arr F) :=
    let alias := match dims with None => true | Some _ => false end in
    let dims := match dims with None => counts | Some d => d end in
    nout <- nout dims ;;
    if has_value then
      for_ 0 n_comp (fun n out => f_c2s out (nout * n) (sub gctr (nc * n)) dims) out
    else
      for_ 0 n_comp (fun n out => set0 out (nout * n) dims counts alias) out.

  Definition nout2 (dims : arr Z) : option Z :=
    d0 <- rd dims 0 ;; d1 <- rd dims 1 ;; Some (d0 * d1).
  Definition nout3 (dims : arr Z) : option Z :=
    d0 <- rd dims 0 ;; d1 <- rd dims 1 ;; d2 <- rd dims 2 ;; Some (d0 * d1 * d2).
  Definition nout4 (dims : arr Z) : option Z :=
    d0 <- rd dims 0 ;; d1 <- rd dims 1 ;; d2 <- rd dims 2 ;; d3 <- rd dims 3 ;;
    Some (d0 * d1 * d2 * d3).

  (** cint1e.c:195-237 after CINT1e_loop *)
  Definition CINT1e_drv_tail (k : kind) (has_value : bool) (dims : option (arr Z))
      (out gctr : arr F) (e : envs) : option (arr F) :=
    let nc := nf e * i_ctr e * j_ctr e in
    let n_comp := ncomp_e1 e * ncomp_tensor e in
    let counts := match k with
                  | SphK => arr4 ((i_l e * 2 + 1) * i_ctr e) ((j_l e * 2 + 1) * j_ctr e) 1 1
                  | _ => arr4 (nfi e * i_ctr e) (nfj e * j_ctr e) 1 1
                  end in
    drv_tail (fun out o g d => match k with SphK => c2s_sph_1e out o g d e
                                          | _ => c2s_cart_1e out o g d e end)
      (c2s_dset0 zero) has_value n_comp nc nout2 counts dims out gctr.

  (** cint2c2e.c:233-290 after the loops *)
  Definition CINT2c2e_drv_tail (k : kind) (has_value : bool) (dims : option (arr Z))
      (out gctr : arr F) (e : envs) : option (arr F) :=
    let nc := nf e * i_ctr e * j_ctr e in
    let n_comp := ncomp_e1 e * ncomp_e2 e * ncomp_tensor e in
    let counts := match k with
                  | SphK => arr4 ((i_l e * 2 + 1) * i_ctr e) ((k_l e * 2 + 1) * j_ctr e) 1 1
                  | _ => arr4 (nfi e * i_ctr e) (nfk e * j_ctr e) 1 1
                  end in
    drv_tail (fun out o g d => match k with SphK => c2s_sph_1e out o g d e
                                          | _ => c2s_cart_1e out o g d e end)
      (c2s_dset0 zero) has_value n_comp nc nout2 counts dims out gctr.

  (** cint2e.c:794-871 after the loops; cint4c1e.c:264-318 is the same text *)
  Definition CINT2e_drv_tail (k : kind) (has_value : bool) (dims : option (arr Z))
      (out gctr : arr F) (e : envs) : option (arr F) :=
    let nc := nf e * i_ctr e * j_ctr e * k_ctr e * l_ctr e in
    let n_comp := ncomp_e1 e * ncomp_e2 e * ncomp_tensor e in
    let counts := match k with
                  | SphK => arr4 ((i_l e * 2 + 1) * i_ctr e) ((j_l e * 2 + 1) * j_ctr e)
                                 ((k_l e * 2 + 1) * k_ctr e) ((l_l e * 2 + 1) * l_ctr e)
                  | _ => arr4 (nfi e * i_ctr e) (nfj e * j_ctr e) (nfk e * k_ctr e) (nfl e * l_ctr e)
                  end in
    drv_tail (fun out o g d => match k with SphK => c2s_sph_2e1 out o g d e
                                          | _ => c2s_cart_2e1 out o g d e end)
      (c2s_dset0 zero) has_value n_comp nc nout4 counts dims out gctr.

  (** cint3c2e.c:557-624 after the loops; cint3c1e.c:400-436 is the same with the
      3c1e names of the same output routines.  The function pointer of the ssc
      variant is not c2s_sph_3c2e1, so its counts come from the else branch. *)
  Definition CINT3c2e_drv_tail (k : kind) (is_ssc : bool) (has_value : bool) (dims : option (arr Z))
      (out gctr : arr F) (e : envs) : option (arr F) :=
    let nc := nf e * i_ctr e * j_ctr e * k_ctr e in
    let n_comp := ncomp_e1 e * ncomp_tensor e in
    let counts := match k with
                  | SphK => arr4 ((i_l e * 2 + 1) * i_ctr e) ((j_l e * 2 + 1) * j_ctr e)
                                 (if is_ssc then nfk e * k_ctr e else (k_l e * 2 + 1) * k_ctr e) 1
                  | _ => arr4 (nfi e * i_ctr e) (nfj e * j_ctr e) (nfk e * k_ctr e) 1
                  end in
    drv_tail (fun out o g d => match k with SphK => c2s_sph_3c2e1 out o g d e
                                          | CartK => c2s_cart_3c2e1 out o g d e
                                          | SscK => c2s_sph_3c2e1_ssc out o g d e end)
      (c2s_dset0 zero) has_value n_comp nc nout3 counts dims out gctr.

  (** cint1e_grids.c:236-283 after the loop *)
  Definition CINT1e_grids_drv_tail (k : kind) (has_value : bool) (dims : option (arr Z))
      (ngrids : Z) (out gctr : arr F) (e : envs) : option (arr F) :=
    let nc := ngrids * nf e * i_ctr e * j_ctr e in
    let n_comp := ncomp_e1 e * ncomp_tensor e in
    let counts := match k with
                  | SphK => arr4 ((i_l e * 2 + 1) * i_ctr e) ((j_l e * 2 + 1) * j_ctr e) ngrids 1
                  | _ => arr4 (nfi e * i_ctr e) (nfj e * j_ctr e) ngrids 1
                  end in
    drv_tail (fun out o g d => match k with SphK => c2s_sph_1e_grids out o g d ngrids e
                                          | _ => c2s_cart_1e_grids out o g d ngrids e end)
      (fun out o dims counts _ => c2s_grids_dset0 zero out o dims counts)
      has_value n_comp nc nout3 counts dims out gctr.
End Sph.
