(** GoutModel.v — the plain primitive-batch routines.  The batch [gout], the 1D arrays [g] and the
    index table [idx] are disjoint regions of the scratch (cint1e.c:80-110, cint2e.c:90-140). *)
From Verif Require Import Base EnvModel.

Section Gout.
  Context {F : Type} (zero : F) (add mul : F -> F -> F).

  (** g[ix] * g[iy] * g[iz] *)
  Definition prod3 (g : arr F) (ix iy iz : Z) : option F :=
    x <- rd g ix ;; y <- rd g iy ;; z <- rd g iz ;; Some (mul (mul x y) z).

  (** gout[n] = s  or  gout[n] += s *)
  Definition put_gout (empty : bool) (gout : arr F) (n : Z) (s : F) : option (arr F) :=
    if empty then wr gout n s else v <- rd gout n ;; wr gout n (add v s).

  (** cint1e.c:306-325 CINTgout1e *)
  Definition CINTgout1e (e : envs) (idx : arr Z) (g : arr F) (empty : bool) (gout : arr F) : option (arr F) :=
    for_ 0 (nf e) (fun n gout =>
      ix <- rd idx (n * 3 + 0) ;; iy <- rd idx (n * 3 + 1) ;; iz <- rd idx (n * 3 + 2) ;;
      s <- prod3 g ix iy iz ;;
      put_gout empty gout n s) gout.

  (** s = 0; for (i = 0; i < nrys_roots; i++) s += gx[i]*gy[i]*gz[i]; *)
  Definition root_loop (g : arr F) (nroots ix iy iz : Z) : option F :=
    for_ 0 nroots (fun i s => p <- prod3 g (ix + i) (iy + i) (iz + i) ;; Some (add s p)) zero.

  (** cint1e.c:327-362 CINTgout1e_nuc *)
  Definition CINTgout1e_nuc (e : envs) (idx : arr Z) (g : arr F) (empty : bool) (gout : arr F) : option (arr F) :=
    for_ 0 (nf e) (fun n gout =>
      ix <- rd idx (n * 3 + 0) ;; iy <- rd idx (n * 3 + 1) ;; iz <- rd idx (n * 3 + 2) ;;
      s <- root_loop g (nrys_roots e) ix iy iz ;;
      put_gout empty gout n s) gout.

  (** the written-out sum  p(o) + p(o1) + p(o2) + ... , associated to the left *)
  Fixpoint terms (g : arr F) (ix iy iz : Z) (s : F) (os : list Z) : option F :=
    match os with
    | [] => Some s
    | o :: os => p <- prod3 g (ix + o) (iy + o) (iz + o) ;; terms g ix iy iz (add s p) os
    end.
  Definition sum_of (g : arr F) (ix iy iz : Z) (os : list Z) : option F :=
    p <- prod3 g ix iy iz ;; terms g ix iy iz p os.

  (** cint2e.c:961-1174 CINTgout2e: the switch over the root count *)
  Definition root_sum (g : arr F) (nroots ix iy iz : Z) : option F :=
    match nroots with
    | 1 => sum_of g ix iy iz []
    | 2 => sum_of g ix iy iz [1]
    | 3 => sum_of g ix iy iz [1; 2]
    | 4 => sum_of g ix iy iz [1; 2; 3]
    | 5 => sum_of g ix iy iz [1; 2; 3; 4]
    | 6 => sum_of g ix iy iz [1; 2; 3; 4; 5]
    | 7 => sum_of g ix iy iz [1; 2; 3; 4; 5; 6]
    | 8 => sum_of g ix iy iz [1; 2; 3; 4; 5; 6; 7]
    | _ => root_loop g nroots ix iy iz
    end.
  Definition CINTgout2e (e : envs) (idx : arr Z) (g : arr F) (empty : bool) (gout : arr F) : option (arr F) :=
    for_ 0 (nf e) (fun n gout =>
      ix <- rd idx (n * 3 + 0) ;; iy <- rd idx (n * 3 + 1) ;; iz <- rd idx (n * 3 + 2) ;;
      s <- root_sum g (nrys_roots e) ix iy iz ;;
      put_gout empty gout n s) gout.

  (** g1e_grids.c:292-338 CINTgout1e_grids: [s] is the local array of one block *)
  Definition CINTgout1e_grids (e : envs) (bgrids : Z) (idx : arr Z) (g : arr F) (empty : bool) (gout : arr F)
    : option (arr F) :=
    for_ 0 (nf e) (fun n gout =>
      ix <- rd idx (n * 3 + 0) ;; iy <- rd idx (n * 3 + 1) ;; iz <- rd idx (n * 3 + 2) ;;
      s <- for_ 0 bgrids (fun ig s => wr s ig zero) (uninit 104) ;;
      s <- for_ 0 (nrys_roots e) (fun i s =>
           for_ 0 bgrids (fun ig s =>
             p <- prod3 g (ix + (ig + 104 * i)) (iy + (ig + 104 * i)) (iz + (ig + 104 * i)) ;;
             v <- rd s ig ;; wr s ig (add v p)) s) s ;;
      for_ 0 bgrids (fun ig gout => v <- rd s ig ;; put_gout empty gout (ig + bgrids * n) v) gout) gout.
End Gout.
