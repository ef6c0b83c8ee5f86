(** RecModel.v — the recurrences that fill the x, y and z intermediate arrays:
    overlap and nuclear-attraction recurrences of one-electron integrals (g1e.c),
    their per-grid-point form (g1e_grids.c), the two-index Rys recurrence and the
    four horizontal transfers of two-electron integrals (g2e.c), and the three-
    and four-centre overlaps (g3c1e.c, g4c1e.c).

    Scalars: any type with the operations the code uses; [inj] is the conversion
    of an [int] loop counter to [double].  Rounding is not modelled.  Quantities
    the C code computes from exponents and centres before entering the loops are
    parameters here; [Rec*] definitions over the reals supply them.

    One buffer [g] holds the three arrays: gx = g, gy = g + g_size,
    gz = g + 2*g_size.  Where the C code repeats one statement for x, y and z,
    the model has one statement for axis 0, 1, 2 executed in that order
    ([st3]); each reads the buffer as left by the previous one. *)
From Verif Require Import Base EnvModel.

Section Rec.
  Context {F : Type}.
  Variables (one : F) (add mul sub : F -> F -> F) (opp : F -> F) (inj : Z -> F).

  (** gx[p] = body x; gy[p] = body y; gz[p] = body z *)
  Definition st3 (gs : Z) (g : arr F) (p : Z) (body : Z -> arr F -> option F)
    : option (arr F) :=
    for_ 0 3 (fun ax g => v <- body ax g ;; wr g (ax * gs + p) v) g.

  (** [double s = gx[p]]: copying a cell is allowed even when it has never been
      written (the copy is then indeterminate, and using it in arithmetic is the
      error); leaving the buffer is not. *)
  Definition peek (g : arr F) (p : Z) : option (option F) :=
    if inb g p then Some (acell g p) else None.

  Definition load3 (gs : Z) (g : arr F) (p : Z) : option (Z -> option F) :=
    x <- peek g p ;; y <- peek g (gs + p) ;; z <- peek g (gs * 2 + p) ;;
    Some (fun ax => if ax =? 0 then x else if ax =? 1 then y else z).

  (** envs->rirj and envs->rkrl as set by the initialisers (g1e.c:61-75,
      g2e.c:127-152, g3c2e.c:107-119, g4c1e.c:94-120): difference towards the
      centre that is not the base. *)
  Definition base_diff (ibase : bool) (ri rj : Z -> F) (ax : Z) : F :=
    if ibase then sub (ri ax) (rj ax) else sub (rj ax) (ri ax).

  (** g1e.c:124-183 CINTg1e_ovlp.  [z0] is the value stored in gz[0],
      [aij2] = .5/aij; [rij], [ri], [rj] the vectors of the same names. *)
  Definition g1e_ovlp (e : envs) (z0 aij2 : F) (rij ri rj : Z -> F) (g : arr F)
    : option (arr F) :=
    let gs := g_size e in
    let rirj := base_diff (li_ceil e >? lj_ceil e) ri rj in
    g <- wr g 0 one ;;
    g <- wr g gs one ;;
    g <- wr g (gs * 2) z0 ;;
    let nmax := li_ceil e + lj_ceil e in
    if nmax =? 0 then Some g else
    let ibase := li_ceil e >? lj_ceil e in
    let lj := if ibase then lj_ceil e else li_ceil e in
    let di := if ibase then g_stride_i e else g_stride_j e in
    let dj := if ibase then g_stride_j e else g_stride_i e in
    let rx := if ibase then ri else rj in
    let rijrx := fun ax => sub (rij ax) (rx ax) in
    g <- st3 gs g di (fun ax g => v <- rd g (ax * gs) ;; Some (mul (rijrx ax) v)) ;;
    g <- for_ 1 nmax (fun i g =>
           st3 gs g ((i + 1) * di) (fun ax g =>
             v1 <- rd g (ax * gs + (i - 1) * di) ;;
             v0 <- rd g (ax * gs + i * di) ;;
             Some (add (mul (mul (inj i) aij2) v1) (mul (rijrx ax) v0)))) g ;;
    for_ 1 (lj + 1) (fun j g =>
      for_ 0 (nmax - j + 1) (fun i g =>
        let n := dj * j + di * i in
        st3 gs g n (fun ax g =>
          v2 <- rd g (ax * gs + (n + di - dj)) ;;
          v1 <- rd g (ax * gs + (n - dj)) ;;
          Some (add v2 (mul (rirj ax) v1)))) g) g.

  (** g1e.c:237-319 CINTg1e_nuc, after the call of CINTrys_roots (which leaves the
      weights in gz[0..nroots)).  [ru n] = tau^2 u[n]/(1+u[n]) for root [n],
      [crij] = cr - rij with cr the position of the nucleus. *)
  Definition g1e_nuc (e : envs) (fac1 aij2 : F) (ru : Z -> F) (crij rij ri rj : Z -> F)
      (g : arr F) : option (arr F) :=
    let gs := g_size e in
    let rirj := base_diff (li_ceil e >? lj_ceil e) ri rj in
    let nroots := nrys_roots e in
    g <- for_ 0 nroots (fun i g =>
           g <- wr g i one ;;
           g <- wr g (gs + i) one ;;
           v <- rd g (gs * 2 + i) ;;
           wr g (gs * 2 + i) (mul v fac1)) g ;;
    let nmax := li_ceil e + lj_ceil e in
    if nmax =? 0 then Some g else
    let ibase := li_ceil e >? lj_ceil e in
    let lj := if ibase then lj_ceil e else li_ceil e in
    let di := if ibase then g_stride_i e else g_stride_j e in
    let dj := if ibase then g_stride_j e else g_stride_i e in
    let rx := if ibase then ri else rj in
    let rt := fun n => sub aij2 (mul aij2 (ru n)) in
    let r0 := fun ax n => add (sub (rij ax) (rx ax)) (mul (ru n) (crij ax)) in
    g <- for_ 0 nroots (fun n g =>
           g <- st3 gs g (n + di) (fun ax g =>
                  v <- rd g (ax * gs + n) ;; Some (mul (r0 ax n) v)) ;;
           for_ 1 nmax (fun i g =>
             st3 gs g (di + (n + i * di)) (fun ax g =>
               v1 <- rd g (ax * gs + (n + i * di - di)) ;;
               v0 <- rd g (ax * gs + (n + i * di)) ;;
               Some (add (mul (mul (inj i) (rt n)) v1) (mul (r0 ax n) v0)))) g) g ;;
    for_ 1 (lj + 1) (fun j g =>
      for_ 0 (nmax - j + 1) (fun i g =>
        for_ 0 nroots (fun n g =>
          let q := j * dj + (n + i * di) in
          st3 gs g q (fun ax g =>
            v2 <- rd g (ax * gs + (q - dj + di)) ;;
            v1 <- rd g (ax * gs + (q - dj)) ;;
            Some (add v2 (mul (rirj ax) v1)))) g) g) g.

  (** g1e_grids.c:76-88 and 103-189 CINTg0_1e_grids: ones in the x and y arrays, the
      weights of all points and roots in the z array.  [w i ig] is the product the
      branch taken stores (weight times prefactor, or 0 for a screened point); the
      branch with two halves of roots stores them interleaved, here in order. *)
  Definition g0_grids_init (e : envs) (bg : Z) (w : Z -> Z -> F) (g : arr F) : option (arr F) :=
    let gs := g_size e in
    let nroots := nrys_roots e in
    g <- for_ 0 nroots (fun i g => for_ 0 bg (fun ig g =>
           g <- wr g (ig + GRID_BLKSIZE * i) one ;;
           wr g (gs + (ig + GRID_BLKSIZE * i)) one) g) g ;;
    for_ 0 bg (fun ig g => for_ 0 nroots (fun i g =>
      wr g (gs * 2 + (ig + GRID_BLKSIZE * i)) (w i ig)) g) g.

  (** g1e_grids.c:190-290 CINTg0_1e_grids, the part after the weights: [bg] points
      of a block, [u n ig] the stored u[ig+BLK*n] (t^2 of that root and point),
      [rijrg ax ig] = grid point - rij.  The scratch arrays t2 and rirg hold the
      let-bound functions of the same names. *)
  Definition g0_1e_grids (e : envs) (bg : Z) (aij2 : F) (u : Z -> Z -> F)
      (rijrg : Z -> Z -> F) (rij ri rj : Z -> F) (g : arr F) : option (arr F) :=
    let gs := g_size e in
    let rirj := base_diff (li_ceil e >? lj_ceil e) ri rj in
    let nroots := nrys_roots e in
    let nmax := li_ceil e + lj_ceil e in
    if nmax =? 0 then Some g else
    let ibase := li_ceil e >? lj_ceil e in
    let lj := if ibase then lj_ceil e else li_ceil e in
    let di := if ibase then g_stride_i e else g_stride_j e in
    let dj := if ibase then g_stride_j e else g_stride_i e in
    let rx := if ibase then ri else rj in
    let rirg := fun ax n ig => add (sub (rij ax) (rx ax)) (mul (u n ig) (rijrg ax ig)) in
    let t2 := fun n ig => mul aij2 (sub one (u n ig)) in
    g <- for_ 0 nroots (fun n g =>
           g <- for_ 0 bg (fun ig g =>
             st3 gs g (GRID_BLKSIZE * n + di + ig) (fun ax g =>
                  v <- rd g (ax * gs + (GRID_BLKSIZE * n + ig)) ;;
                  Some (mul (rirg ax n ig) v))) g ;;
           for_ 1 nmax (fun i g =>
             for_ 0 bg (fun ig g =>
             let p0 := GRID_BLKSIZE * n + i * di + ig in
             st3 gs g (p0 + di) (fun ax g =>
               v2 <- rd g (ax * gs + (p0 - di)) ;;
               v0 <- rd g (ax * gs + p0) ;;
               Some (add (mul (mul (inj i) (t2 n ig)) v2) (mul (rirg ax n ig) v0)))) g) g) g ;;
    for_ 1 (lj + 1) (fun j g =>
      for_ 0 (nmax - j + 1) (fun i g =>
        for_ 0 nroots (fun n g =>
          for_ 0 bg (fun ig g =>
          let p0 := j * dj + i * di + (ig + GRID_BLKSIZE * n) in
          st3 gs g p0 (fun ax g =>
            v2 <- rd g (ax * gs + (p0 - dj + di)) ;;
            v1 <- rd g (ax * gs + (p0 - dj)) ;;
            Some (add v2 (mul (rirj ax) v1)))) g) g) g) g.

  (** Rys2eT, g2e.h:10-22: c00x/c00y/c00z and c0px/c0py/c0pz as functions of axis and root *)
  Record rys2e := mkrys2e {
    c00 : Z -> Z -> F; c0p : Z -> Z -> F;
    b10 : Z -> F; b01 : Z -> F; b00 : Z -> F }.

  (** g2e.c:275-421 CINTg0_2e_2d.  The running values s0, s1 are carried as in the
      code (per axis); [s0 = s1; s1 = s2] at the end of each step. *)
  Definition g0_2e_2d (e : envs) (bc : rys2e) (g : arr F) : option (arr F) :=
    let gs := g_size e in
    let nroots := nrys_roots e in
    let nmax := li_ceil e + lj_ceil e in
    let mmax := lk_ceil e + ll_ceil e in
    let dm := g2d_klmax e in
    let dn := g2d_ijmax e in
    g <- for_ 0 nroots (fun i g => g <- wr g i one ;; wr g (gs + i) one) g ;;
    for_ 0 nroots (fun i g =>
      (* lines 310-336 *)
      g <- (if 0 <? nmax then
        s0 <- load3 gs g i ;;
        let s1 := fun ax => v <- s0 ax ;; Some (mul (c00 bc ax i) v) in
        g <- st3 gs g (i + dn) (fun ax _ => s1 ax) ;;
        st <- for_ 1 nmax (fun n st =>
          let '(g, s0, s1) := st in
          let s2 := fun ax =>
            v1 <- s1 ax ;; v0 <- s0 ax ;;
            Some (add (mul (c00 bc ax i) v1) (mul (mul (inj n) (b10 bc i)) v0)) in
          g <- st3 gs g (i + (n + 1) * dn) (fun ax _ => s2 ax) ;;
          Some (g, s1, s2)) (g, s0, s1) ;;
        Some (fst (fst st))
      else Some g) ;;
      g <- (if 0 <? mmax then
        (* lines 338-363 *)
        s0 <- load3 gs g i ;;
        let s1 := fun ax => v <- s0 ax ;; Some (mul (c0p bc ax i) v) in
        g <- st3 gs g (i + dm) (fun ax _ => s1 ax) ;;
        st <- for_ 1 mmax (fun m st =>
          let '(g, s0, s1) := st in
          let s2 := fun ax =>
            v1 <- s1 ax ;; v0 <- s0 ax ;;
            Some (add (mul (c0p bc ax i) v1) (mul (mul (inj m) (b01 bc i)) v0)) in
          g <- st3 gs g (i + (m + 1) * dm) (fun ax _ => s2 ax) ;;
          Some (g, s1, s2)) (g, s0, s1) ;;
        let g := fst (fst st) in
        (* lines 365-392 *)
        if 0 <? nmax then
          s0 <- load3 gs g (i + dn) ;;
          let s1 := fun ax =>
            v0 <- s0 ax ;; w <- rd g (ax * gs + i) ;;
            Some (add (mul (c0p bc ax i) v0) (mul (b00 bc i) w)) in
          g <- st3 gs g (i + dn + dm) (fun ax _ => s1 ax) ;;
          st <- for_ 1 mmax (fun m st =>
            let '(g, s0, s1) := st in
            let s2 := fun ax =>
              v1 <- s1 ax ;; v0 <- s0 ax ;; w <- rd g (ax * gs + (i + m * dm)) ;;
              Some (add (add (mul (c0p bc ax i) v1) (mul (mul (inj m) (b01 bc i)) v0))
                        (mul (b00 bc i) w)) in
            g <- st3 gs g (i + dn + (m + 1) * dm) (fun ax _ => s2 ax) ;;
            Some (g, s1, s2)) (g, s0, s1) ;;
          Some (fst (fst st))
        else Some g
      else Some g) ;;
      (* lines 394-419: the loads of line 403-405 happen even when nmax = 0 *)
      for_ 1 (mmax + 1) (fun m g =>
        let j := m * dm + i in
        s0 <- load3 gs g j ;;
        s1 <- load3 gs g (j + dn) ;;
        st <- for_ 1 nmax (fun n st =>
          let '(g, s0, s1) := st in
          let s2 := fun ax =>
            v1 <- s1 ax ;; v0 <- s0 ax ;; w <- rd g (ax * gs + (j + n * dn - dm)) ;;
            Some (add (add (mul (c00 bc ax i) v1) (mul (mul (inj n) (b10 bc i)) v0))
                      (mul (mul (inj m) (b00 bc i)) w)) in
          g <- st3 gs g (j + (n + 1) * dn) (fun ax _ => s2 ax) ;;
          Some (g, s1, s2)) (g, s0, s1) ;;
        Some (fst (fst st))) g) g.

  (** The assignment shared by all transfers:
      g[n] = r * g[n - d1] + g[n - d1 + d2] for n in [ptr, ptr+len). *)
  Definition hrr_row (gs : Z) (r : Z -> F) (d1 d2 ptr len : Z) (g : arr F) : option (arr F) :=
    for_ ptr (ptr + len) (fun n g =>
      st3 gs g n (fun ax g =>
        v1 <- rd g (ax * gs + (n - d1)) ;;
        v2 <- rd g (ax * gs + (n - d1 + d2)) ;;
        Some (add (mul (r ax) v1) v2))) g.

  (** g2e.c:428-491 *)
  Definition g0_lj2d_4d (e : envs) (rirj rkrl : Z -> F) (g : arr F) : option (arr F) :=
    let li := li_ceil e in let lk := lk_ceil e in
    if (li =? 0) && (lk =? 0) then Some g else
    let nmax := li_ceil e + lj_ceil e in
    let mmax := lk_ceil e + ll_ceil e in
    let lj := lj_ceil e in
    let nroots := nrys_roots e in
    let di := g_stride_i e in let dk := g_stride_k e in
    let dl := g_stride_l e in let dj := g_stride_j e in
    g <- for_ 1 (li + 1) (fun i g =>
         for_ 0 (nmax - i + 1) (fun j g =>
         for_ 0 (mmax + 1) (fun l g =>
           hrr_row (g_size e) rirj di dj (j * dj + l * dl + i * di) nroots g) g) g) g ;;
    for_ 0 (lj + 1) (fun j g =>
    for_ 1 (lk + 1) (fun k g =>
    for_ 0 (mmax - k + 1) (fun l g =>
      hrr_row (g_size e) rkrl dk dl (j * dj + l * dl + k * dk) dk g) g) g) g.

  (** g2e.c:493-556 *)
  Definition g0_kj2d_4d (e : envs) (rirj rkrl : Z -> F) (g : arr F) : option (arr F) :=
    let li := li_ceil e in let ll := ll_ceil e in
    if (li =? 0) && (ll =? 0) then Some g else
    let nmax := li_ceil e + lj_ceil e in
    let mmax := lk_ceil e + ll_ceil e in
    let lj := lj_ceil e in
    let nroots := nrys_roots e in
    let di := g_stride_i e in let dk := g_stride_k e in
    let dl := g_stride_l e in let dj := g_stride_j e in
    g <- for_ 1 (li + 1) (fun i g =>
         for_ 0 (nmax - i + 1) (fun j g =>
         for_ 0 (mmax + 1) (fun k g =>
           hrr_row (g_size e) rirj di dj (j * dj + k * dk + i * di) nroots g) g) g) g ;;
    for_ 0 (lj + 1) (fun j g =>
    for_ 1 (ll + 1) (fun l g =>
    for_ 0 (mmax - l + 1) (fun k g =>
      hrr_row (g_size e) rkrl dl dk (j * dj + l * dl + k * dk) dk g) g) g) g.

  (** g2e.c:558-622 *)
  Definition g0_il2d_4d (e : envs) (rirj rkrl : Z -> F) (g : arr F) : option (arr F) :=
    let lk := lk_ceil e in let lj := lj_ceil e in
    if (lj =? 0) && (lk =? 0) then Some g else
    let nmax := li_ceil e + lj_ceil e in
    let mmax := lk_ceil e + ll_ceil e in
    let ll := ll_ceil e in
    let nroots := nrys_roots e in
    let di := g_stride_i e in let dk := g_stride_k e in
    let dl := g_stride_l e in let dj := g_stride_j e in
    g <- for_ 1 (lk + 1) (fun k g =>
         for_ 0 (mmax - k + 1) (fun l g =>
         for_ 0 (nmax + 1) (fun i g =>
           hrr_row (g_size e) rkrl dk dl (l * dl + k * dk + i * di) nroots g) g) g) g ;;
    for_ 1 (lj + 1) (fun j g =>
    for_ 0 (ll + 1) (fun l g =>
    for_ 0 (lk + 1) (fun k g =>
      hrr_row (g_size e) rirj dj di (j * dj + l * dl + k * dk) (dk - di * j) g) g) g) g.

  (** g2e.c:624-692 *)
  Definition g0_ik2d_4d (e : envs) (rirj rkrl : Z -> F) (g : arr F) : option (arr F) :=
    let lj := lj_ceil e in let ll := ll_ceil e in
    if (lj =? 0) && (ll =? 0) then Some g else
    let nmax := li_ceil e + lj_ceil e in
    let mmax := lk_ceil e + ll_ceil e in
    let lk := lk_ceil e in
    let nroots := nrys_roots e in
    let di := g_stride_i e in let dk := g_stride_k e in
    let dl := g_stride_l e in let dj := g_stride_j e in
    g <- for_ 1 (ll + 1) (fun l g =>
         for_ 0 (mmax - l + 1) (fun k g =>
         for_ 0 (nmax + 1) (fun i g =>
           hrr_row (g_size e) rkrl dl dk (l * dl + k * dk + i * di) nroots g) g) g) g ;;
    for_ 1 (lj + 1) (fun j g =>
    for_ 0 (ll + 1) (fun l g =>
    for_ 0 (lk + 1) (fun k g =>
      hrr_row (g_size e) rirj dj di (j * dj + l * dl + k * dk) (dk - di * j) g) g) g) g.

  (** The choice of routine by the initialiser (g2e.c:113-172, g4c1e.c:122-134) *)
  Definition g0_2d_4d (e : envs) (rirj rkrl : Z -> F) (g : arr F) : option (arr F) :=
    if lk_ceil e >? ll_ceil e then
      if li_ceil e >? lj_ceil e then g0_ik2d_4d e rirj rkrl g else g0_kj2d_4d e rirj rkrl g
    else
      if li_ceil e >? lj_ceil e then g0_il2d_4d e rirj rkrl g else g0_lj2d_4d e rirj rkrl g.

  (** g3c1e.c:123-188 CINTg3c1e_ovlp: [z0] = fac, [aijk1] = .5/(ai+aj+ak),
      [rjrijk] = rj - (ai ri + aj rj + ak rk)/aijk. *)
  Definition g3c1e_ovlp (e : envs) (z0 aijk1 : F) (rjrijk rirj rjrk : Z -> F) (g : arr F)
    : option (arr F) :=
    let gs := g_size e in
    let li := li_ceil e in let lj := lj_ceil e in let lk := lk_ceil e in
    let nmax := li + lj + lk in
    let mmax := lj + lk in
    g <- wr g 0 one ;;
    g <- wr g gs one ;;
    g <- wr g (gs * 2) z0 ;;
    if nmax =? 0 then Some g else
    let dj := li + 1 in
    let dk := g_stride_k e in
    g <- st3 gs g dj (fun ax g => v <- rd g (ax * gs) ;; Some (mul (opp (rjrijk ax)) v)) ;;
    g <- for_ 1 nmax (fun j g =>
           st3 gs g ((j + 1) * dj) (fun ax g =>
             v1 <- rd g (ax * gs + (j - 1) * dj) ;;
             v0 <- rd g (ax * gs + j * dj) ;;
             Some (sub (mul (mul aijk1 (inj j)) v1) (mul (rjrijk ax) v0)))) g ;;
    g <- for_ 1 (li + 1) (fun i g =>
         for_ 0 (nmax - i + 1) (fun j g =>
           st3 gs g (i + j * dj) (fun ax g =>
             v2 <- rd g (ax * gs + (i - 1 + (j + 1) * dj)) ;;
             v1 <- rd g (ax * gs + (i - 1 + j * dj)) ;;
             Some (sub v2 (mul (rirj ax) v1)))) g) g ;;
    let dj := g_stride_j e in
    for_ 1 (lk + 1) (fun k g =>
    for_ 0 (mmax - k + 1) (fun j g =>
      let off := k * dk + j * dj in
      for_ off (off + li + 1) (fun i g =>
        st3 gs g i (fun ax g =>
          v2 <- rd g (ax * gs + (i + dj - dk)) ;;
          v1 <- rd g (ax * gs + (i - dk)) ;;
          Some (add v2 (mul (rjrk ax) v1)))) g) g) g.

  (** g4c1e.c:146-258 CINTg4c1e_ovlp.  [buf] is the scratch for the two-index table
      (bufx, bufy, bufz at distance b_size); [z0] = fac/(aijkl*sqrt(aijkl)),
      [half i] = 0.5*i/aijkl, [r1r12], [r1r2] the vectors of the branch taken. *)
  Definition g4c1e_ovlp (e : envs) (z0 : F) (half : Z -> F) (r1r12 r1r2 rirj rkrl : Z -> F)
      (g buf : arr F) : option (arr F) :=
    let nmax := li_ceil e + lj_ceil e in
    let mmax := lk_ceil e + ll_ceil e in
    let db := nmax + mmax + 1 in
    let b_size := db * (Z.max nmax mmax + 1) in
    let gs := g_size e in
    let dn := g2d_ijmax e in
    let dm := g2d_klmax e in
    buf <- wr buf 0 one ;;
    buf <- wr buf b_size one ;;
    buf <- wr buf (b_size + b_size) z0 ;;
    let big := nmax >=? mmax in
    buf <- (if 0 <? nmax + mmax then
              st3 b_size buf 1 (fun ax b =>
                v <- rd b (ax * b_size) ;; Some (mul (opp (r1r12 ax)) v))
            else Some buf) ;;
    buf <- for_ 1 (nmax + mmax) (fun i b =>
             st3 b_size b (i + 1) (fun ax b =>
               v1 <- rd b (ax * b_size + (i - 1)) ;;
               v0 <- rd b (ax * b_size + i) ;;
               Some (sub (mul (half i) v1) (mul (r1r12 ax) v0)))) buf ;;
    buf <- for_ 1 ((if big then mmax else nmax) + 1) (fun j b =>
             let ptr := db * j in
             for_ ptr (ptr + nmax + mmax - j + 1) (fun i b =>
               st3 b_size b i (fun ax b =>
                 v2 <- rd b (ax * b_size + (i + 1 - db)) ;;
                 v1 <- rd b (ax * b_size + (i - db)) ;;
                 Some (add v2 (mul (r1r2 ax) v1)))) b) buf ;;
    g <- for_ 0 (mmax + 1) (fun j g =>
         for_ 0 (nmax + 1) (fun i g =>
           st3 gs g (i * dn + j * dm) (fun ax _ =>
             rd buf (ax * b_size + (if big then i + j * db else i * db + j)))) g) g ;;
    g0_2d_4d e rirj rkrl g.

  (** Derivative and position operators.  [g] and [f] are two regions of one
      buffer [m], starting at [go] and [fo] (the generated code always calls them
      with f = g + 3*g_size*k). *)

  (** g1e.c:320-349 CINTnabla1i_1e, 351-382 CINTnabla1j_1e, 387-420 CINTnabla1k_1e.
      [a2] = -2 * exponent. *)
  Definition nabla1i_1e (e : envs) (a2 : F) (fo go li lj lk : Z) (m : arr F) : option (arr F) :=
    let gs := g_size e in
    let dj := g_stride_j e in let dk := g_stride_k e in
    for_ 0 (lk + 1) (fun k m => for_ 0 (lj + 1) (fun j m =>
      let ptr := dj * j + dk * k in
      m <- st3 gs m (fo + ptr) (fun ax m =>
             v <- rd m (ax * gs + (go + (ptr + 1))) ;; Some (mul a2 v)) ;;
      for_ 1 (li + 1) (fun i m =>
        st3 gs m (fo + (ptr + i)) (fun ax m =>
          v1 <- rd m (ax * gs + (go + (ptr + i - 1))) ;;
          v2 <- rd m (ax * gs + (go + (ptr + i + 1))) ;;
          Some (add (mul (inj i) v1) (mul a2 v2)))) m) m) m.

  Definition nabla1j_1e (e : envs) (a2 : F) (fo go li lj lk : Z) (m : arr F) : option (arr F) :=
    let gs := g_size e in
    let dj := g_stride_j e in let dk := g_stride_k e in
    for_ 0 (lk + 1) (fun k m =>
      let ptr := dk * k in
      m <- for_ ptr (ptr + li + 1) (fun i m =>
             st3 gs m (fo + i) (fun ax m =>
               v <- rd m (ax * gs + (go + (i + dj))) ;; Some (mul a2 v))) m ;;
      for_ 1 (lj + 1) (fun j m =>
        let ptr := dj * j + dk * k in
        for_ ptr (ptr + li + 1) (fun i m =>
          st3 gs m (fo + i) (fun ax m =>
            v1 <- rd m (ax * gs + (go + (i - dj))) ;;
            v2 <- rd m (ax * gs + (go + (i + dj))) ;;
            Some (add (mul (inj j) v1) (mul a2 v2)))) m) m) m.

  Definition nabla1k_1e (e : envs) (a2 : F) (fo go li lj lk : Z) (m : arr F) : option (arr F) :=
    let gs := g_size e in
    let dj := g_stride_j e in let dk := g_stride_k e in
    m <- for_ 0 (lj + 1) (fun j m =>
           let ptr := dj * j in
           for_ ptr (ptr + li + 1) (fun i m =>
             st3 gs m (fo + i) (fun ax m =>
               v <- rd m (ax * gs + (go + (i + dk))) ;; Some (mul a2 v))) m) m ;;
    for_ 1 (lk + 1) (fun k m => for_ 0 (lj + 1) (fun j m =>
      let ptr := dj * j + dk * k in
      for_ ptr (ptr + li + 1) (fun i m =>
        st3 gs m (fo + i) (fun ax m =>
          v1 <- rd m (ax * gs + (go + (i - dk))) ;;
          v2 <- rd m (ax * gs + (go + (i + dk))) ;;
          Some (add (mul (inj k) v1) (mul a2 v2)))) m) m) m.

  (** g1e.c:428-449 CINTx1i_1e (d = 1), 451-472 CINTx1j_1e (d = dj),
      474-495 CINTx1k_1e (d = dk): the three bodies differ only in that stride. *)
  Definition x1_1e (d : Z) (e : envs) (r : Z -> F) (fo go li lj lk : Z) (m : arr F)
    : option (arr F) :=
    let gs := g_size e in
    let dj := g_stride_j e in let dk := g_stride_k e in
    for_ 0 (lk + 1) (fun k m => for_ 0 (lj + 1) (fun j m =>
      let ptr := dj * j + dk * k in
      for_ ptr (ptr + li + 1) (fun i m =>
        st3 gs m (fo + i) (fun ax m =>
          v1 <- rd m (ax * gs + (go + (i + d))) ;;
          v0 <- rd m (ax * gs + (go + i)) ;;
          Some (add v1 (mul (r ax) v0)))) m) m) m.
  Definition x1i_1e (e : envs) := x1_1e 1 e.
  Definition x1j_1e (e : envs) := x1_1e (g_stride_j e) e.
  Definition x1k_1e (e : envs) := x1_1e (g_stride_k e) e.

  (** One row of a two-electron operator: [ptr] runs from [ptr0] in steps of [di]
      for i = 0..li, and n over the roots. *)
  Definition first_row (gs fo go : Z) (a2 : F) (d nroots ptr : Z) (m : arr F) :=
    for_ ptr (ptr + nroots) (fun n m =>
      st3 gs m (fo + n) (fun ax m =>
        v <- rd m (ax * gs + (go + (n + d))) ;; Some (mul a2 v))) m.
  Definition next_row (gs fo go : Z) (a2 : F) (c d nroots ptr : Z) (m : arr F) :=
    for_ ptr (ptr + nroots) (fun n m =>
      st3 gs m (fo + n) (fun ax m =>
        v1 <- rd m (ax * gs + (go + (n - d))) ;;
        v2 <- rd m (ax * gs + (go + (n + d))) ;;
        Some (add (mul (inj c) v1) (mul a2 v2)))) m.

  (** g2e.c:4550-4591 CINTnabla1i_2e *)
  Definition nabla1i_2e (e : envs) (a2 : F) (fo go li lj lk ll : Z) (m : arr F) : option (arr F) :=
    let gs := g_size e in
    let di := g_stride_i e in let dk := g_stride_k e in
    let dl := g_stride_l e in let dj := g_stride_j e in
    let nroots := nrys_roots e in
    for_ 0 (lj + 1) (fun j m => for_ 0 (ll + 1) (fun l m => for_ 0 (lk + 1) (fun k m =>
      let ptr := dj * j + dl * l + dk * k in
      m <- first_row gs fo go a2 di nroots ptr m ;;
      for_ 1 (li + 1) (fun i m =>
        next_row gs fo go a2 i di nroots (ptr + di * i) m) m) m) m) m.

  (** g2e.c:4597-4644 CINTnabla1j_2e *)
  Definition nabla1j_2e (e : envs) (a2 : F) (fo go li lj lk ll : Z) (m : arr F) : option (arr F) :=
    let gs := g_size e in
    let di := g_stride_i e in let dk := g_stride_k e in
    let dl := g_stride_l e in let dj := g_stride_j e in
    let nroots := nrys_roots e in
    m <- for_ 0 (ll + 1) (fun l m => for_ 0 (lk + 1) (fun k m =>
           let ptr := dl * l + dk * k in
           for_ 0 (li + 1) (fun i m => first_row gs fo go a2 dj nroots (ptr + di * i) m) m) m) m ;;
    for_ 1 (lj + 1) (fun j m => for_ 0 (ll + 1) (fun l m => for_ 0 (lk + 1) (fun k m =>
      let ptr := dj * j + dl * l + dk * k in
      for_ 0 (li + 1) (fun i m =>
        next_row gs fo go a2 j dj nroots (ptr + di * i) m) m) m) m) m.

  (** g2e.c:4650-4693 CINTnabla1k_2e *)
  Definition nabla1k_2e (e : envs) (a2 : F) (fo go li lj lk ll : Z) (m : arr F) : option (arr F) :=
    let gs := g_size e in
    let di := g_stride_i e in let dk := g_stride_k e in
    let dl := g_stride_l e in let dj := g_stride_j e in
    let nroots := nrys_roots e in
    for_ 0 (lj + 1) (fun j m => for_ 0 (ll + 1) (fun l m =>
      let ptr := dj * j + dl * l in
      m <- for_ 0 (li + 1) (fun i m => first_row gs fo go a2 dk nroots (ptr + di * i) m) m ;;
      for_ 1 (lk + 1) (fun k m =>
        let ptr := dj * j + dl * l + dk * k in
        for_ 0 (li + 1) (fun i m =>
          next_row gs fo go a2 k dk nroots (ptr + di * i) m) m) m) m) m.

  (** g2e.c:4699-4748 CINTnabla1l_2e *)
  Definition nabla1l_2e (e : envs) (a2 : F) (fo go li lj lk ll : Z) (m : arr F) : option (arr F) :=
    let gs := g_size e in
    let di := g_stride_i e in let dk := g_stride_k e in
    let dl := g_stride_l e in let dj := g_stride_j e in
    let nroots := nrys_roots e in
    for_ 0 (lj + 1) (fun j m =>
      m <- for_ 0 (lk + 1) (fun k m =>
             let ptr := dj * j + dk * k in
             for_ 0 (li + 1) (fun i m => first_row gs fo go a2 dl nroots (ptr + di * i) m) m) m ;;
      for_ 1 (ll + 1) (fun l m => for_ 0 (lk + 1) (fun k m =>
        let ptr := dj * j + dl * l + dk * k in
        for_ 0 (li + 1) (fun i m =>
          next_row gs fo go a2 l dl nroots (ptr + di * i) m) m) m) m) m.

  (** g2e.c:4755-4886 CINTx1i_2e, CINTx1j_2e, CINTx1k_2e, CINTx1l_2e (same body,
      d = di, dj, dk, dl) *)
  Definition x1_2e (d : Z) (e : envs) (r : Z -> F) (fo go li lj lk ll : Z) (m : arr F)
    : option (arr F) :=
    let gs := g_size e in
    let di := g_stride_i e in let dk := g_stride_k e in
    let dl := g_stride_l e in let dj := g_stride_j e in
    let nroots := nrys_roots e in
    for_ 0 (lj + 1) (fun j m => for_ 0 (ll + 1) (fun l m => for_ 0 (lk + 1) (fun k m =>
      let ptr := dj * j + dl * l + dk * k in
      for_ 0 (li + 1) (fun i m =>
        for_ (ptr + di * i) (ptr + di * i + nroots) (fun n m =>
          st3 gs m (fo + n) (fun ax m =>
            v1 <- rd m (ax * gs + (go + (n + d))) ;;
            v0 <- rd m (ax * gs + (go + n)) ;;
            Some (add v1 (mul (r ax) v0)))) m) m) m) m) m.
  Definition x1i_2e (e : envs) := x1_2e (g_stride_i e) e.
  Definition x1j_2e (e : envs) := x1_2e (g_stride_j e) e.
  Definition x1k_2e (e : envs) := x1_2e (g_stride_k e) e.
  Definition x1l_2e (e : envs) := x1_2e (g_stride_l e) e.

  (** g1e_grids.c:340-380 CINTnabla1i_grids; [bg] = MIN(ngrids - grids_offset, GRID_BLKSIZE).  The
      innermost loops over grid points have the shape of [first_row] / [next_row]. *)
  Definition nabla1i_grids (e : envs) (bg : Z) (a2 : F) (fo go li lj : Z) (m : arr F) : option (arr F) :=
    let gs := g_size e in
    let di := g_stride_i e in let dj := g_stride_j e in
    let nroots := nrys_roots e in
    for_ 0 (lj + 1) (fun j m =>
      m <- for_ 0 nroots (fun n m => first_row gs fo go a2 di bg (dj * j + n * GRID_BLKSIZE) m) m ;;
      for_ 1 (li + 1) (fun i m => for_ 0 nroots (fun n m =>
        next_row gs fo go a2 i di bg (dj * j + di * i + n * GRID_BLKSIZE) m) m) m) m.

  (** g1e_grids.c:382-422 CINTnabla1j_grids *)
  Definition nabla1j_grids (e : envs) (bg : Z) (a2 : F) (fo go li lj : Z) (m : arr F) : option (arr F) :=
    let gs := g_size e in
    let di := g_stride_i e in let dj := g_stride_j e in
    let nroots := nrys_roots e in
    m <- for_ 0 (li + 1) (fun i m => for_ 0 nroots (fun n m =>
           first_row gs fo go a2 dj bg (di * i + n * GRID_BLKSIZE) m) m) m ;;
    for_ 1 (lj + 1) (fun j m => for_ 0 (li + 1) (fun i m => for_ 0 nroots (fun n m =>
      next_row gs fo go a2 j dj bg (dj * j + di * i + n * GRID_BLKSIZE) m) m) m) m.

  (** g1e_grids.c:425-452 CINTx1i_grids (d = di), 454-481 CINTx1j_grids (d = dj) *)
  Definition x1_grids (d : Z) (e : envs) (bg : Z) (r : Z -> F) (fo go li lj : Z) (m : arr F) : option (arr F) :=
    let gs := g_size e in
    let di := g_stride_i e in let dj := g_stride_j e in
    let nroots := nrys_roots e in
    for_ 0 (lj + 1) (fun j m => for_ 0 (li + 1) (fun i m => for_ 0 nroots (fun n m =>
      let ptr := dj * j + di * i + n * GRID_BLKSIZE in
      for_ ptr (ptr + bg) (fun ig m =>
        st3 gs m (fo + ig) (fun ax m =>
          v1 <- rd m (ax * gs + (go + (ig + d))) ;;
          v0 <- rd m (ax * gs + (go + ig)) ;;
          Some (add v1 (mul (r ax) v0)))) m) m) m) m.
  Definition x1i_grids (e : envs) := x1_grids (g_stride_i e) e.
  Definition x1j_grids (e : envs) := x1_grids (g_stride_j e) e.
End Rec.
