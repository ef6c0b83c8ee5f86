(** OptModel.v — model of src/optimizer.c: the tables an optimizer holds and the life of
    the memory they live in.

    A table of pointers ([FINT **], [double **], [PairData **]) is an array of [ptr] cells
    together with the identity of the one block all its pointers point into.
    Between its [malloc] and the end of the routine that fills it, a table is
    touched by that routine only; it is therefore filled as a local array and put
    into the heap when complete.  Scalars are an arbitrary type with the operations
    of [fops] (law-free); [approx_log] is [log] (optimizer.h:76-78).  [malloc] does not fail. *)
From Verif Require Import Base BasModel EnvModel IdxModel CtrModel OutModel.

(** ** Scalars *)
Record fops (F : Type) := mkfops {
  f0 : F; f1 : F; fadd : F -> F -> F; fsub : F -> F -> F; fmul : F -> F -> F; fdiv : F -> F -> F;
  fneg : F -> F; fabs : F -> F; flog : F -> F; fexp : F -> F; fsqrt : F -> F;
  flt : F -> F -> bool; feq : F -> F -> bool;
  fofZ : Z -> F;      (* int to double *)
  f1_7 : F; f1_5 : F; f1e18 : F }.
Arguments f0 {F}. Arguments f1 {F}. Arguments fadd {F}. Arguments fsub {F}. Arguments fmul {F}.
Arguments fdiv {F}. Arguments fneg {F}. Arguments fabs {F}. Arguments flog {F}. Arguments fexp {F}.
Arguments fsqrt {F}. Arguments flt {F}. Arguments feq {F}. Arguments fofZ {F}.
Arguments f1_7 {F}. Arguments f1_5 {F}. Arguments f1e18 {F}.

(** A pointer cell: NULL, NOVALUE (optimizer.h:7) or "offset [o] in the table's block". *)
Inductive ptr := Null | NoValue | Off (o : Z).

(** cint.h.in:140-144 *)
Record pdata (F : Type) := mkpd { rij0 : F; rij1 : F; rij2 : F; eij : F; cceij : F }.
Arguments mkpd {F}. Arguments rij0 {F}. Arguments rij1 {F}. Arguments rij2 {F}. Arguments eij {F}. Arguments cceij {F}.

(** cint_const.h, cint.h.in, optimizer.h *)
Definition ATM_SLOTS := 6.
Definition PTR_COORD := 1.
Definition PTR_EXPCUTOFF := 0.
Definition PTR_RANGE_OMEGA := 8.
Definition EXPCUTOFF := 60.
Definition MIN_EXPCUTOFF := 40.
Definition MAX_PGTO_FOR_PAIRDATA := 2048.
Definition LMAX1 := 16.
Definition ANG_MAX := 15.

(** The integrals whose optimizers are built here. *)
Inductive kind := K1e | K2e | K3c2e | K2c2e | K3c1e | Kgrids | Kstg.

Section Fill.
  Context {F : Type} (O : fops F).

  (** [MAX(X,Y) = X > Y ? X : Y] (cint_const.h) *)
  Definition fmax (x y : F) : F := if flt O y x then x else y.

  (** optimizer.c:248-259 *)
  Definition CINTOpt_log_max_pgto_coeff (lm : arr F) (o : Z) (env : arr F) (oc nprim nctr : Z) : option (arr F) :=
    for_ 0 nprim (fun ip lm =>
      maxc <- for_ 0 nctr (fun i m => c <- rd env (oc + (i * nprim + ip)) ;; Some (fmax m (fabs O c))) (f0 O) ;;
      wr lm (o + ip) (flog O maxc)) lm.

  (** [for (i...) tot_prim += bas(NPRIM_OF, i)] *)
  Definition tot_prim (bas : arr Z) (nbas : Z) : option Z :=
    for_ 0 nbas (fun i s => n <- bas_at bas NPRIM_OF i ;; Some (s + n)) 0.

  (** optimizer.c:262-284; [None] inside: returned early, nothing allocated. *)
  Definition set_log_maxc (bas : arr Z) (nbas : Z) (env : arr F) : option (option (arr ptr * arr F)) :=
    tot <- tot_prim bas nbas ;;
    if tot =? 0 then Some None else
    t <- wr (uninit (Z.max nbas 1)) 0 (Off 0) ;;
    r <- for_ 0 nbas (fun i '(t, lm, o) =>
           iprim <- bas_at bas NPRIM_OF i ;;
           ictr <- bas_at bas NCTR_OF i ;;
           oc <- bas_at bas PTR_COEFF i ;;
           t <- wr t i (Off o) ;;
           lm <- CINTOpt_log_max_pgto_coeff lm o env oc iprim ictr ;;
           Some (t, lm, o + iprim)) (t, uninit tot, 0) ;;
    let '(t, lm, _) := r in Some (Some (t, lm)).

  (** optimizer.c:288-342.  [ai], [aj], [ri], [rj] are offsets in env; the five fields
      of a PairData are stored in one step.  Returns the data and [empty]. *)
  Definition log_rr (env : arr F) (oai oaj lic ljc iprim jprim : Z) (rr : F) : option F :=
    a <- rd env (oai + (iprim - 1)) ;;
    b <- rd env (oaj + (jprim - 1)) ;;
    let aij := fadd O a b in
    let l0 := fsub O (f1_7 O) (fmul O (f1_5 O) (flog O aij)) in
    let lij := lic + ljc in
    if 0 <? lij then
      let dist := fsqrt O rr in
      omega <- rd env PTR_RANGE_OMEGA ;;
      if flt O omega (f0 O) then
        let omega2 := fmul O omega omega in
        let theta := fdiv O omega2 (fadd O omega2 aij) in
        Some (fadd O l0 (fmul O (fofZ O lij)
               (flog O (fadd O (fadd O dist (fmul O theta (fofZ O 8))) (f1 O)))))
      else Some (fadd O l0 (fmul O (fofZ O lij) (flog O (fadd O dist (f1 O)))))
    else Some l0.

  Definition pair_entry (a b ri0 ri1 ri2 rj0 rj1 rj2 lmi lmj lrr rr cut : F) : pdata F :=
    let aij := fdiv O (f1 O) (fadd O a b) in
    let e := fmul O (fmul O (fmul O rr a) b) aij in
    let cce := fsub O (fsub O (fsub O e lrr) lmi) lmj in
    if flt O cce cut then
      let wj := fmul O b aij in
      mkpd (fadd O ri0 (fmul O wj (fsub O rj0 ri0)))
           (fadd O ri1 (fmul O wj (fsub O rj1 ri1)))
           (fadd O ri2 (fmul O wj (fsub O rj2 ri2)))
           (fexp O (fneg O e)) cce
    else mkpd (f1e18 O) (f1e18 O) (f1e18 O) (f0 O) cce.

  Definition CINTset_pairdata (pd : arr (pdata F)) (po : Z) (env : arr F) (oai oaj ori orj : Z)
      (lm : arr F) (olmi olmj lic ljc iprim jprim : Z) (rr cut : F) : option (arr (pdata F) * bool) :=
    lrr <- log_rr env oai oaj lic ljc iprim jprim rr ;;
    for_ 0 jprim (fun jp s => for_ 0 iprim (fun ip '(pd, empty) =>
      a <- rd env (oai + ip) ;;
      b <- rd env (oaj + jp) ;;
      lmi <- rd lm (olmi + ip) ;;
      lmj <- rd lm (olmj + jp) ;;
      ri0 <- rd env ori ;; ri1 <- rd env (ori + 1) ;; ri2 <- rd env (ori + 2) ;;
      rj0 <- rd env orj ;; rj1 <- rd env (orj + 1) ;; rj2 <- rd env (orj + 2) ;;
      let p := pair_entry a b ri0 ri1 ri2 rj0 rj1 rj2 lmi lmj lrr rr cut in
      pd <- wr pd (po + (jp * iprim + ip)) p ;;
      Some (pd, if flt O (cceij p) cut then false else empty)) s) (pd, true).

  (** optimizer.c:351-355 (the same test is in every CINTinit_*_EnvVars) *)
  Definition expcutoff_of (env : arr F) : option F :=
    x <- rd env PTR_EXPCUTOFF ;;
    Some (if feq O x (f0 O) then fofZ O EXPCUTOFF else fmax (fofZ O MIN_EXPCUTOFF) x).

  (** optimizer.c:406-413: the transposed copy. *)
  Definition transpose_pd (pd : arr (pdata F)) (dst src iprim jprim : Z) : option (arr (pdata F)) :=
    for_ 0 iprim (fun ip pd => for_ 0 jprim (fun jp pd =>
      p <- rd pd (src + (jp * iprim + ip)) ;;
      wr pd (dst + (ip * jprim + jp)) p) pd) pd.

  Definition coord_of (atm bas : arr Z) (i : Z) : option Z :=
    a <- bas_at bas ATOM_OF i ;; rd atm (ATM_SLOTS * a + PTR_COORD).

  Definition dist2 (env : arr F) (ori orj : Z) : option F :=
    x0 <- rd env ori ;; x1 <- rd env (ori + 1) ;; x2 <- rd env (ori + 2) ;;
    y0 <- rd env orj ;; y1 <- rd env (orj + 1) ;; y2 <- rd env (orj + 2) ;;
    let d0 := fsub O x0 y0 in let d1 := fsub O x1 y1 in let d2 := fsub O x2 y2 in
    Some (fadd O (fadd O (fmul O d0 d0) (fmul O d1 d1)) (fmul O d2 d2)).

  Definition ijkl_inc (ng : ngT) : Z :=
    if KINC ng + LINC ng <? IINC ng + JINC ng then IINC ng + JINC ng else KINC ng + LINC ng.

  (** A pointer read from a table of pointers must be an offset to be dereferenced. *)
  Definition tab_off (t : arr ptr) (i : Z) : option Z :=
    c <- rd t i ;; match c with Off o => Some o | _ => None end.

  (** optimizer.c:382-423, one pair of shells; state: pointer table, data, offset of [pdata] *)
  Definition setij_pair (ng : ngT) (atm bas : arr Z) (nbas : Z) (env : arr F) (cut : F)
      (lt : arr ptr) (lm : arr F) (i j : Z) (s : arr ptr * arr (pdata F) * Z)
    : option (arr ptr * arr (pdata F) * Z) :=
    let '(t, pd, o) := s in
    ori <- coord_of atm bas i ;;
    oai <- bas_at bas PTR_EXP i ;;
    iprim <- bas_at bas NPRIM_OF i ;;
    li <- bas_at bas ANG_OF i ;;
    olmi <- tab_off lt i ;;
    orj <- coord_of atm bas j ;;
    oaj <- bas_at bas PTR_EXP j ;;
    jprim <- bas_at bas NPRIM_OF j ;;
    lj <- bas_at bas ANG_OF j ;;
    olmj <- tab_off lt j ;;
    rr <- dist2 env ori orj ;;
    ' (pd, empty) <- CINTset_pairdata pd o env oai oaj ori orj lm olmi olmj
                     (li + ijkl_inc ng) lj iprim jprim rr cut ;;
    if (i =? 0) && (j =? 0) then
      t <- wr t 0 (Off o) ;; Some (t, pd, o + iprim * jprim)
    else if negb empty then
      t <- wr t (i * nbas + j) (Off o) ;;
      if negb (i =? j) then
        t <- wr t (j * nbas + i) (Off (o + iprim * jprim)) ;;
        src <- tab_off t (i * nbas + j) ;;
        pd <- transpose_pd pd (o + iprim * jprim) src iprim jprim ;;
        Some (t, pd, o + iprim * jprim + iprim * jprim)
      else Some (t, pd, o + iprim * jprim)
    else
      t <- wr t (i * nbas + j) NoValue ;;
      t <- wr t (j * nbas + i) NoValue ;;
      Some (t, pd, o).

  (** optimizer.c:344-425 after [log_max_coeff] is there ([lt], [lm]; absent when
      there is no primitive).  [None] inside: returned early, nothing allocated. *)
  Definition setij (ng : ngT) (atm bas : arr Z) (nbas : Z) (env : arr F)
      (lmt : option (arr ptr * arr F)) : option (option (arr ptr * arr (pdata F))) :=
    cut <- expcutoff_of env ;;
    tot <- tot_prim bas nbas ;;
    if (tot =? 0) || (MAX_PGTO_FOR_PAIRDATA <? tot) then Some None else
    match lmt with
    | None => None      (* log_max_coeff[i] through a NULL pointer *)
    | Some (lt, lm) =>
      t <- wr (uninit (Z.max (nbas * nbas) 1)) 0 (Off 0) ;;
      r <- for_ 0 nbas (fun i s =>
             for_ 0 (i + 1) (fun j s => setij_pair ng atm bas nbas env cut lt lm i j s) s)
           (t, uninit (tot * tot), 0) ;;
      let '(t, pd, _) := r in Some (Some (t, pd))
    end.

  (** optimizer.c:460-490; the routine of lines 436-458 is given the pointers
      [psortedidx], [pnon0ctr] and [ci = env + PTR_COEFF]. *)
  Definition set_non0coeff (bas : arr Z) (nbas : Z) (env : arr F)
    : option (option ((arr ptr * arr Z) * (arr ptr * arr Z))) :=
    ' (tot, totc) <- for_ 0 nbas (fun i '(a, b) =>
        n <- bas_at bas NPRIM_OF i ;; c <- bas_at bas NCTR_OF i ;; Some (a + n, b + n * c)) (0, 0) ;;
    if tot =? 0 then Some None else
    tn <- wr (uninit (Z.max nbas 1)) 0 (Off 0) ;;
    ts <- wr (uninit (Z.max nbas 1)) 0 (Off 0) ;;
    r <- for_ 0 nbas (fun i '(tn, ts, pn, ps, o, os) =>
           iprim <- bas_at bas NPRIM_OF i ;;
           ictr <- bas_at bas NCTR_OF i ;;
           oc <- bas_at bas PTR_COEFF i ;;
           tn <- wr tn i (Off o) ;;
           ts <- wr ts i (Off os) ;;
           ' (s1, n1) <- CINTOpt_non0coeff_byshell (fun c => feq O c (f0 O)) (sub ps os) (sub pn o) (sub env oc) iprim ictr ;;
           Some (tn, ts, splice pn o n1, splice ps os s1, o + iprim, os + iprim * ictr))
         (tn, ts, uninit tot, uninit totc, 0, 0) ;;
    let '(tn, ts, pn, ps, _, _) := r in Some (Some ((tn, pn), (ts, ps))).

  (** optimizer.c:80-98; [fakebas] is a local array of BAS_SLOTS*LMAX1 integers *)
  Definition make_fakebas (bas : arr Z) (nbas : Z) : option (arr Z * Z) :=
    max_l <- for_ 0 nbas (fun i m => l <- bas_at bas ANG_OF i ;; Some (Z.max m l)) 0 ;;
    fb <- for_ 0 (BAS_SLOTS * (max_l + 1)) (fun i fb => wr fb i 0) (uninit (BAS_SLOTS * LMAX1)) ;;
    fb <- for_ 0 (max_l + 1) (fun i fb => wr fb (BAS_SLOTS * i + ANG_OF) i) fb ;;
    Some (fb, max_l).

  (** optimizer.c:99-117: sizes of the two blocks (pointers, index triples).
      In C the first is [(max_l+1) * LMAX1^(order-1)], the second [3 * cumcart^order]. *)
  Definition index_xyz_sizes (max_l l_allow order : Z) : Z * Z :=
    let cumcart := Z.quot ((l_allow + 1) * (l_allow + 2) * (l_allow + 3)) 6 in
    ((max_l + 1) * LMAX1 ^ (order - 1), 3 * cumcart ^ order).
  Definition allocate_index_xyz (max_l l_allow order : Z) : option (arr ptr * arr Z) :=
    let '(ll, cc) := index_xyz_sizes max_l l_allow order in
    t <- wr (uninit ll) 0 (Off 0) ;;
    t <- for_ 1 ll (fun i t => wr t i Null) t ;;
    Some (t, uninit cc).

  (** What [finit] reads of a shell of the fake basis: angular momentum, and the
      coordinates' address of its atom (number 0). *)
  Definition fake_shell (atm fb : arr Z) (i : Z) : option Z :=
    a <- bas_at fb ATOM_OF i ;;
    l <- bas_at fb ANG_OF i ;;
    _ <- bas_at fb NPRIM_OF i ;;
    _ <- bas_at fb NCTR_OF i ;;
    _ <- rd atm (ATM_SLOTS * a + PTR_COORD) ;;
    Some l.

  (** [finit] and [findex_xyz] of each kind, optimizer.c:173-246; the number of
      contractions of a fake shell is 0.  The sign of env[PTR_RANGE_OMEGA] is read by
      the initialisers that have a range separation. *)
  Definition kind_init (k : kind) (om : bool) (ng : ngT) (l1 l2 l3 l4 : Z) : envs :=
    match k with
    | K1e => init_int1e ng l1 l2 0 0
    | Kgrids => init_int1e_grids om ng l1 l2 0 0
    | K2c2e => init_int2c2e om ng l1 l2 0 0
    | K3c2e => init_int3c2e om ng l1 l2 l3 0 0 0
    | K3c1e => init_int3c1e ng l1 l2 l3 0 0 0
    | K2e => init_int2e om ng l1 l2 l3 l4 0 0 0 0
    | Kstg => init_int2e_yp ng l1 l2 l3 l4 0 0 0 0
    end.
  Definition kind_index (k : kind) : envs -> arr Z -> option (arr Z) :=
    match k with
    | K1e | Kgrids | K2c2e => CINTg1e_index_xyz
    | K3c2e | K2e | Kstg => CINTg2e_index_xyz
    | K3c1e => CINTg3c1e_index_xyz
    end.
  Definition kind_order (k : kind) : Z :=
    match k with K1e | Kgrids | K2c2e => 2 | K3c2e | K3c1e => 3 | K2e | Kstg => 4 end.
  Definition kind_lallow (k : kind) : Z :=
    match k with K1e | Kgrids | K2c2e => ANG_MAX | K3c2e | K3c1e => 12 | K2e | Kstg => 6 end.

  (** one step of the loops of gen_idx; [p] is the position in the pointer table *)
  Definition gen_step (k : kind) (e : envs) (p : Z) (s : arr ptr * arr Z * Z) : option (arr ptr * arr Z * Z) :=
    let '(t, b, o) := s in
    t <- wr t p (Off o) ;;
    b <- onsub b o (kind_index k e) ;;
    Some (t, b, o + nf e * 3).

  (** optimizer.c:118-171 *)
  Definition gen_idx (k : kind) (ng : ngT) (atm bas : arr Z) (nbas : Z) (env : arr F)
    : option (arr ptr * arr Z) :=
    ' (fb, max_l) <- make_fakebas bas nbas ;;
    let l_allow := Z.min max_l (kind_lallow k) in
    ' (t, b) <- allocate_index_xyz max_l l_allow (kind_order k) ;;
    om <- rd env PTR_RANGE_OMEGA ;;
    let omn := flt O om (f0 O) in
    let fs := fake_shell atm fb in
    r <- (if kind_order k =? 2 then
            for_ 0 (l_allow + 1) (fun i s => for_ 0 (l_allow + 1) (fun j s =>
              li <- fs i ;; lj <- fs j ;;
              gen_step k (kind_init k omn ng li lj 0 0) (i * LMAX1 + j) s) s) (t, b, 0)
          else if kind_order k =? 3 then
            for_ 0 (l_allow + 1) (fun i s => for_ 0 (l_allow + 1) (fun j s => for_ 0 (l_allow + 1) (fun kk s =>
              li <- fs i ;; lj <- fs j ;; lk <- fs kk ;;
              gen_step k (kind_init k omn ng li lj lk 0) (i * LMAX1 * LMAX1 + j * LMAX1 + kk) s) s) s) (t, b, 0)
          else
            for_ 0 (l_allow + 1) (fun i s => for_ 0 (l_allow + 1) (fun j s =>
            for_ 0 (l_allow + 1) (fun kk s => for_ 0 (l_allow + 1) (fun l s =>
              li <- fs i ;; lj <- fs j ;; lk <- fs kk ;; ll <- fs l ;;
              gen_step k (kind_init k omn ng li lj lk ll)
                (i * LMAX1 * LMAX1 * LMAX1 + j * LMAX1 * LMAX1 + kk * LMAX1 + l) s) s) s) s) (t, b, 0)) ;;
    let '(t, b, _) := r in Some (t, b).
End Fill.

(** ** Memory *)
Section Heap.
  Context {F : Type} (O : fops F).

  (** cint.h.in:145-152; a field is NULL or a block *)
  Record optrec := mkopt {
    o_idx : option Z; o_non0 : option Z; o_sidx : option Z; o_nbas : Z;
    o_logm : option Z; o_pair : option Z }.

  Inductive block :=
  | BOpt (o : optrec)
  | BPtr (base : Z) (t : arr ptr)      (* a table of pointers into block [base] *)
  | BInt (a : arr Z)
  | BFlt (a : arr F)
  | BPair (a : arr (pdata F)).

  (** Block numbers are never reused.  [hfrees] logs the blocks given to [free]. *)
  Record heap := mkheap { hnext : Z; hblk : Z -> option block; hfrees : list Z }.

  Definition malloc (b : block) (h : heap) : Z * heap :=
    (hnext h, mkheap (hnext h + 1) (fun x => if x =? hnext h then Some b else hblk h x) (hfrees h)).
  Definition store_blk (h : heap) (x : Z) (b : block) : option heap :=
    match hblk h x with
    | Some _ => Some (mkheap (hnext h) (fun y => if y =? x then Some b else hblk h y) (hfrees h))
    | None => None
    end.
  (** [free(p)] for [p] = block [x], offset [o]: undefined unless [o = 0] and [x] is live *)
  Definition free_ (h : heap) (x o : Z) : option heap :=
    if o =? 0 then
      match hblk h x with
      | Some _ => Some (mkheap (hnext h) (fun y => if y =? x then None else hblk h y) (x :: hfrees h))
      | None => None
      end
    else None.
  Definition free_cell (h : heap) (base : Z) (c : ptr) : option heap :=
    match c with Null => Some h | NoValue => None | Off o => free_ h base o end.

  (** [free(tab[0]); free(tab)] *)
  Definition free_table (h : heap) (x : Z) : option heap :=
    match hblk h x with
    | Some (BPtr base t) => c <- rd t 0 ;; h <- free_cell h base c ;; free_ h x 0
    | _ => None
    end.

  Definition get_opt (h : heap) (s : Z) : option optrec :=
    match hblk h s with Some (BOpt o) => Some o | _ => None end.

  (** optimizer.c:22-33 *)
  Definition CINTinit_2e_optimizer (nbas : Z) (h : heap) : Z * heap :=
    malloc (BOpt (mkopt None None None nbas None None)) h.

  (** optimizer.c:427-434 *)
  Definition CINTdel_pairdata_optimizer (h : heap) (p : option Z) : option heap :=
    match p with
    | None => Some h
    | Some s =>
      o <- get_opt h s ;;
      match o_pair o with
      | None => Some h
      | Some x => h <- free_table h x ;;
                  store_blk h s (BOpt (mkopt (o_idx o) (o_non0 o) (o_sidx o) (o_nbas o) (o_logm o) None))
      end
    end.

  (** optimizer.c:40-68; the new value of the caller's pointer is returned too *)
  Definition CINTdel_2e_optimizer (h : heap) (p : option Z) : option (heap * option Z) :=
    match p with
    | None => Some (h, None)
    | Some s =>
      o <- get_opt h s ;;
      h <- match o_idx o with None => Some h | Some x => free_table h x end ;;
      h <- match o_non0 o with
           | None => Some h
           | Some x => match o_sidx o with
                       | None => None
                       | Some y => h <- free_table h y ;; free_table h x
                       end
           end ;;
      h <- match o_logm o with None => Some h | Some x => free_table h x end ;;
      h <- CINTdel_pairdata_optimizer h (Some s) ;;
      h <- free_ h s 0 ;;
      Some (h, None)
    end.

  (** arguments shared by the filling routines *)
  Record basis := mkbasis { b_atm : arr Z; b_natm : Z; b_bas : arr Z; b_nbas : Z; b_env : arr F }.

  (** optimizer.c:262-284 on the object at [s]: two blocks, the second [malloc] is the data *)
  Definition h_set_log_maxc (B : basis) (h : heap) (s : Z) : option heap :=
    o <- get_opt h s ;;
    r <- set_log_maxc O (b_bas B) (b_nbas B) (b_env B) ;;
    match r with
    | None => Some h
    | Some (t, lm) =>
      let '(x, h) := malloc (BPtr (hnext h + 1) t) h in
      let '(_, h) := malloc (BFlt lm) h in
      store_blk h s (BOpt (mkopt (o_idx o) (o_non0 o) (o_sidx o) (o_nbas o) (Some x) (o_pair o)))
    end.

  Definition get_logm (h : heap) (o : optrec) : option (option (arr ptr * arr F)) :=
    match o_logm o with
    | None => Some None
    | Some x => match hblk h x with
                | Some (BPtr base t) => match hblk h base with
                                        | Some (BFlt lm) => Some (Some (t, lm))
                                        | _ => None
                                        end
                | _ => None
                end
    end.

  (** optimizer.c:344-425 *)
  Definition h_setij (ng : ngT) (B : basis) (h : heap) (s : Z) : option heap :=
    o <- get_opt h s ;;
    h <- match o_logm o with None => h_set_log_maxc B h s | Some _ => Some h end ;;
    o <- get_opt h s ;;
    lmt <- get_logm h o ;;
    r <- setij O ng (b_atm B) (b_bas B) (b_nbas B) (b_env B) lmt ;;
    match r with
    | None => Some h
    | Some (t, pd) =>
      let '(x, h) := malloc (BPtr (hnext h + 1) t) h in
      let '(_, h) := malloc (BPair pd) h in
      store_blk h s (BOpt (mkopt (o_idx o) (o_non0 o) (o_sidx o) (o_nbas o) (o_logm o) (Some x)))
    end.

  (** optimizer.c:460-490 *)
  Definition h_set_non0coeff (B : basis) (h : heap) (s : Z) : option heap :=
    o <- get_opt h s ;;
    r <- set_non0coeff O (b_bas B) (b_nbas B) (b_env B) ;;
    match r with
    | None => Some h
    | Some ((tn, pn), (ts, ps)) =>
      let '(x, h) := malloc (BPtr (hnext h + 2) tn) h in
      let '(y, h) := malloc (BPtr (hnext h + 2) ts) h in
      let '(_, h) := malloc (BInt pn) h in
      let '(_, h) := malloc (BInt ps) h in
      store_blk h s (BOpt (mkopt (o_idx o) (Some x) (Some y) (o_nbas o) (o_logm o) (o_pair o)))
    end.

  (** optimizer.c:99-171; here the data block is allocated first *)
  Definition h_gen_idx (k : kind) (ng : ngT) (B : basis) (h : heap) (s : Z) : option heap :=
    o <- get_opt h s ;;
    ' (t, b) <- gen_idx O k ng (b_atm B) (b_bas B) (b_nbas B) (b_env B) ;;
    let '(d, h) := malloc (BInt b) h in
    let '(x, h) := malloc (BPtr d t) h in
    store_blk h s (BOpt (mkopt (Some x) (o_non0 o) (o_sidx o) (o_nbas o) (o_logm o) (o_pair o))).

  (** optimizer.c:173-246: CINTall_*_optimizer *)
  Definition CINTall_optimizer (k : kind) (ng : ngT) (B : basis) (h : heap) : option (heap * option Z) :=
    let '(s, h) := CINTinit_2e_optimizer (b_nbas B) h in
    h <- match k with
         | K1e | K2c2e | Kgrids => h_set_log_maxc B h s
         | K2e | K3c2e | K3c1e | Kstg => h_setij ng B h s
         end ;;
    h <- h_set_non0coeff B h s ;;
    h <- h_gen_idx k ng B h s ;;
    Some (h, Some s).

  (** ** Programs of a caller with any number of pointer variables *)
  (** a variable [CINTOpt *v] is undefined until assigned *)
  Inductive var := Undef | Holds (p : option Z).

  Inductive op :=
  | OInit (v : Z) (B : basis)                    (* CINTinit_2e_optimizer(&v, ...), CINTinit_optimizer *)
  | ONo (v : Z)                                  (* CINTno_optimizer(&v, ...) *)
  | OAll (v : Z) (k : kind) (ng : ngT) (B : basis)  (* CINTall_..._optimizer(&v, ng, ...) *)
  | OLog (v : Z) (B : basis)                     (* CINTOpt_set_log_maxc(v, ...) *)
  | ONon0 (v : Z) (B : basis)                    (* CINTOpt_set_non0coeff(v, ...) *)
  | OIj (v : Z) (ng : ngT) (B : basis)           (* CINTOpt_setij(v, ng, ...) *)
  | ODelPair (v : Z)                             (* CINTdel_pairdata_optimizer(v) *)
  | ODel (v : Z).                                (* CINTdel_2e_optimizer(&v), CINTdel_optimizer *)

  Record state := mkstate { s_heap : heap; s_var : Z -> var }.
  Definition set_var (f : Z -> var) (v : Z) (p : option Z) : Z -> var :=
    fun w => if w =? v then Holds p else f w.
  Definition read_var (s : state) (v : Z) : option (option Z) :=
    match s_var s v with Undef => None | Holds p => Some p end.

  Definition exec (c : op) (s : state) : option state :=
    match c with
    | OInit v B => let '(x, h) := CINTinit_2e_optimizer (b_nbas B) (s_heap s) in
                   Some (mkstate h (set_var (s_var s) v (Some x)))
    | ONo v => Some (mkstate (s_heap s) (set_var (s_var s) v None))
    | OAll v k ng B => ' (h, p) <- CINTall_optimizer k ng B (s_heap s) ;;
                       Some (mkstate h (set_var (s_var s) v p))
    | OLog v B => p <- read_var s v ;; x <- p ;;
                  h <- h_set_log_maxc B (s_heap s) x ;; Some (mkstate h (s_var s))
    | ONon0 v B => p <- read_var s v ;; x <- p ;;
                   h <- h_set_non0coeff B (s_heap s) x ;; Some (mkstate h (s_var s))
    | OIj v ng B => p <- read_var s v ;; x <- p ;;
                    h <- h_setij ng B (s_heap s) x ;; Some (mkstate h (s_var s))
    | ODelPair v => p <- read_var s v ;;
                    h <- CINTdel_pairdata_optimizer (s_heap s) p ;; Some (mkstate h (s_var s))
    | ODel v => p <- read_var s v ;;
                ' (h, p) <- CINTdel_2e_optimizer (s_heap s) p ;;
                Some (mkstate h (set_var (s_var s) v p))
    end.

  Fixpoint execs (l : list op) (s : state) : option state :=
    match l with [] => Some s | c :: l => s <- exec c s ;; execs l s end.

  Definition start : state := mkstate (mkheap 0 (fun _ => None) []) (fun _ => Undef).
End Heap.
Arguments basis : clear implicits.
Arguments op : clear implicits.
