(** IntgModel.v — the integrand functions CINTgout* (src/autocode/*.c and the hand-written ones in
    cint1e.c, cint2e.c, g1e_grids.c, cint1e_a.c, cint3c1e_a.c, breit.c).

    All of them have one shape.  Block g0 of the buffer holds the products of one-dimensional
    integrals computed by the recurrences; the function first fills further blocks g1, g2, ... by
    calls of derivative and position operators (macros of g1e.h:48-63, g2e.h:88-107,
    g1e_grids.h:23-33), then for every Cartesian function n multiplies one cell of an x, a y and a
    z block for every entry of a local array s, and writes fixed linear combinations of s to gout.
    [gfun] is the syntax of such a function, [run_gout] its execution.  IntgTab.v transcribes every
    function into this syntax. *)
From Coq Require Import String.
From Verif Require Import Base EnvModel RecModel OpSpec.

(** Which operator routines are called: CINTnabla1i_1e etc. (g1e.c), CINTnabla1i_2e etc. (g2e.c),
    CINTnabla1i_grids etc. (g1e_grids.c). *)
Inductive gkind := K1 | K2 | KG.

(** An argument of an operator call: [None] is the literal 0, [Some d] is envs->x_l + d. *)
Definition garg := option Z.
Record gargs := mka { a_i : garg; a_j : garg; a_k : garg; a_l : garg }.

(** Statements before the loop over n; [t] and [s] number the pointers g0, g1, ... *)
Inductive gop :=
| GD (c : centre) (t s : nat) (a : gargs)                  (* G?E_D_c(gt, gs, ...)  *)
| GX (c : centre) (com : bool) (t s : nat) (a : gargs)     (* G?E_RCc / G?E_R0c(gt, gs, ...) *)
| GShift (c : centre) (t s : nat)                          (* G?E_R_c: gt = gs + envs->g_stride_c *)
| GSum (t s : nat).                                        (* for ix < g_size*3: gt[ix] += gs[ix] *)

(** A factor of a constant c[.]: rirj[ax] (false) or rkrl[ax] (true). *)
Definition gconst := list (bool * Z).

(** [g_s]: the three blocks multiplied for s[0], s[1], ...; [g_rows]: for gout[n*nc+0], ..., the
    terms (integer coefficient, optional index into c, index into s). *)
Record gfun := mkg {
  g_name : string;
  g_kind : gkind;
  g_nblk : nat;
  g_ops : list gop;
  g_const : list gconst;
  g_s : list (nat * nat * nat);
  g_rows : list (list (Z * option nat * N)) }.

Definition tm (k : Z) (s : N) : Z * option nat * N := (k, None, s).
Definition tc (k : Z) (c : nat) (s : N) : Z * option nat * N := (k, Some c, s).
Definition rij (ax : Z) : bool * Z := (false, ax).
Definition rkl (ax : Z) : bool * Z := (true, ax).

Section Run.
  Context {F : Type}.
  Variables (zero one : F) (add mul sub : F -> F -> F) (inj : Z -> F).

  (** What an integrand function reads besides g, idx and gout: envs, the exponents
      envs->ai[0].. and centres envs->ri.. of the primitives, the common origin
      env[PTR_COMMON_ORIG..], and for grids the number of points of the block. *)
  Record gin := mkgin {
    x_env : envs;
    x_bg : Z;
    x_a : centre -> F;
    x_R : centre -> Z -> F;
    x_C : Z -> F }.

  Variable x : gin.
  Let e := x_env x.
  Let gs := g_size e.

  Definition order_of (c : centre) : Z := own c (i_l e) (j_l e) (k_l e) (l_l e).
  Definition stride (c : centre) : Z := own c (g_stride_i e) (g_stride_j e) (g_stride_k e) (g_stride_l e).
  Definition arg (c : centre) (a : garg) : Z := match a with None => 0 | Some d => order_of c + d end.

  (** the operator routines by kind and centre; the factor -2*exponent is computed by the
      routines themselves *)
  Definition op_D (K : gkind) (c : centre) (fo go : Z) (a : gargs) (m : arr F) : option (arr F) :=
    let li := arg CI (a_i a) in let lj := arg CJ (a_j a) in
    let lk := arg CK (a_k a) in let ll := arg CL (a_l a) in
    let a2 := mul (inj (-2)) (x_a x c) in
    match K, c with
    | K1, CI => nabla1i_1e add mul inj e a2 fo go li lj lk m
    | K1, CJ => nabla1j_1e add mul inj e a2 fo go li lj lk m
    | K1, CK => nabla1k_1e add mul inj e a2 fo go li lj lk m
    | K2, CI => nabla1i_2e add mul inj e a2 fo go li lj lk ll m
    | K2, CJ => nabla1j_2e add mul inj e a2 fo go li lj lk ll m
    | K2, CK => nabla1k_2e add mul inj e a2 fo go li lj lk ll m
    | K2, CL => nabla1l_2e add mul inj e a2 fo go li lj lk ll m
    | KG, CI => nabla1i_grids add mul inj e (x_bg x) a2 fo go li lj m
    | KG, CJ => nabla1j_grids add mul inj e (x_bg x) a2 fo go li lj m
    | _, _ => None   (* no such routine *)
    end.

  (** R0: r is the centre itself; RC: the centre minus the common origin (the local arrays dri,
      drj, ... of the generated code) *)
  Definition op_X (K : gkind) (c : centre) (com : bool) (fo go : Z) (a : gargs) (m : arr F) : option (arr F) :=
    let li := arg CI (a_i a) in let lj := arg CJ (a_j a) in
    let lk := arg CK (a_k a) in let ll := arg CL (a_l a) in
    let r ax := if com then sub (x_R x c ax) (x_C x ax) else x_R x c ax in
    match K, c with
    | K1, CI => x1i_1e add mul e r fo go li lj lk m
    | K1, CJ => x1j_1e add mul e r fo go li lj lk m
    | K1, CK => x1k_1e add mul e r fo go li lj lk m
    | K2, CI => x1i_2e add mul e r fo go li lj lk ll m
    | K2, CJ => x1j_2e add mul e r fo go li lj lk ll m
    | K2, CK => x1k_2e add mul e r fo go li lj lk ll m
    | K2, CL => x1l_2e add mul e r fo go li lj lk ll m
    | KG, CI => x1i_grids add mul e (x_bg x) r fo go li lj m
    | KG, CJ => x1j_grids add mul e (x_bg x) r fo go li lj m
    | _, _ => None
    end.

  (** state: the pointers g0, g1, ... as offsets into the buffer, and the buffer *)
  Definition gst : Type := (nat -> Z) * arr F.
  Definition upd_ptr (p : nat -> Z) (t : nat) (v : Z) (k : nat) : Z := if Nat.eqb k t then v else p k.

  Definition run_op (K : gkind) (o : gop) (st : gst) : option gst :=
    let (p, m) := st in
    match o with
    | GD c t s a => m <- op_D K c (p t) (p s) a m ;; Some (p, m)
    | GX c com t s a => m <- op_X K c com (p t) (p s) a m ;; Some (p, m)
    | GShift c t s => Some (upd_ptr p t (p s + stride c), m)
    | GSum t s =>
        m <- for_ 0 (3 * gs) (fun ix m =>
               v <- rd m (p t + ix) ;; w <- rd m (p s + ix) ;; wr m (p t + ix) (add v w)) m ;;
        Some (p, m)
    end.
  Fixpoint run_ops (K : gkind) (os : list gop) (st : gst) : option gst :=
    match os with [] => Some st | o :: os => st <- run_op K o st ;; run_ops K os st end.

  (** double *g0 = g; double *g1 = g0 + envs->g_size * 3; ... *)
  Definition ptr0 (k : nat) : Z := 3 * gs * Z.of_nat k.

  (** The sums over roots.  One-electron functions have a single product; the others sum over
      nrys_roots (the 11 functions of grad2.c, gaunt1.c ... with a switch over nrys_roots = 1..4
      write the same sums out); for grids the cell of root i and point ig is ig + i*GRID_BLKSIZE.
      Simplification: the C code accumulates all entries of s in one loop over the roots, here
      each entry is summed by its own loop. *)
  Definition sval (K : gkind) (p : nat -> Z) (m : arr F) (ix iy iz ig : Z) (b : nat * nat * nat) : option F :=
    let '(bx, by_, bz) := b in
    let prod o :=
      u <- rd m (p bx + (ix + o)) ;; v <- rd m (p by_ + (iy + o)) ;; w <- rd m (p bz + (iz + o)) ;;
      Some (mul (mul u v) w) in
    match K with
    | K1 => prod 0
    | K2 => for_ 0 (nrys_roots e) (fun i s => q <- prod i ;; Some (add s q)) zero
    | KG => for_ 0 (nrys_roots e) (fun i s => q <- prod (ig + i * GRID_BLKSIZE) ;; Some (add s q)) zero
    end.

  Fixpoint svals (K : gkind) (p : nat -> Z) (m : arr F) (ix iy iz ig : Z) (bs : list (nat * nat * nat))
    : option (list F) :=
    match bs with
    | [] => Some []
    | b :: bs => v <- sval K p m ix iy iz ig b ;; vs <- svals K p m ix iy iz ig bs ;; Some (v :: vs)
    end.

  (** c[k] = 1 * rirj[.] * rkrl[.] ..., with rirj = ri - rj and rkrl = rk - rl *)
  Definition pairR (q : bool) (ax : Z) : F :=
    if q then sub (x_R x CK ax) (x_R x CL ax) else sub (x_R x CI ax) (x_R x CJ ax).
  Definition cval (k : gconst) : F := fold_left (fun v qa => mul v (pairR (fst qa) (snd qa))) k one.

  Fixpoint row (cs : list gconst) (s : list F) (ts : list (Z * option nat * N)) (acc : F) : option F :=
    match ts with
    | [] => Some acc
    | (k, oc, i) :: ts =>
        v <- nth_error s (N.to_nat i) ;;
        c <- match oc with None => Some one | Some j => k <- nth_error cs j ;; Some (cval k) end ;;
        row cs s ts (add acc (mul (mul (inj k) c) v))
    end.

  (** gout[n*nc+0] = ...; gout[n*nc+1] = ...; with = or += *)
  Fixpoint put (empty : bool) (cs : list gconst) (s : list F) (pos : Z -> Z) (c : Z)
      (rows : list (list (Z * option nat * N))) (gout : arr F) : option (arr F) :=
    match rows with
    | [] => Some gout
    | ts :: rows =>
        v <- row cs s ts zero ;;
        w <- (if empty then Some v else old <- rd gout (pos c) ;; Some (add old v)) ;;
        gout <- wr gout (pos c) w ;;
        put empty cs s pos (c + 1) rows gout
    end.

  (** number of results per (n, component): bgrids grid points, otherwise 1 *)
  Definition points (K : gkind) : Z := match K with KG => x_bg x | _ => 1 end.

  Definition run_gout (f : gfun) (empty : bool) (idx : arr Z) (m : arr F) (gout : arr F) : option (arr F) :=
    st <- run_ops (g_kind f) (g_ops f) (ptr0, m) ;;
    let (p, m) := st in
    let K := g_kind f in
    let nc := Z.of_nat (length (g_rows f)) in
    for_ 0 (nf e) (fun n gout =>
      ix <- rd idx (n * 3 + 0) ;; iy <- rd idx (n * 3 + 1) ;; iz <- rd idx (n * 3 + 2) ;;
      for_ 0 (points K) (fun ig gout =>
        s <- svals K p m ix iy iz ig (g_s f) ;;
        put empty (g_const f) s (fun c => ig + points K * (n * nc + c)) 0 (g_rows f) gout) gout) gout.
End Run.
Arguments gin : clear implicits.
Arguments mkgin {F}.

(** ** Entry points
    Every integral family name has name_optimizer, name_cart, name_sph and name_spinor, which all
    set up the environment from the same ng array and hand the integrand to a driver. *)

(** Drivers and initialisers used (the ng slots have the same meaning everywhere). *)
Inductive gfam :=
| F1e         (* CINTinit_int1e_EnvVars, CINT1e_drv with INT1E_TYPE_OVLP *)
| F1rinv      (* the same with INT1E_TYPE_RINV: 1/|r - R| at env[PTR_RINV_ORIG] *)
| F1nuc       (* the same with INT1E_TYPE_NUC *)
| Fgrids      (* CINTinit_int1e_grids_EnvVars, CINT1e_grids_drv *)
| F2e         (* CINTinit_int2e_EnvVars, CINT2e_drv *)
| F3c2e       (* CINTinit_int3c2e_EnvVars, CINT3c2e_drv *)
| F2c2e       (* CINTinit_int2c2e_EnvVars, CINT2c2e_drv *)
| F3c1e       (* CINTinit_int3c1e_EnvVars, CINT3c1e_drv *)
| F4c1e       (* CINTinit_int4c1e_EnvVars, CINT4c1e_drv *)
| F2yp.       (* CINTinit_int2e_yp_EnvVars or CINTinit_int2e_stg_EnvVars, CINT2e_drv *)

(** A spinor transformation, by name: with or without the three spin components (_si_ / _sf_), and
    whether the result is multiplied by the imaginary unit (name ending in i). *)
Record c2s := mkc { c_si : bool; c_im : bool }.

(** The entry points of one family: name, integrand, drivers; ng of the optimizer, cart, sph and
    spinor function (those that have one); the common_factor *= of the last three as (numerator,
    denominator), 1 if there is none; and the spinor transforms of the two electrons.  A missing or
    unimplemented entry point has None. *)
Record gentry := mke {
  en_name : string;
  en_fun : string;
  en_fam : gfam;
  en_ng : list ngT;
  en_cart : option (Z * positive); en_sph : option (Z * positive); en_spinor : option (Z * positive);
  en_c2s1 : option c2s; en_c2s2 : option c2s }.
Definition fr (n : Z) (d : positive) : Z * positive := (n, d).

(** The environment a family sets up from ng, the angular momenta and numbers of contractions, and
    the sign of omega.  Functions of three centres have no fourth one, the two-centre integrals use
    the positions of i and k. *)
Definition fam_env (fam : gfam) (om : bool) (ng : ngT) (l ctr : centre -> Z) : envs :=
  match fam with
  | F1e | F1rinv | F1nuc => init_int1e ng (l CI) (l CJ) (ctr CI) (ctr CJ)
  | Fgrids => init_int1e_grids om ng (l CI) (l CJ) (ctr CI) (ctr CJ)
  | F2e => init_int2e om ng (l CI) (l CJ) (l CK) (l CL) (ctr CI) (ctr CJ) (ctr CK) (ctr CL)
  | F2yp => init_int2e_yp ng (l CI) (l CJ) (l CK) (l CL) (ctr CI) (ctr CJ) (ctr CK) (ctr CL)
  | F4c1e => init_int4c1e ng (l CI) (l CJ) (l CK) (l CL) (ctr CI) (ctr CJ) (ctr CK) (ctr CL)
  | F3c2e => init_int3c2e om ng (l CI) (l CJ) (l CK) (ctr CI) (ctr CJ) (ctr CK)
  | F3c1e => init_int3c1e ng (l CI) (l CJ) (l CK) (ctr CI) (ctr CJ) (ctr CK)
  | F2c2e => init_int2c2e om ng (l CI) (l CK) (ctr CI) (ctr CK)
  end.
Definition used (fam : gfam) (c : centre) : bool :=
  match fam, c with
  | (F1e | F1rinv | F1nuc | Fgrids), (CI | CJ) => true
  | (F2e | F2yp | F4c1e), _ => true
  | (F3c2e | F3c1e), (CI | CJ | CK) => true
  | F2c2e, (CI | CK) => true
  | _, _ => false
  end.
(** the extra orders a family asks for on each centre *)
Definition incr (ng : ngT) (c : centre) : Z := own c (IINC ng) (JINC ng) (KINC ng) (LINC ng).
