(** OvfModel.v — the size computations of the drivers in C integer types.

    CacheModel.v has the same formulas over unbounded integers; here every expression is
    evaluated with C's rules: the usual arithmetic conversions, undefined behaviour on
    signed overflow ([None]), arithmetic modulo 2^64 in size_t, wrap-around when a value is
    stored in a narrower signed type (what all supported compilers do).  The types:
    [FINT] is [int] or, with -DI8, [int64_t]; [CACHE_SIZE_T] is [FINT] or, with
    -DCACHE_SIZE_I8, [int64_t] (include/cint.h.in 10-24); size_t is 64 bits. *)
From Verif Require Import Base BasModel EnvModel CacheModel.
Local Open Scope Z_scope.

Inductive ct := I32 | I64 | U64.

Definition top (t : ct) : Z := match t with I32 => 2 ^ 31 | I64 => 2 ^ 63 | U64 => 2 ^ 64 end.

(** Conversion to a type: signed types wrap. *)
Definition conv (t : ct) (z : Z) : Z :=
  match t with
  | I32 => (z + 2 ^ 31) mod 2 ^ 32 - 2 ^ 31
  | I64 => (z + 2 ^ 63) mod 2 ^ 64 - 2 ^ 63
  | U64 => z mod 2 ^ 64
  end.

(** Result of an arithmetic operation of type [t]. *)
Definition result (t : ct) (z : Z) : option Z :=
  match t with
  | U64 => Some (z mod 2 ^ 64)
  | _ => if (- top t <=? z) && (z <? top t) then Some z else None
  end.

(** Usual arithmetic conversions. *)
Definition common (a b : ct) : ct :=
  match a, b with
  | U64, _ | _, U64 => U64
  | I64, _ | _, I64 => I64
  | _, _ => I32
  end.

Inductive cexp :=
  | V (t : ct) (z : Z)          (* variable or field of type t with value z *)
  | K (z : Z)                   (* integer constant, type int *)
  | Shl1 (z : Z)                (* 1 << z *)
  | Add (a b : cexp)
  | Mul (a b : cexp)
  | Max (a b : cexp).           (* the MAX macro: ((X)<(Y)?(Y):(X)) *)

Fixpoint ty_of (e : cexp) : ct :=
  match e with
  | V t _ => t
  | K _ | Shl1 _ => I32
  | Add a b | Mul a b | Max a b => common (ty_of a) (ty_of b)
  end.

Fixpoint ev (e : cexp) : option Z :=
  match e with
  | V _ z | K z => Some z
  | Shl1 z => if (0 <=? z) && (z <? 31) then Some (2 ^ z) else None
  | Add a b =>
      let t := common (ty_of a) (ty_of b) in
      x <- ev a ;; y <- ev b ;; result t (conv t x + conv t y)
  | Mul a b =>
      let t := common (ty_of a) (ty_of b) in
      x <- ev a ;; y <- ev b ;; result t (conv t x * conv t y)
  | Max a b =>
      let t := common (ty_of a) (ty_of b) in
      x <- ev a ;; y <- ev b ;; Some (Z.max (conv t x) (conv t y))
  end.

(** [T v = e;] *)
Definition store (t : ct) (e : cexp) : option Z := z <- ev e ;; Some (conv t z).

Notation "a '+!' b" := (Add a b) (at level 50, left associativity).
Notation "a '*!' b" := (Mul a b) (at level 40, left associativity).

Section Types.
(** The build: FINT and CACHE_SIZE_T. *)
Context (F C : ct).
Notation f z := (V F z).
Definition INT32_MAX : Z := 2 ^ 31 - 1.
Definition OF_CMPLX : Z := 2.

(** [envs->g_size*3*((1<<envs->gbits)+1)] *)
Definition e_leng (e : envs) : cexp := f (g_size e) *! K 3 *! (Shl1 (gbits e) +! K 1).

(** int1e_cache_size, cint1e.c:163-183 (also the query of CINT1e_drv 191-193,
    CINT1e_spinor_drv 242-244, CINT2c2e_drv, cint2c2e.c:244-246) *)
Definition q_int1e (e : envs) (ip jp : Z) : option Z :=
  nc <- store F (f (nf e) *! f (i_ctr e) *! f (j_ctr e)) ;;
  n_comp <- store F (f (ncomp_e1 e) *! f (ncomp_tensor e)) ;;
  leng <- store F (e_leng e) ;;
  lenj <- store F (f (nf e) *! f nc *! f n_comp) ;;
  leni <- store F (f (nf e) *! f (i_ctr e) *! f n_comp) ;;
  len0 <- store F (f (nf e) *! f n_comp) ;;
  pdata_size <- store F (f ip *! f jp *! K 5 +! f ip *! f (i_ctr e) +! f jp *! f (j_ctr e)
                         +! (f ip +! f jp) *! K 2 +! f (nf e) *! K 3) ;;
  cache_size <- store F (Max (f nc *! f n_comp +! f leng +! f lenj +! f leni +! f len0 +! f pdata_size)
                             (f nc *! f n_comp +! f (nf e) *! K 8 *! K OF_CMPLX)) ;;
  Some (conv C cache_size).

(** PAIRDATA_NON0IDX_SIZE, cint2e.c:779-792; [nf] is the size_t local of the driver *)
Definition e_prims_2e (e : envs) (ip jp kp lp : Z) : cexp :=
  (f ip *! f jp +! f kp *! f lp) *! K 5 +! f ip *! f (i_ctr e) +! f jp *! f (j_ctr e)
  +! f kp *! f (k_ctr e) +! f lp *! f (l_ctr e) +! (f ip +! f jp +! f kp +! f lp) *! K 2.
Definition e_pdata_2e (e : envs) (nfU ip jp kp lp : Z) : cexp :=
  e_prims_2e e ip jp kp lp +! V U64 nfU *! K 3.

(** CINT2e_drv, cint2e.c:797-806: the locals nf, nc, n_comp and the size_t cache_size *)
Definition size_2e (e : envs) (ip jp kp lp : Z) : option Z :=
  nfU <- store U64 (f (nf e)) ;;
  nc <- store U64 (V U64 nfU *! f (i_ctr e) *! f (j_ctr e) *! f (k_ctr e) *! f (l_ctr e)) ;;
  n_comp <- store F (f (ncomp_e1 e) *! f (ncomp_e2 e) *! f (ncomp_tensor e)) ;;
  pdata_size <- store U64 (e_pdata_2e e nfU ip jp kp lp) ;;
  leng <- store U64 (e_leng e) ;;
  len0 <- store U64 (V U64 nfU *! f n_comp) ;;
  store U64 (Max (V U64 leng +! V U64 len0 +! V U64 nc *! f n_comp *! K 3 +! V U64 pdata_size)
                 (V U64 nc *! f n_comp +! V U64 nfU *! K 4)).

(** cint2e.c:807-815: [#if !defined(I8) && !defined(CACHE_SIZE_I8)] refuse with 0 *)
Definition q_int2e (e : envs) (ip jp kp lp : Z) : option Z :=
  s <- size_2e e ip jp kp lp ;;
  match F, C with
  | I32, I32 => Some (conv C (if INT32_MAX <=? s then 0 else s))
  | _, _ => Some (conv C s)
  end.

(** cint2e.c:818-826: [malloc(sizeof(double)*cache_size)] *)
Definition a_int2e (e : envs) (ip jp kp lp : Z) : option Z :=
  s <- size_2e e ip jp kp lp ;; store U64 (V U64 8 *! V U64 s).

(** CINT2e_spinor_drv, cint2e.c:882-894; [ni], [nj] = counts[0], counts[1] *)
Definition size_2e_spinor (e : envs) (ni nj ip jp kp lp : Z) : option Z :=
  nfU <- store U64 (f (nf e)) ;;
  nc <- store U64 (V U64 nfU *! f (i_ctr e) *! f (j_ctr e) *! f (k_ctr e) *! f (l_ctr e)) ;;
  n_comp <- store F (f (ncomp_e1 e) *! f (ncomp_e2 e) *! f (ncomp_tensor e)) ;;
  n1 <- store F (f ni *! f (nfk e) *! f (k_ctr e) *! f (nfl e) *! f (l_ctr e) *! f nj) ;;
  pdata_size <- store U64 (e_pdata_2e e nfU ip jp kp lp) ;;
  leng <- store U64 (e_leng e) ;;
  len0 <- store U64 (V U64 nfU *! f n_comp) ;;
  store U64 (Max (V U64 leng +! V U64 len0 +! V U64 nc *! f n_comp *! K 3 +! V U64 pdata_size)
                 (V U64 nc *! f n_comp +! f n1 *! f (ncomp_e2 e) *! K OF_CMPLX
                  +! V U64 nfU *! K 32 *! K OF_CMPLX)).
Definition q_int2e_spinor (e : envs) (ni nj ip jp kp lp : Z) : option Z :=
  s <- size_2e_spinor e ni nj ip jp kp lp ;;
  match F, C with
  | I32, I32 => Some (conv C (if INT32_MAX <=? s then 0 else s))
  | _, _ => Some (conv C s)
  end.

(** PAIRDATA_NON0IDX_SIZE, cint3c2e.c:544-554 *)
Definition e_pdata_3c2e (e : envs) (ip jp kp : Z) : cexp :=
  f ip *! f jp *! K 5 +! f ip *! f (i_ctr e) +! f jp *! f (j_ctr e) +! f kp *! f (k_ctr e)
  +! (f ip +! f jp) *! K 2 +! f kp +! f (nf e) *! K 3 +! K 16.

(** CINT3c2e_drv, query, cint3c2e.c:559-569 *)
Definition q_int3c2e (e : envs) (ip jp kp : Z) : option Z :=
  nc <- store U64 (f (nf e) *! f (i_ctr e) *! f (j_ctr e) *! f (k_ctr e)) ;;
  n_comp <- store F (f (ncomp_e1 e) *! f (ncomp_tensor e)) ;;
  pdata_size <- store F (e_pdata_3c2e e ip jp kp) ;;
  leng <- store C (e_leng e) ;;
  len0 <- store C (f (nf e) *! f n_comp) ;;
  store C (Max (V C leng +! V C len0 +! V U64 nc *! f n_comp *! K 3 +! f pdata_size)
               (V U64 nc *! f n_comp +! f (nf e) *! K 3)).

(** CINT3c2e_drv, own allocation, cint3c2e.c:571-579 *)
Definition a_int3c2e (e : envs) (ip jp kp : Z) : option Z :=
  nc <- store U64 (f (nf e) *! f (i_ctr e) *! f (j_ctr e) *! f (k_ctr e)) ;;
  n_comp <- store F (f (ncomp_e1 e) *! f (ncomp_tensor e)) ;;
  pdata_size <- store F (e_pdata_3c2e e ip jp kp) ;;
  leng <- store U64 (e_leng e) ;;
  len0 <- store U64 (f (nf e) *! f n_comp) ;;
  s <- store U64 (Max (V U64 leng +! V U64 len0 +! V U64 nc *! f n_comp *! K 3 +! f pdata_size)
                      (V U64 nc *! f n_comp +! f (nf e) *! K 3)) ;;
  store U64 (V U64 8 *! V U64 s).

(** CINT3c2e_spinor_drv, query, cint3c2e.c:639-648: nc is a FINT here *)
Definition q_int3c2e_spinor (e : envs) (ip jp kp : Z) : option Z :=
  nc <- store F (f (nf e) *! f (i_ctr e) *! f (j_ctr e) *! f (k_ctr e)) ;;
  n_comp <- store F (f (ncomp_e1 e) *! f (ncomp_e2 e) *! f (ncomp_tensor e)) ;;
  pdata_size <- store F (e_pdata_3c2e e ip jp kp) ;;
  leng <- store U64 (e_leng e) ;;
  len0 <- store U64 (f (nf e) *! f n_comp) ;;
  s <- store U64 (Max (V U64 leng +! V U64 len0 +! f nc *! f n_comp *! K 3 +! f pdata_size)
                      (f nc *! f n_comp +! f (nf e) *! K 14 *! K OF_CMPLX)) ;;
  Some (conv C s).

(** CINT3c1e_drv, cint3c1e.c:365-389: cache_size is a FINT in both places *)
Definition size_3c1e (e : envs) (ip jp kp : Z) : option Z :=
  nc <- store F (f (nf e) *! f (i_ctr e) *! f (j_ctr e) *! f (k_ctr e)) ;;
  n_comp <- store F (f (ncomp_e1 e) *! f (ncomp_tensor e)) ;;
  pdata_size <- store F (f ip *! f (i_ctr e) +! f jp *! f (j_ctr e) +! f kp *! f (k_ctr e)
                         +! f (nf e) *! K 3) ;;
  leng <- store U64 (e_leng e) ;;
  len0 <- store U64 (f (nf e) *! f n_comp) ;;
  store F (Max (V U64 leng +! V U64 len0 +! f nc *! f n_comp *! K 4 +! f pdata_size)
               (f nc *! f n_comp +! f (nf e) *! K 3)).
Definition q_int3c1e (e : envs) (ip jp kp : Z) : option Z :=
  s <- size_3c1e e ip jp kp ;; Some (conv C s).
(** [malloc(sizeof(double)*cache_size)] with a FINT cache_size *)
Definition a_int3c1e (e : envs) (ip jp kp : Z) : option Z :=
  s <- size_3c1e e ip jp kp ;; store U64 (V U64 8 *! f s).

(** CINT4c1e_drv, query, cint4c1e.c:265-276 *)
Definition q_int4c1e (e : envs) (ip jp kp lp : Z) : option Z :=
  nc <- store U64 (f (nf e) *! f (i_ctr e) *! f (j_ctr e) *! f (k_ctr e) *! f (l_ctr e)) ;;
  n_comp <- store F (f (ncomp_e1 e) *! f (ncomp_e2 e) *! f (ncomp_tensor e)) ;;
  pdata_size <- store F (f ip *! f (i_ctr e) +! f jp *! f (j_ctr e) +! f kp *! f (k_ctr e)
                         +! f lp *! f (l_ctr e) +! f (nf e) *! K 3) ;;
  leng <- store C (e_leng e) ;;
  len0 <- store C (f (nf e) *! f n_comp) ;;
  store C (Max (V C leng +! V C len0 +! V U64 nc *! f n_comp *! K 3 +! f pdata_size)
               (V U64 nc *! f n_comp +! f (nf e) *! K 32 *! K OF_CMPLX)).

(** int1e_grids_cache_size, cint1e_grids.c:204-229, returned through CACHE_SIZE_T (237-239) *)
Definition q_grids (e : envs) (ngrids ip jp : Z) : option Z :=
  nc <- store F (f ngrids *! f (nf e) *! f (i_ctr e) *! f (j_ctr e)) ;;
  n_comp <- store F (f (ncomp_e1 e) *! f (ncomp_tensor e)) ;;
  pdata_size <- store F (f ip *! f jp *! K 5 +! f ip *! f (i_ctr e) +! f jp *! f (j_ctr e)
                         +! (f ip +! f jp) *! K 2 +! f (nf e) *! K 3) ;;
  leng <- store U64 (e_leng e) ;;
  len0 <- store U64 (K GRID_BLKSIZE *! f (nf e) *! f n_comp) ;;
  leni <- store U64 (V U64 len0 *! f (i_ctr e)) ;;
  lenj <- store U64 (V U64 leni *! f (j_ctr e)) ;;
  s <- store U64 (Max (f nc *! f n_comp +! V U64 leng +! V U64 len0 +! V U64 leni +! V U64 lenj
                       +! f pdata_size +! K GRID_BLKSIZE *! Max (f n_comp) (f (nrys_roots e) +! K 10))
                      (f nc *! f n_comp +! K GRID_BLKSIZE *! f (nf e) *! K 8 *! K OF_CMPLX)) ;;
  t <- ev (V U64 s +! K 32) ;;
  Some (conv C t).

(** The distance of component [n] in the output, [nout*n] with [FINT nout = dims[0]*...]:
    cint2e.c:853-857, cint4c1e.c (same), cint3c2e.c:605-609, cint1e.c:216-220 *)
Definition off4 (d0 d1 d2 d3 n : Z) : option Z :=
  nout <- store F (f d0 *! f d1 *! f d2 *! f d3) ;; ev (f nout *! f n).
Definition off3 (d0 d1 d2 n : Z) : option Z :=
  nout <- store F (f d0 *! f d1 *! f d2) ;; ev (f nout *! f n).
Definition off2 (d0 d1 n : Z) : option Z :=
  nout <- store F (f d0 *! f d1) ;; ev (f nout *! f n).

(** [envs->nf] and [envs->g_size] of the four-index initialiser, g2e.c:52, 141 *)
Definition nf_4c (nfi nfk nfl nfj : Z) : option Z := store F (f nfi *! f nfk *! f nfl *! f nfj).
Definition g_size_4c (nroots dli dlk dll dlj : Z) : option Z :=
  store F (f nroots *! f dli *! f dlk *! f dll *! f dlj).
End Types.
