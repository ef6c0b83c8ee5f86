(** RysModel.v — the Rys root solvers: src/rys_wheeler.c, the RDK solver and the
    dispatchers of src/rys_roots.c.

    Doubles, long doubles and __float128 are real numbers (exact arithmetic, a division
    by zero has some value).  The library routines _CINTdiagonalize (eigh.c),
    _CINT_polynomial_roots (find_roots.c), the five fitted solvers rys_root1..5
    (rys_roots.c:269-1631, no table accesses) and CINTsr_rys_polyfits are parameters:
    arbitrary functions of what they are given.  Stack arrays are arrays of the declared
    size; pointers into one stack array are separate arrays that end where the next one
    begins, so an overrun of one into the other is an error here. *)
From Coq Require Import Reals.
From Verif Require Import Base BoysModel.
Local Open Scope R_scope.

Definition MXRYSROOTS : Z := 32.

(** The static tables of one precision (rys_wheeler.c:33-1653 double, 1654-3167 long
    double, 3719-6136 __float128), the extra order of Flocke's recipe (lines 22-26), the
    convergence threshold of the incomplete gamma series (fmt.c:20-29) and the threshold
    of the Wheeler solver.  Only the sizes of the tables matter in this file. *)
Record prec := mkprec {
  pALPHA : arr R; pBETA : arr R; pRN : arr R; pSN : arr R; pCOEF : arr R;
  pEXTRA : Z; pSML : R; pSING : R }.

(** rys_wheeler.c:3168-3233 JACOBI_COEF_ORDER is passed as [ord]. *)

(** rys_wheeler.c:3338-3358 naive_jacobi_moments (3530-3550, 6188-6208) *)
Definition naive_jacobi_moments (fuel : nat) (p : prec) (ord : arr Z) (n : Z) (t lower : R)
    (mus : arr R) : option (arr R) :=
  fmt <- fmt_erfc_like (pSML p) fuel (uninit (MXRYSROOTS * 2)) t lower (n - 1) ;;
  for_ 0 n (fun i mus =>
    let off := (i * (i + 1) / 2)%Z in
    s <- for_ 0 (i + 1) (fun j s =>
           k <- rd ord (off + j) ;;
           c <- rd (pCOEF p) (off + k) ;; f <- rd fmt k ;;
           Some (s + c * f)) 0 ;;
    wr mus i s) mus.

Definition SMALLX_LIMIT : R := 3 / 10 ^ 7.

(** rys_wheeler.c:3361-3394 flocke_jacobi_moments (3553-3585, 6211-6243).
    State of the Miller recursion: (mu1, mu2, mu0); mu0 is unset before the first step. *)
Definition flocke_jacobi_moments (fuel : nat) (p : prec) (ord : arr Z) (n : Z) (t : R)
    (mus : arr R) : option (arr R) :=
  if Rlt_dec t SMALLX_LIMIT then naive_jacobi_moments fuel p ord n t 0 mus
  else
    let t_inv := / 2 / t in
    let step (i : Z) (st : R * R * option R) : option (R * R * option R) :=
      let '(mu1, mu2, _) := st in
      r <- rd (pRN p) i ;; s <- rd (pSN p) i ;;
      let rn := IZR (2 * i + 3) * t_inv + r in
      let mu0 := (mu2 - rn * mu1) / s in
      Some (mu0, mu1, Some mu0) in
    st <- fordown (n - 1 + pEXTRA p) n step (1, 0, None) ;;
    r <- fordown (n - 1) 0 (fun i (a : arr R * (R * R * option R)) =>
           let '(mus, st) := a in
           st <- step i st ;;
           mu0 <- snd st ;;
           mus <- wr mus i mu0 ;; Some (mus, st)) (mus, st) ;;
    let '(mus, st) := r in
    mu0 <- snd st ;;
    let tt := sqrt t in
    let norm := SQRTPIE4 * erf tt / tt / mu0 in
    for_ 0 n (fun i mus => v <- rd mus i ;; wr mus i (v * norm)) mus.

(** rys_wheeler.c:3287-3336 laguerre_moments (3479-3528, 6137-6186); arrays (alpha, beta,
    moments), polynomial values (l00, l01, l10, l11) *)
Definition laguerre_moments (n : Z) (t lower : R) (alpha beta moments : arr R)
    : option (arr R * arr R * arr R) :=
  let tt := sqrt t in
  let t_inv := / 2 / t in
  let t2_inv := / 2 / (t * t) in
  let e0 := exp (- t) * t_inv in
  alpha <- wr alpha 0 t_inv ;;
  beta <- wr beta 0 0 ;;
  if Req_EM_T lower 0 then
    moments <- wr moments 0 (SQRTPIE4 / tt * erf tt) ;;
    moments <- wr moments 1 (- 1 * e0) ;;
    r <- for_ 1 (n - 1) (fun i st => let '(alpha, beta, moments, l00, l01) := st in
           alpha <- wr alpha i (IZR (i * 4 + 1) * t_inv) ;;
           beta <- wr beta i (IZR (i * (i * 2 - 1)) * t2_inv) ;;
           let fac0 := IZR (i * 4 - 1) * t_inv in
           let fac1 := IZR ((i - 1) * (i * 2 - 1)) * t2_inv in
           let l02 := (1 - fac0) * l01 - fac1 * l00 in
           moments <- wr moments (i + 1) (- l02 * e0) ;;
           Some (alpha, beta, moments, l01, l02)) (alpha, beta, moments, 0, 1) ;;
    let '(alpha, beta, moments, _, _) := r in Some (alpha, beta, moments)
  else
    let lower2 := lower * lower in
    let et := exp (- t * lower2) * lower * t_inv in
    moments <- wr moments 0 (SQRTPIE4 / tt * (erfc (lower * tt) - erfc tt)) ;;
    moments <- wr moments 1 (1 * et - 1 * e0) ;;
    r <- for_ 1 (n - 1) (fun i st => let '(alpha, beta, moments, l00, l01, l10, l11) := st in
           alpha <- wr alpha i (IZR (i * 4 + 1) * t_inv) ;;
           beta <- wr beta i (IZR (i * (i * 2 - 1)) * t2_inv) ;;
           let fac0 := IZR (i * 4 - 1) * t_inv in
           let fac1 := IZR ((i - 1) * (i * 2 - 1)) * t2_inv in
           let l12 := (lower2 - fac0) * l11 - fac1 * l10 in
           let l02 := (1 - fac0) * l01 - fac1 * l00 in
           moments <- wr moments (i + 1) (l12 * et - l02 * e0) ;;
           Some (alpha, beta, moments, l01, l02, l11, l12)) (alpha, beta, moments, 0, 1, 0, 1) ;;
    let '(alpha, beta, moments, _, _, _, _) := r in Some (alpha, beta, moments).

(** rys_wheeler.c:3404-3439 wheeler_recursion (3587-3623, 6245-6279; the order of the four
    terms differs).  The three work vectors rotate; [a] and [b] receive the recursion
    coefficients. *)
Definition wheeler_recursion (n : Z) (alpha beta moments a b : arr R) : option (arr R * arr R) :=
  al0 <- rd alpha 0 ;; m1 <- rd moments 1 ;; m0 <- rd moments 0 ;;
  let a0 := al0 + m1 / m0 in
  a <- wr a 0 a0 ;;
  b <- wr b 0 0 ;;
  let sm := uninit (n * 2) in
  let sk := uninit (MXRYSROOTS * 4 - n * 2) in
  sm <- for_ 2 (n * 2) (fun i sm => wr sm i 0) sm ;;
  r <- for_ 1 n (fun i st => let '(s0, sm, sk, a0, b0, a, b) := st in
         let nc := (2 * (n - i))%Z in
         sk <- for_ 0 nc (fun j sk =>
                x2 <- rd s0 (2 + j) ;; al <- rd alpha (i + j) ;; x1 <- rd s0 (1 + j) ;;
                xm <- rd sm (2 + j) ;; be <- rd beta (i + j) ;; x0 <- rd s0 j ;;
                wr sk j (x2 - (a0 - al) * x1 - b0 * xm + be * x0)) sk ;;
         al <- rd alpha i ;; s1 <- rd s0 1 ;; s00 <- rd s0 0 ;; k1 <- rd sk 1 ;; k0 <- rd sk 0 ;;
         let a1 := al - s1 / s00 + k1 / k0 in
         let b1 := k0 / s00 in
         a <- wr a i a1 ;;
         b <- wr b i b1 ;;
         Some (sk, s0, sm, a1, b1, a, b)) (moments, sm, sk, a0, 0, a, b) ;;
  let '(_, _, _, _, _, a, b) := r in Some (a, b).

Section Solvers.
  Variable fuel : nat.
  Variable ord : arr Z.
  (** _CINTdiagonalize(n, diag, off-diagonal): error code, eigenvalues, eigenvectors *)
  Variable diagonalize : Z -> (Z -> option R) -> (Z -> option R) -> Z * (Z -> R) * (Z -> R).
  (** _CINT_polynomial_roots(cs, nroots): error code and roots *)
  Variable polynomial_roots : (Z -> option R) -> Z -> Z * (Z -> R).
  (** A solver fills the caller's arrays [u], [w] and returns an error code. *)
  Definition res : Type := (Z * arr R * arr R)%type.

  (** fill the first n entries *)
  Definition fill (n : Z) (f : Z -> R) (a : arr R) : option (arr R) :=
    for_ 0 n (fun i a => wr a i (f i)) a.

  (** rys_wheeler.c:3441-3477 rys_wheeler_partial (3625-3665, 6281-6321).  [a], [b], [c0]
      are carved out of one array; [first] is first_seen. *)
  Definition rys_wheeler_partial (p : prec) (n : Z) (alpha beta moments u w : arr R) : option res :=
    mu0 <- rd moments 0 ;;
    ab <- wheeler_recursion n alpha beta moments (uninit n) (uninit n) ;;
    let '(a, b) := ab in
    r <- for_ 1 n (fun i st => let '(b, first, bad) := st in
           if bad : bool then Some st else
           bi <- rd b i ;;
           if Rlt_dec bi (pSING p) then
             if negb first || Rltb bi 0 then Some (b, first, true)
             else b <- wr b i (sqrt bi) ;; Some (b, false, false)
           else b <- wr b i (sqrt bi) ;; Some (b, first, false)) (b, true, false) ;;
    let '(b, _, bad) := r in
    if bad : bool then
      u <- fill n (fun _ => 0) u ;; w <- fill n (fun _ => 0) w ;; Some (n, u, w)
    else
      let '(error, eig, vec) := diagonalize n (acell a) (fun i => acell b (i + 1)) in
      c0 <- fill (n * n) vec (uninit (MXRYSROOTS * MXRYSROOTS + MXRYSROOTS * 2 - n * 2)) ;;
      u <- fill n eig u ;;
      uw <- for_ 0 n (fun i st => let '(u, w) := st in
              r <- rd u i ;; u <- wr u i (r / (1 - r)) ;;
              c <- rd c0 (i * n) ;; w <- wr w i (c * c * mu0) ;; Some (u, w)) (u, w) ;;
      let '(u, w) := uw in
      Some (error, u, w).

  (** rys_wheeler.c:3667-3676 CINTrys_laguerre (3692-3701, 6323-6332) *)
  Definition rys_laguerre (p : prec) (n : Z) (x lower : R) (u w : arr R) : option res :=
    r <- laguerre_moments (n * 2) x lower (uninit (n * 2)) (uninit (MXRYSROOTS * 6 - n * 4)) (uninit (n * 2)) ;;
    let '(alpha, beta, moments) := r in
    rys_wheeler_partial p n alpha beta moments u w.

  (** rys_wheeler.c:3678-3690 CINTrys_jacobi (3703-3715, 6334-6346) *)
  Definition rys_jacobi (p : prec) (n : Z) (x lower : R) (u w : arr R) : option res :=
    moments <- (if Req_EM_T lower 0 then flocke_jacobi_moments fuel p ord (n * 2) x (uninit (MXRYSROOTS * 2))
                else naive_jacobi_moments fuel p ord (n * 2) x lower (uninit (MXRYSROOTS * 2))) ;;
    rys_wheeler_partial p n (pALPHA p) (pBETA p) moments u w.

  (** rys_roots.c:1638-1643 SET_ZERO *)
  Definition SET_ZERO (a : arr R) (n start : Z) : option (arr R) :=
    for_ start n (fun k a => for_ 0 n (fun i a => wr a (i + k * n) 0) a) a.

  (** rys_roots.c:1645-1695 R_dsmit (R_lsmit 1801-1851, R_qsmit 1921-1971).  The middle of
      the loop state is [None] while the loop runs and the return value once it returned. *)
  Definition R_dsmit (cs fmt_ints : arr R) (n : Z) : option (arr R * Z) :=
    f1 <- rd fmt_ints 1 ;; f0 <- rd fmt_ints 0 ;; f2 <- rd fmt_ints 2 ;;
    let fac := - f1 / f0 in
    let tmp := f2 + fac * f1 in
    if Rle_dec tmp 0 then
      cs <- SET_ZERO cs n 1 ;; Some (cs, 1%Z)
    else
      let tmp := 1 / sqrt tmp in
      cs <- wr cs (0 + 0 * n) (1 / sqrt f0) ;;
      cs <- wr cs (0 + 1 * n) (fac * tmp) ;;
      cs <- wr cs (1 + 1 * n) tmp ;;
      r <- for_ 2 n (fun j st => let '(cs, ret, v) := st in
             match ret with
             | Some _ => Some st
             | None =>
               v <- for_ 0 j (fun k v => wr v k 0) v ;;
               fac <- rd fmt_ints (j + j) ;;
               r <- for_ 0 j (fun k st => let '(v, fac) := st in
                      dot <- for_ 0 (k + 1) (fun i dot =>
                               c <- rd cs (i + k * n) ;; f <- rd fmt_ints (i + j) ;; Some (dot + c * f)) 0 ;;
                      v <- for_ 0 (k + 1) (fun i v =>
                             x <- rd v i ;; c <- rd cs (i + k * n) ;; wr v i (x - dot * c)) v ;;
                      Some (v, fac - dot * dot)) (v, fac) ;;
               let '(v, fac) := r in
               if Rle_dec fac 0 then
                 cs <- SET_ZERO cs n j ;;
                 Some (cs, Some (if Req_EM_T fac 0 then 0%Z else j), v)
               else
                 let fac := 1 / sqrt fac in
                 cs <- wr cs (j + j * n) fac ;;
                 cs <- for_ 0 j (fun k cs => x <- rd v k ;; wr cs (k + j * n) (fac * x)) cs ;;
                 Some (cs, None, v)
             end) (cs, None, uninit MXRYSROOTS) ;;
      let '(cs, ret, _) := r in
      Some (cs, match ret with Some e => e | None => 0%Z end).

  (** rys_roots.c:1701-1758 _rdk_rys_roots *)
  Definition rdk_rys_roots (nroots : Z) (fmt_ints u w : arr R) : option res :=
    let nroots1 := (nroots + 1)%Z in
    f0 <- rd fmt_ints 0 ;;
    if Req_EM_T f0 0 then
      u <- fill nroots (fun _ => 0) u ;; w <- fill nroots (fun _ => 0) w ;; Some (0%Z, u, w)
    else if (nroots =? 1)%Z then
      f1 <- rd fmt_ints 1 ;;
      u <- wr u 0 (f1 / (f0 - f1)) ;; w <- wr w 0 f0 ;; Some (0%Z, u, w)
    else
      r <- R_dsmit (uninit (MXRYSROOTS + MXRYSROOTS * MXRYSROOTS - nroots1)) fmt_ints nroots1 ;;
      let '(cs, error) := r in
      if negb (error =? 0)%Z then Some (1%Z, u, w)
      else
        let '(error, rts) := polynomial_roots (acell cs) nroots in
        if negb (error =? 0)%Z then Some (error, u, w)
        else
          rt <- fill nroots rts (uninit nroots1) ;;
          uw <- for_ 0 nroots (fun k st => let '(u, w) := st in
                  root <- rd rt k ;;
                  if Req_EM_T root 1 then
                    u <- wr u k 0 ;; w <- wr w k 0 ;; Some (u, w)
                  else
                    dum <- for_ 1 nroots (fun j dum =>
                             let o := (j * nroots1)%Z in
                             p0 <- rd cs (o + j) ;;
                             poly <- for_ 1 (j + 1) (fun i p => c <- rd cs (o + (j - i)) ;; Some (p * root + c)) p0 ;;
                             Some (dum + poly * poly)) (1 / f0) ;;
                    u <- wr u k (root / (1 - root)) ;; w <- wr w k (1 / dum) ;; Some (u, w)) (u, w) ;;
          let '(u, w) := uw in Some (0%Z, u, w).

  (** rys_roots.c:1760-1769 CINTrys_schmidt; CINTlrys_schmidt (1853-1919) and
      CINTqrys_schmidt (1973-2038) inline the RDK solver with cells in other local arrays,
      at least as long. *)
  Definition rys_schmidt (p : prec) (nroots : Z) (x lower : R) (u w : arr R) : option res :=
    fmt_ints <- (if Req_EM_T lower 0 then gamma_inc_like (pSML p) fuel (uninit (MXRYSROOTS * 2)) x (nroots * 2)
                 else fmt_erfc_like (pSML p) fuel (uninit (MXRYSROOTS * 2)) x lower (nroots * 2)) ;;
    rdk_rys_roots nroots fmt_ints u w.

End Solvers.

(** ** The dispatchers
    The solver routines by name: Schmidt, Laguerre and Jacobi in three precisions, the
    fitted solvers and the polynomial fits. *)
Inductive P3 := DP | LP | QP.
Inductive solver := Schmidt (p : P3) | Laguerre (p : P3) | Jacobi (p : P3) | RootN | Polyfit.

Section Dispatch.
  Variable run : solver -> Z -> R -> R -> arr R -> arr R -> option res.

  (** State: a record of the solvers called so far with their return values (not in the
      C code, for stating C42), and the two output arrays. *)
  Definition dst : Type := (list (solver * Z) * arr R * arr R)%type.
  Definition call (s : solver) (n : Z) (x lower : R) (st : dst) : option (Z * dst) :=
    let '(log, u, w) := st in
    r <- run s n x lower u w ;;
    let '(e, u, w) := r in Some (e, (log ++ [(s, e)], u, w)).

  (** "if (error) error = CINTqrys_schmidt(...); return error;" *)
  Definition fallback (n : Z) (x lower : R) (r : Z * dst) : option (Z * dst) :=
    if negb (fst r =? 0)%Z then call (Schmidt QP) n x lower (snd r) else Some r.

  (** rys_roots.c:42-55 *)
  Definition segment_solve (n : Z) (x lower : R) (st : dst) (breakpoint : R)
      (fn1 fn2 : solver) : option (Z * dst) :=
    r <- (if Rle_dec x breakpoint then call fn1 n x lower st else call fn2 n x lower st) ;;
    fallback n x lower r.

  (** roots_for_x0.dat: six tables of 496 entries (root counts 1..31) *)
  Variables SMALLX_R0 SMALLX_R1 SMALLX_W0 SMALLX_W1 LARGEX_RT LARGEX_WW : arr R.
  Definition PIE4 : R := PI / 4.

  (** rys_roots.c:57-122 CINTrys_roots; a nonzero code is followed by exit *)
  Definition CINTrys_roots (nroots : Z) (x : R) (u w : arr R) : option (Z * dst) :=
    let off := (nroots * (nroots - 1) / 2)%Z in
    let st : dst := ([], u, w) in
    if Rle_dec x SMALLX_LIMIT then
      uw <- for_ 0 nroots (fun i st => let '(u, w) := st in
              r0 <- rd SMALLX_R0 (off + i) ;; r1 <- rd SMALLX_R1 (off + i) ;;
              u <- wr u i (r0 + r1 * x) ;;
              w0 <- rd SMALLX_W0 (off + i) ;; w1 <- rd SMALLX_W1 (off + i) ;;
              w <- wr w i (w0 + w1 * x) ;; Some (u, w)) (u, w) ;;
      Some (0%Z, ([], fst uw, snd uw))
    else if Rle_dec (35 + IZR nroots * 5) x then
      let t := sqrt (PIE4 / x) in
      uw <- for_ 0 nroots (fun i st => let '(u, w) := st in
              rt <- rd LARGEX_RT (off + i) ;;
              u <- wr u i (rt / (x - rt)) ;;
              ww <- rd LARGEX_WW (off + i) ;;
              w <- wr w i (ww * t) ;; Some (u, w)) (u, w) ;;
      Some (0%Z, ([], fst uw, snd uw))
    else
      match nroots with
      | 1 | 2 | 3 | 4 | 5 => call RootN nroots x 0 st
      | 6 | 7 => segment_solve nroots x 0 st 11 (Jacobi DP) (Schmidt DP)
      | 8 => segment_solve nroots x 0 st 11 (Jacobi DP) (Schmidt LP)
      | 9 => segment_solve nroots x 0 st 10 (Jacobi LP) (Laguerre LP)
      | 10 | 11 => segment_solve nroots x 0 st 18 (Jacobi LP) (Laguerre LP)
      | 12 => segment_solve nroots x 0 st 22 (Jacobi LP) (Laguerre LP)
      | _ => segment_solve nroots x 0 st 50 (Jacobi QP) (Laguerre QP)
      end%Z.

  (** rys_roots.c:127-147 *)
  Definition segment_solve1 (n : Z) (x lower : R) (st : dst) (lower_bp1 lower_bp2 breakpoint : R)
      (fn1 fn2 fn3 : solver) : option (Z * dst) :=
    if Rlt_dec lower lower_bp1 then
      r <- (if Rle_dec x breakpoint then call fn1 n x lower st else call fn2 n x lower st) ;;
      fallback n x lower r
    else if Rlt_dec lower lower_bp2 then
      r <- call fn3 n x lower st ;; fallback n x lower r
    else Some (1%Z, st).

  (** rys_roots.c:149-267 CINTsr_rys_roots; [fit] is WITH_POLYNOMIAL_FIT.  A nonzero code
      is followed by exit; the unsupported root counts exit straight away, also coded 1. *)
  Variable fit : bool.
  Definition with_fit (n : Z) (x lower : R) (st : dst) (k : dst -> option (Z * dst)) : option (Z * dst) :=
    if fit then
      if Rlt_dec lower (6 / 10) then
        r <- call Polyfit n x lower st ;;
        if (fst r =? 0)%Z then Some r else k (snd r)
      else k st
    else k st.

  Definition CINTsr_rys_roots (nroots : Z) (x lower : R) (u w : arr R) : option (Z * dst) :=
    let n := nroots in
    let st : dst := ([], u, w) in
    match nroots with
    | 1 => call (Schmidt DP) n x lower st
    | 2 => if Rlt_dec lower (99 / 100) then call (Schmidt DP) n x lower st
           else call (Jacobi QP) n x lower st
    | 3 => with_fit n x lower st (fun st =>
             if Rlt_dec lower (93 / 100) then call (Schmidt DP) n x lower st
             else if Rlt_dec lower (97 / 100) then segment_solve n x lower st 10 (Jacobi LP) (Laguerre LP)
             else call (Jacobi QP) n x lower st)
    | 4 => with_fit n x lower st (fun st =>
             if Rlt_dec lower (8 / 10) then call (Schmidt DP) n x lower st
             else if Rlt_dec lower (9 / 10) then segment_solve n x lower st 10 (Jacobi LP) (Laguerre LP)
             else call (Jacobi QP) n x lower st)
    | 5 => with_fit n x lower st (fun st =>
             if Rlt_dec lower (4 / 10) then segment_solve n x lower st 50 (Schmidt DP) (Laguerre LP)
             else if Rlt_dec lower (8 / 10) then segment_solve n x lower st 10 (Jacobi LP) (Laguerre LP)
             else call (Jacobi QP) n x lower st)
    | 6 => if Rlt_dec lower (25 / 100) then segment_solve n x lower st 60 (Schmidt DP) (Laguerre LP)
           else if Rlt_dec lower (8 / 10) then segment_solve n x lower st 10 (Jacobi LP) (Laguerre LP)
           else call (Jacobi QP) n x lower st
    | 7 => segment_solve1 n x lower st (5 / 10) 1 60 (Jacobi LP) (Laguerre LP) (Jacobi QP)
    | 8 | 9 | 10 => segment_solve1 n x lower st (15 / 100) 1 60 (Jacobi QP) (Laguerre QP) (Jacobi QP)
    | 11 | 12 => segment_solve1 n x lower st (15 / 100) 1 60 (Jacobi QP) (Laguerre QP) (Jacobi QP)
    | 13 | 14 => segment_solve1 n x lower st (25 / 100) 1 60 (Jacobi QP) (Laguerre QP) (Jacobi QP)
    | 15 | 16 => segment_solve1 n x lower st (25 / 100) (75 / 100) 60 (Jacobi QP) (Laguerre QP) (Jacobi QP)
    | 17 => r <- segment_solve1 n x lower st (25 / 100) (65 / 100) 60 (Jacobi QP) (Laguerre QP) (Jacobi QP) ;;
            Some (1, snd r)
    | 18 => r <- segment_solve1 n x lower st (15 / 100) (65 / 100) 60 (Jacobi QP) (Laguerre QP) (Jacobi QP) ;;
            Some (1, snd r)
    | 19 => segment_solve1 n x lower st (15 / 100) (55 / 100) 60 (Jacobi QP) (Laguerre QP) (Jacobi QP)
    | 20 | 21 => segment_solve1 n x lower st (25 / 100) (45 / 100) 60 (Jacobi QP) (Laguerre QP) (Jacobi QP)
    | 22 | 23 | 24 => segment_solve1 n x lower st (25 / 100) (35 / 100) 60 (Jacobi QP) (Laguerre QP) (Jacobi QP)
    | _ => Some (1, st)
    end%Z.
End Dispatch.

(** The solvers behind the names (rys_roots.c:34-38: without quadmath.h the third precision
    is the second). *)
Section Library.
  Variable fuel : nat.
  Variable ord : arr Z.
  Variable diagonalize : Z -> (Z -> option R) -> (Z -> option R) -> Z * (Z -> R) * (Z -> R).
  Variable polynomial_roots : (Z -> option R) -> Z -> Z * (Z -> R).
  (** rys_root1 .. rys_root5: roots and weights; they return 0 *)
  Variable rys_root : Z -> R -> (Z -> R) * (Z -> R).
  (** CINTsr_rys_polyfits: error code, roots and weights *)
  Variable polyfits : Z -> R -> R -> Z * (Z -> R) * (Z -> R).
  Variable tabs : P3 -> prec.

  Definition library (s : solver) (n : Z) (x lower : R) (u w : arr R) : option res :=
    match s with
    | Schmidt p => rys_schmidt fuel polynomial_roots (tabs p) n x lower u w
    | Laguerre p => rys_laguerre diagonalize (tabs p) n x lower u w
    | Jacobi p => rys_jacobi fuel ord diagonalize (tabs p) n x lower u w
    | RootN =>
        u <- fill n (fst (rys_root n x)) u ;;
        w <- fill n (snd (rys_root n x)) w ;; Some (0%Z, u, w)
    | Polyfit =>
        let '(e, r, v) := polyfits n x lower in
        u <- fill n r u ;; w <- fill n v w ;; Some (e, u, w)
    end.
End Library.
