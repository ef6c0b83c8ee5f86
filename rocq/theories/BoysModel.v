(** BoysModel.v — the incomplete-gamma values behind the Rys roots (src/fmt.c).

    Doubles are real numbers here (exact arithmetic), [exp], [sqrt] and [erf] are the
    mathematical functions and SQRTPIE4 is sqrt(pi)/2 itself rather than its decimal.
    The table TURNOVER_POINT and the tolerance are the exact numbers of the source.
    The loops with a floating-point exit test are run with fuel; running out of fuel is
    [None], so a theorem that some fuel suffices is a termination claim. *)
From Coq Require Import Reals.
From Coquelicot Require Import Coquelicot.
From Verif Require Import Base.
Local Open Scope R_scope.

(** C's erf (library function, by its definition) *)
Definition erf (x : R) : R := 2 / sqrt PI * RInt (fun s => exp (- (s * s))) 0 x.
Definition erfc (x : R) : R := 1 - erf x.

(** fmt.c:23 *)
Definition SQRTPIE4 : R := sqrt PI / 2.
(** fmt.c:20 DBL_EPSILON * .5 and fmt.c:21 *)
Definition SML_FLOAT64 : R := / 2 ^ 53.
Definition SML_FLOAT80 : R := 2 / 10 ^ 20.
(** fmt.c:25 *)
Definition ERFC_bound : R := 200.

(** fmt.c:42-83, in units of 1e-12 *)
Definition turnover_e12 : list Z := [
  0; 0; 866025403784; 1295010032056; 1705493613097; 2106432965305; 2501471934009;
  2892473348218; 3280525047072; 3666320693281; 4050331230370; 4432891808508;
  4814249856864; 5194593501454; 5574069276051; 5952793645111; 6330860773135;
  6708347923415; 7085319307450; 7461828891625; 7837922483937; 8213639312398;
  8589013237349; 8964073695432; 9338846443746; 9713354153046; 10087616885450;
  10461652482700; 10835476884480; 11209104391280; 11582547883310; 11955819003740;
  12328928313260; 12701885421110; 13074699096730; 13447377365500; 13819927591100;
  14192356546750; 14564670477100; 14936875152120]%Z.
Definition TURNOVER_POINT : arr R :=
  mkarr 40 (fun i => option_map (fun z => IZR z / 10 ^ 12) (nth_error turnover_e12 (Z.to_nat i))).

(** [while (c s) s = b s] *)
Fixpoint while_ {S} (fuel : nat) (c : S -> bool) (b : S -> S) (s : S) : option S :=
  match fuel with
  | O => None
  | Datatypes.S n => if c s then while_ n c b (b s) else Some s
  end.

Definition Rltb (x y : R) : bool := if Rlt_dec x y then true else false.

(** fmt.c:186-204 fmt1_gamma_inc_like (and its long double copy, lines 228-246, which
    differs only in [sml]).  State of the series loop: (x, s, bi). *)
Definition fmt1_gamma_inc_like (sml : R) (fuel : nat) (f : arr R) (t : R) (m : Z) : option (arr R) :=
  let b := IZR m + / 2 in
  let e := / 2 * exp (- t) in
  let tol := sml * e in
  r <- while_ fuel (fun st => Rltb tol (fst (fst st)))
         (fun st => let '(x, s, bi) := st in
                    let x := x * (t / bi) in (x, s + x, bi + 1)) (e, e, b + 1) ;;
  let '(_, s, _) := r in
  f <- wr f m (s / b) ;;
  r <- fordown m 1 (fun i st => let '(f, b) := st in
         let b := b - 1 in
         v <- rd f i ;; f <- wr f (i - 1) ((e + t * v) / b) ;; Some (f, b)) (f, b) ;;
  Some (fst r).

(** fmt.c:206-226 gamma_inc_like and fmt.c:248-268 lgamma_inc_like *)
Definition gamma_inc_like (sml : R) (fuel : nat) (f : arr R) (t : R) (m : Z) : option (arr R) :=
  if Req_EM_T t 0 then
    f <- wr f 0 1 ;;
    for_ 1 (m + 1) (fun i f => wr f i (1 / IZR (2 * i + 1))) f
  else
    tp <- rd TURNOVER_POINT m ;;
    if Rlt_dec t tp then fmt1_gamma_inc_like sml fuel f t m
    else
      let tt := sqrt t in
      f <- wr f 0 (SQRTPIE4 / tt * erf tt) ;;
      let e := exp (- t) in
      let b := / 2 / t in
      for_ 1 (m + 1) (fun i f =>
        v <- rd f (i - 1) ;; wr f i (b * (IZR (2 * i - 1) * v - e))) f.

(** fmt.c:270-281 _pow: loop state (i, base, result) *)
Definition pow_ (fuel : nat) (base : R) (exponent : Z) : option R :=
  r <- while_ fuel (fun st => let '(i, _, _) := st in (i <=? exponent)%Z)
         (fun st => let '(i, base, result) := st in
            (Z.shiftl i 1, base * base,
             if negb (Z.land i exponent =? 0)%Z then result * base else result))
         (1%Z, base, 1) ;;
  Some (snd r).

(** fmt.c:310-339 fmt1_erfc_like (long double copy: 422-451).
    State of the series loop: (div, x1, delta, s, bi). *)
Definition fmt1_erfc_like (sml : R) (fuel : nat) (f : arr R) (t lower : R) (m : Z) : option (arr R) :=
  let lower2 := lower * lower in
  let b := IZR m + / 2 in
  let e := / 2 * exp (- t) in
  p <- pow_ fuel lower2 m ;;
  let e1 := / 2 * exp (- t * lower2) * lower * p in
  let x := e in
  let s := e - e1 in
  let tol := sml * Rabs s in
  r <- while_ fuel (fun st => let '(_, _, delta, _, _) := st in Rltb tol (Rabs delta))
         (fun st => let '(div, x1, _, s, bi) := st in
            let div := div * (t / bi) in
            let x1 := x1 * lower2 in
            let delta := (x - x1) * div in
            (div, x1, delta, s + delta, bi + 1)) (1, e1, s, s, b + 1) ;;
  let '(_, _, _, s, _) := r in
  let val := s / b in
  f <- wr f m val ;;
  r <- fordown m 1 (fun i st => let '(f, b, e1, val) := st in
         let b := b - 1 in
         let e1 := e1 / lower2 in
         let val := (e - e1 + t * val) / b in
         f <- wr f (i - 1) val ;; Some (f, b, e1, val)) (f, b, e1, val) ;;
  let '(f, _, _, _) := r in
  Some f.

(** fmt.c:340-379 fmt_erfc_like and fmt.c:381-420 fmt_lerfc_like *)
Definition fmt_erfc_like (sml : R) (fuel : nat) (f : arr R) (t lower : R) (m : Z) : option (arr R) :=
  if Req_EM_T lower 0 then gamma_inc_like sml fuel f t m
  else
    let lower2 := lower * lower in
    if Rlt_dec ERFC_bound (t * lower2) then
      for_ 0 (m + 1) (fun i f => wr f i 0) f
    else if Req_EM_T t 0 then
      f <- wr f 0 (1 - lower) ;;
      r <- for_ 1 (m + 1) (fun i st => let '(f, e1) := st in
             let e1 := e1 * lower2 in
             f <- wr f i ((1 - e1) / IZR (2 * i + 1)) ;; Some (f, e1)) (f, lower) ;;
      Some (fst r)
    else
      tp <- rd TURNOVER_POINT m ;;
      if Rlt_dec t tp then fmt1_erfc_like sml fuel f t lower m
      else
        let tt := sqrt t in
        let val := SQRTPIE4 / tt * (erfc (lower * tt) - erfc tt) in
        f <- wr f 0 val ;;
        let e := exp (- t) in
        let e1 := exp (- t * lower2) * lower in
        let b := / 2 / t in
        r <- for_ 0 m (fun i st => let '(f, val, e1) := st in
               let val := b * (IZR (2 * i + 1) * val - e + e1) in
               let e1 := e1 * lower2 in
               f <- wr f (i + 1) val ;; Some (f, val, e1)) (f, val, e1) ;;
        let '(f, _, _) := r in Some f.
