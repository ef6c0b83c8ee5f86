(** Rec2RModel.v — the routines that turn exponents, centres and quadrature nodes into the
    two-electron recurrence coefficients and run the recurrences (real-valued model).
    Not modelled here: the root finders themselves; they are parameters returning (u, w). *)
From Coq Require Import Reals.
From Verif Require Import Base EnvModel RecModel.
Local Open Scope R_scope.

Definition nodes := ((Z -> R) * (Z -> R))%type.

(** g2e.c:4494-4540 (the same text in g2e_f12.c:212-250, 309-347) *)
Definition rys_coef (aij akl : R) (u : Z -> R) (rij rkl rx_ij rx_kl : Z -> R) : @rys2e R :=
  let a1 := aij * akl in
  let a0 := a1 / (aij + akl) in
  let u2 n := a0 * u n in
  let tmp4 n := / 2 / (u2 n * (aij + akl) + a1) in
  let tmp5 n := u2 n * tmp4 n in
  let tmp1 n := 2 * tmp5 n in
  let tmp2 n := tmp1 n * akl in
  let tmp3 n := tmp1 n * aij in
  mkrys2e
    (fun ax n => (rij ax - rx_ij ax) - tmp2 n * (rij ax - rkl ax))
    (fun ax n => (rkl ax - rx_kl ax) + tmp3 n * (rij ax - rkl ax))
    (fun n => tmp5 n + tmp4 n * akl)
    (fun n => tmp5 n + tmp4 n * aij)
    (fun n => tmp5 n).

(** the root finder stores its weights in gz[lo .. lo+cnt) *)
Definition put_w (gs lo cnt : Z) (w : Z -> R) (g : arr R) : option (arr R) :=
  for_ 0 cnt (fun n g => wr g (gs * 2 + (lo + n))%Z (w n)) g.
(** w[irys] *= f for irys in [lo, hi) *)
Definition scale_w (gs lo hi : Z) (f : R) (g : arr R) : option (arr R) :=
  for_ lo hi (fun n g => v <- rd g (gs * 2 + n)%Z ;; wr g (gs * 2 + n)%Z (v * f)) g.

(** g2e.c:4476-4481 and 4483-4544: the part after the nodes are known.  [kern] is
    envs->f_g0_2d4d. *)
Definition finish_2e (kern : @rys2e R -> arr R -> option (arr R)) (e : envs) (fac1 aij akl : R)
    (u rij rkl rx_ij rx_kl : Z -> R) (g : arr R) : option (bool * arr R) :=
  if (g_size e =? 1)%Z then
    g <- wr g 0%Z 1 ;;
    g <- wr g 1%Z 1 ;;
    v <- rd g 2%Z ;;
    g <- wr g 2%Z (v * fac1) ;;
    Some (true, g)
  else
    g <- scale_w (g_size e) 0 (nrys_roots e) fac1 g ;;
    g <- kern (rys_coef aij akl u rij rkl rx_ij rx_kl) g ;;
    Some (true, g).

Definition rr3 (rij rkl : Z -> R) : R :=
  (rij 0%Z - rkl 0%Z) * (rij 0%Z - rkl 0%Z) + (rij 1%Z - rkl 1%Z) * (rij 1%Z - rkl 1%Z)
  + (rij 2%Z - rkl 2%Z) * (rij 2%Z - rkl 2%Z).

(** u[irys]*theta/(u[irys]+1-u[irys]*theta), g2e.c:4456-4457, 4473-4474 *)
Definition damp (theta u : R) : R := u * theta / (u + 1 - u * theta).

(** g2e.c:4425-4545 CINTg0_2e.  The flag is the return value (false: 0, nothing was written).
    The local buffer u and the arrays of Rys2eT hold MXRYSROOTS = 32 entries: more roots overrun
    them.  EXPCUTOFF_SR = 40. *)
Definition R_g0_2e (rys : Z -> R -> nodes) (srys : Z -> R -> R -> nodes)
    (kern : @rys2e R -> arr R -> option (arr R)) (e : envs)
    (omega cutoff fac ai aj ak al : R) (rij rkl rx_ij rx_kl : Z -> R) (g : arr R) : option (bool * arr R) :=
  let gs := g_size e in
  let nroots := nrys_roots e in
  if (32 <? nroots)%Z then None else
  let aij := ai + aj in
  let akl := ak + al in
  let a1 := aij * akl in
  let a0 := a1 / (aij + akl) in
  let fac1 := sqrt (a0 / (a1 * a1 * a1)) * fac in
  let x := a0 * rr3 rij rkl in
  if Req_EM_T omega 0 then
    let '(u, w) := rys nroots x in
    g <- put_w gs 0 nroots w g ;;
    finish_2e kern e fac1 aij akl u rij rkl rx_ij rx_kl g
  else
    let theta := omega * omega / (omega * omega + a0) in
    if Rlt_dec omega 0 then
      if Rlt_dec cutoff (theta * x) then Some (false, g) else
      if Rlt_dec 40 (theta * x) then Some (false, g) else
      let rorder := rys_order e in
      if (rorder =? nroots)%Z then
        let '(u, w) := srys nroots x (sqrt theta) in
        g <- put_w gs 0 nroots w g ;;
        finish_2e kern e fac1 aij akl u rij rkl rx_ij rx_kl g
      else
        let sqrt_theta := - sqrt theta in
        let '(u1, w1) := rys rorder x in
        g <- put_w gs 0 rorder w1 g ;;
        let '(u2, w2) := rys rorder (theta * x) in
        g <- put_w gs rorder rorder w2 g ;;
        if (gs =? 2)%Z then
          g <- wr g 0%Z 1 ;;
          g <- wr g 1%Z 1 ;;
          g <- wr g 2%Z 1 ;;
          g <- wr g 3%Z 1 ;;
          v <- rd g 4%Z ;;
          g <- wr g 4%Z (v * fac1) ;;
          v <- rd g 5%Z ;;
          g <- wr g 5%Z (v * (fac1 * sqrt_theta)) ;;
          Some (true, g)
        else
          g <- scale_w gs rorder nroots sqrt_theta g ;;
          finish_2e kern e fac1 aij akl
            (fun n => if (n <? rorder)%Z then u1 n else damp theta (u2 (n - rorder)%Z))
            rij rkl rx_ij rx_kl g
    else
      let '(u, w) := rys nroots (x * theta) in
      g <- put_w gs 0 nroots w g ;;
      finish_2e kern e (fac1 * sqrt theta) aij akl (fun n => damp theta (u n)) rij rkl rx_ij rx_kl g.

(** g2e_f12.c:162-254 CINTg0_2e_yp ([yp] = true) and 257-351 CINTg0_2e_stg ([yp] = false); the two
    differ in the factor applied to the weights. *)
Definition R_g0_2e_f12 (yp : bool) (rys : Z -> R -> nodes) (stg : Z -> R -> R -> nodes)
    (kern : @rys2e R -> arr R -> option (arr R)) (e : envs)
    (zeta fac ai aj ak al : R) (rij rkl rx_ij rx_kl : Z -> R) (g : arr R) : option (bool * arr R) :=
  let gs := g_size e in
  let nroots := nrys_roots e in
  if (32 <? nroots)%Z then None else
  let aij := ai + aj in
  let akl := ak + al in
  let a1 := aij * akl in
  let a0 := a1 / (aij + akl) in
  let fac1 := fac / (sqrt (aij + akl) * a1) in
  let x := a0 * rr3 rij rkl in
  if Rlt_dec 0 zeta then
    let ua := / 4 * zeta * zeta / a0 in
    let '(u, w) := stg nroots x ua in
    g <- put_w gs 0 nroots w g ;;
    g <- for_ 0 nroots (fun n g =>
           v <- rd g (gs * 2 + n)%Z ;;
           wr g (gs * 2 + n)%Z (if yp then v * u n else v * ((1 - u n) * (2 * ua / zeta)))) g ;;
    finish_2e kern e fac1 aij akl (fun n => u n / (1 - u n)) rij rkl rx_ij rx_kl g
  else
    let '(u, w) := rys nroots x in
    g <- put_w gs 0 nroots w g ;;
    finish_2e kern e fac1 aij akl u rij rkl rx_ij rx_kl g.
