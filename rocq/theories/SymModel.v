(** SymModel.v — the primitive two-electron batch put together from its parts: initialiser, index
    table, 1D arrays, sum over the roots.  Real arithmetic; the root finders are parameters. *)
From Coq Require Import Reals.
From Verif Require Import Base EnvModel IdxModel RecModel Rec2RModel Rec2Kern GoutModel.
Local Open Scope R_scope.

(** g1e.c:565-576 CINTcommon_fac_sp *)
Definition fac_sp (l : Z) : R :=
  match l with
  | 0%Z => IZR 282094791773878143 / IZR (10 ^ 18)
  | 1%Z => IZR 488602511902919921 / IZR (10 ^ 18)
  | _ => 1
  end.

(** g2e.c:53-55 common_factor, M_PI and SQRTPI read as the exact numbers *)
Definition common_2e (li lj lk ll : Z) : R :=
  PI * PI * PI * 2 / sqrt PI * fac_sp li * fac_sp lj * fac_sp lk * fac_sp ll.

(** optimizer.c:325-331 and cint2e.c:205-213: exponent of the pair's Gaussian product and its centre *)
Definition pair_exp (a b : R) (A B : Z -> R) : R :=
  ((A 0%Z - B 0%Z) * (A 0%Z - B 0%Z) + (A 1%Z - B 1%Z) * (A 1%Z - B 1%Z) + (A 2%Z - B 2%Z) * (A 2%Z - B 2%Z)) * a * b / (a + b).
Definition pair_centre (a b : R) (A B : Z -> R) (ax : Z) : R := (a * A ax + b * B ax) / (a + b).

(** cint2e.c:57-270 restricted to one primitive per shell with unit coefficients and no screening:
    the body f_g0_2e / f_gout of the innermost loop with the arguments the loop passes.  The result
    None inside means that f_g0_2e returned 0.  The arrays are the loop's own regions of the scratch,
    uninitialised (leng = g_size*3*((1<<gbits)+1), cint2e.c:177).  The kernel is the generic
    recurrence and transfer; the unrolled kernels for small quartets are not used here. *)
Definition eri_batch (rys : Z -> R -> nodes) (srys : Z -> R -> R -> nodes) (omega cutoff : R)
    (li lj lk ll : Z) (ai aj ak al : R) (A B C D : Z -> R) : option (option (arr R)) :=
  let e := init_int2e (if Rlt_dec omega 0 then true else false) (mkng 0 0 0 0 0 1 1 1) li lj lk ll 1 1 1 1 in
  idx <- CINTg2e_index_xyz e (uninit (3 * nf e)) ;;
  let fac := common_2e li lj lk ll * (exp (- pair_exp ai aj A B) * exp (- pair_exp ak al C D)) in
  bg <- R_g0_2e rys srys (rys_kern e A B C D) e omega cutoff fac ai aj ak al
          (pair_centre ai aj A B) (pair_centre ak al C D)
          (if (li >? lj)%Z then A else B) (if (lk >? ll)%Z then C else D)
          (uninit (g_size e * 3 * 2)) ;;
  if fst bg then
    gout <- CINTgout2e 0 Rplus Rmult e idx (snd bg) true (uninit (nf e)) ;;
    Some (Some gout)
  else Some None.
