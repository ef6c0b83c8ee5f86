(** OperModel.v — what the drivers of two-electron integrals put together, by family. *)
From Coq Require Import Reals.
From Verif Require Import Base EnvModel IdxModel OpSpec RecModel Rec1Final UnrKern Rec2RModel IntgModel IntgSpec.
Local Open Scope R_scope.

(** the index function: cint2e.c:157 and cint3c2e.c:128 call CINTg2e_index_xyz, cint2c2e.c:101 calls
    CINTg1e_index_xyz *)
Definition index_fun (fam : gfam) : envs -> arr Z -> option (arr Z) :=
  match fam with F2c2e => CINTg1e_index_xyz | _ => CINTg2e_index_xyz end.

(** rx_in_rijrx (g2e.c:139-151, g3c2e.c:107-119, g2c2e.c:94) *)
Definition rx_ij (fam : gfam) (ng : ngT) (l : centre -> Z) (A : centre -> Z -> R) : Z -> R :=
  match fam with
  | F2c2e => A CI
  | _ => if (l CI + IINC ng >? l CJ + JINC ng)%Z then A CI else A CJ
  end.
(** rx_in_rklrx (g2e.c:125-137, g3c2e.c:105, g2c2e.c:93) *)
Definition rx_kl (fam : gfam) (ng : ngT) (l : centre -> Z) (A : centre -> Z -> R) : Z -> R :=
  match fam with
  | F2c2e | F3c2e => A CK
  | _ => if (l CK + KINC ng >? l CL + LINC ng)%Z then A CK else A CL
  end.
(** envs->f_g0_2d4d with envs->rirj and envs->rkrl (g2e.c:125-171, g3c2e.c:101-130 with rkrl = rk,
    g2c2e.c:87-103 with rirj = ri and rkrl = rk) *)
Definition kernel (fam : gfam) (ng : ngT) (l : centre -> Z) (e : envs) (A : centre -> Z -> R) (bc : @rys2e R) : arr R -> option (arr R) :=
  let rirj := base_diff Rminus (l CI + IINC ng >? l CJ + JINC ng)%Z (A CI) (A CJ) in
  match fam with
  | F2c2e => f_g0_2d4d_2c 1 Rplus Rmult IZR e bc (A CI) (A CK)
  | F3c2e => f_g0_2d4d 1 Rplus Rmult IZR e bc rirj (A CK)
  | _ => f_g0_2d4d 1 Rplus Rmult IZR e bc rirj (base_diff Rminus (l CK + KINC ng >? l CL + LINC ng)%Z (A CK) (A CL))
  end.
