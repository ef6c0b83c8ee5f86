(** UnrKern.v — the two entry points of the unrolled kernels and the choice of kernel made by the
    initialisers. *)
From Verif Require Import Base EnvModel RecModel UnrModel UnrTab UnrTabSr.

Section Kern.
  Context {F : Type}.
  Variables (one : F) (add mul : F -> F -> F) (inj : Z -> F).

  (** g2e.c:2022-2023, 4356-4357: (li_ceil << 6) | (lj_ceil << 4) | (lk_ceil << 2) | ll_ceil *)
  Definition type_ijkl (e : envs) : Z :=
    Z.lor (Z.lor (Z.lor (Z.shiftl (li_ceil e) 6) (Z.shiftl (lj_ceil e) 4)) (Z.shiftl (lk_ceil e) 2)) (ll_ceil e).

  (** g2e.c:2020-2064 CINTg0_2e_2d4d_unrolled and 4354-4398 CINTsrg0_2e_2d4d_unrolled.  Without a
      matching case they print a message and return. *)
  Definition g0_2e_2d4d_unrolled (e : envs) (bc : @rys2e F) (rirj rkrl : Z -> F) (g : arr F) : option (arr F) :=
    match g0_unrolled_switch (type_ijkl e) with
    | Some k => run add mul inj bc rirj rkrl k g
    | None => Some g
    end.
  Definition srg0_2e_2d4d_unrolled (e : envs) (bc : @rys2e F) (rirj rkrl : Z -> F) (g : arr F) : option (arr F) :=
    match srg0_unrolled_switch (type_ijkl e) with
    | Some k => run add mul inj bc rirj rkrl k g
    | None => Some g
    end.

  (** envs->f_g0_2d4d, g2e.c:152-170 (4 centres) and g3c2e.c:121-130 (3 centres; there kbase is
      never set and [lk_ceil] = 0, so the first two branches of [g0_2d_4d] are not taken).  The
      wrappers of g2e.c:4400-4422 run the recurrence, then the transfer. *)
  Definition f_g0_2d4d (e : envs) (bc : @rys2e F) (rirj rkrl : Z -> F) (g : arr F) : option (arr F) :=
    if rys_order e <=? 2 then
      if rys_order e =? nrys_roots e then g0_2e_2d4d_unrolled e bc rirj rkrl g
      else srg0_2e_2d4d_unrolled e bc rirj rkrl g
    else g <- g0_2e_2d one add mul inj e bc g ;; g0_2d_4d add mul e rirj rkrl g.
  (** g2c2e.c:96-103 (2 centres): no transfer *)
  Definition f_g0_2d4d_2c (e : envs) (bc : @rys2e F) (rirj rkrl : Z -> F) (g : arr F) : option (arr F) :=
    if rys_order e <=? 2 then
      if rys_order e =? nrys_roots e then g0_2e_2d4d_unrolled e bc rirj rkrl g
      else srg0_2e_2d4d_unrolled e bc rirj rkrl g
    else g0_2e_2d one add mul inj e bc g.
End Kern.
