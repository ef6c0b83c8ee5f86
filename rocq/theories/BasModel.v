(** BasModel.v — model of src/cint_bas.c.
    [FINT] is unbounded [Z]; C integer division is [Z.quot].
    Arrays are [arr Z] with bounds- and initialisation-checked accesses. *)
From Verif Require Import Base.

(** include/cint.h.in lines 59-67: slots of the [bas] array. *)
Definition BAS_SLOTS := 8.
Definition ATOM_OF := 0.
Definition ANG_OF := 1.
Definition NPRIM_OF := 2.
Definition NCTR_OF := 3.
Definition KAPPA_OF := 4.
Definition PTR_EXP := 5.
Definition PTR_COEFF := 6.

(** src/cint_const.h / cint_bas.h: [#define bas(SLOT,I) bas[BAS_SLOTS*(I)+(SLOT)]] *)
Definition bas_at (bas : arr Z) (slot i : Z) : option Z := rd bas (BAS_SLOTS * i + slot).

(** cint_bas.c:12-15 *)
Definition CINTlen_cart (l : Z) : Z := Z.quot ((l + 1) * (l + 2)) 2.

(** cint_bas.c:17-26 *)
Definition CINTlen_spinor (i : Z) (bas : arr Z) : option Z :=
  kappa <- bas_at bas KAPPA_OF i ;;
  l <- bas_at bas ANG_OF i ;;
  if 0 =? kappa then Some (4 * l + 2)
  else if kappa <? 0 then Some (2 * l + 2)
  else Some (2 * l).

(** cint_bas.c:31-40 (CINTcgtos_cart and CINTcgto_cart have the same body) *)
Definition CINTcgto_cart (i : Z) (bas : arr Z) : option Z :=
  l <- bas_at bas ANG_OF i ;;
  n <- bas_at bas NCTR_OF i ;;
  Some (Z.quot ((l + 1) * (l + 2)) 2 * n).

(** cint_bas.c:45-52 *)
Definition CINTcgto_spheric (i : Z) (bas : arr Z) : option Z :=
  l <- bas_at bas ANG_OF i ;;
  n <- bas_at bas NCTR_OF i ;;
  Some ((l * 2 + 1) * n).

(** cint_bas.c:57-64 *)
Definition CINTcgto_spinor (i : Z) (bas : arr Z) : option Z :=
  d <- CINTlen_spinor i bas ;;
  n <- bas_at bas NCTR_OF i ;;
  Some (d * n).

(** cint_bas.c:69-79 *)
Definition CINTtot_pgto_spheric (bas : arr Z) (nbas : Z) : option Z :=
  for_ 0 nbas (fun i s =>
    l <- bas_at bas ANG_OF i ;;
    n <- bas_at bas NPRIM_OF i ;;
    Some (s + (l * 2 + 1) * n)) 0.

(** cint_bas.c:84-93 *)
Definition CINTtot_pgto_spinor (bas : arr Z) (nbas : Z) : option Z :=
  for_ 0 nbas (fun i s =>
    d <- CINTlen_spinor i bas ;;
    n <- bas_at bas NPRIM_OF i ;;
    Some (s + d * n)) 0.

(** cint_bas.c:95-104 *)
Definition tot_cgto_accum (f : Z -> arr Z -> option Z) (bas : arr Z) (nbas : Z) : option Z :=
  for_ 0 nbas (fun i s => d <- f i bas ;; Some (s + d)) 0.

(** cint_bas.c:108-127 *)
Definition CINTtot_cgto_spheric := tot_cgto_accum CINTcgto_spheric.
Definition CINTtot_cgto_spinor := tot_cgto_accum CINTcgto_spinor.
Definition CINTtot_cgto_cart := tot_cgto_accum CINTcgto_cart.

(** cint_bas.c:129-137 *)
Definition shells_cgto_offset (f : Z -> arr Z -> option Z) (ao_loc bas : arr Z) (nbas : Z)
  : option (arr Z) :=
  ao <- wr ao_loc 0 0 ;;
  for_ 1 nbas (fun i ao =>
    prev <- rd ao (i - 1) ;;
    d <- f (i - 1) bas ;;
    wr ao i (prev + d)) ao.

(** cint_bas.c:141-160 *)
Definition CINTshells_cart_offset := shells_cgto_offset CINTcgto_cart.
Definition CINTshells_spheric_offset := shells_cgto_offset CINTcgto_spheric.
Definition CINTshells_spinor_offset := shells_cgto_offset CINTcgto_spinor.

(** cint_bas.c:166-180.  State: the three output arrays and [inc]. *)
Record comp_state := mkcomp { c_nx : arr Z; c_ny : arr Z; c_nz : arr Z; c_inc : Z }.

Definition cart_comp_step (lmax lx ly : Z) (s : comp_state) : option comp_state :=
  let lz := lmax - lx - ly in
  nx <- wr (c_nx s) (c_inc s) lx ;;
  ny <- wr (c_ny s) (c_inc s) ly ;;
  nz <- wr (c_nz s) (c_inc s) lz ;;
  Some (mkcomp nx ny nz (c_inc s + 1)).

Definition CINTcart_comp (nx ny nz : arr Z) (lmax : Z) : option comp_state :=
  fordown lmax 0 (fun lx s =>
    fordown (lmax - lx) 0 (fun ly s => cart_comp_step lmax lx ly s) s)
    (mkcomp nx ny nz 0).
