(** PropsBas.v — properties C01, C02, C03 (basis layout).  Statements only. *)
From Verif Require Import Base BasModel BasSpec BasProof.
From Coq Require Import Sorting.Sorted.

(** C01.  Sizes of shells and totals of a basis, for every table. *)
Theorem C01_shell_sizes (bas : arr Z) (b : list shell) (k : nat) (s : shell) :
  stores bas b -> nth_error b k = Some s ->
  (0 <= sh_l s -> CINTcgto_cart (Z.of_nat k) bas = Some (cart_fns s * sh_nctr s)) /\
  CINTcgto_spheric (Z.of_nat k) bas = Some (sph_fns s * sh_nctr s) /\
  CINTlen_spinor (Z.of_nat k) bas = Some (spinor_fns s) /\
  CINTcgto_spinor (Z.of_nat k) bas = Some (spinor_fns s * sh_nctr s).
Proof. exact (shell_sizes bas b k s). Qed.
Print Assumptions C01_shell_sizes.

Theorem C01_totals (bas : arr Z) (b : list shell) :
  stores bas b ->
  (Forall (fun s => 0 <= sh_l s) b ->
   CINTtot_cgto_cart bas (Z.of_nat (length b)) = Some (total (fun s => cart_fns s * sh_nctr s) b)) /\
  CINTtot_cgto_spheric bas (Z.of_nat (length b)) = Some (total (fun s => sph_fns s * sh_nctr s) b) /\
  CINTtot_cgto_spinor bas (Z.of_nat (length b)) = Some (total (fun s => spinor_fns s * sh_nctr s) b) /\
  CINTtot_pgto_spheric bas (Z.of_nat (length b)) = Some (total (fun s => sph_fns s * sh_nprim s) b) /\
  CINTtot_pgto_spinor bas (Z.of_nat (length b)) = Some (total (fun s => spinor_fns s * sh_nprim s) b).
Proof. exact (totals bas b). Qed.
Print Assumptions C01_totals.

(** A kappa = 0 shell is the union of its kappa < 0 and kappa > 0 halves. *)
Theorem C01_spinor_halves (l np nc : Z) (p q : positive) :
  spinor_fns (mkshell l np nc 0) =
  spinor_fns (mkshell l np nc (Zneg p)) + spinor_fns (mkshell l np nc (Zpos q)).
Proof. exact (spinor_halves l np nc p q). Qed.
Print Assumptions C01_spinor_halves.

Example C01_nonvacuous : exists bas, stores bas example_basis /\ length example_basis = 3%nat.
Proof. exact example_basis_stored. Qed.

(** C02.  Offsets are prefix sums; nothing else is written; the shells tile the basis. *)
Theorem C02_offsets (bas ao : arr Z) (b : list shell) :
  stores bas b -> b <> [] -> Z.of_nat (length b) <= asize ao ->
  let ok f sz := exists ao', shells_cgto_offset f ao bas (Z.of_nat (length b)) = Some ao' /\
      asize ao' = asize ao /\
      (forall k, (k < length b)%nat -> rd ao' (Z.of_nat k) = Some (total sz (firstn k b))) /\
      (forall i, ~ (0 <= i < Z.of_nat (length b)) -> acell ao' i = acell ao i) in
  (Forall (fun s => 0 <= sh_l s) b -> ok CINTcgto_cart (fun s => cart_fns s * sh_nctr s)) /\
  ok CINTcgto_spheric (fun s => sph_fns s * sh_nctr s) /\
  ok CINTcgto_spinor (fun s => spinor_fns s * sh_nctr s).
Proof. exact (offsets bas ao b). Qed.
Print Assumptions C02_offsets.

Theorem C02_tiling (sz : shell -> Z) (b : list shell) (f : Z) :
  Forall (fun s => 0 <= sz s) b -> 0 <= f < total sz b ->
  exists k s, nth_error b k = Some s /\
    total sz (firstn k b) <= f < total sz (firstn k b) + sz s /\
    (forall k' s', nth_error b k' = Some s' ->
       total sz (firstn k' b) <= f < total sz (firstn k' b) + sz s' -> k' = k).
Proof. exact (tiling sz b f). Qed.
Print Assumptions C02_tiling.

(** The one input on which the offset routine misbehaves: an empty basis with an
    empty output array (the routine writes entry 0 unconditionally). *)
Theorem C02_empty_basis_refuted :
  exists (bas ao : arr Z), stores bas [] /\ asize ao = 0 /\
    CINTshells_cart_offset ao bas 0 = None.
Proof. exact offsets_empty_refuted. Qed.
Print Assumptions C02_empty_basis_refuted.

Example C02_nonvacuous : exists bas ao ao',
  stores bas example_basis /\ CINTshells_spinor_offset ao bas 3 = Some ao' /\
  rd ao' 0 = Some 0 /\ rd ao' 1 = Some 4 /\ rd ao' 2 = Some 10.
Proof. exact example_offsets. Qed.

(** C03.  Component enumeration: the arrays hold [cart_list l]; that list is
    complete, duplicate free, in decreasing lexicographic order, of the right length. *)
Theorem C03_component_arrays (nx ny nz : arr Z) (l : Z) :
  0 <= l ->
  (l + 1) * (l + 2) / 2 <= asize nx -> (l + 1) * (l + 2) / 2 <= asize ny ->
  (l + 1) * (l + 2) / 2 <= asize nz ->
  exists s, CINTcart_comp nx ny nz l = Some s /\ c_inc s = (l + 1) * (l + 2) / 2 /\
    (forall k t, nth_error (cart_list l) k = Some t ->
       rd (c_nx s) (Z.of_nat k) = Some (fst (fst t)) /\
       rd (c_ny s) (Z.of_nat k) = Some (snd (fst t)) /\
       rd (c_nz s) (Z.of_nat k) = Some (snd t)) /\
    Frame (fun i => 0 <= i < (l + 1) * (l + 2) / 2) nx (c_nx s) /\
    Frame (fun i => 0 <= i < (l + 1) * (l + 2) / 2) ny (c_ny s) /\
    Frame (fun i => 0 <= i < (l + 1) * (l + 2) / 2) nz (c_nz s).
Proof. exact (cart_comp_list nx ny nz l). Qed.
Print Assumptions C03_component_arrays.

Theorem C03_components_complete (l : Z) : 0 <= l ->
  (forall t, In t (cart_list l) <-> nonneg t /\ degree t = l) /\
  NoDup (cart_list l) /\ StronglySorted lexgt (cart_list l) /\
  Z.of_nat (length (cart_list l)) = CINTlen_cart l.
Proof. exact (cart_list_complete l). Qed.
Print Assumptions C03_components_complete.

Example C03_nonvacuous :
  cart_list 2 = [(2,0,0); (1,1,0); (1,0,1); (0,2,0); (0,1,1); (0,0,2)].
Proof. exact example_cart_list. Qed.
