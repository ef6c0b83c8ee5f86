(** PropsGout.v — theorems for C52 and C51. *)
From Coq Require Import Reals.
From Verif Require Import Base BasSpec EnvModel IdxModel IdxSpec IdxProof RecSpec Rec2RModel Rec2Spec.
From Verif Require Rec2Final.
From Verif Require Import GoutModel GoutSpec GoutProof SymModel SymSpec SymProof.

(** C52.  Whatever the root count, the batch holds for every component the sum over the roots of the
    product of the three 1D entries selected by the index table; old contents are overwritten or
    added to, and nothing else changes.  The only law of the scalars used is 0 + x = x (the written-out
    sums start with the first product, the loops with zero). *)
Theorem C52_gout2e {F : Type} (zero : F) add mul : (forall x, add zero x = x) ->
  forall e li lj lk ll gs si sj sk sl idx (g gout : arr F) empty V,
  0 <= li -> 0 <= lj -> 0 <= lk -> 0 <= ll ->
  nf e = Z.of_nat (length (cart_list li)) * Z.of_nat (length (cart_list lk))
         * Z.of_nat (length (cart_list ll)) * Z.of_nat (length (cart_list lj)) ->
  table4 idx li lj lk ll gs si sj sk sl ->
  cells4 g gs si sj sk sl (nrys_roots e) li lj lk ll V ->
  nf e <= asize gout -> (empty = false -> forall n, 0 <= n < nf e -> exists o, rd gout n = Some o) ->
  wp (CINTgout2e zero add mul e idx g empty gout) (fun gout' =>
    batch4 zero add mul gout gout' empty (nrys_roots e) li lj lk ll V /\
    Frame (fun p => 0 <= p < nf e) gout gout').
Proof. exact (gout2e_batch zero add mul). Qed.
Print Assumptions C52_gout2e.

Theorem C52_gout1e_nuc {F : Type} (zero : F) add mul : (forall x, add zero x = x) ->
  forall e li lj gs si sj idx (g gout : arr F) empty V,
  0 <= li -> 0 <= lj ->
  nf e = Z.of_nat (length (cart_list li)) * Z.of_nat (length (cart_list lj)) ->
  table2 idx li lj gs si sj -> cells2 g gs si sj (nrys_roots e) li lj V ->
  nf e <= asize gout -> (empty = false -> forall n, 0 <= n < nf e -> exists o, rd gout n = Some o) ->
  wp (CINTgout1e_nuc zero add mul e idx g empty gout) (fun gout' =>
    batch2 zero add mul gout gout' empty (nrys_roots e) li lj V /\
    Frame (fun p => 0 <= p < nf e) gout gout').
Proof. exact (gout1e_nuc_batch zero add mul). Qed.
Print Assumptions C52_gout1e_nuc.

Theorem C52_gout1e {F : Type} (zero : F) add mul : (forall x, add zero x = x) ->
  forall e li lj gs si sj idx (g gout : arr F) empty V,
  0 <= li -> 0 <= lj ->
  nf e = Z.of_nat (length (cart_list li)) * Z.of_nat (length (cart_list lj)) ->
  table2 idx li lj gs si sj -> cells2 g gs si sj 1 li lj V ->
  nf e <= asize gout -> (empty = false -> forall n, 0 <= n < nf e -> exists o, rd gout n = Some o) ->
  wp (CINTgout1e add mul e idx g empty gout) (fun gout' =>
    batch2 zero add mul gout gout' empty 1 li lj V /\
    Frame (fun p => 0 <= p < nf e) gout gout').
Proof. exact (gout1e_batch zero add mul). Qed.
Print Assumptions C52_gout1e.

Theorem C52_gout1e_grids {F : Type} (zero : F) add mul : (forall x, add zero x = x) ->
  forall e bg li lj idx (g gout : arr F) empty V gs si sj,
  0 <= li -> 0 <= lj -> 0 <= bg <= 104 -> 0 <= nrys_roots e ->
  nf e = Z.of_nat (length (cart_list li)) * Z.of_nat (length (cart_list lj)) ->
  table2 idx li lj gs si sj ->
  (forall d r ig i j, 0 <= d < 3 -> 0 <= r < nrys_roots e -> 0 <= ig < bg -> 0 <= i <= li -> 0 <= j <= lj ->
     rd g (cell gs si sj 0 0 d (ig + 104 * r) i j 0 0) = Some (V d r ig i j)) ->
  bg * nf e <= asize gout -> (empty = false -> forall n, 0 <= n < bg * nf e -> exists o, rd gout n = Some o) ->
  wp (CINTgout1e_grids zero add mul e bg idx g empty gout) (fun gout' =>
    batch_grids zero add mul gout gout' empty bg (nrys_roots e) li lj V /\
    Frame (fun p => 0 <= p < bg * nf e) gout gout').
Proof. exact (gout_grids_batch zero add mul). Qed.
Print Assumptions C52_gout1e_grids.

(** The (pp|pp) batch over the integers, two roots' worth of arrays and index table from the model's own
    initialiser: component (y, z, x, y), overwriting and accumulating. *)
Example C52_run :
  let e := init_int2e false (mkng 0 0 0 0 0 1 1 1) 1 1 1 1 1 1 1 1 in
  let g := mkarr (3 * g_size e) (fun p => Some (p + 1)) in
  match CINTg2e_index_xyz e (uninit (3 * nf e)) with
  | Some idx =>
      match CINTgout2e 0 Z.add Z.mul e idx g true (uninit (nf e)) with
      | Some b => match CINTgout2e 0 Z.add Z.mul e idx g false b with
                  | Some b' => (nf e, nrys_roots e, rd b (((2 * 3 + 1) * 3 + 0) * 3 + 1), rd b' (((2 * 3 + 1) * 3 + 0) * 3 + 1))
                  | None => (0, 0, None, None) end
      | None => (0, 0, None, None) end
  | None => (0, 0, None, None) end = (81, 3, Some 762774, Some 1525548).
Proof. vm_compute. reflexivity. Qed.

Open Scope R_scope.
(** The whole primitive Coulomb batch, from the initialiser to the components. *)
Theorem C52_eri_batch rys srys :
  (forall m y n, (0 <= n < m)%Z -> 0 <= y -> 0 <= fst (rys m y) n) ->
  (forall m y z n, (0 <= n < m)%Z -> 0 <= y -> 0 <= fst (srys m y z) n) ->
  forall omega cutoff li lj lk ll ai aj ak al A B C D,
  (0 <= li <= 15)%Z -> (0 <= lj <= 15)%Z -> (0 <= lk <= 15)%Z -> (0 <= ll <= 15)%Z ->
  0 < ai + aj -> 0 < ak + al ->
  exists r, eri_batch rys srys omega cutoff li lj lk ll ai aj ak al A B C D = Some r /\
    forall b, r = Some b -> exists U W V,
      let e := init_int2e (if Rlt_dec omega 0 then true else false) (mkng 0 0 0 0 0 1 1 1) li lj lk ll 1 1 1 1 in
      nodes_2e e ai aj ak al (pair_centre ai aj A B) (pair_centre ak al C D) rys srys omega
        (common_2e li lj lk ll * (exp (- pair_exp ai aj A B) * exp (- pair_exp ak al C D))) U W /\
      (forall ax n i j k l, (0 <= ax < 3)%Z -> (0 <= n < nrys_roots e)%Z ->
         axis_integral ai aj ak al A B C D (U n) (W n) ax i j k l (V ax n i j k l)) /\
      forall i j k l ti tj tk tl,
        nth_error (cart_list li) i = Some ti -> nth_error (cart_list lj) j = Some tj ->
        nth_error (cart_list lk) k = Some tk -> nth_error (cart_list ll) l = Some tl ->
        rd b (pos4 li lj lk ll i j k l) =
          Some (root_prod 0 Rplus Rmult (nrys_roots e) (fun d r =>
            V d r (Z.to_nat (coord d ti)) (Z.to_nat (coord d tj)) (Z.to_nat (coord d tk)) (Z.to_nat (coord d tl)))).
Proof. exact (eri_batch_integrals rys srys). Qed.
Print Assumptions C52_eri_batch.

(** C51.  Exchanging i with j, k with l, or bra with ket. *)
Theorem C51_swap_ij rys srys :
  (forall m y n, (0 <= n < m)%Z -> 0 <= y -> 0 <= fst (rys m y) n) ->
  (forall m y z n, (0 <= n < m)%Z -> 0 <= y -> 0 <= fst (srys m y z) n) ->
  forall omega cutoff li lj lk ll ai aj ak al A B C D,
  (0 <= li <= 15)%Z -> (0 <= lj <= 15)%Z -> (0 <= lk <= 15)%Z -> (0 <= ll <= 15)%Z ->
  0 < ai + aj -> 0 < ak + al ->
  exists r r',
    eri_batch rys srys omega cutoff li lj lk ll ai aj ak al A B C D = Some r /\
    eri_batch rys srys omega cutoff lj li lk ll aj ai ak al B A C D = Some r' /\
    (r = None <-> r' = None) /\
    forall b b', r = Some b -> r' = Some b' ->
      forall i j k l, comps li lj lk ll i j k l -> exists v,
        rd b (pos4 li lj lk ll i j k l) = Some v /\ rd b' (pos4 lj li lk ll j i k l) = Some v.
Proof. exact (sym_bra rys srys). Qed.
Print Assumptions C51_swap_ij.

Theorem C51_swap_kl rys srys :
  (forall m y n, (0 <= n < m)%Z -> 0 <= y -> 0 <= fst (rys m y) n) ->
  (forall m y z n, (0 <= n < m)%Z -> 0 <= y -> 0 <= fst (srys m y z) n) ->
  forall omega cutoff li lj lk ll ai aj ak al A B C D,
  (0 <= li <= 15)%Z -> (0 <= lj <= 15)%Z -> (0 <= lk <= 15)%Z -> (0 <= ll <= 15)%Z ->
  0 < ai + aj -> 0 < ak + al ->
  exists r r',
    eri_batch rys srys omega cutoff li lj lk ll ai aj ak al A B C D = Some r /\
    eri_batch rys srys omega cutoff li lj ll lk ai aj al ak A B D C = Some r' /\
    (r = None <-> r' = None) /\
    forall b b', r = Some b -> r' = Some b' ->
      forall i j k l, comps li lj lk ll i j k l -> exists v,
        rd b (pos4 li lj lk ll i j k l) = Some v /\ rd b' (pos4 li lj ll lk i j l k) = Some v.
Proof. exact (sym_ket rys srys). Qed.
Print Assumptions C51_swap_kl.

Theorem C51_swap_bra_ket rys srys :
  (forall m y n, (0 <= n < m)%Z -> 0 <= y -> 0 <= fst (rys m y) n) ->
  (forall m y z n, (0 <= n < m)%Z -> 0 <= y -> 0 <= fst (srys m y z) n) ->
  forall omega cutoff li lj lk ll ai aj ak al A B C D,
  (0 <= li <= 15)%Z -> (0 <= lj <= 15)%Z -> (0 <= lk <= 15)%Z -> (0 <= ll <= 15)%Z ->
  0 < ai + aj -> 0 < ak + al ->
  exists r r',
    eri_batch rys srys omega cutoff li lj lk ll ai aj ak al A B C D = Some r /\
    eri_batch rys srys omega cutoff lk ll li lj ak al ai aj C D A B = Some r' /\
    (r = None <-> r' = None) /\
    forall b b', r = Some b -> r' = Some b' ->
      forall i j k l, comps li lj lk ll i j k l -> exists v,
        rd b (pos4 li lj lk ll i j k l) = Some v /\ rd b' (pos4 lk ll li lj k l i j) = Some v.
Proof. exact (sym_pairs rys srys). Qed.
Print Assumptions C51_swap_bra_ket.

(** The permuted quartets do run different code: (dp|pp) builds on A and transfers to B, (pd|pp) the
    other way round, with other strides. *)
Example C51_layouts_differ :
  let e := init_int2e false (mkng 0 0 0 0 0 1 1 1) 2 1 1 1 1 1 1 1 in
  let e' := init_int2e false (mkng 0 0 0 0 0 1 1 1) 1 2 1 1 1 1 1 1 in
  (Rec2Final.ibase e, Rec2Final.ibase e', g_stride_i e, g_stride_i e', g_stride_j e, g_stride_j e') = (true, false, 3, 3, 72, 36)%Z.
Proof. vm_compute. reflexivity. Qed.
