(** PropsRec1.v — property C07: the one-electron recurrences.  Statements only. *)
From Coq Require Import Reals Ring.
From Verif Require Import Base EnvModel RecModel RecSpec RecMoments Rec1Final GaussInt RecRModel Rec1Real.
Open Scope Z_scope.

(** A moment table is determined by its origin, and exists for every origin. *)
Theorem C07_table_unique {F : Type} (zero one : F) add mul sub opp (inj : Z -> F) :
  ring_theory zero one add mul sub opp (@eq F) -> inj 0 = zero ->
  forall b cA cB S S', gauss1 add mul inj b cA cB S -> gauss1 add mul inj b cA cB S' ->
    S 0 0 = S' 0 0 -> forall i j, 0 <= i -> 0 <= j -> S i j = S' i j.
Proof. exact (gauss1_unique zero one add mul sub opp inj). Qed.
Print Assumptions C07_table_unique.

Theorem C07_table_exists {F : Type} (zero one : F) add mul sub opp (inj : Z -> F) :
  ring_theory zero one add mul sub opp (@eq F) -> inj 0 = zero ->
  (forall i, 0 <= i -> inj (i + 1) = add (inj i) one) ->
  forall b cA cB w, exists S, gauss1 add mul inj b cA cB S /\ S 0 0 = w.
Proof. exact (gauss1_exist zero one add mul sub opp inj). Qed.
Print Assumptions C07_table_exists.

Section Props.
  Context {F : Type} (zero one : F) (add mul sub : F -> F -> F) (opp : F -> F) (inj : Z -> F).
  Hypothesis Rth : ring_theory zero one add mul sub opp (@eq F).
  Hypothesis (inj0 : inj 0 = zero).
  Variables (ng : ngT) (li lj ci cj : Z).
  Hypothesis (Hi : 0 <= li + IINC ng) (Hj : 0 <= lj + JINC ng).

  (** Overlap: whatever the array held before, every cell (i,j) of every axis is the table's. *)
  Theorem C07_overlap_table z0 b rij ri rj S (g : arr F) :
    let e := init_int1e ng li lj ci cj in
    (forall ax, gauss1 add mul inj b (sub (rij ax) (ri ax)) (sub (rij ax) (rj ax)) (S ax)) ->
    (forall ax, S ax 0 0 = origin one z0 ax) ->
    3 * g_size e <= asize g ->
    wp (g1e_ovlp one add mul sub inj e z0 b rij ri rj g) (fun g' =>
      (forall ax q i j, 0 <= ax < 3 -> q = 0 -> 0 <= i <= li_ceil e -> 0 <= j <= lj_ceil e ->
         rd g' (ax * g_size e + (q + i * g_stride_i e + j * g_stride_j e)) = Some (S ax i j)) /\
      Frame (fun p => 0 <= p < 3 * g_size e) g g').
  Proof. exact (g1e_ovlp_ok zero one add mul sub opp inj Rth inj0 _ _ (lay1_init ng li lj ci cj Hi Hj) z0 b rij ri rj S g). Qed.

  (** Nuclear attraction: the same per root, with the mean moved towards the nucleus and the
      second moment reduced by the root's t^2. *)
  Theorem C07_nuclear_table fac b w ru crij rij ri rj S (g : arr F) :
    let e := init_int1e ng li lj ci cj in
    (forall ax n, 0 <= n < nrys_roots e ->
      let P := add (rij ax) (mul (ru n) (crij ax)) in
      gauss1 add mul inj (mul b (sub one (ru n))) (sub P (ri ax)) (sub P (rj ax)) (S ax n)) ->
    (forall ax n, 0 <= n < nrys_roots e -> S ax n 0 0 = origin one (mul (w n) fac) ax) ->
    3 * g_size e <= asize g ->
    (forall n, 0 <= n < nrys_roots e -> rd g (g_size e * 2 + n) = Some (w n)) ->
    wp (g1e_nuc one add mul sub inj e fac b ru crij rij ri rj g) (fun g' =>
      (forall ax n i j, 0 <= ax < 3 -> 0 <= n < nrys_roots e -> 0 <= i <= li_ceil e -> 0 <= j <= lj_ceil e ->
         rd g' (ax * g_size e + (n + i * g_stride_i e + j * g_stride_j e)) = Some (S ax n i j)) /\
      Frame (fun p => 0 <= p < 3 * g_size e) g g').
  Proof. exact (g1e_nuc_ok zero one add mul sub opp inj Rth inj0 _ _ (lay1_init ng li lj ci cj Hi Hj) fac b w ru crij rij ri rj S g eq_refl). Qed.

  (** A block of grid points: the same per root and point. *)
  Theorem C07_grids_table om bg w u b rijrg rij ri rj S (g : arr F) :
    let e := init_int1e_grids om ng li lj ci cj in
    0 < bg <= 104 ->
    (forall ax n ig, 0 <= n < nrys_roots e -> 0 <= ig < bg ->
      let P := add (rij ax) (mul (u n ig) (rijrg ax ig)) in
      gauss1 add mul inj (mul b (sub one (u n ig))) (sub P (ri ax)) (sub P (rj ax)) (S ax n ig)) ->
    (forall ax n ig, 0 <= n < nrys_roots e -> 0 <= ig < bg ->
      S ax n ig 0 0 = origin one (w n ig) ax) ->
    3 * g_size e <= asize g ->
    wp (g <- g0_grids_init one e bg w g ;;
        g0_1e_grids one add mul sub inj e bg b u rijrg rij ri rj g) (fun g' =>
      (forall ax n ig i j, 0 <= ax < 3 -> 0 <= n < nrys_roots e -> 0 <= ig < bg ->
         0 <= i <= li_ceil e -> 0 <= j <= lj_ceil e ->
         rd g' (ax * g_size e + (ig + 104 * n + i * g_stride_i e + j * g_stride_j e))
         = Some (S ax n ig i j)) /\
      Frame (fun p => 0 <= p < 3 * g_size e) g g').
  Proof. exact (g0_grids_ok zero one add mul sub opp inj Rth inj0 _ _ (lay1_grids om ng li lj ci cj Hi Hj) bg w u b rijrg rij ri rj S g eq_refl). Qed.
End Props.
Print Assumptions C07_overlap_table.
Print Assumptions C07_nuclear_table.
Print Assumptions C07_grids_table.

Open Scope R_scope.

(** The cells are the integrals over the real line.  [RIntLine f l]: the improper integral of f
    from -infinity to +infinity converges to l. *)
Theorem C07_overlap_integrals (ng : ngT) (li lj ci cj : Z) fac ai aj (A B : Z -> R) g :
  (0 <= li + IINC ng)%Z -> (0 <= lj + JINC ng)%Z -> 0 < ai -> 0 < aj ->
  let e := init_int1e ng li lj ci cj in
  (3 * g_size e <= asize g)%Z ->
  wp (R_ovlp e fac ai aj A B g) (fun g' =>
    Frame (fun p => (0 <= p < 3 * g_size e)%Z) g g' /\
    forall ax i j, (0 <= ax < 3)%Z -> (Z.of_nat i <= li_ceil e)%Z -> (Z.of_nat j <= lj_ceil e)%Z ->
      let E := fun x => exp (- (ai * ((x - A ax) * (x - A ax))) - aj * ((x - B ax) * (x - B ax))) in
      exists v I0 I,
        rd g' (ax * g_size e + (Z.of_nat i * g_stride_i e + Z.of_nat j * g_stride_j e)) = Some v /\
        RIntLine E I0 /\ 0 < I0 /\
        RIntLine (fun x => (x - A ax) ^ i * (x - B ax) ^ j * E x) I /\
        v = origin 1 (fac * sqrt PI * PI / ((ai + aj) * sqrt (ai + aj))) ax / I0 * I).
Proof. exact (fun Hi Hj Ha Hb Hs => R_ovlp_cells ng li lj ci cj Hi Hj fac ai aj A B g Ha Hb Hs). Qed.
Print Assumptions C07_overlap_integrals.

(** With the pair prefactor of CINTset_pairdata the product of the three axes is exactly the
    constant times the product of the three one-dimensional integrals. *)
Theorem C07_overlap_product (ng : ngT) (li lj ci cj : Z) c0 ai aj (A B : Z -> R) g :
  (0 <= li + IINC ng)%Z -> (0 <= lj + JINC ng)%Z -> 0 < ai -> 0 < aj ->
  let e := init_int1e ng li lj ci cj in
  (3 * g_size e <= asize g)%Z ->
  wp (R_ovlp e (c0 * pair_eij (square3 (fun ax => A ax - B ax)) ai aj) ai aj A B g) (fun g' =>
    forall i j : Z -> nat,
      (forall ax, (0 <= ax < 3)%Z -> (Z.of_nat (i ax) <= li_ceil e)%Z /\ (Z.of_nat (j ax) <= lj_ceil e)%Z) ->
      exists v I : Z -> R,
        (forall ax, (0 <= ax < 3)%Z ->
           rd g' (ax * g_size e + (Z.of_nat (i ax) * g_stride_i e + Z.of_nat (j ax) * g_stride_j e)) = Some (v ax) /\
           RIntLine (fun x => (x - A ax) ^ i ax * (x - B ax) ^ j ax
             * exp (- (ai * ((x - A ax) * (x - A ax))) - aj * ((x - B ax) * (x - B ax)))) (I ax)) /\
        v 0%Z * v 1%Z * v 2%Z = c0 * (I 0%Z * I 1%Z * I 2%Z)).
Proof. exact (fun Hi Hj Ha Hb Hs => R_ovlp_product ng li lj ci cj Hi Hj c0 ai aj A B g Ha Hb Hs). Qed.
Print Assumptions C07_overlap_product.

(** Nuclear attraction: for each root the pair is multiplied by exp(-s(x-C)^2),
    s = (ai+aj) t^2/(1-t^2). *)
Theorem C07_nuclear_integrals (ng : ngT) (li lj ci cj : Z) chg zeta fac ai aj (u w : Z -> R) (C A B : Z -> R) g :
  (0 <= li + IINC ng)%Z -> (0 <= lj + JINC ng)%Z -> 0 < ai -> 0 < aj ->
  let e := init_int1e ng li lj ci cj in
  (forall n, (0 <= n < nrys_roots e)%Z -> 0 <= u n) -> (3 * g_size e <= asize g)%Z ->
  (forall n, (0 <= n < nrys_roots e)%Z -> rd g (g_size e * 2 + n) = Some (w n)) ->
  wp (R_nuc e chg zeta fac ai aj u C A B g) (fun g' =>
    Frame (fun p => (0 <= p < 3 * g_size e)%Z) g g' /\
    forall ax n i j, (0 <= ax < 3)%Z -> (0 <= n < nrys_roots e)%Z ->
      (Z.of_nat i <= li_ceil e)%Z -> (Z.of_nat j <= lj_ceil e)%Z ->
      let t2 := nuc_mod (ai + aj) zeta * nuc_mod (ai + aj) zeta * u n / (1 + u n) in
      let s := (ai + aj) * t2 / (1 - t2) in
      let E := fun x => exp (- (ai * ((x - A ax) * (x - A ax))) - aj * ((x - B ax) * (x - B ax)))
                        * exp (- (s * ((x - C ax) * (x - C ax)))) in
      exists v I0 I,
        rd g' (ax * g_size e + (n + Z.of_nat i * g_stride_i e + Z.of_nat j * g_stride_j e)) = Some v /\
        RIntLine E I0 /\ 0 < I0 /\
        RIntLine (fun x => (x - A ax) ^ i * (x - B ax) ^ j * E x) I /\
        v = origin 1 (w n * (2 * PI * chg * fac * nuc_mod (ai + aj) zeta / (ai + aj))) ax / I0 * I).
Proof. exact (fun Hi Hj Ha Hb Hu Hs Hw => R_nuc_cells ng li lj ci cj Hi Hj chg zeta fac ai aj u w C A B g Ha Hb Hu Hs Hw). Qed.
Print Assumptions C07_nuclear_integrals.
Close Scope R_scope.

(** A run over the integers: li = 1, lj = 2, an array of garbage; mean P = 10, A = 7, B = 5
    (x axis), second moment b = 2.  Cell (1,2) is (P-A)((P-B)^2+b) + 2b(P-B) = 3*27+20 = 101. *)
Example C07_example :
  let e := init_int1e (mkng 0 0 0 0 0 1 0 1) 1 2 1 1 in
  match g1e_ovlp 1 Z.add Z.mul Z.sub (fun i => i) e 9 2 (fun _ => 10) (fun ax => 7 - ax) (fun ax => 5 + ax)
          (mkarr (3 * g_size e) (fun _ => None)) with
  | Some g => (g_size e, map (fun ax => rd g (ax * g_size e + (1 * g_stride_i e + 2 * g_stride_j e))) [0; 1; 2])
  | None => (0, [])
  end = (16, [Some 101; Some (4 * (16 + 2) + 2 * 2 * 4); Some (9 * (5 * (9 + 2) + 2 * 2 * 3))]).
Proof. vm_compute. reflexivity. Qed.

(** One instance of the integral statement: the second moment of exp(-x^2). *)
Example C07_example_integral : RIntLine (fun x => x ^ 2 * exp (- (x * x)))%R (sqrt PI / 2)%R.
Proof. exact second_moment. Qed.
