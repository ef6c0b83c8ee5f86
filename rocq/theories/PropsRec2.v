(** PropsRec2.v — properties C08 (two-index recurrence), C09 (horizontal transfer) and C13
    (recurrence coefficients and the integrals the arrays hold).  Statements only. *)
From Coq Require Import Reals Ring.
From Verif Require Import Base EnvModel RecModel RecSpec RecMoments Rec2Final GaussInt Gauss2Int RecRModel Rec2RModel
  Rec2Spec Rec2Real Rec2Kern.
Open Scope Z_scope.

(** A mixed-moment table is determined by its origin, and exists for every origin. *)
Theorem C08_table_unique {F : Type} (zero one : F) add mul sub opp (inj : Z -> F) :
  ring_theory zero one add mul sub opp (@eq F) -> inj 0 = zero ->
  forall b10 b01 b00 c c' G G',
    moments2 add mul inj b10 b01 b00 c c' G -> moments2 add mul inj b10 b01 b00 c c' G' ->
    G 0 0 = G' 0 0 -> forall n m, 0 <= n -> 0 <= m -> G n m = G' n m.
Proof. exact (moments2_unique zero one add mul sub opp inj). Qed.
Print Assumptions C08_table_unique.

Theorem C08_table_exists {F : Type} (zero one : F) add mul sub opp (inj : Z -> F) :
  ring_theory zero one add mul sub opp (@eq F) -> inj 0 = zero ->
  (forall i, 0 <= i -> inj (i + 1) = add (inj i) one) ->
  forall b10 b01 b00 c c' w, exists G, moments2 add mul inj b10 b01 b00 c c' G /\ G 0 0 = w.
Proof. exact (fun R0 I0 IS b10 b01 b00 c c' w => moments2_exist zero one add mul sub opp inj R0 I0 IS b10 b01 b00 c c' w). Qed.
Print Assumptions C08_table_exists.

(** Whatever the array held before (apart from the weights at the start of the z block), every
    cell (n,m) of every axis and root is the table's, and nothing outside the three blocks
    changes.  The array has at least four blocks; see the refutation below. *)
Theorem C08_recurrence {F : Type} (zero one : F) (add mul sub : F -> F -> F) opp (inj : Z -> F) :
  ring_theory zero one add mul sub opp (@eq F) -> inj 0 = zero ->
  (forall i, 0 <= i -> inj (i + 1) = add (inj i) one) ->
  forall e (bc : @rys2e F) (S : Z -> Z -> Z -> Z -> F) w (g : arr F), rec_env e ->
    (forall ax n, 0 <= ax < 3 -> 0 <= n < nrys_roots e ->
       moments2 add mul inj (b10 bc n) (b01 bc n) (b00 bc n) (c00 bc ax n) (c0p bc ax n) (S ax n) /\
       S ax n 0 0 = origin one (w n) ax) ->
    4 * g_size e <= asize g ->
    (forall n, 0 <= n < nrys_roots e -> rd g (2 * g_size e + n) = Some (w n)) ->
    wp (g0_2e_2d one add mul inj e bc g) (fun g' =>
      (forall ax n a b, 0 <= ax < 3 -> 0 <= n < nrys_roots e ->
         0 <= a <= li_ceil e + lj_ceil e -> 0 <= b <= lk_ceil e + ll_ceil e ->
         rd g' (ax * g_size e + (n + g2d_ijmax e * a + g2d_klmax e * b)) = Some (S ax n a b)) /\
      Frame (fun p => 0 <= p < 3 * g_size e) g g').
Proof. exact (rec_env_2d zero one add mul sub opp inj). Qed.
Print Assumptions C08_recurrence.

(** Three blocks alone are not enough: with no bra order the routine loads (and does not use) a
    cell beyond the z block. *)
Theorem C08_three_blocks_refuted :
  exists e (bc : @rys2e Z) (g : arr Z) w, rec_env e /\
    3 * g_size e <= asize g /\
    (forall n, 0 <= n < nrys_roots e -> rd g (2 * g_size e + n) = Some (w n)) /\
    g0_2e_2d 1 Z.add Z.mul (fun z : Z => z) e bc g = None.
Proof.
  exists (init_int2e false (mkng 0 0 0 0 0 1 1 1) 0 0 0 1 1 1 1 1),
    (mkrys2e (fun _ _ => 2) (fun _ _ => 3) (fun _ => 5) (fun _ => 7) (fun _ => 11)),
    (mkarr 6 (fun p => Some p)), (fun n => 4 + n).
  split; [apply re_four, fe_2e; vm_compute; discriminate|].
  split; [vm_compute; discriminate|]. split; [|vm_compute; reflexivity].
  intros n Hn. change (nrys_roots _) with 1 in Hn. replace n with 0 by lia. reflexivity.
Qed.
Print Assumptions C08_three_blocks_refuted.

(** (ps|ps) over the integers, second root: cell (1,1) is c c' + b00, times the weight 5 for z. *)
Example C08_ex : let e := init_int2e false (mkng 0 0 0 0 0 1 1 1) 1 0 1 0 1 1 1 1 in
  option_map (fun g => map (fun ax => rd g (ax * g_size e + (1 + g2d_ijmax e + g2d_klmax e))) [0; 1; 2])
    (g0_2e_2d 1 Z.add Z.mul (fun z : Z => z) e
       (mkrys2e (fun ax _ => 2 + ax) (fun ax _ => 3 + ax) (fun _ => 5) (fun _ => 7) (fun n => 11 + n))
       (mkarr (4 * g_size e) (fun p => if (2 * g_size e <=? p) && (p <? 2 * g_size e + nrys_roots e) then Some 5 else None)))
  = Some [Some 18; Some 24; Some 160].
Proof. vm_compute. reflexivity. Qed.

(** The transfer: from the cells of the base centres to all four centres, whichever of the four
    routines the layout selects.  S is the table of mixed moments about four centres. *)
Theorem C09_transfer {F : Type} (zero one : F) (add mul sub : F -> F -> F) opp (inj : Z -> F) :
  ring_theory zero one add mul sub opp (@eq F) -> inj 0 = zero ->
  forall e, four_env e ->
  forall (A B C D : Z -> F) (P Q : Z -> Z -> F) (q10 q01 q00 : Z -> F) (S : Z -> Z -> Z -> Z -> Z -> Z -> F),
    (forall ax n, 0 <= ax < 3 -> 0 <= n < nrys_roots e ->
      gauss2 add mul inj (q10 n) (q01 n) (q00 n)
        (sub (P ax n) (A ax)) (sub (P ax n) (B ax)) (sub (Q ax n) (C ax)) (sub (Q ax n) (D ax)) (S ax n)) ->
  forall rirj rkrl (g : arr F),
    let iB := li_ceil e >? lj_ceil e in
    let kB := lk_ceil e >? ll_ceil e in
    (forall ax, 0 <= ax < 3 -> rirj ax = if iB then sub (A ax) (B ax) else sub (B ax) (A ax)) ->
    (0 < lk_ceil e -> forall ax, 0 <= ax < 3 -> rkrl ax = if kB then sub (C ax) (D ax) else sub (D ax) (C ax)) ->
    3 * g_size e <= asize g ->
    (forall ax n a b, 0 <= ax < 3 -> 0 <= n < nrys_roots e ->
       0 <= a <= li_ceil e + lj_ceil e -> 0 <= b <= lk_ceil e + ll_ceil e ->
       rd g (ax * g_size e + (n + g2d_ijmax e * a + g2d_klmax e * b)) =
         Some (S ax n (if iB then a else 0) (if iB then 0 else a) (if kB then b else 0) (if kB then 0 else b))) ->
    wp (g0_2d_4d add mul e rirj rkrl g) (fun g' =>
      (forall ax n i j k l, 0 <= ax < 3 -> 0 <= n < nrys_roots e -> 0 <= i <= li_ceil e -> 0 <= j <= lj_ceil e ->
         0 <= k <= lk_ceil e -> 0 <= l <= ll_ceil e ->
         rd g' (ax * g_size e + (n + g_stride_i e * i + g_stride_k e * k + g_stride_l e * l + g_stride_j e * j)) =
           Some (S ax n i j k l)) /\
      Frame (fun p => 0 <= p < 3 * g_size e) g g').
Proof. exact (fun RT I0 e He A B C D P Q q10 q01 q00 S HS => hrr_ok zero one add mul sub opp inj RT I0 e (four_rlay e He) A B C D P Q q10 q01 q00 S HS). Qed.
Print Assumptions C09_transfer.

(** Recurrence and transfer together. *)
Theorem C09_recurrence_and_transfer {F : Type} (zero one : F) (add mul sub : F -> F -> F) opp (inj : Z -> F) :
  ring_theory zero one add mul sub opp (@eq F) -> inj 0 = zero ->
  (forall i, 0 <= i -> inj (i + 1) = add (inj i) one) ->
  forall e, four_env e ->
  forall (A B C D : Z -> F) (P Q : Z -> Z -> F) (q10 q01 q00 : Z -> F) (S : Z -> Z -> Z -> Z -> Z -> Z -> F),
    (forall ax n, 0 <= ax < 3 -> 0 <= n < nrys_roots e ->
      gauss2 add mul inj (q10 n) (q01 n) (q00 n)
        (sub (P ax n) (A ax)) (sub (P ax n) (B ax)) (sub (Q ax n) (C ax)) (sub (Q ax n) (D ax)) (S ax n)) ->
  forall (bc : @rys2e F) rirj rkrl w (g : arr F),
    let iB := li_ceil e >? lj_ceil e in
    let kB := lk_ceil e >? ll_ceil e in
    (forall n, 0 <= n < nrys_roots e -> b10 bc n = q10 n /\ b01 bc n = q01 n /\ b00 bc n = q00 n) ->
    (forall ax n, 0 <= ax < 3 -> 0 <= n < nrys_roots e ->
       c00 bc ax n = sub (P ax n) (if iB then A ax else B ax) /\
       c0p bc ax n = sub (Q ax n) (if kB then C ax else D ax) /\
       S ax n 0 0 0 0 = origin one (w n) ax) ->
    (forall ax, 0 <= ax < 3 -> rirj ax = if iB then sub (A ax) (B ax) else sub (B ax) (A ax)) ->
    (0 < lk_ceil e -> forall ax, 0 <= ax < 3 -> rkrl ax = if kB then sub (C ax) (D ax) else sub (D ax) (C ax)) ->
    4 * g_size e <= asize g ->
    (forall n, 0 <= n < nrys_roots e -> rd g (2 * g_size e + n) = Some (w n)) ->
    wp (g <- g0_2e_2d one add mul inj e bc g ;; g0_2d_4d add mul e rirj rkrl g) (fun g' =>
      (forall ax n i j k l, 0 <= ax < 3 -> 0 <= n < nrys_roots e -> 0 <= i <= li_ceil e -> 0 <= j <= lj_ceil e ->
         0 <= k <= lk_ceil e -> 0 <= l <= ll_ceil e ->
         rd g' (ax * g_size e + (n + g_stride_i e * i + g_stride_k e * k + g_stride_l e * l + g_stride_j e * j)) =
           Some (S ax n i j k l)) /\
      Frame (fun p => 0 <= p < 3 * g_size e) g g').
Proof. exact (fun RT I0 IS e He A B C D P Q q10 q01 q00 S HS => rys_full_ok zero one add mul sub opp inj RT I0 IS e (four_rlay e He) A B C D P Q q10 q01 q00 S HS). Qed.
Print Assumptions C09_recurrence_and_transfer.

Theorem C09_table_exists {F : Type} (zero one : F) add mul sub opp (inj : Z -> F) :
  ring_theory zero one add mul sub opp (@eq F) -> inj 0 = zero ->
  (forall i, 0 <= i -> inj (i + 1) = add (inj i) one) ->
  forall b10 b01 b00 cA cB cC cD w, exists S, gauss2 add mul inj b10 b01 b00 cA cB cC cD S /\ S 0 0 0 0 = w.
Proof. exact (fun R0 I0 IS b10 b01 b00 cA cB cC cD w => gauss2_exist zero one add mul sub opp inj R0 I0 IS b10 b01 b00 cA cB cC cD w). Qed.
Print Assumptions C09_table_exists.

Theorem C09_table_unique {F : Type} (zero one : F) add mul sub opp (inj : Z -> F) :
  ring_theory zero one add mul sub opp (@eq F) -> inj 0 = zero ->
  forall b10 b01 b00 cA cB cC cD S S',
    gauss2 add mul inj b10 b01 b00 cA cB cC cD S -> gauss2 add mul inj b10 b01 b00 cA cB cC cD S' ->
    S 0 0 0 0 = S' 0 0 0 0 ->
    forall i j k l, 0 <= i -> 0 <= j -> 0 <= k -> 0 <= l -> S i j k l = S' i j k l.
Proof. exact (gauss2_unique zero one add mul sub opp inj). Qed.
Print Assumptions C09_table_unique.

Open Scope R_scope.

(** The coefficients are the centre and half the inverse of the form coupling the two electrons. *)
Theorem C13_centre aij akl (u rij rkl rx rkx : Z -> R) n :
  0 < aij -> 0 < akl -> 0 <= u n ->
  let r := aij * akl / (aij + akl) * u n in
  let bc := rys_coef aij akl u rij rkl rx rkx in
  let form x y := aij * ((x - rij 0%Z) * (x - rij 0%Z)) + akl * ((y - rkl 0%Z) * (y - rkl 0%Z)) + r * ((x - y) * (x - y)) in
  let m1 := c00 bc 0%Z n + rx 0%Z in
  let m2 := c0p bc 0%Z n + rkx 0%Z in
  forall x y, form x y = form m1 m2 +
    ((aij + r) * ((x - m1) * (x - m1)) - 2 * r * ((x - m1) * (y - m2)) + (akl + r) * ((y - m2) * (y - m2))).
Proof. exact (form_centred aij akl u rij rkl rx rkx n). Qed.
Print Assumptions C13_centre.

Theorem C13_half_inverse aij akl (u rij rkl rx rkx : Z -> R) n :
  0 < aij -> 0 < akl -> 0 <= u n ->
  let r := aij * akl / (aij + akl) * u n in
  let bc := rys_coef aij akl u rij rkl rx rkx in
  2 * ((aij + r) * b10 bc n + - r * b00 bc n) = 1 /\ 2 * ((aij + r) * b00 bc n + - r * b01 bc n) = 0 /\
  2 * (- r * b10 bc n + (akl + r) * b00 bc n) = 0 /\ 2 * (- r * b00 bc n + (akl + r) * b01 bc n) = 1.
Proof. exact (half_inverse aij akl u rij rkl rx rkx n). Qed.
Print Assumptions C13_half_inverse.

(** Exponents 1 and 1, centres 0 and 1, u = 1: the form is 3/2 -1/2; -1/2 3/2 and its minimum is at 1/4, 3/4. *)
Example C13_ex : let bc := rys_coef 1 1 (fun _ => 1) (fun _ => 0) (fun _ => 1) (fun _ => 0) (fun _ => 0) in
  b10 bc 0%Z = 3 / 8 /\ b01 bc 0%Z = 3 / 8 /\ b00 bc 0%Z = 1 / 8 /\ c00 bc 0%Z 0%Z = 1 / 4 /\ c0p bc 0%Z 0%Z = 3 / 4.
Proof. cbn. repeat split; field. Qed.

(** CINTg0_2e followed by the kernel: every cell is an integral over the plane.  [rys_setup] lists
    the environments (4-, 3- and 2-centre) with the centres they use. *)
Theorem C13_coulomb_integrals e (A B C D bi bk : Z -> R) kern ai aj ak al (rij rkl : Z -> R) :
  0 < ai + aj -> 0 < ak + al ->
  (forall ax, (0 <= ax < 3)%Z -> rij ax = (ai * A ax + aj * B ax) / (ai + aj)) ->
  (forall ax, (0 <= ax < 3)%Z -> rkl ax = (ak * C ax + al * D ax) / (ak + al)) ->
  (nrys_roots e <= 32)%Z ->
  forall rys, (forall m y n, (0 <= n < m)%Z -> 0 <= y -> 0 <= fst (rys m y) n) ->
  forall srys, rys_setup false e A B C D bi bk kern ->
  (forall m y z n, (0 <= n < m)%Z -> 0 <= y -> 0 <= fst (srys m y z) n) ->
  forall omega cutoff fac g, (4 * g_size e <= asize g)%Z ->
  wp (R_g0_2e rys srys kern e omega cutoff fac ai aj ak al rij rkl bi bk g) (fun bg =>
    let a0 := (ai + aj) * (ak + al) / ((ai + aj) + (ak + al)) in
    let x := a0 * rr3 rij rkl in
    let theta := omega * omega / (omega * omega + a0) in
    (fst bg = false <-> omega < 0 /\ (cutoff < theta * x \/ 40 < theta * x)) /\
    (fst bg = false -> snd bg = g) /\
    (fst bg = true -> Frame (fun p => (0 <= p < 3 * g_size e)%Z) g (snd bg) /\
       exists U W, nodes_2e e ai aj ak al rij rkl rys srys omega fac U W /\
         eri_cells e ai aj ak al A B C D U W (snd bg))).
Proof. exact (g0_2e_int e A B C D bi bk kern ai aj ak al rij rkl). Qed.
Print Assumptions C13_coulomb_integrals.

(** CINTg0_2e_yp and CINTg0_2e_stg. *)
Theorem C13_f12_integrals e (A B C D bi bk : Z -> R) kern ai aj ak al (rij rkl : Z -> R) :
  0 < ai + aj -> 0 < ak + al ->
  (forall ax, (0 <= ax < 3)%Z -> rij ax = (ai * A ax + aj * B ax) / (ai + aj)) ->
  (forall ax, (0 <= ax < 3)%Z -> rkl ax = (ak * C ax + al * D ax) / (ak + al)) ->
  (nrys_roots e <= 32)%Z ->
  forall rys, (forall m y n, (0 <= n < m)%Z -> 0 <= y -> 0 <= fst (rys m y) n) ->
  forall stg f12, rys_setup f12 e A B C D bi bk kern ->
  (forall m y z n, (0 <= n < m)%Z -> 0 <= y -> 0 < z -> 0 <= fst (stg m y z) n < 1) ->
  forall yp zeta fac g, (4 * g_size e <= asize g)%Z ->
  wp (R_g0_2e_f12 yp rys stg kern e zeta fac ai aj ak al rij rkl bi bk g) (fun bg =>
    fst bg = true /\ Frame (fun p => (0 <= p < 3 * g_size e)%Z) g (snd bg) /\
    exists U W, nodes_f12 e ai aj ak al rij rkl rys stg yp zeta fac U W /\
         eri_cells e ai aj ak al A B C D U W (snd bg)).
Proof. exact (g0_2e_f12_int e A B C D bi bk kern ai aj ak al rij rkl). Qed.
Print Assumptions C13_f12_integrals.
Close Scope R_scope.

(** Concrete runs over the integers: (dp|pd) uses the "il" routine, (pd|dp) the "kj" one; with the
    centres renamed they give the same number. *)
Definition demo (e : envs) (A B C D i j k l : Z) : option Z :=
  let gs := g_size e in
  let iB := li_ceil e >? lj_ceil e in
  let kB := lk_ceil e >? ll_ceil e in
  let bc := mkrys2e (fun _ _ => 20 - (if iB then A else B)) (fun _ _ => 30 - (if kB then C else D))
              (fun n => n + 2) (fun n => n + 3) (fun n => n + 1) in
  let g := mkarr (4 * gs) (fun p => if (2 * gs <=? p) && (p <? 2 * gs + nrys_roots e) then Some (p - 2 * gs + 5) else None) in
  match g0_2e_2d 1 Z.add Z.mul (fun z : Z => z) e bc g with
  | Some g => match g0_2d_4d Z.add Z.mul e (fun _ => if iB then A - B else B - A) (fun _ => if kB then C - D else D - C) g with
              | Some g => rd g (2 * gs + adrs e 1 i j k l)
              | None => None end
  | None => None
  end.
Example C09_run :
  let ng := mkng 0 0 0 0 0 1 1 1 in
  (demo (init_int2e false ng 2 1 1 2 1 1 1 1) 3 4 7 9 2 1 0 2,
   demo (init_int2e false ng 1 2 2 1 1 1 1 1) 4 3 9 7 1 2 2 0,
   demo (init_int2e false ng 1 2 1 2 1 1 1 1) 4 3 7 9 1 2 0 2) = (Some 13173348, Some 13173348, Some 13173348).
Proof. vm_compute. reflexivity. Qed.
