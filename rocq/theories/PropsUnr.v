(** PropsUnr.v — property C10: the unrolled kernels.  Statements only. *)
From Coq Require Import Reals Ring.
From Verif Require Import Base EnvModel RecModel RecSpec UnrModel UnrTab UnrTabSr UnrKern UnrProof UnrFinal
  Gauss2Int Rec2RModel Rec2Spec Rec2Real Rec2Kern UnrEnv.
Open Scope Z_scope.

(** The kernels with the orders (i,j,k,l) in their names *)
Definition named : list ((Z * Z * Z * Z) * list ustmt) :=
  [((0,0,0,0), g0_2d4d_0000); ((0,0,0,1), g0_2d4d_0001); ((0,0,0,2), g0_2d4d_0002);
   ((0,0,0,3), g0_2d4d_0003); ((0,0,1,0), g0_2d4d_0010); ((0,0,1,1), g0_2d4d_0011);
   ((0,0,1,2), g0_2d4d_0012); ((0,0,2,0), g0_2d4d_0020); ((0,0,2,1), g0_2d4d_0021);
   ((0,0,3,0), g0_2d4d_0030); ((0,1,0,0), g0_2d4d_0100); ((0,1,0,1), g0_2d4d_0101);
   ((0,1,0,2), g0_2d4d_0102); ((0,1,1,0), g0_2d4d_0110); ((0,1,1,1), g0_2d4d_0111);
   ((0,1,2,0), g0_2d4d_0120); ((0,2,0,0), g0_2d4d_0200); ((0,2,0,1), g0_2d4d_0201);
   ((0,2,1,0), g0_2d4d_0210); ((0,3,0,0), g0_2d4d_0300); ((1,0,0,0), g0_2d4d_1000);
   ((1,0,0,1), g0_2d4d_1001); ((1,0,0,2), g0_2d4d_1002); ((1,0,1,0), g0_2d4d_1010);
   ((1,0,1,1), g0_2d4d_1011); ((1,0,2,0), g0_2d4d_1020); ((1,1,0,0), g0_2d4d_1100);
   ((1,1,0,1), g0_2d4d_1101); ((1,1,1,0), g0_2d4d_1110); ((1,2,0,0), g0_2d4d_1200);
   ((2,0,0,0), g0_2d4d_2000); ((2,0,0,1), g0_2d4d_2001); ((2,0,1,0), g0_2d4d_2010);
   ((2,1,0,0), g0_2d4d_2100); ((3,0,0,0), g0_2d4d_3000)].
Definition named_sr : list ((Z * Z * Z * Z) * list ustmt) :=
  [((0,0,0,0), srg0_2d4d_0000); ((0,0,0,1), srg0_2d4d_0001); ((0,0,0,2), srg0_2d4d_0002);
   ((0,0,0,3), srg0_2d4d_0003); ((0,0,1,0), srg0_2d4d_0010); ((0,0,1,1), srg0_2d4d_0011);
   ((0,0,1,2), srg0_2d4d_0012); ((0,0,2,0), srg0_2d4d_0020); ((0,0,2,1), srg0_2d4d_0021);
   ((0,0,3,0), srg0_2d4d_0030); ((0,1,0,0), srg0_2d4d_0100); ((0,1,0,1), srg0_2d4d_0101);
   ((0,1,0,2), srg0_2d4d_0102); ((0,1,1,0), srg0_2d4d_0110); ((0,1,1,1), srg0_2d4d_0111);
   ((0,1,2,0), srg0_2d4d_0120); ((0,2,0,0), srg0_2d4d_0200); ((0,2,0,1), srg0_2d4d_0201);
   ((0,2,1,0), srg0_2d4d_0210); ((0,3,0,0), srg0_2d4d_0300); ((1,0,0,0), srg0_2d4d_1000);
   ((1,0,0,1), srg0_2d4d_1001); ((1,0,0,2), srg0_2d4d_1002); ((1,0,1,0), srg0_2d4d_1010);
   ((1,0,1,1), srg0_2d4d_1011); ((1,0,2,0), srg0_2d4d_1020); ((1,1,0,0), srg0_2d4d_1100);
   ((1,1,0,1), srg0_2d4d_1101); ((1,1,1,0), srg0_2d4d_1110); ((1,2,0,0), srg0_2d4d_1200);
   ((2,0,0,0), srg0_2d4d_2000); ((2,0,0,1), srg0_2d4d_2001); ((2,0,1,0), srg0_2d4d_2010);
   ((2,1,0,0), srg0_2d4d_2100); ((3,0,0,0), srg0_2d4d_3000)].
Definition kernel_for (t : list ((Z * Z * Z * Z) * list ustmt)) (a b c d : Z) : option (list ustmt) :=
  option_map snd (find (fun x => let '((p, q, r, s), _) := x in (p =? a) && (q =? b) && (r =? c) && (s =? d)) t).

(** The switches pick the kernel of exactly these orders; other combinations of orders up to 3
    (the range of the two-bit fields) have no kernel. *)
Theorem C10_switch e : 0 <= li_ceil e <= 3 -> 0 <= lj_ceil e <= 3 -> 0 <= lk_ceil e <= 3 -> 0 <= ll_ceil e <= 3 ->
  g0_unrolled_switch (type_ijkl e) = kernel_for named (li_ceil e) (lj_ceil e) (lk_ceil e) (ll_ceil e) /\
  srg0_unrolled_switch (type_ijkl e) = kernel_for named_sr (li_ceil e) (lj_ceil e) (lk_ceil e) (ll_ceil e).
Proof.
  unfold type_ijkl. generalize (li_ceil e), (lj_ceil e), (lk_ceil e), (ll_ceil e). intros a b c d Ha Hb Hc Hd.
  assert (H : forall z, 0 <= z <= 3 -> z = 0 \/ z = 1 \/ z = 2 \/ z = 3) by (clear; intros; lia).
  destruct (H a Ha) as [->|[->|[->| ->]]], (H b Hb) as [->|[->|[->| ->]]], (H c Hc) as [->|[->|[->| ->]]], (H d Hd) as [->|[->|[->| ->]]];
    split; reflexivity.
Qed.
Print Assumptions C10_switch.

(** The initialisers select an unrolled kernel exactly when the orders add up to at most 3, and
    then one is found; the short-range one exactly when the number of roots was doubled. *)
Theorem C10_selection e : unr_env e ->
  (rys_order e <= 2 <-> li_ceil e + lj_ceil e + lk_ceil e + ll_ceil e <= 3) /\
  (rys_order e <= 2 -> exists k, (if rys_order e =? nrys_roots e then g0_unrolled_switch (type_ijkl e) else srg0_unrolled_switch (type_ijkl e)) = Some k).
Proof.
  intros He. destruct (layout_of e He) as (Ha & Hb & Hc & Hd & Eo & _).
  assert (Q : rys_order e <= 2 <-> li_ceil e + lj_ceil e + lk_ceil e + ll_ceil e <= 3) by (rewrite Eo; apply quot_le3; lia).
  split; [exact Q|]. intros Ho. apply Q in Ho.
  destruct (checked (negb (rys_order e =? nrys_roots e)) _ _ _ _ Ha Hb Hc Hd Ho) as (k & Ek & _). exists k.
  unfold switch_of, code in Ek. unfold type_ijkl. destruct (rys_order e =? nrys_roots e); exact Ek.
Qed.
Print Assumptions C10_selection.

(** Whatever the array held before (apart from the weights at the start of the z block), the
    unrolled kernel leaves the table of mixed moments about four centres in the cells the
    integrand reads and touches nothing outside the three blocks; the difference vectors matter
    only where both orders of the pair are positive.  Unlike the generic recurrence it needs no
    fourth block. *)
Theorem C10_unrolled {F : Type} (zero one : F) (add mul sub : F -> F -> F) opp (inj : Z -> F) :
  ring_theory zero one add mul sub opp (@eq F) -> inj 0 = zero ->
  (forall i, 0 <= i -> inj (i + 1) = add (inj i) one) ->
  forall e (A B C D : Z -> F) (P Q : Z -> Z -> F) (S : Z -> Z -> Z -> Z -> Z -> Z -> F) (bc : @rys2e F) rirj rkrl w (g : arr F),
    unr_env e -> rys_order e <= 2 ->
    let iB := li_ceil e >? lj_ceil e in
    let kB := lk_ceil e >? ll_ceil e in
    (forall ax n, 0 <= ax < 3 -> 0 <= n < nrys_roots e ->
      gauss2 add mul inj (b10 bc n) (b01 bc n) (b00 bc n)
        (sub (P ax n) (A ax)) (sub (P ax n) (B ax)) (sub (Q ax n) (C ax)) (sub (Q ax n) (D ax)) (S ax n)) ->
    (forall ax n, 0 <= ax < 3 -> 0 <= n < nrys_roots e ->
       c00 bc ax n = sub (P ax n) (if iB then A ax else B ax) /\
       c0p bc ax n = sub (Q ax n) (if kB then C ax else D ax) /\
       S ax n 0 0 0 0 = origin one (w n) ax) ->
    (0 < li_ceil e -> 0 < lj_ceil e -> forall ax, 0 <= ax < 3 -> rirj ax = if iB then sub (A ax) (B ax) else sub (B ax) (A ax)) ->
    (0 < lk_ceil e -> 0 < ll_ceil e -> forall ax, 0 <= ax < 3 -> rkrl ax = if kB then sub (C ax) (D ax) else sub (D ax) (C ax)) ->
    3 * g_size e <= asize g ->
    (forall n, 0 <= n < nrys_roots e -> rd g (2 * g_size e + n) = Some (w n)) ->
    wp (if rys_order e =? nrys_roots e then g0_2e_2d4d_unrolled add mul inj e bc rirj rkrl g
        else srg0_2e_2d4d_unrolled add mul inj e bc rirj rkrl g) (fun g' =>
      (forall ax n i j k l, 0 <= ax < 3 -> inbox e n i j k l ->
         rd g' (ax * g_size e + adrs e n i j k l) = Some (S ax n i j k l)) /\
      Frame (fun p => 0 <= p < 3 * g_size e) g g').
Proof. exact (unrolled_ok zero one add mul sub opp inj). Qed.
Print Assumptions C10_unrolled.

(** Generic and unrolled side by side, for any coefficients and difference vectors: both run and
    agree on every cell the integrand reads.  (Other cells of the three blocks may differ: the
    generic algorithm leaves intermediate orders there, some unrolled kernels write fewer.) *)
Theorem C10_same_as_generic {F : Type} (zero one : F) (add mul sub : F -> F -> F) opp (inj : Z -> F) :
  ring_theory zero one add mul sub opp (@eq F) -> inj 0 = zero ->
  (forall i, 0 <= i -> inj (i + 1) = add (inj i) one) ->
  forall e (bc : @rys2e F) (rirj rkrl w : Z -> F) (g : arr F), unr_env e -> four_env e -> rys_order e <= 2 ->
    4 * g_size e <= asize g ->
    (forall n, 0 <= n < nrys_roots e -> rd g (2 * g_size e + n) = Some (w n)) ->
    exists g1 g2,
      (g <- g0_2e_2d one add mul inj e bc g ;; g0_2d_4d add mul e rirj rkrl g) = Some g1 /\
      (if rys_order e =? nrys_roots e then g0_2e_2d4d_unrolled add mul inj e bc rirj rkrl g
       else srg0_2e_2d4d_unrolled add mul inj e bc rirj rkrl g) = Some g2 /\
      (forall ax n i j k l, 0 <= ax < 3 -> inbox e n i j k l ->
         exists v, rd g1 (ax * g_size e + adrs e n i j k l) = Some v /\ rd g2 (ax * g_size e + adrs e n i j k l) = Some v) /\
      Frame (fun p => 0 <= p < 3 * g_size e) g g1 /\ Frame (fun p => 0 <= p < 3 * g_size e) g g2.
Proof. exact (fun RT I0 IS e bc rirj rkrl w g He H4 Ho Hs Hw => same_four zero one add mul sub opp inj RT I0 IS e bc rirj rkrl w g He Ho Hs Hw H4). Qed.
Print Assumptions C10_same_as_generic.

Theorem C10_same_as_generic_2c {F : Type} (zero one : F) (add mul sub : F -> F -> F) opp (inj : Z -> F) :
  ring_theory zero one add mul sub opp (@eq F) -> inj 0 = zero ->
  (forall i, 0 <= i -> inj (i + 1) = add (inj i) one) ->
  forall om ng li lk ci ck (bc : @rys2e F) (rirj rkrl w : Z -> F) (g : arr F),
    0 <= li + IINC ng -> 0 <= lk + KINC ng ->
    let e := init_int2c2e om ng li lk ci ck in
    rys_order e <= 2 -> 4 * g_size e <= asize g ->
    (forall n, 0 <= n < nrys_roots e -> rd g (2 * g_size e + n) = Some (w n)) ->
    exists g1 g2,
      g0_2e_2d one add mul inj e bc g = Some g1 /\
      (if rys_order e =? nrys_roots e then g0_2e_2d4d_unrolled add mul inj e bc rirj rkrl g
       else srg0_2e_2d4d_unrolled add mul inj e bc rirj rkrl g) = Some g2 /\
      (forall ax n i j k l, 0 <= ax < 3 -> inbox e n i j k l ->
         exists v, rd g1 (ax * g_size e + adrs e n i j k l) = Some v /\ rd g2 (ax * g_size e + adrs e n i j k l) = Some v) /\
      Frame (fun p => 0 <= p < 3 * g_size e) g g1 /\ Frame (fun p => 0 <= p < 3 * g_size e) g g2.
Proof.
  exact (fun RT I0 IS om ng li lk ci ck bc rirj rkrl w g Hi Hk Ho Hs Hw =>
    same_two zero one add mul sub opp inj RT I0 IS (init_int2c2e om ng li lk ci ck) bc rirj rkrl w g (ue_2c2e om ng li lk ci ck Hi Hk) Ho Hs Hw om ng li lk ci ck eq_refl Hi Hk).
Qed.
Print Assumptions C10_same_as_generic_2c.

Open Scope R_scope.
(** CINTg0_2e followed by the kernel its initialiser selected (unrolled, short-range unrolled or
    generic): every cell is an integral over the plane.  [coulomb_setup] lists the initialisers. *)
Theorem C10_coulomb_integrals e (A B C D bi bk : Z -> R) kern ai aj ak al (rij rkl : Z -> R) :
  0 < ai + aj -> 0 < ak + al ->
  (forall ax, (0 <= ax < 3)%Z -> rij ax = (ai * A ax + aj * B ax) / (ai + aj)) ->
  (forall ax, (0 <= ax < 3)%Z -> rkl ax = (ak * C ax + al * D ax) / (ak + al)) ->
  (nrys_roots e <= 32)%Z ->
  forall rys, (forall m y n, (0 <= n < m)%Z -> 0 <= y -> 0 <= fst (rys m y) n) ->
  forall srys, coulomb_setup e A B C D bi bk kern ->
  (forall m y z n, (0 <= n < m)%Z -> 0 <= y -> 0 <= fst (srys m y z) n) ->
  forall omega cutoff fac g, (4 * g_size e <= asize g)%Z ->
  wp (R_g0_2e rys srys kern e omega cutoff fac ai aj ak al rij rkl bi bk g) (fun bg =>
    let a0 := (ai + aj) * (ak + al) / ((ai + aj) + (ak + al)) in
    let x := a0 * rr3 rij rkl in
    let theta := omega * omega / (omega * omega + a0) in
    (fst bg = false <-> omega < 0 /\ (cutoff < theta * x \/ 40 < theta * x)) /\
    (fst bg = false -> snd bg = g) /\
    (fst bg = true -> Frame (fun p => (0 <= p < 3 * g_size e)%Z) g (snd bg) /\
       exists U W, nodes_2e e ai aj ak al rij rkl rys srys omega fac U W /\
         eri_cells e ai aj ak al A B C D U W (snd bg))).
Proof. exact (selected_int e A B C D bi bk kern ai aj ak al rij rkl). Qed.
Print Assumptions C10_coulomb_integrals.
Close Scope R_scope.

(** A run over the integers: (ps|ps) with short-range doubling (4 roots), unrolled and generic; the
    cell is (c c' + b00) w = (3 * 1 + 8) * 1157. *)
Example C10_ex :
  let e := init_int2e true (mkng 0 0 0 0 0 1 1 1) 1 0 1 0 1 1 1 1 in
  let bc := mkrys2e (fun ax n => 3 + ax - n) (fun ax n => 2 * ax - 5 + n) (fun n => 7 + n) (fun n => 11 - n) (fun n => 2 + 3 * n) in
  let g := mkarr (4 * g_size e) (fun p => Some (p * p + 1)) in
  exists g1 g2,
    (g <- g0_2e_2d 1 Z.add Z.mul (fun z => z) e bc g ;; g0_2d_4d Z.add Z.mul e (fun ax => ax) (fun ax => - ax) g) = Some g1 /\
    srg0_2e_2d4d_unrolled Z.add Z.mul (fun z => z) e bc (fun ax => ax) (fun ax => - ax) g = Some g2 /\
    rd g1 (2 * g_size e + adrs e 2 1 0 1 0) = Some 12727 /\
    rd g2 (2 * g_size e + adrs e 2 1 0 1 0) = Some 12727.
Proof. eexists _, _. split; [vm_compute; reflexivity|]. split; [vm_compute; reflexivity|]. split; vm_compute; reflexivity. Qed.
