(** PropsOp.v — properties C11 and C12: derivative and position operators.  Statements only;
    the vocabulary ([phi], [held], [derivative], [env1], [env2]) is in OpSpec.v. *)
From Coq Require Import Reals.
From Verif Require Import Base EnvModel RecModel GaussInt RecRModel Rec1Real OpProof OpSpec OpReal OpOvlp.
Local Open Scope R_scope.

(** If the source block holds the integrals of the Gaussians on centre [c] (times anything) for one
    order more than requested, the target block ends up with the integrals of their derivatives. *)
Theorem C11_nabla e mi mj mk fo go li lj lk (m : arr R) c a A rest f' :
  env1 e mi mj mk -> (0 <= li)%Z -> (0 <= lj)%Z -> (0 <= lk)%Z ->
  (0 <= fo)%Z -> (fo + 3 * g_size e <= asize m)%Z -> apart fo go (3 * g_size e) -> c <> CL ->
  (li + more c CI <= mi)%Z -> (lj + more c CJ <= mj)%Z -> (lk + more c CK <= mk)%Z ->
  held (g_size e) (addr1 e) 1 c 1 li lj lk 0 (fun ax => phi a (A ax)) rest go m ->
  derivative (fun ax => phi a (A ax)) f' ->
  wp (R_nabla_1e c a e fo go li lj lk m) (fun m' =>
    held (g_size e) (addr1 e) 1 c 0 li lj lk 0 f' rest fo m' /\
    Frame (fun p => (fo <= p < fo + 3 * g_size e)%Z) m m').
Proof. exact (fun He Hi Hj Hk Hf Hs Ha Hc Mi Mj Mk Hh => nabla_1e_int e mi mj mk He fo go li lj lk m Hi Hj Hk Hf Hs Ha c Hc Mi Mj Mk a A rest Hh f'). Qed.
Print Assumptions C11_nabla.

(** Position operator: multiplies by the coordinate relative to the chosen origin [O]. *)
Theorem C11_position e mi mj mk fo go li lj lk (m : arr R) c a A rest O :
  env1 e mi mj mk ->
  (0 <= fo)%Z -> (fo + 3 * g_size e <= asize m)%Z -> apart fo go (3 * g_size e) -> c <> CL ->
  (li + more c CI <= mi)%Z -> (lj + more c CJ <= mj)%Z -> (lk + more c CK <= mk)%Z ->
  held (g_size e) (addr1 e) 1 c 1 li lj lk 0 (fun ax => phi a (A ax)) rest go m ->
  wp (R_x1_1e c (fun ax => A ax - O ax) e fo go li lj lk m) (fun m' =>
    held (g_size e) (addr1 e) 1 c 0 li lj lk 0 (fun ax i x => (x - O ax) * phi a (A ax) i x) rest fo m' /\
    Frame (fun p => (fo <= p < fo + 3 * g_size e)%Z) m m').
Proof. exact (fun He Hf Hs Ha Hc Mi Mj Mk Hh => x1_1e_int e mi mj mk He fo go li lj lk m Hf Hs Ha c Hc Mi Mj Mk a A rest Hh O). Qed.
Print Assumptions C11_position.

(** The grid variants, for every point of a block of at most 104 points. *)
Theorem C11_grids_nabla om ng l1 l2 ci cj bg fo go li lj (m : arr R) c a A rest f' :
  let e := init_int1e_grids om ng l1 l2 ci cj in
  (0 <= l1 + IINC ng)%Z -> (0 <= l2 + JINC ng)%Z -> (bg <= 104)%Z -> (0 <= li)%Z -> (0 <= lj)%Z ->
  (0 <= fo)%Z -> (fo + 3 * g_size e <= asize m)%Z -> apart fo go (3 * g_size e) -> c = CI \/ c = CJ ->
  (li + more c CI <= l1 + IINC ng)%Z -> (lj + more c CJ <= l2 + JINC ng)%Z ->
  (forall g, (0 <= g < bg)%Z ->
     held (g_size e) (addrg e g) (nrys_roots e) c 1 li lj 0 0 (fun ax => phi a (A ax)) (rest g) go m) ->
  derivative (fun ax => phi a (A ax)) f' ->
  wp (R_nabla_grids c a e bg fo go li lj m) (fun m' =>
    (forall g, (0 <= g < bg)%Z -> held (g_size e) (addrg e g) (nrys_roots e) c 0 li lj 0 0 f' (rest g) fo m') /\
    Frame (fun p => (fo <= p < fo + 3 * g_size e)%Z) m m').
Proof. exact (fun H1 H2 Hb Hi Hj Hf Hs Ha Hc Mi Mj Hh => nabla_grids_int om ng l1 l2 ci cj H1 H2 bg fo go li lj m Hb Hi Hj Hf Hs Ha c Hc Mi Mj a A rest Hh f'). Qed.
Print Assumptions C11_grids_nabla.

Theorem C11_grids_position om ng l1 l2 ci cj bg fo go li lj (m : arr R) c a A rest O :
  let e := init_int1e_grids om ng l1 l2 ci cj in
  (0 <= l1 + IINC ng)%Z -> (0 <= l2 + JINC ng)%Z -> (bg <= 104)%Z ->
  (0 <= fo)%Z -> (fo + 3 * g_size e <= asize m)%Z -> apart fo go (3 * g_size e) -> c = CI \/ c = CJ ->
  (li + more c CI <= l1 + IINC ng)%Z -> (lj + more c CJ <= l2 + JINC ng)%Z ->
  (forall g, (0 <= g < bg)%Z ->
     held (g_size e) (addrg e g) (nrys_roots e) c 1 li lj 0 0 (fun ax => phi a (A ax)) (rest g) go m) ->
  wp (R_x1_grids c (fun ax => A ax - O ax) e bg fo go li lj m) (fun m' =>
    (forall g, (0 <= g < bg)%Z -> held (g_size e) (addrg e g) (nrys_roots e) c 0 li lj 0 0
       (fun ax i x => (x - O ax) * phi a (A ax) i x) (rest g) fo m') /\
    Frame (fun p => (fo <= p < fo + 3 * g_size e)%Z) m m').
Proof. exact (fun H1 H2 Hb Hf Hs Ha Hc Mi Mj Hh => x1_grids_int om ng l1 l2 ci cj H1 H2 bg fo go li lj m Hb Hf Hs Ha c Hc Mi Mj a A rest Hh O). Qed.
Print Assumptions C11_grids_position.

(** The hypothesis is what the overlap recurrence establishes: running it and then a derivative
    leaves, cell by cell, a common constant times the integral with the differentiated function. *)
Theorem C11_overlap_gradient ng l1 l2 ci cj fac ai aj (A B : Z -> R) (g : arr R) li lj :
  (0 <= l1 + IINC ng)%Z -> (0 <= l2 + JINC ng)%Z -> POS_E2 ng = 1%Z -> 0 < ai -> 0 < aj ->
  let e := init_int1e ng l1 l2 ci cj in
  (6 * g_size e <= asize g)%Z -> (0 <= li)%Z -> (0 <= lj)%Z ->
  (li + 1 <= l1 + IINC ng)%Z -> (lj <= l2 + JINC ng)%Z ->
  exists K : Z -> R,
  wp (m <- R_ovlp e fac ai aj A B g ;; R_nabla_1e CI ai e (3 * g_size e) 0 li lj 0 m) (fun m' =>
    forall f' ax i j, derivative (fun ax => phi ai (A ax)) f' ->
      (0 <= ax < 3)%Z -> (Z.of_nat i <= li)%Z -> (Z.of_nat j <= lj)%Z ->
      exists v, rd m' (ax * g_size e + (3 * g_size e + (Z.of_nat i + g_stride_j e * Z.of_nat j)))%Z = Some (K ax * v) /\
        RIntLine (fun x => f' ax i x * phi aj (B ax) j x) v) /\
  forall ax, (0 <= ax < 3)%Z -> exists I0,
    RIntLine (fun x => phi ai (A ax) 0 x * phi aj (B ax) 0 x) I0 /\ 0 < I0 /\
    K ax * I0 = RecSpec.origin 1 (fac * sqrt PI * PI / ((ai + aj) * sqrt (ai + aj))) ax.
Proof. exact (overlap_gradient ng l1 l2 ci cj fac ai aj A B g li lj). Qed.
Print Assumptions C11_overlap_gradient.

(** Two-electron operators on any of the four centres, in every layout that uses them. *)
Theorem C12_nabla e mi mj mk ml fo go li lj lk ll (m : arr R) c a A rest f' :
  env2 e mi mj mk ml -> (0 <= li)%Z -> (0 <= lj)%Z -> (0 <= lk)%Z -> (0 <= ll)%Z ->
  (0 <= fo)%Z -> (fo + 3 * g_size e <= asize m)%Z -> apart fo go (3 * g_size e) ->
  (li + more c CI <= mi)%Z -> (lj + more c CJ <= mj)%Z -> (lk + more c CK <= mk)%Z -> (ll + more c CL <= ml)%Z ->
  held (g_size e) (addr2 e) (nrys_roots e) c 1 li lj lk ll (fun ax => phi a (A ax)) rest go m ->
  derivative (fun ax => phi a (A ax)) f' ->
  wp (R_nabla_2e c a e fo go li lj lk ll m) (fun m' =>
    held (g_size e) (addr2 e) (nrys_roots e) c 0 li lj lk ll f' rest fo m' /\
    Frame (fun p => (fo <= p < fo + 3 * g_size e)%Z) m m').
Proof. exact (fun He Hi Hj Hk Hl Hf Hs Ha Mi Mj Mk Ml Hh => nabla_2e_int e mi mj mk ml He fo go li lj lk ll m Hi Hj Hk Hl Hf Hs Ha c Mi Mj Mk Ml a A rest Hh f'). Qed.
Print Assumptions C12_nabla.

Theorem C12_position e mi mj mk ml fo go li lj lk ll (m : arr R) c a A rest O :
  env2 e mi mj mk ml ->
  (0 <= fo)%Z -> (fo + 3 * g_size e <= asize m)%Z -> apart fo go (3 * g_size e) ->
  (li + more c CI <= mi)%Z -> (lj + more c CJ <= mj)%Z -> (lk + more c CK <= mk)%Z -> (ll + more c CL <= ml)%Z ->
  held (g_size e) (addr2 e) (nrys_roots e) c 1 li lj lk ll (fun ax => phi a (A ax)) rest go m ->
  wp (R_x1_2e c (fun ax => A ax - O ax) e fo go li lj lk ll m) (fun m' =>
    held (g_size e) (addr2 e) (nrys_roots e) c 0 li lj lk ll (fun ax i x => (x - O ax) * phi a (A ax) i x) rest fo m' /\
    Frame (fun p => (fo <= p < fo + 3 * g_size e)%Z) m m').
Proof. exact (fun He Hf Hs Ha Mi Mj Mk Ml Hh => x1_2e_int e mi mj mk ml He fo go li lj lk ll m Hf Hs Ha c Mi Mj Mk Ml a A rest Hh O). Qed.
Print Assumptions C12_position.
Close Scope R_scope.
Open Scope Z_scope.

(** Concrete runs over the integers: (p| d/dl |dp) style quartet, one extra order on l. *)
Example C12_run :
  let e := init_int2e false (mkng 0 0 0 1 1 1 1 1) 1 0 2 1 1 1 1 1 in
  let gs := g_size e in
  let m := mkarr (6 * gs) (fun p => if p <? 3 * gs then Some (p * p + 1) else None) in
  match nabla1l_2e Z.add Z.mul (fun z : Z => z) e (-6) (3 * gs) 0 1 0 2 1 m with
  | Some m' => (nrys_roots e, gs,
      rd m' (3 * gs + (1 + g_stride_i e)),
      rd m' (gs + (3 * gs + (2 + g_stride_k e * 2 + g_stride_l e))),
      rd m' (3 * gs + (g_stride_l e * 2)))
  | None => (0, 0, None, None, None)
  end = (3, 90, Some (-6 * ((4 + 18) * (4 + 18) + 1)),
         Some (1 * ((90 + 14) * (90 + 14) + 1) + -6 * ((90 + 14 + 36) * (90 + 14 + 36) + 1)), None).
Proof. vm_compute. reflexivity. Qed.

(** Reading one order more is necessary: without it the run is undefined. *)
Example C11_needs_one_more :
  let e := init_int1e (mkng 1 0 0 0 1 1 1 1) 1 1 1 1 in
  let gs := g_size e in
  let m := mkarr (6 * gs) (fun p => if p mod gs =? 2 then None else if p <? 3 * gs then Some p else None) in
  nabla1i_1e Z.add Z.mul (fun z : Z => z) e (-2) (3 * gs) 0 1 1 0 m = None.
Proof. vm_compute. reflexivity. Qed.
