(** PropsRec3.v — property C53: the three- and four-centre overlap recurrences.  Statements only. *)
From Coq Require Import Reals Ring.
From Verif Require Import Base EnvModel RecModel RecSpec RecMoments Rec2Final Rec3Proof GaussInt Rec3RModel Rec3Real.
Open Scope Z_scope.

Section Props.
  Context {F : Type} (zero one : F) (add mul sub : F -> F -> F) (opp : F -> F) (inj : Z -> F).
  Hypothesis Rth : ring_theory zero one add mul sub opp (@eq F).
  Hypothesis (inj0 : inj 0 = zero).
  Variable (ng : ngT).

  (** Three centres A, B, C with common mean P: whatever the array held, every cell the
      integral needs is the table's, nothing outside the three axes is written. *)
  Theorem C53_three_centre_table la lb lc ci cj ck b z0 (P A B C : Z -> F) S (g : arr F) :
    0 <= la + IINC ng -> 0 <= lb + JINC ng -> 0 <= lc + KINC ng ->
    let e := init_int3c1e ng la lb lc ci cj ck in
    (forall ax, 0 <= ax < 3 -> gauss3 add mul inj b (sub (P ax) (A ax)) (sub (P ax) (B ax)) (sub (P ax) (C ax)) (S ax)) ->
    (forall ax, 0 <= ax < 3 -> S ax 0 0 0 = origin one z0 ax) ->
    3 * g_size e <= asize g ->
    wp (g3c1e_ovlp one add mul sub opp inj e z0 b (fun ax => sub (B ax) (P ax)) (fun ax => sub (A ax) (B ax))
          (fun ax => sub (B ax) (C ax)) g) (fun g' =>
      (forall ax i j k, 0 <= ax < 3 -> 0 <= i <= li_ceil e -> 0 <= j <= lj_ceil e -> 0 <= k <= lk_ceil e ->
         rd g' (ax * g_size e + (g_stride_i e * i + g_stride_j e * j + g_stride_k e * k)) = Some (S ax i j k)) /\
      Frame (fun p => 0 <= p < 3 * g_size e) g g').
  Proof.
    exact (fun Hi Hj Hk HS HO => g3c1e_ok zero one add mul sub opp inj Rth inj0 ng la lb lc ci cj ck Hi Hj Hk b z0 P A B C S HS HO
      _ _ _ (fun ax _ => eq_refl) (fun ax _ => eq_refl) (fun ax _ => eq_refl) g).
  Qed.

  (** Four centres; [big] is the choice of the pair with the larger total order as the base. *)
  Theorem C53_four_centre_table la lb lc ld ci cj ck cl b z0 (P A B C D : Z -> F) S (g buf : arr F) :
    0 <= la + IINC ng -> 0 <= lb + JINC ng -> 0 <= lc + KINC ng -> 0 <= ld + LINC ng ->
    let e := init_int4c1e ng la lb lc ld ci cj ck cl in
    let nmax := li_ceil e + lj_ceil e in let mmax := lk_ceil e + ll_ceil e in
    let big := nmax >=? mmax in
    let r1 := fun ax => if li_ceil e >? lj_ceil e then A ax else B ax in
    let r2 := fun ax => if lk_ceil e >? ll_ceil e then C ax else D ax in
    (forall ax, 0 <= ax < 3 ->
      gauss2 add mul inj b b b (sub (P ax) (A ax)) (sub (P ax) (B ax)) (sub (P ax) (C ax)) (sub (P ax) (D ax)) (S ax)) ->
    (forall ax, 0 <= ax < 3 -> S ax 0 0 0 0 = origin one z0 ax) ->
    3 * g_size e <= asize g ->
    3 * ((nmax + mmax + 1) * (Z.max nmax mmax + 1)) <= asize buf ->
    wp (g4c1e_ovlp one add mul sub opp e z0 (fun i => mul (inj i) b)
          (fun ax => sub (if big then r1 ax else r2 ax) (P ax))
          (fun ax => if big then sub (r1 ax) (r2 ax) else sub (r2 ax) (r1 ax))
          (base_diff sub (li_ceil e >? lj_ceil e) A B) (base_diff sub (lk_ceil e >? ll_ceil e) C D) g buf) (fun g' =>
      (forall ax i j k l, 0 <= ax < 3 -> 0 <= i <= li_ceil e -> 0 <= j <= lj_ceil e -> 0 <= k <= lk_ceil e -> 0 <= l <= ll_ceil e ->
         rd g' (ax * g_size e + (g_stride_i e * i + g_stride_k e * k + g_stride_l e * l + g_stride_j e * j)) = Some (S ax i j k l)) /\
      Frame (fun p => 0 <= p < 3 * g_size e) g g').
  Proof.
    exact (fun Hi Hj Hk Hl HS HO => g4c1e_ok zero one add mul sub opp inj Rth inj0
      (init_int4c1e ng la lb lc ld ci cj ck cl) (rlay_4c1e ng la lb lc ld ci cj ck cl Hi Hj Hk Hl) eq_refl b z0 _ P A B C D S
      (fun i _ => eq_refl) HS HO _ _ _ _ g buf (fun ax _ => eq_refl) (fun ax _ => eq_refl) (fun ax _ => eq_refl) (fun _ ax _ => eq_refl)).
  Qed.
End Props.
Print Assumptions C53_three_centre_table.
Print Assumptions C53_four_centre_table.

Open Scope R_scope.

(** With the primitive factors of the loops (common_factor SQRTPI*M_PI, the screening
    exponential and the norm), the cells are one constant per axis times the integrals over the
    line, and the three constants multiply to the remaining coefficient [c]. *)
Theorem C53_three_centre_integrals ng la lb lc ci cj ck c ai aj ak (A B C : Z -> R) g :
  (0 <= la + IINC ng)%Z -> (0 <= lb + JINC ng)%Z -> (0 <= lc + KINC ng)%Z ->
  let e := init_int3c1e ng la lb lc ci cj ck in
  0 < ai -> 0 < aj -> 0 < ak -> (3 * g_size e <= asize g)%Z ->
  wp (R_g3c1e e (triple_fac (c * (sqrt PI * PI)) ai aj ak A B C) ai aj ak A B C g) (fun g' =>
    Frame (fun p => (0 <= p < 3 * g_size e)%Z) g g' /\
    exists s : Z -> R, s 0%Z * s 1%Z * s 2%Z = c /\
    forall ax i j k, (0 <= ax < 3)%Z -> (Z.of_nat i <= li_ceil e)%Z -> (Z.of_nat j <= lj_ceil e)%Z -> (Z.of_nat k <= lk_ceil e)%Z ->
      exists I,
        RIntLine (fun x => (x - A ax) ^ i * (x - B ax) ^ j * (x - C ax) ^ k *
           exp (- (ai * ((x - A ax) * (x - A ax))) - aj * ((x - B ax) * (x - B ax)) - ak * ((x - C ax) * (x - C ax)))) I /\
        rd g' (ax * g_size e + (g_stride_i e * Z.of_nat i + g_stride_j e * Z.of_nat j + g_stride_k e * Z.of_nat k)) = Some (s ax * I)).
Proof. exact (fun Hi Hj Hk => R_g3c1e_cells ng la lb lc ci cj ck Hi Hj Hk c ai aj ak A B C g). Qed.
Print Assumptions C53_three_centre_integrals.

Theorem C53_four_centre_integrals ng la lb lc ld ci cj ck cl c ai aj ak al (A B C D : Z -> R) g buf :
  (0 <= la + IINC ng)%Z -> (0 <= lb + JINC ng)%Z -> (0 <= lc + KINC ng)%Z -> (0 <= ld + LINC ng)%Z ->
  let e := init_int4c1e ng la lb lc ld ci cj ck cl in
  0 < ai -> 0 < aj -> 0 < ak -> 0 < al ->
  let nmax := (li_ceil e + lj_ceil e)%Z in let mmax := (lk_ceil e + ll_ceil e)%Z in
  (3 * g_size e <= asize g)%Z -> (3 * ((nmax + mmax + 1) * (Z.max nmax mmax + 1)) <= asize buf)%Z ->
  wp (R_g4c1e e (quad_fac (c * (sqrt PI * PI)) ai aj ak al A B C D) ai aj ak al A B C D g buf) (fun g' =>
    Frame (fun p => (0 <= p < 3 * g_size e)%Z) g g' /\
    exists s : Z -> R, s 0%Z * s 1%Z * s 2%Z = c /\
    forall ax i j k l, (0 <= ax < 3)%Z -> (Z.of_nat i <= li_ceil e)%Z -> (Z.of_nat j <= lj_ceil e)%Z ->
      (Z.of_nat k <= lk_ceil e)%Z -> (Z.of_nat l <= ll_ceil e)%Z ->
      exists I,
        RIntLine (fun x => (x - A ax) ^ i * (x - B ax) ^ j * (x - C ax) ^ k * (x - D ax) ^ l *
           exp (- (ai * ((x - A ax) * (x - A ax))) - aj * ((x - B ax) * (x - B ax)) - ak * ((x - C ax) * (x - C ax))
                - al * ((x - D ax) * (x - D ax)))) I /\
        rd g' (ax * g_size e + (g_stride_i e * Z.of_nat i + g_stride_k e * Z.of_nat k + g_stride_l e * Z.of_nat l
           + g_stride_j e * Z.of_nat j)) = Some (s ax * I)).
Proof. exact (fun Hi Hj Hk Hl => R_g4c1e_cells ng la lb lc ld ci cj ck cl Hi Hj Hk Hl c ai aj ak al A B C D g buf). Qed.
Print Assumptions C53_four_centre_integrals.

Open Scope Z_scope.

(** Runs over the integers: p shells on A = 0, B = 1, C = 3 (and D = 4), mean 2, second moment 5.
    The cell (1,1,1) of the z axis is E[(x)(x-1)(x-3)] = 5*(2+1-1) + 2*1*(-1) times the weight 7. *)
Example C53_run3 :
  let e := init_int3c1e (mkng 0 0 0 0 0 0 0 1) 1 1 1 1 1 1 in
  (g <- g3c1e_ovlp 1 Z.add Z.mul Z.sub Z.opp (fun z => z) e 7 5 (fun _ => 1 - 2) (fun _ => 0 - 1) (fun _ => 1 - 3) (uninit (3 * g_size e)) ;;
   rd g (2 * g_size e + (g_stride_i e + g_stride_j e + g_stride_k e))) = Some (7 * (5 * (2 + 1 - 1) + 2 * 1 * (-1))).
Proof. vm_compute. reflexivity. Qed.

(** (1,1,1,1): 3*5^2 + 5*(all pairs of the remaining factors) + 2*1*(-1)*(-2) *)
Example C53_run4 :
  let e := init_int4c1e (mkng 0 0 0 0 0 0 0 1) 1 1 1 1 1 1 1 1 in
  (g <- g4c1e_ovlp 1 Z.add Z.mul Z.sub Z.opp e 7 (fun i => 5 * i) (fun _ => 1 - 2) (fun _ => 1 - 4) (fun _ => 1 - 0) (fun _ => 4 - 3)
          (uninit (3 * g_size e)) (uninit 45) ;;
   rd g (2 * g_size e + (g_stride_i e + g_stride_j e + g_stride_k e + g_stride_l e))) =
   Some (7 * (3 * 5 * 5 + 5 * (2*1 + 2*(-1) + 2*(-2) + 1*(-1) + 1*(-2) + (-1)*(-2)) + 2*1*(-1)*(-2))).
Proof. vm_compute. reflexivity. Qed.
