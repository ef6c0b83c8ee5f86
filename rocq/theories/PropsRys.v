(** PropsRys.v — C41 (table bounds), C42 (failure reports), C43 (Slater-geminal tables) and
    C55 (order table) of the root solvers. *)
From Coq Require Import Reals Lra.
From Verif Require Import Base BoysModel RysModel RysSpec RysProof RysDisp OrderTab OrderProof StgModel StgSpec StgProof.

Section C41.
  Variable diagonalize : Z -> (Z -> option R) -> (Z -> option R) -> Z * (Z -> R) * (Z -> R).
  Variable polynomial_roots : (Z -> option R) -> Z -> Z * (Z -> R).
  Variable rys_root : Z -> R -> (Z -> R) * (Z -> R).
  Variable polyfits : Z -> R -> R -> Z * (Z -> R) * (Z -> R).
  Variable tabs : P3 -> prec.
  Variables SR0 SR1 SW0 SW1 LRT LWW : arr R.
  Notation lib fuel := (library fuel JACOBI_COEF_ORDER diagonalize polynomial_roots rys_root polyfits tabs).
  Notation roots fuel := (CINTrys_roots (lib fuel) SR0 SR1 SW0 SW1 LRT LWW).

  (** Up to 14 roots (19 without quadmath.h) every table and stack access of CINTrys_roots is
      inside its array and reads a written cell, the loops terminate, and unless an error is
      reported all roots and weights are written.  Missing from C41: larger root counts, where
      it is false (below). *)
  Theorem C41_roots_partial (n : Z) (x : R) (u w : arr R) :
    table SR0 496 -> table SR1 496 -> table SW0 496 -> table SW1 496 -> table LRT 496 -> table LWW 496 ->
    (quad_build tabs /\ 1 <= n <= 14 \/ no_quad_build tabs /\ 1 <= n <= 19) ->
    (0 <= x)%R -> n <= asize u -> n <= asize w ->
    exists N, forall fuel, (N <= fuel)%nat -> good_result n (roots fuel n x u w).
  Proof.
    intros T0 T1 T2 T3 T4 T5 B Hx Hu Hw.
    destruct (lib_runs JACOBI_COEF_ORDER order_ok diagonalize polynomial_roots rys_root polyfits tabs n x 0) as [N H];
      [intuition|intuition lia|exact Hx|lra|].
    exists N. intros fuel Hf. apply (okd_good n u w). apply roots_safe; auto. intuition lia.
  Qed.

  (** The same for the short-range solver, with a positive lower limit, up to 19 roots. *)
  Theorem C41_sr_partial (fit : bool) (n : Z) (x l : R) (u w : arr R) :
    quad_build tabs \/ no_quad_build tabs -> 1 <= n <= 19 ->
    (0 <= x)%R -> (0 < l <= 1)%R -> n <= asize u -> n <= asize w ->
    exists N, forall fuel, (N <= fuel)%nat -> good_result n (CINTsr_rys_roots (lib fuel) fit n x l u w).
  Proof.
    intros B Hn Hx Hl Hu Hw.
    destruct (lib_runs JACOBI_COEF_ORDER order_ok diagonalize polynomial_roots rys_root polyfits tabs n x l) as [N H];
      [destruct B; [left; split; [assumption|right; lra]|right; assumption]|lia|exact Hx|lra|].
    exists N. intros fuel Hf. apply (okd_good n u w). apply sr_safe; auto. lia.
  Qed.

  (** 15 roots and more with quadmath.h: Flocke's recipe starts past the end of the
      64 recursion coefficients, for every x between 3e-7 and 50. *)
  Theorem C41_quad_refuted (fuel : nat) (n : Z) (x : R) (u w : arr R) :
    quad_build tabs -> 15 <= n -> (SMALLX_LIMIT < x <= 50)%R -> roots fuel n x u w = None.
  Proof. exact (roots_oob fuel JACOBI_COEF_ORDER diagonalize polynomial_roots rys_root polyfits tabs SR0 SR1 SW0 SW1 LRT LWW n x u w). Qed.

  (** 32 = MXRYSROOTS roots: the small-x tables end with 31 roots. *)
  Theorem C41_32_refuted (fuel : nat) (x : R) (u w : arr R) :
    table SR0 496 -> (x <= SMALLX_LIMIT)%R -> roots fuel 32 x u w = None.
  Proof. exact (roots_32 fuel JACOBI_COEF_ORDER diagonalize polynomial_roots rys_root polyfits tabs SR0 SR1 SW0 SW1 LRT LWW x u w). Qed.

  (** 21 to 24 short-range roots, which CINTsr_rys_roots offers: TURNOVER_POINT is read past
      its end. *)
  Theorem C41_sr_refuted (fuel : nat) (fit : bool) (n : Z) (x l : R) (u w : arr R) :
    21 <= n <= 24 -> (0 < x)%R -> (x * (l * l) <= 200)%R -> (25 / 100 <= l < 35 / 100)%R ->
    CINTsr_rys_roots (lib fuel) fit n x l u w = None.
  Proof. exact (sr_oob fuel JACOBI_COEF_ORDER diagonalize polynomial_roots rys_root polyfits tabs fit n x l u w). Qed.
End C41.
Print Assumptions C41_roots_partial.
Print Assumptions C41_sr_partial.
Print Assumptions C41_quad_refuted.
Print Assumptions C41_32_refuted.
Print Assumptions C41_sr_refuted.

(** There are tables of these sizes. *)
Definition ex_prec (rows len extra : Z) : prec :=
  mkprec (of_fun rows (fun _ => 1%R)) (of_fun rows (fun _ => 1%R)) (of_fun len (fun _ => 1%R)) (of_fun len (fun _ => 1%R))
    (of_fun (rows * (rows + 1) / 2) (fun _ => 1%R)) extra (1 / 2)%R 0%R.
Definition ex_tabs (p : P3) : prec :=
  match p with DP => ex_prec 48 88 20 | LP => ex_prec 48 88 24 | QP => ex_prec 64 64 36 end.
Example C41_ex : quad_build ex_tabs /\
  forall fuel, CINTrys_roots (library fuel JACOBI_COEF_ORDER (fun _ _ _ => (0, (fun _ => 0%R), (fun _ => 0%R)))
    (fun _ _ => (0, (fun _ => 0%R))) (fun _ _ => ((fun _ => 0%R), (fun _ => 0%R))) (fun _ _ _ => (0, (fun _ => 0%R), (fun _ => 0%R))) ex_tabs)
    (of_fun 496 (fun _ => 1%R)) (of_fun 496 (fun _ => 1%R)) (of_fun 496 (fun _ => 1%R)) (of_fun 496 (fun _ => 1%R))
    (of_fun 496 (fun _ => 1%R)) (of_fun 496 (fun _ => 1%R)) 15 1 (uninit 15) (uninit 15) = None.
Proof.
  assert (Q : quad_build ex_tabs).
  { assert (T : forall n, table (of_fun n (fun _ => 1%R)) n).
    { intros n. split; [reflexivity|]. intros i Hi. exists 1%R. exact (rd_of_fun n (fun _ => 1%R) i Hi). }
    unfold quad_build, has_tables, ex_tabs, ex_prec. cbn [pALPHA pBETA pRN pSN pCOEF pEXTRA pSML].
    repeat split; try apply T; try reflexivity; lra. }
  split; [exact Q|]. intros fuel. apply C41_quad_refuted; [exact Q|lia|]. unfold SMALLX_LIMIT. lra.
Qed.

(** ** C42 *)
(** The error code of CINTrys_roots: whenever it is nonzero (the program is then ended), some
    solver was called and every solver that was called failed. *)
Theorem C42_roots run S0 S1 W0 W1 RT WW n x u w e log u' w' :
  CINTrys_roots run S0 S1 W0 W1 RT WW n x u w = Some (e, (log, u', w')) -> e <> 0 -> log <> [] /\ all_failed log.
Proof. exact (roots_log run S0 S1 W0 W1 RT WW n x u w e log u' w'). Qed.
Print Assumptions C42_roots.

(** The short-range solver, for the supported root counts other than 17 and 18 and lower limits
    for which it has a solver: failure is reported exactly if every solver that was called
    failed, and at least one was called. *)
Theorem C42_sr_partial run fit n x l u w e log u' w' : 1 <= n <= 24 -> n <> 17 -> n <> 18 -> below_limit n l ->
  CINTsr_rys_roots run fit n x l u w = Some (e, (log, u', w')) -> log <> [] /\ (e <> 0 <-> all_failed log).
Proof. exact (sr_fails run fit n x l u w e log u' w'). Qed.
Print Assumptions C42_sr_partial.

(** With 17 or 18 roots failure is reported although the one solver called succeeded. *)
Theorem C42_17_18_refuted (run : solver -> Z -> R -> R -> arr R -> arr R -> option res) fit n x l u w :
  n = 17 \/ n = 18 -> (forall s u w, run s n x l u w = Some (0, u, w)) -> (0 <= l < 65 / 100)%R ->
  exists s st, CINTsr_rys_roots run fit n x l u w = Some (1, ([(s, 0)], fst st, snd st)).
Proof. exact (sr_17_bad run fit n x l u w). Qed.
Print Assumptions C42_17_18_refuted.

(** At and above the limit failure is reported without any solver being called. *)
Theorem C42_no_solver_refuted run fit n x l u w b : sr_limit n = Some b -> (b <= l)%R -> 7 <= n <= 24 ->
  CINTsr_rys_roots run fit n x l u w = Some (1, ([], u, w)).
Proof. exact (sr_no_solver run fit n x l u w b). Qed.
Print Assumptions C42_no_solver_refuted.

(** 7 roots, lower limit 0.7: the quadruple-precision solver fails, its fallback succeeds. *)
Example C42_ex : CINTsr_rys_roots (fun s _ _ _ u w => Some (match s with Jacobi QP => 3 | _ => 0 end, u, w)) false 7 1 (7 / 10)
    (uninit 7) (uninit 7) = Some (0, ([(Jacobi QP, 3); (Schmidt QP, 0)], uninit 7, uninit 7)) /\ below_limit 7 (7 / 10).
Proof.
  split; [|cbn; lra]. unfold CINTsr_rys_roots, segment_solve1. cbv beta iota zeta.
  destruct (Rlt_dec (7 / 10) (5 / 10)); [lra|]. destruct (Rlt_dec (7 / 10) 1); [reflexivity|lra].
Qed.

(** ** C43 *)
(** For t >= 0 and 1e-7 <= u < 1e3 the block belongs to this root count, both coordinates are in
    [-1,1] and the block is the one of u's decade.  Missing from C43: the end point 1e3 and
    the values below 1e-7 that are let through. *)
Theorem C43_select_partial (nroots : Z) (ta ua : R) : 1 <= nroots -> (0 <= ta)%R -> (/ 10 ^ 7 <= ua < 10 ^ 3)%R ->
  exists s, stg_select nroots ta ua = Some s /\ inside_table nroots s /\ right_decade ua s.
Proof. exact (select_ok nroots ta ua). Qed.
Print Assumptions C43_select_partial.

Theorem C43_u1000_refuted (nroots : Z) (ta : R) : (0 <= ta)%R ->
  exists s, stg_select nroots ta (10 ^ 3) = Some s /\ ~ inside_table nroots s.
Proof.
  intros H. destruct (select_u1000 nroots ta H) as [s [E I]]. exists s. split; [exact E|].
  intros (_ & J & _). rewrite I in J. lia.
Qed.
Print Assumptions C43_u1000_refuted.

Theorem C43_small_refuted (nroots : Z) (ta ua : R) : (0 <= ta)%R -> (/ 10 ^ 8 < ua < / 10 ^ 7)%R ->
  exists s, stg_select nroots ta ua = Some s /\ ~ inside_table nroots s.
Proof.
  intros H U. destruct (select_small nroots ta ua H U) as [s [E I]]. exists s. split; [exact E|].
  intros (_ & _ & _ & _ & _ & _ & J). lra.
Qed.
Print Assumptions C43_small_refuted.

Example C43_ex : exists s, stg_select 3 0 1 = Some s /\ sel_base s = 58800 /\ sel_it s = 0 /\ sel_iu s = 7 /\ sel_offset s = 4116.
Proof.
  unfold stg_select, log10. cbv zeta. rewrite ln_1. replace (0 / ln 10 + 7)%R with 7%R by (pose proof ln10_pos; field; lra).
  assert (T : forall z r, (IZR z = r)%R -> 0 <= z -> Rtrunc r = z).
  { intros z r Hr Hz. subst r. assert (0 <= IZR z)%R by (apply IZR_le; exact Hz). destruct (trunc_nonneg (IZR z) H) as [_ [A B]].
    apply le_IZR in A. rewrite <- plus_IZR in B. apply lt_IZR in B. lia. }
  destruct (Rlt_dec (1968299 / 100) 0); [lra|]. destruct (Rlt_dec 1 0); [lra|]. rewrite sqrt_0.
  rewrite (T 0 0%R), (T 7 7%R) by (reflexivity || lia). cbn [Z.ltb Z.compare Z.gtb orb]. eexists. split; [reflexivity|]. cbn. auto.
Qed.

(** ** C55 *)
(** All 64 rows of the table in the source are rearrangements of 0..i. *)
Theorem C55_rows : order_table JACOBI_COEF_ORDER 64.
Proof. exact order_ok. Qed.
Print Assumptions C55_rows.

(** With any such order table the moments are the full sums of coefficient times
    incomplete-gamma value. *)
Theorem C55_moments (fuel : nat) (p : prec) (ord : arr Z) (rows : Z) : order_table ord rows ->
  forall n t l mus fmt, fmt_erfc_like (pSML p) fuel (uninit (MXRYSROOTS * 2)) t l (n - 1) = Some fmt ->
    0 <= n <= rows -> n <= asize mus -> forall C F,
    (forall i k, 0 <= i < n -> 0 <= k <= i -> rd (pCOEF p) (i * (i + 1) / 2 + k) = Some (C i k)) ->
    (forall k, 0 <= k < n -> rd fmt k = Some (F k)) ->
    exists mus', naive_jacobi_moments fuel p ord n t l mus = Some mus' /\
      forall i, 0 <= i < n -> rd mus' i = Some (sum_f_R0 (fun k => C i (Z.of_nat k) * F (Z.of_nat k))%R (Z.to_nat i)).
Proof. exact (naive_sum fuel p ord rows). Qed.
Print Assumptions C55_moments.

(** Row 3 visits 0, 1, 3, 2. *)
Example C55_ex : map (rd JACOBI_COEF_ORDER) [6; 7; 8; 9] = map Some [0; 1; 3; 2].
Proof. vm_compute. reflexivity. Qed.
