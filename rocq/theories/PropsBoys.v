(** PropsBoys.v — C40: the incomplete-gamma values against their defining integrals. *)
From Coq Require Import Reals Lra.
From Verif Require Import Base BoysModel BoysSpec BoysProof.
Local Open Scope R_scope.

(** gamma_inc_like: every order up to m is the integral, from below and within the relative
    size [sml] of the last series term kept; the loops terminate. *)
Theorem C40_gamma (sml : R) (f : arr R) (t : R) (m : Z) :
  (0 <= m < asize f)%Z -> (m < 40)%Z -> 0 <= t -> 0 < sml < 1 ->
  exists n, forall fuel, (n <= fuel)%nat -> exists f', gamma_inc_like sml fuel f t m = Some f' /\
    first_cells f f' m (fun i v => 0 <= boys i t 0 - v <= sml * boys i t 0).
Proof. exact (gamma_inc_ok sml f t m). Qed.
Print Assumptions C40_gamma.

(** At t = 0 and on the upward branch the value is the integral itself. *)
Theorem C40_gamma_exact (sml : R) (fuel : nat) (f : arr R) (m : Z) : (0 <= m < asize f)%Z ->
  (exists f', gamma_inc_like sml fuel f 0 m = Some f' /\ first_cells f f' m (fun i v => v = boys i 0 0)) /\
  (forall t tp, rd TURNOVER_POINT m = Some tp -> 0 < t -> tp <= t ->
   exists f', gamma_inc_like sml fuel f t m = Some f' /\ first_cells f f' m (fun i v => v = boys i t 0)).
Proof. exact (fun H => conj (gamma_t0 sml fuel f m H) (fun t tp => gamma_up sml fuel f t m tp H)). Qed.
Print Assumptions C40_gamma_exact.

(** fmt_erfc_like: the same with a lower limit, as long as t lower² is at most 200 ... *)
Theorem C40_erfc (sml : R) (f : arr R) (t l : R) (m : Z) :
  (0 <= m < asize f)%Z -> (m < 40)%Z -> 0 <= t -> 0 <= l <= 1 -> t * (l * l) <= 200 -> 0 < sml < 1 ->
  exists n, forall fuel, (n <= fuel)%nat -> exists f', fmt_erfc_like sml fuel f t l m = Some f' /\
    first_cells f f' m (fun i v => 0 <= boys i t l - v <= sml * boys i t 0).
Proof. exact (erfc_ok sml f t l m). Qed.
Print Assumptions C40_erfc.

(** ... and above it the routine returns zeros for integrals no larger than exp(-200). *)
Theorem C40_erfc_cutoff (sml : R) (fuel : nat) (f : arr R) (t l : R) (m : Z) :
  (0 <= m < asize f)%Z -> 0 < l <= 1 -> 0 <= t -> 200 < t * (l * l) ->
  exists f', fmt_erfc_like sml fuel f t l m = Some f' /\
    first_cells f f' m (fun i v => v = 0 /\ 0 <= boys i t l <= exp (- 200)).
Proof. exact (erfc_zero sml fuel f t l m). Qed.
Print Assumptions C40_erfc_cutoff.

(** Orders of 40 and more (root counts 20 and up ask for them) read TURNOVER_POINT past its
    end, whatever t > 0 is. *)
Theorem C40_order40_refuted : exists (f : arr R) (m : Z), (0 <= m < asize f)%Z /\
  forall sml fuel t, 0 < t -> gamma_inc_like sml fuel f t m = None.
Proof. exact order40_bad. Qed.
Print Assumptions C40_order40_refuted.

(** t = 1, m = 2 takes the upward branch; the second value satisfies the recurrence
    2 F_1 = F_0 - exp(-1).  t = 1/2, m = 2 takes the series. *)
Example C40_ex : (exists f', gamma_inc_like SML_FLOAT64 0 (uninit 3) 1 2 = Some f' /\
    exists a b, rd f' 0 = Some a /\ rd f' 1 = Some b /\ 2 * b = a - exp (- 1) /\ a = boys 0 1 0) /\
  (exists n f', gamma_inc_like SML_FLOAT64 n (uninit 3) (1/2) 2 = Some f').
Proof.
  split.
  - destruct (turnover_rd 2 ltac:(lia)) as [z [Hz _]].
    assert (Hz2 : z = 866025403784%Z).
    { unfold rd, inb, TURNOVER_POINT in Hz. cbn in Hz. injection Hz as Hz.
      apply eq_IZR. apply Rmult_eq_reg_r with (/ 10 ^ 12); [symmetry; exact Hz|]. apply Rinv_neq_0_compat. lra. }
    subst z.
    destruct (proj2 (C40_gamma_exact SML_FLOAT64 0 (uninit 3) 2 ltac:(cbn; lia)) 1 _ Hz ltac:(lra) ltac:(lra)) as [f' [E [_ [C _]]]].
    exists f'. split; [exact E|].
    destruct (C 0%nat ltac:(lia)) as [a [Ha Ea]]. destruct (C 1%nat ltac:(lia)) as [b [Hb Eb]].
    exists a, b. split; [exact Ha|]. split; [exact Hb|]. split; [|exact Ea].
    subst. pose proof (boys_rec 0 1 0) as B. rewrite pow_i in B by lia. cbn [INR] in B.
    replace (- (1 * (0 * 0))) with 0 in B by ring. replace (Ropp 1) with (-1) in B by lra. lra.
  - assert (S : 0 < SML_FLOAT64 < 1).
    { unfold SML_FLOAT64. split; [apply Rinv_0_lt_compat, pow_lt; lra|].
      assert (1 < 2 ^ 53) by (apply Rlt_pow_R1; [lra|lia]).
      apply Rmult_lt_reg_l with (2 ^ 53); [lra|]. rewrite Rinv_r by lra. lra. }
    destruct (C40_gamma SML_FLOAT64 (uninit 3) (1/2) 2 ltac:(cbn; lia) ltac:(lia) ltac:(lra) S) as [n H].
    destruct (H n (le_n n)) as [f' [E _]]. exists n, f'. exact E.
Qed.
