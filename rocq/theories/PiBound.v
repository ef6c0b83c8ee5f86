(** PiBound.v — twenty digits of PI, from Machin's formula. *)
From Coq Require Import Reals Ratan Lra Lia.
Local Open Scope R_scope.

Lemma atan_between x N : 0 < x < 1 ->
  sum_f_R0 (tg_alt (Ratan_seq x)) (S (2 * N)) <= atan x <= sum_f_R0 (tg_alt (Ratan_seq x)) (2 * N).
Proof.
  intros H. rewrite atan_eq_ps_atan by exact H. unfold ps_atan.
  destruct (in_int x) as [h|n]; [|exfalso; apply n; lra].
  destruct (ps_atan_exists_1 x h) as [v Hv].
  apply alternated_series_ineq; [apply Ratan_seq_decreasing; lra|apply Ratan_seq_converging; lra|exact Hv].
Qed.

Lemma term n d : tg_alt (Ratan_seq (/ IZR (Zpos d))) n
  = (-1) ^ n / (IZR (Zpos d ^ Z.of_nat (2 * n + 1)) * IZR (Z.of_nat (2 * n + 1))).
Proof.
  unfold tg_alt, Ratan_seq. rewrite pow_inv. rewrite <- pow_IZR, INR_IZR_INZ.
  unfold Rdiv. rewrite Rinv_mult. ring.
Qed.

Lemma PI_digits : 314159265358979323846 / 10 ^ 20 <= PI <= 314159265358979323847 / 10 ^ 20.
Proof.
  pose proof (atan_between (/ 5) 7 ltac:(lra)) as A.
  pose proof (atan_between (/ 239) 2 ltac:(lra)) as B.
  pose proof Machin_4_5_239 as M.
  cbn [Nat.mul Nat.add sum_f_R0] in A, B. repeat rewrite term in A. repeat rewrite term in B.
  repeat match goal with H : context [IZR ?z] |- _ =>
    let v := eval vm_compute in z in progress change z with v in H end.
  cbn [pow] in A, B |- *. lra.
Qed.
