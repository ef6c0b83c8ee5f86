(** PropsNorm.v — property C48 (Gaussian normalisation).  Statements only. *)
From Coq Require Import Reals ZArith Factorial.
From Coquelicot Require Import Coquelicot.
From Verif Require Import NormModel NormProof.
Local Open Scope R_scope.

(** What is asked of the C library: at the arguments m + 3/2 the code uses, lgamma is the logarithm
    of Euler's integral of t^(x-1) exp (-t) over t > 0. *)
Definition log_gamma (lgamma : R -> R) : Prop :=
  forall m : nat, is_RInt_gen (fun t => Rpower t (INR m + 3 / 2 - 1) * exp (- t))
    (at_right 0) (Rbar_locally p_infty) (exp (lgamma (INR m + 3 / 2))).

(** the integral of f over r > 0 is l *)
Definition over_r (f : R -> R) (l : R) : Prop := is_RInt_gen f (at_point 0) (Rbar_locally p_infty) l.

(** C48.  The returned constant N is positive and is the one positive number with
    integral of r^2 (N r^n exp(-a r^2))^2 = 1. *)
Theorem C48_norm (lgamma : R -> R) (n : nat) (a : R) : log_gamma lgamma -> 0 < a ->
  let N := CINTgto_norm lgamma (Z.of_nat n) a in
  0 < N /\ over_r (fun r => r ^ 2 * (N * r ^ n * exp (- (a * r ^ 2))) ^ 2) 1 /\
  forall N', 0 < N' -> over_r (fun r => r ^ 2 * (N' * r ^ n * exp (- (a * r ^ 2))) ^ 2) 1 -> N' = N.
Proof. intros H. exact (norm_ok lgamma H n a). Qed.
Print Assumptions C48_norm.

(** It is the closed form given in the comment above the function (misc.c 78-85). *)
Theorem C48_closed (lgamma : R -> R) (n : nat) (a : R) : log_gamma lgamma -> 0 < a ->
  CINTgto_norm lgamma (Z.of_nat n) a =
  sqrt (2 ^ (2 * n + 3) * INR (fact (n + 1)) * Rpower (2 * a) (INR n + 3 / 2) / (INR (fact (2 * n + 2)) * sqrt PI)).
Proof. intros H. exact (norm_closed lgamma H n a). Qed.
Print Assumptions C48_closed.

(** Such a log-gamma exists (Euler's integral converges at every half integer). *)
Theorem C48_log_gamma_exists : exists lgamma, log_gamma lgamma.
Proof. exact lgamma_exists. Qed.
Print Assumptions C48_log_gamma_exists.

(** the s function with exponent 1/2: N^2 = 4 / sqrt pi *)
Example C48_ex lgamma : log_gamma lgamma -> CINTgto_norm lgamma 0 (1 / 2) = sqrt (4 / sqrt PI).
Proof.
  intros H. change 0%Z with (Z.of_nat 0). rewrite (C48_closed lgamma 0 (1 / 2) H) by (apply Rdiv_lt_0_compat; [exact Rlt_0_1|exact Rlt_0_2]).
  f_equal. cbn [Nat.mul Nat.add fact INR pow].
  replace (2 * (1 / 2)) with 1 by field. unfold Rpower. rewrite ln_1, Rmult_0_r, exp_0.
  field. apply Rgt_not_eq. apply sqrt_lt_R0. exact PI_RGT_0.
Qed.
