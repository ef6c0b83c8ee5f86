(** ScreenSpec.v — vocabulary for the theorems about screening. *)
From Coq Require Import Reals.
From Verif Require Import Base Loop2eModel Loop2eSpec Loop3Model OptSpec OptPair.
Local Open Scope R_scope.

(** the documented cutoff for the user's value [u] = env[PTR_EXPCUTOFF] *)
Definition user_cutoff (u : R) : R := if Req_EM_T u 0 then 60 else Rmax 40 u.

(** minus the logarithm of the estimated size of the primitive pair (ip, jp) of shells i, j with
    polynomial degree [L]; [lm i p] is the logarithm of the largest coefficient of primitive p of shell i *)
Definition pair_est (V : view) (ev : Z -> R) (lm : Z -> Z -> R) (i j L ip jp : Z) : R :=
  estimate (ex V ev i ip) (ex V ev j jp) (dist_sq (ctr V ev i) (ctr V ev j))
    (log_size (last_ex V ev i) (last_ex V ev j) (dist_sq (ctr V ev i) (ctr V ev j)) (ev 8%Z) L) (lm i ip) (lm j jp).

(** the quartet reaches the kernel and has a non-zero prefactor *)
Definition contributes (q : quartets R) (ip jp kp lp : Z) : Prop :=
  survives q ip jp kp lp = true /\ e_ij q ip jp * e_kl q kp lp <> 0.
Definition contributes3 (t : triples R) (ip jp kp : Z) : Prop :=
  t_empty t = false /\ t_skip t ip jp = false /\ t_g0 t ip jp kp = true /\ t_e t ip jp <> 0.

(** shells i = 0 .. nbas-1 have positive exponents; [lm] are the logarithms of their largest coefficients *)
Definition good_shells (nbas : Z) (V : view) (ev : Z -> R) (lm : Z -> Z -> R) : Prop :=
  forall i p, (0 <= i < nbas)%Z -> (0 <= p < v_np V i)%Z ->
    0 < ex V ev i p /\ log_largest (cf V ev i p) (v_nc V i) (lm i p).
