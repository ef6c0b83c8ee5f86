(** BoysSpec.v — the integrals the incomplete-gamma routines are meant to return. *)
From Coq Require Import Reals.
From Coquelicot Require Import Coquelicot.
From Verif Require Import Base.
Local Open Scope R_scope.

(** F_m(t) from [lower] to 1; the Boys function is [boys m t 0]. *)
Definition boys (m : nat) (t lower : R) : R :=
  RInt (fun u => u ^ (2 * m) * exp (- (t * (u * u)))) lower 1.

(** Cells 0..m of [f'] hold values related to their index by [P]; the rest of [f] is
    unchanged. *)
Definition first_cells (f f' : arr R) (m : Z) (P : nat -> R -> Prop) : Prop :=
  asize f' = asize f /\
  (forall i : nat, (Z.of_nat i <= m)%Z -> exists v, rd f' (Z.of_nat i) = Some v /\ P i v) /\
  (forall x : Z, (x < 0 \/ m < x)%Z -> acell f' x = acell f x).
