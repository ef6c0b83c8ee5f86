(** WholeSpinSpec.v — vocabulary for the theorems about whole spinor entry points: matrix elements of two-component operators. *)
From Coq Require Import Reals.
From Coquelicot Require Import Coquelicot.
From Verif Require Import Base SpinorSpec IntgSpec WholeSpec.
Local Open Scope R_scope.

(** Pauli matrices and the unit matrix; spin index 0 is alpha, 1 is beta *)
Definition pauli (c : spin) (s u : Z) : C :=
  match c with
  | S1 => if (s =? u)%Z then RtoC 1 else RtoC 0
  | SX => if (s =? u)%Z then RtoC 0 else RtoC 1
  | SY => if (s =? u)%Z then RtoC 0 else if (s =? 0)%Z then Copp Ci else Ci
  | SZ => if (s =? u)%Z then if (s =? 0)%Z then RtoC 1 else RtoC (-1) else RtoC 0
  end.
(** element (s, u) of the two-component operator with parts [S]: the sum of sigma_c S c over c = x, y, z, 1, or S 1 alone *)
Definition spin_sum (si : bool) (s u : Z) (S : spin -> C) : C :=
  fold_right Cplus (RtoC 0) (map (fun c => pauli c s u * S c)%C (stored si)).
(** <i| M |j>: [M a b s u] are the elements between Cartesian functions a with spin s and b with spin u; spinor m of a shell with
    angular momentum l and kappa is the combination of these with the coefficients [Cj kappa l m s a] of the tables (SpinorSpec) *)
Definition two_comp (tR tI : Z -> R) (kpi li kpj lj mi mj : Z) (M : Z -> Z -> Z -> Z -> C) : C :=
  csumz (ncart lj) (fun b => csumz 2 (fun u => csumz (ncart li) (fun a => csumz 2 (fun s =>
    Cconj (Cj tR tI kpi li mi s a) * M a b s u * Cj tR tI kpj lj mj u b)%C))).
