(** OperSpec.v — the value of an operator expression as integrals over real functions.

    The expressions and their words are those of IntgSpec; here the products of one-dimensional
    integrals are those of QuadSpec: integrals with 1/r, erf(omega r)/r, erfc(omega r)/r. *)
From Coq Require Import Reals.
From Coquelicot Require Import Coquelicot.
From Verif Require Import Base OpSpec IntgSpec QuadSpec.
Local Open Scope R_scope.

Section Value.
  Variables (a : centre -> R) (A : centre -> Z -> R) (O : Z -> R) (pw : Z -> centre -> Z).

  (** the function on centre [c], axis [ax]: the word of the term applied to the Gaussian *)
  Definition fun_at (m : mono) (ax : Z) (c : centre) : R -> R := word_fun A O ax (word_at m ax c) (base a A pw ax c).
  (** the powers of R_i - R_j and R_k - R_l *)
  Definition rpow (m : mono) : R :=
    kpow A m (CI, CJ) 0 0 * kpow A m (CI, CJ) 0 1 * kpow A m (CI, CJ) 0 2 *
    (kpow A m (CK, CL) 3 0 * kpow A m (CK, CL) 3 1 * kpow A m (CK, CL) 3 2).

  (** one electron in the field of a centre at [C] *)
  Definition term1 (op : coul) (C : Z -> R) (m : mono) (v : R) : Prop := exists V,
    coul1 op C (fun ax x => fun_at m ax CI x * fun_at m ax CJ x) V /\ v = rpow m * V.
  (** two electrons *)
  Definition term2 (op : coul) (m : mono) (v : R) : Prop := exists V,
    coul2 op (fun ax x y => fun_at m ax CI x * fun_at m ax CJ x * (fun_at m ax CK y * fun_at m ax CL y)) V /\ v = rpow m * V.
End Value.

(** the value of a combination, from the values of its terms *)
Inductive value (tv : mono -> R -> Prop) : poly -> C -> Prop :=
| value_nil : value tv [] (RtoC 0)
| value_cons c m q v w : tv m v -> value tv q w -> value tv ((c, m) :: q) (cval c * RtoC v + w)%C.

(** number of letters of a term *)
Definition letters (m : mono) : nat := list_sum (map (@length prim) (m_w m)).
