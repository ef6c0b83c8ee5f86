(** FblasSpec.v — matrices stored in arrays, column-major (element (i,j) of a
    matrix with leading dimension ld is cell i + ld*j). *)
From Verif Require Import Base.

(** [holds a ld r c M]: array [a] stores the r x c matrix [M]. *)
Definition holds {F} (a : arr F) (ld r c : Z) (M : Z -> Z -> F) : Prop :=
  forall i j, 0 <= i < r -> 0 <= j < c -> rd a (i + ld * j) = Some (M i j).

(** [stored_exactly a0 a ld r c M]: compared with [a0], [a] stores the matrix [M]
    and is unchanged everywhere outside the r x c block. *)
Definition stored_exactly {F} (a0 a : arr F) (ld r c : Z) (M : Z -> Z -> F) : Prop :=
  asize a = asize a0 /\ holds a ld r c M /\
  (forall x, (forall i j, 0 <= i < r -> 0 <= j < c -> x <> i + ld * j) -> acell a x = acell a0 x).

(** Matrix product, inner sum taken left to right from zero. *)
Definition prod {F} (zero : F) (add mul : F -> F -> F) (k : Z) (A B : Z -> Z -> F) (i j : Z) : F :=
  lsum zero add k (fun p => mul (A i p) (B p j)).
