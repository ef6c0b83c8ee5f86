(** CtrSpec.v — specification vocabulary for the contraction step. *)
From Verif Require Import Base BasSpec.

(** Columns of primitive [p] with a non-zero coefficient in increasing order,
    followed by those with a zero coefficient in increasing order. *)
Definition sorted_row {F} (isz : F -> bool) (cf : Z -> Z -> F) (nctr p : Z) : list Z :=
  filter (fun j => negb (isz (cf j p))) (zseq nctr) ++ filter (fun j => isz (cf j p)) (zseq nctr).
