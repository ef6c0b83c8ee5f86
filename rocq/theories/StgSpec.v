(** StgSpec.v *)
From Coq Require Import Reals.
From Verif Require Import Base StgModel.
Local Open Scope R_scope.

(** The selection points at block (it, iu) of the 10 x 10 blocks of this root count, and both
    coordinates are Chebyshev coordinates of that block. *)
Definition inside_table (nroots : Z) (s : stg_sel) : Prop :=
  (0 <= sel_it s < 10)%Z /\ (0 <= sel_iu s < 10)%Z /\
  sel_base s = (19600 * (nroots * (nroots - 1) / 2))%Z /\
  sel_offset s = ((sel_it s * 10 + sel_iu s) * (nroots * 196))%Z /\
  (sel_offset s + nroots * 196 <= 100 * (nroots * 196))%Z /\
  -1 <= sel_t s <= 1 /\ -1 <= sel_u s <= 1.

(** ... and the second parameter lies in the decade the block was made for. *)
Definition right_decade (ua : R) (s : stg_sel) : Prop :=
  10 ^ Z.to_nat (sel_iu s) <= ua * 10 ^ 7 < 10 ^ Z.to_nat (sel_iu s + 1).
