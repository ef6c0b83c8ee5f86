(** WholeOptSpec.v — vocabulary for the theorems about the two-electron drivers with optimizer. *)
From Coq Require Import Reals.
From Verif Require Import Base BasSpec EnvModel OptModel OptSpec OptPair ScreenSpec.
Local Open Scope Z_scope.

(** polynomial degree in the size estimate of the shell pair i, j: pair data stored in the optimizer count the larger of the
    operator's two increments for every pair; pair data built by the loop count the pair's own degree [own] *)
Definition pair_degree (V : view) (ng : ngT) (stored : bool) (i j own : Z) : Z :=
  if stored then v_l V i + v_l V j + Z.max (IINC ng + JINC ng) (KINC ng + LINC ng) else own.

(** Sizes of the work buffers 0..4 of the loop that a contraction pattern selects; L numbers per primitive quartet, nc
    components: gout, partly contracted batches and, for several components, the batch before the transposition. *)
Definition special_scratch (sz : nat -> Z) (L total nc : Z) (own : nat) : Prop := L <= sz 0%nat /\ (nc <> 1 -> total <= sz own).
Definition opt_scratch4 (sz : nat -> Z) (L nc ci cj ck cl : Z) : Prop :=
  let total := L * ci * cj * ck * cl in
  match ci =? 1, cj =? 1, ck =? 1, cl =? 1 with
  | true, true, true, true => nc <> 1 -> total <= sz 0%nat
  | false, true, true, true => special_scratch sz L total nc 1
  | true, false, true, true => special_scratch sz L total nc 2
  | true, true, false, true => special_scratch sz L total nc 3
  | true, true, true, false => special_scratch sz L total nc 4
  | _, _, _, _ =>
      (ci <> 1 -> L <= sz 0%nat) /\ (cj <> 1 -> L * ci <= sz 1%nat) /\ (ck <> 1 -> L * ci * cj <= sz 2%nat) /\
      (cl <> 1 -> L * ci * cj * ck <= sz 3%nat) /\ (nc <> 1 -> total <= sz 4%nat)
  end.
(** the same for three shells *)
Definition opt_scratch3 (sz : nat -> Z) (L nc ci cj ck : Z) : Prop :=
  let total := L * ci * cj * ck in
  match ci =? 1, cj =? 1, ck =? 1 with
  | true, true, true => nc <> 1 -> total <= sz 0%nat
  | false, true, true => special_scratch sz L total nc 1
  | true, false, true => special_scratch sz L total nc 2
  | _, _, _ =>
      (ci <> 1 -> L <= sz 0%nat) /\ (cj <> 1 -> L * ci <= sz 1%nat) /\ (ck <> 1 -> L * ci * cj <= sz 2%nat) /\ (nc <> 1 -> total <= sz 3%nat)
  end.
