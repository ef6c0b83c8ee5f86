(** CacheSpec.v — what it means for a layout to stay inside the scratch buffer. *)
From Verif Require Import Base CacheModel.

(** The buffer: [size] doubles from byte address [base] on, a multiple of 8 (it is an
    array of doubles). *)
Definition inside (base size : Z) (b : block) : Prop :=
  base <= b_at b /\ 0 <= b_len b /\ b_at b + b_len b <= base + 8 * size.

Definition apart (a b : block) : Prop :=
  b_at a + b_len a <= b_at b \/ b_at b + b_len b <= b_at a.

(** All blocks are inside, aligned for doubles, and no two overlap. *)
Definition safe (base size : Z) (bs : list block) : Prop :=
  Forall (fun b => inside base size b /\ b_at b mod 8 = 0) bs /\ ForallOrdPairs apart bs.

(** Buffer [t] with [n] doubles, for every entry of [need], is among the blocks. *)
Definition provides (bs : list block) (need : list (nat * Z)) : Prop :=
  forall t n, In (t, n) need -> exists b, In b bs /\ b_tag b = t /\ b_len b = 8 * n.
