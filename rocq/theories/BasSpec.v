(** BasSpec.v — what users mean by a basis: a list of shells. *)
From Verif Require Import Base.

Record shell := mkshell { sh_l : Z; sh_nprim : Z; sh_nctr : Z; sh_kappa : Z }.

(** Functions of one contraction. *)
Definition cart_fns (s : shell) : Z := (sh_l s + 1) * (sh_l s + 2) / 2.
Definition sph_fns (s : shell) : Z := 2 * sh_l s + 1.
Definition spinor_fns (s : shell) : Z :=
  match sh_kappa s with
  | Z0 => 4 * sh_l s + 2
  | Zneg _ => 2 * sh_l s + 2
  | Zpos _ => 2 * sh_l s
  end.

Fixpoint total (f : shell -> Z) (b : list shell) : Z :=
  match b with [] => 0 | s :: b' => f s + total f b' end.

(** The integer table [bas] (8 slots per shell: angular momentum in slot 1,
    primitives in slot 2, contractions in slot 3, kappa in slot 4) stores [b]. *)
Definition stores (bas : arr Z) (b : list shell) : Prop :=
  forall i s, nth_error b i = Some s ->
    rd bas (8 * Z.of_nat i + 1) = Some (sh_l s) /\
    rd bas (8 * Z.of_nat i + 2) = Some (sh_nprim s) /\
    rd bas (8 * Z.of_nat i + 3) = Some (sh_nctr s) /\
    rd bas (8 * Z.of_nat i + 4) = Some (sh_kappa s).

(** Cartesian exponent triples. *)
Definition triple : Type := (Z * Z * Z)%type.
Definition degree (t : triple) : Z := let '(x, y, z) := t in x + y + z.
Definition nonneg (t : triple) : Prop := let '(x, y, z) := t in 0 <= x /\ 0 <= y /\ 0 <= z.
(** decreasing lexicographic order *)
Definition lexgt (t u : triple) : Prop :=
  let '(x, y, z) := t in let '(x', y', z') := u in
  x > x' \/ (x = x' /\ (y > y' \/ (y = y' /\ z > z'))).

(** The list of Cartesian components of a shell in the library's documented
    order (x-exponent first, decreasing). *)
Definition zseq (n : Z) : list Z := map Z.of_nat (seq 0 (Z.to_nat n)).
Definition cart_list (l : Z) : list triple :=
  flat_map (fun t => map (fun lz => (l - t, t - lz, lz)) (zseq (t + 1))) (zseq (l + 1)).
