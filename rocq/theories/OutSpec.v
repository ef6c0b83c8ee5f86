(** OutSpec.v — where the elements of an output block live.

    Element (i1,i2,i3,i4) of component n of a column-major array with extents
    n1 x n2 x n3 x n4 per component. *)
From Verif Require Import Base.

Definition place (n1 n2 n3 n4 n i1 i2 i3 i4 : Z) : Z :=
  (((n * n4 + i4) * n3 + i3) * n2 + i2) * n1 + i1.

(** Compared with [a0], array [a] holds [val n i1 i2 i3 i4] at the place of every
    element of the m1 x m2 x m3 x m4 block of every component, and every other cell
    has its old contents (including "never written"). *)
Definition stored_block {F} (a0 a : arr F) (ncomp n1 n2 n3 n4 m1 m2 m3 m4 : Z)
    (val : Z -> Z -> Z -> Z -> Z -> F) : Prop :=
  asize a = asize a0 /\
  (forall n i1 i2 i3 i4, 0 <= n < ncomp -> 0 <= i1 < m1 -> 0 <= i2 < m2 -> 0 <= i3 < m3 -> 0 <= i4 < m4 ->
     rd a (place n1 n2 n3 n4 n i1 i2 i3 i4) = Some (val n i1 i2 i3 i4)) /\
  (forall x, (forall n i1 i2 i3 i4, 0 <= n < ncomp -> 0 <= i1 < m1 -> 0 <= i2 < m2 -> 0 <= i3 < m3 -> 0 <= i4 < m4 ->
     x <> place n1 n2 n3 n4 n i1 i2 i3 i4) -> acell a x = acell a0 x).

(** Every element of the block has its place inside an array of [sz] cells.  (A block of a larger
    matrix, addressed through the pointer to its first element, needs no more than this.) *)
Definition room (sz ncomp n1 n2 n3 n4 m1 m2 m3 m4 : Z) : Prop :=
  forall n i1 i2 i3 i4, 0 <= n < ncomp -> 0 <= i1 < m1 -> 0 <= i2 < m2 -> 0 <= i3 < m3 -> 0 <= i4 < m4 ->
    place n1 n2 n3 n4 n i1 i2 i3 i4 < sz.

(** The first [n] cells of [a] hold the values [x]. *)
Definition reads {F} (a : arr F) (n : Z) (x : Z -> F) : Prop :=
  forall q, 0 <= q < n -> rd a q = Some (x q).

(** ** Transformation matrices
    Row m, column a of the matrix of shell l in a table of blocks: block l starts at
    [off l] and has rows of [nf l] entries. *)
Section Trans.
  Context {F : Type} (zero one : F) (add mul : F -> F -> F).
  Context (coef : Z -> F) (off nf : Z -> Z).

  Definition Tmat (l m a : Z) : F := coef (off l + m * nf l + a).

  (** matrix times vector *)
  Definition apply_T (l m : Z) (x : Z -> F) : F :=
    lsum zero add (nf l) (fun a => mul (Tmat l m a) (x a)).

  (** What the output routines rely on: s and p blocks are identity matrices (those
      transforms hand the input back) and a hand-written transform skips only zeros. *)
  Definition identity_block (l : Z) : Prop :=
    forall m a, 0 <= m < nf l -> 0 <= a < nf l -> Tmat l m a = if m =? a then one else zero.
  Definition skips_zeros (l : Z) (rows : list (list (Z * Z))) : Prop :=
    forall m r, nth_error rows m = Some r -> forall a, 0 <= a < nf l ->
      ~ In a (map snd r) -> Tmat l (Z.of_nat m) a = zero.

  (** One contracted block, [x] its Cartesian values with i running fastest, then k,
      then l, j slowest (the order the integral code stores them in): the spherical
      components are the tensor contraction with every shell's matrix. *)
  Definition sph_ij (li lj : Z) (x : Z -> F) (mi mj : Z) : F :=
    apply_T li mi (fun a => apply_T lj mj (fun b => x (b * nf li + a))).
  Definition sph_ijk (li lj lk : Z) (x : Z -> F) (mi mj mk : Z) : F :=
    apply_T li mi (fun a => apply_T lk mk (fun c => apply_T lj mj (fun b =>
      x ((b * nf lk + c) * nf li + a)))).
  Definition sph_ijkl (li lj lk ll : Z) (x : Z -> F) (mi mj mk ml : Z) : F :=
    apply_T li mi (fun a => apply_T lk mk (fun c => apply_T ll ml (fun d => apply_T lj mj (fun b =>
      x (((b * nf ll + d) * nf lk + c) * nf li + a))))).
  (** the same with k left Cartesian, and with [ng] grid points running fastest *)
  Definition sph_ssc (li lj lk : Z) (x : Z -> F) (mi mj c : Z) : F :=
    apply_T li mi (fun a => apply_T lj mj (fun b => x ((b * nf lk + c) * nf li + a))).
  Definition sph_grid (li lj ng : Z) (x : Z -> F) (mi mj g : Z) : F :=
    apply_T li mi (fun a => apply_T lj mj (fun b => x ((b * nf li + a) * ng + g))).
End Trans.

(** ** What the caller's dims array says
    NULL ([None]) means packed: the leading dimensions are the block's own. *)
Definition dims_are (dims : option (arr Z)) (k : nat) (n m : list Z) : Prop :=
  match dims with
  | None => n = m
  | Some d => forall i, (i < k)%nat -> rd d (Z.of_nat i) = Some (nth i n 0)
  end.

(** ** Elements of the contracted batch
    Contracted index I of a shell with d components per contraction is contraction
    I / d, component I mod d.  The batch stores, per tensor component and per
    contraction tuple, one Cartesian block of [f] values. *)
Section Elem.
  Context {F : Type}.
  Definition batch2 (x : Z -> F) (f ci cj : Z) (n ic jc q : Z) : F :=
    x (((n * cj + jc) * ci + ic) * f + q).
  Definition batch3 (x : Z -> F) (f ci cj ck : Z) (n ic jc kc q : Z) : F :=
    x ((((n * ck + kc) * cj + jc) * ci + ic) * f + q).
  Definition batch4 (x : Z -> F) (f ci cj ck cl : Z) (n ic jc kc lc q : Z) : F :=
    x (((((n * cl + lc) * ck + kc) * cj + jc) * ci + ic) * f + q).
  (** on [N] grid points stored in blocks of [B]: point g belongs to block g / B *)
  Definition batch_grid (x : Z -> F) (f ci cj N B : Z) (n ic jc g q : Z) : F :=
    let go := g / B * B in
    let bg := Z.min (N - go) B in
    x (n * (N * f * ci * cj) + go * f * ci * cj + bg * f * (jc * ci + ic) + q).

  (** Cartesian components: i fastest, then k, then l, then j *)
  Definition cart2 (x : Z -> F) (fi fj ci cj n I J : Z) : F :=
    batch2 x (fi * fj) ci cj n (I / fi) (J / fj) (J mod fj * fi + I mod fi).
  Definition cart3 (x : Z -> F) (fi fj fk ci cj ck n I J K : Z) : F :=
    batch3 x (fi * fk * fj) ci cj ck n (I / fi) (J / fj) (K / fk)
      ((J mod fj * fk + K mod fk) * fi + I mod fi).
  Definition cart4 (x : Z -> F) (fi fj fk fl ci cj ck cl n I J K L : Z) : F :=
    batch4 x (fi * fk * fl * fj) ci cj ck cl n (I / fi) (J / fj) (K / fk) (L / fl)
      (((J mod fj * fl + L mod fl) * fk + K mod fk) * fi + I mod fi).
  Definition cart_grid (x : Z -> F) (fi fj ci cj N B n g I J : Z) : F :=
    batch_grid x (fi * fj) ci cj N B n (I / fi) (J / fj) g
      ((J mod fj * fi + I mod fi) * Z.min (N - g / B * B) B + g mod B).
End Elem.
