(** IdxSpec.v — what an index table must contain. *)
From Verif Require Import Base BasSpec.

(** Exponent of direction [d] (0 = x, 1 = y, 2 = z) of a Cartesian component. *)
Definition coord (d : Z) (t : triple) : Z :=
  let '(x, y, z) := t in if d =? 0 then x else if d =? 1 then y else z.

(** A 1D-integral array holds, for direction [d] and root [r], the integral with
    exponents [i j k l] at this address. *)
Definition cell (gsize si sj sk sl d r i j k l : Z) : Z :=
  d * gsize + r + si * i + sk * k + sl * l + sj * j.

(** [idx] stores the 2-index table: the pair (i,j) is entry j*nfi+i. *)
Definition table2 (idx : arr Z) (li lj gsize si sj : Z) : Prop :=
  forall (i j : nat) ti tj d,
    nth_error (cart_list li) i = Some ti -> nth_error (cart_list lj) j = Some tj -> 0 <= d < 3 ->
    rd idx (3 * (Z.of_nat j * Z.of_nat (length (cart_list li)) + Z.of_nat i) + d) =
      Some (cell gsize si sj 0 0 d 0 (coord d ti) (coord d tj) 0 0).

(** The 4-index table: (i,j,k,l) is entry ((j*nfl+l)*nfk+k)*nfi+i. *)
Definition table4 (idx : arr Z) (li lj lk ll gsize si sj sk sl : Z) : Prop :=
  forall (i j k l : nat) ti tj tk tl d,
    nth_error (cart_list li) i = Some ti -> nth_error (cart_list lj) j = Some tj ->
    nth_error (cart_list lk) k = Some tk -> nth_error (cart_list ll) l = Some tl -> 0 <= d < 3 ->
    rd idx (3 * (((Z.of_nat j * Z.of_nat (length (cart_list ll)) + Z.of_nat l)
                 * Z.of_nat (length (cart_list lk)) + Z.of_nat k)
                 * Z.of_nat (length (cart_list li)) + Z.of_nat i) + d) =
      Some (cell gsize si sj sk sl d 0 (coord d ti) (coord d tj) (coord d tk) (coord d tl)).

(** The 3-index table of g3c1e.c: (i,j,k) is entry (k*nfj+j)*nfi+i. *)
Definition table3 (idx : arr Z) (li lj lk gsize si sj sk : Z) : Prop :=
  forall (i j k : nat) ti tj tk d,
    nth_error (cart_list li) i = Some ti -> nth_error (cart_list lj) j = Some tj ->
    nth_error (cart_list lk) k = Some tk -> 0 <= d < 3 ->
    rd idx (3 * ((Z.of_nat k * Z.of_nat (length (cart_list lj)) + Z.of_nat j)
                 * Z.of_nat (length (cart_list li)) + Z.of_nat i) + d) =
      Some (cell gsize si sj sk 0 d 0 (coord d ti) (coord d tj) (coord d tk) 0).

(** A layout is sound if, for exponents up to the given maxima and roots below
    [nr], every address lies in its own third of [0, 3*gsize) and different
    (direction, root, exponents) have different addresses. *)
Definition layout_ok (gsize si sj sk sl nr im jm km lm : Z) : Prop :=
  (forall d r i j k l, 0 <= d < 3 -> 0 <= r < nr -> 0 <= i <= im -> 0 <= j <= jm ->
     0 <= k <= km -> 0 <= l <= lm ->
     d * gsize <= cell gsize si sj sk sl d r i j k l < (d + 1) * gsize) /\
  (forall d r i j k l d' r' i' j' k' l',
     0 <= d < 3 -> 0 <= r < nr -> 0 <= i <= im -> 0 <= j <= jm -> 0 <= k <= km -> 0 <= l <= lm ->
     0 <= d' < 3 -> 0 <= r' < nr -> 0 <= i' <= im -> 0 <= j' <= jm -> 0 <= k' <= km -> 0 <= l' <= lm ->
     cell gsize si sj sk sl d r i j k l = cell gsize si sj sk sl d' r' i' j' k' l' ->
     d = d' /\ r = r' /\ i = i' /\ j = j' /\ k = k' /\ l = l').
