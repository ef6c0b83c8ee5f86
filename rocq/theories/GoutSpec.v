(** GoutSpec.v — what a primitive batch must contain. *)
From Verif Require Import Base BasSpec IdxSpec.

Section Spec.
  Context {F : Type} (zero : F) (add mul : F -> F -> F).

  (** Entry after the call: the sum, or the old entry plus the sum. *)
  Definition accum (empty : bool) (old : option F) (s : F) : option F :=
    if empty then Some s else match old with Some v => Some (add v s) | None => None end.

  (** Sum over roots of the product of the x, y and z entries. *)
  Definition root_prod (nr : Z) (X : Z -> Z -> F) : F :=
    lsum zero add nr (fun r => mul (mul (X 0 r) (X 1 r)) (X 2 r)).

  (** [g] holds V(d, r, i, j, k, l) for all exponents up to the shells' angular momenta. *)
  Definition cells4 (g : arr F) (gsize si sj sk sl nr li lj lk ll : Z) (V : Z -> Z -> Z -> Z -> Z -> Z -> F) : Prop :=
    forall d r i j k l, 0 <= d < 3 -> 0 <= r < nr -> 0 <= i <= li -> 0 <= j <= lj -> 0 <= k <= lk -> 0 <= l <= ll ->
      rd g (cell gsize si sj sk sl d r i j k l) = Some (V d r i j k l).

  (** [gout] holds, for every quadruple of Cartesian components, the accumulated root sum. *)
  Definition batch4 (gout gout' : arr F) (empty : bool) (nr li lj lk ll : Z) (V : Z -> Z -> Z -> Z -> Z -> Z -> F) : Prop :=
    forall (i j k l : nat) ti tj tk tl,
      nth_error (cart_list li) i = Some ti -> nth_error (cart_list lj) j = Some tj ->
      nth_error (cart_list lk) k = Some tk -> nth_error (cart_list ll) l = Some tl ->
      let n := ((Z.of_nat j * Z.of_nat (length (cart_list ll)) + Z.of_nat l)
                 * Z.of_nat (length (cart_list lk)) + Z.of_nat k)
                 * Z.of_nat (length (cart_list li)) + Z.of_nat i in
      rd gout' n = accum empty (rd gout n)
        (root_prod nr (fun d r => V d r (coord d ti) (coord d tj) (coord d tk) (coord d tl))).

  (** The same for two shells. *)
  Definition batch2 (gout gout' : arr F) (empty : bool) (nr li lj : Z) (V : Z -> Z -> Z -> Z -> F) : Prop :=
    forall (i j : nat) ti tj,
      nth_error (cart_list li) i = Some ti -> nth_error (cart_list lj) j = Some tj ->
      let n := Z.of_nat j * Z.of_nat (length (cart_list li)) + Z.of_nat i in
      rd gout' n = accum empty (rd gout n)
        (root_prod nr (fun d r => V d r (coord d ti) (coord d tj))).
  Definition cells2 (g : arr F) (gsize si sj nr li lj : Z) (V : Z -> Z -> Z -> Z -> F) : Prop :=
    forall d r i j, 0 <= d < 3 -> 0 <= r < nr -> 0 <= i <= li -> 0 <= j <= lj ->
      rd g (cell gsize si sj 0 0 d r i j 0 0) = Some (V d r i j).

  (** Grid points: entry ig + bgrids*n, roots at distance 104. *)
  Definition batch_grids (gout gout' : arr F) (empty : bool) (bg nr li lj : Z) (V : Z -> Z -> Z -> Z -> Z -> F) : Prop :=
    forall (i j : nat) ti tj ig,
      nth_error (cart_list li) i = Some ti -> nth_error (cart_list lj) j = Some tj -> 0 <= ig < bg ->
      let n := ig + bg * (Z.of_nat j * Z.of_nat (length (cart_list li)) + Z.of_nat i) in
      rd gout' n = accum empty (rd gout n)
        (root_prod nr (fun d r => V d r ig (coord d ti) (coord d tj))).
End Spec.
