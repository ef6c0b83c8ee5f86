(** LoopSpec.v — what a primitive loop has to compute. *)
From Verif Require Import Base BasSpec CtrModel.

Section LoopSpec.
  Context {F : Type} (zero : F) (add mul : F -> F -> F).

  (** [coeffs c np nctr cf]: the coefficient array [c] holds the matrix [cf]
      (contraction, primitive). *)
  Definition coeffs (c : arr F) (np nctr : Z) (cf : Z -> Z -> F) : Prop :=
    0 <= np /\ 1 <= nctr /\
    forall ic p, 0 <= ic < nctr -> 0 <= p < np -> rd c (np * ic + p) = Some (cf ic p).

  (** The caller's buffer (number 5) and "empty" flag (number 5) before a loop: a
      cleared flag means that the buffer already holds the values [T] (row [r],
      component [c] at [c*rows + r]).  [rows] = nf * number of contractions. *)
  Definition caller_holds (m : mem F) (rows n_comp : Z) (T : Z -> Z -> F) : Prop :=
    rows * n_comp <= asize (buf m 5%nat) /\
    (flg m 5%nat = false -> forall r c, 0 <= r < rows -> 0 <= c < n_comp ->
       rd (buf m 5%nat) (c * rows + r) = Some (T r c)).

  (** Effect of a loop: [V r c] has been added (stored, if the flag was set);
      [any] = some primitive contributed. *)
  Definition accumulated (m m' : mem F) (rows n_comp : Z) (any : Prop) (T V : Z -> Z -> F) : Prop :=
    (flg m' 5%nat = false <-> flg m 5%nat = false \/ any) /\
    asize (buf m' 5%nat) = asize (buf m 5%nat) /\
    (forall x, ~ (0 <= x < rows * n_comp) -> acell (buf m' 5%nat) x = acell (buf m 5%nat) x) /\
    (flg m' 5%nat = false ->
      forall r c, 0 <= r < rows -> 0 <= c < n_comp ->
        rd (buf m' 5%nat) (c * rows + r) =
          Some (if flg m 5%nat then V r c else add (T r c) (V r c))).

  (** Scratch buffers [need] (number, length) are large enough. *)
  Definition fits (m : mem F) (need : list (nat * Z)) : Prop :=
    forall t n, In (t, n) need -> n <= asize (buf m t).
  Definition needs (c : bool) (t : nat) (n : Z) : list (nat * Z) := if c then [(t, n)] else [].

  (** Contraction of four shells: sum over all primitive quartets that are kept. *)
  Definition contract4 (npi npj npk npl : Z) (keep : Z -> Z -> Z -> Z -> bool)
      (cfi cfj cfk cfl : Z -> Z -> F) (val : Z -> Z -> Z -> Z -> Z -> F)
      (ic jc kc lc x : Z) : F :=
    lsum zero add npl (fun lp => lsum zero add npk (fun kp =>
    lsum zero add npj (fun jp => lsum zero add npi (fun ip =>
      if keep ip jp kp lp
      then mul (mul (mul (mul (cfl lc lp) (cfk kc kp)) (cfj jc jp)) (cfi ic ip)) (val ip jp kp lp x)
      else zero)))).
  Definition some4 (npi npj npk npl : Z) (keep : Z -> Z -> Z -> Z -> bool) : Prop :=
    exists ip jp kp lp, 0 <= ip < npi /\ 0 <= jp < npj /\ 0 <= kp < npk /\ 0 <= lp < npl /\
                        keep ip jp kp lp = true.

  (** The value at row [r], component [c] of a four-index batch: rows run over the
      Cartesian function [n], then the contractions of i, j, k, l. *)
  Definition batch4 (npi npj npk npl : Z) (keep : Z -> Z -> Z -> Z -> bool)
      (cfi cfj cfk cfl : Z -> Z -> F) (val : Z -> Z -> Z -> Z -> Z -> F) (common : F)
      (nf n_comp ci cj ck : Z) (r c : Z) : F :=
    mul common (contract4 npi npj npk npl keep cfi cfj cfk cfl val
      ((r / nf) mod ci) ((r / (nf * ci)) mod cj) ((r / (nf * ci * cj)) mod ck) (r / (nf * ci * cj * ck))
      ((r mod nf) * n_comp + c)).

  Definition contract3 (npi npj npk : Z) (keep : Z -> Z -> Z -> bool)
      (cfi cfj cfk : Z -> Z -> F) (val : Z -> Z -> Z -> Z -> F) (ic jc kc x : Z) : F :=
    lsum zero add npk (fun kp => lsum zero add npj (fun jp => lsum zero add npi (fun ip =>
      if keep ip jp kp
      then mul (mul (mul (cfk kc kp) (cfj jc jp)) (cfi ic ip)) (val ip jp kp x) else zero))).
  Definition some3 (npi npj npk : Z) (keep : Z -> Z -> Z -> bool) : Prop :=
    exists ip jp kp, 0 <= ip < npi /\ 0 <= jp < npj /\ 0 <= kp < npk /\ keep ip jp kp = true.

  Definition contract2 (npi npj : Z) (keep : Z -> Z -> bool)
      (cfi cfj : Z -> Z -> F) (val : Z -> Z -> Z -> F) (ic jc x : Z) : F :=
    lsum zero add npj (fun jp => lsum zero add npi (fun ip =>
      if keep ip jp then mul (mul (cfj jc jp) (cfi ic ip)) (val ip jp x) else zero)).
  Definition some2 (npi npj : Z) (keep : Z -> Z -> bool) : Prop :=
    exists ip jp, 0 <= ip < npi /\ 0 <= jp < npj /\ keep ip jp = true.

  (** Row [r], component [c] of three- and two-index batches. *)
  Definition batch3 (npi npj npk : Z) (keep : Z -> Z -> Z -> bool)
      (cfi cfj cfk : Z -> Z -> F) (val : Z -> Z -> Z -> Z -> F) (common : F)
      (nf n_comp ci cj : Z) (r c : Z) : F :=
    mul common (contract3 npi npj npk keep cfi cfj cfk val
      ((r / nf) mod ci) ((r / (nf * ci)) mod cj) (r / (nf * ci * cj)) ((r mod nf) * n_comp + c)).
  Definition batch2 (npi npj : Z) (keep : Z -> Z -> bool)
      (cfi cfj : Z -> Z -> F) (val : Z -> Z -> Z -> F) (common : F)
      (nf n_comp ci : Z) (r c : Z) : F :=
    mul common (contract2 npi npj keep cfi cfj val ((r / nf) mod ci) (r / (nf * ci)) ((r mod nf) * n_comp + c)).

  (** Effect of a loop that never adds to the caller's batch: the batch [V] is stored
      and 1 returned iff some primitive contributed. *)
  Definition produced (m m' : mem F) (ret : bool) (rows n_comp : Z) (any : Prop) (V : Z -> Z -> F) : Prop :=
    (ret = true <-> any) /\
    asize (buf m' 5%nat) = asize (buf m 5%nat) /\
    (forall x, ~ (0 <= x < rows * n_comp) -> acell (buf m' 5%nat) x = acell (buf m 5%nat) x) /\
    (ret = true -> forall r c, 0 <= r < rows -> 0 <= c < n_comp ->
       rd (buf m' 5%nat) (c * rows + r) = Some (V r c)).
End LoopSpec.
