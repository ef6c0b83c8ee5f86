(** SpinorSpec.v — what Cartesian-to-spinor transformation means.

    Complex numbers are pairs (real part, imaginary part) over an arbitrary ring. *)
From Verif Require Import Base OutSpec.

Section Cplx.
  Context {F : Type} (zero one : F) (add mul sub : F -> F -> F) (opp : F -> F).
  Definition cplx : Type := F * F.
  Definition c0 : cplx := (zero, zero).
  Definition c1 : cplx := (one, zero).
  Definition ci : cplx := (zero, one).
  Definition cre (x : F) : cplx := (x, zero).
  Definition cadd (a b : cplx) : cplx := (add (fst a) (fst b), add (snd a) (snd b)).
  Definition copp (a : cplx) : cplx := (opp (fst a), opp (snd a)).
  Definition cmul (a b : cplx) : cplx :=
    (sub (mul (fst a) (fst b)) (mul (snd a) (snd b)), add (mul (fst a) (snd b)) (mul (snd a) (fst b))).
  Definition conj (a : cplx) : cplx := (fst a, opp (snd a)).
  Definition csum (n : Z) (f : Z -> cplx) : cplx := lsum c0 cadd n f.

  (** ** Two-component operators
      Pauli matrices; spin index 0 is alpha, 1 is beta. *)
  Definition one2 (s t : Z) : cplx := if s =? t then c1 else c0.
  Definition sigma_x (s t : Z) : cplx := if s =? t then c0 else c1.
  Definition sigma_y (s t : Z) : cplx := if s =? t then c0 else if s =? 0 then copp ci else ci.
  Definition sigma_z (s t : Z) : cplx := if s =? t then if s =? 0 then c1 else copp c1 else c0.

  (** the four components of one integral: the vector part and the scalar part *)
  Record comps := mkcomps { op_x : cplx; op_y : cplx; op_z : cplx; op_1 : cplx }.
  (** a + i (sigma . x) *)
  Definition spin_op (v : comps) (s t : Z) : cplx :=
    cadd (cmul (one2 s t) (op_1 v))
      (cmul ci (cadd (cadd (cmul (sigma_x s t) (op_x v)) (cmul (sigma_y s t) (op_y v)))
                     (cmul (sigma_z s t) (op_z v)))).
  (** spin-free: the scalar part alone *)
  Definition scalar (a : cplx) : comps := mkcomps c0 c0 c0 a.

  (** ** Spinor coefficients
      The tables list, shell by shell, the rows for j = l - 1/2 (2l of them) and then those
      for j = l + 1/2 (2l + 2), each row having the alpha and then the beta coefficients of
      the Cartesian components.  kappa < 0 selects j = l + 1/2, kappa > 0 j = l - 1/2,
      kappa = 0 both. *)
  Context (tR tI : Z -> F).
  Definition ncart (l : Z) : Z := (l + 1) * (l + 2) / 2.
  Definition nspinor (kappa l : Z) : Z :=
    if kappa <? 0 then 2 * l + 2 else if 0 <? kappa then 2 * l else 4 * l + 2.
  Definition shell_start (l : Z) : Z := Zsum l (fun k => (4 * k + 2) * (2 * ncart k)).
  Definition spinor_start (kappa l : Z) : Z :=
    shell_start l + (if kappa <? 0 then 2 * l * (2 * ncart l) else 0).
  (** coefficient of Cartesian component n with spin s in spinor i *)
  Definition Cj (kappa l i s n : Z) : cplx :=
    let q := spinor_start kappa l + i * (2 * ncart l) + s * ncart l + n in (tR q, tI q).

  (** ** The transforms
      Bra: row vector of conjugated coefficients times the two-component matrix. *)
  Definition bra_spinor (kappa l i t : Z) (v : Z -> comps) : cplx :=
    csum (ncart l) (fun n => csum 2 (fun s => cmul (conj (Cj kappa l i s n)) (spin_op (v n) s t))).
  (** Ket: two-component row vector times the coefficients. *)
  Definition ket_spinor (kappa l i : Z) (v : Z -> Z -> cplx) : cplx :=
    csum (ncart l) (fun n => csum 2 (fun t => cmul (v t n) (Cj kappa l i t n))).
  Definition with_phase (phase : bool) (a : cplx) : cplx := if phase then cmul ci a else a.

  (** one pair of shells: <i| a + i sigma.x |j>; [v a b] are the Cartesian integrals *)
  Definition spinor_pair (kpi li kpj lj mi mj : Z) (v : Z -> Z -> comps) : cplx :=
    ket_spinor kpj lj mj (fun t b => bra_spinor kpi li mi t (fun a => v a b)).

  (** the components an operator uses: all four, or the first alone as scalar part *)
  Definition cpick (spin : bool) (B : Z -> cplx) : comps :=
    if spin then mkcomps (B 0) (B 1) (B 2) (B 3) else scalar (B 0).

  (** ** Elements of the spinor output, from the contracted batch [x]
      Contracted index I of a shell with d spinors per contraction is contraction I / d,
      spinor I mod d.  [e1], [e2]: components per electron stored in the batch. *)
  Definition spinor_1e (spin phase : bool) (kpi li kpj lj : Z) (x : Z -> F) (ni nj e1 n I J : Z) : cplx :=
    let di := nspinor kpi li in let dj := nspinor kpj lj in
    with_phase phase (spinor_pair kpi li kpj lj (I mod di) (J mod dj) (fun a b => cpick spin (fun c =>
      cre (batch2 x (ncart li * ncart lj) ni nj (n * e1 + c) (I / di) (J / dj) (b * ncart li + a))))).
  Definition spinor_grid (spin phase : bool) (kpi li kpj lj : Z) (x : Z -> F) (ni nj N B e1 n g I J : Z) : cplx :=
    let di := nspinor kpi li in let dj := nspinor kpj lj in
    with_phase phase (spinor_pair kpi li kpj lj (I mod di) (J mod dj) (fun a b => cpick spin (fun c =>
      cre (batch_grid x (ncart li * ncart lj) ni nj N B (n * e1 + c) (I / di) (J / dj) g
             ((b * ncart li + a) * Z.min (N - g / B * B) B + g mod B))))).
  (** third index Cartesian *)
  Definition spinor_ssc (spin phase : bool) (kpi li kpj lj lk : Z) (x : Z -> F) (ni nj nk e1 n I J K : Z) : cplx :=
    let di := nspinor kpi li in let dj := nspinor kpj lj in
    with_phase phase (spinor_pair kpi li kpj lj (I mod di) (J mod dj) (fun a b => cpick spin (fun c =>
      cre (batch3 x (ncart li * ncart lk * ncart lj) ni nj nk (n * e1 + c) (I / di) (J / dj) (K / ncart lk)
             ((b * ncart lk + K mod ncart lk) * ncart li + a))))).
  (** third index spherical; [coef], [off] are the spherical coefficient table *)
  Definition spinor_3c (coef : Z -> F) (off : Z -> Z) (spin phase : bool) (kpi li kpj lj lk : Z) (x : Z -> F)
      (ni nj nk e1 n I J K : Z) : cplx :=
    let di := nspinor kpi li in let dj := nspinor kpj lj in let dk := 2 * lk + 1 in
    with_phase phase (spinor_pair kpi li kpj lj (I mod di) (J mod dj) (fun a b => cpick spin (fun c =>
      cre (apply_T zero add mul coef off ncart lk (K mod dk) (fun k =>
        batch3 x (ncart li * ncart lk * ncart lj) ni nj nk (n * e1 + c) (I / di) (J / dj) (K / dk)
             ((b * ncart lk + k) * ncart li + a)))))).
  Definition spinor_2e (s1 p1 s2 p2 : bool) (kpi li kpj lj kpk lk kpl ll : Z) (x : Z -> F)
      (ni nj nk nl e1 e2 n I J K L : Z) : cplx :=
    let di := nspinor kpi li in let dj := nspinor kpj lj in
    let dk := nspinor kpk lk in let dl := nspinor kpl ll in
    with_phase p2 (spinor_pair kpk lk kpl ll (K mod dk) (L mod dl) (fun c d => cpick s2 (fun m2 =>
      with_phase p1 (spinor_pair kpi li kpj lj (I mod di) (J mod dj) (fun a b => cpick s1 (fun m1 =>
        cre (batch4 x (ncart li * ncart lk * ncart ll * ncart lj) ni nj nk nl ((n * e2 + m2) * e1 + m1)
               (I / di) (J / dj) (K / dk) (L / dl)
               (((b * ncart ll + d) * ncart lk + c) * ncart li + a)))))))).

  (** A complex array is an array of doubles: the value of cell 2q is the real part and of
      cell 2q+1 the imaginary part.  [part r] selects. *)
  Definition part (r : Z) (a : cplx) : F := if r =? 0 then fst a else snd a.

  (** After a transform the two arrays hold the real and imaginary parts of [f], indices from
      slowest to fastest, and nothing else in them has changed. *)
  Definition holds4 (R0 I0 R I : arr F) (n1 n2 n3 n4 : Z) (f : Z -> Z -> Z -> Z -> cplx) : Prop :=
    asize R = asize R0 /\ asize I = asize I0 /\
    (forall a b c d, 0 <= a < n1 -> 0 <= b < n2 -> 0 <= c < n3 -> 0 <= d < n4 ->
       acell R (((a * n2 + b) * n3 + c) * n4 + d) = Some (fst (f a b c d)) /\
       acell I (((a * n2 + b) * n3 + c) * n4 + d) = Some (snd (f a b c d))) /\
    (forall x, ~ 0 <= x < n1 * n2 * n3 * n4 -> acell R x = acell R0 x /\ acell I x = acell I0 x).

  (** Two arrays holding real and imaginary parts of the same complex numbers. *)
  Definition reads2 (R I : arr F) (n : Z) (f : Z -> cplx) : Prop :=
    reads R n (fun q => fst (f q)) /\ reads I n (fun q => snd (f q)).
End Cplx.
